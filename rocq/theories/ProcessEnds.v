(** Making a packet always ends. *)
From Verif Require Import Base Types Name Buffer Codec Cache Resolver.

Lemma bind_ends : forall A B (m : exec A) (k : A -> exec B), m <> Diverge -> (forall a, k a <> Diverge) -> bind m k <> Diverge.
Proof. intros A B [a|j|] k H Hk; cbn [bind]; [apply Hk|discriminate|congruence]. Qed.
Lemma assert_ends : forall A b (k : exec A), k <> Diverge -> assert_ b k <> Diverge.
Proof. intros A [] k H; cbn [assert_]; [exact H|discriminate]. Qed.
Lemma upd_ends : forall l i f, Buffer.upd l i f <> Diverge.
Proof. intros l i f. unfold Buffer.upd. destruct (nth_error l i); discriminate. Qed.
Lemma write_bits_ends : forall b x n, write_bits b x n <> Diverge.
Proof.
  intros b x n. unfold write_bits. apply assert_ends. cbv zeta. apply bind_ends; [|intros; discriminate].
  destruct (_ <=? _); repeat (apply bind_ends; [apply upd_ends|intros]); apply upd_ends.
Qed.
Lemma write_u16_ends : forall b x, write_u16 b x <> Diverge.
Proof. intros. apply bind_ends; [apply write_bits_ends|]. intros. apply write_bits_ends. Qed.
Lemma write_bytes_ends : forall l b, write_bytes b l <> Diverge.
Proof. induction l as [|x l IH]; intros b; [discriminate|]. cbn [write_bytes]. apply bind_ends; [apply write_bits_ends|]. intros. apply IH. Qed.
Definition endsM {A} (m : M A) : Prop := forall b, m b <> Diverge.
Lemma put_ends : forall w, (forall b, w b <> Diverge) -> endsM (put w).
Proof. intros w H b. apply bind_ends; [apply H|discriminate]. Qed.
Lemma seq_ends : forall A B (m : M A) (k : A -> M B), endsM m -> (forall a, endsM (k a)) -> endsM (bindM m k).
Proof. intros A B m k H Hk b. unfold bindM. apply bind_ends; [apply H|]. intros [[a|e] b']; [apply Hk|discriminate]. Qed.
Lemma header_ends : forall h, endsM (encode_header h).
Proof.
  intros h b. apply assert_ends. revert b. 
  repeat (apply seq_ends; [apply put_ends; intros; (apply write_u16_ends || apply write_bits_ends)|intros _]). apply put_ends. intros. apply write_u16_ends.
Qed.
Lemma name_ends : forall p n, name_to_bytes p n <> Diverge.
Proof. intros [] n; [apply assert_ends|]; discriminate. Qed.
Lemma question_ends : forall p q, endsM (encode_question p q).
Proof.
  intros p q b. apply assert_ends, assert_ends. unfold enc_name_bytes. apply bind_ends; [apply name_ends|]. intros w. revert b.
  apply seq_ends; [apply put_ends; intros; apply write_bytes_ends|]. intros _.
  apply seq_ends; [apply put_ends; intros; apply write_u16_ends|]. intros _. apply put_ends; intros; apply write_u16_ends.
Qed.
Lemma section_ends : forall A (enc : A -> M unit) mk items n i b, (forall x, endsM (enc x)) -> encode_section enc mk items i n b <> Diverge.
Proof.
  intros A enc mk items n. induction n as [|n IH]; intros i b H; [discriminate|]. cbn [encode_section]. apply bind_ends; [unfold index; destruct (nth_error items i); discriminate|].
  intros x. apply bind_ends; [apply H|]. intros [[u|e] b']; [now apply IH|discriminate].
Qed.
Lemma query_ends : forall p id node kind, encode_message p (build_dns_request id node kind) <> Diverge.
Proof.
  intros p id node kind. unfold encode_message, build_dns_request. cbn [m_header m_questions m_answers m_authorities m_additionals h_qd h_an h_ns h_ar].
  apply bind_ends; [apply header_ends|]. intros [u b]. apply bind_ends; [apply section_ends; apply question_ends|]. intros [b1|e]; [|discriminate].
  cbn [N.to_nat encode_section bindR bind]. discriminate.
Qed.
Lemma addrs_end : forall s, ns_addrs s <> Diverge.
Proof.
  intros s. unfold ns_addrs. induction (n_addrs s) as [|r rs IH]; [discriminate|]. cbn [ips]. apply bind_ends; [unfold a_data; destruct (r_data r); discriminate|].
  intros a. apply bind_ends; [exact IH|discriminate].
Qed.
