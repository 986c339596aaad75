(** Every record the decoder delivers can be put on the wire again; so the records that a
    lookup may meet form a class in the sense of ResolverSpec. *)
From Verif Require Import Base Buffer BufferSpec BufferProofs Reader Types Name NameSpec NameProofs NameDecode Codec CodecSpec CodecWrite CodecMessage CodecRead CodecSafe CodecFacts PropCodec1 PropCodec2 EncodeTotal NsSpec Cache Resolver ResolverSpec.

Lemma decoded_records : forall p l m, is_bytes l -> decode_message p l = Done (Ok m) -> Forall decoded_record (all_records m).
Proof.
  intros p l m Hl E. unfold decode_message in E. rewrite from_raw_at in E.
  destruct (decode_header (at_ l 0)) as [[[h|e] b0]|k|] eqn:Eh; cbn [bind] in E; try discriminate.
  apply decode_header_inv in Eh as (Hh & -> & Hrest); [|assumption].
  destruct (header_is_supported h) as [[]|e] eqn:Es; [|discriminate].
  assert (H96 : 96 <= 8 * length l).
  { destruct Hrest as (rest & ->). rewrite app_length, wire_header_length. lia. }
  pose proof (gen_section _ _ (p = Release) _ ME_Question _ (gen_question p (p = Release)) (N.to_nat (h_qd h)) 0 l 96 Hl H96) as GQ.
  destruct (decode_section (decode_question p) _ _ _ _) as [[[qs|e] b1]|k|]; cbn [bind] in E; try discriminate.
  destruct GQ as (r1 & -> & Hr1 & FQ & LQ).
  pose proof (gen_section _ _ (p = Release) _ ME_Answer _ (gen_record p) (N.to_nat (h_an h)) 0 l r1 Hl Hr1) as GA.
  destruct (decode_section (decode_record p) ME_Answer _ _ _) as [[[ans|e] b2]|k|]; cbn [bind] in E; try discriminate.
  destruct GA as (r2 & -> & Hr2 & FA & LA).
  pose proof (gen_section _ _ (p = Release) _ ME_Authority _ (gen_record p) (N.to_nat (h_ns h)) 0 l r2 Hl Hr2) as GN.
  destruct (decode_section (decode_record p) ME_Authority _ _ _) as [[[aus|e] b3]|k|]; cbn [bind] in E; try discriminate.
  destruct GN as (r3 & -> & Hr3 & FN & LN).
  pose proof (gen_section _ _ (p = Release) _ ME_Additional _ (gen_record p) (N.to_nat (h_ar h)) 0 l r3 Hl Hr3) as GX.
  destruct (decode_section (decode_record p) ME_Additional _ _ _) as [[[ads|e] b4]|k|]; cbn [bind] in E; try discriminate.
  destruct GX as (r4 & -> & Hr4 & FX & LX).
  injection E as <-. unfold all_records. cbn [m_answers m_authorities m_additionals].
  apply Forall_app. split; [exact FA|]. apply Forall_app. split; [exact FN|exact FX].
Qed.

Lemma good_accepted : forall n, good_name n -> accepted n.
Proof. intros n (ls & Hn & _). now exists ls. Qed.

Lemma decoded_plain : forall r, decoded_record r -> plain_record r.
Proof.
  intros r (H1 & H2 & H3 & _ & H5). apply good_accepted in H1. unfold plain_record, record_fine, short_strings.
  destruct (r_data r); cbn [decoded_data data_fine] in *; (split; [split; [exact H1|]; split; [exact H2|]; split; [exact H3|]|]); try exact I; try (now apply good_accepted).
  - exact H5.
  - destruct H5 as (A & B & C). split; [now apply good_accepted|]. split; [now apply good_accepted|exact C].
  - destruct H5 as (A & B & C & ->). repeat split; try assumption. constructor.
  - destruct H5 as ((A1 & A2 & A3) & (B1 & B2 & B3)). now split.
  - destruct H5 as ((A1 & A2 & A3) & (B1 & B2 & B3)). now split.
  - destruct H5 as (A & B). split; [exact A|now apply good_accepted].
  - eapply Forall_impl; [|exact H5]. intros s (A & B & C). exact A.
  - eapply Forall_impl; [|exact H5]. intros s (A & B & C). exact B.
Qed.

Lemma firstn_bytes : forall n d, is_bytes d -> is_bytes (firstn n d).
Proof. intros n d H. unfold is_bytes in *. rewrite Forall_forall in *. intros x Hx. apply H. rewrite <- (firstn_skipn n d). apply in_or_app. now left. Qed.

Lemma root_accepted : accepted [46%N].
Proof. apply validate_name_ok. vm_compute. reflexivity. Qed.
Lemma checked_accepted : forall n, validate_name n = Ok tt -> accepted n.
Proof. intros n H. now apply validate_name_ok. Qed.

Theorem plain_is_a_class : forall p env, (forall n a x d, ev_net (env n) a x = Some d -> is_bytes d) -> class_ok p env plain_record.
Proof.
  intros p env Hb. split.
  - intros r ((H1 & H2 & H3 & H4) & _). split; [exact H1|]. split; [exact H3|]. destruct (r_data r); try exact I; exact H4.
  - intros r t ((H1 & H2 & H3 & H4) & H5) Ht. split; [|exact H5]. split; [exact H1|]. split; [exact H2|]. split; [exact Ht|exact H4].
  - apply Forall_map. unfold plain_record, record_fine. cbn [n_rec n_addrs r_node r_class r_ttl r_data data_fine short_strings].
    assert (G : Forall (fun x : list N * list N => accepted (fst x) /\ address_ok (snd x)) ROOT_SERVERS).
    { unfold ROOT_SERVERS. repeat constructor; cbn [fst snd]; try (apply checked_accepted; vm_compute; reflexivity); unfold address_ok, is_bytes, is_byte; try lia. }
    eapply Forall_impl; [|exact G]. intros x (A & B). pose proof root_accepted as R. split.
    + repeat split; try assumption; reflexivity.
    + repeat constructor; try assumption; try reflexivity; apply B.
  - intros n a x d m En Ed _. eapply Forall_impl; [apply decoded_plain|]. eapply decoded_records; [|exact Ed]. eapply firstn_bytes, Hb, En.
Qed.

(** There are finitely many names. *)
Definition byte_list : list N := map N.of_nat (seq 0 256).
Fixpoint words (k : nat) : list (list N) :=
  match k with 0 => [[]] | S k' => flat_map (fun w => map (fun b => b :: w) byte_list) (words k') end.
Lemma in_byte_list : forall b, is_byte b -> In b byte_list.
Proof. intros b H. unfold byte_list, is_byte in *. apply in_map_iff. exists (N.to_nat b). split; [apply N2Nat.id|]. apply in_seq. lia. Qed.
Lemma in_words : forall w, is_bytes w -> In w (words (length w)).
Proof.
  induction w as [|b w IH]; intros H; cbn [length words]; [now left|]. inversion H; subst. apply in_flat_map. exists w. split; [now apply IH|].
  apply (in_map (fun b0 => b0 :: w)). now apply in_byte_list.
Qed.
Lemma finitely_many_names : exists U : list name, forall n, accepted n -> In n U.
Proof.
  exists (flat_map words (seq 0 256)). intros n Hn. apply in_flat_map. exists (length n). split.
  - apply in_seq. destruct Hn as (ls & _ & _ & L). lia.
  - apply in_words. now apply accepted_bytes.
Qed.
