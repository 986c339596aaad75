(** When encoding a reply neither fails nor panics, and when it always panics. *)
From Verif Require Import Base Buffer BufferSpec BufferProofs Reader Types Name NameSpec NameProofs
  Codec CodecSpec CodecWrite CodecMessage PropCodec3 NsSpec.

Definition encodable_r (p : profile) (r : record) : Prop :=
  exists w, appends (encode_record p r) (Done (Ok w)).
Definition encodable_q (p : profile) (q : question) : Prop :=
  exists w, appends (encode_question p q) (Done (Ok w)).

Lemma prefix_ok : forall w o, (exists w', o = Done (Ok w')) -> exists w', prefix w o = Done (Ok w').
Proof. intros w o (w' & ->). eexists. reflexivity. Qed.

Lemma accepted_debug : forall A p n (o : exec A), accepted n -> debug_assert p (is_ok (validate_name n)) o = o.
Proof. intros A p n o H. apply validate_name_dec in H. rewrite H. now destruct p. Qed.

Lemma char_string_ok : forall s, length s <= 255 -> exists w, encode_character_string s = Ok w.
Proof.
  intros s H. unfold encode_character_string. destruct (Nat.ltb_spec 255 (length s)); [lia|]. eexists. reflexivity.
Qed.

Lemma encode_strings_ok : forall ts, Forall (fun s => length s <= 255) ts -> exists ws, encode_strings ts = Ok ws.
Proof.
  induction ts as [|t ts IH]; intros H; cbn [encode_strings]; [eexists; reflexivity|].
  inversion H; subst. destruct (char_string_ok t) as (w & ->); [assumption|].
  destruct IH as (ws & ->); [assumption|]. eexists. reflexivity.
Qed.

Lemma name_wire_small : forall n, accepted n -> length (name_wire n) <= 256.
Proof.
  intros n (ls & Hn & _ & Hl). unfold name_wire.
  assert (G : forall s, length (flat_map (fun l => u8 (N.of_nat (length l)) :: l) (split DOT s)) = S (length s)).
  { clear. induction s as [|c s IH]; cbn [split]; [reflexivity|].
    destruct (c =? DOT)%N.
    - cbn [flat_map length app]. rewrite IH. reflexivity.
    - destruct (split DOT s) as [|h t] eqn:E; [destruct s as [|x s]; cbn [split] in E; [discriminate|]; destruct (x =? DOT)%N; [discriminate|destruct (split DOT s); discriminate]|].
      cbn [flat_map length app] in *. rewrite !app_length in *. cbn [length] in *. lia. }
  rewrite G. lia.
Qed.

Lemma data_fine_typed : forall d, data_fine d -> typed_data d.
Proof.
  intros d H. destruct d; cbn [data_fine typed_data] in *; unfold address_ok in *;
    repeat match goal with H : _ /\ _ |- _ => destruct H end; repeat split; auto using accepted_bytes.
Qed.

Lemma record_fine_encodable : forall p r, record_fine r -> short_strings r -> encodable_r p r.
Proof.
  intros p r (Hn & Hc & Ht & Hd) Hs. unfold encodable_r.
  assert (Ho : exists w, record_outcome p r = Done (Ok w)).
  { unfold record_outcome. rewrite Hc. cbn [class_supported].
    assert (E : supported_for_records (record_type r) = true) by (unfold record_type; now destruct (r_data r)).
    rewrite E, accepted_debug by assumption. do 4 apply prefix_ok.
    unfold short_strings in Hs. destruct (r_data r); cbn [data_outcome data_fine] in *.
    - eexists. reflexivity.
    - rewrite accepted_debug by assumption. eexists. reflexivity.
    - rewrite accepted_debug by assumption. eexists. reflexivity.
    - destruct Hd as (H1 & H2 & _). rewrite !accepted_debug by assumption. eexists. reflexivity.
    - eexists. reflexivity.
    - rewrite accepted_debug by assumption. eexists. reflexivity.
    - destruct Hs as (S1 & S2). destruct (char_string_ok _ S1) as (w1 & ->).
      destruct (char_string_ok _ S2) as (w2 & ->). eexists. reflexivity.
    - destruct Hd as (_ & Hd). rewrite accepted_debug by assumption.
      pose proof (name_wire_small _ Hd) as Hw.
      assert (Hu : u16 (N.of_nat (length (name_wire n))) = N.of_nat (length (name_wire n))).
      { unfold u16. apply N.mod_small. lia. }
      rewrite Hu. unfold chk_u16.
      destruct (N.ltb_spec (2 + N.of_nat (length (name_wire n))) 65536); [|lia]. cbn [bind]. eexists. reflexivity.
    - destruct (encode_strings_ok _ Hs) as (ws & ->). eexists. reflexivity. }
  destruct Ho as (w & Ho). exists w. rewrite <- Ho. apply appends_record.
  split; [now apply accepted_bytes|]. split; [assumption|now apply data_fine_typed].
Qed.

Lemma question_encodable : forall p q, accepted (q_node q) -> q_class q = C_IN -> usable_type (q_type q) -> encodable_q p q.
Proof.
  intros p q Hn Hc Ht. unfold encodable_q.
  assert (Ho : exists w, question_outcome p q = Done (Ok w)).
  { unfold question_outcome. rewrite Hc. cbn [class_supported].
    assert (E : supported_for_question (q_type q) = true).
    { unfold usable_type in Ht. repeat (destruct Ht as [->|Ht]; [reflexivity|]). now rewrite Ht. }
    rewrite E, accepted_debug by assumption. do 2 apply prefix_ok. eexists. reflexivity. }
  destruct Ho as (w & Ho). exists w. rewrite <- Ho. apply appends_question. now apply accepted_bytes.
Qed.

(** * Sections *)
Section sec.
  Context {A : Type} (enc : A -> M unit) (mk : nat -> parse_err -> msg_err) (items : list A).
  Hypothesis Hi : Forall (fun x => exists w, appends (enc x) (Done (Ok w))) items.

  Lemma section_total : forall n i l, is_bytes l -> i + n <= length items ->
    exists l', is_bytes l' /\ length l <= length l' /\
      encode_section enc mk items i n (at_ l 0) = Done (Ok (at_ l' 0)).
  Proof.
    induction n as [|n IH]; intros i l Hl Hn; cbn [encode_section].
    - exists l. now repeat split.
    - unfold index. destruct (nth_error items i) as [x|] eqn:Ex; [|apply nth_error_None in Ex; lia]. cbn [bind].
      pose proof (nth_error_Forall _ _ _ _ Hi Ex) as (w & Hb & Ha). cbn beta in *.
      rewrite (Ha l 0 Hl ltac:(lia)). cbn [bind].
      destruct (IH (S i) (l ++ w)) as (l' & H1 & H2 & H3); [apply is_bytes_app; now split|lia|].
      exists l'. split; [assumption|]. split; [rewrite app_length in H2; lia|assumption].
  Qed.

  Lemma trunc_total : forall bump n i h l, is_bytes l -> 12 <= length l -> i + n <= length items ->
    (forall h, h_op (bump h) = h_op h) -> h_op h = OP_STD ->
    (exists l' h', is_bytes l' /\ 12 <= length l' /\ h_op h' = OP_STD /\
      trunc_section enc mk bump items i n h (at_ l 0) = Done (Ok (TContinue h' (at_ l' 0)))) \/
    (exists out, trunc_section enc mk bump items i n h (at_ l 0) = Done (Ok (TReturn out))).
  Proof.
    intros bump. induction n as [|n IH]; intros i h l Hl H12 Hn Hb Hop; cbn [trunc_section].
    - left. exists l, h. now repeat split.
    - unfold index. destruct (nth_error items i) as [x|] eqn:Ex; [|apply nth_error_None in Ex; lia]. cbn [bind].
      pose proof (nth_error_Forall _ _ _ _ Hi Ex) as (w & Hw & Ha). cbn beta in *.
      rewrite (Ha l 0 Hl ltac:(lia)). cbn [bind].
      assert (Hlw : is_bytes (l ++ w)) by (apply is_bytes_app; now split).
      assert (H12' : 12 <= length (l ++ w)) by (rewrite app_length; lia).
      destruct (_ <? _).
      + right. destruct (overwrite_header (with_tc h) (l ++ w)) as (b2 & b3 & E1 & E2 & _).
        { change (h_op (with_tc h)) with (h_op h). now rewrite Hop. }
        { assumption. } { assumption. }
        rewrite E1. cbn [bind]. rewrite E2. cbn [bind]. eexists. reflexivity.
      + apply IH; try assumption; [lia|]. now rewrite Hb.
  Qed.
End sec.

(** A message with enough entries, all encodable, is encoded. *)
Definition encodable_message (p : profile) (m : message) : Prop :=
  h_op (m_header m) = OP_STD /\
  Forall (encodable_q p) (m_questions m) /\ Forall (encodable_r p) (m_answers m) /\
  Forall (encodable_r p) (m_authorities m) /\ Forall (encodable_r p) (m_additionals m) /\
  N.to_nat (h_qd (m_header m)) <= length (m_questions m) /\
  N.to_nat (h_an (m_header m)) <= length (m_answers m) /\
  N.to_nat (h_ns (m_header m)) <= length (m_authorities m) /\
  N.to_nat (h_ar (m_header m)) <= length (m_additionals m).

Lemma encode_total : forall p m, encodable_message p m -> exists out, encode_message p m = Done (Ok out).
Proof.
  intros p m (Ho & Hq & Ha & Hn & Hx & Cq & Ca & Cn & Cx). unfold encode_message.
  rewrite encode_header_new_raw by now rewrite Ho. cbn [bind].
  destruct (raw_header_props (m_header m)) as (Hr & _).
  destruct (section_total (encode_question p) ME_Question _ Hq (N.to_nat (h_qd (m_header m))) 0 _ Hr Cq) as (l1 & H1 & _ & ->).
  cbn [bindR bind].
  destruct (section_total (encode_record p) ME_Answer _ Ha (N.to_nat (h_an (m_header m))) 0 _ H1 Ca) as (l2 & H2 & _ & ->).
  cbn [bindR bind].
  destruct (section_total (encode_record p) ME_Authority _ Hn (N.to_nat (h_ns (m_header m))) 0 _ H2 Cn) as (l3 & H3 & _ & ->).
  cbn [bindR bind].
  destruct (section_total (encode_record p) ME_Additional _ Hx (N.to_nat (h_ar (m_header m))) 0 _ H3 Cx) as (l4 & H4 & _ & ->).
  cbn [bindR bind]. eexists. reflexivity.
Qed.

Lemma trunc_from_total : forall p m z, encodable_message p m -> is_bytes z -> 12 <= length z ->
  exists out, trunc_from p m z = Done (Ok out).
Proof.
  intros p m z (Ho & Hq & Ha & Hn & Hx & Cq & Ca & Cn & Cx) Hz H12. unfold trunc_from. cbv zeta.
  destruct (trunc_total (encode_question p) ME_Question _ Hq bump_qd (N.to_nat (h_qd (m_header m))) 0
    (with_counts (m_header m) 0 0 0 0) z Hz H12 Cq (fun h => eq_refl) Ho)
    as [(l1 & h1 & H1 & K1 & O1 & ->)|(out & ->)]; cbn [bindT bindR bind]; [|eexists; reflexivity].
  destruct (trunc_total (encode_record p) ME_Answer _ Ha bump_an (N.to_nat (h_an (m_header m))) 0
    h1 l1 H1 K1 Ca (fun h => eq_refl) O1)
    as [(l2 & h2 & H2 & K2 & O2 & ->)|(out & ->)]; cbn [bindT bindR bind]; [|eexists; reflexivity].
  destruct (trunc_total (encode_record p) ME_Authority _ Hn bump_ns (N.to_nat (h_ns (m_header m))) 0
    h2 l2 H2 K2 Cn (fun h => eq_refl) O2)
    as [(l3 & h3 & H3 & K3 & O3 & ->)|(out & ->)]; cbn [bindT bindR bind]; [|eexists; reflexivity].
  destruct (trunc_total (encode_record p) ME_Additional _ Hx bump_ar (N.to_nat (h_ar (m_header m))) 0
    h3 l3 H3 K3 Cx (fun h => eq_refl) O3)
    as [(l4 & h4 & H4 & K4 & O4 & ->)|(out & ->)]; cbn [bindT bindR bind]; [|eexists; reflexivity].
  destruct (overwrite_header h4 l4) as (b2 & b3 & E1 & E2 & _); [now rewrite O4|assumption|assumption|].
  rewrite E1. cbn [bind]. rewrite E2. cbn [bind]. eexists. reflexivity.
Qed.

Lemma encode_trunc_total : forall p m, encodable_message p m -> exists out, encode_message_trunc p m = Done (Ok out).
Proof.
  intros p m H. rewrite trunc_is_from. apply trunc_from_total; [assumption|apply zeros_bytes|].
  rewrite repeat_length. lia.
Qed.

(** * Empty sections that are said not to be empty *)
Lemma section_empty : forall A (enc : A -> M unit) mk n b,
  encode_section enc mk [] 0 n b = match n with 0 => Done (Ok b) | S _ => Panic PIndex end.
Proof. intros A enc mk [|n] b; reflexivity. Qed.
Lemma trunc_empty : forall A (enc : A -> M unit) mk bump n h b,
  trunc_section enc mk bump [] 0 n h b = match n with 0 => Done (Ok (TContinue h b)) | S _ => Panic PIndex end.
Proof. intros A enc mk bump [|n] h b; reflexivity. Qed.

Definition some_count (h : header) : Prop := h_qd h <> 0%N \/ h_an h <> 0%N \/ h_ns h <> 0%N \/ h_ar h <> 0%N.

Lemma to_nat_cases : forall n, n = 0%N \/ exists k, N.to_nat n = S k.
Proof. intros n. destruct (N.eq_dec n 0) as [->|H]; [now left|]. right. exists (pred (N.to_nat n)). lia. Qed.

Lemma encode_hollow : forall p h, h_op h <> OP_STD \/ some_count h ->
  exists k, encode_message p (mkMsg h [] [] [] []) = Panic k.
Proof.
  intros p h H. unfold encode_message. cbn [m_header m_questions m_answers m_authorities m_additionals].
  destruct (opcode_supported (h_op h)) eqn:Eo.
  2:{ rewrite encode_header_panics by assumption. eexists. reflexivity. }
  rewrite encode_header_new_raw by assumption. cbn [bind]. rewrite !section_empty.
  destruct (to_nat_cases (h_qd h)) as [E1|(k & ->)]; [rewrite E1|eexists; reflexivity]. cbn [N.to_nat bindR bind]. rewrite !section_empty.
  destruct (to_nat_cases (h_an h)) as [E2|(k & ->)]; [rewrite E2|eexists; reflexivity]. cbn [N.to_nat bindR bind]. rewrite !section_empty.
  destruct (to_nat_cases (h_ns h)) as [E3|(k & ->)]; [rewrite E3|eexists; reflexivity]. cbn [N.to_nat bindR bind]. rewrite !section_empty.
  destruct (to_nat_cases (h_ar h)) as [E4|(k & ->)]; [rewrite E4|eexists; reflexivity].
  exfalso. destruct H as [H|H]; [|unfold some_count in H; tauto].
  apply H. unfold opcode_supported in Eo. now destruct (h_op h).
Qed.

Lemma trunc_hollow_from : forall p h z, is_bytes z -> 12 <= length z -> h_op h <> OP_STD \/ some_count h ->
  exists k, trunc_from p (mkMsg h [] [] [] []) z = Panic k.
Proof.
  intros p h z Hz H12 H. unfold trunc_from. cbn [m_header m_questions m_answers m_authorities m_additionals].
  rewrite !trunc_empty.
  destruct (to_nat_cases (h_qd h)) as [E1|(k & ->)]; [rewrite E1|eexists; reflexivity]. cbn [N.to_nat bindT bindR bind]. rewrite !trunc_empty.
  destruct (to_nat_cases (h_an h)) as [E2|(k & ->)]; [rewrite E2|eexists; reflexivity]. cbn [N.to_nat bindT bindR bind]. rewrite !trunc_empty.
  destruct (to_nat_cases (h_ns h)) as [E3|(k & ->)]; [rewrite E3|eexists; reflexivity]. cbn [N.to_nat bindT bindR bind]. rewrite !trunc_empty.
  destruct (to_nat_cases (h_ar h)) as [E4|(k & ->)]; [rewrite E4|eexists; reflexivity]. cbn [N.to_nat bindT bindR bind].
  destruct H as [H|H]; [|exfalso; unfold some_count in H; tauto].
  unfold set_write_pos. cbn [at_ last]. destruct (_ <? 0); cbn [bind]; [eexists; reflexivity|].
  rewrite encode_header_panics; [eexists; reflexivity|]. cbn [h_op with_counts]. now destruct (h_op h).
Qed.

Lemma trunc_hollow : forall p h, h_op h <> OP_STD \/ some_count h ->
  exists k, encode_message_trunc p (mkMsg h [] [] [] []) = Panic k.
Proof.
  intros p h H. rewrite trunc_is_from. apply trunc_hollow_from; [apply zeros_bytes| |assumption].
  rewrite repeat_length. lia.
Qed.
