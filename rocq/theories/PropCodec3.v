(** C22-C25: safety of decoding, the truncating (UDP) encoder. *)
From Verif Require Import Base Buffer BufferSpec BufferProofs Reader Types Name NameSpec NameProofs NameDecode
  Codec CodecSpec CodecWrite CodecMessage CodecRead CodecSafe CodecFacts PropName PropCodec1 PropCodec2.

(** * C22: decoding arbitrary bytes. The property is refuted (witnesses below); the
    positive theorems say what does hold. *)

(** Debug builds never hang, whatever the bytes. *)
Theorem C22_debug_never_hangs_partial : forall l, is_bytes l -> decode_message Debug l <> Diverge.
Proof.
  intros l Hl. unfold decode_message. rewrite from_raw_at.
  destruct (quiet_header l 0 Hl ltac:(lia)) as (res & r0 & -> & H0). cbn [bind].
  destruct res as [h|e]; [|discriminate]. destruct (header_is_supported h); [|discriminate].
  assert (GR : gen 0 False (decode_record Debug) decoded_record).
  { intros l' r' H1 H2. pose proof (gen_record Debug l' r' H1 H2) as G.
    destruct (decode_record Debug (at_ l' r')) as [[? ?]|?|]; try exact G. discriminate. }
  pose proof (gen_section _ _ False _ ME_Question _ (gen_question Debug False) (N.to_nat (h_qd h)) 0 l r0 Hl H0) as GQ.
  destruct (decode_section (decode_question Debug) _ _ _ _) as [[rq b1]|k|]; cbn [bind]; [|discriminate|contradiction].
  destruct GQ as (r1 & -> & Hr1 & _). destruct rq as [qs|e]; [|discriminate].
  pose proof (gen_section _ _ False _ ME_Answer _ GR (N.to_nat (h_an h)) 0 l r1 Hl Hr1) as GA.
  destruct (decode_section (decode_record Debug) ME_Answer _ _ _) as [[ra b2]|k|]; cbn [bind]; [|discriminate|contradiction].
  destruct GA as (r2 & -> & Hr2 & _). destruct ra as [ans|e]; [|discriminate].
  pose proof (gen_section _ _ False _ ME_Authority _ GR (N.to_nat (h_ns h)) 0 l r2 Hl Hr2) as GN.
  destruct (decode_section (decode_record Debug) ME_Authority _ _ _) as [[rn b3]|k|]; cbn [bind]; [|discriminate|contradiction].
  destruct GN as (r3 & -> & Hr3 & _). destruct rn as [aus|e]; [|discriminate].
  pose proof (gen_section _ _ False _ ME_Additional _ GR (N.to_nat (h_ar h)) 0 l r3 Hl Hr3) as GX.
  destruct (decode_section (decode_record Debug) ME_Additional _ _ _) as [[rx b4]|k|]; cbn [bind]; [|discriminate|contradiction].
  destruct rx; discriminate.
Qed.
Print Assumptions C22_debug_never_hangs_partial.

(** Release builds return on every packet whose two-byte 0xC0.. patterns point inside
    it and which nowhere holds the bytes 0,11 or 0,16 (the WKS and TXT type numbers). *)
Lemma header_aligned : forall l, is_bytes l ->
  (exists h, decode_header (at_ l 0) = Done (Ok h, at_ l (8 * 12)) /\ 12 <= length l) \/
  (exists e b, decode_header (at_ l 0) = Done (Err e, b)).
Proof.
  intros l Hl. destruct (quiet_header l 0 Hl ltac:(lia)) as (res & r0 & E & H0).
  destruct res as [h|e]; [left|right; now exists e, (at_ l r0)].
  pose proof E as E'. apply decode_header_inv in E' as (_ & E1 & rest & ->); [|assumption].
  exists h. rewrite E, E1. split; [reflexivity|]. rewrite app_length, wire_header_length. lia.
Qed.

Theorem C22_release_returns_if_tame_partial : forall l, tame l -> exists r, decode_message Release l = Done r.
Proof.
  intros l Ht. pose proof Ht as (Hl & Hin & _). unfold decode_message. rewrite from_raw_at.
  destruct (header_aligned l Hl) as [(h & -> & H12)|(e & b & ->)]; cbn [bind]; [|eexists; reflexivity].
  destruct (header_is_supported h); [|eexists; reflexivity].
  destruct (calm_section _ l _ ME_Question (calm_question Release l Hl Hin) (N.to_nat (h_qd h)) 0 12 H12) as (rq & k1 & -> & H1).
  cbn [bind]. destruct rq; [|eexists; reflexivity].
  destruct (calm_section _ l _ ME_Answer (calm_record l Ht) (N.to_nat (h_an h)) 0 k1 H1) as (ra & k2 & -> & H2).
  cbn [bind]. destruct ra; [|eexists; reflexivity].
  destruct (calm_section _ l _ ME_Authority (calm_record l Ht) (N.to_nat (h_ns h)) 0 k2 H2) as (rn & k3 & -> & H3).
  cbn [bind]. destruct rn; [|eexists; reflexivity].
  destruct (calm_section _ l _ ME_Additional (calm_record l Ht) (N.to_nat (h_ar h)) 0 k3 H3) as (rx & k4 & -> & H4).
  cbn [bind]. destruct rx; eexists; reflexivity.
Qed.
Print Assumptions C22_release_returns_if_tame_partial.

(** Both builds return on every query-shaped packet (a header announcing only
    questions) whose pointers stay inside it. *)
Theorem C22_questions_return_partial : forall p l, is_bytes l -> pointers_in_range l ->
  (forall h rest, l = wire_header h ++ rest -> header_ok h -> h_an h = 0%N /\ h_ns h = 0%N /\ h_ar h = 0%N) ->
  exists r, decode_message p l = Done r.
Proof.
  intros p l Hl Hin Hz. unfold decode_message. rewrite from_raw_at.
  destruct (header_aligned l Hl) as [(h & Eh & H12)|(e & b & ->)]; cbn [bind]; [|eexists; reflexivity].
  rewrite Eh. cbn [bind].
  apply decode_header_inv in Eh as (Hok & _ & rest & El); [|assumption].
  destruct (Hz h rest El Hok) as (-> & -> & ->).
  destruct (header_is_supported h); [|eexists; reflexivity].
  destruct (calm_section _ l _ ME_Question (calm_question p l Hl Hin) (N.to_nat (h_qd h)) 0 12 H12) as (rq & k1 & -> & H1).
  cbn [bind]. destruct rq; eexists; reflexivity.
Qed.
Print Assumptions C22_questions_return_partial.

(** A query with no compression byte at all always comes back. *)
Theorem C22_plain_queries_return_partial : forall p l, is_bytes l -> Forall (fun x => x < 192)%N l ->
  firstn 6 (skipn 6 l) = [0; 0; 0; 0; 0; 0]%N -> exists r, decode_message p l = Done r.
Proof.
  intros p l Hl Hs Hz. apply C22_questions_return_partial; [assumption| |].
  - intros i hi lo E Hhi _. apply nth_error_In in E. rewrite Forall_forall in Hs. apply Hs in E. lia.
  - intros h rest -> (_ & _ & _ & Ha & Hn & Hx). unfold wire_header, be16 in Hz. cbn [app skipn firstn] in Hz.
    injection Hz as H1 H2 H3 H4 H5 H6.
    assert (Z : forall x, (x / 256 = 0)%N -> (x mod 256 = 0)%N -> x = 0%N).
    { intros x A B. rewrite (N.div_mod x 256) by lia. rewrite A, B. reflexivity. }
    repeat split; now apply Z.
Qed.
Print Assumptions C22_plain_queries_return_partial.

Definition ex_query : list N :=
  [0; 7; 1; 0; 0; 1; 0; 0; 0; 0; 0; 0; 3; 119; 119; 119; 1; 97; 0; 0; 1; 0; 1]%N.
Theorem C22_nonvacuous : is_bytes ex_query /\ Forall (fun x => x < 192)%N ex_query /\
  firstn 6 (skipn 6 ex_query) = [0; 0; 0; 0; 0; 0]%N /\ tame ex_query.
Proof.
  assert (H1 : is_bytes ex_query) by (repeat constructor; unfold is_byte; lia).
  assert (H2 : Forall (fun x => x < 192)%N ex_query) by (repeat constructor; lia).
  split; [assumption|]. split; [assumption|]. split; [reflexivity|].
  split; [assumption|]. split.
  - intros i hi lo E Hhi _. apply nth_error_In in E. rewrite Forall_forall in H2. apply H2 in E. lia.
  - intros i Hi. split; intros E; apply nth_error_In in E; cbn in E; intuition discriminate.
Qed.

(** Packets that break the property. *)
Definition pkt_bad_pointer : list N := [0; 7; 1; 0; 0; 1; 0; 0; 0; 0; 0; 0; 192; 200; 0; 1; 0; 1]%N.
Definition pkt_wks : list N :=
  [0; 7; 129; 0; 0; 0; 0; 1; 0; 0; 0; 0; 1; 97; 0; 0; 11; 0; 1; 0; 0; 0; 60; 0; 6; 10; 0; 0; 1; 6; 1]%N.
Definition pkt_wks_short : list N :=
  [0; 7; 129; 0; 0; 0; 0; 1; 0; 0; 0; 0; 1; 97; 0; 0; 11; 0; 1; 0; 0; 0; 60; 0; 60; 10; 0; 0; 1; 6; 1]%N.
Theorem C22_refuted_witnesses :
  (forall p, decode_message p pkt_bad_pointer = Panic PExplicit) /\
  decode_message Debug pkt_wks = Panic POverflow /\ decode_message Release pkt_wks = Diverge /\
  (forall p, decode_message p pkt_wks_short = Panic PUnwrap) /\
  decode_message Debug ([0; 7; 129; 0; 0; 0; 0; 1; 0; 0; 0; 0]%N ++ lying_record) = Panic POverflow.
Proof. repeat split; try (intros []); vm_compute; reflexivity. Qed.
Print Assumptions C22_refuted_witnesses.

(** * C23 *)
Lemma typed_appends_q : forall p l, Forall typed_question l ->
  Forall (fun x => appends (encode_question p x) (question_outcome p x)) l.
Proof. intros p l H. eapply Forall_impl; [|exact H]. intros q. apply appends_question. Qed.
Lemma typed_appends_r : forall p l, Forall typed_record l ->
  Forall (fun x => appends (encode_record p x) (record_outcome p x)) l.
Proof. intros p l H. eapply Forall_impl; [|exact H]. intros q. apply appends_record. Qed.

Lemma zeros_bytes : is_bytes (repeat 0%N 12) /\ write_bytes new_buf (repeat 0%N 12) = Done (at_ (repeat 0%N 12) 0).
Proof.
  assert (H : is_bytes (repeat 0%N 12)) by (repeat constructor).
  split; [assumption|]. change new_buf with (at_ [] 0).
  rewrite (write_bytes_at [] 0 (repeat 0%N 12)); [reflexivity|constructor|assumption|lia].
Qed.

Lemma bindT_inv : forall m k out, bindT m k = Done (Ok out) ->
  (exists h b, m = Done (Ok (TContinue h b)) /\ k h b = Done (Ok out)) \/ m = Done (Ok (TReturn out)).
Proof.
  intros m k out E. destruct m as [[[h b|o]|e]|kd|]; try discriminate.
  - left. exists h, b. now split.
  - right. cbn in E. congruence.
Qed.

Lemma trunc_end_bound : forall h l out, is_bytes l -> 12 <= length l <= 512 ->
  (let! b5 := set_write_pos (at_ l 0) 0 in
   let! (_, b6) := encode_header h b5 in
   Done (Ok (into_vec b6))) = Done (@Ok _ msg_err out) ->
  length out <= 512.
Proof.
  intros h l out Hl L E. destruct (opcode_supported (h_op h)) eqn:Hop.
  - destruct (overwrite_header h l Hop Hl ltac:(lia)) as (b5 & b6 & E5 & E6 & E7 & _).
    rewrite E5 in E. cbn [bind] in E. rewrite E6 in E. cbn [bind] in E. rewrite E7 in E.
    assert (Eout : out = raw_header h ++ skipn 12 l) by congruence. subst out.
    destruct (raw_header_props h) as (_ & Lr & _). rewrite app_length, Lr, skipn_length. lia.
  - unfold set_write_pos in E. cbn [at_ last] in E. destruct (_ <? 0); cbn [bind] in E; [discriminate|].
    rewrite encode_header_panics in E by assumption. discriminate.
Qed.

(** encode_message_trunc after its first line (the placeholder header [z]). *)
Definition trunc_from (p : profile) (m : message) (z : list N) : exec (result (list N) msg_err) :=
  let h := m_header m in
  bindT (trunc_section (encode_question p) ME_Question bump_qd (m_questions m) 0 (N.to_nat (h_qd h)) (with_counts h 0 0 0 0) (at_ z 0))
  (fun h1 b1 =>
  bindT (trunc_section (encode_record p) ME_Answer bump_an (m_answers m) 0 (N.to_nat (h_an h)) h1 b1)
  (fun h2 b2 =>
  bindT (trunc_section (encode_record p) ME_Authority bump_ns (m_authorities m) 0 (N.to_nat (h_ns h)) h2 b2)
  (fun h3 b3 =>
  bindT (trunc_section (encode_record p) ME_Additional bump_ar (m_additionals m) 0 (N.to_nat (h_ar h)) h3 b3)
  (fun h4 b4 =>
  let! b5 := set_write_pos b4 0 in
  let! (_, b6) := encode_header h4 b5 in
  Done (Ok (into_vec b6)))))).

Lemma trunc_is_from : forall p m, encode_message_trunc p m = trunc_from p m (repeat 0%N 12).
Proof.
  intros p m. destruct zeros_bytes as (_ & Ez). unfold encode_message_trunc. rewrite Ez. reflexivity.
Qed.

Lemma trunc_from_bound : forall p m z out, typed_message m -> is_bytes z -> 12 <= length z <= 512 ->
  trunc_from p m z = Done (Ok out) -> length out <= 512.
Proof.
  intros p m z out (Hh & Hq & Ha & Hn & Hx) Hz Lz E. unfold trunc_from in E.
  apply bindT_inv in E as [(h1 & b1 & E1 & E)|E1];
    apply (trunc_section_bound _ _ _ _ (typed_appends_q p _ Hq)) in E1; try assumption.
  destruct E1 as (l1 & Hl1 & L1 & ->).
  apply bindT_inv in E as [(h2 & b2 & E2 & E)|E2];
    apply (trunc_section_bound _ _ _ _ (typed_appends_r p _ Ha)) in E2; try assumption.
  destruct E2 as (l2 & Hl2 & L2 & ->).
  apply bindT_inv in E as [(h3 & b3 & E3 & E)|E3];
    apply (trunc_section_bound _ _ _ _ (typed_appends_r p _ Hn)) in E3; try assumption.
  destruct E3 as (l3 & Hl3 & L3 & ->).
  apply bindT_inv in E as [(h4 & b4 & E4 & E)|E4];
    apply (trunc_section_bound _ _ _ _ (typed_appends_r p _ Hx)) in E4; try assumption.
  destruct E4 as (l4 & Hl4 & L4 & ->).
  now apply trunc_end_bound in E.
Qed.

(** For every message whose fields have their Rust types. *)
Theorem C23_trunc_at_most_512 : forall p m out, typed_message m ->
  encode_message_trunc p m = Done (Ok out) -> length out <= 512.
Proof.
  intros p m out Hm E. rewrite trunc_is_from in E. revert E. apply trunc_from_bound; [assumption|apply zeros_bytes|].
  rewrite repeat_length. lia.
Qed.
Print Assumptions C23_trunc_at_most_512.

(** * C24 *)

(** Specification: the message cut down to its first [k] entries (questions, answers,
    authorities, additionals in this order), counts adjusted, TC set if anything is lost. *)
Definition entries_count (m : message) : nat :=
  length (m_questions m) + length (m_answers m) + length (m_authorities m) + length (m_additionals m).
Definition keep (k : nat) (m : message) : message :=
  let h := m_header m in
  let k1 := k - length (m_questions m) in
  let k2 := k1 - length (m_answers m) in
  let k3 := k2 - length (m_authorities m) in
  let qs := firstn k (m_questions m) in
  let ans := firstn k1 (m_answers m) in
  let aus := firstn k2 (m_authorities m) in
  let ads := firstn k3 (m_additionals m) in
  mkMsg (mkHeader (h_id h) (h_qr h) (h_op h) (h_aa h)
           (if k <? entries_count m then true else h_tc h)
           (h_rd h) (h_ra h) (h_z h) (h_rcode h)
           (N.of_nat (length qs)) (N.of_nat (length ans)) (N.of_nat (length aus)) (N.of_nat (length ads)))
        qs ans aus ads.

Lemma bumps_qd : forall n h a b c d, bumps bump_qd n (with_counts h a b c d) = with_counts h (a + N.of_nat n) b c d.
Proof.
  induction n as [|n IH]; intros h a b c d; cbn [bumps].
  - now rewrite N.add_0_r.
  - change (bump_qd (with_counts h a b c d)) with (with_counts h (a + 1) b c d). rewrite IH. f_equal. lia.
Qed.
Lemma bumps_an : forall n h a b c d, bumps bump_an n (with_counts h a b c d) = with_counts h a (b + N.of_nat n) c d.
Proof.
  induction n as [|n IH]; intros h a b c d; cbn [bumps].
  - now rewrite N.add_0_r.
  - change (bump_an (with_counts h a b c d)) with (with_counts h a (b + 1) c d). rewrite IH. f_equal. lia.
Qed.
Lemma bumps_ns : forall n h a b c d, bumps bump_ns n (with_counts h a b c d) = with_counts h a b (c + N.of_nat n) d.
Proof.
  induction n as [|n IH]; intros h a b c d; cbn [bumps].
  - now rewrite N.add_0_r.
  - change (bump_ns (with_counts h a b c d)) with (with_counts h a b (c + 1) d). rewrite IH. f_equal. lia.
Qed.
Lemma bumps_ar : forall n h a b c d, bumps bump_ar n (with_counts h a b c d) = with_counts h a b c (d + N.of_nat n).
Proof.
  induction n as [|n IH]; intros h a b c d; cbn [bumps].
  - now rewrite N.add_0_r.
  - change (bump_ar (with_counts h a b c d)) with (with_counts h a b c (d + 1)). rewrite IH. f_equal. lia.
Qed.

Lemma fits_le : forall ws s, fits s ws <= length ws.
Proof. induction ws as [|w ws IH]; intros s; cbn [fits length]; [lia|]. destruct (_ <=? _); [specialize (IH (s + length w)); lia|lia]. Qed.

Lemma fits_bound : forall ws s, s <= 512 -> s + length (concat (firstn (fits s ws) ws)) <= 512.
Proof.
  induction ws as [|w ws IH]; intros s Hs; cbn [fits]; [cbn; lia|].
  destruct (Nat.leb_spec (s + length w) 512); cbn [firstn concat length].
  - rewrite app_length. specialize (IH (s + length w) H). lia.
  - lia.
Qed.

Lemma fits_maximal : forall ws s, fits s ws < length ws -> 512 < s + length (concat (firstn (S (fits s ws)) ws)).
Proof.
  induction ws as [|w ws IH]; intros s H; cbn [fits length] in *; [lia|].
  destruct (Nat.leb_spec (s + length w) 512).
  - specialize (IH (s + length w) ltac:(lia)). cbn [firstn concat] in *. rewrite app_length. lia.
  - cbn [firstn concat]. rewrite app_length. lia.
Qed.

Lemma fits_app : forall a b s, fits s (a ++ b) =
  if fits s a =? length a then length a + fits (s + length (concat a)) b else fits s a.
Proof.
  induction a as [|w a IH]; intros b s; cbn [fits app length concat].
  - cbn [Nat.eqb Nat.add]. now rewrite Nat.add_0_r.
  - destruct (s + length w <=? 512); [|reflexivity]. rewrite IH. cbn [Nat.eqb].
    destruct (fits (s + length w) a =? length a); [|reflexivity].
    rewrite app_length, Nat.add_assoc. reflexivity.
Qed.

Lemma Forall_appends_q : forall p l, Forall question_ok l ->
  Forall (fun x => appends (encode_question p x) (Done (Ok (wire_question x)))) l.
Proof.
  intros p l H. eapply Forall_impl; [|exact H]. intros q Hq.
  destruct (question_outcome_ok p q Hq) as (E & Ht). rewrite <- E. now apply appends_question.
Qed.
Lemma Forall_appends_r : forall p l, Forall record_ok l ->
  Forall (fun x => appends (encode_record p x) (Done (Ok (wire_record x)))) l.
Proof.
  intros p l H. eapply Forall_impl; [|exact H]. intros q Hq.
  destruct (record_outcome_ok p q Hq) as (E & Ht). rewrite <- E. now apply appends_record.
Qed.

Lemma concat_bytes : forall A (enc : A -> M unit) (wire : A -> list N) l,
  Forall (fun x => appends (enc x) (Done (Ok (wire x)))) l -> is_bytes (concat (map wire l)).
Proof.
  intros A enc wire l H. induction H as [|x l [Hb _] _ IH]; [constructor|]. cbn [map concat].
  apply is_bytes_app. now split.
Qed.

(** What the code does: keep as many entries as fit. *)
Lemma trunc_exact : forall p m, message_ok m ->
  encode_message_trunc p m = Done (Ok (wire_message (keep (fits 12 (wire_entries m)) m))).
Proof.
  intros p m (Hh & Ho & (C1 & C2 & C3 & C4) & Hq & Ha & Hn & Hx). rewrite trunc_is_from.
  destruct zeros_bytes as (Hz & _). unfold trunc_from.
  rewrite C1, C2, C3, C4, !Nat2N.id.
  assert (Lz : length (repeat 0%N 12) = 12) by reflexivity.
  generalize dependent (repeat 0%N 12). intros z Hz Lz.
  pose proof (Forall_appends_q p _ Hq) as Q. pose proof (Forall_appends_r p _ Ha) as A.
  pose proof (Forall_appends_r p _ Hn) as Nn. pose proof (Forall_appends_r p _ Hx) as X.
  pose proof (concat_bytes _ _ _ _ Q) as BQ. pose proof (concat_bytes _ _ _ _ A) as BA.
  pose proof (concat_bytes _ _ _ _ Nn) as BN. pose proof (concat_bytes _ _ _ _ X) as BX.
  assert (BT : forall a b, is_bytes a -> is_bytes b -> is_bytes (a ++ b)) by (intros; now apply is_bytes_app).
  assert (Hop : forall h, h_op h = OP_STD -> opcode_supported (h_op h) = true) by (intros h ->; reflexivity).
  assert (Sz : forall y, skipn 12 (z ++ y) = y).
  { intros y. rewrite <- Lz. rewrite skipn_app, skipn_all, Nat.sub_diag. reflexivity. }
  (* the shape of the four results *)
  destruct m as [h qs ans aus ads]. cbn [m_header m_questions m_answers m_authorities m_additionals] in *.
  set (wq := map wire_question qs) in *. set (wa := map wire_record ans) in *.
  set (wn := map wire_record aus) in *. set (wx := map wire_record ads) in *.
  assert (Lq : length wq = length qs) by apply map_length. assert (La : length wa = length ans) by apply map_length.
  assert (Ln : length wn = length aus) by apply map_length. assert (Lx : length wx = length ads) by apply map_length.
  unfold wire_entries. cbn [m_header m_questions m_answers m_authorities m_additionals]. fold wq wa wn wx.
  assert (K0 : forall l ws, l + length (concat ws) <= 512 -> fits l ws = length ws).
  { intros l ws. revert l. induction ws as [|w ws IH]; intros l H; [reflexivity|]. cbn [fits concat length] in *.
    rewrite app_length in H. replace (l + length w <=? 512) with true by (symmetry; apply Nat.leb_le; lia).
    f_equal. apply IH. lia. }
  assert (KB : forall l ws, l <= 512 -> fits l ws = length ws -> l + length (concat ws) <= 512).
  { intros l ws Hl E. pose proof (fits_bound ws l Hl) as H. rewrite E, firstn_all in H. exact H. }
  assert (FIN : forall hd, header_ok hd -> raw_header hd = wire_header hd) by (intros; now apply raw_header_wire).
  destruct Hh as (U1 & U2 & U3 & U4 & U5 & U6).
  rewrite C1 in U3. rewrite C2 in U4. rewrite C3 in U5. rewrite C4 in U6.
  unfold bindT at 1, bindR at 1.
  rewrite (trunc_section_exact _ _ _ wire_question qs Q); [|assumption|lia|intros k; rewrite bumps_qd; now apply Hop|lia].
  change (skipn 0 qs) with qs. fold wq. rewrite Lz.
  rewrite (fits_app wq).
  destruct (Nat.eqb_spec (fits 12 wq) (length qs)) as [Eq|Nq].
  2:{ cbn [bind]. rewrite Lq. replace (fits 12 wq =? length qs) with false by (symmetry; now apply Nat.eqb_neq).
      pose proof (fits_le wq 12) as Kle. set (k := fits 12 wq) in *.
      rewrite Sz. do 2 f_equal. unfold wire_message, keep, wire_entries, entries_count.
      cbn [m_header m_questions m_answers m_authorities m_additionals].
      replace (k - length qs) with 0 by lia. cbn [Nat.sub firstn map app length]. rewrite !app_nil_r.
      rewrite <- firstn_map. fold wq. f_equal.
      rewrite FIN.
      - f_equal. rewrite bumps_qd. unfold with_tc, with_counts.
        cbn [h_id h_qr h_op h_aa h_tc h_rd h_ra h_z h_rcode h_qd h_an h_ns h_ar].
        replace (k <? _) with true by (symmetry; apply Nat.ltb_lt; lia).
        f_equal. rewrite firstn_length. lia.
      - rewrite bumps_qd. unfold header_ok, with_tc, with_counts, is_u16.
        cbn [h_id h_qr h_op h_aa h_tc h_rd h_ra h_z h_rcode h_qd h_an h_ns h_ar]. unfold is_u16 in *. repeat split; lia. }
  cbn [bind]. rewrite Lq. replace (fits 12 wq =? length qs) with true by (symmetry; now apply Nat.eqb_eq).
  rewrite bumps_qd, N.add_0_l.
  assert (B1 : 12 + length (concat wq) <= 512) by (apply KB; [lia|congruence]).
  unfold bindT at 1, bindR at 1.
  rewrite (trunc_section_exact _ _ _ wire_record ans A);
    [|apply BT; assumption|rewrite app_length; lia|intros k; rewrite bumps_an; now apply Hop|lia].
  change (skipn 0 ans) with ans. fold wa. rewrite app_length, Lz.
  rewrite (fits_app wa).
  set (s1 := 12 + length (concat wq)) in *.
  destruct (Nat.eqb_spec (fits s1 wa) (length ans)) as [Ea|Na].
  2:{ cbn [bind]. rewrite La. replace (fits s1 wa =? length ans) with false by (symmetry; now apply Nat.eqb_neq).
      pose proof (fits_le wa s1) as Kle. set (k := fits s1 wa) in *.
      rewrite <- app_assoc, Sz. do 2 f_equal. unfold wire_message, keep, wire_entries, entries_count.
      cbn [m_header m_questions m_answers m_authorities m_additionals].
      replace (length qs + k - length qs) with k by lia. replace (k - length ans) with 0 by lia.
      cbn [Nat.sub firstn map app length]. rewrite !app_nil_r.
      rewrite (firstn_all2 qs) by lia. rewrite <- firstn_map. fold wq wa. rewrite concat_app. f_equal.
      rewrite FIN.
      - f_equal. rewrite bumps_an. unfold with_tc, with_counts.
        cbn [h_id h_qr h_op h_aa h_tc h_rd h_ra h_z h_rcode h_qd h_an h_ns h_ar].
        replace (length qs + k <? _) with true by (symmetry; apply Nat.ltb_lt; lia).
        f_equal. rewrite firstn_length. lia.
      - rewrite bumps_an. unfold header_ok, with_tc, with_counts, is_u16.
        cbn [h_id h_qr h_op h_aa h_tc h_rd h_ra h_z h_rcode h_qd h_an h_ns h_ar]. unfold is_u16 in *. repeat split; lia. }
  cbn [bind]. rewrite La. replace (fits s1 wa =? length ans) with true by (symmetry; now apply Nat.eqb_eq).
  rewrite bumps_an, N.add_0_l.
  assert (B2 : s1 + length (concat wa) <= 512) by (apply KB; [lia|congruence]).
  unfold bindT at 1, bindR at 1.
  rewrite (trunc_section_exact _ _ _ wire_record aus Nn);
    [|repeat (first [assumption|apply BT])|rewrite !app_length; lia|intros k; rewrite bumps_ns; now apply Hop|lia].
  change (skipn 0 aus) with aus. fold wn. rewrite !app_length, Lz.
  rewrite (fits_app wn). fold s1.
  set (s2 := s1 + length (concat wa)) in *.
  destruct (Nat.eqb_spec (fits s2 wn) (length aus)) as [En|Nn'].
  2:{ cbn [bind]. rewrite Ln. replace (fits s2 wn =? length aus) with false by (symmetry; now apply Nat.eqb_neq).
      pose proof (fits_le wn s2) as Kle. set (k := fits s2 wn) in *.
      rewrite <- !app_assoc, Sz. do 2 f_equal. unfold wire_message, keep, wire_entries, entries_count.
      cbn [m_header m_questions m_answers m_authorities m_additionals].
      replace (length qs + (length ans + k) - length qs) with (length ans + k) by lia.
      replace (length ans + k - length ans) with k by lia. replace (k - length aus) with 0 by lia.
      cbn [Nat.sub firstn map app length]. rewrite !app_nil_r.
      rewrite (firstn_all2 qs), (firstn_all2 ans) by lia. rewrite <- firstn_map. fold wq wa wn. rewrite !concat_app. f_equal.
      rewrite FIN.
      - f_equal. rewrite bumps_ns. unfold with_tc, with_counts.
        cbn [h_id h_qr h_op h_aa h_tc h_rd h_ra h_z h_rcode h_qd h_an h_ns h_ar].
        replace (length qs + (length ans + k) <? _) with true by (symmetry; apply Nat.ltb_lt; lia).
        f_equal. rewrite firstn_length. lia.
      - rewrite bumps_ns. unfold header_ok, with_tc, with_counts, is_u16.
        cbn [h_id h_qr h_op h_aa h_tc h_rd h_ra h_z h_rcode h_qd h_an h_ns h_ar]. unfold is_u16 in *. repeat split; lia. }
  cbn [bind]. rewrite Ln. replace (fits s2 wn =? length aus) with true by (symmetry; now apply Nat.eqb_eq).
  rewrite bumps_ns, N.add_0_l.
  assert (B3 : s2 + length (concat wn) <= 512) by (apply KB; [lia|congruence]).
  unfold bindT at 1, bindR at 1.
  rewrite (trunc_section_exact _ _ _ wire_record ads X);
    [|repeat (first [assumption|apply BT])|rewrite !app_length; lia|intros k; rewrite bumps_ar; now apply Hop|lia].
  change (skipn 0 ads) with ads. fold wx. rewrite !app_length, Lz. fold s1. fold s2.
  set (s3 := s2 + length (concat wn)) in *.
  pose proof (fits_le wx s3) as Kle.
  destruct (Nat.eqb_spec (fits s3 wx) (length ads)) as [Ex|Nx].
  - cbn [bind]. rewrite bumps_ar, N.add_0_l. set (h4 := with_counts h _ _ _ _).
    assert (B4 : s3 + length (concat wx) <= 512) by (apply KB; [lia|congruence]).
    destruct (overwrite_header h4 (((z ++ concat wq) ++ concat wa) ++ concat wn ++ concat wx)) as (b5 & b6 & E5 & E6 & E7 & _);
      [now apply Hop|repeat (first [assumption|apply BT])|rewrite !app_length; lia|].
    rewrite <- !app_assoc in *. rewrite E5. cbn [bind]. rewrite E6. cbn [bind]. rewrite E7, Sz, Ex.
    do 2 f_equal. unfold wire_message, keep, wire_entries, entries_count.
    cbn [m_header m_questions m_answers m_authorities m_additionals].
    replace (length qs + (length ans + (length aus + length ads)) - length qs) with (length ans + (length aus + length ads)) by lia.
    replace (length ans + (length aus + length ads) - length ans) with (length aus + length ads) by lia.
    replace (length aus + length ads - length aus) with (length ads) by lia.
    rewrite (firstn_all2 qs), (firstn_all2 ans), (firstn_all2 aus), (firstn_all2 ads) by lia.
    fold wq wa wn wx. rewrite !concat_app. f_equal.
    rewrite FIN.
    + f_equal. unfold h4, with_counts.
      cbn [h_id h_qr h_op h_aa h_tc h_rd h_ra h_z h_rcode h_qd h_an h_ns h_ar].
      replace (_ <? _) with false by (symmetry; apply Nat.ltb_ge; lia). f_equal.
    + unfold header_ok, h4, with_counts, is_u16.
      cbn [h_id h_qr h_op h_aa h_tc h_rd h_ra h_z h_rcode h_qd h_an h_ns h_ar]. unfold is_u16 in *. repeat split; lia.
  - cbn [bind]. set (k := fits s3 wx) in *.
    rewrite <- !app_assoc, Sz. do 2 f_equal. unfold wire_message, keep, wire_entries, entries_count.
    cbn [m_header m_questions m_answers m_authorities m_additionals].
    replace (length qs + (length ans + (length aus + k)) - length qs) with (length ans + (length aus + k)) by lia.
    replace (length ans + (length aus + k) - length ans) with (length aus + k) by lia.
    replace (length aus + k - length aus) with k by lia.
    rewrite (firstn_all2 qs), (firstn_all2 ans), (firstn_all2 aus) by lia. rewrite <- firstn_map.
    fold wq wa wn wx. rewrite !concat_app. f_equal.
    rewrite FIN.
    + f_equal. rewrite bumps_ar. unfold with_tc, with_counts.
      cbn [h_id h_qr h_op h_aa h_tc h_rd h_ra h_z h_rcode h_qd h_an h_ns h_ar].
      replace (_ <? _) with true by (symmetry; apply Nat.ltb_lt; lia).
      f_equal. rewrite firstn_length. lia.
    + rewrite bumps_ar. unfold header_ok, with_tc, with_counts, is_u16.
      cbn [h_id h_qr h_op h_aa h_tc h_rd h_ra h_z h_rcode h_qd h_an h_ns h_ar]. unfold is_u16 in *. repeat split; lia.
Qed.

Lemma entries_length : forall m, length (wire_entries m) = entries_count m.
Proof. intros m. unfold wire_entries, entries_count. rewrite !app_length, !map_length. lia. Qed.

Lemma entries_keep : forall k m, wire_entries (keep k m) = firstn k (wire_entries m).
Proof.
  intros k m. unfold wire_entries, keep. cbn [m_questions m_answers m_authorities m_additionals].
  rewrite !firstn_app, !map_length, !firstn_map. reflexivity.
Qed.

Lemma keep_length : forall k m, length (wire_message (keep k m)) = 12 + length (concat (firstn k (wire_entries m))).
Proof. intros k m. unfold wire_message. now rewrite app_length, wire_header_length, entries_keep. Qed.

Lemma Forall_firstn : forall A (P : A -> Prop) k l, Forall P l -> Forall P (firstn k l).
Proof. intros A P k l H. rewrite Forall_forall in *. intros x Hx. apply H. rewrite <- (firstn_skipn k l). apply in_or_app. now left. Qed.

Lemma keep_readable : forall k m, message_readable m -> message_readable (keep k m).
Proof.
  intros k m (((U1 & U2 & U3 & U4 & U5 & U6) & Ho & (C1 & C2 & C3 & C4) & Hq & Ha & Hn & Hx) & Ra & Rn & Rx).
  rewrite C1 in U3. rewrite C2 in U4. rewrite C3 in U5. rewrite C4 in U6. unfold is_u16 in *.
  repeat split; cbn [keep m_header m_questions m_answers m_authorities m_additionals h_id h_z h_qd h_an h_ns h_ar h_op];
    try assumption; try (now apply Forall_firstn); unfold is_u16; rewrite firstn_length; lia.
Qed.

(** The truncating encoder keeps a maximal prefix of the entries. *)
Theorem C24_maximal_prefix : forall p m, message_ok m ->
  exists k, encode_message_trunc p m = Done (Ok (wire_message (keep k m))) /\
    k <= entries_count m /\
    length (wire_message (keep k m)) <= 512 /\
    (k < entries_count m -> 512 < length (wire_message (keep (S k) m))) /\
    (message_readable m -> forall p', decode_message p' (wire_message (keep k m)) = Done (Ok (normal_message (keep k m)))).
Proof.
  intros p m Hm. exists (fits 12 (wire_entries m)). split; [now apply trunc_exact|].
  rewrite !keep_length, <- entries_length. split; [apply fits_le|]. split; [apply fits_bound; lia|].
  split; [apply fits_maximal|]. intros Hr p'.
  rewrite <- (app_nil_r (wire_message _)). apply C19_decode_message; [now apply keep_readable|constructor].
Qed.
Print Assumptions C24_maximal_prefix.

(** What [keep] leaves alone, and what it says about itself. *)
Theorem C24_header_fields : forall k m, counts_match (keep k m) /\
  let h := m_header m in let h' := m_header (keep k m) in
  h_id h' = h_id h /\ h_qr h' = h_qr h /\ h_op h' = h_op h /\ h_aa h' = h_aa h /\ h_rd h' = h_rd h /\
  h_ra h' = h_ra h /\ h_z h' = h_z h /\ h_rcode h' = h_rcode h /\
  (k < entries_count m -> h_tc h' = true) /\ (entries_count m <= k -> h_tc h' = h_tc h).
Proof.
  intros k m. split; [now repeat split|]. cbv zeta. cbn [keep m_header h_id h_qr h_op h_aa h_rd h_ra h_z h_rcode h_tc].
  repeat split.
  - intros H. now replace (k <? entries_count m) with true by (symmetry; apply Nat.ltb_lt; lia).
  - intros H. now replace (k <? entries_count m) with false by (symmetry; apply Nat.ltb_ge; lia).
Qed.

Definition ex_long : message :=
  mkMsg (mkHeader 77 true OP_STD true false true true 0 RC_NoError 1 20 0 0) [mkQ ex_www RT_MX C_IN]
        (repeat ex_mx 20) [] [].
Theorem C24_nonvacuous : message_ok ex_long /\
  fits 12 (wire_entries ex_long) = 11 /\ entries_count ex_long = 21 /\ length (wire_message ex_long) > 512.
Proof.
  split; [|vm_compute; repeat split; lia].
  destruct C15_nonvacuous as (_ & (H2 & _) & _).
  assert (S : sendable ex_www) by now apply sendable_b_ok.
  repeat split; cbn [ex_long m_header m_questions m_answers m_authorities m_additionals]; try (constructor; fail);
    try (unfold is_u16; cbn; lia).
  - constructor; [|constructor]. repeat split; [assumption|unfold usable_type; cbn; tauto].
  - apply Forall_forall. intros r Hr. apply repeat_spec in Hr. now subst.
Qed.

(** * C25 *)
Lemma encode_section_prefix : forall A (enc : A -> M unit) mk (o : A -> exec (result (list N) parse_err)) items,
  Forall (fun x => appends (enc x) (o x)) items ->
  forall n i l l' b', is_bytes l -> is_bytes l' ->
  encode_section enc mk items i n (at_ l 0) = Done (Ok b') ->
  exists w, is_bytes w /\ b' = at_ (l ++ w) 0 /\
    encode_section enc mk items i n (at_ l' 0) = Done (Ok (at_ (l' ++ w) 0)).
Proof.
  intros A enc mk o items Ho. induction n as [|n IH]; intros i l l' b' Hl Hl' E; cbn [encode_section] in *.
  - exists []. rewrite !app_nil_r. split; [constructor|]. split; [congruence|reflexivity].
  - unfold index in *. destruct (nth_error items i) as [x|] eqn:Ex; [|discriminate]. cbn [bind] in *.
    assert (Hx : appends (enc x) (o x)) by (rewrite Forall_forall in Ho; apply Ho; now apply nth_error_In in Ex).
    destruct Hx as [Hb Ha]. pose proof (Ha l 0 Hl ltac:(lia)) as H1. pose proof (Ha l' 0 Hl' ltac:(lia)) as H2.
    destruct (o x) as [[w|e]|k|]; [| | |contradiction].
    + rewrite H1 in E. rewrite H2. cbn [bind] in *.
      apply (IH _ _ (l' ++ w)) in E as (w' & Hw' & -> & ->); try (apply is_bytes_app; now split).
      exists (w ++ w'). rewrite !app_assoc. split; [apply is_bytes_app; now split|]. now split.
    + destruct H1 as (b1 & H1). rewrite H1 in E. discriminate.
    + rewrite H1 in E. discriminate.
Qed.

Lemma bindR_inv : forall A B E (m : exec (result A E)) (k : A -> exec (result B E)) out, bindR m k = Done (Ok out) ->
  exists a, m = Done (Ok a) /\ k a = Done (Ok out).
Proof. intros A B E m k out H. destruct m as [[a|e]|kd|]; try discriminate. now exists a. Qed.

Lemma with_counts_id : forall h, with_counts h (h_qd h) (h_an h) (h_ns h) (h_ar h) = h.
Proof. now intros []. Qed.

Lemma C25_from : forall p m z out, typed_message m -> is_bytes z -> length z = 12 ->
  encode_message p m = Done (Ok out) -> length out <= 512 -> trunc_from p m z = Done (Ok out).
Proof.
  intros p m z out (Hh & Hq & Ha & Hn & Hx) Hz Lz E Lout. unfold encode_message in E.
  destruct (opcode_supported (h_op (m_header m))) eqn:Hop.
  2:{ rewrite encode_header_panics in E by assumption. discriminate. }
  rewrite encode_header_new_raw in E by assumption. cbn [bind] in E.
  destruct (raw_header_props (m_header m)) as (Hr & Lr & _). set (rh := raw_header (m_header m)) in *.
  assert (Erh : rh = raw_header (m_header m)) by reflexivity. clearbody rh.
  apply bindR_inv in E as (b1 & E1 & E). apply bindR_inv in E as (b2 & E2 & E).
  apply bindR_inv in E as (b3 & E3 & E). apply bindR_inv in E as (b4 & E4 & E).
  pose proof (typed_appends_q p _ Hq) as Q. pose proof (typed_appends_r p _ Ha) as A.
  pose proof (typed_appends_r p _ Hn) as Nn. pose proof (typed_appends_r p _ Hx) as X.
  apply (encode_section_prefix _ _ _ _ _ Q _ _ _ z) in E1 as (w1 & W1 & -> & F1); [|assumption|assumption].
  assert (BT : forall a b, is_bytes a -> is_bytes b -> is_bytes (a ++ b)) by (intros; now apply is_bytes_app).
  apply (encode_section_prefix _ _ _ _ _ A _ _ _ (z ++ w1)) in E2 as (w2 & W2 & -> & F2); [|now apply BT|now apply BT].
  apply (encode_section_prefix _ _ _ _ _ Nn _ _ _ ((z ++ w1) ++ w2)) in E3 as (w3 & W3 & -> & F3);
    [|repeat (first [assumption|apply BT])|repeat (first [assumption|apply BT])].
  apply (encode_section_prefix _ _ _ _ _ X _ _ _ (((z ++ w1) ++ w2) ++ w3)) in E4 as (w4 & W4 & -> & F4);
    [|repeat (first [assumption|apply BT])|repeat (first [assumption|apply BT])].
  assert (Eout : out = (((rh ++ w1) ++ w2) ++ w3) ++ w4) by (unfold into_vec in E; cbn [at_ buf] in E; congruence).
  assert (L : length z + length w1 + length w2 + length w3 + length w4 <= 512).
  { rewrite Eout in Lout. rewrite !app_length in Lout. lia. }
  unfold trunc_from. unfold bindT at 1, bindR at 1.
  rewrite (trunc_section_fits _ _ _ _ Q _ _ _ _ _ _ Hz F1); [|cbn [at_ buf]; rewrite !app_length; lia]. cbn [bind].
  rewrite bumps_qd, N.add_0_l, N2Nat.id.
  unfold bindT at 1, bindR at 1.
  rewrite (trunc_section_fits _ _ _ _ A _ _ _ _ _ _ (BT _ _ Hz W1) F2); [|cbn [at_ buf]; rewrite !app_length; lia]. cbn [bind].
  rewrite bumps_an, N.add_0_l, N2Nat.id.
  unfold bindT at 1, bindR at 1.
  rewrite (trunc_section_fits _ _ _ _ Nn _ _ _ _ _ _ (BT _ _ (BT _ _ Hz W1) W2) F3); [|cbn [at_ buf]; rewrite !app_length; lia]. cbn [bind].
  rewrite bumps_ns, N.add_0_l, N2Nat.id.
  unfold bindT at 1, bindR at 1.
  rewrite (trunc_section_fits _ _ _ _ X _ _ _ _ _ _ (BT _ _ (BT _ _ (BT _ _ Hz W1) W2) W3) F4); [|cbn [at_ buf]; rewrite !app_length; lia]. cbn [bind].
  rewrite bumps_ar, N.add_0_l, N2Nat.id, with_counts_id.
  destruct (overwrite_header (m_header m) ((((z ++ w1) ++ w2) ++ w3) ++ w4) Hop) as (b5 & b6 & E5 & E6 & E7 & _);
    [repeat (first [assumption|apply BT])|rewrite !app_length; lia|].
  rewrite E5. cbn [bind]. rewrite E6. cbn [bind]. rewrite E7.
  rewrite Eout, Erh. rewrite <- !app_assoc. rewrite skipn_app, Lz, Nat.sub_diag, skipn_all2 by lia. reflexivity.
Qed.

(** Whatever the message, if the plain encoder gives at most 512 bytes then the
    truncating one gives the same bytes. *)
Theorem C25_short_messages_unchanged : forall p m out, typed_message m ->
  encode_message p m = Done (Ok out) -> length out <= 512 -> encode_message_trunc p m = Done (Ok out).
Proof.
  intros p m out Hm E L. rewrite trunc_is_from. apply C25_from; try assumption; [apply zeros_bytes|apply repeat_length].
Qed.
Print Assumptions C25_short_messages_unchanged.

Theorem C25_nonvacuous : encode_message Debug ex_message = Done (Ok (wire_message ex_message)) /\
  length (wire_message ex_message) <= 512.
Proof. split; [apply C19_encode_message, C19_nonvacuous|vm_compute; lia]. Qed.
