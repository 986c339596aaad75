(** Supporting lemmas for the codec properties: headers, TXT, WKS, well-behaved packets. *)
From Verif Require Import Base Buffer BufferSpec BufferProofs Reader Types Name NameSpec NameProofs NameDecode
  Codec CodecSpec CodecWrite CodecMessage CodecRead CodecSafe PropName.

(** ** Header: decoding inverts encoding *)
Lemma rb_field : forall l a n v c r, unpack l = a ++ field n v ++ c -> length a = r ->
  (v < 2 ^ N.of_nat n)%N -> rb l r n = v.
Proof.
  intros l a n v c r E Hr Hv. unfold rb. rewrite E, skipn_app, <- Hr, skipn_all, Nat.sub_diag. cbn [skipn app].
  rewrite firstn_app, field_length, Nat.sub_diag. cbn [firstn]. rewrite app_nil_r.
  rewrite firstn_all2 by (rewrite field_length; lia). rewrite val_field. now apply N.mod_small.
Qed.

Lemma flag_eqb : forall b, (bit b =? 1)%N = b. Proof. now destruct b. Qed.

Lemma decode_wire_header : forall h rest, header_ok h -> is_bytes rest ->
  decode_header (at_ (wire_header h ++ rest) 0) = Done (Ok h, at_ (wire_header h ++ rest) 96).
Proof.
  intros h rest Hh Hrest.
  rewrite parses_header_bits.
  2:{ apply is_bytes_app. split; [now apply wire_header_bytes|assumption]. }
  2:{ rewrite app_length, wire_header_length. lia. }
  pose proof (header_bits_wire h Hh) as E. unfold header_bits in E.
  set (l := wire_header h ++ rest).
  assert (El : unpack l = unpack (wire_header h) ++ unpack rest) by (subst l; apply unpack_app).
  rewrite <- E in El. rewrite !b2n_bit, op_number_model, rcode_number_model in El.
  destruct Hh as (H1 & H2 & H3 & H4 & H5 & H6).
  pose proof (bit_bound (h_qr h)). pose proof (op_bound (h_op h)). pose proof (bit_bound (h_aa h)).
  pose proof (bit_bound (h_tc h)). pose proof (bit_bound (h_rd h)). pose proof (bit_bound (h_ra h)).
  pose proof (rcode_bound (h_rcode h)).
  set (f1 := field 16 (h_id h)) in *. set (f2 := field 1 (bit (h_qr h))) in *.
  set (f3 := field 4 (op_number (h_op h))) in *. set (f4 := field 1 (bit (h_aa h))) in *.
  set (f5 := field 1 (bit (h_tc h))) in *. set (f6 := field 1 (bit (h_rd h))) in *.
  set (f7 := field 1 (bit (h_ra h))) in *. set (f8 := field 3 (h_z h)) in *.
  set (f9 := field 4 (rcode_number (h_rcode h))) in *. set (f10 := field 16 (h_qd h)) in *.
  set (f11 := field 16 (h_an h)) in *. set (f12 := field 16 (h_ns h)) in *. set (f13 := field 16 (h_ar h)) in *.
  rewrite <- !app_assoc in El.
  assert (L : forall n v, length (field n v) = n) by apply field_length.
  assert (E1 : rb l 0 16 = h_id h) by (apply (rb_field l [] 16 _ _ 0 El); [reflexivity|assumption]).
  assert (E2 : rb l 16 1 = bit (h_qr h)) by (apply (rb_field l f1 1 _ _ 16 El); [apply L|assumption]).
  assert (E3 : rb l 17 4 = op_number (h_op h)).
  { eapply (rb_field l (f1 ++ f2)); [rewrite <- !app_assoc; exact El|reflexivity|assumption]. }
  assert (E4 : rb l 21 1 = bit (h_aa h)).
  { eapply (rb_field l (f1 ++ f2 ++ f3)); [rewrite <- !app_assoc; exact El|reflexivity|assumption]. }
  assert (E5 : rb l 22 1 = bit (h_tc h)).
  { eapply (rb_field l (f1 ++ f2 ++ f3 ++ f4)); [rewrite <- !app_assoc; exact El|reflexivity|assumption]. }
  assert (E6 : rb l 23 1 = bit (h_rd h)).
  { eapply (rb_field l (f1 ++ f2 ++ f3 ++ f4 ++ f5)); [rewrite <- !app_assoc; exact El|reflexivity|assumption]. }
  assert (E7 : rb l 24 1 = bit (h_ra h)).
  { eapply (rb_field l (f1 ++ f2 ++ f3 ++ f4 ++ f5 ++ f6)); [rewrite <- !app_assoc; exact El|reflexivity|assumption]. }
  assert (E8 : rb l 25 3 = h_z h).
  { eapply (rb_field l (f1 ++ f2 ++ f3 ++ f4 ++ f5 ++ f6 ++ f7)); [rewrite <- !app_assoc; exact El|reflexivity|assumption]. }
  assert (E9 : rb l 28 4 = rcode_number (h_rcode h)).
  { eapply (rb_field l (f1 ++ f2 ++ f3 ++ f4 ++ f5 ++ f6 ++ f7 ++ f8)); [rewrite <- !app_assoc; exact El|reflexivity|assumption]. }
  assert (E10 : rb l 32 16 = h_qd h).
  { eapply (rb_field l (f1 ++ f2 ++ f3 ++ f4 ++ f5 ++ f6 ++ f7 ++ f8 ++ f9)); [rewrite <- !app_assoc; exact El|reflexivity|assumption]. }
  assert (E11 : rb l 48 16 = h_an h).
  { eapply (rb_field l (f1 ++ f2 ++ f3 ++ f4 ++ f5 ++ f6 ++ f7 ++ f8 ++ f9 ++ f10)); [rewrite <- !app_assoc; exact El|reflexivity|assumption]. }
  assert (E12 : rb l 64 16 = h_ns h).
  { eapply (rb_field l (f1 ++ f2 ++ f3 ++ f4 ++ f5 ++ f6 ++ f7 ++ f8 ++ f9 ++ f10 ++ f11)); [rewrite <- !app_assoc; exact El|reflexivity|assumption]. }
  assert (E13 : rb l 80 16 = h_ar h).
  { eapply (rb_field l (f1 ++ f2 ++ f3 ++ f4 ++ f5 ++ f6 ++ f7 ++ f8 ++ f9 ++ f10 ++ f11 ++ f12)); [rewrite <- !app_assoc; exact El|reflexivity|assumption]. }
  rewrite E1, E2, E3, E4, E5, E6, E7, E8, E9, E10, E11, E12, E13.
  rewrite (proj2 (op_code_known _ _) eq_refl), (proj2 (resp_code_known _ _) eq_refl), !flag_eqb.
  now destruct h.
Qed.

Lemma be16_of_bytes : forall a b, is_byte a -> is_byte b -> be16 (a * 256 + b) = [a; b].
Proof.
  intros a b Ha Hb. unfold be16, is_byte in *. rewrite N.div_add_l by discriminate.
  rewrite N.div_small, N.add_0_r by assumption.
  rewrite N.add_comm, N.mod_add by discriminate. now rewrite N.mod_small.
Qed.

Lemma decode_header_inv : forall l h b', is_bytes l -> decode_header (at_ l 0) = Done (Ok h, b') ->
  header_ok h /\ b' = at_ l 96 /\ exists rest, l = wire_header h ++ rest.
Proof.
  intros l h b' Hl E. pose proof (decode_header_short l h b' Hl E) as Hlen.
  rewrite parses_header_bits in E by assumption. cbv zeta in E.
  destruct (decode_op_code (rb l 17 4) true) as [op|] eqn:Eop; [|discriminate].
  destruct (decode_resp_code (rb l 28 4)) as [rc|] eqn:Erc; [|discriminate].
  apply op_code_known in Eop. apply resp_code_known in Erc.
  injection E as <- <-.
  pose proof (rb_bound l 16 1) as B1. pose proof (rb_bound l 21 1) as B2. pose proof (rb_bound l 22 1) as B3.
  pose proof (rb_bound l 23 1) as B4. pose proof (rb_bound l 24 1) as B5. 
  split; [|split; [reflexivity|]].
  - repeat split; try exact (rb_bound l _ _).
  - exists (skipn 12 l). rewrite <- (firstn_skipn 12 l) at 1. f_equal.
    unfold wire_header. cbn [h_id h_qr h_op h_aa h_tc h_rd h_ra h_z h_rcode h_qd h_an h_ns h_ar].
    rewrite !bit_eqb by assumption. rewrite <- Eop, <- Erc.
    assert (W16 : forall k, k + 2 <= length l -> be16 (rb l (8 * k) 16) = [nth k l 0%N; nth (k + 1) l 0%N]).
    { intros k Hk. rewrite rb16_aligned by assumption. unfold is_bytes in Hl. rewrite Forall_forall in Hl.
      apply be16_of_bytes; apply Hl, nth_In; lia. }
    pose proof (W16 0 ltac:(lia)) as F1. pose proof (W16 4 ltac:(lia)) as F4. pose proof (W16 6 ltac:(lia)) as F6.
    pose proof (W16 8 ltac:(lia)) as F8. pose proof (W16 10 ltac:(lia)) as F10.
    change (8 * 0) with 0 in F1. change (8 * 4) with 32 in F4. change (8 * 6) with 48 in F6.
    change (8 * 8) with 64 in F8. change (8 * 10) with 80 in F10. rewrite F1, F4, F6, F8, F10.
    pose proof (rb8_aligned l 2 Hl ltac:(lia)) as G2. pose proof (rb8_aligned l 3 Hl ltac:(lia)) as G3.
    change (8 * 2) with 16 in G2. change (8 * 3) with 24 in G3.
    assert (D2 : rb l 16 8 = (rb l 16 1 * 128 + rb l 17 4 * 8 + rb l 21 1 * 4 + rb l 22 1 * 2 + rb l 23 1)%N).
    { change (rb l 16 8) with (rb l 16 (1 + (4 + (1 + (1 + 1))))). rewrite !rb_app by lia.
      cbn [Nat.add N.of_nat Pos.of_succ_nat Pos.succ N.pow Pos.pow Pos.iter Pos.mul]. lia. }
    assert (D3 : rb l 24 8 = (rb l 24 1 * 128 + rb l 25 3 * 16 + rb l 28 4)%N).
    { change (rb l 24 8) with (rb l 24 (1 + (3 + 4))). rewrite !rb_app by lia.
      cbn [Nat.add N.of_nat Pos.of_succ_nat Pos.succ N.pow Pos.pow Pos.iter Pos.mul]. lia. }
    rewrite <- D2, <- D3, G2, G3.
    do 12 (destruct l as [|? l]; [cbn [length] in Hlen; lia|]). reflexivity.
Qed.

(** ** TXT *)
Lemma txt_loop_position : forall p fuel data_len read strings l r ts b', is_bytes l -> r <= 8 * length l ->
  txt_loop p fuel data_len read strings (at_ l r) = Done (Ok ts, b') ->
  exists new r', ts = strings ++ new /\ new <> [] /\ b' = at_ l r' /\
    r' + length new = r + 8 * length (flat_map wstring new).
Proof.
  intros p fuel. induction fuel as [|fuel IH]; intros data_len read strings l r ts b' Hl Hr E; [discriminate|].
  cbn [txt_loop] in E. unfold bindM at 1 in E. unfold check_end at 1 in E.
  rewrite read_u8_at in E by assumption.
  destruct (Nat.leb_spec (r + 8) (8 * length l)) as [H8|H8]; cbn [bind] in E; [|discriminate].
  unfold read_pos in E. cbn [at_ r_pos] in E. fold (at_ l (r + 8)) in E.
  rewrite step_back_at in E by assumption. destruct r as [|r1]; [discriminate|]. cbn [bind] in E.
  destruct (chk_u16 p (read + _)) as [s1| |]; cbn [bind] in E; try discriminate.
  destruct (chk_u16 p (s1 + 1)) as [s2| |]; cbn [bind] in E; try discriminate.
  destruct (data_len <? s2)%N; [discriminate|].
  unfold bindM at 1 in E.
  destruct (decode_character_string (at_ l r1)) as [[[s|e] b3]|k|] eqn:Es; cbn [bind] in E; try discriminate.
  assert (Hs : b3 = at_ l (r1 + 8 + 8 * length s) /\ r1 + 8 + 8 * length s <= 8 * length l).
  { unfold decode_character_string, bindM, check_end in Es. rewrite read_u8_at in Es by (assumption || lia).
    replace (r1 + 8 <=? 8 * length l) with true in Es by (symmetry; apply Nat.leb_le; lia). cbn [bind] in Es.
    rewrite read_bytes_at in Es by (assumption || lia).
    destruct (Nat.leb_spec (r1 + 8 + N.to_nat (rb l r1 8) * 8) (8 * length l)) as [H|H]; cbn [bind] in Es; [|discriminate].
    destruct (255 <? _); [discriminate|]. destruct (utf8_valid _); [|discriminate].
    injection Es as <- <-. rewrite rbs_length. split; [f_equal; lia|lia]. }
  destruct Hs as [-> Hs].
  destruct (chk_u16 p (_ + 1)) as [l1| |]; cbn [bind] in E; try discriminate.
  destruct (chk_u16 p (read + l1)) as [read'| |]; cbn [bind] in E; try discriminate.
  destruct (read' =? data_len)%N.
  - injection E as <- <-. exists [s], (r1 + 8 + 8 * length s).
    split; [reflexivity|]. split; [discriminate|]. split; [reflexivity|].
    cbn [length flat_map wstring]. unfold wstring. rewrite app_nil_r. cbn [length]. lia.
  - apply IH in E as (new & r' & -> & Hne & -> & Epos); [|assumption|assumption].
    exists (s :: new), r'. rewrite <- app_assoc. split; [reflexivity|]. split; [discriminate|].
    split; [reflexivity|]. cbn [flat_map length]. rewrite app_length. unfold wstring at 1. cbn [length]. lia.
Qed.

(** ** WKS *)
Lemma wks_inner_never_ends : forall fuel p i b j ports r,
  wks_inner p fuel i b j ports <> Done (Some r).
Proof.
  induction fuel as [|fuel IH]; intros p i b j ports r; cbn [wks_inner]; [discriminate|].
  destruct (j <? 8); cbn [bind]; [apply IH|]. destruct p; cbn [bind]; [discriminate|apply IH].
Qed.

Lemma wks_inner_debug : forall i b ports fuel, 7 < fuel -> wks_inner Debug fuel i b 1 ports = Panic POverflow.
Proof. intros i b ports fuel H. do 8 (destruct fuel as [|fuel]; [lia|]). reflexivity. Qed.

Lemma wks_inner_release : forall fuel i b j ports, wks_inner Release fuel i b j ports = Done None.
Proof.
  induction fuel as [|fuel IH]; intros i b j ports; cbn [wks_inner]; [reflexivity|].
  destruct (j <? 8); cbn [bind]; apply IH.
Qed.

Lemma parse_wks_ports_spec : forall p l, parse_wks_ports p l =
  if forallb (fun x => x =? 0)%N l then Done [] else match p with Debug => Panic POverflow | Release => Diverge end.
Proof.
  intros p l. induction l as [|x l IH]; [reflexivity|]. cbn [parse_wks_ports forallb].
  destruct (x =? 0)%N; cbn [andb]; [exact IH|]. now destruct p.
Qed.

(** ** Well-behaved packets: no pointer past the end or above 8191, and no two
    consecutive bytes that could be the type number of WKS or TXT. *)
Definition no_wks_txt (pkt : list N) : Prop :=
  forall i, nth_error pkt i = Some 0%N -> nth_error pkt (i + 1) <> Some 11%N /\ nth_error pkt (i + 1) <> Some 16%N.
Definition tame (pkt : list N) : Prop := is_bytes pkt /\ pointers_in_range pkt /\ no_wks_txt pkt.

Definition calm {A} (pkt : list N) (m : M A) (Q : A -> Prop) : Prop :=
  forall k, k <= length pkt -> exists res k', m (at_ pkt (8 * k)) = Done (res, at_ pkt (8 * k')) /\
    k' <= length pkt /\ match res with Ok a => Q a | Err _ => True end.

Lemma calm_bind : forall A B pkt (m : M A) (k : A -> M B) Q1 Q2,
  calm pkt m Q1 -> (forall a, Q1 a -> calm pkt (k a) Q2) -> calm pkt (bindM m k) Q2.
Proof.
  intros A B pkt m f Q1 Q2 Hm Hf k Hk. destruct (Hm k Hk) as (res & k1 & E & H1 & HQ).
  unfold bindM. rewrite E. cbn [bind]. destruct res as [a|e].
  - exact (Hf a HQ k1 H1).
  - exists (Err e), k1. now repeat split.
Qed.

Lemma calm_ret : forall A pkt (a : A) (Q : A -> Prop), Q a -> calm pkt (ret a) Q.
Proof. intros A pkt a Q H k Hk. exists (Ok a), k. now repeat split. Qed.
Lemma calm_fail : forall A pkt e (Q : A -> Prop), calm pkt (fail e) Q.
Proof. intros A pkt e Q k Hk. exists (Err e), k. now repeat split. Qed.
Lemma calm_lift : forall A pkt (x : result A parse_err), calm pkt (lift x) (fun _ => True).
Proof. intros A pkt x k Hk. exists x, k. repeat split; try assumption. now destruct x. Qed.

Lemma calm_u16 : forall pkt, is_bytes pkt -> calm pkt (check_end read_u16)
  (fun v => exists i, i + 2 <= length pkt /\ v = (nth i pkt 0 * 256 + nth (i + 1) pkt 0)%N).
Proof.
  intros pkt Hp k Hk. unfold check_end. rewrite read_u16_at by (assumption || lia).
  destruct (Nat.leb_spec (8 * k + 16) (8 * length pkt)); cbn [bind].
  - eexists (Ok _), (k + 2). split; [do 3 f_equal; lia|]. split; [lia|].
    exists k. split; [lia|]. apply rb16_aligned; [assumption|lia].
  - eexists (Err _), k. now repeat split.
Qed.

Lemma calm_u32 : forall pkt, is_bytes pkt -> calm pkt (check_end read_u32) (fun _ => True).
Proof.
  intros pkt Hp k Hk. unfold check_end. rewrite read_u32_at by (assumption || lia).
  destruct (Nat.leb_spec (8 * k + 32) (8 * length pkt)); cbn [bind].
  - eexists (Ok _), (k + 4). split; [do 3 f_equal; lia|]. split; [lia|exact I].
  - eexists (Err _), k. now repeat split.
Qed.

Lemma calm_u8 : forall pkt, is_bytes pkt -> calm pkt (check_end read_u8) (fun _ => True).
Proof.
  intros pkt Hp k Hk. unfold check_end. rewrite read_u8_at by (assumption || lia).
  destruct (Nat.leb_spec (8 * k + 8) (8 * length pkt)); cbn [bind].
  - eexists (Ok _), (k + 1). split; [do 3 f_equal; lia|]. split; [lia|exact I].
  - eexists (Err _), k. now repeat split.
Qed.

Lemma calm_bytes : forall pkt n, is_bytes pkt ->
  calm pkt (check_end (fun b => read_bytes_vec b n)) (fun _ => True).
Proof.
  intros pkt n Hp k Hk. unfold check_end. rewrite read_bytes_at by (assumption || lia).
  destruct (Nat.leb_spec (8 * k + n * 8) (8 * length pkt)); cbn [bind].
  - eexists (Ok _), (k + n). split; [do 3 f_equal; lia|]. split; [lia|exact I].
  - eexists (Err _), k. now repeat split.
Qed.

Lemma name_loop_aligned : forall p fuel nm paj nj pkt k, is_bytes pkt -> k <= length pkt ->
  pointers_in_range pkt ->
  match name_loop p fuel nm paj nj (at_ pkt (8 * k)) with
  | Done (_, b') => exists k', b' = at_ pkt (8 * k') /\ k' <= length pkt
  | Panic _ => False
  | Diverge => True
  end.
Proof.
  intros p fuel. induction fuel as [|fuel IH]; intros nm paj nj pkt k Hp Hk Hin; [exact I|].
  rewrite name_loop_step by (assumption || lia). cbv zeta.
  destruct (Nat.ltb_spec (8 * length pkt) (8 * k + 8)) as [H|H]; [now exists k|].
  rewrite rb8_aligned by (assumption || lia).
  assert (Hnth : nth_error pkt k = Some (nth k pkt 0%N)) by (apply nth_error_nth'; lia).
  set (x := nth k pkt 0%N) in *. clearbody x.
  assert (E1 : exists k', at_ pkt (8 * k + 8) = at_ pkt (8 * k') /\ k' <= length pkt)
    by (exists (k + 1); split; [f_equal; lia|lia]).
  destruct (N.leb_spec 192 x) as [Hx1|Hx1].
  - destruct (15 <? nj); [exact E1|].
    destruct (Nat.ltb_spec (8 * length pkt) (8 * k + 16)) as [H2|H2]; [exact E1|].
    replace (8 * k + 8) with (8 * (k + 1)) by lia. rewrite rb8_aligned by (assumption || lia).
    assert (Hnth2 : nth_error pkt (k + 1) = Some (nth (k + 1) pkt 0%N)) by (apply nth_error_nth'; lia).
    set (y := nth (k + 1) pkt 0%N) in *. clearbody y.
    destruct (Hin k x y Hnth Hx1 Hnth2) as [Hlow Hle].
    assert (Et : jump_target p ((x - 192) * 256 + y)%N = Done (N.to_nat ((x - 192) * 256 + y))).
    { unfold jump_target. destruct p; [|now rewrite N.mod_small].
      now replace ((x - 192) * 256 + y <? 8192)%N with true by (symmetry; apply N.ltb_lt; lia). }
    rewrite Et. cbn [bind].
    replace (_ <=? length pkt) with true by (symmetry; apply Nat.leb_le; lia).
    apply IH; assumption.
  - destruct (x <=? 63)%N; [|exact E1]. destruct (x =? 0)%N; [exact E1|].
    destruct (Nat.ltb_spec (8 * length pkt) (8 * k + 8 + N.to_nat x * 8)) as [H2|H2]; [exact E1|].
    replace (8 * k + 8 + N.to_nat x * 8) with (8 * (k + 1 + N.to_nat x)) by lia.
    destruct (255 <? _); [eexists; split; [reflexivity|lia]|].
    apply IH; [assumption|lia|assumption].
Qed.

Lemma name_from_bytes_aligned : forall p pkt k, is_bytes pkt -> k <= length pkt -> pointers_in_range pkt ->
  exists res k', name_from_bytes p (at_ pkt (8 * k)) = Done (res, at_ pkt (8 * k')) /\ k' <= length pkt.
Proof.
  intros p pkt k Hp Hk Hin. unfold name_from_bytes.
  pose proof (name_loop_general p name_fuel [] 0 0 pkt (8 * k) Hp ltac:(lia) ltac:(lia) ltac:(cbn; lia)
    ltac:(cbn [length]; unfold name_fuel; lia)) as GL.
  pose proof (name_loop_aligned p name_fuel [] 0 0 pkt k Hp Hk Hin) as NP.
  destruct (name_loop _ _ _ _ _ _) as [[res b1]|kd'|]; [|contradiction|contradiction].
  cbn [bind]. destruct NP as (k1 & -> & Hk1). destruct GL as (r1 & _ & Hr1 & GL).
  destruct res as [[nm paj]|e]; [|now exists (Err e), k1].
  destruct GL as (_ & Hpos). cbn [Nat.eqb] in Hpos.
  assert (Hset : exists k2, (if 0 <? paj then set_read_pos (at_ pkt (8 * k1)) paj else Done (at_ pkt (8 * k1))) = Done (at_ pkt (8 * k2)) /\ k2 <= length pkt).
  { destruct Hpos as [[-> _]|(d & Hd & -> & Hle)]; [now exists k1|].
    replace (0 <? 8 * k + 8 * d) with true by (symmetry; apply Nat.ltb_lt; lia).
    rewrite set_read_pos_at.
    replace (8 * k + 8 * d <=? 8 * length pkt) with true by (symmetry; now apply Nat.leb_le).
    exists (k + d). split; [do 2 f_equal; lia|lia]. }
  destruct Hset as (k2 & -> & Hk2). cbn [bind].
  destruct (utf8_valid nm); [destruct (validate_name nm)|]; now eexists _, k2.
Qed.

Lemma calm_name : forall p pkt, is_bytes pkt -> pointers_in_range pkt -> calm pkt (dec_name p) (fun _ => True).
Proof.
  intros p pkt Hp Hin k Hk. unfold dec_name.
  destruct (name_from_bytes_aligned p pkt k Hp Hk Hin) as (res & k' & E & Hk').
  rewrite E. cbn [bind]. eexists _, k'. split; [reflexivity|]. split; [assumption|]. now destruct res.
Qed.

Lemma calm_string : forall pkt, is_bytes pkt -> calm pkt decode_character_string (fun _ => True).
Proof.
  intros pkt Hp. unfold decode_character_string. eapply calm_bind; [now apply calm_u8|]. intros n _.
  eapply calm_bind; [now apply calm_bytes|]. intros s _.
  destruct (255 <? _); [apply calm_fail|]. destruct (utf8_valid s); [now apply calm_ret|apply calm_fail].
Qed.

Lemma calm_len_checked : forall A pkt n (m : M A), calm pkt m (fun _ => True) ->
  calm pkt (len_checked Release n m) (fun _ => True).
Proof.
  intros A pkt n m H k Hk. destruct (H k Hk) as (res & k' & E & H1 & _). unfold len_checked. rewrite E.
  cbn [bind]. destruct res as [a|e]; [|eexists (Err e), k'; now repeat split].
  assert (Hc : exists v, chk_u16 Release (n * 8) = Done v) by (unfold chk_u16; destruct (_ <? _)%N; eauto).
  destruct Hc as (v & ->). cbn [bind]. destruct (_ =? _)%N; [exists (Ok a), k'|exists (Err PE_DataLenMismatch), k']; now repeat split.
Qed.

Lemma calm_weaken : forall A pkt (m : M A) Q, calm pkt m Q -> calm pkt m (fun _ => True).
Proof.
  intros A pkt m Q H k Hk. destruct (H k Hk) as (res & k' & E & H1 & _). exists res, k'. repeat split; try assumption.
  now destruct res.
Qed.

Lemma calm_question : forall p pkt, is_bytes pkt -> pointers_in_range pkt ->
  calm pkt (decode_question p) (fun _ => True).
Proof.
  intros p pkt Hp Hin. unfold decode_question.
  eapply calm_bind; [now apply calm_name|]. intros n _.
  eapply calm_bind.
  - unfold decode_qtype. eapply calm_bind; [now apply calm_u16|]. intros x _.
    destruct (rtype_from_num x) as [t|m].
    + destruct (negb _); [apply calm_fail|now apply (calm_ret _ _ t (fun _ => True))].
    + eapply calm_bind; [now apply calm_u16|]. intros y _. apply calm_fail.
  - intros t _. eapply calm_bind; [now apply calm_u16|]. intros c _.
    eapply calm_bind; [apply calm_lift|]. intros cl _. now apply calm_ret.
Qed.

Lemma type_not : forall n t, rtype_from_num n = Ok t -> n = type_number t.
Proof.
  intros n t E. unfold rtype_from_num in E.
  repeat match type of E with (if (n =? ?c)%N then _ else _) = _ =>
    destruct (N.eqb_spec n c); [injection E as <-; now subst|] end. discriminate.
Qed.

Lemma calm_record : forall pkt, tame pkt -> calm pkt (decode_record Release) (fun _ => True).
Proof.
  intros pkt (Hp & Hin & Hno). rewrite decode_record_eq.
  eapply calm_bind; [now apply calm_name|]. intros n _.
  eapply (calm_bind _ _ _ _ _ (fun t => t <> RT_WKS /\ t <> RT_TXT /\ usable_type t)).
  - unfold decode_rtype. eapply calm_bind; [now apply calm_u16|]. intros x (i & Hi & Ex).
    destruct (rtype_from_num x) as [t|m] eqn:Et.
    + destruct (supported_for_records t) eqn:Esup; cbn [negb]; [|apply calm_fail].
      apply calm_ret. apply type_not in Et.
      assert (A1 : nth_error pkt i = Some (nth i pkt 0%N)) by (apply nth_error_nth'; lia).
      assert (A2 : nth_error pkt (i + 1) = Some (nth (i + 1) pkt 0%N)) by (apply nth_error_nth'; lia).
      assert (B2 : is_byte (nth (i + 1) pkt 0%N)) by (unfold is_bytes in Hp; rewrite Forall_forall in Hp; apply Hp, nth_In; lia).
      unfold is_byte in B2.
      split; [|split; [|now apply usable_supported]].
      * intros ->. cbn [type_number] in Et.
        assert (nth i pkt 0%N = 0%N /\ nth (i + 1) pkt 0%N = 11%N) as [Z1 Z2] by lia.
        rewrite Z1 in A1. rewrite Z2 in A2. now destruct (Hno i A1).
      * intros ->. cbn [type_number] in Et.
        assert (nth i pkt 0%N = 0%N /\ nth (i + 1) pkt 0%N = 16%N) as [Z1 Z2] by lia.
        rewrite Z1 in A1. rewrite Z2 in A2. now destruct (Hno i A1).
    + eapply calm_bind; [now apply calm_u16|]. intros ? _.
      eapply calm_bind; [now apply calm_u32|]. intros ? _.
      eapply calm_bind; [now apply calm_u16|]. intros len _.
      eapply calm_bind; [now apply calm_bytes|]. intros ? _. apply calm_fail.
  - intros t (Ht1 & Ht2 & Ht3). eapply calm_bind; [now apply calm_u16|]. intros c _.
    eapply calm_bind; [apply calm_lift|]. intros cl _.
    eapply calm_bind; [now apply calm_u32|]. intros ttl _.
    eapply calm_bind; [now apply calm_u16|]. intros len _.
    eapply (calm_bind _ _ _ _ _ (fun _ => True)); [|intros d _; now apply calm_ret].
    assert (Hname : calm pkt (decode_name_data Release len) (fun _ => True)).
    { apply calm_len_checked. now apply calm_name. }
    apply usable_supported in Ht3. destruct t; cbn in Ht3; try discriminate; try easy; cbn [decode_data].
    + eapply (calm_bind _ _ _ _ _ (fun _ => True)); [|intros; now apply calm_ret]. unfold decode_a_data.
      destruct (negb _); [apply calm_fail|now apply calm_bytes].
    + eapply calm_bind; [exact Hname|]. intros. now apply calm_ret.
    + eapply calm_bind; [exact Hname|]. intros. now apply calm_ret.
    + apply calm_len_checked.
      eapply calm_bind; [now apply calm_name|]. intros ? _.
      eapply calm_bind; [now apply calm_name|]. intros ? _.
      do 5 (eapply calm_bind; [now apply calm_u32|]; intros ? _). now apply calm_ret.
    + eapply calm_bind; [exact Hname|]. intros. now apply calm_ret.
    + apply calm_len_checked.
      eapply calm_bind; [now apply calm_string|]. intros ? _.
      eapply calm_bind; [now apply calm_string|]. intros ? _. now apply calm_ret.
    + apply calm_len_checked.
      eapply calm_bind; [now apply calm_u16|]. intros ? _.
      eapply calm_bind; [now apply calm_name|]. intros ? _. now apply calm_ret.
Qed.

Lemma calm_section : forall A pkt (dec : M A) mk, calm pkt dec (fun _ => True) -> forall n i k, k <= length pkt ->
  exists res k', decode_section dec mk i n (at_ pkt (8 * k)) = Done (res, at_ pkt (8 * k')) /\ k' <= length pkt.
Proof.
  intros A pkt dec mk H n. induction n as [|n IH]; intros i k Hk; cbn [decode_section].
  - eexists _, k. now split.
  - destruct (H k Hk) as (res & k1 & E & H1 & _). rewrite E. cbn [bind].
    destruct res as [a|e].
    + destruct (IH (S i) k1 H1) as (res & k2 & E2 & H2). rewrite E2. cbn [bind]. eexists _, k2. now split.
    + destruct (IH (S i) k1 H1) as (res & k2 & E2 & H2).
      destruct e; try (eexists _, k1; split; [reflexivity|assumption]). eexists _, k2. split; [exact E2|assumption].
Qed.
