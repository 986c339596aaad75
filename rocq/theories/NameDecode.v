(** Proofs about Name::from_bytes. *)
From Verif Require Import Base Buffer BufferSpec BufferProofs Reader Types Name NameSpec NameProofs.

(** Meaning the code gives to a pointer, per build profile. *)
Definition pointer_of (p : profile) : N -> option nat :=
  match p with Debug => low_pointer | Release => wrapped_pointer end.

Lemma byte_cases : forall (P : N -> bool), forallb P (map N.of_nat (seq 0 256)) = true ->
  forall x, is_byte x -> P x = true.
Proof.
  intros P H x Hx. rewrite forallb_forall in H. apply H. apply in_map_iff.
  exists (N.to_nat x). split; [lia|]. apply in_seq. unfold is_byte in Hx. lia.
Qed.

Lemma tag_pointer : forall x, is_byte x -> (N.land x 192 =? 192)%N = (192 <=? x)%N.
Proof.
  intros x Hx. apply eqb_prop.
  apply (byte_cases (fun x => Bool.eqb (N.land x 192 =? 192)%N (192 <=? x)%N)); [|assumption].
  vm_compute. reflexivity.
Qed.

Lemma tag_label : forall x, is_byte x -> (N.land x 192 =? 0)%N = (x <=? 63)%N.
Proof.
  intros x Hx. apply eqb_prop.
  apply (byte_cases (fun x => Bool.eqb (N.land x 192 =? 0)%N (x <=? 63)%N)); [|assumption].
  vm_compute. reflexivity.
Qed.

Lemma jump_value : forall hi lo, (192 <= hi < 256)%N -> is_byte lo ->
  N.land (N.lor (u16 (N.shiftl hi 8)) lo) 16383 = ((hi - 192) * 256 + lo)%N.
Proof.
  intros hi lo Hhi Hlo. unfold is_byte in Hlo. unfold u16. rewrite N.shiftl_mul_pow2.
  change (2 ^ 8)%N with 256%N. rewrite N.mod_small by lia.
  pose proof (lor_disjoint hi lo 8 Hlo) as L. change (2 ^ 8)%N with 256%N in L. rewrite L.
  change 16383%N with (N.ones 14). rewrite N.land_ones. change (2 ^ 14)%N with 16384%N.
  replace (hi * 256 + lo)%N with (((hi - 192) * 256 + lo) + 3 * 16384)%N by lia.
  rewrite N.mod_add by discriminate. apply N.mod_small. lia.
Qed.

(** Result of the jump computation. *)
Definition jump_target (p : profile) (off : N) : exec nat :=
  match p with
  | Debug => if (off <? 8192)%N then Done (N.to_nat off) else Panic POverflow
  | Release => Done (N.to_nat (off mod 8192))
  end.

Lemma jump_step : forall p off pkt r, (off < 16384)%N ->
  (let! j := chk_u16 p (off * 8)%N in set_read_pos (at_ pkt r) (N.to_nat j)) =
  (let! t := jump_target p off in
   if t <=? length pkt then Done (at_ pkt (8 * t)) else Panic PExplicit).
Proof.
  intros p off pkt r Ho. unfold chk_u16, jump_target.
  destruct (N.ltb_spec (off * 8) 65536) as [H|H].
  - cbn [bind]. rewrite set_read_pos_at.
    assert (E : (if p then if (off <? 8192)%N then Done (N.to_nat off) else Panic POverflow
              else Done (N.to_nat (off mod 8192))) = Done (N.to_nat off)).
    { destruct p; [now replace (off <? 8192)%N with true by (symmetry; apply N.ltb_lt; lia)|].
      now rewrite N.mod_small by lia. }
    unfold jump_target in E. rewrite E. cbn [bind].
    replace (N.to_nat (off * 8)) with (8 * N.to_nat off) by lia.
    destruct (Nat.leb_spec (N.to_nat off) (length pkt));
    destruct (Nat.leb_spec (8 * N.to_nat off) (8 * length pkt)); try lia; reflexivity.
  - destruct p.
    + now replace (off <? 8192)%N with false by (symmetry; apply N.ltb_ge; lia).
    + cbn [bind]. rewrite set_read_pos_at. unfold u16.
      replace (N.to_nat ((off * 8) mod 65536)) with (8 * N.to_nat (off mod 8192)).
      2:{ change 65536%N with (8192 * 8)%N. rewrite N.mul_mod_distr_r by discriminate. lia. }
      destruct (Nat.leb_spec (N.to_nat (off mod 8192)) (length pkt));
      destruct (Nat.leb_spec (8 * N.to_nat (off mod 8192)) (8 * length pkt)); try lia; reflexivity.
Qed.

(** One iteration of the loop, as a function of the bits read. *)
Lemma name_loop_step : forall p fuel nm paj nj pkt r, is_bytes pkt -> r <= 8 * length pkt ->
  name_loop p (S fuel) nm paj nj (at_ pkt r) =
  if 8 * length pkt <? r + 8 then Done (Err NE_BytesEnd, at_ pkt r)
  else
    let x := rb pkt r 8 in
    if (192 <=? x)%N then
      if 15 <? nj then Done (Err NE_MaxRedir, at_ pkt (r + 8))
      else if 8 * length pkt <? r + 16 then Done (Err NE_BytesEnd, at_ pkt (r + 8))
      else
        let! t := jump_target p ((x - 192) * 256 + rb pkt (r + 8) 8)%N in
        if t <=? length pkt
        then name_loop p fuel nm (if nj =? 0 then r + 16 else paj) (S nj) (at_ pkt (8 * t))
        else Panic PExplicit
    else if (x <=? 63)%N then
      if (x =? 0)%N then Done (Ok (nm ++ [DOT], paj), at_ pkt (r + 8))
      else if 8 * length pkt <? r + 8 + N.to_nat x * 8 then Done (Err NE_BytesEnd, at_ pkt (r + 8))
      else
        let nm'' := match nm with [] => [] | _ => nm ++ [DOT] end ++ rbs pkt (r + 8) (N.to_nat x) in
        if 255 <? length nm'' then Done (Err NE_LongName, at_ pkt (r + 8 + N.to_nat x * 8))
        else name_loop p fuel nm'' paj nj (at_ pkt (r + 8 + N.to_nat x * 8))
    else Done (Err NE_MalformedLabel, at_ pkt (r + 8)).
Proof.
  intros p fuel nm paj nj pkt r Hp Hr. cbn [name_loop].
  rewrite read_u8_at by assumption.
  destruct (Nat.ltb_spec (8 * length pkt) (r + 8)) as [H|H].
  { now replace (r + 8 <=? 8 * length pkt) with false by (symmetry; apply Nat.leb_gt; lia). }
  replace (r + 8 <=? 8 * length pkt) with true by (symmetry; apply Nat.leb_le; lia).
  cbn [bind]. pose proof (rb_byte pkt r) as Hx. set (x := rb pkt r 8) in *. clearbody x.
  rewrite tag_pointer, tag_label by assumption. cbv zeta.
  destruct (N.leb_spec 192 x) as [Hx1|Hx1].
  - destruct (15 <? nj); [reflexivity|].
    rewrite read_u8_at by (assumption || lia).
    replace (r + 8 + 8) with (r + 16) by lia.
    destruct (Nat.ltb_spec (8 * length pkt) (r + 16)) as [H2|H2].
    { now replace (r + 16 <=? 8 * length pkt) with false by (symmetry; apply Nat.leb_gt; lia). }
    replace (r + 16 <=? 8 * length pkt) with true by (symmetry; apply Nat.leb_le; lia).
    cbn [bind]. pose proof (rb_byte pkt (r + 8)) as Hy. set (y := rb pkt (r + 8) 8) in *. clearbody y.
    unfold is_byte in Hx, Hy.
    rewrite jump_value by (assumption || lia).
    pose proof (jump_step p ((x - 192) * 256 + y) pkt (r + 16) ltac:(lia)) as J.
    destruct (chk_u16 p (((x - 192) * 256 + y) * 8)) as [j| |]; cbn [bind] in *.
    + rewrite J. destruct (jump_target p _) as [t| |]; cbn [bind]; try reflexivity.
      destruct (t <=? length pkt); [|reflexivity]. cbn [bind].
      unfold read_pos. cbn [r_pos at_]. now replace (r + 8 + 8) with (r + 16) by lia.
    + destruct (jump_target p _) as [t| |]; cbn [bind] in *.
      * destruct (t <=? length pkt); [discriminate|congruence].
      * congruence.
      * discriminate.
    + destruct (jump_target p _) as [t| |]; cbn [bind] in *.
      * destruct (t <=? length pkt); discriminate.
      * discriminate.
      * reflexivity.
  - destruct (N.leb_spec x 63) as [Hx2|Hx2]; [|reflexivity].
    replace (63 <? x)%N with false by (symmetry; apply N.ltb_ge; lia).
    destruct (N.eqb_spec x 0); [reflexivity|].
    rewrite read_bytes_at by (assumption || lia).
    destruct (Nat.ltb_spec (8 * length pkt) (r + 8 + N.to_nat x * 8)) as [H2|H2].
    { now replace (r + 8 + N.to_nat x * 8 <=? 8 * length pkt) with false by (symmetry; apply Nat.leb_gt; lia). }
    replace (r + 8 + N.to_nat x * 8 <=? 8 * length pkt) with true by (symmetry; apply Nat.leb_le; lia).
    reflexivity.
Qed.

Ltac loop_step H := rewrite name_loop_step in H by (assumption || lia).

(** ** The text built by the loop *)
Definition extend (nm : list N) (ls : list (list N)) : list N :=
  fold_left (fun acc l => match acc with [] => [] | _ => acc ++ [DOT] end ++ l) ls nm.

Lemma extend_cons : forall nm l ls,
  extend nm (l :: ls) = extend (match nm with [] => [] | _ => nm ++ [DOT] end ++ l) ls.
Proof. reflexivity. Qed.

Lemma extend_nonempty : forall ls nm, nm <> [] -> extend nm ls ++ [DOT] = nm ++ [DOT] ++ dotted ls.
Proof.
  induction ls as [|l ls IH]; intros nm H.
  - unfold dotted. reflexivity.
  - rewrite extend_cons. destruct nm as [|c nm]; [easy|].
    rewrite IH by (cbn; discriminate). unfold dotted. cbn [flat_map]. fold (dotted ls).
    now rewrite <- !app_assoc.
Qed.

Lemma extend_nil : forall ls, Forall (fun l => 1 <= length l) ls -> extend [] ls ++ [DOT] = name_text ls.
Proof.
  intros [|l ls] H; [reflexivity|]. inversion H; subst. rewrite extend_cons. cbn [app].
  rewrite extend_nonempty by (destruct l; [cbn in *; lia|discriminate]).
  cbn [name_text]. unfold dotted. cbn [flat_map]. now rewrite <- app_assoc.
Qed.

Lemma extend_length_mono : forall ls nm, Forall (fun l => 1 <= length l) ls ->
  length nm + length ls <= length (extend nm ls).
Proof.
  induction ls as [|l ls IH]; intros nm H; [cbn; lia|]. inversion H; subst.
  rewrite extend_cons. etransitivity; [|apply IH; assumption].
  rewrite app_length. cbn [length]. destruct nm; cbn [length app]; [lia|]. rewrite app_length. cbn. lia.
Qed.

(** ** Behaviour at any bit offset *)
Definition wire_labels (ls : list (list N)) : Prop := Forall (fun l => 1 <= length l <= 63) ls.

Lemma name_loop_general : forall p fuel nm paj nj pkt r, is_bytes pkt -> r <= 8 * length pkt ->
  nj <= 16 -> length nm <= 255 -> 16 - nj + (255 - length nm) < fuel ->
  match name_loop p fuel nm paj nj (at_ pkt r) with
  | Done (res, b') =>
      exists r', b' = at_ pkt r' /\ r' <= 8 * length pkt /\
      match res with
      | Err _ => True
      | Ok (nm', paj') =>
          (exists ls, wire_labels ls /\ nm' = extend nm ls ++ [DOT]) /\
          (if nj =? 0 then
             (paj' = paj /\ exists d, 1 <= d /\ r' = r + 8 * d) \/
             (exists d, 2 <= d /\ paj' = r + 8 * d /\ paj' <= 8 * length pkt)
           else paj' = paj)
      end
  | Panic k => (k = POverflow /\ p = Debug) \/ k = PExplicit
  | Diverge => False
  end.
Proof.
  intros p fuel. induction fuel as [|fuel IH]; intros nm paj nj pkt r Hp Hr Hnj Hnm Hf; [lia|].
  rewrite name_loop_step by assumption. cbv zeta.
  destruct (Nat.ltb_spec (8 * length pkt) (r + 8)) as [H|H].
  { exists r. repeat split; lia. }
  set (x := rb pkt r 8). pose proof (rb_byte pkt r) as Hx. fold x in Hx. clearbody x.
  destruct (N.leb_spec 192 x) as [Hx1|Hx1].
  - destruct (Nat.ltb_spec 15 nj) as [Hj|Hj].
    { exists (r + 8). repeat split; lia. }
    destruct (Nat.ltb_spec (8 * length pkt) (r + 16)) as [H2|H2].
    { exists (r + 8). repeat split; lia. }
    destruct (jump_target p _) as [t|k|] eqn:Et; cbn [bind].
    + destruct (Nat.leb_spec t (length pkt)) as [Ht|Ht]; [|now right].
      specialize (IH nm (if nj =? 0 then r + 16 else paj) (S nj) pkt (8 * t) Hp ltac:(lia) ltac:(lia) Hnm ltac:(lia)).
      destruct (name_loop _ _ _ _ _ _) as [[res b']|k|]; [|exact IH|exact IH].
      destruct IH as (r' & -> & Hr' & Hres). exists r'. split; [reflexivity|]. split; [assumption|].
      destruct res as [[nm' paj']|e]; [|exact I]. destruct Hres as (Hls & Hpos). split; [assumption|].
      cbn [Nat.eqb] in Hpos. subst paj'. destruct (nj =? 0); [|reflexivity].
      right. exists 2. lia.
    + unfold jump_target in Et. destruct p; [|discriminate]. left. split; [|reflexivity].
      now destruct (_ <? _)%N; [discriminate|injection Et as <-].
    + unfold jump_target in Et. destruct p; [destruct (_ <? _)%N|]; discriminate.
  - destruct (N.leb_spec x 63) as [Hx2|Hx2].
    2:{ exists (r + 8). repeat split; lia. }
    destruct (N.eqb_spec x 0) as [Hx0|Hx0].
    { exists (r + 8). split; [reflexivity|]. split; [lia|]. split.
      - exists []. split; [constructor|reflexivity].
      - destruct (nj =? 0); [|reflexivity]. left. split; [reflexivity|]. exists 1. lia. }
    destruct (Nat.ltb_spec (8 * length pkt) (r + 8 + N.to_nat x * 8)) as [H2|H2].
    { exists (r + 8). repeat split; lia. }
    set (l := rbs pkt (r + 8) (N.to_nat x)).
    assert (Ll : length l = N.to_nat x) by apply rbs_length.
    set (nm'' := match nm with [] => [] | _ => nm ++ [DOT] end ++ l).
    assert (Lg : length nm + 1 <= length nm'').
    { unfold nm''. rewrite app_length. destruct nm; cbn [length]; [lia|]. rewrite app_length. cbn [length]. lia. }
    destruct (Nat.ltb_spec 255 (length nm'')) as [H3|H3].
    { exists (r + 8 + N.to_nat x * 8). repeat split; lia. }
    specialize (IH nm'' paj nj pkt (r + 8 + N.to_nat x * 8) Hp ltac:(lia) Hnj H3 ltac:(lia)).
    destruct (name_loop _ _ _ _ _ _) as [[res b']|k|]; [|exact IH|exact IH].
    destruct IH as (r' & -> & Hr' & Hres). exists r'. split; [reflexivity|]. split; [assumption|].
    destruct res as [[nm' paj']|e]; [|exact I]. destruct Hres as ((ls & Hls & ->) & Hpos).
    split.
    + exists (l :: ls). split; [|reflexivity]. constructor; [lia|assumption].
    + destruct (nj =? 0); [|assumption]. destruct Hpos as [[-> (d & Hd & ->)]|(d & Hd & -> & Hle)].
      * left. split; [reflexivity|]. exists (1 + N.to_nat x + d). lia.
      * right. exists (1 + N.to_nat x + d). lia.
Qed.

(** Fuel beyond the bound changes nothing. *)
Lemma name_loop_fuel : forall p fuel nm paj nj b, name_loop p fuel nm paj nj b <> Diverge ->
  forall fuel', fuel <= fuel' -> name_loop p fuel' nm paj nj b = name_loop p fuel nm paj nj b.
Proof.
  intros p fuel. induction fuel as [|fuel IH]; intros nm paj nj b H fuel' Hf; [now cbn in H|].
  destruct fuel' as [|fuel']; [lia|]. cbn [name_loop] in *.
  destruct (read_u8 b) as [[o b1]| |]; cbn [bind] in *; try reflexivity.
  destruct o as [x|]; [|reflexivity]. cbv zeta in *.
  destruct (N.land x 192 =? 192)%N.
  - destruct (15 <? nj); [reflexivity|].
    destruct (read_u8 b1) as [[o2 b2]| |]; cbn [bind] in *; try reflexivity.
    destruct o2 as [y|]; [|reflexivity].
    destruct (chk_u16 _ _) as [j| |]; cbn [bind] in *; try reflexivity.
    destruct (set_read_pos _ _) as [b3| |]; cbn [bind] in *; try reflexivity.
    apply IH; [assumption|lia].
  - destruct (N.land x 192 =? 0)%N; [|reflexivity].
    destruct (63 <? x)%N; [reflexivity|]. destruct (x =? 0)%N; [reflexivity|].
    destruct (read_bytes_vec _ _) as [[o2 b2]| |]; cbn [bind] in *; try reflexivity.
    destruct o2 as [l|]; [|reflexivity].
    destruct (255 <? _); [reflexivity|]. apply IH; [assumption|lia].
Qed.

(** ** Labels of the decoded text *)
Lemma split_app_gen : forall a b, split DOT (a ++ DOT :: b) = split DOT a ++ split DOT b.
Proof.
  induction a as [|x a IH]; intros b; cbn [app split]; [reflexivity|].
  destruct (N.eqb_spec x DOT); rewrite IH; [reflexivity|].
  pose proof (split_nonempty a). now destruct (split DOT a).
Qed.

Lemma split_dotted_gen : forall ls, split DOT (dotted ls) = flat_map (split DOT) ls ++ [[]].
Proof.
  induction ls as [|l ls IH]; [reflexivity|].
  unfold dotted. cbn [flat_map]. fold (dotted ls). rewrite <- app_assoc. cbn [app].
  rewrite split_app_gen, IH. now rewrite app_assoc.
Qed.

Lemma split_piece_length : forall s l, In l (split DOT s) -> length l <= length s.
Proof.
  induction s as [|x s IH]; intros l H; cbn [split] in H.
  - destruct H as [<-|[]]. reflexivity.
  - destruct (N.eqb_spec x DOT).
    + destruct H as [<-|H]; cbn; [lia|]. specialize (IH l H). lia.
    + destruct (split DOT s) as [|h t]; [destruct H as [<-|[]]; cbn; lia|].
      destruct H as [<-|H].
      * specialize (IH h ltac:(now left)). cbn. lia.
      * specialize (IH l ltac:(now right)). cbn. lia.
Qed.

Lemma name_text_split_short : forall ws s ls, s = name_text ws -> wire_labels ws -> is_name s ls ->
  Forall (fun l => length l <= 63) ls.
Proof.
  intros ws s ls E Hw (E2 & Hg & _). destruct ls as [|l ls]; [constructor|].
  destruct ws as [|w ws].
  { exfalso. subst s. cbn [name_text] in E2. inversion Hg as [|? ? (Hne & _) _]; subst.
    unfold dotted in E2. cbn [flat_map] in E2. apply (f_equal (@length N)) in E2.
    rewrite !app_length in E2. cbn [length] in E2. destruct l; [easy|]. cbn [length] in E2. lia. }
  subst s. cbn [name_text] in E2.
  pose proof (split_dotted_gen (w :: ws)) as S1. rewrite E2 in S1.
  rewrite (split_dotted (l :: ls)) in S1 by now apply goods_nodot.
  apply app_inj_tail in S1 as [S1 _]. rewrite S1. apply Forall_forall. intros x Hx.
  apply in_flat_map in Hx as (y & Hy & Hx). apply split_piece_length in Hx.
  unfold wire_labels in Hw. rewrite Forall_forall in Hw. specialize (Hw y Hy). cbn in Hw. lia.
Qed.

Lemma name_from_bytes_general : forall p pkt r, is_bytes pkt -> r <= 8 * length pkt ->
  match name_from_bytes p (at_ pkt r) with
  | Done (res, b') =>
      exists r', b' = at_ pkt r' /\ r' <= 8 * length pkt /\
      match res with
      | Err _ => True
      | Ok n => (exists ls, is_name n ls /\ Forall (fun l => length l <= 63) ls) /\
                exists d, 1 <= d /\ r' = r + 8 * d
      end
  | Panic k => (k = POverflow /\ p = Debug) \/ k = PExplicit
  | Diverge => False
  end.
Proof.
  intros p pkt r Hp Hr. unfold name_from_bytes.
  pose proof (name_loop_general p name_fuel [] 0 0 pkt r Hp Hr ltac:(lia) ltac:(cbn; lia)
    ltac:(cbn [length]; unfold name_fuel; lia)) as G.
  destruct (name_loop _ _ _ _ _ _) as [[res b1]|k|]; cbn [bind]; [|exact G|exact G].
  destruct G as (r1 & -> & Hr1 & G). destruct res as [[nm paj]|e].
  2:{ exists r1. now repeat split. }
  destruct G as ((ws & Hws & Enm) & Hpos). cbn [Nat.eqb] in Hpos.
  assert (Hset : exists r2, (if 0 <? paj then set_read_pos (at_ pkt r1) paj else Done (at_ pkt r1)) = Done (at_ pkt r2)
            /\ r2 <= 8 * length pkt /\ exists d, 1 <= d /\ r2 = r + 8 * d).
  { destruct Hpos as [[-> (d & Hd & ->)]|(d & Hd & -> & Hle)].
    - exists (r + 8 * d). split; [reflexivity|]. split; [assumption|]. exists d. now split.
    - replace (0 <? r + 8 * d) with true by (symmetry; apply Nat.ltb_lt; lia).
      rewrite set_read_pos_at. replace (r + 8 * d <=? 8 * length pkt) with true by (symmetry; now apply Nat.leb_le).
      exists (r + 8 * d). split; [reflexivity|]. split; [assumption|]. exists d. split; [lia|reflexivity]. }
  destruct Hset as (r2 & -> & Hr2 & Hd). cbn [bind].
  destruct (utf8_valid nm); [|exists r2; now repeat split].
  destruct (validate_name nm) as [[]|e] eqn:Ev; [|exists r2; now repeat split].
  exists r2. split; [reflexivity|]. split; [assumption|]. split; [|assumption].
  apply validate_name_ok in Ev as (ls & Hls). exists ls. split; [assumption|].
  apply (name_text_split_short ws nm); try assumption. rewrite Enm. apply extend_nil.
  eapply Forall_impl; [|exact Hws]. cbn. lia.
Qed.

(** ** Aligned decoding = RFC relation *)
Lemma name_loop_sound : forall p fuel nm paj nj pkt k nm' paj' b', is_bytes pkt -> k <= length pkt ->
  nj <= 16 -> name_loop p fuel nm paj nj (at_ pkt (8 * k)) = Done (Ok (nm', paj'), b') ->
  exists ls j e, wire_name (pointer_of p) pkt k ls j e /\ nj + j <= 16 /\
    nm' = extend nm ls ++ [DOT] /\
    (if nj =? 0 then
       (j = 0 /\ paj' = paj /\ b' = at_ pkt (8 * e)) \/ (1 <= j /\ paj' = 8 * e)
     else paj' = paj).
Proof.
  intros p fuel. induction fuel as [|fuel IH]; intros nm paj nj pkt k nm' paj' b' Hp Hk Hnj E; [discriminate|].
  loop_step E. cbv zeta in E.
  destruct (Nat.ltb_spec (8 * length pkt) (8 * k + 8)) as [H|H]; [discriminate|].
  rewrite rb8_aligned in E by (assumption || lia).
  assert (Hnth : nth_error pkt k = Some (nth k pkt 0%N)) by (apply nth_error_nth'; lia).
  pose proof (is_byte_nth pkt k Hp) as Hx.
  set (x := nth k pkt 0%N) in *. clearbody x.
  destruct (N.leb_spec 192 x) as [Hx1|Hx1].
  - destruct (Nat.ltb_spec 15 nj) as [Hj|Hj]; [discriminate|].
    destruct (Nat.ltb_spec (8 * length pkt) (8 * k + 16)) as [H2|H2]; [discriminate|].
    replace (8 * k + 8) with (8 * (k + 1)) in E by lia.
    rewrite rb8_aligned in E by (assumption || lia).
    assert (Hnth2 : nth_error pkt (k + 1) = Some (nth (k + 1) pkt 0%N)) by (apply nth_error_nth'; lia).
    set (y := nth (k + 1) pkt 0%N) in *. clearbody y.
    destruct (jump_target p _) as [t| |] eqn:Et; cbn [bind] in E; try discriminate.
    destruct (Nat.leb_spec t (length pkt)) as [Ht|Ht]; [|discriminate].
    apply IH in E as (ls & j & e & Hw & Hj' & -> & Hpos); try (assumption || lia).
    exists ls, (S j), (k + 2). split; [|split; [lia|split; [reflexivity|]]].
    + eapply wn_pointer; try eassumption; [unfold is_byte in Hx; lia|].
      unfold jump_target in Et. unfold pointer_of, low_pointer, wrapped_pointer.
      destruct p; [destruct (_ <? _)%N; [|discriminate]|]; injection Et as <-; reflexivity.
    + cbn [Nat.eqb] in Hpos. subst paj'. destruct (nj =? 0); [|reflexivity].
      right. lia.
  - destruct (N.leb_spec x 63) as [Hx2|Hx2]; [|discriminate].
    destruct (N.eqb_spec x 0) as [E0|Hx0]; [subst x|].
    { injection E as <- <- <-. exists [], 0, (k + 1). split; [now constructor|].
      split; [lia|]. split; [reflexivity|]. destruct (nj =? 0); [|reflexivity].
      left. repeat split. f_equal. lia. }
    destruct (Nat.ltb_spec (8 * length pkt) (8 * k + 8 + N.to_nat x * 8)) as [H2|H2]; [discriminate|].
    destruct (Nat.ltb_spec 255 (length (match nm with [] => [] | _ => nm ++ [DOT] end ++ rbs pkt (8 * k + 8) (N.to_nat x))));
      [discriminate|].
    set (l := rbs pkt (8 * k + 8) (N.to_nat x)) in *.
    assert (Ll : length l = N.to_nat x) by apply rbs_length.
    assert (El : firstn (length l) (skipn (k + 1) pkt) = l).
    { rewrite Ll. unfold l. replace (8 * k + 8) with (8 * (k + 1)) by lia.
      symmetry. apply rbs_aligned; [assumption|lia]. }
    clearbody l.
    replace (8 * k + 8 + N.to_nat x * 8) with (8 * (k + 1 + length l)) in E by lia.
    apply IH in E as (ls & j & e & Hw & Hj' & -> & Hpos); try (assumption || lia).
    exists (l :: ls), j, e. split; [|split; [lia|split; [reflexivity|exact Hpos]]].
    apply wn_label; try assumption; try lia. rewrite Hnth. f_equal. lia.
Qed.

Lemma wire_name_labels : forall T pkt k ls j e, wire_name T pkt k ls j e -> wire_labels ls.
Proof. intros T pkt k ls j e H. induction H; [constructor|now constructor|assumption]. Qed.

Lemma wire_name_bound : forall T pkt k ls j e, wire_name T pkt k ls j e ->
  k < length pkt /\ k < e <= length pkt.
Proof.
  intros T pkt k ls j e H. induction H as [k H|k l ls j e Hl H H1 Hw IH|k hi lo t ls j e H1 Hh H2 HT Hw IH].
  - assert (k < length pkt) by (apply nth_error_Some; congruence). lia.
  - assert (k < length pkt) by (apply nth_error_Some; congruence). lia.
  - assert (k + 1 < length pkt) by (apply nth_error_Some; congruence). lia.
Qed.

Lemma name_loop_complete : forall T pkt k ls j e, wire_name T pkt k ls j e ->
  forall p fuel nm paj nj, T = pointer_of p -> is_bytes pkt -> nj + j <= 16 ->
  length (extend nm ls) <= 255 -> j + length ls < fuel ->
  exists b' paj', name_loop p fuel nm paj nj (at_ pkt (8 * k)) = Done (Ok (extend nm ls ++ [DOT], paj'), b') /\
    (exists r', b' = at_ pkt r' /\ r' <= 8 * length pkt) /\
    (if nj =? 0 then
       (j = 0 /\ paj' = paj /\ b' = at_ pkt (8 * e)) \/ (1 <= j /\ paj' = 8 * e)
     else paj' = paj).
Proof.
  intros T pkt k ls j e H.
  induction H as [k H|k l ls j e Hl H H1 Hw IH|k hi lo t ls j e H1 Hh H2 HT Hw IH];
    intros p fuel nm paj nj -> Hp Hj Hlen Hf; (destruct fuel as [|fuel]; [lia|]).
  - assert (Hk : k < length pkt) by (apply nth_error_Some; congruence).
    rewrite name_loop_step by (assumption || lia). cbv zeta.
    replace (8 * length pkt <? 8 * k + 8) with false by (symmetry; apply Nat.ltb_ge; lia).
    rewrite rb8_aligned by assumption. rewrite (nth_error_nth pkt k 0%N H). cbn [N.leb N.compare N.eqb].
    eexists _, paj. split; [reflexivity|]. split; [exists (8 * k + 8); split; [reflexivity|lia]|].
    destruct (nj =? 0); [|reflexivity]. left. repeat split. f_equal. lia.
  - assert (Hk : k < length pkt) by (apply nth_error_Some; congruence).
    pose proof (wire_name_bound _ _ _ _ _ _ Hw) as [Hb1 Hb2].
    rewrite name_loop_step by (assumption || lia). cbv zeta.
    replace (8 * length pkt <? 8 * k + 8) with false by (symmetry; apply Nat.ltb_ge; lia).
    rewrite rb8_aligned by assumption. rewrite (nth_error_nth pkt k 0%N H).
    replace (192 <=? N.of_nat (length l))%N with false by (symmetry; apply N.leb_gt; lia).
    replace (N.of_nat (length l) <=? 63)%N with true by (symmetry; apply N.leb_le; lia).
    replace (N.of_nat (length l) =? 0)%N with false by (symmetry; apply N.eqb_neq; lia).
    rewrite Nat2N.id.
    replace (8 * length pkt <? 8 * k + 8 + length l * 8) with false by (symmetry; apply Nat.ltb_ge; lia).
    replace (8 * k + 8) with (8 * (k + 1)) by lia. rewrite rbs_aligned by (assumption || lia).
    rewrite H1. rewrite extend_cons in *.
    pose proof (wire_name_labels _ _ _ _ _ _ Hw) as Hwl.
    assert (Hwl1 : Forall (fun l => 1 <= length l) ls) by (eapply Forall_impl; [|exact Hwl]; cbn; lia).
    pose proof (extend_length_mono ls (match nm with [] => [] | _ => nm ++ [DOT] end ++ l) Hwl1) as Hm.
    replace (255 <? length (match nm with [] => [] | _ => nm ++ [DOT] end ++ l)) with false
      by (symmetry; apply Nat.ltb_ge; lia).
    replace (8 * (k + 1) + length l * 8) with (8 * (k + 1 + length l)) by lia.
    cbn [length] in Hf. apply IH; try assumption; try reflexivity. lia.
  - assert (Hk : k + 1 < length pkt) by (apply nth_error_Some; congruence).
    pose proof (wire_name_bound _ _ _ _ _ _ Hw) as [Hb1 Hb2].
    rewrite name_loop_step by (assumption || lia). cbv zeta.
    replace (8 * length pkt <? 8 * k + 8) with false by (symmetry; apply Nat.ltb_ge; lia).
    rewrite rb8_aligned by (assumption || lia). rewrite (nth_error_nth pkt k 0%N H1).
    replace (192 <=? hi)%N with true by (symmetry; apply N.leb_le; lia).
    replace (15 <? nj) with false by (symmetry; apply Nat.ltb_ge; lia).
    replace (8 * length pkt <? 8 * k + 16) with false by (symmetry; apply Nat.ltb_ge; lia).
    replace (8 * k + 8) with (8 * (k + 1)) by lia.
    rewrite rb8_aligned by (assumption || lia). rewrite (nth_error_nth pkt (k + 1) 0%N H2).
    assert (Et : jump_target p ((hi - 192) * 256 + lo)%N = Done t).
    { unfold jump_target. unfold pointer_of, low_pointer, wrapped_pointer in HT.
      destruct p; [destruct (_ <? _)%N; [|discriminate]|]; injection HT as <-; reflexivity. }
    rewrite Et. cbn [bind].
    replace (t <=? length pkt) with true by (symmetry; apply Nat.leb_le; lia).
    destruct (IH p fuel nm (if nj =? 0 then 8 * k + 16 else paj) (S nj) eq_refl Hp ltac:(lia) Hlen ltac:(lia))
      as (b' & paj' & E & Hb' & Hpos).
    exists b', paj'. split; [exact E|]. split; [assumption|]. cbn [Nat.eqb] in Hpos. subst paj'.
    destruct (nj =? 0); [|reflexivity]. right. lia.
Qed.

Lemma name_from_bytes_sound : forall p pkt k n b', is_bytes pkt -> k <= length pkt ->
  name_from_bytes p (at_ pkt (8 * k)) = Done (Ok n, b') ->
  exists ls j e, wire_name (pointer_of p) pkt k ls j e /\ j <= 16 /\ n = name_text ls /\ accepted n /\
    b' = at_ pkt (8 * e).
Proof.
  intros p pkt k n b' Hp Hk E. unfold name_from_bytes in E.
  assert (Hf : 272 < name_fuel) by (unfold name_fuel; lia).
  revert Hf E. generalize name_fuel. intros fuel Hf E.
  destruct (name_loop _ _ _ _ _ _) as [[[[nm paj]|e] b1]| |] eqn:El; cbn [bind] in E; try discriminate.
  pose proof (name_loop_general p fuel [] 0 0 pkt (8 * k) Hp ltac:(lia) ltac:(lia) ltac:(cbn; lia)
    ltac:(cbn [length]; lia)) as G. rewrite El in G.
  destruct G as (r1 & Eb1 & Hr1 & _).
  apply name_loop_sound in El as (ls & j & e & Hw & Hj & -> & Hpos); try (assumption || lia).
  exists ls, j, e. split; [assumption|]. split; [lia|].
  pose proof (wire_name_bound _ _ _ _ _ _ Hw) as [Hb1 Hb2].
  assert (Hset : (if 0 <? paj then set_read_pos b1 paj else Done b1) = Done (at_ pkt (8 * e))).
  { cbn [Nat.eqb] in Hpos. destruct Hpos as [(-> & -> & ->)|(Hj1 & ->)].
    - reflexivity.
    - replace (0 <? 8 * e) with true by (symmetry; apply Nat.ltb_lt; lia).
      rewrite Eb1, set_read_pos_at.
      now replace (8 * e <=? 8 * length pkt) with true by (symmetry; apply Nat.leb_le; lia). }
  rewrite Hset in E. cbn [bind] in E.
  rewrite extend_nil in E.
  2:{ eapply Forall_impl; [|exact (wire_name_labels _ _ _ _ _ _ Hw)]. cbn. lia. }
  destruct (utf8_valid _); [|discriminate].
  destruct (validate_name _) as [[]|] eqn:Ev; [|discriminate].
  injection E as <- <-. repeat split. now apply validate_name_ok.
Qed.

Lemma name_from_bytes_complete : forall p pkt k ls j e, is_bytes pkt ->
  wire_name (pointer_of p) pkt k ls j e -> j <= 16 -> accepted (name_text ls) ->
  name_from_bytes p (at_ pkt (8 * k)) = Done (Ok (name_text ls), at_ pkt (8 * e)).
Proof.
  intros p pkt k ls j e Hp Hw Hj Hacc.
  assert (Hl1 : Forall (fun l => 1 <= length l) ls).
  { eapply Forall_impl; [|exact (wire_name_labels _ _ _ _ _ _ Hw)]. cbn. lia. }
  assert (Hlen : length (extend [] ls) + 1 <= 255).
  { destruct Hacc as (ls' & E & _ & L). rewrite <- (extend_nil ls) in L by assumption.
    rewrite app_length in L. exact L. }
  pose proof (extend_length_mono ls [] Hl1) as Hm. cbn [length] in Hm.
  pose proof (wire_name_bound _ _ _ _ _ _ Hw) as [Hb1 Hb2].
  unfold name_from_bytes.
  assert (Hf : 272 < name_fuel) by (unfold name_fuel; lia).
  revert Hf. generalize name_fuel. intros fuel Hf.
  destruct (name_loop_complete _ _ _ _ _ _ Hw p fuel [] 0 0 eq_refl Hp ltac:(lia) ltac:(lia)
    ltac:(lia)) as (b1 & paj & El & (r' & Eb & Hr') & Hpos).
  rewrite El. cbn [bind].
  assert (Hset : (if 0 <? paj then set_read_pos b1 paj else Done b1) = Done (at_ pkt (8 * e))).
  { cbn [Nat.eqb] in Hpos. destruct Hpos as [(-> & -> & ->)|(Hj1 & ->)].
    - reflexivity.
    - replace (0 <? 8 * e) with true by (symmetry; apply Nat.ltb_lt; lia).
      rewrite Eb, set_read_pos_at.
      now replace (8 * e <=? 8 * length pkt) with true by (symmetry; apply Nat.leb_le; lia). }
  rewrite Hset. cbn [bind]. rewrite extend_nil by assumption.
  rewrite accepted_utf8 by assumption.
  apply validate_name_ok in Hacc. now rewrite Hacc.
Qed.

(** Uncompressed names inside a packet. *)
Lemma nth_error_mid : forall A (pre : list A) x post, nth_error (pre ++ x :: post) (length pre) = Some x.
Proof. intros. rewrite nth_error_app2 by lia. now rewrite Nat.sub_diag. Qed.

Lemma plain_wire_name : forall T ls pre post,
  Forall (fun l => 1 <= length l <= 63) ls ->
  wire_name T (pre ++ plain_wire ls ++ post) (length pre) ls 0 (length pre + length (plain_wire ls)).
Proof.
  intros T ls. induction ls as [|l ls IH]; intros pre post H.
  - cbn [plain_wire flat_map app length]. constructor. apply nth_error_mid.
  - inversion H; subst.
    assert (Epkt : pre ++ plain_wire (l :: ls) ++ post
                   = (pre ++ N.of_nat (length l) :: l) ++ plain_wire ls ++ post).
    { unfold plain_wire. cbn [flat_map]. now rewrite <- !app_assoc. }
    assert (Elen : length (plain_wire (l :: ls)) = 1 + length l + length (plain_wire ls)).
    { unfold plain_wire. cbn [flat_map]. rewrite <- app_assoc. cbn [app length]. rewrite !app_length. lia. }
    apply wn_label; try assumption.
    + rewrite Epkt. rewrite <- app_assoc. apply nth_error_mid.
    + rewrite Epkt. rewrite <- app_assoc. rewrite skipn_app.
      rewrite skipn_all2 by lia. replace (length pre + 1 - length pre) with 1 by lia.
      cbn [app skipn]. rewrite firstn_app, firstn_all, Nat.sub_diag. cbn [firstn]. apply app_nil_r.
    + rewrite Epkt, Elen.
      replace (length pre + 1 + length l) with (length (pre ++ N.of_nat (length l) :: l))
        by (rewrite app_length; cbn [length]; lia).
      replace (length pre + (1 + length l + length (plain_wire ls)))
        with (length (pre ++ N.of_nat (length l) :: l) + length (plain_wire ls))
        by (rewrite app_length; cbn [length]; lia).
      now apply IH.
Qed.

Lemma name_round_trip : forall p n ls pre post, is_name n ls -> ls <> [] ->
  Forall (fun l => length l <= 63) ls -> is_bytes pre -> is_bytes post ->
  name_from_bytes p (at_ (pre ++ name_wire n ++ post) (8 * length pre))
  = Done (Ok n, at_ (pre ++ name_wire n ++ post) (8 * (length pre + length (name_wire n)))).
Proof.
  intros p n ls pre post Hn Hne Hl Hpre Hpost.
  rewrite (name_wire_spec n ls) by assumption.
  pose proof Hn as (En & Hg & Hlen).
  assert (Hl1 : Forall (fun l => 1 <= length l <= 63) ls).
  { rewrite Forall_forall in *. intros l Hin. specialize (Hl l Hin). destruct (Hg l Hin) as (Hne' & _).
    destruct l; [easy|]. cbn in *. lia. }
  rewrite En. apply name_from_bytes_complete with (j := 0).
  - apply Forall_app. split; [assumption|]. apply Forall_app. split; [|assumption].
    apply plain_wire_bytes. rewrite Forall_forall in *. intros l Hin. split; [now apply Hg|].
    specialize (Hl l Hin). lia.
  - now apply plain_wire_name.
  - lia.
  - exists ls. now rewrite <- En.
Qed.
