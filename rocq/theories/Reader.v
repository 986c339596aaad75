(** Reading from a received packet: equations for the buffer states that occur
    while decoding ([from_raw_bytes l] with the read position moved). *)
From Verif Require Import Base Buffer BufferSpec BufferProofs.

Definition at_ (l : list N) (r : nat) : bitsbuf := mkBuf l (length l * 8) (length l * 8) r.

Lemma from_raw_at : forall l, from_raw_bytes l = at_ l 0.
Proof. reflexivity. Qed.

(** Value of the [n] bits at bit offset [r], and the [n] bytes at bit offset [r]. *)
Definition rb (l : list N) (r n : nat) : N := val (firstn n (skipn r (unpack l))).
Definition rbs (l : list N) (r n : nat) : list N := chunks n (firstn (n * 8) (skipn r (unpack l))).

Lemma R_at : forall l r, is_bytes l -> r <= 8 * length l ->
  R (at_ l r) (mkS (unpack l) r (8 * length l)).
Proof.
  intros l r H Hr. split; cbn [buf last w_pos r_pos content rd wr at_];
    rewrite ?unpack_length; try lia. symmetry. now apply pack_unpack.
Qed.

Lemma read_bits_at : forall l r n, is_bytes l -> r <= 8 * length l -> n <= 8 ->
  read_bits (at_ l r) n =
  if r + n <=? 8 * length l then Done (Some (rb l r n), at_ l (r + n)) else Done (None, at_ l r).
Proof.
  intros l r n H Hr Hn. pose proof (R_at l r H Hr) as HR.
  destruct (Nat.leb_spec (r + n) (8 * length l)).
  - rewrite (read_bits_ok _ _ n HR Hn); [reflexivity|]. cbn [rd content]. now rewrite unpack_length.
  - apply (read_bits_none _ _ n HR Hn). cbn [rd content]. now rewrite unpack_length.
Qed.

Lemma read_u8_at : forall l r, is_bytes l -> r <= 8 * length l ->
  read_u8 (at_ l r) =
  if r + 8 <=? 8 * length l then Done (Some (rb l r 8), at_ l (r + 8)) else Done (None, at_ l r).
Proof. intros. now apply read_bits_at. Qed.

Lemma read_u16_at : forall l r, is_bytes l -> r <= 8 * length l ->
  read_u16 (at_ l r) =
  if r + 16 <=? 8 * length l then Done (Some (rb l r 16), at_ l (r + 16)) else Done (None, at_ l r).
Proof.
  intros l r H Hr. pose proof (R_at l r H Hr) as HR.
  destruct (Nat.leb_spec (r + 16) (8 * length l)).
  - rewrite (read_u16_ok _ _ HR); [reflexivity|]. cbn [rd content]. now rewrite unpack_length.
  - unfold read_u16. cbn [last r_pos at_].
    now replace (length l * 8 <? r + 16) with true by (symmetry; apply Nat.ltb_lt; lia).
Qed.

Lemma read_u32_at : forall l r, is_bytes l -> r <= 8 * length l ->
  read_u32 (at_ l r) =
  if r + 32 <=? 8 * length l then Done (Some (rb l r 32), at_ l (r + 32)) else Done (None, at_ l r).
Proof.
  intros l r H Hr. pose proof (R_at l r H Hr) as HR.
  destruct (Nat.leb_spec (r + 32) (8 * length l)).
  - rewrite (read_u32_ok _ _ HR); [reflexivity|]. cbn [rd content]. now rewrite unpack_length.
  - unfold read_u32. cbn [last r_pos at_].
    now replace (length l * 8 <? r + 32) with true by (symmetry; apply Nat.ltb_lt; lia).
Qed.

Lemma read_bytes_at : forall l r n, is_bytes l -> r <= 8 * length l ->
  read_bytes_vec (at_ l r) n =
  if r + n * 8 <=? 8 * length l then Done (Some (rbs l r n), at_ l (r + n * 8)) else Done (None, at_ l r).
Proof.
  intros l r n H Hr. pose proof (R_at l r H Hr) as HR. unfold read_bytes_vec.
  cbn [last r_pos at_].
  destruct (Nat.leb_spec (r + n * 8) (8 * length l)).
  - replace (length l * 8 <? r + n * 8) with false by (symmetry; apply Nat.ltb_ge; lia).
    rewrite (read_n_ok n _ _ HR); [reflexivity|]. cbn [rd content]. rewrite unpack_length. lia.
  - now replace (length l * 8 <? r + n * 8) with true by (symmetry; apply Nat.ltb_lt; lia).
Qed.

Lemma set_read_pos_at : forall l r r', 
  set_read_pos (at_ l r) r' = if r' <=? 8 * length l then Done (at_ l r') else Panic PExplicit.
Proof.
  intros l r r'. unfold set_read_pos. cbn [last buf w_pos at_].
  destruct (Nat.leb_spec r' (8 * length l)).
  - now replace (length l * 8 <? r') with false by (symmetry; apply Nat.ltb_ge; lia).
  - now replace (length l * 8 <? r') with true by (symmetry; apply Nat.ltb_lt; lia).
Qed.

(** ** Bounds *)
Lemma rb_bound : forall l r n, (rb l r n < 2 ^ N.of_nat n)%N.
Proof. intros. apply val_firstn_bound. Qed.

Lemma rb_byte : forall l r, is_byte (rb l r 8).
Proof. intros. apply (rb_bound l r 8). Qed.

Lemma chunks_length : forall k l, length (chunks k l) = k.
Proof. induction k; intros l; cbn; [reflexivity|]. now rewrite IHk. Qed.

Lemma chunks_is_bytes : forall k l, is_bytes (chunks k l).
Proof.
  induction k; intros l; cbn [chunks]; constructor; [|apply IHk].
  exact (val_firstn_bound 8 l).
Qed.

Lemma rbs_length : forall l r n, length (rbs l r n) = n.
Proof. intros. apply chunks_length. Qed.

Lemma rbs_is_bytes : forall l r n, is_bytes (rbs l r n).
Proof. intros. apply chunks_is_bytes. Qed.

(** ** Aligned reads *)
Lemma skipn_unpack : forall k l, skipn (8 * k) (unpack l) = unpack (skipn k l).
Proof.
  induction k; intros l; [reflexivity|].
  destruct l as [|x l]; [now rewrite skipn_nil|].
  replace (8 * S k) with (8 + 8 * k) by lia. rewrite <- skipn_add.
  change (unpack (x :: l)) with (field 8 x ++ unpack l).
  change (skipn (S k) (x :: l)) with (skipn k l).
  rewrite skipn_app, (skipn_all2 (field 8 x)) by (rewrite field_length; lia).
  rewrite field_length. cbn [app Nat.sub skipn]. apply IHk.
Qed.

Lemma unpack_app : forall a b, unpack (a ++ b) = unpack a ++ unpack b.
Proof. intros. apply flat_map_app. Qed.

Lemma firstn_unpack : forall n l, firstn (n * 8) (unpack l) = unpack (firstn n l).
Proof.
  intros n l. destruct (Nat.le_gt_cases (length l) n).
  - rewrite (firstn_all2 l) by lia. apply firstn_all2. rewrite unpack_length. lia.
  - rewrite <- (firstn_skipn n l) at 1. rewrite unpack_app, firstn_app.
    assert (L : length (firstn n l) = n) by (rewrite firstn_length; lia).
    rewrite unpack_length, L. replace (n * 8 - 8 * n) with 0 by lia.
    cbn [firstn]. rewrite app_nil_r. apply firstn_all2. rewrite unpack_length, L. lia.
Qed.

Lemma chunks_unpack_n : forall l n, is_bytes l -> n = length l -> chunks n (unpack l) = l.
Proof.
  induction l as [|x l IH]; intros n H ->; [reflexivity|]. inversion H; subst.
  cbn [length chunks].
  change (unpack (x :: l)) with (field 8 x ++ unpack l).
  rewrite firstn_app, skipn_app, field_length, Nat.sub_diag.
  rewrite firstn_O, app_nil_r, firstn_all2, skipn_all2 by (rewrite field_length; lia).
  change (skipn 0 (unpack l)) with (unpack l). cbn [app]. rewrite IH by (assumption || reflexivity).
  rewrite val_field. change (2 ^ N.of_nat 8)%N with 256%N.
  unfold is_byte in *. now rewrite N.mod_small.
Qed.

Lemma is_bytes_firstn : forall n l, is_bytes l -> is_bytes (firstn n l).
Proof. intros n l H. unfold is_bytes in *. rewrite Forall_forall in *. intros x Hx. apply H.
  rewrite <- (firstn_skipn n l). apply in_or_app. now left. Qed.

Lemma is_bytes_skipn : forall n l, is_bytes l -> is_bytes (skipn n l).
Proof. intros n l H. unfold is_bytes in *. rewrite Forall_forall in *. intros x Hx. apply H.
  rewrite <- (firstn_skipn n l). apply in_or_app. now right. Qed.

Lemma rbs_aligned : forall l k n, is_bytes l -> k + n <= length l ->
  rbs l (8 * k) n = firstn n (skipn k l).
Proof.
  intros l k n H Hk. unfold rbs. rewrite skipn_unpack, firstn_unpack.
  apply chunks_unpack_n.
  - now apply is_bytes_firstn, is_bytes_skipn.
  - rewrite firstn_length, skipn_length. lia.
Qed.

Lemma rb8_aligned : forall l k, is_bytes l -> k < length l -> rb l (8 * k) 8 = nth k l 0%N.
Proof.
  intros l k H Hk. unfold rb. rewrite skipn_unpack. change 8 with (1 * 8) at 1.
  rewrite firstn_unpack.
  assert (E : firstn 1 (skipn k l) = [nth k l 0%N]).
  { rewrite <- (firstn_skipn k l) at 2. rewrite app_nth2 by (rewrite firstn_length; lia).
    replace (k - length (firstn k l)) with 0 by (rewrite firstn_length; lia).
    destruct (skipn k l) eqn:E; [|reflexivity].
    apply (f_equal (@length N)) in E. rewrite skipn_length in E. cbn in E. lia. }
  rewrite E. unfold unpack. cbn [flat_map]. rewrite app_nil_r, val_field.
  apply N.mod_small. now apply is_byte_nth.
Qed.

Lemma rb_app : forall l r n m, r + n + m <= 8 * length l ->
  rb l r (n + m) = (rb l r n * 2 ^ N.of_nat m + rb l (r + n) m)%N.
Proof.
  intros l r n m H. unfold rb. rewrite firstn_add, val_app, skipn_add.
  now rewrite firstn_length, skipn_length, unpack_length, Nat.min_l by lia.
Qed.

Lemma rb16_aligned : forall l k, is_bytes l -> k + 2 <= length l ->
  rb l (8 * k) 16 = (nth k l 0 * 256 + nth (k + 1) l 0)%N.
Proof.
  intros l k H Hk. change 16 with (8 + 8). rewrite rb_app by lia.
  replace (8 * k + 8) with (8 * (k + 1)) by lia.
  now rewrite !rb8_aligned by (assumption || lia).
Qed.

Lemma rb32_aligned : forall l k, is_bytes l -> k + 4 <= length l ->
  rb l (8 * k) 32 =
  (nth k l 0 * 16777216 + nth (k + 1) l 0 * 65536 + nth (k + 2) l 0 * 256 + nth (k + 3) l 0)%N.
Proof.
  intros l k H Hk. change 32 with (16 + 16). rewrite rb_app by lia.
  replace (8 * k + 16) with (8 * (k + 2)) by lia.
  rewrite !rb16_aligned by (assumption || lia).
  replace (k + 2 + 1) with (k + 3) by lia. change (2 ^ N.of_nat 16)%N with 65536%N. lia.
Qed.
