(** Refinement of the bit string specification by the model of buffer.rs. *)
From Verif Require Import Base Buffer BufferSpec.

(** * Bit level view of byte lists *)

Definition bit_at (l : list N) (i : nat) : bool :=
  N.testbit (nth (i / 8) l 0%N) (N.of_nat (7 - i mod 8)).

Lemma testbit_byte_high : forall x j, is_byte x -> (8 <= j)%N -> N.testbit x j = false.
Proof.
  intros x j Hx Hj. unfold is_byte in Hx.
  destruct (N.eq_dec x 0) as [->|Hz]; [apply N.bits_0|].
  apply N.bits_above_log2. apply N.lt_le_trans with 8%N; [|assumption].
  apply N.log2_lt_pow2; [lia|]. exact Hx.
Qed.

Lemma byte_ext : forall x y, is_byte x -> is_byte y ->
  (forall j, (j < 8)%N -> N.testbit x j = N.testbit y j) -> x = y.
Proof.
  intros x y Hx Hy H. apply N.bits_inj. intros j.
  destruct (N.lt_ge_cases j 8); [now apply H|].
  now rewrite !testbit_byte_high.
Qed.

Lemma is_byte_bits : forall x, (forall j, (8 <= j)%N -> N.testbit x j = false) -> is_byte x.
Proof.
  intros x H. unfold is_byte.
  replace x with (x mod 2 ^ 8)%N; [apply N.mod_lt; discriminate|].
  apply N.bits_inj. intros j. destruct (N.lt_ge_cases j 8).
  - now apply N.mod_pow2_bits_low.
  - rewrite N.mod_pow2_bits_high by assumption. symmetry. now apply H.
Qed.

Lemma divmod8 : forall i, i = 8 * (i / 8) + i mod 8 /\ i mod 8 < 8.
Proof. intros i. split; [apply Nat.div_mod; discriminate | apply Nat.mod_upper_bound; discriminate]. Qed.

Lemma div8_eq : forall i q r, i = 8 * q + r -> r < 8 -> i / 8 = q /\ i mod 8 = r.
Proof.
  intros i q r H Hr. pose proof (divmod8 i) as [H1 H2]. lia.
Qed.

Lemma bytes_ext : forall a b, is_bytes a -> is_bytes b -> length a = length b ->
  (forall i, i < 8 * length a -> bit_at a i = bit_at b i) -> a = b.
Proof.
  induction a as [|x a IH]; destruct b as [|y b]; cbn [length]; intros Ha Hb Hl H; try easy.
  inversion Ha; inversion Hb; subst. f_equal.
  - apply byte_ext; try assumption. intros j Hj.
    specialize (H (7 - N.to_nat j) ltac:(lia)). unfold bit_at in H.
    destruct (div8_eq (7 - N.to_nat j) 0 (7 - N.to_nat j)) as [E1 E2]; [lia..|].
    rewrite E1, E2 in H. cbn [nth] in H.
    now replace (N.of_nat (7 - (7 - N.to_nat j))) with j in H by lia.
  - apply IH; try assumption; [lia|]. intros i Hi.
    specialize (H (8 + i) ltac:(lia)). unfold bit_at in *.
    destruct (div8_eq (8 + i) (S (i / 8)) (i mod 8)) as [E1 E2]; try (pose proof (divmod8 i); lia).
    rewrite E1, E2 in H. exact H.
Qed.

Lemma bit_at_beyond : forall l i, 8 * length l <= i -> bit_at l i = false.
Proof.
  intros l i H. unfold bit_at. rewrite nth_overflow; [apply N.bits_0|].
  pose proof (divmod8 i). lia.
Qed.

(** * Values of bit strings *)

Lemma fold_val : forall l a,
  fold_left (fun a b => (2 * a + (if b : bool then 1 else 0))%N) l a
  = (a * 2 ^ N.of_nat (length l) + val l)%N.
Proof.
  induction l as [|b l IH]; intros a; cbn [fold_left length].
  - cbn. lia.
  - unfold val. cbn [fold_left]. rewrite IH, (IH (2 * 0 + _)%N).
    rewrite Nat2N.inj_succ, N.pow_succ_r'. destruct b; lia.
Qed.

Lemma val_cons : forall b l, val (b :: l) = ((if b then 1 else 0) * 2 ^ N.of_nat (length l) + val l)%N.
Proof. intros b l. unfold val at 1. cbn [fold_left]. rewrite fold_val. destruct b; lia. Qed.

Lemma val_app : forall a b, val (a ++ b) = (val a * 2 ^ N.of_nat (length b) + val b)%N.
Proof. intros. unfold val at 1. rewrite fold_left_app. fold (val a). apply fold_val. Qed.

Lemma val_bound : forall l, (val l < 2 ^ N.of_nat (length l))%N.
Proof.
  induction l as [|b l IH]; [cbn; lia|].
  rewrite val_cons. cbn [length]. rewrite Nat2N.inj_succ, N.pow_succ_r'.
  destruct b; lia.
Qed.

Lemma val_testbit : forall l j, j < length l ->
  N.testbit (val l) (N.of_nat j) = nth (length l - 1 - j) l false.
Proof.
  induction l as [|b l IH]; intros j Hj; cbn [length] in *; [lia|].
  rewrite val_cons. pose proof (val_bound l) as Hb.
  destruct (Nat.eq_dec j (length l)) as [->|Hne].
  - replace (S (length l) - 1 - length l) with 0 by lia. cbn [nth].
    rewrite N.testbit_eqb.
    replace (((if b then 1 else 0) * 2 ^ N.of_nat (length l) + val l) / 2 ^ N.of_nat (length l))%N
      with (if b then 1 else 0)%N.
    + destruct b; reflexivity.
    + rewrite N.add_comm. rewrite N.div_add by (apply N.pow_nonzero; discriminate).
      rewrite N.div_small by assumption. lia.
  - replace (S (length l) - 1 - j) with (S (length l - 1 - j)) by lia. cbn [nth].
    rewrite <- IH by lia.
    replace (N.testbit (val l) (N.of_nat j))
      with (N.testbit (((if b then 1 else 0) * 2 ^ N.of_nat (length l) + val l) mod 2 ^ N.of_nat (length l)) (N.of_nat j)).
    + rewrite N.mod_pow2_bits_low by lia. reflexivity.
    + f_equal. rewrite N.add_comm, N.mod_add by (apply N.pow_nonzero; discriminate).
      now apply N.mod_small.
Qed.

Lemma val_testbit_high : forall l j, (N.of_nat (length l) <= j)%N -> N.testbit (val l) j = false.
Proof.
  intros l j H. pose proof (val_bound l) as Hb.
  destruct (N.eq_dec (val l) 0) as [->|Hz]; [apply N.bits_0|].
  apply N.bits_above_log2. apply N.lt_le_trans with (N.of_nat (length l)); [|assumption].
  apply N.log2_lt_pow2; lia.
Qed.

Lemma field_length : forall n v, length (field n v) = n.
Proof. intros. unfold field. now rewrite map_length, seq_length. Qed.

Lemma field_nth : forall n v i, i < n -> nth i (field n v) false = N.testbit v (N.of_nat (n - 1 - i)).
Proof.
  intros n v i H. unfold field.
  rewrite nth_indep with (d' := (fun i => N.testbit v (N.of_nat (n - 1 - i))) 0)
    by (rewrite map_length, seq_length; assumption).
  rewrite map_nth with (f := fun i => N.testbit v (N.of_nat (n - 1 - i))).
  now rewrite seq_nth.
Qed.

Lemma list_ext : forall (a b : bits), length a = length b ->
  (forall i, i < length a -> nth i a false = nth i b false) -> a = b.
Proof. intros. now apply nth_ext with (d := false) (d' := false). Qed.

Lemma val_field : forall n v, val (field n v) = (v mod 2 ^ N.of_nat n)%N.
Proof.
  intros n v. apply N.bits_inj. intros j.
  destruct (N.lt_ge_cases j (N.of_nat n)).
  - rewrite N.mod_pow2_bits_low by assumption.
    replace j with (N.of_nat (N.to_nat j)) by lia.
    rewrite val_testbit by (rewrite field_length; lia).
    rewrite field_length, field_nth by lia. f_equal. lia.
  - rewrite N.mod_pow2_bits_high by assumption.
    apply val_testbit_high. now rewrite field_length.
Qed.

Lemma field_val : forall l, field (length l) (val l) = l.
Proof.
  intros l. apply list_ext; [apply field_length|].
  rewrite field_length. intros i Hi. rewrite field_nth by assumption.
  rewrite val_testbit by lia. f_equal. lia.
Qed.

Lemma field_app : forall n m v, field (n + m) v = field n (N.shiftr v (N.of_nat m)) ++ field m v.
Proof.
  intros n m v. apply list_ext.
  - now rewrite app_length, !field_length.
  - rewrite field_length. intros i Hi. rewrite field_nth by assumption.
    destruct (Nat.lt_ge_cases i n).
    + rewrite app_nth1 by (rewrite field_length; assumption).
      rewrite field_nth, N.shiftr_spec' by assumption. f_equal. lia.
    + rewrite app_nth2; rewrite field_length; [|assumption].
      rewrite field_nth by lia. f_equal. lia.
Qed.

Lemma field_mod : forall n v, field n (v mod 2 ^ N.of_nat n) = field n v.
Proof. intros. now rewrite <- val_field, <- (field_length n v) at 1; rewrite field_val. Qed.

Lemma field_land_mask : forall n v, n <= 8 -> field n (N.land v (mask8 n)) = field n v.
Proof.
  intros n v H. apply list_ext; rewrite !field_length; [reflexivity|].
  intros i Hi. rewrite !field_nth by assumption. rewrite N.land_spec.
  assert (forall k, k <= 8 -> forall j, j < k -> N.testbit (mask8 k) (N.of_nat j) = true) as Hm.
  { intros k Hk j Hj. do 9 (destruct k as [|k]; [do 8 (destruct j as [|j]; [reflexivity || lia|]); lia|]). lia. }
  rewrite Hm by lia. apply andb_true_r.
Qed.

(** * Packing *)

Lemma pack_length : forall l, length (pack l) = (length l + 7) / 8.
Proof.
  intros l. unfold pack. generalize ((length l + 7) / 8) as k. intros k. revert l.
  induction k; intros l; cbn; [reflexivity|]. now rewrite IHk.
Qed.

Lemma pad8_length : forall l : bits, length (firstn 8 (l ++ repeat false 8)) = 8.
Proof. intros l. rewrite firstn_length, app_length, repeat_length. lia. Qed.

Lemma pack_is_bytes : forall l, is_bytes (pack l).
Proof.
  intros l. unfold pack. generalize ((length l + 7) / 8) as k. intros k. revert l.
  induction k; intros l; cbn; constructor; [|apply IHk].
  unfold is_byte. pose proof (val_bound (firstn 8 (l ++ repeat false 8))) as H.
  rewrite pad8_length in H. exact H.
Qed.

Lemma nth_firstn : forall A (d : A) n l i, i < n -> nth i (firstn n l) d = nth i l d.
Proof.
  intros A d n. induction n; intros l i H; [lia|].
  destruct l; [reflexivity|]. destruct i; [reflexivity|]. cbn. apply IHn. lia.
Qed.

Lemma nth_skipn : forall A (d : A) n l i, nth i (skipn n l) d = nth (n + i) l d.
Proof.
  intros A d n. induction n; intros l i; [reflexivity|].
  destruct l; [destruct i; reflexivity|]. cbn. apply IHn.
Qed.

Lemma nth_app_pad : forall l i n, nth i (l ++ repeat false n) false = nth i l false.
Proof.
  intros l i n. destruct (Nat.lt_ge_cases i (length l)).
  - now rewrite app_nth1.
  - rewrite app_nth2 by assumption. rewrite (nth_overflow l) by assumption.
    rewrite nth_repeat. reflexivity.
Qed.

Lemma pack_n_bit : forall k l i, i < 8 * k -> bit_at (pack_n k l) i = nth i l false.
Proof.
  induction k; intros l i H; [lia|].
  cbn [pack_n]. unfold bit_at. destruct (Nat.lt_ge_cases i 8).
  - destruct (div8_eq i 0 i) as [E1 E2]; [lia..|]. rewrite E1, E2. cbn [nth].
    rewrite val_testbit; rewrite pad8_length; [|lia].
    rewrite nth_firstn by lia. rewrite nth_app_pad. f_equal. lia.
  - pose proof (divmod8 (i - 8)) as [D1 D2].
    destruct (div8_eq i (S ((i - 8) / 8)) ((i - 8) mod 8)) as [E1 E2]; [lia..|].
    rewrite E1, E2. cbn [nth]. fold (bit_at (pack_n k (skipn 8 l)) (i - 8)).
    rewrite IHk by lia. rewrite nth_skipn. f_equal. lia.
Qed.

Lemma div_up8 : forall n, n <= 8 * ((n + 7) / 8) < n + 8.
Proof. intros n. pose proof (divmod8 (n + 7)). lia. Qed.

Lemma pack_bit : forall l i, bit_at (pack l) i = nth i l false.
Proof.
  intros l i. destruct (Nat.lt_ge_cases i (8 * ((length l + 7) / 8))).
  - now apply pack_n_bit.
  - rewrite bit_at_beyond by (rewrite pack_length; assumption).
    symmetry. apply nth_overflow. pose proof (div_up8 (length l)). lia.
Qed.

Lemma pack_unique : forall l b, is_bytes b -> length b = (length l + 7) / 8 ->
  (forall i, i < 8 * length b -> bit_at b i = nth i l false) -> b = pack l.
Proof.
  intros l b Hb Hl H. apply bytes_ext; try assumption.
  - apply pack_is_bytes.
  - now rewrite pack_length.
  - intros i Hi. rewrite pack_bit. now apply H.
Qed.

Lemma unpack_length : forall l, length (unpack l) = 8 * length l.
Proof.
  induction l as [|x l IH]; [reflexivity|]. unfold unpack in *. cbn [flat_map length].
  rewrite app_length, field_length, IH. lia.
Qed.

Lemma unpack_nth : forall l i, nth i (unpack l) false = bit_at l i.
Proof.
  induction l as [|x l IH]; intros i.
  - unfold bit_at. cbn [unpack flat_map]. destruct i; destruct (_ / 8); now rewrite N.bits_0.
  - unfold unpack. cbn [flat_map]. fold (unpack l). unfold bit_at. destruct (Nat.lt_ge_cases i 8).
    + rewrite app_nth1 by (rewrite field_length; lia). rewrite field_nth by lia.
      destruct (div8_eq i 0 i) as [E1 E2]; [lia..|]. rewrite E1, E2. cbn [nth]. f_equal.
    + rewrite app_nth2; rewrite field_length; [|lia]. rewrite IH.
      pose proof (divmod8 (i - 8)) as [D1 D2].
      destruct (div8_eq i (S ((i - 8) / 8)) ((i - 8) mod 8)) as [E1 E2]; [lia..|].
      rewrite E1, E2. reflexivity.
Qed.

Lemma pack_unpack : forall l, is_bytes l -> pack (unpack l) = l.
Proof.
  intros l H. symmetry. apply pack_unique; try assumption.
  - rewrite unpack_length. pose proof (div_up8 (8 * length l)). lia.
  - intros i _. now rewrite unpack_nth.
Qed.

(** * The refinement relation *)

Record R (b : bitsbuf) (s : sbuf) : Prop := {
  R_buf : buf b = pack (content s);
  R_last : last b = length (content s);
  R_w : w_pos b = wr s;
  R_r : r_pos b = rd s;
  R_wle : wr s <= length (content s);
  R_rle : rd s <= length (content s);
}.

Lemma mask8_testbit : forall k j, k <= 8 -> N.testbit (mask8 k) (N.of_nat j) = (j <? k).
Proof.
  intros k j Hk. unfold mask8, u8. change 256%N with (2 ^ 8)%N.
  destruct (Nat.lt_ge_cases j 8).
  - rewrite N.mod_pow2_bits_low by lia.
    do 9 (destruct k as [|k]; [do 8 (destruct j as [|j]; [reflexivity|]); lia|]). lia.
  - rewrite N.mod_pow2_bits_high by lia. symmetry. apply Nat.ltb_ge. lia.
Qed.

Lemma not8_testbit : forall x j, j < 8 -> N.testbit (not8 x) (N.of_nat j) = negb (N.testbit x (N.of_nat j)).
Proof.
  intros x j H. unfold not8. rewrite N.lxor_spec.
  replace (N.testbit 255 (N.of_nat j)) with true.
  - apply xorb_true_r.
  - symmetry. do 8 (destruct j as [|j]; [reflexivity|]). lia.
Qed.

Lemma not8_testbit_high : forall x j, is_byte x -> (8 <= j)%N -> N.testbit (not8 x) j = false.
Proof.
  intros x j Hx H. unfold not8. rewrite N.lxor_spec.
  rewrite (testbit_byte_high x) by assumption. rewrite testbit_byte_high; [reflexivity| |assumption].
  unfold is_byte. lia.
Qed.

Lemma shl8_testbit : forall x k j, j < 8 ->
  N.testbit (shl8 x k) (N.of_nat j) = (k <=? j) && N.testbit x (N.of_nat (j - k)).
Proof.
  intros x k j H. unfold shl8, u8. change 256%N with (2 ^ 8)%N.
  rewrite N.mod_pow2_bits_low by lia.
  destruct (Nat.leb_spec k j).
  - rewrite N.shiftl_spec_high' by lia. cbn. f_equal. lia.
  - rewrite N.shiftl_spec_low by lia. reflexivity.
Qed.

Lemma shr8_testbit : forall x k j, N.testbit (shr8 x k) (N.of_nat j) = N.testbit x (N.of_nat (j + k)).
Proof. intros. unfold shr8. rewrite N.shiftr_spec'. f_equal. lia. Qed.

Lemma is_byte_shl8 : forall x k, is_byte (shl8 x k).
Proof. intros. unfold shl8, u8, is_byte. apply N.mod_lt. discriminate. Qed.

Lemma is_byte_mask8 : forall k, is_byte (mask8 k).
Proof. intros. unfold mask8, u8, is_byte. apply N.mod_lt. discriminate. Qed.

Lemma is_byte_land : forall x y, is_byte x -> is_byte (N.land x y).
Proof.
  intros x y H. apply is_byte_bits. intros j Hj. rewrite N.land_spec.
  now rewrite (testbit_byte_high x).
Qed.

Lemma is_byte_lor : forall x y, is_byte x -> is_byte y -> is_byte (N.lor x y).
Proof.
  intros x y H1 H2. apply is_byte_bits. intros j Hj. rewrite N.lor_spec.
  now rewrite !testbit_byte_high.
Qed.

Lemma is_byte_shr8 : forall x k, is_byte x -> is_byte (shr8 x k).
Proof.
  intros x k H. apply is_byte_bits. intros j Hj. unfold shr8. rewrite N.shiftr_spec'.
  apply testbit_byte_high; [assumption|lia].
Qed.

Lemma is_byte_nth : forall l i, is_bytes l -> is_byte (nth i l 0%N).
Proof.
  intros l i H. destruct (Nat.lt_ge_cases i (length l)).
  - unfold is_bytes in H. rewrite Forall_forall in H. apply H. now apply nth_In.
  - rewrite nth_overflow by assumption. unfold is_byte. lia.
Qed.

Lemma index_done : forall A (d : A) l i, i < length l -> index l i = Done (nth i l d).
Proof.
  intros A d l i H. unfold index. now rewrite (nth_error_nth' l d H).
Qed.

Lemma N_small_ext : forall n x y,
  (forall j, (N.of_nat n <= j)%N -> N.testbit x j = false) ->
  (forall j, (N.of_nat n <= j)%N -> N.testbit y j = false) ->
  (forall j, j < n -> N.testbit x (N.of_nat j) = N.testbit y (N.of_nat j)) -> x = y.
Proof.
  intros n x y Hx Hy H. apply N.bits_inj. intros j.
  destruct (N.lt_ge_cases j (N.of_nat n)) as [Hj|Hj].
  - replace j with (N.of_nat (N.to_nat j)) by lia. apply H. lia.
  - now rewrite Hx, Hy.
Qed.

Ltac tb := repeat (rewrite ?N.land_spec, ?N.lor_spec;
  first [ rewrite shl8_testbit by lia | rewrite shr8_testbit
        | rewrite not8_testbit by lia | rewrite mask8_testbit by lia ]).

(** ** read_bits *)
Lemma read_bits_ok : forall b s n, R b s -> n <= 8 -> rd s + n <= length (content s) ->
  read_bits b n = Done (Some (val (firstn n (skipn (rd s) (content s)))),
                        mkBuf (buf b) (last b) (w_pos b) (rd s + n)).
Proof.
  intros b s n HR Hn Hlen. pose proof HR as [Hbuf Hlast Hw Hr Hwl Hrl].
  unfold read_bits, assert_. rewrite Hr, Hlast.
  replace (n <=? 8) with true by (symmetry; now apply Nat.leb_le).
  destruct (Nat.eqb_spec n 0) as [->|Hn0].
  { destruct b; cbn in *; subst. rewrite Nat.add_0_r. reflexivity. }
  replace (length (content s) <? rd s + n) with false by (symmetry; apply Nat.ltb_ge; lia).
  set (o := rd s / 8). set (f := rd s mod 8).
  pose proof (divmod8 (rd s)) as [Hd Hf]. fold o f in Hd, Hf.
  pose proof (div_up8 (length (content s))) as Hup.
  assert (Hlb : length (buf b) = (length (content s) + 7) / 8) by (rewrite Hbuf; apply pack_length).
  assert (Hby : is_bytes (buf b)) by (rewrite Hbuf; apply pack_is_bytes).
  assert (Hl : length (firstn n (skipn (rd s) (content s))) = n).
  { rewrite firstn_length, skipn_length. lia. }
  assert (Hbits : forall j, j < n ->
    N.testbit (val (firstn n (skipn (rd s) (content s)))) (N.of_nat j)
    = bit_at (buf b) (rd s + n - 1 - j)).
  { intros j Hj. rewrite val_testbit by lia. rewrite Hl.
    rewrite nth_firstn, nth_skipn by lia. rewrite Hbuf, pack_bit. f_equal. lia. }
  assert (Hhigh : forall j, (N.of_nat n <= j)%N ->
    N.testbit (val (firstn n (skipn (rd s) (content s)))) j = false).
  { intros j Hj. apply val_testbit_high. now rewrite Hl. }
  destruct (Nat.leb_spec n (8 - f)).
  - rewrite (index_done _ 0%N) by lia. cbn [bind].
    do 3 f_equal. apply (N_small_ext n); [|exact Hhigh|].
    + intros j Hj. unfold shr8. rewrite N.shiftr_spec', N.land_spec.
      replace (j + N.of_nat (8 - f - n))%N with (N.of_nat (N.to_nat j + (8 - f - n))) by lia.
      rewrite mask8_testbit by lia.
      replace (N.to_nat j + (8 - f - n) <? 8 - f) with false; [apply andb_false_r|].
      symmetry. apply Nat.ltb_ge. lia.
    + intros j Hj. rewrite Hbits by assumption. tb.
      replace (j + (8 - f - n) <? 8 - f) with true by (symmetry; apply Nat.ltb_lt; lia).
      rewrite andb_true_r. unfold bit_at.
      destruct (div8_eq (rd s + n - 1 - j) o (f + n - 1 - j)) as [-> ->]; [lia..|].
      f_equal. lia.
  - rewrite !(index_done _ 0%N) by lia. cbn [bind].
    do 3 f_equal. apply (N_small_ext n); [|exact Hhigh|].
    + intros j Hj. rewrite N.lor_spec.
      destruct (N.lt_ge_cases j 8) as [H8|H8].
      * replace j with (N.of_nat (N.to_nat j)) by lia. tb.
        replace (N.to_nat j - (n - (8 - f)) <? 8 - f) with false
          by (symmetry; apply Nat.ltb_ge; lia).
        rewrite andb_false_r, andb_false_r. cbn [orb].
        apply testbit_byte_high; [now apply is_byte_nth|lia].
      * rewrite testbit_byte_high by (apply is_byte_shl8 || assumption).
        cbn [orb]. apply testbit_byte_high; [|assumption]. apply is_byte_shr8. now apply is_byte_nth.
    + intros j Hj. rewrite Hbits by assumption. tb. unfold bit_at.
      destruct (Nat.leb_spec (n - (8 - f)) j) as [Hc|Hc].
      * replace (j - (n - (8 - f)) <? 8 - f) with true by (symmetry; apply Nat.ltb_lt; lia).
        rewrite andb_true_r. cbn [andb].
        rewrite (testbit_byte_high (nth (o + 1) (buf b) 0%N)); [|now apply is_byte_nth|lia].
        rewrite orb_false_r.
        destruct (div8_eq (rd s + n - 1 - j) o (f + n - 1 - j)) as [-> ->]; [lia..|].
        f_equal. lia.
      * cbn [andb orb].
        destruct (div8_eq (rd s + n - 1 - j) (o + 1) (f + n - 1 - j - 8)) as [-> ->]; [lia..|].
        f_equal. lia.
Qed.

Lemma read_bits_none : forall b s n, R b s -> n <= 8 -> length (content s) < rd s + n ->
  read_bits b n = Done (None, b).
Proof.
  intros b s n [Hbuf Hlast Hw Hr Hwl Hrl] Hn Hlen. unfold read_bits, assert_.
  rewrite Hr, Hlast.
  replace (n <=? 8) with true by (symmetry; now apply Nat.leb_le).
  destruct (Nat.eqb_spec n 0) as [->|Hn0]; [lia|].
  now replace (length (content s) <? rd s + n) with true by (symmetry; apply Nat.ltb_lt; lia).
Qed.

Lemma R_advance : forall b s n, R b s -> rd s + n <= length (content s) ->
  R (mkBuf (buf b) (last b) (w_pos b) (rd s + n)) (mkS (content s) (rd s + n) (wr s)).
Proof. intros b s n [] H. now split. Qed.

Lemma read_u8_unwrap_ok : forall b s, R b s -> rd s + 8 <= length (content s) ->
  read_u8_unwrap b = Done (val (firstn 8 (skipn (rd s) (content s))),
                        mkBuf (buf b) (last b) (w_pos b) (rd s + 8)).
Proof.
  intros b s HR H. unfold read_u8_unwrap.
  rewrite (read_bits_ok b s) by (assumption || lia). reflexivity.
Qed.

Lemma firstn_add : forall A n m (l : list A), firstn (n + m) l = firstn n l ++ firstn m (skipn n l).
Proof.
  intros A n. induction n; intros m l; [reflexivity|].
  destruct l; cbn; [now rewrite firstn_nil|]. now rewrite IHn.
Qed.

Lemma skipn_add : forall A n m (l : list A), skipn m (skipn n l) = skipn (n + m) l.
Proof.
  intros A n. induction n; intros m l; [reflexivity|].
  destruct l; cbn; [apply skipn_nil|]. apply IHn.
Qed.

Lemma read_n_ok : forall n b s, R b s -> rd s + n * 8 <= length (content s) ->
  read_n b n = Done (chunks n (firstn (n * 8) (skipn (rd s) (content s))),
                     mkBuf (buf b) (last b) (w_pos b) (rd s + n * 8)).
Proof.
  induction n as [|n IH]; intros b s HR H.
  - cbn. rewrite Nat.add_0_r. destruct HR as [? ? ? Hr ? ?]. rewrite <- Hr. now destruct b.
  - cbn [read_n]. rewrite (read_u8_unwrap_ok b s) by (assumption || lia). cbn [bind].
    rewrite (IH _ (mkS (content s) (rd s + 8) (wr s))); cbn [content rd buf last w_pos].
    + cbn [bind]. replace (S n * 8) with (8 + n * 8) by lia. cbn [chunks].
      rewrite firstn_add. rewrite firstn_app, firstn_firstn, skipn_add.
      assert (L : length (firstn 8 (skipn (rd s) (content s))) = 8)
        by (rewrite firstn_length, skipn_length; lia).
      rewrite L. rewrite Nat.sub_diag, firstn_O, app_nil_r. cbn [Nat.min].
      rewrite skipn_app, L, Nat.sub_diag.
      rewrite (skipn_all2 (firstn 8 _)) by lia. cbn [skipn app].
      now rewrite <- Nat.add_assoc.
    + now apply R_advance; [|lia].
    + lia.
Qed.

Lemma lor_disjoint : forall a b k, (b < 2 ^ k)%N -> N.lor (a * 2 ^ k) b = (a * 2 ^ k + b)%N.
Proof.
  intros a b k H. rewrite <- N.shiftl_mul_pow2. symmetry.
  rewrite N.add_nocarry_lxor. 
  - symmetry. rewrite N.lxor_lor; [reflexivity|].
    apply N.bits_inj. intros j. rewrite N.land_spec, N.bits_0.
    destruct (N.lt_ge_cases j k).
    + now rewrite N.shiftl_spec_low.
    + replace (N.testbit b j) with false; [apply andb_false_r|]. symmetry.
      destruct (N.eq_dec b 0) as [->|]; [apply N.bits_0|].
      apply N.bits_above_log2. apply N.lt_le_trans with k; [|assumption].
      apply N.log2_lt_pow2; lia.
  - apply N.bits_inj. intros j. rewrite N.land_spec, N.bits_0.
    destruct (N.lt_ge_cases j k).
    + now rewrite N.shiftl_spec_low.
    + replace (N.testbit b j) with false; [apply andb_false_r|]. symmetry.
      destruct (N.eq_dec b 0) as [->|]; [apply N.bits_0|].
      apply N.bits_above_log2. apply N.lt_le_trans with k; [|assumption].
      apply N.log2_lt_pow2; lia.
Qed.

Lemma val_firstn_bound : forall n l, (val (firstn n l) < 2 ^ N.of_nat n)%N.
Proof.
  intros n l. pose proof (val_bound (firstn n l)) as H.
  apply N.lt_le_trans with (1 := H). apply N.pow_le_mono_r; [discriminate|].
  rewrite firstn_length. lia.
Qed.

Lemma read_u16_ok : forall b s, R b s -> rd s + 16 <= length (content s) ->
  read_u16 b = Done (Some (val (firstn 16 (skipn (rd s) (content s)))),
                        mkBuf (buf b) (last b) (w_pos b) (rd s + 16)).
Proof.
  intros b s HR H. unfold read_u16. pose proof HR as [Hbuf Hlast Hw Hr Hwl Hrl].
  rewrite Hlast, Hr.
  replace (length (content s) <? rd s + 16) with false by (symmetry; apply Nat.ltb_ge; lia).
  rewrite (read_u8_unwrap_ok b s) by (assumption || lia). cbn [bind].
  rewrite (read_u8_unwrap_ok _ (mkS (content s) (rd s + 8) (wr s)))
    by ((apply R_advance; [assumption|lia]) || (cbn; lia)).
  cbn [bind content rd buf last w_pos].
  change (firstn 16) with (@firstn bool (8 + 8)). rewrite firstn_add, skipn_add, val_app.
  rewrite firstn_length, skipn_length.
  replace (Nat.min 8 (length (content s) - (rd s + 8))) with 8 by lia.
  pose proof (val_firstn_bound 8 (skipn (rd s) (content s))) as B1.
  pose proof (val_firstn_bound 8 (skipn (rd s + 8) (content s))) as B2.
  set (x1 := val (firstn 8 (skipn (rd s) (content s)))) in *.
  set (x2 := val (firstn 8 (skipn (rd s + 8) (content s)))) in *.
  change (2 ^ N.of_nat 8)%N with 256%N in *.
  replace (rd s + 8 + 8) with (rd s + 16) by lia. do 3 f_equal; [|exact Hlast].
  unfold u16. rewrite N.shiftl_mul_pow2. change (2 ^ 8)%N with 256%N.
  rewrite N.mod_small by lia. apply (lor_disjoint x1 x2 8). exact B2.
Qed.

Lemma read_u32_ok : forall b s, R b s -> rd s + 32 <= length (content s) ->
  read_u32 b = Done (Some (val (firstn 32 (skipn (rd s) (content s)))),
                        mkBuf (buf b) (last b) (w_pos b) (rd s + 32)).
Proof.
  intros b s HR H. unfold read_u32. pose proof HR as [Hbuf Hlast Hw Hr Hwl Hrl].
  rewrite Hlast, Hr.
  replace (length (content s) <? rd s + 32) with false by (symmetry; apply Nat.ltb_ge; lia).
  rewrite (read_u8_unwrap_ok b s) by (assumption || lia). cbn [bind].
  do 3 (match goal with |- context [read_u8_unwrap (mkBuf ?l ?la ?w ?r)] =>
    rewrite (read_u8_unwrap_ok (mkBuf l la w r) (mkS (content s) r (wr s)))
      by ((split; cbn [buf last w_pos r_pos content rd wr]; solve [assumption|reflexivity|lia]) || (cbn [content rd]; lia)) end;
    cbn [bind content rd buf last w_pos]).
  change (firstn 32) with (@firstn bool (8 + (8 + (8 + 8)))).
  rewrite !firstn_add, !skipn_add, !val_app, !app_length, !firstn_length, !skipn_length.
  rewrite <- !Nat.add_assoc. cbn [Nat.add].
  replace (Nat.min 8 (length (content s) - (rd s + 24))) with 8 by lia.
  replace (Nat.min 8 (length (content s) - (rd s + 16))) with 8 by lia.
  replace (Nat.min 8 (length (content s) - (rd s + 8))) with 8 by lia.
  pose proof (val_firstn_bound 8 (skipn (rd s) (content s))) as B1.
  pose proof (val_firstn_bound 8 (skipn (rd s + 8) (content s))) as B2.
  pose proof (val_firstn_bound 8 (skipn (rd s + 16) (content s))) as B3.
  pose proof (val_firstn_bound 8 (skipn (rd s + 24) (content s))) as B4.
  set (x1 := val (firstn 8 (skipn (rd s) (content s)))) in *.
  set (x2 := val (firstn 8 (skipn (rd s + 8) (content s)))) in *.
  set (x3 := val (firstn 8 (skipn (rd s + 16) (content s)))) in *.
  set (x4 := val (firstn 8 (skipn (rd s + 24) (content s)))) in *.
  clearbody x1 x2 x3 x4.
  change (2 ^ N.of_nat 8)%N with 256%N in *.
  change (2 ^ N.of_nat (8 + (8 + 8)))%N with 16777216%N.
  change (2 ^ N.of_nat (8 + 8))%N with 65536%N.
  do 3 f_equal; [|exact Hlast].
  unfold u32. rewrite !N.shiftl_mul_pow2.
  change (2 ^ 24)%N with 16777216%N. change (2 ^ 16)%N with 65536%N. change (2 ^ 8)%N with 256%N.
  rewrite !N.mod_small by lia.
  pose proof (lor_disjoint x1 (x2 * 65536) 24) as L1. change (2 ^ 24)%N with 16777216%N in L1.
  rewrite L1 by lia.
  pose proof (lor_disjoint (x1 * 256 + x2) (x3 * 256) 16) as L2. change (2 ^ 16)%N with 65536%N in L2.
  replace (x1 * 16777216 + x2 * 65536)%N with ((x1 * 256 + x2) * 65536)%N by lia.
  rewrite L2 by lia.
  pose proof (lor_disjoint (x1 * 65536 + x2 * 256 + x3) x4 8) as L3. change (2 ^ 8)%N with 256%N in L3.
  replace ((x1 * 256 + x2) * 65536 + x3 * 256)%N with ((x1 * 65536 + x2 * 256 + x3) * 256)%N by lia.
  rewrite L3 by lia. lia.
Qed.

(** ** write_bits *)
Lemma upd_ok : forall l i f, i < length l -> exists l',
  upd l i f = Done l' /\ length l' = length l /\
  (forall k, nth k l' 0%N = if k =? i then f (nth i l 0%N) else nth k l 0%N).
Proof.
  intros l i f Hi. unfold upd.
  rewrite (nth_error_nth' l 0%N Hi).
  exists (firstn i l ++ f (nth i l 0%N) :: skipn (S i) l). split; [reflexivity|]. split.
  - rewrite app_length. cbn [length]. rewrite firstn_length, skipn_length. lia.
  - assert (L : length (firstn i l) = i) by (rewrite firstn_length; lia).
    intros k. destruct (Nat.eqb_spec k i) as [->|Hne].
    + rewrite app_nth2; rewrite L; [|lia]. now rewrite Nat.sub_diag.
    + destruct (Nat.lt_ge_cases k i).
      * rewrite app_nth1 by lia. now apply nth_firstn.
      * rewrite app_nth2; rewrite L; [|lia].
        replace (k - i) with (S (k - i - 1)) by lia. cbn [nth].
        rewrite nth_skipn. f_equal. lia.
Qed.

Lemma is_bytes_nth : forall l, (forall k, k < length l -> is_byte (nth k l 0%N)) -> is_bytes l.
Proof.
  intros l H. apply Forall_forall. intros x Hx.
  apply (In_nth _ _ 0%N) in Hx as (k & Hk & <-). now apply H.
Qed.

Lemma put_bits_length : forall s l, wr s <= length (content s) ->
  length (content (put_bits s l)) = Nat.max (length (content s)) (wr s + length l).
Proof.
  intros s l H. unfold put_bits. cbn [content].
  rewrite !app_length, firstn_length, skipn_length. lia.
Qed.

Lemma put_bits_nth : forall s l i, wr s <= length (content s) ->
  nth i (content (put_bits s l)) false =
  if (wr s <=? i) && (i <? wr s + length l) then nth (i - wr s) l false
  else nth i (content s) false.
Proof.
  intros s l i H. unfold put_bits. cbn [content].
  assert (L : length (firstn (wr s) (content s)) = wr s) by (rewrite firstn_length; lia).
  destruct (Nat.leb_spec (wr s) i) as [H1|H1]; cbn [andb].
  - rewrite app_nth2; rewrite L; [|lia].
    destruct (Nat.ltb_spec i (wr s + length l)).
    + now rewrite app_nth1 by lia.
    + rewrite app_nth2 by lia. rewrite nth_skipn. f_equal. lia.
  - rewrite app_nth1 by lia. now rewrite nth_firstn.
Qed.

Lemma R_put : forall l' s f r w, is_bytes l' -> wr s <= length (content s) ->
  rd s <= length (content s) ->
  w = wr s + length f -> r = rd s ->
  length l' = (Nat.max (length (content s)) w + 7) / 8 ->
  (forall i, i < 8 * length l' -> bit_at l' i =
     if (wr s <=? i) && (i <? w) then nth (i - wr s) f false else nth i (content s) false) ->
  R (mkBuf l' (if length (content s) <? w then w else length (content s)) w r) (put_bits s f).
Proof.
  intros l' s f r w Hb Hw Hr -> -> Hl Hbits. pose proof (put_bits_length s f Hw) as PL.
  split; cbn [buf last w_pos r_pos].
  - apply pack_unique; [assumption|now rewrite PL|]. intros i Hi.
    rewrite Hbits by assumption. now rewrite put_bits_nth.
  - rewrite PL. destruct (Nat.ltb_spec (length (content s)) (wr s + length f)); lia.
  - reflexivity.
  - reflexivity.
  - cbn [wr put_bits]. rewrite PL. lia.
  - cbn [rd put_bits]. rewrite PL. lia.
Qed.

Lemma write_bits_ok : forall b s v n, R b s -> 1 <= n <= 8 ->
  exists b', write_bits b v n = Done b' /\ R b' (put_bits s (field n v)).
Proof.
  intros b s v n HR Hn. pose proof HR as [Hbuf Hlast Hw Hr Hwl Hrl].
  unfold write_bits, assert_.
  replace ((n <=? 8) && (0 <? n)) with true
    by (symmetry; apply andb_true_iff; split; [apply Nat.leb_le|apply Nat.ltb_lt]; lia).
  assert (Hlb : length (buf b) = (length (content s) + 7) / 8) by (rewrite Hbuf; apply pack_length).
  assert (Hby : is_bytes (buf b)) by (rewrite Hbuf; apply pack_is_bytes).
  pose proof (div_up8 (length (content s))) as Hup. rewrite <- Hlb in Hup.
  rewrite Hw.
  set (l := if length (buf b) * 8 - wr s <? n then buf b ++ [0%N] else buf b).
  assert (Hl : length l = (Nat.max (length (content s)) (wr s + n) + 7) / 8 /\
               wr s + n <= 8 * length l).
  { unfold l. destruct (Nat.ltb_spec (length (buf b) * 8 - wr s) n).
    - rewrite app_length. cbn [length].
      pose proof (div_up8 (Nat.max (length (content s)) (wr s + n))). lia.
    - pose proof (div_up8 (Nat.max (length (content s)) (wr s + n))). lia. }
  assert (Hlbit : forall i, bit_at l i = nth i (content s) false).
  { intros i. rewrite <- pack_bit, <- Hbuf. unfold l.
    destruct (_ <? _); [|reflexivity]. unfold bit_at.
    destruct (Nat.lt_ge_cases (i / 8) (length (buf b))).
    - now rewrite app_nth1.
    - rewrite app_nth2 by assumption. rewrite (nth_overflow (buf b)) by assumption.
      destruct (i / 8 - length (buf b)) as [|[]]; reflexivity. }
  assert (Hlby : is_bytes l).
  { unfold l. destruct (_ <? _); [|assumption]. apply Forall_app. split; [assumption|].
    repeat constructor. }
  clearbody l. destruct Hl as [Hl1 Hl2].
  pose proof (divmod8 (wr s)) as [Hd Hf].
  set (o := wr s / 8) in *. set (f := wr s mod 8) in *.
  rewrite Hlast, Hr.
  set (vv := N.land v (mask8 n)).
  assert (Hv : forall j, N.testbit vv (N.of_nat j) = N.testbit v (N.of_nat j) && (j <? n)).
  { intros j. unfold vv. rewrite N.land_spec, mask8_testbit by lia. reflexivity. }
  assert (Hvb : is_byte vv).
  { unfold vv. rewrite N.land_comm. apply is_byte_land. apply is_byte_mask8. }
  clearbody vv.
  destruct (Nat.leb_spec n (8 - f)) as [Hc|Hc].
  - destruct (upd_ok l o (fun x => N.land x (not8 (shl8 (mask8 n) (8 - f - n))))) as (l1 & -> & L1 & N1);
      [lia|]. cbn [bind].
    destruct (upd_ok l1 o (fun x => N.lor x (shl8 vv (8 - f - n)))) as (l2 & -> & L2 & N2);
      [lia|]. cbn [bind].
    eexists. split; [reflexivity|]. apply R_put; try assumption; try reflexivity.
    + apply is_bytes_nth. intros k Hk. rewrite N2, !N1.
      destruct (k =? o); rewrite ?Nat.eqb_refl.
      * apply is_byte_lor; [|apply is_byte_shl8]. apply is_byte_land. now apply is_byte_nth.
      * now apply is_byte_nth.
    + now rewrite field_length.
    + rewrite L2, L1, Hl1. reflexivity.
    + intros i Hi. rewrite <- Hlbit. unfold bit_at. rewrite N2, !N1, Nat.eqb_refl.
      pose proof (divmod8 i) as [Di Mi].
      destruct (Nat.eqb_spec (i / 8) o) as [E|E].
      * rewrite E. tb. rewrite Hv.
        destruct (Nat.leb_spec (wr s) i); cbn [andb].
        -- destruct (Nat.ltb_spec i (wr s + n)).
           ++ replace (8 - f - n <=? 7 - i mod 8) with true by (symmetry; apply Nat.leb_le; lia).
              replace (7 - i mod 8 - (8 - f - n) <? n) with true by (symmetry; apply Nat.ltb_lt; lia).
              cbn [andb negb]. rewrite andb_false_r, andb_true_r. cbn [orb].
              rewrite field_nth by lia. f_equal. lia.
           ++ replace (8 - f - n <=? 7 - i mod 8) with false by (symmetry; apply Nat.leb_gt; lia).
              cbn [andb negb]. now rewrite andb_true_r, orb_false_r.
        -- replace (7 - i mod 8 - (8 - f - n) <? n) with false by (symmetry; apply Nat.ltb_ge; lia).
           rewrite !andb_false_r. cbn [negb]. now rewrite andb_true_r, orb_false_r.
      * destruct (Nat.leb_spec (wr s) i); cbn [andb]; [|reflexivity].
        destruct (Nat.ltb_spec i (wr s + n)); [|reflexivity]. lia.
  - destruct (upd_ok l o (fun x => N.land x (not8 (mask8 (8 - f))))) as (l1 & -> & L1 & N1);
      [lia|]. cbn [bind].
    destruct (upd_ok l1 o (fun x => N.lor x (shr8 vv (n - (8 - f))))) as (l2 & -> & L2 & N2);
      [lia|]. cbn [bind].
    destruct (upd_ok l2 (o + 1) (fun x => N.land x (not8 (shl8 (mask8 (n - (8 - f))) (8 - (n - (8 - f)))))))
      as (l3 & -> & L3 & N3); [lia|]. cbn [bind].
    destruct (upd_ok l3 (o + 1) (fun x => N.lor x (shl8 (N.land vv (mask8 (n - (8 - f)))) (8 - (n - (8 - f))))))
      as (l4 & -> & L4 & N4); [lia|]. cbn [bind].
    assert (NN : forall k, nth k l4 0%N =
      if k =? o + 1 then
        N.lor (N.land (nth (o + 1) l 0%N) (not8 (shl8 (mask8 (n - (8 - f))) (8 - (n - (8 - f))))))
          (shl8 (N.land vv (mask8 (n - (8 - f)))) (8 - (n - (8 - f))))
      else if k =? o then
        N.lor (N.land (nth o l 0%N) (not8 (mask8 (8 - f)))) (shr8 vv (n - (8 - f)))
      else nth k l 0%N).
    { intros k. rewrite N4, !N3, !N2, !N1, !Nat.eqb_refl.
      destruct (Nat.eqb_spec (o + 1) o); [lia|].
      destruct (k =? o + 1); [reflexivity|]. now destruct (k =? o). }
    clear N1 N2 N3 N4.
    eexists. split; [reflexivity|]. apply R_put; try assumption; try reflexivity.
    + apply is_bytes_nth. intros k Hk. rewrite NN.
      destruct (k =? o + 1); [|destruct (k =? o)].
      * apply is_byte_lor; [|apply is_byte_shl8]. apply is_byte_land. now apply is_byte_nth.
      * apply is_byte_lor; [|now apply is_byte_shr8]. apply is_byte_land. now apply is_byte_nth.
      * now apply is_byte_nth.
    + now rewrite field_length.
    + rewrite L4, L3, L2, L1, Hl1. reflexivity.
    + intros i Hi. rewrite <- Hlbit. unfold bit_at. rewrite NN.
      pose proof (divmod8 i) as [Di Mi].
      destruct (Nat.eqb_spec (i / 8) (o + 1)) as [E|E]; [|destruct (Nat.eqb_spec (i / 8) o) as [E'|E']].
      * rewrite E. tb. rewrite Hv.
        replace (wr s <=? i) with true by (symmetry; apply Nat.leb_le; lia). cbn [andb].
        destruct (Nat.ltb_spec i (wr s + n)).
        -- replace (8 - (n - (8 - f)) <=? 7 - i mod 8) with true by (symmetry; apply Nat.leb_le; lia).
           replace (7 - i mod 8 - (8 - (n - (8 - f))) <? n - (8 - f)) with true by (symmetry; apply Nat.ltb_lt; lia).
           replace (7 - i mod 8 - (8 - (n - (8 - f))) <? n) with true by (symmetry; apply Nat.ltb_lt; lia).
           cbn [andb negb]. rewrite andb_false_r, !andb_true_r. cbn [orb].
           rewrite field_nth by lia. f_equal. lia.
        -- replace (8 - (n - (8 - f)) <=? 7 - i mod 8) with false by (symmetry; apply Nat.leb_gt; lia).
           cbn [andb negb]. now rewrite andb_true_r, orb_false_r.
      * rewrite E'. tb. rewrite Hv.
        replace (i <? wr s + n) with true by (symmetry; apply Nat.ltb_lt; lia). rewrite andb_true_r.
        destruct (Nat.leb_spec (wr s) i).
        -- replace (7 - i mod 8 <? 8 - f) with true by (symmetry; apply Nat.ltb_lt; lia).
           replace (7 - i mod 8 + (n - (8 - f)) <? n) with true by (symmetry; apply Nat.ltb_lt; lia).
           cbn [andb negb]. rewrite andb_false_r, andb_true_r. cbn [orb].
           rewrite field_nth by lia. f_equal. lia.
        -- replace (7 - i mod 8 <? 8 - f) with false by (symmetry; apply Nat.ltb_ge; lia).
           replace (7 - i mod 8 + (n - (8 - f)) <? n) with false by (symmetry; apply Nat.ltb_ge; lia).
           cbn [andb negb]. now rewrite andb_true_r, andb_false_r, orb_false_r.
      * destruct (Nat.leb_spec (wr s) i); cbn [andb]; [|reflexivity].
        destruct (Nat.ltb_spec i (wr s + n)); [|reflexivity]. lia.
Qed.

Lemma put_put : forall s a b, wr s <= length (content s) ->
  put_bits (put_bits s a) b = put_bits s (a ++ b).
Proof.
  intros s a b H. unfold put_bits. cbn [content rd wr]. f_equal.
  - assert (L : length (firstn (wr s) (content s)) = wr s) by (rewrite firstn_length; lia).
    rewrite firstn_app, L.
    rewrite firstn_all2 by lia.
    replace (wr s + length a - wr s) with (length a + 0) by lia.
    rewrite firstn_app_2. cbn [firstn]. rewrite app_nil_r.
    rewrite <- !app_assoc. do 3 f_equal.
    rewrite !skipn_app, L, app_length.
    rewrite (skipn_all2 (firstn _ _)) by lia.
    rewrite (skipn_all2 a) by lia. cbn [app]. rewrite skipn_add. f_equal. lia.
  - rewrite app_length. lia.
Qed.

Lemma put_wf : forall s l, wr s <= length (content s) ->
  wr (put_bits s l) <= length (content (put_bits s l)).
Proof. intros s l H. rewrite put_bits_length by assumption. cbn [wr put_bits]. lia. Qed.

Lemma write_bits_field8 : forall b s v, R b s ->
  exists b', write_bits b (u8 v) 8 = Done b' /\ R b' (put_bits s (field 8 v)).
Proof.
  intros b s v HR. destruct (write_bits_ok b s (u8 v) 8 HR ltac:(lia)) as (b' & E & H).
  exists b'. split; [assumption|]. unfold u8 in H. change 256%N with (2 ^ N.of_nat 8)%N in H.
  now rewrite field_mod in H.
Qed.

Lemma write_u8_ok : forall b s v, R b s ->
  exists b', write_u8 b v = Done b' /\ R b' (put_bits s (field 8 v)).
Proof. intros. apply write_bits_ok; [assumption|lia]. Qed.

Lemma write_u16_ok : forall b s v, R b s ->
  exists b', write_u16 b v = Done b' /\ R b' (put_bits s (field 16 v)).
Proof.
  intros b s v HR. unfold write_u16.
  destruct (write_bits_field8 b s (N.shiftr v 8) HR) as (b1 & -> & H1). cbn [bind].
  destruct (write_bits_field8 b1 _ v H1) as (b2 & -> & H2).
  exists b2. split; [reflexivity|]. rewrite put_put in H2 by apply HR.
  change 16 with (8 + 8). rewrite field_app. exact H2.
Qed.

Lemma write_u32_ok : forall b s v, R b s ->
  exists b', write_u32 b v = Done b' /\ R b' (put_bits s (field 32 v)).
Proof.
  intros b s v HR. unfold write_u32.
  destruct (write_bits_field8 b s (N.shiftr v 24) HR) as (b1 & -> & H1). cbn [bind].
  destruct (write_bits_field8 b1 _ (N.shiftr v 16) H1) as (b2 & -> & H2). cbn [bind].
  destruct (write_bits_field8 b2 _ (N.shiftr v 8) H2) as (b3 & -> & H3). cbn [bind].
  destruct (write_bits_field8 b3 _ v H3) as (b4 & -> & H4).
  exists b4. split; [reflexivity|].
  rewrite !put_put in H4 by (apply HR || (repeat apply put_wf; apply HR)).
  change 32 with (8 + (8 + (8 + 8))).
  rewrite (field_app 8 (8 + (8 + 8))), (field_app 8 (8 + 8)), (field_app 8 8).
  exact H4.
Qed.

Lemma write_bytes_ok : forall l b s, R b s ->
  exists b', write_bytes b l = Done b' /\ R b' (put_bits s (unpack l)).
Proof.
  induction l as [|x l IH]; intros b s HR.
  - exists b. split; [reflexivity|]. unfold put_bits. cbn [unpack flat_map app length].
    rewrite Nat.add_0_r, firstn_skipn. now destruct s.
  - cbn [write_bytes]. destruct (write_u8_ok b s x HR) as (b1 & -> & H1). cbn [bind].
    destruct (IH b1 _ H1) as (b2 & -> & H2). exists b2. split; [reflexivity|].
    rewrite put_put in H2 by apply HR. exact H2.
Qed.

(** ** truncate *)
Lemma map_last_snoc : forall a x f, map_last (a ++ [x]) f = a ++ [f x].
Proof.
  intros a x f. unfold map_last. destruct (a ++ [x]) eqn:E; [now destruct a|].
  rewrite <- E. now rewrite removelast_last, last_last.
Qed.

Lemma map_last_nth : forall l f k,
  nth k (map_last l f) 0%N = if (S k =? length l) then f (nth k l 0%N) else nth k l 0%N.
Proof.
  intros l f k. destruct l as [|y l]; [destruct k; reflexivity|].
  assert (H : y :: l <> []) by discriminate. revert H. generalize (y :: l). clear y l. intros l H.
  destruct (exists_last H) as (a & x & ->). rewrite map_last_snoc, app_length. cbn [length].
  destruct (Nat.eqb_spec (S k) (length a + 1)).
  - replace k with (length a) by lia.
    rewrite !app_nth2 by lia. rewrite Nat.sub_diag. reflexivity.
  - destruct (Nat.lt_ge_cases k (length a)).
    + now rewrite !app_nth1 by lia.
    + rewrite !nth_overflow; [reflexivity|rewrite app_length; cbn; lia..].
Qed.

Lemma map_last_length : forall l f, length (map_last l f) = length l.
Proof.
  intros l f. destruct l as [|y l]; [reflexivity|].
  assert (H : y :: l <> []) by discriminate. revert H. generalize (y :: l). clear y l. intros l H.
  destruct (exists_last H) as (a & x & ->). rewrite map_last_snoc. now rewrite !app_length.
Qed.

Lemma truncate_ok : forall b s n, R b s ->
  R (truncate b n) (mkS (firstn n (content s)) (Nat.min (rd s) n) (Nat.min (wr s) n)).
Proof.
  intros b s n HR. pose proof HR as [Hbuf Hlast Hw Hr Hwl Hrl]. unfold truncate.
  rewrite Hlast. destruct (Nat.leb_spec (length (content s)) n).
  { rewrite firstn_all2 by assumption. rewrite !Nat.min_l by lia. now destruct s. }
  assert (Hlb : length (buf b) = (length (content s) + 7) / 8) by (rewrite Hbuf; apply pack_length).
  assert (Hby : is_bytes (buf b)) by (rewrite Hbuf; apply pack_is_bytes).
  pose proof (div_up8 (length (content s))) as Hup. rewrite <- Hlb in Hup.
  pose proof (div_up8 n) as Hun.
  assert (L1 : length (firstn ((n + 7) / 8) (buf b)) = (n + 7) / 8) by (rewrite firstn_length; lia).
  assert (Lc : length (firstn n (content s)) = n) by (rewrite firstn_length; lia).
  pose proof (divmod8 n) as [Dn Mn].
  split; cbn [buf last w_pos r_pos content rd wr]; rewrite ?Lc; try lia.
  - apply pack_unique; rewrite ?Lc.
    + destruct (Nat.eqb_spec (n mod 8) 0).
      * apply is_bytes_nth. rewrite L1. intros k Hk. rewrite nth_firstn by lia. now apply is_byte_nth.
      * apply is_bytes_nth. rewrite map_last_length, L1. intros k Hk. rewrite map_last_nth.
        rewrite nth_firstn by lia.
        destruct (_ =? _); [apply is_byte_land|]; now apply is_byte_nth.
    + destruct (Nat.eqb_spec (n mod 8) 0); [|rewrite map_last_length]; assumption.
    + intros i Hi.
      assert (Hi' : i < 8 * ((n + 7) / 8)).
      { destruct (Nat.eqb_spec (n mod 8) 0); rewrite ?map_last_length, L1 in Hi; assumption. }
      clear Hi. pose proof (divmod8 i) as [Di Mi].
      assert (Hor : nth i (firstn n (content s)) false = if i <? n then bit_at (buf b) i else false).
      { destruct (Nat.ltb_spec i n).
        - rewrite nth_firstn by assumption. now rewrite Hbuf, pack_bit.
        - apply nth_overflow. lia. }
      rewrite Hor. unfold bit_at. destruct (Nat.eqb_spec (n mod 8) 0).
      * rewrite nth_firstn by lia.
        now replace (i <? n) with true by (symmetry; apply Nat.ltb_lt; lia).
      * rewrite map_last_nth, L1. rewrite nth_firstn by lia.
        destruct (Nat.eqb_spec (S (i / 8)) ((n + 7) / 8)).
        -- tb. 
           destruct (Nat.ltb_spec i n).
           ++ replace (7 - i mod 8 <? 8 - n mod 8) with false by (symmetry; apply Nat.ltb_ge; lia).
              now rewrite andb_true_r.
           ++ replace (7 - i mod 8 <? 8 - n mod 8) with true by (symmetry; apply Nat.ltb_lt; lia).
              now rewrite andb_false_r.
        -- now replace (i <? n) with true by (symmetry; apply Nat.ltb_lt; lia).
  - rewrite Hw. destruct (Nat.ltb_spec n (wr s)); lia.
  - rewrite Hr. destruct (Nat.ltb_spec n (rd s)); lia.
Qed.

(** * Step simulation *)

(** The model's interface as one step function over the specification's calls. *)
Definition mstep (b : bitsbuf) (o : op) : exec (obs * bitsbuf) :=
  match o with
  | OSetRead n => let! b' := set_read_pos b n in Done (Unit, b')
  | OSetWrite n => let! b' := set_write_pos b n in Done (Unit, b')
  | OTruncate n => Done (Unit, truncate b n)
  | OReadBits n => let! (r, b') := read_bits b n in Done (Num r, b')
  | OReadU8 => let! (r, b') := read_u8 b in Done (Num r, b')
  | OReadU16 => let! (r, b') := read_u16 b in Done (Num r, b')
  | OReadU32 => let! (r, b') := read_u32 b in Done (Num r, b')
  | OReadBytes n => let! (r, b') := read_bytes_vec b n in Done (Vec r, b')
  | OWriteBits v n => let! b' := write_bits b v n in Done (Unit, b')
  | OWriteU8 v => let! b' := write_u8 b v in Done (Unit, b')
  | OWriteU16 v => let! b' := write_u16 b v in Done (Unit, b')
  | OWriteU32 v => let! b' := write_u32 b v in Done (Unit, b')
  | OWriteBytes l => let! b' := write_bytes b l in Done (Unit, b')
  end.

Definition sim (m : exec (obs * bitsbuf)) (s : exec (obs * sbuf)) : Prop :=
  match m, s with
  | Done (x, b'), Done (y, s') => x = y /\ R b' s'
  | Panic k, Panic k' => k = k'
  | _, _ => False
  end.

Lemma step_sim : forall b s o, R b s -> sim (mstep b o) (sstep s o).
Proof.
  intros b s o HR. pose proof HR as [Hbuf Hlast Hw Hr Hwl Hrl].
  assert (Hread : forall n, n <= 8 ->
    sim (let! (r, b') := read_bits b n in Done (Num r, b'))
        (let '(r, s') := take_bits s n in Done (Num (option_map val r), s'))).
  { intros n Hn. unfold take_bits. destruct (Nat.leb_spec (rd s + n) (length (content s))).
    - rewrite (read_bits_ok b s n) by assumption. split; [reflexivity|]. now apply R_advance.
    - rewrite (read_bits_none b s n) by assumption. now split. }
  destruct o; cbn [mstep sstep].
  - unfold set_read_pos. rewrite Hlast.
    destruct (Nat.leb_spec n (length (content s))).
    + replace (length (content s) <? n) with false by (symmetry; apply Nat.ltb_ge; lia).
      split; [reflexivity|]. now split; cbn [buf last w_pos r_pos content rd wr].
    + now replace (length (content s) <? n) with true by (symmetry; apply Nat.ltb_lt; lia).
  - unfold set_write_pos. rewrite Hlast.
    destruct (Nat.leb_spec n (length (content s))).
    + replace (length (content s) <? n) with false by (symmetry; apply Nat.ltb_ge; lia).
      split; [reflexivity|]. now split; cbn [buf last w_pos r_pos content rd wr].
    + now replace (length (content s) <? n) with true by (symmetry; apply Nat.ltb_lt; lia).
  - split; [reflexivity|]. now apply truncate_ok.
  - destruct (Nat.leb_spec n 8); [now apply Hread|].
    unfold read_bits, assert_. now replace (n <=? 8) with false by (symmetry; apply Nat.leb_gt; lia).
  - apply Hread. lia.
  - unfold take_bits. destruct (Nat.leb_spec (rd s + 16) (length (content s))).
    + rewrite (read_u16_ok b s) by assumption. split; [reflexivity|]. now apply R_advance.
    + unfold read_u16. rewrite Hlast, Hr.
      replace (length (content s) <? rd s + 16) with true by (symmetry; apply Nat.ltb_lt; lia). now split.
  - unfold take_bits. destruct (Nat.leb_spec (rd s + 32) (length (content s))).
    + rewrite (read_u32_ok b s) by assumption. split; [reflexivity|]. now apply R_advance.
    + unfold read_u32. rewrite Hlast, Hr.
      replace (length (content s) <? rd s + 32) with true by (symmetry; apply Nat.ltb_lt; lia). now split.
  - unfold take_bits, read_bytes_vec. rewrite Hlast, Hr.
    destruct (Nat.leb_spec (rd s + n * 8) (length (content s))).
    + replace (length (content s) <? rd s + n * 8) with false by (symmetry; apply Nat.ltb_ge; lia).
      rewrite (read_n_ok n b s) by assumption. split; [reflexivity|]. now apply R_advance.
    + replace (length (content s) <? rd s + n * 8) with true by (symmetry; apply Nat.ltb_lt; lia). now split.
  - destruct ((1 <=? n) && (n <=? 8)) eqn:E.
    + apply andb_true_iff in E as [E1 E2]. apply Nat.leb_le in E1, E2.
      destruct (write_bits_ok b s v n HR ltac:(lia)) as (b' & -> & H). now split.
    + unfold write_bits, assert_. replace ((n <=? 8) && (0 <? n)) with false; [reflexivity|].
      symmetry. apply andb_false_iff in E. rewrite !Nat.leb_gt in E. apply andb_false_iff.
      rewrite Nat.leb_gt, Nat.ltb_ge. lia.
  - destruct (write_u8_ok b s v HR) as (b' & -> & H). now split.
  - destruct (write_u16_ok b s v HR) as (b' & -> & H). now split.
  - destruct (write_u32_ok b s v HR) as (b' & -> & H). now split.
  - destruct (write_bytes_ok l b s HR) as (b' & -> & H). now split.
Qed.

Definition sim_end (m : exec bitsbuf) (s : exec sbuf) : Prop :=
  match m, s with
  | Done b, Done s => into_vec b = pack (content s) /\ write_pos b = wr s /\ read_pos b = rd s
  | Panic k, Panic k' => k = k'
  | _, _ => False
  end.

Lemma run_sim : forall ops b s, R b s ->
  fst (run mstep b ops) = fst (run sstep s ops) /\
  sim_end (snd (run mstep b ops)) (snd (run sstep s ops)).
Proof.
  induction ops as [|o ops IH]; intros b s HR.
  - cbn. split; [reflexivity|]. unfold into_vec, write_pos, read_pos. now destruct HR.
  - cbn [run]. pose proof (step_sim b s o HR) as H. unfold sim in H.
    destruct (mstep b o) as [[x b']|k|]; destruct (sstep s o) as [[y s']|k'|]; try contradiction.
    + destruct H as [-> H]. specialize (IH b' s' H).
      destruct (run mstep b' ops), (run sstep s' ops). cbn [fst snd] in *.
      destruct IH as [-> ?]. now split.
    + now split.
Qed.

Lemma R_new : R new_buf (mkS [] 0 0).
Proof. now split. Qed.

Lemma R_from_raw : forall l, is_bytes l -> R (from_raw_bytes l) (mkS (unpack l) 0 (8 * length l)).
Proof.
  intros l H. split; cbn [buf last w_pos r_pos content rd wr from_raw_bytes];
    rewrite ?unpack_length; try lia. symmetry. now apply pack_unpack.
Qed.
