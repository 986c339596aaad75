(** Properties C01-C03: the bit buffer. *)
From Verif Require Import Base Buffer BufferSpec BufferProofs.

(** [mstep] (BufferProofs.v) maps each call of the specification's alphabet to
    the model of the corresponding BitsBuf method; [run] collects what the
    caller observes and how the run ends. *)

(** ** C01 *)
Theorem C01_buffer_is_bit_string_from_bytes : forall (raw : list N) (ops : list op),
  is_bytes raw ->
  let model := run mstep (from_raw_bytes raw) ops in
  let spec := run sstep (mkS (unpack raw) 0 (8 * length raw)) ops in
  fst model = fst spec /\
  match snd model, snd spec with
  | Done b, Done s => into_vec b = pack (content s) /\ write_pos b = wr s /\ read_pos b = rd s
  | Panic k, Panic k' => k = k'
  | _, _ => False
  end.
Proof. intros raw ops H. exact (run_sim ops _ _ (R_from_raw raw H)). Qed.
Print Assumptions C01_buffer_is_bit_string_from_bytes.

Theorem C01_buffer_is_bit_string_from_new : forall ops : list op,
  let model := run mstep new_buf ops in
  let spec := run sstep (mkS [] 0 0) ops in
  fst model = fst spec /\
  match snd model, snd spec with
  | Done b, Done s => into_vec b = pack (content s) /\ write_pos b = wr s /\ read_pos b = rd s
  | Panic k, Panic k' => k = k'
  | _, _ => False
  end.
Proof. intros ops. exact (run_sim ops _ _ R_new). Qed.
Print Assumptions C01_buffer_is_bit_string_from_new.

Example C01_nonvacuous :
  run mstep (from_raw_bytes [165; 60]%N)
      [OReadBits 3; OReadU8; OWriteBits 5 3; OSetWrite 2; OWriteU16 4660; OTruncate 17; OReadU8; OSetRead 18]
  = ([Num (Some 5%N); Num (Some 41%N); Unit; Unit; Unit; Unit; Num None], Panic PExplicit).
Proof. reflexivity. Qed.

(** The empty buffer and [from_raw_bytes] are the only constructors, so every
    buffer a caller can hold is the end of such a run. *)
Inductive reachable : bitsbuf -> Prop :=
| reach_new : reachable new_buf
| reach_raw : forall raw, is_bytes raw -> reachable (from_raw_bytes raw)
| reach_step : forall b o x b', reachable b -> mstep b o = Done (x, b') -> reachable b'.

Lemma reachable_R : forall b, reachable b -> exists s, R b s.
Proof.
  intros b H. induction H as [|raw Hr|b o x b' _ [s IH] E].
  - eexists. apply R_new.
  - eexists. now apply R_from_raw.
  - pose proof (step_sim b s o IH) as S. rewrite E in S. unfold sim in S.
    destruct (sstep s o) as [[y s']| |]; try contradiction. exists s'. apply S.
Qed.

(** ** C02 *)
(** Typed values a client can write. *)
Inductive tval :=
| TBits (n : nat) (v : N)
| TU8 (v : N)
| TU16 (v : N)
| TU32 (v : N)
| TBytes (l : list N).

Definition well_typed (t : tval) : Prop :=
  match t with
  | TBits n v => 1 <= n <= 8 /\ (v < 2 ^ N.of_nat n)%N
  | TU8 v => is_byte v
  | TU16 v => is_u16 v
  | TU32 v => is_u32 v
  | TBytes l => is_bytes l
  end.

Definition write_of (t : tval) : op :=
  match t with
  | TBits n v => OWriteBits v n
  | TU8 v => OWriteU8 v
  | TU16 v => OWriteU16 v
  | TU32 v => OWriteU32 v
  | TBytes l => OWriteBytes l
  end.

Definition read_of (t : tval) : op :=
  match t with
  | TBits n _ => OReadBits n
  | TU8 _ => OReadU8
  | TU16 _ => OReadU16
  | TU32 _ => OReadU32
  | TBytes l => OReadBytes (length l)
  end.

Definition seen (t : tval) : obs :=
  match t with
  | TBits _ v | TU8 v | TU16 v | TU32 v => Num (Some v)
  | TBytes l => Vec (Some l)
  end.

Definition bits_of (t : tval) : bits :=
  match t with
  | TBits n v => field n v
  | TU8 v => field 8 v
  | TU16 v => field 16 v
  | TU32 v => field 32 v
  | TBytes l => unpack l
  end.

Lemma put_at_end : forall c r l, put_bits (mkS c r (length c)) l = mkS (c ++ l) r (length (c ++ l)).
Proof.
  intros c r l. unfold put_bits. cbn [content wr rd].
  rewrite firstn_all, skipn_all2, app_nil_r by lia. now rewrite app_length.
Qed.

Lemma run_app : forall S (st : S -> op -> exec (obs * S)) a b s,
  run st s (a ++ b) =
  match run st s a with
  | (xs, Done s') => let '(ys, e) := run st s' b in (xs ++ ys, e)
  | r => r
  end.
Proof.
  intros S st a. induction a as [|o a IH]; intros b s; cbn [app run].
  - now destruct (run st s b).
  - destruct (st s o) as [[x s']| |]; [|reflexivity..]. rewrite IH.
    destruct (run st s' a) as [xs [s''| |]]; [|reflexivity..].
    now destruct (run st s'' b).
Qed.

Lemma writes_run : forall vs c r, Forall well_typed vs ->
  run sstep (mkS c r (length c)) (map write_of vs)
  = (map (fun _ => Unit) vs, Done (mkS (c ++ flat_map bits_of vs) r (length (c ++ flat_map bits_of vs)))).
Proof.
  induction vs as [|t vs IH]; intros c r H; cbn [map flat_map run].
  - now rewrite app_nil_r.
  - inversion H as [|? ? Ht Hvs]; subst.
    assert (E : sstep (mkS c r (length c)) (write_of t)
                = Done (Unit, mkS (c ++ bits_of t) r (length (c ++ bits_of t)))).
    { rewrite <- put_at_end. destruct t; try reflexivity.
      cbn [write_of sstep]. destruct Ht as [Hn _].
      now replace ((1 <=? n) && (n <=? 8)) with true
        by (symmetry; apply andb_true_iff; rewrite !Nat.leb_le; lia). }
    rewrite E, IH by assumption. rewrite <- app_assoc. reflexivity.
Qed.

Lemma chunks_unpack : forall l, is_bytes l -> chunks (length l) (unpack l) = l.
Proof.
  induction l as [|x l IH]; intros H; [reflexivity|]. inversion H; subst.
  cbn [length chunks]. unfold unpack. cbn [flat_map]. fold (unpack l).
  assert (L : length (field 8 x) = 8) by apply field_length.
  rewrite <- L at 1 3.
  replace (firstn (length (field 8 x)) (field 8 x ++ unpack l)) with (field 8 x).
  - replace (skipn (length (field 8 x)) (field 8 x ++ unpack l)) with (unpack l).
    + rewrite IH by assumption. rewrite val_field. change (2 ^ N.of_nat 8)%N with 256%N.
      unfold is_byte in *. now rewrite N.mod_small.
    + now rewrite skipn_app, skipn_all, Nat.sub_diag.
  - now rewrite firstn_app, firstn_all, Nat.sub_diag, app_nil_r.
Qed.

Lemma take_mid : forall a b c w n, length b = n ->
  take_bits (mkS (a ++ b ++ c) (length a) w) n = (Some b, mkS (a ++ b ++ c) (length (a ++ b)) w).
Proof.
  intros a b c w n <-. unfold take_bits. cbn [rd content wr].
  replace (length a + length b <=? length (a ++ b ++ c)) with true
    by (symmetry; apply Nat.leb_le; rewrite !app_length; lia).
  rewrite app_length. do 2 f_equal.
  rewrite skipn_app, skipn_all, Nat.sub_diag. cbn [app skipn].
  now rewrite firstn_app, firstn_all, Nat.sub_diag, app_nil_r.
Qed.

Lemma reads_run : forall vs pre w, Forall well_typed vs ->
  run sstep (mkS (pre ++ flat_map bits_of vs) (length pre) w) (map read_of vs)
  = (map seen vs, Done (mkS (pre ++ flat_map bits_of vs) (length (pre ++ flat_map bits_of vs)) w)).
Proof.
  induction vs as [|t vs IH]; intros pre w H; cbn [map flat_map run].
  - now rewrite app_nil_r.
  - inversion H as [|? ? Ht Hvs]; subst.
    assert (E : sstep (mkS (pre ++ bits_of t ++ flat_map bits_of vs) (length pre) w) (read_of t)
                = Done (seen t, mkS (pre ++ bits_of t ++ flat_map bits_of vs) (length (pre ++ bits_of t)) w)).
    { destruct t; cbn [read_of sstep bits_of seen well_typed] in *;
        unfold is_byte, is_u16, is_u32 in *.
      - destruct Ht as [Hn Hv].
        replace (n <=? 8) with true by (symmetry; apply Nat.leb_le; lia).
        rewrite take_mid by apply field_length. cbn [option_map].
        now rewrite val_field, N.mod_small.
      - rewrite take_mid by apply field_length. cbn [option_map].
        now rewrite val_field, N.mod_small.
      - rewrite take_mid by apply field_length. cbn [option_map].
        now rewrite val_field, N.mod_small.
      - rewrite take_mid by apply field_length. cbn [option_map].
        now rewrite val_field, N.mod_small.
      - rewrite take_mid by (rewrite unpack_length; lia). cbn [option_map].
        now rewrite chunks_unpack. }
    rewrite E. rewrite app_assoc. rewrite IH by assumption. reflexivity.
Qed.

Theorem C02_write_then_read : forall vs : list tval,
  Forall well_typed vs ->
  exists b,
    run mstep new_buf (map write_of vs ++ map read_of vs)
    = (map (fun _ => Unit) vs ++ map seen vs, Done b).
Proof.
  intros vs H. pose proof (run_sim (map write_of vs ++ map read_of vs) _ _ R_new) as [E1 E2].
  pose proof (writes_run vs [] 0 H) as W. cbn [app length] in W.
  rewrite (run_app _ sstep), W in E1, E2.
  pose proof (reads_run vs [] (length (flat_map bits_of vs)) H) as E3. cbn [app length] in E3.
  rewrite E3 in E1, E2. cbn [fst snd] in E1, E2.
  destruct (run mstep new_buf (map write_of vs ++ map read_of vs)) as [xs e].
  cbn [fst snd] in *. subst xs. unfold sim_end in E2. destruct e as [b| |]; try contradiction.
  now exists b.
Qed.
Print Assumptions C02_write_then_read.

Example C02_nonvacuous :
  Forall well_typed [TBits 3 5; TU16 513; TBytes [1; 255]; TBits 1 1; TU32 4000000000]%N.
Proof. repeat constructor. Qed.

(** ** C03 *)
(** Size in bits of each read call. *)
Definition read_size (o : op) : option nat :=
  match o with
  | OReadBits n => if n <=? 8 then Some n else None
  | OReadU8 => Some 8
  | OReadU16 => Some 16
  | OReadU32 => Some 32
  | OReadBytes n => Some (n * 8)
  | _ => None
  end.

Definition is_none (x : obs) : Prop := x = Num None \/ x = Vec None.

(** [last b] is the number of bits held. *)
Theorem C03_reads : forall b o n, reachable b -> read_size o = Some n ->
  exists x b', mstep b o = Done (x, b') /\ into_vec b' = into_vec b /\ last b' = last b /\
    write_pos b' = write_pos b /\
    (read_pos b + n <= last b -> ~ is_none x /\ read_pos b' = read_pos b + n) /\
    (last b < read_pos b + n -> is_none x /\ b' = b).
Proof.
  intros b o n Hreach Hn. destruct (reachable_R b Hreach) as [s HR].
  pose proof (step_sim b s o HR) as S. unfold sim in S.
  pose proof HR as [Hbuf Hlast Hw Hr Hwl Hrl].
  unfold is_none, into_vec, read_pos, write_pos.
  assert (Htake : forall m, fst (take_bits s m) <> None -> rd s + m <= length (content s)).
  { intros m. unfold take_bits. destruct (Nat.leb_spec (rd s + m) (length (content s))); [easy|].
    cbn. congruence. }
  destruct (Nat.le_gt_cases (rd s + n) (length (content s))) as [Hle|Hgt].
  - assert (T : take_bits s n = (Some (firstn n (skipn (rd s) (content s))), mkS (content s) (rd s + n) (wr s))).
    { unfold take_bits. now replace (rd s + n <=? length (content s)) with true by (symmetry; apply Nat.leb_le; lia). }
    assert (G : forall x b', mstep b o = Done (x, b') -> ~ (x = Num None \/ x = Vec None) ->
       R b' (mkS (content s) (rd s + n) (wr s)) ->
       exists x b', mstep b o = Done (x, b') /\ buf b' = buf b /\ last b' = last b /\
         w_pos b' = w_pos b /\
         (r_pos b + n <= last b -> ~ (x = Num None \/ x = Vec None) /\ r_pos b' = r_pos b + n) /\
         (last b < r_pos b + n -> (x = Num None \/ x = Vec None) /\ b' = b)).
    { intros x b' E Hx [] . cbn [content rd wr] in *. exists x, b'. split; [assumption|].
      split; [congruence|]. split; [congruence|]. split; [congruence|]. split; [|lia].
      intros _. split; [assumption|lia]. }
    destruct o; cbn [read_size] in Hn; try discriminate; cbn [sstep] in S.
    + destruct (n0 <=? 8); [|discriminate]. injection Hn as ->. rewrite T in S.
      destruct (mstep b (OReadBits n)) as [[x b']| |]; try contradiction. destruct S as [-> S].
      eapply G; [reflexivity| |assumption]. intros [?|?]; discriminate.
    + injection Hn as <-. rewrite T in S.
      destruct (mstep b _) as [[x b']| |]; try contradiction. destruct S as [-> S].
      eapply G; [reflexivity| |assumption]. intros [?|?]; discriminate.
    + injection Hn as <-. rewrite T in S.
      destruct (mstep b _) as [[x b']| |]; try contradiction. destruct S as [-> S].
      eapply G; [reflexivity| |assumption]. intros [?|?]; discriminate.
    + injection Hn as <-. rewrite T in S.
      destruct (mstep b _) as [[x b']| |]; try contradiction. destruct S as [-> S].
      eapply G; [reflexivity| |assumption]. intros [?|?]; discriminate.
    + injection Hn as <-. rewrite T in S.
      destruct (mstep b _) as [[x b']| |]; try contradiction. destruct S as [-> S].
      eapply G; [reflexivity| |assumption]. intros [?|?]; discriminate.
  - assert (G : forall x, mstep b o = Done (x, b) -> (x = Num None \/ x = Vec None) ->
       exists x b', mstep b o = Done (x, b') /\ buf b' = buf b /\ last b' = last b /\
         w_pos b' = w_pos b /\
         (r_pos b + n <= last b -> ~ (x = Num None \/ x = Vec None) /\ r_pos b' = r_pos b + n) /\
         (last b < r_pos b + n -> (x = Num None \/ x = Vec None) /\ b' = b)).
    { intros x E Hx. exists x, b. split; [assumption|]. do 3 (split; [reflexivity|]).
      split; [lia|]. intros _. now split. }
    destruct o; cbn [read_size] in Hn; try discriminate; cbn [mstep] in *.
    + destruct (Nat.leb_spec n0 8); [|discriminate]. injection Hn as ->.
      rewrite (read_bits_none b s) in * by assumption. cbn [bind] in *.
      eapply G; [reflexivity|now left].
    + injection Hn as <-. unfold read_u8 in *.
      rewrite (read_bits_none b s) in * by (assumption || lia). cbn [bind] in *.
      eapply G; [reflexivity|now left].
    + injection Hn as <-. unfold read_u16 in *. rewrite Hlast, Hr in *.
      replace (length (content s) <? rd s + 16) with true in * by (symmetry; apply Nat.ltb_lt; lia).
      eapply G; [reflexivity|now left].
    + injection Hn as <-. unfold read_u32 in *. rewrite Hlast, Hr in *.
      replace (length (content s) <? rd s + 32) with true in * by (symmetry; apply Nat.ltb_lt; lia).
      eapply G; [reflexivity|now left].
    + injection Hn as <-. unfold read_bytes_vec in *. rewrite Hlast, Hr in *.
      replace (length (content s) <? rd s + n0 * 8) with true in * by (symmetry; apply Nat.ltb_lt; lia).
      eapply G; [reflexivity|now right].
Qed.
Print Assumptions C03_reads.

Example C03_nonvacuous : reachable (from_raw_bytes [1; 2; 3]%N) /\
  mstep (from_raw_bytes [1; 2; 3]%N) OReadU32 = Done (Num None, from_raw_bytes [1; 2; 3]%N).
Proof. split; [apply reach_raw; repeat constructor | reflexivity]. Qed.
