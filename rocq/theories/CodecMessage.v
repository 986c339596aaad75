(** Lemmas about encoding headers and whole messages. *)
From Verif Require Import Base Buffer BufferSpec BufferProofs Reader Types Name NameSpec NameProofs NameDecode
  Codec CodecSpec CodecWrite.

Definition header_bits (h : header) : bits :=
  field 16 (h_id h) ++ field 1 (b2n (h_qr h)) ++ field 4 (opcode_to_num (h_op h)) ++
  field 1 (b2n (h_aa h)) ++ field 1 (b2n (h_tc h)) ++ field 1 (b2n (h_rd h)) ++ field 1 (b2n (h_ra h)) ++
  field 3 (h_z h) ++ field 4 (rcode_to_num (h_rcode h)) ++
  field 16 (h_qd h) ++ field 16 (h_an h) ++ field 16 (h_ns h) ++ field 16 (h_ar h).

Lemma header_bits_length : forall h, length (header_bits h) = 96.
Proof. intros h. unfold header_bits. rewrite !app_length, !field_length. reflexivity. Qed.

Lemma put_R : forall (w : bitsbuf -> exec bitsbuf) bs,
  (forall b s, R b s -> exists b', w b = Done b' /\ R b' (put_bits s bs)) ->
  forall (k : M unit) bs',
  (forall b s, R b s -> exists b', k b = Done (Ok tt, b') /\ R b' (put_bits s bs')) ->
  forall b s, R b s -> exists b', (do! _ := put w in k) b = Done (Ok tt, b') /\ R b' (put_bits s (bs ++ bs')).
Proof.
  intros w bs Hw k bs' Hk b s HR. destruct (Hw b s HR) as (b1 & E1 & H1).
  destruct (Hk b1 _ H1) as (b2 & E2 & H2). exists b2. unfold bindM, put. rewrite E1. cbn [bind].
  split; [exact E2|]. rewrite put_put in H2; [exact H2|]. apply HR.
Qed.

Lemma encode_header_R : forall h, opcode_supported (h_op h) = true -> forall b s, R b s ->
  exists b', encode_header h b = Done (Ok tt, b') /\ R b' (put_bits s (header_bits h)).
Proof.
  intros h Hop. unfold encode_header, assertM, assert_. rewrite Hop. unfold header_bits.
  apply put_R; [intros; now apply write_u16_ok|].
  do 8 (apply put_R; [intros; apply write_bits_ok; [assumption|lia]|]).
  do 3 (apply put_R; [intros; now apply write_u16_ok|]).
  intros b s HR. destruct (write_u16_ok b s (h_ar h) HR) as (b' & E & H). exists b'. unfold put.
  rewrite E. now split.
Qed.

Lemma encode_header_panics : forall h b, opcode_supported (h_op h) = false -> encode_header h b = Panic PAssert.
Proof. intros h b H. unfold encode_header, assertM, assert_. now rewrite H. Qed.

Lemma b2n_bit : forall b, b2n b = bit b. Proof. reflexivity. Qed.
Lemma bit_bound : forall b, (bit b < 2)%N. Proof. now destruct b. Qed.
Lemma op_bound : forall o, (op_number o < 16)%N. Proof. now destruct o. Qed.
Lemma rcode_bound : forall o, (rcode_number o < 16)%N. Proof. now destruct o. Qed.
Lemma op_number_model : forall o, opcode_to_num o = op_number o. Proof. now destruct o. Qed.
Lemma rcode_number_model : forall o, rcode_to_num o = rcode_number o. Proof. now destruct o. Qed.

Lemma wire_header_bytes : forall h, header_ok h -> is_bytes (wire_header h).
Proof.
  intros h (H1 & H2 & H3 & H4 & H5 & H6). unfold wire_header.
  rewrite !is_bytes_app. repeat split; try now apply be16_bytes.
  pose proof (bit_bound (h_qr h)). pose proof (op_bound (h_op h)). pose proof (bit_bound (h_aa h)).
  pose proof (bit_bound (h_tc h)). pose proof (bit_bound (h_rd h)). pose proof (bit_bound (h_ra h)).
  pose proof (rcode_bound (h_rcode h)).
  repeat constructor; unfold is_byte; lia.
Qed.

Lemma header_bits_wire : forall h, header_ok h -> header_bits h = unpack (wire_header h).
Proof.
  intros h (H1 & H2 & H3 & H4 & H5 & H6). unfold header_bits, wire_header.
  rewrite !unpack_app. rewrite <- !field16 by assumption.
  rewrite !b2n_bit, op_number_model, rcode_number_model.
  pose proof (bit_bound (h_qr h)). pose proof (op_bound (h_op h)). pose proof (bit_bound (h_aa h)).
  pose proof (bit_bound (h_tc h)). pose proof (bit_bound (h_rd h)). pose proof (bit_bound (h_ra h)).
  pose proof (rcode_bound (h_rcode h)).
  f_equal.
  unfold unpack. cbn [flat_map]. rewrite app_nil_r.
  assert (E1 : field 8 (bit (h_qr h) * 128 + op_number (h_op h) * 8 + bit (h_aa h) * 4 + bit (h_tc h) * 2 + bit (h_rd h))%N
    = field 1 (bit (h_qr h)) ++ field 4 (op_number (h_op h)) ++ field 1 (bit (h_aa h)) ++
      field 1 (bit (h_tc h)) ++ field 1 (bit (h_rd h))).
  { rewrite !app_assoc. rewrite !field_join by (cbn [N.of_nat Pos.of_succ_nat Pos.succ N.pow Pos.pow Pos.iter Pos.mul]; assumption).
    change (1 + 4 + 1 + 1 + 1) with 8. f_equal.
    change (2 ^ N.of_nat 4)%N with 16%N. change (2 ^ N.of_nat 1)%N with 2%N. lia. }
  assert (E2 : field 8 (bit (h_ra h) * 128 + h_z h * 16 + rcode_number (h_rcode h))%N
    = field 1 (bit (h_ra h)) ++ field 3 (h_z h) ++ field 4 (rcode_number (h_rcode h))).
  { rewrite !app_assoc. rewrite !field_join by (cbn [N.of_nat Pos.of_succ_nat Pos.succ N.pow Pos.pow Pos.iter Pos.mul]; assumption).
    change (1 + 3 + 4) with 8. f_equal.
    change (2 ^ N.of_nat 4)%N with 16%N. change (2 ^ N.of_nat 3)%N with 8%N. lia. }
  rewrite E1, E2. now rewrite <- !app_assoc.
Qed.

Lemma wire_header_length : forall h, length (wire_header h) = 12.
Proof. reflexivity. Qed.

Lemma encode_header_new : forall h, opcode_supported (h_op h) = true -> header_ok h ->
  encode_header h new_buf = Done (Ok tt, at_ (wire_header h) 0).
Proof.
  intros h Ho Hh. destruct (encode_header_R h Ho _ _ R_new) as (b' & E & H).
  rewrite E. do 2 f_equal.
  change (mkS [] 0 0) with (mkS (unpack []) 0 (8 * length (@nil N))) in H.
  apply (at_end_of b' [] 0 (wire_header h)) in H; try assumption.
  - constructor.
  - now apply wire_header_bytes.
  - now apply header_bits_wire.
Qed.

(** For any header, twelve bytes. *)
Definition raw_header (h : header) : list N := pack (header_bits h).

Lemma raw_header_props : forall h, is_bytes (raw_header h) /\ length (raw_header h) = 12 /\
  unpack (raw_header h) = header_bits h.
Proof.
  intros h. unfold raw_header. assert (Hl : length (pack (header_bits h)) = 12)
    by now rewrite pack_length, header_bits_length.
  split; [apply pack_is_bytes|]. split; [assumption|].
  apply nth_ext with (d := false) (d' := false).
  - now rewrite unpack_length, Hl, header_bits_length.
  - intros n _. now rewrite unpack_nth, pack_bit.
Qed.

Lemma raw_header_wire : forall h, header_ok h -> raw_header h = wire_header h.
Proof.
  intros h H. unfold raw_header. rewrite header_bits_wire by assumption. apply pack_unpack.
  now apply wire_header_bytes.
Qed.

Lemma encode_header_new_raw : forall h, opcode_supported (h_op h) = true ->
  encode_header h new_buf = Done (Ok tt, at_ (raw_header h) 0).
Proof.
  intros h Ho. destruct (encode_header_R h Ho _ _ R_new) as (b' & E & H).
  rewrite E. do 2 f_equal. destruct (raw_header_props h) as (H1 & H2 & H3).
  change (mkS [] 0 0) with (mkS (unpack []) 0 (8 * length (@nil N))) in H.
  apply (at_end_of b' [] 0 (raw_header h)) in H; try assumption.
  - constructor.
  - congruence.
Qed.

(** Rewriting the header of a written buffer, then truncating it. *)
Lemma R_buf_of : forall b l, is_bytes l -> R b (mkS (unpack l) 0 (wr (mkS (unpack l) 0 96))) -> buf b = l.
Proof. intros b l Hl [H _ _ _ _ _]. cbn [content] in H. now rewrite pack_unpack in H. Qed.

Lemma overwrite_header : forall h l, opcode_supported (h_op h) = true -> is_bytes l -> 12 <= length l ->
  exists b2 b3, set_write_pos (at_ l 0) 0 = Done b2 /\ encode_header h b2 = Done (Ok tt, b3) /\
    into_vec b3 = raw_header h ++ skipn 12 l /\
    forall k, 12 <= k <= length l -> into_vec (truncate b3 (8 * k)) = raw_header h ++ skipn 12 (firstn k l).
Proof.
  intros h l Ho Hl Hlen. destruct (raw_header_props h) as (Hr1 & Hr2 & Hr3).
  assert (Hset : set_write_pos (at_ l 0) 0 = Done (mkBuf l (length l * 8) 0 0)).
  { unfold set_write_pos. cbn [at_ last buf r_pos]. reflexivity. }
  assert (HR : R (mkBuf l (length l * 8) 0 0) (mkS (unpack l) 0 0)).
  { split; cbn [buf last w_pos r_pos content wr rd]; rewrite ?unpack_length; try lia.
    symmetry. now apply pack_unpack. }
  destruct (encode_header_R h Ho _ _ HR) as (b3 & E & H). exists (mkBuf l (length l * 8) 0 0), b3.
  split; [exact Hset|]. split; [exact E|].
  assert (Hc : put_bits (mkS (unpack l) 0 0) (header_bits h) = mkS (unpack (raw_header h ++ skipn 12 l)) 0 96).
  { unfold put_bits. cbn [content rd wr firstn app]. rewrite header_bits_length, <- Hr3.
    change (0 + 96) with (8 * 12). now rewrite skipn_unpack, <- unpack_app. }
  rewrite Hc in H.
  assert (Hb : is_bytes (raw_header h ++ skipn 12 l)).
  { apply is_bytes_app. split; [assumption|now apply is_bytes_skipn]. }
  split.
  - destruct H as [H _ _ _ _ _]. cbn [content] in H. unfold into_vec. rewrite H. now apply pack_unpack.
  - intros k Hk. apply (truncate_ok _ _ (8 * k)) in H. destruct H as [H _ _ _ _ _]. cbn [content] in H.
    unfold into_vec. rewrite H. rewrite (Nat.mul_comm 8 k), firstn_unpack.
    rewrite pack_unpack by now apply is_bytes_firstn.
    rewrite firstn_app, Hr2, (firstn_all2 (raw_header h)) by lia. f_equal.
    now rewrite skipn_firstn_comm.
Qed.

(** ** Whole messages *)
Section section.
  Context {A : Type} (enc : A -> M unit) (mk : nat -> parse_err -> msg_err)
          (o : A -> exec (result (list N) parse_err)) (items : list A).
  Hypothesis Ho : Forall (fun x => appends (enc x) (o x)) items.

  Lemma nth_error_Forall : forall (P : A -> Prop) l i x, Forall P l -> nth_error l i = Some x -> P x.
  Proof. intros P l i x H E. rewrite Forall_forall in H. apply H. now apply nth_error_In in E. Qed.

  (** A successful section appends bytes. *)
  Lemma encode_section_app : forall n i l r b', is_bytes l -> r <= 8 * length l ->
    encode_section enc mk items i n (at_ l r) = Done (Ok b') ->
    exists w, is_bytes w /\ b' = at_ (l ++ w) r.
  Proof.
    induction n as [|n IH]; intros i l r b' Hl Hr E; cbn [encode_section] in E.
    - injection E as <-. exists []. rewrite app_nil_r. split; [constructor|reflexivity].
    - unfold index in E. destruct (nth_error items i) as [x|] eqn:Ex; [|discriminate]. cbn [bind] in E.
      pose proof (nth_error_Forall _ _ _ _ Ho Ex) as [Hb Ha]. cbn beta in *.
      specialize (Ha l r Hl Hr). destruct (o x) as [[w|e]|k|]; [| | |contradiction].
      + rewrite Ha in E. cbn [bind] in E. apply IH in E as (w' & Hw' & ->).
        * exists (w ++ w'). rewrite app_assoc. split; [|reflexivity]. apply is_bytes_app. now split.
        * apply is_bytes_app. now split.
        * rewrite app_length. lia.
      + destruct Ha as (b1 & Ha). rewrite Ha in E. discriminate.
      + rewrite Ha in E. discriminate.
  Qed.

  (** All entries present and encodable. *)
  Lemma encode_section_ok : forall (wire : A -> list N) n i l r, is_bytes l -> r <= 8 * length l ->
    Forall (fun x => o x = Done (Ok (wire x))) items -> i + n <= length items ->
    encode_section enc mk items i n (at_ l r)
    = Done (Ok (at_ (l ++ concat (map wire (firstn n (skipn i items)))) r)).
  Proof.
    intros wire. induction n as [|n IH]; intros i l r Hl Hr Hw Hi; cbn [encode_section firstn].
    - cbn [map concat]. now rewrite app_nil_r.
    - destruct (nth_error items i) as [x|] eqn:Ex; [|apply nth_error_None in Ex; lia].
      unfold index. rewrite Ex. cbn [bind].
      pose proof (nth_error_Forall _ _ _ _ Ho Ex) as [Hb Ha].
      pose proof (nth_error_Forall _ _ _ _ Hw Ex) as Hx. cbn beta in *.
      specialize (Ha l r Hl Hr). rewrite Hx in *. rewrite Ha. cbn [bind].
      rewrite IH; [|apply is_bytes_app; now split|rewrite app_length; lia|assumption|lia].
      assert (Es : skipn i items = x :: skipn (S i) items).
      { clear -Ex. revert i Ex. induction items as [|y ys IH]; intros [|i] Ex; try discriminate.
        - now injection Ex as ->.
        - cbn [skipn]. now rewrite (IH i Ex). }
      rewrite Es. cbn [firstn map concat]. now rewrite <- app_assoc.
  Qed.

  (** Truncated sections never exceed the limit. *)
  Context (bump : header -> header).

  Lemma trunc_section_bound : forall n i h l s, is_bytes l -> 12 <= length l <= 512 ->
    trunc_section enc mk bump items i n h (at_ l 0) = Done (Ok s) ->
    match s with
    | TContinue _ b => exists l', is_bytes l' /\ 12 <= length l' <= 512 /\ b = at_ l' 0
    | TReturn out => length out <= 512
    end.
  Proof.
    induction n as [|n IH]; intros i h l s Hl Hlen E; cbn [trunc_section] in E.
    - injection E as <-. now exists l.
    - unfold index in E. destruct (nth_error items i) as [x|] eqn:Ex; [|discriminate]. cbn [bind] in E.
      pose proof (nth_error_Forall _ _ _ _ Ho Ex) as [Hb Ha]. cbn beta in *.
      specialize (Ha l 0 Hl ltac:(lia)). destruct (o x) as [[w|e]|k|]; [| | |contradiction].
      + rewrite Ha in E. cbn [bind] in E.
        assert (Hlw : is_bytes (l ++ w)) by (apply is_bytes_app; now split).
        assert (Ewp : write_pos (at_ (l ++ w) 0) / 8 = length (l ++ w)).
        { unfold write_pos. cbn [at_ w_pos]. apply Nat.div_mul. lia. }
        rewrite Ewp in E. unfold MAX_UDP_LEN_BYTES in E.
        destruct (Nat.ltb_spec 512 (length (l ++ w))) as [Hbig|Hsmall].
        * destruct (opcode_supported (h_op (with_tc h))) eqn:Hop.
          2:{ unfold set_write_pos in E. cbn [at_ last] in E.
              destruct (_ <? 0); cbn [bind] in E; [discriminate|].
              rewrite encode_header_panics in E by assumption. discriminate. }
          destruct (overwrite_header (with_tc h) (l ++ w) Hop Hlw) as (b2 & b3 & E1 & E2 & _ & E4).
          { rewrite app_length. lia. }
          rewrite E1 in E. cbn [bind] in E. rewrite E2 in E. cbn [bind] in E. injection E as <-.
          unfold write_pos. cbn [at_ w_pos]. rewrite (Nat.mul_comm (length l) 8), E4.
          -- destruct (raw_header_props (with_tc h)) as (_ & Hr & _).
             rewrite app_length, Hr, skipn_length, firstn_length, app_length. lia.
          -- rewrite app_length. lia.
        * apply IH in E; [exact E|assumption|]. rewrite app_length in *. lia.
      + destruct Ha as (b1 & Ha). rewrite Ha in E. discriminate.
      + rewrite Ha in E. discriminate.
  Qed.

  Fixpoint bumps (n : nat) (h : header) : header :=
    match n with 0 => h | S n' => bumps n' (bump h) end.

  (** If the plain encoder's output fits, the truncating one does the same. *)
  Lemma trunc_section_fits : forall n i h l b', is_bytes l ->
    encode_section enc mk items i n (at_ l 0) = Done (Ok b') -> length (buf b') <= 512 ->
    trunc_section enc mk bump items i n h (at_ l 0) = Done (Ok (TContinue (bumps n h) b')).
  Proof.
    induction n as [|n IH]; intros i h l b' Hl E Hlen; cbn [trunc_section encode_section] in *.
    - injection E as <-. reflexivity.
    - unfold index in *. destruct (nth_error items i) as [x|] eqn:Ex; [|discriminate]. cbn [bind] in *.
      pose proof (nth_error_Forall _ _ _ _ Ho Ex) as [Hb Ha]. cbn beta in *.
      specialize (Ha l 0 Hl ltac:(lia)). destruct (o x) as [[w|e]|k|]; [| | |contradiction].
      + rewrite Ha in *. cbn [bind] in *.
        assert (Hlw : is_bytes (l ++ w)) by (apply is_bytes_app; now split).
        assert (Ewp : write_pos (at_ (l ++ w) 0) / 8 = length (l ++ w)).
        { unfold write_pos. cbn [at_ w_pos]. apply Nat.div_mul. lia. }
        rewrite Ewp.
        pose proof E as E'. apply encode_section_app in E' as (w' & Hw' & ->); [|assumption|lia].
        cbn [at_ buf] in Hlen. rewrite (app_length (l ++ w) w') in Hlen.
        unfold MAX_UDP_LEN_BYTES. replace (512 <? length (l ++ w)) with false by (symmetry; apply Nat.ltb_ge; lia).
        apply IH; [assumption|exact E|]. cbn [at_ buf]. rewrite (app_length (l ++ w) w'). lia.
      + destruct Ha as (b1 & Ha). rewrite Ha in E. discriminate.
      + rewrite Ha in E. discriminate.
  Qed.
End section.

(** How many of the entries fit after [size] bytes. *)
Fixpoint fits (size : nat) (ws : list (list N)) : nat :=
  match ws with
  | [] => 0
  | w :: ws' => if size + length w <=? 512 then S (fits (size + length w) ws') else 0
  end.

Section trunc.
  Context {A : Type} (enc : A -> M unit) (mk : nat -> parse_err -> msg_err)
          (bump : header -> header) (wire : A -> list N) (items : list A).
  Hypothesis Ho : Forall (fun x => appends (enc x) (Done (Ok (wire x)))) items.

  Lemma trunc_section_exact : forall n i h l, is_bytes l -> 12 <= length l <= 512 ->
    (forall k, opcode_supported (h_op (bumps bump k h)) = true) ->
    i + n = length items ->
    let ws := map wire (skipn i items) in
    let k := fits (length l) ws in
    trunc_section enc mk bump items i n h (at_ l 0) =
    Done (Ok (if k =? n then TContinue (bumps bump n h) (at_ (l ++ concat ws) 0)
              else TReturn (raw_header (with_tc (bumps bump k h)) ++ skipn 12 (l ++ concat (firstn k ws))))).
  Proof.
    induction n as [|n IH]; intros i h l Hl Hlen Hop Hi; cbv zeta.
    - rewrite skipn_all2 by lia. cbn [map fits Nat.eqb trunc_section bumps concat]. now rewrite app_nil_r.
    - destruct (nth_error items i) as [x|] eqn:Ex; [|apply nth_error_None in Ex; lia].
      assert (Es : skipn i items = x :: skipn (S i) items).
      { clear -Ex. revert i Ex. induction items as [|y ys IH]; intros [|i] Ex; try discriminate.
        - now injection Ex as ->.
        - cbn [skipn]. now rewrite (IH i Ex). }
      rewrite Es. cbn [trunc_section map fits concat]. unfold index. rewrite Ex. cbn [bind].
      assert (Hx : appends (enc x) (Done (Ok (wire x)))).
      { rewrite Forall_forall in Ho. apply Ho. now apply nth_error_In in Ex. }
      destruct Hx as [Hb Ha]. cbn beta in *.
      specialize (Ha l 0 Hl ltac:(lia)). rewrite Ha. cbn [bind].
      assert (Hlw : is_bytes (l ++ wire x)) by (apply is_bytes_app; now split).
      assert (Ewp : write_pos (at_ (l ++ wire x) 0) / 8 = length l + length (wire x)).
      { unfold write_pos. cbn [at_ w_pos]. rewrite Nat.div_mul by lia. apply app_length. }
      rewrite Ewp. unfold MAX_UDP_LEN_BYTES.
      destruct (Nat.leb_spec (length l + length (wire x)) 512) as [Hfit|Hbig].
      + replace (512 <? _) with false by (symmetry; apply Nat.ltb_ge; lia).
        rewrite IH; [|assumption|rewrite app_length; lia| |lia].
        2:{ intros k. apply (Hop (S k)). }
        rewrite app_length. cbn [Nat.eqb firstn concat bumps].
        rewrite <- !app_assoc. reflexivity.
      + replace (512 <? _) with true by (symmetry; apply Nat.ltb_lt; lia).
        destruct (overwrite_header (with_tc h) (l ++ wire x) (Hop 0) Hlw) as (b2 & b3 & E1 & E2 & _ & E4).
        { rewrite app_length. lia. }
        rewrite E1. cbn [bind]. rewrite E2. cbn [bind Nat.eqb bumps firstn concat].
        unfold write_pos. cbn [at_ w_pos]. rewrite (Nat.mul_comm (length l) 8), E4 by (rewrite app_length; lia).
        rewrite firstn_app, firstn_all, Nat.sub_diag. cbn [firstn]. now rewrite !app_nil_r.
  Qed.
End trunc.
