(** Lemmas about the decoders. *)
From Verif Require Import Base Buffer BufferSpec BufferProofs Reader Types Name NameSpec NameProofs NameDecode
  Codec CodecSpec Utf8 CodecWrite CodecMessage.

(** ** Reading back known bytes *)
(** [m] reads exactly the bytes [w], wherever they are, and returns [a]. *)
Definition parses {A} (m : M A) (w : list N) (a : A) : Prop :=
  is_bytes w /\
  forall pre post, is_bytes pre -> is_bytes post ->
  m (at_ (pre ++ w ++ post) (8 * length pre))
  = Done (Ok a, at_ (pre ++ w ++ post) (8 * (length pre + length w))).

Lemma parses_bind : forall A B (m : M A) (k : A -> M B) w1 w2 a b,
  parses m w1 a -> parses (k a) w2 b -> parses (bindM m k) (w1 ++ w2) b.
Proof.
  intros A B m k w1 w2 a b [Hw1 H1] [Hw2 H2]. split; [now apply is_bytes_app|].
  intros pre post Hpre Hpost. unfold bindM. rewrite <- !app_assoc.
  rewrite (H1 pre (w2 ++ post)) by (try apply is_bytes_app; now try split). cbn [bind].
  specialize (H2 (pre ++ w1) post ltac:(apply is_bytes_app; now split) Hpost).
  rewrite <- !app_assoc, app_length in H2. rewrite H2. do 2 f_equal. rewrite app_length. f_equal. lia.
Qed.

Lemma parses_ret : forall A (a : A), parses (ret a) [] a.
Proof. intros A a. split; [constructor|]. intros. unfold ret. do 2 f_equal. cbn [length]. f_equal. lia. Qed.

Lemma parses_bind_ret : forall A B (m : M A) (f : A -> B) w a,
  parses m w a -> parses (bindM m (fun x => ret (f x))) w (f a).
Proof.
  intros. rewrite <- (app_nil_r w). eapply parses_bind; [eassumption|apply parses_ret].
Qed.

Lemma parses_bind_last : forall A B (m : M A) (k : A -> M B) w a b,
  parses m w a -> parses (k a) [] b -> parses (bindM m k) w b.
Proof. intros. rewrite <- (app_nil_r w). eapply parses_bind; eassumption. Qed.

Lemma mid_bytes : forall pre w post, is_bytes pre -> is_bytes w -> is_bytes post -> is_bytes (pre ++ w ++ post).
Proof. intros. rewrite !is_bytes_app. auto. Qed.

Lemma mid_skipn : forall (pre w post : list N), skipn (length pre) (pre ++ w ++ post) = w ++ post.
Proof. intros. rewrite skipn_app, skipn_all, Nat.sub_diag. reflexivity. Qed.

Lemma mid_nth : forall (pre w post : list N) i, i < length w ->
  nth (length pre + i) (pre ++ w ++ post) 0%N = nth i w 0%N.
Proof.
  intros. rewrite app_nth2 by lia. replace (length pre + i - length pre) with i by lia.
  now rewrite app_nth1.
Qed.

Lemma parses_bytes : forall w n, is_bytes w -> n = length w ->
  parses (check_end (fun b => read_bytes_vec b n)) w w.
Proof.
  intros w n Hw ->. split; [assumption|]. intros pre post Hpre Hpost. unfold check_end.
  pose proof (mid_bytes pre w post Hpre Hw Hpost) as Hb.
  rewrite read_bytes_at by (assumption || (rewrite !app_length; lia)).
  replace (_ <=? _) with true by (symmetry; apply Nat.leb_le; rewrite !app_length; lia).
  cbn [bind]. rewrite rbs_aligned by (assumption || (rewrite !app_length; lia)).
  rewrite mid_skipn, firstn_app, firstn_all, Nat.sub_diag. cbn [firstn]. rewrite app_nil_r.
  do 3 f_equal. lia.
Qed.

Lemma parses_u8 : forall x, is_byte x -> parses (check_end read_u8) [x] x.
Proof.
  intros x Hx. assert (Hw : is_bytes [x]) by now repeat constructor. split; [assumption|].
  intros pre post Hpre Hpost. unfold check_end.
  pose proof (mid_bytes pre [x] post Hpre Hw Hpost) as Hb.
  rewrite read_u8_at by (assumption || (rewrite !app_length; cbn [length]; lia)).
  replace (_ <=? _) with true by (symmetry; apply Nat.leb_le; rewrite !app_length; cbn [length]; lia).
  cbn [bind]. rewrite rb8_aligned by (assumption || (rewrite !app_length; cbn [length]; lia)).
  replace (nth (length pre) (pre ++ [x] ++ post) 0%N) with x.
  2:{ rewrite <- (Nat.add_0_r (length pre)). rewrite mid_nth by (cbn; lia). reflexivity. }
  do 3 f_equal. cbn [length]. lia.
Qed.

Lemma be16_val : forall x, is_u16 x -> (nth 0 (be16 x) 0 * 256 + nth 1 (be16 x) 0 = x)%N.
Proof.
  intros x H. unfold be16. cbn [nth]. rewrite N.mul_comm. symmetry. apply N.div_mod. discriminate.
Qed.

Lemma parses_u16 : forall x, is_u16 x -> parses (check_end read_u16) (be16 x) x.
Proof.
  intros x Hx. pose proof (be16_bytes x Hx) as Hw. split; [assumption|].
  intros pre post Hpre Hpost. unfold check_end.
  pose proof (mid_bytes pre (be16 x) post Hpre Hw Hpost) as Hb.
  assert (Hlen : length (pre ++ be16 x ++ post) = length pre + 2 + length post).
  { rewrite !app_length. cbn [length be16]. lia. }
  rewrite read_u16_at by (assumption || (rewrite Hlen; lia)).
  replace (_ <=? _) with true by (symmetry; apply Nat.leb_le; rewrite Hlen; lia).
  cbn [bind]. rewrite rb16_aligned by (assumption || (rewrite Hlen; lia)).
  rewrite <- (Nat.add_0_r (length pre)) at 1. rewrite !mid_nth by (cbn; lia).
  rewrite be16_val by assumption. do 3 f_equal. cbn [length be16]. lia.
Qed.

Lemma parses_u32 : forall x, is_u32 x -> parses (check_end read_u32) (be32 x) x.
Proof.
  intros x Hx. pose proof (be32_bytes x Hx) as Hw. split; [assumption|].
  intros pre post Hpre Hpost. unfold check_end.
  pose proof (mid_bytes pre (be32 x) post Hpre Hw Hpost) as Hb.
  assert (Hlen : length (pre ++ be32 x ++ post) = length pre + 4 + length post).
  { rewrite !app_length. cbn [length be32]. lia. }
  rewrite read_u32_at by (assumption || (rewrite Hlen; lia)).
  replace (_ <=? _) with true by (symmetry; apply Nat.leb_le; rewrite Hlen; lia).
  cbn [bind]. rewrite rb32_aligned by (assumption || (rewrite Hlen; lia)).
  rewrite <- (Nat.add_0_r (length pre)) at 1. rewrite !mid_nth by (cbn; lia).
  pose proof (be32_val x Hx) as E.
  replace (_ + _ + _ + _)%N with x.
  - do 3 f_equal. cbn [length be32]. lia.
  - unfold be32. cbn [nth]. lia.
Qed.

Lemma parses_name : forall p n, sendable n -> parses (dec_name p) (wname n) n.
Proof.
  intros p n H. destruct (sendable_wire n H) as (E & _ & Hb & _).
  destruct H as (ls & Hn & Hne & Hl). split.
  - rewrite <- E. now apply name_wire_bytes.
  - intros pre post Hpre Hpost. unfold dec_name. rewrite <- E.
    rewrite (name_round_trip p n ls) by assumption. reflexivity.
Qed.

Lemma parses_lift_ok : forall A B (a : A) (k : A -> M B) w b,
  parses (k a) w b -> parses (bindM (lift (Ok a)) k) w b.
Proof. intros. exact H. Qed.

Lemma parses_string : forall s, good_string s -> is_utf8 s -> parses decode_character_string (wstring s) s.
Proof.
  intros s [Hs Hlen] Hu. unfold decode_character_string, wstring.
  change (N.of_nat (length s) :: s) with ([N.of_nat (length s)] ++ s).
  eapply parses_bind; [apply parses_u8; unfold is_byte; lia|]. cbv beta.
  eapply parses_bind_last; [apply parses_bytes; [assumption|lia]|]. cbv beta.
  replace (255 <? length s) with false by (symmetry; apply Nat.ltb_ge; lia).
  apply utf8_ok in Hu. rewrite Hu. apply parses_ret.
Qed.

Lemma parses_len_checked : forall A p (m : M A) w a n,
  parses m w a -> n = N.of_nat (length w) -> (n < 8192)%N ->
  parses (len_checked p n m) w a.
Proof.
  intros A p m w a n [Hw H] -> Hn. split; [assumption|]. intros pre post Hpre Hpost.
  unfold len_checked. rewrite H by assumption. cbn [bind].
  unfold chk_u16. replace (_ <? _)%N with true by (symmetry; apply N.ltb_lt; lia). cbn [bind].
  unfold read_pos. cbn [at_ r_pos].
  replace (_ =? _)%N with true; [reflexivity|]. symmetry. apply N.eqb_eq. lia.
Qed.

Lemma type_from_number : forall t, rtype_from_num (type_number t) = Ok t.
Proof. now destruct t. Qed.

Lemma parses_rtype : forall t, usable_type t -> parses decode_rtype (be16 (type_number t)) t.
Proof.
  intros t Ht. unfold decode_rtype. rewrite <- (app_nil_r (be16 _)).
  eapply parses_bind; [apply parses_u16; now destruct t|]. cbv beta.
  rewrite type_from_number. apply usable_supported in Ht.
  replace (supported_for_records t) with (supported_for_question t) by reflexivity.
  rewrite Ht. apply parses_ret.
Qed.

Lemma parses_qtype : forall t, usable_type t -> parses decode_qtype (be16 (type_number t)) t.
Proof.
  intros t Ht. unfold decode_qtype. rewrite <- (app_nil_r (be16 _)).
  eapply parses_bind; [apply parses_u16; now destruct t|]. cbv beta.
  rewrite type_from_number. apply usable_supported in Ht. rewrite Ht. apply parses_ret.
Qed.

Lemma parses_question : forall p q, question_ok q -> parses (decode_question p) (wire_question q) q.
Proof.
  intros p [n t c] (Hn & Ht & Hc). unfold wire_question. cbn [q_node q_type q_class] in *. subst c.
  unfold decode_question.
  eapply parses_bind; [now apply parses_name|]. cbv beta.
  eapply parses_bind; [now apply parses_qtype|]. cbv beta.
  rewrite <- (app_nil_r (be16 1)). eapply parses_bind; [now apply parses_u16|]. cbv beta.
  apply (parses_lift_ok _ _ C_IN). apply parses_ret.
Qed.

Lemma record_type_usable : forall r, usable_type (record_type r).
Proof. intros r. apply usable_supported. unfold record_type. now destruct (r_data r). Qed.

(** The data part of Record::decode_from_buf. *)
Definition decode_data (p : profile) (t : rtype) (data_len : N) : M rdata :=
  match t with
  | RT_A => do! a := decode_a_data data_len in ret (D_A a)
  | RT_NS => do! n := decode_name_data p data_len in ret (D_NS n)
  | RT_CNAME => do! n := decode_name_data p data_len in ret (D_CNAME n)
  | RT_SOA => decode_soa_data p data_len
  | RT_WKS => decode_wks_data p data_len
  | RT_PTR => do! n := decode_name_data p data_len in ret (D_PTR n)
  | RT_HINFO => decode_hinfo_data p data_len
  | RT_MX => decode_mx_data p data_len
  | RT_TXT => decode_txt_data p data_len
  | _ => fun _ => Panic PUnreachable
  end.

Lemma decode_record_eq : forall p, decode_record p =
  (do! node := dec_name p in
   do! t := decode_rtype in
   do! c := check_end read_u16 in
   do! cl := lift (decode_class c) in
   do! ttl := check_end read_u32 in
   do! data_len := check_end read_u16 in
   do! d := decode_data p t data_len in
   ret (mkRec node cl ttl data_len d)).
Proof. reflexivity. Qed.

Lemma parses_data : forall p r, rdata_ok (r_data r) -> rdata_readable (r_data r) ->
  parses (decode_data p (record_type r) (N.of_nat (length (wire_rdata (r_data r))))) (wire_rdata (r_data r)) (r_data r).
Proof.
  intros p r H Hr. unfold record_type. destruct (r_data r) as
    [a|n|n|m rn se re rt ex mi|a pr ports|n|c o|pr n|ts]; cbn [rdata_ok rdata_readable wire_rdata decode_data] in *.
  - destruct H as [H1 H2]. apply parses_bind_ret. unfold decode_a_data. rewrite H2.
    change (negb (N.of_nat 4 =? 4)%N) with false. cbv iota. now apply parses_bytes.
  - apply parses_bind_ret. destruct (sendable_wire _ H) as (_ & _ & _ & Hl).
    apply parses_len_checked; [now apply parses_name|reflexivity|lia].
  - apply parses_bind_ret. destruct (sendable_wire _ H) as (_ & _ & _ & Hl).
    apply parses_len_checked; [now apply parses_name|reflexivity|lia].
  - destruct H as (Hm & Hrn & H1 & H2 & H3 & H4 & H5).
    destruct (sendable_wire _ Hm) as (_ & _ & _ & Hl1). destruct (sendable_wire _ Hrn) as (_ & _ & _ & Hl2).
    apply parses_len_checked; [|reflexivity|rewrite !app_length; cbn [length be32]; lia].
    eapply parses_bind; [now apply parses_name|]. cbv beta.
    eapply parses_bind; [now apply parses_name|]. cbv beta.
    do 4 (eapply parses_bind; [now apply parses_u32|]; cbv beta).
    now apply (parses_bind_ret _ _ _ (fun x => D_SOA m rn se re rt ex x)), parses_u32.
  - destruct H as ((H1 & H2) & H3 & ->). unfold decode_wks_data.
    eapply parses_bind; [now apply parses_bytes|]. cbv beta.
    rewrite app_length, H2. cbn [length Nat.add]. change (5 <? N.of_nat 5)%N with false. cbv iota.
    now apply (parses_bind_ret _ _ _ (fun x => D_WKS a x [])), parses_u8.
  - apply parses_bind_ret. destruct (sendable_wire _ H) as (_ & _ & _ & Hl).
    apply parses_len_checked; [now apply parses_name|reflexivity|lia].
  - destruct H as (H1 & H2), Hr as (Hr1 & Hr2). pose proof H1 as [_ L1]. pose proof H2 as [_ L2].
    apply parses_len_checked; [|reflexivity|rewrite !app_length; unfold wstring; cbn [length]; lia].
    eapply parses_bind; [now apply parses_string|]. cbv beta.
    now apply (parses_bind_ret _ _ _ (fun x => D_HINFO c x)), parses_string.
  - destruct H as (H1 & H2). destruct (sendable_wire _ H2) as (_ & _ & _ & Hl).
    apply parses_len_checked; [|reflexivity|rewrite !app_length; cbn [length be16]; lia].
    eapply parses_bind; [now apply parses_u16|]. cbv beta.
    now apply (parses_bind_ret _ _ _ (fun x => D_MX pr x)), parses_name.
  - contradiction.
Qed.

Lemma parses_record : forall p r, record_readable r -> parses (decode_record p) (wire_record r) (normal r).
Proof.
  intros p r ((Hn & Hc & Ht & Hd) & Hr). rewrite decode_record_eq. unfold wire_record.
  eapply parses_bind; [now apply parses_name|]. cbv beta.
  eapply parses_bind; [apply parses_rtype, record_type_usable|]. cbv beta.
  eapply parses_bind; [now apply parses_u16|]. cbv beta.
  apply (parses_lift_ok _ _ C_IN).
  eapply parses_bind; [now apply parses_u32|]. cbv beta.
  destruct (data_outcome_ok p _ Hd) as (_ & _ & Hu).
  eapply parses_bind; [now apply parses_u16|]. cbv beta.
  unfold normal. rewrite Hc.
  apply (parses_bind_ret _ _ _ (fun x => mkRec (r_node r) C_IN (r_ttl r) _ x)).
  now apply parses_data.
Qed.

(** Records of unknown type *)
Definition skips {A} (m : M A) (w : list N) (e : parse_err) : Prop :=
  is_bytes w /\
  forall pre post, is_bytes pre -> is_bytes post ->
  m (at_ (pre ++ w ++ post) (8 * length pre))
  = Done (Err e, at_ (pre ++ w ++ post) (8 * (length pre + length w))).

Lemma skips_bind : forall A B (m : M A) (k : A -> M B) w1 w2 a e,
  parses m w1 a -> skips (k a) w2 e -> skips (bindM m k) (w1 ++ w2) e.
Proof.
  intros A B m k w1 w2 a b [Hw1 H1] [Hw2 H2]. split; [now apply is_bytes_app|].
  intros pre post Hpre Hpost. unfold bindM. rewrite <- !app_assoc.
  rewrite (H1 pre (w2 ++ post)) by (try apply is_bytes_app; now try split). cbn [bind].
  specialize (H2 (pre ++ w1) post ltac:(apply is_bytes_app; now split) Hpost).
  rewrite <- !app_assoc, app_length in H2. rewrite H2. do 2 f_equal. rewrite app_length. f_equal. lia.
Qed.

Lemma skips_here : forall A B (m : M A) (k : A -> M B) w e, skips m w e -> skips (bindM m k) w e.
Proof.
  intros A B m k w e [Hw H]. split; [assumption|]. intros pre post Hpre Hpost.
  unfold bindM. now rewrite H.
Qed.

Lemma skips_fail : forall A e, skips (@fail A e) [] e.
Proof. intros. split; [constructor|]. intros. unfold fail. do 2 f_equal. cbn [length]. f_equal. lia. Qed.

Lemma skips_bind_last : forall A B (m : M A) (k : A -> M B) w a e,
  parses m w a -> skips (k a) [] e -> skips (bindM m k) w e.
Proof. intros. rewrite <- (app_nil_r w). eapply skips_bind; eassumption. Qed.

Lemma type_unknown : forall n, ~ known_type n -> rtype_from_num n = Err n.
Proof.
  intros n H. destruct (rtype_from_num n) as [t|m] eqn:E.
  - exfalso. apply H. exists t. unfold rtype_from_num in E.
    repeat match type of E with (if (n =? ?c)%N then _ else _) = _ =>
      destruct (N.eqb_spec n c); [injection E as <-; now subst|] end. discriminate.
  - unfold rtype_from_num in E.
    repeat match type of E with (if (n =? ?c)%N then _ else _) = _ =>
      destruct (N.eqb_spec n c); [discriminate|] end. congruence.
Qed.

Lemma skips_unknown : forall p u, unknown_ok u ->
  skips (decode_record p) (wire_unknown u) (PE_UnknownType (u_type u)).
Proof.
  intros p u (Hn & Ht & Hk & Hc & Httl & Hd & Hl). unfold decode_record, wire_unknown.
  eapply skips_bind; [now apply parses_name|]. cbv beta. apply skips_here. unfold decode_rtype.
  eapply skips_bind; [now apply parses_u16|]. cbv beta. rewrite type_unknown by assumption.
  eapply skips_bind; [now apply parses_u16|]. cbv beta.
  eapply skips_bind; [now apply parses_u32|]. cbv beta.
  eapply skips_bind; [now apply parses_u16|]. cbv beta.
  eapply skips_bind_last; [apply parses_bytes; [assumption|lia]|]. apply skips_fail.
Qed.

(** Sections: each entry either parsed or skipped because of its type. *)
Inductive entry (A : Type) := Known (w : list N) (a : A) | Skipped (w : list N).
Arguments Known {A} w a. Arguments Skipped {A} w.
Definition entry_wire {A} (e : entry A) := match e with Known w _ | Skipped w => w end.
Definition entry_val {A} (e : entry A) : list A := match e with Known _ a => [a] | Skipped _ => [] end.
Definition entry_ok {A} (m : M A) (e : entry A) : Prop :=
  match e with
  | Known w a => parses m w a
  | Skipped w => exists n, skips m w (PE_UnknownType n)
  end.

Lemma decode_section_entries : forall A (dec : M A) mk es i pre post,
  Forall (entry_ok dec) es -> is_bytes pre -> is_bytes post ->
  let w := concat (map entry_wire es) in
  is_bytes w /\
  decode_section dec mk i (length es) (at_ (pre ++ w ++ post) (8 * length pre))
  = Done (Ok (flat_map entry_val es), at_ (pre ++ w ++ post) (8 * (length pre + length w))).
Proof.
  intros A dec mk es. induction es as [|e es IH]; intros i pre post He Hpre Hpost; cbv zeta.
  - split; [constructor|]. cbn [length decode_section map concat app flat_map]. do 2 f_equal. f_equal. lia.
  - inversion He as [|? ? H1 H2]; subst. cbn [map concat length decode_section].
    assert (Hwe : is_bytes (entry_wire e)) by (destruct e; [apply H1|destruct H1 as (n & H1); apply H1]).
    destruct (IH (S i) (pre ++ entry_wire e) post H2 ltac:(apply is_bytes_app; now split) Hpost) as (Hw & E).
    split; [now apply is_bytes_app|].
    set (w := concat (map entry_wire es)) in *.
    rewrite <- !app_assoc in E. rewrite <- !app_assoc.
    assert (Hp : is_bytes (w ++ post)) by (apply is_bytes_app; now split).
    destruct e as [we a|we]; cbn [entry_wire entry_ok entry_val flat_map] in *.
    + destruct H1 as [_ H1]. rewrite (H1 pre (w ++ post) Hpre Hp). cbn [bind].
      rewrite app_length in E. rewrite E. cbn [bind app]. do 3 f_equal. rewrite app_length. lia.
    + destruct H1 as (n & _ & H1). rewrite (H1 pre (w ++ post) Hpre Hp). cbn [bind].
      rewrite app_length in E. rewrite E. cbn [app]. do 3 f_equal. rewrite app_length. lia.
Qed.

(** ** Headers *)
Lemma parses_header_bits : forall l, is_bytes l -> 12 <= length l ->
  decode_header (at_ l 0) =
  let id := rb l 0 16 in
  let qr := (rb l 16 1 =? 1)%N in
  match decode_op_code (rb l 17 4) true with
  | Err e => Done (Err e, at_ l 21)
  | Ok op =>
  match decode_resp_code (rb l 28 4) with
  | Err e => Done (Err e, at_ l 32)
  | Ok rc =>
    Done (Ok (mkHeader id qr op (rb l 21 1 =? 1) (rb l 22 1 =? 1) (rb l 23 1 =? 1) (rb l 24 1 =? 1)
      (rb l 25 3) rc (rb l 32 16) (rb l 48 16) (rb l 64 16) (rb l 80 16))%N, at_ l 96)
  end end.
Proof.
  intros l Hl Hlen. cbv zeta.
  assert (B : forall r n, r + n <= 96 -> n <= 8 -> rbits n (at_ l r) = Done (Ok (rb l r n), at_ l (r + n))).
  { intros r n H Hn. unfold rbits, check_end. rewrite read_bits_at by (assumption || lia).
    replace (_ <=? _) with true by (symmetry; apply Nat.leb_le; lia). reflexivity. }
  assert (F : forall r, r + 1 <= 96 -> rflag (at_ l r) = Done (Ok (rb l r 1 =? 1)%N, at_ l (r + 1))).
  { intros r H. unfold rflag, bindM. rewrite B by lia. reflexivity. }
  assert (U : forall r, r + 16 <= 96 -> check_end read_u16 (at_ l r) = Done (Ok (rb l r 16), at_ l (r + 16))).
  { intros r H. unfold check_end. rewrite read_u16_at by (assumption || lia).
    replace (_ <=? _) with true by (symmetry; apply Nat.leb_le; lia). reflexivity. }
  unfold decode_header.
  unfold bindM at 1. rewrite U by lia. cbn [bind]. change (0 + 16) with 16.
  unfold bindM at 1. rewrite F by lia. cbn [bind]. change (16 + 1) with 17.
  unfold bindM at 1. rewrite B by lia. cbn [bind]. change (17 + 4) with 21.
  unfold bindM at 1. unfold lift at 1. cbn [bind].
  destruct (decode_op_code (rb l 17 4) true) as [op|e]; [|reflexivity].
  unfold bindM at 1. rewrite F by lia. cbn [bind]. change (21 + 1) with 22.
  unfold bindM at 1. rewrite F by lia. cbn [bind]. change (22 + 1) with 23.
  unfold bindM at 1. rewrite F by lia. cbn [bind]. change (23 + 1) with 24.
  unfold bindM at 1. rewrite F by lia. cbn [bind]. change (24 + 1) with 25.
  unfold bindM at 1. rewrite B by lia. cbn [bind]. change (25 + 3) with 28.
  unfold bindM at 1. rewrite B by lia. cbn [bind]. change (28 + 4) with 32.
  unfold bindM at 1. unfold lift at 1. cbn [bind].
  destruct (decode_resp_code (rb l 28 4)) as [rc|e]; [|reflexivity].
  unfold bindM at 1. rewrite U by lia. cbn [bind]. change (32 + 16) with 48.
  unfold bindM at 1. rewrite U by lia. cbn [bind]. change (48 + 16) with 64.
  unfold bindM at 1. rewrite U by lia. cbn [bind]. change (64 + 16) with 80.
  unfold bindM at 1. rewrite U by lia. cbn [bind]. reflexivity.
Qed.

Lemma op_code_known : forall n o, decode_op_code n true = Ok o <-> n = op_number o.
Proof.
  intros n o. unfold decode_op_code, opcode_from_num. split.
  - destruct (N.eqb_spec n 0) as [->|]; [now intros [= <-]|].
    destruct (N.eqb_spec n 1) as [->|]; [now intros [= <-]|].
    destruct (N.eqb_spec n 2) as [->|]; [now intros [= <-]|]. discriminate.
  - intros ->. now destruct o.
Qed.

Lemma resp_code_known : forall n o, decode_resp_code n = Ok o <-> n = rcode_number o.
Proof.
  intros n o. unfold decode_resp_code, rcode_from_num. split.
  - repeat match goal with |- context [(n =? ?c)%N] => destruct (N.eqb_spec n c) as [->|]; [now intros [= <-]|] end.
    discriminate.
  - intros ->. now destruct o.
Qed.

Lemma bit_eqb : forall x, (x < 2)%N -> bit (x =? 1)%N = x.
Proof. intros x H. assert (x = 0 \/ x = 1)%N as [->| ->] by lia; reflexivity. Qed.

Lemma decode_header_short : forall l h b', is_bytes l -> decode_header (at_ l 0) = Done (Ok h, b') -> 12 <= length l.
Proof.
  intros l h b' Hl E.
  assert (B : forall A (k : N -> M A) n r a b', n <= 8 -> r <= 8 * length l ->
    (do! x := rbits n in k x) (at_ l r) = Done (Ok a, b') -> exists v, r + n <= 8 * length l /\ k v (at_ l (r + n)) = Done (Ok a, b')).
  { intros A k n r a bb Hn Hr. unfold bindM, rbits, check_end. rewrite read_bits_at by assumption.
    destruct (Nat.leb_spec (r + n) (8 * length l)); cbn [bind]; [|discriminate]. intros H'. eauto. }
  assert (U : forall A (k : N -> M A) r a b', r <= 8 * length l ->
    (do! x := check_end read_u16 in k x) (at_ l r) = Done (Ok a, b') -> exists v, r + 16 <= 8 * length l /\ k v (at_ l (r + 16)) = Done (Ok a, b')).
  { intros A k r a bb Hr. unfold bindM, check_end. rewrite read_u16_at by assumption.
    destruct (Nat.leb_spec (r + 16) (8 * length l)); cbn [bind]; [|discriminate]. intros H'; eexists; split; [assumption|exact H']. }
  assert (F : forall A (k : bool -> M A) r a b', r <= 8 * length l ->
    (do! x := rflag in k x) (at_ l r) = Done (Ok a, b') -> exists v, r + 1 <= 8 * length l /\ k v (at_ l (r + 1)) = Done (Ok a, b')).
  { intros A k r a bb Hr. unfold rflag, rbits, bindM, check_end. rewrite read_bits_at by (assumption || lia).
    destruct (Nat.leb_spec (r + 1) (8 * length l)); cbn [bind]; [|discriminate]. intros H'; eexists; split; [assumption|exact H']. }
  assert (L : forall A B (x : result A parse_err) (k : A -> M B) b a b', 
    (do! y := lift x in k y) b = Done (Ok a, b') -> exists v, x = Ok v /\ k v b = Done (Ok a, b')).
  { intros A B' x k b a bb. unfold bindM, lift. cbn [bind]. destruct x; [eauto|discriminate]. }
  unfold decode_header in E.
  apply U in E as (? & H1 & E); [|lia]. apply F in E as (? & H2 & E); [|lia].
  apply B in E as (? & H3 & E); [|lia|lia]. apply L in E as (? & _ & E).
  do 4 (apply F in E as (? & ? & E); [|lia]).
  apply B in E as (? & H8 & E); [|lia|lia]. apply B in E as (? & H9 & E); [|lia|lia].
  apply L in E as (? & _ & E).
  do 4 (apply U in E as (? & ? & E); [|lia]). lia.
Qed.
