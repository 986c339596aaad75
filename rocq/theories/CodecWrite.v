(** Lemmas about the encoders: what they append to a buffer. *)
From Verif Require Import Base Buffer BufferSpec BufferProofs Reader Types Name NameSpec NameProofs NameDecode
  Codec CodecSpec.

(** ** Buffers written at the end *)
Lemma R_is_at : forall b l r, is_bytes l -> R b (mkS (unpack l) r (8 * length l)) -> b = at_ l r.
Proof.
  intros [bf la w rr] l r Hl [H1 H2 H3 H4 H5 H6]. cbn [buf last w_pos r_pos content wr rd] in *.
  rewrite pack_unpack in H1 by assumption. rewrite unpack_length in H2. unfold at_. subst. f_equal; lia.
Qed.

Lemma put_at_end_unpack : forall l r w,
  put_bits (mkS (unpack l) r (8 * length l)) (unpack w) = mkS (unpack (l ++ w)) r (8 * length (l ++ w)).
Proof.
  intros l r w. unfold put_bits. cbn [content rd wr].
  rewrite <- (unpack_length l) at 1. rewrite firstn_all.
  rewrite skipn_all2 by (rewrite unpack_length; lia).
  rewrite app_nil_r, unpack_app, app_length, unpack_length. f_equal. lia.
Qed.

Lemma is_bytes_app : forall a b, is_bytes (a ++ b) <-> is_bytes a /\ is_bytes b.
Proof. intros. apply Forall_app. Qed.

Lemma at_end_of : forall b l r w bits, is_bytes l -> is_bytes w -> bits = unpack w ->
  R b (put_bits (mkS (unpack l) r (8 * length l)) bits) -> b = at_ (l ++ w) r.
Proof.
  intros b l r w bits Hl Hw -> H. rewrite put_at_end_unpack in H. apply R_is_at in H; [assumption|].
  apply is_bytes_app. now split.
Qed.

Lemma write_bytes_at : forall l r w, is_bytes l -> is_bytes w -> r <= 8 * length l ->
  write_bytes (at_ l r) w = Done (at_ (l ++ w) r).
Proof.
  intros l r w Hl Hw Hr. destruct (write_bytes_ok w _ _ (R_at l r Hl Hr)) as (b' & E & H).
  rewrite E. f_equal. now apply at_end_of with (bits := unpack w).
Qed.

Lemma field_join : forall n m a b, (b < 2 ^ N.of_nat m)%N ->
  field n a ++ field m b = field (n + m) (a * 2 ^ N.of_nat m + b)%N.
Proof.
  intros n m a b Hb. rewrite field_app. f_equal.
  - rewrite N.shiftr_div_pow2. f_equal. symmetry.
    rewrite N.div_add_l by (apply N.pow_nonzero; discriminate). rewrite N.div_small by assumption. lia.
  - rewrite <- (field_mod m (_ + b)). rewrite N.add_comm, N.mod_add by (apply N.pow_nonzero; discriminate).
    now rewrite N.mod_small.
Qed.

Lemma be16_bytes : forall x, is_u16 x -> is_bytes (be16 x).
Proof.
  intros x H. unfold be16, is_u16 in *. repeat constructor; unfold is_byte.
  - apply N.div_lt_upper_bound; lia.
  - now apply N.mod_lt.
Qed.

Lemma field16 : forall x, is_u16 x -> field 16 x = unpack (be16 x).
Proof.
  intros x H. unfold unpack, be16. cbn [flat_map]. rewrite app_nil_r. rewrite field_join.
  - change (8 + 8) with 16. f_equal. change (2 ^ N.of_nat 8)%N with 256%N.
    rewrite N.mul_comm. apply N.div_mod. discriminate.
  - change (2 ^ N.of_nat 8)%N with 256%N. now apply N.mod_lt.
Qed.

Lemma be32_bytes : forall x, is_u32 x -> is_bytes (be32 x).
Proof.
  intros x H. unfold be32, is_u32 in *. repeat constructor; unfold is_byte; try now apply N.mod_lt.
  apply N.div_lt_upper_bound; lia.
Qed.

Lemma be32_val : forall x, is_u32 x ->
  (((x / 16777216 * 256 + x / 65536 mod 256) * 256 + x / 256 mod 256) * 256 + x mod 256 = x)%N.
Proof.
  intros x H.
  assert (E1 : (x / 16777216 = x / 65536 / 256)%N) by (rewrite N.div_div by discriminate; reflexivity).
  assert (E2 : (x / 65536 = x / 256 / 256)%N) by (rewrite N.div_div by discriminate; reflexivity).
  rewrite E1. 
  replace (x / 65536 / 256 * 256 + x / 65536 mod 256)%N with (x / 65536)%N
    by (rewrite N.mul_comm; apply N.div_mod; discriminate).
  rewrite E2.
  replace (x / 256 / 256 * 256 + x / 256 mod 256)%N with (x / 256)%N
    by (rewrite N.mul_comm; apply N.div_mod; discriminate).
  symmetry. rewrite N.mul_comm. apply N.div_mod. discriminate.
Qed.

Lemma field32 : forall x, is_u32 x -> field 32 x = unpack (be32 x).
Proof.
  intros x H. unfold unpack, be32. cbn [flat_map]. rewrite app_nil_r, !app_assoc.
  rewrite !field_join by (change (2 ^ N.of_nat 8)%N with 256%N; now apply N.mod_lt).
  change (8 + 8 + 8 + 8) with 32. f_equal. change (2 ^ N.of_nat 8)%N with 256%N.
  symmetry. now apply be32_val.
Qed.

Lemma write_u16_at : forall l r x, is_bytes l -> is_u16 x -> r <= 8 * length l ->
  write_u16 (at_ l r) x = Done (at_ (l ++ be16 x) r).
Proof.
  intros l r x Hl Hx Hr. destruct (write_u16_ok _ _ x (R_at l r Hl Hr)) as (b' & E & H).
  rewrite E. f_equal. apply at_end_of with (bits := field 16 x); try assumption.
  - now apply be16_bytes.
  - now apply field16.
Qed.

Lemma write_u32_at : forall l r x, is_bytes l -> is_u32 x -> r <= 8 * length l ->
  write_u32 (at_ l r) x = Done (at_ (l ++ be32 x) r).
Proof.
  intros l r x Hl Hx Hr. destruct (write_u32_ok _ _ x (R_at l r Hl Hr)) as (b' & E & H).
  rewrite E. f_equal. apply at_end_of with (bits := field 32 x); try assumption.
  - now apply be32_bytes.
  - now apply field32.
Qed.

Lemma write_u8_at : forall l r x, is_bytes l -> is_byte x -> r <= 8 * length l ->
  write_u8 (at_ l r) x = Done (at_ (l ++ [x]) r).
Proof.
  intros l r x Hl Hx Hr. destruct (write_u8_ok _ _ x (R_at l r Hl Hr)) as (b' & E & H).
  rewrite E. f_equal. apply at_end_of with (bits := field 8 x); try assumption.
  - now repeat constructor.
  - unfold unpack. cbn [flat_map]. now rewrite app_nil_r.
Qed.

(** ** What an encoder does at the end of a buffer: append, refuse or panic, whatever
    is before. *)
Definition appends (m : M unit) (o : exec (result (list N) parse_err)) : Prop :=
  match o with
  | Done (Ok w) => is_bytes w | Diverge => False | _ => True
  end /\
  forall l r, is_bytes l -> r <= 8 * length l ->
  match o with
  | Done (Ok w) => m (at_ l r) = Done (Ok tt, at_ (l ++ w) r)
  | Done (Err e) => exists b', m (at_ l r) = Done (Err e, b')
  | Panic k => m (at_ l r) = Panic k
  | Diverge => False
  end.

Definition prefix (w : list N) (o : exec (result (list N) parse_err)) : exec (result (list N) parse_err) :=
  match o with Done (Ok w') => Done (Ok (w ++ w')) | _ => o end.

Lemma appends_seq : forall m k w o, appends m (Done (Ok w)) -> appends k o ->
  appends (do! _ := m in k) (prefix w o).
Proof.
  intros m k w o [Hw Hm] [Ho Hk]. split.
  - destruct o as [[w'|e]|kd|]; cbn [prefix]; try exact I; try assumption. now apply is_bytes_app.
  - intros l r Hl Hr. unfold bindM. specialize (Hm l r Hl Hr). cbn in Hm. rewrite Hm. cbn [bind].
    specialize (Hk (l ++ w) r ltac:(apply is_bytes_app; now split) ltac:(rewrite app_length; lia)).
    destruct o as [[w'|e]|kd|]; cbn [prefix]; [|assumption|assumption|assumption].
    now rewrite app_assoc.
Qed.

Lemma appends_ret : appends (ret tt) (Done (Ok [])).
Proof. split; [constructor|]. intros l r Hl Hr. unfold ret. now rewrite app_nil_r. Qed.

Lemma appends_wbytes : forall w, is_bytes w -> appends (wbytes w) (Done (Ok w)).
Proof. intros w Hw. split; [assumption|]. intros l r Hl Hr. unfold wbytes, put.
  now rewrite write_bytes_at. Qed.

Lemma appends_wu16 : forall x, is_u16 x -> appends (wu16 x) (Done (Ok (be16 x))).
Proof. intros x Hx. split; [now apply be16_bytes|]. intros l r Hl Hr. unfold wu16, put.
  now rewrite write_u16_at. Qed.

Lemma appends_wu32 : forall x, is_u32 x -> appends (wu32 x) (Done (Ok (be32 x))).
Proof. intros x Hx. split; [now apply be32_bytes|]. intros l r Hl Hr. unfold wu32, put.
  now rewrite write_u32_at. Qed.

Lemma appends_wu8 : forall x, is_byte x -> appends (put (fun b => write_u8 b x)) (Done (Ok [x])).
Proof. intros x Hx. split; [now repeat constructor|]. intros l r Hl Hr. unfold put.
  now rewrite write_u8_at. Qed.

Lemma appends_fail : forall e, appends (lift (Err e)) (Done (Err e)).
Proof. intros e. split; [exact I|]. intros l r _ _. now eexists. Qed.

Lemma appends_lift_ok : forall A (a : A) (k : A -> M unit) o,
  appends (k a) o -> appends (do! x := lift (Ok a) in k x) o.
Proof. intros A a k o H. exact H. Qed.

Lemma appends_lift_err : forall A e (k : A -> M unit),
  appends (do! x := lift (Err e) in k x) (Done (Err e)).
Proof. intros A e k. split; [exact I|]. intros l r _ _. now eexists. Qed.

Lemma appends_assert : forall c m o, appends m o -> appends (assertM c m) (if c then o else Panic PAssert).
Proof. intros [|] m o H; [exact H|]. split; [exact I|]. reflexivity. Qed.

Lemma appends_name : forall p n (k : list N -> M unit) o, appends (k (name_wire n)) o ->
  appends (enc_name_bytes p n k) (debug_assert p (is_ok (validate_name n)) o).
Proof.
  intros p n k o H. unfold enc_name_bytes, name_to_bytes, debug_assert, assert_.
  destruct p; [destruct (is_ok _)|]; cbn [bind]; try exact H. split; [exact I|]. reflexivity.
Qed.

(** ** Types the Rust compiler guarantees *)
Definition typed_data (d : rdata) : Prop :=
  match d with
  | D_A a => is_bytes a /\ length a = 4
  | D_NS n | D_CNAME n | D_PTR n => is_bytes n
  | D_SOA m r a b c d e => is_bytes m /\ is_bytes r /\ is_u32 a /\ is_u32 b /\ is_u32 c /\ is_u32 d /\ is_u32 e
  | D_WKS a pr ports => is_bytes a /\ length a = 4 /\ is_byte pr /\ Forall is_u32 ports
  | D_HINFO c o => is_bytes c /\ is_bytes o
  | D_MX pr n => is_u16 pr /\ is_bytes n
  | D_TXT ts => Forall is_bytes ts
  end.
Definition typed_record (r : record) : Prop :=
  is_bytes (r_node r) /\ is_u32 (r_ttl r) /\ typed_data (r_data r).
Definition typed_question (q : question) : Prop := is_bytes (q_node q).
Definition typed_header (h : header) : Prop :=
  is_u16 (h_id h) /\ is_byte (h_z h) /\ is_u16 (h_qd h) /\ is_u16 (h_an h) /\ is_u16 (h_ns h) /\ is_u16 (h_ar h).
Definition typed_message (m : message) : Prop :=
  typed_header (m_header m) /\ Forall typed_question (m_questions m) /\ Forall typed_record (m_answers m) /\
  Forall typed_record (m_authorities m) /\ Forall typed_record (m_additionals m).

Lemma u16_is_u16 : forall x, is_u16 (u16 x).
Proof. intros x. unfold is_u16, u16. now apply N.mod_lt. Qed.

Lemma is_bytes_split : forall c s, is_bytes s -> Forall is_bytes (split c s).
Proof.
  intros c s. induction s as [|x s IH]; intros H; cbn [split]; [repeat constructor|].
  inversion H; subst. destruct (x =? c)%N; [constructor; [constructor|now apply IH]|].
  specialize (IH H3). destruct (split c s) as [|h t]; [now repeat constructor|].
  inversion IH; subst. constructor; [now constructor|assumption].
Qed.

Lemma name_wire_bytes : forall n, is_bytes n -> is_bytes (name_wire n).
Proof.
  intros n H. unfold name_wire. apply Forall_flat_map.
  eapply Forall_impl; [|apply (is_bytes_split DOT n H)].
  intros l Hl. constructor; [|assumption]. unfold is_byte, u8. now apply N.mod_lt.
Qed.

(** ** Outcomes of the record encoders *)
Lemma encode_strings_cases : forall ts, Forall is_bytes ts ->
  match encode_strings ts with Ok ws => is_bytes (concat ws) /\ Forall is_bytes ws | Err _ => True end.
Proof.
  induction ts as [|t ts IH]; intros H; cbn [encode_strings]; [now repeat constructor|].
  inversion H; subst. unfold encode_character_string. destruct (255 <? length t); [exact I|].
  specialize (IH H3). destruct (encode_strings ts) as [ws|]; [|exact I].
  destruct IH as [IH1 IH2].
  assert (is_bytes (u8 (N.of_nat (length t)) :: t)).
  { constructor; [|assumption]. unfold is_byte, u8. now apply N.mod_lt. }
  split; [cbn [concat]; apply is_bytes_app|constructor]; now try split.
Qed.

Lemma appends_wchunks : forall ws, Forall is_bytes ws -> appends (wchunks ws) (Done (Ok (concat ws))).
Proof.
  induction ws as [|w ws IH]; intros H; cbn [wchunks concat]; [apply appends_ret|].
  inversion H; subst.
  change (Done (Ok (w ++ concat ws))) with (prefix w (Done (Ok (concat ws)))).
  apply appends_seq; [now apply appends_wbytes|now apply IH].
Qed.

Lemma appends_wu32s : forall l, Forall is_u32 l -> appends (wu32s l) (Done (Ok (flat_map be32 l))).
Proof.
  induction l as [|x l IH]; intros H; cbn [wu32s flat_map]; [apply appends_ret|].
  inversion H; subst.
  change (Done (Ok (be32 x ++ flat_map be32 l))) with (prefix (be32 x) (Done (Ok (flat_map be32 l)))).
  apply appends_seq; [now apply appends_wu32|now apply IH].
Qed.

Definition data_outcome (p : profile) (d : rdata) : exec (result (list N) parse_err) :=
  let nm n o := debug_assert p (is_ok (validate_name n)) o in
  match d with
  | D_A a => prefix (be16 4) (Done (Ok a))
  | D_NS n | D_CNAME n | D_PTR n =>
      nm n (prefix (be16 (u16 (N.of_nat (length (name_wire n))))) (Done (Ok (name_wire n))))
  | D_SOA m r a b c d e =>
      nm m (nm r (prefix (be16 (u16 (N.of_nat (length (name_wire m) + length (name_wire r) + 20))))
        (prefix (name_wire m) (prefix (name_wire r)
        (prefix (be32 a) (prefix (be32 b) (prefix (be32 c) (prefix (be32 d) (Done (Ok (be32 e)))))))))))
  | D_WKS a pr ports =>
      prefix (be16 (u16 (N.of_nat (5 + length ports))))
        (prefix a (prefix [pr] (Done (Ok (flat_map be32 ports)))))
  | D_HINFO c o =>
      match encode_character_string c with
      | Err e => Done (Err e)
      | Ok c' => match encode_character_string o with
                 | Err e => Done (Err e)
                 | Ok o' => prefix (be16 (u16 (N.of_nat (length c' + length o')))) (prefix c' (Done (Ok o')))
                 end
      end
  | D_MX pr n =>
      nm n (let! len := chk_u16 p (2 + u16 (N.of_nat (length (name_wire n))))%N in
            prefix (be16 len) (prefix (be16 pr) (Done (Ok (name_wire n)))))
  | D_TXT ts =>
      match encode_strings ts with
      | Err e => Done (Err e)
      | Ok ws => prefix (be16 (u16 (N.of_nat (length (concat ws))))) (Done (Ok (concat ws)))
      end
  end.

Definition encode_data (p : profile) (d : rdata) : M unit :=
  match d with
  | D_A a => encode_a_data a
  | D_NS n | D_CNAME n | D_PTR n => encode_name_data p n
  | D_WKS a pr ports => encode_wks_data a pr ports
  | D_HINFO c o => encode_hinfo_data c o
  | D_MX pr n => encode_mx_data p pr n
  | D_TXT l => encode_txt_data l
  | D_SOA m rn a b c d e => encode_soa_data p m rn a b c d e
  end.

Lemma char_string_bytes : forall s w, is_bytes s -> encode_character_string s = Ok w -> is_bytes w.
Proof.
  intros s w Hs. unfold encode_character_string. destruct (255 <? length s); [discriminate|].
  intros [= <-]. constructor; [|assumption]. unfold is_byte, u8. now apply N.mod_lt.
Qed.

Lemma appends_data : forall p d, typed_data d -> appends (encode_data p d) (data_outcome p d).
Proof.
  intros p d H. destruct d; cbn [encode_data data_outcome typed_data] in *.
  - apply appends_seq; [now apply appends_wu16|now apply appends_wbytes].
  - apply appends_name. apply appends_seq; [apply appends_wu16, u16_is_u16|now apply appends_wbytes, name_wire_bytes].
  - apply appends_name. apply appends_seq; [apply appends_wu16, u16_is_u16|now apply appends_wbytes, name_wire_bytes].
  - destruct H as (H1 & H2 & H3 & H4 & H5 & H6 & H7).
    apply appends_name. apply (appends_name p ml_name (fun wn => _)).
    apply appends_seq; [apply appends_wu16, u16_is_u16|].
    do 2 (apply appends_seq; [now apply appends_wbytes, name_wire_bytes|]).
    do 4 (apply appends_seq; [now apply appends_wu32|]). now apply appends_wu32.
  - destruct H as (H1 & H2 & H3 & H4).
    apply appends_seq; [apply appends_wu16, u16_is_u16|].
    apply appends_seq; [now apply appends_wbytes|].
    apply appends_seq; [now apply appends_wu8|]. now apply appends_wu32s.
  - apply appends_name. apply appends_seq; [apply appends_wu16, u16_is_u16|now apply appends_wbytes, name_wire_bytes].
  - destruct H as (H1 & H2). unfold encode_hinfo_data.
    destruct (encode_character_string cpu) as [c|e] eqn:Ec; [|apply appends_lift_err].
    apply (appends_lift_ok _ c (fun c => _)).
    destruct (encode_character_string os) as [o|e] eqn:Eo; [|apply appends_lift_err].
    apply (appends_lift_ok _ o (fun o => _)).
    apply appends_seq; [apply appends_wu16, u16_is_u16|].
    apply appends_seq; apply appends_wbytes; eauto using char_string_bytes.
  - destruct H as (H1 & H2). apply appends_name. 
    destruct (chk_u16 p (2 + u16 (N.of_nat (length (name_wire n))))) as [len|k|] eqn:E; cbn [bind].
    + assert (Hlen : is_u16 len).
      { unfold chk_u16 in E. destruct (N.ltb_spec (2 + u16 (N.of_nat (length (name_wire n)))) 65536).
        - now injection E as <-.
        - destruct p; [discriminate|]. injection E as <-. apply u16_is_u16. }
      change (appends (do! _ := wu16 len in do! _ := wu16 priority in wbytes (name_wire n))
        (prefix (be16 len) (prefix (be16 priority) (Done (Ok (name_wire n)))))).
      apply appends_seq; [now apply appends_wu16|].
      apply appends_seq; [now apply appends_wu16|now apply appends_wbytes, name_wire_bytes].
    + split; [exact I|]. intros l r _ _. reflexivity.
    + exfalso. unfold chk_u16 in E. destruct (_ <? _)%N; [discriminate|]. destruct p; discriminate.
  - unfold encode_txt_data. pose proof (encode_strings_cases txts H) as C.
    destruct (encode_strings txts) as [ws|e]; [|apply appends_lift_err].
    destruct C as [C1 C2]. apply (appends_lift_ok _ ws (fun ws => _)).
    apply appends_seq; [apply appends_wu16, u16_is_u16|now apply appends_wchunks].
Qed.

Definition record_outcome (p : profile) (r : record) : exec (result (list N) parse_err) :=
  if supported_for_records (record_type r) then
  if class_supported (r_class r) then
  debug_assert p (is_ok (validate_name (r_node r)))
    (prefix (name_wire (r_node r)) (prefix (be16 (rtype_to_num (record_type r)))
      (prefix (be16 (class_to_num (r_class r))) (prefix (be32 (r_ttl r)) (data_outcome p (r_data r))))))
  else Panic PAssert else Panic PAssert.

Lemma type_num_u16 : forall t, is_u16 (rtype_to_num t).
Proof. intros t. destruct t; reflexivity. Qed.
Lemma class_num_u16 : forall c, is_u16 (class_to_num c).
Proof. intros c. destruct c; reflexivity. Qed.

Lemma appends_record : forall p r, typed_record r -> appends (encode_record p r) (record_outcome p r).
Proof.
  intros p r (H1 & H2 & H3). unfold encode_record, record_outcome.
  apply appends_assert, appends_assert. apply appends_name.
  apply appends_seq; [now apply appends_wbytes, name_wire_bytes|].
  apply appends_seq; [apply appends_wu16, type_num_u16|].
  apply appends_seq; [apply appends_wu16, class_num_u16|].
  apply appends_seq; [now apply appends_wu32|]. exact (appends_data p _ H3).
Qed.

Definition question_outcome (p : profile) (q : question) : exec (result (list N) parse_err) :=
  if supported_for_question (q_type q) then
  if class_supported (q_class q) then
  debug_assert p (is_ok (validate_name (q_node q)))
    (prefix (name_wire (q_node q)) (prefix (be16 (rtype_to_num (q_type q)))
      (Done (Ok (be16 (class_to_num (q_class q)))))))
  else Panic PAssert else Panic PAssert.

Lemma appends_question : forall p q, typed_question q -> appends (encode_question p q) (question_outcome p q).
Proof.
  intros p q H1. unfold encode_question, question_outcome.
  apply appends_assert, appends_assert. apply appends_name.
  apply appends_seq; [now apply appends_wbytes, name_wire_bytes|].
  apply appends_seq; [apply appends_wu16, type_num_u16|apply appends_wu16, class_num_u16].
Qed.

(** ** For data the RFC can express: exactly the RFC bytes *)
Lemma cut_dotted_gen : forall l cur rest, ~ In 46%N l -> cut (l ++ 46%N :: rest) cur = (cur ++ l) :: cut rest [].
Proof.
  induction l as [|c l IH]; intros cur rest H; cbn [app cut].
  - now rewrite N.eqb_refl, app_nil_r.
  - destruct (N.eqb_spec c 46) as [->|Hc]; [exfalso; apply H; now left|].
    rewrite IH by (intros Hin; apply H; now right). now rewrite <- app_assoc.
Qed.

Lemma good_label_no_dot : forall l, good_label l -> ~ In 46%N l.
Proof.
  intros l (_ & H & _) Hin. rewrite Forall_forall in H. specialize (H _ Hin).
  unfold letter_or_digit in H. lia.
Qed.

Lemma cut_dotted : forall ls, Forall good_label ls -> cut (dotted ls) [] = ls.
Proof.
  induction ls as [|l ls IH]; intros H; [reflexivity|]. inversion H; subst.
  change (dotted (l :: ls)) with ((l ++ [46%N]) ++ dotted ls). rewrite <- app_assoc.
  change ([46%N] ++ dotted ls) with (46%N :: dotted ls).
  rewrite cut_dotted_gen by now apply good_label_no_dot. now rewrite IH.
Qed.

Lemma labels_of_name : forall n ls, is_name n ls -> labels n = ls.
Proof.
  intros n ls (-> & H & _). destruct ls as [|l ls]; [reflexivity|].
  unfold name_text. rewrite <- (cut_dotted (l :: ls)) at 2 by assumption.
  unfold labels.
  inversion H as [|? ? Hl _]; subst. destruct Hl as (Hne & Hl & _).
  destruct l as [|c l]; [easy|]. inversion Hl; subst.
  assert (c <> 46%N) by (unfold letter_or_digit in *; lia).
  change (dotted ((c :: l) :: ls)) with (c :: (l ++ [46%N]) ++ dotted ls).
  destruct c as [|q]; [reflexivity|].
  do 6 (destruct q as [q|q|]; try reflexivity). 
  all: destruct ((l ++ [46%N]) ++ dotted ls); try reflexivity; try (exfalso; now apply H0).
Qed.

Lemma sendable_wire : forall n, sendable n ->
  name_wire n = wname n /\ is_ok (validate_name n) = true /\ is_bytes n /\
  1 <= length (wname n) <= 256.
Proof.
  intros n (ls & Hn & Hne & Hl). unfold wname. rewrite (labels_of_name n ls Hn).
  split; [now apply name_wire_spec|].
  assert (Ha : accepted n) by now exists ls.
  split; [now apply validate_name_dec|]. split; [now apply accepted_bytes|].
  destruct Hn as (-> & Hg & Hlen). rewrite dotted_length in Hlen || idtac.
  unfold plain_wire. rewrite app_length. cbn [length].
  assert (E : forall ls, length (flat_map (fun l => N.of_nat (length l) :: l) ls) = length (dotted ls)).
  { clear. induction ls as [|l ls IH]; [reflexivity|]. unfold dotted. cbn [flat_map].
    fold (dotted ls). rewrite !app_length, IH. cbn [length]. lia. }
  rewrite E. destruct ls; [easy|]. cbn [name_text] in Hlen. lia.
Qed.

Lemma u16_small : forall x, is_u16 x -> u16 x = x.
Proof. intros x H. unfold u16. now apply N.mod_small. Qed.

Lemma wstring_char : forall s, good_string s -> encode_character_string s = Ok (wstring s).
Proof.
  intros s [H1 H2]. unfold encode_character_string, wstring.
  replace (255 <? length s) with false by (symmetry; apply Nat.ltb_ge; lia).
  unfold u8. rewrite N.mod_small by lia. reflexivity.
Qed.

Lemma wstrings : forall ts, Forall good_string ts -> encode_strings ts = Ok (map wstring ts).
Proof.
  induction ts as [|t ts IH]; intros H; [reflexivity|]. inversion H; subst. cbn [encode_strings map].
  now rewrite wstring_char, IH by assumption.
Qed.

Lemma data_outcome_ok : forall p d, rdata_ok d ->
  data_outcome p d = Done (Ok (be16 (N.of_nat (length (wire_rdata d))) ++ wire_rdata d)) /\ typed_data d /\
  is_u16 (N.of_nat (length (wire_rdata d))).
Proof.
  intros p d H. destruct d; cbn [data_outcome rdata_ok wire_rdata typed_data] in *.
  - destruct H as [H1 H2]. rewrite H2. repeat split; assumption.
  - apply sendable_wire in H as (E & Hv & Hb & Hl). rewrite E, Hv.
    assert (Hu : is_u16 (N.of_nat (length (wname n)))) by (unfold is_u16; lia).
    rewrite u16_small by assumption. now destruct p.
  - apply sendable_wire in H as (E & Hv & Hb & Hl). rewrite E, Hv.
    assert (Hu : is_u16 (N.of_nat (length (wname n)))) by (unfold is_u16; lia).
    rewrite u16_small by assumption. now destruct p.
  - destruct H as (Hm & Hr & Hu). apply sendable_wire in Hm as (E1 & Hv1 & Hb1 & Hl1).
    apply sendable_wire in Hr as (E2 & Hv2 & Hb2 & Hl2). rewrite E1, E2, Hv1, Hv2.
    assert (El : length (wname ns_name ++ wname ml_name ++ be32 serial ++ be32 refresh ++ be32 retry ++
                be32 expire ++ be32 minimum) = length (wname ns_name) + length (wname ml_name) + 20).
    { rewrite !app_length. unfold be32. cbn [length]. lia. }
    rewrite El. assert (Hu16 : is_u16 (N.of_nat (length (wname ns_name) + length (wname ml_name) + 20)))
      by (unfold is_u16; lia).
    rewrite u16_small by assumption. cbn [prefix]. unfold debug_assert, assert_.
    split; [now destruct p|]. split; [|assumption]. now repeat split.
  - destruct H as ((H1 & H2) & H3 & ->). rewrite app_length, H2. cbn [length flat_map prefix app Nat.add].
    rewrite ?app_nil_r. now repeat split.
  - apply sendable_wire in H as (E & Hv & Hb & Hl). rewrite E, Hv.
    assert (Hu : is_u16 (N.of_nat (length (wname n)))) by (unfold is_u16; lia).
    rewrite u16_small by assumption. now destruct p.
  - destruct H as (H1 & H2). rewrite !wstring_char by assumption. rewrite app_length.
    destruct H1 as [H1 H1'], H2 as [H2 H2'].
    assert (Hu : is_u16 (N.of_nat (length (wstring cpu) + length (wstring os))))
      by (unfold is_u16, wstring; cbn [length]; lia).
    rewrite u16_small by assumption. now repeat split.
  - destruct H as (H1 & H2). apply sendable_wire in H2 as (E & Hv & Hb & Hl). rewrite E, Hv.
    rewrite (u16_small (N.of_nat (length (wname n)))) by (unfold is_u16; lia).
    unfold chk_u16. replace (_ <? _)%N with true by (symmetry; apply N.ltb_lt; lia). cbn [bind prefix].
    rewrite app_length. replace (length (be16 priority)) with 2 by reflexivity.
    replace (N.of_nat (2 + length (wname n))) with (2 + N.of_nat (length (wname n)))%N by lia.
    unfold debug_assert, assert_. split; [now destruct p|]. split; [now split|]. unfold is_u16. lia.
  - destruct H as (H1 & H2). rewrite wstrings by assumption. rewrite <- flat_map_concat_map.
    rewrite u16_small by assumption. split; [reflexivity|]. split; [|assumption].
    eapply Forall_impl; [|exact H1]. now intros s [Hs _].
Qed.

Lemma type_number_model : forall t, rtype_to_num t = type_number t.
Proof. now destruct t. Qed.

Lemma record_supported : forall r, supported_for_records (record_type r) = true.
Proof. intros r. unfold record_type. now destruct (r_data r). Qed.

Lemma record_outcome_ok : forall p r, record_ok r ->
  record_outcome p r = Done (Ok (wire_record r)) /\ typed_record r.
Proof.
  intros p r (Hn & Hc & Ht & Hd). unfold record_outcome, wire_record. rewrite record_supported, Hc.
  cbn [class_supported class_to_num].
  destruct (data_outcome_ok p _ Hd) as (E & Hty & _). rewrite E.
  destruct (sendable_wire _ Hn) as (E1 & Hv & Hb & _). rewrite E1, Hv, type_number_model.
  unfold debug_assert, assert_. cbn [prefix]. split; [|now split].
  destruct p; reflexivity.
Qed.

Lemma usable_supported : forall t, usable_type t <-> supported_for_question t = true.
Proof.
  intros t. unfold usable_type. split.
  - intros H. repeat destruct H as [->|H]; try reflexivity. now subst.
  - destruct t; cbn; intros H; try discriminate; tauto.
Qed.

Lemma question_outcome_ok : forall p q, question_ok q ->
  question_outcome p q = Done (Ok (wire_question q)) /\ typed_question q.
Proof.
  intros p q (Hn & Ht & Hc). unfold question_outcome, wire_question, typed_question.
  apply usable_supported in Ht. rewrite Ht, Hc. cbn [class_supported class_to_num].
  destruct (sendable_wire _ Hn) as (E1 & Hv & Hb & _). rewrite E1, Hv, type_number_model.
  unfold debug_assert, assert_. cbn [prefix]. split; [|assumption]. now destruct p.
Qed.
