(** C19-C25: whole messages. *)
From Verif Require Import Base Buffer BufferSpec BufferProofs Reader Types Name NameSpec NameProofs NameDecode
  Codec CodecSpec CodecWrite CodecMessage CodecRead CodecSafe CodecFacts PropName PropCodec1.

(** * Specification: packets whose sections may hold entries of unknown types *)
Record unknown_question := mkUQ { uq_node : list N; uq_type : N; uq_class : N }.
Inductive q_item := Q_known (q : question) | Q_unknown (u : unknown_question).
Inductive r_item := R_known (r : record) | R_unknown (u : unknown).

Definition q_item_wire (i : q_item) : list N :=
  match i with
  | Q_known q => wire_question q
  | Q_unknown u => wname (uq_node u) ++ be16 (uq_type u) ++ be16 (uq_class u)
  end.
Definition r_item_wire (i : r_item) : list N :=
  match i with R_known r => wire_record r | R_unknown u => wire_unknown u end.
Definition q_item_ok (i : q_item) : Prop :=
  match i with
  | Q_known q => question_ok q
  | Q_unknown u => sendable (uq_node u) /\ is_u16 (uq_type u) /\ ~ known_type (uq_type u) /\ is_u16 (uq_class u)
  end.
Definition r_item_ok (i : r_item) : Prop :=
  match i with R_known r => record_readable r | R_unknown u => unknown_ok u end.
Definition known_questions (l : list q_item) : list question :=
  flat_map (fun i => match i with Q_known q => [q] | Q_unknown _ => [] end) l.
Definition known_records (l : list r_item) : list record :=
  flat_map (fun i => match i with R_known r => [r] | R_unknown _ => [] end) l.

Definition wire_items (h : header) (qs : list q_item) (ans aus ads : list r_item) : list N :=
  wire_header h ++ concat (map q_item_wire qs) ++ concat (map r_item_wire ans) ++
  concat (map r_item_wire aus) ++ concat (map r_item_wire ads).

(** * Proofs *)
Lemma skips_unknown_question : forall p u, q_item_ok (Q_unknown u) ->
  skips (decode_question p) (q_item_wire (Q_unknown u)) (PE_UnknownType (uq_type u)).
Proof.
  intros p u (Hn & Ht & Hk & Hc). unfold decode_question. cbn [q_item_wire].
  eapply skips_bind; [now apply parses_name|]. cbv beta. apply skips_here. unfold decode_qtype.
  eapply skips_bind; [now apply parses_u16|]. cbv beta. rewrite type_unknown by assumption.
  eapply skips_bind_last; [now apply parses_u16|]. apply skips_fail.
Qed.

Definition q_entry (i : q_item) : entry question :=
  match i with Q_known q => Known (wire_question q) q | Q_unknown _ => Skipped (q_item_wire i) end.
Definition r_entry (i : r_item) : entry record :=
  match i with R_known r => Known (wire_record r) (normal r) | R_unknown u => Skipped (wire_unknown u) end.

Lemma q_entries : forall p qs, Forall q_item_ok qs ->
  Forall (entry_ok (decode_question p)) (map q_entry qs) /\
  map entry_wire (map q_entry qs) = map q_item_wire qs /\
  flat_map entry_val (map q_entry qs) = known_questions qs.
Proof.
  intros p qs H. induction H as [|i qs Hi _ (IH1 & IH2 & IH3)]; [now repeat split; constructor|].
  cbn [map flat_map]. rewrite IH2. unfold known_questions in *. cbn [flat_map]. rewrite IH3.
  split; [constructor; [|assumption]|].
  - destruct i as [q|u]; cbn [q_entry entry_ok].
    + now apply parses_question.
    + exists (uq_type u). now apply skips_unknown_question.
  - now destruct i.
Qed.

Lemma r_entries : forall p rs, Forall r_item_ok rs ->
  Forall (entry_ok (decode_record p)) (map r_entry rs) /\
  map entry_wire (map r_entry rs) = map r_item_wire rs /\
  flat_map entry_val (map r_entry rs) = map normal (known_records rs).
Proof.
  intros p rs H. induction H as [|i rs Hi _ (IH1 & IH2 & IH3)]; [now repeat split; constructor|].
  cbn [map flat_map]. rewrite IH2, IH3. unfold known_records in *. cbn [flat_map]. rewrite map_app.
  split; [constructor; [|assumption]|].
  - destruct i as [r|u]; cbn [r_entry entry_ok].
    + now apply parses_record.
    + exists (u_type u). now apply skips_unknown.
  - now destruct i.
Qed.

Lemma section_items : forall A I (dec : M A) mk (ent : I -> entry A) (wire : I -> list N) items pre post,
  Forall (entry_ok dec) (map ent items) -> map entry_wire (map ent items) = map wire items ->
  is_bytes pre -> is_bytes post ->
  let w := concat (map wire items) in
  is_bytes w /\
  decode_section dec mk 0 (length items) (at_ (pre ++ w ++ post) (8 * length pre))
  = Done (Ok (flat_map entry_val (map ent items)), at_ (pre ++ w ++ post) (8 * length (pre ++ w))).
Proof.
  intros A I dec mk ent wire items pre post H1 H2 Hpre Hpost. cbv zeta. rewrite <- H2.
  destruct (decode_section_entries A dec mk (map ent items) 0 pre post H1 Hpre Hpost) as (Hw & E).
  split; [assumption|]. rewrite map_length in E. rewrite E. now rewrite app_length.
Qed.

(** The general decoding theorem: unknown entries anywhere are skipped exactly, the
    header comes back as sent, and bytes after the message do not matter. *)
Theorem C21_unknown_types_skipped : forall p h qs ans aus ads post,
  header_ok h -> h_op h = OP_STD ->
  h_qd h = N.of_nat (length qs) -> h_an h = N.of_nat (length ans) ->
  h_ns h = N.of_nat (length aus) -> h_ar h = N.of_nat (length ads) ->
  Forall q_item_ok qs -> Forall r_item_ok ans -> Forall r_item_ok aus -> Forall r_item_ok ads ->
  is_bytes post ->
  decode_message p (wire_items h qs ans aus ads ++ post) =
  Done (Ok (mkMsg h (known_questions qs) (map normal (known_records ans)) (map normal (known_records aus))
                  (map normal (known_records ads)))).
Proof.
  intros p h qs ans aus ads post Hh Ho Eq Ea En Ex Hq Ha Hn Hx Hpost.
  destruct (q_entries p qs Hq) as (Q1 & Q2 & Q3).
  destruct (r_entries p ans Ha) as (A1 & A2 & A3).
  destruct (r_entries p aus Hn) as (N1 & N2 & N3).
  destruct (r_entries p ads Hx) as (X1 & X2 & X3).
  assert (Bw : forall A I (dec : M A) (ent : I -> entry A) (wire : I -> list N) items,
    Forall (entry_ok dec) (map ent items) -> map entry_wire (map ent items) = map wire items -> is_bytes (concat (map wire items))).
  { intros A I dec ent wire items H1 H2.
    apply (section_items A I dec (fun _ _ => ME_Header PE_BytesEnd) ent wire items [] []); try assumption; constructor. }
  pose proof (Bw _ _ _ _ _ _ Q1 Q2) as BQ. pose proof (Bw _ _ _ _ _ _ A1 A2) as BA.
  pose proof (Bw _ _ _ _ _ _ N1 N2) as BN. pose proof (Bw _ _ _ _ _ _ X1 X2) as BX. clear Bw.
  pose proof (wire_header_bytes h Hh) as BH.
  unfold wire_items. rewrite <- !app_assoc. unfold decode_message. rewrite from_raw_at.
  set (wq := concat (map q_item_wire qs)) in *. set (wa := concat (map r_item_wire ans)) in *.
  set (wn := concat (map r_item_wire aus)) in *. set (wx := concat (map r_item_wire ads)) in *.
  set (pkt := wire_header h ++ wq ++ wa ++ wn ++ wx ++ post).
  assert (BT : forall a b, is_bytes a -> is_bytes b -> is_bytes (a ++ b)) by (intros; now apply is_bytes_app).
  unfold pkt at 1. rewrite decode_wire_header by (try assumption; repeat (first [assumption|apply BT])).
  cbn [bind].
  assert (Esup : header_is_supported h = Ok tt) by (unfold header_is_supported; now rewrite Ho).
  rewrite Esup.
  fold pkt. rewrite Eq, Ea, En, Ex, !Nat2N.id.
  assert (E1 : decode_section (decode_question p) ME_Question 0 (length qs) (at_ pkt 96)
     = Done (Ok (known_questions qs), at_ pkt (8 * length (wire_header h ++ wq)))).
  { destruct (section_items _ _ _ ME_Question _ _ qs (wire_header h) (wa ++ wn ++ wx ++ post) Q1 Q2 BH
      ltac:(repeat (first [assumption|apply BT]))) as (_ & E). rewrite wire_header_length, Q3 in E. exact E. }
  rewrite E1. cbn [bind]. clear E1.
  assert (E2 : decode_section (decode_record p) ME_Answer 0 (length ans) (at_ pkt (8 * length (wire_header h ++ wq)))
     = Done (Ok (map normal (known_records ans)), at_ pkt (8 * length ((wire_header h ++ wq) ++ wa)))).
  { destruct (section_items _ _ _ ME_Answer _ _ ans (wire_header h ++ wq) (wn ++ wx ++ post) A1 A2
      ltac:(repeat (first [assumption|apply BT])) ltac:(repeat (first [assumption|apply BT]))) as (_ & E).
    rewrite A3 in E. rewrite <- app_assoc in E. exact E. }
  rewrite E2. cbn [bind]. clear E2.
  assert (E3 : decode_section (decode_record p) ME_Authority 0 (length aus) (at_ pkt (8 * length ((wire_header h ++ wq) ++ wa)))
     = Done (Ok (map normal (known_records aus)), at_ pkt (8 * length (((wire_header h ++ wq) ++ wa) ++ wn)))).
  { destruct (section_items _ _ _ ME_Authority _ _ aus ((wire_header h ++ wq) ++ wa) (wx ++ post) N1 N2
      ltac:(repeat (first [assumption|apply BT])) ltac:(repeat (first [assumption|apply BT]))) as (_ & E).
    rewrite N3 in E. rewrite <- !(app_assoc _ _ (_ ++ _)) in E. exact E. }
  rewrite E3. cbn [bind]. clear E3.
  assert (E4 : decode_section (decode_record p) ME_Additional 0 (length ads) (at_ pkt (8 * length (((wire_header h ++ wq) ++ wa) ++ wn)))
     = Done (Ok (map normal (known_records ads)), at_ pkt (8 * length ((((wire_header h ++ wq) ++ wa) ++ wn) ++ wx)))).
  { destruct (section_items _ _ _ ME_Additional _ _ ads (((wire_header h ++ wq) ++ wa) ++ wn) post X1 X2
      ltac:(repeat (first [assumption|apply BT])) Hpost) as (_ & E).
    rewrite X3 in E. rewrite <- !(app_assoc _ _ (_ ++ _)) in E. exact E. }
  rewrite E4. reflexivity.
Qed.
Print Assumptions C21_unknown_types_skipped.

(** One record, alone: exactly its own bytes are consumed. *)
Theorem C21_unknown_record_exact : forall p u pre post, unknown_ok u -> is_bytes pre -> is_bytes post ->
  decode_record p (at_ (pre ++ wire_unknown u ++ post) (8 * length pre)) =
  Done (Err (PE_UnknownType (u_type u)),
        at_ (pre ++ wire_unknown u ++ post) (8 * (length pre + length (wire_unknown u)))).
Proof. intros p u pre post Hu H1 H2. now apply skips_unknown. Qed.
Print Assumptions C21_unknown_record_exact.

Definition ex_unknown : unknown := mkUnknown ex_www 28 1 60 (repeat 7%N 16).
Theorem C21_nonvacuous : unknown_ok ex_unknown /\
  decode_message Debug (wire_items (mkHeader 1 true OP_STD false false false false 0 RC_NoError 0 3 0 0)
     [] [R_unknown ex_unknown; R_known ex_mx; R_unknown ex_unknown] [] [])
  = Done (Ok (mkMsg (mkHeader 1 true OP_STD false false false false 0 RC_NoError 0 3 0 0) [] [normal ex_mx] [] [])).
Proof.
  split; [|vm_compute; reflexivity].
  split; [now apply sendable_b_ok|]. cbn [ex_unknown u_type u_class u_ttl u_data].
  repeat split; try (unfold is_u16, is_u32; cbn; lia).
  - intros (t & Ht). destruct t; discriminate.
  - repeat constructor; unfold is_byte; lia.
Qed.

(** * C19 *)
Lemma wire_message_items : forall m, wire_message m =
  wire_items (m_header m) (map Q_known (m_questions m)) (map R_known (m_answers m))
    (map R_known (m_authorities m)) (map R_known (m_additionals m)).
Proof.
  intros m. unfold wire_message, wire_items, wire_entries. rewrite !map_map, !concat_app. reflexivity.
Qed.

Lemma known_all_q : forall l, known_questions (map Q_known l) = l.
Proof. induction l as [|q l IH]; [reflexivity|]. unfold known_questions in *. cbn [map flat_map]. now rewrite IH. Qed.
Lemma known_all_r : forall l, known_records (map R_known l) = l.
Proof. induction l as [|q l IH]; [reflexivity|]. unfold known_records in *. cbn [map flat_map]. now rewrite IH. Qed.

Theorem C19_decode_message : forall p m post, message_readable m -> is_bytes post ->
  decode_message p (wire_message m ++ post) = Done (Ok (normal_message m)).
Proof.
  intros p m post ((Hh & Ho & (C1 & C2 & C3 & C4) & Hq & _) & Ha & Hn & Hx) Hpost. rewrite wire_message_items.
  rewrite C21_unknown_types_skipped; rewrite ?map_length; try assumption.
  - unfold normal_message. now rewrite known_all_q, !known_all_r.
  - apply Forall_map. exact Hq.
  - apply Forall_map. exact Ha.
  - apply Forall_map. exact Hn.
  - apply Forall_map. exact Hx.
Qed.
Print Assumptions C19_decode_message.

Lemma appends_ok_q : forall p l, Forall question_ok l ->
  Forall (fun q => appends (encode_question p q) (question_outcome p q)) l /\
  Forall (fun q => question_outcome p q = Done (Ok (wire_question q))) l.
Proof.
  intros p l H. rewrite !Forall_forall in *.
  split; intros q Hq; destruct (question_outcome_ok p q (H q Hq)) as (E & Ht); [now apply appends_question|assumption].
Qed.
Lemma appends_ok_r : forall p l, Forall record_ok l ->
  Forall (fun q => appends (encode_record p q) (record_outcome p q)) l /\
  Forall (fun q => record_outcome p q = Done (Ok (wire_record q))) l.
Proof.
  intros p l H. rewrite !Forall_forall in *.
  split; intros q Hq; destruct (record_outcome_ok p q (H q Hq)) as (E & Ht); [now apply appends_record|assumption].
Qed.

Lemma concat_wire_bytes : forall A (enc : A -> M unit) (o : A -> exec (result (list N) parse_err)) (wire : A -> list N) l,
  Forall (fun x => appends (enc x) (o x)) l -> Forall (fun x => o x = Done (Ok (wire x))) l ->
  is_bytes (concat (map wire l)).
Proof.
  intros A enc o wire l H1 H2. induction l as [|x l IH]; [constructor|].
  inversion H1 as [|? ? [Hb _] H1']; subst. inversion H2 as [|? ? E H2']; subst.
  cbn [map concat]. apply is_bytes_app. split; [now rewrite E in Hb|now apply IH].
Qed.

(** The encoder writes the RFC 1035 message. *)
Theorem C19_encode_message : forall p m, message_ok m -> encode_message p m = Done (Ok (wire_message m)).
Proof.
  intros p m (Hh & Ho & (C1 & C2 & C3 & C4) & Hq & Ha & Hn & Hx). unfold encode_message.
  rewrite encode_header_new by (try assumption; now rewrite Ho). cbn [bind].
  rewrite C1, C2, C3, C4, !Nat2N.id.
  destruct (appends_ok_q p _ Hq) as (Q1 & Q2). destruct (appends_ok_r p _ Ha) as (A1 & A2).
  destruct (appends_ok_r p _ Hn) as (N1 & N2). destruct (appends_ok_r p _ Hx) as (X1 & X2).
  pose proof (concat_wire_bytes _ _ _ _ _ Q1 Q2) as BQ. pose proof (concat_wire_bytes _ _ _ _ _ A1 A2) as BA.
  pose proof (concat_wire_bytes _ _ _ _ _ N1 N2) as BN.
  pose proof (wire_header_bytes _ Hh) as BH.
  assert (BT : forall a b, is_bytes a -> is_bytes b -> is_bytes (a ++ b)) by (intros; now apply is_bytes_app).
  unfold bindR.
  rewrite (encode_section_ok _ _ _ _ Q1 wire_question); try assumption; try lia. cbn [bind skipn]. rewrite firstn_all.
  rewrite (encode_section_ok _ _ _ _ A1 wire_record); try assumption; try lia;
    [|now apply BT]. cbn [bind skipn]. rewrite firstn_all.
  rewrite (encode_section_ok _ _ _ _ N1 wire_record); try assumption; try lia;
    [|repeat (first [assumption|apply BT])]. cbn [bind skipn]. rewrite firstn_all.
  rewrite (encode_section_ok _ _ _ _ X1 wire_record); try assumption; try lia;
    [|repeat (first [assumption|apply BT])]. cbn [bind skipn]. rewrite firstn_all.
  unfold into_vec. cbn [at_ buf]. unfold wire_message, wire_entries. now rewrite !concat_app, <- !app_assoc.
Qed.
Print Assumptions C19_encode_message.

Theorem C19_round_trip : forall p m, message_readable m ->
  exists bs, encode_message p m = Done (Ok bs) /\ decode_message p bs = Done (Ok (normal_message m)).
Proof.
  intros p m Hm. exists (wire_message m). split; [apply C19_encode_message, Hm|].
  rewrite <- (app_nil_r (wire_message m)). apply C19_decode_message; [assumption|constructor].
Qed.
Print Assumptions C19_round_trip.

Definition ex_message : message :=
  mkMsg (mkHeader 77 true OP_STD true false true true 0 RC_NoError 1 2 1 0) [mkQ ex_www RT_MX C_IN]
        [ex_mx; ex_hinfo] [ex_soa] [].
Theorem C19_nonvacuous : message_readable ex_message.
Proof.
  destruct C15_nonvacuous as (H1 & H2 & H3 & _).
  assert (S : sendable ex_www) by now apply sendable_b_ok.
  assert (Q : question_ok (mkQ ex_www RT_MX C_IN)) by (repeat split; [assumption|unfold usable_type; cbn; tauto]).
  repeat split; cbn [ex_message m_header m_questions m_answers m_authorities m_additionals]; try (repeat constructor; assumption);
    try (unfold is_u16; cbn; lia); try (repeat constructor; first [apply H1|apply H2|apply H3]).
Qed.

(** * C20 *)
Theorem C20_decoded_is_supported : forall p l m, is_bytes l -> decode_message p l = Done (Ok m) ->
  h_op (m_header m) = OP_STD /\
  Forall (fun q => accepted (q_node q) /\ q_class q = C_IN /\ usable_type (q_type q)) (m_questions m) /\
  (forall r, In r (m_answers m ++ m_authorities m ++ m_additionals m) ->
     accepted (r_node r) /\ r_class r = C_IN /\ is_u32 (r_ttl r) /\ usable_type (record_type r) /\
     match r_data r with
     | D_A a => address_ok a
     | D_NS n | D_CNAME n | D_PTR n | D_MX _ n => accepted n
     | D_SOA m n _ _ _ _ _ => accepted m /\ accepted n
     | D_WKS a _ ports => address_ok a /\ ports = []
     | D_HINFO c o => good_string c /\ is_utf8 c /\ good_string o /\ is_utf8 o
     | D_TXT ts => Forall (fun s => good_string s /\ is_utf8 s) ts
     end) /\
  length (m_questions m) <= N.to_nat (h_qd (m_header m)) /\
  length (m_answers m) <= N.to_nat (h_an (m_header m)) /\
  length (m_authorities m) <= N.to_nat (h_ns (m_header m)) /\
  length (m_additionals m) <= N.to_nat (h_ar (m_header m)) /\
  exists rest, l = wire_header (m_header m) ++ rest.
Proof.
  intros p l m Hl E. unfold decode_message in E. rewrite from_raw_at in E.
  destruct (decode_header (at_ l 0)) as [[[h|e] b0]|k|] eqn:Eh; cbn [bind] in E; try discriminate.
  apply decode_header_inv in Eh as (Hh & -> & Hrest); [|assumption].
  destruct (header_is_supported h) as [[]|e] eqn:Es; [|discriminate].
  assert (Ho : h_op h = OP_STD).
  { unfold header_is_supported in Es. destruct (h_op h); [reflexivity|discriminate|discriminate]. }
  assert (H96 : 96 <= 8 * length l).
  { destruct Hrest as (rest & ->). rewrite app_length, wire_header_length. lia. }
  pose proof (gen_section _ _ (p = Release) _ ME_Question _ (gen_question p (p = Release)) (N.to_nat (h_qd h)) 0 l 96 Hl H96) as GQ.
  destruct (decode_section (decode_question p) _ _ _ _) as [[[qs|e] b1]|k|]; cbn [bind] in E; try discriminate.
  destruct GQ as (r1 & -> & Hr1 & FQ & LQ).
  pose proof (gen_section _ _ (p = Release) _ ME_Answer _ (gen_record p) (N.to_nat (h_an h)) 0 l r1 Hl Hr1) as GA.
  destruct (decode_section (decode_record p) ME_Answer _ _ _) as [[[ans|e] b2]|k|]; cbn [bind] in E; try discriminate.
  destruct GA as (r2 & -> & Hr2 & FA & LA).
  pose proof (gen_section _ _ (p = Release) _ ME_Authority _ (gen_record p) (N.to_nat (h_ns h)) 0 l r2 Hl Hr2) as GN.
  destruct (decode_section (decode_record p) ME_Authority _ _ _) as [[[aus|e] b3]|k|]; cbn [bind] in E; try discriminate.
  destruct GN as (r3 & -> & Hr3 & FN & LN).
  pose proof (gen_section _ _ (p = Release) _ ME_Additional _ (gen_record p) (N.to_nat (h_ar h)) 0 l r3 Hl Hr3) as GX.
  destruct (decode_section (decode_record p) ME_Additional _ _ _) as [[[ads|e] b4]|k|]; cbn [bind] in E; try discriminate.
  destruct GX as (r4 & -> & Hr4 & FX & LX).
  injection E as <-. cbn [m_header m_questions m_answers m_authorities m_additionals].
  assert (GN : forall n, good_name n -> accepted n) by (intros n (ls & Hn & _); now exists ls).
  split; [assumption|]. split.
  { eapply Forall_impl; [|exact FQ]. intros q (H1 & H2 & H3). split; [now apply GN|now split]. }
  split; [|now repeat split].
  intros r Hin.
  assert (Hr : decoded_record r).
  { apply in_app_or in Hin as [Hin|Hin]; [|apply in_app_or in Hin as [Hin|Hin]].
    - rewrite Forall_forall in FA. now apply FA.
    - rewrite Forall_forall in FN. now apply FN.
    - rewrite Forall_forall in FX. now apply FX. }
  destruct Hr as (H1 & H2 & H3 & _ & H5).
  split; [now apply GN|]. split; [assumption|]. split; [assumption|]. split; [apply record_type_usable|].
  destruct (r_data r); cbn [decoded_data] in H5; try (now apply GN); try (destruct H5 as (? & ?); now split).
  - destruct H5 as (A & B & _). split; now apply GN.
  - destruct H5 as ((A1 & A2 & A3) & (B1 & B2 & B3)). now repeat split.
  - eapply Forall_impl; [|exact H5]. intros s (A & B & C). now repeat split.
Qed.
Print Assumptions C20_decoded_is_supported.

Theorem C20_nonvacuous : decode_message Release (wire_message ex_message) = Done (Ok (normal_message ex_message)).
Proof.
  rewrite <- (app_nil_r (wire_message ex_message)).
  apply C19_decode_message; [apply C19_nonvacuous|constructor].
Qed.
