(** C14-C18, C27: headers, questions, records, character strings.
    [at_ l r] is a buffer holding the bytes [l], written to the end, read up to bit [r]:
    [from_raw_bytes l = at_ l 0], [new_buf = at_ [] 0]. *)
From Verif Require Import Base Buffer BufferSpec BufferProofs Reader Types Name NameSpec NameProofs NameDecode
  Codec CodecSpec Utf8 CodecWrite CodecMessage CodecRead CodecSafe CodecFacts PropName.

(** * C14: headers *)
Theorem C14_encode_header : forall h, header_ok h -> h_op h = OP_STD ->
  exists b, encode_header h new_buf = Done (Ok tt, b) /\ into_vec b = wire_header h.
Proof.
  intros h Hh Ho. rewrite encode_header_new; [|now rewrite Ho|assumption].
  eexists. split; [reflexivity|]. reflexivity.
Qed.
Print Assumptions C14_encode_header.

Theorem C14_decode_header : forall l h, is_bytes l ->
  decode_header_bytes l = Done (Ok h) <-> (header_ok h /\ exists rest, l = wire_header h ++ rest).
Proof.
  intros l h Hl. unfold decode_header_bytes. rewrite from_raw_at. split.
  - intros E. destruct (decode_header (at_ l 0)) as [[r b']|k|] eqn:Ed; try discriminate.
    cbn [bind] in E. injection E as ->. apply decode_header_inv in Ed as (H1 & _ & H2); [now split|assumption].
  - intros (Hh & rest & ->). apply is_bytes_app in Hl as [_ Hr].
    now rewrite decode_wire_header.
Qed.
Print Assumptions C14_decode_header.

Theorem C14_round_trip : forall h rest, header_ok h -> h_op h = OP_STD -> is_bytes rest ->
  exists b, encode_header h new_buf = Done (Ok tt, b) /\
            decode_header_bytes (into_vec b ++ rest) = Done (Ok h).
Proof.
  intros h rest Hh Ho Hr. destruct (C14_encode_header h Hh Ho) as (b & E & Ev). exists b. split; [assumption|].
  rewrite Ev. apply C14_decode_header; [|split; [assumption|now exists rest]].
  apply is_bytes_app. split; [now apply wire_header_bytes|assumption].
Qed.
Print Assumptions C14_round_trip.

(** Decoders that always return. *)
Definition quiet {A} (m : M A) : Prop :=
  forall l r, is_bytes l -> r <= 8 * length l ->
  exists res r', m (at_ l r) = Done (res, at_ l r') /\ r' <= 8 * length l.

Lemma quiet_bind : forall A B (m : M A) (k : A -> M B), quiet m -> (forall a, quiet (k a)) -> quiet (bindM m k).
Proof.
  intros A B m k Hm Hk l r Hl Hr. unfold bindM. destruct (Hm l r Hl Hr) as (res & r' & -> & Hr'). cbn [bind].
  destruct res as [a|e]; [now apply Hk|now exists (Err e), r'].
Qed.
Lemma quiet_ret : forall A (a : A), quiet (ret a).
Proof. intros A a l r Hl Hr. now exists (Ok a), r. Qed.
Lemma quiet_lift : forall A (a : result A parse_err), quiet (lift a).
Proof. intros A a l r Hl Hr. now exists a, r. Qed.
Lemma quiet_fail : forall A e, quiet (@fail A e).
Proof. intros A a l r Hl Hr. now exists (Err a), r. Qed.
Lemma quiet_u16 : quiet (check_end read_u16).
Proof.
  intros l r Hl Hr. unfold check_end. rewrite read_u16_at by assumption.
  destruct (Nat.leb_spec (r + 16) (8 * length l)); cbn [bind]; eexists _, _; (split; [reflexivity|lia]).
Qed.
Lemma quiet_u8 : quiet (check_end read_u8).
Proof.
  intros l r Hl Hr. unfold check_end. rewrite read_u8_at by assumption.
  destruct (Nat.leb_spec (r + 8) (8 * length l)); cbn [bind]; eexists _, _; (split; [reflexivity|lia]).
Qed.
Lemma quiet_bytes : forall n, quiet (check_end (fun b => read_bytes_vec b n)).
Proof.
  intros n l r Hl Hr. unfold check_end. rewrite read_bytes_at by assumption.
  destruct (Nat.leb_spec (r + n * 8) (8 * length l)); cbn [bind]; eexists _, _; (split; [reflexivity|lia]).
Qed.
Lemma quiet_bits : forall n, n <= 8 -> quiet (rbits n).
Proof.
  intros n Hn l r Hl Hr. unfold rbits, check_end. rewrite read_bits_at by assumption.
  destruct (Nat.leb_spec (r + n) (8 * length l)); cbn [bind]; eexists _, _; (split; [reflexivity|lia]).
Qed.
Lemma quiet_flag : quiet rflag.
Proof. apply quiet_bind; [apply quiet_bits; lia|]. intros. apply quiet_ret. Qed.

Lemma quiet_header : quiet decode_header.
Proof.
  unfold decode_header.
  repeat first [ apply quiet_u16 | apply quiet_flag | apply quiet_lift | apply quiet_ret
               | apply quiet_bits; lia | apply quiet_bind; [|intros ?] ].
Qed.

(** Decoding a header returns on every byte string. *)
Theorem C14_decode_total : forall l, is_bytes l -> exists r, decode_header_bytes l = Done r.
Proof.
  intros l Hl. unfold decode_header_bytes. rewrite from_raw_at.
  destruct (quiet_header l 0 Hl ltac:(lia)) as (res & r' & -> & _). now exists res.
Qed.
Print Assumptions C14_decode_total.

(** Any other op code makes the encoder panic. *)
Theorem C14_only_std_is_encoded : forall h b, h_op h <> OP_STD -> encode_header h b = Panic PAssert.
Proof. intros h b H. apply encode_header_panics. now destruct (h_op h). Qed.
Print Assumptions C14_only_std_is_encoded.

Definition ex_header : header := mkHeader 4660 true OP_STD true false true false 5 RC_NxDomain 1 2 3 4.
Theorem C14_nonvacuous : header_ok ex_header /\
  wire_header ex_header = [18; 52; 133; 83; 0; 1; 0; 2; 0; 3; 0; 4]%N /\
  decode_header_bytes [18; 52; 133; 83; 0; 1; 0; 2; 0; 3; 0; 4; 77]%N = Done (Ok ex_header).
Proof. split; [repeat split|]. split; reflexivity. Qed.

(** * C15: questions and records *)
Theorem C15_encode_question : forall p q l, question_ok q -> is_bytes l ->
  encode_question p q (at_ l 0) = Done (Ok tt, at_ (l ++ wire_question q) 0).
Proof.
  intros p q l Hq Hl. destruct (question_outcome_ok p q Hq) as (E & Ht).
  destruct (appends_question p q Ht) as [_ H]. specialize (H l 0 Hl ltac:(lia)). now rewrite E in H.
Qed.
Print Assumptions C15_encode_question.

Theorem C15_decode_question : forall p q pre post, question_ok q -> is_bytes pre -> is_bytes post ->
  decode_question p (at_ (pre ++ wire_question q ++ post) (8 * length pre)) =
  Done (Ok q, at_ (pre ++ wire_question q ++ post) (8 * (length pre + length (wire_question q)))).
Proof. intros p q pre post Hq H1 H2. now apply parses_question. Qed.
Print Assumptions C15_decode_question.

(** The encoder writes the RFC 1035 bytes for every kind of record (TXT included). *)
Theorem C15_encode_record : forall p r l, record_ok r -> is_bytes l ->
  encode_record p r (at_ l 0) = Done (Ok tt, at_ (l ++ wire_record r) 0).
Proof.
  intros p r l Hr Hl. destruct (record_outcome_ok p r Hr) as (E & Ht).
  destruct (appends_record p r Ht) as [_ H]. specialize (H l 0 Hl ltac:(lia)). now rewrite E in H.
Qed.
Print Assumptions C15_encode_record.

Theorem C15_decode_record : forall p r pre post, record_readable r -> is_bytes pre -> is_bytes post ->
  decode_record p (at_ (pre ++ wire_record r ++ post) (8 * length pre)) =
  Done (Ok (normal r), at_ (pre ++ wire_record r ++ post) (8 * (length pre + length (wire_record r)))).
Proof. intros p r pre post Hr H1 H2. now apply parses_record. Qed.
Print Assumptions C15_decode_record.

(** [normal] only sets the RDATA length field. *)
Theorem C15_normal : forall r,
  r_node (normal r) = r_node r /\ r_class (normal r) = r_class r /\ r_ttl (normal r) = r_ttl r /\
  r_data (normal r) = r_data r /\ r_data_len (normal r) = N.of_nat (length (wire_rdata (r_data r))).
Proof. now repeat split. Qed.

(** A test for [sendable], for examples. *)
Definition sendable_b (s : list N) : bool :=
  is_ok (validate_name s) && negb (bytes_eqb s [46%N]) && forallb (fun l => length l <=? 63) (labels s).
Lemma sendable_b_ok : forall s, sendable_b s = true -> sendable s.
Proof.
  intros s H. unfold sendable_b in H. apply andb_true_iff in H as [H H3]. apply andb_true_iff in H as [H1 H2].
  assert (A : accepted s) by (apply validate_name_ok; destruct (validate_name s) as [[]|]; [reflexivity|discriminate]).
  destruct A as (ls & Hs). exists ls. split; [assumption|]. rewrite (labels_of_name _ _ Hs) in H3. split.
  - intros ->. destruct Hs as (-> & _). discriminate.
  - rewrite forallb_forall in H3. apply Forall_forall. intros l Hl. now apply Nat.leb_le, H3.
Qed.

Definition ex_soa : record := mkRec ex_www C_IN 3600 0 (D_SOA ex_www ex_www 1 2 3 4 4294967295).
Definition ex_mx : record := mkRec ex_www C_IN 60 0 (D_MX 10 ex_www).
Definition ex_hinfo : record := mkRec ex_www C_IN 60 0 (D_HINFO (s2b "cpu") (s2b "os")).
Theorem C15_nonvacuous : record_readable ex_soa /\ record_readable ex_mx /\ record_readable ex_hinfo /\
  question_ok (mkQ ex_www RT_TXT C_IN).
Proof.
  assert (S : sendable ex_www) by now apply sendable_b_ok.
  repeat split; cbn; try assumption; try lia; try reflexivity;
    try (repeat constructor; unfold is_byte; lia); try (unfold usable_type; tauto);
    try (unfold is_u32; lia); try (unfold is_u16; lia); try (apply utf8_ok; reflexivity).
Qed.

(** * C16: TXT records do not round-trip *)

(** The fields before the data, as one decoder. *)
Definition decode_front (p : profile) : M (name * rtype * class * N * N) :=
  do! node := dec_name p in
  do! t := decode_rtype in
  do! c := check_end read_u16 in
  do! cl := lift (decode_class c) in
  do! ttl := check_end read_u32 in
  do! len := check_end read_u16 in
  ret (node, t, cl, ttl, len).

Lemma bindM_assoc : forall A B C (m : M A) (k : A -> M B) (k' : B -> M C) b,
  bindM (bindM m k) k' b = bindM m (fun x => bindM (k x) k') b.
Proof.
  intros. unfold bindM. destruct (m b) as [[[a|e] b']|kd|]; reflexivity.
Qed.
Lemma bindM_ext : forall A B (m : M A) (k k' : A -> M B), (forall a b, k a b = k' a b) -> forall b, bindM m k b = bindM m k' b.
Proof. intros A B m k k' H b. unfold bindM. destruct (m b) as [[[a|e] b']|kd|]; cbn [bind]; try reflexivity. apply H. Qed.

Lemma decode_record_front : forall p b, decode_record p b =
  bindM (decode_front p) (fun '(node, t, cl, ttl, len) =>
    do! d := decode_data p t len in ret (mkRec node cl ttl len d)) b.
Proof.
  intros p b. rewrite decode_record_eq. unfold decode_front.
  rewrite bindM_assoc. apply bindM_ext. intros n b1.
  rewrite bindM_assoc. apply bindM_ext. intros t b2.
  rewrite bindM_assoc. apply bindM_ext. intros c b3.
  rewrite bindM_assoc. apply bindM_ext. intros cl b4.
  rewrite bindM_assoc. apply bindM_ext. intros ttl b5.
  rewrite bindM_assoc. apply bindM_ext. intros len b6. reflexivity.
Qed.

Definition front_wire (n : list N) (t : rtype) (ttl len : N) : list N :=
  wname n ++ be16 (type_number t) ++ be16 1 ++ be32 ttl ++ be16 len.

Lemma parses_front : forall p n t ttl len, sendable n -> usable_type t -> is_u32 ttl -> is_u16 len ->
  parses (decode_front p) (front_wire n t ttl len) (n, t, C_IN, ttl, len).
Proof.
  intros p n t ttl len Hn Ht Httl Hlen. unfold decode_front, front_wire.
  eapply parses_bind; [now apply parses_name|]. cbv beta.
  eapply parses_bind; [now apply parses_rtype|]. cbv beta.
  eapply parses_bind; [apply parses_u16; unfold is_u16; lia|]. cbv beta.
  apply parses_lift_ok.
  eapply parses_bind; [now apply parses_u32|]. cbv beta.
  apply (parses_bind_ret _ _ _ (fun x => (n, t, C_IN, ttl, x))). now apply parses_u16.
Qed.

Lemma decode_record_data : forall p n t ttl len pre rest, sendable n -> usable_type t -> is_u32 ttl -> is_u16 len ->
  is_bytes pre -> is_bytes rest ->
  let w := front_wire n t ttl len in
  decode_record p (at_ (pre ++ w ++ rest) (8 * length pre)) =
  (do! d := decode_data p t len in ret (mkRec n C_IN ttl len d)) (at_ (pre ++ w ++ rest) (8 * (length pre + length w))).
Proof.
  intros p n t ttl len pre rest Hn Ht Httl Hlen Hpre Hrest w. rewrite decode_record_front.
  destruct (parses_front p n t ttl len Hn Ht Httl Hlen) as [_ H].
  unfold bindM at 1. fold w in H. now rewrite H.
Qed.

Lemma wire_record_front : forall r, wire_record r =
  front_wire (r_node r) (record_type r) (r_ttl r) (N.of_nat (length (wire_rdata (r_data r)))) ++ wire_rdata (r_data r).
Proof. intros r. unfold wire_record, front_wire. now rewrite <- !app_assoc. Qed.

Lemma record_ok_bytes : forall r, record_ok r -> is_bytes (wire_record r) /\ is_bytes (wire_rdata (r_data r)) /\
  is_u16 (N.of_nat (length (wire_rdata (r_data r)))).
Proof.
  intros r Hr. destruct (record_outcome_ok Debug r Hr) as (Er & Htr).
  pose proof (appends_record Debug r Htr) as [Hbr _]. rewrite Er in Hbr.
  split; [assumption|]. rewrite wire_record_front in Hbr. apply is_bytes_app in Hbr as [_ H]. split; [assumption|].
  destruct Hr as (_ & _ & _ & Hd). now destruct (data_outcome_ok Debug _ Hd) as (_ & _ & Hu).
Qed.

(** If a TXT record's texts come back at all, the decoder stands at the wrong bit:
    one bit short per text. So no TXT record is ever read back from its own bytes. *)
Theorem C16_refuted_txt_never_round_trips : forall p r ts pre post r' b',
  record_ok r -> r_data r = D_TXT ts -> is_bytes pre -> is_bytes post ->
  decode_record p (at_ (pre ++ wire_record r ++ post) (8 * length pre)) = Done (Ok r', b') ->
  r_data r' = D_TXT ts ->
  exists q, b' = at_ (pre ++ wire_record r ++ post) q  /\
            q + length ts = 8 * (length pre + length (wire_record r)) /\ ts <> [].
Proof.
  intros p r ts pre post r' b' Hr Ed Hpre Hpost E Er'.
  destruct (record_ok_bytes r Hr) as (Hb & Hbd & Hu). destruct Hr as (Hn & Hc & Httl & Hd).
  rewrite wire_record_front in E |- *. rewrite wire_record_front in Hb.
  rewrite <- app_assoc in E |- *.
  rewrite decode_record_data in E; try assumption; [|apply record_type_usable|apply is_bytes_app; now split].
  set (w := front_wire _ _ _ _) in *. set (d := wire_rdata (r_data r)) in *.
  set (pkt := pre ++ w ++ d ++ post) in *.
  assert (Hpkt : is_bytes pkt).
  { unfold pkt. apply is_bytes_app in Hb as [Hb _]. repeat (apply is_bytes_app; split; [assumption|]). assumption. }
  assert (Et : record_type r = RT_TXT) by (unfold record_type; now rewrite Ed).
  rewrite Et in E. cbn [decode_data] in E. unfold decode_txt_data, bindM in E. cbn [last at_] in E.
  destruct (txt_loop _ _ _ _ _ _) as [[[ts'|e] b1]|k|] eqn:El; cbn [bind ret] in E; try discriminate.
  unfold ret in E. injection E as <- <-. cbn [r_data] in Er'. injection Er' as ->.
  apply (txt_loop_position p _ _ _ _ pkt) in El as (new & q & E1 & E2 & -> & E4); [|assumption|].
  2:{ unfold pkt. rewrite !app_length. lia. }
  cbn [app] in E1. subst new. exists q. split; [reflexivity|]. split; [|assumption].
  rewrite E4. unfold d. rewrite Ed. cbn [wire_rdata]. rewrite app_length. lia.
Qed.
Print Assumptions C16_refuted_txt_never_round_trips.

(** In the form of the (false) claim: never the same texts with the bytes consumed. *)
Theorem C16_refuted : forall p r ts pre post,
  record_ok r -> r_data r = D_TXT ts -> is_bytes pre -> is_bytes post ->
  decode_record p (at_ (pre ++ wire_record r ++ post) (8 * length pre)) <>
  Done (Ok (normal r), at_ (pre ++ wire_record r ++ post) (8 * (length pre + length (wire_record r)))).
Proof.
  intros p r ts pre post Hr Ed H1 H2 E.
  destruct (C16_refuted_txt_never_round_trips p r ts pre post _ _ Hr Ed H1 H2 E) as (q & Eq & Hq & Hne); [now cbn|].
  apply (f_equal r_pos) in Eq. cbn [at_ r_pos] in Eq. destruct ts; [easy|]. cbn [length] in Hq. lia.
Qed.
Print Assumptions C16_refuted.

(** A concrete one: the encoding of a TXT record with the text "hi" is refused. *)
Definition ex_txt : record := mkRec (s2b "a.") C_IN 60 0 (D_TXT [s2b "hi"]).
Theorem C16_refuted_witness : record_ok ex_txt /\
  wire_record ex_txt = [1; 97; 0; 0; 16; 0; 1; 0; 0; 0; 60; 0; 3; 2; 104; 105]%N /\
  forall p, exists b, decode_record p (at_ (wire_record ex_txt) 0) = Done (Err PE_BytesEnd, b).
Proof.
  split.
  { split; [|split; [reflexivity|split; [cbn; unfold is_u32; lia|split]]].
    - now apply sendable_b_ok.
    - repeat constructor; unfold is_byte; cbn; lia.
    - cbn. unfold is_u16. lia. }
  split; [reflexivity|]. intros [|]; eexists; vm_compute; reflexivity.
Qed.

(** * C17: WKS records *)

(** A WKS record with a bit map, on the wire (RFC 1035 3.4.2). *)
Definition wire_wks (n : list N) (ttl : N) (addr : list N) (proto : N) (bitmap : list N) : list N :=
  wname n ++ be16 11 ++ be16 1 ++ be32 ttl ++ be16 (N.of_nat (5 + length bitmap)) ++ addr ++ [proto] ++ bitmap.

(** Reading one: only an all-zero bit map is read; a bit map naming a port makes
    debug builds panic and release builds loop forever. *)
Theorem C17_decode_wks : forall p n ttl addr proto bitmap pre post,
  sendable n -> is_u32 ttl -> address_ok addr -> is_byte proto -> is_bytes bitmap ->
  is_u16 (N.of_nat (5 + length bitmap)) -> is_bytes pre -> is_bytes post ->
  let w := wire_wks n ttl addr proto bitmap in
  decode_record p (at_ (pre ++ w ++ post) (8 * length pre)) =
  if forallb (fun x => x =? 0)%N bitmap
  then Done (Ok (mkRec n C_IN ttl (N.of_nat (5 + length bitmap)) (D_WKS addr proto [])),
             at_ (pre ++ w ++ post) (8 * (length pre + length w)))
  else match p with Debug => Panic POverflow | Release => Diverge end.
Proof.
  intros p n ttl addr proto bitmap pre post Hn Httl Ha Hpr Hbm Hlen Hpre Hpost w.
  set (len := N.of_nat (5 + length bitmap)) in *.
  assert (Ew : w = front_wire n RT_WKS ttl len ++ addr ++ [proto] ++ bitmap)
    by (unfold w, wire_wks, front_wire; cbn [type_number]; now rewrite <- !app_assoc).
  destruct Ha as [Hab Hal].
  assert (Hb1 : is_bytes [proto]) by (constructor; [assumption|constructor]).
  rewrite Ew. rewrite <- (app_assoc (front_wire _ _ _ _)).
  rewrite decode_record_data; [|assumption|unfold usable_type; tauto|assumption|assumption|assumption|].
  2:{ rewrite <- !app_assoc. repeat (apply is_bytes_app; split; [assumption|]). assumption. }
  cbn [decode_data]. unfold decode_wks_data.
  set (f := front_wire n RT_WKS ttl len) in *.
  assert (Hf : is_bytes f) by apply (parses_front p n RT_WKS ttl len Hn ltac:(unfold usable_type; tauto) Httl Hlen).
  pose proof (parses_bytes addr 4 Hab (eq_sym Hal)) as [_ P1].
  pose proof (parses_u8 proto Hpr) as [_ P2].
  unfold bindM at 1 2. rewrite <- !app_assoc.
  specialize (P1 (pre ++ f) ([proto] ++ bitmap ++ post) ltac:(apply is_bytes_app; now split)
    ltac:(repeat (apply is_bytes_app; split; [assumption|]); assumption)).
  rewrite <- !app_assoc, app_length in P1. rewrite P1. cbn [bind]. clear P1.
  unfold bindM at 1.
  specialize (P2 (pre ++ f ++ addr) (bitmap ++ post) ltac:(repeat (apply is_bytes_app; split; [assumption|]); assumption)
    ltac:(repeat (apply is_bytes_app; split; [assumption|]); assumption)).
  rewrite <- !app_assoc, !app_length in P2. 
  replace (length pre + length f + length addr) with (length pre + (length f + length addr)) by lia.
  rewrite P2. cbn [bind]. clear P2.
  set (pkt := pre ++ f ++ addr ++ [proto] ++ bitmap ++ post) in *.
  assert (Hpkt : is_bytes pkt) by (unfold pkt; repeat (apply is_bytes_app; split; [assumption|]); assumption).
  set (k := length pre + (length f + length addr) + length [proto]).
  assert (Ek : k = length (pre ++ f ++ addr ++ [proto])) by (unfold k; rewrite !app_length; lia).
  assert (Epkt : pkt = (pre ++ f ++ addr ++ [proto]) ++ bitmap ++ post) by (unfold pkt; now rewrite <- !app_assoc).
  destruct (N.ltb_spec 5 len) as [Hl|Hl].
  - replace (N.to_nat (len - 5)) with (length bitmap) by (unfold len; lia).
    rewrite read_bytes_at; [|assumption|rewrite Ek, Epkt, (app_length _ (bitmap ++ post)); lia].
    replace (8 * k + length bitmap * 8 <=? 8 * length pkt) with true
      by (symmetry; apply Nat.leb_le; rewrite Ek, Epkt, (app_length _ (bitmap ++ post)), (app_length bitmap); lia).
    cbn [bind unwrap].
    rewrite rbs_aligned by (try assumption; rewrite Ek, Epkt, (app_length _ (bitmap ++ post)), (app_length bitmap); lia).
    rewrite Epkt, Ek, mid_skipn, firstn_app, firstn_all, Nat.sub_diag. cbn [firstn]. rewrite app_nil_r.
    rewrite parse_wks_ports_spec. destruct (forallb _ bitmap); cbn [bind]; [|now destruct p].
    unfold ret. do 3 f_equal. rewrite !app_length. lia.
  - assert (bitmap = []) by (destruct bitmap; [reflexivity|unfold len in Hl; cbn [length] in Hl; lia]). subst bitmap.
    cbn [forallb]. unfold ret. cbn [bind]. do 3 f_equal. unfold k. rewrite !app_length. cbn [length]. lia.
Qed.
Print Assumptions C17_decode_wks.

(** The length field may also claim more bit map than the packet has: panic. *)
Theorem C17_refuted_short_bitmap_panics : forall p n ttl addr proto len pre bitmap,
  sendable n -> is_u32 ttl -> address_ok addr -> is_byte proto -> is_u16 len -> is_bytes bitmap ->
  (5 + N.of_nat (length bitmap) < len)%N -> is_bytes pre ->
  decode_record p (at_ (pre ++ (wname n ++ be16 11 ++ be16 1 ++ be32 ttl ++ be16 len ++ addr ++ [proto] ++ bitmap))
                       (8 * length pre)) = Panic PUnwrap.
Proof.
  intros p n ttl addr proto len pre bitmap Hn Httl Ha Hpr Hlen Hbm Hshort Hpre.
  set (f := front_wire n RT_WKS ttl len).
  assert (Ew : wname n ++ be16 11 ++ be16 1 ++ be32 ttl ++ be16 len ++ addr ++ [proto] ++ bitmap
               = f ++ addr ++ [proto] ++ bitmap)
    by (unfold f, front_wire; cbn [type_number]; now rewrite <- !app_assoc).
  rewrite Ew. destruct Ha as [Hab Hal].
  assert (Hb1 : is_bytes [proto]) by (constructor; [assumption|constructor]).
  unfold f. rewrite decode_record_data; [|assumption|unfold usable_type; tauto|assumption|assumption|assumption|].
  2:{ repeat (apply is_bytes_app; split; [assumption|]). assumption. }
  fold f. cbn [decode_data]. unfold decode_wks_data.
  assert (Hf : is_bytes f) by apply (parses_front p n RT_WKS ttl len Hn ltac:(unfold usable_type; tauto) Httl Hlen).
  pose proof (parses_bytes addr 4 Hab (eq_sym Hal)) as [_ P1].
  pose proof (parses_u8 proto Hpr) as [_ P2].
  unfold bindM at 1 2.
  specialize (P1 (pre ++ f) ([proto] ++ bitmap) ltac:(apply is_bytes_app; now split)
    ltac:(repeat (apply is_bytes_app; split; [assumption|]); assumption)).
  rewrite <- !app_assoc, app_length in P1. rewrite P1. cbn [bind]. clear P1.
  unfold bindM at 1.
  specialize (P2 (pre ++ f ++ addr) bitmap ltac:(repeat (apply is_bytes_app; split; [assumption|]); assumption)
    Hbm).
  rewrite <- !app_assoc, !app_length in P2. 
  replace (length pre + length f + length addr) with (length pre + (length f + length addr)) by lia.
  rewrite P2. cbn [bind]. clear P2.
  set (pkt := pre ++ f ++ addr ++ [proto] ++ bitmap) in *.
  assert (Hpkt : is_bytes pkt) by (unfold pkt; repeat (apply is_bytes_app; split; [assumption|]); assumption).
  assert (Lp : length pkt = length pre + (length f + length addr) + length [proto] + length bitmap)
    by (unfold pkt; rewrite !app_length; lia).
  replace (5 <? len)%N with true by (symmetry; apply N.ltb_lt; lia).
  rewrite read_bytes_at; [|assumption|lia].
  replace (_ <=? 8 * length pkt) with false by (symmetry; apply Nat.leb_gt; lia).
  reflexivity.
Qed.
Print Assumptions C17_refuted_short_bitmap_panics.

(** No decoded WKS record has ports, so none with ports can round-trip. *)
Theorem C17_refuted_ports_never_come_back : forall p l r rec b' a pr ports,
  is_bytes l -> r <= 8 * length l ->
  decode_record p (at_ l r) = Done (Ok rec, b') -> r_data rec = D_WKS a pr ports -> ports = [].
Proof.
  intros p l r rec b' a pr ports Hl Hr E Ed. pose proof (gen_record p l r Hl Hr) as G. rewrite E in G.
  destruct G as (r' & _ & _ & _ & (_ & _ & _ & _ & Hd)). rewrite Ed in Hd. now destruct Hd as (_ & _ & _ & Hp).
Qed.
Print Assumptions C17_refuted_ports_never_come_back.

(** Port-less WKS records do round-trip (C15 covers them). *)
Theorem C17_portless_round_trip_partial : forall p r a pr pre post, record_ok r -> r_data r = D_WKS a pr [] ->
  is_bytes pre -> is_bytes post ->
  decode_record p (at_ (pre ++ wire_record r ++ post) (8 * length pre)) =
  Done (Ok (normal r), at_ (pre ++ wire_record r ++ post) (8 * (length pre + length (wire_record r)))).
Proof.
  intros p r a pr pre post Hr Ed H1 H2. apply C15_decode_record; try assumption. split; [assumption|].
  rewrite Ed. exact I.
Qed.
Print Assumptions C17_portless_round_trip_partial.

Theorem C17_refuted_witness :
  let w := wire_wks ex_www 60 [10; 0; 0; 1]%N 6 [0; 0; 0; 64]%N in
  decode_record Debug (at_ w 0) = Panic POverflow /\ decode_record Release (at_ w 0) = Diverge.
Proof.
  split; vm_compute; reflexivity.
Qed.
Print Assumptions C17_refuted_witness.

(** * C18: RDLENGTH *)
Definition length_checked (t : rtype) : Prop :=
  t = RT_A \/ t = RT_NS \/ t = RT_CNAME \/ t = RT_SOA \/ t = RT_PTR \/ t = RT_HINFO \/ t = RT_MX.

Lemma len_checked_exact : forall A p n (m : M A) l r a b', is_bytes l -> r <= 8 * length l ->
  gen 0 True m (fun _ => True) ->
  len_checked p n m (at_ l r) = Done (Ok a, b') ->
  exists r', b' = at_ l r' /\ r <= r' /\ chk_u16 p (n * 8)%N = Done (N.of_nat (r' - r)).
Proof.
  intros A p n m l r a b' Hl Hr G E. unfold len_checked in E. specialize (G l r Hl Hr).
  destruct (m (at_ l r)) as [[[x|e] b1]|k|]; cbn [bind] in E; try discriminate.
  destruct G as (r' & -> & Hr' & Hge & _).
  destruct (chk_u16 p (n * 8)%N) as [a0|k|]; cbn [bind] in E; try discriminate.
  unfold read_pos in E. cbn [at_ r_pos] in E.
  destruct (N.eqb_spec (N.of_nat (r' - r)) a0) as [Ev|Hne]; [|discriminate]. injection E as <- <-.
  exists r'. split; [reflexivity|]. split; [lia|now rewrite Ev].
Qed.

Lemma gen_true : forall A d (m : M A) Q, gen d True m Q -> gen 0 True m (fun _ => True).
Proof. intros A d m Q H. eapply gen_weaken; [exact H|lia|auto]. Qed.

Lemma data_exact : forall p t n l r d b', length_checked t -> is_bytes l -> r <= 8 * length l -> is_u16 n ->
  decode_data p t n (at_ l r) = Done (Ok d, b') ->
  exists r', b' = at_ l r' /\ r <= r' /\ chk_u16 p (n * 8)%N = Done (N.of_nat (r' - r)).
Proof.
  intros p t n l r d b' Ht Hl Hr Hn E.
  assert (Hname : forall f, (do! x := decode_name_data p n in ret (f x)) (at_ l r) = Done (Ok d, b') ->
    exists r', b' = at_ l r' /\ r <= r' /\ chk_u16 p (n * 8)%N = Done (N.of_nat (r' - r))).
  { intros f E'. unfold bindM in E'. destruct (decode_name_data p n (at_ l r)) as [[[x|e] b1]|k|] eqn:Ed;
      cbn [bind] in E'; try discriminate. unfold ret in E'. injection E' as _ <-.
    apply (len_checked_exact _ p n (dec_name p) l r x) in Ed; try assumption.
    eapply gen_true, gen_name. }
  destruct Ht as [->|[->|[->|[->|[->|[->| ->]]]]]]; cbn [decode_data] in E; try (eapply Hname; exact E).
  - unfold decode_a_data in E. destruct (N.eqb_spec n 4) as [->|Hne]; cbn [negb] in E; [|discriminate].
    unfold bindM, check_end in E. rewrite read_bytes_at in E by assumption.
    destruct (Nat.leb_spec (r + 4 * 8) (8 * length l)); cbn [bind] in E; [|discriminate].
    unfold ret in E. injection E as _ <-. exists (r + 4 * 8). split; [reflexivity|]. split; [lia|].
    replace (N.of_nat (r + 4 * 8 - r)) with 32%N by lia. now destruct p.
  - eapply len_checked_exact; try eassumption. eapply gen_true.
    eapply gen_bind; [apply gen_name|]. intros m _.
    eapply gen_bind; [apply gen_name|]. intros rn _.
    do 5 (eapply gen_bind; [apply gen_u32|]; intros ? _). now apply (gen_ret _ _ _ (fun _ => True)).
  - eapply len_checked_exact; try eassumption. eapply gen_true.
    eapply gen_bind; [apply gen_string|]. intros m _.
    eapply gen_bind; [apply gen_string|]. intros rn _. now apply (gen_ret _ _ _ (fun _ => True)).
  - eapply len_checked_exact; try eassumption. eapply gen_true.
    eapply gen_bind; [apply gen_u16|]. intros m _.
    eapply gen_bind; [apply gen_name|]. intros rn _. now apply (gen_ret _ _ _ (fun _ => True)).
Qed.

Lemma bindM_ok : forall A B (m : M A) (k : A -> M B) b y b', bindM m k b = Done (Ok y, b') ->
  exists x b1, m b = Done (Ok x, b1) /\ k x b1 = Done (Ok y, b').
Proof.
  intros A B m k b y b' E. unfold bindM in E. destruct (m b) as [[[x|e] b1]|kd|]; cbn [bind] in E; try discriminate.
  now exists x, b1.
Qed.

Definition data_type (d : rdata) : rtype :=
  match d with
  | D_A _ => RT_A | D_NS _ => RT_NS | D_CNAME _ => RT_CNAME
  | D_SOA _ _ _ _ _ _ _ => RT_SOA | D_WKS _ _ _ => RT_WKS | D_PTR _ => RT_PTR
  | D_HINFO _ _ => RT_HINFO | D_MX _ _ => RT_MX | D_TXT _ => RT_TXT
  end.

Lemma len_checked_inv : forall A p n (m : M A) b a b', len_checked p n m b = Done (Ok a, b') -> m b = Done (Ok a, b').
Proof.
  intros A p n m b a b' E. unfold len_checked in E. destruct (m b) as [[[x|e] b1]|k|]; cbn [bind] in E; try discriminate.
  destruct (chk_u16 p (n * 8)%N); cbn [bind] in E; try discriminate. destruct (_ =? _)%N; [|discriminate]. exact E.
Qed.

Lemma decode_data_type : forall p t n b d b', decode_data p t n b = Done (Ok d, b') -> data_type d = t.
Proof.
  intros p t n b d b' E. destruct t; cbn [decode_data] in E; try discriminate.
  - apply bindM_ok in E as (? & ? & _ & E). unfold ret in E. injection E as <- _. reflexivity.
  - apply bindM_ok in E as (? & ? & _ & E). unfold ret in E. injection E as <- _. reflexivity.
  - apply bindM_ok in E as (? & ? & _ & E). unfold ret in E. injection E as <- _. reflexivity.
  - apply len_checked_inv in E. repeat (apply bindM_ok in E as (? & ? & _ & E)).
    unfold ret in E. injection E as <- _. reflexivity.
  - unfold decode_wks_data in E. repeat (apply bindM_ok in E as (? & ? & _ & E)).
    destruct (5 <? n)%N.
    + destruct (read_bytes_vec _ _) as [[o b1]|k|]; cbn [bind] in E; try discriminate.
      destruct o; cbn [unwrap bind] in E; [|discriminate].
      destruct (parse_wks_ports p l) as [ps|k|]; cbn [bind] in E; try discriminate. injection E as <- _. reflexivity.
    + unfold ret in E. injection E as <- _. reflexivity.
  - apply bindM_ok in E as (? & ? & _ & E). unfold ret in E. injection E as <- _. reflexivity.
  - apply len_checked_inv in E. repeat (apply bindM_ok in E as (? & ? & _ & E)).
    unfold ret in E. injection E as <- _. reflexivity.
  - apply len_checked_inv in E. repeat (apply bindM_ok in E as (? & ? & _ & E)).
    unfold ret in E. injection E as <- _. reflexivity.
  - unfold decode_txt_data in E. apply bindM_ok in E as (? & ? & _ & E).
    unfold ret in E. injection E as <- _. reflexivity.
Qed.

(** Where the fields of an accepted record lie: the owner name, then type, class and
    TTL (64 bits), the declared length (16 bits), then the data. *)
Lemma record_layout : forall p l r rec b', is_bytes l -> r <= 8 * length l ->
  decode_record p (at_ l r) = Done (Ok rec, b') ->
  exists e, dec_name p (at_ l r) = Done (Ok (r_node rec), at_ l e) /\ e + 80 <= 8 * length l /\
    r_data_len rec = rb l (e + 64) 16 /\ is_u16 (r_data_len rec) /\
    rb l e 16 = type_number (record_type rec) /\
    r_ttl rec = rb l (e + 32) 32 /\
    decode_data p (record_type rec) (r_data_len rec) (at_ l (e + 80)) = Done (Ok (r_data rec), b').
Proof.
  intros p l r rec b' Hl Hr E. rewrite decode_record_front in E.
  apply bindM_ok in E as ([[[[n t] cl] ttl] len] & b1 & E1 & E2).
  apply bindM_ok in E2 as (d & b2 & E2 & E3). unfold ret in E3. injection E3 as <- <-. cbn [r_node r_data_len r_data r_ttl].
  unfold decode_front in E1.
  apply bindM_ok in E1 as (n' & b3 & En & E1).
  assert (Hb3 : exists e, b3 = at_ l e /\ e <= 8 * length l).
  { pose proof (gen_name p True l r Hl Hr) as G. rewrite En in G. destruct G as (e & -> & He & _). now exists e. }
  destruct Hb3 as (e & -> & He). exists e.
  apply bindM_ok in E1 as (t' & b4 & Et & E1).
  apply bindM_ok in E1 as (c & b5 & Ec & E1).
  apply bindM_ok in E1 as (cl' & b6 & Ecl & E1).
  apply bindM_ok in E1 as (ttl' & b7 & Ettl & E1).
  apply bindM_ok in E1 as (len' & b8 & Elen & E1). unfold ret in E1.
  injection E1 as -> -> -> -> -> ->.
  unfold decode_rtype in Et. apply bindM_ok in Et as (x & b9 & Ex & Et).
  unfold check_end in Ex. rewrite read_u16_at in Ex by assumption.
  destruct (Nat.leb_spec (e + 16) (8 * length l)) as [H1|H1]; cbn [bind] in Ex; [|discriminate]. injection Ex as Ex <-.
  destruct (rtype_from_num x) as [t1|m] eqn:Etn.
  2:{ repeat (apply bindM_ok in Et as (? & ? & _ & Et)). discriminate. }
  destruct (negb _); [discriminate|]. unfold ret in Et. injection Et as -> <-. apply type_not in Etn.
  unfold check_end in Ec. rewrite read_u16_at in Ec by assumption.
  destruct (Nat.leb_spec (e + 16 + 16) (8 * length l)) as [H2|H2]; cbn [bind] in Ec; [|discriminate]. injection Ec as Ec <-.
  unfold lift in Ecl. injection Ecl as Ecl <-.
  unfold check_end in Ettl. rewrite read_u32_at in Ettl by assumption.
  destruct (Nat.leb_spec (e + 16 + 16 + 32) (8 * length l)) as [H3|H3]; cbn [bind] in Ettl; [|discriminate]. injection Ettl as Ettl <-.
  unfold check_end in Elen. rewrite read_u16_at in Elen by assumption.
  destruct (Nat.leb_spec (e + 16 + 16 + 32 + 16) (8 * length l)) as [H4|H4]; cbn [bind] in Elen; [|discriminate]. injection Elen as Elen <-.
  replace (e + 16 + 16 + 32 + 16) with (e + 80) in E2 by lia.
  assert (Ty : record_type (mkRec n cl ttl len d) = t).
  { apply decode_data_type in E2. rewrite <- E2. unfold record_type. cbn [r_data]. reflexivity. }
  rewrite Ty.
  split; [exact En|]. split; [lia|]. split; [rewrite <- Elen; f_equal; lia|].
  split; [rewrite <- Elen; apply (rb_bound l _ 16)|].
  split; [congruence|]. split; [rewrite <- Ettl; f_equal; lia|assumption].
Qed.

(** Debug builds: a record of one of these types is only accepted when its data takes
    exactly the declared number of bytes. *)
Theorem C18_rdlength_enforced_debug : forall l r rec b', is_bytes l -> r <= 8 * length l ->
  decode_record Debug (at_ l r) = Done (Ok rec, b') -> length_checked (record_type rec) ->
  exists e r', dec_name Debug (at_ l r) = Done (Ok (r_node rec), at_ l e) /\
    r_data_len rec = rb l (e + 64) 16 /\
    b' = at_ l r' /\ N.of_nat r' = (N.of_nat e + 80 + 8 * r_data_len rec)%N.
Proof.
  intros l r rec b' Hl Hr E Ht.
  destruct (record_layout Debug l r rec b' Hl Hr E) as (e & En & He & Elen & Hlen & _ & _ & Ed).
  destruct (data_exact Debug _ _ l (e + 80) _ _ Ht Hl He Hlen Ed) as (r' & -> & Hge & Ec).
  exists e, r'. repeat split; try assumption. unfold chk_u16 in Ec.
  destruct (_ <? _)%N; [|discriminate]. injection Ec as Ec. lia.
Qed.
Print Assumptions C18_rdlength_enforced_debug.

(** Release builds compare modulo 8192 bytes ... *)
Theorem C18_rdlength_modulo_release_partial : forall l r rec b', is_bytes l -> r <= 8 * length l ->
  decode_record Release (at_ l r) = Done (Ok rec, b') -> length_checked (record_type rec) ->
  exists e r', dec_name Release (at_ l r) = Done (Ok (r_node rec), at_ l e) /\
    r_data_len rec = rb l (e + 64) 16 /\
    b' = at_ l r' /\ N.of_nat r' = (N.of_nat e + 80 + 8 * (r_data_len rec mod 8192))%N.
Proof.
  intros l r rec b' Hl Hr E Ht.
  destruct (record_layout Release l r rec b' Hl Hr E) as (e & En & He & Elen & Hlen & _ & _ & Ed).
  destruct (data_exact Release _ _ l (e + 80) _ _ Ht Hl He Hlen Ed) as (r' & -> & Hge & Ec).
  exists e, r'. repeat split; try assumption. unfold chk_u16 in Ec. rewrite (N.mul_comm 8).
  replace (r_data_len rec mod 8192 * 8)%N with ((r_data_len rec * 8) mod 65536)%N.
  2:{ change 65536%N with (8192 * 8)%N. now rewrite N.mul_mod_distr_r by lia. }
  destruct (N.ltb_spec (r_data_len rec * 8) 65536).
  - injection Ec as Ec. rewrite N.mod_small by assumption. lia.
  - injection Ec as Ec. unfold u16 in Ec. lia.
Qed.
Print Assumptions C18_rdlength_modulo_release_partial.

(** ... so they accept an A-sized lie: an NS record whose name takes three bytes but
    whose declared length is 8195. *)
Definition lying_record : list N := [1; 97; 0; 0; 2; 0; 1; 0; 0; 0; 60; 32; 3; 1; 98; 0]%N.
Theorem C18_refuted_release_witness :
  decode_record Release (at_ lying_record 0) =
    Done (Ok (mkRec (s2b "a.") C_IN 60 8195 (D_NS (s2b "b."))), at_ lying_record 128) /\
  decode_record Debug (at_ lying_record 0) = Panic POverflow.
Proof. split; vm_compute; reflexivity. Qed.

Theorem C18_nonvacuous : exists b, decode_record Debug (at_ (wire_record ex_mx) 0) = Done (Ok (normal ex_mx), b) /\
  length_checked (record_type (normal ex_mx)).
Proof. eexists. split; [vm_compute; reflexivity|]. unfold length_checked. cbn. tauto. Qed.

(** * C27: character strings *)
Theorem C27_encode : forall s, encode_character_string s =
  if length s <=? 255 then Ok (wstring s) else Err PE_StringCharErr.
Proof.
  intros s. unfold encode_character_string, wstring.
  destruct (Nat.leb_spec (length s) 255) as [H|H].
  - replace (255 <? length s) with false by (symmetry; apply Nat.ltb_ge; lia).
    do 2 f_equal. unfold u8. apply N.mod_small. lia.
  - now replace (255 <? length s) with true by (symmetry; apply Nat.ltb_lt; lia).
Qed.
Print Assumptions C27_encode.

Theorem C27_round_trip : forall s pre post, good_string s -> is_utf8 s -> is_bytes pre -> is_bytes post ->
  decode_character_string (at_ (pre ++ wstring s ++ post) (8 * length pre)) =
  Done (Ok s, at_ (pre ++ wstring s ++ post) (8 * (length pre + length (wstring s)))).
Proof. intros s pre post H1 H2 H3 H4. now apply parses_string. Qed.
Print Assumptions C27_round_trip.

(** The decoder always returns, and what it returns is exactly the string that the
    bytes spell, which is UTF-8. *)
Theorem C27_decode : forall l k, is_bytes l -> k <= length l ->
  (forall s b', decode_character_string (at_ l (8 * k)) = Done (Ok s, b') <->
     (is_utf8 s /\ (exists rest, skipn k l = wstring s ++ rest) /\ b' = at_ l (8 * (k + length (wstring s))))) /\
  exists res b', decode_character_string (at_ l (8 * k)) = Done (res, b').
Proof.
  intros l k Hl Hk.
  assert (Hsk : is_bytes (skipn k l)) by now apply is_bytes_skipn.
  split.
  - intros s b'. split.
    + intros E. unfold decode_character_string in E.
      apply bindM_ok in E as (n & b1 & E1 & E). apply bindM_ok in E as (t & b2 & E2 & E).
      unfold check_end in E1. rewrite read_u8_at in E1 by (assumption || lia).
      destruct (Nat.leb_spec (8 * k + 8) (8 * length l)) as [H1|H1]; cbn [bind] in E1; [|discriminate].
      assert (Hb1 : b1 = at_ l (8 * (k + 1))) by (replace (8 * (k + 1)) with (8 * k + 8) by lia; congruence).
      subst b1. assert (Hn : rb l (8 * k) 8 = n) by congruence. clear E1. rename Hn into E1.
      unfold check_end in E2. rewrite read_bytes_at in E2 by (assumption || lia).
      destruct (Nat.leb_spec (8 * (k + 1) + N.to_nat n * 8) (8 * length l)) as [H2|H2]; cbn [bind] in E2; [|discriminate].
      assert (Hb2 : b2 = at_ l (8 * (k + 1) + N.to_nat n * 8)) by congruence.
      subst b2. assert (Ht : rbs l (8 * (k + 1)) (N.to_nat n) = t) by congruence. clear E2. rename Ht into E2. rewrite rb8_aligned in E1 by (assumption || lia).
      rewrite rbs_aligned in E2 by (assumption || lia).
      destruct (255 <? length t); [discriminate|]. destruct (utf8_valid t) eqn:Eu; [|discriminate].
      unfold ret in E. assert (b' = at_ l (8 * (k + 1) + N.to_nat n * 8)) by congruence. subst b'.
      injection E as <-. split; [now apply utf8_ok|].
      assert (Lt : length t = N.to_nat n) by (rewrite <- E2, firstn_length, skipn_length; lia).
      split; [|unfold wstring; cbn [length]; f_equal; lia].
      exists (skipn (k + 1 + length t) l). unfold wstring. rewrite Lt, N2Nat.id.
      assert (Es : skipn k l = n :: skipn (k + 1) l).
      { rewrite <- E1. clear -H1 Hk. revert l H1 Hk. induction k as [|k IH]; intros [|x l] H1 Hk; cbn [length] in *; try lia.
        - reflexivity.
        - cbn [skipn nth Nat.add]. apply IH; lia. }
      rewrite Es. cbn [app]. f_equal. rewrite <- (firstn_skipn (N.to_nat n) (skipn (k + 1) l)) at 1.
      rewrite E2. f_equal. rewrite skipn_add. reflexivity.
    + intros (Hu & (rest & Er) & ->).
      assert (Ht : good_string s).
      { rewrite Er in Hsk. apply is_bytes_app in Hsk as [Hw _]. inversion Hw as [|? ? H1 H2]; subst.
        split; [assumption|]. unfold is_byte in H1. lia. }
      assert (El : l = firstn k l ++ wstring s ++ rest) by (rewrite <- Er; now rewrite firstn_skipn).
      assert (Lk : length (firstn k l) = k) by (rewrite firstn_length; lia).
      rewrite Er in Hsk. apply is_bytes_app in Hsk as [_ Hrest].
      pose proof (C27_round_trip s (firstn k l) rest Ht Hu (is_bytes_firstn k l Hl) Hrest) as E.
      rewrite <- El, Lk in E. exact E.
  - destruct (quiet_bind _ _ _ (fun len => do! s := check_end (fun b => read_bytes_vec b (N.to_nat len)) in
       if 255 <? length s then fail PE_StringCharErr else if utf8_valid s then ret s else fail PE_StringCharErr)
      quiet_u8) with (l := l) (r := 8 * k) as (res & r' & E & _); [|assumption|lia|].
    { intros n. apply quiet_bind; [apply quiet_bytes|]. intros s. destruct (255 <? length s); [apply quiet_fail|].
      destruct (utf8_valid s); [apply quiet_ret|apply quiet_fail]. }
    now exists res, (at_ l r').
Qed.
Print Assumptions C27_decode.

Theorem C27_nonvacuous : good_string (s2b "hello") /\ is_utf8 (s2b "hello") /\ is_utf8 [195; 169; 226; 130; 172; 240; 159; 152; 128]%N /\
  decode_character_string (at_ (wstring (s2b "hello")) 0) = Done (Ok (s2b "hello"), at_ (wstring (s2b "hello")) 48) /\
  exists b, decode_character_string (at_ [1; 255]%N 0) = Done (Err PE_StringCharErr, b).
Proof.
  split; [split; [repeat constructor; unfold is_byte; cbn; lia|cbn; lia]|]. split; [apply utf8_ok; reflexivity|].
  split; [apply utf8_ok; reflexivity|]. split; [vm_compute; reflexivity|]. eexists. vm_compute. reflexivity.
Qed.
