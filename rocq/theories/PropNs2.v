(** C34-C38: the nameserver from bytes to bytes. *)
From Verif Require Import Base Buffer BufferSpec BufferProofs Reader Types Name NameSpec NameProofs PropName
  Codec CodecSpec CodecWrite CodecMessage CodecRead CodecSafe CodecFacts PropCodec1 PropCodec2 PropCodec3
  Zone ZoneSpec ZoneProofs NsHandler NsSpec PropNs EncodeTotal.

(** * Specification *)

(** The packet starts with a header (RFC 1035 4.1.1) the library knows the codes of. *)
Definition readable_header (l : list N) (h : header) : Prop :=
  header_ok h /\ exists rest, l = wire_header h ++ rest.

(** [on_tcp l]: the packet with its two-byte length in front (RFC 1035 4.2.2). *)
Definition on_tcp (l : list N) : list N := be16 (N.of_nat (length l)) ++ l.

(** * Reading from TCP *)
Lemma be16_read : forall n, (n < 65536)%N -> N.lor (u16 (N.shiftl (n / 256) 8)) (n mod 256) = n.
Proof.
  intros n Hn. assert (n / 256 < 256)%N by (apply N.div_lt_upper_bound; lia).
  assert (E : u16 (N.shiftl (n / 256) 8) = N.shiftl (n / 256) 8).
  { unfold u16. apply N.mod_small. rewrite N.shiftl_mul_pow2. change (2 ^ 8)%N with 256%N. lia. }
  rewrite E, N.lor_comm. change (n mod 256)%N with (n mod 2 ^ 8)%N. rewrite <- N.land_ones.
  apply N.bits_inj. intros i. rewrite N.lor_spec, N.land_spec.
  destruct (N.lt_ge_cases i 8) as [Hi|Hi].
  - rewrite N.shiftl_spec_low by assumption. rewrite N.ones_spec_low by assumption. now rewrite andb_true_r, orb_false_r.
  - rewrite N.shiftl_spec_high' by assumption. rewrite N.ones_spec_high by assumption. rewrite andb_false_r. cbn [orb].
    change 256%N with (2 ^ 8)%N. rewrite N.div_pow2_bits. now rewrite N.sub_add.
Qed.

Lemma tcp_read_be16 : forall p n s, (n < 65536)%N ->
  tcp_read p (be16 n ++ s) =
  if length s <? N.to_nat n then Done IoErr else read_message p (firstn (N.to_nat n) s).
Proof. intros p n s Hn. cbn [be16 app tcp_read]. now rewrite be16_read. Qed.

(** A request is read as exactly the announced bytes, whatever follows. *)
Theorem C38_request_framing : forall p body rest, (N.of_nat (length body) < 65536)%N ->
  tcp_read p (on_tcp body ++ rest) = read_message p body.
Proof.
  intros p body rest H. unfold on_tcp. rewrite <- app_assoc, tcp_read_be16 by lia.
  rewrite Nat2N.id, app_length. destruct (Nat.ltb_spec (length body + length rest) (length body)); [lia|].
  now rewrite firstn_app, Nat.sub_diag, firstn_all, app_nil_r.
Qed.
Print Assumptions C38_request_framing.

(** Too short a stream is given up. *)
Theorem C38_short_streams : forall p n s, (n < 65536)%N -> length s < N.to_nat n ->
  tcp_read p (be16 n ++ s) = Done IoErr.
Proof.
  intros p n s Hn Hs. rewrite tcp_read_be16 by assumption.
  destruct (Nat.ltb_spec (length s) (N.to_nat n)); [reflexivity|lia].
Qed.
Print Assumptions C38_short_streams.

(** The reply is preceded by its length, modulo 65536. *)
Theorem C38_reply_framing_modulo : forall p m body, encode_message p m = Done (Ok body) ->
  tcp_reply p m = Done (be16 (N.of_nat (length body) mod 65536) ++ body).
Proof.
  intros p m body E. unfold tcp_reply. rewrite E. cbn [bind]. f_equal. f_equal. unfold be16, u8, u16.
  assert (H : (N.of_nat (length body) mod 65536 < 65536)%N) by now apply N.mod_lt.
  revert H. generalize (N.of_nat (length body) mod 65536)%N. intros x Hx.
  rewrite N.shiftr_div_pow2. change (2 ^ 8)%N with 256%N.
  rewrite (N.mod_small (x / 256)) by (apply N.div_lt_upper_bound; lia). reflexivity.
Qed.
Print Assumptions C38_reply_framing_modulo.

Theorem C38_reply_framing_partial : forall p m body, encode_message p m = Done (Ok body) ->
  (N.of_nat (length body) < 65536)%N -> tcp_reply p m = Done (on_tcp body).
Proof.
  intros p m body E H. rewrite (C38_reply_framing_modulo _ _ _ E). unfold on_tcp.
  now rewrite N.mod_small by lia.
Qed.
Print Assumptions C38_reply_framing_partial.

(** From 65536 bytes on the announced length is wrong. *)
Theorem C38_refuted_long_replies : forall p m, message_ok m -> (65536 <= N.of_nat (length (wire_message m)))%N ->
  exists n, (n < 65536)%N /\ N.to_nat n <> length (wire_message m) /\
            tcp_reply p m = Done (be16 n ++ wire_message m).
Proof.
  intros p m Hm Hl. exists (N.of_nat (length (wire_message m)) mod 65536)%N.
  assert (H : (N.of_nat (length (wire_message m)) mod 65536 < 65536)%N) by now apply N.mod_lt.
  split; [assumption|]. split; [lia|]. apply C38_reply_framing_modulo. now apply C19_encode_message.
Qed.
Print Assumptions C38_refuted_long_replies.

(** A reply to a query for a name with 5000 A records. *)
Definition big_reply : message :=
  mkMsg (mkHeader 7 true OP_STD true false true false 0 RC_NoError 1 5000 0 0)
        [mkQ (s2b "ns.example.com.") RT_A C_IN] (repeat (a_rec (s2b "ns.example.com.") [10; 0; 0; 1]%N) 5000) [] [].

Lemma repeat_concat_length : forall (w : list N) n, length (concat (repeat w n)) = n * length w.
Proof. intros w n. induction n as [|n IH]; cbn [repeat concat]; [reflexivity|]. rewrite app_length, IH. lia. Qed.

Lemma map_repeat' : forall A B (f : A -> B) x n, map f (repeat x n) = repeat (f x) n.
Proof. intros A B f x n. induction n as [|n IH]; cbn [repeat map]; [reflexivity|now rewrite IH]. Qed.

Theorem C38_refuted_witness : message_ok big_reply /\ (65536 <= N.of_nat (length (wire_message big_reply)))%N.
Proof.
  assert (S : sendable (s2b "ns.example.com.")) by (apply sendable_b_ok; reflexivity).
  split.
  - unfold message_ok, big_reply. cbn [m_header m_questions m_answers m_authorities m_additionals].
    split; [now repeat split|]. split; [reflexivity|]. split; [unfold counts_match; cbn [m_header m_questions m_answers m_authorities m_additionals h_qd h_an h_ns h_ar]; rewrite repeat_length; repeat split; vm_compute; reflexivity|].
    split; [constructor; [|constructor]; split; [exact S|split; [now left|reflexivity]]|].
    split; [|split; constructor].
    apply Forall_forall. intros r Hr. apply repeat_spec in Hr. subst r.
    split; [exact S|]. split; [reflexivity|]. split; [reflexivity|]. split; [repeat constructor|reflexivity].
  - unfold wire_message, big_reply, wire_entries. cbn [m_header m_questions m_answers m_authorities m_additionals].
    rewrite app_length, concat_app, app_length, concat_app, app_length, map_repeat', repeat_concat_length.
    set (w := length (wire_record _)). assert (w = 30) by (vm_compute; reflexivity). lia.
Qed.
Print Assumptions C38_refuted_witness.

Theorem C38_nonvacuous : (N.of_nat (length ex_query) < 65536)%N /\
  tcp_read Debug (on_tcp ex_query ++ [1; 2; 3]%N) = read_message Debug ex_query.
Proof. split; [vm_compute; reflexivity|]. apply C38_request_framing. vm_compute; reflexivity. Qed.

(** * C35 *)
Lemma unreadable : forall p l, is_bytes l -> (forall h, ~ readable_header l h) ->
  exists e he, read_message p l = Done (ParseErr e he).
Proof.
  intros p l Hl Hno. unfold read_message.
  assert (Hn : forall h, decode_header_bytes l <> Done (Ok h)).
  { intros h E. apply C14_decode_header in E; [|assumption]. now apply (Hno h). }
  unfold decode_message. unfold decode_header_bytes in *. rewrite from_raw_at in *.
  destruct (header_aligned l Hl) as [(h & E & _)|(e & b & E)].
  - exfalso. apply (Hn h). now rewrite E.
  - rewrite E. cbn [bind]. eexists. eexists. reflexivity.
Qed.

Theorem C35_unreadable_udp : forall p zs l, is_bytes l ->
  (forall h, ~ readable_header (firstn 512 l) h) -> serve_udp p zs l = Done None.
Proof.
  intros p zs l Hl Hno. unfold serve_udp, udp_read.
  destruct (unreadable p (firstn 512 l)) as (e & he & E); [now apply is_bytes_firstn|assumption|].
  unfold MAX_UDP_LEN_BYTES. rewrite E. reflexivity.
Qed.
Print Assumptions C35_unreadable_udp.

Theorem C35_unreadable_tcp : forall p zs body rest, is_bytes body -> (N.of_nat (length body) < 65536)%N ->
  (forall h, ~ readable_header body h) -> serve_tcp p zs (on_tcp body ++ rest) = Done None.
Proof.
  intros p zs body rest Hb Hlen Hno. unfold serve_tcp. rewrite C38_request_framing by assumption.
  destruct (unreadable p body) as (e & he & E); [assumption|assumption|]. rewrite E. reflexivity.
Qed.
Print Assumptions C35_unreadable_tcp.

Theorem C35_short_stream : forall p zs s,
  length s < 2 \/ (exists n body, (n < 65536)%N /\ s = be16 n ++ body /\ length body < N.to_nat n) ->
  serve_tcp p zs s = Done None.
Proof.
  intros p zs s [H|(n & body & Hn & -> & H)]; unfold serve_tcp.
  - destruct s as [|a [|b s]]; [reflexivity|reflexivity|cbn [length] in H; lia].
  - rewrite C38_short_streams by assumption. reflexivity.
Qed.
Print Assumptions C35_short_stream.

(** Every packet of fewer than 12 bytes, and every header with op code 7. *)
Theorem C35_nonvacuous : (forall h, ~ readable_header [0; 7; 1; 0]%N h) /\
  (forall h, ~ readable_header [0; 7; 56; 0; 0; 0; 0; 0; 0; 0; 0; 0; 5]%N h).
Proof.
  split; intros h H.
  - apply C14_decode_header in H; [|repeat constructor]. vm_compute in H. discriminate H.
  - apply C14_decode_header in H; [|repeat constructor]. vm_compute in H. discriminate H.
Qed.

(** * C34 (refuted) *)
Lemma decode_err_hollow : forall p l e h, is_bytes l -> decode_message p l = Done (Err e) ->
  decode_header_bytes l = Done (Ok h) -> h_op h <> OP_STD \/ some_count h.
Proof.
  intros p l e h Hl E Eh. unfold decode_header_bytes in Eh. unfold decode_message in E. rewrite from_raw_at in *.
  destruct (decode_header (at_ l 0)) as [[r b]| |]; cbn [bind] in *; try discriminate.
  injection Eh as ->. destruct (header_is_supported h) as [[]|e'] eqn:Es.
  2:{ left. unfold header_is_supported in Es. intros Ho. rewrite Ho in Es. discriminate. }
  right. unfold some_count.
  destruct (N.eq_dec (h_qd h) 0) as [E1|]; [|tauto]. destruct (N.eq_dec (h_an h) 0) as [E2|]; [|tauto].
  destruct (N.eq_dec (h_ns h) 0) as [E3|]; [|tauto]. destruct (N.eq_dec (h_ar h) 0) as [E4|]; [|tauto].
  rewrite E1, E2, E3, E4 in E. discriminate E.
Qed.

(** Every request whose header can be read but which cannot be decoded crashes the
    thread that serves it; no reply is sent. *)
Theorem C34_refuted_udp : forall p zs l e h, is_bytes l -> length l <= 512 ->
  readable_header l h -> decode_message p l = Done (Err e) ->
  exists k, serve_udp p zs l = Panic k.
Proof.
  intros p zs l e h Hl H512 Hh E. apply C14_decode_header in Hh; [|assumption].
  unfold serve_udp, udp_read, MAX_UDP_LEN_BYTES. rewrite firstn_all2 by assumption.
  unfold read_message. rewrite E. cbn [bind]. rewrite Hh. cbn [bind handle_dns_request].
  unfold udp_reply, handle_decode_err.
  set (code := match inner_err e with PE_UnsupportedOpCode _ => _ | _ => _ end). clearbody code.
  destruct (trunc_hollow p (resp_header h code)) as (k & Ek).
  { exact (decode_err_hollow p l e h Hl E Hh). }
  rewrite Ek. exists k. reflexivity.
Qed.
Print Assumptions C34_refuted_udp.

Theorem C34_refuted_tcp : forall p zs l e h rest, is_bytes l -> (N.of_nat (length l) < 65536)%N ->
  readable_header l h -> decode_message p l = Done (Err e) ->
  exists k, serve_tcp p zs (on_tcp l ++ rest) = Panic k.
Proof.
  intros p zs l e h rest Hl Hlen Hh E. apply C14_decode_header in Hh; [|assumption].
  unfold serve_tcp. rewrite C38_request_framing by assumption.
  unfold read_message. rewrite E. cbn [bind]. rewrite Hh. cbn [bind handle_dns_request].
  unfold tcp_reply, handle_decode_err.
  set (code := match inner_err e with PE_UnsupportedOpCode _ => _ | _ => _ end). clearbody code.
  destruct (encode_hollow p (resp_header h code)) as (k & Ek).
  { exact (decode_err_hollow p l e h Hl E Hh). }
  rewrite Ek. exists k. reflexivity.
Qed.
Print Assumptions C34_refuted_tcp.

(** An inverse query; a query cut off in the middle. *)
Definition pkt_inverse : list N := [0; 7; 8; 0; 0; 0; 0; 0; 0; 0; 0; 0]%N.
Definition pkt_cut : list N := [0; 7; 0; 0; 0; 1; 0; 0; 0; 0; 0; 0; 1; 97; 0; 0]%N.
Theorem C34_refuted_witness : forall p,
  serve_udp p ex_zones pkt_inverse = Panic PAssert /\ serve_udp p ex_zones pkt_cut = Panic PIndex /\
  serve_tcp p ex_zones (on_tcp pkt_cut) = Panic PIndex.
Proof. intros []; repeat split; vm_compute; reflexivity. Qed.
Print Assumptions C34_refuted_witness.

(** What does work: a request that can be decoded but is no query gets FORMERR. *)
Lemma decoded_questions_encodable : forall p l req, is_bytes l -> decode_message p l = Done (Ok req) ->
  Forall (encodable_q p) (m_questions req) /\ h_op (m_header req) = OP_STD.
Proof.
  intros p l req Hl E. apply C20_decoded_is_supported in E as (Ho & Hq & _); [|assumption].
  split; [|assumption]. eapply Forall_impl; [|exact Hq]. intros q (H1 & H2 & H3). now apply question_encodable.
Qed.

Lemma reply_both : forall p m, encodable_message p m ->
  exists u t, udp_reply p m = Done u /\ tcp_reply p m = Done t.
Proof.
  intros p m H. destruct (encode_total p m H) as (b & Eb). destruct (encode_trunc_total p m H) as (u & Eu).
  unfold udp_reply. rewrite Eu. cbn [bind]. rewrite (C38_reply_framing_modulo p m b Eb). eexists. eexists. now split.
Qed.

Lemma read_decoded : forall p l req, decode_message p l = Done (Ok req) -> read_message p l = Done (FullMessage req).
Proof. intros p l req E. unfold read_message. now rewrite E. Qed.

Theorem C34_invalid_requests_get_formerr_partial : forall p zs l req, is_bytes l -> length l <= 512 ->
  decode_message p l = Done (Ok req) -> (forall q, ~ valid_query req q) ->
  h_qd (m_header req) = N.of_nat (length (m_questions req)) ->
  exists reply u t, handle_message p zs req = Done reply /\ h_rcode (m_header reply) = RC_FormErr /\
    mirrors req reply /\
    udp_reply p reply = Done u /\ serve_udp p zs l = Done (Some u) /\
    tcp_reply p reply = Done t /\ serve_tcp p zs (on_tcp l) = Done (Some t).
Proof.
  intros p zs l req Hl H512 E Hnv Hqd.
  assert (Em : handle_message p zs req = Done (handle_err req RC_FormErr)).
  { unfold handle_message. destruct (validate_dns_request req) as [q|] eqn:Ev; [|reflexivity].
    apply valid_spec in Ev. now apply Hnv in Ev. }
  destruct (decoded_questions_encodable p l req Hl E) as (Hq & Ho).
  destruct (reply_both p (handle_err req RC_FormErr)) as (u & t & Eu & Et).
  { unfold encodable_message, handle_err. cbn [m_header m_questions m_answers m_authorities m_additionals].
    cbn [with_counts set_aa resp_header h_op h_qd h_an h_ns h_ar]. rewrite Hqd, Nat2N.id. cbn [length].
    repeat (split; [first [assumption|constructor|lia]|]); lia. }
  exists (handle_err req RC_FormErr), u, t. split; [assumption|]. split; [reflexivity|].
  split; [now apply (C28_reply_mirrors_request p zs)|]. split; [assumption|].
  split; [|split; [assumption|]].
  - unfold serve_udp, udp_read, MAX_UDP_LEN_BYTES. rewrite firstn_all2 by assumption.
    rewrite (read_decoded p l req E). cbn [bind handle_dns_request]. rewrite Em. cbn [bind]. rewrite Eu. reflexivity.
  - unfold serve_tcp. rewrite <- (app_nil_r (on_tcp l)), C38_request_framing by lia.
    rewrite (read_decoded p l req E). cbn [bind handle_dns_request]. rewrite Em. cbn [bind]. rewrite Et. reflexivity.
Qed.
Print Assumptions C34_invalid_requests_get_formerr_partial.

(** A packet with no question at all. *)
Theorem C34_partial_nonvacuous : exists req, decode_message Debug [0; 7; 1; 0; 0; 0; 0; 0; 0; 0; 0; 0]%N = Done (Ok req) /\
  (forall q, ~ valid_query req q) /\ h_qd (m_header req) = N.of_nat (length (m_questions req)).
Proof.
  eexists. split; [vm_compute; reflexivity|]. split; [|reflexivity]. intros q (_ & _ & _ & H). discriminate H.
Qed.

(** * C36 (refuted) *)
Definition unknown_query (h : header) (u : unknown_question) : list N := wire_items h [Q_unknown u] [] [] [].
Definition plain_query_header (h : header) : Prop :=
  header_ok h /\ h_qr h = false /\ h_op h = OP_STD /\ h_qd h = 1%N /\ h_an h = 0%N /\ h_ns h = 0%N /\ h_ar h = 0%N.

Lemma unknown_query_decodes : forall p h u, plain_query_header h -> q_item_ok (Q_unknown u) ->
  decode_message p (unknown_query h u) = Done (Ok (mkMsg h [] [] [] [])).
Proof.
  intros p h u (Hh & Hqr & Hop & H1 & H2 & H3 & H4) Hu.
  pose proof (C21_unknown_types_skipped p h [Q_unknown u] [] [] [] []) as E. rewrite app_nil_r in E.
  unfold unknown_query. rewrite E; try assumption; try (constructor; fail); try reflexivity.
  apply Forall_cons; [exact Hu|apply Forall_nil].
Qed.

Theorem C36_refuted_unknown_types_crash : forall p zs h u, plain_query_header h -> q_item_ok (Q_unknown u) ->
  length (unknown_query h u) <= 512 ->
  serve_udp p zs (unknown_query h u) = Panic PIndex /\ serve_tcp p zs (on_tcp (unknown_query h u)) = Panic PIndex.
Proof.
  intros p zs h u Hh Hu Hlen. pose proof (unknown_query_decodes p h u Hh Hu) as E.
  destruct Hh as (Hh & Hqr & Hop & H1 & H2 & H3 & H4).
  assert (Em : handle_message p zs (mkMsg h [] [] [] []) = Done (handle_err (mkMsg h [] [] [] []) RC_FormErr)).
  { unfold handle_message, validate_dns_request. cbn [m_header m_questions]. now rewrite Hqr, H2, H3. }
  split.
  - unfold serve_udp, udp_read, MAX_UDP_LEN_BYTES. rewrite firstn_all2 by assumption.
    rewrite (read_decoded _ _ _ E). cbn [bind handle_dns_request]. rewrite Em. cbn [bind].
    unfold udp_reply, handle_err, encode_message_trunc. destruct zeros_bytes as (_ & Ez). rewrite Ez.
    cbn [bind m_header m_questions with_counts set_aa resp_header h_qd]. rewrite H1. reflexivity.
  - unfold serve_tcp. rewrite <- (app_nil_r (on_tcp _)), C38_request_framing by lia.
    rewrite (read_decoded _ _ _ E). cbn [bind handle_dns_request]. rewrite Em. cbn [bind].
    unfold tcp_reply, handle_err, encode_message.
    cbn [m_header m_questions with_counts set_aa resp_header h_qd].
    rewrite encode_header_new_raw by (cbn [h_op with_counts set_aa resp_header m_header]; now rewrite Hop). cbn [bind h_qd]. rewrite H1. reflexivity.
Qed.
Print Assumptions C36_refuted_unknown_types_crash.

(** AAAA (28) for www.example.com. *)
Definition ex_q_header : header := mkHeader 7 false OP_STD false false true false 0 RC_NoError 1 0 0 0.
Theorem C36_refuted_witness : plain_query_header ex_q_header /\ q_item_ok (Q_unknown (mkUQ (s2b "www.example.com.") 28 1)) /\
  length (unknown_query ex_q_header (mkUQ (s2b "www.example.com.") 28 1)) <= 512.
Proof.
  split; [now repeat split|]. split.
  - split; [apply sendable_b_ok; reflexivity|]. split; [reflexivity|]. split; [|reflexivity].
    intros (t & Ht). now destruct t.
  - vm_compute. lia.
Qed.
Print Assumptions C36_refuted_witness.

(** * C37 *)
Definition all_short (sd : server_data) : Prop :=
  Forall short_strings (d_records (s_auth sd)) /\ Forall (fun d => Forall short_strings (d_records d)) (s_subs sd).

Lemma owned_sub : forall n t rs (P : record -> Prop), Forall P rs -> Forall P (owned n t rs).
Proof.
  intros n t rs P H. apply Forall_forall. intros r Hr. apply filter_In in Hr as (Hr & _).
  rewrite Forall_forall in H. now apply H.
Qed.
Lemma fine_short : forall p rs, Forall record_fine rs -> Forall short_strings rs -> Forall (encodable_r p) rs.
Proof.
  intros p rs H1 H2. rewrite Forall_forall in *. intros r Hr. apply record_fine_encodable; auto.
Qed.

Lemma counts_encodable : forall p req q reply rc aa ans aus ads,
  valid_query req q -> encodable_q p q -> h_op (m_header req) = OP_STD ->
  mirrors req reply -> says reply rc aa ans aus ads -> counts_say reply 1 ->
  Forall (encodable_r p) ans -> Forall (encodable_r p) aus -> Forall (encodable_r p) ads ->
  encodable_message p reply.
Proof.
  intros p req q reply rc aa ans aus ads (_ & _ & _ & Hq) Hqe Ho (_ & Mo & _ & _ & _ & _ & Mq)
    (_ & _ & S1 & S2 & S3) (C1 & C2 & C3 & C4) F1 F2 F3.
  assert (L : forall n, N.to_nat (N.of_nat n mod 65536) <= n).
  { intros n. pose proof (N.mod_le (N.of_nat n) 65536 ltac:(lia)). lia. }
  unfold encodable_message. rewrite Mo, Mq, Hq, S1, S2, S3, C1, C2, C3, C4, S1, S2, S3.
  repeat split; auto.
Qed.

Lemma valid_query_reply_encodable : forall p zs sd req q,
  serves zs sd -> zone_loaded sd -> all_short sd -> valid_query req q ->
  accepted (q_node q) -> q_class q = C_IN -> usable_type (q_type q) -> h_op (m_header req) = OP_STD ->
  h_qd (m_header req) = 1%N ->
  exists reply, handle_message p zs req = Done reply /\ encodable_message p reply.
Proof.
  intros p zs sd req q Hs Hl (Hsa & Hss) Hv Hq Hc Ht Ho H1.
  pose proof (question_encodable p q Hq Hc Ht) as Hqe.
  pose proof Hl as (Hap & Hsoa & Hns & Hfa & Hfs & Htidy). pose proof Hap as (Ha1 & Ha2).
  pose proof (fine_short p _ Hfa Hsa) as Hea.
  assert (Hes : Forall (fun d => Forall (encodable_r p) (d_records d)) (s_subs sd)).
  { rewrite Forall_forall in *. intros d Hd. apply fine_short; auto. }
  destruct (is_in_zone (q_node q) (d_apex (s_auth sd))) eqn:Ein.
  2:{ apply within_false in Ein; try assumption.
      destruct (C29_outside_is_refused p zs sd req q) as (r & Er & S & C & M); try assumption.
      exists r. split; [assumption|]. rewrite H1 in C. eapply counts_encodable; eauto; constructor. }
  apply within_ok in Ein; try assumption.
  pose proof (find_subzone_spec (q_node q) zs sd Hq Hs Hap) as F.
  destruct (find_subzone _ _) as [s|].
  { destruct F as (d & Hd & _).
    destruct (C30_sub_zone_is_delegated p zs sd req q d) as (r & Er & S & C & M); try assumption.
    exists r. split; [assumption|]. eapply counts_encodable; eauto.
    - apply owned_sub. exact (Forall_first_sub _ _ _ _ Hes Hd).
    - apply Forall_flat_map. apply Forall_forall. intros n _. unfold glue. apply Forall_flat_map.
      eapply Forall_impl; [|exact Hes]. intros d' Hd'. now apply owned_sub. }
  destruct (wanted (q_node q) (q_type q) (d_records (s_auth sd))) as [|w ws] eqn:Ew.
  - destruct (C32_negative_answer p zs sd req q) as (r & soa & Esoa & Er & S & C & M); try assumption.
    exists r. split; [assumption|]. rewrite H1 in C. eapply counts_encodable; eauto.
    constructor; [|constructor].
    pose proof (owned_sub (d_apex (s_auth sd)) RT_SOA _ _ Hea) as Hso.
    destruct (owned _ RT_SOA _) as [|x l]; [discriminate|]. injection Esoa as ->. now inversion Hso.
  - destruct (C31_authoritative_answer p zs sd req q) as (r & Er & S & C & M); try assumption.
    + rewrite Ew. discriminate.
    + exists r. split; [assumption|]. eapply counts_encodable; eauto.
      unfold wanted in *. pose proof (owned_sub (q_node q) (q_type q) _ _ Hea) as W1.
      pose proof (owned_sub (q_node q) RT_CNAME _ _ Hea) as W2.
      destruct (owned (q_node q) (q_type q) _); assumption.
Qed.

(** A query on the wire. *)
Definition query_packet (p : profile) (l : list N) (req : message) (q : question) : Prop :=
  is_bytes l /\ length l <= 512 /\ decode_message p l = Done (Ok req) /\ valid_query req q /\ h_qd (m_header req) = 1%N.

(** For loaded zones without over-long character strings: the reply is computed and sent
    on both transports. *)
Theorem C37_valid_queries_are_answered_partial : forall p zs sd l req q,
  serves zs sd -> zone_loaded sd -> all_short sd -> query_packet p l req q ->
  exists reply u t, handle_message p zs req = Done reply /\
    udp_reply p reply = Done u /\ serve_udp p zs l = Done (Some u) /\
    tcp_reply p reply = Done t /\ serve_tcp p zs (on_tcp l) = Done (Some t).
Proof.
  intros p zs sd l req q Hs Hl Hsh (Hb & H512 & E & Hv & H1).
  pose proof (C20_decoded_is_supported p l req Hb E) as (Ho & Hq & _).
  pose proof Hv as (_ & _ & _ & Eq). rewrite Eq in Hq. inversion Hq as [|? ? (Q1 & Q2 & Q3) _]; subst.
  destruct (valid_query_reply_encodable p zs sd req q) as (reply & Em & Hen); try assumption.
  destruct (reply_both p reply Hen) as (u & t & Eu & Et).
  exists reply, u, t. split; [assumption|]. split; [assumption|]. split; [|split; [assumption|]].
  - unfold serve_udp, udp_read, MAX_UDP_LEN_BYTES. rewrite firstn_all2 by assumption.
    rewrite (read_decoded p l req E). cbn [bind handle_dns_request]. rewrite Em. cbn [bind]. rewrite Eu. reflexivity.
  - unfold serve_tcp. rewrite <- (app_nil_r (on_tcp l)), C38_request_framing by lia.
    rewrite (read_decoded p l req E). cbn [bind handle_dns_request]. rewrite Em. cbn [bind]. rewrite Et. reflexivity.
Qed.
Print Assumptions C37_valid_queries_are_answered_partial.

Definition ex_query_bytes (n : name) (t : rtype) : list N := wire_message (ex_req n t).

Theorem C37_partial_nonvacuous : serves ex_zones ex_data /\ zone_loaded ex_data /\ all_short ex_data /\
  query_packet Debug (ex_query_bytes (s2b "ns.example.com.") RT_A) (ex_req (s2b "ns.example.com.") RT_A)
    (mkQ (s2b "ns.example.com.") RT_A C_IN).
Proof.
  split; [apply ex_serves|]. split; [apply ex_loaded|]. split.
  - split; repeat constructor.
  - split; [|split; [|split; [|split; [apply ex_valid|reflexivity]]]].
    + repeat (apply Forall_cons; [reflexivity|]). constructor.
    + vm_compute. lia.
    + vm_compute. reflexivity.
Qed.

(** One TXT string of 256 bytes among the answers is enough to crash the worker. *)
Definition ex_txt_zones : managed :=
  mkManaged (ex_zone ex_apex (ex_auth_records ++ [mkRec (s2b "txt.example.com.") C_IN 3600 0 (D_TXT [repeat 97%N 256])])) [].
Theorem C37_refuted_long_txt : forall p,
  serve_udp p ex_txt_zones (ex_query_bytes (s2b "txt.example.com.") RT_TXT) = Panic PUnwrap /\
  serve_tcp p ex_txt_zones (on_tcp (ex_query_bytes (s2b "txt.example.com.") RT_TXT)) = Panic PUnwrap.
Proof. intros []; split; vm_compute; reflexivity. Qed.
Print Assumptions C37_refuted_long_txt.
