(** C63, C68-C70: the resolver's replies. *)
From Verif Require Import Base Types Name NameSpec NameProofs Buffer Reader Codec CodecSpec CodecWrite CodecMessage CodecFacts PropCodec1 PropCodec2 PropCodec3 EncodeTotal Zone ZoneSpec NsHandler NsSpec PropNs PropNs2
  Cache Resolver ResolverLists ResolverSpec ResolverInv ResolverRun ResolverFacts ResolverFuel ResolverEx PropResolver1 PropResolver2 PropResolver3 Trace TraceSpec PropTrace RsHandler.

(** A reply made for a request: same id, op code, recursion wish and questions; a
    response, not authoritative, recursion available, Z zero. *)
Definition mirrors_rec (req reply : message) : Prop :=
  let h := m_header req in let h' := m_header reply in
  h_id h' = h_id h /\ h_op h' = h_op h /\ h_rd h' = h_rd h /\ h_qr h' = true /\ h_aa h' = false /\ h_ra h' = true /\
  h_z h' = 0%N /\ m_questions reply = m_questions req.
(** What the resolver accepts as a query: no response, one question announced, no answers
    and authorities. *)
Definition asks (req : message) : Prop :=
  let h := m_header req in h_qr h = false /\ h_qd h = 1%N /\ h_an h = 0%N /\ h_ns h = 0%N.

Lemma validate_asks : forall req, rs_validate req = true <-> asks req.
Proof.
  intros req. unfold rs_validate, asks. destruct (h_qr (m_header req)); [split; [discriminate|now intros (H & _)]|].
  destruct (N.eqb_spec (h_qd (m_header req)) 1) as [->|N1]; cbn [negb]; [|split; [discriminate|tauto]].
  destruct (N.eqb_spec (h_an (m_header req)) 0) as [->|N2]; cbn [negb]; [|split; [discriminate|tauto]].
  destruct (N.eqb_spec (h_ns (m_header req)) 0) as [->|N3]; cbn [negb]; [|split; [discriminate|tauto]]. tauto.
Qed.

(** The reply to the outcome of a lookup. *)
Definition reports (r : result response lerr) (reply : message) : Prop :=
  match r with
  | Err _ => says reply RC_ServFail false [] [] []
  | Ok x => if x_none x then says reply RC_NxDomain false [] [] []
            else says reply RC_NoError false (x_answers x) (x_authorities x) (x_additionals x)
  end.

Lemma reply_reports : forall req r, mirrors_rec req (rs_reply_to req r) /\ counts_say (rs_reply_to req r) (h_qd (m_header req)) /\ reports r (rs_reply_to req r).
Proof. intros req [x|e]; unfold rs_reply_to, reports; [destruct (x_none x)|]; repeat split. Qed.

(** Every reply to a decoded request mirrors it, its counts are those of its sections, and
    it is FORMERR for what is no query, otherwise what the lookup of the question says. *)
Theorem C63_reply_mirrors_request : forall p lg env fuel conf req w reply w',
  rs_handle_message p lg env fuel conf req w = (Done reply, w') ->
  mirrors_rec req reply /\ counts_say reply (h_qd (m_header req)) /\
  ((~ asks req /\ w' = w /\ says reply RC_FormErr false [] [] []) \/
   (asks req /\ exists q qs l r, m_questions req = q :: qs /\
      perform p env fuel (new_lookup conf (q_node q) (q_type q), w) = (Done r, (l, w')) /\ reports r reply)).
Proof.
  intros p lg env fuel conf req w reply w' H. unfold rs_handle_message in H. destruct (rs_validate req) eqn:Ev.
  - unfold wbind at 1 in H. unfold wexec, index in H. destruct (m_questions req) as [|q qs] eqn:Eq; cbn [nth_error] in H; [discriminate|].
    unfold rs_handle_query in H. unfold wbind, wexec, index in H. rewrite Eq in H. cbn [nth_error] in H.
    destruct (perform p env fuel (new_lookup conf (q_node q) (q_type q), w)) as [[r|k|] [l w1]] eqn:E; try discriminate.
    destruct (log_trace p lg (l_trace l)) as [o|k|]; cbn [bind] in H; try discriminate.
    assert (X : reply = rs_reply_to req r /\ w' = w1) by (split; congruence). destruct X as (-> & ->).
    destruct (reply_reports req r) as (R1 & R2 & R3). split; [exact R1|]. split; [exact R2|]. right. split; [now apply validate_asks|].
    exists q, qs, l, r. now repeat split.
  - unfold wret in H. assert (X : reply = rs_handle_err req RC_FormErr /\ w' = w) by (split; congruence). destruct X as (-> & ->).
    split; [now repeat split|]. split; [now repeat split|]. left. split; [|now repeat split]. intros A. apply validate_asks in A. congruence.
Qed.
Print Assumptions C63_reply_mirrors_request.

(** Whatever is sent is the encoding of such a reply to what was received. (Requests that
    cannot be decoded get none: C68.) *)
Lemma decoded_err_crashes : forall p l e h, is_bytes l -> decode_message p l = Done (Err e) -> decode_header_bytes l = Done (Ok h) ->
  exists k k', udp_reply p (rs_handle_decode_err h e) = Panic k /\ tcp_reply p (rs_handle_decode_err h e) = Panic k'.
Proof.
  intros p l e h Hl E Hh. unfold rs_handle_decode_err.
  set (code := match inner_err e with PE_UnsupportedOpCode _ => _ | _ => _ end). clearbody code.
  assert (Hollow : h_op (rs_resp_header h code) <> OP_STD \/ some_count (rs_resp_header h code)) by exact (decode_err_hollow p l e h Hl E Hh).
  destruct (trunc_hollow p (rs_resp_header h code) Hollow) as (k & Ek). destruct (encode_hollow p (rs_resp_header h code) Hollow) as (k' & Ek').
  exists k, k'. unfold udp_reply, tcp_reply. rewrite Ek, Ek'. now split.
Qed.

Lemma serve_sent : forall p lg env fuel conf l reply w out w', is_bytes l -> (reply = udp_reply p \/ reply = tcp_reply p) ->
  rs_serve p lg env fuel conf (read_message p l) reply w = (Done (Some out), w') ->
  exists req m, decode_message p l = Done (Ok req) /\ rs_handle_message p lg env fuel conf req w = (Done m, w') /\ reply m = Done out.
Proof.
  intros p lg env fuel conf l reply w out w' Hl Hr H. unfold rs_serve in H. unfold wbind at 1, wexec at 1 in H. unfold read_message in H.
  destruct (decode_message p l) as [[req|e]|k|] eqn:E; cbn [bind] in H; try discriminate.
  - unfold rs_handle_request, wbind, wret, wexec in H. destruct (rs_handle_message p lg env fuel conf req w) as [[m|k|] w1] eqn:Em; try discriminate.
    destruct (reply m) as [out'|k|] eqn:Er; try discriminate. exists req, m.
    assert (X : w1 = w' /\ out' = out) by (split; congruence). destruct X as (-> & ->). now repeat split.
  - destruct (decode_header_bytes l) as [[h|he]|k|] eqn:Eh; cbn [bind] in H; try discriminate.
    destruct (decoded_err_crashes p l e h Hl E Eh) as (k & k' & E1 & E2).
    unfold rs_handle_request, wbind, wret, wexec in H. destruct Hr as [-> | ->]; [rewrite E1 in H|rewrite E2 in H]; discriminate H.
Qed.
Theorem C63_what_is_sent_udp : forall p lg env fuel conf l w out w', is_bytes l -> length l <= 512 ->
  rs_serve_udp p lg env fuel conf l w = (Done (Some out), w') ->
  exists req m, decode_message p l = Done (Ok req) /\ rs_handle_message p lg env fuel conf req w = (Done m, w') /\ encode_message_trunc p m = Done (Ok out).
Proof.
  intros p lg env fuel conf l w out w' Hl H5 H. unfold rs_serve_udp, udp_read, MAX_UDP_LEN_BYTES in H. rewrite firstn_all2 in H by assumption.
  destruct (serve_sent p lg env fuel conf l (udp_reply p) w out w' Hl (or_introl eq_refl) H) as (req & m & E1 & E2 & E3). exists req, m. split; [exact E1|]. split; [exact E2|].
  unfold udp_reply in E3. destruct (encode_message_trunc p m) as [[x|e]|k|]; cbn [bind] in E3; congruence.
Qed.
Print Assumptions C63_what_is_sent_udp.
Theorem C63_what_is_sent_tcp : forall p lg env fuel conf l rest w out w', is_bytes l -> (N.of_nat (length l) < 65536)%N ->
  rs_serve_tcp p lg env fuel conf (on_tcp l ++ rest) w = (Done (Some out), w') ->
  exists req m body, decode_message p l = Done (Ok req) /\ rs_handle_message p lg env fuel conf req w = (Done m, w') /\
    encode_message p m = Done (Ok body) /\ out = be16 (N.of_nat (length body) mod 65536) ++ body.
Proof.
  intros p lg env fuel conf l rest w out w' Hl H6 H. unfold rs_serve_tcp in H. rewrite C38_request_framing in H by assumption.
  destruct (serve_sent p lg env fuel conf l (tcp_reply p) w out w' Hl (or_intror eq_refl) H) as (req & m & E1 & E2 & E3).
  destruct (encode_message p m) as [[body|e]|k|] eqn:Eb; [|unfold tcp_reply in E3; rewrite Eb in E3; discriminate..].
  exists req, m, body. split; [exact E1|]. split; [exact E2|]. split; [exact Eb|]. rewrite (C38_reply_framing_modulo p m body Eb) in E3. congruence.
Qed.
Print Assumptions C63_what_is_sent_tcp.

Lemma section_count : forall A (enc : A -> M unit) mk items n i b b', encode_section enc mk items i n b = Done (Ok b') -> n = 0 \/ i + n <= length items.
Proof.
  intros A enc mk items. induction n as [|n IH]; intros i b b' E; [now left|]. right. cbn [encode_section] in E.
  unfold index in E. destruct (nth_error items i) as [x|] eqn:Ex; cbn [bind] in E; [|discriminate E].
  assert (Li : i < length items) by (apply nth_error_Some; congruence).
  destruct (enc x b) as [[[u|e] b1]|k|]; cbn [bind] in E; try discriminate E. apply IH in E. lia.
Qed.

(** The counts of what is sent over TCP are the numbers of entries in its sections (below
    65536 entries): one question for a query, the number of questions otherwise. *)
Theorem C63_counts_are_exact : forall p lg env fuel conf l req w m w' body, is_bytes l ->
  decode_message p l = Done (Ok req) -> rs_handle_message p lg env fuel conf req w = (Done m, w') -> encode_message p m = Done (Ok body) ->
  Forall (fun n => (N.of_nat n < 65536)%N) [length (m_answers m); length (m_authorities m); length (m_additionals m)] ->
  h_qd (m_header m) = N.of_nat (length (m_questions m)) /\ h_an (m_header m) = N.of_nat (length (m_answers m)) /\
  h_ns (m_header m) = N.of_nat (length (m_authorities m)) /\ h_ar (m_header m) = N.of_nat (length (m_additionals m)).
Proof.
  intros p lg env fuel conf l req w m w' body Hl Ed Em Eb Hs. apply C63_reply_mirrors_request in Em as ((_ & _ & _ & _ & _ & _ & _ & Mq) & (C1 & C2 & C3 & C4) & _).
  assert (L : forall n, (N.of_nat n < 65536)%N -> (N.of_nat n mod 65536 = N.of_nat n)%N) by (intros n H; now apply N.mod_small).
  inversion Hs as [|? ? S1 Hs1]; subst. inversion Hs1 as [|? ? S2 Hs2]; subst. inversion Hs2 as [|? ? S3 _]; subst.
  rewrite C2, C3, C4, !L by assumption. split; [|now repeat split]. rewrite C1, Mq.
  pose proof (C20_decoded_is_supported p l req Hl Ed) as (Ho & Hq & _ & Lq & _).
  destruct (Nat.eq_dec (N.to_nat (h_qd (m_header req))) (length (m_questions req))) as [E|E]; [lia|].
  exfalso. unfold encode_message in Eb. destruct (encode_header (m_header m) new_buf) as [[u b0]|k|]; cbn [bind] in Eb; try discriminate Eb.
  destruct (encode_section (encode_question p) ME_Question (m_questions m) 0 (N.to_nat (h_qd (m_header m))) b0) as [[b1|e]|k|] eqn:E1; cbn [bindR bind] in Eb; try discriminate Eb.
  apply section_count in E1. rewrite C1, Mq in E1. lia.
Qed.
Print Assumptions C63_counts_are_exact.

(** * C68 (refuted): the same defect as C34. *)
Lemma serve_done : forall p lg env fuel conf l reply w req m w' out, decode_message p l = Done (Ok req) ->
  rs_handle_message p lg env fuel conf req w = (Done m, w') -> reply m = Done out ->
  rs_serve p lg env fuel conf (read_message p l) reply w = (Done (Some out), w').
Proof.
  intros p lg env fuel conf l reply w req m w' out E Em Er. unfold rs_serve. rewrite (read_decoded p l req E). unfold wbind at 1, wexec at 1.
  unfold rs_handle_request, wbind at 1. unfold wbind at 1. rewrite Em. unfold wret at 1. unfold wbind, wexec. rewrite Er. reflexivity.
Qed.
Lemma serve_header_only : forall p lg env fuel conf l reply w e h k, decode_message p l = Done (Err e) -> decode_header_bytes l = Done (Ok h) ->
  reply (rs_handle_decode_err h e) = Panic k -> rs_serve p lg env fuel conf (read_message p l) reply w = (Panic k, w).
Proof.
  intros p lg env fuel conf l reply w e h k E Eh Er. unfold rs_serve, read_message. rewrite E. cbn [bind]. rewrite Eh. cbn [bind].
  unfold wbind, wexec, rs_handle_request, wret. rewrite Er. reflexivity.
Qed.
Theorem C68_refuted : forall p lg env fuel conf l e h rest w, is_bytes l -> length l <= 512 ->
  readable_header l h -> decode_message p l = Done (Err e) ->
  (exists k, rs_serve_udp p lg env fuel conf l w = (Panic k, w)) /\ (exists k, rs_serve_tcp p lg env fuel conf (on_tcp l ++ rest) w = (Panic k, w)).
Proof.
  intros p lg env fuel conf l e h rest w Hl H512 Hh E. apply C14_decode_header in Hh; [|assumption].
  destruct (decoded_err_crashes p l e h Hl E Hh) as (k & k' & E1 & E2). split.
  - exists k. unfold rs_serve_udp, udp_read, MAX_UDP_LEN_BYTES. rewrite firstn_all2 by assumption. now apply (serve_header_only p lg env fuel conf l _ w e h).
  - exists k'. unfold rs_serve_tcp. rewrite C38_request_framing by lia. now apply (serve_header_only p lg env fuel conf l _ w e h).
Qed.
Print Assumptions C68_refuted.
Theorem C68_refuted_witness : forall p lg, fst (rs_serve_udp p lg env_nope 6 conf0 pkt_inverse world0) = Panic PAssert /\ fst (rs_serve_udp p lg env_nope 6 conf0 pkt_cut world0) = Panic PIndex /\
  fst (rs_serve_tcp p lg env_nope 6 conf0 (on_tcp pkt_cut) world0) = Panic PIndex.
Proof. intros []; repeat split; vm_compute; reflexivity. Qed.
Print Assumptions C68_refuted_witness.

(** What does work: a request that can be decoded but is no query gets FORMERR. *)
Theorem C68_invalid_requests_get_formerr_partial : forall p lg env fuel conf l req w, is_bytes l -> length l <= 512 ->
  decode_message p l = Done (Ok req) -> ~ asks req -> h_qd (m_header req) = N.of_nat (length (m_questions req)) ->
  exists reply u t, mirrors_rec req reply /\ says reply RC_FormErr false [] [] [] /\
    encode_message_trunc p reply = Done (Ok u) /\ rs_serve_udp p lg env fuel conf l w = (Done (Some u), w) /\
    tcp_reply p reply = Done t /\ rs_serve_tcp p lg env fuel conf (on_tcp l) w = (Done (Some t), w).
Proof.
  intros p lg env fuel conf l req w Hl H512 E Hnv Hqd.
  assert (Em : rs_handle_message p lg env fuel conf req w = (Done (rs_handle_err req RC_FormErr), w)).
  { unfold rs_handle_message. destruct (rs_validate req) eqn:Ev; [|reflexivity]. now apply validate_asks in Ev. }
  destruct (decoded_questions_encodable p l req Hl E) as (Hq & Ho).
  destruct (reply_both p (rs_handle_err req RC_FormErr)) as (u & t & Eu & Et).
  { unfold encodable_message, rs_handle_err. cbn [m_header m_questions m_answers m_authorities m_additionals].
    cbn [with_counts rs_resp_header h_op h_qd h_an h_ns h_ar]. rewrite Hqd, Nat2N.id. cbn [length].
    repeat (split; [first [assumption|constructor|lia]|]); lia. }
  exists (rs_handle_err req RC_FormErr), u, t. split; [now repeat split|]. split; [now repeat split|].
  split; [unfold udp_reply in Eu; destruct (encode_message_trunc p (rs_handle_err req RC_FormErr)) as [[x|e]|k|]; cbn [bind] in Eu; congruence|].
  split; [|split; [exact Et|]].
  - unfold rs_serve_udp, udp_read, MAX_UDP_LEN_BYTES. rewrite firstn_all2 by assumption. exact (serve_done p lg env fuel conf l _ w req _ w u E Em Eu).
  - unfold rs_serve_tcp. rewrite <- (app_nil_r (on_tcp l)), C38_request_framing by lia. exact (serve_done p lg env fuel conf l _ w req _ w t E Em Et).
Qed.
Print Assumptions C68_invalid_requests_get_formerr_partial.
Theorem C68_partial_nonvacuous : exists req, decode_message Debug [0; 7; 1; 0; 0; 0; 0; 0; 0; 0; 0; 0]%N = Done (Ok req) /\
  ~ asks req /\ h_qd (m_header req) = N.of_nat (length (m_questions req)).
Proof. eexists. split; [vm_compute; reflexivity|]. split; [|reflexivity]. intros (_ & H & _). discriminate H. Qed.

(** Packets whose header cannot be read get no reply. *)
Theorem C68_unreadable_requests_are_dropped : forall p lg env fuel conf l w, is_bytes l -> length l <= 512 -> (forall h, ~ readable_header l h) ->
  rs_serve_udp p lg env fuel conf l w = (Done None, w) /\ rs_serve_tcp p lg env fuel conf (on_tcp l) w = (Done None, w).
Proof.
  intros p lg env fuel conf l w Hl H512 Hh. pose proof (unreadable p l Hl Hh) as U. split.
  - unfold rs_serve_udp, udp_read, MAX_UDP_LEN_BYTES, rs_serve. rewrite firstn_all2 by assumption. destruct U as (a & b & ->). reflexivity.
  - unfold rs_serve_tcp. rewrite <- (app_nil_r (on_tcp l)), C38_request_framing by lia. unfold rs_serve. destruct U as (a & b & ->). reflexivity.
Qed.
Print Assumptions C68_unreadable_requests_are_dropped.

(** * C69 (refuted): the same cause as C36; here it is the question that is missing. *)
Theorem C69_refuted_unknown_types_crash : forall p lg env fuel conf h u w, plain_query_header h -> q_item_ok (Q_unknown u) ->
  length (unknown_query h u) <= 512 ->
  rs_serve_udp p lg env fuel conf (unknown_query h u) w = (Panic PIndex, w) /\ rs_serve_tcp p lg env fuel conf (on_tcp (unknown_query h u)) w = (Panic PIndex, w).
Proof.
  intros p lg env fuel conf h u w Hh Hu Hlen. pose proof (unknown_query_decodes p h u Hh Hu) as E.
  destruct Hh as (Hh & Hqr & Hop & H1 & H2 & H3 & H4).
  assert (Em : rs_handle_message p lg env fuel conf (mkMsg h [] [] [] []) w = (Panic PIndex, w)).
  { unfold rs_handle_message, rs_validate. cbn [m_header m_questions]. rewrite Hqr, H1, H2, H3. reflexivity. }
  assert (R : forall reply, rs_serve p lg env fuel conf (read_message p (unknown_query h u)) reply w = (Panic PIndex, w)).
  { intros reply. unfold rs_serve. rewrite (read_decoded _ _ _ E). unfold wbind at 1, wexec at 1. unfold rs_handle_request. unfold wbind at 1. unfold wbind at 1. rewrite Em. reflexivity. }
  split.
  - unfold rs_serve_udp, udp_read, MAX_UDP_LEN_BYTES. rewrite firstn_all2 by assumption. apply R.
  - unfold rs_serve_tcp. rewrite <- (app_nil_r (on_tcp _)), C38_request_framing by lia. apply R.
Qed.
Print Assumptions C69_refuted_unknown_types_crash.

(** * C70 *)
(** Upstream servers whose packets can be decoded without panic and in finite time, that
    deny only names in [denied], none of which is a name server's; and cache accesses that
    take less than a second. *)
Record calm_upstream (p : profile) (env : environment) (denied : name -> Prop) : Prop := mkCalm {
  cu_env : env_ok (serving denied) env;
  cu_decode : forall n a x d, ev_net (env n) a x = Some d -> exists r, decode_message p (firstn 512 d) = Done r;
  cu_deny : forall n a x d m, ev_net (env n) a x = Some d -> decode_message p (firstn 512 d) = Done (Ok m) -> h_id (m_header m) = ev_id (env n) ->
     h_rcode (m_header m) = RC_NxDomain -> h_aa (m_header m) = true ->
     forall name type, encode_message p (build_dns_request (ev_id (env n)) name type) = Done (Ok x) -> denied name;
  cu_servers : forall n a x d m r t, ev_net (env n) a x = Some d -> decode_message p (firstn 512 d) = Done (Ok m) -> h_id (m_header m) = ev_id (env n) ->
     In r (all_records m) -> r_data r = D_NS t -> ~ denied t;
  cu_root : forall s, In s ROOT_SERVERS -> ~ denied (fst s);
  cu_quick : forall n, (ev_now' (env n) < ev_now (env n) + SECOND)%N }.

Lemma asks_question : forall req q, m_questions req = [q] -> asks req -> index (m_questions req) 0 = Done q.
Proof. intros req q E _. now rewrite E. Qed.

(** Lookups for the addresses of name servers are nested at most 255 deep. *)
Definition shallow (p : profile) (env : environment) (fuel : nat) (conf : rconf) (q : question) (w : world) : Prop :=
  forall r k w', perform p env fuel (new_lookup conf (q_node q) (q_type q), w) = (Done r, (k, w')) -> nesting (l_trace k) <= 255.

(** Every query gets a reply, over UDP and over TCP, made from the outcome of the lookup;
    [F] rounds are enough for all. What is missing: see C61, C68 and C69; and debug builds
    with a log level of info or lower fail to print traces that are nested deeper than
    255 (C83), even if tracing is off. *)
Theorem C70_queries_get_replies_partial : exists F, forall p lg env denied conf l req q w fuel,
  (p = Release \/ lg = false \/ shallow p env fuel conf q w) ->
  calm_upstream p env denied -> cache_ok (serving denied) (ev_now (env (w_n w))) (w_cache w) ->
  0 < max_ns conf -> 0 < max_retries conf -> F <= fuel -> query_packet p l req q ->
  exists r k w' reply u t,
    perform p env fuel (new_lookup conf (q_node q) (q_type q), w) = (Done r, (k, w')) /\
    mirrors_rec req reply /\ counts_say reply 1 /\ reports r reply /\
    encode_message_trunc p reply = Done (Ok u) /\ rs_serve_udp p lg env fuel conf l w = (Done (Some u), w') /\
    tcp_reply p reply = Done t /\ rs_serve_tcp p lg env fuel conf (on_tcp l) w = (Done (Some t), w').
Proof.
  destruct finitely_many_names as (U & HU). exists (length U + 300).
  intros p lg env denied conf l req q w fuel Hlog [EO Hd Hx Hns Hr Ht] Hw H1 H2 Hf (Hl & H512 & E & (V1 & V2 & V3 & V4) & V5).
  pose proof (C20_decoded_is_supported p l req Hl E) as (Ho & Hq & _). rewrite V4 in Hq. inversion Hq as [|? ? (Hn & Hc & Hk) _]; subst. clear Hq.
  assert (Q : quiet p env (serving denied) denied).
  { split; [|split]; [| |exact Ht].
    - intros n a x d E0 k'. destruct (Hd n a x d E0) as (r & ->). discriminate.
    - intros r n (_ & G) E0. exact (G n E0). }
  assert (HD : denials p env denied 0 (fun _ _ => True)) by (intros n _ a x d m E1 E2 E3 E4 E5 nd kd E6 _ _ _; exact (Hx n a x d m E1 E2 E3 E4 E5 nd kd E6)).
  assert (Lv : live p env) by (intros n a x d E0; destruct (Hd n a x d E0) as (r & ->); discriminate).
  pose proof (run_class p env (serving denied) denied True True conf (q_node q) (q_type q) w fuel U EO (serving_class p env denied (eo_bytes _ _ EO) Hns Hr) HD Hw Hn Hk (fun _ => Q) (fun _ => conj H1 H2) (fun _ => Lv) HU (fun _ => Hf)) as R.
  destruct (perform p env fuel (new_lookup conf (q_node q) (q_type q), w)) as [[r|k|] [kk w']] eqn:Ep; cbn [okL] in R; [|tauto..].
  destruct R as (_ & R).
  assert (Hlog' : exists o, log_trace p lg (l_trace kk) = Done o).
  { apply log_trace_ok. destruct Hlog as [Hlog|[Hlog|Hlog]]; auto. right. right. exact (Hlog _ _ _ Ep). }
  destruct Hlog' as (o & Hlog').
  assert (Em : rs_handle_message p lg env fuel conf req w = (Done (rs_reply_to req r), w')).
  { unfold rs_handle_message. replace (rs_validate req) with true by (symmetry; apply validate_asks; now repeat split).
    unfold wbind at 1, wexec. rewrite V4. cbn [index nth_error]. unfold rs_handle_query, wbind, wexec. rewrite V4. cbn [index nth_error]. rewrite Ep, Hlog'. reflexivity. }
  destruct (reply_reports req r) as (R1 & R2 & R3). rewrite V5 in R2.
  assert (En : encodable_message p (rs_reply_to req r)).
  { pose proof R1 as (_ & Mo & _ & _ & _ & _ & _ & Mq). pose proof R2 as (C1 & C2 & C3 & C4).
    assert (L : forall n, N.to_nat (N.of_nat n mod 65536) <= n). { intros n. pose proof (N.mod_le (N.of_nat n) 65536 ltac:(lia)). lia. }
    assert (G : Forall (encodable_r p) (m_answers (rs_reply_to req r)) /\ Forall (encodable_r p) (m_authorities (rs_reply_to req r)) /\ Forall (encodable_r p) (m_additionals (rs_reply_to req r))).
    { destruct r as [x|e]; unfold rs_reply_to; [destruct (x_none x)|]; cbn [rs_handle_err m_answers m_authorities m_additionals]; try (now repeat split).
      destruct R as (cs & last & rs & _ & _ & _ & _ & _ & R & _).
      assert (T : forall rs, Forall (serving denied) rs -> Forall (encodable_r p) rs).
      { intros rs0 T. eapply Forall_impl; [|exact T]. intros a ((A & B) & _). now apply record_fine_encodable. }
      apply Forall_app in R as (RA & R). apply Forall_app in R as (RB & RC). auto. }
    destruct G as (G1 & G2 & G3). unfold encodable_message. rewrite Mo, Mq, V4, C1, C2, C3, C4. repeat split; auto.
    constructor; [now apply question_encodable|constructor]. }
  destruct (reply_both p _ En) as (u & t & Eu & Et).
  exists r, kk, w', (rs_reply_to req r), u, t. split; [reflexivity|]. split; [exact R1|]. split; [exact R2|]. split; [exact R3|].
  split; [unfold udp_reply in Eu; destruct (encode_message_trunc p (rs_reply_to req r)) as [[x|e]|k|]; cbn [bind] in Eu; congruence|].
  split; [|split; [exact Et|]].
  - unfold rs_serve_udp, udp_read, MAX_UDP_LEN_BYTES. rewrite firstn_all2 by assumption. exact (serve_done p lg env fuel conf l _ w req _ w' u E Em Eu).
  - unfold rs_serve_tcp. rewrite <- (app_nil_r (on_tcp l)), C38_request_framing by lia. exact (serve_done p lg env fuel conf l _ w req _ w' t E Em Et).
Qed.
Print Assumptions C70_queries_get_replies_partial.

(** A query for a name that does not exist (env_nope, C61), from bytes to bytes. *)
Definition nope_request : list N := wire_message (ex_req (s2b "nope.org.") RT_A).
Theorem C70_nonvacuous : calm_upstream Release env_nope nope_denied /\ cache_ok (serving nope_denied) (ev_now (env_nope 0)) (w_cache world0) /\
  query_packet Release nope_request (ex_req (s2b "nope.org.") RT_A) (mkQ (s2b "nope.org.") RT_A C_IN) /\
  forall lg, exists w', rs_serve_udp Release lg env_nope 6 conf0 nope_request world0 = (Done (Some ([0; 7; 129; 131; 0; 1; 0; 0; 0; 0; 0; 0; 4; 110; 111; 112; 101; 3; 111; 114; 103; 0; 0; 1; 0; 1]%N)), w').
Proof.
  destruct C61_nonvacuous as (A1 & A2 & A3 & A4 & A5 & A6 & A7 & A8 & _). split.
  { split; try assumption. intros n a x d E. apply env_nope_net in E as [(-> & _)| ->]; eexists; vm_compute; reflexivity. }
  split; [apply world0_ok|]. split.
  - split; [|split; [|split; [|split; [apply ex_valid|reflexivity]]]].
    + repeat (apply Forall_cons; [reflexivity|]). constructor.
    + vm_compute. lia.
    + vm_compute. reflexivity.
  - eexists. vm_compute. reflexivity.
Qed.
Print Assumptions C70_nonvacuous.
(** The same run is one for C63: a reply is sent. *)
Theorem C63_nonvacuous : forall lg, exists m w', rs_handle_message Release lg env_nope 6 conf0 (ex_req (s2b "nope.org.") RT_A) world0 = (Done m, w') /\
  h_rcode (m_header m) = RC_NxDomain /\ fst (rs_serve_tcp Release lg env_nope 6 conf0 (on_tcp nope_request) world0) <> Done None /\ exists b, encode_message Release m = Done (Ok b).
Proof. eexists _, _. split; [vm_compute; reflexivity|]. split; [vm_compute; reflexivity|]. split; [vm_compute; discriminate|]. eexists. vm_compute. reflexivity. Qed.

(** Refutation: the panic of C61 takes the reply with it. *)
Theorem C70_refuted_bad_packet : env_ok plain_record env_bad /\ forall p lg,
  query_packet p nope_request (ex_req (s2b "nope.org.") RT_A) (mkQ (s2b "nope.org.") RT_A C_IN) /\
  fst (rs_serve_udp p lg env_bad 6 conf0 nope_request world0) = Panic PExplicit.
Proof.
  split; [apply C61_refuted_bad_packet|]. intros p. split.
  - split; [|split; [|split; [|split; [apply ex_valid|reflexivity]]]].
    + repeat (apply Forall_cons; [reflexivity|]). constructor.
    + vm_compute. lia.
    + destruct p; vm_compute; reflexivity.
  - destruct p; vm_compute; reflexivity.
Qed.
Print Assumptions C70_refuted_bad_packet.
