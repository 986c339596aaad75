(** Property C95: the clients of any number of lookups at once. The request handler
    (handler.rs) around the lookups of Many.v. *)
From Coq Require Import Permutation.
From Verif Require Import Base Types Name NameSpec NameProofs Buffer Reader Codec CodecSpec CodecWrite CodecMessage CodecFacts PropCodec1 PropCodec2 PropCodec3 EncodeTotal Zone ZoneSpec NsHandler NsSpec PropNs PropNs2
  Cache Resolver ResolverLists ResolverSpec ResolverInv ResolverRun ResolverFacts ResolverFuel ResolverEx PropResolver1 PropResolver2 PropResolver3 Trace TraceSpec PropTrace RsHandler PropRs PropResolver5 ResolverStays PropResolver7 PropTalk HealthSpec HealthRun PropHealth ClientSpec PublishSpec PropPublish ResolverNest NestSpec NestRun PropClient
  Process ProcessRun ProcessSafe Many PropMany PropMany2 ManyTrue HealthEx PublishEx PublishEx2 PropManyTrue.

(** What the handler does with the outcome of a lookup (handler.rs:54-82, 36-41): the trace is
    logged, the reply made and given to the transport. *)
Definition rs_send (p : profile) (tr : transport) (m : message) : exec (list N) := match tr with Udp => udp_reply p m | Tcp => tcp_reply p m end.
Definition rs_finish (p : profile) (logs : bool) (tr : transport) (req : message) (o : exec (result response lerr) * lookup) : exec (list N) :=
  let! r := fst o in let! _ := log_trace p logs (l_trace (snd o)) in rs_send p tr (rs_reply_to req r).

(** That, after the lookup, is the handler of RsHandler.v. *)
Theorem C95_the_handler_is_its_lookup_and_the_rest : forall p lg env fuel conf tr l w req q r lk w', query_packet p l req q ->
  perform p env fuel (new_lookup conf (q_node q) (q_type q), w) = (r, (lk, w')) ->
  serve_one p lg env fuel conf (tr, l) w = (let! b := rs_finish p lg tr req (r, lk) in Done (Some b), w').
Proof.
  intros p lg env fuel conf tr l w req q r lk w' (Hl & H512 & E & (V1 & V2 & V3 & V4) & V5) Ep.
  assert (Em : rs_handle_message p lg env fuel conf req w = (let! x := r in let! _ := log_trace p lg (l_trace lk) in Done (rs_reply_to req x), w')).
  { unfold rs_handle_message. replace (rs_validate req) with true by (symmetry; apply validate_asks; now repeat split).
    unfold wbind at 1, wexec. rewrite V4. cbn [index nth_error]. unfold rs_handle_query, wbind, wexec. rewrite V4. cbn [index nth_error]. rewrite Ep. destruct r; reflexivity. }
  assert (G : forall send, rs_serve p lg env fuel conf (read_message p l) send w = (let! b := (let! x := r in let! _ := log_trace p lg (l_trace lk) in send (rs_reply_to req x)) in Done (Some b), w')).
  { intros send. unfold rs_serve. rewrite (read_decoded p l req E). unfold wbind at 1, wexec at 1. unfold rs_handle_request. unfold wbind at 1. unfold wbind at 1. rewrite Em.
    destruct r as [x|k|]; cbn [bind]; try reflexivity. destruct (log_trace p lg (l_trace lk)); cbn [bind]; try reflexivity. unfold wret at 1. unfold wbind, wexec. destruct (send (rs_reply_to req x)); reflexivity. }
  clear Em. unfold serve_one, rs_finish, rs_send. cbn [fst snd]. destruct tr.
  - unfold rs_serve_udp, udp_read, MAX_UDP_LEN_BYTES. rewrite firstn_all2 by assumption. apply G.
  - unfold rs_serve_tcp. rewrite <- (app_nil_r (on_tcp l)), C38_request_framing by lia. apply G.
Qed.
Print Assumptions C95_the_handler_is_its_lookup_and_the_rest.

(** A right answer with records that can be encoded is sent. *)
Lemma right_is_sent : forall p lg D conf tr l req q r lk, query_packet p l req q -> right_answer D (q_node q) (q_type q) r ->
  (forall x, r = Done (Ok x) -> answer_ok plain_record conf (q_node q) (q_type q) x) -> (exists o, log_trace p lg (l_trace lk) = Done o) ->
  exists reply b, tells D req q reply /\ rs_finish p lg tr req (r, lk) = Done b /\ sent_as p tr reply b.
Proof.
  intros p lg D conf tr l req q r0 k QP (cs & rs & r & cs' & rs' & Hl & Er & Ea & Ec & Es & Hnone) Ra (o & Hlog).
  destruct (Ra r Er) as (cs0 & last & rs0 & _ & _ & _ & _ & _ & R & _). subst r0.
  pose proof QP as (HB & H512 & E & (V1 & V2 & V3 & V4) & V5).
  pose proof (C20_decoded_is_supported p l req HB E) as (Ho & Hq & _). rewrite V4 in Hq. inversion Hq as [|? ? (Hn & Hc & Hk) _]; subst. clear Hq.
  destruct (reply_reports req (Ok r)) as (R1 & R2 & R3). rewrite V5 in R2.
  set (reply := rs_reply_to req (Ok r)) in *.
  assert (En : encodable_message p reply).
  { pose proof R1 as (_ & Mo & _ & _ & _ & _ & _ & Mq). pose proof R2 as (C1 & C2 & C3 & C4).
    assert (L : forall n, N.to_nat (N.of_nat n mod 65536) <= n). { intros n. pose proof (N.mod_le (N.of_nat n) 65536 ltac:(lia)). lia. }
    assert (G : Forall (encodable_r p) (m_answers reply) /\ Forall (encodable_r p) (m_authorities reply) /\ Forall (encodable_r p) (m_additionals reply)).
    { assert (T0 : forall l, Forall plain_record l -> Forall (encodable_r p) l).
      { intros l' T0. eapply Forall_impl; [|exact T0]. intros a (A & B). now apply record_fine_encodable. }
      apply Forall_app in R as (RA & R). apply Forall_app in R as (RB & RC).
      unfold reply, rs_reply_to. destruct (x_none r); cbn [rs_handle_err m_answers m_authorities m_additionals]; repeat split; auto. }
    destruct G as (G1 & G2 & G3). unfold encodable_message. rewrite Mo, Mq, V4, C1, C2, C3, C4. repeat split; auto.
    constructor; [now apply question_encodable|constructor]. }
  assert (Tl : tells D req q reply).
  { split; [exact R1|]. split; [exact R2|]. exists cs, rs. split; [exact Hl|]. unfold reports in R3. destruct (x_none r).
    - left. split; [now apply Hnone|exact R3].
    - right. split; [intros C; apply Hnone in C; discriminate C|]. exists cs', rs', (x_authorities r), (x_additionals r). rewrite Ea in R3. split; [exact R3|]. split; [exact Ec|exact Es]. }
  destruct (reply_both p _ En) as (u & t & Eu & Et). unfold rs_finish, rs_send. cbn [fst snd bind]. rewrite Hlog. cbn [bind]. fold reply. clearbody reply. destruct tr; cbv beta iota.
  - exists reply, u. split; [exact Tl|]. split; [exact Eu|].
    assert (Eu' : encode_message_trunc p reply = Done (Ok u)) by (unfold udp_reply in Eu; destruct (encode_message_trunc p reply) as [[y|e]|k'|]; cbn [bind] in Eu; congruence).
    split; [exact Eu'|]. intros Hok Hlen. pose proof (C25_short_messages_unchanged p reply (wire_message reply) (message_ok_typed _ Hok) (C19_encode_message p reply Hok) Hlen) as X. congruence.
  - exists reply, t. split; [exact Tl|]. split; [exact Et|].
    destruct (encode_message p reply) as [[body|e]|k'|] eqn:Eb; [|unfold tcp_reply in Et; rewrite Eb in Et; discriminate Et..].
    rewrite (C38_reply_framing_modulo p reply body Eb) in Et. assert (Et' : t = be16 (N.of_nat (length body) mod 65536) ++ body) by congruence. split.
    * exists body. now split.
    * intros Hok Hlen. pose proof (C19_encode_message p reply Hok) as X. assert (body = wire_message reply) by congruence. subst body. rewrite Et', N.mod_small by exact Hlen. reflexivity.
Qed.

(** All that is delivered speaks of the given zones only. *)
Definition speaks_of (g : setting) (Z : list name) : Prop := In [46%N] Z /\
  forall id a x d m, g_delivers g id a x (Some d) -> decode_message (g_profile g) (firstn 512 d) = Done (Ok m) -> h_id (m_header m) = id -> Forall (of_zones Z) (all_records m).
(** Logging does no harm: it is off, the build is a release build, or there are at most 255
    zones (C83, C91). *)
Definition logs_safely (g : setting) (lg : bool) : Prop := g_profile g = Release \/ lg = false \/ exists Z, speaks_of g Z /\ length Z <= 255.

Lemma logged : forall g lg s t r l, setting_ok g -> logs_safely g lg -> reached g s -> In t (s_threads s) -> accepted (t_node t) -> usable_type (t_kind t) -> t_todo t = P_end (r, l) ->
  exists o, log_trace (g_profile g) lg (l_trace l) = Done o.
Proof.
  intros g lg s t r l GO Hlog H Hin Hn Hk Et. apply log_trace_ok. destruct Hlog as [X|[X|(Z & (Zr & Zn) & L)]]; [now left|right; now left|right; right].
  assert (CL : class_of (g_profile g) (comes g) (known_zones Z)).
  { apply class_everywhere. intros env He. apply zones_class; [intros n a x d E; apply (He n a x d E)|exact Zr|]. intros n a x d m E Em Ei. apply (Zn (ev_id (env n)) a x d m); [apply (He n a x d E)|exact Em|exact Ei]. }
  destruct (C93_each_lookup_is_as_if_alone g (known_zones Z) s t GO CL H Hin) as (env & c & more & r' & l' & w' & EO & CO & Hc & _ & Hv & _ & E & _ & He). destruct (He _ _ Et) as (_ & <- & _).
  assert (OZ : only_zones (g_profile g) env Z). { split; [exact Zr|exact EO|]. intros n a x d m En. apply (Zn _ _ _ _ _ (Hv n a x d En)). }
  pose proof (zones_run (g_profile g) env (t_conf t) (t_node t) (t_kind t) (mkWorld c 0 []) (g_fuel g) Z OZ Hc Hn Hk) as ZR. rewrite E in ZR. lia.
Qed.

(** In a healthy domain name system, with any number of lookups at once: when a lookup has
    ended, the client whose query started it (over either transport) is sent the reply that
    tells what is there. *)
Theorem C95_clients_are_sent_what_is_there : forall g lg D Y start retries servers T0 s t r l, setting_ok g -> healthy_setting g D Y start retries servers -> anchors_known Y -> logs_safely g lg ->
  (start <= T0)%N -> reached_from g T0 s -> In t (s_threads s) -> t_todo t = P_end (r, l) ->
  forall tr x req q, query_packet (g_profile g) x req q -> q_node q = t_node t -> q_type q = t_kind t ->
  exists reply b, tells D req q reply /\ rs_finish (g_profile g) lg tr req (r, l) = Done b /\ sent_as (g_profile g) tr reply b.
Proof.
  intros g lg D Y start retries servers T0 s t r l GO HS Hd Hlog L Hr Hin Et tr x req q QP Q1 Q2.
  pose proof (C94_lookups_find_what_is_there g D Y start retries servers T0 s t r l GO HS Hd L Hr Hin Et) as RA. rewrite <- Q1, <- Q2 in RA.
  pose proof QP as (HB & _ & E & (_ & _ & _ & V4) & _). pose proof (C20_decoded_is_supported _ x req HB E) as (_ & Hq & _). rewrite V4 in Hq. inversion Hq as [|? ? (Hn & _ & Hk) _]; subst. clear Hq.
  assert (R0 : reached g s) by (now exists T0).
  apply (right_is_sent (g_profile g) lg D (t_conf t) tr x req q r l QP RA).
  - intros y ->. rewrite Q1, Q2. apply (C93_answers_are_alias_chains g s t y l GO R0 Hin); [now rewrite <- Q1|now rewrite <- Q2|exact Et].
  - apply (logged g lg s t r l GO Hlog R0 Hin); [now rewrite <- Q1|now rewrite <- Q2|exact Et].
Qed.
Print Assumptions C95_clients_are_sent_what_is_there.

(** And that moment comes for every client whose lookup is not starved. *)
Theorem C95_every_client_is_served : forall g lg D Y start retries servers T0 s i n t, setting_ok g -> healthy_setting g D Y start retries servers -> anchors_known Y -> logs_safely g lg ->
  (start <= T0)%N -> reached_from g T0 (s 0) -> course g s -> fair g i s -> nth_error (s_threads (s n)) i = Some t ->
  forall tr x req q, query_packet (g_profile g) x req q -> q_node q = t_node t -> q_type q = t_kind t ->
  exists k t' o reply b, n <= k /\ nth_error (s_threads (s k)) i = Some t' /\ t_todo t' = P_end o /\
    tells D req q reply /\ rs_finish (g_profile g) lg tr req o = Done b /\ sent_as (g_profile g) tr reply b.
Proof.
  intros g lg D Y start retries servers T0 s i n t GO HS Hd Hlog L (HT & Hr) Hs Hf E tr x req q QP Q1 Q2.
  destruct (course_ends g s i Hs Hf n t E) as (k & t' & Lk & E' & (A1 & A2 & A3) & ((r & l) & Et)).
  assert (Rk : reached_from g T0 (s k)). { split; [exact HT|]. clear - Hr Hs. induction k as [|k IH]; [exact Hr|]. destruct (Hs k) as [->|St]; [exact IH|]. eapply steps_more; eassumption. }
  destruct (C95_clients_are_sent_what_is_there g lg D Y start retries servers T0 (s k) t' r l GO HS Hd Hlog L Rk (nth_error_In _ _ E') Et tr x req q QP) as (reply & b & H1 & H2 & H3); [congruence..|].
  exists k, t', (r, l), reply, b. split; [exact Lk|]. split; [exact E'|]. split; [exact Et|]. now split.
Qed.
Print Assumptions C95_every_client_is_served.

(** Name servers of this project with well-formed files (C85) qualify. *)
Theorem C95_published_zones_qualify : forall g D Y start retries servers, setting_ok g ->
  (forall env : environment, (forall n, g_ids g (ev_id (env n))) -> (forall n a x d, ev_net (env n) a x = Some d -> g_delivers g (ev_id (env n)) a x (Some d)) ->
    (forall i, exists k, k <= g_losses g /\ lossless g (env (i + k)%nat)) -> published_dns D Y start (g_until g) (g_profile g) env retries servers) ->
  (forall now now', g_timing g now now' -> (now' < now + SECOND)%N) ->
  (forall conf q kind, g_asks g conf q kind -> no_follow conf = false /\ max_retries conf = retries /\ max_ns conf = servers /\
    fair_question D conf q kind /\ leaves_no_trap D Y q kind /\ kind <> RT_CNAME) ->
  256 < g_fuel g /\ (forall z, D z RT_NS <> [] -> 256 + depth Y z < g_fuel g) ->
  healthy_setting g D Y start retries servers.
Proof.
  intros g D Y start retries servers GO P Q A F. split; try assumption. intros env H1 H2 H3. apply published_healthy; [intros i; apply (go_ids g GO), H1|now apply P].
Qed.
Print Assumptions C95_published_zones_qualify.

(** * Example: the three lookups of C94, and what their clients read *)
Definition m_clients : list (transport * list N) := [(Udp, asks_for (s2b "www.com.") RT_A); (Tcp, asks_for (s2b "www.ex.com.") RT_A); (Udp, asks_for (s2b "x.com.") RT_A)].
Definition m_reads (x : transport * list N) (t : thread) : option (rcode * list record) :=
  match decode_message Release (snd x), t_todo t with
  | Done (Ok req), P_end o => client_reads (fst x) (let! b := rs_finish Release true (fst x) req o in Done (Some b))
  | _, _ => None
  end.
Theorem C95_nonvacuous : let g := m_setting Release 256 in let s := do_steps m_net g m_turns started in
  setting_ok g /\ healthy_setting g D_w Y_w 0 2 3 /\ anchors_known Y_w /\ logs_safely g true /\ reached_from g 0 (s 0) /\ course g s /\ fair g 0 s /\ fair g 1 s /\ fair g 2 s /\
  Forall2 (fun x t => exists req q, query_packet Release (snd x) req q /\ q_node q = t_node t /\ q_type q = t_kind t) m_clients (s_threads (s 125)) /\
  map (fun xt => m_reads (fst xt) (snd xt)) (combine m_clients (s_threads (s 125))) =
    [Some (RC_NoError, map bare (w_alias :: w_www)); Some (RC_NoError, map bare w_www); Some (RC_NxDomain, [])].
Proof.
  intros g s. destruct C94_nonvacuous as (A1 & A2 & A3 & A4 & A5 & A6 & A7 & A8 & _). split; [exact A1|]. split; [exact A2|]. split; [exact A3|]. split; [left; reflexivity|]. split; [exact A4|]. split; [exact A5|]. split; [exact A6|]. split; [exact A7|]. split; [exact A8|].
  split; [|vm_compute; reflexivity].
  assert (X : map (fun t => (t_node t, t_kind t)) (s_threads (s 125)) = [(s2b "www.com.", RT_A); (s2b "www.ex.com.", RT_A); (s2b "x.com.", RT_A)]) by (vm_compute; reflexivity).
  destruct (s_threads (s 125)) as [|t1 [|t2 [|t3 [|t4 l]]]]; try discriminate X. cbn [map] in X. injection X as X1 X2 X3 X4 X5 X6.
  assert (Q : forall n t th, t_node th = n -> t_kind th = t -> decode_message Release (asks_for n t) = Done (Ok (ex_req n t)) -> length (asks_for n t) <= 512 -> forallb (fun x => x <? 256)%N (asks_for n t) = true ->
    exists req q, query_packet Release (asks_for n t) req q /\ q_node q = t_node th /\ q_type q = t_kind th).
  { intros n t th E1 E2 Ed L B. exists (ex_req n t), (mkQ n t C_IN). split; [|cbn [q_node q_type]; now split]. split; [now apply checked_bytes|]. split; [exact L|]. split; [exact Ed|]. split; [apply ex_valid|reflexivity]. }
  unfold m_clients. constructor; [|constructor; [|constructor; [|constructor]]]; cbn [snd]; apply Q; try assumption; try (vm_compute; reflexivity); apply Nat.leb_le; vm_compute; reflexivity.
Qed.
Print Assumptions C95_nonvacuous.
