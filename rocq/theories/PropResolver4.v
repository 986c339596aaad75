(** C73, C75, C77: retries, what is asked of whom, and when a name is said not to exist. *)
From Verif Require Import Base Types Name NameSpec NameProofs Codec CodecSpec CodecWrite CodecMessage EncodeTotal PropCodec1 PropCodec3 NsSpec Cache Resolver ResolverLists ResolverSpec ResolverInv ResolverRun ResolverFacts ResolverFuel ResolverEx PropResolver1 PropResolver2 PropResolver3.

(** * C75 *)
(** The questions a lookup may ask, given the records it may rely on: its own; of the
    target of an alias, what was asked of its owner; the address of a name server. *)
Inductive may_ask (relied : record -> Prop) (node : name) (kind : rtype) : name -> rtype -> Prop :=
| MA_own : may_ask relied node kind node kind
| MA_alias : forall c t k, relied c -> r_data c = D_CNAME t -> may_ask relied node kind (r_node c) k -> may_ask relied node kind t k
| MA_server : forall r t, relied r -> r_data r = D_NS t -> may_ask relied node kind t RT_A.

(** A query: standard, recursion not desired, of one question of class IN, and nothing else
    (RFC 1035, 4.1), sent to the address in a record relied on. The question is the right
    one if its name can be put on the wire at all. *)
Definition proper_query (relied : record -> Prop) (ids : N -> Prop) (node : name) (kind : rtype) (packet : list N * list N) : Prop :=
  exists id n k r body, ids id /\ may_ask relied node kind n k /\ accepted n /\ usable_type k /\
    relied r /\ r_data r = D_A (fst packet) /\ snd packet = query_header id ++ body /\
    (sendable n -> body = wire_question (mkQ n k C_IN)).

(** Ids of the events from the [n0]-th on. *)
Definition ids_from (env : environment) (n0 : nat) (id : N) : Prop := exists n, n0 <= n /\ id = ev_id (env n).

Lemma may_ask_ok : forall (relied good : record -> Prop) node kind, (forall r, good r -> relied r) -> questions_ok good (may_ask relied node kind).
Proof.
  intros relied good node kind H. split.
  - intros r t k Hr Et Ha. apply (MA_alias _ _ _ r t k); auto.
  - intros r t Hr Et. apply (MA_server _ _ _ r t); auto.
Qed.

(** What is missing: the root name (see [C75_refuted_root]), and names with labels of more
    than 63 bytes. *)
Theorem C75_queries_say_what_is_asked_partial : forall p env known conf node kind w fuel,
  env_ok (traced_record p env known) env -> cache_ok (traced_record p env known) (ev_now (env (w_n w))) (w_cache w) ->
  accepted node -> usable_type kind ->
  let '(_, (_, w')) := perform p env fuel (new_lookup conf node kind, w) in
  forall packet, In packet (w_sent w') -> In packet (w_sent w) \/
    proper_query (origin p env known) (ids_from env (w_n w)) node kind packet.
Proof.
  intros p env known conf node kind w fuel EO Hw Hn Hk. destruct finitely_many_names as (U & HU).
  set (SP := fun packet => In packet (w_sent w) \/ proper_query (origin p env known) (ids_from env (w_n w)) node kind packet).
  set (Ask := may_ask (origin p env known) node kind).
  assert (HS : sendings p env (traced_record p env known) SP (w_n w) Ask).
  { intros n Hn0 a x r nd kd Hr Er Hnd Hkd Ha Ex. right. destruct (query_bytes p (ev_id (env n)) nd kd (eo_ids _ _ EO n) Hnd Hkd) as (body & Eb & Hb).
    rewrite Eb in Ex. assert (X : x = query_header (ev_id (env n)) ++ body) by congruence.
    exists (ev_id (env n)), nd, kd, r, body. split; [exists n; split; [exact Hn0|reflexivity]|]. split; [exact Ha|]. split; [exact Hnd|]. split; [exact Hkd|]. split; [exact (proj2 Hr)|]. split; [exact Er|]. split; [exact X|exact Hb]. }
  assert (HD : denials p env (fun _ => True) (w_n w) Ask) by (intros n _ a x d m _ _ _ _ _ nd kd _ _ _ _; exact I).
  assert (Hs : Forall SP (w_sent w)) by (apply Forall_forall; intros; now left).
  pose proof (run_any p env (traced_record p env known) Ask (fun _ => True) SP False False conf node kind w fuel U EO (traced_class p env known (eo_bytes _ _ EO))
    (may_ask_ok _ _ node kind (fun r (H : traced_record p env known r) => proj2 H)) HD HS (MA_own _ _ _) Hw Hs Hn Hk ltac:(tauto) ltac:(tauto) ltac:(tauto) HU ltac:(tauto)) as R.
  destruct (perform p env fuel (new_lookup conf node kind, w)) as [r [l w']].
  assert (C : Forall SP (w_sent w')) by (destruct r as [r|k|]; cbn [okL snd] in R; destruct R as ((_ & R & _) & _); exact R).
  intros packet Hp. rewrite Forall_forall in C. exact (C packet Hp).
Qed.
Print Assumptions C75_queries_say_what_is_asked_partial.

Theorem C75_nonvacuous : env_ok (traced_record Release env_evil (fun _ => False)) env_evil /\ cache_ok (traced_record Release env_evil (fun _ => False)) 0 (w_cache world0) /\
  accepted (s2b "a.x.evil.") /\ usable_type RT_A /\ sendable (s2b "a.x.evil.") /\
  let '(_, (_, w)) := perform Release env_evil 6 (new_lookup conf0 (s2b "a.x.evil.") RT_A, world0) in
  hd_error (w_sent w) = Some ([6; 6; 6; 6], [0; 7; 0; 0; 0; 1; 0; 0; 0; 0; 0; 0;  1; 97; 1; 120; 4; 101; 118; 105; 108; 0;  0; 1; 0; 1])%N.
Proof.
  destruct C60_nonvacuous as (_ & A & B & C & D & _). split; [exact C|]. split; [exact D|]. split; [exact A|]. split; [exact B|].
  split; [apply sendable_b_ok; vm_compute; reflexivity|]. vm_compute. reflexivity.
Qed.
Print Assumptions C75_nonvacuous.

(** Asking for the name servers of the root: the name is written as two zero bytes
    instead of one, so that the type read by the server is 0 and the class 2 (NS). *)
Theorem C75_refuted_root : accepted [DOT] /\ wname [DOT] = [0]%N /\
  let '(_, (_, w)) := perform Release (script silence) 6 (new_lookup conf0 [DOT] RT_NS, world0) in
  hd_error (w_sent w) = Some ([192; 33; 4; 12], [0; 7; 0; 0; 0; 1; 0; 0; 0; 0; 0; 0;  0; 0;  0; 2; 0; 1])%N.
Proof. split; [apply checked_accepted; vm_compute; reflexivity|]. vm_compute. split; reflexivity. Qed.
Print Assumptions C75_refuted_root.

(** * C77 *)
(** A datagram that denies a name: from the network, during this lookup, in reply to a query
    for that name, with the id of the query, response code 3 and the authority bit. *)
Definition denied_by (p : profile) (env : environment) (n0 : nat) (asked : name -> rtype -> Prop) (n : name) : Prop :=
  exists i addr query d m k, n0 <= i /\ ev_net (env i) addr query = Some d /\ decode_message p (firstn 512 d) = Done (Ok m) /\
    h_id (m_header m) = ev_id (env i) /\ h_rcode (m_header m) = RC_NxDomain /\ h_aa (m_header m) = true /\ asked n k /\
    exists body, query = query_header (ev_id (env i)) ++ body /\ (sendable n -> body = wire_question (mkQ n k C_IN)).

Theorem C77_no_such_name_needs_a_denial : forall p env known conf node kind w fuel x s',
  env_ok (traced_record p env known) env -> cache_ok (traced_record p env known) (ev_now (env (w_n w))) (w_cache w) ->
  accepted node -> usable_type kind ->
  perform p env fuel (new_lookup conf node kind, w) = (Done (Ok x), s') -> x_none x = true ->
  exists last, alias_chain node (x_answers x) last /\ denied_by p env (w_n w) (may_ask (origin p env known) node kind) last.
Proof.
  intros p env known conf node kind w fuel x s' EO Hw Hn Hk E Ex. destruct finitely_many_names as (U & HU).
  set (Ask := may_ask (origin p env known) node kind).
  assert (HD : denials p env (denied_by p env (w_n w) Ask) (w_n w) Ask).
  { intros n Hn0 a q d m E1 E2 E3 E4 E5 nd kd E6 Hnd Hkd Ha. destruct (query_bytes p (ev_id (env n)) nd kd (eo_ids _ _ EO n) Hnd Hkd) as (body & Eb & Hb).
    rewrite Eb in E6. exists n, a, q, d, m, kd. split; [exact Hn0|]. repeat (split; [assumption|]). exists body. split; [congruence|exact Hb]. }
  assert (HS : sendings p env (traced_record p env known) (fun _ => True) (w_n w) Ask) by (intros n _ a q r nd kd _ _ _ _ _ _; exact I).
  assert (Hs : Forall (fun _ => True) (w_sent w)) by (apply Forall_forall; intros; exact I).
  pose proof (run_any p env (traced_record p env known) Ask (denied_by p env (w_n w) Ask) (fun _ => True) False False conf node kind w fuel U EO (traced_class p env known (eo_bytes _ _ EO))
    (may_ask_ok _ _ node kind (fun r (H : traced_record p env known r) => proj2 H)) HD HS (MA_own _ _ _) Hw Hs Hn Hk ltac:(tauto) ltac:(tauto) ltac:(tauto) HU ltac:(tauto)) as R.
  rewrite E in R. cbn [okL] in R. destruct R as (_ & _ & R). exact (R Ex).
Qed.
Print Assumptions C77_no_such_name_needs_a_denial.

(** A lookup that ends so: "alias.org." is an alias of "nope.org.", which is denied. *)
Definition env_denial : environment :=
  script (at_event 4 (packet RC_NoError false [rec_ (s2b "alias.org.") 60 (D_CNAME (s2b "nope.org."))] [] [])
         (at_event 10 (packet RC_NxDomain true [] [] []) silence)).
Theorem C77_nonvacuous : env_ok (traced_record Release env_denial (fun _ => False)) env_denial /\
  accepted (s2b "alias.org.") /\ usable_type RT_A /\
  exists x s', perform Release env_denial 6 (new_lookup conf0 (s2b "alias.org.") RT_A, world0) = (Done (Ok x), s') /\ x_none x = true /\ map r_data (x_answers x) = [D_CNAME (s2b "nope.org.")].
Proof.
  split; [|split; [apply checked_accepted; vm_compute; reflexivity|split; [unfold usable_type; tauto|]]].
  - assert (E : env_ok plain_record env_denial). { apply script_ok. repeat (apply script_bytes; [apply checked_bytes; vm_compute; reflexivity|]). apply silence_bytes. }
    destruct E as [A B C D _]. split; try assumption. intros n c Hc. exact Hc.
  - eexists _, _. vm_compute. repeat split.
Qed.
Print Assumptions C77_nonvacuous.
