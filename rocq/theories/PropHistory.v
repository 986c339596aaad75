(** Property C97: with any number of lookups at once, nothing is invented. *)
From Verif Require Import Base Types Name NameSpec NameProofs Codec CodecSpec CodecRead NsSpec Cache Resolver ResolverSpec ResolverInv ResolverFacts PropCodec3 ResolverEx PropResolver1 PropResolver2 PropResolver3 PropResolver4 PropCodec2 NsHandler NsSpec PropNs PropNs2 Trace RsHandler ClientSpec HealthSpec HealthEx PublishEx Process ProcessRun ProcessSafe Many PropMany PropMany2 PropManyTrue ManyClient History.

(** Steps in settings that differ in what is delivered. *)
Lemma step_other : forall g (D D' : N -> list N -> list N -> option (list N) -> Prop) s s', (forall id a x d, D id a x d -> D' id a x d) -> step (with_delivers g D) s s' -> step (with_delivers g D') s s'.
Proof.
  intros g D D' s s' H St. inversion St as [c T ts conf node kind A|i s0 s0' Mv|c T ts rd T' x c' A1 A2 A3]; subst.
  - now apply (st_new (with_delivers g D')).
  - apply (st_move _ i). inversion Mv; subst.
    + eapply mv_cache; eauto.
    + eapply mv_send; eauto. cbn [g_delivers with_delivers] in *. now apply H.
    + eapply mv_lost; eauto.
    + eapply mv_unsent; eauto.
  - eapply st_clean; eauto.
Qed.
Lemma same_setting : forall g, with_delivers g (g_delivers g) = g. Proof. now intros []. Qed.

(** Every course of events has a history. *)
Lemma steps_history : forall g s s', steps g s s' -> exists l, history g s l s'.
Proof.
  intros g s s' H. induction H as [s|s s1 s2 _ (l & IH) St]; [exists []; constructor|].
  inversion St as [c T ts conf node kind A|i s0 s0' Mv|c T ts rd T' x c' A1 A2 A3]; subst.
  - exists l. eapply hi_quiet; [exact IH|]. now apply (st_new (in_silence g)).
  - inversion Mv as [c T ts1 t ts2 f k now now' x c' B1 B2 B3 B4 B5|c T ts1 t ts2 q k id a x d B1 B2 B3 B4 B5|c T ts1 t ts2 q k id a x B1 B2 B3 B4 B5|c T ts1 t ts2 q k id j B1 B2 B3 B4]; subst.
    + exists l. eapply hi_quiet; [exact IH|]. apply (st_move _ (length ts1)). eapply mv_cache; eauto.
    + destruct d as [d|].
      * exists ((id, a, x, d) :: l). eapply hi_comes; eauto.
      * exists l. eapply hi_quiet; [exact IH|]. apply (st_move _ (length ts1)). eapply mv_send; eauto. cbn [g_delivers in_silence with_delivers]. now split.
    + exists l. eapply hi_quiet; [exact IH|]. apply (st_move _ (length ts1)). eapply mv_lost; eauto.
    + exists l. eapply hi_quiet; [exact IH|]. apply (st_move _ (length ts1)). eapply mv_unsent; eauto.
  - exists l. eapply hi_quiet; [exact IH|]. eapply st_clean; eauto.
Qed.
(** And every history is a course of events. *)
Lemma history_steps : forall g s l s', history g s l s' -> steps g s s'.
Proof.
  intros g s l s' H. induction H as [|l s1 s2 _ IH St|l c T ts1 t ts2 q k id a x d _ IH Et Hid Eq Hd]; [constructor|eapply steps_more; [exact IH|]|eapply steps_more; [exact IH|]].
  - rewrite <- (same_setting g). revert St. apply step_other. now intros id a x d (_ & H).
  - apply (st_move _ (length ts1)). eapply mv_send; eauto.
Qed.
Theorem C97_every_state_has_a_history : forall g T s, reached_from g T s -> exists l, history g (mkState cache_new T []) l s.
Proof. intros g T s (_ & H). now apply steps_history. Qed.
Print Assumptions C97_every_state_has_a_history.

(** The setting in which just that is delivered. *)
Definition only (g : setting) (L : list delivery) : setting :=
  with_delivers g (fun id a x d => g_delivers g id a x d /\ (d = None \/ exists d', d = Some d' /\ In (id, a, x, d') L) \/ d = None).
Lemma only_ok : forall g L, setting_ok g -> setting_ok (only g L).
Proof.
  intros g L [G1 G2 G3 G4 G5]. split; cbn; try assumption.
  - intros id a x b [(H & _)|H]; [now apply (G3 id a x)|discriminate].
  - exists (fun _ _ _ => None). intros id a x. now right.
Qed.
Lemma only_reached : forall g T L l s, (T < g_until g)%N -> history g (mkState cache_new T []) l s -> incl l L -> reached (only g L) s.
Proof.
  intros g T L l s HT H HL. exists T. split; [exact HT|]. induction H as [|l s1 s2 _ IH St|l c T' ts1 t ts2 q k id a x d _ IH Et Hid Eq Hd]; [constructor|eapply steps_more; [now apply IH|]|eapply steps_more; [apply IH|]].
  - revert St. apply step_other. intros id a x d (-> & _). now right.
  - intros y Hy. apply HL. now right.
  - apply (st_move _ (length ts1)). eapply mv_send; eauto. cbn. left. split; [exact Hd|]. right. exists d. split; [reflexivity|]. apply HL. now left.
Qed.
Lemma only_comes : forall g L id a x d, comes (only g L) id a x d -> In (id, a, x, d) L.
Proof.
  intros g L id a x d [(_ & [H|(d' & H & Hin)])|H]; [discriminate H| |discriminate H]. assert (X : d = d') by congruence. now subst.
Qed.

(** The records heard are a class. *)
Definition told (p : profile) (l : list delivery) (r : record) : Prop := plain_record r /\ heard p l r.
Lemma told_class : forall g L, class_of (g_profile g) (comes (only g L)) (told (g_profile g) L).
Proof.
  intros g L. destruct (plain_of (g_profile g) (comes (only g L))) as [C1 C2 C3 C4]. split.
  - intros r (H & _). now apply C1.
  - intros r t (H & r0 & t0 & -> & H0) Ht. split; [exact (C2 _ t H Ht)|]. exists r0, t. split; [reflexivity|exact H0].
  - rewrite Forall_forall in C3 |- *. intros s Hs. destruct (C3 s Hs) as (A & B). split.
    + split; [exact A|]. exists (n_rec s), (r_ttl (n_rec s)). split; [apply set_own_ttl|]. left. exists s. split; [exact Hs|now left].
    + rewrite Forall_forall in *. intros r Hr. split; [now apply B|]. exists r, (r_ttl r). split; [apply set_own_ttl|]. left. exists s. split; [exact Hs|now right].
  - intros id a x d m Hb Hd Em Ei. pose proof (C4 id a x d m Hb Hd Em Ei) as H. rewrite Forall_forall in *. intros r Hr. split; [now apply H|].
    exists r, (r_ttl r). split; [apply set_own_ttl|]. right. exists id, x, m. split; [|exact Hr]. exists a, d. split; [exact (only_comes g L id a x d Hd)|]. now split.
Qed.

(** Whatever lookups there are and however they are interleaved, every record in the cache is
    a built-in root server's or was in a datagram delivered before. *)
Theorem C97_the_cache_holds_what_was_heard : forall g T l s, setting_ok g -> (T < g_until g)%N -> history g (mkState cache_new T []) l s ->
  forall k exp rs, c_data (s_cache s) k = Some (exp, rs) -> Forall (heard (g_profile g) l) rs.
Proof.
  intros g T l s GO HT H k exp rs E.
  pose proof (reached_fine (only g l) (only_ok g l GO) (told (g_profile g) l) (told_class g l) (fun _ _ _ => None) (fun _ _ _ => or_intror eq_refl) s (only_reached g T l l s HT H (incl_refl l))) as ((_ & C) & _).
  destruct (C k exp rs E) as (_ & F & _). eapply Forall_impl; [|exact F]. now intros r (_ & Hr).
Qed.
Print Assumptions C97_the_cache_holds_what_was_heard.

(** The lookups. *)
Lemma cache_ok_told : forall (G H : record -> Prop) T c, (forall r, G r -> H r) -> cache_ok G T c -> cache_ok H T c.
Proof. intros G H T c I (A & B). split; [exact A|]. intros k exp rs E. destruct (B k exp rs E) as (B1 & B2 & B3). split; [exact B1|]. split; [eapply Forall_impl; [exact I|exact B2]|exact B3]. Qed.
Lemma told_lookup : forall g T l s t, setting_ok g -> (T < g_until g)%N -> history g (mkState cache_new T []) l s -> In t (s_threads s) ->
  exists env c more r k w',
    env_ok (traced_record (g_profile g) env (heard (g_profile g) l)) env /\ cache_ok (traced_record (g_profile g) env (heard (g_profile g) l)) (ev_now (env 0)) c /\
    (forall r, origin (g_profile g) env (heard (g_profile g) l) r -> heard (g_profile g) l r) /\
    (forall n, g_ids g (ev_id (env n))) /\ (forall n a x d, ev_net (env n) a x = Some d -> In (ev_id (env n), a, x, d) l) /\
    env_ok (told (g_profile g) l) env /\ cache_ok (told (g_profile g) l) (ev_now (env 0)) c /\ class_ok (g_profile g) env (told (g_profile g) l) /\
    perform (g_profile g) env (g_fuel g) (new_lookup (t_conf t) (t_node t) (t_kind t), mkWorld c 0 []) = (r, (k, w')) /\ w_sent w' = more ++ t_sent t /\
    (forall r' k', t_todo t = P_end (r', k') -> r' = r /\ k' = k /\ more = []).
Proof.
  intros g T l s t GO HT H Hin.
  destruct (C93_each_lookup_is_as_if_alone (only g l) (told (g_profile g) l) s t (only_ok g l GO) (told_class g l) (only_reached g T l l s HT H (incl_refl l)) Hin)
    as (env & c & more & r & k & w' & EO & CO & Hc & Hv & Hn & _ & E & Es & He). cbn [only with_delivers g_profile g_fuel g_ids g_until] in *.
  assert (N1 : forall n a x d, ev_net (env n) a x = Some d -> In (ev_id (env n), a, x, d) l) by (intros n a x d E1; exact (only_comes g l _ _ _ _ (Hn n a x d E1))).
  assert (A : forall r, told (g_profile g) l r -> traced_record (g_profile g) env (heard (g_profile g) l) r).
  { intros r1 (P1 & P2). split; [exact P1|]. exists r1, (r_ttl r1). split; [apply set_own_ttl|now left]. }
  assert (O : forall r, origin (g_profile g) env (heard (g_profile g) l) r -> heard (g_profile g) l r).
  { intros r1 (r0 & t0 & -> & [(r2 & t2 & -> & P2)|[P2|(n & a & x & d & m & Q1 & Q2 & Q3 & Q4)]]).
    - exists r2, t0. split; [now destruct r2|exact P2].
    - exists r0, t0. split; [reflexivity|now left].
    - exists r0, t0. split; [reflexivity|right]. exists (ev_id (env n)), x, m. split; [|exact Q4]. exists a, d. split; [now apply N1|]. now split. }
  assert (B : forall r, traced_record (g_profile g) env (heard (g_profile g) l) r -> told (g_profile g) l r) by (intros r1 (P1 & P2); split; [exact P1|now apply O]).
  exists env, c, more, r, k, w'. split.
  { destruct EO as [O1 O2 O3 O4 O5]. split; try assumption. intros n c1 Hc1. eapply cache_ok_told; [exact A|]. apply O5. eapply cache_ok_told; [exact B|exact Hc1]. }
  split; [eapply cache_ok_told; [exact A|exact Hc]|]. split; [exact O|]. split; [intros n; apply Hv|]. split; [exact N1|]. split; [exact EO|]. split; [exact Hc|]. split; [exact CO|]. split; [exact E|]. split; [exact Es|exact He].
Qed.

(** So is every record of every answer. *)
Theorem C97_answers_say_what_was_heard : forall g T l s t x k, setting_ok g -> (T < g_until g)%N -> history g (mkState cache_new T []) l s -> In t (s_threads s) ->
  accepted (t_node t) -> usable_type (t_kind t) -> t_todo t = P_end (Done (Ok x), k) ->
  Forall (heard (g_profile g) l) (x_answers x ++ x_authorities x ++ x_additionals x).
Proof.
  intros g T l s t x k GO HT H Hin Hn Hk Et.
  destruct (told_lookup g T l s t GO HT H Hin) as (env & c & more & r & k' & w' & EO & Hc & B & _ & _ & _ & _ & _ & E & _ & He). destruct (He _ _ Et) as (<- & _ & _).
  pose proof (C60_every_record_has_an_origin_partial (g_profile g) env (heard (g_profile g) l) (t_conf t) (t_node t) (t_kind t) (mkWorld c 0 []) (g_fuel g) EO Hc Hn Hk) as R. rewrite E in R. destruct R as (_ & R).
  eapply Forall_impl; [exact B|]. now apply R.
Qed.
Print Assumptions C97_answers_say_what_was_heard.

Lemma may_ask_mono : forall (G H : record -> Prop) node kind n k, (forall r, G r -> H r) -> may_ask G node kind n k -> may_ask H node kind n k.
Proof.
  intros G H node kind n k HI M. induction M as [|c t k Hc Et M IH|r t Hr Et]; [apply MA_own| |].
  - apply (MA_alias _ _ _ c); auto.
  - apply (MA_server _ _ _ r); auto.
Qed.

(** A name is said not to exist only if a datagram delivered in reply to a query for it denies
    it. *)
Theorem C97_denials_were_heard : forall g T l s t x k, setting_ok g -> (T < g_until g)%N -> history g (mkState cache_new T []) l s -> In t (s_threads s) ->
  accepted (t_node t) -> usable_type (t_kind t) -> t_todo t = P_end (Done (Ok x), k) -> x_none x = true ->
  exists last, alias_chain (t_node t) (x_answers x) last /\ denial_heard (g_profile g) l (may_ask (heard (g_profile g) l) (t_node t) (t_kind t)) last.
Proof.
  intros g T l s t x k GO HT H Hin Hn Hk Et Ex.
  destruct (told_lookup g T l s t GO HT H Hin) as (env & c & more & r & k' & w' & EO & Hc & B & Hid & Hnet & _ & _ & _ & E & _ & He). destruct (He _ _ Et) as (<- & _ & _).
  destruct (C77_no_such_name_needs_a_denial (g_profile g) env (heard (g_profile g) l) (t_conf t) (t_node t) (t_kind t) (mkWorld c 0 []) (g_fuel g) x _ EO Hc Hn Hk E Ex)
    as (last & A & i & addr & query & d & m & kd & _ & D1 & D2 & D3 & D4 & D5 & D6 & body & D7 & D8).
  exists last. split; [exact A|]. exists (ev_id (env i)), query, m, kd. split; [exists addr, d; split; [now apply Hnet|now split]|]. split; [exact D4|]. split; [exact D5|]. split; [|exists body; split; [exact D7|exact D8]].
  revert D6. now apply may_ask_mono.
Qed.
Print Assumptions C97_denials_were_heard.

(** Queries go to addresses that were heard, and ask about what the client asked, and about
    aliases and servers that were heard. *)
Theorem C97_queries_rely_on_what_was_heard_partial : forall g T l s t packet, setting_ok g -> (T < g_until g)%N -> history g (mkState cache_new T []) l s -> In t (s_threads s) ->
  accepted (t_node t) -> usable_type (t_kind t) -> In packet (t_sent t) ->
  proper_query (heard (g_profile g) l) (g_ids g) (t_node t) (t_kind t) packet.
Proof.
  intros g T l s t packet GO HT H Hin Hn Hk Hp.
  destruct (told_lookup g T l s t GO HT H Hin) as (env & c & more & r & k & w' & EO & Hc & B & Hid & _ & _ & _ & _ & E & Es & _).
  pose proof (C75_queries_say_what_is_asked_partial (g_profile g) env (heard (g_profile g) l) (t_conf t) (t_node t) (t_kind t) (mkWorld c 0 []) (g_fuel g) EO Hc Hn Hk) as R. rewrite E in R.
  destruct (R packet) as [R1|(id & n & kd & r1 & body & (i & _ & ->) & R2 & R3 & R4 & R5 & R6 & R7)]; [rewrite Es; apply in_or_app; now right|destruct R1|].
  exists (ev_id (env i)), n, kd, r1, body. split; [apply Hid|]. split; [revert R2; now apply may_ask_mono|]. split; [exact R3|]. split; [exact R4|]. split; [now apply B|]. now split.
Qed.
Print Assumptions C97_queries_rely_on_what_was_heard_partial.

(** Datagrams are heard only in reply to packets that one of the lookups sent. *)
Theorem C97_deliveries_answer_packets_sent : forall g T l s, history g (mkState cache_new T []) l s ->
  forall id a x d, In (id, a, x, d) l -> g_ids g id /\ g_delivers g id a x (Some d) /\ exists t, In t (s_threads s) /\ In (a, x) (t_sent t).
Proof.
  intros g T l s H.
  assert (K : forall D s1 s2 y, step (with_delivers g D) s1 s2 -> (exists t, In t (s_threads s1) /\ In y (t_sent t)) -> exists t, In t (s_threads s2) /\ In y (t_sent t)).
  { intros D s1 s2 y St (t & Ht & Hy). assert (U : forall ts1 t0 ts2 u lost time todo, In t (ts1 ++ t0 :: ts2) -> exists t', In t' (ts1 ++ advance t0 u lost time todo :: ts2) /\ In y (t_sent t')).
    { intros ts1 t0 ts2 u lost time todo Hi. apply in_app_or in Hi as [Hi|[->|Hi]].
      - exists t. split; [apply in_or_app; now left|exact Hy].
      - exists (advance t u lost time todo). split; [apply in_or_app; right; now left|]. cbn. apply in_or_app. now right.
      - exists t. split; [apply in_or_app; right; now right|exact Hy]. }
    inversion St as [c T' ts conf node kind A|i s0 s0' Mv|c T' ts rd T'' x c' A1 A2 A3]; subst; cbn [s_threads] in *.
    - exists t. split; [apply in_or_app; now left|exact Hy].
    - inversion Mv; subst; cbn [s_threads] in *; now apply U.
    - now exists t. }
  assert (St0 : forall s1 s2 y, step g s1 s2 -> (exists t, In t (s_threads s1) /\ In y (t_sent t)) -> exists t, In t (s_threads s2) /\ In y (t_sent t)).
  { intros s1 s2 y St. rewrite <- (same_setting g) in St. eapply K. exact St. }
  induction H as [|l s1 s2 _ IH St|l c T' ts1 t ts2 q k id a x d _ IH Et Hid Eq Hd]; intros id' a' x' d' Hin; [destruct Hin| |].
  - destruct (IH _ _ _ _ Hin) as (I1 & I2 & I3). split; [exact I1|]. split; [exact I2|]. eapply K; [exact St|exact I3].
  - destruct Hin as [Hin|Hin].
    + assert (X : id = id' /\ a = a' /\ x = x' /\ d = d') by (repeat split; congruence). destruct X as (<- & <- & <- & <-). split; [exact Hid|]. split; [exact Hd|].
      eexists. split; [cbn [s_threads]; apply in_or_app; right; left; reflexivity|]. cbn. now left.
    + destruct (IH _ _ _ _ Hin) as (I1 & I2 & I3). split; [exact I1|]. split; [exact I2|]. eapply St0; [|exact I3]. apply (st_move _ (length ts1)). eapply mv_send; eauto.
Qed.
Print Assumptions C97_deliveries_answer_packets_sent.

(** What the client of a lookup is sent, whatever it sent (over either transport). *)
Theorem C97_clients_are_told_what_was_heard : forall g lg T l s t o tr req b, setting_ok g -> (T < g_until g)%N -> history g (mkState cache_new T []) l s -> In t (s_threads s) ->
  accepted (t_node t) -> usable_type (t_kind t) -> t_todo t = P_end o -> rs_finish (g_profile g) lg tr req o = Done b ->
  exists reply, match tr with
                | Udp => encode_message_trunc (g_profile g) reply = Done (Ok b)
                | Tcp => exists body, encode_message (g_profile g) reply = Done (Ok body) /\ b = be16 (N.of_nat (length body) mod 65536) ++ body
                end /\
    Forall (heard (g_profile g) l) (all_records reply) /\
    (h_rcode (m_header reply) = RC_NxDomain -> exists answers last, alias_chain (t_node t) answers last /\ denial_heard (g_profile g) l (may_ask (heard (g_profile g) l) (t_node t) (t_kind t)) last).
Proof.
  intros g lg T l s t [r k] tr req b GO HT H Hin Hn Hk Et E. unfold rs_finish in E. cbn [fst snd] in E.
  destruct r as [r|j|]; cbn [bind] in E; [|discriminate E..]. destruct (log_trace (g_profile g) lg (l_trace k)) as [u|j|] eqn:El; cbn [bind] in E; [|discriminate E..].
  exists (rs_reply_to req r). split; [|split].
  - unfold rs_send in E. destruct tr.
    + unfold udp_reply in E. destruct (encode_message_trunc _ _) as [[y|e]|j|]; cbn [bind] in E; try discriminate E. congruence.
    + destruct (encode_message (g_profile g) (rs_reply_to req r)) as [[body|e]|j|] eqn:Eb; [|unfold tcp_reply in E; rewrite Eb in E; discriminate E..].
      exists body. split; [reflexivity|]. rewrite (C38_reply_framing_modulo _ _ body Eb) in E. congruence.
  - destruct r as [x|e]; [|constructor]. pose proof (C97_answers_say_what_was_heard g T l s t x k GO HT H Hin Hn Hk Et) as F.
    unfold rs_reply_to. destruct (x_none x); [constructor|]. exact F.
  - destruct r as [x|e]; [|discriminate]. intros Hrc. unfold rs_reply_to in Hrc. destruct (x_none x) eqn:Ex; [|discriminate Hrc].
    destruct (C97_denials_were_heard g T l s t x k GO HT H Hin Hn Hk Et Ex) as (last & A & B). now exists (x_answers x), last.
Qed.
Print Assumptions C97_clients_are_told_what_was_heard.

(** If nothing came back so far, all there is to tell is about the built-in root servers, and
    no name is said not to exist. *)
Theorem C97_silence_tells_nothing : forall g T s t x k, setting_ok g -> (T < g_until g)%N -> history g (mkState cache_new T []) [] s -> In t (s_threads s) ->
  accepted (t_node t) -> usable_type (t_kind t) -> t_todo t = P_end (Done (Ok x), k) ->
  x_none x = false /\ Forall (fun r => exists s r0 ttl, In s root_zone_nameservers /\ (r0 = n_rec s \/ In r0 (n_addrs s)) /\ r = set_ttl r0 ttl) (x_answers x ++ x_authorities x ++ x_additionals x).
Proof.
  intros g T s t x k GO HT H Hin Hn Hk Et. split.
  - destruct (x_none x) eqn:Ex; [|reflexivity]. destruct (C97_denials_were_heard g T [] s t x k GO HT H Hin Hn Hk Et Ex) as (last & _ & id & x' & m & kd & (a & d & [] & _) & _).
  - eapply Forall_impl; [|exact (C97_answers_say_what_was_heard g T [] s t x k GO HT H Hin Hn Hk Et)].
    intros r (r0 & ttl & E & [(sv & H1 & H2)|(id & x' & m & (a & d & [] & _) & _)]). now exists sv, r0, ttl.
Qed.
Print Assumptions C97_silence_tells_nothing.

Lemma course_reached_from : forall g T s, course g s -> reached_from g T (s 0) -> forall n, reached_from g T (s n).
Proof.
  intros g T s Hs (HT & H) n. split; [exact HT|]. induction n as [|n IH]; [exact H|]. destruct (Hs n) as [->|St]; [exact IH|]. eapply steps_more; eassumption.
Qed.
Lemma third_is_denied : forall ts a b, map found ts = [a; b; (1, Some ([], true))] -> exists t x k, In t ts /\ t_todo t = P_end (Done (Ok x), k) /\ x_none x = true.
Proof.
  intros [|t1 [|t2 [|t3 ts]]] a b F; [discriminate F..|]. exists t3. assert (F3 : found t3 = (1, Some ([], true))) by (cbn [map] in F; congruence). unfold found, shown in F3.
  destruct (t_todo t3) as [[r k]| |]; [|discriminate F3..]. destruct r as [[x|e]|j|]; [|discriminate F3..]. exists x, k. split; [right; right; now left|]. split; [reflexivity|]. congruence.
Qed.
(** * Example: the three lookups of C94. Two find something, the third is told that its name
    does not exist. *)
Theorem C97_nonvacuous : let g := m_setting Release 256 in let s := do_steps m_net g m_turns started in
  setting_ok g /\ (0 < g_until g)%N /\
  map found (s_threads (s 125)) = [(8, Some (map bare (w_alias :: w_www), false)); (4, Some (map bare w_www, false)); (1, Some ([], true))] /\
  map (fun t => (t_node t, t_kind t)) (s_threads (s 125)) = [(s2b "www.com.", RT_A); (s2b "www.ex.com.", RT_A); (s2b "x.com.", RT_A)] /\
  Forall (fun t => accepted (t_node t) /\ usable_type (t_kind t)) (s_threads (s 125)) /\
  exists l, history g (mkState cache_new 0 []) l (s 125) /\ l <> [].
Proof.
  intros g s. destruct C94_nonvacuous as (A1 & _ & _ & A4 & A5 & _ & _ & _ & _ & A9). split; [exact A1|]. split; [apply A4|]. split; [exact A9|].
  assert (X : map (fun t => (t_node t, t_kind t)) (s_threads (s 125)) = [(s2b "www.com.", RT_A); (s2b "www.ex.com.", RT_A); (s2b "x.com.", RT_A)]) by (vm_compute; reflexivity).
  split; [exact X|].
  assert (Q : Forall (fun t => accepted (t_node t) /\ usable_type (t_kind t)) (s_threads (s 125))).
  { apply Forall_forall. intros t Ht. apply (in_map (fun t => (t_node t, t_kind t))) in Ht. rewrite X in Ht.
    destruct Ht as [Ht|[Ht|[Ht|[]]]]; apply pair_equal_spec in Ht as (<- & <-); (split; [apply checked_accepted; vm_compute; reflexivity|unfold usable_type; tauto]). }
  split; [exact Q|].
  assert (R : reached_from g 0 (s 125)).
  { exact (course_reached_from g 0 s A5 A4 125). }
  destruct (C97_every_state_has_a_history g 0 (s 125) R) as (l & H). exists l. split; [exact H|]. intros ->.
  destruct (third_is_denied _ _ _ A9) as (t & x & k & Hin & Et & Ex). rewrite Forall_forall in Q. destruct (Q t Hin) as (Q1 & Q2).
  pose proof (proj1 (C97_silence_tells_nothing g 0 (s 125) t x k A1 (proj1 A4) H Hin Q1 Q2 Et)) as E. rewrite Ex in E. discriminate E.
Qed.
Print Assumptions C97_nonvacuous.
