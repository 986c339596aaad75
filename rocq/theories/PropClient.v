(** C86: in a healthy domain name system, clients of the resolver are told what there is. *)
From Coq Require Import Permutation.
From Verif Require Import Base Types Name NameSpec NameProofs Buffer Reader Codec CodecSpec CodecWrite CodecMessage CodecFacts PropCodec1 PropCodec2 PropCodec3 EncodeTotal Zone ZoneSpec NsHandler NsSpec PropNs PropNs2
  Cache Resolver ResolverLists ResolverSpec ResolverInv ResolverRun ResolverFacts ResolverFuel ResolverEx PropResolver1 PropResolver2 PropResolver3 Trace TraceSpec PropTrace RsHandler PropRs PropResolver5 ResolverStays PropResolver7 PropTalk HealthSpec HealthRun PropHealth ClientSpec PublishSpec PropPublish ResolverNest NestSpec NestRun.

Section Clients.
  Context (p : profile) (lg : bool) (env : environment) (D : directory) (Y : layout) (T : N) (conf : rconf) (n0 : nat).
  Let start : N := ev_now (env n0).
  Context (EO : env_ok plain_record env) (Quick : forall n, (ev_now' (env n) < ev_now (env n) + SECOND)%N).
  Context (HE : healthy p env D Y start T (max_retries conf) (max_ns conf)) (HOt : others_true env D Y start T).
  Context (Hnf : no_follow conf = false).
  Context (fuel : nat) (Hfuel : 256 < fuel /\ forall z, D z RT_NS <> [] -> 256 + depth Y z < fuel).
  (** the zones the servers speak of *)
  Context (Z : list name) (Hlog : p = Release \/ lg = false \/ only_zones p env Z /\ length Z <= 255).
  Let few (w : world) : Prop := only_zones p env Z -> cache_ok (known_zones Z) (ev_now (env (w_n w))) (w_cache w).
  Notation winv := (winv env plain_record (fun _ => True) 0).
  Notation wise := (wise env D Y T n0 (fun _ => True)).

  (** The world after serving a query is that after its lookup. *)
  Lemma served_world : forall x req q w, query_packet p (snd x) req q -> snd (serve_one p lg env fuel conf x w) = snd (snd (perform p env fuel (new_lookup conf (q_node q) (q_type q), w))).
  Proof.
    intros [tr l] req q w (Hl & H512 & E & (V1 & V2 & V3 & V4) & V5). cbn [snd] in *.
    assert (G : forall reply, snd (rs_serve p lg env fuel conf (read_message p l) reply w) = snd (snd (perform p env fuel (new_lookup conf (q_node q) (q_type q), w)))).
    { intros reply. unfold rs_serve. rewrite (read_decoded p l req E). unfold wbind at 1, wexec at 1. unfold rs_handle_request. unfold wbind at 1. unfold wbind at 1.
      assert (Em : snd (rs_handle_message p lg env fuel conf req w) = snd (snd (perform p env fuel (new_lookup conf (q_node q) (q_type q), w)))).
      { unfold rs_handle_message. replace (rs_validate req) with true by (symmetry; apply validate_asks; now repeat split).
        unfold wbind at 1, wexec. rewrite V4. cbn [index nth_error]. unfold rs_handle_query, wbind, wexec. rewrite V4. cbn [index nth_error].
        destruct (perform p env fuel (new_lookup conf (q_node q) (q_type q), w)) as [[r|k|] [l1 w1]]; reflexivity. }
      rewrite <- Em. destruct (rs_handle_message p lg env fuel conf req w) as [[m|k|] w1]; try reflexivity. unfold wret at 1. unfold wbind, wexec. destruct (reply m); reflexivity. }
    unfold serve_one. cbn [fst snd]. destruct tr.
    - unfold rs_serve_udp, udp_read, MAX_UDP_LEN_BYTES. rewrite firstn_all2 by assumption. apply G.
    - unfold rs_serve_tcp. rewrite <- (app_nil_r (on_tcp l)), C38_request_framing by lia. apply G.
  Qed.

  Lemma one_client : forall x req q w, winv w -> wise w -> few w -> client_query p D Y env conf (snd x) req q ->
    late env T (snd (serve_one p lg env fuel conf x w)) \/ served p D Y env conf x (fst (serve_one p lg env fuel conf x w)) /\ winv (snd (serve_one p lg env fuel conf x w)) /\ wise (snd (serve_one p lg env fuel conf x w)) /\ few (snd (serve_one p lg env fuel conf x w)).
  Proof.
    intros x req q w Hw Hws Hfew CQ. pose proof CQ as (QP & FQ & NT & OL). rewrite (served_world x req q w QP).
    destruct (perform p env fuel (new_lookup conf (q_node q) (q_type q), w)) as [res [k w']] eqn:Ep. cbn [snd].
    destruct (one_lookup p env D Y T conf n0 EO Quick HE (fun _ => True) (extra_none _ _ _ _ _ HOt) Hnf fuel Hfuel (q_node q) (q_type q) w Hw Hws FQ OL res k w' Ep) as [L|(RA & Hw' & Hws')]; [now left|right].
    assert (Hzs : only_zones p env Z -> cache_ok (known_zones Z) (ev_now (env (w_n w'))) (w_cache w') /\ nesting (l_trace k) <= length Z).
    { intros OZ. destruct FQ as (Sq & Uq & _). pose proof (zones_run p env conf (q_node q) (q_type q) w fuel Z OZ (Hfew OZ) (sendable_accepted _ Sq) Uq) as ZR. rewrite Ep in ZR. exact ZR. }
    split; [|split; [exact Hw'|split; [apply (Hws' NT)|intros OZ; apply (Hzs OZ)]]]. destruct RA as (cs & rs & r & cs' & rs' & Hl & Er & Ea & Ec & Es & Hnone).
    pose proof QP as (HB & H512 & E & (V1 & V2 & V3 & V4) & V5).
    pose proof (C20_decoded_is_supported p (snd x) req HB E) as (Ho & Hq & _). rewrite V4 in Hq. inversion Hq as [|? ? (Hn & Hc & Hk) _]; subst. clear Hq.
    destruct finitely_many_names as (U & HU).
    assert (HD : denials p env (fun _ => True) 0 (fun _ _ => True)) by (intros n _ a y d m _ _ _ _ _ nd kd _ _ _ _; exact I).
    pose proof (run_class p env plain_record (fun _ => True) False False conf (q_node q) (q_type q) w fuel U EO (plain_is_a_class p env (eo_bytes _ _ EO)) HD (proj1 Hw) Hn Hk
      (fun f => match f with end) (fun f => match f with end) (fun f => match f with end) HU (fun f => match f with end)) as R.
    rewrite Ep in R. cbn [okL] in R. destruct R as (_ & cs0 & last & rs0 & _ & _ & _ & _ & _ & R & _).
    assert (Hlog' : exists o, log_trace p lg (l_trace k) = Done o).
    { apply log_trace_ok. destruct Hlog as [X|[X|(OZ & X)]]; auto. right. right. pose proof (proj2 (Hzs OZ)). lia. }
    destruct Hlog' as (o & Hlog').
    assert (Em : rs_handle_message p lg env fuel conf req w = (Done (rs_reply_to req (Ok r)), w')).
    { unfold rs_handle_message. replace (rs_validate req) with true by (symmetry; apply validate_asks; now repeat split).
      unfold wbind at 1, wexec. rewrite V4. cbn [index nth_error]. unfold rs_handle_query, wbind, wexec. rewrite V4. cbn [index nth_error]. rewrite Ep, Hlog'. reflexivity. }
    destruct (reply_reports req (Ok r)) as (R1 & R2 & R3). rewrite V5 in R2.
    set (reply := rs_reply_to req (Ok r)) in *.
    assert (En : encodable_message p reply).
    { pose proof R1 as (_ & Mo & _ & _ & _ & _ & _ & Mq). pose proof R2 as (C1 & C2 & C3 & C4).
      assert (L : forall n, N.to_nat (N.of_nat n mod 65536) <= n). { intros n. pose proof (N.mod_le (N.of_nat n) 65536 ltac:(lia)). lia. }
      assert (G : Forall (encodable_r p) (m_answers reply) /\ Forall (encodable_r p) (m_authorities reply) /\ Forall (encodable_r p) (m_additionals reply)).
      { assert (T0 : forall l, Forall plain_record l -> Forall (encodable_r p) l).
        { intros l T0. eapply Forall_impl; [|exact T0]. intros a (A & B). now apply record_fine_encodable. }
        apply Forall_app in R as (RA & R). apply Forall_app in R as (RB & RC).
        unfold reply, rs_reply_to. destruct (x_none r); cbn [rs_handle_err m_answers m_authorities m_additionals]; repeat split; auto. }
      destruct G as (G1 & G2 & G3). unfold encodable_message. rewrite Mo, Mq, V4, C1, C2, C3, C4. repeat split; auto.
      constructor; [now apply question_encodable|constructor]. }
    assert (Tl : tells D req q reply).
    { split; [exact R1|]. split; [exact R2|]. exists cs, rs. split; [exact Hl|]. unfold reports in R3. destruct (x_none r).
      - left. split; [now apply Hnone|exact R3].
      - right. split; [intros C; apply Hnone in C; discriminate C|]. exists cs', rs', (x_authorities r), (x_additionals r). rewrite Ea in R3. split; [exact R3|]. split; [exact Ec|exact Es]. }
    destruct (reply_both p _ En) as (u & t & Eu & Et). unfold serve_one, served. destruct x as [tr l]. cbn [fst snd] in *. destruct tr.
    - exists req, q, reply, u. split; [exact CQ|]. split; [exact Tl|]. split.
      + unfold rs_serve_udp, udp_read, MAX_UDP_LEN_BYTES. rewrite firstn_all2 by assumption. now rewrite (serve_done p lg env fuel conf l _ w req _ w' u E Em Eu).
      + assert (Eu' : encode_message_trunc p reply = Done (Ok u)) by (unfold udp_reply in Eu; destruct (encode_message_trunc p reply) as [[y|e]|k'|]; cbn [bind] in Eu; congruence).
        split; [exact Eu'|]. intros Hok Hlen. pose proof (C25_short_messages_unchanged p reply (wire_message reply) (message_ok_typed _ Hok) (C19_encode_message p reply Hok) Hlen) as X. congruence.
    - exists req, q, reply, t. split; [exact CQ|]. split; [exact Tl|]. split.
      + unfold rs_serve_tcp. rewrite <- (app_nil_r (on_tcp l)), C38_request_framing by lia. now rewrite (serve_done p lg env fuel conf l _ w req _ w' t E Em Et).
      + destruct (encode_message p reply) as [[body|e]|k'|] eqn:Eb; [|unfold tcp_reply in Et; rewrite Eb in Et; discriminate Et..].
        rewrite (C38_reply_framing_modulo p reply body Eb) in Et. assert (Et' : t = be16 (N.of_nat (length body) mod 65536) ++ body) by congruence. split.
        * exists body. now split.
        * intros Hok Hlen. pose proof (C19_encode_message p reply Hok) as X. assert (body = wire_message reply) by congruence. subst body. rewrite Et', N.mod_small by exact Hlen. reflexivity.
  Qed.

  Lemma clients_late : forall xs w, Forall (fun x => exists req q, client_query p D Y env conf (snd x) req q) xs -> late env T w -> late env T (snd (serve_all p lg env fuel conf xs w)).
  Proof.
    induction xs as [|x xs IH]; intros w Hx L; [exact L|]. inversion Hx as [|? ? (req & q & QP & _) Hx']; subst. cbn [serve_all]. pose proof (served_world x req q w QP) as Sw.
    pose proof (lookup_late p env D Y T conf fuel Hfuel (q_node q) (q_type q) w L) as L1. rewrite <- Sw in L1. destruct (serve_one p lg env fuel conf x w) as [r w1]. cbn [snd] in L1.
    specialize (IH w1 Hx' L1). destruct (serve_all p lg env fuel conf xs w1) as [rs w2]. exact IH.
  Qed.
  Lemma all_clients : forall xs w, winv w -> wise w -> few w -> Forall (fun x => exists req q, client_query p D Y env conf (snd x) req q) xs ->
    late env T (snd (serve_all p lg env fuel conf xs w)) \/ Forall2 (served p D Y env conf) xs (fst (serve_all p lg env fuel conf xs w)).
  Proof.
    induction xs as [|x xs IH]; intros w Hw Hws Hfew Hx; [right; constructor|]. inversion Hx as [|? ? (req & q & CQ) Hx']; subst. cbn [serve_all].
    destruct (one_client x req q w Hw Hws Hfew CQ) as [L|(Sv & Hw1 & Hws1 & Hf1)]; destruct (serve_one p lg env fuel conf x w) as [r w1]; cbn [fst snd] in *.
    - left. pose proof (clients_late xs w1 Hx' L) as L2. destruct (serve_all p lg env fuel conf xs w1). exact L2.
    - specialize (IH w1 Hw1 Hws1 Hf1 Hx'). destruct (serve_all p lg env fuel conf xs w1) as [rs w2]. cbn [fst snd] in *. destruct IH as [L|F]; [now left|right]. now constructor.
  Qed.
End Clients.

(** The DNS is healthy (C78). Then all clients' queries, over UDP and TCP, one after the
    other, get replies, from the bytes received to the bytes sent, that tell what there is.
    (C78 says what is excluded; debug builds that log at level info must hear of at most
    255 zones, see C83 and C91.) *)
Theorem C86_clients_are_told_what_is_there_partial : forall p lg env D Y T conf xs w fuel outs w',
  env_ok plain_record env -> (forall n, (ev_now' (env n) < ev_now (env n) + SECOND)%N) ->
  healthy p env D Y (ev_now (env (w_n w))) T (max_retries conf) (max_ns conf) -> others_true env D Y (ev_now (env (w_n w))) T ->
  cache_ok plain_record (ev_now (env (w_n w))) (w_cache w) -> cache_true D Y (ev_now (env (w_n w))) T (w_cache w) ->
  no_follow conf = false -> Forall (fun x => exists req q, client_query p D Y env conf (snd x) req q) xs ->
  256 < fuel /\ (forall z, D z RT_NS <> [] -> 256 + depth Y z < fuel) ->
  p = Release \/ lg = false \/ (exists Z, only_zones p env Z /\ cache_ok (known_zones Z) (ev_now (env (w_n w))) (w_cache w) /\ length Z <= 255) ->
  serve_all p lg env fuel conf xs w = (outs, w') -> (forall m, m < w_n w' -> (ev_now' (env m) < T)%N) ->
  Forall2 (served p D Y env conf) xs outs.
Proof.
  intros p lg env D Y T conf xs w fuel outs w' EO Quick HE HOt Hc Ht Hnf Hx Hf Hlog E Htime.
  assert (HZ : exists Z, (p = Release \/ lg = false \/ only_zones p env Z /\ length Z <= 255) /\ (only_zones p env Z -> cache_ok (known_zones Z) (ev_now (env (w_n w))) (w_cache w))).
  { destruct Hlog as [X|[X|(Z & A & B & C)]]; [exists []; split; [now left|intros [[] _ _]]|exists []; split; [right; now left|intros [[] _ _]]|exists Z; split; [right; right; now split|auto]]. }
  destruct HZ as (Z & Hl & Hz).
  destruct (all_clients p lg env D Y T conf (w_n w) EO Quick HE HOt Hnf fuel Hf Z Hl xs w) as [L|R]; try assumption.
  - split; [exact Hc|]. split; [apply Forall_forall; intros; exact I|lia].
  - split; [lia|exact Ht].
  - rewrite E in L. destruct L as (m & M1 & M2). specialize (Htime m M1). lia.
  - rewrite E in R. exact R.
Qed.
Print Assumptions C86_clients_are_told_what_is_there_partial.

(** From zone files to clients: zones published with name servers of this project (C85),
    asked for through a resolver of this project. *)
Theorem C86_published_zones_reach_clients_partial : forall p lg env D Y T conf xs w fuel outs w',
  env_ok plain_record env -> (forall n, (ev_now' (env n) < ev_now (env n) + SECOND)%N) ->
  published_dns D Y (ev_now (env (w_n w))) T p env (max_retries conf) (max_ns conf) -> others_true env D Y (ev_now (env (w_n w))) T ->
  cache_ok plain_record (ev_now (env (w_n w))) (w_cache w) -> cache_true D Y (ev_now (env (w_n w))) T (w_cache w) ->
  no_follow conf = false -> Forall (fun x => exists req q, client_query p D Y env conf (snd x) req q) xs ->
  256 < fuel /\ (forall z, D z RT_NS <> [] -> 256 + depth Y z < fuel) ->
  p = Release \/ lg = false \/ (exists Z, only_zones p env Z /\ cache_ok (known_zones Z) (ev_now (env (w_n w))) (w_cache w) /\ length Z <= 255) ->
  serve_all p lg env fuel conf xs w = (outs, w') -> (forall m, m < w_n w' -> (ev_now' (env m) < T)%N) ->
  Forall2 (served p D Y env conf) xs outs.
Proof.
  intros p lg env D Y T conf xs w fuel outs w' EO Quick PD HOt Hc Ht Hnf Hx Hf Hlog E Htime.
  apply (C86_clients_are_told_what_is_there_partial p lg env D Y T conf xs w fuel outs w'); try assumption. apply published_healthy; [apply (eo_ids _ _ EO)|exact PD].
Qed.
Print Assumptions C86_published_zones_reach_clients_partial.
