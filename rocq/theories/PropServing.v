(** Property C98: the resolver while it serves. *)
From Coq Require Import Wf_nat.
From Verif Require Import Base Types Name NameSpec NameProofs Codec CodecSpec CodecFacts PropCodec3 NsHandler NsSpec PropNs PropNs2
  Cache Resolver ResolverSpec ResolverInv ResolverFacts ResolverEx PropResolver3 Trace RsHandler PropRs PropResolver5 PropResolver7 PropTalk HealthSpec HealthEx ClientSpec PublishSpec PropPublish PublishEx PublishEx2 NestSpec
  Process ProcessRun ProcessSafe Many PropMany PropMany2 ManyTrue PropManyTrue ManyClient Server.
From Verif Require Pool.

(** The handler is what [plan_of] says, and the lookup and the rest if it says so. *)
Theorem C98_the_handler_does_what_is_planned : forall p lg env fuel conf x w,
  (match fst x with Udp => rs_serve_udp p lg env fuel conf (snd x) | Tcp => rs_serve_tcp p lg env fuel conf (snd x) end) w =
  match plan_of p x with
  | Q_now r => (r, w)
  | Q_lookup req q => let '(r, (l, w')) := perform p env fuel (new_lookup conf (q_node q) (q_type q), w) in
                      (let! b := rs_finish p lg (fst x) req (r, l) in Done (Some b), w')
  end.
Proof.
  intros p lg env fuel conf [tr x] w.
  assert (G : forall send read, (forall m, send m = rs_send p tr m) -> rs_serve p lg env fuel conf read send w =
    match match read with
          | Done (FullMessage m) =>
              if rs_validate m then match index (m_questions m) 0 with Done q => Q_lookup m q | Panic k => Q_now (Panic k) | Diverge => Q_now Diverge end
              else Q_now (let! b := rs_send p tr (rs_handle_err m RC_FormErr) in Done (Some b))
          | Done (HeaderOnly h e) => Q_now (let! b := rs_send p tr (rs_handle_decode_err h e) in Done (Some b))
          | Done (ParseErr _ _) | Done IoErr => Q_now (Done None)
          | Panic k => Q_now (Panic k)
          | Diverge => Q_now Diverge
          end with
    | Q_now r => (r, w)
    | Q_lookup req q => let '(r, (l, w')) := perform p env fuel (new_lookup conf (q_node q) (q_type q), w) in (let! b := rs_finish p lg tr req (r, l) in Done (Some b), w')
    end).
  { intros send [[m|h e|e he|]|k|] E; unfold rs_serve, wbind, wexec, wret; cbn [rs_handle_request]; unfold wret; try reflexivity.
    - unfold wbind, rs_handle_message. destruct (rs_validate m).
      + unfold wbind, wexec, rs_handle_query, wbind, wexec. destruct (index (m_questions m) 0) as [q|k|] eqn:Ei; try reflexivity.
        destruct (perform p env fuel (new_lookup conf (q_node q) (q_type q), w)) as [[r|k|] [l w']]; try reflexivity. unfold rs_finish. cbn [fst snd bind].
        destruct (log_trace p lg (l_trace l)) as [u|k|]; cbn [bind]; try reflexivity. unfold wret. rewrite E. destruct (rs_send p tr (rs_reply_to m r)); reflexivity.
      + unfold wret. rewrite E. destruct (rs_send p tr _); reflexivity.
    - rewrite E. destruct (rs_send p tr _); reflexivity. }
  unfold plan_of, read_request, rs_serve_udp, rs_serve_tcp. cbn [fst snd]. cbv zeta.
  destruct tr; apply G; intros m; unfold rs_send; reflexivity.
Qed.
Print Assumptions C98_the_handler_does_what_is_planned.

(** So queries are looked up. *)
Lemma queries_are_planned : forall p tr l req q, query_packet p l req q -> plan_of p (tr, match tr with Udp => l | Tcp => on_tcp l end) = Q_lookup req q.
Proof.
  intros p tr l req q (Hl & H512 & E & (V1 & V2 & V3 & V4) & V5).
  assert (X : read_request p (tr, match tr with Udp => l | Tcp => on_tcp l end) = Done (FullMessage req)).
  { unfold read_request. cbn [fst snd]. destruct tr.
    - unfold udp_read, MAX_UDP_LEN_BYTES. rewrite firstn_all2 by assumption. now apply read_decoded.
    - rewrite <- (app_nil_r (on_tcp l)), C38_request_framing by lia. now apply read_decoded. }
  unfold plan_of. rewrite X. replace (rs_validate req) with true by (symmetry; apply validate_asks; now repeat split). rewrite V4. reflexivity.
Qed.

(** * Pools *)
Notation pool := (Pool.pool nat).
Notation pstep := (Pool.step (fun _ : nat => True) (fun _ : nat => True)).
Notation queue := (@Pool.p_queue nat).
Notation workers := (@Pool.p_workers nat).
Definition queued (a : pool) (c : nat) : Prop := In (Pool.WJob c) (queue a).
Definition running (a : pool) (c : nat) : Prop := In (Pool.W_run c) (workers a).
Record pool_ok (a : pool) : Prop := mkPoolOk {
  po_open : Pool.p_owner a = Pool.O_open; po_lock : Pool.p_poisoned a = false;
  po_workers : forall w, In w (workers a) -> w <> Pool.W_end /\ w <> Pool.W_dead;
  po_some : workers a <> []; po_jobs : forall m, In m (queue a) -> exists c, m = Pool.WJob c }.

Definition change (e : Pool.event nat) (a b : pool) : Prop :=
  match e with
  | Pool.E_execute c => queue b = queue a ++ [Pool.WJob c] /\ workers b = workers a
  | Pool.E_worker => queue b = queue a /\ exists l1 l2, workers a = l1 ++ Pool.W_ready :: l2 /\ workers b = l1 ++ Pool.W_recv :: l2 /\ ~ In Pool.W_recv (workers a)
  | Pool.E_start i c => queue a = Pool.WJob c :: queue b /\ exists l1 l2, workers a = l1 ++ Pool.W_recv :: l2 /\ workers b = l1 ++ Pool.W_run c :: l2 /\ i = length l1
  | Pool.E_return i c => queue b = queue a /\ exists l1 l2, workers a = l1 ++ Pool.W_run c :: l2 /\ workers b = l1 ++ Pool.W_ready :: l2 /\ i = length l1
  | _ => False
  end.
Definition served (e : Pool.event nat) : Prop := match e with Pool.E_execute _ | Pool.E_worker | Pool.E_start _ _ | Pool.E_return _ _ => True | _ => False end.
Lemma pool_changes : forall a e b, pool_ok a -> served e -> pstep a e b -> change e a b /\ pool_ok b.
Proof.
  assert (M : forall (l1 : list (Pool.wstate nat)) x y l2, (forall w, In w (l1 ++ x :: l2) -> w <> Pool.W_end /\ w <> Pool.W_dead) -> y <> Pool.W_end /\ y <> Pool.W_dead ->
    forall w, In w (l1 ++ y :: l2) -> w <> Pool.W_end /\ w <> Pool.W_dead).
  { intros l1 x y l2 H Hy w Hw. apply in_app_or in Hw as [Hw|[<-|Hw]]; [apply H, in_or_app; now left|exact Hy|apply H, in_or_app; right; now right]. }
  intros a e b [P1 P2 P3 P4 P5] He St. inversion St; subst; cbn [Pool.p_owner Pool.p_poisoned Pool.p_queue Pool.p_workers served] in *; try contradiction; try discriminate P1; try discriminate P2.
  - split; [now split|]. split; try assumption. cbn [Pool.p_queue]. intros m Hm. apply in_app_or in Hm as [Hm|[<-|[]]]; [now apply P5|now exists j].
  - split; [split; [reflexivity|]; exists l1, l2; split; [reflexivity|]; split; [reflexivity|]; match goal with H : Pool.lock_free _ |- _ => exact H end|].
    split; cbn [Pool.p_owner Pool.p_poisoned Pool.p_queue Pool.p_workers]; try assumption; [eapply M; [exact P3|split; discriminate]|intros X; destruct l1; discriminate X].
  - split; [split; [reflexivity|]; exists l1, l2; split; [reflexivity|]; now split|].
    split; cbn [Pool.p_owner Pool.p_poisoned Pool.p_queue Pool.p_workers]; try assumption; [eapply M; [exact P3|split; discriminate]|intros X; destruct l1; discriminate X|intros m Hm; apply P5; now right].
  - exfalso. destruct (P5 Pool.WStop (or_introl eq_refl)) as (c & X). discriminate X.
  - exfalso. match goal with H : ~ Pool.sender_exists _ |- _ => apply H end. unfold Pool.sender_exists. cbn [Pool.p_owner]. subst o. exact Logic.I.
  - split; [split; [reflexivity|]; exists l1, l2; split; [reflexivity|]; now split|].
    split; cbn [Pool.p_owner Pool.p_poisoned Pool.p_queue Pool.p_workers]; try assumption; [eapply M; [exact P3|split; discriminate]|intros X; destruct l1; discriminate X].
Qed.
Lemma panic_runs : forall (a : pool) i c b, pstep a (Pool.E_panic i c) b -> running a c.
Proof. intros a i c b H. inversion H; subst. unfold running. cbn. apply in_or_app. right. now left. Qed.

(** Who waits and who is worked for, after a change. *)
Lemma in_middle : forall A (l1 : list A) x y l2 z, In z (l1 ++ x :: l2) -> z = x \/ In z (l1 ++ y :: l2).
Proof. intros A l1 x y l2 z H. apply in_app_or in H as [H|[H|H]]; [right; apply in_or_app; now left|left; now symmetry|right; apply in_or_app; right; now right]. Qed.
Definition gets (e : Pool.event nat) (c : nat) : Prop := match e with Pool.E_execute d => d = c | _ => False end.
Definition starts (e : Pool.event nat) (c : nat) : Prop := match e with Pool.E_start _ d => d = c | _ => False end.
Definition returned (e : Pool.event nat) (c : nat) : Prop := match e with Pool.E_return _ d => d = c | _ => False end.
Lemma who_changes : forall e a b c, change e a b ->
  (queued b c -> queued a c \/ gets e c) /\ (running b c -> running a c \/ starts e c) /\ (starts e c -> queued a c) /\
  (queued a c -> queued b c \/ running b c) /\ (running a c -> running b c \/ returned e c) /\ (gets e c -> queued b c) /\ (starts e c -> running b c) /\ (returned e c -> running a c).
Proof.
  intros e a b c H. unfold queued, running. destruct e as [d|d|i d|i d|i d| | | | |]; cbn [change gets starts returned] in *; try contradiction.
  - destruct H as (-> & ->). repeat split; try tauto; intros H; [apply in_app_or in H as [H|[H|[]]]; [now left|right; congruence]|left; apply in_or_app; now left|subst d; apply in_or_app; right; now left].
  - destruct H as (E & l1 & l2 & Ea & Eb & _). rewrite Ea, Eb, E. split; [intros H; left; now right|]. split; [intros H; destruct (in_middle _ _ _ Pool.W_recv _ _ H) as [X|X]; [right; congruence|now left]|].
    split; [intros ->; now left|]. split; [intros [X|X]; [right; apply in_or_app; right; left; congruence|now left]|].
    split; [intros H; destruct (in_middle _ _ _ (Pool.W_run d) _ _ H) as [X|X]; [discriminate X|now left]|]. split; [tauto|]. split; [intros ->; apply in_or_app; right; now left|tauto].
  - destruct H as (E & l1 & l2 & Ea & Eb & _). rewrite Ea, Eb, E. split; [tauto|]. split; [intros H; destruct (in_middle _ _ _ (Pool.W_run d) _ _ H) as [X|X]; [discriminate X|now left]|]. split; [tauto|].
    split; [tauto|]. split; [intros H; destruct (in_middle _ _ _ Pool.W_ready _ _ H) as [X|X]; [right; congruence|now left]|]. split; [tauto|]. split; [tauto|]. intros ->. apply in_or_app. right. now left.
  - destruct H as (E & l1 & l2 & Ea & Eb & _). rewrite Ea, Eb, E. split; [tauto|]. split; [intros H; destruct (in_middle _ _ _ Pool.W_ready _ _ H) as [X|X]; [discriminate X|now left]|]. split; [tauto|].
    split; [tauto|]. split; [intros H; destruct (in_middle _ _ _ Pool.W_recv _ _ H) as [X|X]; [discriminate X|now left]|]. tauto.
Qed.
Lemma set_same : forall v tr a, set_pool v tr a tr = a. Proof. now intros v [] a. Qed.
Lemma set_other : forall v tr a tr', tr <> tr' -> set_pool v tr a tr' = v tr'. Proof. intros v [] a [] H; try reflexivity; congruence. Qed.
Lemma transport_dec : forall a b : transport, {a = b} + {a <> b}. Proof. decide equality. Qed.

(** * The invariant *)
Section Served.
  Context (g : setting) (lg : bool) (conf : rconf) (requests : transport * list N -> Prop).
  Context (GO : setting_ok g) (D : directory) (Y : layout) (start : N) (retries servers : nat).
  Context (HS : healthy_setting g D Y start retries servers) (HA : anchors_known Y) (HL : logs_safely g lg).
  Context (T0 : N) (L0 : (start <= T0)%N).
  Notation p := (g_profile g).
  (** A request that does not make the handler panic by itself; if it is looked up, it is one
      of those that healthy settings are about. *)
  Definition tame (x : transport * list N) : Prop :=
    (exists r, plan_of p x = Q_now (Done r)) \/
    exists req q l, plan_of p x = Q_lookup req q /\ query_packet p l req q /\ g_asks g conf (q_node q) (q_type q).
  Context (Tame : forall x, requests x -> tame x).
  Notation sstep := (sstep g lg conf requests).
  Notation outcome := (outcome g lg).

  Definition settled (s : server) (c : nat) : Prop := exists o, outcome s c (Done o) /\ forall b, o = Some b -> In (c, b) (v_replies s).
  Record inv (s : server) : Prop := mkInv {
    i_many : reached_from g T0 (v_many s);
    i_pools : forall tr, pool_ok (v_pool s tr);
    i_requests : forall c x, nth_error (v_clients s) c = Some x -> requests x;
    i_jobs : forall tr c, queued (v_pool s tr) c \/ running (v_pool s tr) c -> exists x, nth_error (v_clients s) c = Some (tr, x);
    i_tasks : forall c k, In (c, k) (v_tasks s) -> exists x req q t, nth_error (v_clients s) c = Some x /\ plan_of p x = Q_lookup req q /\
       nth_error (s_threads (v_many s)) k = Some t /\ t_node t = q_node q /\ t_kind t = q_type q;
    i_running : forall tr c x req q, running (v_pool s tr) c -> nth_error (v_clients s) c = Some x -> plan_of p x = Q_lookup req q -> exists k, In (c, k) (v_tasks s);
    i_clients : forall c tr x, nth_error (v_clients s) c = Some (tr, x) -> queued (v_pool s tr) c \/ running (v_pool s tr) c \/ settled s c;
    i_replies : forall c b, In (c, b) (v_replies s) -> outcome s c (Done (Some b)) }.

  (** What has come of a request is never a panic, and for queries it is the right reply. *)
  Lemma outcome_right : forall s c r, inv s -> outcome s c r ->
    exists x o, nth_error (v_clients s) c = Some x /\ r = Done o /\
      forall req q, plan_of p x = Q_lookup req q -> exists reply b, o = Some b /\ tells D req q reply /\ sent_as p (fst x) reply b.
  Proof.
    intros s c r I H. inversion H as [x r' Ec Ep|x req q k t o Ec Ep Hk Et Eo]; subst.
    - exists x. destruct (Tame x (i_requests s I c x Ec)) as [(r' & E)|(req & q & l & E & _)]; rewrite Ep in E; [|discriminate E]. assert (X : r = Done r') by congruence. subst r. exists r'. split; [exact Ec|]. split; [reflexivity|]. intros req q E2. rewrite Ep in E2. discriminate E2.
    - destruct (i_tasks s I c k Hk) as (x' & req' & q' & t' & Ec' & Ep' & Et' & Q1 & Q2). assert (X : x' = x) by congruence. subst x'. assert (X : req' = req /\ q' = q) by (split; congruence). destruct X as (-> & ->). assert (X : t' = t) by congruence. subst t'.
      destruct (Tame x (i_requests s I c x Ec)) as [(r' & E)|(req' & q' & l & E & QP & _)]; rewrite Ep in E; [discriminate E|]. assert (X : req' = req /\ q' = q) by (split; congruence). destruct X as (-> & ->).
      destruct o as [ro lk].
      destruct (C95_clients_are_sent_what_is_there g lg D Y start retries servers T0 (v_many s) t ro lk GO HS HA HL L0 (i_many s I) (nth_error_In _ _ Et) Eo (fst x) l req q QP (eq_sym Q1) (eq_sym Q2)) as (reply & b & H1 & H2 & H3).
      exists x, (Some b). split; [exact Ec|]. split; [now rewrite H2|]. intros req' q' E'. assert (X : req' = req /\ q' = q) by (split; congruence). destruct X as (-> & ->). now exists reply, b.
  Qed.

  Lemma ended_stays : forall m m' k t o, Many.step g m m' -> nth_error (s_threads m) k = Some t -> t_todo t = P_end o ->
    exists t', nth_error (s_threads m') k = Some t' /\ t_node t' = t_node t /\ t_kind t' = t_kind t /\ t_todo t' = P_end o.
  Proof.
    intros m m' k t o St E Eo. destruct (step_goes g k m m' t St E) as (t' & E' & (A1 & A2 & A3) & C). exists t'. split; [exact E'|]. split; [exact A2|]. split; [exact A3|].
    destruct C as [C|C]; [congruence|]. rewrite Eo in C. inversion C.
  Qed.
  Lemma thread_stays : forall m m' k t, Many.step g m m' -> nth_error (s_threads m) k = Some t ->
    exists t', nth_error (s_threads m') k = Some t' /\ t_node t' = t_node t /\ t_kind t' = t_kind t.
  Proof. intros m m' k t St E. destruct (step_goes g k m m' t St E) as (t' & E' & (A1 & A2 & A3) & _). now exists t'. Qed.

  (** What a step does, without the pools. *)
  Lemma step_grows : forall s l s', sstep s l s' ->
    (v_many s' = v_many s \/ Many.step g (v_many s) (v_many s')) /\ (exists new, v_clients s' = v_clients s ++ new) /\ incl (v_tasks s) (v_tasks s') /\ incl (v_replies s) (v_replies s').
  Proof.
    intros s l s' St. inversion St; subst; cbn [v_many v_clients v_tasks v_replies].
    - split; [now left|]. split; [now exists [(tr, x)]|]. split; apply incl_refl.
    - split; [now left|]. split; [exists []; now rewrite app_nil_r|]. split; apply incl_refl.
    - split; [right; destruct m; now apply st_new|]. split; [exists []; now rewrite app_nil_r|]. split; [apply incl_tl, incl_refl|apply incl_refl].
    - split; [now left|]. split; [exists []; now rewrite app_nil_r|]. split; apply incl_refl.
    - split; [now right|]. split; [exists []; now rewrite app_nil_r|]. split; apply incl_refl.
    - split; [now left|]. split; [exists []; now rewrite app_nil_r|]. split; [apply incl_refl|]. destruct o; [apply incl_tl|]; apply incl_refl.
    - split; [now left|]. split; [exists []; now rewrite app_nil_r|]. split; apply incl_refl.
  Qed.
  Lemma client_stays : forall s l s' c x, sstep s l s' -> nth_error (v_clients s) c = Some x -> nth_error (v_clients s') c = Some x.
  Proof. intros s l s' c x St E. destruct (step_grows s l s' St) as (_ & (new & ->) & _). rewrite nth_error_app1; [exact E|]. apply nth_error_Some. congruence. Qed.
  Lemma outcome_stays : forall s l s' c r, sstep s l s' -> outcome s c r -> outcome s' c r.
  Proof.
    intros s l s' c r St H. destruct (step_grows s l s' St) as (Hm & _ & Ht & _). inversion H as [x r' Ec Ep|x req q k t o Ec Ep Hk Et Eo]; subst.
    - eapply oc_now; [eapply client_stays; eassumption|exact Ep].
    - assert (E : exists t', nth_error (s_threads (v_many s')) k = Some t' /\ t_todo t' = P_end o).
      { destruct Hm as [->|Hm]; [now exists t|]. destruct (ended_stays _ _ _ _ _ Hm Et Eo) as (t' & A & _ & _ & B). now exists t'. }
      destruct E as (t' & E1 & E2). eapply oc_lookup; [eapply client_stays; eassumption|exact Ep|apply Ht; exact Hk|exact E1|exact E2].
  Qed.

  (** What a step does to the pools. *)
  Lemma step_pools : forall s l s', inv s -> sstep s l s' ->
    (forall tr, v_pool s' tr = v_pool s tr) /\ l = L_many \/
    exists tr e, l = L_pool tr e /\ served e /\ change e (v_pool s tr) (v_pool s' tr) /\ pool_ok (v_pool s' tr) /\ forall tr', tr' <> tr -> v_pool s' tr' = v_pool s tr'.
  Proof.
    intros s l s' I St.
    assert (K : forall tr e pl, served e -> pstep (v_pool s tr) e pl -> v_pool s' = set_pool (v_pool s) tr pl -> l = L_pool tr e ->
      exists tr e, l = L_pool tr e /\ served e /\ change e (v_pool s tr) (v_pool s' tr) /\ pool_ok (v_pool s' tr) /\ forall tr', tr' <> tr -> v_pool s' tr' = v_pool s tr').
    { intros tr e pl Hs Hp -> ->. exists tr, e. rewrite set_same. destruct (pool_changes _ _ _ (i_pools s I tr) Hs Hp) as (A & B). split; [reflexivity|]. split; [exact Hs|]. split; [exact A|]. split; [exact B|]. intros tr' Hn. apply set_other. congruence. }
    inversion St; subst; cbn [v_pool] in *; try (right; eapply K; [| |reflexivity|reflexivity]; [exact Logic.I|assumption]); [left; split; reflexivity|].
    exfalso. match goal with H : Server.outcome _ _ _ _ (Panic _) |- _ => destruct (outcome_right _ _ _ I H) as (x & o & _ & E & _) end. discriminate E.
  Qed.

  Lemma step_inv : forall s l s', inv s -> sstep s l s' -> inv s'.
  Proof.
    intros s l s' I St. pose proof (step_grows s l s' St) as (Hm & (new & Hc) & Ht & Hr). pose proof (step_pools s l s' I St) as HP.
    assert (Who : forall tr c, (queued (v_pool s' tr) c -> queued (v_pool s tr) c \/ exists tr' e, l = L_pool tr' e /\ tr' = tr /\ gets e c) /\
      (running (v_pool s' tr) c -> running (v_pool s tr) c \/ exists tr' e, l = L_pool tr' e /\ tr' = tr /\ starts e c /\ queued (v_pool s tr) c) /\
      (queued (v_pool s tr) c -> queued (v_pool s' tr) c \/ running (v_pool s' tr) c) /\
      (running (v_pool s tr) c -> running (v_pool s' tr) c \/ exists tr' e, l = L_pool tr' e /\ tr' = tr /\ returned e c)).
    { intros tr c. destruct HP as [(E & _)|(tr' & e & El & _ & Ch & _ & E)]; [rewrite E; tauto|]. destruct (transport_dec tr tr') as [->|Hn]; [|rewrite (E tr Hn); tauto].
      destruct (who_changes e _ _ c Ch) as (W1 & W2 & W3 & W4 & W5 & W6 & W7 & W8). split; [intros H; destruct (W1 H); [now left|right; now exists tr', e]|].
      split; [intros H; destruct (W2 H); [now left|right; exists tr', e; auto]|]. split; [exact W4|]. intros H. destruct (W5 H); [now left|right; now exists tr', e]. }
    assert (Ct : forall c x, nth_error (v_clients s) c = Some x -> nth_error (v_clients s') c = Some x) by (intros c x; exact (client_stays s l s' c x St)).
    assert (New : forall c x, nth_error (v_clients s') c = Some x -> nth_error (v_clients s) c = Some x \/
       requests x /\ c = length (v_clients s) /\ exists e, l = L_pool (fst x) e /\ gets e c /\ queued (v_pool s' (fst x)) c).
    { intros c x E. inversion St; subst; cbn [v_clients v_pool] in *; try (left; exact E).
      destruct (Nat.lt_ge_cases c (length cs)) as [Hl|Hl]; [left; now rewrite nth_error_app1 in E by exact Hl|right].
      rewrite nth_error_app2 in E by exact Hl. destruct (c - length cs) as [|n] eqn:En; [|destruct n; discriminate E]. cbn [nth_error] in E. assert (X : x = (tr, x0)) by congruence. subst x. assert (X : c = length cs) by lia. subst c.
      split; [assumption|]. split; [reflexivity|]. cbn [fst]. eexists. split; [reflexivity|]. split; [reflexivity|]. rewrite set_same.
      match goal with H : pstep (v tr) _ _ |- _ => destruct (pool_changes _ _ _ (i_pools _ I tr) (Logic.I : served (Pool.E_execute (length cs))) H) as ((Q & _) & _) end.
      unfold queued. cbn [v_pool] in Q. rewrite Q. apply in_or_app. right. now left. }
    split.
    - destruct (i_many s I) as (HT & R). destruct Hm as [->|Hm]; [now split|]. split; [exact HT|]. eapply steps_more; eassumption.
    - intros tr. destruct HP as [(E & _)|(tr' & e & _ & _ & _ & Pk & E)]; [rewrite E; apply (i_pools s I)|]. destruct (transport_dec tr tr') as [->|Hn]; [exact Pk|]. rewrite (E tr Hn). apply (i_pools s I).
    - intros c x E. destruct (New c x E) as [H|(H & _)]; [exact (i_requests s I c x H)|exact H].
    - intros tr c H. destruct (Who tr c) as (W1 & W2 & _ & _).
      assert (X : (queued (v_pool s tr) c \/ running (v_pool s tr) c) \/ exists e, l = L_pool tr e /\ gets e c).
      { destruct H as [H|H]; [destruct (W1 H) as [X|(tr' & e & X & -> & Y1)]; [tauto|right; now exists e]|destruct (W2 H) as [X|(tr' & e & _ & _ & _ & X)]; tauto]. }
      destruct X as [X|(e & El & Hg)]; [destruct (i_jobs s I tr c X) as (x & E); exists x; now apply Ct|].
      clear - St Hg El. subst l. inversion St; subst; cbn [gets] in Hg; try contradiction.
      subst c. exists x. cbn [v_clients]. rewrite nth_error_app2, Nat.sub_diag by lia. reflexivity.
    - intros c k Hk.
      assert (Old : In (c, k) (v_tasks s) -> exists x req q t, nth_error (v_clients s') c = Some x /\ plan_of p x = Q_lookup req q /\ nth_error (s_threads (v_many s')) k = Some t /\ t_node t = q_node q /\ t_kind t = q_type q).
      { intros H. destruct (i_tasks s I c k H) as (x & req & q & t & E1 & E2 & E3 & E4 & E5). destruct Hm as [Em|Hm]; [exists x, req, q, t; rewrite Em; split; [now apply Ct|]; now repeat split|].
        destruct (thread_stays _ _ _ _ Hm E3) as (t' & F1 & F2 & F3). exists x, req, q, t'. split; [now apply Ct|]. split; [exact E2|]. split; [exact F1|]. split; congruence. }
      inversion St; subst; cbn [v_tasks] in *; try (now apply Old).
      destruct Hk as [Hk|Hk]; [|now apply Old]. injection Hk as <- <-. cbn [v_clients v_many s_threads]. do 3 eexists. eexists. split; [eassumption|]. split; [eassumption|]. rewrite nth_error_app2, Nat.sub_diag by lia. split; [reflexivity|]. now split.
    - intros tr c x req q Hrun Ec Ep. destruct (Who tr c) as (_ & W2 & _ & _). destruct (W2 Hrun) as [X|(tr' & e & El & -> & Hs & X)].
      + destruct (i_jobs s I tr c (or_intror X)) as (x' & E'). assert (Y2 : x = (tr, x')) by (apply Ct in E'; congruence). subst x. destruct (i_running s I tr c _ req q X E' Ep) as (k & Hk). exists k. now apply Ht.
      + destruct (i_jobs s I tr c (or_introl X)) as (x' & E'). assert (Y2 : x = (tr, x')) by (apply Ct in E'; congruence). subst x.
        subst l. inversion St; subst; cbn [starts] in Hs; try contradiction.
        * subst c. eexists. cbn [v_tasks]. left. reflexivity.
        * subst c. cbn [v_clients] in E'. assert (Z : x = (tr, x')) by congruence. subst x. congruence.
    - intros c tr x E. destruct (New c (tr, x) E) as [H|(_ & _ & e & _ & _ & H)]; [|now left].
      assert (Sd : settled s c -> settled s' c). { intros (o & O1 & O2). exists o. split; [exact (outcome_stays s l s' c _ St O1)|]. intros b Hb. apply Hr. now apply O2. }
      destruct (i_clients s I c tr x H) as [H1|[H1|H1]].
      + destruct (Who tr c) as (_ & _ & W3 & _). destruct (W3 H1); [now left|right; now left].
      + destruct (Who tr c) as (_ & _ & _ & W4). destruct (W4 H1) as [X|(tr' & e & El & -> & Hs)]; [right; now left|right; right].
        pose proof (fun r => outcome_stays s l s' c r St) as OS. subst l. inversion St; subst; cbn [returned] in Hs; try contradiction.
        subst c. exists o. split; [apply OS; assumption|]. cbn [v_replies]. intros b ->. now left.
      + right. right. now apply Sd.
    - intros c b Hb. assert (Old : In (c, b) (v_replies s) -> outcome s' c (Done (Some b))) by (intros H; exact (outcome_stays s l s' c _ St (i_replies s I c b H))).
      pose proof (fun c r => outcome_stays s l s' c r St) as OS. inversion St; subst; cbn [v_replies] in *; try (now apply Old). destruct o as [b'|]; [|now apply Old]. destruct Hb as [Hb|Hb]; [|now apply Old]. injection Hb as -> ->. apply OS. assumption.
  Qed.

  Lemma start_inv : forall size s, (T0 < g_until g)%N -> started_server T0 size s -> inv s.
  Proof.
    intros size s HT (E1 & E2 & E3 & E4 & E5).
    assert (N1 : forall tr c, ~ queued (v_pool s tr) c /\ ~ running (v_pool s tr) c).
    { intros tr c. destruct (E5 tr) as (_ & E). unfold queued, running. rewrite E. split; [intros []|]. intros H. cbn in H. apply repeat_spec in H. discriminate H. }
    split.
    - rewrite E1. split; [exact HT|constructor].
    - intros tr. destruct (E5 tr) as (Hs & E). rewrite E. split; cbn; try reflexivity.
      + intros w H. apply repeat_spec in H. subst w. split; discriminate.
      + destruct (size tr); [lia|discriminate].
      + intros m [].
    - rewrite E2. intros [|c] x H; discriminate H.
    - intros tr c [H|H]; now apply N1 in H.
    - rewrite E3. intros c k [].
    - intros tr c x req q H. now apply N1 in H.
    - rewrite E2. intros [|c] tr x H; discriminate H.
    - rewrite E4. intros c b [].
  Qed.

  (** * Courses of events *)
  Context (size : transport -> nat) (s : nat -> server).
  Context (HT : (T0 < g_until g)%N) (St0 : started_server T0 size (s 0)) (Co : serving_course g lg conf requests s).

  Lemma inv_at : forall n, inv (s n).
  Proof. induction n as [|n IH]; [exact (start_inv size _ HT St0)|]. destruct (Co n) as [->|(l & St)]; [exact IH|exact (step_inv _ _ _ IH St)]. Qed.
  Lemma grows_at : forall n k, n <= k -> (forall c x, nth_error (v_clients (s n)) c = Some x -> nth_error (v_clients (s k)) c = Some x) /\
    incl (v_tasks (s n)) (v_tasks (s k)) /\ incl (v_replies (s n)) (v_replies (s k)).
  Proof.
    intros n k H. induction H as [|k H (A & B & C)]; [split; [auto|split; apply incl_refl]|].
    destruct (Co k) as [->|(l & St)]; [now repeat split|]. destruct (step_grows _ _ _ St) as (_ & _ & Ht & Hr).
    split; [intros c x E; exact (client_stays _ _ _ _ _ St (A c x E))|]. split; eapply incl_tran; eassumption.
  Qed.
  Lemma many_course : course g (fun n => v_many (s n)).
  Proof. intros n. destruct (Co n) as [E|(l & St)]; [left; now rewrite E|]. destruct (step_grows _ _ _ St) as (H & _). exact H. Qed.
  Lemma change_at : forall n tr e, sstep (s n) (L_pool tr e) (s (S n)) -> change e (v_pool (s n) tr) (v_pool (s (S n)) tr).
  Proof.
    intros n tr e St. destruct (step_pools _ _ _ (inv_at n) St) as [(_ & X)|(tr' & e' & X & _ & C & _)]; [discriminate X|]. injection X as <- <-. exact C.
  Qed.
  Lemma pools_at : forall n tr, v_pool (s (S n)) tr = v_pool (s n) tr \/ exists e, sstep (s n) (L_pool tr e) (s (S n)) /\ change e (v_pool (s n) tr) (v_pool (s (S n)) tr).
  Proof.
    intros n tr. destruct (Co n) as [->|(l & St)]; [now left|]. destruct (step_pools _ _ _ (inv_at n) St) as [(E & _)|(tr' & e & -> & _ & C & _ & E)]; [left; apply E|].
    destruct (transport_dec tr tr') as [->|Hn]; [right; now exists e|left; now apply E].
  Qed.

  Lemma nth_mid : forall A (l1 : list A) x y l2 i, i <> length l1 -> nth_error (l1 ++ x :: l2) i = nth_error (l1 ++ y :: l2) i.
  Proof.
    induction l1 as [|z l1 IH]; intros x y l2 [|i] H; cbn in *; try reflexivity; [congruence|apply IH; congruence].
  Qed.
  Lemma nth_len : forall A (l1 : list A) x l2, nth_error (l1 ++ x :: l2) (length l1) = Some x.
  Proof. intros A l1 x l2. rewrite nth_error_app2, Nat.sub_diag by lia. reflexivity. Qed.
  Lemma run_stays : forall e a b i c, change e a b -> nth_error (workers a) i = Some (Pool.W_run c) -> nth_error (workers b) i = Some (Pool.W_run c) \/ e = Pool.E_return i c.
  Proof.
    intros e a b i c H E. destruct e as [d|d|j d|j d|j d| | | | |]; cbn [change] in H; try contradiction.
    - destruct H as (_ & ->). now left.
    - destruct H as (_ & l1 & l2 & Ea & Eb & Ej). rewrite Ea in E. rewrite Eb. left. destruct (Nat.eq_dec i (length l1)) as [->|Hn]; [rewrite nth_len in E; discriminate E|]. rewrite <- E. now apply nth_mid.
    - destruct H as (_ & l1 & l2 & Ea & Eb & Ej). rewrite Ea in E. rewrite Eb. destruct (Nat.eq_dec i (length l1)) as [->|Hn]; [right; rewrite nth_len in E; subst j; congruence|]. left. rewrite <- E. now apply nth_mid.
    - destruct H as (_ & l1 & l2 & Ea & Eb & Ej). rewrite Ea in E. rewrite Eb. left. destruct (Nat.eq_dec i (length l1)) as [->|Hn]; [rewrite nth_len in E; discriminate E|]. rewrite <- E. now apply nth_mid.
  Qed.
  Lemma returned_or_stays : forall tr i c n k, n <= k -> nth_error (workers (v_pool (s n) tr)) i = Some (Pool.W_run c) ->
    nth_error (workers (v_pool (s k) tr)) i = Some (Pool.W_run c) \/ exists m, n <= m /\ sstep (s m) (L_pool tr (Pool.E_return i c)) (s (S m)).
  Proof.
    intros tr i c n k H E. induction H as [|k H IH]; [now left|]. destruct IH as [IH|IH]; [|now right].
    destruct (pools_at k tr) as [X|(e & St & C)]; [left; now rewrite X|]. destruct (run_stays _ _ _ _ _ C IH) as [X|X]; [now left|right]. subst e. now exists k.
  Qed.

  Context (NS : nothing_starved g lg conf requests s).

  Lemma running_done : forall tr i c n, nth_error (workers (v_pool (s n) tr)) i = Some (Pool.W_run c) ->
    exists k, n <= k /\ sstep (s k) (L_pool tr (Pool.E_return i c)) (s (S k)).
  Proof.
    intros tr i c n E. destruct NS as (F & _ & R).
    pose proof (inv_at n) as I. pose proof (nth_error_In _ _ E) as Hrun. destruct (i_jobs _ I tr c (or_intror Hrun)) as (x & Ec).
    destruct (Tame _ (i_requests _ I _ _ Ec)) as [(r & Ep)|(req & q & l & Ep & QP & _)].
    - exact (R tr n i c r E (oc_now g lg (s n) c _ _ Ec Ep)).
    - destruct (i_running _ I tr c _ req q Hrun Ec Ep) as (k & Hk). destruct (i_tasks _ I c k Hk) as (x' & req' & q' & t & Ec' & Ep' & Et & Q1 & Q2).
      assert (X : x' = (tr, x)) by congruence. subst x'. assert (X : req' = req /\ q' = q) by (split; congruence). destruct X as (-> & ->).
      destruct (C95_every_client_is_served g lg D Y start retries servers T0 (fun n => v_many (s n)) k n t GO HS HA HL L0 (i_many _ (inv_at 0)) many_course (F k) Et tr l req q QP (eq_sym Q1) (eq_sym Q2))
        as (m & t' & o & reply & b & Lm & Et' & Eo & _ & Hb & _).
      destruct (grows_at n m Lm) as (G1 & G2 & _).
      destruct (returned_or_stays tr i c n m Lm E) as [Es|(j & Lj & St)]; [|exists j; now split].
      assert (O : outcome (s m) c (let! b := rs_finish p lg (fst (tr, x)) req o in Done (Some b))) by (eapply oc_lookup; [exact (G1 _ _ Ec)|exact Ep|exact (G2 _ Hk)|exact Et'|exact Eo]).
      cbn [fst] in O. rewrite Hb in O. cbn [bind] in O. destruct (R tr m i c _ Es O) as (j & Lj & St). exists j. split; [lia|exact St].
  Qed.

  (** ** Waiting *)
  Definition is_recv (w : Pool.wstate nat) : bool := match w with Pool.W_recv => true | _ => false end.
  Definition idle (a : pool) : nat := if existsb is_recv (workers a) then 0 else 1.
  Definition ahead (m : nat) (a : pool) (c : nat) : Prop := exists l1 l2, queue a = l1 ++ Pool.WJob c :: l2 /\ 2 * length l1 + idle a <= m.
  Lemma idle_le : forall a, idle a <= 1. Proof. intros a. unfold idle. destruct (existsb _ _); lia. Qed.
  Lemma ahead_changes : forall e a b c m, change e a b -> ahead m a c ->
    (ahead m b c \/ running b c) /\ (takes e -> (exists m', m' < m /\ ahead m' b c) \/ running b c).
  Proof.
    intros e a b c m H (q1 & q2 & Eq & Hm). destruct e as [d|d|j d|j d|j d| | | | |]; cbn [change takes] in *; try contradiction.
    - destruct H as (E1 & E2). split; [|intros []]. left. exists q1, (q2 ++ [Pool.WJob d]). split; [rewrite E1, Eq; now rewrite <- app_assoc|]. unfold idle in *. now rewrite E2.
    - destruct H as (E1 & l1 & l2 & Ea & Eb & Ej). destruct q1 as [|z q1].
      + cbn [app] in Eq. rewrite Eq in E1. injection E1 as -> _. assert (X : running b d) by (unfold running; rewrite Eb; apply in_or_app; right; now left). split; [now right|]. intros _. now right.
      + rewrite Eq in E1. cbn [app] in E1. injection E1 as _ E1. cbn [length] in Hm. pose proof (idle_le b). assert (X : ahead (2 * length q1 + idle b) b c) by (exists q1, q2; split; [now rewrite E1|lia]).
        split; [left; exists q1, q2; split; [now rewrite E1|lia]|]. intros _. left. exists (2 * length q1 + idle b). split; [lia|exact X].
    - destruct H as (E1 & l1 & l2 & Ea & Eb & Ej). split; [|intros []]. left. exists q1, q2. split; [now rewrite E1|]. unfold idle in *. rewrite Eb. rewrite Ea in Hm. rewrite existsb_app in *. cbn [existsb is_recv orb] in *. exact Hm.
    - destruct H as (E1 & l1 & l2 & Ea & Eb & Ej).
      assert (Ia : idle a = 1). { unfold idle. destruct (existsb is_recv (workers a)) eqn:X; [|reflexivity]. apply existsb_exists in X as (w & Hw & X). exfalso. apply Ej. destruct w; try discriminate X. exact Hw. }
      assert (Ib : idle b = 0). { unfold idle. rewrite Eb, existsb_app. cbn [existsb is_recv orb]. now rewrite orb_true_r. }
      split; [left; exists q1, q2; split; [now rewrite E1|lia]|]. intros _. left. exists (2 * length q1). split; [lia|]. exists q1, q2. split; [now rewrite E1|lia].
  Qed.
  Lemma ahead_later : forall tr c m n k, n <= k -> ahead m (v_pool (s n) tr) c -> ahead m (v_pool (s k) tr) c \/ exists j, n <= j /\ running (v_pool (s j) tr) c.
  Proof.
    intros tr c m n k H A. induction H as [|k H IH]; [now left|]. destruct IH as [IH|IH]; [|now right].
    destruct (pools_at k tr) as [->|(e & St & C)]; [now left|]. destruct (ahead_changes _ _ _ _ _ C IH) as ([X|X] & _); [now left|]. right. exists (S k). split; [lia|exact X].
  Qed.

  (** Some worker can go on. *)
  Definition some_free (a : pool) : Prop := In Pool.W_recv (workers a) \/ In Pool.W_ready (workers a).
  Lemma can_take : forall v tr, inv v -> queue (v_pool v tr) <> [] -> some_free (v_pool v tr) -> exists e v', takes e /\ sstep v (L_pool tr e) v'.
  Proof.
    intros v tr I Hq Hf. destruct (i_pools v I tr) as [P1 P2 P3 P4 P5]. pose proof (i_jobs v I tr) as J. pose proof (i_requests v I) as Rq. unfold queued in J. clear I. destruct v as [m cs vp ts rs]. unfold some_free in Hf. cbn [v_pool v_clients] in *.
    destruct (vp tr) as [q ws po ow] eqn:Ep. cbn [Pool.p_owner Pool.p_poisoned Pool.p_queue Pool.p_workers] in *. subst po ow.
    destruct (existsb is_recv ws) eqn:X.
    - apply existsb_exists in X as (w & Hw & X). destruct w; try discriminate X. clear X. apply in_split in Hw as (l1 & l2 & ->).
      destruct q as [|w q]; [congruence|]. destruct (P5 w (or_introl eq_refl)) as (d & ->). destruct (J d (or_introl (or_introl eq_refl))) as (x & Ec).
      assert (St : pstep (vp tr) (Pool.E_start (length l1) d) (Pool.mkPool q (l1 ++ Pool.W_run d :: l2) false Pool.O_open)) by (rewrite Ep; apply Pool.st_start; discriminate).
      destruct (Tame _ (Rq _ _ Ec)) as [(r & Epl)|(req & qq & l & Epl & _ & Ask)].
      + eexists. eexists. split; [|eapply sv_start_now; [exact St|exact Ec|exact Epl]]. exact Logic.I.
      + eexists. eexists. split; [|eapply sv_start_lookup; [exact St|exact Ec|exact Epl|exact Ask|reflexivity]]. exact Logic.I.
    - assert (Hn : ~ In Pool.W_recv ws). { intros H. assert (existsb is_recv ws = true) by (apply existsb_exists; exists Pool.W_recv; now split). congruence. }
      destruct Hf as [H|H]; [contradiction|]. apply in_split in H as (l1 & l2 & ->).
      eexists. eexists. split; [|eapply sv_worker; rewrite Ep; apply Pool.st_lock; [exact Hn|discriminate]]. exact Logic.I.
  Qed.
  Lemma comes_free : forall tr n, exists k, n <= k /\ some_free (v_pool (s k) tr).
  Proof.
    intros tr n. destruct (i_pools _ (inv_at n) tr) as [_ _ P3 P4 _]. destruct (workers (v_pool (s n) tr)) as [|w ws] eqn:Ew; [congruence|].
    destruct w as [| |d| |].
    - exists n. split; [lia|]. right. rewrite Ew. now left.
    - exists n. split; [lia|]. left. rewrite Ew. now left.
    - destruct (running_done tr 0 d n) as (k & Lk & St); [now rewrite Ew|]. exists (S k). split; [lia|]. right. destruct (change_at _ _ _ St) as (_ & l1 & l2 & _ & -> & _). apply in_or_app. right. now left.
    - destruct (P3 _ (or_introl eq_refl)) as (X & _). congruence.
    - destruct (P3 _ (or_introl eq_refl)) as (_ & X). congruence.
  Qed.
  Lemma waiting : forall tr c m n, ahead m (v_pool (s n) tr) c -> exists k, n <= k /\ running (v_pool (s k) tr) c.
  Proof.
    intros tr c m. induction m as [m IH] using lt_wf_ind. intros n A.
    destruct (comes_free tr n) as (k & Lk & Fr). destruct (ahead_later tr c m n k Lk A) as [A'|R]; [|exact R].
    assert (Q : queue (v_pool (s k) tr) <> []) by (destruct A' as (l1 & l2 & -> & _); destruct l1; discriminate).
    destruct (can_take _ tr (inv_at k) Q Fr) as (e & v' & Te & St). destruct NS as (_ & Pr & _).
    destruct (Pr tr k e v' Te St) as (j & e' & Lj & Te' & St').
    destruct (ahead_later tr c m k j Lj A') as [A2|(i & Li & R)]; [|exists i; split; [lia|exact R]].
    destruct (ahead_changes _ _ _ _ _ (change_at _ _ _ St') A2) as (_ & X). destruct (X Te') as [(m' & Lm & A3)|R]; [|exists (S j); split; [lia|exact R]].
    destruct (IH m' Lm (S j) A3) as (i & Li & R). exists i. split; [lia|exact R].
  Qed.
  Lemma settled_at_last : forall n c tr x, nth_error (v_clients (s n)) c = Some (tr, x) -> exists k, n <= k /\ settled (s k) c.
  Proof.
    intros n c tr x E.
    assert (Run : forall n, running (v_pool (s n) tr) c -> exists k, n <= k /\ settled (s k) c).
    { intros m H. apply In_nth_error in H as (i & H). destruct (running_done tr i c m H) as (k & Lk & St). exists (S k). split; [lia|].
      pose proof (fun r => outcome_stays _ _ _ c r St) as OS. revert OS. generalize dependent (s (S k)). intros s' St OS. generalize dependent (s k). intros s0 St OS. inversion St; subst.
      exists o. split; [apply OS; assumption|]. cbn [v_replies]. intros b ->. now left. }
    destruct (i_clients _ (inv_at n) c tr x E) as [H|[H|H]]; [|exact (Run n H)|exists n; split; [lia|exact H]].
    apply in_split in H as (l1 & l2 & H).
    destruct (waiting tr c (2 * length l1 + idle (v_pool (s n) tr)) n) as (k & Lk & R); [exists l1, l2; split; [exact H|lia]|].
    destruct (Run k R) as (j & Lj & X). exists j. split; [lia|exact X].
  Qed.
End Served.

(** In every course of the servers: no worker ever ends or dies, no job panics, and what is sent
    to a client who asked something is the answer of the zones, as a message he can read. *)
Theorem C98_no_client_is_misled : forall g lg conf (requests : transport * list N -> Prop) D Y start retries servers T0 size s,
  setting_ok g -> healthy_setting g D Y start retries servers -> anchors_known Y -> logs_safely g lg ->
  (start <= T0)%N -> (T0 < g_until g)%N -> (forall x, requests x -> tame g conf x) ->
  started_server T0 size (s 0) -> serving_course g lg conf requests s ->
  forall n,
  (forall tr w, In w (workers (v_pool (s n) tr)) -> w <> Pool.W_end /\ w <> Pool.W_dead) /\
  (forall tr i c s', ~ sstep g lg conf requests (s n) (L_pool tr (Pool.E_panic i c)) s') /\
  (forall c b, In (c, b) (v_replies (s n)) -> exists tr x, nth_error (v_clients (s n)) c = Some (tr, x) /\
     forall l req q, query_packet (g_profile g) l req q -> x = match tr with Udp => l | Tcp => on_tcp l end ->
     exists reply, tells D req q reply /\ sent_as (g_profile g) tr reply b).
Proof.
  intros g lg conf requests D Y start retries servers T0 size s GO HS HA HL L0 HT Tame St0 Co n.
  pose proof (inv_at g lg conf requests GO D Y start retries servers HS HA HL T0 L0 Tame size s HT St0 Co n) as I.
  split; [intros tr; exact (po_workers _ (i_pools _ _ _ _ _ I tr))|]. split.
  - intros tr i c s' St. inversion St; subst.
    match goal with H : outcome _ _ _ _ (Panic _) |- _ => destruct (outcome_right g lg conf requests GO D Y start retries servers HS HA HL T0 L0 Tame (s n) c (Panic k)) as (x & o & _ & E & _) end; [exact I| |discriminate E].
    match goal with H : _ = s n |- _ => rewrite <- H end. assumption.
  - intros c b H. destruct (outcome_right g lg conf requests GO D Y start retries servers HS HA HL T0 L0 Tame (s n) c (Done (Some b)) I (i_replies _ _ _ _ _ I c b H)) as ([tr x] & o & Ec & E & R).
    exists tr, x. split; [exact Ec|]. intros l req q QP ->. destruct (R req q (queries_are_planned _ tr _ _ _ QP)) as (reply & b' & Eb & H1 & H2). exists reply. split; [exact H1|]. assert (X : b' = b) by congruence. now subst b'.
Qed.
Print Assumptions C98_no_client_is_misled.

(** And if nothing is starved, every request is dealt with, and whoever asked something is sent
    the answer, however many are served at once and however few the workers. *)
Theorem C98_every_client_is_sent_its_reply : forall g lg conf (requests : transport * list N -> Prop) D Y start retries servers T0 size s,
  setting_ok g -> healthy_setting g D Y start retries servers -> anchors_known Y -> logs_safely g lg ->
  (start <= T0)%N -> (T0 < g_until g)%N -> (forall x, requests x -> tame g conf x) ->
  started_server T0 size (s 0) -> serving_course g lg conf requests s -> nothing_starved g lg conf requests s ->
  forall n c tr x, nth_error (v_clients (s n)) c = Some (tr, x) ->
  exists k o, n <= k /\ outcome g lg (s k) c (Done o) /\ (forall b, o = Some b -> In (c, b) (v_replies (s k))) /\
    forall l req q, query_packet (g_profile g) l req q -> x = match tr with Udp => l | Tcp => on_tcp l end ->
    exists reply b, In (c, b) (v_replies (s k)) /\ tells D req q reply /\ sent_as (g_profile g) tr reply b.
Proof.
  intros g lg conf requests D Y start retries servers T0 size s GO HS HA HL L0 HT Tame St0 Co NS n c tr x E.
  destruct (settled_at_last g lg conf requests GO D Y start retries servers HS HA HL T0 L0 Tame size s HT St0 Co NS n c tr x E) as (k & Lk & o & O & R).
  pose proof (inv_at g lg conf requests GO D Y start retries servers HS HA HL T0 L0 Tame size s HT St0 Co k) as I.
  exists k, o. split; [exact Lk|]. split; [exact O|]. split; [exact R|].
  intros l req q QP ->. destruct (outcome_right g lg conf requests GO D Y start retries servers HS HA HL T0 L0 Tame (s k) c (Done o) I O) as ([tr' x'] & o' & Ec & Eo & W).
  destruct (grows_at g lg conf requests s Co n k Lk) as (G & _). apply G in E. rewrite Ec in E. injection E as -> ->. cbn [fst] in W.
  destruct (W req q (queries_are_planned _ tr _ _ _ QP)) as (reply & b & Eb & H1 & H2). exists reply, b. split; [|now split]. apply R. congruence.
Qed.
Print Assumptions C98_every_client_is_sent_its_reply.
