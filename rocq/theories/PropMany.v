(** Property C93: any number of lookups at once. *)
From Coq Require Import Relation_Operators Transitive_Closure.
From Verif Require Import Base Types Name NameSpec Codec CodecSpec NsSpec Cache Resolver ResolverSpec ResolverInv Process ProcessRun ProcessSafe Many.

Lemma access_keeps : forall good T c now now' o x c', cache_ok good T c -> (T <= now')%N -> (now <= now')%N -> (now' + 4294967296 * SECOND < INSTANT_END)%N -> op_ok good now now' o ->
  cache_run rkey_eqb c o = (x, c') -> cache_ok good now' c' /\ reply_ok good o x.
Proof.
  intros good T c now now' o x c' Hc L1 L2 He Ho E. assert (Hc' : cache_ok good now' c) by (apply (cache_later good T); assumption). destruct Hc' as (P & D).
  unfold cache_run in E. rewrite P in E. destruct o as [k t|k ttl v t t'|k t|k f t|ts]; try contradiction.
  - cbn [op_ok] in Ho. subst t. unfold cache_get in E. destruct (c_data c k) as [[e rs]|] eqn:Ek.
    + destruct (is_expired e now') eqn:Ee; injection E as <- <-.
      * split; [|exact I]. split; [reflexivity|]. intros k' e' rs' H. cbn [c_data] in H. unfold upd in H. destruct (rkey_eqb k k'); [discriminate|]. now apply D.
      * split; [split; [reflexivity|exact D]|]. cbn [reply_ok]. split; [now apply D|]. unfold is_expired in Ee. lia.
    + injection E as <- <-. split; [split; [reflexivity|exact D]|exact I].
  - destruct Ho as (-> & -> & (s & -> & Hs) & He'). unfold cache_set in E.
    assert (B : (now + s * SECOND < INSTANT_END)%N). { clear E. unfold SECOND in *. generalize dependent INSTANT_END. intros IE He. lia. }
    replace (INSTANT_END <=? now + s * SECOND)%N with false in E by (symmetry; apply N.leb_gt; exact B).
    assert (K : cache_ok good now' (mkCache (upd rkey_eqb (c_data c) k (Some (now + s * SECOND, v))%N) false)).
    { split; [reflexivity|]. intros k' e2 rs2 H. cbn [c_data] in H. unfold upd in H. destruct (rkey_eqb k k') eqn:Ek.
      - apply rkey_eqb_eq in Ek. subst k'. assert (X : e2 = (now + s * SECOND)%N /\ rs2 = v) by (split; congruence). destruct X as (-> & ->). eapply entry_later; [exact L2|exact He'].
      - now apply D. }
    destruct (c_data c k) as [[e0 w]|]; [destruct (is_expired e0 now')|]; injection E as <- <-; (split; [exact K|exact I]).
Qed.

Lemma until_end : forall g, setting_ok g -> forall t, (t < g_until g)%N -> (t + 4294967296 * SECOND < INSTANT_END)%N.
Proof. intros g GO t H. pose proof (go_until g GO) as E. unfold SECOND in *. generalize dependent INSTANT_END. intros IE E. lia. Qed.

(** Times that follow each other. *)
Fixpoint in_order (t : N) (evs : list env_event) (t' : N) : Prop :=
  match evs with [] => (t <= t')%N | e :: r => (t <= ev_now e /\ ev_now e <= ev_now' e)%N /\ in_order (ev_now' e) r t' end.
Lemma in_order_more : forall evs t t' e, in_order t evs t' -> (t' <= ev_now e)%N -> (ev_now e <= ev_now' e)%N -> in_order t (evs ++ [e]) (ev_now' e).
Proof.
  induction evs as [|x evs IH]; intros t t' e H L1 L2; cbn [in_order app] in *.
  - split; [split; lia|]. lia.
  - destruct H as (H1 & H2). split; [exact H1|]. now apply (IH _ t').
Qed.

Section Many.
  Context (g : setting) (GO : setting_ok g).
  Notation p := (g_profile g).
  Notation fuel := (g_fuel g).
  Notation delivers := (fun id a x b => g_delivers g id a x (Some b)).
  Notation timing := (g_timing g).
  Context (good : record -> Prop) (CL : class_of p delivers good).
  Context (respond : N -> list N -> list N -> option (list N)) (RE : forall id a x, g_delivers g id a x (respond id a x)).
  (** The environment of a thread: its events, and then a quiet end. *)
  Definition afterwards (t id : N) : env_event := mkEv t t (fun c => c) id (respond id).
  Definition env_of (evs : list env_event) (t id : N) : environment := fun n => nth n evs (afterwards t id).
  Lemma env_forward : forall evs t t' id, in_order t evs t' ->
    (t <= ev_now (env_of evs t' id 0%nat))%N /\
    forall n, (ev_now (env_of evs t' id n) <= ev_now' (env_of evs t' id n) /\ ev_now' (env_of evs t' id n) <= ev_now (env_of evs t' id (S n)))%N.
  Proof.
    induction evs as [|e evs IH]; intros t t' id H; cbn [in_order] in H.
    - split; [exact H|]. intros n. unfold env_of. destruct n; cbn; split; apply N.le_refl.
    - destruct H as ((H1 & H2) & H3). destruct (IH _ _ id H3) as (I1 & I2). split; [exact H1|]. intros [|n].
      + split; [exact H2|]. exact I1.
      + exact (I2 n).
  Qed.

  (** An event of a thread. *)
  Record event_fine (e : env_event) : Prop := mkEventFine {
    ef_end : (ev_now' e < g_until g)%N;
    ef_id : g_ids g (ev_id e);
    ef_net : forall a x d, ev_net e a x = Some d -> g_delivers g (ev_id e) a x (Some d);
    ef_time : ev_now e = ev_now' e \/ timing (ev_now e) (ev_now' e);
    ef_others : forall c, cache_ok good (ev_now e) c -> cache_ok good (ev_now' e) (ev_others e c) }.
  Lemma afterwards_fine : forall t id, (t < g_until g)%N -> g_ids g id -> event_fine (afterwards t id).
  Proof. intros t id Ht Hid. split; cbn; try assumption; [intros a x d E; rewrite <- E; apply RE|now left|auto]. Qed.

  (** What is known of a thread: with its events so far, the lookup is where the thread is. *)
  Definition follows (evs : list env_event) (hold : option N) (env : environment) : Prop :=
    (forall n, n < length evs -> env n = nth n evs (afterwards 0 0)) /\ forall id, hold = Some id -> ev_id (env (length evs)) = id.
  Definition thread_fine (t : thread) : Prop :=
    exists c0 t0 evs hold c,
      cache_ok good t0 c0 /\ in_order t0 evs (t_time t) /\ Forall event_fine evs /\ (forall id, hold = Some id -> g_ids g id) /\ (t_time t < g_until g)%N /\
      (hold <> None -> exists r, t_todo t = P_end r) /\
      okP delivers good (t_todo t) (fun _ => True) (fun _ => True) /\
      forall env, follows evs hold env -> run env (perform_p p fuel (new_lookup (t_conf t) (t_node t) (t_kind t))) (mkWorld c0 0 []) =
         run env (t_todo t) (mkWorld c (length evs) (t_sent t)).
  Definition state_fine (s : state) : Prop :=
    cache_ok good (s_time s) (s_cache s) /\ (s_time s < g_until g)%N /\ Forall thread_fine (s_threads s).

  Lemma okP_weak : forall R (m : proc R) (Q F : R -> Prop), okP delivers good m Q F -> okP delivers good m (fun _ => True) (fun _ => True).
  Proof.
    intros R m Q F H. induction m as [r|f c IH|q c IH]; cbn [okP] in *; [exact Logic.I| |].
    - intros now now' Hn. destruct (H now now' Hn) as (H1 & H2). split; [exact H1|]. intros x Hx. apply IH. now apply H2.
    - intros id Hid. specialize (H id Hid). destruct (q id) as [[a x]|j|]; [|destruct H as (r & E & _); exists r; split; [exact E|exact Logic.I]|exact H]. intros d Hd. apply IH. now apply H.
  Qed.
  Lemma new_fine : forall c T conf node kind, cache_ok good T c -> (T < g_until g)%N ->
    thread_fine (mkThread conf node kind [] 0 T (perform_p p fuel (new_lookup conf node kind))).
  Proof.
    intros c T conf node kind Hc He. exists c, T, [], None, c. cbn [t_conf t_node t_kind t_sent t_time t_todo in_order length].
    split; [exact Hc|]. split; [apply N.le_refl|]. split; [constructor|]. split; [discriminate|]. split; [exact He|]. split; [congruence|]. split.
    - eapply okP_weak. eapply perform_safe; [exact CL|]. split; constructor.
    - intros env _. reflexivity.
  Qed.
  Lemma follows_less : forall evs e hold env, follows (evs ++ [e]) hold env -> follows evs None env /\ env (length evs) = e.
  Proof.
    intros evs e hold env (H & _). rewrite app_length in H. cbn [length] in H. split.
    - split; [|discriminate]. intros n Hn. rewrite H by lia. now apply app_nth1.
    - rewrite H by lia. rewrite app_nth2, Nat.sub_diag; [reflexivity|lia].
  Qed.
  Lemma hold_none : forall (hold : option N) R (m : proc R), (hold <> None -> exists r, m = P_end r) -> (forall r, m <> P_end r) -> hold = None.
  Proof. intros [id|] R m H H'; [|reflexivity]. destruct H as (r & H); [discriminate|]. now apply H' in H. Qed.

  Lemma cache_fine : forall c T t f k now now' x c', cache_ok good T c -> thread_fine t -> t_todo t = P_cache f k ->
    (t_time t <= now /\ now <= now' /\ T <= now' /\ now' < g_until g)%N -> timing now now' ->
    cache_run rkey_eqb c (f now now') = (x, c') -> cache_ok good now' c' /\ thread_fine (advance t [] 0 now' (k now x)).
  Proof.
    intros c T t f k now now' x c' Hc (c0 & t0 & evs & hold & w & H0 & Ho & Hev & _ & _ & Hh & Hok & Hr) Et (L1 & L2 & L3 & He) Ht E.
    assert (Hn : hold = None) by (apply (hold_none _ _ _ Hh); rewrite Et; discriminate). subst hold. rewrite Et in Hok, Hr. cbn [okP] in Hok. destruct (Hok now now' L2) as (Op & Hx).
    destruct (access_keeps good T c now now' _ x c' Hc L3 L2 (until_end g GO now' He) Op E) as (K1 & K2). split; [exact K1|].
    destruct (go_id g GO) as (id0 & Hid0). set (e := mkEv now now' (fun _ => c) id0 (respond id0)).
    exists c0, t0, (evs ++ [e]), None, c'. unfold advance. cbn [t_conf t_node t_kind t_sent t_time t_todo app].
    split; [exact H0|]. split; [exact (in_order_more evs t0 _ e Ho L1 L2)|]. split.
    { apply Forall_app. split; [exact Hev|]. constructor; [|constructor]. split; cbn.
      - exact He.
      - exact Hid0.
      - intros a1 x1 d1 E1. rewrite <- E1. apply RE.
      - now right.
      - intros _ _. now apply (cache_later good T). }
    split; [discriminate|]. split; [exact He|]. split; [congruence|]. split; [now apply Hx|].
    intros env Hf. destruct (follows_less _ _ _ _ Hf) as (F1 & F2). rewrite (Hr env F1). cbn [run w_n w_cache w_sent]. rewrite F2. cbn [ev_others ev_now ev_now' e]. rewrite E, app_length. cbn [length].
    now rewrite Nat.add_1_r.
  Qed.
  Lemma send_fine : forall t q k id a x d lost, thread_fine t -> t_todo t = P_send q k -> g_ids g id -> q id = Done (a, x) ->
    (forall b, d = Some b -> g_delivers g id a x (Some b)) -> thread_fine (advance t [(a, x)] lost (t_time t) (k id (Done d))).
  Proof.
    intros t q k id a x d lost (c0 & t0 & evs & hold & w & H0 & Ho & Hev & _ & He & Hh & Hok & Hr) Et Hid Eq Hd.
    assert (Hn : hold = None) by (apply (hold_none _ _ _ Hh); rewrite Et; discriminate). subst hold. rewrite Et in Hok, Hr. cbn [okP] in Hok. specialize (Hok id (go_ids g GO id Hid)). rewrite Eq in Hok.
    set (e := mkEv (t_time t) (t_time t) (fun c => c) id (fun a' x' => if bytes_eqb a' a && bytes_eqb x' x then d else respond id a' x')).
    exists c0, t0, (evs ++ [e]), None, w. unfold advance. cbn [t_conf t_node t_kind t_sent t_time t_todo app].
    split; [exact H0|]. split; [exact (in_order_more evs t0 _ e Ho (N.le_refl _) (N.le_refl _))|]. split.
    { apply Forall_app. split; [exact Hev|]. constructor; [|constructor]. split; cbn.
      - exact He.
      - exact Hid.
      - intros a' x' b Eb. assert (RE' : respond id a' x' = Some b -> g_delivers g id a' x' (Some b)) by (intros E1; rewrite <- E1; apply RE).
        destruct (bytes_eqb a' a) eqn:Ea; cbn [andb] in Eb; [|now apply RE']. destruct (bytes_eqb x' x) eqn:Ex; [|now apply RE'].
        apply bytes_eqb_eq in Ea, Ex. subst a' x'. now apply Hd.
      - now left.
      - auto. }
    split; [discriminate|]. split; [exact He|]. split; [congruence|]. split; [apply Hok; intros b Eb; split; [exact (go_bytes g GO _ _ _ _ (Hd b Eb))|exact (Hd b Eb)]|].
    intros env Hf. destruct (follows_less _ _ _ _ Hf) as (F1 & F2). rewrite (Hr env F1). cbn [run w_n w_cache w_sent]. rewrite F2. cbn [ev_id ev_net e]. rewrite Eq, !bytes_eqb_refl, app_length. cbn [length andb].
    now rewrite Nat.add_1_r.
  Qed.
  Lemma unsent_fine : forall t q k id j, thread_fine t -> t_todo t = P_send q k -> g_ids g id -> q id = Panic j ->
    thread_fine (advance t [] (t_lost t) (t_time t) (k id (Panic j))).
  Proof.
    intros t q k id j (c0 & t0 & evs & hold & w & H0 & Ho & Hev & _ & He & Hh & Hok & Hr) Et Hid Eq.
    assert (Hn : hold = None) by (apply (hold_none _ _ _ Hh); rewrite Et; discriminate). subst hold. rewrite Et in Hok, Hr. cbn [okP] in Hok. specialize (Hok id (go_ids g GO id Hid)). rewrite Eq in Hok. destruct Hok as (r & Er & _).
    exists c0, t0, evs, (Some id), w. unfold advance. cbn [t_conf t_node t_kind t_sent t_time t_todo app].
    split; [exact H0|]. split; [exact Ho|]. split; [exact Hev|]. split; [intros i [= <-]; exact Hid|]. split; [exact He|]. split; [intros _; now exists r|]. split; [rewrite Er; exact Logic.I|].
    intros env (F1 & F2). rewrite (Hr env); [|split; [exact F1|discriminate]]. cbn [run w_n w_cache w_sent]. rewrite (F2 id eq_refl), Eq. reflexivity.
  Qed.
  Lemma move_fine : forall i s s', move g i s s' -> state_fine s -> state_fine s'.
  Proof.
    intros i s s' Mv (Hc & He & Ht). inversion Mv; subst; cbn [s_cache s_time s_threads] in *.
    - apply Forall_app in Ht as (Ht1 & Ht2). inversion Ht2; subst.
      match goal with H : t_todo t = _, F : thread_fine t |- _ => destruct (cache_fine c T t f k now now' x c' Hc F H) as (K1 & K2); try assumption end.
      split; [exact K1|]. split; [now destruct H1 as (_ & _ & _ & ?)|]. cbn [s_threads]. apply Forall_app. split; [exact Ht1|]. now constructor.
    - apply Forall_app in Ht as (Ht1 & Ht2). inversion Ht2; subst. split; [exact Hc|]. split; [exact He|]. cbn [s_threads]. apply Forall_app. split; [exact Ht1|]. constructor; [|assumption]. eapply send_fine; try eassumption. intros b ->. assumption.
    - apply Forall_app in Ht as (Ht1 & Ht2). inversion Ht2; subst. split; [exact Hc|]. split; [exact He|]. cbn [s_threads]. apply Forall_app. split; [exact Ht1|]. constructor; [|assumption]. eapply send_fine; try eassumption. discriminate.
    - apply Forall_app in Ht as (Ht1 & Ht2). inversion Ht2; subst. split; [exact Hc|]. split; [exact He|]. cbn [s_threads]. apply Forall_app. split; [exact Ht1|]. constructor; [|assumption]. eapply unsent_fine; eassumption.
  Qed.
  Lemma step_fine : forall s s', step g s s' -> state_fine s -> state_fine s'.
  Proof.
    intros s s' St Hs. inversion St; subst; [|eapply move_fine; eassumption|]; destruct Hs as (Hc & He & Ht); cbn [s_cache s_time s_threads] in *.
    - split; [exact Hc|]. split; [exact He|]. cbn [s_threads]. apply Forall_app. split; [exact Ht|]. constructor; [|constructor]. now apply (new_fine c).
    - destruct H as (L1 & L2). split; [|split; [exact L2|exact Ht]]. cbn [s_cache s_time]. apply (cache_later good T _ _ L1) in Hc. destruct Hc as (P & D).
      match goal with H : cache_run _ _ _ = _ |- _ => unfold cache_run in H; rewrite P in H; unfold cache_clean in H; injection H as <- <- end.
      split; [reflexivity|]. cbn [c_data]. intros k e rs Hk. destruct (c_data c k) as [[e0 r0]|] eqn:Ek; [|discriminate]. destruct (is_expired _ _); [discriminate|]. apply D. congruence.
  Qed.
  Lemma steps_fine : forall s s', steps g s s' -> state_fine s -> state_fine s'.
  Proof. intros s s' H. induction H; [trivial|]. intros Hs. eapply step_fine; eauto. Qed.

  Lemma reached_fine : forall s, reached g s -> state_fine s.
  Proof. intros s (T & HT & H). apply (steps_fine _ _ H). split; [split; [reflexivity|discriminate]|]. split; [exact HT|constructor]. Qed.

  (** What a thread did is what a lookup of Resolver.v does in some environment, as long as
      it has come. *)
  Lemma run_sends_more : forall R env (m : proc R) w, exists more, w_sent (snd (run env m w)) = more ++ w_sent w.
  Proof.
    intros R env m. induction m as [r|f k IH|q k IH]; intros w; cbn [run].
    - now exists [].
    - destruct (cache_run _ _ _) as [x c]. apply (IH _ x (mkWorld c (S (w_n w)) (w_sent w))).
    - destruct (q _) as [[a x]|j|]; [|apply IH..]. destruct (IH (ev_id (env (w_n w))) (Done (ev_net (env (w_n w)) a x)) (mkWorld (w_cache w) (S (w_n w)) ((a, x) :: w_sent w))) as (more & E).
      exists (more ++ [(a, x)]). rewrite E. cbn [w_sent]. now rewrite <- app_assoc.
  Qed.
  Lemma as_alone : forall t, thread_fine t -> exists env c more r l w',
    env_ok good env /\ class_ok p env good /\ cache_ok good (ev_now (env 0)) c /\
    (forall n, g_ids g (ev_id (env n)) /\ (ev_now' (env n) < g_until g)%N) /\
    (forall n a x d, ev_net (env n) a x = Some d -> delivers (ev_id (env n)) a x d) /\
    (forall n, ev_now (env n) = ev_now' (env n) \/ timing (ev_now (env n)) (ev_now' (env n))) /\
    perform p env fuel (new_lookup (t_conf t) (t_node t) (t_kind t), mkWorld c 0 []) = (r, (l, w')) /\ w_sent w' = more ++ t_sent t /\
    (forall r' l', t_todo t = P_end (r', l') -> r' = r /\ l' = l /\ more = []).
  Proof.
    intros t (c0 & t0 & evs & hold & w & H0 & Ho & Hev & Hid & He & _ & _ & Hr).
    destruct (go_id g GO) as (id0 & Hid0). set (id := match hold with Some i => i | None => id0 end). assert (Hi : g_ids g id) by (unfold id; destruct hold as [i|]; [now apply Hid|exact Hid0]).
    set (env := env_of evs (t_time t) id). destruct (env_forward evs t0 (t_time t) id Ho) as (F0 & F). fold env in F0, F.
    assert (EF : forall n, event_fine (env n)).
    { intros n. unfold env, env_of. destruct (Nat.lt_ge_cases n (length evs)) as [Hn|Hn].
      - rewrite Forall_forall in Hev. apply Hev. now apply nth_In.
      - rewrite nth_overflow by exact Hn. now apply afterwards_fine. }
    assert (Fo : follows evs hold env).
    { split.
      - intros n Hn. unfold env, env_of. apply nth_indep. exact Hn.
      - intros i Hi'. unfold env, env_of. rewrite nth_overflow by lia. unfold id. rewrite Hi'. reflexivity. }
    specialize (Hr env Fo). destruct (run_sends_more _ env (t_todo t) (mkWorld w (length evs) (t_sent t))) as (more & Em).
    destruct (run env (t_todo t) (mkWorld w (length evs) (t_sent t))) as [[r l] w'] eqn:Er. cbn [snd w_sent] in Em.
    exists env, c0, more, r, l, w'.
    assert (N1 : forall n a x d, ev_net (env n) a x = Some d -> g_delivers g (ev_id (env n)) a x (Some d)). { intros n a x d H. exact (ef_net _ (EF n) a x d H). }
    split. { split; [exact F|intros n; exact (until_end g GO _ (ef_end _ (EF n)))|intros n a x d H; exact (go_bytes g GO _ _ _ _ (N1 n a x d H))|intros n; exact (go_ids g GO _ (ef_id _ (EF n)))|intros n; exact (ef_others _ (EF n))]. }
    split. { split; [exact (cl_names _ _ _ CL)|exact (cl_ttl _ _ _ CL)|exact (cl_root _ _ _ CL)|]. intros n a x d m H Hm Hh. pose proof (N1 n a x d H) as D. pose proof (go_bytes g GO _ _ _ _ D) as B. eapply (cl_net _ _ _ CL); [exact B|exact D|exact Hm|exact Hh]. }
    split; [now apply (cache_later good t0)|]. split; [intros n; split; [exact (ef_id _ (EF n))|exact (ef_end _ (EF n))]|]. split; [exact N1|]. split; [intros n; exact (ef_time _ (EF n))|].
    split; [|split; [exact Em|]].
    - rewrite (same_perform p fuel env). rewrite Hr. reflexivity.
    - intros r' l' Et. rewrite Et in Er. cbn [run] in Er. injection Er as <- <- <-. cbn [w_sent] in Em. split; [reflexivity|]. split; [reflexivity|].
      destruct more as [|y more]; [reflexivity|]. apply (f_equal (@length _)) in Em. rewrite app_length in Em. cbn [length] in Em. lia.
  Qed.
  Lemma can_move : forall s i t, state_fine s -> (forall x, timing x x) -> nth_error (s_threads s) i = Some t -> ~ ended_thread t -> exists s', move g i s s'.
  Proof.
    intros [c T ts] i t (Hc & He & Ht) Hr En Hu. cbn [s_threads s_cache s_time] in *. destruct (nth_error_split _ _ En) as (ts1 & ts2 & -> & Hl).
    apply Forall_app in Ht as (_ & Ht). inversion Ht as [|? ? (c0 & t0 & evs & hold & w & _ & _ & _ & _ & Hb & _ & Hok & _) _]; subst.
    destruct (t_todo t) as [r|f k|q k] eqn:Et.
    - exfalso. apply Hu. now exists r.
    - set (now := N.max (t_time t) T). destruct (cache_run rkey_eqb c (f now now)) as [x c'] eqn:Ex. eexists. eapply mv_cache with (now := now) (now' := now); try eassumption; try reflexivity.
      + unfold now. lia.
      + apply Hr.
    - cbn [okP] in Hok. destruct (go_id g GO) as (id & Hid). specialize (Hok id (go_ids g GO id Hid)). destruct (q id) as [[a x]|j|] eqn:Eq; [| |contradiction].
      + eexists. eapply mv_send; try eassumption; [reflexivity|apply RE].
      + eexists. eapply mv_unsent; try eassumption. reflexivity.
  Qed.
End Many.

(** Lookups end: a process has no infinite descent. *)
Inductive child {R} : proc R -> proc R -> Prop :=
| ch_cache : forall f k now x, child (k now x) (P_cache f k)
| ch_send : forall q k id d, child (k id d) (P_send q k).
Lemma child_wf : forall R, well_founded (@child R).
Proof. intros R m. induction m as [r|f k IH|q k IH]; constructor; intros y H; inversion H; subst; apply IH. Qed.

Lemma nth_middle : forall A (l1 : list A) x l2 i, nth_error (l1 ++ x :: l2) i = if i =? length l1 then Some x else nth_error (l1 ++ l2) (if i <? length l1 then i else pred i).
Proof.
  intros A l1 x l2 i. destruct (Nat.eqb_spec i (length l1)) as [->|Hn].
  - rewrite nth_error_app2, Nat.sub_diag; [reflexivity|lia].
  - destruct (Nat.ltb_spec i (length l1)).
    + rewrite !nth_error_app1 by lia. reflexivity.
    + rewrite !nth_error_app2 by lia. destruct (i - length l1) as [|n] eqn:E; [lia|]. cbn [nth_error]. f_equal. lia.
Qed.
Section Ends.
  Context (g : setting).
  Definition asked_same (t t' : thread) : Prop := t_conf t' = t_conf t /\ t_node t' = t_node t /\ t_kind t' = t_kind t.
  Lemma move_goes : forall i j s s' t, move g i s s' -> nth_error (s_threads s) j = Some t ->
    exists t', nth_error (s_threads s') j = Some t' /\ asked_same t t' /\ if j =? i then child (t_todo t') (t_todo t) else t' = t.
  Proof.
    intros i j s s' t Mv E. inversion Mv; subst; cbn [s_threads] in *; rewrite nth_middle in E |- *; destruct (j =? length ts1) eqn:Ej;
      try (exists t; repeat split; exact E); injection E as <-; (eexists; split; [reflexivity|]; split; [repeat split|]); unfold advance; cbn [t_todo];
      match goal with H : t_todo _ = _ |- _ => rewrite H end; constructor.
  Qed.
  Lemma step_goes : forall j s s' t, step g s s' -> nth_error (s_threads s) j = Some t ->
    exists t', nth_error (s_threads s') j = Some t' /\ asked_same t t' /\ (t_todo t' = t_todo t \/ child (t_todo t') (t_todo t)).
  Proof.
    intros j s s' t St E. inversion St; subst; cbn [s_threads] in *.
    - exists t. split; [rewrite nth_error_app1; [exact E|]; apply nth_error_Some; congruence|]. split; [now repeat split|now left].
    - destruct (move_goes _ _ _ _ _ H E) as (t' & E' & A & Hc). exists t'. split; [exact E'|]. split; [exact A|]. destruct (j =? i); [now right|left; now rewrite Hc].
    - exists t. split; [exact E|]. split; [now repeat split|now left].
  Qed.
  Lemma course_goes : forall s, course g s -> forall j n t k, nth_error (s_threads (s n)) j = Some t ->
    exists t', nth_error (s_threads (s (n + k))) j = Some t' /\ asked_same t t' /\ (t_todo t' = t_todo t \/ Relation_Operators.clos_trans _ child (t_todo t') (t_todo t)).
  Proof.
    intros s Hs j n t k E. induction k as [|k (t1 & E1 & A1 & C1)].
    - exists t. rewrite Nat.add_0_r. split; [exact E|]. split; [now repeat split|now left].
    - rewrite Nat.add_succ_r. destruct (Hs (n + k)) as [->|St]; [now exists t1|]. destruct (step_goes _ _ _ _ St E1) as (t2 & E2 & A2 & C2). exists t2. split; [exact E2|]. split.
      + destruct A1 as (X1 & X2 & X3), A2 as (Y1 & Y2 & Y3). repeat split; congruence.
      + destruct C2 as [->|C2]; [exact C1|]. right. destruct C1 as [<-|C1]; [now constructor|]. eapply Relation_Operators.t_trans; [constructor; exact C2|exact C1].
  Qed.
  Lemma course_ends : forall s i, course g s -> fair g i s -> forall n t, nth_error (s_threads (s n)) i = Some t ->
    exists k t', n <= k /\ nth_error (s_threads (s k)) i = Some t' /\ asked_same t t' /\ ended_thread t'.
  Proof.
    intros s i Hs Hf n t E. remember (t_todo t) as m eqn:Em. revert n t E Em. pose proof (wf_clos_trans _ _ (child_wf (exec (result response lerr) * lookup))) as Wf.
    induction (Wf m) as [m _ IH]. intros n t E Em.
    assert (D : ended_thread t \/ ~ ended_thread t). { destruct (t_todo t) as [r| |] eqn:Et; [left; now exists r|right; intros (r & H); congruence..]. }
    destruct D as [D|D]; [exists n, t; split; [lia|]; split; [exact E|]; split; [now repeat split|exact D]|].
    destruct (Hf n t E D) as (k & Hk & Mv). destruct (course_goes s Hs i n t (k - n) E) as (t1 & E1 & A1 & C1). replace (n + (k - n)) with k in E1 by lia.
    destruct (move_goes _ _ _ _ _ Mv E1) as (t2 & E2 & A2 & C2). rewrite Nat.eqb_refl in C2.
    destruct (IH (t_todo t2)) with (n := S k) (t := t2) as (k' & t' & H1 & H2 & H3 & H4); [|exact E2|reflexivity|].
    - subst m. destruct C1 as [<-|C1]; [now constructor|]. eapply Relation_Operators.t_trans; [constructor; exact C2|exact C1].
    - exists k', t'. split; [lia|]. split; [exact H2|]. split; [|exact H4]. destruct A1 as (X1 & X2 & X3), A2 as (Y1 & Y2 & Y3), H3 as (Z1 & Z2 & Z3). repeat split; congruence.
  Qed.
  Lemma course_reached : forall s, course g s -> reached g (s 0) -> forall n, reached g (s n).
  Proof.
    intros s Hs (T & HT & H) n. exists T. split; [exact HT|]. induction n as [|n IH]; [exact H|]. destruct (Hs n) as [->|St]; [exact IH|]. eapply steps_more; eassumption.
  Qed.
End Ends.
