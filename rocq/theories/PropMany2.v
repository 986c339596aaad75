(** Property C93: any number of lookups at once. Theorems. *)
From Verif Require Import Base Types Name NameSpec NameProofs Codec CodecSpec CodecRead NsSpec Cache Resolver ResolverSpec ResolverInv ResolverFacts PropCodec3 ResolverEx PropResolver1 PropResolver2 PropResolver3 Process ProcessRun ProcessSafe Many PropMany.

(** A class of records in all environments that deliver what [delivers] allows. *)
Lemma class_everywhere : forall p delivers good,
  (forall env, (forall n a x d, ev_net (env n) a x = Some d -> is_bytes d /\ delivers (ev_id (env n)) a x d) -> class_ok p env good) -> class_of p delivers good.
Proof.
  intros p delivers good H. destruct (H (fun _ => mkEv 0 0 (fun c => c) 0 (fun _ _ => None))) as [C1 C2 C3 _]; [discriminate|]. split; [exact C1|exact C2|exact C3|].
  intros id a x d m Hb Hd Em Ei.
  destruct (H (fun _ => mkEv 0 0 (fun c => c) id (fun a' x' => if bytes_eqb a' a && bytes_eqb x' x then Some d else None))) as [_ _ _ C4].
  - cbn [ev_net ev_id]. intros _ a' x' d' E. destruct (bytes_eqb a' a) eqn:Ea; cbn [andb] in E; [|discriminate]. destruct (bytes_eqb x' x) eqn:Ex; [|discriminate].
    apply bytes_eqb_eq in Ea, Ex. subst a' x'. assert (X : d = d') by congruence. subst d'. now split.
  - apply (C4 0 a x d m); [|exact Em|exact Ei]. cbn [ev_net]. now rewrite !bytes_eqb_refl.
Qed.
Lemma plain_of : forall p delivers, class_of p delivers plain_record.
Proof. intros p delivers. apply class_everywhere. intros env H. apply plain_is_a_class. intros n a x d E. apply (H n a x d E). Qed.

(** What comes back, when something does. *)
Definition comes (g : setting) : N -> list N -> list N -> list N -> Prop := fun id a x d => g_delivers g id a x (Some d).

(** However lookups are interleaved, the cache is in order at every moment. *)
Theorem C93_cache_stays_in_order : forall g s, setting_ok g -> reached g s ->
  cache_ok plain_record (s_time s) (s_cache s).
Proof. intros g s GO H. destruct (go_net g GO) as (respond & RE). apply (reached_fine g GO plain_record (plain_of (g_profile g) (comes g)) respond RE s H). Qed.
Print Assumptions C93_cache_stays_in_order.

(** Every lookup does, as far as it has come, what the lookup of Resolver.v does in an
    environment like those of all theorems about it: no assumption about other threads is
    left. [good] can be any class of records that the network keeps to. *)
Theorem C93_each_lookup_is_as_if_alone : forall g good s t, setting_ok g ->
  class_of (g_profile g) (comes g) good -> reached g s -> In t (s_threads s) ->
  exists env c more r l w',
    env_ok good env /\ class_ok (g_profile g) env good /\ cache_ok good (ev_now (env 0)) c /\
    (forall n, g_ids g (ev_id (env n)) /\ (ev_now' (env n) < g_until g)%N) /\
    (forall n a x d, ev_net (env n) a x = Some d -> comes g (ev_id (env n)) a x d) /\
    (forall n, ev_now (env n) = ev_now' (env n) \/ g_timing g (ev_now (env n)) (ev_now' (env n))) /\
    perform (g_profile g) env (g_fuel g) (new_lookup (t_conf t) (t_node t) (t_kind t), mkWorld c 0 []) = (r, (l, w')) /\ w_sent w' = more ++ t_sent t /\
    (forall r' l', t_todo t = P_end (r', l') -> r' = r /\ l' = l /\ more = []).
Proof.
  intros g good s t GO CL H Hin. destruct (go_net g GO) as (respond & RE). apply (as_alone g GO good CL respond RE).
  pose proof (reached_fine g GO good CL respond RE s H) as (_ & _ & Ht). rewrite Forall_forall in Ht. now apply Ht.
Qed.
Print Assumptions C93_each_lookup_is_as_if_alone.

(** Its answer is an alias chain from the name asked, and records of the type asked. *)
Theorem C93_answers_are_alias_chains : forall g s t x l, setting_ok g -> reached g s -> In t (s_threads s) ->
  accepted (t_node t) -> usable_type (t_kind t) -> t_todo t = P_end (Done (Ok x), l) ->
  answer_ok plain_record (t_conf t) (t_node t) (t_kind t) x.
Proof.
  intros g s t x l GO H Hin Hn Hk Et.
  destruct (C93_each_lookup_is_as_if_alone g plain_record s t GO (plain_of (g_profile g) (comes g)) H Hin) as (env & c & more & r & l' & w' & EO & _ & Hc & _ & _ & _ & E & _ & He).
  destruct (He _ _ Et) as (<- & _ & _). exact (C57_answer_is_an_alias_chain_partial (g_profile g) env _ _ _ (mkWorld c 0 []) (g_fuel g) x _ EO Hc Hn Hk E).
Qed.
Print Assumptions C93_answers_are_alias_chains.

(** It sends a bounded number of packets, with a bound that depends on its configured limits
    only, not on what the others do. *)
Theorem C93_packets_are_bounded : exists bound : nat -> nat -> nat -> nat, forall g s t, setting_ok g -> reached g s -> In t (s_threads s) ->
  accepted (t_node t) -> usable_type (t_kind t) ->
  (forall id a x d, comes g id a x d -> decode_message (g_profile g) (firstn 512 d) <> Diverge) ->
  length (t_sent t) <= bound (max_ns (t_conf t)) (max_retries (t_conf t)) (max_cname (t_conf t)).
Proof.
  destruct C59_whole_lookup as (bound & B). exists bound. intros g s t GO H Hin Hn Hk Hd.
  destruct (C93_each_lookup_is_as_if_alone g plain_record s t GO (plain_of (g_profile g) (comes g)) H Hin) as (env & c & more & r & l' & w' & EO & _ & Hc & _ & Hv & _ & E & Es & _).
  pose proof (B (g_profile g) env (t_conf t) (t_node t) (t_kind t) (mkWorld c 0 []) (g_fuel g) EO Hc Hn Hk (fun n a x d Hx => Hd _ _ _ _ (Hv n a x d Hx))) as Q. rewrite E in Q. cbn [snd] in Q. rewrite Es, app_length in Q. cbn [w_sent length] in Q. lia.
Qed.
Print Assumptions C93_packets_are_bounded.

(** A lookup that has not ended can always go on: nothing waits for another lookup. *)
Theorem C93_no_lookup_waits_for_another : forall g s i t, setting_ok g -> reached g s -> (forall x, g_timing g x x) ->
  nth_error (s_threads s) i = Some t -> ~ ended_thread t -> exists s', move g i s s'.
Proof.
  intros g s i t GO H Hr E Hu. destruct (go_net g GO) as (respond & RE). eapply (can_move g GO plain_record respond RE); [apply (reached_fine g GO plain_record (plain_of (g_profile g) (comes g)) respond RE s H)|exact Hr|exact E|exact Hu].
Qed.
Print Assumptions C93_no_lookup_waits_for_another.

(** And so every lookup that is not starved ends, whatever the others do in the meantime and
    however many come in; not by running out of fuel. *)
Theorem C93_every_lookup_ends : exists F, forall g s i n t, setting_ok g -> F <= g_fuel g ->
  (forall id a x d, comes g id a x d -> decode_message (g_profile g) (firstn 512 d) <> Diverge) ->
  reached g (s 0) -> course g s -> fair g i s ->
  nth_error (s_threads (s n)) i = Some t -> accepted (t_node t) -> usable_type (t_kind t) ->
  exists k t' r l, n <= k /\ nth_error (s_threads (s k)) i = Some t' /\ t_conf t' = t_conf t /\ t_node t' = t_node t /\ t_kind t' = t_kind t /\
    t_todo t' = P_end (r, l) /\ r <> Diverge.
Proof.
  destruct C56_lookups_terminate as (F & HF). exists F. intros g s i n t GO Lf Hd H0 Hs Hf E Hn Hk.
  destruct (course_ends g s i Hs Hf n t E) as (k & t' & L & E' & (A1 & A2 & A3) & ((r & l) & Et)).
  exists k, t', r, l. split; [exact L|]. split; [exact E'|]. split; [exact A1|]. split; [exact A2|]. split; [exact A3|]. split; [exact Et|].
  destruct (C93_each_lookup_is_as_if_alone g plain_record (s k) t' GO (plain_of (g_profile g) (comes g)) (course_reached _ s Hs H0 k) (nth_error_In _ _ E')) as (env & c & more & r' & l' & w' & EO & _ & Hc & _ & Hv & _ & Er & _ & He).
  destruct (He _ _ Et) as (<- & _ & _). rewrite <- A2 in Hn. rewrite <- A3 in Hk.
  destruct (HF (g_profile g) env (t_conf t') (t_node t') (t_kind t') (mkWorld c 0 []) EO Hc Hn Hk (fun j a x d Hx => Hd _ _ _ _ (Hv j a x d Hx))) as (r1 & s1 & D & R).
  rewrite (R (g_fuel g) Lf) in Er. congruence.
Qed.
Print Assumptions C93_every_lookup_ends.

(** No lookup panics, with well-formed packets, under the assumptions of C61 about what the
    network delivers, and with the clock read twice within a second. *)
Theorem C93_calm_lookups_do_not_panic_partial : forall g (denied : name -> Prop) s t k l, setting_ok g ->
  reached g s -> In t (s_threads s) -> accepted (t_node t) -> usable_type (t_kind t) ->
  0 < max_ns (t_conf t) -> 0 < max_retries (t_conf t) ->
  (forall id a x d j, comes g id a x d -> decode_message (g_profile g) (firstn 512 d) <> Panic j) ->
  (forall id a x d m, comes g id a x d -> decode_message (g_profile g) (firstn 512 d) = Done (Ok m) -> h_id (m_header m) = id ->
     h_rcode (m_header m) = RC_NxDomain -> h_aa (m_header m) = true ->
     forall name type, encode_message (g_profile g) (build_dns_request id name type) = Done (Ok x) -> denied name) ->
  (forall id a x d m r n, comes g id a x d -> decode_message (g_profile g) (firstn 512 d) = Done (Ok m) -> h_id (m_header m) = id ->
     In r (all_records m) -> r_data r = D_NS n -> ~ denied n) ->
  (forall s, In s ROOT_SERVERS -> ~ denied (fst s)) ->
  (forall now now', g_timing g now now' -> (now' < now + SECOND)%N) ->
  t_todo t <> P_end (Panic k, l).
Proof.
  intros g denied s t k l GO H Hin Hn Hk M1 M2 Hd Hx Hns Hr Ht Et.
  assert (CL : class_of (g_profile g) (comes g) (serving denied)).
  { apply class_everywhere. intros env He. apply serving_class.
    - intros n a x d E. apply (He n a x d E).
    - intros n a x d m r nm E. apply (Hns (ev_id (env n)) a x d m r nm). apply (He n a x d E).
    - exact Hr. }
  destruct (C93_each_lookup_is_as_if_alone g (serving denied) s t GO CL H Hin) as (env & c & more & r & l' & w' & EO & _ & Hc & _ & Hv & Htm & E & _ & He).
  destruct (He _ _ Et) as (<- & _ & _).
  assert (X : fst (perform (g_profile g) env (g_fuel g) (new_lookup (t_conf t) (t_node t) (t_kind t), mkWorld c 0 [])) <> Panic k).
  { apply (C61_calm_lookups_do_not_panic_partial (g_profile g) env denied); try assumption.
    - intros n a x d j En. exact (Hd _ _ _ _ j (Hv n a x d En)).
    - intros n a x d m En. exact (Hx _ _ _ _ m (Hv n a x d En)).
    - intros n a x d m r nm En. exact (Hns _ _ _ _ m r nm (Hv n a x d En)).
    - intros n. destruct (Htm n) as [<-|T]; [unfold SECOND; lia|now apply Ht]. }
  rewrite E in X. cbn [fst] in X. congruence.
Qed.
Print Assumptions C93_calm_lookups_do_not_panic_partial.

(** * An example: two lookups of the same name on one cache *)
Definition example (net : list N -> list N -> option (list N)) (p : profile) (fuel : nat) : setting :=
  mkSetting p fuel (fun _ _ _ => True) (fun id => id = 7%N) (fun _ a x d => d = net a x) 0 N.eq 1.
Lemma example_ok : forall net p fuel, (forall a x d, net a x = Some d -> is_bytes d) -> setting_ok (example net p fuel).
Proof.
  intros net p fuel Hb. split; cbn.
  - intros id ->. unfold is_u16. lia.
  - now exists 7%N.
  - intros _ a x b E. now apply (Hb a x).
  - exists (fun _ => net). reflexivity.
  - vm_compute. discriminate.
Qed.
Inductive choice := C_new (conf : rconf) (node : name) (kind : rtype) | C_go (i : nat) | C_lose (i : nat).
Fixpoint put_at {A} (i : nat) (x : A) (l : list A) : list A :=
  match l, i with [], _ => [] | _ :: r, 0 => x :: r | y :: r, S j => y :: put_at j x r end.
Section Example.
  Variable net : list N -> list N -> option (list N).
  Variable g : setting.
  Hypothesis Gid : g_ids g 7%N.
  Hypothesis Gnet : forall a x, g_delivers g 7%N a x (net a x).
  Hypothesis Gtime : g_timing g 0%N 0%N.
  Hypothesis Guntil : (0 < g_until g)%N.
  Notation p := (g_profile g).
  Notation fuel := (g_fuel g).
  Definition do_lose (s : state) (i : nat) : option state :=
    match nth_error (s_threads s) i with
    | None => None
    | Some t =>
        match t_todo t with
        | P_send q k =>
            match q 7%N with
            | Done (a, x) => if t_lost t <? g_losses g then Some (mkState (s_cache s) (s_time s) (put_at i (advance t [(a, x)] (S (t_lost t)) (t_time t) (k 7%N (Done None))) (s_threads s))) else None
            | _ => None
            end
        | _ => None
        end
    end.
  Definition do_move (s : state) (i : nat) : option state :=
    match nth_error (s_threads s) i with
    | None => None
    | Some t =>
        match t_todo t with
        | P_end _ => None
        | P_cache f k => let (x, c) := cache_run rkey_eqb (s_cache s) (f 0 0)%N in Some (mkState c 0 (put_at i (advance t [] 0 0 (k 0%N x)) (s_threads s)))
        | P_send q k =>
            match q 7%N with
            | Done (a, x) => Some (mkState (s_cache s) (s_time s) (put_at i (advance t [(a, x)] 0 (t_time t) (k 7%N (Done (net a x)))) (s_threads s)))
            | Panic j => Some (mkState (s_cache s) (s_time s) (put_at i (advance t [] (t_lost t) (t_time t) (k 7%N (Panic j))) (s_threads s)))
            | Diverge => None
            end
        end
    end.
  Definition do_step (s : state) (ch : choice) : state :=
    match ch with
    | C_new conf node kind => mkState (s_cache s) (s_time s) (s_threads s ++ [mkThread conf node kind [] 0 (s_time s) (perform_p p fuel (new_lookup conf node kind))])
    | C_go i => match do_move s i with Some s' => s' | None => s end
    | C_lose i => match do_lose s i with Some s' => s' | None => s end
    end.
  Fixpoint do_steps (sched : list choice) (s : state) (n : nat) : state :=
    match n, sched with S m, ch :: r => do_steps r (do_step s ch) m | _, _ => s end.
  Definition at_zero (s : state) : Prop := s_time s = 0%N /\ Forall (fun t => t_time t = 0%N) (s_threads s).
  Lemma put_split : forall A (l : list A) i x y, nth_error l i = Some x -> exists l1 l2, length l1 = i /\ l = l1 ++ x :: l2 /\ put_at i y l = l1 ++ y :: l2.
  Proof.
    induction l as [|z l IH]; intros [|i] x y E; try discriminate; cbn [nth_error put_at] in *.
    - injection E as <-. now exists [], l.
    - destruct (IH i x y E) as (l1 & l2 & H1 & H2 & H3). exists (z :: l1), l2. cbn [length app]. now rewrite H1, <- H2, <- H3.
  Qed.
  Lemma do_move_ok : forall s i s', at_zero s -> do_move s i = Some s' -> move g i s s' /\ at_zero s'.
  Proof.
    intros [c T ts] i s' (HT & Hz) E. unfold do_move in E. cbn [s_threads s_cache s_time] in *. destruct (nth_error ts i) as [t|] eqn:Et; [|discriminate].
    destruct (t_todo t) as [r|f k|q k] eqn:Em; [discriminate| |].
    - destruct (cache_run _ _ _) as [x c'] eqn:Ex. injection E as <-. destruct (put_split _ _ _ _ (advance t [] 0 0 (k 0%N x)) Et) as (l1 & l2 & H1 & -> & ->).
      apply Forall_app in Hz as (Z1 & Z2). inversion Z2 as [|? ? Z3 Z4]; subst. split.
      + eapply mv_cache with (now := 0%N) (now' := 0%N); try eassumption; try reflexivity. rewrite Z3. split; [apply N.le_refl|]. split; [apply N.le_refl|]. split; [apply N.le_refl|exact Guntil].
      + split; [reflexivity|]. apply Forall_app. split; [exact Z1|]. constructor; [reflexivity|exact Z4].
    - destruct (q 7%N) as [[a x]|j|] eqn:Eq; [| |discriminate]; injection E as <-.
      + destruct (put_split _ _ _ _ (advance t [(a, x)] 0 (t_time t) (k 7%N (Done (net a x)))) Et) as (l1 & l2 & H1 & -> & ->).
        apply Forall_app in Hz as (Z1 & Z2). inversion Z2 as [|? ? Z3 Z4]; subst. split.
        * eapply mv_send; try eassumption; [reflexivity|apply Gnet].
        * split; [reflexivity|]. apply Forall_app. split; [exact Z1|]. constructor; [exact Z3|exact Z4].
      + destruct (put_split _ _ _ _ (advance t [] (t_lost t) (t_time t) (k 7%N (Panic j))) Et) as (l1 & l2 & H1 & -> & ->).
        apply Forall_app in Hz as (Z1 & Z2). inversion Z2 as [|? ? Z3 Z4]; subst. split.
        * eapply mv_unsent; try eassumption; reflexivity.
        * split; [reflexivity|]. apply Forall_app. split; [exact Z1|]. constructor; [exact Z3|exact Z4].
  Qed.
  Lemma do_lose_ok : forall s i s', at_zero s -> do_lose s i = Some s' -> move g i s s' /\ at_zero s'.
  Proof.
    intros [c T ts] i s' (HT & Hz) E. unfold do_lose in E. cbn [s_threads s_cache s_time] in *. destruct (nth_error ts i) as [t|] eqn:Et; [|discriminate].
    destruct (t_todo t) as [r|f k|q k] eqn:Em; [discriminate..|]. destruct (q 7%N) as [[a x]|j|] eqn:Eq; [|discriminate..]. destruct (Nat.ltb_spec (t_lost t) (g_losses g)) as [L|L]; [|discriminate E]. injection E as <-.
    destruct (put_split _ _ _ _ (advance t [(a, x)] (S (t_lost t)) (t_time t) (k 7%N (Done None))) Et) as (l1 & l2 & H1 & -> & ->).
    apply Forall_app in Hz as (Z1 & Z2). inversion Z2 as [|? ? Z3 Z4]; subst. split.
    * eapply mv_lost; try eassumption; reflexivity.
    * split; [reflexivity|]. apply Forall_app. split; [exact Z1|]. constructor; [exact Z3|exact Z4].
  Qed.
  Definition may_come (ch : choice) : Prop := match ch with C_new conf node kind => g_asks g conf node kind | _ => True end.
  Lemma do_step_ok : forall s ch, may_come ch -> at_zero s -> (do_step s ch = s \/ step g s (do_step s ch)) /\ at_zero (do_step s ch).
  Proof.
    intros s [conf node kind|i|i] Hm Hz; cbn [do_step].
    - split; [right; destruct s; apply st_new; exact Hm|]. destruct Hz as (H1 & H2). split; [exact H1|]. cbn [s_threads]. apply Forall_app. split; [exact H2|]. constructor; [exact H1|constructor].
    - destruct (do_move s i) as [s'|] eqn:E; [|split; [now left|exact Hz]]. destruct (do_move_ok s i s' Hz E) as (M & Z). split; [right; now apply (st_move _ i)|exact Z].
    - destruct (do_lose s i) as [s'|] eqn:E; [|split; [now left|exact Hz]]. destruct (do_lose_ok s i s' Hz E) as (M & Z). split; [right; now apply (st_move _ i)|exact Z].
  Qed.
  Lemma do_steps_S : forall sched s n, do_steps sched s (S n) = match nth_error sched n with Some ch => do_step (do_steps sched s n) ch | None => do_steps sched s n end.
  Proof.
    induction sched as [|ch sched IH]; intros s n; [destruct n; reflexivity|]. change (do_steps (ch :: sched) s (S n)) with (do_steps sched (do_step s ch) n). destruct n as [|n]; [destruct sched; reflexivity|].
    rewrite IH. reflexivity.
  Qed.
  Lemma do_steps_zero : forall sched s n, Forall may_come sched -> at_zero s -> at_zero (do_steps sched s n).
  Proof. induction sched as [|ch sched IH]; intros s [|n] Hm Hz; try exact Hz. inversion Hm; subst. cbn [do_steps]. apply IH; [assumption|]. now apply do_step_ok. Qed.
  Lemma do_steps_course : forall sched s, Forall may_come sched -> at_zero s -> course g (do_steps sched s).
  Proof.
    intros sched s Hm Hz n. rewrite do_steps_S. destruct (nth_error sched n) as [ch|] eqn:E; [|now left]. apply do_step_ok; [|now apply do_steps_zero]. rewrite Forall_forall in Hm. exact (Hm ch (nth_error_In _ _ E)).
  Qed.
  (** Fair, if a last move of the thread ends it. *)
  Lemma do_steps_fair : forall sched s i k, Forall may_come sched -> at_zero s -> nth_error sched k = Some (C_go i) ->
    match nth_error (s_threads (do_steps sched s k)) i with Some t => match t_todo t with P_end _ => false | _ => true end | None => false end = true ->
    match do_move (do_steps sched s k) i with Some _ => true | None => false end = true ->
    match nth_error (s_threads (do_steps sched s (S k))) i with Some t => match t_todo t with P_end _ => true | _ => false end | None => false end = true ->
    fair g i (do_steps sched s).
  Proof.
    intros sched s i k Hm Hz Ek _ Em Ee n t En Hu. destruct (Nat.le_gt_cases n k) as [L|L].
    - exists k. split; [exact L|]. rewrite do_steps_S, Ek. cbn [do_step]. destruct (do_move (do_steps sched s k) i) as [s'|] eqn:E; [|discriminate Em].
      apply (do_move_ok _ i s' (do_steps_zero sched s k Hm Hz) E).
    - exfalso. apply Hu. destruct (nth_error (s_threads (do_steps sched s (S k))) i) as [t1|] eqn:E1; [|discriminate Ee]. destruct (t_todo t1) as [r| |] eqn:Et; try discriminate Ee.
      destruct (course_goes g _ (do_steps_course sched s Hm Hz) i (S k) t1 (n - S k) E1) as (t2 & E2 & _ & C). replace (S k + (n - S k)) with n in E2 by lia.
      assert (X : t2 = t) by congruence. subst t2. rewrite Et in C. destruct C as [C|C]; [now exists r|]. exfalso. clear - C. remember (P_end r) as m eqn:Em. induction C as [? ? H|? ? ? ? _ ? IH]; [subst; inversion H|now apply IH].
  Qed.
End Example.

Definition reply_x : list N := packet RC_NoError false [] [rec_ (s2b "x.") 60 (D_NS (s2b "ns.x."))] [rec_ (s2b "ns.x.") 60 (D_A [9; 9; 9; 9]%N)].
Definition reply_www : list N := packet RC_NoError true [rec_ (s2b "www.x.") 60 (D_A [1; 2; 3; 4]%N)] [] [].
Definition net_x (a x : list N) : option (list N) := if (hd 0 a =? 9)%N then Some reply_www else Some reply_x.
Definition started : state := mkState cache_new 0 [].
(** The second request comes in when the first lookup has saved the delegation of "x."; then
    they take turns. *)
Definition turns : list choice :=
  C_new conf0 (s2b "www.x.") RT_A :: repeat (C_go 0) 7 ++ C_new conf0 (s2b "www.x.") RT_A :: concat (repeat [C_go 1; C_go 0] 7).
Definition outcome (t : thread) : list (list N) * option (list record) :=
  (map fst (t_sent t), match t_todo t with P_end (Done (Ok x), _) => Some (x_answers x) | _ => None end).

(** Both end with the answer. The first has asked two servers, the second, which found the
    delegation in the cache, one. All hypotheses above are met, whatever the fuel. *)
Theorem C93_nonvacuous : forall f, let s := do_steps net_x (example net_x Release (4 + f)) turns started in
  setting_ok (example net_x Release (4 + f)) /\ (forall n, reached (example net_x Release (4 + f)) (s n)) /\
  course (example net_x Release (4 + f)) s /\ fair (example net_x Release (4 + f)) 0 s /\ fair (example net_x Release (4 + f)) 1 s /\
  map outcome (s_threads (s 10)) = [([[198; 41; 0; 4]%N], None); ([], None)] /\
  map outcome (s_threads (s 23)) =
    [([[9; 9; 9; 9]%N; [198; 41; 0; 4]%N], Some [mkRec (s2b "www.x.") C_IN 60 4 (D_A [1; 2; 3; 4]%N)]);
     ([[9; 9; 9; 9]%N], Some [mkRec (s2b "www.x.") C_IN 60 4 (D_A [1; 2; 3; 4]%N)])] /\
  (forall id a x d, comes (example net_x Release (4 + f)) id a x d -> exists m, decode_message Release (firstn 512 d) = Done (Ok m) /\ h_rcode (m_header m) = RC_NoError) /\
  accepted (s2b "www.x.") /\ usable_type RT_A.
Proof.
  intros f s.
  assert (B : forall a x d, net_x a x = Some d -> d = reply_www \/ d = reply_x). { intros a x d E. unfold net_x in E. destruct (hd 0%N a =? 9)%N; [left|right]; congruence. }
  assert (Hb : forall a x d, net_x a x = Some d -> is_bytes d). { intros a x d E. destruct (B a x d E) as [->| ->]; apply checked_bytes; vm_compute; reflexivity. }
  assert (Hz : at_zero started) by (split; [reflexivity|constructor]).
  assert (Hm : Forall (may_come (example net_x Release (4 + f))) turns) by (apply Forall_forall; intros [conf node kind|i|i] _; exact Logic.I).
  assert (C : course (example net_x Release (4 + f)) s) by (apply do_steps_course; try assumption; reflexivity).
  split; [now apply example_ok|]. split. { intros n. apply course_reached; [exact C|]. exists 0%N. split; [vm_compute; reflexivity|constructor]. }
  split; [exact C|].
  split; [apply (do_steps_fair net_x (example net_x Release (4 + f)) eq_refl (fun _ _ => eq_refl) eq_refl eq_refl turns started 0 12 Hm Hz); vm_compute; reflexivity|].
  split; [apply (do_steps_fair net_x (example net_x Release (4 + f)) eq_refl (fun _ _ => eq_refl) eq_refl eq_refl turns started 1 21 Hm Hz); vm_compute; reflexivity|].
  split; [vm_compute; reflexivity|]. split; [vm_compute; reflexivity|].
  split. { intros id a x d E. unfold comes in E. cbn in E. symmetry in E. assert (D : forall y, y = reply_www \/ y = reply_x -> match decode_message Release (firstn 512 y) with Done (Ok m) => rcode_to_num (h_rcode (m_header m)) | _ => 1%N end = 0%N).
    { intros y [->| ->]; vm_compute; reflexivity. }
    specialize (D d (B a x d E)). destruct (decode_message Release (firstn 512 d)) as [[m|e]|j|]; [|discriminate D..]. exists m. split; [reflexivity|]. destruct (h_rcode (m_header m)); try reflexivity; discriminate D. }
  split; [apply checked_accepted; vm_compute; reflexivity|]. unfold usable_type. tauto.
Qed.
Print Assumptions C93_nonvacuous.
