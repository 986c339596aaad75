(** C64, C65, C71: the thread pool. *)
From Coq Require Import Permutation.
From Verif Require Import Base Pool PoolSpec PoolInv.

Section PoolProps.
  Context {job : Type}.
  Lemma submitted_app : forall tr tr2 : list (event job), submitted (tr ++ tr2) = submitted tr ++ submitted tr2.
  Proof. intros. apply flat_map_app. Qed.
  Lemma started_app : forall tr tr2 : list (event job), started (tr ++ tr2) = started tr ++ started tr2.
  Proof. intros. apply flat_map_app. Qed.
  Lemma panicked_app : forall tr tr2 : list (event job), panicked (tr ++ tr2) = panicked tr ++ panicked tr2.
  Proof. intros. apply flat_map_app. Qed.
  Lemma returned_app : forall tr tr2 : list (event job), returned (tr ++ tr2) = returned tr ++ returned tr2.
  Proof. intros. apply flat_map_app. Qed.

  Lemma running_length : forall ws, length (running ws) + count is_end ws + count (@is_dead job) ws <= length ws.
  Proof.
    induction ws as [|w ws IH]; [cbn; lia|]. unfold count in *. destruct w; cbn [running flat_map app filter is_end is_dead length] in *; fold (running ws); lia.
  Qed.

  Lemma ob_snoc_start : forall i l j, one_by_one (job := job) i l -> (l = [] \/ exists l0 j', l = l0 ++ [E_return i j']) -> one_by_one i (l ++ [E_start i j]).
  Proof.
    intros i l j H. induction H as [|j'|j'|j' l H IH]; intros L.
    - constructor.
    - destruct L as [L|(l0 & j0 & L)]; [discriminate L|]. destruct l0 as [|? [|]]; discriminate L.
    - destruct L as [L|(l0 & j0 & L)]; [discriminate L|]. destruct l0 as [|? [|? [|]]]; discriminate L.
    - cbn [app]. constructor. apply IH. destruct l as [|x l]; [now left|]. right. destruct L as [L|(l0 & j0 & L)]; [discriminate L|].
      destruct l0 as [|a [|b l0]]; try discriminate L. exists l0, j0. cbn in L. congruence.
  Qed.
  Lemma ob_snoc_return : forall i l0 (j : job), one_by_one i (l0 ++ [E_start i j]) -> one_by_one i ((l0 ++ [E_start i j]) ++ [E_return i j]).
  Proof.
    intros i l0 j H. remember (l0 ++ [E_start i j]) as l eqn:E. revert l0 E. induction H as [|j'|j'|j' l H IH]; intros l0 E.
    - destruct l0; discriminate E.
    - destruct l0 as [|a [|]]; try discriminate E. cbn in E. injection E as ->. cbn [app]. constructor. constructor.
    - destruct l0 as [|a [|b [|]]]; discriminate E.
    - destruct l0 as [|a [|b l0]]; try discriminate E. cbn [app]. constructor. apply (IH l0). cbn in E. congruence.
  Qed.
  Lemma ob_snoc_panic : forall i l0 (j : job), one_by_one i (l0 ++ [E_start i j]) -> one_by_one i ((l0 ++ [E_start i j]) ++ [E_panic i j]).
  Proof.
    intros i l0 j H. remember (l0 ++ [E_start i j]) as l eqn:E. revert l0 E. induction H as [|j'|j'|j' l H IH]; intros l0 E.
    - destruct l0; discriminate E.
    - destruct l0 as [|a [|]]; try discriminate E. cbn in E. injection E as ->. cbn [app]. constructor.
    - destruct l0 as [|a [|b [|]]]; discriminate E.
    - destruct l0 as [|a [|b l0]]; try discriminate E. cbn [app]. constructor. apply (IH l0). cbn in E. congruence.
  Qed.
  (** what the state of worker [i] says of its past *)
  Definition w_past (i : nat) (l : list (event job)) (w : wstate job) : Prop :=
    match w with
    | W_run j => exists l0, l = l0 ++ [E_start i j]
    | W_dead => True
    | _ => l = [] \/ exists l0 j, l = l0 ++ [E_return i j]
    end.
  Lemma of_worker_snoc : forall i tr (e : event job), of_worker i (tr ++ [e]) = of_worker i tr ++ of_worker i [e].
  Proof. intros i tr e. unfold of_worker. apply filter_app. Qed.
  Lemma replace_at : forall (l1 l2 : list (wstate job)) x y i w, nth_error (l1 ++ y :: l2) i = Some w ->
    (i = length l1 /\ w = y /\ nth_error (l1 ++ x :: l2) i = Some x) \/ (i <> length l1 /\ nth_error (l1 ++ x :: l2) i = Some w).
  Proof.
    intros l1 l2 x y i w H. destruct (Nat.lt_trichotomy i (length l1)) as [L|[L|L]].
    - right. split; [lia|]. rewrite nth_error_app1 in * by assumption. exact H.
    - left. subst i. rewrite nth_error_app2, Nat.sub_diag in * by lia. cbn in *. split; [reflexivity|]. split; [congruence|reflexivity].
    - right. split; [lia|]. rewrite nth_error_app2 in * by lia. destruct (i - length l1) eqn:E; [lia|]. exact H.
  Qed.

  Definition weight (w : wstate job) : nat := match w with W_ready => 2 | W_recv => 1 | W_run _ => 3 | _ => 0 end.
  Definition weights (ws : list (wstate job)) : nat := list_sum (map weight ws).
  Lemma weights_app : forall l1 x l2, weights (l1 ++ x :: l2) = weights l1 + weight x + weights l2.
  Proof. intros. unfold weights. rewrite map_app, list_sum_app. cbn [map list_sum fold_right]. change (fold_right Nat.add 0 (map weight l2)) with (list_sum (map weight l2)). lia. Qed.
  Lemma weights_bound : forall ws, weights ws <= 3 * length ws.
  Proof. induction ws as [|w ws IH]; [cbn; lia|]. unfold weights in *. cbn [map list_sum fold_right length]. change (fold_right Nat.add 0 (map weight ws)) with (list_sum (map weight ws)). destruct w; cbn [weight]; lia. Qed.

  Lemma find_worker : forall (f : wstate job -> bool) ws, 0 < count f ws -> exists l1 w l2, ws = l1 ++ w :: l2 /\ f w = true.
  Proof.
    intros f ws H. unfold count in H. induction ws as [|w ws IH]; [cbn in H; lia|]. cbn [filter] in H. destruct (f w) eqn:E; [now exists [], w, ws|].
    destruct (IH H) as (l1 & w' & l2 & -> & E'). now exists (w :: l1), w', l2.
  Qed.
  Definition is_ready (w : wstate job) : bool := match w with W_ready => true | _ => false end.
  Definition is_run (w : wstate job) : bool := match w with W_run _ => true | _ => false end.
  Lemma count_alive : forall ws, count is_alive ws = count is_ready ws + count is_recv ws + count is_run ws.
  Proof. induction ws as [|w ws IH]; [reflexivity|]. unfold count in *. cbn [filter]. destruct w; cbn [is_alive is_ready is_recv is_run length]; lia. Qed.
  Lemma no_recv : forall q ws b o, count is_recv ws = 0 -> lock_free (@mkPool job q ws b o).
  Proof. intros q ws b o H Hin. cbn [p_workers] in Hin. apply in_split in Hin as (l1 & l2 & ->). rewrite count_app in H. cbn [is_recv] in H. lia. Qed.

  Context (returns panics : job -> Prop).
  Notation history := (history returns panics).
  Notation step := (step returns panics).
  Notation runs := (runs returns panics).

  Lemma runs_app : forall s tr s1 tr2 s2, runs s tr s1 -> runs s1 tr2 s2 -> runs s (tr ++ tr2) s2.
  Proof.
    intros s tr s1 tr2 s2 R1 R2. induction R2 as [|s1 tr2 s2 e s3 R2 IH H]; [now rewrite app_nil_r|]. rewrite app_assoc. econstructor; [now apply IH|exact H].
  Qed.
  Lemma history_app : forall n tr s tr2 s2, history n tr s -> runs s tr2 s2 -> history n (tr ++ tr2) s2.
  Proof. intros n tr s tr2 s2 (s0 & E & R) R2. exists s0. split; [exact E|]. eapply runs_app; eassumption. Qed.
  (** C64: jobs start in the order of the execute calls, each at most once; every started
      job has returned, has panicked or is one of at most as many running jobs as there are
      threads left. *)
  Theorem C64_jobs_start_once_in_order : forall n tr s, history n tr s ->
    exists waiting running, submitted tr = started tr ++ waiting /\
      Permutation (started tr) (returned tr ++ panicked tr ++ running) /\
      length running + length (panicked tr) <= n.
  Proof.
    intros n tr s H. apply history_inv in H as (_ & [I1 _ _ I4 I5 (js & k & _ & Q2 & _)]).
    exists js, (running (p_workers s)). split; [exact Q2|]. split; [exact I4|]. pose proof (running_length (p_workers s)). lia.
  Qed.

  (** C64: a worker runs its jobs one by one. *)
  Theorem C64_worker_runs_one_by_one : forall n tr s i, history n tr s -> one_by_one i (of_worker i tr).
  Proof.
    intros n tr s i (s0 & E & R).
    assert (A : one_by_one i (of_worker i tr) /\ ((forall w, nth_error (p_workers s) i = Some w -> w_past i (of_worker i tr) w) /\ (nth_error (p_workers s) i = None -> of_worker i tr = []))).
    { induction R as [s0|s0 tr s1 e s2 R IH H].
      - split; [constructor|]. split; [|reflexivity]. intros w Hw. unfold pool_new in E. destruct (0 <? n); [|discriminate E]. injection E as <-. cbn [p_workers] in Hw.
        apply nth_error_In, repeat_spec in Hw. subst w. now left.
      - specialize (IH E). destruct IH as (IH1 & IH2 & IH3). rewrite of_worker_snoc.
        destruct H; cbn [p_workers] in *; try (cbn [of_worker filter]; rewrite app_nil_r; split; [exact IH1|]; split; [exact IH2|exact IH3]).
        + cbn [of_worker filter]; rewrite app_nil_r; split; [exact IH1|]; split.
          * intros w Hw. apply (replace_at _ _ W_ready) in Hw as [(-> & -> & Hw)|(_ & Hw)]; [|now apply IH2]. exact (IH2 _ Hw).
          * intros Hn. apply IH3. apply nth_error_None. apply nth_error_None in Hn. rewrite app_length in *. exact Hn.
        + cbn [of_worker filter]; rewrite app_nil_r; split; [exact IH1|]; split.
          * intros w Hw. apply (replace_at _ _ W_ready) in Hw as [(-> & -> & Hw)|(_ & Hw)]; [|now apply IH2]. exact I.
          * intros Hn. apply IH3. apply nth_error_None. apply nth_error_None in Hn. rewrite app_length in *. exact Hn.
        + cbn [of_worker filter]. destruct (Nat.eqb_spec (length l1) i) as [L|L].
          * subst i. assert (P : w_past (length l1) (of_worker (length l1) tr) W_recv) by (apply IH2; rewrite nth_error_app2, Nat.sub_diag by lia; reflexivity).
            split; [now apply ob_snoc_start|]. split.
            -- intros w Hw. apply (replace_at _ _ W_recv) in Hw as [(_ & -> & _)|(L & _)]; [|now contradiction L]. now exists (of_worker (length l1) tr).
            -- intros Hn. apply nth_error_None in Hn. rewrite app_length in Hn. cbn in Hn. lia.
          * rewrite app_nil_r. split; [exact IH1|]. split.
            -- intros w Hw. apply (replace_at _ _ W_recv) in Hw as [(-> & _)|(_ & Hw)]; [now contradiction L|]. now apply IH2.
            -- intros Hn. apply IH3. apply nth_error_None. apply nth_error_None in Hn. rewrite app_length in *. exact Hn.
        + cbn [of_worker filter]; rewrite app_nil_r; split; [exact IH1|]; split.
          * intros w Hw. apply (replace_at _ _ W_recv) in Hw as [(-> & -> & Hw)|(_ & Hw)]; [|now apply IH2]. exact (IH2 _ Hw).
          * intros Hn. apply IH3. apply nth_error_None. apply nth_error_None in Hn. rewrite app_length in *. exact Hn.
        + cbn [of_worker filter]; rewrite app_nil_r; split; [exact IH1|]; split.
          * intros w Hw. apply (replace_at _ _ W_recv) in Hw as [(-> & -> & Hw)|(_ & Hw)]; [|now apply IH2]. exact I.
          * intros Hn. apply IH3. apply nth_error_None. apply nth_error_None in Hn. rewrite app_length in *. exact Hn.
        + cbn [of_worker filter]. destruct (Nat.eqb_spec (length l1) i) as [L|L].
          * subst i. assert (P : w_past (length l1) (of_worker (length l1) tr) (W_run j)) by (apply IH2; rewrite nth_error_app2, Nat.sub_diag by lia; reflexivity).
            destruct P as (l0 & P). rewrite P in *. split; [now apply ob_snoc_return|]. split.
            -- intros w Hw. apply (replace_at _ _ (W_run j)) in Hw as [(_ & -> & _)|(L & _)]; [|now contradiction L]. right. eexists _, j. reflexivity.
            -- intros Hn. apply nth_error_None in Hn. rewrite app_length in Hn. cbn in Hn. lia.
          * rewrite app_nil_r. split; [exact IH1|]. split.
            -- intros w Hw. apply (replace_at _ _ (W_run j)) in Hw as [(-> & _)|(_ & Hw)]; [now contradiction L|]. now apply IH2.
            -- intros Hn. apply IH3. apply nth_error_None. apply nth_error_None in Hn. rewrite app_length in *. exact Hn.
        + cbn [of_worker filter]. destruct (Nat.eqb_spec (length l1) i) as [L|L].
          * subst i. assert (P : w_past (length l1) (of_worker (length l1) tr) (W_run j)) by (apply IH2; rewrite nth_error_app2, Nat.sub_diag by lia; reflexivity).
            destruct P as (l0 & P). rewrite P in *. split; [now apply ob_snoc_panic|]. split.
            -- intros w Hw. apply (replace_at _ _ (W_run j)) in Hw as [(_ & -> & _)|(L & _)]; [|now contradiction L]. exact I.
            -- intros Hn. apply nth_error_None in Hn. rewrite app_length in Hn. cbn in Hn. lia.
          * rewrite app_nil_r. split; [exact IH1|]. split.
            -- intros w Hw. apply (replace_at _ _ (W_run j)) in Hw as [(-> & _)|(_ & Hw)]; [now contradiction L|]. now apply IH2.
            -- intros Hn. apply IH3. apply nth_error_None. apply nth_error_None in Hn. rewrite app_length in *. exact Hn. }
    exact (proj1 A).
  Qed.

  (** the owner's events say where it is *)
  Lemma owner_events : forall n tr s, history n tr s ->
    (In E_dropped tr -> p_owner s = O_dropped) /\ (In E_drop_panic tr -> p_owner s = O_panic) /\
    (In E_drop tr -> match p_owner s with O_open | O_abort => False | _ => True end).
  Proof.
    intros n tr s (s0 & E & R). induction R as [s0|s0 tr s1 e s2 R IH H]; [cbn; tauto|]. specialize (IH E). destruct IH as (IH1 & IH2 & IH3).
    destruct H; cbn [p_owner] in *; repeat split; intros Hin; apply in_app_or in Hin as [Hin|Hin];
      try (destruct Hin as [Hin|[]]; discriminate Hin); try (specialize (IH1 Hin)); try (specialize (IH2 Hin)); try (specialize (IH3 Hin)); try discriminate; try tauto; try exact I; try assumption.
  Qed.

  (** C64: once drop has returned, every job that was submitted has returned. *)
  Theorem C64_drop_waits_for_all_jobs : forall n tr s, history n tr s -> In E_dropped tr ->
    Permutation (submitted tr) (returned tr) /\ panicked tr = [] /\ forall e s', ~ step s e s'.
  Proof.
    intros n tr s H Hin. pose proof (owner_events _ _ _ H) as (O1 & _ & _). specialize (O1 Hin).
    apply history_inv in H as (Hn & [I1 I2 I3 I4 I5 (js & k & Q1 & Q2 & Q3 & Q4)]). rewrite O1 in Q4. destruct Q4 as (A & B).
    pose proof (count_total (p_workers s)) as T. pose proof (running_length (p_workers s)) as L.
    assert (Ep : panicked tr = []) by (apply length_zero_iff_nil; lia). assert (Er : running (p_workers s) = []) by (apply length_zero_iff_nil; lia).
    split; [|split; [exact Ep|]].
    - rewrite Q2, Q3 by lia. rewrite app_nil_r. rewrite Ep, Er, !app_nil_r in I4. exact I4.
    - intros e s' Hs. destruct Hs; cbn [p_owner p_workers] in *; try discriminate O1; rewrite !count_app in T; rewrite count_app in B; cbn [is_end is_alive] in T, B; lia.
  Qed.

  (** ** Progress *)
  Lemma steps_bound : forall s tr s2, runs s tr s2 -> weights (p_workers s2) + worker_steps tr <= weights (p_workers s) + 3 * length (started tr).
  Proof.
    intros s tr s2 R. induction R as [s|s tr s1 e s2 R IH H]; [cbn; lia|].
    unfold worker_steps, started in *. rewrite filter_app, flat_map_app, !app_length.
    destruct H; cbn [p_workers by_worker filter flat_map app length] in *; rewrite ?weights_app in *; cbn [weight] in *; lia.
  Qed.

  (** C64: no job waits for ever. However the threads are scheduled and whatever else is
      submitted meanwhile, once the workers have made more than 3n + 3k steps the k jobs
      that were waiting have all been started. *)
  Theorem C64_no_starvation : forall n tr s tr2 s2, history n tr s -> runs s tr2 s2 ->
    3 * n + 3 * (length (submitted tr) - length (started tr)) < worker_steps tr2 ->
    exists later, started (tr ++ tr2) = submitted tr ++ later.
  Proof.
    intros n tr s tr2 s2 H R L. pose proof (history_app _ _ _ _ _ H R) as H2.
    pose proof (steps_bound _ _ _ R) as B. apply history_inv in H as (_ & J). pose proof (weights_bound (p_workers s)) as Wb. rewrite (in_size _ _ _ J) in Wb.
    apply history_inv in H2 as (_ & [_ _ _ _ _ (js2 & _ & _ & Q & _)]).
    rewrite submitted_app in Q. pose proof (f_equal (@length job) Q) as Ql. rewrite started_app, !app_length in *.
    assert (G : length (submitted tr) <= length (started tr ++ started tr2)) by (rewrite app_length; lia).
    clear -Q G. remember (submitted tr) as a eqn:Ea. remember (started tr ++ started tr2) as b eqn:Eb. clear Ea Eb. revert b Q G.
    induction a as [|x a IH]; intros b Q G; [now exists b|]. destruct b as [|y b]; [cbn in G; lia|]. cbn in Q, G. injection Q as -> Q. destruct (IH b Q) as (l & ->); [lia|]. now exists l.
  Qed.

  Definition owner_weight (n : nat) (o : ostate) : nat :=
    match o with O_open => 5 * n + 3 | O_stopping m => 4 * m + n + 2 | O_joining l => length l + 1 | _ => 0 end.
  Definition total (n : nat) (s : pool job) : nat := 3 * length (p_queue s) + weights (p_workers s) + owner_weight n (p_owner s).
  Lemma step_total : forall n s e s', length (p_workers s) = n -> step s e s' ->
    length (p_workers s') = n /\ total n s' + 1 <= total n s + 4 * length (submitted [e]).
  Proof.
    intros n s e s' Hn H. unfold total. destruct H; cbn [p_queue p_workers p_owner owner_weight] in *; rewrite ?app_length in *; cbn [length submitted flat_map app] in *; rewrite ?weights_app; cbn [weight]; rewrite ?seq_length; split; try lia.
  Qed.
  (** C64, C71: apart from new submissions a pool makes only so many steps. *)
  Theorem C64_bounded_work : forall n tr s, history n tr s -> exists B, forall tr2 s2, runs s tr2 s2 -> length tr2 <= B + 4 * length (submitted tr2).
  Proof.
    intros n tr s H. apply history_inv in H as (_ & J). pose proof (in_size _ _ _ J) as Hn. clear J. exists (total n s). intros tr2 s2 R.
    assert (A : length (p_workers s2) = n /\ total n s2 + length tr2 <= total n s + 4 * length (submitted tr2)); [|lia].
    induction R as [s|s tr2 s1 e s2 R IH H]; [cbn; split; [exact Hn|lia]|]. destruct (IH Hn) as (A & B). destruct (step_total _ _ _ _ A H) as (C & D).
    split; [exact C|]. rewrite submitted_app, !app_length. cbn [length]. lia.
  Qed.

  (** a worker can move, when one is left and there is something to do *)
  Lemma worker_moves : forall n tr s, inv n tr s -> Forall (fun j => returns j \/ panics j) (submitted tr) -> p_owner s <> O_abort ->
    0 < count is_alive (p_workers s) -> p_queue s <> [] \/ 0 < count is_run (p_workers s) \/ count is_recv (p_workers s) = 0 ->
    exists e s', by_worker e = true /\ step s e s'.
  Proof.
    intros n tr [q ws b o] [I1 I2 I3 I4 _ (js & k & _ & Q2 & _)] Hall Ho Ha Hd. cbn [p_workers p_queue p_poisoned p_owner] in *. subst b.
    assert (Hrp : forall j, In j (running ws) -> returns j \/ panics j).
    { intros j Hj. rewrite Forall_forall in Hall. apply Hall. rewrite Q2. apply in_or_app. left. eapply Permutation_in; [symmetry; exact I4|]. rewrite !in_app_iff. tauto. }
    destruct (Nat.eq_dec (count is_run ws) 0) as [Er|Er].
    - destruct (Nat.eq_dec (count is_recv ws) 0) as [Ec|Ec].
      + rewrite count_alive in Ha. destruct (find_worker is_ready ws) as (l1 & w & l2 & -> & Ew); [lia|]. destruct w; try discriminate Ew.
        eexists _, _. split; [|eapply st_lock; [now apply no_recv|exact Ho]]. reflexivity.
      + destruct (find_worker is_recv ws) as (l1 & w & l2 & -> & Ew); [lia|]. destruct w; try discriminate Ew. destruct Hd as [Hd|[Hd|Hd]]; [|lia|lia].
        destruct q as [|[j|] q]; [easy| |].
        * eexists _, _. split; [|apply st_start; exact Ho]. reflexivity.
        * eexists _, _. split; [|apply st_end; exact Ho]. reflexivity.
    - destruct (find_worker is_run ws) as (l1 & w & l2 & -> & Ew); [lia|]. destruct w as [| |j| |]; try discriminate Ew. destruct (Hrp j) as [Hj|Hj]; [unfold running; rewrite flat_map_app; apply in_or_app; right; now left| |].
      + eexists _, _. split; [|now apply st_return]. reflexivity.
      + eexists _, _. split; [|now apply st_panic]. reflexivity.
  Qed.

  (** C64: a pool in use never gets stuck: as long as a thread is left, some worker can
      move or every submitted job has been run. *)
  Theorem C64_no_deadlock : forall n tr s, history n tr s -> Forall (fun j => returns j \/ panics j) (submitted tr) ->
    ~ In E_drop tr -> length (panicked tr) < n ->
    (exists e s', by_worker e = true /\ step s e s') \/ Permutation (submitted tr) (returned tr ++ panicked tr).
  Proof.
    intros n tr s H Hrp Hnd Hp.
    assert (Ho : p_owner s = O_open \/ p_owner s = O_abort).
    { destruct H as (s0 & E & R). clear Hp Hrp. induction R as [s0|s0 tr s1 e s2 R IH Hs].
      - unfold pool_new in E. destruct (0 <? n); [|discriminate E]. injection E as <-. now left.
      - assert (A : ~ In E_drop tr) by (intros Hi; apply Hnd, in_or_app; now left). specialize (IH E A).
        assert (B : e <> E_drop) by (intros ->; apply Hnd, in_or_app; right; now left).
        destruct Hs; cbn [p_owner] in *; try exact IH; try (now destruct IH); try (now left); try (now right); now contradiction B. }
    apply history_inv in H as (Hn & J). pose proof J as [I1 I2 I3 I4 I5 (js & k & Q1 & Q2 & Q3 & Q4)].
    pose proof (count_total (p_workers s)) as T. destruct Ho as [Ho|Ho]; rewrite Ho in Q4; cbn [owner_inv] in Q4.
    2: lia.
    destruct Q4 as (-> & Q4). rewrite app_nil_r in Q1.
    destruct (Nat.eq_dec (length js) 0) as [Ej|Ej]; [destruct (Nat.eq_dec (count is_run (p_workers s)) 0) as [Er|Er]|].
    - right. apply length_zero_iff_nil in Ej. subst js. rewrite Q2, app_nil_r. replace (running (p_workers s)) with (@nil job) in I4; [now rewrite app_nil_r in I4|].
      clear -Er. induction (p_workers s) as [|w ws IH]; [reflexivity|]. unfold count in *. destruct w; cbn [filter is_run length running flat_map app] in *; try (now apply IH). lia.
    - left. eapply worker_moves; [exact J|exact Hrp|rewrite Ho; discriminate|rewrite count_alive; lia|right; left; lia].
    - left. eapply worker_moves; [exact J|exact Hrp|rewrite Ho; discriminate|lia|left; rewrite Q1; now destruct js].
  Qed.

  Lemma owner_says : forall n tr s, history n tr s ->
    (p_owner s = O_dropped -> In E_dropped tr) /\ (p_owner s = O_panic -> In E_drop_panic tr) /\
    (p_owner s = O_abort -> exists j, In (E_execute_panic j) tr) /\ (p_owner s = O_open -> ~ In E_drop tr) /\
    (p_owner s <> O_open -> p_owner s <> O_abort -> In E_drop tr).
  Proof.
    intros n tr s (s0 & E & R). induction R as [s0|s0 tr s1 e s2 R IH H].
    { unfold pool_new in E. destruct (0 <? n); [|discriminate E]. injection E as <-. cbn [p_owner]. repeat split; try discriminate; tauto. }
    specialize (IH E). destruct IH as (IH1 & IH2 & IH3 & IH4 & IH5).
    destruct H; cbn [p_owner] in *; repeat split; intros; rewrite ?in_app_iff in *; cbn [In] in *; subst;
      try discriminate; try (now left; auto); try (right; now left); try (left; now apply IH5);
      try (destruct IH3 as (j' & Hj); [reflexivity|]; exists j'; apply in_or_app; now left); try tauto.
    all: try (intros [Hi|[Hi|[]]]; [now apply IH4|discriminate Hi]).
    exists j. apply in_or_app. right. now left.
  Qed.
  Lemma outcomes : forall n tr s, history n tr s -> Forall returns (returned tr) /\ Forall panics (panicked tr).
  Proof.
    intros n tr s (s0 & _ & R). induction R as [s0|s0 tr s1 e s2 R IH H]; [split; constructor|]. rewrite returned_app, panicked_app, !Forall_app. destruct IH as (IH1 & IH2).
    destruct H; cbn [returned panicked flat_map app]; repeat split; try assumption; try constructor; try assumption; constructor.
  Qed.
  Lemma panicked_were_submitted : forall n tr s j, history n tr s -> In j (panicked tr) -> In j (submitted tr).
  Proof.
    intros n tr s j H Hj. apply C64_jobs_start_once_in_order in H as (w & r & E & P & _). rewrite E. apply in_or_app. left.
    eapply Permutation_in; [symmetry; exact P|]. rewrite !in_app_iff. tauto.
  Qed.

  (** C71: a drop under way never gets stuck, and is over after a bounded number of steps. *)
  Theorem C71_drop_ends : forall n tr s, history n tr s -> Forall (fun j => returns j \/ panics j) (submitted tr) -> In E_drop tr ->
    (In E_dropped tr \/ In E_drop_panic tr \/ exists e s', step s e s') /\
    exists B, forall tr2 s2, runs s tr2 s2 -> length tr2 <= B.
  Proof.
    intros n tr s H Hrp Hd. split.
    - pose proof (owner_events _ _ _ H) as (_ & _ & O3). specialize (O3 Hd). pose proof (owner_says _ _ _ H) as (S1 & S2 & _).
      apply history_inv in H as (Hn & J). destruct s as [q ws b o]. cbn [p_owner] in *. pose proof J as [I1 I2 I3 I4 I5 (js & k & Q1 & Q2 & Q3 & Q4)]. cbn [p_queue p_workers p_owner p_poisoned] in *.
      destruct o as [|m|l| | |]; try (now destruct O3); [right; right|right; right|left; now apply S1|right; left; now apply S2].
      + destruct m as [|m]; [eexists _, _; apply st_stopped|].
        destruct (Nat.eq_dec (count is_alive ws) 0) as [Ea|Ea].
        * eexists _, _. apply st_stop_panic. rewrite alive_exists. lia.
        * eexists _, _. apply st_stop. rewrite alive_exists. lia.
      + destruct l as [|i l]; [eexists _, _; apply st_joined|]. destruct Q4 as (A & i0 & L & El & F).
        destruct (n - i0) as [|m] eqn:Em; [discriminate El|]. cbn [seq] in El. injection El as -> _.
        destruct (nth_error ws i0) as [w|] eqn:Ew; [|apply nth_error_None in Ew; lia].
        pose proof (count_total ws) as T.
        destruct w; try (eexists _, _; apply st_join; exact Ew); try (eexists _, _; apply st_join_panic; exact Ew).
        all: assert (Ha : 0 < count is_alive ws) by (apply nth_error_split in Ew as (l1 & l2 & -> & _); rewrite count_app; cbn [is_alive]; lia).
        all: destruct (worker_moves _ _ _ J Hrp) as (e & s' & _ & Hs); cbn [p_owner p_workers p_queue]; [discriminate|exact Ha| |now exists e, s'].
        all: left; rewrite Q1; destruct k as [|k]; [lia|]; destruct js; discriminate.
    - destruct (C64_bounded_work _ _ _ H) as (B & HB). exists B. intros tr2 s2 R. pose proof (HB _ _ R) as L.
      assert (E : submitted tr2 = []); [|rewrite E in L; cbn in L; lia].
      pose proof (owner_events _ _ _ H) as (_ & _ & O3). specialize (O3 Hd).
      clear -O3 R.
      assert (A : match p_owner s2 with O_open => False | _ => True end /\ submitted tr2 = []); [|apply A].
      induction R as [s|s tr2 s1 e s2 R IH Hs]; [split; [now destruct (p_owner s)|reflexivity]|]. specialize (IH O3). destruct IH as (A & IH). rewrite submitted_app, IH.
      destruct Hs; cbn [p_owner submitted flat_map app] in *; try (now destruct A); now split.
  Qed.

  (** C71 holds as long as no job panics: drop returns, after every job has. *)
  Lemma panic_owner : forall n tr s, history n tr s -> p_owner s = O_panic -> panicked tr <> [].
  Proof.
    intros n tr s (s0 & E & R). induction R as [s0|s0 tr s1 e s2 R IH H]; intros Ho.
    - unfold pool_new in E. destruct (0 <? n); [|discriminate E]. injection E as <-. discriminate Ho.
    - rewrite panicked_app. assert (J : inv n tr s1) by (eapply history_inv; exists s0; split; [exact E|exact R]).
      pose proof J as [I1 I2 I3 I4 I5 (js & k & Q1 & Q2 & Q3 & Q4)]. pose proof (count_total (p_workers s1)) as T.
      destruct H; cbn [p_owner p_workers] in *; try discriminate Ho; try (intros C; apply app_eq_nil in C; destruct C as (C & _); revert C; now apply IH).
      + apply no_alive in H. cbn [owner_inv] in Q4. intros C. rewrite app_nil_r in C. rewrite C in I5. cbn in I5. lia.
      + apply nth_error_split in H as (l1 & l2 & -> & _). rewrite count_app in I5. cbn [is_dead] in I5. intros C. rewrite app_nil_r in C. rewrite C in I5. cbn in I5. lia.
  Qed.
  Theorem C71_drop_returns_partial : forall n tr s, history n tr s -> Forall (fun j => returns j \/ panics j) (submitted tr) -> In E_drop tr ->
    Forall (fun j => ~ panics j) (submitted tr) ->
    (In E_dropped tr /\ Permutation (submitted tr) (returned tr)) \/ exists e s', step s e s'.
  Proof.
    intros n tr s H Hrp Hd Hno. destruct (C71_drop_ends _ _ _ H Hrp Hd) as ([A|[A|A]] & _); [left| |now right].
    - split; [exact A|]. now apply (C64_drop_waits_for_all_jobs _ _ _ H A).
    - exfalso. pose proof (owner_events _ _ _ H) as (_ & O2 & _). apply O2 in A. apply (panic_owner _ _ _ H) in A. destruct (panicked tr) as [|j l] eqn:E; [easy|].
      destruct (outcomes _ _ _ H) as (_ & P). rewrite E in P. inversion P; subst. rewrite Forall_forall in Hno. apply (Hno j); [|assumption]. eapply panicked_were_submitted; [exact H|]. rewrite E. now left.
  Qed.
  (** C71 is refuted: after one job has panicked, a call of drop can only panic. *)
  Theorem C71_refuted_drop_panics : forall n tr s, history n tr s -> panicked tr <> [] ->
    forall tr2 s2, runs s tr2 s2 -> ~ In E_dropped (tr ++ tr2) /\
      (Forall (fun j => returns j \/ panics j) (submitted (tr ++ tr2)) -> In E_drop (tr ++ tr2) -> (forall e s', ~ step s2 e s') -> In E_drop_panic (tr ++ tr2)).
  Proof.
    intros n tr s H Hp tr2 s2 R. pose proof (history_app _ _ _ _ _ H R) as H2.
    assert (Hp2 : panicked (tr ++ tr2) <> []) by (rewrite panicked_app; intros C; apply app_eq_nil in C; tauto).
    assert (A : ~ In E_dropped (tr ++ tr2)) by (intros C; apply (C64_drop_waits_for_all_jobs _ _ _ H2) in C; tauto).
    split; [exact A|]. intros Hrp Hd Hst. destruct (C71_drop_ends _ _ _ H2 Hrp Hd) as ([B|[B|(e & s' & B)]] & _); [contradiction|exact B|]. now apply Hst in B.
  Qed.

  (** ** C65: a pool whose threads have all panicked. *)
  Lemma dead_pool : forall n tr s, history n tr s -> length (panicked tr) = n -> count is_alive (p_workers s) = 0.
  Proof. intros n tr s H E. apply history_inv in H as (_ & J). pose proof (count_total (p_workers s)) as T. rewrite (in_dead _ _ _ J), (in_size _ _ _ J) in T. lia. Qed.
  Theorem C65_refuted_dead_pool_serves_nothing : forall n tr s, history n tr s -> length (panicked tr) = n ->
    forall tr2 s2, runs s tr2 s2 -> submitted tr2 = [] /\ started tr2 = [] /\ returned tr2 = [].
  Proof.
    intros n tr s H E tr2 s2 R. induction R as [s|s tr2 s1 e s2 R IH Hs]; [now repeat split|]. destruct (IH H) as (A1 & A2 & A3).
    pose proof (history_app _ _ _ _ _ H R) as H2.
    assert (L : length (panicked (tr ++ tr2)) = n).
    { pose proof (C64_jobs_start_once_in_order _ _ _ H2) as (_ & r & _ & _ & L). rewrite panicked_app, app_length in *. lia. }
    apply (dead_pool _ _ _ H2) in L. rewrite submitted_app, started_app, returned_app, A1, A2, A3.
    destruct Hs; cbn [submitted started returned flat_map app p_workers] in *; try (now repeat split); exfalso.
    - match goal with Hr : receiver_exists _ |- _ => apply alive_exists in Hr end. lia.
    - rewrite count_app in L. cbn [is_alive] in L. lia.
    - rewrite count_app in L. cbn [is_alive] in L. lia.
  Qed.
  Theorem C65_refuted_next_request_aborts : forall n tr s, history n tr s -> length (panicked tr) = n ->
    ~ In E_drop tr -> (forall j, ~ In (E_execute_panic j) tr) ->
    forall j, exists s', step s (E_execute_panic j) s' /\ forall e s'', ~ step s' e s''.
  Proof.
    intros n tr s H E Hd He j. pose proof (owner_says _ _ _ H) as (_ & _ & S3 & _ & S5). apply (dead_pool _ _ _ H) in E. destruct s as [q ws b o]. cbn [p_owner p_workers] in *.
    assert (Ho : o = O_open). { destruct o; try reflexivity; try (exfalso; apply Hd; apply S5; discriminate). destruct S3 as (j' & Hj); [reflexivity|]. exfalso. now apply (He j'). }
    subst o. exists (mkPool q ws b O_abort). split; [apply st_execute_panic; rewrite alive_exists; lia|]. intros e s'' Hs. inversion Hs; congruence.
  Qed.
  Lemma perm_incl : forall (bad rest good ill : list job), Permutation (bad ++ rest) (good ++ ill) -> Forall (fun j => ~ returns j) bad -> Forall returns good -> length bad <= length ill.
  Proof.
    induction bad as [|x bad IH]; intros rest good ill P Hb Hg; [cbn; lia|]. inversion Hb; subst. cbn [app] in P.
    assert (Hin : In x (good ++ ill)) by (eapply Permutation_in; [exact P|now left]). apply in_app_or in Hin as [Hin|Hin].
    - rewrite Forall_forall in Hg. now apply Hg in Hin.
    - apply in_split in Hin as (i1 & i2 & ->). rewrite app_assoc in P. apply Permutation_cons_app_inv in P. rewrite <- app_assoc in P. apply IH in P; try assumption. rewrite app_length in *. cbn [length]. lia.
  Qed.
  (** ... and in every schedule this is where a pool of [n] threads ends when [n] of the
      submitted jobs cannot but panic. *)
  Theorem C65_refuted_every_schedule : forall n tr s bad rest, history n tr s -> Forall (fun j => returns j \/ panics j) (submitted tr) ->
    ~ In E_drop tr -> Permutation (submitted tr) (bad ++ rest) -> n <= length bad -> Forall (fun j => ~ returns j) bad ->
    (exists e s', by_worker e = true /\ step s e s') \/ length (panicked tr) = n.
  Proof.
    intros n tr s bad rest H Hrp Hd P L Hb. destruct (Nat.lt_ge_cases (length (panicked tr)) n) as [Lt|Ge].
    - destruct (C64_no_deadlock _ _ _ H Hrp Hd Lt) as [A|A]; [now left|]. exfalso. destruct (outcomes _ _ _ H) as (Hr & _).
      assert (B : length bad <= length (panicked tr)) by (eapply perm_incl; [etransitivity; [symmetry; exact P|exact A]|exact Hb|exact Hr]). lia.
    - right. pose proof (C64_jobs_start_once_in_order _ _ _ H) as (_ & r & _ & _ & L2). lia.
  Qed.
  (** Such a history exists for every size of the pool. *)
  Theorem C65_refuted_reachable : forall n j, 0 < n -> panics j -> exists tr s, history n tr s /\
    submitted tr = repeat j n /\ panicked tr = repeat j n /\ ~ In E_drop tr /\ forall j', ~ In (E_execute_panic j') tr.
  Proof.
    intros n j Hn Hj.
    assert (A : forall m, runs (mkPool [] (repeat W_ready n) false O_open) (repeat (E_execute j) m) (mkPool (repeat (WJob j) m) (repeat W_ready n) false O_open)).
    { induction m as [|m IH]; [constructor|]. cbn [repeat]. rewrite (repeat_cons m (E_execute j)), (repeat_cons m (WJob j)). econstructor; [exact IH|]. constructor.
      exists W_ready. split; [|exact I]. cbn [p_workers]. destruct n; [lia|]. now left. }
    assert (B : forall m k, runs (mkPool (repeat (WJob j) m) (repeat W_dead k ++ repeat W_ready m) false O_open)
              (concat (map (fun i => [E_worker; E_start i j; E_panic i j]) (seq k m))) (mkPool [] (repeat W_dead (k + m)) false O_open)).
    { induction m as [|m IH]; intros k; [rewrite Nat.add_0_r, app_nil_r; constructor|]. cbn [seq map concat repeat].
      assert (NR : forall l1 l2 : list (wstate job), Forall (fun w => w <> W_recv) (l1 ++ l2) -> forall q, lock_free (mkPool q (l1 ++ W_ready :: l2) false O_open)).
      { intros l1 l2 F q. unfold lock_free. cbn [p_workers]. rewrite Forall_app in F. destruct F as (F1 & F2). rewrite Forall_forall in F1, F2. rewrite in_app_iff. cbn [In].
        intros [Hi|[Hi|Hi]]; [now apply (F1 W_recv)|discriminate Hi|now apply (F2 W_recv)]. }
      replace ([E_worker; E_start k j; E_panic k j] ++ _) with ((([] ++ [E_worker]) ++ [E_start k j]) ++ [E_panic k j] ++ concat (map (fun i => [E_worker; E_start i j; E_panic i j]) (seq (S k) m))) by reflexivity.
      rewrite app_assoc. eapply runs_app; [|replace (k + S m) with (S k + m) by lia; apply IH].
      replace (repeat W_dead (S k) ++ repeat W_ready m) with (repeat (@W_dead job) k ++ W_dead :: repeat W_ready m) by (cbn [repeat]; rewrite (repeat_cons k W_dead), <- app_assoc; reflexivity).
      change (([] ++ [E_worker]) ++ [E_start k j]) with ((([] ++ [E_worker]) ++ [E_start k j]) : list (event job)).
      eapply runs_more; [eapply runs_more; [eapply runs_more; [constructor|]|]|].
      - apply st_lock; [|discriminate]. apply NR. apply Forall_app. split; apply Forall_forall; intros w Hw; apply repeat_spec in Hw; subst w; discriminate.
      - replace k with (length (repeat (@W_dead job) k)) at 2 by apply repeat_length. apply st_start. discriminate.
      - replace k with (length (repeat (@W_dead job) k)) at 2 by apply repeat_length. apply st_panic; [exact Hj|discriminate]. }
    assert (C : forall m k, submitted (concat (map (fun i => [E_worker; E_start i j; E_panic i j]) (seq k m))) = [] /\ panicked (concat (map (fun i => [E_worker; E_start i j; E_panic i j]) (seq k m))) = repeat j m).
    { induction m as [|m IH]; intros k; [now split|]. cbn [seq map concat]. rewrite submitted_app, panicked_app. destruct (IH (S k)) as (-> & ->). now split. }
    assert (D : forall m, submitted (repeat (E_execute j) m) = repeat j m /\ panicked (repeat (E_execute j) m) = []).
    { induction m as [|m (IH1 & IH2)]; [now split|]. cbn [repeat]. change (E_execute j :: repeat (E_execute j) m) with ([E_execute j] ++ repeat (E_execute j) m). rewrite submitted_app, panicked_app, IH1, IH2. now split. }
    exists (repeat (E_execute j) n ++ concat (map (fun i => [E_worker; E_start i j; E_panic i j]) (seq 0 n))), (mkPool [] (repeat W_dead (0 + n)) false O_open).
    rewrite submitted_app, panicked_app. destruct (C n 0) as (-> & ->). destruct (D n) as (-> & ->). rewrite app_nil_r.
    split; [|split; [reflexivity|split; [reflexivity|]]].
    - exists (mkPool [] (repeat W_ready n) false O_open). split; [unfold pool_new; now destruct (Nat.ltb_spec 0 n); [|lia]|]. eapply runs_app; [apply A|]. exact (B n 0).
    - assert (Z : forall e, In e (repeat (E_execute j) n ++ concat (map (fun i => [E_worker; E_start i j; E_panic i j]) (seq 0 n))) -> match e with E_execute _ | E_worker | E_start _ _ | E_panic _ _ => True | _ => False end).
      { intros e He. apply in_app_or in He as [He|He]; [apply repeat_spec in He; now subst e|]. apply in_concat in He as (x & Hx & He). apply in_map_iff in Hx as (i & <- & _).
        destruct He as [<- | [<- | [<- | []]]]; exact I. }
      split; [intros He|intros j' He]; now apply Z in He.
  Qed.
End PoolProps.

Print Assumptions C64_jobs_start_once_in_order.
Print Assumptions C64_worker_runs_one_by_one.
Print Assumptions C64_drop_waits_for_all_jobs.
Print Assumptions C64_no_starvation.
Print Assumptions C64_bounded_work.
Print Assumptions C64_no_deadlock.
Print Assumptions C71_drop_ends.
Print Assumptions C71_drop_returns_partial.
Print Assumptions C71_refuted_drop_panics.
Print Assumptions C65_refuted_dead_pool_serves_nothing.
Print Assumptions C65_refuted_next_request_aborts.
Print Assumptions C65_refuted_every_schedule.
Print Assumptions C65_refuted_reachable.

(** A pool of two threads: three jobs, one of which panics; then drop, which panics. *)
Definition ex_returns (j : nat) : Prop := j <> 7.
Definition ex_panics (j : nat) : Prop := j = 7.
Definition ex_trace : list (event nat) :=
  [E_execute 1; E_execute 7; E_execute 2; E_worker; E_start 1 1; E_worker; E_start 0 7; E_panic 0 7; E_return 1 1; E_worker; E_start 1 2; E_return 1 2].
Theorem C64_nonvacuous : history ex_returns ex_panics 2 ex_trace (mkPool [] [W_dead; W_ready] false O_open) /\
  Forall (fun j => ex_returns j \/ ex_panics j) (submitted ex_trace) /\ ~ In E_drop ex_trace /\ length (panicked ex_trace) < 2 /\ submitted ex_trace = [1; 7; 2] /\
  started ex_trace = [1; 7; 2] /\ returned ex_trace = [1; 2].
Proof.
  assert (Al : forall q a w o, @receiver_exists nat (mkPool q [a; W_ready] w o)) by (intros; exists W_ready; split; [right; now left|exact I]).
  split; [|split; [repeat (apply Forall_cons; [unfold ex_returns, ex_panics; lia|]); apply Forall_nil|split; [cbn; intuition discriminate|repeat split; cbn; lia]]].
  exists (mkPool [] [W_ready; W_ready] false O_open). split; [reflexivity|]. unfold ex_trace.
  change (runs ex_returns ex_panics (mkPool [] [W_ready; W_ready] false O_open)
    ((((((((((((([] ++ [E_execute 1]) ++ [E_execute 7]) ++ [E_execute 2]) ++ [E_worker]) ++ [E_start 1 1]) ++ [E_worker]) ++ [E_start 0 7]) ++ [E_panic 0 7]) ++ [E_return 1 1]) ++ [E_worker]) ++ [E_start 1 2]) ++ [E_return 1 2]))
    (mkPool [] [W_dead; W_ready] false O_open)).
  eapply runs_more. 1: eapply runs_more. 1: eapply runs_more. 1: eapply runs_more. 1: eapply runs_more. 1: eapply runs_more. 1: eapply runs_more. 1: eapply runs_more. 1: eapply runs_more. 1: eapply runs_more. 1: eapply runs_more. 1: eapply runs_more. 1: constructor.
  - apply st_execute. apply Al.
  - apply st_execute. apply Al.
  - apply st_execute. apply Al.
  - apply (st_lock _ _ _ [W_ready] []); [|discriminate]. unfold lock_free. cbn. intuition discriminate.
  - apply (st_start _ _ _ [W_ready] []). discriminate.
  - apply (st_lock _ _ _ [] [W_run 1]); [|discriminate]. unfold lock_free. cbn. intuition discriminate.
  - apply (st_start _ _ _ [] [W_run 1]). discriminate.
  - apply (st_panic _ _ _ [] [W_run 1]); [reflexivity|discriminate].
  - apply (st_return _ _ _ [W_dead] []); [discriminate|discriminate].
  - apply (st_lock _ _ _ [W_dead] []); [|discriminate]. unfold lock_free. cbn. intuition discriminate.
  - apply (st_start _ _ _ [W_dead] []). discriminate.
  - apply (st_return _ _ _ [W_dead] []); [discriminate|discriminate].
Qed.
(** The same pool dropped: C71's hypotheses are met, and drop panics. *)
Theorem C71_nonvacuous : exists tr s, history ex_returns ex_panics 2 tr s /\ panicked tr <> [] /\ In E_drop tr /\ In E_drop_panic tr.
Proof.
  destruct C64_nonvacuous as (H & _).
  assert (A : history ex_returns ex_panics 2 (((((ex_trace ++ [E_drop]) ++ [E_owner]) ++ [E_owner]) ++ [E_owner]) ++ [E_drop_panic]) (mkPool [WStop; WStop] [W_dead; W_ready] false O_panic)).
  { destruct H as (s0 & E & R). exists s0. split; [exact E|]. eapply runs_more. 1: eapply runs_more. 1: eapply runs_more. 1: eapply runs_more. 1: eapply runs_more. 1: exact R.
    - apply st_drop.
    - apply st_stop. exists W_ready. split; [right; now left|exact I].
    - apply st_stop. exists W_ready. split; [right; now left|exact I].
    - apply st_stopped.
    - apply st_join_panic. reflexivity. }
  eexists _, _. split; [exact A|]. cbn. repeat split; [discriminate|tauto|tauto].
Qed.
(** Drop of a pool of one thread with two jobs that return. *)
Theorem C71_partial_nonvacuous : exists tr s, history ex_returns ex_panics 1 tr s /\ In E_drop tr /\ In E_dropped tr /\ submitted tr = [1; 2] /\
  Forall (fun j => ~ ex_panics j) (submitted tr).
Proof.
  assert (A : history ex_returns ex_panics 1 ((((((((((((([] ++ [E_execute 1]) ++ [E_execute 2]) ++ [E_drop]) ++ [E_owner]) ++ [E_worker]) ++ [E_start 0 1]) ++ [E_return 0 1]) ++ [E_worker]) ++ [E_start 0 2]) ++ [E_owner]) ++ [E_return 0 2]) ++ [E_worker]) ++ [E_worker]) (mkPool [] [W_end] false (O_joining [0]))).
  { exists (mkPool [] [W_ready] false O_open). split; [reflexivity|].
    eapply runs_more. 1: eapply runs_more. 1: eapply runs_more. 1: eapply runs_more. 1: eapply runs_more. 1: eapply runs_more. 1: eapply runs_more. 1: eapply runs_more. 1: eapply runs_more. 1: eapply runs_more. 1: eapply runs_more. 1: eapply runs_more. 1: eapply runs_more. 1: constructor.
    - apply st_execute. exists W_ready. split; [now left|exact I].
    - apply st_execute. exists W_ready. split; [now left|exact I].
    - apply st_drop.
    - apply st_stop. exists W_ready. split; [now left|exact I].
    - apply (st_lock _ _ _ [] []); [|discriminate]. unfold lock_free. cbn. intuition discriminate.
    - apply (st_start _ _ _ [] []). discriminate.
    - apply (st_return _ _ _ [] []); discriminate.
    - apply (st_lock _ _ _ [] []); [|discriminate]. unfold lock_free. cbn. intuition discriminate.
    - apply (st_start _ _ _ [] []). discriminate.
    - apply st_stopped.
    - apply (st_return _ _ _ [] []); discriminate.
    - apply (st_lock _ _ _ [] []); [|discriminate]. unfold lock_free. cbn. intuition discriminate.
    - apply (st_end _ _ _ [] []). discriminate. }
  destruct A as (s0 & E & R). eexists _, _. split; [|split; [|split; [|split]]].
  - exists s0. split; [exact E|]. eapply runs_more; [eapply runs_more; [exact R|apply st_join; reflexivity]|]. apply st_joined.
  - cbn. tauto.
  - cbn. tauto.
  - reflexivity.
  - cbn. repeat constructor; discriminate.
Qed.
