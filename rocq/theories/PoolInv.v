(** The invariant of every history of a pool. *)
From Coq Require Import Permutation.
From Verif Require Import Base Pool PoolSpec.

Section Inv.
  Context {job : Type}.
  Notation wstate := (wstate job).
  Definition is_end (w : wstate) : bool := match w with W_end => true | _ => false end.
  Definition is_dead (w : wstate) : bool := match w with W_dead => true | _ => false end.
  Definition is_recv (w : wstate) : bool := match w with W_recv => true | _ => false end.
  Definition is_alive (w : wstate) : bool := match w with W_end | W_dead => false | _ => true end.
  Definition count (f : wstate -> bool) (ws : list wstate) : nat := length (filter f ws).
  Definition running (ws : list wstate) : list job := flat_map (fun w => match w with W_run j => [j] | _ => [] end) ws.

  Lemma count_app : forall f l1 x l2, count f (l1 ++ x :: l2) = count f l1 + (if f x then 1 else 0) + count f l2.
  Proof. intros f l1 x l2. unfold count. rewrite filter_app, app_length. cbn [filter]. destruct (f x); cbn [length]; lia. Qed.
  Lemma count_total : forall ws, count is_end ws + count is_dead ws + count is_alive ws = length ws.
  Proof. induction ws as [|w ws IH]; [reflexivity|]. unfold count in *. cbn [filter length]. destruct w; cbn [is_end is_dead is_alive length]; lia. Qed.
  Lemma running_app : forall l1 x l2, Permutation (running (l1 ++ x :: l2)) ((match x with W_run j => [j] | _ => [] end) ++ running (l1 ++ l2)).
  Proof.
    intros l1 x l2. unfold running. rewrite !flat_map_app. cbn [flat_map]. destruct x; cbn [app]; try apply Permutation_refl. symmetry. apply Permutation_middle.
  Qed.
  Lemma alive_exists : forall q ws b o, receiver_exists (mkPool q ws b o) <-> 0 < count is_alive ws.
  Proof.
    intros q ws b o. unfold receiver_exists. cbn [p_workers]. split.
    - intros (w & Hin & Ha). apply in_split in Hin as (l1 & l2 & ->). rewrite count_app. destruct w; cbn in Ha; try easy; cbn [is_alive]; lia.
    - induction ws as [|w ws IH]; [unfold count; cbn; lia|]. intros H. destruct (is_alive w) eqn:E.
      + exists w. split; [now left|]. now destruct w.
      + destruct IH as (w' & H1 & H2); [unfold count in *; cbn [filter] in H; now rewrite E in H|]. exists w'. split; [now right|assumption].
  Qed.
  Lemma no_alive : forall q ws b o, ~ receiver_exists (mkPool q ws b o) -> count is_alive ws = 0.
  Proof. intros q ws b o H. rewrite alive_exists in H. lia. Qed.
  Lemma count_repeat : forall f w n, f w = false -> count f (repeat w n) = 0.
  Proof. intros f w n E. unfold count. induction n as [|n IH]; [reflexivity|]. cbn [repeat filter]. now rewrite E. Qed.

  Definition owner_inv (n k : nat) (ws : list wstate) (o : ostate) : Prop :=
    match o with
    | O_open => k = 0 /\ count is_end ws = 0
    | O_stopping m => k + count is_end ws + m = n
    | O_joining l => k + count is_end ws = n /\ exists i, i <= n /\ l = seq i (n - i) /\ forall i', i' < i -> nth_error ws i' = Some W_end
    | O_dropped => k + count is_end ws = n /\ count is_end ws = n
    | O_panic => count is_alive ws <= k
    | O_abort => count is_alive ws = 0 /\ count is_end ws = 0
    end.
  Record inv (n : nat) (tr : list (event job)) (s : pool job) : Prop := mkInv {
    in_size : length (p_workers s) = n;
    in_lock : p_poisoned s = false;
    in_recv : count is_recv (p_workers s) <= 1;
    in_jobs : Permutation (started tr) (returned tr ++ panicked tr ++ running (p_workers s));
    in_dead : count is_dead (p_workers s) = length (panicked tr);
    in_queue : exists js k, p_queue s = map WJob js ++ repeat WStop k /\ submitted tr = started tr ++ js /\
       (0 < count is_end (p_workers s) -> js = []) /\ owner_inv n k (p_workers s) (p_owner s) }.

  Lemma snoc_events : forall tr (e : event job),
    submitted (tr ++ [e]) = submitted tr ++ match e with E_execute j => [j] | _ => [] end /\
    started (tr ++ [e]) = started tr ++ match e with E_start _ j => [j] | _ => [] end /\
    returned (tr ++ [e]) = returned tr ++ match e with E_return _ j => [j] | _ => [] end /\
    panicked (tr ++ [e]) = panicked tr ++ match e with E_panic _ j => [j] | _ => [] end.
  Proof. intros tr e. unfold submitted, started, returned, panicked. rewrite !flat_map_app. cbn [flat_map]. now rewrite !app_nil_r. Qed.

  Lemma nth_app_end : forall (l1 l2 : list wstate) x y i, x <> W_end -> nth_error (l1 ++ x :: l2) i = Some W_end -> nth_error (l1 ++ y :: l2) i = Some W_end.
  Proof.
    intros l1 l2 x y i Hx H. destruct (Nat.lt_ge_cases i (length l1)) as [L|L].
    - rewrite nth_error_app1 in * by assumption. exact H.
    - rewrite nth_error_app2 in * by assumption. destruct (i - length l1); [|exact H]. cbn in H. congruence.
  Qed.
  Lemma stops_only : forall js k (q : list (wmsg job)), WStop :: q = map WJob js ++ repeat WStop k -> js = [] /\ exists k', k = S k' /\ q = repeat WStop k'.
  Proof. intros [|j js] k q E; cbn in E; [|discriminate]. destruct k as [|k]; cbn in E; [discriminate|]. split; [reflexivity|]. exists k. split; [reflexivity|]. congruence. Qed.
  Lemma job_first : forall js k j (q : list (wmsg job)), WJob j :: q = map WJob js ++ repeat WStop k -> exists js', js = j :: js' /\ q = map WJob js' ++ repeat WStop k.
  Proof. intros [|j' js] k j q E; cbn in E; [destruct k; discriminate|]. exists js. split; congruence. Qed.

  Lemma init_inv : forall n s, pool_new n = Some s -> 0 < n /\ inv n [] s.
  Proof.
    intros n s H. unfold pool_new in H. destruct (Nat.ltb_spec 0 n) as [L|L]; [|discriminate]. injection H as <-. split; [exact L|]. split; cbn [p_workers p_poisoned p_queue p_owner].
    - apply repeat_length.
    - reflexivity.
    - rewrite count_repeat by reflexivity. lia.
    - replace (running (repeat W_ready n)) with (@nil job); [constructor|]. clear. induction n as [|n IH]; [reflexivity|]. exact IH.
    - now rewrite count_repeat.
    - exists [], 0. split; [reflexivity|]. split; [reflexivity|]. split; [reflexivity|]. split; [reflexivity|]. now rewrite count_repeat.
  Qed.

  Context (returns panics : job -> Prop).
  Lemma step_inv : forall n tr s e s', inv n tr s -> step returns panics s e s' -> inv n (tr ++ [e]) s'.
  Proof.
    intros n tr s e s' [I1 I2 I3 I4 I5 (js & k & Q1 & Q2 & Q3 & Q4)] H.
    pose proof (snoc_events tr e) as (S1 & S2 & S3 & S4).
    pose proof (count_total (p_workers s)) as T.
    destruct H; cbn [p_workers p_poisoned p_queue p_owner] in *;
      cbv iota in S1, S2, S3, S4; rewrite ?app_nil_r in S1; rewrite ?app_nil_r in S2; rewrite ?app_nil_r in S3; rewrite ?app_nil_r in S4.
    - (* execute *)
      destruct Q4 as (-> & Q4). rewrite app_nil_r in Q1. subst q. split; cbn [p_workers p_poisoned p_queue p_owner]; rewrite ?S2, ?S3, ?S4; try assumption.
      exists (js ++ [j]), 0. rewrite map_app, app_nil_r. split; [reflexivity|]. rewrite S1, Q2, app_assoc. split; [reflexivity|].
      split; [lia|]. now split.
    - split; cbn [p_workers p_poisoned p_queue p_owner]; rewrite ?S2, ?S3, ?S4; try assumption. exists js, k. rewrite S1. repeat split; try assumption; [eapply no_alive; eassumption|apply Q4].
    - split; cbn [p_workers p_poisoned p_queue p_owner]; rewrite ?S2, ?S3, ?S4; try assumption. exists js, k. rewrite S1. repeat split; try assumption. cbn [owner_inv] in *. lia.
    - split; cbn [p_workers p_poisoned p_queue p_owner]; rewrite ?S2, ?S3, ?S4; try assumption. exists js, (S k). rewrite S1. repeat split; try assumption.
      + rewrite Q1. rewrite <- app_assoc. f_equal. rewrite <- repeat_cons. reflexivity.
      + cbn [owner_inv] in *. lia.
    - split; cbn [p_workers p_poisoned p_queue p_owner]; rewrite ?S2, ?S3, ?S4; try assumption. exists js, k. rewrite S1. repeat split; try assumption. cbn [owner_inv] in *.
      match goal with H : ~ receiver_exists _ |- _ => apply no_alive in H end. lia.
    - split; cbn [p_workers p_poisoned p_queue p_owner]; rewrite ?S2, ?S3, ?S4; try assumption. exists js, k. rewrite S1. repeat split; try assumption; cbn [owner_inv] in *; [lia|].
      exists 0. split; [lia|]. split; [now rewrite I1, Nat.sub_0_r|]. intros i' L. lia.
    - split; cbn [p_workers p_poisoned p_queue p_owner]; rewrite ?S2, ?S3, ?S4; try assumption. exists js, k. rewrite S1. repeat split; try assumption; cbn [owner_inv] in *; [lia|].
      destruct Q4 as (_ & i0 & L & E & F). destruct (n - i0) as [|m] eqn:Em; [discriminate|]. cbn [seq] in E. injection E as -> ->. exists (S i0). split; [lia|].
      split; [f_equal; lia|]. intros i' L'. destruct (Nat.eq_dec i' i0) as [->|]; [assumption|]. apply F. lia.
    - split; cbn [p_workers p_poisoned p_queue p_owner]; rewrite ?S2, ?S3, ?S4; try assumption. exists js, k. rewrite S1. repeat split; try assumption; cbn [owner_inv] in *. lia.
    - split; cbn [p_workers p_poisoned p_queue p_owner]; rewrite ?S2, ?S3, ?S4; try assumption. exists js, k. rewrite S1. repeat split; try assumption; cbn [owner_inv] in *; [lia|].
      destruct Q4 as (_ & i0 & L & E & F). destruct (n - i0) as [|m] eqn:Em; [|discriminate]. assert (i0 = n) by lia. subst i0.
      assert (A : Forall (fun w => w = W_end) ws). { apply Forall_forall. intros w Hw. apply In_nth_error in Hw as (i & Hi). assert (i < n) by (rewrite <- I1; apply nth_error_Some; congruence). rewrite F in Hi by assumption. congruence. }
      rewrite <- I1. clear -A. induction A as [|w ws -> _ IH]; [reflexivity|]. unfold count in *. cbn [filter is_end length]. lia.
    - (* lock *)
      rewrite !count_app in *. cbn [is_end is_dead is_recv is_alive] in *.
      assert (Z : count is_recv l1 + count is_recv l2 = 0).
      { assert (A : forall l, (forall w, In w l -> w <> W_recv) -> count is_recv l = 0).
        { clear. intros l. induction l as [|w l IH]; intros H; [reflexivity|]. unfold count in *. cbn [filter]. destruct w; cbn [is_recv]; try (apply IH; intros x Hx; apply H; now right). destruct (H W_recv); [now left|reflexivity]. }
        rewrite !A; [reflexivity| |]; intros w Hw ->; match goal with H : lock_free _ |- _ => apply H end; cbn [p_workers]; apply in_or_app; [right; now right|now left]. }
      split; cbn [p_workers p_poisoned p_queue p_owner]; rewrite ?S2, ?S3, ?S4, ?count_app; cbn [is_end is_dead is_recv is_alive]; try lia.
      + rewrite app_length in *. exact I1.
      + etransitivity; [exact I4|]. do 2 apply Permutation_app_head. etransitivity; [apply running_app|symmetry; apply running_app].
      + exists js, k. rewrite S1, ?count_app. cbn [is_end]. repeat split; try assumption. destruct o; cbn [owner_inv] in *; rewrite ?count_app in *; cbn [is_end is_alive] in *; try (first [assumption|lia]).
        destruct Q4 as (A & i0 & L & E & F). split; [lia|]. exists i0. split; [exact L|]. split; [exact E|]. intros i' L'. eapply nth_app_end; [|now apply F]. discriminate.
    - discriminate.
    - (* start *)
      apply job_first in Q1 as (js' & -> & ->). rewrite !count_app in *. cbn [is_end is_dead is_recv is_alive] in *.
      assert (E0 : count is_end l1 + 0 + count is_end l2 = 0) by (destruct (Nat.eq_dec (count is_end l1 + 0 + count is_end l2) 0); [assumption|]; discriminate Q3; lia).
      split; cbn [p_workers p_poisoned p_queue p_owner]; rewrite ?S2, ?S3, ?S4, ?count_app; cbn [is_end is_dead is_recv is_alive]; try lia; try assumption.
      + rewrite app_length in *. exact I1.
      + etransitivity; [apply Permutation_app_tail, I4|]. rewrite <- !app_assoc. do 2 apply Permutation_app_head.
        etransitivity; [apply Permutation_app_tail, running_app|]. cbn [app]. etransitivity; [apply Permutation_app_comm|]. symmetry. apply running_app.
      + exists js', k. rewrite S1, Q2, <- app_assoc, ?count_app. cbn [is_end app]. split; [reflexivity|]. split; [reflexivity|]. split; [lia|].
        destruct o; cbn [owner_inv] in *; rewrite ?count_app in *; cbn [is_end is_alive] in *; try (first [assumption|lia]).
        destruct Q4 as (A & i0 & L & E & F). split; [lia|]. exists i0. split; [exact L|]. split; [exact E|]. intros i' L'. eapply nth_app_end; [|now apply F]. discriminate.
    - (* end *)
      apply stops_only in Q1 as (-> & k' & -> & ->). rewrite !count_app in *. cbn [is_end is_dead is_recv is_alive] in *.
      split; cbn [p_workers p_poisoned p_queue p_owner]; rewrite ?S2, ?S3, ?S4, ?count_app; cbn [is_end is_dead is_recv is_alive]; try lia; try assumption.
      + rewrite app_length in *. exact I1.
      + etransitivity; [exact I4|]. do 2 apply Permutation_app_head. etransitivity; [apply running_app|symmetry; apply running_app].
      + exists [], k'. rewrite S1, ?count_app. split; [reflexivity|]. split; [exact Q2|]. split; [reflexivity|].
        destruct o; cbn [owner_inv] in *; rewrite ?count_app in *; cbn [is_end is_alive] in *; try (first [assumption|lia]).
        destruct Q4 as (A & i0 & L & E & F). split; [lia|]. exists i0. split; [exact L|]. split; [exact E|]. intros i' L'. eapply nth_app_end; [|now apply F]. discriminate.
    - (* recv panics: never *)
      exfalso. assert (k = 0) by (destruct k; [reflexivity|]; destruct js; discriminate Q1). subst k. rewrite count_app in T.
      destruct o; cbn [owner_inv sender_exists p_owner] in *; rewrite ?count_app in *; cbn [is_end is_alive is_dead] in *; try tauto; rewrite ?app_length in *; cbn [length] in *; try lia.
    - (* return *)
      rewrite !count_app in *. cbn [is_end is_dead is_recv is_alive] in *.
      split; cbn [p_workers p_poisoned p_queue p_owner]; rewrite ?S2, ?S3, ?S4, ?count_app; cbn [is_end is_dead is_recv is_alive]; try lia; try assumption.
      + rewrite app_length in *. exact I1.
      + etransitivity; [exact I4|]. rewrite <- app_assoc. apply Permutation_app_head. etransitivity; [apply Permutation_app_head, running_app|]. cbn [app].
        etransitivity; [symmetry; apply Permutation_middle|]. constructor. apply Permutation_app_head. symmetry. apply running_app.
      + exists js, k. rewrite S1, ?count_app. cbn [is_end]. repeat split; try assumption. destruct o; cbn [owner_inv] in *; rewrite ?count_app in *; cbn [is_end is_alive] in *; try (first [assumption|lia]).
        destruct Q4 as (A & i0 & L & E & F). split; [lia|]. exists i0. split; [exact L|]. split; [exact E|]. intros i' L'. eapply nth_app_end; [|now apply F]. discriminate.
    - (* panic *)
      rewrite !count_app in *. cbn [is_end is_dead is_recv is_alive] in *.
      split; cbn [p_workers p_poisoned p_queue p_owner]; rewrite ?S2, ?S3, ?S4, ?count_app; cbn [is_end is_dead is_recv is_alive]; try lia; try assumption.
      + rewrite app_length in *. exact I1.
      + etransitivity; [exact I4|]. apply Permutation_app_head. rewrite <- app_assoc. apply Permutation_app_head. cbn [app].
        etransitivity; [apply running_app|]. cbn [app]. constructor. symmetry. apply running_app.
      + rewrite app_length. cbn [length]. lia.
      + exists js, k. rewrite S1, ?count_app. cbn [is_end]. repeat split; try assumption. destruct o; cbn [owner_inv] in *; rewrite ?count_app in *; cbn [is_end is_alive] in *; try (first [assumption|lia]).
        destruct Q4 as (A & i0 & L & E & F). split; [lia|]. exists i0. split; [exact L|]. split; [exact E|]. intros i' L'. eapply nth_app_end; [|now apply F]. discriminate.
  Qed.

  Lemma history_inv : forall n tr s, history returns panics n tr s -> 0 < n /\ inv n tr s.
  Proof.
    intros n tr s (s0 & E & R). apply init_inv in E as (Hn & I0). split; [exact Hn|]. induction R as [|s0 tr s1 e s2 R IH H]; [exact I0|]. eapply step_inv; [now apply IH|exact H].
  Qed.
End Inv.
