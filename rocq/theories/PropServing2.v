(** Property C98, continued: nobody is sent two replies. *)
From Verif Require Import Base Types Name NsHandler NsSpec Cache Resolver Trace RsHandler HealthSpec ClientSpec Process Many ManyTrue PropManyTrue ManyClient Server PropServing ServerEx.
From Verif Require Pool.

Definition job_of (m : Pool.wmsg nat) : list nat := match m with Pool.WJob c => [c] | Pool.WStop => [] end.
Definition run_of (w : Pool.wstate nat) : list nat := match w with Pool.W_run c => [c] | _ => [] end.
Notation count := (count_occ Nat.eq_dec).
(** How often a client is waiting, or worked for. *)
Definition held (a : pool) (c : nat) : nat := count (flat_map job_of (queue a)) c + count (flat_map run_of (workers a)) c.
Definition one (d c : nat) : nat := if Nat.eq_dec d c then 1 else 0.
Lemma held_changes : forall e a b c, change e a b ->
  match e with
  | Pool.E_execute d => held b c = held a c + one d c
  | Pool.E_return _ d => held b c + one d c = held a c
  | _ => held b c = held a c
  end.
Proof.
  intros e a b c H. unfold held, one. destruct e as [d|d|i d|i d|i d| | | | |]; cbn [change] in H; try contradiction.
  - destruct H as (-> & ->). rewrite flat_map_app, count_occ_app. cbn [flat_map job_of app count_occ]. destruct (Nat.eq_dec d c); lia.
  - destruct H as (-> & l1 & l2 & -> & -> & _). rewrite !flat_map_app, !count_occ_app. cbn [flat_map job_of run_of app count_occ]. destruct (Nat.eq_dec d c); lia.
  - destruct H as (-> & l1 & l2 & -> & -> & _). rewrite !flat_map_app, !count_occ_app. cbn [flat_map job_of run_of app count_occ]. destruct (Nat.eq_dec d c); lia.
  - destruct H as (-> & l1 & l2 & -> & -> & _). rewrite !flat_map_app, !count_occ_app. cbn [flat_map job_of run_of app count_occ]. lia.
Qed.

Section Once.
  Context (g : setting) (lg : bool) (conf : rconf) (requests : transport * list N -> Prop).
  Context (GO : setting_ok g) (D : directory) (Y : layout) (start : N) (retries servers : nat).
  Context (HS : healthy_setting g D Y start retries servers) (HA : anchors_known Y) (HL : logs_safely g lg).
  Context (T0 : N) (L0 : (start <= T0)%N).
  Context (Tame : forall x, requests x -> tame g conf x).
  Definition once (s : server) : Prop := forall c,
    held (v_pool s Udp) c + held (v_pool s Tcp) c + count (map fst (v_replies s)) c <= if c <? length (v_clients s) then 1 else 0.
  Lemma step_once : forall s l s', inv g lg requests T0 s -> sstep g lg conf requests s l s' -> once s -> once s'.
  Proof.
    intros s l s' I St H c. specialize (H c). pose proof (i_pools _ _ _ _ _ I) as PK.
    assert (K : forall tr e pl, pstep (v_pool s tr) e pl -> served e -> change e (v_pool s tr) pl) by (intros tr e pl Hp Hs; exact (proj1 (pool_changes _ _ _ (PK tr) Hs Hp))).
    inversion St; subst; cbn [v_pool v_clients v_replies] in *; try exact H.
    - match goal with Hp : pstep _ _ _ |- _ => pose proof (held_changes _ _ _ c (K tr _ _ Hp Logic.I)) as X end. cbn beta iota in X.
      rewrite app_length. cbn [length]. unfold one in X.
      destruct (Nat.eq_dec (length cs) c) as [E|E]; [subst c; rewrite Nat.ltb_irrefl in H; replace (length cs <? length cs + 1) with true by (symmetry; apply Nat.ltb_lt; lia)|
        replace (c <? length cs + 1) with (c <? length cs) by (apply Bool.eq_iff_eq_true; rewrite !Nat.ltb_lt; lia)]; destruct tr; cbn [set_pool]; lia.
    - match goal with Hp : pstep _ _ _ |- _ => pose proof (held_changes _ _ _ c (K tr _ _ Hp Logic.I)) as X end. cbn beta iota in X. destruct tr; cbn [set_pool]; lia.
    - match goal with Hp : pstep _ _ _ |- _ => pose proof (held_changes _ _ _ c (K tr _ _ Hp Logic.I)) as X end. cbn beta iota in X. destruct tr; cbn [set_pool]; lia.
    - match goal with Hp : pstep _ _ _ |- _ => pose proof (held_changes _ _ _ c (K tr _ _ Hp Logic.I)) as X end. cbn beta iota in X. destruct tr; cbn [set_pool]; lia.
    - match goal with Hp : pstep _ _ _ |- _ => pose proof (held_changes _ _ _ c (K tr _ _ Hp Logic.I)) as X end. cbn beta iota in X. unfold one in X.
      assert (Y1 : count (map fst match o with Some b => (c0, b) :: rs | None => rs end) c <= count (map fst rs) c + one c0 c) by (unfold one; destruct o; cbn [map fst count_occ]; destruct (Nat.eq_dec c0 c); lia). unfold one in Y1.
      destruct tr; cbn [set_pool]; lia.
    - exfalso. match goal with Ho : outcome _ _ _ _ (Panic _) |- _ => destruct (outcome_right g lg conf requests GO D Y start retries servers HS HA HL T0 L0 Tame _ _ _ I Ho) as (x & o & _ & E & _) end. discriminate E.
  Qed.
End Once.

(** To every request at most one reply is sent. *)
Theorem C98_at_most_one_reply : forall g lg conf (requests : transport * list N -> Prop) D Y start retries servers T0 size s,
  setting_ok g -> healthy_setting g D Y start retries servers -> anchors_known Y -> logs_safely g lg ->
  (start <= T0)%N -> (T0 < g_until g)%N -> (forall x, requests x -> tame g conf x) ->
  started_server T0 size (s 0) -> serving_course g lg conf requests s ->
  forall n, NoDup (map fst (v_replies (s n))).
Proof.
  intros g lg conf requests D Y start retries servers T0 size s GO HS HA HL L0 HT Tame St0 Co n.
  assert (O : once (s n)).
  { induction n as [|n IH].
    - destruct St0 as (E1 & E2 & E3 & E4 & E5). intros c. unfold held. rewrite E2, E4, (proj2 (E5 Udp)), (proj2 (E5 Tcp)). cbn.
      assert (X : forall k, count (flat_map run_of (repeat Pool.W_ready k)) c = 0) by (induction k as [|k IHk]; [reflexivity|exact IHk]). rewrite !X. lia.
    - destruct (Co n) as [->|(l & St)]; [exact IH|].
      exact (step_once g lg conf requests GO D Y start retries servers HS HA HL T0 L0 Tame _ _ _ (inv_at g lg conf requests GO D Y start retries servers HS HA HL T0 L0 Tame size s HT St0 Co n) St IH). }
  apply (NoDup_count_occ Nat.eq_dec). intros c. specialize (O c). destruct (c <? _); lia.
Qed.
Print Assumptions C98_at_most_one_reply.
