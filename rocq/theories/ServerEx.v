(** The example for C98 (PropServing.v). *)
From Verif Require Import Base Types Name NameSpec NameProofs Codec CodecSpec CodecFacts PropCodec3 NsHandler NsSpec PropNs PropNs2
  Cache Resolver ResolverSpec ResolverInv ResolverFacts ResolverEx PropResolver3 Trace RsHandler PropRs PropResolver5 PropResolver7 PropTalk HealthSpec HealthEx ClientSpec PublishSpec PropPublish PublishEx PublishEx2 NestSpec
  Process ProcessRun ProcessSafe Many PropMany PropMany2 ManyTrue PropManyTrue ManyClient Server PropServing.
From Verif Require Pool.

(** * An example: one worker for each server. Somebody asks for "x.com." over UDP, then somebody
    sends a datagram of three bytes, which is dropped when the worker comes to it. *)
Definition sv_g : setting := m_setting Release 256.
Definition sv_turns : list choice := C_new conf0 (s2b "x.com.") RT_A :: repeat (C_go 0) 8.
Definition sv_m (n : nat) : state := do_steps m_net sv_g sv_turns started n.
Definition sv_x : transport * list N := (Udp, asks_for (s2b "x.com.") RT_A).
Definition sv_y : transport * list N := (Udp, [1; 2; 3]%N).
Definition sv_requests (x : transport * list N) : Prop := x = sv_x \/ x = sv_y.
Definition sv_reply : list N :=
  match s_threads (sv_m 9) with
  | [t] => match t_todo t with P_end o => match rs_finish Release true Udp (ex_req (s2b "x.com.") RT_A) o with Done b => b | _ => [] end | _ => [] end
  | _ => []
  end.
Definition sv_pool (jobs : list nat) (w : Pool.wstate nat) : pool := Pool.mkPool (map Pool.WJob jobs) [w] false Pool.O_open.
Definition sv_0 : transport -> pool := fun _ => sv_pool [] Pool.W_ready.
Definition sv_1 := set_pool sv_0 Udp (sv_pool [0] Pool.W_ready).
Definition sv_2 := set_pool sv_1 Udp (sv_pool [0; 1] Pool.W_ready).
Definition sv_3 := set_pool sv_2 Udp (sv_pool [0; 1] Pool.W_recv).
Definition sv_4 := set_pool sv_3 Udp (sv_pool [1] (Pool.W_run 0)).
Definition sv_13 := set_pool sv_4 Udp (sv_pool [1] Pool.W_ready).
Definition sv_14 := set_pool sv_13 Udp (sv_pool [1] Pool.W_recv).
Definition sv_15 := set_pool sv_14 Udp (sv_pool [] (Pool.W_run 1)).
Definition sv_16 := set_pool sv_15 Udp (sv_pool [] Pool.W_ready).
Definition sv_17 := set_pool sv_16 Udp (sv_pool [] Pool.W_recv).
Definition sv_18 := set_pool sv_17 Tcp (sv_pool [] Pool.W_recv).
Definition sv_ask (m : state) : server := mkServer m [sv_x; sv_y] sv_4 [(0, 0)] [].
Definition sv_end (v : transport -> pool) : server := mkServer (sv_m 9) [sv_x; sv_y] v [(0, 0)] [(0, sv_reply)].
Definition sv_s (n : nat) : server :=
  match n with
  | 0 => mkServer started [] sv_0 [] []
  | 1 => mkServer started [sv_x] sv_1 [] []
  | 2 => mkServer started [sv_x; sv_y] sv_2 [] []
  | 3 => mkServer started [sv_x; sv_y] sv_3 [] []
  | 4 => sv_ask (sv_m 1) | 5 => sv_ask (sv_m 2) | 6 => sv_ask (sv_m 3) | 7 => sv_ask (sv_m 4) | 8 => sv_ask (sv_m 5)
  | 9 => sv_ask (sv_m 6) | 10 => sv_ask (sv_m 7) | 11 => sv_ask (sv_m 8) | 12 => sv_ask (sv_m 9)
  | 13 => sv_end sv_13 | 14 => sv_end sv_14 | 15 => sv_end sv_15 | 16 => sv_end sv_16 | 17 => sv_end sv_17
  | _ => sv_end sv_18
  end.
Opaque sv_reply.

Lemma sv_may_come : Forall (may_come sv_g) sv_turns.
Proof.
  apply Forall_forall. intros ch [<-|H]; [|apply repeat_spec in H; subst ch; exact Logic.I].
  cbn [may_come sv_g m_setting m_setting_for g_asks]. split; [reflexivity|]. unfold w_questions. cbn [In]. tauto.
Qed.
Lemma sv_zero : at_zero started. Proof. split; [reflexivity|constructor]. Qed.
Lemma sv_until : (0 < g_until sv_g)%N. Proof. vm_compute. reflexivity. Qed.
Lemma sv_course : course sv_g sv_m.
Proof. exact (do_steps_course m_net sv_g eq_refl (fun _ _ => eq_refl) eq_refl sv_until sv_turns started sv_may_come sv_zero). Qed.
Lemma sv_fair0 : fair sv_g 0 sv_m.
Proof. apply (do_steps_fair m_net sv_g eq_refl (fun _ _ => eq_refl) eq_refl sv_until sv_turns started 0 8 sv_may_come sv_zero); vm_compute; reflexivity. Qed.
Lemma rest : forall net g sched s n, length sched <= n -> do_steps net g sched s n = do_steps net g sched s (length sched).
Proof.
  intros net g sched. induction sched as [|ch sched IH]; intros s [|n] H; cbn [length] in *; try reflexivity; [lia|]. cbn [do_steps]. apply IH. lia.
Qed.
Lemma sv_rest : forall k, sv_m (9 + k) = sv_m 9.
Proof. intros k. unfold sv_m. change 9 with (length sv_turns) at 2. apply rest. change (length sv_turns) with 9. lia. Qed.
Opaque sv_m.
Lemma sv_many_at : forall n, v_many (sv_s n) = sv_m (n - 3).
Proof.
  intros n. do 4 (destruct n as [|n]; [reflexivity|]). do 9 (destruct n as [|n]; [cbn [Nat.sub]; reflexivity|]).
  symmetry. replace (S (S (S (S (S (S (S (S (S (S (S (S (S n)))))))))))) - 3)%nat with (9 + S n)%nat by lia. rewrite sv_rest.
  do 5 (destruct n as [|n]; [reflexivity|]). reflexivity.
Qed.
Transparent sv_m.
Lemma sv_plan_y : plan_of Release sv_y = Q_now (Done None). Proof. vm_compute. reflexivity. Qed.
Lemma sv_query : query_packet Release (snd sv_x) (ex_req (s2b "x.com.") RT_A) (mkQ (s2b "x.com.") RT_A C_IN).
Proof. split; [apply checked_bytes; vm_compute; reflexivity|]. split; [apply Nat.leb_le; vm_compute; reflexivity|]. split; [vm_compute; reflexivity|]. split; [apply ex_valid|reflexivity]. Qed.
Lemma sv_plan_x : plan_of Release sv_x = Q_lookup (ex_req (s2b "x.com.") RT_A) (mkQ (s2b "x.com.") RT_A C_IN).
Proof. exact (queries_are_planned Release Udp _ _ _ sv_query). Qed.
Lemma sv_asks : g_asks sv_g conf0 (s2b "x.com.") RT_A.
Proof. pose proof sv_may_come as H. inversion H as [|? ? H1 _]; subst. exact H1. Qed.
Lemma sv_tame : forall x, sv_requests x -> tame sv_g conf0 x.
Proof.
  intros x [->| ->].
  - right. exists (ex_req (s2b "x.com.") RT_A), (mkQ (s2b "x.com.") RT_A C_IN), (snd sv_x). split; [exact sv_plan_x|]. split; [exact sv_query|exact sv_asks].
  - left. exists None. exact sv_plan_y.
Qed.

Notation sv_step := (sstep sv_g true conf0 sv_requests).
Lemma sv_ended : exists t o, nth_error (s_threads (sv_m 9)) 0 = Some t /\ t_todo t = P_end o /\ rs_finish Release true Udp (ex_req (s2b "x.com.") RT_A) o = Done sv_reply.
Proof.
  Transparent sv_reply.
  assert (G : forall l, match l with [t] => match t_todo t with P_end o => match rs_finish Release true Udp (ex_req (s2b "x.com.") RT_A) o with Done _ => true | _ => false end | _ => false end | _ => false end = true ->
    exists t o, nth_error l 0 = Some t /\ t_todo t = P_end o /\ rs_finish Release true Udp (ex_req (s2b "x.com.") RT_A) o =
      Done match l with [t] => match t_todo t with P_end o => match rs_finish Release true Udp (ex_req (s2b "x.com.") RT_A) o with Done b => b | _ => [] end | _ => [] end | _ => [] end).
  { intros [|t [|t2 l]] H; try discriminate H. destruct (t_todo t) as [o| |] eqn:Et; try discriminate H. exists t, o. split; [reflexivity|]. split; [exact Et|].
    destruct (rs_finish Release true Udp _ o); [reflexivity|discriminate H|discriminate H]. }
  apply G. vm_compute. reflexivity.
  Opaque sv_reply.
Qed.
Opaque sv_m.
Lemma has_receiver : forall q w o, w = Pool.W_ready -> Pool.receiver_exists (Pool.mkPool (job := nat) q [w] false o).
Proof. intros q w o ->. exists Pool.W_ready. split; [now left|]. exact Logic.I. Qed.
Lemma sv_st0 : sv_step (sv_s 0) (L_pool Udp (Pool.E_execute 0)) (sv_s 1).
Proof.
  apply (sv_request sv_g true conf0 sv_requests started [] sv_0 [] [] Udp (snd sv_x) (sv_pool [0] Pool.W_ready)); [now left|].
  apply (Pool.st_execute _ _ [] [Pool.W_ready] false 0). now apply has_receiver.
Qed.
Lemma sv_st1 : sv_step (sv_s 1) (L_pool Udp (Pool.E_execute 1)) (sv_s 2).
Proof.
  apply (sv_request sv_g true conf0 sv_requests started [sv_x] sv_1 [] [] Udp (snd sv_y) (sv_pool [0; 1] Pool.W_ready)); [now right|].
  apply (Pool.st_execute _ _ [Pool.WJob 0] [Pool.W_ready] false 1). now apply has_receiver.
Qed.
Lemma takes_lock : forall q, pstep (Pool.mkPool q [Pool.W_ready] false Pool.O_open) Pool.E_worker (Pool.mkPool q [Pool.W_recv] false Pool.O_open).
Proof. intros q. apply (Pool.st_lock _ _ q [] []); [|discriminate]. intros [H|[]]. discriminate H. Qed.
Lemma sv_st2 : sv_step (sv_s 2) (L_pool Udp Pool.E_worker) (sv_s 3).
Proof. apply (sv_worker sv_g true conf0 sv_requests started [sv_x; sv_y] sv_2 [] [] Udp (sv_pool [0; 1] Pool.W_recv)). apply takes_lock. Qed.
Lemma sv_st3 : sv_step (sv_s 3) (L_pool Udp (Pool.E_start 0 0)) (sv_s 4).
Proof.
  apply (sv_start_lookup sv_g true conf0 sv_requests started (sv_m 1) [sv_x; sv_y] sv_3 [] [] Udp 0 0 sv_x (ex_req (s2b "x.com.") RT_A) (mkQ (s2b "x.com.") RT_A C_IN) (sv_pool [1] (Pool.W_run 0))).
  - apply (Pool.st_start _ _ [Pool.WJob 1] [] []). discriminate.
  - reflexivity.
  - exact sv_plan_x.
  - exact sv_asks.
  - Transparent sv_m. unfold sv_m, sv_turns. cbn [do_steps do_step]. reflexivity.
Qed.
Opaque sv_m.
Lemma sv_goes : forall j, length (s_threads (sv_m (S j))) = length (s_threads (sv_m j)) -> sv_ask (sv_m (S j)) = sv_ask (sv_m j) \/ exists l, sv_step (sv_ask (sv_m j)) l (sv_ask (sv_m (S j))).
Proof.
  intros j H. destruct (sv_course j) as [E|E]; [left; now rewrite E|right]. exists L_many. now apply sv_many.
Qed.
Lemma sv_st12 : sv_step (sv_s 12) (L_pool Udp (Pool.E_return 0 0)) (sv_s 13).
Proof.
  apply (sv_return sv_g true conf0 sv_requests (sv_m 9) [sv_x; sv_y] sv_4 [(0, 0)] [] Udp 0 0 (Some sv_reply) (sv_pool [1] Pool.W_ready)).
  - apply (Pool.st_return _ _ [Pool.WJob 1] [] []); [exact Logic.I|discriminate].
  - destruct sv_ended as (t & o & E1 & E2 & E3). pose proof (oc_lookup sv_g true (sv_ask (sv_m 9)) 0 sv_x _ _ 0 t o eq_refl sv_plan_x (or_introl eq_refl) E1 E2) as H.
    change (fst sv_x) with Udp in H. change (g_profile sv_g) with Release in H. rewrite E3 in H. exact H.
Qed.
Lemma sv_st13 : sv_step (sv_s 13) (L_pool Udp Pool.E_worker) (sv_s 14).
Proof. apply (sv_worker sv_g true conf0 sv_requests (sv_m 9) [sv_x; sv_y] sv_13 [(0, 0)] [(0, sv_reply)] Udp (sv_pool [1] Pool.W_recv)). apply takes_lock. Qed.
Lemma sv_st14 : sv_step (sv_s 14) (L_pool Udp (Pool.E_start 0 1)) (sv_s 15).
Proof.
  apply (sv_start_now sv_g true conf0 sv_requests (sv_m 9) [sv_x; sv_y] sv_14 [(0, 0)] [(0, sv_reply)] Udp 0 1 sv_y (Done None) (sv_pool [] (Pool.W_run 1))).
  - apply (Pool.st_start _ _ [] [] []). discriminate.
  - reflexivity.
  - exact sv_plan_y.
Qed.
Lemma sv_st15 : sv_step (sv_s 15) (L_pool Udp (Pool.E_return 0 1)) (sv_s 16).
Proof.
  apply (sv_return sv_g true conf0 sv_requests (sv_m 9) [sv_x; sv_y] sv_15 [(0, 0)] [(0, sv_reply)] Udp 0 1 None (sv_pool [] Pool.W_ready)).
  - apply (Pool.st_return _ _ [] [] []); [exact Logic.I|discriminate].
  - exact (oc_now sv_g true (sv_end sv_15) 1 sv_y _ eq_refl sv_plan_y).
Qed.
Lemma sv_st16 : sv_step (sv_s 16) (L_pool Udp Pool.E_worker) (sv_s 17).
Proof. apply (sv_worker sv_g true conf0 sv_requests (sv_m 9) [sv_x; sv_y] sv_16 [(0, 0)] [(0, sv_reply)] Udp (sv_pool [] Pool.W_recv)). apply takes_lock. Qed.
Lemma sv_st17 : sv_step (sv_s 17) (L_pool Tcp Pool.E_worker) (sv_s 18).
Proof. apply (sv_worker sv_g true conf0 sv_requests (sv_m 9) [sv_x; sv_y] sv_17 [(0, 0)] [(0, sv_reply)] Tcp (sv_pool [] Pool.W_recv)). apply takes_lock. Qed.
Transparent sv_m.
Lemma sv_lengths : forallb (fun j => length (s_threads (sv_m j)) =? 1) (seq 1 9) = true.
Proof. vm_compute. reflexivity. Qed.
Lemma sv_no_thread : length (s_threads (sv_m 0)) = 0.
Proof. vm_compute. reflexivity. Qed.
Opaque sv_m.
Lemma sv_len : forall j, j < 9 -> length (s_threads (sv_m (S j))) = 1.
Proof. intros j H. pose proof sv_lengths as L. rewrite forallb_forall in L. apply Nat.eqb_eq. apply L. apply in_seq. lia. Qed.
Lemma sv_one : forall j, length (s_threads (sv_m j)) <= 1.
Proof.
  intros [|j]; [rewrite sv_no_thread; lia|].
  destruct (Nat.lt_ge_cases j 9) as [H|H]; [rewrite sv_len by exact H; lia|]. replace (S j) with (9 + (j - 8))%nat by lia. rewrite sv_rest, (sv_len 8) by lia. lia.
Qed.
Lemma sv_serving : serving_course sv_g true conf0 sv_requests sv_s.
Proof.
  intros n. do 4 (destruct n as [|n]; [right; eexists; first [exact sv_st0|exact sv_st1|exact sv_st2|exact sv_st3]|]).
  do 8 (destruct n as [|n]; [apply sv_goes; rewrite !sv_len by lia; reflexivity|]).
  do 6 (destruct n as [|n]; [right; eexists; first [exact sv_st12|exact sv_st13|exact sv_st14|exact sv_st15|exact sv_st16|exact sv_st17]|]). now left.
Qed.

Lemma takes_not : forall v tr e s', v_pool v tr = sv_pool [] Pool.W_recv -> takes e -> ~ sv_step v (L_pool tr e) s'.
Proof.
  intros v tr e s' Ev Te St.
  assert (X : exists pl, pstep (sv_pool [] Pool.W_recv) e pl) by (rewrite <- Ev; inversion St; subst; cbn [takes v_pool] in *; try contradiction; eexists; eassumption).
  destruct X as (pl & X). clear - X Te. inversion X; subst; cbn [takes] in Te; try contradiction; try (destruct l1 as [|? [|? ?]]; discriminate).
Qed.
Lemma sv_fair : forall i, fair sv_g i (fun n => v_many (sv_s n)).
Proof.
  intros i n t E Hu. cbv beta in *. rewrite sv_many_at in E. destruct i as [|i].
  - destruct (sv_fair0 (n - 3) t E Hu) as (k & Lk & M). exists (k + 3)%nat. split; [lia|]. rewrite !sv_many_at. replace (S (k + 3) - 3)%nat with (S k) by lia. replace (k + 3 - 3)%nat with k by lia. exact M.
  - exfalso. assert (X : S i < length (s_threads (sv_m (n - 3)))) by (apply nth_error_Some; rewrite E; discriminate). pose proof (sv_one (n - 3)). lia.
Qed.
Lemma sv_fed : nothing_starved sv_g true conf0 sv_requests sv_s.
Proof.
  split; [exact sv_fair|]. split.
  - intros [] n e s' Te St.
    + destruct (Nat.le_gt_cases n 16) as [H|H]; [exists 16, Pool.E_worker; split; [exact H|]; split; [exact Logic.I|exact sv_st16]|].
      exfalso. apply (takes_not (sv_s n) Udp e s'); [|exact Te|exact St]. do 17 (destruct n as [|n]; [lia|]). destruct n; reflexivity.
    + destruct (Nat.le_gt_cases n 17) as [H|H]; [exists 17, Pool.E_worker; split; [exact H|]; split; [exact Logic.I|exact sv_st17]|].
      exfalso. apply (takes_not (sv_s n) Tcp e s'); [|exact Te|exact St]. do 18 (destruct n as [|n]; [lia|]). reflexivity.
  - intros tr n i c o E _.
    assert (N : forall w, nth_error [w] i = Some (Pool.W_run c) -> i = 0 /\ w = Pool.W_run c) by (intros w H; destruct i as [|[|i]]; [split; [reflexivity|now injection H]|discriminate H|discriminate H]).
    destruct tr.
    + do 4 (destruct n as [|n]; [destruct (N _ E) as (_ & X); discriminate X|]).
      do 9 (destruct n as [|n]; [destruct (N _ E) as (-> & X); injection X as <-; exists 12; split; [repeat constructor|exact sv_st12]|]).
      do 2 (destruct n as [|n]; [destruct (N _ E) as (_ & X); discriminate X|]).
      destruct n as [|n]; [destruct (N _ E) as (-> & X); injection X as <-; exists 15; split; [repeat constructor|exact sv_st15]|].
      do 2 (destruct n as [|n]; [destruct (N _ E) as (_ & X); discriminate X|]). destruct (N _ E) as (_ & X). discriminate X.
    + do 18 (destruct n as [|n]; [destruct (N _ E) as (_ & X); discriminate X|]). destruct (N _ E) as (_ & X). discriminate X.
Qed.

Theorem C98_nonvacuous :
  setting_ok sv_g /\ healthy_setting sv_g D_w Y_w 0 2 3 /\ anchors_known Y_w /\ logs_safely sv_g true /\ (0 < g_until sv_g)%N /\ (forall x, sv_requests x -> tame sv_g conf0 x) /\
  started_server 0 (fun _ => 1) (sv_s 0) /\ serving_course sv_g true conf0 sv_requests sv_s /\ nothing_starved sv_g true conf0 sv_requests sv_s /\
  (exists req q, query_packet (g_profile sv_g) (snd sv_x) req q) /\
  v_clients (sv_s 2) = [sv_x; sv_y] /\ v_replies (sv_s 12) = [] /\ v_replies (sv_s 18) = [(0, sv_reply)] /\
  client_reads Udp (Done (Some sv_reply)) = Some (RC_NxDomain, []).
Proof.
  split; [apply m_ok|]. split; [apply m_healthy_setting; apply Nat.ltb_lt; reflexivity|]. split; [exact m_anchors|]. split; [left; reflexivity|]. split; [exact sv_until|]. split; [exact sv_tame|].
  split; [split; [reflexivity|]; split; [reflexivity|]; split; [reflexivity|]; split; [reflexivity|]; intros tr; split; [repeat constructor|reflexivity]|].
  split; [exact sv_serving|]. split; [exact sv_fed|]. split; [eexists; eexists; exact sv_query|]. split; [reflexivity|]. split; [reflexivity|]. split; [reflexivity|]. vm_compute. reflexivity.
Qed.
Print Assumptions C98_nonvacuous.
