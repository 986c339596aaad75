(** C72: starting the two servers, and shutting down when one of them cannot run. *)
From Verif Require Import Base Setup.

Definition is_done (s : sstate) : nat := match s with S_done => 1 | _ => 0 end.
Definition taken (m : mstate) : nat := match m with M_first => 0 | M_returned => 2 | _ => 1 end.
Definition past_store (m : mstate) : bool := match m with M_first | M_store => false | _ => true end.
Record sinv (tr : list sevent) (v : servers) : Prop := mkSinv {
  si_chan : v_chan v + taken (v_main v) = is_done (v_udp v) + is_done (v_tcp v);
  si_stop : v_stop v = true -> past_store (v_main v) = true;
  si_closing : v_udp v = S_closing \/ v_udp v = S_done \/ v_udp v = S_panicked \/ v_tcp v = S_closing \/ v_tcp v = S_done \/ v_tcp v = S_panicked ->
     exists x, In (V_bind_failed x) tr;
  si_return : In V_return tr -> v_main v = M_returned;
  si_crash : forall x, In (V_crash x) tr -> get x v = S_panicked }.

Lemma set_same : forall x s v, get x (set x s v) = s.
Proof. now intros []. Qed.
Lemma knock_done : forall x v, is_done (v_udp (knock x v)) = is_done (v_udp v) /\ is_done (v_tcp (knock x v)) = is_done (v_tcp v) /\
  v_chan (knock x v) = v_chan v /\ v_main (knock x v) = v_main v /\ v_stop (knock x v) = v_stop v.
Proof. intros [] v; unfold knock, get; destruct v as [u t c b m]; cbn [v_udp v_tcp]; [destruct u|destruct t]; now repeat split. Qed.

Ltac other W3 := let y := fresh "y" in let A := fresh "A" in let Z := fresh "Z" in intros y A;
  assert (Z := W3 y A ltac:(discriminate)); destruct y; cbn [get v_udp v_tcp] in *; first [exact Z|discriminate Z|congruence].
Lemma sstep_inv : forall tr v e v', sinv tr v -> sstep v e v' -> sinv (tr ++ [e]) v'.
Proof.
  intros tr v e v' [I1 I2 I3 I4 I5] H.
  assert (W : (v_udp v = S_closing \/ v_udp v = S_done \/ v_udp v = S_panicked \/ v_tcp v = S_closing \/ v_tcp v = S_done \/ v_tcp v = S_panicked ->
     exists x, In (V_bind_failed x) (tr ++ [e]))) by (intros A; destruct (I3 A) as (x & Hx); exists x; apply in_or_app; now left).
  assert (W2 : In V_return (tr ++ [e]) -> e <> V_return -> v_main v = M_returned).
  { intros A B. apply in_app_or in A as [A|[A|[]]]; [now apply I4|]. congruence. }
  assert (W3 : forall x, In (V_crash x) (tr ++ [e]) -> (forall y, e <> V_crash y) -> get x v = S_panicked).
  { intros x A B. apply in_app_or in A as [A|[A|[]]]; [now apply I5|]. now apply B in A. }
  assert (D0 : is_done (v_udp v) + is_done (v_tcp v) > 0 -> exists x, In (V_bind_failed x) (tr ++ [e])).
  { intros A. apply W. destruct (v_udp v), (v_tcp v); cbn in A; try lia; tauto. }
  destruct H; destruct v as [u t c b m]; unfold process_alive, knock in *; cbn [v_udp v_tcp v_chan v_stop v_main get set set_main set_chan set_stop] in *.
  - destruct x; cbn [v_udp v_tcp v_chan v_stop v_main get set] in *; subst; cbn [is_done] in *; (split; cbn [v_udp v_tcp v_chan v_stop v_main get]; [exact I1|exact I2|intros A; apply W; intuition discriminate|intros A; apply W2; [exact A|discriminate]|other W3]).
  - destruct x; cbn [v_udp v_tcp v_chan v_stop v_main get set] in *; subst; cbn [is_done] in *; (split; cbn [v_udp v_tcp v_chan v_stop v_main get]; [exact I1|exact I2|intros A; eexists; apply in_or_app; right; now left|intros A; apply W2; [exact A|discriminate]|other W3]).
  - destruct x; cbn [v_udp v_tcp] in *; [destruct u|destruct t]; cbn [v_udp v_tcp v_chan v_stop v_main get set is_done] in *;
      (split; cbn [v_udp v_tcp v_chan v_stop v_main get is_done]; [exact I1|exact I2|intros A; apply W; intuition discriminate|intros A; apply W2; [exact A|discriminate]|other W3]).
  - destruct x; cbn [v_udp v_tcp v_chan v_stop v_main get set] in *; subst; cbn [is_done] in *; (split; cbn [v_udp v_tcp v_chan v_stop v_main get]; [exact I1|exact I2|intros A; apply W; intuition discriminate|intros A; apply W2; [exact A|discriminate]|other W3]).
  - assert (P : exists x, In (V_bind_failed x) (tr ++ [V_step])) by (apply D0; subst; specialize (I2 eq_refl); destruct m; cbn in *; try discriminate I2; lia).
    destruct x; cbn [v_udp v_tcp v_chan v_stop v_main get set] in *; subst; cbn [is_done] in *; (split; cbn [v_udp v_tcp v_chan v_stop v_main get]; [exact I1|exact I2|intros _; exact P|intros A; apply W2; [exact A|discriminate]|other W3]).
  - destruct x; cbn [v_udp v_tcp v_chan v_stop v_main get set] in *; subst; cbn [is_done] in *; (split; cbn [set_chan set v_udp v_tcp v_chan v_stop v_main get is_done]; [lia|exact I2|intros _; apply W; tauto|intros A; apply W2; [exact A|discriminate]|other W3]).
  - destruct x; cbn [v_udp v_tcp v_chan v_stop v_main get set] in *; subst; cbn [is_done] in *;
      (split; cbn [v_udp v_tcp v_chan v_stop v_main get is_done]; [exact I1|exact I2|intros _; apply W; tauto|intros A; apply W2; [exact A|discriminate]|intros y A; apply in_app_or in A as [A|[A|[]]]; [apply I5 in A; destruct y; cbn in A; [try discriminate A; try exact A; reflexivity..]|injection A as <-; reflexivity]]).
  - subst. cbn [taken] in *. split; cbn [set_chan set set_main set_stop v_udp v_tcp v_chan v_stop v_main get taken]; [lia|intros A; specialize (I2 A); discriminate I2|exact W|intros A; apply W2 in A; [discriminate A|discriminate]|intros y A; apply W3; [exact A|discriminate]].
  - subst. cbn [taken] in *. split; cbn [set_chan set set_main set_stop v_udp v_tcp v_chan v_stop v_main get taken]; [lia|reflexivity|exact W|intros A; apply W2 in A; [discriminate A|discriminate]|intros y A; apply W3; [exact A|discriminate]].
  - subst. destruct u; cbn [taken is_done v_udp v_tcp v_chan v_stop v_main get set set_main] in *;
      (split; cbn [set_chan set set_main set_stop v_udp v_tcp v_chan v_stop v_main get taken is_done]; [lia|reflexivity|intros A; apply W; intuition discriminate|intros A; apply W2 in A; [discriminate A|discriminate]|other W3]).
  - subst. cbn [taken] in *. split; cbn [set_chan set set_main set_stop v_udp v_tcp v_chan v_stop v_main get taken]; [lia|reflexivity|exact W|intros A; apply W2 in A; [discriminate A|discriminate]|intros y A; apply W3; [exact A|discriminate]].
  - subst. destruct t; cbn [taken is_done v_udp v_tcp v_chan v_stop v_main get set set_main] in *;
      (split; cbn [set_chan set set_main set_stop v_udp v_tcp v_chan v_stop v_main get taken is_done]; [lia|reflexivity|intros A; apply W; intuition discriminate|intros A; apply W2 in A; [discriminate A|discriminate]|other W3]).
  - subst. cbn [taken] in *. split; cbn [set_chan set set_main set_stop v_udp v_tcp v_chan v_stop v_main get taken]; [lia|reflexivity|exact W|reflexivity|intros y A; apply W3; [exact A|discriminate]].
  - subst. cbn [taken] in *. split; cbn [set_chan set set_main set_stop v_udp v_tcp v_chan v_stop v_main get taken]; [lia|reflexivity|exact W|intros A; apply W2 in A; [discriminate A|discriminate]|intros y A; apply W3; [exact A|discriminate]].
Qed.
Lemma sruns_inv : forall tr v, sruns servers_new tr v -> sinv tr v.
Proof.
  intros tr v R. remember servers_new as v0 eqn:E. induction R as [v|v tr v1 e v2 R IH H].
  - subst v. split; cbn; try tauto; try discriminate. intuition discriminate.
  - subst v. eapply sstep_inv; [now apply IH|exact H].
Qed.

(** C72: start_servers returns only when both servers have returned. *)
Theorem C72_returns_only_when_both_ended : forall tr v, sruns servers_new tr v -> In V_return tr -> v_udp v = S_done /\ v_tcp v = S_done.
Proof.
  intros tr v R H. apply sruns_inv in R as [I1 _ _ I4 _]. rewrite (I4 H) in I1. cbn [taken] in I1. destruct (v_udp v), (v_tcp v); cbn [is_done] in I1; try lia; now split.
Qed.
Print Assumptions C72_returns_only_when_both_ended.
(** C72: nothing is shut down while both servers run: the first to end is one that could
    not bind its address. *)
Theorem C72_stops_only_after_a_failure : forall tr v, sruns servers_new tr v -> v_main v <> M_first \/ v_stop v = true ->
  exists x, In (V_bind_failed x) tr.
Proof.
  intros tr v R H. apply sruns_inv in R as [I1 I2 I3 _ _]. apply I3.
  assert (A : 1 <= taken (v_main v)). { destruct H as [H|H]; [destruct (v_main v); cbn; try lia; now contradiction H|]. specialize (I2 H). destruct (v_main v); cbn in *; try discriminate I2; lia. }
  destruct (v_udp v), (v_tcp v); cbn [is_done] in I1; try lia; tauto.
Qed.
Print Assumptions C72_stops_only_after_a_failure.

(** The steps a shutdown makes by itself. *)
Definition own (e : sevent) : bool := match e with V_request _ | V_timeout | V_no_socket | V_crash _ => false | _ => true end.
Definition settled (s : sstate) : Prop := s <> S_starting.
Definition ready_to_stop (m : mstate) (x : side) (s : sstate) : Prop :=
  match s with
  | S_listening 0 => match m, x with M_second, _ => False | M_wake_tcp, Udp => False | _, _ => True end
  | S_starting | S_panicked => False
  | _ => True
  end.
Record winv (v : servers) : Prop := mkWinv {
  wi_stop : v_stop v = past_store (v_main v);
  wi_udp : ready_to_stop (v_main v) Udp (v_udp v);
  wi_tcp : ready_to_stop (v_main v) Tcp (v_tcp v) }.
Lemma winv_step : forall v e v', winv v -> sstep v e v' -> e <> V_no_socket -> (forall x, e <> V_crash x) -> v_main v' <> M_returned -> v_main v' <> M_panicked -> winv v'.
Proof.
  intros v e v' [J1 J2 J3] H H1 H2 H3 H4.
  destruct H; destruct v as [u t c b m]; unfold process_alive, knock in *; cbn [v_udp v_tcp v_chan v_stop v_main get set set_main set_chan set_stop] in *; subst; try (now contradiction H1); try (now contradiction (H2 x)).
  all: try (destruct x; cbn [v_udp v_tcp v_chan v_stop v_main get set set_main set_chan set_stop] in *; subst).
  all: try (destruct u; cbn [v_udp v_tcp v_chan v_stop v_main get set set_main set_chan set_stop] in *; subst).
  all: try (destruct t; cbn [v_udp v_tcp v_chan v_stop v_main get set set_main set_chan set_stop] in *; subst).
  all: split; cbn [v_udp v_tcp v_chan v_stop v_main ready_to_stop past_store] in *; try assumption; try exact I; try (now destruct J2); try (now destruct J3); try reflexivity; try discriminate.
  all: try (now contradiction H3); try (now contradiction H4).
  all: repeat match goal with |- context [match ?k with 0 => _ | S _ => _ end] => destruct k end; try exact I; try assumption; try (now destruct J2); try (now destruct J3).
  all: try (destruct m; cbn [past_store] in *; try discriminate; try exact I; try assumption).
Qed.
Lemma panicked_crashed : forall tr v y, sruns servers_new tr v -> get y v = S_panicked -> In (V_crash y) tr.
Proof.
  intros tr v y R. remember servers_new as v0 eqn:E. revert y. induction R as [v|v tr v1 e v2 R IH H]; intros y Hx.
  - subst v. destruct y; discriminate Hx.
  - subst v. specialize (IH eq_refl). rewrite in_app_iff. cbn [In].
    assert (A : get y v1 = S_panicked \/ e = V_crash y); [|destruct A as [A|A]; [left; now apply IH|tauto]]. clear IH R.
    destruct H; destruct v as [u t c b m]; unfold knock in *; try (destruct x); destruct y; cbn [v_udp v_tcp v_chan v_stop v_main get set set_main set_chan set_stop] in *.
    all: try (now left); try discriminate Hx; try (now right).
    all: match type of Hx with context [match ?z with _ => _ end] => destruct z end; cbn [v_udp v_tcp set set_main] in Hx; first [discriminate Hx|now left].
Qed.

Definition weight_s (s : sstate) : nat := match s with S_starting => 3 | S_listening k => 2 + k | S_closing => 1 | _ => 0 end.
Definition weight_m (m : mstate) : nat := match m with M_first => 8 | M_store => 7 | M_wake_udp => 6 | M_wake_tcp => 4 | M_second => 2 | _ => 0 end.
Definition weight_v (v : servers) : nat := weight_s (v_udp v) + weight_s (v_tcp v) + weight_m (v_main v).
Definition requests (tr : list sevent) : nat := length (filter (fun e => match e with V_request _ => true | _ => false end) tr).
Lemma sstep_weight : forall v e v', sstep v e v' -> weight_v v' + 1 <= weight_v v + 2 * requests [e].
Proof.
  intros v e v' H. unfold weight_v, requests. destruct H; destruct v as [u t c b m]; unfold knock; try (destruct x); cbn [v_udp v_tcp v_chan v_stop v_main get set set_main set_chan set_stop filter length] in *; subst; cbn [weight_s weight_m]; try lia.
  all: first [destruct u|destruct t]; cbn [v_udp v_tcp v_main set set_main weight_s weight_m]; try lia.
  all: destruct t; cbn [v_udp v_tcp v_main set set_main weight_s weight_m]; lia.
Qed.
Lemma sruns_app : forall v tr v1 tr2 v2, sruns v tr v1 -> sruns v1 tr2 v2 -> sruns v (tr ++ tr2) v2.
Proof. intros v tr v1 tr2 v2 R1 R2. induction R2 as [|v1 tr2 v2 e v3 R2 IH H]; [now rewrite app_nil_r|]. rewrite app_assoc. econstructor; [now apply IH|exact H]. Qed.

(** C72: when both servers had got past their bind (one of them failing) by the time the
    calling thread is told, the wake-up reaches the other server: until start_servers returns,
    or the 4 seconds are over, some thread can move by itself; and they make only so many steps. *)
Theorem C72_shutdown_completes_partial : forall tr1 v1 tr2 v2,
  sruns servers_new tr1 v1 -> v_main v1 = M_first -> v_udp v1 <> S_starting -> v_tcp v1 <> S_starting -> sruns v1 tr2 v2 ->
  (forall x, ~ In (V_crash x) (tr1 ++ tr2)) -> ~ In V_no_socket tr2 -> ~ In V_timeout tr2 -> v_main v2 <> M_first ->
  (v_main v2 = M_returned \/ exists e v3, own e = true /\ sstep v2 e v3) /\
  exists B, forall tr3 v3, sruns v2 tr3 v3 -> length tr3 <= B + 2 * requests tr3.
Proof.
  intros tr1 v1 tr2 v2 R1 M1 U1 T1 R2 Hc Hs Ht M2. split.
  - assert (W1 : winv v1).
    { pose proof (sruns_inv _ _ R1) as [_ I2 _ _ _]. split.
      - rewrite M1 in *. destruct (v_stop v1); [specialize (I2 eq_refl); discriminate I2|reflexivity].
      - assert (P : v_udp v1 <> S_panicked) by (intros P; apply (Hc Udp); apply in_or_app; left; now apply (panicked_crashed _ _ _ R1)). rewrite M1. destruct (v_udp v1) as [|[|k]| | |]; easy.
      - assert (P : v_tcp v1 <> S_panicked) by (intros P; apply (Hc Tcp); apply in_or_app; left; now apply (panicked_crashed _ _ _ R1)). rewrite M1. destruct (v_tcp v1) as [|[|k]| | |]; easy. }
    assert (A : v_main v2 = M_returned \/ (winv v2 /\ v_main v2 <> M_panicked)).
    { clear M2. induction R2 as [v|v tr v2 e v3 R2 IH H]; [right; split; [exact W1|rewrite M1; discriminate]|].
      assert (IH' : v_main v2 = M_returned \/ winv v2 /\ v_main v2 <> M_panicked).
      { apply IH; try assumption.
        - intros x Hi. apply (Hc x). rewrite app_assoc. apply in_or_app. now left.
        - intros Hi. apply Hs. apply in_or_app. now left.
        - intros Hi. apply Ht. apply in_or_app. now left. }
      assert (N1 : e <> V_no_socket) by (intros ->; apply Hs, in_or_app; right; now left).
      assert (N2 : e <> V_timeout) by (intros ->; apply Ht, in_or_app; right; now left).
      assert (N3 : forall x, e <> V_crash x) by (intros x ->; apply (Hc x); rewrite app_assoc; apply in_or_app; right; now left).
      assert (NP : v_main v2 <> M_panicked -> v_main v3 <> M_panicked).
      { intros P. destruct H; destruct v0 as [u t c b m]; unfold knock; try (destruct x); cbn [v_main set set_main set_chan set_stop get v_udp v_tcp] in *; try exact P; try discriminate; try (now contradiction N2); match goal with |- context [match ?z with _ => _ end] => destruct z end; cbn [v_main set]; first [exact P|discriminate]. }
      destruct IH' as [IH'|(IH' & P)].
      - left. destruct H; destruct v0 as [u t c b m]; unfold process_alive in *; cbn [v_main] in *; subst; try contradiction; discriminate.
      - assert (D : v_main v3 = M_returned \/ v_main v3 <> M_returned) by (destruct (v_main v3); (now left) + (right; discriminate)).
        destruct D as [D|D]; [now left|]. right. split; [|now apply NP]. eapply winv_step; try eassumption. now apply NP. }
    destruct A as [A|([J1 J2 J3] & P)]; [now left|].
    pose proof (sruns_inv _ _ (sruns_app _ _ _ _ _ R1 R2)) as [I1 _ _ _ _].
    destruct (v_main v2) eqn:Em; try (now contradiction M2); try (now contradiction P); try (left; reflexivity); right.
    + eexists _, _. split; [|apply vs_store; exact Em]. reflexivity.
    + eexists _, _. split; [|apply vs_wake_udp; exact Em]. reflexivity.
    + eexists _, _. split; [|apply vs_wake_tcp; exact Em]. reflexivity.
    + assert (Al : process_alive v2) by (unfold process_alive; now rewrite Em).
      destruct (v_chan v2) as [|c] eqn:Ec; [|eexists _, _; split; [|eapply vs_second; [exact Em|exact Ec]]; reflexivity].
      cbn [taken past_store] in *. assert (S : forall x k, get x v2 = S_listening (S k) -> exists e v3, own e = true /\ sstep v2 e v3) by (intros x k E; eexists _, _; split; [|eapply vs_stop; [exact Al|exact E|exact J1]]; reflexivity).
      assert (C : forall x, get x v2 = S_closing -> exists e v3, own e = true /\ sstep v2 e v3) by (intros x E; eexists _, _; split; [|apply vs_closed; [exact Al|exact E]]; reflexivity).
      destruct (v_udp v2) as [|[|k]| | |] eqn:Eu; cbn [ready_to_stop] in J2; try (now destruct J2).
      * exact (S Udp k Eu).
      * exact (C Udp Eu).
      * destruct (v_tcp v2) as [|[|k]| | |] eqn:Et; cbn [ready_to_stop] in J3; try (now destruct J3); [exact (S Tcp k Et)|exact (C Tcp Et)].
  - exists (weight_v v2). intros tr3 v3 R3. assert (A : weight_v v3 + length tr3 <= weight_v v2 + 2 * requests tr3); [|lia].
    induction R3 as [v|v tr3 v3 e v4 R3 IH H]; [cbn; lia|]. apply sstep_weight in H. unfold requests in *. rewrite filter_app, !app_length in *. cbn [length]. specialize (IH R2 M2). lia.
Qed.
Print Assumptions C72_shutdown_completes_partial.

(** The hypotheses are met: the TCP address is taken, the UDP server listens. *)
Theorem C72_partial_nonvacuous : exists tr1 v1 tr2 v2, sruns servers_new tr1 v1 /\ v_main v1 = M_first /\ v_udp v1 <> S_starting /\ v_tcp v1 <> S_starting /\
  sruns v1 tr2 v2 /\ (forall x, ~ In (V_crash x) (tr1 ++ tr2)) /\ ~ In V_no_socket tr2 /\ ~ In V_timeout tr2 /\ v_main v2 = M_second /\ v_udp v2 = S_listening 1.
Proof.
  exists ((([] ++ [V_bound Udp]) ++ [V_bind_failed Tcp]) ++ [V_closed Tcp]), (mkServers (S_listening 0) S_done 1 false M_first),
    (((([] ++ [V_step]) ++ [V_step]) ++ [V_step]) ++ [V_step]), (mkServers (S_listening 1) S_done 0 true M_second).
  split; [|split; [reflexivity|split; [discriminate|split; [discriminate|split; [|split; [|split; [|split; [|split; reflexivity]]]]]]]].
  - eapply sruns_more; [eapply sruns_more; [eapply sruns_more; [constructor|]|]|].
    + apply (vs_bound Udp servers_new); [exact I|reflexivity].
    + apply (vs_bind_failed Tcp (mkServers (S_listening 0) S_starting 0 false M_first)); [exact I|reflexivity].
    + apply (vs_closed Tcp (mkServers (S_listening 0) S_closing 0 false M_first)); [exact I|reflexivity].
  - eapply sruns_more; [eapply sruns_more; [eapply sruns_more; [eapply sruns_more; [constructor|]|]|]|].
    + apply (vs_first (mkServers (S_listening 0) S_done 1 false M_first) 0); reflexivity.
    + apply (vs_store (mkServers (S_listening 0) S_done 0 false M_store)); reflexivity.
    + apply (vs_wake_udp (mkServers (S_listening 0) S_done 0 true M_wake_udp)); reflexivity.
    + apply (vs_wake_tcp (mkServers (S_listening 1) S_done 0 true M_wake_tcp)); reflexivity.
  - intros x. cbn. intuition discriminate.
  - cbn. intuition discriminate.
  - cbn. intuition discriminate.
Qed.

(** C72 is refuted: if the wake-up comes before the other server has bound its address it
    is lost, and then, unless a client sends something, start_servers waits for its four
    seconds and panics. *)
Theorem C72_refuted_lost_wake_up : exists tr v, sruns servers_new tr v /\
  (forall x, ~ In (V_crash x) tr) /\ ~ In V_no_socket tr /\ v_main v = M_second /\ v_udp v = S_listening 0 /\ v_tcp v = S_done /\
  forall e v', sstep v e v' -> (exists x, e = V_request x) \/ (e = V_timeout /\ v_main v' = M_panicked).
Proof.
  exists ((((((([] ++ [V_bind_failed Tcp]) ++ [V_closed Tcp]) ++ [V_step]) ++ [V_step]) ++ [V_step]) ++ [V_step]) ++ [V_bound Udp]), (mkServers (S_listening 0) S_done 0 true M_second).
  split; [|split; [intros x; cbn; intuition discriminate|split; [cbn; intuition discriminate|split; [reflexivity|split; [reflexivity|split; [reflexivity|]]]]]].
  - eapply sruns_more; [eapply sruns_more; [eapply sruns_more; [eapply sruns_more; [eapply sruns_more; [eapply sruns_more; [eapply sruns_more; [constructor|]|]|]|]|]|]|].
    + apply (vs_bind_failed Tcp servers_new); [exact I|reflexivity].
    + apply (vs_closed Tcp (mkServers S_starting S_closing 0 false M_first)); [exact I|reflexivity].
    + apply (vs_first (mkServers S_starting S_done 1 false M_first) 0); reflexivity.
    + apply (vs_store (mkServers S_starting S_done 0 false M_store)); reflexivity.
    + apply (vs_wake_udp (mkServers S_starting S_done 0 true M_wake_udp)); reflexivity.
    + apply (vs_wake_tcp (mkServers S_starting S_done 0 true M_wake_tcp)); reflexivity.
    + apply (vs_bound Udp (mkServers S_starting S_done 0 true M_second)); [exact I|reflexivity].
  - intros e v' H. inversion H; subst; try (destruct x; cbn [get v_udp v_tcp] in *; discriminate); try discriminate.
    + left. now exists x.
    + right. now split.
Qed.
Print Assumptions C72_refuted_lost_wake_up.
(** ... and if the drop of a server's thread pool panics (C71: one of its requests did) it
    never returns. *)
Theorem C72_refuted_after_a_crash : forall tr v x, sruns servers_new tr v -> In (V_crash x) tr -> ~ In V_return tr.
Proof.
  intros tr v x R Hc Hr. destruct (C72_returns_only_when_both_ended _ _ R Hr) as (Hu & Ht). pose proof (si_crash _ _ (sruns_inv _ _ R) x Hc) as P. destruct x; cbn in P; congruence.
Qed.
Print Assumptions C72_refuted_after_a_crash.
