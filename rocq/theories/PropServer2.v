(** C65, exactly: how far a name server's pool gets, in terms of the requests it has read. *)
From Coq Require Import Permutation.
From Verif Require Import Base Types Name NameSpec Codec CodecSpec PropCodec1 Reader Zone NsSpec NsHandler PropNs PropNs2 CrashSpec PropCrash
  Pool PoolSpec PoolInv PropPool PropServer.

Section Split.
  Context {job : Type} (returns panics : job -> Prop) (Hdis : forall j, returns j -> panics j -> False).
  Lemma perm_split : forall g1 b1 g2 b2 : list job, Permutation (g1 ++ b1) (g2 ++ b2) ->
    Forall returns g1 -> Forall returns g2 -> Forall panics b1 -> Forall panics b2 -> Permutation g1 g2 /\ Permutation b1 b2.
  Proof.
    induction g1 as [|x g1 IH]; intros b1 g2 b2 P G1 G2 B1 B2; cbn [app] in P.
    - destruct g2 as [|y g2]; [now split|]. exfalso. apply Permutation_sym in P.
      assert (Hin : In y b1) by (eapply Permutation_in; [exact P|now left]). rewrite Forall_forall in B1. apply (Hdis y); [now inversion G2|now apply B1].
    - inversion G1 as [|x0 l0 Rx G1']. subst x0 l0. assert (Hin : In x (g2 ++ b2)) by (eapply Permutation_in; [exact P|now left]).
      apply in_app_or in Hin as [Hin|Hin]; [|exfalso; rewrite Forall_forall in B2; apply (Hdis x); [exact Rx|now apply B2]].
      apply in_split in Hin as (i1 & i2 & ->). rewrite <- app_assoc in P. cbn [app] in P. apply Permutation_cons_app_inv in P. rewrite app_assoc in P.
      apply Forall_app in G2 as (Ga & Gb). apply IH in P as (P1 & P2); [|assumption|apply Forall_app; split; [assumption|now inversion Gb]|assumption|assumption].
      split; [|exact P2]. now apply Permutation_cons_app.
  Qed.

  Lemma pool_exact : forall n tr s bad good, history returns panics n tr s -> ~ In E_drop tr ->
    Permutation (submitted tr) (good ++ bad) -> Forall panics bad -> Forall returns good ->
    (length bad < n ->
       (forall l, exists s', step returns panics s (E_execute l) s') /\
       ((exists e s', by_worker e = true /\ step returns panics s e s') \/ (Permutation (returned tr) good /\ Permutation (panicked tr) bad))) /\
    (n <= length bad ->
       (exists e s', by_worker e = true /\ step returns panics s e s') \/ length (panicked tr) = n).
  Proof.
    intros n tr s bad good H Hd P Hb Hg. destruct (outcomes _ _ _ _ _ H) as (Or & Op).
    assert (Hrp : Forall (fun j => returns j \/ panics j) (submitted tr)).
    { apply Forall_forall. intros j Hj. apply (Permutation_in _ P) in Hj. apply in_app_or in Hj. rewrite Forall_forall in Hb, Hg. destruct Hj as [Hj|Hj]; [left|right]; auto. }
    assert (Hnr : forall l, Forall panics l -> Forall (fun j => ~ returns j) l) by (intros l; apply Forall_impl; intros j Hj Hr; now apply (Hdis j)).
    split.
    - intros L. assert (Lp : length (panicked tr) < n).
      { destruct (C64_jobs_start_once_in_order _ _ _ _ _ H) as (w & r & E & P2 & _).
        assert (P3 : Permutation (panicked tr ++ (returned tr ++ r ++ w)) (good ++ bad)).
        { rewrite <- P, E, P2. rewrite <- !app_assoc. rewrite (app_assoc (panicked tr)), (app_assoc (returned tr)). apply Permutation_app_tail, Permutation_app_comm. }
        pose proof (perm_incl returns panics _ _ _ _ P3 (Hnr _ Op) Hg). lia. }
      split.
      + intros l. pose proof (owner_says _ _ _ _ _ H) as (_ & _ & S3 & _ & S5). pose proof (history_inv _ _ _ _ _ H) as (_ & [I1 I2 I3 I4 I5 (js & k & Q1 & Q2 & Q3 & Q4)]).
        destruct s as [q ws b o]. cbn [p_owner p_workers p_queue] in *. pose proof (count_total ws) as T.
        destruct o; try (exfalso; apply Hd; apply S5; discriminate).
        * eexists. apply st_execute. rewrite alive_exists. cbn [owner_inv] in Q4. lia.
        * cbn [owner_inv] in Q4. lia.
      + destruct (C64_no_deadlock _ _ _ _ _ H Hrp Hd Lp) as [A|A]; [now left|right]. apply perm_split; try assumption. now rewrite <- A.
    - intros L. eapply C65_refuted_every_schedule; [exact H|exact Hrp|exact Hd|etransitivity; [exact P|apply Permutation_app_comm]|exact L|now apply Hnr].
  Qed.
End Split.

(** The datagrams and streams that crash a worker; those on which the decoder hangs. *)
Definition udp_crashes (p : profile) (sd : server_data) (l : list N) : Prop := crashes p sd questions_fit (firstn 512 l).
Definition udp_hangs (p : profile) (l : list N) : Prop := decode_message p (firstn 512 l) = Diverge.
Definition framed (l m : list N) : Prop := (N.of_nat (length m) < 65536)%N /\ exists rest, l = on_tcp m ++ rest.
Definition tcp_crashes (p : profile) (sd : server_data) (l : list N) : Prop := exists m, framed l m /\ crashes p sd (fun _ => True) m.
Definition tcp_hangs (p : profile) (l : list N) : Prop := exists m, framed l m /\ decode_message p m = Diverge.

Lemma stream_cases : forall l, is_bytes l ->
  (length l < 2 \/ (exists n body, (n < 65536)%N /\ l = be16 n ++ body /\ length body < N.to_nat n)) \/ exists m, framed l m /\ is_bytes m.
Proof.
  intros l Hl. destruct l as [|a [|b rest]]; [left; left; cbn; lia|left; left; cbn; lia|].
  pose proof (Forall_inv Hl) as Ha. pose proof (Forall_inv (Forall_inv_tail Hl)) as Hb. pose proof (Forall_inv_tail (Forall_inv_tail Hl)) as Hr. unfold is_byte in Ha, Hb.
  assert (E : a :: b :: rest = be16 (a * 256 + b) ++ rest).
  { assert (E1 : ((a * 256 + b) / 256 = a)%N) by (rewrite N.div_add_l by lia; rewrite (N.div_small b) by assumption; lia).
    assert (E2 : ((a * 256 + b) mod 256 = b)%N) by (rewrite N.add_comm, N.mod_add by lia; now apply N.mod_small).
    unfold be16. cbn [app]. rewrite E1, E2. reflexivity. }
  set (n := (a * 256 + b)%N) in *. destruct (Nat.ltb_spec (length rest) (N.to_nat n)) as [L|L].
  - left. right. exists n, rest. split; [unfold n; lia|]. now split.
  - right. exists (firstn (N.to_nat n) rest). assert (Ln : length (firstn (N.to_nat n) rest) = N.to_nat n) by (rewrite firstn_length; lia).
    split; [|now apply is_bytes_firstn]. split; [rewrite Ln; unfold n; lia|]. exists (skipn (N.to_nat n) rest). unfold on_tcp. rewrite Ln, N2Nat.id, <- app_assoc, firstn_skipn. exact E.
Qed.

Section Server.
  Context (p : profile) (zs : managed) (sd : server_data) (Hs : NsSpec.serves zs sd) (Hl : zone_loaded sd) (Hsh : all_short sd).
  Lemma udp_outcomes : forall l, is_bytes l -> (ns_panics_udp p zs l <-> udp_crashes p sd l) /\ (~ udp_crashes p sd l -> ~ udp_hangs p l -> ns_returns_udp p zs l).
  Proof.
    intros l Hb. destruct (C87_exactly_which_requests_crash p zs sd Hs Hl Hsh) as (U & _). destruct (U l Hb) as (U1 & U2). split; [exact U1|].
    intros Nc Nh. unfold ns_returns_udp. destruct (serve_udp p zs l) as [o|k|] eqn:E; [now exists o| |].
    - exfalso. apply Nc, U1. now exists k.
    - exfalso. apply Nh, U2. reflexivity.
  Qed.
  Lemma tcp_outcomes : forall l, is_bytes l -> (ns_panics_tcp p zs l <-> tcp_crashes p sd l) /\ (~ tcp_crashes p sd l -> ~ tcp_hangs p l -> ns_returns_tcp p zs l).
  Proof.
    intros l Hb. destruct (C87_exactly_which_requests_crash p zs sd Hs Hl Hsh) as (_ & T).
    assert (Hm : forall m rest, l = on_tcp m ++ rest -> is_bytes m).
    { intros m rest ->. unfold on_tcp in Hb. unfold is_bytes in *. apply Forall_app in Hb as (Hb & _). now apply Forall_app in Hb as (_ & Hb). }
    destruct (stream_cases l Hb) as [Hsl|(m & Hf & Hbm)].
    - pose proof (C35_short_stream p zs l Hsl) as E. split.
      + split; [intros (k & X); congruence|]. intros (m & (Hlen & rest & ->) & Hc). destruct (T m rest (Hm m rest eq_refl) Hlen) as (X & _). apply X in Hc as (k & Hc). congruence.
      + intros _ _. now exists None.
    - destruct Hf as (Hlen & rest & El). destruct (T m rest Hbm Hlen) as (T1 & T2). split.
      + split; [intros X; exists m; split; [split; [exact Hlen|now exists rest]|]; apply T1; now rewrite <- El|].
        intros (m' & (Hlen' & rest' & El') & Hc). destruct (T m' rest' (Hm m' rest' El') Hlen') as (X & _). unfold ns_panics_tcp. rewrite El'. now apply X.
      + intros Nc Nh. unfold ns_returns_tcp. rewrite El. destruct (serve_tcp p zs (on_tcp m ++ rest)) as [o|k|] eqn:E; [now exists o| |].
        * exfalso. apply Nc. exists m. split; [split; [exact Hlen|now exists rest]|]. apply T1. now exists k.
        * exfalso. apply Nh. exists m. split; [split; [exact Hlen|now exists rest]|]. apply T2. reflexivity.
  Qed.
End Server.

(** How far the pool of a transport gets. [crash]: the requests among those read that crash
    a worker, [fine]: the others. As long as there are fewer of the former than threads,
    everything read is worked on until all of [fine] is served, and the server goes on reading;
    as soon as there are as many, nothing stops the workers until all of them are dead. *)
Definition serves_until_dead (returns panics crashing hanging : list N -> Prop) : Prop := forall n tr s crash fine,
  history returns panics n tr s -> ~ In E_drop tr -> Permutation (submitted tr) (fine ++ crash) ->
  Forall (fun l => is_bytes l /\ crashing l) crash -> Forall (fun l => is_bytes l /\ ~ crashing l /\ ~ hanging l) fine ->
  (length crash < n ->
     (forall l, exists s', step returns panics s (E_execute l) s') /\
     ((exists e s', by_worker e = true /\ step returns panics s e s') \/ (Permutation (returned tr) fine /\ Permutation (panicked tr) crash))) /\
  (n <= length crash ->
     (exists e s', by_worker e = true /\ step returns panics s e s') \/ length (panicked tr) = n).

Theorem C65_exactly_when_it_keeps_serving_partial : forall p zs sd, NsSpec.serves zs sd -> zone_loaded sd -> all_short sd ->
  serves_until_dead (ns_returns_udp p zs) (ns_panics_udp p zs) (udp_crashes p sd) (udp_hangs p) /\
  serves_until_dead (ns_returns_tcp p zs) (ns_panics_tcp p zs) (tcp_crashes p sd) (tcp_hangs p).
Proof.
  intros p zs sd Hs Hl Hsh. split; intros n tr s crash fine H Hd P Hc Hf; apply pool_exact; try assumption.
  - intros j (o & E) (k & E'). congruence.
  - eapply Forall_impl; [|exact Hc]. intros l (Hb & X). now apply (udp_outcomes p zs sd Hs Hl Hsh l Hb).
  - eapply Forall_impl; [|exact Hf]. intros l (Hb & X & Y). now apply (udp_outcomes p zs sd Hs Hl Hsh l Hb).
  - intros j (o & E) (k & E'). congruence.
  - eapply Forall_impl; [|exact Hc]. intros l (Hb & X). now apply (tcp_outcomes p zs sd Hs Hl Hsh l Hb).
  - eapply Forall_impl; [|exact Hf]. intros l (Hb & X & Y). now apply (tcp_outcomes p zs sd Hs Hl Hsh l Hb).
Qed.
Print Assumptions C65_exactly_when_it_keeps_serving_partial.

(** Four threads that have read a query, a request that crashes a worker, and another query:
    all is well. *)
Theorem C65_exact_nonvacuous : forall p,
  NsSpec.serves ex_zones ex_data /\ zone_loaded ex_data /\ all_short ex_data /\
  exists s, history (ns_returns_udp p ex_zones) (ns_panics_udp p ex_zones) 4 [E_execute ex_ask; E_execute pkt_cut; E_execute ex_ask] s /\
  ~ In E_drop [E_execute ex_ask; E_execute pkt_cut; E_execute ex_ask] /\
  Permutation (submitted [E_execute ex_ask; E_execute pkt_cut; E_execute ex_ask]) ([ex_ask; ex_ask] ++ [pkt_cut]) /\
  Forall (fun l => is_bytes l /\ udp_crashes p ex_data l) [pkt_cut] /\
  Forall (fun l => is_bytes l /\ ~ udp_crashes p ex_data l /\ ~ udp_hangs p l) [ex_ask; ex_ask] /\
  Forall (fun l => is_bytes l /\ ~ tcp_crashes p ex_data l /\ ~ tcp_hangs p l) [[]; [0%N]; [0; 9; 1]%N].
Proof.
  intros p. destruct (C87_nonvacuous p) as (Hs & Hl & Hsh & Hall & (A1 & r & A2) & _ & _ & (A3 & _) & _).
  split; [exact Hs|]. split; [exact Hl|]. split; [exact Hsh|].
  pose proof (Forall_inv Hall) as (B1 & L1). pose proof (Forall_inv (Forall_inv_tail (Forall_inv_tail (Forall_inv_tail Hall)))) as (B2 & L2).
  assert (Ha : is_bytes ex_ask /\ ~ udp_crashes p ex_data ex_ask /\ ~ udp_hangs p ex_ask).
  { split; [exact B1|]. split; [unfold udp_crashes; rewrite firstn_all2 by exact L1; exact A1|]. intros X.
    destruct (C87_exactly_which_requests_crash p ex_zones ex_data Hs Hl Hsh) as (U & _). destruct (U ex_ask B1) as (_ & U2). apply U2 in X. congruence. }
  exists (mkPool ((([] ++ [WJob ex_ask]) ++ [WJob pkt_cut]) ++ [WJob ex_ask]) (repeat W_ready 4) false O_open). split.
  { exists (mkPool [] (repeat W_ready 4) false O_open). split; [reflexivity|].
    change [E_execute ex_ask; E_execute pkt_cut; E_execute ex_ask] with ((([] ++ [E_execute ex_ask]) ++ [E_execute pkt_cut]) ++ [E_execute ex_ask]).
    eapply runs_more; [eapply runs_more; [eapply runs_more; [constructor|]|]|]; apply st_execute; exists W_ready; (split; [now left|exact Logic.I]). }
  split. { intros [X|[X|[X|X]]]; [discriminate X|discriminate X|discriminate X|exact X]. }
  split. { unfold submitted. cbn [flat_map app]. apply perm_skip. apply perm_swap. }
  split. { constructor; [|constructor]. split; [exact B2|]. unfold udp_crashes. rewrite firstn_all2 by exact L2. exact A3. }
  split. { constructor; [exact Ha|]. constructor; [exact Ha|constructor]. }
  assert (Hno : forall l, is_bytes l -> length l <= 3 -> match l with [a; b; c] => (a * 256 + b = 9)%N | _ => True end -> ~ exists m, framed l m /\ (crashes p ex_data (fun _ => True) m \/ decode_message p m = Diverge)).
  { intros l Hb Hlen Hsp (m & (Hm & rest & E) & Hc). assert (Em : m = []).
    { unfold on_tcp in E. destruct l as [|a [|b [|c [|d l]]]]; try discriminate E; [|injection E as Ea Eb E|cbn [length] in Hlen; lia].
      - injection E as Ea Eb E. symmetry in E. apply app_eq_nil in E. exact (proj1 E).
      - exfalso. pose proof (f_equal (@length N) E) as Le. rewrite app_length in Le. cbn [length] in Le.
        pose proof (N.div_mod (N.of_nat (length m)) 256 ltac:(lia)) as Dm. rewrite <- Ea, <- Eb in Dm. lia. }
    subst m. assert (D : exists e he, read_message p [] = Done e /\ decode_message p [] = Done (Err he)) by (destruct p; eexists _, _; split; vm_compute; reflexivity).
    destruct D as (e & he & _ & D). destruct Hc as [[kd X|h e' r' Hh X _|req X _ _ _]|X]; try congruence. apply (f_equal (@length N)) in X. rewrite app_length in X. cbn in X. lia. }
  assert (Hok : forall l, is_bytes l -> length l <= 3 -> match l with [a; b; c] => (a * 256 + b = 9)%N | _ => True end -> is_bytes l /\ ~ tcp_crashes p ex_data l /\ ~ tcp_hangs p l).
  { intros l Hb Hlen Hsp. pose proof (Hno l Hb Hlen Hsp) as X. split; [exact Hb|]. split; intros (m & Hf & Hc); apply X; exists m; (split; [exact Hf|]); [now left|now right]. }
  constructor; [|constructor; [|constructor; [|constructor]]]; apply Hok; try exact Logic.I; try (cbn [length]; lia); try reflexivity; repeat (constructor; try reflexivity).
Qed.
Print Assumptions C65_exact_nonvacuous.
