(** C65: the thread pools of the two servers. A job is one request (udp_server.rs:104-111,
    tcp_server.rs:106-116); it returns or panics as the model of the server says. Sending
    the reply is not modelled: it does not panic. *)
From Coq Require Import Permutation.
From Verif Require Import Base Types Name NameSpec Codec CodecSpec PropCodec1 Zone NsSpec NsHandler PropNs PropNs2
  Resolver ResolverSpec ResolverEx RsHandler PropRs Pool PoolSpec PoolInv PropPool.

(** The requests a name server's worker gets through, and those it dies of. *)
Definition ns_returns_udp (p : profile) (zs : managed) (l : list N) : Prop := exists o, serve_udp p zs l = Done o.
Definition ns_panics_udp (p : profile) (zs : managed) (l : list N) : Prop := exists k, serve_udp p zs l = Panic k.
Definition ns_returns_tcp (p : profile) (zs : managed) (l : list N) : Prop := exists o, serve_tcp p zs l = Done o.
Definition ns_panics_tcp (p : profile) (zs : managed) (l : list N) : Prop := exists k, serve_tcp p zs l = Panic k.

(** The same of the resolver, in the state of upstream and cache it finds. *)
Definition rs_returns_udp (p : profile) (lg : bool) (env : environment) (fuel : nat) (conf : rconf) (l : list N) : Prop :=
  exists w o w', rs_serve_udp p lg env fuel conf l w = (Done o, w').
Definition rs_panics_udp (p : profile) (lg : bool) (env : environment) (fuel : nat) (conf : rconf) (l : list N) : Prop :=
  exists w k w', rs_serve_udp p lg env fuel conf l w = (Panic k, w').
Definition rs_returns_tcp (p : profile) (lg : bool) (env : environment) (fuel : nat) (conf : rconf) (l : list N) : Prop :=
  exists w o w', rs_serve_tcp p lg env fuel conf l w = (Done o, w').
Definition rs_panics_tcp (p : profile) (lg : bool) (env : environment) (fuel : nat) (conf : rconf) (l : list N) : Prop :=
  exists w k w', rs_serve_tcp p lg env fuel conf l w = (Panic k, w').

(** A server of [n] threads that has read [n] requests, in this order, and is dead: what
    comes next aborts the process, before anything else is served. *)
Definition killed_by (returns panics : list N -> Prop) (n : nat) (requests : list (list N)) : Prop :=
  exists tr s, history returns panics n tr s /\ submitted tr = requests /\ ~ In E_drop tr /\
    (forall tr2 s2, runs returns panics s tr2 s2 -> submitted tr2 = [] /\ started tr2 = [] /\ returned tr2 = []) /\
    (forall l, exists s', step returns panics s (E_execute_panic l) s' /\ forall e s'', ~ step returns panics s' e s'').
Lemma kill : forall (returns panics : list N -> Prop) n l, 0 < n -> panics l -> killed_by returns panics n (repeat l n).
Proof.
  intros returns panics n l Hn Hl. destruct (C65_refuted_reachable returns panics n l Hn Hl) as (tr & s & H & E1 & E2 & Hd & He).
  assert (L : length (panicked tr) = n) by (rewrite E2; apply repeat_length).
  exists tr, s. split; [exact H|]. split; [exact E1|]. split; [exact Hd|]. split.
  - intros tr2 s2 R. eapply C65_refuted_dead_pool_serves_nothing; eassumption.
  - intros j. eapply C65_refuted_next_request_aborts; eassumption.
Qed.

Lemma inverse_undecodable : forall p, exists e h, is_bytes pkt_inverse /\ readable_header pkt_inverse h /\ decode_message p pkt_inverse = Done (Err e).
Proof.
  intros p. assert (B : is_bytes pkt_inverse) by (repeat (apply Forall_cons; [reflexivity|]); constructor).
  assert (H : exists h, decode_header_bytes pkt_inverse = Done (Ok h)) by (eexists; vm_compute; reflexivity). destruct H as (h & H).
  assert (D : exists e, decode_message p pkt_inverse = Done (Err e)) by (destruct p; eexists; vm_compute; reflexivity). destruct D as (e & D).
  exists e, h. split; [exact B|]. split; [now apply C14_decode_header|exact D].
Qed.

(** C65 is refuted, on both servers and both transports: as many 12-byte inverse queries as
    there are threads, and the next packet aborts the process. *)
Theorem C65_refuted : forall p lg zs env fuel conf n, 0 < n ->
  killed_by (ns_returns_udp p zs) (ns_panics_udp p zs) n (repeat pkt_inverse n) /\
  killed_by (ns_returns_tcp p zs) (ns_panics_tcp p zs) n (repeat (on_tcp pkt_inverse) n) /\
  killed_by (rs_returns_udp p lg env fuel conf) (rs_panics_udp p lg env fuel conf) n (repeat pkt_inverse n) /\
  killed_by (rs_returns_tcp p lg env fuel conf) (rs_panics_tcp p lg env fuel conf) n (repeat (on_tcp pkt_inverse) n).
Proof.
  intros p lg zs env fuel conf n Hn. destruct (inverse_undecodable p) as (e & h & B & H & D).
  assert (L : length pkt_inverse <= 512) by (cbn; lia). assert (L2 : (N.of_nat (length pkt_inverse) < 65536)%N) by (cbn; lia).
  split; [apply kill; [exact Hn|eapply C34_refuted_udp; eassumption]|].
  split. { apply kill; [exact Hn|]. unfold ns_panics_tcp. rewrite <- (app_nil_r (on_tcp pkt_inverse)). eapply C34_refuted_tcp; eassumption. }
  destruct (C68_refuted p lg env fuel conf pkt_inverse e h [] world0 B L H D) as ((k1 & E1) & (k2 & E2)).
  split; apply kill; try exact Hn.
  - now exists world0, k1, world0.
  - rewrite app_nil_r in E2. now exists world0, k2, world0.
Qed.
Print Assumptions C65_refuted.

(** In every schedule: once as many inverse queries as threads are among the requests read,
    the workers stop only when all of them are dead, whatever the other requests are. *)
Theorem C65_refuted_in_every_schedule : forall p zs n tr s others,
  history (ns_returns_udp p zs) (ns_panics_udp p zs) n tr s -> ~ In E_drop tr ->
  Forall (fun l => ns_returns_udp p zs l \/ ns_panics_udp p zs l) others ->
  Permutation (submitted tr) (repeat pkt_inverse n ++ others) ->
  (exists e s', by_worker e = true /\ step (ns_returns_udp p zs) (ns_panics_udp p zs) s e s') \/ length (panicked tr) = n.
Proof.
  intros p zs n tr s others H Hd Ho P. destruct (inverse_undecodable p) as (e & h & B & Hh & D).
  assert (L : length pkt_inverse <= 512) by (cbn; lia).
  destruct (C34_refuted_udp p zs pkt_inverse e h B L) as (k & Ek); [assumption|assumption|].
  eapply C65_refuted_every_schedule; [exact H| |exact Hd|exact P|now rewrite repeat_length|].
  - apply Forall_forall. intros l Hl. apply (Permutation_in _ P) in Hl. apply in_app_or in Hl as [Hl|Hl].
    + apply repeat_spec in Hl. subst l. right. now exists k.
    + rewrite Forall_forall in Ho. now apply Ho.
  - apply Forall_forall. intros l Hl. apply repeat_spec in Hl. subst l. intros (o & C). congruence.
Qed.
Print Assumptions C65_refuted_in_every_schedule.

(** What holds: a server that gets only queries of known types and packets without a
    readable header loses no thread, and whatever it has read it serves. *)
Definition harmless (p : profile) (l : list N) : Prop :=
  (exists req q, query_packet p l req q) \/ (is_bytes l /\ forall h, ~ readable_header (firstn 512 l) h) \/
  (exists req, is_bytes l /\ length l <= 512 /\ decode_message p l = Done (Ok req) /\ (forall q, ~ valid_query req q) /\
     h_qd (m_header req) = N.of_nat (length (m_questions req))).
Lemma harmless_returns : forall p zs sd l, serves zs sd -> zone_loaded sd -> all_short sd -> harmless p l -> ns_returns_udp p zs l.
Proof.
  intros p zs sd l Hs Hl Hsh [(req & q & Hq)|[(B & Hno)|(req & B & L & D & Hnv & Hqd)]].
  - destruct (C37_valid_queries_are_answered_partial p zs sd l req q Hs Hl Hsh Hq) as (_ & u & _ & _ & _ & E & _). now exists (Some u).
  - exists None. now apply C35_unreadable_udp.
  - destruct (C34_invalid_requests_get_formerr_partial p zs l req B L D Hnv Hqd) as (_ & u & _ & _ & _ & _ & _ & E & _). now exists (Some u).
Qed.
Theorem C65_harmless_requests_are_served_partial : forall p zs sd n tr s,
  serves zs sd -> zone_loaded sd -> all_short sd ->
  history (ns_returns_udp p zs) (ns_panics_udp p zs) n tr s -> ~ In E_drop tr -> Forall (harmless p) (submitted tr) ->
  panicked tr = [] /\
  ((exists e s', by_worker e = true /\ step (ns_returns_udp p zs) (ns_panics_udp p zs) s e s') \/ Permutation (submitted tr) (returned tr)) /\
  (forall l, exists s', step (ns_returns_udp p zs) (ns_panics_udp p zs) s (E_execute l) s').
Proof.
  intros p zs sd n tr s Hs Hl Hsh H Hd Hh.
  assert (Hr : Forall (ns_returns_udp p zs) (submitted tr)) by (eapply Forall_impl; [|exact Hh]; intros l; eapply harmless_returns; eassumption).
  assert (Ep : panicked tr = []).
  { destruct (panicked tr) as [|l r] eqn:E; [reflexivity|]. exfalso. destruct (outcomes _ _ _ _ _ H) as (_ & P). rewrite E in P. inversion P as [|? ? (k & Pk) _]; subst.
    assert (Hin : In l (submitted tr)) by (eapply panicked_were_submitted; [exact H|]; rewrite E; now left). rewrite Forall_forall in Hr. destruct (Hr l Hin) as (o & C). congruence. }
  pose proof H as (s0 & E0 & _). assert (Hn : 0 < n) by (unfold pool_new in E0; destruct (Nat.ltb_spec 0 n); [assumption|discriminate E0]).
  split; [exact Ep|]. split.
  - destruct (C64_no_deadlock _ _ _ _ _ H) as [A|A]; [eapply Forall_impl; [|exact Hr]; intros l Hx; now left|exact Hd|rewrite Ep; exact Hn|now left|right]. now rewrite Ep, app_nil_r in A.
  - intros l. pose proof (owner_says _ _ _ _ _ H) as (_ & _ & S3 & _ & S5). pose proof (history_inv _ _ _ _ _ H) as (_ & [I1 I2 I3 I4 I5 (js & k & Q1 & Q2 & Q3 & Q4)]).
    destruct s as [q ws b o]. cbn [p_owner p_workers p_queue] in *. rewrite Ep in I5. cbn [length] in I5. pose proof (count_total ws) as T.
    destruct o; try (exfalso; apply Hd; apply S5; discriminate).
    + eexists. apply st_execute. rewrite alive_exists. cbn [owner_inv] in Q4. lia.
    + cbn [owner_inv] in Q4. lia.
Qed.
Print Assumptions C65_harmless_requests_are_served_partial.

(** Its hypotheses are met by a server that has read a query, and then serves it. *)
Theorem C65_partial_nonvacuous : let l := ex_query_bytes (s2b "ns.example.com.") RT_A in
  serves ex_zones ex_data /\ zone_loaded ex_data /\ all_short ex_data /\ harmless Debug l /\
  exists s, history (ns_returns_udp Debug ex_zones) (ns_panics_udp Debug ex_zones) 4 [E_execute l] s /\
  exists e s', by_worker e = true /\ step (ns_returns_udp Debug ex_zones) (ns_panics_udp Debug ex_zones) s e s'.
Proof.
  intros l. destruct C37_partial_nonvacuous as (H1 & H2 & H3 & H4). split; [exact H1|]. split; [exact H2|]. split; [exact H3|].
  split; [left; eexists _, _; exact H4|].
  exists (mkPool ([] ++ [WJob l]) (repeat W_ready 4) false O_open). split.
  - exists (mkPool [] (repeat W_ready 4) false O_open). split; [reflexivity|]. change [E_execute l] with ([] ++ [E_execute l]). eapply runs_more; [constructor|]. apply st_execute. exists W_ready. split; [now left|exact I].
  - eexists _, _. split; [|apply (st_lock _ _ _ [] (repeat W_ready 3)); [|discriminate]]; [reflexivity|]. unfold lock_free. cbn. intuition discriminate.
Qed.
