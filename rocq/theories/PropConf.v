(** C66: what an accepted configuration guarantees. *)
From Verif Require Import Base Types Name NameSpec PropName Codec CodecSpec Zone NsSpec NsHandler PropNs Parser LoadSpec Resolver
  RsHandler Pool Conf.

(** The requirements, read off the uses of the values. *)
Definition servers_fine (ip_ok : list N -> bool) (u : udp_conf) (t : tcp_conf) : Prop :=
  ip_ok (uc_address u) = true /\ ip_ok (tc_address t) = true /\
  uc_write u <> 0%N /\ tc_write t <> 0%N /\ 0 < uc_threads u /\ 0 < tc_threads t.
Definition ns_conf_fine (ip_ok : list N -> bool) (c : ns_conf) : Prop :=
  servers_fine ip_ok (nc_udp c) (nc_tcp c) /\ accepted (zc_zone (nc_zone c)) /\ Forall (fun s => accepted (sc_zone s)) (zc_subs (nc_zone c)).
Definition rs_conf_fine (ip_ok : list N -> bool) (c : rs_conf) : Prop :=
  servers_fine ip_ok (rc_udp c) (rc_tcp c) /\ 0 < rc_max_ns c /\ 0 < rc_max_retries c /\ 0 < rc_max_cname c /\
  rc_read c <> 0%N /\ rc_write c <> 0%N /\ rc_clean_period c <> 0%N /\ rc_entries_cleaned c <> 0%N.

Lemma servers_spec : forall ip_ok u t, (exists x, validate_servers ip_ok u t = Ok x) <-> servers_fine ip_ok u t.
Proof.
  intros ip_ok u t. unfold validate_servers, servers_fine.
  destruct (ip_ok (uc_address u)); cbn [negb]; [|split; [intros (x & C); discriminate C|intros (C & _); discriminate C]].
  destruct (N.eqb_spec (uc_write u) 0) as [E1|E1]; [split; [intros (x & C); discriminate C|tauto]|].
  destruct (Nat.eqb_spec (uc_threads u) 0) as [E2|E2]; [split; [intros (x & C); discriminate C|lia]|].
  destruct (ip_ok (tc_address t)); cbn [negb]; [|split; [intros (x & C); discriminate C|intros (_ & C & _); discriminate C]].
  destruct (N.eqb_spec (tc_write t) 0) as [E3|E3]; [split; [intros (x & C); discriminate C|tauto]|].
  destruct (Nat.eqb_spec (tc_threads t) 0) as [E4|E4]; [split; [intros (x & C); discriminate C|lia]|].
  split; [intros _; repeat split; try assumption; lia|]. intros _. now exists tt.
Qed.
Lemma name_ok : forall s, (exists n, name_from_string s = Ok n) <-> accepted s.
Proof.
  intros s. destruct (C04_accepted_names s) as (A & B). split; [intros (n & E); apply A; rewrite E; f_equal; now apply B|]. intros H. exists s. now apply A.
Qed.
Lemma subs_spec : forall l, (exists x, validate_sub_zones l = Ok x) <-> Forall (fun s => accepted (sc_zone s)) l.
Proof.
  induction l as [|s l IH]; [split; [constructor|now exists tt]|]. cbn [validate_sub_zones]. split.
  - destruct (name_from_string (sc_zone s)) as [n|e] eqn:E; [|intros (x & C); discriminate C]. intros H. constructor; [apply name_ok; now exists n|]. now apply IH.
  - intros H. inversion H as [|? ? H1 H2]; subst. apply name_ok in H1 as (n & ->). now apply IH.
Qed.

(** Start-up accepts exactly these configurations. *)
Theorem C66_accepted_nameserver_confs : forall ip_ok c, (exists x, ns_validate ip_ok c = Ok x) <-> ns_conf_fine ip_ok c.
Proof.
  intros ip_ok c. unfold ns_validate, ns_conf_fine. rewrite <- (servers_spec ip_ok (nc_udp c) (nc_tcp c)). destruct (validate_servers ip_ok (nc_udp c) (nc_tcp c)) as [x|e].
  - destruct (name_from_string (zc_zone (nc_zone c))) as [n|e] eqn:E.
    + rewrite subs_spec. split; [intros H; split; [now exists x|]; split; [apply name_ok; now exists n|exact H]|tauto].
    + split; [intros (y & C); discriminate C|]. intros (_ & C & _). apply name_ok in C as (n & C). congruence.
  - split; [intros (y & C); discriminate C|]. intros ((y & C) & _). discriminate C.
Qed.
Print Assumptions C66_accepted_nameserver_confs.
Theorem C66_accepted_resolver_confs : forall ip_ok c, (exists x, rs_conf_validate ip_ok c = Ok x) <-> rs_conf_fine ip_ok c.
Proof.
  intros ip_ok c. unfold rs_conf_validate, rs_conf_fine. rewrite <- (servers_spec ip_ok (rc_udp c) (rc_tcp c)). destruct (validate_servers ip_ok (rc_udp c) (rc_tcp c)) as [x|e].
  2: split; [intros (y & C); discriminate C|]; intros ((y & C) & _); discriminate C.
  destruct (Nat.eqb_spec (rc_max_ns c) 0) as [E1|E1]; [split; [intros (y & C); discriminate C|lia]|].
  destruct (Nat.eqb_spec (rc_max_retries c) 0) as [E2|E2]; [split; [intros (y & C); discriminate C|lia]|].
  destruct (Nat.eqb_spec (rc_max_cname c) 0) as [E3|E3]; [split; [intros (y & C); discriminate C|lia]|].
  destruct (N.eqb_spec (rc_read c) 0) as [E4|E4]; [split; [intros (y & C); discriminate C|tauto]|].
  destruct (N.eqb_spec (rc_write c) 0) as [E5|E5]; cbn [orb]; [split; [intros (y & C); discriminate C|tauto]|].
  destruct (N.eqb_spec (rc_clean_period c) 0) as [E6|E6]; [split; [intros (y & C); discriminate C|tauto]|].
  destruct (N.eqb_spec (rc_entries_cleaned c) 0) as [E7|E7]; [split; [intros (y & C); discriminate C|tauto]|].
  split; [intros _; split; [now exists x|]; repeat split; try assumption; lia|]. intros _. now exists tt.
Qed.
Print Assumptions C66_accepted_resolver_confs.

(** What start-up can rely on. *)
Definition servers_start (u : udp_conf) (t : tcp_conf) : Prop :=
  (exists s, @pool_new (list N) (uc_threads u) = Some s) /\ (exists s, @pool_new (list N) (tc_threads t) = Some s) /\
  setup_listening_socket u = true.
Lemma servers_start_ok : forall ip_ok u t, servers_fine ip_ok u t -> servers_start u t.
Proof.
  intros ip_ok u t (_ & _ & H1 & _ & H2 & H3). unfold servers_start, pool_new, setup_listening_socket, timeout_settable.
  apply Nat.ltb_lt in H2, H3. rewrite H2, H3. split; [eexists; reflexivity|]. split; [eexists; reflexivity|]. now destruct (N.eqb_spec (uc_write u) 0).
Qed.
Lemma subs_params : forall l, Forall (fun s => accepted (sc_zone s)) l ->
  subs_params_of l = Done (map (fun s => mkSubParams (sc_file s) (sc_zone s) (sc_ttl s) (sc_min s)) l).
Proof.
  intros l H. induction H as [|s l Hs _ IH]; [reflexivity|]. cbn [subs_params_of map]. unfold sub_params_of. apply C04_accepted_names in Hs. rewrite Hs. cbn [bind]. now rewrite IH.
Qed.
(** An accepted name server configuration: the thread pools can be made, the listening
    socket set up, and the zones converted without a panic; the loader then gets what C40-C46
    ask for, unless the root is configured as a zone. *)
Theorem C66_nameserver_starts_partial : forall ip_ok c x, ns_validate ip_ok c = Ok x ->
  servers_start (nc_udp c) (nc_tcp c) /\
  exists prm, process_zones_confs (nc_zone c) = Done prm /\ p_zone prm = zc_zone (nc_zone c) /\ p_path prm = zc_file (nc_zone c) /\
    p_ttl prm = zc_ttl (nc_zone c) /\ map sp_zone (p_subs prm) = map sc_zone (zc_subs (nc_zone c)) /\
    map sp_path (p_subs prm) = map sc_file (zc_subs (nc_zone c)) /\ map sp_ttl (p_subs prm) = map sc_ttl (zc_subs (nc_zone c)) /\
    map sp_min (p_subs prm) = map sc_min (zc_subs (nc_zone c)) /\
    ((is_u32 (zc_ttl (nc_zone c)) /\ Forall (fun s => is_u32 (sc_ttl s) /\ is_u32 (sc_min s)) (zc_subs (nc_zone c))) ->
     zc_zone (nc_zone c) <> [46%N] -> Forall (fun s => sc_zone s <> [46%N]) (zc_subs (nc_zone c)) -> params_ok prm).
Proof.
  intros ip_ok c x E. assert (F : ns_conf_fine ip_ok c) by (apply C66_accepted_nameserver_confs; now exists x). destruct F as (F1 & F2 & F3).
  split; [now apply servers_start_ok in F1|]. unfold process_zones_confs. rewrite subs_params by exact F3. cbn [bind]. pose proof F2 as F2'. apply C04_accepted_names in F2'. rewrite F2'.
  eexists. split; [reflexivity|]. cbn [p_zone p_path p_ttl p_subs]. repeat (split; [reflexivity|]). do 4 (split; [rewrite map_map; reflexivity|]).
  intros (T1 & T2) Hr Hs. split; [split; assumption|]. split; [exact T1|]. cbn [p_subs]. apply Forall_map. rewrite Forall_forall in *. intros s Hi. cbn [sp_zone sp_ttl sp_min p_subs] in *.
  split; [split; [now apply F3|now apply Hs]|]. now apply T2.
Qed.
Print Assumptions C66_nameserver_starts_partial.
(** An accepted resolver configuration gives the limits C70 asks for: those configured,
    with aliases followed. *)
Theorem C66_resolver_starts_partial : forall ip_ok c x, rs_conf_validate ip_ok c = Ok x ->
  servers_start (rc_udp c) (rc_tcp c) /\
  let r := resolver_params_of c in
  max_ns r = rc_max_ns c /\ max_retries r = rc_max_retries c /\ max_cname r = rc_max_cname c /\ no_follow r = false /\
  silent r = rc_silent c /\ verbose r = rc_verbose c /\
  0 < max_ns r /\ 0 < max_retries r /\ 0 < max_cname r /\ timeout_settable (rc_read c) = true /\ timeout_settable (rc_write c) = true.
Proof.
  intros ip_ok c x E. assert (F : rs_conf_fine ip_ok c) by (apply C66_accepted_resolver_confs; now exists x). destruct F as (F1 & F2 & F3 & F4 & F5 & F6 & _).
  split; [now apply servers_start_ok in F1|]. cbn. unfold timeout_settable. repeat (split; [first [assumption|reflexivity]|]). split; [now destruct (N.eqb_spec (rc_read c) 0)|now destruct (N.eqb_spec (rc_write c) 0)].
Qed.
Print Assumptions C66_resolver_starts_partial.
(** With a read timeout the TCP server serves its connections ... *)
Theorem C66_tcp_serves_partial : forall ip_ok u t serve stream, servers_fine ip_ok u t -> tc_read t <> 0%N -> tcp_job t serve stream = serve stream.
Proof.
  intros ip_ok u t serve stream (_ & _ & _ & H & _) Hr. unfold tcp_job, setup_connection, timeout_settable.
  destruct (N.eqb_spec (tc_read t) 0); [easy|]. destruct (N.eqb_spec (tc_write t) 0); [easy|]. reflexivity.
Qed.
Print Assumptions C66_tcp_serves_partial.
(** ... but without one, which is accepted as well, it drops every connection unanswered:
    C66 is refuted. *)
Theorem C66_refuted_read_timeout : forall t serve stream, tc_read t = 0%N -> tcp_job t serve stream = Done None.
Proof. intros t serve stream E. unfold tcp_job, setup_connection, timeout_settable. now rewrite E. Qed.
Definition conf_no_read (a : list N) : ns_conf :=
  mkNsConf (mkUdpConf a 53 1 4) (mkTcpConf a 53 0 1 4) (mkZoneConf 3600 (s2b "example.com.") (s2b "main") [mkSubZoneConf 3600 60 (s2b "sub.example.com.") (s2b "sub")]).
Definition conf_no_read_rs (a : list N) : rs_conf := mkRsConf (mkUdpConf a 53 1 4) (mkTcpConf a 53 0 1 4) 10 3 5 2 2 30 100 true false false.
Theorem C66_refuted_witness : forall (ip_ok : list N -> bool) a, ip_ok a = true ->
  ns_validate ip_ok (conf_no_read a) = Ok tt /\ tc_read (nc_tcp (conf_no_read a)) = 0%N /\
  rs_conf_validate ip_ok (conf_no_read_rs a) = Ok tt /\ tc_read (rc_tcp (conf_no_read_rs a)) = 0%N.
Proof.
  intros ip_ok a H. unfold ns_validate, rs_conf_validate, validate_servers. cbn [conf_no_read conf_no_read_rs nc_udp nc_tcp rc_udp rc_tcp uc_address tc_address]. rewrite H. cbn [negb]. repeat split.
Qed.
(** The root is accepted as a zone, and a server of the root zone refuses every other name. *)
Theorem C66_refuted_root_zone : forall p zs sd req q, serves zs sd -> d_apex (s_auth sd) = [46%N] -> valid_query req q ->
  accepted (q_node q) -> q_node q <> [46%N] ->
  exists reply, handle_message p zs req = Done reply /\ says reply RC_Refused true [] [] [].
Proof.
  intros p zs sd req q ((Hz & _) & _) Ha Hv Hq Hne. rewrite (handle_valid _ _ _ _ Hv). unfold handle_query. pose proof Hv as (_ & _ & _ & Eq). rewrite Eq. cbn [index nth_error bind].
  destruct (is_in_zone (q_node q) (z_zone (auth_zone zs))) eqn:E.
  - rewrite Hz, Ha in E. apply C12_refuted_root_zone_contains_only_root in E; [|exact Hq]. contradiction.
  - cbn [negb]. eexists. split; [reflexivity|]. now repeat split.
Qed.
Print Assumptions C66_refuted_root_zone.
Theorem C66_refuted_root_witness : forall (ip_ok : list N -> bool) a, ip_ok a = true ->
  ns_validate ip_ok (mkNsConf (mkUdpConf a 53 1 4) (mkTcpConf a 53 1 1 4) (mkZoneConf 3600 [46%N] (s2b "main") [])) = Ok tt.
Proof. intros ip_ok a H. unfold ns_validate, validate_servers. cbn [nc_udp nc_tcp uc_address tc_address]. now rewrite H. Qed.
(** The hypotheses are met. *)
Theorem C66_nonvacuous : forall (ip_ok : list N -> bool) a, ip_ok a = true ->
  let c := conf_no_read a in ns_validate ip_ok c = Ok tt /\ ns_conf_fine ip_ok c /\ zc_zone (nc_zone c) <> [46%N] /\
  Forall (fun s => sc_zone s <> [46%N]) (zc_subs (nc_zone c)).
Proof.
  intros ip_ok a H c. destruct (C66_refuted_witness ip_ok a H) as (E & _). split; [exact E|]. split; [apply C66_accepted_nameserver_confs; now exists tt|]. split; [discriminate|]. repeat constructor. discriminate.
Qed.
