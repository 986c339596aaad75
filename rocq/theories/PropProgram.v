(** C92: the programs. *)
From Verif Require Import Base Types Name NameSpec PropName Codec CodecSpec CodecWrite CodecMessage PropCodec1 PropCodec2 PropCodec3 Zone ZoneSpec NsSpec NsHandler PropNs EncodeTotal PropNs2
  Tokens TokenSpec Parser LoadSpec PropLoad PropServe ZoneFileSpec ZoneFileTotal ZoneLoadSpec PropZoneLoad Resolver RsHandler Pool Conf PropConf Program ProgramSpec.

(** * Something is due to every question, and only one thing. *)
Lemma sub_or_none : forall sd n, apexes_ok sd -> accepted n -> in_no_sub sd n \/ exists d, first_sub sd n d.
Proof.
  intros [au subs] n (_ & H) Hn. cbn [s_subs] in H. unfold in_no_sub, first_sub. cbn [s_subs]. induction H as [|d subs Hd _ IH]; [left; constructor|].
  destruct (is_in_zone n (d_apex d)) eqn:E.
  - apply within_ok in E; try assumption. right. exists d, [], subs. now repeat split.
  - apply within_false in E; try assumption. destruct IH as [IH|(d' & pre & post & -> & W & F)]; [left; now constructor|].
    right. exists d', (d :: pre), post. repeat split; try assumption. now constructor.
Qed.
Theorem C92_something_is_due : forall sd n t, zone_loaded sd -> accepted n -> exists rc aa ans aus ads, due sd n t rc aa ans aus ads.
Proof.
  intros sd n t (Hap & Hsoa & _) Hn. pose proof Hap as (Ha & _).
  destruct (is_in_zone n (d_apex (s_auth sd))) eqn:E.
  - apply within_ok in E; try assumption. destruct (sub_or_none sd n Hap Hn) as [F|(d & F)].
    + destruct (wanted n t (d_records (s_auth sd))) as [|r rs] eqn:W.
      * destruct (owned (d_apex (s_auth sd)) RT_SOA (d_records (s_auth sd))) as [|soa more] eqn:O; [now contradiction Hsoa|].
        eexists _, _, _, _, _. exact (due_denial sd n t soa more E F W O).
      * eexists _, _, _, _, _. refine (due_answer sd n t E F _). rewrite W. discriminate.
    + eexists _, _, _, _, _. exact (due_referral sd n t d E F).
  - apply within_false in E; try assumption. eexists _, _, _, _, _. exact (due_refusal sd n t E).
Qed.
Print Assumptions C92_something_is_due.
Theorem C92_only_that_is_due : forall sd n t rc aa ans aus ads rc' aa' ans' aus' ads',
  due sd n t rc aa ans aus ads -> due sd n t rc' aa' ans' aus' ads' -> rc = rc' /\ aa = aa' /\ ans = ans' /\ aus = aus' /\ ads = ads'.
Proof.
  intros sd n t rc aa ans aus ads rc' aa' ans' aus' ads' H H'.
  destruct H as [H1|d H1 H2|H1 H2 H3|soa more H1 H2 H3 H4]; inversion H' as [K1|d' K1 K2|K1 K2 K3|soa' more' K1 K2 K3 K4]; subst; try contradiction;
    try (now repeat split); try (exfalso; eapply first_sub_in_some; eassumption).
  - rewrite (first_sub_unique _ _ _ _ H2 K2). now repeat split.
  - rewrite H4 in K4. injection K4 as <- <-. now repeat split.
Qed.
Print Assumptions C92_only_that_is_due.

(** * The reply is the one due. *)
Lemma reply_tc : forall p zs req reply, handle_message p zs req = Done reply -> h_tc (m_header reply) = h_tc (m_header req).
Proof.
  intros p zs req reply E. unfold handle_message in E. destruct (validate_dns_request req) as [q|].
  2:{ injection E as <-. reflexivity. }
  unfold handle_query in E. destruct (index _ _) as [q0| |]; cbn [bind] in E; try discriminate.
  destruct (negb _); [injection E as <-; reflexivity|].
  destruct (find_subzone _ _) as [s|].
  - unfold handle_subzone in E. destruct (zone_get _ _ _ _) as [o| |]; cbn [bind] in E; try discriminate.
    destruct (unwrap o) as [nss| |]; cbn [bind] in E; try discriminate.
    unfold assert_ in E. destruct (0 <? _); [|discriminate].
    destruct (glue_for _ _ _) as [g| |]; cbn [bind] in E; try discriminate.
    injection E as <-. reflexivity.
  - unfold handle_auth_zone in E. destruct (index _ _) as [q1| |]; cbn [bind] in E; try discriminate.
    destruct (zone_get p _ _ (q_type q1)) as [o| |]; cbn [bind] in E; try discriminate.
    destruct (match o with Some v => v | None => [] end); [|injection E as <-; reflexivity].
    destruct (zone_get p _ _ RT_CNAME) as [[c|]| |]; cbn [bind] in E; try discriminate.
    + injection E as <-. reflexivity.
    + destruct (zone_get p _ _ RT_SOA) as [os| |]; cbn [bind] in E; try discriminate.
      destruct (unwrap os) as [soas| |]; cbn [bind] in E; try discriminate.
      destruct (unwrap _) as [soa| |]; cbn [bind] in E; try discriminate.
      unfold handle_nx_err, assert_ in E. destruct (rtype_eqb _ _); [|discriminate]. injection E as <-. reflexivity.
Qed.
Lemma reply_is : forall h q reply rc aa ans aus ads, h_op h = OP_STD -> countable ans aus ads ->
  says reply rc aa ans aus ads -> counts_say reply 1 -> mirrors (query_of h q) reply -> h_tc (m_header reply) = h_tc h ->
  reply = reply_of h q rc aa ans aus ads.
Proof.
  intros h q reply rc aa ans aus ads Ho (C1 & C2 & C3) (S1 & S2 & S3 & S4 & S5) (N1 & N2 & N3 & N4) (M1 & M2 & M3 & M4 & M5 & M6 & M7) T.
  destruct reply as [[id qr op aa' tc rd ra z rc' qd an ns ar] qs l1 l2 l3].
  cbn [m_header m_questions m_answers m_authorities m_additionals h_id h_qr h_op h_aa h_tc h_rd h_ra h_z h_rcode h_qd h_an h_ns h_ar query_of] in *.
  subst. unfold is_u16 in *. rewrite !N.mod_small by assumption. rewrite Ho. reflexivity.
Qed.
Lemma handled : forall p zs sd h q rc aa ans aus ads, serves zs sd -> zone_loaded sd -> query_header h -> accepted (q_node q) ->
  due sd (q_node q) (q_type q) rc aa ans aus ads -> countable ans aus ads ->
  handle_message p zs (query_of h q) = Done (reply_of h q rc aa ans aus ads).
Proof.
  intros p zs sd h q rc aa ans aus ads Hs Hl (Hh & Hqr & Hop & Hqd & Han & Hns & Har) Hn D C.
  assert (V : valid_query (query_of h q) q) by (unfold valid_query, query_of; cbn [m_header m_questions]; now repeat split).
  pose proof Hl as (Hap & _).
  assert (K : forall reply, handle_message p zs (query_of h q) = Done reply -> says reply rc aa ans aus ads -> counts_say reply 1 ->
    mirrors (query_of h q) reply -> handle_message p zs (query_of h q) = Done (reply_of h q rc aa ans aus ads)).
  { intros reply E S1 S2 S3. rewrite E. f_equal. apply reply_is; try assumption. now apply reply_tc in E. }
  destruct D as [H1|d H1 H2|H1 H2 H3|soa more H1 H2 H3 H4].
  - destruct (C29_outside_is_refused p zs sd _ q Hs Hap V Hn H1) as (reply & E & A & B & M). apply (K reply); try assumption. cbn [query_of m_header] in B. now rewrite Hqd in B.
  - destruct (C30_sub_zone_is_delegated p zs sd _ q d Hs Hl V Hn H1 H2) as (reply & E & A & B & M). now apply (K reply).
  - destruct (C31_authoritative_answer p zs sd _ q Hs Hap V Hn H1 H2 H3) as (reply & E & A & B & M). now apply (K reply).
  - destruct (C32_negative_answer p zs sd _ q Hs Hl V Hn H1 H2 H3) as (reply & soa' & O & E & A & B & M). rewrite H4 in O. cbn [hd_error] in O. injection O as <-.
    apply (K reply); try assumption. cbn [query_of m_header] in B. now rewrite Hqd in B.
Qed.

(** Everything due comes from the zones. *)
Lemma owned_in : forall n t rs r, In r (owned n t rs) -> In r rs.
Proof. intros n t rs r H. unfold owned in H. now apply filter_In in H. Qed.
Lemma due_ok : forall sd n t rc aa ans aus ads, all_writable sd -> due sd n t rc aa ans aus ads ->
  Forall record_ok ans /\ Forall record_ok aus /\ Forall record_ok ads.
Proof.
  intros sd n t rc aa ans aus ads (Wa & Ws) D.
  assert (O : forall m k, Forall record_ok (owned m k (d_records (s_auth sd)))).
  { intros m k. apply Forall_forall. intros r Hr. apply owned_in in Hr. rewrite Forall_forall in Wa. now apply Wa. }
  assert (P : forall d m k, In d (s_subs sd) -> Forall record_ok (owned m k (d_records d))).
  { intros d m k Hd. apply Forall_forall. intros r Hr. apply owned_in in Hr. rewrite Forall_forall in Ws. specialize (Ws _ Hd). rewrite Forall_forall in Ws. now apply Ws. }
  destruct D as [H1|d H1 (pre & post & H2 & _)|H1 H2 H3|soa more H1 H2 H3 H4].
  - repeat split; constructor.
  - split; [constructor|]. split; [apply P; rewrite H2; apply in_or_app; right; now left|].
    apply Forall_forall. intros r Hr. apply in_flat_map in Hr as (m & _ & Hr). unfold glue in Hr. apply in_flat_map in Hr as (d' & Hd & Hr).
    specialize (P d' m RT_A Hd). rewrite Forall_forall in P. now apply P.
  - split; [|split; constructor]. unfold wanted. destruct (owned n t (d_records (s_auth sd))) eqn:E; [apply O|]. rewrite <- E. apply O.
  - split; [constructor|]. split; [|constructor]. constructor; [|constructor]. specialize (O (d_apex (s_auth sd)) RT_SOA). rewrite H4 in O. now inversion O.
Qed.

Lemma query_short : forall h q, question_ok q -> length (wire_message (query_of h q)) <= 512.
Proof.
  intros h q (S & _). pose proof (sendable_wire _ S) as (_ & _ & _ & L). unfold wire_message, wire_entries, query_of. cbn [m_header m_questions m_answers m_authorities m_additionals map app concat].
  rewrite !app_length, wire_header_length. unfold wire_question. rewrite !app_length. cbn [length be16]. lia.
Qed.
Lemma query_readable : forall h q, query_header h -> question_ok q -> message_readable (query_of h q).
Proof.
  intros h q (Hh & Hqr & Hop & Hqd & Han & Hns & Har) Hq. unfold message_readable, message_ok, counts_match, query_of. cbn [m_header m_questions m_answers m_authorities m_additionals length].
  rewrite Hqd, Han, Hns, Har. repeat split; try constructor; try assumption; try apply Hh. constructor.
Qed.
Lemma reply_ok : forall h q rc aa ans aus ads, query_header h -> question_ok q -> countable ans aus ads ->
  Forall record_ok ans -> Forall record_ok aus -> Forall record_ok ads -> message_ok (reply_of h q rc aa ans aus ads).
Proof.
  intros h q rc aa ans aus ads ((H1 & H2 & H3 & H4 & H5 & H6) & _) Hq (C1 & C2 & C3) F1 F2 F3. unfold message_ok, header_ok, counts_match, reply_of.
  cbn [m_header m_questions m_answers m_authorities m_additionals h_id h_z h_op h_qd h_an h_ns h_ar length].
  repeat split; try assumption; try (unfold is_u16; lia). constructor; [assumption|constructor].
Qed.

(** The name server's work on a query: over UDP as many records of the reply due as fit into
    512 bytes, over TCP all of it. *)
Theorem C92_what_is_due_is_sent : forall p zs sd h q rc aa ans aus ads rest, serves zs sd -> zone_loaded sd -> all_writable sd ->
  query_header h -> question_ok q -> due sd (q_node q) (q_type q) rc aa ans aus ads -> countable ans aus ads ->
  let reply := reply_of h q rc aa ans aus ads in
  (exists k, serve_udp p zs (wire_message (query_of h q)) = Done (Some (wire_message (keep k reply))) /\ k <= entries_count reply /\
     length (wire_message (keep k reply)) <= 512 /\ (k < entries_count reply -> 512 < length (wire_message (keep (S k) reply)))) /\
  ((N.of_nat (length (wire_message reply)) < 65536)%N ->
   serve_tcp p zs (on_tcp (wire_message (query_of h q)) ++ rest) = Done (Some (on_tcp (wire_message reply)))).
Proof.
  intros p zs sd h q rc aa ans aus ads rest Hs Hl Hw Hh Hq D C reply.
  destruct (due_ok _ _ _ _ _ _ _ _ Hw D) as (F1 & F2 & F3).
  assert (M : message_ok reply) by now apply reply_ok.
  assert (Ac : accepted (q_node q)) by (destruct Hq as ((ls & Hn & _) & _); now exists ls).
  assert (E : decode_message p (wire_message (query_of h q)) = Done (Ok (query_of h q))).
  { rewrite <- (app_nil_r (wire_message _)). rewrite C19_decode_message; [reflexivity|now apply query_readable|constructor]. }
  assert (R : read_message p (wire_message (query_of h q)) = Done (FullMessage (query_of h q))) by now apply read_decoded.
  assert (A : handle_message p zs (query_of h q) = Done reply) by now apply (handled p zs sd).
  split.
  - destruct (C24_maximal_prefix p reply M) as (k & Ek & K1 & K2 & K3 & _). exists k. split; [|now repeat split].
    unfold serve_udp, udp_read. rewrite firstn_all2 by (apply query_short; exact Hq). rewrite R. cbn [bind handle_dns_request]. rewrite A. cbn [bind]. unfold udp_reply. now rewrite Ek.
  - intros L. unfold serve_tcp. rewrite C38_request_framing by (pose proof (query_short h q Hq); lia). rewrite R. cbn [bind handle_dns_request]. rewrite A. cbn [bind].
    now rewrite (C38_reply_framing_partial p reply _ (C19_encode_message p reply M) L).
Qed.
Print Assumptions C92_what_is_due_is_sent.

(** * The programs *)
Lemma conf_params : forall z, accepted (zc_zone z) -> Forall (fun s => accepted (sc_zone s)) (zc_subs z) -> process_zones_confs z = Done (zones_of z).
Proof. intros z Hz Hs. unfold process_zones_confs. rewrite subs_params by exact Hs. cbn [bind]. apply C04_accepted_names in Hz. now rewrite Hz. Qed.
Lemma conf_params_ok : forall z, accepted (zc_zone z) -> Forall (fun s => accepted (sc_zone s)) (zc_subs z) -> conf_typed z -> params_ok (zones_of z).
Proof.
  intros z Hz Hs (T1 & T2 & T3). unfold params_ok, apex_ok, zones_of. cbn [p_zone p_ttl p_subs]. repeat split; try assumption.
  apply Forall_map. rewrite Forall_forall in *. intros s Hi. cbn [sp_zone sp_ttl sp_min]. destruct (T3 s Hi) as (A & B & E). repeat split; try assumption. now apply Hs.
Qed.

(** C92: a name server program started with the path of a good configuration, whose zone
    files are well formed and hold the zones [sd], runs, and sends to every query what is due. *)
Theorem C92_nameserver_program_answers : forall p ip_ok conf_file fs prog path c sd,
  conf_file path = Some c -> ns_conf_fine ip_ok c -> conf_typed (nc_zone c) -> loadable fs (zones_of (nc_zone c)) sd -> all_writable sd ->
  exists zs N, (forall fuel, N <= fuel -> ns_main p ip_ok conf_file fs fuel [prog; path] = Done (P_runs zs (nc_udp c) (nc_tcp c))) /\
  forall h q, query_header h -> question_ok q ->
  exists rc aa ans aus ads, due sd (q_node q) (q_type q) rc aa ans aus ads /\
    (countable ans aus ads ->
     let query := wire_message (query_of h q) in let reply := reply_of h q rc aa ans aus ads in
     (exists k, serve_udp p zs query = Done (Some (wire_message (keep k reply))) /\ k <= entries_count reply /\
        length (wire_message (keep k reply)) <= 512 /\ (k < entries_count reply -> 512 < length (wire_message (keep (S k) reply)))) /\
     (tc_read (nc_tcp c) <> 0%N -> (N.of_nat (length (wire_message reply)) < 65536)%N ->
      tcp_job (nc_tcp c) (serve_tcp p zs) (on_tcp query) = Done (Some (on_tcp (wire_message reply))))).
Proof.
  intros p ip_ok conf_file fs prog path c sd Ec F T L W. pose proof F as (F1 & F2 & F3).
  pose proof (conf_params_ok _ F2 F3 T) as P.
  destruct (C81_well_formed_files_are_loaded p fs _ sd P L) as (zs & N & Hs & E).
  assert (Hl : zone_loaded sd) by exact (C40_C42_give_zone_loaded _ _ _ _ _ _ P (E N (le_n N)) Hs).
  exists zs, N. split.
  - intros fuel Hf. unfold ns_main. rewrite Ec. apply C66_accepted_nameserver_confs in F as (x & ->). rewrite conf_params by assumption. cbn [bind]. rewrite E by exact Hf. reflexivity.
  - intros h q Hh Hq. assert (Ac : accepted (q_node q)) by (destruct Hq as ((ls & Hn & _) & _); now exists ls).
    destruct (C92_something_is_due sd (q_node q) (q_type q) Hl Ac) as (rc & aa & ans & aus & ads & D). exists rc, aa, ans, aus, ads. split; [exact D|].
    intros C. cbv zeta. destruct (C92_what_is_due_is_sent p zs sd h q rc aa ans aus ads [] Hs Hl W Hh Hq D C) as (U & V). split; [exact U|].
    intros Ht Hb. rewrite (C66_tcp_serves_partial ip_ok (nc_udp c)) by assumption. rewrite app_nil_r in V. now apply V.
Qed.
Print Assumptions C92_nameserver_program_answers.

(** It exits with code 1 in all other cases (files as in C43, so that loading ends). *)
Theorem C92_nameserver_program_exits : forall p ip_ok conf_file fs args,
  (forall q f, fs q = Some f -> plain_file f) -> (forall path c, conf_file path = Some c -> conf_typed (nc_zone c)) ->
  (forall q, Acc (fun q q' => includes fs q' q) q) ->
  ((exists N, forall fuel, N <= fuel -> ns_main p ip_ok conf_file fs fuel args = Done (P_exit 1)) <->
   ~ exists prog path c sd, args = [prog; path] /\ conf_file path = Some c /\ ns_conf_fine ip_ok c /\ loadable fs (zones_of (nc_zone c)) sd).
Proof.
  intros p ip_ok conf_file fs args Hp Ht Ha. split.
  - intros (N & E) (prog & path & c & sd & -> & Ec & F & L). pose proof F as (F1 & F2 & F3).
    pose proof (conf_params_ok _ F2 F3 (Ht _ _ Ec)) as P. destruct (C81_well_formed_files_are_loaded p fs _ sd P L) as (zs & N' & _ & E').
    specialize (E (Nat.max N N') ltac:(lia)). specialize (E' (Nat.max N N') ltac:(lia)). unfold ns_main in E. rewrite Ec in E.
    apply C66_accepted_nameserver_confs in F as (x & Fx). rewrite Fx, conf_params in E by assumption. cbn [bind] in E. rewrite E' in E. discriminate E.
  - intros H. assert (K : forall r, (forall fuel, ns_main p ip_ok conf_file fs fuel args = r) -> r = Done (P_exit 1) -> exists N, forall fuel, N <= fuel -> ns_main p ip_ok conf_file fs fuel args = Done (P_exit 1)).
    { intros r E ->. exists 0. intros fuel _. apply E. }
    destruct args as [|prog [|path [|more args]]]; try (apply (K _ (fun _ => eq_refl) eq_refl)).
    unfold ns_main in *. destruct (conf_file path) as [c|] eqn:Ec; [|now exists 0].
    destruct (ns_validate ip_ok c) as [x|e] eqn:Ev; [|now exists 0].
    assert (F : ns_conf_fine ip_ok c) by (apply C66_accepted_nameserver_confs; now exists x). pose proof F as (F1 & F2 & F3).
    rewrite conf_params by assumption. cbn [bind].
    assert (P : params_ok (zones_of (nc_zone c))) by (apply conf_params_ok; [assumption..|]; eapply Ht; exact Ec).
    destruct (proj2 (C81_refused_iff_not_well_formed p fs (zones_of (nc_zone c)) P Hp (Ha _))) as (e & N & E).
    { intros (sd & L). apply H. exists prog, path, c, sd. split; [reflexivity|]. split; [exact Ec|]. split; [exact F|exact L]. }
    exists N. intros fuel Hf. rewrite E by exact Hf. reflexivity.
Qed.
Print Assumptions C92_nameserver_program_exits.

(** The resolver's program runs with the limits configured, following aliases, or exits. *)
Theorem C92_resolver_program : forall ip_ok conf_file args r u t,
  (rs_main ip_ok conf_file args = P_runs r u t <->
   exists prog path c, args = [prog; path] /\ conf_file path = Some c /\ rs_conf_fine ip_ok c /\ u = rc_udp c /\ t = rc_tcp c /\
     max_ns r = rc_max_ns c /\ max_retries r = rc_max_retries c /\ max_cname r = rc_max_cname c /\ no_follow r = false /\ silent r = rc_silent c /\ verbose r = rc_verbose c) /\
  ((forall r u t, rs_main ip_ok conf_file args <> P_runs r u t) -> rs_main ip_ok conf_file args = P_exit 1).
Proof.
  intros ip_ok conf_file args r u t. split.
  - split.
    + intros E. unfold rs_main in E. destruct args as [|prog [|path [|more args]]]; try discriminate E.
      destruct (conf_file path) as [c|] eqn:Ec; [|discriminate E]. destruct (rs_conf_validate ip_ok c) as [x|e] eqn:Ev; [|discriminate E].
      exists prog, path, c. split; [reflexivity|]. split; [exact Ec|]. split; [apply C66_accepted_resolver_confs; now exists x|]. injection E as <- <- <-. now repeat split.
    + intros (prog & path & c & -> & Ec & F & -> & -> & A1 & A2 & A3 & A4 & A5 & A6). unfold rs_main. rewrite Ec. apply C66_accepted_resolver_confs in F as (x & ->).
      unfold resolver_params_of. destruct r as [a b d e f g]. cbn [max_ns max_retries max_cname no_follow silent verbose] in *. now subst.
  - intros H. unfold rs_main in *. destruct args as [|prog [|path [|more args]]]; try reflexivity.
    destruct (conf_file path) as [c|]; [|reflexivity]. destruct (rs_conf_validate ip_ok c); [|reflexivity]. now destruct (H _ _ _ eq_refl).
Qed.
Print Assumptions C92_resolver_program.
