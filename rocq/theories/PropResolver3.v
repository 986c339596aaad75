(** C60-C62: what is believed, panics, traces. *)
From Verif Require Import Base Types Name NameSpec NameProofs Codec CodecSpec CodecWrite CodecMessage EncodeTotal PropCodec3 NsSpec Cache Resolver ResolverLists ResolverSpec ResolverInv ResolverRun ResolverFacts ResolverFuel ResolverEx PropResolver1 PropResolver2.

(** * C60 *)
(** The query of a name, as bytes: the id, recursion not desired, one question. *)
Definition query_header (id : N) : list N := be16 id ++ [0; 0; 0; 1; 0; 0; 0; 0; 0; 0]%N.

Lemma query_bytes : forall p id node kind, is_u16 id -> accepted node -> usable_type kind ->
  exists w, encode_message p (build_dns_request id node kind) = Done (Ok (query_header id ++ w)) /\
    (sendable node -> w = wire_question (mkQ node kind C_IN)).
Proof.
  intros p id node kind Hi Hn Hk. set (q := mkQ node kind C_IN).
  assert (Ho : exists w, question_outcome p q = Done (Ok w)).
  { unfold question_outcome. cbn [q q_class class_supported q_type q_node].
    replace (supported_for_question kind) with true by (symmetry; now apply usable_supported).
    rewrite accepted_debug by assumption. do 2 apply prefix_ok. eexists. reflexivity. }
  destruct Ho as (w & Ho). exists w. split.
  2:{ intros Hs. destruct (question_outcome_ok p q) as (E & _); [now repeat split|]. congruence. }
  unfold encode_message, build_dns_request. cbn [m_header m_questions m_answers m_authorities m_additionals h_qd h_an h_ns h_ar]. fold q.
  rewrite encode_header_new_raw by reflexivity. cbn [bind].
  rewrite raw_header_wire by (repeat split; cbn; unfold is_u16 in *; lia).
  change (N.to_nat 1) with 1. change (N.to_nat 0) with 0.
  assert (Hb : is_bytes (query_header id)).
  { unfold query_header. apply is_bytes_app. split; [now apply be16_bytes|]. repeat (constructor; [unfold is_byte; lia|]). constructor. }
  change (wire_header _) with (query_header id).
  erewrite (encode_section_ok (encode_question p) ME_Question (question_outcome p) [q]) with (wire := fun _ => w).
  - cbn [bindR bind encode_section skipn firstn map concat]. rewrite app_nil_r. reflexivity.
  - constructor; [|constructor]. apply appends_question. now apply accepted_bytes.
  - exact Hb.
  - lia.
  - constructor; [exact Ho|constructor].
  - cbn. lia.
Qed.

(** A response is only used if it is a packet that came in during that try, decoded, and
    carries the id that was sent. *)
Lemma send_used : forall p env node kind s w, is_u16 (ev_id (env (w_n w))) -> accepted node -> usable_type kind ->
  match send_query p env node kind s w with
  | (Done (Ok m), w') => exists addr q d,
      w_sent w' = (addr, query_header (ev_id (env (w_n w))) ++ q) :: w_sent w /\
      ev_net (env (w_n w)) addr (query_header (ev_id (env (w_n w))) ++ q) = Some d /\ decode_message p (firstn 512 d) = Done (Ok m) /\ h_id (m_header m) = ev_id (env (w_n w))
  | _ => True
  end.
Proof.
  intros p env node kind s w Hi Hn Hk. unfold send_query. destruct (query_bytes p (ev_id (env (w_n w))) node kind Hi Hn Hk) as (q & Eq & _). rewrite Eq.
  destruct (ns_addrs s) as [[|a l]|k|]; try exact I. destruct (ev_net (env (w_n w)) a (query_header (ev_id (env (w_n w))) ++ q)) as [d|] eqn:En; [|exact I].
  change MAX_UDP_LEN_BYTES with 512. destruct (decode_message p (firstn 512 d)) as [[m|e]|k|] eqn:Ed; try exact I.
  destruct (N.eqb_spec (h_id (m_header m)) (ev_id (env (w_n w)))) as [Ei|Ei]; [|exact I].
  exists a, q, d. repeat split; assumption.
Qed.
Theorem C60_only_responses_with_the_id_partial : forall p env node kind s w m w',
  is_u16 (ev_id (env (w_n w))) -> accepted node -> usable_type kind ->
  send_query p env node kind s w = (Done (Ok m), w') ->
  exists addr q d,
    w_sent w' = (addr, query_header (ev_id (env (w_n w))) ++ q) :: w_sent w /\
    ev_net (env (w_n w)) addr (query_header (ev_id (env (w_n w))) ++ q) = Some d /\ decode_message p (firstn 512 d) = Done (Ok m) /\ h_id (m_header m) = ev_id (env (w_n w)).
Proof. intros p env node kind s w m w' Hi Hn Hk E. pose proof (send_used p env node kind s w Hi Hn Hk) as H. rewrite E in H. exact H. Qed.
Print Assumptions C60_only_responses_with_the_id_partial.

(** Where a record comes from, TTLs aside: it was [known] before (the cache, other
    threads), it is one of the built-in root servers', or a packet carrying the id of the
    query sent brought it. *)
Definition from_the_net (p : profile) (env : environment) (r : record) : Prop :=
  exists n a x d m, ev_net (env n) a x = Some d /\ decode_message p (firstn 512 d) = Done (Ok m) /\ h_id (m_header m) = ev_id (env n) /\ In r (all_records m).
Definition origin (p : profile) (env : environment) (known : record -> Prop) (r : record) : Prop :=
  exists r0 t, r = set_ttl r0 t /\
    (known r0 \/ (exists s, In s root_zone_nameservers /\ (r0 = n_rec s \/ In r0 (n_addrs s))) \/ from_the_net p env r0).
Definition traced_record (p : profile) (env : environment) (known : record -> Prop) (r : record) : Prop := plain_record r /\ origin p env known r.

Lemma set_own_ttl : forall r, r = set_ttl r (r_ttl r). Proof. now intros []. Qed.
Lemma traced_class : forall p env known, (forall n a x d, ev_net (env n) a x = Some d -> is_bytes d) -> class_ok p env (traced_record p env known).
Proof.
  intros p env known Hb. destruct (plain_is_a_class p env Hb) as [C1 C2 C3 C4]. split.
  - intros r (H & _). now apply C1.
  - intros r t (H & r0 & t0 & -> & H0) Ht. split; [exact (C2 _ t H Ht)|]. exists r0, t. split; [reflexivity|exact H0].
  - rewrite Forall_forall in C3 |- *. intros s Hs. destruct (C3 s Hs) as (A & B). split.
    + split; [exact A|]. exists (n_rec s), (r_ttl (n_rec s)). split; [apply set_own_ttl|]. right. left. exists s. split; [exact Hs|now left].
    + rewrite Forall_forall in *. intros r Hr. split; [now apply B|]. exists r, (r_ttl r). split; [apply set_own_ttl|]. right. left. exists s. split; [exact Hs|now right].
  - intros n a x d m En Ed Ei. pose proof (C4 n a x d m En Ed Ei) as H. rewrite Forall_forall in *. intros r Hr. split; [now apply H|].
    exists r, (r_ttl r). split; [apply set_own_ttl|]. right. right. now exists n, a, x, d, m.
Qed.

(** Every record of every answer, and every record in the cache when the lookup ends (or
    panics), has such an origin. Missing from C60: that the server that sent it may speak
    for its owner, see [C60_refuted_poisoning]. *)
Theorem C60_every_record_has_an_origin_partial : forall p env known conf node kind w fuel,
  env_ok (traced_record p env known) env -> cache_ok (traced_record p env known) (ev_now (env (w_n w))) (w_cache w) ->
  accepted node -> usable_type kind ->
  let '(r, (_, w')) := perform p env fuel (new_lookup conf node kind, w) in
  (forall k exp rs, c_data (w_cache w') k = Some (exp, rs) -> Forall (origin p env known) rs) /\
  (forall x, r = Done (Ok x) -> Forall (origin p env known) (x_answers x ++ x_authorities x ++ x_additionals x)).
Proof.
  intros p env known conf node kind w fuel EO Hw Hn Hk.
  destruct finitely_many_names as (U & HU).
  pose proof (run_class p env (traced_record p env known) (fun _ => True) False False conf node kind w fuel U EO (traced_class p env known (eo_bytes _ _ EO)) ltac:(intros n _ a x d m _ _ _ _ _ nd kd _ _ _ _; exact I) Hw Hn Hk ltac:(tauto) ltac:(tauto) ltac:(tauto) HU ltac:(tauto)) as R.
  destruct (perform p env fuel (new_lookup conf node kind, w)) as [r [l w']].
  assert (C : cache_ok (traced_record p env known) (ev_now (env (w_n w'))) (w_cache w')) by (destruct r as [r|k|]; cbn [okL snd] in R; tauto).
  split.
  - intros k exp rs H. apply C in H as (_ & H & _). eapply Forall_impl; [|exact H]. now intros a (_ & Ha).
  - intros x ->. cbn [okL] in R. destruct R as (_ & R). destruct R as (cs & last & rs & _ & _ & _ & _ & _ & H & _).
    eapply Forall_impl; [|exact H]. now intros a (_ & Ha).
Qed.
Print Assumptions C60_every_record_has_an_origin_partial.

(** Refutation: a root server delegates "evil." to 6.6.6.1, which delegates "x.evil." to
    the server www.bank.org. and sends its own idea of that server's address along. The
    address goes into the cache: a later lookup of www.bank.org. is answered with it, and
    no packet is sent for it. *)
Definition env_evil : environment :=
  script (at_event 5 (packet RC_NoError false [] [rec_ (s2b "evil.") 60 (D_NS (s2b "ns.evil."))] [rec_ (s2b "ns.evil.") 60 (D_A [6; 6; 6; 1]%N)])
         (at_event 8 (packet RC_NoError false [] [rec_ (s2b "x.evil.") 60 (D_NS (s2b "www.bank.org."))] [rec_ (s2b "www.bank.org.") 60 (D_A [6; 6; 6; 6]%N)])
          silence)).
Lemma env_evil_ok : env_ok plain_record env_evil.
Proof. apply script_ok. repeat (apply script_bytes; [apply checked_bytes; vm_compute; reflexivity|]). apply silence_bytes. Qed.
Theorem C60_refuted_poisoning : env_ok plain_record env_evil /\
  let '(_, (_, w)) := perform Release env_evil 6 (new_lookup conf0 (s2b "a.x.evil.") RT_A, world0) in
  map fst (rev (w_sent w)) = [[198; 41; 0; 4]; [6; 6; 6; 1]; [6; 6; 6; 6]; [6; 6; 6; 6]]%N /\
  let '(r, (_, w')) := perform Release env_evil 6 (new_lookup conf0 (s2b "www.bank.org.") RT_A, w) in
  w_sent w' = w_sent w /\
  exists x, r = Done (Ok x) /\ map (fun r => (r_node r, r_ttl r, r_data r)) (x_answers x) = [(s2b "www.bank.org.", 60%N, D_A [6; 6; 6; 6]%N)].
Proof. split; [exact env_evil_ok|]. vm_compute. repeat split. eexists. split; reflexivity. Qed.
Print Assumptions C60_refuted_poisoning.

(** Both theorems above apply to that run. *)
Theorem C60_nonvacuous : is_u16 (ev_id (env_evil (w_n world0))) /\ accepted (s2b "a.x.evil.") /\ usable_type RT_A /\ env_ok (traced_record Release env_evil (fun _ => False)) env_evil /\ cache_ok (traced_record Release env_evil (fun _ => False)) 0 (w_cache world0) /\ exists m w', send_query Release env_evil (s2b "a.x.evil.") RT_A (mkNs (rec_ [46]%N 60 (D_NS (s2b "ns."))) [rec_ (s2b "ns.") 60 (D_A [6; 6; 6; 1]%N)]) (mkWorld cache_new 5 []) = (Done (Ok m), w').
Proof.
  split; [unfold is_u16; cbn; lia|]. split; [apply checked_accepted; vm_compute; reflexivity|]. split; [unfold usable_type; tauto|].
  split; [|split; [apply world0_ok|]].
  - destruct env_evil_ok as [A B C D _]. split; try assumption. intros n c Hc. exact Hc.
  - eexists _, _. vm_compute. reflexivity.
Qed.
Print Assumptions C60_nonvacuous.

(** * C61 *)
(** Records that make no denied name a name server. *)
Definition serving (denied : name -> Prop) (r : record) : Prop := plain_record r /\ forall t, r_data r = D_NS t -> ~ denied t.
Lemma serving_class : forall p env denied, (forall n a x d, ev_net (env n) a x = Some d -> is_bytes d) ->
  (forall n a x d m r t, ev_net (env n) a x = Some d -> decode_message p (firstn 512 d) = Done (Ok m) -> h_id (m_header m) = ev_id (env n) ->
     In r (all_records m) -> r_data r = D_NS t -> ~ denied t) ->
  (forall s, In s ROOT_SERVERS -> ~ denied (fst s)) ->
  class_ok p env (serving denied).
Proof.
  intros p env denied Hb Hn Hr. destruct (plain_is_a_class p env Hb) as [C1 C2 C3 C4]. split.
  - intros r (H & _). now apply C1.
  - intros r t (H & H0) Ht. split; [exact (C2 _ t H Ht)|]. exact H0.
  - rewrite Forall_forall in C3 |- *. intros s Hs. destruct (C3 s Hs) as (A & B). unfold root_zone_nameservers in Hs. apply in_map_iff in Hs as (x & <- & Hx). split.
    + split; [exact A|]. cbn [n_rec r_data]. intros t Et. assert (X : t = fst x) by congruence. rewrite X. now apply Hr.
    + cbn [n_addrs] in *. constructor; [|constructor]. inversion B; subst. split; [assumption|]. discriminate.
  - intros n a x d m En Ed Ei. pose proof (C4 n a x d m En Ed Ei) as H. rewrite Forall_forall in *. intros r Hin. split; [now apply H|].
    intros t Et. exact (Hn n a x d m r t En Ed Ei Hin Et).
Qed.

(** What is missing: the causes excluded here, which do make lookups panic (below). *)
Theorem C61_calm_lookups_do_not_panic_partial : forall p env (denied : name -> Prop) conf node kind w fuel,
  env_ok (serving denied) env -> cache_ok (serving denied) (ev_now (env (w_n w))) (w_cache w) -> accepted node -> usable_type kind ->
  0 < max_ns conf -> 0 < max_retries conf ->
  (* decoding a packet does not panic *)
  (forall n a x d k, ev_net (env n) a x = Some d -> decode_message p (firstn 512 d) <> Panic k) ->
  (* packets say with authority that a name does not exist only of denied names *)
  (forall n a x d m, ev_net (env n) a x = Some d -> decode_message p (firstn 512 d) = Done (Ok m) -> h_id (m_header m) = ev_id (env n) ->
     h_rcode (m_header m) = RC_NxDomain -> h_aa (m_header m) = true ->
     forall name type, encode_message p (build_dns_request (ev_id (env n)) name type) = Done (Ok x) -> denied name) ->
  (* and denied names are not the names of name servers *)
  (forall n a x d m r t, ev_net (env n) a x = Some d -> decode_message p (firstn 512 d) = Done (Ok m) -> h_id (m_header m) = ev_id (env n) ->
     In r (all_records m) -> r_data r = D_NS t -> ~ denied t) ->
  (forall s, In s ROOT_SERVERS -> ~ denied (fst s)) ->
  (* using the cache takes less than a second *)
  (forall n, (ev_now' (env n) < ev_now (env n) + SECOND)%N) ->
  forall k, fst (perform p env fuel (new_lookup conf node kind, w)) <> Panic k.
Proof.
  intros p env denied conf node kind w fuel EO Hw Hn Hk H1 H2 Hd Hx Hns Hr Ht k. destruct finitely_many_names as (U & HU).
  assert (Q : quiet p env (serving denied) denied).
  { split; [|split]; [| |exact Ht].
    - intros n a x d E k'. exact (Hd n a x d k' E).
    - intros r n (_ & G) E. exact (G n E). }
  assert (HD : denials p env denied 0 (fun _ _ => True)) by (intros n _ a x d m E1 E2 E3 E4 E5 nd kd E6 _ _ _; exact (Hx n a x d m E1 E2 E3 E4 E5 nd kd E6)).
  pose proof (run_class p env (serving denied) denied True False conf node kind w fuel U EO (serving_class p env denied (eo_bytes _ _ EO) Hns Hr) HD Hw Hn Hk (fun _ => Q) (fun _ => conj H1 H2) ltac:(tauto) HU ltac:(tauto)) as R.
  destruct (perform p env fuel (new_lookup conf node kind, w)) as [[r|k'|] s']; cbn [fst okL] in *; try discriminate. tauto.
Qed.
Print Assumptions C61_calm_lookups_do_not_panic_partial.

(** Servers that deny "nope.org." and otherwise delegate "org." *)
Definition nope_query : list N := match encode_message Release (build_dns_request 7 (s2b "nope.org.") RT_A) with Done (Ok x) => x | _ => [] end.
Definition org_packet : list N := packet RC_NoError false [] [rec_ (s2b "org.") 60 (D_NS (s2b "ns.org."))] [rec_ (s2b "ns.org.") 60 (D_A [9; 9; 9; 9]%N)].
Definition nope_packet : list N := packet RC_NxDomain true [] [] [].
Definition env_nope : environment := fun _ => mkEv 0 0 (fun c => c) 7 (fun a x =>
  if (hd 0 a =? 9)%N then (if bytes_eqb x nope_query then Some nope_packet else None) else Some org_packet).
Definition nope_denied (n : name) : Prop := exists t, encode_message Release (build_dns_request 7 n t) = Done (Ok nope_query).
Lemma env_nope_net : forall n a x d, ev_net (env_nope n) a x = Some d -> (d = nope_packet /\ x = nope_query) \/ d = org_packet.
Proof.
  intros n a x d. unfold env_nope. cbn [ev_net]. destruct (hd 0%N a =? 9)%N; [|intros E; right; congruence].
  destruct (bytes_eqb x nope_query) eqn:E; [|discriminate]. intros E'. left. split; [congruence|]. now apply bytes_eqb_eq.
Qed.
Theorem C61_nonvacuous : env_ok (serving nope_denied) env_nope /\ 0 < max_ns conf0 /\ 0 < max_retries conf0 /\
  (forall n a x d k, ev_net (env_nope n) a x = Some d -> decode_message Release (firstn 512 d) <> Panic k) /\
  (forall n a x d m, ev_net (env_nope n) a x = Some d -> decode_message Release (firstn 512 d) = Done (Ok m) -> h_id (m_header m) = ev_id (env_nope n) ->
     h_rcode (m_header m) = RC_NxDomain -> h_aa (m_header m) = true ->
     forall name type, encode_message Release (build_dns_request (ev_id (env_nope n)) name type) = Done (Ok x) -> nope_denied name) /\
  (forall n a x d m r t, ev_net (env_nope n) a x = Some d -> decode_message Release (firstn 512 d) = Done (Ok m) -> h_id (m_header m) = ev_id (env_nope n) ->
     In r (all_records m) -> r_data r = D_NS t -> ~ nope_denied t) /\
  (forall s, In s ROOT_SERVERS -> ~ nope_denied (fst s)) /\
  (forall n, (ev_now' (env_nope n) < ev_now (env_nope n) + SECOND)%N) /\
  (* the lookup ends without an answer: the name does not exist *)
  exists l w, perform Release env_nope 6 (new_lookup conf0 (s2b "nope.org.") RT_A, world0) = (Done (Ok (mkResp [] [] [] true)), (l, w)) /\ length (w_sent w) = 2.
Proof.
  assert (Mo : exists m, decode_message Release (firstn 512 org_packet) = Done (Ok m) /\ h_rcode (m_header m) = RC_NoError /\ forall r t, In r (all_records m) -> r_data r = D_NS t -> t = s2b "ns.org.").
  { eexists. split; [vm_compute; reflexivity|]. split; [reflexivity|]. intros r t Hin E. unfold all_records in Hin. cbn in Hin.
    destruct Hin as [<- | [<- | []]]; cbn [r_data] in E; [|discriminate]. injection E as <-. reflexivity. }
  assert (Mn : exists m, decode_message Release (firstn 512 nope_packet) = Done (Ok m) /\ all_records m = []).
  { eexists. split; vm_compute; reflexivity. }
  destruct Mo as (mo & Eo & Ro & No). destruct Mn as (mn & En & Nn).
  split.
  { split; cbn [env_nope ev_now ev_now' ev_id ev_others].
    - intros _. split; lia.
    - intros _. vm_compute. reflexivity.
    - intros n a x d E. apply env_nope_net in E as [(-> & _)| ->]; apply checked_bytes; vm_compute; reflexivity.
    - intros _. unfold is_u16. lia.
    - intros _ c Hc. exact Hc. }
  split; [cbn; lia|]. split; [cbn; lia|].
  assert (Nd : forall n, forallb (fun t => match encode_message Release (build_dns_request 7 n t) with Done (Ok x) => negb (bytes_eqb x nope_query) | _ => true end)
            [RT_A; RT_NS; RT_MD; RT_MF; RT_CNAME; RT_SOA; RT_MB; RT_MG; RT_MR; RT_NULL; RT_WKS; RT_PTR; RT_HINFO; RT_MINFO; RT_MX; RT_TXT; RT_AXFR; RT_MAILB; RT_MAILA; RT_WC] = true -> ~ nope_denied n).
  { intros n H (t & E). rewrite forallb_forall in H. specialize (H t ltac:(destruct t; cbn; tauto)). rewrite E, bytes_eqb_refl in H. cbn [negb] in H. discriminate H. }
  split; [|split; [|split; [|split; [|split]]]].
  - intros n a x d k E. apply env_nope_net in E as [(-> & _)| ->]; congruence.
  - intros n a x d m E Ed _ Rc _ name type Ex. apply env_nope_net in E as [(-> & ->)| ->].
    + exists type. exact Ex.
    + assert (X : m = mo) by congruence. rewrite X, Ro in Rc. discriminate Rc.
  - intros n a x d m r t E Ed _ Hin Et. apply env_nope_net in E as [(-> & ->)| ->].
    + assert (X : m = mn) by congruence. rewrite X, Nn in Hin. destruct Hin.
    + assert (X : m = mo) by congruence. rewrite X in Hin. rewrite (No r t Hin Et). apply Nd. vm_compute. reflexivity.
  - assert (F : Forall (fun s => ~ nope_denied (fst s)) ROOT_SERVERS) by (unfold ROOT_SERVERS; repeat (constructor; [apply Nd; vm_compute; reflexivity|]); constructor).
    rewrite Forall_forall in F. exact F.
  - intros n. reflexivity.
  - eexists _, _. split; vm_compute; reflexivity.
Qed.
Print Assumptions C61_nonvacuous.

(** Refutation 1: a root server delegates "x." to the server ns.y. without an address; asked
    for ns.y., the root says there is no such name. The lookup of www.x. panics. *)
Definition env_nx : environment :=
  script (at_event 4 (packet RC_NoError false [] [rec_ (s2b "x.") 60 (D_NS (s2b "ns.y."))] [])
         (at_event 10 (packet RC_NxDomain true [] [] []) silence)).
Lemma env_nx_ok : env_ok plain_record env_nx.
Proof. apply script_ok. repeat (apply script_bytes; [apply checked_bytes; vm_compute; reflexivity|]). apply silence_bytes. Qed.
Theorem C61_refuted_server_without_address : env_ok plain_record env_nx /\
  fst (perform Release env_nx 6 (new_lookup conf0 (s2b "www.x.") RT_A, world0)) = Panic PUnwrap.
Proof. split; [exact env_nx_ok|]. vm_compute. reflexivity. Qed.
Print Assumptions C61_refuted_server_without_address.

(** Refutation 2: one packet of 18 bytes from the first server asked (no matching id
    needed). *)
Definition env_bad : environment := script (fun _ => Some pkt_bad_pointer).
Theorem C61_refuted_bad_packet : env_ok plain_record env_bad /\
  forall p, fst (perform p env_bad 6 (new_lookup conf0 (s2b "www.x.") RT_A, world0)) = Panic PExplicit.
Proof.
  split.
  - apply script_ok. intros n d E. assert (X : d = pkt_bad_pointer) by congruence. rewrite X. apply checked_bytes. vm_compute. reflexivity.
  - intros []; vm_compute; reflexivity.
Qed.
Print Assumptions C61_refuted_bad_packet.

(** Refutation 3: the clock is read, two seconds pass while another thread stores a record
    with the highest TTL, and the cache is asked then. *)
Definition env_overflow : environment :=
  fun n => mkEv (N.of_nat n * 2000000000) (N.of_nat (S n) * 2000000000)
    (fun c => mkCache (upd rkey_eqb (c_data c) (s2b "a.", RT_A) (Some (N.of_nat (S n) * 2000000000 + 4294967295 * SECOND, [set_ttl ex_a 4294967295])%N)) (c_poisoned c)) 7 (fun _ _ => None).
Theorem C61_refuted_ttl_overflow :
  fst (perform Release env_overflow 6 (new_lookup conf0 (s2b "a.") RT_A, world0)) = Panic PUnwrap.
Proof. vm_compute. reflexivity. Qed.
Print Assumptions C61_refuted_ttl_overflow.

(** * C62 *)
(** Traces without text: nothing but nested empty traces. *)
Fixpoint blank (t : tline) : bool := match t with T_sub l => forallb blank l | _ => false end.
Definition hush (s : lookup * world) : Prop := silent (l_conf (fst s)) = true /\ forallb blank (l_trace (fst s)) = true.
Definition hushed {A} (m : L A) : Prop := forall s, hush s -> hush (snd (m s)).
Lemma hushed_bind : forall A B (m : L A) (k : A -> L B), hushed m -> (forall a, hushed (k a)) -> hushed (lbind m k).
Proof.
  intros A B m k Hm Hk s H. unfold lbind. specialize (Hm s H). destruct (m s) as [[a|q|] s']; cbn [snd] in *; try exact Hm. exact (Hk a s' Hm).
Qed.
Lemma hushed_ret : forall A (a : A), hushed (lret a). Proof. intros A a s H. exact H. Qed.
Lemma hushed_exec : forall A (a : exec A), hushed (lexec a). Proof. intros A a s H. exact H. Qed.
Lemma hushed_get : forall A (f : lookup -> A), hushed (lget f). Proof. intros A f s H. exact H. Qed.
Lemma hushed_lw : forall A (m : W A), hushed (lw m). Proof. intros A m s H. unfold lw. now destruct (m (snd s)). Qed.
Lemma hushed_mod : forall f, (forall l, l_conf (f l) = l_conf l /\ l_trace (f l) = l_trace l) -> hushed (lmod f).
Proof. intros f Hf [l w] (H1 & H2). unfold lmod, hush. cbn [fst snd] in *. destruct (Hf l) as (-> & ->). now split. Qed.
Lemma hushed_trace : forall t, hushed (trace t).
Proof. intros t [l w] (H1 & H2). unfold trace. cbn [fst snd] in *. rewrite H1. now split. Qed.
Lemma hushed_trace_raw : forall t, hushed (trace_raw t).
Proof. intros t [l w] (H1 & H2). unfold trace_raw. cbn [fst snd] in *. rewrite H1. now split. Qed.
Create HintDb hushed.
#[export] Hint Resolve hushed_ret hushed_exec hushed_get hushed_lw hushed_trace hushed_trace_raw : hushed.
Section Hushed.
  Context (p : profile) (env : environment).
  Lemma hushed_request : forall node kind s n, hushed (perform_request_with_trace p env node kind s n).
  Proof.
    intros node kind s n. unfold perform_request_with_trace, trace_ns_req, perform_request.
    apply hushed_bind.
    - apply hushed_bind; auto with hushed. intros [|]; auto with hushed. apply hushed_bind; auto with hushed.
    - intros _. apply hushed_bind.
      + apply hushed_bind; auto with hushed. intros [m|e]; auto with hushed. apply hushed_bind; auto with hushed.
      + intros [x|e]; apply hushed_bind; auto with hushed.
  Qed.
  Lemma hushed_search : forall kind, hushed (search_records_with_trace env kind).
  Proof. intros kind. unfold search_records_with_trace. repeat (apply hushed_bind; auto with hushed; intros ?). Qed.
  Lemma hushed_search_nss : hushed (search_nss_with_trace env).
  Proof.
    unfold search_nss_with_trace. apply hushed_bind; auto with hushed. intros node. apply hushed_bind; auto with hushed.
    intros [|r rs]; repeat (apply hushed_bind; auto with hushed; intros ?).
  Qed.
  Lemma hushed_cname : forall c next, hushed (handle_cname env c next).
  Proof.
    intros c next. unfold handle_cname. apply hushed_bind; auto with hushed. intros cname. apply hushed_bind; auto with hushed. intros prev.
    destruct (detect_cname_loops _ _); auto with hushed. apply hushed_bind; [now apply hushed_mod|]. intros _. apply hushed_bind; auto with hushed. intros [|]; auto with hushed.
    apply hushed_bind; auto with hushed. intros _. apply hushed_bind; [now apply hushed_mod|]. intros _. apply hushed_bind; [now apply hushed_mod|]. auto with hushed.
  Qed.
  Section Sub.
    Context (sub : L (result response lerr)) (Hsub : hushed sub).
    Lemma hushed_subquery : forall node zone, hushed (resolve_ns_subquery sub node zone).
    Proof.
      intros node zone. unfold resolve_ns_subquery. apply hushed_bind; auto with hushed. intros zones. destruct (detect_zones_loop _ _); auto with hushed.
      intros [l w] (H1 & H2). cbn [fst snd] in *. set (inner := mkLookup node RT_A (zones ++ [zone]) [] [] [] (no_follow_conf (l_conf l))).
      assert (Hi : hush (inner, w)) by (split; [exact H1|reflexivity]). specialize (Hsub (inner, w) Hi).
      destruct (sub (inner, w)) as [[r|k|] [l' w']]; cbn [fst snd] in *; try (now split).
      unfold lbind, add_sub_trace, lmod, lret, hush. cbn [fst snd push_line l_conf l_trace]. split; [exact H1|].
      rewrite forallb_app, H2. cbn [forallb blank]. destruct Hsub as (_ & Hs). cbn [fst] in Hs. now rewrite Hs.
    Qed.
    Lemma hushed_servers : forall l err, hushed (query_servers p env sub l err).
    Proof.
      induction l as [|s l IH]; intros err; cbn [query_servers]; [destruct err; auto with hushed|].
      apply hushed_bind; auto with hushed. intros addrs. apply hushed_bind.
      - destruct addrs; auto with hushed. apply hushed_bind; auto with hushed. intros n. apply hushed_bind; [apply hushed_subquery|]. auto with hushed.
      - intros [s'|e]; [|apply IH]. do 3 (apply hushed_bind; auto with hushed; intros ?). apply hushed_bind; [apply hushed_request|].
        intros [[soa|ans add|c next|next]|e]; auto with hushed. apply hushed_bind; auto with hushed. intros _. apply hushed_bind; [now apply hushed_mod|auto with hushed].
    Qed.
    Lemma hushed_zones : forall fuel, hushed (query_zones p env sub fuel).
    Proof.
      induction fuel as [|fuel IH]; cbn [query_zones]; auto with hushed. apply hushed_bind; auto with hushed. intros [|s next]; auto with hushed.
      apply hushed_bind; [now apply hushed_mod|]. intros _. do 2 (apply hushed_bind; auto with hushed; intros ?). apply hushed_bind; [apply hushed_servers|]. intros [r|l]; auto with hushed.
    Qed.
    Lemma hushed_inner : forall fuel n, hushed (perform_inner p env sub fuel n).
    Proof.
      intros fuel. induction n as [|n IH]; cbn [perform_inner]; auto with hushed.
      do 3 (apply hushed_bind; auto with hushed; intros ?). apply hushed_bind; [apply hushed_search|]. intros [|r rs].
      2:{ apply hushed_bind; auto with hushed. intros ?. apply hushed_bind; [now apply hushed_mod|auto with hushed]. }
      apply hushed_bind; [apply hushed_search|].
      assert (F : forall r next, hushed (let* x := handle_cname env r next in match x with Err e => lret (Err e) | Ok _ => perform_inner p env sub fuel n end)).
      { intros r next. apply hushed_bind; [apply hushed_cname|]. intros [u|e]; auto with hushed. }
      intros [|c cs]; [|apply F]. apply hushed_bind; auto with hushed. intros next. apply hushed_bind.
      { destruct next; auto with hushed. apply hushed_bind; [apply hushed_search_nss|]. intros l. now apply hushed_mod. }
      intros _. apply hushed_bind; [apply hushed_zones|]. intros [[soa|ans add|c next'|next']|e]; auto with hushed.
      - apply hushed_bind; auto with hushed. intros ?. apply hushed_bind; [now apply hushed_mod|auto with hushed].
      - do 3 (apply hushed_bind; auto with hushed; intros ?). apply hushed_bind; [now apply hushed_mod|auto with hushed].
    Qed.
  End Sub.
  Lemma hushed_perform : forall fuel, hushed (perform p env fuel).
  Proof. induction fuel as [|fuel IH]; cbn [perform]; auto with hushed. apply hushed_bind; auto with hushed. intros conf. now apply hushed_inner. Qed.
End Hushed.

(** Missing from C62: the trace is not empty if there was a lookup within the lookup, see
    [C62_refuted_nested]. *)
Theorem C62_silent_traces_have_no_text_partial : forall p env conf node kind w fuel, silent conf = true ->
  forallb blank (l_trace (fst (snd (perform p env fuel (new_lookup conf node kind, w))))) = true.
Proof. intros p env conf node kind w fuel H. apply (hushed_perform p env fuel (new_lookup conf node kind, w)). now split. Qed.
Print Assumptions C62_silent_traces_have_no_text_partial.

(** Not silent, the same lookup has a trace with text. *)
Theorem C62_nonvacuous :
  l_trace (fst (snd (perform Release env_evil 6 (new_lookup conf0 (s2b "a.x.evil.") RT_A, world0)))) = [] /\
  forallb blank (l_trace (fst (snd (perform Release env_evil 6 (new_lookup (mkConf 3 2 5 false false false) (s2b "a.x.evil.") RT_A, world0))))) = false.
Proof. split; vm_compute; reflexivity. Qed.

(** Refutation: with a lookup of a server's address in between, the trace has a line. *)
Definition env_glueless : environment :=
  script (at_event 4 (packet RC_NoError false [] [rec_ (s2b "x.") 60 (D_NS (s2b "ns.y."))] []) silence).
Theorem C62_refuted_nested : env_ok plain_record env_glueless /\ silent conf0 = true /\
  exists l w, perform Release env_glueless 6 (new_lookup conf0 (s2b "www.x.") RT_A, world0) = (Done (Err (L_Sub L_IO)), (l, w)) /\ l_trace l = [T_sub []].
Proof.
  split; [apply script_ok; repeat (apply script_bytes; [apply checked_bytes; vm_compute; reflexivity|]); apply silence_bytes|]. split; [reflexivity|].
  eexists _, _. split; vm_compute; reflexivity.
Qed.
Print Assumptions C62_refuted_nested.
