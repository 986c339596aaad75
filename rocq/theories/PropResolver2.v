(** C56-C59: lookups end, answers are alias chains, delegations descend, packets are
    bounded. *)
From Coq Require Import Permutation.
From Verif Require Import Base Types Name NameSpec NameProofs Codec CodecSpec PropCodec3 NsSpec Cache Resolver ResolverLists ResolverSpec ResolverInv ResolverRun ResolverFacts ResolverFuel ResolverEx PropResolver1.

(** * C56 *)
Lemma run_facts : forall p env conf node kind w (lv : Prop) fuel U,
  env_ok plain_record env -> cache_ok plain_record (ev_now (env (w_n w))) (w_cache w) -> accepted node -> usable_type kind ->
  (lv -> live p env) -> (forall n, accepted n -> In n U) -> (lv -> length U + 300 <= fuel) ->
  okL False lv (perform p env fuel (new_lookup conf node kind, w))
    (fun r s' => match r with Ok x => answer_ok plain_record conf node kind x | Err _ => True end) (fun _ => True).
Proof.
  intros p env conf node kind w lv fuel U EO Hw Hn Hk Hl HU Hf.
  pose proof (plain_is_a_class p env (eo_bytes _ _ EO)) as CO.
  pose proof (run_class p env plain_record (fun _ => True) False lv conf node kind w fuel U EO CO ltac:(intros n _ a x d m _ _ _ _ _ nd kd _ _ _ _; exact I) Hw Hn Hk ltac:(tauto) ltac:(tauto) Hl HU Hf) as S.
  destruct (perform p env fuel (new_lookup conf node kind, w)) as [[r|k|] s']; cbn [okL] in *; tauto.
Qed.

(** Every lookup ends with an answer, an error or a panic, with the same outcome whatever
    (large enough) fuel: [perform] does not need it. [F] is the same for all lookups. *)
Theorem C56_lookups_terminate : exists F, forall p env conf node kind w,
  env_ok plain_record env -> cache_ok plain_record (ev_now (env (w_n w))) (w_cache w) -> accepted node -> usable_type kind ->
  (forall n a x d, ev_net (env n) a x = Some d -> decode_message p (firstn 512 d) <> Diverge) ->
  exists r s', r <> Diverge /\ forall fuel, F <= fuel -> perform p env fuel (new_lookup conf node kind, w) = (r, s').
Proof.
  destruct finitely_many_names as (U & HU). exists (length U + 300). intros p env conf node kind w EO Hw Hn Hk Hl.
  pose proof (run_facts p env conf node kind w True (length U + 300) U EO Hw Hn Hk (fun _ => Hl) HU (fun _ => le_n _)) as R.
  destruct (perform p env (length U + 300) (new_lookup conf node kind, w)) as [r s'] eqn:E. exists r, s'.
  assert (D : r <> Diverge) by (intros ->; cbn [okL] in R; tauto). split; [exact D|].
  intros fuel Hf. rewrite (below_perform p env (length U + 300) fuel Hf); [exact E|]. now rewrite E.
Qed.
Print Assumptions C56_lookups_terminate.

(** Built for debugging, decoding always ends (C22), so lookups do. *)
Theorem C56_debug_lookups_terminate : exists F, forall env conf node kind w,
  env_ok plain_record env -> cache_ok plain_record (ev_now (env (w_n w))) (w_cache w) -> accepted node -> usable_type kind ->
  exists r s', r <> Diverge /\ forall fuel, F <= fuel -> perform Debug env fuel (new_lookup conf node kind, w) = (r, s').
Proof.
  destruct C56_lookups_terminate as (F & H). exists F. intros env conf node kind w EO Hw Hn Hk. apply H; try assumption.
  intros n a x d Hd. apply C22_debug_never_hangs_partial. apply firstn_bytes. exact (eo_bytes _ _ EO n a x d Hd).
Qed.
Print Assumptions C56_debug_lookups_terminate.

Lemma new_world_ok : forall env, cache_ok plain_record (ev_now (env (w_n world0))) (w_cache world0).
Proof. intros env. apply world0_ok. Qed.
Theorem C56_nonvacuous : env_ok plain_record env_mixed /\ accepted (s2b "www.example.com.") /\ usable_type RT_A /\
  (forall n a x d, ev_net (env_mixed n) a x = Some d -> decode_message Release (firstn 512 d) <> Diverge) /\
  fst (perform Release env_mixed 6 (new_lookup conf0 (s2b "www.example.com.") RT_A, world0)) = Done (Err L_IO).
Proof.
  split; [exact env_mixed_ok|]. split; [apply checked_accepted; vm_compute; reflexivity|]. split; [unfold usable_type; tauto|]. split; [|vm_compute; reflexivity].
  intros n a x d. unfold env_mixed, script, at_event, silence. cbn [ev_net]. destruct (n =? 5); [|discriminate].
  match goal with |- Some ?x = Some d -> _ => intros H; assert (E : d = x) by congruence; rewrite E end. vm_compute. discriminate.
Qed.
Print Assumptions C56_nonvacuous.

(** * C57 *)
Theorem C57_answer_is_an_alias_chain_partial : forall p env conf node kind w fuel x s',
  env_ok plain_record env -> cache_ok plain_record (ev_now (env (w_n w))) (w_cache w) -> accepted node -> usable_type kind ->
  perform p env fuel (new_lookup conf node kind, w) = (Done (Ok x), s') ->
  answer_ok plain_record conf node kind x.
Proof.
  intros p env conf node kind w fuel x s' EO Hw Hn Hk E. destruct finitely_many_names as (U & HU).
  pose proof (run_facts p env conf node kind w False fuel U EO Hw Hn Hk ltac:(tauto) HU ltac:(tauto)) as R.
  rewrite E in R. cbn [okL] in R. apply R.
Qed.
Print Assumptions C57_answer_is_an_alias_chain_partial.

(** No owner is repeated, if no alias of the chain is its own target. *)
Lemma chain_owner : forall cs from to, alias_chain from cs to -> forall b c a, cs = b ++ c :: a ->
  (b = [] /\ r_node c = from) \/ (exists b' d, b = b' ++ [d] /\ r_data d = D_CNAME (r_node c)).
Proof.
  induction cs as [|x cs IH]; intros from to H b c a E; [now destruct b|]. cbn [alias_chain] in H. destruct H as (H1 & t & H2 & H3).
  destruct b as [|y b]; cbn [app] in E; injection E as <- E.
  - left. now split.
  - right. destruct (IH t to H3 b c a E) as [(-> & H)|(b' & d & -> & H)].
    + exists [], x. split; [reflexivity|]. now rewrite H.
    + exists (x :: b'), d. now split.
Qed.
Theorem C57_owners_distinct_partial : forall cs from to,
  alias_chain from cs to -> no_way_back cs -> (forall c, In c cs -> r_data c <> D_CNAME (r_node c)) -> NoDup (map r_node cs).
Proof.
  intros cs from to H1 H2 H3.
  assert (G : forall a b, cs = b ++ a -> NoDup (map r_node b)).
  { intros a b. revert a. induction b as [|c b IH] using rev_ind; intros a E; [constructor|].
    rewrite map_app. cbn [map]. apply (Permutation_NoDup (l := r_node c :: map r_node b)); [apply Permutation_cons_append|].
    rewrite <- app_assoc in E. cbn [app] in E. constructor; [|now apply (IH (c :: a))].
    destruct (chain_owner cs from to H1 b c a E) as [(-> & _)|(b' & d & -> & Hd)]; [easy|].
    rewrite map_app, in_app_iff. intros [Hin|[Hin|[]]].
    - rewrite <- app_assoc in E. cbn [app] in E. exact (H2 b' d (c :: a) (r_node c) E Hd Hin).
    - apply (H3 d); [rewrite E; apply in_or_app; left; apply in_or_app; right; now left|]. now rewrite Hin. }
  apply (G []). now rewrite app_nil_r.
Qed.
Print Assumptions C57_owners_distinct_partial.

(** Refutation of "without repetition of owners": the first server answers with a
    short-lived alias of the name to itself. *)
Definition env_self : environment :=
  script (at_event 3 (packet RC_NoError false [rec_ (s2b "a.") 0 (D_CNAME (s2b "a."))] [] [])
         (at_event 8 (packet RC_NoError false [rec_ (s2b "a.") 60 (D_CNAME (s2b "b."))] [] [])
         (at_event 13 (packet RC_NoError false [rec_ (s2b "b.") 60 (D_A [1; 2; 3; 4]%N)] [] []) silence))).
Theorem C57_refuted_repeated_owner : env_ok plain_record env_self /\
  exists x s', perform Release env_self 6 (new_lookup conf0 (s2b "a.") RT_A, world0) = (Done (Ok x), s') /\
    map (fun r => (r_node r, record_type r)) (x_answers x) = [(s2b "a.", RT_CNAME); (s2b "a.", RT_CNAME); (s2b "b.", RT_A)].
Proof.
  split.
  - apply script_ok. repeat (apply script_bytes; [apply checked_bytes; vm_compute; reflexivity|]). apply silence_bytes.
  - eexists _, _. split; [vm_compute; reflexivity|]. vm_compute. reflexivity.
Qed.
Print Assumptions C57_refuted_repeated_owner.
(** It is also a case of [C57_answer_is_an_alias_chain_partial] with two aliases. *)

(** Refutation of "owned by the last target", for name server questions: see C52. *)
Theorem C57_refuted_ns_owners :
  let '(_, (_, w)) := perform Release env_mixed 6 (new_lookup conf0 (s2b "www.example.com.") RT_A, world0) in
  exists x, fst (perform Release env_mixed 6 (new_lookup conf0 (s2b "com.") RT_NS, w)) = Done (Ok x) /\
    map r_node (x_answers x) = [s2b "com."; s2b "example.com."].
Proof. vm_compute. eexists. split; reflexivity. Qed.
Print Assumptions C57_refuted_ns_owners.

(** * C58 *)
(** Zones are compared as texts: what is missing is that a name may end with the text of a
    zone without being in it, see [C58_refuted_not_enclosing]. *)
Theorem C58_delegations_descend_partial : forall m node kind zone next,
  read_response m node kind zone = Done (Ok (NR_Delegation next)) ->
  next <> [] /\
  Forall (fun s =>
    In (n_rec s) (all_records m) /\ record_type (n_rec s) = RT_NS /\
    (exists pre, node = pre ++ ns_zone s) /\ length zone < length (ns_zone s) /\
    ((exists pre, node = pre ++ zone) -> exists pre, pre <> [] /\ ns_zone s = pre ++ zone) /\
    exists n, r_data (n_rec s) = D_NS n /\ Forall (fun r => In r (all_records m) /\ record_type r = RT_A /\ r_node r = n) (n_addrs s)) next.
Proof.
  intros m node kind zone next H.
  destruct (read_response_ok (fun r => In r (all_records m)) m node kind zone) as (r & E & R); [apply Forall_forall; auto|].
  rewrite H in E. injection E as <-. destruct R as ((R1 & R2 & R3) & _). split; [exact R1|]. rewrite Forall_forall in *. intros s Hs.
  pose proof (R2 s Hs) as (S1 & n & S2 & S3). destruct (R3 s Hs) as ((pre & S4) & S5).
  split; [exact S1|]. split; [unfold record_type; now rewrite S2|]. split; [now exists pre|]. split; [exact S5|]. split; [|now exists n].
  intros (pre' & S6). rewrite S4 in S6.
  assert (G : forall (a b c d : list N), a ++ b = c ++ d -> length d < length b -> exists e, e <> [] /\ b = e ++ d).
  { clear. induction a as [|x a IH]; intros b c d E L.
    - cbn [app] in E. subst b. exists c. split; [|reflexivity]. intros ->. cbn in L. lia.
    - destruct c as [|y c]; cbn [app] in E.
      + exfalso. apply (f_equal (@length N)) in E. cbn [length] in E. rewrite app_length in E. lia.
      + injection E as _ E. exact (IH b c d E L). }
  exact (G _ _ _ _ S6 S5).
Qed.
Print Assumptions C58_delegations_descend_partial.

(** A server whose name ends with the zone it is to serve is only used if its address came
    along: it could not be found otherwise. *)
Lemma drop_glueless_spec : forall l l', drop_glueless l = Done l' ->
  Forall (fun s => forall n, r_data (n_rec s) = D_NS n -> (exists pre, n = pre ++ ns_zone s) -> n_addrs s <> []) l'.
Proof.
  induction l as [|s l IH]; intros l' E; cbn [drop_glueless] in E; [injection E as <-; constructor|].
  unfold ns_node, ns_data in E. destruct (r_data (n_rec s)) as [|n| | | | | | |] eqn:En; cbn [bind] in E; try discriminate E.
  destruct (ns_addrs s) as [a| |] eqn:Ea; cbn [bind] in E; try discriminate E. destruct (drop_glueless l) as [t| |]; cbn [bind] in E; try discriminate E.
  specialize (IH t eq_refl). injection E as <-. destruct (is_nameserver_in_subzone_without_glue _ _ _) eqn:Ei; [exact IH|]. constructor; [|exact IH].
  intros n' En' Hp C. assert (n' = n) by congruence. subst n'. apply ends_with_spec in Hp. unfold is_nameserver_in_subzone_without_glue in Ei. rewrite Hp in Ei.
  unfold ns_addrs in Ea. rewrite C in Ea. injection Ea as <-. discriminate Ei.
Qed.
Theorem C58_own_servers_come_with_addresses : forall m node kind zone next,
  read_response m node kind zone = Done (Ok (NR_Delegation next)) ->
  Forall (fun s => forall n, r_data (n_rec s) = D_NS n -> (exists pre, n = pre ++ ns_zone s) -> n_addrs s <> []) next.
Proof.
  intros m node kind zone next H. unfold read_response in H.
  destruct (h_rcode (m_header m)); try discriminate H; [|destruct (h_aa (m_header m)); discriminate H].
  destruct (extract_records (m_answers m) kind node) as [[|g got] rest]; [|discriminate H].
  destruct (fst (extract_record rest RT_CNAME node)) as [c|].
  - destruct (cname_data c) as [t| |]; cbn [bind] in H; try discriminate H. destruct (extract_next_nss_for_cname m t) as [l| |]; cbn [bind] in H; discriminate H.
  - unfold extract_next_nss_for_subzone in H. destruct (nss_of _ _) as [[l r]| |]; cbn [bind] in H; try discriminate H.
    destruct (drop_glueless l) as [l'| |] eqn:Ed; cbn [bind] in H; try discriminate H. apply drop_glueless_spec in Ed. destruct l' as [|s l']; [discriminate H|]. injection H as <-. exact Ed.
Qed.
Print Assumptions C58_own_servers_come_with_addresses.

(** What a lookup asks next: only the servers of such a delegation for the name searched,
    received from a server of the previous zone. *)
Definition keeps {A} (m : L A) : Prop := forall s, let l := fst (snd (m s)) in l_node l = l_node (fst s) /\ l_kind l = l_kind (fst s).
Lemma keeps_bind : forall A B (m : L A) (k : A -> L B), keeps m -> (forall a, keeps (k a)) -> keeps (lbind m k).
Proof.
  intros A B m k Hm Hk s. unfold lbind. specialize (Hm s). destruct (m s) as [[a|q|] s']; cbn [fst snd] in *; try exact Hm.
  specialize (Hk a s'). cbn [fst snd] in *. destruct Hm, Hk. split; congruence.
Qed.
Lemma keeps_ret : forall A (a : A), keeps (lret a). Proof. intros A a s. now split. Qed.
Lemma keeps_exec : forall A (a : exec A), keeps (lexec a). Proof. intros A a s. now split. Qed.
Lemma keeps_get : forall A (f : lookup -> A), keeps (lget f). Proof. intros A f s. now split. Qed.
Lemma keeps_lw : forall A (m : W A), keeps (lw m). Proof. intros A m s. unfold lw. destruct (m (snd s)). now split. Qed.
Lemma keeps_trace : forall t, keeps (trace t). Proof. intros t s. unfold trace. cbn. now destruct (silent _). Qed.
Lemma keeps_trace_raw : forall t, keeps (trace_raw t). Proof. intros t s. unfold trace_raw. cbn. destruct (silent _); [now split|]. now destruct (negb _). Qed.
Lemma keeps_request : forall p env node kind s n, keeps (perform_request_with_trace p env node kind s n).
Proof.
  intros p env node kind s n. unfold perform_request_with_trace, perform_request, trace_ns_req.
  apply keeps_bind; [apply keeps_bind; [apply keeps_get|]; intros []; [apply keeps_ret|]; apply keeps_bind; [apply keeps_exec|]; intros ?; apply keeps_trace|].
  intros _. apply keeps_bind; [apply keeps_bind; [apply keeps_lw|]; intros [m|e]; [|apply keeps_ret]; apply keeps_bind; [apply keeps_trace_raw|]; intros _; apply keeps_exec|].
  intros [x|e]; (apply keeps_bind; [apply keeps_trace|]; intros _; apply keeps_ret).
Qed.
Lemma keeps_subquery : forall sub node zone, keeps (resolve_ns_subquery sub node zone).
Proof.
  intros sub node zone. unfold resolve_ns_subquery. apply keeps_bind; [apply keeps_get|]. intros zones. destruct (detect_zones_loop _ _); [apply keeps_ret|].
  intros s. cbn zeta. destruct (sub _) as [[r|k|] [l w]]; now split.
Qed.

Theorem C58_follows_only_delegations_partial : forall p env sub l err k w k' w' next,
  query_servers p env sub l err (k, w) = (Done (Asked_next next), (k', w')) ->
  l_next k' = next /\ exists m s, In s l /\ read_response m (l_node k) (l_kind k) (ns_zone s) = Done (Ok (NR_Delegation next)).
Proof.
  intros p env sub. induction l as [|s l IH]; intros err k w k' w' next H; cbn [query_servers] in H; [destruct err; discriminate|].
  unfold lbind at 1 in H. destruct (lexec (ns_addrs s) (k, w)) as [[addrs|?|] s1] eqn:E0; try discriminate.
  assert (K0 : s1 = (k, w)) by (unfold lexec in E0; congruence). subst s1.
  unfold lbind at 1 in H.
  assert (IH' : forall err k1 w1, l_node k1 = l_node k /\ l_kind k1 = l_kind k -> query_servers p env sub l err (k1, w1) = (Done (Asked_next next), (k', w')) ->
     l_next k' = next /\ exists m s0, In s0 (s :: l) /\ read_response m (l_node k) (l_kind k) (ns_zone s0) = Done (Ok (NR_Delegation next))).
  { intros e1 k1 w1 (K1 & K2) H1. destruct (IH e1 k1 w1 k' w' next H1) as (A & m & s0 & B & C). rewrite K1, K2 in C. split; [exact A|]. exists m, s0. split; [now right|exact C]. }
  match type of H with (let (_, _) := ?x in _) = _ => destruct x as [[x1|?|] [k1 w1]] eqn:E1 end; try discriminate.
  assert (K1 : l_node k1 = l_node k /\ l_kind k1 = l_kind k).
  { match type of E1 with ?m (k, w) = _ => assert (Km : keeps m) end.
    { destruct addrs; [|apply keeps_ret]. apply keeps_bind; [apply keeps_exec|]. intros n. apply keeps_bind; [apply keeps_subquery|]. intros ?. apply keeps_ret. }
    specialize (Km (k, w)). rewrite E1 in Km. exact Km. }
  destruct x1 as [s'|e]; [|now apply IH' in H].
  assert (Z : ns_zone s' = ns_zone s).
  { destruct addrs as [|a addrs].
    - unfold lbind at 1 in E1. destruct (lexec (ns_node s) (k, w)) as [[n|?|] s2]; try discriminate. unfold lbind at 1 in E1.
      destruct (resolve_ns_subquery sub n (ns_zone s) s2) as [[[a|e]|?|] s3]; try discriminate. injection E1 as <- _. reflexivity.
    - injection E1 as <- _ _. reflexivity. }
  unfold lbind at 1, lget at 1 in H. unfold lbind at 1, lget at 1 in H. unfold lbind at 1, lget at 1 in H. cbn [fst] in H. unfold lbind at 1 in H.
  destruct (perform_request_with_trace p env (l_node k1) (l_kind k1) s' (max_retries (l_conf k1)) (k1, w1)) as [[x|?|] [k2 w2]] eqn:E2; try discriminate.
  assert (K2 : l_node k2 = l_node k /\ l_kind k2 = l_kind k).
  { pose proof (keeps_request p env (l_node k1) (l_kind k1) s' (max_retries (l_conf k1)) (k1, w1)) as Km. rewrite E2 in Km. cbn [fst snd] in Km. destruct K1, Km. split; congruence. }
  destruct x as [x|e]; [|now apply IH' in H].
  destruct x as [soa|ans add|c nx|nx]; try discriminate.
  unfold lbind at 1 in H. destruct (lw (save_nss env nx) (k2, w2)) as [[[]|?|] [k3 w3]]; try discriminate.
  unfold lbind at 1, lmod in H. injection H as <- <- <-. split; [reflexivity|]. destruct K1 as (K1a & K1b). rewrite <- K1a, <- K1b.
  unfold perform_request_with_trace in E2. unfold lbind at 1 in E2. destruct (trace_ns_req _ _ _ _) as [[[]|?|] s4]; try discriminate.
  unfold lbind at 1 in E2. destruct (perform_request p env _ _ _ _ s4) as [[[x|e]|?|] s5] eqn:E3; try discriminate.
  assert (x = NR_Delegation nx). { unfold lbind at 1 in E2. destruct (trace _ s5) as [[[]|?|] s6]; try discriminate. now injection E2 as -> _. } subst x.
  unfold perform_request in E3. unfold lbind at 1 in E3. destruct (lw _ s4) as [[[m|e]|?|] s6]; try discriminate.
  unfold lbind at 1 in E3. destruct (trace_raw m s6) as [[[]|?|] s7]; try discriminate.
  exists m, s. split; [now left|]. rewrite <- Z. unfold lexec in E3. congruence.
Qed.
Print Assumptions C58_follows_only_delegations_partial.

Definition msg_of (ans aus ads : list record) : message := mkMsg (mkHeader 7 true OP_STD false false false false 0 RC_NoError 0 0 0 0) [] ans aus ads.
Theorem C58_nonvacuous : exists next,
  read_response (msg_of [] [rec_ (s2b "example.com.") 60 (D_NS (s2b "ns.example.com."))] [rec_ (s2b "ns.example.com.") 60 (D_A [1; 2; 3; 4]%N)]) (s2b "www.example.com.") RT_A (s2b "com.") = Done (Ok (NR_Delegation next)) /\
  map ns_zone next = [s2b "example.com."].
Proof. eexists. split; vm_compute; reflexivity. Qed.

(** Refutation: the servers of "com." delegate "example.com.", and the lookup of
    "notexample.com." follows. *)
Theorem C58_refuted_not_enclosing : exists next,
  read_response (msg_of [] [rec_ (s2b "example.com.") 60 (D_NS (s2b "ns.example.com."))] [rec_ (s2b "ns.example.com.") 60 (D_A [1; 2; 3; 4]%N)]) (s2b "notexample.com.") RT_A (s2b "com.") = Done (Ok (NR_Delegation next)) /\
  map ns_zone next = [s2b "example.com."] /\ ~ within (s2b "notexample.com.") (s2b "example.com.").
Proof.
  eexists. split; [vm_compute; reflexivity|]. split; [vm_compute; reflexivity|].
  intros (pre & H). vm_compute in H. destruct pre as [|a [|b [|c pre]]]; discriminate.
Qed.
Print Assumptions C58_refuted_not_enclosing.

(** * C59 *)
(** The packets of one zone cut, oldest first: to every server in turn, at most as many as
    the retries allow. (Servers with an address; the others are first looked up by a lookup
    of their own.) *)
Fixpoint asked_in_turn (retries : nat) (servers : list nsrv) (to : list (list N)) : Prop :=
  match servers with
  | [] => to = []
  | s :: servers' => exists n a rest, n <= retries /\ hd_error (flat_map (fun r => match r_data r with D_A a => [a] | _ => [] end) (n_addrs s)) = Some a /\
      to = repeat a n ++ rest /\ asked_in_turn retries servers' rest
  end.
Lemma asked_none : forall retries l, Forall (fun s => addresses_only s /\ n_addrs s <> []) l -> asked_in_turn retries l [].
Proof.
  intros retries l H. induction H as [|s l (A & B) Hl IH]; cbn [asked_in_turn]; [reflexivity|].
  destruct (n_addrs s) as [|r rs] eqn:E; [congruence|]. unfold addresses_only in A. rewrite E in A. inversion A as [|? ? T _]; subst.
  unfold record_type in T. destruct (r_data r) eqn:Ed; try discriminate. exists 0. cbn [flat_map]. rewrite Ed. cbn. eexists _, []. split; [lia|]. now repeat split.
Qed.
Lemma first_address : forall s, addresses_only s -> n_addrs s <> [] -> exists a l, ns_addrs s = Done (a :: l) /\ hd_error (flat_map (fun r => match r_data r with D_A a => [a] | _ => [] end) (n_addrs s)) = Some a.
Proof.
  intros s A B. destruct (ips_total _ A) as (l & E & L). unfold ns_addrs. destruct (n_addrs s) as [|r rs] eqn:En; [congruence|].
  unfold addresses_only in A. rewrite En in A. inversion A as [|? ? T _]; subst. unfold record_type in T. destruct (r_data r) as [a0| | | | | | | |] eqn:Ed; try discriminate.
  cbn [ips] in *. unfold a_data in *. rewrite Ed in *. cbn [bind] in *. destruct (ips rs) as [l'| |]; cbn [bind] in *; try discriminate. exists a0, l'. split; [reflexivity|]. cbn. now rewrite Ed.
Qed.
Definition sent_to (a : list N) (n : nat) (w w' : world) : Prop := exists new, w_sent w' = new ++ w_sent w /\ map fst new = repeat a n.
Lemma send_one' : forall p env node kind s a l w, ns_addrs s = Done (a :: l) ->
  sent_to a 0 w (snd (send_query p env node kind s w)) \/ sent_to a 1 w (snd (send_query p env node kind s w)).
Proof.
  intros p env node kind s a l w Ha. unfold send_query. rewrite Ha.
  destruct (encode_message _ _) as [[out|e]|k|]; cbn [snd]; try (left; exists []; now split).
  right. exists [(a, out)]. split; [|reflexivity].
  destruct (ev_net _ _ _) as [d|]; [|reflexivity]. destruct (decode_message _ _) as [[m|e]|k|]; try reflexivity.
  destruct (_ =? _)%N; reflexivity.
Qed.
Lemma sent_trans : forall a n m w1 w2 w3, sent_to a n w1 w2 -> sent_to a m w2 w3 -> sent_to a (n + m) w1 w3.
Proof.
  intros a n m w1 w2 w3 (x & E1 & H1) (y & E2 & H2). exists (y ++ x). rewrite E2, E1, app_assoc. split; [reflexivity|].
  rewrite map_app, H1, H2, <- repeat_app. f_equal. lia.
Qed.
Lemma send_many : forall p env node kind s a l, ns_addrs s = Done (a :: l) -> forall n err w,
  exists k, k <= n /\ sent_to a k w (snd (send_query_with_retries p env n err node kind s w)).
Proof.
  intros p env node kind s a l Ha. induction n as [|n IH]; intros err w; cbn [send_query_with_retries].
  - exists 0. split; [lia|]. destruct err; exists []; now split.
  - unfold wbind. pose proof (send_one' p env node kind s a l w Ha) as S1.
    destruct (send_query p env node kind s w) as [o w1]. cbn [snd] in S1.
    assert (S1' : exists k, k <= 1 /\ sent_to a k w w1) by (destruct S1 as [S1|S1]; [exists 0|exists 1]; (split; [lia|exact S1])). clear S1. destruct S1' as (k1 & L1 & S1').
    destruct o as [[m|e]|q|]; cbn [snd wret]; try (exists k1; split; [lia|exact S1']).
    destruct (IH (Some e) w1) as (k & L & S2). exists (k1 + k). split; [lia|]. eapply sent_trans; eassumption.
Qed.
Lemma lw_run : forall A (m : W A) s, lw m s = (fst (m (snd s)), (fst s, snd (m (snd s)))).
Proof. intros A m s. unfold lw. now destruct (m (snd s)). Qed.
Lemma trace_world : forall t s, snd (snd (trace t s)) = snd s. Proof. intros t s. reflexivity. Qed.
Lemma request_sends : forall p env node kind s a l n k, ns_addrs s = Done (a :: l) ->
  exists i, i <= n /\ sent_to a i (snd k) (snd (snd (perform_request_with_trace p env node kind s n k))).
Proof.
  intros p env node kind s a l n [k w] Ha. unfold perform_request_with_trace. unfold lbind at 1.
  assert (T : snd (snd (trace_ns_req node kind s (k, w))) = w).
  { unfold trace_ns_req, lbind, lget. cbn [fst]. destruct (silent (l_conf k)); [reflexivity|]. unfold lexec. destruct (ns_node s); reflexivity. }
  destruct (trace_ns_req node kind s (k, w)) as [[[]|x|] [k1 w1]]; cbn [fst snd] in *; subst w1; try (exists 0; split; [lia|]; exists []; now split).
  unfold lbind at 1, perform_request. unfold lbind at 1. rewrite lw_run. cbn [fst snd].
  destruct (send_many p env node kind s a l Ha n None w) as (i & L & S1). exists i. split; [exact L|].
  destruct (send_query_with_retries p env n None node kind s w) as [o w1].
  cbn [fst snd]. destruct o as [[m|e]|q|]; cbn [fst snd lret]; try exact S1. unfold lbind, trace_raw, lexec. cbn [fst snd].
  destruct (read_response m node kind (ns_zone s)) as [[x|e]|q|]; cbn; exact S1.
Qed.
Lemma request_conf : forall p env node kind s n k, l_conf (fst (snd (perform_request_with_trace p env node kind s n k))) = l_conf (fst k).
Proof.
  intros p env node kind s n [k w]. unfold perform_request_with_trace. unfold lbind at 1.
  assert (T : l_conf (fst (snd (trace_ns_req node kind s (k, w)))) = l_conf k).
  { unfold trace_ns_req, lbind, lget. cbn [fst]. destruct (silent (l_conf k)) eqn:Es; [reflexivity|]. unfold lexec. destruct (ns_node s); try reflexivity. unfold trace. cbn [fst snd]. now rewrite Es. }
  destruct (trace_ns_req node kind s (k, w)) as [[[]|x|] [k1 w1]]; cbn [fst snd] in *; try exact T.
  unfold lbind at 1, perform_request. unfold lbind at 1. rewrite lw_run. cbn [fst snd].
  destruct (send_query_with_retries p env n None node kind s w1) as [o w2].
  destruct o as [[m|e]|y|]; cbn [fst snd]; try exact T; unfold lret, lbind, trace_raw, lexec, trace; cbn [fst snd].
  - destruct (silent (l_conf k1)) eqn:Es; cbn [fst snd].
    + destruct (read_response m node kind (ns_zone s)) as [[x|e]|q|]; cbn [fst snd]; rewrite ?Es; exact T.
    + destruct (negb (verbose (l_conf k1))); destruct (read_response m node kind (ns_zone s)) as [[x|e]|q|]; cbn [fst snd push_line l_conf]; rewrite ?Es; exact T.
  - destruct (silent (l_conf k1)) eqn:Es; exact T.
Qed.
Lemma save_sends : forall env rs w, w_sent (snd (save_records env rs w)) = w_sent w.
Proof.
  intros env [|r rs] w; unfold save_records; [reflexivity|]. destruct (forallb _ _); [|reflexivity]. unfold wbind, access. destruct (cache_run _ _ _) as [[[]| |] c]; reflexivity.
Qed.
Lemma save_nss_sends : forall env l w, w_sent (snd (save_nss env l w)) = w_sent w.
Proof.
  intros env l. unfold save_nss.
  assert (G : forall l w, w_sent (snd (save_glue env l w)) = w_sent w).
  { clear. induction l as [|s l IH]; intros w; cbn [save_glue]; [reflexivity|]. destruct (n_addrs s) as [|a l0]; [apply IH|].
    unfold wbind. pose proof (save_sends env (a :: l0) w) as H. destruct (save_records env (a :: l0) w) as [[[]|k|] w1]; cbn [snd] in *; try exact H. now rewrite IH. }
  intros w. unfold wbind. pose proof (G l w) as H. destruct (save_glue env l w) as [[[]|k|] w1]; cbn [snd] in *; try exact H. now rewrite save_sends.
Qed.
Lemma servers_send : forall p env sub l err k w, Forall (fun s => addresses_only s /\ n_addrs s <> []) l ->
  exists new, w_sent (snd (snd (query_servers p env sub l err (k, w)))) = new ++ w_sent w /\ asked_in_turn (max_retries (l_conf k)) l (map fst (rev new)).
Proof.
  intros p env sub. induction l as [|s l IH]; intros err k w H.
  - cbn [query_servers]. destruct err; (exists []; now split).
  - inversion H as [|? ? (A & B) Hl]; subst. destruct (first_address s A B) as (a & al & Ea & Eh). cbn [query_servers].
    unfold lbind at 1, lexec at 1. rewrite Ea. unfold lbind at 1, lret at 1. unfold lbind at 1, lget at 1. unfold lbind at 1, lget at 1. unfold lbind at 1, lget at 1. cbn [fst snd].
    unfold lbind at 1. destruct (request_sends p env (l_node k) (l_kind k) s a al (max_retries (l_conf k)) (k, w) Ea) as (i & Li & new & S1 & S2).
    pose proof (request_conf p env (l_node k) (l_kind k) s (max_retries (l_conf k)) (k, w)) as C.
    destruct (perform_request_with_trace p env (l_node k) (l_kind k) s (max_retries (l_conf k)) (k, w)) as [o [k1 w1]]. cbn [fst snd] in *.
    assert (Stop : forall w', w_sent w' = w_sent w1 -> exists new, w_sent w' = new ++ w_sent w /\ asked_in_turn (max_retries (l_conf k)) (s :: l) (map fst (rev new))).
    { intros w' E. exists new. split; [now rewrite E|]. cbn [asked_in_turn]. exists i, a, []. split; [exact Li|]. split; [exact Eh|]. split; [|now apply asked_none].
      rewrite app_nil_r, map_rev, S2. clear. induction i as [|i IH]; [reflexivity|]. cbn [repeat rev]. rewrite IH. symmetry. apply (repeat_cons i a). }
    assert (Go : forall err, exists new, w_sent (snd (snd (query_servers p env sub l err (k1, w1)))) = new ++ w_sent w /\ asked_in_turn (max_retries (l_conf k)) (s :: l) (map fst (rev new))).
    { intros e0. destruct (IH e0 k1 w1 Hl) as (new2 & S3 & S4). rewrite C in S4. exists (new2 ++ new). split; [now rewrite S3, S1, app_assoc|].
      cbn [asked_in_turn]. exists i, a, (map fst (rev new2)). split; [exact Li|]. split; [exact Eh|]. split; [|exact S4].
      rewrite rev_app_distr, map_app. f_equal. rewrite map_rev, S2. clear. induction i as [|i IH]; [reflexivity|]. cbn [repeat rev]. rewrite IH. symmetry. apply (repeat_cons i a). }
    destruct o as [[x|e]|q|].
    + destruct x as [soa|ans add|c nx|nx]; try (now apply Stop).
      unfold lbind at 1. rewrite lw_run. cbn [fst snd]. pose proof (save_nss_sends env nx w1) as N. destruct (save_nss env nx w1) as [[[]|q|] w2]; cbn [fst snd] in *; now apply Stop.
    + apply Go.
    + now apply Stop.
    + now apply Stop.
Qed.

(** One zone cut, all its servers having addresses: the first [max_ns] of them are asked in
    turn, and nothing else is sent. ([query_zones] with fuel 1 is what happens until the
    next zone cut, if any.) *)
Theorem C59_one_zone : forall p env sub k w, Forall (fun s => addresses_only s /\ n_addrs s <> []) (l_next k) ->
  exists new, w_sent (snd (snd (query_zones p env sub 1 (k, w)))) = new ++ w_sent w /\
    asked_in_turn (max_retries (l_conf k)) (firstn (max_ns (l_conf k)) (l_next k)) (map fst (rev new)).
Proof.
  intros p env sub k w H. cbn [query_zones]. unfold lbind at 1, lget at 1. cbn [fst snd].
  destruct (l_next k) as [|s0 nx] eqn:En.
  { exists []. split; [reflexivity|]. now destruct (max_ns (l_conf k)). }
  unfold lbind at 1, lmod at 1. cbn [fst snd]. unfold lbind at 1, lexec at 1.
  rewrite C54_servers_with_addresses_first by (eapply Forall_impl; [|exact H]; now intros s (A & _)).
  replace (filter addressed (s0 :: nx) ++ filter (fun s => negb (addressed s)) (s0 :: nx)) with (s0 :: nx).
  2:{ clear -H. induction H as [|s l (_ & Hs) Hl IH]; [reflexivity|]. cbn [filter]. assert (T : addressed s = true) by (unfold addressed; now destruct (n_addrs s)). rewrite T. cbn [negb app]. now f_equal. }
  unfold lbind at 1, lget at 1. cbn [fst set_next l_conf]. unfold lbind at 1.
  set (asked := firstn (max_ns (l_conf k)) (s0 :: nx)).
  destruct (servers_send p env sub asked None (set_next [] k) w) as (new & S1 & S2).
  { rewrite Forall_forall in *. intros s Hs. apply H. rewrite <- (firstn_skipn (max_ns (l_conf k)) (s0 :: nx)). apply in_or_app. now left. }
  exists new. split; [|exact S2]. destruct (query_servers p env sub asked None (set_next [] k, w)) as [[[x|x]|q|] [k1 w1]]; cbn [fst snd] in *; exact S1.
Qed.
Print Assumptions C59_one_zone.

(** Servers without addresses are looked up first, by a lookup that sends at most [B]
    packets: at most [max_ns * (B + retries)] packets for one zone cut. *)
Theorem C59_one_zone_any_servers : forall p env sub B k w,
  costs (limits k) B sub ->
  length (w_sent (snd (snd (query_zones p env sub 1 (k, w))))) <= length (w_sent w) + max_ns (l_conf k) * (B + max_retries (l_conf k)).
Proof.
  intros p env sub B k w H. pose proof (costs_zones p env (max_ns (l_conf k)) (max_retries (l_conf k)) (max_cname (l_conf k)) B sub H 1 k w eq_refl) as (_ & C). lia.
Qed.
Print Assumptions C59_one_zone_any_servers.

(** The packets of a whole lookup: a bound that depends on the configured limits only. *)
Theorem C59_whole_lookup : exists bound : nat -> nat -> nat -> nat, forall p env conf node kind w fuel,
  env_ok plain_record env -> cache_ok plain_record (ev_now (env (w_n w))) (w_cache w) -> accepted node -> usable_type kind ->
  (forall n a x d, ev_net (env n) a x = Some d -> decode_message p (firstn 512 d) <> Diverge) ->
  length (w_sent (snd (snd (perform p env fuel (new_lookup conf node kind, w))))) <= length (w_sent w) + bound (max_ns conf) (max_retries conf) (max_cname conf).
Proof.
  destruct C56_lookups_terminate as (F & T). exists (fun a b c => budget a b c F). intros p env conf node kind w fuel EO Hw Hn Hk Hl.
  destruct (T p env conf node kind w EO Hw Hn Hk Hl) as (r & s' & D & R). destruct (Nat.le_gt_cases F fuel) as [L|L].
  - rewrite (R fuel L), <- (R F (le_n _)). now apply costs_perform.
  - etransitivity; [now apply (costs_perform p env (max_ns conf) (max_retries conf) (max_cname conf) fuel)|]. apply Nat.add_le_mono_l. apply budget_mono. lia.
Qed.
Print Assumptions C59_whole_lookup.

(** Three servers of ".", two tries each, nobody answers: six packets, in turn. *)
Theorem C59_nonvacuous :
  let k := mkLookup (s2b "www.example.com.") RT_A [] [] root_zone_nameservers [] conf0 in
  Forall (fun s => addresses_only s /\ n_addrs s <> []) (l_next k) /\
  map fst (rev (w_sent (snd (snd (perform Release (script silence) 6 (new_lookup conf0 (s2b "www.example.com.") RT_A, world0)))))) =
    [[198; 41; 0; 4]; [198; 41; 0; 4]; [199; 9; 14; 201]; [199; 9; 14; 201]; [192; 33; 4; 12]; [192; 33; 4; 12]]%N.
Proof.
  split; [|vm_compute; reflexivity]. cbn [l_next]. unfold root_zone_nameservers. apply Forall_forall. intros s Hs. apply in_map_iff in Hs as (x & <- & _). split; [repeat constructor|discriminate].
Qed.
Print Assumptions C59_nonvacuous.
