(** C73, C74: retries, and that one working server is enough. *)
From Coq Require Import Permutation.
From Verif Require Import Base Types Name NameSpec NameProofs Codec CodecSpec CodecWrite CodecMessage EncodeTotal PropCodec1 PropCodec3 NsSpec Cache Resolver ResolverLists ResolverSpec ResolverInv ResolverRun ResolverFacts ResolverFuel ResolverEx PropResolver1 PropResolver2 PropResolver3.

(** * C73 *)
(** One try: the query is sent to the server's first address at the [i]-th event, and
    nothing usable comes back, or a response does. *)
Definition query_at (env : environment) (node : name) (kind : rtype) (i : nat) : list N :=
  query_header (ev_id (env i)) ++ wire_question (mkQ node kind C_IN).
Definition try_fails (p : profile) (env : environment) (addr : list N) (node : name) (kind : rtype) (i : nat) : Prop :=
  match ev_net (env i) addr (query_at env node kind i) with
  | None => True
  | Some d => match decode_message p (firstn 512 d) with Done (Err _) => True | Done (Ok m) => h_id (m_header m) <> ev_id (env i) | _ => False end
  end.
Definition try_yields (p : profile) (env : environment) (addr : list N) (node : name) (kind : rtype) (i : nat) (m : message) : Prop :=
  exists d, ev_net (env i) addr (query_at env node kind i) = Some d /\ decode_message p (firstn 512 d) = Done (Ok m) /\ h_id (m_header m) = ev_id (env i).
(** The server's first address. *)
Definition first_addr (s : nsrv) (a : list N) : Prop := exists r rs, n_addrs s = r :: rs /\ r_data r = D_A a.

Lemma first_addr_is : forall s a, addresses_only s -> first_addr s a -> exists l, ns_addrs s = Done (a :: l).
Proof.
  intros s a Ho (r & rs & E & Er). destruct (first_address s Ho) as (a' & l & Ea & Eh); [congruence|]. exists l. rewrite Ea. f_equal. f_equal.
  rewrite E in Eh. cbn [flat_map] in Eh. rewrite Er in Eh. cbn in Eh. congruence.
Qed.

(** One [send_query] is one try. *)
Lemma one_try : forall p env node kind s a w, is_u16 (ev_id (env (w_n w))) -> sendable node -> usable_type kind -> addresses_only s -> first_addr s a ->
  (forall d, ev_net (env (w_n w)) a (query_at env node kind (w_n w)) = Some d -> exists r, decode_message p (firstn 512 d) = Done r) ->
  exists r, send_query p env node kind s w = (Done r, mkWorld (w_cache w) (S (w_n w)) ((a, query_at env node kind (w_n w)) :: w_sent w)) /\
    match r with Ok m => try_yields p env a node kind (w_n w) m | Err _ => try_fails p env a node kind (w_n w) end.
Proof.
  intros p env node kind s a w Hi Hs Hk Ho Ha Hd. assert (Hn : accepted node) by (destruct Hs as (ls & H & _); now exists ls).
  destruct (query_bytes p (ev_id (env (w_n w))) node kind Hi Hn Hk) as (q & Eq & Hq). rewrite (Hq Hs) in Eq. clear Hq q. fold (query_at env node kind (w_n w)) in Eq.
  destruct (first_addr_is s a Ho Ha) as (l & El). unfold send_query. rewrite Eq, El. unfold try_yields, try_fails. change MAX_UDP_LEN_BYTES with 512.
  destruct (ev_net (env (w_n w)) a (query_at env node kind (w_n w))) as [d|] eqn:En; [|exists (Err L_IO); now split].
  destruct (Hd d eq_refl) as (r & Ed). rewrite Ed. destruct r as [m|e]; [|exists (Err L_Malformed); now split].
  destruct (N.eqb_spec (h_id (m_header m)) (ev_id (env (w_n w)))) as [Ei|Ei].
  - exists (Ok m). split; [reflexivity|]. exists d. now repeat split.
  - exists (Err L_Malformed). split; [reflexivity|exact Ei].
Qed.

(** The packets of [k] tries from event [i] on, newest first. *)
Definition tries (env : environment) (addr : list N) (node : name) (kind : rtype) (i k : nat) : list (list N * list N) :=
  rev (map (fun j => (addr, query_at env node kind j)) (seq i k)).
Lemma tries_S : forall env a node kind i k, tries env a node kind i (S k) = tries env a node kind (S i) k ++ [(a, query_at env node kind i)].
Proof. intros. unfold tries. cbn [seq map rev]. reflexivity. Qed.

(** The first response ends the tries; without one, all that are configured are made. *)
Lemma retries_are : forall p env node kind s a, (forall n, is_u16 (ev_id (env n))) -> sendable node -> usable_type kind -> addresses_only s -> first_addr s a ->
  (forall i d, ev_net (env i) a (query_at env node kind i) = Some d -> exists r, decode_message p (firstn 512 d) = Done r) ->
  forall n err w, 0 < n \/ err <> None ->
  (exists k m, k < n /\ (forall i, i < k -> try_fails p env a node kind (w_n w + i)) /\ try_yields p env a node kind (w_n w + k) m /\
     send_query_with_retries p env n err node kind s w = (Done (Ok m), mkWorld (w_cache w) (w_n w + S k) (tries env a node kind (w_n w) (S k) ++ w_sent w))) \/
  ((forall i, i < n -> try_fails p env a node kind (w_n w + i)) /\
     exists e, send_query_with_retries p env n err node kind s w = (Done (Err e), mkWorld (w_cache w) (w_n w + n) (tries env a node kind (w_n w) n ++ w_sent w))).
Proof.
  intros p env node kind s a Hi Hs Hk Ho Ha Hd. induction n as [|n IH]; intros err w He; cbn [send_query_with_retries].
  - right. split; [intros; lia|]. destruct err as [e|]; [|destruct He; [lia|congruence]]. exists e. unfold wret. rewrite Nat.add_0_r. cbn [tries seq map rev app]. now destruct w.
  - destruct (one_try p env node kind s a w (Hi _) Hs Hk Ho Ha) as (r & E & R); [intros d H; exact (Hd _ _ H)|]. unfold wbind. rewrite E. destruct r as [m|e].
    + left. exists 0, m. split; [lia|]. split; [intros; lia|]. rewrite Nat.add_0_r, Nat.add_1_r. split; [exact R|]. reflexivity.
    + set (w1 := mkWorld (w_cache w) (S (w_n w)) ((a, query_at env node kind (w_n w)) :: w_sent w)).
      assert (Sh : forall k, tries env a node kind (S (w_n w)) k ++ w_sent w1 = tries env a node kind (w_n w) (S k) ++ w_sent w).
      { intros k. rewrite tries_S, <- app_assoc. reflexivity. }
      assert (Ft : forall k, (forall i, i < k -> try_fails p env a node kind (w_n w1 + i)) -> forall i, i < S k -> try_fails p env a node kind (w_n w + i)).
      { intros k F [|i] Hlt; [rewrite Nat.add_0_r; exact R|]. replace (w_n w + S i) with (w_n w1 + i) by (cbn; lia). apply F. lia. }
      assert (Ne : Some e <> None) by (intros H; discriminate H).
      destruct (IH (Some e) w1 (or_intror Ne)) as [(k & m & L & F & Y & E')|(F & e' & E')].
      * left. exists (S k), m. split; [lia|]. split; [now apply Ft|]. replace (w_n w + S k) with (w_n w1 + k) by (cbn; lia). split; [exact Y|].
        rewrite E'. cbn [w_cache w_n w1]. rewrite Sh. do 2 f_equal. lia.
      * right. split; [now apply Ft|]. exists e'. rewrite E'. cbn [w_cache w_n w1]. rewrite Sh. do 2 f_equal. lia.
Qed.

(** A request to a server: [retries] tries. It succeeds with the first response received,
    which is what the outcome is computed from; it is given up after exactly [retries]
    tries that all failed. (The first address only is tried: see DESIGN.md.) *)
Theorem C73_all_tries_are_made : forall p env conf node kind s a w k,
  (forall n, is_u16 (ev_id (env n))) -> sendable node -> usable_type kind -> addresses_only s -> first_addr s a -> 0 < max_retries conf ->
  (forall n x d, ev_net (env n) a x = Some d -> exists r, decode_message p (firstn 512 d) = Done r) ->
  let '(r, (_, w')) := perform_request p env node kind s (max_retries conf) (k, w) in
  (exists j m, j < max_retries conf /\ (forall i, i < j -> try_fails p env a node kind (w_n w + i)) /\ try_yields p env a node kind (w_n w + j) m /\
     w_sent w' = tries env a node kind (w_n w) (S j) ++ w_sent w /\ r = read_response m node kind (ns_zone s)) \/
  ((forall i, i < max_retries conf -> try_fails p env a node kind (w_n w + i)) /\
     w_sent w' = tries env a node kind (w_n w) (max_retries conf) ++ w_sent w /\ exists e, r = Done (Err e)).
Proof.
  intros p env conf node kind s a w k Hi Hs Hk Ho Ha Hr Hd. unfold perform_request, lbind at 1. rewrite lw_run. cbn [fst snd].
  destruct (retries_are p env node kind s a Hi Hs Hk Ho Ha (fun i d H => Hd i _ d H) (max_retries conf) None w (or_introl Hr)) as [(j & m & L & F & Y & E)|(F & e & E)]; rewrite E; cbn [fst snd].
  - unfold lbind, trace_raw, lexec. cbn [fst snd]. left. exists j, m. now repeat split.
  - cbn [lret]. right. split; [exact F|]. split; [reflexivity|]. now exists e.
Qed.
Print Assumptions C73_all_tries_are_made.

(** The second of two tries succeeds; and both fail. *)
Definition srv_root : nsrv := mkNs (rec_ [46]%N 60 (D_NS (s2b "ns."))) [rec_ (s2b "ns.") 60 (D_A [9; 9; 9; 9]%N)].
Definition env_second : environment := script (at_event 1 (packet RC_NxDomain true [] [] []) silence).
Theorem C73_nonvacuous : (forall n, is_u16 (ev_id (env_second n))) /\ sendable (s2b "a.b.") /\ usable_type RT_A /\ addresses_only srv_root /\ first_addr srv_root [9; 9; 9; 9]%N /\ 0 < max_retries conf0 /\
  (forall n a x d, ev_net (env_second n) a x = Some d -> exists r, decode_message Release (firstn 512 d) = Done r) /\
  fst (perform_request Release env_second (s2b "a.b.") RT_A srv_root (max_retries conf0) (new_lookup conf0 (s2b "a.b.") RT_A, world0)) = Done (Ok (NR_NoDomain None)) /\
  length (w_sent (snd (snd (perform_request Release env_second (s2b "a.b.") RT_A srv_root (max_retries conf0) (new_lookup conf0 (s2b "a.b.") RT_A, world0))))) = 2 /\
  fst (perform_request Release (script silence) (s2b "a.b.") RT_A srv_root (max_retries conf0) (new_lookup conf0 (s2b "a.b.") RT_A, world0)) = Done (Err L_IO).
Proof.
  split; [intros n; unfold is_u16; cbn; lia|]. split; [apply sendable_b_ok; vm_compute; reflexivity|]. split; [unfold usable_type; tauto|]. split; [repeat constructor|].
  split; [eexists _, _; split; reflexivity|]. split; [cbn; lia|]. split.
  - intros n a x d. unfold env_second, script, at_event, silence. cbn [ev_net]. destruct (n =? 1); [|discriminate]. intros H.
    match type of H with Some ?y = _ => assert (E : d = y) by congruence end. rewrite E. vm_compute. eexists. reflexivity.
  - vm_compute. repeat split.
Qed.
Print Assumptions C73_nonvacuous.

(** * C74 *)
(** A response that helps with a question, asked of a server of [zone]: an answer, an
    alias, a delegation to a zone further down (to a server that is either not in that zone
    or whose address is sent along), or an authoritative denial. *)
Definition helpful (m : message) (node : name) (kind : rtype) (zone : name) : Prop :=
  (h_rcode (m_header m) = RC_NoError /\
    ((exists r, In r (m_answers m) /\ r_node r = node /\ (record_type r = kind \/ record_type r = RT_CNAME)) \/
     (exists r n, In r (m_authorities m) /\ r_data r = D_NS n /\ (exists pre, node = pre ++ r_node r) /\ length zone < length (r_node r) /\
        (~ (exists pre, n = pre ++ r_node r) \/ exists g, In g (m_additionals m) /\ r_node g = n /\ record_type g = RT_A)))) \/
  (h_rcode (m_header m) = RC_NxDomain /\ h_aa (m_header m) = true).

Lemma glue_found : forall g n rs add, In g add -> r_node g = n -> record_type g = RT_A -> (exists r, In r rs /\ r_data r = D_NS n) ->
  match nss_of rs add with Done (l, _) => exists s, In s l /\ n_addrs s <> [] | _ => True end.
Proof.
  intros g n. induction rs as [|r0 rs IH]; intros add Hg Hn Ht (r & Hr & Er); [now destruct Hr|]. cbn [nss_of].
  unfold ns_data. destruct (r_data r0) as [a|t| | | | | | | ] eqn:E0; cbn [bind]; try exact I.
  destruct (C53_extract_records add RT_A t) as (got & rest & -> & P & G1 & G2).
  assert (X : In g got \/ In g rest). { apply in_app_or. now apply (Permutation_in g (Permutation_sym P)). }
  destruct (nss_of rs rest) as [[l rest']|k|] eqn:En; cbn [bind]; try exact I.
  destruct X as [X|X].
  - exists (mkNs r0 got). split; [now left|]. intros C. cbn [n_addrs] in C. rewrite C in X. destruct X.
  - assert (t <> n). { intros ->. apply (G2 g X). now split. }
    destruct Hr as [<- | Hr]; [congruence|]. specialize (IH rest X Hn Ht (ex_intro _ r (conj Hr Er))). rewrite En in IH.
    destruct IH as (s & Is & Hs). exists s. split; [now right|exact Hs].
Qed.

Lemma kept_ok : forall l, Forall (server_ok (fun _ => True)) l -> forall s n, In s l -> r_data (n_rec s) = D_NS n ->
  (n_addrs s <> [] \/ ~ (exists pre, n = pre ++ ns_zone s)) -> exists l', drop_glueless l = Done l' /\ In s l'.
Proof.
  induction l as [|s0 l IH]; intros Hl s n Hs En Hk; [destruct Hs|]. inversion Hl as [|? ? Hs0 Hl']; subst. cbn [drop_glueless].
  destruct (ips_total _ (server_addrs _ s0 Hs0)) as (a & Ea & La). pose proof Hs0 as (_ & n0 & E0 & _). unfold ns_node, ns_addrs, ns_data. rewrite E0, Ea. cbn [bind].
  destruct Hs as [<- | Hs].
  - destruct (drop_glueless_ok _ l Hl') as (l' & -> & _). cbn [bind]. eexists. split; [reflexivity|].
    assert (n0 = n) by congruence. subst n0. replace (is_nameserver_in_subzone_without_glue n (ns_zone s0) _) with false; [now left|]. symmetry.
    unfold is_nameserver_in_subzone_without_glue. apply andb_false_iff. destruct Hk as [Hk|Hk]; [right|left].
    + destruct a; [|reflexivity]. destruct (n_addrs s0); [congruence|discriminate La].
    + destruct (ends_with n (ns_zone s0)) eqn:E; [|reflexivity]. apply ends_with_spec in E. contradiction.
  - destruct (IH Hl' s n Hs En Hk) as (l' & -> & Hin). cbn [bind]. eexists. split; [reflexivity|]. destruct (is_nameserver_in_subzone_without_glue _ _ _); [exact Hin|now right].
Qed.

Lemma helpful_read : forall m node kind zone, helpful m node kind zone -> exists x, read_response m node kind zone = Done (Ok x).
Proof.
  intros m node kind zone H. unfold read_response.
  assert (Tr : forall l : list record, Forall (fun _ => True) l) by (intros; apply Forall_forall; intros; exact I).
  destruct H as [(Er & H)|(Er & Ea)]; rewrite Er; [|rewrite Ea; eexists; reflexivity].
  destruct (C53_extract_records (m_answers m) kind node) as (got & rest & -> & P & H1 & H2). destruct got as [|g got]; [|eexists; reflexivity].
  cbn [app] in P. destruct (C53_extract_record rest RT_CNAME node) as [(c & rest' & b & a & -> & E & Ec & Et & _)|(-> & Hno)]; cbn [fst].
  - destruct (type_CNAME c Et) as (t & Ect). unfold cname_data. rewrite Ect. cbn [bind]. unfold extract_next_nss_for_cname.
    destruct (nss_of_ok (fun _ => True) (filter (fun r => rtype_eqb (record_type r) RT_NS && ends_with t (r_node r)) (m_authorities m)) (m_additionals m)) as (l & rest'' & -> & _); [|apply Tr|].
    { apply Forall_forall. intros x X. apply filter_In in X as (_ & X). apply andb_true_iff in X as (X & _). apply rtype_eqb_eq in X. now split. }
    eexists. reflexivity.
  - destruct H as [(r & Ir & Nr & Tr')|(r & n & Ir & Dr & Hpre & Hlen & Hg)].
    { exfalso. apply (Permutation_in r (Permutation_sym P)) in Ir. destruct Tr' as [Tr' | Tr']; [exact (H2 r Ir (conj Nr Tr'))|exact (Hno r Ir (conj Nr Tr'))]. }
    unfold extract_next_nss_for_subzone.
    match goal with |- context [nss_of ?f _] => set (f0 := f) end.
    assert (If : In r f0).
    { apply filter_In. split; [exact Ir|]. apply andb_true_iff. split; [apply rtype_eqb_eq; unfold record_type; now rewrite Dr|].
      apply andb_true_iff. split; [now apply ends_with_spec|]. unfold is_nameserver_authority_a_subzone. apply negb_true_iff, Nat.leb_gt. exact Hlen. }
    destruct (nss_of_ok (fun _ => True) f0 (m_additionals m)) as (l & rest'' & Enss & Hl & Em); [|apply Tr|].
    { apply Forall_forall. intros x X. apply filter_In in X as (_ & X). apply andb_true_iff in X as (X & _). apply rtype_eqb_eq in X. now split. }
    assert (K : exists s n', In s l /\ r_data (n_rec s) = D_NS n' /\ (n_addrs s <> [] \/ ~ (exists pre, n' = pre ++ ns_zone s))).
    { destruct Hg as [Hg|(g & Ig & Ng & Tg)].
      - rewrite <- Em in If. apply in_map_iff in If as (s & Es & Is). exists s, n. split; [exact Is|]. split; [now rewrite Es|]. right. unfold ns_zone. now rewrite Es.
      - pose proof (glue_found g n f0 (m_additionals m) Ig Ng Tg (ex_intro _ r (conj If Dr))) as G. rewrite Enss in G. destruct G as (s & Is & Ha).
        rewrite Forall_forall in Hl. destruct (Hl s Is) as (_ & n' & E' & _). exists s, n'. split; [exact Is|]. split; [exact E'|]. now left. }
    destruct K as (s & n' & Is & Es & Ks). rewrite Enss. cbn [bind]. destruct (kept_ok l Hl s n' Is Es Ks) as (l' & -> & Il'). cbn [bind].
    destruct l' as [|s' l']; [destruct Il'|]. eexists. reflexivity.
Qed.

(** A working server: every response it sends helps, and of any [retries] tries in a row at
    least one brings a response. *)
Definition works (p : profile) (env : environment) (retries : nat) (a : list N) (node : name) (kind : rtype) (zone : name) : Prop :=
  (forall i m, try_yields p env a node kind i m -> helpful m node kind zone) /\
  (forall n, exists i m, i < retries /\ try_yields p env a node kind (n + i) m).

Lemma yields_not_fails : forall p env a node kind i m, try_yields p env a node kind i m -> ~ try_fails p env a node kind i.
Proof. intros p env a node kind i m (d & E & Ed & Ei). unfold try_fails. rewrite E, Ed. congruence. Qed.

Lemma working_request : forall p env node kind s a n,
  (forall n, is_u16 (ev_id (env n))) -> sendable node -> usable_type kind -> addresses_only s -> first_addr s a ->
  (forall n x d, ev_net (env n) a x = Some d -> exists r, decode_message p (firstn 512 d) = Done r) ->
  works p env n a node kind (ns_zone s) ->
  forall k, match perform_request_with_trace p env node kind s n k with (Done (Err _), _) => False | _ => True end.
Proof.
  intros p env node kind s a n Hi Hs Hk Ho Ha Hd (W1 & W2) [k w]. unfold perform_request_with_trace. unfold lbind at 1.
  destruct (trace_ns_req node kind s (k, w)) as [[[]|x|] [k1 w1]]; [|exact I|exact I].
  assert (Hn : 0 < n) by (destruct (W2 0) as (i & _ & L & _); lia).
  unfold lbind at 1, perform_request, lbind at 1. rewrite lw_run. cbn [fst snd].
  destruct (retries_are p env node kind s a Hi Hs Hk Ho Ha (fun i d H => Hd i _ d H) n None w1 (or_introl Hn)) as [(j & m & L & F & Y & E)|(F & e & E)]; rewrite E; cbn [fst snd].
  - destruct (helpful_read m node kind (ns_zone s) (W1 _ m Y)) as (x & Ex). unfold lbind, trace_raw, lexec, lret. cbn [fst snd]. rewrite Ex. exact I.
  - exfalso. destruct (W2 (w_n w1)) as (i & m & L & Y). exact (yields_not_fails _ _ _ _ _ _ _ Y (F i L)).
Qed.

(** Requests and sub-lookups change only the trace of a lookup. *)
Definition still {A} (m : L A) : Prop := forall s, core (fst (snd (m s))) = core (fst s).
Lemma still_bind : forall A B (m : L A) (k : A -> L B), still m -> (forall a, still (k a)) -> still (lbind m k).
Proof.
  intros A B m k Hm Hk s. unfold lbind. specialize (Hm s). destruct (m s) as [[a|q|] s']; cbn [fst snd] in *; try exact Hm.
  specialize (Hk a s'). congruence.
Qed.
Lemma still_ret : forall A (a : A), still (lret a). Proof. intros A a s. reflexivity. Qed.
Lemma still_exec : forall A (a : exec A), still (lexec a). Proof. intros A a s. reflexivity. Qed.
Lemma still_get : forall A (f : lookup -> A), still (lget f). Proof. intros A f s. reflexivity. Qed.
Lemma still_lw : forall A (m : W A), still (lw m). Proof. intros A m s. unfold lw. now destruct (m (snd s)). Qed.
Lemma still_trace : forall t, still (trace t). Proof. intros t s. unfold trace. cbn [fst snd]. now destruct (silent _). Qed.
Lemma still_trace_raw : forall t, still (trace_raw t). Proof. intros t s. unfold trace_raw. cbn [fst snd]. destruct (silent _); [reflexivity|]. now destruct (negb _). Qed.
Lemma still_request : forall p env node kind s n, still (perform_request_with_trace p env node kind s n).
Proof.
  intros p env node kind s n. unfold perform_request_with_trace, perform_request, trace_ns_req.
  apply still_bind; [apply still_bind; [apply still_get|]; intros []; [apply still_ret|]; apply still_bind; [apply still_exec|]; intros ?; apply still_trace|].
  intros _. apply still_bind; [apply still_bind; [apply still_lw|]; intros [m|e]; [|apply still_ret]; apply still_bind; [apply still_trace_raw|]; intros _; apply still_exec|].
  intros [x|e]; (apply still_bind; [apply still_trace|]; intros _; apply still_ret).
Qed.
Lemma still_subquery : forall sub node zone, still (resolve_ns_subquery sub node zone).
Proof.
  intros sub node zone. unfold resolve_ns_subquery. apply still_bind; [apply still_get|]. intros zones. destruct (detect_zones_loop _ _); [apply still_ret|].
  intros s. cbn zeta. destruct (sub _) as [[r|k|] [l w]]; reflexivity.
Qed.
Lemma request_core2 : forall p env node kind s n k, core2 (fst (snd (perform_request_with_trace p env node kind s n k))) = core2 (fst k).
Proof. intros. apply core_core2, still_request. Qed.
Lemma subquery_core2 : forall sub node zone k, core2 (fst (snd (resolve_ns_subquery sub node zone k))) = core2 (fst k).
Proof. intros. apply core_core2, still_subquery. Qed.

(** If one of the servers that are asked for a zone works, asking them does not fail,
    whatever the others do. (It does not panic either, in the circumstances of C61.) *)
Lemma working_servers : forall p env sub l k0 s a,
  (forall n, is_u16 (ev_id (env n))) -> sendable (l_node k0) -> usable_type (l_kind k0) -> In s l -> addresses_only s -> first_addr s a ->
  (forall n x d, ev_net (env n) a x = Some d -> exists r, decode_message p (firstn 512 d) = Done r) ->
  works p env (max_retries (l_conf k0)) a (l_node k0) (l_kind k0) (ns_zone s) ->
  forall err k w, core2 k = core2 k0 ->
  match query_servers p env sub l err (k, w) with (Done (Asked_result (Err _)), _) => False | _ => True end.
Proof.
  intros p env sub l k0 s a Hi Hs Hk Is Ho Ha Hd Hw. revert Is. induction l as [|s0 l IH]; intros Is err k w C; [destruct Is|]. cbn [query_servers].
  unfold lbind at 1, lexec at 1.
  (* what follows once the server has addresses *)
  assert (K : forall s' k1 w1, core2 k1 = core2 k0 -> (In s l \/ (s' = s /\ True)) ->
    match (let* node := lget l_node in let* kind := lget l_kind in let* conf := lget l_conf in
             let* r := perform_request_with_trace p env node kind s' (max_retries conf) in
             match r with
             | Err e => query_servers p env sub l (first_err err e)
             | Ok (NR_Delegation next) => let* _ := lw (save_nss env next) in let* _ := lmod (set_next next) in lret (Asked_next next)
             | Ok x => lret (Asked_result (Ok x))
             end) (k1, w1) with (Done (Asked_result (Err _)), _) => False | _ => True end).
  { intros s' k1 w1 C1 Hor. unfold lbind at 1 2 3, lget. cbn [fst]. unfold core2 in C1. injection C1 as E1 E2 E3 E4 E5. rewrite E1, E2, E5. unfold lbind at 1.
    pose proof (request_core2 p env (l_node k0) (l_kind k0) s' (max_retries (l_conf k0)) (k1, w1)) as Q.
    assert (Wk : s' = s -> match perform_request_with_trace p env (l_node k0) (l_kind k0) s' (max_retries (l_conf k0)) (k1, w1) with (Done (Err _), _) => False | _ => True end).
    { intros ->. apply (working_request p env (l_node k0) (l_kind k0) s a); assumption. }
    destruct (perform_request_with_trace p env (l_node k0) (l_kind k0) s' (max_retries (l_conf k0)) (k1, w1)) as [[[x|e]|q|] [k2 w2]]; try exact I.
    - destruct x as [soa|ans add|c nx|nx]; try exact I. unfold lbind, lw, lmod, lret. cbn [fst snd]. destruct (save_nss env nx w2) as [[u|q|] w3]; exact I.
    - destruct Hor as [Hor|(-> & _)]; [|destruct (Wk eq_refl)]. apply IH; [exact Hor|]. cbn [fst snd] in Q. rewrite Q. unfold core2. now rewrite E1, E2, E3, E4, E5. }
  destruct Is as [-> | Is].
  - destruct (first_addr_is s a Ho Ha) as (al & El). rewrite El. unfold lbind at 1, lret at 1. apply K; [exact C|]. right. now split.
  - destruct (ns_addrs s0) as [[|a0 al]|q|]; try exact I.
    + unfold lbind at 1 2, lexec at 1. destruct (ns_node s0) as [n0|q|]; try exact I. unfold lbind at 1.
      pose proof (subquery_core2 sub n0 (ns_zone s0) (k, w)) as Q.
      destruct (resolve_ns_subquery sub n0 (ns_zone s0) (k, w)) as [[[x|e]|q|] [k1 w1]]; try exact I; cbn [lret fst snd] in *.
      * apply K; [congruence|]. now left.
      * apply IH; [exact Is|]. congruence.
    + unfold lbind at 1, lret at 1. apply K; [exact C|]. now left.
Qed.

(** The servers of a zone [next]: those that have an address are asked first, in order, and
    at most [max_ns] in all. *)
Theorem C74_one_working_server_is_enough : forall p env sub k w next s a sorted,
  (forall n, is_u16 (ev_id (env n))) -> sendable (l_node k) -> usable_type (l_kind k) ->
  Forall addresses_only next -> In s (firstn (max_ns (l_conf k)) (filter addressed next)) -> first_addr s a ->
  (forall n x d, ev_net (env n) a x = Some d -> exists r, decode_message p (firstn 512 d) = Done r) ->
  works p env (max_retries (l_conf k)) a (l_node k) (l_kind k) (ns_zone s) ->
  sort_nameservers next = Done sorted ->
  forall e s', query_servers p env sub (firstn (max_ns (l_conf k)) sorted) None (k, w) <> (Done (Asked_result (Err e)), s').
Proof.
  intros p env sub k w next s a sorted Hi Hs Hk Hf Is Ha Hd Hw Es e s' E.
  rewrite (C54_servers_with_addresses_first next Hf) in Es. injection Es as <-.
  assert (Is' : In s (firstn (max_ns (l_conf k)) (filter addressed next ++ filter (fun s => negb (addressed s)) next))).
  { rewrite firstn_app. apply in_or_app. now left. }
  assert (Ho : addresses_only s). { rewrite Forall_forall in Hf. apply Hf. apply firstn_incl in Is. now apply filter_In in Is. }
  pose proof (working_servers p env sub _ k s a Hi Hs Hk Is' Ho Ha Hd Hw None k w eq_refl) as R. rewrite E in R. exact R.
Qed.
Print Assumptions C74_one_working_server_is_enough.

(** The same for the loop over zones: if it fails, then in a later zone. *)
Theorem C74_failures_are_of_later_zones : forall p env sub fuel k w s a e s',
  (forall n, is_u16 (ev_id (env n))) -> sendable (l_node k) -> usable_type (l_kind k) ->
  Forall addresses_only (l_next k) -> In s (firstn (max_ns (l_conf k)) (filter addressed (l_next k))) -> first_addr s a ->
  (forall n x d, ev_net (env n) a x = Some d -> exists r, decode_message p (firstn 512 d) = Done r) ->
  works p env (max_retries (l_conf k)) a (l_node k) (l_kind k) (ns_zone s) ->
  query_zones p env sub (S fuel) (k, w) = (Done (Err e), s') ->
  exists next s1, query_servers p env sub (firstn (max_ns (l_conf k)) (filter addressed (l_next k) ++ filter (fun s => negb (addressed s)) (l_next k))) None (set_next [] k, w) = (Done (Asked_next next), s1) /\
    query_zones p env sub fuel s1 = (Done (Err e), s').
Proof.
  intros p env sub fuel k w s a e s' Hi Hs Hk Hf Is Ha Hd Hw E. pose proof (C54_servers_with_addresses_first (l_next k) Hf) as Es.
  pose proof (C74_one_working_server_is_enough p env sub (set_next [] k) w (l_next k) s a _ Hi Hs Hk Hf Is Ha Hd Hw Es) as R.
  cbn [query_zones] in E. unfold lbind at 1, lget at 1 in E. cbn [fst] in E. destruct (l_next k) as [|s0 nx] eqn:En; [discriminate E|]. rewrite <- En in *.
  unfold lbind at 1, lmod at 1 in E. cbn [fst snd] in E. unfold lbind at 1, lexec at 1 in E. rewrite Es in E. unfold lbind at 1, lget at 1 in E. cbn [fst set_next l_conf] in *.
  unfold lbind at 1 in E.
  destruct (query_servers p env sub (firstn (max_ns (l_conf k)) (filter addressed (l_next k) ++ filter (fun s => negb (addressed s)) (l_next k))) None (set_next [] k, w)) as [[[[x|e']|next]|q|] s1]; cbn [lret] in E; try discriminate E.
  - exfalso. exact (R e' s1 eq_refl).
  - exists next, s1. split; [reflexivity|exact E].
Qed.
Print Assumptions C74_failures_are_of_later_zones.

(** Two servers; the first is silent, the second answers. *)
Definition srv2 : nsrv := mkNs (rec_ [46]%N 60 (D_NS (s2b "ns2."))) [rec_ (s2b "ns2.") 60 (D_A [8; 8; 8; 8]%N)].
Definition env_one : environment := fun _ => mkEv 0 0 (fun c => c) 7 (fun a _ => if (hd 0 a =? 8)%N then Some (packet RC_NoError false [] [rec_ (s2b "b.") 60 (D_NS (s2b "ns.b."))] [rec_ (s2b "ns.b.") 60 (D_A [5; 5; 5; 5]%N)]) else None).
Theorem C74_nonvacuous : (forall n, is_u16 (ev_id (env_one n))) /\ sendable (s2b "a.b.") /\ usable_type RT_A /\ Forall addresses_only [srv_root; srv2] /\
  In srv2 (firstn (max_ns conf0) (filter addressed [srv_root; srv2])) /\ first_addr srv2 [8; 8; 8; 8]%N /\
  (forall n x d, ev_net (env_one n) [8; 8; 8; 8]%N x = Some d -> exists r, decode_message Release (firstn 512 d) = Done r) /\
  works Release env_one (max_retries conf0) [8; 8; 8; 8]%N (s2b "a.b.") RT_A (ns_zone srv2).
Proof.
  split; [intros n; unfold is_u16; cbn; lia|]. split; [apply sendable_b_ok; vm_compute; reflexivity|]. split; [unfold usable_type; tauto|]. split; [repeat constructor|].
  split; [right; left; reflexivity|]. split; [eexists _, _; split; reflexivity|].
  assert (B : exists m, decode_message Release (firstn 512 (packet RC_NoError false [] [rec_ (s2b "b.") 60 (D_NS (s2b "ns.b."))] [rec_ (s2b "ns.b.") 60 (D_A [5; 5; 5; 5]%N)])) = Done (Ok m) /\
    h_id (m_header m) = 7%N /\ helpful m (s2b "a.b.") RT_A (ns_zone srv2)).
  { eexists. split; [vm_compute; reflexivity|]. split; [reflexivity|]. left. split; [reflexivity|]. right. eexists _, _. split; [left; reflexivity|]. split; [reflexivity|].
    split; [exists [97; 46]%N; reflexivity|]. split; [vm_compute; lia|]. right. eexists. split; [left; reflexivity|]. now split. }
  destruct B as (m & Ed & Ei & Hm).
  assert (Y : forall i d, ev_net (env_one i) [8; 8; 8; 8]%N (query_at env_one (s2b "a.b.") RT_A i) = Some d -> decode_message Release (firstn 512 d) = Done (Ok m)).
  { intros i d. unfold env_one. cbn [ev_net hd]. change (8 =? 8)%N with true. cbn [andb]. intros H. assert (E : d = packet RC_NoError false [] [rec_ (s2b "b.") 60 (D_NS (s2b "ns.b."))] [rec_ (s2b "ns.b.") 60 (D_A [5; 5; 5; 5]%N)]) by congruence. rewrite E. exact Ed. }
  split; [|split].
  - intros n x d H. exists (Ok m). exact (Y n d H).
  - intros i m' (d & H1 & H2 & H3). pose proof (Y i d H1) as H4. assert (X : m' = m) by congruence. rewrite X. exact Hm.
  - intros n. exists 0, m. split; [cbn; lia|]. eexists. split; [|split; [exact Ed|exact Ei]]. reflexivity.
Qed.
Print Assumptions C74_nonvacuous.
