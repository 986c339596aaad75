(** Every run of a lookup keeps the invariants of ResolverSpec, and does not panic in a
    calm environment. *)
From Coq Require Import Permutation.
From Verif Require Import Base Types Name NameSpec NameProofs Codec CodecSpec CodecSafe PropCodec2 EncodeTotal NsSpec Cache Resolver ResolverLists ResolverSpec.

Lemma rkey_eqb_eq : forall a b, rkey_eqb a b = true <-> a = b.
Proof. intros [a1 a2] [b1 b2]. unfold rkey_eqb. cbn [fst snd]. rewrite andb_true_iff, bytes_eqb_eq, rtype_eqb_eq. split; [intros (-> & ->)|intros [= -> ->]]; auto. Qed.

Lemma min_fold : forall l a, (fold_left N.min l a <= a)%N /\ Forall (fun x => (fold_left N.min l a <= x)%N) l.
Proof.
  induction l as [|x l IH]; intros a; cbn [fold_left]; [split; [lia|constructor]|].
  destruct (IH (N.min a x)) as (H1 & H2). split; [lia|]. constructor; [lia|assumption].
Qed.

(** * Outcomes *)
Section Outcomes.
  (** In a calm environment there is no panic; in a live one every run ends. *)
  Variable calm live : Prop.
  Definition okW {A} (x : exec A * world) (Q : A -> world -> Prop) (E : world -> Prop) : Prop :=
    match x with (Done a, w) => Q a w | (Panic _, w) => E w /\ ~ calm | (Diverge, w) => E w /\ ~ live end.
  Definition okL {A} (x : exec A * (lookup * world)) (Q : A -> lookup * world -> Prop) (E : world -> Prop) : Prop :=
    match x with (Done a, s) => Q a s | (Panic _, s) => E (snd s) /\ ~ calm | (Diverge, s) => E (snd s) /\ ~ live end.
  Lemma okW_bind : forall A B (m : W A) (k : A -> W B) w Q E, okW (m w) (fun a w' => okW (k a w') Q E) E -> okW (wbind m k w) Q E.
  Proof. intros A B m k w Q E H. unfold wbind. destruct (m w) as [[a|q|] w']; exact H. Qed.
  Lemma okL_bind : forall A B (m : L A) (k : A -> L B) s Q E, okL (m s) (fun a s' => okL (k a s') Q E) E -> okL (lbind m k s) Q E.
  Proof. intros A B m k s Q E H. unfold lbind. destruct (m s) as [[a|q|] s']; exact H. Qed.
  Lemma okL_lw : forall A (m : W A) l w Q E, okW (m w) (fun a w' => Q a (l, w')) E -> okL (lw m (l, w)) Q E.
  Proof. intros A m l w Q E H. unfold lw. cbn [fst snd]. destruct (m w) as [[a|q|] w']; exact H. Qed.
  Lemma okW_mono : forall A (x : exec A * world) (Q Q' : A -> world -> Prop) E, okW x Q E -> (forall a w, Q a w -> Q' a w) -> okW x Q' E.
  Proof. intros A [[a|q|] w] Q Q' E H M; cbn in *; auto. Qed.
  Lemma okL_mono : forall A (x : exec A * (lookup * world)) (Q Q' : A -> lookup * world -> Prop) E, okL x Q E -> (forall a s, Q a s -> Q' a s) -> okL x Q' E.
  Proof. intros A [[a|q|] s] Q Q' E H M; cbn in *; auto. Qed.
  Lemma okL_exec : forall A (m : exec A) s (Q : A -> lookup * world -> Prop) (E : world -> Prop),
    (exists a, m = Done a /\ Q a s) -> okL (lexec m s) Q E.
  Proof. intros A m s Q E (a & -> & H). exact H. Qed.
End Outcomes.

Section Inv.
  Context (p : profile) (env : environment) (good : record -> Prop).
  Context (EO : env_ok good env) (CO : class_ok p env good).
  (** [Dn]: names that packets say with authority not to exist; [SP]: what is
      sent; [n0]: the first event. *)
  Context (Dn : name -> Prop) (SP : list N * list N -> Prop) (n0 : nat).
  (** A calm environment: packets do not make the decoder panic; no record names a name
      server in [Dn]; and a cache access takes less than a second. *)
  Definition quiet : Prop :=
    (forall n a x d, ev_net (env n) a x = Some d -> forall k, decode_message p (firstn 512 d) <> Panic k) /\
    (forall r n, good r -> r_data r = D_NS n -> ~ Dn n) /\
    (forall n, (ev_now' (env n) < ev_now (env n) + SECOND)%N).
  (** A live environment: decoding a packet ends. *)
  Definition live : Prop := forall n a x d, ev_net (env n) a x = Some d -> decode_message p (firstn 512 d) <> Diverge.
  Definition calm (conf : rconf) : Prop := quiet /\ 0 < max_ns conf /\ 0 < max_retries conf.
  Definition winv (w : world) : Prop := cache_ok good (ev_now (env (w_n w))) (w_cache w) /\ Forall SP (w_sent w) /\ n0 <= w_n w.

  Lemma entry_later : forall T T' k e rs, (T <= T')%N -> entry_ok good T k e rs -> entry_ok good T' k e rs.
  Proof. intros T T' k e rs L (H1 & H2 & H3 & (ttl & H4 & H4') & H5 & H6). repeat split; try assumption. exists ttl. split; [assumption|]. lia. Qed.
  Lemma cache_later : forall T T' c, (T <= T')%N -> cache_ok good T c -> cache_ok good T' c.
  Proof. intros T T' c L (H1 & H2). split; [assumption|]. intros k e rs H. eapply entry_later; [exact L|eauto]. Qed.

  (** * Cache accesses *)
  Lemma get_ok : forall w k,
    winv w ->
    exists o w', access env (fun e => O_get k (ev_now' e)) w = (Done (R_entry o), w') /\ winv w' /\ w_sent w' = w_sent w /\ w_n w' = S (w_n w) /\
      match o with
      | None => True
      | Some (exp, rs) => entry_ok good (ev_now' (env (w_n w))) k exp rs /\ (ev_now' (env (w_n w)) < exp)%N
      end.
  Proof.
    intros w k (Hw & Hsp & Hn0). unfold access. set (n := w_n w) in *. pose proof (eo_others good env EO n _ Hw) as (P & D). unfold cache_run. rewrite P. unfold cache_get.
    set (c := c_data (ev_others (env n) (w_cache w))) in *.
    assert (F : (ev_now' (env n) <= ev_now (env (S n)))%N) by apply (eo_forward good env EO).
    assert (I : winv (mkWorld (mkCache c false) (S n) (w_sent w))).
    { unfold winv. cbn [w_n w_cache w_sent]. split; [|split; [exact Hsp|cbn [w_n]; lia]]. apply (cache_later (ev_now' (env n))); [exact F|]. split; [reflexivity|]. exact D. }
    destruct (c k) as [[e rs]|] eqn:Ek.
    - destruct (is_expired e (ev_now' (env n))) eqn:Ee.
      + eexists _, _. split; [reflexivity|]. split; [|now repeat split].
        unfold winv. cbn [w_n w_cache w_sent]. split; [|split; [exact Hsp|cbn [w_n]; lia]]. apply (cache_later (ev_now' (env n))); [exact F|]. split; [reflexivity|].
        intros k' e' rs' H. cbn [c_data] in H. unfold upd in H. destruct (rkey_eqb k k'); [discriminate|]. now apply D.
      + eexists _, _. split; [reflexivity|]. split; [exact I|]. do 2 (split; [reflexivity|]). split; [now apply D|].
        unfold is_expired in Ee. lia.
    - eexists _, _. split; [reflexivity|]. split; [exact I|]. now repeat split.
  Qed.

  Lemma set_ok : forall w k ttl rs, winv w ->
    (forall T, entry_ok good T k (T + ttl * SECOND) rs) -> (ttl < 4294967296)%N ->
    exists r w', access env (fun e => O_set k (ttl * 1000000000) rs (ev_now e) (ev_now' e)) w = (Done r, w') /\ winv w' /\ w_sent w' = w_sent w /\ w_n w' = S (w_n w).
  Proof.
    intros w k ttl rs (Hw & Hsp & Hn0) He Ht. unfold access. set (n := w_n w) in *. pose proof (eo_others good env EO n _ Hw) as (P & D). unfold cache_run. rewrite P. unfold cache_set.
    set (c := c_data (ev_others (env n) (w_cache w))) in *.
    destruct (eo_forward good env EO n) as (F1 & F2).
    assert (B : (ev_now (env n) + ttl * 1000000000 < INSTANT_END)%N).
    { pose proof (eo_end good env EO n) as H. unfold SECOND in H. generalize dependent INSTANT_END. intros IE H. lia. }
    replace (INSTANT_END <=? ev_now (env n) + ttl * 1000000000)%N with false by (symmetry; apply N.leb_gt; exact B).
    set (e' := (ev_now (env n) + ttl * 1000000000)%N) in *.
    assert (I : winv (mkWorld (mkCache (upd rkey_eqb c k (Some (e', rs))) false) (S n) (w_sent w))).
    { unfold winv. cbn [w_n w_cache w_sent]. split; [|split; [exact Hsp|cbn [w_n]; lia]]. apply (cache_later (ev_now' (env n))); [exact F2|]. split; [reflexivity|].
      intros k' e2 rs2 H. cbn [c_data] in H. unfold upd in H. destruct (rkey_eqb k k') eqn:Ek.
      - apply rkey_eqb_eq in Ek. subst k'. assert (e2 = e' /\ rs2 = rs) as (-> & ->) by (split; congruence).
        eapply entry_later; [exact F1|]. apply He.
      - now apply D. }
    destruct (c k) as [[e0 rs0]|]; [destruct (is_expired e0 _)|]; eexists _, _; (split; [reflexivity|]); (split; [exact I|]); split; reflexivity.
  Qed.

  (** * search_records *)
  Definition found (node : name) (kind : rtype) (rs : list record) : Prop :=
    Forall good rs /\ Forall (fun r => record_type r = kind) rs /\ (kind <> RT_NS -> Forall (fun r => r_node r = node) rs) /\
    match rs with r :: _ => r_node r = node | [] => True end.
  Lemma search_ok : forall (q lv : Prop) node kind w, (q -> quiet) -> winv w ->
    okW q lv (search_records env node kind w) (fun rs w' => winv w' /\ w_sent w' = w_sent w /\ found node kind rs) winv.
  Proof.
    intros q lv node kind w Hq Hw. unfold search_records. apply okW_bind. cbn [reading okW].
    apply okW_bind.
    destruct (get_ok w (node, kind) Hw) as (o & w' & -> & I & S1 & S2 & O). cbn [okW].
    assert (Z : okW q lv (wret (@nil record) w') (fun rs w' => winv w' /\ w_sent w' = w_sent w /\ found node kind rs) winv).
    { split; [exact I|]. split; [exact S1|]. repeat split; constructor. }
    destruct o as [[exp [|r0 rs]]|]; [exact Z| |exact Z]. clear Z. destruct O as ((_ & Hg & Ht & (ttl & Hl & Hx) & Ho & (r & rs' & Er & Eo)) & Hlt).
    injection Er as <- <-. cbn [fst snd] in *.
    assert (F : forallb (fun r => rtype_eqb (record_type r) (record_type r0) && (r_ttl r =? r_ttl r0)%N) (r0 :: rs) = true).
    { apply forallb_forall. intros r Hr. rewrite Forall_forall in Ht, Hl. apply andb_true_iff. split.
      - apply rtype_eqb_eq. rewrite (Ht r Hr), (Ht r0); [reflexivity|now left].
      - apply N.eqb_eq. rewrite (Hl r Hr), (Hl r0); [reflexivity|now left]. }
    rewrite F. destruct (eo_forward good env EO (w_n w)) as (F1 & _).
    replace (ev_now (env (w_n w)) <? exp)%N with true by (symmetry; apply N.ltb_lt; lia). cbn [andb].
    set (t := ((exp - ev_now (env (w_n w))) / 1000000000)%N).
    destruct (t <? 4294967296)%N eqn:Et; cbn [wret wexec okW].
    - split; [exact I|]. split; [exact S1|]. repeat split.
      + apply Forall_map. eapply Forall_impl; [|exact Hg]. cbn. intros r Hr. apply (co_ttl p env good CO); [assumption|]. unfold is_u32. lia.
      + apply Forall_map. exact Ht.
      + intros Hk. apply Forall_map. exact (Ho Hk).
      + cbn [map]. exact Eo.
    - split; [exact I|]. intros C. apply Hq in C as (_ & _ & Cp). specialize (Cp (w_n w)).
      assert (U : (ttl < 4294967296)%N). { inversion Hl; subst. inversion Hg; subst. match goal with H : good r0 |- _ => apply (co_names p env good CO) in H as (_ & H & _); exact H end. }
      assert (t < 4294967296)%N; [|lia]. unfold t, SECOND in *. apply N.div_lt_upper_bound; [lia|]. lia.
  Qed.

  (** * save_records *)
  Lemma save_ok : forall (q lv : Prop) rs w, winv w -> rs <> [] -> Forall good rs ->
    (exists kind, Forall (fun r => record_type r = kind) rs /\ (kind <> RT_NS -> exists node, Forall (fun r => r_node r = node) rs)) ->
    okW q lv (save_records env rs w) (fun _ w' => winv w' /\ w_sent w' = w_sent w) winv.
  Proof.
    intros q lv [|r0 rs] w Hw Hn Hg (kind & Ht & Ho); [easy|]. unfold save_records.
    assert (F : forallb (fun r => rtype_eqb (record_type r) (record_type r0)) (r0 :: rs) = true).
    { apply forallb_forall. intros r Hr. rewrite Forall_forall in Ht. apply rtype_eqb_eq. rewrite (Ht r Hr), (Ht r0); [reflexivity|now left]. }
    rewrite F. apply okW_bind. set (m := min_ttl r0 rs).
    assert (U : is_u32 m).
    { inversion Hg; subst. match goal with H : good r0 |- _ => apply (co_names p env good CO) in H as (_ & H & _) end.
      unfold m, min_ttl, is_u32 in *. destruct (min_fold (map r_ttl rs) (r_ttl r0)) as (B & _). lia. }
    destruct (set_ok w (r_node r0, record_type r0) m (map (fun r => set_ttl r m) (r0 :: rs)) Hw) as (r & w' & E & I & S1 & S2); [|exact U|].
    - intros T. repeat split.
      + discriminate.
      + apply Forall_map. eapply Forall_impl; [|exact Hg]. cbn. intros r Hr. now apply (co_ttl p env good CO).
      + apply Forall_map. cbn [snd]. inversion Ht; subst. apply Forall_forall. intros r Hr. rewrite Forall_forall in Ht. change (record_type (set_ttl r m)) with (record_type r). now apply Ht.
      + exists m. split; [apply Forall_map, Forall_forall; intros; reflexivity|]. lia.
      + cbn [fst snd]. intros Hk. apply Forall_map. assert (Ek : kind = record_type r0) by (inversion Ht; congruence).
        rewrite <- Ek in Hk. destruct (Ho Hk) as (node & Hnode). inversion Hnode; subst. apply Forall_forall. intros r Hr. rewrite Forall_forall in Hnode.
        change (r_node (set_ttl r m)) with (r_node r). now apply Hnode.
      + exists (set_ttl r0 m), (map (fun r => set_ttl r m) rs). now split.
    - rewrite E. cbn. now split.
  Qed.

  Lemma server_addrs : forall s, server_ok good s -> addresses_only s.
  Proof. intros s (_ & n & _ & H). unfold addresses_only. eapply Forall_impl; [|exact H]. cbn. clear Dn SP n0. tauto. Qed.
  Lemma save_glue_ok : forall (q lv : Prop) l w, winv w -> Forall (server_ok good) l ->
    okW q lv (save_glue env l w) (fun _ w' => winv w' /\ w_sent w' = w_sent w) winv.
  Proof.
    intros q lv. induction l as [|s l IH]; intros w Hw Hl; cbn [save_glue]; [now split|]. inversion Hl as [|? ? Hs Hl']; subst. destruct Hs as (_ & n & _ & Ha).
    destruct (n_addrs s) as [|a al] eqn:E; [now apply IH|]. apply okW_bind. eapply okW_mono.
    - apply save_ok; [exact Hw|discriminate| |].
      + eapply Forall_impl; [|exact Ha]. cbn. tauto.
      + exists RT_A. split; [eapply Forall_impl; [|exact Ha]; cbn; tauto|]. intros _. exists n. eapply Forall_impl; [|exact Ha]; cbn; tauto.
    - intros _ w' (H1 & H2). eapply okW_mono; [now apply IH|]. intros _ w'' (H3 & H4). split; [assumption|congruence].
  Qed.
  Lemma ns_type : forall s, server_ok good s -> record_type (n_rec s) = RT_NS.
  Proof. intros s (_ & n & E & _). unfold record_type. now rewrite E. Qed.
  Lemma save_nss_ok : forall (q lv : Prop) l w, winv w -> Forall (server_ok good) l -> l <> [] ->
    okW q lv (save_nss env l w) (fun _ w' => winv w' /\ w_sent w' = w_sent w) winv.
  Proof.
    intros q lv l w Hw Hl Hn. unfold save_nss. apply okW_bind. eapply okW_mono; [now apply save_glue_ok|]. intros _ w' (H1 & H2).
    eapply okW_mono; [apply save_ok; [exact H1| | |]|].
    - now destruct l.
    - apply Forall_map. eapply Forall_impl; [|exact Hl]. intros s Hs. apply Hs.
    - exists RT_NS. split; [|easy]. apply Forall_map. eapply Forall_impl; [|exact Hl]. apply ns_type.
    - cbn. intros _ w'' (H3 & H4). split; [assumption|congruence].
  Qed.

  (** * Requests *)
  (** [Ask]: what may be asked. *)
  Context (Ask : name -> rtype -> Prop).
  Definition questions_ok : Prop :=
    (forall r t k, good r -> r_data r = D_CNAME t -> Ask (r_node r) k -> Ask t k) /\
    (forall r t, good r -> r_data r = D_NS t -> Ask t RT_A).
  Definition denials : Prop :=
    forall n, n0 <= n -> forall a x d m, ev_net (env n) a x = Some d -> decode_message p (firstn 512 d) = Done (Ok m) ->
      h_id (m_header m) = ev_id (env n) -> h_rcode (m_header m) = RC_NxDomain -> h_aa (m_header m) = true ->
      forall node kind, encode_message p (build_dns_request (ev_id (env n)) node kind) = Done (Ok x) ->
        accepted node -> usable_type kind -> Ask node kind -> Dn node.
  Definition sendings : Prop :=
    forall n, n0 <= n -> forall a x r node kind, good r -> r_data r = D_A a -> accepted node -> usable_type kind -> Ask node kind ->
      encode_message p (build_dns_request (ev_id (env n)) node kind) = Done (Ok x) -> SP (a, x).

  Definition addressed_ok (s : nsrv) : Prop := server_ok good s /\ n_addrs s <> [].
  Definition sends (n : nat) (w w' : world) : Prop := exists l, w_sent w' = l ++ w_sent w /\ length l <= n.

  Lemma send_ok : forall (q lv : Prop) node kind s w, denials -> sendings -> (q -> quiet) -> (lv -> live) -> (q -> n_addrs s <> []) -> winv w -> accepted node -> usable_type kind -> Ask node kind -> server_ok good s ->
    okW q lv (send_query p env node kind s w)
      (fun r w' => winv w' /\ sends 1 w w' /\ match r with Ok m => Forall good (all_records m) /\ (h_rcode (m_header m) = RC_NxDomain /\ h_aa (m_header m) = true -> Dn node) | Err _ => True end) winv.
  Proof.
    intros q lv node kind s w HDn HSP Hq Hlv Ha Hw Hn Hk HA Hs. unfold send_query. set (e := env (w_n w)).
    destruct (encode_total p (build_dns_request (ev_id e) node kind)) as (out & Eout).
    { repeat split; cbn; try constructor; auto. now apply question_encodable. }
    rewrite Eout. destruct (ips_total _ (server_addrs s Hs)) as (l & El & Ll). unfold ns_addrs. rewrite El.
    destruct l as [|a l]; [cbn; split; [exact Hw|]; intros C; apply Ha in C; now destruct (n_addrs s)|].
    set (w' := mkWorld (w_cache w) (S (w_n w)) ((a, out) :: w_sent w)).
    assert (I : winv w').
    { unfold winv, w'. destruct Hw as (Hw & Hsp & Hn0). cbn [w_n w_cache w_sent]. split; [|split; [|lia]].
      - eapply cache_later; [|exact Hw]. destruct (eo_forward good env EO (w_n w)). lia.
      - constructor; [|exact Hsp]. destruct Hs as (_ & sn & _ & Hfa). destruct (n_addrs s) as [|r0 rs0]; [discriminate Ll|].
        inversion Hfa as [|? ? (Hg0 & Ht0 & _) _]; subst. cbn [ips] in El. unfold a_data in El. unfold record_type in Ht0. destruct (r_data r0) as [a0| | | | | | | |] eqn:E0; try discriminate Ht0.
        cbn [bind] in El. destruct (ips rs0); cbn [bind] in El; try discriminate El. injection El as -> _.
        exact (HSP (w_n w) Hn0 a out r0 node kind Hg0 E0 Hn Hk HA Eout). }
    assert (Sn : sends 1 w w') by (exists [(a, out)]; now split).
    destruct (ev_net e a out) as [d|] eqn:En; [|split; [exact I|]; split; [exact Sn|exact Logic.I]].
    change MAX_UDP_LEN_BYTES with 512. destruct (decode_message p (firstn 512 d)) as [[m|er]|k|] eqn:Ed; cbn [okW].
    - destruct (N.eqb_spec (h_id (m_header m)) (ev_id e)) as [Ei|Ei]; cbn [okW]; (split; [exact I|]); (split; [exact Sn|]); [|exact Logic.I]. split.
      + now apply (co_net p env good CO (w_n w) a out d).
      + intros (X1 & X2). exact (HDn (w_n w) (proj2 (proj2 Hw)) a out d m En Ed Ei X1 X2 node kind Eout Hn Hk HA).
    - split; [exact I|]. split; [exact Sn|exact Logic.I].
    - split; [exact I|]. intros C. apply Hq in C as (Cp & _). exact (Cp (w_n w) a out d En k Ed).
    - split; [exact I|]. intros C. exact (Hlv C (w_n w) a out d En Ed).
  Qed.

  Lemma sends_trans : forall a b w1 w2 w3, sends a w1 w2 -> sends b w2 w3 -> sends (a + b) w1 w3.
  Proof. intros a b w1 w2 w3 (l & E1 & H1) (l' & E2 & H2). exists (l' ++ l). rewrite E2, E1, app_assoc, app_length. split; [reflexivity|lia]. Qed.
  Lemma sends_none : forall w w', w_sent w' = w_sent w -> sends 0 w w'.
  Proof. intros w w' E. exists []. now split. Qed.
  Lemma sends_more : forall a b w w', sends a w w' -> a <= b -> sends b w w'.
  Proof. intros a b w w' (l & E & H) L. exists l. split; [exact E|lia]. Qed.

  Lemma retries_ok : forall (q lv : Prop) node kind s, denials -> sendings -> (q -> quiet) -> (lv -> live) -> (q -> n_addrs s <> []) -> accepted node -> usable_type kind -> Ask node kind -> server_ok good s ->
    forall n err w, winv w -> (q -> 0 < n \/ err <> None) ->
    okW q lv (send_query_with_retries p env n err node kind s w)
      (fun r w' => winv w' /\ sends n w w' /\ match r with Ok m => Forall good (all_records m) /\ (h_rcode (m_header m) = RC_NxDomain /\ h_aa (m_header m) = true -> Dn node) | Err _ => True end) winv.
  Proof.
    intros q lv node kind s HDn HSP Hq Hlv Ha Hn Hk HA Hs. induction n as [|n IH]; intros err w Hw He; cbn [send_query_with_retries].
    - destruct err; cbn; [split; [exact Hw|]; split; [now apply sends_none|exact I]|]. split; [exact Hw|]. intros C. destruct (He C); [lia|congruence].
    - apply okW_bind. eapply okW_mono; [now apply send_ok|]. intros [m|e] w' (H1 & H2 & H3).
      + cbn. split; [assumption|]. split; [eapply sends_more; [exact H2|lia]|exact H3].
      + eapply okW_mono; [apply IH; [assumption|intros _; right; discriminate]|]. intros r w'' (H4 & H5 & H6). split; [assumption|]. split; [|assumption].
        change (S n) with (1 + n). eapply sends_trans; eassumption.
  Qed.

  Definition resp_ok (node : name) (kind : rtype) (zone : name) (x : nsresp) : Prop :=
    match x with
    | NR_NoDomain soa => match soa with Some r => good r /\ record_type r = RT_SOA /\ r_node r = node | None => True end
    | NR_Answer ans add => ans <> [] /\ Forall (fun r => good r /\ r_node r = node /\ record_type r = kind) ans /\ Forall good add
    | NR_Alias c next => good c /\ r_node c = node /\ record_type c = RT_CNAME /\ Forall (server_ok good) next
    | NR_Delegation next => next <> [] /\ Forall (server_ok good) next /\
        Forall (fun s => (exists pre, node = pre ++ ns_zone s) /\ length zone < length (ns_zone s)) next
    end.

  Lemma type_NS : forall r, record_type r = RT_NS -> exists n, r_data r = D_NS n.
  Proof. intros r H. unfold record_type in H. destruct (r_data r); try discriminate. now eexists. Qed.
  Lemma type_CNAME : forall r, record_type r = RT_CNAME -> exists n, r_data r = D_CNAME n.
  Proof. intros r H. unfold record_type in H. destruct (r_data r); try discriminate. now eexists. Qed.

  Lemma nss_of_ok : forall rs add, Forall (fun r => good r /\ record_type r = RT_NS) rs -> Forall good add ->
    exists l rest, nss_of rs add = Done (l, rest) /\ Forall (server_ok good) l /\ map n_rec l = rs.
  Proof.
    induction rs as [|r rs IH]; intros add Hr Ha; cbn [nss_of]; [exists [], add; now repeat split|]. inversion Hr as [|? ? (Hg & Ht) Hr']; subst.
    destruct (type_NS r Ht) as (n & En). unfold ns_data. rewrite En. cbn [bind].
    destruct (C53_extract_records add RT_A n) as (got & rest & -> & P & H1 & H2).
    assert (G : forall r, In r (got ++ rest) -> good r). { intros x Hx. rewrite Forall_forall in Ha. apply Ha. now apply (Permutation_in x P). }
    destruct (IH rest) as (l & rest' & -> & Hl & Em); [assumption|apply Forall_forall; intros x Hx; apply G, in_or_app; now right|].
    cbn [bind]. exists (mkNs r got :: l), rest'. split; [reflexivity|]. split; [|cbn; now rewrite Em].
    constructor; [|assumption]. split; [exact Hg|]. exists n. split; [exact En|]. cbn [n_addrs]. apply Forall_forall. intros x Hx.
    destruct (H1 x Hx) as (X1 & X2). repeat split; [|assumption|assumption]. apply G, in_or_app. now left.
  Qed.

  Lemma drop_glueless_ok : forall l, Forall (server_ok good) l -> exists l', drop_glueless l = Done l' /\ incl l' l.
  Proof.
    induction l as [|s l IH]; intros H; cbn [drop_glueless]; [exists []; split; [reflexivity|intros x Hx; exact Hx]|].
    inversion H as [|? ? Hs Hl]; subst. destruct (IH Hl) as (l' & -> & Hi). destruct (ips_total _ (server_addrs s Hs)) as (a & Ea & _).
    destruct Hs as (_ & n & En & _). unfold ns_node, ns_addrs, ns_data. rewrite En, Ea. cbn [bind].
    eexists. split; [reflexivity|]. destruct (is_nameserver_in_subzone_without_glue _ _ _); intros x Hx; [right; now apply Hi|].
    destruct Hx as [<- | Hx]; [now left|right; now apply Hi].
  Qed.

  Lemma all_split : forall m, Forall good (all_records m) -> Forall good (m_answers m) /\ Forall good (m_authorities m) /\ Forall good (m_additionals m).
  Proof. intros m H. unfold all_records in H. apply Forall_app in H as (H1 & H). apply Forall_app in H as (H2 & H3). auto. Qed.

  Lemma read_response_ok : forall m node kind zone, Forall good (all_records m) ->
    exists r, read_response m node kind zone = Done r /\
      match r with
      | Ok x => resp_ok node kind zone x /\ (forall soa, x = NR_NoDomain soa -> h_rcode (m_header m) = RC_NxDomain /\ h_aa (m_header m) = true)
      | Err _ => True
      end.
  Proof.
    intros m node kind zone H. apply all_split in H as (Ha & Hn & Hx). unfold read_response. rewrite Forall_forall in Ha.
    destruct (h_rcode (m_header m)) eqn:Er; try (eexists; split; [reflexivity|exact I]).
    - destruct (C53_extract_records (m_answers m) kind node) as (got & rest & -> & P & H1 & H2). destruct got as [|g got].
      + cbn [app] in P. destruct (C53_extract_record rest RT_CNAME node) as [(c & rest' & b & a & -> & E & Ec & Et & _)|(-> & _)]; cbn [fst].
        * assert (Gc : good c) by (apply Ha, (Permutation_in c P); rewrite E; apply in_or_app; right; now left).
          destruct (type_CNAME c Et) as (t & Ect). unfold cname_data. rewrite Ect. cbn [bind]. unfold extract_next_nss_for_cname.
          destruct (nss_of_ok (filter (fun r => rtype_eqb (record_type r) RT_NS && ends_with t (r_node r)) (m_authorities m)) (m_additionals m)) as (l & rest'' & -> & Hl & _); [|exact Hx|].
          { apply Forall_forall. intros x X. apply filter_In in X as (X1 & X2). apply andb_true_iff in X2 as (X2 & _). apply rtype_eqb_eq in X2. rewrite Forall_forall in Hn. auto. }
          cbn [bind]. eexists. split; [reflexivity|]. split; [now repeat split|]. intros; discriminate.
        * unfold extract_next_nss_for_subzone.
          match goal with |- context [nss_of ?f _] => destruct (nss_of_ok f (m_additionals m)) as (l & rest'' & -> & Hl & Em) end; [|exact Hx|].
          { apply Forall_forall. intros x X. apply filter_In in X as (X1 & X2). apply andb_true_iff in X2 as (X2 & _). apply rtype_eqb_eq in X2. rewrite Forall_forall in Hn. auto. }
          cbn [bind]. destruct (drop_glueless_ok l Hl) as (l' & -> & Hi). cbn [bind]. eexists. split; [reflexivity|].
          destruct l' as [|s l']; [exact I|]. split; [|intros; discriminate]. split; [discriminate|]. rewrite Forall_forall in Hl. split; apply Forall_forall; intros x X; [apply Hl, Hi, X|].
          assert (X' : In (n_rec x) (map n_rec l)) by (apply in_map, Hi, X). rewrite Em in X'. apply filter_In in X' as (_ & X'). apply andb_true_iff in X' as (_ & X').
          apply andb_true_iff in X' as (X1 & X2). split; [now apply ends_with_spec|]. unfold is_nameserver_authority_a_subzone in X2. apply negb_true_iff, Nat.leb_gt in X2. exact X2.
      + eexists. split; [reflexivity|]. split; [|intros; discriminate]. cbn [resp_ok]. split; [discriminate|]. split; [|exact Hx].
        apply Forall_forall. intros x X. destruct (H1 x X) as (X1 & X2). repeat split; [|assumption|assumption]. apply Ha, (Permutation_in x P), in_or_app. now left.
    - destruct (h_aa (m_header m)); [|eexists; split; [reflexivity|exact I]]. eexists. split; [reflexivity|]. split; [|auto]. cbn [resp_ok].
      destruct (C53_extract_record (m_authorities m) RT_SOA node) as [(c & rest' & b & a & -> & E & Ec & Et & _)|(-> & _)]; cbn [fst]; [|exact I].
      rewrite Forall_forall in Hn. repeat split; [|assumption|assumption]. apply Hn. rewrite E. apply in_or_app. right. now left.
  Qed.
End Inv.
