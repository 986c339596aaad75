(** Every run of a lookup keeps the invariants of ResolverSpec, and does not panic in a
    calm environment (continued): whole lookups. *)
From Coq Require Import Permutation.
From Verif Require Import Base Types Name NameSpec NameProofs Codec CodecSpec CodecSafe PropCodec2 EncodeTotal NsSpec Cache Resolver ResolverLists ResolverSpec ResolverInv.

Definition core (l : lookup) := (l_node l, l_kind l, l_zones l, l_cnames l, l_next l, l_conf l).
Lemma core_eqs : forall l l', core l' = core l ->
  l_node l' = l_node l /\ l_kind l' = l_kind l /\ l_zones l' = l_zones l /\ l_cnames l' = l_cnames l /\ l_next l' = l_next l /\ l_conf l' = l_conf l.
Proof. intros l l' H. unfold core in H. injection H. intros. repeat split; assumption. Qed.

Section Run.
  Context (p : profile) (env : environment) (good : record -> Prop).
  Context (EO : env_ok good env) (CO : class_ok p env good).
  Context (Ask : name -> rtype -> Prop) (HAsk : questions_ok good Ask).
  Context (n0 : nat) (Dn : name -> Prop) (HDn : denials p env Dn n0 Ask) (SP : list N * list N -> Prop) (HSP : sendings p env good SP n0 Ask).
  Context (q lv : Prop) (Hq : q -> quiet p env good Dn) (Hlv : lv -> live p env).
  (** All names there are. *)
  Context (U : list name) (HU : forall n, accepted n -> In n U).
  Notation winv := (winv env good SP n0).
  Notation "'ok' x Q" := (okL q lv x Q winv) (at level 10, x at level 9, Q at level 9).

  Lemma trace_ok : forall t l w (Q : unit -> lookup * world -> Prop), (forall l', core l' = core l -> Q tt (l', w)) -> ok (trace t (l, w)) Q.
  Proof. intros t l w Q H. unfold trace. cbn [okL fst snd]. apply H. now destruct (silent _). Qed.
  Lemma trace_raw_ok : forall m l w (Q : unit -> lookup * world -> Prop), (forall l', core l' = core l -> Q tt (l', w)) -> ok (trace_raw m (l, w)) Q.
  Proof. intros m l w Q H. unfold trace_raw. cbn [okL fst snd]. apply H. destruct (silent _); [reflexivity|]. now destruct (negb _). Qed.
  Lemma trace_ns_req_ok : forall n k s l w (Q : unit -> lookup * world -> Prop), server_ok good s -> (forall l', core l' = core l -> Q tt (l', w)) -> ok (trace_ns_req n k s (l, w)) Q.
  Proof.
    intros n k s l w Q Hs H. unfold trace_ns_req. apply okL_bind. cbn [lget okL fst]. destruct (silent (l_conf l)).
    - cbn. now apply H.
    - apply okL_bind. destruct Hs as (_ & x & E & _). apply okL_exec. exists x. split; [unfold ns_node, ns_data; now rewrite E|]. now apply trace_ok.
  Qed.

  (** * One request *)
  Lemma request_ok : forall node kind s n l w, winv w -> accepted node -> usable_type kind -> Ask node kind -> server_ok good s ->
    (q -> n_addrs s <> []) -> (q -> 0 < n) ->
    ok (perform_request_with_trace p env node kind s n (l, w))
       (fun r s' => core (fst s') = core l /\ winv (snd s') /\
          match r with Ok x => resp_ok good node kind (ns_zone s) x /\ (forall soa, x = NR_NoDomain soa -> Dn node) | Err _ => True end).
  Proof.
    intros node kind s n l w Hw Hn Hk HA Hs Ha Hr. unfold perform_request_with_trace. apply okL_bind, trace_ns_req_ok; [assumption|]. intros l1 C1.
    apply okL_bind. unfold perform_request. apply okL_bind, okL_lw. eapply okW_mono.
    { eapply retries_ok; try eassumption. intros C. left. now apply Hr. }
    intros [m|e] w' (H1 & _ & H3).
    - apply okL_bind, trace_raw_ok. intros l2 C2. destruct H3 as (Hg & Hx). apply okL_exec.
      destruct (read_response_ok good m node kind (ns_zone s) Hg) as (r & -> & Hrr). exists r. split; [reflexivity|].
      destruct r as [x|e]; apply okL_bind, trace_ok; intros l3 C3; cbn; (split; [congruence|]); (split; [exact H1|]); [|exact I].
      destruct Hrr as (R1 & R2). split; [exact R1|]. intros soa E. exact (Hx (R2 soa E)).
    - cbn [lret okL]. apply okL_bind, trace_ok. intros l3 C3. cbn. split; [congruence|]. now split.
  Qed.

  (** * Cache searches *)
  Lemma search_trace_ok : forall kind l w, winv w ->
    ok (search_records_with_trace env kind (l, w)) (fun rs s' => core (fst s') = core l /\ winv (snd s') /\ found good (l_node l) kind rs).
  Proof.
    intros kind l w Hw. unfold search_records_with_trace. apply okL_bind. cbn [lget okL fst]. apply okL_bind, okL_lw. eapply okW_mono; [eapply search_ok; eassumption|].
    intros rs w' (H1 & _ & H3). apply okL_bind, trace_ok. intros l' C. split; [exact C|]. split; [exact H1|exact H3].
  Qed.
  Lemma find_ns_ok : forall ds w, winv w -> Forall accepted ds ->
    okW q lv (find_ns_records env ds w) (fun rs w' => winv w' /\ Forall good rs /\ Forall (fun r => record_type r = RT_NS) rs) winv.
  Proof.
    induction ds as [|d ds IH]; intros w Hw Hd; cbn [find_ns_records]; [cbn; auto|]. inversion Hd as [|? ? Ha Hd']; subst.
    assert (E : name_from_string d = Ok d). { unfold name_from_string. destruct (validate_name d) as [[]|e] eqn:Ev; [reflexivity|]. apply validate_name_ok in Ha. congruence. }
    rewrite E. apply okW_bind. eapply okW_mono; [eapply search_ok; eassumption|]. intros [|r rs] w' (H1 & _ & (H3 & H4 & _)); [now apply IH|]. cbn. auto.
  Qed.
  Lemma cached_addrs_ok : forall rs w, winv w -> Forall good rs -> Forall (fun r => record_type r = RT_NS) rs ->
    okW q lv (cached_addrs env rs w) (fun l w' => winv w' /\ Forall (server_ok good) l) winv.
  Proof.
    induction rs as [|r rs IH]; intros w Hw Hg Ht; cbn [cached_addrs]; [cbn; auto|]. inversion Hg; subst. inversion Ht; subst.
    destruct (type_NS r) as (n & En); [assumption|]. apply okW_bind. unfold ns_data. rewrite En. cbn [wexec okW].
    apply okW_bind. eapply okW_mono; [eapply search_ok; eassumption|]. intros a w' (H7 & _ & (A1 & A2 & A3 & _)).
    apply okW_bind. eapply okW_mono; [now apply IH|]. intros l w'' (H8 & H9). cbn. split; [assumption|]. constructor; [|assumption].
    split; [assumption|]. exists n. split; [assumption|]. cbn [n_addrs]. specialize (A3 ltac:(discriminate)).
    apply Forall_forall. intros x Hx. rewrite Forall_forall in A1, A2, A3. auto.
  Qed.
  Lemma search_nss_ok : forall l w, winv w -> accepted (l_node l) ->
    ok (search_nss_with_trace env (l, w)) (fun ns s' => core (fst s') = core l /\ winv (snd s') /\ Forall (server_ok good) ns).
  Proof.
    intros l w Hw Ha. unfold search_nss_with_trace. apply okL_bind. cbn [lget okL fst]. apply okL_bind, okL_lw. eapply okW_mono; [apply find_ns_ok; [assumption|now apply C55_hierarchy_is_accepted]|].
    intros [|r rs] w' (H1 & H2 & H3).
    - apply okL_bind, trace_ok. intros l' C. cbn. auto.
    - apply okL_bind, okL_lw. eapply okW_mono; [apply cached_addrs_ok; eassumption|]. intros ns w'' (H4 & H5). apply okL_bind, trace_ok. intros l' C. cbn. auto.
  Qed.

  (** * Lookups *)
  (** [d] levels of sub-lookups are enough to finish. *)
  Record linv (d : nat) (l : lookup) : Prop := mkLinv {
    li_node : accepted (l_node l); li_kind : usable_type (l_kind l); li_ask : Ask (l_node l) (l_kind l);
    li_zones : Forall accepted (l_zones l); li_distinct : NoDup (l_zones l);
    li_next : Forall (server_ok good) (l_next l); li_cnames : Forall good (l_cnames l);
    li_conf : q -> 0 < max_ns (l_conf l) /\ 0 < max_retries (l_conf l);
    li_depth : lv -> length U + 300 <= length (l_zones l) + d;
    (** a sub-lookup is of a name server's name, and follows no alias *)
    li_ns : q -> l_zones l <> [] -> no_follow (l_conf l) = true /\ ~ Dn (l_node l) }.
  Lemma linv_core : forall d l l', core l' = core l -> linv d l -> linv d l'.
  Proof. intros d l l' C [A1 A2 A0 A3 A4 A5 A6 A7 A8 A9]. apply core_eqs in C as (E1 & E2 & E3 & E4 & E5 & E6). split; rewrite ?E1, ?E2, ?E3, ?E4, ?E5, ?E6; assumption. Qed.

  (** "No such name" is said of the end of the aliases, which is in [Dn]. *)
  Definition none_ok (q0 : name) (x : response) : Prop := x_none x = true -> exists last, alias_chain q0 (x_answers x) last /\ Dn last.
  Definition result_ok (l : lookup) (r : result response lerr) : Prop :=
    match r with Ok x => answer_ok good (l_conf l) (l_node l) (l_kind l) x /\ none_ok (l_node l) x /\ (q -> l_zones l <> [] -> x_none x = false) | Err _ => True end.
  Lemma zones_few : forall d l, linv d l -> length (l_zones l) <= length U.
  Proof. intros d l Hl. apply NoDup_incl_length; [apply Hl|]. intros z Hz. apply HU. pose proof (li_zones d l Hl) as F. rewrite Forall_forall in F. now apply F. Qed.
  Definition sub_ok (d : nat) (sub : L (result response lerr)) : Prop :=
    forall l w, linv d l -> winv w -> l_cnames l = [] -> l_next l = [] ->
      ok (sub (l, w)) (fun r s' => winv (snd s') /\ result_ok l r).

  (** all fields but the trace and the next servers *)
  Definition core2 (l : lookup) := (l_node l, l_kind l, l_zones l, l_cnames l, l_conf l).
  Lemma core_core2 : forall l l', core l' = core l -> core2 l' = core2 l.
  Proof. intros l l' C. apply core_eqs in C as (E1 & E2 & E3 & E4 & E5 & E6). unfold core2. now rewrite E1, E2, E3, E4, E6. Qed.

  Section Sub.
    Context (d : nat) (sub : L (result response lerr)) (Hsub : sub_ok d sub).

    Lemma zones_loop_false : forall z zs, detect_zones_loop z zs = false -> ~ In z zs.
    Proof.
      intros z zs H Hin. unfold detect_zones_loop in H. assert (existsb (fun z0 => bytes_eqb z0 z) zs = true); [|congruence].
      apply existsb_exists. exists z. split; [assumption|apply bytes_eqb_refl].
    Qed.

    Lemma subquery_ok : forall node zone l w, linv (S d) l -> winv w -> accepted node -> accepted zone -> Ask node RT_A -> (q -> ~ Dn node) ->
      ok (resolve_ns_subquery sub node zone (l, w))
         (fun r s' => core (fst s') = core l /\ winv (snd s') /\
            match r with Ok a => Forall (fun r => good r /\ record_type r = RT_A /\ r_node r = node) a /\ (q -> a <> []) | Err _ => True end).
    Proof.
      intros node zone l w Hl Hw Hn Hz HA HD. unfold resolve_ns_subquery. apply okL_bind. cbn [lget okL fst].
      destruct (detect_zones_loop zone (l_zones l)) eqn:Ez; [cbn; auto|]. apply zones_loop_false in Ez.
      set (inner := mkLookup node RT_A (l_zones l ++ [zone]) [] [] [] (no_follow_conf (l_conf l))). cbn beta zeta. cbn [fst snd]. change (mkLookup node RT_A (l_zones l ++ [zone]) [] [] [] (no_follow_conf (l_conf l))) with inner.
      assert (Li : linv d inner).
      { destruct Hl as [A1 A2 A0 A3 A4 A5 A6 A7 A8 A9]. split; cbn.
        - exact Hn.
        - unfold usable_type. tauto.
        - exact HA.
        - apply Forall_app. split; [exact A3|]. now repeat constructor.
        - apply (Permutation_NoDup (l := zone :: l_zones l)); [apply Permutation_cons_append|]. now constructor.
        - constructor.
        - constructor.
        - exact A7.
        - intros C. specialize (A8 C). rewrite app_length. cbn [length]. lia.
        - intros C _. split; [reflexivity|now apply HD]. }
      specialize (Hsub inner w Li Hw eq_refl eq_refl). destruct (sub (inner, w)) as [[r|k|] [inner' w']]; cbn [okL snd] in *; [|exact Hsub|exact Hsub].
      destruct Hsub as (Hw' & Hr). apply okL_bind. cbn [add_sub_trace lmod okL lret]. cbn [fst snd]. split; [reflexivity|]. split; [exact Hw'|].
      destruct r as [x|e]; [|exact I]. destruct Hr as ((cs & last & rs & Ex & Hc & _ & _ & Hnf & Hg & Hnone & Ht & Ho & _) & _ & Hxn).
      cbn [inner l_node l_kind l_conf no_follow_conf no_follow] in *. rewrite (Hnf eq_refl) in *. cbn [app alias_chain] in *. subst last.
      specialize (Ho ltac:(discriminate)).
      destruct (C53_extract_records (x_answers x) RT_A node) as (got & rest & -> & P & G1 & G2). cbn [fst]. split.
      - apply Forall_forall. intros y Hy. destruct (G1 y Hy) as (Y1 & Y2). repeat split; [|assumption|assumption].
        rewrite Forall_forall in Hg. apply Hg. apply in_or_app. left. apply (Permutation_in y P), in_or_app. now left.
      - intros C. rewrite (Hxn C) in Hnone by (cbn [inner l_zones]; destruct (l_zones l); discriminate). intros ->. cbn [app] in P. destruct rs as [|y rs]; [congruence|].
        apply (G2 y).
        + apply (Permutation_in y (Permutation_sym P)). rewrite Ex. now left.
        + inversion Ho; subst. inversion Ht; subst. now split.
    Qed.

    Definition deeper (l : list nsrv) (node : name) (next : list nsrv) : Prop :=
      next <> [] /\ Forall (server_ok good) next /\
      exists s, In s l /\ Forall (fun s' => (exists pre, node = pre ++ ns_zone s') /\ length (ns_zone s) < length (ns_zone s')) next.

    Lemma servers_ok : forall l0 l err k w, incl l l0 -> linv (S d) k -> winv w -> Forall (server_ok good) l -> (q -> l <> [] \/ err <> None) ->
      ok (query_servers p env sub l err (k, w))
         (fun a s' => core2 (fst s') = core2 k /\ winv (snd s') /\
            match a with
            | Asked_result (Ok x) => (exists s, In s l0 /\ resp_ok good (l_node k) (l_kind k) (ns_zone s) x) /\ (forall n, x <> NR_Delegation n) /\ (forall soa, x = NR_NoDomain soa -> Dn (l_node k)) /\ linv (S d) (fst s')
            | Asked_result (Err _) => linv (S d) (fst s')
            | Asked_next next => l_next (fst s') = next /\ deeper l0 (l_node k) next /\ linv (S d) (fst s')
            end).
    Proof.
      intros l0. induction l as [|s l IH]; intros err k w Hi Hk Hw Hl Hne; cbn [query_servers].
      - destruct err; cbn; [split; [reflexivity|]; split; [exact Hw|exact Hk]|]. split; [exact Hw|]. intros C. now destruct (Hne C).
      - inversion Hl as [|? ? Hs Hl']; subst. assert (Hi' : incl l l0) by (intros x Hx; apply Hi; now right). assert (Is : In s l0) by (apply Hi; now left).
        destruct (ips_total _ (server_addrs good s Hs)) as (addrs & Ea & La). apply okL_bind, okL_exec. exists addrs. split; [exact Ea|].
        (* the continuation, for a server that may have been given addresses *)
        assert (K : forall (s' : nsrv) k1 w1, n_rec s' = n_rec s -> server_ok good s' -> (q -> n_addrs s' <> []) -> core k1 = core k -> winv w1 ->
          okL q lv ((let* node := lget l_node in let* kind := lget l_kind in let* conf := lget l_conf in
             let* r := perform_request_with_trace p env node kind s' (max_retries conf) in
             match r with
             | Err e => query_servers p env sub l (first_err err e)
             | Ok (NR_Delegation next) => let* _ := lw (save_nss env next) in let* _ := lmod (set_next next) in lret (Asked_next next)
             | Ok x => lret (Asked_result (Ok x))
             end) (k1, w1))
           (fun a s' => core2 (fst s') = core2 k /\ winv (snd s') /\
              match a with
              | Asked_result (Ok x) => (exists s, In s l0 /\ resp_ok good (l_node k) (l_kind k) (ns_zone s) x) /\ (forall n, x <> NR_Delegation n) /\ (forall soa, x = NR_NoDomain soa -> Dn (l_node k)) /\ linv (S d) (fst s')
              | Asked_result (Err _) => linv (S d) (fst s')
              | Asked_next next => l_next (fst s') = next /\ deeper l0 (l_node k) next /\ linv (S d) (fst s')
              end) winv).
        { intros s' k1 w1 Er Hs' Ha' C1 Hw1. assert (Hk1 : linv (S d) k1) by (eapply linv_core; eassumption). pose proof (core_eqs _ _ C1) as (E1 & E2 & E3 & E4 & E5 & E6).
          do 3 (apply okL_bind; cbn [lget okL fst]). rewrite E1, E2, E6. apply okL_bind.
          assert (Ez : ns_zone s' = ns_zone s) by (unfold ns_zone; now rewrite Er).
          eapply okL_mono; [apply request_ok; try eassumption; [apply Hk|apply Hk|apply Hk|intros C; apply (li_conf (S d) k Hk C)]|].
          intros r [k2 w2] (C2 & Hw2 & Hr). cbn [fst snd] in *. assert (C2' : core k2 = core k) by congruence. assert (Hk2 : linv (S d) k2) by (eapply linv_core; eassumption).
          pose proof (core_core2 _ _ C2') as C22.
          destruct r as [x|e].
          - destruct Hr as (Hr & Hx). rewrite Ez in Hr. destruct x as [soa|ans add|c next|next].
            + cbn. split; [exact C22|]. split; [exact Hw2|]. split; [exists s; now split|]. split; [discriminate|]. split; [exact Hx|exact Hk2].
            + cbn. split; [exact C22|]. split; [exact Hw2|]. split; [exists s; now split|]. split; [discriminate|]. split; [discriminate|exact Hk2].
            + cbn. split; [exact C22|]. split; [exact Hw2|]. split; [exists s; now split|]. split; [discriminate|]. split; [discriminate|exact Hk2].
            + cbn [resp_ok] in Hr. destruct Hr as (R1 & R2 & R3). apply okL_bind, okL_lw. eapply okW_mono; [eapply save_nss_ok; eassumption|]. intros _ w3 (Hw3 & _).
              apply okL_bind. cbn [lmod okL lret fst snd]. split; [exact C22|]. split; [exact Hw3|]. split; [reflexivity|]. split.
              * split; [exact R1|]. split; [exact R2|]. exists s. now split.
              * destruct Hk2 as [A1 A2 A0 A3 A4 A5 A6 A7 A8 A9]. split; cbn; assumption.
          - eapply okL_mono; [apply IH; try assumption|].
            { intros _. right. destruct err; discriminate. }
            cbn. intros a s'' (D1 & D2 & D3). split; [congruence|]. split; [exact D2|]. apply core_eqs in C2' as (F1 & F2 & _).
            rewrite F1, F2 in D3. exact D3. }
        destruct addrs as [|a addrs].
        + destruct Hs as (Hg & n & En & Hr). apply okL_bind. apply okL_bind, okL_exec. exists n. split; [unfold ns_node, ns_data; now rewrite En|].
          pose proof (co_names p env good CO _ Hg) as (Zn & _ & Nn). rewrite En in Nn.
          assert (HD : q -> ~ Dn n) by (intros C; apply Hq in C as (_ & Cn & _); exact (Cn _ n Hg En)).
          pose proof (proj2 HAsk _ n Hg En) as HAn.
          apply okL_bind. eapply okL_mono; [apply subquery_ok; assumption|]. intros [a|e] [k1 w1] (C1 & Hw1 & Ha); cbn [fst snd] in *; cbn [lret okL].
          * apply K; try assumption; [reflexivity| |]; [|apply Ha]. split; [exact Hg|]. exists n. split; [exact En|]. apply Ha.
          * assert (Hk1 : linv (S d) k1) by (eapply linv_core; eassumption). eapply okL_mono; [apply IH; try assumption|].
            { intros _. right. destruct err; discriminate. }
            cbn. intros a s'' (D1 & D2 & D3). pose proof (core_core2 _ _ C1). split; [congruence|]. split; [exact D2|]. apply core_eqs in C1 as (F1 & F2 & _).
            rewrite F1, F2 in D3. exact D3.
        + apply okL_bind. cbn [lret okL]. apply K; try assumption; try reflexivity.
          intros _ E. rewrite E in La. discriminate La.
    Qed.

    Lemma firstn_incl : forall A n (l : list A), incl (firstn n l) l.
    Proof. intros A n l x Hx. rewrite <- (firstn_skipn n l). apply in_or_app. now left. Qed.

    (** Every delegation leads to zones with longer names than [b] and not longer than the
        name searched, except at the start ([b = 0]). *)
    Lemma zones_ok : forall fuel b k w, linv (S d) k -> winv w -> l_next k <> [] ->
      (b = 0 \/ b <= length (l_node k)) -> Forall (fun s => b <= length (ns_zone s)) (l_next k) -> (lv -> length (l_node k) + 2 <= b + fuel) ->
      ok (query_zones p env sub fuel (k, w))
         (fun r s' => core2 (fst s') = core2 k /\ winv (snd s') /\ linv (S d) (fst s') /\
            match r with
            | Ok x => (exists zone, resp_ok good (l_node k) (l_kind k) zone x) /\ (forall n, x <> NR_Delegation n) /\ (forall soa, x = NR_NoDomain soa -> Dn (l_node k))
            | Err _ => True
            end).
    Proof.
      induction fuel as [|fuel IH]; intros b k w Hk Hw Hne Hb Hbz Hf; cbn [query_zones].
      { split; [exact Hw|]. intros C. specialize (Hf C). lia. }
      apply okL_bind. cbn [lget okL fst]. destruct (l_next k) as [|s0 nx] eqn:En; [congruence|]. rewrite <- En. clear Hne.
      apply okL_bind. cbn [lmod okL fst snd].
      assert (Hs : Forall (server_ok good) (l_next k)) by apply Hk.
      assert (Ha : Forall addresses_only (l_next k)) by (eapply Forall_impl; [|exact Hs]; apply server_addrs).
      apply okL_bind, okL_exec. eexists. split; [now apply C54_servers_with_addresses_first|].
      set (sorted := filter addressed (l_next k) ++ filter (fun s => negb (addressed s)) (l_next k)).
      apply okL_bind. cbn [lget okL fst]. cbn [set_next l_conf].
      set (k1 := set_next [] k). assert (Hk1 : linv (S d) k1) by (destruct Hk as [A1 A2 A0 A3 A4 A5 A6 A7 A8 A9]; split; cbn; try assumption; constructor).
      assert (Hs' : forall x, In x sorted -> In x (l_next k)). { intros x Hx. unfold sorted in Hx. apply in_app_or in Hx as [Hx|Hx]; now apply filter_In in Hx as (Hx & _). }
      apply okL_bind. eapply okL_mono; [apply (servers_ok (firstn (max_ns (l_conf k)) sorted)); [intros x Hx; exact Hx|exact Hk1|exact Hw| |]|].
      - apply Forall_forall. intros x Hx. rewrite Forall_forall in Hs. apply Hs, Hs'. now apply firstn_incl in Hx.
      - intros C. left. destruct (li_conf (S d) k Hk C) as (C1 & _). destruct (max_ns (l_conf k)); [lia|].
        assert (S : In s0 sorted). { unfold sorted. apply in_or_app. rewrite !filter_In, En. destruct (addressed s0); [left|right]; (split; [now left|reflexivity]). }
        destruct sorted; [easy|discriminate].
      - intros a [k2 w2] (D1 & D2 & D3). cbn [fst snd] in *. destruct a as [[x|e]|next].
        + cbn. destruct D3 as ((s & _ & R) & R2 & R3 & R4). split; [exact D1|]. split; [exact D2|]. split; [exact R4|]. split; [exists (ns_zone s); exact R|]. now split.
        + cbn. auto.
        + assert (G : l_node k2 = l_node k /\ l_kind k2 = l_kind k). { unfold core2 in D1. injection D1 as D1a D1b _ _ _. now split. }
          destruct G as (G1 & G2). destruct D3 as (E & (N1 & _ & s & Is & Fd) & Hk2). change (l_node k1) with (l_node k) in Fd.
          assert (Ls : b <= length (ns_zone s)). { rewrite Forall_forall in Hbz. apply Hbz. rewrite <- En. apply Hs'. now apply firstn_incl in Is. }
          eapply okL_mono; [apply (IH (S b)); [exact Hk2|exact D2|congruence| | |]|].
          { right. rewrite G1. destruct next as [|s1 next]; [congruence|]. inversion Fd as [|? ? ((pre & Ep) & Lp) _]; subst. apply (f_equal (@length N)) in Ep. rewrite app_length in Ep. lia. }
          { rewrite E. eapply Forall_impl; [|exact Fd]. cbn. intros x (_ & Lx). lia. }
          { rewrite G1. intros C. specialize (Hf C). lia. }
          intros r [k3 w3] (F1 & F2 & F3 & F4). cbn [fst snd] in *. split; [rewrite F1, D1; reflexivity|]. split; [exact F2|]. split; [exact F3|].
          now rewrite G1, G2 in F4.
    Qed.

    (** The aliases so far: from [q0] to the current name; [n] more names may follow. *)
    Definition pinv (q0 : name) (n : nat) (l : lookup) : Prop :=
      alias_chain q0 (l_cnames l) (l_node l) /\ no_way_back (l_cnames l) /\ length (l_cnames l) + n <= max_cname (l_conf l) /\
      (no_follow (l_conf l) = true -> l_cnames l = []).
    Lemma pinv_core2 : forall q0 n l l', core2 l' = core2 l -> pinv q0 n l -> pinv q0 n l'.
    Proof. intros q0 n l l' C H. unfold core2 in C. injection C as E1 E2 E3 E4 E5. unfold pinv in *. now rewrite E1, E4, E5. Qed.

    Lemma chain_snoc : forall cs from to c t, alias_chain from cs to -> r_node c = to -> r_data c = D_CNAME t -> alias_chain from (cs ++ [c]) t.
    Proof.
      induction cs as [|x cs IH]; intros from to c t H Hc Ht; cbn [app alias_chain] in *; [subst; split; [reflexivity|now exists t]|].
      destruct H as (H1 & t' & H2 & H3). split; [assumption|]. exists t'. split; [assumption|]. eapply IH; eassumption.
    Qed.
    Lemma snoc_split : forall A (l : list A) x b c a, l ++ [x] = b ++ c :: a -> (a = [] /\ b = l /\ c = x) \/ (exists a', a = a' ++ [x] /\ l = b ++ c :: a').
    Proof.
      intros A l x b c a E. destruct a as [|y a _] using rev_ind.
      - left. apply app_inj_tail in E as (-> & ->). auto.
      - right. exists a. split; [|].
        + replace (b ++ c :: a ++ [y]) with ((b ++ c :: a) ++ [y]) in E by (rewrite <- app_assoc; reflexivity). apply app_inj_tail in E as (_ & ->). reflexivity.
        + replace (b ++ c :: a ++ [y]) with ((b ++ c :: a) ++ [y]) in E by (rewrite <- app_assoc; reflexivity). now apply app_inj_tail in E as (-> & _).
    Qed.

    Lemma cname_ok : forall q0 n c next l w, linv (S d) l -> winv w -> pinv q0 (S n) l -> good c -> r_node c = l_node l -> record_type c = RT_CNAME -> Forall (server_ok good) next ->
      ok (handle_cname env c next (l, w))
         (fun r s' => winv (snd s') /\ match r with Ok _ => linv (S d) (fst s') /\ pinv q0 n (fst s') /\ l_conf (fst s') = l_conf l /\ l_kind (fst s') = l_kind l /\ l_zones (fst s') = l_zones l | Err _ => True end).
    Proof.
      intros q0 n c next l w Hl Hw (P1 & P2 & P3 & P4) Hg Hn Ht Hx. unfold handle_cname. destruct (type_CNAME c Ht) as (t & Et).
      apply okL_bind, okL_exec. exists t. split; [unfold cname_data; now rewrite Et|]. apply okL_bind. cbn [lget okL fst].
      destruct (detect_cname_loops t (l_cnames l)) eqn:Ed; [cbn; auto|].
      apply okL_bind. cbn [lmod okL fst snd]. apply okL_bind. cbn [lget okL fst set_cnames l_conf].
      destruct (no_follow (l_conf l)) eqn:Ef; [cbn; auto|].
      apply okL_bind, okL_lw. eapply okW_mono; [eapply save_ok; [exact EO|exact CO|exact Hw|discriminate|now repeat constructor|]|].
      { exists RT_CNAME. split; [now repeat constructor|]. intros _. exists (r_node c). now repeat constructor. }
      intros _ w' (Hw' & _). do 2 (apply okL_bind; cbn [lmod okL fst snd]). cbn [lret okL fst snd]. split; [exact Hw'|].
      pose proof (co_names p env good CO c Hg) as (_ & _ & At). rewrite Et in At. split; [|split; [|now repeat split]].
      - destruct Hl as [A1 A2 A0 A3 A4 A5 A6 A7 A8 A9]. split; cbn; try assumption; [|apply Forall_app; split; [assumption|now repeat constructor]|].
        { apply (proj1 HAsk c t); [assumption|assumption|]. now rewrite Hn. }
        intros C Hz. destruct (A9 C Hz). congruence.
      - unfold pinv. cbn [set_next set_node set_cnames l_cnames l_node l_conf]. repeat split.
        + eapply chain_snoc; eassumption.
        + intros b c' a t' E Et'. apply snoc_split in E as [(-> & -> & ->)|(a' & -> & E)].
          * assert (t' = t) by congruence. subst t'. intros Hin. apply in_map_iff in Hin as (y & Ey & Hy). unfold detect_cname_loops in Ed.
            assert (X : existsb (fun c0 => bytes_eqb (r_node c0) t) (l_cnames l) = true); [|congruence]. apply existsb_exists. exists y. split; [assumption|]. now apply bytes_eqb_eq.
          * eapply P2; eassumption.
        + rewrite app_length. cbn [length]. lia.
        + congruence.
    Qed.

    Lemma root_ok : Forall (server_ok good) root_zone_nameservers.
    Proof.
      pose proof (co_root p env good CO) as H. rewrite Forall_forall in *. intros s Hs. destruct (H s Hs) as (H1 & H2). split; [exact H1|].
      unfold root_zone_nameservers in Hs. apply in_map_iff in Hs as (x & <- & _). cbn [n_rec r_data n_addrs] in *. exists (fst x). split; [reflexivity|].
      inversion H2; subst. constructor; [now repeat split|constructor].
    Qed.

    Lemma inner_ok : forall fuel q0 n l w, (lv -> 257 <= fuel) -> linv (S d) l -> winv w -> pinv q0 n l ->
      ok (perform_inner p env sub fuel n (l, w))
         (fun r s' => winv (snd s') /\ match r with Ok x => answer_ok good (l_conf l) q0 (l_kind l) x /\ none_ok q0 x /\ (q -> l_zones l <> [] -> x_none x = false) | Err _ => True end).
    Proof.
      intros fuel q0 n l w Hfuel. revert l w. induction n as [|n IH]; intros l w Hl Hw Hp; cbn [perform_inner]; [cbn; auto|].
      do 2 (apply okL_bind; cbn [lget okL fst]). apply okL_bind, trace_ok. intros l1 C1.
      assert (Hl1 : linv (S d) l1) by (eapply linv_core; eassumption). assert (Hp1 : pinv q0 (S n) l1) by (eapply pinv_core2; [apply core_core2; eassumption|exact Hp]).
      apply okL_bind. eapply okL_mono; [now apply search_trace_ok|]. intros cached [l2 w2] (C2 & Hw2 & Hc). cbn [fst snd] in *.
      assert (C2' : core l2 = core l) by congruence. assert (N1 : l_node l1 = l_node l) by (apply core_eqs in C1; tauto). rewrite N1 in Hc. clear l1 C1 Hl1 Hp1 C2 N1.
      pose proof (core_eqs _ _ C2') as (E1 & E2 & E3 & E4 & E5 & E6).
      assert (Hc' : found good (l_node l) (l_kind l) cached) by (assumption || congruence). clear Hc.
      assert (Hl2 : linv (S d) l2) by (eapply linv_core; eassumption). assert (Hp2 : pinv q0 (S n) l2) by (eapply pinv_core2; [apply core_core2; eassumption|exact Hp]).
      assert (Fin : forall l3 ans add au none, core2 l3 = core2 l -> linv (S d) l3 -> Forall good ans -> Forall good add -> Forall (fun r => good r /\ record_type r = RT_SOA /\ r_node r = l_node l) au ->
        (if none : bool then ans = [] else ans <> []) -> Forall (fun r => record_type r = l_kind l) ans -> (l_kind l <> RT_NS -> Forall (fun r => r_node r = l_node l) ans) ->
        match ans with r :: _ => r_node r = l_node l | [] => True end ->
        answer_ok good (l_conf l) q0 (l_kind l) (mkResp (l_cnames l3 ++ ans) au add none)).
      { intros l3 ans add au none C Hl3 Ga Gd Gu Hn Ht Ho Hf. pose proof (pinv_core2 q0 (S n) l l3 C Hp) as (P1 & P2 & P3 & P4).
        unfold core2 in C. injection C as F1 F2 F3 F4 F5. exists (l_cnames l3), (l_node l), ans. cbn [x_answers x_authorities x_additionals x_none].
        rewrite F1, F5 in *. repeat split; try assumption; try lia.
        - apply Forall_app. split; [apply Forall_app; split; [apply Hl3|exact Ga]|]. apply Forall_app. split; [|exact Gd]. eapply Forall_impl; [|exact Gu]. cbn. tauto.
        - eapply Forall_impl; [|exact Gu]. cbn. tauto. }
      destruct cached as [|r0 rs].
      2:{ apply okL_bind. cbn [lget okL fst]. apply okL_bind. cbn [lmod lret okL fst snd]. split; [exact Hw2|]. split; [|split; [discriminate|reflexivity]].
          destruct Hc' as (A1 & A2 & A3 & A4). apply Fin; try assumption; try constructor; [now apply core_core2|discriminate]. }
      apply okL_bind. eapply okL_mono; [now apply search_trace_ok|]. intros cnames [l3 w3] (C3 & Hw3 & Hcn). cbn [fst snd] in *.
      assert (C3' : core l3 = core l) by congruence. pose proof (core_eqs _ _ C3') as (F1 & F2 & F3 & F4 & F5 & F6).
      assert (Hl3 : linv (S d) l3) by (eapply linv_core; eassumption). assert (Hp3 : pinv q0 (S n) l3) by (eapply pinv_core2; [apply core_core2; eassumption|exact Hp]).
      (* following an alias *)
      assert (Fol : forall c next l4 w4, core2 l4 = core2 l -> linv (S d) l4 -> winv w4 -> good c -> r_node c = l_node l -> record_type c = RT_CNAME -> Forall (server_ok good) next ->
        okL q lv ((let* r := handle_cname env c next in match r with Err e => lret (Err e) | Ok _ => perform_inner p env sub fuel n end) (l4, w4))
          (fun r s' => winv (snd s') /\ match r with Ok x => answer_ok good (l_conf l) q0 (l_kind l) x /\ none_ok q0 x /\ (q -> l_zones l <> [] -> x_none x = false) | Err _ => True end) winv).
      { intros c next l4 w4 C4 Hl4 Hw4 Gc Nc Tc Hnx. pose proof (pinv_core2 q0 (S n) l l4 C4 Hp) as Hp4.
        unfold core2 in C4. injection C4 as G1 G2 G3 G4 G5.
        apply okL_bind. eapply okL_mono; [apply (cname_ok q0 n); try assumption; congruence|]. intros [[]|e] [l5 w5] (Hw5 & H5); cbn [fst snd] in *; [|cbn; auto].
        destruct H5 as (Hl5 & Hp5 & X1 & X2 & X3). eapply okL_mono; [apply IH; assumption|]. intros r s' H. rewrite X1, X2, X3, G5, G2, G3 in H. exact H. }
      destruct cnames as [|c cs].
      2:{ destruct Hcn as (A1 & A2 & A3 & A4). inversion A1; subst. inversion A2; subst. apply Fol; try assumption; [now apply core_core2|congruence|constructor]. }
      apply okL_bind. cbn [lget okL fst]. apply okL_bind.
      assert (Nx : okL q lv (match l_next l3 with
                    | _ :: _ => lret tt
                    | [] => let* l := search_nss_with_trace env in lmod (set_next match l with [] => root_zone_nameservers | _ => l end)
                    end (l3, w3)) (fun _ s' => core2 (fst s') = core2 l /\ linv (S d) (fst s') /\ winv (snd s') /\ l_next (fst s') <> []) winv).
      { destruct (l_next l3) as [|s nx] eqn:En.
        - apply okL_bind. eapply okL_mono; [apply search_nss_ok; [exact Hw3|apply Hl3]|]. intros ns [l4 w4] (C4 & Hw4 & Hns). cbn [fst snd lmod okL] in *.
          assert (C4' : core l4 = core l) by congruence. assert (Hl4 : linv (S d) l4) by (eapply linv_core; eassumption).
          split; [apply core_core2 in C4'; exact C4'|]. split; [|split; [exact Hw4|destruct ns; discriminate]].
          destruct Hl4 as [A1 A2 A0 A3 A4 A5 A6 A7 A8 A9]. split; cbn; try assumption. destruct ns; [apply root_ok|exact Hns].
        - cbn. split; [now apply core_core2|]. split; [exact Hl3|]. split; [exact Hw3|congruence]. }
      eapply okL_mono; [exact Nx|]. clear Nx. intros _ [l4 w4] (C4 & Hl4 & Hw4 & N4). cbn [fst snd] in *.
      apply okL_bind. eapply okL_mono; [apply (zones_ok fuel 0); try assumption; [now left|apply Forall_forall; intros; lia|]|].
      { intros C. specialize (Hfuel C). destruct (li_node (S d) l4 Hl4) as (ls & _ & _ & Len). lia. }
      intros r [l5 w5] (C5 & Hw5 & Hl5 & Hr). cbn [fst snd] in *.
      assert (C5' : core2 l5 = core2 l) by congruence. assert (Z : l_node l4 = l_node l /\ l_kind l4 = l_kind l) by (unfold core2 in C4; split; congruence). destruct Z as (Z1 & Z2). rewrite Z1, Z2 in Hr.
      destruct r as [x|e]; [|cbn; auto]. destruct Hr as ((zone & Hr) & Hnd & Hnx). destruct x as [soa|ans add|c next|next].
      - apply okL_bind. cbn [lget okL fst]. apply okL_bind. cbn [lmod lret okL fst snd]. split; [exact Hw5|]. split.
        + cbn [resp_ok] in Hr. rewrite <- (app_nil_r (l_cnames l5)). apply Fin.
          * exact C5'.
          * exact Hl5.
          * constructor.
          * constructor.
          * destruct soa; [|constructor]. constructor; [assumption|constructor].
          * reflexivity.
          * constructor.
          * intros _. constructor.
          * exact I.
        + specialize (Hnx soa eq_refl). split; [|intros C Hz; now destruct (li_ns (S d) l Hl C Hz)].
          intros _. cbn [x_answers]. exists (l_node l). split; [|exact Hnx]. pose proof (pinv_core2 q0 (S n) l l5 C5' Hp) as (P1 & _). unfold core2 in C5'. injection C5' as F0 _ _ _ _. rewrite <- F0. exact P1.
      - cbn [resp_ok] in Hr. destruct Hr as (Ha & Hf & Hadd). apply okL_bind, okL_exec. exists tt. split; [destruct ans; [congruence|now destruct p]|].
        apply okL_bind, okL_lw. eapply okW_mono; [eapply save_ok; [exact EO|exact CO|exact Hw5|exact Ha| |]|].
        { eapply Forall_impl; [|exact Hf]. cbn. tauto. }
        { exists (l_kind l). split; [eapply Forall_impl; [|exact Hf]; cbn; tauto|]. intros _. exists (l_node l). eapply Forall_impl; [|exact Hf]; cbn; tauto. }
        intros _ w6 (Hw6 & _). apply okL_bind. cbn [lget okL fst]. apply okL_bind. cbn [lmod lret okL fst snd]. split; [exact Hw6|]. split; [|split; [discriminate|reflexivity]].
        apply Fin; try assumption; try constructor; try (eapply Forall_impl; [|exact Hf]; cbn; tauto).
        + intros _. eapply Forall_impl; [|exact Hf]; cbn; tauto.
        + destruct ans; [exact I|]. inversion Hf; tauto.
      - cbn [resp_ok] in Hr. destruct Hr as (A1 & A2 & A3 & A4). now apply Fol.
      - now destruct (Hnd next).
    Qed.
  End Sub.

  Lemma perform_sub_ok : forall fuel, sub_ok fuel (perform p env fuel).
  Proof.
    induction fuel as [|fuel IH]; intros l w Hl Hw Hc Hn; cbn [perform].
    { split; [exact Hw|]. intros C. pose proof (li_depth 0 l Hl C). pose proof (zones_few 0 l Hl). lia. }
    apply okL_bind. cbn [lget okL fst]. eapply okL_mono; [apply (inner_ok fuel _ IH fuel (l_node l)); [|exact Hl|exact Hw|]|].
    - intros C. pose proof (li_depth _ l Hl C). pose proof (zones_few _ l Hl). lia.
    - unfold pinv. rewrite Hc. cbn [alias_chain length]. repeat split; auto. intros b c a t E. now destruct b.
    - intros r s' H. exact H.
  Qed.
End Run.
