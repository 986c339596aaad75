(** How deep the lookups of a lookup are nested: not deeper than there are zones. *)
From Coq Require Import Permutation.
From Verif Require Import Base Types Name NameSpec NameProofs Codec CodecSpec NsSpec Cache Resolver ResolverLists ResolverSpec ResolverInv ResolverRun ResolverFacts Trace TraceSpec PropTrace PropResolver1 PropResolver5.

Definition depth_of (l : lookup) : nat := nesting (l_trace l).
Lemma nesting_app : forall a b, nesting (a ++ b) = Nat.max (nesting a) (nesting b).
Proof. induction a as [|t a IH]; intros b; cbn [app]; [reflexivity|]. rewrite !nesting_cons, IH. lia. Qed.
Lemma depth_push : forall t l, depth_of (push_line t l) = Nat.max (depth_of l) (line_nesting t).
Proof. intros t l. unfold depth_of, push_line. cbn [l_trace]. rewrite nesting_app, nesting_cons. cbn [nesting map fold_right]. now rewrite Nat.max_0_r. Qed.

(** Code that starts no lookups. *)
Definition flat {A} (m : L A) : Prop := forall s, depth_of (fst (snd (m s))) = depth_of (fst s).
Lemma flat_bind : forall A B (m : L A) (k : A -> L B), flat m -> (forall a, flat (k a)) -> flat (lbind m k).
Proof. intros A B m k Hm Hk s. unfold lbind. specialize (Hm s). destruct (m s) as [[a|e|] s']; cbn [fst snd] in *; [|exact Hm|exact Hm]. rewrite Hk. exact Hm. Qed.
Lemma flat_ret : forall A (a : A), flat (lret a). Proof. intros A a s. reflexivity. Qed.
Lemma flat_exec : forall A (a : exec A), flat (lexec a). Proof. intros A a s. reflexivity. Qed.
Lemma flat_get : forall A (f : lookup -> A), flat (lget f). Proof. intros A f s. reflexivity. Qed.
Lemma flat_lw : forall A (m : W A), flat (lw m). Proof. intros A m s. unfold lw. now destruct (m (snd s)). Qed.
Lemma flat_trace : forall t, line_nesting t = 0 -> flat (trace t).
Proof. intros t H s. unfold trace. cbn [fst snd]. destruct (silent _); [reflexivity|]. rewrite depth_push, H. apply Nat.max_0_r. Qed.
Lemma flat_trace_raw : forall t, flat (trace_raw t).
Proof. intros t s. unfold trace_raw. cbn [fst snd]. destruct (silent _); [reflexivity|]. destruct (negb _); [reflexivity|]. rewrite depth_push. apply Nat.max_0_r. Qed.
Lemma flat_request : forall p env node kind s n, flat (perform_request_with_trace p env node kind s n).
Proof.
  intros. unfold perform_request_with_trace, trace_ns_req, perform_request.
  apply flat_bind; [apply flat_bind; [apply flat_get|]; intros []; [apply flat_ret|]; apply flat_bind; [apply flat_exec|]; intros ?; now apply flat_trace|].
  intros _. apply flat_bind; [apply flat_bind; [apply flat_lw|]; intros [m|e]; [|apply flat_ret]; apply flat_bind; [apply flat_trace_raw|]; intros _; apply flat_exec|].
  intros [x|e]; (apply flat_bind; [now apply flat_trace|]; intros _; apply flat_ret).
Qed.
Lemma flat_search : forall env kind, flat (search_records_with_trace env kind).
Proof.
  intros. unfold search_records_with_trace. apply flat_bind; [apply flat_get|]. intros node. apply flat_bind; [apply flat_lw|]. intros rs.
  apply flat_bind; [apply flat_trace; now destruct rs|]. intros _. apply flat_ret.
Qed.
Lemma flat_search_nss : forall env, flat (search_nss_with_trace env).
Proof.
  intros. unfold search_nss_with_trace. apply flat_bind; [apply flat_get|]. intros node. apply flat_bind; [apply flat_lw|]. intros [|r rs].
  - apply flat_bind; [now apply flat_trace|]. intros _. apply flat_ret.
  - apply flat_bind; [apply flat_lw|]. intros l. apply flat_bind; [now apply flat_trace|]. intros _. apply flat_ret.
Qed.
Lemma flat_cname : forall env c next, flat (handle_cname env c next).
Proof.
  intros. unfold handle_cname. apply flat_bind; [apply flat_exec|]. intros t. apply flat_bind; [apply flat_get|]. intros prev.
  destruct (detect_cname_loops _ _); [apply flat_ret|]. apply flat_bind; [intros s; reflexivity|]. intros _. apply flat_bind; [apply flat_get|]. intros [|]; [apply flat_ret|].
  apply flat_bind; [apply flat_lw|]. intros _. apply flat_bind; [intros s; reflexivity|]. intros _. apply flat_bind; [intros s; reflexivity|]. intros _. apply flat_ret.
Qed.

Section Nest.
  Context (p : profile) (env : environment) (good : record -> Prop) (EO : env_ok good env) (CO : class_ok p env good) (n0 : nat).
  Context (U : list name) (HU : forall n, accepted n -> In n U).
  (** the zones there are *)
  Context (Z : list name) (HZ : forall r, good r -> record_type r = RT_NS -> In (r_node r) Z).
  Notation T2 := (fun _ _ => True).
  Notation T1 := (fun _ => True).
  Notation winv := (winv env good T1 n0).
  Notation linv := (linv good T2 T1 False False U).
  Notation sub_ok := (sub_ok env good T2 n0 T1 T1 False False U).
  Lemma HQ : questions_ok good T2. Proof. split; intros; exact Logic.I. Qed.
  Lemma HD : denials p env T1 n0 T2. Proof. intros n _ a x d m _ _ _ _ _ nd kd _ _ _ _. exact Logic.I. Qed.
  Lemma HS : sendings p env good T1 n0 T2. Proof. intros n _ a x r nd kd _ _ _ _ _ _. exact Logic.I. Qed.
  Lemma Hq : False -> quiet p env good T1. Proof. tauto. Qed.
  Lemma Hlv : False -> live p env. Proof. tauto. Qed.

  Definition fits (zs : list name) (l : lookup) : Prop := depth_of l + length zs <= length Z.
  Definition nst {A} (zs : list name) (x : exec A * (lookup * world)) : Prop := fits zs (fst (snd x)).
  Lemma nst_bind : forall A B (m : L A) (k : A -> L B) zs s, nst zs (m s) -> (forall a s', m s = (Done a, s') -> nst zs (k a s')) -> nst zs (lbind m k s).
  Proof. intros A B m k zs s Hm Hk. unfold lbind. destruct (m s) as [[a|e|] s'] eqn:E; [now apply Hk|exact Hm|exact Hm]. Qed.
  Lemma nst_flat : forall A (m : L A) zs s, flat m -> fits zs (fst s) -> nst zs (m s).
  Proof. intros A m zs s Hm Hs. unfold nst, fits. now rewrite Hm. Qed.
  Lemma server_zone : forall s, server_ok good s -> In (ns_zone s) Z.
  Proof. intros s (Hg & n & En & _). apply HZ; [exact Hg|]. unfold record_type. now rewrite En. Qed.

  Section Sub.
    Context (d : nat) (sub : L (result response lerr)) (Hsub : sub_ok d sub).
    Context (Hfit : forall l w, linv d l -> winv w -> l_cnames l = [] -> l_next l = [] -> incl (l_zones l) Z -> l_trace l = [] -> nst (l_zones l) (sub (l, w))).

    Lemma subquery_nest : forall node zone l w, linv (S d) l -> winv w -> accepted node -> accepted zone -> In zone Z -> incl (l_zones l) Z -> fits (l_zones l) l ->
      nst (l_zones l) (resolve_ns_subquery sub node zone (l, w)).
    Proof.
      intros node zone l w Hl Hw Hn Hz HzZ Hi Hf. unfold resolve_ns_subquery. apply nst_bind; [apply nst_flat; [apply flat_get|exact Hf]|].
      intros zones s' E. cbn [lget fst] in E. injection E as <- <-. destruct (detect_zones_loop zone (l_zones l)) eqn:Ez; [exact Hf|]. apply zones_loop_false in Ez.
      cbn beta zeta. cbn [fst snd]. set (inner := mkLookup node RT_A (l_zones l ++ [zone]) [] [] [] (no_follow_conf (l_conf l))). change (mkLookup node RT_A (l_zones l ++ [zone]) [] [] [] (no_follow_conf (l_conf l))) with inner.
      assert (Li : linv d inner).
      { destruct Hl as [A1 A2 A0 A3 A4 A5 A6 A7 A8 A9]. split; cbn; try exact Logic.I; try tauto; try constructor.
        - unfold usable_type. tauto.
        - apply Forall_app. split; [exact A3|]. now repeat constructor.
        - apply (Permutation_NoDup (l := zone :: l_zones l)); [apply Permutation_cons_append|]. now constructor. }
      assert (Ii : incl (l_zones inner) Z). { cbn. intros z Hin. apply in_app_or in Hin as [Hin|[<-|[]]]; [now apply Hi|assumption]. }
      pose proof (Hfit inner w Li Hw eq_refl eq_refl Ii eq_refl) as F. destruct (sub (inner, w)) as [[r|k|] [inner' w']]; cbn [fst snd] in *; [|exact Hf|exact Hf].
      unfold nst in F. cbn [fst snd] in F. unfold nst, fits, add_sub_trace, lbind, lmod, lret in *. cbn [fst snd]. rewrite depth_push. cbn [inner l_zones] in F. rewrite app_length in F. cbn [length] in F.
      change (line_nesting (T_sub (l_trace inner'))) with (S (depth_of inner')). lia.
    Qed.

    Lemma core_fits : forall k k' zs, l_zones k' = l_zones k -> incl zs Z -> zs = l_zones k -> incl (l_zones k') Z /\ zs = l_zones k'.
    Proof. intros k k' zs E Hi ->. now rewrite E. Qed.

    Lemma servers_nest : forall l err k w, linv (S d) k -> winv w -> Forall (server_ok good) l -> incl (l_zones k) Z -> fits (l_zones k) k ->
      nst (l_zones k) (query_servers p env sub l err (k, w)).
    Proof.
      induction l as [|s l IH]; intros err k w Hk Hw Hl Hi Hf; cbn [query_servers].
      - destruct err; exact Hf.
      - inversion Hl as [|? ? Hs Hl']; subst. apply nst_bind; [exact Hf|]. intros addrs s1 E. apply pair_equal_spec in E as (_ & <-).
        (* a request to a server, then the others *)
        assert (K : forall (s' : nsrv) k1 w1, server_ok good s' -> core k1 = core k -> winv w1 -> fits (l_zones k) k1 ->
          nst (l_zones k) ((let* node := lget l_node in let* kind := lget l_kind in let* conf := lget l_conf in
             let* r := perform_request_with_trace p env node kind s' (max_retries conf) in
             match r with
             | Err e => query_servers p env sub l (first_err err e)
             | Ok (NR_Delegation next) => let* _ := lw (save_nss env next) in let* _ := lmod (set_next next) in lret (Asked_next next)
             | Ok x => lret (Asked_result (Ok x))
             end) (k1, w1))).
        { intros s' k1 w1 Hs' C1 Hw1 Hf1. assert (Hk1 : linv (S d) k1) by (eapply linv_core; eassumption). pose proof (core_eqs _ _ C1) as (E1 & E2 & E3 & E4 & E5 & E6).
          change (nst (l_zones k) (lbind (perform_request_with_trace p env (l_node k1) (l_kind k1) s' (max_retries (l_conf k1))) (fun r =>
             match r with
             | Err e => query_servers p env sub l (first_err err e)
             | Ok (NR_Delegation next) => let* _ := lw (save_nss env next) in let* _ := lmod (set_next next) in lret (Asked_next next)
             | Ok x => lret (Asked_result (Ok x))
             end) (k1, w1))).
          assert (F : nst (l_zones k) (perform_request_with_trace p env (l_node k1) (l_kind k1) s' (max_retries (l_conf k1)) (k1, w1))) by (apply nst_flat; [apply flat_request|exact Hf1]).
          apply nst_bind; [exact F|]. intros r [k2 w2] Er. unfold nst in F. rewrite Er in F. cbn [fst snd] in F.
          pose proof (request_ok p env good EO CO T2 n0 T1 HD T1 HS False False Hq Hlv (l_node k1) (l_kind k1) s' (max_retries (l_conf k1)) k1 w1 Hw1 (li_node _ _ _ _ _ _ _ _ Hk1) (li_kind _ _ _ _ _ _ _ _ Hk1) Logic.I Hs' ltac:(tauto) ltac:(tauto)) as R.
          rewrite Er in R. cbn [okL fst snd] in R. destruct R as (C2 & Hw2 & _). assert (C2' : core k2 = core k) by congruence.
          destruct r as [x|e].
          - destruct x as [soa|ans add|c next|next]; try exact F. apply nst_bind; [apply nst_flat; [apply flat_lw|exact F]|]. intros u [k3 w3] E3'.
            assert (G : k3 = k2). { unfold lw in E3'. cbn [fst snd] in E3'. destruct (save_nss env next w2). congruence. } subst k3. exact F.
          - pose proof (core_eqs _ _ C2') as (_ & _ & G & _). rewrite <- G. apply IH; try assumption; [eapply linv_core; eassumption|now rewrite G|now rewrite G]. }
        destruct addrs as [|a addrs].
        + destruct Hs as (Hg & n & En & Hr). pose proof (co_names p env good CO _ Hg) as (Zn & _ & Nn). rewrite En in Nn.
          assert (Hz : In (ns_zone s) Z) by (apply server_zone; split; [exact Hg|]; now exists n).
          unfold lbind at 2. unfold ns_node at 1, ns_data at 1. rewrite En. cbn [lexec].
          assert (F : nst (l_zones k) (resolve_ns_subquery sub n (ns_zone s) (k, w))) by (apply subquery_nest; assumption).
          pose proof (subquery_ok p env good T2 n0 T1 T1 False False Hlv U HU d sub Hsub n (ns_zone s) k w Hk Hw Nn Zn Logic.I ltac:(tauto)) as R.
          unfold nst in F. unfold lbind at 1 2. destruct (resolve_ns_subquery sub n (ns_zone s) (k, w)) as [[r|e|] [k1 w1]]; cbn [okL fst snd lret] in *; [|exact F|exact F].
          destruct R as (C1 & Hw1 & Ha). pose proof (core_eqs _ _ C1) as (_ & _ & G & _). destruct r as [a|e].
          * apply K; try assumption. split; [exact Hg|]. exists n. split; [exact En|]. apply Ha.
          * rewrite <- G. apply IH; try assumption; [eapply linv_core; eassumption|now rewrite G|now rewrite G].
        + apply K; [assumption|reflexivity|assumption|assumption].
    Qed.

    Lemma zones_nest : forall fuel k w, linv (S d) k -> winv w -> incl (l_zones k) Z -> fits (l_zones k) k ->
      nst (l_zones k) (query_zones p env sub fuel (k, w)).
    Proof.
      induction fuel as [|fuel IH]; intros k w Hk Hw Hi Hf; cbn [query_zones]; [exact Hf|].
      unfold lbind at 1, lget at 1. cbn [fst]. destruct (l_next k) as [|s0 nx] eqn:En; [exact Hf|]. rewrite <- En.
      unfold lbind at 1, lmod at 1. cbn [fst snd].
      assert (Hs : Forall (server_ok good) (l_next k)) by apply Hk.
      assert (Ha : Forall addresses_only (l_next k)) by (eapply Forall_impl; [|exact Hs]; apply server_addrs).
      rewrite (C54_servers_with_addresses_first _ Ha). unfold lbind at 1, lexec at 1.
      set (sorted := filter addressed (l_next k) ++ filter (fun s => negb (addressed s)) (l_next k)).
      unfold lbind at 1, lget at 1. cbn [fst]. cbn [set_next l_conf].
      change (mkLookup (l_node k) (l_kind k) (l_zones k) (l_cnames k) [] (l_trace k) (l_conf k)) with (set_next [] k).
      set (k1 := set_next [] k). assert (Hk1 : linv (S d) k1) by (destruct Hk as [A1 A2 A0 A3 A4 A5 A6 A7 A8 A9]; split; cbn; try assumption; constructor).
      assert (Hs' : Forall (server_ok good) (firstn (max_ns (l_conf k)) sorted)).
      { apply Forall_forall. intros x Hx. apply firstn_incl in Hx. rewrite Forall_forall in Hs. apply Hs. unfold sorted in Hx. apply in_app_or in Hx as [Hx|Hx]; now apply filter_In in Hx as (Hx & _). }
      pose proof (servers_nest (firstn (max_ns (l_conf k)) sorted) None k1 w Hk1 Hw Hs' Hi Hf) as F.
      pose proof (servers_ok p env good EO CO T2 HQ n0 T1 HD T1 HS False False Hq Hlv U HU d sub Hsub (firstn (max_ns (l_conf k)) sorted) (firstn (max_ns (l_conf k)) sorted) None k1 w (fun x H => H) Hk1 Hw Hs' ltac:(tauto)) as R.
      change (nst (l_zones k) (query_servers p env sub (firstn (max_ns (l_conf k)) sorted) None (k1, w))) in F.
      unfold lbind. destruct (query_servers p env sub (firstn (max_ns (l_conf k)) sorted) None (k1, w)) as [[a|e|] [k2 w2]]; cbn [okL fst snd] in *; [|exact F|exact F].
      destruct R as (C & Hw2 & R). destruct a as [x|next]; [exact F|]. destruct R as (_ & _ & Hk2).
      assert (G : l_zones k2 = l_zones k) by (unfold core2 in C; injection C as _ _ G _ _; exact G).
      unfold nst in F. cbn [fst snd] in F. rewrite <- G in F |- *. apply IH; try assumption. now rewrite G.
    Qed.

    Lemma inner_nest : forall fuel q0 n l w, linv (S d) l -> winv w -> pinv q0 n l -> incl (l_zones l) Z -> fits (l_zones l) l ->
      nst (l_zones l) (perform_inner p env sub fuel n (l, w)).
    Proof.
      intros fuel q0. induction n as [|n IH]; intros l w Hl Hw Hp Hi Hf; cbn [perform_inner]; [exact Hf|].
      unfold lbind at 1, lget at 1. cbn [fst]. unfold lbind at 1, lget at 1. cbn [fst].
      (* following an alias *)
      assert (Fol : forall c next l4 w4, core2 l4 = core2 l -> linv (S d) l4 -> winv w4 -> good c -> r_node c = l_node l -> record_type c = RT_CNAME -> Forall (server_ok good) next -> fits (l_zones l) l4 ->
        nst (l_zones l) ((let* r := handle_cname env c next in match r with Err e => lret (Err e) | Ok _ => perform_inner p env sub fuel n end) (l4, w4))).
      { intros c next l4 w4 C4 Hl4 Hw4 Gc Nc Tc Hnx F4. pose proof (pinv_core2 q0 (S n) l l4 C4 Hp) as Hp4. unfold core2 in C4. injection C4 as G1 G2 G3 G4 G5.
        pose proof (nst_flat _ (handle_cname env c next) (l_zones l) (l4, w4) (flat_cname env c next) F4) as F5.
        pose proof (cname_ok p env good EO CO T2 HQ n0 T1 T1 False False U HU d q0 n c next l4 w4 Hl4 Hw4 Hp4 Gc ltac:(congruence) Tc Hnx) as R.
        unfold lbind. unfold nst in F5. destruct (handle_cname env c next (l4, w4)) as [[[[]|e]|e|] [l5 w5]]; cbn [okL fst snd] in *; try exact F5.
        destruct R as (Hw5 & Hl5 & Hp5 & _ & _ & X3). assert (X : l_zones l5 = l_zones l) by congruence. rewrite <- X in F5 |- *. apply IH; try assumption. now rewrite X. }
      apply nst_bind; [apply nst_flat; [now apply flat_trace|exact Hf]|]. intros u0 [l1 w1] E1.
      pose proof (nst_flat _ (trace (T_start (l_node l) (l_kind l))) (l_zones l) (l, w) (flat_trace (T_start (l_node l) (l_kind l)) eq_refl) Hf) as F1.
      pose proof (still_trace (T_start (l_node l) (l_kind l)) (l, w)) as C1. unfold nst in F1. rewrite E1 in C1, F1. cbn [fst snd] in C1, F1.
      assert (W1 : w1 = w) by (unfold trace in E1; cbn [snd] in E1; apply pair_equal_spec in E1 as (_ & E1); apply pair_equal_spec in E1 as (_ & <-); reflexivity). subst w1. clear E1.
      assert (Hl1 : linv (S d) l1) by (eapply linv_core; eassumption).
      (* the search for records *)
      pose proof (nst_flat _ (search_records_with_trace env (l_kind l)) (l_zones l) (l1, w) (flat_search env _) F1) as F2.
      apply nst_bind; [exact F2|]. intros cached [l2 w2] E2. unfold nst in F2. rewrite E2 in F2. cbn [fst snd] in F2.
      pose proof (search_trace_ok p env good EO CO n0 T1 T1 False False Hq (l_kind l) l1 w Hw) as R2. rewrite E2 in R2. cbn [okL fst snd] in R2. destruct R2 as (C2 & Hw2 & _). clear E2.
      assert (C2' : core l2 = core l) by congruence. assert (Hl2 : linv (S d) l2) by (eapply linv_core; eassumption).
      destruct cached as [|r0 rs]; [|exact F2].
      pose proof (nst_flat _ (search_records_with_trace env RT_CNAME) (l_zones l) (l2, w2) (flat_search env _) F2) as F3.
      apply nst_bind; [exact F3|]. intros cnames [l3 w3] E3. unfold nst in F3. rewrite E3 in F3. cbn [fst snd] in F3.
      pose proof (search_trace_ok p env good EO CO n0 T1 T1 False False Hq RT_CNAME l2 w2 Hw2) as R3. rewrite E3 in R3. cbn [okL fst snd] in R3. destruct R3 as (C3 & Hw3 & Hcn). clear E3.
      assert (C3' : core l3 = core l) by congruence. assert (Hl3 : linv (S d) l3) by (eapply linv_core; eassumption).
      assert (N2 : l_node l2 = l_node l) by (apply core_eqs in C2'; tauto).
      destruct cnames as [|c cs].
      2:{ destruct Hcn as (A1 & A2 & A3 & A4). inversion A1; subst. inversion A2; subst. apply Fol; try assumption; [now apply core_core2|congruence|constructor]. }
      unfold lbind at 1, lget at 1. cbn [fst].
      assert (Nx : match l_next l3 with
                   | _ :: _ => lret tt
                   | [] => let* l := search_nss_with_trace env in lmod (set_next match l with [] => root_zone_nameservers | _ => l end)
                   end (l3, w3) = match l_next l3 with
                   | _ :: _ => lret tt
                   | [] => let* l := search_nss_with_trace env in lmod (set_next match l with [] => root_zone_nameservers | _ => l end)
                   end (l3, w3)) by reflexivity.
      set (X := match l_next l3 with
                   | _ :: _ => lret tt
                   | [] => let* l := search_nss_with_trace env in lmod (set_next match l with [] => root_zone_nameservers | _ => l end)
                   end) in *. clear Nx.
      assert (F4 : nst (l_zones l) (X (l3, w3))).
      { apply nst_flat; [|exact F3]. unfold X. destruct (l_next l3); [|apply flat_ret]. apply flat_bind; [apply flat_search_nss|]. intros ns s. reflexivity. }
      apply nst_bind; [exact F4|]. intros u [l4 w4] E4. unfold nst in F4. rewrite E4 in F4. cbn [fst snd] in F4.
      assert (R4 : core2 l4 = core2 l /\ linv (S d) l4 /\ winv w4 /\ l_next l4 <> []).
      { unfold X in E4. destruct (l_next l3) as [|s nx] eqn:En.
        - unfold lbind in E4. pose proof (search_nss_ok p env good EO CO n0 T1 T1 False False Hq l3 w3 Hw3 (li_node _ _ _ _ _ _ _ _ Hl3)) as R4.
          destruct (search_nss_with_trace env (l3, w3)) as [[ns|e|] [l5 w5]]; [|discriminate E4|discriminate E4]. cbn [okL fst snd] in R4. destruct R4 as (C4 & Hw4 & Hns).
          unfold lmod in E4. cbn [fst snd] in E4. apply pair_equal_spec in E4 as (_ & E4). apply pair_equal_spec in E4 as (<- & <-).
          assert (C4' : core l5 = core l) by congruence. assert (Hl5 : linv (S d) l5) by (eapply linv_core; eassumption).
          split; [apply core_core2 in C4'; exact C4'|]. split; [|split; [exact Hw4|destruct ns; discriminate]].
          destruct Hl5 as [A1 A2 A0 A3 A4 A5 A6 A7 A8 A9]. split; cbn; try assumption. destruct ns; [exact (root_ok p env good CO)|exact Hns].
        - apply pair_equal_spec in E4 as (_ & E4). apply pair_equal_spec in E4 as (<- & <-). split; [now apply core_core2|]. split; [exact Hl3|]. split; [exact Hw3|congruence]. }
      clear E4 X. destruct R4 as (C4 & Hl4 & Hw4 & N4).
      assert (Z4 : l_zones l4 = l_zones l) by (unfold core2 in C4; injection C4 as _ _ G _ _; exact G).
      assert (F5 : nst (l_zones l) (query_zones p env sub fuel (l4, w4))). { rewrite <- Z4 in F4 |- *. apply zones_nest; try assumption. now rewrite Z4. }
      apply nst_bind; [exact F5|]. intros r [l5 w5] E5. unfold nst in F5. rewrite E5 in F5. cbn [fst snd] in F5.
      pose proof (zones_ok p env good EO CO T2 HQ n0 T1 HD T1 HS False False Hq Hlv U HU d sub Hsub fuel 0 l4 w4 Hl4 Hw4 N4 (or_introl eq_refl) ltac:(apply Forall_forall; intros; lia) ltac:(tauto)) as R5.
      rewrite E5 in R5. cbn [okL fst snd] in R5. destruct R5 as (C5 & Hw5 & Hl5 & Hr). clear E5.
      destruct r as [x|e]; [|exact F5]. destruct x as [soa|ans add|c next|next]; [exact F5| | |exact F5].
      - apply nst_bind; [exact F5|]. intros u1 s1 E. apply pair_equal_spec in E as (_ & <-).
        apply nst_bind; [apply nst_flat; [apply flat_lw|exact F5]|]. intros u2 [l6 w6] E.
        assert (G : l6 = l5). { unfold lw in E. cbn [fst snd] in E. destruct (save_records env ans w5). congruence. } subst l6. exact F5.
      - destruct Hr as ((zone & A1 & A2 & A3 & A4) & _ & _). assert (N : l_node l4 = l_node l) by (unfold core2 in C4; injection C4 as G _ _ _ _; exact G).
        apply Fol; try assumption; congruence.
    Qed.
  End Sub.

  Lemma perform_nest : forall fuel l w, linv fuel l -> winv w -> l_cnames l = [] -> l_next l = [] -> incl (l_zones l) Z -> l_trace l = [] ->
    nst (l_zones l) (perform p env fuel (l, w)).
  Proof.
    induction fuel as [|fuel IH]; intros l w Hl Hw Hc Hn Hi Ht; (assert (Hf : fits (l_zones l) l) by (unfold fits, depth_of; rewrite Ht; cbn; apply NoDup_incl_length; [apply Hl|exact Hi])); cbn [perform]; [exact Hf|].
    unfold lbind at 1, lget at 1. cbn [fst].
    apply (inner_nest fuel (perform p env fuel) (perform_sub_ok p env good EO CO T2 HQ n0 T1 HD T1 HS False False Hq Hlv U HU fuel) IH fuel (l_node l)); try assumption.
    unfold pinv. rewrite Hc. cbn [alias_chain length]. repeat split; auto. intros b c a t E. now destruct b.
  Qed.
End Nest.

(** Every run of a lookup: not nested deeper than there are zones. *)
Lemma run_nest : forall p env good conf node kind w fuel Z,
  env_ok good env -> class_ok p env good -> cache_ok good (ev_now (env (w_n w))) (w_cache w) -> accepted node -> usable_type kind ->
  (forall r, good r -> record_type r = RT_NS -> In (r_node r) Z) ->
  nesting (l_trace (fst (snd (perform p env fuel (new_lookup conf node kind, w))))) <= length Z.
Proof.
  intros p env good conf node kind w fuel Z EO CO Hw Hn Hk HZ. destruct finitely_many_names as (U & HU).
  assert (Hs : Forall (fun _ => True) (w_sent w)) by (apply Forall_forall; intros; exact Logic.I).
  pose proof (perform_nest p env good EO CO (w_n w) U HU Z HZ fuel (new_lookup conf node kind) w
    (new_linv good (fun _ _ => True) (fun _ => True) False False U fuel conf node kind Hn Hk Logic.I ltac:(tauto) ltac:(tauto)) (conj Hw (conj Hs (le_n _))) eq_refl eq_refl (fun z Hz => match Hz with end) eq_refl) as F.
  unfold nst, fits, depth_of in F. cbn [new_lookup l_zones length] in F. rewrite Nat.add_0_r in F. exact F.
Qed.
