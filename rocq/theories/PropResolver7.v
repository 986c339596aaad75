(** C76: answers are cached. *)
From Verif Require Import Base Types Name NameSpec NameProofs Codec CodecSpec NsSpec Cache Resolver ResolverLists ResolverSpec ResolverInv ResolverRun ResolverFacts ResolverEx PropResolver1 PropResolver2 ResolverStays.

(** Other threads leave alone what is valid until [T] (they may make it last longer). *)
Definition others_keep (env : environment) (T : N) : Prop :=
  forall n c k exp rs, c_data c k = Some (exp, rs) -> (T <= exp)%N ->
    exists exp', (T <= exp')%N /\ c_data (ev_others (env n) c) k = Some (exp', rs).
(** Records without their TTLs. *)
Definition contents (rs : list record) : list record := map (fun r => set_ttl r 0) rs.

Section Cached.
  Context (p : profile) (env : environment) (T : N) (HO : others_keep env T).
  Definition late (w : world) : Prop := exists m, m < w_n w /\ (T <= ev_now' (env m))%N.
  Definition hold (k : rkey) (rs : list record) (w : world) : Prop := late w \/ exists exp, (T <= exp)%N /\ c_data (w_cache w) k = Some (exp, rs).

  Lemma access_n : forall f w, w_n (snd (access env f w)) = S (w_n w).
  Proof. intros f w. unfold access. now destruct (cache_run _ _ _). Qed.
  Lemma late_more : forall w w', w_n w <= w_n w' -> late w -> late w'.
  Proof. intros w w' H (m & H1 & H2). exists m. split; [lia|exact H2]. Qed.
  Lemma late_now : forall w w', w_n w < w_n w' -> (T <= ev_now' (env (w_n w)))%N -> late w'.
  Proof. intros w w' H1 H2. exists (w_n w). now split. Qed.
  Lemma hold_get : forall k rs w k', hold k rs w -> hold k rs (snd (access env (fun e => O_get (K := rkey) k' (ev_now' e)) w)).
  Proof.
    intros k rs w k' [H|(exp & Le & E)]; [left; apply (late_more w); [rewrite access_n; lia|exact H]|].
    destruct (N.leb_spec T (ev_now' (env (w_n w)))) as [L|L]; [left; apply (late_now w); [rewrite access_n; lia|exact L]|].
    right. destruct (HO (w_n w) _ _ _ _ E Le) as (exp' & Le' & E'). exists exp'. split; [exact Le'|]. unfold access, cache_run.
    destruct (c_poisoned _); [exact E'|]. unfold cache_get. destruct (c_data (ev_others (env (w_n w)) (w_cache w)) k') as [[e v]|] eqn:Ek; [|exact E'].
    unfold is_expired. destruct (N.leb_spec e (ev_now' (env (w_n w)))) as [Lx|Lx]; cbn [snd w_cache c_data]; [|exact E'].
    unfold upd. destruct (rkey_eqb k' k) eqn:Eq; [|exact E']. apply rkey_eqb_eq in Eq. subst k'. rewrite E' in Ek. injection Ek as -> ->. lia.
  Qed.
  Lemma hold_set : forall k rs w k' ttl v, k' <> k -> hold k rs w -> hold k rs (snd (access env (fun e => O_set (K := rkey) k' ttl v (ev_now e) (ev_now' e)) w)).
  Proof.
    intros k rs w k' ttl v Hk [H|(exp & Le & E)]; [left; apply (late_more w); [rewrite access_n; lia|exact H]|].
    right. destruct (HO (w_n w) _ _ _ _ E Le) as (exp' & Le' & E'). exists exp'. split; [exact Le'|]. unfold access, cache_run.
    destruct (c_poisoned _); [exact E'|]. unfold cache_set. destruct (INSTANT_END <=? _)%N; [exact E'|].
    assert (G : forall x, upd rkey_eqb (c_data (ev_others (env (w_n w)) (w_cache w))) k' x k = Some (exp', rs)).
    { intros x. unfold upd. destruct (rkey_eqb k' k) eqn:Eq; [|exact E']. apply rkey_eqb_eq in Eq. contradiction. }
    destruct (c_data (ev_others (env (w_n w)) (w_cache w)) k') as [[e0 v0]|]; [destruct (is_expired e0 _)|]; apply G.
  Qed.
  Lemma hold_send : forall k rs w a x, hold k rs w -> hold k rs (mkWorld (w_cache w) (S (w_n w)) ((a, x) :: w_sent w)).
  Proof. intros k rs w a x [H|H]; [left; apply (late_more w); [cbn; lia|exact H]|right; exact H]. Qed.
  Lemma late_parts : forall fuel f n s, late (snd s) ->
    late (snd (snd (perform_inner p env (perform p env f) fuel n s))) /\
    (forall cached, late (snd (snd (after_search1 p env (perform p env f) fuel n cached s)))) /\
    (forall cnames, late (snd (snd (after_search2 p env (perform p env f) fuel n cnames s)))).
  Proof.
    intros fuel f n s H. apply (parts_stay p env late True); [| | |exact I|exact H].
    - intros w k. apply late_more. rewrite access_n. lia.
    - intros w k ttl rs _. apply late_more. rewrite access_n. lia.
    - intros w a x. apply late_more. cbn. lia.
  Qed.

  (** The aliases of a chain are held, but for those that are their own target; [start]: when the lookup began. *)
  Context (start : N).
  Definition kept (cs : list record) (w : world) : Prop := forall c, In c cs -> (T <= start + r_ttl c * SECOND)%N -> r_data c <> D_CNAME (r_node c) ->
    exists c' rs, r_data c' = r_data c /\ hold (r_node c, RT_CNAME) (c' :: rs) w.
  Lemma kept_get : forall cs w k, kept cs w -> kept cs (snd (access env (fun e => O_get (K := rkey) k (ev_now' e)) w)).
  Proof. intros cs w k H c Hc Ht Hs. destruct (H c Hc Ht Hs) as (c' & rs & E & Hh). exists c', rs. split; [exact E|]. now apply hold_get. Qed.
  Lemma kept_set : forall cs w k ttl v, snd k <> RT_CNAME \/ False -> kept cs w -> kept cs (snd (access env (fun e => O_set (K := rkey) k ttl v (ev_now e) (ev_now' e)) w)).
  Proof. intros cs w k ttl v Hk H c Hc Ht Hs. destruct (H c Hc Ht Hs) as (c' & rs & E & Hh). exists c', rs. split; [exact E|]. apply hold_set; [|exact Hh]. intros ->. cbn in Hk. tauto. Qed.
  Lemma kept_send : forall cs w a x, kept cs w -> kept cs (mkWorld (w_cache w) (S (w_n w)) ((a, x) :: w_sent w)).
  Proof. intros cs w a x H c Hc Ht Hs. destruct (H c Hc Ht Hs) as (c' & rs & E & Hh). exists c', rs. split; [exact E|]. now apply hold_send. Qed.
  Definition fresh (cs : list record) (n : name) : Prop := forall c, In c cs -> r_data c <> D_CNAME (r_node c) -> r_node c <> n.

  (** What is in the cache after a successful lookup. *)
  Definition answered (conf : rconf) (q0 : name) (kind : rtype) (x : response) (w : world) : Prop := exists cs last rs rs',
    x_answers x = cs ++ rs /\ alias_chain q0 cs last /\ no_way_back cs /\ length cs < max_cname conf /\ (no_follow conf = true -> cs = []) /\
    kept cs w /\ rs' <> [] /\ contents rs' = contents rs /\ ((forall r, In r rs -> T <= start + r_ttl r * SECOND)%N -> hold (last, kind) rs' w).
  Lemma contents_ttl : forall t rs, contents (map (fun r => set_ttl r t) rs) = contents rs.
  Proof. intros t rs. unfold contents. rewrite map_map. apply map_ext. reflexivity. Qed.

  Lemma searched : forall n k w r0 rs w1, search_records env n k w = (Done (r0 :: rs), w1) -> exists exp rs0 t,
    c_data (w_cache w1) (n, k) = Some (exp, rs0) /\ r0 :: rs = map (fun r => set_ttl r t) rs0 /\ (ev_now (env (w_n w)) + t * SECOND <= exp)%N.
  Proof.
    intros n k w r0 rs w1 H. destruct (C50_ttl_is_what_is_left env w n k (r0 :: rs) w1 H) as (exp & rs0 & Ec & Lt & E); [discriminate|].
    exists exp, rs0, ((exp - ev_now (env (w_n w))) / SECOND)%N. split; [|split; [exact E|]].
    - unfold search_records, wbind, reading, access, cache_run in H. destruct (c_poisoned _); [discriminate H|]. unfold cache_get in H. rewrite Ec in H. unfold is_expired in H.
      replace (exp <=? ev_now' (env (w_n w)))%N with false in H by (symmetry; apply N.leb_gt; exact Lt). destruct rs0 as [|x rs0]; [discriminate E|].
      destruct (_ && _) eqn:Eb in H; [|discriminate H]. destruct (_ <? _)%N in H; [|discriminate H]. injection H as _ _ <-. exact Ec.
    - assert (M : (SECOND * ((exp - ev_now (env (w_n w))) / SECOND) <= exp - ev_now (env (w_n w)))%N) by (apply N.mul_div_le; unfold SECOND; lia).
      unfold search_records, wbind, reading, access, cache_run in H. destruct (c_poisoned _); [discriminate H|]. unfold cache_get in H. rewrite Ec in H. unfold is_expired in H.
      replace (exp <=? ev_now' (env (w_n w)))%N with false in H by (symmetry; apply N.leb_gt; exact Lt). destruct rs0 as [|x rs0]; [discriminate E|].
      destruct (_ && _) eqn:Eb in H; [|discriminate H]. apply andb_true_iff in Eb as (_ & Eb). apply N.ltb_lt in Eb. lia.
  Qed.

  Lemma saved : forall r0 rs w w1, save_records env (r0 :: rs) w = (Done tt, w1) -> w_n w1 = S (w_n w).
  Proof.
    intros r0 rs w w1 H. unfold save_records in H. destruct (forallb _ _); [|discriminate H]. unfold wbind in H.
    match type of H with context [access env ?f w] => pose proof (access_n f w) as A; destruct (access env f w) as [[r|q|] w'] end; [|discriminate H|discriminate H].
    injection H as <-. exact A.
  Qed.
  Lemma hold_saved : forall k v r0 rs w w1, save_records env (r0 :: rs) w = (Done tt, w1) -> (r_node r0, record_type r0) <> k -> hold k v w -> hold k v w1.
  Proof.
    intros k v r0 rs w w1 H Hk [L|(exp & Le & E)]; [left; apply (late_more w); [rewrite (saved _ _ _ _ H); lia|exact L]|]. right.
    destruct (HO (w_n w) _ _ _ _ E Le) as (exp' & Le' & E'). exists exp'. split; [exact Le'|]. destruct (C51_store env r0 rs w w1 H) as (t & _ & _ & _ & D). rewrite D.
    destruct (rkey_eqb _ k) eqn:Eq; [|exact E']. apply rkey_eqb_eq in Eq. contradiction.
  Qed.
  Lemma cname_run : forall c next l w l' w' u, handle_cname env c next (l, w) = (Done (Ok u), (l', w')) -> exists t,
    r_data c = D_CNAME t /\ detect_cname_loops t (l_cnames l) = false /\ l_cnames l' = l_cnames l ++ [c] /\ l_node l' = t /\ save_records env [c] w = (Done tt, w').
  Proof.
    intros c next l w l' w' u. unfold handle_cname, lbind, lexec, lget, lmod, lw, lret. cbn [fst snd]. unfold cname_data. destruct (r_data c) eqn:Ec; try discriminate.
    match goal with H : r_data c = D_CNAME ?x |- _ => rename x into t end.
    cbn [fst snd]. destruct (detect_cname_loops t (l_cnames l)) eqn:Ed; [discriminate|]. cbn [fst snd set_cnames l_conf]. destruct (no_follow (l_conf l)); [discriminate|]. cbn [fst snd].
    destruct (save_records env [c] w) as [[[]|q|] w1]; cbn [fst snd]; intros H; [|discriminate H|discriminate H]. injection H as _ <- <-. exists t. repeat split. exact Ed.
  Qed.
  Lemma no_loop : forall t cs, detect_cname_loops t cs = false -> forall c, In c cs -> r_node c <> t.
  Proof.
    intros t cs H c Hc E. unfold detect_cname_loops in H. assert (X : existsb (fun c => bytes_eqb (r_node c) t) cs = true); [|congruence]. apply existsb_exists. exists c. split; [exact Hc|].
    now apply bytes_eqb_eq.
  Qed.
  Lemma cname_kept : forall c next l w l' w' u, handle_cname env c next (l, w) = (Done (Ok u), (l', w')) -> (start <= ev_now (env (w_n w)))%N -> r_node c = l_node l ->
    kept (l_cnames l) w -> fresh (l_cnames l) (l_node l) -> kept (l_cnames l') w' /\ fresh (l_cnames l') (l_node l').
  Proof.
    intros c next l w l' w' u E Hs Hn Hk Hf. destruct (cname_run _ _ _ _ _ _ _ E) as (t & Et & Ed & Ec & En & Es). rewrite Ec, En.
    assert (Ty : record_type c = RT_CNAME) by (unfold record_type; now rewrite Et). split.
    - intros x Hx Ht Hx'. apply in_app_or in Hx as [Hx|[<-|[]]].
      + destruct (Hk x Hx Ht Hx') as (c' & rs & E1 & Hh). exists c', rs. split; [exact E1|]. eapply hold_saved; [exact Es| |exact Hh]. rewrite Hn. intros C. injection C as C _. exact (Hf x Hx Hx' (eq_sym C)).
      + destruct (C51_store env c [] w w' Es) as (low & Hlow & _ & _ & D). cbn in Hlow. destruct Hlow as [<-|[]]. eexists _, _. split; [|right; eexists; split; [|rewrite D]].
        2: exact (N.le_trans _ _ _ Ht (proj1 (N.add_le_mono_r _ _ _) Hs)).
        2:{ rewrite Ty. replace (rkey_eqb _ _) with true by (symmetry; now apply rkey_eqb_eq). reflexivity. }
        reflexivity.
    - intros x Hx Hx' C. apply in_app_or in Hx as [Hx|[<-|[]]]; [exact (no_loop _ _ Ed x Hx C)|]. congruence.
  Qed.

  Section First.
    Context (EO : env_ok plain_record env) (U : list name) (HU : forall n, accepted n -> In n U) (n0 : nat) (Est : start = ev_now (env n0)).
    Let CO : class_ok p env plain_record := plain_is_a_class p env (eo_bytes _ _ EO).
    Let HAsk : questions_ok plain_record (fun _ _ => True) := conj (fun _ _ _ _ _ _ => I) (fun _ _ _ _ => I).
    Let HDn : denials p env (fun _ => True) n0 (fun _ _ => True).
    Proof. intros n _ a x d m _ _ _ _ _ nd kd _ _ _ _. exact I. Qed.
    Let HSP : sendings p env plain_record (fun _ => True) n0 (fun _ _ => True).
    Proof. intros n _ a x r nd kd _ _ _ _ _ _. exact I. Qed.
    Notation winv := (winv env plain_record (fun _ => True) n0).
    Notation linv := (linv plain_record (fun _ _ => True) (fun _ => True) False False U).
    Notation "'ok' x Q" := (okL False False x Q (fun _ => True)) (at level 10, x at level 9, Q at level 9).
    Let nothing (X : Prop) : False -> X := fun c => match c with end.

    Lemma time_passed : forall w, winv w -> (start <= ev_now (env (w_n w)))%N.
    Proof.
      intros w (_ & _ & H). rewrite Est. induction H as [|m _ IH]; [lia|]. destruct (eo_forward _ _ EO m). lia.
    Qed.
    Lemma weaken : forall A (x : exec A * (lookup * world)) (R : A -> lookup * world -> Prop) E (X : world -> Prop), okL False False x R E -> X (snd (snd x)) -> ok x (fun a s => R a s /\ X (snd s)).
    Proof. intros A [[a|q|] s] R E X H HX; cbn [okL fst snd] in *; [now split|split; [exact I|apply H]|split; [exact I|apply H]]. Qed.
    Lemma search_kept : forall cs kind l w, winv w -> kept cs w ->
      ok (search_records_with_trace env kind (l, w)) (fun rs s' => core (fst s') = core l /\ winv (snd s') /\ found plain_record (l_node l) kind rs /\ kept cs (snd s') /\
        match rs with [] => True | _ => exists exp rs0 t, c_data (w_cache (snd s')) (l_node l, kind) = Some (exp, rs0) /\ rs = map (fun r => set_ttl r t) rs0 /\ (start + t * SECOND <= exp)%N end).
    Proof.
      intros cs kind l w Hw Hk. pose proof (search_trace_ok p env plain_record EO CO n0 (fun _ => True) (fun _ => True) False False (nothing _) kind l w Hw) as S1.
      pose proof (search_stays env (kept cs) (kept_get cs) kind (l, w) Hk) as S2.
      pose proof (searched (l_node l) kind w) as S3. pose proof (time_passed w Hw) as Tw.
      unfold search_records_with_trace, lbind, lget, lw in *. cbn [fst snd] in *. destruct (search_records env (l_node l) kind w) as [[rs|q|] w1]; cbn [okL fst snd trace lret] in *; [|tauto|tauto].
      destruct S1 as (A1 & A2 & A3). split; [exact A1|]. split; [exact A2|]. split; [exact A3|]. split; [exact S2|].
      destruct rs as [|r0 rs]; [exact I|]. destruct (S3 _ _ _ eq_refl) as (exp & rs0 & t & B1 & B2 & B3). exists exp, rs0, t. split; [exact B1|]. split; [exact B2|]. lia.
    Qed.

    Lemma first_inner : forall f fuel d q0 n l w, linv (S d) l -> winv w -> pinv q0 n l -> kept (l_cnames l) w -> fresh (l_cnames l) (l_node l) ->
      sub_ok env plain_record (fun _ _ => True) n0 (fun _ => True) (fun _ => True) False False U d (perform p env f) ->
      ok (perform_inner p env (perform p env f) fuel n (l, w)) (fun r s' => match r with Ok x => x_none x = false -> answered (l_conf l) q0 (l_kind l) x (snd s') | Err _ => True end).
    Proof.
      intros f fuel d q0 n l w Hl Hw Hp Hk Hf Hsub. revert l w Hl Hw Hp Hk Hf. induction n as [|n IH]; intros l w Hl Hw Hp Hk Hf; cbn [perform_inner]; [exact I|].
      do 2 (apply okL_bind; cbn [lget okL fst]). apply okL_bind. unfold trace at 1. cbn [okL fst snd].
      set (l1 := if silent (l_conf l) then l else push_line (T_start (l_node l) (l_kind l)) l). assert (C1 : core l1 = core l) by (unfold l1; now destruct (silent _)). clearbody l1.
      pose proof (core_eqs _ _ C1) as (E1 & E2 & E3 & E4 & E5 & E6).
      apply okL_bind. eapply okL_mono; [apply (search_kept (l_cnames l)); assumption|]. intros cached [l2 w2] (C2 & Hw2 & Fd & Hk2 & Hit). cbn [fst snd] in *. rewrite E1 in Hit, Fd.
      assert (Fin : forall l3 w3 ans add au rs', core2 l3 = core2 l -> kept (l_cnames l) w3 -> rs' <> [] -> contents rs' = contents ans ->
         ((forall r, In r ans -> T <= start + r_ttl r * SECOND)%N -> hold (l_node l, l_kind l) rs' w3) -> answered (l_conf l) q0 (l_kind l) (mkResp (l_cnames l3 ++ ans) au add false) w3).
      { intros l3 w3 ans add au rs' C Hk3 R1 R2 R3. destruct Hp as (P1 & P2 & P3 & P4). unfold core2 in C. injection C as _ _ _ F4 _. exists (l_cnames l3), (l_node l), ans, rs'. rewrite F4. cbn [x_answers].
        repeat (split; [first [reflexivity|assumption|lia]|]). exact R3. }
      destruct cached as [|r0 rs].
      2:{ apply okL_bind. cbn [lget okL fst]. apply okL_bind. cbn [lmod lret okL fst snd]. intros _. destruct Hit as (exp & rs0 & t & B1 & B2 & B3).
          apply (Fin l2 w2 (r0 :: rs) [] [] rs0); [apply core_core2; congruence|exact Hk2|intros ->; discriminate B2|rewrite B2; symmetry; apply contents_ttl|].
          intros Ht. right. exists exp. split; [|exact B1]. specialize (Ht r0 (or_introl eq_refl)). assert (r_ttl r0 = t) by (destruct rs0; [discriminate B2|]; injection B2 as -> _; reflexivity). subst t. lia. }
      clear Hit Fd. assert (C2' : core l2 = core l) by congruence.
      apply okL_bind. eapply okL_mono; [apply (search_kept (l_cnames l)); assumption|]. intros cnames [l3 w3] (C3 & Hw3 & Fd & Hk3 & _). cbn [fst snd] in *.
      assert (C3' : core l3 = core l) by congruence. pose proof (core_eqs _ _ C3') as (F1 & F2 & F3 & F4 & F5 & F6).
      assert (Hl3 : linv (S d) l3) by (eapply linv_core; eassumption).
      assert (Fol : forall c next l4 w4, core2 l4 = core2 l -> linv (S d) l4 -> winv w4 -> kept (l_cnames l) w4 -> plain_record c -> r_node c = l_node l -> record_type c = RT_CNAME -> Forall (server_ok plain_record) next ->
        ok ((let* r := handle_cname env c next in match r with Err e => lret (Err e) | Ok _ => perform_inner p env (perform p env f) fuel n end) (l4, w4))
          (fun r s' => match r with Ok x => x_none x = false -> answered (l_conf l) q0 (l_kind l) x (snd s') | Err _ => True end)).
      { intros c next l4 w4 C4 Hl4 Hw4 Hk4 Gc Nc Tc Hnx. pose proof (pinv_core2 q0 (S n) l l4 C4 Hp) as Hp4.
        unfold core2 in C4. injection C4 as G1 G2 G3 G4 G5. apply okL_bind.
        pose proof (cname_ok p env plain_record EO CO (fun _ _ => True) HAsk n0 (fun _ => True) (fun _ => True) False False U HU d q0 n c next l4 w4 Hl4 Hw4 Hp4 Gc ltac:(congruence) Tc Hnx) as S1.
        pose proof (cname_kept c next l4 w4) as S2.
        destruct (handle_cname env c next (l4, w4)) as [[[u|e]|q|] [l5 w5]]; cbn [okL fst snd lret] in *; [|exact I|tauto|tauto]. destruct S1 as (Hw5 & Hl5 & Hp5 & X1 & X2 & X3).
        destruct (S2 l5 w5 u eq_refl (time_passed _ Hw4)) as (Hk5 & Hf5); [congruence|now rewrite G4|now rewrite G4, G1|].
        eapply okL_mono; [apply IH; assumption|]. intros r s' H. rewrite X1, X2, G5, G2 in H. exact H. }
      destruct cnames as [|c cs].
      2:{ destruct Fd as (A1 & A2 & A3 & A4). inversion A1; subst. inversion A2; subst. apply Fol; try assumption; [now apply core_core2| |constructor]. apply core_eqs in C2'. intuition congruence. }
      apply okL_bind. cbn [lget okL fst]. apply okL_bind.
      assert (Nx : ok (match l_next l3 with
                    | _ :: _ => lret tt
                    | [] => let* l := search_nss_with_trace env in lmod (set_next match l with [] => root_zone_nameservers | _ => l end)
                    end (l3, w3)) (fun _ s' => core2 (fst s') = core2 l /\ linv (S d) (fst s') /\ winv (snd s') /\ l_next (fst s') <> [] /\ kept (l_cnames l) (snd s'))).
      { destruct (l_next l3) as [|s nx] eqn:En.
        - apply okL_bind. pose proof (search_nss_ok p env plain_record EO CO n0 (fun _ => True) (fun _ => True) False False (nothing _) l3 w3 Hw3 (li_node _ _ _ _ _ _ _ _ Hl3)) as S1.
          eapply okL_mono; [apply (weaken _ _ _ _ (kept (l_cnames l)) S1); apply search_nss_stays; [apply kept_get|exact Hk3]|]. intros ns [l4 w4] ((C4 & Hw4 & Hns) & Hk4). cbn [fst snd lmod okL] in *.
          assert (C4' : core l4 = core l) by congruence. assert (Hl4 : linv (S d) l4) by (eapply linv_core; eassumption).
          split; [apply core_core2 in C4'; exact C4'|]. split; [|split; [exact Hw4|split; [destruct ns; discriminate|exact Hk4]]].
          destruct Hl4 as [A1 A2 A0 A3 A4 A5 A6 A7 A8 A9]. split; cbn; try assumption. destruct ns; [apply (root_ok p env plain_record CO)|exact Hns].
        - cbn. split; [now apply core_core2|]. split; [exact Hl3|]. split; [exact Hw3|]. split; [congruence|exact Hk3]. }
      eapply okL_mono; [exact Nx|]. clear Nx. intros _ [l4 w4] (C4 & Hl4 & Hw4 & N4 & Hk4). cbn [fst snd] in *.
      apply okL_bind. pose proof (zones_ok p env plain_record EO CO (fun _ _ => True) HAsk n0 (fun _ => True) HDn (fun _ => True) HSP False False (nothing _) (nothing _) U HU d (perform p env f) Hsub fuel 0 l4 w4 Hl4 Hw4 N4 (or_introl eq_refl)
        ltac:(apply Forall_forall; intros; lia) (nothing _)) as S1.
      eapply okL_mono; [apply (weaken _ _ _ _ (kept (l_cnames l)) S1); apply (zones_stay p env (kept (l_cnames l)) False); [apply kept_get|apply kept_set|apply kept_send|exact Hk4]|].
      intros r [l5 w5] ((C5 & Hw5 & Hl5 & Hr) & Hk5). cbn [fst snd] in *.
      assert (C5' : core2 l5 = core2 l) by congruence. assert (Z : l_node l4 = l_node l /\ l_kind l4 = l_kind l) by (unfold core2 in C4; split; congruence). destruct Z as (Z1 & Z2). rewrite Z1, Z2 in Hr.
      destruct r as [x|e]; [|exact I]. destruct Hr as ((zone & Hr) & Hnd & _). destruct x as [soa|ans add|c next|next].
      - apply okL_bind. cbn [lget okL fst]. apply okL_bind. cbn [lmod lret okL fst snd x_none]. discriminate.
      - cbn [resp_ok] in Hr. destruct Hr as (Ha & Hf' & _). apply okL_bind. unfold lexec. destruct (debug_assert _ _ _) as [u|q|]; cbn [okL]; [|split; [exact I|tauto]|split; [exact I|tauto]].
        apply okL_bind. unfold lw. cbn [fst snd]. destruct ans as [|a0 ans]; [congruence|].
        destruct (save_records env (a0 :: ans) w5) as [[[]|q|] w6] eqn:Es; cbn [okL]; [|split; [exact I|tauto]|split; [exact I|tauto]].
        apply okL_bind. cbn [lget okL fst]. apply okL_bind. cbn [lmod lret okL fst snd]. intros _. pose proof (C51_store env a0 ans w5 w6 Es) as (low & Hlow & _ & _ & D).
        inversion Hf' as [|? ? (_ & Hn0 & Ht0) Hf'']; subst.
        apply (Fin l5 w6 (a0 :: ans) add [] (map (fun r => set_ttl r low) (a0 :: ans))); [exact C5'| |discriminate|apply contents_ttl|].
        + intros c Hc Ht Hns. destruct (Hk5 c Hc Ht Hns) as (c' & rs & X1 & X2). exists c', rs. split; [exact X1|]. eapply hold_saved; [exact Es| |exact X2].
          rewrite Hn0. intros C. injection C as C _. exact (Hf c Hc Hns (eq_sym C)).
        + intros Ht. right. eexists. split; [|rewrite D, Hn0, Ht0; replace (rkey_eqb _ _) with true by (symmetry; now apply rkey_eqb_eq); reflexivity].
          apply in_map_iff in Hlow as (r & <- & Hr). specialize (Ht r Hr). pose proof (time_passed _ Hw5). lia.
      - cbn [resp_ok] in Hr. destruct Hr as (A1 & A2 & A3 & A4). now apply Fol.
      - now destruct (Hnd next).
    Qed.
  End First.

  (** * The second lookup *)
  Section Second.
    Context (EO : env_ok plain_record env) (Quick : forall n, (ev_now' (env n) < ev_now (env n) + SECOND)%N).
    Let CO : class_ok p env plain_record := plain_is_a_class p env (eo_bytes _ _ EO).
    Notation winv := (winv env plain_record (fun _ => True) 0).

    Lemma search_done : forall n k w, winv w -> exists rs w1, search_records env n k w = (Done rs, w1) /\ winv w1 /\ w_sent w1 = w_sent w /\ found plain_record n k rs.
    Proof.
      intros n k w Hw. pose proof (search_ok p env plain_record EO CO (fun _ => True) (fun _ => True) 0 False False n k w ltac:(tauto) Hw) as S1.
      unfold search_records, wbind, reading in *. destruct (get_ok env plain_record EO (fun _ => True) 0 w (n, k) Hw) as (o & w' & E & Hw' & Hs & Hn & Ho). rewrite E in *.
      destruct o as [[exp [|r0 rs]]|]; cbn [okW] in *.
      - eexists _, _. split; [reflexivity|]. exact S1.
      - destruct Ho as ((_ & Hg & _ & (ttl & Hl & Hx) & _) & Hlt). destruct (forallb _ (r0 :: rs) && _) eqn:Eb in *; cbn [okW wexec] in *.
        2:{ exfalso. apply andb_false_iff in Eb as [Eb|Eb]; [|apply N.ltb_ge in Eb; destruct (eo_forward _ _ EO (w_n w)); lia].
            destruct (get_ok env plain_record EO (fun _ => True) 0 w (n, k) Hw) as (o & w2 & E2 & _ & _ & _ & Ho2). rewrite E in E2. injection E2 as <- <-. destruct Ho2 as ((_ & _ & Ht & (ttl' & Hl' & _) & _) & _).
            assert (X : forallb (fun r => rtype_eqb (record_type r) (record_type r0) && (r_ttl r =? r_ttl r0)%N) (r0 :: rs) = true); [|congruence].
            apply forallb_forall. intros r Hr. rewrite Forall_forall in Ht, Hl'. apply andb_true_iff. split; [apply rtype_eqb_eq; rewrite (Ht r Hr), (Ht r0); [reflexivity|now left]|].
            apply N.eqb_eq. rewrite (Hl' r Hr), (Hl' r0); [reflexivity|now left]. }
        destruct ((exp - ev_now (env (w_n w))) / 1000000000 <? 4294967296)%N eqn:Et; cbn [okW wret wexec] in *; [eexists _, _; split; [reflexivity|exact S1]|].
        exfalso. apply N.ltb_ge in Et. assert (Ut : (ttl < 4294967296)%N). { inversion Hl; subst. inversion Hg as [|? ? G _]; subst. apply (co_names p env _ CO) in G as (_ & G & _). exact G. }
        assert (Lt : ((exp - ev_now (env (w_n w))) / 1000000000 < 4294967296)%N); [|lia]. apply N.div_lt_upper_bound; [lia|]. specialize (Quick (w_n w)). unfold SECOND in *. lia.
      - eexists _, _. split; [reflexivity|]. exact S1.
    Qed.
    Lemma search_n : forall n k w, w_n (snd (search_records env n k w)) = S (w_n w).
    Proof.
      intros n k w. unfold search_records, wbind, reading. match goal with |- context [access env ?f w] => pose proof (access_n f w) as A; destruct (access env f w) as [[r|q|] w'] end; [|exact A|exact A].
      destruct r as [[[exp [|r0 rs]]|]| |]; try exact A. destruct (_ && _); [|exact A]. destruct (_ <? _)%N; exact A.
    Qed.
    Lemma search_hit : forall n k v w rs w1, hold (n, k) v w -> v <> [] -> search_records env n k w = (Done rs, w1) -> late w1 \/ exists t, rs = map (fun r => set_ttl r t) v.
    Proof.
      intros n k v w rs w1 H Hv E. assert (N1 : w_n w1 = S (w_n w)) by (pose proof (search_n n k w) as X; rewrite E in X; exact X).
      destruct H as [H|(exp & Le & Ec)]; [left; apply (late_more w); [lia|exact H]|].
      destruct (N.leb_spec T (ev_now' (env (w_n w)))) as [L|L]; [left; apply (late_now w); [lia|exact L]|]. right.
      destruct (HO (w_n w) _ _ _ _ Ec Le) as (exp' & Le' & E'). unfold search_records, wbind, reading, access, cache_run in E. destruct (c_poisoned _); [discriminate E|]. unfold cache_get in E. rewrite E' in E.
      unfold is_expired in E. replace (exp' <=? ev_now' (env (w_n w)))%N with false in E by (symmetry; apply N.leb_gt; lia). destruct v as [|r0 v]; [congruence|].
      destruct (_ && _) in E; [|discriminate E]. destruct (_ <? _)%N in E; [|discriminate E]. injection E as <- _ . eexists. reflexivity.
    Qed.
    Lemma hold_search : forall k v n kind w, hold k v w -> hold k v (snd (search_records env n kind w)).
    Proof. intros k v n kind w. apply (keepsW_search env (hold k v)). intros w' k'. apply hold_get. Qed.

    Lemma owner_new : forall done c cs from to, alias_chain from (c :: cs) to -> no_way_back (done ++ c :: cs) -> r_data c <> D_CNAME (r_node c) -> forall x, In x cs -> r_node x <> r_node c.
    Proof.
      intros done c cs from to Hch Hnb Hns x Hx E. apply in_split in Hx as (b & a & ->). destruct (chain_owner _ _ _ Hch (c :: b) x a eq_refl) as [(C & _)|(b' & d & Eb & Ed)]; [discriminate C|].
      rewrite E in Ed. destruct b' as [|y b']; [injection Eb as <- _; contradiction|]. injection Eb as <- ->.
      apply (Hnb (done ++ c :: b') d (x :: a) (r_node c)); [rewrite <- ?app_assoc; cbn [app]; rewrite <- ?app_assoc; reflexivity|exact Ed|]. rewrite map_app. apply in_or_app. right. now left.
    Qed.

    Lemma chain_end : forall cs from to, alias_chain from cs to -> cs = [] /\ from = to \/ exists b d, cs = b ++ [d] /\ r_data d = D_CNAME to.
    Proof.
      induction cs as [|c cs IH]; intros from to H; [left; now split|]. destruct H as (_ & t & Ht & H). right. destruct (IH _ _ H) as [(-> & <-)|(b & d & -> & Hd)]; [exists [], c; now split|]. exists (c :: b), d. now split.
    Qed.
    Lemma end_new : forall done c cs from to, alias_chain from (c :: cs) to -> no_way_back (done ++ c :: cs) -> r_data c <> D_CNAME (r_node c) -> to <> r_node c.
    Proof.
      intros done c cs from to Hch Hnb Hns E. destruct (chain_end _ _ _ Hch) as [(C & _)|(b & d & Eb & Ed)]; [discriminate C|]. rewrite E in Ed.
      destruct b as [|y b]; [injection Eb as <- _; contradiction|]. injection Eb as <- ->.
      apply (Hnb (done ++ c :: b) d [] (r_node c)); [now rewrite <- app_assoc|exact Ed|]. rewrite map_app. apply in_or_app. right. now left.
    Qed.

    Lemma inner_step : forall sub fuel n l w rs w1, search_records env (l_node l) (l_kind l) w = (Done rs, w1) ->
      exists l2, core l2 = core l /\ perform_inner p env sub fuel (S n) (l, w) = after_search1 p env sub fuel n rs (l2, w1).
    Proof.
      intros sub fuel n l w rs w1 E. rewrite inner_parts. unfold lbind at 1 2 3, lget, trace. cbn [fst snd]. set (l1 := if silent _ then _ else _).
      assert (C1 : core l1 = core l) by (unfold l1; now destruct (silent _)). clearbody l1. pose proof (core_eqs _ _ C1) as (E1 & _).
      unfold lbind at 1. unfold search_records_with_trace. unfold lbind at 1, lget, lw. cbn [fst snd]. unfold lbind at 1. rewrite E1. cbn [fst snd]. rewrite E.
      unfold lbind at 1, trace, lret at 1. cbn [fst snd]. eexists. split; [|reflexivity]. destruct (silent (l_conf l1)); [exact C1|]. rewrite <- C1. reflexivity.
    Qed.
    Lemma after_step : forall sub fuel n l w cn w2, search_records env (l_node l) RT_CNAME w = (Done cn, w2) ->
      exists l2, core l2 = core l /\ after_search1 p env sub fuel n [] (l, w) = after_search2 p env sub fuel n cn (l2, w2).
    Proof.
      intros sub fuel n l w rs w1 E. cbn [after_search1]. unfold lbind at 1. unfold search_records_with_trace. unfold lbind at 1, lget, lw. cbn [fst snd]. unfold lbind at 1. cbn [fst snd]. rewrite E.
      unfold lbind at 1, trace, lret at 1. cbn [fst snd]. eexists. split; [|reflexivity]. now destruct (silent (l_conf l)).
    Qed.
    Lemma alias_step : forall sub fuel n c cn t l w w1, r_data c = D_CNAME t -> detect_cname_loops t (l_cnames l) = false -> no_follow (l_conf l) = false -> save_records env [c] w = (Done tt, w1) ->
      after_search2 p env sub fuel n (c :: cn) (l, w) = perform_inner p env sub fuel n (set_node t (set_next [] (set_cnames (l_cnames l ++ [c]) l)), w1).
    Proof.
      intros sub fuel n c cn t l w w1 Ec Ed En Es. cbn [after_search2]. unfold after_alias. unfold lbind at 1. unfold handle_cname. unfold lbind at 1, lexec, cname_data. rewrite Ec. unfold lbind at 1, lget. cbn [fst snd].
      rewrite Ed. unfold lbind at 1, lmod. cbn [fst snd]. unfold lbind at 1, lget. cbn [fst snd set_cnames l_conf]. rewrite En. unfold lbind at 1, lw. cbn [fst snd]. rewrite Es. reflexivity.
    Qed.

    Lemma second_inner : forall f fuel last kind v cs done n l w,
      winv w -> l_kind l = kind -> (no_follow (l_conf l) = true -> cs = []) -> alias_chain (l_node l) cs last -> no_way_back (done ++ cs) ->
      incl (map r_node (l_cnames l)) (map r_node done) -> (forall c, In c cs -> T <= start + r_ttl c * SECOND)%N -> kept cs w -> hold (last, kind) v w -> v <> [] -> length cs < n ->
      late (snd (snd (perform_inner p env (perform p env f) fuel n (l, w)))) \/ exists x', fst (perform_inner p env (perform p env f) fuel n (l, w)) = Done (Ok x') /\ x_none x' = false /\ w_sent (snd (snd (perform_inner p env (perform p env f) fuel n (l, w)))) = w_sent w /\ (cs = [] -> l_cnames l = [] -> contents (x_answers x') = contents v).
    Proof.
      intros f fuel last kind v cs. induction cs as [|c cs IH]; intros done n l w Hw Hkind Hnf Hch Hnb Hin HT Hkept Hhold Hv Hn; (destruct n as [|n]; [cbn in Hn; lia|]).
      - cbn [alias_chain] in Hch. subst last. destruct (search_done (l_node l) kind w Hw) as (rs & w1 & E & Hw1 & Hs1 & _).
        destruct (inner_step (perform p env f) fuel n l w rs w1) as (l2 & C2 & R); [now rewrite Hkind|]. rewrite R.
        destruct (search_hit _ _ _ _ _ _ Hhold Hv E) as [L|(t & ->)]; [left; apply (late_parts fuel f n (l2, w1)); exact L|].
        right. destruct v as [|v0 v]; [congruence|]. cbn [map after_search1]. unfold lbind, lget, lmod, lret. cbn [fst snd]. eexists. split; [reflexivity|]. split; [reflexivity|]. split; [exact Hs1|].
        intros _ Hc. pose proof (core_eqs _ _ C2) as (_ & _ & _ & E4 & _). cbn [x_answers]. rewrite E4, Hc. cbn [app]. exact (contents_ttl t (v0 :: v)).
      - destruct Hch as (Hc1 & t & Hc2 & Hch). destruct (bytes_eqb t (r_node c)) eqn:Eself.
        { (* its own target *)
          apply bytes_eqb_eq in Eself. subst t. rewrite Hc1 in Hch. destruct (IH (done ++ [c]) (S n) l w Hw Hkind) as [X|(x' & X1 & X2 & X3 & _)]; try assumption.
          - intros C. discriminate (Hnf C).
          - now rewrite <- app_assoc.
          - intros y Hy. rewrite map_app. apply in_or_app. left. now apply Hin.
          - intros y Hy. apply HT. now right.
          - intros y Hy. apply Hkept. now right.
          - cbn in Hn. lia.
          - left. exact X.
          - right. exists x'. split; [exact X1|]. split; [exact X2|]. split; [exact X3|]. discriminate. }
        assert (Hns : r_data c <> D_CNAME (r_node c)). { rewrite Hc2. intros C. injection C as C. subst t. rewrite bytes_eqb_refl in Eself. discriminate Eself. }
        destruct (search_done (l_node l) kind w Hw) as (rs & w1 & E & Hw1 & Hs1 & _).
        destruct (inner_step (perform p env f) fuel n l w rs w1) as (l2 & C2 & R); [now rewrite Hkind|]. rewrite R. clear R. pose proof (core_eqs _ _ C2) as (E1 & E2 & E3 & E4 & E5 & E6).
        destruct rs as [|r0 rs].
        2:{ right. cbn [after_search1]. unfold lbind, lget, lmod, lret. cbn [fst snd]. eexists. split; [reflexivity|]. split; [reflexivity|]. split; [exact Hs1|]. discriminate. }
        destruct (search_done (l_node l) RT_CNAME w1 Hw1) as (cn & w2 & Ec & Hw2 & Hs2 & Fd).
        destruct (after_step (perform p env f) fuel n l2 w1 cn w2) as (l3 & C3 & R); [now rewrite E1|]. rewrite R. clear R.
        assert (C3' : core l3 = core l) by congruence. clear C2 E1 E2 E3 E4 E5 E6 C3 l2. pose proof (core_eqs _ _ C3') as (E1 & E2 & E3 & E4 & E5 & E6).
        assert (K2 : forall k0 v0, hold k0 v0 w -> hold k0 v0 w2).
        { intros k0 v0 H. apply (hold_search _ _ (l_node l) kind) in H. rewrite E in H. cbn [snd] in H. apply (hold_search _ _ (l_node l) RT_CNAME) in H. rewrite Ec in H. exact H. }
        destruct (Hkept c (or_introl eq_refl) (HT c (or_introl eq_refl)) Hns) as (c' & rs & Ed' & Hh). rewrite Hc1 in Hh. apply (hold_search _ _ (l_node l) kind) in Hh. rewrite E in Hh. cbn [snd] in Hh.
        destruct (search_hit _ _ _ _ _ _ Hh ltac:(discriminate) Ec) as [L|(tt0 & ->)]; [left; apply (late_parts fuel f n (l3, w2)); exact L|].
        cbn [map] in *. set (c2 := set_ttl c' tt0) in *. assert (D2 : r_data c2 = D_CNAME t) by (unfold c2; cbn; now rewrite Ed').
        destruct Fd as (Fg & Ft & Fo & _). specialize (Fo ltac:(discriminate)). inversion Fg as [|? ? Gc _]; subst. inversion Ft as [|? ? Tc _]; subst. inversion Fo as [|? ? Nc _]; subst.
        assert (Nl : detect_cname_loops t (l_cnames l3) = false).
        { destruct (detect_cname_loops t (l_cnames l3)) eqn:X; [|reflexivity]. exfalso. unfold detect_cname_loops in X. apply existsb_exists in X as (y & Hy & Ey). apply bytes_eqb_eq in Ey. rewrite E4 in Hy.
          apply (Hnb done c cs t eq_refl Hc2). rewrite <- Ey. apply Hin. now apply in_map. }
        assert (Enf : no_follow (l_conf l3) = false). { rewrite E6. destruct (no_follow (l_conf l)); [discriminate (Hnf eq_refl)|reflexivity]. }
        assert (SV : exists w3, save_records env [c2] w2 = (Done tt, w3) /\ winv w3 /\ w_sent w3 = w_sent w2).
        { pose proof (save_ok p env plain_record EO CO (fun _ => True) 0 True True [c2] w2 Hw2 ltac:(discriminate) ltac:(constructor; [exact Gc|constructor])
            ltac:(exists RT_CNAME; split; [constructor; [exact Tc|constructor]|]; intros _; exists (r_node c2); repeat constructor)) as SV.
          destruct (save_records env [c2] w2) as [[[]|q|] w3]; cbn [okW] in SV; [|destruct SV as (_ & []); exact I|destruct SV as (_ & []); exact I]. exists w3. split; [reflexivity|exact SV]. }
        destruct SV as (w3 & Es & Hw3 & Hs3). rewrite (alias_step _ _ _ _ _ t _ _ w3 D2 Nl Enf Es).
        match goal with |- context [perform_inner p env (perform p env f) fuel n (?l', w3)] => set (l4 := l') end.
        assert (N2 : forall x, In x cs -> r_node x <> r_node c) by (apply (owner_new done c cs (r_node c) last); [split; [reflexivity|]; exists t; now split|exact Hnb|exact Hns]).
        destruct (IH (done ++ [c]) n l4 w3 Hw3) as [X|(x' & X1 & X2 & X3 & _)].
        + unfold l4. cbn. exact E2.
        + unfold l4. cbn. intros C. congruence.
        + unfold l4. cbn. exact Hch.
        + now rewrite <- app_assoc.
        + unfold l4. cbn [l_cnames set_node set_next set_cnames]. rewrite !map_app, E4. apply incl_app; [apply incl_appl; exact Hin|]. apply incl_appr. cbn [map]. intros y [<-|[]]. left. congruence.
        + intros y Hy. apply HT. now right.
        + intros y Hy Hty Hsy. destruct (Hkept y (or_intror Hy) Hty Hsy) as (y' & ry & Ey & Hhy). exists y', ry. split; [exact Ey|]. eapply hold_saved; [exact Es| |apply K2; exact Hhy].
          intros C. injection C as C _. apply (N2 y Hy). exact (eq_trans (eq_sym C) (eq_trans Nc (eq_sym Hc1))).
        + eapply hold_saved; [exact Es| |apply K2; exact Hhold]. intros C. injection C as C _.
          apply (end_new done c cs (r_node c) last); [split; [reflexivity|]; exists t; now split|exact Hnb|exact Hns|exact (eq_trans (eq_sym C) (eq_trans Nc (eq_sym Hc1)))].
        + exact Hv.
        + cbn in Hn. lia.
        + left. exact X.
        + right. exists x'. split; [exact X1|]. split; [exact X2|]. split; [congruence|]. discriminate.
    Qed.
  End Second.
End Cached.

(** A lookup that found something, repeated while the records it returned are valid (all
    clock readings of both lookups are before [T], and [T] is at most the start plus any of
    the TTLs): it succeeds again, and nothing is sent. If no alias was involved, the records
    are the same (but for their TTLs). Assumed: cache accesses take less than a second, and
    other threads do not remove or replace what is still valid. *)
Theorem C76_answers_are_cached : forall p env conf q kind w fuel x l' w' T fuel' res l'' w'',
  env_ok plain_record env -> (forall n, (ev_now' (env n) < ev_now (env n) + SECOND)%N) -> others_keep env T ->
  cache_ok plain_record (ev_now (env (w_n w))) (w_cache w) -> accepted q -> usable_type kind ->
  perform p env fuel (new_lookup conf q kind, w) = (Done (Ok x), (l', w')) -> x_none x = false ->
  (forall r, In r (x_answers x) -> T <= ev_now (env (w_n w)) + r_ttl r * SECOND)%N ->
  perform p env (S fuel') (new_lookup conf q kind, w') = (res, (l'', w'')) ->
  (forall n, n < w_n w'' -> (ev_now' (env n) < T)%N) ->
  exists x', res = Done (Ok x') /\ x_none x' = false /\ w_sent w'' = w_sent w' /\
    (kind <> RT_CNAME -> Forall (fun r => record_type r = kind) (x_answers x) -> contents (x_answers x') = contents (x_answers x)).
Proof.
  intros p env conf q kind w fuel x l' w' T fuel' res l'' w'' EO Quick HO Hw Hq Hk E1 Hx HT E2 Htime. destruct finitely_many_names as (U & HU). set (start := ev_now (env (w_n w))) in *.
  pose proof (plain_is_a_class p env (eo_bytes _ _ EO)) as CO.
  pose proof (C51_cache_stays_in_order p env conf q kind fuel w EO Hq Hk Hw) as Hw'. rewrite E1 in Hw'.
  assert (HQ : questions_ok plain_record (fun _ _ => True)) by (split; intros; exact I).
  assert (HD : denials p env (fun _ => True) (w_n w) (fun _ _ => True)) by (intros n _ a y d m _ _ _ _ _ nd kd _ _ _ _; exact I).
  assert (HS : sendings p env plain_record (fun _ => True) (w_n w) (fun _ _ => True)) by (intros n _ a y r nd kd _ _ _ _ _ _; exact I).
  destruct fuel as [|fuel]; [discriminate E1|]. cbn [perform] in E1, E2. unfold lbind, lget in E1, E2. cbn [fst snd new_lookup l_conf] in E1, E2.
  pose proof (perform_sub_ok p env plain_record EO CO (fun _ _ => True) HQ (w_n w) (fun _ => True) HD (fun _ => True) HS False False ltac:(tauto) ltac:(tauto) U HU fuel) as Sub.
  pose proof (first_inner p env T HO start EO U HU (w_n w) eq_refl fuel fuel fuel q (max_cname conf) (new_lookup conf q kind) w
    (new_linv plain_record (fun _ _ => True) (fun _ => True) False False U (S fuel) conf q kind Hq Hk I ltac:(tauto) ltac:(tauto))
    (conj Hw (conj (proj2 (Forall_forall _ _) (fun _ _ => I)) (le_n _)))) as F.
  rewrite E1 in F. cbn [okL fst snd new_lookup l_conf l_cnames l_node l_kind] in F.
  destruct F as (cs & last & rs & rs' & A1 & A2 & A3 & A4 & A5 & A6 & A7 & A8 & A9).
  - unfold pinv. cbn. repeat split; auto. intros b c a t E. now destruct b.
  - intros c [].
  - intros c [].
  - exact Sub.
  - exact Hx.
  - pose proof (second_inner p env T HO start EO Quick fuel' fuel' last kind rs' cs [] (max_cname conf) (new_lookup conf q kind) w') as G.
    cbn [app new_lookup l_cnames l_node l_kind l_conf map] in G. change (mkLookup q kind [] [] [] [] conf) with (new_lookup conf q kind) in G. rewrite E2 in G. cbn [fst snd] in G.
    destruct G as [(m & M1 & M2)|(x' & B1 & B2 & B3 & B4)]; try assumption.
    + split; [exact Hw'|]. split; [apply Forall_forall; intros; exact I|lia].
    + reflexivity.
    + intros y [].
    + intros c Hc. apply HT. rewrite A1. apply in_or_app. now left.
    + apply A9. intros r Hr. apply HT. rewrite A1. apply in_or_app. now right.
    + specialize (Htime m M1). lia.
    + exists x'. split; [exact B1|]. split; [exact B2|]. split; [exact B3|]. intros Hkc Hall.
      assert (cs = []). { destruct cs as [|c cs]; [reflexivity|]. exfalso. destruct A2 as (_ & t & Ht & _). rewrite A1 in Hall. inversion Hall as [|? ? Hc _]; subst. apply Hkc. unfold record_type. now rewrite Ht. }
      subst cs. rewrite A1. cbn [app]. rewrite <- A8. now apply B4.
Qed.
Print Assumptions C76_answers_are_cached.

(** Every question is answered with an alias and an address, both valid for a minute: the
    first lookup sends two queries, the second (at time 0 like the first) none. *)
Definition pkt_alias : list N := packet RC_NoError true [rec_ (s2b "w.a.") 60 (D_CNAME (s2b "b.")); rec_ (s2b "b.") 60 (D_A [1; 2; 3; 4]%N)] [] [].
Definition env_alias : environment := script (fun _ => Some pkt_alias).
Theorem C76_nonvacuous :
  env_ok plain_record env_alias /\ (forall n, (ev_now' (env_alias n) < ev_now (env_alias n) + SECOND)%N) /\ others_keep env_alias (60 * SECOND)%N /\
  cache_ok plain_record (ev_now (env_alias (w_n world0))) (w_cache world0) /\ accepted (s2b "w.a.") /\ usable_type RT_A /\
  exists x l' w' x' l'' w'', perform Release env_alias 6 (new_lookup conf0 (s2b "w.a.") RT_A, world0) = (Done (Ok x), (l', w')) /\ x_none x = false /\
    x_answers x = [mkRec (s2b "w.a.") C_IN 60 3 (D_CNAME (s2b "b.")); mkRec (s2b "b.") C_IN 60 4 (D_A [1; 2; 3; 4]%N)] /\
    (forall r, In r (x_answers x) -> (60 * SECOND <= ev_now (env_alias (w_n world0)) + r_ttl r * SECOND)%N) /\
    perform Release env_alias 6 (new_lookup conf0 (s2b "w.a.") RT_A, w') = (Done (Ok x'), (l'', w'')) /\
    (forall n, n < w_n w'' -> (ev_now' (env_alias n) < 60 * SECOND)%N) /\ length (w_sent w') = 2 /\ x_answers x' = x_answers x.
Proof.
  split. { assert (B : is_bytes pkt_alias) by (apply checked_bytes; vm_compute; reflexivity). apply script_ok. generalize pkt_alias B. intros x Hx n d [= <-]. exact Hx. }
  split; [intros n; unfold env_alias, script, SECOND; cbn [ev_now ev_now']; lia|].
  split. { intros n c k exp rs H Hexp. exists exp. split; [exact Hexp|exact H]. }
  split; [apply world0_ok|]. split; [apply checked_accepted; vm_compute; reflexivity|]. split; [unfold usable_type; tauto|].
  set (x0 := mkResp [mkRec (s2b "w.a.") C_IN 60 3 (D_CNAME (s2b "b.")); mkRec (s2b "b.") C_IN 60 4 (D_A [1; 2; 3; 4]%N)] [] [] false).
  assert (V1 : fst (perform Release env_alias 6 (new_lookup conf0 (s2b "w.a.") RT_A, world0)) = Done (Ok x0)) by (vm_compute; reflexivity).
  assert (V2 : fst (perform Release env_alias 6 (new_lookup conf0 (s2b "w.a.") RT_A, snd (snd (perform Release env_alias 6 (new_lookup conf0 (s2b "w.a.") RT_A, world0))))) = Done (Ok x0)) by (vm_compute; reflexivity).
  assert (V3 : length (w_sent (snd (snd (perform Release env_alias 6 (new_lookup conf0 (s2b "w.a.") RT_A, world0))))) = 2) by (vm_compute; reflexivity).
  destruct (perform Release env_alias 6 (new_lookup conf0 (s2b "w.a.") RT_A, world0)) as [o1 [l1 w1]]. cbn [fst snd] in V1, V2, V3. rewrite V1.
  destruct (perform Release env_alias 6 (new_lookup conf0 (s2b "w.a.") RT_A, w1)) as [o2 [l2 w2]] eqn:R2. cbn [fst snd] in V2. rewrite V2 in R2.
  exists x0, l1, w1, x0, l2, w2. split; [reflexivity|]. split; [reflexivity|]. split; [reflexivity|].
  split. { intros r [<-|[<-|[]]]; vm_compute; intros C; discriminate C. }
  split; [exact R2|]. split; [intros n _; unfold env_alias, script, SECOND; cbn [ev_now']; lia|].
  split; [exact V3|reflexivity].
Qed.
Print Assumptions C76_nonvacuous.
