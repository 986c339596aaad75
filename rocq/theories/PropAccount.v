(** C88: a trace is an account of the lookup, and its result can be read off it. *)
From Verif Require Import Base Types Name NameSpec Codec Cache Resolver ResolverLists ResolverSpec ResolverEx AccountSpec PropTell Zone NsSpec NsHandler PropNs PropNs2 PropTalk.

Section Acct.
  Variable p : profile.
  Variable env : environment.
  Variable v : bool.
  Variable longest : nat.
  Notation account := (account v longest).
  Notation queries := (queries v longest).

  Definition traced (c : rconf) : Prop := silent c = false /\ verbose c = v /\ max_cname c = longest.
  (** Steps that change the lookup no further than by the lines [P] allows. *)
  Definition same (l l' : lookup) : Prop := l_conf l' = l_conf l /\ l_node l' = l_node l /\ l_kind l' = l_kind l /\ l_cnames l' = l_cnames l.
  Definition adds {A} (P : lookup -> A -> list tline -> Prop) (m : L A) : Prop := forall l w a l' w', traced (l_conf l) -> m (l, w) = (Done a, (l', w')) ->
    same l l' /\ exists ts, l_trace l' = l_trace l ++ ts /\ P l a ts.
  Lemma same_refl : forall l, same l l.
  Proof. intros l. repeat split. Qed.
  Lemma same_trans : forall l l1 l2, same l l1 -> same l1 l2 -> same l l2.
  Proof. intros l l1 l2 (A1 & A2 & A3 & A4) (B1 & B2 & B3 & B4). repeat split; congruence. Qed.

  Lemma lbind_inv : forall A B (m : L A) (k : A -> L B) s b s', lbind m k s = (Done b, s') -> exists a s1, m s = (Done a, s1) /\ k a s1 = (Done b, s').
  Proof. intros A B m k s b s' E. unfold lbind in E. destruct (m s) as ([a| |], s1); try discriminate E. now exists a, s1. Qed.
  Lemma lw_inv : forall A (m : W A) l w a l' w', lw m (l, w) = (Done a, (l', w')) -> l' = l /\ m w = (Done a, w').
  Proof. intros A m l w a l' w' E. unfold lw in E. cbn [fst snd] in E. destruct (m w) as (r, w1). injection E as -> <- ->. now split. Qed.

  (** one server asked *)
  Lemma request_adds : forall n k s t, adds (fun _ r ts => exists x raw, ns_node s = Done x /\
      ts = T_ns_req n k x (ns_zone s) :: raw ++ [match r with Ok y => T_ns_resp y | Err e => T_ns_err e end] /\
      match r with Ok _ => in_full v raw | Err _ => raw = [] \/ in_full v raw end) (perform_request_with_trace p env n k s t).
  Proof.
    intros n k s t l w a l' w' (Si & Ve & _) E. unfold perform_request_with_trace in E. apply lbind_inv in E as (u & (l1 & w1) & E1 & E).
    unfold trace_ns_req in E1. apply lbind_inv in E1 as (si & s1 & Es & E1). unfold lget in Es. cbn [fst] in Es. injection Es as <- <-. rewrite Si in E1.
    apply lbind_inv in E1 as (x & s1 & Es & E1). unfold lexec in Es. destruct (ns_node s) as [x'| |]; try discriminate Es. injection Es as -> <-.
    unfold trace in E1. cbn [fst snd] in E1. rewrite Si in E1. injection E1 as _ <- <-.
    apply lbind_inv in E as (r & (l2 & w2) & E1 & E). unfold perform_request in E1. apply lbind_inv in E1 as (q & (l3 & w3) & Eq & E1). apply lw_inv in Eq as (-> & _).
    assert (R : exists raw, l2 = (match raw with [] => push_line (T_ns_req n k x (ns_zone s)) l | m => mkLookup (l_node l) (l_kind l) (l_zones l) (l_cnames l) (l_next l) ((l_trace l ++ [T_ns_req n k x (ns_zone s)]) ++ m) (l_conf l) end)
       /\ match r with Ok _ => in_full v raw | Err _ => raw = [] \/ in_full v raw end).
    { destruct q as [m|e].
      - apply lbind_inv in E1 as (u1 & (l4 & w4) & Et & E1). unfold trace_raw in Et. cbn [fst snd] in Et. change (l_conf (push_line (T_ns_req n k x (ns_zone s)) l)) with (l_conf l) in Et. rewrite Si, Ve in Et.
        unfold lexec in E1. assert (X : l2 = l4) by congruence. exists (if v then [T_raw m] else []). subst l4. destruct v; cbn [negb] in Et.
        + split; [assert (Y : l2 = push_line (T_raw m) (push_line (T_ns_req n k x (ns_zone s)) l)) by congruence; exact Y|]. destruct r; [now exists m|right; now exists m].
        + split; [congruence|]. destruct r; [reflexivity|now left].
      - unfold lret in E1. exists []. split; [congruence|]. assert (X : r = Err e) by congruence. subst r. now left. }
    destruct R as (raw & -> & Hraw). destruct r as [y|e]; apply lbind_inv in E as (u2 & (l5 & w5) & Et & E); unfold trace in Et; cbn [fst snd] in Et; unfold lret in E.
    - assert (X : l' = push_line (T_ns_resp y) (match raw with [] => push_line (T_ns_req n k x (ns_zone s)) l | m => mkLookup (l_node l) (l_kind l) (l_zones l) (l_cnames l) (l_next l) ((l_trace l ++ [T_ns_req n k x (ns_zone s)]) ++ m) (l_conf l) end)).
      { replace (silent (l_conf _)) with false in Et by (destruct raw; exact (eq_sym Si)). congruence. }
      assert (Ea : a = Ok y) by congruence. subst a. split; [rewrite X; destruct raw; repeat split|].
      exists (T_ns_req n k x (ns_zone s) :: raw ++ [T_ns_resp y]). split; [rewrite X; destruct raw; cbn [push_line l_trace app]; rewrite <- !app_assoc; reflexivity|].
      exists x, raw. split; [reflexivity|]. split; [reflexivity|exact Hraw].
    - assert (X : l' = push_line (T_ns_err e) (match raw with [] => push_line (T_ns_req n k x (ns_zone s)) l | m => mkLookup (l_node l) (l_kind l) (l_zones l) (l_cnames l) (l_next l) ((l_trace l ++ [T_ns_req n k x (ns_zone s)]) ++ m) (l_conf l) end)).
      { replace (silent (l_conf _)) with false in Et by (destruct raw; exact (eq_sym Si)). congruence. }
      assert (Ea : a = Err e) by congruence. subst a. split; [rewrite X; destruct raw; repeat split|].
      exists (T_ns_req n k x (ns_zone s) :: raw ++ [T_ns_err e]). split; [rewrite X; destruct raw; cbn [push_line l_trace app]; rewrite <- !app_assoc; reflexivity|].
      exists x, raw. split; [reflexivity|]. split; [reflexivity|exact Hraw].
  Qed.

  Lemma trace_inv : forall t l w a l' w', traced (l_conf l) -> trace t (l, w) = (Done a, (l', w')) -> l' = push_line t l /\ w' = w.
  Proof. intros t l w a l' w' (Si & _) E. unfold trace in E. cbn [fst snd] in E. rewrite Si in E. injection E as _ <- <-. now split. Qed.
  Lemma search_adds : forall k, adds (fun l rs ts => ts = [match rs with [] => T_miss (l_node l) k | _ => T_hit (l_node l) k rs end]) (search_records_with_trace env k).
  Proof.
    intros k l w a l' w' T E. unfold search_records_with_trace in E. apply lbind_inv in E as (n & (l1 & w1) & E1 & E). unfold lget in E1. cbn [fst] in E1.
    assert (l1 = l /\ n = l_node l) as (-> & ->) by (split; congruence). apply lbind_inv in E as (rs & (l2 & w2) & E2 & E). apply lw_inv in E2 as (-> & _).
    apply lbind_inv in E as (u & (l3 & w3) & E3 & E). apply trace_inv in E3 as (-> & _); [|exact T]. unfold lret in E. assert (a = rs /\ l' = push_line (match rs with [] => T_miss (l_node l) k | _ => T_hit (l_node l) k rs end) l) as (-> & ->) by (split; congruence).
    split; [repeat split|]. eexists. split; [reflexivity|reflexivity].
  Qed.
  Lemma cached_addrs_length : forall rs w l w', cached_addrs env rs w = (Done l, w') -> length l = length rs.
  Proof.
    induction rs as [|r rs IH]; intros w l w' E; cbn [cached_addrs] in E; [injection E as <- _; reflexivity|]. unfold wbind at 1 in E. unfold wexec in E.
    destruct (ns_data r) as [n| |]; try discriminate E. unfold wbind at 1 in E. destruct (search_records env n RT_A w) as ([a| |], w1); try discriminate E.
    unfold wbind in E. destruct (cached_addrs env rs w1) as ([l1| |], w2) eqn:E1; try discriminate E. unfold wret in E. injection E as <- _. cbn [length]. now rewrite (IH _ _ _ E1).
  Qed.
  Lemma search_nss_adds : adds (fun l r ts => ts = [match r with [] => T_ns_miss (l_node l) | _ => T_ns_hit (l_node l) r end]) (search_nss_with_trace env).
  Proof.
    intros l w a l' w' T E. unfold search_nss_with_trace in E. apply lbind_inv in E as (n & (l1 & w1) & E1 & E). unfold lget in E1. cbn [fst] in E1.
    assert (l1 = l /\ n = l_node l) as (-> & ->) by (split; congruence). apply lbind_inv in E as (rs & (l2 & w2) & E2 & E). apply lw_inv in E2 as (-> & _). destruct rs as [|r rs].
    - apply lbind_inv in E as (u & (l3 & w3) & E3 & E). apply trace_inv in E3 as (-> & _); [|exact T]. unfold lret in E. assert (a = [] /\ l' = push_line (T_ns_miss (l_node l)) l) as (-> & ->) by (split; congruence).
      split; [repeat split|]. eexists. split; [reflexivity|reflexivity].
    - apply lbind_inv in E as (x & (l4 & w4) & E4 & E). apply lw_inv in E4 as (-> & E4). apply cached_addrs_length in E4.
      apply lbind_inv in E as (u & (l3 & w3) & E3 & E). apply trace_inv in E3 as (-> & _); [|exact T]. unfold lret in E. assert (a = x /\ l' = push_line (T_ns_hit (l_node l) x) l) as (-> & ->) by (split; congruence).
      split; [repeat split|]. eexists. split; [reflexivity|]. destruct x; [discriminate E4|reflexivity].
  Qed.

  Definition known (l : lookup) : bool := match l_next l with [] => false | _ => true end.
  Definition accounts (P : lookup -> result response lerr -> list tline -> Prop) (m : L (result response lerr)) : Prop := forall l w a l' w', traced (l_conf l) -> m (l, w) = (Done a, (l', w')) ->
    exists ts, l_trace l' = l_trace l ++ ts /\ P l a ts.

  Section With_sub.
    Variable sub : L (result response lerr).
    Hypothesis Hsub : accounts (fun l r ts => account longest (no_follow (l_conf l)) (l_cnames l) (l_node l) (l_kind l) (known l) ts r) sub.

    Lemma subquery_adds : forall n z, adds (fun _ r ts =>
        (r = Err L_ZonesLoop /\ ts = []) \/
        exists l x, ts = [T_sub l] /\ account longest true [] n RT_A false l x /\ match r with Ok _ => exists y, x = Ok y | Err e => x = Err e end)
      (resolve_ns_subquery sub n z).
    Proof.
      intros n z l w a l' w' T E. unfold resolve_ns_subquery in E. apply lbind_inv in E as (zs & (l1 & w1) & E1 & E). unfold lget in E1. cbn [fst] in E1.
      assert (l1 = l /\ zs = l_zones l) as (-> & ->) by (split; congruence). destruct (detect_zones_loop z (l_zones l)).
      - unfold lret in E. assert (a = Err L_ZonesLoop /\ l' = l) as (-> & ->) by (split; congruence). split; [apply same_refl|]. exists []. split; [now rewrite app_nil_r|]. now left.
      - cbn [fst snd] in E. destruct (sub _) as (r, (inner', w2)) eqn:Es. destruct r as [r| |]; try discriminate E.
        destruct (Hsub _ _ _ _ _ (T : traced (l_conf (mkLookup n RT_A (l_zones l ++ [z]) [] [] [] (no_follow_conf (l_conf l))))) Es) as (ts & T1 & H1).
        cbn [l_trace app] in T1. unfold lbind, add_sub_trace, lmod, lret in E. cbn [fst snd] in E.
        assert (push_line (T_sub (l_trace inner')) l = l') as <- by congruence. split; [repeat split|].
        exists [T_sub (l_trace inner')]. split; [reflexivity|]. right. exists (l_trace inner'), r. split; [reflexivity|]. rewrite T1. split; [exact H1|].
        destruct r as [x|e]; [assert (exists y, a = Ok y) as (y & ->) by (eexists; injection E as <- _; reflexivity); now exists x|]. assert (a = Err e) as -> by congruence. reflexivity.
    Qed.

    Lemma servers_adds : forall ss err, adds (fun l a ts =>
        match a with
        | Asked_result r => queries err (l_node l) (l_kind l) ts r
        | Asked_next _ => forall us out, queries None (l_node l) (l_kind l) us out -> queries err (l_node l) (l_kind l) (ts ++ us) out
        end) (query_servers p env sub ss err).
    Proof.
      induction ss as [|s ss IH]; intros err l w a l' w' T E; cbn [query_servers] in E.
      - destruct err as [e|]; [|discriminate E]. unfold lret in E. assert (a = Asked_result (Err e) /\ l' = l) as (-> & ->) by (split; congruence). split; [apply same_refl|].
        exists []. split; [now rewrite app_nil_r|]. apply q_none.
      - apply lbind_inv in E as (addrs & (l1 & w1) & E1 & E). unfold lexec in E1. destruct (ns_addrs s) as [ad| |] eqn:Ead; try discriminate E1. assert (l1 = l /\ ad = addrs) as (-> & ->) by (split; congruence). clear E1.
        apply lbind_inv in E as (s' & (l2 & w2) & E2 & E).
        (* the address: known, found, or not *)
        assert (Hs : same l l2 /\ exists pre, l_trace l2 = l_trace l ++ pre /\
          match s' with
          | Ok s1 => n_rec s1 = n_rec s /\ (pre = [] \/ exists n tl x, ns_node s = Done n /\ pre = [T_sub tl] /\ account longest true [] n RT_A false tl (Ok x))
          | Err e => forall us out k, queries (keep err e) (l_node l) k us out -> queries err (l_node l) k (pre ++ us) out
          end).
        { destruct addrs as [|a0 ads].
          - apply lbind_inv in E2 as (n & (l3 & w3) & E3 & E2). unfold lexec in E3. destruct (ns_node s) as [n'| |] eqn:En; try discriminate E3. assert (l3 = l /\ n' = n) as (-> & ->) by (split; congruence). clear E3.
            apply lbind_inv in E2 as (r & (l4 & w4) & E4 & E2). unfold lret in E2. destruct (subquery_adds n (ns_zone s) l _ _ _ _ T E4) as (Sm & ts & T1 & H1).
            assert (l2 = l4) as -> by congruence. split; [exact Sm|]. exists ts. split; [exact T1|].
            destruct H1 as [(-> & ->)|(tl & x & -> & H1 & H2)].
            + assert (s' = Err (L_Sub L_ZonesLoop)) as -> by congruence. intros us out k Hq. cbn [app]. now apply q_loop.
            + destruct r as [ar|e].
              * assert (s' = Ok (mkNs (n_rec s) ar)) as -> by congruence. split; [reflexivity|]. right. destruct H2 as (y & ->). now exists n, tl, y.
              * assert (s' = Err (L_Sub e)) as -> by congruence. subst x. intros us out k Hq. cbn [app]. eapply q_unknown; eassumption.
          - unfold lret in E2. assert (l2 = l /\ s' = Ok s) as (-> & ->) by (split; congruence). split; [apply same_refl|]. exists []. split; [now rewrite app_nil_r|]. split; [reflexivity|now left]. }
        clear E2. destruct Hs as (Sm & pre & T2 & Hs'). assert (Tr2 : traced (l_conf l2)) by (destruct Sm as (C & _); now rewrite C).
        destruct s' as [s1|e].
        + destruct Hs' as (En1 & Hpre). apply lbind_inv in E as (n & (l3 & w3) & E3 & E). unfold lget in E3. cbn [fst] in E3. assert (l3 = l2 /\ n = l_node l2) as (-> & ->) by (split; congruence). clear E3.
          apply lbind_inv in E as (k & (l3 & w4) & E3 & E). unfold lget in E3. cbn [fst] in E3. assert (l3 = l2 /\ k = l_kind l2) as (-> & ->) by (split; congruence). clear E3.
          apply lbind_inv in E as (c & (l3 & w5) & E3 & E). unfold lget in E3. cbn [fst] in E3. assert (l3 = l2 /\ c = l_conf l2) as (-> & ->) by (split; congruence). clear E3.
          apply lbind_inv in E as (r & (l4 & w6) & E4 & E). destruct (request_adds _ _ _ _ _ _ _ _ _ Tr2 E4) as (Sm4 & ts & T4 & x & raw & Ex & -> & Hraw). clear E4.
          assert (Hf : found v longest x pre).
          { destruct Hpre as [->|(n & tl & y & En & -> & Ha)]; [constructor|]. assert (n = x) as -> by (unfold ns_node in *; congruence). econstructor. exact Ha. }
          assert (Sm' : same l l4) by (eapply same_trans; eassumption). assert (Tr4 : traced (l_conf l4)) by (destruct Sm' as (C & _); now rewrite C).
          destruct Sm as (_ & N2 & K2 & _). rewrite N2, K2 in T4. destruct Sm' as (C4 & N4 & K4 & L4).
          destruct r as [y|e].
          * destruct y as [so|an ad|c nx|nx].
            all: try (unfold lret in E; injection E as <- <- <-; split; [exact (conj C4 (conj N4 (conj K4 L4)))|]; eexists; split; [rewrite T4, T2, <- app_assoc; reflexivity|]; apply q_end; [exact Hf|exact Hraw|discriminate]).
            apply lbind_inv in E as (u & (l5 & w7) & E5 & E). apply lw_inv in E5 as (-> & _). apply lbind_inv in E as (u' & (l6 & w8) & E6 & E). unfold lmod in E6. cbn [fst snd] in E6. unfold lret in E.
            assert (l' = set_next nx l4 /\ a = Asked_next nx) as (-> & ->) by (split; congruence). split; [exact (conj C4 (conj N4 (conj K4 L4)))|].
            eexists. split; [cbn [set_next l_trace]; rewrite T4, T2, <- app_assoc; reflexivity|]. intros us out Hq. rewrite <- app_assoc. cbn [app]. rewrite <- app_assoc. cbn [app]. now apply q_down.
          * destruct (IH _ _ _ _ _ _ Tr4 E) as (Sm5 & us & T5 & H5). split; [eapply same_trans; [exact (conj C4 (conj N4 (conj K4 L4)))|exact Sm5]|].
            eexists. split; [rewrite T5, T4, T2, <- !app_assoc; reflexivity|]. rewrite N4, K4 in H5. destruct a as [r|nx].
            -- cbn [app]. rewrite <- app_assoc. cbn [app]. now apply q_failed.
            -- intros us' out Hq. rewrite <- app_assoc. cbn [app]. rewrite <- !app_assoc. cbn [app]. apply q_failed; [exact Hf|exact Hraw|]. now apply H5.
        + destruct (IH _ _ _ _ _ _ Tr2 E) as (Sm5 & us & T5 & H5). split; [eapply same_trans; eassumption|]. exists (pre ++ us). split; [now rewrite T5, T2, app_assoc|].
          destruct Sm as (_ & N2 & K2 & _). rewrite N2, K2 in H5. destruct a as [r|nx]; [now apply Hs'|]. intros us' out Hq. rewrite <- app_assoc. apply Hs'. now apply H5.
    Qed.

    Lemma zones_adds : forall fuel, adds (fun l r ts => queries None (l_node l) (l_kind l) ts r) (query_zones p env sub fuel).
    Proof.
      induction fuel as [|f IH]; intros l w a l' w' T E; cbn [query_zones] in E; [discriminate E|].
      apply lbind_inv in E as (nx & (l1 & w1) & E1 & E). unfold lget in E1. cbn [fst] in E1. assert (l1 = l /\ nx = l_next l) as (-> & ->) by (split; congruence). clear E1.
      destruct (l_next l) as [|s0 ss]; [discriminate E|]. apply lbind_inv in E as (u & (l2 & w2) & E2 & E). unfold lmod in E2. cbn [fst snd] in E2. assert (l2 = set_next [] l) as -> by congruence. clear E2.
      apply lbind_inv in E as (so & (l3 & w3) & E3 & E). unfold lexec in E3. assert (l3 = set_next [] l) as -> by congruence. clear E3.
      apply lbind_inv in E as (c & (l3 & w4) & E3 & E). unfold lget in E3. cbn [fst] in E3. assert (l3 = set_next [] l) as -> by congruence. clear E3.
      apply lbind_inv in E as (r & (l4 & w5) & E4 & E). destruct (servers_adds _ _ _ _ _ _ _ (T : traced (l_conf (set_next [] l))) E4) as (Sm & ts & T4 & H4). clear E4.
      change (l_trace (set_next [] l)) with (l_trace l) in T4. assert (Sm' : same l l4) by exact Sm. destruct r as [r|nx].
      - unfold lret in E. assert (a = r /\ l' = l4) as (-> & ->) by (split; congruence). split; [exact Sm'|]. exists ts. split; [exact T4|exact H4].
      - assert (Tr4 : traced (l_conf l4)) by (destruct Sm' as (C & _); now rewrite C). destruct (IH _ _ _ _ _ Tr4 E) as (Sm5 & us & T5 & H5).
        split; [eapply same_trans; eassumption|]. exists (ts ++ us). split; [now rewrite T5, T4, app_assoc|]. destruct Sm' as (_ & N4 & K4 & _). rewrite N4, K4 in H5. now apply H4.
    Qed.

    (** an alias *)
    Lemma cname_adds : forall c nx l w a l' w', traced (l_conf l) -> handle_cname env c nx (l, w) = (Done a, (l', w')) ->
      l_trace l' = l_trace l /\ exists t, r_data c = D_CNAME t /\
      ((a = Err L_CnamesLoop /\ In t (map r_node (l_cnames l))) \/ (a = Err L_UnexpectedCname /\ no_follow (l_conf l) = true /\ ~ In t (map r_node (l_cnames l))) \/
       (a = Ok tt /\ no_follow (l_conf l) = false /\ ~ In t (map r_node (l_cnames l)) /\ l_conf l' = l_conf l /\ l_node l' = t /\ l_kind l' = l_kind l /\ l_cnames l' = l_cnames l ++ [c] /\ l_next l' = nx)).
    Proof.
      intros c nx l w a l' w' T E. unfold handle_cname in E. apply lbind_inv in E as (t & (l1 & w1) & E1 & E). unfold lexec in E1.
      assert (l1 = l /\ cname_data c = Done t) as (-> & Et) by (split; congruence). clear E1.
      assert (Ed : r_data c = D_CNAME t) by (unfold cname_data in Et; destruct (r_data c); try discriminate Et; congruence).
      apply lbind_inv in E as (pv & (l1 & w2) & E1 & E). unfold lget in E1. cbn [fst] in E1. assert (l1 = l /\ pv = l_cnames l) as (-> & ->) by (split; congruence). clear E1.
      assert (Hin : detect_cname_loops t (l_cnames l) = true <-> In t (map r_node (l_cnames l))).
      { unfold detect_cname_loops. rewrite existsb_exists, in_map_iff. split; intros (x & X & Y).
        - exists x. split; [now apply bytes_eqb_eq|exact X].
        - exists x. split; [exact Y|now apply bytes_eqb_eq]. }
      destruct (detect_cname_loops t (l_cnames l)) eqn:Ed'.
      - unfold lret in E. assert (a = Err L_CnamesLoop /\ l' = l) as (-> & ->) by (split; congruence). split; [reflexivity|]. exists t. split; [exact Ed|]. left. split; [reflexivity|now apply Hin].
      - assert (Hn : ~ In t (map r_node (l_cnames l))) by (intros X; apply Hin in X; discriminate X).
        apply lbind_inv in E as (u & (l2 & w3) & E2 & E). unfold lmod in E2. cbn [fst snd] in E2. assert (l2 = set_cnames (l_cnames l ++ [c]) l) as -> by congruence. clear E2.
        apply lbind_inv in E as (nf & (l2 & w4) & E2 & E). unfold lget in E2. cbn [fst] in E2. assert (l2 = set_cnames (l_cnames l ++ [c]) l /\ nf = no_follow (l_conf l)) as (-> & ->) by (split; [|change (l_conf l) with (l_conf (set_cnames (l_cnames l ++ [c]) l))]; congruence). clear E2.
        destruct (no_follow (l_conf l)) eqn:Enf.
        + unfold lret in E. assert (a = Err L_UnexpectedCname /\ l' = set_cnames (l_cnames l ++ [c]) l) as (-> & ->) by (split; congruence). split; [reflexivity|]. exists t. split; [exact Ed|]. right. left. now split.
        + apply lbind_inv in E as (u1 & (l3 & w5) & E3 & E). apply lw_inv in E3 as (-> & _). apply lbind_inv in E as (u2 & (l3 & w6) & E3 & E). unfold lmod in E3. cbn [fst snd] in E3.
          assert (l3 = set_next nx (set_cnames (l_cnames l ++ [c]) l)) as -> by congruence. clear E3. apply lbind_inv in E as (u3 & (l3 & w7) & E3 & E). unfold lmod in E3. cbn [fst snd] in E3.
          assert (l3 = set_node t (set_next nx (set_cnames (l_cnames l ++ [c]) l))) as -> by congruence. clear E3. unfold lret in E.
          assert (a = Ok tt /\ l' = set_node t (set_next nx (set_cnames (l_cnames l ++ [c]) l))) as (-> & ->) by (split; congruence). split; [reflexivity|]. exists t. split; [exact Ed|]. right. right.
          repeat split; try assumption; try reflexivity.
    Qed.

    Lemma inner_accounts : forall fuel n, accounts (fun l r ts => account n (no_follow (l_conf l)) (l_cnames l) (l_node l) (l_kind l) (known l) ts r) (perform_inner p env sub fuel n).
    Proof.
      intros fuel. induction n as [|n IH]; intros l w a l' w' T E; cbn [perform_inner] in E.
      { unfold lret in E. assert (a = Err L_MaxCname /\ l' = l) as (-> & ->) by (split; congruence). exists []. split; [now rewrite app_nil_r|]. constructor. }
      apply lbind_inv in E as (nd & (l1 & w1) & E1 & E). unfold lget in E1. cbn [fst] in E1. assert (l1 = l /\ nd = l_node l) as (-> & ->) by (split; congruence). clear E1.
      apply lbind_inv in E as (k & (l1 & w2) & E1 & E). unfold lget in E1. cbn [fst] in E1. assert (l1 = l /\ k = l_kind l) as (-> & ->) by (split; congruence). clear E1.
      apply lbind_inv in E as (u & (l1 & w3) & E1 & E). apply trace_inv in E1 as (-> & _); [|exact T].
      set (l0 := push_line (T_start (l_node l) (l_kind l)) l) in *. assert (S0 : same l l0 /\ l_next l0 = l_next l /\ l_trace l0 = l_trace l ++ [T_start (l_node l) (l_kind l)]) by (repeat split). clearbody l0.
      destruct S0 as (S0 & X0 & T0). assert (R0 : traced (l_conf l0)) by (destruct S0 as (C & _); now rewrite C).
      assert (Hsearch : forall k0 l1 w1 rs l2 w2, search_records_with_trace env k0 (l1, w1) = (Done rs, (l2, w2)) -> l_next l2 = l_next l1).
      { clear. intros k0 l1 w1 rs l2 w2 E. unfold search_records_with_trace in E. apply lbind_inv in E as (n & (l3 & w3) & E1 & E). unfold lget in E1. cbn [fst] in E1. assert (l3 = l1) as -> by congruence.
        apply lbind_inv in E as (r & (l4 & w4) & E2 & E). apply lw_inv in E2 as (-> & _). apply lbind_inv in E as (u & (l5 & w5) & E3 & E). unfold trace in E3. cbn [fst snd] in E3. unfold lret in E.
        assert (X : l2 = l5) by congruence. subst l5. destruct (silent (l_conf l1)); injection E3 as _ <- _; reflexivity. }
      apply lbind_inv in E as (cached & (l2 & w4) & E2 & E). pose proof (Hsearch _ _ _ _ _ _ E2) as X2. destruct (search_adds _ _ _ _ _ _ R0 E2) as (S2 & ts2 & T2 & ->). clear E2.
      assert (Sm2 : same l l2) by (eapply same_trans; eassumption). destruct Sm2 as (C2 & N2 & K2 & L2). destruct S0 as (_ & N0 & K0 & _). rewrite N0 in T2. assert (R2 : traced (l_conf l2)) by now rewrite C2.
      destruct cached as [|r0 rs].
      2:{ apply lbind_inv in E as (pv & (l3 & w5) & E3 & E). unfold lget in E3. cbn [fst] in E3. assert (l3 = l2 /\ pv = l_cnames l2) as (-> & ->) by (split; congruence). clear E3.
          apply lbind_inv in E as (u1 & (l3 & w6) & E3 & E). unfold lmod in E3. cbn [fst snd] in E3. assert (l3 = set_cnames [] l2) as -> by congruence. clear E3. unfold lret in E.
          assert (a = Ok (mkResp (l_cnames l2 ++ r0 :: rs) [] [] false) /\ l' = set_cnames [] l2) as (-> & ->) by (split; congruence).
          exists [T_start (l_node l) (l_kind l); T_hit (l_node l) (l_kind l) (r0 :: rs)]. split; [cbn [set_cnames l_trace]; rewrite T2, T0, <- app_assoc; reflexivity|]. rewrite L2. apply ac_cached. discriminate. }
      apply lbind_inv in E as (cs & (l3 & w5) & E3 & E). pose proof (Hsearch _ _ _ _ _ _ E3) as X3. destruct (search_adds _ _ _ _ _ _ R2 E3) as (S3 & ts3 & T3 & ->). clear E3 Hsearch.
      destruct S3 as (C3 & N3 & K3 & L3). rewrite N2 in T3. assert (R3 : traced (l_conf l3)) by (rewrite C3; exact R2).
      assert (K3' : l_kind l3 = l_kind l) by congruence. assert (N3' : l_node l3 = l_node l) by congruence. assert (C3' : l_conf l3 = l_conf l) by congruence. assert (L3' : l_cnames l3 = l_cnames l) by congruence. assert (X3' : l_next l3 = l_next l) by congruence.
      (* what an alias leads to *)
      assert (Halias : forall c nx l4 w6 r l5 w7, handle_cname env c nx (l4, w6) = (Done r, (l5, w7)) -> l_conf l4 = l_conf l -> l_cnames l4 = l_cnames l -> l_kind l4 = l_kind l ->
        (match r with Err e => lret (Err e) | Ok _ => perform_inner p env sub fuel n end) (l5, w7) = (Done a, (l', w')) ->
        exists us, l_trace l' = l_trace l4 ++ us /\ alias v longest n (no_follow (l_conf l)) (l_cnames l) c (l_kind l) (match nx with [] => false | _ => true end) us a).
      { intros c nx l4 w6 r l5 w7 Ec Cc Lc Kc Er. assert (R4 : traced (l_conf l4)) by now rewrite Cc. destruct (cname_adds c nx _ _ _ _ _ R4 Ec) as (T5 & t & Ed & [(-> & Hi)|[(-> & Hnf & Hi)|(-> & Hnf & Hi & C5 & N5 & K5 & L5 & X5)]]).
        - unfold lret in Er. assert (a = Err L_CnamesLoop /\ l' = l5) as (-> & ->) by (split; congruence). exists []. split; [now rewrite app_nil_r|]. rewrite Lc in Hi. eapply al_loop; eassumption.
        - unfold lret in Er. assert (a = Err L_UnexpectedCname /\ l' = l5) as (-> & ->) by (split; congruence). exists []. split; [now rewrite app_nil_r|]. rewrite Lc in Hi. rewrite Cc in Hnf. rewrite Hnf. eapply al_given_up; eassumption.
        - assert (R5 : traced (l_conf l5)) by (rewrite C5; exact R4). destruct (IH _ _ _ _ _ R5 Er) as (us & T6 & H6). exists us. split; [now rewrite T6, T5|].
          rewrite C5, L5, N5, K5, Cc, Lc, Kc in H6. unfold known in H6. rewrite X5 in H6. rewrite Lc in Hi. rewrite Cc in Hnf. rewrite Hnf in *. eapply al_followed; eassumption. }
      destruct cs as [|c cs].
      2:{ apply lbind_inv in E as (r & (l4 & w6) & E4 & E). destruct (Halias _ _ _ _ _ _ _ E4 C3' L3' K3' E) as (us & T5 & H5).
          eexists. split; [rewrite T5, T3, T2, T0, <- !app_assoc; reflexivity|]. cbn [app]. now apply ac_cached_alias. }
      apply lbind_inv in E as (nx & (l4 & w6) & E4 & E). unfold lget in E4. cbn [fst] in E4. assert (l4 = l3 /\ nx = l_next l3) as (-> & ->) by (split; congruence). clear E4.
      apply lbind_inv in E as (u1 & (l4 & w7) & E4 & E).
      assert (Hsv : same l3 l4 /\ exists sl, l_trace l4 = l_trace l3 ++ sl /\ servers v longest (l_node l) (known l) sl).
      { unfold known. rewrite <- X3'. destruct (l_next l3) as [|s0 ss].
        - apply lbind_inv in E4 as (ls & (l5 & w8) & E5 & E4). destruct (search_nss_adds _ _ _ _ _ R3 E5) as (S5 & ts5 & T5 & ->). unfold lmod in E4. cbn [fst snd] in E4.
          assert (l4 = set_next match ls with [] => root_zone_nameservers | _ => ls end l5) as -> by congruence. split; [exact S5|]. eexists. split; [exact T5|]. rewrite N3'. destruct ls; constructor. discriminate.
        - unfold lret in E4. assert (l4 = l3) as -> by congruence. split; [apply same_refl|]. exists []. split; [now rewrite app_nil_r|]. constructor. }
      destruct Hsv as ((C4 & N4 & K4 & L4) & sl & T4 & Hsl). clear E4. assert (R4 : traced (l_conf l4)) by (rewrite C4; exact R3).
      apply lbind_inv in E as (r & (l5 & w8) & E5 & E). destruct (zones_adds _ _ _ _ _ _ R4 E5) as ((C5 & N5 & K5 & L5) & qs & T5 & Hq). clear E5.
      rewrite N4, K4, N3', K3' in Hq. assert (C5' : l_conf l5 = l_conf l) by congruence. assert (L5' : l_cnames l5 = l_cnames l) by congruence. assert (K5' : l_kind l5 = l_kind l) by congruence.
      assert (Fin : forall us, l_trace l' = l_trace l5 ++ us -> outcome v longest n (no_follow (l_conf l)) (l_cnames l) (l_kind l) r us a ->
        exists ts, l_trace l' = l_trace l ++ ts /\ account (S n) (no_follow (l_conf l)) (l_cnames l) (l_node l) (l_kind l) (known l) ts a).
      { intros us Tu Ho. exists (T_start (l_node l) (l_kind l) :: T_miss (l_node l) (l_kind l) :: T_miss (l_node l) RT_CNAME :: sl ++ qs ++ us). split; [rewrite Tu, T5, T4, T3, T2, T0, <- !app_assoc; reflexivity|]. eapply ac_asked; eassumption. }
      destruct r as [x|e].
      - destruct x as [so|an ad|c nx|nx].
        + apply lbind_inv in E as (pv & (l6 & w11) & E6 & E). unfold lget in E6. cbn [fst] in E6. assert (l6 = l5 /\ pv = l_cnames l5) as (-> & ->) by (split; congruence). clear E6.
          apply lbind_inv in E as (u4 & (l6 & w12) & E6 & E). unfold lmod in E6. cbn [fst snd] in E6. assert (l6 = set_cnames [] l5) as -> by congruence. clear E6. unfold lret in E.
          assert (a = Ok (mkResp (l_cnames l5) (match so with Some r => [r] | None => [] end) [] true) /\ l' = set_cnames [] l5) as (-> & ->) by (split; congruence).
          apply (Fin []); [now rewrite app_nil_r|]. rewrite L5'. apply oc_nothing.
        + apply lbind_inv in E as (u2 & (l6 & w9) & E6 & E). unfold lexec in E6. assert (l6 = l5) as -> by congruence. clear E6. apply lbind_inv in E as (u3 & (l6 & w10) & E6 & E). apply lw_inv in E6 as (-> & _).
          apply lbind_inv in E as (pv & (l6 & w11) & E6 & E). unfold lget in E6. cbn [fst] in E6. assert (l6 = l5 /\ pv = l_cnames l5) as (-> & ->) by (split; congruence). clear E6.
          apply lbind_inv in E as (u4 & (l6 & w12) & E6 & E). unfold lmod in E6. cbn [fst snd] in E6. assert (l6 = set_cnames [] l5) as -> by congruence. clear E6. unfold lret in E.
          assert (a = Ok (mkResp (l_cnames l5 ++ an) [] ad false) /\ l' = set_cnames [] l5) as (-> & ->) by (split; congruence).
          apply (Fin []); [now rewrite app_nil_r|]. rewrite L5'. apply oc_answer.
        + apply lbind_inv in E as (r & (l6 & w9) & E6 & E). destruct (Halias _ _ _ _ _ _ _ E6 C5' L5' K5' E) as (us & T6 & H6). apply (Fin us T6). now apply oc_alias.
        + discriminate E.
      - unfold lret in E. assert (a = Err e /\ l' = l5) as (-> & ->) by (split; congruence). apply (Fin []); [now rewrite app_nil_r|]. apply oc_err.
    Qed.
  End With_sub.

  Lemma perform_accounts : forall fuel, accounts (fun l r ts => account longest (no_follow (l_conf l)) (l_cnames l) (l_node l) (l_kind l) (known l) ts r) (perform p env fuel).
  Proof.
    induction fuel as [|f IH]; intros l w a l' w' T E; cbn [perform] in E; [discriminate E|].
    apply lbind_inv in E as (c & (l1 & w1) & E1 & E). unfold lget in E1. cbn [fst] in E1. assert (l1 = l /\ c = l_conf l) as (-> & ->) by (split; congruence). clear E1.
    destruct T as (T1 & T2 & T3). rewrite T3 in E. exact (inner_accounts (perform p env f) IH f longest l w1 a l' w' (conj T1 (conj T2 T3)) E).
  Qed.
End Acct.

(** With tracing on, the trace of a lookup is an account of it that ends with its result. *)
Theorem C88_traces_are_accounts : forall p env fuel conf n k w r l' w', silent conf = false ->
  perform p env fuel (new_lookup conf n k, w) = (Done r, (l', w')) ->
  account (verbose conf) (max_cname conf) (max_cname conf) (no_follow conf) [] n k false (l_trace l') r.
Proof.
  intros p env fuel conf n k w r l' w' Si E.
  destruct (perform_accounts p env (verbose conf) (max_cname conf) fuel (new_lookup conf n k) w r l' w' (conj Si (conj eq_refl eq_refl)) E) as (ts & T & H).
  cbn [new_lookup l_trace app] in T. rewrite T. exact H.
Qed.
Print Assumptions C88_traces_are_accounts.

(** The lines about servers tell of an alias only at the end. *)
Scheme account_mut := Minimality for account Sort Prop
  with servers_mut := Minimality for servers Sort Prop
  with outcome_mut := Minimality for outcome Sort Prop
  with alias_mut := Minimality for alias Sort Prop
  with queries_mut := Minimality for queries Sort Prop
  with found_mut := Minimality for found Sort Prop.
Lemma found_told : forall v lg s pre, found v lg s pre -> flat_map alias_told pre = [].
Proof. intros v lg s pre H. destruct H; reflexivity. Qed.
Lemma full_told : forall v raw, raw = [] \/ in_full v raw -> flat_map alias_told raw = [].
Proof. intros v raw [->|H]; [reflexivity|]. destruct v; [destruct H as (m & ->)|rewrite H]; reflexivity. Qed.
Fixpoint queries_told v lg err n k ts out (H : queries v lg err n k ts out) {struct H} :
  match out with
  | Err _ => flat_map alias_told ts = []
  | Ok x => (forall l, x <> NR_Delegation l) /\ exists before, ts = before ++ [T_ns_resp x] /\ flat_map alias_told before = []
  end.
Proof.
  assert (Front : forall pre x ts (out : result nsresp lerr), flat_map alias_told pre = [] -> alias_told x = [] ->
    match out with Err _ => flat_map alias_told ts = [] | Ok x => (forall l, x <> NR_Delegation l) /\ exists before, ts = before ++ [T_ns_resp x] /\ flat_map alias_told before = [] end ->
    match out with Err _ => flat_map alias_told (pre ++ x :: ts) = [] | Ok y => (forall l, y <> NR_Delegation l) /\ exists before, pre ++ x :: ts = before ++ [T_ns_resp y] /\ flat_map alias_told before = [] end).
  { clear. intros pre x ts [y|e] P X.
    - intros (Hd & b & -> & Hb). split; [exact Hd|]. exists (pre ++ x :: b). rewrite <- app_assoc. split; [reflexivity|]. rewrite flat_map_app, P. cbn [flat_map app]. now rewrite X, Hb.
    - intros Hb. rewrite flat_map_app, P. cbn [flat_map app]. now rewrite X, Hb. }
  destruct H as [e n k|err n k ts out H|err n k s l e ts out Ha H|err n k s z pre raw e ts out Hf Hr H|err n k s z pre raw l ts out Hf Hr H|err n k s z pre raw x Hf Hr Hx].
  - reflexivity.
  - exact (queries_told _ _ _ _ _ _ _ H).
  - apply (Front [] (T_sub l)); [reflexivity|reflexivity|]. exact (queries_told _ _ _ _ _ _ _ H).
  - apply Front; [exact (found_told _ _ _ _ Hf)|reflexivity|]. apply Front; [exact (full_told _ _ Hr)|reflexivity|]. exact (queries_told _ _ _ _ _ _ _ H).
  - apply Front; [exact (found_told _ _ _ _ Hf)|reflexivity|]. apply Front; [exact (full_told _ _ (or_intror Hr))|reflexivity|]. exact (queries_told _ _ _ _ _ _ _ H).
  - split; [exact Hx|]. exists (pre ++ T_ns_req n k s z :: raw). rewrite <- app_assoc. split; [reflexivity|].
    rewrite flat_map_app, (found_told _ _ _ _ Hf). cbn [flat_map app alias_told]. exact (full_told _ _ (or_intror Hr)).
Qed.
Definition with_aliases (prev : list record) (x : response) : response := mkResp (prev ++ x_answers x) (x_authorities x) (x_additionals x) (x_none x).
Lemma sl_told : forall v lg n kn sl, servers v lg n kn sl -> flat_map alias_told sl = [].
Proof. intros v lg n kn sl H. destruct H; reflexivity. Qed.
Lemma told_app : forall pre before last y, result_told before last = Some y -> result_told (pre ++ before) last = Some (with_aliases (flat_map alias_told pre) y).
Proof.
  intros pre before last y. unfold result_told, with_aliases. rewrite flat_map_app. destruct last as [| | | | | |x| | |]; try discriminate; [intros [= <-]; cbn [x_answers x_authorities x_additionals x_none]; now rewrite app_assoc|].
  destruct x; try discriminate; intros [= <-]; cbn [x_answers x_authorities x_additionals x_none]; now rewrite ?app_assoc.
Qed.
Lemma account_told : forall v lg left nf prev n k kn ts r, account v lg left nf prev n k kn ts r ->
  forall x, r = Ok x -> exists before last y, ts = before ++ [last] /\ result_told before last = Some y /\ x = with_aliases prev y.
Proof.
  intros v lg left nf prev n k kn ts r H. revert left nf prev n k kn ts r H.
  apply (account_mut v lg
    (fun left nf prev n k kn ts r => forall x, r = Ok x -> exists before last y, ts = before ++ [last] /\ result_told before last = Some y /\ x = with_aliases prev y)
    (fun _ _ _ => True)
    (fun left nf prev k out lines r => forall x, r = Ok x -> match out with
       | Ok (NR_Alias c _) => exists before last y, lines = before ++ [last] /\ result_told before last = Some y /\ x = with_aliases (prev ++ [c]) y
       | Ok o => lines = [] /\ (forall l, o <> NR_Delegation l) /\ exists y, result_told [] (T_ns_resp o) = Some y /\ x = with_aliases prev y
       | Err _ => False
       end)
    (fun left nf prev c k kn lines r => forall x, r = Ok x -> exists before last y, lines = before ++ [last] /\ result_told before last = Some y /\ x = with_aliases (prev ++ [c]) y)
    (fun _ _ _ _ _ => True) (fun _ _ => True)); try (intros; exact Logic.I); try (intros; discriminate).
  - intros left nf prev n k kn rs _ x [= <-]. exists [T_start n k], (T_hit n k rs), (mkResp rs [] [] false). now repeat split.
  - intros left nf prev n k kn c cs lines r _ IH x E. destruct (IH x E) as (b & la & y & -> & R & ->).
    exists ([T_start n k; T_miss n k; T_hit n RT_CNAME (c :: cs)] ++ b), la. eexists. split; [reflexivity|]. split; [apply told_app; exact R|].
    unfold with_aliases. cbn [flat_map alias_told app x_answers x_authorities x_additionals x_none]. now rewrite <- app_assoc.
  - intros left nf prev n k kn sl qs out lines r Hs _ Hq _ Ho IH x E. specialize (IH x E). apply sl_told in Hs. apply queries_told in Hq. destruct out as [o|e]; [|destruct IH].
    destruct Hq as (Hd & b & -> & Hb). assert (Hpre : flat_map alias_told (T_start n k :: T_miss n k :: T_miss n RT_CNAME :: sl ++ b) = []) by (cbn [flat_map alias_told app]; now rewrite flat_map_app, Hs, Hb).
    assert (Last : (exists y, result_told [] (T_ns_resp o) = Some y /\ x = with_aliases prev y) -> lines = [] ->
      exists before last y, T_start n k :: T_miss n k :: T_miss n RT_CNAME :: sl ++ (b ++ [T_ns_resp o]) ++ lines = before ++ [last] /\ result_told before last = Some y /\ x = with_aliases prev y).
    { intros (y & R & ->) ->. exists (T_start n k :: T_miss n k :: T_miss n RT_CNAME :: sl ++ b), (T_ns_resp o), y. split; [cbn [app]; rewrite app_nil_r, <- app_assoc; reflexivity|]. split; [|reflexivity].
      rewrite <- (app_nil_r (T_start n k :: _)), (told_app _ _ _ _ R), Hpre. destruct y. reflexivity. }
    destruct o as [so|an ad|c nx|nx].
    + destruct IH as (El & _ & Hy). now apply Last.
    + destruct IH as (El & _ & Hy). now apply Last.
    + destruct IH as (b2 & la & y & -> & R & ->). exists ((T_start n k :: T_miss n k :: T_miss n RT_CNAME :: sl ++ b) ++ [T_ns_resp (NR_Alias c nx)] ++ b2), la. eexists.
      split; [cbn [app]; rewrite <- !app_assoc; reflexivity|]. split; [apply told_app, told_app; exact R|]. rewrite Hpre. unfold with_aliases. cbn [flat_map alias_told app x_answers x_authorities x_additionals x_none]. now rewrite <- app_assoc.
    + destruct (Hd nx eq_refl).
  - intros left nf prev k a b x [= <-]. split; [reflexivity|]. split; [discriminate|]. eexists. split; [reflexivity|reflexivity].
  - intros left nf prev k soa x [= <-]. split; [reflexivity|]. split; [discriminate|]. eexists. split; [reflexivity|]. unfold with_aliases. cbn. now rewrite app_nil_r.
  - intros left nf prev k c next lines r _ IH x E. exact (IH x E).
  - intros left prev c k kn t lines r Hc Hi _ IH x E. destruct (IH x E) as (b & la & y & H1 & H2 & H3). now exists b, la, y.
Qed.

(** So the result of a lookup that succeeds can be read off its trace: the aliases told in
    order, then the records of the last line. *)
Theorem C88_results_can_be_read_off : forall p env fuel conf n k w x l' w', silent conf = false ->
  perform p env fuel (new_lookup conf n k, w) = (Done (Ok x), (l', w')) ->
  exists before last, l_trace l' = before ++ [last] /\ result_told before last = Some x.
Proof.
  intros p env fuel conf n k w x l' w' Si E. apply C88_traces_are_accounts in E; [|exact Si].
  destruct (account_told _ _ _ _ _ _ _ _ _ _ E x eq_refl) as (b & la & y & Ht & R & ->). exists b, la. split; [exact Ht|].
  rewrite R. unfold with_aliases. cbn [app]. now destruct y.
Qed.
Print Assumptions C88_results_can_be_read_off.

(** www.example.com. looked up twice at example.com.'s server, an alias: the second time
    from the cache. *)
Definition www_run := perform Release (env_ex ex_zones) 6 (new_lookup conf_told (s2b "www.example.com.") RT_A, world0).
Definition www_again := perform Release (env_ex ex_zones) 6 (new_lookup conf_told (s2b "www.example.com.") RT_A, snd (snd www_run)).
Definition line_kind (t : tline) : N :=
  match t with T_start _ _ => 0 | T_hit _ _ _ => 1 | T_miss _ _ => 2 | T_ns_hit _ _ => 3 | T_ns_miss _ => 4 | T_ns_req _ _ _ _ => 5 | T_ns_resp _ => 6 | T_ns_err _ => 7 | T_raw _ => 8 | T_sub _ => 9 end%N.
Definition answer_of (r : exec (result response lerr)) : list record := match r with Done (Ok x) => x_answers x | _ => [] end.
Theorem C88_nonvacuous : silent conf_told = false /\
  map line_kind (l_trace (fst (snd www_run))) = [0; 2; 2; 4; 5; 8; 6; 0; 2; 2; 4; 5; 8; 6]%N /\
  map line_kind (l_trace (fst (snd www_again))) = [0; 2; 1; 0; 1]%N /\
  length (answer_of (fst www_run)) = 3 /\ length (answer_of (fst www_again)) = 3 /\
  result_told (removelast (l_trace (fst (snd www_again)))) (last (l_trace (fst (snd www_again))) (T_sub [])) = Some (mkResp (answer_of (fst www_again)) [] [] false).
Proof.
  split; [reflexivity|]. split; [vm_compute; reflexivity|]. split; [vm_compute; reflexivity|]. split; [vm_compute; reflexivity|]. split; [vm_compute; reflexivity|]. vm_compute; reflexivity.
Qed.
Print Assumptions C88_nonvacuous.
