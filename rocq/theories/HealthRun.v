(** Lookups in a healthy domain name system (C78). *)
From Coq Require Import Permutation.
From Verif Require Import Base Types Name NameSpec NameProofs Codec CodecSpec CodecWrite ZoneSpec NsSpec PropNs Cache Resolver ResolverLists ResolverSpec ResolverInv ResolverRun ResolverFacts ResolverEx PropResolver1 PropResolver2 PropResolver3 PropResolver5 ResolverStays PropResolver7 PropTalk HealthSpec.

(** * Records up to TTL *)
Lemma same_refl : forall a, same a a. Proof. intros a. apply Permutation_refl. Qed.
Lemma same_in : forall a b r, same a b -> In r a -> exists r', In r' b /\ bare r' = bare r.
Proof. intros a b r P H. apply (in_map bare) in H. apply (Permutation_in _ P) in H. apply in_map_iff in H as (r' & E & H'). now exists r'. Qed.
Lemma same_sym : forall a b, same a b -> same b a. Proof. intros a b. apply Permutation_sym. Qed.
Lemma same_trans : forall a b c, same a b -> same b c -> same a c. Proof. intros a b c. apply Permutation_trans. Qed.
Lemma same_nil : forall a, same a [] -> a = []. Proof. intros a P. apply Permutation_sym, Permutation_nil in P. now destruct a. Qed.
Lemma same_perm : forall a b, Permutation a b -> same a b. Proof. intros a b P. now apply Permutation_map. Qed.
Lemma same_ttl : forall a t, same (map (fun r => set_ttl r t) a) a.
Proof. intros a t. unfold same. rewrite map_map. apply Permutation_refl. Qed.
Lemma bare_data : forall r r', bare r = bare r' -> r_data r = r_data r'. Proof. intros r r' H. now injection H. Qed.
Lemma bare_node : forall r r', bare r = bare r' -> r_node r = r_node r'. Proof. intros r r' H. now injection H. Qed.
Lemma bare_type : forall r r', bare r = bare r' -> record_type r = record_type r'. Proof. intros r r' H. unfold record_type. now rewrite (bare_data _ _ H). Qed.
Lemma same_targets : forall a b, same a b -> Permutation (map r_data a) (map r_data b).
Proof. intros a b P. apply (Permutation_map r_data) in P. now rewrite !map_map in P. Qed.

(** * What a lookup should find is unique *)
Lemma leads_unique : forall D n t cs rs, leads D n t cs rs -> forall cs' rs', leads D n t cs' rs' -> cs' = cs /\ rs' = rs.
Proof.
  intros D n t cs rs H. induction H as [n t H|n t H1 H2|n t c n' cs rs H1 H2 H3 H IH]; intros cs' rs' H'; inversion H'; subst; try congruence; try now split.
  assert (c0 = c) by congruence. subst c0. assert (n'0 = n') by congruence. subst n'0. match goal with X : leads D n' t _ _ |- _ => destruct (IH _ _ X) as (-> & ->) end. now split.
Qed.

(** Something else may be known of the cache all along. *)
Record extra (env : environment) (D : directory) (Y : layout) (start T : N) (X : rcache -> Prop) : Prop := mkExtra {
  ex_others : forall n c, cache_ok plain_record (ev_now (env n)) c -> cache_true D Y start T c -> X c ->
    cache_true D Y start T (ev_others (env n) c) /\ keeps_anchors Y T c (ev_others (env n) c) /\ X (ev_others (env n) c);
  ex_same : forall c c', c_data c' = c_data c -> X c -> X c';
  ex_gone : forall c k, X c -> X (mkCache (upd rkey_eqb (c_data c) k None) false);
  ex_set : forall c c' k exp rs, X c -> (forall k', c_data c' k' = if rkey_eqb k k' then Some (exp, rs) else c_data c k') ->
    (snd k = RT_A -> (exists z, anchor Y z (fst k)) -> (T <= exp)%N) -> X c' }.
Lemma extra_none : forall env D Y start T, others_true env D Y start T -> extra env D Y start T (fun _ => True).
Proof. intros env D Y start T H. split; auto. intros n c Hc Ht _. destruct (H n c Hc Ht). now split. Qed.

Section Run.
  Context (p : profile) (env : environment) (D : directory) (Y : layout) (T : N) (retries servers : nat) (n0 : nat).
  Let start : N := ev_now (env n0).
  Context (EO : env_ok plain_record env) (Quick : forall n, (ev_now' (env n) < ev_now (env n) + SECOND)%N).
  Context (HE : healthy p env D Y start T retries servers).
  Context (Xtra : rcache -> Prop) (XE : extra env D Y start T Xtra).
  Let CO : class_ok p env plain_record := plain_is_a_class p env (eo_bytes _ _ EO).
  Let DO : directory_ok D := he_directory _ _ _ _ _ _ _ _ HE.
  Notation winv := (winv env plain_record (fun _ => True) 0).
  Notation late := (late env T).
  Notation cached := (fun w => address_cached T (w_cache w)).
  Notation keeps w w1 := (keeps_anchors Y T (w_cache w) (w_cache w1)).
  Definition anchors (h : name) : Prop := exists z, anchor Y z h.

  (** The cache tells the truth. *)
  Definition wise (w : world) : Prop := (n0 <= w_n w /\ Xtra (w_cache w)) /\ cache_true D Y start T (w_cache w).
  Lemma since_start : forall n, n0 <= n -> (start <= ev_now (env n))%N.
  Proof. intros n H. unfold start. induction H as [|m _ IH]; [lia|]. destruct (eo_forward _ _ EO m). lia. Qed.
  Lemma keeps_refl : forall c, keeps_anchors Y T c c. Proof. intros c z h _ H. exact H. Qed.
  Lemma keeps_trans : forall a b c, keeps_anchors Y T a b -> keeps_anchors Y T b c -> keeps_anchors Y T a c.
  Proof. intros a b c H1 H2 z h Ha Hh. apply (H2 z h Ha), (H1 z h Ha), Hh. Qed.
  Lemma anchored_kept : forall c c' z, keeps_anchors Y T c c' -> anchored D Y T c z -> anchored D Y T c' z.
  Proof. intros c c' z K (h & H1 & H2 & H3). exists h. split; [exact H1|]. split; [exact H2|]. exact (K z h H2 H3). Qed.

  (** * The cache *)
  Lemma get_true : forall w k, winv w -> exists o w1, access env (fun e => O_get (K := rkey) k (ev_now' e)) w = (Done (R_entry o), w1) /\ winv w1 /\ w_n w1 = S (w_n w) /\
    (wise w -> late w1 \/ (wise w1 /\ keeps w w1 /\
      match o with
      | Some (exp, rs) => (start < exp)%N /\ c_data (w_cache w1) k = Some (exp, rs)
      | None => forall h, k = (h, RT_A) -> anchors h -> ~ cached w h
      end)).
  Proof.
    intros w k Hw. destruct (get_ok env plain_record EO (fun _ => True) 0 w k Hw) as (o & w1 & E & Hw1 & _ & Hn & Ho). exists o, w1. split; [exact E|]. split; [exact Hw1|]. split; [exact Hn|].
    intros ((Hn0 & HX) & Hc). destruct (N.leb_spec T (ev_now' (env (w_n w)))) as [L|L]; [left; apply (late_now env T w); [lia|exact L]|]. right.
    pose proof (since_start _ Hn0) as St. destruct (eo_forward _ _ EO (w_n w)) as (Fw & _).
    destruct (ex_others _ _ _ _ _ _ XE (w_n w) _ (proj1 Hw) Hc HX) as (Hc' & Ha' & HX'). unfold access, cache_run in E. destruct (c_poisoned _) eqn:Ep; [discriminate E|]. unfold cache_get in E.
    set (c := ev_others (env (w_n w)) (w_cache w)) in *.
    assert (Same : forall cm, w_cache w1 = cm -> c_data cm = c_data c -> wise w1 /\ keeps w w1).
    { intros cm E1 E2. assert (K : keeps_anchors Y T c (w_cache w1)). { intros z h _ (e2 & rs2 & A & B). exists e2, rs2. rewrite E1, E2. now split. }
      split; [split; [split; [lia|apply (ex_same _ _ _ _ _ _ XE c); [now rewrite E1|exact HX']]|]|exact (keeps_trans _ _ _ Ha' K)].
      intros k' e' rs' X Z. rewrite E1, E2 in X. destruct (Hc' k' e' rs' X Z) as (Z1 & Z2). split; [exact Z1|]. intros Hk Hd. exact (anchored_kept _ _ _ K (Z2 Hk Hd)). }
    destruct (c_data c k) as [[e v]|] eqn:Ek.
    - destruct (is_expired e (ev_now' (env (w_n w)))) eqn:Ee; injection E as <- <-.
      + apply N.leb_le in Ee. cbn [w_cache] in *.
        assert (Keep : keeps_anchors Y T c (mkCache (upd rkey_eqb (c_data c) k None) false)).
        { intros z h _ (e2 & rs2 & A & B). exists e2, rs2. split; [|exact B]. cbn [c_data]. unfold upd. destruct (rkey_eqb k (h, RT_A)) eqn:Eq; [|exact A]. apply rkey_eqb_eq in Eq. subst k. rewrite Ek in A. injection A as -> ->. lia. }
        split; [split; [split; [cbn; lia|exact (ex_gone _ _ _ _ _ _ XE c k HX')]|]|split; [exact (keeps_trans _ _ _ Ha' Keep)|]].
        * intros k' e' rs'. cbn [w_cache c_data]. unfold upd at 1. destruct (rkey_eqb k k'); [discriminate|]. intros X Z. destruct (Hc' k' e' rs' X Z) as (Z1 & Z2). split; [exact Z1|]. intros Hk Hd. exact (anchored_kept _ _ _ Keep (Z2 Hk Hd)).
        * intros h -> (z & Hz) Hh. apply (Ha' z h Hz) in Hh as (e2 & rs2 & A & B). rewrite Ek in A. injection A as -> ->. lia.
      + apply N.leb_gt in Ee. destruct (Same _ eq_refl eq_refl) as (S1 & S2). split; [exact S1|]. split; [exact S2|]. split; [lia|exact Ek].
    - injection E as <- <-. destruct (Same _ eq_refl eq_refl) as (S1 & S2). split; [exact S1|]. split; [exact S2|]. intros h -> (z & Hz) Hh. apply (Ha' z h Hz) in Hh as (e2 & rs2 & A & B). congruence.
  Qed.

  Lemma search_true : forall n k w, winv w -> exists rs w1, search_records env n k w = (Done rs, w1) /\ winv w1 /\ w_n w1 = S (w_n w) /\ found plain_record n k rs /\
    (wise w -> late w1 \/ (wise w1 /\ keeps w w1 /\ (k = RT_A -> anchors n -> cached w n -> rs <> []) /\
      (rs <> [] -> same rs (D n k) /\ (k = RT_NS -> depth Y n = 0 -> anchored D Y T (w_cache w1) n)))).
  Proof.
    intros n k w Hw. destruct (search_done p env EO Quick n k w Hw) as (rs & w1 & E & Hw1 & _ & Hf). exists rs, w1. split; [exact E|]. split; [exact Hw1|].
    pose proof (search_n env n k w) as Hn. rewrite E in Hn. cbn [snd] in Hn. split; [exact Hn|]. split; [exact Hf|]. intros Hwise.
    destruct (get_true w (n, k) Hw) as (o & w2 & E2 & Hw2 & Hn2 & F). specialize (F Hwise). unfold search_records, wbind, reading in E. rewrite E2 in E.
    assert (Ew : w2 = w1).
    { destruct o as [[exp [|r0 l]]|]; [injection E as _ <-; reflexivity| |injection E as _ <-; reflexivity]. destruct (_ && _) in E; [|discriminate E]. destruct (_ <? _)%N in E; [|discriminate E]. injection E as _ <-. reflexivity. }
    subst w2. destruct F as [F|(F1 & F2 & F3)]; [now left|]. right. split; [exact F1|]. split; [exact F2|].
    destruct o as [[exp [|r0 l]]|].
    - exfalso. destruct F3 as (Lt & Ed). destruct Hw1 as ((_ & X) & _). destruct (X _ _ _ Ed) as (Z & _). now apply Z.
    - destruct F3 as (Lt & Ed). destruct (_ && _) in E; [|discriminate E]. destruct (_ <? _)%N in E; [|discriminate E]. injection E as <-. split; [discriminate|]. intros _.
      destruct (proj2 F1 _ _ _ Ed Lt) as (Z1 & Z2). cbn [fst snd] in *. split; [|exact Z2]. eapply same_trans; [apply (same_ttl (r0 :: l))|exact Z1].
    - injection E as <-. split; [|congruence]. intros -> Ha Hh. destruct (F3 n eq_refl Ha Hh).
  Qed.

  (** Saving what is true. *)
  Definition uniform (n : name) (k : rtype) (rs : list record) : Prop := rs <> [] /\ Forall (fun r => plain_record r /\ r_node r = n /\ record_type r = k) rs.
  Lemma save_done : forall n k rs w, winv w -> uniform n k rs -> exists w1, save_records env rs w = (Done tt, w1) /\ winv w1 /\ w_n w1 = S (w_n w).
  Proof.
    intros n k rs w Hw (Hne & Hu). pose proof (save_ok p env plain_record EO CO (fun _ => True) 0 True True rs w Hw Hne) as S1.
    assert (G : Forall plain_record rs) by (eapply Forall_impl; [|exact Hu]; cbn; tauto). specialize (S1 G).
    destruct (save_records env rs w) as [[[]|q|] w1] eqn:E; cbn [okW] in S1.
    - exists w1. split; [reflexivity|]. split; [apply S1|]. 2: destruct rs; [congruence|]; exact (saved env _ _ _ _ E).
      exists k. split; [eapply Forall_impl; [|exact Hu]; cbn; tauto|]. intros _. exists n. eapply Forall_impl; [|exact Hu]. cbn. tauto.
    - exfalso. apply S1; [|exact I]. exists k. split; [eapply Forall_impl; [|exact Hu]; cbn; tauto|]. intros _. exists n. eapply Forall_impl; [|exact Hu]. cbn. tauto.
    - exfalso. apply S1; [|exact I]. exists k. split; [eapply Forall_impl; [|exact Hu]; cbn; tauto|]. intros _. exists n. eapply Forall_impl; [|exact Hu]. cbn. tauto.
  Qed.
  Lemma save_true : forall n k rs w, winv w -> wise w -> uniform n k rs -> same rs (D n k) ->
    (k = RT_A -> anchors n -> Forall (fun r => T <= start + r_ttl r * SECOND)%N rs) -> (k = RT_NS -> depth Y n = 0 -> anchored D Y T (w_cache w) n) ->
    exists w1, save_records env rs w = (Done tt, w1) /\ winv w1 /\ wise w1 /\ w_n w1 = S (w_n w) /\ keeps w w1 /\ (k = RT_A -> anchors n -> cached w1 n).
  Proof.
    intros n k rs w Hw ((Hn0 & HX) & Hc) Hu Hs HA HN. destruct (save_done n k rs w Hw Hu) as (w1 & E & Hw1 & Hn). exists w1. split; [exact E|]. split; [exact Hw1|].
    destruct Hu as (Hne & Hu). destruct rs as [|r0 rs]; [congruence|]. destruct (C51_store env r0 rs w w1 E) as (low & Hlow & _ & _ & Ed).
    inversion Hu as [|? ? (_ & U1 & U2) _]; subst. pose proof (since_start _ Hn0) as St.
    destruct (ex_others _ _ _ _ _ _ XE (w_n w) _ (proj1 Hw) Hc HX) as (Hc' & Ha' & HX'). set (c := ev_others (env (w_n w)) (w_cache w)) in *.
    assert (New : record_type r0 = RT_A -> anchors (r_node r0) -> cached w1 (r_node r0)).
    { intros HkA Han. eexists _, _. split; [rewrite Ed, HkA; replace (rkey_eqb _ _) with true by (symmetry; now apply rkey_eqb_eq); reflexivity|]. apply in_map_iff in Hlow as (r & <- & Hr). specialize (HA HkA Han). rewrite Forall_forall in HA. specialize (HA r Hr). lia. }
    assert (Keep : keeps_anchors Y T c (w_cache w1)).
    { intros z h Hz (e2 & rs2 & A & B). destruct (rkey_eqb (r_node r0, record_type r0) (h, RT_A)) eqn:Eq.
      - apply rkey_eqb_eq in Eq. injection Eq as <- Et. apply New; [exact Et|now exists z].
      - exists e2, rs2. rewrite Ed, Eq. now split. }
    assert (HX1 : Xtra (w_cache w1)).
    { refine (ex_set _ _ _ _ _ _ XE c (w_cache w1) _ _ _ HX' Ed _). cbn [fst snd]. intros HkA Han. destruct (New HkA Han) as (e2 & rs2 & A & B). rewrite Ed, HkA in A.
      replace (rkey_eqb (r_node r0, RT_A) (r_node r0, RT_A)) with true in A by (symmetry; now apply rkey_eqb_eq). injection A as <- _. exact B. }
    split; [split; [split; [lia|exact HX1]|]|]. 2:{ split; [exact Hn|]. split; [exact (keeps_trans _ _ _ Ha' Keep)|exact New]. }
    intros k' e' rs' X Z. rewrite Ed in X. destruct (rkey_eqb (r_node r0, record_type r0) k') eqn:Eq.
    - apply rkey_eqb_eq in Eq. subst k'. injection X as <- <-. cbn [fst snd]. split.
      + eapply same_trans; [apply (same_ttl (r0 :: rs) low)|exact Hs].
      + intros Ht Hd. exact (anchored_kept _ _ _ (keeps_trans _ _ _ Ha' Keep) (HN Ht Hd)).
    - destruct (Hc' k' e' rs' X Z) as (Z1 & Z2). split; [exact Z1|]. intros Hk Hd. exact (anchored_kept _ _ _ Keep (Z2 Hk Hd)).
  Qed.

  (** * Servers *)
  Notation good := (good_server p env D Y start T retries).
  Notation useless := (useless_server p env).
  (** A server of zone [z], that works or is broken; its addresses may be unknown. *)
  Definition good_one (z : name) (s : nsrv) : Prop :=
    (forall a, first_addr s a -> good a z) /\ (n_addrs s = [] -> forall h, r_data (n_rec s) = D_NS h -> works p env D Y start T retries z h).
  Definition poor_one (z : name) (s : nsrv) : Prop :=
    (forall a, first_addr s a -> useless a z) /\ (n_addrs s = [] -> forall h, r_data (n_rec s) = D_NS h -> broken p env D z h).
  Definition member (z : name) (s : nsrv) : Prop :=
    ns_zone s = z /\ (exists h, r_data (n_rec s) = D_NS h /\ (n_addrs s = [] -> serves D z h)) /\ addresses_only s /\ (good_one z s \/ poor_one z s).
  Definition data_of (s : nsrv) : rdata := r_data (n_rec s).
  Definition team (z : name) (l : list nsrv) : Prop :=
    Forall (member z) l /\ NoDup (map data_of l) /\ (exists bad, length bad < servers /\ forall s, In s l -> In (data_of s) bad \/ good_one z s) /\
    exists s, In s l /\ good_one z s /\ (n_addrs s <> [] \/ 0 < depth Y z).
  Lemma team_some : forall z l, team z l -> l <> []. Proof. intros z l (_ & _ & _ & s & H & _) ->. destruct H. Qed.
  Definition true_server (z : name) (s : nsrv) : Prop :=
    plain_record (n_rec s) /\ ns_zone s = z /\ exists h, serves D z h /\ r_data (n_rec s) = D_NS h /\
      Forall (fun r => plain_record r /\ record_type r = RT_A /\ r_node r = h) (n_addrs s) /\ (n_addrs s = [] \/ same (n_addrs s) (D h RT_A)).
  Lemma ns_is : forall z r, In r (D z RT_NS) -> exists h, r_data r = D_NS h.
  Proof. intros z r H. apply (di_owner D DO) in H as (_ & H). exact (ns_record r H). Qed.
  Lemma true_addrs : forall z s h, true_server z s -> r_data (n_rec s) = D_NS h -> serves D z h /\ addresses_only s /\ forall a, first_addr s a -> exists g, In g (D h RT_A) /\ r_data g = D_A a.
  Proof.
    intros z s h (_ & Hz & h' & Hd & Es & Hp & Hs) E. assert (h' = h) by congruence. subst h'. split; [exact Hd|]. split; [eapply Forall_impl; [|exact Hp]; cbn; tauto|].
    intros a (g & gs & Eg & Ea). destruct Hs as [C|Hs]; [congruence|]. destruct (same_in _ _ g Hs) as (g' & Hg & Eb); [rewrite Eg; now left|]. exists g'. split; [exact Hg|]. rewrite (bare_data _ _ Eb). exact Ea.
  Qed.
  Lemma true_good : forall z s h, true_server z s -> r_data (n_rec s) = D_NS h -> works p env D Y start T retries z h -> good_one z s.
  Proof.
    intros z s h Ht E Hw. destruct (true_addrs z s h Ht E) as (_ & _ & Ha). split.
    - intros a Fa. destruct (Ha a Fa) as (g & Hg & Eg). exact (Hw g a Hg Eg).
    - intros _ h' E'. assert (h' = h) by congruence. now subst h'.
  Qed.
  Lemma true_poor : forall z s h, true_server z s -> r_data (n_rec s) = D_NS h -> broken p env D z h -> poor_one z s.
  Proof.
    intros z s h Ht E Hw. destruct (true_addrs z s h Ht E) as (_ & _ & Ha). split.
    - intros a Fa. destruct (Ha a Fa) as (g & Hg & Eg). exact (Hw g a Hg Eg).
    - intros _ h' E'. assert (h' = h) by congruence. now subst h'.
  Qed.
  Lemma true_team : forall z l, Forall (true_server z) l -> same (map n_rec l) (D z RT_NS) -> D z RT_NS <> [] ->
    (depth Y z = 0 -> exists s h, In s l /\ r_data (n_rec s) = D_NS h /\ anchor Y z h /\ n_addrs s <> []) -> team z l.
  Proof.
    intros z l Ht Hs Hne Ha. rewrite Forall_forall in Ht. destruct (he_servers _ _ _ _ _ _ _ _ HE z) as (bad & Lb & Hb). split; [|split; [|split]].
    - apply Forall_forall. intros s Hin. pose proof (Ht s Hin) as Hts. pose proof Hts as (_ & Hz & h & Hd & Es & _). destruct (true_addrs z s h Hts Es) as (_ & Ho & _). split; [exact Hz|]. split; [exists h; now split|]. split; [exact Ho|].
      destruct (Hb h Hd) as [W|(_ & B)]; [left; exact (true_good z s h Hts Es W)|right; exact (true_poor z s h Hts Es B)].
    - unfold data_of. rewrite <- (map_map n_rec r_data). eapply Permutation_NoDup; [apply Permutation_sym, same_targets; exact Hs|]. apply (di_servers D DO).
    - exists (map D_NS bad). split; [now rewrite map_length|]. intros s Hin. pose proof (Ht s Hin) as Hts. pose proof Hts as (_ & Hz & h & Hd & Es & _).
      destruct (Hb h Hd) as [W|(B & _)]; [right; exact (true_good z s h Hts Es W)|left; unfold data_of; rewrite Es; now apply in_map].
    - destruct (depth Y z) as [|d] eqn:Ed.
      + destruct (Ha eq_refl) as (s & h & Hin & Es & Han & Hn). exists s. split; [exact Hin|]. split; [|now left]. apply (true_good z s h (Ht s Hin) Es). exact (he_anchors _ _ _ _ _ _ _ _ HE z h Han).
      + destruct (he_works _ _ _ _ _ _ _ _ HE z Hne) as (h & (r & Hr & Er) & W). destruct (same_in _ _ r (same_sym _ _ Hs) Hr) as (r' & Hr' & Eb). apply in_map_iff in Hr' as (s & <- & Hin).
        exists s. split; [exact Hin|]. split; [|right; lia]. apply (true_good z s h (Ht s Hin)); [|exact W]. rewrite (bare_data _ _ Eb). exact Er.
  Qed.
  Definition root_one (x : list N * list N) : nsrv := mkNs (mkRec [DOT] C_IN 100000 0 (D_NS (fst x))) [mkRec (fst x) C_IN 10000 0 (D_A (snd x))].
  Lemma root_first : forall x a, first_addr (root_one x) a -> a = snd x.
  Proof. intros x a (r & rs & E & Ea). injection E as <- <-. cbn in Ea. now injection Ea as ->. Qed.
  Lemma root_good : forall x, good (snd x) [46%N] -> good_one [46%N] (root_one x).
  Proof. intros x G. split; [|discriminate]. intros a Fa. now rewrite (root_first x a Fa). Qed.
  Fixpoint distinct_b (l : list name) : bool := match l with [] => true | x :: l' => negb (existsb (bytes_eqb x) l') && distinct_b l' end.
  Lemma distinct_names : forall l, distinct_b l = true -> NoDup (map D_NS l).
  Proof.
    induction l as [|x l IH]; intros H; [constructor|]. cbn [distinct_b] in H. apply andb_true_iff in H as (H1 & H2). cbn [map]. constructor; [|now apply IH].
    intros C. apply in_map_iff in C as (y & E & Hy). injection E as ->. apply negb_true_iff in H1. assert (X : existsb (bytes_eqb x) l = true) by (apply existsb_exists; exists x; split; [exact Hy|apply bytes_eqb_refl]). congruence.
  Qed.
  Lemma root_team : team [46%N] root_zone_nameservers.
  Proof.
    destruct (he_root _ _ _ _ _ _ _ _ HE) as (bad & Lb & Hb). rewrite Forall_forall in Hb. change root_zone_nameservers with (map root_one ROOT_SERVERS). split; [|split; [|split]].
    - apply Forall_map, Forall_forall. intros x Hin. split; [reflexivity|]. split; [exists (fst x); split; [reflexivity|discriminate]|]. split; [constructor; [reflexivity|constructor]|].
      destruct (Hb x Hin) as [G|(_ & G)]; [left; now apply root_good|right]. split; [|discriminate]. intros a Fa. now rewrite (root_first x a Fa).
    - rewrite map_map. change (fun x : list N * list N => data_of (root_one x)) with (fun x : list N * list N => D_NS (fst x)). rewrite <- (map_map fst D_NS). apply distinct_names. reflexivity.
    - exists (map (fun x => D_NS (fst x)) bad). split; [now rewrite map_length|]. intros s Hs. apply in_map_iff in Hs as (x & <- & Hx). destruct (Hb x Hx) as [G|(G & _)]; [right; now apply root_good|left; exact (in_map (fun x => D_NS (fst x)) _ _ G)].
    - destruct (he_root_works _ _ _ _ _ _ _ _ HE) as (x & Hx & G). exists (root_one x). split; [now apply in_map|]. split; [now apply root_good|left; discriminate].
  Qed.

  (** * Names *)
  Lemma hierarchy_within : forall n d, accepted n -> In d (generate_domain_hierarchy n) -> accepted d /\ within n d.
  Proof.
    intros n d Hn Hd. split; [pose proof (C55_hierarchy_is_accepted n Hn) as F; rewrite Forall_forall in F; now apply F|]. destruct Hn as (ls & Hn). rewrite (C55_hierarchy n ls Hn) in Hd.
    unfold within, in_zone_spec. rewrite (labels_of_name n ls Hn). destruct ls as [|l ls].
    - destruct Hd as [<-|[]]. exists []. reflexivity.
    - apply in_map_iff in Hd as (a & <- & Ha). destruct Hn as (En & Hg & Hl). rewrite En in Hl.
      assert (G : exists pre, l :: ls = pre ++ a /\ a <> []).
      { clear - Ha. revert Ha. generalize (l :: ls). induction l0 as [|x l0 IH]; cbn [ancestors]; [intros []|]. intros [<-|H]; [exists []; now split|]. destruct (IH H) as (pre & E & Ne). exists (x :: pre). cbn. now rewrite E. }
      destruct G as (pre & E & Ne). exists pre. rewrite (labels_of_name (name_text a) a); [exact E|]. split; [reflexivity|]. rewrite E in Hg. apply Forall_app in Hg as (_ & Hg). split; [exact Hg|].
      cbn [name_text] in Hl. destruct a as [|x a]; [congruence|]. cbn [name_text]. rewrite E in Hl. rewrite dotted_app, app_length in Hl. lia.
  Qed.
  Lemma within_text : forall n z, sendable n -> accepted z -> within n z -> exists pre, n = pre ++ z.
  Proof.
    intros n z Hs Hz Hw. destruct (bytes_eqb z [46%N]) eqn:E.
    - apply bytes_eqb_eq in E. subst z. destruct Hs as (ls & (-> & _) & Hne & _). destruct ls as [|l ls] using rev_ind; [congruence|]. clear IHls.
      exists (dotted ls ++ l). destruct (ls ++ [l]) as [|x y] eqn:El; [now destruct ls|]. cbn [name_text]. rewrite <- El, dotted_app. cbn [dotted flat_map]. now rewrite app_nil_r, <- app_assoc.
    - apply within_suffix; [now apply sendable_accepted|split; [exact Hz|]|exact Hw]. intros ->. discriminate E.
  Qed.
  Lemma within_root : forall n, accepted n -> within n [46%N].
  Proof. intros n _. exists (labels n). unfold labels at 2. cbn. now rewrite app_nil_r. Qed.

  (** * The servers found in the cache *)
  Lemma find_true : forall ds w, winv w -> Forall accepted ds -> exists rs w1, find_ns_records env ds w = (Done rs, w1) /\ winv w1 /\ w_n w <= w_n w1 /\
    Forall plain_record rs /\ Forall (fun r => record_type r = RT_NS) rs /\
    (wise w -> late w1 \/ (wise w1 /\ keeps w w1 /\ (rs = [] \/ exists d, In d ds /\ same rs (D d RT_NS) /\ (depth Y d = 0 -> anchored D Y T (w_cache w1) d)))).
  Proof.
    induction ds as [|d ds IH]; intros w Hw Hd; cbn [find_ns_records].
    { exists [], w. split; [reflexivity|]. split; [exact Hw|]. split; [lia|]. split; [constructor|]. split; [constructor|]. intros H. right. split; [exact H|]. split; [apply keeps_refl|now left]. }
    inversion Hd as [|? ? Ha Hd']; subst.
    assert (E : name_from_string d = Ok d). { unfold name_from_string. destruct (validate_name d) as [[]|e] eqn:Ev; [reflexivity|]. apply validate_name_ok in Ha. congruence. }
    rewrite E. destruct (search_true d RT_NS w Hw) as (rs & w1 & Es & Hw1 & Hn & (F1 & F2 & _) & Tr). unfold wbind. rewrite Es. destruct rs as [|r rs].
    - destruct (IH w1 Hw1 Hd') as (rs & w2 & Es2 & Hw2 & Hn2 & G1 & G2 & Tr2). exists rs, w2. split; [exact Es2|]. split; [exact Hw2|]. split; [lia|]. split; [exact G1|]. split; [exact G2|].
      intros H. destruct (Tr H) as [L|(W1 & K1 & _)]; [left; now apply (late_more env T w1)|]. destruct (Tr2 W1) as [L|(W2 & K2 & [->|(d' & Hd2 & X)])]; [now left|right; split; [exact W2|]; split; [exact (keeps_trans _ _ _ K1 K2)|now left]|].
      right. split; [exact W2|]. split; [exact (keeps_trans _ _ _ K1 K2)|]. right. exists d'. split; [now right|exact X].
    - exists (r :: rs), w1. split; [reflexivity|]. split; [exact Hw1|]. split; [lia|]. split; [exact F1|]. split; [exact F2|]. intros H. destruct (Tr H) as [L|(W1 & K1 & _ & X)]; [now left|].
      right. split; [exact W1|]. split; [exact K1|]. right. exists d. split; [now left|]. destruct (X ltac:(discriminate)) as (X1 & X2). split; [exact X1|]. exact (X2 eq_refl).
  Qed.
  Lemma cached_true : forall z rs w, winv w -> Forall plain_record rs -> Forall (fun r => record_type r = RT_NS) rs -> exists l w1, cached_addrs env rs w = (Done l, w1) /\ winv w1 /\ w_n w <= w_n w1 /\ map n_rec l = rs /\
    (wise w -> (forall r h, In r rs -> r_data r = D_NS h -> r_node r = z /\ serves D z h) ->
      late w1 \/ (wise w1 /\ keeps w w1 /\ Forall (true_server z) l /\ forall s h, In s l -> r_data (n_rec s) = D_NS h -> anchors h -> cached w h -> n_addrs s <> [])).
  Proof.
    intros z. induction rs as [|r rs IH]; intros w Hw Hg Ht; cbn [cached_addrs].
    { exists [], w. split; [reflexivity|]. split; [exact Hw|]. split; [lia|]. split; [reflexivity|]. intros H _. right. split; [exact H|]. split; [apply keeps_refl|]. split; [constructor|intros s h []]. }
    inversion Hg as [|? ? G1 G2]; subst. inversion Ht as [|? ? T1 T2]; subst. destruct (ns_record r T1) as (h & En). unfold wbind at 1, wexec, ns_data. rewrite En.
    destruct (search_true h RT_A w Hw) as (a & w1 & Es & Hw1 & Hn & (A1 & A2 & A3 & _) & Tr). unfold wbind at 1. rewrite Es.
    destruct (IH w1 Hw1 G2 T2) as (l & w2 & Es2 & Hw2 & Hn2 & M & Tr2). unfold wbind. rewrite Es2. cbn [wret]. exists (mkNs r a :: l), w2. split; [reflexivity|]. split; [exact Hw2|]. split; [lia|]. split; [cbn; now rewrite M|].
    intros H Hall. destruct (Tr H) as [L|(W1 & K1 & X & Z)]; [left; now apply (late_more env T w1)|].
    destruct (Hall r h (or_introl eq_refl) En) as (Z1 & Z2).
    destruct (Tr2 W1) as [L|(W2 & K2 & F & An)]; [intros r' h' Hr' Eh'; now apply (Hall r' h' (or_intror Hr'))|now left|].
    right. split; [exact W2|]. split; [exact (keeps_trans _ _ _ K1 K2)|]. split.
    - constructor; [|exact F]. split; [exact G1|]. split; [exact Z1|]. exists h. split; [exact Z2|]. split; [exact En|]. cbn [n_addrs]. split.
      + specialize (A3 ltac:(discriminate)). apply Forall_forall. intros x Hx. rewrite Forall_forall in A1, A2, A3. auto.
      + destruct a as [|a0 a]; [now left|right]. apply Z. discriminate.
    - intros s h' [<-|Hin] E' Ha Hc.
      + cbn [n_rec n_addrs] in *. assert (h' = h) by congruence. subst h'. now apply X.
      + apply (An s h' Hin E' Ha). destruct Ha as (z' & Ha). exact (K1 z' h' Ha Hc).
  Qed.
  Lemma search_nss_true : forall l w, winv w -> accepted (l_node l) -> exists ns l' w', search_nss_with_trace env (l, w) = (Done ns, (l', w')) /\ core l' = core l /\ winv w' /\ w_n w <= w_n w' /\
    (wise w -> late w' \/ (wise w' /\ keeps w w' /\ (ns = [] \/ exists z, accepted z /\ within (l_node l) z /\ team z ns))).
  Proof.
    intros l w Hw Ha. unfold search_nss_with_trace. unfold lbind at 1, lget. cbn [fst]. unfold lbind at 1. rewrite lw_run. cbn [fst snd].
    destruct (find_true (generate_domain_hierarchy (l_node l)) w Hw (C55_hierarchy_is_accepted _ Ha)) as (rs & w1 & E & Hw1 & Hn & G1 & G2 & Tr). rewrite E. cbn [fst snd].
    destruct rs as [|r rs].
    - unfold lbind, trace, lret. cbn [fst snd]. eexists _, _, _. split; [reflexivity|]. split; [now destruct (silent _)|]. split; [exact Hw1|]. split; [exact Hn|]. intros H. destruct (Tr H) as [L|(W1 & K1 & _)]; [now left|]. right. split; [exact W1|]. split; [exact K1|now left].
    - unfold lbind at 1. rewrite lw_run. cbn [fst snd].
      destruct (cached_true (r_node r) (r :: rs) w1 Hw1 G1 G2) as (ns & w2 & E2 & Hw2 & Hn2 & M & Tr2). rewrite E2. cbn [fst snd].
      unfold lbind, trace, lret. cbn [fst snd]. eexists _, _, _. split; [reflexivity|]. split; [now destruct (silent _)|]. split; [exact Hw2|]. split; [lia|].
      intros H. destruct (Tr H) as [L|(W1 & K1 & [C|(d & Hd & X1 & X2)])]; [left; now apply (late_more env T w1)|discriminate C|].
      destruct (hierarchy_within (l_node l) d Ha Hd) as (Ad & Wd).
      assert (Own : forall x, In x (r :: rs) -> r_node x = d). { intros x Hx. destruct (same_in _ _ x X1 Hx) as (x' & Hx' & Eb). rewrite <- (bare_node _ _ Eb). now apply (di_owner D DO) in Hx' as (Hx' & _). }
      rewrite (Own r (or_introl eq_refl)) in Tr2.
      destruct (Tr2 W1) as [L|(W2 & K2 & F & An)].
      + intros x h Hx Eh. rewrite (Own x Hx). split; [reflexivity|]. destruct (same_in _ _ x X1 Hx) as (x' & Hx' & Eb). exists x'. split; [exact Hx'|]. rewrite (bare_data _ _ Eb). exact Eh.
      + now left.
      + right. split; [exact W2|]. split; [exact (keeps_trans _ _ _ K1 K2)|]. right. exists d. split; [exact Ad|]. split; [exact Wd|]. apply true_team; [exact F|now rewrite M| |].
        * intros C. rewrite C in X1. apply same_nil in X1. discriminate X1.
        * intros Hd0. destruct (X2 Hd0) as (h & (x & Hx & Ex) & Han & Hc). destruct (same_in _ _ x (same_sym _ _ X1) Hx) as (x' & Hx' & Eb). rewrite <- M in Hx'. apply in_map_iff in Hx' as (s & <- & Hs).
          assert (Es : r_data (n_rec s) = D_NS h) by (rewrite (bare_data _ _ Eb); exact Ex). exists s, h. split; [exact Hs|]. split; [exact Es|]. split; [exact Han|]. apply (An s h Hs Es); [now exists d|exact Hc].
  Qed.

  (** * Reading honest responses *)
  Lemma targets_distinct : forall rs, Forall (fun r => record_type r = RT_NS) rs -> NoDup (map r_data rs) -> NoDup (targets rs).
  Proof.
    induction rs as [|r rs IH]; intros Ht Hd; [constructor|]. inversion Ht as [|? ? T1 T2]; subst. inversion Hd as [|? ? D1 D2]; subst. destruct (ns_record r T1) as (n & En). rewrite (targets_cons r rs n En).
    constructor; [|now apply IH]. intros C. apply D1. unfold targets in C. apply in_flat_map in C as (x & Hx & C). rewrite En. destruct (r_data x) eqn:Ex; try contradiction. destruct C as [<-|[]]. rewrite <- Ex. now apply in_map.
  Qed.
  Definition lasts (rs : list record) : Prop := Forall (fun r => T <= start + r_ttl r * SECOND)%N rs.
  Definition lasts_anchor (s : nsrv) : Prop := forall h, r_data (n_rec s) = D_NS h -> anchors h -> lasts (n_addrs s).
  Lemma servers_of : forall m z, Forall plain_record (all_records m) -> refers D Y m z -> lasting Y start T m ->
    exists l rest, nss_of (of_type RT_NS (m_authorities m)) (m_additionals m) = Done (l, rest) /\ map n_rec l = of_type RT_NS (m_authorities m) /\ Forall (true_server z) l /\ Forall lasts_anchor l /\
      (depth Y z = 0 -> exists s h, In s l /\ r_data (n_rec s) = D_NS h /\ anchor Y z h /\ n_addrs s <> []) /\
      Forall (fun s => exists h, r_data (n_rec s) = D_NS h /\ (n_addrs s <> [] \/ ~ exists pre, h = pre ++ ns_zone s)) l.
  Proof.
    intros m z Hp (R1 & R2 & R3 & R4) La. assert (Ty : Forall (fun r => record_type r = RT_NS) (of_type RT_NS (m_authorities m))).
    { apply Forall_forall. intros r Hr. apply filter_In in Hr as (_ & Hr). now apply rtype_eqb_eq in Hr. }
    destruct (nss_of_owned (of_type RT_NS (m_authorities m)) (m_additionals m) Ty) as (l & rest & E & M & F).
    { apply targets_distinct; [exact Ty|]. eapply Permutation_NoDup; [apply Permutation_sym, same_targets; exact R2|]. apply (di_servers D DO). }
    exists l, rest. split; [exact E|]. split; [exact M|]. apply all_split in Hp as (_ & Pau & Pad). rewrite Forall_forall in Pau, Pad. rewrite Forall_forall in F.
    assert (G : forall s h, In s l -> r_data (n_rec s) = D_NS h -> In (n_rec s) (m_authorities m) /\ ns_zone s = z /\ serves D z h /\ Permutation (n_addrs s) (owned h RT_A (m_additionals m))).
    { intros s h Hs Eh. destruct (F s Hs) as (h' & Eh' & P). assert (h' = h) by congruence. subst h'. assert (Hin : In (n_rec s) (of_type RT_NS (m_authorities m))) by (rewrite <- M; now apply in_map). pose proof Hin as Hin'. apply filter_In in Hin' as (Hin' & _).
      split; [exact Hin'|]. destruct (same_in _ _ _ R2 Hin) as (r & Hr & Eb). assert (Er : r_data r = D_NS h) by (rewrite (bare_data _ _ Eb); exact Eh).
      split; [unfold ns_zone; rewrite <- (bare_node _ _ Eb); now apply (di_owner D DO) in Hr as (Hr & _)|]. split; [now exists r|exact P]. }
    split; [|split; [|split]].
    - apply Forall_forall. intros s Hs. destruct (F s Hs) as (h & Eh & _). destruct (G s h Hs Eh) as (G1 & G2 & G3 & P). split; [now apply Pau|]. split; [exact G2|]. exists h. split; [exact G3|]. split; [exact Eh|]. split.
      + apply Forall_forall. intros x Hx. apply (Permutation_in x P) in Hx. apply owned_in in Hx as (X1 & X2 & X3). split; [now apply Pad|]. now split.
      + destruct (R3 h G3) as [(_ & R)|(R & _)]; [right; eapply same_trans; [apply same_perm; exact P|exact R]|left]. rewrite R in P. apply Permutation_sym, Permutation_nil in P. exact P.
    - apply Forall_forall. intros s Hs h Eh (z' & Ha). destruct (G s h Hs Eh) as (_ & _ & _ & P). apply Forall_forall. intros x Hx. apply (Permutation_in x P) in Hx. apply owned_in in Hx as (X1 & X2 & X3). apply (La z'); [apply in_or_app; now right|exact X3|now rewrite X2].
    - intros Hd. destruct (R4 Hd) as (h & (r & Hr & Er) & Ha & Ho). destruct (same_in _ _ r (same_sym _ _ R2) Hr) as (r' & Hr' & Eb). rewrite <- M in Hr'. apply in_map_iff in Hr' as (s & <- & Hs).
      assert (Es : r_data (n_rec s) = D_NS h) by (rewrite (bare_data _ _ Eb); exact Er). exists s, h. split; [exact Hs|]. split; [exact Es|]. split; [exact Ha|]. destruct (G s h Hs Es) as (_ & _ & _ & P). intros C. rewrite C in P. apply Permutation_nil in P. contradiction.
    - apply Forall_forall. intros s Hs. destruct (F s Hs) as (h & Eh & _). destruct (G s h Hs Eh) as (_ & G2 & G3 & P). exists h. split; [exact Eh|]. rewrite G2. destruct (R3 h G3) as [(R & _)|(_ & R)]; [left|now right].
      intros C. rewrite C in P. apply Permutation_nil in P. contradiction.
  Qed.
  Lemma zone_owner : forall m z r, refers D Y m z -> In r (m_authorities m) -> record_type r = RT_NS -> r_node r = z.
  Proof.
    intros m z r (_ & R & _) Hr Ht. destruct (same_in _ _ r R) as (r' & Hr' & Eb); [apply filter_In; split; [exact Hr|now apply rtype_eqb_eq]|]. rewrite <- (bare_node _ _ Eb). now apply (di_owner D DO) in Hr' as (Hr' & _).
  Qed.
  Lemma filter_same : forall A (f g : A -> bool) l, (forall x, In x l -> f x = g x) -> filter f l = filter g l.
  Proof. intros A f g. induction l as [|x l IH]; intros H; [reflexivity|]. cbn. rewrite (H x) by now left. rewrite IH; [reflexivity|]. intros y Hy. apply H. now right. Qed.
  Lemma zone_accepted : forall m z, Forall plain_record (all_records m) -> refers D Y m z -> accepted z.
  Proof.
    intros m z Hp R. pose proof R as (R1 & R2 & _). destruct (D z RT_NS) as [|r0 l] eqn:E; [congruence|]. destruct (same_in _ _ r0 (same_sym _ _ R2)) as (r & Hr & Eb); [now left|].
    apply filter_In in Hr as (Hr & Ht). apply rtype_eqb_eq in Ht. pose proof (zone_owner m z r R Hr Ht) as <-. apply all_split in Hp as (_ & Pau & _). rewrite Forall_forall in Pau. apply (co_names p env _ CO). now apply Pau.
  Qed.

  Definition good_reading (n : name) (t : rtype) (z : name) (x : nsresp) : Prop :=
    match x with
    | NR_Answer ans _ => D n t <> [] /\ uniform n t ans /\ same ans (D n t) /\ (t = RT_A -> anchors n -> lasts ans)
    | NR_Alias c next => D n t = [] /\ plain_record c /\ exists c0 target, D n RT_CNAME = [c0] /\ bare c = bare c0 /\ r_data c0 = D_CNAME target /\ (next = [] \/ exists z', accepted z' /\ within target z' /\ team z' next)
    | NR_NoDomain _ => D n t = [] /\ D n RT_CNAME = []
    | NR_Delegation next => exists z', accepted z' /\ within n z' /\ length z < length z' /\ team z' next /\ Forall (true_server z') next /\ same (map n_rec next) (D z' RT_NS) /\ Forall lasts_anchor next /\
        (depth Y z' = 0 -> exists s h, In s next /\ r_data (n_rec s) = D_NS h /\ anchor Y z' h /\ n_addrs s <> [])
    end.
  Lemma read_honest : forall m n t z, sendable n -> Forall plain_record (all_records m) -> honest D Y m n t z -> lasting Y start T m -> exists x, read_response m n t z = Done (Ok x) /\ good_reading n t z x.
  Proof.
    intros m n t z Hn Hp H La. pose proof Hp as Hp'. apply all_split in Hp' as (Pan & Pau & Pad). rewrite Forall_forall in Pan, Pau, Pad.
    unfold read_response. destruct H as [Hrc Hd Hs|c target Hrc Hd Ho Hc Ht Hs Hnx|Hrc Haa Hd Hc|z' Hrc Ho Hoc Hw Hl Hr]; rewrite Hrc.
    - destruct (extract_owned (m_answers m) t n) as (got & rest & E & P & _). rewrite E.
      assert (G : got <> []). { intros ->. apply Permutation_nil in P. rewrite P in Hs. apply same_sym, same_nil in Hs. contradiction. }
      destruct got as [|g got]; [congruence|]. eexists. split; [reflexivity|]. split; [exact Hd|]. split; [split; [discriminate|]|split].
      + apply Forall_forall. intros x Hx. apply (Permutation_in x P) in Hx. apply owned_in in Hx as (X1 & X2 & X3). split; [now apply Pan|now split].
      + eapply same_trans; [apply same_perm; exact P|exact Hs].
      + intros -> (z1 & Ha). apply Forall_forall. intros x Hx. apply (Permutation_in x P) in Hx. apply owned_in in Hx as (X1 & X2 & X3). apply (La z1); [apply in_or_app; now left|exact X3|now rewrite X2].
    - destruct (extract_owned (m_answers m) t n) as (got & rest & E & P & Q & R). rewrite E. rewrite Ho in P. apply Permutation_sym, Permutation_nil in P. subst got.
      assert (Tc : t <> RT_CNAME). { intros ->. congruence. }
      assert (Oc : same (owned n RT_CNAME rest) [c]). { eapply same_trans; [apply same_perm, Q; intros C; injection C as C; congruence|exact Hs]. }
      destruct (C53_extract_record rest RT_CNAME n) as [(c' & rest' & b & a & Ec & El & Nc & Yc & _)|(Ec & Hno)]; rewrite Ec; cbn [fst].
      2:{ exfalso. destruct (same_in _ _ c (same_sym _ _ Oc)) as (r & Hr & _); [now left|]. apply owned_in in Hr as (R1 & R2). exact (Hno r R1 R2). }
      assert (Hin : In c' rest) by (rewrite El; apply in_or_app; right; now left).
      assert (Eb : bare c' = bare c). { destruct (same_in _ _ c' Oc) as (y & [<-|[]] & Ey); [apply owned_in; auto|now symmetry]. }
      assert (Et : r_data c' = D_CNAME target) by (rewrite (bare_data _ _ Eb); exact Ht). unfold cname_data. rewrite Et. cbn [bind]. unfold extract_next_nss_for_cname.
      destruct Hnx as [Hnx|(z' & Wz & Rz)].
      + rewrite filter_none. 2:{ intros r Hr. apply andb_false_iff. destruct (rtype_eqb (record_type r) RT_NS) eqn:Ey; [|now left]. right. apply rtype_eqb_eq in Ey. destruct (ends_with target (r_node r)) eqn:Ew; [|reflexivity].
          apply ends_with_spec in Ew. destruct (Hnx r Hr Ey Ew). }
        cbn [nss_of bind]. eexists. split; [reflexivity|]. split; [exact Hd|]. split; [now apply Pan, R|]. exists c, target. split; [exact Hc|]. split; [exact Eb|]. split; [exact Ht|now left].
      + assert (St : sendable target) by (apply (di_target D DO n c target); [rewrite Hc; now left|exact Ht]).
        pose proof (zone_accepted m z' Hp Rz) as Az. pose proof (within_text target z' St Az Wz) as Tx.
        rewrite (filter_same _ _ (fun r => rtype_eqb (record_type r) RT_NS)).
        2:{ intros r Hr. destruct (rtype_eqb (record_type r) RT_NS) eqn:Ey; [|reflexivity]. apply rtype_eqb_eq in Ey. cbn [andb]. rewrite (zone_owner m z' r Rz Hr Ey). now apply ends_with_spec. }
        fold (of_type RT_NS (m_authorities m)). destruct (servers_of m z' Hp Rz La) as (l & rest2 & En & M & F & _ & An & _). rewrite En. cbn [bind].
        eexists. split; [reflexivity|]. split; [exact Hd|]. split; [now apply Pan, R|]. exists c, target. split; [exact Hc|]. split; [exact Eb|]. split; [exact Ht|]. right. exists z'. split; [exact Az|]. split; [exact Wz|].
        apply true_team; [exact F|rewrite M; apply Rz|apply Rz|exact An].
    - rewrite Haa. eexists. split; [reflexivity|]. now split.
    - destruct (extract_owned (m_answers m) t n) as (got & rest & E & P & Q & R). rewrite E. rewrite Ho in P. apply Permutation_sym, Permutation_nil in P. subst got.
      destruct (C53_extract_record rest RT_CNAME n) as [(c' & rest' & b & a & Ec & El & Nc & Yc & _)|(Ec & Hno)]; rewrite Ec; cbn [fst].
      { exfalso. assert (Hin : In c' (owned n RT_CNAME (m_answers m))) by (apply owned_in; split; [apply R; rewrite El; apply in_or_app; right; now left|now split]). rewrite Hoc in Hin. destruct Hin. }
      pose proof (zone_accepted m z' Hp Hr) as Az. pose proof (within_text n z' Hn Az Hw) as Tx. unfold extract_next_nss_for_subzone.
      rewrite (filter_same _ _ (fun r => rtype_eqb (record_type r) RT_NS)).
      2:{ intros r Hir. destruct (rtype_eqb (record_type r) RT_NS) eqn:Ey; [|reflexivity]. apply rtype_eqb_eq in Ey. cbn [andb]. rewrite (zone_owner m z' r Hr Hir Ey). apply andb_true_iff. split; [now apply ends_with_spec|].
          unfold is_nameserver_authority_a_subzone. now apply negb_true_iff, Nat.leb_gt. }
      fold (of_type RT_NS (m_authorities m)). destruct (servers_of m z' Hp Hr La) as (l & rest2 & En & M & F & G & An & K). rewrite En. cbn [bind].
      assert (Te : team z' l) by (apply true_team; [exact F|rewrite M; apply Hr|apply Hr|exact An]). rewrite drop_none.
      + cbn [bind]. pose proof (team_some z' l Te) as Ne. destruct l as [|s l]; [congruence|]. eexists. split; [reflexivity|]. exists z'. split; [exact Az|]. split; [exact Hw|]. split; [exact Hl|]. split; [exact Te|]. split; [exact F|]. split; [|now split]. rewrite M. apply Hr.
      + eapply Forall_impl; [|exact F]. intros s Hs. pose proof Hs as (_ & _ & h & _ & Eh & _). now apply (true_addrs z' s h Hs Eh).
      + exact K.
  Qed.
  Lemma read_worthless : forall m n t z, worthless m n t z -> exists e, read_response m n t z = Done (Err e).
  Proof.
    intros m n t z H. unfold worthless in H. unfold read_response. destruct (h_rcode (m_header m)); try now eexists.
    - destruct H as (H1 & H2 & H3). destruct (extract_owned (m_answers m) t n) as (got & rest & E & P & Q & R). rewrite E. rewrite H1 in P. apply Permutation_sym, Permutation_nil in P. subst got.
      destruct (C53_extract_record rest RT_CNAME n) as [(c' & rest' & b & a & Ec & El & Nc & Yc & _)|(Ec & Hno)]; rewrite Ec; cbn [fst].
      { exfalso. assert (Hin : In c' (owned n RT_CNAME (m_answers m))) by (apply owned_in; split; [apply R; rewrite El; apply in_or_app; right; now left|now split]). rewrite H2 in Hin. destruct Hin. }
      unfold extract_next_nss_for_subzone. rewrite filter_none; [now eexists|]. intros r Hr. destruct (rtype_eqb (record_type r) RT_NS) eqn:Ey; [|reflexivity]. apply rtype_eqb_eq in Ey. cbn [andb].
      destruct (is_nameserver_authoritative_over_node (r_node r) n) eqn:Ew; [|reflexivity]. apply ends_with_spec in Ew. specialize (H3 r Hr Ey Ew). unfold is_nameserver_authority_a_subzone. cbn [andb]. apply negb_false_iff, Nat.leb_le. exact H3.
    - rewrite H. now eexists.
  Qed.

  (** * Asking *)
  Lemma winv_later : forall w w', winv w -> w_cache w' = w_cache w -> w_n w <= w_n w' -> winv w'.
  Proof.
    intros w w' (H1 & H2 & H3) Ec Hn. split; [|split; [apply Forall_forall; intros; exact I|lia]]. rewrite Ec. eapply cache_later; [|exact H1].
    clear - EO Hn. induction Hn as [|m _ IH]; [lia|]. destruct (eo_forward _ _ EO m). lia.
  Qed.
  Lemma wise_later : forall w w', wise w -> w_cache w' = w_cache w -> w_n w <= w_n w' -> wise w'.
  Proof. intros w w' ((H1 & H3) & H2) Ec Hn. split; [split; [lia|now rewrite Ec]|now rewrite Ec]. Qed.
  (** A server of which an address is known. *)
  Definition reachable (z : name) (s : nsrv) : Prop := ns_zone s = z /\ (exists h, r_data (n_rec s) = D_NS h) /\ addresses_only s /\ n_addrs s <> [].
  Lemma ask_any : forall n t z s k w (P : result nsresp lerr -> Prop), sendable n -> usable_type t -> reachable z s -> 0 < retries ->
    (forall a, first_addr s a -> readable p env a n t /\ (forall i m, try_yields p env a n t i m -> exists x, read_response m n t z = Done x /\ P x) /\ ((exists i, forall j, j < retries -> try_fails p env a n t (i + j)) -> forall e, P (Err e))) ->
    exists x k' w', perform_request_with_trace p env n t s retries (k, w) = (Done x, (k', w')) /\ core k' = core k /\ w_cache w' = w_cache w /\ w_n w <= w_n w' /\ P x.
  Proof.
    intros n t z s k w P Hn Ht (Hz & (h & Eh) & Ho & Hne) Hr HP.
    assert (Fa : exists a, first_addr s a). { unfold first_addr. unfold addresses_only in Ho. destruct (n_addrs s) as [|r rs]; [congruence|]. inversion Ho as [|? ? Hr' _]; subst. destruct (record_type_A r Hr') as (a & Ea). exists a, r, rs. now split. }
    destruct Fa as (a & Fa). destruct (HP a Fa) as (G0 & G1 & G2).
    pose proof (still_request p env n t s retries (k, w)) as St.
    unfold perform_request_with_trace in *. unfold lbind at 1 in St. unfold lbind at 1.
    assert (E0 : exists k1, trace_ns_req n t s (k, w) = (Done tt, (k1, w))).
    { unfold trace_ns_req. unfold lbind at 1, lget. cbn [fst]. destruct (silent _); [eexists; reflexivity|]. unfold lbind, lexec, ns_node, ns_data. rewrite Eh. eexists. reflexivity. }
    destruct E0 as (k1 & E0). rewrite E0 in *.
    unfold lbind at 1, perform_request, lbind at 1 in St. unfold lbind at 1, perform_request, lbind at 1. rewrite lw_run in *. cbn [fst snd] in *.
    destruct (retries_are p env n t s a (eo_ids _ _ EO) Hn Ht Ho Fa G0 retries None w (or_introl Hr)) as [(j & m & L & F & Yd & E)|(F & e & E)]; rewrite E in *; cbn [fst snd] in *.
    - destruct (G1 _ m Yd) as (x & Ex & Px). unfold lbind, trace_raw, trace, lexec, lret in *. cbn [fst snd] in *. rewrite Hz, Ex in *. cbn [fst snd] in *. destruct x as [x|e].
      + eexists _, _, _. split; [reflexivity|]. split; [exact St|]. split; [reflexivity|]. split; [cbn; lia|exact Px].
      + eexists _, _, _. split; [reflexivity|]. split; [exact St|]. split; [reflexivity|]. split; [cbn; lia|exact Px].
    - unfold lbind, trace, lret in *. cbn [fst snd] in *. eexists _, _, _. split; [reflexivity|]. split; [exact St|]. split; [reflexivity|]. split; [cbn; lia|]. apply G2. now exists (w_n w).
  Qed.
  Lemma ask_good : forall n t z s k w, sendable n -> usable_type t -> within n z -> reachable z s -> 0 < retries -> (forall a, first_addr s a -> good a z) ->
    exists x k' w', perform_request_with_trace p env n t s retries (k, w) = (Done (Ok x), (k', w')) /\ core k' = core k /\ w_cache w' = w_cache w /\ w_n w <= w_n w' /\ good_reading n t z x.
  Proof.
    intros n t z s k w Hn Ht Hw Hre Hr Hg.
    destruct (ask_any n t z s k w (fun r => exists x, r = Ok x /\ good_reading n t z x) Hn Ht Hre Hr) as (r & k' & w' & E & A & B & C & (x & -> & G)).
    - intros a Fa. destruct (Hg a Fa n t Hn Ht Hw) as (G0 & G1 & G2). split; [exact G0|]. split.
      + intros i m Yd. destruct (G1 _ m Yd) as (Hon & La). pose proof Yd as (d & Y1 & Y2 & Y3).
        assert (Hp : Forall plain_record (all_records m)) by exact (co_net p env _ CO _ _ _ _ _ Y1 Y2 Y3).
        destruct (read_honest m n t z Hn Hp Hon La) as (x & Ex & Gx). exists (Ok x). split; [exact Ex|]. now exists x.
      + intros (i & F) e. exfalso. destruct (G2 i) as (j & m & L & Yd). exact (yields_not_fails _ _ _ _ _ _ _ Yd (F j L)).
    - exists x, k', w'. now repeat split.
  Qed.
  Lemma ask_useless : forall n t z s k w, sendable n -> usable_type t -> within n z -> reachable z s -> 0 < retries -> (forall a, first_addr s a -> useless a z) ->
    exists e k' w', perform_request_with_trace p env n t s retries (k, w) = (Done (Err e), (k', w')) /\ core k' = core k /\ w_cache w' = w_cache w /\ w_n w <= w_n w'.
  Proof.
    intros n t z s k w Hn Ht Hw Hre Hr Hg.
    destruct (ask_any n t z s k w (fun r => exists e, r = Err e) Hn Ht Hre Hr) as (r & k' & w' & E & A & B & C & (e & ->)).
    - intros a Fa. destruct (Hg a Fa n t Hn Ht Hw) as (G0 & G1). split; [exact G0|]. split; [|intros _ e; now exists e]. intros i m Yd. destruct (read_worthless m n t z (G1 i m Yd)) as (e & Ee). exists (Err e). split; [exact Ee|now exists e].
    - exists e, k', w'. now repeat split.
  Qed.

  Lemma save_servers : forall z l w, winv w -> wise w -> l <> [] -> Forall (true_server z) l -> same (map n_rec l) (D z RT_NS) -> Forall lasts_anchor l ->
    (depth Y z = 0 -> exists s h, In s l /\ r_data (n_rec s) = D_NS h /\ anchor Y z h /\ n_addrs s <> []) ->
    exists w1, save_nss env l w = (Done tt, w1) /\ winv w1 /\ wise w1 /\ w_n w <= w_n w1 /\ keeps w w1.
  Proof.
    intros z l w Hw Hws Hne Ht Hs Hl Han.
    assert (Gl : forall l w, winv w -> wise w -> Forall (true_server z) l -> Forall lasts_anchor l -> exists w1, save_glue env l w = (Done tt, w1) /\ winv w1 /\ wise w1 /\ w_n w <= w_n w1 /\
      keeps w w1 /\ forall s h, In s l -> r_data (n_rec s) = D_NS h -> n_addrs s <> [] -> anchors h -> cached w1 h).
    { clear - EO Quick HE XE CO DO. induction l as [|s l IH]; intros w Hw Hws Ht Hl; cbn [save_glue].
      - exists w. split; [reflexivity|]. split; [exact Hw|]. split; [exact Hws|]. split; [lia|]. split; [apply keeps_refl|intros s h []].
      - inversion Ht as [|? ? T1 T2]; subst. inversion Hl as [|? ? L1 L2]; subst. destruct T1 as (_ & _ & h & _ & Es & X1 & X2). destruct (n_addrs s) as [|a0 al] eqn:Ea.
        + destruct (IH w Hw Hws T2 L2) as (w2 & E2 & Hw2 & Hws2 & Hn2 & K2 & N2). exists w2. split; [exact E2|]. split; [exact Hw2|]. split; [exact Hws2|]. split; [exact Hn2|]. split; [exact K2|].
          intros s' h' [<-|Hs'] E' Na; [congruence|now apply (N2 s')].
        + destruct X2 as [C|X2]; [discriminate C|].
          assert (U : uniform h RT_A (a0 :: al)) by (split; [discriminate|]; eapply Forall_impl; [|exact X1]; cbn; tauto).
          destruct (save_true h RT_A (a0 :: al) w Hw Hws U X2) as (w1 & E & Hw1 & Hws1 & Hn1 & K1 & N1); [intros _ Ha; rewrite <- Ea; now apply (L1 h)|discriminate|].
          destruct (IH w1 Hw1 Hws1 T2 L2) as (w2 & E2 & Hw2 & Hws2 & Hn2 & K2 & N2).
          exists w2. split. { unfold wbind. rewrite E. exact E2. }
          split; [exact Hw2|]. split; [exact Hws2|]. split; [lia|]. split; [exact (keeps_trans _ _ _ K1 K2)|].
          intros s' h' [<-|Hs'] E' Na Ha; [assert (h' = h) by congruence; subst h'; destruct Ha as (z1 & Ha); apply (K2 z1 h Ha), N1; [reflexivity|now exists z1]|now apply (N2 s')]. }
    destruct (Gl l w Hw Hws Ht Hl) as (w1 & E1 & Hw1 & Hws1 & Hn1 & K1 & N1). unfold save_nss, wbind. rewrite E1.
    assert (U : uniform z RT_NS (map n_rec l)).
    { split; [destruct l; [congruence|discriminate]|]. apply Forall_map. eapply Forall_impl; [|exact Ht]. intros s (A & B & h & _ & Es & _). split; [exact A|]. split; [exact B|]. unfold record_type. now rewrite Es. }
    destruct (save_true z RT_NS (map n_rec l) w1 Hw1 Hws1 U Hs) as (w2 & E2 & Hw2 & Hws2 & Hn2 & K2 & _); [discriminate| |].
    - intros _ Hd. destruct (Han Hd) as (s & h & Hin & Es & Ha & Na). exists h. split; [|split; [exact Ha|apply (N1 s h Hin Es Na); now exists z]].
      rewrite Forall_forall in Ht. destruct (Ht s Hin) as (_ & _ & h' & Hs' & Es' & _). assert (h' = h) by congruence. now subst h'.
    - exists w2. split; [exact E2|]. split; [exact Hw2|]. split; [exact Hws2|]. split; [lia|]. exact (keeps_trans _ _ _ K1 K2).
  Qed.

  Lemma retries_pos : forall n, sendable n -> 0 < retries.
  Proof.
    intros n Hn. destruct (he_root_works _ _ _ _ _ _ _ _ HE) as (x & _ & G). destruct (G n RT_A Hn ltac:(unfold usable_type; tauto) (within_root n (sendable_accepted n Hn))) as (_ & _ & G2).
    destruct (G2 0) as (k & _ & L & _). lia.
  Qed.

  (** * Looking up a server's addresses *)
  Section Sub.
  Context (f d : nat).
  Notation sub := (perform p env f).
  Definition sub_ok : Prop := forall h zones conf w, 0 < d -> winv w -> wise w -> sendable h -> D h RT_A <> [] ->
    (forall z, D z RT_NS <> [] -> within h z -> depth Y z < d /\ forall z', In z' zones -> depth Y z < depth Y z') ->
    max_retries conf = retries -> max_ns conf = servers -> 0 < max_cname conf ->
    forall r l' w', sub (mkLookup h RT_A zones [] [] [] conf, w) = (r, (l', w')) ->
    late w' \/ exists x, r = Done (Ok x) /\ Forall (fun y => r_node y = h /\ record_type y = RT_A) (x_answers x) /\ same (x_answers x) (D h RT_A) /\ winv w' /\ wise w' /\ w_n w <= w_n w' /\ keeps w w'.
  Context (HS : sub_ok).

  Definition obtain (s : nsrv) : L (result nsrv lerr) :=
    let* addrs := lexec (ns_addrs s) in
    match addrs with
    | _ :: _ => lret (Ok s)
    | [] =>
        let* n := lexec (ns_node s) in
        let* r := resolve_ns_subquery sub n (ns_zone s) in
        lret match r with Ok a => Ok (mkNs (n_rec s) a) | Err e => Err (L_Sub e) end
    end.
  Definition ask_then (l : list nsrv) (err : option lerr) (s' : nsrv) : L asked :=
    let* node := lget l_node in
    let* kind := lget l_kind in
    let* conf := lget l_conf in
    let* r := perform_request_with_trace p env node kind s' (max_retries conf) in
    match r with
    | Err e => query_servers p env sub l (first_err err e)
    | Ok (NR_Delegation next) =>
        let* _ := lw (save_nss env next) in
        let* _ := lmod (set_next next) in
        lret (Asked_next next)
    | Ok x => lret (Asked_result (Ok x))
    end.
  Lemma servers_parts : forall s l err st, query_servers p env sub (s :: l) err st =
    lbind (obtain s) (fun r => match r with Err e => query_servers p env sub l (first_err err e) | Ok s' => ask_then l err s' end) st.
  Proof.
    intros s l err st. unfold obtain. cbn [query_servers]. unfold lbind at 1. unfold lbind at 6. unfold lbind at 6. unfold lexec at 1 3. destruct (ns_addrs s) as [[|a al]|k|]; reflexivity.
  Qed.
  (** How far the names of the lookup's zones, and those of the lookups it is part of, are
      from each other. *)
  Definition placed (k : lookup) : Prop := forall z, D z RT_NS <> [] -> within (l_node k) z -> depth Y z <= d /\ forall z', In z' (l_zones k) -> depth Y z < depth Y z'.

  Lemma obtain_true : forall z s k w, sendable (l_node k) -> within (l_node k) z -> member z s -> n_addrs s <> [] \/ 0 < depth Y z -> placed k -> max_retries (l_conf k) = retries -> max_ns (l_conf k) = servers -> 0 < max_cname (l_conf k) -> winv w -> wise w ->
    exists r k' w', obtain s (k, w) = (r, (k', w')) /\ l_kind k' = l_kind k /\ (late w' \/ exists s', r = Done (Ok s') /\ core2 k' = core2 k /\ winv w' /\ wise w' /\ w_n w <= w_n w' /\ keeps w w' /\ reachable z s' /\
      (good_one z s -> forall a, first_addr s' a -> good a z) /\ (poor_one z s -> forall a, first_addr s' a -> useless a z)).
  Proof.
    intros z s k w Hn Hw (Hz & (h & Eh & Hh) & Ho & _) Hd Hpl Hr Hms Hmc Hwi Hws. unfold obtain. unfold lbind at 1, lexec at 1. destruct (n_addrs s) as [|a0 al] eqn:Ea.
    2:{ destruct (first_address s Ho) as (a & al' & E & _); [congruence|]. rewrite E. eexists _, _, _. split; [reflexivity|]. split; [reflexivity|]. right. exists s. split; [reflexivity|]. split; [reflexivity|]. split; [exact Hwi|]. split; [exact Hws|]. split; [lia|].
        split; [apply keeps_refl|]. split; [split; [exact Hz|]; split; [now exists h|]; split; [exact Ho|congruence]|]. split; intros (G & _); exact G. }
    assert (E : ns_addrs s = Done []) by (unfold ns_addrs; now rewrite Ea). rewrite E. destruct Hd as [C|Hd]; [congruence|]. specialize (Hh eq_refl).
    destruct (he_names _ _ _ _ _ _ _ _ HE z h Hd Hh) as (Sh & Nh & Zh).
    assert (Nz : D z RT_NS <> []) by (destruct Hh as (r & Hr' & _); intros C; rewrite C in Hr'; destruct Hr'). destruct (Hpl z Nz Hw) as (Le & Ab).
    unfold lbind at 1, lexec at 1, ns_node, ns_data. rewrite Eh. unfold lbind at 1, resolve_ns_subquery. unfold lbind at 1, lget at 1. cbn [fst snd].
    assert (Ndz : detect_zones_loop (ns_zone s) (l_zones k) = false).
    { destruct (detect_zones_loop (ns_zone s) (l_zones k)) eqn:X; [|reflexivity]. exfalso. unfold detect_zones_loop in X. apply existsb_exists in X as (z' & Hz' & Ez). apply bytes_eqb_eq in Ez. rewrite Hz in Ez. subst z'. specialize (Ab z Hz'). lia. }
    rewrite Ndz. rewrite Hz. cbv beta zeta. cbn [fst snd].
    destruct (sub (mkLookup h RT_A (l_zones k ++ [z]) [] [] [] (no_follow_conf (l_conf k)), w)) as [r [l' w']] eqn:Es.
    assert (G : late w' \/ exists x, r = Done (Ok x) /\ Forall (fun y => r_node y = h /\ record_type y = RT_A) (x_answers x) /\ same (x_answers x) (D h RT_A) /\ winv w' /\ wise w' /\ w_n w <= w_n w' /\ keeps w w').
    { apply (HS h (l_zones k ++ [z]) (no_follow_conf (l_conf k)) w ltac:(lia) Hwi Hws Sh Nh) with (l' := l') (r := r); [|exact Hr|exact Hms|exact Hmc|exact Es].
      intros z1 Hz1 Hw1. specialize (Zh z1 Hz1 Hw1). split; [lia|]. intros z' Hz'. apply in_app_or in Hz' as [Hz'|[<-|[]]]; [specialize (Ab z' Hz'); lia|exact Zh]. }
    clear Es. destruct r as [r|q|].
    - unfold lbind, add_sub_trace, lmod, lret. cbn [fst snd]. eexists _, _, _. split; [reflexivity|]. split; [reflexivity|]. destruct G as [L|(x & Er & Fx & Sx & G3 & G4 & G5 & G6)]; [left; exact L|right]. injection Er as ->.
      destruct (extract_owned (x_answers x) RT_A h) as (got & rest & Ex & P & _).
      assert (Ow : owned h RT_A (x_answers x) = x_answers x). { apply filter_all. intros y Hy. rewrite Forall_forall in Fx. now apply owned_test, Fx. }
      rewrite Ow in P. rewrite Ex. cbn [fst]. assert (Sg : same got (D h RT_A)) by (eapply same_trans; [apply same_perm; exact P|exact Sx]).
      eexists. split; [reflexivity|]. split; [reflexivity|]. split; [exact G3|]. split; [exact G4|]. split; [exact G5|]. split; [exact G6|].
      assert (Ad : forall a, first_addr (mkNs (n_rec s) got) a -> exists g, In g (D h RT_A) /\ r_data g = D_A a).
      { intros a (g & gs & Eg & Eg2). cbn [n_addrs] in Eg. destruct (same_in _ _ g Sg) as (g' & Hg & Eb); [rewrite Eg; now left|]. exists g'. split; [exact Hg|]. rewrite (bare_data _ _ Eb). exact Eg2. }
      split; [split; [exact Hz|]; split; [now exists h|]; split|].
      + apply Forall_forall. cbn [n_addrs]. intros y Hy. apply (Permutation_in y P) in Hy. rewrite Forall_forall in Fx. now apply Fx.
      + cbn [n_addrs]. intros ->. apply same_sym, same_nil in Sg. contradiction.
      + split; intros (_ & W) a Fa; destruct (Ad a Fa) as (g & Hg & Eg); exact (W Ea h Eh g a Hg Eg).
    - eexists _, _, _. split; [reflexivity|]. split; [reflexivity|]. destruct G as [L|(x & C & _)]; [now left|discriminate C].
    - eexists _, _, _. split; [reflexivity|]. split; [reflexivity|]. destruct G as [L|(x & C & _)]; [now left|discriminate C].
  Qed.

  (** Once time is up, it stays so. *)
  Lemma late_get : forall w k, late w -> late (snd (access env (fun e => O_get (K := rkey) k (ev_now' e)) w)).
  Proof. intros w k. apply late_more. rewrite access_n. lia. Qed.
  Lemma late_set : forall w k ttl rs, snd k <> RT_CNAME \/ True -> late w -> late (snd (access env (fun e => O_set (K := rkey) k ttl rs (ev_now e) (ev_now' e)) w)).
  Proof. intros w k ttl rs _. apply late_more. rewrite access_n. lia. Qed.
  Lemma late_send : forall w a x, late w -> late (mkWorld (w_cache w) (S (w_n w)) ((a, x) :: w_sent w)).
  Proof. intros w a x. apply late_more. cbn. lia. Qed.
  Lemma late_sub : forall l w, l_kind l = RT_A -> no_follow (l_conf l) = true -> late w -> late (snd (snd (sub (l, w)))).
  Proof. intros l w _ _ L. apply (perform_stays p env late True late_get late_set late_send f (l, w) (or_intror I) L). Qed.
  Lemma late_servers : forall l err st, late (snd st) -> late (snd (snd (query_servers p env sub l err st))).
  Proof.
    intros l err st L. exact (proj1 (proj1 (stays_servers p env late True late_set late_send (l_kind (fst st)) (no_follow (l_conf (fst st))) sub late_sub l err st (conj L (conj eq_refl eq_refl))))).
  Qed.
  Lemma late_zones : forall fuel st, late (snd st) -> late (snd (snd (query_zones p env sub fuel st))).
  Proof. intros fuel st L. exact (zones_stay p env late True late_get late_set late_send fuel f st L). Qed.
  Lemma late_ask : forall l err s st, late (snd st) -> late (snd (snd (ask_then l err s st))).
  Proof.
    intros l err s st L.
    assert (G : stays late (l_kind (fst st)) (no_follow (l_conf (fst st))) (ask_then l err s) (fun _ => True)).
    { unfold ask_then. eapply stays_bind; [apply stays_get|]. intros node _. eapply stays_bind; [apply stays_kind|]. intros kind ->. eapply stays_bind; [apply stays_get|]. intros conf _.
      eapply stays_bind; [exact (stays_request p env late late_send _ _ _ _ _ _)|]. intros [[soa|ans add|c next|next]|e] Hr; try (apply stays_ret; exact I).
      - eapply stays_bind; [apply stays_lw; exact (keepsW_nss env late True late_set _ Hr)|]. intros _ _. eapply stays_bind; [apply stays_mod; intros ?; split; reflexivity|]. intros _ _. apply stays_ret. exact I.
      - intros st' Hst'. split; [exact (proj1 (stays_servers p env late True late_set late_send _ _ sub late_sub l _ st' Hst'))|]. destruct (query_servers _ _ _ _ _ _) as [[x|q|] st2]; exact I. }
    exact (proj1 (proj1 (G st (conj L (conj eq_refl eq_refl))))).
  Qed.

  (** * The servers of a zone *)
  Definition final_reading (n : name) (t : rtype) (x : nsresp) : Prop :=
    match x with NR_Delegation _ => False | _ => good_reading n t [] x end.
  Definition asked_well (z : name) (k k' : lookup) (r : exec asked) : Prop :=
    match r with
    | Done (Asked_result (Ok x)) => final_reading (l_node k) (l_kind k) x
    | Done (Asked_next next) => l_next k' = next /\ exists z', accepted z' /\ within (l_node k) z' /\ length z < length z' /\ team z' next
    | _ => False
    end.
  Definition capable (k : lookup) : Prop := max_retries (l_conf k) = retries /\ max_ns (l_conf k) = servers /\ 0 < max_cname (l_conf k).
  Lemma core2_eqs : forall k' k, core2 k' = core2 k -> l_node k' = l_node k /\ l_kind k' = l_kind k /\ l_zones k' = l_zones k /\ l_cnames k' = l_cnames k /\ l_conf k' = l_conf k.
  Proof. intros k' k C. unfold core2 in C. injection C as E1 E2 E3 E4 E5. now repeat split. Qed.
  Lemma servers_true : forall z pre s post err k w, sendable (l_node k) -> usable_type (l_kind k) -> within (l_node k) z -> capable k -> placed k ->
    Forall (fun s => member z s /\ poor_one z s /\ (n_addrs s <> [] \/ 0 < depth Y z)) pre -> member z s -> good_one z s -> n_addrs s <> [] \/ 0 < depth Y z -> winv w -> wise w ->
    exists r k' w', query_servers p env sub (pre ++ s :: post) err (k, w) = (r, (k', w')) /\
      (late w' \/ core2 k' = core2 k /\ winv w' /\ wise w' /\ w_n w <= w_n w' /\ keeps w w' /\ asked_well z k k' r).
  Proof.
    intros z. induction pre as [|b pre IH]; intros s post err k w Hn Ht Hw Hcap Hpl Hpre Hm Hg Hd Hwi Hws; cbn [app]; rewrite servers_parts; pose proof Hcap as (Hr & Hms & Hmc); pose proof (retries_pos _ Hn) as Rp.
    - destruct (obtain_true z s k w Hn Hw Hm Hd Hpl Hr Hms Hmc Hwi Hws) as (r & k1 & w1 & E & Ek & G). unfold lbind at 1. rewrite E. destruct G as [L|(s' & -> & C & Hwi1 & Hws1 & Hn1 & K1 & Re & Gd & _)].
      { destruct r as [[s'|e]|q|].
        - destruct (ask_then post err s' (k1, w1)) as [r2 [k2 w2]] eqn:E2. eexists _, _, _. split; [reflexivity|]. left. pose proof (late_ask post err s' (k1, w1) L) as L2. rewrite E2 in L2. exact L2.
        - destruct (query_servers p env sub post (first_err err e) (k1, w1)) as [r2 [k2 w2]] eqn:E2. eexists _, _, _. split; [reflexivity|]. left. pose proof (late_servers post (first_err err e) (k1, w1) L) as L2. rewrite E2 in L2. exact L2.
        - eexists _, _, _. split; [reflexivity|]. now left.
        - eexists _, _, _. split; [reflexivity|]. now left. }
      destruct (core2_eqs _ _ C) as (E1 & E2 & E3 & E4 & E5). unfold ask_then. unfold lbind at 1 2 3, lget. cbn [fst]. unfold lbind at 1. rewrite E1, E2, E5, Hr.
      destruct (ask_good (l_node k) (l_kind k) z s' k1 w1 Hn Ht Hw Re Rp (Gd Hg)) as (x & k2 & w2 & Ex & C2 & Ec & Hn2 & Gx). rewrite Ex.
      pose proof (winv_later w1 w2 Hwi1 Ec Hn2) as Hwi2. pose proof (wise_later w1 w2 Hws1 Ec Hn2) as Hws2. apply core_core2 in C2. assert (C2' : core2 k2 = core2 k) by congruence.
      assert (K2 : keeps w w2) by (rewrite Ec; exact K1).
      destruct x as [soa|ans add|c nx|nx].
      + unfold lret. eexists _, _, _. split; [reflexivity|]. right. split; [exact C2'|]. split; [exact Hwi2|]. split; [exact Hws2|]. split; [lia|]. split; [exact K2|exact Gx].
      + unfold lret. eexists _, _, _. split; [reflexivity|]. right. split; [exact C2'|]. split; [exact Hwi2|]. split; [exact Hws2|]. split; [lia|]. split; [exact K2|exact Gx].
      + unfold lret. eexists _, _, _. split; [reflexivity|]. right. split; [exact C2'|]. split; [exact Hwi2|]. split; [exact Hws2|]. split; [lia|]. split; [exact K2|exact Gx].
      + destruct Gx as (z' & A1 & A2 & A3 & A4 & A5 & A6 & A7 & A8). destruct (save_servers z' nx w2 Hwi2 Hws2 (team_some z' nx A4) A5 A6 A7 A8) as (w3 & E3' & Hwi3 & Hws3 & Hn3 & K3).
        unfold lbind, lw, lmod, lret. cbn [fst snd]. rewrite E3'. cbn [fst snd]. eexists _, _, _. split; [reflexivity|]. right. split; [exact C2'|]. split; [exact Hwi3|]. split; [exact Hws3|]. split; [lia|]. split; [exact (keeps_trans _ _ _ K2 K3)|].
        split; [reflexivity|]. exists z'. split; [exact A1|]. split; [exact A2|]. split; [exact A3|exact A4].
    - inversion Hpre as [|? ? (Mb & Pb & Db) Hpre']; subst.
      destruct (obtain_true z b k w Hn Hw Mb Db Hpl Hr Hms Hmc Hwi Hws) as (r & k1 & w1 & E & Ek & G). unfold lbind at 1. rewrite E. destruct G as [L|(s' & -> & C & Hwi1 & Hws1 & Hn1 & K1 & Re & _ & Gd)].
      { destruct r as [[s'|e]|q|].
        - destruct (ask_then (pre ++ s :: post) err s' (k1, w1)) as [r2 [k2 w2]] eqn:E2. eexists _, _, _. split; [reflexivity|]. left. pose proof (late_ask (pre ++ s :: post) err s' (k1, w1) L) as L2. rewrite E2 in L2. exact L2.
        - destruct (query_servers p env sub (pre ++ s :: post) (first_err err e) (k1, w1)) as [r2 [k2 w2]] eqn:E2. eexists _, _, _. split; [reflexivity|]. left. pose proof (late_servers (pre ++ s :: post) (first_err err e) (k1, w1) L) as L2. rewrite E2 in L2. exact L2.
        - eexists _, _, _. split; [reflexivity|]. now left.
        - eexists _, _, _. split; [reflexivity|]. now left. }
      destruct (core2_eqs _ _ C) as (E1 & E2 & E3 & E4 & E5). unfold ask_then. unfold lbind at 1 2 3, lget. cbn [fst]. unfold lbind at 1. rewrite E1, E2, E5, Hr.
      destruct (ask_useless (l_node k) (l_kind k) z s' k1 w1 Hn Ht Hw Re Rp (Gd Pb)) as (x & k2 & w2 & Ex & C2 & Ec & Hn2). rewrite Ex.
      pose proof (winv_later w1 w2 Hwi1 Ec Hn2) as Hwi2. pose proof (wise_later w1 w2 Hws1 Ec Hn2) as Hws2. apply core_core2 in C2. assert (C2' : core2 k2 = core2 k) by congruence.
      assert (K2 : keeps w w2) by (rewrite Ec; exact K1). destruct (core2_eqs _ _ C2') as (I1 & I2 & I3 & I4 & I5).
      destruct (IH s post (first_err err x) k2 w2) as (r3 & k3 & w3 & E3' & G3); rewrite ?I1, ?I2; try assumption.
      { unfold capable. now rewrite I5. }
      { intros z1 Hz1. unfold placed in Hpl. rewrite I1, I3. now apply Hpl. }
      exists r3, k3, w3. split; [exact E3'|]. destruct G3 as [L|(C3 & W1 & W2 & W3 & W4 & W5)]; [now left|right]. split; [congruence|]. split; [exact W1|]. split; [exact W2|]. split; [lia|]. split; [exact (keeps_trans _ _ _ K2 W4)|].
      unfold asked_well in *. rewrite I1, I2 in W5. exact W5.
  Qed.

  (** Among the servers chosen, some server works, and those before it can be asked. *)
  Lemma some_good : forall z bad l, (forall s, In s l -> In (data_of s) bad \/ good_one z s) -> (exists s, In s l /\ good_one z s) \/ forall s, In s l -> In (data_of s) bad.
  Proof.
    intros z bad. induction l as [|s l IH]; intros H; [right; intros s []|]. destruct (H s (or_introl eq_refl)) as [B|G]; [|left; exists s; split; [now left|exact G]].
    destruct IH as [(s' & Hs & G)|A]; [intros s' Hs; apply H; now right|left; exists s'; split; [now right|exact G]|right; intros s' [<-|Hs]; auto].
  Qed.
  Lemma chosen_good : forall z bad l, NoDup (map data_of l) -> length bad < servers -> (forall s, In s l -> In (data_of s) bad \/ good_one z s) -> (exists s, In s l /\ good_one z s) -> exists s, In s (firstn servers l) /\ good_one z s.
  Proof.
    intros z bad l Hd Lb Hb (s & Hs & Hg). destruct (le_lt_dec (length l) servers) as [Le|Lt]; [exists s; rewrite firstn_all2 by exact Le; now split|].
    assert (Sub : forall x, In x (firstn servers l) -> In x l) by (intros x Hx; rewrite <- (firstn_skipn servers l); apply in_or_app; now left).
    destruct (some_good z bad (firstn servers l)) as [G|A]; [intros x Hx; now apply Hb, Sub|exact G|]. exfalso.
    assert (Nd : NoDup (map data_of (firstn servers l))). { rewrite <- (firstn_skipn servers l), map_app in Hd. clear - Hd. revert Hd. generalize (map data_of (skipn servers l)). generalize (map data_of (firstn servers l)). intros a b. induction a as [|x a IH]; intros H; [constructor|]. cbn [app] in H. inversion H as [|? ? H1 H2]; subst. constructor; [|now apply IH]. intros C. apply H1, in_or_app. now left. }
    assert (Len : incl (map data_of (firstn servers l)) bad -> length (map data_of (firstn servers l)) <= length bad) by (intros; now apply NoDup_incl_length). rewrite map_length, firstn_length, Nat.min_l in Len by lia. assert (servers <= length bad); [|lia]. apply Len. intros x Hx. apply in_map_iff in Hx as (y & <- & Hy). now apply A.
  Qed.
  Lemma first_good : forall z l, Forall (fun s => good_one z s \/ poor_one z s) l -> (exists s, In s l /\ good_one z s) -> exists pre s post, l = pre ++ s :: post /\ Forall (poor_one z) pre /\ good_one z s.
  Proof.
    intros z. induction l as [|x l IH]; intros Hl (s & Hs & Hg); [destruct Hs|]. inversion Hl as [|? ? H1 H2]; subst. destruct H1 as [G|B]; [exists [], x, l; split; [reflexivity|]; now split|]. destruct Hs as [->|Hs].
    - exists [], s, l. split; [reflexivity|]. now split.
    - destruct (IH H2) as (pre & s' & post & -> & Hp & Hg'); [now exists s|]. exists (x :: pre), s', post. split; [reflexivity|]. split; [now constructor|exact Hg'].
  Qed.
  Lemma pick : forall z l, team z l -> let sorted := filter addressed l ++ filter (fun s => negb (addressed s)) l in
    exists pre s post, firstn servers sorted = pre ++ s :: post /\ Forall (fun s => member z s /\ poor_one z s /\ (n_addrs s <> [] \/ 0 < depth Y z)) pre /\ member z s /\ good_one z s /\ (n_addrs s <> [] \/ 0 < depth Y z).
  Proof.
    intros z l (Hm & Hd & (bad & Lb & Hb) & s & Hs & Hg & Ha) sorted. rewrite Forall_forall in Hm.
    assert (Ps : Permutation sorted l).
    { clear. unfold sorted. induction l as [|x l IH]; [constructor|]. cbn [filter]. destruct (addressed x); cbn [negb app]; [now constructor|]. eapply perm_trans; [apply Permutation_sym, Permutation_middle|]. now constructor. }
    assert (Is : forall x, In x sorted -> In x l) by (intros x Hx; now apply (Permutation_in x Ps)).
    assert (Ds : NoDup (map data_of sorted)) by (eapply Permutation_NoDup; [apply Permutation_map, Permutation_sym; exact Ps|exact Hd]).
    destruct Ha as [Ha|Ha].
    - set (A := filter addressed l). assert (IA : forall x, In x A -> In x l /\ n_addrs x <> []) by (intros x Hx; apply filter_In in Hx as (X1 & X2); split; [exact X1|]; unfold addressed in X2; destruct (n_addrs x); [discriminate X2|discriminate]).
      assert (DA : NoDup (map data_of A)). { unfold sorted in Ds. fold A in Ds. rewrite map_app in Ds. clear - Ds. revert Ds. generalize (map data_of A) (map data_of (filter (fun s => negb (addressed s)) l)). intros a b. induction a as [|x a IH]; intros H; [constructor|]. cbn [app] in H. inversion H as [|? ? H1 H2]; subst. constructor; [|now apply IH]. intros C. apply H1, in_or_app. now left. }
      destruct (chosen_good z bad A DA Lb) as (x & Hx & Gx); [intros x Hx; now apply Hb, IA|exists s; split; [apply filter_In; split; [exact Hs|]; unfold addressed; destruct (n_addrs s); [congruence|reflexivity]|exact Hg]|].
      assert (IF : forall x, In x (firstn servers A) -> In x A) by (intros y Hy; rewrite <- (firstn_skipn servers A); apply in_or_app; now left).
      destruct (first_good z (firstn servers A)) as (pre & g & post & E & Fp & Gg); [apply Forall_forall; intros y Hy; apply Hm, IA, IF, Hy|now exists x|].
      assert (In1 : forall y, In y (pre ++ g :: post) -> member z y /\ n_addrs y <> []) by (intros y Hy; rewrite <- E in Hy; apply IF, IA in Hy as (Y1 & Y2); split; [now apply Hm|exact Y2]).
      exists pre, g, (post ++ firstn (servers - length A) (filter (fun s => negb (addressed s)) l)). split; [unfold sorted; fold A; rewrite firstn_app, E, <- app_assoc; reflexivity|]. split; [|split; [|split; [exact Gg|left]]].
      + apply Forall_forall. intros y Hy. destruct (In1 y) as (Y1 & Y2); [apply in_or_app; now left|]. rewrite Forall_forall in Fp. split; [exact Y1|]. split; [now apply Fp|now left].
      + apply In1, in_or_app. right. now left.
      + apply In1, in_or_app. right. now left.
    - destruct (chosen_good z bad sorted Ds Lb) as (x & Hx & Gx); [intros x Hx; now apply Hb, Is|exists s; split; [now apply (Permutation_in s (Permutation_sym Ps))|exact Hg]|].
      assert (IF : forall x, In x (firstn servers sorted) -> In x l) by (intros y Hy; apply Is; rewrite <- (firstn_skipn servers sorted); apply in_or_app; now left).
      destruct (first_good z (firstn servers sorted)) as (pre & g & post & E & Fp & Gg); [apply Forall_forall; intros y Hy; apply Hm, IF, Hy|now exists x|].
      assert (In1 : forall y, In y (pre ++ g :: post) -> member z y) by (intros y Hy; rewrite <- E in Hy; now apply Hm, IF).
      exists pre, g, post. split; [exact E|]. split; [|split; [|split; [exact Gg|now right]]].
      + apply Forall_forall. intros y Hy. rewrite Forall_forall in Fp. split; [apply In1, in_or_app; now left|]. split; [now apply Fp|now right].
      + apply In1, in_or_app. right. now left.
  Qed.

  Lemma zones_true : forall fuel z k w, sendable (l_node k) -> usable_type (l_kind k) -> accepted z -> within (l_node k) z -> team z (l_next k) -> capable k -> placed k -> winv w -> wise w ->
    length (l_node k) < fuel + length z ->
    exists r k' w', query_zones p env sub fuel (k, w) = (r, (k', w')) /\ (late w' \/ exists x, r = Done (Ok x) /\ core2 k' = core2 k /\ winv w' /\ wise w' /\ w_n w <= w_n w' /\ keeps w w' /\ final_reading (l_node k) (l_kind k) x).
  Proof.
    induction fuel as [|fuel IH]; intros z k w Hn Ht Hz Hw Ht' Hcap Hpl Hwi Hws Hf.
    { exfalso. destruct (within_text (l_node k) z Hn Hz Hw) as (pre & E). rewrite E, app_length in Hf. lia. }
    cbn [query_zones]. unfold lbind at 1, lget at 1. cbn [fst]. pose proof (team_some z _ Ht') as Ne. destruct (l_next k) as [|s nx] eqn:En; [congruence|]. unfold lbind at 1, lmod at 1. cbn [fst snd].
    assert (Ho : Forall addresses_only (s :: nx)) by (destruct Ht' as (Tm & _); eapply Forall_impl; [|exact Tm]; intros x (_ & _ & X & _); exact X).
    unfold lbind at 1, lexec at 1. rewrite (C54_servers_with_addresses_first _ Ho). unfold lbind at 1, lget at 1. cbn [fst set_next l_conf].
    destruct (pick z (s :: nx) Ht') as (pre & g & post & E & Fp & Mg & Gg & Dg). rewrite (proj1 (proj2 Hcap)), E. unfold lbind at 1.
    destruct (servers_true z pre g post None (set_next [] k) w Hn Ht Hw Hcap Hpl Fp Mg Gg Dg Hwi Hws) as (r & k1 & w1 & E1 & R). rewrite E1. destruct R as [L|(C & Hwi1 & Hws1 & Hn1 & K1 & R)].
    - destruct r as [[r|next]|q|]; try (unfold lret; eexists _, _, _; split; [reflexivity|now left]).
      destruct (query_zones p env sub fuel (k1, w1)) as [r2 [k2 w2]] eqn:E2. eexists _, _, _. split; [reflexivity|]. left. pose proof (late_zones fuel (k1, w1) L) as L2. rewrite E2 in L2. exact L2.
    - destruct r as [[[x|e]|next]|q|]; try destruct R.
      + unfold lret. eexists _, _, _. split; [reflexivity|]. right. exists x. split; [reflexivity|]. split; [exact C|]. split; [exact Hwi1|]. split; [exact Hws1|]. split; [exact Hn1|]. split; [exact K1|exact R].
      + match goal with X : l_next k1 = next |- _ => rename X into Nx end. match goal with X : exists z', _ |- _ => destruct X as (z' & A1 & A2 & A3 & A4) end. assert (C' : core2 k1 = core2 k) by exact C. destruct (core2_eqs _ _ C') as (I1 & I2 & I3 & I4 & I5).
        destruct (IH z' k1 w1) as (r & k2 & w2 & E' & G); rewrite ?I1, ?I2, ?Nx; try assumption; try (cbn [set_next l_node] in *; lia).
        { unfold capable. now rewrite I5. }
        { intros z1 Hz1. unfold placed in Hpl. rewrite I1, I3. now apply Hpl. }
        exists r, k2, w2. split; [exact E'|]. destruct G as [L|(x & -> & C2 & W1 & W2 & W3 & W4 & W5)]; [now left|right]. exists x. split; [reflexivity|]. split; [rewrite C2; exact C|]. split; [exact W1|]. split; [exact W2|]. split; [lia|]. split; [exact (keeps_trans _ _ _ K1 W4)|].
        rewrite I1, I2 in W5. exact W5.
  Qed.
  (** * Following aliases *)
  Lemma follow_step : forall sub fuel n c next t l w w1, r_data c = D_CNAME t -> detect_cname_loops t (l_cnames l) = false -> no_follow (l_conf l) = false -> save_records env [c] w = (Done tt, w1) ->
    after_alias p env sub fuel n c next (l, w) = perform_inner p env sub fuel n (set_node t (set_next next (set_cnames (l_cnames l ++ [c]) l)), w1).
  Proof.
    intros sub fuel n c next t l w w1 Ec Ed En Es. unfold after_alias. unfold lbind at 1. unfold handle_cname. unfold lbind at 1, lexec, cname_data. rewrite Ec. unfold lbind at 1, lget. cbn [fst snd].
    rewrite Ed. unfold lbind at 1, lmod. cbn [fst snd]. unfold lbind at 1, lget. cbn [fst snd set_cnames l_conf]. rewrite En. unfold lbind at 1, lw. cbn [fst snd]. rewrite Es. reflexivity.
  Qed.

  Definition no_trap (kind : rtype) (rs : list record) : Prop := kind = RT_NS -> forall r, In r rs -> 0 < depth Y (r_node r).
  Definition good_end (w : world) (kind : rtype) (before cs rs : list record) (R : exec (result response lerr) * (lookup * world)) : Prop :=
    late (snd (snd R)) \/ exists x cs' rs', fst R = Done (Ok x) /\ x_answers x = before ++ cs' ++ rs' /\ map bare cs' = map bare cs /\ same rs' rs /\ (x_none x = true <-> rs = []) /\
      winv (snd (snd R)) /\ (no_trap kind rs -> wise (snd (snd R)) /\ keeps w (snd (snd R))).
  Definition next_ok (n : name) (next : list nsrv) : Prop := next = [] \/ exists z, accepted z /\ within n z /\ team z next.

  (** Without others, what is not found in the cache is not there the next time. *)
  Lemma search_miss : forall n k w w1, winv w -> search_records env n k w = (Done [], w1) -> c_data (w_cache w1) (n, k) = None.
  Proof.
    intros n k w w1 Hw E. destruct (search_done p env EO Quick n k w Hw) as (rs & w1' & E' & Hw1 & _). rewrite E in E'. injection E' as <- <-.
    unfold search_records, wbind, reading, access, cache_run in E. destruct (c_poisoned _); [discriminate E|]. unfold cache_get in E. set (c := ev_others (env (w_n w)) (w_cache w)) in *. destruct (c_data c (n, k)) as [[e v]|] eqn:Ek.
    - destruct (is_expired e _); [injection E as <-; cbn [w_cache c_data]; unfold upd; now rewrite (proj2 (rkey_eqb_eq _ _) eq_refl)|].
      destruct v as [|r0 v]; [|destruct (_ && _) in E; [|discriminate E]; destruct (_ <? _)%N in E; discriminate E].
      exfalso. injection E as <-. destruct Hw1 as ((_ & X) & _). destruct (X _ _ _ Ek) as (Z & _). now apply Z.
    - injection E as <-. exact Ek.
  Qed.
  Lemma search_none : forall n k w rs w1, c_data (ev_others (env (w_n w)) (w_cache w)) (n, k) = None -> search_records env n k w = (Done rs, w1) -> rs = [].
  Proof.
    intros n k w rs w1 Hc E. unfold search_records, wbind, reading, access, cache_run in E. destruct (c_poisoned _); [discriminate E|]. unfold cache_get in E. rewrite Hc in E. now injection E as <- _.
  Qed.

  (** What follows the questions to servers. *)
  Definition after_reading (fuel n : nat) (r : result nsresp lerr) : L (result response lerr) :=
    match r with
    | Err e => lret (Err e)
    | Ok (NR_Answer answers additionals) =>
        let* _ := lexec (debug_assert p (match answers with [] => false | _ => true end) (Done tt)) in
        let* _ := lw (save_records env answers) in
        let* prev := lget l_cnames in
        let* _ := lmod (set_cnames []) in
        lret (Ok (mkResp (prev ++ answers) [] additionals false))
    | Ok (NR_Alias c next) => after_alias p env sub fuel n c next
    | Ok (NR_NoDomain soa) =>
        let* prev := lget l_cnames in
        let* _ := lmod (set_cnames []) in
        lret (Ok (mkResp prev match soa with Some r => [r] | None => [] end [] true))
    | Ok (NR_Delegation _) => lexec (Panic PUnreachable)
    end.
  Lemma after_zones : forall fuel n l w, l_next l <> [] -> after_search2 p env sub fuel n [] (l, w) = lbind (query_zones p env sub fuel) (after_reading fuel n) (l, w).
  Proof.
    intros fuel n l w Hn. cbn [after_search2]. unfold lbind at 1, lget at 1. cbn [fst]. destruct (l_next l) as [|s nx]; [congruence|]. unfold lbind at 1, lret at 1. reflexivity.
  Qed.
  Lemma late_reading : forall fuel n r st, late (snd st) -> late (snd (snd (after_reading fuel n r st))).
  Proof.
    intros fuel n r st L.
    assert (G : stays late (l_kind (fst st)) (no_follow (l_conf (fst st))) (after_reading fuel n r) (fun _ => True)).
    { destruct r as [[soa|ans add|c next|next]|e]; cbn [after_reading].
      - exact (stays_end late _ _ _ _).
      - eapply (stays_bind _ _ _ _ _ _ _ (fun _ => True)); [now apply stays_exec|]. intros _ _. eapply stays_bind; [|intros _ _; exact (stays_end late _ _ _ _)]. apply stays_lw. refine (keepsW_save env late True late_set _ _). apply Forall_forall. intros y _. now right.
      - refine (stays_alias p env late True late_set _ _ sub (or_intror I) fuel n _ c next). exact (stays_inner p env late True late_get late_set late_send _ _ sub late_sub (or_intror I) fuel n).
      - now apply stays_exec.
      - now apply stays_ret. }
    exact (proj1 (proj1 (G st (conj L (conj eq_refl eq_refl))))).
  Qed.

  Lemma inner_true : forall fuel kind n nd cs rs l w, leads D nd kind cs rs -> usable_type kind -> (kind = RT_CNAME -> others_leave env nd) -> 256 <= fuel ->
    l_node l = nd -> l_kind l = kind -> sendable nd -> winv w -> wise w -> length cs < n -> capable l -> cs = [] \/ no_follow (l_conf l) = false ->
    (forall z, D z RT_NS <> [] -> within nd z \/ cs <> [] -> depth Y z <= d /\ forall z', In z' (l_zones l) -> depth Y z < depth Y z') ->
    next_ok nd (l_next l) -> (forall c, In c (l_cnames l) -> exists cs' rs', leads D (r_node c) kind cs' rs' /\ length cs < length cs') ->
    good_end w kind (l_cnames l) cs rs (perform_inner p env (perform p env f) fuel n (l, w)).
  Proof.
    intros fuel kind. induction n as [|n IH]; intros nd cs rs l w Hl Hk Hkc Hfuel Hnd Hkind Hs Hw Hws Hn Hcap Hnf Hpl Hnx Hcn; [lia|].
    destruct (search_true nd kind w Hw) as (rs1 & w1 & E1 & Hw1 & Hn1 & _ & T1).
    destruct (inner_step p env (perform p env f) fuel n l w rs1 w1) as (l2 & C2 & R); [now rewrite Hnd, Hkind|]. rewrite R. clear R.
    destruct (T1 Hws) as [L|(Ws1 & Kp1 & _ & T1')]; [left; apply (late_parts p env T fuel f n (l2, w1)); exact L|]. clear T1.
    destruct rs1 as [|r0 rs1].
    2:{ destruct (T1' ltac:(discriminate)) as (Sm & _). right. cbn [after_search1]. unfold lbind, lget, lmod, lret. cbn [fst snd].
        assert (Hd : D nd kind <> []) by (intros C; rewrite C in Sm; apply same_nil in Sm; discriminate Sm).
        assert (X : [] = cs /\ D nd kind = rs) by (apply (leads_unique D nd kind cs rs Hl); now constructor). destruct X as (<- & <-).
        pose proof (core_eqs _ _ C2) as (_ & _ & _ & E4 & _). eexists _, [], (r0 :: rs1). split; [reflexivity|]. cbn [x_answers x_none]. rewrite E4. split; [reflexivity|]. split; [reflexivity|]. split; [exact Sm|].
        split; [split; [discriminate|contradiction]|]. split; [exact Hw1|]. intros _. split; [exact Ws1|exact Kp1]. }
    clear T1'. destruct (search_true nd RT_CNAME w1 Hw1) as (cn & w2 & E2 & Hw2 & Hn2 & Fd & T2).
    pose proof (core_eqs _ _ C2) as (F1 & F2 & F3 & F4 & F5 & F6).
    destruct (after_step p env (perform p env f) fuel n l2 w1 cn w2) as (l3 & C3 & R); [now rewrite F1, Hnd|]. rewrite R. clear R.
    destruct (T2 Ws1) as [L|(Ws2 & Kp2 & _ & T2')]; [left; apply (late_parts p env T fuel f n (l3, w2)); exact L|]. clear T2.
    assert (Kp : keeps w w2) by exact (keeps_trans _ _ _ Kp1 Kp2). clear Kp1 Kp2.
    assert (C3' : core l3 = core l) by congruence. clear C2 C3 F1 F2 F3 F4 F5 F6 l2. pose proof (core_eqs _ _ C3') as (F1 & F2 & F3 & F4 & F5 & F6).
    assert (Fol : forall c next c0 target l4 w4, core2 l4 = core2 l -> winv w4 -> wise w4 -> keeps w w4 -> D nd kind = [] -> D nd RT_CNAME = [c0] -> bare c = bare c0 -> plain_record c -> r_data c0 = D_CNAME target -> next_ok target next ->
      good_end w kind (l_cnames l) cs rs (after_alias p env (perform p env f) fuel n c next (l4, w4))).
    { intros c next c0 target l4 w4 C4 Hw4 Ws4 Kp4 Hd Hc0 Eb Pc Et Hnext. unfold core2 in C4. injection C4 as G1 G2 G3 G4 G5.
      assert (Tg : sendable target) by (apply (di_target D DO nd c0 target); [rewrite Hc0; now left|exact Et]).
      assert (L : exists cs1, cs = c0 :: cs1 /\ leads D target kind cs1 rs).
      { inversion Hl as [? ? X|? ? X1 X2|? ? c1 n1 cs1 ? X1 X2 X3 X4]; subst; try congruence. assert (c1 = c0) by congruence. subst c1. assert (n1 = target) by congruence. subst n1. now exists cs1. }
      destruct L as (cs1 & -> & Hl1).
      assert (Ec : r_data c = D_CNAME target) by (rewrite (bare_data _ _ Eb); exact Et).
      assert (Nc : r_node c = nd). { rewrite (bare_node _ _ Eb). apply (di_owner D DO nd RT_CNAME c0). rewrite Hc0. now left. }
      assert (Tc : record_type c = RT_CNAME) by (unfold record_type; now rewrite Ec).
      assert (Nl : detect_cname_loops target (l_cnames l4) = false).
      { destruct (detect_cname_loops target (l_cnames l4)) eqn:X; [|reflexivity]. exfalso. unfold detect_cname_loops in X. apply existsb_exists in X as (y & Hy & Ey). apply bytes_eqb_eq in Ey. rewrite G4 in Hy.
        destruct (Hcn y Hy) as (cs' & rs' & Ly & Len). rewrite Ey in Ly. destruct (leads_unique _ _ _ _ _ Hl1 _ _ Ly) as (-> & _). cbn [length] in Len. lia. }
      destruct (save_true nd RT_CNAME [c] w4 Hw4 Ws4) as (w5 & Es & Hw5 & Ws5 & _ & Kp5 & _); [split; [discriminate|constructor; [split; [exact Pc|now split]|constructor]]| | | |].
      { rewrite Hc0. unfold same. cbn [map]. rewrite Eb. apply Permutation_refl. }
      { discriminate. } { discriminate. }
      rewrite (follow_step (perform p env f) fuel n c next target l4 w4 w5 Ec Nl ltac:(rewrite G5; destruct Hnf as [C|Hnf]; [discriminate C|exact Hnf]) Es).
      match goal with |- context [perform_inner p env (perform p env f) fuel n (?l', w5)] => set (l5 := l') end.
      destruct (IH target cs1 rs l5 w5) as [X|(x & cs' & rs' & X1 & X2 & X3 & X4 & X5 & X6 & X7)]; try assumption.
      - intros ->. congruence.
      - reflexivity.
      - unfold l5. cbn. congruence.
      - cbn [length] in Hn. lia.
      - unfold l5, capable. cbn [l_conf set_node set_next set_cnames]. rewrite G5. exact Hcap.
      - right. unfold l5. cbn [l_conf set_node set_next set_cnames]. rewrite G5. destruct Hnf as [C|Hnf]; [discriminate C|exact Hnf].
      - unfold l5. cbn [l_zones set_node set_next set_cnames]. rewrite G3. intros z1 Hz1 _. apply Hpl; [exact Hz1|right; discriminate].
      - unfold l5. cbn [l_cnames set_node set_next set_cnames]. intros y Hy. apply in_app_or in Hy as [Hy|[<-|[]]].
        + rewrite G4 in Hy. destruct (Hcn y Hy) as (cs' & rs' & Ly & Len). exists cs', rs'. split; [exact Ly|]. cbn [length] in Len. lia.
        + exists (c0 :: cs1), rs. rewrite Nc. split; [exact Hl|]. cbn. lia.
      - left. exact X.
      - right. exists x, (c :: cs'), rs'. split; [exact X1|]. split. { rewrite X2. unfold l5. cbn [l_cnames set_node set_next set_cnames]. rewrite G4, <- !app_assoc. reflexivity. }
        split; [cbn [map]; now rewrite Eb, X3|]. split; [exact X4|]. split; [exact X5|]. split; [exact X6|]. intros Kn. destruct (X7 Kn) as (Y1 & Y2). split; [exact Y1|]. exact (keeps_trans _ _ _ Kp4 (keeps_trans _ _ _ Kp5 Y2)). }
    destruct cn as [|c cn].
    2:{ assert (Hkc' : kind <> RT_CNAME). { intros ->. pose proof (search_miss _ _ _ _ Hw E1) as Ms. apply (Hkc eq_refl (w_n w1)) in Ms. pose proof (search_none _ _ _ _ _ Ms E2) as C. discriminate C. }
        cbn [after_search2]. destruct (T2' ltac:(discriminate)) as (Sm & _). assert (Hd : D nd RT_CNAME <> []) by (intros C; rewrite C in Sm; apply same_nil in Sm; discriminate Sm).
        destruct (di_alias D DO nd Hd) as ((c0 & Hc0) & Hno). rewrite Hc0 in Sm. destruct (same_in _ _ c Sm) as (y & [<-|[]] & Ey); [now left|].
        destruct Fd as (A1 & A2 & _). inversion A1 as [|? ? P1 _]; subst. inversion A2 as [|? ? P2 _]; subst.
        assert (Ct : exists t, r_data c0 = D_CNAME t). { apply bare_type in Ey. rewrite P2 in Ey. unfold record_type in Ey. destruct (r_data c0); try discriminate Ey. now eexists. }
        destruct Ct as (target & Et). apply (Fol c [] c0 target l3 w2); try assumption; [now apply core_core2|apply Hno; exact Hkc'|now symmetry|now left]. }
    clear T2' Fd E2.
    assert (Nx : exists l4 w4, after_search2 p env (perform p env f) fuel n [] (l3, w2) = after_search2 p env (perform p env f) fuel n [] (l4, w4) /\ core2 l4 = core2 l /\ winv w4 /\ l_next l4 <> [] /\
      (late w4 \/ wise w4 /\ keeps w w4 /\ exists z, accepted z /\ within nd z /\ team z (l_next l4))).
    { destruct (l_next l3) as [|s nx] eqn:En.
      - destruct (search_nss_true l3 w2 Hw2) as (ns & l4 & w4 & E & C & Hw4 & _ & Tr); [rewrite F1, Hnd; now apply sendable_accepted|].
        exists (set_next match ns with [] => root_zone_nameservers | _ => ns end l4), w4.
        split. { cbn [after_search2]. unfold lbind at 1, lget at 1. cbn [fst]. rewrite En. unfold lbind at 1. unfold lbind at 1. rewrite E. unfold lmod at 1. cbn [fst snd]. symmetry. unfold lbind at 1, lget at 1. cbn [fst set_next l_next].
          destruct ns; unfold lbind at 1, lret at 1; reflexivity. }
        split; [apply core_core2 in C; apply core_core2 in C3'; change (core2 l4 = core2 l); congruence|]. split; [exact Hw4|]. cbn [set_next l_next]. split; [destruct ns; discriminate|].
        destruct (Tr Ws2) as [L|(W4 & Kn & [->|(z & Az & Wz & Tz)])]; [now left|right|right]; (split; [exact W4|]; split; [exact (keeps_trans _ _ _ Kp Kn)|]).
        + exists [46%N]. split; [exists []; repeat split; [constructor|cbn; lia]|]. split; [apply within_root; now apply sendable_accepted|]. exact root_team.
        + exists z. split; [exact Az|]. split; [rewrite F1, Hnd in Wz; exact Wz|]. destruct ns; [destruct (team_some z [] Tz eq_refl)|exact Tz].
      - exists l3, w2. split; [reflexivity|]. split; [now apply core_core2|]. split; [exact Hw2|]. split; [rewrite En; discriminate|]. right. split; [exact Ws2|]. split; [exact Kp|]. rewrite En. rewrite <- F5 in Hnx. destruct Hnx as [C|Hnx]; [discriminate C|]. exact Hnx. }
    destruct Nx as (l4 & w4 & -> & C4 & Hw4 & Nn & [L|(Ws4 & Kp4 & z & Az & Wz & Tz)]); [left; apply (late_parts p env T fuel f n (l4, w4)); exact L|].
    pose proof C4 as C4'. unfold core2 in C4'. injection C4' as G1 G2 G3 G4 G5.
    assert (Hlen : length nd < fuel + length z) by (destruct Hs as (ls & (_ & _ & Hlen) & _); lia).
    destruct (zones_true fuel z l4 w4) as (r & l5 & w5 & E5 & R5); rewrite ?G1, ?G2, ?Hnd, ?Hkind; try assumption.
    { unfold capable. rewrite G5. exact Hcap. }
    { unfold placed. rewrite G1, G3, Hnd. intros z1 Hz1 Wz1. apply Hpl; [exact Hz1|now left]. }
    destruct R5 as [L|(x & -> & C5 & Hw5 & Ws5 & _ & Kp5 & Fin)].
    { left. rewrite (after_zones fuel n l4 w4 Nn). unfold lbind. rewrite E5. destruct r as [a|q|]; [now apply late_reading|exact L|exact L]. }
    cbn [after_search2]. unfold lbind at 1, lget at 1. cbn [fst]. destruct (l_next l4) as [|s nx] eqn:En; [congruence|]. unfold lbind at 1, lret at 1. unfold lbind at 1. rewrite E5.
    assert (C5' : core2 l5 = core2 l) by congruence. unfold core2 in C5'. injection C5' as I1 I2 I3 I4 I5. rewrite G1, G2, Hnd, Hkind in Fin.
    destruct x as [soa|ans add|c next|next]; cbn [final_reading good_reading] in Fin.
    - destruct Fin as (Hd & Hdc). assert (X : [] = cs /\ [] = rs) by (apply (leads_unique D nd kind cs rs Hl); now apply L_nothing). destruct X as (<- & <-).
      right. unfold lbind, lget, lmod, lret. cbn [fst snd]. eexists _, [], []. split; [reflexivity|]. cbn [x_answers x_none]. rewrite I4. split; [now rewrite app_nil_r|]. split; [reflexivity|]. split; [apply same_refl|]. split; [tauto|]. split; [exact Hw5|]. intros _. split; [exact Ws5|exact (keeps_trans _ _ _ Kp4 Kp5)].
    - destruct Fin as (Hd & Hu & Sm & La). assert (X : [] = cs /\ D nd kind = rs) by (apply (leads_unique D nd kind cs rs Hl); now constructor). destruct X as (<- & <-).
      destruct (save_done nd kind ans w5 Hw5 Hu) as (w6 & Es & Hw6 & _).
      assert (Ws6 : no_trap kind (D nd kind) -> wise w6 /\ keeps w w6). { intros Kn. destruct (save_true nd kind ans w5 Hw5 Ws5 Hu Sm La) as (w6' & Es' & _ & W & _ & Kp6 & _); [|rewrite Es in Es'; injection Es' as <-; split; [exact W|exact (keeps_trans _ _ _ Kp4 (keeps_trans _ _ _ Kp5 Kp6))]].
        intros Hkn Hd0. exfalso. subst kind. specialize (Kn Hkn). rewrite Hkn in *. destruct (D nd RT_NS) as [|r1 l1] eqn:Er; [congruence|]. assert (Hr1 : In r1 (D nd RT_NS)) by (rewrite Er; now left). specialize (Kn r1 (or_introl eq_refl)). apply (di_owner D DO) in Hr1 as (Hr1 & _). rewrite Hr1 in Kn. lia. }
      unfold lbind at 1, lexec at 1. assert (Da : debug_assert p match ans with [] => false | _ => true end (Done tt) = Done tt). { destruct Hu as (Hne & _). destruct ans; [congruence|]. now destruct p. } rewrite Da.
      right. unfold lbind, lw, lget, lmod, lret. cbn [fst snd]. rewrite Es. cbn [fst snd]. eexists _, [], ans. split; [reflexivity|]. cbn [x_answers x_none]. rewrite I4. split; [reflexivity|]. split; [reflexivity|]. split; [exact Sm|].
      split; [split; [discriminate|contradiction]|]. split; [exact Hw6|exact Ws6].
    - destruct Fin as (Hd & Pc & c0 & target & Hc0 & Eb & Et & Hnext). apply (Fol c next c0 target l5 w5); try assumption; [congruence|exact (keeps_trans _ _ _ Kp4 Kp5)].
    - destruct Fin.
  Qed.

  End Sub.

  (** Lookups, whatever the depth of their zones. *)
  Lemma grows : forall fuel s, w_n (snd s) <= w_n (snd (snd (perform p env fuel s))).
  Proof.
    intros fuel s. apply (perform_stays p env (fun w => w_n (snd s) <= w_n w) True); [| | |now right|lia].
    - intros w k. rewrite access_n. lia.
    - intros w k ttl rs _. rewrite access_n. lia.
    - intros w a x. cbn. lia.
  Qed.
  Lemma perform_true : forall d f, 256 + d <= f -> sub_ok f d -> forall kind nd cs rs zones conf w, leads D nd kind cs rs -> usable_type kind -> (kind = RT_CNAME -> others_leave env nd) -> sendable nd -> winv w -> wise w ->
    length cs < max_cname conf -> max_retries conf = retries -> max_ns conf = servers -> cs = [] \/ no_follow conf = false ->
    (forall z, D z RT_NS <> [] -> within nd z \/ cs <> [] -> depth Y z <= d /\ forall z', In z' zones -> depth Y z < depth Y z') ->
    good_end w kind [] cs rs (perform p env (S f) (mkLookup nd kind zones [] [] [] conf, w)).
  Proof.
    intros d f Hf HS kind nd cs rs zones conf w Hl Hk Hkc Hs Hw Hws Hc Hr Hm Hnf Hpl. cbn [perform]. unfold lbind, lget. cbn [fst snd l_conf].
    apply (inner_true f d HS f kind (max_cname conf) nd cs rs (mkLookup nd kind zones [] [] [] conf) w); try assumption; try reflexivity; [lia|split; [exact Hr|]; split; [exact Hm|cbn [l_conf]; lia]|now left|intros c []].
  Qed.
  Lemma sub_all : forall d f, 256 + d <= f -> sub_ok f d.
  Proof.
    induction d as [|d IH]; intros f Hf h zones conf w Hd; [lia|]. intros Hw Hws Hs Hn Hpl Hr Hm Hc r l' w' E. destruct f as [|f]; [lia|].
    assert (Hl : leads D h RT_A [] (D h RT_A)) by now constructor.
    pose proof (perform_true d f ltac:(lia) (IH f ltac:(lia)) RT_A h [] (D h RT_A) zones conf w Hl ltac:(unfold usable_type; tauto) ltac:(discriminate) Hs Hw Hws Hc Hr Hm (or_introl eq_refl)) as G.
    pose proof (grows (S f) (mkLookup h RT_A zones [] [] [] conf, w)) as Gr. rewrite E in G, Gr. cbn [fst snd] in Gr. destruct G as [L|(x & cs' & rs' & G1 & G2 & G3 & G4 & G5 & G6 & G7)].
    - intros z Hz [Hzw|C]; [|congruence]. destruct (Hpl z Hz Hzw) as (P1 & P2). split; [lia|exact P2].
    - left. exact L.
    - right. cbn [fst snd] in *. exists x. split; [exact G1|]. apply map_eq_nil in G3. subst cs'. cbn [app] in G2. subst rs'. split; [|split; [exact G4|split; [exact G6|]]].
      + apply Forall_forall. intros y Hy. destruct (same_in _ _ y G4 Hy) as (y' & Hy' & Eb). apply (di_owner D DO) in Hy' as (E1 & E2). rewrite <- (bare_node _ _ Eb), <- (bare_type _ _ Eb). now split.
      + destruct G7 as (W & K); [discriminate|]. split; [exact W|]. split; [exact Gr|exact K].
  Qed.
End Run.
