(** Any number of lookups at once in a healthy domain name system: what is in the cache is
    true at every moment (C94). The steps of one lookup are judged by what is known of whole
    lookups (C78): would it write something false, then other threads could see that and
    leave two false entries behind, of which the lookup can remove only one at a time. *)
From Coq Require Import Permutation.
From Verif Require Import Base Types Name NameSpec NameProofs Codec CodecSpec NsSpec ResolverLists Cache Resolver ResolverSpec ResolverInv ResolverFacts ResolverEx PropCodec3 PropResolver1 PropResolver7 HealthSpec HealthRun PropHealth Process ProcessRun ProcessSafe Many PropMany PropMany2.

(** Lists of records up to TTL and order can be compared. *)
Lemma record_dec : forall a b : record, {a = b} + {a <> b}.
Proof.
  assert (NL : forall a b : list N, {a = b} + {a <> b}) by (apply list_eq_dec, N.eq_dec).
  assert (NLL : forall a b : list (list N), {a = b} + {a <> b}) by (apply list_eq_dec, NL).
  assert (DD : forall a b : rdata, {a = b} + {a <> b}) by (decide equality; apply N.eq_dec).
  assert (CD : forall a b : class, {a = b} + {a <> b}) by decide equality.
  decide equality; try apply N.eq_dec; apply NL.
Defined.
Lemma same_dec : forall a b, {same a b} + {~ same a b}.
Proof.
  intros a b. unfold same. set (la := map bare a). set (lb := map bare b).
  destruct (forallb (fun x => count_occ record_dec la x =? count_occ record_dec lb x) (la ++ lb)) eqn:E; [left|right].
  - apply (Permutation_count_occ record_dec). intros x. rewrite forallb_forall in E. destruct (in_dec record_dec x (la ++ lb)) as [H|H]; [now apply Nat.eqb_eq, E|].
    rewrite (proj1 (count_occ_not_In record_dec la x)), (proj1 (count_occ_not_In record_dec lb x)); [reflexivity| |]; intros C; apply H, in_or_app; auto.
  - intros P. assert (X : forallb (fun x => count_occ record_dec la x =? count_occ record_dec lb x) (la ++ lb) = true); [|congruence].
    apply forallb_forall. intros x _. apply Nat.eqb_eq. revert x. now apply (Permutation_count_occ record_dec).
Qed.

(** What is asked of a setting: whatever ids are drawn and whatever comes back or is lost (no
    more than the given number of packets in a row), the domain name system is healthy
    (HealthSpec.v); the clock is read twice within a second; the
    requests are fair questions with the configured limits. *)
Definition lossless (g : setting) (e : env_event) : Prop := forall a x, g_delivers g (ev_id e) a x (ev_net e a x).
Record healthy_setting (g : setting) (D : directory) (Y : layout) (start : N) (retries servers : nat) : Prop := mkHealthySetting {
  hs_healthy : forall env : environment, (forall n, g_ids g (ev_id (env n))) -> (forall n a x d, ev_net (env n) a x = Some d -> g_delivers g (ev_id (env n)) a x (Some d)) ->
    (forall i, exists k, k <= g_losses g /\ lossless g (env (i + k)%nat)) ->
    healthy (g_profile g) env D Y start (g_until g) retries servers;
  hs_quick : forall now now', g_timing g now now' -> (now' < now + SECOND)%N;
  hs_asks : forall conf q kind, g_asks g conf q kind -> no_follow conf = false /\ max_retries conf = retries /\ max_ns conf = servers /\
    fair_question D conf q kind /\ leaves_no_trap D Y q kind /\ kind <> RT_CNAME;
  hs_fuel : 256 < g_fuel g /\ forall z, D z RT_NS <> [] -> 256 + depth Y z < g_fuel g }.

Section True.
  Context (g : setting) (GO : setting_ok g) (D : directory) (Y : layout) (start : N) (retries servers : nat).
  Context (HS : healthy_setting g D Y start retries servers) (Started : (start < g_until g)%N).
  Context (anchor_b : name -> name -> bool) (AB : forall z h, anchor_b z h = true <-> anchor Y z h).
  Context (any_b : name -> bool) (NB : forall h, any_b h = true <-> exists z, anchor Y z h).
  Context (respond : N -> list N -> list N -> option (list N)) (RE : forall id a x, g_delivers g id a x (respond id a x)).
  Context (id0 : N) (Hid0 : g_ids g id0).
  Notation T := (g_until g).
  Notation p := (g_profile g).
  Notation true := (cache_true D Y start T).
  Notation keeps := (keeps_anchors Y T).
  Let CL := plain_of p (comes g).

  (** Addresses of anchors are valid until the end. *)
  Definition lasting_addresses (c : rcache) : Prop := forall h exp rs, any_b h = Datatypes.true -> c_data c (h, RT_A) = Some (exp, rs) -> (T <= exp)%N.
  Notation X := lasting_addresses.
  (** Equal up to extensionality. *)
  Definition ceq (c c' : rcache) : Prop := c_poisoned c = c_poisoned c' /\ forall k, c_data c k = c_data c' k.

  Record event_true (e : env_event) : Prop := mkEventTrue {
    et_fine : event_fine g plain_record e;
    et_quick : (ev_now' e < ev_now e + SECOND)%N;
    et_others : forall c, cache_ok plain_record (ev_now e) c -> true c -> X c -> true (ev_others e c) /\ keeps c (ev_others e c) /\ X (ev_others e c) }.

  (** A lookup alone in an environment of such events. *)
  Lemma alone : forall (env : environment) conf q kind c0, g_asks g conf q kind -> env 0 = afterwards respond start id0 ->
    (forall n, event_true (env n)) -> (forall i, exists k, k <= g_losses g /\ lossless g (env (i + k)%nat)) -> (forall n, (ev_now (env n) <= ev_now' (env n) /\ ev_now' (env n) <= ev_now (env (S n)))%N) ->
    cache_ok plain_record (ev_now (env 1)) c0 -> true c0 -> X c0 ->
    exists r l w', run env (perform_p p (g_fuel g) (new_lookup conf q kind)) (mkWorld c0 1 []) = ((r, l), w') /\
      right_answer D q kind r /\ true (w_cache w') /\ X (w_cache w').
  Proof.
    intros env conf q kind c0 Ha E0 ET Sp0 Fw Hc Ht HX. destruct (hs_asks _ _ _ _ _ _ HS conf q kind Ha) as (Hnf & Hr & Hm & Hq & Hlt & Hk).
    assert (Es : ev_now (env 0) = start) by now rewrite E0.
    assert (N1 : forall n a x d, ev_net (env n) a x = Some d -> comes g (ev_id (env n)) a x d) by (intros n a x d E; exact (ef_net _ _ _ (et_fine _ (ET n)) a x d E)).
    assert (EO : env_ok plain_record env).
    { split; [exact Fw|intros n; exact (until_end g GO _ (ef_end _ _ _ (et_fine _ (ET n))))|intros n a x d H; exact (go_bytes g GO _ _ _ _ (N1 n a x d H))|intros n; exact (go_ids g GO _ (ef_id _ _ _ (et_fine _ (ET n))))|intros n; exact (ef_others _ _ _ (et_fine _ (ET n)))]. }
    assert (HE : healthy p env D Y (ev_now (env 0)) T (max_retries conf) (max_ns conf)).
    { rewrite Es, Hr, Hm. apply (hs_healthy _ _ _ _ _ _ HS); [intros n; exact (ef_id _ _ _ (et_fine _ (ET n)))|exact N1|exact Sp0]. }
    assert (XE : extra env D Y (ev_now (env 0)) T X).
    { rewrite Es. split.
      - intros n c H1 H2 H3. exact (et_others _ (ET n) c H1 H2 H3).
      - intros c c' E H h exp rs Hh Ec. rewrite E in Ec. exact (H h exp rs Hh Ec).
      - intros c k H h exp rs Hh Ec. cbn [c_data] in Ec. unfold upd in Ec. destruct (rkey_eqb k (h, RT_A)); [discriminate|]. exact (H h exp rs Hh Ec).
      - intros c c' k exp rs H Ed Hk' h e2 rs2 Hh Ec. rewrite Ed in Ec. destruct (rkey_eqb k (h, RT_A)) eqn:Ek; [|exact (H h e2 rs2 Hh Ec)].
        apply rkey_eqb_eq in Ek. subst k. assert (e2 = exp) by congruence. subst e2. apply Hk'; [reflexivity|]. now apply NB. }
    pose proof (same_perform p (g_fuel g) env (new_lookup conf q kind) (mkWorld c0 1 [])) as Sp.
    destruct (run env (perform_p p (g_fuel g) (new_lookup conf q kind)) (mkWorld c0 1 [])) as [[r l] w'] eqn:Er. cbn [fst snd] in Sp. exists r, l, w'. split; [reflexivity|].
    destruct (one_lookup p env D Y T conf 0 EO (fun n => et_quick _ (ET n)) HE X XE Hnf (g_fuel g) (hs_fuel _ _ _ _ _ _ HS) q kind (mkWorld c0 1 [])) with (res := r) (l' := l) (w' := w') as [(m & M1 & M2)|(R & _ & W)].
    - split; [exact Hc|]. split; [constructor|cbn; lia].
    - split; [split; [cbn; lia|exact HX]|]. rewrite Es. exact Ht.
    - exact Hq.
    - intros ->. congruence.
    - exact Sp.
    - exfalso. pose proof (ef_end _ _ _ (et_fine _ (ET m))). lia.
    - split; [exact R|]. destruct (W Hlt) as (((_ & W1) & W2) & _). rewrite Es in W2. now split.
  Qed.

  (** * Other threads, as a lookup sees them: what is in the cache now *)
  Definition covers (c : rcache) (k : rkey) : bool := match c_data c k with Some (e, _) => (T <=? e)%N | None => false end.
  Definition merge (c d : rcache) : rcache :=
    mkCache (fun k => if rtype_eqb (snd k) RT_A && any_b (fst k) && covers d k && negb (covers c k) then c_data d k else c_data c k) (c_poisoned c).
  Lemma covers_is : forall c h, covers c (h, RT_A) = Datatypes.true <-> address_cached T c h.
  Proof.
    intros c h. unfold covers, address_cached. destruct (c_data c (h, RT_A)) as [[e rs]|]; split.
    - intros H. apply N.leb_le in H. now exists e, rs.
    - intros (e' & rs' & [= <- <-] & H). now apply N.leb_le.
    - discriminate.
    - intros (e' & rs' & C & _). discriminate C.
  Qed.
  Lemma merge_keeps : forall c d, keeps c (merge c d) /\ keeps d (merge c d).
  Proof.
    intros c d. split; intros z h Hz Hh; apply covers_is; unfold covers at 1; cbn [merge c_data fst snd]; apply covers_is in Hh.
    - rewrite Hh. rewrite andb_false_r. exact Hh.
    - assert (Ha : any_b h = Datatypes.true) by (apply NB; now exists z). rewrite Ha, Hh. cbn [andb rtype_eqb]. destruct (rtype_eq_dec RT_A RT_A); [|congruence]. cbn [andb].
      destruct (covers c (h, RT_A)) eqn:Ec; cbn [negb]; assumption.
  Qed.
  Lemma merge_true : forall c d, true c -> true d -> true (merge c d).
  Proof.
    intros c d Hc Hd k exp rs E Hs. destruct (merge_keeps c d) as (K1 & K2). cbn [merge c_data] in E. destruct (_ && _) in E.
    - destruct (Hd k exp rs E Hs) as (H1 & H2). split; [exact H1|]. intros Hk Hp. exact (anchored_kept D Y T _ _ _ K2 (H2 Hk Hp)).
    - destruct (Hc k exp rs E Hs) as (H1 & H2). split; [exact H1|]. intros Hk Hp. exact (anchored_kept D Y T _ _ _ K1 (H2 Hk Hp)).
  Qed.
  Lemma merge_lasting : forall c d, X c -> X d -> X (merge c d).
  Proof. intros c d Hc Hd h exp rs Hh E. cbn [merge c_data] in E. destruct (_ && _) in E; [exact (Hd h exp rs Hh E)|exact (Hc h exp rs Hh E)]. Qed.
  Lemma merge_ok : forall t c d, cache_ok plain_record t c -> cache_ok plain_record t d -> cache_ok plain_record t (merge c d).
  Proof. intros t c d (C1 & C2) (D1 & D2). split; [exact C1|]. intros k exp rs E. cbn [merge c_data] in E. destruct (_ && _) in E; [now apply D2|now apply C2]. Qed.
  Lemma merge_same : forall c d, keeps d c -> ceq (merge c d) c.
  Proof.
    intros c d K. split; [reflexivity|]. intros k. cbn [merge c_data]. destruct (_ && _) eqn:E; [exfalso|reflexivity].
    apply andb_true_iff in E as (E & E4). apply andb_true_iff in E as (E & E3). apply andb_true_iff in E as (E1 & E2). destruct k as [h k]. cbn [fst snd] in *.
    apply rtype_eqb_eq in E1. subst k. apply NB in E2 as (z & Hz). apply covers_is in E3. apply (K z h Hz) in E3. apply covers_is in E3. rewrite E3 in E4. discriminate E4.
  Qed.

  (** * Watching one entry *)
  Definition true_at (K : rkey) (c : rcache) : Prop :=
    match c_data c K with
    | None => True
    | Some (exp, rs) => ((start < exp)%N -> same rs (D (fst K) (snd K)) /\ (snd K = RT_NS -> depth Y (fst K) = 0 -> anchored D Y T c (fst K))) /\
        (snd K = RT_A -> any_b (fst K) = Datatypes.true -> (T <= exp)%N)
    end.
  Lemma all_true : forall c, (forall K, true_at K c) -> true c /\ X c.
  Proof.
    intros c H. split.
    - intros k exp rs E Hs. specialize (H k). unfold true_at in H. rewrite E in H. exact (proj1 H Hs).
    - intros h exp rs Hh E. specialize (H (h, RT_A)). unfold true_at in H. rewrite E in H. exact (proj2 H eq_refl Hh).
  Qed.
  Lemma true_at_all : forall c K, true c -> X c -> true_at K c.
  Proof.
    intros c K Hc HX. unfold true_at. destruct (c_data c K) as [[exp rs]|] eqn:E; [|exact Logic.I]. split; [intros Hs; exact (Hc K exp rs E Hs)|].
    intros Hk Hh. destruct K as [h k]. cbn [fst snd] in *. subst k. exact (HX h exp rs Hh E).
  Qed.
  Lemma anchored_dec : forall c z, {anchored D Y T c z} + {~ anchored D Y T c z}.
  Proof.
    intros c z. destruct (existsb (fun r => match r_data r with D_NS h => anchor_b z h && covers c (h, RT_A) | _ => false end) (D z RT_NS)) eqn:E; [left|right].
    - apply existsb_exists in E as (r & Hr & E). destruct (r_data r) as [|h| | | | | | |] eqn:Ed; try discriminate E. apply andb_true_iff in E as (E1 & E2). exists h.
      split; [now exists r|]. split; [now apply AB|now apply covers_is].
    - intros (h & (r & Hr & Ed) & Ha & Hc). assert (F : existsb (fun r => match r_data r with D_NS h => anchor_b z h && covers c (h, RT_A) | _ => false end) (D z RT_NS) = Datatypes.true); [|congruence].
      apply existsb_exists. exists r. split; [exact Hr|]. rewrite Ed. apply andb_true_iff. split; [now apply AB|now apply covers_is].
  Qed.
  Lemma true_at_dec : forall K c, {true_at K c} + {~ true_at K c}.
  Proof.
    intros K c. unfold true_at. destruct (c_data c K) as [[exp rs]|]; [|left; exact Logic.I].
    assert (A : {((start < exp)%N -> same rs (D (fst K) (snd K)) /\ (snd K = RT_NS -> depth Y (fst K) = 0 -> anchored D Y T c (fst K)))} + {~ ((start < exp)%N -> same rs (D (fst K) (snd K)) /\ (snd K = RT_NS -> depth Y (fst K) = 0 -> anchored D Y T c (fst K)))}).
    { destruct (start <? exp)%N eqn:L; [apply N.ltb_lt in L|left; apply N.ltb_ge in L; intros C; lia]. destruct (same_dec rs (D (fst K) (snd K))) as [S1|S1]; [|right; intros C; now apply S1, C].
      destruct (rtype_eq_dec (snd K) RT_NS) as [E|E]; [|left; intros _; split; [exact S1|intros C; congruence]].
      destruct (Nat.eq_dec (depth Y (fst K)) 0) as [Z|Z]; [|left; intros _; split; [exact S1|intros _ C; congruence]].
      destruct (anchored_dec c (fst K)) as [A|A]; [left; intros _; split; [exact S1|intros _ _; exact A]|right; intros C; apply A, C; assumption]. }
    assert (B : {(snd K = RT_A -> any_b (fst K) = Datatypes.true -> (T <= exp)%N)} + {~ (snd K = RT_A -> any_b (fst K) = Datatypes.true -> (T <= exp)%N)}).
    { destruct (rtype_eq_dec (snd K) RT_A) as [E|E]; [|left; intros C; congruence]. destruct (any_b (fst K)) eqn:Ea; [|left; intros _ C; discriminate C].
      destruct (T <=? exp)%N eqn:L; [apply N.leb_le in L; left; intros _ _; exact L|right; apply N.leb_gt in L; intros C; specialize (C E eq_refl); lia]. }
    destruct A as [A|A]; [destruct B as [B|B]; [left; now split|right; intros (_ & C); now apply B]|right; intros (C & _); now apply A].
  Qed.
  Lemma true_at_same : forall K c c', ceq c c' -> true_at K c -> true_at K c'.
  Proof.
    intros K c c' (_ & E) H. unfold true_at in *. rewrite <- E. destruct (c_data c K) as [[exp rs]|]; [|exact H]. destruct H as (H1 & H2). split; [|exact H2].
    intros Hs. destruct (H1 Hs) as (H3 & H4). split; [exact H3|]. intros Hk Hd. apply (anchored_kept D Y T c); [|now apply H4]. intros z h _ (e & r & A & B). exists e, r. now rewrite <- E.
  Qed.

  (** False entries. *)
  Definition G1 : rkey := (s2b "a.", RT_TXT).
  Definition G2 : rkey := (s2b "b.", RT_TXT).
  Definition lie (K : rkey) : list record := repeat (mkRec (fst K) C_IN 1 0 (D_TXT [])) (S (length (D (fst K) (snd K)))).
  Definition mark (t : N) (c : rcache) : rcache := mkCache (upd rkey_eqb (upd rkey_eqb (c_data c) G1 (Some (t + 1, lie G1)%N)) G2 (Some (t + 1, lie G2)%N)) (c_poisoned c).
  Definition fine_at (K : rkey) (c : rcache) : Prop := true_at K c /\ true_at G1 c /\ true_at G2 c.
  Lemma fine_dec : forall K c, {fine_at K c} + {~ fine_at K c}.
  Proof.
    intros K c. unfold fine_at. destruct (true_at_dec K c); [|right; tauto]. destruct (true_at_dec G1 c); [|right; tauto]. destruct (true_at_dec G2 c); [left; tauto|right; tauto].
  Qed.
  Definition watch (K : rkey) (t : N) (c : rcache) : rcache := if fine_dec K c then c else mark t c.
  Definition watching (K : rkey) (t : N) : env_event := mkEv t t (watch K t) id0 (respond id0).
  Lemma lie_ok : forall t K, accepted (fst K) -> snd K = RT_TXT -> entry_ok plain_record t K (t + 1) (lie K).
  Proof.
    intros t K Ha Hk. unfold lie. assert (F : forall P : record -> Prop, P (mkRec (fst K) C_IN 1 0 (D_TXT [])) -> forall n, Forall P (repeat (mkRec (fst K) C_IN 1 0 (D_TXT [])) n)) by (intros P HP n; apply Forall_forall; intros x Hx; apply repeat_spec in Hx; now subst x).
    split; [discriminate|]. split. { apply F. split; [|constructor]. split; [exact Ha|]. split; [reflexivity|]. split; [unfold is_u32; cbn; lia|constructor]. }
    split; [apply F; symmetry; exact Hk|]. split; [exists 1%N; split; [now apply F|unfold SECOND; lia]|]. split; [intros _; now apply F|]. cbn [repeat]. eexists _, _. split; reflexivity.
  Qed.
  Lemma lie_false : forall K, ~ same (lie K) (D (fst K) (snd K)).
  Proof. intros K P. apply Permutation_length in P. rewrite !map_length in P. unfold lie in P. rewrite repeat_length in P. lia. Qed.
  Lemma mark_ok : forall t c, cache_ok plain_record t c -> cache_ok plain_record t (mark t c).
  Proof.
    intros t c (C1 & C2). split; [exact C1|]. intros k exp rs E. cbn [mark c_data] in E. unfold upd in E.
    destruct (rkey_eqb G2 k) eqn:E2; [|destruct (rkey_eqb G1 k) eqn:E1; [|now apply C2]].
    - apply rkey_eqb_eq in E2. subst k. injection E as <- <-. apply lie_ok; [apply checked_accepted; vm_compute; reflexivity|reflexivity].
    - apply rkey_eqb_eq in E1. subst k. injection E as <- <-. apply lie_ok; [apply checked_accepted; vm_compute; reflexivity|reflexivity].
  Qed.
  Lemma watch_ok : forall K t c, cache_ok plain_record t c -> cache_ok plain_record t (watch K t c).
  Proof. intros K t c H. unfold watch. destruct (fine_dec K c); [exact H|now apply mark_ok]. Qed.
  Lemma watching_true : forall K t, (t < T)%N -> event_true (watching K t).
  Proof.
    intros K t Ht. split; [split|..]; cbn [watching ev_now ev_now' ev_id ev_net ev_others]; try assumption.
    - intros a1 x1 d1 Ed1. rewrite <- Ed1. apply RE.
    - now left.
    - intros c. apply watch_ok.
    - unfold SECOND. lia.
    - intros c _ Hc HX. unfold watch. destruct (fine_dec K c) as [F|F]; [split; [exact Hc|]; split; [apply keeps_refl|exact HX]|].
      exfalso. apply F. split; [|split]; now apply true_at_all.
  Qed.
  (** The false entries cannot be made good by one access. *)
  Lemma access_lies : forall t c o x c', cache_ok plain_record t c -> (t < T)%N -> (start <= t)%N -> op_ok plain_record t t o -> cache_run rkey_eqb (mark t c) o = (x, c') -> ~ (true_at G1 c' /\ true_at G2 c').
  Proof.
    intros t c o x c' (Hp & _) Ht Hs Ho E (B1 & B2).
    assert (Lie : forall G c1, c_data c1 G = Some (t + 1, lie G)%N -> true_at G c1 -> False).
    { intros G c1 E1 H. unfold true_at in H. rewrite E1 in H. destruct H as (H & _). destruct (H ltac:(lia)) as (H' & _). exact (lie_false G H'). }
    unfold cache_run in E. cbn [mark c_poisoned] in E. rewrite Hp in E. cbn [mark c_data] in E.
    assert (M1 : upd rkey_eqb (upd rkey_eqb (c_data c) G1 (Some (t + 1, lie G1)%N)) G2 (Some (t + 1, lie G2)%N) G1 = Some (t + 1, lie G1)%N) by reflexivity.
    assert (M2 : upd rkey_eqb (upd rkey_eqb (c_data c) G1 (Some (t + 1, lie G1)%N)) G2 (Some (t + 1, lie G2)%N) G2 = Some (t + 1, lie G2)%N) by reflexivity.
    set (m := upd rkey_eqb (upd rkey_eqb (c_data c) G1 (Some (t + 1, lie G1)%N)) G2 (Some (t + 1, lie G2)%N)) in *. clearbody m.
    assert (Up : forall k v, c' = mkCache (upd rkey_eqb m k v) (c_poisoned c') -> False).
    { intros k v Ec. destruct (rkey_eqb k G1) eqn:E1.
      - apply (Lie G2 c'); [|exact B2]. rewrite Ec. cbn [c_data]. unfold upd. apply rkey_eqb_eq in E1. subst k. exact M2.
      - apply (Lie G1 c'); [|exact B1]. rewrite Ec. cbn [c_data]. unfold upd. now rewrite E1. }
    assert (Sm : c' = mkCache m (c_poisoned c') -> False). { intros Ec. apply (Lie G1 c'); [|exact B1]. rewrite Ec. exact M1. }
    destruct o as [k t1|k ttl v t1 t2|k t1|k f t1|ts]; cbn [op_ok] in Ho; try contradiction.
    - unfold cache_get in E. destruct (m k) as [[e v]|]; [destruct (is_expired e t1)|]; injection E as <- <-; [now apply (Up k None)|now apply Sm|now apply Sm].
    - unfold cache_set in E. destruct (INSTANT_END <=? _)%N; [injection E as <- <-; now apply Sm|]. destruct (m k) as [[e w]|]; [destruct (is_expired e t2)|]; injection E as <- <-; eapply Up; reflexivity.
  Qed.
  Lemma caught : forall K t env (m : proc (exec (result response lerr) * lookup)) w, (t < T)%N -> (start <= t)%N -> (forall n, w_n w <= n -> env n = watching K t) ->
    okP (comes g) plain_record m (fun _ => True) (fun _ => True) -> cache_ok plain_record t (w_cache w) -> ~ fine_at K (w_cache w) -> ~ fine_at K (w_cache (snd (run env m w))).
  Proof.
    intros K t env m. induction m as [r|f k IH|q k IH]; intros w Ht Hs He Hok Hc Hf; cbn [run okP] in *.
    - exact Hf.
    - rewrite (He (w_n w) (le_n _)). cbn [watching ev_others ev_now ev_now']. unfold watch. destruct (fine_dec K (w_cache w)) as [C|_]; [contradiction|].
      destruct (Hok t t (N.le_refl t)) as (Op & Hx). destruct (cache_run rkey_eqb (mark t (w_cache w)) (f t t)) as [x c'] eqn:E.
      destruct (access_keeps plain_record t (mark t (w_cache w)) t t _ x c' (mark_ok t _ Hc) (N.le_refl t) (N.le_refl t) (until_end g GO t Ht) Op E) as (K1 & K2).
      apply IH; try assumption.
      + intros n Hn. apply He. cbn [w_n] in Hn. lia.
      + now apply Hx.
      + cbn [w_cache]. intros (_ & C). exact (access_lies t (w_cache w) _ x c' Hc Ht Hs Op E C).
    - rewrite (He (w_n w) (le_n _)). cbn [watching ev_id ev_net]. specialize (Hok id0 (go_ids g GO id0 Hid0)). destruct (q id0) as [[a x]|j|] eqn:Eq; [| |contradiction].
      + apply IH; try assumption.
        * intros n Hn. apply He. cbn [w_n] in Hn. lia.
        * apply Hok. intros b Eb. assert (G : g_delivers g id0 a x (Some b)) by (rewrite <- Eb; apply RE). split; [exact (go_bytes g GO _ _ _ _ G)|exact G].
      + destruct Hok as (r & Er & _). rewrite Er. cbn [run snd]. exact Hf.
  Qed.

  (** * Threads *)
  Notation ev0 := (afterwards respond start id0).
  Definition begins (evs : list env_event) (hold : option N) (env : environment) : Prop :=
    (forall n e, nth_error evs n = Some e -> env n = e) /\ forall id, hold = Some id -> ev_id (env (length evs)) = id.
  Definition env_with (evs : list env_event) (last : env_event) : environment := fun n => nth n evs last.
  Lemma begins_with : forall evs last, begins evs None (env_with evs last).
  Proof. intros evs last. split; [|discriminate]. intros n e E. unfold env_with. now apply nth_error_nth. Qed.
  Lemma begins_less : forall evs e hold env, begins (evs ++ [e]) hold env -> begins evs None env /\ env (length evs) = e.
  Proof.
    intros evs e hold env (H & _). split.
    - split; [|discriminate]. intros n e' E. apply H. rewrite nth_error_app1; [exact E|]. apply nth_error_Some. congruence.
    - apply H. rewrite nth_error_app2, Nat.sub_diag; [reflexivity|lia].
  Qed.
  Lemma in_order_le : forall evs t t', in_order t evs t' -> (t <= t')%N.
  Proof. induction evs as [|e evs IH]; intros t t' H; cbn [in_order] in H; [exact H|]. destruct H as ((H1 & H2) & H3). apply IH in H3. lia. Qed.
  Lemma with_forward : forall evs t t' last, in_order t evs t' -> ev_now last = t' -> ev_now' last = t' ->
    (t <= ev_now (env_with evs last 0%nat))%N /\
    forall n, (ev_now (env_with evs last n) <= ev_now' (env_with evs last n) /\ ev_now' (env_with evs last n) <= ev_now (env_with evs last (S n)))%N.
  Proof.
    induction evs as [|e evs IH]; intros t t' last H L1 L2; cbn [in_order] in H.
    - unfold env_with. cbn [nth]. split; [lia|]. intros n. destruct n; cbn [nth]; lia.
    - destruct H as ((H1 & H2) & H3). destruct (IH _ _ last H3 L1 L2) as (I1 & I2). split; [exact H1|]. intros [|n].
      + split; [exact H2|]. exact I1.
      + exact (I2 n).
  Qed.
  Lemma ev0_true : event_true ev0.
  Proof.
    split; [split|..]; cbn; try assumption.
    - intros a1 x1 d1 Ed1. rewrite <- Ed1. apply RE.
    - now left.
    - auto.
    - unfold SECOND. lia.
    - intros c _ H1 H2. split; [exact H1|]. split; [apply keeps_refl|exact H2].
  Qed.
  (** The last [n] packets were lost. *)
  Inductive spaced : list env_event -> nat -> Prop :=
  | sp_none : spaced [] 0
  | sp_whole : forall evs n e, spaced evs n -> lossless g e -> spaced (evs ++ [e]) 0
  | sp_lost : forall evs n e, spaced evs n -> n < g_losses g -> spaced (evs ++ [e]) (S n).
  Lemma spaced_le : forall evs n, spaced evs n -> n <= g_losses g.
  Proof. intros evs n H. destruct H; lia. Qed.
  Lemma spaced_near : forall evs n, spaced evs n -> forall last i, i < length evs ->
    (exists k, k <= g_losses g /\ (i + k)%nat < length evs /\ lossless g (nth (i + k) evs last)) \/ length evs - i <= n.
  Proof.
    intros evs n H last. induction H as [|evs n e H IH Hl|evs n e H IH Hn]; intros i Hi; [cbn in Hi; lia| |]; rewrite app_length in *; cbn [length] in *; pose proof (spaced_le _ _ H) as Le.
    - left. destruct (Nat.eq_dec i (length evs)) as [->|Ne].
      + exists 0. split; [lia|]. split; [lia|]. rewrite Nat.add_0_r, app_nth2, Nat.sub_diag by lia. exact Hl.
      + destruct (IH i) as [(k & K1 & K2 & K3)|K]; [lia| |].
        * exists k. split; [exact K1|]. split; [lia|]. now rewrite app_nth1.
        * exists (length evs - i). split; [lia|]. split; [lia|]. replace (i + (length evs - i))%nat with (length evs) by lia. rewrite app_nth2, Nat.sub_diag by lia. exact Hl.
    - destruct (Nat.eq_dec i (length evs)) as [->|Ne]; [right; lia|]. destruct (IH i) as [(k & K1 & K2 & K3)|K]; [lia| |right; lia].
      left. exists k. split; [exact K1|]. split; [lia|]. now rewrite app_nth1.
  Qed.
  Lemma spaced_env : forall evs n last, spaced evs n -> lossless g last -> forall i, exists k, k <= g_losses g /\ lossless g (env_with (ev0 :: evs) last (i + k)%nat).
  Proof.
    intros evs n last H Hl [|i]; [exists 0; split; [lia|]; exact (RE id0)|]. unfold env_with. cbn [Nat.add nth].
    destruct (Nat.lt_ge_cases i (length evs)) as [L|L].
    - destruct (spaced_near evs n H last i L) as [(k & K1 & _ & K3)|K]; [now exists k|]. exists (length evs - i). pose proof (spaced_le _ _ H). split; [lia|]. rewrite nth_overflow by lia. exact Hl.
    - exists 0. split; [lia|]. rewrite nth_overflow by lia. exact Hl.
  Qed.
  Lemma then_alone : forall evs n t0 t last conf q kind c0, g_asks g conf q kind -> (start <= t0)%N -> in_order t0 evs t -> Forall event_true evs -> spaced evs n -> lossless g last ->
    ev_now last = t -> ev_now' last = t -> event_true last -> cache_ok plain_record t0 c0 -> true c0 -> X c0 ->
    exists r l w', run (env_with (ev0 :: evs) last) (perform_p p (g_fuel g) (new_lookup conf q kind)) (mkWorld c0 1 []) = ((r, l), w') /\
      right_answer D q kind r /\ true (w_cache w') /\ X (w_cache w').
  Proof.
    intros evs m t0 t last conf q kind c0 Ha Hs Ho Hev Hsp Hll L1 L2 Hl Hc Ht HX.
    assert (Ho' : in_order start (ev0 :: evs) t).
    { cbn [in_order ev_now ev_now' afterwards]. split; [split; apply N.le_refl|]. destruct evs as [|e evs]; cbn [in_order] in *; [lia|]. destruct Ho as ((H1 & H2) & H3). split; [split; lia|exact H3]. }
    destruct (with_forward (ev0 :: evs) start t last Ho' L1 L2) as (_ & Fw). destruct (with_forward evs t0 t last Ho L1 L2) as (F0 & _).
    apply alone; try assumption.
    - reflexivity.
    - intros n. unfold env_with. destruct (nth_in_or_default n (ev0 :: evs) last) as [[<-|H]| ->]; [exact ev0_true| |exact Hl]. rewrite Forall_forall in Hev. now apply Hev.
    - exact (spaced_env evs m last Hsp Hll).
    - apply (cache_later plain_record t0); [exact F0|exact Hc].
  Qed.

  Definition thread_true (c : rcache) (t : thread) : Prop :=
    exists c0 t0 evs hold cw,
      (g_asks g (t_conf t) (t_node t) (t_kind t) /\ (start <= t0)%N /\ cache_ok plain_record t0 c0 /\ true c0 /\ X c0) /\
      (in_order t0 evs (t_time t) /\ spaced evs (t_lost t)) /\ Forall event_true evs /\ (forall id, hold = Some id -> g_ids g id) /\ (t_time t < T)%N /\
      (hold <> None -> exists r, t_todo t = P_end r) /\
      okP (comes g) plain_record (t_todo t) (fun _ => True) (fun _ => True) /\ keeps cw c /\
      forall env, begins (ev0 :: evs) hold env -> run env (perform_p p (g_fuel g) (new_lookup (t_conf t) (t_node t) (t_kind t))) (mkWorld c0 1 []) =
         run env (t_todo t) (mkWorld cw (S (length evs)) (t_sent t)).
  Definition state_true (s : state) : Prop :=
    (cache_ok plain_record (s_time s) (s_cache s) /\ true (s_cache s) /\ X (s_cache s)) /\ (start <= s_time s /\ s_time s < T)%N /\ Forall (thread_true (s_cache s)) (s_threads s).

  Lemma threads_keep : forall c c' ts, keeps c c' -> Forall (thread_true c) ts -> Forall (thread_true c') ts.
  Proof.
    intros c c' ts K H. eapply Forall_impl; [|exact H]. intros t (c0 & t0 & evs & hold & cw & H1 & H2 & H3 & H4 & H5 & H6 & H7 & H8 & H9).
    exists c0, t0, evs, hold, cw. split; [exact H1|]. split; [exact H2|]. split; [exact H3|]. split; [exact H4|]. split; [exact H5|]. split; [exact H6|]. split; [exact H7|]. split; [exact (keeps_trans Y T _ _ _ H8 K)|exact H9].
  Qed.
  Lemma access_same : forall c d now now' o x c', ceq c d -> op_ok plain_record now now' o -> cache_run rkey_eqb c o = (x, c') -> exists d', cache_run rkey_eqb d o = (x, d') /\ ceq d' c'.
  Proof.
    intros c d now now' o x c' (E1 & E2) Ho E. unfold cache_run in *. rewrite <- E1. destruct (c_poisoned c) eqn:Ep.
    - injection E as <- <-. exists d. split; [reflexivity|]. split; [congruence|]. intros k. now rewrite E2.
    - assert (U : forall k v k', upd rkey_eqb (c_data d) k v k' = upd rkey_eqb (c_data c) k v k') by (intros k v k'; unfold upd; now rewrite E2).
      destruct o as [k t1|k ttl v t1 t2|k t1|k f t1|ts]; cbn [op_ok] in Ho; try contradiction.
      + unfold cache_get in *. rewrite <- E2. destruct (c_data c k) as [[e v]|]; [destruct (is_expired e t1)|]; injection E as <- <-; (eexists; split; [reflexivity|split; [reflexivity|]]); cbn [c_data]; intros k'; [apply U|now rewrite E2|now rewrite E2].
      + unfold cache_set in *. rewrite <- E2. destruct (INSTANT_END <=? _)%N; [injection E as <- <-; eexists; split; [reflexivity|split; [reflexivity|]]; cbn [c_data]; intros k'; now rewrite E2|].
        destruct (c_data c k) as [[e w]|]; [destruct (is_expired e t2)|]; injection E as <- <-; (eexists; split; [reflexivity|split; [reflexivity|]]); cbn [c_data]; intros k'; apply U.
  Qed.
  Lemma access_anchors : forall c now now' o x c', c_poisoned c = false -> (now' < T)%N -> op_ok plain_record now now' o -> cache_run rkey_eqb c o = (x, c') -> X c' -> keeps c c'.
  Proof.
    intros c now now' o x c' Hp Ht Ho E HX z h Hz (e & rs & A & B). unfold cache_run in E. rewrite Hp in E.
    assert (Ha : any_b h = Datatypes.true) by (apply NB; now exists z).
    destruct o as [k t1|k ttl v t1 t2|k t1|k f t1|ts]; cbn [op_ok] in Ho; try contradiction.
    - subst t1. unfold cache_get in E. destruct (c_data c k) as [[e1 v]|] eqn:Ek; [destruct (is_expired e1 now') eqn:Ee|]; injection E as <- <-; try (exists e, rs; now split).
      exists e, rs. cbn [c_data]. unfold upd. destruct (rkey_eqb k (h, RT_A)) eqn:Eh; [|now split]. exfalso. apply rkey_eqb_eq in Eh. subst k. rewrite Ek in A. injection A as -> ->. unfold is_expired in Ee. lia.
    - unfold cache_set in E. destruct (INSTANT_END <=? _)%N; [injection E as <- <-; exists e, rs; now split|].
      assert (Ec : c_data c' = upd rkey_eqb (c_data c) k (Some (t1 + ttl, v))%N) by (destruct (c_data c k) as [[e1 w]|]; [destruct (is_expired e1 t2)|]; injection E as <- <-; reflexivity).
      assert (Q : exists e1 v1, c_data c' (h, RT_A) = Some (e1, v1)). { rewrite Ec. unfold upd. destruct (rkey_eqb k (h, RT_A)); [now eexists _, _|now exists e, rs]. }
      destruct Q as (e1 & v1 & Q). exists e1, v1. split; [exact Q|]. exact (HX h e1 v1 Ha Q).
  Qed.

  Lemma cache_step : forall c Ts t f k now now' x c', cache_ok plain_record Ts c -> true c -> X c -> (start <= Ts)%N -> thread_true c t -> t_todo t = P_cache f k ->
    (t_time t <= now /\ now <= now' /\ Ts <= now' /\ now' < T)%N -> g_timing g now now' -> cache_run rkey_eqb c (f now now') = (x, c') ->
    (cache_ok plain_record now' c' /\ true c' /\ X c') /\ keeps c c' /\ thread_true c' (advance t [] 0 now' (k now x)).
  Proof.
    intros c Ts t f k now now' x c' Hc Ht HX HTs (c0 & t0 & evs & hold & cw & (Ha & H0 & H1 & H2 & H3) & (Ho & Hsp) & Hev & _ & _ & Hh & Hok & Hk & Hr) Et (L1 & L2 & L3 & He) Hq E.
    assert (Hn : hold = None) by (apply (hold_none _ _ _ Hh); rewrite Et; discriminate). subst hold. rewrite Et in Hok, Hr. cbn [okP] in Hok. destruct (Hok now now' L2) as (Op & Hx).
    destruct (access_keeps plain_record Ts c now now' _ x c' Hc L3 L2 (until_end g GO now' He) Op E) as (K1 & K2).
    pose proof (merge_same c cw Hk) as Sm.
    destruct (access_same c (merge c cw) now now' (f now now') x c') as (c1 & E1 & Eq1); [|exact Op|exact E|].
    { destruct Sm as (S1 & S2). split; [now symmetry|]. intros k'. now symmetry. }
    set (e := mkEv now now' (merge c) id0 (respond id0)).
    assert (Ee : event_true e).
    { split; [split|..]; cbn; try assumption.
      - intros a1 x1 d1 Ed1. rewrite <- Ed1. apply RE.
      - now right.
      - intros d Hd. apply merge_ok; [now apply (cache_later plain_record Ts)|now apply (cache_later plain_record now)].
      - now apply (hs_quick _ _ _ _ _ _ HS).
      - intros d _ Hd HXd. split; [now apply merge_true|]. split; [apply merge_keeps|now apply merge_lasting]. }
    assert (Ho1 : in_order t0 (evs ++ [e]) now') by exact (in_order_more evs t0 _ e Ho L1 L2).
    assert (Hsp1 : spaced (evs ++ [e]) 0) by (apply (sp_whole evs (t_lost t)); [exact Hsp|exact (RE id0)]).
    assert (Hev1 : Forall event_true (evs ++ [e])) by (apply Forall_app; split; [exact Hev|now constructor]).
    assert (Hr1 : forall env, begins (ev0 :: evs ++ [e]) None env -> run env (perform_p p (g_fuel g) (new_lookup (t_conf t) (t_node t) (t_kind t))) (mkWorld c0 1 []) = run env (k now x) (mkWorld c1 (S (length (evs ++ [e]))) (t_sent t))).
    { intros env Hb. change (ev0 :: evs ++ [e]) with ((ev0 :: evs) ++ [e]) in Hb. destruct (begins_less _ _ _ _ Hb) as (B1 & B2). cbn [length] in B2. rewrite (Hr env B1). cbn [run w_n w_cache w_sent]. rewrite B2. cbn [e ev_others ev_now ev_now']. rewrite E1, app_length. cbn [length]. now rewrite Nat.add_1_r. }
    assert (C1 : cache_ok plain_record now' c1). { destruct K1 as (P1 & P2), Eq1 as (Q1 & Q2). split; [congruence|]. intros k' e' rs' Ek. rewrite Q2 in Ek. now apply P2. }
    assert (Tr : forall K, true_at K c').
    { intros K. apply (true_at_same K c1 c' Eq1). destruct (true_at_dec K c1) as [Y1|Y1]; [exact Y1|exfalso].
      destruct (then_alone (evs ++ [e]) 0 t0 now' (watching K now') (t_conf t) (t_node t) (t_kind t) c0) as (r & l & w' & R1 & _ & R2 & R3); try assumption; try reflexivity; [exact (RE id0)|now apply watching_true|].
      rewrite (Hr1 _ (begins_with _ _)) in R1.
      assert (Ca : ~ fine_at K (w_cache (snd (run (env_with (ev0 :: evs ++ [e]) (watching K now')) (k now x) (mkWorld c1 (S (length (evs ++ [e]))) (t_sent t)))))).
      { apply (caught K now'); try assumption; [lia| |now apply Hx|intros (C & _); now apply Y1]. intros n Hn. unfold env_with. apply nth_overflow. cbn [w_n length] in *. lia. }
      rewrite R1 in Ca. cbn [snd] in Ca. apply Ca. split; [|split]; now apply true_at_all. }
    destruct (all_true c' Tr) as (T1 & T2). split; [split; [exact K1|now split]|]. split; [exact (access_anchors c now now' _ x c' (proj1 Hc) He Op E T2)|].
    exists c0, t0, (evs ++ [e]), None, c1. unfold advance. cbn [t_conf t_node t_kind t_sent t_lost t_time t_todo app].
    split; [split; [exact Ha|]; split; [exact H0|]; split; [exact H1|]; now split|]. split; [split; [exact Ho1|exact Hsp1]|]. split; [exact Hev1|]. split; [discriminate|]. split; [exact He|]. split; [congruence|]. split; [now apply Hx|]. split; [|exact Hr1].
    intros z h _ (e2 & rs2 & A & B). exists e2, rs2. destruct Eq1 as (_ & Q2). now rewrite <- Q2.
  Qed.
  Lemma send_step : forall c t q k id a x d lost, thread_true c t -> t_todo t = P_send q k -> g_ids g id -> q id = Done (a, x) ->
    (g_delivers g id a x d /\ lost = 0 \/ t_lost t < g_losses g /\ d = None /\ lost = S (t_lost t)) -> thread_true c (advance t [(a, x)] lost (t_time t) (k id (Done d))).
  Proof.
    intros c t q k id a x d lost (c0 & t0 & evs & hold & cw & Hb & (Ho & Hsp) & Hev & _ & He & Hh & Hok & Hk & Hr) Et Hid Eq Hd.
    assert (Hn : hold = None) by (apply (hold_none _ _ _ Hh); rewrite Et; discriminate). subst hold. rewrite Et in Hok, Hr. cbn [okP] in Hok. specialize (Hok id (go_ids g GO id Hid)). rewrite Eq in Hok.
    set (e := mkEv (t_time t) (t_time t) (fun c => c) id (fun a' x' => if bytes_eqb a' a && bytes_eqb x' x then d else respond id a' x')).
    exists c0, t0, (evs ++ [e]), None, cw. unfold advance. cbn [t_conf t_node t_kind t_sent t_lost t_time t_todo app].
    split; [exact Hb|]. split.
    { split; [exact (in_order_more evs t0 _ e Ho (N.le_refl _) (N.le_refl _))|]. destruct Hd as [(Hd & ->)|(Hlt & _ & ->)]; [apply (sp_whole _ _ _ Hsp)|exact (sp_lost _ _ _ Hsp Hlt)].
      intros a' x'. cbn [e ev_id ev_net]. destruct (bytes_eqb a' a) eqn:Ea; cbn [andb]; [|apply RE]. destruct (bytes_eqb x' x) eqn:Ex; [|apply RE].
      apply bytes_eqb_eq in Ea, Ex. subst a' x'. exact Hd. }
    split.
    { apply Forall_app. split; [exact Hev|]. constructor; [|constructor]. split; [split|..]; cbn; try assumption.
      - intros a' x' d' E'. destruct (bytes_eqb a' a) eqn:Ea; cbn [andb] in E'; [|rewrite <- E'; apply RE]. destruct (bytes_eqb x' x) eqn:Ex; [|rewrite <- E'; apply RE].
        apply bytes_eqb_eq in Ea, Ex. subst a' x' d. destruct Hd as [(Hd & _)|(_ & C & _)]; [exact Hd|discriminate C].
      - now left.
      - auto.
      - unfold SECOND. lia.
      - intros c2 _ Y1 Y2. split; [exact Y1|]. split; [apply keeps_refl|exact Y2]. }
    split; [discriminate|]. split; [exact He|]. split; [congruence|]. split; [apply Hok; intros b ->; destruct Hd as [(Hd & _)|(_ & C & _)]; [|discriminate C]; split; [exact (go_bytes g GO _ _ _ _ Hd)|exact Hd]|]. split; [exact Hk|].
    intros env Hf. change (ev0 :: evs ++ [e]) with ((ev0 :: evs) ++ [e]) in Hf. destruct (begins_less _ _ _ _ Hf) as (F1 & F2). cbn [length] in F2. rewrite (Hr env F1). cbn [run w_n w_cache w_sent]. rewrite F2. cbn [ev_id ev_net e]. rewrite Eq, !bytes_eqb_refl, app_length. cbn [length andb].
    now rewrite Nat.add_1_r.
  Qed.
  Lemma unsent_step : forall c t q k id j, thread_true c t -> t_todo t = P_send q k -> g_ids g id -> q id = Panic j ->
    thread_true c (advance t [] (t_lost t) (t_time t) (k id (Panic j))).
  Proof.
    intros c t q k id j (c0 & t0 & evs & hold & cw & Hb & (Ho & Hsp) & Hev & _ & He & Hh & Hok & Hk & Hr) Et Hid Eq.
    assert (Hn : hold = None) by (apply (hold_none _ _ _ Hh); rewrite Et; discriminate). subst hold. rewrite Et in Hok, Hr. cbn [okP] in Hok. specialize (Hok id (go_ids g GO id Hid)). rewrite Eq in Hok. destruct Hok as (r & Er & _).
    exists c0, t0, evs, (Some id), cw. unfold advance. cbn [t_conf t_node t_kind t_sent t_lost t_time t_todo app].
    split; [exact Hb|]. split; [split; [exact Ho|exact Hsp]|]. split; [exact Hev|]. split; [intros i [= <-]; exact Hid|]. split; [exact He|]. split; [intros _; now exists r|]. split; [rewrite Er; exact Logic.I|]. split; [exact Hk|].
    intros env (F1 & F2). rewrite (Hr env); [|split; [exact F1|discriminate]]. cbn [run w_n w_cache w_sent]. specialize (F2 id eq_refl). cbn [length] in F2. rewrite F2, Eq. reflexivity.
  Qed.
  Lemma new_step : forall c Ts conf node kind, cache_ok plain_record Ts c -> true c -> X c -> (start <= Ts /\ Ts < T)%N -> g_asks g conf node kind ->
    thread_true c (mkThread conf node kind [] 0 Ts (perform_p p (g_fuel g) (new_lookup conf node kind))).
  Proof.
    intros c Ts conf node kind Hc Ht HX (L1 & L2) Ha. exists c, Ts, [], None, c. cbn [t_conf t_node t_kind t_sent t_lost t_time t_todo in_order length].
    split; [split; [exact Ha|]; split; [exact L1|]; split; [exact Hc|]; now split|]. split; [split; [apply N.le_refl|apply sp_none]|]. split; [constructor|]. split; [discriminate|]. split; [exact L2|]. split; [congruence|]. split; [|split; [apply keeps_refl|reflexivity]].
    eapply okP_weak. eapply perform_safe; [exact CL|]. split; constructor.
  Qed.
  Lemma clean_step : forall Ts c readings T' x c', cache_ok plain_record Ts c -> true c -> X c -> (Ts <= T' /\ T' < T)%N -> (forall k, readings k <= T')%N ->
    cache_run rkey_eqb c (O_clean readings) = (x, c') -> (cache_ok plain_record T' c' /\ true c' /\ X c') /\ keeps c c'.
  Proof.
    intros Ts c readings T' x c' Hc Ht HX (L1 & L2) Hrd E. apply (cache_later plain_record Ts _ _ L1) in Hc. destruct Hc as (P & Dt). unfold cache_run in E. rewrite P in E. unfold cache_clean in E. injection E as <- <-.
    assert (Sub : forall k e rs, c_data (mkCache (fun k => match c_data c k with Some (e, v) => if is_expired e (readings k) then None else Some (e, v) | None => None end) false) k = Some (e, rs) -> c_data c k = Some (e, rs)).
    { intros k e rs Ek. cbn [c_data] in Ek. destruct (c_data c k) as [[e0 r0]|]; [|discriminate]. destruct (is_expired _ _); [discriminate|exact Ek]. }
    match goal with |- (cache_ok _ _ ?c1 /\ _) /\ _ => assert (K : keeps c c1) end.
    { intros z h Hz (e & rs & A & B). exists e, rs. split; [|exact B]. cbn [c_data]. rewrite A. replace (is_expired e (readings (h, RT_A))) with false; [reflexivity|]. symmetry. apply N.leb_gt. specialize (Hrd (h, RT_A)). lia. }
    split; [|exact K]. split; [split; [reflexivity|]|split].
    - intros k e rs Ek. apply Dt. now apply Sub.
    - intros k e rs Ek Hs. destruct (Ht k e rs (Sub _ _ _ Ek) Hs) as (Z1 & Z2). split; [exact Z1|]. intros Hk Hd. exact (anchored_kept D Y T _ _ _ K (Z2 Hk Hd)).
    - intros h e rs Hh Ek. exact (HX h e rs Hh (Sub _ _ _ Ek)).
  Qed.
  Lemma step_true : forall s s', step g s s' -> state_true s -> state_true s'.
  Proof.
    intros s s' St ((Hc & Ht & HX) & (L1 & L2) & Hth). inversion St as [c Ts ts conf node kind Ha|i s1 s2 Mv|c Ts ts rd T' x c' Hl Hrd E]; subst; cbn [s_cache s_time s_threads] in *.
    - split; [split; [exact Hc|now split]|]. split; [now split|]. cbn [s_threads s_cache]. apply Forall_app. split; [exact Hth|]. constructor; [|constructor]. now apply new_step.
    - inversion Mv as [c Ts ts1 t ts2 f k now now' x c' Hi Et Hl Hq E|c Ts ts1 t ts2 q k id a x d Hi Et Hid Eq Hd|c Ts ts1 t ts2 q k id a x Hi Et Hid Eq Hlt|c Ts ts1 t ts2 q k id j Hi Et Hid Eq]; subst; cbn [s_cache s_time s_threads] in *;
        apply Forall_app in Hth as (F1 & F2); inversion F2 as [|? ? F3 F4]; subst.
      + destruct (cache_step c Ts t f k now now' x c' Hc Ht HX L1 F3 Et Hl Hq E) as (I1 & K & I2). split; [exact I1|]. split; [cbn [s_time]; lia|]. cbn [s_threads s_cache].
        apply Forall_app. split; [now apply (threads_keep c)|]. constructor; [exact I2|now apply (threads_keep c)].
      + split; [split; [exact Hc|now split]|]. split; [now split|]. cbn [s_threads s_cache]. apply Forall_app. split; [exact F1|]. constructor; [eapply send_step; try eassumption; left; now split|exact F4].
      + split; [split; [exact Hc|now split]|]. split; [now split|]. cbn [s_threads s_cache]. apply Forall_app. split; [exact F1|]. constructor; [eapply send_step; try eassumption; right; now split|exact F4].
      + split; [split; [exact Hc|now split]|]. split; [now split|]. cbn [s_threads s_cache]. apply Forall_app. split; [exact F1|]. constructor; [eapply unsent_step; eassumption|exact F4].
    - destruct (clean_step Ts c rd T' x c' Hc Ht HX Hl Hrd E) as (I1 & K). split; [exact I1|]. split; [cbn [s_time]; lia|]. cbn [s_threads s_cache]. now apply (threads_keep c).
  Qed.
  Lemma reached_true : forall T0 s, (start <= T0)%N -> reached_from g T0 s -> state_true s.
  Proof.
    intros T0 s L (HT & H). assert (G : forall a b, steps g a b -> state_true a -> state_true b) by (intros a b St; induction St; [trivial|intros Hs; eapply step_true; eauto]).
    apply (G _ _ H). split; [split; [split; [reflexivity|discriminate]|split; intros ? ? ? ?; discriminate]|]. split; [now split|constructor].
  Qed.
  Lemma right_at_the_end : forall c t r l, thread_true c t -> t_todo t = P_end (r, l) -> right_answer D (t_node t) (t_kind t) r.
  Proof.
    intros c t r l (c0 & t0 & evs & hold & cw & (Ha & H0 & H1 & H2 & H3) & (Ho & Hsp) & Hev & Hid & He & _ & _ & _ & Hr) Et.
    set (id := match hold with Some i => i | None => id0 end). assert (Hi : g_ids g id) by (unfold id; destruct hold as [i|]; [now apply Hid|exact Hid0]).
    destruct (then_alone evs (t_lost t) t0 (t_time t) (afterwards respond (t_time t) id) (t_conf t) (t_node t) (t_kind t) c0) as (r' & l' & w' & R1 & R2 & _); try assumption; try reflexivity.
    { exact (RE id). }
    { split; [split|..]; cbn; try assumption; [intros a1 x1 d1 Ed1; rewrite <- Ed1; apply RE|now left|auto|unfold SECOND; lia|]. intros c2 _ Y1 Y2. split; [exact Y1|]. split; [apply keeps_refl|exact Y2]. }
    rewrite (Hr (env_with (ev0 :: evs) (afterwards respond (t_time t) id))) in R1.
    - rewrite Et in R1. cbn [run] in R1. injection R1 as <- <- <-. exact R2.
    - split; [apply begins_with|]. intros i Ei. unfold env_with. rewrite nth_overflow by lia. cbn [afterwards ev_id]. unfold id. now rewrite Ei.
  Qed.
End True.
