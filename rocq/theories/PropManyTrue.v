(** Property C94: many lookups at once in a healthy domain name system. Theorems. *)
From Coq Require Import Permutation.
From Verif Require Import Base Types Name NameSpec NameProofs Codec CodecSpec CodecWrite CodecMessage PropCodec1 Zone ZoneSpec NsHandler NsSpec PropNs Parser LoadSpec ZoneFileSpec ZoneLoadSpec PropLoad PropServe PropZoneLoad ResolverLists Cache Resolver ResolverSpec ResolverInv ResolverFacts ResolverEx PropCodec3 PropResolver1 PropResolver5 PropResolver7 PropTalk HealthSpec HealthRun PropHealth HealthEx PublishSpec PropPublish PublishEx Process ProcessRun ProcessSafe Many PropMany PropMany2 ManyTrue.

(** It can be told which servers are anchors. *)
Definition anchors_known (Y : layout) : Prop :=
  (exists f : name -> name -> bool, forall z h, f z h = true <-> anchor Y z h) /\ (exists f : name -> bool, forall h, f h = true <-> exists z, anchor Y z h).

Lemma all_is_true : forall g D Y start retries servers T0 s, setting_ok g -> healthy_setting g D Y start retries servers -> anchors_known Y ->
  (start <= T0)%N -> reached_from g T0 s ->
  cache_true D Y start (g_until g) (s_cache s) /\ forall t r l, In t (s_threads s) -> t_todo t = P_end (r, l) -> right_answer D (t_node t) (t_kind t) r.
Proof.
  intros g D Y start retries servers T0 s GO HS ((anchor_b & AB) & (any_b & NB)) L Hr.
  destruct (go_net g GO) as (respond & RE). destruct (go_id g GO) as (id0 & Hid0).
  assert (Hs : (start < g_until g)%N) by (destruct Hr as (Hr & _); lia).
  pose proof (reached_true g GO D Y start retries servers HS Hs anchor_b AB any_b NB respond RE id0 Hid0 T0 s L Hr) as ((_ & Ht & _) & _ & Hth).
  split; [exact Ht|]. intros t r l Hin Et. rewrite Forall_forall in Hth. eapply (right_at_the_end g GO D Y start retries servers HS Hs anchor_b AB any_b NB respond RE id0 Hid0); [apply Hth; exact Hin|exact Et].
Qed.

(** However lookups are interleaved, whatever ids they draw, and whichever packets are lost
    (not too many in a row), all that is in the cache is true at every moment. *)
Theorem C94_cache_is_true_at_every_moment : forall g D Y start retries servers T0 s, setting_ok g -> healthy_setting g D Y start retries servers -> anchors_known Y ->
  (start <= T0)%N -> reached_from g T0 s -> cache_true D Y start (g_until g) (s_cache s).
Proof. intros g D Y start retries servers T0 s GO HS Hd L Hr. exact (proj1 (all_is_true g D Y start retries servers T0 s GO HS Hd L Hr)). Qed.
Print Assumptions C94_cache_is_true_at_every_moment.

(** Every lookup that has ended returned exactly what is there. *)
Theorem C94_lookups_find_what_is_there : forall g D Y start retries servers T0 s t r l, setting_ok g -> healthy_setting g D Y start retries servers -> anchors_known Y ->
  (start <= T0)%N -> reached_from g T0 s -> In t (s_threads s) -> t_todo t = P_end (r, l) -> right_answer D (t_node t) (t_kind t) r.
Proof. intros g D Y start retries servers T0 s t r l GO HS Hd L Hr Hin Et. exact (proj2 (all_is_true g D Y start retries servers T0 s GO HS Hd L Hr) t r l Hin Et). Qed.
Print Assumptions C94_lookups_find_what_is_there.

(** And every lookup that is not starved ends, and returns it. *)
Theorem C94_every_lookup_ends_right : forall g D Y start retries servers T0 s i n t, setting_ok g -> healthy_setting g D Y start retries servers -> anchors_known Y ->
  (start <= T0)%N -> reached_from g T0 (s 0) -> course g s -> fair g i s -> nth_error (s_threads (s n)) i = Some t ->
  exists k t' r l, n <= k /\ nth_error (s_threads (s k)) i = Some t' /\ t_todo t' = P_end (r, l) /\ right_answer D (t_node t) (t_kind t) r.
Proof.
  intros g D Y start retries servers T0 s i n t GO HS Hd L (HT & Hr) Hs Hf E.
  destruct (course_ends g s i Hs Hf n t E) as (k & t' & Lk & E' & (A1 & A2 & A3) & ((r & l) & Et)).
  exists k, t', r, l. split; [exact Lk|]. split; [exact E'|]. split; [exact Et|]. rewrite <- A2, <- A3.
  assert (Rk : reached_from g T0 (s k)). { split; [exact HT|]. clear - Hr Hs. induction k as [|k IH]; [exact Hr|]. destruct (Hs k) as [->|St]; [exact IH|]. eapply steps_more; eassumption. }
  exact (C94_lookups_find_what_is_there g D Y start retries servers T0 (s k) t' r l GO HS Hd L Rk (nth_error_In _ _ E') Et).
Qed.
Print Assumptions C94_every_lookup_ends_right.

(** * An example: the two zones of C85 (PublishEx.v). Each server may lose every other packet. *)
Definition m_net (a x : list N) : option (list N) :=
  if bytes_eqb a [5; 5; 5; 5]%N then checked (answers_of Release zs_com x)
  else if bytes_eqb a [6; 6; 6; 6]%N then checked (answers_of Debug zs_ex x)
  else ex_net 3600 false a x.
Definition m_setting_for (questions : list (name * rtype)) (p : profile) (f : nat) : setting :=
  mkSetting p (4 + f) (fun conf q kind => conf = conf0 /\ In (q, kind) questions) (fun id => id = 7%N) (fun _ a x d => d = m_net a x) 1 N.eq T_w.
Definition m_setting : profile -> nat -> setting := m_setting_for w_questions.
Section Lossy.
  Context (env : environment) (Eid : forall i, ev_id (env i) = 7%N).
  Context (En : forall i a x d, ev_net (env i) a x = Some d -> m_net a x = Some d).
  Context (El : forall i, exists k, k <= 1 /\ forall a x, ev_net (env (i + k)) a x = m_net a x).
  Lemma m_ids : forall i, is_u16 (ev_id (env i)). Proof. intros i. rewrite Eid. unfold is_u16. lia. Qed.
  Lemma none_or : forall i a x, ev_net (env i) a x = None \/ ev_net (env i) a x = m_net a x.
  Proof. intros i a x. destruct (ev_net (env i) a x) as [d|] eqn:E; [right; symmetry; exact (En i a x d E)|now left]. Qed.
  Lemma m_com : published_at D_w Y_w 0 T_w env 2 [5; 5; 5; 5]%N com.
  Proof.
    destruct (C81_loaded_files_are_well_formed Release fs_w 100 conf_com zs_com com_ok (com_parsed Release)) as (sd & Ss & L).
    exists Release, fs_w, 100, conf_com, zs_com, sd. split; [exact com_ok|]. split; [reflexivity|]. split; [exact L|]. pose proof (com_agrees sd Ss) as Ag. split; [exact Ag|]. split; [apply com_parsed|].
    pose proof (C40_C42_give_zone_loaded _ _ _ _ _ _ com_ok (com_parsed Release) Ss) as Zl. pose proof L as (La & _ & _ & _ & _ & Gc & _).
    intros n t Hn Ht Hw. change com with (p_zone conf_com) in Hw. rewrite <- La in Hw.
    assert (R : forall i, m_net [5; 5; 5; 5]%N (query_at env n t i) = answers_of Release zs_com (query_at env n t i)).
    { intros i. change (m_net [5; 5; 5; 5]%N (query_at env n t i)) with (checked (answers_of Release zs_com (query_at env n t i))).
      destruct (reply_honest Release Release env zs_com sd D_w Y_w 0 T_w m_ids Ss Zl Gc w_directory_ok Ag n t i Hn Ht Hw) as (d & m & E & B & _). rewrite E. now apply checked_same. }
    split.
    - intros i. rewrite <- R. apply none_or.
    - intros i. destruct (El i) as (k & K1 & K2). exists k. split; [lia|]. rewrite <- R. apply K2.
  Qed.
  Lemma m_ex : published_at D_w Y_w 0 T_w env 2 [6; 6; 6; 6]%N ex_com.
  Proof.
    destruct (C81_loaded_files_are_well_formed Debug fs_w 100 conf_ex zs_ex ex_ok (ex_parsed Debug)) as (sd & Ss & L).
    exists Debug, fs_w, 100, conf_ex, zs_ex, sd. split; [exact ex_ok|]. split; [reflexivity|]. split; [exact L|]. pose proof (ex_agrees sd Ss) as Ag. split; [exact Ag|]. split; [apply ex_parsed|].
    pose proof (C40_C42_give_zone_loaded _ _ _ _ _ _ ex_ok (ex_parsed Debug) Ss) as Zl. pose proof L as (La & _ & _ & _ & _ & Gc & _).
    intros n t Hn Ht Hw. change ex_com with (p_zone conf_ex) in Hw. rewrite <- La in Hw.
    assert (R : forall i, m_net [6; 6; 6; 6]%N (query_at env n t i) = answers_of Debug zs_ex (query_at env n t i)).
    { intros i. change (m_net [6; 6; 6; 6]%N (query_at env n t i)) with (checked (answers_of Debug zs_ex (query_at env n t i))).
      destruct (reply_honest Debug Debug env zs_ex sd D_w Y_w 0 T_w m_ids Ss Zl Gc w_directory_ok Ag n t i Hn Ht Hw) as (d & m & E & B & _). rewrite E. now apply checked_same. }
    split.
    - intros i. rewrite <- R. apply none_or.
    - intros i. destruct (El i) as (k & K1 & K2). exists k. split; [lia|]. rewrite <- R. apply K2.
  Qed.
  Lemma m_root : forall p s, In s ROOT_SERVERS -> good_server p env D_w Y_w 0 T_w 2 (snd s) [46%N].
  Proof.
    intros p s Hs n t Hn Ht Hw. destruct (root_address s Hs) as (A1 & A2).
    assert (Q : forall i, query_at env n t i = query_at w_env n t i) by (intros i; unfold query_at; rewrite Eid; reflexivity).
    assert (W : forall i, m_net (snd s) (query_at env n t i) = ev_net (w_env i) (snd s) (query_at w_env n t i)).
    { intros i. rewrite Q. change (ev_net (w_env i)) with (w_net i). unfold m_net, w_net. rewrite A1, A2. reflexivity. }
    destruct (w_root p s Hs n t Hn Ht Hw) as (G1 & G2 & G3). split; [|split].
    - intros i d E. apply (G1 i d). rewrite <- W. exact (En _ _ _ _ E).
    - intros i m (d & E & Ed & Ei). apply (G2 i m). exists d. split; [rewrite <- W; exact (En _ _ _ _ E)|]. split; [exact Ed|]. rewrite Ei, Eid. reflexivity.
    - intros i. destruct (El i) as (k & K1 & K2).
      assert (Y1 : exists d m, ev_net (w_env (i + k)) (snd s) (query_at w_env n t (i + k)) = Some d /\ decode_message p (firstn 512 d) = Done (Ok m) /\ h_id (m_header m) = 7%N).
      { destruct (G3 (i + k)) as (j & m & _ & (d & E & Ed & Ei)). exists d, m. split; [|split; [exact Ed|rewrite Ei; reflexivity]]. rewrite <- E. rewrite <- !W. unfold query_at. now rewrite !Eid. }
      destruct Y1 as (d & m & Y1 & Y2 & Y3). exists k, m. split; [lia|]. exists d. split; [rewrite K2, W; exact Y1|]. split; [exact Y2|]. now rewrite Eid.
  Qed.
  Lemma m_up : forall p z h, z = com /\ h = s2b "ns.com." \/ z = ex_com /\ h = s2b "ns.ex.com." -> up D_w Y_w 0 T_w p env 2 z h.
  Proof.
    intros p z h H r a Hg Ea. left. apply w_in in Hg as (Hg & Gn & _). destruct H as [(-> & ->)|(-> & ->)]; one_of Hg; try discriminate Gn; try discriminate Ea; injection Ea as <-; [apply m_com|apply m_ex].
  Qed.
  Lemma m_healthy : forall p, healthy p env D_w Y_w 0 T_w 2 3.
  Proof.
    intros p. apply published_healthy; [exact m_ids|]. split.
    - exact w_directory_ok.
    - exists []. split; [cbn; lia|]. apply Forall_forall. intros s Hin. left. now apply m_root.
    - assert (X : exists s l, ROOT_SERVERS = s :: l) by (eexists _, _; reflexivity). destruct X as (s & l & X). exists s. assert (Hin : In s ROOT_SERVERS) by (rewrite X; now left). split; [exact Hin|now apply m_root].
    - intros z. exists []. split; [cbn; lia|]. intros h Hh. left. now apply m_up, w_serves.
    - intros z Hz. apply w_zones in Hz as [-> | ->].
      + exists (s2b "ns.com."). split; [exists ex_ns; split; [left; reflexivity|reflexivity]|]. apply m_up. left. now split.
      + exists (s2b "ns.ex.com."). split; [exists w_ns; split; [left; reflexivity|reflexivity]|]. apply m_up. right. now split.
    - intros z h H. now apply m_up.
    - intros z h H. cbn in H. lia.
  Qed.
End Lossy.
Lemma m_ok : forall qs p f, setting_ok (m_setting_for qs p f).
Proof.
  intros qs p f. split; cbn [m_setting_for g_ids g_delivers g_until].
  - intros id ->. unfold is_u16. lia.
  - now exists 7%N.
  - intros _ a x b E. symmetry in E. pose proof (ex_env_ok 3600 false (fun _ => 0%N) (or_introl eq_refl) (fun _ => N.le_refl _) (fun _ => eq_refl)) as [_ _ E3 _ _].
    assert (C : forall o, checked o = Some b -> is_bytes b).
    { intros [d'|] X; [|discriminate X]. cbn [checked] in X. destruct (forallb _ d') eqn:F; [|discriminate X]. assert (Ed : d' = b) by congruence. rewrite <- Ed. now apply checked_bytes. }
    unfold m_net in E. destruct (bytes_eqb a [5; 5; 5; 5]%N); [exact (C _ E)|]. destruct (bytes_eqb a [6; 6; 6; 6]%N); [exact (C _ E)|]. exact (E3 0 a x b E).
  - now exists (fun _ => m_net).
  - vm_compute. discriminate.
Qed.
Lemma m_healthy_always : forall qs p f (env : environment), (forall n, g_ids (m_setting_for qs p f) (ev_id (env n))) ->
  (forall n a x d, ev_net (env n) a x = Some d -> g_delivers (m_setting_for qs p f) (ev_id (env n)) a x (Some d)) ->
  (forall i, exists k, k <= 1 /\ lossless (m_setting_for qs p f) (env (i + k)%nat)) -> healthy p env D_w Y_w 0 T_w 2 3.
Proof.
  intros qs p f env H1 H2 H3. apply m_healthy; [exact H1| |].
  - intros i a x d E. symmetry. exact (H2 i a x d E).
  - intros i. destruct (H3 i) as (k & K1 & K2). now exists k.
Qed.
Lemma m_healthy_setting : forall p f, 256 < 4 + f -> healthy_setting (m_setting p f) D_w Y_w 0 2 3.
Proof.
  intros p f Hf. split; [|cbn [m_setting m_setting_for g_timing g_asks g_fuel]..].
  - exact (m_healthy_always w_questions p f).
  - intros now now' <-. unfold SECOND. lia.
  - intros conf q kind (-> & Hin). split; [reflexivity|]. split; [reflexivity|]. split; [reflexivity|]. destruct w_leads as (A & B & C & E & F).
    destruct Hin as [H|[H|[H|[H|[H|[]]]]]]; injection H as <- <-; (split; [|split; [intros X; discriminate X|discriminate]]); [apply (w_fair _ _ _ _ B)|apply (w_fair _ _ _ _ A)|apply (w_fair _ _ _ _ C)|apply (w_fair _ _ _ _ E)|apply (w_fair _ _ _ _ F)]; try reflexivity; try (unfold usable_type; tauto); apply Nat.ltb_lt; reflexivity.
  - split; [exact Hf|]. intros z _. cbn [Y_w depth]. lia.
Qed.
Lemma m_anchors : anchors_known Y_w.
Proof.
  split.
  - exists (fun z h => bytes_eqb z com && bytes_eqb h (s2b "ns.com.") || bytes_eqb z ex_com && bytes_eqb h (s2b "ns.ex.com.")). intros z h. cbn [Y_w anchor]. rewrite orb_true_iff, !andb_true_iff, !bytes_eqb_eq. reflexivity.
  - exists (fun h => bytes_eqb h (s2b "ns.com.") || bytes_eqb h (s2b "ns.ex.com.")). intros h. cbn [Y_w anchor]. rewrite orb_true_iff, !bytes_eqb_eq. split.
    + intros [->| ->]; [exists com; left; now split|exists ex_com; right; now split].
    + intros (z & [(_ & ->)|(_ & ->)]); tauto.
Qed.
(** "www.com." is asked for; when that lookup has come some way, "www.ex.com." and "x.com.";
    they take turns, and packets of the first two are lost. *)
Definition m_turns : list choice :=
  C_new conf0 (s2b "www.com.") RT_A :: concat (repeat [C_lose 0; C_go 0] 6) ++
  C_new conf0 (s2b "www.ex.com.") RT_A :: C_new conf0 (s2b "x.com.") RT_A :: concat (repeat [C_lose 1; C_go 0; C_lose 0; C_go 2; C_go 1] 22).
Definition found (t : thread) : nat * option (list record * bool) := (length (t_sent t), match t_todo t with P_end (r, _) => shown r | _ => None end).

(** All three end and find what is written in the zone files; the first sent eight packets,
    four of them in vain. Meanwhile (after 60 steps) the last one had ended, the others not. *)
Theorem C94_nonvacuous : let g := m_setting Release 256 in let s := do_steps m_net g m_turns started in
  setting_ok g /\ healthy_setting g D_w Y_w 0 2 3 /\ anchors_known Y_w /\ reached_from g 0 (s 0) /\ course g s /\ fair g 0 s /\ fair g 1 s /\ fair g 2 s /\
  map found (s_threads (s 60)) = [(5, None); (2, None); (1, Some ([], true))] /\
  map found (s_threads (s 125)) = [(8, Some (map bare (w_alias :: w_www), false)); (4, Some (map bare w_www, false)); (1, Some ([], true))].
Proof.
  intros g s. assert (GO : setting_ok g) by apply m_ok.
  assert (Hm : Forall (may_come g) m_turns).
  { unfold m_turns. apply Forall_forall. intros ch Hin. destruct ch as [conf q kind|i|i]; [|exact Logic.I..]. cbn [may_come g m_setting m_setting_for g_asks].
    assert (X : forallb (fun ch => match ch with C_new c q k => (bytes_eqb q (s2b "www.com.") || bytes_eqb q (s2b "www.ex.com.") || bytes_eqb q (s2b "x.com.")) && rtype_eqb k RT_A && (Nat.eqb (max_ns c) 3 && Nat.eqb (max_retries c) 2 && Nat.eqb (max_cname c) 5 && negb (no_follow c) && silent c && negb (verbose c)) | _ => true end) m_turns = true) by (vm_compute; reflexivity).
    rewrite forallb_forall in X. specialize (X _ Hin). cbn beta iota in X. apply andb_true_iff in X as (X & Y1). apply andb_true_iff in X as (X & Y2). destruct conf as [a b c d e h]. cbn [max_ns max_retries max_cname no_follow silent verbose] in Y1.
    repeat (apply andb_true_iff in Y1 as (Y1 & ?)). apply Nat.eqb_eq in Y1. repeat match goal with H : Nat.eqb _ _ = true |- _ => apply Nat.eqb_eq in H end. repeat match goal with H : negb _ = true |- _ => apply negb_true_iff in H end. subst. split; [reflexivity|].
    apply rtype_eqb_eq in Y2. subst kind. unfold w_questions. cbn [In]. apply orb_true_iff in X as [X|X]; [apply orb_true_iff in X as [X|X]|]; apply bytes_eqb_eq in X; subst q; tauto. }
  assert (Hz : at_zero started) by (split; [reflexivity|constructor]).
  assert (HT : (0 < g_until g)%N) by (vm_compute; reflexivity).
  split; [exact GO|]. split; [apply m_healthy_setting; apply Nat.ltb_lt; reflexivity|]. split; [exact m_anchors|]. split; [split; [exact HT|constructor]|].
  split; [apply (do_steps_course m_net g eq_refl (fun _ _ => eq_refl) eq_refl HT m_turns started Hm Hz)|].
  split; [apply (do_steps_fair m_net g eq_refl (fun _ _ => eq_refl) eq_refl HT m_turns started 0 81 Hm Hz); vm_compute; reflexivity|].
  split; [apply (do_steps_fair m_net g eq_refl (fun _ _ => eq_refl) eq_refl HT m_turns started 1 69 Hm Hz); vm_compute; reflexivity|].
  split; [apply (do_steps_fair m_net g eq_refl (fun _ _ => eq_refl) eq_refl HT m_turns started 2 43 Hm Hz); vm_compute; reflexivity|].
  split; vm_compute; reflexivity.
Qed.
Print Assumptions C94_nonvacuous.

(** Questions of type CNAME are another matter: the cache is looked at twice, first for the
    records asked for, then for an alias of the name (recursive.rs:115-124). If another lookup
    saves the alias in between, the lookup takes it for an alias to follow, and tells the
    client that there is no such record (NXDOMAIN), with the record. All else in the
    hypotheses above holds. *)
Definition race_questions : list (name * rtype) := [(s2b "www.com.", RT_CNAME); (s2b "www.com.", RT_A)].
Definition race : list choice :=
  C_new conf0 (s2b "www.com.") RT_CNAME :: C_go 0 :: C_new conf0 (s2b "www.com.") RT_A :: repeat (C_go 1) 60 ++ repeat (C_go 0) 40.
Theorem C94_refuted_for_questions_of_type_CNAME : let g := m_setting_for race_questions Release 256 in let s := do_steps m_net g race started in
  setting_ok g /\ (forall env : environment, (forall n, g_ids g (ev_id (env n))) -> (forall n a x d, ev_net (env n) a x = Some d -> g_delivers g (ev_id (env n)) a x (Some d)) ->
    (forall i, exists k, k <= g_losses g /\ lossless g (env (i + k)%nat)) -> healthy Release env D_w Y_w 0 (g_until g) 2 3) /\
  Forall (fun qk => fair_question D_w conf0 (fst qk) (snd qk) /\ leaves_no_trap D_w Y_w (fst qk) (snd qk)) race_questions /\
  reached_from g 0 (s 103) /\
  map found (s_threads (s 103)) = [(1, Some ([bare w_alias], true)); (4, Some (map bare (w_alias :: w_www), false))] /\
  leads D_w (s2b "www.com.") RT_CNAME [] [w_alias].
Proof.
  intros g s. assert (HT : (0 < g_until g)%N) by (vm_compute; reflexivity).
  assert (Lc : leads D_w (s2b "www.com.") RT_CNAME [] [w_alias]) by (change [w_alias] with (D_w (s2b "www.com.") RT_CNAME); apply L_here; discriminate).
  split; [apply m_ok|]. split; [exact (m_healthy_always race_questions Release 256)|]. split.
  { constructor; [|constructor; [|constructor]]; (split; [|intros X; discriminate X]); cbn [fst snd]; [apply (w_fair _ _ _ _ Lc)|apply (w_fair _ _ _ _ (proj1 (proj2 w_leads)))]; try reflexivity; try (unfold usable_type; tauto); apply Nat.ltb_lt; reflexivity. }
  assert (Hm : Forall (may_come g) race).
  { unfold race. constructor; [split; [reflexivity|now left]|]. constructor; [exact Logic.I|]. constructor; [split; [reflexivity|right; now left]|]. apply Forall_app. split; apply Forall_forall; intros ch Hin; apply repeat_spec in Hin; subst ch; exact Logic.I. }
  assert (Hz : at_zero started) by (split; [reflexivity|constructor]).
  pose proof (do_steps_course m_net g eq_refl (fun _ _ => eq_refl) eq_refl HT race started Hm Hz) as C.
  split. { split; [exact HT|]. fold s in C. generalize 103. intros k. induction k as [|k IH]; [constructor|]. destruct (C k) as [->|St]; [exact IH|]. eapply steps_more; eassumption. }
  split; [vm_compute; reflexivity|exact Lc].
Qed.
Print Assumptions C94_refuted_for_questions_of_type_CNAME.
