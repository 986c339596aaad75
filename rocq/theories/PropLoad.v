(** C40-C42: what the loader guarantees, and the name server on loaded files. *)
From Coq Require Import Permutation.
From Verif Require Import Base Types Name NameSpec NameProofs PropName Codec CodecSpec Zone ZoneSpec ZoneProofs
  Tokens Parser NsSpec NsHandler PropNs LoadSpec LoadProofs PropCodec3.

Lemma for_each_all : forall A E (l : list A) (body : A -> exec (result unit E)),
  for_each l body = Done (Ok tt) -> forall x, In x l -> body x = Done (Ok tt).
Proof.
  induction l as [|a l IH]; intros body E0 x Hx; [destruct Hx|]. cbn [for_each] in E0.
  apply bindR_inv in E0 as ([] & E1 & E2). destruct Hx as [->|Hx]; auto.
Qed.

Lemma auth_validated : forall zs d, stores (auth_zone zs) d -> validate_auth_zone zs = Done (Ok tt) ->
  ns_at_apex (d_apex d) (d_records d).
Proof.
  intros zs d (Ez & _ & Hp) E. unfold validate_auth_zone in E. specialize (Hp RT_NS).
  destruct (length (zone_get_all_of_type (auth_zone zs) RT_NS) =? 0) eqn:L; [discriminate|].
  apply Nat.eqb_neq in L. split.
  - intros H. rewrite H in Hp. apply Permutation_sym, Permutation_nil in Hp. rewrite Hp in L. now apply L.
  - apply Forall_forall. intros r Hr. apply (Permutation_in _ (Permutation_sym Hp)) in Hr.
    pose proof (for_each_all _ _ _ _ E r Hr) as B. cbv beta in B. unfold is_in_zone_root in B.
    destruct (bytes_eqb (r_node r) (z_zone (auth_zone zs))) eqn:Eb; [|discriminate].
    apply bytes_eqb_eq in Eb. congruence.
Qed.

Lemma find_exec_true : forall A (f : A -> exec bool) l, find_exec f l = Done true -> exists x, In x l /\ f x = Done true.
Proof.
  induction l as [|a l IH]; intros E; [discriminate|]. cbn [find_exec] in E.
  destruct (f a) as [[]| |] eqn:Ef; try discriminate; cbn [bind] in E.
  - exists a. split; [now left|assumption].
  - destruct (IH E) as (x & H1 & H2). exists x. split; [now right|assumption].
Qed.

Lemma any_ns_is_true : forall a l, any_ns_is a l = Done true -> exists r, In r l /\ r_data r = D_NS a.
Proof.
  induction l as [|r l IH]; intros E; [discriminate|]. cbn [any_ns_is] in E. unfold ns_data in E.
  destruct (r_data r) eqn:Ed; try discriminate. cbn [bind] in E. destruct (bytes_eqb a n) eqn:Eb.
  - apply bytes_eqb_eq in Eb. subst. exists r. split; [now left|assumption].
  - destruct (IH E) as (x & H1 & H2). exists x. split; [now right|assumption].
Qed.

Lemma owned_of_type : forall n t rs r, In r (owned n t rs) -> In r (of_type t rs) /\ r_node r = n.
Proof.
  intros n t rs r H. unfold owned in H. apply filter_In in H as (H1 & H2). apply andb_prop in H2 as (H2 & H3).
  split; [apply filter_In; now split|now apply bytes_eqb_eq].
Qed.

Lemma forall2_in_r : forall A B (R : A -> B -> Prop) l l' y, Forall2 R l l' -> In y l' -> exists x, In x l /\ R x y.
Proof.
  induction 1 as [|a b l l' H1 H2 IH]; intros Hy; [destruct Hy|]. destruct Hy as [->|Hy].
  - exists a. split; [now left|assumption].
  - destruct (IH Hy) as (x & H3 & H4). exists x. split; [now right|assumption].
Qed.
Lemma forall2_in_l : forall A B (R : A -> B -> Prop) l l' x, Forall2 R l l' -> In x l -> exists y, In y l' /\ R x y.
Proof.
  induction 1 as [|a b l l' H1 H2 IH]; intros Hy; [destruct Hy|]. destruct Hy as [->|Hy].
  - exists b. split; [now left|assumption].
  - destruct (IH Hy) as (y & H3 & H4). exists y. split; [now right|assumption].
Qed.

Lemma in_targets : forall nss n, In n (targets nss) <-> exists r, In r nss /\ r_data r = D_NS n.
Proof.
  intros nss n. unfold targets. rewrite in_flat_map. split.
  - intros (r & H1 & H2). exists r. split; [assumption|]. destruct (r_data r); try destruct H2; subst; [reflexivity|contradiction].
  - intros (r & H1 & H2). exists r. split; [assumption|]. rewrite H2. now left.
Qed.

Lemma sub_validated : forall p zs sd z d, serves zs sd -> Forall (fun d => Forall record_fine (d_records d)) (s_subs sd) ->
  apexes_ok sd -> In z (sub_zones zs) -> In d (s_subs sd) -> stores z d ->
  validate_subzone p z zs = Done (Ok tt) ->
  ns_at_apex (d_apex d) (d_records d) /\
  (forall d' n, In d' (s_subs sd) -> In n (servers_of d) -> within n (d_apex (s_auth sd)) -> within n (d_apex d') ->
     owned n RT_A (d_records d') <> []) /\
  (forall r, In r (of_type RT_A (d_records d)) -> exists d', In d' (s_subs sd) /\ In (r_node r) (servers_of d')).
Proof.
  intros p zs sd z d ((Eau & Hau) & Hsub) Hfine (Ha1 & Ha2) Hz Hd (Ez & Hl & Hp) E. unfold validate_subzone in E.
  destruct (length (zone_get_all_of_type z RT_NS) =? 0) eqn:L; [discriminate|].
  apply bindR_inv in E as ([] & E1 & E2). pose proof (Hp RT_NS) as Hns. pose proof (Hp RT_A) as HA.
  assert (Hnode : Forall (fun r => r_node r = d_apex d) (of_type RT_NS (d_records d))).
  { apply Forall_forall. intros r Hr. apply (Permutation_in _ (Permutation_sym Hns)) in Hr.
    pose proof (for_each_all _ _ _ _ E1 r Hr) as B. cbv beta in B. unfold is_in_zone_root in B.
    destruct (bytes_eqb (r_node r) (z_zone z)) eqn:Eb; [|discriminate]. apply bytes_eqb_eq in Eb. congruence. }
  split; [split; [|exact Hnode]|split].
  - intros H. rewrite H in Hns. apply Permutation_sym, Permutation_nil in Hns. rewrite Hns in L. discriminate L.
  - intros d' n Hd' Hn Hw1 Hw2. unfold servers_of in Hn. apply in_targets in Hn as (r & Hr & Er).
    assert (Hrf : record_fine r).
    { rewrite Forall_forall in Hfine. specialize (Hfine d Hd). rewrite Forall_forall in Hfine. apply Hfine.
      now apply filter_In in Hr as (H & _). }
    assert (Hacc : accepted n) by (destruct Hrf as (_ & _ & _ & H); now rewrite Er in H).
    rewrite Forall_forall in Hnode. pose proof (Hnode r Hr) as Hrn.
    apply (Permutation_in _ (Permutation_sym Hns)) in Hr.
    pose proof (for_each_all _ _ _ _ E1 r Hr) as B. cbv beta in B. unfold is_in_zone_root in B.
    destruct (bytes_eqb (r_node r) (z_zone z)); [|discriminate]. cbn [negb] in B. unfold ns_data in B. rewrite Er in B. cbn [bind] in B.
    rewrite Eau in B. apply within_ok in Hw1; try assumption. rewrite Hw1 in B. cbn [negb] in B.
    apply (forall2_in_r _ _ _ _ _ _ Hsub) in Hd' as Hz'. destruct Hz' as (z' & Hz' & (Ez' & Hl' & Hp')).
    pose proof (for_each_all _ _ _ _ B z' Hz') as G. cbv beta in G. rewrite Ez' in G.
    rewrite Forall_forall in Ha2. apply within_ok in Hw2; [|assumption|now apply Ha2]. rewrite Hw2 in G.
    unfold search_glue_records in G. rewrite Hl' in G. cbn [bind] in G. unfold lookup in G.
    destruct (owned n RT_A (d_records d')); [discriminate G|discriminate].
  - intros r Hr. apply (Permutation_in _ (Permutation_sym HA)) in Hr.
    pose proof (for_each_all _ _ _ _ E2 r Hr) as B. cbv beta in B.
    destruct (find_exec _ _) as [[]| |] eqn:Ef; try discriminate. apply find_exec_true in Ef as (z' & Hz' & Ef).
    apply (forall2_in_l _ _ _ _ _ _ Hsub) in Hz' as (d' & Hd' & (Ez' & Hl' & Hp')). exists d'. split; [assumption|].
    unfold search_referred_ns in Ef. rewrite Ez', Hl' in Ef. cbn [bind] in Ef. unfold lookup in Ef.
    destruct (owned (d_apex d') RT_NS (d_records d')) as [|r0 l0] eqn:Eo; [discriminate|].
    apply any_ns_is_true in Ef as (r1 & Hr1 & Er1). rewrite <- Eo in Hr1. apply owned_of_type in Hr1 as (Hr1 & _).
    apply in_targets. now exists r1.
Qed.

Lemma Forall2_impl_in' : forall A B (P Q : A -> B -> Prop) l l', Forall2 P l l' ->
  (forall x y, In x l -> In y l' -> P x y -> Q x y) -> Forall2 Q l l'.
Proof.
  induction 1 as [|a b l l' H1 H2 IH]; intros H; constructor.
  - apply H; [now left|now left|assumption].
  - apply IH. intros x y Hx Hy. apply H; now right.
Qed.

(** Everything at once, for the record list in the order of the files. *)
Lemma loaded : forall p fs fuel c zs, params_ok c -> parse_zone_files p fs fuel c = Done (Ok zs) ->
  exists sd soa minimum, serves zs sd /\
    d_apex (s_auth sd) = p_zone c /\ Forall (auth_record_ok c minimum) (d_records (s_auth sd)) /\
    soa_of (d_records (s_auth sd)) soa minimum /\ r_node soa = p_zone c /\
    ns_at_apex (p_zone c) (d_records (s_auth sd)) /\
    Forall2 (fun s d => d_apex d = sp_zone s /\ Forall (sub_record_ok s) (d_records d) /\ ns_at_apex (sp_zone s) (d_records d))
      (p_subs c) (s_subs sd) /\
    glue_complete sd /\ glue_needed sd.
Proof.
  intros p fs fuel c zs Hc E. unfold parse_zone_files in E.
  apply bindR_inv in E as (az & Ea & E). apply bindR_inv in E as (szs & Es & E). cbv zeta in E.
  apply bindR_inv in E as ([] & V1 & E). apply bindR_inv in E as ([] & V2 & E).
  assert (zs = mkManaged az szs) as -> by congruence. clear E.
  apply parse_auth_built in Ea; [|assumption]. destruct Ea as (soa & minimum & rs & Ba & Fa & S1 & S2 & S3 & S4).
  pose proof Hc as (Hz & Ht & Hs). apply parse_sub_files_built in Es; [|exact Hs].
  assert (Hds : exists ds, Forall2 stores szs ds /\
    Forall2 (fun s d => d_apex d = sp_zone s /\ Forall (sub_raw_ok (sp_zone s) (sp_min s)) (d_records d)) (p_subs c) ds).
  { clear -Es. induction Es as [|s z ss zs (rs & B & F) H IH].
    - exists []. split; constructor.
    - destruct IH as (ds & D1 & D2). exists (mkData (sp_zone s) rs :: ds). split; constructor; try assumption.
      + split; [exact (built_zone _ _ _ B)|exact (built_holds _ _ _ B)].
      + now split. }
  destruct Hds as (ds & D1 & D2).
  set (sd := mkServer (mkData (p_zone c) (rs ++ [soa])) ds). exists sd, soa, minimum.
  assert (Hserves : serves (mkManaged az szs) sd).
  { split; [|exact D1]. split; [exact (built_zone _ _ _ Ba)|exact (built_holds _ _ _ Ba)]. }
  assert (Hap : apexes_ok sd).
  { split; [exact Hz|]. apply Forall_forall. intros d Hd. apply (forall2_in_r _ _ _ _ _ _ D2) in Hd as (s & Hs' & (Ed & _)).
    rewrite Ed. rewrite Forall_forall in Hs. now apply Hs. }
  assert (Hfine : Forall (fun d => Forall record_fine (d_records d)) (s_subs sd)).
  { apply Forall_forall. intros d Hd. apply (forall2_in_r _ _ _ _ _ _ D2) in Hd as (s & Hs' & (Ed & F)).
    eapply Forall_impl; [|exact F]. now intros r (H & _). }
  assert (Hsubs : forall z d, In z szs -> In d ds -> stores z d ->
     ns_at_apex (d_apex d) (d_records d) /\
     (forall d' n, In d' (s_subs sd) -> In n (servers_of d) -> within n (d_apex (s_auth sd)) -> within n (d_apex d') ->
       owned n RT_A (d_records d') <> []) /\
     (forall r, In r (of_type RT_A (d_records d)) -> exists d', In d' (s_subs sd) /\ In (r_node r) (servers_of d'))).
  { intros z d Hz' Hd Hst. eapply sub_validated; try eassumption. exact (for_each_all _ _ _ _ V2 z Hz'). }
  assert (Hsub' : forall d, In d ds -> ns_at_apex (d_apex d) (d_records d) /\
     (forall d' n, In d' (s_subs sd) -> In n (servers_of d) -> within n (d_apex (s_auth sd)) -> within n (d_apex d') ->
       owned n RT_A (d_records d') <> []) /\
     (forall r, In r (of_type RT_A (d_records d)) -> exists d', In d' (s_subs sd) /\ In (r_node r) (servers_of d'))).
  { intros d Hd. destruct (forall2_in_r _ _ _ _ _ _ D1 Hd) as (z & Hz' & Hst). eauto. }
  split; [exact Hserves|]. split; [reflexivity|]. cbn [s_auth d_records d_apex].
  assert (Fns : Forall (fun r => record_type r <> RT_SOA) rs) by (eapply Forall_impl; [|exact Fa]; now intros r (_ & _ & H & _)).
  destruct S4 as (m & r & a & b & c0 & d0 & Esoa).
  assert (Tsoa : record_type soa = RT_SOA) by (unfold record_type; now rewrite Esoa).
  split; [|split; [|split; [exact S2|split; [exact (auth_validated _ _ (proj1 Hserves) V1)|split; [|split]]]]].
  - apply Forall_app. split.
    + eapply Forall_impl; [|exact Fa]. intros x (R1 & R2 & R3 & (R4 & R5 & R6) & R7). cbn [ps_zone ps_subs ps_min] in *.
      repeat split; try assumption; try apply R1. rewrite Forall_map in R6. exact R6.
    + constructor; [|constructor]. split; [exact S1|]. rewrite Tsoa, S2. split; [vm_compute; tauto|].
      split; [apply within_refl|]. split; [exact S3|now left].
  - split.
    + change (of_type RT_SOA (rs ++ [soa]) = [soa]). rewrite of_type_app. assert (of_type RT_SOA rs = []) as ->.
      { unfold of_type. clear -Fns. induction Fns as [|x l H F IH]; [reflexivity|]. cbn [filter].
        destruct (rtype_eqb (record_type x) RT_SOA) eqn:Eb; [apply rtype_eqb_eq in Eb; contradiction|exact IH]. }
      unfold of_type. cbn [filter]. rewrite Tsoa. reflexivity.
    + now exists m, r, a, b, c0, d0.
  - cbn [s_subs sd]. refine (Forall2_impl_in' _ _ _ _ _ _ D2 _).
    intros s d Hin1 Hin2 (Ed & F). destruct (Hsub' d Hin2) as (Hna & _). rewrite Ed in Hna. split; [exact Ed|]. split; [|exact Hna].
    apply Forall_forall. intros x Hx. rewrite Forall_forall in F. destruct (F x Hx) as (R1 & R2 & R3 & R4).
    split; [exact R1|]. split; [exact R2|]. destruct R4 as [R4|R4]; [|right; now split]. left. split; [exact R4|].
    destruct Hna as (_ & Hna). rewrite Forall_forall in Hna. apply Hna. apply filter_In. split; [exact Hx|]. now apply rtype_eqb_eq.
  - intros d d' n Hd Hd' Hn Hw1 Hw2. destruct (Hsub' d Hd) as (_ & G & _). eauto.
  - intros d x Hd Hx. destruct (Hsub' d Hd) as (_ & _ & G). eauto.
Qed.

(** A store determines its records up to their order, and the order of those with the
    same owner and type. *)
Lemma stores_same : forall z d d', stores z d -> stores z d' ->
  d_apex d = d_apex d' /\ Permutation (d_records d) (d_records d') /\
  forall n t, owned n t (d_records d) = owned n t (d_records d').
Proof.
  intros z d d' (E & H & _) (E' & H' & _). split; [congruence|].
  assert (O : forall n t, owned n t (d_records d) = owned n t (d_records d')).
  { intros n t. specialize (H Debug n t). specialize (H' Debug n t). rewrite H in H'. unfold lookup in H'.
    destruct (owned n t (d_records d)), (owned n t (d_records d')); congruence. }
  split; [now apply owned_perm|exact O].
Qed.

Lemma forall2_same : forall zs ds ds', Forall2 stores zs ds -> Forall2 stores zs ds' ->
  Forall2 (fun d d' => d_apex d = d_apex d' /\ Permutation (d_records d) (d_records d') /\
                       forall n t, owned n t (d_records d) = owned n t (d_records d')) ds ds'.
Proof.
  intros zs ds ds' H. revert ds'. induction H as [|z d zs ds H1 H2 IH]; intros ds' H'; inversion H'; subst; constructor.
  - eapply stores_same; eassumption.
  - now apply IH.
Qed.

Lemma ns_at_apex_perm : forall a rs rs', Permutation rs rs' -> ns_at_apex a rs -> ns_at_apex a rs'.
Proof.
  intros a rs rs' P (H1 & H2). apply (perm_filter _ (fun r => rtype_eqb (record_type r) RT_NS)) in P. split.
  - intros H. apply H1. unfold of_type in *. rewrite H in P. now apply Permutation_sym, Permutation_nil in P.
  - eapply Permutation_Forall; [exact P|exact H2].
Qed.

Theorem C40_loaded_records_respect_the_zone : forall p fs fuel c zs,
  params_ok c -> parse_zone_files p fs fuel c = Done (Ok zs) ->
  (exists sd, serves zs sd) /\
  forall sd, serves zs sd -> d_apex (s_auth sd) = p_zone c /\
    exists soa minimum, soa_of (d_records (s_auth sd)) soa minimum /\
      Forall (auth_record_ok c minimum) (d_records (s_auth sd)).
Proof.
  intros p fs fuel c zs Hc E. destruct (loaded _ _ _ _ _ Hc E) as (sd0 & soa & mn & Hs & H1 & H2 & H3 & _).
  split; [now exists sd0|]. intros sd Hs'. destruct (stores_same _ _ _ (proj1 Hs) (proj1 Hs')) as (E1 & P & _).
  split; [congruence|]. exists soa, mn. split.
  - destruct H3 as (H3 & H4). split; [|exact H4]. apply (perm_filter _ (fun r => rtype_eqb (record_type r) RT_SOA)) in P.
    unfold of_type in *. rewrite H3 in P. now apply Permutation_length_1_inv in P.
  - eapply Permutation_Forall; eassumption.
Qed.
Print Assumptions C40_loaded_records_respect_the_zone.

Theorem C41_one_soa_and_ns_at_the_apex : forall p fs fuel c zs sd,
  params_ok c -> parse_zone_files p fs fuel c = Done (Ok zs) -> serves zs sd ->
  (exists soa, of_type RT_SOA (d_records (s_auth sd)) = [soa] /\ r_node soa = p_zone c) /\
  of_type RT_NS (d_records (s_auth sd)) <> [] /\
  forall r, In r (d_records (s_auth sd)) -> record_type r = RT_NS -> r_node r = p_zone c.
Proof.
  intros p fs fuel c zs sd Hc E Hs'. destruct (loaded _ _ _ _ _ Hc E) as (sd0 & soa & mn & Hs & H1 & H2 & H3 & H4 & H5 & _).
  destruct (stores_same _ _ _ (proj1 Hs) (proj1 Hs')) as (E1 & P & _). split.
  - exists soa. split; [|exact H4]. destruct H3 as (H3 & _). apply (perm_filter _ (fun r => rtype_eqb (record_type r) RT_SOA)) in P.
    unfold of_type in *. rewrite H3 in P. now apply Permutation_length_1_inv in P.
  - apply (ns_at_apex_perm _ _ _ P) in H5 as (H5 & H6). split; [exact H5|]. intros r Hr Ht.
    rewrite Forall_forall in H6. apply H6. apply filter_In. split; [exact Hr|]. now apply rtype_eqb_eq.
Qed.
Print Assumptions C41_one_soa_and_ns_at_the_apex.

Theorem C42_loaded_sub_zones : forall p fs fuel c zs sd,
  params_ok c -> parse_zone_files p fs fuel c = Done (Ok zs) -> serves zs sd ->
  Forall2 (fun s d => d_apex d = sp_zone s /\ Forall (sub_record_ok s) (d_records d) /\ of_type RT_NS (d_records d) <> [])
    (p_subs c) (s_subs sd) /\
  glue_complete sd /\ glue_needed sd.
Proof.
  intros p fs fuel c zs sd Hc E Hs'.
  destruct (loaded _ _ _ _ _ Hc E) as (sd0 & soa & mn & Hs & H1 & H2 & H3 & H4 & H5 & H6 & H7 & H8).
  destruct (stores_same _ _ _ (proj1 Hs) (proj1 Hs')) as (E1 & _).
  pose proof (forall2_same _ _ _ (proj2 Hs) (proj2 Hs')) as S.
  assert (Srv : forall d d' n, Permutation (d_records d) (d_records d') -> In n (servers_of d) -> In n (servers_of d')).
  { intros d d' n P H. unfold servers_of in *. apply in_targets in H as (r & Hr & Er). apply in_targets. exists r. split; [|exact Er].
    eapply Permutation_in; [|exact Hr]. now apply perm_filter. }
  split; [|split].
  - clear -H6 S. revert H6. generalize (p_subs c). induction S as [|d d' ds ds' (E1 & P & _) S IH]; intros ss H; inversion H as [|s ? ss' ? (A1 & A2 & A3) H']; subst; constructor.
    + split; [congruence|]. split; [eapply Permutation_Forall; eassumption|]. exact (proj1 (ns_at_apex_perm _ _ _ P A3)).
    + now apply IH.
  - intros d d' n Hd Hd' Hn Hw1 Hw2.
    destruct (forall2_in_r _ _ _ _ _ _ S Hd) as (d0 & Hd0 & (_ & P0 & _)).
    destruct (forall2_in_r _ _ _ _ _ _ S Hd') as (d0' & Hd0' & (Ea & _ & O)). rewrite <- O.
    apply (H7 d0 d0' n); try assumption; try congruence.
    eapply Srv; [|exact Hn]. now apply Permutation_sym.
  - intros d r Hd Hr. destruct (forall2_in_r _ _ _ _ _ _ S Hd) as (d0 & Hd0 & (_ & P0 & _)).
    destruct (H8 d0 r) as (d1 & Hd1 & Hn); [assumption| |].
    + eapply Permutation_in; [|exact Hr]. apply perm_filter. now apply Permutation_sym.
    + destruct (forall2_in_l _ _ _ _ _ _ S Hd1) as (d2 & Hd2 & (_ & P2 & _)). exists d2. split; [assumption|]. eauto.
Qed.
Print Assumptions C42_loaded_sub_zones.

(** So the premises of the theorems about the name server (C29-C37) hold of every
    server started from files. *)
Theorem C40_C42_give_zone_loaded : forall p fs fuel c zs sd,
  params_ok c -> parse_zone_files p fs fuel c = Done (Ok zs) -> serves zs sd -> zone_loaded sd.
Proof.
  intros p fs fuel c zs sd Hc E Hs. destruct (C40_loaded_records_respect_the_zone _ _ _ _ _ Hc E) as (_ & H40).
  destruct (H40 sd Hs) as (Ha & soa & mn & Hsoa & Fa). destruct (C41_one_soa_and_ns_at_the_apex _ _ _ _ _ _ Hc E Hs) as ((soa' & So & Sn) & _).
  destruct (C42_loaded_sub_zones _ _ _ _ _ _ Hc E Hs) as (F2 & _). destruct Hc as (Hz & _ & Hsubs).
  assert (In soa' (of_type RT_SOA (d_records (s_auth sd)))) as Hi by (rewrite So; now left).
  unfold of_type in Hi. apply filter_In in Hi as (Hi & Ht). apply rtype_eqb_eq in Ht.
  assert (G : forall d, In d (s_subs sd) -> exists s, In s (p_subs c) /\ d_apex d = sp_zone s /\ Forall (sub_record_ok s) (d_records d) /\ of_type RT_NS (d_records d) <> []).
  { intros d Hd. destruct (forall2_in_r _ _ _ _ _ _ F2 Hd) as (s & Hi' & H). now exists s. }
  rewrite Forall_forall in Hsubs.
  split; [split; [congruence|]|split; [|split; [|split; [|split]]]].
  - apply Forall_forall. intros d Hd. destruct (G d Hd) as (s & Hi' & Ed & _). rewrite Ed. now apply Hsubs.
  - intros H. assert (In soa' (owned (d_apex (s_auth sd)) RT_SOA (d_records (s_auth sd)))) as Hx.
    { apply filter_In. split; [exact Hi|]. apply andb_true_intro. split; [apply bytes_eqb_eq; congruence|now apply rtype_eqb_eq]. }
    rewrite H in Hx. destruct Hx.
  - apply Forall_forall. intros d Hd. destruct (G d Hd) as (s & Hi' & Ed & Fd & Hne) . intros H. apply Hne.
    destruct (of_type RT_NS (d_records d)) as [|r l] eqn:Eo; [reflexivity|exfalso].
    assert (In r (of_type RT_NS (d_records d))) as Hr by (rewrite Eo; now left).
    apply filter_In in Hr as (Hr & Tr). apply rtype_eqb_eq in Tr. rewrite Forall_forall in Fd.
    destruct (Fd r Hr) as (_ & _ & [(_ & Hn)|(Tr' & _)]); [|congruence].
    assert (In r (owned (d_apex d) RT_NS (d_records d))) as Hx.
    { apply filter_In. split; [exact Hr|]. apply andb_true_intro. split; [apply bytes_eqb_eq; congruence|now apply rtype_eqb_eq]. }
    rewrite H in Hx. destruct Hx.
  - eapply Forall_impl; [|exact Fa]. now intros r (H & _).
  - apply Forall_forall. intros d Hd. destruct (G d Hd) as (s & Hi' & Ed & Fd & _). eapply Forall_impl; [|exact Fd]. now intros r (H & _).
  - apply Forall_forall. intros d Hd. destruct (G d Hd) as (s & Hi' & Ed & Fd & _). eapply Forall_impl; [|exact Fd].
    intros r (_ & _ & [(_ & H)|(_ & H)]).
    + rewrite Ed, <- H. apply within_refl.
    + now rewrite Ed.
Qed.
Print Assumptions C40_C42_give_zone_loaded.
