(** C81: a zone is loaded exactly when its files are well formed. *)
From Coq Require Import Permutation.
From Verif Require Import Base Types Name NameSpec NameProofs PropName Codec CodecSpec Zone ZoneSpec ZoneProofs
  Tokens Parser NsSpec PropNs LoadSpec PropLoad PropServe PropCodec3 TokenSpec TokenProofs PropTok LoadProofs
  ZoneFileSpec ZoneFileRun ZoneFileDenote ZoneFileLoad ZoneFileTotal ZoneFileComplete PropZoneFile ZoneLoadSpec.

Lemma auth_check_ok : forall c n, params_ok c -> accepted n -> (auth_check c n <-> undelegated c n).
Proof.
  intros c n (Hz & _ & Hs) A. unfold auth_check, ensure_name_in_auth_zone, is_only_in_auth_zone, undelegated.
  pose proof (within_ok n (p_zone c) A Hz) as W. destruct (is_in_zone n (p_zone c)) eqn:E1; cbn [negb].
  - destruct (existsb (fun s => is_in_zone n s) (map sp_zone (p_subs c))) eqn:E2; cbn [negb].
    + split; [discriminate|]. intros (_ & F). exfalso. apply existsb_exists in E2 as (z & Hi & E2). apply in_map_iff in Hi as (s & <- & Hi).
      rewrite Forall_forall in Hs, F. apply (F s Hi). apply within_ok; [assumption|now apply Hs|assumption].
    + split; [|reflexivity]. intros _. split; [now apply W|]. apply Forall_forall. intros s Hi. rewrite Forall_forall in Hs. apply within_false; [assumption|now apply Hs|].
      destruct (is_in_zone n (sp_zone s)) eqn:E3; [|reflexivity]. exfalso. rewrite <- Bool.not_true_iff_false in E2. apply E2. apply existsb_exists.
      exists (sp_zone s). split; [now apply in_map|assumption].
  - split; [discriminate|]. intros (H & _). apply W in H. discriminate.
Qed.
Lemma sub_check_ok : forall z n, apex_ok z -> accepted n -> (ensure_name_in_zone n z = Ok tt <-> within n z).
Proof.
  intros z n Hz A. unfold ensure_name_in_zone. pose proof (within_ok n z A Hz) as W. destruct (is_in_zone n z); [|split; [discriminate|intros H; apply W in H; discriminate]].
  split; [intros _; now apply W|reflexivity].
Qed.

(** Well formed files are loaded, whatever the build, and what is served are their records. *)
Theorem C81_well_formed_files_are_loaded : forall p fs c sd, params_ok c -> loadable fs c sd ->
  exists zs N, serves zs sd /\ forall fuel, N <= fuel -> parse_zone_files p fs fuel c = Done (Ok zs).
Proof.
  intros p fs c sd Hc (Ha & (f & Ef & (ts & soa & mn & rest & rs' & R & S1 & W & Ers)) & Hsub & Hna & Hns & Hgc & Hgn).
  pose proof Hc as (Hz & Ht & Hs).
  assert (Wa : auth_well_formed fs (auth_check c) (p_zone c) (p_ttl c) f (d_records (s_auth sd))).
  { exists ts, soa, mn, rest, rs'. split; [exact R|]. split; [exact S1|]. split; [|exact Ers].
    eapply well_formed_imp; [|exact W|apply Hz]. intros n A. apply auth_check_ok; assumption. }
  destruct (auth_file_complete fs c f _ Ef Wa) as (fuel1 & az & Ea & Ba).
  assert (Ws : Forall2 (fun c d => d_apex d = sp_zone c /\ exists f, fs (sp_path c) = Some f /\
    sub_file_well_formed (fun n => ensure_name_in_zone n (sp_zone c) = Ok tt) (sp_min c) (sp_zone c) (sp_ttl c) f (d_records d)) (p_subs c) (s_subs sd)).
  { refine (Forall2_impl_in' _ _ _ _ _ _ Hsub _). intros s d Hi _ (Ed & g & Eg & ts' & R' & W'). split; [exact Ed|]. exists g. split; [exact Eg|].
    rewrite Forall_forall in Hs. destruct (Hs s Hi) as (Hz' & _). exists ts'. split; [exact R'|].
    eapply sub_well_formed_imp; [|exact W'|apply Hz']. intros n A. apply sub_check_ok; assumption. }
  destruct (sub_files_complete fs (p_subs c) (s_subs sd)) as (fuel2 & szs & Es & Fs); [|exact Ws|].
  { eapply Forall_impl; [|exact Hs]. intros s (Hz' & _). apply sub_check_ok; [assumption|apply Hz'|apply within_refl]. }
  set (N := Nat.max fuel1 fuel2).
  assert (Ea' : forall fuel, N <= fuel -> parse_auth_zone_file fs fuel c = Done (Ok az)).
  { intros fuel L. unfold parse_auth_zone_file in *. destruct (fs (p_path c)) as [f'|]; [|discriminate]. cbv zeta in *.
    apply bindR_inv in Ea as (((soa' & mn') & t) & E1 & E2). rewrite E1. cbn [bindR bind]. apply bindR_inv in E2 as (z & E2 & E3).
    rewrite (more_fuel _ _ _ _ (below_entries fs fuel1 fuel _ _ _ ltac:(lia)) E2). exact E3. }
  assert (Es' : forall fuel, N <= fuel -> parse_sub_zone_files fs fuel (p_subs c) = Done (Ok szs)).
  { intros fuel L. exact (more_fuel _ _ _ _ (below_subs fs fuel2 fuel _ ltac:(lia)) Es). }
  assert (Hserves : serves (mkManaged az szs) sd).
  { split; [|exact Fs]. split; [rewrite Ha; exact (built_zone _ _ _ Ba)|exact (built_holds _ _ _ Ba)]. }
  assert (Hap : apexes_ok sd).
  { split; [rewrite Ha; exact Hz|]. apply Forall_forall. intros d Hd. apply (forall2_in_r _ _ _ _ _ _ Hsub) in Hd as (s & Hi & (Ed & _)).
    rewrite Ed. rewrite Forall_forall in Hs. now apply Hs. }
  assert (Hfine : Forall (fun d => Forall record_fine (d_records d)) (s_subs sd)).
  { apply parse_sub_files_built in Es; [|exact Hs]. apply Forall_forall. intros d Hd. destruct (forall2_in_r _ _ _ _ _ _ Fs Hd) as (z & Hiz & Hst).
    destruct (forall2_in_r _ _ _ _ _ _ Es Hiz) as (s & Hi & rs & B & F).
    assert (St : stores z (mkData (sp_zone s) rs)) by (split; [exact (built_zone _ _ _ B)|exact (built_holds _ _ _ B)]).
    destruct (stores_same _ _ _ St Hst) as (_ & P & _). eapply Permutation_Forall; [exact P|]. eapply Forall_impl; [|exact F]. now intros r (H & _). }
  exists (mkManaged az szs), N. split; [exact Hserves|]. intros fuel L. unfold parse_zone_files. rewrite (Ea' fuel L). cbn [bindR bind]. rewrite (Es' fuel L). cbn [bindR bind]. cbv zeta.
  rewrite (auth_valid _ _ (proj1 Hserves) ltac:(rewrite Ha; exact Hna)). cbn [bindR bind]. rewrite for_each_ok; [reflexivity|].
  intros z Hiz. destruct (forall2_in_l _ _ _ _ _ _ Fs Hiz) as (d & Hd & Hst). eapply sub_valid; eassumption.
Qed.
Print Assumptions C81_well_formed_files_are_loaded.

(** Only well formed files are loaded. *)
Theorem C81_loaded_files_are_well_formed : forall p fs fuel c zs, params_ok c -> parse_zone_files p fs fuel c = Done (Ok zs) ->
  exists sd, serves zs sd /\ loadable fs c sd.
Proof.
  intros p fs fuel c zs Hc E0. pose proof Hc as (Hz & Ht & Hs). pose proof E0 as E. unfold parse_zone_files in E.
  apply bindR_inv in E as (az & Ea & E). apply bindR_inv in E as (szs & Es & E). cbv zeta in E.
  apply bindR_inv in E as (_ & _ & E). apply bindR_inv in E as (_ & _ & E). assert (zs = mkManaged az szs) as -> by congruence. clear E.
  destruct (auth_file_well _ _ _ _ Ea) as (f & rs & Ef & (ts & soa & mn & rest & rs' & R & S1 & W & Ers) & B). apply sub_files_well in Es.
  assert (D : exists ds, Forall2 stores szs ds /\ Forall2 (fun s d => d_apex d = sp_zone s /\ exists f, fs (sp_path s) = Some f /\
             sub_file_well_formed (fun n => within n (sp_zone s)) (sp_min s) (sp_zone s) (sp_ttl s) f (d_records d)) (p_subs c) ds).
  { clear - Es Hs. revert Hs. induction Es as [|s z cs zs (f & rs & Ef & (ts & R & W) & B) _ IH]; intros Hs; [exists []; split; constructor|].
    inversion Hs as [|? ? (H1 & _) H2]; subst. destruct (IH H2) as (ds & S1 & S2).
    exists (mkData (sp_zone s) rs :: ds). split.
    - constructor; [|exact S1]. split; [exact (built_zone _ _ _ B)|exact (built_holds _ _ _ B)].
    - constructor; [|exact S2]. split; [reflexivity|]. exists f. split; [exact Ef|]. exists ts. split; [exact R|].
      eapply sub_well_formed_imp; [|exact W|apply H1]. intros n A. apply sub_check_ok; assumption. }
  destruct D as (ds & S2 & S3). set (sd := mkServer (mkData (p_zone c) rs) ds).
  assert (Hserves : serves (mkManaged az szs) sd).
  { split; [|exact S2]. split; [exact (built_zone _ _ _ B)|exact (built_holds _ _ _ B)]. }
  exists sd. split; [exact Hserves|].
  destruct (C41_one_soa_and_ns_at_the_apex _ _ _ _ _ _ Hc E0 Hserves) as (_ & N1 & N2).
  destruct (C42_loaded_sub_zones _ _ _ _ _ _ Hc E0 Hserves) as (F2 & Hgc & Hgn).
  split; [reflexivity|]. split; [|split; [exact S3|split; [|split; [|split; [exact Hgc|exact Hgn]]]]].
  - exists f. split; [exact Ef|]. exists ts, soa, mn, rest, rs'. split; [exact R|]. split; [exact S1|]. split; [|exact Ers].
    eapply well_formed_imp; [|exact W|apply Hz]. intros n A. apply auth_check_ok; assumption.
  - split; [exact N1|]. apply Forall_forall. intros r Hr. apply filter_In in Hr as (Hr & Tr). apply rtype_eqb_eq in Tr. now apply N2.
  - apply Forall_forall. intros d Hd. destruct (forall2_in_r _ _ _ _ _ _ F2 Hd) as (s & Hi & Ed & F & Hne). split; [exact Hne|].
    apply Forall_forall. intros r Hr. apply filter_In in Hr as (Hr & Tr). apply rtype_eqb_eq in Tr. rewrite Forall_forall in F.
    destruct (F r Hr) as (_ & _ & [(_ & Hn)|(Tr' & _)]); [congruence|congruence].
Qed.
Print Assumptions C81_loaded_files_are_well_formed.

(** So: loaded if and only if well formed; and, when loading ends at all (C43), refused
    with an error if and only if not. *)
Theorem C81_loaded_iff_well_formed : forall p fs c, params_ok c ->
  ((exists fuel zs, parse_zone_files p fs fuel c = Done (Ok zs)) <-> exists sd, loadable fs c sd).
Proof.
  intros p fs c Hc. split.
  - intros (fuel & zs & E). destruct (C81_loaded_files_are_well_formed _ _ _ _ _ Hc E) as (sd & _ & L). now exists sd.
  - intros (sd & L). destruct (C81_well_formed_files_are_loaded p fs c sd Hc L) as (zs & N & _ & E). exists N, zs. now apply E.
Qed.
Print Assumptions C81_loaded_iff_well_formed.
Theorem C81_refused_iff_not_well_formed : forall p fs c, params_ok c ->
  (forall q f, fs q = Some f -> plain_file f) -> Acc (fun q q' => includes fs q' q) (p_path c) ->
  ((exists e N, forall fuel, N <= fuel -> parse_zone_files p fs fuel c = Done (Err e)) <-> ~ exists sd, loadable fs c sd).
Proof.
  intros p fs c Hc P A. destruct (C43_loading_terminates_partial p fs c P A) as (r & N & E & _). split.
  - intros (e & N' & E') (sd & L). destruct (C81_well_formed_files_are_loaded p fs c sd Hc L) as (zs & N2 & _ & E2).
    specialize (E' (Nat.max N' N2) ltac:(lia)). specialize (E2 (Nat.max N' N2) ltac:(lia)). congruence.
  - intros H. destruct r as [zs|e]; [|now exists e, N]. exfalso. apply H.
    destruct (C81_loaded_files_are_well_formed _ _ _ _ _ Hc (E N (le_n N))) as (sd & _ & L). now exists sd.
Qed.
Print Assumptions C81_refused_iff_not_well_formed.

(** The example files (with an include, sub zones and glue) are well formed; the same
    zone with the address of the delegated name server missing is not. *)
Definition bad_fs : filesys := fun path =>
  if bytes_eqb path (s2b "sub") then option_map (fun f => firstn 1 f) (ex_fs path) else ex_fs path.
Theorem C81_nonvacuous : params_ok ex_params /\ (exists sd, loadable ex_fs ex_params sd) /\
  (forall q f, bad_fs q = Some f -> plain_file f) /\ ~ exists sd, loadable bad_fs ex_params sd.
Proof.
  split; [apply ex_params_ok|]. split; [|split].
  - apply (C81_loaded_iff_well_formed Debug); [apply ex_params_ok|]. destruct (C46_C47_nonvacuous Debug) as (zs & _ & E & _). now exists 100, zs.
  - intros q f E. apply plainb_ok. unfold bad_fs in E. destruct (bytes_eqb q (s2b "sub")) eqn:Eq.
    + apply bytes_eqb_eq in Eq. subst q. vm_compute in E. injection E as <-. vm_compute. reflexivity.
    + apply ex_fs_cases in E as [(_ & ->)|[(_ & ->)|(_ & ->)]]; vm_compute; reflexivity.
  - intros (sd & L). destruct (C81_well_formed_files_are_loaded Debug _ _ _ ex_params_ok L) as (zs & N & _ & E). specialize (E (Nat.max N 100) ltac:(lia)).
    assert (K : exists e, parse_zone_files Debug bad_fs 100 ex_params = Done (Err e)) by (eexists; vm_compute; reflexivity). destruct K as (e & K).
    pose proof (more_fuel _ _ _ _ (below_load Debug bad_fs 100 (Nat.max N 100) ex_params ltac:(lia)) K) as K'. congruence.
Qed.
