(** Whole files: what they denote, and that loading them ends. *)
From Verif Require Import Base Types Name NameSpec NameProofs PropName Codec CodecSpec Zone ZoneSpec ZoneProofs
  Tokens Parser NsSpec PropNs LoadSpec PropCodec3 TokenSpec TokenProofs PropTok LexSpec LexProofs LoadProofs ZoneFileSpec ZoneFileRun ZoneFileDenote.

(** *** Where an action succeeded, the tokens can be read if those after it can. *)
Definition readable (t : tok) (o : option zone_err) : Prop := exists ts, reads t ts o.
Definition back {A} (m : T A) : Prop := forall t x t', good t -> m t = Done (Ok (x, t')) ->
  good t' /\ forall o, readable t' o -> readable t o.

Lemma back_ret : forall A (a : A), back (retT a).
Proof. intros A a t x t' G E. assert (t' = t) as -> by (unfold retT, tryT in E; congruence). auto. Qed.
Lemma back_fail : forall A e, back (@failT A e).
Proof. intros A e t x t' G E. discriminate. Qed.
Lemma back_panic : forall A k, back (fun _ => Panic k : exec (result (A * tok) zone_err)).
Proof. intros A e t x t' G E. discriminate. Qed.
Lemma back_diverge : forall A, back (fun _ => Diverge : exec (result (A * tok) zone_err)).
Proof. intros A t x t' G E. discriminate. Qed.
Lemma back_bind : forall A B (m : T A) (k : A -> T B), back m -> (forall x, back (k x)) -> back (bindTk m k).
Proof.
  intros A B m k Hm Hk t x t' G E. unfold bindTk in E. apply bindR_inv in E as ((y & t1) & E1 & E2). cbn [fst snd] in E2.
  destruct (Hm _ _ _ G E1) as (G1 & R1). destruct (Hk _ _ _ _ G1 E2) as (G2 & R2). split; auto.
Qed.
Lemma back_try : forall A (r : result A zone_err), back (tryT r).
Proof. intros A [a|e] t x t' G E; [|discriminate]. assert (t' = t) as -> by (unfold retT, tryT in E; congruence). auto. Qed.
Lemma back_next : back next.
Proof.
  intros t x t' G E. pose proof (next_ok t G) as F. rewrite E in F. destruct F as (G' & _ & _ & _ & F & _). split; [assumption|].
  intros o (ts & R). assert (C : x = T_End \/ x <> T_End) by (destruct x; (now left) || (right; discriminate)). destruct C as [->|Hx].
  - destruct (reads_det _ _ _ (reads_ended t' (F eq_refl)) _ _ R) as (<- & <-). exists []. eapply reads_end; eassumption.
  - exists (x :: ts). eapply reads_token; eassumption.
Qed.
Lemma back_skip : forall fuel, back (skip_blanks fuel).
Proof.
  induction fuel as [|fuel IH]; [apply back_diverge|]. cbn [skip_blanks]. apply back_bind; [apply back_next|]. intros x. destruct x; try apply back_ret. exact IH.
Qed.
Lemma back_nab : back next_after_blanks.
Proof. intros t x t' G E. exact (back_skip _ _ _ _ G E). Qed.
Lemma back_repeek : forall m, back m -> (forall t, good t -> next_factsT t (m t)) ->
  back ((fun t => bindR (m t) (fun x => Done (Ok (fst x, with_peeked (snd x) (tk_peeked (snd x) ++ [fst x]))))) : T token).
Proof.
  intros m Hm Fm t x t' G E. pose proof (Fm t G) as F. pose proof (repeek_ok t m F) as P. rewrite E in P.
  apply bindR_inv in E as ((y & t1) & E1 & E2). cbn [fst snd] in E2. rewrite E1 in F.
  assert (y = x /\ t' = with_peeked t1 (tk_peeked t1 ++ [x])) as (-> & ->) by (split; congruence).
  destruct P as (G' & _). split; [assumption|]. destruct (Hm _ _ _ G E1) as (_ & H). intros o Ho. apply H.
  destruct F as (_ & _ & _ & _ & F1 & F2). destruct Ho as (ts & R).
  assert (C : x = T_End \/ x <> T_End) by (destruct x; (now left) || (right; discriminate)). destruct C as [->|Hx].
  - exists []. specialize (F1 eq_refl). assert (D : ended (with_peeked t1 (tk_peeked t1 ++ [T_End]))).
    { destruct F1 as (D1 & D2 & D3 & D4). repeat split; auto. cbn. apply Forall_app. now repeat constructor. }
    destruct (reads_det _ _ _ (reads_ended _ D) _ _ R) as (_ & <-). now apply reads_ended.
  - destruct (F2 Hx) as (L & Ep). rewrite Ep in R.
    assert (E : next (with_peeked t1 ([] ++ [x])) = Done (Ok (x, t1))).
    { unfold next. destruct t1 as [rest cur ps multi line]. cbn [tk_peeked tk_line] in *. subst ps. cbn [with_peeked tk_rest tk_cur tk_multi tk_line tk_peeked app].
      generalize (tok_size (mkTok rest cur [x] multi line)). intros n. cbn [next_rec]. unfold bootstrap. cbn [tk_line].
      destruct line as [|line]; [lia|]. reflexivity. }
    inversion R; subst; try congruence. exists ts0. congruence.
Qed.
Lemma back_peek : back peek.
Proof. exact (back_repeek next back_next next_ok). Qed.
Lemma back_pab : back peek_after_blanks.
Proof. exact (back_repeek next_after_blanks back_nab (fun t G => proj1 (next_after_blanks_ok t G))). Qed.
Lemma back_unwrap : forall m : T token, back m -> back ((fun t => let! r := m t in match r with Ok x => Done (Ok x) | Err _ => Panic PUnwrap end) : T token).
Proof. intros m Hm t x t' G E. destruct (m t) as [[[y t1]|e]|k|] eqn:Em; try discriminate. cbn [bind] in E. rewrite E in Em. exact (Hm _ _ _ G Em). Qed.
Lemma back_next_unwrap : back next_unwrap. Proof. exact (back_unwrap next back_next). Qed.
Lemma back_nab_unwrap : back next_after_blanks_unwrap. Proof. exact (back_unwrap next_after_blanks back_nab). Qed.

Ltac bk := repeat first
  [ match goal with
    | |- back (bindTk _ _) => apply back_bind
    | |- back next => apply back_next
    | |- back next_after_blanks => apply back_nab
    | |- back peek_after_blanks => apply back_pab
    | |- back next_unwrap => apply back_next_unwrap
    | |- back next_after_blanks_unwrap => apply back_nab_unwrap
    | |- back (tryT _) => apply back_try
    | |- back (retT _) => apply back_ret
    | |- back (failT _) => apply back_fail
    | |- back (fun _ => Panic _) => apply back_panic
    | |- back (fun _ => Diverge) => apply back_diverge
    | |- forall _, _ => intro
    | |- back (let _ := _ in _) => cbv zeta
    | |- back (match ?x with _ => _ end) => destruct x
    | |- back (close_line ?x _) => destruct x; cbn [close_line]
    end ].
Lemma back_ttl_class : back parse_ttl_class. Proof. unfold parse_ttl_class. bk. Qed.
Lemma back_txts : forall fuel acc, back (parse_txts fuel acc).
Proof. induction fuel as [|fuel IH]; intros acc; cbn [parse_txts]; bk; apply IH. Qed.
Lemma back_discard : forall fuel, back (discard_strings fuel).
Proof. induction fuel as [|fuel IH]; cbn [discard_strings]; bk; apply IH. Qed.
Lemma back_name_token : forall o, back (parse_name_token o). Proof. intros o. unfold parse_name_token. bk. Qed.
Lemma back_number : back parse_number. Proof. unfold parse_number. bk. Qed.
Lemma back_soa : forall o node cl ttl, back (parse_soa_record o node cl ttl).
Proof. intros. unfold parse_soa_record. repeat (apply back_bind; [apply back_name_token || apply back_number|intro]). bk. Qed.
Lemma back_data : forall fuel rt o node cl ttl, back (parse_record_data fuel rt o node cl ttl).
Proof.
  intros fuel rt o node cl ttl. unfold parse_record_data. destruct rt; bk.
  - unfold parse_a_record. bk.
  - unfold parse_ns_record. apply back_bind; [apply back_name_token|]. bk.
  - unfold parse_cname_record. bk.
  - unfold parse_wks_record. bk. apply back_discard.
  - unfold parse_ptr_record. bk.
  - unfold parse_hinfo_record. bk.
  - unfold parse_mx_record. bk. apply back_name_token.
  - unfold parse_txt_record. apply back_bind; [apply back_txts|]. bk.
Qed.
Lemma back_record : forall fuel s, back (parse_record fuel s).
Proof.
  intros fuel s t x t' G E. unfold parse_record in E. destruct (next t) as [[[y t1]|e]|p|] eqn:En; try discriminate. cbn [bind] in E.
  destruct (back_next _ _ _ G En) as (G1 & R1).
  revert E. match goal with |- ?m t1 = _ -> _ => intros E; assert (H : back m) by (bk; (apply back_ttl_class || apply back_data)) end.
  destruct (H _ _ _ G1 E) as (G2 & R2). auto.
Qed.
Lemma back_origin : forall s, back (parse_origin s).
Proof.
  intros s t x t' G E. unfold parse_origin in E. destruct (next t) as [[[y t1]|e]|p|] eqn:En; try discriminate. cbn [bind] in E.
  destruct (back_next _ _ _ G En) as (G1 & R1). destruct y; try discriminate.
  revert E. match goal with |- ?m t1 = _ -> _ => intros E; assert (H : back m) by bk end.
  destruct (H _ _ _ G1 E) as (G2 & R2). auto.
Qed.
Lemma back_include : forall s, back (parse_include s).
Proof.
  intros s t x t' G E. unfold parse_include in E. destruct (next t) as [[[y t1]|e]|p|] eqn:En; try discriminate. cbn [bind] in E.
  destruct (back_next _ _ _ G En) as (G1 & R1). destruct y; try discriminate.
  revert E. match goal with |- ?m t1 = _ -> _ => intros E; assert (H : back m) by bk end.
  destruct (H _ _ _ G1 E) as (G2 & R2). auto.
Qed.
Lemma back_starting_soa : forall s, back (parse_starting_soa_record s).
Proof. intros s. unfold parse_starting_soa_record. bk; try apply back_ttl_class. apply back_soa. Qed.
Lemma back_sub_record : forall zn ttl mn, back (parse_sub_record zn ttl mn).
Proof.
  intros zn ttl mn t x t' G E. unfold parse_sub_record in E. destruct (next t) as [[[y t1]|e]|p|] eqn:En; try discriminate. cbn [bind] in E.
  destruct (back_next _ _ _ G En) as (G1 & R1).
  revert E. match goal with |- ?m t1 = _ -> _ => intros E; assert (H : back m) end.
  { bk; try apply back_ttl_class; [unfold parse_a_record; bk|]. unfold parse_ns_record. apply back_bind; [apply back_name_token|]. bk. }
  destruct (H _ _ _ G1 E) as (G2 & R2). auto.
Qed.

(** *** What files denote *)
Lemma peek_reads : forall t ts o tk t1, good t -> reads t ts o -> peek t = Done (Ok (tk, t1)) ->
  good t1 /\ reads t1 ts o /\ ((tk = T_End /\ ts = [] /\ o = None) \/ (tk <> T_End /\ exists u, ts = tk :: u)).
Proof.
  intros t ts o tk t1 G R E.
  assert (W : wp False peek t ts o (fun x _ ts' => ts' = ts /\ ((x = T_End /\ ts = [] /\ o = None) \/ (x <> T_End /\ exists u, ts = x :: u)))).
  { apply wp_peek; [assumption|assumption|intros t' -> ->; auto|intros x u t' -> Hx; split; [reflexivity|right; split; [assumption|now exists u]]]. }
  unfold wp in W. rewrite E in W. destruct W as (ts' & _ & G' & R' & -> & C). auto.
Qed.
Lemma wp_success : forall A M (m : T A) t ts o Q x t', wp M m t ts o Q -> m t = Done (Ok (x, t')) ->
  exists ts', suffix ts' ts /\ good t' /\ reads t' ts' o /\ Q x t' ts'.
Proof. intros A M m t ts o Q x t' W E. unfold wp in W. now rewrite E in W. Qed.

Lemma parse_entries_well : forall fs fuel s acc t z rs0, good t -> built (ps_zone s) rs0 acc ->
  parse_entries fs fuel s acc t = Done (Ok z) ->
  exists ts rs, reads t ts None /\
    well_formed fs (fun n => ensure_name_in_auth_zone n (ps_zone s) (ps_subs s) = Ok tt) (ps_min s) (ps_orig s) (ps_ttl s) ts rs /\ built (ps_zone s) (rs0 ++ rs) z.
Proof.
  intros fs. induction fuel as [|fuel IH]; intros s acc t z rs0 G B E; [discriminate|]. cbn [parse_entries] in E.
  apply bindR_inv in E as ((tk & t1) & Ep & E).
  assert (Hend : tk = T_End \/ tk <> T_End) by (destruct tk; (now left) || (right; discriminate)). destruct Hend as [->|Hne].
  { assert (z = acc) as -> by congruence. exists [], []. rewrite app_nil_r. split; [|split; [constructor|assumption]].
    destruct (back_peek _ _ _ G Ep) as (G1 & H1). pose proof (peek_ok t G) as F. rewrite Ep in F. destruct F as (_ & _ & _ & F & _). specialize (F eq_refl).
    destruct (H1 None) as (ts & R). { exists []. now apply reads_ended. }
    destruct (peek_reads _ _ _ _ _ G R Ep) as (_ & _ & [(_ & -> & _)|(C & _)]); [assumption|congruence]. }
  assert (E' : exists e t2, (match tk with
     | T_OriginDir => parse_origin s t1 | T_IncludeDir => parse_include s t1
     | T_String _ | T_At | T_Blank => parse_record fuel s t1 | _ => Done (Err (ZE_UnexpectedToken tk)) end) = Done (Ok (e, t2)) /\
     match e with
     | ZOrigin o => parse_entries fs fuel (with_orig s o) acc t2
     | ZInclude path o => match fs path with
              | None => Done (Err ZE_ReadingErr)
              | Some f =>
                  bindR (parse_entries fs fuel (mkPS (ps_zone s) (ps_subs s) o (ps_ttl s) (ps_min s))
                           (zone_new (ps_zone s)) (tok_new f)) (fun z =>
                  parse_entries fs fuel s (zone_extend acc z) t2)
              end
     | ZRecord r => parse_entries fs fuel (with_ttl s (r_ttl r)) (zone_insert acc r) t2 end = Done (Ok z)).
  { destruct tk; try (now apply bindR_inv in E as ((e & t2) & E1 & E2); exists e, t2; split; [exact E1|destruct e; exact E2]). congruence. }
  clear E. destruct E' as (e & t2 & Em & E).
  destruct (back_peek _ _ _ G Ep) as (G1 & H1).
  assert (Hb : good t2 /\ (forall o, readable t2 o -> readable t1 o)).
  { destruct tk; try discriminate Em; first [exact (back_origin _ _ _ _ G1 Em)|exact (back_include _ _ _ _ G1 Em)|exact (back_record _ _ _ _ _ G1 Em)]. }
  destruct Hb as (G2 & H2).
  (* reading t given the rest *)
  assert (Hr : forall ts2, reads t2 ts2 None -> exists u, reads t (tk :: u) None /\ reads t1 (tk :: u) None).
  { intros ts2 R2. destruct (H2 None) as (ts1 & R1); [now exists ts2|]. destruct (H1 None) as (ts & R); [now exists ts1|].
    destruct (peek_reads _ _ _ _ _ G R Ep) as (_ & R1' & [(C & _)|(_ & u & ->)]); [congruence|]. now exists u. }
  destruct e as [n|path n|r].
  - apply (IH _ _ _ _ rs0) in E as (ts2 & rs & R2 & D & B2); [|assumption|exact B]. cbn [with_orig ps_orig ps_ttl ps_zone ps_subs ps_min] in *.
    destruct (Hr _ R2) as (u & R & R1). exists (tk :: u), rs. split; [assumption|]. split; [|assumption].
    destruct tk; try discriminate Em; try congruence.
    + destruct (wp_success _ _ _ _ _ _ _ _ _ (wp_origin False s t1 u None G1 R1) Em) as (ts' & _ & _ & R2' & n' & v & En & F & A & Ez & L).
      destruct (reads_det _ _ _ R2 _ _ R2') as (-> & _). assert (n' = n) as -> by congruence. eapply wf_origin; eassumption.
    + destruct (wp_success _ _ _ _ _ _ _ _ _ (wp_include False s t1 u None G1 R1) Em) as (ts' & _ & _ & R2' & p & o' & x & v & w & En & _). discriminate.
    + destruct (wp_success _ _ _ _ _ _ _ _ _ (wp_record True fuel s t1 _ u None G1 R1 I (fun _ => I)) Em) as (ts' & _ & _ & _ & r & En & _). discriminate.
    + destruct (wp_success _ _ _ _ _ _ _ _ _ (wp_record True fuel s t1 _ u None G1 R1 I (fun _ => I)) Em) as (ts' & _ & _ & _ & r & En & _). discriminate.
    + destruct (wp_success _ _ _ _ _ _ _ _ _ (wp_record True fuel s t1 _ u None G1 R1 I (fun _ => I)) Em) as (ts' & _ & _ & _ & r & En & _). discriminate.
  - destruct (fs path) as [f|] eqn:Ef; [|discriminate]. apply bindR_inv in E as (zi & Ei & E).
    apply (IH _ _ _ _ []) in Ei as (tsf & rsf & Rf & Df & Bf); [|apply good_new|apply built_new]. cbn [ps_orig ps_ttl ps_zone ps_subs ps_min app] in *.
    apply (IH _ _ _ _ (rs0 ++ rsf)) in E as (ts2 & rs & R2 & D & B2); [|assumption|eapply built_merge; eassumption].
    destruct (Hr _ R2) as (u & R & R1). exists (tk :: u), (rsf ++ rs). rewrite app_assoc. split; [assumption|]. split; [|assumption].
    destruct tk; try discriminate Em; try congruence.
    + destruct (wp_success _ _ _ _ _ _ _ _ _ (wp_origin False s t1 u None G1 R1) Em) as (ts' & _ & _ & R2' & n' & v & En & _). discriminate.
    + destruct (wp_success _ _ _ _ _ _ _ _ _ (wp_include False s t1 u None G1 R1) Em) as (ts' & _ & _ & R2' & p & o' & x & v & w & En & F & Fn & W & L).
      destruct (reads_det _ _ _ R2 _ _ R2') as (-> & _). assert (p = path /\ o' = n) as (-> & ->) by (split; congruence). apply lexes_reads in Rf; eapply wf_include; eassumption.
    + destruct (wp_success _ _ _ _ _ _ _ _ _ (wp_record True fuel s t1 _ u None G1 R1 I (fun _ => I)) Em) as (ts' & _ & _ & _ & r & En & _). discriminate.
    + destruct (wp_success _ _ _ _ _ _ _ _ _ (wp_record True fuel s t1 _ u None G1 R1 I (fun _ => I)) Em) as (ts' & _ & _ & _ & r & En & _). discriminate.
    + destruct (wp_success _ _ _ _ _ _ _ _ _ (wp_record True fuel s t1 _ u None G1 R1 I (fun _ => I)) Em) as (ts' & _ & _ & _ & r & En & _). discriminate.
  - apply (IH _ _ _ _ (rs0 ++ [r])) in E as (ts2 & rs & R2 & D & B2); [|assumption|now apply built_insert]. cbn [with_ttl ps_orig ps_ttl ps_zone ps_subs ps_min] in *.
    destruct (Hr _ R2) as (u & R & R1). exists (tk :: u), (r :: rs). replace (rs0 ++ r :: rs) with ((rs0 ++ [r]) ++ rs) by now rewrite <- app_assoc.
    split; [assumption|]. split; [|assumption].
    assert (K : owner_token tk -> exists ts', reads t2 ts' None /\ record_text (ps_orig s) (ps_ttl s) (tk :: u) r ts' /\
      (forall w v, tk :: u = T_String w :: v -> ensure_name_in_auth_zone (r_node r) (ps_zone s) (ps_subs s) = Ok tt) /\
      record_type r <> RT_SOA /\ (ps_min s <= r_ttl r)%N).
    { intros Ho. assert (Em' : parse_record fuel s t1 = Done (Ok (ZRecord r, t2))) by (destruct tk; try (now destruct Ho); exact Em).
      destruct (wp_success _ _ _ _ _ _ _ _ _ (wp_record True fuel s t1 _ u None G1 R1 Ho (fun _ => I)) Em') as (ts' & _ & _ & R2' & r' & En & H).
      exists ts'. split; [assumption|]. assert (r' = r) as -> by congruence. exact H. }
    destruct tk; try discriminate Em; try congruence; try (destruct (K I) as (ts' & R2' & Rt & K1 & K2 & K3); destruct (reads_det _ _ _ R2 _ _ R2') as (-> & _); eapply wf_record; eassumption).
    + destruct (wp_success _ _ _ _ _ _ _ _ _ (wp_origin False s t1 u None G1 R1) Em) as (ts' & _ & _ & R2' & n' & v & En & _). discriminate.
    + destruct (wp_success _ _ _ _ _ _ _ _ _ (wp_include False s t1 u None G1 R1) Em) as (ts' & _ & _ & R2' & p & o' & x & v & w & En & _). discriminate.
Qed.

Lemma well_formed_denotes : forall fs ok mn o ttl ts rs, well_formed fs ok mn o ttl ts rs -> denotes fs o ttl ts rs.
Proof.
  induction 1; [constructor|eapply den_origin; eassumption| |eapply den_record; eassumption].
  eapply den_include; try eassumption. destruct H1 as [H1|(s & H1 & H8 & _)]; [now left|right; now exists s].
Qed.

(** The first record of a zone *)
Lemma wp_starting_soa : forall (M : Prop) s t ts o, good t -> reads t ts o ->
  wp M (parse_starting_soa_record s) t ts o (fun x _ rest => soa_text (ps_zone s) (ps_ttl s) ts (fst x) (snd x) rest).
Proof.
  intros M s t ts o G R. unfold parse_starting_soa_record.
  apply wp_bind, wp_next; [assumption|assumption|intros t1 -> -> G1 R1; exact I|intros x u t1 -> Hx G1 R1].
  apply wp_bind. apply wp_mono with (P := fun n _ u' => u' = u /\ owner (ps_zone s) x n).
  { destruct x; try exact I; try (apply wp_ret; [assumption|assumption|split; [reflexivity|constructor]]).
    apply wp_try_ret; [assumption|assumption|]. intros n En. split; [reflexivity|]. constructor. now apply full_name_ok. }
  cbv beta. intros n t2 u' G2 R2 (-> & Hon) _ _. destruct (bytes_eqb n (ps_zone s)) eqn:Eqz; cbn [negb]; [|exact I]. apply bytes_eqb_eq in Eqz.
  apply wp_bind. eapply wp_mono; [apply wp_ttl_class; assumption|]. cbv beta. intros [ot oc] t3 v' G3 R3 (v & Tc & Dv) _ _. cbn [fst snd] in *.
  destruct oc as [c|]; [|exact I]. cbv zeta. apply wp_check. intros Hc. apply class_ok in Hc. subst c.
  nab y w t4 F'. destruct (rtype_from_str s0) as [rt|] eqn:Ert; [|exact I]. destruct rt; try exact I.
  apply wp_bind. eapply wp_mono; [apply wp_soa; assumption|]. cbv beta. intros r t5 y G5 R5 (d & Dt & ->) _ _. cbn [r_data].
  inversion Dt; subst. apply wp_check. intros Hm. apply min_ttl_ok in Hm. cbn [r_ttl] in Hm. apply wp_end; try assumption. intros t6 rest Le. cbn [fst snd].
  split; [|split; [reflexivity|split; [now exists x, u, ot, v|split; [now repeat eexists|exact Hm]]]].
  unfold record_text. eexists x, u, (ps_zone s), ot, (Some C_IN), v, s0, RT_SOA, w, _, y. split; [reflexivity|]. split; [assumption|]. split; [assumption|].
  split; [now right|]. split; [eapply field_deblank; eassumption|]. split; [assumption|]. split; [exact Dt|]. split; [assumption|]. now destruct ot.
Qed.
Lemma wp_sub_record : forall (M : Prop) zn ttl mn t x u o, good t -> reads t (x :: u) o -> owner_token x ->
  wp M (parse_sub_record zn ttl mn) t (x :: u) o (fun r _ rest => record_text zn ttl (x :: u) r rest /\
    (forall w v, x :: u = T_String w :: v -> ensure_name_in_zone (r_node r) zn = Ok tt) /\
    (record_type r = RT_NS \/ record_type r = RT_A) /\ (mn <= r_ttl r)%N).
Proof.
  intros M zn ttl mn t x u o G R Hown. unfold wp. cbv beta delta [parse_sub_record]. pose proof (next_ok t G) as F.
  inversion R as [| |? ? t1 ts' ? E Hx R1]; subst. rewrite E in *. cbn [bind].
  destruct F as (G1 & _).
  match goal with |- match ?m t1 with _ => _ end => assert (W : wp M m t1 u o (fun r _ rest => record_text zn ttl (x :: u) r rest /\
    (forall w v, x :: u = T_String w :: v -> ensure_name_in_zone (r_node r) zn = Ok tt) /\
    (record_type r = RT_NS \/ record_type r = RT_A) /\ (mn <= r_ttl r)%N)) end.
  { apply wp_bind. apply wp_mono with (P := fun n _ u' => u' = u /\ owner zn x n /\
      (forall w v, x :: u = T_String w :: v -> ensure_name_in_zone n zn = Ok tt)).
    { destruct x; try destruct Hown; try (apply wp_ret; [assumption|assumption|split; [reflexivity|split; [constructor|discriminate]]]).
      apply wp_try. intros n En. apply wp_check. intros En'. apply wp_ret; [assumption|assumption|]. split; [reflexivity|].
      split; [constructor; now apply full_name_ok|intros; exact En']. }
    cbv beta. intros n t2 u' G2 R2 (-> & Hon & Hok) _ _.
    apply wp_bind. eapply wp_mono; [apply wp_ttl_class; assumption|]. cbv beta. intros [ot oc] t3 v' G3 R3 (v & Tc & Dv) _ _. cbn [fst snd] in *. cbv zeta.
    apply wp_check. intros Hc. apply class_ok in Hc. apply wp_check. intros Hm. apply min_ttl_ok in Hm.
    nab y w t4 F'.
    apply wp_bind. apply wp_mono with (P := fun r _ y => exists rt d, rtype_from_str s = Ok rt /\ (rt = RT_NS \/ rt = RT_A) /\ data_text zn rt w d y /\ r = mkRec n C_IN (unwrap_or ot ttl) 0 d).
    { rewrite Hc. destruct (rtype_from_str s) as [rt|] eqn:Ert; [|exact I]. destruct rt; try exact I.
      - eapply wp_mono; [apply (wp_a _ zn); assumption|]. cbv beta. intros r _ y _ _ (d & D & ->). exists RT_A, d. auto.
      - apply wp_check. intros _. eapply wp_mono; [apply wp_ns; assumption|]. cbv beta. intros r _ y _ _ (d & D & ->). exists RT_NS, d. auto. }
    cbv beta. intros r t5 y G5 R5 (rt & d & Ert & Hrt & Dt & ->) _ _.
    apply wp_end; try assumption. intros t6 rest Le.
    split; [|split; [exact Hok|split; [rewrite (data_text_type _ _ _ _ _ _ _ _ _ Dt); exact Hrt|exact Hm]]].
    unfold record_text. exists x, u, n, ot, oc, v, s, rt, w, d, y. split; [reflexivity|]. split; [assumption|]. split; [assumption|].
    split. { destruct oc as [c|]; [right; cbn [unwrap_or] in Hc; now subst c|now left]. }
    split; [eapply field_deblank; eassumption|]. split; [assumption|]. split; [assumption|]. split; [assumption|].
    now destruct ot. }
  unfold wp in W. match goal with |- match ?m with _ => _ end => destruct m as [[[e t2]|er]|p|] end; auto.
  destruct W as (ts2 & W1 & W2). exists ts2. split; [now apply suffix_cons|assumption].
Qed.
Lemma parse_sub_well : forall fuel zn ttl mn acc t z rs0, good t -> built zn rs0 acc ->
  parse_sub_entries fuel zn ttl mn acc t = Done (Ok z) ->
  exists ts rs, reads t ts None /\ sub_well_formed (fun n => ensure_name_in_zone n zn = Ok tt) mn zn ttl ts rs /\ built zn (rs0 ++ rs) z.
Proof.
  induction fuel as [|fuel IH]; intros zn ttl mn acc t z rs0 G B E; [discriminate|]. cbn [parse_sub_entries] in E.
  apply bindR_inv in E as ((tk & t1) & Ep & E).
  assert (Hend : tk = T_End \/ tk <> T_End) by (destruct tk; (now left) || (right; discriminate)). destruct Hend as [->|Hne].
  { assert (z = acc) as -> by congruence. exists [], []. rewrite app_nil_r. split; [|split; [constructor|assumption]].
    destruct (back_peek _ _ _ G Ep) as (G1 & H1). pose proof (peek_ok t G) as F. rewrite Ep in F. destruct F as (_ & _ & _ & F & _). specialize (F eq_refl).
    destruct (H1 None) as (ts & R). { exists []. now apply reads_ended. }
    destruct (peek_reads _ _ _ _ _ G R Ep) as (_ & _ & [(_ & -> & _)|(C & _)]); [assumption|congruence]. }
  assert (E' : owner_token tk /\ exists r t2, parse_sub_record zn ttl mn t1 = Done (Ok (r, t2)) /\
     parse_sub_entries fuel zn (r_ttl r) mn (zone_insert acc r) t2 = Done (Ok z)).
  { destruct tk; try discriminate E; try congruence; (split; [exact I|]); apply bindR_inv in E as ((r & t2) & E1 & E2); now exists r, t2. }
  clear E. destruct E' as (Ho & r & t2 & Em & E).
  destruct (back_peek _ _ _ G Ep) as (G1 & H1). destruct (back_sub_record _ _ _ _ _ _ G1 Em) as (G2 & H2).
  apply (IH _ _ _ _ _ _ (rs0 ++ [r])) in E as (ts2 & rs & R2 & D & B2); [|assumption|now apply built_insert].
  destruct (H2 None) as (ts1 & R1); [now exists ts2|]. destruct (H1 None) as (ts & R); [now exists ts1|].
  destruct (peek_reads _ _ _ _ _ G R Ep) as (_ & R1' & [(C & _)|(_ & u & ->)]); [congruence|].
  exists (tk :: u), (r :: rs). replace (rs0 ++ r :: rs) with ((rs0 ++ [r]) ++ rs) by now rewrite <- app_assoc.
  split; [assumption|]. split; [|assumption].
  destruct (wp_success _ _ _ _ _ _ _ _ _ (wp_sub_record True zn ttl mn t1 _ u None G1 R1' Ho) Em) as (ts' & _ & _ & R2' & Rt & K1 & K2 & K3).
  destruct (reads_det _ _ _ R2 _ _ R2') as (-> & _). eapply swf_record; eassumption.
Qed.

Lemma sub_well_denotes : forall ok mn o ttl ts rs, sub_well_formed ok mn o ttl ts rs -> sub_denotes o ttl ts rs.
Proof. induction 1; [constructor|eapply sden_record; eassumption]. Qed.

Definition auth_check (c : params) (n : name) : Prop := ensure_name_in_auth_zone n (p_zone c) (map sp_zone (p_subs c)) = Ok tt.
Lemma auth_file_well : forall fs fuel c z, parse_auth_zone_file fs fuel c = Done (Ok z) ->
  exists f rs, fs (p_path c) = Some f /\ auth_well_formed fs (auth_check c) (p_zone c) (p_ttl c) f rs /\ built (p_zone c) rs z.
Proof.
  intros fs fuel c z E. unfold parse_auth_zone_file in E. destruct (fs (p_path c)) as [f|]; [|discriminate].
  apply bindR_inv in E as (((soa & minimum) & t) & E1 & E). cbv zeta in E1, E.
  destruct (back_starting_soa _ _ _ _ (good_new f) E1) as (G & H).
  apply bindR_inv in E as (z' & E & Ez). assert (z = zone_insert z' soa) as -> by congruence. clear Ez.
  apply (parse_entries_well _ _ _ _ _ _ []) in E as (rest & rs & R & D & B); [|assumption|apply built_new].
  cbn [ps_zone ps_orig ps_ttl ps_subs ps_min app] in *. destruct (H None) as (ts & R0); [now exists rest|].
  destruct (wp_success _ _ _ _ _ _ _ _ _ (wp_starting_soa True _ _ _ _ (good_new f) R0) E1) as (rest' & _ & _ & R' & Rt). cbn [fst snd ps_zone ps_ttl] in Rt.
  destruct (reads_det _ _ _ R _ _ R') as (-> & _).
  exists f, (rs ++ [soa]). split; [reflexivity|]. split; [|now apply built_insert]. exists ts, soa, minimum, rest', rs. apply lexes_reads in R0. now repeat (split; [assumption|]).
Qed.
Lemma auth_well_file : forall fs ok zone ttl f rs, auth_well_formed fs ok zone ttl f rs -> auth_file fs zone ttl f rs.
Proof.
  intros fs ok zone ttl f rs (ts & soa & mn & rest & rs' & R & (S1 & S2 & S3 & (m & r & a & b & c & d & S4) & _) & W & ->).
  exists ts, soa, rest, rs'. split; [assumption|]. split; [assumption|]. split; [unfold record_type; now rewrite S4|].
  split; [now apply well_formed_denotes in W|reflexivity].
Qed.
Lemma auth_file_ok : forall fs fuel c z, parse_auth_zone_file fs fuel c = Done (Ok z) ->
  exists f rs, fs (p_path c) = Some f /\ auth_file fs (p_zone c) (p_ttl c) f rs /\ built (p_zone c) rs z.
Proof. intros fs fuel c z E. destruct (auth_file_well _ _ _ _ E) as (f & rs & A & B & C). exists f, rs. split; [assumption|]. split; [now apply auth_well_file in B|assumption]. Qed.
Lemma sub_files_well : forall fs fuel cs zs, parse_sub_zone_files fs fuel cs = Done (Ok zs) ->
  Forall2 (fun c z => exists f rs, fs (sp_path c) = Some f /\
    sub_file_well_formed (fun n => ensure_name_in_zone n (sp_zone c) = Ok tt) (sp_min c) (sp_zone c) (sp_ttl c) f rs /\ built (sp_zone c) rs z) cs zs.
Proof.
  intros fs fuel. induction cs as [|c cs IH]; intros zs E; cbn [parse_sub_zone_files] in E.
  - assert (zs = []) as -> by congruence. constructor.
  - apply bindR_inv in E as (z & Ez & E). apply bindR_inv in E as (zs' & Ezs & E).
    assert (zs = z :: zs') as -> by congruence. constructor; [|now apply IH]. unfold parse_sub_zone_file in Ez. destruct (fs (sp_path c)) as [f|]; [|discriminate].
    apply (parse_sub_well _ _ _ _ _ _ _ []) in Ez as (ts & rs & R & D & B); [|apply good_new|apply built_new].
    exists f, rs. split; [reflexivity|]. split; [|assumption]. apply lexes_reads in R. now exists ts.
Qed.
Lemma sub_files_ok : forall fs fuel cs zs, parse_sub_zone_files fs fuel cs = Done (Ok zs) ->
  Forall2 (fun c z => exists f rs, fs (sp_path c) = Some f /\ sub_file (sp_zone c) (sp_ttl c) f rs /\ built (sp_zone c) rs z) cs zs.
Proof.
  intros fs fuel cs zs E. apply sub_files_well in E. induction E as [|c z cs zs (f & rs & A & (ts & B1 & B2) & C) _ IH]; constructor; [|exact IH].
  exists f, rs. split; [assumption|]. split; [|assumption]. exists ts. split; [assumption|]. now apply sub_well_denotes in B2.
Qed.

(** *** The grammar is unambiguous. *)
Lemma blank_no_field : forall ts x u, Forall (eq T_Blank) ts -> field ts x u -> False.
Proof. intros ts x u B F. induction F; inversion B; subst; auto. Qed.
Lemma line_end_unique : forall ts u v, line_end ts u -> line_end ts v -> u = v.
Proof.
  intros ts u v L1 L2. inversion L1; inversion L2; subst; auto.
  - eapply field_unique; eassumption.
  - exfalso. eapply blank_no_field; eassumption.
  - exfalso. eapply blank_no_field; eassumption.
Qed.
Ltac fld := repeat match goal with
  | H : field ?ts ?x ?u, H' : field ?ts ?y ?v |- _ =>
      let E1 := fresh in let E2 := fresh in destruct (field_unique _ _ _ H _ _ H') as (E1 & E2); clear H';
      try discriminate E1; injection E1; intros; subst
  end.
Lemma full_name_unique : forall o s n m, full_name o s n -> full_name o s m -> n = m.
Proof. intros o s n m [(A & B)|(A & _ & [(B & C)|(B & C)])] [(A' & B')|(A' & _ & [(B' & C')|(B' & C')])]; subst; try contradiction; reflexivity. Qed.
Lemma owner_unique : forall o x n m, owner o x n -> owner o x m -> n = m.
Proof. intros o x n m H H'. inversion H; inversion H'; subst; try congruence. assert (s0 = s) as -> by congruence. eapply full_name_unique; eassumption. Qed.
Lemma char_string_unique : forall x s s', char_string x s -> char_string x s' -> s = s'.
Proof. intros x s s' H H'. inversion H; inversion H'; subst; congruence. Qed.
Lemma line_end_field : forall ts u x v, line_end ts u -> field ts x v -> x = T_NewLine.
Proof.
  intros ts u x v L F. destruct L as [ts u H|ts H]; [|exfalso; eapply blank_no_field; eassumption].
  destruct (field_unique _ _ _ H _ _ F). congruence.
Qed.
Lemma char_strings_unique : forall ts l u, char_strings ts l u -> forall l' u', char_strings ts l' u' -> l = l' /\ u = u'.
Proof.
  induction 1 as [ts u L|ts x s u l v F C H IH]; intros l' u' H'; inversion H' as [? u1 L1|? x1 s1 u1 l1 v1 F1 C1 K1]; subst; auto.
  - rewrite (line_end_field _ _ _ _ L F1) in C1. inversion C1.
  - rewrite (line_end_field _ _ _ _ L1 F) in C. inversion C.
  - destruct (field_unique _ _ _ F _ _ F1) as (<- & <-). rewrite (char_string_unique _ _ _ C C1). destruct (IH _ _ K1) as (-> & ->). auto.
Qed.
Lemma words_unique : forall ts u, words ts u -> forall u', words ts u' -> u = u'.
Proof.
  induction 1 as [ts u L|ts s u v F H IH]; intros u' H'; inversion H' as [? u1 L1|? s1 u1 v1 F1 K1]; subst; auto.
  - discriminate (line_end_field _ _ _ _ L F1).
  - discriminate (line_end_field _ _ _ _ L1 F).
  - destruct (field_unique _ _ _ F _ _ F1) as (_ & <-). auto.
Qed.
Lemma decimal_digits : forall n, (n < 256)%N -> nodot (decimal n).
Proof.
  intros n L. unfold decimal, nodot, DOT.
  assert (n / 10 < 26)%N by (apply N.div_lt_upper_bound; lia). assert (n / 100 < 3)%N by (apply N.div_lt_upper_bound; lia).
  destruct (n <? 10)%N; [|destruct (n <? 100)%N]; repeat constructor; lia.
Qed.
Lemma decimal_inj : forall n m, (n < 256)%N -> (m < 256)%N -> decimal n = decimal m -> n = m.
Proof.
  assert (V : forall n, (n < 256)%N -> fold_left (fun a c => a * 10 + (c - 48))%N (decimal n) 0%N = n).
  { intros n L. unfold decimal. pose proof (N.div_mod' n 10). pose proof (N.mod_lt n 10 ltac:(lia)).
    destruct (n <? 10)%N eqn:E; cbn [fold_left]; [lia|]. destruct (n <? 100)%N eqn:E'; cbn [fold_left]; [lia|].
    assert (n / 100 = n / 10 / 10)%N as -> by now rewrite N.div_div by lia.
    pose proof (N.div_mod' (n / 10) 10). pose proof (N.mod_lt (n / 10) 10 ltac:(lia)). lia. }
  intros n m Ln Lm E. rewrite <- (V n Ln), <- (V m Lm). now rewrite E.
Qed.
Lemma quad_unique : forall s a b, dotted_quad s a -> dotted_quad s b -> a = b.
Proof.
  intros s a b (w & x & y & z & (L1 & L2 & L3 & L4) & -> & E) (w' & x' & y' & z' & (L1' & L2' & L3' & L4') & -> & E').
  assert (K : forall a1 a2 a3 a4, (a1 < 256)%N -> (a2 < 256)%N -> (a3 < 256)%N -> (a4 < 256)%N ->
    split DOT (decimal a1 ++ [46%N] ++ decimal a2 ++ [46%N] ++ decimal a3 ++ [46%N] ++ decimal a4) = [decimal a1; decimal a2; decimal a3; decimal a4]).
  { intros. cbn [app]. change 46%N with DOT. rewrite !split_app_dot by now apply decimal_digits. rewrite split_single by now apply decimal_digits. reflexivity. }
  rewrite E in E'. apply (f_equal (split DOT)) in E'. rewrite !K in E' by assumption.
  injection E' as H1 H2 H3 H4. apply decimal_inj in H1, H2, H3, H4; try assumption. now subst.
Qed.
Lemma data_text_unique : forall o rt ts d u d' u', data_text o rt ts d u -> data_text o rt ts d' u' -> d = d' /\ u = u'.
Proof.
  intros o rt ts d u d' u' H H'. destruct H; inversion H'; subst; fld;
  repeat match goal with
  | A : full_name ?o ?s ?n, B : full_name ?o ?s ?m |- _ => rewrite (full_name_unique _ _ _ _ A B) in *; clear A
  | A : dotted_quad ?s ?n, B : dotted_quad ?s ?m |- _ => rewrite (quad_unique _ _ _ A B) in *; clear A
  end; auto.
  - match goal with A : field ?ts _ _, B : field ?ts _ _ |- _ => destruct (field_unique _ _ _ A _ _ B) as (_ & ->) end. auto.
  - match goal with A : field ?ts _ _, B : field ?ts _ _ |- _ => destruct (field_unique _ _ _ A _ _ B) as (<- & <-); clear B end.
    match goal with A : field ?ts _ _, B : field ?ts _ _ |- _ => destruct (field_unique _ _ _ A _ _ B) as (<- & <-); clear B end.
    repeat match goal with A : char_string ?x ?s, B : char_string ?x ?s' |- _ => rewrite (char_string_unique _ _ _ A B) in *; clear A end. auto.
  - match goal with A : char_strings ?x _ _, B : char_strings ?x _ _ |- _ => destruct (char_strings_unique _ _ _ A _ _ B) as (-> & ->) end. auto.
  - match goal with A : words ?x _, B : words ?x _ |- _ => rewrite (words_unique _ _ A _ B) end. split; [|reflexivity].
    assert (q = q0) as ->; [|reflexivity]. unfold same_letters in *. 
    repeat match goal with A : _ \/ _ |- _ => destruct A end; repeat match goal with A : _ /\ _ |- _ => destruct A end; subst; try reflexivity;
    match goal with A : ?x = s2b _, B : ?x = s2b _ |- _ => rewrite A in B; discriminate B end.
Qed.

Lemma class_not_type : forall s rt, class_from_string s = Ok C_IN -> rtype_from_str s = Ok rt -> False.
Proof.
  intros s rt Hc Hr. unfold class_from_string in Hc.
  destruct (bytes_eqb s (s2b "IN")) eqn:E1. { apply bytes_eqb_eq in E1. subst s. vm_compute in Hr. discriminate. }
  repeat match type of Hc with (if ?b then _ else _) = _ => destruct b; try discriminate end.
Qed.
Lemma head_unique : forall u ot oc v ty w rt ot' oc' v' ty' w' rt',
  ttl_class u ot oc v -> (oc = None \/ oc = Some C_IN) -> field v (T_String ty) w -> rtype_from_str ty = Ok rt ->
  ttl_class u ot' oc' v' -> (oc' = None \/ oc' = Some C_IN) -> field v' (T_String ty') w' -> rtype_from_str ty' = Ok rt' ->
  ot = ot' /\ w = w' /\ rt = rt'.
Proof.
  intros u ot oc v ty w rt ot' oc' v' ty' w' rt' T1 C1 F1 R1 T2 C2 F2 R2.
  assert (C1' : forall c, oc = Some c -> c = C_IN) by (intros c ->; destruct C1; congruence).
  assert (C2' : forall c, oc' = Some c -> c = C_IN) by (intros c ->; destruct C2; congruence).
  destruct T1; destruct T2; fld;
    repeat match goal with H : forall c, Some ?x = Some c -> _ |- _ => pose proof (H _ eq_refl); clear H; subst end;
    try (exfalso; eapply class_not_type; eassumption); repeat split; congruence.
Qed.
Lemma record_text_unique : forall o ttl ts r u r' u', record_text o ttl ts r u -> record_text o ttl ts r' u' -> r = r' /\ u = u'.
Proof.
  intros o ttl ts r u r' u' (x & a & n & ot & oc & v & ty & rt & w & d & y & -> & O & T & C & F & R & D & L & ->)
    (x' & a' & n' & ot' & oc' & v' & ty' & rt' & w' & d' & y' & E' & O' & T' & C' & F' & R' & D' & L' & ->).
  assert (x' = x /\ a' = a) as (-> & ->) by (split; congruence). clear E'.
  destruct (head_unique _ _ _ _ _ _ _ _ _ _ _ _ _ T C F R T' C' F' R') as (<- & <- & <-).
  destruct (data_text_unique _ _ _ _ _ _ _ D D') as (<- & <-). rewrite (owner_unique _ _ _ _ O O'). rewrite (line_end_unique _ _ _ L L'). auto.
Qed.
Lemma record_text_owner : forall o ttl x ts r u, record_text o ttl (x :: ts) r u -> owner_token x.
Proof. intros o ttl x ts r u (x' & a & n & ot & oc & v & ty & rt & w & d & y & E & O & _). assert (x' = x) as -> by congruence. destruct O; exact I. Qed.
Lemma file_name_unique : forall x p q, file_name x p -> file_name x q -> p = q.
Proof. intros x p q H H'. inversion H; inversion H'; subst; congruence. Qed.

Lemma denotes_unique : forall fs o ttl ts rs, denotes fs o ttl ts rs -> forall rs', denotes fs o ttl ts rs' -> rs = rs'.
Proof.
  induction 1 as [o ttl|o ttl ts s u rest rs F A L D IH|o ttl ts x path u o' v rest f tsf rsf rs F Fn W L Ef R Df IHf D IH|o ttl ts r rest rs Rt D IH];
    intros rs' H'; inversion H'; subst; auto;
    try match goal with H : record_text _ _ (T_OriginDir :: _) _ _ |- _ => apply record_text_owner in H as [] end;
    try match goal with H : record_text _ _ (T_IncludeDir :: _) _ _ |- _ => apply record_text_owner in H as [] end;
    try match goal with H : record_text _ _ [] _ _ |- _ => destruct H as (? & ? & ? & ? & ? & ? & ? & ? & ? & ? & ? & H & _); discriminate H end.
  - match goal with B : field ts _ _ |- _ => destruct (field_unique _ _ _ F _ _ B) as (Es & <-) end. injection Es as <-.
    match goal with B : line_end u ?x |- _ => rewrite (line_end_unique _ _ _ L B) in * end. auto.
  - match goal with B : field ts ?y _ |- _ => is_var y; destruct (field_unique _ _ _ F _ _ B) as (<- & <-) end.
    match goal with B : file_name x ?p |- _ => lazymatch p with path => fail | _ => assert (p = path) by (eapply file_name_unique; eassumption); subst p end end.
    match goal with B : fs path = Some ?g |- _ => lazymatch g with f => fail | _ => assert (g = f) by congruence; subst g end end.
    apply lexes_reads in R. match goal with B : lexes f ?ts2 |- _ => apply lexes_reads in B; destruct (reads_det _ _ _ R _ _ B) as (<- & _) end.
    assert (E : forall o1 v1 rest1, (v1 = u /\ o1 = o \/ exists s, field u (T_String s) v1 /\ full_name o s o1) -> line_end v1 rest1 -> o1 = o' /\ rest1 = rest).
    { intros o1 v1 rest1 W1 L1. destruct W as [(-> & ->)|(s & Fs & Ns)], W1 as [(-> & ->)|(s1 & Fs1 & Ns1)].
      - split; [reflexivity|eapply line_end_unique; eassumption].
      - discriminate (line_end_field _ _ _ _ L Fs1).
      - discriminate (line_end_field _ _ _ _ L1 Fs).
      - destruct (field_unique _ _ _ Fs _ _ Fs1) as (Es & <-). injection Es as <-. split; [eapply full_name_unique; eassumption|eapply line_end_unique; eassumption]. }
    match goal with B : _ \/ (exists s, field u (T_String s) ?v1 /\ full_name o s ?o1), C : line_end ?v1 ?rest1 |- _ => destruct (E _ _ _ B C) as (-> & ->) end.
    f_equal; auto.
  - match goal with B : record_text _ _ ts _ _ |- _ => destruct (record_text_unique _ _ _ _ _ _ _ Rt B) as (<- & <-) end. f_equal. auto.
Qed.
Lemma sub_denotes_unique : forall o ttl ts rs, sub_denotes o ttl ts rs -> forall rs', sub_denotes o ttl ts rs' -> rs = rs'.
Proof.
  induction 1 as [ttl|ttl ts r rest rs Rt D IH]; intros rs' H'; inversion H'; subst; auto;
    try match goal with H : record_text _ _ [] _ _ |- _ => destruct H as (? & ? & ? & ? & ? & ? & ? & ? & ? & ? & ? & H & _); discriminate H end.
  match goal with B : record_text _ _ ts _ _ |- _ => destruct (record_text_unique _ _ _ _ _ _ _ Rt B) as (<- & <-) end. f_equal. auto.
Qed.
