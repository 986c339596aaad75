(** Loading ends without panicking, if the files can be tokenized and do not include
    each other in circles; and more fuel changes nothing. *)
From Verif Require Import Base Types Name NameSpec NameProofs PropName Codec CodecSpec Zone ZoneSpec ZoneProofs
  Tokens Parser NsSpec PropNs LoadSpec PropCodec3 TokenSpec TokenProofs PropTok LoadProofs ZoneFileSpec ZoneFileRun ZoneFileDenote ZoneFileLoad.

Definition ends {A} (e : exec A) : Prop := exists r, e = Done r.

(** *** Lengths *)
Ltac flen := repeat match goal with H : field _ _ _ |- _ => apply suffix_field in H as (_ & H) end.
Lemma line_end_len : forall ts u, line_end ts u -> length u <= length ts.
Proof. destruct 1; flen; cbn; lia. Qed.
Lemma char_strings_len : forall ts l u, char_strings ts l u -> length u <= length ts.
Proof. induction 1; flen; lia. Qed.
Lemma words_len : forall ts u, words ts u -> length u <= length ts.
Proof. induction 1; flen; lia. Qed.
Lemma data_text_len : forall o rt ts d u, data_text o rt ts d u -> length u <= length ts.
Proof.
  destruct 1; flen;
    repeat match goal with H : char_strings _ _ _ |- _ => apply char_strings_len in H | H : words _ _ |- _ => apply words_len in H end; lia.
Qed.
Lemma record_text_len : forall o ttl ts r rest, record_text o ttl ts r rest -> length rest < length ts.
Proof.
  intros o ttl ts r rest (x & a & n & ot & oc & v & ty & rt & w & d & y & -> & O & T & C & F & R & D & L & ->).
  apply ttl_class_len in T. apply data_text_len in D. apply line_end_len in L. flen. cbn [length]. lia.
Qed.

(** *** The files named in a token sequence *)
Lemma field_dec : forall ts, (exists x u, field ts x u) \/ (forall x u, ~ field ts x u).
Proof.
  induction ts as [|x ts IH]; [right; intros x u F; inversion F|].
  assert (C : x = T_Blank \/ x <> T_Blank) by (destruct x; (now left) || (right; discriminate)). destruct C as [->|Hx].
  - destruct IH as [(x & u & F)|N]; [left; exists x, u; now constructor|]. right. intros x u F. inversion F; subst; [congruence|]. eapply N. eassumption.
  - left. exists x, ts. now constructor.
Qed.
Lemma file_name_dec : forall x, (exists p, file_name x p) \/ (forall p, ~ file_name x p).
Proof. intros x. destruct x; try (right; intros p F; now inversion F); left; eexists; constructor. Qed.
Lemma mentions_bound : forall (P : list N -> nat -> Prop), (forall q n m, P q n -> n <= m -> P q m) ->
  forall ts, (forall q, mentions ts q -> exists n, P q n) -> exists n, forall q, mentions ts q -> P q n.
Proof.
  intros P Mono. induction ts as [|x ts IH]; intros H.
  { exists 0. intros q (pre & y & u & v & E & _). destruct pre; discriminate. }
  destruct IH as (n & Hn). { intros q (pre & y & u & v & -> & F). apply H. exists (x :: pre), y, u, v. now split. }
  assert (S : (exists q y v, x = T_IncludeDir /\ field ts y v /\ file_name y q) \/ (forall q y v, x = T_IncludeDir -> field ts y v -> file_name y q -> False)).
  { assert (C : x = T_IncludeDir \/ x <> T_IncludeDir) by (destruct x; (now left) || (right; discriminate)). destruct C as [->|Hx]; [|right; congruence].
    destruct (field_dec ts) as [(y & v & F)|N]; [|right; intros q y v _ F; exfalso; eapply N; eassumption].
    destruct (file_name_dec y) as [(q & Q)|N]; [left; now exists q, y, v|]. right. intros q y' v' _ F' Q.
    destruct (field_unique _ _ _ F _ _ F') as (<- & _). eapply N; eassumption. }
  destruct S as [(q0 & y & v & -> & F & Fn)|N].
  - destruct (H q0) as (n0 & H0). { exists [], y, ts, v. now repeat split. }
    exists (n + n0). intros q (pre & y' & u & v' & E & F' & Fn'). destruct pre as [|z pre].
    + injection E as <-. destruct (field_unique _ _ _ F _ _ F') as (<- & _). rewrite <- (file_name_unique _ _ _ Fn Fn'). eapply Mono; [eassumption|lia].
    + injection E as <- ->. apply Mono with n; [|lia]. apply Hn. now exists pre, y', u, v'.
  - exists n. intros q (pre & y' & u & v' & E & F' & Fn'). destruct pre as [|z pre].
    + injection E as -> <-. exfalso. eapply N; eauto.
    + injection E as <- ->. apply Hn. now exists pre, y', u, v'.
Qed.
Lemma mentions_suffix : forall u ts q, suffix u ts -> mentions u q -> mentions ts q.
Proof. intros u ts q (p & ->) (pre & x & a & v & -> & F). exists (p ++ pre), x, a, v. rewrite <- app_assoc. now split. Qed.

(** *** Entries *)
Lemma wp_ends : forall A (M : Prop) (m : T A) t ts o Q, wp M m t ts o Q -> ~ M -> ends (m t).
Proof. intros A M m t ts o Q W N. unfold wp in W. destruct (m t) as [r|p|]; [now exists r|destruct W|contradiction]. Qed.
Lemma ends_bindR : forall A B E (m : exec (result A E)) (k : A -> exec (result B E)), ends m -> (forall a, m = Done (Ok a) -> ends (k a)) -> ends (bindR m k).
Proof. intros A B E m k (r & ->) H. destruct r as [a|e]; cbn [bindR bind]; [now apply H|now exists (Err e)]. Qed.

Lemma entries_end : forall fs ts0 M0,
  (forall q f, mentions ts0 q -> fs q = Some f -> forall s acc fuel, M0 <= fuel -> ends (parse_entries fs fuel s acc (tok_new f))) ->
  forall n ts t o s acc fuel, length ts <= n -> suffix ts ts0 -> good t -> reads t ts o -> M0 + n + 1 <= fuel ->
  ends (parse_entries fs fuel s acc t).
Proof.
  intros fs ts0 M0 Hinc. induction n as [n IHn] using (well_founded_induction lt_wf). intros ts t o s acc fuel Ln Sx G R Lf.
  destruct fuel as [|fuel]; [lia|]. cbn [parse_entries].
  apply ends_bindR.
  { apply (wp_ends _ False) with ts o (fun _ _ _ => True); [|tauto]. apply wp_peek; auto. }
  intros (tk & t1) Ep. destruct (peek_reads _ _ _ _ _ G R Ep) as (G1 & R1 & [(-> & _)|(Hne & u & ->)]); [now exists (Ok acc)|].
  assert (K : ends (bindR (match tk with
                 | T_OriginDir => parse_origin s t1 | T_IncludeDir => parse_include s t1
                 | T_String _ | T_At | T_Blank => parse_record fuel s t1 | _ => Done (Err (ZE_UnexpectedToken tk)) end) (fun y =>
          match y with
          | (ZOrigin o, t2) => parse_entries fs fuel (with_orig s o) acc t2
          | (ZInclude path o, t2) =>
              match fs path with
              | None => Done (Err ZE_ReadingErr)
              | Some f =>
                  bindR (parse_entries fs fuel (mkPS (ps_zone s) (ps_subs s) o (ps_ttl s) (ps_min s))
                           (zone_new (ps_zone s)) (tok_new f)) (fun z =>
                  parse_entries fs fuel s (zone_extend acc z) t2)
              end
          | (ZRecord r, t2) =>
              parse_entries fs fuel (with_ttl s (r_ttl r)) (zone_insert acc r) t2
          end))); [|destruct tk; try exact K; congruence].
  cbn [length] in Ln.
  assert (Rec : forall t2 ts2 s2 acc2, suffix ts2 (tk :: u) -> length ts2 < S (length u) -> good t2 -> reads t2 ts2 o -> ends (parse_entries fs fuel s2 acc2 t2)).
  { intros t2 ts2 s2 acc2 S2 L2 G2 R2. apply (IHn (length ts2)) with ts2 o; auto; try lia. eapply suffix_trans; eassumption. }
  assert (KR : owner_token tk -> ends (bindR (parse_record fuel s t1) (fun y =>
          match y with
          | (ZOrigin o, t2) => parse_entries fs fuel (with_orig s o) acc t2
          | (ZInclude path o, t2) =>
              match fs path with
              | None => Done (Err ZE_ReadingErr)
              | Some f =>
                  bindR (parse_entries fs fuel (mkPS (ps_zone s) (ps_subs s) o (ps_ttl s) (ps_min s))
                           (zone_new (ps_zone s)) (tok_new f)) (fun z =>
                  parse_entries fs fuel s (zone_extend acc z) t2)
              end
          | (ZRecord r, t2) =>
              parse_entries fs fuel (with_ttl s (r_ttl r)) (zone_insert acc r) t2
          end))).
  { intros Ho. pose proof (wp_record (fuel <= length u) fuel s t1 tk u o G1 R1 Ho (fun H => H)) as W.
    apply ends_bindR; [eapply wp_ends; [exact W|lia]|]. intros (e & t2) Em.
    destruct (wp_success _ _ _ _ _ _ _ _ _ W Em) as (ts2 & S2 & G2 & R2 & r & -> & Rt). apply proj1, record_text_len in Rt. cbn [length] in Rt.
    eapply Rec; eassumption. }
  destruct tk; try (apply KR; exact I); try (now exists (Err (ZE_UnexpectedToken T_End))); try (eexists; reflexivity).
  - pose proof (wp_origin False s t1 u o G1 R1) as W.
    apply ends_bindR; [eapply wp_ends; [exact W|tauto]|]. intros (e & t2) Em.
    destruct (wp_success _ _ _ _ _ _ _ _ _ W Em) as (ts2 & S2 & G2 & R2 & n' & v & -> & F & A & _ & L). apply line_end_len in L. flen.
    eapply Rec; try eassumption. lia.
  - pose proof (wp_include False s t1 u o G1 R1) as W.
    apply ends_bindR; [eapply wp_ends; [exact W|tauto]|]. intros (e & t2) Em.
    destruct (wp_success _ _ _ _ _ _ _ _ _ W Em) as (ts2 & S2 & G2 & R2 & path & o' & x & v & w & -> & F & Fn & Wn & L).
    destruct (fs path) as [f|] eqn:Ef; [|now exists (Err ZE_ReadingErr)].
    apply ends_bindR.
    + apply Hinc with path; [|assumption|lia]. eapply mentions_suffix; [exact Sx|]. exists [], x, u, v. now repeat split.
    + intros z _. apply Rec with ts2; try assumption. apply line_end_len in L. destruct Wn as [(-> & _)|(nm & F' & _)]; flen; lia.
Qed.

(** Reading one file to its end, from any point *)
Lemma file_ends_from : forall fs, (forall q f, fs q = Some f -> tokenizable f) ->
  forall p, Acc (fun q p => includes fs p q) p -> forall f ts o, fs p = Some f -> reads (tok_new f) ts o ->
  exists N, forall t ts' s acc fuel, suffix ts' ts -> good t -> reads t ts' o -> N <= fuel -> ends (parse_entries fs fuel s acc t).
Proof.
  intros fs Tk p A. induction A as [p _ IH]. intros f ts o Ef R.
  destruct (mentions_bound (fun q n => forall f, fs q = Some f -> forall s acc fuel, n <= fuel -> ends (parse_entries fs fuel s acc (tok_new f)))) with (ts := ts) as (M0 & H0).
  - intros q n m H L g Eg s acc fuel Lf. apply H; [assumption|lia].
  - intros q Hq. destruct (fs q) as [g|] eqn:Eg.
    + destruct (Tk _ _ Eg) as (ts1 & o1 & R1).
      destruct (IH q) with (f := g) (ts := ts1) (o := o1) as (N & HN); [now exists f, ts, o|assumption|assumption|]. exists N. intros g' Eg' s acc fuel L. assert (g' = g) as -> by congruence.
      apply HN with ts1; auto; [apply suffix_refl|apply good_new].
    + exists 0. congruence.
  - exists (M0 + length ts + 1). intros t ts' s acc fuel S G Rt L. apply (entries_end fs ts M0) with (n := length ts) (ts := ts') (o := o); auto.
    + intros q g Hq Eg. exact (H0 q Hq g Eg).
    + now apply suffix_length.
Qed.

Lemma auth_ends : forall fs c, (forall q f, fs q = Some f -> tokenizable f) -> Acc (fun q p => includes fs p q) (p_path c) ->
  exists N, forall fuel, N <= fuel -> ends (parse_auth_zone_file fs fuel c).
Proof.
  intros fs c Tk A. unfold parse_auth_zone_file. destruct (fs (p_path c)) as [f|] eqn:Ef; [|exists 0; intros; now exists (Err ZE_ReadingErr)].
  destruct (Tk _ _ Ef) as (ts & o & R). destruct (file_ends_from fs Tk _ A f ts o Ef R) as (N & HN).
  exists N. intros fuel L. cbv zeta.
  match goal with |- ends (bindR (parse_starting_soa_record ?s _) _) => pose proof (wp_starting_soa False s _ _ _ (good_new f) R) as W end.
  apply ends_bindR; [eapply wp_ends; [exact W|tauto]|]. intros ((soa & mn) & t) Em.
  destruct (wp_success _ _ _ _ _ _ _ _ _ W Em) as (ts2 & S2 & G2 & R2 & _).
  apply ends_bindR; [eapply HN; eassumption|]. intros z _. now exists (Ok (zone_insert z soa)).
Qed.

Lemma sub_entries_end : forall n ts t o zn ttl mn acc fuel, length ts <= n -> good t -> reads t ts o -> n + 1 <= fuel ->
  ends (parse_sub_entries fuel zn ttl mn acc t).
Proof.
  induction n as [n IHn] using (well_founded_induction lt_wf). intros ts t o zn ttl mn acc fuel Ln G R Lf.
  destruct fuel as [|fuel]; [lia|]. cbn [parse_sub_entries].
  apply ends_bindR.
  { apply (wp_ends _ False) with ts o (fun _ _ _ => True); [|tauto]. apply wp_peek; auto. }
  intros (tk & t1) Ep. destruct (peek_reads _ _ _ _ _ G R Ep) as (G1 & R1 & [(-> & _)|(Hne & u & ->)]); [now exists (Ok acc)|].
  cbn [length] in Ln.
  assert (KR : owner_token tk -> ends (bindR (parse_sub_record zn ttl mn t1) (fun y =>
          parse_sub_entries fuel zn (r_ttl (fst y)) mn (zone_insert acc (fst y)) (snd y)))).
  { intros Ho. pose proof (wp_sub_record False zn ttl mn t1 tk u o G1 R1 Ho) as W.
    apply ends_bindR; [eapply wp_ends; [exact W|tauto]|]. intros (r & t2) Em.
    destruct (wp_success _ _ _ _ _ _ _ _ _ W Em) as (ts2 & S2 & G2 & R2 & Rt & _). apply record_text_len in Rt. cbn [length] in Rt. cbn [fst snd].
    apply (IHn (length ts2)) with ts2 o; auto; lia. }
  destruct tk; try (apply KR; exact I); eexists; reflexivity.
Qed.
Lemma subs_end : forall fs cs, (forall q f, fs q = Some f -> tokenizable f) ->
  exists N, forall fuel, N <= fuel -> ends (parse_sub_zone_files fs fuel cs).
Proof.
  intros fs cs Tk. induction cs as [|c cs (N & IH)]; [exists 0; intros; now exists (Ok [])|]. cbn [parse_sub_zone_files]. unfold parse_sub_zone_file.
  destruct (fs (sp_path c)) as [f|] eqn:Ef; [|exists 0; intros; eexists; reflexivity].
  destruct (Tk _ _ Ef) as (ts & o & R). exists (N + length ts + 1). intros fuel L. apply ends_bindR.
  { apply (sub_entries_end (length ts)) with ts o; auto; [apply good_new|lia]. }
  intros z _. apply ends_bindR; [apply IH; lia|]. intros zs _. eexists; reflexivity.
Qed.

(** Validation never panics *)
Lemma for_each_ends : forall A E (l : list A) (body : A -> exec (result unit E)), (forall x, In x l -> ends (body x)) -> ends (for_each l body).
Proof.
  intros A E l body. induction l as [|x l IH]; intros H; cbn [for_each]; [now exists (Ok tt)|].
  apply ends_bindR; [apply H; now left|]. intros _ _. apply IH. intros y Hy. apply H. now right.
Qed.
Lemma get_all_type : forall zn rs z rt r, built zn rs z -> In r (zone_get_all_of_type z rt) -> record_type r = rt.
Proof.
  intros zn rs z rt r B Hr. destruct (built_holds _ _ _ B) as (_ & P). apply (Permutation.Permutation_in _ (P rt)) in Hr.
  unfold of_type in Hr. apply filter_In in Hr as (_ & Hr). now apply rtype_eqb_eq.
Qed.
Lemma ns_data_ends : forall r, record_type r = RT_NS -> exists n, ns_data r = Done n.
Proof. intros [nd cl ttl dl d] H. unfold record_type in H. destruct d; try discriminate H. now eexists. Qed.
Lemma any_ns_ends : forall a l, Forall (fun r => record_type r = RT_NS) l -> ends (any_ns_is a l).
Proof.
  intros a. induction 1 as [|r l H _ IH]; cbn [any_ns_is]; [eexists; reflexivity|]. destruct (ns_data_ends r H) as (n & ->). cbn [bind].
  destruct (bytes_eqb a n); [eexists; reflexivity|exact IH].
Qed.
Lemma find_ends : forall A (f : A -> exec bool) l, (forall x, In x l -> ends (f x)) -> ends (find_exec f l).
Proof.
  intros A f l. induction l as [|x l IH]; intros H; cbn [find_exec]; [eexists; reflexivity|].
  destruct (H x (or_introl eq_refl)) as (b & ->). cbn [bind]. destruct b; [eexists; reflexivity|]. apply IH. intros y Hy. apply H. now right.
Qed.
Lemma validate_sub_ends : forall p s zs, (exists zn rs, built zn rs s) -> (forall z, In z (sub_zones zs) -> exists zn rs, built zn rs z) ->
  ends (validate_subzone p s zs).
Proof.
  intros p s zs (zn & rs & B) H. unfold validate_subzone. cbv zeta. destruct (length _ =? 0); [eexists; reflexivity|].
  apply ends_bindR.
  - apply for_each_ends. intros r Hr. destruct (negb _); [eexists; reflexivity|].
    destruct (ns_data_ends r (get_all_type _ _ _ _ _ B Hr)) as (n & ->). cbn [bind]. destruct (negb _); [eexists; reflexivity|].
    apply for_each_ends. intros z Hz. destruct (is_in_zone n (z_zone z)); [|eexists; reflexivity].
    destruct (H z Hz) as (zn' & rs' & B'). unfold search_glue_records. destruct (built_holds _ _ _ B') as (G & _). rewrite G. cbn [bind].
    destruct (lookup rs' n RT_A); cbn [bind]; destruct (negb _); eexists; reflexivity.
  - intros _ _. apply for_each_ends. intros r _.
    assert (E : ends (find_exec (search_referred_ns p (r_node r)) (sub_zones zs))).
    { apply find_ends. intros z Hz. unfold search_referred_ns. destruct (H z Hz) as (zn' & rs' & B'). destruct (built_holds _ _ _ B') as (G & _). rewrite G. cbn [bind].
      unfold lookup. destruct (owned (z_zone z) RT_NS rs') as [|x l] eqn:El; [eexists; reflexivity|]. apply any_ns_ends. rewrite <- El. apply Forall_forall.
      intros y Hy. unfold owned in Hy. apply filter_In in Hy as (_ & Hy). apply andb_prop in Hy as (_ & Hy). now apply rtype_eqb_eq. }
    destruct E as (b & ->). cbn [bind]. destruct b; eexists; reflexivity.
Qed.

Lemma load_ends : forall p fs c, (forall q f, fs q = Some f -> tokenizable f) -> Acc (fun q p => includes fs p q) (p_path c) ->
  exists N, forall fuel, N <= fuel -> ends (parse_zone_files p fs fuel c).
Proof.
  intros p fs c Tk A. destruct (auth_ends fs c Tk A) as (N1 & H1). destruct (subs_end fs (p_subs c) Tk) as (N2 & H2).
  exists (N1 + N2). intros fuel L. unfold parse_zone_files. apply ends_bindR; [apply H1; lia|]. intros az Ea.
  apply ends_bindR; [apply H2; lia|]. intros szs Es. cbv zeta.
  pose proof (sub_files_ok _ _ _ _ Es) as F2.
  assert (Hb : forall z, In z szs -> exists zn rs, built zn rs z).
  { intros z Hz. clear - F2 Hz. induction F2 as [|c0 z' cs zs (f & rs & _ & _ & B) F2 IH]; [destruct Hz|]. destruct Hz as [<-|Hz]; [now exists (sp_zone c0), rs|auto]. }
  apply ends_bindR.
  { unfold validate_auth_zone. cbv zeta. destruct (length _ =? 0); [eexists; reflexivity|]. apply for_each_ends. intros r _. destruct (is_in_zone_root _ _); eexists; reflexivity. }
  intros _ _. apply ends_bindR; [|intros _ _; eexists; reflexivity]. apply for_each_ends. intros s Hs. cbn [sub_zones] in *.
  apply validate_sub_ends; [now apply Hb|]. exact Hb.
Qed.

(** *** More fuel changes nothing. *)
Definition below {A} (e e' : exec A) : Prop := e = Diverge \/ e = e'.
Lemma below_refl : forall A (e : exec A), below e e. Proof. now right. Qed.
Lemma below_bindR : forall A B E (m m' : exec (result A E)) (k k' : A -> exec (result B E)), below m m' -> (forall a, below (k a) (k' a)) -> below (bindR m k) (bindR m' k').
Proof.
  intros A B E m m' k k' [->|<-] H; [left; reflexivity|]. destruct m as [[a|e]|p|]; cbn [bindR bind]; auto using below_refl; now right.
Qed.
Lemma below_tk : forall A B (m m' : T A) (k k' : A -> T B) t, below (m t) (m' t) -> (forall a t', below (k a t') (k' a t')) -> below (bindTk m k t) (bindTk m' k' t).
Proof. intros A B m m' k k' t H1 H2. apply below_bindR; auto. Qed.
Ltac bel := repeat first
  [ match goal with
    | |- below (bindTk ?m _ ?t) (bindTk ?m _ ?t) => apply below_tk; [apply below_refl|intros ? ?]
    | |- below (bindTk _ _ ?t) (bindTk _ _ ?t) => apply below_tk
    | |- below (match ?x with _ => _ end _) (match ?x with _ => _ end _) => destruct x
    | |- below (if ?x then _ else _) (if ?x then _ else _) => destruct x
    | |- below ?x ?x => apply below_refl
    | |- forall _, _ => intro
    end].
Lemma below_discard : forall f f' t, f <= f' -> below (discard_strings f t) (discard_strings f' t).
Proof.
  induction f as [|f IH]; intros f' t L; [now left|]. destruct f' as [|f']; [lia|]. cbn [discard_strings]. bel. apply IH. lia.
Qed.
Lemma below_txts : forall f f' acc t, f <= f' -> below (parse_txts f acc t) (parse_txts f' acc t).
Proof.
  induction f as [|f IH]; intros f' acc t L; [now left|]. destruct f' as [|f']; [lia|]. cbn [parse_txts]. bel; apply IH; lia.
Qed.
Lemma below_data : forall f f' rt o node cl ttl t, f <= f' -> below (parse_record_data f rt o node cl ttl t) (parse_record_data f' rt o node cl ttl t).
Proof.
  intros f f' rt o node cl ttl t L. unfold parse_record_data. destruct rt; try apply below_refl.
  - unfold parse_wks_record. bel. now apply below_discard.
  - unfold parse_txt_record. bel. now apply below_txts.
Qed.
Lemma below_record : forall f f' s t, f <= f' -> below (parse_record f s t) (parse_record f' s t).
Proof.
  intros f f' s t L. unfold parse_record. destruct (next t) as [[[x t1]|e]|p|]; cbn [bind]; try apply below_refl.
  apply below_tk; [apply below_refl|intros node t2]. apply below_tk; [apply below_refl|intros tc t3]. cbv zeta.
  apply below_tk; [apply below_refl|intros [] t4]. apply below_tk; [apply below_refl|intros [] t5]. apply below_tk; [apply below_refl|intros ty t6].
  destruct ty; try apply below_refl. destruct (rtype_from_str s0) as [rt|]; [|apply below_refl]. destruct (negb _); [apply below_refl|].
  apply below_tk; [now apply below_data|]. intros r t7. apply below_refl.
Qed.
Lemma below_entries : forall fs f f' s acc t, f <= f' -> below (parse_entries fs f s acc t) (parse_entries fs f' s acc t).
Proof.
  intros fs. induction f as [|f IH]; intros f' s acc t L; [now left|]. destruct f' as [|f']; [lia|]. cbn [parse_entries].
  assert (L' : f <= f') by lia.
  apply below_bindR; [apply below_refl|]. intros (tk & t1).
  assert (K : forall m m', below m m' -> below
     (bindR m (fun y =>
          match y with
          | (ZOrigin o, t2) => parse_entries fs f (with_orig s o) acc t2
          | (ZInclude path o, t2) =>
              match fs path with
              | None => Done (Err ZE_ReadingErr)
              | Some g =>
                  bindR (parse_entries fs f (mkPS (ps_zone s) (ps_subs s) o (ps_ttl s) (ps_min s))
                           (zone_new (ps_zone s)) (tok_new g)) (fun z =>
                  parse_entries fs f s (zone_extend acc z) t2)
              end
          | (ZRecord r, t2) =>
              parse_entries fs f (with_ttl s (r_ttl r)) (zone_insert acc r) t2
          end))
     (bindR m' (fun y =>
          match y with
          | (ZOrigin o, t2) => parse_entries fs f' (with_orig s o) acc t2
          | (ZInclude path o, t2) =>
              match fs path with
              | None => Done (Err ZE_ReadingErr)
              | Some g =>
                  bindR (parse_entries fs f' (mkPS (ps_zone s) (ps_subs s) o (ps_ttl s) (ps_min s))
                           (zone_new (ps_zone s)) (tok_new g)) (fun z =>
                  parse_entries fs f' s (zone_extend acc z) t2)
              end
          | (ZRecord r, t2) =>
              parse_entries fs f' (with_ttl s (r_ttl r)) (zone_insert acc r) t2
          end))).
  { intros m m' Hm. apply below_bindR; [assumption|]. intros (e & t2). destruct e as [o|path o|r].
    - now apply IH.
    - destruct (fs path); [|apply below_refl]. apply below_bindR; [now apply IH|]. intros z. now apply IH.
    - now apply IH. }
  destruct tk; try apply below_refl; apply K; try apply below_refl; now apply below_record.
Qed.
Lemma below_sub_entries : forall f f' zn ttl mn acc t, f <= f' -> below (parse_sub_entries f zn ttl mn acc t) (parse_sub_entries f' zn ttl mn acc t).
Proof.
  induction f as [|f IH]; intros f' zn ttl mn acc t L; [now left|]. destruct f' as [|f']; [lia|]. cbn [parse_sub_entries].
  apply below_bindR; [apply below_refl|]. intros (tk & t1).
  destruct tk; try apply below_refl; (apply below_bindR; [apply below_refl|]); intros y; apply IH; lia.
Qed.
Lemma below_subs : forall fs f f' cs, f <= f' -> below (parse_sub_zone_files fs f cs) (parse_sub_zone_files fs f' cs).
Proof.
  intros fs f f' cs L. induction cs as [|c cs IH]; [apply below_refl|]. cbn [parse_sub_zone_files]. apply below_bindR.
  - unfold parse_sub_zone_file. destruct (fs (sp_path c)); [now apply below_sub_entries|apply below_refl].
  - intros z. apply below_bindR; [exact IH|]. intros zs. apply below_refl.
Qed.
Lemma below_load : forall p fs f f' c, f <= f' -> below (parse_zone_files p fs f c) (parse_zone_files p fs f' c).
Proof.
  intros p fs f f' c L. unfold parse_zone_files. apply below_bindR.
  - unfold parse_auth_zone_file. destruct (fs (p_path c)); [|apply below_refl]. cbv zeta. apply below_bindR; [apply below_refl|]. intros ((soa & mn) & t).
    apply below_bindR; [now apply below_entries|]. intros z. apply below_refl.
  - intros az. apply below_bindR; [now apply below_subs|]. intros szs. apply below_refl.
Qed.
