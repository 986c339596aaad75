(** Property C96: the reported line of a zone file is the first that is wrong. *)
From Verif Require Import Base Types Name NameSpec Codec Zone Tokens Parser TokenSpec TokenProofs TokenSim PropCodec3 LoadSpec LoadProofs ZoneProofs PropServe
  Report ReportErase ReportSim ReportNear ReportOwn ReportWithin ReportPrefix ReportStart ReportSub.

(** Line [n] of the file [f], whose path is [P], is the first that is wrong for [run], which
    loads a text: the lines before it load; and what comes after it does not matter: every file
    with the same lines up to [n] fails at [n] too (unless an entry goes on after line [n],
    which needs a parenthesis). *)
Definition first_wrong_line (run : file -> exec (result zone (zone_err * place))) (P : list N) (f : file) (n : nat) : Prop :=
  1 <= n <= length f /\
  (exists z, run (firstn (n - 1) f) = Done (Ok z)) /\
  (no_paren_on n f -> forall f', readable f' -> firstn n f' = firstn n f -> exists e', run f' = Done (Err (e', At_line P n))).

Lemma own_first_wrong : forall fs fuel s acc f e n path, readable f -> no_paren_first f -> own fs fuel s acc (tok_new f) e n -> n <> 0 ->
  first_wrong_line (fun g => parse_entries_at fs fuel path s acc (tok_new g)) path f n.
Proof.
  intros fs fuel s acc f e n path Rf NP H Hn. split; [split; [lia|exact (own_within (length f) _ _ _ _ _ _ _ H (within_new f))]|]. split.
  - exact (alone_before fs fuel s acc f e n path Rf NP H Hn).
  - intros NB f' Rf' Ef. destruct (alone_at fs fuel s acc f e n f' Rf NP NB H Hn Rf' Ef) as (e' & O). exists e'. exact (own_error _ _ _ _ _ _ _ O path).
Qed.
Lemma late0 : forall t, 1 <= tk_line t -> late 0 t.
Proof. intros t L. right. unfold pend. destruct (existsb eol (tk_peeked t)); lia. Qed.
Lemma own_pos : forall fs fuel s acc t e n, own fs fuel s acc t e n -> good t -> 1 <= tk_line t -> 1 <= n.
Proof.
  intros fs fuel s acc t e n H. induction H as [fuel s acc t e P|fuel s acc t x t1 e P Hx E|fuel s acc t x t1 z t2 s' acc' e n P Hx E Hg H IH]; intros G L; [exact L| |];
    destruct (late_peek 0 t x t1 G L (late0 t L) P) as (G1 & L1 & Lt1); [exact L1|].
  destruct (late_entry fuel s x 0 t1 z t2 G1 L1 (late0 t1 L1) E) as (G2 & L2 & _). now apply IH.
Qed.
Lemma owns_pos : forall zn mn fuel ttl acc t e n, owns zn mn fuel ttl acc t e n -> good t -> 1 <= tk_line t -> 1 <= n.
Proof.
  intros zn mn fuel ttl acc t e n H. induction H as [fuel ttl acc t e P|fuel ttl acc t x t1 e P Hx E|fuel ttl acc t x t1 r t2 e n P Hx E H IH]; intros G L; [exact L| |];
    destruct (late_peek 0 t x t1 G L (late0 t L) P) as (G1 & L1 & Lt1); [exact L1|].
  destruct (late_sub_entry zn ttl mn x 0 t1 r t2 G1 L1 (late0 t1 L1) E) as (G2 & L2 & _). now apply IH.
Qed.
Lemma new_peeked : forall f x t1, peek (tok_new f) = Done (Ok (x, t1)) -> x <> T_End -> good t1 /\ 1 <= tk_line t1.
Proof.
  intros f x t1 P Hx. unfold peek in P. pose proof (next_ok (tok_new f)) as NF. destruct (next (tok_new f)) as [[[y u]|e']|k|]; cbn [bindR bind fst snd] in P; try discriminate P.
  cbn [next_factsT] in NF. destruct NF as (N1 & _ & _ & _ & _ & N6). { right. cbn. split; [lia|]. split; [intros []|]. now intros _. }
  assert (y = x) as -> by congruence. assert (t1 = with_peeked u (tk_peeked u ++ [x])) as -> by congruence.
  destruct (N6 Hx) as (X & Y). split; [|exact X]. right. rewrite Y. cbn. split; [lia|]. split; [intros [Z|[]]; now apply Hx|]. lia.
Qed.
Lemma own_zero : forall fs fuel s acc f e, own fs fuel s acc (tok_new f) e 0 -> peek (tok_new f) = Done (Err e).
Proof.
  intros fs fuel s acc f e H. remember 0 as n eqn:En. inversion H as [fu s0 a0 t0 e0 Ep|fu s0 a0 t0 x t1 e0 Ep Hx Ee|fu s0 a0 t0 x t1 z t2 s' acc' e0 n0 Ep Hx Ee Hg Ho]; subst; [exact Ep| |]; exfalso;
    destruct (new_peeked f x t1 Ep Hx) as (G1 & L1); [congruence || lia|].
  destruct (late_entry fu s x 0 t1 z t2 G1 L1 (late0 t1 L1) Ee) as (G2 & L2 & _). pose proof (own_pos _ _ _ _ _ _ _ Ho G2 L2). lia.
Qed.
Lemma owns_zero : forall zn mn fuel ttl acc f e, owns zn mn fuel ttl acc (tok_new f) e 0 -> peek (tok_new f) = Done (Err e).
Proof.
  intros zn mn fuel ttl acc f e H. remember 0 as n eqn:En. inversion H as [fu s0 a0 t0 e0 Ep|fu s0 a0 t0 x t1 e0 Ep Hx Ee|fu s0 a0 t0 x t1 z t2 e0 n0 Ep Hx Ee Ho]; subst; [exact Ep| |]; exfalso;
    destruct (new_peeked f x t1 Ep Hx) as (G1 & L1); [congruence || lia|].
  destruct (late_sub_entry zn ttl mn x 0 t1 z t2 G1 L1 (late0 t1 L1) Ee) as (G2 & L2 & _). pose proof (owns_pos _ _ _ _ _ _ _ _ Ho G2 L2). lia.
Qed.
Lemma reads_peek : forall t e, peek t = Done (Err e) -> reads t [] (Some e).
Proof. intros t e P. apply reads_err. unfold peek in P. destruct (next t) as [[[x u]|e']|k|]; cbn [bindR bind] in P; try discriminate P. congruence. Qed.

(** The file named is the one that is wrong, and the line named is the first that is wrong in
    it. Line 0 (in an included file or the file of a sub-zone): its first word is wrong. *)
Definition wrong_at (run : file -> exec (result zone (zone_err * place))) (P : list N) (f : file) (e : zone_err) (n : nat) : Prop :=
  n = 0 /\ reads (tok_new f) [] (Some e) \/ first_wrong_line run P f n.
Theorem C96_the_line_named_is_the_first_wrong_line_partial : forall p fs fuel c e P n,
  parse_zone_files_at p fs fuel c = Done (Err (e, At_line P n)) ->
  (forall q f, fs q = Some f -> readable f /\ no_paren_first f) ->
  exists f, fs P = Some f /\
    (P = p_path c /\ first_wrong_line (parse_auth_lines_at fs fuel c) P f n \/
     (exists fuel' orig ttl minimum, wrong_at (fun g => parse_entries_at fs fuel' P (mkPS (p_zone c) (map sp_zone (p_subs c)) orig ttl minimum) (zone_new (p_zone c)) (tok_new g)) P f e n) \/
     (exists sc, In sc (p_subs c) /\ sp_path sc = P /\ wrong_at (parse_sub_lines_at fuel sc) P f e n)).
Proof.
  intros p fs fuel c e P n E Hf. unfold parse_zone_files_at in E.
  destruct (parse_auth_zone_file_at fs fuel c) as [[az|e1]|k|] eqn:Ea; cbn [bindR bind] in E; try discriminate E.
  - (* a sub-zone *)
    destruct (parse_sub_zone_files_at fs fuel (p_subs c)) as [[szs|e1]|k|] eqn:Es; cbn [bindR bind] in E; try discriminate E.
    + exfalso. destruct (validate_auth_zone (mkManaged az szs)) as [[u|e1]|k|]; cbn [placed bindR bind] in E; try discriminate E.
      assert (K : forall l zs, bindR (for_each l (fun s => placed (At_sub (z_zone s)) (validate_subzone p s zs))) (fun _ => @Done (result managed (zone_err * place)) (Ok zs)) <> Done (Err (e, At_line P n))).
      { clear. intros l zs. induction l as [|z l IH]; [discriminate|]. cbn [for_each]. destruct (validate_subzone p z zs) as [[u|e1]|k|]; cbn [placed bindR bind]; try discriminate. exact IH. }
      exact (K _ _ E).
    + assert (e1 = (e, At_line P n)) as -> by congruence. clear E Ea.
      assert (K : exists sc, In sc (p_subs c) /\ parse_sub_zone_file_at fs fuel sc = Done (Err (e, At_line P n))).
      { clear - Es. induction (p_subs c) as [|sc l IH]; [discriminate Es|]. cbn [parse_sub_zone_files_at] in Es.
        destruct (parse_sub_zone_file_at fs fuel sc) as [[z|e1]|k|] eqn:E1; cbn [bindR bind] in Es; try discriminate Es.
        - destruct (parse_sub_zone_files_at fs fuel l) as [[zs|e1]|k|]; cbn [bindR bind] in Es; try discriminate Es.
          destruct IH as (sc' & Hi & K); [congruence|]. exists sc'. split; [now right|exact K].
        - exists sc. split; [now left|]. congruence. }
      destruct K as (sc & Hi & K). unfold parse_sub_zone_file_at in K. destruct (fs (sp_path sc)) as [f|] eqn:Ef; [|discriminate K].
      unfold parse_sub_lines_at in K. destruct (error_owns _ _ _ _ _ _ _ _ _ _ K) as (-> & O). exists f. split; [exact Ef|]. right. right. exists sc. split; [exact Hi|]. split; [reflexivity|].
      destruct (Hf _ _ Ef) as (Rf & NP). destruct n as [|n]; [left; split; [reflexivity|]; apply reads_peek; exact (owns_zero _ _ _ _ _ _ _ O)|right].
      split; [split; [lia|exact (owns_within _ _ (length f) _ _ _ _ _ _ O (within_new f))]|]. split.
      * exact (sub_alone_before _ _ fuel _ _ f e (S n) (sp_path sc) Rf NP O ltac:(discriminate)).
      * intros NB f' Rf' Ef'. destruct (sub_alone_at _ _ fuel _ _ f e (S n) f' Rf NP NB O ltac:(discriminate) Rf' Ef') as (e' & O'). exists e'. exact (owns_error _ _ _ _ _ _ _ _ O' (sp_path sc)).
  - assert (e1 = (e, At_line P n)) as -> by congruence. clear E.
    unfold parse_auth_zone_file_at in Ea. destruct (fs (p_path c)) as [f|] eqn:Ef; [|discriminate Ea].
    pose proof Ea as Eb. unfold parse_auth_lines_at in Ea. cbv zeta in Ea.
    destruct (parse_starting_soa_record (mkPS (p_zone c) (map sp_zone (p_subs c)) (p_zone c) (p_ttl c) 0) (tok_new f)) as [[[[soa mn] t]|e1]|k|] eqn:E0; cbn [placed bindR bind] in Ea; try discriminate Ea.
    cbn [ps_zone ps_subs ps_orig ps_ttl] in Ea.
    destruct (parse_entries_at fs fuel (p_path c) _ _ t) as [[z|e1]|k|] eqn:E1; cbn [bindR bind] in Ea; try discriminate Ea.
    assert (e1 = (e, At_line P n)) as -> by congruence. clear Ea.
    destruct (error_own _ _ _ _ _ _ _ _ _ E1) as [(-> & O)|(fuel' & o & ttl & g & _ & Eg & O)].
    + exists f. split; [exact Ef|]. left. split; [reflexivity|]. destruct (Hf _ _ Ef) as (Rf & NP).
      destruct (soa_load _ f _ t Rf E0) as (l & g & k & El & Hk & Ess & Gt & Lt & Ltk).
      split; [split; [exact (own_pos _ _ _ _ _ _ _ O Gt Lt)|exact (own_within (length f) _ _ _ _ _ _ _ O (stays_starting_soa _ _ _ _ _ (within_new f) E0))]|]. split.
      * destruct (main_before _ _ _ _ _ f _ t e n (p_path c) Rf NP E0 O) as (t' & z & E0' & Ez). exists (zone_insert z soa).
        unfold parse_auth_lines_at. cbv zeta. rewrite E0'. cbn [placed bindR bind ps_zone ps_subs ps_orig ps_ttl]. rewrite Ez. reflexivity.
      * intros NB f' Rf' Ef'. destruct (main_at _ _ _ _ _ f _ t e n f' Rf NP NB E0 O Rf' Ef') as (t' & e' & E0' & O'). exists e'.
        unfold parse_auth_lines_at. cbv zeta. rewrite E0'. cbn [placed bindR bind ps_zone ps_subs ps_orig ps_ttl]. rewrite (own_error _ _ _ _ _ _ _ O' (p_path c)). reflexivity.
    + exists g. split; [exact Eg|]. right. left. destruct (Hf _ _ Eg) as (Rg & NP). cbn [ps_zone ps_subs ps_min] in O. exists fuel', o, ttl, mn.
      destruct n as [|n]; [left; split; [reflexivity|]; apply reads_peek; exact (own_zero _ _ _ _ _ _ O)|right].
      exact (own_first_wrong _ _ _ _ g e (S n) P Rg NP O ltac:(discriminate)).
Qed.
Print Assumptions C96_the_line_named_is_the_first_wrong_line_partial.

(** * The other places *)
Lemma entries_file : forall fs fuel path s acc t e P, parse_entries_at fs fuel path s acc t = Done (Err (e, At_file P)) -> fs path <> None ->
  e = ZE_ReadingErr /\ fs P <> None /\ exists q, fs q = None.
Proof.
  intros fs. induction fuel as [|fuel IH]; intros path s acc t e P H Hp; [discriminate H|].
  rewrite entries_step in H. destruct (peek t) as [[[x t1]|e']|k|]; cbn [placed bind bindR fst snd] in H; try discriminate H.
  assert (C : x = T_End \/ x <> T_End) by (destruct x; (now left) || (right; discriminate)). destruct C as [->|Hx]; [discriminate H|].
  assert (H' : bindR (placed (At_line path (tk_line t1)) (entry fuel s x t1)) (more fs fuel path s acc) = Done (Err (e, At_file P))) by (destruct x; try exact H; now destruct Hx). clear H.
  destruct (entry fuel s x t1) as [[[z t2]|e']|k|]; cbn [placed bind bindR] in H'; try discriminate H'.
  destruct z as [o|q o|r]; cbn [more] in H'; try (now apply IH in H').
  destruct (fs q) as [f|] eqn:Eq.
  - destruct (parse_entries_at fs fuel q _ _ (tok_new f)) as [[zz|e']|k|] eqn:Ei; cbn [bindR bind] in H'; try discriminate H'.
    + now apply IH in H'.
    + assert (e' = (e, At_file P)) as -> by congruence. apply IH in Ei; [exact Ei|congruence].
  - assert (e = ZE_ReadingErr /\ P = path) as (-> & ->) by (split; congruence). split; [reflexivity|]. split; [exact Hp|now exists q].
Qed.
Theorem C96_where_no_line_is_named_partial : forall p fs fuel c e w, params_ok c -> parse_zone_files_at p fs fuel c = Done (Err (e, w)) ->
  match w with
  | At_line _ _ => True
  | At_file P => e = ZE_ReadingErr /\ (fs P = None \/ exists q, fs q = None)
  | At_soa => exists f, fs (p_path c) = Some f
  | At_auth z => z = p_zone c /\ (exists az, parse_auth_zone_file fs fuel c = Done (Ok az)) /\ exists szs, parse_sub_zone_files fs fuel (p_subs c) = Done (Ok szs)
  | At_sub z => In z (map sp_zone (p_subs c)) /\ (exists az, parse_auth_zone_file fs fuel c = Done (Ok az)) /\ exists szs, parse_sub_zone_files fs fuel (p_subs c) = Done (Ok szs)
  end.
Proof.
  intros p fs fuel c e w Hc E. unfold parse_zone_files_at in E.
  destruct (parse_auth_zone_file_at fs fuel c) as [[az|e1]|k|] eqn:Ea; cbn [bindR bind] in E; try discriminate E.
  - assert (Ua : parse_auth_zone_file fs fuel c = Done (Ok az)) by (rewrite <- auth_unplaced, Ea; reflexivity).
    destruct (parse_sub_zone_files_at fs fuel (p_subs c)) as [[szs|e1]|k|] eqn:Es; cbn [bindR bind] in E; try discriminate E.
    + assert (Us : parse_sub_zone_files fs fuel (p_subs c) = Done (Ok szs)) by (rewrite <- subs_unplaced, Es; reflexivity).
      assert (Za : z_zone az = p_zone c). { destruct (parse_auth_built fs fuel c az Hc Ua) as (soa & mn & rs & B & _). exact (built_zone _ _ _ B). }
      assert (Zs : forall z, In z szs -> In (z_zone z) (map sp_zone (p_subs c))).
      { destruct Hc as (_ & _ & Hs). pose proof (parse_sub_files_built fs fuel _ _ Hs Us) as F. clear - F. induction F as [|cs z l l' H F IH]; intros y Hy; [destruct Hy|].
        destruct Hy as [<-|Hy]; [left|right; now apply IH]. destruct H as (rs & B & _). symmetry. exact (built_zone _ _ _ B). }
      destruct (validate_auth_zone (mkManaged az szs)) as [[u|e1]|k|]; cbn [placed bindR bind] in E; try discriminate E.
      * assert (K : forall l zs, bindR (for_each l (fun s => placed (At_sub (z_zone s)) (validate_subzone p s zs))) (fun _ => @Done (result managed (zone_err * place)) (Ok zs)) = Done (Err (e, w)) ->
          exists z, In z l /\ w = At_sub (z_zone z)).
        { clear. intros l zs. induction l as [|z l IH]; intros E; [discriminate E|]. cbn [for_each] in E. destruct (validate_subzone p z zs) as [[u|e1]|k|]; cbn [placed bindR bind] in E; try discriminate E.
          - destruct (IH E) as (y & Hy & Ew). exists y. split; [now right|exact Ew].
          - exists z. split; [now left|]. congruence. }
        destruct (K _ _ E) as (z & Hz & ->). cbn [sub_zones] in Hz. split; [now apply Zs|]. split; eexists; eassumption.
      * assert (w = At_auth (z_zone az)) as -> by (cbn [auth_zone] in E; congruence). split; [exact Za|]. split; eexists; eassumption.
    + assert (e1 = (e, w)) as -> by congruence. clear E Ea Ua az. induction (p_subs c) as [|sc l IH]; [discriminate Es|]. cbn [parse_sub_zone_files_at] in Es.
      destruct (parse_sub_zone_file_at fs fuel sc) as [[z|e1]|k|] eqn:E1; cbn [bindR bind] in Es; try discriminate Es.
      * destruct (parse_sub_zone_files_at fs fuel l) as [[zs|e1]|k|] eqn:E2; cbn [bindR bind] in Es; try discriminate Es.
        assert (e1 = (e, w)) as -> by congruence. specialize (IH eq_refl). destruct w; try exact IH.
        -- destruct IH as (H & _ & szs & H'). exfalso. pose proof (subs_unplaced fs fuel l) as X. rewrite E2 in X. cbn [unplaced bind] in X. congruence.
        -- destruct IH as (H & _ & szs & H'). exfalso. pose proof (subs_unplaced fs fuel l) as X. rewrite E2 in X. cbn [unplaced bind] in X. congruence.
      * assert (e1 = (e, w)) as -> by congruence. clear Es IH. unfold parse_sub_zone_file_at in E1. destruct (fs (sp_path sc)) as [f|] eqn:Ef.
        -- assert (K : forall fu path zn ttl mn acc t, parse_sub_entries_at fu path zn ttl mn acc t = Done (Err (e, w)) -> exists m, w = At_line path m).
           { clear. induction fu as [|fu IH]; intros path zn ttl mn acc t E; [discriminate E|]. rewrite sub_step in E. destruct (peek t) as [[[x t1]|e']|k|]; cbn [placed bind bindR fst snd] in E; try discriminate E.
             2:{ eexists. assert (w = At_line path (tk_line t)) as -> by congruence. reflexivity. }
             assert (C : x = T_End \/ x <> T_End) by (destruct x; (now left) || (right; discriminate)). destruct C as [->|Hx]; [discriminate E|].
             assert (H' : bindR (placed (At_line path (tk_line t1)) (sub_entry zn ttl mn x t1)) (fun y => parse_sub_entries_at fu path zn (r_ttl (fst y)) mn (zone_insert acc (fst y)) (snd y)) = Done (Err (e, w)))
               by (destruct x; try exact E; now destruct Hx). clear E.
             destruct (sub_entry zn ttl mn x t1) as [[[r t2]|e']|k|]; cbn [placed bind bindR fst snd] in H'; try discriminate H'; [now apply IH in H'|].
             eexists. assert (w = At_line path (tk_line t1)) as -> by congruence. reflexivity. }
           destruct (K _ _ _ _ _ _ _ E1) as (m & ->). exact Logic.I.
        -- assert (e = ZE_ReadingErr /\ w = At_file (sp_path sc)) as (-> & ->) by (split; congruence). split; [reflexivity|now left].
  - assert (e1 = (e, w)) as -> by congruence. clear E. unfold parse_auth_zone_file_at in Ea. destruct (fs (p_path c)) as [f|] eqn:Ef.
    + unfold parse_auth_lines_at in Ea. cbv zeta in Ea.
      destruct (parse_starting_soa_record (mkPS (p_zone c) (map sp_zone (p_subs c)) (p_zone c) (p_ttl c) 0) (tok_new f)) as [[[[soa mn] t]|e1]|k|] eqn:E0; cbn [placed bindR bind] in Ea; try discriminate Ea.
      * cbn [ps_zone ps_subs ps_orig ps_ttl] in Ea.
        destruct (parse_entries_at fs fuel (p_path c) _ _ t) as [[z|e1]|k|] eqn:E1; cbn [bindR bind] in Ea; try discriminate Ea.
        assert (e1 = (e, w)) as -> by congruence. clear Ea.
        assert (K : forall fu path s acc t, parse_entries_at fs fu path s acc t = Done (Err (e, w)) -> (exists P n, w = At_line P n) \/ exists P, w = At_file P).
        { clear. induction fu as [|fu IH]; intros path s acc t E; [discriminate E|]. rewrite entries_step in E. destruct (peek t) as [[[x t1]|e']|k|]; cbn [placed bind bindR fst snd] in E; try discriminate E.
          2:{ left. eexists _, _. assert (w = At_line path (tk_line t)) as -> by congruence. reflexivity. }
          assert (C : x = T_End \/ x <> T_End) by (destruct x; (now left) || (right; discriminate)). destruct C as [->|Hx]; [discriminate E|].
          assert (H' : bindR (placed (At_line path (tk_line t1)) (entry fu s x t1)) (more fs fu path s acc) = Done (Err (e, w))) by (destruct x; try exact E; now destruct Hx). clear E.
          destruct (entry fu s x t1) as [[[z t2]|e']|k|]; cbn [placed bind bindR] in H'; try discriminate H'.
          - destruct z as [o|q o|r]; cbn [more] in H'; try (now apply IH in H').
            destruct (fs q) as [f|].
            + destruct (parse_entries_at fs fu q _ _ (tok_new f)) as [[zz|e']|k|] eqn:Ei; cbn [bindR bind] in H'; try discriminate H'; [now apply IH in H'|].
              assert (e' = (e, w)) as -> by congruence. now apply IH in Ei.
            + right. exists path. congruence.
          - left. eexists _, _. assert (w = At_line path (tk_line t1)) as -> by congruence. reflexivity. }
        destruct (K _ _ _ _ _ E1) as [(P & n & ->)|(P & ->)]; [exact Logic.I|].
        apply entries_file in E1; [|congruence]. destruct E1 as (He & _ & q & Hq). split; [exact He|right; now exists q].
      * assert (w = At_soa) as -> by congruence. now exists f.
    + assert (e = ZE_ReadingErr /\ w = At_file (p_path c)) as (-> & ->) by (split; congruence). split; [reflexivity|now left].
Qed.
Print Assumptions C96_where_no_line_is_named_partial.

(** * Witnesses *)
Definition rp_params : params := mkParams (s2b "main") (s2b "example.com.") 1000 [mkSubParams (s2b "sub") (s2b "sub.example.com.") 1000 60].
Definition rp_soa : list N := s2b "@ IN SOA ns hostmaster 1 3600 600 86400 300".
Definition rp_fs (main more sub : file) : filesys := fun path =>
  if bytes_eqb path (s2b "main") then Some main else if bytes_eqb path (s2b "more") then Some more
  else if bytes_eqb path (s2b "sub") then Some sub else None.
(** the hypotheses of the theorems, and an error in each kind of file *)
Definition rp_wrong : file := txt_file [s2b "; text"; s2b "www A 10.0.0.1"; s2b "  TXT ( a ; b"; s2b "  c )"; s2b ""; s2b "ftp A 10.0.0.1.2"; s2b "ns A 10.0.0.2"].
Definition readableb (f : file) : bool := forallb (fun o => match o with Some l => negb (hd 0%N l =? 40)%N | None => false end) f.
Lemma readableb_ok : forall f, readableb f = true -> readable f /\ no_paren_first f.
Proof.
  intros f H. unfold readableb in H. rewrite forallb_forall in H. split.
  - apply Forall_forall. intros [l|] Hl; [discriminate|]. specialize (H _ Hl). discriminate H.
  - intros l Hl X. specialize (H _ Hl). cbv beta iota in H. rewrite X in H. discriminate H.
Qed.
Lemma rp_readable : forall a b c, readableb a = true -> readableb b = true -> readableb c = true -> forall q f, rp_fs a b c q = Some f -> readable f /\ no_paren_first f.
Proof.
  intros a b c Ha Hb Hc q f E. unfold rp_fs in E. destruct (bytes_eqb q (s2b "main")); [assert (a = f) as <- by congruence; now apply readableb_ok|].
  destruct (bytes_eqb q (s2b "more")); [assert (b = f) as <- by congruence; now apply readableb_ok|].
  destruct (bytes_eqb q (s2b "sub")); [assert (c = f) as <- by congruence; now apply readableb_ok|discriminate E].
Qed.
Definition rp_main1 : file := Some rp_soa :: rp_wrong.
Definition rp_main2 : file := txt_file [rp_soa; s2b "  NS ns"; s2b "$INCLUDE more b"; s2b "ns A 10.0.0.9"].
Definition rp_main3 : file := txt_file [rp_soa; s2b "  NS ns"; s2b "ns A 10.0.0.9"].
Theorem C96_nonvacuous : forall p,
  (exists e, parse_zone_files_at p (rp_fs rp_main1 [] []) 100 rp_params = Done (Err (e, At_line (s2b "main") 7))) /\
  (exists e, parse_zone_files_at p (rp_fs rp_main2 rp_wrong []) 100 rp_params = Done (Err (e, At_line (s2b "more") 6))) /\
  (exists e, parse_zone_files_at p (rp_fs rp_main3 [] (txt_file [s2b "@ A 10.0.0.3"; s2b "  @"])) 100 rp_params = Done (Err (e, At_line (s2b "sub") 2))) /\
  (forall q f, rp_fs rp_main1 [] [] q = Some f -> readable f /\ no_paren_first f) /\
  (forall q f, rp_fs rp_main2 rp_wrong [] q = Some f -> readable f /\ no_paren_first f) /\
  no_paren_on 7 rp_main1 /\ no_paren_on 6 rp_wrong /\ params_ok rp_params.
Proof.
  intros p. split; [eexists; vm_compute; reflexivity|]. split; [eexists; vm_compute; reflexivity|]. split; [eexists; vm_compute; reflexivity|].
  split; [apply rp_readable; reflexivity|]. split; [apply rp_readable; reflexivity|].
  assert (K : forall (l : list N), existsb (N.eqb 40) l = false -> ~ In 40%N l).
  { intros l H X. assert (Y : existsb (N.eqb 40) l = true) by (apply existsb_exists; exists 40%N; now split). congruence. }
  split; [|split; [|exact ex_params_ok]]; intros l E.
  - apply K. assert (l = s2b "ftp A 10.0.0.1.2") as -> by (cbn [pred nth_error rp_main1 rp_wrong txt_file map] in E; congruence). reflexivity.
  - apply K. assert (l = s2b "ftp A 10.0.0.1.2") as -> by (cbn [pred nth_error rp_wrong txt_file map] in E; congruence). reflexivity.
Qed.
(** Line 0, when the first word of an included file is wrong: [$FOO] is on line 2. *)
Theorem C96_refuted_line_zero : forall p,
  exists e, parse_zone_files_at p (rp_fs rp_main2 (txt_file [s2b "; text"; s2b "$FOO 1"]) []) 100 rp_params = Done (Err (e, At_line (s2b "more") 0)).
Proof. intros p. eexists. vm_compute. reflexivity. Qed.
(** A line that cannot be read, here line 3: line 2 is named, which is right. *)
Theorem C96_refuted_unreadable_line : forall p,
  (exists e, parse_zone_files_at p (rp_fs [Some rp_soa; Some (s2b "www A 10.0.0.1"); None] [] []) 100 rp_params = Done (Err (e, At_line (s2b "main") 2))) /\
  exists z, parse_auth_lines_at (rp_fs [] [] []) 100 rp_params (txt_file [rp_soa; s2b "www A 10.0.0.1"]) = Done (Ok z).
Proof. intros p. split; eexists; vm_compute; reflexivity. Qed.
(** An included file that cannot be opened: the file named is the one that includes it, which
    can be, and no line is. *)
Theorem C96_refuted_unopened_include : forall p,
  parse_zone_files_at p (rp_fs (txt_file [rp_soa; s2b "$INCLUDE none"]) [] []) 100 rp_params = Done (Err (ZE_ReadingErr, At_file (s2b "main"))) /\
  rp_fs (txt_file [rp_soa; s2b "$INCLUDE none"]) [] [] (s2b "none") = None.
Proof. intros p. split; vm_compute; reflexivity. Qed.
Print Assumptions C96_nonvacuous.
Print Assumptions C96_refuted_line_zero.
Print Assumptions C96_refuted_unreadable_line.
Print Assumptions C96_refuted_unopened_include.
