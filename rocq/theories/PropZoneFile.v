(** C43, C46, C47: loading zone files. *)
From Verif Require Import Base Types Name NameSpec NameProofs PropName Codec CodecSpec Zone ZoneSpec ZoneProofs
  Tokens Parser NsSpec PropNs LoadSpec PropLoad PropServe PropCodec3 TokenSpec TokenProofs PropTok LexSpec LexProofs LoadProofs
  ZoneFileSpec ZoneFileRun ZoneFileDenote ZoneFileLoad ZoneFileTotal.

(** * C46, C47 *)
(** Whatever is loaded is what the files say: the authoritative zone holds the records its
    main file denotes (with the included ones), the sub zones those of their files. How
    origin and default TTL move along lines and includes is in [denotes]. *)
Theorem C46_C47_loading_computes_what_files_say : forall p fs fuel c zs,
  parse_zone_files p fs fuel c = Done (Ok zs) ->
  exists sd, serves zs sd /\
    d_apex (s_auth sd) = p_zone c /\
    (exists f, fs (p_path c) = Some f /\ auth_file fs (p_zone c) (p_ttl c) f (d_records (s_auth sd))) /\
    Forall2 (fun s d => d_apex d = sp_zone s /\
               exists f, fs (sp_path s) = Some f /\ sub_file (sp_zone s) (sp_ttl s) f (d_records d)) (p_subs c) (s_subs sd).
Proof.
  intros p fs fuel c zs E. unfold parse_zone_files in E.
  apply bindR_inv in E as (az & Ea & E). apply bindR_inv in E as (szs & Es & E). cbv zeta in E.
  apply bindR_inv in E as (_ & _ & E). apply bindR_inv in E as (_ & _ & E). assert (zs = mkManaged az szs) as -> by congruence. clear E.
  destruct (auth_file_ok _ _ _ _ Ea) as (f & rs & Ef & A & B). apply sub_files_ok in Es.
  assert (S : exists ds, Forall2 stores szs ds /\ Forall2 (fun s d => d_apex d = sp_zone s /\
               exists f, fs (sp_path s) = Some f /\ sub_file (sp_zone s) (sp_ttl s) f (d_records d)) (p_subs c) ds).
  { clear - Es. induction Es as [|s z cs zs (f & rs & Ef & F & B) _ (ds & S1 & S2)]; [exists []; now split|].
    exists (mkData (sp_zone s) rs :: ds). split.
    - constructor; [|exact S1]. split; [exact (built_zone _ _ _ B)|exact (built_holds _ _ _ B)].
    - constructor; [|exact S2]. split; [reflexivity|]. now exists f. }
  destruct S as (ds & S1 & S2). exists (mkServer (mkData (p_zone c) rs) ds). split.
  { split; [|exact S1]. split; [exact (built_zone _ _ _ B)|exact (built_holds _ _ _ B)]. }
  split; [reflexivity|]. split; [now exists f|exact S2].
Qed.
Print Assumptions C46_C47_loading_computes_what_files_say.

(** The files say only one thing. *)
Theorem C46_C47_files_say_one_thing : forall fs zone ttl f,
  (forall rs rs', auth_file fs zone ttl f rs -> auth_file fs zone ttl f rs' -> rs = rs') /\
  (forall rs rs', sub_file zone ttl f rs -> sub_file zone ttl f rs' -> rs = rs').
Proof.
  intros fs zone ttl f. split.
  - intros rs rs' (ts & soa & rest & rs1 & R & S & _ & D & ->) (ts' & soa' & rest' & rs1' & R' & S' & _ & D' & ->).
    assert (ts' = ts) as -> by (eapply lexes_unique; eassumption). destruct (record_text_unique _ _ _ _ _ _ _ S S') as (<- & <-).
    now rewrite (denotes_unique _ _ _ _ _ D _ D').
  - intros rs rs' (ts & R & D) (ts' & R' & D'). assert (ts' = ts) as -> by (eapply lexes_unique; eassumption). now rewrite (sub_denotes_unique _ _ _ _ D _ D').
Qed.
Print Assumptions C46_C47_files_say_one_thing.

(** C46: an include line adds the records of the included file, read with the stated (or
    the current) origin and the current TTL; the rest is read with the origin and the TTL
    that were in force before it. *)
Theorem C46_includes_do_not_leak : forall fs origin ttl ts rs,
  denotes fs origin ttl (T_IncludeDir :: ts) rs ->
  exists x path u origin' v rest f tsf rsf rs',
    field ts x u /\ file_name x path /\
    (v = u /\ origin' = origin \/ exists s, field u (T_String s) v /\ full_name origin s origin') /\ line_end v rest /\
    fs path = Some f /\ lexes f tsf /\ denotes fs origin' ttl tsf rsf /\
    denotes fs origin ttl rest rs' /\ rs = rsf ++ rs'.
Proof.
  intros fs origin ttl ts rs H. inversion H; subst.
  - eexists _, _, _, _, _, _, _, _, _, _. repeat split; try eassumption.
  - match goal with H : record_text _ _ (T_IncludeDir :: _) _ _ |- _ => apply record_text_owner in H as [] end.
Qed.
Print Assumptions C46_includes_do_not_leak.

(** C47: a record line without TTL gets the TTL in force, and the next line starts with
    the record's TTL. *)
Theorem C47_omitted_ttls_are_inherited : forall fs origin ttl x u n ot oc v ty w rt rs,
  owner origin x n -> ttl_class u ot oc v -> (oc = None \/ oc = Some C_IN) -> field v (T_String ty) w -> rtype_from_str ty = Ok rt ->
  denotes fs origin ttl (x :: u) rs ->
  exists r rest rs', rs = r :: rs' /\ r_node r = n /\ r_ttl r = match ot with Some t => t | None => ttl end /\
    denotes fs origin (r_ttl r) rest rs'.
Proof.
  intros fs origin ttl x u n ot oc v ty w rt rs Ho Ht Hc Hf Hr H. inversion H; subst; try (now inversion Ho).
  match goal with K : record_text _ _ _ ?r ?rest |- _ => exists r, rest; destruct K as (x' & a & n' & ot' & oc' & v' & ty' & rt' & w' & d & y & E & O & Tc & C & F & R & _ & _ & ->) end.
  assert (x' = x /\ a = u) as (-> & ->) by (split; congruence).
  destruct (head_unique _ _ _ _ _ _ _ _ _ _ _ _ _ Ht Hc Hf Hr Tc C F R) as (<- & _ & _).
  eexists. split; [reflexivity|]. cbn [r_node r_ttl]. split; [eapply owner_unique; eassumption|]. split; [reflexivity|]. assumption.
Qed.
Print Assumptions C47_omitted_ttls_are_inherited.

(** The example: the included file is read with its own origin ("b") and the including
    file's TTL (3600), and its own TTL (500) does not come back. *)
Theorem C46_C47_nonvacuous : forall p, exists zs sd,
  parse_zone_files p ex_fs 100 ex_params = Done (Ok zs) /\ serves zs sd /\
  auth_file ex_fs (p_zone ex_params) (p_ttl ex_params) ex_main (d_records (s_auth sd)) /\
  lookup (d_records (s_auth sd)) (s2b "ns.example.com.") RT_A = Some [mkRec (s2b "ns.example.com.") C_IN 3600 0 (D_A [10; 0; 0; 1]%N)] /\
  lookup (d_records (s_auth sd)) (s2b "b.example.com.") RT_A = Some [mkRec (s2b "b.example.com.") C_IN 3600 0 (D_A [10; 0; 0; 9]%N)] /\
  lookup (d_records (s_auth sd)) (s2b "h.b.example.com.") RT_HINFO = Some [mkRec (s2b "h.b.example.com.") C_IN 500 0 (D_HINFO (s2b "cpu") (s2b "os"))] /\
  lookup (d_records (s_auth sd)) (s2b "last.a.example.com.") RT_A = Some [mkRec (s2b "last.a.example.com.") C_IN 3600 0 (D_A [10; 0; 0; 10]%N)].
Proof.
  intros p.
  assert (E : exists zs, parse_zone_files p ex_fs 100 ex_params = Done (Ok zs) /\
     forall n t l, In (n, t, l) [ (s2b "ns.example.com.", RT_A, [mkRec (s2b "ns.example.com.") C_IN 3600 0 (D_A [10; 0; 0; 1]%N)]);
        (s2b "b.example.com.", RT_A, [mkRec (s2b "b.example.com.") C_IN 3600 0 (D_A [10; 0; 0; 9]%N)]);
        (s2b "h.b.example.com.", RT_HINFO, [mkRec (s2b "h.b.example.com.") C_IN 500 0 (D_HINFO (s2b "cpu") (s2b "os"))]);
        (s2b "last.a.example.com.", RT_A, [mkRec (s2b "last.a.example.com.") C_IN 3600 0 (D_A [10; 0; 0; 10]%N)]) ] ->
       zone_get p (auth_zone zs) n t = Done (Some l)).
  { destruct p; eexists; (split; [vm_compute; reflexivity|]); intros n t l H;
      repeat (destruct H as [H|H]; [injection H as <- <- <-; vm_compute; reflexivity|]); destruct H. }
  destruct E as (zs & E & G). destruct (C46_C47_loading_computes_what_files_say _ _ _ _ _ E) as (sd & S & _ & (f & Ef & A) & _).
  assert (f = ex_main) as -> by (vm_compute in Ef; vm_compute; congruence).
  exists zs, sd. split; [exact E|]. split; [exact S|]. split; [exact A|]. destruct S as ((_ & H & _) & _).
  assert (L : forall n t l, zone_get p (auth_zone zs) n t = Done (Some l) -> lookup (d_records (s_auth sd)) n t = Some l) by (intros n t l K; rewrite H in K; congruence).
  repeat split; apply L, G; cbn [In]; auto.
Qed.

(** * C43 *)
(** REFUTED in general. First: an unquoted word with a backslash that runs to the end of
    the line makes the server panic. *)
Definition word_char (c : N) : Prop := ~ In c [32; 9; 36; 34; 40; 41; 59; 92]%N /\ is_ws c = false.
Lemma word_loop_plain : forall w n cur acc, Forall word_char w -> length w <= n -> word_loop n (w ++ cur) acc = word_loop (n - length w) cur (acc ++ w).
Proof.
  induction w as [|c w IH]; intros n cur acc F L; cbn [length app] in *; [now rewrite Nat.sub_0_r, app_nil_r|].
  inversion F as [|? ? (Hc & Hw) F']; subst. destruct n as [|n]; [lia|]. cbn [word_loop Nat.sub].
  cbn [In] in Hc. destruct (c =? BACKSLASH)%N eqn:E1. { apply N.eqb_eq in E1. exfalso. apply Hc. rewrite E1. unfold BACKSLASH. tauto. }
  destruct ((c =? 59) || (c =? 40) || (c =? 41))%N eqn:E2. { exfalso. apply Hc. repeat rewrite orb_true_iff in E2. rewrite !N.eqb_eq in E2. intuition (subst; tauto). }
  rewrite Hw. rewrite IH; [|assumption|lia]. f_equal. now rewrite <- app_assoc.
Qed.
Theorem C43_refuted_escapes : forall p fs fuel c w e v rest,
  w <> [] -> Forall word_char w -> Forall word_char v ->
  fs (p_path c) = Some (Some (w ++ 92%N :: e :: v) :: rest) ->
  parse_zone_files p fs fuel c = Panic PIndex.
Proof.
  intros p fs fuel c w e v rest Hw Fw Fv Ef. unfold parse_zone_files, parse_auth_zone_file. rewrite Ef. cbv zeta.
  unfold parse_starting_soa_record, bindTk at 1.
  assert (E : next (tok_new (Some (w ++ 92%N :: e :: v) :: rest)) = Panic PIndex); [|rewrite E; reflexivity].
  destruct w as [|ch w]; [congruence|]. inversion Fw as [|? ? (Hc & Hs) Fw']; subst. cbn [In] in Hc.
  unfold next. generalize (tok_size (tok_new (Some ((ch :: w) ++ 92%N :: e :: v) :: rest))). intros n. cbn [next_rec].
  unfold bootstrap. cbn [tok_new tk_line tk_rest load_new_line app has_content Nat.eqb]. rewrite Hs.
  destruct (ch =? 59)%N eqn:E1; [exfalso; apply Hc; apply N.eqb_eq in E1; subst; tauto|]. cbn [negb].
  unfold fetch. cbn [tk_peeked tk_cur tok_new].
  destruct ((ch =? 32) || (ch =? 9))%N eqn:E2. { exfalso. apply Hc. rewrite orb_true_iff, !N.eqb_eq in E2. intuition (subst; tauto). }
  destruct (ch =? 36)%N eqn:E3; [exfalso; apply Hc; apply N.eqb_eq in E3; subst; tauto|].
  destruct (ch =? 34)%N eqn:E4; [exfalso; apply Hc; apply N.eqb_eq in E4; subst; tauto|].
  destruct (ch =? 40)%N eqn:E5; [exfalso; apply Hc; apply N.eqb_eq in E5; subst; tauto|].
  destruct (ch =? 41)%N eqn:E6; [exfalso; apply Hc; apply N.eqb_eq in E6; subst; tauto|]. rewrite E1.
  unfold process_string_or_number. change (ch :: w ++ 92%N :: e :: v) with ((ch :: w) ++ 92%N :: e :: v).
  rewrite word_loop_plain; [|assumption|rewrite app_length; lia]. rewrite app_length.
  replace (length (ch :: w) + length (92%N :: e :: v) - length (ch :: w)) with (S (S (length v))) by (cbn [length]; lia).
  match goal with |- context [word_loop (S (S (length v))) (92%N :: e :: v) ?acc] => change (word_loop (S (S (length v))) (92%N :: e :: v) acc) with (word_loop (S (length v)) v (acc ++ [e])) end.
  match goal with |- context [word_loop (S (length v)) v ?acc] => pose proof (word_loop_plain v (S (length v)) [] acc Fv ltac:(lia)) as K end.
  rewrite app_nil_r in K. rewrite K. replace (S (length v) - length v) with 1 by lia. reflexivity.
Qed.
Print Assumptions C43_refuted_escapes.

(** Second: white space other than spaces and tabs (here a form feed) after a word of a
    TXT record makes it run forever. *)
Definition ex_loop : file := txt_file [ s2b "@ IN SOA ns hostmaster 1 3600 600 86400 300"; s2b "@ TXT a" ++ [12%N] ++ s2b "b" ].
Definition loop_fs : filesys := fun _ => Some ex_loop.
Definition loop_params : params := mkParams (s2b "main") (s2b "example.com.") 1000 [].
Lemma txts_stuck : forall fuel acc rest c n, c = 12%N :: s2b "b" -> 1 <= n -> parse_txts fuel acc (mkTok rest c [] false n) = Diverge.
Proof.
  assert (N : forall rest n, 1 <= n -> next (mkTok rest (12%N :: s2b "b") [] false n) = Done (Ok (T_String [], mkTok rest (12%N :: s2b "b") [] false n))).
  { intros rest n L. unfold next. generalize (tok_size (mkTok rest (12%N :: s2b "b") [] false n)). intros k. cbn [next_rec]. unfold bootstrap. cbn [tk_line].
    destruct n as [|n]; [lia|]. reflexivity. }
  assert (P : forall rest n, 1 <= n -> next (mkTok rest (12%N :: s2b "b") [T_String []] false n) = Done (Ok (T_String [], mkTok rest (12%N :: s2b "b") [] false n))).
  { intros rest n L. unfold next. generalize (tok_size (mkTok rest (12%N :: s2b "b") [T_String []] false n)). intros k. cbn [next_rec]. unfold bootstrap. cbn [tk_line].
    destruct n as [|n]; [lia|]. reflexivity. }
  induction fuel as [|fuel IH]; intros acc rest c n -> L; [reflexivity|]. cbn [parse_txts].
  unfold bindTk at 1. unfold peek_after_blanks, next_after_blanks. cbn [skip_blanks]. unfold bindTk at 1. rewrite N by assumption. cbn [bindR bind fst snd retT].
  unfold with_peeked. cbn [tk_rest tk_cur tk_multi tk_line tk_peeked app].
  unfold bindTk at 1. unfold next_after_blanks_unwrap, next_after_blanks. cbn [skip_blanks]. unfold bindTk at 1. rewrite P by assumption. cbn [bindR bind fst snd retT].
  unfold bindTk. cbn [tryT parse_char_string is_valid_character_string forallb bindR bind fst snd]. now apply IH.
Qed.
Definition loop_state : pstate := mkPS (s2b "example.com.") [] (s2b "example.com.") 1000 300.
Lemma record_stuck : forall fuel t1, t1 = mkTok [] (s2b " TXT a" ++ [12%N] ++ s2b "b") [T_At] false 2 -> parse_record fuel loop_state t1 = Diverge.
Proof.
  intros fuel t1 E. vm_compute in E. subst t1. unfold parse_record.
  match goal with |- context [next ?t] => let r := eval vm_compute in (next t) in change (next t) with r end. cbn [bind].
  unfold bindTk at 1. cbn [retT bindR bind].
  unfold bindTk at 1.
  match goal with |- context [parse_ttl_class ?t] => let r := eval vm_compute in (parse_ttl_class t) in change (parse_ttl_class t) with r end. cbn [bindR bind fst snd]. cbv zeta.
  unfold bindTk at 1. unfold tryT at 1.
  match goal with |- context [ensure_class_is_supported ?t] => let r := eval vm_compute in (ensure_class_is_supported t) in change (ensure_class_is_supported t) with r end. cbn [bindR bind fst snd].
  unfold bindTk at 1. unfold tryT at 1.
  match goal with |- context [ensure_min_ttl ?x ?t] => let r := eval vm_compute in (ensure_min_ttl x t) in change (ensure_min_ttl x t) with r end. cbn [bindR bind fst snd].
  unfold bindTk at 1.
  match goal with |- context [next_after_blanks ?t] => let r := eval vm_compute in (next_after_blanks t) in change (next_after_blanks t) with r end. cbn [bindR bind fst snd].
  match goal with |- context [rtype_from_str ?t] => let r := eval vm_compute in (rtype_from_str t) in change (rtype_from_str t) with r end. cbn [supported_for_records negb parse_record_data].
  unfold bindTk at 1, parse_txt_record. unfold bindTk at 1. change (negb (supported_for_records RT_TXT)) with false. cbv beta iota.
  match goal with |- context [parse_txts fuel [] ?t] => assert (K : parse_txts fuel [] t = Diverge); [|rewrite K; reflexivity] end.
  destruct fuel as [|fuel]; [reflexivity|]. cbn [parse_txts]. unfold bindTk at 1.
  match goal with |- context [peek_after_blanks ?t] => let r := eval vm_compute in (peek_after_blanks t) in change (peek_after_blanks t) with r end. cbn [bindR bind fst snd].
  unfold bindTk at 1.
  match goal with |- context [next_after_blanks_unwrap ?t] => let r := eval vm_compute in (next_after_blanks_unwrap t) in change (next_after_blanks_unwrap t) with r end. cbn [bindR bind fst snd].
  unfold bindTk at 1.
  match goal with |- context [tryT (parse_char_string ?x) ?t] => let r := eval vm_compute in (tryT (parse_char_string x) t) in change (tryT (parse_char_string x) t) with r end. cbn [bindR bind fst snd app].
  apply txts_stuck; [reflexivity|lia].
Qed.
Theorem C43_refuted_endless_loop : forall p fuel, parse_zone_files p loop_fs fuel loop_params = Diverge.
Proof.
  intros p fuel. unfold parse_zone_files, parse_auth_zone_file, loop_fs, loop_params. cbn [p_path p_zone p_subs p_ttl map]. cbv zeta.
  match goal with |- bindR (bindR ?m _) _ = _ => let r := eval vm_compute in m in change m with r end.
  cbn [bindR bind fst snd]. 
  destruct fuel as [|fuel]; [reflexivity|]. cbn [parse_entries].
  match goal with |- context [peek ?t] => let r := eval vm_compute in (peek t) in change (peek t) with r end. cbn [bindR bind fst snd].
  match goal with |- context [parse_record fuel ?s ?t] => assert (K : parse_record fuel s t = Diverge) end.
  2: { rewrite K. reflexivity. }
  match goal with |- parse_record fuel ?s ?t = _ => change s with loop_state end. 
  apply record_stuck. reflexivity.
Qed.
Print Assumptions C43_refuted_endless_loop.

(** Third: a file that includes itself is read again and again. (In the program the depth
    of the recursion, and the number of open files, grow until the process is stopped.) *)
Definition ex_cycle : file := txt_file [ s2b "@ IN SOA ns hostmaster 1 3600 600 86400 300"; s2b "$INCLUDE again" ].
Definition cycle_fs : filesys := fun p => if bytes_eqb p (s2b "main") then Some ex_cycle else Some (txt_file [s2b "$INCLUDE again"]).
Lemma cycle_stuck : forall fuel s acc, parse_entries cycle_fs fuel s acc (tok_new (txt_file [s2b "$INCLUDE again"])) = Diverge.
Proof.
  induction fuel as [|fuel IH]; intros s acc; [reflexivity|]. cbn [parse_entries].
  match goal with |- context [peek ?t] => let r := eval vm_compute in (peek t) in change (peek t) with r end. cbn [bindR bind fst snd].
  match goal with |- context [parse_include s ?t] => let r := eval vm_compute in (parse_include s t) in change (parse_include s t) with r end. cbn [bindR bind fst snd].
  match goal with |- context [cycle_fs ?p] => change (cycle_fs p) with (Some (txt_file [s2b "$INCLUDE again"])) end. cbv iota. rewrite IH. reflexivity.
Qed.
Theorem C43_refuted_include_cycle : forall p fuel, parse_zone_files p cycle_fs fuel loop_params = Diverge.
Proof.
  intros p fuel. unfold parse_zone_files, parse_auth_zone_file, loop_params. cbn [p_path p_zone p_subs p_ttl map]. cbv zeta.
  change (cycle_fs (s2b "main")) with (Some ex_cycle). cbv iota.
  match goal with |- bindR (bindR ?m _) _ = _ => let r := eval vm_compute in m in change m with r end.
  cbn [bindR bind]. destruct fuel as [|fuel]; [reflexivity|]. cbn [parse_entries].
  match goal with |- context [peek ?t] => let r := eval vm_compute in (peek t) in change (peek t) with r end. cbn [bindR bind fst snd].
  match goal with |- context [parse_include ?s ?t] => let r := eval vm_compute in (parse_include s t) in change (parse_include s t) with r end. cbn [bindR bind fst snd].
  match goal with |- context [cycle_fs ?p] => change (cycle_fs p) with (Some (txt_file [s2b "$INCLUDE again"])) end. cbv iota. rewrite cycle_stuck. reflexivity.
Qed.
Print Assumptions C43_refuted_include_cycle.

(** What holds: when no file has backslashes or odd white space and the includes form no
    cycle (every chain of includes from the main file is finite), loading comes to its end
    with zones or an error, and nothing else can come out. *)
Theorem C43_loading_terminates_partial : forall p fs c,
  (forall q f, fs q = Some f -> plain_file f) -> Acc (fun q q' => includes fs q' q) (p_path c) ->
  exists r N, (forall fuel, N <= fuel -> parse_zone_files p fs fuel c = Done r) /\
    forall fuel e, parse_zone_files p fs fuel c = e -> e = Diverge \/ e = Done r.
Proof.
  intros p fs c P A. destruct (load_ends p fs c) as (N & H); [intros q f E; destruct (C44_tokenizer_total f (P _ _ E)) as (ts & o & R & _); now exists ts, o|exact A|].
  destruct (H N (le_n N)) as (r & Er). exists r, N.
  assert (K : forall fuel, N <= fuel -> parse_zone_files p fs fuel c = Done r).
  { intros fuel L. destruct (below_load p fs N fuel c L) as [D|E]; congruence. }
  split; [exact K|]. intros fuel e <-. destruct (Nat.le_gt_cases N fuel) as [L|L]; [right; now apply K|].
  destruct (below_load p fs fuel N c) as [D|E]; [lia|now left|right; congruence].
Qed.
Print Assumptions C43_loading_terminates_partial.

(** The example files meet these conditions, with an include. *)
Definition plainb (f : file) : bool :=
  forallb (fun o => match o with Some l => forallb (fun c => negb (c =? 92)%N && (negb (is_ws c) || (c =? 32)%N || (c =? 9)%N)) l | None => true end) f.
Lemma plainb_ok : forall f, plainb f = true -> plain_file f.
Proof.
  intros f H. unfold plainb in H. rewrite forallb_forall in H. apply Forall_forall. intros o Ho. specialize (H _ Ho). destruct o as [l|]; [|exact I].
  rewrite forallb_forall in H. apply Forall_forall. intros c Hc. specialize (H _ Hc). rewrite andb_true_iff, negb_true_iff, !orb_true_iff, negb_true_iff, N.eqb_neq, !N.eqb_eq in H.
  destruct H as (H1 & H2). split; [exact H1|]. intros W. rewrite W in H2. destruct H2 as [[H2|H2]|H2]; [discriminate| |]; auto.
Qed.
Lemma ex_fs_cases : forall q f, ex_fs q = Some f -> (q = s2b "main" /\ f = ex_main) \/ (q = s2b "more" /\ f = ex_more) \/ (q = s2b "sub" /\ f = ex_sub).
Proof.
  intros q f E. unfold ex_fs in E. destruct (bytes_eqb q (s2b "main")) eqn:E1; [apply bytes_eqb_eq in E1; left; split; congruence|].
  destruct (bytes_eqb q (s2b "more")) eqn:E2; [apply bytes_eqb_eq in E2; right; left; split; congruence|].
  destruct (bytes_eqb q (s2b "sub")) eqn:E3; [apply bytes_eqb_eq in E3; right; right; split; congruence|discriminate].
Qed.
Lemma mentions_cons : forall x ts q, x <> T_IncludeDir -> mentions (x :: ts) q -> mentions ts q.
Proof. intros x ts q Hx ([|y pre] & z & u & v & E & F & N). - cbn in E. congruence. - exists pre, z, u, v. split; [cbn in E; congruence|]. now split. Qed.
Lemma mentions_nil : forall q, ~ mentions [] q.
Proof. intros q ([|y pre] & z & u & v & E & _); discriminate. Qed.
Lemma mentions_here : forall ts q, mentions (T_IncludeDir :: ts) q -> (exists x v, field ts x v /\ file_name x q) \/ mentions ts q.
Proof.
  intros ts q ([|y pre] & z & u & v & E & F & N); cbn in E.
  - left. exists z, v. split; [replace ts with u by congruence; exact F|exact N].
  - right. exists pre, z, u, v. split; [congruence|]. now split.
Qed.
Lemma ex_includes : forall q q', includes ex_fs q q' -> q = s2b "main" /\ q' = s2b "more".
Proof.
  intros q q' (f & ts & o & Ef & R & M).
  apply ex_fs_cases in Ef as [(-> & ->)|[(-> & ->)|(-> & ->)]].
  all: match type of R with reads (tok_new ?f) _ _ =>
         let r := eval vm_compute in (token_list 200 (tok_new f)) in
         assert (K : token_list 200 (tok_new f) = r) by (vm_compute; reflexivity) end;
       apply token_list_reads in K; destruct (reads_det _ _ _ R _ _ K) as (-> & _); clear R K.
  all: repeat (apply mentions_cons in M; [|discriminate]).
  2,3: now apply mentions_nil in M.
  apply mentions_here in M as [(x & v & F & N)|M].
  - split; [reflexivity|]. repeat match goal with H : field (_ :: _) _ _ |- _ => inversion H; subst; clear H end; try congruence. now inversion N.
  - exfalso. repeat (apply mentions_cons in M; [|discriminate]). now apply mentions_nil in M.
Qed.
Theorem C43_nonvacuous :
  (forall q f, ex_fs q = Some f -> plain_file f) /\ Acc (fun q q' => includes ex_fs q' q) (p_path ex_params) /\
  includes ex_fs (s2b "main") (s2b "more").
Proof.
  split; [|split].
  - intros q f E. apply plainb_ok. apply ex_fs_cases in E as [(_ & ->)|[(_ & ->)|(_ & ->)]]; vm_compute; reflexivity.
  - constructor. intros q I. apply ex_includes in I as (_ & ->). constructor. intros q' I'. apply ex_includes in I' as (E & _). discriminate.
  - match goal with |- includes _ _ _ => let r := eval vm_compute in (token_list 200 (tok_new ex_main)) in assert (K : token_list 200 (tok_new ex_main) = r) by (vm_compute; reflexivity) end.
    apply token_list_reads in K. eexists _, _, _. split; [reflexivity|]. split; [exact K|]. 
    assert (G : forall x ts q, mentions ts q -> mentions (x :: ts) q). { intros x ts q (pre & z & u & v & E & F & N). exists (x :: pre), z, u, v. split; [cbn; congruence|now split]. }
    repeat match goal with |- mentions (?x :: _) _ => lazymatch x with T_IncludeDir => fail | _ => apply G end end.
    eexists [], _, _, _. split; [reflexivity|]. split; [apply field_blank, field_here; discriminate|]. apply fn_word.
Qed.
