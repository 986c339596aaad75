(** The loader computes what the grammar says. *)
From Verif Require Import Base Types Name NameSpec NameProofs PropName Codec CodecSpec Zone ZoneSpec ZoneProofs
  Tokens Parser NsSpec PropNs LoadSpec PropCodec3 TokenSpec TokenProofs PropTok LoadProofs ZoneFileSpec ZoneFileRun.

Ltac nab x u t F := apply wp_bind, wp_nab; [assumption|assumption|intros ? ? ? ? ?; try exact I|intros x u t F ? ? ? ?; destruct x; try exact I].

(** A record parser of data of type [rt] *)
Definition data_spec (M : Prop) (origin node : name) (cl : class) (ttl : N) (rt : rtype) (m : T record) : Prop :=
  forall t ts o, good t -> reads t ts o ->
  wp M m t ts o (fun r _ u => exists d, data_text origin rt ts d u /\ r = mkRec node cl ttl 0 d).

Lemma wp_name_token : forall M origin t ts o, good t -> reads t ts o ->
  wp M (parse_name_token origin) t ts o (fun n _ u => exists s, field ts (T_String s) u /\ full_name origin s n).
Proof.
  intros M origin t ts o G R. unfold parse_name_token. nab x u t1 F. apply wp_try_ret; auto.
  intros n E. exists s. split; [assumption|now apply full_name_ok].
Qed.
Lemma wp_number : forall M t ts o, good t -> reads t ts o ->
  wp M parse_number t ts o (fun n _ u => field ts (T_Number n) u).
Proof. intros M t ts o G R. unfold parse_number. nab x u t1 F. apply wp_ret; auto. Qed.

Ltac use L := apply wp_bind; eapply wp_mono; [apply L; assumption|cbv beta].
Lemma wp_a : forall M origin node cl ttl, data_spec M origin node cl ttl RT_A (parse_a_record node cl ttl).
Proof.
  intros M origin node cl ttl t ts o G R. unfold parse_a_record. nab x u t1 F. destruct (parse_ipv4 s) as [a|] eqn:E; [|exact I].
  apply wp_ret; auto. exists (D_A a). split; [|reflexivity]. apply dt_a with s; [assumption|now apply quad_ok].
Qed.
Lemma wp_ns : forall M origin node cl ttl, data_spec M origin node cl ttl RT_NS (parse_ns_record origin node cl ttl).
Proof.
  intros M origin node cl ttl t ts o G R. unfold parse_ns_record. use wp_name_token. intros n t1 u G1 R1 (s & F & H) _ _.
  apply wp_ret; auto. eexists. split; [eapply dt_ns; eassumption|reflexivity].
Qed.
Lemma wp_cname : forall M origin node cl ttl, data_spec M origin node cl ttl RT_CNAME (parse_cname_record origin node cl ttl).
Proof.
  intros M origin node cl ttl t ts o G R. unfold parse_cname_record. nab x u t1 F.
  - apply wp_bind, wp_try_ret; auto. intros n E _ _. apply wp_ret; auto. eexists. split; [eapply dt_cname; [eassumption|eapply full_name_ok; eassumption]|reflexivity].
  - apply wp_bind, wp_ret; auto. intros _ _. apply wp_ret; auto. eexists. split; [eapply dt_cname_at; eassumption|reflexivity].
Qed.
Lemma wp_soa : forall M origin node cl ttl, data_spec M origin node cl ttl RT_SOA (parse_soa_record origin node cl ttl).
Proof.
  intros M origin node cl ttl t ts o G R. unfold parse_soa_record. use wp_name_token. intros n t1 u G1 R1 (s & F & H) _ _.
  use wp_name_token. intros n' t2 u2 G2 R2 (s' & F' & H') _ _.
  use wp_number. intros a t3 u3 G3 R3 Fa _ _.
  use wp_number. intros b t4 u4 G4 R4 Fb _ _.
  use wp_number. intros c t5 u5 G5 R5 Fc _ _.
  use wp_number. intros d t6 u6 G6 R6 Fd _ _.
  use wp_number. intros e t7 u7 G7 R7 Fe _ _.
  apply wp_ret; auto. eexists. split; [eapply dt_soa; eassumption|reflexivity].
Qed.
Lemma wp_ptr : forall M origin node cl ttl, data_spec M origin node cl ttl RT_PTR (parse_ptr_record node cl ttl).
Proof.
  intros M origin node cl ttl t ts o G R. unfold parse_ptr_record. nab x u t1 F. apply wp_check. intros E1. apply wp_try. intros n E2.
  apply name_or_err_eq in E2 as (-> & A). apply wp_ret; auto. eexists. split; [eapply dt_ptr; [eassumption|now apply absolute_ok|assumption]|reflexivity].
Qed.
Lemma wp_hinfo : forall M origin node cl ttl, data_spec M origin node cl ttl RT_HINFO (parse_hinfo_record node cl ttl).
Proof.
  intros M origin node cl ttl t ts o G R. unfold parse_hinfo_record.
  apply wp_bind, wp_nab; [assumption|assumption|intros ? ? ? ? ?; exact I|intros x u t1 F ? ? ? ?]. apply wp_try. intros s E. apply char_string_text in E.
  apply wp_bind, wp_nab; [assumption|assumption|intros ? ? ? ? ?; exact I|intros y v t2 F' ? ? ? ?]. apply wp_try. intros s' E'. apply char_string_text in E'.
  apply wp_ret; auto. eexists. split; [eapply dt_hinfo; eassumption|reflexivity].
Qed.
Lemma wp_mx : forall M origin node cl ttl, data_spec M origin node cl ttl RT_MX (parse_mx_record origin node cl ttl).
Proof.
  intros M origin node cl ttl t ts o G R. unfold parse_mx_record. nab x u t1 F.
  apply wp_bind. destruct (n <? 65536)%N eqn:E; [|exact I]. apply N.ltb_lt in E. apply wp_ret; auto. intros _ _.
  use wp_name_token. intros n' t2 u2 G2 R2 (s' & F' & H') _ _.
  apply wp_ret; auto. eexists. split; [eapply dt_mx; eassumption|reflexivity].
Qed.

Lemma field_unique : forall ts x u, field ts x u -> forall y v, field ts y v -> x = y /\ u = v.
Proof.
  induction 1 as [x u Hx|ts x u H IH]; intros y v H'; inversion H'; subst; try congruence; auto.
Qed.
Lemma field_self : forall ts x u, field ts x u -> field (x :: u) x u.
Proof. induction 1; auto. now constructor. Qed.

(** Peeking forgets blanks: what follows is the same. *)
Definition deblank (ts ts' : list token) : Prop := exists bl, Forall (eq T_Blank) bl /\ ts = bl ++ ts'.
Lemma deblank_refl : forall ts, deblank ts ts. Proof. intros ts. exists []. now split. Qed.
Lemma deblank_field : forall ts x u, field ts x u -> deblank ts (x :: u).
Proof. induction 1 as [x u Hx|ts x u H (bl & B & ->)]; [apply deblank_refl|]. exists (T_Blank :: bl). split; [now constructor|reflexivity]. Qed.
Lemma deblank_nil : forall ts, Forall (eq T_Blank) ts -> deblank ts [].
Proof. intros ts B. exists ts. split; [assumption|now rewrite app_nil_r]. Qed.
Lemma field_deblank : forall ts ts' x u, deblank ts ts' -> field ts' x u -> field ts x u.
Proof. intros ts ts' x u (bl & B & ->) F. induction B as [|y bl <- B IH]; [assumption|]. now constructor. Qed.
Lemma end_deblank : forall ts ts' u, deblank ts ts' -> line_end ts' u -> line_end ts u.
Proof.
  intros ts ts' u D L. inversion L; subst.
  - apply end_line. eapply field_deblank; eassumption.
  - apply end_file. destruct D as (bl & B & ->). now apply Forall_app.
Qed.

(** Loops to the end of the line *)
Lemma wp_txts : forall (M : Prop) fuel acc t ts o, (fuel <= length ts -> M) -> good t -> reads t ts o ->
  wp M (parse_txts fuel acc) t ts o (fun l _ u => exists l' v, l = acc ++ l' /\ char_strings ts l' v /\ deblank v u).
Proof.
  intros M. induction fuel as [|fuel IH]; intros acc t ts o L G R; [unfold wp; cbn [parse_txts]; apply L; lia|]. cbn [parse_txts].
  apply wp_bind, wp_pab; [assumption|assumption|intros t1 B -> G1 R1|intros x u t1 F Hx Hb G1 R1].
  - apply wp_ret; auto. exists [], ts. rewrite app_nil_r. split; [reflexivity|]. split; [|now apply deblank_nil].
    apply css_stop with []. now apply end_file.
  - assert (S : wp M (tk! _ := next_after_blanks_unwrap in tk! s := tryT (parse_char_string x) in parse_txts fuel (acc ++ [s])) t1 (x :: u) o
       (fun l _ w => exists l' v, l = acc ++ l' /\ char_strings ts l' v /\ deblank v w)).
    { apply wp_bind, wp_nab_unwrap; try assumption. intros t2 G2 R2. apply wp_try. intros s E. apply char_string_text in E.
      eapply wp_mono; [apply IH; [|assumption|assumption]|].
      - intros Hl. apply L. pose proof (proj2 (suffix_field _ _ _ F)). lia.
      - cbv beta. intros l t3 w G3 R3 (l' & v & -> & C & D). exists (s :: l'), v. rewrite <- app_assoc. split; [reflexivity|]. split; [|assumption].
        eapply css_more; eassumption. }
    destruct x; try exact S; [|congruence].
    apply wp_ret; auto. exists [], ts. rewrite app_nil_r. split; [reflexivity|]. split; [|now apply deblank_field].
    apply css_stop with u. now apply end_line.
Qed.
Lemma wp_discard : forall (M : Prop) fuel t ts o, (fuel <= length ts -> M) -> good t -> reads t ts o ->
  wp M (discard_strings fuel) t ts o (fun _ _ u => exists v, words ts v /\ deblank v u).
Proof.
  intros M. induction fuel as [|fuel IH]; intros t ts o L G R; [unfold wp; cbn [discard_strings]; apply L; lia|]. cbn [discard_strings].
  apply wp_bind, wp_pab; [assumption|assumption|intros t1 B -> G1 R1|intros x u t1 F Hx Hb G1 R1].
  - apply wp_ret; auto. exists ts. split; [|now apply deblank_nil].
    apply words_stop with []. now apply end_file.
  - destruct x; try exact I; try congruence.
    + apply wp_bind, wp_nab_unwrap; try assumption. intros t2 G2 R2.
      eapply wp_mono; [apply IH; [|assumption|assumption]|].
      * intros Hl. apply L. pose proof (proj2 (suffix_field _ _ _ F)). lia.
      * cbv beta. intros [] t3 w G3 R3 (v & C & D). exists v. split; [|assumption]. eapply words_more; eassumption.
    + apply wp_ret; auto. exists ts. split; [|now apply deblank_field].
      apply words_stop with u. now apply end_line.
Qed.

(** Data up to [v], the state being after blanks of [v] *)
Definition data_spec' (M : Prop) (origin node : name) (cl : class) (ttl : N) (rt : rtype) (m : T record) (ts : list token) : Prop :=
  forall t o, good t -> reads t ts o ->
  wp M m t ts o (fun r _ u => exists d v, data_text origin rt ts d v /\ deblank v u /\ r = mkRec node cl ttl 0 d).

Lemma wp_record_data : forall (M : Prop) fuel rt origin node cl ttl ts, supported_for_records rt = true -> (fuel <= length ts -> M) ->
  data_spec' M origin node cl ttl rt (parse_record_data fuel rt origin node cl ttl) ts.
Proof.
  intros M fuel rt origin node cl ttl ts Sup L t o G R.
  assert (K : forall m, data_spec M origin node cl ttl rt m ->
    wp M m t ts o (fun r _ u => exists d v, data_text origin rt ts d v /\ deblank v u /\ r = mkRec node cl ttl 0 d)).
  { intros m H. eapply wp_mono; [apply H; assumption|]. cbv beta. intros r _ u _ _ (d & D & ->). exists d, u. split; [assumption|]. split; [apply deblank_refl|reflexivity]. }
  destruct rt; try discriminate Sup; cbn [parse_record_data].
  - apply K, wp_a.
  - apply K, wp_ns.
  - apply K, wp_cname.
  - exact I.
  - unfold parse_wks_record. nab x u t1 F.
    apply wp_bind. destruct (parse_ipv4 s) as [a|] eqn:Ea; [|exact I]. apply wp_ret; auto. intros _ _.
    nab y v t2 F'. apply wp_bind.
    assert (P : forall q, (same_letters s0 (s2b "TCP") /\ q = 6%N \/ same_letters s0 (s2b "UDP") /\ q = 17%N) ->
       wp M (retT q) t2 v o (fun x t' ts' => good t' -> reads t' ts' o ->
         wp M (tk! _ := discard_strings fuel in retT (mkRec node cl ttl 0 (D_WKS a x []))) t' ts' o
           (fun r _ u => exists d v, data_text origin RT_WKS ts d v /\ deblank v u /\ r = mkRec node cl ttl 0 d))).
    { intros q Hq. apply wp_ret; auto. intros _ _. apply wp_bind. eapply wp_mono; [apply wp_discard; [|assumption|assumption]|].
      - intros Hl. apply L. pose proof (proj2 (suffix_field _ _ _ F)). pose proof (proj2 (suffix_field _ _ _ F')). lia.
      - cbv beta. intros [] t3 w G3 R3 (z & W & D) _ _. apply wp_ret; auto. eexists _, z. split; [|split; [exact D|reflexivity]].
        eapply dt_wks; try eassumption. now apply quad_ok. }
    destruct (bytes_eqb (map upper s0) (s2b "TCP")) eqn:E1.
    { apply bytes_eqb_eq in E1. apply P. left. now split. }
    destruct (bytes_eqb (map upper s0) (s2b "UDP")) eqn:E2; [|exact I].
    apply bytes_eqb_eq in E2. apply P. right. now split.
  - apply K, wp_ptr.
  - apply K, wp_hinfo.
  - apply K, wp_mx.
  - unfold parse_txt_record. apply wp_bind. eapply wp_mono; [apply wp_txts; assumption|].
    cbv beta. intros l t1 u G1 R1 (l' & v & -> & C & D) _ _. apply wp_ret; auto. eexists _, v. split; [apply dt_txt; exact C|]. now split.
Qed.

(** TTL and class: the state may be after blanks of the rest. *)
Lemma wp_ttl_class : forall M t ts o, good t -> reads t ts o ->
  wp M parse_ttl_class t ts o (fun x _ u => exists v, ttl_class ts (fst x) (snd x) v /\ deblank v u).
Proof.
  intros M t ts o G R. unfold parse_ttl_class.
  apply wp_bind, wp_pab; [assumption|assumption|intros t1 B -> G1 R1; exact I|intros x u t1 F Hx Hb G1 R1].
  destruct x; try exact I.
  - destruct (class_from_string s) as [c|] eqn:Ec.
    + apply wp_bind, wp_next_unwrap; try assumption. intros t2 G2 R2.
      apply wp_bind, wp_pab; [assumption|assumption|intros t3 B -> G3 R3|intros y v t3 F' Hy Hb' G3 R3].
      * cbn [try_to_ttl]. apply wp_ret; auto. exists u. cbn [fst snd]. split; [eapply tc_class; eassumption|now apply deblank_nil].
      * assert (S : wp M (retT (None, Some c)) t3 (y :: v) o (fun x _ u => exists v, ttl_class ts (fst x) (snd x) v /\ deblank v u)).
        { apply wp_ret; auto. exists u. cbn [fst snd]. split; [eapply tc_class; eassumption|now apply deblank_field]. }
        destruct y; try exact S. clear S. cbn [try_to_ttl].
        apply wp_bind, wp_next_unwrap; try assumption. intros t4 G4 R4. apply wp_ret; auto.
        exists v. cbn [fst snd]. split; [eapply tc_class_ttl; eassumption|apply deblank_refl].
    + apply wp_ret; auto. exists ts. split; [apply tc_none|now apply deblank_field].
  - apply wp_bind, wp_next_unwrap; try assumption. intros t2 G2 R2.
    apply wp_bind, wp_pab; [assumption|assumption|intros t3 B -> G3 R3|intros y v t3 F' Hy Hb' G3 R3].
    + cbn [try_to_class]. apply wp_ret; auto. exists u. cbn [fst snd]. split; [eapply tc_ttl; eassumption|now apply deblank_nil].
    + destruct (try_to_class y) as [c|] eqn:Ec.
      * destruct y; try discriminate Ec. cbn [try_to_class] in Ec. destruct (class_from_string s) as [c'|] eqn:Ec'; [|discriminate]. assert (c' = c) as -> by congruence.
        apply wp_bind, wp_next_unwrap; try assumption. intros t4 G4 R4. apply wp_ret; auto.
        exists v. cbn [fst snd]. split; [eapply tc_ttl_class; eassumption|apply deblank_refl].
      * apply wp_ret; auto. exists u. cbn [fst snd]. split; [eapply tc_ttl; eassumption|now apply deblank_field].
Qed.

Lemma wp_close : forall M A (a : A) (tk : token) t u o (Q : A -> tok -> list token -> Prop), good t -> reads t u o ->
  (tk = T_NewLine \/ tk = T_End -> Q a t u) -> wp M (close_line tk a) t u o Q.
Proof. intros M A a tk t u o Q G R H. destruct tk; try exact I; apply wp_ret; auto. Qed.
(** ... [let nx = next_after_blanks; close_line nx a] *)
Lemma wp_end : forall M A (a : A) t ts o (Q : A -> tok -> list token -> Prop), good t -> reads t ts o ->
  (forall t' u, line_end ts u -> Q a t' u) -> wp M (tk! nx := next_after_blanks in close_line nx a) t ts o Q.
Proof.
  intros M A a t ts o Q G R H. apply wp_bind, wp_nab; [assumption|assumption|intros t1 B -> G1 R1|intros x u t1 F Hx Hb G1 R1].
  - apply wp_close; auto. intros _. apply H. now apply end_file.
  - apply wp_close; auto. intros [-> | ->]; [|congruence]. apply H. now apply end_line.
Qed.
Lemma ttl_class_len : forall ts a b u, ttl_class ts a b u -> length u <= length ts.
Proof. destruct 1; repeat match goal with H : field _ _ _ |- _ => apply suffix_field in H as (_ & H) end; lia. Qed.
Lemma deblank_len : forall ts u, deblank ts u -> length u <= length ts.
Proof. intros ts u (bl & _ & ->). rewrite app_length. lia. Qed.

Definition owner_token (x : token) : Prop := match x with T_Blank | T_At | T_String _ => True | _ => False end.

Lemma min_ttl_ok : forall a b, ensure_min_ttl a b = Ok tt -> (a <= b)%N.
Proof. intros a b E. unfold ensure_min_ttl in E. destruct (a <=? b)%N eqn:L; [now apply N.leb_le|discriminate]. Qed.
Lemma data_text_type : forall o rt ts d u n c t l, data_text o rt ts d u -> record_type (mkRec n c t l d) = rt.
Proof. intros o rt ts d u n c t l H. now destruct H. Qed.

(** Reading a record line *)
Lemma wp_record : forall (M : Prop) fuel s t x u o, good t -> reads t (x :: u) o -> owner_token x -> (fuel <= length u -> M) ->
  wp M (parse_record fuel s) t (x :: u) o (fun e _ rest => exists r, e = ZRecord r /\ record_text (ps_orig s) (ps_ttl s) (x :: u) r rest /\
    (forall w v, x :: u = T_String w :: v -> ensure_name_in_auth_zone (r_node r) (ps_zone s) (ps_subs s) = Ok tt) /\
    record_type r <> RT_SOA /\ (ps_min s <= r_ttl r)%N).
Proof.
  intros M fuel s t x u o G R Hown L. unfold wp. cbv beta delta [parse_record]. pose proof (next_ok t G) as F.
  inversion R as [| |? ? t1 ts' ? E Hx R1]; subst. rewrite E in *. cbn [bind].
  destruct F as (G1 & _).
  match goal with |- match ?m t1 with _ => _ end => assert (W : wp M m t1 u o (fun e _ rest => exists r, e = ZRecord r /\ record_text (ps_orig s) (ps_ttl s) (x :: u) r rest /\
    (forall w v, x :: u = T_String w :: v -> ensure_name_in_auth_zone (r_node r) (ps_zone s) (ps_subs s) = Ok tt) /\
    record_type r <> RT_SOA /\ (ps_min s <= r_ttl r)%N)) end.
  { apply wp_bind. apply wp_mono with (P := fun n _ u' => u' = u /\ owner (ps_orig s) x n /\
      (forall w v, x :: u = T_String w :: v -> ensure_name_in_auth_zone n (ps_zone s) (ps_subs s) = Ok tt)).
    { destruct x; try destruct Hown; try (apply wp_ret; [assumption|assumption|split; [reflexivity|split; [constructor|discriminate]]]).
      apply wp_try. intros n En. apply wp_check. intros En'. apply wp_ret; [assumption|assumption|]. split; [reflexivity|].
      split; [constructor; now apply full_name_ok|intros; exact En']. }
    cbv beta. intros n t2 u' G2 R2 (-> & Hon & Hok) _ _.
    apply wp_bind. eapply wp_mono; [apply wp_ttl_class; assumption|]. cbv beta. intros [ot oc] t3 v' G3 R3 (v & Tc & Dv) _ _. cbn [fst snd] in *. cbv zeta.
    apply wp_check. intros Hc. apply class_ok in Hc. apply wp_check. intros Hm. apply min_ttl_ok in Hm.
    nab y w t4 F'. destruct (rtype_from_str s0) as [rt|] eqn:Ert; [|exact I].
    destruct (supported_for_records rt) eqn:Sup; cbn [negb]; [|exact I].
    assert (Csoa : rt = RT_SOA \/ rt <> RT_SOA) by (destruct rt; (now left) || (right; discriminate)). destruct Csoa as [->|Csoa]; [exact I|].
    apply wp_bind. eapply wp_mono; [apply wp_record_data; [assumption| |assumption|assumption]|].
    { intros Hl. apply L. apply ttl_class_len in Tc. apply deblank_len in Dv. apply suffix_field in F' as (_ & F'). lia. }
    cbv beta. intros r t5 y' G5 R5 (d & y & Dt & Dy & ->) _ _.
    apply wp_end; try assumption. intros t6 rest Le. eexists. split; [reflexivity|].
    split; [|split; [exact Hok|split; [|exact Hm]]]. 2: { intros C. apply Csoa. rewrite <- C. symmetry. exact (data_text_type _ _ _ _ _ _ _ _ _ Dt). }
    unfold record_text. exists x, u, n, ot, oc, v, s0, rt, w, d, y. split; [reflexivity|]. split; [assumption|]. split; [assumption|].
    split. { destruct oc as [c|]; [right; cbn [unwrap_or] in Hc; now subst c|now left]. }
    split; [eapply field_deblank; eassumption|]. split; [assumption|]. split; [assumption|]. split; [eapply end_deblank; eassumption|].
    rewrite Hc. now destruct ot. }
  unfold wp in W. match goal with |- match ?m with _ => _ end => destruct m as [[[e t2]|er]|p|] end; auto.
  destruct W as (ts2 & W1 & W2). exists ts2. split; [now apply suffix_cons|assumption].
Qed.

Lemma wp_origin : forall (M : Prop) s t u o, good t -> reads t (T_OriginDir :: u) o ->
  wp M (parse_origin s) t (T_OriginDir :: u) o (fun e _ rest => exists n v, e = ZOrigin n /\ field u (T_String n) v /\ accepted n /\ ensure_name_in_auth_zone n (ps_zone s) (ps_subs s) = Ok tt /\ line_end v rest).
Proof.
  intros M s t u o G R. unfold wp. cbv beta delta [parse_origin]. pose proof (next_ok t G) as F.
  inversion R as [| |? ? t1 ts' ? E Hx R1]; subst. rewrite E in *. cbn [bind].
  destruct F as (G1 & _).
  match goal with |- match ?m t1 with _ => _ end => assert (W : wp M m t1 u o (fun e _ rest => exists n v, e = ZOrigin n /\ field u (T_String n) v /\ accepted n /\ ensure_name_in_auth_zone n (ps_zone s) (ps_subs s) = Ok tt /\ line_end v rest)) end.
  { nab x v t2 F'. apply wp_check. intros _. apply wp_try. intros n En. apply name_or_err_eq in En as (-> & A).
    apply wp_check. intros Ez. apply wp_end; auto. intros t4 rest Le. now exists s0, v. }
  unfold wp in W. match goal with |- match ?m with _ => _ end => destruct m as [[[e t2]|er]|p|] end; auto.
  destruct W as (ts2 & W1 & W2). exists ts2. split; [now apply suffix_cons|assumption].
Qed.

Lemma wp_include : forall (M : Prop) s t u o, good t -> reads t (T_IncludeDir :: u) o ->
  wp M (parse_include s) t (T_IncludeDir :: u) o (fun e _ rest => exists path origin' x v w, e = ZInclude path origin' /\
    field u x v /\ file_name x path /\
    (w = v /\ origin' = ps_orig s \/ exists nm, field v (T_String nm) w /\ full_name (ps_orig s) nm origin' /\ ensure_name_in_auth_zone origin' (ps_zone s) (ps_subs s) = Ok tt) /\ line_end w rest).
Proof.
  intros M s t u o G R. unfold wp. cbv beta delta [parse_include]. pose proof (next_ok t G) as F.
  inversion R as [| |? ? t1 ts' ? E Hx R1]; subst. rewrite E in *. cbn [bind].
  destruct F as (G1 & _).
  match goal with |- match ?m t1 with _ => _ end => assert (W : wp M m t1 u o (fun e _ rest => exists path origin' x v w, e = ZInclude path origin' /\
    field u x v /\ file_name x path /\
    (w = v /\ origin' = ps_orig s \/ exists nm, field v (T_String nm) w /\ full_name (ps_orig s) nm origin' /\ ensure_name_in_auth_zone origin' (ps_zone s) (ps_subs s) = Ok tt) /\ line_end w rest)) end.
  { apply wp_bind, wp_nab; [assumption|assumption|intros ? ? ? ? ?; exact I|intros x v t2 F' ? ? G2 R2].
    apply wp_bind. apply wp_mono with (P := fun p _ v' => v' = v /\ file_name x p).
    { destruct x; try exact I; (apply wp_ret; [assumption|assumption|]); (split; [reflexivity|]); [constructor|]. rewrite u32_text. constructor. }
    cbv beta. intros path t3 v' G3 R3 (-> & Fn) _ _.
    apply wp_bind, wp_nab; [assumption|assumption|intros t4 B -> G4 R4|intros y w t4 Fy ? ? G4 R4].
    - cbn [close_line]. apply wp_ret; auto. exists path, (ps_orig s), x, v, v. repeat split; auto. now apply end_file.
    - assert (S : wp M (close_line y (ZInclude path (ps_orig s))) t4 w o (fun e _ rest => exists path origin' x v w, e = ZInclude path origin' /\
    field u x v /\ file_name x path /\
    (w = v /\ origin' = ps_orig s \/ exists nm, field v (T_String nm) w /\ full_name (ps_orig s) nm origin' /\ ensure_name_in_auth_zone origin' (ps_zone s) (ps_subs s) = Ok tt) /\ line_end w rest)).
      { apply wp_close; auto. intros [-> | ->]; [|congruence]. exists path, (ps_orig s), x, v, v. repeat split; auto. now apply end_line. }
      destruct y; try exact S. clear S.
      apply wp_bind, wp_nab; [assumption|assumption|intros t5 B -> G5 R5|intros z w' t5 Fz ? ? G5 R5].
      + apply wp_try. intros nm En. apply wp_check. intros Ez. cbn [close_line]. apply wp_ret; auto.
        exists path, nm, x, v, w. repeat split; auto; [|now apply end_file]. right. exists s0. split; [assumption|split; [now apply full_name_ok|exact Ez]].
      + apply wp_try. intros nm En. apply wp_check. intros Ez. apply wp_close; auto. intros [-> | ->]; [|congruence].
        exists path, nm, x, v, w. repeat split; auto; [|now apply end_line]. right. exists s0. split; [assumption|split; [now apply full_name_ok|exact Ez]]. }
  unfold wp in W. match goal with |- match ?m with _ => _ end => destruct m as [[[e t2]|er]|p|] end; auto.
  destruct W as (ts2 & W1 & W2). exists ts2. split; [now apply suffix_cons|assumption].
Qed.
