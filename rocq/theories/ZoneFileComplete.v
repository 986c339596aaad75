(** Well formed files are read without error. *)
From Coq Require Import Permutation.
From Verif Require Import Base Types Name NameSpec NameProofs PropName Codec CodecSpec Zone ZoneSpec ZoneProofs
  Tokens Parser NsSpec PropNs LoadSpec PropCodec3 TokenSpec TokenProofs PropTok LexSpec LexProofs LoadProofs PropLoad ZoneFileSpec ZoneFileRun ZoneFileDenote ZoneFileLoad ZoneFileTotal.

(** [tp m t ts o Q]: [m] succeeds. *)
Definition tp {A} (m : T A) (t : tok) (o : option zone_err) (Q : A -> list token -> Prop) : Prop :=
  exists x t' ts', m t = Done (Ok (x, t')) /\ good t' /\ reads t' ts' o /\ Q x ts'.
Lemma tp_ret : forall A (a : A) t ts o (Q : A -> list token -> Prop), good t -> reads t ts o -> Q a ts -> tp (retT a) t o Q.
Proof. intros A a t ts o Q G R H. exists a, t, ts. now repeat split. Qed.
Lemma tp_bind : forall A B (m : T A) (k : A -> T B) t o (Q : B -> list token -> Prop),
  tp m t o (fun x ts' => forall t', good t' -> reads t' ts' o -> tp (k x) t' o Q) -> tp (bindTk m k) t o Q.
Proof.
  intros A B m k t o Q (x & t' & ts' & E & G & R & K). destruct (K t' G R) as (y & t2 & ts2 & E2 & G2 & R2 & K2).
  exists y, t2, ts2. split; [|now repeat split]. unfold bindTk. now rewrite E.
Qed.
Lemma tp_try : forall A B (r : result A zone_err) a (k : A -> T B) t o (Q : B -> list token -> Prop),
  r = Ok a -> tp (k a) t o Q -> tp (bindTk (tryT r) k) t o Q.
Proof. intros A B r a k t o Q -> (y & t2 & ts2 & E2 & H). exists y, t2, ts2. split; [exact E2|exact H]. Qed.
Lemma tp_try_ret : forall A (r : result A zone_err) a t ts o (Q : A -> list token -> Prop), r = Ok a -> good t -> reads t ts o ->
  Q a ts -> tp (tryT r) t o Q.
Proof. intros A r a t ts o Q -> G R H. exists a, t, ts. now repeat split. Qed.
Lemma tp_mono : forall A (m : T A) t o (P Q : A -> list token -> Prop),
  tp m t o P -> (forall x ts', P x ts' -> Q x ts') -> tp m t o Q.
Proof. intros A m t o P Q (x & t' & ts' & E & G & R & K) I. exists x, t', ts'. repeat split; auto. Qed.

(** From the partial statement: no error when the tokens are there. *)
Lemma tp_wp : forall A (m : T A) t ts o (Q : A -> tok -> list token -> Prop), wp False m t ts o Q -> (forall e, m t <> Done (Err e)) ->
  tp m t o (fun x ts' => exists t', Q x t' ts').
Proof.
  intros A m t ts o Q W N. unfold wp in W. destruct (m t) as [[[x t']|e]|p|] eqn:E; try contradiction; [|now destruct (N e)].
  destruct W as (ts' & _ & G & R & H). exists x, t', ts'. split; [exact E|]. split; [exact G|]. split; [exact R|]. now exists t'.
Qed.

Lemma reads_no_end : forall t ts o, reads t ts o -> ~ In T_End ts.
Proof. induction 1; cbn [In]; try tauto. Qed.
Lemma field_in : forall ts x u, field ts x u -> In x ts /\ x <> T_Blank.
Proof. induction 1 as [x u Hx|ts x u H (IH1 & IH2)]; [split; [now left|assumption]|split; [now right|assumption]]. Qed.

Lemma tp_next : forall t x u o (Q : token -> list token -> Prop), good t -> reads t (x :: u) o -> Q x u -> tp next t o Q.
Proof.
  intros t x u o Q G R H. pose proof (next_ok t G) as F. inversion R as [| |? ? t' ts' ? E Hx R']; subst. rewrite E in F.
  exists x, t', u. split; [exact E|]. split; [apply F|now split].
Qed.
Lemma skip_blanks_field : forall fuel t ts o x u, good t -> reads t ts o -> tok_size t < fuel -> field ts x u ->
  exists t', skip_blanks fuel t = Done (Ok (x, t')) /\ good t' /\ reads t' u o.
Proof.
  induction fuel as [|fuel IH]; intros t ts o x u G R L F; [lia|]. cbn [skip_blanks]. pose proof (next_ok t G) as N.
  inversion F as [? ? Hx|ts' ? ? F']; subst; inversion R as [| |? ? t1 ? ? E Hne R1]; subst; unfold bindTk; rewrite E in *; cbn [bindR bind fst snd].
  - exists t1. split; [destruct x; try reflexivity; congruence|]. split; [apply N|assumption].
  - destruct N as (G1 & _ & N & _). specialize (N eq_refl). eapply IH; try eassumption. lia.
Qed.
Lemma skip_blanks_end : forall fuel t ts, good t -> reads t ts None -> tok_size t < fuel -> Forall (eq T_Blank) ts ->
  exists t', skip_blanks fuel t = Done (Ok (T_End, t')) /\ good t' /\ reads t' [] None.
Proof.
  induction fuel as [|fuel IH]; intros t ts G R L F; [lia|]. cbn [skip_blanks]. pose proof (next_ok t G) as N.
  inversion R as [? t1 E| |? ? t1 ts' ? E Hne R1]; subst; unfold bindTk; rewrite E in *; cbn [bindR bind fst snd].
  - destruct N as (G' & _ & _ & _ & N & _). specialize (N eq_refl). exists t1. split; [reflexivity|]. split; [assumption|]. now apply reads_ended.
  - inversion F as [|? ? <- F']; subst. destruct N as (G1 & _ & N & _). specialize (N eq_refl). eapply IH; try eassumption. lia.
Qed.
Lemma nab_field : forall t ts o x u, good t -> reads t ts o -> field ts x u ->
  exists t', next_after_blanks t = Done (Ok (x, t')) /\ good t' /\ reads t' u o.
Proof. intros t ts o x u G R F. unfold next_after_blanks. eapply skip_blanks_field; eauto. Qed.
Lemma tp_nab : forall t ts o x u (Q : token -> list token -> Prop), good t -> reads t ts o -> field ts x u -> Q x u -> tp next_after_blanks t o Q.
Proof. intros t ts o x u Q G R F H. destruct (nab_field _ _ _ _ _ G R F) as (t' & E & G' & R'). exists x, t', u. now repeat split. Qed.
Lemma tp_nab_end : forall t ts (Q : token -> list token -> Prop), good t -> reads t ts None -> Forall (eq T_Blank) ts -> Q T_End [] -> tp next_after_blanks t None Q.
Proof.
  intros t ts Q G R F H. unfold next_after_blanks. destruct (skip_blanks_end (S (S (tok_size t))) t ts G R ltac:(lia) F) as (t' & E & G' & R').
  exists T_End, t', []. now repeat split.
Qed.
Lemma tp_pab : forall t ts o x u (Q : token -> list token -> Prop), good t -> reads t ts o -> field ts x u -> Q x (x :: u) -> tp peek_after_blanks t o Q.
Proof.
  intros t ts o x u Q G R F H.
  assert (Hx : x <> T_End). { intros ->. apply (reads_no_end _ _ _ R). apply (field_in _ _ _ F). }
  assert (W : wp False peek_after_blanks t ts o (fun y _ ts' => y = x /\ ts' = x :: u)).
  { apply wp_pab; auto.
    - intros t' B. exfalso. eapply blank_no_field; eassumption.
    - intros y v t' F' _ _. destruct (field_unique _ _ _ F _ _ F') as (-> & ->). now split. }
  apply tp_mono with (P := fun y ts' => exists t' : tok, y = x /\ ts' = x :: u).
  - eapply tp_wp; [exact W|]. intros e E. unfold peek_after_blanks in E. destruct (nab_field _ _ _ _ _ G R F) as (t' & E' & _). rewrite E' in E. discriminate.
  - now intros y ts' (_ & -> & ->).
Qed.
Lemma tp_pab_end : forall t ts (Q : token -> list token -> Prop), good t -> reads t ts None -> Forall (eq T_Blank) ts -> Q T_End [] -> tp peek_after_blanks t None Q.
Proof.
  intros t ts Q G R F H.
  assert (W : wp False peek_after_blanks t ts None (fun y _ ts' => y = T_End /\ ts' = [])).
  { apply wp_pab; auto. intros y v t' F' _ _. exfalso. eapply blank_no_field; eassumption. }
  apply tp_mono with (P := fun y ts' => exists t' : tok, y = T_End /\ ts' = []).
  - eapply tp_wp; [exact W|]. intros e E. unfold peek_after_blanks, next_after_blanks in E.
    destruct (skip_blanks_end (S (S (tok_size t))) t ts G R ltac:(lia) F) as (t' & E' & _). rewrite E' in E. discriminate.
  - now intros y ts' (_ & -> & ->).
Qed.
Lemma tp_peek : forall t x u o (Q : token -> list token -> Prop), good t -> reads t (x :: u) o -> Q x (x :: u) -> tp peek t o Q.
Proof.
  intros t x u o Q G R H.
  assert (W : wp False peek t (x :: u) o (fun y _ ts' => y = x /\ ts' = x :: u)).
  { apply wp_peek; auto. - discriminate. - intros y v t' [= <- <-] _. now split. }
  apply tp_mono with (P := fun y ts' => exists t' : tok, y = x /\ ts' = x :: u).
  - eapply tp_wp; [exact W|]. intros e E. unfold peek in E. inversion R as [| |? ? t' ? ? E' ]; subst. rewrite E' in E. discriminate.
  - now intros y ts' (_ & -> & ->).
Qed.
Lemma tp_peek_end : forall t (Q : token -> list token -> Prop), good t -> reads t [] None -> Q T_End [] -> tp peek t None Q.
Proof.
  intros t Q G R H.
  assert (W : wp False peek t [] None (fun y _ ts' => y = T_End /\ ts' = [])). { apply wp_peek; auto. discriminate. }
  apply tp_mono with (P := fun y ts' => exists t' : tok, y = T_End /\ ts' = []).
  - eapply tp_wp; [exact W|]. intros e E. unfold peek in E. inversion R as [? t' E'| |]; subst. rewrite E' in E. discriminate.
  - now intros y ts' (_ & -> & ->).
Qed.
Lemma tp_next_unwrap : forall t x u o (Q : token -> list token -> Prop), good t -> reads t (x :: u) o -> Q x u -> tp next_unwrap t o Q.
Proof.
  intros t x u o Q G R H. destruct (tp_next t x u o (fun a b => a = x /\ b = u) G R (conj eq_refl eq_refl)) as (y & t' & ts' & E & G' & R' & -> & ->).
  exists x, t', u. split; [unfold next_unwrap; now rewrite E|now repeat split].
Qed.
Lemma tp_nab_unwrap : forall t ts x u o (Q : token -> list token -> Prop), good t -> reads t ts o -> field ts x u -> Q x u -> tp next_after_blanks_unwrap t o Q.
Proof.
  intros t ts x u o Q G R F H. destruct (nab_field _ _ _ _ _ G R F) as (t' & E & G' & R').
  exists x, t', u. split; [unfold next_after_blanks_unwrap; now rewrite E|now repeat split].
Qed.

(** *** Texts *)
Lemma validate_accepted : forall n, accepted n -> name_from_string n = Ok n.
Proof. intros n A. apply (proj2 (proj1 (C04_accepted_names n))). exact A. Qed.
Lemma adjust_full : forall o s n, full_name o s n -> adjust_name o s = Ok n.
Proof.
  intros o s n H. unfold adjust_name. destruct H as [(-> & ->)|(Hs & A & H)]; [reflexivity|].
  destruct (bytes_eqb s [64%N]) eqn:B; [apply bytes_eqb_eq in B; contradiction|].
  destruct H as [(D & ->)|(D & ->)].
  - apply ends_dot in D. rewrite D, (validate_accepted _ A). reflexivity.
  - destruct (ends_with s [DOT]) eqn:E; [apply ends_dot in E; contradiction|].
    change [DOT] with [46%N]. rewrite (validate_accepted _ A). reflexivity.
Qed.
Lemma accepted_or_err : forall s, accepted s -> name_or_err s = Ok s.
Proof. intros s A. unfold name_or_err. now rewrite (validate_accepted _ A). Qed.
Lemma absolute_accepts : forall s, (exists u, s = u ++ [46%N]) -> ensure_absolute_name s = Ok tt.
Proof. intros s D. apply ends_dot in D. unfold ensure_absolute_name. now rewrite D. Qed.
Lemma octet_accepts : forall n, (n < 256)%N -> parse_octet (decimal n) = Some n.
Proof.
  intros n L.
  assert (K : forallb (fun k => match parse_octet (decimal (N.of_nat k)) with Some m => (m =? N.of_nat k)%N | None => false end) (seq 0 256) = true) by (vm_compute; reflexivity).
  rewrite forallb_forall in K. specialize (K (N.to_nat n)). rewrite N2Nat.id in K.
  assert (I : In (N.to_nat n) (seq 0 256)) by (apply in_seq; lia). specialize (K I).
  destruct (parse_octet (decimal n)) as [m|]; [|discriminate]. apply N.eqb_eq in K. now subst.
Qed.
Lemma quad_accepts : forall s a, dotted_quad s a -> parse_ipv4 s = Some a.
Proof.
  intros s a (w & x & y & z & (L1 & L2 & L3 & L4) & -> & ->). unfold parse_ipv4. cbn [app]. change 46%N with DOT.
  rewrite !split_app_dot by now apply decimal_digits. rewrite split_single by now apply decimal_digits.
  now rewrite !octet_accepts by assumption.
Qed.
Lemma char_string_accepts : forall x s, char_string x s -> parse_char_string x = Ok s.
Proof.
  intros x s H. destruct H as [s F|s F]; cbn [parse_char_string]; unfold is_valid_character_string; replace (forallb _ s) with true; try reflexivity;
    symmetry; apply forallb_forall; intros c Hc; rewrite Forall_forall in F; specialize (F c Hc); cbv beta in F.
  - destruct F as (F1 & F2). apply andb_true_intro. split; [now apply N.ltb_lt|]. now rewrite (proj2 (N.eqb_neq c 32) F2).
  - now apply N.ltb_lt.
Qed.
Lemma class_type_clash : forall s c rt, class_from_string s = Ok c -> rtype_from_str s = Ok rt -> supported_for_records rt = false.
Proof.
  intros s c rt Hc Hr. unfold class_from_string in Hc.
  repeat match type of Hc with
  | (if bytes_eqb s ?w then _ else _) = _ => let E := fresh in destruct (bytes_eqb s w) eqn:E; [apply bytes_eqb_eq in E; subst s; vm_compute in Hr; first [discriminate Hr|injection Hr as <-; reflexivity]|clear E]
  end. discriminate.
Qed.

(** *** Lines *)
Lemma end_undeblank : forall ts ts' u, deblank ts ts' -> line_end ts u -> line_end ts' u.
Proof.
  intros ts ts' u (bl & B & ->) L. induction B as [|y bl <- B IH]; [exact L|]. apply IH. cbn [app] in L. inversion L as [? ? F|? F]; subst.
  - apply end_line. inversion F; subst; congruence || assumption.
  - apply end_file. now inversion F.
Qed.
Lemma tp_end : forall A (a : A) t ts rest (Q : A -> list token -> Prop), good t -> reads t ts None -> line_end ts rest ->
  Q a rest -> tp (tk! nx := next_after_blanks in close_line nx a) t None Q.
Proof.
  intros A a t ts rest Q G R L H. apply tp_bind. destruct L as [ts u F|ts F].
  - eapply tp_nab; try eassumption. intros t' G' R'. cbn [close_line]. eapply tp_ret; eassumption.
  - eapply tp_nab_end; try eassumption. intros t' G' R'. cbn [close_line]. eapply tp_ret; eassumption.
Qed.

Lemma tp_name_token : forall origin t ts s n u o (Q : name -> list token -> Prop), good t -> reads t ts o -> field ts (T_String s) u -> full_name origin s n ->
  Q n u -> tp (parse_name_token origin) t o Q.
Proof.
  intros origin t ts s n u o Q G R F Fn H. unfold parse_name_token. apply tp_bind. eapply tp_nab; try eassumption. intros t' G' R'.
  eapply tp_try_ret; try eassumption. now apply adjust_full.
Qed.
Lemma tp_number : forall t ts n u o (Q : N -> list token -> Prop), good t -> reads t ts o -> field ts (T_Number n) u ->
  Q n u -> tp parse_number t o Q.
Proof. intros t ts n u o Q G R F H. unfold parse_number. apply tp_bind. eapply tp_nab; try eassumption. intros t' G' R'. eapply tp_ret; eassumption. Qed.

Lemma tp_txts : forall fuel ts l v, char_strings ts l v -> length ts < fuel -> forall acc t, good t -> reads t ts None ->
  tp (parse_txts fuel acc) t None (fun l' u => l' = acc ++ l /\ deblank v u).
Proof.
  induction fuel as [|fuel IH]; intros ts l v C L acc t G R; [lia|]. cbn [parse_txts]. apply tp_bind. destruct C as [ts u E|ts x s u l v F Cs C].
  - destruct E as [ts u F|ts F].
    + eapply tp_pab; try eassumption. intros t' G' R'. eapply tp_ret; try eassumption. rewrite app_nil_r. split; [reflexivity|now apply deblank_field].
    + eapply tp_pab_end; try eassumption. intros t' G' R'. eapply tp_ret; try eassumption. rewrite app_nil_r. split; [reflexivity|now apply deblank_nil].
  - eapply tp_pab; try eassumption. intros t' G' R'.
    assert (K : tp (tk! _ := next_after_blanks_unwrap in tk! s := tryT (parse_char_string x) in parse_txts fuel (acc ++ [s])) t' None
       (fun l' u => l' = acc ++ s :: l /\ deblank v u)).
    { apply tp_bind. eapply tp_nab_unwrap; [eassumption|eassumption|eapply field_self; eassumption|]. intros t2 G2 R2.
      eapply tp_try; [apply char_string_accepts; eassumption|]. eapply tp_mono; [eapply IH; try eassumption|].
      - apply suffix_field in F as (_ & F). lia.
      - cbv beta. intros l' w (-> & D). rewrite <- app_assoc. now split. }
    destruct x; try exact K; inversion Cs.
Qed.
Lemma tp_discard : forall fuel ts v, words ts v -> length ts < fuel -> forall t, good t -> reads t ts None ->
  tp (discard_strings fuel) t None (fun _ u => deblank v u).
Proof.
  induction fuel as [|fuel IH]; intros ts v C L t G R; [lia|]. cbn [discard_strings]. apply tp_bind. destruct C as [ts u E|ts s u v F C].
  - destruct E as [ts u F|ts F].
    + eapply tp_pab; try eassumption. intros t' G' R'. eapply tp_ret; try eassumption. now apply deblank_field.
    + eapply tp_pab_end; try eassumption. intros t' G' R'. eapply tp_ret; try eassumption. now apply deblank_nil.
  - eapply tp_pab; try eassumption. intros t' G' R'.
    apply tp_bind. eapply tp_nab_unwrap; [eassumption|eassumption|eapply field_self; eassumption|]. intros t2 G2 R2.
    eapply IH; try eassumption. apply suffix_field in F as (_ & F). lia.
Qed.

Ltac tnab := apply tp_bind; eapply tp_nab; [eassumption|eassumption|eassumption|]; intros ? ? ?; cbv beta iota.
Lemma tp_soa : forall origin node cl ttl ts d y t, data_text origin RT_SOA ts d y -> good t -> reads t ts None ->
  tp (parse_soa_record origin node cl ttl) t None (fun r u => r = mkRec node cl ttl 0 d /\ u = y).
Proof.
  intros origin node cl ttl ts d y t D G R. inversion D; subst. unfold parse_soa_record.
  do 2 (apply tp_bind; eapply tp_name_token; try eassumption; intros ? ? ?).
  do 5 (apply tp_bind; eapply tp_number; try eassumption; intros ? ? ?).
  eapply tp_ret; try eassumption. now split.
Qed.
Lemma tp_record_data : forall fuel rt origin node cl ttl ts d y t, data_text origin rt ts d y -> rt <> RT_SOA -> length ts < fuel -> good t -> reads t ts None ->
  tp (parse_record_data fuel rt origin node cl ttl) t None (fun r u => r = mkRec node cl ttl 0 d /\ deblank y u).
Proof.
  intros fuel rt origin node cl ttl ts d y t D Hs L G R. destruct D; cbn [parse_record_data]; try congruence.
  - unfold parse_a_record. tnab. rewrite (quad_accepts _ _ H0). eapply tp_ret; try eassumption. split; [reflexivity|apply deblank_refl].
  - unfold parse_ns_record. apply tp_bind. eapply tp_name_token; try eassumption. intros ? ? ?. eapply tp_ret; try eassumption. split; [reflexivity|apply deblank_refl].
  - unfold parse_cname_record. tnab. apply tp_bind. eapply tp_try_ret; [apply adjust_full; eassumption|eassumption|eassumption|]. intros ? ? ?.
    eapply tp_ret; try eassumption. split; [reflexivity|apply deblank_refl].
  - unfold parse_cname_record. tnab. apply tp_bind. eapply tp_ret; try eassumption. intros ? ? ?.
    eapply tp_ret; try eassumption. split; [reflexivity|apply deblank_refl].
  - unfold parse_ptr_record. tnab. eapply tp_try; [now apply absolute_accepts|]. eapply tp_try; [now apply accepted_or_err|].
    eapply tp_ret; try eassumption. split; [reflexivity|apply deblank_refl].
  - unfold parse_mx_record. tnab. rewrite (proj2 (N.ltb_lt _ _) H0). apply tp_bind. eapply tp_ret; try eassumption. intros ? ? ?.
    apply tp_bind. eapply tp_name_token; try eassumption. intros ? ? ?. eapply tp_ret; try eassumption. split; [reflexivity|apply deblank_refl].
  - unfold parse_hinfo_record. tnab. eapply tp_try; [apply char_string_accepts; eassumption|]. tnab. eapply tp_try; [apply char_string_accepts; eassumption|].
    eapply tp_ret; try eassumption. split; [reflexivity|apply deblank_refl].
  - unfold parse_txt_record. apply tp_bind. eapply tp_mono; [eapply tp_txts; eassumption|]. cbv beta. intros l' w (-> & Dw) t' G' R'.
    eapply tp_ret; try eassumption. now split.
  - unfold parse_wks_record. tnab. rewrite (quad_accepts _ _ H0). apply tp_bind. eapply tp_ret; try eassumption. intros ? ? ?. tnab.
    apply tp_bind.
    assert (K : tp (if bytes_eqb (map upper p) (s2b "TCP") then retT 6%N else if bytes_eqb (map upper p) (s2b "UDP") then retT 17%N else failT ZE_MalformedData) t'1 None
       (fun q' u' => q' = q /\ u' = v)).
    { destruct H2 as [(E & ->)|(E & ->)].
      - assert (E' : map upper p = s2b "TCP") by exact E. rewrite E'. cbn. eapply tp_ret; try eassumption. now split.
      - assert (E' : map upper p = s2b "UDP") by exact E. rewrite E'. cbn. eapply tp_ret; try eassumption. now split. }
    eapply tp_mono; [exact K|]. cbv beta. intros q' u' (-> & ->) ? ? ?. apply tp_bind. eapply tp_mono; [eapply tp_discard; try eassumption|].
    + apply suffix_field in H as (_ & H), H1 as (_ & H1). lia.
    + cbv beta. intros _ w' Dw ? ? ?. eapply tp_ret; try eassumption. now split.
Qed.

Lemma tp_ttl_class : forall u ot oc v ty w rt t, ttl_class u ot oc v -> field v (T_String ty) w -> rtype_from_str ty = Ok rt ->
  supported_for_records rt = true -> good t -> reads t u None ->
  tp parse_ttl_class t None (fun x u' => x = (ot, oc) /\ field u' (T_String ty) w).
Proof.
  intros u ot oc v ty w rt t Tc F Hr Sup G R.
  assert (Hty : class_from_string ty = Err ty \/ exists e, class_from_string ty = Err e).
  { destruct (class_from_string ty) as [c|e] eqn:E; [|right; now exists e]. pose proof (class_type_clash _ _ _ E Hr). congruence. }
  assert (Hcl : exists e, class_from_string ty = Err e) by (destruct Hty as [H|H]; [now exists ty|exact H]). clear Hty. destruct Hcl as (e & Hcl).
  unfold parse_ttl_class. apply tp_bind. destruct Tc as [ts|ts n u F1|ts s c u F1 Hc|ts n u s c v F1 F2 Hc|ts n u s c v F1 Hc F2].
  - eapply tp_pab; try eassumption. intros t1 G1 R1. cbv beta iota. rewrite Hcl. eapply tp_ret; try eassumption. split; [reflexivity|eapply field_self; eassumption].
  - eapply tp_pab; try eassumption. intros t1 G1 R1. cbv beta iota. apply tp_bind. eapply tp_next_unwrap; try eassumption. intros t2 G2 R2.
    apply tp_bind. eapply tp_pab; try eassumption. intros t3 G3 R3. cbn [try_to_class]. rewrite Hcl. eapply tp_ret; try eassumption. split; [reflexivity|eapply field_self; eassumption].
  - eapply tp_pab; try eassumption. intros t1 G1 R1. cbv beta iota. rewrite Hc. apply tp_bind. eapply tp_next_unwrap; try eassumption. intros t2 G2 R2.
    apply tp_bind. eapply tp_pab; try eassumption. intros t3 G3 R3. cbn [try_to_ttl]. eapply tp_ret; try eassumption. split; [reflexivity|eapply field_self; eassumption].
  - eapply tp_pab; try eassumption. intros t1 G1 R1. cbv beta iota. apply tp_bind. eapply tp_next_unwrap; try eassumption. intros t2 G2 R2.
    apply tp_bind. eapply tp_pab; [eassumption|eassumption|exact F2|]. intros t3 G3 R3. cbn [try_to_class]. rewrite Hc.
    apply tp_bind. eapply tp_next_unwrap; try eassumption. intros t4 G4 R4. eapply tp_ret; try eassumption. now split.
  - eapply tp_pab; try eassumption. intros t1 G1 R1. cbv beta iota. rewrite Hc. apply tp_bind. eapply tp_next_unwrap; try eassumption. intros t2 G2 R2.
    apply tp_bind. eapply tp_pab; [eassumption|eassumption|exact F2|]. intros t3 G3 R3. cbn [try_to_ttl].
    apply tp_bind. eapply tp_next_unwrap; try eassumption. intros t4 G4 R4. eapply tp_ret; try eassumption. now split.
Qed.

Lemma class_accepts : forall oc, oc = None \/ oc = Some C_IN -> ensure_class_is_supported (unwrap_or oc C_IN) = Ok tt.
Proof. intros oc [-> | ->]; reflexivity. Qed.
Lemma min_accepts : forall a b, (a <= b)%N -> ensure_min_ttl a b = Ok tt.
Proof. intros a b L. unfold ensure_min_ttl. now rewrite (proj2 (N.leb_le _ _) L). Qed.
Lemma data_text_sup : forall o rt ts d u, data_text o rt ts d u -> supported_for_records rt = true.
Proof. intros o rt ts d u D. now destruct D. Qed.

Lemma tp_first : forall A (k : token -> T A) t x u (Q : A -> list token -> Prop), good t -> reads t (x :: u) None ->
  (forall t', good t' -> reads t' u None -> tp (k x) t' None Q) ->
  exists a t' ts', (exists t1, next t = Done (Ok (x, t1)) /\ k x t1 = Done (Ok (a, t'))) /\ good t' /\ reads t' ts' None /\ Q a ts'.
Proof.
  intros A k t x u Q G R H. destruct (tp_next t x u None (fun a b => a = x /\ b = u) G R (conj eq_refl eq_refl)) as (y & t1 & ts1 & E & G1 & R1 & -> & ->).
  destruct (H t1 G1 R1) as (a & t2 & ts2 & E2 & G2 & R2 & Qa). exists a, t2, ts2. split; [now exists t1|now repeat split].
Qed.

Lemma tp_owner : forall (chk : name -> result unit zone_err) origin x n u t, owner origin x n -> (forall s, x = T_String s -> chk n = Ok tt) ->
  good t -> reads t u None ->
  tp (match x with
      | T_Blank | T_At => retT origin
      | T_String nm => tk! nm' := tryT (adjust_name origin nm) in tk! _ := tryT (chk nm') in retT nm'
      | _ => fun _ => Panic PUnreachable
      end) t None (fun n' u' => n' = n /\ u' = u).
Proof.
  intros chk origin x n u t O C G R. destruct O as [| |s n Fn].
  - eapply tp_ret; try eassumption. now split.
  - eapply tp_ret; try eassumption. now split.
  - eapply tp_try; [apply adjust_full; eassumption|]. eapply tp_try; [now apply (C s)|]. eapply tp_ret; try eassumption. now split.
Qed.

Lemma tp_record : forall fuel s t ts r rest, record_text (ps_orig s) (ps_ttl s) ts r rest ->
  (forall w v, ts = T_String w :: v -> ensure_name_in_auth_zone (r_node r) (ps_zone s) (ps_subs s) = Ok tt) ->
  record_type r <> RT_SOA -> (ps_min s <= r_ttl r)%N -> length ts < fuel -> good t -> reads t ts None ->
  tp (parse_record fuel s) t None (fun e u => e = ZRecord r /\ u = rest).
Proof.
  intros fuel s t ts r rest (x & u & n & ot & oc & v & ty & rt & w & d & y & -> & Hon & Tc & Hoc & F & Hrt & Dt & Le & ->) Hchk Hsoa Hmin L G R.
  cbn [r_node r_ttl] in *. rewrite (data_text_type _ _ _ _ _ _ _ _ _ Dt) in Hsoa. pose proof (data_text_sup _ _ _ _ _ Dt) as Sup.
  destruct (tp_next t x u None (fun a b => a = x /\ b = u) G R (conj eq_refl eq_refl)) as (x' & t1 & ts1 & E & G1 & R1 & -> & ->).
  unfold tp. cbv beta delta [parse_record]. rewrite E. cbn [bind].
  match goal with |- exists e t' ts', ?m t1 = _ /\ _ => change (tp m t1 None (fun e u => e = ZRecord (mkRec n C_IN (match ot with Some t => t | None => ps_ttl s end) 0 d) /\ u = rest)) end.
  apply tp_bind. eapply tp_mono.
  { apply (tp_owner (fun n => ensure_name_in_auth_zone n (ps_zone s) (ps_subs s))) with (n := n) (u := u); try assumption. intros w' ->. exact (Hchk w' u eq_refl). }
  cbv beta. intros n' u' (-> & ->) t2 G2 R2. apply tp_bind. eapply tp_mono; [eapply tp_ttl_class; eassumption|].
  cbv beta. intros tc u' (-> & F') t3 G3 R3. cbn [fst snd]. cbv zeta.
  eapply tp_try; [now apply class_accepts|]. eapply tp_try; [apply min_accepts; unfold unwrap_or; exact Hmin|].
  apply tp_bind. eapply tp_nab; try eassumption. intros t4 G4 R4. cbv beta iota. rewrite Hrt, Sup. cbn [negb].
  assert (unwrap_or oc C_IN = C_IN) as -> by (destruct Hoc as [-> | ->]; reflexivity).
  apply tp_bind. eapply tp_mono; [eapply tp_record_data; try eassumption|].
  { apply ttl_class_len in Tc. apply suffix_field in F as (_ & F). cbn [length] in L. lia. }
  cbv beta. intros r y' (-> & Dy) t5 G5 R5. eapply tp_end; try eassumption; [eapply end_undeblank; eassumption|]. now split.
Qed.

Lemma accepted_dot : forall s, accepted s -> exists u, s = u ++ [46%N].
Proof.
  intros s (ls & -> & _). destruct ls as [|l ls]; [now exists []|]. unfold name_text.
  destruct (exists_last (l := l :: ls)) as (ls' & l' & E); [discriminate|]. rewrite E. unfold dotted. rewrite flat_map_app. cbn [flat_map]. rewrite app_nil_r.
  exists (flat_map (fun x => x ++ [46%N]) ls' ++ l'). destruct (ls' ++ [l']) eqn:E'; [now destruct ls'|]. now rewrite <- app_assoc.
Qed.
Lemma tp_origin : forall st t ts s u rest, field ts (T_String s) u -> accepted s ->
  ensure_name_in_auth_zone s (ps_zone st) (ps_subs st) = Ok tt -> line_end u rest -> good t -> reads t (T_OriginDir :: ts) None ->
  tp (parse_origin st) t None (fun e v => e = ZOrigin s /\ v = rest).
Proof.
  intros st t ts s u rest F A C Le G R.
  destruct (tp_next t T_OriginDir ts None (fun a b => a = T_OriginDir /\ b = ts) G R (conj eq_refl eq_refl)) as (x' & t1 & ts1 & E & G1 & R1 & -> & ->).
  unfold tp. cbv beta delta [parse_origin]. rewrite E. cbn [bind].
  match goal with |- exists e t' ts', ?m t1 = _ /\ _ => change (tp m t1 None (fun e v => e = ZOrigin s /\ v = rest)) end.
  tnab. eapply tp_try; [now apply absolute_accepts, accepted_dot|].
  eapply tp_try; [now apply accepted_or_err|]. eapply tp_try; [exact C|]. eapply tp_end; try eassumption. now split.
Qed.

Lemma tp_include : forall st t ts x path u origin' v rest, field ts x u -> file_name x path ->
  (v = u /\ origin' = ps_orig st \/ exists s, field u (T_String s) v /\ full_name (ps_orig st) s origin' /\ ensure_name_in_auth_zone origin' (ps_zone st) (ps_subs st) = Ok tt) ->
  line_end v rest -> good t -> reads t (T_IncludeDir :: ts) None ->
  tp (parse_include st) t None (fun e w => e = ZInclude path origin' /\ w = rest).
Proof.
  intros st t ts x path u origin' v rest F Fn W Le G R.
  destruct (tp_next t T_IncludeDir ts None (fun a b => a = T_IncludeDir /\ b = ts) G R (conj eq_refl eq_refl)) as (x' & t1 & ts1 & E & G1 & R1 & -> & ->).
  unfold tp. cbv beta delta [parse_include]. rewrite E. cbn [bind].
  match goal with |- exists e t' ts', ?m t1 = _ /\ _ => change (tp m t1 None (fun e w => e = ZInclude path origin' /\ w = rest)) end.
  tnab. apply tp_bind. apply tp_mono with (P := fun p u' => p = path /\ u' = u).
  { destruct Fn; [|rewrite u32_text]; (eapply tp_ret; try eassumption; now split). }
  cbv beta. intros p u' (-> & ->) t2 G2 R2. apply tp_bind. destruct W as [(-> & ->)|(s & Fs & Fu & C)].
  - destruct Le as [ts' u' Fe|ts' Fe].
    + eapply tp_nab; try eassumption. intros t3 G3 R3. cbn [close_line]. eapply tp_ret; try eassumption. now split.
    + eapply tp_nab_end; try eassumption. intros t3 G3 R3. cbn [close_line]. eapply tp_ret; try eassumption. now split.
  - eapply tp_nab; try eassumption. intros t3 G3 R3. cbv beta iota. apply tp_bind. destruct Le as [ts' u' Fe|ts' Fe].
    + eapply tp_nab; try eassumption. intros t4 G4 R4. eapply tp_try; [apply adjust_full; eassumption|]. eapply tp_try; [exact C|]. cbn [close_line]. eapply tp_ret; try eassumption. now split.
    + eapply tp_nab_end; try eassumption. intros t4 G4 R4. eapply tp_try; [apply adjust_full; eassumption|]. eapply tp_try; [exact C|]. cbn [close_line]. eapply tp_ret; try eassumption. now split.
Qed.

Lemma tp_starting_soa : forall s t ts soa mn rest, ps_orig s = ps_zone s -> soa_text (ps_zone s) (ps_ttl s) ts soa mn rest -> good t -> reads t ts None ->
  tp (parse_starting_soa_record s) t None (fun x u => x = (soa, mn) /\ u = rest).
Proof.
  intros s t ts soa mn rest _ ((x & u & n & ot & oc & v & ty & rt & w & d & y & -> & Hon & Tc & Hoc & F & Hrt & Dt & Le & ->) & Hnode & (x' & u' & ot' & v' & Ets & Tc') & (m & r & a & b & c & e & Ed) & Hmin) G R.
  cbn [r_node r_ttl r_data] in *. subst n. assert (x' = x /\ u' = u) as (-> & ->) by (split; congruence). clear Ets.
  pose proof (data_text_sup _ _ _ _ _ Dt) as Sup. subst d. assert (Ert : RT_SOA = rt) by exact (data_text_type _ _ _ _ _ (ps_zone s) C_IN 0%N 0%N Dt). subst rt.
  assert (Eoc : oc = Some C_IN).
  { destruct Hoc as [-> |]; [exfalso|assumption].
    assert (Hty : forall c, class_from_string ty = Ok c -> False) by (intros c0 Hc0; pose proof (class_type_clash _ _ _ Hc0 Hrt); congruence).
    inversion Tc; subst; inversion Tc'; subst; fld; try (now eapply Hty; eassumption). }
  subst oc. clear Tc'. unfold parse_starting_soa_record. apply tp_bind. eapply tp_next; try eassumption. intros t1 G1 R1.
  apply tp_bind. apply tp_mono with (P := fun n u' => n = ps_zone s /\ u' = u).
  { inversion Hon as [E1 E2|E1 E2|w' n' Fn E1 E2]; subst x; try (eapply tp_ret; try eassumption; now split).
    eapply tp_try_ret; [apply adjust_full; eassumption|eassumption|eassumption|]. now split. }
  cbv beta. intros n' u' (-> & ->) t2 G2 R2. rewrite bytes_eqb_refl. cbn [negb].
  apply tp_bind. eapply tp_mono; [eapply tp_ttl_class; eassumption|]. cbv beta. intros tc u' (-> & F') t3 G3 R3. cbn [fst snd]. cbv zeta.
  eapply tp_try; [reflexivity|]. tnab. rewrite Hrt. apply tp_bind. eapply tp_mono; [eapply tp_soa; eassumption|].
  cbv beta. intros r' y' (-> & ->) t5 G5 R5. cbn [r_data r_ttl]. eapply tp_try; [apply min_accepts; unfold unwrap_or; exact Hmin|].
  eapply tp_end; try eassumption. now split.
Qed.

Lemma tp_sub_record : forall zn ttl mn t ts r rest, record_text zn ttl ts r rest ->
  (forall w v, ts = T_String w :: v -> ensure_name_in_zone (r_node r) zn = Ok tt) -> ensure_name_in_zone zn zn = Ok tt ->
  record_type r = RT_NS \/ record_type r = RT_A -> (mn <= r_ttl r)%N -> good t -> reads t ts None ->
  tp (parse_sub_record zn ttl mn) t None (fun r' u => r' = r /\ u = rest).
Proof.
  intros zn ttl mn t ts r rest (x & u & n & ot & oc & v & ty & rt & w & d & y & -> & Hon & Tc & Hoc & F & Hrt & Dt & Le & ->) Hchk Hzn Hty Hmin G R.
  cbn [r_node r_ttl] in *. rewrite (data_text_type _ _ _ _ _ _ _ _ _ Dt) in Hty. pose proof (data_text_sup _ _ _ _ _ Dt) as Sup.
  destruct (tp_next t x u None (fun a b => a = x /\ b = u) G R (conj eq_refl eq_refl)) as (x' & t1 & ts1 & E & G1 & R1 & -> & ->).
  unfold tp. cbv beta delta [parse_sub_record]. rewrite E. cbn [bind].
  match goal with |- exists e t' ts', ?m t1 = _ /\ _ => change (tp m t1 None (fun e u => e = (mkRec n C_IN (match ot with Some t => t | None => ttl end) 0 d) /\ u = rest)) end.
  assert (Hn : ensure_name_in_zone n zn = Ok tt).
  { inversion Hon as [E1 E2|E1 E2|w' n' Fn E1 E2]; subst; try assumption. exact (Hchk w' u eq_refl). }
  apply tp_bind. eapply tp_mono.
  { apply (tp_owner (fun n => ensure_name_in_zone n zn)) with (n := n) (u := u); try assumption. intros w' ->. exact (Hchk w' u eq_refl). }
  cbv beta. intros n' u' (-> & ->) t2 G2 R2. apply tp_bind. eapply tp_mono; [eapply tp_ttl_class; eassumption|].
  cbv beta. intros tc u' (-> & F') t3 G3 R3. cbn [fst snd]. cbv zeta.
  eapply tp_try; [now apply class_accepts|]. eapply tp_try; [apply min_accepts; unfold unwrap_or; exact Hmin|].
  tnab. rewrite Hrt.
  assert (unwrap_or oc C_IN = C_IN) as -> by (destruct Hoc as [-> | ->]; reflexivity).
  apply tp_bind. apply tp_mono with (P := fun r' y' => r' = mkRec n C_IN (unwrap_or ot ttl) 0 d /\ deblank y y').
  { pose proof (fun f L => tp_record_data f rt zn n C_IN (unwrap_or ot ttl) w d y _ Dt ltac:(intros ->; destruct Hty; discriminate) L H H0) as K.
    specialize (K (S (length w)) ltac:(lia)). destruct Hty as [-> | ->]; cbn [parse_record_data] in K; [|exact K]. eapply tp_try; [exact Hn|exact K]. }
  cbv beta. intros r y' (-> & Dy) t5 G5 R5. eapply tp_end; try eassumption; [eapply end_undeblank; eassumption|]. now split.
Qed.

(** *** Files *)
Lemma more_fuel : forall A (e e' : exec A) r, below e e' -> e = Done r -> e' = Done r.
Proof. intros A e e' r [H|H] E; congruence. Qed.

Lemma entries_complete : forall fs zn subs mn origin ttl ts rs,
  well_formed fs (fun n => ensure_name_in_auth_zone n zn subs = Ok tt) mn origin ttl ts rs ->
  forall acc t rs0, good t -> reads t ts None -> built zn rs0 acc ->
  exists fuel z, parse_entries fs fuel (mkPS zn subs origin ttl mn) acc t = Done (Ok z) /\ built zn (rs0 ++ rs) z.
Proof.
  induction 1 as [o ttl|o ttl ts s u rest rs F A C L W IH|o ttl ts x path u o' v rest f tsf rsf rs F Fn Hd L Ef Rf Wf IHf W IH|o ttl ts r rest rs Rt C Hs Hm W IH];
    intros acc t rs0 G R B.
  - exists 1, acc. rewrite app_nil_r. split; [|exact B]. cbn [parse_entries].
    destruct (tp_peek_end t (fun x u => x = T_End) G R eq_refl) as (x & t1 & ts1 & E & _ & _ & ->). now rewrite E.
  - destruct (tp_peek t _ _ None (fun x v => x = T_OriginDir /\ v = T_OriginDir :: ts) G R (conj eq_refl eq_refl)) as (x & t1 & ts1 & E & G1 & R1 & -> & ->).
    destruct (tp_origin (mkPS zn subs o ttl mn) t1 ts s u rest F A C L G1 R1) as (e & t2 & ts2 & E2 & G2 & R2 & -> & ->).
    destruct (IH acc t2 rs0 G2 R2 B) as (fuel & z & Ez & Bz). exists (S fuel), z. split; [|exact Bz].
    cbn [parse_entries]. rewrite E. cbn [bindR bind]. rewrite E2. exact Ez.
  - destruct (tp_peek t _ _ None (fun x v => x = T_IncludeDir /\ v = T_IncludeDir :: ts) G R (conj eq_refl eq_refl)) as (x0 & t1 & ts1 & E & G1 & R1 & -> & ->).
    destruct (tp_include (mkPS zn subs o ttl mn) t1 ts x path u o' v rest F Fn Hd L G1 R1) as (e & t2 & ts2 & E2 & G2 & R2 & -> & ->).
    destruct (IHf (zone_new zn) (tok_new f) [] (good_new f) (proj1 (lexes_reads _ _) Rf) (built_new zn)) as (fuel1 & zi & Ei & Bi).
    destruct (IH (zone_extend acc zi) t2 (rs0 ++ rsf) G2 R2 ltac:(eapply built_merge; eassumption)) as (fuel2 & z & Ez & Bz).
    exists (S (Nat.max fuel1 fuel2)), z. rewrite app_assoc. split; [|exact Bz].
    cbn [parse_entries]. rewrite E. cbn [bindR bind]. rewrite E2. cbn [bindR bind]. rewrite Ef. cbn [ps_zone ps_subs ps_ttl ps_min].
    rewrite (more_fuel _ _ _ _ (below_entries fs fuel1 (Nat.max fuel1 fuel2) _ _ _ ltac:(lia)) Ei). cbn [bindR bind].
    exact (more_fuel _ _ _ _ (below_entries fs fuel2 (Nat.max fuel1 fuel2) _ _ _ ltac:(lia)) Ez).
  - assert (X : exists x u, ts = x :: u /\ owner_token x).
    { pose proof Rt as (x & u & _ & _ & _ & _ & _ & _ & _ & _ & _ & -> & _). exists x, u. split; [reflexivity|eapply record_text_owner; eassumption]. }
    destruct X as (x & u & -> & Hx).
    destruct (tp_peek t _ _ None (fun y v => y = x /\ v = x :: u) G R (conj eq_refl eq_refl)) as (x0 & t1 & ts1 & E & G1 & R1 & -> & ->).
    destruct (tp_record (S (length (x :: u))) (mkPS zn subs o ttl mn) t1 (x :: u) r rest Rt C Hs Hm ltac:(lia) G1 R1) as (e & t2 & ts2 & E2 & G2 & R2 & -> & ->).
    destruct (IH (zone_insert acc r) t2 (rs0 ++ [r]) G2 R2 ltac:(now apply built_insert)) as (fuel & z & Ez & Bz).
    exists (S (Nat.max (S (length (x :: u))) fuel)), z. replace (rs0 ++ r :: rs) with ((rs0 ++ [r]) ++ rs) by now rewrite <- app_assoc. split; [|exact Bz].
    cbn [parse_entries]. rewrite E. cbn [bindR bind].
    pose proof (more_fuel _ _ _ _ (below_record (S (length (x :: u))) (Nat.max (S (length (x :: u))) fuel) _ _ ltac:(lia)) E2) as E2'.
    pose proof (more_fuel _ _ _ _ (below_entries fs fuel (Nat.max (S (length (x :: u))) fuel) _ _ _ ltac:(lia)) Ez) as Ez'.
    destruct x; try (now destruct Hx); rewrite E2'; exact Ez'.
Qed.

Lemma sub_complete : forall zn mn ttl ts rs, ensure_name_in_zone zn zn = Ok tt ->
  sub_well_formed (fun n => ensure_name_in_zone n zn = Ok tt) mn zn ttl ts rs ->
  forall acc t rs0, good t -> reads t ts None -> built zn rs0 acc ->
  exists fuel z, parse_sub_entries fuel zn ttl mn acc t = Done (Ok z) /\ built zn (rs0 ++ rs) z.
Proof.
  intros zn mn ttl ts rs Hzn. induction 1 as [ttl|ttl ts r rest rs Rt C Hs Hm W IH]; intros acc t rs0 G R B.
  - exists 1, acc. rewrite app_nil_r. split; [|exact B]. cbn [parse_sub_entries].
    destruct (tp_peek_end t (fun x u => x = T_End) G R eq_refl) as (x & t1 & ts1 & E & _ & _ & ->). now rewrite E.
  - assert (X : exists x u, ts = x :: u /\ owner_token x).
    { pose proof Rt as (x & u & _ & _ & _ & _ & _ & _ & _ & _ & _ & -> & _). exists x, u. split; [reflexivity|eapply record_text_owner; eassumption]. }
    destruct X as (x & u & -> & Hx).
    destruct (tp_peek t _ _ None (fun y v => y = x /\ v = x :: u) G R (conj eq_refl eq_refl)) as (x0 & t1 & ts1 & E & G1 & R1 & -> & ->).
    destruct (tp_sub_record zn ttl mn t1 (x :: u) r rest Rt C Hzn Hs Hm G1 R1) as (e & t2 & ts2 & E2 & G2 & R2 & -> & ->).
    destruct (IH (zone_insert acc r) t2 (rs0 ++ [r]) G2 R2 ltac:(now apply built_insert)) as (fuel & z & Ez & Bz).
    exists (S fuel), z. replace (rs0 ++ r :: rs) with ((rs0 ++ [r]) ++ rs) by now rewrite <- app_assoc. split; [|exact Bz].
    cbn [parse_sub_entries]. rewrite E. cbn [bindR bind]. destruct x; try (now destruct Hx); rewrite E2; exact Ez.
Qed.

Lemma auth_file_complete : forall fs c f rs, fs (p_path c) = Some f -> auth_well_formed fs (auth_check c) (p_zone c) (p_ttl c) f rs ->
  exists fuel z, parse_auth_zone_file fs fuel c = Done (Ok z) /\ built (p_zone c) rs z.
Proof.
  intros fs c f rs Ef (ts & soa & mn & rest & rs' & R & S1 & W & ->).
  destruct (tp_starting_soa (mkPS (p_zone c) (map sp_zone (p_subs c)) (p_zone c) (p_ttl c) 0) (tok_new f) ts soa mn rest eq_refl S1 (good_new f) (proj1 (lexes_reads _ _) R)) as (x & t1 & ts1 & E & G1 & R1 & -> & ->).
  destruct (entries_complete fs (p_zone c) (map sp_zone (p_subs c)) mn (p_zone c) (p_ttl c) rest rs' W (zone_new (p_zone c)) t1 [] G1 R1 (built_new _)) as (fuel & z & Ez & Bz).
  exists fuel, (zone_insert z soa). split; [|now apply built_insert].
  unfold parse_auth_zone_file. rewrite Ef. cbv zeta. rewrite E. cbn [bindR bind ps_zone ps_subs ps_orig ps_ttl]. rewrite Ez. reflexivity.
Qed.
Lemma sub_files_complete : forall fs cs ds, Forall (fun c => ensure_name_in_zone (sp_zone c) (sp_zone c) = Ok tt) cs ->
  Forall2 (fun c d => d_apex d = sp_zone c /\ exists f, fs (sp_path c) = Some f /\
    sub_file_well_formed (fun n => ensure_name_in_zone n (sp_zone c) = Ok tt) (sp_min c) (sp_zone c) (sp_ttl c) f (d_records d)) cs ds ->
  exists fuel zs, parse_sub_zone_files fs fuel cs = Done (Ok zs) /\ Forall2 stores zs ds.
Proof.
  intros fs cs ds Hz H. revert Hz. induction H as [|c d cs ds (Ed & f & Ef & ts & R & W) H IH]; intros Hz.
  - exists 0, []. split; [reflexivity|]. constructor.
  - inversion Hz as [|? ? Hz1 Hz2]; subst. destruct (IH Hz2) as (fuel & zs & E & F1).
    destruct (sub_complete (sp_zone c) (sp_min c) (sp_ttl c) ts (d_records d) Hz1 W (zone_new (sp_zone c)) (tok_new f) [] (good_new f) (proj1 (lexes_reads _ _) R) (built_new _)) as (fuel' & z & Ez & Bz).
    cbn [app] in Bz. exists (Nat.max fuel fuel'), (z :: zs). split.
    + cbn [parse_sub_zone_files]. unfold parse_sub_zone_file. rewrite Ef.
      rewrite (more_fuel _ _ _ _ (below_sub_entries fuel' (Nat.max fuel fuel') _ _ _ _ _ ltac:(lia)) Ez). cbn [bindR bind].
      rewrite (more_fuel _ _ _ _ (below_subs fs fuel (Nat.max fuel fuel') cs ltac:(lia)) E). reflexivity.
    + constructor; [|exact F1]. split; [rewrite Ed; exact (built_zone _ _ _ Bz)|exact (built_holds _ _ _ Bz)].
Qed.

(** *** The checks on names *)
Lemma well_formed_imp : forall fs (P Q : name -> Prop) mn o ttl ts rs, (forall n, accepted n -> P n -> Q n) ->
  well_formed fs P mn o ttl ts rs -> accepted o -> well_formed fs Q mn o ttl ts rs.
Proof.
  intros fs P Q mn o ttl ts rs I W. assert (Fa : forall o s n, accepted o -> full_name o s n -> accepted n).
  { intros o' s' n' A [(_ & ->)|(_ & A' & _)]; assumption. }
  induction W as [o ttl|o ttl ts s u rest rs F A C L W IH|o ttl ts x path u o' v rest f tsf rsf rs F Fn Hd L Ef Rf Wf IHf W IH|o ttl ts r rest rs Rt C Hs Hm W IH]; intros Ao.
  - constructor.
  - eapply wf_origin; try eassumption; auto.
  - eapply wf_include; try eassumption; auto.
    + destruct Hd as [Hd|(s & H1 & H2 & H3)]; [now left|right; exists s; eauto].
    + apply IHf. destruct Hd as [(_ & ->)|(s & H1 & H2 & H3)]; [assumption|eauto].
  - eapply wf_record; try eassumption; auto. intros s u E. apply I; [|now apply (C s u)].
    destruct Rt as (x & u' & n & ot & oc & v & ty & rt & w & d & y & E' & Hon & _ & _ & _ & _ & _ & _ & ->). cbn [r_node].
    inversion Hon; subst; try assumption. eapply Fa; eassumption.
Qed.
Lemma sub_well_formed_imp : forall (P Q : name -> Prop) mn o ttl ts rs, (forall n, accepted n -> P n -> Q n) ->
  sub_well_formed P mn o ttl ts rs -> accepted o -> sub_well_formed Q mn o ttl ts rs.
Proof.
  intros P Q mn o ttl ts rs I W Ao. assert (Fa : forall s n, full_name o s n -> accepted n).
  { intros s' n' [(_ & ->)|(_ & A' & _)]; assumption. }
  induction W as [ttl|ttl ts r rest rs Rt C Hs Hm W IH].
  - constructor.
  - eapply swf_record; try eassumption; auto. intros s u E. apply I; [|now apply (C s u)].
    destruct Rt as (x & u' & n & ot & oc & v & ty & rt & w & d & y & E' & Hon & _ & _ & _ & _ & _ & _ & ->). cbn [r_node].
    inversion Hon; subst; try assumption. eapply Fa; eassumption.
Qed.

(** *** The last checks *)
Lemma for_each_ok : forall A E (l : list A) (body : A -> exec (result unit E)),
  (forall x, In x l -> body x = Done (Ok tt)) -> for_each l body = Done (Ok tt).
Proof.
  induction l as [|a l IH]; intros body H; [reflexivity|]. cbn [for_each]. rewrite (H a) by now left. cbn [bindR bind].
  apply IH. intros x Hx. apply H. now right.
Qed.
Lemma auth_valid : forall zs d, stores (auth_zone zs) d -> ns_at_apex (d_apex d) (d_records d) -> validate_auth_zone zs = Done (Ok tt).
Proof.
  intros zs d (Ez & _ & Hp) (N1 & N2). unfold validate_auth_zone. specialize (Hp RT_NS).
  destruct (length (zone_get_all_of_type (auth_zone zs) RT_NS) =? 0) eqn:L.
  - apply Nat.eqb_eq in L. destruct (zone_get_all_of_type (auth_zone zs) RT_NS); [|discriminate]. apply Permutation_nil in Hp. contradiction.
  - apply for_each_ok. intros r Hr. apply (Permutation_in _ Hp) in Hr. rewrite Forall_forall in N2. specialize (N2 r Hr). cbv beta in N2.
    unfold is_in_zone_root. rewrite Ez, N2, bytes_eqb_refl. reflexivity.
Qed.
Lemma any_ns_found : forall a l r, Forall (fun r => record_type r = RT_NS) l -> In r l -> r_data r = D_NS a -> any_ns_is a l = Done true.
Proof.
  induction l as [|b l IH]; intros r F Hr Er; [destruct Hr|]. inversion F as [|? ? F1 F2]; subst. cbn [any_ns_is].
  destruct (ns_data_ends b F1) as (n & En). rewrite En. cbn [bind]. destruct (bytes_eqb a n) eqn:Eb; [reflexivity|].
  destruct Hr as [->|Hr]; [|eapply IH; eassumption]. unfold ns_data in En. rewrite Er in En. assert (n = a) as -> by congruence. rewrite bytes_eqb_refl in Eb. discriminate.
Qed.
Lemma find_found : forall A (f : A -> exec bool) l x, (forall y, In y l -> ends (f y)) -> In x l -> f x = Done true -> find_exec f l = Done true.
Proof.
  induction l as [|a l IH]; intros x Hf Hx Ex; [destruct Hx|]. cbn [find_exec]. destruct (Hf a ltac:(now left)) as (b & Eb). rewrite Eb. cbn [bind]. destruct b; [reflexivity|].
  destruct Hx as [->|Hx]; [congruence|]. eapply IH; try eassumption. intros y Hy. apply Hf. now right.
Qed.
Lemma owned_in : forall n t rs r, In r (of_type t rs) -> r_node r = n -> In r (owned n t rs).
Proof.
  intros n t rs r H E. apply filter_In in H as (H1 & H2). apply filter_In. split; [assumption|]. subst n. rewrite bytes_eqb_refl. exact H2.
Qed.
Lemma sub_valid : forall p zs sd z d, serves zs sd -> Forall (fun d => Forall record_fine (d_records d)) (s_subs sd) ->
  apexes_ok sd -> Forall (fun d => ns_at_apex (d_apex d) (d_records d)) (s_subs sd) -> glue_complete sd -> glue_needed sd ->
  In d (s_subs sd) -> stores z d -> validate_subzone p z zs = Done (Ok tt).
Proof.
  intros p zs sd z d ((Eau & Hau) & Hsub) Hfine (Ha1 & Ha2) Hns Hgc Hgn Hd (Ez & Hl & Hp). unfold validate_subzone.
  rewrite Forall_forall in Hfine, Ha2, Hns. destruct (Hns d Hd) as (N1 & N2). rewrite Forall_forall in N2.
  destruct (length (zone_get_all_of_type z RT_NS) =? 0) eqn:L.
  { apply Nat.eqb_eq in L. pose proof (Hp RT_NS) as Hq. destruct (zone_get_all_of_type z RT_NS); [|discriminate]. apply Permutation_nil in Hq. contradiction. }
  rewrite for_each_ok.
  - cbn [bindR bind]. apply for_each_ok. intros r Hr. apply (Permutation_in _ (Hp RT_A)) in Hr.
    destruct (Hgn d r Hd Hr) as (d' & Hd' & Hn). apply (forall2_in_r _ _ _ _ _ _ Hsub) in Hd' as Hz'. destruct Hz' as (z' & Hz' & (Ez' & Hl' & Hp')).
    assert (T : forall d0, In d0 (s_subs sd) -> forall l, lookup (d_records d0) (d_apex d0) RT_NS = Some l -> Forall (fun r => record_type r = RT_NS) l).
    { intros d0 Hd0 l E. apply Forall_forall. intros r0 Hr0. unfold lookup in E. assert (l = owned (d_apex d0) RT_NS (d_records d0)) as -> by (destruct (owned (d_apex d0) RT_NS (d_records d0)); congruence).
      apply owned_of_type in Hr0 as (Hr0 & _). apply filter_In in Hr0 as (_ & Hr0). now apply rtype_eqb_eq. }
    rewrite (find_found _ _ _ z'); [reflexivity| |assumption|].
    + intros y Hy. apply (forall2_in_l _ _ _ _ _ _ Hsub) in Hy as (d0 & Hd0 & (Ey & Hly & _)). unfold search_referred_ns. rewrite Ey, Hly. cbn [bind].
      destruct (lookup (d_records d0) (d_apex d0) RT_NS) as [l|] eqn:El; [|now exists false]. apply any_ns_ends. eapply T; eassumption.
    + unfold search_referred_ns. rewrite Ez', Hl'. cbn [bind]. apply in_targets in Hn as (r1 & Hr1 & Er1).
      destruct (Hns d' Hd') as (_ & N2'). rewrite Forall_forall in N2'. pose proof (owned_in _ _ _ _ Hr1 (N2' r1 Hr1)) as Ho.
      destruct (lookup (d_records d') (d_apex d') RT_NS) as [l|] eqn:El.
      * assert (l = owned (d_apex d') RT_NS (d_records d')) as -> by (unfold lookup in El; destruct (owned (d_apex d') RT_NS (d_records d')); congruence).
        eapply any_ns_found; [|exact Ho|exact Er1]. eapply T; eassumption.
      * unfold lookup in El. destruct (owned (d_apex d') RT_NS (d_records d')); [destruct Ho|discriminate].
  - intros r Hr. apply (Permutation_in _ (Hp RT_NS)) in Hr. unfold is_in_zone_root. rewrite (N2 r Hr), Ez, bytes_eqb_refl. cbn [negb].
    assert (Ht : record_type r = RT_NS) by (apply filter_In in Hr as (_ & Hr); now apply rtype_eqb_eq).
    destruct (ns_data_ends r Ht) as (n & En). rewrite En. cbn [bind].
    assert (Er : r_data r = D_NS n) by (unfold ns_data in En; destruct (r_data r); congruence).
    assert (Hacc : accepted n).
    { specialize (Hfine d Hd). rewrite Forall_forall in Hfine. pose proof Hr as Hr'. apply filter_In in Hr' as (Hr' & _). destruct (Hfine r Hr') as (_ & _ & _ & H). now rewrite Er in H. }
    destruct (is_in_zone n (z_zone (auth_zone zs))) eqn:E1; [|reflexivity]. cbn [negb]. rewrite Eau in E1. apply within_ok in E1; try assumption.
    apply for_each_ok. intros z' Hz'. apply (forall2_in_l _ _ _ _ _ _ Hsub) in Hz' as (d' & Hd' & (Ez' & Hl' & _)).
    destruct (is_in_zone n (z_zone z')) eqn:E2; [|reflexivity]. rewrite Ez' in E2. apply within_ok in E2; [|assumption|now apply Ha2].
    unfold search_glue_records. rewrite Hl'. cbn [bind]. pose proof (Hgc d d' n Hd Hd' ltac:(apply in_targets; now exists r) E1 E2) as Ho. unfold lookup.
    destruct (owned n RT_A (d_records d')) as [|r0 l0] eqn:Eo; [contradiction|]. cbn [existsb].
    assert (In r0 (owned n RT_A (d_records d'))) as Hi by (rewrite Eo; now left). apply owned_of_type in Hi as (_ & <-). rewrite bytes_eqb_refl. reflexivity.
Qed.
