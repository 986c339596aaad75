(** Files that differ only in idle lines cannot be told apart by the loader. *)
From Verif Require Import Base Types Name NameSpec Codec Zone Tokens Parser TokenSpec TokenProofs PropCodec3.

Lemma has_content_idle : forall l, has_content l = false <-> idle_line l.
Proof.
  induction l as [|c l IH]; cbn [has_content].
  - split; [|reflexivity]. intros _. exists [], []. repeat split; auto.
  - destruct (is_ws c) eqn:W.
    + rewrite IH. split.
      * intros (ws & rest & -> & F & R). exists (c :: ws), rest. repeat split; auto.
      * intros (ws & rest & E & F & R). destruct ws as [|w ws].
        -- cbn in E. destruct R as [->|(cm & ->)]; [discriminate|]. assert (c = 59%N) as -> by congruence. discriminate W.
        -- inversion F; subst. assert (l = ws ++ rest) as -> by (cbn in E; congruence). exists ws, rest. repeat split; auto.
    + split.
      * intros H. apply Bool.negb_false_iff, N.eqb_eq in H. subst. exists [], (59%N :: l). repeat split; auto. right. now exists l.
      * intros (ws & rest & E & F & R). destruct ws as [|w ws].
        -- cbn in E. subst. destruct R as [R|(cm & R)]; [discriminate|]. assert (c = 59%N) as -> by congruence. reflexivity.
        -- inversion F; subst. assert (c = w) by (cbn in E; congruence). congruence.
Qed.

(** The lines that are not idle. *)
Definition strip (f : file) : file := filter (fun o => match o with Some l => has_content l | None => true end) f.

Lemma load_strip : forall f n,
  match strip f with
  | [] => exists n', load_new_line f n = Ok (None, [], n')
  | None :: _ => load_new_line f n = Err TE_ReadErr
  | Some l :: g => exists f' n', load_new_line f n = Ok (Some l, f', n') /\ strip f' = g /\ n < n'
  end.
Proof.
  induction f as [|[l|] f IH]; intros n; cbn [strip filter load_new_line].
  - now exists n.
  - destruct (has_content l).
    + exists f, (S n). split; [reflexivity|]. split; [reflexivity|lia].
    + specialize (IH (S n)). change (filter _ f) with (strip f). destruct (strip f) as [|[l'|] g]; auto.
      destruct IH as (f' & n' & H1 & H2 & H3). exists f', n'. split; [assumption|]. split; [assumption|lia].
  - reflexivity.
Qed.

Definition alike (t t' : tok) : Prop :=
  tk_cur t = tk_cur t' /\ tk_peeked t = tk_peeked t' /\ tk_multi t = tk_multi t' /\
  strip (tk_rest t) = strip (tk_rest t') /\ (tk_line t = 0 <-> tk_line t' = 0).
Definition sim (t t' : tok) : Prop := (ended t /\ ended t') \/ (good t /\ good t' /\ alike t t').

Lemma sim_good : forall t t', sim t t' -> good t /\ good t'.
Proof. intros t t' [(D & D')|(G & G' & _)]; [split; now left|now split]. Qed.
Lemma sim_new : forall f f', strip f = strip f' -> sim (tok_new f) (tok_new f').
Proof. intros f f' E. right. split; [apply good_new|]. split; [apply good_new|]. repeat split; auto. Qed.

Definition rel {A S E} (R : S -> S -> Prop) (r r' : exec (result (A * S) E)) : Prop :=
  match r, r' with
  | Done (Ok (x, t)), Done (Ok (x', t')) => x = x' /\ R t t'
  | Done (Err e), Done (Err e') => e = e'
  | Panic k, Panic k' => k = k'
  | Diverge, Diverge => True
  | _, _ => False
  end.

Lemma next_rec_sim : forall fuel t t', sim t t' -> tok_size t < fuel -> tok_size t' < fuel ->
  rel alike (next_rec fuel t) (next_rec fuel t') \/
  (exists u u', next_rec fuel t = Done (Ok (T_End, u)) /\ next_rec fuel t' = Done (Ok (T_End, u')) /\ ended u /\ ended u').
Proof.
  induction fuel as [|fuel IH]; intros t t' S L L'; [lia|].
  destruct S as [(D & D')|(G & G' & E1 & E2 & E3 & E4 & E5)].
  { right. destruct (ended_next_rec fuel t D) as (u & Eu & Du & _). destruct (ended_next_rec fuel t' D') as (u' & Eu' & Du' & _). eauto 10. }
  pose proof (next_rec_facts (S fuel) t G L) as NF. pose proof (next_rec_facts (S fuel) t' G' L') as NF'.
  (* the end of the file on both sides *)
  assert (X : forall u u', next_rec (S fuel) t = Done (Ok (T_End, u)) -> next_rec (S fuel) t' = Done (Ok (T_End, u')) ->
    exists u u', next_rec (S fuel) t = Done (Ok (T_End, u)) /\ next_rec (S fuel) t' = Done (Ok (T_End, u')) /\ ended u /\ ended u').
  { intros u u' H H'. rewrite H in NF. rewrite H' in NF'. exists u, u'. cbn [next_facts] in NF, NF'.
    destruct NF as (_ & _ & _ & _ & D & _). destruct NF' as (_ & _ & _ & _ & D' & _). auto. }
  clear NF NF'.
  assert (B : (exists u u', next_rec (S fuel) t = Done (Ok (T_End, u)) /\ next_rec (S fuel) t' = Done (Ok (T_End, u'))) \/
     match bootstrap t, bootstrap t' with
     | Err e, Err e' => e = e'
     | Ok (inl t1), Ok (inl t1') => alike t1 t1' /\ tk_line t1 <> 0 /\ tk_line t1' <> 0 /\ tok_size t1 <= tok_size t /\ tok_size t1' <= tok_size t'
     | _, _ => False
     end).
  { cbn [next_rec]. unfold bootstrap. pose proof (load_strip (tk_rest t) (tk_line t)) as LS. pose proof (load_strip (tk_rest t') (tk_line t')) as LS'.
    rewrite <- E4 in LS'. destruct (tk_line t =? 0) eqn:El, (tk_line t' =? 0) eqn:El';
      rewrite ?Nat.eqb_eq, ?Nat.eqb_neq in *; try tauto.
    - destruct (strip (tk_rest t)) as [|[l|] g].
      + destruct LS as (n & ->), LS' as (n' & ->). rewrite <- E3. destruct (tk_multi t); [right; reflexivity|]. left. eexists. eexists. split; reflexivity.
      + destruct LS as (f & n & H & S & Ln), LS' as (f' & n' & H' & S' & Ln'). rewrite H, H'. right.
        apply load_some in H as (H & _). apply load_some in H' as (H' & _). rewrite <- E2, <- E3.
        rewrite !tok_size_eq. cbn [tk_cur tk_rest tk_peeked tk_line]. rewrite <- E2. repeat split; cbn [tk_rest tk_line]; try congruence; try lia.
      + rewrite LS, LS'. right. reflexivity.
    - right. repeat split; try assumption; try lia. }
  destruct B as [(u & u' & Hu & Hu')|B]; [right; eauto|]. cbn [next_rec] in X |- *.
  destruct (bootstrap t) as [[t1|]|e], (bootstrap t') as [[t1'|]|e']; try destruct B; [|left; cbn; congruence].
  destruct H0 as (N1 & N1' & S1 & S1'). destruct H as (A1 & A2 & A3 & A4 & A5). clear E1 E2 E3 E4 E5 G G'.
  assert (B : (exists u u', fetch t1 = Ok (F_Token T_End u) /\ fetch t1' = Ok (F_Token T_End u')) \/
     match fetch t1, fetch t1' with
     | Err e, Err e' => e = e'
     | Ok (F_Token x u), Ok (F_Token x' u') => x = x' /\ alike u u'
     | Ok (F_Chars t2), Ok (F_Chars t2') => alike t2 t2' /\ tk_line t2 <> 0 /\ tk_line t2' <> 0 /\ tk_peeked t2 = [] /\
           tok_size t2 <= tok_size t1 /\ tok_size t2' <= tok_size t1'
     | _, _ => False
     end).
  { unfold fetch. rewrite <- A2. destruct (tk_peeked t1) as [|q ps] eqn:Ep.
    - rewrite <- A1. destruct (tk_cur t1) as [|ch cur] eqn:Ec.
      + pose proof (load_strip (tk_rest t1) (tk_line t1)) as LS. pose proof (load_strip (tk_rest t1') (tk_line t1')) as LS'.
        rewrite <- A4 in LS'. destruct (strip (tk_rest t1)) as [|[l|] g].
        * destruct LS as (n & ->), LS' as (n' & ->). rewrite <- A3. destruct (tk_multi t1); [right; reflexivity|]. left. eexists. eexists. split; reflexivity.
        * destruct LS as (f & n & H & S & Ln), LS' as (f' & n' & H' & S' & Ln'). rewrite H, H'. right. rewrite <- A3.
          apply load_some in H as (H & _). apply load_some in H' as (H' & _).
          destruct (tk_multi t1).
          -- rewrite !tok_size_eq. cbn [tk_cur tk_rest tk_peeked tk_line]. rewrite <- A2, Ep. repeat split; cbn [tk_rest length tk_line]; try congruence; try lia.
          -- split; [reflexivity|]. repeat split; cbn [tk_rest tk_line]; try congruence; try lia.
        * rewrite LS, LS'. right. reflexivity.
      + right. repeat split; try congruence; try lia; tauto.
    - right. split; [reflexivity|]. repeat split; cbn [with_peeked tk_cur tk_rest tk_peeked tk_multi tk_line]; try assumption; tauto. }
  destruct B as [(u & u' & Hu & Hu')|B].
  { right. rewrite Hu, Hu' in X |- *. eauto. }
  destruct (fetch t1) as [[x u|t2]|e], (fetch t1') as [[x' u'|t2']|e']; try destruct B.
  - left. cbn. now split.
  - clear X. destruct H as (C1 & C2 & C3 & C4 & C5). destruct H0 as (N2 & N2' & P2 & S2 & S2'). rewrite <- C1.
    destruct (tk_cur t2) as [|ch cur] eqn:Ec; [left; reflexivity|].
    assert (T1 : forall c, alike (with_cur t2 c) (with_cur t2' c)) by (intros c; repeat split; cbn; tauto).
    assert (R : forall m c, length c < length (ch :: cur) ->
      rel alike (next_rec fuel (with_multi t2 c m)) (next_rec fuel (with_multi t2' c m)) \/
      (exists u u', next_rec fuel (with_multi t2 c m) = Done (Ok (T_End, u)) /\ next_rec fuel (with_multi t2' c m) = Done (Ok (T_End, u')) /\ ended u /\ ended u')).
    { intros m c Lc. assert (P2' : tk_peeked t2' = []) by congruence. apply IH.
      - right. split; [|split].
        + right. cbn [with_multi tk_peeked tk_line]. rewrite P2. split; [cbn; lia|]. split; [cbn; tauto|tauto].
        + right. cbn [with_multi tk_peeked tk_line]. rewrite P2'. split; [cbn; lia|]. split; [cbn; tauto|tauto].
        + repeat split; cbn [with_multi tk_cur tk_rest tk_peeked tk_multi tk_line]; try assumption; tauto.
      - rewrite !tok_size_eq in *. cbn [with_multi tk_cur tk_rest tk_peeked] in *. rewrite Ec in S2. lia.
      - rewrite !tok_size_eq in *. cbn [with_multi tk_cur tk_rest tk_peeked] in *. rewrite <- C1 in S2'. lia. }
    destruct ((ch =? 32) || (ch =? 9))%N; [left; split; [reflexivity|apply T1]|].
    destruct (ch =? 36)%N eqn:E36.
    { left. unfold process_directive. rewrite E36. cbn [assert_]. destruct (word_loop _ _ _) as [[[d c]|e]|k|]; cbn [bind rel]; auto.
      destruct (bytes_eqb _ _); [split; [reflexivity|apply T1]|]. destruct (bytes_eqb _ _); [split; [reflexivity|apply T1]|reflexivity]. }
    destruct (ch =? 34)%N eqn:E34.
    { left. unfold process_quoted_string. rewrite E34. cbn [assert_]. destruct (quote_loop _ _ _) as [[[[cl s] c]|e]|k|]; cbn [bind rel]; auto.
      destruct cl; [split; [reflexivity|apply T1]|reflexivity]. }
    rewrite <- C3.
    destruct (ch =? 40)%N. { destruct (tk_multi t2); [left; reflexivity|]. apply R. cbn. lia. }
    destruct (ch =? 41)%N. { destruct (tk_multi t2); [|left; reflexivity]. apply R. cbn. lia. }
    destruct (ch =? 59)%N. { specialize (R (tk_multi t2) [] ltac:(cbn; lia)). unfold with_multi in R. unfold with_cur. rewrite <- C3. exact R. }
    left. unfold process_string_or_number. destruct (word_loop _ _ _) as [[[d c]|e]|k|]; cbn [bind rel]; auto.
    destruct (bytes_eqb _ _); [split; [reflexivity|apply T1]|]. destruct (parse_u32 _); (split; [reflexivity|apply T1]).
  - left. cbn. congruence.
Qed.

(** Actions that treat such files alike. *)
Definition simT {A} (m : T A) : Prop := forall t t', sim t t' -> rel sim (m t) (m t').

Lemma sim_next : simT next.
Proof.
  intros t t' SM. destruct (sim_good _ _ SM) as (G & G'). unfold next.
  set (F := S (tok_size t + tok_size t')).
  rewrite (next_rec_fuel (S (tok_size t)) F t), (next_rec_fuel (S (tok_size t')) F t') by (unfold F; lia).
  pose proof (next_rec_facts F t G ltac:(unfold F; lia)) as NF. pose proof (next_rec_facts F t' G' ltac:(unfold F; lia)) as NF'.
  pose proof (next_rec_sim F t t' SM ltac:(unfold F; lia) ltac:(unfold F; lia)) as H. clearbody F. destruct H as [H|(u & u' & -> & -> & D & D')].
  - destruct (next_rec F t) as [[[x u]|e]|k|], (next_rec F t') as [[[x' u']|e']|k'|]; cbn [rel bind] in *; try tauto; try congruence.
    destruct H as (-> & H). split; [reflexivity|]. right. split; [apply NF|]. split; [apply NF'|exact H].
  - cbn [bind rel]. split; [reflexivity|]. left. now split.
Qed.

Lemma sim_ret : forall A (a : A), simT (retT a).
Proof. intros A a t t' S. now split. Qed.
Lemma sim_fail : forall A e, @simT A (failT e).
Proof. intros A e t t' S. reflexivity. Qed.
Lemma sim_panic : forall A k, @simT A (fun _ => Panic k).
Proof. intros A k t t' S. reflexivity. Qed.
Lemma sim_diverge : forall A, @simT A (fun _ => Diverge).
Proof. intros A t t' S. exact I. Qed.
Lemma sim_try : forall A (r : result A zone_err), simT (tryT r).
Proof. intros A [a|e] t t' S; cbn; auto. Qed.
Lemma sim_bind : forall A B (m : T A) (k : A -> T B), simT m -> (forall x, simT (k x)) -> simT (bindTk m k).
Proof.
  intros A B m k Hm Hk t t' S. unfold bindTk. specialize (Hm t t' S).
  destruct (m t) as [[[x u]|e]|kd|], (m t') as [[[x' u']|e']|kd'|]; cbn [rel bindR fst snd] in *; try tauto.
  destruct Hm as (-> & S'). now apply Hk.
Qed.
Lemma sim_skip_blanks : forall f f' t t', sim t t' -> tok_size t < f -> tok_size t' < f' ->
  rel sim (skip_blanks f t) (skip_blanks f' t').
Proof.
  induction f as [|f IH]; intros f' t t' S L L'; [lia|]. destruct f' as [|f']; [lia|]. cbn [skip_blanks]. unfold bindTk.
  destruct (sim_good _ _ S) as (G & G'). pose proof (next_ok t G) as NF. pose proof (next_ok t' G') as NF'.
  pose proof (sim_next t t' S) as H. destruct (next t) as [[[x u]|e]|k|], (next t') as [[[x' u']|e']|k'|]; cbn [rel bindR fst snd] in *; try tauto.
  destruct H as (<- & S'). destruct x; try (now split). destruct NF as (_ & _ & N & _), NF' as (_ & _ & N' & _).
  specialize (N eq_refl). specialize (N' eq_refl). change (rel sim (skip_blanks f u) (skip_blanks f' u')). apply IH; [assumption|lia|lia].
Qed.
Lemma sim_next_after_blanks : simT next_after_blanks.
Proof. intros t t' SM. apply sim_skip_blanks; [exact SM| |]; auto. Qed.
Lemma sim_repeek : forall m, simT m -> (forall t, good t -> next_factsT t (m t)) ->
  simT (fun t => bindR (m t) (fun x => Done (Ok (fst x, with_peeked (snd x) (tk_peeked (snd x) ++ [fst x]))))).
Proof.
  intros m Hm Hg t t' S. destruct (sim_good _ _ S) as (G & G'). 
  pose proof (repeek_ok t m (Hg t G)) as P. pose proof (repeek_ok t' m (Hg t' G')) as P'. specialize (Hm t t' S).
  destruct (m t) as [[[x u]|e]|k|], (m t') as [[[x' u']|e']|k'|]; cbn [rel bindR fst snd bind peek_factsT] in *; try tauto.
  destruct Hm as (<- & S'). split; [reflexivity|].
  assert (C : x = T_End \/ x <> T_End) by (destruct x; (now left) || (right; discriminate)). destruct C as [->|Hx].
  - left. split; [now apply P|now apply P'].
  - destruct S' as [(D & D')|(_ & _ & A1 & A2 & A3 & A4 & A5)].
    + destruct P as (G1 & _ & _ & _ & P). destruct (P Hx) as (Ln & Q). destruct P' as (G1' & _ & _ & _ & P'). destruct (P' Hx) as (Ln' & Q').
      cbn [with_peeked tk_peeked tk_line] in Q, Q', Ln, Ln'.
      destruct D as (D1 & D2 & D3 & _), D' as (D1' & D2' & D3' & _). right. split; [assumption|]. split; [assumption|].
      repeat split; cbn [with_peeked tk_cur tk_rest tk_peeked tk_multi tk_line]; try congruence; lia.
    + right. split; [apply P|]. split; [apply P'|]. repeat split; cbn [with_peeked tk_cur tk_rest tk_peeked tk_multi tk_line]; try assumption; try tauto. congruence.
Qed.
Lemma sim_peek : simT peek.
Proof. exact (sim_repeek next sim_next next_ok). Qed.
Lemma sim_peek_after_blanks : simT peek_after_blanks.
Proof. exact (sim_repeek next_after_blanks sim_next_after_blanks (fun t G => proj1 (next_after_blanks_ok t G))). Qed.
Lemma sim_unwrap : forall m : T token, simT m ->
  simT (fun t => let! r := m t in match r with Ok x => Done (Ok x) | Err _ => Panic PUnwrap end).
Proof.
  intros m Hm t t' SM. specialize (Hm t t' SM).
  destruct (m t) as [[[x u]|e]|k|], (m t') as [[[x' u']|e']|k'|]; cbn [rel bind] in *; try tauto.
Qed.
Lemma sim_next_unwrap : simT next_unwrap.
Proof. exact (sim_unwrap next sim_next). Qed.
Lemma sim_next_after_blanks_unwrap : simT next_after_blanks_unwrap.
Proof. exact (sim_unwrap next_after_blanks sim_next_after_blanks). Qed.
Lemma sim_close : forall A tk (a : A), simT (close_line tk a).
Proof. intros A tk a. destruct tk; first [apply sim_ret|apply sim_fail]. Qed.

Ltac simt := repeat match goal with
  | |- simT (bindTk _ _) => apply sim_bind; [|intros ?; cbv beta]
  | |- simT (retT _) => apply sim_ret
  | |- simT (failT _) => apply sim_fail
  | |- simT (fun _ => Panic _) => apply sim_panic
  | |- simT (fun _ => Diverge) => apply sim_diverge
  | |- simT (tryT _) => apply sim_try
  | |- simT next => apply sim_next
  | |- simT next_unwrap => apply sim_next_unwrap
  | |- simT next_after_blanks => apply sim_next_after_blanks
  | |- simT next_after_blanks_unwrap => apply sim_next_after_blanks_unwrap
  | |- simT peek => apply sim_peek
  | |- simT peek_after_blanks => apply sim_peek_after_blanks
  | |- simT (close_line _ _) => apply sim_close
  | |- simT (let _ := _ in _) => cbv zeta
  | |- simT (match ?x with _ => _ end) => destruct x
  end.

Lemma sim_ttl_class : simT parse_ttl_class.
Proof. unfold parse_ttl_class. simt. Qed.
Lemma sim_discard : forall fuel, simT (discard_strings fuel).
Proof. induction fuel; cbn [discard_strings]; simt. exact IHfuel. Qed.
Lemma sim_txts : forall fuel acc, simT (parse_txts fuel acc).
Proof. induction fuel as [|fuel IH]; intros acc; cbn [parse_txts]; simt; apply IH. Qed.
Lemma sim_name_token : forall o, simT (parse_name_token o).
Proof. intros. unfold parse_name_token. simt. Qed.
Lemma sim_number : simT parse_number.
Proof. unfold parse_number. simt. Qed.
Lemma sim_a : forall n c t, simT (parse_a_record n c t).
Proof. intros. unfold parse_a_record. simt. Qed.
Lemma sim_ns : forall o n c t, simT (parse_ns_record o n c t).
Proof. intros. unfold parse_ns_record. simt. apply sim_name_token. Qed.
Lemma sim_data : forall fuel rt o n c t, simT (parse_record_data fuel rt o n c t).
Proof.
  intros. destruct rt; cbn [parse_record_data]; try apply sim_a; try apply sim_ns; simt.
  - unfold parse_cname_record. simt.
  - unfold parse_wks_record. simt; apply sim_discard.
  - unfold parse_ptr_record. simt.
  - unfold parse_hinfo_record. simt.
  - unfold parse_mx_record. simt; apply sim_name_token.
  - unfold parse_txt_record. simt. apply sim_txts.
Qed.

(** The functions that start by looking at a token that was peeked. *)
Lemma sim_start : forall A (k : result (token * tok) zone_err -> exec (result (A * tok) zone_err)),
  (forall x t t', sim t t' -> rel sim (k (Ok (x, t))) (k (Ok (x, t')))) ->
  (forall e, rel sim (k (Err e)) (k (Err e))) ->
  simT (fun t0 => let! r := next t0 in k r).
Proof.
  intros A k H1 H2 t t' SM. pose proof (sim_next t t' SM) as H.
  destruct (next t) as [[[x u]|e]|kd|], (next t') as [[[x' u']|e']|kd'|]; cbn [rel bind] in *; try tauto.
  - destruct H as (<- & S'). now apply H1.
  - subst. apply H2.
Qed.

Lemma sim_origin : forall s, simT (parse_origin s).
Proof.
  intros s. unfold parse_origin. apply sim_start; [|intros; reflexivity].
  intros x t t' SM. destruct x; try reflexivity.
  match goal with |- rel sim (?m t) _ => assert (H : simT m); [|exact (H t t' SM)] end. simt.
Qed.
Lemma sim_include : forall s, simT (parse_include s).
Proof.
  intros s. unfold parse_include. apply sim_start; [|intros; reflexivity].
  intros x t t' SM. destruct x; try reflexivity.
  match goal with |- rel sim (?m t) _ => assert (H : simT m); [|exact (H t t' SM)] end. simt.
Qed.
Lemma sim_record : forall fuel s, simT (parse_record fuel s).
Proof.
  intros fuel s. unfold parse_record. apply sim_start; [|intros; reflexivity].
  intros x t t' SM.
  match goal with |- rel sim (?m t) _ => assert (H : simT m); [|exact (H t t' SM)] end.
  simt; try apply sim_ttl_class; try apply sim_data.
Qed.
Lemma sim_sub_record : forall z a b, simT (parse_sub_record z a b).
Proof.
  intros z a b. unfold parse_sub_record. apply sim_start; [|intros; reflexivity].
  intros x t t' SM.
  match goal with |- rel sim (?m t) _ => assert (H : simT m); [|exact (H t t' SM)] end.
  simt; try apply sim_ttl_class; try apply sim_a; try apply sim_ns.
Qed.
Lemma sim_soa : forall o n c t, simT (parse_soa_record o n c t).
Proof. intros. unfold parse_soa_record. simt; try apply sim_name_token; apply sim_number. Qed.
Lemma sim_starting_soa : forall s, simT (parse_starting_soa_record s).
Proof.
  intros s. unfold parse_starting_soa_record. simt; try apply sim_ttl_class; apply sim_soa.
Qed.

(** Two file systems whose files differ only in idle lines. *)
Definition fs_alike (fs fs' : filesys) : Prop := forall path,
  match fs path, fs' path with
  | Some f, Some f' => strip f = strip f'
  | None, None => True
  | _, _ => False
  end.

Lemma rel_bind_eq : forall A B E S (m m' : exec (result (A * S) E)) (R : S -> S -> Prop) (k k' : A * S -> exec (result B E)),
  rel R m m' -> (forall x t t', R t t' -> k (x, t) = k' (x, t')) -> bindR m k = bindR m' k'.
Proof.
  intros A B E S m m' R k k' H Hk.
  destruct m as [[[x u]|e]|kd|], m' as [[[x' u']|e']|kd'|]; cbn [rel] in H; try tauto; subst; try reflexivity.
  destruct H as (<- & H). now apply Hk.
Qed.

Lemma parse_entries_sim : forall fs fs', fs_alike fs fs' -> forall fuel s acc t t', sim t t' ->
  parse_entries fs fuel s acc t = parse_entries fs' fuel s acc t'.
Proof.
  intros fs fs' Hfs. induction fuel as [|fuel IH]; intros s acc t t' SM; [reflexivity|]. cbn [parse_entries].
  eapply rel_bind_eq; [exact (sim_peek t t' SM)|]. intros x u u' SM'.
  assert (E : forall m, simT m -> bindR (m u) (fun y => match y with
          | (ZOrigin o, t2) => parse_entries fs fuel (with_orig s o) acc t2
          | (ZInclude path o, t2) =>
              match fs path with
              | None => Done (Err ZE_ReadingErr)
              | Some f =>
                  bindR (parse_entries fs fuel (mkPS (ps_zone s) (ps_subs s) o (ps_ttl s) (ps_min s))
                           (zone_new (ps_zone s)) (tok_new f)) (fun z =>
                  parse_entries fs fuel s (zone_extend acc z) t2)
              end
          | (ZRecord r, t2) => parse_entries fs fuel (with_ttl s (r_ttl r)) (zone_insert acc r) t2
          end) = bindR (m u') (fun y => match y with
          | (ZOrigin o, t2) => parse_entries fs' fuel (with_orig s o) acc t2
          | (ZInclude path o, t2) =>
              match fs' path with
              | None => Done (Err ZE_ReadingErr)
              | Some f =>
                  bindR (parse_entries fs' fuel (mkPS (ps_zone s) (ps_subs s) o (ps_ttl s) (ps_min s))
                           (zone_new (ps_zone s)) (tok_new f)) (fun z =>
                  parse_entries fs' fuel s (zone_extend acc z) t2)
              end
          | (ZRecord r, t2) => parse_entries fs' fuel (with_ttl s (r_ttl r)) (zone_insert acc r) t2
          end)).
  { intros m Hm. eapply rel_bind_eq; [exact (Hm u u' SM')|]. intros [o|path o|r] v v' SV.
    - now apply IH.
    - specialize (Hfs path). destruct (fs path) as [f|], (fs' path) as [f'|]; try tauto.
      rewrite (IH _ _ (tok_new f) (tok_new f')) by now apply sim_new.
      destruct (parse_entries fs' fuel _ _ (tok_new f')) as [[z|e]|k|]; cbn [bindR]; auto. now apply IH.
    - now apply IH. }
  destruct x; try reflexivity.
  - apply E, sim_origin.
  - apply E, sim_include.
  - apply E, sim_record.
  - apply E, sim_record.
  - apply E, sim_record.
Qed.

Lemma parse_sub_entries_sim : forall fuel zn ttl mn acc t t', sim t t' ->
  parse_sub_entries fuel zn ttl mn acc t = parse_sub_entries fuel zn ttl mn acc t'.
Proof.
  induction fuel as [|fuel IH]; intros zn ttl mn acc t t' SM; [reflexivity|]. cbn [parse_sub_entries].
  eapply rel_bind_eq; [exact (sim_peek t t' SM)|]. intros x u u' SM'.
  destruct x; try reflexivity; (eapply rel_bind_eq; [exact (sim_sub_record zn ttl mn u u' SM')|]; intros r v v' SV; cbn [fst snd]; now apply IH).
Qed.

Lemma parse_zone_files_sim : forall p fs fs' fuel c, fs_alike fs fs' ->
  parse_zone_files p fs fuel c = parse_zone_files p fs' fuel c.
Proof.
  intros p fs fs' fuel c Hfs. unfold parse_zone_files.
  assert (A : parse_auth_zone_file fs fuel c = parse_auth_zone_file fs' fuel c).
  { unfold parse_auth_zone_file. pose proof (Hfs (p_path c)) as H. destruct (fs (p_path c)) as [f|], (fs' (p_path c)) as [f'|]; try tauto.
    cbv zeta. eapply rel_bind_eq; [apply sim_starting_soa; apply sim_new; exact H|]. intros [soa mn] t t' SM.
    rewrite (parse_entries_sim fs fs' Hfs fuel _ _ t t' SM). reflexivity. }
  assert (B : parse_sub_zone_files fs fuel (p_subs c) = parse_sub_zone_files fs' fuel (p_subs c)).
  { induction (p_subs c) as [|s ss IH]; [reflexivity|]. cbn [parse_sub_zone_files].
    assert (parse_sub_zone_file fs fuel s = parse_sub_zone_file fs' fuel s) as ->.
    { unfold parse_sub_zone_file. pose proof (Hfs (sp_path s)) as H. destruct (fs (sp_path s)) as [f|], (fs' (sp_path s)) as [f'|]; try tauto.
      apply parse_sub_entries_sim. now apply sim_new. }
    now rewrite IH. }
  now rewrite A, B.
Qed.
