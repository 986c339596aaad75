(** C44, C45: the tokenizer. *)
From Verif Require Import Base Types Name NameSpec Codec Zone Tokens Parser TokenSpec TokenProofs TokenSim.

Lemma file_size_rest : forall f, rest_size f <= file_size f.
Proof.
  unfold file_size. induction f as [|o f IH]; [cbn; lia|]. rewrite rest_size_cons. cbn [map list_sum fold_right length].
  change (fold_right Nat.add 0 ?l) with (list_sum l). destruct o; cbn [line_size]; lia.
Qed.

Lemma reads_plain : forall n t, good t -> plain t -> tok_size t <= n ->
  exists ts o, reads t ts o /\ length ts <= tok_size t.
Proof.
  induction n as [|n IH]; intros t G P L; pose proof (next_ok t G) as F; destruct (next t) as [[[x t']|e]|k|] eqn:En; try (now destruct F).
  - destruct F as (G' & F1 & _ & F3 & _). destruct (F3 P) as (P' & [->|F4]); [|lia].
    exists [], None. split; [now apply reads_end with t'|cbn; lia].
  - exists [], (Some e). split; [now apply reads_err|cbn; lia].
  - destruct F as (G' & F1 & _ & F3 & _). destruct (F3 P) as (P' & [->|F4]).
    + exists [], None. split; [now apply reads_end with t'|cbn; lia].
    + destruct (IH t' G' P' ltac:(lia)) as (ts & o & R & Ln).
      assert (C : x = T_End \/ x <> T_End) by (destruct x; (now left) || (right; discriminate)). destruct C as [->|Hx].
      * exists [], None. split; [now apply reads_end with t'|cbn; lia].
      * exists (x :: ts), o. split; [eapply reads_token; eassumption|cbn [length]; lia].
  - exists [], (Some e). split; [now apply reads_err|cbn; lia].
Qed.

Lemma reads_det : forall t ts o, reads t ts o -> forall ts' o', reads t ts' o' -> ts = ts' /\ o = o'.
Proof.
  induction 1 as [t t1 E|t e E|t x t1 ts o E Hx R IH]; intros ts' o' R'; inversion R'; subst; try congruence.
  - split; congruence.
  - split; congruence.
  - assert (x0 = x /\ t' = t1) as (-> & ->) by (split; congruence). destruct (IH _ _ H1) as (-> & ->). now split.
Qed.

(** On plain files the tokenizer delivers a finite sequence of tokens, no longer than
    the file, and then the end of the file or an error: no panic, no endless loop. *)
Theorem C44_tokenizer_total : forall f, plain_file f ->
  exists ts o, reads (tok_new f) ts o /\ length ts <= file_size f.
Proof.
  intros f P. destruct (reads_plain (tok_size (tok_new f)) (tok_new f)) as (ts & o & R & L).
  - apply good_new.
  - split; [constructor|exact P].
  - apply le_n.
  - exists ts, o. split; [exact R|]. rewrite tok_size_eq in L. cbn [tok_new tk_cur tk_rest tk_peeked length] in L.
    pose proof (file_size_rest f). lia.
Qed.
Print Assumptions C44_tokenizer_total.

(** The sequence is unique, and after the end there is only the end. *)
Theorem C44_sequence_is_unique : forall f ts o ts' o',
  reads (tok_new f) ts o -> reads (tok_new f) ts' o' -> ts = ts' /\ o = o'.
Proof. intros f ts o ts' o' R R'. exact (reads_det _ _ _ R _ _ R'). Qed.
Print Assumptions C44_sequence_is_unique.

(** How tokens look: the example reads as expected. *)
Fixpoint token_list (fuel : nat) (t : tok) : option (list token * option zone_err) :=
  match fuel with
  | 0 => None
  | S fuel' =>
      match next t with
      | Done (Ok (T_End, _)) => Some ([], None)
      | Done (Ok (x, t')) => match token_list fuel' t' with Some (ts, o) => Some (x :: ts, o) | None => None end
      | Done (Err e) => Some ([], Some e)
      | _ => None
      end
  end.
Lemma token_list_reads : forall fuel t ts o, token_list fuel t = Some (ts, o) -> reads t ts o.
Proof.
  induction fuel as [|fuel IH]; intros t ts o E; [discriminate|]. cbn [token_list] in E.
  destruct (next t) as [[[x t']|e]|k|] eqn:En; try discriminate.
  - destruct x; try (destruct (token_list fuel t') as [[ts' o']|] eqn:El; [|discriminate];
      match type of E with Some (?y :: _, _) = _ =>
        assert (ts = y :: ts' /\ o = o') as (-> & ->) by (split; congruence); apply IH in El;
        eapply reads_token; [exact En|discriminate|exact El] end).
    assert (ts = [] /\ o = None) as (-> & ->) by (split; congruence). eapply reads_end. exact En.
  - assert (ts = [] /\ o = Some e) as (-> & ->) by (split; congruence). now apply reads_err.
Qed.

Definition ex_lines : file := [Some (s2b "  ; a comment"); Some (s2b "www ( 300"); Some (s2b " ; x"); Some (s2b "IN) TXT ""a b"" @")].
Theorem C44_nonvacuous : plain_file ex_lines /\
  reads (tok_new ex_lines)
    [T_String (s2b "www"); T_Blank; T_Blank; T_Number 300; T_String (s2b "IN"); T_Blank; T_String (s2b "TXT"); T_Blank; T_QString (s2b "a b"); T_Blank; T_At] None.
Proof.
  split.
  - repeat (apply Forall_cons; [repeat (apply Forall_cons; [split; [discriminate|vm_compute; intros; (now left) || discriminate]|]); apply Forall_nil|]). apply Forall_nil.
  - apply (token_list_reads 20). vm_compute. reflexivity.
Qed.

(** * C45 *)
Lemma strip_idle : forall f1 l f2, idle_line l -> strip (f1 ++ Some l :: f2) = strip (f1 ++ f2).
Proof.
  intros f1 l f2 H. apply has_content_idle in H. unfold strip. rewrite !filter_app. cbn [filter]. now rewrite H.
Qed.

Lemma reads_sim : forall t ts o, reads t ts o -> forall t', sim t t' -> reads t' ts o.
Proof.
  induction 1 as [t t1 E|t e E|t x t1 ts o E Hx R IH]; intros t' SM; pose proof (sim_next t t' SM) as H; rewrite E in H; cbn [rel] in H;
    destruct (next t') as [[[x' u']|e']|k|] eqn:En; try tauto.
  - destruct H as (<- & _). eapply reads_end. exact En.
  - subst. now apply reads_err.
  - destruct H as (<- & S). eapply reads_token; [exact En|exact Hx|now apply IH].
Qed.

(** Inserting (left to right) or deleting an idle line anywhere leaves the sequence of
    tokens, and the error if there is one, as they were. *)
Theorem C45_idle_lines_are_invisible : forall f1 l f2 ts o, idle_line l ->
  (reads (tok_new (f1 ++ f2)) ts o <-> reads (tok_new (f1 ++ Some l :: f2)) ts o).
Proof.
  intros f1 l f2 ts o H. pose proof (strip_idle f1 l f2 H) as E. split; intros R; eapply reads_sim; try exact R; apply sim_new; auto.
Qed.
Print Assumptions C45_idle_lines_are_invisible.

(** And so the zones loaded are the same, whichever file of a configuration (included
    ones too) is edited in this way, the same error is reported (its line number is not
    modelled), and panics and endless loops are kept. *)
Definition edited (fs fs' : filesys) (path : list N) : Prop :=
  (forall q, q <> path -> fs' q = fs q) /\
  exists f1 l f2, idle_line l /\ fs path = Some (f1 ++ f2) /\ fs' path = Some (f1 ++ Some l :: f2).

Theorem C45_loading_ignores_idle_lines : forall p fs fs' path fuel c, edited fs fs' path ->
  parse_zone_files p fs fuel c = parse_zone_files p fs' fuel c.
Proof.
  intros p fs fs' path fuel c (H1 & f1 & l & f2 & H2 & H3 & H4). apply parse_zone_files_sim. intros q.
  destruct (list_eq_dec N.eq_dec q path) as [->|Hq].
  - rewrite H3, H4. symmetry. now apply strip_idle.
  - rewrite (H1 q Hq). now destruct (fs q).
Qed.
Print Assumptions C45_loading_ignores_idle_lines.

Theorem C45_nonvacuous : idle_line [] /\ idle_line (s2b "  ") /\ idle_line (s2b "	; comment (with "" $ORIGIN") /\ ~ idle_line (s2b " x ; y").
Proof.
  rewrite <- !has_content_idle. repeat split; try reflexivity. vm_compute. discriminate.
Qed.
