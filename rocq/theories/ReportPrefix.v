(** The lines before the reported one, read alone; and files that agree up to that line. *)
From Verif Require Import Base Types Name NameSpec Codec Zone Tokens Parser TokenSpec TokenProofs TokenSim PropCodec3 Report ReportErase ReportSim ReportNear ReportOwn ReportWithin.

Lemma bnd_hd : forall f t, no_paren_first f -> bnd f t -> hd 0%N (tk_cur t) <> 40%N.
Proof. intros f t NP (E & _). exact (NP _ (nth_error_In _ _ E)). Qed.
Lemma own_not_ended : forall fs fuel s acc t e n, own fs fuel s acc t e n -> ~ ended t.
Proof.
  intros fs fuel s acc t e n H D. destruct (ended_next t D) as (u & Eu & _).
  assert (P : exists u', peek t = Done (Ok (T_End, u'))). { unfold peek. rewrite Eu. cbn [bindR bind fst snd]. eexists. reflexivity. }
  destruct P as (u' & P). destruct H as [fuel s acc t e Q|fuel s acc t x t1 e Q Hx E|fuel s acc t x t1 z t2 s' acc' e n Q Hx E G H]; congruence.
Qed.
Lemma own_peeks : forall fs fuel s acc t e n, own fs fuel s acc t e n -> exists k, fuel = S k.
Proof. intros fs fuel s acc t e n H. destruct H; eexists; reflexivity. Qed.
Lemma ended_entries : forall fs fuel path s acc t, ended t -> parse_entries_at fs (S fuel) path s acc t = Done (Ok acc).
Proof.
  intros fs fuel path s acc t D. destruct (ended_next t D) as (u & Eu & _). rewrite entries_step. unfold peek. rewrite Eu. reflexivity.
Qed.
Lemma after_nil : forall B t, after B [] t -> ended t.
Proof. intros B t (_ & _ & _ & [D|(H & _)]); [exact D|now destruct H]. Qed.
Lemma esc_peek : forall f0 B strict t, bnd f0 t -> tk_peeked t = [] -> 1 <= tk_line t -> tk_line t <= B -> no_paren_first f0 -> good t ->
  forall x t1, peek t = Done (Ok (x, t1)) -> x <> T_End -> ~ esc strict (S B) (peek t).
Proof.
  intros f0 B strict t Hb P L LB NP G x t1 Ep Hx (_ & H). rewrite Ep in H. destruct H as (G1 & L1 & Lt1).
  destruct (peek_bnd f0 t x t1 Hb P L (bnd_hd _ _ NP Hb) Ep) as (El & _). destruct Lt1 as [D|Lt1]; [|lia]. exact (not_ended t x t1 G Ep Hx D).
Qed.

(** The lines before. *)
Lemma before : forall f0 B r, readable r -> no_paren_first f0 -> forall fs fuel s acc t e n, own fs fuel s acc t e n -> n = S B ->
  forall t', W f0 B r [] False t t' -> bnd f0 t -> tk_peeked t = [] -> forall path, exists z, parse_entries_at fs fuel path s acc t' = Done (Ok z).
Proof.
  intros f0 B r Rr NP fs fuel s acc t e n H. induction H as [fuel s acc t e P|fuel s acc t x t1 e P Hx E|fuel s acc t x t1 z t2 s' acc' e n P Hx E G H IH]; intros En t' HW Hb Pt path.
  - destruct (w_rest _ _ _ _ _ _ _ HW) as (c & _ & _ & Lc & _). lia.
  - destruct (w_rest _ _ _ _ _ _ _ HW) as (c & _ & _ & Lc & _). destruct (peek_bnd f0 t x t1 Hb Pt (w_pos _ _ _ _ _ _ _ HW) (bnd_hd _ _ NP Hb) P) as (El & _). lia.
  - assert (LB : tk_line t <= B) by (destruct (w_rest _ _ _ _ _ _ _ HW) as (c & _ & _ & Lc & _); lia).
    destruct (w_good _ _ _ _ _ _ _ HW) as (Gt & _). pose proof (w_pos _ _ _ _ _ _ _ HW) as L1.
    destruct (peek_bnd f0 t x t1 Hb Pt L1 (bnd_hd _ _ NP Hb) P) as (El & Ex).
    destruct (peek_near f0 B r [] False Rr ltac:(constructor) t t' HW) as [Q|Q].
    2:{ exfalso. exact (esc_peek f0 B False t Hb Pt L1 LB NP Gt x t1 P Hx Q). }
    rewrite P in Q. destruct (peek t') as [[[x' t1']|e']|kd|] eqn:P'; try contradiction.
    destruct Q as [(<- & _ & P1 & HW1)|(X & _)]; [|congruence].
    pose proof (fin_entry f0 B r [] False Rr ltac:(constructor) fuel s x t1 t1' HW1 P1) as Q. destruct Q as [Q|Q].
    + rewrite E in Q. destruct (entry fuel s x t1') as [[[z' t2']|e']|kd|] eqn:E'; try contradiction. destruct Q as (<- & Q).
      assert (K : exists zz, parse_entries_at fs fuel path s' acc' t2' = Done (Ok zz)).
      { destruct Q as [(HW2 & P2 & Hb2)|(_ & A)]; [now apply (IH En)|]. destruct (own_peeks _ _ _ _ _ _ _ H) as (k & ->). exists acc'. apply ended_entries. exact (after_nil _ _ A). }
      destruct K as (zz & K). exists zz. rewrite (step_ok fs fuel path s acc t' x t1' z t2' P' Hx E'), (step_more fs fuel path s acc z s' acc' t2' G). exact K.
    + exfalso. destruct Q as (_ & Q). rewrite E in Q. destruct Q as (G2 & L2 & Lt2). pose proof (own_late _ _ _ _ _ _ _ H G2 L2 _ Lt2). lia.
Qed.

(** And the line itself. *)
Definition no_paren_on (n : nat) (f : file) : Prop := forall l, nth_error f (pred n) = Some (Some l) -> ~ In 40%N l.
Lemma w_now : forall f0 B r r' t t', W f0 B r r' False t t' -> bnd f0 t -> tk_line t = B -> no_paren_on B f0 -> W f0 B r r' True t t'.
Proof.
  intros f0 B r r' t t' [(c & C1 & C2 & C3 & C4 & C5) H2 H3 H4 H5 H6 H7 H8 H9 H10 H11] (Hn & Hc & Hm) El NP.
  split; try assumption.
  - exists c. repeat split; try assumption. intros _. assert (c = []) as -> by (destruct c; [reflexivity|cbn in C3; lia]). constructor.
  - intros _. split; [exact Hm|]. apply NP. rewrite <- El. exact Hn.
Qed.
Definition peeks (t : tok) : Prop := exists x t1, peek t = Done (Ok (x, t1)).
Lemma at_line : forall f0 B r r', readable r -> readable r' -> no_paren_first f0 -> no_paren_on B f0 ->
  forall fs fuel s acc t e n, own fs fuel s acc t e n -> n = B ->
  forall t', W f0 B r r' False t t' -> bnd f0 t -> tk_peeked t = [] -> (exists e', own fs fuel s acc t' e' B) /\ (peeks t -> peeks t').
Proof.
  intros f0 B r r' Rr Rr' NP NB fs fuel s acc t e n H. induction H as [fuel s acc t e P|fuel s acc t x t1 e P Hx E|fuel s acc t x t1 z t2 s' acc' e n P Hx E G H IH]; intros En t' HW Hb Pt.
  - pose proof (w_now _ _ _ _ _ _ HW Hb En NB) as HS. destruct (peek_near f0 B r r' True Rr Rr' t t' HS) as [Q|(Ns & _)]; [|now destruct Ns].
    rewrite P in Q. destruct (peek t') as [[y|e']|kd|] eqn:P'; try contradiction.
    split; [|intros (x & t1 & X); congruence]. exists e'. rewrite <- En, (w_line _ _ _ _ _ _ _ HS). now constructor.
  - pose proof (w_pos _ _ _ _ _ _ _ HW) as L1. destruct (peek_bnd f0 t x t1 Hb Pt L1 (bnd_hd _ _ NP Hb) P) as (El & Ex).
    assert (Et : tk_line t = B) by lia.
    pose proof (w_now _ _ _ _ _ _ HW Hb Et NB) as HS. destruct (peek_near f0 B r r' True Rr Rr' t t' HS) as [Q|(Ns & _)]; [|now destruct Ns].
    rewrite P in Q. destruct (peek t') as [[[x' t1']|e']|kd|] eqn:P'; try contradiction.
    destruct Q as [(<- & _ & P1 & HW1)|(X & _)]; [|congruence].
    destruct (fin_entry f0 B r r' True Rr Rr' fuel s x t1 t1' HW1 P1) as [Q|(Ns & _)]; [|now destruct Ns].
    rewrite E in Q. destruct (entry fuel s x t1') as [[y|e']|kd|] eqn:E'; try contradiction.
    split; [|intros _; now exists x, t1']. exists e'. rewrite <- En, (w_line _ _ _ _ _ _ _ HW1). now apply (own_entry fs fuel s acc t' x).
  - assert (LB : tk_line t <= B) by (destruct (w_rest _ _ _ _ _ _ _ HW) as (c & _ & _ & Lc & _); lia).
    destruct (w_good _ _ _ _ _ _ _ HW) as (Gt & _). pose proof (w_pos _ _ _ _ _ _ _ HW) as L1.
    destruct (peek_bnd f0 t x t1 Hb Pt L1 (bnd_hd _ _ NP Hb) P) as (El & Ex).
    destruct (peek_near f0 B r r' False Rr Rr' t t' HW) as [Q|Q].
    2:{ exfalso. exact (esc_peek f0 B False t Hb Pt L1 LB NP Gt x t1 P Hx Q). }
    rewrite P in Q. destruct (peek t') as [[[x' t1']|e']|kd|] eqn:P'; try contradiction.
    destruct Q as [(<- & _ & P1 & HW1)|(X & _)]; [|congruence].
    assert (Gk : good t2 /\ 1 <= tk_line t2).
    { destruct (w_good _ _ _ _ _ _ _ HW1) as (G1 & _). pose proof (w_pos _ _ _ _ _ _ _ HW1) as L3.
      assert (L0 : late 0 t1) by (right; unfold pend; rewrite P1; cbn [existsb]; rewrite Ex; cbn; lia).
      destruct (late_entry fuel s x 0 t1 z t2 G1 L3 L0 E) as (A & A' & _). now split. }
    destruct Gk as (G2 & L2).
    destruct (fin_entry f0 B r r' False Rr Rr' fuel s x t1 t1' HW1 P1) as [Q|Q].
    + rewrite E in Q. destruct (entry fuel s x t1') as [[[z' t2']|e']|kd|] eqn:E'; try contradiction. destruct Q as (<- & Q).
      destruct Q as [(HW2 & P2 & Hb2)|(A & _)].
      * destruct (IH En t2' HW2 Hb2 P2) as ((e' & O) & _). split; [|intros _; now exists x, t1']. exists e'. exact (own_next fs fuel s acc t' x t1' z t2' s' acc' e' B P' Hx E' G O).
      * exfalso. destruct A as (Pe & _ & _ & [D|(_ & Lt & _)]); [exact (own_not_ended _ _ _ _ _ _ _ H D)|].
        assert (Lt2 : late (S B) t2) by (right; rewrite (pend_nil _ Pe); lia). pose proof (own_late _ _ _ _ _ _ _ H G2 L2 _ Lt2). lia.
    + exfalso. destruct Q as (_ & Q). rewrite E in Q. destruct Q as (_ & _ & Lt2). pose proof (own_late _ _ _ _ _ _ _ H G2 L2 _ Lt2). lia.
Qed.
