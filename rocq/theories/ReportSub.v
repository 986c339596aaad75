(** The same for the loop over the file of a sub-zone (parser_sub.rs:39-74). *)
From Verif Require Import Base Types Name NameSpec Codec Zone Tokens Parser TokenSpec TokenProofs TokenSim PropCodec3 Report ReportErase ReportSim ReportNear ReportOwn ReportWithin ReportPrefix ReportStart.

Definition sub_entry (zn : name) (ttl mn : N) (x : token) (t1 : tok) : exec (result (record * tok) zone_err) :=
  match x with T_String _ | T_At | T_Blank => parse_sub_record zn ttl mn t1 | _ => Done (Err (ZE_UnexpectedToken x)) end.
Inductive owns (zn : name) (mn : N) : nat -> N -> zone -> tok -> zone_err -> nat -> Prop :=
| owns_peek : forall fuel ttl acc t e, peek t = Done (Err e) -> owns zn mn (S fuel) ttl acc t e (tk_line t)
| owns_entry : forall fuel ttl acc t x t1 e, peek t = Done (Ok (x, t1)) -> x <> T_End -> sub_entry zn ttl mn x t1 = Done (Err e) -> owns zn mn (S fuel) ttl acc t e (tk_line t1)
| owns_next : forall fuel ttl acc t x t1 r t2 e n, peek t = Done (Ok (x, t1)) -> x <> T_End -> sub_entry zn ttl mn x t1 = Done (Ok (r, t2)) ->
    owns zn mn fuel (r_ttl r) (zone_insert acc r) t2 e n -> owns zn mn (S fuel) ttl acc t e n.
Lemma sub_step : forall fuel path zn ttl mn acc t, parse_sub_entries_at (S fuel) path zn ttl mn acc t =
  bindR (placed (At_line path (tk_line t)) (peek t)) (fun x =>
    match fst x with T_End => Done (Ok acc) | _ => bindR (placed (At_line path (tk_line (snd x))) (sub_entry zn ttl mn (fst x) (snd x)))
      (fun y => parse_sub_entries_at fuel path zn (r_ttl (fst y)) mn (zone_insert acc (fst y)) (snd y)) end).
Proof.
  intros fuel path zn ttl mn acc t. cbn [parse_sub_entries_at]. destruct (peek t) as [[[x t1]|e]|k|]; cbn [placed bind bindR fst snd]; try reflexivity.
  destruct x; reflexivity.
Qed.
Lemma sub_step_ok : forall fuel path zn ttl mn acc t x t1 r t2, peek t = Done (Ok (x, t1)) -> x <> T_End -> sub_entry zn ttl mn x t1 = Done (Ok (r, t2)) ->
  parse_sub_entries_at (S fuel) path zn ttl mn acc t = parse_sub_entries_at fuel path zn (r_ttl r) mn (zone_insert acc r) t2.
Proof.
  intros fuel path zn ttl mn acc t x t1 r t2 P Hx E. rewrite sub_step, P. cbn [placed bind bindR fst snd]. rewrite E. cbn [placed bind bindR]. destruct x; try reflexivity. now destruct Hx.
Qed.
Lemma owns_error : forall zn mn fuel ttl acc t e n, owns zn mn fuel ttl acc t e n -> forall path, parse_sub_entries_at fuel path zn ttl mn acc t = Done (Err (e, At_line path n)).
Proof.
  intros zn mn fuel ttl acc t e n H. induction H as [fuel ttl acc t e P|fuel ttl acc t x t1 e P Hx E|fuel ttl acc t x t1 r t2 e n P Hx E H IH]; intros path.
  - rewrite sub_step, P. reflexivity.
  - rewrite sub_step, P. cbn [placed bind bindR fst snd]. rewrite E. cbn [placed bind bindR]. destruct x; try reflexivity. now destruct Hx.
  - rewrite (sub_step_ok fuel path zn ttl mn acc t x t1 r t2 P Hx E). apply IH.
Qed.
Lemma error_owns : forall zn mn fuel path ttl acc t e P n, parse_sub_entries_at fuel path zn ttl mn acc t = Done (Err (e, At_line P n)) -> P = path /\ owns zn mn fuel ttl acc t e n.
Proof.
  intros zn mn. induction fuel as [|fuel IH]; intros path ttl acc t e P n H; [discriminate H|].
  rewrite sub_step in H. destruct (peek t) as [[[x t1]|e']|k|] eqn:Ep; cbn [placed bind bindR fst snd] in H; try discriminate H.
  2:{ assert (e' = e /\ path = P /\ tk_line t = n) as (-> & -> & <-) by (repeat split; congruence). split; [reflexivity|now constructor]. }
  assert (C : x = T_End \/ x <> T_End) by (destruct x; (now left) || (right; discriminate)). destruct C as [->|Hx]; [discriminate H|].
  assert (H' : bindR (placed (At_line path (tk_line t1)) (sub_entry zn ttl mn x t1)) (fun y => parse_sub_entries_at fuel path zn (r_ttl (fst y)) mn (zone_insert acc (fst y)) (snd y)) = Done (Err (e, At_line P n)))
    by (destruct x; try exact H; now destruct Hx). clear H.
  destruct (sub_entry zn ttl mn x t1) as [[[r t2]|e']|k|] eqn:Ee; cbn [placed bind bindR fst snd] in H'; try discriminate H'.
  - destruct (IH path _ _ t2 e P n H') as (-> & O). split; [reflexivity|]. now apply (owns_next zn mn fuel ttl acc t x t1 r t2).
  - assert (e' = e /\ path = P /\ tk_line t1 = n) as (-> & -> & <-) by (repeat split; congruence). split; [reflexivity|]. now apply (owns_entry zn mn fuel ttl acc t x).
Qed.
Lemma late_sub_entry : forall zn ttl mn x, lateT (sub_entry zn ttl mn x).
Proof. intros zn ttl mn x. destruct x; cbn [sub_entry]; try apply late_sub_record; intros k t a t1 _ _ _ E; discriminate E. Qed.
Lemma stays_sub_entry : forall L zn ttl mn x, stays L (sub_entry zn ttl mn x).
Proof. intros L zn ttl mn x. destruct x; cbn [sub_entry]; try apply stays_sub_record; intros t a t1 _ E; discriminate E. Qed.
Lemma fin_sub_entry : forall f0 B r r' strict, readable r -> readable r' -> forall zn ttl mn x t t', W f0 B r r' strict t t' -> tk_peeked t = [x] ->
  finrel f0 B r r' strict (sub_entry zn ttl mn x t) (sub_entry zn ttl mn x t').
Proof.
  intros f0 B r r' strict Rr Rr' zn ttl mn x t t' HW P. destruct x; cbn [sub_entry]; try (now left).
  - now apply (fin_sub_record f0 B r r' strict Rr Rr' zn ttl mn _ t t' HW P).
  - now apply (fin_sub_record f0 B r r' strict Rr Rr' zn ttl mn _ t t' HW P).
  - now apply (fin_sub_record f0 B r r' strict Rr Rr' zn ttl mn _ t t' HW P).
Qed.
Section Sub.
  Variable zn : name. Variable mn : N.
  Lemma owns_late : forall fuel ttl acc t e n, owns zn mn fuel ttl acc t e n -> good t -> 1 <= tk_line t -> forall k, late k t -> k <= n.
  Proof.
    intros fuel ttl acc t e n H. induction H as [fuel ttl acc t e P|fuel ttl acc t x t1 e P Hx E|fuel ttl acc t x t1 r t2 e n P Hx E H IH]; intros Gt L k Lt.
    - destruct Lt as [D|Lt]; [|lia]. exfalso. unfold peek in P. destruct (ended_next t D) as (u & Eu & _). rewrite Eu in P. discriminate P.
    - destruct (late_peek k t x t1 Gt L Lt P) as (G1 & L1 & [D|Lt1]); [|lia]. now apply (not_ended t x t1) in D.
    - destruct (late_peek k t x t1 Gt L Lt P) as (G1 & L1 & Lt1). destruct (late_sub_entry zn ttl mn x k t1 r t2 G1 L1 Lt1 E) as (G2 & L2 & Lt2). now apply IH.
  Qed.
  Lemma owns_within : forall L fuel ttl acc t e n, owns zn mn fuel ttl acc t e n -> within L t -> n <= L.
  Proof.
    intros L fuel ttl acc t e n H. induction H as [fuel ttl acc t e P|fuel ttl acc t x t1 e P Hx E|fuel ttl acc t x t1 r t2 e n P Hx E H IH]; intros Wt.
    - unfold within in Wt. lia.
    - apply (stays_peek L t x t1 Wt) in P. unfold within in P. lia.
    - apply IH. exact (stays_sub_entry L zn ttl mn x t1 r t2 (stays_peek L t x t1 Wt P) E).
  Qed.
  Lemma owns_not_ended : forall fuel ttl acc t e n, owns zn mn fuel ttl acc t e n -> ~ ended t.
  Proof.
    intros fuel ttl acc t e n H D. destruct (ended_next t D) as (u & Eu & _).
    assert (P : exists u', peek t = Done (Ok (T_End, u'))). { unfold peek. rewrite Eu. cbn [bindR bind fst snd]. eexists. reflexivity. }
    destruct P as (u' & P). destruct H as [fuel ttl acc t e Q|fuel ttl acc t x t1 e Q Hx E|fuel ttl acc t x t1 r t2 e n Q Hx E H]; congruence.
  Qed.
  Lemma owns_peeks : forall fuel ttl acc t e n, owns zn mn fuel ttl acc t e n -> exists k, fuel = S k.
  Proof. intros fuel ttl acc t e n H. destruct H; eexists; reflexivity. Qed.
  Lemma ended_subs : forall fuel path ttl acc t, ended t -> parse_sub_entries_at (S fuel) path zn ttl mn acc t = Done (Ok acc).
  Proof. intros fuel path ttl acc t D. destruct (ended_next t D) as (u & Eu & _). rewrite sub_step. unfold peek. rewrite Eu. reflexivity. Qed.

  Lemma sub_before : forall f0 B r, readable r -> no_paren_first f0 -> forall fuel ttl acc t e n, owns zn mn fuel ttl acc t e n -> n = S B ->
    forall t', W f0 B r [] False t t' -> bnd f0 t -> tk_peeked t = [] -> forall path, exists z, parse_sub_entries_at fuel path zn ttl mn acc t' = Done (Ok z).
  Proof.
    intros f0 B r Rr NP fuel ttl acc t e n H. induction H as [fuel ttl acc t e P|fuel ttl acc t x t1 e P Hx E|fuel ttl acc t x t1 z t2 e n P Hx E H IH]; intros En t' HW Hb Pt path.
    - destruct (w_rest _ _ _ _ _ _ _ HW) as (c & _ & _ & Lc & _). lia.
    - destruct (w_rest _ _ _ _ _ _ _ HW) as (c & _ & _ & Lc & _). destruct (peek_bnd f0 t x t1 Hb Pt (w_pos _ _ _ _ _ _ _ HW) (bnd_hd _ _ NP Hb) P) as (El & _). lia.
    - assert (LB : tk_line t <= B) by (destruct (w_rest _ _ _ _ _ _ _ HW) as (c & _ & _ & Lc & _); lia).
      destruct (w_good _ _ _ _ _ _ _ HW) as (Gt & _). pose proof (w_pos _ _ _ _ _ _ _ HW) as L1.
      destruct (peek_bnd f0 t x t1 Hb Pt L1 (bnd_hd _ _ NP Hb) P) as (El & Ex).
      destruct (peek_near f0 B r [] False Rr ltac:(constructor) t t' HW) as [Q|Q].
      2:{ exfalso. exact (esc_peek f0 B False t Hb Pt L1 LB NP Gt x t1 P Hx Q). }
      rewrite P in Q. destruct (peek t') as [[[x' t1']|e']|kd|] eqn:P'; try contradiction.
      destruct Q as [(<- & _ & P1 & HW1)|(X & _)]; [|congruence].
      pose proof (fin_sub_entry f0 B r [] False Rr ltac:(constructor) zn ttl mn x t1 t1' HW1 P1) as Q. destruct Q as [Q|Q].
      + rewrite E in Q. destruct (sub_entry zn ttl mn x t1') as [[[z' t2']|e']|kd|] eqn:E'; try contradiction. destruct Q as (<- & Q).
        assert (K : exists zz, parse_sub_entries_at fuel path zn (r_ttl z) mn (zone_insert acc z) t2' = Done (Ok zz)).
        { destruct Q as [(HW2 & P2 & Hb2)|(_ & A)]; [now apply (IH En)|]. destruct (owns_peeks _ _ _ _ _ _ H) as (k & ->). eexists. apply ended_subs. exact (after_nil _ _ A). }
        destruct K as (zz & K). exists zz. rewrite (sub_step_ok fuel path zn ttl mn acc t' x t1' z t2' P' Hx E'). exact K.
      + exfalso. destruct Q as (_ & Q). rewrite E in Q. destruct Q as (G2 & L2 & Lt2). pose proof (owns_late _ _ _ _ _ _ H G2 L2 _ Lt2). lia.
  Qed.
  Lemma sub_at_line : forall f0 B r r', readable r -> readable r' -> no_paren_first f0 -> no_paren_on B f0 ->
    forall fuel ttl acc t e n, owns zn mn fuel ttl acc t e n -> n = B ->
    forall t', W f0 B r r' False t t' -> bnd f0 t -> tk_peeked t = [] -> (exists e', owns zn mn fuel ttl acc t' e' B) /\ (peeks t -> peeks t').
  Proof.
    intros f0 B r r' Rr Rr' NP NB fuel ttl acc t e n H. induction H as [fuel ttl acc t e P|fuel ttl acc t x t1 e P Hx E|fuel ttl acc t x t1 z t2 e n P Hx E H IH]; intros En t' HW Hb Pt.
    - pose proof (w_now _ _ _ _ _ _ HW Hb En NB) as HS. destruct (peek_near f0 B r r' True Rr Rr' t t' HS) as [Q|(Ns & _)]; [|now destruct Ns].
      rewrite P in Q. destruct (peek t') as [[y|e']|kd|] eqn:P'; try contradiction.
      split; [|intros (x & t1 & X); congruence]. exists e'. rewrite <- En, (w_line _ _ _ _ _ _ _ HS). now constructor.
    - pose proof (w_pos _ _ _ _ _ _ _ HW) as L1. destruct (peek_bnd f0 t x t1 Hb Pt L1 (bnd_hd _ _ NP Hb) P) as (El & Ex).
      assert (Et : tk_line t = B) by lia.
      pose proof (w_now _ _ _ _ _ _ HW Hb Et NB) as HS. destruct (peek_near f0 B r r' True Rr Rr' t t' HS) as [Q|(Ns & _)]; [|now destruct Ns].
      rewrite P in Q. destruct (peek t') as [[[x' t1']|e']|kd|] eqn:P'; try contradiction.
      destruct Q as [(<- & _ & P1 & HW1)|(X & _)]; [|congruence].
      destruct (fin_sub_entry f0 B r r' True Rr Rr' zn ttl mn x t1 t1' HW1 P1) as [Q|(Ns & _)]; [|now destruct Ns].
      rewrite E in Q. destruct (sub_entry zn ttl mn x t1') as [[y|e']|kd|] eqn:E'; try contradiction.
      split; [|intros _; now exists x, t1']. exists e'. rewrite <- En, (w_line _ _ _ _ _ _ _ HW1). now apply (owns_entry zn mn fuel ttl acc t' x).
    - assert (LB : tk_line t <= B) by (destruct (w_rest _ _ _ _ _ _ _ HW) as (c & _ & _ & Lc & _); lia).
      destruct (w_good _ _ _ _ _ _ _ HW) as (Gt & _). pose proof (w_pos _ _ _ _ _ _ _ HW) as L1.
      destruct (peek_bnd f0 t x t1 Hb Pt L1 (bnd_hd _ _ NP Hb) P) as (El & Ex).
      destruct (peek_near f0 B r r' False Rr Rr' t t' HW) as [Q|Q].
      2:{ exfalso. exact (esc_peek f0 B False t Hb Pt L1 LB NP Gt x t1 P Hx Q). }
      rewrite P in Q. destruct (peek t') as [[[x' t1']|e']|kd|] eqn:P'; try contradiction.
      destruct Q as [(<- & _ & P1 & HW1)|(X & _)]; [|congruence].
      assert (Gk : good t2 /\ 1 <= tk_line t2).
      { destruct (w_good _ _ _ _ _ _ _ HW1) as (G1 & _). pose proof (w_pos _ _ _ _ _ _ _ HW1) as L3.
        assert (L0 : late 0 t1) by (right; unfold pend; rewrite P1; cbn [existsb]; rewrite Ex; cbn; lia).
        destruct (late_sub_entry zn ttl mn x 0 t1 z t2 G1 L3 L0 E) as (A & A' & _). now split. }
      destruct Gk as (G2 & L2).
      destruct (fin_sub_entry f0 B r r' False Rr Rr' zn ttl mn x t1 t1' HW1 P1) as [Q|Q].
      + rewrite E in Q. destruct (sub_entry zn ttl mn x t1') as [[[z' t2']|e']|kd|] eqn:E'; try contradiction. destruct Q as (<- & Q).
        destruct Q as [(HW2 & P2 & Hb2)|(A & _)].
        * destruct (IH En t2' HW2 Hb2 P2) as ((e' & O) & _). split; [|intros _; now exists x, t1']. exists e'. exact (owns_next zn mn fuel ttl acc t' x t1' z t2' e' B P' Hx E' O).
        * exfalso. destruct A as (Pe & _ & _ & [D|(_ & Lt & _)]); [exact (owns_not_ended _ _ _ _ _ _ H D)|].
          assert (Lt2 : late (S B) t2) by (right; rewrite (pend_nil _ Pe); lia). pose proof (owns_late _ _ _ _ _ _ H G2 L2 _ Lt2). lia.
      + exfalso. destruct Q as (_ & Q). rewrite E in Q. destruct Q as (_ & _ & Lt2). pose proof (owns_late _ _ _ _ _ _ H G2 L2 _ Lt2). lia.
  Qed.
  Lemma owns_load : forall fuel ttl acc f e n, readable f -> owns zn mn fuel ttl acc (tok_new f) e n -> n <> 0 ->
    exists l g k, load_new_line f 0 = Ok (Some l, g, k) /\ 1 <= k /\ k <= n /\ owns zn mn fuel ttl acc (loaded g l k) e n /\ peeks (loaded g l k).
  Proof.
    intros fuel ttl acc f e n Rf H Hn. destruct (load_readable f 0 Rf) as [(m & E & _)|(l & g & k & E & Lk & _)].
    { exfalso. destruct (peek_new_none f [] m E) as (u & Eu). inversion H; subst; congruence. }
    exists l, g, k. split; [exact E|]. split; [lia|].
    assert (O : owns zn mn fuel ttl acc (loaded g l k) e n /\ peeks (loaded g l k)).
    { inversion H as [fu s0 a0 t0 e0 Ep|fu s0 a0 t0 x t1 e0 Ep Hx Ee|fu s0 a0 t0 x t1 z t2 e0 n0 Ep Hx Ee Ho]; subst.
      - cbn [tok_new tk_line] in Hn. now destruct Hn.
      - rewrite (peek_new f l g k E) in Ep. split; [now apply (owns_entry zn mn fu ttl acc _ x)|now exists x, t1].
      - rewrite (peek_new f l g k E) in Ep. split; [now apply (owns_next zn mn fu ttl acc _ x t1 z t2)|now exists x, t1]. }
    destruct O as (O & Pk). split; [|now split]. apply (owns_late _ _ _ _ _ _ O); [now apply loaded_good|cbn; lia|apply loaded_late].
  Qed.
  Lemma owns_unload : forall fuel ttl acc f l g k e n, load_new_line f 0 = Ok (Some l, g, k) -> owns zn mn fuel ttl acc (loaded g l k) e n -> peeks (loaded g l k) ->
    owns zn mn fuel ttl acc (tok_new f) e n.
  Proof.
    intros fuel ttl acc f l g k e n E H (y & u & Pk). rewrite <- (peek_new f l g k E) in Pk.
    inversion H as [fu s0 a0 t0 e0 Ep|fu s0 a0 t0 x t1 e0 Ep Hx Ee|fu s0 a0 t0 x t1 z t2 e0 n0 Ep Hx Ee Ho]; subst; rewrite <- (peek_new f l g k E) in Ep.
    - congruence.
    - now apply (owns_entry zn mn fu ttl acc _ x).
    - now apply (owns_next zn mn fu ttl acc _ x t1 z t2).
  Qed.
  Lemma sub_unload : forall fuel path ttl acc f l g k z, load_new_line f 0 = Ok (Some l, g, k) ->
    parse_sub_entries_at fuel path zn ttl mn acc (loaded g l k) = Done (Ok z) -> parse_sub_entries_at fuel path zn ttl mn acc (tok_new f) = Done (Ok z).
  Proof.
    intros fuel path ttl acc f l g k z E H. destruct fuel as [|fuel]; [discriminate H|]. rewrite sub_step in *. rewrite (peek_new f l g k E).
    destruct (peek (loaded g l k)) as [[y|e]|kd|]; cbn [placed bind bindR] in *; try discriminate H. exact H.
  Qed.
  Lemma sub_alone_before : forall fuel ttl acc f e n path, readable f -> no_paren_first f -> owns zn mn fuel ttl acc (tok_new f) e n -> n <> 0 ->
    exists z, parse_sub_entries_at fuel path zn ttl mn acc (tok_new (firstn (n - 1) f)) = Done (Ok z).
  Proof.
    intros fuel ttl acc f e n path Rf NP H Hn. pose proof (owns_within (length f) _ _ _ _ _ _ H (within_new f)) as Ln.
    destruct (cut f (n - 1) ltac:(lia)) as (c & r & -> & Lc & ->). apply readable_app in Rf as (Rc & Rr).
    destruct (owns_load fuel ttl acc (c ++ r) e n (proj2 (Forall_app _ _ _) (conj Rc Rr)) H Hn) as (l & g & k & El & Hk & Hkn & O & Pk).
    destruct (start c r [] Rc Rr) as [(l' & c1 & k' & E & E' & HW & Hb)|(E & E')]; rewrite app_nil_r in E'.
    - assert (l' = l /\ c1 ++ r = g /\ k' = k) as (-> & <- & ->) by (repeat split; congruence).
      destruct (sub_before (c ++ r) (length c) r Rr NP _ _ _ _ _ _ O ltac:(lia) _ HW Hb eq_refl path) as (z & K).
      exists z. exact (sub_unload _ _ _ _ _ _ _ _ _ E' K).
    - cbn [load_new_line] in E'. destruct (peek_new_none c [] _ E') as (u & Eu). destruct (owns_peeks _ _ _ _ _ _ H) as (m & ->).
      exists acc. rewrite sub_step, Eu. reflexivity.
  Qed.
  Lemma sub_alone_at : forall fuel ttl acc f e n f', readable f -> no_paren_first f -> no_paren_on n f -> owns zn mn fuel ttl acc (tok_new f) e n -> n <> 0 ->
    readable f' -> firstn n f' = firstn n f -> exists e', owns zn mn fuel ttl acc (tok_new f') e' n.
  Proof.
    intros fuel ttl acc f e n f' Rf NP NB H Hn Rf' Ef. pose proof (owns_within (length f) _ _ _ _ _ _ H (within_new f)) as Ln.
    destruct (owns_load fuel ttl acc f e n Rf H Hn) as (l & g & k & El & Hk & Hkn & O & Pk).
    destruct (cut f n Ln) as (c & r & -> & Lc & Ec). rewrite Ec in Ef. apply readable_app in Rf as (Rc & Rr).
    assert (f' = c ++ skipn n f') as X by (rewrite <- Ef; now rewrite firstn_skipn). revert X. generalize (skipn n f') as r'. intros r' ->.
    apply readable_app in Rf' as (_ & Rr'). clear Ef Ec.
    destruct (start c r r' Rc Rr) as [(l' & c1 & k' & E & E' & HW & Hb)|(E & E')].
    - assert (l' = l /\ c1 ++ r = g /\ k' = k) as (-> & <- & ->) by (repeat split; congruence).
      rewrite Lc in HW. destruct (sub_at_line (c ++ r) n r r' Rr Rr' NP NB _ _ _ _ _ _ O eq_refl _ HW Hb eq_refl) as ((e' & O') & Pk').
      exists e'. exact (owns_unload _ _ _ _ _ _ _ _ _ E' O' (Pk' Pk)).
    - exfalso. rewrite El in E. symmetry in E. apply load_some in E as (_ & E & _). lia.
  Qed.
End Sub.
