(** From the start of a file. *)
From Verif Require Import Base Types Name NameSpec Codec Zone Tokens Parser TokenSpec TokenProofs TokenSim PropCodec3 Report ReportErase ReportSim ReportNear ReportOwn ReportWithin ReportPrefix.

Definition loaded (g : file) (l : line) (k : nat) : tok := mkTok g l [] false k.
Lemma next_new : forall f l g k, load_new_line f 0 = Ok (Some l, g, k) -> next (tok_new f) = next (loaded g l k).
Proof.
  intros f l g k E. pose proof (load_some _ _ _ _ _ E) as (_ & Lk & _). unfold next.
  assert (R : forall n, next_rec (S n) (tok_new f) = next_rec (S n) (loaded g l k)).
  { intros n. cbn [next_rec]. assert (B1 : bootstrap (tok_new f) = Ok (inl (loaded g l k))). { unfold bootstrap. cbn [tok_new tk_line tk_rest]. cbn [Nat.eqb]. rewrite E. reflexivity. }
    assert (B2 : bootstrap (loaded g l k) = Ok (inl (loaded g l k))). { unfold bootstrap. cbn [loaded tk_line]. destruct (k =? 0) eqn:Z; [apply Nat.eqb_eq in Z; lia|reflexivity]. }
    rewrite B1, B2. reflexivity. }
  set (m := tok_size (tok_new f) + tok_size (loaded g l k)).
  rewrite (next_rec_fuel _ (S m) (tok_new f)) by (subst m; lia). rewrite (next_rec_fuel _ (S m) (loaded g l k)) by (subst m; lia). now rewrite R.
Qed.
Lemma next_new_none : forall f g k, load_new_line f 0 = Ok (None, g, k) -> exists u, next (tok_new f) = Done (Ok (T_End, u)) .
Proof.
  intros f g k E. unfold next. cbn [next_rec]. unfold bootstrap. cbn [tok_new tk_line tk_rest]. cbn [Nat.eqb]. rewrite E. cbn [tk_multi bind]. eexists. reflexivity.
Qed.
Lemma peek_new : forall f l g k, load_new_line f 0 = Ok (Some l, g, k) -> peek (tok_new f) = peek (loaded g l k).
Proof. intros f l g k E. unfold peek. now rewrite (next_new f l g k E). Qed.
Lemma peek_new_none : forall f g k, load_new_line f 0 = Ok (None, g, k) -> exists u, peek (tok_new f) = Done (Ok (T_End, u)).
Proof. intros f g k E. destruct (next_new_none f g k E) as (u & Eu). unfold peek. rewrite Eu. cbn [bindR bind fst snd]. eexists. reflexivity. Qed.

(** Two files with the same first [length c] lines. *)
Lemma start : forall c r r', readable c -> readable r ->
  (exists l c1 k, load_new_line (c ++ r) 0 = Ok (Some l, c1 ++ r, k) /\ load_new_line (c ++ r') 0 = Ok (Some l, c1 ++ r', k) /\
     W (c ++ r) (length c) r r' False (loaded (c1 ++ r) l k) (loaded (c1 ++ r') l k) /\ bnd (c ++ r) (loaded (c1 ++ r) l k)) \/
  (load_new_line (c ++ r) 0 = load_new_line r (length c) /\ load_new_line (c ++ r') 0 = load_new_line r' (length c)).
Proof.
  intros c r r' Rc Rr. destruct (load_near r r' c 0 Rc) as [(l & c1 & k & E & E' & Lk & Hk & Rc1 & Hl & _)|H]; [left|now right].
  exists l, c1, k. split; [exact E|]. split; [exact E'|].
  destruct (load_skipn (c ++ r) 0 l (c1 ++ r) k E) as (N1 & N2).
  split; [|split; [exact N1|split; [exact Hl|reflexivity]]].
  apply mkW; cbn [loaded tk_rest tk_cur tk_peeked tk_multi tk_line]; try reflexivity; try lia; try (intros []); try exact N2.
  - exists c1. split; [reflexivity|]. split; [reflexivity|]. split; [lia|]. split; [exact Rc1|intros []].
  - cbn. lia.
Qed.
Lemma loaded_good : forall g l k, 1 <= k -> good (loaded g l k).
Proof. intros g l k H. right. cbn [loaded tk_peeked tk_line length]. split; [lia|]. split; [intros []|intros X; lia]. Qed.
Lemma loaded_late : forall g l k, late k (loaded g l k).
Proof. intros g l k. right. rewrite pend_nil by reflexivity. cbn [loaded tk_line]. lia. Qed.

(** * A file read on its own *)
Lemma own_load : forall fs fuel s acc f e n, readable f -> own fs fuel s acc (tok_new f) e n -> n <> 0 ->
  exists l g k, load_new_line f 0 = Ok (Some l, g, k) /\ 1 <= k /\ k <= n /\ own fs fuel s acc (loaded g l k) e n /\ peeks (loaded g l k).
Proof.
  intros fs fuel s acc f e n Rf H Hn. destruct (load_readable f 0 Rf) as [(m & E & _)|(l & g & k & E & Lk & _)].
  { exfalso. destruct (peek_new_none f [] m E) as (u & Eu). inversion H; subst; congruence. }
  exists l, g, k. split; [exact E|]. split; [lia|].
  assert (O : own fs fuel s acc (loaded g l k) e n /\ peeks (loaded g l k)).
  { inversion H as [fu s0 a0 t0 e0 Ep|fu s0 a0 t0 x t1 e0 Ep Hx Ee|fu s0 a0 t0 x t1 z t2 s' acc' e0 n0 Ep Hx Ee Hg Ho]; subst.
    - cbn [tok_new tk_line] in Hn. now destruct Hn.
    - rewrite (peek_new f l g k E) in Ep. split; [now apply (own_entry fs fu s acc _ x)|now exists x, t1].
    - rewrite (peek_new f l g k E) in Ep. split; [now apply (own_next fs fu s acc _ x t1 z t2 s' acc')|now exists x, t1]. }
  destruct O as (O & Pk). split; [|now split]. apply (own_late _ _ _ _ _ _ _ O); [now apply loaded_good|cbn; lia|apply loaded_late].
Qed.
Lemma own_unload : forall fs fuel s acc f l g k e n, load_new_line f 0 = Ok (Some l, g, k) -> own fs fuel s acc (loaded g l k) e n -> peeks (loaded g l k) ->
  own fs fuel s acc (tok_new f) e n.
Proof.
  intros fs fuel s acc f l g k e n E H (y & u & Pk). rewrite <- (peek_new f l g k E) in Pk.
  inversion H as [fu s0 a0 t0 e0 Ep|fu s0 a0 t0 x t1 e0 Ep Hx Ee|fu s0 a0 t0 x t1 z t2 s' acc' e0 n0 Ep Hx Ee Hg Ho]; subst; rewrite <- (peek_new f l g k E) in Ep.
  - congruence.
  - now apply (own_entry fs fu s acc _ x).
  - now apply (own_next fs fu s acc _ x t1 z t2 s' acc').
Qed.
Lemma entries_unload : forall fs fuel path s acc f l g k z, load_new_line f 0 = Ok (Some l, g, k) ->
  parse_entries_at fs fuel path s acc (loaded g l k) = Done (Ok z) -> parse_entries_at fs fuel path s acc (tok_new f) = Done (Ok z).
Proof.
  intros fs fuel path s acc f l g k z E H. destruct fuel as [|fuel]; [discriminate H|]. rewrite entries_step in *. rewrite (peek_new f l g k E).
  destruct (peek (loaded g l k)) as [[y|e]|kd|]; cbn [placed bind bindR] in *; try discriminate H. exact H.
Qed.
Lemma cut : forall (f : file) n, n <= length f -> exists c r, f = c ++ r /\ length c = n /\ firstn n f = c.
Proof. intros f n L. exists (firstn n f), (skipn n f). split; [now rewrite firstn_skipn|]. split; [now apply firstn_length_le|reflexivity]. Qed.
Lemma readable_app : forall a b, readable (a ++ b) -> readable a /\ readable b.
Proof. intros a b H. now apply Forall_app in H. Qed.

Lemma alone_before : forall fs fuel s acc f e n path, readable f -> no_paren_first f -> own fs fuel s acc (tok_new f) e n -> n <> 0 ->
  exists z, parse_entries_at fs fuel path s acc (tok_new (firstn (n - 1) f)) = Done (Ok z).
Proof.
  intros fs fuel s acc f e n path Rf NP H Hn. pose proof (own_within (length f) _ _ _ _ _ _ _ H (within_new f)) as Ln.
  destruct (cut f (n - 1) ltac:(lia)) as (c & r & -> & Lc & ->). apply readable_app in Rf as (Rc & Rr).
  destruct (own_load fs fuel s acc (c ++ r) e n (proj2 (Forall_app _ _ _) (conj Rc Rr)) H Hn) as (l & g & k & El & Hk & Hkn & O & Pk).
  destruct (start c r [] Rc Rr) as [(l' & c1 & k' & E & E' & HW & Hb)|(E & E')]; rewrite app_nil_r in E'.
  - assert (l' = l /\ c1 ++ r = g /\ k' = k) as (-> & <- & ->) by (repeat split; congruence).
    destruct (before (c ++ r) (length c) r Rr NP _ _ _ _ _ _ _ O ltac:(lia) _ HW Hb eq_refl path) as (z & K).
    exists z. exact (entries_unload _ _ _ _ _ _ _ _ _ _ E' K).
  - cbn [load_new_line] in E'. destruct (peek_new_none c [] _ E') as (u & Eu). destruct (own_peeks _ _ _ _ _ _ _ H) as (m & ->).
    exists acc. rewrite entries_step, Eu. reflexivity.
Qed.
Lemma alone_at : forall fs fuel s acc f e n f', readable f -> no_paren_first f -> no_paren_on n f -> own fs fuel s acc (tok_new f) e n -> n <> 0 ->
  readable f' -> firstn n f' = firstn n f -> exists e', own fs fuel s acc (tok_new f') e' n.
Proof.
  intros fs fuel s acc f e n f' Rf NP NB H Hn Rf' Ef. pose proof (own_within (length f) _ _ _ _ _ _ _ H (within_new f)) as Ln.
  destruct (own_load fs fuel s acc f e n Rf H Hn) as (l & g & k & El & Hk & Hkn & O & Pk).
  destruct (cut f n Ln) as (c & r & -> & Lc & Ec). rewrite Ec in Ef. apply readable_app in Rf as (Rc & Rr).
  assert (f' = c ++ skipn n f') as X by (rewrite <- Ef; now rewrite firstn_skipn). revert X. generalize (skipn n f') as r'. intros r' ->.
  apply readable_app in Rf' as (_ & Rr'). clear Ef Ec.
  destruct (start c r r' Rc Rr) as [(l' & c1 & k' & E & E' & HW & Hb)|(E & E')].
  - assert (l' = l /\ c1 ++ r = g /\ k' = k) as (-> & <- & ->) by (repeat split; congruence).
    rewrite Lc in HW. destruct (at_line (c ++ r) n r r' Rr Rr' NP NB _ _ _ _ _ _ _ O eq_refl _ HW Hb eq_refl) as ((e' & O') & Pk').
    exists e'. exact (own_unload _ _ _ _ _ _ _ _ _ _ E' O' (Pk' Pk)).
  - exfalso. rewrite El in E. symmetry in E. apply load_some in E as (_ & E & _). lia.
Qed.

(** * A file that starts with its SOA record *)
Lemma soa_unload : forall s f l g k, load_new_line f 0 = Ok (Some l, g, k) -> parse_starting_soa_record s (tok_new f) = parse_starting_soa_record s (loaded g l k).
Proof. intros s f l g k E. unfold parse_starting_soa_record, bindTk. now rewrite (next_new f l g k E). Qed.
Lemma close_starting_soa : forall s, closeT (parse_starting_soa_record s).
Proof.
  intros s. unfold parse_starting_soa_record.
  repeat match goal with
    | |- closeT (bindTk next_after_blanks (fun x => close_line x _)) => apply (close_end [] 0 [] [] True); constructor
    | |- closeT (failT _) => apply close_fails; intros ?; eexists; reflexivity
    | |- closeT (fun _ => Panic _) => apply close_panic
    | |- closeT (bindTk _ _) => apply close_bind; [latet|intros ?; cbv beta]
    | |- closeT (let _ := _ in _) => cbv zeta
    | |- closeT (match ?x with _ => _ end) => destruct x
    end; try apply late_ttl_class; try apply late_soa.
Qed.
Lemma soa_load : forall s f a t, readable f -> parse_starting_soa_record s (tok_new f) = Done (Ok (a, t)) ->
  exists l g k, load_new_line f 0 = Ok (Some l, g, k) /\ 1 <= k /\ parse_starting_soa_record s (loaded g l k) = Done (Ok (a, t)) /\
    good t /\ 1 <= tk_line t /\ late (S k) t.
Proof.
  intros s f a t Rf E. destruct (load_readable f 0 Rf) as [(m & El & _)|(l & g & k & El & Lk & _)].
  - exfalso. destruct (next_new_none f [] m El) as (u & Eu). unfold parse_starting_soa_record, bindTk in E. rewrite Eu in E. discriminate E.
  - exists l, g, k. split; [exact El|]. split; [lia|]. rewrite (soa_unload s f l g k El) in E. split; [exact E|].
    exact (close_starting_soa s k (loaded g l k) a t (loaded_good g l k ltac:(lia)) ltac:(cbn; lia) (loaded_late g l k) E).
Qed.
Lemma main_before : forall fs fuel s s' acc f a t e n path, readable f -> no_paren_first f -> parse_starting_soa_record s (tok_new f) = Done (Ok (a, t)) ->
  own fs fuel s' acc t e n -> exists t' z, parse_starting_soa_record s (tok_new (firstn (n - 1) f)) = Done (Ok (a, t')) /\ parse_entries_at fs fuel path s' acc t' = Done (Ok z).
Proof.
  intros fs fuel s s' acc f a t e n path Rf NP E0 H.
  destruct (soa_load s f a t Rf E0) as (l & g & k & El & Hk & Es & Gt & Lt & Ltk).
  pose proof (own_late _ _ _ _ _ _ _ H Gt Lt _ Ltk) as Lk.
  pose proof (own_within (length f) _ _ _ _ _ _ _ H (stays_starting_soa _ s _ _ _ (within_new f) E0)) as Ln.
  destruct (cut f (n - 1) ltac:(lia)) as (c & r & -> & Lc & ->). apply readable_app in Rf as (Rc & Rr).
  destruct (start c r [] Rc Rr) as [(l' & c1 & k' & E & E' & HW & Hb)|(E & E')]; rewrite app_nil_r in E'.
  - assert (l' = l /\ c1 ++ r = g /\ k' = k) as (-> & <- & ->) by (repeat split; congruence).
    rewrite (soa_unload s c _ _ _ E').
    destruct (fin_starting_soa (c ++ r) (length c) r [] False Rr ltac:(constructor) s _ _ (or_introl HW)) as [Q|(_ & Q)].
    + rewrite Es in Q. destruct (parse_starting_soa_record s (loaded (c1 ++ []) l k)) as [[[a' t']|e']|kd|] eqn:Es'; try contradiction. destruct Q as (<- & Q).
      destruct Q as [(HW2 & P2 & Hb2)|(_ & A)].
      * destruct (before (c ++ r) (length c) r Rr NP _ _ _ _ _ _ _ H ltac:(lia) _ HW2 Hb2 P2 path) as (z & K). now exists t', z.
      * destruct (own_peeks _ _ _ _ _ _ _ H) as (m & ->). exists t', acc. split; [reflexivity|]. apply ended_entries. exact (after_nil _ _ A).
    + exfalso. rewrite Es in Q. destruct Q as (G2 & L2 & Lt2). pose proof (own_late _ _ _ _ _ _ _ H G2 L2 _ Lt2). lia.
  - exfalso. rewrite El in E. symmetry in E. apply load_some in E as (_ & E & _). lia.
Qed.
Lemma main_at : forall fs fuel s s' acc f a t e n f', readable f -> no_paren_first f -> no_paren_on n f -> parse_starting_soa_record s (tok_new f) = Done (Ok (a, t)) ->
  own fs fuel s' acc t e n -> readable f' -> firstn n f' = firstn n f ->
  exists t' e', parse_starting_soa_record s (tok_new f') = Done (Ok (a, t')) /\ own fs fuel s' acc t' e' n.
Proof.
  intros fs fuel s s' acc f a t e n f' Rf NP NB E0 H Rf' Ef.
  destruct (soa_load s f a t Rf E0) as (l & g & k & El & Hk & Es & Gt & Lt & Ltk).
  pose proof (own_late _ _ _ _ _ _ _ H Gt Lt _ Ltk) as Lk.
  pose proof (own_within (length f) _ _ _ _ _ _ _ H (stays_starting_soa _ s _ _ _ (within_new f) E0)) as Ln.
  destruct (cut f n Ln) as (c & r & -> & Lc & Ec). rewrite Ec in Ef. apply readable_app in Rf as (Rc & Rr).
  assert (f' = c ++ skipn n f') as X by (rewrite <- Ef; now rewrite firstn_skipn). revert X. generalize (skipn n f') as r'. intros r' ->.
  apply readable_app in Rf' as (_ & Rr'). clear Ef Ec.
  destruct (start c r r' Rc Rr) as [(l' & c1 & k' & E & E' & HW & Hb)|(E & E')].
  - assert (l' = l /\ c1 ++ r = g /\ k' = k) as (-> & <- & ->) by (repeat split; congruence).
    rewrite (soa_unload s (c ++ r') _ _ _ E'). rewrite Lc in HW.
    destruct (fin_starting_soa (c ++ r) n r r' False Rr Rr' s _ _ (or_introl HW)) as [Q|(_ & Q)].
    + rewrite Es in Q. destruct (parse_starting_soa_record s (loaded (c1 ++ r') l k)) as [[[a' t']|e']|kd|] eqn:Es'; try contradiction. destruct Q as (<- & Q).
      destruct Q as [(HW2 & P2 & Hb2)|(A & _)].
      * destruct (at_line (c ++ r) n r r' Rr Rr' NP NB _ _ _ _ _ _ _ H eq_refl _ HW2 Hb2 P2) as ((e' & O') & _). now exists t', e'.
      * exfalso. destruct A as (Pe & _ & _ & [D|(_ & L3 & _)]); [exact (own_not_ended _ _ _ _ _ _ _ H D)|].
        assert (Lt2 : late (S n) t) by (right; rewrite (pend_nil _ Pe); lia). pose proof (own_late _ _ _ _ _ _ _ H Gt Lt _ Lt2). lia.
    + exfalso. rewrite Es in Q. destruct Q as (G2 & L2 & Lt2). pose proof (own_late _ _ _ _ _ _ _ H G2 L2 _ Lt2). lia.
  - exfalso. rewrite El in E. symmetry in E. apply load_some in E as (_ & E & _). lia.
Qed.
