(** Lemmas about the tokenizer. *)
From Verif Require Import Base Types Name NameSpec Codec Zone Tokens Parser TokenSpec PropCodec3.

(** Nothing left to read. *)
Definition ended (t : tok) : Prop :=
  tk_rest t = [] /\ tk_cur t = [] /\ tk_multi t = false /\ Forall (eq T_End) (tk_peeked t).
(** What holds of every tokenizer state. *)
Definition good (t : tok) : Prop :=
  ended t \/
  (length (tk_peeked t) <= 1 /\ ~ In T_End (tk_peeked t) /\
   (tk_line t = 0 -> tk_cur t = [] /\ tk_multi t = false /\ tk_peeked t = [])).
Definition plain (t : tok) : Prop := plain_line (tk_cur t) /\ plain_file (tk_rest t).

Definition rest_size (f : file) : nat := list_sum (map line_size f).
Lemma tok_size_eq : forall t, tok_size t = length (tk_cur t) + rest_size (tk_rest t) + length (tk_peeked t).
Proof. reflexivity. Qed.
Lemma rest_size_cons : forall o f, rest_size (o :: f) = line_size o + rest_size f.
Proof. reflexivity. Qed.

Lemma good_new : forall f, good (tok_new f).
Proof. intros f. right. split; [cbn; lia|]. split; [cbn; tauto|]. now repeat split. Qed.

Lemma load_some : forall f n l f' n', load_new_line f n = Ok (Some l, f', n') ->
  S (length l) + rest_size f' <= rest_size f /\ n < n' /\ has_content l = true /\ (plain_file f -> plain_line l /\ plain_file f').
Proof.
  induction f as [|[l0|] f IH]; intros n l f' n' E; cbn [load_new_line] in E; try discriminate.
  rewrite rest_size_cons. cbn [line_size]. destruct (has_content l0) eqn:H.
  - assert (l = l0 /\ f' = f /\ n' = S n) as (-> & -> & ->) by (repeat split; congruence).
    split; [lia|]. split; [lia|]. split; [assumption|]. intros P. inversion P; subst. now split.
  - apply IH in E as (E1 & E2 & E3 & E4). split; [lia|]. split; [lia|]. split; [assumption|]. intros P. inversion P; subst. auto.
Qed.
Lemma load_none : forall f n f' n', load_new_line f n = Ok (None, f', n') -> f' = [] /\ n <= n'.
Proof.
  induction f as [|[l0|] f IH]; intros n f' n' E; cbn [load_new_line] in E; try discriminate.
  - split; [congruence|]. assert (n' = n) as -> by congruence. lia.
  - destruct (has_content l0); [discriminate|]. apply IH in E as (E1 & E2). split; [assumption|lia].
Qed.

Lemma word_loop_size : forall n cur acc w c, word_loop n cur acc = Done (Ok (w, c)) ->
  length c <= length cur /\ (plain_line cur -> plain_line c).
Proof.
  induction n as [|n IH]; intros cur acc w c E; cbn [word_loop] in E.
  - assert (c = cur) as -> by congruence. auto.
  - destruct cur as [|ch cur]; [discriminate|]. cbn [length]. destruct (ch =? BACKSLASH)%N.
    + destruct cur as [|ch' cur]; [discriminate|]. apply IH in E as (E1 & E2). cbn [length]. split; [lia|].
      intros P. inversion P as [|? ? _ P']; subst. inversion P'; subst. auto.
    + destruct ((ch =? 59) || (ch =? 40) || (ch =? 41))%N. { assert (c = ch :: cur) as -> by congruence. auto. }
      destruct (is_ws ch). { assert (c = ch :: cur) as -> by congruence. auto. }
      apply IH in E as (E1 & E2). split; [lia|]. intros P. inversion P; subst. auto.
Qed.
(** The first character is taken, unless it ends words. *)
Lemma word_loop_progress : forall ch cur acc w c, (ch =? 59)%N = false -> (ch =? 40)%N = false -> (ch =? 41)%N = false ->
  is_ws ch = false -> word_loop (length (ch :: cur)) (ch :: cur) acc = Done (Ok (w, c)) -> length c < length (ch :: cur).
Proof.
  intros ch cur acc w c H1 H2 H3 H4 E. cbn [length word_loop] in E. rewrite H1, H2, H3, H4 in E. cbn [orb] in E.
  destruct (ch =? BACKSLASH)%N.
  - destruct cur as [|ch' cur]; [discriminate|]. apply word_loop_size in E as (E & _). cbn [length]. lia.
  - apply word_loop_size in E as (E & _). cbn [length]. lia.
Qed.
Lemma word_loop_no_panic : forall n cur acc, plain_line cur -> n <= length cur -> exists r, word_loop n cur acc = Done r.
Proof.
  induction n as [|n IH]; intros cur acc P L; cbn [word_loop]; [eauto|].
  destruct cur as [|ch cur]; [cbn in L; lia|]. inversion P as [|? ? (P1 & _) P2]; subst.
  unfold BACKSLASH. replace (ch =? 92)%N with false by (symmetry; now apply N.eqb_neq).
  destruct ((ch =? 59) || (ch =? 40) || (ch =? 41))%N; [eauto|]. destruct (is_ws ch); [eauto|]. cbn [length] in L. apply IH; [assumption|lia].
Qed.
Lemma word_loop_no_diverge : forall n cur acc, word_loop n cur acc <> Diverge.
Proof.
  induction n as [|n IH]; intros cur acc; cbn [word_loop]; [discriminate|]. destruct cur as [|ch cur]; [discriminate|].
  destruct (ch =? BACKSLASH)%N; [destruct cur; [discriminate|apply IH]|]. destruct ((ch =? 59) || (ch =? 40) || (ch =? 41))%N; [discriminate|].
  destruct (is_ws ch); [discriminate|apply IH].
Qed.
Lemma quote_loop_size : forall n cur acc cl w c, quote_loop n cur acc = Done (Ok (cl, w, c)) ->
  length c <= length cur /\ (plain_line cur -> plain_line c).
Proof.
  induction n as [|n IH]; intros cur acc cl w c E; cbn [quote_loop] in E.
  - assert (c = cur) as -> by congruence. auto.
  - destruct cur as [|ch cur]; [discriminate|]. cbn [length]. destruct (ch =? BACKSLASH)%N.
    + destruct cur as [|ch' cur]; [discriminate|]. apply IH in E as (E1 & E2). cbn [length]. split; [lia|].
      intros P. inversion P as [|? ? _ P']; subst. inversion P'; subst. auto.
    + destruct (ch =? 34)%N. { assert (c = cur) as -> by congruence. split; [lia|]. intros P. now inversion P. }
      apply IH in E as (E1 & E2). split; [lia|]. intros P. inversion P; subst. auto.
Qed.
Lemma quote_loop_no_panic : forall n cur acc, plain_line cur -> n <= length cur -> exists r, quote_loop n cur acc = Done r.
Proof.
  induction n as [|n IH]; intros cur acc P L; cbn [quote_loop]; [eauto|].
  destruct cur as [|ch cur]; [cbn in L; lia|]. inversion P as [|? ? (P1 & _) P2]; subst.
  unfold BACKSLASH. replace (ch =? 92)%N with false by (symmetry; now apply N.eqb_neq).
  destruct (ch =? 34)%N; [eauto|]. cbn [length] in L. apply IH; [assumption|lia].
Qed.
Lemma quote_loop_no_diverge : forall n cur acc, quote_loop n cur acc <> Diverge.
Proof.
  induction n as [|n IH]; intros cur acc; cbn [quote_loop]; [discriminate|]. destruct cur as [|ch cur]; [discriminate|].
  destruct (ch =? BACKSLASH)%N; [destruct cur; [discriminate|apply IH]|]. destruct (ch =? 34)%N; [discriminate|apply IH].
Qed.
Lemma skip_ws_size : forall l, length (skip_ws l) <= length l /\ (plain_line l -> plain_line (skip_ws l)).
Proof.
  induction l as [|c l (IH1 & IH2)]; cbn [skip_ws]; [auto|]. destruct (is_ws c); [|auto]. cbn [length]. split; [lia|].
  intros P. inversion P; subst. auto.
Qed.

(** What one call may do, from state [t]. *)
Definition next_facts (t : tok) (r : exec (result (token * tok) token_err)) : Prop :=
  match r with
  | Done (Ok (x, t')) =>
      good t' /\ tok_size t' <= tok_size t /\ (x = T_Blank -> tok_size t' < tok_size t) /\
      (plain t -> plain t' /\ (x = T_End \/ tok_size t' < tok_size t)) /\
      (x = T_End -> ended t') /\ (x <> T_End -> 1 <= tk_line t' /\ tk_peeked t' = [])
  | Done (Err _) => True
  | Panic _ => ~ plain t
  | Diverge => False
  end.

Lemma ended_next_rec : forall n t, ended t -> exists t', next_rec (S n) t = Done (Ok (T_End, t')) /\ ended t' /\ tok_size t' <= tok_size t.
Proof.
  intros n t (E1 & E2 & E3 & E4). cbn [next_rec]. unfold bootstrap. rewrite (tok_size_eq t), E1, E2. destruct (tk_line t =? 0) eqn:El.
  - rewrite ?E1. cbn [load_new_line]. rewrite E3. eexists. split; [reflexivity|]. rewrite tok_size_eq. split; [repeat split; assumption|]. cbn. lia.
  - unfold fetch. destruct (tk_peeked t) as [|q ps] eqn:Ep.
    + rewrite E2, E1. cbn [load_new_line]. rewrite E3. eexists. split; [reflexivity|]. rewrite tok_size_eq. split; [repeat split; constructor|]. cbn. lia.
    + inversion E4 as [|? ? <- E5]; subst. eexists. split; [reflexivity|]. rewrite tok_size_eq. cbn [with_peeked tk_cur tk_rest tk_peeked]. rewrite E1, E2.
      split; [repeat split; assumption|]. cbn. lia.
Qed.

Lemma next_rec_facts : forall fuel t, good t -> tok_size t < fuel -> next_facts t (next_rec fuel t).
Proof.
  induction fuel as [|fuel IH]; intros t G L; [lia|].
  destruct G as [D|G].
  { destruct (ended_next_rec fuel t D) as (t' & -> & D' & S). cbn [next_facts]. split; [now left|]. split; [assumption|]. split; [discriminate|].
    split; [|split; [auto|congruence]]. intros _. split; [|now left]. destruct D' as (E1 & E2 & _). split; [rewrite E2; constructor|rewrite E1; constructor]. }
  cbn [next_rec]. pose proof G as (G1 & G2 & G3).
  destruct (bootstrap t) as [[t1|[y t1]]|e] eqn:Eb; [| |exact I].
  2:{ unfold bootstrap in Eb. destruct (tk_line t =? 0) eqn:El; [|discriminate]. apply Nat.eqb_eq in El.
      destruct (load_new_line _ _) as [[[[l|] f] n]|e] eqn:E; [discriminate| |discriminate].
      apply load_none in E as (-> & Ln). destruct (tk_multi t) eqn:Em; [discriminate|].
      assert (y = T_End /\ t1 = mkTok [] (tk_cur t) (tk_peeked t) false n) as (-> & ->) by (split; congruence).
      destruct (G3 El) as (C1 & _ & C2). rewrite C1, C2.
      assert (D : ended (mkTok [] [] [] false n)) by (repeat split; constructor).
      split; [now left|]. split; [|split; [discriminate|split; [|split; [intros _; exact D|congruence]]]].
      - rewrite !tok_size_eq. cbn. lia.
      - intros _. split; [split; constructor|now left]. }
  assert (B : tok_size t1 <= tok_size t /\ 1 <= tk_line t1 /\ length (tk_peeked t1) <= 1 /\ ~ In T_End (tk_peeked t1) /\ (plain t -> plain t1)).
  { unfold bootstrap in Eb. destruct (tk_line t =? 0) eqn:El.
    - apply Nat.eqb_eq in El. destruct (load_new_line _ _) as [[[[l|] f] n]|e] eqn:E; [|destruct (tk_multi t); discriminate|discriminate].
      apply load_some in E as (E1 & E2 & E3 & E4). assert (t1 = mkTok f l (tk_peeked t) (tk_multi t) n) as -> by congruence.
      destruct (G3 El) as (D1 & D2 & D3).
      cbn [tk_line tk_peeked]. rewrite !tok_size_eq. cbn [tk_cur tk_rest tk_peeked]. rewrite D3. cbn [length].
      split; [lia|]. split; [lia|]. split; [lia|]. split; [auto|]. intros (_ & P). apply E4 in P. exact P.
    - assert (t1 = t) as -> by congruence. apply Nat.eqb_neq in El. split; [lia|]. split; [lia|]. split; [assumption|]. split; [assumption|auto]. }
  clear Eb. destruct B as (B1 & B2 & B3 & B4 & B5).
  assert (W : forall r, next_facts t1 r -> next_facts t r).
  { intros [[[x t']|e]|k|]; cbn [next_facts]; auto.
    intros (H1 & H2 & H3 & H4 & H5 & H6). split; [assumption|]. split; [lia|]. split; [intros H; specialize (H3 H); lia|]. split; [|auto].
    intros P. destruct (H4 (B5 P)) as (H7 & H8). split; [assumption|]. destruct H8; [now left|right; lia]. }
  assert (L1 : tok_size t1 <= fuel) by lia.
  apply W. clear W B5 B1 L G G1 G2 G3 t. rename t1 into t, B2 into L1', B3 into G1, B4 into G2.
  destruct (fetch t) as [[tk t1|t1]|e] eqn:Ef; [| |exact I].
  - unfold fetch in Ef. destruct (tk_peeked t) as [|q ps] eqn:Ep.
    + destruct (tk_cur t) eqn:Ec; [|discriminate].
      destruct (load_new_line _ _) as [[[[l|] f] n]|e] eqn:E; [| |discriminate]; destruct (tk_multi t) eqn:Em; try discriminate.
      * apply load_some in E as (E1 & E2 & E3 & E4).
        assert (tk = T_NewLine /\ t1 = mkTok f l [] false n) as (-> & ->) by (split; congruence).
        cbn [next_facts]. rewrite !tok_size_eq. cbn [tk_cur tk_rest tk_peeked tk_line]. rewrite Ec, Ep. cbn [length].
        split; [|split; [lia|split; [discriminate|split; [|split; [discriminate|]]]]].
        -- right. split; [cbn; lia|]. split; [cbn; tauto|]. cbn [tk_line]. lia.
        -- intros (_ & P). apply E4 in P as (P1 & P2). split; [now split|right; lia].
        -- intros _. split; [lia|reflexivity].
      * apply load_none in E as (-> & E2).
        assert (tk = T_End /\ t1 = mkTok [] [] [] false n) as (-> & ->) by (split; congruence).
        cbn [next_facts]. rewrite !tok_size_eq. cbn [tk_cur tk_rest tk_peeked tk_line]. rewrite Ec, Ep. cbn [length].
        split; [|split; [change (rest_size []) with 0; lia|split; [discriminate|split; [|split; [|congruence]]]]].
        -- left. repeat split. constructor.
        -- intros _. split; [split; constructor|now left].
        -- intros _. repeat split. constructor.
    + assert (tk = q /\ t1 = with_peeked t ps) as (-> & ->) by (split; congruence).
      destruct ps as [|]; [|cbn in G1; lia]. cbn [next_facts]. rewrite !tok_size_eq. cbn [with_peeked tk_cur tk_rest tk_peeked tk_line]. rewrite Ep. cbn [length].
      split; [|split; [lia|split; [lia|split; [|split]]]].
      * right. split; [cbn; lia|]. split; [cbn; tauto|]. cbn [with_peeked tk_line]. lia.
      * intros P. split; [exact P|right; lia].
      * intros ->. exfalso. apply G2. now left.
      * intros _. now split.
  - assert (F : tk_peeked t1 = [] /\ tok_size t1 <= tok_size t /\ 1 <= tk_line t1 /\ tk_cur t1 <> [] /\ (plain t -> plain t1)).
    { unfold fetch in Ef. destruct (tk_peeked t) as [|q ps] eqn:Ep; [|discriminate].
      destruct (tk_cur t) eqn:Ec.
      - destruct (load_new_line _ _) as [[[[l|] f] n]|e] eqn:E; [| |discriminate]; destruct (tk_multi t) eqn:Em; try discriminate.
        apply load_some in E as (E1 & E2 & E3 & E4). assert (t1 = mkTok f l [] true n) as -> by congruence.
        rewrite !tok_size_eq. cbn [tk_cur tk_rest tk_peeked tk_line]. rewrite Ec, Ep. cbn [length].
        split; [reflexivity|]. split; [lia|]. split; [lia|]. split; [now destruct l|]. intros (_ & P). exact (E4 P).
      - assert (t1 = t) as -> by congruence. split; [assumption|]. split; [lia|]. split; [assumption|]. split; [rewrite Ec; discriminate|auto]. }
    destruct F as (F1 & F2 & F3 & F4 & F5).
    assert (W : forall r, next_facts t1 r -> next_facts t r).
    { intros [[[x t']|e]|k|]; cbn [next_facts]; auto.
      intros (H1 & H2 & H3 & H4 & H5 & H6). split; [assumption|]. split; [lia|]. split; [intros H; specialize (H3 H); lia|]. split; [|auto].
      intros P. destruct (H4 (F5 P)) as (H7 & H8). split; [assumption|]. destruct H8; [now left|right; lia]. }
    assert (L2 : tok_size t1 <= fuel) by lia.
    apply W. clear W F5 F2 L1 G1 G2 L1' Ef t. rename t1 into t, F1 into Ep, F3 into El, L2 into L.
    destruct (tk_cur t) as [|ch cur] eqn:Ec; [congruence|]. clear F4.
    (* a token that leaves [c] of the line *)
    assert (T1 : forall x c, x <> T_End -> length c <= length (ch :: cur) -> (x = T_Blank -> length c < length (ch :: cur)) ->
                 (plain_line (ch :: cur) -> plain_line c /\ length c < length (ch :: cur)) ->
                 next_facts t (Done (Ok (x, with_cur t c)))).
    { intros x c Hx H1 H2 H3. cbn [next_facts]. rewrite !tok_size_eq. cbn [with_cur tk_cur tk_rest tk_peeked tk_line]. rewrite Ec, Ep.
      split; [|split; [lia|split; [intros H; specialize (H2 H); lia|split; [|split; [congruence|]]]]].
      - right. split; [cbn; rewrite Ep; cbn; lia|]. split; [cbn [with_cur tk_peeked]; rewrite Ep; cbn; tauto|]. cbn [with_cur tk_line]. lia.
      - intros (P1 & P2). rewrite Ec in P1. destruct (H3 P1) as (H4 & H5). split; [now split|right; lia].
      - intros _. now split. }
    assert (R : forall t', tk_peeked t' = [] -> tk_rest t' = tk_rest t -> tk_line t' = tk_line t -> length (tk_cur t') < length (ch :: cur) ->
                (plain_line (ch :: cur) -> plain_line (tk_cur t')) -> next_facts t (next_rec fuel t')).
    { intros t' H1 H2 H3 H4 H5. assert (S : tok_size t' < tok_size t) by (rewrite !tok_size_eq, H1, H2, Ec, Ep; lia).
      assert (G : good t').
      { right. split; [rewrite H1; cbn; lia|]. split; [rewrite H1; cbn; tauto|]. rewrite H3. lia. }
      assert (S' : tok_size t' < fuel) by lia. specialize (IH t' G S').
      destruct (next_rec fuel t') as [[[x u]|e]|k|]; cbn [next_facts] in IH |- *; auto.
      - destruct IH as (I1 & I2 & I3 & I4 & I5 & I6). split; [assumption|]. split; [lia|]. split; [lia|]. split; [|auto].
        intros (P1 & P2). rewrite Ec in P1. destruct I4 as (I4 & I7); [split; [auto|now rewrite H2]|]. split; [assumption|]. destruct I7; [now left|right; lia].
      - intros (P1 & P2). apply IH. rewrite Ec in P1. split; [auto|now rewrite H2]. }
    destruct ((ch =? 32) || (ch =? 9))%N eqn:E0.
    { assert (Hw : is_ws ch = true) by (unfold is_ws; lia). cbn [skip_ws]. rewrite Hw.
      destruct (skip_ws_size cur) as (S1 & S2). cbn [length]. apply T1; cbn [length]; try lia; try discriminate.
      intros P. inversion P; subst. split; [auto|lia]. }
    destruct (ch =? 36)%N eqn:E36.
    { unfold process_directive. rewrite E36. cbn [assert_]. destruct (word_loop _ _ _) as [[[d c]|e]|k|] eqn:Ew; cbn [bind].
      - apply word_loop_size in Ew as (S1 & S2).
        assert (X : forall x, x <> T_End -> x <> T_Blank -> next_facts t (Done (Ok (x, with_cur t c)))).
        { intros x Hx Hx'. apply T1; cbn [length]; try lia; try assumption. intros P. inversion P; subst. split; [auto|lia]. }
        destruct (bytes_eqb _ _); [apply X; discriminate|]. destruct (bytes_eqb _ _); [apply X; discriminate|]. exact I.
      - exact I.
      - cbn [next_facts]. intros (P & _). rewrite Ec in P. inversion P as [|? ? _ P']; subst.
        destruct (word_loop_no_panic (length cur) cur [36%N] P' (le_n _)) as (r & Er). congruence.
      - now apply word_loop_no_diverge in Ew. }
    destruct (ch =? 34)%N eqn:E34.
    { unfold process_quoted_string. rewrite E34. cbn [assert_]. destruct (quote_loop _ _ _) as [[[[cl s] c]|e]|k|] eqn:Ew; cbn [bind].
      - apply quote_loop_size in Ew as (S1 & S2). destruct cl; [|exact I].
        apply T1; cbn [length]; try lia; try discriminate. intros P. inversion P; subst. split; [auto|lia].
      - exact I.
      - cbn [next_facts]. intros (P & _). rewrite Ec in P. inversion P as [|? ? _ P']; subst.
        destruct (quote_loop_no_panic (length cur) cur [] P' (le_n _)) as (r & Er). congruence.
      - now apply quote_loop_no_diverge in Ew. }
    destruct (ch =? 40)%N eqn:E40.
    { destruct (tk_multi t); [exact I|]. apply R; cbn; auto; try lia. intros P. now inversion P. }
    destruct (ch =? 41)%N eqn:E41.
    { destruct (tk_multi t); [|exact I]. apply R; cbn; auto; try lia. intros P. now inversion P. }
    destruct (ch =? 59)%N eqn:E59.
    { apply R; cbn; auto; try lia. intros P. constructor. }
    unfold process_string_or_number. destruct (word_loop _ _ _) as [[[d c]|e]|k|] eqn:Ew; cbn [bind].
    + assert (X : forall x, x <> T_End -> x <> T_Blank -> next_facts t (Done (Ok (x, with_cur t c)))).
      { intros x Hx Hx'. pose proof (word_loop_size _ _ _ _ _ Ew) as (S1 & S2). apply T1; try lia; try assumption; [intros; contradiction|].
        intros P. split; [auto|]. eapply word_loop_progress; [exact E59|exact E40|exact E41| |exact Ew].
        inversion P as [|? ? (_ & Pw) _]; subst. destruct (is_ws ch); [|reflexivity]. destruct (Pw eq_refl); subst; discriminate. }
      destruct (bytes_eqb _ _); [apply X; discriminate|]. destruct (parse_u32 _); apply X; discriminate.
    + exact I.
    + cbn [next_facts]. intros (P & _). rewrite Ec in P.
      destruct (word_loop_no_panic (length (ch :: cur)) (ch :: cur) [] P (le_n _)) as (r & Er). congruence.
    + now apply word_loop_no_diverge in Ew.
Qed.

(** More fuel than needed changes nothing. *)
Lemma next_rec_fuel : forall f1 f2 t, tok_size t < f1 -> tok_size t < f2 -> next_rec f1 t = next_rec f2 t.
Proof.
  induction f1 as [|f1 IH]; intros f2 t L1 L2; [lia|]. destruct f2 as [|f2]; [lia|]. cbn [next_rec].
  destruct (bootstrap t) as [[t1|x]|e] eqn:Eb; [|reflexivity|reflexivity].
  assert (B1 : tok_size t1 <= tok_size t).
  { unfold bootstrap in Eb. destruct (tk_line t =? 0).
    - destruct (load_new_line _ _) as [[[[l|] f] n]|e] eqn:E; [|destruct (tk_multi t); discriminate|discriminate].
      apply load_some in E as (E1 & _). assert (t1 = mkTok f l (tk_peeked t) (tk_multi t) n) as -> by congruence.
      rewrite !tok_size_eq. cbn [tk_cur tk_rest tk_peeked]. lia.
    - assert (t1 = t) as -> by congruence. lia. }
  destruct (fetch t1) as [[tk t2|t2]|e] eqn:Ef; [reflexivity| |reflexivity].
  assert (B2 : tok_size t2 <= tok_size t1).
  { unfold fetch in Ef. destruct (tk_peeked t1) as [|q ps] eqn:Ep; [|discriminate]. destruct (tk_cur t1) eqn:Ec.
    - destruct (load_new_line _ _) as [[[[l|] f] n]|e] eqn:E; [| |discriminate]; destruct (tk_multi t1) eqn:Em; try discriminate.
      apply load_some in E as (E1 & _). assert (t2 = mkTok f l [] true n) as -> by congruence.
      rewrite !tok_size_eq. cbn [tk_cur tk_rest tk_peeked]. rewrite Ec, Ep. cbn [length]. lia.
    - assert (t2 = t1) as -> by congruence. lia. }
  destruct (tk_cur t2) as [|ch cur] eqn:Ec; [reflexivity|].
  assert (R : forall t', tk_rest t' = tk_rest t2 -> tk_peeked t' = tk_peeked t2 -> length (tk_cur t') < length (ch :: cur) ->
              next_rec f1 t' = next_rec f2 t').
  { intros t' H1 H2 H3. assert (tok_size t' < tok_size t2) by (rewrite !tok_size_eq, H1, H2, Ec; lia). apply IH; lia. }
  destruct ((ch =? 32) || (ch =? 9))%N; [reflexivity|]. destruct (ch =? 36)%N; [reflexivity|]. destruct (ch =? 34)%N; [reflexivity|].
  destruct (ch =? 40)%N. { destruct (tk_multi t2); [reflexivity|]. apply R; cbn; auto; lia. }
  destruct (ch =? 41)%N. { destruct (tk_multi t2); [|reflexivity]. apply R; cbn; auto; lia. }
  destruct (ch =? 59)%N; [|reflexivity]. apply R; cbn; auto; lia.
Qed.

Definition next_factsT (t : tok) (r : exec (result (token * tok) zone_err)) : Prop :=
  match r with
  | Done (Ok (x, t')) =>
      good t' /\ tok_size t' <= tok_size t /\ (x = T_Blank -> tok_size t' < tok_size t) /\
      (plain t -> plain t' /\ (x = T_End \/ tok_size t' < tok_size t)) /\
      (x = T_End -> ended t') /\ (x <> T_End -> 1 <= tk_line t' /\ tk_peeked t' = [])
  | Done (Err _) => True
  | Panic _ => ~ plain t
  | Diverge => False
  end.
Lemma next_ok : forall t, good t -> next_factsT t (next t).
Proof.
  intros t G. unfold next. pose proof (next_rec_facts (S (tok_size t)) t G (Nat.lt_succ_diag_r _)) as F.
  generalize dependent (S (tok_size t)). intros fuel F.
  destruct (next_rec fuel t) as [[[x t']|e]|k|]; exact F.
Qed.

Lemma ended_next : forall t, ended t -> exists t', next t = Done (Ok (T_End, t')) /\ ended t'.
Proof.
  intros t D. unfold next. destruct (ended_next_rec (tok_size t) t D) as (t' & -> & D' & _). exists t'. now split.
Qed.

(** Blanks are skipped with the fuel supplied. *)
Lemma skip_blanks_ok : forall fuel t, good t -> tok_size t < fuel -> next_factsT t (skip_blanks fuel t) /\
  (forall x t', skip_blanks fuel t = Done (Ok (x, t')) -> x <> T_Blank).
Proof.
  induction fuel as [|fuel IH]; intros t G L; [lia|]. cbn [skip_blanks]. unfold bindTk.
  pose proof (next_ok t G) as F. destruct (next t) as [[[x t1]|e]|k|] eqn:En; cbn [bindR bind]; cbn [fst snd].
  - destruct x; try (split; [exact F|]; unfold retT; intros y u Ey; congruence).
    destruct F as (G' & _ & F2 & F3 & _). specialize (F2 eq_refl). destruct (IH t1 G' ltac:(lia)) as (I1 & I2).
    split; [|exact I2]. destruct (skip_blanks fuel t1) as [[[y u]|e]|k|]; cbn [next_factsT] in *; auto.
    + destruct I1 as (J1 & J2 & J3 & J4 & J5 & J6). split; [assumption|]. split; [lia|]. split; [intros H; specialize (J3 H); lia|].
      split; [|auto]. intros P. destruct (F3 P) as (P1 & _). destruct (J4 P1) as (P2 & P3). split; [assumption|]. destruct P3; [now left|right; lia].
    + intros P. apply I1. now apply F3.
  - split; [exact I|discriminate].
  - split; [exact F|discriminate].
  - destruct F.
Qed.
Lemma next_after_blanks_ok : forall t, good t -> next_factsT t (next_after_blanks t) /\
  (forall x t', next_after_blanks t = Done (Ok (x, t')) -> x <> T_Blank).
Proof. intros t G. apply skip_blanks_ok; [assumption|lia]. Qed.

(** Peeking *)
Definition peek_factsT (t : tok) (r : exec (result (token * tok) zone_err)) : Prop :=
  match r with
  | Done (Ok (x, t')) =>
      good t' /\ (x <> T_End -> tok_size t' <= S (tok_size t)) /\
      (plain t -> plain t' /\ (x <> T_End -> tok_size t' <= tok_size t)) /\
      (x = T_End -> ended t') /\ (x <> T_End -> 1 <= tk_line t' /\ tk_peeked t' = [x])
  | Done (Err _) => True
  | Panic _ => ~ plain t
  | Diverge => False
  end.
Lemma repeek_ok : forall t m, next_factsT t (m t) ->
  peek_factsT t (bindR (m t) (fun x => Done (Ok (fst x, with_peeked (snd x) (tk_peeked (snd x) ++ [fst x]))))).
Proof.
  intros t m F. destruct (m t) as [[[x t1]|e]|k|]; cbn [bindR bind fst snd]; auto.
  destruct F as (G & F1 & F2 & F3 & F4 & F5). cbn [peek_factsT].
  assert (C : x = T_End \/ x <> T_End) by (destruct x; (now left) || (right; discriminate)). destruct C as [->|Hx].
  - specialize (F4 eq_refl). destruct F4 as (D1 & D2 & D3 & D4).
    assert (D : ended (with_peeked t1 (tk_peeked t1 ++ [T_End]))).
    { repeat split; cbn [with_peeked tk_rest tk_cur tk_multi tk_peeked]; try assumption. apply Forall_app. now repeat constructor. }
    split; [now left|]. split; [congruence|]. split; [|split; [auto|congruence]].
    intros P. split; [exact (proj1 (F3 P))|congruence].
  - destruct (F5 Hx) as (L & Ep). rewrite Ep. cbn [app].
    assert (S : tok_size (with_peeked t1 [x]) = S (tok_size t1)).
    { rewrite !tok_size_eq. cbn [with_peeked tk_rest tk_cur tk_peeked]. rewrite Ep. cbn [length]. lia. }
    split; [|split; [intros _; lia|split; [|split; [congruence|now split]]]].
    + right. cbn [with_peeked tk_peeked tk_line]. split; [cbn; lia|]. split; [|lia]. intros [H|[]]. congruence.
    + intros P. destruct (F3 P) as (P1 & P2). split; [exact P1|]. intros _. destruct P2; [contradiction|lia].
Qed.
Lemma peek_ok : forall t, good t -> peek_factsT t (peek t).
Proof. intros t G. exact (repeek_ok t next (next_ok t G)). Qed.
Lemma peek_after_blanks_ok : forall t, good t -> peek_factsT t (peek_after_blanks t) /\
  (forall x t', peek_after_blanks t = Done (Ok (x, t')) -> x <> T_Blank).
Proof.
  intros t G. destruct (next_after_blanks_ok t G) as (F & N). split; [exact (repeek_ok t next_after_blanks F)|].
  intros x t' E. unfold peek_after_blanks in E. apply bindR_inv in E as ((y & u) & E1 & E2). apply N in E1. cbn [fst snd] in E2. congruence.
Qed.

