(** Two files that agree on their first lines, as the loader reads them: the tokenizer. *)
From Verif Require Import Base Types Name NameSpec Codec Zone Tokens Parser TokenSpec TokenProofs TokenSim PropCodec3 ReportSim.

Lemma word_loop_incl : forall n cur acc w c, word_loop n cur acc = Done (Ok (w, c)) -> incl c cur.
Proof.
  induction n as [|n IH]; intros cur acc w c E; cbn [word_loop] in E.
  - assert (c = cur) as -> by congruence. apply incl_refl.
  - destruct cur as [|ch cur]; [discriminate|]. destruct (ch =? BACKSLASH)%N.
    + destruct cur as [|ch' cur]; [discriminate|]. apply IH in E. intros z Hz. right. right. now apply E.
    + destruct ((ch =? 59) || (ch =? 40) || (ch =? 41))%N. { assert (c = ch :: cur) as -> by congruence. apply incl_refl. }
      destruct (is_ws ch). { assert (c = ch :: cur) as -> by congruence. apply incl_refl. }
      apply IH in E. intros z Hz. right. now apply E.
Qed.
Lemma quote_loop_incl : forall n cur acc cl w c, quote_loop n cur acc = Done (Ok (cl, w, c)) -> incl c cur.
Proof.
  induction n as [|n IH]; intros cur acc cl w c E; cbn [quote_loop] in E.
  - assert (c = cur) as -> by congruence. apply incl_refl.
  - destruct cur as [|ch cur]; [discriminate|]. destruct (ch =? BACKSLASH)%N.
    + destruct cur as [|ch' cur]; [discriminate|]. apply IH in E. intros z Hz. right. right. now apply E.
    + destruct (ch =? 34)%N. { assert (c = cur) as -> by congruence. apply incl_tl, incl_refl. }
      apply IH in E. intros z Hz. right. now apply E.
Qed.
Lemma skip_ws_incl : forall l, incl (skip_ws l) l.
Proof. induction l as [|c l IH]; [apply incl_refl|]. cbn [skip_ws]. destruct (is_ws c); [now apply incl_tl|apply incl_refl]. Qed.

Lemma bindTk_ext : forall A C (m : T A) (k k' : A -> T C) u, (forall x v, k x v = k' x v) -> bindTk m k u = bindTk m k' u.
Proof. intros A C m k k' u H. unfold bindTk. destruct (m u) as [[[x v]|e]|kd|]; cbn [bindR bind fst snd]; [apply H|reflexivity..]. Qed.
Lemma load_skipn : forall f n l g n1, load_new_line (skipn n f) n = Ok (Some l, g, n1) -> nth_error f (pred n1) = Some (Some l) /\ g = skipn n1 f.
Proof.
  intros f n. remember (skipn n f) as h eqn:E. revert n E. induction h as [|[l0|] h IH]; intros n E l g n1 H; cbn [load_new_line] in H; try discriminate H.
  assert (Ef : nth_error f n = Some (Some l0) /\ skipn (S n) f = h).
  { clear - E. revert n E. induction f as [|o f IH]; intros [|n] E; cbn in E; try discriminate E; cbn; [|].
    - inversion E; subst. now split.
    - destruct (IH n E) as (A & B). now split. }
  destruct Ef as (E1 & E2). destruct (has_content l0).
  - assert (l = l0 /\ g = h /\ n1 = S n) as (-> & -> & ->) by (repeat split; congruence). now split.
  - exact (IH (S n) (eq_sym E2) l g n1 H).
Qed.

Section Near.
  Variable f0 : file.
  Variable B : nat. Variables r r' : file. Variable strict : Prop.
  Hypothesis Rr : readable r. Hypothesis Rr' : readable r'.

  (** At the start of a line that is not idle. *)
  Definition bnd (t : tok) : Prop := nth_error f0 (pred (tk_line t)) = Some (Some (tk_cur t)) /\ has_content (tk_cur t) = true /\ tk_multi t = false.
  Definition plainc (o : option line) : Prop := forall l, o = Some l -> ~ In 40%N l.
  Record W (t t' : tok) : Prop := mkW {
    w_rest : exists c, tk_rest t = c ++ r /\ tk_rest t' = c ++ r' /\ tk_line t + length c = B /\ readable c /\ (strict -> Forall plainc c);
    w_cur : tk_cur t = tk_cur t'; w_peeked : tk_peeked t = tk_peeked t'; w_multi : tk_multi t = tk_multi t'; w_line : tk_line t = tk_line t';
    w_pos : 1 <= tk_line t; w_len : length (tk_peeked t) <= 1; w_noend : ~ In T_End (tk_peeked t);
    w_strict : strict -> tk_multi t = false /\ ~ In 40%N (tk_cur t);
    w_file : tk_rest t = skipn (tk_line t) f0; w_bnd : In T_NewLine (tk_peeked t) -> bnd t }.
  Definition after (q : file) (t : tok) : Prop :=
    tk_peeked t = [] /\ 1 <= tk_line t /\ tk_multi t = false /\ (ended t \/ q <> [] /\ B < tk_line t /\ has_content (tk_cur t) = true).
  Definition X0 (t t' : tok) : Prop := after r t /\ after r' t'.
  Definition X1 (t t' : tok) : Prop := exists a b, eol a = true /\ eol b = true /\ tk_peeked t = [a] /\ tk_peeked t' = [b] /\ X0 (with_peeked t []) (with_peeked t' []).

  Lemma w_good : forall t t', W t t' -> good t /\ good t'.
  Proof.
    intros t t' [H1 H2 H3 H4 H5 H6 H7 H8 H9 H10 H11]. split; right; [|rewrite <- H3, <- H5]; (split; [exact H7|split; [exact H8|intros X; lia]]).
  Qed.

  Lemma load_near : forall c n, readable c ->
    (exists l c1 n1, load_new_line (c ++ r) n = Ok (Some l, c1 ++ r, n1) /\ load_new_line (c ++ r') n = Ok (Some l, c1 ++ r', n1) /\
       n1 + length c1 = n + length c /\ n < n1 /\ readable c1 /\ has_content l = true /\ (Forall plainc c -> Forall plainc c1 /\ ~ In 40%N l)) \/
    (load_new_line (c ++ r) n = load_new_line r (n + length c) /\ load_new_line (c ++ r') n = load_new_line r' (n + length c)).
  Proof.
    induction c as [|[l|] c IH]; intros n Hc.
    - right. cbn [app length]. now rewrite Nat.add_0_r.
    - cbn [app load_new_line length]. inversion Hc as [|? ? _ Hc']; subst. destruct (has_content l) eqn:E.
      + left. exists l, c, (S n). split; [reflexivity|]. split; [reflexivity|]. split; [lia|]. split; [lia|]. split; [exact Hc'|]. split; [exact E|].
        intros P. inversion P as [|? ? P1 P2]; subst. split; [exact P2|now apply P1].
      + destruct (IH (S n) Hc') as [(l1 & c1 & n1 & H1 & H2 & H3 & H4 & H5 & H6 & H7)|(H1 & H2)].
        * left. exists l1, c1, n1. split; [exact H1|]. split; [exact H2|]. split; [lia|]. split; [lia|]. split; [exact H5|]. split; [exact H6|].
          intros P. inversion P; subst. now apply H7.
        * right. rewrite H1, H2. replace (S n + length c) with (n + S (length c)) by lia. now split.
    - inversion Hc as [|? ? X _]. now destruct X.
  Qed.
  Lemma load_readable : forall q m, readable q ->
    (exists m', load_new_line q m = Ok (None, [], m') /\ m <= m') \/
    (exists l f m', load_new_line q m = Ok (Some l, f, m') /\ m < m' /\ has_content l = true /\ q <> []).
  Proof.
    intros q m H. destruct (load_new_line q m) as [[[[l|] f] n]|e] eqn:E.
    - right. exists l, f, n. pose proof (load_some _ _ _ _ _ E) as (_ & L & C & _). split; [reflexivity|]. split; [exact L|]. split; [exact C|]. intros ->. discriminate E.
    - left. pose proof (load_none _ _ _ _ E) as (-> & L). now exists n.
    - exfalso. revert m E. induction H as [|[l|] q Hl Hq IH]; intros m E; cbn [load_new_line] in E; [discriminate| |now apply Hl].
      destruct (has_content l); [discriminate|]. now apply IH in E.
  Qed.

  Definition tokrel {E} (o o' : exec (result (token * tok) E)) : Prop :=
    match o, o' with
    | Done (Ok (x, t1)), Done (Ok (x', t1')) => (x = x' /\ x <> T_End /\ tk_peeked t1 = [] /\ W t1 t1' /\ (x = T_NewLine -> bnd t1)) \/ (eol x = true /\ eol x' = true /\ X0 t1 t1')
    | Done (Err _), Done (Err _) => True
    | Panic k, Panic k' => k = k'
    | Diverge, Diverge => True
    | _, _ => False
    end \/
    ~ strict /\ match o with
                | Done (Ok (x, t1)) => good t1 /\ 1 <= tk_line t1 /\ (x = T_End /\ ended t1 \/ x <> T_End /\ tk_peeked t1 = [] /\ S B + (if eol x then 1 else 0) <= tk_line t1)
                | _ => True end.

  Lemma next_rec_near : forall F t t', W t t' -> tok_size t < F -> tok_size t' < F -> tokrel (next_rec F t) (next_rec F t').
  Proof.
    induction F as [|F IH]; intros t t' HW L L'; [lia|].
    pose proof HW as [(c & C1 & C2 & C3 & C4 & C5) H2 H3 H4 H5 H6 H7 H8 H9 H10 H11].
    assert (Bt : bootstrap t = Ok (inl t)). { unfold bootstrap. destruct (tk_line t =? 0) eqn:X; [apply Nat.eqb_eq in X; lia|reflexivity]. }
    assert (Bt' : bootstrap t' = Ok (inl t')). { unfold bootstrap. destruct (tk_line t' =? 0) eqn:X; [apply Nat.eqb_eq in X; lia|reflexivity]. }
    assert (G : forall t2 t2', fetch t = Ok (F_Chars t2) -> fetch t' = Ok (F_Chars t2') -> W t2 t2' -> tk_peeked t2 = [] -> tok_size t2 <= tok_size t -> tok_size t2' <= tok_size t' ->
      tokrel (next_rec (S F) t) (next_rec (S F) t')).
    { intros t2 t2' Ft Ft' HW2 P2 S2 S2'. cbn [next_rec]. rewrite Bt, Bt', Ft, Ft'. clear HW C1 C2 C3 C4 C5 c H2 H3 H4 H5 H6 H7 H8 H9 H10 H11.
      pose proof HW2 as [(c & C1 & C2 & C3 & C4 & C5) H2 H3 H4 H5 H6 H7 H8 H9 H10 H11]. rewrite <- H2.
      destruct (tk_cur t2) as [|ch cur] eqn:Ec; [left; reflexivity|].
      assert (T1 : forall x c0, incl c0 (ch :: cur) -> x <> T_End /\ x <> T_NewLine -> @tokrel token_err (Done (Ok (x, with_cur t2 c0))) (Done (Ok (x, with_cur t2' c0)))).
      { intros x c0 Hc (Hx & Hx'). left. left. split; [reflexivity|]. split; [exact Hx|]. split; [exact P2|]. split; [|intros X; now destruct Hx'].
        split; cbn [with_cur tk_rest tk_cur tk_peeked tk_multi tk_line]; try assumption; [now exists c|reflexivity| |rewrite P2; intros []].
        intros St. destruct (H9 St) as (X & Y). split; [exact X|]. intros Z. apply Y, Hc, Z. }
      assert (R : forall m c0, incl c0 (ch :: cur) -> (strict -> m = false) -> length c0 < length (ch :: cur) -> tokrel (next_rec F (with_multi t2 c0 m)) (next_rec F (with_multi t2' c0 m))).
      { intros m c0 Hc Hm Lc. apply IH.
        - split; cbn [with_multi tk_rest tk_cur tk_peeked tk_multi tk_line]; try assumption; try reflexivity; [now exists c| |rewrite P2; intros []].
          intros St. destruct (H9 St) as (X & Y). split; [now apply Hm|]. intros Z. apply Y, Hc, Z.
        - rewrite !tok_size_eq in *. cbn [with_multi tk_cur tk_rest tk_peeked] in *. rewrite Ec in S2. lia.
        - rewrite !tok_size_eq in *. cbn [with_multi tk_cur tk_rest tk_peeked] in *. rewrite <- H2 in S2'. lia. }
      assert (Inc : incl cur (ch :: cur)) by apply incl_tl, incl_refl.
      destruct ((ch =? 32) || (ch =? 9))%N. { apply T1; [apply skip_ws_incl|now split]. }
      destruct (ch =? 36)%N eqn:E36.
      { unfold process_directive. rewrite E36. cbn [assert_]. destruct (word_loop _ _ _) as [[[d c0]|e]|k|] eqn:Ew; cbn [bind]; try (left; reflexivity); try (left; exact Logic.I).
        pose proof (word_loop_incl _ _ _ _ _ Ew) as Ic.
        destruct (bytes_eqb _ _); [apply T1; [now apply incl_tl|now split]|]. destruct (bytes_eqb _ _); [apply T1; [now apply incl_tl|now split]|left; exact Logic.I]. }
      destruct (ch =? 34)%N eqn:E34.
      { unfold process_quoted_string. rewrite E34. cbn [assert_]. destruct (quote_loop _ _ _) as [[[[cl s] c0]|e]|k|] eqn:Ew; cbn [bind]; try (left; reflexivity); try (left; exact Logic.I).
        pose proof (quote_loop_incl _ _ _ _ _ _ Ew) as Ic. destruct cl; [apply T1; [now apply incl_tl|now split]|left; exact Logic.I]. }
      rewrite <- H4.
      destruct (ch =? 40)%N eqn:E40.
      { destruct (tk_multi t2); [left; exact Logic.I|]. apply R; [exact Inc| |cbn; lia]. intros St. destruct (H9 St) as (_ & Y). destruct Y. left. now apply N.eqb_eq. }
      destruct (ch =? 41)%N. { destruct (tk_multi t2); [|left; exact Logic.I]. apply R; [exact Inc|reflexivity|cbn; lia]. }
      destruct (ch =? 59)%N. { assert (X : with_cur t2' [] = with_multi t2' [] (tk_multi t2)) by (unfold with_cur, with_multi; now rewrite H4). rewrite X.
        apply (R (tk_multi t2) []); [intros z []|intros St; now apply H9|cbn; lia]. }
      unfold process_string_or_number. destruct (word_loop _ _ _) as [[[d c0]|e]|k|] eqn:Ew; cbn [bind]; try (left; reflexivity); try (left; exact Logic.I).
      pose proof (word_loop_incl _ _ _ _ _ Ew) as Ic.
      destruct (bytes_eqb _ _); [apply T1; [exact Ic|now split]|]. destruct (parse_u32 _); (apply T1; [exact Ic|now split]). }
    destruct (tk_peeked t) as [|q ps] eqn:Ep.
    2:{ destruct ps as [|? ?]; [|cbn in H7; lia]. cbn [next_rec]. rewrite Bt, Bt'. unfold fetch. rewrite Ep, <- H3.
        left. left. split; [reflexivity|]. split; [intros ->; apply H8; now left|]. split; [reflexivity|]. split; [|intros ->; apply H11; now left].
        split; cbn [with_peeked tk_rest tk_cur tk_peeked tk_multi tk_line]; try assumption; try reflexivity; [now exists c|cbn; lia|intros []|intros []]. }
    destruct (tk_cur t) as [|ch cur] eqn:Ec.
    2:{ apply (G t t'); try lia; try assumption; unfold fetch; [rewrite Ep, Ec|rewrite <- H3, <- H2]; reflexivity. }
    destruct (load_near c (tk_line t) C4) as [(l & c1 & n1 & D1 & D2 & D3 & D4 & D5 & D6 & D7)|(D1 & D2)].
    - (* the same line on both sides *)
      assert (Ld : nth_error f0 (pred n1) = Some (Some l) /\ c1 ++ r = skipn n1 f0). { apply (load_skipn f0 (tk_line t)). rewrite <- H10, C1. exact D1. }
      assert (W1 : W (mkTok (c1 ++ r) l [] (tk_multi t) n1) (mkTok (c1 ++ r') l [] (tk_multi t') n1)).
      { split; cbn [tk_rest tk_cur tk_peeked tk_multi tk_line]; try reflexivity; try assumption; try lia.
        - exists c1. split; [reflexivity|]. split; [reflexivity|]. split; [lia|]. split; [exact D5|]. intros St. now apply D7, C5.
        - intros St. split; [now apply H9|]. now apply D7, C5.
        - apply Ld.
        - intros []. }
      destruct (tk_multi t) eqn:Em.
      + pose proof (load_some _ _ _ _ _ D1) as (Z1 & _). pose proof (load_some _ _ _ _ _ D2) as (Z2 & _).
        apply (G (mkTok (c1 ++ r) l [] true n1) (mkTok (c1 ++ r') l [] (tk_multi t') n1)); try assumption; try reflexivity.
        * unfold fetch. rewrite Ep, Ec, C1, D1, Em. reflexivity.
        * unfold fetch. rewrite <- H3, <- H2, C2, <- H5, D2, <- H4. reflexivity.
        * rewrite !tok_size_eq. cbn [tk_cur tk_rest tk_peeked length]. rewrite C1. lia.
        * rewrite !tok_size_eq. cbn [tk_cur tk_rest tk_peeked length]. rewrite C2. lia.
      + cbn [next_rec]. rewrite Bt, Bt'. unfold fetch. rewrite Ep, <- H3, Ec, <- H2, C1, C2, <- H5, D1, D2, Em, <- H4. rewrite <- H4 in W1.
        left. left. split; [reflexivity|]. split; [discriminate|]. split; [reflexivity|]. split; [exact W1|]. intros _. split; [apply Ld|]. now split.
    - (* beyond the common lines *)
      rewrite C3 in D1, D2. destruct (tk_multi t) eqn:Em.
      + right. split; [intros St; destruct (H9 St) as (X & _); discriminate X|].
        destruct (load_readable r B Rr) as [(m & Z & _)|(l & f & m & Z & Lm & Hc & _)].
        { cbn [next_rec]. rewrite Bt. unfold fetch. rewrite Ep, Ec, C1, D1, Z, Em. exact Logic.I. }
        set (t2 := mkTok f l [] true m).
        assert (E : next_rec (S F) t = next_rec (S F) t2).
        { cbn [next_rec]. rewrite Bt. unfold fetch at 1. rewrite Ep, Ec, C1, D1, Z, Em.
          unfold bootstrap. destruct (tk_line t2 =? 0) eqn:X; [apply Nat.eqb_eq in X; cbn in X; lia|].
          unfold fetch. cbn [t2 tk_peeked tk_cur]. fold t2. destruct l; [discriminate Hc|reflexivity]. }
        rewrite E. destruct (next_rec (S F) t2) as [[[x t1]|e]|k|] eqn:Ex; auto.
        assert (G2 : good t2). { right. cbn. split; [lia|]. split; [intros []|]. lia. }
        assert (S2 : tok_size t2 < S F).
        { rewrite tok_size_eq in L. rewrite tok_size_eq. cbn [t2 tk_cur tk_rest tk_peeked length]. pose proof (load_some _ _ _ _ _ (eq_trans D1 Z)) as (Z1 & _). rewrite C1 in L. lia. }
        assert (L2 : late (S B) t2). { right. rewrite pend_nil by reflexivity. cbn. lia. }
        destruct (late_next_rec (S F) (S B) t2 x t1 G2 ltac:(cbn; lia) S2 L2 Ex) as (A1 & A2 & A3). split; [exact A1|]. split; [cbn in A2; lia|exact A3].
      + left. cbn [next_rec]. rewrite Bt, Bt'. unfold fetch. rewrite Ep, <- H3, Ec, <- H2, C1, C2, <- H5, D1, D2, Em, <- H4.
        assert (K : forall q m, readable q -> 1 <= m -> B <= m -> exists x u,
          match load_new_line q m with
          | Ok (None, f, n) => Ok (F_Token T_End (mkTok f [] [] false n))
          | Ok (Some l, f, n) => Ok (F_Token T_NewLine (mkTok f l [] false n))
          | Err e => Err e end = Ok (F_Token x u) /\ eol x = true /\ after q u).
        { intros q m Hq Hm HB. destruct (load_readable q m Hq) as [(m' & Z & Lm)|(l & f & m' & Z & Lm & Hc & Nq)]; rewrite Z; eexists; eexists; (split; [reflexivity|]); (split; [reflexivity|]).
          - split; [reflexivity|]. split; [cbn; lia|]. split; [reflexivity|]. left. repeat split. constructor.
          - split; [reflexivity|]. split; [cbn; lia|]. split; [reflexivity|]. right. split; [exact Nq|]. split; [cbn; lia|exact Hc]. }
        destruct (K r B Rr ltac:(lia) ltac:(lia)) as (x & u & E1 & E2 & E3). destruct (K r' B Rr' ltac:(lia) ltac:(lia)) as (x' & u' & E1' & E2' & E3').
        destruct (load_new_line r B) as [[[[l|] f] n]|e], (load_new_line r' B) as [[[[l'|] f'] n']|e']; try discriminate E1; try discriminate E1';
          (right; assert (Y1 := E1); assert (Y2 := E1'); inversion Y1; inversion Y2; subst; split; [exact E2|split; [exact E2'|split; [exact E3|exact E3']]]).
  Qed.

  Lemma next_near : forall t t', W t t' -> tokrel (next t) (next t').
  Proof.
    intros t t' HW. unfold next. set (F := S (tok_size t + tok_size t')).
    rewrite (next_rec_fuel (S (tok_size t)) F t), (next_rec_fuel (S (tok_size t')) F t') by (unfold F; lia).
    pose proof (next_rec_near F t t' HW ltac:(unfold F; lia) ltac:(unfold F; lia)) as H. clearbody F.
    destruct H as [H|(S1 & H)]; [left|right; split; [exact S1|]].
    - destruct (next_rec F t) as [[[x u]|e]|k|], (next_rec F t') as [[[x' u']|e']|k'|]; cbn [bind]; try contradiction; exact H.
    - destruct (next_rec F t) as [[[x u]|e]|k|]; cbn [bind]; auto.
  Qed.
  Lemma next_peeked : forall t x, tk_peeked t = [x] -> 1 <= tk_line t -> next t = Done (Ok (x, with_peeked t [])).
  Proof.
    intros t x Ep L. unfold next. cbn [next_rec]. unfold bootstrap. destruct (tk_line t =? 0) eqn:X; [apply Nat.eqb_eq in X; lia|].
    unfold fetch. rewrite Ep. reflexivity.
  Qed.
  Definition near (t t' : tok) : Prop := W t t' \/ X1 t t'.
  Lemma next_near1 : forall t t', near t t' -> tokrel (next t) (next t').
  Proof.
    intros t t' [HW|(a & b & A & A' & P & P' & X)]; [now apply next_near|]. destruct X as (X & X').
    rewrite (next_peeked t a P), (next_peeked t' b P') by (destruct X as (_ & X & _), X' as (_ & X' & _); cbn in *; lia).
    left. right. split; [exact A|]. split; [exact A'|]. split; [exact X|exact X'].
  Qed.

  Definition esc {A} (k : nat) (o : exec (result (A * tok) zone_err)) : Prop :=
    ~ strict /\ match o with Done (Ok (_, t1)) => good t1 /\ 1 <= tk_line t1 /\ late k t1 | _ => True end.

  Lemma skip_near : forall f f' t t', near t t' -> tok_size t < f -> tok_size t' < f' -> tokrel (skip_blanks f t) (skip_blanks f' t').
  Proof.
    induction f as [|f IH]; intros f' t t' HN L L'; [lia|]. destruct f' as [|f']; [lia|]. cbn [skip_blanks]. unfold bindTk.
    assert (GW : W t t' -> next_factsT t (next t) /\ next_factsT t' (next t')).
    { intros HW. destruct (w_good _ _ HW) as (G & G'). split; now apply next_ok. }
    assert (NX : X1 t t' -> forall x u, next t = Done (Ok (x, u)) -> eol x = true).
    { intros (a & b & A & A' & P & P' & ((_ & Q & _) & _)) x u E. rewrite (next_peeked t a P) in E by (cbn in Q; exact Q). congruence. }
    destruct (next_near1 t t' HN) as [H|(Ns & H)].
    - destruct (next t) as [[[x u]|e]|k|] eqn:En, (next t') as [[[x' u']|e']|k'|] eqn:En'; cbn [bindR bind fst snd]; try contradiction; try (left; exact H).
      destruct H as [(<- & Hx & P & HW & Hb)|(H1 & H2 & H3)].
      + assert (C : x = T_Blank \/ x <> T_Blank) by (destruct x; (now left) || (right; discriminate)). destruct C as [->|C].
        * destruct HN as [HW0|HX]; [|discriminate (NX HX _ _ eq_refl)]. destruct (GW HW0) as (N & N'). cbn [next_factsT] in N, N'.
          destruct N as (_ & _ & N & _), N' as (_ & _ & N' & _). specialize (N eq_refl). specialize (N' eq_refl). apply IH; [now left|lia|lia].
        * destruct x; try (now destruct C); (left; left; split; [reflexivity|]; split; [exact Hx|]; split; [exact P|]; split; [exact HW|exact Hb]).
      + destruct x, x'; try discriminate H1; try discriminate H2; (left; right; split; [reflexivity|]; split; [reflexivity|exact H3]).
    - right. split; [exact Ns|]. destruct (next t) as [[[x u]|e]|k|] eqn:En; cbn [bindR bind fst snd]; auto. destruct H as (G & Lu & H).
      assert (C : x = T_Blank \/ x <> T_Blank) by (destruct x; (now left) || (right; discriminate)). destruct C as [->|C].
      + destruct (skip_blanks f u) as [[[y v]|e]|k|] eqn:Es; auto. apply (late_skip f (S B) u y v G Lu); [exact (late_of_tok _ _ _ H)|exact Es].
      + destruct x; try (now destruct C); (split; [exact G|split; [exact Lu|exact H]]).
  Qed.
  Lemma nab_near : forall t t', near t t' -> tokrel (next_after_blanks t) (next_after_blanks t').
  Proof. intros t t' H. apply skip_near; [exact H| |]; auto. Qed.
  Lemma skip_not_blank : forall f t x u, skip_blanks f t = Done (Ok (x, u)) -> x <> T_Blank.
  Proof.
    induction f as [|f IH]; intros t x u E; [discriminate E|]. cbn [skip_blanks] in E. unfold bindTk in E.
    destruct (next t) as [[[y v]|e]|k|]; cbn [bindR bind fst snd] in E; try discriminate E.
    destruct y; try (unfold retT in E; intros ->; congruence). exact (IH _ _ _ E).
  Qed.

  (** a token was peeked *)
  Lemma pab_near : forall t t', near t t' ->
    match peek_after_blanks t, peek_after_blanks t' with
    | Done (Ok (x, t1)), Done (Ok (x', t1')) => (x = x' /\ x <> T_End /\ x <> T_Blank /\ tk_peeked t1 = [x] /\ W t1 t1') \/ (eol x = true /\ eol x' = true /\ X1 t1 t1')
    | Done (Err _), Done (Err _) => True
    | Panic k, Panic k' => k = k'
    | Diverge, Diverge => True
    | _, _ => False
    end \/ esc (S B) (peek_after_blanks t).
  Proof.
    intros t t' HN. destruct (nab_near t t' HN) as [H|(Ns & H)].
    - left. unfold peek_after_blanks. destruct (next_after_blanks t) as [[[x u]|e]|k|] eqn:En, (next_after_blanks t') as [[[x' u']|e']|k'|] eqn:En'; cbn [bindR bind fst snd]; try contradiction; try exact H.
      destruct H as [(<- & Hx & P & HW & Hb)|(H1 & H2 & H3)].
      + left. split; [reflexivity|]. split; [exact Hx|]. split; [exact (skip_not_blank _ _ _ _ En)|]. pose proof HW as [(c & C1 & C2 & C3 & C4 & C5) Q2 Q3 Q4 Q5 Q6 Q7 Q8 Q9 Q10 Q11].
        rewrite <- Q3, P. cbn [app]. split; [reflexivity|]. split; cbn [with_peeked tk_rest tk_cur tk_peeked tk_multi tk_line]; try assumption; try reflexivity; [now exists c|intros [X|[]]; now apply Hx|].
        intros [X|[]]. destruct (Hb X) as (B1 & B2 & B3). now repeat split.
      + right. split; [exact H1|]. split; [exact H2|]. exists x, x'. destruct H3 as (A & A'). pose proof A as (P & _). pose proof A' as (P' & _).
        rewrite P, P'. split; [exact H1|]. split; [exact H2|]. split; [reflexivity|]. split; [reflexivity|].
        assert (Z : forall q u ps, tk_peeked u = [] -> after q u -> after q (with_peeked (with_peeked u ps) [])). { intros q v ps Pv Av. destruct v as [vr vc vp vm vl]. cbn in Pv. subst vp. exact Av. }
        split; [exact (Z r u _ P A)|exact (Z r' u' _ P' A')].
    - right. split; [exact Ns|]. destruct (peek_after_blanks t) as [[[x u]|e]|k|] eqn:Ep; auto.
      unfold peek_after_blanks in Ep. destruct (next_after_blanks t) as [[[y v]|e]|k|] eqn:En; cbn [bindR bind fst snd] in Ep; try discriminate Ep.
      destruct H as (G & L & H). assert (Eu : u = with_peeked v (tk_peeked v ++ [y])) by congruence. clear Ep. subst u.
      destruct H as [(-> & D1 & D2 & D3 & D4)|(C & Ev & Hl)].
      + assert (D : ended (with_peeked v (tk_peeked v ++ [T_End]))).
        { split; [exact D1|]. split; [exact D2|]. split; [exact D3|]. cbn. apply Forall_app. split; [exact D4|]. constructor; [reflexivity|constructor]. }
        split; [now left|]. split; [exact L|now left].
      + rewrite Ev. cbn [app]. split; [|split; [exact L|]].
        * right. cbn [with_peeked tk_peeked tk_line length]. split; [lia|]. split; [intros [X|[]]; now apply C|]. cbn. lia.
        * right. unfold pend. cbn [with_peeked tk_peeked existsb tk_line]. destruct (eol y); cbn [orb]; lia.
  Qed.

  (** * Actions inside an entry *)
  Definition midrel {A} (o o' : exec (result (A * tok) zone_err)) : Prop :=
    match o, o' with
    | Done (Ok (a, t1)), Done (Ok (a', t1')) => a = a' /\ near t1 t1'
    | Done (Err _), Done (Err _) => True
    | Panic k, Panic k' => k = k'
    | Diverge, Diverge => True
    | _, _ => False
    end \/ esc (S B) o.
  Definition mid {A} (m : T A) : Prop := forall t t', near t t' -> midrel (m t) (m t').
  (** and what remains of an entry, up to its line end *)
  Definition finrel {A} (o o' : exec (result (A * tok) zone_err)) : Prop :=
    match o, o' with
    | Done (Ok (a, t1)), Done (Ok (a', t1')) => a = a' /\ (W t1 t1' /\ tk_peeked t1 = [] /\ bnd t1 \/ X0 t1 t1')
    | Done (Err _), Done (Err _) => True
    | Panic k, Panic k' => k = k'
    | Diverge, Diverge => True
    | _, _ => False
    end \/ esc (S (S B)) o.
  Definition fin {A} (m : T A) : Prop := forall t t', near t t' -> finrel (m t) (m t').
  Definition closeT {A} (m : T A) : Prop := forall k t a t1, good t -> 1 <= tk_line t -> late k t -> m t = Done (Ok (a, t1)) ->
    good t1 /\ 1 <= tk_line t1 /\ late (S k) t1.
  Definition fails {A} (m : T A) : Prop := forall t, exists e, m t = Done (Err e).
  Definition tok_near (m : T token) : Prop := late_tok m /\ forall t t', near t t' -> tokrel (m t) (m t').
  Lemma tn_next : tok_near next. Proof. split; [exact late_next|exact next_near1]. Qed.
  Lemma tn_nab : tok_near next_after_blanks. Proof. split; [exact late_nab|exact nab_near]. Qed.

  Lemma mid_ret : forall A (a : A), mid (retT a). Proof. intros A a t t' H. left. now split. Qed.
  Lemma mid_fail : forall A e, @mid A (failT e). Proof. intros A e t t' H. now left. Qed.
  Lemma mid_panic : forall A k, @mid A (fun _ => Panic k). Proof. intros A k t t' H. now left. Qed.
  Lemma mid_diverge : forall A, @mid A (fun _ => Diverge). Proof. intros A t t' H. now left. Qed.
  Lemma mid_try : forall A (x : result A zone_err), mid (tryT x). Proof. intros A [a|e]; [apply mid_ret|apply mid_fail]. Qed.
  Lemma mid_bind : forall A C (m : T A) (k : A -> T C), mid m -> (forall x, mid (k x)) -> (forall x, lateT (k x)) -> mid (bindTk m k).
  Proof.
    intros A C m k Hm Hk Hl t t' HN. unfold bindTk. destruct (Hm t t' HN) as [H|(Ns & H)].
    - destruct (m t) as [[[x u]|e]|kd|], (m t') as [[[x' u']|e']|kd'|]; cbn [bindR bind fst snd]; try contradiction; try (left; exact H).
      destruct H as (<- & H). now apply Hk.
    - right. split; [exact Ns|]. destruct (m t) as [[[x u]|e]|kd|]; cbn [bindR bind fst snd]; auto. destruct H as (G & L & H).
      destruct (k x u) as [[[c v]|e]|kd|] eqn:Ek; auto. exact (Hl x (S B) u c v G L H Ek).
  Qed.
  Lemma mid_tok : forall A m (k : token -> T A), tok_near m -> (forall x, eol x = false -> mid (k x)) -> (forall x, eol x = true -> fails (k x)) -> (forall x, lateT (k x)) -> mid (bindTk m k).
  Proof.
    intros A m k (_ & Hm) Hk Hf Hl t t' HN. unfold bindTk. destruct (Hm t t' HN) as [H|(Ns & H)].
    - destruct (m t) as [[[x u]|e]|kd|], (m t') as [[[x' u']|e']|kd'|]; cbn [bindR bind fst snd]; try contradiction; try (left; exact H).
      destruct H as [(<- & Hx & P & HW & Hb)|(H1 & H2 & H3)].
      + destruct (eol x) eqn:Ex; [|apply (Hk x Ex); now left]. destruct (Hf x Ex u) as (e & ->), (Hf x Ex u') as (e' & ->). now left.
      + destruct (Hf x H1 u) as (e & ->), (Hf x' H2 u') as (e' & ->). now left.
    - right. split; [exact Ns|]. destruct (m t) as [[[x u]|e]|kd|]; cbn [bindR bind fst snd]; auto. destruct H as (G & L & H).
      destruct (k x u) as [[[c v]|e]|kd|] eqn:Ek; auto. exact (Hl x (S B) u c v G L (late_of_tok _ _ _ H) Ek).
  Qed.
  Lemma mid_peek : forall A (k : token -> T A),
    (forall x t t', x <> T_End -> x <> T_Blank -> tk_peeked t = [x] -> W t t' -> midrel (k x t) (k x t')) ->
    (forall x x' t t', eol x = true -> eol x' = true -> X1 t t' -> midrel (k x t) (k x' t')) -> (forall x, lateT (k x)) -> mid (bindTk peek_after_blanks k).
  Proof.
    intros A k H1 H2 Hl t t' HN. unfold bindTk. destruct (pab_near t t' HN) as [H|(Ns & H)].
    - destruct (peek_after_blanks t) as [[[x u]|e]|kd|], (peek_after_blanks t') as [[[x' u']|e']|kd'|]; cbn [bindR bind fst snd]; try contradiction; try (left; exact H).
      destruct H as [(<- & Hx & Hy & P & HW)|(E1 & E2 & E3)]; [now apply H1|now apply H2].
    - right. split; [exact Ns|]. destruct (peek_after_blanks t) as [[[x u]|e]|kd|]; cbn [bindR bind fst snd]; auto. destruct H as (G & L & H).
      destruct (k x u) as [[[c v]|e]|kd|] eqn:Ek; auto. exact (Hl x (S B) u c v G L H Ek).
  Qed.
  Lemma w_drop : forall t t', W t t' -> W (with_peeked t []) (with_peeked t' []).
  Proof.
    intros t t' [(c & C1 & C2 & C3 & C4 & C5) Q2 Q3 Q4 Q5 Q6 Q7 Q8 Q9 Q10 Q11].
    split; cbn [with_peeked tk_rest tk_cur tk_peeked tk_multi tk_line]; try assumption; try reflexivity; [now exists c|cbn; lia|intros []|intros []].
  Qed.
  (** the token peeked is consumed *)
  Lemma mid_consume : forall A (k : T A) x t t', tk_peeked t = [x] -> W t t' -> mid k -> midrel (bindTk next_unwrap (fun _ => k) t) (bindTk next_unwrap (fun _ => k) t').
  Proof.
    intros A k x t t' P HW Hk. unfold bindTk, next_unwrap. rewrite (next_peeked t x P (w_pos _ _ HW)).
    rewrite (next_peeked t' x); [|rewrite <- (w_peeked _ _ HW); exact P|rewrite <- (w_line _ _ HW); exact (w_pos _ _ HW)].
    cbn [bind bindR fst snd]. apply Hk. left. now apply w_drop.
  Qed.
  Lemma mid_consume_nab : forall A (k : T A) x t t', tk_peeked t = [x] -> x <> T_Blank -> W t t' -> mid k -> midrel (bindTk next_after_blanks_unwrap (fun _ => k) t) (bindTk next_after_blanks_unwrap (fun _ => k) t').
  Proof.
    intros A k x t t' P Nb HW Hk.
    assert (K : forall u, tk_peeked u = [x] -> 1 <= tk_line u -> next_after_blanks u = Done (Ok (x, with_peeked u []))).
    { intros u Pu Lu. unfold next_after_blanks. cbn [skip_blanks]. unfold bindTk. rewrite (next_peeked u x Pu Lu). cbn [bindR bind fst snd]. destruct x; try reflexivity. now destruct Nb. }
    unfold bindTk, next_after_blanks_unwrap. rewrite (K t P (w_pos _ _ HW)).
    rewrite (K t'); [|rewrite <- (w_peeked _ _ HW); exact P|rewrite <- (w_line _ _ HW); exact (w_pos _ _ HW)].
    cbn [bind bindR fst snd]. apply Hk. left. now apply w_drop.
  Qed.
  Ltac fl := let y := fresh in let H := fresh in let t := fresh in intros y H; destruct y; try discriminate H; intros t; eexists; reflexivity.
  Ltac midt := repeat match goal with
    | |- mid (bindTk next_after_blanks _) => apply (mid_tok _ _ _ tn_nab); [intros ? ?; cbv beta|fl|intros ?; cbv beta; latet]
    | |- mid (bindTk next _) => apply (mid_tok _ _ _ tn_next); [intros ? ?; cbv beta|fl|intros ?; cbv beta; latet]
    | |- mid (bindTk _ _) => apply mid_bind; [|intros ?; cbv beta|intros ?; cbv beta; latet]
    | |- mid (retT _) => apply mid_ret
    | |- mid (failT _) => apply mid_fail
    | |- mid (fun _ => Panic _) => apply mid_panic
    | |- mid (fun _ => Diverge) => apply mid_diverge
    | |- mid (tryT _) => apply mid_try
    | |- mid (let _ := _ in _) => cbv zeta
    | |- mid (match ?x with _ => _ end) => destruct x
    end.

  Lemma mid_ttl_class : mid parse_ttl_class.
  Proof.
    unfold parse_ttl_class. apply mid_peek; [| |intros x; latet].
    - intros x t t' Hx Hb P HW. destruct x as [| |s|s|n| | | |]; try (left; exact Logic.I).
      + destruct (class_from_string s) as [c|e]; [|left; split; [reflexivity|now left]]. apply (mid_consume _ _ _ t t' P HW). apply mid_peek; [| |intros y; latet].
        * intros y u u' Hy Hyb Pu HWu. destruct (try_to_ttl y) as [n|]; [|left; split; [reflexivity|now left]]. apply (mid_consume _ _ _ u u' Pu HWu). apply mid_ret.
        * intros y y' u u' Hy Hy' HX. destruct y, y'; try discriminate Hy; try discriminate Hy'; (left; split; [reflexivity|now right]).
      + apply (mid_consume _ _ _ t t' P HW). apply mid_peek; [| |intros y; latet].
        * intros y u u' Hy Hyb Pu HWu. destruct (try_to_class y) as [c|]; [|left; split; [reflexivity|now left]]. apply (mid_consume _ _ _ u u' Pu HWu). apply mid_ret.
        * intros y y' u u' Hy Hy' HX. destruct y, y'; try discriminate Hy; try discriminate Hy'; (left; split; [reflexivity|now right]).
    - intros x x' t t' Hx Hx' HX. destruct x, x'; try discriminate Hx; try discriminate Hx'; (left; exact Logic.I).
  Qed.
  Lemma mid_discard : forall fuel, mid (discard_strings fuel).
  Proof.
    induction fuel as [|fuel IH]; cbn [discard_strings]; [apply mid_diverge|]. apply mid_peek; [| |intros x; latet; apply late_discard].
    - intros x t t' Hx Hb P HW. destruct x; try (left; exact Logic.I); [exact (mid_consume_nab _ _ _ t t' P Hb HW IH)|left; split; [reflexivity|now left]|now destruct Hx].
    - intros x x' t t' Hx Hx' HX. destruct x, x'; try discriminate Hx; try discriminate Hx'; (left; split; [reflexivity|now right]).
  Qed.
  Lemma mid_txts : forall fuel acc, mid (parse_txts fuel acc).
  Proof.
    induction fuel as [|fuel IH]; intros acc; cbn [parse_txts]; [apply mid_diverge|]. apply mid_peek; [| |intros x; latet; apply late_txts].
    - intros x t t' Hx Hb P HW.
      assert (K : mid (tk! s := tryT (parse_char_string x) in parse_txts fuel (acc ++ [s]))). { apply mid_bind; [apply mid_try|intros s; apply IH|intros s; apply late_txts]. }
      destruct x; try (exact (mid_consume_nab _ _ _ t t' P Hb HW K)); [left; split; [reflexivity|now left]|now destruct Hx].
    - intros x x' t t' Hx Hx' HX. destruct x, x'; try discriminate Hx; try discriminate Hx'; (left; split; [reflexivity|now right]).
  Qed.
  Lemma mid_name_token : forall o, mid (parse_name_token o). Proof. intros. unfold parse_name_token. midt. Qed.
  Lemma mid_number : mid parse_number. Proof. unfold parse_number. midt. Qed.
  Lemma mid_a : forall n c t, mid (parse_a_record n c t). Proof. intros. unfold parse_a_record. midt. Qed.
  Lemma mid_ns : forall o n c t, mid (parse_ns_record o n c t). Proof. intros. unfold parse_ns_record. midt. apply mid_name_token. Qed.
  Lemma mid_soa : forall o n c t, mid (parse_soa_record o n c t).
  Proof. intros. unfold parse_soa_record. midt; try apply mid_name_token; try apply mid_number; try apply late_name_token; apply late_number. Qed.
  Lemma mid_data : forall fuel rt o n c t, mid (parse_record_data fuel rt o n c t).
  Proof.
    intros. destruct rt; cbn [parse_record_data]; try apply mid_a; try apply mid_ns; midt.
    - unfold parse_cname_record. midt.
    - unfold parse_wks_record. midt; try apply mid_discard; apply late_discard.
    - unfold parse_ptr_record. midt.
    - unfold parse_hinfo_record. midt.
    - unfold parse_mx_record. midt; try apply mid_name_token; apply late_name_token.
    - unfold parse_txt_record. midt. apply mid_txts.
  Qed.

  (** * Up to the line end *)
  Lemma close_fails : forall A (m : T A), fails m -> closeT m.
  Proof. intros A m H k t a t1 _ _ _ E. destruct (H t) as (e & X). congruence. Qed.
  Lemma close_panic : forall A k, @closeT A (fun _ => Panic k). Proof. intros A kd k t a t1 _ _ _ E. discriminate E. Qed.
  Lemma close_bind : forall A C (m : T A) (k : A -> T C), lateT m -> (forall x, closeT (k x)) -> closeT (bindTk m k).
  Proof.
    intros A C m k Hm Hk n t b t1 G L Lt E. unfold bindTk in E. destruct (m t) as [[[x u]|e]|kd|] eqn:Em; cbn [bindR bind fst snd] in E; try discriminate E.
    destruct (Hm n t x u G L Lt Em) as (G1 & L1 & Lt1). exact (Hk x n u b t1 G1 L1 Lt1 E).
  Qed.
  Lemma close_tok : forall A m (k : token -> T A), tok_near m -> (forall x, eol x = false -> closeT (k x)) -> (forall x, lateT (k x)) -> closeT (bindTk m k).
  Proof.
    intros A m k (Hm & _) Hk Hl n t b t1 G L Lt E. unfold bindTk in E. destruct (m t) as [[[x u]|e]|kd|] eqn:Em; cbn [bindR bind fst snd] in E; try discriminate E.
    destruct (Hm n t x u G L Lt Em) as (G1 & L1 & H). destruct (eol x) eqn:Ex.
    - apply (Hl x (S n) u b t1 G1 L1); [|exact E]. destruct H as [(_ & D)|(_ & P & H)]; [now left|]. right. rewrite (pend_nil _ P). lia.
    - apply (Hk x Ex n u b t1 G1 L1); [|exact E]. apply (late_of_tok n x). rewrite Ex. exact H.
  Qed.
  Lemma fin_fails : forall A (m : T A), fails m -> fin m.
  Proof. intros A m H t t' HN. destruct (H t) as (e & ->), (H t') as (e' & ->). now left. Qed.
  Lemma fin_panic : forall A k, @fin A (fun _ => Panic k). Proof. intros A k t t' H. now left. Qed.
  Lemma fin_bind : forall A C (m : T A) (k : A -> T C), mid m -> (forall x, fin (k x)) -> (forall x, closeT (k x)) -> fin (bindTk m k).
  Proof.
    intros A C m k Hm Hk Hl t t' HN. unfold bindTk. destruct (Hm t t' HN) as [H|(Ns & H)].
    - destruct (m t) as [[[x u]|e]|kd|], (m t') as [[[x' u']|e']|kd'|]; cbn [bindR bind fst snd]; try contradiction; try (left; exact H).
      destruct H as (<- & H). now apply Hk.
    - right. split; [exact Ns|]. destruct (m t) as [[[x u]|e]|kd|]; cbn [bindR bind fst snd]; auto. destruct H as (G & L & H).
      destruct (k x u) as [[[c v]|e]|kd|] eqn:Ek; auto. exact (Hl x (S B) u c v G L H Ek).
  Qed.
  Lemma fin_tok : forall A m (k : token -> T A), tok_near m -> (forall x, eol x = false -> fin (k x)) ->
    ((forall x, eol x = true -> fails (k x)) \/ (exists a, forall x, eol x = true -> k x = retT a)) ->
    (forall x, eol x = false -> closeT (k x)) -> (forall x, lateT (k x)) -> fin (bindTk m k).
  Proof.
    intros A m k Hm Hk Hf Hc Hl t t' HN. pose proof (close_tok A m k Hm Hc Hl) as CL. unfold bindTk in *. pose proof Hm as (Hm1 & Hm2). destruct (Hm2 t t' HN) as [H|(Ns & H)].
    - clear CL. destruct (m t) as [[[x u]|e]|kd|], (m t') as [[[x' u']|e']|kd'|]; cbn [bindR bind fst snd]; try contradiction; try (left; exact H).
      destruct H as [(<- & Hx & P & HW & Hb)|(H1 & H2 & H3)].
      + destruct (eol x) eqn:Ex; [|apply (Hk x Ex); now left]. destruct Hf as [Hf|(a & Hf)].
        * destruct (Hf x Ex u) as (e & ->), (Hf x Ex u') as (e' & ->). now left.
        * rewrite (Hf x Ex). left. split; [reflexivity|]. left. split; [exact HW|]. split; [exact P|]. apply Hb. destruct x; try discriminate Ex; [reflexivity|now destruct Hx].
      + destruct Hf as [Hf|(a & Hf)].
        * destruct (Hf x H1 u) as (e & ->), (Hf x' H2 u') as (e' & ->). now left.
        * rewrite (Hf x H1), (Hf x' H2). left. split; [reflexivity|now right].
    - right. split; [exact Ns|]. destruct (m t) as [[[x u]|e]|kd|]; cbn [bindR bind fst snd]; auto. destruct H as (G & L & H).
      destruct (k x u) as [[[c v]|e]|kd|] eqn:Ek; auto. destruct (eol x) eqn:Ex.
      + apply (Hl x (S (S B)) u c v G L); [|exact Ek]. destruct H as [(_ & D)|(_ & P & H)]; [now left|]. right. rewrite (pend_nil _ P). lia.
      + apply (Hc x Ex (S B) u c v G L); [|exact Ek]. apply (late_of_tok (S B) x). rewrite Ex. exact H.
  Qed.
  Lemma mid_of_ret : forall A (a : A), mid (retT a). Proof. exact mid_ret. Qed.
  (** a line end is expected *)
  Lemma fin_end : forall A (a : A), fin (tk! x := next_after_blanks in close_line x a).
  Proof.
    intros A a. apply (fin_tok _ _ _ tn_nab).
    - intros x Hx. apply fin_fails. destruct x; try discriminate Hx; intros t; eexists; reflexivity.
    - right. exists a. intros x Hx. destruct x; try discriminate Hx; reflexivity.
    - intros x Hx. apply close_fails. destruct x; try discriminate Hx; intros t; eexists; reflexivity.
    - intros x. apply late_close.
  Qed.
  Lemma close_end : forall A (a : A), closeT (tk! x := next_after_blanks in close_line x a).
  Proof.
    intros A a. apply (close_tok _ _ _ tn_nab); [|intros x; apply late_close].
    intros x Hx. apply close_fails. destruct x; try discriminate Hx; intros t; eexists; reflexivity.
  Qed.
  Ltac failing := first [apply fin_fails|apply close_fails]; let t := fresh in intros t; eexists; reflexivity.
  Ltac fint := repeat match goal with
    | |- fin (bindTk next_after_blanks (fun x => close_line x _)) => apply fin_end
    | |- closeT (bindTk next_after_blanks (fun x => close_line x _)) => apply close_end
    | |- fin (failT _) => failing
    | |- closeT (failT _) => failing
    | |- fin (fun _ => Panic _) => apply fin_panic
    | |- closeT (fun _ => Panic _) => apply close_panic
    | |- fin (bindTk next_after_blanks _) => apply (fin_tok _ _ _ tn_nab); [intros ? ?; cbv beta|left; fl|intros ? ?; cbv beta|intros ?; cbv beta; latet]
    | |- closeT (bindTk next_after_blanks _) => apply (close_tok _ _ _ tn_nab); [intros ? ?; cbv beta|intros ?; cbv beta; latet]
    | |- fin (bindTk next _) => apply (fin_tok _ _ _ tn_next); [intros ? ?; cbv beta|left; fl|intros ? ?; cbv beta|intros ?; cbv beta; latet]
    | |- fin (bindTk _ _) => apply fin_bind; [midt|intros ?; cbv beta|intros ?; cbv beta]
    | |- closeT (bindTk _ _) => apply close_bind; [latet|intros ?; cbv beta]
    | |- fin (let _ := _ in _) => cbv zeta
    | |- closeT (let _ := _ in _) => cbv zeta
    | |- fin (match ?x with _ => _ end) => destruct x
    | |- closeT (match ?x with _ => _ end) => destruct x
    end.
  Ltac leaves := try apply mid_ttl_class; try apply late_ttl_class; try apply mid_data; try apply late_data; try apply mid_soa; try apply late_soa; try apply mid_a; try apply late_a; try apply mid_ns; try apply late_ns.
  Ltac inmid := midt; leaves.

  (** the entry parsers look at the token peeked first *)
  Lemma fin_start : forall A (k : result (token * tok) zone_err -> exec (result (A * tok) zone_err)) x, fin (fun t => k (Ok (x, t))) ->
    forall t t', W t t' -> tk_peeked t = [x] -> finrel (let! z := next t in k z) (let! z := next t' in k z).
  Proof.
    intros A k x Hk t t' HW P. rewrite (next_peeked t x P (w_pos _ _ HW)).
    rewrite (next_peeked t' x); [|rewrite <- (w_peeked _ _ HW); exact P|rewrite <- (w_line _ _ HW); exact (w_pos _ _ HW)].
    cbn [bind]. apply (Hk (with_peeked t []) (with_peeked t' [])). left. now apply w_drop.
  Qed.
  Lemma fin_origin : forall s t t', W t t' -> tk_peeked t = [T_OriginDir] -> finrel (parse_origin s t) (parse_origin s t').
  Proof.
    intros s t t' HW P. unfold parse_origin. apply (fin_start _ _ T_OriginDir); [|exact HW|exact P]. cbv beta iota.
    match goal with |- fin (fun t => ?m t) => change (fin m) end. fint.
  Qed.
  Lemma fin_record : forall fuel s x t t', W t t' -> tk_peeked t = [x] -> finrel (parse_record fuel s t) (parse_record fuel s t').
  Proof.
    intros fuel s x t t' HW P. unfold parse_record. apply (fin_start _ _ x); [|exact HW|exact P]. cbv beta iota.
    match goal with |- fin (fun t => ?m t) => change (fin m) end. fint; leaves.
  Qed.
  Lemma fin_sub_record : forall zn ttl mn x t t', W t t' -> tk_peeked t = [x] -> finrel (parse_sub_record zn ttl mn t) (parse_sub_record zn ttl mn t').
  Proof.
    intros zn ttl mn x t t' HW P. unfold parse_sub_record. apply (fin_start _ _ x); [|exact HW|exact P]. cbv beta iota.
    match goal with |- fin (fun t => ?m t) => change (fin m) end. fint; leaves.
  Qed.
  Lemma fin_include : forall s t t', W t t' -> tk_peeked t = [T_IncludeDir] -> finrel (parse_include s t) (parse_include s t').
  Proof.
    intros s t t' HW P. unfold parse_include. apply (fin_start _ _ T_IncludeDir); [|exact HW|exact P]. cbv beta iota.
    match goal with |- fin (fun t => ?m t) => change (fin m) end.
    assert (K : forall path nm, fin (tk! d' := next_after_blanks in tk! nm' := tryT (adjust_name (ps_orig s) nm) in
           tk! _ := tryT (ensure_name_in_auth_zone nm' (ps_zone s) (ps_subs s)) in close_line d' (ZInclude path nm')) /\
       closeT (tk! d' := next_after_blanks in tk! nm' := tryT (adjust_name (ps_orig s) nm) in
           tk! _ := tryT (ensure_name_in_auth_zone nm' (ps_zone s) (ps_subs s)) in close_line d' (ZInclude path nm'))).
    { intros path nm. destruct (adjust_name (ps_orig s) nm) as [nm'|e].
      2:{ split; [apply (fin_tok _ _ _ tn_nab)|apply (close_tok _ _ _ tn_nab)]; try (left; intros x _ u; eexists; reflexivity); try (intros x _; failing); intros x; latet. }
      destruct (ensure_name_in_auth_zone nm' (ps_zone s) (ps_subs s)) as [[]|e] eqn:En.
      2:{ assert (Fl : forall x, fails (tk! n := tryT (Ok nm') in tk! _ := tryT (ensure_name_in_auth_zone n (ps_zone s) (ps_subs s)) in close_line x (ZInclude path n))).
          { intros x u. exists e. unfold bindTk, tryT. cbn [bindR bind fst snd]. rewrite En. reflexivity. }
          split; [apply (fin_tok _ _ _ tn_nab)|apply (close_tok _ _ _ tn_nab)]; try (left; intros x _; apply Fl); try (intros x _; apply fin_fails, Fl); try (intros x _; apply close_fails, Fl); intros x; latet. }
      assert (Fl : forall x u, bindTk (tryT (Ok nm')) (fun n => tk! _ := tryT (ensure_name_in_auth_zone n (ps_zone s) (ps_subs s)) in close_line x (ZInclude path n)) u = close_line x (ZInclude path nm') u).
      { intros x u. unfold bindTk, tryT. cbn [bindR bind fst snd]. rewrite En. reflexivity. }
      assert (F2 : fin (tk! x := next_after_blanks in close_line x (ZInclude path nm'))) by apply fin_end.
      assert (C2 : closeT (tk! x := next_after_blanks in close_line x (ZInclude path nm'))) by apply close_end.
      assert (Eq : forall u, bindTk next_after_blanks (fun d' => tk! n := tryT (Ok nm') in tk! _ := tryT (ensure_name_in_auth_zone n (ps_zone s) (ps_subs s)) in close_line d' (ZInclude path n)) u
        = bindTk next_after_blanks (fun x => close_line x (ZInclude path nm')) u).
      { intros u. apply bindTk_ext. exact Fl. }
      split.
      - intros u u' Hu. rewrite !Eq. now apply F2.
      - intros k u a u1 G L Lt E. rewrite Eq in E. exact (C2 k u a u1 G L Lt E). }
    assert (K2 : forall path, fin (tk! d := next_after_blanks in match d with
       | T_String nm => tk! d' := next_after_blanks in tk! nm' := tryT (adjust_name (ps_orig s) nm) in
           tk! _ := tryT (ensure_name_in_auth_zone nm' (ps_zone s) (ps_subs s)) in close_line d' (ZInclude path nm')
       | _ => close_line d (ZInclude path (ps_orig s)) end) /\
       closeT (tk! d := next_after_blanks in match d with
       | T_String nm => tk! d' := next_after_blanks in tk! nm' := tryT (adjust_name (ps_orig s) nm) in
           tk! _ := tryT (ensure_name_in_auth_zone nm' (ps_zone s) (ps_subs s)) in close_line d' (ZInclude path nm')
       | _ => close_line d (ZInclude path (ps_orig s)) end)).
    { intros path. split; [apply (fin_tok _ _ _ tn_nab)|apply (close_tok _ _ _ tn_nab)].
      - intros x Hx. destruct x; try discriminate Hx; try (apply fin_fails; intros u; eexists; reflexivity). apply K.
      - right. exists (ZInclude path (ps_orig s)). intros x Hx. destruct x; try discriminate Hx; reflexivity.
      - intros x Hx. destruct x; try discriminate Hx; try (apply close_fails; intros u; eexists; reflexivity). apply K.
      - intros x. latet.
      - intros x Hx. destruct x; try discriminate Hx; try (apply close_fails; intros u; eexists; reflexivity). apply K.
      - intros x. latet. }
    apply (fin_tok _ _ _ tn_nab); [|left; fl| |intros ?; cbv beta; latet].
    - intros x Hx. apply fin_bind; [midt|intros path; apply K2|intros path; apply K2].
    - intros x Hx. apply close_bind; [latet|intros path; apply K2].
  Qed.
  Lemma fin_starting_soa : forall s, fin (parse_starting_soa_record s).
  Proof. intros s. unfold parse_starting_soa_record. fint; leaves. Qed.

  (** the first token of an entry *)
  Lemma peek_near : forall t t', W t t' ->
    match peek t, peek t' with
    | Done (Ok (x, t1)), Done (Ok (x', t1')) => (x = x' /\ x <> T_End /\ tk_peeked t1 = [x] /\ W t1 t1') \/ (eol x = true /\ eol x' = true)
    | Done (Err _), Done (Err _) => True
    | Panic k, Panic k' => k = k'
    | Diverge, Diverge => True
    | _, _ => False
    end \/ esc (S B) (peek t).
  Proof.
    intros t t' HN. pose proof (w_good _ _ HN) as (G0 & _). destruct (next_near t t' HN) as [H|(Ns & H)].
    - left. unfold peek. destruct (next t) as [[[x u]|e]|k|] eqn:En, (next t') as [[[x' u']|e']|k'|] eqn:En'; cbn [bindR bind fst snd]; try contradiction; try exact H.
      destruct H as [(<- & Hx & P & HW & Hb)|(H1 & H2 & H3)]; [|right; now split].
      left. split; [reflexivity|]. split; [exact Hx|]. pose proof HW as [(c & C1 & C2 & C3 & C4 & C5) Q2 Q3 Q4 Q5 Q6 Q7 Q8 Q9 Q10 Q11].
      rewrite <- Q3, P. cbn [app]. split; [reflexivity|]. split; cbn [with_peeked tk_rest tk_cur tk_peeked tk_multi tk_line]; try assumption; try reflexivity; [now exists c|intros [X|[]]; now apply Hx|].
      intros [X|[]]. destruct (Hb X) as (B1 & B2 & B3). now repeat split.
    - right. split; [exact Ns|]. destruct (peek t) as [[[x u]|e]|k|] eqn:Ep; auto.
      unfold peek in Ep. destruct (next t) as [[[y v]|e]|k|] eqn:En; cbn [bindR bind fst snd] in Ep; try discriminate Ep.
      destruct H as (G & L & H). assert (Eu : u = with_peeked v (tk_peeked v ++ [y])) by congruence. clear Ep. subst u.
      destruct H as [(-> & D1 & D2 & D3 & D4)|(C & Ev & Hl)].
      + assert (D : ended (with_peeked v (tk_peeked v ++ [T_End]))).
        { split; [exact D1|]. split; [exact D2|]. split; [exact D3|]. cbn. apply Forall_app. split; [exact D4|]. constructor; [reflexivity|constructor]. }
        split; [now left|]. split; [exact L|now left].
      + rewrite Ev. cbn [app]. split; [|split; [exact L|]].
        * right. cbn [with_peeked tk_peeked tk_line length]. split; [lia|]. split; [intros [X|[]]; now apply C|]. cbn. lia.
        * right. unfold pend. cbn [with_peeked tk_peeked existsb tk_line]. destruct (eol y); cbn [orb]; lia.
  Qed.
End Near.

(** The entries of a file (parser_auth.rs:97-105). *)
Definition entry (fuel : nat) (s : pstate) (tk : token) (t1 : tok) : exec (result (zone_entry * tok) zone_err) :=
  match tk with
  | T_OriginDir => parse_origin s t1
  | T_IncludeDir => parse_include s t1
  | T_String _ | T_At | T_Blank => parse_record fuel s t1
  | _ => Done (Err (ZE_UnexpectedToken tk))
  end.
Lemma fin_entry : forall f0 B r r' strict, readable r -> readable r' -> forall fuel s x t t', W f0 B r r' strict t t' -> tk_peeked t = [x] ->
  finrel f0 B r r' strict (entry fuel s x t) (entry fuel s x t').
Proof.
  intros f0 B r r' strict Rr Rr' fuel s x t t' HW P. destruct x; cbn [entry]; try (now left).
  - now apply fin_origin.
  - now apply fin_include.
  - now apply (fin_record f0 B r r' strict Rr Rr' fuel s _ t t' HW P).
  - now apply (fin_record f0 B r r' strict Rr Rr' fuel s _ t t' HW P).
  - now apply (fin_record f0 B r r' strict Rr Rr' fuel s _ t t' HW P).
Qed.
