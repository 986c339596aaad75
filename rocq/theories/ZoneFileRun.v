(** Running the loader over a token sequence: partial correctness against the grammar,
    absence of panics, and the fuel needed. *)
From Verif Require Import Base Types Name NameSpec NameProofs PropName Codec CodecSpec Zone ZoneSpec ZoneProofs
  Tokens Parser NsSpec PropNs LoadSpec PropCodec3 TokenSpec TokenProofs PropTok LoadProofs ZoneFileSpec.

Definition suffix (u ts : list token) : Prop := exists pre, ts = pre ++ u.
Lemma suffix_refl : forall ts, suffix ts ts. Proof. intros ts. now exists []. Qed.
Lemma suffix_trans : forall a b c, suffix a b -> suffix b c -> suffix a c.
Proof. intros a b c (p & ->) (q & ->). exists (q ++ p). now rewrite app_assoc. Qed.
Lemma suffix_cons : forall x u ts, suffix u ts -> suffix u (x :: ts).
Proof. intros x u ts (p & ->). now exists (x :: p). Qed.
Lemma suffix_length : forall u ts, suffix u ts -> length u <= length ts.
Proof. intros u ts (p & ->). rewrite app_length. lia. Qed.
Lemma suffix_field : forall ts x u, field ts x u -> suffix u ts /\ length u < length ts.
Proof.
  induction 1 as [x u|ts x u H (IH1 & IH2)].
  - split; [now exists [x]|cbn; lia].
  - split; [now apply suffix_cons|cbn; lia].
Qed.

(** [wp M m t ts o Q]: running [m] in a state with [ts] left to read (then [o]); [M] holds if it does not end. *)
Definition wp {A} (M : Prop) (m : T A) (t : tok) (ts : list token) (o : option zone_err) (Q : A -> tok -> list token -> Prop) : Prop :=
  match m t with
  | Done (Ok (x, t')) => exists ts', suffix ts' ts /\ good t' /\ reads t' ts' o /\ Q x t' ts'
  | Done (Err _) => True
  | Panic _ => False
  | Diverge => M
  end.

Section Wp.
  Context (M : Prop).
  Notation wp := (wp M).

  Lemma wp_ret : forall A (a : A) t ts o (Q : A -> tok -> list token -> Prop), good t -> reads t ts o -> Q a t ts -> wp (retT a) t ts o Q.
  Proof. intros A a t ts o Q G R H. cbn. exists ts. split; [apply suffix_refl|now repeat split]. Qed.
  Lemma wp_fail : forall A e t ts o (Q : A -> tok -> list token -> Prop), wp (failT e) t ts o Q.
  Proof. intros. exact I. Qed.
  Lemma wp_bind : forall A B (m : T A) (k : A -> T B) t ts o (Q : B -> tok -> list token -> Prop),
    wp m t ts o (fun x t' ts' => good t' -> reads t' ts' o -> wp (k x) t' ts' o Q) -> wp (bindTk m k) t ts o Q.
  Proof.
    intros A B m k t ts o Q H. unfold ZoneFileRun.wp, bindTk in *. destruct (m t) as [[[x t']|e]|p|]; cbn [bindR bind fst snd]; auto.
    destruct H as (ts' & S1 & G & R & K). specialize (K G R). destruct (k x t') as [[[y t2]|e]|p|]; auto.
    destruct K as (ts2 & S2 & G2 & R2 & K). exists ts2. split; [eapply suffix_trans; eassumption|now repeat split].
  Qed.
  Lemma wp_try : forall A B (r : result A zone_err) (k : A -> T B) t ts o (Q : B -> tok -> list token -> Prop),
    (forall a, r = Ok a -> wp (k a) t ts o Q) -> wp (bindTk (tryT r) k) t ts o Q.
  Proof. intros A B r k t ts o Q H. unfold ZoneFileRun.wp, bindTk, tryT in *. destruct r as [a|e]; cbn [bindR bind fst snd]; auto. now apply H. Qed.
  Lemma wp_try_ret : forall A (r : result A zone_err) t ts o (Q : A -> tok -> list token -> Prop), good t -> reads t ts o ->
    (forall a, r = Ok a -> Q a t ts) -> wp (tryT r) t ts o Q.
  Proof. intros A r t ts o Q G R H. unfold ZoneFileRun.wp, tryT. destruct r as [a|e]; auto. exists ts. split; [apply suffix_refl|]. repeat split; auto. Qed.
  Lemma wp_check : forall B (r : result unit zone_err) (k : T B) t ts o (Q : B -> tok -> list token -> Prop),
    (r = Ok tt -> wp k t ts o Q) -> wp (bindTk (tryT r) (fun _ => k)) t ts o Q.
  Proof. intros. apply wp_try. intros [] E. auto. Qed.
  Lemma wp_mono : forall A (m : T A) t ts o (P Q : A -> tok -> list token -> Prop),
    wp m t ts o P -> (forall x t' ts', good t' -> reads t' ts' o -> P x t' ts' -> Q x t' ts') -> wp m t ts o Q.
  Proof.
    intros A m t ts o P Q H I. unfold ZoneFileRun.wp in *. destruct (m t) as [[[x t']|e]|p|]; auto.
    destruct H as (ts' & S & G & R & K). exists ts'. repeat split; auto.
  Qed.

  (** Reading a token *)
  Lemma wp_next : forall t ts o (Q : token -> tok -> list token -> Prop), good t -> reads t ts o ->
    (forall t', ts = [] -> o = None -> Q T_End t' []) ->
    (forall x u t', ts = x :: u -> x <> T_End -> Q x t' u) -> wp next t ts o Q.
  Proof.
    intros t ts o Q G R H1 H2. unfold ZoneFileRun.wp. pose proof (next_ok t G) as F. inversion R as [? t' E|? e E|? x t' ts' ? E Hx R']; subst; rewrite E in *; auto.
    - destruct F as (G' & _ & _ & _ & F & _). specialize (F eq_refl). exists []. split; [apply suffix_refl|]. split; [assumption|].
      split; [|auto]. destruct (ended_next t' F) as (t2 & E2 & _). now apply reads_end with t2.
    - destruct F as (G' & _). exists ts'. split; [now exists [x]|]. repeat split; auto.
  Qed.

  Lemma wp_skip_blanks : forall fuel t ts o (Q : token -> tok -> list token -> Prop), good t -> reads t ts o -> tok_size t < fuel ->
    (forall t', Forall (eq T_Blank) ts -> o = None -> Q T_End t' []) ->
    (forall x u t', field ts x u -> x <> T_End -> x <> T_Blank -> Q x t' u) -> wp (skip_blanks fuel) t ts o Q.
  Proof.
    induction fuel as [|fuel IH]; intros t ts o Q G R L H1 H2; [lia|]. cbn [skip_blanks].
    unfold ZoneFileRun.wp, bindTk. pose proof (next_ok t G) as F.
    inversion R as [? t' E|? e E|? x t' ts' ? E Hx R']; subst; rewrite E in *; cbn [bindR bind fst snd]; auto.
    - destruct F as (G' & _ & _ & _ & F & _). specialize (F eq_refl). cbn. exists []. split; [apply suffix_refl|]. split; [assumption|].
      split; [|apply H1; [constructor|reflexivity]]. destruct (ended_next t' F) as (t2 & E2 & _). now apply reads_end with t2.
    - destruct F as (G' & _ & F & _).
      assert (C : x = T_Blank \/ x <> T_Blank) by (destruct x; (now left) || (right; discriminate)). destruct C as [->|Hb].
      + specialize (F eq_refl).
        assert (W : wp (skip_blanks fuel) t' ts' o Q).
        { apply IH; [assumption|assumption|lia| |].
          - intros t2 K1 K2. apply H1; auto.
          - intros x u t2 K1 K2 K3. apply H2; auto. now constructor. }
        unfold ZoneFileRun.wp in W. destruct (skip_blanks fuel t') as [[[y t2]|e]|p|]; auto.
        destruct W as (ts2 & W1 & W2). exists ts2. split; [now apply suffix_cons|assumption].
      + assert (X : (match x with T_Blank => skip_blanks fuel | v => retT v end) t' = Done (Ok (x, t'))) by (destruct x; try reflexivity; congruence).
        rewrite X. exists ts'. split; [now exists [x]|]. split; [assumption|]. split; [assumption|]. apply H2; auto. now constructor.
  Qed.
  Lemma wp_nab : forall t ts o (Q : token -> tok -> list token -> Prop), good t -> reads t ts o ->
    (forall t', Forall (eq T_Blank) ts -> o = None -> Q T_End t' []) ->
    (forall x u t', field ts x u -> x <> T_End -> x <> T_Blank -> Q x t' u) -> wp next_after_blanks t ts o Q.
  Proof. intros t ts o Q G R H1 H2. unfold ZoneFileRun.wp. change (wp (skip_blanks (S (S (tok_size t)))) t ts o Q). apply wp_skip_blanks; auto. Qed.

  (** Peeking: [ts'] starts with the token. *)
  Lemma reads_peeked : forall t x u o, tk_peeked t = [] -> 1 <= tk_line t -> x <> T_End -> reads t u o ->
    reads (with_peeked t [x]) (x :: u) o.
  Proof.
    intros t x u o Ep El Hx R. apply reads_token with t; try assumption.
    unfold next. destruct t as [rest cur ps multi line]. cbn [tk_peeked tk_line] in *. subst ps. cbn [with_peeked tk_rest tk_cur tk_multi tk_line tk_peeked].
    generalize (tok_size (mkTok rest cur [x] multi line)). intros n. cbn [next_rec]. unfold bootstrap. cbn [tk_line].
    destruct line as [|line]; [lia|]. reflexivity.
  Qed.
  Lemma reads_ended : forall t, ended t -> reads t [] None.
  Proof. intros t D. destruct (ended_next t D) as (t2 & E2 & _). now apply reads_end with t2. Qed.

  Lemma wp_peek : forall t ts o (Q : token -> tok -> list token -> Prop), good t -> reads t ts o ->
    (forall t', ts = [] -> o = None -> Q T_End t' []) ->
    (forall x u t', ts = x :: u -> x <> T_End -> Q x t' (x :: u)) -> wp peek t ts o Q.
  Proof.
    intros t ts o Q G R H1 H2. unfold ZoneFileRun.wp. pose proof (peek_ok t G) as F. pose proof (next_ok t G) as F'. unfold peek in *.
    inversion R as [? t' E|? e E|? x t' ts' ? E Hx R']; subst; rewrite E in *; auto; cbn [bindR bind fst snd] in *.
    - destruct F as (G' & _ & _ & F & _). specialize (F eq_refl). exists []. split; [apply suffix_refl|]. split; [assumption|].
      split; [now apply reads_ended|auto].
    - destruct F as (G' & _). destruct F' as (_ & _ & _ & _ & _ & F'). destruct (F' Hx) as (F1 & F2).
      rewrite F2 in *. exists (x :: ts'). split; [apply suffix_refl|]. split; [assumption|]. split; [now apply reads_peeked|auto].
  Qed.
  Lemma wp_pab : forall t ts o (Q : token -> tok -> list token -> Prop), good t -> reads t ts o ->
    (forall t', Forall (eq T_Blank) ts -> o = None -> Q T_End t' []) ->
    (forall x u t', field ts x u -> x <> T_End -> x <> T_Blank -> Q x t' (x :: u)) -> wp peek_after_blanks t ts o Q.
  Proof.
    intros t ts o Q G R H1 H2. unfold ZoneFileRun.wp, peek_after_blanks.
    assert (W : wp next_after_blanks t ts o (fun x t' ts' => (x = T_End /\ ts' = [] /\ Forall (eq T_Blank) ts /\ o = None) \/ (field ts x ts' /\ x <> T_End /\ x <> T_Blank))).
    { apply wp_nab; auto. }
    pose proof (peek_after_blanks_ok t G) as (F & _). pose proof (next_after_blanks_ok t G) as (F' & _). unfold peek_after_blanks in F.
    unfold ZoneFileRun.wp in W. destruct (next_after_blanks t) as [[[x t']|e]|p|]; auto; cbn [bindR bind fst snd] in *; auto.
    destruct W as (ts' & W1 & W2 & W3 & [(-> & -> & W4 & W5)|(W4 & W5 & W6)]).
    - destruct F as (G' & _ & _ & F & _). specialize (F eq_refl). exists []. split; [assumption|]. split; [assumption|].
      split; [|auto]. subst o. now apply reads_ended.
    - destruct F as (G' & _). destruct F' as (_ & _ & _ & _ & _ & F'). destruct (F' W5) as (F1 & F2).
      rewrite F2 in *. exists (x :: ts'). split; [|split; [assumption|split; [now apply reads_peeked|auto]]].
      clear - W4. induction W4; [apply suffix_refl|now apply suffix_cons].
  Qed.
  Lemma wp_next_unwrap : forall t x u o (Q : token -> tok -> list token -> Prop), good t -> reads t (x :: u) o ->
    (forall t', Q x t' u) -> wp next_unwrap t (x :: u) o Q.
  Proof.
    intros t x u o Q G R H. unfold ZoneFileRun.wp, next_unwrap. pose proof (next_ok t G) as F.
    inversion R as [? t' E|? e E|? ? t' ts' ? E Hx R']; subst. rewrite E in *. cbn [bind]. exists u. split; [now exists [x]|].
    split; [apply F|auto].
  Qed.
  Lemma wp_nab_unwrap : forall t x u o (Q : token -> tok -> list token -> Prop), good t -> reads t (x :: u) o -> x <> T_Blank ->
    (forall t', Q x t' u) -> wp next_after_blanks_unwrap t (x :: u) o Q.
  Proof.
    intros t x u o Q G R Hb H. unfold ZoneFileRun.wp, next_after_blanks_unwrap, next_after_blanks. generalize (S (tok_size t)). intros n. cbn [skip_blanks]. unfold bindTk. pose proof (next_ok t G) as F.
    inversion R as [? t' E|? e E|? ? t' ts' ? E Hx R']; subst. rewrite E in *. cbn [bind bindR fst snd].
    assert (X : (match x with T_Blank => skip_blanks n | v => retT v end) t' = Done (Ok (x, t'))) by (destruct x; try reflexivity; congruence).
    rewrite X. cbn [bind]. exists u. split; [now exists [x]|].
    split; [apply F|auto].
  Qed.
End Wp.

(** *** Texts *)
Lemma ends_dot : forall s, ends_with s [DOT] = true <-> exists u, s = u ++ [46%N].
Proof. intros s. apply ends_with_spec. Qed.
Lemma full_name_ok : forall o s n, adjust_name o s = Ok n -> full_name o s n.
Proof.
  intros o s n E. unfold adjust_name in E. destruct (bytes_eqb s [64%N]) eqn:B.
  - apply bytes_eqb_eq in B. left. split; congruence.
  - right. assert (Hs : s <> [64%N]) by (intros ->; discriminate B). split; [assumption|].
    destruct (name_from_string _) as [m|] eqn:V; [|discriminate]. assert (m = n) as -> by congruence. pose proof (from_string_accepted _ _ V) as A.
    split; [assumption|]. unfold name_from_string in V. destruct (validate_name _); [|discriminate]. injection V as <-.
    destruct (ends_with s [DOT]) eqn:D.
    + left. split; [now apply ends_dot|reflexivity].
    + right. split; [|reflexivity]. intros H. apply ends_dot in H. congruence.
Qed.
Lemma name_or_err_eq : forall s n, name_or_err s = Ok n -> n = s /\ accepted s.
Proof.
  intros s n E. pose proof (name_or_err_ok _ _ E) as A. unfold name_or_err, name_from_string in E. destruct (validate_name s); [|discriminate].
  assert (n = s) as -> by congruence. now split.
Qed.
Lemma absolute_ok : forall s, ensure_absolute_name s = Ok tt -> exists u, s = u ++ [46%N].
Proof. intros s E. unfold ensure_absolute_name in E. destruct (ends_with s [DOT]) eqn:D; [now apply ends_dot|discriminate]. Qed.

Lemma digits_value_app : forall s acc, digits_value acc s =
  fold_left (fun a c => match a with Some v => if ((48 <=? c) && (c <=? 57))%N then Some (v * 10 + (c - 48))%N else None | None => None end) s (Some acc).
Proof.
  induction s as [|c s IH]; intros acc; [reflexivity|]. cbn [digits_value fold_left]. destruct ((48 <=? c) && (c <=? 57))%N; [apply IH|].
  clear IH. induction s as [|d s IH]; [reflexivity|exact IH].
Qed.
Lemma octet_text : forall s v, parse_octet s = Some v -> (v < 256)%N /\ s = decimal v.
Proof.
  intros s v E. unfold parse_octet in E. destruct (3 <? length s) eqn:L; [discriminate|]. apply Nat.ltb_ge in L.
  destruct (match s with c :: _ :: _ => _ | _ => _ end) eqn:Z; [discriminate|].
  destruct (parse_digits s) as [w|] eqn:D; [|discriminate]. destruct (w <? 256)%N eqn:B; [|discriminate].
  assert (w = v) as -> by congruence. apply N.ltb_lt in B. split; [assumption|].
  unfold parse_digits in D. destruct s as [|a s]; [discriminate|].
  destruct (digits_value 0 (a :: s)) as [w|] eqn:D'; [|discriminate]. destruct (w <? 4294967296)%N; [|discriminate].
  assert (w = v) as -> by congruence. clear D E.
  cbn [digits_value] in D'. destruct ((48 <=? a) && (a <=? 57))%N eqn:Ea; [|discriminate]. apply andb_prop in Ea as (A1 & A2). apply N.leb_le in A1, A2.
  destruct s as [|b s]; cbn [digits_value] in D'.
  { injection D' as D'. assert (v = a - 48)%N by lia. unfold decimal. replace (v <? 10)%N with true by (symmetry; apply N.ltb_lt; lia). f_equal. lia. }
  destruct ((48 <=? b) && (b <=? 57))%N eqn:Eb; [|discriminate]. apply andb_prop in Eb as (B1 & B2). apply N.leb_le in B1, B2. apply N.eqb_neq in Z.
  destruct s as [|c s]; cbn [digits_value] in D'.
  { injection D' as D'. assert (H : v = ((a - 48) * 10 + (b - 48))%N) by lia. unfold decimal. replace (v <? 10)%N with false by (symmetry; apply N.ltb_ge; lia).
    replace (v <? 100)%N with true by (symmetry; apply N.ltb_lt; lia).
    assert (v / 10 = a - 48)%N by (symmetry; apply N.div_unique with (b - 48)%N; lia).
    assert (v mod 10 = b - 48)%N by (symmetry; apply N.mod_unique with (a - 48)%N; lia). f_equal; [lia|f_equal; lia]. }
  destruct ((48 <=? c) && (c <=? 57))%N eqn:Ec; [|discriminate]. apply andb_prop in Ec as (C1 & C2). apply N.leb_le in C1, C2.
  destruct s as [|d s]; cbn [digits_value] in D'; [|cbn in L; lia].
  injection D' as D'. assert (H : v = ((a - 48) * 100 + (b - 48) * 10 + (c - 48))%N) by lia. unfold decimal. replace (v <? 10)%N with false by (symmetry; apply N.ltb_ge; lia).
  replace (v <? 100)%N with false by (symmetry; apply N.ltb_ge; lia).
  assert (v / 10 = (a - 48) * 10 + (b - 48))%N by (symmetry; apply N.div_unique with (c - 48)%N; lia).
  assert (v / 100 = a - 48)%N by (symmetry; apply N.div_unique with ((b - 48) * 10 + (c - 48))%N; lia).
  assert (v / 10 mod 10 = b - 48)%N by (symmetry; apply N.mod_unique with (a - 48)%N; lia).
  assert (v mod 10 = c - 48)%N by (symmetry; apply N.mod_unique with ((a - 48) * 10 + (b - 48))%N; lia). f_equal; [lia|f_equal; [lia|f_equal; lia]].
Qed.
Lemma quad_ok : forall s a, parse_ipv4 s = Some a -> dotted_quad s a.
Proof.
  intros s x E. unfold parse_ipv4 in E. pose proof (dotted_split s) as J. destruct (split DOT s) as [|a [|b [|c [|d [|]]]]]; try discriminate.
  destruct (parse_octet a) as [n|] eqn:Ea; [|discriminate]. destruct (parse_octet b) as [n0|] eqn:Eb; [|discriminate].
  destruct (parse_octet c) as [n1|] eqn:Ec; [|discriminate]. destruct (parse_octet d) as [n2|] eqn:Ed; [|discriminate].
  assert (x = [n; n0; n1; n2]) as -> by congruence. apply octet_text in Ea as (A1 & ->), Eb as (B1 & ->), Ec as (C1 & ->), Ed as (D1 & ->).
  exists n, n0, n1, n2. split; [repeat split; assumption|]. split; [reflexivity|].
  unfold dotted in J. cbn [flat_map] in J. rewrite app_nil_r in J.
  apply app_inv_tail with [DOT]. rewrite <- J. rewrite <- !app_assoc. reflexivity.
Qed.
Lemma char_string_text : forall x s, parse_char_string x = Ok s -> char_string x s.
Proof.
  intros [| |s|s|n| | | |] s' E; try discriminate E; cbn [parse_char_string] in E; unfold is_valid_character_string in E.
  - destruct (forallb _ s) eqn:V; [|discriminate]. assert (s' = s) as -> by congruence. constructor. rewrite forallb_forall in V. apply Forall_forall.
    intros c Hc. apply N.ltb_lt. now apply V.
  - destruct (forallb _ s) eqn:V; [|discriminate]. assert (s' = s) as -> by congruence. constructor. rewrite forallb_forall in V. apply Forall_forall.
    intros c Hc. specialize (V c Hc). apply andb_prop in V as (V1 & V2). split; [now apply N.ltb_lt|]. intros ->. discriminate.
Qed.
Lemma u32_text : forall n, u32_to_string n = number_text 10 n.
Proof.
  assert (G : forall f n acc, to_digits f n acc = number_text f n ++ acc).
  { induction f as [|f IH]; intros n acc; [reflexivity|]. cbn [to_digits number_text]. destruct (n <? 10)%N eqn:E.
    - apply N.ltb_lt in E. rewrite N.mod_small by assumption. reflexivity.
    - rewrite IH, <- app_assoc. reflexivity. }
  intros n. unfold u32_to_string. now rewrite G, app_nil_r.
Qed.
