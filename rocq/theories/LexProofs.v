(** The tokenizer delivers exactly the tokens of the lexical grammar. *)
From Verif Require Import Base Types Name NameSpec Codec Zone Tokens Parser TokenSpec TokenProofs TokenSim PropTok LexSpec.

(** ** Characters *)
Lemma white_ws : forall c, is_ws c = true <-> white c.
Proof.
  intros c. unfold is_ws, white. rewrite !Bool.orb_true_iff, !Bool.andb_true_iff, !N.leb_le, !N.eqb_eq. cbn [In]. lia.
Qed.
Lemma not_white_ws : forall c, is_ws c = false <-> ~ white c.
Proof. intros c. rewrite <- white_ws. now destruct (is_ws c). Qed.
Lemma delimiter_dec : forall c, delimiter c \/ ~ delimiter c.
Proof.
  intros c. unfold delimiter. destruct (is_ws c) eqn:W; [apply white_ws in W; auto|]. apply not_white_ws in W.
  destruct (N.eq_dec c 59), (N.eq_dec c 40), (N.eq_dec c 41); auto. right. tauto.
Qed.
(** Classification as the code does it. *)
Lemma delimiter_tests : forall c, delimiter c <-> ((c =? 59) || (c =? 40) || (c =? 41))%N = true \/ is_ws c = true.
Proof.
  intros c. unfold delimiter. rewrite !Bool.orb_true_iff, !N.eqb_eq, white_ws. tauto.
Qed.

Lemma utf8_model : forall c bs, utf8 c bs <-> bs = utf8_char c.
Proof.
  intros c bs. unfold utf8_char. split.
  - intros H. destruct H as [c H|a b Hb H|a b d Hb Hd H|a b d e Hb Hd He H].
    + apply N.ltb_lt in H. now rewrite H.
    + replace (a * 64 + b <? 128)%N with false by (symmetry; apply N.ltb_ge; lia).
      replace (a * 64 + b <? 2048)%N with true by (symmetry; apply N.ltb_lt; lia).
      rewrite <- (N.div_unique (a * 64 + b) 64 a b), <- (N.mod_unique (a * 64 + b) 64 a b) by lia. reflexivity.
    + set (c := ((a * 64 + b) * 64 + d)%N) in *.
      replace (c <? 128)%N with false by (symmetry; apply N.ltb_ge; lia).
      replace (c <? 2048)%N with false by (symmetry; apply N.ltb_ge; lia).
      replace (c <? 65536)%N with true by (symmetry; apply N.ltb_lt; lia).
      rewrite <- (N.div_unique c 4096 a (b * 64 + d)), <- (N.mod_unique c 64 (a * 64 + b) d),
        <- (N.div_unique c 64 (a * 64 + b) d), <- (N.mod_unique (a * 64 + b) 64 a b) by (unfold c; lia). reflexivity.
    + set (c := (((a * 64 + b) * 64 + d) * 64 + e)%N) in *.
      replace (c <? 128)%N with false by (symmetry; apply N.ltb_ge; lia).
      replace (c <? 2048)%N with false by (symmetry; apply N.ltb_ge; lia).
      replace (c <? 65536)%N with false by (symmetry; apply N.ltb_ge; lia).
      rewrite <- (N.div_unique c 262144 a (b * 4096 + d * 64 + e)), <- (N.mod_unique c 64 ((a * 64 + b) * 64 + d) e),
        <- (N.div_unique c 64 ((a * 64 + b) * 64 + d) e), <- (N.div_unique c 4096 (a * 64 + b) (d * 64 + e)),
        <- (N.mod_unique (a * 64 + b) 64 a b), <- (N.mod_unique ((a * 64 + b) * 64 + d) 64 (a * 64 + b) d) by (unfold c; lia). reflexivity.
  - intros ->. destruct (c <? 128)%N eqn:E1; [apply N.ltb_lt in E1; now constructor|]. apply N.ltb_ge in E1.
    assert (D : forall n k, k <> 0%N -> (n = n / k * k + n mod k)%N).
    { intros n k Hk. rewrite (N.div_mod n k Hk) at 1. lia. }
    assert (M : forall n k, k <> 0%N -> (n mod k < k)%N) by (intros; now apply N.mod_lt).
    destruct (c <? 2048)%N eqn:E2; [apply N.ltb_lt in E2|apply N.ltb_ge in E2; destruct (c <? 65536)%N eqn:E3; [apply N.ltb_lt in E3|apply N.ltb_ge in E3]].
    + rewrite (D c 64%N) at 1 by discriminate. apply utf8_2; [now apply M|]. rewrite <- (D c 64%N) by discriminate. lia.
    + assert (Ec : (c = (c / 4096 * 64 + c / 64 mod 64) * 64 + c mod 64)%N).
      { rewrite (D c 64%N) at 1 by discriminate. rewrite (D (c / 64) 64)%N at 1 by discriminate. rewrite N.div_div by discriminate. reflexivity. }
      rewrite Ec at 1. apply utf8_3; [now apply M|now apply M|]. rewrite <- Ec. lia.
    + assert (Ec : (c = ((c / 262144 * 64 + c / 4096 mod 64) * 64 + c / 64 mod 64) * 64 + c mod 64)%N).
      { rewrite (D c 64%N) at 1 by discriminate. rewrite (D (c / 64) 64)%N at 1 by discriminate. rewrite N.div_div by discriminate.
        change (64 * 64)%N with 4096%N. rewrite (D (c / 4096) 64)%N at 1 by discriminate. rewrite N.div_div by discriminate. reflexivity. }
      rewrite Ec at 1. apply utf8_4; [now apply M|now apply M|now apply M|]. rewrite <- Ec. lia.
Qed.
Lemma utf8s_model : forall s bs, utf8s s bs <-> bs = utf8_encode s.
Proof.
  intros s bs. split.
  - induction 1 as [|c s bs bs' H _ ->]; [reflexivity|]. apply utf8_model in H as ->. reflexivity.
  - intros ->. induction s as [|c s IH]; [constructor|]. unfold utf8_encode. cbn [flat_map]. constructor; [now apply utf8_model|exact IH].
Qed.

(** Bytes below 128 come only from themselves. *)
Lemma utf8_char_cases : forall c, (c < 128 /\ utf8_char c = [c])%N \/ (128 <= c /\ exists b r, utf8_char c = b :: r /\ 192 <= b)%N.
Proof.
  intros c. unfold utf8_char. destruct (c <? 128)%N eqn:E1; [left; apply N.ltb_lt in E1; now split|]. right. apply N.ltb_ge in E1.
  split; [assumption|]. destruct (c <? 2048)%N; [|destruct (c <? 65536)%N]; eexists; eexists; (split; [reflexivity|]); lia.
Qed.
Lemma utf8_ascii_inv : forall t s, Forall (fun c => (c < 128)%N) t -> utf8_encode s = t -> s = t.
Proof.
  induction t as [|b t IH]; intros s F E.
  - destruct s as [|c s]; [reflexivity|]. unfold utf8_encode in E. cbn [flat_map] in E.
    destruct (utf8_char_cases c) as [(_ & H)|(_ & b & r & H & _)]; rewrite H in E; discriminate.
  - destruct s as [|c s]; [discriminate|]. unfold utf8_encode in E. cbn [flat_map] in E. inversion F as [|? ? F1 F2]; subst.
    destruct (utf8_char_cases c) as [(_ & H)|(_ & b' & r & H & L)]; rewrite H in E; cbn [app] in E.
    + assert (c = b) as -> by congruence. f_equal. apply IH; [assumption|]. unfold utf8_encode. congruence.
    + assert (b' = b) as -> by congruence. lia.
Qed.
Lemma utf8_ascii_id : forall t, Forall (fun c => (c < 128)%N) t -> utf8_encode t = t.
Proof.
  induction 1 as [|c t H _ IH]; [reflexivity|]. unfold utf8_encode in *. cbn [flat_map]. rewrite IH.
  destruct (utf8_char_cases c) as [(_ & ->)|(L & _)]; [reflexivity|lia].
Qed.
Lemma ascii_encode_iff : forall t s, forallb (fun c => c <? 128)%N t = true -> bytes_eqb (utf8_encode s) t = true <-> s = t.
Proof.
  intros t s H. rewrite forallb_forall in H. assert (F : Forall (fun c => (c < 128)%N) t).
  { apply Forall_forall. intros x Hx. apply N.ltb_lt. auto. }
  rewrite bytes_eqb_eq. split; [now apply utf8_ascii_inv|]. intros ->. now apply utf8_ascii_id.
Qed.

(** Numbers *)
Lemma digits_value_spec : forall s acc v, digits_value acc (utf8_encode s) = Some v <->
  Forall (fun d => (48 <= d <= 57)%N) s /\ v = fold_left (fun v d => v * 10 + (d - 48))%N s acc.
Proof.
  induction s as [|c s IH]; intros acc v.
  - cbn. split; [intros H; split; [constructor|congruence]|]. intros (_ & ->). reflexivity.
  - unfold utf8_encode. cbn [flat_map fold_left]. change (flat_map utf8_char s) with (utf8_encode s).
    destruct (utf8_char_cases c) as [(L & ->)|(L & b & r & -> & Lb)]; cbn [app digits_value].
    + destruct ((48 <=? c) && (c <=? 57))%N eqn:E.
      * apply andb_prop in E as (E1 & E2). apply N.leb_le in E1, E2. rewrite IH. split.
        -- intros (F & ->). split; [constructor; [lia|assumption]|reflexivity].
        -- intros (F & ->). inversion F; subst. now split.
      * split; [discriminate|]. intros (F & _). inversion F as [|? ? F1 F2]; subst.
        apply Bool.andb_false_iff in E as [E|E]; apply N.leb_gt in E; lia.
    + replace ((48 <=? b) && (b <=? 57))%N with false.
      * split; [discriminate|]. intros (F & _). inversion F; subst. lia.
      * symmetry. apply Bool.andb_false_iff. right. apply N.leb_gt. lia.
Qed.
Lemma utf8_nil : forall s, utf8_encode s = [] <-> s = [].
Proof. intros s. split; [apply (utf8_ascii_inv [] s (Forall_nil _))|now intros ->]. Qed.
Lemma parse_digits_spec : forall ds n, parse_digits (utf8_encode ds) = Some n <->
  ds <> [] /\ Forall (fun d => (48 <= d <= 57)%N) ds /\ n = fold_left (fun v d => v * 10 + (d - 48))%N ds 0%N /\ (n < 4294967296)%N.
Proof.
  intros ds n. unfold parse_digits. destruct (utf8_encode ds) as [|b bs] eqn:E.
  - apply utf8_nil in E as ->. split; [discriminate|]. intros (H & _). congruence.
  - rewrite <- E. assert (Hne : ds <> []) by (intros ->; discriminate E). clear E.
    destruct (digits_value 0 (utf8_encode ds)) as [v|] eqn:D.
    + apply digits_value_spec in D as (F & Hv). destruct (v <? 4294967296)%N eqn:L.
      * apply N.ltb_lt in L. split.
        -- intros [= <-]. auto.
        -- intros (_ & _ & -> & _). congruence.
      * apply N.ltb_ge in L. split; [discriminate|]. intros (_ & _ & -> & L'). subst v. lia.
    + split; [discriminate|]. intros (_ & F & -> & _). assert (D' := proj2 (digits_value_spec ds 0%N _) (conj F eq_refl)). congruence.
Qed.
Lemma parse_u32_spec : forall s n, parse_u32 (utf8_encode s) = Some n <-> number s n.
Proof.
  intros s n. unfold number. destruct s as [|c s].
  - cbn. split; [discriminate|]. intros (ds & [<-|H] & H' & _); congruence.
  - unfold parse_u32, utf8_encode. cbn [flat_map]. change (flat_map utf8_char s) with (utf8_encode s).
    destruct (N.eq_dec c 43) as [->|Hc].
    + cbn [utf8_char N.ltb N.compare Pos.compare Pos.compare_cont app N.eqb Pos.eqb]. rewrite parse_digits_spec. split.
      * intros (H1 & H2 & H3 & H4). exists s. auto.
      * intros (ds & [<-|H] & H1 & H2 & H3 & H4).
        -- inversion H2; subst. lia.
        -- assert (s = ds) as -> by congruence. auto.
    + assert (E : exists b bs, (utf8_char c ++ utf8_encode s = b :: bs /\ (b =? 43)%N = false)).
      { destruct (utf8_char_cases c) as [(L & ->)|(L & b & r & -> & Lb)]; cbn [app]; eexists; eexists; (split; [reflexivity|]); apply N.eqb_neq; [assumption|lia]. }
      destruct E as (b & bs & E & Eb). rewrite E, Eb. rewrite <- E.
      change (utf8_char c ++ utf8_encode s) with (utf8_encode (c :: s)). rewrite parse_digits_spec. split.
      * intros (H1 & H2 & H3 & H4). exists (c :: s). auto.
      * intros (ds & [<-|H] & H1 & H2 & H3 & H4); [auto|congruence].
Qed.

(** ** Words and quoted strings *)
Lemma written_char_nodash : forall (stop : N -> Prop) u s, written stop u s -> ~ In 92%N u -> Forall (fun c => ~ stop c) u.
Proof.
  induction 1 as [|c u s H1 H2 _ IH|c u s _ IH]; intros N; [constructor| |].
  - constructor; [assumption|]. apply IH. intros H. apply N. now right.
  - exfalso. apply N. now left.
Qed.

Lemma word_loop_sound : forall n cur acc w rest, length cur <= n -> word_loop n cur acc = Done (Ok (w, rest)) ->
  exists u s, cur = u ++ rest /\ w = acc ++ s /\ written delimiter u s /\
    ((exists c r, rest = c :: r /\ delimiter c) \/ (rest = [] /\ n = length cur /\ ~ In 92%N u)).
Proof.
  induction n as [|n IH]; intros cur acc w rest L E; cbn [word_loop] in E.
  - destruct cur; [|cbn in L; lia]. exists [], []. rewrite app_nil_r. assert (w = acc /\ rest = []) as (-> & ->) by (split; congruence).
    split; [reflexivity|]. split; [reflexivity|]. split; [constructor|]. right. cbn. tauto.
  - destruct cur as [|ch cur]; [discriminate|]. cbn [length] in L. unfold BACKSLASH in E. destruct (ch =? 92)%N eqn:Eb.
    + apply N.eqb_eq in Eb as ->. destruct cur as [|c cur]; [discriminate|]. cbn [length] in L.
      apply IH in E as (u & s & -> & -> & W & H); [|lia]. exists (92%N :: c :: u), (c :: s). split; [reflexivity|].
      split; [now rewrite <- app_assoc|]. split; [now constructor|]. destruct H as [H|(_ & H & _)]; [now left|]. lia.
    + apply N.eqb_neq in Eb. destruct ((ch =? 59) || (ch =? 40) || (ch =? 41))%N eqn:Es; [|destruct (is_ws ch) eqn:Ew].
      1,2: assert (w = acc /\ rest = ch :: cur) as (-> & ->) by (split; congruence); exists [], []; rewrite app_nil_r;
        (split; [reflexivity|]); (split; [reflexivity|]); (split; [constructor|]); left; exists ch, cur; (split; [reflexivity|]);
        apply delimiter_tests; auto.
      apply IH in E as (u & s & -> & -> & W & H); [|lia]. exists (ch :: u), (ch :: s). split; [reflexivity|].
      split; [now rewrite <- app_assoc|]. split.
      * constructor; [assumption| |assumption]. intros D. apply delimiter_tests in D. destruct D; congruence.
      * destruct H as [H|(H1 & H2 & H3)]; [now left|]. right. split; [assumption|]. cbn [length]. split; [lia|]. intros [H|H]; [congruence|tauto].
Qed.
Lemma word_loop_complete : forall u s, written delimiter u s -> forall rest n acc, 
  (exists c r, rest = c :: r /\ delimiter c) /\ length (u ++ rest) <= n \/ (rest = [] /\ ~ In 92%N u /\ n = length u) ->
  word_loop n (u ++ rest) acc = Done (Ok (acc ++ s, rest)).
Proof.
  induction 1 as [|c u s H1 H2 W IH|c u s W IH]; intros rest n acc H.
  - cbn [app] in *. rewrite app_nil_r. destruct H as [((c & r & -> & D) & L)|(-> & _ & ->)]; [|reflexivity].
    destruct n; [cbn in L; lia|]. cbn [word_loop].
    assert (Hb : (c =? BACKSLASH)%N = false).
    { apply N.eqb_neq. intros ->. unfold delimiter, white, BACKSLASH in D. cbn [In] in D. lia. }
    rewrite Hb. apply delimiter_tests in D. destruct ((c =? 59) || (c =? 40) || (c =? 41))%N; [reflexivity|].
    destruct D as [D|D]; [discriminate|]. now rewrite D.
  - cbn [app length] in *. destruct n as [|n]; [destruct H as [(_ & L)|(_ & _ & L)]; lia|]. cbn [word_loop]. unfold BACKSLASH.
    replace (c =? 92)%N with false by (symmetry; now apply N.eqb_neq).
    destruct ((c =? 59) || (c =? 40) || (c =? 41))%N eqn:Es; [exfalso; apply H2, delimiter_tests; now left|].
    destruct (is_ws c) eqn:Ew; [exfalso; apply H2, delimiter_tests; now right|].
    rewrite IH; [now rewrite <- app_assoc|]. destruct H as [(D & L)|(D & N & L)]; [left; split; [assumption|lia]|right].
    split; [assumption|]. split; [|lia]. intros Hi. apply N. now right.
  - cbn [app length] in *. destruct H as [(D & L)|(_ & N & _)]; [|exfalso; apply N; now left].
    destruct n as [|n]; [lia|]. cbn [word_loop]. change (92 =? BACKSLASH)%N with true. cbv iota.
    rewrite IH; [now rewrite <- app_assoc|]. left. split; [assumption|lia].
Qed.
Lemma quote_loop_sound : forall n cur acc w rest, quote_loop n cur acc = Done (Ok (true, w, rest)) ->
  exists u s, cur = u ++ 34%N :: rest /\ w = acc ++ s /\ written (eq 34%N) u s.
Proof.
  induction n as [|n IH]; intros cur acc w rest E; cbn [quote_loop] in E; [discriminate|].
  destruct cur as [|ch cur]; [discriminate|]. unfold BACKSLASH in E. destruct (ch =? 92)%N eqn:Eb.
  - apply N.eqb_eq in Eb as ->. destruct cur as [|c cur]; [discriminate|].
    apply IH in E as (u & s & -> & -> & W). exists (92%N :: c :: u), (c :: s). split; [reflexivity|].
    split; [now rewrite <- app_assoc|]. now constructor.
  - apply N.eqb_neq in Eb. destruct (ch =? 34)%N eqn:Eq.
    + apply N.eqb_eq in Eq as ->. assert (w = acc /\ rest = cur) as (-> & ->) by (split; congruence). exists [], [].
      rewrite app_nil_r. split; [reflexivity|]. split; [reflexivity|constructor].
    + apply N.eqb_neq in Eq. apply IH in E as (u & s & -> & -> & W). exists (ch :: u), (ch :: s). split; [reflexivity|].
      split; [now rewrite <- app_assoc|]. constructor; [assumption|congruence|assumption].
Qed.
Lemma quote_loop_complete : forall u s, written (eq 34%N) u s -> forall rest n acc, length (u ++ 34%N :: rest) <= n ->
  quote_loop n (u ++ 34%N :: rest) acc = Done (Ok (true, acc ++ s, rest)).
Proof.
  induction 1 as [|c u s H1 H2 W IH|c u s W IH]; intros rest n acc L; cbn [app length] in *.
  - destruct n; [lia|]. cbn [quote_loop]. rewrite app_nil_r. reflexivity.
  - destruct n; [lia|]. cbn [quote_loop]. unfold BACKSLASH. replace (c =? 92)%N with false by (symmetry; now apply N.eqb_neq).
    replace (c =? 34)%N with false by (symmetry; apply N.eqb_neq; congruence). rewrite IH by lia. now rewrite <- app_assoc.
  - destruct n; [lia|]. cbn [quote_loop]. change (92 =? BACKSLASH)%N with true. cbv iota. rewrite IH by lia. now rewrite <- app_assoc.
Qed.
Lemma skip_ws_spec : forall l, exists ws, l = ws ++ skip_ws l /\ Forall white ws /\ (forall c r, skip_ws l = c :: r -> ~ white c).
Proof.
  induction l as [|c l (ws & E & F & H)]; cbn [skip_ws].
  - exists []. split; [reflexivity|]. split; [constructor|discriminate].
  - destruct (is_ws c) eqn:W.
    + exists (c :: ws). cbn [app]. rewrite <- E. split; [reflexivity|]. split; [constructor; [now apply white_ws|assumption]|assumption].
    + exists []. split; [reflexivity|]. split; [constructor|]. intros c' r [= <- <-]. now apply not_white_ws.
Qed.
Lemma skip_ws_app : forall ws l, Forall white ws -> (forall c r, l = c :: r -> ~ white c) -> skip_ws (ws ++ l) = l.
Proof.
  induction 1 as [|c ws H _ IH]; intros Hl; cbn [app skip_ws].
  - destruct l as [|c l]; [reflexivity|]. cbn [skip_ws]. specialize (Hl c l eq_refl). apply not_white_ws in Hl. now rewrite Hl.
  - apply white_ws in H. rewrite H. auto.
Qed.

(** ** One line *)
Definition st (f : file) (l : line) (p : bool) (n : nat) : tok := mkTok f l [] p (S n).

Lemma st_size : forall f l p n, tok_size (st f l p n) = length l + rest_size f.
Proof. intros. rewrite tok_size_eq. cbn [st tk_cur tk_rest tk_peeked length]. lia. Qed.
Definition lift (r : exec (result (token * tok) token_err)) : exec (result (token * tok) zone_err) :=
  let! r := r in match r with Ok x => Done (Ok x) | Err e => Done (Err (zone_err_of_token e)) end.
Lemma next_st : forall f c l p n, next (st f (c :: l) p n) =
  lift (if ((c =? 32) || (c =? 9))%N then Done (Ok (T_Blank, st f (skip_ws (c :: l)) p n))
        else if (c =? 36)%N then process_directive (st f (c :: l) p n) (c :: l)
        else if (c =? 34)%N then process_quoted_string (st f (c :: l) p n) (c :: l)
        else if (c =? 40)%N then
          if p then Done (Err TE_MlUnexpectedOpen) else next_rec (S (tok_size (st f l true n))) (st f l true n)
        else if (c =? 41)%N then
          if p then next_rec (S (tok_size (st f l false n))) (st f l false n) else Done (Err TE_MlUnexpectedClose)
        else if (c =? 59)%N then next_rec (S (tok_size (st f [] p n))) (st f [] p n)
        else process_string_or_number (st f (c :: l) p n) (c :: l)).
Proof.
  intros f c l p n. unfold next, lift. f_equal.
  set (k := tok_size (st f (c :: l) p n)).
  assert (K : k = S (length l) + rest_size f) by (unfold k; now rewrite st_size).
  change (next_rec (S k) (st f (c :: l) p n)) with
    (if ((c =? 32) || (c =? 9))%N then Done (Ok (T_Blank, st f (skip_ws (c :: l)) p n))
     else if (c =? 36)%N then process_directive (st f (c :: l) p n) (c :: l)
     else if (c =? 34)%N then process_quoted_string (st f (c :: l) p n) (c :: l)
     else if (c =? 40)%N then if p then Done (Err TE_MlUnexpectedOpen) else next_rec k (st f l true n)
     else if (c =? 41)%N then if p then next_rec k (st f l false n) else Done (Err TE_MlUnexpectedClose)
     else if (c =? 59)%N then next_rec k (st f [] p n)
     else process_string_or_number (st f (c :: l) p n) (c :: l)).
  clearbody k.
  destruct ((c =? 32) || (c =? 9))%N; [reflexivity|]. destruct (c =? 36)%N; [reflexivity|]. destruct (c =? 34)%N; [reflexivity|].
  destruct (c =? 40)%N; [destruct p; [reflexivity|]; apply next_rec_fuel; rewrite ?st_size; lia|].
  destruct (c =? 41)%N; [destruct p; [|reflexivity]; apply next_rec_fuel; rewrite ?st_size; lia|].
  destruct (c =? 59)%N; [|reflexivity]. apply next_rec_fuel; rewrite ?st_size; cbn [length]; lia.
Qed.
Lemma lift_next : forall t, lift (next_rec (S (tok_size t)) t) = next t.
Proof. reflexivity. Qed.

Lemma reads_same : forall t t' ts o, next t = next t' -> reads t ts o -> reads t' ts o.
Proof.
  intros t t' ts o E R. inversion R; subst.
  - eapply reads_end. rewrite <- E. eassumption.
  - apply reads_err. now rewrite <- E.
  - eapply reads_token; [rewrite <- E; eassumption|assumption|assumption].
Qed.

Lemma open_next : forall f l n, next (st f (40%N :: l) false n) = next (st f l true n).
Proof. intros. rewrite next_st. cbn [N.eqb Pos.eqb orb]. apply lift_next. Qed.
Lemma close_next : forall f l n, next (st f (41%N :: l) true n) = next (st f l false n).
Proof. intros. rewrite next_st. cbn [N.eqb Pos.eqb orb]. apply lift_next. Qed.
Lemma comment_next : forall f l p n, next (st f (59%N :: l) p n) = next (st f [] p n).
Proof. intros. rewrite next_st. cbn [N.eqb Pos.eqb orb]. apply lift_next. Qed.

Lemma word_token_model : forall s x, word_token s x <->
  x = (if bytes_eqb (utf8_encode s) [64%N] then T_At else match parse_u32 (utf8_encode s) with Some n => T_Number n | None => T_String (utf8_encode s) end).
Proof.
  intros s x. pose proof (ascii_encode_iff [64%N] s eq_refl) as A. split.
  - intros [H|n H|bs H1 H2 H3].
    + apply A in H as ->. reflexivity.
    + destruct (bytes_eqb (utf8_encode s) [64%N]) eqn:E; [exfalso|apply parse_u32_spec in H as ->; reflexivity].
      rewrite (proj1 A eq_refl) in H. destruct H as (ds & [<-|H] & _ & F & _); [|congruence]. inversion F; subst. lia.
    + destruct (bytes_eqb (utf8_encode s) [64%N]) eqn:E; [exfalso; apply H1; now apply A|].
      destruct (parse_u32 (utf8_encode s)) as [n|] eqn:En; [exfalso; apply (H2 n); now apply parse_u32_spec|]. apply utf8s_model in H3 as ->. reflexivity.
  - intros ->. destruct (bytes_eqb (utf8_encode s) [64%N]) eqn:E; [apply wt_at; now apply A|].
    destruct (parse_u32 (utf8_encode s)) as [n|] eqn:En; [apply wt_number; now apply parse_u32_spec|].
    apply wt_string; [intros H; apply A in H; congruence| |now apply utf8s_model].
    intros n H. apply parse_u32_spec in H. congruence.
Qed.
Lemma word_token_not_end : forall s x, word_token s x -> x <> T_End.
Proof. intros s x H. destruct H; discriminate. Qed.

Lemma ends_word_loop : forall u rest, ends_word u rest ->
  (exists c r, rest = c :: r /\ delimiter c) /\ length (u ++ rest) <= length (u ++ rest) \/ (rest = [] /\ ~ In 92%N u /\ length (u ++ rest) = length u).
Proof.
  intros u rest [H|(-> & N)]; [left; split; [assumption|lia]|right]. rewrite app_nil_r. auto.
Qed.

Lemma lex_line_reads : forall p l ts q, lex_line p l ts q -> forall f n ts', reads (st f [] q n) ts' None -> reads (st f l p n) (ts ++ ts') None.
Proof.
  induction 1 as [p|p l|l ts q _ IH|l ts q _ IH|p b ws l ts q Hb Hw Hl _ IH|p u l ts q Hu He _ IH|p u l ts q Hu He _ IH
                 |p u s bs l ts q Hu Hs _ IH|p c u s x l ts q H1 H2 Hu He Hx _ IH]; intros f n ts' R.
  - exact R.
  - cbn [app]. eapply reads_same; [symmetry; apply comment_next|exact R].
  - eapply reads_same; [symmetry; apply open_next|now apply IH].
  - eapply reads_same; [symmetry; apply close_next|now apply IH].
  - cbn [app]. apply reads_token with (st f l p n); [|discriminate|now apply IH]. rewrite next_st.
    replace ((b =? 32) || (b =? 9))%N with true by (symmetry; destruct Hb as [->| ->]; reflexivity).
    change (b :: ws ++ l) with ((b :: ws) ++ l). rewrite skip_ws_app; [reflexivity| |assumption]. constructor; [|assumption].
    apply white_ws. destruct Hb as [->| ->]; reflexivity.
  - cbn [app]. apply reads_token with (st f l p n); [|discriminate|now apply IH]. rewrite next_st. cbn [N.eqb Pos.eqb orb process_directive assert_].
    rewrite (word_loop_complete _ _ Hu _ _ _ (ends_word_loop _ _ He)). reflexivity.
  - cbn [app]. apply reads_token with (st f l p n); [|discriminate|now apply IH]. rewrite next_st. cbn [N.eqb Pos.eqb orb process_directive assert_].
    rewrite (word_loop_complete _ _ Hu _ _ _ (ends_word_loop _ _ He)). reflexivity.
  - cbn [app]. apply reads_token with (st f l p n); [|discriminate|now apply IH]. rewrite next_st. cbn [N.eqb Pos.eqb orb process_quoted_string assert_].
    rewrite (quote_loop_complete _ _ Hu l _ [] (le_n _)). apply utf8s_model in Hs as ->. reflexivity.
  - cbn [app]. apply reads_token with (st f l p n); [|now apply word_token_not_end in Hx|now apply IH]. rewrite next_st.
    assert (K : ((c =? 32) || (c =? 9))%N = false /\ (c =? 36)%N = false /\ (c =? 34)%N = false /\ (c =? 40)%N = false /\ (c =? 41)%N = false /\ (c =? 59)%N = false).
    { assert (D : c = 92%N \/ ~ delimiter c) by (inversion Hu; subst; auto). unfold delimiter, white in D. cbn [In] in D.
      rewrite Bool.orb_false_iff, !N.eqb_neq. lia. }
    destruct K as (-> & -> & -> & -> & -> & ->). unfold process_string_or_number. change (c :: u ++ l) with ((c :: u) ++ l).
    rewrite (word_loop_complete _ _ Hu _ _ [] (ends_word_loop _ _ He)). cbn [bind app]. apply word_token_model in Hx.
    destruct (bytes_eqb (utf8_encode s) [64%N]); [subst x; reflexivity|]. destruct (parse_u32 (utf8_encode s)); subst x; reflexivity.
Qed.

(** ** Lines *)
Lemma idle_model : forall l, idle l <-> has_content l = false.
Proof.
  intros l. rewrite has_content_idle. unfold idle, idle_line.
  split; intros (ws & rest & E & F & R); exists ws, rest; (split; [assumption|]); (split; [|assumption]);
    eapply Forall_impl; try exact F; cbn; intros c; apply white_ws.
Qed.
Lemma contents_load : forall f ls, contents f ls -> forall n,
  match ls with
  | [] => exists n', load_new_line f n = Ok (None, [], n')
  | l :: ls' => exists f' n', load_new_line f n = Ok (Some l, f', S n') /\ contents f' ls'
  end.
Proof.
  induction 1 as [|l f ls H _ IH|l f ls H C IH]; intros n; cbn [load_new_line].
  - eauto.
  - apply idle_model in H. rewrite H. apply IH.
  - destruct (has_content l) eqn:E; [|exfalso; apply H; now apply idle_model]. eauto.
Qed.
Lemma load_contents : forall f n f' n', load_new_line f n = Ok (None, f', n') -> contents f [].
Proof.
  induction f as [|[l0|] f IH]; intros n f' n' E; cbn [load_new_line] in E; [constructor| |discriminate].
  destruct (has_content l0) eqn:H; [discriminate|]. constructor; [now apply idle_model|eauto].
Qed.
Lemma load_contents_some : forall f n l f' n' ls, load_new_line f n = Ok (Some l, f', n') -> contents f' ls -> contents f (l :: ls).
Proof.
  induction f as [|[l0|] f IH]; intros n l f' n' ls E C; cbn [load_new_line] in E; [discriminate| |discriminate].
  destruct (has_content l0) eqn:H.
  - assert (l = l0 /\ f' = f) as (-> & ->) by (split; congruence). constructor; [|assumption]. rewrite idle_model. congruence.
  - constructor; [now apply idle_model|eauto].
Qed.

(** At the end of a line. *)
Lemma line_over : forall f p n, next (st f [] p n) =
  match load_new_line f (S n) with
  | Err e => Done (Err (zone_err_of_token e))
  | Ok (None, f', n') => if p then Done (Err (zone_err_of_token TE_MlMissingClose)) else Done (Ok (T_End, mkTok f' [] [] p n'))
  | Ok (Some l, f', n') => if p then next (mkTok f' l [] true n') else Done (Ok (T_NewLine, mkTok f' l [] p n'))
  end.
Proof.
  intros f p n. unfold next at 1. rewrite st_size. cbn [length Nat.add].
  destruct (load_new_line f (S n)) as [[[[l|] f'] n']|e] eqn:E.
  - pose proof (load_some _ _ _ _ _ E) as (L & Ln & Hc & _). destruct p.
    + unfold next. cbn [tok_size]. rewrite tok_size_eq. cbn [tk_cur tk_rest tk_peeked length].
      transitivity (lift (next_rec (S (rest_size f)) (mkTok f' l [] true n'))).
      * unfold lift. f_equal. cbn [next_rec bootstrap st tk_line Nat.eqb fetch tk_peeked tk_cur tk_rest tk_multi]. rewrite E.
        destruct n'; [lia|]. cbn [Nat.eqb]. destruct l; [discriminate|]. reflexivity.
      * unfold lift. f_equal. apply next_rec_fuel; rewrite tok_size_eq; cbn [tk_cur tk_rest tk_peeked length]; lia.
    + cbn [next_rec bootstrap st tk_line Nat.eqb fetch tk_peeked tk_cur tk_rest tk_multi]. rewrite E. reflexivity.
  - cbn [next_rec bootstrap st tk_line Nat.eqb fetch tk_peeked tk_cur tk_rest tk_multi]. rewrite E. destruct p; reflexivity.
  - cbn [next_rec bootstrap st tk_line Nat.eqb fetch tk_peeked tk_cur tk_rest tk_multi]. rewrite E. reflexivity.
Qed.

Lemma lex_lines_reads : forall p l ls ts, lex_lines p l ls ts -> forall f n, contents f ls -> reads (st f l p n) ts None.
Proof.
  induction 1 as [p l ts H|p l ts l' ls ts' H _ IH|p l ts l' ls ts' H _ IH]; intros f n C.
  - rewrite <- (app_nil_r ts). eapply lex_line_reads; [eassumption|]. apply contents_load with (n := S n) in C as (n' & E).
    eapply reads_end. rewrite line_over, E. reflexivity.
  - eapply lex_line_reads; [eassumption|]. apply contents_load with (n := S n) in C as (f' & n' & E & C).
    apply reads_token with (st f' l' false n'); [|discriminate|now apply IH]. rewrite line_over, E. reflexivity.
  - eapply lex_line_reads; [eassumption|]. apply contents_load with (n := S n) in C as (f' & n' & E & C).
    eapply reads_same; [|apply IH; exact C]. rewrite line_over, E. reflexivity.
Qed.

Lemma lex_lines_prefix : forall pre p l p1 l1, (forall ts q, lex_line p1 l1 ts q -> lex_line p l (pre ++ ts) q) ->
  forall ls ts, lex_lines p1 l1 ls ts -> lex_lines p l ls (pre ++ ts).
Proof.
  intros pre p l p1 l1 H ls ts D. destruct D as [p1 l1 ts D|p1 l1 ts l' ls ts' D D'|p1 l1 ts l' ls ts' D D'].
  - apply ll_last. auto.
  - rewrite app_assoc. apply ll_next; auto.
  - rewrite app_assoc. apply ll_open; auto.
Qed.

Lemma reads_token_inv : forall t ts x t', next t = Done (Ok (x, t')) -> x <> T_End -> reads t ts None ->
  exists ts', ts = x :: ts' /\ reads t' ts' None.
Proof.
  intros t ts x t' E Hx R. inversion R; subst; try congruence. exists ts0. assert (x0 = x /\ t'0 = t') as (-> & ->) by (split; congruence). auto.
Qed.
Lemma reads_err_inv : forall t ts e, next t = Done (Err e) -> ~ reads t ts None.
Proof. intros t ts e E R. inversion R; subst; congruence. Qed.
Lemma reads_panic_inv : forall t ts k, next t = Panic k -> ~ reads t ts None.
Proof. intros t ts k E R. inversion R; subst; congruence. Qed.
Lemma reads_diverge_inv : forall t ts, next t = Diverge -> ~ reads t ts None.
Proof. intros t ts E R. inversion R; subst; congruence. Qed.

Lemma reads_lex_lines : forall k f l p n ts, length ts + length l + rest_size f < k -> reads (st f l p n) ts None ->
  exists ls, contents f ls /\ lex_lines p l ls ts.
Proof.
  induction k as [|k IH]; intros f l p n ts K R; [lia|]. destruct l as [|c l].
  - (* the end of the line *)
    pose proof (line_over f p n) as E. destruct (load_new_line f (S n)) as [[[[l|] f'] n']|e] eqn:El.
    + pose proof (load_some _ _ _ _ _ El) as (L & Ln & Hc & _). destruct n' as [|n']; [lia|]. destruct p.
      * apply (reads_same _ (st f' l true n')) in R; [|exact E]. apply IH in R as (ls & C & D); [|cbn [length] in *; lia].
        exists (l :: ls). split; [eapply load_contents_some; eassumption|]. apply (ll_open true [] []); [constructor|assumption].
      * destruct (reads_token_inv _ _ _ _ E ltac:(discriminate) R) as (ts' & -> & R'). clear R; rename R' into R. change (mkTok f' l [] false (S n')) with (st f' l false n') in R.
        apply IH in R as (ls & C & D); [|cbn [length] in *; lia].
        exists (l :: ls). split; [eapply load_contents_some; eassumption|]. apply (ll_next false [] []); [constructor|assumption].
    + destruct p; [destruct (reads_err_inv _ _ _ E R)|]. exists []. split; [eapply load_contents; eassumption|].
      inversion R; subst; try congruence. apply ll_last. constructor.
    + destruct (reads_err_inv _ _ _ E R).
  - cbn [length] in K. pose proof (next_st f c l p n) as E.
    (* a token is taken and [l'] is left *)
    assert (Tok : forall x l', next (st f (c :: l) p n) = Done (Ok (x, st f l' p n)) -> x <> T_End -> length l' <= S (length l) ->
      (forall ts q, lex_line p l' ts q -> lex_line p (c :: l) (x :: ts) q) -> exists ls, contents f ls /\ lex_lines p (c :: l) ls ts).
    { intros x l' E' Hx L H. apply (reads_token_inv _ _ _ _ E' Hx) in R as (ts' & -> & R). cbn [length] in K.
      apply IH in R as (ls & C & D); [|lia]. exists ls. split; [assumption|]. exact (lex_lines_prefix [x] p (c :: l) p l' H ls ts' D). }
    (* nothing is delivered and [l'] is left *)
    assert (Skip : forall p' l', next (st f (c :: l) p n) = next (st f l' p' n) -> length l' <= length l ->
      (forall ts q, lex_line p' l' ts q -> lex_line p (c :: l) ts q) -> exists ls, contents f ls /\ lex_lines p (c :: l) ls ts).
    { intros p' l' E' L H. apply (reads_same _ _ _ _ E') in R.
      apply IH in R as (ls & C & D); [|lia]. exists ls. split; [assumption|]. exact (lex_lines_prefix [] p (c :: l) p' l' H ls ts D). }
    destruct ((c =? 32) || (c =? 9))%N eqn:E1; [|destruct (c =? 36)%N eqn:E2; [|destruct (c =? 34)%N eqn:E3; [|destruct (c =? 40)%N eqn:E4;
      [|destruct (c =? 41)%N eqn:E5; [|destruct (c =? 59)%N eqn:E6]]]]].
    + assert (Hc : c = 32%N \/ c = 9%N) by (apply Bool.orb_true_iff in E1; rewrite !N.eqb_eq in E1; exact E1).
      assert (W : is_ws c = true) by (destruct Hc as [->| ->]; reflexivity). cbn [skip_ws] in E. rewrite W in E.
      destruct (skip_ws_spec l) as (ws & El & Fw & Hl). apply (Tok _ _ E); [discriminate|pose proof (skip_ws_size l); lia|].
      intros ts' q D. rewrite El at 1. now apply lx_blank.
    + apply N.eqb_eq in E2 as ->. cbn [process_directive N.eqb Pos.eqb assert_] in E.
      destruct (word_loop (length l) l [36%N]) as [[[w rest]|e]|k'|] eqn:Ew; cbn [bind lift] in E.
      * apply word_loop_sound in Ew as (u & s & -> & -> & W & Hend); [|lia].
        assert (He : ends_word u rest) by (destruct Hend as [H|(H1 & _ & H2)]; [now left|right; now split]).
        pose proof (ascii_encode_iff (s2b "$ORIGIN") ([36%N] ++ s) eq_refl) as A1. pose proof (ascii_encode_iff (s2b "$INCLUDE") ([36%N] ++ s) eq_refl) as A2.
        destruct (bytes_eqb _ (s2b "$ORIGIN")); [|destruct (bytes_eqb _ (s2b "$INCLUDE"))].
        -- assert (s = s2b "ORIGIN") as -> by (apply proj1 in A1; specialize (A1 eq_refl); cbn in A1; injection A1 as ->; reflexivity).
           apply (Tok _ _ E); [discriminate|rewrite app_length; lia|]. intros ts' q D. now apply lx_origin.
        -- assert (s = s2b "INCLUDE") as -> by (apply proj1 in A2; specialize (A2 eq_refl); cbn in A2; injection A2 as ->; reflexivity).
           apply (Tok _ _ E); [discriminate|rewrite app_length; lia|]. intros ts' q D. now apply lx_include.
        -- destruct (reads_err_inv _ _ _ E R).
      * destruct (reads_err_inv _ _ _ E R).
      * destruct (reads_panic_inv _ _ _ E R).
      * destruct (reads_diverge_inv _ _ E R).
    + apply N.eqb_eq in E3 as ->. cbn [process_quoted_string N.eqb Pos.eqb assert_] in E.
      destruct (quote_loop (length l) l []) as [[[[[] w] rest]|e]|k'|] eqn:Ew; cbn [bind lift] in E.
      * apply quote_loop_sound in Ew as (u & s & -> & -> & W). cbn [app] in E.
        apply (Tok _ _ E); [discriminate|rewrite app_length; cbn [length]; lia|]. intros ts' q D. eapply lx_quoted; [eassumption|now apply utf8s_model|assumption].
      * destruct (reads_err_inv _ _ _ E R).
      * destruct (reads_err_inv _ _ _ E R).
      * destruct (reads_panic_inv _ _ _ E R).
      * destruct (reads_diverge_inv _ _ E R).
    + apply N.eqb_eq in E4 as ->. destruct p; [destruct (reads_err_inv _ _ _ E R)|].
      apply (Skip true l); [exact E|lia|]. intros ts' q D. now constructor.
    + apply N.eqb_eq in E5 as ->. destruct p; [|destruct (reads_err_inv _ _ _ E R)].
      apply (Skip false l); [exact E|lia|]. intros ts' q D. now constructor.
    + apply N.eqb_eq in E6 as ->. apply (Skip p []); [exact E|cbn; lia|]. intros ts' q D. inversion D; subst. constructor.
    + unfold process_string_or_number in E. destruct (word_loop (length (c :: l)) (c :: l) []) as [[[w rest]|e]|k'|] eqn:Ew; cbn [bind lift] in E.
      * apply word_loop_sound in Ew as (u & s & Eu & -> & W & Hend); [|lia]. cbn [app] in E.
        assert (He : ends_word u rest) by (destruct Hend as [H|(H1 & _ & H2)]; [now left|right; now split]).
        apply N.eqb_neq in E2, E3.
        set (x := if bytes_eqb (utf8_encode s) [64%N] then T_At else match parse_u32 (utf8_encode s) with Some n => T_Number n | None => T_String (utf8_encode s) end).
        assert (Hx : word_token s x) by (now apply word_token_model).
        assert (E' : next (st f (c :: l) p n) = Done (Ok (x, st f rest p n))).
        { rewrite E. unfold x. destruct (bytes_eqb (utf8_encode s) [64%N]); [reflexivity|]. destruct (parse_u32 (utf8_encode s)); reflexivity. }
        pose proof (word_token_not_end _ _ Hx) as Hne.
        destruct u as [|c' u].
        -- (* an empty word: the same token again and again *)
           cbn [app] in Eu. subst rest. exfalso. apply (reads_token_inv _ _ _ _ E' Hne) in R as Q. destruct Q as (ts' & -> & R').
           destruct (reads_det _ _ _ R _ _ R') as (A & _). apply (f_equal (@length token)) in A. cbn [length] in A. lia.
        -- cbn [app] in Eu. injection Eu as <- ->. apply (Tok _ _ E' Hne); [rewrite app_length; lia|].
           intros ts' q D. eapply lx_word; eassumption.
      * destruct (reads_err_inv _ _ _ E R).
      * destruct (reads_panic_inv _ _ _ E R).
      * destruct (reads_diverge_inv _ _ E R).
Qed.

(** ** Files *)
Lemma first_line : forall f, next (tok_new f) =
  match load_new_line f 0 with
  | Err e => Done (Err (zone_err_of_token e))
  | Ok (None, f', n') => Done (Ok (T_End, mkTok f' [] [] false n'))
  | Ok (Some l, f', n') => next (mkTok f' l [] false n')
  end.
Proof.
  intros f. unfold next at 1. rewrite tok_size_eq. cbn [tok_new tk_cur tk_rest tk_peeked length Nat.add]. rewrite Nat.add_0_r.
  destruct (load_new_line f 0) as [[[[l|] f'] n']|e] eqn:E.
  - pose proof (load_some _ _ _ _ _ E) as (L & Ln & Hc & _). unfold next. rewrite tok_size_eq. cbn [tk_cur tk_rest tk_peeked length].
    transitivity (lift (next_rec (S (rest_size f)) (mkTok f' l [] false n'))).
    + unfold lift. f_equal. cbn [next_rec]. unfold bootstrap, tok_new. cbn [tk_line Nat.eqb tk_rest tk_multi tk_peeked]. rewrite E.
      destruct n'; [lia|]. reflexivity.
    + unfold lift. f_equal. apply next_rec_fuel; rewrite tok_size_eq; cbn [tk_cur tk_rest tk_peeked length]; lia.
  - cbn [next_rec]. unfold bootstrap, tok_new. cbn [tk_line Nat.eqb tk_rest tk_multi tk_peeked]. rewrite E. reflexivity.
  - cbn [next_rec]. unfold bootstrap, tok_new. cbn [tk_line Nat.eqb tk_rest tk_multi tk_peeked]. rewrite E. reflexivity.
Qed.

Lemma lexes_reads : forall f ts, lexes f ts <-> reads (tok_new f) ts None.
Proof.
  intros f ts. pose proof (first_line f) as E. split.
  - intros [(C & ->)|(l & ls & C & D)].
    + apply contents_load with (n := 0) in C as (n' & El). rewrite El in E. eapply reads_end. exact E.
    + apply contents_load with (n := 0) in C as (f' & n' & El & C). rewrite El in E.
      eapply reads_same; [symmetry; exact E|]. exact (lex_lines_reads _ _ _ _ D f' n' C).
  - intros R. destruct (load_new_line f 0) as [[[[l|] f'] n']|e] eqn:El.
    + pose proof (load_some _ _ _ _ _ El) as (L & Ln & Hc & _). destruct n' as [|n']; [lia|].
      apply (reads_same _ _ _ _ E) in R. destruct (reads_lex_lines _ _ _ _ _ _ (Nat.lt_succ_diag_r _) R) as (ls & C & D).
      right. exists l, ls. split; [eapply load_contents_some; eassumption|exact D].
    + left. split; [eapply load_contents; eassumption|]. inversion R; subst; congruence.
    + destruct (reads_err_inv _ _ _ E R).
Qed.
Lemma lexes_unique : forall f ts ts', lexes f ts -> lexes f ts' -> ts = ts'.
Proof. intros f ts ts' H H'. apply lexes_reads in H, H'. exact (proj1 (reads_det _ _ _ H _ _ H')). Qed.
