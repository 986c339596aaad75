(** The check for UTF-8 (Name.v, utf8_valid) is the one RFC 3629 asks for. *)
From Verif Require Import Base Types Name NameSpec Codec CodecSpec.
From Coq Require Import ZArith.
Ltac Zify.zify_post_hook ::= Z.to_euclidean_division_equations.

Ltac as_props := repeat match goal with
  | H : (_ <=? _)%N = true |- _ => apply N.leb_le in H
  | H : (_ <? _)%N = true |- _ => apply N.ltb_lt in H
  | H : (_ =? _)%N = true |- _ => apply N.eqb_eq in H
  | H : (_ <=? _)%N = false |- _ => apply N.leb_gt in H
  | H : (_ <? _)%N = false |- _ => apply N.ltb_ge in H
  | H : (_ =? _)%N = false |- _ => apply N.eqb_neq in H
  end.
(** Decide the outermost test. *)
Ltac atom b := lazymatch b with
  | (?x && _)%bool => atom x | (?x || _)%bool => atom x | _ => let E := fresh "E" in destruct b eqn:E; as_props; try lia
  end.
Ltac decide_n := repeat (match goal with |- ?l = _ => lazymatch l with (if ?b then _ else _) => atom b | (?b && _)%bool => atom b end end; cbn [andb orb]).

Lemma valid_char : forall c s, scalar c -> utf8_valid (utf8_char c ++ s) = utf8_valid s.
Proof.
  intros c s H. unfold scalar in H. unfold utf8_char.
  destruct (N.ltb_spec c 128) as [H1|H1].
  { cbn [app utf8_valid]. destruct (N.ltb_spec c 128); [reflexivity|lia]. }
  destruct (N.ltb_spec c 2048) as [H2|H2].
  { cbn [app utf8_valid]. decide_n; reflexivity. }
  destruct (N.ltb_spec c 65536) as [H3|H3].
  { cbn [app utf8_valid]. decide_n; reflexivity. }
  cbn [app utf8_valid]. decide_n; reflexivity.
Qed.

Ltac split_and := repeat match goal with
  | H : (_ && _)%bool = true |- _ => apply Bool.andb_true_iff in H; destruct H
  | H : (_ <=? _)%N = true |- _ => apply N.leb_le in H
  | H : (_ <? _)%N = true |- _ => apply N.ltb_lt in H
  | H : (_ =? _)%N = true |- _ => apply N.eqb_eq in H
  end.
Lemma one_more : forall c a s, scalar c -> utf8_char c = a -> is_utf8 s -> is_utf8 (a ++ s).
Proof. intros c a s H <- (cs & F & ->). exists (c :: cs). split; [now constructor|reflexivity]. Qed.

Lemma utf8_ok : forall s, utf8_valid s = true <-> is_utf8 s.
Proof.
  intros s. split.
  - remember (length s) as n eqn:En. revert s En. induction n as [n IH] using lt_wf_ind. intros s En H.
    destruct s as [|a s1]; [exists []; split; [constructor|reflexivity]|].
    cbn [utf8_valid] in H. destruct (N.ltb_spec a 128) as [Ha|Ha].
    { apply (one_more a [a]); [unfold scalar; lia| |].
      - unfold utf8_char. destruct (N.ltb_spec a 128); [reflexivity|lia].
      - apply (IH (length s1)); [subst n; cbn; lia|reflexivity|exact H]. }
    destruct s1 as [|b s2]; [discriminate H|].
    destruct ((194 <=? a)%N && (a <=? 223)%N) eqn:E2.
    { split_and. apply (one_more ((a - 192) * 64 + (b - 128))%N [a; b]); [unfold scalar; lia| |].
      - unfold utf8_char. decide_n. f_equal; [lia|]. f_equal. lia.
      - apply (IH (length s2)); [subst n; cbn; lia|reflexivity|assumption]. }
    destruct s2 as [|c s3]; [discriminate H|].
    assert (K3 : utf8_valid s3 = true -> (128 <= b <= 191)%N -> (128 <= c <= 191)%N -> (224 <= a <= 239)%N -> (a = 224 -> 160 <= b)%N -> (a = 237 -> b <= 159)%N -> is_utf8 (a :: b :: c :: s3)).
    { intros V B C A A1 A2. apply (one_more ((a - 224) * 4096 + (b - 128) * 64 + (c - 128))%N [a; b; c]); [unfold scalar; lia| |].
      - unfold utf8_char. decide_n. f_equal; [lia|]. f_equal; [lia|]. f_equal. lia.
      - apply (IH (length s3)); [subst n; cbn; lia|reflexivity|assumption]. }
    destruct (N.eqb_spec a 224) as [E3|E3]; [split_and; apply K3; try assumption; lia|].
    destruct ((225 <=? a)%N && (a <=? 236)%N || (238 <=? a)%N && (a <=? 239)%N) eqn:E4.
    { apply Bool.orb_true_iff in E4 as [E4|E4]; split_and; apply K3; try assumption; lia. }
    destruct (N.eqb_spec a 237) as [E5|E5]; [split_and; apply K3; try assumption; lia|].
    destruct s3 as [|d s4]; [discriminate H|].
    assert (K4 : utf8_valid s4 = true -> (128 <= b <= 191)%N -> (128 <= c <= 191)%N -> (128 <= d <= 191)%N -> (240 <= a <= 244)%N -> (a = 240 -> 144 <= b)%N -> (a = 244 -> b <= 143)%N -> is_utf8 (a :: b :: c :: d :: s4)).
    { intros V B C D A A1 A2. apply (one_more ((a - 240) * 262144 + (b - 128) * 4096 + (c - 128) * 64 + (d - 128))%N [a; b; c; d]); [unfold scalar; lia| |].
      - unfold utf8_char. decide_n. f_equal; [lia|]. f_equal; [lia|]. f_equal; [lia|]. f_equal. lia.
      - apply (IH (length s4)); [subst n; cbn; lia|reflexivity|assumption]. }
    destruct (N.eqb_spec a 240) as [E6|E6]; [split_and; apply K4; try assumption; lia|].
    destruct ((241 <=? a)%N && (a <=? 243)%N) eqn:E7; [split_and; apply K4; try assumption; lia|].
    destruct (N.eqb_spec a 244) as [E8|E8]; [split_and; apply K4; try assumption; lia|discriminate H].
  - intros (cs & F & ->). induction F as [|c cs Hc _ IH]; [reflexivity|]. cbn [flat_map]. now rewrite valid_char.
Qed.
Print Assumptions utf8_ok.
Ltac Zify.zify_post_hook ::= idtac.
