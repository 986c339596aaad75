(** Proofs about the model of name.rs. *)
From Verif Require Import Base Buffer BufferSpec BufferProofs Reader Types Name NameSpec.

Definition nodot (l : list N) : Prop := Forall (fun c => c <> DOT) l.

(** * split *)
Lemma split_nonempty : forall s, split DOT s <> [].
Proof. intros [|x s]; cbn [split]; [easy|]. destruct (x =? DOT)%N; [easy|]. now destruct (split DOT s). Qed.

Lemma dotted_app : forall a b, dotted (a ++ b) = dotted a ++ dotted b.
Proof. intros. apply flat_map_app. Qed.

Lemma dotted_split : forall s, dotted (split DOT s) = s ++ [DOT].
Proof.
  induction s as [|x s IH]; [reflexivity|]. cbn [split].
  destruct (N.eqb_spec x DOT) as [->|Hx].
  - unfold dotted in *. cbn [flat_map app]. now rewrite IH.
  - pose proof (split_nonempty s). destruct (split DOT s) as [|h t]; [easy|].
    unfold dotted in *. cbn [flat_map app] in *. now rewrite IH.
Qed.

Lemma split_nodot : forall s, Forall nodot (split DOT s).
Proof.
  induction s as [|x s IH]; [repeat constructor|]. cbn [split].
  destruct (N.eqb_spec x DOT) as [->|Hx].
  - constructor; [constructor|assumption].
  - destruct (split DOT s) as [|h t]; [repeat constructor; assumption|].
    inversion IH; subst. constructor; [|assumption]. now constructor.
Qed.

Lemma split_app_dot : forall a b, nodot a -> split DOT (a ++ DOT :: b) = a :: split DOT b.
Proof.
  induction a as [|x a IH]; intros b H; cbn [app split].
  - reflexivity.
  - inversion H; subst. destruct (N.eqb_spec x DOT); [easy|]. now rewrite IH.
Qed.

Lemma split_single : forall a, nodot a -> split DOT a = [a].
Proof.
  induction a as [|x a IH]; intros H; [reflexivity|]. inversion H; subst. cbn [split].
  destruct (N.eqb_spec x DOT); [easy|]. now rewrite IH.
Qed.

Lemma split_dotted : forall ls, Forall nodot ls -> split DOT (dotted ls) = ls ++ [[]].
Proof.
  induction ls as [|l ls IH]; intros H; [reflexivity|]. inversion H; subst.
  unfold dotted. cbn [flat_map app]. fold (dotted ls).
  rewrite <- app_assoc. cbn [app]. rewrite split_app_dot by assumption. now rewrite IH.
Qed.

Lemma split_strip : forall ls s, Forall nodot ls -> dotted ls = s ++ [DOT] -> split DOT s = ls.
Proof.
  induction ls as [|l ls IH]; intros s H E.
  - unfold dotted in E. cbn in E. now destruct s.
  - inversion H; subst. destruct ls as [|l2 ls].
    + unfold dotted in E. cbn [flat_map] in E. rewrite app_nil_r in E.
      apply app_inj_tail in E as [<- _]. now apply split_single.
    + assert (Hs : exists s', s = l ++ DOT :: s' /\ dotted (l2 :: ls) = s' ++ [DOT]).
      { destruct (exists_last (l := dotted (l2 :: ls))) as (s' & x & Ex).
        - unfold dotted. cbn [flat_map]. intros Hc. apply app_eq_nil in Hc as [Hc _].
          now destruct l2.
        - change (dotted (l :: l2 :: ls)) with ((l ++ [DOT]) ++ dotted (l2 :: ls)) in E.
          rewrite Ex in E. rewrite app_assoc in E. apply app_inj_tail in E as [<- ->].
          exists s'. rewrite <- app_assoc. now split. }
      destruct Hs as (s' & -> & E'). rewrite split_app_dot by assumption.
      f_equal. now apply IH.
Qed.

Lemma dotted_nonempty : forall ls, ls <> [] -> dotted ls <> [].
Proof.
  intros [|l ls] H; [easy|]. unfold dotted. cbn [flat_map]. intros E.
  apply app_eq_nil in E as [E _]. now destruct l.
Qed.

Lemma dotted_snoc : forall ls, ls <> [] -> exists s, dotted ls = s ++ [DOT].
Proof.
  intros ls H. destruct (exists_last H) as (a & l & ->). rewrite dotted_app.
  unfold dotted at 2. cbn [flat_map]. rewrite app_nil_r. exists (dotted a ++ l). now rewrite <- app_assoc.
Qed.

(** * Characters and labels *)
Lemma alnum_spec : forall c, alnum c = true <-> letter_or_digit c.
Proof.
  intros c. unfold alnum, letter_or_digit. rewrite !orb_true_iff, !andb_true_iff, !N.leb_le. lia.
Qed.

Lemma alnum_not_hyphen : forall c, letter_or_digit c -> c <> 45%N.
Proof. intros c H E. subst. unfold letter_or_digit in H. lia. Qed.

Lemma validate_label_ok : forall l, validate_label l = Ok tt <-> good_label l.
Proof.
  intros l. unfold validate_label, good_label. destruct l as [|c l]; [split; intros H; [discriminate|now destruct H]|].
  assert (Hfa : forall l, forallb (fun c => alnum c || (c =? HYPHEN)%N) l = true
                <-> Forall (fun c => letter_or_digit c \/ c = 45%N) l).
  { clear. intros l. rewrite forallb_forall, Forall_forall. split; intros H x Hx; specialize (H x Hx).
    - apply orb_true_iff in H. rewrite alnum_spec, N.eqb_eq in H. exact H.
    - apply orb_true_iff. rewrite alnum_spec, N.eqb_eq. exact H. }
  assert (Hin : In (List.last (c :: l) 0%N) (c :: l)).
  { assert (Hne : c :: l <> []) by discriminate.
    destruct (exists_last Hne) as (a & x & E). rewrite E, last_last. apply in_or_app. right. now left. }
  cbn [List.hd]. destruct (alnum c) eqn:E1; cbn [negb].
  - destruct (alnum (List.last (c :: l) 0%N)) eqn:E2; cbn [negb].
    + apply alnum_spec in E1, E2. destruct (forallb _ (c :: l)) eqn:E3.
      * apply Hfa in E3. split; [intros _|reflexivity]. split; [easy|]. split; [assumption|].
        split; now apply alnum_not_hyphen.
      * split; [discriminate|]. intros (_ & H & _). apply Hfa in H. congruence.
    + split; [discriminate|]. intros (_ & H & _ & Hl). rewrite Forall_forall in H.
      specialize (H _ Hin). destruct H as [H|H]; [|contradiction].
      apply alnum_spec in H. congruence.
  - split; [discriminate|]. intros (_ & H & Hh & _). inversion H; subst.
    destruct H2 as [H2|H2]; [|contradiction]. apply alnum_spec in H2. congruence.
Qed.

Lemma validate_labels_ok : forall ls, validate_labels ls = Ok tt <-> Forall good_label ls.
Proof.
  induction ls as [|l ls IH]; cbn [validate_labels].
  - split; [constructor|reflexivity].
  - destruct (Nat.eqb_spec (length l) 0) as [E|E].
    + split; [discriminate|]. intros H. inversion H as [|? ? (Hne & _) _]; subst. now destruct l.
    + destruct (validate_label l) as [[]|e] eqn:E2.
      * apply validate_label_ok in E2. rewrite IH. split; intros H; [now constructor|now inversion H].
      * split; [discriminate|]. intros H. inversion H as [|? ? Hg _]; subst.
        apply validate_label_ok in Hg. congruence.
Qed.

Lemma good_nodot : forall l, good_label l -> nodot l.
Proof.
  intros l (_ & H & _). unfold nodot. rewrite Forall_forall in *. intros c Hc E. specialize (H c Hc).
  subst. unfold letter_or_digit, DOT in H. lia.
Qed.

Lemma goods_nodot : forall ls, Forall good_label ls -> Forall nodot ls.
Proof. intros ls H. eapply Forall_impl; [|exact H]. exact good_nodot. Qed.

Lemma has_dotdot_app : forall l t, nodot l -> l <> [] -> has_dotdot (DOT :: t) = false ->
  has_dotdot (l ++ DOT :: t) = false.
Proof.
  induction l as [|x l IH]; intros t H Hne Ht; [easy|]. inversion H; subst.
  destruct l as [|y l].
  - cbn [app]. change (has_dotdot (x :: DOT :: t)) with (((x =? DOT) && (DOT =? DOT))%N || has_dotdot (DOT :: t)).
    rewrite Ht. destruct (N.eqb_spec x DOT); [easy|]. reflexivity.
  - cbn [app]. change (has_dotdot (x :: y :: l ++ DOT :: t))
      with (((x =? DOT) && (y =? DOT))%N || has_dotdot ((y :: l) ++ DOT :: t)).
    rewrite IH by (assumption || easy). destruct (N.eqb_spec x DOT); [easy|]. reflexivity.
Qed.

Lemma has_dotdot_dotted : forall ls, Forall good_label ls -> has_dotdot (DOT :: dotted ls) = false.
Proof.
  induction ls as [|l ls IH]; intros H; [reflexivity|]. inversion H as [|? ? Hg Hls]; subst.
  pose proof (good_nodot l Hg) as Hnd. destruct Hg as (Hne & _).
  assert (E : has_dotdot (dotted (l :: ls)) = false).
  { unfold dotted. cbn [flat_map]. rewrite <- app_assoc. cbn [app]. fold (dotted ls).
    apply has_dotdot_app; try assumption. now apply IH. }
  destruct l as [|x l]; [easy|].
  change (has_dotdot (DOT :: dotted ((x :: l) :: ls)))
    with (((DOT =? DOT) && (x =? DOT))%N || has_dotdot (dotted ((x :: l) :: ls))).
  rewrite E. inversion Hnd; subst. destruct (N.eqb_spec x DOT); [easy|]. now rewrite andb_false_r.
Qed.

(** * Validation = grammar *)
Lemma validate_name_ok : forall s, validate_name s = Ok tt <-> accepted s.
Proof.
  intros s. unfold validate_name, accepted, is_name.
  destruct (bytes_eqb s [DOT]) eqn:E0.
  { apply bytes_eqb_eq in E0. subst. split; [|reflexivity]. intros _. exists [].
    split; [reflexivity|]. split; [constructor|]. cbn. lia. }
  apply bytes_eqb_neq in E0.
  destruct (Nat.ltb_spec 255 (length s)).
  { split; [discriminate|]. intros (ls & _ & _ & Hl). lia. }
  destruct (ends_with s [DOT]) eqn:E1; cbn [negb].
  2:{ split; [discriminate|]. intros (ls & -> & _ & _). exfalso.
      assert (ends_with (name_text ls) [DOT] = true); [|congruence].
      apply ends_with_spec. destruct ls as [|l ls]; [now exists []|].
      apply (dotted_snoc (l :: ls)). discriminate. }
  apply ends_with_spec in E1 as (s' & ->).
  replace (firstn (length (s' ++ [DOT]) - 1) (s' ++ [DOT])) with s'.
  2:{ rewrite app_length. cbn [length]. replace (length s' + 1 - 1) with (length s' + 0) by lia.
      rewrite firstn_app_2. cbn. now rewrite app_nil_r. }
  split.
  - destruct (match s' ++ [DOT] with c :: _ => (c =? DOT)%N | [] => false end); [discriminate|].
    destruct (has_dotdot (s' ++ [DOT])); [discriminate|]. intros H'.
    apply validate_labels_ok in H'. exists (split DOT s').
    split; [|now split]. rewrite <- dotted_split.
    pose proof (split_nonempty s'). now destruct (split DOT s').
  - intros (ls & E & Hg & _). destruct ls as [|l ls]; [now rewrite E in E0|].
    cbn [name_text] in E. rewrite E.
    assert (Hh : match dotted (l :: ls) with c :: _ => (c =? DOT)%N | [] => false end = false).
    { inversion Hg as [|? ? Hg1 _]; subst. pose proof (good_nodot l Hg1) as Hnd.
      destruct Hg1 as (Hne & _). destruct l as [|x l]; [easy|]. inversion Hnd; subst.
      unfold dotted. cbn [flat_map app]. now apply N.eqb_neq. }
    rewrite Hh.
    pose proof (has_dotdot_dotted _ Hg) as Hd.
    assert (Hd' : has_dotdot (dotted (l :: ls)) = false).
    { destruct (dotted (l :: ls)) as [|y t]; [reflexivity|].
      change (has_dotdot (DOT :: y :: t)) with (((DOT =? DOT) && (y =? DOT))%N || has_dotdot (y :: t)) in Hd.
      now apply orb_false_iff in Hd. }
    rewrite Hd'. apply validate_labels_ok.
    rewrite (split_strip (l :: ls) s'); [assumption|now apply goods_nodot|now symmetry].
Qed.

Lemma validate_name_dec : forall s, is_ok (validate_name s) = true <-> accepted s.
Proof.
  intros s. rewrite <- validate_name_ok. destruct (validate_name s) as [[]|]; cbn; split; congruence.
Qed.

(** Labels of an accepted name are unique. *)
Lemma is_name_unique : forall s a b, is_name s a -> is_name s b -> a = b.
Proof.
  intros s a b (Ea & Ga & _) (Eb & Gb & _).
  assert (Hnn : forall l ls, Forall good_label (l :: ls) -> [46%N] <> dotted (l :: ls)).
  { intros l ls G E. inversion G as [|? ? (Hne & _) _]; subst.
    unfold dotted in E. cbn [flat_map] in E. apply (f_equal (@length N)) in E.
    rewrite !app_length in E. cbn [length] in E. destruct l; [easy|]. cbn [length] in E. lia. }
  destruct a as [|l ls], b as [|l' ls']; subst s; cbn [name_text] in *.
  - reflexivity.
  - exfalso. eapply Hnn; eassumption.
  - exfalso. eapply Hnn; [exact Ga|]. now symmetry.
  - pose proof (split_dotted _ (goods_nodot _ Ga)) as S1.
    pose proof (split_dotted _ (goods_nodot _ Gb)) as S2.
    rewrite Eb, S2 in S1. now apply app_inj_tail in S1 as [-> _].
Qed.

(** * UTF-8 *)
Lemma utf8_ascii : forall s, Forall (fun c => (c < 128)%N) s -> utf8_valid s = true.
Proof.
  induction s as [|c s IH]; intros H; [reflexivity|]. inversion H; subst. cbn [utf8_valid].
  replace (c <? 128)%N with true by (symmetry; now apply N.ltb_lt). now apply IH.
Qed.

Lemma good_ascii : forall l, good_label l -> Forall (fun c => (c < 128)%N) l.
Proof.
  intros l (_ & H & _). eapply Forall_impl; [|exact H]. intros c Hc. cbn in Hc.
  unfold letter_or_digit in Hc. lia.
Qed.

Lemma name_text_ascii : forall ls, Forall good_label ls -> Forall (fun c => (c < 128)%N) (name_text ls).
Proof.
  intros ls H. destruct ls as [|l ls]; [repeat constructor|]. unfold name_text.
  induction H as [|x xs Hx Hxs IH]; [constructor|].
  unfold dotted. cbn [flat_map]. apply Forall_app. split; [|exact IH].
  apply Forall_app. split; [now apply good_ascii|]. repeat constructor.
Qed.

Lemma accepted_utf8 : forall s, accepted s -> utf8_valid s = true.
Proof. intros s (ls & -> & H & _). apply utf8_ascii. now apply name_text_ascii. Qed.

Lemma accepted_bytes : forall s, accepted s -> is_bytes s.
Proof.
  intros s (ls & -> & H & _). pose proof (name_text_ascii ls H) as A.
  eapply Forall_impl; [|exact A]. intros c Hc. unfold is_byte. cbn in Hc. lia.
Qed.

(** * Zone membership *)
Lemma labels_match_spec : forall a b, labels_match a b = true <-> exists t, a = b ++ t.
Proof.
  intros a b. revert a. induction b as [|y b IH]; intros a; cbn [labels_match].
  - split; [intros _; now exists a|reflexivity].
  - destruct a as [|x a].
    + split; [discriminate|]. intros (t & E). discriminate.
    + destruct (bytes_eqb x y) eqn:E.
      * apply bytes_eqb_eq in E. subst. rewrite IH. split; intros (t & Et).
        -- subst. now exists t.
        -- injection Et as ->. now exists t.
      * apply bytes_eqb_neq in E. split; [discriminate|]. intros (t & Et). now injection Et.
Qed.

Lemma rsplit_dotted : forall ls, Forall nodot ls -> rsplit DOT (dotted ls) = [] :: rev ls.
Proof. intros ls H. unfold rsplit. rewrite split_dotted by assumption. now rewrite rev_app_distr. Qed.

Lemma is_in_zone_spec : forall n z a b, is_name n a -> is_name z b -> b <> [] ->
  (is_in_zone n z = true <-> in_zone_spec a b).
Proof.
  intros n z a b (En & Ga & _) (Ez & Gb & _) Hb. unfold is_in_zone, in_zone_spec.
  destruct b as [|l ls]; [easy|]. cbn [name_text] in Ez. subst z.
  rewrite (rsplit_dotted (l :: ls)) by now apply goods_nodot.
  rewrite labels_match_spec. destruct a as [|m ms].
  - cbn [name_text] in En. subst n.
    change (rsplit DOT [46%N]) with ([[]; []] : list (list N)). split.
    + intros (t & E). exfalso. cbn [app] in E. injection E as E.
      assert (Hin : In [] (rev (l :: ls))).
      { cbn [rev]. destruct (rev ls ++ [l]) eqn:Er; [now destruct (rev ls)|].
        cbn [app] in E. injection E as <- _. now left. }
      apply in_rev in Hin. rewrite Forall_forall in Gb. destruct (Gb _ Hin) as (? & _). easy.
    + intros (t & E). now destruct t.
  - cbn [name_text] in En. subst n. rewrite (rsplit_dotted (m :: ms)) by now apply goods_nodot.
    split.
    + intros (t & E). cbn [app] in E. injection E as E. exists (rev t).
      change (rev (m :: ms) = rev (l :: ls) ++ t) in E.
      apply (f_equal (@rev (list N))) in E. rewrite rev_involutive, rev_app_distr, rev_involutive in E.
      exact E.
    + intros (t & E). exists (rev t). rewrite E. now rewrite rev_app_distr.
Qed.

Lemma is_in_zone_root_zone : forall n a, is_name n a ->
  (is_in_zone n [DOT] = true <-> n = [DOT]).
Proof.
  intros n a (En & Ga & _). unfold is_in_zone. change (rsplit DOT [DOT]) with ([[]; []] : list (list N)).
  rewrite labels_match_spec. destruct a as [|m ms].
  - subst n. split; [reflexivity|]. intros _. now exists [].
  - cbn [name_text] in En. subst n. rewrite (rsplit_dotted (m :: ms)) by now apply goods_nodot.
    split.
    + intros (t & E). exfalso. cbn [app] in E. injection E as E.
      assert (Hin : In [] (m :: ms)). { apply in_rev. cbn [rev]. rewrite E. now left. }
      rewrite Forall_forall in Ga. destruct (Ga _ Hin) as (? & _). easy.
    + intros E. exfalso. inversion Ga as [|? ? (Hne & _) _]; subst.
      unfold dotted in E. cbn [flat_map] in E. apply (f_equal (@length N)) in E.
      rewrite !app_length in E. cbn [length] in E. destruct m; [easy|]. cbn [length] in E. lia.
Qed.

(** * Encoding *)
Lemma name_wire_spec : forall n ls, is_name n ls -> ls <> [] -> name_wire n = plain_wire ls.
Proof.
  intros n ls (E & G & L) Hne. destruct ls as [|l ls]; [easy|]. cbn [name_text] in E. subst n.
  unfold name_wire. rewrite split_dotted by now apply goods_nodot.
  rewrite flat_map_app. unfold plain_wire. f_equal.
  clear G Hne. revert L. generalize (l :: ls). clear l ls. intros ls.
  induction ls as [|x ls IH]; intros L; [reflexivity|].
  unfold dotted in L. cbn [flat_map] in L. fold (dotted ls) in L. rewrite !app_length in L. cbn [length] in L.
  cbn [flat_map]. rewrite IH by lia. do 2 f_equal. unfold u8. apply N.mod_small. lia.
Qed.

Lemma dotted_length : forall ls, length (plain_wire ls) = length (dotted ls) + 1.
Proof.
  intros ls. unfold plain_wire. rewrite app_length. cbn [length]. f_equal.
  induction ls as [|l ls IH]; [reflexivity|].
  unfold dotted. cbn [flat_map]. fold (dotted ls).
  rewrite !app_length. cbn [length]. rewrite IH. lia.
Qed.

Lemma plain_wire_bytes : forall ls, Forall (fun l => good_label l /\ length l <= 255) ls -> is_bytes (plain_wire ls).
Proof.
  intros ls H. unfold plain_wire. apply Forall_app. split; [|repeat constructor].
  induction H as [|l ls [Hg Hl] Hls IH]; [constructor|]. cbn [flat_map]. constructor; [unfold is_byte; lia|].
  apply Forall_app. split; [|exact IH]. eapply Forall_impl; [|exact (good_ascii l Hg)].
  intros c Hc. unfold is_byte. cbn in Hc. lia.
Qed.
