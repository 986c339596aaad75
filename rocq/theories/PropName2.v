(** Property C10, exactly: which names panic the decoder. *)
From Verif Require Import Base Buffer BufferSpec BufferProofs Reader Types Name NameSpec NamePathSpec NameProofs NameDecode PropName.

Definition shown (nm : list N) : nat := match nm with [] => 0 | _ => S (length nm) end.
Lemma shown_add : forall nm l, 1 <= length l ->
  shown (match nm with [] => [] | _ => nm ++ [DOT] end ++ l) = shown nm + length l + 1 /\
  length (match nm with [] => [] | _ => nm ++ [DOT] end ++ l) = shown nm + length l.
Proof.
  intros nm l Hl. assert (E : length (match nm with [] => [] | _ => nm ++ [DOT] end ++ l) = shown nm + length l).
  { rewrite app_length. destruct nm as [|c nm]; [reflexivity|]. rewrite app_length. cbn [shown length]. lia. }
  split; [|exact E]. unfold shown at 1. destruct (_ ++ l) as [|c x] eqn:X; [cbn [length] in E; lia|]. rewrite E. lia.
Qed.
Lemma dotted_cons_length : forall l ls, length (dotted (l :: ls)) = length l + 1 + length (dotted ls).
Proof. intros l ls. unfold dotted. cbn [flat_map]. rewrite !app_length. cbn [length]. lia. Qed.

Section Exact.
  Context (p : profile) (pkt : list N) (Hp : is_bytes pkt).
  Notation T := (match p with Debug => low_pointer | Release => wrapped_pointer end).
  Lemma target_cases : forall off, 
    (exists t, T off = Some t /\ jump_target p off = Done t) \/
    (p = Debug /\ (8192 <= off)%N /\ T off = None /\ exists kd, jump_target p off = Panic kd).
  Proof.
    intros off. unfold jump_target, low_pointer, wrapped_pointer. destruct p.
    - destruct (N.ltb_spec off 8192); [left; eexists; split; reflexivity|right; split; [reflexivity|]; split; [assumption|]; split; [reflexivity|eexists; reflexivity]].
    - left. eexists. split; reflexivity.
  Qed.
  Lemma target_value : forall off t, T off = Some t -> match p with Debug => (off < 8192)%N /\ t = N.to_nat off | Release => t = N.to_nat (off mod 8192) end.
  Proof.
    intros off t. destruct p; unfold low_pointer, wrapped_pointer.
    - destruct (N.ltb_spec off 8192); [|discriminate]. intros [= <-]. now split.
    - now intros [= <-].
  Qed.

  Lemma loop_panics_only : forall fuel nm paj nj k kd, k <= length pkt -> shown nm <= 256 ->
    name_loop p fuel nm paj nj (at_ pkt (8 * k)) = Panic kd ->
    exists ls j k', leads_to T pkt k ls j k' /\ shown nm + length (dotted ls) <= 256 /\ nj + j <= 15 /\ fatal_pointer p pkt k'.
  Proof.
    intros fuel. induction fuel as [|fuel IH]; intros nm paj nj k kd Hk Hs E; [discriminate|].
    rewrite name_loop_step in E by (assumption || lia). cbv zeta in E.
    destruct (Nat.ltb_spec (8 * length pkt) (8 * k + 8)) as [H|H]; [discriminate|].
    rewrite rb8_aligned in E by (assumption || lia).
    assert (Hnth : nth_error pkt k = Some (nth k pkt 0%N)) by (apply nth_error_nth'; lia).
    assert (Hb : (nth k pkt 0 < 256)%N) by (apply is_byte_nth; assumption).
    destruct (N.leb_spec 192 (nth k pkt 0%N)) as [Hx1|Hx1].
    - destruct (Nat.ltb_spec 15 nj) as [|Hnj]; [discriminate|].
      destruct (Nat.ltb_spec (8 * length pkt) (8 * k + 16)) as [H2|H2]; [discriminate|].
      replace (8 * k + 8) with (8 * (k + 1)) in E by lia. rewrite rb8_aligned in E by (assumption || lia).
      assert (Hnth2 : nth_error pkt (k + 1) = Some (nth (k + 1) pkt 0%N)) by (apply nth_error_nth'; lia).
      destruct (target_cases ((nth k pkt 0 - 192) * 256 + nth (k + 1) pkt 0)%N) as [(t & ET & EJ)|(Ep & Hlow & ET & kd' & EJ)].
      + rewrite EJ in E. cbn [bind] in E. destruct (Nat.leb_spec t (length pkt)) as [Ht|Ht].
        * apply IH in E as (ls & j & k' & Hw & H3 & H4 & H5); [|assumption|assumption].
          exists ls, (S j), k'. split; [eapply lt_pointer; eauto|]. split; [assumption|]. split; [lia|assumption].
        * exists [], 0, k. split; [constructor|]. split; [cbn; lia|]. split; [lia|]. exists (nth k pkt 0%N), (nth (k + 1) pkt 0%N).
          split; [assumption|]. split; [lia|]. split; [assumption|]. cbv zeta. apply target_value in ET. destruct p; [right|]; [destruct ET as (_ & <-)|rewrite <- ET]; assumption.
      + exists [], 0, k. split; [constructor|]. split; [cbn; lia|]. split; [lia|]. exists (nth k pkt 0%N), (nth (k + 1) pkt 0%N).
        split; [assumption|]. split; [lia|]. split; [assumption|]. cbv zeta. rewrite Ep. left. exact Hlow.
    - destruct (N.leb_spec (nth k pkt 0%N) 63); [|discriminate]. destruct (N.eqb_spec (nth k pkt 0%N) 0); [discriminate|].
      destruct (Nat.ltb_spec (8 * length pkt) (8 * k + 8 + N.to_nat (nth k pkt 0%N) * 8)) as [H2|H2]; [discriminate|].
      set (l := rbs pkt (8 * k + 8) (N.to_nat (nth k pkt 0%N))) in *.
      assert (El : l = firstn (N.to_nat (nth k pkt 0%N)) (skipn (k + 1) pkt)).
      { unfold l. replace (8 * k + 8) with (8 * (k + 1)) by lia. apply rbs_aligned; [assumption|lia]. }
      assert (Hl : length l = N.to_nat (nth k pkt 0%N)) by (rewrite El, firstn_length, skipn_length; lia).
      destruct (shown_add nm l ltac:(lia)) as (Ha & Hb'). rewrite Hb' in E.
      destruct (Nat.ltb_spec 255 (shown nm + length l)) as [|Hlen]; [discriminate|].
      replace (8 * k + 8 + N.to_nat (nth k pkt 0%N) * 8) with (8 * (k + 1 + length l)) in E by lia.
      apply IH in E as (ls & j & k' & Hw & H3 & H4 & H5); [|lia|lia].
      exists (l :: ls), j, k'. rewrite dotted_cons_length. split.
      + apply lt_label; [lia|rewrite Hl, N2Nat.id; assumption|now rewrite Hl|assumption].
      + split; [lia|]. split; assumption.
  Qed.

  Lemma loop_panics_if : forall k ls j k', leads_to T pkt k ls j k' -> fatal_pointer p pkt k' ->
    forall fuel nm paj nj, k <= length pkt -> shown nm + length (dotted ls) <= 256 -> nj + j <= 15 ->
    match name_loop p fuel nm paj nj (at_ pkt (8 * k)) with Done _ => False | _ => True end.
  Proof.
    intros k ls j k' Hw Hf. induction Hw as [k|k l ls j k' Hl Hn Hsub Hw IH|k hi lo t ls j k' Hn Hhi Hn2 HT Ht Hw IH];
      intros fuel nm paj nj Hk Hs Hj; (destruct fuel as [|fuel]; [exact Logic.I|]); rewrite name_loop_step by (assumption || lia); cbv zeta.
    - destruct Hf as (hi & lo & H1 & Hhi & H2 & Hoff). cbv zeta in Hoff.
      assert (Hk1 : k + 1 < length pkt) by (apply nth_error_Some; congruence).
      replace (8 * length pkt <? 8 * k + 8) with false by (symmetry; apply Nat.ltb_ge; lia).
      rewrite rb8_aligned by (assumption || lia). rewrite (nth_error_nth pkt k 0%N H1).
      replace (192 <=? hi)%N with true by (symmetry; apply N.leb_le; lia). replace (15 <? nj) with false by (symmetry; apply Nat.ltb_ge; lia).
      replace (8 * length pkt <? 8 * k + 16) with false by (symmetry; apply Nat.ltb_ge; lia).
      replace (8 * k + 8) with (8 * (k + 1)) by lia. rewrite rb8_aligned by (assumption || lia). rewrite (nth_error_nth pkt (k + 1) 0%N H2).
      destruct (target_cases ((hi - 192) * 256 + lo)%N) as [(t & ET & EJ)|(_ & _ & _ & kd & EJ)]; rewrite EJ; cbn [bind]; [|exact Logic.I].
      apply target_value in ET. replace (t <=? length pkt) with false; [exact Logic.I|]. symmetry. apply Nat.leb_gt.
      destruct p; [destruct ET as (Hlow & ->); destruct Hoff; [lia|assumption]|subst t; assumption].
    - assert (Hk1 : k < length pkt) by (apply nth_error_Some; congruence).
      assert (Hlen : k + 1 + length l <= length pkt) by (rewrite <- Hsub in Hl at 1; pose proof (f_equal (@length N) Hsub) as Z; rewrite firstn_length, skipn_length in Z; lia).
      replace (8 * length pkt <? 8 * k + 8) with false by (symmetry; apply Nat.ltb_ge; lia).
      rewrite rb8_aligned by (assumption || lia). rewrite (nth_error_nth pkt k 0%N Hn).
      replace (192 <=? N.of_nat (length l))%N with false by (symmetry; apply N.leb_gt; lia).
      replace (N.of_nat (length l) <=? 63)%N with true by (symmetry; apply N.leb_le; lia).
      replace (N.of_nat (length l) =? 0)%N with false by (symmetry; apply N.eqb_neq; lia). rewrite Nat2N.id.
      replace (8 * length pkt <? 8 * k + 8 + length l * 8) with false by (symmetry; apply Nat.ltb_ge; lia).
      replace (rbs pkt (8 * k + 8) (length l)) with l by (replace (8 * k + 8) with (8 * (k + 1)) by lia; rewrite rbs_aligned by (assumption || lia); now symmetry).
      rewrite dotted_cons_length in Hs. destruct (shown_add nm l ltac:(lia)) as (Ha & Hb'). rewrite Hb'.
      replace (255 <? shown nm + length l) with false by (symmetry; apply Nat.ltb_ge; lia).
      replace (8 * k + 8 + length l * 8) with (8 * (k + 1 + length l)) by lia. apply IH; [assumption|lia|lia|lia].
    - assert (Hk1 : k + 1 < length pkt) by (apply nth_error_Some; congruence).
      replace (8 * length pkt <? 8 * k + 8) with false by (symmetry; apply Nat.ltb_ge; lia).
      rewrite rb8_aligned by (assumption || lia). rewrite (nth_error_nth pkt k 0%N Hn).
      replace (192 <=? hi)%N with true by (symmetry; apply N.leb_le; lia). replace (15 <? nj) with false by (symmetry; apply Nat.ltb_ge; lia).
      replace (8 * length pkt <? 8 * k + 16) with false by (symmetry; apply Nat.ltb_ge; lia).
      replace (8 * k + 8) with (8 * (k + 1)) by lia. rewrite rb8_aligned by (assumption || lia). rewrite (nth_error_nth pkt (k + 1) 0%N Hn2).
      destruct (target_cases ((hi - 192) * 256 + lo)%N) as [(t' & ET & EJ)|(_ & _ & ET & kd & EJ)]; [|rewrite EJ; exact Logic.I].
      assert (t' = t) by congruence. subst t'. rewrite EJ. cbn [bind].
      replace (t <=? length pkt) with true by (symmetry; now apply Nat.leb_le). apply IH; [assumption|assumption|assumption|lia].
  Qed.
End Exact.

(** Reading a name panics exactly if it runs into a fatal pointer; otherwise it returns. *)
Theorem C10_exactly_which_names_panic : forall p pkt k, is_bytes pkt -> k <= length pkt ->
  ((exists kd, name_from_bytes p (at_ pkt (8 * k)) = Panic kd) <-> runs_into_fatal_pointer p pkt k) /\
  ((exists r b', name_from_bytes p (at_ pkt (8 * k)) = Done (r, b')) <-> ~ runs_into_fatal_pointer p pkt k).
Proof.
  intros p pkt k Hp Hk.
  pose proof (name_from_bytes_general p pkt (8 * k) Hp ltac:(lia)) as G.
  assert (Hiff : (exists kd, name_from_bytes p (at_ pkt (8 * k)) = Panic kd) <-> runs_into_fatal_pointer p pkt k).
  { pose proof (name_loop_general p name_fuel [] 0 0 pkt (8 * k) Hp ltac:(lia) ltac:(lia) ltac:(cbn; lia)
      ltac:(cbn [length]; unfold name_fuel; lia)) as GL. split.
    - intros (kd & E). unfold name_from_bytes in E.
      destruct (name_loop p name_fuel [] 0 0 (at_ pkt (8 * k))) as [[res b1]|kd'|] eqn:EL; cbn [bind] in E; [exfalso| |discriminate].
      + destruct GL as (r1 & -> & Hr1 & GL). destruct res as [[nm paj]|e]; [|discriminate].
        destruct GL as (_ & Hpos). cbn [Nat.eqb] in Hpos.
        assert (Hset : exists b, (if 0 <? paj then set_read_pos (at_ pkt r1) paj else Done (at_ pkt r1)) = Done b).
        { destruct Hpos as [[-> _]|(d & Hd & -> & Hle)]; [eexists; reflexivity|].
          replace (0 <? 8 * k + 8 * d) with true by (symmetry; apply Nat.ltb_lt; lia).
          rewrite set_read_pos_at. replace (8 * k + 8 * d <=? 8 * length pkt) with true by (symmetry; now apply Nat.leb_le). eexists; reflexivity. }
        destruct Hset as (b & Eb). rewrite Eb in E. cbn [bind] in E. destruct (utf8_valid nm); [destruct (validate_name nm)|]; discriminate.
      + apply loop_panics_only in EL as (ls & j & k' & H1 & H2 & H3 & H4); [|assumption|assumption|cbn; lia].
        exists ls, j, k'. split; [exact H1|]. split; [exact H2|]. split; [exact H3|exact H4].
    - intros (ls & j & k' & H1 & H2 & H3 & H4).
      pose proof (loop_panics_if p pkt Hp k ls j k' H1 H4 name_fuel [] 0 0 Hk H2 H3) as X. unfold name_from_bytes.
      destruct (name_loop p name_fuel [] 0 0 (at_ pkt (8 * k))) as [res|kd|]; [contradiction|eexists; reflexivity|contradiction]. }
  split; [exact Hiff|]. rewrite <- Hiff. destruct (name_from_bytes p (at_ pkt (8 * k))) as [[r b']|kd|].
  - split; [intros _ (kd & E); discriminate|intros _; now exists r, b'].
  - split; [intros (r & b' & E); discriminate|]. intros N. exfalso. apply N. now exists kd.
  - contradiction.
Qed.
Print Assumptions C10_exactly_which_names_panic.

(** A name that meets a fatal pointer only after a label and another pointer; one with the
    same bytes that does not; and one that is fatal in debug builds only. *)
Theorem C10_exact_nonvacuous :
  (forall p, runs_into_fatal_pointer p [1; 97; 192; 4; 192; 200]%N 0) /\
  (forall p, ~ runs_into_fatal_pointer p [1; 97; 192; 7; 192; 200; 0; 0]%N 0) /\
  runs_into_fatal_pointer Debug [224; 3; 0; 0]%N 0 /\ ~ runs_into_fatal_pointer Release [224; 3; 0; 0]%N 0.
Proof.
  split; [|split; [|split]].
  - intros p. exists [[97%N]], 1, 4. split.
    + apply lt_label; [cbn; lia|reflexivity|reflexivity|]. eapply (lt_pointer _ _ _ 192%N 4%N 4); [reflexivity|lia|reflexivity|destruct p; reflexivity|cbn; lia|constructor].
    + split; [cbn; lia|]. split; [lia|]. exists 192%N, 200%N. split; [reflexivity|]. split; [lia|]. split; [reflexivity|]. destruct p; cbn; [right|]; lia.
  - intros p. apply C10_exactly_which_names_panic; [repeat constructor|cbn; lia|]. destruct p; vm_compute; do 2 eexists; reflexivity.
  - exists [], 0, 0. split; [constructor|]. split; [cbn; lia|]. split; [lia|]. exists 224%N, 3%N. split; [reflexivity|]. split; [lia|]. split; [reflexivity|]. left. lia.
  - apply C10_exactly_which_names_panic; [repeat constructor|cbn; lia|]. vm_compute. do 2 eexists. reflexivity.
Qed.
Print Assumptions C10_exact_nonvacuous.
