(** Properties C04-C13: domain names. [at_ pkt r] is the buffer built from the
    received bytes [pkt] with its read position at bit [r]. *)
From Verif Require Import Base Buffer BufferSpec BufferProofs Reader Types Name NameSpec NameProofs NameDecode.

Definition ex_www : list N := s2b "www.example.com.".
Definition ex_labels : list (list N) := [s2b "www"; s2b "example"; s2b "com"].

Lemma ex_www_is_name : is_name ex_www ex_labels.
Proof.
  split; [reflexivity|]. split; [|vm_compute; lia].
  repeat (apply Forall_cons || apply Forall_nil); (split; [discriminate|]; split; [|split; discriminate]);
    vm_compute; repeat (apply Forall_cons || apply Forall_nil); left; intuition discriminate.
Qed.

(** ** C04 *)
Theorem C04_accepted_names : forall s : list N,
  (name_from_string s = Ok s <-> accepted s) /\
  (forall n, name_from_string s = Ok n -> n = s).
Proof.
  intros s. unfold name_from_string. split.
  - rewrite <- validate_name_ok. destruct (validate_name s) as [[]|e]; split; congruence.
  - intros n. destruct (validate_name s); congruence.
Qed.
Print Assumptions C04_accepted_names.

Example C04_nonvacuous : accepted ex_www /\ ~ accepted (s2b "a..b.") /\ ~ accepted (s2b "-a.").
Proof.
  split; [exists ex_labels; apply ex_www_is_name|].
  split; intros H; apply validate_name_ok in H; vm_compute in H; discriminate.
Qed.

(** ** C05 *)
Theorem C05_name_wire_round_trip : forall p n ls pre post,
  is_name n ls -> ls <> [] -> Forall (fun l => length l <= 63) ls ->
  is_bytes pre -> is_bytes post ->
  exists w,
    name_to_bytes p n = Done w /\ w = plain_wire ls /\
    name_from_bytes p (at_ (pre ++ w ++ post) (8 * length pre))
    = Done (Ok n, at_ (pre ++ w ++ post) (8 * (length pre + length w))).
Proof.
  intros p n ls pre post Hn Hne Hl Hpre Hpost. exists (name_wire n).
  split; [|split; [now apply name_wire_spec|now apply (name_round_trip p n ls)]].
  unfold name_to_bytes, debug_assert, assert_.
  assert (Ha : is_ok (validate_name n) = true) by (apply validate_name_dec; now exists ls).
  rewrite Ha. now destruct p.
Qed.
Print Assumptions C05_name_wire_round_trip.

Example C05_nonvacuous : is_name ex_www ex_labels /\ ex_labels <> [] /\
  Forall (fun l => length l <= 63) ex_labels.
Proof. split; [apply ex_www_is_name|]. split; [discriminate|]. repeat constructor; cbn; lia. Qed.

(** ** C06 (refuted): exactly the names of C05 survive. *)
Definition survives (p : profile) (n : list N) : Prop :=
  forall pre post, is_bytes pre -> is_bytes post ->
  exists w, name_to_bytes p n = Done w /\
    name_from_bytes p (at_ (pre ++ w ++ post) (8 * length pre))
    = Done (Ok n, at_ (pre ++ w ++ post) (8 * (length pre + length w))).

Lemma long_label_lost : forall T ls pre post k ms j e,
  is_name (dotted ls) ls -> ls <> [] ->
  k = length pre ->
  wire_name T (pre ++ plain_wire ls ++ post) k ms j e ->
  e = k + length (plain_wire ls) ->
  Forall (fun l => length l <= 63) ls.
Proof.
  intros T ls pre post k ms j e (_ & Hg & Hlen) _. revert pre k ms j e Hg Hlen.
  induction ls as [|l ls IH]; intros pre k ms j e Hg Hlen Hk Hw He; [constructor|].
  inversion Hg as [|? ? Hgl Hgls]; subst k.
  unfold dotted in Hlen. cbn [flat_map] in Hlen. fold (dotted ls) in Hlen. rewrite !app_length in Hlen. cbn [length] in Hlen.
  assert (Epkt : pre ++ plain_wire (l :: ls) ++ post
                 = (pre ++ N.of_nat (length l) :: l) ++ plain_wire ls ++ post).
  { unfold plain_wire. cbn [flat_map]. now rewrite <- !app_assoc. }
  assert (Elen : length (plain_wire (l :: ls)) = 1 + length l + length (plain_wire ls)).
  { unfold plain_wire. cbn [flat_map]. rewrite <- app_assoc. cbn [app length]. rewrite !app_length. lia. }
  assert (Hat : nth_error (pre ++ plain_wire (l :: ls) ++ post) (length pre) = Some (N.of_nat (length l))).
  { rewrite Epkt, <- app_assoc. apply nth_error_mid. }
  assert (Hll : 1 <= length l) by (destruct Hgl as (Hne & _); destruct l; [easy|cbn; lia]).
  inversion Hw as [k E|k l' ls' j' e' Hl' E E1 Hw'|k hi lo t ls' j' e' E1 Hhi E2 HT Hw']; subst.
  - rewrite Hat in E. injection E as E. lia.
  - rewrite Hat in E. injection E as E.
    assert (Eln : length l' = length l) by lia.
    constructor; [lia|].
    eapply (IH (pre ++ N.of_nat (length l) :: l)); try assumption.
    + lia.
    + reflexivity.
    + rewrite <- Epkt. rewrite app_length. cbn [length].
      replace (length pre + S (length l)) with (length pre + 1 + length l') by lia. exact Hw'.
    + rewrite app_length. cbn [length]. lia.
  - rewrite Hat in E1. injection E1 as E1. lia.
Qed.

Theorem C06_refuted_exactly_which_names_survive : forall p n ls, is_name n ls ->
  (survives p n <-> ls <> [] /\ Forall (fun l => length l <= 63) ls).
Proof.
  intros p n ls Hn. split.
  - intros H. destruct (H [] [] ltac:(constructor) ltac:(constructor)) as (w & Ew & Ed).
    cbn [app length] in Ed. rewrite app_nil_r in Ed.
    assert (Hw : w = name_wire n).
    { unfold name_to_bytes, debug_assert, assert_ in Ew.
      destruct p; [destruct (is_ok _)|]; congruence. }
    destruct ls as [|l ls].
    + exfalso. destruct Hn as (-> & _). cbn [name_text] in *. subst w.
      destruct p; vm_compute in Ed; discriminate.
    + split; [discriminate|].
      pose proof (name_wire_spec n _ Hn ltac:(discriminate)) as E.
      rewrite E in Hw. subst w.
      assert (Hb : is_bytes (plain_wire (l :: ls))).
      { apply plain_wire_bytes. destruct Hn as (En & Hg & Hlen). rewrite Forall_forall in *.
        intros x Hx. split; [now apply Hg|]. subst n. cbn [name_text] in Hlen.
        apply in_split in Hx as (a & b & Ex). rewrite Ex, dotted_app, app_length in Hlen.
        change (dotted (x :: b)) with ((x ++ [46%N]) ++ dotted b) in Hlen. rewrite !app_length in Hlen. lia. }
      change 0 with (8 * 0) in Ed at 1.
      apply name_from_bytes_sound in Ed as (ms & j & e & Hw & _ & _ & _ & Epos); [|assumption|lia].
      apply (long_label_lost (pointer_of p) (l :: ls) [] [] 0 ms j e); try easy.
      * destruct Hn as (En & Hg & Hlen). subst n. now split.
      * cbn [app]. now rewrite app_nil_r.
      * apply (f_equal r_pos) in Epos. unfold at_ in Epos. cbn [r_pos] in Epos. cbn [Nat.add] in *. lia.
  - intros [Hne Hl] pre post Hpre Hpost.
    destruct (C05_name_wire_round_trip p n ls pre post Hn Hne Hl Hpre Hpost) as (w & E1 & _ & E2).
    now exists w.
Qed.
Print Assumptions C06_refuted_exactly_which_names_survive.

(** Witnesses: the root, and a 64 byte label. *)
Theorem C06_root_lost : accepted [46%N] /\ forall p, ~ survives p [46%N].
Proof.
  assert (H : is_name [46%N] []) by (split; [reflexivity|split; [constructor|cbn; lia]]).
  split; [now exists []|]. intros p S. apply (C06_refuted_exactly_which_names_survive p _ _ H) in S. easy.
Qed.

Theorem C06_long_label_lost :
  let n := repeat 97%N 64 ++ [46%N] in accepted n /\ forall p, ~ survives p n.
Proof.
  cbv zeta. assert (H : is_name (repeat 97%N 64 ++ [46%N]) [repeat 97%N 64]).
  { split; [reflexivity|]. split; [|cbn; lia]. constructor; [|constructor].
    split; [discriminate|]. split; [|split; discriminate].
    apply Forall_forall. intros c Hc. apply repeat_spec in Hc. subst. left. unfold letter_or_digit. lia. }
  split; [now eexists; exact H|]. intros p S.
  apply (C06_refuted_exactly_which_names_survive p _ _ H) in S as [_ S]. inversion S; subst.
  cbn [length] in *. lia.
Qed.

(** ** C07 *)
Theorem C07_decoded_names_are_accepted : forall p pkt r n b',
  is_bytes pkt -> r <= 8 * length pkt ->
  name_from_bytes p (at_ pkt r) = Done (Ok n, b') ->
  name_from_string n = Ok n /\
  (exists ls, is_name n ls /\ Forall (fun l => length l <= 63) ls) /\
  (exists d, 1 <= d /\ b' = at_ pkt (r + 8 * d) /\ r + 8 * d <= 8 * length pkt).
Proof.
  intros p pkt r n b' Hp Hr E. pose proof (name_from_bytes_general p pkt r Hp Hr) as G.
  rewrite E in G. destruct G as (r' & -> & Hr' & ((ls & Hls & Hshort) & d & Hd & ->)).
  split; [|split].
  - apply C04_accepted_names. now exists ls.
  - exists ls. now split.
  - exists d. now split.
Qed.
Print Assumptions C07_decoded_names_are_accepted.

Example C07_nonvacuous :
  name_from_bytes Release (at_ [7; 3; 99; 111; 109; 0; 1; 97; 192; 1]%N (8 * 6))
  = Done (Ok (s2b "a.com."), at_ [7; 3; 99; 111; 109; 0; 1; 97; 192; 1]%N (8 * 10)).
Proof. vm_compute. reflexivity. Qed.

(** ** C08 *)
(** Decoding never runs forever; 274 iterations (16 pointers, 255 bytes of labels,
    and the last step) are enough for any packet and any more make no difference. *)
Theorem C08_name_decoding_terminates : forall p pkt r,
  is_bytes pkt -> r <= 8 * length pkt ->
  name_from_bytes p (at_ pkt r) <> Diverge /\
  forall iterations, 272 <= iterations ->
    name_loop p iterations [] 0 0 (at_ pkt r) = name_loop p name_fuel [] 0 0 (at_ pkt r).
Proof.
  intros p pkt r Hp Hr. split.
  - pose proof (name_from_bytes_general p pkt r Hp Hr) as G.
    now destruct (name_from_bytes p (at_ pkt r)).
  - intros f Hf. pose proof (name_loop_general p 272 [] 0 0 pkt r Hp Hr ltac:(lia) ltac:(cbn; lia)
      ltac:(cbn [length]; lia)) as G.
    assert (ND : name_loop p 272 [] 0 0 (at_ pkt r) <> Diverge)
      by (now destruct (name_loop p 272 [] 0 0 (at_ pkt r))).
    rewrite (name_loop_fuel p 272 [] 0 0 _ ND f Hf).
    symmetry. apply (name_loop_fuel p 272 [] 0 0 _ ND). unfold name_fuel. lia.
Qed.
Print Assumptions C08_name_decoding_terminates.

Example C08_pointer_cycle : forall p,
  name_from_bytes p (at_ [192; 2; 192; 0]%N 0) = Done (Err NE_MaxRedir, at_ [192; 2; 192; 0]%N 8).
Proof. intros p. destruct p; vm_compute; reflexivity. Qed.

(** ** C09 *)
(** Debug builds, and in every build for pointers below 8192: exact. *)
Theorem C09_decoding_is_rfc_decompression_partial : forall p pkt k, is_bytes pkt -> k <= length pkt ->
  (forall n b', p = Debug -> name_from_bytes p (at_ pkt (8 * k)) = Done (Ok n, b') ->
     exists ls j e, wire_name rfc_pointer pkt k ls j e /\ j <= 16 /\ n = name_text ls /\ accepted n /\
       b' = at_ pkt (8 * e)) /\
  (forall ls j e, wire_name low_pointer pkt k ls j e -> j <= 16 -> accepted (name_text ls) ->
     name_from_bytes p (at_ pkt (8 * k)) = Done (Ok (name_text ls), at_ pkt (8 * e))).
Proof.
  intros p pkt k Hp Hk. split.
  - intros n b' -> E. apply name_from_bytes_sound in E as (ls & j & e & Hw & H); try assumption.
    exists ls, j, e. split; [|exact H]. clear -Hw. cbn [pointer_of] in Hw.
    induction Hw as [k H|k l ls j e Hl H H1 Hw IH|k hi lo t ls j e H1 Hh H2 HT Hw IH].
    + now constructor.
    + now apply wn_label.
    + eapply wn_pointer; try eassumption. unfold low_pointer in HT. unfold rfc_pointer.
      destruct (_ <? _)%N; [assumption|discriminate].
  - intros ls j e Hw Hj Ha. eapply name_from_bytes_complete; try eassumption.
    clear -Hw. induction Hw as [k H|k l ls j e Hl H H1 Hw IH|k hi lo t ls j e H1 Hh H2 HT Hw IH].
    + now constructor.
    + now apply wn_label.
    + eapply wn_pointer; try eassumption. destruct p; [assumption|].
      cbn [pointer_of]. unfold low_pointer in HT. unfold wrapped_pointer.
      destruct (N.ltb_spec ((hi - 192) * 256 + lo) 8192); [|discriminate].
      rewrite N.mod_small by assumption. assumption.
Qed.
Print Assumptions C09_decoding_is_rfc_decompression_partial.

(** Release builds: exact for pointers taken modulo 8192. *)
Theorem C09_release_reads_pointers_modulo_8192 : forall pkt k n b', is_bytes pkt -> k <= length pkt ->
  (name_from_bytes Release (at_ pkt (8 * k)) = Done (Ok n, b') <->
   exists ls j e, wire_name wrapped_pointer pkt k ls j e /\ j <= 16 /\ n = name_text ls /\ accepted n /\
     b' = at_ pkt (8 * e)).
Proof.
  intros pkt k n b' Hp Hk. split.
  - intros E. now apply name_from_bytes_sound in E.
  - intros (ls & j & e & Hw & Hj & -> & Ha & ->). eapply name_from_bytes_complete; eassumption.
Qed.
Print Assumptions C09_release_reads_pointers_modulo_8192.

(** Refutations. In release builds a pointer beyond 8191 is accepted although it
    points outside the packet; a wire label holding a dot is decoded as two labels. *)
Theorem C09_refuted_release : let pkt := [1; 97; 0; 224; 0]%N in
  name_from_bytes Release (at_ pkt (8 * 3)) = Done (Ok (s2b "a."), at_ pkt (8 * 5)) /\
  ~ exists ls j e, wire_name rfc_pointer pkt 3 ls j e.
Proof.
  cbv zeta. split; [vm_compute; reflexivity|]. intros (ls & j & e & Hw).
  inversion Hw as [k E|k l' ls' j' e' Hl' E E1 Hw'|k hi lo t ls' j' e' E1 Hhi E2 HT Hw']; subst.
  - discriminate.
  - cbn in E. injection E as E. lia.
  - cbn in E1, E2. injection E1 as <-. injection E2 as <-.
    unfold rfc_pointer in HT. injection HT as <-.
    apply wire_name_bound in Hw' as [Hb _]. cbn [length] in Hb. lia.
Qed.

Theorem C09_refuted_dot_in_label : forall p, let pkt := [3; 97; 46; 98; 0]%N in
  name_from_bytes p (at_ pkt 0) = Done (Ok (s2b "a.b."), at_ pkt (8 * 5)) /\
  wire_name rfc_pointer pkt 0 [[97; 46; 98]%N] 0 5 /\ is_name (s2b "a.b.") [[97]; [98]]%N.
Proof.
  intros p. cbv zeta. split; [destruct p; vm_compute; reflexivity|]. split.
  - apply wn_label; [cbn; lia|reflexivity|reflexivity|]. apply (wn_root _ _ 4). reflexivity.
  - split; [reflexivity|]. split; [|cbn; lia].
    repeat constructor; try discriminate; left; unfold letter_or_digit; lia.
Qed.

(** ** C10 *)
(** Every two byte sequence that could be taken for a pointer is in range. *)
Definition pointers_in_range (pkt : list N) : Prop :=
  forall i hi lo, nth_error pkt i = Some hi -> (192 <= hi)%N -> nth_error pkt (i + 1) = Some lo ->
  ((hi - 192) * 256 + lo < 8192)%N /\ N.to_nat ((hi - 192) * 256 + lo) <= length pkt.

Lemma name_loop_no_panic : forall p fuel nm paj nj pkt k, is_bytes pkt -> k <= length pkt ->
  pointers_in_range pkt -> forall kd, name_loop p fuel nm paj nj (at_ pkt (8 * k)) <> Panic kd.
Proof.
  intros p fuel. induction fuel as [|fuel IH]; intros nm paj nj pkt k Hp Hk Hin kd; [discriminate|].
  rewrite name_loop_step by (assumption || lia). cbv zeta.
  destruct (Nat.ltb_spec (8 * length pkt) (8 * k + 8)) as [H|H]; [discriminate|].
  rewrite rb8_aligned by (assumption || lia).
  assert (Hnth : nth_error pkt k = Some (nth k pkt 0%N)) by (apply nth_error_nth'; lia).
  set (x := nth k pkt 0%N) in *. clearbody x.
  destruct (N.leb_spec 192 x) as [Hx1|Hx1].
  - destruct (15 <? nj); [discriminate|].
    destruct (Nat.ltb_spec (8 * length pkt) (8 * k + 16)) as [H2|H2]; [discriminate|].
    replace (8 * k + 8) with (8 * (k + 1)) by lia. rewrite rb8_aligned by (assumption || lia).
    assert (Hnth2 : nth_error pkt (k + 1) = Some (nth (k + 1) pkt 0%N)) by (apply nth_error_nth'; lia).
    set (y := nth (k + 1) pkt 0%N) in *. clearbody y.
    destruct (Hin k x y Hnth Hx1 Hnth2) as [Hlow Hle].
    assert (Et : jump_target p ((x - 192) * 256 + y)%N = Done (N.to_nat ((x - 192) * 256 + y))).
    { unfold jump_target. destruct p; [|now rewrite N.mod_small].
      now replace ((x - 192) * 256 + y <? 8192)%N with true by (symmetry; apply N.ltb_lt; lia). }
    rewrite Et. cbn [bind].
    replace (_ <=? length pkt) with true by (symmetry; apply Nat.leb_le; lia).
    apply IH; assumption.
  - destruct (x <=? 63)%N; [|discriminate]. destruct (x =? 0)%N; [discriminate|].
    destruct (Nat.ltb_spec (8 * length pkt) (8 * k + 8 + N.to_nat x * 8)) as [H2|H2]; [discriminate|].
    destruct (255 <? _); [discriminate|].
    replace (8 * k + 8 + N.to_nat x * 8) with (8 * (k + 1 + N.to_nat x)) by lia.
    apply IH; [assumption|lia|assumption].
Qed.

Theorem C10_no_panic_if_pointers_in_range_partial : forall p pkt k, is_bytes pkt -> k <= length pkt ->
  pointers_in_range pkt -> exists r b', name_from_bytes p (at_ pkt (8 * k)) = Done (r, b').
Proof.
  intros p pkt k Hp Hk Hin.
  pose proof (name_from_bytes_general p pkt (8 * k) Hp ltac:(lia)) as G.
  destruct (name_from_bytes p (at_ pkt (8 * k))) as [[r b']|kd|] eqn:E; [now exists r, b'| |contradiction].
  exfalso. unfold name_from_bytes in E.
  pose proof (name_loop_general p name_fuel [] 0 0 pkt (8 * k) Hp ltac:(lia) ltac:(lia) ltac:(cbn; lia)
    ltac:(cbn [length]; unfold name_fuel; lia)) as GL.
  pose proof (name_loop_no_panic p name_fuel [] 0 0 pkt k Hp Hk Hin) as NP.
  destruct (name_loop _ _ _ _ _ _) as [[res b1]|kd'|]; cbn [bind] in E.
  - destruct GL as (r1 & -> & Hr1 & GL). destruct res as [[nm paj]|e]; [|discriminate].
    destruct GL as (_ & Hpos). cbn [Nat.eqb] in Hpos.
    assert (Hset : exists b, (if 0 <? paj then set_read_pos (at_ pkt r1) paj else Done (at_ pkt r1)) = Done b).
    { destruct Hpos as [[-> _]|(d & Hd & -> & Hle)]; [eexists; reflexivity|].
      replace (0 <? 8 * k + 8 * d) with true by (symmetry; apply Nat.ltb_lt; lia).
      rewrite set_read_pos_at.
      replace (8 * k + 8 * d <=? 8 * length pkt) with true by (symmetry; now apply Nat.leb_le).
      eexists; reflexivity. }
    destruct Hset as (b & Eb). rewrite Eb in E. cbn [bind] in E.
    destruct (utf8_valid nm); [destruct (validate_name nm)|]; discriminate.
  - now apply (NP kd').
  - contradiction.
Qed.
Print Assumptions C10_no_panic_if_pointers_in_range_partial.

Example C10_nonvacuous : pointers_in_range [1; 97; 0; 192; 0]%N.
Proof.
  intros i hi lo H1 H2 H3.
  destruct i as [|[|[|[|[|i]]]]]; cbn in H1, H3; try (injection H1 as <-; lia).
  - injection H1 as <-. injection H3 as <-. cbn [length]. lia.
  - destruct i; discriminate.
Qed.

(** Refuted for every packet: a name that starts with a pointer past the end of the
    packet (offset below 8192) panics in both build profiles. *)
Theorem C10_refuted_pointer_past_end_panics : forall p pkt k hi lo,
  is_bytes pkt -> nth_error pkt k = Some hi -> (192 <= hi)%N -> nth_error pkt (k + 1) = Some lo ->
  ((hi - 192) * 256 + lo < 8192)%N -> length pkt < N.to_nat ((hi - 192) * 256 + lo) ->
  name_from_bytes p (at_ pkt (8 * k)) = Panic PExplicit.
Proof.
  intros p pkt k hi lo Hp H1 Hhi H2 Hlow Hout.
  assert (Hk : k + 1 < length pkt) by (apply nth_error_Some; congruence).
  unfold name_from_bytes. change name_fuel with (S 299).
  rewrite name_loop_step by (assumption || lia). cbv zeta.
  replace (8 * length pkt <? 8 * k + 8) with false by (symmetry; apply Nat.ltb_ge; lia).
  rewrite rb8_aligned by (assumption || lia). rewrite (nth_error_nth pkt k 0%N H1).
  replace (192 <=? hi)%N with true by (symmetry; apply N.leb_le; lia). change (15 <? 0) with false. cbv iota.
  replace (8 * length pkt <? 8 * k + 16) with false by (symmetry; apply Nat.ltb_ge; lia).
  replace (8 * k + 8) with (8 * (k + 1)) by lia.
  rewrite rb8_aligned by (assumption || lia). rewrite (nth_error_nth pkt (k + 1) 0%N H2).
  assert (Et : jump_target p ((hi - 192) * 256 + lo)%N = Done (N.to_nat ((hi - 192) * 256 + lo))).
  { unfold jump_target. destruct p; [|now rewrite N.mod_small].
    now replace ((hi - 192) * 256 + lo <? 8192)%N with true by (symmetry; apply N.ltb_lt; lia). }
  rewrite Et. cbn [bind].
  now replace (_ <=? length pkt) with false by (symmetry; apply Nat.leb_gt; lia).
Qed.
Print Assumptions C10_refuted_pointer_past_end_panics.

Theorem C10_refuted_witness : forall p, name_from_bytes p (at_ [192; 200]%N 0) = Panic PExplicit.
Proof. intros p. destruct p; vm_compute; reflexivity. Qed.

(** ** C11 *)
Theorem C11_zone_membership : forall n z a b, is_name n a -> is_name z b -> b <> [] ->
  (is_in_zone n z = true <-> in_zone_spec a b).
Proof. exact is_in_zone_spec. Qed.
Print Assumptions C11_zone_membership.

Theorem C11_membership_is_a_partial_order : forall n m z, accepted n -> accepted m -> accepted z ->
  is_in_zone n n = true /\
  (is_in_zone n m = true -> is_in_zone m z = true -> is_in_zone n z = true) /\
  (is_in_zone n m = true -> is_in_zone m n = true -> n = m).
Proof.
  intros n m z Hn Hm Hz. unfold is_in_zone. rewrite !labels_match_spec. split; [|split].
  - exists []. now rewrite app_nil_r.
  - intros (t & ->) (t' & ->). exists (t' ++ t). now rewrite app_assoc.
  - intros (t & E) (t' & E').
    assert (Hr : rsplit DOT n = rsplit DOT m).
    { rewrite E in E'. rewrite <- app_assoc in E'. rewrite <- (app_nil_r (rsplit DOT m)) in E' at 1.
      apply app_inv_head in E'. symmetry in E'. apply app_eq_nil in E' as [-> _].
      now rewrite app_nil_r in E. }
    unfold rsplit in Hr. apply (f_equal (@rev (list N))) in Hr. rewrite !rev_involutive in Hr.
    pose proof (dotted_split n) as D1. pose proof (dotted_split m) as D2. rewrite Hr, D2 in D1.
    now apply app_inj_tail in D1 as [-> _].
Qed.
Print Assumptions C11_membership_is_a_partial_order.

Example C11_nonvacuous :
  is_in_zone ex_www (s2b "example.com.") = true /\ is_in_zone (s2b "myexample.com.") (s2b "example.com.") = false.
Proof. now split. Qed.

(** The helper used by the zone loader: in the zone and in none of the sub zones. *)
Theorem C11_only_in_auth_zone : forall n auth subs,
  is_only_in_auth_zone n auth subs = true <->
  is_in_zone n auth = true /\ (forall s, In s subs -> is_in_zone n s = false).
Proof.
  intros n auth subs. unfold is_only_in_auth_zone. destruct (is_in_zone n auth); cbn [negb].
  - rewrite negb_true_iff. split.
    + intros H. split; [reflexivity|]. intros s Hs. destruct (is_in_zone n s) eqn:E; [|reflexivity].
      exfalso. assert (existsb (fun s => is_in_zone n s) subs = true); [|congruence].
      apply existsb_exists. now exists s.
    + intros [_ H]. destruct (existsb _ subs) eqn:E; [|reflexivity].
      apply existsb_exists in E as (s & Hs & E). rewrite H in E by assumption. discriminate.
  - split; [discriminate|]. now intros [H _].
Qed.
Print Assumptions C11_only_in_auth_zone.

(** ** C12 (refuted): the root zone contains only the root. *)
Theorem C12_refuted_root_zone_contains_only_root : forall n, accepted n ->
  (is_in_zone n [46%N] = true <-> n = [46%N]).
Proof. intros n (ls & H). now apply (is_in_zone_root_zone n ls). Qed.
Print Assumptions C12_refuted_root_zone_contains_only_root.

Theorem C12_witness : accepted ex_www /\ is_in_zone ex_www [46%N] = false.
Proof. split; [exists ex_labels; apply ex_www_is_name|reflexivity]. Qed.

(** ** C13 (refuted): two spellings of a name denote different nodes. *)
Theorem C13_refuted_case_sensitive : forall a b, accepted a -> accepted b ->
  (is_in_zone_root a b = true <-> a = b) /\
  (a <> b -> length a = length b -> is_in_zone a b = false).
Proof.
  intros a b Ha Hb. split; [apply bytes_eqb_eq|]. intros Hne Hlen.
  destruct (is_in_zone a b) eqn:E; [|reflexivity]. exfalso. apply Hne.
  unfold is_in_zone in E. apply labels_match_spec in E as (t & E).
  unfold rsplit in E. apply (f_equal (@rev (list N))) in E.
  rewrite rev_involutive, rev_app_distr, rev_involutive in E.
  apply (f_equal dotted) in E. rewrite dotted_app, !dotted_split in E.
  assert (Hl : length (dotted (rev t)) = 0).
  { apply (f_equal (@length N)) in E. rewrite !app_length in E. cbn [length] in E. lia. }
  apply length_zero_iff_nil in Hl. rewrite Hl in E. cbn [app] in E.
  now apply app_inj_tail in E as [-> _].
Qed.
Print Assumptions C13_refuted_case_sensitive.

Theorem C13_witness :
  same_ignoring_case (s2b "Example.com.") (s2b "example.com.") /\
  accepted (s2b "Example.com.") /\ accepted (s2b "example.com.") /\
  is_in_zone (s2b "Example.com.") (s2b "example.com.") = false /\
  is_in_zone_root (s2b "Example.com.") (s2b "example.com.") = false.
Proof.
  split; [reflexivity|]. split; [apply validate_name_ok; reflexivity|].
  split; [apply validate_name_ok; reflexivity|]. now split.
Qed.
