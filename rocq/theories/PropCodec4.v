(** Property C22 for queries, exactly: which of them panic the decoder. *)
From Verif Require Import Base Buffer BufferSpec BufferProofs Reader Types Name NameSpec NamePathSpec NameProofs NameDecode PropName PropName2 Codec CodecSpec CodecWrite CodecFacts CodecMessage.

Lemma type_known : forall n, match rtype_from_num n with Ok t => type_number t = n | Err m => m = n /\ ~ known_type n end.
Proof.
  intros n. unfold rtype_from_num. repeat (match goal with |- context [(?a =? ?b)%N] => destruct (N.eqb_spec a b); [subst; reflexivity|] end).
  split; [reflexivity|]. intros (t & Ht). destruct t; cbn [type_number] in Ht; congruence.
Qed.
Lemma type_number_inj : forall t u, type_number t = type_number u -> t = u.
Proof. intros t u. destruct t, u; try reflexivity; intros H; discriminate H. Qed.
Lemma usable_b : forall t, supported_for_question t = true <-> usable_type t.
Proof. intros t. unfold usable_type. destruct t; cbn; split; intros H; try reflexivity; try discriminate; try tauto; repeat (destruct H as [H|H]; try discriminate). Qed.

Section Query.
  Context (p : profile) (pkt : list N) (Hp : is_bytes pkt).

  (** What reading one question at [k] comes to. *)
  Definition go_on (r : result question parse_err) : Prop := match r with Ok _ => True | Err (PE_UnknownType _) => True | Err _ => False end.
  Lemma question_step : forall k, k <= length pkt ->
    match decode_question p (at_ pkt (8 * k)) with
    | Panic _ => runs_into_fatal_pointer p pkt k
    | Diverge => False
    | Done (r, b') => ~ runs_into_fatal_pointer p pkt k /\
        (go_on r -> exists e, b' = at_ pkt (8 * e) /\ e <= length pkt /\ question_passes p pkt k e /\ forall e', question_passes p pkt k e' -> e' = e) /\
        (~ go_on r -> forall e, ~ question_passes p pkt k e)
    end.
  Proof.
    intros k Hk. destruct (C10_exactly_which_names_panic p pkt k Hp Hk) as (HP & HD).
    unfold decode_question, bindM, dec_name.
    destruct (name_from_bytes p (at_ pkt (8 * k))) as [[rn b1]|kd|] eqn:En; cbn [bind].
    2:{ apply HP. eexists. reflexivity. }
    2:{ pose proof (name_from_bytes_general p pkt (8 * k) Hp ltac:(lia)) as G. rewrite En in G. exact G. }
    assert (Hno : ~ runs_into_fatal_pointer p pkt k) by (apply HD; now exists rn, b1).
    assert (Hfun : forall ls j e0, wire_name (match p with Debug => low_pointer | Release => wrapped_pointer end) pkt k ls j e0 -> j <= 16 -> accepted (name_text ls) ->
      rn = Ok (name_text ls) /\ b1 = at_ pkt (8 * e0)).
    { intros ls j e0 Hw Hj Ha. pose proof (name_from_bytes_complete p pkt k ls j e0 Hp Hw Hj Ha) as X. rewrite En in X. injection X as -> ->. now split. }
    destruct rn as [n|en].
    2:{ split; [exact Hno|]. split; [destruct en; intros []|]. intros _ e (ls & j & e0 & a & b & c & d & Hw & Hj & Ha & _). destruct (Hfun ls j e0 Hw Hj Ha) as (X & _). discriminate. }
    destruct (name_from_bytes_sound p pkt k n b1 Hp Hk En) as (ls & j & e0 & Hw & Hj & -> & Ha & ->).
    assert (He0 : e0 <= length pkt).
    { pose proof (C07_decoded_names_are_accepted p pkt (8 * k) _ _ Hp ltac:(lia) En) as (_ & _ & d & _ & Ed & Hd). apply (f_equal r_pos) in Ed. cbn [at_ r_pos] in Ed. lia. }
    (* the four bytes that follow *)
    assert (Hbytes : forall ls' j' e0' a b c d, wire_name (match p with Debug => low_pointer | Release => wrapped_pointer end) pkt k ls' j' e0' -> j' <= 16 -> accepted (name_text ls') ->
      firstn 4 (skipn e0' pkt) = [a; b; c; d] -> e0' = e0 /\ e0 + 4 <= length pkt /\ a = nth e0 pkt 0%N /\ b = nth (e0 + 1) pkt 0%N /\ c = nth (e0 + 2) pkt 0%N /\ d = nth (e0 + 3) pkt 0%N).
    { intros ls' j' e0' a b c d Hw' Hj' Ha' Hf. destruct (Hfun ls' j' e0' Hw' Hj' Ha') as (_ & X). apply (f_equal r_pos) in X. cbn [at_ r_pos] in X.
      assert (e0' = e0) by lia. subst e0'. split; [reflexivity|]. pose proof (f_equal (@length N) Hf) as Y. rewrite firstn_length, skipn_length in Y. cbn [length] in Y. split; [lia|].
      assert (Hn : forall i, i < 4 -> nth (e0 + i) pkt 0%N = nth i [a; b; c; d] 0%N).
      { intros i Hi. rewrite <- Hf. rewrite nth_firstn by assumption. now rewrite nth_skipn. }
      pose proof (Hn 0 ltac:(lia)) as N0. pose proof (Hn 1 ltac:(lia)) as N1. pose proof (Hn 2 ltac:(lia)) as N2. pose proof (Hn 3 ltac:(lia)) as N3.
      rewrite Nat.add_0_r in N0. cbn [nth] in N0, N1, N2, N3. repeat split; symmetry; assumption. }
    unfold decode_qtype, bindM, check_end. rewrite read_u16_at by (assumption || lia).
    destruct (Nat.leb_spec (8 * e0 + 16) (8 * length pkt)) as [H2|H2]; cbn [bind].
    2:{ split; [exact Hno|]. split; [intros []|]. intros _ e (ls' & j' & e0' & a & b & c & d & Hw' & Hj' & Ha' & Hf & _).
        destruct (Hbytes ls' j' e0' a b c d Hw' Hj' Ha' Hf) as (_ & X & _). lia. }
    rewrite rb16_aligned by (assumption || lia).
    pose proof (type_known (nth e0 pkt 0 * 256 + nth (e0 + 1) pkt 0)%N) as Htk.
    assert (Hfour : e0 + 4 <= length pkt -> firstn 4 (skipn e0 pkt) = [nth e0 pkt 0%N; nth (e0 + 1) pkt 0%N; nth (e0 + 2) pkt 0%N; nth (e0 + 3) pkt 0%N]).
    { intros H4. assert (L : length (firstn 4 (skipn e0 pkt)) = 4) by (rewrite firstn_length, skipn_length; lia).
      assert (Hn : forall i, i < 4 -> nth i (firstn 4 (skipn e0 pkt)) 0%N = nth (e0 + i) pkt 0%N) by (intros i Hi; rewrite nth_firstn by assumption; now rewrite nth_skipn).
      pose proof (Hn 0 ltac:(lia)) as N0. pose proof (Hn 1 ltac:(lia)) as N1. pose proof (Hn 2 ltac:(lia)) as N2. pose proof (Hn 3 ltac:(lia)) as N3.
      rewrite Nat.add_0_r in N0. destruct (firstn 4 (skipn e0 pkt)) as [|a [|b [|c [|d [|x y]]]]]; cbn [length] in L; try lia. cbn [nth] in N0, N1, N2, N3. now subst. }
    destruct (rtype_from_num _) as [t|m] eqn:Et.
    - destruct (supported_for_question t) eqn:Es; cbn [negb].
      + unfold ret. cbn [bind]. replace (8 * e0 + 16) with (8 * (e0 + 2)) by lia. rewrite read_u16_at by (assumption || lia).
        destruct (Nat.leb_spec (8 * (e0 + 2) + 16) (8 * length pkt)) as [H4|H4]; cbn [bind].
        * rewrite rb16_aligned by (assumption || lia). replace (e0 + 2 + 1) with (e0 + 3) by lia. unfold lift, decode_class.
          assert (Hc : (nth (e0 + 2) pkt 0 < 256)%N) by (apply is_byte_nth; assumption). assert (Hd : (nth (e0 + 3) pkt 0 < 256)%N) by (apply is_byte_nth; assumption).
          set (x := (nth (e0 + 2) pkt 0 * 256 + nth (e0 + 3) pkt 0)%N) in *.
          assert (Hcl : (exists c, class_from_num x = Ok c /\ class_supported c = true) <-> x = 1%N).
          { unfold class_from_num. repeat (match goal with |- context [(?a =? ?b)%N] => destruct (N.eqb_spec a b) as [->|] end).
            - split; [reflexivity|]. intros _. eexists. split; reflexivity.
            - split; [intros (c & [= <-] & X); discriminate|discriminate].
            - split; [intros (c & [= <-] & X); discriminate|discriminate].
            - split; [intros (c & [= <-] & X); discriminate|discriminate].
            - split; [intros (c & [= <-] & X); discriminate|discriminate].
            - split; [intros (c & X & _); discriminate|contradiction]. }
          assert (Hrest : forall r b', (r = Ok (mkQ (name_text ls) t C_IN) \/ True) ->
            (go_on r <-> x = 1%N) -> b' = at_ pkt (8 * (e0 + 2) + 16) ->
            ~ runs_into_fatal_pointer p pkt k /\
            (go_on r -> exists e, b' = at_ pkt (8 * e) /\ e <= length pkt /\ question_passes p pkt k e /\ forall e', question_passes p pkt k e' -> e' = e) /\
            (~ go_on r -> forall e, ~ question_passes p pkt k e)).
          { intros r b' _ Hgo ->. split; [exact Hno|]. split.
            - intros Hg. apply Hgo in Hg. exists (e0 + 4). split; [f_equal; lia|]. split; [lia|]. split.
              + exists ls, j, e0, (nth e0 pkt 0%N), (nth (e0 + 1) pkt 0%N), (nth (e0 + 2) pkt 0%N), (nth (e0 + 3) pkt 0%N).
                split; [exact Hw|]. split; [exact Hj|]. split; [exact Ha|]. split; [apply Hfour; lia|]. split; [reflexivity|]. right.
                split; [exists t; split; [now apply usable_b|exact Htk]|]. unfold x in Hg. split; lia.
              + intros e' (ls' & j' & e0' & a & b & c & d & Hw' & Hj' & Ha' & Hf & -> & _). destruct (Hbytes ls' j' e0' a b c d Hw' Hj' Ha' Hf) as (-> & _). reflexivity.
            - intros Hg e (ls' & j' & e0' & a & b & c & d & Hw' & Hj' & Ha' & Hf & -> & Hcase). destruct (Hbytes ls' j' e0' a b c d Hw' Hj' Ha' Hf) as (-> & _ & -> & -> & -> & ->).
              destruct Hcase as [Hk'|(_ & Hc0 & Hd1)].
              + apply Hk'. now exists t.
              + apply Hg, Hgo. unfold x. rewrite Hc0, Hd1. reflexivity. }
          destruct (class_from_num x) as [cl|m] eqn:Ecl.
          -- destruct (class_supported cl) eqn:Esup; cbn [negb bind].
             ++ apply Hrest; [now right| |reflexivity]. split; [intros _; apply Hcl; now exists cl|intros _; exact Logic.I].
             ++ apply Hrest; [now right| |reflexivity]. split; [intros []|]. intros X. apply Hcl in X as (c & X & Y). congruence.
          -- cbn [bind]. apply Hrest; [now right| |reflexivity]. split; [intros []|]. intros X. apply Hcl in X as (c & X & Y). congruence.
        * split; [exact Hno|]. split; [intros []|]. intros _ e (ls' & j' & e0' & a & b & c & d & Hw' & Hj' & Ha' & Hf & _).
          destruct (Hbytes ls' j' e0' a b c d Hw' Hj' Ha' Hf) as (_ & X & _). lia.
      + unfold fail. cbn [bind]. split; [exact Hno|]. split; [intros []|]. intros _ e (ls' & j' & e0' & a & b & c & d & Hw' & Hj' & Ha' & Hf & -> & Hcase).
        destruct (Hbytes ls' j' e0' a b c d Hw' Hj' Ha' Hf) as (-> & _ & -> & -> & _). destruct Hcase as [Hk'|((u & Hu & Eu) & _)].
        * apply Hk'. now exists t.
        * assert (u = t) by (apply type_number_inj; congruence). subst u. apply usable_b in Hu. congruence.
    - destruct Htk as (-> & Hk'). replace (8 * e0 + 16) with (8 * (e0 + 2)) by lia. rewrite read_u16_at by (assumption || lia).
      destruct (Nat.leb_spec (8 * (e0 + 2) + 16) (8 * length pkt)) as [H4|H4]; cbn [bind].
      + unfold fail. cbn [bind]. split; [exact Hno|]. split; [|intros X; exfalso; apply X; exact Logic.I]. intros _. exists (e0 + 4). split; [f_equal; lia|]. split; [lia|]. split.
        * exists ls, j, e0, (nth e0 pkt 0%N), (nth (e0 + 1) pkt 0%N), (nth (e0 + 2) pkt 0%N), (nth (e0 + 3) pkt 0%N).
          split; [exact Hw|]. split; [exact Hj|]. split; [exact Ha|]. split; [apply Hfour; lia|]. split; [reflexivity|]. left. exact Hk'.
        * intros e' (ls' & j' & e0' & a & b & c & d & Hw' & Hj' & Ha' & Hf & -> & _). destruct (Hbytes ls' j' e0' a b c d Hw' Hj' Ha' Hf) as (-> & _). reflexivity.
      + split; [exact Hno|]. split; [intros []|]. intros _ e (ls' & j' & e0' & a & b & c & d & Hw' & Hj' & Ha' & Hf & _).
        destruct (Hbytes ls' j' e0' a b c d Hw' Hj' Ha' Hf) as (_ & X & _). lia.
  Qed.

  Lemma section_panics : forall n i k, k <= length pkt ->
    match decode_section (decode_question p) ME_Question i n (at_ pkt (8 * k)) with
    | Panic _ => exists m k', m < n /\ questions_pass p pkt m k k' /\ runs_into_fatal_pointer p pkt k'
    | Diverge => False
    | Done _ => ~ exists m k', m < n /\ questions_pass p pkt m k k' /\ runs_into_fatal_pointer p pkt k'
    end.
  Proof.
    induction n as [|n IH]; intros i k Hk; cbn [decode_section]; [intros (m & k' & H & _); lia|].
    pose proof (question_step k Hk) as Q. destruct (decode_question p (at_ pkt (8 * k))) as [[r b']|kd|]; cbn [bind]; [|exists 0, k; split; [lia|]; split; [constructor|exact Q]|exact Q].
    destruct Q as (Hno & Hgo & Hstop).
    assert (Hend : ~ go_on r -> ~ exists m k', m < S n /\ questions_pass p pkt m k k' /\ runs_into_fatal_pointer p pkt k').
    { intros Hg (m & k' & Hm & Hq & Hf). inversion Hq; subst; [contradiction|]. now apply (Hstop Hg e). }
    assert (Hmore : forall e, question_passes p pkt k e -> (forall e', question_passes p pkt k e' -> e' = e) ->
      ((exists m k', m < S n /\ questions_pass p pkt m k k' /\ runs_into_fatal_pointer p pkt k') <-> (exists m k', m < n /\ questions_pass p pkt m e k' /\ runs_into_fatal_pointer p pkt k'))).
    { intros e He Hu. split.
      - intros (m & k' & Hm & Hq & Hf). inversion Hq as [|m' k0 e' k'' Hq1 Hq2]; subst; [contradiction|]. rewrite (Hu e' Hq1) in Hq2. exists m', k'. split; [lia|]. now split.
      - intros (m & k' & Hm & Hq & Hf). exists (S m), k'. split; [lia|]. split; [econstructor; eassumption|exact Hf]. }
    destruct r as [v|e].
    - destruct (Hgo Logic.I) as (e & -> & He & Hpass & Hu). specialize (IH (S i) e He). specialize (Hmore e Hpass Hu).
      destruct (decode_section _ _ (S i) n _) as [[rs b'']|kd|]; cbn [bind]; [now rewrite Hmore|now apply Hmore|exact IH].
    - destruct e; try (apply Hend; intros X; exact X).
      destruct (Hgo Logic.I) as (e & -> & He & Hpass & Hu). specialize (IH (S i) e He). specialize (Hmore e Hpass Hu).
      destruct (decode_section _ _ (S i) n _) as [[rs b'']|kd|]; [now rewrite Hmore|now apply Hmore|exact IH].
  Qed.
End Query.

(** Packets that announce only questions: decoding always ends, and panics exactly if the
    operation is a standard query and, after some questions that pass, the next one's name
    runs into a fatal pointer. *)
Theorem C22_exactly_which_queries_panic_partial : forall p h rest, header_ok h -> is_bytes rest -> h_an h = 0%N -> h_ns h = 0%N -> h_ar h = 0%N ->
  let l := wire_header h ++ rest in
  decode_message p l <> Diverge /\
  ((exists kd, decode_message p l = Panic kd) <->
   h_op h = OP_STD /\ exists n k, n < N.to_nat (h_qd h) /\ questions_pass p l n 12 k /\ runs_into_fatal_pointer p l k).
Proof.
  intros p h rest Hh Hr Ha Hn Hx l.
  assert (Hl : is_bytes l) by (apply is_bytes_app; split; [now apply wire_header_bytes|assumption]).
  assert (H12 : 12 <= length l) by (unfold l; rewrite app_length, wire_header_length; lia).
  assert (Eh : decode_header (at_ l 0) = Done (Ok h, at_ l 96)) by now apply decode_wire_header.
  unfold decode_message. rewrite from_raw_at, Eh. cbn [bind].
  destruct (header_is_supported h) as [u|e] eqn:Es.
  - pose proof (section_panics p l Hl (N.to_nat (h_qd h)) 0 12 H12) as Q. change (8 * 12) with 96 in Q.
    assert (Ho : h_op h = OP_STD) by (unfold header_is_supported in Es; destruct (h_op h); [reflexivity|discriminate|discriminate]).
    rewrite Ha, Hn, Hx. change (N.to_nat 0) with 0. cbn [decode_section bind].
    destruct (decode_section _ _ _ _ _) as [[rq b1]|kd|]; cbn [bind].
    + split; [destruct rq; discriminate|]. split; [intros (kd & X); destruct rq; discriminate X|]. intros (_ & X). contradiction.
    + split; [discriminate|]. split; [intros _; now split|intros _; eexists; reflexivity].
    + contradiction.
  - split; [discriminate|]. split; [intros (kd & X); discriminate X|]. intros (Ho & _). unfold header_is_supported in Es. rewrite Ho in Es. discriminate.
Qed.
Print Assumptions C22_exactly_which_queries_panic_partial.

(** A packet whose second question is fatal, after a first one of a type nobody knows; and
    the same one as an inverse query, which is not read at all. *)
Definition two_questions : list N := [1; 97; 0; 3; 231; 9; 9; 192; 200; 0; 1; 0; 1]%N.
Theorem C22_exact_nonvacuous :
  (forall p, exists kd, decode_message p (wire_header (mkHeader 7 false OP_STD false false true false 0 RC_NoError 2 0 0 0) ++ two_questions) = Panic kd) /\
  (forall p l, l = wire_header (mkHeader 7 false OP_STD false false true false 0 RC_NoError 2 0 0 0) ++ two_questions -> questions_pass p l 1 12 19 /\ runs_into_fatal_pointer p l 19) /\
  (forall p, exists r, decode_message p (wire_header (mkHeader 7 false OP_INV false false true false 0 RC_NoError 2 0 0 0) ++ two_questions) = Done r).
Proof.
  assert (X : forall p l, l = wire_header (mkHeader 7 false OP_STD false false true false 0 RC_NoError 2 0 0 0) ++ two_questions -> questions_pass p l 1 12 19 /\ runs_into_fatal_pointer p l 19).
  { intros p l ->. split.
    - eapply qp_more; [|constructor]. exists [[97%N]], 0, 15, 3%N, 231%N, 9%N, 9%N. split; [apply wn_label; [cbn; lia|reflexivity|reflexivity|]; apply (wn_root _ _ 14); reflexivity|].
      split; [lia|]. split; [apply validate_name_ok; reflexivity|]. split; [reflexivity|]. split; [reflexivity|]. left. intros ([] & Ht); discriminate Ht.
    - exists [], 0, 19. split; [constructor|]. split; [cbn; lia|]. split; [lia|]. exists 192%N, 200%N. split; [reflexivity|]. split; [lia|]. split; [reflexivity|].
      cbv zeta. destruct p; [right|]; apply Nat.ltb_lt; reflexivity. }
  split; [|split; [exact X|]].
  - intros p. destruct (X p _ eq_refl) as (X1 & X2). apply (C22_exactly_which_queries_panic_partial p (mkHeader 7 false OP_STD false false true false 0 RC_NoError 2 0 0 0) two_questions);
      [repeat split; cbn; unfold is_u16; lia|repeat constructor; unfold is_byte; lia|reflexivity|reflexivity|reflexivity|]. split; [reflexivity|]. exists 1, 19. split; [cbn; lia|]. now split.
  - intros p. eexists. vm_compute. reflexivity.
Qed.
Print Assumptions C22_exact_nonvacuous.
