(** The line number never exceeds the number of lines. *)
From Verif Require Import Base Types Name NameSpec Codec Zone Tokens Parser TokenSpec TokenProofs TokenSim PropCodec3 Report ReportErase ReportSim ReportNear ReportOwn.

Section Within.
  Variable L : nat.
  Definition within (t : tok) : Prop := tk_line t + length (tk_rest t) <= L.
  Lemma load_within : forall f n x g n1, load_new_line f n = Ok (x, g, n1) -> n1 + length g <= n + length f.
  Proof.
    induction f as [|[l0|] f IH]; intros n x g n1 E; cbn [load_new_line] in E; try discriminate E.
    - assert (g = [] /\ n1 = n) as (-> & ->) by (split; congruence). cbn. lia.
    - destruct (has_content l0).
      + assert (g = f /\ n1 = S n) as (-> & ->) by (split; congruence). cbn. lia.
      + apply IH in E. cbn. lia.
  Qed.
  Lemma within_next_rec : forall fuel t x t1, within t -> next_rec fuel t = Done (Ok (x, t1)) -> within t1.
  Proof.
    unfold within. induction fuel as [|fuel IH]; intros t x t1 W E; [discriminate E|]. cbn [next_rec] in E.
    assert (H0 : match bootstrap t with Ok (inl u) => within u | Ok (inr (_, u)) => within u | Err _ => True end).
    { unfold bootstrap, within. destruct (tk_line t =? 0) eqn:Z; [|exact W].
      destruct (load_new_line (tk_rest t) (tk_line t)) as [[[[l|] f] n]|e] eqn:El; [| |exact Logic.I].
      - apply load_within in El. cbn [tk_line tk_rest]. lia.
      - apply load_within in El. destruct (tk_multi t); [exact Logic.I|]. cbn [tk_line tk_rest]. lia. }
    destruct (bootstrap t) as [[u|[y u]]|e]; [| |discriminate E].
    2:{ assert (u = t1) as <- by congruence. exact H0. }
    unfold within in H0. clear W.
    assert (H1 : match fetch u with Ok (F_Token _ v) => within v | Ok (F_Chars v) => within v | Err _ => True end).
    { unfold fetch, within. destruct (tk_peeked u) as [|q ps]; [|exact H0]. destruct (tk_cur u); [|exact H0].
      destruct (load_new_line (tk_rest u) (tk_line u)) as [[[[l|] f] n]|e] eqn:El; [| |exact Logic.I]; apply load_within in El; destruct (tk_multi u); cbn [tk_line tk_rest]; try exact Logic.I; lia. }
    destruct (fetch u) as [[y v|v]|e]; [| |discriminate E].
    { assert (v = t1) as <- by congruence. exact H1. }
    unfold within in H1. destruct (tk_cur v) as [|ch cur]; [discriminate E|].
    assert (Z : forall c, t1 = with_cur v c -> tk_line t1 + length (tk_rest t1) <= L) by (intros c ->; exact H1).
    destruct ((ch =? 32) || (ch =? 9))%N. { apply (Z (skip_ws (ch :: cur))). congruence. }
    destruct (ch =? 36)%N eqn:E36.
    { unfold process_directive in E. rewrite E36 in E. cbn [assert_] in E. destruct (word_loop _ _ _) as [[[d c]|e]|kd|]; cbn [bind] in E; try discriminate E.
      destruct (bytes_eqb _ _); [apply (Z c); congruence|]. destruct (bytes_eqb _ _); [apply (Z c); congruence|discriminate E]. }
    destruct (ch =? 34)%N eqn:E34.
    { unfold process_quoted_string in E. rewrite E34 in E. cbn [assert_] in E. destruct (quote_loop _ _ _) as [[[[cl s] c]|e]|kd|]; cbn [bind] in E; try discriminate E.
      destruct cl; [|discriminate E]. apply (Z c). congruence. }
    destruct (ch =? 40)%N. { destruct (tk_multi v); [discriminate E|]. apply IH in E; [exact E|exact H1]. }
    destruct (ch =? 41)%N. { destruct (tk_multi v); [|discriminate E]. apply IH in E; [exact E|exact H1]. }
    destruct (ch =? 59)%N. { apply IH in E; [exact E|exact H1]. }
    unfold process_string_or_number in E. destruct (word_loop _ _ _) as [[[d c]|e]|kd|]; cbn [bind] in E; try discriminate E.
    destruct (bytes_eqb _ _); [apply (Z c); congruence|]. destruct (parse_u32 _) as [w|]; apply (Z c); congruence.
  Qed.

  Definition stays {A} (m : T A) : Prop := forall t a t1, within t -> m t = Done (Ok (a, t1)) -> within t1.
  Lemma stays_next : stays next.
  Proof.
    intros t x t1 W E. unfold next in E. destruct (next_rec _ t) as [[[y u]|e]|kd|] eqn:En; cbn [bind] in E; try discriminate E.
    assert (u = t1) as <- by congruence. exact (within_next_rec _ _ _ _ W En).
  Qed.
  Lemma stays_bind : forall A B (m : T A) (k : A -> T B), stays m -> (forall x, stays (k x)) -> stays (bindTk m k).
  Proof.
    intros A B m k Hm Hk t b t1 W E. unfold bindTk in E. destruct (m t) as [[[x u]|e]|kd|] eqn:Em; cbn [bindR bind fst snd] in E; try discriminate E.
    exact (Hk x u b t1 (Hm t x u W Em) E).
  Qed.
  Lemma stays_ret : forall A (a : A), stays (retT a).
  Proof. intros A a t x t1 W E. unfold retT in E. assert (t = t1) as <- by congruence. exact W. Qed.
  Lemma stays_fail : forall A e, @stays A (failT e). Proof. intros A e t x t1 W E. discriminate E. Qed.
  Lemma stays_panic : forall A k, @stays A (fun _ => Panic k). Proof. intros A k t x t1 W E. discriminate E. Qed.
  Lemma stays_diverge : forall A, @stays A (fun _ => Diverge). Proof. intros A t x t1 W E. discriminate E. Qed.
  Lemma stays_try : forall A (r : result A zone_err), stays (tryT r). Proof. intros A [a|e]; [apply stays_ret|apply stays_fail]. Qed.
  Lemma stays_skip : forall f, stays (skip_blanks f).
  Proof.
    induction f as [|f IH]; intros t x t1 W E; [discriminate E|]. cbn [skip_blanks] in E. revert t x t1 W E. apply stays_bind; [apply stays_next|].
    intros x. destruct x; try apply stays_ret. exact IH.
  Qed.
  Lemma stays_nab : stays next_after_blanks. Proof. intros t x t1 W E. exact (stays_skip _ t x t1 W E). Qed.
  Lemma stays_repeek : forall m : T token, stays m -> stays (fun t => bindR (m t) (fun x => Done (Ok (fst x, with_peeked (snd x) (tk_peeked (snd x) ++ [fst x]))))).
  Proof.
    intros m H t x t1 W E. destruct (m t) as [[[y u]|e]|kd|] eqn:Em; cbn [bindR bind fst snd] in E; try discriminate E.
    assert (t1 = with_peeked u (tk_peeked u ++ [y])) as -> by congruence. exact (H t y u W Em).
  Qed.
  Lemma stays_peek : stays peek. Proof. exact (stays_repeek next stays_next). Qed.
  Lemma stays_pab : stays peek_after_blanks. Proof. exact (stays_repeek next_after_blanks stays_nab). Qed.
  Lemma stays_unwrap : forall m : T token, stays m -> stays (fun t => let! r := m t in match r with Ok x => Done (Ok x) | Err _ => Panic PUnwrap end).
  Proof. intros m H t x t1 W E. apply (H t x t1 W). destruct (m t) as [[y|e]|kd|]; cbn [bind] in E; try discriminate E. congruence. Qed.
  Lemma stays_close : forall A tk (a : A), stays (close_line tk a). Proof. intros A tk a. destruct tk; first [apply stays_ret|apply stays_fail]. Qed.
  Ltac st := repeat match goal with
    | |- stays (bindTk _ _) => apply stays_bind; [|intros ?; cbv beta]
    | |- stays (retT _) => apply stays_ret
    | |- stays (failT _) => apply stays_fail
    | |- stays (fun _ => Panic _) => apply stays_panic
    | |- stays (fun _ => Diverge) => apply stays_diverge
    | |- stays (tryT _) => apply stays_try
    | |- stays next => apply stays_next
    | |- stays next_unwrap => apply (stays_unwrap next stays_next)
    | |- stays next_after_blanks => apply stays_nab
    | |- stays next_after_blanks_unwrap => apply (stays_unwrap next_after_blanks stays_nab)
    | |- stays peek => apply stays_peek
    | |- stays peek_after_blanks => apply stays_pab
    | |- stays (close_line _ _) => apply stays_close
    | |- stays (let _ := _ in _) => cbv zeta
    | |- stays (match ?x with _ => _ end) => destruct x
    end.
  Lemma stays_ttl_class : stays parse_ttl_class. Proof. unfold parse_ttl_class. st. Qed.
  Lemma stays_discard : forall fuel, stays (discard_strings fuel). Proof. induction fuel; cbn [discard_strings]; st. exact IHfuel. Qed.
  Lemma stays_txts : forall fuel acc, stays (parse_txts fuel acc). Proof. induction fuel as [|fuel IH]; intros acc; cbn [parse_txts]; st; apply IH. Qed.
  Lemma stays_name_token : forall o, stays (parse_name_token o). Proof. intros. unfold parse_name_token. st. Qed.
  Lemma stays_number : stays parse_number. Proof. unfold parse_number. st. Qed.
  Lemma stays_a : forall n c t, stays (parse_a_record n c t). Proof. intros. unfold parse_a_record. st. Qed.
  Lemma stays_ns : forall o n c t, stays (parse_ns_record o n c t). Proof. intros. unfold parse_ns_record. st. apply stays_name_token. Qed.
  Lemma stays_data : forall fuel rt o n c t, stays (parse_record_data fuel rt o n c t).
  Proof.
    intros. destruct rt; cbn [parse_record_data]; try apply stays_a; try apply stays_ns; st.
    - unfold parse_cname_record. st.
    - unfold parse_wks_record. st; apply stays_discard.
    - unfold parse_ptr_record. st.
    - unfold parse_hinfo_record. st.
    - unfold parse_mx_record. st; apply stays_name_token.
    - unfold parse_txt_record. st. apply stays_txts.
  Qed.
  Lemma stays_soa : forall o n c t, stays (parse_soa_record o n c t).
  Proof. intros. unfold parse_soa_record. st; try apply stays_name_token; apply stays_number. Qed.
  Lemma stays_start : forall A (k : result (token * tok) zone_err -> exec (result (A * tok) zone_err)),
    (forall x, stays (fun t => k (Ok (x, t)))) -> (forall e, exists j, k (Err e) = Panic j) -> stays (fun t0 => let! r := next t0 in k r).
  Proof.
    intros A k Hk He t a t1 W E. destruct (next t) as [[[x u]|e]|kd|] eqn:En; cbn [bind] in E; try discriminate E.
    - exact (Hk x u a t1 (stays_next t x u W En) E).
    - destruct (He e) as (j & X). congruence.
  Qed.
  Ltac started := unfold parse_origin, parse_include, parse_record, parse_sub_record; apply stays_start; [|intros e; eexists; reflexivity];
    intros x; cbv beta iota; try match goal with |- stays (fun t => ?m t) => change (stays m) end.
  Lemma stays_entry : forall fuel s x, stays (entry fuel s x).
  Proof.
    assert (F : forall s, stays (parse_origin s)). { intros s. started. destruct x; try (intros t a t1 _ E; discriminate E). match goal with |- stays (fun t => ?m t) => change (stays m) end. st. }
    assert (G : forall s, stays (parse_include s)). { intros s. started. destruct x; try (intros t a t1 _ E; discriminate E). match goal with |- stays (fun t => ?m t) => change (stays m) end. st. }
    assert (H : forall fuel s, stays (parse_record fuel s)). { intros fuel s. started. st; try apply stays_ttl_class; try apply stays_data. }
    intros fuel s x. destruct x; cbn [entry]; try apply F; try apply G; try apply H; intros t a t1 _ E; discriminate E.
  Qed.
  Lemma stays_sub_record : forall zn ttl mn, stays (parse_sub_record zn ttl mn).
  Proof. intros zn ttl mn. started. st; try apply stays_ttl_class; try apply stays_a; try apply stays_ns. Qed.
  Lemma stays_starting_soa : forall s, stays (parse_starting_soa_record s).
  Proof. intros s. unfold parse_starting_soa_record. st; try apply stays_ttl_class; try apply stays_soa. Qed.
  Lemma own_within : forall fs fuel s acc t e n, own fs fuel s acc t e n -> within t -> n <= L.
  Proof.
    intros fs fuel s acc t e n H. induction H as [fuel s acc t e P|fuel s acc t x t1 e P Hx E|fuel s acc t x t1 z t2 s' acc' e n P Hx E G H IH]; intros W.
    - unfold within in W. lia.
    - apply (stays_peek t x t1 W) in P. unfold within in P. lia.
    - apply IH. exact (stays_entry fuel s x t1 z t2 (stays_peek t x t1 W P) E).
  Qed.
End Within.
Lemma within_new : forall f, within (length f) (tok_new f). Proof. intros f. unfold within. cbn. lia. Qed.
