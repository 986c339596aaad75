(** Two files that agree on their first lines, as the loader reads them. *)
From Verif Require Import Base Types Name NameSpec Codec Zone Tokens Parser TokenSpec TokenProofs TokenSim PropCodec3.

Definition readable (f : file) : Prop := Forall (fun o => o <> None) f.
Definition eol (x : token) : bool := match x with T_NewLine | T_End => true | _ => false end.

(** * Lines are read in order *)
(** A line end was read ahead. *)
Definition pend (t : tok) : nat := if existsb eol (tk_peeked t) then 1 else 0.
(** At line [k] or later (a line end read ahead does not count), or at the end. *)
Definition late (k : nat) (t : tok) : Prop := ended t \/ k + pend t <= tk_line t.

Lemma pend_nil : forall t, tk_peeked t = [] -> pend t = 0.
Proof. intros t E. unfold pend. now rewrite E. Qed.

Lemma late_next_rec : forall fuel k t x t1, good t -> 1 <= tk_line t -> tok_size t < fuel -> late k t -> next_rec fuel t = Done (Ok (x, t1)) ->
  good t1 /\ tk_line t <= tk_line t1 /\ (x = T_End /\ ended t1 \/ x <> T_End /\ tk_peeked t1 = [] /\ k + (if eol x then 1 else 0) <= tk_line t1).
Proof.
  intros fuel k t x t1 G L SZ Lt E. pose proof (next_rec_facts fuel t G SZ) as NF. rewrite E in NF. cbn [next_facts] in NF. destruct NF as (N1 & N2 & N3 & N4 & N5 & N6).
  assert (M : tk_line t <= tk_line t1 /\ (x = T_End \/ k + (if eol x then 1 else 0) <= tk_line t1)).
  { destruct Lt as [D|Lt].
    - split; [|destruct (ended_next_rec (pred fuel) t D) as (t' & E' & D' & _); destruct fuel; [lia|]; cbn [pred] in E'; left; congruence].
      destruct fuel; [lia|]. destruct D as (D1 & D2 & D3 & D4). cbn [next_rec] in E. unfold bootstrap in E. destruct (tk_line t =? 0) eqn:El; [apply Nat.eqb_eq in El; lia|].
      unfold fetch in E. destruct (tk_peeked t) as [|q ps] eqn:Ep; [rewrite D2, D1, D3 in E; cbn [load_new_line] in E; assert (t1 = mkTok [] [] [] false (tk_line t)) by congruence; subst; cbn; lia|].
      assert (t1 = with_peeked t ps) by congruence. subst. cbn. lia.
    - clear N1 N2 N3 N4 N6 G. revert t SZ L Lt E. induction fuel as [|fuel IH]; intros t SZ L Lt E; [lia|].
      cbn [next_rec] in E. unfold bootstrap in E. destruct (tk_line t =? 0) eqn:El; [apply Nat.eqb_eq in El; lia|].
      assert (F : match fetch t with
                  | Ok (F_Token y u) => tk_line t <= tk_line u /\ (y = T_End \/ k + (if eol y then 1 else 0) <= tk_line u)
                  | Ok (F_Chars u) => tk_line t <= tk_line u /\ tk_peeked u = [] /\ k <= tk_line u /\ tok_size u <= tok_size t
                  | Err _ => True end).
      { unfold fetch. destruct (tk_peeked t) as [|q ps] eqn:Ep.
        - rewrite (pend_nil _ Ep) in Lt. destruct (tk_cur t) as [|ch cur] eqn:Ec.
          + destruct (load_new_line _ _) as [[[[l|] f] n]|e] eqn:El'; [| |exact Logic.I].
            * apply load_some in El' as (Z & Ln & _). destruct (tk_multi t); cbn [tk_line tk_peeked].
              -- split; [lia|]. split; [reflexivity|]. split; [lia|]. rewrite !tok_size_eq. cbn [tk_cur tk_rest tk_peeked length]. rewrite Ec, Ep. cbn [length]. lia.
              -- split; [lia|]. right. cbn [eol]. lia.
            * apply load_none in El' as (_ & Ln). destruct (tk_multi t); [exact Logic.I|]. cbn [tk_line]. split; [lia|now left].
          + split; [lia|]. split; [exact Ep|]. split; lia.
        - cbn [with_peeked tk_line]. split; [lia|]. right. unfold pend in Lt. rewrite Ep in Lt. cbn [existsb] in Lt. destruct (eol q); cbn [orb] in Lt; lia. }
      destruct (fetch t) as [[y u|u]|e]; [| |discriminate E].
      + assert (y = x /\ u = t1) as (-> & ->) by (split; congruence). destruct F as (F1 & F2). split; [exact F1|]. exact F2.
      + destruct F as (F1 & F2 & F3 & F4). destruct (tk_cur u) as [|ch cur] eqn:Ec; [discriminate E|].
        assert (R : forall c m, length c < length (ch :: cur) -> next_rec fuel (with_multi u c m) = Done (Ok (x, t1)) -> tk_line t <= tk_line t1 /\ (x = T_End \/ k + (if eol x then 1 else 0) <= tk_line t1)).
        { intros c m Lc E'. apply IH in E' as (E1 & E2).
          - cbn [with_multi tk_line] in E1. split; [lia|exact E2].
          - rewrite !tok_size_eq in *. cbn [with_multi tk_cur tk_rest tk_peeked] in *. rewrite Ec in F4. lia.
          - cbn. lia.
          - rewrite pend_nil by (cbn; exact F2). cbn. lia. }
        assert (Z : forall c, t1 = with_cur u c -> eol x = false -> tk_line t <= tk_line t1 /\ (x = T_End \/ k + (if eol x then 1 else 0) <= tk_line t1)).
        { intros c -> ->. cbn. split; [lia|right; lia]. }
        destruct ((ch =? 32) || (ch =? 9))%N. { apply (Z (skip_ws (ch :: cur))); [congruence|]. assert (x = T_Blank) as -> by congruence. reflexivity. }
        destruct (ch =? 36)%N eqn:E36.
        { unfold process_directive in E. rewrite E36 in E. cbn [assert_] in E. destruct (word_loop _ _ _) as [[[d c]|e]|kd|]; cbn [bind] in E; try discriminate E.
          destruct (bytes_eqb _ _); [apply (Z c); [congruence|]; assert (x = T_OriginDir) as -> by congruence; reflexivity|].
          destruct (bytes_eqb _ _); [apply (Z c); [congruence|]; assert (x = T_IncludeDir) as -> by congruence; reflexivity|discriminate E]. }
        destruct (ch =? 34)%N eqn:E34.
        { unfold process_quoted_string in E. rewrite E34 in E. cbn [assert_] in E. destruct (quote_loop _ _ _) as [[[[cl s] c]|e]|kd|]; cbn [bind] in E; try discriminate E.
          destruct cl; [|discriminate E]. apply (Z c); [congruence|]. assert (X : x = T_QString (utf8_encode s)) by congruence. rewrite X. reflexivity. }
        destruct (ch =? 40)%N. { destruct (tk_multi u); [discriminate E|]. apply (R cur true); [cbn; lia|exact E]. }
        destruct (ch =? 41)%N. { destruct (tk_multi u); [|discriminate E]. apply (R cur false); [cbn; lia|exact E]. }
        destruct (ch =? 59)%N. { apply (R [] (tk_multi u)); [cbn; lia|exact E]. }
        unfold process_string_or_number in E. destruct (word_loop _ _ _) as [[[d c]|e]|kd|]; cbn [bind] in E; try discriminate E.
        destruct (bytes_eqb _ _); [apply (Z c); [congruence|]; assert (x = T_At) as -> by congruence; reflexivity|].
        destruct (parse_u32 _) as [v|]; (apply (Z c); [congruence|]); [assert (X : x = T_Number v) by congruence|assert (X : x = T_String (utf8_encode d)) by congruence]; rewrite X; reflexivity. }
  destruct M as (M1 & M2). split; [exact N1|]. split; [exact M1|].
  assert (Y : x = T_End \/ x <> T_End) by (destruct x; (now left) || (right; discriminate)).
  destruct Y as [Y|Y]; [left; split; [exact Y|now apply N5]|]. right. split; [exact Y|]. split; [now apply N6|]. destruct M2 as [M2|M2]; [contradiction|exact M2].
Qed.

Definition lateT {A} (m : T A) : Prop := forall k t a t1, good t -> 1 <= tk_line t -> late k t -> m t = Done (Ok (a, t1)) ->
  good t1 /\ 1 <= tk_line t1 /\ late k t1.
(** for actions that give a token *)
Definition late_tok (m : T token) : Prop := forall k t x t1, good t -> 1 <= tk_line t -> late k t -> m t = Done (Ok (x, t1)) ->
  good t1 /\ 1 <= tk_line t1 /\ (x = T_End /\ ended t1 \/ x <> T_End /\ tk_peeked t1 = [] /\ k + (if eol x then 1 else 0) <= tk_line t1).
Lemma late_next : late_tok next.
Proof.
  intros k t x t1 G L Lt E. unfold next in E. destruct (next_rec _ t) as [[[y u]|e]|kd|] eqn:En; cbn [bind] in E; try discriminate E.
  assert (y = x /\ u = t1) as (-> & ->) by (split; congruence). clear E.
  destruct (late_next_rec _ k t x t1 G L (Nat.lt_succ_diag_r _) Lt En) as (H1 & H2 & H3). split; [exact H1|]. split; [lia|exact H3].
Qed.
Lemma late_of_tok : forall k x t1, (x = T_End /\ ended t1 \/ x <> T_End /\ tk_peeked t1 = [] /\ k + (if eol x then 1 else 0) <= tk_line t1) -> late k t1.
Proof. intros k x t1 [(_ & D)|(_ & Ep & L)]; [now left|]. right. rewrite (pend_nil _ Ep). lia. Qed.
Lemma late_skip : forall f, late_tok (skip_blanks f).
Proof.
  induction f as [|f IH]; intros k t x t1 G L Lt E; [discriminate E|]. cbn [skip_blanks] in E. unfold bindTk in E.
  destruct (next t) as [[[y u]|e]|kd|] eqn:En; cbn [bindR bind fst snd] in E; try discriminate E.
  destruct (late_next k t y u G L Lt En) as (H1 & H2 & H3).
  assert (C : y = T_Blank \/ (y <> T_Blank /\ y = x /\ u = t1)) by (destruct y; try (now left); right; (split; [discriminate|]); unfold retT in E; split; congruence).
  destruct C as [->|(_ & -> & ->)]; [apply (IH k u x t1); try assumption; exact (late_of_tok _ _ _ H3)|]. now repeat split.
Qed.
Lemma late_nab : late_tok next_after_blanks.
Proof. intros k t x t1 G L Lt E. exact (late_skip _ k t x t1 G L Lt E). Qed.
Lemma late_tokT : forall m, late_tok m -> lateT m.
Proof. intros m H k t x t1 G L Lt E. destruct (H k t x t1 G L Lt E) as (A & B & C). split; [exact A|]. split; [exact B|exact (late_of_tok _ _ _ C)]. Qed.
Lemma late_repeek : forall m, late_tok m -> lateT (fun t => bindR (m t) (fun x => Done (Ok (fst x, with_peeked (snd x) (tk_peeked (snd x) ++ [fst x]))))).
Proof.
  intros m H k t x t1 G L Lt E. destruct (m t) as [[[y u]|e]|kd|] eqn:Em; cbn [bindR bind fst snd] in E; try discriminate E.
  destruct (H k t y u G L Lt Em) as (H1 & H2 & H3). assert (t1 = with_peeked u (tk_peeked u ++ [y])) as -> by congruence. clear E.
  destruct H3 as [(-> & D1 & D2 & D3 & D4)|(C & Ep & Hl)].
  - assert (D : ended (with_peeked u (tk_peeked u ++ [T_End]))).
    { split; [exact D1|]. split; [exact D2|]. split; [exact D3|]. cbn. apply Forall_app. split; [exact D4|]. constructor; [reflexivity|constructor]. }
    split; [now left|]. split; [exact H2|now left].
  - rewrite Ep. cbn [app]. split; [|split; [exact H2|]].
    + right. cbn [with_peeked tk_peeked tk_line length]. split; [lia|]. split; [intros [X|[]]; now apply C|]. lia.
    + right. unfold pend. cbn [with_peeked tk_peeked existsb tk_line]. destruct (eol y); cbn [orb]; lia.
Qed.
Lemma late_peek : lateT peek. Proof. exact (late_repeek next late_next). Qed.
Lemma late_pab : lateT peek_after_blanks. Proof. exact (late_repeek next_after_blanks late_nab). Qed.
Lemma late_unwrap : forall m : T token, lateT m -> lateT (fun t => let! r := m t in match r with Ok x => Done (Ok x) | Err _ => Panic PUnwrap end).
Proof. intros m H k t x t1 G L Lt E. apply (H k t x t1 G L Lt). destruct (m t) as [[y|e]|kd|]; cbn [bind] in E; try discriminate E. congruence. Qed.
Lemma late_ret : forall A (a : A), lateT (retT a).
Proof. intros A a k t x t1 G L Lt E. unfold retT in E. assert (t = t1) as <- by congruence. now repeat split. Qed.
Lemma late_fail : forall A e, @lateT A (failT e).
Proof. intros A e k t x t1 G L Lt E. discriminate E. Qed.
Lemma late_panic : forall A k, @lateT A (fun _ => Panic k).
Proof. intros A kd k t x t1 G L Lt E. discriminate E. Qed.
Lemma late_diverge : forall A, @lateT A (fun _ => Diverge).
Proof. intros A k t x t1 G L Lt E. discriminate E. Qed.
Lemma late_try : forall A (r : result A zone_err), lateT (tryT r).
Proof. intros A [a|e]; [apply late_ret|apply late_fail]. Qed.
Lemma late_bind : forall A B (m : T A) (k : A -> T B), lateT m -> (forall x, lateT (k x)) -> lateT (bindTk m k).
Proof.
  intros A B m k Hm Hk n t b t1 G L Lt E. unfold bindTk in E. destruct (m t) as [[[x u]|e]|kd|] eqn:Em; cbn [bindR bind fst snd] in E; try discriminate E.
  destruct (Hm n t x u G L Lt Em) as (G1 & L1 & Lt1). exact (Hk x n u b t1 G1 L1 Lt1 E).
Qed.
Lemma late_close : forall A tk (a : A), lateT (close_line tk a).
Proof. intros A tk a. destruct tk; first [apply late_ret|apply late_fail]. Qed.
Ltac latet := repeat match goal with
  | |- lateT (bindTk _ _) => apply late_bind; [|intros ?; cbv beta]
  | |- lateT (retT _) => apply late_ret
  | |- lateT (failT _) => apply late_fail
  | |- lateT (fun _ => Panic _) => apply late_panic
  | |- lateT (fun _ => Diverge) => apply late_diverge
  | |- lateT (tryT _) => apply late_try
  | |- lateT next => apply (late_tokT next late_next)
  | |- lateT next_unwrap => apply (late_unwrap next (late_tokT next late_next))
  | |- lateT next_after_blanks => apply (late_tokT _ late_nab)
  | |- lateT next_after_blanks_unwrap => apply (late_unwrap next_after_blanks (late_tokT _ late_nab))
  | |- lateT peek => apply late_peek
  | |- lateT peek_after_blanks => apply late_pab
  | |- lateT (close_line _ _) => apply late_close
  | |- lateT (let _ := _ in _) => cbv zeta
  | |- lateT (match ?x with _ => _ end) => destruct x
  end.
Lemma late_ttl_class : lateT parse_ttl_class. Proof. unfold parse_ttl_class. latet. Qed.
Lemma late_discard : forall fuel, lateT (discard_strings fuel). Proof. induction fuel; cbn [discard_strings]; latet. exact IHfuel. Qed.
Lemma late_txts : forall fuel acc, lateT (parse_txts fuel acc). Proof. induction fuel as [|fuel IH]; intros acc; cbn [parse_txts]; latet; apply IH. Qed.
Lemma late_name_token : forall o, lateT (parse_name_token o). Proof. intros. unfold parse_name_token. latet. Qed.
Lemma late_number : lateT parse_number. Proof. unfold parse_number. latet. Qed.
Lemma late_a : forall n c t, lateT (parse_a_record n c t). Proof. intros. unfold parse_a_record. latet. Qed.
Lemma late_ns : forall o n c t, lateT (parse_ns_record o n c t). Proof. intros. unfold parse_ns_record. latet. apply late_name_token. Qed.
Lemma late_data : forall fuel rt o n c t, lateT (parse_record_data fuel rt o n c t).
Proof.
  intros. destruct rt; cbn [parse_record_data]; try apply late_a; try apply late_ns; latet.
  - unfold parse_cname_record. latet.
  - unfold parse_wks_record. latet; apply late_discard.
  - unfold parse_ptr_record. latet.
  - unfold parse_hinfo_record. latet.
  - unfold parse_mx_record. latet; apply late_name_token.
  - unfold parse_txt_record. latet. apply late_txts.
Qed.
Lemma late_soa : forall o n c t, lateT (parse_soa_record o n c t).
Proof. intros. unfold parse_soa_record. latet; try apply late_name_token; apply late_number. Qed.
