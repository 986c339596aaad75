(** Lemmas about the zone file loader: what a successful run guarantees. *)
From Coq Require Import Permutation.
From Verif Require Import Base Types Name NameSpec NameProofs PropName Codec CodecSpec Zone ZoneSpec ZoneProofs
  Tokens Parser NsSpec PropNs LoadSpec PropCodec3.

(** Tokens whose numbers fit 32 bits; states whose peeked tokens do. *)
Definition token_ok (t : token) : Prop := match t with T_Number n => is_u32 n | _ => True end.
Definition tok_ok (t : tok) : Prop := Forall token_ok (tk_peeked t).

Definition post {A} (m : T A) (Q : A -> Prop) : Prop :=
  forall t x t', tok_ok t -> m t = Done (Ok (x, t')) -> tok_ok t' /\ Q x.

Lemma post_ret : forall A (a : A) (Q : A -> Prop), Q a -> post (retT a) Q.
Proof. intros A a Q H t x t' Ht E. unfold retT in E. assert (x = a /\ t' = t) as [-> ->] by (split; congruence). now split. Qed.
Lemma post_fail : forall A e (Q : A -> Prop), post (failT e) Q.
Proof. intros A e Q t x t' _ E. discriminate E. Qed.
Lemma post_panic : forall A k (Q : A -> Prop), post (fun _ => Panic k) Q.
Proof. intros A k Q t x t' _ E. discriminate E. Qed.
Lemma post_diverge : forall A (Q : A -> Prop), post (fun _ => Diverge) Q.
Proof. intros A Q t x t' _ E. discriminate E. Qed.
Lemma post_bind : forall A B (m : T A) (k : A -> T B) (P : A -> Prop) (Q : B -> Prop),
  post m P -> (forall x, P x -> post (k x) Q) -> post (bindTk m k) Q.
Proof.
  intros A B m k P Q Hm Hk t x t' Ht E. unfold bindTk in E.
  apply bindR_inv in E as ((y & t1) & E1 & E2). cbn [fst snd] in E2.
  destruct (Hm _ _ _ Ht E1) as (Ht1 & Py). exact (Hk y Py _ _ _ Ht1 E2).
Qed.
Lemma post_try : forall A (r : result A zone_err) (Q : A -> Prop), (forall a, r = Ok a -> Q a) -> post (tryT r) Q.
Proof.
  intros A r Q H t x t' Ht E. unfold tryT in E. destruct r as [a|e]; [|discriminate].
  assert (x = a /\ t' = t) as [-> ->] by (split; congruence). split; [assumption|now apply H].
Qed.
Lemma post_try_bind : forall A B (r : result A zone_err) (k : A -> T B) (Q : B -> Prop),
  (forall a, r = Ok a -> post (k a) Q) -> post (bindTk (tryT r) k) Q.
Proof.
  intros A B r k Q H t x t' Ht E. unfold bindTk, tryT in E. destruct r as [a|e]; [|discriminate].
  cbn [bindR fst snd] in E. exact (H a eq_refl _ _ _ Ht E).
Qed.
Lemma post_check : forall B (r : result unit zone_err) (k : T B) (Q : B -> Prop),
  (r = Ok tt -> post k Q) -> post (bindTk (tryT r) (fun _ => k)) Q.
Proof. intros B r k Q H. apply post_try_bind. intros [] E. auto. Qed.
Lemma post_weaken : forall A (m : T A) (P Q : A -> Prop), post m P -> (forall x, P x -> Q x) -> post m Q.
Proof. intros A m P Q Hm H t x t' Ht E. destruct (Hm _ _ _ Ht E). auto. Qed.

Lemma parse_u32_ok : forall s n, parse_u32 s = Some n -> is_u32 n.
Proof.
  assert (D : forall s n, parse_digits s = Some n -> is_u32 n).
  { intros [|c s] n E; [discriminate|]. unfold parse_digits in E.
    destruct (digits_value 0 (c :: s)) as [v|]; [|discriminate].
    destruct (v <? 4294967296)%N eqn:L; [|discriminate]. apply N.ltb_lt in L. unfold is_u32. congruence. }
  intros [|c s] n E; [discriminate|]. unfold parse_u32 in E. destruct (c =? 43)%N; eauto.
Qed.

Lemma next_rec_post : forall fuel t x t', tok_ok t -> next_rec fuel t = Done (Ok (x, t')) -> tok_ok t' /\ token_ok x.
Proof.
  induction fuel as [|fuel IH]; intros t x t' Ht E; [discriminate|]. cbn [next_rec] in E.
  destruct (bootstrap t) as [[t1|[y t1]]|e] eqn:Eb; [| |discriminate].
  2:{ assert (y = x /\ t1 = t') as [-> ->] by (split; congruence). clear E. unfold bootstrap in Eb.
      destruct (tk_line t =? 0); [|discriminate].
      destruct (load_new_line _ _) as [[[[l|] f] n]|e]; [discriminate| |discriminate].
      destruct (tk_multi t); [discriminate|].
      assert (x = T_End /\ t' = mkTok f (tk_cur t) (tk_peeked t) false n) as [-> ->] by (split; congruence).
      now split. }
  assert (Ht1 : tok_ok t1).
  { unfold bootstrap in Eb. destruct (tk_line t =? 0).
    - destruct (load_new_line _ _) as [[[[l|] f] n]|e]; [|destruct (tk_multi t); discriminate|discriminate].
      assert (t1 = mkTok f l (tk_peeked t) (tk_multi t) n) as -> by congruence. exact Ht.
    - assert (t1 = t) as -> by congruence. exact Ht. }
  clear Eb Ht t. rename t1 into t, Ht1 into Ht.
  destruct (fetch t) as [[tk t1|t1]|e] eqn:Ef; [| |discriminate].
  - assert (tk = x /\ t1 = t') as [-> ->] by (split; congruence). clear E. unfold fetch in Ef.
    unfold tok_ok in *. destruct (tk_peeked t) as [|q ps] eqn:Ep.
    + destruct (tk_cur t); [|discriminate].
      destruct (load_new_line _ _) as [[[[l|] f] n]|e]; [| |discriminate].
      * destruct (tk_multi t); [discriminate|].
        assert (x = T_NewLine /\ t' = mkTok f l [] false n) as [-> ->] by (split; congruence). now split.
      * destruct (tk_multi t); [discriminate|].
        assert (x = T_End /\ t' = mkTok f [] [] false n) as [-> ->] by (split; congruence). now split.
    + assert (x = q /\ t' = with_peeked t ps) as [-> ->] by (split; congruence).
      inversion Ht; subst. now split.
  - assert (Ht1 : tk_peeked t1 = []).
    { unfold fetch in Ef. destruct (tk_peeked t) as [|q ps] eqn:Ep; [|discriminate].
      destruct (tk_cur t).
      - destruct (load_new_line _ _) as [[[[l|] f] n]|e]; [| |discriminate]; destruct (tk_multi t); try discriminate.
        assert (t1 = mkTok f l [] true n) as -> by congruence. reflexivity.
      - assert (t1 = t) as -> by congruence. assumption. }
    clear Ef Ht t. rename t1 into t. 
    destruct (tk_cur t) as [|ch cur]; [discriminate|].
    assert (P : forall c, tok_ok (with_cur t c)) by (intro c; unfold tok_ok, with_cur; cbn [tk_peeked]; rewrite Ht1; constructor).
    assert (Pm : forall c m, tok_ok (with_multi t c m)) by (intros c m; unfold tok_ok, with_multi; cbn [tk_peeked]; rewrite Ht1; constructor).
    destruct ((ch =? 32) || (ch =? 9))%N.
    { assert (x = T_Blank /\ t' = with_cur t (skip_ws (ch :: cur))) as [-> ->] by (split; congruence). split; [apply P|exact I]. }
    destruct (ch =? 36)%N eqn:E36.
    { unfold process_directive in E. rewrite E36 in E. cbn [assert_] in E.
      destruct (word_loop _ _ _) as [[[d c]|e]| |]; try discriminate. cbn [bind] in E.
      destruct (bytes_eqb _ _).
      { assert (x = T_OriginDir /\ t' = with_cur t c) as [-> ->] by (split; congruence). split; [apply P|exact I]. }
      destruct (bytes_eqb _ _); [|discriminate].
      assert (x = T_IncludeDir /\ t' = with_cur t c) as [-> ->] by (split; congruence). split; [apply P|exact I]. }
    destruct (ch =? 34)%N eqn:E34.
    { unfold process_quoted_string in E. rewrite E34 in E. cbn [assert_] in E.
      destruct (quote_loop _ _ _) as [[[[cl s] c]|e]| |]; try discriminate. cbn [bind] in E.
      destruct cl; [|discriminate].
      assert (x = T_QString (utf8_encode s) /\ t' = with_cur t c) as [-> ->] by (split; congruence). split; [apply P|exact I]. }
    destruct (ch =? 40)%N. { destruct (tk_multi t); [discriminate|]. exact (IH _ _ _ (Pm _ _) E). }
    destruct (ch =? 41)%N. { destruct (tk_multi t); [|discriminate]. exact (IH _ _ _ (Pm _ _) E). }
    destruct (ch =? 59)%N. { exact (IH _ _ _ (P _) E). }
    unfold process_string_or_number in E.
    destruct (word_loop _ _ _) as [[[d c]|e]| |]; try discriminate. cbn [bind] in E.
    destruct (bytes_eqb _ _).
    { assert (x = T_At /\ t' = with_cur t c) as [-> ->] by (split; congruence). split; [apply P|exact I]. }
    destruct (parse_u32 (utf8_encode d)) as [n|] eqn:En.
    + assert (x = T_Number n /\ t' = with_cur t c) as [-> ->] by (split; congruence). split; [apply P|]. exact (parse_u32_ok _ _ En).
    + assert (x = T_String (utf8_encode d) /\ t' = with_cur t c) as [-> ->] by (split; congruence). split; [apply P|exact I].
Qed.

Lemma post_next : post next token_ok.
Proof.
  intros t x t' Ht E. unfold next in E. generalize dependent (S (tok_size t)); intros fuel E.
  destruct (next_rec fuel t) as [[[y u]|e]| |] eqn:En; try discriminate. cbn [bind] in E.
  assert (y = x /\ u = t') as [-> ->] by (split; congruence). exact (next_rec_post _ _ _ _ Ht En).
Qed.
Lemma post_skip_blanks : forall fuel, post (skip_blanks fuel) token_ok.
Proof.
  induction fuel as [|fuel IH]; [apply post_diverge|]. cbn [skip_blanks]. eapply post_bind; [apply post_next|].
  intros x Hx. destruct x; try (apply post_ret; exact Hx). apply IH.
Qed.
Lemma post_next_after_blanks : post next_after_blanks token_ok.
Proof. intros t x t' Ht E. exact (post_skip_blanks _ _ _ _ Ht E). Qed.
Lemma post_repeek : forall m, post m token_ok ->
  post (fun t => bindR (m t) (fun x => Done (Ok (fst x, with_peeked (snd x) (tk_peeked (snd x) ++ [fst x]))))) token_ok.
Proof.
  intros m Hm t x t' Ht E. apply bindR_inv in E as ((y & u) & E1 & E2). cbn [fst snd] in E2.
  destruct (Hm _ _ _ Ht E1) as (Hu & Hy).
  assert (x = y /\ t' = with_peeked u (tk_peeked u ++ [y])) as [-> ->] by (split; congruence).
  split; [|assumption]. apply Forall_app. split; [exact Hu|now constructor].
Qed.
Lemma post_peek : post peek token_ok.
Proof. exact (post_repeek next post_next). Qed.
Lemma post_peek_after_blanks : post peek_after_blanks token_ok.
Proof. exact (post_repeek next_after_blanks post_next_after_blanks). Qed.
Lemma post_unwrap : forall m, post m token_ok ->
  post (fun t => let! r := m t in match r with Ok x => Done (Ok x) | Err _ => Panic PUnwrap end) token_ok.
Proof.
  intros m Hm t x t' Ht E. destruct (m t) as [[[y u]|e]| |] eqn:En; try discriminate. cbn [bind] in E.
  assert (y = x /\ u = t') as [-> ->] by (split; congruence). exact (Hm _ _ _ Ht En).
Qed.
Lemma post_next_unwrap : post next_unwrap token_ok.
Proof. exact (post_unwrap next post_next). Qed.
Lemma post_next_after_blanks_unwrap : post next_after_blanks_unwrap token_ok.
Proof. exact (post_unwrap next_after_blanks post_next_after_blanks). Qed.
Global Hint Resolve post_next post_next_after_blanks post_peek post_peek_after_blanks post_next_unwrap
  post_next_after_blanks_unwrap post_fail post_panic post_diverge : post.

(** The names *)
Lemma from_string_accepted : forall s n, name_from_string s = Ok n -> accepted n.
Proof.
  intros s n E. unfold name_from_string in E. destruct (validate_name s) eqn:V; [|discriminate].
  assert (n = s) as -> by congruence. apply accepted_b. now rewrite V.
Qed.
Lemma name_or_err_ok : forall s n, name_or_err s = Ok n -> accepted n.
Proof. intros s n E. unfold name_or_err in E. destruct (name_from_string s) eqn:V; [|discriminate]. apply (from_string_accepted s). congruence. Qed.
Lemma adjust_ok : forall o s n, accepted o -> adjust_name o s = Ok n -> accepted n.
Proof.
  intros o s n Ho E. unfold adjust_name in E. destruct (bytes_eqb s [64%N]); [congruence|].
  destruct (name_from_string _) eqn:V; [|discriminate]. eapply from_string_accepted. rewrite V. congruence.
Qed.

(** parse_ttl_class *)
Lemma class_ok : forall cl, ensure_class_is_supported cl = Ok tt -> cl = C_IN.
Proof. intros [] E; try discriminate E; reflexivity. Qed.

Lemma post_ttl_class : post parse_ttl_class (fun x => match fst x with Some n => is_u32 n | None => True end).
Proof.
  unfold parse_ttl_class. eapply post_bind; [eauto with post|]. intros x Hx.
  destruct x; cbv beta iota; auto with post.
  - destruct (class_from_string s); [|apply post_ret; exact I].
    eapply post_bind; [eauto with post|]. intros y _. eapply post_bind; [eauto with post|]. intros z Hz.
    destruct z; cbn [try_to_ttl]; try (apply post_ret; exact I).
    eapply post_bind; [eauto with post|]. intros w _. apply post_ret. exact Hz.
  - eapply post_bind; [eauto with post|]. intros y _. eapply post_bind; [eauto with post|]. intros z _.
    destruct (try_to_class z); [|apply post_ret; exact Hx].
    eapply post_bind; [eauto with post|]. intros w _. apply post_ret. exact Hx.
Qed.

(** Record data *)
Lemma octet_ok : forall s n, parse_octet s = Some n -> is_byte n.
Proof.
  intros s n E. unfold parse_octet in E. destruct (3 <? length s); [discriminate|].
  destruct (match s with c :: _ :: _ => _ | _ => _ end); [discriminate|].
  destruct (parse_digits s) as [v|]; [|discriminate]. destruct (v <? 256)%N eqn:L; [|discriminate].
  apply N.ltb_lt in L. unfold is_byte. congruence.
Qed.
Lemma ipv4_ok : forall s a, parse_ipv4 s = Some a -> address_ok a.
Proof.
  intros s x E. unfold parse_ipv4 in E. destruct (split DOT s) as [|a [|b [|c [|d [|]]]]]; try discriminate.
  destruct (parse_octet a) eqn:Ea; [|discriminate]. destruct (parse_octet b) eqn:Eb; [|discriminate].
  destruct (parse_octet c) eqn:Ec; [|discriminate]. destruct (parse_octet d) eqn:Ed; [|discriminate].
  assert (x = [n; n0; n1; n2]) as -> by congruence. apply octet_ok in Ea, Eb, Ec, Ed.
  unfold address_ok. split; [repeat (constructor; try assumption)|reflexivity].
Qed.
Lemma char_string_ok : forall t s, parse_char_string t = Ok s -> is_bytes s.
Proof.
  assert (H : forall q s, is_valid_character_string s q = true -> is_bytes s).
  { intros q s E. unfold is_valid_character_string in E. destruct q; rewrite forallb_forall in E; apply Forall_forall;
      intros c Hc; specialize (E c Hc); unfold is_byte.
    - apply N.ltb_lt in E. lia.
    - apply andb_prop in E as (E & _). apply N.ltb_lt in E. lia. }
  intros [| |s'|s'|n| | | |] s E; try discriminate E; cbn [parse_char_string] in E.
  - destruct (is_valid_character_string s' true) eqn:V; [|discriminate]. apply (H true). congruence.
  - destruct (is_valid_character_string s' false) eqn:V; [|discriminate]. apply (H false). congruence.
Qed.

Definition made (node : name) (cl : class) (ttl : N) (P : record -> Prop) (r : record) : Prop :=
  r_node r = node /\ r_class r = cl /\ r_ttl r = ttl /\ data_fine (r_data r) /\ P r.

Lemma post_a : forall node cl ttl, post (parse_a_record node cl ttl) (made node cl ttl (fun r => record_type r = RT_A)).
Proof.
  intros. unfold parse_a_record. eapply post_bind; [eauto with post|]. intros x _. destruct x; cbv beta iota; auto with post.
  destruct (parse_ipv4 s) as [a|] eqn:E; [|auto with post]. apply post_ret. repeat split; cbn [r_data data_fine]. all: try (eapply ipv4_ok; exact E).
Qed.
Lemma post_name_token : forall o, accepted o -> post (parse_name_token o) accepted.
Proof.
  intros o Ho. unfold parse_name_token. eapply post_bind; [eauto with post|]. intros x _. destruct x; cbv beta iota; auto with post.
  apply post_try. intros a E. eapply adjust_ok; eassumption.
Qed.
Lemma post_ns : forall o node cl ttl, accepted o -> post (parse_ns_record o node cl ttl) (made node cl ttl (fun r => record_type r = RT_NS)).
Proof.
  intros. unfold parse_ns_record. eapply post_bind; [apply post_name_token; assumption|]. intros x Hx.
  apply post_ret. now repeat split.
Qed.
Lemma post_number : post parse_number is_u32.
Proof. unfold parse_number. eapply post_bind; [eauto with post|]. intros x Hx. destruct x; cbv beta iota; auto with post. now apply post_ret. Qed.
Lemma post_soa : forall o node cl ttl, accepted o ->
  post (parse_soa_record o node cl ttl) (made node cl ttl (fun r => record_type r = RT_SOA)).
Proof.
  intros. unfold parse_soa_record.
  do 2 (eapply post_bind; [apply post_name_token; assumption|]; intros ? ?).
  do 5 (eapply post_bind; [apply post_number|]; intros ? ?).
  apply post_ret. now repeat split.
Qed.
Lemma post_discard : forall fuel, post (discard_strings fuel) (fun _ => True).
Proof.
  induction fuel as [|fuel IH]; [apply post_diverge|]. cbn [discard_strings].
  eapply post_bind; [eauto with post|]. intros x _. destruct x; cbv beta iota; auto with post; try (now apply post_ret).
  eapply post_bind; [eauto with post|]. intros _ _. apply IH.
Qed.
Lemma post_wks : forall fuel node cl ttl, post (parse_wks_record fuel node cl ttl) (made node cl ttl (fun r => record_type r = RT_WKS)).
Proof.
  intros. unfold parse_wks_record. eapply post_bind; [eauto with post|]. intros x _.
  apply post_bind with (P := address_ok).
  { destruct x; cbv beta iota; auto with post. destruct (parse_ipv4 s) eqn:E; [|auto with post]. apply post_ret. eapply ipv4_ok; exact E. }
  intros a Ha. eapply post_bind; [eauto with post|]. intros y _.
  apply post_bind with (P := is_byte).
  { destruct y; cbv beta iota; auto with post. destruct (bytes_eqb _ _); [apply post_ret; unfold is_byte; lia|].
    destruct (bytes_eqb _ _); [apply post_ret; unfold is_byte; lia|auto with post]. }
  intros pr Hpr. eapply post_bind; [apply post_discard|]. intros _ _. apply post_ret.
  repeat split; cbn [r_data data_fine]; try assumption; try constructor; try apply Ha.
Qed.
Lemma post_cname : forall o node cl ttl, accepted o ->
  post (parse_cname_record o node cl ttl) (made node cl ttl (fun r => record_type r = RT_CNAME)).
Proof.
  intros. unfold parse_cname_record. eapply post_bind; [eauto with post|]. intros x _.
  apply post_bind with (P := accepted).
  - destruct x; cbv beta iota; auto with post; try (now apply post_ret). apply post_try. intros a E. eapply adjust_ok; eassumption.
  - intros n Hn. apply post_ret. now repeat split.
Qed.
Lemma post_ptr : forall node cl ttl, post (parse_ptr_record node cl ttl) (made node cl ttl (fun r => record_type r = RT_PTR)).
Proof.
  intros. unfold parse_ptr_record. eapply post_bind; [eauto with post|]. intros x _. destruct x; cbv beta iota; auto with post.
  eapply post_bind; [now apply post_try with (Q := fun _ => True)|]. intros _ _.
  eapply post_bind; [apply post_try; intros a E; exact (name_or_err_ok _ _ E)|]. intros n Hn. apply post_ret. now repeat split.
Qed.
Lemma post_hinfo : forall node cl ttl, post (parse_hinfo_record node cl ttl) (made node cl ttl (fun r => record_type r = RT_HINFO)).
Proof.
  intros. unfold parse_hinfo_record. eapply post_bind; [eauto with post|]. intros x _.
  eapply post_bind; [apply post_try; intros a E; exact (char_string_ok _ _ E)|]. intros c Hc.
  eapply post_bind; [eauto with post|]. intros y _.
  eapply post_bind; [apply post_try; intros a E; exact (char_string_ok _ _ E)|]. intros o Ho.
  apply post_ret. now repeat split.
Qed.
Lemma post_mx : forall o node cl ttl, accepted o -> post (parse_mx_record o node cl ttl) (made node cl ttl (fun r => record_type r = RT_MX)).
Proof.
  intros. unfold parse_mx_record. eapply post_bind; [eauto with post|]. intros x _.
  apply post_bind with (P := is_u16).
  - destruct x; cbv beta iota; auto with post. destruct (n <? 65536)%N eqn:L; [|auto with post]. apply post_ret. now apply N.ltb_lt.
  - intros pr Hpr. eapply post_bind; [apply post_name_token; assumption|]. intros n Hn. apply post_ret. now repeat split.
Qed.
Lemma post_txts : forall fuel acc, Forall is_bytes acc -> post (parse_txts fuel acc) (Forall is_bytes).
Proof.
  induction fuel as [|fuel IH]; intros acc Ha; [apply post_diverge|]. cbn [parse_txts].
  eapply post_bind; [eauto with post|]. intros x _.
  assert (R : post (tk! _ := next_after_blanks_unwrap in tk! s := tryT (parse_char_string x) in parse_txts fuel (acc ++ [s])) (Forall is_bytes)).
  { eapply post_bind; [eauto with post|]. intros _ _.
    eapply post_bind; [apply post_try; intros a E; exact (char_string_ok _ _ E)|]. intros s Hs.
    apply IH. apply Forall_app. now repeat constructor. }
  destruct x; try exact R; now apply post_ret.
Qed.
Lemma post_txt : forall fuel node cl ttl, post (parse_txt_record fuel node cl ttl) (made node cl ttl (fun r => record_type r = RT_TXT)).
Proof.
  intros. unfold parse_txt_record. eapply post_bind; [apply post_txts; constructor|]. intros x Hx. apply post_ret. now repeat split.
Qed.

Lemma post_data : forall fuel rt o node cl ttl, accepted o ->
  post (parse_record_data fuel rt o node cl ttl) (made node cl ttl (fun r => record_type r = rt /\ usable_type rt /\ rt <> RT_SOA)).
Proof.
  assert (W : forall m node cl ttl rt, (usable_type rt /\ rt <> RT_SOA) -> post m (made node cl ttl (fun r => record_type r = rt)) ->
    post m (made node cl ttl (fun r => record_type r = rt /\ usable_type rt /\ rt <> RT_SOA))).
  { intros m node cl ttl rt H Hm. eapply post_weaken; [exact Hm|]. intros r (H1 & H2 & H3 & H4 & H5). now repeat split. }
  intros fuel rt o node cl ttl Ho.
  destruct rt; cbn [parse_record_data];
    match goal with
    | |- post (parse_a_record _ _ _) _ => apply W; [|apply post_a]
    | |- post (parse_ns_record _ _ _ _) _ => apply W; [|apply post_ns; exact Ho]
    | |- post (parse_cname_record _ _ _ _) _ => apply W; [|apply post_cname; exact Ho]
    | |- post (parse_wks_record _ _ _ _) _ => apply W; [|apply post_wks]
    | |- post (parse_ptr_record _ _ _) _ => apply W; [|apply post_ptr]
    | |- post (parse_hinfo_record _ _ _) _ => apply W; [|apply post_hinfo]
    | |- post (parse_mx_record _ _ _ _) _ => apply W; [|apply post_mx; exact Ho]
    | |- post (parse_txt_record _ _ _ _) _ => apply W; [|apply post_txt]
    | |- post (failT _) _ => apply post_fail
    | |- post (fun _ => Panic _) _ => apply post_panic
    end; (split; [unfold usable_type; tauto|discriminate]).
Qed.

(** The parser of authoritative zones *)
Definition placed (s : pstate) (o : name) : Prop :=
  accepted o /\ within o (ps_zone s) /\ (o = ps_zone s \/ Forall (fun z => ~ within o z) (ps_subs s)).
Definition rec_ok (s : pstate) (r : record) : Prop :=
  record_fine r /\ usable_type (record_type r) /\ record_type r <> RT_SOA /\ placed s (r_node r) /\ (ps_min s <= r_ttl r)%N.
Definition entry_ok (s : pstate) (e : zone_entry) : Prop :=
  match e with ZOrigin o | ZInclude _ o => placed s o | ZRecord r => rec_ok s r end.
Definition ps_ok (s : pstate) : Prop :=
  apex_ok (ps_zone s) /\ Forall apex_ok (ps_subs s) /\ placed s (ps_orig s) /\ is_u32 (ps_ttl s).

Lemma in_auth_placed : forall s n, accepted n -> apex_ok (ps_zone s) -> Forall apex_ok (ps_subs s) ->
  ensure_name_in_auth_zone n (ps_zone s) (ps_subs s) = Ok tt -> placed s n.
Proof.
  intros s n Hn Hz Hs E. unfold ensure_name_in_auth_zone, is_only_in_auth_zone in E.
  destruct (is_in_zone n (ps_zone s)) eqn:E1; [|discriminate]. cbn [negb] in E.
  destruct (existsb (fun z => is_in_zone n z) (ps_subs s)) eqn:E2; [discriminate|].
  split; [assumption|]. split; [now apply within_ok|]. right.
  apply Forall_forall. intros z Hi. rewrite Forall_forall in Hs. apply within_false; auto.
  destruct (is_in_zone n z) eqn:E3; [|reflexivity]. exfalso.
  rewrite <- Bool.not_true_iff_false in E2. apply E2. apply existsb_exists. now exists z.
Qed.

Lemma post_close : forall A tk (a : A) (Q : A -> Prop), Q a -> post (close_line tk a) Q.
Proof. intros A tk a Q H. unfold close_line. destruct tk; auto with post; now apply post_ret. Qed.

Lemma unit_ok : forall (r : result unit zone_err) a, r = Ok a -> r = Ok tt.
Proof. now intros r []. Qed.

Lemma post_origin : forall s, ps_ok s -> post (parse_origin s) (entry_ok s).
Proof.
  intros s (Hz & Hs & Ho & Ht) t x t' Htok E. unfold parse_origin in E.
  destruct (next t) as [[[tk t1]|e]| |] eqn:En; try discriminate; cbn [bind] in E. 
  destruct (post_next _ _ _ Htok En) as (Ht1 & _). destruct tk; try discriminate. revert Ht1 E. generalize t1 as u. intros u Hu E.
  revert u x t' Hu E. 
  match goal with |- forall u x t', _ -> ?m u = _ -> _ => change (post m (entry_ok s)) end.
  eapply post_bind; [eauto with post|]. intros x _. destruct x; cbv beta iota; auto with post.
  eapply post_bind; [now apply post_try with (Q := fun _ => True)|]. intros _ _.
  apply post_try_bind. intros n Hn. apply name_or_err_ok in Hn.
  apply post_check. intros Hp.
  eapply post_bind; [eauto with post|]. intros nl _. apply post_close. now apply in_auth_placed.
Qed.

Lemma post_include : forall s, ps_ok s -> post (parse_include s) (entry_ok s).
Proof.
  intros s (Hz & Hs & Ho & Ht) t x t' Htok E. unfold parse_include in E.
  destruct (next t) as [[[tk t1]|e]| |] eqn:En; try discriminate; cbn [bind] in E. 
  destruct (post_next _ _ _ Htok En) as (Ht1 & _). destruct tk; try discriminate. revert Ht1 E. generalize t1 as u. intros u Hu E.
  revert u x t' Hu E. 
  match goal with |- forall u x t', _ -> ?m u = _ -> _ => change (post m (entry_ok s)) end.
  eapply post_bind; [eauto with post|]. intros x _.
  apply post_bind with (P := fun _ => True).
  { destruct x; auto with post; now apply post_ret. }
  intros path _. eapply post_bind; [eauto with post|]. intros d _.
  destruct d; cbv beta iota; try (apply post_close; exact Ho).
  eapply post_bind; [eauto with post|]. intros d' _.
  apply post_try_bind. intros n Hn. apply adjust_ok in Hn; [|exact (proj1 Ho)].
  apply post_check. intros Hp.
  apply post_close. now apply in_auth_placed.
Qed.

Lemma post_record : forall fuel s, ps_ok s -> post (parse_record fuel s) (entry_ok s).
Proof.
  intros fuel s (Hz & Hs & Ho & Ht) t x t' Htok E. unfold parse_record in E.
  destruct (next t) as [[[tk t1]|e]| |] eqn:En; try discriminate; cbn [bind] in E. 
  destruct (post_next _ _ _ Htok En) as (Ht1 & _). clear En. revert t1 x t' Ht1 E.
  match goal with |- forall u x t', _ -> ?m u = _ -> _ => change (post m (entry_ok s)) end.
  apply post_bind with (P := placed s).
  { destruct tk; auto with post; try (now apply post_ret).
    apply post_try_bind. intros n Hn. apply adjust_ok in Hn; [|exact (proj1 Ho)].
    apply post_check. intros Hp.
    apply post_ret. now apply in_auth_placed. }
  intros node Hnode. eapply post_bind; [apply post_ttl_class|]. intros [ottl ocl] Httl. cbn [fst snd] in Httl |- *.
  cbv zeta. set (ttl := unwrap_or ottl (ps_ttl s)) in *. set (cl := unwrap_or ocl C_IN) in *.
  assert (Hu : is_u32 ttl) by (unfold ttl; destruct ottl; assumption). clearbody ttl cl.
  apply post_check. intros Hc. apply class_ok in Hc.
  apply post_check. intros Hmin.
  eapply post_bind; [eauto with post|]. intros ty _. destruct ty; cbv beta iota; auto with post.
  destruct (rtype_from_str s0) as [rt|]; [|auto with post]. destruct (negb _); [auto with post|].
  eapply post_bind; [apply post_data; exact (proj1 Ho)|]. intros r (R1 & R2 & R3 & R4 & R5 & R6 & R7).
  eapply post_bind; [eauto with post|]. intros nx _. apply post_close. cbn [entry_ok]. unfold rec_ok, record_fine.
  rewrite R1, R2, R3, R5. unfold ensure_min_ttl in Hmin. destruct (ps_min s <=? ttl)%N eqn:L; [|discriminate].
  apply N.leb_le in L. destruct Hnode as (N1 & N2). now repeat split.
Qed.

Definition ps_like (s s' : pstate) : Prop := ps_zone s' = ps_zone s /\ ps_subs s' = ps_subs s /\ ps_min s' = ps_min s.
Lemma rec_ok_like : forall s s' r, ps_like s s' -> rec_ok s' r -> rec_ok s r.
Proof. intros s s' r (E1 & E2 & E3). unfold rec_ok, placed. now rewrite E1, E2, E3. Qed.

Lemma parse_entries_built : forall fs fuel s rs acc t z, ps_ok s -> tok_ok t -> built (ps_zone s) rs acc ->
  parse_entries fs fuel s acc t = Done (Ok z) ->
  exists rs', built (ps_zone s) (rs ++ rs') z /\ Forall (rec_ok s) rs'.
Proof.
  intros fs. induction fuel as [|fuel IH]; intros s rs acc t z Hs Ht B E; [discriminate|]. cbn [parse_entries] in E.
  apply bindR_inv in E as ((tk & t1) & Ep & E). destruct (post_peek _ _ _ Ht Ep) as (Ht1 & _).
  assert (C : (tk = T_End /\ acc = z) \/ exists e t2, tok_ok t2 /\ entry_ok s e /\
     match e with
     | ZOrigin o => parse_entries fs fuel (with_orig s o) acc t2
     | ZInclude path o =>
              match fs path with
              | None => Done (Err ZE_ReadingErr)
              | Some f =>
                  bindR (parse_entries fs fuel (mkPS (ps_zone s) (ps_subs s) o (ps_ttl s) (ps_min s))
                           (zone_new (ps_zone s)) (tok_new f)) (fun z =>
                  parse_entries fs fuel s (zone_extend acc z) t2)
              end
     | ZRecord r => parse_entries fs fuel (with_ttl s (r_ttl r)) (zone_insert acc r) t2
     end = Done (Ok z)).
  { destruct tk; try discriminate.
    1,2,3,4,6: apply bindR_inv in E as ((e & t2) & Ee & E); right; exists e, t2;
       first [apply post_origin in Ee|apply post_include in Ee|apply post_record in Ee]; try assumption;
       destruct Ee as (H1 & H2); split; [assumption|split; [assumption|]]; now destruct e.
    left. split; [reflexivity|congruence]. }
  clear E Ep. destruct C as [(-> & <-)|(e & t2 & Ht2 & He & E)].
  { exists []. rewrite app_nil_r. now split. }
  destruct Hs as (Hz & Hsub & Ho & Httl). destruct e as [o|path o|r]; cbn [entry_ok] in He.
  - apply (IH (with_orig s o) rs) in E; [|exact (conj Hz (conj Hsub (conj He Httl)))|exact Ht2|exact B].
    destruct E as (rs' & B' & F). exists rs'. split; [exact B'|]. eapply Forall_impl; [|exact F].
    intros r. now apply rec_ok_like.
  - destruct (fs path) as [f|]; [|discriminate]. apply bindR_inv in E as (zi & Ei & E).
    apply (IH _ []) in Ei; [|exact (conj Hz (conj Hsub (conj He Httl)))|constructor|apply built_new].
    destruct Ei as (ri & Bi & Fi). cbn [ps_zone app] in Bi.
    apply (IH s (rs ++ ri)) in E; [|exact (conj Hz (conj Hsub (conj Ho Httl)))|assumption|eapply built_merge; eassumption].
    destruct E as (rs' & B' & F'). exists (ri ++ rs'). rewrite app_assoc. split; [exact B'|]. apply Forall_app. split; [|exact F'].
    eapply Forall_impl; [|exact Fi]. intros r. now apply rec_ok_like.
  - assert (Hr : is_u32 (r_ttl r)) by apply He.
    apply (IH (with_ttl s (r_ttl r)) (rs ++ [r])) in E;
      [|exact (conj Hz (conj Hsub (conj Ho Hr)))|exact Ht2|now apply built_insert].
    destruct E as (rs' & B' & F). exists (r :: rs'). replace (rs ++ r :: rs') with ((rs ++ [r]) ++ rs') by now rewrite <- app_assoc.
    split; [exact B'|]. constructor; [exact He|]. eapply Forall_impl; [|exact F]. intros r'. now apply rec_ok_like.
Qed.

Lemma post_starting_soa : forall s, apex_ok (ps_zone s) -> is_u32 (ps_ttl s) ->
  post (parse_starting_soa_record s) (fun x =>
    record_fine (fst x) /\ r_node (fst x) = ps_zone s /\ (snd x <= r_ttl (fst x))%N /\
    exists m r a b c d, r_data (fst x) = D_SOA m r a b c d (snd x)).
Proof.
  intros s Hz Ht. unfold parse_starting_soa_record. eapply post_bind; [eauto with post|]. intros x _.
  apply post_bind with (P := accepted).
  { destruct x; auto with post; try (apply post_ret; apply Hz).
    apply post_try; intros a E; exact (adjust_ok _ _ _ (proj1 Hz) E). }
  intros node Hnode. destruct (bytes_eqb node (ps_zone s)) eqn:En; cbn [negb]; [|auto with post].
  apply bytes_eqb_eq in En. subst node.
  eapply post_bind; [apply post_ttl_class|]. intros [ottl ocl] Httl. cbn [fst snd] in Httl |- *.
  destruct ocl as [cl|]; [|auto with post]. cbv zeta. set (ttl := unwrap_or ottl (ps_ttl s)) in *.
  assert (Hu : is_u32 ttl) by (unfold ttl; destruct ottl; assumption). clearbody ttl.
  apply post_check. intros Hc. apply class_ok in Hc.
  eapply post_bind; [eauto with post|]. intros ty _. destruct ty; cbv beta iota; auto with post.
  destruct (rtype_from_str s0) as [rt|]; [|auto with post]. destruct rt; auto with post.
  eapply post_bind; [apply post_soa; exact (proj1 Hz)|]. intros r (R1 & R2 & R3 & R4 & R5).
  destruct (r_data r) as [| | |m rn sr rf rt ex mn| | | | |] eqn:Ed; auto with post.
  apply post_check. intros Hmin.
  eapply post_bind; [eauto with post|]. intros nx _. apply post_close. cbn [fst snd]. unfold record_fine.
  rewrite Ed, R1, R2, R3. unfold ensure_min_ttl in Hmin. rewrite R3 in Hmin. destruct (mn <=? ttl)%N eqn:L; [|discriminate].
  apply N.leb_le in L. repeat split; try assumption; try apply R4.
  now exists m, rn, sr, rf, rt, ex.
Qed.

Lemma parse_auth_built : forall fs fuel c z, params_ok c -> parse_auth_zone_file fs fuel c = Done (Ok z) ->
  exists soa minimum rs, let s := mkPS (p_zone c) (map sp_zone (p_subs c)) (p_zone c) (p_ttl c) minimum in
    built (p_zone c) (rs ++ [soa]) z /\ Forall (rec_ok s) rs /\
    record_fine soa /\ r_node soa = p_zone c /\ (minimum <= r_ttl soa)%N /\
    exists m r a b c d, r_data soa = D_SOA m r a b c d minimum.
Proof.
  intros fs fuel c z (Hz & Ht & Hs) E. unfold parse_auth_zone_file in E. destruct (fs (p_path c)) as [f|]; [|discriminate].
  apply bindR_inv in E as (((soa & minimum) & t) & E1 & E). cbv zeta in E1, E.
  apply post_starting_soa in E1; [|exact Hz|exact Ht|constructor]. cbn [fst snd ps_zone] in E1.
  destruct E1 as (Ht1 & S1 & S2 & S3 & S4).
  apply bindR_inv in E as (z' & E & Ez). assert (z = zone_insert z' soa) as -> by congruence. clear Ez.
  apply (parse_entries_built _ _ _ []) in E; [|split; [exact Hz|]|exact Ht1|apply built_new].
  - destruct E as (rs & B & F). exists soa, minimum, rs. cbv zeta. split; [now apply built_insert|].
    exact (conj F (conj S1 (conj S2 (conj S3 S4)))).
  - cbn [ps_subs ps_zone ps_orig ps_ttl]. assert (W : within (p_zone c) (p_zone c)) by (exists []; reflexivity).
    split; [|split; [split; [apply Hz|split; [exact W|now left]]|exact Ht]].
    apply Forall_map. eapply Forall_impl; [|exact Hs]. now intros a (H & _).
Qed.

(** The parser of sub zones *)
Definition sub_raw_ok (zn : name) (min : N) (r : record) : Prop :=
  record_fine r /\ (min <= r_ttl r)%N /\ within (r_node r) zn /\ (record_type r = RT_NS \/ record_type r = RT_A).

Lemma within_refl : forall z, within z z.
Proof. intros z. exists []. reflexivity. Qed.

Lemma post_sub_record : forall zn ttl0 min, apex_ok zn -> is_u32 ttl0 -> post (parse_sub_record zn ttl0 min) (sub_raw_ok zn min).
Proof.
  intros zn ttl0 min Hz Ht0 t x t' Htok E. unfold parse_sub_record in E.
  destruct (next t) as [[[tk t1]|e]| |] eqn:En; try discriminate; cbn [bind] in E. 
  destruct (post_next _ _ _ Htok En) as (Ht1 & _). clear En. revert t1 x t' Ht1 E.
  match goal with |- forall u x t', _ -> ?m u = _ -> _ => change (post m (sub_raw_ok zn min)) end.
  assert (G : forall n, accepted n -> ensure_name_in_zone n zn = Ok tt -> within n zn).
  { intros n Hn E. unfold ensure_name_in_zone in E. destruct (is_in_zone n zn) eqn:E1; [|discriminate]. now apply within_ok. }
  apply post_bind with (P := fun n => accepted n /\ within n zn).
  { destruct tk; auto with post; try (apply post_ret; split; [apply Hz|apply within_refl]).
    apply post_try_bind. intros n Hn. apply adjust_ok in Hn; [|exact (proj1 Hz)].
    apply post_check. intros Hp.
    apply post_ret. auto. }
  intros node (Hnode & Hw). eapply post_bind; [apply post_ttl_class|]. intros [ottl ocl] Httl. cbn [fst snd] in Httl |- *.
  cbv zeta. set (ttl := unwrap_or ottl ttl0) in *. set (cl := unwrap_or ocl C_IN) in *.
  assert (Hu : is_u32 ttl) by (unfold ttl; destruct ottl; assumption). clearbody ttl cl.
  apply post_check. intros Hc. apply class_ok in Hc.
  apply post_check. intros Hmin.
  eapply post_bind; [eauto with post|]. intros ty _. destruct ty; cbv beta iota; auto with post.
  apply post_bind with (P := made node cl ttl (fun r => record_type r = RT_NS \/ record_type r = RT_A)).
  { destruct (rtype_from_str s) as [rt|]; [|auto with post]. destruct rt; auto with post.
    - eapply post_weaken; [apply post_a|]. intros r (R1 & R2 & R3 & R4 & R5). repeat split; auto.
    - eapply post_bind; [now apply post_try with (Q := fun _ => True)|]. intros _ _.
      eapply post_weaken; [apply post_ns; apply Hz|]. intros r (R1 & R2 & R3 & R4 & R5). repeat split; auto. }
  intros r (R1 & R2 & R3 & R4 & R5).
  eapply post_bind; [eauto with post|]. intros nx _. apply post_close. unfold sub_raw_ok, record_fine.
  rewrite R1, R2, R3. unfold ensure_min_ttl in Hmin. destruct (min <=? ttl)%N eqn:L; [|discriminate].
  apply N.leb_le in L. now repeat split.
Qed.

Lemma parse_sub_entries_built : forall fuel zn ttl min rs acc t z, apex_ok zn -> is_u32 ttl -> tok_ok t -> built zn rs acc ->
  parse_sub_entries fuel zn ttl min acc t = Done (Ok z) ->
  exists rs', built zn (rs ++ rs') z /\ Forall (sub_raw_ok zn min) rs'.
Proof.
  induction fuel as [|fuel IH]; intros zn ttl min rs acc t z Hz Httl Ht B E; [discriminate|]. cbn [parse_sub_entries] in E.
  apply bindR_inv in E as ((tk & t1) & Ep & E). destruct (post_peek _ _ _ Ht Ep) as (Ht1 & _).
  assert (C : (acc = z) \/ exists y, tok_ok (snd y) /\ sub_raw_ok zn min (fst y) /\
     parse_sub_entries fuel zn (r_ttl (fst y)) min (zone_insert acc (fst y)) (snd y) = Done (Ok z)).
  { destruct tk; try discriminate.
    1,2,4: apply bindR_inv in E as ((r & t2) & Ee & E); right; exists (r, t2);
       apply post_sub_record in Ee; try assumption; destruct Ee as (H1 & H2); exact (conj H1 (conj H2 E)).
    left. congruence. }
  clear E Ep. destruct C as [<-|((r & t2) & Ht2 & Hr & E)].
  { exists []. rewrite app_nil_r. now split. }
  cbn [fst snd] in *. apply (IH _ _ _ (rs ++ [r])) in E; try assumption; [|apply Hr|now apply built_insert].
  destruct E as (rs' & B' & F). exists (r :: rs'). replace (rs ++ r :: rs') with ((rs ++ [r]) ++ rs') by now rewrite <- app_assoc.
  split; [exact B'|]. now constructor.
Qed.

Lemma parse_sub_files_built : forall fs fuel cs zs,
  Forall (fun s => apex_ok (sp_zone s) /\ is_u32 (sp_ttl s) /\ is_u32 (sp_min s)) cs ->
  parse_sub_zone_files fs fuel cs = Done (Ok zs) ->
  Forall2 (fun c z => exists rs, built (sp_zone c) rs z /\ Forall (sub_raw_ok (sp_zone c) (sp_min c)) rs) cs zs.
Proof.
  intros fs fuel. induction cs as [|c cs IH]; intros zs H E; cbn [parse_sub_zone_files] in E.
  - assert (zs = []) as -> by congruence. constructor.
  - apply bindR_inv in E as (z & Ez & E). apply bindR_inv in E as (zs' & Ezs & E).
    assert (zs = z :: zs') as -> by congruence. inversion H as [|? ? (H1 & H2 & H3) H4]; subst.
    constructor; [|now apply IH]. unfold parse_sub_zone_file in Ez. destruct (fs (sp_path c)) as [f|]; [|discriminate].
    apply (parse_sub_entries_built _ _ _ _ []) in Ez; [exact Ez|exact H1|exact H2|constructor|apply built_new].
Qed.
