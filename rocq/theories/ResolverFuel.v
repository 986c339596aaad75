(** More fuel changes nothing once a run ends; and packets are bounded by the fuel. *)
From Verif Require Import Base Types Name Codec Cache Resolver.

Definition below {A} (m1 m2 : L A) : Prop := forall s, fst (m1 s) <> Diverge -> m2 s = m1 s.

Lemma below_refl : forall A (m : L A), below m m.
Proof. intros A m s _. reflexivity. Qed.
Lemma below_trans : forall A (m1 m2 m3 : L A), below m1 m2 -> below m2 m3 -> below m1 m3.
Proof. intros A m1 m2 m3 H1 H2 s H. rewrite <- (H1 s H). apply H2. now rewrite (H1 s H). Qed.
Lemma below_bind : forall A B (m1 m2 : L A) (k1 k2 : A -> L B), below m1 m2 -> (forall a, below (k1 a) (k2 a)) -> below (lbind m1 k1) (lbind m2 k2).
Proof.
  intros A B m1 m2 k1 k2 Hm Hk s H. unfold lbind in *. specialize (Hm s). destruct (m1 s) as [[a|x|] s']; cbn [fst] in *.
  - rewrite Hm by discriminate. now apply Hk.
  - rewrite Hm by discriminate. reflexivity.
  - congruence.
Qed.

Section Fuel.
  Context (p : profile) (env : environment).
  Section Sub.
    Context (sub1 sub2 : L (result response lerr)) (Hsub : below sub1 sub2).
    Lemma below_subquery : forall node zone, below (resolve_ns_subquery sub1 node zone) (resolve_ns_subquery sub2 node zone).
    Proof.
      intros node zone. unfold resolve_ns_subquery. apply below_bind; [apply below_refl|]. intros zones. destruct (detect_zones_loop zone zones); [apply below_refl|].
      intros s H. set (inner := mkLookup node RT_A (zones ++ [zone]) [] [] [] (no_follow_conf (l_conf (fst s)))) in *. cbn zeta in *.
      specialize (Hsub (inner, snd s)). destruct (sub1 (inner, snd s)) as [[r|k|] [l w]]; cbn [fst] in *; try (now rewrite Hsub by discriminate). congruence.
    Qed.
    Lemma below_servers : forall l err, below (query_servers p env sub1 l err) (query_servers p env sub2 l err).
    Proof.
      induction l as [|s l IH]; intros err; cbn [query_servers]; [apply below_refl|].
      apply below_bind; [apply below_refl|]. intros addrs. apply below_bind.
      - destruct addrs; [|apply below_refl]. apply below_bind; [apply below_refl|]. intros n. apply below_bind; [apply below_subquery|]. intros r. apply below_refl.
      - intros [s'|e]; [|apply IH]. do 3 (apply below_bind; [apply below_refl|]; intros ?). apply below_bind; [apply below_refl|]. intros [[]|e]; try apply below_refl. apply IH.
    Qed.
    Lemma below_zones : forall f1 f2, f1 <= f2 -> below (query_zones p env sub1 f1) (query_zones p env sub2 f2).
    Proof.
      induction f1 as [|f1 IH]; intros f2 L; [intros s H; now destruct H|]. destruct f2 as [|f2]; [lia|]. cbn [query_zones].
      apply below_bind; [apply below_refl|]. intros [|s0 next]; [apply below_refl|].
      do 3 (apply below_bind; [apply below_refl|]; intros ?). apply below_bind; [apply below_servers|]. intros [r|next']; [apply below_refl|]. apply IH. lia.
    Qed.
    Lemma below_inner : forall f1 f2 n, f1 <= f2 -> below (perform_inner p env sub1 f1 n) (perform_inner p env sub2 f2 n).
    Proof.
      intros f1 f2 n L. induction n as [|n IH]; cbn [perform_inner]; [apply below_refl|].
      do 3 (apply below_bind; [apply below_refl|]; intros ?). apply below_bind; [apply below_refl|]. intros [|c0 cached]; [|apply below_refl].
      apply below_bind; [apply below_refl|]. intros [|c cnames].
      - do 2 (apply below_bind; [apply below_refl|]; intros ?). apply below_bind; [now apply below_zones|]. intros [[soa|ans add|c next|next]|e]; try apply below_refl.
        apply below_bind; [apply below_refl|]. intros [u|e]; [exact IH|apply below_refl].
      - apply below_bind; [apply below_refl|]. intros [u|e]; [exact IH|apply below_refl].
    Qed.
  End Sub.
  Lemma below_perform : forall f1 f2, f1 <= f2 -> below (perform p env f1) (perform p env f2).
  Proof.
    induction f1 as [|f1 IH]; intros f2 L; [intros s H; now destruct H|]. destruct f2 as [|f2]; [lia|]. cbn [perform].
    apply below_bind; [apply below_refl|]. intros conf. apply below_inner; [|lia]. apply IH. lia.
  Qed.
End Fuel.

(** * Packets *)
Definition limits (l : lookup) : nat * nat * nat := (max_ns (l_conf l), max_retries (l_conf l), max_cname (l_conf l)).
Definition wcosts {A} (n : nat) (m : W A) : Prop := forall w, length (w_sent (snd (m w))) <= length (w_sent w) + n.
Definition costs {A} (c : nat * nat * nat) (n : nat) (m : L A) : Prop :=
  forall l w, limits l = c -> limits (fst (snd (m (l, w)))) = c /\ length (w_sent (snd (snd (m (l, w))))) <= length (w_sent w) + n.

Lemma wcosts_bind : forall A B a b (m : W A) (k : A -> W B), wcosts a m -> (forall x, wcosts b (k x)) -> wcosts (a + b) (wbind m k).
Proof.
  intros A B a b m k Hm Hk w. unfold wbind. specialize (Hm w). destruct (m w) as [[x|q|] w']; cbn [snd] in *; try lia. specialize (Hk x w'). lia.
Qed.
Lemma wcosts_ret : forall A (a : A), wcosts 0 (wret a).
Proof. intros A a w. cbn. lia. Qed.
Lemma wcosts_exec : forall A (a : exec A), wcosts 0 (wexec a).
Proof. intros A a w. cbn. lia. Qed.
Lemma wcosts_more : forall A a b (m : W A), wcosts a m -> a <= b -> wcosts b m.
Proof. intros A a b m H L w. specialize (H w). lia. Qed.
Lemma costs_bind : forall A B c a b (m : L A) (k : A -> L B), costs c a m -> (forall x, costs c b (k x)) -> costs c (a + b) (lbind m k).
Proof.
  intros A B c a b m k Hm Hk l w Hc. unfold lbind. specialize (Hm l w Hc). destruct (m (l, w)) as [[x|q|] [l' w']]; cbn [fst snd] in *; try (split; [tauto|lia]).
  destruct Hm as (Hm1 & Hm2). destruct (Hk x l' w' Hm1) as (H1 & H2). split; [exact H1|lia].
Qed.
Lemma costs_ret : forall A c (a : A), costs c 0 (lret a).
Proof. intros A c a l w H. cbn. split; [exact H|lia]. Qed.
Lemma costs_exec : forall A c (a : exec A), costs c 0 (lexec a).
Proof. intros A c a l w H. cbn. split; [exact H|lia]. Qed.
Lemma costs_get : forall A c (f : lookup -> A), costs c 0 (lget f).
Proof. intros A c f l w H. cbn. split; [exact H|lia]. Qed.
Lemma costs_mod : forall c f, (forall l, limits (f l) = limits l) -> costs c 0 (lmod f).
Proof. intros c f Hf l w H. cbn. rewrite Hf. split; [exact H|lia]. Qed.
Lemma costs_lw : forall A c n (m : W A), wcosts n m -> costs c n (lw m).
Proof. intros A c n m Hm l w H. unfold lw. cbn [fst snd]. specialize (Hm w). destruct (m w) as [r w']. cbn [fst snd] in *. split; [exact H|lia]. Qed.
Lemma costs_more : forall A c a b (m : L A), costs c a m -> a <= b -> costs c b m.
Proof. intros A c a b m H L l w Hc. specialize (H l w Hc). split; [tauto|lia]. Qed.
Lemma costs_zero_bind : forall A B c b (m : L A) (k : A -> L B), costs c 0 m -> (forall x, costs c b (k x)) -> costs c b (lbind m k).
Proof. intros A B c b m k Hm Hk. exact (costs_bind A B c 0 b m k Hm Hk). Qed.
Lemma costs_bind_zero : forall A B c a (m : L A) (k : A -> L B), costs c a m -> (forall x, costs c 0 (k x)) -> costs c a (lbind m k).
Proof. intros A B c a m k Hm Hk. replace a with (a + 0) by lia. now apply costs_bind. Qed.
Lemma costs_conf : forall B mns mre mcn b (k : rconf -> L B),
  (forall f, max_ns f = mns -> max_retries f = mre -> max_cname f = mcn -> costs (mns, mre, mcn) b (k f)) -> costs (mns, mre, mcn) b (lbind (lget l_conf) k).
Proof. intros B mns mre mcn b k Hk l w Hc. unfold lbind, lget. cbn [fst snd]. unfold limits in Hc. apply Hk; [congruence|congruence|congruence|exact Hc]. Qed.
Lemma wcosts_zero_bind : forall A B b (m : W A) (k : A -> W B), wcosts 0 m -> (forall x, wcosts b (k x)) -> wcosts b (wbind m k).
Proof. intros A B b m k Hm Hk. exact (wcosts_bind A B 0 b m k Hm Hk). Qed.
Lemma costs_trace : forall c t, costs c 0 (trace t).
Proof. intros c t l w H. unfold trace. cbn [fst snd]. destruct (silent (l_conf l)); (split; [exact H|lia]). Qed.
Lemma costs_trace_raw : forall c t, costs c 0 (trace_raw t).
Proof. intros c t l w H. unfold trace_raw. cbn [fst snd]. destruct (silent (l_conf l)); [split; [exact H|lia]|]. destruct (negb _); (split; [exact H|lia]). Qed.
Create HintDb costs.
#[export] Hint Resolve wcosts_ret wcosts_exec costs_ret costs_exec costs_get costs_trace costs_trace_raw : costs.

Section Packets.
  Context (p : profile) (env : environment).
  Lemma costs_access : forall f, wcosts 0 (access env f).
  Proof. intros f w. unfold access. destruct (cache_run _ _ _) as [r c]. cbn [snd w_sent]. lia. Qed.
  Lemma costs_search : forall node kind, wcosts 0 (search_records env node kind).
  Proof.
    intros node kind. unfold search_records. apply wcosts_zero_bind; [intros w; cbn; lia|]. intros t. apply wcosts_zero_bind; [apply costs_access|].
    intros [[[e [|r rs]]|]| |]; auto with costs. destruct (_ && _); auto with costs. destruct (_ <? _)%N; auto with costs.
  Qed.
  Lemma costs_save : forall rs, wcosts 0 (save_records env rs).
  Proof. intros [|r rs]; unfold save_records; auto with costs. destruct (forallb _ _); auto with costs. apply wcosts_zero_bind; [apply costs_access|auto with costs]. Qed.
  Lemma costs_save_nss : forall l, wcosts 0 (save_nss env l).
  Proof.
    intros l. unfold save_nss. apply wcosts_zero_bind; [|intros _; apply costs_save].
    induction l as [|s l IH]; cbn [save_glue]; auto with costs. destruct (n_addrs s); [exact IH|]. apply wcosts_zero_bind; [apply costs_save|intros _; exact IH].
  Qed.
  Lemma costs_send : forall node kind s, wcosts 1 (send_query p env node kind s).
  Proof.
    intros node kind s w. unfold send_query. destruct (encode_message _ _) as [[out|e]|k|]; cbn [snd]; try lia.
    destruct (ns_addrs s) as [[|a l]|k|]; cbn [snd]; try lia. destruct (ev_net _ _ _) as [d|]; [|cbn; lia].
    destruct (decode_message _ _) as [[m|e]|k|]; try (cbn; lia). destruct (_ =? _)%N; cbn; lia.
  Qed.
  Lemma costs_retries : forall node kind s n err, wcosts n (send_query_with_retries p env n err node kind s).
  Proof.
    intros node kind s. induction n as [|n IH]; intros err; cbn [send_query_with_retries]; [destruct err; auto with costs|].
    apply (wcosts_bind _ _ 1 n); [apply costs_send|]. intros [m|e]; [|apply IH]. eapply wcosts_more; [apply wcosts_ret|lia].
  Qed.
  Lemma costs_request : forall c node kind s n, costs c n (perform_request_with_trace p env node kind s n).
  Proof.
    intros c node kind s n. unfold perform_request_with_trace. apply costs_zero_bind.
    { unfold trace_ns_req. apply costs_zero_bind; auto with costs. intros []; auto with costs. apply costs_zero_bind; auto with costs. }
    intros _. apply costs_bind_zero.
    - unfold perform_request. apply costs_bind_zero; [apply costs_lw, costs_retries|]. intros [m|e]; auto with costs. apply costs_zero_bind; auto with costs.
    - intros [x|e]; apply costs_zero_bind; auto with costs.
  Qed.
  Lemma costs_search_trace : forall c kind, costs c 0 (search_records_with_trace env kind).
  Proof. intros c kind. unfold search_records_with_trace. apply costs_zero_bind; auto with costs. intros node. apply costs_zero_bind; [apply costs_lw, costs_search|]. intros rs. apply costs_zero_bind; auto with costs. Qed.
  Lemma costs_search_nss : forall c, costs c 0 (search_nss_with_trace env).
  Proof.
    intros c. unfold search_nss_with_trace. apply costs_zero_bind; auto with costs. intros node. apply costs_zero_bind.
    - apply costs_lw. generalize (generate_domain_hierarchy node). induction l as [|d ds IH]; cbn [find_ns_records]; auto with costs.
      destruct (name_from_string d) as [n|e]; auto with costs. apply wcosts_zero_bind; [apply costs_search|]. intros [|r rs]; [exact IH|auto with costs].
    - intros [|r rs]; [apply costs_zero_bind; auto with costs|]. apply costs_zero_bind; [|intros l; apply costs_zero_bind; auto with costs].
      apply costs_lw. generalize (r :: rs). induction l as [|x l IH]; cbn [cached_addrs]; auto with costs.
      apply wcosts_zero_bind; auto with costs. intros n. apply wcosts_zero_bind; [apply costs_search|]. intros a. apply wcosts_zero_bind; [exact IH|]. auto with costs.
  Qed.
  Lemma costs_cname : forall c r next, costs c 0 (handle_cname env r next).
  Proof.
    intros c r next. unfold handle_cname. apply costs_zero_bind; auto with costs. intros cname. apply costs_zero_bind; auto with costs. intros prev.
    destruct (detect_cname_loops _ _); auto with costs. apply costs_zero_bind; [now apply costs_mod|]. intros _. apply costs_zero_bind; auto with costs. intros [|]; auto with costs.
    apply costs_zero_bind; [apply costs_lw, costs_save|]. intros _. apply costs_zero_bind; [now apply costs_mod|]. intros _. apply costs_zero_bind; [now apply costs_mod|]. auto with costs.
  Qed.

  Section Sub.
    Context (mns mre mcn B : nat) (sub : L (result response lerr)) (Hsub : costs (mns, mre, mcn) B sub).
    Notation c := (mns, mre, mcn).
    Lemma costs_subquery : forall node zone, costs c B (resolve_ns_subquery sub node zone).
    Proof.
      intros node zone. unfold resolve_ns_subquery. apply costs_zero_bind; auto with costs. intros zones. destruct (detect_zones_loop _ _); [eapply costs_more; [apply costs_ret|lia]|].
      intros l w Hc. cbn [fst snd]. set (inner := mkLookup node RT_A (zones ++ [zone]) [] [] [] (no_follow_conf (l_conf l))).
      destruct (Hsub inner w Hc) as (H1 & H2). destruct (sub (inner, w)) as [[r|k|] [l' w']]; cbn [fst snd] in *; (split; [exact Hc|exact H2]).
    Qed.
    Lemma costs_servers : forall l err, costs c (length l * (B + mre)) (query_servers p env sub l err).
    Proof.
      induction l as [|s l IH]; intros err; cbn [query_servers length]; [destruct err; auto with costs|].
      apply costs_zero_bind; auto with costs. intros addrs. replace (S (length l) * (B + mre)) with (B + (mre + length l * (B + mre))) by lia.
      apply costs_bind.
      - destruct addrs; [|eapply costs_more; [apply costs_ret|lia]]. apply costs_zero_bind; auto with costs. intros n. apply costs_bind_zero; [apply costs_subquery|]. auto with costs.
      - intros [s'|e]; [|eapply costs_more; [apply IH|lia]]. do 2 (apply costs_zero_bind; auto with costs; intros ?).
        apply costs_conf. intros f _ -> _. apply costs_bind; [apply costs_request|]. intros [[soa|ans add|cn next|next]|e]; try (eapply costs_more; [apply costs_ret|lia]); [|apply IH].
        eapply costs_more; [|apply Nat.le_0_l]. apply costs_zero_bind; [apply costs_lw, costs_save_nss|]. intros _. apply costs_zero_bind; [now apply costs_mod|]. auto with costs.
    Qed.
    Lemma costs_zones : forall fuel, costs c (fuel * (mns * (B + mre))) (query_zones p env sub fuel).
    Proof.
      induction fuel as [|fuel IH]; cbn [query_zones]; [auto with costs|].
      apply costs_zero_bind; auto with costs. intros [|s0 next]; [eapply costs_more; [apply costs_exec|lia]|].
      apply costs_zero_bind; [now apply costs_mod|]. intros _. apply costs_zero_bind; auto with costs. intros sorted.
      apply costs_conf. intros f -> _ _. cbn [Nat.mul]. apply costs_bind.
      - eapply costs_more; [apply costs_servers|]. apply Nat.mul_le_mono_r. apply firstn_le_length.
      - intros [r|next']; [eapply costs_more; [apply costs_ret|lia]|exact IH].
    Qed.
    Lemma costs_inner : forall fuel n, costs c (n * (fuel * (mns * (B + mre)))) (perform_inner p env sub fuel n).
    Proof.
      intros fuel. induction n as [|n IH]; cbn [perform_inner]; [auto with costs|]. set (z := fuel * (mns * (B + mre))) in *.
      do 3 (apply costs_zero_bind; auto with costs; intros ?). apply costs_zero_bind; [apply costs_search_trace|]. intros [|c0 cached].
      2:{ eapply costs_more; [|apply Nat.le_0_l]. apply costs_zero_bind; auto with costs. intros prev. apply costs_zero_bind; [now apply costs_mod|]. auto with costs. }
      apply costs_zero_bind; [apply costs_search_trace|].
      assert (F : forall r next, costs c (n * z) (let* x := handle_cname env r next in match x with Err e => lret (Err e) | Ok _ => perform_inner p env sub fuel n end)).
      { intros r next. apply costs_zero_bind; [apply costs_cname|]. intros [u|e]; [exact IH|]. eapply costs_more; [apply costs_ret|lia]. }
      intros [|cn cnames]; [|eapply costs_more; [apply F|cbn; lia]].
      apply costs_zero_bind; auto with costs. intros next. apply costs_zero_bind.
      { destruct next; auto with costs. apply costs_zero_bind; [apply costs_search_nss|]. intros l. now apply costs_mod. }
      intros _. cbn [Nat.mul]. apply costs_bind; [apply costs_zones|]. intros [[soa|ans add|cn next'|next']|e]; [| |apply F| |]; (eapply costs_more; [|apply Nat.le_0_l]); auto with costs.
      - apply costs_zero_bind; auto with costs. intros prev. apply costs_zero_bind; [now apply costs_mod|]. auto with costs.
      - apply costs_zero_bind; auto with costs. intros _. apply costs_zero_bind; [apply costs_lw, costs_save|]. intros _. apply costs_zero_bind; auto with costs. intros prev. apply costs_zero_bind; [now apply costs_mod|]. auto with costs.
    Qed.
  End Sub.

  (** The most packets a lookup with that much fuel sends. *)
  Fixpoint budget (mns mre mcn fuel : nat) : nat :=
    match fuel with 0 => 0 | S f => mcn * (f * (mns * (budget mns mre mcn f + mre))) end.
  Lemma budget_mono : forall mns mre mcn f1 f2, f1 <= f2 -> budget mns mre mcn f1 <= budget mns mre mcn f2.
  Proof.
    intros mns mre mcn. induction f1 as [|f1 IH]; intros f2 L; cbn [budget]; [lia|]. destruct f2 as [|f2]; [lia|]. cbn [budget].
    apply Nat.mul_le_mono_l. apply Nat.mul_le_mono; [lia|]. apply Nat.mul_le_mono_l. apply Nat.add_le_mono_r. apply IH. lia.
  Qed.
  Lemma costs_perform : forall mns mre mcn fuel, costs (mns, mre, mcn) (budget mns mre mcn fuel) (perform p env fuel).
  Proof.
    intros mns mre mcn. induction fuel as [|fuel IH]; cbn [perform budget]; [auto with costs|].
    apply costs_conf. intros f _ _ ->. now apply costs_inner.
  Qed.
End Packets.
