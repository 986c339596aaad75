(** Property C90: a lookup is determined by the replies it receives. *)
From Verif Require Import Base Types Name Codec Cache Resolver LocalSpec.

Section Local.
  Context {S : Type} (prj : S -> world).

  Definition local {A} (f : environment -> S -> exec A * S) : Prop :=
    forall env s o s', f env s = (o, s') -> exists ex, w_n (prj s) <= w_n (prj s') /\ exchanges (prj s) (prj s') ex /\
      forall env', same_for (w_n (prj s)) (w_n (prj s')) ex env env' -> f env' s = (o, s').

  Lemma exchanges_none : forall w w', w_sent w' = w_sent w -> exchanges w w' [].
  Proof. intros w w' E. split; [exact E|constructor|constructor]. Qed.
  Lemma sorted_app : forall l1 l2 m, StronglySorted lt l1 -> StronglySorted lt l2 -> Forall (fun x => x < m) l1 -> Forall (fun x => m <= x) l2 -> StronglySorted lt (l1 ++ l2).
  Proof.
    intros l1 l2 m S1 S2 F1 F2. induction l1 as [|a l1 IH]; [exact S2|]. cbn [app]. inversion S1; subst. inversion F1; subst. constructor; [now apply IH|].
    apply Forall_app. split; [assumption|]. eapply Forall_impl; [|exact F2]. cbv beta. intros b Hb. lia.
  Qed.
  Lemma exchanges_app : forall w1 w2 w3 e1 e2, w_n w1 <= w_n w2 -> w_n w2 <= w_n w3 -> exchanges w1 w2 e1 -> exchanges w2 w3 e2 -> exchanges w1 w3 (e1 ++ e2).
  Proof.
    intros w1 w2 w3 e1 e2 L1 L2 [A1 A2 A3] [B1 B2 B3]. split.
    - rewrite B1, A1, map_app, rev_app_distr, app_assoc. reflexivity.
    - apply Forall_app. split; [eapply Forall_impl; [|exact A2]|eapply Forall_impl; [|exact B2]]; cbv beta; intros x Hx; lia.
    - rewrite map_app. apply (sorted_app _ _ (w_n w2)); [assumption|assumption| |].
      + apply Forall_map. eapply Forall_impl; [|exact A2]. cbv beta. intros x Hx. lia.
      + apply Forall_map. eapply Forall_impl; [|exact B2]. cbv beta. intros x Hx. lia.
  Qed.
  Lemma same_sub : forall lo hi ex lo' hi' ex' env env', same_for lo hi ex env env' -> lo <= lo' -> hi' <= hi -> incl ex' ex -> same_for lo' hi' ex' env env'.
  Proof.
    intros lo hi ex lo' hi' ex' env env' [A B C D] L1 L2 I0. split.
    - intros n Hn. apply A. lia.
    - intros n c Hn. apply B. lia.
    - intros n Hn. apply C. lia.
    - intros n a x Hin. apply D. now apply I0.
  Qed.

  Lemma local_pure : forall A (g : S -> exec A * S), (forall s, w_n (prj (snd (g s))) = w_n (prj s) /\ w_sent (prj (snd (g s))) = w_sent (prj s)) -> local (fun _ => g).
  Proof.
    intros A g Hg env s o s' E. exists []. destruct (Hg s) as (H1 & H2). rewrite E in H1, H2. cbn [snd] in *. split; [lia|]. split; [now apply exchanges_none|]. intros env' _. exact E.
  Qed.
  Lemma local_bind : forall A B (f : environment -> S -> exec A * S) (k : environment -> A -> S -> exec B * S),
    local f -> (forall a, local (fun env => k env a)) ->
    local (fun env s => match f env s with (Done a, s1) => k env a s1 | (Panic q, s1) => (Panic q, s1) | (Diverge, s1) => (Diverge, s1) end).
  Proof.
    intros A B f k Hf Hk env s o s' E. destruct (f env s) as [[a|q|] s1] eqn:E1; destruct (Hf env s _ s1 E1) as (e1 & L1 & X1 & G1).
    - destruct (Hk a env s1 o s' E) as (e2 & L2 & X2 & G2). exists (e1 ++ e2). split; [lia|]. split; [eapply exchanges_app; eassumption|].
      intros env' Hs. rewrite (G1 env'), (G2 env'); [reflexivity| |]; (eapply same_sub; [exact Hs|lia|lia|]); intros z Hz; apply in_app_iff; auto.
    - assert (X : o = Panic q /\ s1 = s') by (split; congruence). destruct X as (-> & <-). exists e1. split; [exact L1|]. split; [exact X1|]. intros env' Hs. now rewrite (G1 env' Hs).
    - assert (X : o = Diverge /\ s1 = s') by (split; congruence). destruct X as (-> & <-). exists e1. split; [exact L1|]. split; [exact X1|]. intros env' Hs. now rewrite (G1 env' Hs).
  Qed.
End Local.

Definition wlocal {A} (f : environment -> W A) : Prop := local (fun w => w) f.
Definition llocal {A} (f : environment -> L A) : Prop := local snd f.

Lemma wlocal_ret : forall A (a : A), wlocal (fun _ => wret a).
Proof. intros A a. apply local_pure. now split. Qed.
Lemma wlocal_exec : forall A (m : exec A), wlocal (fun _ => wexec m).
Proof. intros A m. apply local_pure. now split. Qed.
Lemma wlocal_bind : forall A B (f : environment -> W A) (k : environment -> A -> W B), wlocal f -> (forall a, wlocal (fun env => k env a)) -> wlocal (fun env => wbind (f env) (k env)).
Proof. intros A B f k Hf Hk. exact (local_bind _ _ _ _ _ Hf Hk). Qed.
Lemma llocal_ret : forall A (a : A), llocal (fun _ => lret a).
Proof. intros A a. apply local_pure. now split. Qed.
Lemma llocal_exec : forall A (m : exec A), llocal (fun _ => lexec m).
Proof. intros A m. apply local_pure. now split. Qed.
Lemma llocal_get : forall A (f : lookup -> A), llocal (fun _ => lget f).
Proof. intros A f. apply local_pure. now split. Qed.
Lemma llocal_mod : forall f, llocal (fun _ => lmod f).
Proof. intros f. apply local_pure. now split. Qed.
Lemma llocal_trace : forall t, llocal (fun _ => trace t).
Proof. intros t. apply local_pure. now split. Qed.
Lemma llocal_raw : forall m, llocal (fun _ => trace_raw m).
Proof. intros m. apply local_pure. now split. Qed.
Lemma llocal_bind : forall A B (f : environment -> L A) (k : environment -> A -> L B), llocal f -> (forall a, llocal (fun env => k env a)) -> llocal (fun env => lbind (f env) (k env)).
Proof. intros A B f k Hf Hk. exact (local_bind _ _ _ _ _ Hf Hk). Qed.
Lemma llocal_w : forall A (f : environment -> W A), wlocal f -> llocal (fun env => lw (f env)).
Proof.
  intros A f Hf env [l w] o [l' w'] E. unfold lw in E. cbn [fst snd] in E. destruct (f env w) as [r w1] eqn:E1.
  assert (X : r = o /\ l = l' /\ w1 = w') by (repeat split; congruence). destruct X as (-> & -> & ->).
  destruct (Hf env w o w' E1) as (ex & L1 & X1 & G). exists ex. cbn [snd]. split; [exact L1|]. split; [exact X1|]. intros env' Hs. unfold lw. cbn [fst snd]. now rewrite (G env' Hs).
Qed.

(** One access to the cache *)
Lemma wlocal_access : forall g : N -> N -> op rkey (list record), wlocal (fun env => access env (fun e => g (ev_now e) (ev_now' e))).
Proof.
  intros g env w o w' E. unfold access in E. cbv zeta in E. destruct (cache_run rkey_eqb _ _) as [r c] eqn:Er.
  assert (X : r = o /\ w' = mkWorld c (S (w_n w)) (w_sent w)) by (split; congruence). destruct X as (-> & ->).
  exists []. cbn [w_n]. split; [lia|]. split; [now apply exchanges_none|]. intros env' [A B _ _]. unfold access. cbv zeta.
  destruct (A (w_n w)) as (A1 & A2); [lia|]. rewrite A1, A2, B by lia. rewrite Er. reflexivity.
Qed.
Lemma wlocal_search : forall node kind, wlocal (fun env => search_records env node kind).
Proof.
  intros node kind env w o w' E.
  unfold search_records, reading, wbind in E. destruct (access env (fun e => O_get (K := rkey) (node, kind) (ev_now' e)) w) as [r w1] eqn:Ea.
  assert (N1 : w_n w1 = S (w_n w)). { unfold access in Ea. cbv zeta in Ea. destruct (cache_run rkey_eqb _ _) as [r' c]. assert (X : w1 = mkWorld c (S (w_n w)) (w_sent w)) by congruence. now rewrite X. }
  assert (X : w1 = w').
  { destruct r as [r|k|]; [|congruence|congruence]. destruct r as [[[t [|r0 rs]]|]|b|]; try (unfold wret in E; congruence).
    destruct (forallb _ _ && _); [|unfold wexec in E; congruence]. destruct (_ <? _)%N in E; unfold wexec, wret in E; congruence. }
  subst w1. destruct (wlocal_access (fun _ t => O_get (K := rkey) (node, kind) t) env w r w' Ea) as (ex & L1 & X1 & G). exists ex. split; [exact L1|]. split; [exact X1|].
  intros env' Hs. unfold search_records, reading, wbind. pose proof (G env' Hs) as G'. cbv beta in G'. rewrite G'.
  destruct (sf_now _ _ _ _ _ Hs (w_n w)) as (A1 & _); [lia|]. rewrite A1. exact E.
Qed.

Lemma wlocal_save : forall rs, wlocal (fun env => save_records env rs).
Proof.
  intros [|r0 rs]; cbn [save_records]; [apply wlocal_exec|]. destruct (forallb _ _); [|apply wlocal_exec]. cbv zeta.
  apply (wlocal_bind _ _ _ (fun _ _ => wret tt)); [|intros a; apply wlocal_ret].
  exact (wlocal_access (fun t t' => O_set (K := rkey) (r_node r0, record_type r0) (min_ttl r0 rs * 1000000000)%N (map (fun r => set_ttl r (min_ttl r0 rs)) (r0 :: rs)) t t')).
Qed.
Lemma wlocal_glue : forall l, wlocal (fun env => save_glue env l).
Proof.
  induction l as [|s l IH]; cbn [save_glue]; [apply wlocal_ret|]. destruct (n_addrs s) as [|a as_]; [exact IH|].
  apply (wlocal_bind _ _ _ (fun env _ => save_glue env l)); [apply wlocal_save|]. intros _. exact IH.
Qed.
Lemma wlocal_nss : forall l, wlocal (fun env => save_nss env l).
Proof. intros l. unfold save_nss. apply (wlocal_bind _ _ _ (fun env _ => save_records env (map n_rec l))); [apply wlocal_glue|]. intros _. apply wlocal_save. Qed.

Section P.
  Variable p : profile.

  Lemma wlocal_query : forall node kind s, wlocal (fun env => send_query p env node kind s).
  Proof.
    intros node kind s env w.
    assert (G : let '(o, w') := send_query p env node kind s w in exists ex, w_n w <= w_n w' /\ exchanges w w' ex /\
       forall env', same_for (w_n w) (w_n w') ex env env' -> send_query p env' node kind s w = (o, w')).
    { unfold send_query at 1. cbv zeta.
      assert (Id : forall env' w' ex, w_n w <= w_n w' -> same_for (w_n w) (w_n w') ex env env' -> ev_id (env' (w_n w)) = ev_id (env (w_n w))) by (intros env' w' ex L1 [_ _ C _]; apply C; lia).
      destruct (encode_message p (build_dns_request (ev_id (env (w_n w))) node kind)) as [[x|e]|k|] eqn:Ee.
      2-4: exists []; split; [lia|]; split; [now apply exchanges_none|]; intros env' Hs; unfold send_query; cbv zeta; rewrite (Id env' w [] (le_n _) Hs), Ee; reflexivity.
      destruct (ns_addrs s) as [[|a as_]|k|] eqn:Ea.
      1,3,4: exists []; split; [lia|]; split; [now apply exchanges_none|]; intros env' Hs; unfold send_query; cbv zeta; rewrite (Id env' w [] (le_n _) Hs), Ee, Ea; reflexivity.
      set (w' := mkWorld (w_cache w) (S (w_n w)) ((a, x) :: w_sent w)).
      assert (Common : forall o, (forall env', same_for (w_n w) (w_n w') [(w_n w, (a, x))] env env' -> send_query p env' node kind s w = (o, w')) ->
        exists ex, w_n w <= w_n w' /\ exchanges w w' ex /\ forall env', same_for (w_n w) (w_n w') ex env env' -> send_query p env' node kind s w = (o, w')).
      { intros o Ho. exists [(w_n w, (a, x))]. split; [cbn [w_n w']; lia|]. split; [|exact Ho]. split.
        - reflexivity.
        - constructor; [cbn; lia|constructor].
        - repeat constructor. }
      assert (Same : forall env', same_for (w_n w) (w_n w') [(w_n w, (a, x))] env env' -> send_query p env' node kind s w =
        match ev_net (env (w_n w)) a x with
        | None => (Done (Err L_IO), w')
        | Some datagram =>
            match decode_message p (firstn MAX_UDP_LEN_BYTES datagram) with
            | Panic k => (Panic k, w') | Diverge => (Diverge, w') | Done (Err _) => (Done (Err L_Malformed), w')
            | Done (Ok m) => if (h_id (m_header m) =? ev_id (env (w_n w)))%N then (Done (Ok m), w') else (Done (Err L_Malformed), w')
            end
        end).
      { intros env' Hs. unfold send_query. cbv zeta. rewrite (Id env' w' _ ltac:(cbn [w_n w']; lia) Hs), Ee, Ea. rewrite (sf_net _ _ _ _ _ Hs (w_n w) a x (or_introl eq_refl)). reflexivity. }
      destruct (ev_net (env (w_n w)) a x) as [d|]; [|now apply Common].
      destruct (decode_message p (firstn MAX_UDP_LEN_BYTES d)) as [[m|e]|k|]; try (now apply Common).
      destruct (h_id (m_header m) =? ev_id (env (w_n w)))%N; now apply Common. }
    intros o w' E. rewrite E in G. exact G.
  Qed.
  Lemma wlocal_retries : forall node kind s n err, wlocal (fun env => send_query_with_retries p env n err node kind s).
  Proof.
    intros node kind s n. induction n as [|n IH]; intros err; cbn [send_query_with_retries].
    - destruct err; [apply wlocal_ret|apply wlocal_exec].
    - apply (wlocal_bind _ _ _ (fun env x => match x with Ok m => wret (Ok m) | Err e => send_query_with_retries p env n (Some e) node kind s end)); [apply wlocal_query|].
      intros [m|e]; [apply wlocal_ret|apply IH].
  Qed.

  Ltac lb := match goal with
    | |- llocal (fun env => lbind (@?f env) (@?k env)) => apply (llocal_bind _ _ f k); [|intros ?]
    | |- llocal (fun env => lw (@?f env)) => apply (llocal_w _ f)
    | |- llocal (fun _ => lget ?f) => exact (llocal_get _ f)
    | |- llocal (fun _ => lret ?f) => exact (llocal_ret _ f)
    | |- llocal (fun _ => lexec ?f) => exact (llocal_exec _ f)
    | |- llocal (fun _ => lmod ?f) => exact (llocal_mod f)
    | |- llocal (fun _ => trace ?f) => exact (llocal_trace f)
    | |- llocal (fun _ => trace_raw ?f) => exact (llocal_raw f)
    | |- llocal (fun env => if ?b then _ else _) => destruct b
    | |- llocal (fun env => match ?b with _ => _ end) => destruct b
    | |- llocal (fun env => let _ := _ in _) => cbv zeta
    end; cbv beta.

  Lemma llocal_ns_req : forall n k s, llocal (fun _ => trace_ns_req n k s).
  Proof. intros n k s. unfold trace_ns_req. repeat lb. Qed.
  Lemma llocal_request : forall node kind s r, llocal (fun env => perform_request p env node kind s r).
  Proof. intros node kind s r. unfold perform_request. repeat lb. apply wlocal_retries. Qed.
  Lemma llocal_request_t : forall node kind s r, llocal (fun env => perform_request_with_trace p env node kind s r).
  Proof. intros node kind s r. unfold perform_request_with_trace. repeat lb; [apply llocal_ns_req|apply llocal_request]. Qed.
  Lemma llocal_search_t : forall kind, llocal (fun env => search_records_with_trace env kind).
  Proof. intros kind. unfold search_records_with_trace. repeat lb. apply wlocal_search. Qed.
  Lemma wlocal_find : forall ds, wlocal (fun env => find_ns_records env ds).
  Proof.
    induction ds as [|d ds IH]; cbn [find_ns_records]; [apply wlocal_ret|]. destruct (name_from_string d) as [n|e]; [|apply wlocal_exec].
    apply (wlocal_bind _ _ _ (fun env rs => match rs with [] => find_ns_records env ds | _ => wret rs end)); [apply wlocal_search|]. intros [|r rs]; [exact IH|apply wlocal_ret].
  Qed.
  Lemma wlocal_cached : forall rs, wlocal (fun env => cached_addrs env rs).
  Proof.
    induction rs as [|r rs IH]; cbn [cached_addrs]; [apply wlocal_ret|].
    apply (wlocal_bind _ _ _ (fun env n => let# a := search_records env n RT_A in let# l := cached_addrs env rs in wret (mkNs r a :: l))); [apply wlocal_exec|]. intros n.
    apply (wlocal_bind _ _ _ (fun env a => let# l := cached_addrs env rs in wret (mkNs r a :: l))); [apply wlocal_search|]. intros a.
    apply (wlocal_bind _ _ _ (fun env l => wret (mkNs r a :: l))); [exact IH|]. intros l. apply wlocal_ret.
  Qed.
  Lemma llocal_nss_t : llocal (fun env => search_nss_with_trace env).
  Proof. unfold search_nss_with_trace. repeat lb; [apply wlocal_find|apply wlocal_cached]. Qed.
  Lemma llocal_cname : forall c next, llocal (fun env => handle_cname env c next).
  Proof. intros c next. unfold handle_cname. repeat lb. apply wlocal_save. Qed.

  Section With_sub.
    Variable sub : environment -> L (result response lerr).
    Hypothesis Hsub : llocal sub.

    Lemma llocal_subquery : forall node zone, llocal (fun env => resolve_ns_subquery (sub env) node zone).
    Proof.
      intros node zone. unfold resolve_ns_subquery. lb; [lb|]. lb; [lb|].
      intros env [l w] o [l' w'] E. cbn [fst snd] in *. cbv zeta in *.
      destruct (sub env (mkLookup node RT_A (a ++ [zone]) [] [] [] (no_follow_conf (l_conf l)), w)) as [r [i w1]] eqn:Es.
      destruct (Hsub env _ _ _ Es) as (ex & L1 & X1 & G). cbn [snd] in *.
      assert (X : w1 = w') by (destruct r as [[x|e]|k|]; unfold lbind, lret, add_sub_trace, lmod in E; cbn [fst snd] in E; congruence). subst w1.
      exists ex. split; [exact L1|]. split; [exact X1|]. intros env' Hs. rewrite (G env' Hs). exact E.
    Qed.
    Lemma llocal_servers : forall l err, llocal (fun env => query_servers p env (sub env) l err).
    Proof.
      induction l as [|s l IH]; intros err; cbn [query_servers]; [repeat lb|].
      lb; [lb|]. lb.
      - repeat lb. apply llocal_subquery.
      - lb; [|apply IH]. lb; [lb|]. lb; [lb|]. lb; [lb|]. lb; [apply llocal_request_t|]. lb; [|apply IH]. lb; repeat lb. apply wlocal_nss.
    Qed.
    Lemma llocal_zones : forall fuel, llocal (fun env => query_zones p env (sub env) fuel).
    Proof.
      induction fuel as [|f IH]; cbn [query_zones]; [lb|]. lb; [lb|]. lb; [lb|]. lb; [lb|]. lb; [lb|]. lb; [lb|]. lb; [apply llocal_servers|]. lb; [lb|apply IH].
    Qed.
    Lemma llocal_inner : forall fuel n, llocal (fun env => perform_inner p env (sub env) fuel n).
    Proof.
      intros fuel n. induction n as [|n IH]; cbn [perform_inner]; [lb|].
      lb; [lb|]. lb; [lb|]. lb; [lb|]. lb; [apply llocal_search_t|]. lb; [|repeat lb].
      lb; [apply llocal_search_t|]. lb.
      - lb; [lb|]. lb; [repeat lb; apply llocal_nss_t|]. lb; [apply llocal_zones|]. lb; [|lb]. lb.
        + repeat lb.
        + repeat lb. apply wlocal_save.
        + lb; [apply llocal_cname|]. lb; [apply IH|lb].
        + lb.
      - lb; [apply llocal_cname|]. lb; [apply IH|lb].
    Qed.
  End With_sub.
  Lemma llocal_perform : forall fuel, llocal (fun env => perform p env fuel).
  Proof.
    induction fuel as [|f IH]; cbn [perform]; [lb|]. lb; [lb|]. exact (llocal_inner (fun env => perform p env f) IH f (max_cname a)).
  Qed.
End P.

(** Whatever comes of a lookup (an answer, an error, a panic, or too few rounds), it comes of
    it in every environment in which the clock, the ids and the other threads do the same
    while it runs, and the replies to the packets it sent are the same. *)
Theorem C90_lookups_depend_on_what_they_receive : forall p env fuel l w o l' w', perform p env fuel (l, w) = (o, (l', w')) ->
  exists ex, exchanges w w' ex /\
  forall env', same_for (w_n w) (w_n w') ex env env' -> perform p env' fuel (l, w) = (o, (l', w')).
Proof.
  intros p env fuel l w o l' w' E. destruct (llocal_perform p fuel env (l, w) o (l', w') E) as (ex & _ & X & G). exists ex. now split.
Qed.
Print Assumptions C90_lookups_depend_on_what_they_receive.
