(** C50-C52: what lookups keep in the cache and get out of it. *)
From Verif Require Import Base Types Name NameSpec NameProofs Codec CodecSpec NsSpec Cache Resolver ResolverLists ResolverSpec ResolverInv ResolverRun ResolverFacts ResolverEx.

Lemma lowest_ttl : forall r0 rs, In (min_ttl r0 rs) (map r_ttl (r0 :: rs)) /\ Forall (fun r => (min_ttl r0 rs <= r_ttl r)%N) (r0 :: rs).
Proof.
  intros r0 rs. split.
  - assert (G : forall l a, In (fold_left N.min l a) (a :: l)).
    { clear. induction l as [|x l IH]; intros a; cbn [fold_left]; [now left|]. destruct (IH (N.min a x)) as [<- | H]; [|right; now right].
      destruct (N.min_spec a x) as [(_ & ->)|(_ & ->)]; [now left|right; now left]. }
    exact (G (map r_ttl rs) (r_ttl r0)).
  - destruct (min_fold (map r_ttl rs) (r_ttl r0)) as (B1 & B2). constructor; [exact B1|].
    rewrite Forall_forall in *. intros r Hr. apply B2. now apply in_map.
Qed.

(** * C50 *)
(** [search_records] is the resolver's search for records in the cache. With [e] the event
    of the access: the clock is read ([ev_now e]), others may use the cache, then the cache
    is asked (at [ev_now' e]). Whatever is found was in the cache, has not expired, and
    carries the whole seconds between the reading and the expiry. *)
Theorem C50_ttl_is_what_is_left : forall env w node kind rs w',
  search_records env node kind w = (Done rs, w') -> rs <> [] ->
  let e := env (w_n w) in
  exists exp stored,
    c_data (ev_others e (w_cache w)) (node, kind) = Some (exp, stored) /\ (ev_now' e < exp)%N /\
    rs = map (fun r => set_ttl r ((exp - ev_now e) / SECOND)%N) stored.
Proof.
  intros env w node kind rs w' H Hn e. unfold search_records, wbind, reading, access, cache_run in H. fold e in H.
  destruct (c_poisoned (ev_others e (w_cache w))); [discriminate|]. unfold cache_get in H.
  destruct (c_data (ev_others e (w_cache w)) (node, kind)) as [[exp stored]|] eqn:Ec; [|injection H as <- <-; congruence].
  destruct (is_expired exp (ev_now' e)) eqn:Ee; [injection H as <- <-; congruence|].
  destruct stored as [|r0 stored]; [injection H as <- <-; congruence|].
  destruct (forallb _ (r0 :: stored) && (ev_now e <? exp)%N); [|discriminate].
  destruct ((exp - ev_now e) / 1000000000 <? 4294967296)%N; [|discriminate]. injection H as <- <-.
  exists exp, (r0 :: stored). split; [reflexivity|]. split; [|reflexivity]. unfold is_expired in Ee. now apply N.leb_gt in Ee.
Qed.
Print Assumptions C50_ttl_is_what_is_left.

(** Never more than what the record was stored with, if the clock is read less than a
    second before the cache is asked. Missing from C50: slower accesses, see
    [C50_refuted_slow_read]. *)
Theorem C50_ttl_never_raised_partial : forall env w node kind rs w',
  env_ok plain_record env -> cache_ok plain_record (ev_now (env (w_n w))) (w_cache w) ->
  (ev_now' (env (w_n w)) < ev_now (env (w_n w)) + SECOND)%N ->
  search_records env node kind w = (Done rs, w') -> rs <> [] ->
  exists exp stored, c_data (ev_others (env (w_n w)) (w_cache w)) (node, kind) = Some (exp, stored) /\
    Forall2 (fun r s => r = set_ttl s (r_ttl r) /\ (r_ttl r <= r_ttl s)%N) rs stored.
Proof.
  intros env w node kind rs w' EO Hw Hg H Hn. destruct (C50_ttl_is_what_is_left env w node kind rs w' H Hn) as (exp & stored & Ec & Hlt & ->).
  exists exp, stored. split; [exact Ec|]. pose proof (eo_others plain_record env EO _ _ Hw) as (_ & D). specialize (D _ _ _ Ec). destruct D as (_ & _ & _ & (ttl & Ht & Hx) & _).
  set (t := ((exp - ev_now (env (w_n w))) / SECOND)%N).
  assert (B : (t <= ttl)%N).
  { assert (t < ttl + 1)%N; [|lia]. unfold t. apply N.div_lt_upper_bound; [unfold SECOND; lia|]. unfold SECOND in *. lia. }
  clear -Ht B. induction Ht as [|r l Hr Hl IH]; cbn [map]; constructor; [|exact IH]. cbn [set_ttl r_ttl]. split; [reflexivity|lia].
Qed.
Print Assumptions C50_ttl_never_raised_partial.

(** What is stored now and searched later, nobody else touching it: the whole seconds that
    remain, nothing at or after expiry. *)
Theorem C50_store_then_search : forall env w r0 rs w1,
  save_records env (r0 :: rs) w = (Done tt, w1) ->
  c_poisoned (w_cache w1) = false ->
  ev_others (env (w_n w1)) (w_cache w1) = w_cache w1 ->
  let t0 := ev_now (env (w_n w)) in let t := ev_now (env (w_n w1)) in let t' := ev_now' (env (w_n w1)) in
  (t0 <= t /\ t <= t')%N ->
  exists lowest, In lowest (map r_ttl (r0 :: rs)) /\ Forall (fun r => (lowest <= r_ttl r)%N) (r0 :: rs) /\
    (is_u32 lowest ->
     fst (search_records env (r_node r0) (record_type r0) w1) =
     Done (if (t' <? t0 + lowest * SECOND)%N then map (fun r => set_ttl r ((t0 + lowest * SECOND - t) / SECOND)%N) (r0 :: rs) else [])).
Proof.
  intros env w r0 rs w1 H Hp Ho t0 t t' (L1 & L2). unfold save_records in H.
  destruct (forallb (fun r => rtype_eqb (record_type r) (record_type r0)) (r0 :: rs)) eqn:F; [|discriminate].
  set (m := min_ttl r0 rs) in *. unfold wbind, access, cache_run in H. set (e := env (w_n w)) in *.
  destruct (c_poisoned (ev_others e (w_cache w))); [discriminate|].
  assert (E : c_data (w_cache w1) (r_node r0, record_type r0) = Some (t0 + m * SECOND, map (fun r => set_ttl r m) (r0 :: rs))%N).
  { unfold cache_set in H. destruct (INSTANT_END <=? ev_now e + m * 1000000000)%N; [discriminate|].
    assert (U : upd rkey_eqb (c_data (ev_others e (w_cache w))) (r_node r0, record_type r0) (Some (ev_now e + m * 1000000000, map (fun r => set_ttl r m) (r0 :: rs))%N) (r_node r0, record_type r0)
       = Some (t0 + m * SECOND, map (fun r => set_ttl r m) (r0 :: rs))%N).
    { unfold upd. replace (rkey_eqb (r_node r0, record_type r0) (r_node r0, record_type r0)) with true by (symmetry; now apply rkey_eqb_eq). reflexivity. }
    destruct (c_data (ev_others e (w_cache w)) (r_node r0, record_type r0)) as [[e0 v0]|]; [destruct (is_expired e0 (ev_now' e))|]; injection H as <-; cbn [w_cache c_data]; exact U. }
  exists m. split; [|split].
  - apply lowest_ttl.
  - apply lowest_ttl.
  - intros U. unfold search_records, wbind, reading, access, cache_run. rewrite Ho, Hp. unfold cache_get. rewrite E. fold t t'. unfold is_expired.
    destruct (N.leb_spec (t0 + m * SECOND) t') as [Le|Lt].
    + replace (t' <? t0 + m * SECOND)%N with false by (symmetry; apply N.ltb_ge; exact Le). reflexivity.
    + replace (t' <? t0 + m * SECOND)%N with true by (symmetry; apply N.ltb_lt; exact Lt). cbn [map].
      replace (forallb _ (set_ttl r0 m :: map (fun r => set_ttl r m) rs)) with true.
      2:{ symmetry. apply forallb_forall. change (set_ttl r0 m :: map (fun r => set_ttl r m) rs) with (map (fun r => set_ttl r m) (r0 :: rs)). intros x Hx. apply in_map_iff in Hx as (y & <- & Hy).
          change (record_type (set_ttl y m)) with (record_type y). change (record_type (set_ttl r0 m)) with (record_type r0). cbn [r_ttl set_ttl]. rewrite N.eqb_refl, andb_true_r.
          rewrite forallb_forall in F. now apply F. }
      replace (t <? t0 + m * SECOND)%N with true by (symmetry; apply N.ltb_lt; lia). cbn [andb].
      replace ((t0 + m * SECOND - t) / 1000000000 <? 4294967296)%N with true.
      2:{ symmetry. apply N.ltb_lt. apply N.div_lt_upper_bound; [lia|]. unfold is_u32, SECOND in *. lia. }
      unfold wret. cbn [fst]. f_equal. cbn [set_ttl]. f_equal. rewrite map_map. apply map_ext. intros a. reflexivity.
Qed.
Print Assumptions C50_store_then_search.

Definition ex_a : record := rec_ (s2b "a.") 5 (D_A [1; 2; 3; 4]%N).
(** Stored at 0 with a TTL of 5 seconds, searched at 3.5 seconds. *)
Definition env_clock : environment := fun n => mkEv (N.of_nat n * 3500000000) (N.of_nat n * 3500000000) (fun c => c) 7 (fun _ _ => None).
Theorem C50_nonvacuous : exists w1, save_records env_clock [ex_a] world0 = (Done tt, w1) /\
  c_poisoned (w_cache w1) = false /\ ev_others (env_clock (w_n w1)) (w_cache w1) = w_cache w1 /\
  fst (search_records env_clock (s2b "a.") RT_A w1) = Done [set_ttl ex_a 1] /\
  fst (search_records env_clock (s2b "a.") RT_A (snd (search_records env_clock (s2b "a.") RT_A w1))) = Done [].
Proof. eexists. split; [vm_compute; reflexivity|]. repeat split; vm_compute; reflexivity. Qed.
Print Assumptions C50_nonvacuous.

(** Refutation: the clock is read, the thread sleeps for two seconds while another one
    stores the record, and the cache is asked then: the TTL comes out higher than what it
    was stored with. *)
Definition env_slow : environment :=
  fun n => mkEv (N.of_nat n * 2000000000) (N.of_nat (S n) * 2000000000)
    (fun c => mkCache (upd rkey_eqb (c_data c) (s2b "a.", RT_A) (Some ((N.of_nat (S n) * 2000000000) + 5 * SECOND, [ex_a]))%N) (c_poisoned c)) 7 (fun _ _ => None).
Theorem C50_refuted_slow_read :
  (forall n, ev_now (env_slow n) <= ev_now' (env_slow n) /\ ev_now' (env_slow n) <= ev_now (env_slow (S n)))%N /\
  (forall n c, cache_ok plain_record (ev_now (env_slow n)) c -> cache_ok plain_record (ev_now' (env_slow n)) (ev_others (env_slow n) c)) /\
  r_ttl ex_a = 5%N /\
  fst (search_records env_slow (s2b "a.") RT_A world0) = Done [set_ttl ex_a 7].
Proof.
  split; [|split; [|split; vm_compute; reflexivity]].
  - intros n. unfold env_slow. cbn [ev_now ev_now']. rewrite Nat2N.inj_succ. split; lia.
  - intros n c (P & D). split; [exact P|]. cbn [env_slow ev_others ev_now' c_data]. intros k exp rs H. unfold upd in H. destruct (rkey_eqb _ k) eqn:Ek.
    + apply rkey_eqb_eq in Ek. subst k. assert (X : exp = (N.of_nat (S n) * 2000000000 + 5 * SECOND)%N /\ rs = [ex_a]) by (split; congruence).
      destruct X as (-> & ->). repeat split.
      * discriminate.
      * repeat constructor; try (apply checked_accepted; vm_compute; reflexivity); vm_compute; reflexivity.
      * repeat constructor.
      * exists 5%N. split; [repeat constructor|]. lia.
      * intros _. repeat constructor.
      * exists ex_a, []. now split.
    + eapply entry_later; [|eapply D, H]. unfold env_slow. cbn [ev_now]. rewrite Nat2N.inj_succ. lia.
Qed.
Print Assumptions C50_refuted_slow_read.

(** * C51 *)
(** Storing puts the records, all with the lowest of their TTLs, under the owner of the
    first and their common type, and touches no other key. *)
Theorem C51_store : forall env r0 rs w w', save_records env (r0 :: rs) w = (Done tt, w') ->
  exists lowest, In lowest (map r_ttl (r0 :: rs)) /\ Forall (fun r => (lowest <= r_ttl r)%N) (r0 :: rs) /\
    Forall (fun r => record_type r = record_type r0) rs /\
    forall k, c_data (w_cache w') k =
      if rkey_eqb (r_node r0, record_type r0) k
      then Some (ev_now (env (w_n w)) + lowest * SECOND, map (fun r => set_ttl r lowest) (r0 :: rs))%N
      else c_data (ev_others (env (w_n w)) (w_cache w)) k.
Proof.
  intros env r0 rs w w1 H. unfold save_records in H.
  destruct (forallb (fun r => rtype_eqb (record_type r) (record_type r0)) (r0 :: rs)) eqn:F; [|discriminate].
  set (m := min_ttl r0 rs) in *. unfold wbind, access, cache_run in H. set (e := env (w_n w)) in *.
  destruct (c_poisoned (ev_others e (w_cache w))); [discriminate|].
  exists m. split; [|split; [|split]].
  - apply lowest_ttl.
  - apply lowest_ttl.
  - apply Forall_forall. intros r Hr. rewrite forallb_forall in F. apply rtype_eqb_eq, F. now right.
  - intros k. unfold cache_set in H. destruct (INSTANT_END <=? ev_now e + m * 1000000000)%N; [discriminate|].
    destruct (c_data (ev_others e (w_cache w)) (r_node r0, record_type r0)) as [[e0 v0]|]; [destruct (is_expired e0 (ev_now' e))|]; injection H as <-; reflexivity.
Qed.
Print Assumptions C51_store.

Theorem C51_store_nonvacuous : fst (save_records env_clock [rec_ (s2b "a.") 5 (D_A [1;2;3;4]); rec_ (s2b "a.") 3 (D_A [1;2;3;5])]%N world0) = Done tt.
Proof. vm_compute. reflexivity. Qed.

Lemma new_linv : forall good (Ask : name -> rtype -> Prop) Dn (q lv : Prop) U d conf node kind, accepted node -> usable_type kind -> Ask node kind -> (q -> 0 < max_ns conf /\ 0 < max_retries conf) ->
  (lv -> length U + 300 <= d) -> linv good Ask Dn q lv U d (new_lookup conf node kind).
Proof. intros good Ask Dn q lv U d conf node kind Hn Hk HA Hc Hl. split; cbn; try assumption; try constructor; congruence. Qed.

(** What holds of every run: [ResolverRun] in one lemma. *)
Lemma run_any : forall p env good (Ask : name -> rtype -> Prop) Dn SP (q lv : Prop) conf node kind w fuel U,
  env_ok good env -> class_ok p env good -> questions_ok good Ask -> denials p env Dn (w_n w) Ask -> sendings p env good SP (w_n w) Ask -> Ask node kind ->
  cache_ok good (ev_now (env (w_n w))) (w_cache w) -> Forall SP (w_sent w) -> accepted node -> usable_type kind ->
  (q -> quiet p env good Dn) -> (q -> 0 < max_ns conf /\ 0 < max_retries conf) ->
  (lv -> live p env) -> (forall n, accepted n -> In n U) -> (lv -> length U + 300 <= fuel) ->
  okL q lv (perform p env fuel (new_lookup conf node kind, w))
    (fun r s' => winv env good SP (w_n w) (snd s') /\ match r with Ok x => answer_ok good conf node kind x /\ none_ok Dn node x | Err _ => True end) (winv env good SP (w_n w)).
Proof.
  intros p env good Ask Dn SP q lv conf node kind w fuel U EO CO HQ HD HS HA Hw Hs Hn Hk Hq Hc Hl HU Hf.
  pose proof (perform_sub_ok p env good EO CO Ask HQ (w_n w) Dn HD SP HS q lv Hq Hl U HU fuel (new_lookup conf node kind) w (new_linv _ _ _ _ _ _ _ _ _ _ Hn Hk HA Hc Hf) (conj Hw (conj Hs (le_n _))) eq_refl eq_refl) as S.
  eapply okL_mono; [exact S|]. cbn. intros [x|e] s' (A & B); (split; [exact A|]); [|exact I]. destruct B as (B1 & B2 & _). now split.
Qed.
(** The same with nothing said of packets sent. *)
Lemma run_class : forall p env good Dn (q lv : Prop) conf node kind w fuel U,
  env_ok good env -> class_ok p env good -> denials p env Dn 0 (fun _ _ => True) -> cache_ok good (ev_now (env (w_n w))) (w_cache w) -> accepted node -> usable_type kind ->
  (q -> quiet p env good Dn) -> (q -> 0 < max_ns conf /\ 0 < max_retries conf) ->
  (lv -> live p env) -> (forall n, accepted n -> In n U) -> (lv -> length U + 300 <= fuel) ->
  okL q lv (perform p env fuel (new_lookup conf node kind, w))
    (fun r s' => cache_ok good (ev_now (env (w_n (snd s')))) (w_cache (snd s')) /\ match r with Ok x => answer_ok good conf node kind x | Err _ => True end)
    (fun w' => cache_ok good (ev_now (env (w_n w'))) (w_cache w')).
Proof.
  intros p env good Dn q lv conf node kind w fuel U EO CO HD Hw Hn Hk Hq Hc Hl HU Hf.
  assert (HS : sendings p env good (fun _ => True) (w_n w) (fun _ _ => True)) by (intros n _ a x r nd kd _ _ _ _ _ _; exact I).
  assert (HQ : questions_ok good (fun _ _ => True)) by (split; intros; exact I).
  assert (Hs : Forall (fun _ => True) (w_sent w)) by (apply Forall_forall; intros; exact I).
  pose proof (run_any p env good (fun _ _ => True) Dn (fun _ => True) q lv conf node kind w fuel U EO CO HQ (fun n _ => HD n (Nat.le_0_l n)) HS I Hw Hs Hn Hk Hq Hc Hl HU Hf) as R.
  destruct (perform p env fuel (new_lookup conf node kind, w)) as [[r|k|] s']; cbn [okL] in *; destruct R as ((A & _) & B); (split; [exact A|]); try exact B.
  destruct r; [apply B|exact I].
Qed.

(** Every lookup, ended or cut short (by a panic, or after any number of rounds), leaves the
    cache in order, whatever the network sends and others do. *)
Theorem C51_cache_stays_in_order : forall p env conf node kind fuel w,
  env_ok plain_record env -> accepted node -> usable_type kind ->
  cache_ok plain_record (ev_now (env (w_n w))) (w_cache w) ->
  let '(_, (_, w')) := perform p env fuel (new_lookup conf node kind, w) in
  cache_ok plain_record (ev_now (env (w_n w'))) (w_cache w').
Proof.
  intros p env conf node kind fuel w EO Hn Hk Hw.
  pose proof (plain_is_a_class p env (eo_bytes _ _ EO)) as CO.
  destruct finitely_many_names as (U & HU).
  pose proof (run_class p env plain_record (fun _ => True) False False conf node kind w fuel U EO CO ltac:(intros n _ a x d m _ _ _ _ _ nd kd _ _ _ _; exact I) Hw Hn Hk ltac:(tauto) ltac:(tauto) ltac:(tauto) HU ltac:(tauto)) as S.
  destruct (perform p env fuel (new_lookup conf node kind, w)) as [[r|k|] [l w']]; cbn [okL snd] in S; apply S.
Qed.
Print Assumptions C51_cache_stays_in_order.

(** So other lookups, too, are what [env_ok] asks of other threads. *)
Theorem C51_other_lookups_qualify : forall p env' conf node kind fuel n c T T',
  env_ok plain_record env' -> accepted node -> usable_type kind ->
  (T <= ev_now (env' n))%N ->
  let '(_, (_, w')) := perform p env' fuel (new_lookup conf node kind, mkWorld c n []) in
  (ev_now (env' (w_n w')) <= T')%N ->
  cache_ok plain_record T c -> cache_ok plain_record T' (w_cache w').
Proof.
  intros p env' conf node kind fuel n c T T' EO Hn Hk HT.
  pose proof (C51_cache_stays_in_order p env' conf node kind fuel (mkWorld c n []) EO Hn Hk) as H. cbn [w_n w_cache] in H.
  destruct (perform p env' fuel (new_lookup conf node kind, mkWorld c n [])) as [r [l w']]. intros HT' Hc.
  eapply cache_later; [exact HT'|]. apply H. eapply cache_later; eassumption.
Qed.
Print Assumptions C51_other_lookups_qualify.

(** An order-keeping run that stores something: see [C52_refuted_ns_owners]. *)

(** * C52 *)
(** Missing: name server records, see [C52_refuted_ns_owners]. *)
Theorem C52_owners_partial : forall env w node kind rs w',
  env_ok plain_record env -> cache_ok plain_record (ev_now (env (w_n w))) (w_cache w) ->
  search_records env node kind w = (Done rs, w') -> kind <> RT_NS ->
  Forall (fun r => r_node r = node /\ record_type r = kind) rs.
Proof.
  intros env w node kind rs w' EO Hw H Hk. destruct rs as [|r rs]; [constructor|].
  destruct (C50_ttl_is_what_is_left env w node kind (r :: rs) w' H ltac:(discriminate)) as (exp & stored & Ec & _ & ->).
  pose proof (eo_others plain_record env EO _ _ Hw) as (_ & D). specialize (D _ _ _ Ec). destruct D as (_ & _ & Ht & _ & Ho & _). cbn [fst snd] in *.
  specialize (Ho Hk). apply Forall_map. rewrite Forall_forall in *. intros x Hx. split; [exact (Ho x Hx)|exact (Ht x Hx)].
Qed.
Print Assumptions C52_owners_partial.

Theorem C52_nonvacuous : exists w, cache_ok plain_record 0 (w_cache w) /\ fst (search_records env_clock (s2b "a.") RT_A w) = Done [ex_a].
Proof.
  exists (mkWorld (mkCache (upd rkey_eqb (fun _ => None) (s2b "a.", RT_A) (Some (5 * SECOND, [ex_a])%N)) false) 0 []). split; [|vm_compute; reflexivity].
  split; [reflexivity|]. cbn [w_cache c_data]. intros k exp rs H. unfold upd in H. destruct (rkey_eqb _ k) eqn:Ek; [|discriminate].
  apply rkey_eqb_eq in Ek. subst k. injection H as <- <-. repeat split.
  - discriminate.
  - repeat constructor; try (apply checked_accepted; vm_compute; reflexivity); vm_compute; reflexivity.
  - repeat constructor.
  - exists 5%N. split; [repeat constructor|]. vm_compute; discriminate.
  - intros _. repeat constructor.
  - exists ex_a, []. now split.
Qed.

(** Refutation: a root server delegates www.example.com. with name server records of two
    zones; the lookup stores both under the first zone, and a later search for the name
    servers of "com." returns one of "example.com.". *)
Definition ns_com : record := rec_ (s2b "com.") 60 (D_NS (s2b "a.")).
Definition ns_example : record := rec_ (s2b "example.com.") 60 (D_NS (s2b "b.")).
Definition env_mixed : environment :=
  script (at_event 5 (packet RC_NoError false [] [ns_com; ns_example] [rec_ (s2b "a.") 60 (D_A [1; 2; 3; 4]%N)]) silence).
Lemma env_mixed_ok : env_ok plain_record env_mixed.
Proof. apply script_ok, script_bytes; [|apply silence_bytes]. apply checked_bytes. vm_compute. reflexivity. Qed.
Theorem C52_refuted_ns_owners : env_ok plain_record env_mixed /\
  let '(_, (_, w)) := perform Release env_mixed 6 (new_lookup conf0 (s2b "www.example.com.") RT_A, world0) in
  exists rs, fst (search_records env_mixed (s2b "com.") RT_NS w) = Done rs /\ map r_node rs = [s2b "com."; s2b "example.com."].
Proof.
  split.
  - exact env_mixed_ok.
  - vm_compute. eexists. split; reflexivity.
Qed.
Print Assumptions C52_refuted_ns_owners.
