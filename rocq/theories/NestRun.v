(** Runs among servers that speak of certain zones only (C91). *)
From Verif Require Import Base Types Name NameSpec NameProofs Codec CodecSpec NsSpec Cache Resolver ResolverLists ResolverSpec ResolverInv ResolverRun ResolverFacts ResolverEx PropResolver1 PropResolver2 PropResolver3 Trace TraceSpec PropTrace ResolverNest NestSpec.

Lemma zones_class : forall p env Z, (forall n a x d, ev_net (env n) a x = Some d -> is_bytes d) -> In [46%N] Z ->
  (forall n a x d m, ev_net (env n) a x = Some d -> decode_message p (firstn 512 d) = Done (Ok m) -> h_id (m_header m) = ev_id (env n) -> Forall (of_zones Z) (all_records m)) ->
  class_ok p env (known_zones Z).
Proof.
  intros p env Z Hb Hr Hn. destruct (plain_is_a_class p env Hb) as [C1 C2 C3 C4]. split.
  - intros r (H & _). now apply C1.
  - intros r t (H & H0) Ht. split; [exact (C2 _ t H Ht)|]. exact H0.
  - rewrite Forall_forall in C3 |- *. intros s Hs. destruct (C3 s Hs) as (A & B). unfold root_zone_nameservers in Hs. apply in_map_iff in Hs as (x & <- & Hx). split.
    + split; [exact A|]. intros t Et. exact Hr.
    + cbn [n_addrs] in *. constructor; [|constructor]. inversion B; subst. split; [assumption|]. discriminate.
  - intros n a x d m En Ed Ei. pose proof (C4 n a x d m En Ed Ei) as H. specialize (Hn n a x d m En Ed Ei). rewrite Forall_forall in *. intros r Hin. split; [now apply H|now apply Hn].
Qed.
Lemma known_zone : forall Z r, known_zones Z r -> record_type r = RT_NS -> In (r_node r) Z.
Proof. intros Z r (_ & H) T. destruct (type_NS r T) as (n & E). exact (H n E). Qed.


(** The cache stays so, whatever the outcome; and the trace is not nested deeply. *)
Lemma zones_run : forall p env conf node kind w fuel Z, only_zones p env Z -> cache_ok (known_zones Z) (ev_now (env (w_n w))) (w_cache w) -> accepted node -> usable_type kind ->
  let '(_, (l', w')) := perform p env fuel (new_lookup conf node kind, w) in
  cache_ok (known_zones Z) (ev_now (env (w_n w'))) (w_cache w') /\ nesting (l_trace l') <= length Z.
Proof.
  intros p env conf node kind w fuel Z [R E N] Hw Hn Hk. pose proof (zones_class p env Z (eo_bytes _ _ E) R N) as CO. destruct finitely_many_names as (U & HU).
  pose proof (run_nest p env (known_zones Z) conf node kind w fuel Z E CO Hw Hn Hk (known_zone Z)) as D.
  pose proof (run_class p env (known_zones Z) (fun _ => True) False False conf node kind w fuel U E CO ltac:(intros n _ a x d m _ _ _ _ _ nd kd _ _ _ _; exact Logic.I) Hw Hn Hk ltac:(tauto) ltac:(tauto) ltac:(tauto) HU ltac:(tauto)) as S.
  destruct (perform p env fuel (new_lookup conf node kind, w)) as [[r|k|] [l w']]; cbn [okL fst snd] in *; (split; [apply S|exact D]).
Qed.
