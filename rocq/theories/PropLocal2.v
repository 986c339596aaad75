(** C56, C60, C61, C70, C75 and C77, in terms of the replies a lookup received (C90). *)
From Verif Require Import Base Buffer Reader Types Name NameSpec NameProofs Codec CodecSpec CodecWrite CodecMessage CodecFacts PropCodec1 PropCodec2 PropCodec3 EncodeTotal Zone ZoneSpec NsHandler NsSpec
  Cache Resolver ResolverLists ResolverSpec ResolverInv ResolverRun ResolverFacts ResolverFuel ResolverEx PropResolver1 PropResolver2 PropResolver3 PropResolver4 Trace TraceSpec PropTrace RsHandler
  PropNs PropNs2 CrashSpec PropCrash CrashSpec2 PropRs PropCrash2 LocalSpec PropLocal LocalSpec2.

Definition packet_eqb (a b : list N * list N) : bool := bytes_eqb (fst a) (fst b) && bytes_eqb (snd a) (snd b).
Lemma packet_eqb_ok : forall a b, packet_eqb a b = true <-> a = b.
Proof.
  intros [a1 a2] [b1 b2]. unfold packet_eqb. cbn [fst snd]. rewrite Bool.andb_true_iff, !bytes_eqb_eq. split; [intros (-> & ->); reflexivity|intros [= -> ->]; now split].
Qed.
Definition was_sent (ex : list exchange) (n : nat) (a x : list N) : bool := existsb (fun y => (fst y =? n) && packet_eqb (snd y) (a, x)) ex.
Lemma was_sent_ok : forall ex n a x, was_sent ex n a x = true <-> In (n, (a, x)) ex.
Proof.
  intros ex n a x. unfold was_sent. rewrite existsb_exists. split.
  - intros ([n' y] & Hin & H). cbn [fst snd] in H. apply Bool.andb_true_iff in H as (H1 & H2). apply Nat.eqb_eq in H1. apply packet_eqb_ok in H2. now subst.
  - intros Hin. exists (n, (a, x)). split; [exact Hin|]. cbn [fst snd]. rewrite Nat.eqb_refl. now apply packet_eqb_ok.
Qed.

(** The same environment where nothing happens but to this lookup: no other packets arrive, the
    clock stands still before and after, other threads do nothing then. *)
Definition confined (lo hi : nat) (ex : list exchange) (env : environment) : environment := fun n =>
  let inside := (lo <=? n) && (n <? hi) in
  let still := ev_now (env (if n <? lo then lo else hi)) in
  mkEv (if inside then ev_now (env n) else still) (if inside then ev_now' (env n) else still)
       (fun c => if inside then ev_others (env n) c else c) (ev_id (env n))
       (fun a x => if was_sent ex n a x then ev_net (env n) a x else None).

Section Confined.
  Context (env : environment) (lo hi : nat) (ex : list exchange) (Hlh : lo <= hi).
  Notation cenv := (confined lo hi ex env).

  Lemma confined_same : same_for lo hi ex env cenv.
  Proof.
    assert (I0 : forall n, lo <= n < hi -> (lo <=? n) && (n <? hi) = true) by (intros n Hn; apply Bool.andb_true_iff; split; [now apply Nat.leb_le|now apply Nat.ltb_lt]).
    split.
    - intros n Hn. unfold confined. cbn [ev_now ev_now']. rewrite (I0 n Hn). now split.
    - intros n c Hn. unfold confined. cbn [ev_others]. now rewrite (I0 n Hn).
    - reflexivity.
    - intros n a x Hin. unfold confined. cbn [ev_net]. apply was_sent_ok in Hin. now rewrite Hin.
  Qed.
  Lemma confined_net : forall n a x d, ev_net (cenv n) a x = Some d -> In (n, (a, x)) ex /\ ev_net (env n) a x = Some d.
  Proof. intros n a x d. unfold confined. cbn [ev_net]. destruct (was_sent ex n a x) eqn:E; [|discriminate]. intros H. split; [now apply was_sent_ok|exact H]. Qed.
  Lemma confined_id : forall n, ev_id (cenv n) = ev_id (env n). Proof. reflexivity. Qed.
  Lemma confined_received : forall n a x d, ev_net (cenv n) a x = Some d -> received env ex n x d.
  Proof. intros n a x d H. exists a. now apply confined_net. Qed.
  Lemma confined_taken : forall p n a x d m, ev_net (cenv n) a x = Some d -> decode_message p (firstn 512 d) = Done (Ok m) -> h_id (m_header m) = ev_id (cenv n) -> taken p env ex n x m.
  Proof. intros p n a x d m H E Ei. exists d. split; [now apply (confined_received n a)|]. now split. Qed.

  Lemma confined_cases : forall n, (lo <= n < hi /\ (lo <=? n) && (n <? hi) = true) \/ ((lo <=? n) && (n <? hi) = false /\ (n < lo \/ hi <= n)).
  Proof. intros n. destruct (Nat.leb_spec lo n); destruct (Nat.ltb_spec n hi); cbn [andb]; [left; split; [lia|reflexivity]|right..]; (split; [reflexivity|lia]). Qed.
  Lemma confined_quick : (forall n, lo <= n < hi -> (ev_now' (env n) < ev_now (env n) + SECOND)%N) -> forall n, (ev_now' (cenv n) < ev_now (cenv n) + SECOND)%N.
  Proof.
    intros H n. unfold confined. cbn [ev_now ev_now']. destruct (confined_cases n) as [(Hn & ->)|(-> & _)]; [now apply H|]. unfold SECOND. lia.
  Qed.
  Lemma forward_far : real env -> forall n k, (ev_now (env n) <= ev_now (env (n + k)%nat))%N.
  Proof.
    intros R n k. induction k as [|k IH]; [rewrite Nat.add_0_r; lia|]. destruct (re_forward _ R (n + k)) as (A & B). replace (n + S k) with (S (n + k)) by lia. lia.
  Qed.
  Lemma confined_ok : forall good, real env -> (forall n c, lo <= n < hi -> cache_ok good (ev_now (env n)) c -> cache_ok good (ev_now' (env n)) (ev_others (env n) c)) -> env_ok good cenv.
  Proof.
    intros good R Ho. split.
    - intros n. destruct (re_forward _ R n) as (A & B). unfold confined. cbn [ev_now ev_now'].
      destruct (confined_cases n) as [(Hn & ->)|(-> & Hn)].
      + split; [exact A|]. destruct (confined_cases (S n)) as [(Hn' & ->)|(-> & Hn')]; [exact B|].
        destruct (Nat.ltb_spec (S n) lo); [lia|]. replace hi with (S n) by lia. exact B.
      + split; [lia|]. destruct (confined_cases (S n)) as [(Hn' & ->)|(-> & Hn')].
        * destruct (Nat.ltb_spec n lo); [|lia]. replace lo with (S n) by lia. lia.
        * destruct (Nat.ltb_spec n lo), (Nat.ltb_spec (S n) lo); try lia. replace hi with (lo + (hi - lo)) by lia. apply forward_far. exact R.
    - intros n. unfold confined. cbn [ev_now']. destruct (confined_cases n) as [(Hn & ->)|(-> & Hn)]; [apply R|].
      destruct (re_forward _ R (if n <? lo then lo else hi)) as (A & _). pose proof (re_end _ R (if n <? lo then lo else hi)). lia.
    - intros n a x d H. apply confined_net in H as (_ & H). exact (re_bytes _ R n a x d H).
    - intros n. apply R.
    - intros n c. unfold confined. cbn [ev_now ev_now' ev_others]. destruct (confined_cases n) as [(Hn & ->)|(-> & Hn)]; [now apply Ho|auto].
  Qed.
  Lemma confined_start : forall good c, lo <= hi -> cache_ok good (ev_now (env lo)) c -> cache_ok good (ev_now (cenv lo)) c.
  Proof.
    intros good c L H. unfold confined. cbn [ev_now]. destruct (confined_cases lo) as [(Hn & ->)|(-> & Hn)]; [exact H|].
    destruct (Nat.ltb_spec lo lo); [lia|]. replace hi with lo by lia. exact H.
  Qed.
End Confined.

Lemma env_real : forall good env, env_ok good env -> real env.
Proof. intros good env [A B C D _]. now split. Qed.

(** The run of a lookup, in the confined environment. *)
Lemma run_confined : forall p env fuel l w o l' w', perform p env fuel (l, w) = (o, (l', w')) ->
  exists ex, w_n w <= w_n w' /\ exchanges w w' ex /\ perform p (confined (w_n w) (w_n w') ex env) fuel (l, w) = (o, (l', w')).
Proof.
  intros p env fuel l w o l' w' E. destruct (llocal_perform p fuel env (l, w) o (l', w') E) as (ex & L & X & G). cbn [snd] in *. exists ex. split; [exact L|]. split; [exact X|].
  apply G. apply confined_same.
Qed.

(** * C61: a lookup that nothing upsets does not panic. *)
Theorem C61_calm_replies_do_not_panic_partial : forall p env conf node kind w fuel o l' w',
  real env -> accepted node -> usable_type kind -> 0 < max_ns conf -> 0 < max_retries conf ->
  perform p env fuel (new_lookup conf node kind, w) = (o, (l', w')) ->
  exists ex, exchanges w w' ex /\
  forall denied, cache_ok (serving denied) (ev_now (env (w_n w))) (w_cache w) -> calm_run p env denied w w' ex -> forall k, o <> Panic k.
Proof.
  intros p env conf node kind w fuel o l' w' R Hn Hk H1 H2 E. destruct (run_confined _ _ _ _ _ _ _ _ E) as (ex & L & X & G). exists ex. split; [exact X|].
  intros denied Hw [Co Cd Cx Cs Cr Cq] k.
  pose proof (C61_calm_lookups_do_not_panic_partial p (confined (w_n w) (w_n w') ex env) denied conf node kind w fuel) as T. rewrite G in T. cbn [fst] in T. apply T; try assumption.
  - apply confined_ok; [exact L|exact R|exact Co].
  - now apply confined_start.
  - intros n a x d k' H Ek. apply confined_received in H. destruct (Cd n x d H) as (r & Er). congruence.
  - intros n a x d m H Ed Ei Rc Aa nd kd Ex. apply (Cx n x m) with (type := kd); [eapply confined_taken; eassumption|exact Rc|exact Aa|exact Ex].
  - intros n a x d m r t H Ed Ei Hin Et. apply (Cs n x m r t); [eapply confined_taken; eassumption|exact Hin|exact Et].
  - apply confined_quick; [exact L|exact Cq].
Qed.
Print Assumptions C61_calm_replies_do_not_panic_partial.

(** * C56: a lookup never ends only if it received a packet on which the decoder never ends. *)
Lemma hang_among : forall p env ex, (exists n x d, received env ex n x d /\ decode_message p (firstn 512 d) = Diverge) \/ (forall n x d, received env ex n x d -> decode_message p (firstn 512 d) <> Diverge).
Proof.
  intros p env ex. induction ex as [|[n [a x]] ex IH]; [right; intros n x d (a & H & _); destruct H|].
  destruct IH as [(n' & x' & d & (a' & H1 & H2) & H3)|IH].
  - left. exists n', x', d. split; [exists a'; split; [now right|exact H2]|exact H3].
  - assert (C : (exists d, ev_net (env n) a x = Some d /\ decode_message p (firstn 512 d) = Diverge) \/ (forall d, ev_net (env n) a x = Some d -> decode_message p (firstn 512 d) <> Diverge)).
    { destruct (ev_net (env n) a x) as [d|]; [|right; discriminate]. destruct (decode_message p (firstn 512 d)) as [r|k|] eqn:Ed.
      - right. intros d' [= <-]. congruence.
      - right. intros d' [= <-]. congruence.
      - left. now exists d. }
    destruct C as [(d & H1 & H2)|C].
    + left. exists n, x, d. split; [exists a; split; [now left|exact H1]|exact H2].
    + right. intros n' x' d (a' & [H|H] & Hd); [|apply (IH n' x' d); now exists a'].
      injection H as <- <- <-. now apply C.
Qed.
Theorem C56_only_a_received_packet_hangs : exists F, forall p env conf node kind w fuel l' w',
  env_ok plain_record env -> cache_ok plain_record (ev_now (env (w_n w))) (w_cache w) -> accepted node -> usable_type kind ->
  F <= fuel -> perform p env fuel (new_lookup conf node kind, w) = (Diverge, (l', w')) ->
  exists ex n x d, exchanges w w' ex /\ received env ex n x d /\ decode_message p (firstn 512 d) = Diverge.
Proof.
  destruct C56_lookups_terminate as (F & T). exists F. intros p env conf node kind w fuel l' w' EO Hw Hn Hk Hf E.
  destruct (run_confined _ _ _ _ _ _ _ _ E) as (ex & L & X & G). exists ex.
  destruct (hang_among p env ex) as [(n & x & d & H1 & H2)|H]; [exists n, x, d; split; [exact X|]; split; [exact H1|exact H2]|]. exfalso.
  destruct (T p (confined (w_n w) (w_n w') ex env) conf node kind w) as (r & s' & D & R).
  - apply confined_ok; [exact L|exact (env_real _ _ EO)|intros n c _; apply EO].
  - now apply confined_start.
  - exact Hn.
  - exact Hk.
  - intros n a x d H0. apply confined_received in H0. exact (H n x d H0).
  - rewrite (R fuel Hf) in G. apply D. congruence.
Qed.
Print Assumptions C56_only_a_received_packet_hangs.

(** * C60, C77, C75 *)
Lemma origin_comes_from : forall p env lo hi ex known r, origin p (confined lo hi ex env) known r -> comes_from p env ex known r.
Proof.
  intros p env lo hi ex known r (r0 & t & E & [H|[H|H]]); exists r0, t; (split; [exact E|]); [now left|right; now left|right; right].
  destruct H as (n & a & x & d & m & H1 & H2 & H3 & H4). exists n, x, m. split; [eapply confined_taken; eassumption|exact H4].
Qed.
Lemma comes_from_origin : forall p env lo hi ex known r, comes_from p env ex known r -> origin p (confined lo hi ex env) known r.
Proof.
  intros p env lo hi ex known r (r0 & t & E & [H|[H|H]]); exists r0, t; (split; [exact E|]); [now left|right; now left|right; right].
  destruct H as (n & x & m & (d & (a & Ha & Hd) & H2 & H3) & H4). exists n, a, x, d, m. split; [|now repeat split].
  rewrite (sf_net _ _ _ _ _ (confined_same env lo hi ex) n a x Ha). exact Hd.
Qed.
Lemma cache_ok_equiv : forall (g h : record -> Prop) T c, (forall r, g r -> h r) -> cache_ok g T c -> cache_ok h T c.
Proof.
  intros g h T c H (A & B). split; [exact A|]. intros k exp rs E. destruct (B k exp rs E) as (B1 & B2 & B3). split; [exact B1|]. split; [eapply Forall_impl; [exact H|exact B2]|exact B3].
Qed.
Lemma sourced_equiv : forall p env lo hi ex known r, sourced p env ex known r <-> traced_record p (confined lo hi ex env) known r.
Proof. intros. unfold sourced, traced_record. split; intros (A & B); (split; [exact A|]); [now apply comes_from_origin|now apply origin_comes_from in B]. Qed.
Lemma confined_sourced : forall p env w w' ex known, w_n w <= w_n w' -> real env -> others_store (sourced p env ex known) env w w' ->
  env_ok (traced_record p (confined (w_n w) (w_n w') ex env) known) (confined (w_n w) (w_n w') ex env).
Proof.
  intros p env w w' ex known L R Ho. apply confined_ok; [exact L|exact R|]. intros n c Hn Hc.
  eapply cache_ok_equiv; [intros r Hr; apply sourced_equiv; exact Hr|]. apply Ho; [exact Hn|]. eapply cache_ok_equiv; [intros r Hr; eapply sourced_equiv; exact Hr|exact Hc].
Qed.

(** Every record of an answer, and everything in the cache afterwards, was known before, is a
    root server's, or was in a reply this lookup took. *)
Theorem C60_every_record_was_received_partial : forall p env conf node kind w fuel o l' w',
  real env -> accepted node -> usable_type kind ->
  perform p env fuel (new_lookup conf node kind, w) = (o, (l', w')) ->
  exists ex, exchanges w w' ex /\
  forall known, cache_ok (sourced p env ex known) (ev_now (env (w_n w))) (w_cache w) -> others_store (sourced p env ex known) env w w' ->
  (forall k exp rs, c_data (w_cache w') k = Some (exp, rs) -> Forall (comes_from p env ex known) rs) /\
  (forall x, o = Done (Ok x) -> Forall (comes_from p env ex known) (x_answers x ++ x_authorities x ++ x_additionals x)).
Proof.
  intros p env conf node kind w fuel o l' w' R Hn Hk E. destruct (run_confined _ _ _ _ _ _ _ _ E) as (ex & L & X & G). exists ex. split; [exact X|].
  intros known Hw Ho. pose proof (C60_every_record_has_an_origin_partial p (confined (w_n w) (w_n w') ex env) known conf node kind w fuel) as T. rewrite G in T.
  destruct T as (T1 & T2); [now apply confined_sourced| |exact Hn|exact Hk|].
  - apply confined_start; [exact L|exact L|]. eapply cache_ok_equiv; [intros r Hr; apply sourced_equiv; exact Hr|exact Hw].
  - split.
    + intros k exp rs H. eapply Forall_impl; [|exact (T1 k exp rs H)]. intros r Hr. now apply origin_comes_from in Hr.
    + intros x Hx. eapply Forall_impl; [|exact (T2 x Hx)]. intros r Hr. now apply origin_comes_from in Hr.
Qed.
Print Assumptions C60_every_record_was_received_partial.

Lemma may_ask_equiv : forall (g h : record -> Prop) node kind n k, (forall r, g r -> h r) -> may_ask g node kind n k -> may_ask h node kind n k.
Proof.
  intros g h node kind n k H M. induction M as [|c t k Hc Et M IH|r t Hr Et]; [apply MA_own| |].
  - apply (MA_alias _ _ _ c); auto.
  - apply (MA_server _ _ _ r); auto.
Qed.
(** A name is said not to exist only if a reply the lookup received and took denies it. *)
Theorem C77_no_such_name_was_received : forall p env conf node kind w fuel x l' w',
  real env -> accepted node -> usable_type kind ->
  perform p env fuel (new_lookup conf node kind, w) = (Done (Ok x), (l', w')) -> x_none x = true ->
  exists ex, exchanges w w' ex /\
  forall known, cache_ok (sourced p env ex known) (ev_now (env (w_n w))) (w_cache w) -> others_store (sourced p env ex known) env w w' ->
  exists last, alias_chain node (x_answers x) last /\ denied_to_it p env ex (may_ask (comes_from p env ex known) node kind) last.
Proof.
  intros p env conf node kind w fuel x l' w' R Hn Hk E Ex. destruct (run_confined _ _ _ _ _ _ _ _ E) as (ex & L & X & G). exists ex. split; [exact X|].
  intros known Hw Ho.
  destruct (C77_no_such_name_needs_a_denial p (confined (w_n w) (w_n w') ex env) known conf node kind w fuel x (l', w')) as (last & A & i & addr & query & d & m & k & Hi & D1 & D2 & D3 & D4 & D5 & D6 & body & D7 & D8); try assumption.
  - now apply confined_sourced.
  - apply confined_start; [exact L|exact L|]. eapply cache_ok_equiv; [intros r Hr; apply sourced_equiv; exact Hr|exact Hw].
  - exists last. split; [exact A|]. exists i, query, m, k. split; [eapply confined_taken; eassumption|]. split; [exact D4|]. split; [exact D5|].
    split; [eapply may_ask_equiv; [|exact D6]; intros r Hr; now apply origin_comes_from in Hr|]. exists body. split; [exact D7|exact D8].
Qed.
Print Assumptions C77_no_such_name_was_received.

(** Queries go to addresses, and ask about aliases and servers, that were known or received. *)
Theorem C75_queries_rely_on_what_was_received_partial : forall p env conf node kind w fuel o l' w',
  real env -> accepted node -> usable_type kind ->
  perform p env fuel (new_lookup conf node kind, w) = (o, (l', w')) ->
  exists ex, exchanges w w' ex /\
  forall known, cache_ok (sourced p env ex known) (ev_now (env (w_n w))) (w_cache w) -> others_store (sourced p env ex known) env w w' ->
  forall packet, In packet (w_sent w') -> In packet (w_sent w) \/ proper_query (comes_from p env ex known) (ids_from env (w_n w)) node kind packet.
Proof.
  intros p env conf node kind w fuel o l' w' R Hn Hk E. destruct (run_confined _ _ _ _ _ _ _ _ E) as (ex & L & X & G). exists ex. split; [exact X|].
  intros known Hw Ho packet Hp. pose proof (C75_queries_say_what_is_asked_partial p (confined (w_n w) (w_n w') ex env) known conf node kind w fuel) as T. rewrite G in T.
  destruct (T (confined_sourced p env w w' ex known L R Ho)
    (confined_start env (w_n w) (w_n w') ex L _ _ L (cache_ok_equiv _ _ _ _ (fun r Hr => proj1 (sourced_equiv p env (w_n w) (w_n w') ex known r) Hr) Hw)) Hn Hk packet Hp) as [H|H]; [now left|right].
  destruct H as (id & n & k & r & body & H1 & H2 & H3 & H4 & H5 & H6). exists id, n, k, r, body. split; [exact H1|].
  split; [eapply may_ask_equiv; [|exact H2]; intros r0 Hr; now apply origin_comes_from in Hr|]. split; [exact H3|]. split; [exact H4|].
  split; [now apply origin_comes_from in H5|exact H6].
Qed.
Print Assumptions C75_queries_rely_on_what_was_received_partial.

(** * C70: a query to the resolver gets a reply if nothing upsets its lookup. *)
Lemma calm_replies : exists F, forall p lg env conf l req q w fuel o k w' ex denied,
  query_packet p l req q -> env_ok plain_record env -> cache_ok plain_record (ev_now (env (w_n w))) (w_cache w) ->
  0 < max_ns conf -> 0 < max_retries conf -> F <= fuel ->
  perform p env fuel (new_lookup conf (q_node q) (q_type q), w) = (o, (k, w')) ->
  (p = Release \/ lg = false \/ nesting (l_trace k) <= 255) ->
  w_n w <= w_n w' -> perform p (confined (w_n w) (w_n w') ex env) fuel (new_lookup conf (q_node q) (q_type q), w) = (o, (k, w')) ->
  cache_ok (serving denied) (ev_now (env (w_n w))) (w_cache w) -> calm_run p env denied w w' ex ->
  exists r reply u t, o = Done r /\ mirrors_rec req reply /\ counts_say reply 1 /\ reports r reply /\
    encode_message_trunc p reply = Done (Ok u) /\ rs_serve_udp p lg env fuel conf l w = (Done (Some u), w') /\
    tcp_reply p reply = Done t /\ rs_serve_tcp p lg env fuel conf (on_tcp l) w = (Done (Some t), w').
Proof.
  destruct C56_lookups_terminate as (F & T). exists F.
  intros p lg env conf l req q w fuel o k w' ex denied (Hl & H512 & E & (V1 & V2 & V3 & V4) & V5) EO Hw H1 H2 Hf Ep Hlog L G Hwd C.
  pose proof (C20_decoded_is_supported p l req Hl E) as (Ho & Hq & _). rewrite V4 in Hq. inversion Hq as [|? ? (Hn & Hc & Hk) _]; subst. clear Hq.
  pose proof C as [Co Cd Cx Cs Cr Cq].
  assert (Hdone : exists r, o = Done r).
  { destruct o as [r|kp|]; [now exists r| |]; exfalso.
    - pose proof (C61_calm_lookups_do_not_panic_partial p (confined (w_n w) (w_n w') ex env) denied conf (q_node q) (q_type q) w fuel) as P. rewrite G in P. cbn [fst] in P. apply (P) with (k := kp); try assumption.
      + apply confined_ok; [exact L|exact (env_real _ _ EO)|exact Co].
      + now apply confined_start.
      + intros n a x d k' H Ek. apply confined_received in H. destruct (Cd n x d H) as (r & Er). congruence.
      + intros n a x d m H Ed Ei Rc Aa nd kd Ex. apply (Cx n x m) with (type := kd); [eapply confined_taken; eassumption|exact Rc|exact Aa|exact Ex].
      + intros n a x d m r t H Ed Ei Hin Et. apply (Cs n x m r t); [eapply confined_taken; eassumption|exact Hin|exact Et].
      + apply confined_quick; [exact L|exact Cq].
      + reflexivity.
    - destruct (T p (confined (w_n w) (w_n w') ex env) conf (q_node q) (q_type q) w) as (r & s' & D & R); try assumption.
      + apply confined_ok; [exact L|exact (env_real _ _ EO)|intros n c _; apply EO].
      + now apply confined_start.
      + intros n a x d H0 Ed. apply confined_received in H0. destruct (Cd n x d H0) as (r & Er). congruence.
      + rewrite (R fuel Hf) in G. apply D. congruence. }
  destruct Hdone as (r & ->).
  assert (Hv : a_query req q) by (now repeat split).
  pose proof (query_reply_encodable p env fuel conf w EO Hw l req q r (k, w') Hl E Hv Ep) as En.
  destruct (log_trace_ok p lg (l_trace k) Hlog) as (lo & Hlo).
  assert (Em : rs_handle_message p lg env fuel conf req w = (Done (rs_reply_to req r), w')).
  { unfold rs_handle_message. replace (rs_validate req) with true by (symmetry; apply validate_asks; now repeat split).
    unfold wbind at 1, wexec. rewrite V4. cbn [index nth_error]. unfold rs_handle_query, wbind, wexec. rewrite V4. cbn [index nth_error]. rewrite Ep, Hlo. reflexivity. }
  destruct (reply_reports req r) as (R1 & R2 & R3). rewrite V5 in R2.
  destruct (reply_both p _ En) as (u & t & Eu & Et).
  exists r, (rs_reply_to req r), u, t. split; [reflexivity|]. split; [exact R1|]. split; [exact R2|]. split; [exact R3|].
  split; [unfold udp_reply in Eu; destruct (encode_message_trunc p (rs_reply_to req r)) as [[x|e]|k0|]; cbn [bind] in Eu; congruence|].
  split; [|split; [exact Et|]].
  - unfold rs_serve_udp, udp_read, MAX_UDP_LEN_BYTES. rewrite firstn_all2 by assumption. exact (serve_done p lg env fuel conf l _ w req _ w' u E Em Eu).
  - unfold rs_serve_tcp. rewrite <- (app_nil_r (on_tcp l)), C38_request_framing by lia. exact (serve_done p lg env fuel conf l _ w req _ w' t E Em Et).
Qed.
Theorem C70_calm_replies_suffice_partial : exists F, forall p lg env conf l req q w fuel o k w',
  query_packet p l req q -> env_ok plain_record env -> cache_ok plain_record (ev_now (env (w_n w))) (w_cache w) ->
  0 < max_ns conf -> 0 < max_retries conf -> F <= fuel ->
  perform p env fuel (new_lookup conf (q_node q) (q_type q), w) = (o, (k, w')) ->
  (p = Release \/ lg = false \/ nesting (l_trace k) <= 255) ->
  exists ex, exchanges w w' ex /\
  forall denied, cache_ok (serving denied) (ev_now (env (w_n w))) (w_cache w) -> calm_run p env denied w w' ex ->
  exists r reply u t, o = Done r /\ mirrors_rec req reply /\ counts_say reply 1 /\ reports r reply /\
    encode_message_trunc p reply = Done (Ok u) /\ rs_serve_udp p lg env fuel conf l w = (Done (Some u), w') /\
    tcp_reply p reply = Done t /\ rs_serve_tcp p lg env fuel conf (on_tcp l) w = (Done (Some t), w').
Proof.
  destruct calm_replies as (F & T). exists F. intros p lg env conf l req q w fuel o k w' Q EO Hw H1 H2 Hf Ep Hlog.
  destruct (run_confined _ _ _ _ _ _ _ _ Ep) as (ex & L & X & G). exists ex. split; [exact X|]. intros denied Hwd C.
  exact (T p lg env conf l req q w fuel o k w' ex denied Q EO Hw H1 H2 Hf Ep Hlog L G Hwd C).
Qed.
Print Assumptions C70_calm_replies_suffice_partial.

(** * Examples *)
(** The servers of C61's example (they deny "nope.org."), in a hostile environment: all packets
    but the two this lookup sends are answered with one the decoder panics on, and after it
    all are; the clock leaps and the ids change then. *)
Definition nope_packets : list (list N * list N) := [([198; 41; 0; 4]%N, nope_query); ([9; 9; 9; 9]%N, nope_query)].
Definition env_trap : environment := fun n =>
  if n <? 8 then mkEv 0 0 (fun c => c) 7 (fun a x => if existsb (packet_eqb (a, x)) nope_packets then ev_net (env_nope n) a x else Some pkt_bad_pointer)
  else mkEv (if n =? 8 then 5000000000 else 7000000000) 7000000000 (fun c => c) (if n =? 8 then 7 else 8) (fun _ _ => Some pkt_bad_pointer).
Definition nope_exchanges : list exchange := combine [4; 7] nope_packets.
Definition nope_run (env : environment) := perform Release env 6 (new_lookup conf0 (s2b "nope.org.") RT_A, world0).
Definition nope_end : world := snd (snd (nope_run env_trap)).

Lemma trap_runs : fst (nope_run env_trap) = Done (Ok (mkResp [] [] [] true)) /\ w_n nope_end = 8 /\ w_sent nope_end = rev nope_packets.
Proof. vm_compute. repeat split. Qed.
Lemma trap_end : nope_run env_trap = (Done (Ok (mkResp [] [] [] true)), (fst (snd (nope_run env_trap)), nope_end)).
Proof. destruct trap_runs as (E & _). unfold nope_end. destruct (nope_run env_trap) as [o [l w]]. cbn [fst snd] in *. now rewrite E. Qed.
Lemma trap_net : forall n a x d, n < 8 -> In (a, x) nope_packets -> ev_net (env_trap n) a x = Some d -> ev_net (env_nope n) a x = Some d.
Proof.
  intros n a x d Hn Hin. unfold env_trap. apply Nat.ltb_lt in Hn. rewrite Hn. cbn [ev_net].
  assert (E : existsb (packet_eqb (a, x)) nope_packets = true) by (apply existsb_exists; exists (a, x); split; [exact Hin|now apply packet_eqb_ok]).
  rewrite E. auto.
Qed.
(** However the two packets are numbered, the replies are those of C61's example. *)
Lemma trap_received : forall ex n x d, exchanges world0 nope_end ex -> received env_trap ex n x d -> exists a, n < 8 /\ ev_net (env_nope n) a x = Some d.
Proof.
  intros ex n x d [X1 X2 _] (a & Hin & H). exists a. destruct trap_runs as (_ & E1 & E2).
  assert (Hn : n < 8). { rewrite Forall_forall in X2. specialize (X2 _ Hin). cbn [fst] in X2. rewrite E1 in X2. lia. }
  split; [exact Hn|]. apply trap_net; [exact Hn| |exact H]. change (w_sent world0) with (@nil (list N * list N)) in X1. rewrite app_nil_r, E2 in X1.
  apply (f_equal (@rev _)) in X1. rewrite !rev_involutive in X1. rewrite X1. now apply (in_map snd) in Hin.
Qed.
Lemma trap_bytes : forall n a x d, ev_net (env_trap n) a x = Some d -> is_bytes d.
Proof.
  intros n a x d. unfold env_trap. assert (B : is_bytes pkt_bad_pointer) by (apply checked_bytes; vm_compute; reflexivity).
  destruct (n <? 8); cbn [ev_net]; [|intros E; assert (X : d = pkt_bad_pointer) by congruence; now rewrite X].
  destruct (existsb (packet_eqb (a, x)) nope_packets); [|intros E; assert (X : d = pkt_bad_pointer) by congruence; now rewrite X].
  intros E. destruct C61_nonvacuous as (H & _). exact (eo_bytes _ _ H n a x d E).
Qed.
Lemma trap_real : real env_trap.
Proof.
  split.
  - intros n. unfold env_trap. destruct (Nat.ltb_spec n 8), (Nat.ltb_spec (S n) 8), (Nat.eqb_spec n 8), (Nat.eqb_spec (S n) 8); cbn [ev_now ev_now']; lia.
  - intros n. unfold env_trap. destruct (n <? 8); cbn [ev_now']; apply N.ltb_lt; vm_compute; reflexivity.
  - exact trap_bytes.
  - intros n. unfold env_trap, is_u16. destruct (n <? 8), (n =? 8); cbn [ev_id]; lia.
Qed.
Lemma trap_ok : forall good, env_ok good env_trap.
Proof.
  intros good. destruct trap_real as [A B C D]. split; try assumption. intros n c Hc. unfold env_trap in *. destruct (n <? 8); cbn [ev_now ev_now' ev_others] in *; [exact Hc|].
  destruct Hc as (Hc1 & Hc2). split; [exact Hc1|]. intros k exp rs E. destruct (Hc2 k exp rs E) as (H1 & H2 & H3). split; [exact H1|]. split; [exact H2|].
  destruct H3 as (H3 & (ttl & H4 & H5) & H6 & H7). split; [exact H3|]. split; [exists ttl; split; [exact H4|destruct (n =? 8); lia]|]. split; [exact H6|exact H7].
Qed.
Lemma trap_calm : forall ex, exchanges world0 nope_end ex -> calm_run Release env_trap nope_denied world0 nope_end ex.
Proof.
  intros ex X. destruct C61_nonvacuous as (_ & _ & _ & _ & H1 & H2 & H3 & _).
  assert (Q : forall n, n < 8 -> ev_id (env_trap n) = 7%N) by (intros n Hn; unfold env_trap; apply Nat.ltb_lt in Hn; rewrite Hn; reflexivity).
  assert (D : forall n a x d, ev_net (env_nope n) a x = Some d -> exists r, decode_message Release (firstn 512 d) = Done r).
  { intros n a x d E. apply env_nope_net in E as [(-> & _)| ->]; eexists; vm_compute; reflexivity. }
  split.
  - intros n c _. apply (eo_others _ _ (trap_ok (serving nope_denied))).
  - intros n x d H. destruct (trap_received ex n x d X H) as (a & _ & E). exact (D n a x d E).
  - intros n x m (d & H & Ed & Ei) Rc Aa name type Ee. destruct (trap_received ex n x d X H) as (a & Hn & E). rewrite (Q n Hn) in Ei, Ee.
    exact (H1 n a x d m E Ed Ei Rc Aa name type Ee).
  - intros n x m r t (d & H & Ed & Ei) Hin Et. destruct (trap_received ex n x d X H) as (a & Hn & E). rewrite (Q n Hn) in Ei.
    exact (H2 n a x d m r t E Ed Ei Hin Et).
  - exact H3.
  - destruct trap_runs as (_ & E1 & _). intros n Hn. rewrite E1 in Hn. unfold env_trap. destruct (Nat.ltb_spec n 8); [reflexivity|lia].
Qed.
Lemma nope_exchanges_ok : exchanges world0 nope_end nope_exchanges.
Proof.
  destruct trap_runs as (_ & E1 & E2). split.
  - rewrite E2. reflexivity.
  - rewrite E1. unfold nope_exchanges. constructor; [cbn; lia|]. constructor; [cbn; lia|constructor].
  - unfold nope_exchanges. cbn. repeat constructor.
Qed.

(** The lookup ends in the same way in both environments. In the hostile one C61's and C70's
    hypotheses about all packets do not hold, those about the packets received do. *)
Theorem C90_nonvacuous :
  nope_run env_nope = nope_run env_trap /\ exchanges world0 nope_end nope_exchanges /\ w_n nope_end = 8 /\
  same_for 0 8 nope_exchanges env_trap env_nope /\
  (exists n a x d, n < 8 /\ ev_net (env_trap n) a x = Some d /\ decode_message Release (firstn 512 d) = Panic PExplicit).
Proof.
  destruct trap_runs as (_ & E1 & E2). split; [vm_compute; reflexivity|]. split; [exact nope_exchanges_ok|]. split; [exact E1|]. split.
  - split.
    + intros n Hn. unfold env_trap. destruct (Nat.ltb_spec n 8); [|lia]. now split.
    + intros n c Hn. unfold env_trap. destruct (Nat.ltb_spec n 8); [|lia]. reflexivity.
    + intros n Hn. unfold env_trap. destruct (Nat.ltb_spec n 8); [reflexivity|]. replace n with 8 by lia. reflexivity.
    + intros n a x Hin. change (In (n, (a, x)) [(4, ([198; 41; 0; 4]%N, nope_query)); (7, ([9; 9; 9; 9]%N, nope_query))]) in Hin.
      destruct Hin as [H|[H|[]]]; apply pair_equal_spec in H as (<- & H); apply pair_equal_spec in H as (<- & <-); vm_compute; reflexivity.
  - exists 4, [1; 1; 1; 1]%N, [], pkt_bad_pointer. split; [lia|]. split; vm_compute; reflexivity.
Qed.
Print Assumptions C90_nonvacuous.

Theorem C90_calm_nonvacuous : real env_trap /\ env_ok plain_record env_trap /\
  cache_ok (serving nope_denied) (ev_now (env_trap (w_n world0))) (w_cache world0) /\
  (forall ex, exchanges world0 nope_end ex -> calm_run Release env_trap nope_denied world0 nope_end ex) /\
  query_packet Release nope_request (ex_req (s2b "nope.org.") RT_A) (mkQ (s2b "nope.org.") RT_A C_IN) /\
  nope_run env_trap = (Done (Ok (mkResp [] [] [] true)), (fst (snd (nope_run env_trap)), nope_end)) /\
  nesting (l_trace (fst (snd (nope_run env_trap)))) <= 255.
Proof.
  split; [exact trap_real|]. split; [apply trap_ok|]. split; [apply world0_ok|]. split; [exact trap_calm|]. split; [apply C70_nonvacuous|]. split; [exact trap_end|].
  apply Nat.leb_le. vm_compute. reflexivity.
Qed.
Print Assumptions C90_calm_nonvacuous.

(** A packet that hangs release builds: so does the lookup, whatever the fuel. *)
Definition env_hang : environment := script (fun _ => Some pkt_wks).
Theorem C56_hang_nonvacuous : env_ok plain_record env_hang /\ cache_ok plain_record (ev_now (env_hang (w_n world0))) (w_cache world0) /\
  accepted (s2b "a.b.") /\ usable_type RT_A /\ forall f, fst (perform Release env_hang (S (S f)) (new_lookup conf0 (s2b "a.b.") RT_A, world0)) = Diverge.
Proof.
  split; [|split; [apply world0_ok|split; [apply checked_accepted; vm_compute; reflexivity|split; [unfold usable_type; tauto|]]]].
  - apply script_ok. intros n d E. assert (X : d = pkt_wks) by congruence. rewrite X. apply checked_bytes. vm_compute. reflexivity.
  - intros f. vm_compute. reflexivity.
Qed.
Print Assumptions C56_hang_nonvacuous.

(** C60 and C77: the lookup of "alias.org.", an alias of "nope.org.", which is denied. *)
Theorem C77_received_nonvacuous : real env_denial /\ (forall ex w', cache_ok (sourced Release env_denial ex (fun _ => False)) (ev_now (env_denial (w_n world0))) (w_cache world0) /\
    others_store (sourced Release env_denial ex (fun _ => False)) env_denial world0 w') /\
  exists x l' w', perform Release env_denial 6 (new_lookup conf0 (s2b "alias.org.") RT_A, world0) = (Done (Ok x), (l', w')) /\ x_none x = true /\ map r_data (x_answers x) = [D_CNAME (s2b "nope.org.")].
Proof.
  destruct C77_nonvacuous as (A & _ & _ & x & [l' w'] & E1 & E2 & E3). split; [exact (env_real _ _ A)|]. split.
  - intros ex w''. split; [apply world0_ok|]. intros n c _ Hc. exact Hc.
  - exists x, l', w'. split; [exact E1|]. split; [exact E2|exact E3].
Qed.
Print Assumptions C77_received_nonvacuous.
