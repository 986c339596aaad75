(** C80: tracing does not change what a lookup does. *)
From Verif Require Import Base Types Name NameSpec NameProofs Codec CodecSpec NsSpec Cache Resolver ResolverLists ResolverSpec ResolverInv ResolverRun ResolverFacts ResolverEx PropResolver2 PropResolver3.

(** Two configurations that differ in the tracing flags only. *)
Definition same_but_tracing (c1 c2 : rconf) : Prop :=
  max_ns c1 = max_ns c2 /\ max_retries c1 = max_retries c2 /\ max_cname c1 = max_cname c2 /\ no_follow c1 = no_follow c2.

Definition named (s : nsrv) : Prop := exists n, ns_node s = Done n.
(** Two runs in step: only traces and tracing flags differ. *)
Definition twins (s1 s2 : lookup * world) : Prop :=
  l_node (fst s1) = l_node (fst s2) /\ l_kind (fst s1) = l_kind (fst s2) /\ l_zones (fst s1) = l_zones (fst s2) /\ l_cnames (fst s1) = l_cnames (fst s2) /\
  l_next (fst s1) = l_next (fst s2) /\ same_but_tracing (l_conf (fst s1)) (l_conf (fst s2)) /\ snd s1 = snd s2 /\ Forall named (l_next (fst s1)).
Ltac twin := unfold twins; cbn [fst snd set_cnames set_node set_next push_line l_node l_kind l_zones l_cnames l_next l_conf] in *; repeat match goal with |- _ /\ _ => split end; first [assumption | reflexivity | solve [auto]].
Definition alike {A} (m1 m2 : L A) (Q : A -> Prop) : Prop :=
  forall s1 s2, twins s1 s2 -> fst (m1 s1) = fst (m2 s2) /\ twins (snd (m1 s1)) (snd (m2 s2)) /\ match fst (m1 s1) with Done a => Q a | _ => True end.

Lemma alike_bind : forall A B (m1 m2 : L A) (k1 k2 : A -> L B) Q R, alike m1 m2 Q -> (forall a, Q a -> alike (k1 a) (k2 a) R) -> alike (lbind m1 k1) (lbind m2 k2) R.
Proof.
  intros A B m1 m2 k1 k2 Q R Hm Hk s1 s2 T. unfold lbind. destruct (Hm s1 s2 T) as (E & T' & H). destruct (m1 s1) as [r1 t1]. destruct (m2 s2) as [r2 t2]. cbn [fst snd] in *. subst r2.
  destruct r1 as [a|q|]; [now apply Hk| |]; (split; [reflexivity|]); (split; [exact T'|exact I]).
Qed.
Lemma alike_ret : forall A (a : A) (Q : A -> Prop), Q a -> alike (lret a) (lret a) Q.
Proof. intros A a Q H s1 s2 T. split; [reflexivity|]. split; [exact T|exact H]. Qed.
Lemma alike_exec : forall A (m : exec A) (Q : A -> Prop), (forall a, m = Done a -> Q a) -> alike (lexec m) (lexec m) Q.
Proof. intros A m Q H s1 s2 T. cbn. split; [reflexivity|]. split; [exact T|]. destruct m; auto. Qed.
Lemma alike_get : forall A (f : lookup -> A) (Q : A -> Prop), (forall s1 s2, twins s1 s2 -> f (fst s1) = f (fst s2) /\ Q (f (fst s1))) -> alike (lget f) (lget f) Q.
Proof. intros A f Q H s1 s2 T. cbn. destruct (H s1 s2 T) as (E & H'). split; [now rewrite E|]. split; [exact T|exact H']. Qed.
Lemma alike_lw : forall A (m : W A) (Q : A -> Prop), (forall w, match fst (m w) with Done a => Q a | _ => True end) -> alike (lw m) (lw m) Q.
Proof.
  intros A m Q H [l1 w1] [l2 w2] T. unfold lw. cbn [fst snd] in *. pose proof T as (_ & _ & _ & _ & _ & _ & E & _). cbn [snd] in E. subst w2. specialize (H w1). destruct (m w1) as [r w]. cbn [fst snd] in *.
  split; [reflexivity|]. split; [|exact H]. destruct T as (T1 & T2 & T3 & T4 & T5 & T6 & _ & T8). twin.
Qed.
Lemma alike_trace : forall t1 t2, alike (trace t1) (trace t2) (fun _ => True).
Proof.
  intros t1 t2 [l1 w1] [l2 w2] T. unfold trace. cbn [fst snd]. split; [reflexivity|]. split; [|exact I]. destruct T as (T1 & T2 & T3 & T4 & T5 & T6 & T7 & T8).
  unfold twins in *. destruct (silent (l_conf l1)), (silent (l_conf l2)); cbn [fst snd push_line l_node l_kind l_zones l_cnames l_next l_conf] in *; twin.
Qed.
Lemma alike_trace_raw : forall t1 t2, alike (trace_raw t1) (trace_raw t2) (fun _ => True).
Proof.
  intros t1 t2 [l1 w1] [l2 w2] T. unfold trace_raw. cbn [fst snd]. split; [reflexivity|]. split; [|exact I]. destruct T as (T1 & T2 & T3 & T4 & T5 & T6 & T7 & T8).
  unfold twins in *. destruct (silent (l_conf l1)), (silent (l_conf l2)), (negb (verbose (l_conf l1))), (negb (verbose (l_conf l2))); cbn [fst snd push_line l_node l_kind l_zones l_cnames l_next l_conf] in *; twin.
Qed.
Lemma alike_set_cnames : forall c, alike (lmod (set_cnames c)) (lmod (set_cnames c)) (fun _ => True).
Proof. intros c s1 s2 (T1 & T2 & T3 & T4 & T5 & T6 & T7 & T8). cbn. split; [reflexivity|]. split; [|exact I]. twin. Qed.
Lemma alike_set_node : forall c, alike (lmod (set_node c)) (lmod (set_node c)) (fun _ => True).
Proof. intros c s1 s2 (T1 & T2 & T3 & T4 & T5 & T6 & T7 & T8). cbn. split; [reflexivity|]. split; [|exact I]. twin. Qed.
Lemma alike_set_next : forall c, Forall named c -> alike (lmod (set_next c)) (lmod (set_next c)) (fun _ => True).
Proof. intros c Hc s1 s2 (T1 & T2 & T3 & T4 & T5 & T6 & T7 & T8). cbn. split; [reflexivity|]. split; [|exact I]. twin. Qed.
Lemma alike_true : forall A (m1 m2 : L A) Q, alike m1 m2 Q -> alike m1 m2 (fun _ => True).
Proof. intros A m1 m2 Q H s1 s2 T. destruct (H s1 s2 T) as (H1 & H2 & _). split; [exact H1|]. split; [exact H2|]. now destruct (fst (m1 s1)). Qed.

Ltac getting := apply alike_get; intros ? ? (?T1 & ?T2 & ?T3 & ?T4 & ?T5 & ?T6 & ?T7 & ?T8); split; [assumption|try exact I].

Lemma named_servers : forall l, Forall (server_ok (fun _ => True)) l -> Forall named l.
Proof. intros l H. eapply Forall_impl; [|exact H]. intros s (_ & n & E & _). exists n. unfold ns_node, ns_data. now rewrite E. Qed.
Definition resp_named (r : result nsresp lerr) : Prop := match r with Ok (NR_Alias _ next) | Ok (NR_Delegation next) => Forall named next | _ => True end.
Lemma read_named : forall m node kind zone a, read_response m node kind zone = Done a -> resp_named a.
Proof.
  intros m node kind zone a E. destruct (read_response_ok (fun _ => True) m node kind zone) as (r & E' & R); [apply Forall_forall; intros; exact I|].
  rewrite E in E'. injection E' as <-. destruct a as [[soa|ans add|c next|next]|e]; try exact I; apply named_servers; apply R.
Qed.
Lemma alike_conf : forall A (f : rconf -> A), (forall c1 c2, same_but_tracing c1 c2 -> f c1 = f c2) -> alike (lget (fun l => f (l_conf l))) (lget (fun l => f (l_conf l))) (fun _ => True).
Proof. intros A f H. apply alike_get. intros s1 s2 (T1 & T2 & T3 & T4 & T5 & T6 & T7 & T8). split; [now apply H|exact I]. Qed.

Lemma alike_with_conf : forall A (k1 k2 : rconf -> L A) R, (forall c1 c2, same_but_tracing c1 c2 -> alike (k1 c1) (k2 c2) R) -> alike (lbind (lget l_conf) k1) (lbind (lget l_conf) k2) R.
Proof. intros A k1 k2 R H s1 s2 T. unfold lbind, lget. pose proof T as (_ & _ & _ & _ & _ & U & _). exact (H _ _ U s1 s2 T). Qed.

Section Alike.
  Context (p : profile) (env : environment).
  Lemma alike_trace_ns_req : forall n k s, named s -> alike (trace_ns_req n k s) (trace_ns_req n k s) (fun _ => True).
  Proof.
    intros n k s (x & Ex) [l1 w1] [l2 w2] T. unfold trace_ns_req, lbind, lget, lexec. cbn [fst]. rewrite Ex.
    destruct (silent (l_conf l1)) eqn:S1, (silent (l_conf l2)) eqn:S2; unfold trace, lret; cbn [fst snd]; rewrite ?S1, ?S2; (split; [reflexivity|]); (split; [|exact I]);
      destruct T as (T1 & T2 & T3 & T4 & T5 & T6 & T7 & T8); unfold twins in *; cbn [fst snd push_line l_node l_kind l_zones l_cnames l_next l_conf] in *; twin.
  Qed.
  Lemma alike_request : forall node kind s n, named s -> alike (perform_request_with_trace p env node kind s n) (perform_request_with_trace p env node kind s n) resp_named.
  Proof.
    intros node kind s n Hs. unfold perform_request_with_trace. eapply alike_bind; [now apply alike_trace_ns_req|]. intros _ _.
    apply (alike_bind _ _ _ _ _ _ resp_named).
    - unfold perform_request. eapply (alike_bind _ _ _ _ _ _ (fun _ => True)); [apply alike_lw; intros w; destruct (fst _); exact I|].
      intros [m|e] _; [|apply alike_ret; exact I]. eapply alike_bind; [apply alike_trace_raw|]. intros _ _. apply alike_exec. intros a E. exact (read_named _ _ _ _ _ E).
    - intros [x|e] H; (eapply alike_bind; [apply alike_trace|]); intros _ _; apply alike_ret; exact H.
  Qed.
  Lemma alike_search : forall kind, alike (search_records_with_trace env kind) (search_records_with_trace env kind) (fun _ => True).
  Proof.
    intros kind. unfold search_records_with_trace. eapply (alike_bind _ _ _ _ _ _ (fun _ => True)); [getting|]. intros node _.
    eapply (alike_bind _ _ _ _ _ _ (fun _ => True)); [apply alike_lw; intros w; destruct (fst _); exact I|]. intros rs _. eapply alike_bind; [apply alike_trace|]. intros _ _. now apply alike_ret.
  Qed.
  Lemma cached_named : forall rs w, match fst (cached_addrs env rs w) with Done l => Forall named l | _ => True end.
  Proof.
    induction rs as [|r rs IH]; intros w; cbn [cached_addrs]; [constructor|]. unfold wbind at 1, wexec. destruct (ns_data r) as [n|q|] eqn:E; try exact I.
    unfold wbind at 1. destruct (search_records env n RT_A w) as [[a|q|] w1]; try exact I. unfold wbind. specialize (IH w1). destruct (cached_addrs env rs w1) as [[l|q|] w2]; try exact I.
    cbn in *. constructor; [|exact IH]. exists n. exact E.
  Qed.
  Lemma alike_search_nss : alike (search_nss_with_trace env) (search_nss_with_trace env) (Forall named).
  Proof.
    unfold search_nss_with_trace. eapply (alike_bind _ _ _ _ _ _ (fun _ => True)); [getting|]. intros node _.
    eapply (alike_bind _ _ _ _ _ _ (fun _ => True)); [apply alike_lw; intros w; destruct (fst _); exact I|]. intros [|r rs] _.
    - eapply alike_bind; [apply alike_trace|]. intros _ _. apply alike_ret. constructor.
    - eapply (alike_bind _ _ _ _ _ _ (Forall named)); [apply alike_lw; apply cached_named|]. intros l Hl. eapply alike_bind; [apply alike_trace|]. intros _ _. now apply alike_ret.
  Qed.
  Lemma alike_cname : forall c next, Forall named next -> alike (handle_cname env c next) (handle_cname env c next) (fun _ => True).
  Proof.
    intros c next Hn. unfold handle_cname. eapply (alike_bind _ _ _ _ _ _ (fun _ => True)); [now apply alike_exec|]. intros cname _.
    eapply (alike_bind _ _ _ _ _ _ (fun _ => True)); [getting|]. intros prev _. destruct (detect_cname_loops _ _); [now apply alike_ret|].
    eapply alike_bind; [apply alike_set_cnames|]. intros _ _. eapply (alike_bind _ _ _ _ _ _ (fun _ => True)); [apply (alike_conf _ no_follow); intros c1 c2 H; apply H|].
    intros [|] _; [now apply alike_ret|]. eapply (alike_bind _ _ _ _ _ _ (fun _ => True)); [apply alike_lw; intros w; destruct (fst _); exact I|]. intros _ _.
    eapply alike_bind; [now apply alike_set_next|]. intros _ _. eapply alike_bind; [apply alike_set_node|]. intros _ _. now apply alike_ret.
  Qed.
  Section Sub.
    Context (sub : L (result response lerr)) (Hsub : alike sub sub (fun _ => True)).
    Lemma alike_subquery : forall node zone, alike (resolve_ns_subquery sub node zone) (resolve_ns_subquery sub node zone) (fun _ => True).
    Proof.
      intros node zone. unfold resolve_ns_subquery. eapply (alike_bind _ _ _ _ _ _ (fun _ => True)); [getting|]. intros zones _. destruct (detect_zones_loop _ _); [now apply alike_ret|].
      intros [l1 w1] [l2 w2] T. cbn [fst snd]. pose proof T as (T1 & T2 & T3 & T4 & T5 & T6 & T7 & T8). cbn [fst snd] in *. subst w2.
      set (i1 := mkLookup node RT_A (zones ++ [zone]) [] [] [] (no_follow_conf (l_conf l1))). set (i2 := mkLookup node RT_A (zones ++ [zone]) [] [] [] (no_follow_conf (l_conf l2))).
      assert (Ti : twins (i1, w1) (i2, w1)). { destruct T6 as (U1 & U2 & U3 & U4). repeat split; cbn; try assumption. constructor. }
      destruct (Hsub _ _ Ti) as (E & T' & _). destruct (sub (i1, w1)) as [r1 [j1 v1]]. destruct (sub (i2, w1)) as [r2 [j2 v2]]. cbn [fst snd] in *. subst r2.
      assert (v1 = v2) by apply T'. subst v2.
      destruct r1 as [r|q|]; (split; [reflexivity|]); (split; [|try exact I]); unfold lbind, add_sub_trace, lmod, lret, twins; cbn [fst snd push_line l_node l_kind l_zones l_cnames l_next l_conf]; twin.
    Qed.
    Lemma alike_servers : forall l err, Forall named l -> alike (query_servers p env sub l err) (query_servers p env sub l err) (fun a => match a with Asked_result r => resp_named r | Asked_next _ => True end).
    Proof.
      induction l as [|s l IH]; intros err Hl; cbn [query_servers]; [destruct err; [now apply alike_ret|now apply alike_exec]|]. inversion Hl as [|? ? Hs Hl']; subst.
      eapply (alike_bind _ _ _ _ _ _ (fun _ => True)); [now apply alike_exec|]. intros addrs _.
      apply (alike_bind _ _ _ _ _ _ (fun r => match r with Ok s' => named s' | Err _ => True end)).
      - destruct addrs; [|now apply alike_ret]. eapply (alike_bind _ _ _ _ _ _ (fun _ => True)); [now apply alike_exec|]. intros n _.
        eapply alike_bind; [apply alike_subquery|]. intros [a|e] _; apply alike_ret; [|exact I]. destruct Hs as (x & Ex). exists x. exact Ex.
      - intros [s'|e] H; [|now apply IH]. do 2 (eapply (alike_bind _ _ _ _ _ _ (fun _ => True)); [getting|]; intros ? _).
        apply alike_with_conf. intros c1 c2 (_ & U2 & _). rewrite <- U2. apply (alike_bind _ _ _ _ _ _ resp_named); [now apply alike_request|].
        intros [[soa|ans add|c next|next]|e] Hr; try (apply alike_ret; exact Hr).
        + eapply (alike_bind _ _ _ _ _ _ (fun _ => True)); [apply alike_lw; intros w; destruct (fst _); exact I|]. intros _ _. eapply alike_bind; [now apply alike_set_next|]. intros _ _. now apply alike_ret.
        + now apply IH.
    Qed.
    Lemma named_sorted : forall l a, Forall named l -> sort_nameservers l = Done a -> Forall named a.
    Proof.
      assert (Ins : forall x l a, named x -> Forall named l -> insert_ns x l = Done a -> Forall named a).
      { intros x. induction l as [|y l IH]; intros a Hx Hl E; cbn [insert_ns] in E; [injection E as <-; now repeat constructor|]. inversion Hl; subst.
        destruct (cmp_ns y x) as [c| |]; cbn [bind] in E; try discriminate E. destruct c; try (injection E as <-; now repeat constructor).
        destruct (insert_ns x l) as [t| |] eqn:Et; cbn [bind] in E; try discriminate E. injection E as <-. constructor; [assumption|]. now apply IH. }
      induction l as [|x l IH]; intros a Hl E; cbn [sort_nameservers] in E; [injection E as <-; constructor|]. inversion Hl; subst.
      destruct (sort_nameservers l) as [t| |]; cbn [bind] in E; try discriminate E. apply (Ins x t); auto.
    Qed.
    Lemma alike_zones : forall fuel, alike (query_zones p env sub fuel) (query_zones p env sub fuel) resp_named.
    Proof.
      induction fuel as [|fuel IH]; cbn [query_zones]; [apply alike_exec; discriminate|].
      eapply (alike_bind _ _ _ _ _ _ (Forall named)); [getting; assumption|]. intros [|s next] Hn; [apply alike_exec; discriminate|].
      eapply alike_bind; [apply alike_set_next; constructor|]. intros _ _. eapply (alike_bind _ _ _ _ _ _ (Forall named)); [apply alike_exec; intros a E; exact (named_sorted _ _ Hn E)|]. intros sorted Hs.
      apply alike_with_conf. intros c1 c2 (U1 & _). rewrite <- U1. eapply alike_bind.
      - apply alike_servers. apply Forall_forall. intros x Hx. rewrite Forall_forall in Hs. apply Hs. now apply firstn_incl in Hx.
      - intros [r|nx] Hr; [now apply alike_ret|exact IH].
    Qed.
    Lemma named_root : Forall named root_zone_nameservers.
    Proof. apply Forall_forall. intros s Hs. unfold root_zone_nameservers in Hs. apply in_map_iff in Hs as (x & <- & _). now exists (fst x). Qed.
    Lemma alike_inner : forall fuel n, alike (perform_inner p env sub fuel n) (perform_inner p env sub fuel n) (fun _ => True).
    Proof.
      intros fuel. induction n as [|n IH]; cbn [perform_inner]; [now apply alike_ret|].
      do 2 (eapply (alike_bind _ _ _ _ _ _ (fun _ => True)); [getting|]; intros ? _). eapply alike_bind; [apply alike_trace|]. intros _ _. eapply alike_bind; [apply alike_search|]. intros [|r rs] _.
      2:{ eapply (alike_bind _ _ _ _ _ _ (fun _ => True)); [getting|]. intros prev _. eapply alike_bind; [apply alike_set_cnames|]. intros _ _. now apply alike_ret. }
      eapply alike_bind; [apply alike_search|].
      assert (F : forall r next, Forall named next -> alike (let* x := handle_cname env r next in match x with Err e => lret (Err e) | Ok _ => perform_inner p env sub fuel n end)
                    (let* x := handle_cname env r next in match x with Err e => lret (Err e) | Ok _ => perform_inner p env sub fuel n end) (fun _ => True)).
      { intros r next Hn. eapply alike_bind; [now apply alike_cname|]. intros [u|e] _; [exact IH|now apply alike_ret]. }
      intros [|c cs] _; [|apply F; constructor]. eapply (alike_bind _ _ _ _ _ _ (Forall named)); [getting; assumption|]. intros next Hn.
      eapply (alike_bind _ _ _ _ _ _ (fun _ => True)).
      { destruct next as [|s next]; [|now apply alike_ret]. eapply alike_bind; [apply alike_search_nss|]. intros l Hl. apply alike_set_next. destruct l; [apply named_root|exact Hl]. }
      intros _ _. eapply alike_bind; [apply alike_zones|]. intros [[soa|ans add|c next'|next']|e] Hr.
      - eapply (alike_bind _ _ _ _ _ _ (fun _ => True)); [getting|]. intros prev _. eapply alike_bind; [apply alike_set_cnames|]. intros _ _. now apply alike_ret.
      - eapply (alike_bind _ _ _ _ _ _ (fun _ => True)); [now apply alike_exec|]. intros _ _. eapply (alike_bind _ _ _ _ _ _ (fun _ => True)); [apply alike_lw; intros w; destruct (fst _); exact I|]. intros _ _.
        eapply (alike_bind _ _ _ _ _ _ (fun _ => True)); [getting|]. intros prev _. eapply alike_bind; [apply alike_set_cnames|]. intros _ _. now apply alike_ret.
      - now apply F.
      - now apply alike_exec.
      - now apply alike_ret.
    Qed.
  End Sub.
  Lemma alike_perform : forall fuel, alike (perform p env fuel) (perform p env fuel) (fun _ => True).
  Proof.
    induction fuel as [|fuel IH]; cbn [perform]; [apply alike_exec; discriminate|]. apply alike_with_conf. intros c1 c2 (_ & _ & U3 & _). rewrite <- U3. now apply alike_inner.
  Qed.
End Alike.

(** Outcome, cache, packets and time are the same, whatever the tracing flags are. *)
Theorem C80_tracing_changes_nothing : forall p env c1 c2 node kind w fuel, same_but_tracing c1 c2 ->
  let run c := perform p env fuel (new_lookup c node kind, w) in
  fst (run c1) = fst (run c2) /\ snd (snd (run c1)) = snd (snd (run c2)).
Proof.
  intros p env c1 c2 node kind w fuel H run.
  destruct (alike_perform p env fuel (new_lookup c1 node kind, w) (new_lookup c2 node kind, w)) as (E & (_ & _ & _ & _ & _ & _ & E' & _) & _).
  - repeat split; try apply H. constructor.
  - now split.
Qed.
Print Assumptions C80_tracing_changes_nothing.

Theorem C80_nonvacuous : same_but_tracing (mkConf 3 2 5 false true false) (mkConf 3 2 5 false false true) /\
  let run c := perform Release env_evil 6 (new_lookup c (s2b "a.x.evil.") RT_A, world0) in
  length (w_sent (snd (snd (run (mkConf 3 2 5 false true false))))) = 4 /\
  length (l_trace (fst (snd (run (mkConf 3 2 5 false true false))))) = 0 /\ 10 < length (l_trace (fst (snd (run (mkConf 3 2 5 false false true))))).
Proof. split; [now repeat split|]. vm_compute. repeat split. repeat constructor. Qed.
Print Assumptions C80_nonvacuous.
