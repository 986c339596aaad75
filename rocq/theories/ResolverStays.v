(** What a lookup does to the shared world, in general: a property of worlds that every
    cache access and every packet sent keeps is kept by whole lookups. *)
From Verif Require Import Base Types Name Codec Cache Resolver ResolverSpec ResolverInv PropResolver2.

Section Stays.
  Context (p : profile) (env : environment) (Q : world -> Prop).
  (** [free]: alias records, too, may be saved. *)
  Context (free : Prop).
  Context (Qget : forall w k, Q w -> Q (snd (access env (fun e => O_get (K := rkey) k (ev_now' e)) w))).
  Context (Qset : forall w k ttl rs, snd k <> RT_CNAME \/ free -> Q w -> Q (snd (access env (fun e => O_set (K := rkey) k ttl rs (ev_now e) (ev_now' e)) w))).
  Context (Qsend : forall w a x, Q w -> Q (mkWorld (w_cache w) (S (w_n w)) ((a, x) :: w_sent w))).

  Definition keepsW {A} (m : W A) : Prop := forall w, Q w -> Q (snd (m w)).
  Lemma keepsW_bind : forall A B (m : W A) (k : A -> W B), keepsW m -> (forall a, keepsW (k a)) -> keepsW (wbind m k).
  Proof. intros A B m k Hm Hk w Hw. unfold wbind. specialize (Hm w Hw). destruct (m w) as [[a|q|] w']; [now apply Hk|exact Hm|exact Hm]. Qed.
  Lemma keepsW_ret : forall A (m : exec A), keepsW (wexec m). Proof. intros A m w Hw. exact Hw. Qed.
  Lemma keepsW_search : forall n k, keepsW (search_records env n k).
  Proof.
    intros n k. unfold search_records. apply keepsW_bind; [intros w Hw; exact Hw|]. intros b. apply keepsW_bind; [intros w Hw; now apply Qget|].
    intros [[[exp [|r0 rs]]|]| |]; try (apply (keepsW_ret _ (Done _))). destruct (_ && _); [|apply keepsW_ret]. destruct (_ <? _)%N; [apply (keepsW_ret _ (Done _))|apply keepsW_ret].
  Qed.
  Lemma keepsW_save : forall rs, Forall (fun r => record_type r <> RT_CNAME \/ free) rs -> keepsW (save_records env rs).
  Proof.
    intros [|r0 rs] H; [apply keepsW_ret|]. unfold save_records. destruct (forallb _ _); [|apply keepsW_ret]. inversion H; subst.
    apply keepsW_bind; [intros w Hw; now apply Qset|]. intros _. apply (keepsW_ret _ (Done _)).
  Qed.
  Definition typed_server (s : nsrv) : Prop := record_type (n_rec s) = RT_NS /\ Forall (fun r => record_type r = RT_A) (n_addrs s).
  Lemma keepsW_nss : forall l, Forall typed_server l -> keepsW (save_nss env l).
  Proof.
    intros l H. unfold save_nss. apply keepsW_bind.
    - induction H as [|s l (_ & Hs) _ IH]; cbn [save_glue]; [apply (keepsW_ret _ (Done _))|]. destruct (n_addrs s) as [|a l'] eqn:E; [exact IH|].
      apply keepsW_bind; [|intros _; exact IH]. apply keepsW_save. eapply Forall_impl; [|exact Hs]. cbn. intros r Hr. left. now rewrite Hr.
    - intros _. apply keepsW_save. apply Forall_map. eapply Forall_impl; [|exact H]. intros s (Hs & _). left. now rewrite Hs.
  Qed.
  Lemma keepsW_send : forall node kind s, keepsW (send_query p env node kind s).
  Proof.
    intros node kind s w Hw. unfold send_query. destruct (encode_message _ _) as [[b|e]|q|]; try exact Hw. destruct (ns_addrs s) as [[|a l]|q|]; try exact Hw.
    destruct (ev_net _ _ _) as [d|]; [|now apply Qsend]. destruct (decode_message _ _) as [[m|e]|q|]; try (destruct (_ =? _)%N); now apply Qsend.
  Qed.
  Lemma keepsW_retries : forall node kind s n err, keepsW (send_query_with_retries p env n err node kind s).
  Proof.
    intros node kind s. induction n as [|n IH]; intros err; cbn [send_query_with_retries]; [destruct err; [apply (keepsW_ret _ (Done _))|apply keepsW_ret]|].
    apply keepsW_bind; [apply keepsW_send|]. intros [m|e]; [apply (keepsW_ret _ (Done _))|apply IH].
  Qed.
  Lemma keepsW_find : forall ds, keepsW (find_ns_records env ds).
  Proof.
    induction ds as [|d ds IH]; cbn [find_ns_records]; [apply (keepsW_ret _ (Done _))|]. destruct (name_from_string d); [|apply keepsW_ret].
    apply keepsW_bind; [apply keepsW_search|]. intros [|r rs]; [exact IH|apply (keepsW_ret _ (Done _))].
  Qed.
  Lemma keepsW_addrs : forall rs, keepsW (cached_addrs env rs).
  Proof.
    induction rs as [|r rs IH]; cbn [cached_addrs]; [apply (keepsW_ret _ (Done _))|]. apply keepsW_bind; [apply keepsW_ret|]. intros n.
    apply keepsW_bind; [apply keepsW_search|]. intros a. apply keepsW_bind; [exact IH|]. intros l. apply (keepsW_ret _ (Done _)).
  Qed.

  (** The type looked up is [K]. *)
  Context (K : rtype) (nf : bool).
  Definition P (s : lookup * world) : Prop := Q (snd s) /\ l_kind (fst s) = K /\ no_follow (l_conf (fst s)) = nf.
  Definition stays {A} (m : L A) (R : A -> Prop) : Prop := forall s, P s -> P (snd (m s)) /\ match fst (m s) with Done a => R a | _ => True end.
  Notation any := (fun _ => True).
  Lemma stays_bind : forall A B (m : L A) (k : A -> L B) R R', stays m R -> (forall a, R a -> stays (k a) R') -> stays (lbind m k) R'.
  Proof. intros A B m k R R' Hm Hk s Hs. unfold lbind. destruct (Hm s Hs) as (H1 & H2). destruct (m s) as [[a|q|] s']; cbn [fst snd] in *; [now apply Hk|now split|now split]. Qed.
  Lemma stays_ret : forall A (a : A) (R : A -> Prop), R a -> stays (lret a) R. Proof. intros A a R H s Hs. now split. Qed.
  Lemma stays_exec : forall A (m : exec A) (R : A -> Prop), (forall a, m = Done a -> R a) -> stays (lexec m) R.
  Proof. intros A m R H s Hs. split; [exact Hs|]. cbn. destruct m; auto. Qed.
  Lemma stays_get : forall A (f : lookup -> A), stays (lget f) any. Proof. intros A f s Hs. now split. Qed.
  Lemma stays_kind : stays (lget l_kind) (fun k => k = K). Proof. intros s Hs. split; [exact Hs|]. apply Hs. Qed.
  Lemma stays_nf : stays (lget (fun l => no_follow (l_conf l))) (fun b => b = nf). Proof. intros s Hs. split; [exact Hs|]. apply Hs. Qed.
  Lemma stays_lw : forall A (m : W A), keepsW m -> stays (lw m) any.
  Proof. intros A m H [l w] (Hs & Ho). unfold lw. cbn [fst snd] in *. specialize (H w Hs). destruct (m w) as [r w']. cbn [fst snd] in *. split; [split; assumption|]. now destruct r. Qed.
  Lemma stays_mod : forall f, (forall l, l_kind (f l) = l_kind l /\ l_conf (f l) = l_conf l) -> stays (lmod f) any.
  Proof. intros f H [l w] (Hs & Ho). cbn in *. destruct (H l) as (E1 & E2). split; [|exact I]. split; cbn; [exact Hs|]. now rewrite E1, E2. Qed.
  Lemma stays_trace : forall t, stays (trace t) any.
  Proof. intros t [l w] (Hs & Ho). unfold trace. cbn [fst snd] in *. split; [|exact I]. split; [exact Hs|]. cbn [fst]. destruct (silent _); exact Ho. Qed.
  Lemma stays_trace_raw : forall t, stays (trace_raw t) any.
  Proof. intros t [l w] (Hs & Ho). unfold trace_raw. cbn [fst snd] in *. split; [|exact I]. split; [exact Hs|]. cbn [fst]. destruct (silent _); [exact Ho|]. destruct (negb _); exact Ho. Qed.
  Lemma stays_req : forall n k s, stays (trace_ns_req n k s) any.
  Proof.
    intros n k s. unfold trace_ns_req. eapply stays_bind; [apply stays_get|]. intros [] _; [apply stays_ret; exact I|]. eapply (stays_bind _ _ _ _ any); [apply stays_exec; intros; exact I|]. intros ? _. apply stays_trace.
  Qed.

  Definition resp_typed (kind : rtype) (r : result nsresp lerr) : Prop :=
    match r with Ok (NR_Delegation next) => Forall typed_server next | Ok (NR_Answer answers _) => Forall (fun r => record_type r = kind) answers | _ => True end.
  Lemma typed_of : forall s, server_ok (fun _ => True) s -> typed_server s.
  Proof. intros s (_ & n & E & H). split; [unfold record_type; now rewrite E|]. eapply Forall_impl; [|exact H]. cbn. tauto. Qed.
  Lemma read_typed : forall m node kind zone a, read_response m node kind zone = Done a -> resp_typed kind a.
  Proof.
    intros m node kind zone a E. destruct (read_response_ok (fun _ => True) m node kind zone) as (r & E' & R); [apply Forall_forall; intros; exact I|].
    rewrite E in E'. injection E' as <-. destruct a as [[soa|ans add|c next|next]|e]; try exact I; cbn [resp_typed]; destruct R as (R & _); cbn [resp_ok] in R.
    - eapply Forall_impl; [|apply R]. cbn. tauto.
    - destruct R as (_ & R & _). eapply Forall_impl; [|exact R]. intros s Hs. now apply typed_of.
  Qed.
  Lemma stays_request : forall node kind s n, stays (perform_request_with_trace p env node kind s n) (resp_typed kind).
  Proof.
    intros node kind s n. unfold perform_request_with_trace. eapply stays_bind; [apply stays_req|]. intros _ _. apply (stays_bind _ _ _ _ (resp_typed kind)).
    - unfold perform_request. eapply stays_bind; [apply stays_lw, keepsW_retries|]. intros [m|e] _; [|apply stays_ret; (exact I || assumption)]. eapply stays_bind; [apply stays_trace_raw|]. intros _ _.
      apply stays_exec. intros a E. exact (read_typed _ _ _ _ _ E).
    - intros [x|e] H; (eapply stays_bind; [apply stays_trace|]); intros _ _; apply stays_ret; (exact I || assumption).
  Qed.
  Lemma stays_search : forall kind, stays (search_records_with_trace env kind) any.
  Proof.
    intros kind. unfold search_records_with_trace. eapply stays_bind; [apply stays_get|]. intros node _. eapply stays_bind; [apply stays_lw, keepsW_search|]. intros rs _.
    eapply stays_bind; [apply stays_trace|]. intros _ _. apply stays_ret; (exact I || assumption).
  Qed.
  Lemma stays_search_nss : stays (search_nss_with_trace env) any.
  Proof.
    unfold search_nss_with_trace. eapply stays_bind; [apply stays_get|]. intros node _. eapply stays_bind; [apply stays_lw, keepsW_find|]. intros [|r rs] _.
    - eapply stays_bind; [apply stays_trace|]. intros _ _. apply stays_ret; (exact I || assumption).
    - eapply stays_bind; [apply stays_lw, keepsW_addrs|]. intros l _. eapply stays_bind; [apply stays_trace|]. intros _ _. apply stays_ret; (exact I || assumption).
  Qed.

  Section Sub.
    Context (sub : L (result response lerr)) (Hsub : forall l w, l_kind l = RT_A -> no_follow (l_conf l) = true -> Q w -> Q (snd (snd (sub (l, w))))).
    Lemma stays_subquery : forall node zone, stays (resolve_ns_subquery sub node zone) any.
    Proof.
      intros node zone. unfold resolve_ns_subquery. eapply stays_bind; [apply stays_get|]. intros zones _. destruct (detect_zones_loop _ _); [apply stays_ret; (exact I || assumption)|].
      intros [l w] (Hs & Ho). cbn [fst snd] in *. match goal with |- context [sub (?i, w)] => specialize (Hsub i w eq_refl eq_refl Hs); destruct (sub (i, w)) as [[r|q|] [i' w']] end;
        unfold lbind, add_sub_trace, lmod, lret; cbn [fst snd] in *; (split; [|exact I]); (split; [exact Hsub|exact Ho]).
    Qed.
    Lemma stays_servers : forall l err, stays (query_servers p env sub l err) (fun a => match a with Asked_result r => resp_typed K r | Asked_next _ => True end).
    Proof.
      induction l as [|s l IH]; intros err; cbn [query_servers].
      { destruct err as [e|]; [apply stays_ret; exact I|]. apply stays_exec. discriminate. }
      eapply (stays_bind _ _ _ _ any); [apply stays_exec; intros; exact I|]. intros addrs _. eapply (stays_bind _ _ _ _ any).
      { destruct addrs; [|apply stays_ret; (exact I || assumption)]. eapply (stays_bind _ _ _ _ any); [apply stays_exec; intros; exact I|]. intros n _. eapply stays_bind; [apply stays_subquery|]. intros r _. apply stays_ret; (exact I || assumption). }
      intros [s'|e] _; [|apply IH]. eapply stays_bind; [apply stays_get|]. intros node _. eapply stays_bind; [apply stays_kind|]. intros kind ->. eapply stays_bind; [apply stays_get|]. intros conf _.
      eapply stays_bind; [apply stays_request|]. intros [[soa|ans add|c next|next]|e] Hr; try (apply stays_ret; exact Hr); [|apply IH].
      eapply stays_bind; [apply stays_lw, keepsW_nss; exact Hr|]. intros _ _. eapply stays_bind; [apply stays_mod; intros ?; split; reflexivity|]. intros _ _. apply stays_ret; (exact I || assumption).
    Qed.
    Lemma stays_zones : forall fuel, stays (query_zones p env sub fuel) (resp_typed K).
    Proof.
      induction fuel as [|fuel IH]; cbn [query_zones]; [apply stays_exec; discriminate|]. eapply stays_bind; [apply stays_get|]. intros [|s next] _; [apply stays_exec; discriminate|].
      eapply stays_bind; [apply stays_mod; intros ?; split; reflexivity|]. intros _ _. eapply (stays_bind _ _ _ _ any); [apply stays_exec; intros; exact I|]. intros sorted _.
      eapply stays_bind; [apply stays_get|]. intros conf _. eapply stays_bind; [apply stays_servers|]. intros [r|nx] Hr; [apply stays_ret; (exact I || assumption)|exact IH].
    Qed.
    Context (HK : (K <> RT_CNAME /\ nf = true) \/ free).
    Lemma stays_cname : forall c next, stays (handle_cname env c next) any.
    Proof.
      intros c next. unfold handle_cname. eapply (stays_bind _ _ _ _ any); [apply stays_exec; intros; exact I|]. intros cname _. eapply stays_bind; [apply stays_get|]. intros prev _.
      destruct (detect_cname_loops _ _); [apply stays_ret; (exact I || assumption)|]. eapply stays_bind; [apply stays_mod; intros ?; split; reflexivity|]. intros _ _. eapply stays_bind; [apply stays_nf|]. intros b Eb.
      destruct b; [apply stays_ret; (exact I || assumption)|]. eapply stays_bind.
      { apply stays_lw, keepsW_save. constructor; [|constructor]. destruct HK as [(_ & C)|H]; [congruence|now right]. }
      intros _ _. do 2 (eapply stays_bind; [apply stays_mod; intros ?; split; reflexivity|]; intros _ _). apply stays_ret; (exact I || assumption).
    Qed.
    (** The parts of [perform_inner] after its cache searches. *)
    Definition after_alias (fuel n : nat) (c : record) (next : list nsrv) : L (result response lerr) :=
      let* r := handle_cname env c next in match r with Err e => lret (Err e) | Ok _ => perform_inner p env sub fuel n end.
    Definition after_search2 (fuel n : nat) (cnames : list record) : L (result response lerr) :=
      match cnames with
      | c :: _ => after_alias fuel n c []
      | [] =>
          let* next := lget l_next in
          let* _ :=
            match next with
            | _ :: _ => lret tt
            | [] => let* l := search_nss_with_trace env in lmod (set_next match l with [] => root_zone_nameservers | _ => l end)
            end in
          let* r := query_zones p env sub fuel in
          match r with
          | Err e => lret (Err e)
          | Ok (NR_Answer answers additionals) =>
              let* _ := lexec (debug_assert p (match answers with [] => false | _ => true end) (Done tt)) in
              let* _ := lw (save_records env answers) in
              let* prev := lget l_cnames in
              let* _ := lmod (set_cnames []) in
              lret (Ok (mkResp (prev ++ answers) [] additionals false))
          | Ok (NR_Alias c next) => after_alias fuel n c next
          | Ok (NR_NoDomain soa) =>
              let* prev := lget l_cnames in
              let* _ := lmod (set_cnames []) in
              lret (Ok (mkResp prev match soa with Some r => [r] | None => [] end [] true))
          | Ok (NR_Delegation _) => lexec (Panic PUnreachable)
          end
      end.
    Definition after_search1 (fuel n : nat) (cached : list record) : L (result response lerr) :=
      match cached with
      | _ :: _ =>
          let* prev := lget l_cnames in
          let* _ := lmod (set_cnames []) in
          lret (Ok (mkResp (prev ++ cached) [] [] false))
      | [] => let* cnames := search_records_with_trace env RT_CNAME in after_search2 fuel n cnames
      end.
    Lemma inner_parts : forall fuel n, perform_inner p env sub fuel (S n) =
      (let* node := lget l_node in let* kind := lget l_kind in let* _ := trace (T_start node kind) in let* cached := search_records_with_trace env kind in after_search1 fuel n cached).
    Proof. intros fuel n. reflexivity. Qed.
    Lemma stays_end : forall A (f : list record -> A), stays (let* prev := lget l_cnames in let* _ := lmod (set_cnames []) in lret (f prev)) any.
    Proof. intros A f. eapply stays_bind; [apply stays_get|]. intros prev _. eapply stays_bind; [apply stays_mod; intros ?; split; reflexivity|]. intros _ _. now apply stays_ret. Qed.
    Section Parts.
      Context (fuel n : nat) (IH : stays (perform_inner p env sub fuel n) any).
      Lemma stays_alias : forall c next, stays (after_alias fuel n c next) any.
      Proof. intros c next. eapply stays_bind; [apply stays_cname|]. intros [u|e] _; [exact IH|now apply stays_ret]. Qed.
      Lemma stays_after2 : forall cnames, stays (after_search2 fuel n cnames) any.
      Proof.
        intros [|c cs]; cbn [after_search2]; [|apply stays_alias]. eapply stays_bind; [apply stays_get|]. intros next _. eapply (stays_bind _ _ _ _ any).
        { destruct next; [|now apply stays_ret]. eapply stays_bind; [apply stays_search_nss|]. intros l _. apply stays_mod. intros ?; split; reflexivity. }
        intros _ _. eapply stays_bind; [apply stays_zones|]. intros [[soa|ans add|c nx|nx]|e] Hr; [apply stays_end| |apply stays_alias|now apply stays_exec|now apply stays_ret].
        eapply (stays_bind _ _ _ _ any); [now apply stays_exec|]. intros _ _. eapply stays_bind; [|intros _ _; apply stays_end]. apply stays_lw, keepsW_save. cbn [resp_typed] in Hr. eapply Forall_impl; [|exact Hr].
        cbn. intros x Hx. rewrite Hx. destruct HK as [(C & _)|H]; [now left|now right].
      Qed.
      Lemma stays_after1 : forall cached, stays (after_search1 fuel n cached) any.
      Proof. intros [|r rs]; cbn [after_search1]; [|apply stays_end]. eapply stays_bind; [apply stays_search|]. intros cnames _. apply stays_after2. Qed.
    End Parts.
    Lemma stays_inner : forall fuel n, stays (perform_inner p env sub fuel n) any.
    Proof.
      intros fuel. induction n as [|n IH]; [cbn [perform_inner]; now apply stays_ret|]. rewrite inner_parts. do 2 (eapply stays_bind; [apply stays_get|]; intros ? _). eapply stays_bind; [apply stays_trace|]. intros _ _.
      eapply stays_bind; [apply stays_search|]. intros cached _. now apply stays_after1.
    Qed.
  End Sub.
End Stays.

Section Whole.
  Context (p : profile) (env : environment) (Q : world -> Prop) (free : Prop).
  Context (Qget : forall w k, Q w -> Q (snd (access env (fun e => O_get (K := rkey) k (ev_now' e)) w))).
  Context (Qset : forall w k ttl rs, snd k <> RT_CNAME \/ free -> Q w -> Q (snd (access env (fun e => O_set (K := rkey) k ttl rs (ev_now e) (ev_now' e)) w))).
  Context (Qsend : forall w a x, Q w -> Q (mkWorld (w_cache w) (S (w_n w)) ((a, x) :: w_sent w))).
  Lemma search_nss_stays : forall s, Q (snd s) -> Q (snd (snd (search_nss_with_trace env s))).
  Proof. intros s Hs. exact (proj1 (proj1 (stays_search_nss env Q Qget (l_kind (fst s)) (no_follow (l_conf (fst s))) s (conj Hs (conj eq_refl eq_refl))))). Qed.
  Lemma search_stays : forall k s, Q (snd s) -> Q (snd (snd (search_records_with_trace env k s))).
  Proof. intros k s Hs. exact (proj1 (proj1 (stays_search env Q Qget (l_kind (fst s)) (no_follow (l_conf (fst s))) k s (conj Hs (conj eq_refl eq_refl))))). Qed.
  Lemma perform_stays : forall fuel s, (l_kind (fst s) <> RT_CNAME /\ no_follow (l_conf (fst s)) = true) \/ free -> Q (snd s) -> Q (snd (snd (perform p env fuel s))).
  Proof.
    induction fuel as [|fuel IH]; intros s Hk Hs; cbn [perform]; [exact Hs|]. unfold lbind, lget.
    refine (proj1 (proj1 (stays_inner p env Q free Qget Qset Qsend (l_kind (fst s)) (no_follow (l_conf (fst s))) (perform p env fuel) _ Hk fuel _ s (conj Hs (conj eq_refl eq_refl))))).
    intros l w Ek En Hw. apply IH; [left|exact Hw]. cbn. rewrite Ek. now split.
  Qed.
  Lemma zones_stay : forall fuel f s, Q (snd s) -> Q (snd (snd (query_zones p env (perform p env f) fuel s))).
  Proof.
    intros fuel f s Hs. refine (proj1 (proj1 (stays_zones p env Q free Qset Qsend (l_kind (fst s)) (no_follow (l_conf (fst s))) (perform p env f) _ fuel s (conj Hs (conj eq_refl eq_refl))))).
    intros l w Ek En Hw. apply perform_stays; [left|exact Hw]. cbn. rewrite Ek. now split.
  Qed.
  Lemma parts_stay : forall fuel f n s, free -> Q (snd s) ->
    Q (snd (snd (perform_inner p env (perform p env f) fuel n s))) /\
    (forall cached, Q (snd (snd (after_search1 p env (perform p env f) fuel n cached s)))) /\
    (forall cnames, Q (snd (snd (after_search2 p env (perform p env f) fuel n cnames s)))).
  Proof.
    intros fuel f n s Hf Hs. assert (Sub : forall l w, l_kind l = RT_A -> no_follow (l_conf l) = true -> Q w -> Q (snd (snd (perform p env f (l, w))))).
    { intros l w Ek En Hw. apply perform_stays; [left|exact Hw]. cbn. rewrite Ek. now split. }
    pose proof (stays_inner p env Q free Qget Qset Qsend (l_kind (fst s)) (no_follow (l_conf (fst s))) (perform p env f) Sub (or_intror Hf) fuel n) as S1.
    split; [exact (proj1 (proj1 (S1 s (conj Hs (conj eq_refl eq_refl)))))|]. split; intros c.
    - refine (proj1 (proj1 (stays_after1 p env Q free Qget Qset Qsend (l_kind (fst s)) (no_follow (l_conf (fst s))) (perform p env f) Sub (or_intror Hf) fuel n S1 c s (conj Hs (conj eq_refl eq_refl))))).
    - refine (proj1 (proj1 (stays_after2 p env Q free Qget Qset Qsend (l_kind (fst s)) (no_follow (l_conf (fst s))) (perform p env f) Sub (or_intror Hf) fuel n S1 c s (conj Hs (conj eq_refl eq_refl))))).
  Qed.
End Whole.
