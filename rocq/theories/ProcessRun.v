(** A process run alone in an environment of Resolver.v is the lookup modelled there. *)
From Verif Require Import Base Types Name Codec Cache Resolver Process.

(** Running a process: the n-th access uses the n-th event. *)
Fixpoint run {R} (env : environment) (m : proc R) (w : world) : R * world :=
  match m with
  | P_end r => (r, w)
  | P_cache f k =>
      let e := env (w_n w) in
      let (x, c) := cache_run rkey_eqb (ev_others e (w_cache w)) (f (ev_now e) (ev_now' e)) in
      run env (k (ev_now e) x) (mkWorld c (S (w_n w)) (w_sent w))
  | P_send q k =>
      let e := env (w_n w) in
      match q (ev_id e) with
      | Done (a, x) => run env (k (ev_id e) (Done (ev_net e a x))) (mkWorld (w_cache w) (S (w_n w)) ((a, x) :: w_sent w))
      | Panic j => run env (k (ev_id e) (Panic j)) w
      | Diverge => run env (k (ev_id e) Diverge) w
      end
  end.

Lemma run_then : forall R S env (m : proc R) (k : R -> proc S) w, run env (pthen m k) w = let (r, w') := run env m w in run env (k r) w'.
Proof.
  intros R S env m k. induction m as [r|f c IH|q c IH]; intros w; cbn [pthen run]; [reflexivity| |].
  - destruct (cache_run _ _ _) as [x c']. apply IH.
  - destruct (q _) as [[a x]|j|]; apply IH.
Qed.

Definition same_w {A} (m : WP A) (f : environment -> W A) : Prop := forall env w, run env m w = f env w.
Definition same_l {A} (m : LP A) (f : environment -> L A) : Prop :=
  forall env l w, f env (l, w) = let (r, w') := run env (m l) w in (fst r, (snd r, w')).

Lemma same_end : forall A (x : exec A), same_w (P_end x) (fun _ => wexec x).
Proof. intros A x env w. reflexivity. Qed.
Lemma same_wbind : forall A B (m : WP A) (k : A -> WP B) f g, same_w m f -> (forall a, same_w (k a) (fun env => g env a)) -> same_w (wpbind m k) (fun env => wbind (f env) (g env)).
Proof.
  intros A B m k f g Hm Hk env w. unfold wpbind, wbind. rewrite run_then, Hm. destruct (f env w) as [[a|q|] w']; [apply Hk|reflexivity|reflexivity].
Qed.
Lemma same_lbind : forall A B (m : LP A) (k : A -> LP B) f g, same_l m f -> (forall a, same_l (k a) (fun env => g env a)) -> same_l (lpbind m k) (fun env => lbind (f env) (g env)).
Proof.
  intros A B m k f g Hm Hk env l w. unfold lpbind, lbind. rewrite run_then, Hm. destruct (run env (m l) w) as [[[a|q|] l'] w']; cbn [fst snd]; [apply Hk|reflexivity|reflexivity].
Qed.
Lemma same_lw : forall A (m : WP A) f, same_w m f -> same_l (lwp m) (fun env => lw (f env)).
Proof. intros A m f Hm env l w. unfold lwp, lw. rewrite run_then, Hm. cbn [fst snd]. destruct (f env w) as [r w']. reflexivity. Qed.
(** Code that does not look at the world. *)
Definition blind {A} (m : L A) : Prop := forall l w, snd (snd (m (l, w))) = w /\ forall w', fst (m (l, w')) = fst (m (l, w)) /\ fst (snd (m (l, w'))) = fst (snd (m (l, w))).
Lemma same_pure : forall A (m : L A), blind m -> same_l (pure m) (fun _ => m).
Proof.
  intros A m Hm env l w. unfold pure. cbn [run fst snd]. destruct (Hm l w) as (H1 & H2). destruct (H2 (mkWorld cache_new 0 [])) as (-> & ->).
  destruct (m (l, w)) as [r [l' w']]. cbn [fst snd] in *. now rewrite H1.
Qed.
Lemma blind_ret : forall A (a : A), blind (lret a). Proof. now repeat split. Qed.
Lemma blind_exec : forall A (a : exec A), blind (lexec a). Proof. now repeat split. Qed.
Lemma blind_get : forall A (f : lookup -> A), blind (lget f). Proof. now repeat split. Qed.
Lemma blind_mod : forall f, blind (lmod f). Proof. now repeat split. Qed.
Lemma blind_trace : forall t, blind (trace t). Proof. now repeat split. Qed.
Lemma blind_raw : forall t, blind (trace_raw t). Proof. now repeat split. Qed.
Lemma blind_sub : forall t, blind (add_sub_trace t). Proof. now repeat split. Qed.
Lemma blind_ns_req : forall n k s, blind (trace_ns_req n k s).
Proof. intros n k s l w. unfold trace_ns_req, lbind, lget, lexec, lret. cbn [fst snd]. destruct (silent (l_conf l)); [now repeat split|]. destruct (ns_node s); now repeat split. Qed.
#[export] Hint Resolve blind_ret blind_exec blind_get blind_mod blind_trace blind_raw blind_sub blind_ns_req : blind.

Lemma same_search : forall n k, same_w (search_p n k) (fun env => search_records env n k).
Proof.
  intros n k env w. unfold search_p, search_records, wbind, reading, access. cbn [run]. cbv zeta. destruct (cache_run rkey_eqb _ _) as [x c].
  destruct x as [[[[exp [|r0 rs]]|]|b|]|j|]; try reflexivity. cbn [run]. destruct (_ && _); [|reflexivity]. destruct (_ <? _)%N; reflexivity.
Qed.
Lemma same_save : forall rs, same_w (save_p rs) (fun env => save_records env rs).
Proof.
  intros [|r0 rs] env w; [reflexivity|]. unfold save_p, save_records. destruct (forallb _ _); [|reflexivity]. cbv zeta. cbn [run]. unfold wbind, access. cbv zeta.
  destruct (cache_run rkey_eqb _ _) as [[x|j|] c]; reflexivity.
Qed.
Lemma same_glue : forall l, same_w (save_glue_p l) (fun env => save_glue env l).
Proof.
  induction l as [|s l IH]; cbn [save_glue_p save_glue]; [exact (same_end _ (Done tt))|]. destruct (n_addrs s) as [|a al]; [exact IH|].
  apply (same_wbind _ _ _ _ _ (fun env _ => save_glue env l)); [apply same_save|]. intros _. exact IH.
Qed.
Lemma same_nss : forall l, same_w (save_nss_p l) (fun env => save_nss env l).
Proof. intros l. apply (same_wbind _ _ _ _ _ (fun env _ => save_records env (map n_rec l))); [apply same_glue|]. intros _. apply same_save. Qed.
Lemma same_find : forall ds, same_w (find_ns_p ds) (fun env => find_ns_records env ds).
Proof.
  induction ds as [|d ds IH]; cbn [find_ns_p find_ns_records]; [exact (same_end _ (Done []))|]. destruct (name_from_string d) as [n|e]; [|apply same_end].
  apply (same_wbind _ _ _ _ _ (fun env rs => match rs with [] => find_ns_records env ds | _ => wret rs end)); [apply same_search|].
  intros [|r rs]; [exact IH|exact (same_end _ (Done _))].
Qed.
Lemma same_cached : forall rs, same_w (cached_addrs_p rs) (fun env => cached_addrs env rs).
Proof.
  induction rs as [|r rs IH]; cbn [cached_addrs_p cached_addrs]; [exact (same_end _ (Done []))|].
  apply (same_wbind _ _ _ _ (fun _ => wexec (ns_data r)) (fun env n => let# a := search_records env n RT_A in let# l := cached_addrs env rs in wret (mkNs r a :: l))); [apply same_end|]. intros n.
  apply (same_wbind _ _ _ _ _ (fun env a => let# l := cached_addrs env rs in wret (mkNs r a :: l))); [apply same_search|]. intros a.
  apply (same_wbind _ _ _ _ _ (fun env l => wret (mkNs r a :: l))); [exact IH|]. intros l. exact (same_end _ (Done _)).
Qed.

Section P.
  Variable p : profile.
  Lemma same_send : forall node kind s, same_w (send_p p node kind s) (fun env => send_query p env node kind s).
  Proof.
    intros node kind s env w. unfold send_p, send_query. cbn [run]. cbv zeta. destruct (encode_message p _) as [[x|e]|j|]; try reflexivity.
    destruct (ns_addrs s) as [[|a al]|j|]; try reflexivity. destruct (ev_net _ a x) as [d|]; [|reflexivity].
    destruct (decode_message p _) as [[m|e]|j|]; try reflexivity. destruct (_ =? _)%N; reflexivity.
  Qed.
  Lemma same_retries : forall node kind s n err, same_w (retries_p p n err node kind s) (fun env => send_query_with_retries p env n err node kind s).
  Proof.
    intros node kind s n. induction n as [|n IH]; intros err; cbn [retries_p send_query_with_retries].
    - destruct err; [exact (same_end _ (Done _))|apply same_end].
    - apply (same_wbind _ _ _ _ _ (fun env x => match x with Ok m => wret (Ok m) | Err e => send_query_with_retries p env n (Some e) node kind s end)); [apply same_send|].
      intros [m|e]; [exact (same_end _ (Done _))|apply IH].
  Qed.

  Ltac lb := match goal with
    | |- same_l (lpbind _ _) (fun env => lbind (@?f env) (@?k env)) => apply (same_lbind _ _ _ _ f k); [|intros ?]
    | |- same_l (lwp _) (fun env => lw (@?f env)) => apply (same_lw _ _ f)
    | |- same_l (pure ?m) _ => apply (same_pure _ m); auto with blind
    | |- same_l _ (fun env => if ?b then _ else _) => destruct b
    | |- same_l _ (fun env => match ?b with _ => _ end) => destruct b
    | |- same_l _ (fun env => let _ := _ in _) => cbv zeta
    end; cbv beta.

  Lemma same_request : forall node kind s r, same_l (request_p p node kind s r) (fun env => perform_request p env node kind s r).
  Proof. intros node kind s r. unfold perform_request, request_p. repeat lb. apply same_retries. Qed.
  Lemma same_request_t : forall node kind s r, same_l (request_trace_p p node kind s r) (fun env => perform_request_with_trace p env node kind s r).
  Proof. intros node kind s r. unfold perform_request_with_trace, request_trace_p. repeat lb. apply same_request. Qed.
  Lemma same_search_t : forall kind, same_l (search_trace_p kind) (fun env => search_records_with_trace env kind).
  Proof. intros kind. unfold search_records_with_trace, search_trace_p. repeat lb. apply same_search. Qed.
  Lemma same_nss_t : same_l search_nss_p (fun env => search_nss_with_trace env).
  Proof. unfold search_nss_with_trace, search_nss_p. repeat lb; [apply same_find|apply same_cached]. Qed.
  Lemma same_cname : forall c next, same_l (handle_cname_p c next) (fun env => handle_cname env c next).
  Proof. intros c next. unfold handle_cname, handle_cname_p. repeat lb. apply same_save. Qed.

  Section With_sub.
    Variables (sub_p : LP (result response lerr)) (sub : environment -> L (result response lerr)).
    Hypothesis Hsub : same_l sub_p sub.
    Lemma same_subquery : forall node zone, same_l (subquery_p sub_p node zone) (fun env => resolve_ns_subquery (sub env) node zone).
    Proof.
      intros node zone. unfold resolve_ns_subquery, subquery_p. lb; [lb|]. lb; [lb|].
      intros env l w. cbn [fst snd]. cbv zeta. rewrite Hsub, run_then. destruct (run env (sub_p _) w) as [[[[x|e]|j|] l'] w']; reflexivity.
    Qed.
    Lemma same_servers : forall l err, same_l (servers_p p sub_p l err) (fun env => query_servers p env (sub env) l err).
    Proof.
      induction l as [|s l IH]; intros err; cbn [query_servers servers_p]; [repeat lb|].
      lb; [lb|]. lb.
      - repeat lb. apply same_subquery.
      - lb; [|apply IH]. lb; [lb|]. lb; [lb|]. lb; [lb|]. lb; [apply same_request_t|]. lb; [|apply IH]. lb; repeat lb. apply same_nss.
    Qed.
    Lemma same_zones : forall fuel, same_l (zones_p p sub_p fuel) (fun env => query_zones p env (sub env) fuel).
    Proof.
      induction fuel as [|f IH]; cbn [query_zones zones_p]; [lb|]. lb; [lb|]. lb; [lb|]. lb; [lb|]. lb; [lb|]. lb; [lb|]. lb; [apply same_servers|]. lb; [lb|apply IH].
    Qed.
    Lemma same_inner : forall fuel n, same_l (inner_p p sub_p fuel n) (fun env => perform_inner p env (sub env) fuel n).
    Proof.
      intros fuel n. induction n as [|n IH]; cbn [perform_inner inner_p]; [lb|].
      lb; [lb|]. lb; [lb|]. lb; [lb|]. lb; [apply same_search_t|]. lb; [|repeat lb].
      lb; [apply same_search_t|]. lb.
      - lb; [lb|]. lb; [repeat lb; apply same_nss_t|]. lb; [apply same_zones|]. lb; [|lb]. lb.
        + repeat lb.
        + repeat lb. apply same_save.
        + lb; [apply same_cname|]. lb; [apply IH|lb].
        + lb.
      - lb; [apply same_cname|]. lb; [apply IH|lb].
    Qed.
  End With_sub.
  Lemma same_perform : forall fuel, same_l (perform_p p fuel) (fun env => perform p env fuel).
  Proof.
    induction fuel as [|f IH]; cbn [perform perform_p]; [lb|]. lb; [lb|]. exact (same_inner (perform_p p f) (fun env => perform p env f) IH f (max_cname a)).
  Qed.
End P.
