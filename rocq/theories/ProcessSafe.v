(** Step by step, a lookup puts into the cache only what keeps it in order, as long as what
    it finds there and what it receives is in order. *)
From Coq Require Import Permutation.
From Verif Require Import Base Types Name NameSpec NameProofs Codec CodecSpec NsSpec Cache Resolver ResolverLists ResolverSpec ResolverInv Process ProcessEnds.

(** A class of records that may come in, by what the network delivers. *)
Record class_of (p : profile) (delivers : N -> list N -> list N -> list N -> Prop) (good : record -> Prop) : Prop := mkClassOf {
  cl_names : forall r, good r -> accepted (r_node r) /\ is_u32 (r_ttl r) /\
    match r_data r with D_NS n | D_CNAME n => accepted n | _ => True end;
  cl_ttl : forall r t, good r -> is_u32 t -> good (set_ttl r t);
  cl_root : Forall (fun s => good (n_rec s) /\ Forall good (n_addrs s)) root_zone_nameservers;
  cl_net : forall id a x d m, is_bytes d -> delivers id a x d -> decode_message p (firstn 512 d) = Done (Ok m) ->
    h_id (m_header m) = id -> Forall good (all_records m) }.

Section Safe.
  Context (p : profile) (delivers : N -> list N -> list N -> list N -> Prop) (good : record -> Prop) (CL : class_of p delivers good).

  (** Accesses that keep the cache in order (with the two readings of the clock that they use),
      and what they may return. *)
  Definition op_ok (now now' : N) (o : op rkey (list record)) : Prop :=
    match o with
    | O_get _ t => t = now'
    | O_set k ttl rs t t' => t = now /\ t' = now' /\ (exists s, ttl = s * SECOND /\ s < 4294967296)%N /\ entry_ok good t k (t + ttl) rs
    | _ => False
    end.
  Definition reply_ok (o : op rkey (list record)) (x : exec (reply (list record))) : Prop :=
    match o, x with
    | O_get k t, Done (R_entry (Some (exp, rs))) => entry_ok good t k exp rs /\ (t < exp)%N
    | O_get _ _, Done (R_entry None) => True
    | O_set _ _ _ _ _, Done _ => True
    | _, _ => False
    end.
  (** Every step is fine, whatever comes in that is fine; the thread ends with [Q]. One that
      cannot make a packet ends at once, with [F]. *)
  Fixpoint okP {R} (m : proc R) (Q F : R -> Prop) : Prop :=
    match m with
    | P_end r => Q r
    | P_cache f k => forall now now', (now <= now')%N -> op_ok now now' (f now now') /\ forall x, reply_ok (f now now') x -> okP (k now x) Q F
    | P_send q k => forall id, is_u16 id ->
        match q id with
        | Done (a, x) => forall d, (forall b, d = Some b -> is_bytes b /\ delivers id a x b) -> okP (k id (Done d)) Q F
        | Panic j => exists r, k id (Panic j) = P_end r /\ F r
        | Diverge => False
        end
    end.
  Lemma okP_then : forall R S (m : proc R) (k : R -> proc S) (Q F : S -> Prop) (Q' F' : R -> Prop),
    okP m Q' F' -> (forall r, Q' r -> okP (k r) Q F) -> (forall r, F' r -> exists s, k r = P_end s /\ F s) -> okP (pthen m k) Q F.
  Proof.
    intros R S m k Q F Q' F' H HQ HF. induction m as [r|f c IH|q c IH]; cbn [okP pthen] in *; [now apply HQ| |].
    - intros now now' Hn. destruct (H now now' Hn) as (H1 & H2). split; [exact H1|]. intros x Hx. apply IH. now apply H2.
    - intros id Hid. specialize (H id Hid). destruct (q id) as [[a x]|j|]; [| |exact H].
      + intros d Hd. apply IH. now apply H.
      + destruct H as (r & E & Hr). rewrite E. cbn [pthen]. now apply HF.
  Qed.

  (** The code of a lookup: nothing is said of how it panics. *)
  Definition done_w {A} (Q : A -> Prop) (r : exec A) : Prop := match r with Done a => Q a | _ => True end.
  Definition dead_w {A} (r : exec A) : Prop := match r with Done _ => False | _ => True end.
  Definition okw {A} (m : WP A) (Q : A -> Prop) : Prop := okP m (done_w Q) dead_w.
  Definition okl {A} (m : proc (exec A * lookup)) (Q : A -> lookup -> Prop) : Prop :=
    okP m (fun r => done_w (fun a => Q a (snd r)) (fst r)) (fun r => dead_w (fst r)).

  Lemma okw_bind : forall A B (m : WP A) (k : A -> WP B) Q' Q, okw m Q' -> (forall a, Q' a -> okw (k a) Q) -> okw (wpbind m k) Q.
  Proof.
    intros A B m k Q' Q H Hk. eapply okP_then; [exact H| |].
    - intros [a|j|]; cbn [done_w okP]; [apply Hk|trivial|trivial].
    - intros [a|j|]; cbn [dead_w]; [intros []|intros _; now eexists|intros _; now eexists].
  Qed.
  Lemma okl_bind : forall A B (m : LP A) (k : A -> LP B) l Q' Q, okl (m l) Q' -> (forall a l', Q' a l' -> okl (k a l') Q) -> okl (lpbind m k l) Q.
  Proof.
    intros A B m k l Q' Q H Hk. eapply okP_then; [exact H| |].
    - intros [[a|j|] l']; cbn [done_w okP fst snd]; [apply Hk|trivial|trivial].
    - intros [[a|j|] l']; cbn [dead_w fst snd]; [intros []|intros _; now eexists|intros _; now eexists].
  Qed.
  Lemma okl_w : forall A (m : WP A) l (Q : A -> lookup -> Prop) (Q' : A -> Prop), okw m Q' -> (forall a, Q' a -> Q a l) -> okl (lwp m l) Q.
  Proof.
    intros A m l Q Q' H HQ. eapply okP_then; [exact H| |].
    - intros [a|j|]; cbn [done_w okP fst snd]; auto.
    - intros [a|j|]; cbn [dead_w]; [intros []|intros _; now eexists|intros _; now eexists].
  Qed.
  Lemma okl_pure : forall A (m : L A) l (Q : A -> lookup -> Prop),
    (let x := m (l, mkWorld cache_new 0 []) in match fst x with Done a => Q a (fst (snd x)) | _ => True end) -> okl (pure m l) Q.
  Proof. intros A m l Q H. unfold okl, pure. cbn [okP fst snd]. unfold done_w. exact H. Qed.
  Lemma okP_mono : forall R (m : proc R) (Q Q' F : R -> Prop), okP m Q F -> (forall r, Q r -> Q' r) -> okP m Q' F.
  Proof.
    intros R m Q Q' F H HQ. induction m as [r|f c IH|q c IH]; cbn [okP] in *; [now apply HQ| |].
    - intros now now' Hn. destruct (H now now' Hn) as (H1 & H2). split; [exact H1|]. intros x Hx. apply IH. now apply H2.
    - intros id Hid. specialize (H id Hid). destruct (q id) as [[a x]|j|]; [|exact H|exact H]. intros d Hd. apply IH. now apply H.
  Qed.
  Lemma okw_mono : forall A (m : WP A) (Q Q' : A -> Prop), okw m Q -> (forall a, Q a -> Q' a) -> okw m Q'.
  Proof. intros A m Q Q' H HQ. eapply okP_mono; [exact H|]. intros [a|j|]; cbn [done_w]; auto. Qed.
  Lemma okl_mono : forall A (m : proc (exec A * lookup)) (Q Q' : A -> lookup -> Prop), okl m Q -> (forall a l, Q a l -> Q' a l) -> okl m Q'.
  Proof. intros A m Q Q' H HQ. eapply okP_mono; [exact H|]. intros [[a|j|] l]; cbn [done_w fst snd]; auto. Qed.

  Lemma search_safe : forall n k, okw (search_p n k) (found good n k).
  Proof.
    intros n k. unfold okw, search_p. cbn [okP]. intros now now' Hn. split; [reflexivity|]. intros x Hx. unfold reply_ok in Hx.
    assert (Nil : found good n k []) by (repeat split; constructor).
    destruct x as [[[[exp [|r0 rs]]|]|b|]|j|]; cbn [okP done_w]; try exact I; try exact Nil; try contradiction.
    destruct Hx as ((_ & Hg & Ht & _ & Ho & (r & rs' & Er & Eo)) & Hlt). injection Er as <- <-. cbn [fst snd] in *.
    destruct (forallb _ _ && _); [|exact I]. cbv zeta. destruct (_ <? _)%N eqn:Et; [|exact I]. cbn [done_w]. repeat split.
    - apply Forall_map. eapply Forall_impl; [|exact Hg]. cbn. intros y Hy. apply (cl_ttl _ _ _ CL); [assumption|]. unfold is_u32. lia.
    - apply Forall_map. exact Ht.
    - intros Hk. apply Forall_map. exact (Ho Hk).
    - cbn [map]. exact Eo.
  Qed.
  Lemma save_safe : forall rs, Forall good rs ->
    (exists kind, Forall (fun r => record_type r = kind) rs /\ (kind <> RT_NS -> exists node, Forall (fun r => r_node r = node) rs)) ->
    okw (save_p rs) (fun _ => True).
  Proof.
    intros [|r0 rs] Hg (kind & Ht & Ho); [exact I|]. unfold okw, save_p. destruct (forallb _ _); [|exact I]. cbv zeta. set (m := min_ttl r0 rs).
    assert (U : is_u32 m).
    { inversion Hg; subst. match goal with H : good r0 |- _ => apply (cl_names _ _ _ CL) in H as (_ & H & _) end.
      unfold m, min_ttl, is_u32 in *. destruct (min_fold (map r_ttl rs) (r_ttl r0)) as (B & _). lia. }
    cbn [okP]. intros now now' _. split; [|intros [x|j|] _; exact I]. cbn [op_ok]. split; [reflexivity|]. split; [reflexivity|]. split; [exists m; split; [reflexivity|exact U]|]. repeat split.
    - discriminate.
    - apply Forall_map. eapply Forall_impl; [|exact Hg]. cbn. intros r Hr. now apply (cl_ttl _ _ _ CL).
    - apply Forall_map. cbn [snd]. inversion Ht; subst. apply Forall_forall. intros r Hr. rewrite Forall_forall in Ht. change (record_type (set_ttl r m)) with (record_type r). now apply Ht.
    - exists m. split; [apply Forall_map, Forall_forall; intros; reflexivity|]. unfold SECOND. lia.
    - cbn [fst snd]. intros Hk. apply Forall_map. assert (Ek : kind = record_type r0) by (inversion Ht; congruence).
      rewrite <- Ek in Hk. destruct (Ho Hk) as (node & Hnode). inversion Hnode; subst. apply Forall_forall. intros r Hr. rewrite Forall_forall in Hnode.
      change (r_node (set_ttl r m)) with (r_node r). now apply Hnode.
    - exists (set_ttl r0 m), (map (fun r => set_ttl r m) rs). now split.
  Qed.
  Lemma glue_safe : forall l, Forall (server_ok good) l -> okw (save_glue_p l) (fun _ => True).
  Proof.
    induction l as [|s l IH]; intros Hl; cbn [save_glue_p]; [exact I|]. inversion Hl as [|? ? Hs Hl']; subst. destruct Hs as (_ & n & _ & Ha).
    destruct (n_addrs s) as [|a al] eqn:E; [now apply IH|]. eapply okw_bind; [apply save_safe|intros _ _; now apply IH].
    - eapply Forall_impl; [|exact Ha]. cbn. tauto.
    - exists RT_A. split; [eapply Forall_impl; [|exact Ha]; cbn; tauto|]. intros _. exists n. eapply Forall_impl; [|exact Ha]; cbn; tauto.
  Qed.
  Lemma nss_safe : forall l, Forall (server_ok good) l -> okw (save_nss_p l) (fun _ => True).
  Proof.
    intros l Hl. eapply okw_bind; [now apply glue_safe|]. intros _ _. apply save_safe.
    - apply Forall_map. eapply Forall_impl; [|exact Hl]. intros s Hs. apply Hs.
    - exists RT_NS. split; [|easy]. apply Forall_map. eapply Forall_impl; [|exact Hl]. intros s Hs. exact (ns_type good s Hs).
  Qed.
  Lemma send_safe : forall node kind s, okw (send_p p node kind s) (fun r => match r with Ok m => Forall good (all_records m) | Err _ => True end).
  Proof.
    intros node kind s. unfold okw, send_p. cbn [okP]. intros id Hid.
    destruct (encode_message p _) as [[x|e]|j|] eqn:Ee; [|eexists; split; [reflexivity|exact I]..|exact (query_ends _ _ _ _ Ee)].
    destruct (ns_addrs s) as [[|a al]|j|] eqn:Ea; [..|exact (addrs_end _ Ea)]; try exact I; try (eexists; split; [reflexivity|exact I]).
    intros [b|] Hd; cbn [okP done_w]; [|exact I]. destruct (Hd b eq_refl) as (Hb & Hv). change MAX_UDP_LEN_BYTES with 512.
    destruct (decode_message p (firstn 512 b)) as [[m|e]|j|] eqn:Ed; cbn [done_w]; try exact I.
    destruct (N.eqb_spec (h_id (m_header m)) id) as [Ei|Ei]; cbn [done_w]; [|exact I]. exact (cl_net _ _ _ CL id a x b m Hb Hv Ed Ei).
  Qed.
  Lemma retries_safe : forall node kind s n err, okw (retries_p p n err node kind s) (fun r => match r with Ok m => Forall good (all_records m) | Err _ => True end).
  Proof.
    intros node kind s n. induction n as [|n IH]; intros err; cbn [retries_p]; [destruct err; exact I|].
    eapply okw_bind; [apply send_safe|]. intros [m|e] Hm; [exact Hm|apply IH].
  Qed.
  Lemma find_safe : forall ds, okw (find_ns_p ds) (fun rs => Forall (fun r => good r /\ record_type r = RT_NS) rs).
  Proof.
    induction ds as [|d ds IH]; cbn [find_ns_p]; [constructor|]. destruct (name_from_string d) as [n|e]; [|exact I].
    eapply okw_bind; [apply search_safe|]. intros [|r rs] (H1 & H2 & _); [exact IH|]. cbn [okw okP done_w]. rewrite Forall_forall in *. intros x Hx. split; [now apply H1|now apply H2].
  Qed.
  Lemma cached_safe : forall rs, Forall (fun r => good r /\ record_type r = RT_NS) rs -> okw (cached_addrs_p rs) (Forall (server_ok good)).
  Proof.
    induction rs as [|r rs IH]; intros H; cbn [cached_addrs_p]; [constructor|]. inversion H as [|? ? (Hg & Ht) H']; subst.
    destruct (type_NS r Ht) as (n & En). unfold ns_data. rewrite En.
    apply (okw_bind _ _ _ _ (fun m => m = n)); [reflexivity|]. intros m ->.
    eapply okw_bind; [apply search_safe|]. intros a (A1 & A2 & A3 & _). eapply okw_bind; [now apply IH|]. intros l Hl. cbn [okw okP done_w]. constructor; [|exact Hl].
    split; [exact Hg|]. exists n. split; [exact En|]. cbn [n_addrs]. specialize (A3 ltac:(discriminate)). rewrite Forall_forall in *. intros x Hx. split; [now apply A1|]. split; [now apply A2|now apply A3].
  Qed.

  (** What is kept of a lookup *)
  Definition kept (l : lookup) : Prop := Forall good (l_cnames l) /\ Forall (server_ok good) (l_next l).
  Lemma trace_safe : forall t l (Q : unit -> lookup -> Prop), kept l -> (forall l', kept l' -> Q tt l') -> okl (pure (trace t) l) Q.
  Proof. intros t l Q Hl HQ. apply okl_pure. cbn [trace fst snd]. cbv zeta. apply HQ. destruct (silent (l_conf l)); exact Hl. Qed.
  Lemma raw_safe : forall t l (Q : unit -> lookup -> Prop), kept l -> (forall l', kept l' -> Q tt l') -> okl (pure (trace_raw t) l) Q.
  Proof. intros t l Q Hl HQ. apply okl_pure. cbn [trace_raw fst snd]. cbv zeta. apply HQ. destruct (silent (l_conf l)); [exact Hl|]. destruct (negb (verbose (l_conf l))); exact Hl. Qed.
  Lemma ns_req_safe : forall n k s l (Q : unit -> lookup -> Prop), kept l -> (forall l', kept l' -> Q tt l') -> okl (pure (trace_ns_req n k s) l) Q.
  Proof.
    intros n k s l Q Hl HQ. apply okl_pure. cbv zeta. unfold trace_ns_req, lbind, lget, lexec, lret. cbn [fst snd]. destruct (silent (l_conf l)) eqn:E; [now apply HQ|].
    destruct (ns_node s) as [x|j|]; [|exact I|exact I]. cbn [trace fst snd]. rewrite E. now apply HQ.
  Qed.
  Lemma get_safe : forall A (f : lookup -> A) l (Q : A -> lookup -> Prop), Q (f l) l -> okl (pure (lget f) l) Q.
  Proof. intros A f l Q H. apply okl_pure. exact H. Qed.
  Lemma ret_safe : forall A (a : A) l (Q : A -> lookup -> Prop), Q a l -> okl (pure (lret a) l) Q.
  Proof. intros A f l Q H. apply okl_pure. exact H. Qed.
  Lemma exec_safe : forall A (a : exec A) l (Q : A -> lookup -> Prop), (forall x, a = Done x -> Q x l) -> okl (pure (lexec a) l) Q.
  Proof. intros A a l Q H. apply okl_pure. cbn [lexec fst snd]. cbv zeta. destruct a; auto. Qed.
  Lemma mod_safe : forall f l (Q : unit -> lookup -> Prop), Q tt (f l) -> okl (pure (lmod f) l) Q.
  Proof. intros f l Q H. apply okl_pure. exact H. Qed.

  Definition fine (r : result nsresp lerr) : Prop := match r with Ok x => exists node kind zone, resp_ok good node kind zone x | Err _ => True end.
  Lemma request_safe : forall node kind s n l, kept l -> okl (request_trace_p p node kind s n l) (fun r l' => kept l' /\ fine r).
  Proof.
    intros node kind s n l Hl. unfold request_trace_p. eapply okl_bind; [apply ns_req_safe with (Q := fun _ l' => kept l'); auto|]. intros [] l1 H1. cbv beta in H1.
    eapply okl_bind with (Q' := fun r l' => kept l' /\ fine r).
    - unfold request_p. eapply okl_bind; [apply okl_w with (Q := fun r l' => kept l' /\ match r with Ok m => Forall good (all_records m) | Err _ => True end) (1 := retries_safe node kind s n None); auto|].
      intros [m|e] l2 (H2 & H3); [|apply ret_safe; now split]. eapply okl_bind; [apply raw_safe with (Q := fun _ l' => kept l'); auto|]. intros [] l3 H4. cbv beta in H4.
      apply exec_safe. intros x Ex. split; [exact H4|]. destruct (read_response_ok good m node kind (ns_zone s) H3) as (r & Er & R). assert (x = r) by congruence. subst x.
      destruct r as [y|e]; [|exact I]. exists node, kind, (ns_zone s). apply R.
    - intros [x|e] l2 (H2 & H3); (eapply okl_bind; [apply trace_safe with (Q := fun _ l' => kept l'); auto|]; intros [] l3 H4; cbv beta in H4; apply ret_safe; now split).
  Qed.
  Lemma search_trace_safe : forall kind l, kept l -> okl (search_trace_p kind l) (fun rs l' => kept l' /\ exists node, found good node kind rs).
  Proof.
    intros kind l Hl. unfold search_trace_p. eapply okl_bind; [apply get_safe with (Q := fun _ l' => kept l'); exact Hl|]. intros node l1 H1. cbv beta in H1.
    eapply okl_bind; [apply okl_w with (Q := fun rs l' => kept l' /\ found good node kind rs) (1 := search_safe node kind); auto|]. intros rs l2 (H2 & H3).
    eapply okl_bind; [apply trace_safe with (Q := fun _ l' => kept l'); auto|]. intros [] l3 H4. cbv beta in H4. apply ret_safe. split; [exact H4|now exists node].
  Qed.
  Lemma search_nss_safe : forall l, kept l -> okl (search_nss_p l) (fun ns l' => kept l' /\ Forall (server_ok good) ns).
  Proof.
    intros l Hl. unfold search_nss_p. eapply okl_bind; [apply get_safe with (Q := fun _ l' => kept l'); exact Hl|]. intros node l1 H1. cbv beta in H1.
    eapply okl_bind; [apply okl_w with (Q := fun rs l' => kept l' /\ Forall (fun r => good r /\ record_type r = RT_NS) rs) (1 := find_safe (generate_domain_hierarchy node)); auto|]. intros rs l2 (H2 & H3).
    destruct rs as [|r rs].
    - eapply okl_bind; [apply trace_safe with (Q := fun _ l' => kept l'); auto|]. intros [] l3 H4. cbv beta in H4. apply ret_safe. split; [exact H4|constructor].
    - eapply okl_bind; [apply okl_w with (Q := fun x l' => kept l' /\ Forall (server_ok good) x) (1 := cached_safe (r :: rs) H3); auto|]. intros x l3 (H4 & H5).
      eapply okl_bind; [apply trace_safe with (Q := fun _ l' => kept l'); auto|]. intros [] l4 H6. cbv beta in H6. apply ret_safe. now split.
  Qed.
  Lemma cname_safe : forall c next l, kept l -> good c -> record_type c = RT_CNAME -> Forall (server_ok good) next -> okl (handle_cname_p c next l) (fun _ l' => kept l').
  Proof.
    intros c next l Hl Hg Ht Hn. unfold handle_cname_p. eapply okl_bind; [apply exec_safe with (Q := fun _ l' => kept l'); auto|]. intros t l1 H1. cbv beta in H1.
    eapply okl_bind; [apply get_safe with (Q := fun prev l' => kept l' /\ Forall good prev); split; [exact H1|apply H1]|]. intros prev l2 (H2 & H3).
    destruct (detect_cname_loops t prev); [now apply ret_safe|].
    assert (Hp : Forall good (prev ++ [c])) by (apply Forall_app; split; [exact H3|now repeat constructor]).
    eapply okl_bind; [apply mod_safe with (Q := fun _ l' => kept l'); split; [exact Hp|apply H2]|]. intros [] l3 H4. cbv beta in H4.
    eapply okl_bind; [apply get_safe with (Q := fun _ l' => kept l'); exact H4|]. intros nf l4 H5. cbv beta in H5. destruct nf; [now apply ret_safe|].
    eapply okl_bind; [apply okl_w with (Q := fun _ l' => kept l') (Q' := fun _ => True); [|auto]; apply save_safe; [now repeat constructor|]|].
    { exists RT_CNAME. split; [now repeat constructor|]. intros _. exists (r_node c). now repeat constructor. }
    intros [] l5 H6. cbv beta in H6. eapply okl_bind; [apply mod_safe with (Q := fun _ l' => kept l'); split; [apply H6|exact Hn]|]. intros [] l6 H7. cbv beta in H7.
    eapply okl_bind; [apply mod_safe with (Q := fun _ l' => kept l'); exact H7|]. intros [] l7 H8. cbv beta in H8. now apply ret_safe.
  Qed.

  Definition answered (r : result response lerr) : Prop := match r with Ok x => Forall good (x_answers x) | Err _ => True end.
  Section With_sub.
    Context (sub : LP (result response lerr)) (Hsub : forall l, kept l -> okl (sub l) (fun r _ => answered r)).

    Lemma subquery_safe : forall node zone l, kept l -> okl (subquery_p sub node zone l)
      (fun r l' => kept l' /\ match r with Ok a => Forall (fun r => good r /\ record_type r = RT_A /\ r_node r = node) a | Err _ => True end).
    Proof.
      intros node zone l Hl. unfold subquery_p. eapply okl_bind; [apply get_safe with (Q := fun _ l' => kept l'); exact Hl|]. intros zones l1 H1. cbv beta in H1.
      destruct (detect_zones_loop zone zones); [apply ret_safe; now split|]. cbv beta.
      eapply okP_then; [apply Hsub; split; constructor| |].
      - intros [[r|j|] l2]; cbn [done_w fst snd okP]; [|trivial|trivial]. intros Hr.
        change (okl (lpbind (pure (add_sub_trace (l_trace l2))) (fun _ => pure (lret match r with Ok x => Ok (fst (extract_records (x_answers x) RT_A node)) | Err e => Err e end)) l1)
          (fun r l' => kept l' /\ match r with Ok a => Forall (fun r => good r /\ record_type r = RT_A /\ r_node r = node) a | Err _ => True end)).
        eapply okl_bind; [apply okl_pure with (Q := fun _ l' => kept l'); exact H1|]. intros [] l3 H3. cbv beta in H3. apply ret_safe. split; [exact H3|]. destruct r as [x|e]; [|exact I].
        cbn [answered] in Hr. destruct (C53_extract_records (x_answers x) RT_A node) as (got & rest & E & P & G1 & _). rewrite E. cbn [fst]. apply Forall_forall. intros y Hy.
        destruct (G1 y Hy) as (Y1 & Y2). split; [|now split]. rewrite Forall_forall in Hr. apply Hr, (Permutation_in y P), in_or_app. now left.
      - intros [[r|j|] l2]; cbn [dead_w fst snd]; [intros []|intros _; now eexists|intros _; now eexists].
    Qed.
    Lemma servers_safe : forall ss err l, kept l -> Forall (server_ok good) ss -> okl (servers_p p sub ss err l)
      (fun a l' => kept l' /\ match a with Asked_result r => fine r | Asked_next _ => True end).
    Proof.
      induction ss as [|s ss IH]; intros err l Hl Hs; cbn [servers_p]; [destruct err; [apply ret_safe; split; [exact Hl|exact I]|apply exec_safe; discriminate]|].
      inversion Hs as [|? ? Hs1 Hs2]; subst. eapply okl_bind; [apply exec_safe with (Q := fun _ l' => kept l'); auto|]. intros addrs l1 H1. cbv beta in H1.
      eapply okl_bind with (Q' := fun r l' => kept l' /\ match r with Ok s' => server_ok good s' | Err _ => True end).
      - destruct addrs as [|a al]; [|apply ret_safe; now split]. destruct Hs1 as (Hg & n & En & _).
        eapply okl_bind; [apply exec_safe with (Q := fun x l' => kept l' /\ x = n); intros x Ex; split; [exact H1|]|].
        { unfold ns_node, ns_data in Ex. rewrite En in Ex. congruence. }
        intros x l2 (H2 & ->). eapply okl_bind; [now apply subquery_safe|]. intros [a|e] l3 (H3 & H4); apply ret_safe; (split; [exact H3|]); [|exact I].
        split; [exact Hg|]. exists n. split; [exact En|exact H4].
      - intros [s'|e] l2 (H2 & H3); [|now apply IH]. 
        eapply okl_bind; [apply get_safe with (Q := fun _ l' => kept l'); exact H2|]. intros node l3 H4. cbv beta in H4.
        eapply okl_bind; [apply get_safe with (Q := fun _ l' => kept l'); exact H4|]. intros kind l4 H5. cbv beta in H5.
        eapply okl_bind; [apply get_safe with (Q := fun _ l' => kept l'); exact H5|]. intros conf l5 H6. cbv beta in H6.
        eapply okl_bind; [now apply request_safe|]. intros [x|e] l6 (H7 & H8); [|now apply IH].
        destruct x as [soa|ans add|c next|next]; try (apply ret_safe; split; [exact H7|exact H8]).
        destruct H8 as (nd & kd & z & _ & Hn & _).
        eapply okl_bind; [apply okl_w with (Q := fun _ l' => kept l') (Q' := fun _ => True); [now apply nss_safe|auto]|]. intros [] l7 H9. cbv beta in H9.
        eapply okl_bind; [apply mod_safe with (Q := fun _ l' => kept l'); split; [apply H9|exact Hn]|]. intros [] l8 H10. cbv beta in H10. apply ret_safe. split; [exact H10|exact I].
    Qed.
    Lemma zones_safe : forall fuel l, kept l -> okl (zones_p p sub fuel l) (fun r l' => kept l' /\ fine r).
    Proof.
      induction fuel as [|f IH]; intros l Hl; cbn [zones_p]; [apply exec_safe; discriminate|].
      eapply okl_bind; [apply get_safe with (Q := fun next l' => kept l' /\ Forall (server_ok good) next); split; [exact Hl|apply Hl]|]. intros next l1 (H1 & H2).
      destruct next as [|s0 next]; [apply exec_safe; discriminate|].
      eapply okl_bind; [apply mod_safe with (Q := fun _ l' => kept l'); split; [apply H1|constructor]|]. intros [] l2 H3. cbv beta in H3.
      eapply okl_bind; [apply exec_safe with (Q := fun sorted l' => kept l' /\ Forall (server_ok good) sorted); intros sorted Es; split; [exact H3|]|].
      { rewrite C54_servers_with_addresses_first in Es by (eapply Forall_impl; [|exact H2]; intros s Hs; exact (server_addrs good s Hs)).
        assert (X : sorted = filter addressed (s0 :: next) ++ filter (fun s => negb (addressed s)) (s0 :: next)) by congruence. rewrite X. clear Es X.
        apply Forall_app. rewrite Forall_forall in H2. split; apply Forall_forall; intros s Hi; apply filter_In in Hi as (Hi & _); now apply H2. }
      intros sorted l3 (H4 & H5). eapply okl_bind; [apply get_safe with (Q := fun _ l' => kept l'); exact H4|]. intros conf l4 H6. cbv beta in H6.
      eapply okl_bind; [apply servers_safe; [exact H6|]|].
      { rewrite <- (firstn_skipn (max_ns conf) sorted) in H5. now apply Forall_app in H5 as (H5 & _). }
      intros [r|nx] l5 (H7 & H8); [apply ret_safe; now split|]. now apply IH.
    Qed.
    Lemma inner_safe : forall fuel n l, kept l -> okl (inner_p p sub fuel n l) (fun r _ => answered r).
    Proof.
      intros fuel. induction n as [|n IH]; intros l Hl; cbn [inner_p]; [now apply ret_safe|].
      eapply okl_bind; [apply get_safe with (Q := fun _ l' => kept l'); exact Hl|]. intros node l1 H1. cbv beta in H1.
      eapply okl_bind; [apply get_safe with (Q := fun _ l' => kept l'); exact H1|]. intros kind l2 H2. cbv beta in H2.
      eapply okl_bind; [apply trace_safe with (Q := fun _ l' => kept l'); auto|]. intros [] l3 H3. cbv beta in H3.
      eapply okl_bind; [now apply search_trace_safe|]. intros cached l4 (H4 & nd & H5). destruct cached as [|c0 cached].
      2:{ eapply okl_bind; [apply get_safe with (Q := fun prev l' => kept l' /\ Forall good prev); split; [exact H4|apply H4]|]. intros prev l5 (H6 & H7).
          eapply okl_bind; [apply mod_safe with (Q := fun _ l' => kept l'); split; [constructor|apply H6]|]. intros [] l6 H8. cbv beta in H8. apply ret_safe. cbn [answered x_answers].
          apply Forall_app. split; [exact H7|apply H5]. }
      eapply okl_bind; [now apply search_trace_safe|]. intros cnames l5 (H6 & nd' & H7). destruct cnames as [|c cnames].
      2:{ destruct H7 as (G1 & G2 & _). apply Forall_inv in G1. apply Forall_inv in G2.
          eapply okl_bind; [apply cname_safe; [exact H6|assumption|assumption|constructor]|]. intros [u|e] l6 H8; [now apply IH|now apply ret_safe]. }
      eapply okl_bind; [apply get_safe with (Q := fun _ l' => kept l'); exact H6|]. intros next l6 H8. cbv beta in H8.
      eapply okl_bind with (Q' := fun _ l' => kept l').
      { destruct next as [|s next]; [|now apply ret_safe]. eapply okl_bind; [now apply search_nss_safe|]. intros x l7 (H9 & H10). apply mod_safe. split; [apply H9|].
        destruct x as [|s x]; [|exact H10]. cbn [set_next l_next]. pose proof (cl_root _ _ _ CL) as Hr. unfold root_zone_nameservers in *. apply Forall_map. rewrite Forall_map in Hr.
        eapply Forall_impl; [|exact Hr]. intros [m a] (R1 & R2). split; [exact R1|]. exists m. split; [reflexivity|]. cbn [n_addrs] in *. inversion R2; subst. constructor; [|constructor]. split; [assumption|now split]. }
      intros [] l7 H9. cbv beta in H9. eapply okl_bind; [now apply zones_safe|]. intros [x|e] l8 (H10 & H11); [|now apply ret_safe].
      destruct H11 as (nd2 & kd2 & z2 & H11). destruct x as [soa|ans add|c nx|nx].
      - eapply okl_bind; [apply get_safe with (Q := fun prev l' => kept l' /\ Forall good prev); split; [exact H10|apply H10]|]. intros prev l9 (H12 & H13).
        eapply okl_bind; [apply mod_safe with (Q := fun _ l' => kept l'); split; [constructor|apply H12]|]. intros [] l10 H14. cbv beta in H14. apply ret_safe. exact H13.
      - destruct H11 as (A1 & A2 & A3). eapply okl_bind; [apply exec_safe with (Q := fun _ l' => kept l'); auto|]. intros [] l9 H12. cbv beta in H12.
        eapply okl_bind; [apply okl_w with (Q := fun _ l' => kept l') (Q' := fun _ => True); [apply save_safe|auto]|].
        { eapply Forall_impl; [|exact A2]. cbn. tauto. }
        { exists kd2. split; [eapply Forall_impl; [|exact A2]; cbn; tauto|]. intros _. exists nd2. eapply Forall_impl; [|exact A2]; cbn; tauto. }
        intros [] l10 H13. cbv beta in H13. eapply okl_bind; [apply get_safe with (Q := fun prev l' => kept l' /\ Forall good prev); split; [exact H13|apply H13]|]. intros prev l11 (H14 & H15).
        eapply okl_bind; [apply mod_safe with (Q := fun _ l' => kept l'); split; [constructor|apply H14]|]. intros [] l12 H16. cbv beta in H16. apply ret_safe. cbn [answered x_answers].
        apply Forall_app. split; [exact H15|]. eapply Forall_impl; [|exact A2]. cbn. tauto.
      - destruct H11 as (A1 & _ & A3 & A4). eapply okl_bind; [now apply cname_safe|]. intros [u|e] l9 H12; [now apply IH|now apply ret_safe].
      - apply exec_safe. discriminate.
    Qed.
  End With_sub.
  Lemma perform_safe : forall fuel l, kept l -> okl (perform_p p fuel l) (fun r _ => answered r).
  Proof.
    induction fuel as [|f IH]; intros l Hl; cbn [perform_p]; [apply exec_safe; discriminate|].
    eapply okl_bind; [apply get_safe with (Q := fun _ l' => kept l'); exact Hl|]. intros conf l1 H1. cbv beta in H1. now apply inner_safe.
  Qed.
End Safe.
