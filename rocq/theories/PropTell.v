(** C84: a trace tells of every packet sent. *)
From Coq Require Import Permutation.
From Verif Require Import Base Types Name NameSpec Codec Cache Resolver ResolverLists TellSpec ResolverSpec ResolverEx PropResolver3.

(** What is read from a response is in it. *)
Lemma extract_incl : forall l kind node got rest, extract_records l kind node = (got, rest) -> incl got l /\ incl rest l.
Proof.
  intros l kind node got rest E. destruct (C53_extract_records l kind node) as (got' & rest' & E' & P & _). rewrite E in E'. injection E' as <- <-.
  split; intros r Hr; apply (Permutation_in r P), in_or_app; auto.
Qed.
Lemma extract_record_incl : forall l kind node r, fst (extract_record l kind node) = Some r -> In r l.
Proof.
  intros l kind node r E. destruct (C53_extract_record l kind node) as [(r' & rest & b & a & E' & -> & _)|(E' & _)]; rewrite E' in E; [|discriminate].
  injection E as ->. apply in_or_app. right. now left.
Qed.
Definition of_servers (l : list nsrv) : list record := flat_map (fun s => n_rec s :: n_addrs s) l.
Lemma nss_of_incl : forall rs adds l rest, nss_of rs adds = Done (l, rest) -> incl (of_servers l) (rs ++ adds) /\ incl rest adds.
Proof.
  induction rs as [|r rs IH]; intros adds l rest E; cbn [nss_of] in E.
  - injection E as <- <-. split; intros x Hx; [destruct Hx|exact Hx].
  - destruct (ns_data r) as [n| |]; cbn [bind] in E; try discriminate E.
    destruct (extract_records adds RT_A n) as (got, adds') eqn:Ee. apply extract_incl in Ee as (I1 & I2).
    destruct (nss_of rs adds') as [(l', rest')| |] eqn:En; cbn [bind] in E; try discriminate E. injection E as <- <-.
    apply IH in En as (I3 & I4). split; [|intros x Hx; auto].
    intros x Hx. cbn in Hx. destruct Hx as [<-|Hx]; [now left|]. apply in_app_or in Hx as [Hx|Hx]; [right; apply in_or_app; right; auto|].
    apply I3, in_app_or in Hx as [Hx|Hx]; right; apply in_or_app; auto.
Qed.
Lemma drop_glueless_incl : forall l l', drop_glueless l = Done l' -> incl (of_servers l') (of_servers l).
Proof.
  induction l as [|s l IH]; intros l' E; cbn [drop_glueless] in E; [injection E as <-; intros x Hx; exact Hx|].
  destruct (ns_node s) as [n| |]; cbn [bind] in E; try discriminate E. destruct (ns_addrs s) as [a| |]; cbn [bind] in E; try discriminate E.
  destruct (drop_glueless l) as [t| |]; cbn [bind] in E; try discriminate E. specialize (IH t eq_refl). injection E as <-.
  unfold of_servers in *. destruct (is_nameserver_in_subzone_without_glue _ _ _); cbn [flat_map]; intros x Hx; apply in_or_app.
  - right. now apply IH.
  - cbn [flat_map] in Hx. apply in_app_or in Hx as [Hx|Hx]; [now left|right; now apply IH].
Qed.
Lemma read_incl : forall m node kind zone x, read_response m node kind zone = Done (Ok x) -> incl (shown x) (m_answers m ++ m_authorities m ++ m_additionals m).
Proof.
  intros m node kind zone x E. unfold read_response in E. destruct (h_rcode (m_header m)); try discriminate E.
  - destruct (extract_records (m_answers m) kind node) as (got, rest) eqn:Ee. apply extract_incl in Ee as (I1 & I2). destruct got as [|g got].
    + destruct (fst (extract_record rest RT_CNAME node)) as [c|] eqn:Ec.
      * destruct (cname_data c) as [n| |]; cbn [bind] in E; try discriminate E. unfold extract_next_nss_for_cname in E.
        destruct (nss_of _ _) as [(l, r)| |] eqn:En; cbn [bind] in E; try discriminate E. injection E as <-. apply nss_of_incl in En as (I3 & _).
        apply extract_record_incl in Ec. intros r' Hr. cbn [shown] in Hr. destruct Hr as [<-|Hr]; [apply in_or_app; left; auto|].
        apply I3 in Hr. apply in_or_app. right. apply in_app_or in Hr as [Hr|Hr]; apply in_or_app; [left; now apply filter_In in Hr|now right].
      * unfold extract_next_nss_for_subzone in E. destruct (nss_of _ _) as [(l, r)| |] eqn:En; cbn [bind] in E; try discriminate E.
        destruct (drop_glueless l) as [l'| |] eqn:Ed; cbn [bind] in E; try discriminate E. apply nss_of_incl in En as (I3 & _). apply drop_glueless_incl in Ed.
        destruct l' as [|s l']; [discriminate E|]. injection E as <-. intros r' Hr. apply Ed, I3 in Hr. apply in_or_app. right.
        apply in_app_or in Hr as [Hr|Hr]; apply in_or_app; [left; now apply filter_In in Hr|now right].
    + injection E as <-. intros r Hr. cbn [shown] in Hr. apply in_app_or in Hr as [Hr|Hr]; apply in_or_app; [left; auto|right; apply in_or_app; now right].
  - destruct (h_aa (m_header m)); [|discriminate E]. injection E as <-. intros r Hr. cbn [shown] in Hr.
    destruct (fst (extract_record (m_authorities m) RT_SOA node)) as [c|] eqn:Ec; [|destruct Hr]. destruct Hr as [<-|[]]. apply extract_record_incl in Ec.
    apply in_or_app. right. apply in_or_app. now left.
Qed.

Section Tell.
  Variable p : profile.
  Variable env : environment.
  Variable tries : nat.
  Variable v : bool.
  Notation tells := (tells p env tries v).
  Notation exchange := (exchange p env tries v).

  Lemma tells_app : forall ts xs us ys, tells ts xs -> tells us ys -> tells (ts ++ us) (xs ++ ys).
  Proof.
    intros ts xs us ys H G. induction H as [|t ts xs Ht _ IH|l ts xs zs Hl _ _ IH|n k s z a o ts xs zs H1 H2 H3 H4 _ IH]; cbn [app].
    - exact G.
    - now constructor.
    - rewrite <- app_assoc. now constructor.
    - rewrite <- !app_assoc. now apply te_asked with (a := a).
  Qed.
  Lemma tells_one : forall t, tells_of_packets t = false -> tells [t] [].
  Proof. intros t H. constructor; [exact H|constructor]. Qed.

  (** Tracing is on. *)
  Definition tracing (c : rconf) : Prop := silent c = false /\ verbose c = v /\ max_retries c = tries.
  Definition telling {A} (m : L A) : Prop := forall l w a l' w', tracing (l_conf l) -> m (l, w) = (Done a, (l', w')) ->
    l_conf l' = l_conf l /\ exists ts xs, l_trace l' = l_trace l ++ ts /\ w_sent w' = rev xs ++ w_sent w /\ tells ts xs.
  Definition unsent {A} (m : W A) : Prop := forall w, w_sent (snd (m w)) = w_sent w.

  Lemma telling_none : forall A (m : L A), (forall l w a l' w', m (l, w) = (Done a, (l', w')) -> l_conf l' = l_conf l /\ l_trace l' = l_trace l /\ w_sent w' = w_sent w) -> telling m.
  Proof. intros A m H l w a l' w' _ E. destruct (H _ _ _ _ _ E) as (H1 & H2 & H3). split; [exact H1|]. exists [], []. rewrite app_nil_r. split; [exact H2|]. split; [exact H3|constructor]. Qed.
  Lemma telling_ret : forall A (a : A), telling (lret a).
  Proof. intros A a. apply telling_none. intros l w b l' w' E. injection E as _ <- <-. auto. Qed.
  Lemma telling_get : forall A (f : lookup -> A), telling (lget f).
  Proof. intros A a. apply telling_none. intros l w b l' w' E. injection E as _ <- <-. auto. Qed.
  Lemma telling_exec : forall A (m : exec A), telling (lexec m).
  Proof. intros A a. apply telling_none. intros l w b l' w' E. injection E as _ <- <-. auto. Qed.
  Lemma telling_mod : forall f, (forall l, l_conf (f l) = l_conf l /\ l_trace (f l) = l_trace l) -> telling (lmod f).
  Proof. intros f H. apply telling_none. intros l w b l' w' E. injection E as <- <- <-. destruct (H l). auto. Qed.
  Lemma telling_lw : forall A (m : W A), unsent m -> telling (lw m).
  Proof.
    intros A m H. apply telling_none. intros l w a l' w' E. unfold lw in E. cbn [fst snd] in E. specialize (H w). destruct (m w) as (r, w1). cbn [snd] in H.
    assert (l = l' /\ w1 = w') as (-> & ->) by (split; congruence). auto.
  Qed.
  Lemma telling_bind : forall A B (m : L A) (k : A -> L B), telling m -> (forall a, telling (k a)) -> telling (lbind m k).
  Proof.
    intros A B m k Hm Hk l w b l' w' T E. unfold lbind in E. destruct (m (l, w)) as (r, (l1, w1)) eqn:Em. destruct r as [a| |]; try discriminate E.
    destruct (Hm _ _ _ _ _ T Em) as (C1 & ts & xs & T1 & S1 & H1). assert (T' : tracing (l_conf l1)) by now rewrite C1.
    destruct (Hk a _ _ _ _ _ T' E) as (C2 & us & ys & T2 & S2 & H2). split; [now rewrite C2|]. exists (ts ++ us), (xs ++ ys).
    split; [now rewrite T2, T1, app_assoc|]. split; [now rewrite S2, S1, rev_app_distr, app_assoc|]. now apply tells_app.
  Qed.
  Lemma telling_trace : forall t, tells_of_packets t = false -> telling (trace t).
  Proof.
    intros t H l w a l' w' (S & _) E. unfold trace in E. cbn [fst snd] in E. rewrite S in E. injection E as _ <- <-. split; [reflexivity|].
    exists [t], []. split; [reflexivity|]. split; [reflexivity|]. now apply tells_one.
  Qed.

  Lemma unsent_ret : forall A (a : A), unsent (wret a).
  Proof. intros A a w. reflexivity. Qed.
  Lemma unsent_exec : forall A (a : exec A), unsent (wexec a).
  Proof. intros A a w. reflexivity. Qed.
  Lemma unsent_bind : forall A B (m : W A) (k : A -> W B), unsent m -> (forall a, unsent (k a)) -> unsent (wbind m k).
  Proof. intros A B m k Hm Hk w. unfold wbind. specialize (Hm w). destruct (m w) as ([a| |], w1); cbn [snd] in *; [rewrite (Hk a w1)| |]; exact Hm. Qed.
  Lemma unsent_access : forall f, unsent (access env f).
  Proof. intros f w. unfold access. destruct (cache_run _ _ _) as (r, c). reflexivity. Qed.
  Lemma unsent_search : forall n k, unsent (search_records env n k).
  Proof.
    intros n k. unfold search_records. apply unsent_bind; [intros w; reflexivity|]. intros b. apply unsent_bind; [apply unsent_access|]. intros r.
    repeat match goal with |- unsent (match ?x with _ => _ end) => destruct x end; try apply unsent_ret; apply unsent_exec.
  Qed.
  Lemma unsent_save : forall rs, unsent (save_records env rs).
  Proof.
    intros [|r rs]; [apply unsent_exec|]. unfold save_records. destruct (forallb _ _); [|apply unsent_exec]. apply unsent_bind; [apply unsent_access|]. intros _. apply unsent_ret.
  Qed.
  Lemma unsent_save_nss : forall l, unsent (save_nss env l).
  Proof.
    intros l. unfold save_nss. apply unsent_bind; [|intros _; apply unsent_save]. induction l as [|s l IH]; [apply unsent_ret|]. cbn [save_glue].
    destruct (n_addrs s); [exact IH|]. apply unsent_bind; [apply unsent_save|]. intros _. exact IH.
  Qed.
  Lemma unsent_find : forall ds, unsent (find_ns_records env ds).
  Proof.
    induction ds as [|d ds IH]; [apply unsent_ret|]. cbn [find_ns_records]. destruct (name_from_string d) as [n|]; [|apply unsent_exec].
    apply unsent_bind; [apply unsent_search|]. intros [|r rs]; [exact IH|apply unsent_ret].
  Qed.
  Lemma unsent_addrs : forall rs, unsent (cached_addrs env rs).
  Proof.
    induction rs as [|r rs IH]; [apply unsent_ret|]. cbn [cached_addrs]. apply unsent_bind; [apply unsent_exec|]. intros n.
    apply unsent_bind; [apply unsent_search|]. intros a. apply unsent_bind; [exact IH|]. intros l. apply unsent_ret.
  Qed.

  (** One query, and its repetitions. *)
  Lemma send_tells' : forall n k s w, match send_query p env n k s w with
    | (Done r, w') => exists a b, ns_addrs s = Done (a :: b) /\ exists x, w_sent w' = x :: w_sent w /\ query_to p n k a x /\
                        forall m, r = Ok m -> answered p env x m
    | _ => True
    end.
  Proof.
    intros n k s w. unfold send_query. destruct (encode_message p (build_dns_request (ev_id (env (w_n w))) n k)) as [[bytes|]| |] eqn:Ee; try exact I.
    destruct (ns_addrs s) as [[|a b]| |]; try exact I.
    assert (Q : query_to p n k a (a, bytes)) by (split; [reflexivity|]; now exists (ev_id (env (w_n w)))). clear Ee.
    destruct (ev_net (env (w_n w)) a bytes) as [d|] eqn:En.
    - unfold MAX_UDP_LEN_BYTES. destruct (decode_message p (firstn 512 d)) as [[m|]| |] eqn:Ed; try exact I.
      + destruct (h_id (m_header m) =? ev_id (env (w_n w)))%N eqn:Ei; exists a, b; (split; [reflexivity|]); exists (a, bytes); (split; [reflexivity|]; split; [exact Q|]); intros m' Em; [|discriminate Em].
        exists (w_n w), d. split; [exact En|]. assert (X : m = m') by congruence. rewrite <- X. split; [exact Ed|]. now apply N.eqb_eq.
      + exists a, b. split; [reflexivity|]. exists (a, bytes). split; [reflexivity|]. split; [exact Q|]. intros m' Em. discriminate Em.
    - exists a, b. split; [reflexivity|]. exists (a, bytes). split; [reflexivity|]. split; [exact Q|]. intros m' Em. discriminate Em.
  Qed.
  Lemma send_tells : forall n k s w r w', send_query p env n k s w = (Done r, w') ->
    exists a b, ns_addrs s = Done (a :: b) /\ exists x, w_sent w' = x :: w_sent w /\ query_to p n k a x /\
      forall m, r = Ok m -> answered p env x m.
  Proof. intros n k s w r w' E. pose proof (send_tells' n k s w) as H. rewrite E in H. exact H. Qed.
  Lemma retries_S : forall n k s r err w, send_query_with_retries p env (S r) err n k s w =
    match send_query p env n k s w with
    | (Done (Ok m), w1) => (Done (Ok m), w1)
    | (Done (Err e), w1) => send_query_with_retries p env r (Some e) n k s w1
    | (Panic c, w1) => (Panic c, w1)
    | (Diverge, w1) => (Diverge, w1)
    end.
  Proof. intros n k s r err w. cbn [send_query_with_retries]. unfold wbind. destruct (send_query p env n k s w) as ([[m|e]| |], w1); reflexivity. Qed.
  Lemma retries_tell : forall n k s r err w o w', send_query_with_retries p env r err n k s w = (Done o, w') ->
    (r = 0 /\ w' = w /\ exists e, o = Err e) \/
    exists a b xs, ns_addrs s = Done (a :: b) /\ xs <> [] /\ length xs <= r /\ w_sent w' = rev xs ++ w_sent w /\ Forall (query_to p n k a) xs /\
      match o with Err _ => length xs = r | Ok m => exists ys x, xs = ys ++ [x] /\ answered p env x m end.
  Proof.
    intros n k s. induction r as [|r IH]; intros err w o w' E; [|rewrite retries_S in E].
    - left. cbn [send_query_with_retries] in E. destruct err as [e|]; [|discriminate E]. unfold wret in E. injection E as <- <-. split; [reflexivity|]. split; [reflexivity|]. now exists e.
    - right. destruct (send_query p env n k s w) as (x, w1) eqn:Es. destruct x as [y| |]; [|discriminate E|discriminate E].
      destruct (send_tells _ _ _ _ _ _ Es) as (a & b & Ea & x & S1 & Q & A). destruct y as [m|e].
      + injection E as <- <-. exists a, b, [x]. split; [exact Ea|]. split; [discriminate|]. split; [cbn; lia|]. split; [exact S1|].
        split; [constructor; [exact Q|constructor]|]. exists [], x. split; [reflexivity|]. now apply A.
      + destruct (IH _ _ _ _ E) as [(-> & -> & e' & ->)|(a' & b' & xs & Ea' & N & L & S2 & Q2 & O)].
        * exists a, b, [x]. split; [exact Ea|]. split; [discriminate|]. split; [cbn; lia|]. split; [exact S1|]. split; [constructor; [exact Q|constructor]|reflexivity].
        * rewrite Ea in Ea'. injection Ea' as <- <-. exists a, b, (x :: xs). split; [exact Ea|]. split; [discriminate|]. split; [cbn; lia|]. split.
          { rewrite S2, S1. cbn [rev]. now rewrite <- app_assoc. }
          split; [now constructor|]. destruct o as [m|]; [|cbn; lia]. destruct O as (ys & z & -> & A'). exists (x :: ys), z. now split.
  Qed.
  Lemma request_tells : forall n k s, telling (perform_request_with_trace p env n k s tries).
  Proof.
    intros n k s l w a l' w' (Si & Ve & Mr) E. unfold perform_request_with_trace in E. unfold lbind at 1 in E.
    unfold trace_ns_req in E. unfold lbind at 1 in E. unfold lget at 1 in E. cbn [fst snd] in E. rewrite Si in E. unfold lbind at 1 in E. unfold lexec at 1 in E.
    destruct (ns_node s) as [x| |]; try discriminate E. unfold trace at 1 in E. cbn [fst snd] in E. rewrite Si in E.
    unfold lbind at 1 in E. unfold perform_request in E. unfold lbind at 1 in E. unfold lw at 1 in E. cbn [fst snd] in E.
    destruct (send_query_with_retries p env tries None n k s w) as (r, w1) eqn:Er. destruct r as [r| |]; try discriminate E.
    destruct (retries_tell _ _ _ _ _ _ _ _ Er) as [(Z & -> & e & ->)|(ad & b & xs & Ea & N & Le & S1 & Q & O)].
    { exfalso. rewrite Z in Er. cbn in Er. discriminate Er. }
    assert (Fin : forall o, exchange xs o -> tells (T_ns_req n k x (ns_zone s) :: o) xs).
    { intros o X. pose proof (te_asked p env tries v n k x (ns_zone s) ad o [] xs [] N Le Q X (te_nil p env tries v)) as H. rewrite !app_nil_r in H. exact H. }
    destruct r as [m|e].
    - destruct O as (ys & y & -> & An). unfold lbind at 1 in E. unfold trace_raw in E. cbn [fst snd] in E. change (l_conf (push_line (T_ns_req n k x (ns_zone s)) l)) with (l_conf l) in E. rewrite Si, Ve in E.
      unfold lexec at 1 in E. set (l2 := if negb v then push_line (T_ns_req n k x (ns_zone s)) l else push_line (T_raw m) (push_line (T_ns_req n k x (ns_zone s)) l)) in E.
      assert (C2 : l_conf l2 = l_conf l) by (unfold l2; now destruct v). assert (T2 : l_trace l2 = l_trace l ++ T_ns_req n k x (ns_zone s) :: (if v then [T_raw m] else [])).
      { unfold l2. destruct v; cbn [negb push_line l_trace]; [now rewrite <- app_assoc|reflexivity]. }
      destruct (read_response m n k (ns_zone s)) as [rr| |] eqn:Err; try discriminate E. destruct rr as [x0|e0].
      + unfold lbind in E. unfold trace in E. cbn [fst snd] in E. rewrite C2, Si in E. unfold lret in E. injection E as _ <- <-. split; [exact C2|].
        eexists (T_ns_req n k x (ns_zone s) :: (if v then [T_raw m] else []) ++ [T_ns_resp x0]), (ys ++ [y]). split; [|split; [exact S1|]].
        * cbn [push_line l_trace]. rewrite T2, <- app_assoc. reflexivity.
        * apply Fin. constructor; [exact An|]. eapply read_incl; eassumption.
      + unfold lbind in E. unfold trace in E. cbn [fst snd] in E. rewrite C2, Si in E. unfold lret in E. injection E as _ <- <-. split; [exact C2|].
        eexists (T_ns_req n k x (ns_zone s) :: (if v then [T_raw m] else []) ++ [T_ns_err e0]), (ys ++ [y]). split; [|split; [exact S1|]].
        * cbn [push_line l_trace]. rewrite T2, <- app_assoc. reflexivity.
        * apply Fin. constructor. exact An.
    - unfold lret at 1 in E. unfold lbind in E. unfold trace in E. cbn [fst snd] in E. change (l_conf (push_line (T_ns_req n k x (ns_zone s)) l)) with (l_conf l) in E. rewrite Si in E. unfold lret in E. injection E as _ <- <-.
      split; [reflexivity|]. exists (T_ns_req n k x (ns_zone s) :: [T_ns_err e]), xs. split; [cbn [push_line l_trace]; now rewrite <- app_assoc|]. split; [exact S1|]. apply Fin. now constructor.
  Qed.

  Lemma telling_search : forall k, telling (search_records_with_trace env k).
  Proof.
    intros k. unfold search_records_with_trace. apply telling_bind; [apply telling_get|]. intros n. apply telling_bind; [apply telling_lw, unsent_search|]. intros rs.
    apply telling_bind; [apply telling_trace; now destruct rs|]. intros _. apply telling_ret.
  Qed.
  Lemma telling_search_nss : telling (search_nss_with_trace env).
  Proof.
    unfold search_nss_with_trace. apply telling_bind; [apply telling_get|]. intros n. apply telling_bind; [apply telling_lw, unsent_find|]. intros [|r rs].
    - apply telling_bind; [now apply telling_trace|]. intros _. apply telling_ret.
    - apply telling_bind; [apply telling_lw, unsent_addrs|]. intros l. apply telling_bind; [now apply telling_trace|]. intros _. apply telling_ret.
  Qed.
  Lemma telling_cname : forall c next, telling (handle_cname env c next).
  Proof.
    intros c next. unfold handle_cname. apply telling_bind; [apply telling_exec|]. intros n. apply telling_bind; [apply telling_get|]. intros prev.
    destruct (detect_cname_loops n prev); [apply telling_ret|]. apply telling_bind; [now apply telling_mod|]. intros _. apply telling_bind; [apply telling_get|]. intros nf.
    destruct nf; [apply telling_ret|]. apply telling_bind; [apply telling_lw, unsent_save|]. intros _. apply telling_bind; [now apply telling_mod|]. intros _.
    apply telling_bind; [now apply telling_mod|]. intros _. apply telling_ret.
  Qed.

  Section With_sub.
    Variable sub : L (result response lerr).
    Hypothesis Hsub : telling sub.

    Lemma telling_subquery : forall n z, telling (resolve_ns_subquery sub n z).
    Proof.
      intros n z. unfold resolve_ns_subquery. apply telling_bind; [apply telling_get|]. intros zones. destruct (detect_zones_loop z zones); [apply telling_ret|].
      intros l w a l' w' T E. cbn [fst snd] in E. destruct (sub _) as (r, (inner', w1)) eqn:Es. destruct r as [r| |]; try discriminate E.
      assert (Ti : tracing (no_follow_conf (l_conf l))) by exact T.
      destruct (Hsub _ _ _ _ _ (Ti : tracing (l_conf (mkLookup n RT_A (zones ++ [z]) [] [] [] (no_follow_conf (l_conf l))))) Es) as (C & ts & xs & T1 & S1 & H1).
      cbn [l_trace app] in T1. unfold lbind, add_sub_trace, lmod, lret in E. cbn [fst snd] in E.
      assert (push_line (T_sub (l_trace inner')) l = l' /\ w1 = w') as (<- & <-) by (split; congruence). split; [reflexivity|].
      exists [T_sub (l_trace inner')], xs. split; [reflexivity|]. split; [exact S1|]. rewrite <- (app_nil_r xs), T1. constructor; [exact H1|constructor].
    Qed.
    Lemma telling_servers : forall l err, (forall s, In s l -> True) -> telling (query_servers p env sub l err).
    Proof.
      induction l as [|s l IH]; intros err _; cbn [query_servers]; [destruct err; [apply telling_ret|apply telling_exec]|].
      apply telling_bind; [apply telling_exec|]. intros addrs. apply telling_bind.
      { destruct addrs; [|apply telling_ret]. apply telling_bind; [apply telling_exec|]. intros n. apply telling_bind; [apply telling_subquery|]. intros r. apply telling_ret. }
      intros [s'|e]; [|apply IH; auto]. apply telling_bind; [apply telling_get|]. intros n. apply telling_bind; [apply telling_get|]. intros k.
      intros l0 w a l' w' T E. unfold lbind at 1 in E. unfold lget at 1 in E. cbn [fst snd] in E. pose proof T as (_ & _ & Mr). rewrite Mr in E.
      revert l0 w a l' w' T Mr E.
      match goal with |- forall l0 w a l' w', _ -> _ -> ?M (l0, w) = _ -> _ => assert (X : telling M); [|intros ? ? ? ? ? T _; now apply X] end.
      apply telling_bind; [apply request_tells|]. intros [[]|e]; try apply telling_ret; [|apply IH; auto].
      apply telling_bind; [apply telling_lw, unsent_save_nss|]. intros _. apply telling_bind; [now apply telling_mod|]. intros _. apply telling_ret.
    Qed.
    Lemma telling_zones : forall fuel, telling (query_zones p env sub fuel).
    Proof.
      induction fuel as [|f IH]; cbn [query_zones]; [apply telling_exec|]. apply telling_bind; [apply telling_get|]. intros [|s next]; [apply telling_exec|].
      apply telling_bind; [now apply telling_mod|]. intros _. apply telling_bind; [apply telling_exec|]. intros sorted. apply telling_bind; [apply telling_get|]. intros conf.
      apply telling_bind; [apply telling_servers; auto|]. intros [r|l]; [apply telling_ret|exact IH].
    Qed.
    Lemma telling_inner : forall fuel n, telling (perform_inner p env sub fuel n).
    Proof.
      intros fuel. induction n as [|n IH]; cbn [perform_inner]; [apply telling_ret|]. apply telling_bind; [apply telling_get|]. intros node. apply telling_bind; [apply telling_get|]. intros kind.
      apply telling_bind; [now apply telling_trace|]. intros _. apply telling_bind; [apply telling_search|]. intros [|c cached].
      - apply telling_bind; [apply telling_search|]. intros [|c cs].
        + apply telling_bind; [apply telling_get|]. intros next. apply telling_bind.
          { destruct next; [|apply telling_ret]. apply telling_bind; [apply telling_search_nss|]. intros l. apply telling_mod. now intros []. }
          intros _. apply telling_bind; [apply telling_zones|]. intros [[]|e]; [| | | |apply telling_ret].
          all: try apply telling_exec.
          all: try (apply telling_bind; [apply telling_cname|]; intros [r|e]; [exact IH|apply telling_ret]).
          * apply telling_bind; [apply telling_get|]. intros prev. apply telling_bind; [now apply telling_mod|]. intros _. apply telling_ret.
          * apply telling_bind; [apply telling_exec|]. intros _. apply telling_bind; [apply telling_lw, unsent_save|]. intros _. apply telling_bind; [apply telling_get|]. intros prev.
            apply telling_bind; [now apply telling_mod|]. intros _. apply telling_ret.
        + apply telling_bind; [apply telling_cname|]. intros [r|e]; [exact IH|apply telling_ret].
      - apply telling_bind; [apply telling_get|]. intros prev. apply telling_bind; [now apply telling_mod|]. intros _. apply telling_ret.
    Qed.
  End With_sub.
  Lemma telling_perform : forall fuel, telling (perform p env fuel).
  Proof.
    induction fuel as [|f IH]; cbn [perform]; [apply telling_exec|]. apply telling_bind; [apply telling_get|]. intros conf. now apply telling_inner.
  Qed.
End Tell.

(** With tracing on, the trace a lookup returns tells of each packet it sent, in order. *)
Theorem C84_traces_tell_of_every_packet : forall p env fuel conf n k w r l' w', silent conf = false ->
  perform p env fuel (new_lookup conf n k, w) = (Done r, (l', w')) ->
  exists sent, w_sent w' = rev sent ++ w_sent w /\ tells p env (max_retries conf) (verbose conf) (l_trace l') sent.
Proof.
  intros p env fuel conf n k w r l' w' Si E.
  assert (T : tracing (max_retries conf) (verbose conf) (l_conf (new_lookup conf n k))) by (split; [exact Si|now split]).
  destruct (telling_perform p env _ _ fuel _ _ _ _ _ T E) as (_ & ts & xs & T1 & S1 & H). cbn [new_lookup l_trace app] in T1. rewrite T1. now exists xs.
Qed.
Print Assumptions C84_traces_tell_of_every_packet.

(** So the lines that say that a server is asked, at any depth, count the servers asked:
    there are as many packets as lines, at least, and at most the configured tries of each. *)
Fixpoint requests_told (t : tline) : nat :=
  match t with
  | T_ns_req _ _ _ _ => 1
  | T_sub l => list_sum (map requests_told l)
  | _ => 0
  end.
Lemma sum_app : forall l m, list_sum (map requests_told (l ++ m)) = list_sum (map requests_told l) + list_sum (map requests_told m).
Proof. intros l m. now rewrite map_app, list_sum_app. Qed.
Lemma outcome_told : forall p env tries v xs o, exchange p env tries v xs o -> list_sum (map requests_told o) = 0.
Proof. intros p env tries v xs o H. destruct H; try reflexivity; rewrite sum_app; now destruct v. Qed.
Theorem C84_packets_are_counted : forall p env fuel conf n k w r l' w', silent conf = false ->
  perform p env fuel (new_lookup conf n k, w) = (Done r, (l', w')) ->
  let asked := list_sum (map requests_told (l_trace l')) in
  asked <= length (w_sent w') - length (w_sent w) <= max_retries conf * asked.
Proof.
  intros p env fuel conf n k w r l' w' Si E. destruct (C84_traces_tell_of_every_packet p env fuel conf n k w r l' w' Si E) as (xs & S1 & T). clear E. cbv zeta.
  rewrite S1, app_length, rev_length. replace (length xs + length (w_sent w) - length (w_sent w)) with (length xs) by lia. clear S1.
  set (tries := max_retries conf) in *. clearbody tries.
  induction T as [|t ts xs Ht _ IH|l ts xs zs Hl IHl _ IH|n0 k0 s z a o ts xs zs H1 H2 H3 H4 _ IH].
  - cbn. lia.
  - assert (Z : requests_told t = 0) by (destruct t; try reflexivity; discriminate Ht).
    change (map requests_told (t :: ts)) with (requests_told t :: map requests_told ts). cbn [list_sum fold_right]. fold (list_sum (map requests_told ts)). rewrite Z. exact IH.
  - rewrite app_length. change (list_sum (map requests_told (T_sub l :: ts))) with (list_sum (map requests_told l) + list_sum (map requests_told ts)). lia.
  - rewrite app_length. change (list_sum (map requests_told (T_ns_req n0 k0 s z :: o ++ ts))) with (1 + list_sum (map requests_told (o ++ ts))).
    rewrite sum_app, (outcome_told _ _ _ _ _ _ H4). assert (0 < length xs) by (destruct xs; [congruence|cbn; lia]). lia.
Qed.
Print Assumptions C84_packets_are_counted.

(** A verbose trace of the lookup of a name that does not exist (C61): two packets. *)
Definition conf_told : rconf := mkConf 3 2 5 false false true.
Definition told_run := perform Release env_nope 6 (new_lookup conf_told (s2b "nope.org.") RT_A, world0).
Theorem C84_nonvacuous : silent conf_told = false /\
  fst told_run = Done (Ok (mkResp [] [] [] true)) /\ length (w_sent (snd (snd told_run))) = 2 /\
  list_sum (map requests_told (l_trace (fst (snd told_run)))) = 2 /\ length (l_trace (fst (snd told_run))) = 10.
Proof.
  assert (H : (silent conf_told, fst told_run, length (w_sent (snd (snd told_run))), list_sum (map requests_told (l_trace (fst (snd told_run)))), length (l_trace (fst (snd told_run))))
            = (false, Done (Ok (mkResp [] [] [] true)), 2, 2, 10)) by (vm_compute; reflexivity).
  repeat apply pair_equal_spec in H as (H & ?). auto.
Qed.
