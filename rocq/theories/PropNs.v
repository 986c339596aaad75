(** C28-C33: what the nameserver answers to decoded requests. *)
From Verif Require Import Base Types Name NameSpec NameProofs PropName Codec CodecSpec CodecWrite
  Zone ZoneSpec ZoneProofs NsHandler NsSpec.

(** * Helpers *)
Lemma within_ok : forall n z, accepted n -> apex_ok z -> (is_in_zone n z = true <-> within n z).
Proof.
  intros n z (a & Ha) ((b & Hb) & Hz). unfold within.
  rewrite (labels_of_name n a Ha), (labels_of_name z b Hb). apply is_in_zone_spec; try assumption.
  intros ->. apply Hz. destruct Hb as (-> & _). reflexivity.
Qed.

Lemma within_false : forall n z, accepted n -> apex_ok z -> (is_in_zone n z = false <-> ~ within n z).
Proof.
  intros n z Hn Hz. rewrite <- (within_ok n z Hn Hz). destruct (is_in_zone n z); split; congruence.
Qed.

Lemma stores_get : forall p z d n t, stores z d -> zone_get p z n t = Done (lookup (d_records d) n t).
Proof. intros p z d n t (_ & H & _). apply H. Qed.

Lemma valid_spec : forall req q, validate_dns_request req = Some q <-> valid_query req q.
Proof.
  intros req q. unfold validate_dns_request, valid_query.
  destruct (h_qr (m_header req)); [split; [discriminate|intros (H & _); discriminate]|].
  destruct (N.eqb_spec (h_an (m_header req)) 0) as [->|Hn]; cbn [negb]; [|split; [discriminate|tauto]].
  destruct (N.eqb_spec (h_ns (m_header req)) 0) as [->|Hn]; cbn [negb]; [|split; [discriminate|tauto]].
  destruct (m_questions req) as [|q' [|]]; split; try discriminate; try (intros (_ & _ & _ & H); discriminate).
  - intros [= ->]. auto.
  - intros (_ & _ & _ & [= ->]). reflexivity.
Qed.

Lemma handle_valid : forall p zs req q, valid_query req q -> handle_message p zs req = handle_query p req zs.
Proof. intros p zs req q H. unfold handle_message. apply valid_spec in H. now rewrite H. Qed.

Lemma index_question : forall req q, valid_query req q -> index (m_questions req) 0 = Done q.
Proof. intros req q (_ & _ & _ & ->). reflexivity. Qed.

Lemma find_subzone_spec : forall n zs sd, accepted n -> serves zs sd -> apexes_ok sd ->
  match find_subzone n (sub_zones zs) with
  | None => in_no_sub sd n
  | Some s => exists d, first_sub sd n d /\ stores s d
  end.
Proof.
  intros n zs [au subs] Hn (_ & H) (_ & Ha). unfold in_no_sub, first_sub. cbn [s_subs] in *.
  destruct zs as [az zsubs]. cbn [sub_zones] in *.
  induction H as [|z d zsubs subs Hzd H IH]; cbn [find_subzone]; [constructor|].
  inversion Ha as [|? ? Ha1 Ha2]; subst. specialize (IH Ha2).
  destruct Hzd as (Hz & Hh). rewrite Hz.
  destruct (is_in_zone n (d_apex d)) eqn:E.
  - apply within_ok in E; try assumption. exists d. split; [|now split].
    exists [], subs. repeat split; [assumption|constructor].
  - apply within_false in E; try assumption. destruct (find_subzone n zsubs) as [s|].
    + destruct IH as (d' & (pre & post & E1 & E2 & E3) & H'). exists d'. split; [|assumption].
      exists (d :: pre), post. subst subs. repeat split; try assumption. now constructor.
    + now constructor.
Qed.

Lemma first_sub_unique : forall sd n d d', first_sub sd n d -> first_sub sd n d' -> d = d'.
Proof.
  intros sd n d d' (pre & post & E & H & F) (pre' & post' & E' & H' & F'). rewrite E in E'. clear E.
  revert pre' E' F'. induction pre as [|x pre IH]; intros [|x' pre'] E' F'; cbn [app] in E'.
  - congruence.
  - injection E' as -> ->. inversion F'; subst. contradiction.
  - injection E' as -> _. inversion F; subst. contradiction.
  - injection E' as -> E'. inversion F; subst. inversion F'; subst. now apply (IH H3 pre').
Qed.

Lemma first_sub_in_some : forall sd n d, first_sub sd n d -> ~ in_no_sub sd n.
Proof.
  intros sd n d (pre & post & E & H & _) F. unfold in_no_sub in F. rewrite E in F.
  apply Forall_app in F as [_ F]. inversion F; subst. contradiction.
Qed.

(** * C28 *)
Lemma nx_err_inv : forall req soa m, handle_nx_err req soa = Done m ->
  mirrors req m /\ record_type soa = RT_SOA /\ says m RC_NxDomain true [] [soa] [] /\ counts_say m (h_qd (m_header req)).
Proof.
  intros req soa m E. unfold handle_nx_err in E. destruct (rtype_eqb _ _) eqn:Et; [|discriminate].
  apply rtype_eqb_eq in Et. cbn [assert_] in E. injection E as <-. now repeat split.
Qed.

Theorem C28_reply_mirrors_request : forall p zs req reply,
  handle_message p zs req = Done reply -> mirrors req reply.
Proof.
  intros p zs req reply E. unfold handle_message in E. destruct (validate_dns_request req) as [q|].
  2:{ injection E as <-. now repeat split. }
  unfold handle_query in E. destruct (index _ _) as [q0| |]; cbn [bind] in E; try discriminate.
  destruct (negb _); [injection E as <-; now repeat split|].
  destruct (find_subzone _ _) as [s|].
  - unfold handle_subzone in E. destruct (zone_get _ _ _ _) as [o| |]; cbn [bind] in E; try discriminate.
    destruct (unwrap o) as [nss| |]; cbn [bind] in E; try discriminate.
    unfold assert_ in E. destruct (0 <? _); [|discriminate].
    destruct (glue_for _ _ _) as [g| |]; cbn [bind] in E; try discriminate.
    injection E as <-. now repeat split.
  - unfold handle_auth_zone in E. destruct (index _ _) as [q1| |]; cbn [bind] in E; try discriminate.
    destruct (zone_get p _ _ (q_type q1)) as [o| |]; cbn [bind] in E; try discriminate.
    destruct (match o with Some v => v | None => [] end); [|injection E as <-; now repeat split].
    destruct (zone_get p _ _ RT_CNAME) as [[c|]| |]; cbn [bind] in E; try discriminate.
    + injection E as <-. now repeat split.
    + destruct (zone_get p _ _ RT_SOA) as [os| |]; cbn [bind] in E; try discriminate.
      destruct (unwrap os) as [soas| |]; cbn [bind] in E; try discriminate.
      destruct (unwrap _) as [soa| |]; cbn [bind] in E; try discriminate.
      now apply nx_err_inv in E.
Qed.
Print Assumptions C28_reply_mirrors_request.

(** * C29 *)
Theorem C29_outside_is_refused : forall p zs sd req q,
  serves zs sd -> apexes_ok sd -> valid_query req q -> accepted (q_node q) ->
  ~ within (q_node q) (d_apex (s_auth sd)) ->
  exists reply, handle_message p zs req = Done reply /\ says reply RC_Refused true [] [] [] /\
                counts_say reply (h_qd (m_header req)) /\ mirrors req reply.
Proof.
  intros p zs sd req q Hs (Ha & _) Hv Hq Hout. rewrite (handle_valid _ _ _ _ Hv). unfold handle_query.
  rewrite (index_question _ _ Hv). cbn [bind]. destruct Hs as ((Hz & _) & _). rewrite Hz.
  apply within_false in Hout; try assumption. rewrite Hout. cbn [negb].
  eexists. split; [reflexivity|]. now repeat split.
Qed.
Print Assumptions C29_outside_is_refused.

(** * C30 *)
Lemma search_a_spec : forall p n zs subs, accepted n -> Forall2 stores zs subs ->
  Forall (fun d => apex_ok (d_apex d)) subs ->
  Forall (fun d => Forall (fun r => within (r_node r) (d_apex d)) (d_records d)) subs ->
  search_a_additionals p n zs = Done (flat_map (fun d => owned n RT_A (d_records d)) subs).
Proof.
  intros p n zs subs Hn H. induction H as [|z d zs subs Hzd H IH]; intros Ha Ht; cbn [search_a_additionals flat_map]; [reflexivity|].
  inversion Ha as [|? ? Ha1 Ha2]; subst. inversion Ht as [|? ? Ht1 Ht2]; subst. specialize (IH Ha2 Ht2).
  destruct (is_in_zone n (z_zone z)) eqn:E.
  - rewrite (stores_get _ _ _ _ _ Hzd). cbn [bind]. rewrite IH. cbn [bind]. unfold lookup.
    destruct (owned n RT_A (d_records d)); reflexivity.
  - destruct Hzd as (Hz & Hh). rewrite Hz in E. apply within_false in E; try assumption.
    rewrite IH. rewrite owned_none; [reflexivity|].
    intros r Hr (Hnode & _). rewrite Forall_forall in Ht1. apply E. rewrite <- Hnode. now apply Ht1.
Qed.

Definition all_ns (nss : list record) : Prop := Forall (fun r => exists n, r_data r = D_NS n /\ accepted n) nss.

Lemma glue_for_spec : forall p zs sd nss, Forall2 stores zs (s_subs sd) ->
  Forall (fun d => apex_ok (d_apex d)) (s_subs sd) -> subs_tidy sd -> all_ns nss ->
  glue_for p nss zs = Done (flat_map (glue sd) (targets nss)).
Proof.
  intros p zs sd nss H Ha Ht Hn. induction Hn as [|r nss (n & En & Hacc) Hn IH]; cbn [glue_for]; [reflexivity|].
  unfold ns_data. rewrite En. cbn [bind]. rewrite (search_a_spec p n zs (s_subs sd)) by assumption. cbn [bind].
  rewrite IH. cbn [bind]. unfold targets. cbn [flat_map]. rewrite En. reflexivity.
Qed.

Lemma owned_ns : forall n rs, Forall record_fine rs -> all_ns (owned n RT_NS rs).
Proof.
  intros n rs H. unfold all_ns. apply Forall_forall. intros r Hr. unfold owned in Hr.
  apply filter_In in Hr as (Hin & Hc). apply andb_true_iff in Hc as (_ & Ht). apply rtype_eqb_eq in Ht.
  rewrite Forall_forall in H. specialize (H r Hin) as (_ & _ & _ & Hd). unfold record_type in Ht.
  destruct (r_data r); try discriminate. eexists. split; [reflexivity|exact Hd].
Qed.

Lemma Forall_first_sub : forall (P : zone_data -> Prop) sd n d, Forall P (s_subs sd) -> first_sub sd n d -> P d.
Proof.
  intros P sd n d H (pre & post & E & _). rewrite E in H. apply Forall_app in H as (_ & H). now inversion H.
Qed.

(** The reply to a query for a name in a sub zone. *)
Theorem C30_sub_zone_is_delegated : forall p zs sd req q d,
  serves zs sd -> zone_loaded sd -> valid_query req q -> accepted (q_node q) ->
  within (q_node q) (d_apex (s_auth sd)) -> first_sub sd (q_node q) d ->
  let nss := owned (d_apex d) RT_NS (d_records d) in
  exists reply, handle_message p zs req = Done reply /\
    says reply RC_NoError false [] nss (flat_map (glue sd) (targets nss)) /\
    counts_say reply 1 /\ mirrors req reply.
Proof.
  intros p zs sd req q d Hs (Hap & _ & Hns & _ & Hfine & Htidy) Hv Hq Hin Hd. cbv zeta.
  rewrite (handle_valid _ _ _ _ Hv). unfold handle_query.
  rewrite (index_question _ _ Hv). cbn [bind]. pose proof Hs as Hs0. destruct Hs as ((Hz & _) & Hsub). rewrite Hz.
  pose proof Hap as (Ha1 & Ha2). apply within_ok in Hin; try assumption. rewrite Hin. cbn [negb].
  pose proof (find_subzone_spec (q_node q) zs sd Hq Hs0 Hap) as F.
  destruct (find_subzone _ _) as [s|]; [|now apply first_sub_in_some in Hd].
  destruct F as (d' & Hd' & Hst). rewrite (first_sub_unique _ _ _ _ Hd' Hd) in *.
  pose proof (Forall_first_sub _ _ _ _ Hns Hd) as Hne. pose proof (Forall_first_sub _ _ _ _ Hfine Hd) as Hf.
  unfold handle_subzone. rewrite (stores_get _ _ _ _ _ Hst). cbn [bind].
  destruct Hst as (Hsz & _). rewrite Hsz. unfold lookup.
  pose proof (owned_ns (d_apex d) (d_records d) Hf) as Hall. cbn beta in *.
  destruct (owned (d_apex d) RT_NS (d_records d)) as [|r l] eqn:El; [congruence|]. cbn [unwrap bind].
  unfold assert_. cbn [length Nat.ltb Nat.leb].
  rewrite (glue_for_spec p _ sd (r :: l)) by assumption. cbn [bind].
  eexists. split; [reflexivity|]. now repeat split.
Qed.
Print Assumptions C30_sub_zone_is_delegated.

(** * C31, C32 *)
Theorem C31_authoritative_answer : forall p zs sd req q,
  serves zs sd -> apexes_ok sd -> valid_query req q -> accepted (q_node q) ->
  within (q_node q) (d_apex (s_auth sd)) -> in_no_sub sd (q_node q) ->
  let ans := wanted (q_node q) (q_type q) (d_records (s_auth sd)) in
  ans <> [] ->
  exists reply, handle_message p zs req = Done reply /\ says reply RC_NoError true ans [] [] /\
                counts_say reply 1 /\ mirrors req reply.
Proof.
  intros p zs sd req q Hs Hap Hv Hq Hin Hno ans Hne. subst ans.
  rewrite (handle_valid _ _ _ _ Hv). unfold handle_query.
  rewrite (index_question _ _ Hv). cbn [bind]. pose proof Hs as ((Hz & _) & Hsub). rewrite Hz.
  pose proof Hap as (Ha1 & Ha2). apply within_ok in Hin; try assumption. rewrite Hin. cbn [negb].
  pose proof (find_subzone_spec (q_node q) zs sd Hq Hs Hap) as F.
  destruct (find_subzone _ _) as [s|].
  { destruct F as (d & Hd & _). now apply first_sub_in_some in Hd. }
  destruct Hs as (Hau & _). unfold handle_auth_zone. rewrite (index_question _ _ Hv). cbn [bind].
  rewrite ?(stores_get _ _ _ _ _ Hau). cbn [bind]. unfold wanted in *. unfold lookup at 1.
  destruct (owned (q_node q) (q_type q) (d_records (s_auth sd))) as [|r l] eqn:E1.
  - rewrite ?(stores_get _ _ _ _ _ Hau). cbn [bind]. unfold lookup.
    destruct (owned (q_node q) RT_CNAME (d_records (s_auth sd))) as [|r l] eqn:E2; [congruence|].
    eexists. split; [reflexivity|]. now repeat split.
  - unfold lookup. rewrite E1. eexists. split; [reflexivity|]. now repeat split.
Qed.
Print Assumptions C31_authoritative_answer.

Theorem C32_negative_answer : forall p zs sd req q,
  serves zs sd -> zone_loaded sd -> valid_query req q -> accepted (q_node q) ->
  within (q_node q) (d_apex (s_auth sd)) -> in_no_sub sd (q_node q) ->
  wanted (q_node q) (q_type q) (d_records (s_auth sd)) = [] ->
  exists reply soa,
    hd_error (owned (d_apex (s_auth sd)) RT_SOA (d_records (s_auth sd))) = Some soa /\
    handle_message p zs req = Done reply /\ says reply RC_NxDomain true [] [soa] [] /\
    counts_say reply (h_qd (m_header req)) /\ mirrors req reply.
Proof.
  intros p zs sd req q Hs (Hap & Hsoa & _) Hv Hq Hin Hno He.
  rewrite (handle_valid _ _ _ _ Hv). unfold handle_query.
  rewrite (index_question _ _ Hv). cbn [bind]. pose proof Hs as ((Hz & _) & Hsub). rewrite Hz.
  pose proof Hap as (Ha1 & Ha2). apply within_ok in Hin; try assumption. rewrite Hin. cbn [negb].
  pose proof (find_subzone_spec (q_node q) zs sd Hq Hs Hap) as F.
  destruct (find_subzone _ _) as [s|].
  { destruct F as (d & Hd & _). now apply first_sub_in_some in Hd. }
  destruct Hs as (Hau & _). unfold handle_auth_zone. rewrite (index_question _ _ Hv). cbn [bind].
  rewrite ?(stores_get _ _ _ _ _ Hau). cbn [bind]. unfold wanted in *. unfold lookup at 1.
  destruct (owned (q_node q) (q_type q) (d_records (s_auth sd))) as [|r l] eqn:E1; [|discriminate].
  rewrite ?(stores_get _ _ _ _ _ Hau). cbn [bind]. unfold lookup at 1. rewrite He.
  rewrite ?(stores_get _ _ _ _ _ Hau). cbn [bind]. rewrite Hz. unfold lookup.
  destruct (owned (d_apex (s_auth sd)) RT_SOA (d_records (s_auth sd))) as [|soa l] eqn:E2; [congruence|].
  cbn [unwrap bind hd_error].
  assert (Ht : record_type soa = RT_SOA).
  { assert (Hi : In soa (owned (d_apex (s_auth sd)) RT_SOA (d_records (s_auth sd)))) by (rewrite E2; now left).
    apply filter_In in Hi as (_ & Hi). apply andb_true_iff in Hi as (_ & Hi). now apply rtype_eqb_eq in Hi. }
  unfold handle_nx_err. rewrite Ht, rtype_eqb_refl. cbn [assert_].
  eexists. exists soa. split; [reflexivity|]. split; [reflexivity|]. now repeat split.
Qed.
Print Assumptions C32_negative_answer.

(** * C33 (refuted) *)
Theorem C33_nxdomain_only_if_nothing_to_answer_partial : forall p zs sd req q reply,
  serves zs sd -> zone_loaded sd -> valid_query req q -> accepted (q_node q) ->
  handle_message p zs req = Done reply -> h_rcode (m_header reply) = RC_NxDomain ->
  within (q_node q) (d_apex (s_auth sd)) /\ in_no_sub sd (q_node q) /\
  owned (q_node q) (q_type q) (d_records (s_auth sd)) = [] /\
  owned (q_node q) RT_CNAME (d_records (s_auth sd)) = [].
Proof.
  intros p zs sd req q reply Hs Hl Hv Hq E Hrc. pose proof Hl as (Hap & _). pose proof Hap as (Ha1 & Ha2).
  destruct (is_in_zone (q_node q) (d_apex (s_auth sd))) eqn:Ein.
  2:{ apply within_false in Ein; try assumption.
      destruct (C29_outside_is_refused p zs sd req q) as (r & Er & (H1 & _) & _); try assumption.
      rewrite Er in E. injection E as ->. congruence. }
  apply within_ok in Ein; try assumption. split; [assumption|].
  pose proof (find_subzone_spec (q_node q) zs sd Hq Hs Hap) as F.
  destruct (find_subzone _ _) as [s|].
  { destruct F as (d & Hd & _).
    destruct (C30_sub_zone_is_delegated p zs sd req q d) as (r & Er & (H1 & _) & _); try assumption.
    rewrite Er in E. injection E as ->. congruence. }
  split; [assumption|].
  destruct (wanted (q_node q) (q_type q) (d_records (s_auth sd))) as [|w ws] eqn:Ew.
  - unfold wanted in Ew. destruct (owned (q_node q) (q_type q) _); [now split|discriminate].
  - destruct (C31_authoritative_answer p zs sd req q) as (r & Er & (H1 & _) & _); try assumption.
    + rewrite Ew. discriminate.
    + rewrite Er in E. injection E as ->. congruence.
Qed.
Print Assumptions C33_nxdomain_only_if_nothing_to_answer_partial.

(** Every name that owns records, but neither of the asked type nor an alias, is said
    not to exist. *)
Theorem C33_refuted_existing_names_denied : forall p zs sd req q r,
  serves zs sd -> zone_loaded sd -> valid_query req q -> accepted (q_node q) ->
  within (q_node q) (d_apex (s_auth sd)) -> in_no_sub sd (q_node q) ->
  In r (d_records (s_auth sd)) -> r_node r = q_node q ->
  owned (q_node q) (q_type q) (d_records (s_auth sd)) = [] ->
  owned (q_node q) RT_CNAME (d_records (s_auth sd)) = [] ->
  exists reply, handle_message p zs req = Done reply /\ h_rcode (m_header reply) = RC_NxDomain.
Proof.
  intros p zs sd req q r Hs Hl Hv Hq Hin Hno _ _ E1 E2.
  destruct (C32_negative_answer p zs sd req q) as (reply & soa & _ & E & (H & _) & _); try assumption.
  - unfold wanted. now rewrite E1.
  - now exists reply.
Qed.
Print Assumptions C33_refuted_existing_names_denied.

(** * A concrete server *)
Definition ns_rec (o : name) (n : name) : record := mkRec o C_IN 3600 0 (D_NS n).
Definition a_rec (o : name) (a : list N) : record := mkRec o C_IN 3600 0 (D_A a).
Definition ex_apex : name := s2b "example.com.".
Definition ex_sub_apex : name := s2b "sub.example.com.".
Definition ex_auth_records : list record :=
  [ mkRec ex_apex C_IN 3600 0 (D_SOA (s2b "ns.example.com.") (s2b "root.example.com.") 1 2 3 4 60);
    ns_rec ex_apex (s2b "ns.example.com.");
    a_rec (s2b "ns.example.com.") [10; 0; 0; 1]%N;
    mkRec (s2b "www.example.com.") C_IN 3600 0 (D_CNAME (s2b "ns.example.com."));
    a_rec (s2b "ns.example.com.") [10; 0; 0; 2]%N ].
Definition ex_sub_records : list record :=
  [ ns_rec ex_sub_apex (s2b "ns.sub.example.com."); a_rec (s2b "ns.sub.example.com.") [10; 0; 1; 1]%N ].
Definition ex_zone (a : name) (rs : list record) : zone := fold_left zone_insert rs (zone_new a).
Definition ex_zones : managed := mkManaged (ex_zone ex_apex ex_auth_records) [ex_zone ex_sub_apex ex_sub_records].
Definition ex_data : server_data := mkServer (mkData ex_apex ex_auth_records) [mkData ex_sub_apex ex_sub_records].
Definition ex_req (n : name) (t : rtype) : message :=
  mkMsg (mkHeader 7 false OP_STD false false true false 0 RC_NoError 1 0 0 0) [mkQ n t C_IN] [] [] [].

Lemma fold_built : forall rs zn rs0 z, built zn rs0 z -> built zn (rs0 ++ rs) (fold_left zone_insert rs z).
Proof.
  induction rs as [|r rs IH]; intros zn rs0 z H; cbn [fold_left]; [now rewrite app_nil_r|].
  replace (rs0 ++ r :: rs) with ((rs0 ++ [r]) ++ rs) by (now rewrite <- app_assoc). apply IH. now constructor.
Qed.
Lemma ex_zone_stores : forall a rs, stores (ex_zone a rs) (mkData a rs).
Proof.
  intros a rs. pose proof (fold_built rs a [] (zone_new a) (built_new a)) as H. split.
  - apply (built_zone _ _ _ H).
  - apply (built_holds _ _ _ H).
Qed.

Lemma accepted_b : forall n, is_ok (validate_name n) = true -> accepted n.
Proof. intros n. apply validate_name_dec. Qed.
Lemma within_b : forall n z, is_ok (validate_name n) = true -> is_ok (validate_name z) = true -> z <> [46%N] ->
  is_in_zone n z = true -> within n z.
Proof. intros n z Hn Hz Hr H. apply within_ok; [now apply accepted_b|split; [now apply accepted_b|assumption]|assumption]. Qed.
Lemma not_within_b : forall n z, is_ok (validate_name n) = true -> is_ok (validate_name z) = true -> z <> [46%N] ->
  is_in_zone n z = false -> ~ within n z.
Proof. intros n z Hn Hz Hr H. apply within_false; [now apply accepted_b|split; [now apply accepted_b|assumption]|assumption]. Qed.

Lemma ex_serves : serves ex_zones ex_data.
Proof. split; [apply ex_zone_stores|]. constructor; [apply ex_zone_stores|constructor]. Qed.

Ltac fine := repeat first
  [ apply Forall_cons | apply Forall_nil | split | (apply accepted_b; reflexivity) | reflexivity
  | (unfold is_bytes; apply Forall_cons) | discriminate ].

Lemma ex_loaded : zone_loaded ex_data.
Proof.
  unfold zone_loaded, apexes_ok, apex_ok, subs_tidy. cbn [s_auth s_subs ex_data d_apex d_records ex_auth_records ex_sub_records].
  fine; try (apply within_b; [reflexivity|reflexivity|discriminate|reflexivity]).
Qed.

Lemma ex_valid : forall n t, valid_query (ex_req n t) (mkQ n t C_IN).
Proof. intros n t. now repeat split. Qed.

Theorem C28_C29_nonvacuous :
  serves ex_zones ex_data /\ apexes_ok ex_data /\
  valid_query (ex_req (s2b "www.other.com.") RT_A) (mkQ (s2b "www.other.com.") RT_A C_IN) /\
  accepted (s2b "www.other.com.") /\ ~ within (s2b "www.other.com.") (d_apex (s_auth ex_data)) /\
  exists m, handle_message Debug ex_zones (ex_req (s2b "www.other.com.") RT_A) = Done m /\
            h_rcode (m_header m) = RC_Refused.
Proof.
  split; [apply ex_serves|]. split; [apply ex_loaded|]. split; [apply ex_valid|]. split; [now apply accepted_b|].
  split; [apply not_within_b; [reflexivity|reflexivity|discriminate|reflexivity]|].
  eexists. split; [vm_compute; reflexivity|reflexivity].
Qed.

Theorem C30_nonvacuous :
  zone_loaded ex_data /\ accepted (s2b "a.b.sub.example.com.") /\
  within (s2b "a.b.sub.example.com.") (d_apex (s_auth ex_data)) /\
  first_sub ex_data (s2b "a.b.sub.example.com.") (mkData ex_sub_apex ex_sub_records) /\
  exists m, handle_message Debug ex_zones (ex_req (s2b "a.b.sub.example.com.") RT_A) = Done m /\
    says m RC_NoError false [] [ns_rec ex_sub_apex (s2b "ns.sub.example.com.")]
         [a_rec (s2b "ns.sub.example.com.") [10; 0; 1; 1]%N].
Proof.
  split; [apply ex_loaded|]. split; [now apply accepted_b|].
  split; [apply within_b; [reflexivity|reflexivity|discriminate|reflexivity]|]. split.
  - exists [], []. split; [reflexivity|]. split; [|constructor].
    apply within_b; [reflexivity|reflexivity|discriminate|reflexivity].
  - eexists. split; [vm_compute; reflexivity|]. now repeat split.
Qed.

Theorem C31_C32_nonvacuous :
  (exists m, handle_message Debug ex_zones (ex_req (s2b "ns.example.com.") RT_A) = Done m /\
     says m RC_NoError true [a_rec (s2b "ns.example.com.") [10; 0; 0; 1]%N; a_rec (s2b "ns.example.com.") [10; 0; 0; 2]%N] [] []) /\
  (exists m, handle_message Debug ex_zones (ex_req (s2b "www.example.com.") RT_A) = Done m /\
     says m RC_NoError true [mkRec (s2b "www.example.com.") C_IN 3600 0 (D_CNAME (s2b "ns.example.com."))] [] []) /\
  (exists m soa, handle_message Debug ex_zones (ex_req (s2b "nope.example.com.") RT_A) = Done m /\
     says m RC_NxDomain true [] [soa] [] /\ record_type soa = RT_SOA) /\
  in_no_sub ex_data (s2b "nope.example.com.") /\ within (s2b "nope.example.com.") ex_apex.
Proof.
  repeat split.
  - eexists. split; [vm_compute; reflexivity|]. now repeat split.
  - eexists. split; [vm_compute; reflexivity|]. now repeat split.
  - eexists. eexists. split; [vm_compute; reflexivity|]. now repeat split.
  - constructor; [|constructor]. apply not_within_b; [reflexivity|reflexivity|discriminate|reflexivity].
  - apply within_b; [reflexivity|reflexivity|discriminate|reflexivity].
Qed.

(** MX asked of a name that owns A records. *)
Theorem C33_refuted_witness :
  In (a_rec (s2b "ns.example.com.") [10; 0; 0; 1]%N) (d_records (s_auth ex_data)) /\
  exists m, handle_message Debug ex_zones (ex_req (s2b "ns.example.com.") RT_MX) = Done m /\
            h_rcode (m_header m) = RC_NxDomain.
Proof.
  split; [vm_compute; tauto|]. eexists. split; [vm_compute; reflexivity|reflexivity].
Qed.
Print Assumptions C33_refuted_witness.
