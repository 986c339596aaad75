(** C79: the resolver asking the name server of this project. *)
From Coq Require Import Permutation.
From Verif Require Import Base Types Name NameSpec NameProofs Codec CodecSpec CodecWrite CodecMessage EncodeTotal PropCodec1 PropCodec2 PropCodec3 Zone ZoneSpec ZoneProofs NsHandler NsSpec PropNs Cache Resolver ResolverLists ResolverSpec ResolverInv ResolverRun ResolverFacts ResolverFuel ResolverEx PropResolver1 PropResolver2 PropResolver3 PropResolver5.

(** What a client of the name server gets for a datagram: its reply, or nothing. *)
Definition answers_of (p : profile) (zs : managed) (datagram : list N) : option (list N) :=
  match serve_udp p zs datagram with Done r => r | _ => None end.
(** All records of the zones can be written and read back (so: no TXT records, see C16). *)
Definition zones_readable (sd : server_data) : Prop :=
  Forall record_readable (d_records (s_auth sd)) /\ Forall (fun d => Forall record_readable (d_records d)) (s_subs sd).
(** A reply with these records fits into a UDP datagram of 512 bytes. *)
Definition fits (node : name) (kind : rtype) (rs : list record) : Prop :=
  12 + length (wire_question (mkQ node kind C_IN)) + length (flat_map wire_record rs) <= 512.

Lemma sendable_accepted : forall n, sendable n -> accepted n.
Proof. intros n (ls & H & _). now exists ls. Qed.
Lemma question_length : forall node kind, sendable node -> length (wire_question (mkQ node kind C_IN)) <= 260.
Proof.
  intros node kind (ls & H & Hne & _). unfold wire_question. cbn [q_node q_type]. rewrite !app_length. change (length (be16 _)) with 2. change (length (be16 _)) with 2.
  unfold wname. rewrite (labels_of_name _ _ H). rewrite dotted_length. destruct H as (-> & _ & H). unfold name_text in H. destruct ls; [congruence|]. lia.
Qed.

Lemma data_ok_typed : forall d, rdata_ok d -> typed_data d.
Proof.
  intros d H. destruct d; cbn [rdata_ok typed_data] in *; unfold address_ok, good_string in *;
    repeat match goal with H : _ /\ _ |- _ => destruct H end; subst; repeat split; auto using accepted_bytes, sendable_accepted.
  eapply Forall_impl; [|eassumption]. now intros s (Hs & _).
Qed.
Lemma message_ok_typed : forall m, message_ok m -> typed_message m.
Proof.
  intros m ((H1 & H2 & H3) & _ & _ & Hq & Ha & Hu & Hx).
  assert (R : forall l, Forall record_ok l -> Forall typed_record l).
  { intros l H. eapply Forall_impl; [|exact H]. intros r (A & _ & B & C). split; [apply accepted_bytes; now apply sendable_accepted|]. split; [exact B|now apply data_ok_typed]. }
  split; [split; [exact H1|]; split; [unfold is_byte; lia|exact H3]|]. split; [|split; [|split]]; auto.
  eapply Forall_impl; [|exact Hq]. intros q (A & _). apply accepted_bytes. now apply sendable_accepted.
Qed.

(** ** One exchange *)
Section Exchange.
  Context (p p' : profile) (env : environment) (zs : managed) (node : name) (kind : rtype) (s : nsrv) (a : list N) (retries : nat) (k : lookup) (w : world).
  Context (Hn : sendable node) (Hk : usable_type kind) (Ha : addresses_only s) (Hf : first_addr s a) (Hr : 0 < retries)
          (Hi : is_u16 (ev_id (env (w_n w)))) (Hnet : forall x, ev_net (env (w_n w)) a x = answers_of p' zs x).
  Let req : message := build_dns_request (ev_id (env (w_n w))) node kind.

  Lemma req_readable : message_readable req.
  Proof.
    split; [|repeat split; constructor]. unfold message_ok, req. cbn. split; [unfold header_ok; cbn; unfold is_u16 in *; repeat split; lia|].
    split; [reflexivity|]. split; [unfold counts_match; cbn; now repeat split|]. split; [|repeat split; constructor]. constructor; [|constructor]. now repeat split.
  Qed.
  Lemma req_wire : wire_message req = query_at env node kind (w_n w).
  Proof. unfold wire_message, wire_entries, query_at, query_header, req. cbn [build_dns_request m_header m_questions m_answers m_authorities m_additionals map app concat]. rewrite !app_nil_r. reflexivity. Qed.
  Lemma req_decodes : decode_message p' (query_at env node kind (w_n w)) = Done (Ok req).
  Proof. pose proof (C19_decode_message p' req [] req_readable (Forall_nil _)) as H. rewrite app_nil_r, req_wire in H. exact H. Qed.
  Lemma req_query : valid_query req (mkQ node kind C_IN).
  Proof. now repeat split. Qed.

  Definition world_after : world := mkWorld (w_cache w) (S (w_n w)) ((a, query_at env node kind (w_n w)) :: w_sent w).

  Lemma exchange : forall reply, handle_message p' zs req = Done reply -> message_readable reply -> length (wire_message reply) <= 512 -> h_id (m_header reply) = ev_id (env (w_n w)) ->
    exists k', perform_request p env node kind s retries (k, w) = (read_response (normal_message reply) node kind (ns_zone s), (k', world_after)).
  Proof.
    intros reply Eh Hm Hl Hid. pose proof (proj1 Hm) as Hok.
    assert (L : length (query_at env node kind (w_n w)) <= 512).
    { unfold query_at. rewrite app_length. change (length (query_header _)) with 12. pose proof (question_length node kind Hn). lia. }
    assert (En : ev_net (env (w_n w)) a (query_at env node kind (w_n w)) = Some (wire_message reply)).
    { rewrite Hnet. unfold answers_of, serve_udp, udp_read, read_message. change MAX_UDP_LEN_BYTES with 512. rewrite firstn_all2 by exact L. rewrite req_decodes. cbn [bind handle_dns_request]. rewrite Eh. cbn [bind]. unfold udp_reply.
      rewrite (C25_short_messages_unchanged p' reply (wire_message reply)); [reflexivity|now apply message_ok_typed|now apply C19_encode_message|exact Hl]. }
    assert (Ed : decode_message p (firstn 512 (wire_message reply)) = Done (Ok (normal_message reply))).
    { rewrite firstn_all2 by exact Hl. pose proof (C19_decode_message p reply [] Hm (Forall_nil _)) as H. now rewrite app_nil_r in H. }
    destruct (one_try p env node kind s a w Hi Hn Hk Ha Hf) as (r & E & R).
    { intros d E. rewrite En in E. injection E as <-. rewrite Ed. now eexists. }
    assert (r = Ok (normal_message reply)).
    { destruct r as [m|e].
      - destruct R as (d & E1 & E2 & _). rewrite En in E1. injection E1 as <-. rewrite Ed in E2. congruence.
      - unfold try_fails in R. rewrite En, Ed in R. exfalso. apply R. exact Hid. }
    subst r. unfold perform_request, lbind at 1. rewrite lw_run. cbn [fst snd]. destruct retries as [|n]; [lia|]. cbn [send_query_with_retries]. unfold wbind. rewrite E. unfold wret. cbn [fst snd].
    unfold lbind, trace_raw, lexec. cbn [fst snd]. eexists. reflexivity.
  Qed.
End Exchange.

Lemma wire_record_length : forall rs, length rs <= length (flat_map wire_record rs).
Proof. induction rs as [|r rs IH]; [reflexivity|]. cbn [flat_map length]. rewrite app_length. unfold wire_record at 1. rewrite !app_length. change (length (be16 1)) with 2. lia. Qed.
Lemma small_count : forall A (l : list A), length l <= 512 -> (N.of_nat (length l) mod 65536)%N = N.of_nat (length l).
Proof. intros A l H. apply N.mod_small. lia. Qed.
Lemma reply_ok : forall id node kind reply rc aa ans aus ads, sendable node -> usable_type kind -> is_u16 id ->
  says reply rc aa ans aus ads -> counts_say reply 1 -> mirrors (build_dns_request id node kind) reply ->
  Forall record_readable ans -> Forall record_readable aus -> Forall record_readable ads -> fits node kind (ans ++ aus ++ ads) ->
  message_readable reply /\ length (wire_message reply) <= 512 /\ h_id (m_header reply) = id.
Proof.
  intros id node kind reply rc aa ans aus ads Hn Hk Hi (S1 & S2 & S3 & S4 & S5) (C1 & C2 & C3 & C4) (M1 & M2 & M3 & M4 & M5 & M6 & M7) Ra Ru Rd F.
  cbn [build_dns_request m_header h_id h_op h_rd m_questions] in *. unfold fits in F.
  assert (L : length (flat_map wire_record ans) + length (flat_map wire_record aus) + length (flat_map wire_record ads) <= 512) by (rewrite !flat_map_app, !app_length in F; lia).
  pose proof (wire_record_length ans) as La. pose proof (wire_record_length aus) as Lu. pose proof (wire_record_length ads) as Ld.
  rewrite S3, small_count in C2 by lia. rewrite S4, small_count in C3 by lia. rewrite S5, small_count in C4 by lia.
  assert (OK : forall l, Forall record_readable l -> Forall record_ok l) by (intros l H; eapply Forall_impl; [|exact H]; now intros r (H' & _)).
  split; [|split; [|exact M1]].
  - split; [|rewrite S3, S4, S5; now repeat split].
    split. { unfold header_ok. rewrite M1, M6, C1, C2, C3, C4. unfold is_u16 in *. repeat split; try lia. }
    split; [exact M2|]. split. { unfold counts_match. rewrite S3, S4, S5, M7. now repeat split. }
    rewrite M7, S3, S4, S5. split; [constructor; [now repeat split|constructor]|]. split; [now apply OK|]. split; now apply OK.
  - unfold wire_message, wire_entries. rewrite app_length, wire_header_length, M7, S3, S4, S5. cbn [map]. rewrite !concat_app. cbn [concat]. rewrite app_nil_r. rewrite <- !flat_map_concat_map. rewrite !app_length in *. rewrite !flat_map_app, !app_length in F. lia.
Qed.

(** ** Extraction up to order *)
Lemma perm_filter : forall A (f : A -> bool) l l', Permutation l l' -> Permutation (filter f l) (filter f l').
Proof.
  intros A f l l' P. induction P; cbn; [constructor|destruct (f x); auto|destruct (f x), (f y); try reflexivity; apply perm_swap|now transitivity (filter f l')].
Qed.
Lemma filter_all : forall A (f : A -> bool) l, (forall x, In x l -> f x = true) -> filter f l = l.
Proof. intros A f. induction l as [|x l IH]; intros H; [reflexivity|]. cbn. rewrite H by now left. f_equal. apply IH. intros y Hy. apply H. now right. Qed.
Lemma filter_none : forall A (f : A -> bool) l, (forall x, In x l -> f x = false) -> filter f l = [].
Proof. intros A f. induction l as [|x l IH]; intros H; [reflexivity|]. cbn. rewrite H by now left. apply IH. intros y Hy. apply H. now right. Qed.
Lemma owned_test : forall n t r, bytes_eqb (r_node r) n && rtype_eqb (record_type r) t = true <-> r_node r = n /\ record_type r = t.
Proof. intros n t r. now rewrite andb_true_iff, bytes_eqb_eq, rtype_eqb_eq. Qed.
Lemma owned_in : forall n t l r, In r (owned n t l) <-> In r l /\ r_node r = n /\ record_type r = t.
Proof. intros n t l r. unfold owned. now rewrite filter_In, owned_test. Qed.
Lemma extract_owned : forall l kind node, exists got rest, extract_records l kind node = (got, rest) /\ Permutation got (owned node kind l) /\
  (forall n t, (n, t) <> (node, kind) -> Permutation (owned n t rest) (owned n t l)) /\ (forall r, In r rest -> In r l).
Proof.
  intros l kind node. destruct (C53_extract_records l kind node) as (got & rest & E & P & G & R). exists got, rest. split; [exact E|]. split; [|split].
  - transitivity (owned node kind (got ++ rest)); [|now apply perm_filter]. unfold owned. rewrite filter_app. rewrite (filter_all _ _ got), (filter_none _ _ rest); [now rewrite app_nil_r| |].
    + intros r Hr. destruct (_ && _) eqn:X; [|reflexivity]. apply owned_test in X. destruct (R r Hr X).
    + intros r Hr. apply owned_test. now apply G.
  - intros n t Hnt. transitivity (owned n t (got ++ rest)); [|now apply perm_filter]. unfold owned. rewrite filter_app. rewrite (filter_none _ _ got); [reflexivity|].
    intros r Hr. destruct (_ && _) eqn:X; [|reflexivity]. apply owned_test in X as (X1 & X2). destruct (G r Hr). congruence.
  - intros r Hr. apply (Permutation_in r P). apply in_or_app. now right.
Qed.
Lemma owned_normal : forall n t l, owned n t (map normal l) = map normal (owned n t l).
Proof. intros n t. induction l as [|r l IH]; [reflexivity|]. cbn. change (record_type (normal r)) with (record_type r). unfold owned in IH. destruct (_ && _); cbn; now rewrite IH. Qed.
Lemma owned_owned : forall n t l, owned n t (owned n t l) = owned n t l.
Proof. intros n t l. apply filter_all. intros r Hr. apply owned_test. now apply owned_in in Hr. Qed.

(** * C79 *)
(** The resolver asks server [s] for records of [node]; the first address of [s] leads to a
    name server of this project with these zones. *)
Record dialogue (p' : profile) (env : environment) (w : world) (zs : managed) (sd : server_data) (node : name) (kind : rtype) (s : nsrv) (a : list N) (retries : nat) : Prop := {
  dl_serves : serves zs sd;
  dl_loaded : zone_loaded sd;
  dl_readable : zones_readable sd;
  dl_node : sendable node;
  dl_kind : usable_type kind;
  dl_addrs : addresses_only s;
  dl_first : first_addr s a;
  dl_retries : 0 < retries;
  dl_id : is_u16 (ev_id (env (w_n w)));
  dl_net : forall x, ev_net (env (w_n w)) a x = answers_of p' zs x }.
(** One packet was sent, to that address. *)
Definition one_sent (a : list N) (w w' : world) : Prop := exists x, w_sent w' = (a, x) :: w_sent w /\ w_cache w' = w_cache w /\ w_n w' = S (w_n w).

Lemma exchange_says : forall p p' env zs sd node kind s a retries k w, dialogue p' env w zs sd node kind s a retries ->
  forall reply rc aa ans aus ads, handle_message p' zs (build_dns_request (ev_id (env (w_n w))) node kind) = Done reply ->
  says reply rc aa ans aus ads -> counts_say reply 1 -> mirrors (build_dns_request (ev_id (env (w_n w))) node kind) reply ->
  Forall record_readable ans -> Forall record_readable aus -> Forall record_readable ads -> fits node kind (ans ++ aus ++ ads) ->
  exists k' w' m, perform_request p env node kind s retries (k, w) = (read_response m node kind (ns_zone s), (k', w')) /\ one_sent a w w' /\
    h_rcode (m_header m) = rc /\ h_aa (m_header m) = aa /\ m_answers m = map normal ans /\ m_authorities m = map normal aus /\ m_additionals m = map normal ads.
Proof.
  intros p p' env zs sd node kind s a retries k w [D1 D2 D3 D4 D5 D6 D7 D8 D9 D10] reply rc aa ans aus ads Eh Hs Hc Hm Ra Ru Rd F.
  destruct (reply_ok _ _ _ _ _ _ _ _ _ D4 D5 D9 Hs Hc Hm Ra Ru Rd F) as (R1 & R2 & R3).
  destruct (exchange p p' env zs node kind s a retries k w D4 D5 D6 D7 D8 D9 D10 reply Eh R1 R2 R3) as (k' & E).
  exists k', (world_after env node kind a w), (normal_message reply). split; [exact E|]. split; [now eexists|].
  destruct Hs as (S1 & S2 & S3 & S4 & S5). cbn. rewrite S3, S4, S5. now repeat split.
Qed.
Lemma sub_readable : forall n t l, Forall record_readable l -> Forall record_readable (owned n t l).
Proof. intros n t l H. apply Forall_forall. intros r Hr. apply owned_in in Hr as (Hr & _). rewrite Forall_forall in H. now apply H. Qed.
Lemma perm_nil_l : forall A (l : list A), Permutation [] l -> l = [].
Proof. intros A l. apply Permutation_nil. Qed.

(** The records of a name in the zone, and not in a sub zone. *)
Theorem C79_answers_partial : forall p p' env zs sd node kind s a retries k w, dialogue p' env w zs sd node kind s a retries ->
  within node (d_apex (s_auth sd)) -> in_no_sub sd node ->
  let rs := owned node kind (d_records (s_auth sd)) in rs <> [] -> fits node kind rs ->
  exists ans k' w', perform_request p env node kind s retries (k, w) = (Done (Ok (NR_Answer ans [])), (k', w')) /\ Permutation ans (map normal rs) /\ one_sent a w w'.
Proof.
  intros p p' env zs sd node kind s a retries k w D Hin Hno rs Hne Hfit. pose proof D as [D1 D2 D3 D4 D5 _ _ _ _ _].
  destruct (C31_authoritative_answer p' zs sd _ (mkQ node kind C_IN) D1 (proj1 D2) (req_query env node kind w) (sendable_accepted _ D4) Hin Hno) as (reply & Eh & Sy & Co & Mi).
  { cbn [q_node q_type]. unfold wanted. fold rs. destruct rs; [congruence|discriminate]. }
  assert (W : wanted node kind (d_records (s_auth sd)) = rs) by (unfold wanted; fold rs; destruct rs; [congruence|reflexivity]).
  cbn [q_node q_type] in Sy. rewrite W in Sy.
  destruct (exchange_says p _ _ _ _ _ _ _ _ _ k _ D reply _ _ _ _ _ Eh Sy Co Mi) as (k' & w' & m & E & Hw & M1 & M2 & M3 & M4 & M5); [apply sub_readable; exact (proj1 D3)|constructor|constructor|rewrite !app_nil_r; exact Hfit|].
  unfold read_response in E. rewrite M1, M3, M5 in E. destruct (extract_owned (map normal rs) kind node) as (got & rest & Ee & P & _).
  rewrite Ee in E. unfold rs in P. rewrite owned_normal, owned_owned in P. fold rs in P.
  destruct got as [|g got]; [apply perm_nil_l in P; now destruct rs|]. exists (g :: got), k', w'. split; [exact E|]. now split.
Qed.
Print Assumptions C79_answers_partial.

(** An alias. *)
Theorem C79_alias_partial : forall p p' env zs sd node kind s a retries k w, dialogue p' env w zs sd node kind s a retries ->
  within node (d_apex (s_auth sd)) -> in_no_sub sd node -> owned node kind (d_records (s_auth sd)) = [] ->
  let cs := owned node RT_CNAME (d_records (s_auth sd)) in cs <> [] -> fits node kind cs ->
  exists c k' w', In c cs /\ perform_request p env node kind s retries (k, w) = (Done (Ok (NR_Alias (normal c) [])), (k', w')) /\ one_sent a w w'.
Proof.
  intros p p' env zs sd node kind s a retries k w D Hin Hno Hnone cs Hne Hfit. pose proof D as [D1 D2 D3 D4 D5 _ _ _ _ _].
  assert (W : wanted node kind (d_records (s_auth sd)) = cs) by (unfold wanted; now rewrite Hnone).
  destruct (C31_authoritative_answer p' zs sd _ (mkQ node kind C_IN) D1 (proj1 D2) (req_query env node kind w) (sendable_accepted _ D4) Hin Hno) as (reply & Eh & Sy & Co & Mi).
  { cbn [q_node q_type]. now rewrite W. }
  cbn [q_node q_type] in Sy. rewrite W in Sy.
  destruct (exchange_says p _ _ _ _ _ _ _ _ _ k _ D reply _ _ _ _ _ Eh Sy Co Mi) as (k' & w' & m & E & Hw & M1 & M2 & M3 & M4 & M5); [apply sub_readable; exact (proj1 D3)|constructor|constructor|rewrite !app_nil_r; exact Hfit|].
  assert (Hkc : kind <> RT_CNAME) by (intros ->; unfold cs in Hne; congruence).
  unfold read_response in E. rewrite M1, M3 in E. unfold extract_next_nss_for_cname in E. rewrite M4, M5 in E. destruct (extract_owned (map normal cs) kind node) as (got & rest & Ee & P & Q & _). rewrite Ee in E.
  assert (Nk : owned node kind cs = []).
  { apply filter_none. intros r Hr. destruct (_ && _) eqn:X; [|reflexivity]. apply owned_test in X as (X1 & X2). apply owned_in in Hr as (_ & _ & Hr). congruence. }
  rewrite owned_normal, Nk in P. apply Permutation_sym, perm_nil_l in P. rewrite P in E.
  specialize (Q node RT_CNAME ltac:(congruence)). rewrite owned_normal in Q. unfold cs in Q at 1. rewrite owned_owned in Q. fold cs in Q.
  destruct (C53_extract_record rest RT_CNAME node) as [(c & rest' & b & e & Ec & -> & Hc1 & Hc2 & _)|(_ & C)].
  - rewrite Ec in E. cbn [fst] in E.
    assert (Hc : In c (map normal cs)). { apply (Permutation_in c Q). apply owned_in. split; [|now split]. apply in_or_app. right. now left. }
    apply in_map_iff in Hc as (c0 & <- & Hc0). exists c0, k', w'. split; [exact Hc0|]. split; [|exact Hw]. rewrite E. unfold cname_data.
    change (record_type (normal c0)) with (record_type c0) in Hc2. unfold record_type in Hc2. change (r_data (normal c0)) with (r_data c0). destruct (r_data c0); try discriminate Hc2. reflexivity.
  - exfalso. destruct cs as [|c0 cs']; [congruence|]. assert (H : In (normal c0) (owned node RT_CNAME rest)) by (apply (Permutation_in (normal c0) (Permutation_sym Q)); now left).
    apply owned_in in H as (H1 & H2). exact (C _ H1 H2).
Qed.
Print Assumptions C79_alias_partial.

(** Nothing there: the answer is authoritative. (The SOA record is recognised at the apex
    only.) *)
Theorem C79_denial_partial : forall p p' env zs sd node kind s a retries k w, dialogue p' env w zs sd node kind s a retries ->
  within node (d_apex (s_auth sd)) -> in_no_sub sd node -> wanted node kind (d_records (s_auth sd)) = [] ->
  fits node kind (firstn 1 (owned (d_apex (s_auth sd)) RT_SOA (d_records (s_auth sd)))) ->
  exists soa k' w', perform_request p env node kind s retries (k, w) = (Done (Ok (NR_NoDomain soa)), (k', w')) /\ one_sent a w w' /\
    (soa <> None <-> node = d_apex (s_auth sd)).
Proof.
  intros p p' env zs sd node kind s a retries k w D Hin Hno W Hfit. pose proof D as [D1 D2 D3 D4 D5 _ _ _ _ _].
  destruct (C32_negative_answer p' zs sd _ (mkQ node kind C_IN) D1 D2 (req_query env node kind w) (sendable_accepted _ D4) Hin Hno W) as (reply & soa & Es & Eh & Sy & Co & Mi).
  assert (Is : In soa (owned (d_apex (s_auth sd)) RT_SOA (d_records (s_auth sd)))) by (destruct (owned _ _ _); [discriminate Es|injection Es as ->; now left]).
  destruct (exchange_says p _ _ _ _ _ _ _ _ _ k _ D reply _ _ _ _ _ Eh Sy Co Mi) as (k' & w' & m & E & Hw & M1 & M2 & M3 & M4 & M5); [constructor| |constructor| |].
  - constructor; [|constructor]. pose proof (sub_readable (d_apex (s_auth sd)) RT_SOA _ (proj1 D3)) as H. rewrite Forall_forall in H. now apply H.
  - destruct (owned _ _ _) as [|s0 l]; [discriminate Es|]. injection Es as ->. cbn [firstn] in Hfit. rewrite app_nil_r. exact Hfit.
  - unfold read_response in E. rewrite M1, M2, M4 in E. exists (fst (extract_record (map normal [soa]) RT_SOA node)), k', w'. split; [exact E|]. split; [exact Hw|].
    apply owned_in in Is as (_ & I1 & I2). cbn [map]. destruct (C53_extract_record [normal soa] RT_SOA node) as [(c & rest' & b & e & Ec & El & Hc1 & Hc2 & _)|(Ec & C)]; rewrite Ec; cbn [fst].
    + destruct b as [|? [|? ?]]; try discriminate El. injection El as <- _. split; [intros _; rewrite <- Hc1, <- I1; reflexivity|discriminate].
    + split; [congruence|]. intros En. exfalso. apply (C _ (or_introl eq_refl)). split; [rewrite En, <- I1; reflexivity|exact I2].
Qed.
Print Assumptions C79_denial_partial.

(** A name outside the zone: an error. *)
Theorem C79_refusal : forall p p' env zs sd node kind s a retries k w, dialogue p' env w zs sd node kind s a retries ->
  ~ within node (d_apex (s_auth sd)) ->
  exists k' w', perform_request p env node kind s retries (k, w) = (Done (Err (L_RespCode RC_Refused)), (k', w')) /\ one_sent a w w'.
Proof.
  intros p p' env zs sd node kind s a retries k w D Hout. pose proof D as [D1 D2 D3 D4 D5 _ _ _ _ _].
  destruct (C29_outside_is_refused p' zs sd _ (mkQ node kind C_IN) D1 (proj1 D2) (req_query env node kind w) (sendable_accepted _ D4) Hout) as (reply & Eh & Sy & Co & Mi).
  destruct (exchange_says p _ _ _ _ _ _ _ _ _ k _ D reply _ _ _ _ _ Eh Sy Co Mi) as (k' & w' & m & E & Hw & M1 & M2 & M3 & M4 & M5); [constructor|constructor|constructor| |].
  - unfold fits. pose proof (question_length node kind D4). cbn [app flat_map length]. lia.
  - unfold read_response in E. rewrite M1 in E. exists k', w'. now split.
Qed.
Print Assumptions C79_refusal.

(** ** Delegations *)
Lemma ns_record : forall r, record_type r = RT_NS -> exists n, r_data r = D_NS n.
Proof. intros r H. unfold record_type in H. destruct (r_data r); try discriminate H. now eexists. Qed.
Lemma targets_cons : forall r rs n, r_data r = D_NS n -> targets (r :: rs) = n :: targets rs.
Proof. intros r rs n H. unfold targets. cbn [flat_map]. now rewrite H. Qed.
(** The addresses of a server among these records. *)
Definition knows_its_addresses (adds : list record) (s : nsrv) : Prop := exists n, r_data (n_rec s) = D_NS n /\ Permutation (n_addrs s) (owned n RT_A adds).
Lemma nss_of_owned : forall rs adds, Forall (fun r => record_type r = RT_NS) rs -> NoDup (targets rs) ->
  exists l rest, nss_of rs adds = Done (l, rest) /\ map n_rec l = rs /\ Forall (knows_its_addresses adds) l.
Proof.
  induction rs as [|r rs IH]; intros adds Hr Hd; [exists [], adds; repeat split; constructor|]. inversion Hr as [|? ? Ht Hr']; subst. destruct (ns_record r Ht) as (n & En).
  rewrite (targets_cons r rs n En) in Hd. inversion Hd as [|? ? Hn Hd']; subst. cbn [nss_of]. unfold ns_data. rewrite En. cbn [bind].
  destruct (extract_owned adds RT_A n) as (got & rest & -> & P & Q & _). destruct (IH rest Hr' Hd') as (l & rest' & -> & M & F). cbn [bind]. exists (mkNs r got :: l), rest'. split; [reflexivity|].
  split; [cbn; now rewrite M|]. constructor; [exists n; now split|]. rewrite Forall_forall in F |- *. intros s Hs. destruct (F s Hs) as (n' & E' & P'). exists n'. split; [exact E'|].
  rewrite P'. apply Q. intros C. injection C as C. subst n'. apply Hn. unfold targets. apply in_flat_map. exists (n_rec s). split; [rewrite <- M; now apply in_map|rewrite E'; now left].
Qed.
Lemma drop_none : forall l, Forall addresses_only l ->
  Forall (fun s => exists n, r_data (n_rec s) = D_NS n /\ (n_addrs s <> [] \/ ~ (exists pre, n = pre ++ ns_zone s))) l -> drop_glueless l = Done l.
Proof.
  induction l as [|s l IH]; intros Ha Hl; [reflexivity|]. inversion Ha as [|? ? Ha1 Ha2]; subst. inversion Hl as [|? ? (n & En & Hk) Hl2]; subst. cbn [drop_glueless].
  rewrite (IH Ha2 Hl2). unfold ns_node, ns_data. rewrite En. cbn [bind].
  assert (X : exists al, ns_addrs s = Done al /\ (n_addrs s <> [] -> al <> [])).
  { destruct (n_addrs s) eqn:E; [exists []; unfold ns_addrs; rewrite E; now split|]. destruct (first_address s Ha1) as (a0 & al & Ea & _); [congruence|]. exists (a0 :: al). split; [exact Ea|discriminate]. }
  destruct X as (al & -> & Hal). cbn [bind]. unfold is_nameserver_in_subzone_without_glue. destruct (ends_with n (ns_zone s)) eqn:X; [|reflexivity].
  apply ends_with_spec in X. destruct Hk as [Hk|Hk]; [|contradiction]. destruct al; [destruct (Hal Hk eq_refl)|reflexivity].
Qed.
Lemma owned_glue : forall sd ns n, NoDup ns -> In n ns -> owned n RT_A (flat_map (glue sd) ns) = glue sd n.
Proof.
  intros sd. assert (G : forall n r, In r (glue sd n) -> r_node r = n /\ record_type r = RT_A). { intros n r Hr. apply in_flat_map in Hr as (d & _ & Hr). now apply owned_in in Hr. }
  assert (Z : forall ns n, ~ In n ns -> owned n RT_A (flat_map (glue sd) ns) = []).
  { intros ns n Hn. apply filter_none. intros r Hr. destruct (_ && _) eqn:X; [|reflexivity]. apply owned_test in X as (X & _). apply in_flat_map in Hr as (n' & Hn' & Hr). apply G in Hr as (Hr & _). congruence. }
  induction ns as [|n0 ns IH]; intros n Hd Hn; [destruct Hn|]. inversion Hd as [|? ? N1 N2]; subst. cbn [flat_map]. unfold owned. rewrite filter_app. fold (owned n RT_A (glue sd n0)) (owned n RT_A (flat_map (glue sd) ns)).
  destruct Hn as [->|Hn].
  - rewrite Z by exact N1. rewrite app_nil_r. apply filter_all. intros r Hr. apply owned_test. now apply G.
  - rewrite (IH n N2 Hn). replace (owned n RT_A (glue sd n0)) with (@nil record); [reflexivity|]. symmetry. apply filter_none. intros r Hr. destruct (_ && _) eqn:X; [|reflexivity]. apply owned_test in X as (X & _). apply G in Hr as (Hr & _). congruence.
Qed.
Lemma within_suffix : forall n z, accepted n -> apex_ok z -> within n z -> exists pre, n = pre ++ z.
Proof.
  intros n z (ln & Hn) ((lz & Hz) & Hnr) (pre & H). rewrite (labels_of_name _ _ Hn), (labels_of_name _ _ Hz) in H. destruct Hn as (-> & _), Hz as (-> & _). subst ln.
  destruct lz as [|l0 lz]; [now destruct Hnr|]. exists (dotted pre). unfold name_text. destruct (pre ++ l0 :: lz) eqn:E; [now destruct pre|]. rewrite <- E. apply dotted_app.
Qed.

(** A name in a sub zone: the servers of the sub zone, with their addresses. Assumed: the
    sub zone lies below the zone asked for, its servers have different names, and those
    without address records do not have names that end with the text of its name (the
    resolver discards them). *)
Theorem C79_delegation_partial : forall p p' env zs sd node kind s a retries k w d, dialogue p' env w zs sd node kind s a retries ->
  within node (d_apex (s_auth sd)) -> first_sub sd node d -> length (ns_zone s) < length (d_apex d) ->
  let nss := owned (d_apex d) RT_NS (d_records d) in
  NoDup (targets nss) -> (forall n, In n (targets nss) -> glue sd n <> [] \/ ~ (exists pre, n = pre ++ d_apex d)) ->
  fits node kind (nss ++ flat_map (glue sd) (targets nss)) ->
  exists next k' w', perform_request p env node kind s retries (k, w) = (Done (Ok (NR_Delegation next)), (k', w')) /\ one_sent a w w' /\
    map n_rec next = map normal nss /\ Forall (fun s' => forall n, r_data (n_rec s') = D_NS n -> Permutation (n_addrs s') (map normal (glue sd n))) next.
Proof.
  intros p p' env zs sd node kind s a retries k w d D Hin Hd Hlen nss Hdup Hglue Hfit. pose proof D as [D1 D2 D3 D4 D5 _ _ _ _ _].
  destruct (C30_sub_zone_is_delegated p' zs sd _ (mkQ node kind C_IN) d D1 D2 (req_query env node kind w) (sendable_accepted _ D4) Hin Hd) as (reply & Eh & Sy & Co & Mi).
  cbn [q_node q_type] in Sy. fold nss in Sy.
  assert (Gr : forall n, Forall record_readable (glue sd n)).
  { intros n. apply Forall_forall. intros r Hr. apply in_flat_map in Hr as (d' & Hd' & Hr). destruct D3 as (_ & D3). rewrite Forall_forall in D3. pose proof (sub_readable n RT_A _ (D3 d' Hd')) as H. rewrite Forall_forall in H. now apply H. }
  destruct (exchange_says p _ _ _ _ _ _ _ _ _ k _ D reply _ _ _ _ _ Eh Sy Co Mi) as (k' & w' & m & E & Hw & M1 & M2 & M3 & M4 & M5); [constructor| | |exact Hfit|].
  - apply sub_readable. exact (Forall_first_sub _ _ _ _ (proj2 D3) Hd).
  - apply Forall_forall. intros r Hr. apply in_flat_map in Hr as (n & _ & Hr). specialize (Gr n). rewrite Forall_forall in Gr. now apply Gr.
  - unfold read_response in E. rewrite M1, M3 in E. cbn [map] in E.
    change (extract_records [] kind node) with (@nil record, @nil record) in E. cbv beta iota in E. change (fst (extract_record [] RT_CNAME node)) with (@None record) in E. cbv beta iota in E.
    unfold extract_next_nss_for_subzone in E. rewrite M4, M5 in E.
    assert (Hns : Forall (fun r => record_type r = RT_NS) (map normal nss)).
    { apply Forall_forall. intros r Hr. apply in_map_iff in Hr as (r0 & <- & Hr). now apply owned_in in Hr. }
    assert (Hpre : exists pre, node = pre ++ d_apex d).
    { apply within_suffix; [now apply sendable_accepted|exact (Forall_first_sub _ _ _ _ (proj2 (proj1 D2)) Hd)|]. now destruct Hd as (pre & post & _ & H & _). }
    rewrite filter_all in E.
    2:{ intros r Hr. pose proof Hr as Hr'. apply in_map_iff in Hr' as (r0 & <- & Hr0). apply owned_in in Hr0 as (_ & Hn0 & Ht0). change (record_type (normal r0)) with (record_type r0). change (r_node (normal r0)) with (r_node r0). rewrite Ht0, Hn0.
        apply andb_true_iff. split; [reflexivity|]. apply andb_true_iff. split; [now apply ends_with_spec|]. unfold is_nameserver_authority_a_subzone. now apply negb_true_iff, Nat.leb_gt. }
    assert (Et : targets (map normal nss) = targets nss). { clear. induction nss as [|r l IH]; [reflexivity|]. cbn. unfold targets in IH. now rewrite IH. }
    destruct (nss_of_owned (map normal nss) (map normal (flat_map (glue sd) (targets nss))) Hns) as (l & rest & En & Ml & Fl); [now rewrite Et|]. rewrite En in E. cbn [bind] in E.
    assert (Fl' : Forall (fun s' => exists n, In n (targets nss) /\ r_data (n_rec s') = D_NS n /\ ns_zone s' = d_apex d /\ Permutation (n_addrs s') (map normal (glue sd n))) l).
    { rewrite Forall_forall in Fl |- *. intros s' Hs. destruct (Fl s' Hs) as (n & E1 & P). exists n.
      assert (In n (targets nss)). { rewrite <- Et. unfold targets. apply in_flat_map. exists (n_rec s'). split; [rewrite <- Ml; now apply in_map|]. rewrite E1. now left. }
      split; [assumption|]. split; [exact E1|]. split.
      - assert (Hm : In (n_rec s') (map normal nss)) by (rewrite <- Ml; now apply in_map). apply in_map_iff in Hm as (r0 & E0 & Hr0). unfold ns_zone. rewrite <- E0. now apply owned_in in Hr0.
      - rewrite owned_normal, owned_glue in P by assumption. exact P. }
    rewrite drop_none in E.
    + cbn [bind] in E. exists l, k', w'. split.
      { rewrite E. destruct l as [|s0 l]; [|reflexivity]. exfalso. pose proof (Forall_first_sub _ _ _ _ (proj1 (proj2 (proj2 D2))) Hd) as Hne. cbv beta in Hne. fold nss in Hne. now destruct nss. }
      split; [exact Hw|]. split; [exact Ml|]. eapply Forall_impl; [|exact Fl']. intros s' (n & _ & E1 & _ & P) n' E2. assert (n' = n) by congruence. now subst n'.
    + apply Forall_forall. intros s' Hs. rewrite Forall_forall in Fl'. destruct (Fl' s' Hs) as (n & _ & _ & _ & P). apply Forall_forall. intros r Hr. apply (Permutation_in r P) in Hr. apply in_map_iff in Hr as (r0 & <- & Hr). apply in_flat_map in Hr as (d' & _ & Hr). now apply owned_in in Hr.
    + eapply Forall_impl; [|exact Fl']. intros s' (n & Hn & E1 & Ez & P). exists n. split; [exact E1|]. rewrite Ez. destruct (Hglue n Hn) as [H|H]; [left|now right]. intros C. rewrite C in P. apply perm_nil_l in P. now destruct (glue sd n).
Qed.
Print Assumptions C79_delegation_partial.

(** ** Concrete dialogues *)
Definition srv_ex : nsrv := mkNs (rec_ (s2b "example.com.") 60 (D_NS (s2b "ns."))) [rec_ (s2b "ns.") 60 (D_A [9; 9; 9; 9]%N)].
Definition env_ex (zs : managed) : environment := fun _ => mkEv 0 0 (fun c => c) 7 (fun _ x => answers_of Release zs x).
Definition ask_ex (zs : managed) (n : name) (t : rtype) : exec (result nsresp lerr) :=
  fst (perform_request Debug (env_ex zs) n t srv_ex 2 (new_lookup conf0 n t, world0)).
Lemma ex_dialogue : forall n t, sendable_b n = true -> usable_type t -> dialogue Release (env_ex ex_zones) world0 ex_zones ex_data n t srv_ex [9; 9; 9; 9]%N 2.
Proof.
  intros n t Hn Ht. split; [apply ex_serves|apply ex_loaded| |now apply sendable_b_ok|exact Ht|repeat constructor|now eexists _, _|lia|unfold is_u16; cbn; lia|reflexivity].
  assert (S : forall r, In r (ex_auth_records ++ ex_sub_records) -> record_readable r).
  { intros r Hr. cbn in Hr. repeat (destruct Hr as [<-|Hr]; [split; [split; [apply sendable_b_ok; vm_compute; reflexivity|]; split; [reflexivity|]; split; [unfold is_u32; cbn; lia|]|exact I]|]); [| | | | | | |destruct Hr]; cbn [rdata_ok r_data ns_rec a_rec];
      repeat split; try (apply sendable_b_ok; vm_compute; reflexivity); try (unfold is_u32; lia); repeat constructor; unfold is_byte; lia. }
  split; [apply Forall_forall; intros r Hr; apply S; apply in_or_app; now left|]. constructor; [|constructor]. apply Forall_forall. intros r Hr. apply S. apply in_or_app. now right.
Qed.
Theorem C79_nonvacuous :
  (forall n t, sendable_b n = true -> usable_type t -> dialogue Release (env_ex ex_zones) world0 ex_zones ex_data n t srv_ex [9; 9; 9; 9]%N 2) /\
  (within (s2b "ns.example.com.") ex_apex /\ in_no_sub ex_data (s2b "ns.example.com.") /\ fits (s2b "ns.example.com.") RT_A (owned (s2b "ns.example.com.") RT_A ex_auth_records) /\
   ask_ex ex_zones (s2b "ns.example.com.") RT_A = Done (Ok (NR_Answer (map normal [a_rec (s2b "ns.example.com.") [10; 0; 0; 1]%N; a_rec (s2b "ns.example.com.") [10; 0; 0; 2]%N]) []))) /\
  (fits (s2b "www.example.com.") RT_A (owned (s2b "www.example.com.") RT_CNAME ex_auth_records) /\
   ask_ex ex_zones (s2b "www.example.com.") RT_A = Done (Ok (NR_Alias (normal (mkRec (s2b "www.example.com.") C_IN 3600 0 (D_CNAME (s2b "ns.example.com.")))) []))) /\
  ask_ex ex_zones (s2b "nope.example.com.") RT_A = Done (Ok (NR_NoDomain None)) /\
  ask_ex ex_zones (s2b "other.com.") RT_A = Done (Err (L_RespCode RC_Refused)) /\
  (first_sub ex_data (s2b "a.sub.example.com.") (mkData ex_sub_apex ex_sub_records) /\ length (ns_zone srv_ex) < length ex_sub_apex /\
   fits (s2b "a.sub.example.com.") RT_A ex_sub_records /\
   ask_ex ex_zones (s2b "a.sub.example.com.") RT_A = Done (Ok (NR_Delegation [mkNs (normal (ns_rec ex_sub_apex (s2b "ns.sub.example.com."))) [normal (a_rec (s2b "ns.sub.example.com.") [10; 0; 1; 1]%N)]]))).
Proof.
  assert (W : forall n z, is_ok (validate_name n) = true -> is_ok (validate_name z) = true -> z <> [46%N] -> is_in_zone n z = true -> within n z) by (intros n z A B C D; now apply within_b).
  split; [exact ex_dialogue|]. split.
  - split; [apply W; try (vm_compute; reflexivity); discriminate|]. split; [constructor; [apply not_within_b; try (vm_compute; reflexivity); discriminate|constructor]|]. split; [unfold fits; vm_compute; lia|vm_compute; reflexivity].
  - split; [split; [unfold fits; vm_compute; lia|vm_compute; reflexivity]|]. split; [vm_compute; reflexivity|]. split; [vm_compute; reflexivity|].
    split. { exists [], []. split; [reflexivity|]. split; [apply W; try (vm_compute; reflexivity); discriminate|constructor]. }
    split; [cbn; lia|]. split; [unfold fits; vm_compute; lia|]. vm_compute. reflexivity.
Qed.
Print Assumptions C79_nonvacuous.

(** Refuted for long replies: of forty addresses the resolver takes the first fifteen for
    all there are. *)
Definition big_addr (i : nat) : record := a_rec (s2b "big.example.com.") [10; 0; 2; N.of_nat i]%N.
Definition big_zones : managed := mkManaged (ex_zone ex_apex (ex_auth_records ++ map big_addr (seq 0 40))) [].
Definition big_data : server_data := mkServer (mkData ex_apex (ex_auth_records ++ map big_addr (seq 0 40))) [].
Theorem C79_refuted_long_replies : length (owned (s2b "big.example.com.") RT_A (d_records (s_auth big_data))) = 40 /\
  exists ans, ask_ex big_zones (s2b "big.example.com.") RT_A = Done (Ok (NR_Answer ans [])) /\ length ans = 15.
Proof. split; [vm_compute; reflexivity|]. eexists. split; vm_compute; reflexivity. Qed.
Print Assumptions C79_refuted_long_replies.
(** Refuted for TXT records: the reply cannot be read. *)
Definition txt_zones : managed := mkManaged (ex_zone ex_apex (ex_auth_records ++ [mkRec (s2b "txt.example.com.") C_IN 3600 0 (D_TXT [s2b "hello"])])) [].
Theorem C79_refuted_txt : exists k, ask_ex txt_zones (s2b "txt.example.com.") RT_TXT = k /\ forall x, k <> Done (Ok x).
Proof. eexists. split; [vm_compute; reflexivity|]. intros x C. discriminate C. Qed.
Print Assumptions C79_refuted_txt.
