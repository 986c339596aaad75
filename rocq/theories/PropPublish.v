(** C85: what is published with the name server of this project is found by its resolver. *)
From Coq Require Import Permutation.
From Verif Require Import Base Types Name NameSpec NameProofs Codec CodecSpec CodecWrite CodecMessage EncodeTotal PropCodec1 PropCodec2 PropCodec3 Zone ZoneSpec ZoneProofs NsHandler NsSpec PropNs Parser LoadSpec ZoneFileSpec ZoneLoadSpec LoadProofs PropLoad ZoneFileTotal ZoneFileComplete PropZoneLoad Cache Resolver ResolverLists ResolverSpec ResolverInv ResolverRun ResolverFacts ResolverEx PropResolver1 PropResolver2 PropResolver3 PropResolver5 ResolverStays PropResolver7 PropTalk HealthSpec HealthRun PropHealth PublishSpec.

Lemma message_bytes : forall m, message_ok m -> is_bytes (wire_message m).
Proof.
  intros m (Hh & _ & _ & Hq & Ha & Hn & Hx). unfold wire_message, wire_entries. rewrite !concat_app. pose proof (wire_header_bytes _ Hh) as BH.
  destruct (appends_ok_q Debug _ Hq) as (Q1 & Q2). destruct (appends_ok_r Debug _ Ha) as (A1 & A2). destruct (appends_ok_r Debug _ Hn) as (N1 & N2). destruct (appends_ok_r Debug _ Hx) as (X1 & X2).
  pose proof (concat_wire_bytes _ _ _ _ _ Q1 Q2) as BQ. pose proof (concat_wire_bytes _ _ _ _ _ A1 A2) as BA. pose proof (concat_wire_bytes _ _ _ _ _ N1 N2) as BN. pose proof (concat_wire_bytes _ _ _ _ _ X1 X2) as BX.
  apply is_bytes_app. split; [exact BH|]. apply is_bytes_app. split; [exact BQ|]. apply is_bytes_app. split; [exact BA|]. apply is_bytes_app. now split.
Qed.

Section Replies.
  Context (p p' : profile) (env : environment) (zs : managed) (sd : server_data) (D : directory) (Y : layout) (start T : N).
  Context (Hids : forall i, is_u16 (ev_id (env i))) (Hs : NsSpec.serves zs sd) (Hl : zone_loaded sd) (Hg : glue_complete sd) (DO : directory_ok D) (A : agrees D Y start T sd).
  Notation apex := (d_apex (s_auth sd)).
  Notation recs := (d_records (s_auth sd)).

  (** The bytes of the reply, and what the resolver reads. *)
  Lemma reply_bytes : forall n t i reply rc aa ans aus ads, sendable n -> usable_type t -> handle_message p' zs (build_dns_request (ev_id (env i)) n t) = Done reply ->
    says reply rc aa ans aus ads -> counts_say reply 1 -> mirrors (build_dns_request (ev_id (env i)) n t) reply ->
    Forall record_readable ans -> Forall record_readable aus -> Forall record_readable ads -> fits n t (ans ++ aus ++ ads) ->
    exists d m, answers_of p' zs (query_at env n t i) = Some d /\ is_bytes d /\ decode_message p (firstn 512 d) = Done (Ok m) /\ h_id (m_header m) = ev_id (env i) /\
      h_rcode (m_header m) = rc /\ h_aa (m_header m) = aa /\ m_answers m = map normal ans /\ m_authorities m = map normal aus /\ m_additionals m = map normal ads.
  Proof.
    intros n t i reply rc aa ans aus ads Hn Ht Eh Sy Co Mi Ra Ru Rd F. set (w := mkWorld cache_new i []).
    destruct (reply_ok _ _ _ _ _ _ _ _ _ Hn Ht (Hids i) Sy Co Mi Ra Ru Rd F) as (R1 & R2 & R3).
    exists (wire_message reply), (normal_message reply). split; [|split; [apply message_bytes; apply R1|split; [|split; [exact R3|]]]].
    - assert (L : length (query_at env n t i) <= 512).
      { unfold query_at. rewrite app_length. change (length (query_header _)) with 12. pose proof (question_length n t Hn). lia. }
      assert (Ed : decode_message p' (query_at env n t i) = Done (Ok (build_dns_request (ev_id (env i)) n t))).
      { exact (req_decodes p' (fun i => mkEv 0 0 (fun c => c) (ev_id (env i)) (fun _ x => answers_of p' zs x)) zs n t [] 1 w Hn Ht (le_n _) (Hids i) (fun _ => eq_refl)). }
      unfold answers_of, serve_udp, udp_read, read_message. change MAX_UDP_LEN_BYTES with 512. rewrite firstn_all2 by exact L. rewrite Ed. cbn [bind handle_dns_request]. rewrite Eh. cbn [bind]. unfold udp_reply.
      rewrite (C25_short_messages_unchanged p' reply (wire_message reply)); [reflexivity|apply message_ok_typed; apply R1|apply C19_encode_message; apply R1|exact R2].
    - rewrite firstn_all2 by exact R2. pose proof (C19_decode_message p reply [] R1 (Forall_nil _)) as H. now rewrite app_nil_r in H.
    - destruct Sy as (S1 & S2 & S3 & S4 & S5). cbn. rewrite S3, S4, S5. now repeat split.
  Qed.

  Lemma same_normal : forall l, same (map normal l) l.
  Proof. intros l. unfold same. rewrite map_map. apply Permutation_refl. Qed.
  Lemma same_nil : forall l, same [] l -> l = [].
  Proof. intros l H. unfold same in H. apply Permutation_nil in H. now destruct l. Qed.
  Lemma same_nil' : forall l, same l [] -> l = [].
  Proof. intros l H. unfold same in H. symmetry in H. apply Permutation_nil in H. now destruct l. Qed.
  Lemma trans_same : forall a b c, same a b -> same b c -> same a c.
  Proof. intros a b c H1 H2. unfold same in *. now rewrite H1. Qed.
  Lemma lasting_reply : forall m l1 l2, m_answers m = map normal l1 -> m_additionals m = map normal l2 -> (forall r, In r (l1 ++ l2) -> exists d, In d (s_auth sd :: s_subs sd) /\ In r (d_records d)) -> lasting Y start T m.
  Proof.
    intros m l1 l2 E1 E2 H z r Hr Ht Ha. rewrite E1, E2, <- map_app in Hr. apply in_map_iff in Hr as (r' & <- & Hr'). cbn [normal r_ttl r_node] in *. destruct (H r' Hr') as (d & Hd & Hi).
    exact (ag_ttl _ _ _ _ _ A d z r' Hd Hi Ht Ha).
  Qed.
  Lemma glue_from : forall h r, In r (glue sd h) -> exists d, In d (s_subs sd) /\ In r (d_records d) /\ r_node r = h /\ record_type r = RT_A.
  Proof. intros h r Hr. apply in_flat_map in Hr as (d & Hd & Hr). apply owned_in in Hr. exists d. tauto. Qed.
  Lemma targets_serve : forall d, In d (s_subs sd) -> let nss := owned (d_apex d) RT_NS (d_records d) in NoDup (targets nss) /\ forall h, In h (targets nss) <-> HealthSpec.serves D (d_apex d) h.
  Proof.
    intros d Hd nss. destruct (ag_sub _ _ _ _ _ A d Hd) as (_ & _ & Hsame). fold nss in Hsame.
    assert (P : Permutation (map r_data nss) (map r_data (D (d_apex d) RT_NS))).
    { apply (Permutation_map r_data) in Hsame. rewrite !map_map in Hsame. exact Hsame. }
    assert (Ht : Forall (fun r => record_type r = RT_NS) nss) by (apply Forall_forall; intros r Hr; now apply owned_in in Hr).
    split.
    - assert (ND : NoDup (map r_data nss)) by (apply (Permutation_NoDup (l := map r_data (D (d_apex d) RT_NS))); [now symmetry|apply (di_servers _ DO)]).
      revert Ht ND. clear. generalize nss. clear nss. induction nss as [|r l IH]; intros Ht ND; [constructor|]. inversion Ht as [|? ? Hr Hl]; subst. cbn [map] in ND. inversion ND as [|? ? N1 N2]; subst.
      destruct (ns_record r Hr) as (h & Eh). rewrite (targets_cons r l h Eh). constructor; [|now apply IH]. intros C. apply N1. unfold targets in C. apply in_flat_map in C as (r' & Hr' & C).
      rewrite Eh. apply in_map_iff. exists r'. split; [|exact Hr']. destruct (r_data r'); try contradiction. destruct C as [->|[]]. reflexivity.
    - intros h. split.
      + intros C. unfold targets in C. apply in_flat_map in C as (r & Hr & C). assert (Er : r_data r = D_NS h) by (destruct (r_data r); try contradiction; destruct C as [->|[]]; reflexivity).
        assert (X : In (D_NS h) (map r_data (D (d_apex d) RT_NS))) by (apply (Permutation_in _ P); apply in_map_iff; now exists r). apply in_map_iff in X as (r' & E' & Hr'). now exists r'.
      + intros (r & Hr & Er). assert (X : In (D_NS h) (map r_data nss)) by (apply (Permutation_in _ (Permutation_sym P)); apply in_map_iff; now exists r). apply in_map_iff in X as (r' & E' & Hr').
        unfold targets. apply in_flat_map. exists r'. split; [exact Hr'|]. rewrite E'. now left.
  Qed.

  Lemma find_sub_or_none : forall n, accepted n -> (exists d, first_sub sd n d) \/ in_no_sub sd n.
  Proof.
    intros n Hn. pose proof (find_subzone_spec n zs sd Hn Hs (proj1 Hl)) as F. destruct (find_subzone _ _) as [s|]; [left|right; exact F]. destruct F as (d & Hd & _). now exists d.
  Qed.

  (** The reply to a question about a name in the zone is honest. *)
  Lemma reply_honest : forall n t i, sendable n -> usable_type t -> within n apex -> exists d m, answers_of p' zs (query_at env n t i) = Some d /\ is_bytes d /\ decode_message p (firstn 512 d) = Done (Ok m) /\
    h_id (m_header m) = ev_id (env i) /\ honest D Y m n t apex /\ lasting Y start T m.
  Proof.
    intros n t i Hn Ht Hw. set (w := mkWorld cache_new i []). pose proof (req_query env n t w) as Q. change (ev_id (env (w_n w))) with (ev_id (env i)) in Q.
    pose proof (sendable_accepted _ Hn) as Ac. pose proof Hl as (Hap & _). pose proof (ag_readable _ _ _ _ _ A) as (Ra & Rs). destruct (ag_fits _ _ _ _ _ A n t Hn Ht Hw) as (Fi & Fd).
    destruct (find_sub_or_none n Ac) as [(d & Hd)|Hno].
    - (* a sub zone *)
      destruct (C30_sub_zone_is_delegated p' zs sd _ (mkQ n t C_IN) d Hs Hl Q Ac Hw Hd) as (reply & Eh & Sy & Co & Mi). cbn [q_node q_type] in Sy.
      assert (Hin : In d (s_subs sd)) by (destruct Hd as (pre & post & E & _); rewrite E; apply in_or_app; right; now left).
      set (nss := owned (d_apex d) RT_NS (d_records d)) in *.
      destruct (reply_bytes n t i reply _ _ _ _ _ Hn Ht Eh Sy Co Mi) as (b & m & E1 & E0 & E2 & E3 & M1 & M2 & M3 & M4 & M5); [constructor| | |exact (Fd d Hd)|].
      + apply sub_readable. rewrite Forall_forall in Rs. now apply Rs.
      + apply Forall_forall. intros r Hr. apply in_flat_map in Hr as (h & _ & Hr). apply glue_from in Hr as (d' & Hd' & Hr & _). rewrite Forall_forall in Rs. specialize (Rs d' Hd'). rewrite Forall_forall in Rs. now apply Rs.
      + exists b, m. split; [exact E1|]. split; [exact E0|]. split; [exact E2|]. split; [exact E3|]. destruct (ag_sub _ _ _ _ _ A d Hin) as (B1 & B2 & B3). destruct (targets_serve d Hin) as (ND & TS). fold nss in ND, TS, B3.
        pose proof (Forall_first_sub _ _ _ _ (proj2 Hap) Hd) as Had. cbv beta in Had.
        assert (Hwd : within n (d_apex d)) by (now destruct Hd as (pre & post & _ & H & _)).
        assert (Gl : forall h, In h (targets nss) -> owned h RT_A (m_additionals m) = map normal (glue sd h)) by (intros h Hh; rewrite M5, owned_normal, owned_glue by assumption; reflexivity).
        split.
        * apply (H_referral D Y m n t apex (d_apex d)); [exact M1|rewrite M3; reflexivity|rewrite M3; reflexivity|exact Hwd| |].
          -- destruct (within_suffix (d_apex d) apex (proj1 Had) (proj1 Hap) B1) as (pre & Epre). rewrite Epre, app_length. destruct pre as [|b0 pre]; [now destruct B2|]. cbn [length]. lia.
          -- split; [|split; [|split]].
             ++ intros C. rewrite C in B3. apply same_nil' in B3. destruct Hl as (_ & _ & Hns & _). rewrite Forall_forall in Hns. now apply (Hns d Hin).
             ++ rewrite M4. replace (of_type RT_NS (map normal nss)) with (map normal nss); [exact (trans_same _ _ _ (same_normal nss) B3)|]. symmetry. apply filter_all. intros r Hr. apply in_map_iff in Hr as (r0 & <- & Hr). apply owned_in in Hr as (_ & _ & Hr). change (record_type (normal r0)) with (record_type r0). now rewrite Hr.
             ++ intros h Hh. rewrite (Gl h) by now apply TS. destruct (ag_glue _ _ _ _ _ A d h Hin Hh) as (G1 & G2). destruct (glue sd h) as [|g gs] eqn:Eg.
                ** right. split; [reflexivity|]. destruct G1 as [G1|G1]; [|exact G1]. exfalso.
                   assert (Hwa : within h apex) by (destruct G1 as (x & Ex), B1 as (y & Ey); exists (x ++ y); rewrite Ex, Ey; apply app_assoc).
                   assert (Hse : In h (LoadSpec.servers_of d)). { unfold LoadSpec.servers_of. apply TS in Hh. unfold targets in *. apply in_flat_map in Hh as (r & Hr & Hh). apply in_flat_map. exists r. split; [|exact Hh]. apply owned_in in Hr as (Hr & _ & Et). apply filter_In. split; [exact Hr|now rewrite Et]. }
                   pose proof (Hg d d h Hin Hin Hse Hwa G1) as Ne. apply Ne. destruct (owned h RT_A (d_records d)) as [|r l] eqn:Er; [reflexivity|]. exfalso.
                   assert (C : In r (glue sd h)) by (apply in_flat_map; exists d; split; [exact Hin|rewrite Er; now left]). rewrite Eg in C. exact C.
                ** left. split; [discriminate|]. destruct G2 as [G2|G2]; [discriminate G2|]. exact (trans_same _ _ _ (same_normal _) G2).
             ++ intros Hz. destruct (ag_anchor _ _ _ _ _ A d Hin Hz) as (h & H1 & H2 & H3). exists h. split; [exact H1|]. split; [exact H2|]. rewrite (Gl h) by now apply TS. destruct (glue sd h); [now destruct H3|discriminate].
        * apply (lasting_reply m _ _ M3 M5). intros r Hr. apply in_flat_map in Hr as (h & _ & Hr). apply glue_from in Hr as (d' & Hd' & Hr & _). exists d'. split; [now right|exact Hr].
    - (* the zone's own *)
      pose proof (ag_auth _ _ _ _ _ A n) as Au. destruct (Fi Hno) as (F1 & F2). destruct (wanted n t recs) as [|r0 rs0] eqn:W.
      + destruct (C32_negative_answer p' zs sd _ (mkQ n t C_IN) Hs Hl Q Ac Hw Hno W) as (reply & soa & Es & Eh & Sy & Co & Mi).
        destruct (owned apex RT_SOA recs) as [|s0 ss] eqn:Eo; [discriminate Es|]. injection Es as ->. cbn [firstn] in F2.
        destruct (reply_bytes n t i reply _ _ _ _ _ Hn Ht Eh Sy Co Mi) as (b & m & E1 & E0 & E2 & E3 & M1 & M2 & M3 & M4 & M5); [constructor| |constructor|exact F2|].
        * constructor; [|constructor]. pose proof (sub_readable apex RT_SOA recs Ra) as R. rewrite Eo in R. now inversion R.
        * exists b, m. split; [exact E1|]. split; [exact E0|]. split; [exact E2|]. split; [exact E3|]. split; [|apply (lasting_reply m _ _ M3 M5); intros r []].
          unfold wanted in W. destruct (owned n t recs) as [|x l] eqn:Et; [|discriminate W]. apply H_nothing; [exact M1|exact M2| |].
          -- apply same_nil. rewrite <- Et. now apply Au.
          -- apply same_nil. rewrite <- W. now apply Au.
      + destruct (C31_authoritative_answer p' zs sd _ (mkQ n t C_IN) Hs Hap Q Ac Hw Hno) as (reply & Eh & Sy & Co & Mi).
        { cbn [q_node q_type]. rewrite W. discriminate. }
        cbn [q_node q_type] in Sy. rewrite W in Sy.
        assert (Wr : Forall record_readable (r0 :: rs0)). { rewrite <- W. unfold wanted. destruct (owned n t recs) eqn:E; [|rewrite <- E]; now apply sub_readable. }
        destruct (reply_bytes n t i reply _ _ _ _ _ Hn Ht Eh Sy Co Mi) as (b & m & E1 & E0 & E2 & E3 & M1 & M2 & M3 & M4 & M5); [exact Wr|constructor|constructor|now rewrite !app_nil_r|].
        exists b, m. split; [exact E1|]. split; [exact E0|]. split; [exact E2|]. split; [exact E3|]. split.
        * unfold wanted in W. destruct (owned n t recs) as [|x l] eqn:Et.
          -- pose proof (Au t Hw Hno) as S1. rewrite Et in S1. apply same_nil in S1. pose proof (Au RT_CNAME Hw Hno) as S2. rewrite W in S2.
             destruct (D n RT_CNAME) as [|c cs] eqn:Ec; [apply same_nil' in S2; discriminate S2|]. destruct (di_alias _ DO n) as ((c1 & Ec1) & _); [rewrite Ec; discriminate|]. rewrite Ec in Ec1. injection Ec1 as -> ->.
             destruct (di_owner _ DO n RT_CNAME c1) as (_ & Tc); [rewrite Ec; now left|]. assert (Td : exists target, r_data c1 = D_CNAME target) by (unfold record_type in Tc; destruct (r_data c1); try discriminate Tc; now eexists). destruct Td as (target & Td).
             apply (H_alias D Y m n t apex c1 target); [exact M1|exact S1| |exact Ec|exact Td| |].
             ++ rewrite M3, <- W. rewrite owned_normal. replace (owned n t (owned n RT_CNAME recs)) with (@nil record); [reflexivity|]. symmetry. apply filter_none. intros r Hr. apply owned_in in Hr as (Hr & Hrn & Hrt). destruct (_ && _) eqn:X; [|reflexivity]. apply owned_test in X as (X1 & X2).
                exfalso. assert (C : In r (owned n t recs)) by (apply owned_in; now repeat split). rewrite Et in C. exact C.
             ++ rewrite M3, <- W, owned_normal, owned_owned, W. exact (trans_same _ _ _ (same_normal _) S2).
             ++ left. rewrite M4. intros r [].
          -- pose proof (Au t Hw Hno) as S1. rewrite Et in S1. apply H_answer; [exact M1| |].
             ++ intros C. rewrite C in S1. apply same_nil' in S1. discriminate S1.
             ++ rewrite M3, <- W, <- Et, owned_normal, owned_owned, Et. exact (trans_same _ _ _ (same_normal _) S1).
        * apply (lasting_reply m _ _ M3 M5). rewrite app_nil_r. intros r Hr. exists (s_auth sd). split; [now left|]. rewrite <- W in Hr. unfold wanted in Hr. destruct (owned n t recs) eqn:E; [|rewrite <- E in Hr]; apply owned_in in Hr; apply Hr.
  Qed.
End Replies.


Section Good.
  Context (p : profile) (env : environment) (D : directory) (Y : layout) (start T : N) (retries servers : nat).
  Context (Hids : forall i, is_u16 (ev_id (env i))).

  Lemma published_good : forall a z, directory_ok D -> published_at D Y start T env retries a z -> good_server p env D Y start T retries a z.
  Proof.
    intros a z DO (p' & fs & fuel & c & zs & sd & Hc & <- & L & Ag & Ep & Hnet) n t Hn Ht Hw. destruct (Hnet n t Hn Ht Hw) as (N1 & N2).
    assert (Ss : NsSpec.serves zs sd).
    { destruct (C81_well_formed_files_are_loaded p' fs c sd Hc L) as (zs' & N & Ss & E). specialize (E (Nat.max N fuel) ltac:(lia)). pose proof (more_fuel _ _ _ _ (below_load p' fs fuel (Nat.max N fuel) c ltac:(lia)) Ep) as E'. assert (zs' = zs) by congruence. now subst zs'. }
    pose proof (C40_C42_give_zone_loaded _ _ _ _ _ _ Hc Ep Ss) as Zl. pose proof L as (La & _ & _ & _ & _ & Gc & _). rewrite <- La in Hw |- *.
    assert (R : forall i, exists d m, answers_of p' zs (query_at env n t i) = Some d /\ is_bytes d /\ decode_message p (firstn 512 d) = Done (Ok m) /\ h_id (m_header m) = ev_id (env i) /\ honest D Y m n t (d_apex (s_auth sd)) /\ lasting Y start T m).
    { intros i. exact (reply_honest p p' env zs sd D Y start T Hids Ss Zl Gc DO Ag n t i Hn Ht Hw). }
    split; [|split].
    - intros i d E. destruct (N1 i) as [X|X]; [congruence|]. destruct (R i) as (d' & m & E1 & _ & E2 & _). assert (d' = d) by congruence. subst d'. rewrite E2. now eexists.
    - intros i m (d & E & Ed & _). destruct (N1 i) as [X|X]; [congruence|]. destruct (R i) as (d' & m' & E1 & _ & E2 & _ & H1 & H2). assert (d' = d) by congruence. subst d'. assert (m' = m) by congruence. subst m'. now split.
    - intros i. destruct (N2 i) as (k & Lk & X). destruct (R (i + k)) as (d & m & E1 & _ & E2 & E3 & _). exists k, m. split; [exact Lk|]. exists d. rewrite X. now repeat split.
  Qed.
  Lemma published_healthy : published_dns D Y start T p env retries servers -> healthy p env D Y start T retries servers.
  Proof.
    intros [P1 P2 P3 P4 P5 P6 P7]. assert (W : forall z h, up D Y start T p env retries z h -> works p env D Y start T retries z h).
    { intros z h H g a Hg Ea. destruct (H g a Hg Ea) as [X|X]; [now apply published_good|exact X]. }
    split; try assumption.
    - intros z. destruct (P4 z) as (bad & L & H). exists bad. split; [exact L|]. intros h Hh. destruct (H h Hh) as [X|X]; [left; now apply W|now right].
    - intros z Hz. destruct (P5 z Hz) as (h & H1 & H2). exists h. split; [exact H1|now apply W].
    - intros z h H. now apply W, P6.
  Qed.
End Good.

(** Zone files that are well formed and say what the directory says, loaded by name servers
    of this project, are found: every lookup of a sequence returns exactly the records in the
    files (or what other servers say), through delegations and aliases across zones.
    Excluded (see C16, C24, C78): TXT records, replies over 512 bytes, anchors' addresses that
    expire meanwhile, NS lookups of zones with anchors. *)
Theorem C85_published_zones_are_found_partial : forall p env D Y T conf qs w fuel res w',
  env_ok plain_record env -> (forall n, (ev_now' (env n) < ev_now (env n) + SECOND)%N) ->
  published_dns D Y (ev_now (env (w_n w))) T p env (max_retries conf) (max_ns conf) -> others_true env D Y (ev_now (env (w_n w))) T ->
  cache_ok plain_record (ev_now (env (w_n w))) (w_cache w) -> cache_true D Y (ev_now (env (w_n w))) T (w_cache w) ->
  no_follow conf = false -> Forall (fun qk => fair_question D conf (fst qk) (snd qk) /\ leaves_no_trap D Y (fst qk) (snd qk) /\ (snd qk = RT_CNAME -> others_leave env (fst qk))) qs ->
  256 < fuel /\ (forall z, D z RT_NS <> [] -> 256 + depth Y z < fuel) ->
  lookups p env conf fuel qs w = (res, w') -> (forall m, m < w_n w' -> (ev_now' (env m) < T)%N) ->
  Forall2 (fun qk r => right_answer D (fst qk) (snd qk) r) qs res /\ cache_true D Y (ev_now (env (w_n w))) T (w_cache w').
Proof.
  intros p env D Y T conf qs w fuel res w' EO Quick PD HOt Hc Ht Hnf Hq Hf E Htime.
  apply (C78_all_lookups_find_what_is_there_partial p env D Y T conf qs w fuel res w'); try assumption. apply published_healthy; [apply (eo_ids _ _ EO)|exact PD].
Qed.
Print Assumptions C85_published_zones_are_found_partial.
(** A server of this project with such files is a good server, for any resolver that asks
    about its zone. *)
Theorem C85_name_servers_are_good_partial : forall p env D Y start T retries a z, (forall i, is_u16 (ev_id (env i))) -> directory_ok D ->
  published_at D Y start T env retries a z -> good_server p env D Y start T retries a z.
Proof. intros. now apply published_good. Qed.
Print Assumptions C85_name_servers_are_good_partial.
