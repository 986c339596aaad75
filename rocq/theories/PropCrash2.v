(** Property C89: exactly which client requests crash the resolver. *)
From Verif Require Import Base Buffer Reader Types Name NameSpec NameProofs Codec CodecSpec CodecWrite CodecMessage CodecFacts PropCodec1 PropCodec2 PropCodec3 EncodeTotal Zone ZoneSpec NsHandler NsSpec
  Cache Resolver ResolverLists ResolverSpec ResolverInv ResolverRun ResolverFacts ResolverFuel ResolverEx PropResolver1 PropResolver2 PropResolver3 Trace TraceSpec PropTrace RsHandler
  PropNs PropNs2 CrashSpec PropCrash CrashSpec2 PropRs.

Lemma a_query_asks : forall req q, a_query req q <-> rs_validate req = true /\ m_questions req = [q].
Proof. intros req q. rewrite validate_asks. unfold a_query, asks. tauto. Qed.

Section Serve.
  Context (p : profile) (logs : bool) (env : environment) (fuel : nat) (conf : rconf) (w : world).
  Context (EO : env_ok plain_record env) (Hw : cache_ok plain_record (ev_now (env (w_n w))) (w_cache w)).

  (** The reply to a query can be encoded, whatever the outcome of its lookup. *)
  Lemma query_reply_encodable : forall m req q r s, is_bytes m -> decode_message p m = Done (Ok req) -> a_query req q ->
    lookup p env fuel conf q w = (Done r, s) -> encodable_message p (rs_reply_to req r).
  Proof.
    intros m req q r s Hm E (V1 & V5 & V2 & V3 & V4) Ep.
    pose proof (C20_decoded_is_supported p m req Hm E) as (Ho & Hq & _). rewrite V4 in Hq. inversion Hq as [|? ? (Hn & Hc & Hk) _]; subst. clear Hq.
    destruct finitely_many_names as (U & HU).
    pose proof (run_facts p env conf (q_node q) (q_type q) w False fuel U EO Hw Hn Hk ltac:(tauto) HU ltac:(tauto)) as R.
    unfold lookup in Ep. rewrite Ep in R. cbn [okL] in R.
    destruct (reply_reports req r) as (R1 & R2 & R3). rewrite V5 in R2.
    pose proof R1 as (_ & Mo & _ & _ & _ & _ & _ & Mq). pose proof R2 as (C1 & C2 & C3 & C4).
    assert (L : forall n, N.to_nat (N.of_nat n mod 65536) <= n). { intros n. pose proof (N.mod_le (N.of_nat n) 65536 ltac:(lia)). lia. }
    assert (G : Forall (encodable_r p) (m_answers (rs_reply_to req r)) /\ Forall (encodable_r p) (m_authorities (rs_reply_to req r)) /\ Forall (encodable_r p) (m_additionals (rs_reply_to req r))).
    { destruct r as [x|e]; unfold rs_reply_to; [destruct (x_none x)|]; cbn [rs_handle_err m_answers m_authorities m_additionals]; try (now repeat split).
      destruct R as (cs & last & rs & _ & _ & _ & _ & _ & R & _).
      assert (T : forall rs, Forall plain_record rs -> Forall (encodable_r p) rs).
      { intros rs0 T. eapply Forall_impl; [|exact T]. intros a (A & B). now apply record_fine_encodable. }
      apply Forall_app in R as (RA & R). apply Forall_app in R as (RB & RC). auto. }
    destruct G as (G1 & G2 & G3). unfold encodable_message. rewrite Mo, Mq, V4, C1, C2, C3, C4. split; [exact Ho|]. split; [constructor; [now apply question_encodable|constructor]|].
    repeat (split; [assumption|]). cbn [length]. rewrite ?Nat2N.id. repeat split; auto.
  Qed.

  (** A request that can be decoded. *)
  Lemma handled : forall m req, is_bytes m -> decode_message p m = Done (Ok req) ->
    (exists q, a_query req q /\
       match lookup p env fuel conf q w with
       | (Done r, (l, w')) => exists o, rs_handle_message p logs env fuel conf req w = (o, w') /\
           ((exists k, o = Panic k) /\ p = Debug /\ logs = true /\ 255 < nesting (l_trace l) \/
            o = Done (rs_reply_to req r) /\ ~ (p = Debug /\ logs = true /\ 255 < nesting (l_trace l)))
       | (Panic k, (_, w')) => rs_handle_message p logs env fuel conf req w = (Panic k, w')
       | (Diverge, (_, w')) => rs_handle_message p logs env fuel conf req w = (Diverge, w')
       end) \/
    ((forall q, ~ a_query req q) /\
     ((m_questions req = [] /\ h_qd (m_header req) = 1%N /\ rs_handle_message p logs env fuel conf req w = (Panic PIndex, w)) \/
      rs_handle_message p logs env fuel conf req w = (Done (rs_handle_err req RC_FormErr), w))).
  Proof.
    intros m req Hm E. destruct (rs_validate req) eqn:Ev.
    - pose proof (fewer_questions p m req E) as Hle. pose proof Ev as Ev'. apply validate_asks in Ev' as (_ & Hqd & _ & _).
      rewrite Hqd in Hle. destruct (m_questions req) as [|q [|q' qs]] eqn:Eq; [| |cbn [length] in Hle; lia].
      + right. split; [intros q Hv; apply a_query_asks in Hv as (_ & Hv); rewrite Eq in Hv; discriminate|]. left. split; [reflexivity|]. split; [exact Hqd|].
        unfold rs_handle_message. rewrite Ev. unfold wbind at 1, wexec. rewrite Eq. reflexivity.
      + left. exists q. split; [apply a_query_asks; now split|]. unfold rs_handle_message. rewrite Ev. unfold wbind at 1, wexec. rewrite Eq. cbn [index nth_error].
        unfold rs_handle_query, wbind, wexec, lookup. rewrite Eq. cbn [index nth_error].
        destruct (perform p env fuel (new_lookup conf (q_node q) (q_type q), w)) as [[r|k|] [l w']]; [|reflexivity|reflexivity].
        eexists. split; [reflexivity|].
        assert (D : p = Debug /\ logs = true /\ 255 < nesting (l_trace l) \/ (p = Release \/ logs = false \/ nesting (l_trace l) <= 255)).
        { destruct p; [|right; now left]. destruct logs; [|right; right; now left]. destruct (Nat.le_gt_cases (nesting (l_trace l)) 255); [right; right; now right|left; now repeat split]. }
        destruct D as [(D1 & D2 & D3)|D].
        * left. split; [|now repeat split]. unfold log_trace. destruct (l_trace l) as [|t ts] eqn:Et; [cbn in D3; lia|]. rewrite D1, D2.
          destruct (C83_deep_traces _ D3) as (-> & _). cbn [bind]. eexists. reflexivity.
        * right. destruct (log_trace_ok p logs (l_trace l) D) as (o & ->). split; [reflexivity|]. intros (D1 & D2 & D3). destruct D as [D|[D|D]]; [congruence|congruence|lia].
    - right. split; [intros q Hv; apply a_query_asks in Hv as (Hv & _); congruence|]. right. unfold rs_handle_message. rewrite Ev. reflexivity.
  Qed.

  Lemma rs_transport : forall (enc : message -> exec (list N)) (fit : list question -> Prop) m, is_bytes m -> fit [] ->
    (forall r, encodable_message p r -> exists u, enc r = Done u) ->
    (forall h e, h_op h <> OP_STD \/ some_count h -> exists k, enc (rs_handle_decode_err h e) = Panic k) ->
    (forall qs r, missing qs r -> (fit qs /\ exists k, enc r = Panic k) \/ (~ fit qs /\ exists u, enc r = Done u)) ->
    ((exists k, fst (rs_serve p logs env fuel conf (read_message p m) enc w) = Panic k) <-> rs_crashes p logs env fuel conf w fit m) /\
    (fst (rs_serve p logs env fuel conf (read_message p m) enc w) = Diverge <-> rs_hangs p env fuel conf w m) /\
    (fst (rs_serve p logs env fuel conf (read_message p m) enc w) = Done None <-> dropped m) /\
    ((forall req q, decode_message p m = Done (Ok req) -> ~ a_query req q) -> snd (rs_serve p logs env fuel conf (read_message p m) enc w) = w).
  Proof.
    intros enc fit m Hm Hfit Henc Herr Hmis.
    assert (Hread : dropped m -> exists e, decode_message p m = Done (Err e)).
    { intros Hd. destruct (unreadable p m Hm) as (a & b & X); [intros h (Hh & rest & Er); exact (Hd h rest Hh Er)|].
      unfold read_message in X. destruct (decode_message p m) as [[req|e]|kd|]; cbn [bind] in X; try discriminate. now exists e. }
    unfold rs_serve, read_message.
    destruct (decode_message p m) as [[req|e]|kd|] eqn:E; cbn [bind].
    2:{ destruct (C14_decode_total m Hm) as (rh & Eh). rewrite Eh. cbn [bind]. destruct rh as [h|he]; unfold rs_handle_request, wbind, wret, wexec.
        - destruct (Herr h e (decode_err_hollow p m e h Hm E Eh)) as (k & Ek). rewrite Ek. cbn [fst snd]. 
          apply C14_decode_header in Eh as (Hh & rest & Er); [|exact Hm]. split; [|split; [|split]].
          + split; [intros _; eapply rc_error; [exact Hh|exact Er|exact E]|intros _; now exists k].
          + split; [discriminate|]. intros [X|req q s X _ _]; congruence.
          + split; [discriminate|]. intros Hd. now destruct (Hd h rest Hh).
          + reflexivity.
        - cbn [fst snd].
          assert (Hd : dropped m). { intros h rest Hh Er. assert (Y : decode_header_bytes m = Done (Ok h)) by (apply C14_decode_header; [exact Hm|]; split; [exact Hh|now exists rest]). congruence. }
          split; [|split; [|split]].
          + split; [intros (k & X); discriminate|]. intros [kd X|h e' rest Hh Er X|req X _ _|req q k s X _ _|req q r l w' X _ _ _ _ _]; try congruence. now destruct (Hd h rest Hh).
          + split; [discriminate|]. intros [X|req q s X _ _]; congruence.
          + split; [intros _; exact Hd|reflexivity].
          + reflexivity. }
    2:{ unfold wbind, wexec. cbn [fst snd]. split; [|split; [|split]].
        - split; [intros _; eapply rc_decoder; exact E|intros _; now exists kd].
        - split; [discriminate|]. intros [X|req q s X _ _]; congruence.
        - split; [discriminate|]. intros Hd. destruct (Hread Hd) as (e & X). congruence.
        - reflexivity. }
    2:{ unfold wbind, wexec. cbn [fst snd]. split; [|split; [|split]].
        - split; [intros (k & X); discriminate|]. intros [kd X|h e' rest Hh Er X|req X _ _|req q k s X _ _|req q r l w' X _ _ _ _ _]; congruence.
        - split; [intros _; now apply rh_decoder|reflexivity].
        - split; [discriminate|]. intros Hd. destruct (Hread Hd) as (e & X). congruence.
        - reflexivity. }
    assert (Hsome : dropped m -> False) by (intros Hd; destruct (Hread Hd) as (e & X); congruence).
    assert (Hreq : forall x, Done (Ok req) = Done (Ok x) :> exec (result message msg_err) -> x = req) by congruence.
    clear Hread. unfold rs_handle_request, wbind, wret, wexec.
    pose proof (fewer_questions p m req E) as Hle.
    pose proof (C20_decoded_is_supported p m req Hm E) as (Ho & Hq & _).
    destruct (handled m req Hm E) as [(q & Hv & Hh)|(Hnv & [(Eq & Hqd & Hh)|Hh])].
    - assert (Hlen : N.of_nat (length (m_questions req)) = h_qd (m_header req)) by (destruct Hv as (_ & -> & _ & _ & ->); reflexivity).
      assert (Hu : forall q', a_query req q' -> q' = q) by (intros q' (_ & _ & _ & _ & X); destruct Hv as (_ & _ & _ & _ & Y); congruence).
      destruct (lookup p env fuel conf q w) as [[r|k|] [l w']] eqn:El.
      + destruct Hh as (o & Hh & [((k & ->) & D1 & D2 & D3)|(-> & D)]); rewrite Hh; cbn [fst snd].
        * split; [|split; [|split]].
          -- split; [intros _; eapply rc_trace; eassumption|intros _; now exists k].
          -- split; [discriminate|]. intros [X|req' q' s X Hv' X']; [congruence|]. rewrite E in X. apply Hreq in X. subst req'. rewrite (Hu q' Hv') in X'. congruence.
          -- split; [discriminate|]. intros Hd. now destruct (Hsome Hd).
          -- intros X. now destruct (X req q eq_refl).
        * destruct (Henc _ (query_reply_encodable m req q r (l, w') Hm E Hv El)) as (u & Eu). rewrite Eu. cbn [fst snd]. split; [|split; [|split]].
          -- split; [intros (k & X); discriminate|]. intros [kd X|h e' rest _ _ X|req' X Hlt _|req' q' k s X Hv' X'|req' q' r' l' w1 X Hv' X' D1 D2 D3]; rewrite E in X; try discriminate X; apply Hreq in X; subst req'.
             ++ lia.
             ++ rewrite (Hu q' Hv') in X'. congruence.
             ++ rewrite (Hu q' Hv') in X'. assert (l' = l) by congruence. subst l'. now destruct D.
          -- split; [discriminate|]. intros [X|req' q' s X Hv' X']; [congruence|]. rewrite E in X. apply Hreq in X. subst req'. rewrite (Hu q' Hv') in X'. congruence.
          -- split; [discriminate|]. intros Hd. now destruct (Hsome Hd).
          -- intros X. now destruct (X req q eq_refl).
      + rewrite Hh. cbn [fst snd]. split; [|split; [|split]].
        * split; [intros _; eapply rc_lookup; eassumption|intros _; now exists k].
        * split; [discriminate|]. intros [X|req' q' s X Hv' X']; [congruence|]. rewrite E in X. apply Hreq in X. subst req'. rewrite (Hu q' Hv') in X'. congruence.
        * split; [discriminate|]. intros Hd. now destruct (Hsome Hd).
        * intros X. now destruct (X req q eq_refl).
      + rewrite Hh. cbn [fst snd]. split; [|split; [|split]].
        * split; [intros (k & X); discriminate|]. intros [kd X|h e' rest _ _ X|req' X Hlt _|req' q' k s X Hv' X'|req' q' r' l' w1 X Hv' X' D1 D2 D3]; rewrite E in X; try discriminate X; apply Hreq in X; subst req'; [lia| |]; rewrite (Hu q' Hv') in X'; congruence.
        * split; [intros _; eapply rh_lookup; eassumption|reflexivity].
        * split; [discriminate|]. intros Hd. now destruct (Hsome Hd).
        * intros X. now destruct (X req q eq_refl).
    - rewrite Hh. cbn [fst snd]. split; [|split; [|split]].
      + split; [|intros _; now exists PIndex]. intros _. eapply rc_skipped; [exact E| |now rewrite Eq]. rewrite Eq, Hqd. cbn. lia.
      + split; [discriminate|]. intros [X|req' q' s X Hv' X']; [congruence|]. rewrite E in X. apply Hreq in X. subst req'. now destruct (Hnv q').
      + split; [discriminate|]. intros Hd. now destruct (Hsome Hd).
      + reflexivity.
    - rewrite Hh.
      destruct (N.eq_dec (h_qd (m_header req)) (N.of_nat (length (m_questions req)))) as [E1|N1].
      + destruct (decoded_questions_encodable p m req Hm E) as (Hqe & _).
        assert (En : encodable_message p (rs_handle_err req RC_FormErr)).
        { unfold encodable_message, rs_handle_err. cbn [m_header m_questions m_answers m_authorities m_additionals].
          cbn [with_counts rs_resp_header h_op h_qd h_an h_ns h_ar]. rewrite E1, Nat2N.id. cbn [length].
          repeat (split; [first [assumption|constructor|lia]|]); lia. }
        destruct (Henc _ En) as (u & Eu). rewrite Eu. cbn [fst snd]. split; [|split; [|split]].
        * split; [intros (k & X); discriminate|]. intros [kd X|h e' rest _ _ X|req' X Hlt _|req' q' k s X Hv' X'|req' q' r' l' w1 X Hv' X' D1 D2 D3]; rewrite E in X; try discriminate X; apply Hreq in X; subst req'; [lia| |]; now destruct (Hnv q').
        * split; [discriminate|]. intros [X|req' q' s X Hv' X']; [congruence|]. rewrite E in X. apply Hreq in X. subst req'. now destruct (Hnv q').
        * split; [discriminate|]. intros Hd. now destruct (Hsome Hd).
        * reflexivity.
      + assert (Hmi : missing (m_questions req) (rs_handle_err req RC_FormErr)).
        { split; [exact Ho|]. split; [reflexivity|]. split; [exact Hq|]. cbn [m_header rs_handle_err h_qd with_counts rs_resp_header]. lia. }
        destruct (Hmis _ _ Hmi) as [(Hf & k & Ek)|(Hf & u & Eu)]; [rewrite Ek|rewrite Eu]; cbn [fst snd]; (split; [|split; [|split]]).
        * split; [|intros _; now exists k]. intros _. eapply rc_skipped; [exact E|lia|exact Hf].
        * split; [discriminate|]. intros [X|req' q' s X Hv' X']; [congruence|]. rewrite E in X. apply Hreq in X. subst req'. now destruct (Hnv q').
        * split; [discriminate|]. intros Hd. now destruct (Hsome Hd).
        * reflexivity.
        * split; [intros (k & X); discriminate|]. intros [kd X|h e' rest _ _ X|req' X Hlt Hf'|req' q' k s X Hv' X'|req' q' r' l' w1 X Hv' X' D1 D2 D3]; rewrite E in X; try discriminate X; apply Hreq in X; subst req'; [contradiction| |]; now destruct (Hnv q').
        * split; [discriminate|]. intros [X|req' q' s X Hv' X']; [congruence|]. rewrite E in X. apply Hreq in X. subst req'. now destruct (Hnv q').
        * split; [discriminate|]. intros Hd. now destruct (Hsome Hd).
        * reflexivity.
  Qed.
End Serve.

(** The resolver, whatever servers it talks to and whatever it has cached (both may hold any
    well-formed data): a datagram panics its worker exactly if its first 512 bytes are such a
    request, and a TCP request exactly if it is one (whether the questions fit into 512 bytes
    does not matter there); it hangs, and is left without a reply, exactly in the cases of
    [rs_hangs] and [dropped]; in all others a reply is sent. What is no query does not touch
    the cache or the network. *)
Theorem C89_exactly_which_requests_crash : forall p logs env fuel conf w,
  env_ok plain_record env -> cache_ok plain_record (ev_now (env (w_n w))) (w_cache w) ->
  (forall l, is_bytes l ->
     ((exists k, fst (rs_serve_udp p logs env fuel conf l w) = Panic k) <-> rs_crashes p logs env fuel conf w questions_fit (firstn 512 l)) /\
     (fst (rs_serve_udp p logs env fuel conf l w) = Diverge <-> rs_hangs p env fuel conf w (firstn 512 l)) /\
     (fst (rs_serve_udp p logs env fuel conf l w) = Done None <-> dropped (firstn 512 l)) /\
     ((forall req q, decode_message p (firstn 512 l) = Done (Ok req) -> ~ a_query req q) -> snd (rs_serve_udp p logs env fuel conf l w) = w)) /\
  (forall m rest, is_bytes m -> (N.of_nat (length m) < 65536)%N ->
     ((exists k, fst (rs_serve_tcp p logs env fuel conf (on_tcp m ++ rest) w) = Panic k) <-> rs_crashes p logs env fuel conf w (fun _ => True) m) /\
     (fst (rs_serve_tcp p logs env fuel conf (on_tcp m ++ rest) w) = Diverge <-> rs_hangs p env fuel conf w m) /\
     (fst (rs_serve_tcp p logs env fuel conf (on_tcp m ++ rest) w) = Done None <-> dropped m) /\
     ((forall req q, decode_message p m = Done (Ok req) -> ~ a_query req q) -> snd (rs_serve_tcp p logs env fuel conf (on_tcp m ++ rest) w) = w)).
Proof.
  intros p logs env fuel conf w EO Hw. split.
  - intros l Hb. unfold rs_serve_udp, udp_read, MAX_UDP_LEN_BYTES.
    apply (rs_transport p logs env fuel conf w EO Hw (udp_reply p) questions_fit (firstn 512 l)); [now apply is_bytes_firstn|apply Nat.leb_le; reflexivity| | |].
    + intros r Hr. destruct (reply_both p r Hr) as (u & t & Eu & _). now exists u.
    + intros h e Hh. unfold udp_reply, rs_handle_decode_err. set (code := match inner_err e with PE_UnsupportedOpCode _ => _ | _ => _ end). clearbody code.
      destruct (trunc_hollow p (rs_resp_header h code)) as (k & Ek); [exact Hh|]. rewrite Ek. now exists k.
    + intros qs r Hr. now apply missing_udp.
  - intros m rest Hb Hlen. unfold rs_serve_tcp. rewrite C38_request_framing by assumption.
    apply (rs_transport p logs env fuel conf w EO Hw (tcp_reply p) (fun _ => True) m); [assumption|exact Logic.I| | |].
    + intros r Hr. destruct (reply_both p r Hr) as (u & t & _ & Et). now exists t.
    + intros h e Hh. unfold tcp_reply, rs_handle_decode_err. set (code := match inner_err e with PE_UnsupportedOpCode _ => _ | _ => _ end). clearbody code.
      destruct (encode_hollow p (rs_resp_header h code)) as (k & Ek); [exact Hh|]. rewrite Ek. now exists k.
    + intros qs r Hr. left. split; [exact Logic.I|]. now apply (missing_tcp p qs).
Qed.
Print Assumptions C89_exactly_which_requests_crash.

(** Requests to a resolver: a query (which panics where a server sends a bad packet), one cut
    off, one with a pointer into the void, two questions, one of them of unknown type (28,
    AAAA), and one that asks a name of 240 bytes three times (by pointers) next to one of
    unknown type; four bytes. *)
Theorem C89_nonvacuous : forall p lg,
  (env_ok plain_record env_nope /\ env_ok plain_record env_bad /\ forall env, cache_ok plain_record (ev_now (env (w_n world0))) (w_cache world0)) /\
  Forall (fun l => is_bytes l /\ length l <= 512) [nope_request; two_questions (s2b "nope.org."); pkt_cut; pkt_void; pkt_big; [0; 7; 1; 0]%N] /\
  (~ rs_crashes p lg env_nope 6 conf0 world0 questions_fit nope_request /\ exists r w', rs_serve_udp p lg env_nope 6 conf0 nope_request world0 = (Done (Some r), w')) /\
  (rs_crashes p lg env_bad 6 conf0 world0 questions_fit nope_request /\ fst (rs_serve_udp p lg env_bad 6 conf0 nope_request world0) = Panic PExplicit) /\
  Forall (rs_crashes p lg env_nope 6 conf0 world0 questions_fit) [two_questions (s2b "nope.org."); pkt_cut; pkt_void] /\
  (~ rs_crashes p lg env_nope 6 conf0 world0 questions_fit pkt_big /\ rs_crashes p lg env_nope 6 conf0 world0 (fun _ => True) pkt_big) /\
  dropped [0; 7; 1; 0]%N.
Proof.
  intros p lg.
  assert (H0 : env_ok plain_record env_nope).
  { destruct C61_nonvacuous as ([A B C D _] & _). split; [exact A|exact B|exact C|exact D|]. intros n c Hc. exact Hc. }
  assert (H1 : env_ok plain_record env_bad) by apply C61_refuted_bad_packet.
  assert (Hc : forall env, cache_ok plain_record (ev_now (env (w_n world0))) (w_cache world0)) by (intros env; apply world0_ok).
  assert (Hall : Forall (fun l => is_bytes l /\ length l <= 512) [nope_request; two_questions (s2b "nope.org."); pkt_cut; pkt_void; pkt_big; [0; 7; 1; 0]%N]).
  { assert (X : forallb (fun l => forallb (fun b => (b <? 256)%N) l && (length l <=? 512)) [nope_request; two_questions (s2b "nope.org."); pkt_cut; pkt_void; pkt_big; [0; 7; 1; 0]%N] = true) by (vm_compute; reflexivity).
    rewrite forallb_forall in X. apply Forall_forall. intros l Hin. apply X, Bool.andb_true_iff in Hin as (X1 & X2). split; [|now apply Nat.leb_le].
    rewrite forallb_forall in X1. apply Forall_forall. intros b Hb. apply X1, N.ltb_lt in Hb. exact Hb. }
  destruct (C89_exactly_which_requests_crash p lg env_nope 6 conf0 world0 H0 (Hc _)) as (U & T).
  destruct (C89_exactly_which_requests_crash p lg env_bad 6 conf0 world0 H1 (Hc _)) as (V & _).
  assert (U' : forall l, is_bytes l /\ length l <= 512 -> (exists k, fst (rs_serve_udp p lg env_nope 6 conf0 l world0) = Panic k) <-> rs_crashes p lg env_nope 6 conf0 world0 questions_fit l).
  { intros l (X1 & X2). destruct (U l X1) as (X & _). now rewrite firstn_all2 in X by assumption. }
  split; [split; [exact H0|]; split; [exact H1|exact Hc]|]. split; [exact Hall|].
  pose proof (Forall_inv Hall) as L1. pose proof (Forall_inv_tail Hall) as A1. pose proof (Forall_inv A1) as L2. pose proof (Forall_inv_tail A1) as A2.
  pose proof (Forall_inv A2) as L3. pose proof (Forall_inv_tail A2) as A3. pose proof (Forall_inv A3) as L4. pose proof (Forall_inv_tail A3) as A4.
  pose proof (Forall_inv A4) as L5. pose proof (Forall_inv_tail A4) as A5. pose proof (Forall_inv A5) as L6. cbv beta in L1, L2, L3, L4, L5, L6.
  split; [split|].
  - intros X. apply U' in X; [|exact L1]. revert X. apply panicked_no. destruct p, lg; vm_compute; reflexivity.
  - destruct p, lg; eexists _, _; vm_compute; reflexivity.
  - assert (Hbad : fst (rs_serve_udp p lg env_bad 6 conf0 nope_request world0) = Panic PExplicit) by (destruct p, lg; vm_compute; reflexivity).
    split; [split; [|exact Hbad]|].
    + destruct L1 as (X1 & X2). destruct (V nope_request X1) as (X & _). rewrite firstn_all2 in X by exact X2. apply X. now exists PExplicit.
    + split; [|split; [split|]].
      * constructor; [|constructor; [|constructor; [|constructor]]].
        -- apply U'; [exact L2|]. apply panicked_ok. destruct p, lg; vm_compute; reflexivity.
        -- apply U'; [exact L3|]. apply panicked_ok. destruct p, lg; vm_compute; reflexivity.
        -- apply U'; [exact L4|]. apply panicked_ok. destruct p, lg; vm_compute; reflexivity.
      * intros X. apply U' in X; [|exact L5]. revert X. apply panicked_no. destruct p, lg; vm_compute; reflexivity.
      * destruct L5 as (X1 & X2). destruct (T pkt_big [] X1) as (X & _); [apply N.ltb_lt; vm_compute; reflexivity|]. apply X.
        apply panicked_ok. destruct p, lg; vm_compute; reflexivity.
      * destruct L6 as (X1 & X2). destruct (U _ X1) as (_ & _ & X & _). rewrite firstn_all2 in X by exact X2. apply X. destruct p, lg; vm_compute; reflexivity.
Qed.
Print Assumptions C89_nonvacuous.
