(** Property C87: exactly which requests crash the name server. *)
From Verif Require Import Base Buffer BufferSpec BufferProofs Reader Types Name NameSpec NameProofs NamePathSpec Codec CodecSpec CodecWrite CodecMessage CodecFacts
  Zone ZoneSpec NsSpec NsHandler CrashSpec EncodeTotal PropCodec1 PropCodec2 PropCodec3 PropCodec4 PropNs PropNs2.

Lemma section_at_most : forall A (dec : M A) mk n i b l b', decode_section dec mk i n b = Done (Ok l, b') -> length l <= n.
Proof.
  intros A dec mk n. induction n as [|n IH]; intros i b l b'; cbn [decode_section]; [intros [= <- _]; cbn; lia|].
  destruct (dec b) as [[[v|e] b1]|kd|]; cbn [bind]; [| |discriminate|discriminate].
  - destruct (decode_section dec mk (S i) n b1) as [[[vs|e] b2]|kd|] eqn:E; cbn [bind]; try discriminate. intros [= <- _]. apply IH in E. cbn [length]. lia.
  - destruct e; try discriminate. intros E. apply IH in E. lia.
Qed.
Lemma fewer_questions : forall p m req, decode_message p m = Done (Ok req) -> (N.of_nat (length (m_questions req)) <= h_qd (m_header req))%N.
Proof.
  intros p m req. unfold decode_message. destruct (decode_header (from_raw_bytes m)) as [[[h|e] b0]|kd|]; cbn [bind]; try discriminate.
  destruct (header_is_supported h) as [u|e]; [|discriminate].
  destruct (decode_section (decode_question p) ME_Question 0 (N.to_nat (h_qd h)) b0) as [[[qs|e] b1]|kd|] eqn:Eq; cbn [bind]; try discriminate.
  apply section_at_most in Eq.
  destruct (decode_section (decode_record p) ME_Answer 0 (N.to_nat (h_an h)) b1) as [[[ans|e] b2]|kd|]; cbn [bind]; try discriminate.
  destruct (decode_section (decode_record p) ME_Authority 0 (N.to_nat (h_ns h)) b2) as [[[aus|e] b3]|kd|]; cbn [bind]; try discriminate.
  destruct (decode_section (decode_record p) ME_Additional 0 (N.to_nat (h_ar h)) b3) as [[[ads|e] b4]|kd|]; cbn [bind]; try discriminate.
  intros [= <-]. cbn [m_questions m_header]. lia.
Qed.

Lemma name_wire_length : forall n, length (name_wire n) = S (length n).
Proof.
  unfold name_wire. induction n as [|c s IH]; cbn [split]; [reflexivity|]. destruct (c =? DOT)%N.
  - cbn [flat_map length app]. rewrite IH. reflexivity.
  - destruct (split DOT s) as [|h t] eqn:E; [now apply split_nonempty in E|].
    cbn [flat_map length app] in *. rewrite !app_length in *. cbn [length] in *. lia.
Qed.
Definition fine_q (q : question) : Prop := accepted (q_node q) /\ q_class q = C_IN /\ usable_type (q_type q).
Lemma question_written : forall p q, fine_q q -> exists w, appends (encode_question p q) (Done (Ok w)) /\ length w = question_size q.
Proof.
  intros p q (Hn & Hc & Ht).
  exists (name_wire (q_node q) ++ be16 (rtype_to_num (q_type q)) ++ be16 (class_to_num (q_class q))). split.
  - assert (E : question_outcome p q = Done (Ok (name_wire (q_node q) ++ be16 (rtype_to_num (q_type q)) ++ be16 (class_to_num (q_class q))))).
    { unfold question_outcome. rewrite Hc. cbn [class_supported]. apply usable_supported in Ht. rewrite Ht, accepted_debug by assumption. reflexivity. }
    rewrite <- E. apply appends_question. now apply accepted_bytes.
  - rewrite !app_length, name_wire_length. unfold question_size. cbn [be16 length]. lia.
Qed.

(** Fewer questions than announced: the plain encoder panics, the truncating one unless it
    stops before. *)
Lemma section_missing : forall p qs, Forall fine_q qs -> forall n i l, is_bytes l -> i <= length qs -> length qs < i + n ->
  encode_section (encode_question p) ME_Question qs i n (at_ l 0) = Panic PIndex.
Proof.
  intros p qs Hq n. induction n as [|n IH]; intros i l Hl Hi Hn; [lia|]. cbn [encode_section]. unfold index.
  destruct (nth_error qs i) as [q|] eqn:E; [|reflexivity]. cbn [bind].
  destruct (question_written p q) as (w & (Hw & Ha) & _); [eapply nth_error_Forall; eassumption|]. rewrite (Ha l 0 Hl ltac:(lia)). cbn [bind].
  assert (i < length qs) by (apply nth_error_Some; congruence). apply IH; [apply is_bytes_app; now split|lia|lia].
Qed.
Lemma sum_skip : forall qs i q, nth_error qs i = Some q -> list_sum (map question_size (skipn i qs)) = question_size q + list_sum (map question_size (skipn (S i) qs)).
Proof.
  induction qs as [|a qs IH]; intros [|i] q E; try discriminate.
  - injection E as ->. reflexivity.
  - cbn [skipn]. now rewrite (IH i q E).
Qed.
Lemma trunc_missing : forall p qs bump, Forall fine_q qs -> (forall h, h_op (bump h) = h_op h) -> forall n i h l, is_bytes l -> 12 <= length l <= 512 -> i <= length qs -> length qs < i + n -> h_op h = OP_STD ->
  (length l + list_sum (map question_size (skipn i qs)) <= 512 /\ trunc_section (encode_question p) ME_Question bump qs i n h (at_ l 0) = Panic PIndex) \/
  (512 < length l + list_sum (map question_size (skipn i qs)) /\ exists out, trunc_section (encode_question p) ME_Question bump qs i n h (at_ l 0) = Done (Ok (TReturn out))).
Proof.
  intros p qs bump Hq Hb n. induction n as [|n IH]; intros i h l Hl H12 Hi Hn Ho; [lia|]. cbn [trunc_section]. unfold index.
  destruct (nth_error qs i) as [q|] eqn:E.
  2:{ left. split; [|reflexivity]. apply nth_error_None in E. rewrite skipn_all2 by assumption. cbn. lia. }
  cbn [bind]. rewrite (sum_skip _ _ _ E).
  destruct (question_written p q) as (w & (Hw & Ha) & Lw); [eapply nth_error_Forall; eassumption|]. rewrite (Ha l 0 Hl ltac:(lia)). cbn [bind].
  assert (i < length qs) by (apply nth_error_Some; congruence).
  assert (Hlw : is_bytes (l ++ w)) by (apply is_bytes_app; now split).
  assert (Llw : length (l ++ w) = length l + question_size q) by (rewrite app_length; lia).
  assert (Ew : write_pos (at_ (l ++ w) 0) / 8 = length (l ++ w)) by (unfold write_pos; cbn [at_ w_pos]; replace (8 * length (l ++ w)) with (length (l ++ w) * 8) by lia; apply Nat.div_mul; lia).
  rewrite Ew. unfold MAX_UDP_LEN_BYTES. destruct (Nat.ltb_spec 512 (length (l ++ w))) as [H5|H5].
  - right. split; [lia|]. destruct (overwrite_header (with_tc h) (l ++ w)) as (b2 & b3 & E1 & E2 & _); [change (h_op (with_tc h)) with (h_op h); now rewrite Ho|assumption|lia|].
    rewrite E1. cbn [bind]. rewrite E2. cbn [bind]. eexists. reflexivity.
  - destruct (IH (S i) (bump h) (l ++ w) Hlw ltac:(lia) ltac:(lia) ltac:(lia) ltac:(rewrite Hb; exact Ho)) as [(S1 & S2)|(S1 & S2)]; [left|right]; (split; [lia|exact S2]).
Qed.

Definition missing (qs : list question) (m : message) : Prop :=
  h_op (m_header m) = OP_STD /\ m_questions m = qs /\ Forall fine_q qs /\ (N.of_nat (length qs) < h_qd (m_header m))%N.
Lemma missing_tcp : forall p qs m, missing qs m -> exists k, tcp_reply p m = Panic k.
Proof.
  intros p qs m (Ho & Eq & Hq & Hn). unfold tcp_reply, encode_message. rewrite encode_header_new_raw by now rewrite Ho. cbn [bind]. rewrite Eq.
  destruct (raw_header_props (m_header m)) as (Hr & _). rewrite section_missing; [eexists; reflexivity|assumption|assumption|lia|lia].
Qed.
Lemma missing_udp : forall p qs m, missing qs m -> (questions_fit qs /\ exists k, udp_reply p m = Panic k) \/ (~ questions_fit qs /\ exists u, udp_reply p m = Done u).
Proof.
  intros p qs m (Ho & Eq & Hq & Hn). unfold udp_reply. rewrite trunc_is_from. unfold trunc_from. cbv zeta. rewrite Eq.
  destruct (trunc_missing p qs bump_qd Hq (fun h => eq_refl) (N.to_nat (h_qd (m_header m))) 0 (with_counts (m_header m) 0 0 0 0) (repeat 0%N 12)) as [(S1 & S2)|(S1 & out & S2)];
    [apply zeros_bytes|rewrite repeat_length; lia|lia|lia|exact Ho| |]; rewrite S2; cbn [bindT bindR bind].
  - left. split; [unfold questions_fit; rewrite repeat_length in S1; exact S1|eexists; reflexivity].
  - right. split; [unfold questions_fit; rewrite repeat_length in S1; cbn [skipn] in S1; lia|eexists; reflexivity].
Qed.

Section Serve.
  Context (p : profile) (zs : managed) (sd : server_data) (Hs : serves zs sd) (Hl : zone_loaded sd) (Hsh : all_short sd).

  Lemma answered_cases : forall q, accepted (q_node q) ->
    answered sd q \/ ~ within (q_node q) (d_apex (s_auth sd)) \/
    (within (q_node q) (d_apex (s_auth sd)) /\ in_no_sub sd (q_node q) /\ wanted (q_node q) (q_type q) (d_records (s_auth sd)) = []).
  Proof.
    intros q Hq. pose proof Hl as (Hap & _). destruct (is_in_zone (q_node q) (d_apex (s_auth sd))) eqn:Ein.
    2:{ right. left. apply within_false in Ein; [exact Ein|assumption|apply Hap]. }
    apply within_ok in Ein; [|assumption|apply Hap]. pose proof (find_subzone_spec (q_node q) zs sd Hq Hs Hap) as F. destruct (find_subzone _ _) as [s|].
    - left. split; [exact Ein|]. left. destruct F as (d & Hd & _). now exists d.
    - destruct (wanted (q_node q) (q_type q) (d_records (s_auth sd))) as [|w ws] eqn:Ew; [right; right; now split|left]. split; [exact Ein|]. right. split; [exact F|rewrite Ew; discriminate].
  Qed.

  (** A decoded request: a reply that can be encoded, or one with questions missing. *)
  Lemma replies : forall m req, is_bytes m -> decode_message p m = Done (Ok req) ->
    exists reply, handle_message p zs req = Done reply /\
    ((encodable_message p reply /\ ((N.of_nat (length (m_questions req)) < h_qd (m_header req))%N -> exists q, valid_query req q /\ answered sd q)) \/
     (missing (m_questions req) reply /\ (N.of_nat (length (m_questions req)) < h_qd (m_header req))%N /\ forall q, valid_query req q -> ~ answered sd q)).
  Proof.
    intros m req Hm E. pose proof (fewer_questions p m req E) as Hle.
    pose proof (C20_decoded_is_supported p m req Hm E) as (Ho & Hq & _).
    destruct (decoded_questions_encodable p m req Hm E) as (Hqe & _).
    destruct (validate_dns_request req) as [q|] eqn:Ev.
    - apply valid_spec in Ev as Hv. pose proof Hv as (_ & _ & _ & Eq).
      assert (Fq : fine_q q) by (rewrite Eq in Hq; now inversion Hq). destruct Fq as (Q1 & Q2 & Q3).
      destruct (N.eq_dec (h_qd (m_header req)) 1) as [E1|N1].
      + destruct (valid_query_reply_encodable p zs sd req q Hs Hl Hsh Hv Q1 Q2 Q3 Ho E1) as (reply & Em & En). exists reply. split; [exact Em|]. left. split; [exact En|].
        rewrite Eq, E1. cbn [length]. intros X. lia.
      + assert (Hlt : (N.of_nat (length (m_questions req)) < h_qd (m_header req))%N) by (rewrite Eq in *; cbn [length] in *; lia).
        assert (Hu : forall q', valid_query req q' -> q' = q) by (intros q' (_ & _ & _ & Eq'); congruence).
        pose proof (question_encodable p q Q1 Q2 Q3) as Hqe1. pose proof Hl as (Hap & Hsoa & Hns & Hfa & Hfs & Htidy). destruct Hsh as (Hsa & Hss).
        pose proof (fine_short p _ Hfa Hsa) as Hea.
        assert (Hes : Forall (fun d => Forall (encodable_r p) (d_records d)) (s_subs sd)).
        { rewrite Forall_forall in *. intros d Hd. apply fine_short; auto. }
        destruct (answered_cases q Q1) as [(Hin & [(d & Hd)|(Hno & Hw)])|[Hout|(Hin & Hno & Hw)]].
        * destruct (C30_sub_zone_is_delegated p zs sd req q d) as (r & Er & Sr & C & M); try assumption.
          exists r. split; [assumption|]. left. split; [|intros _; exists q; split; [exact Hv|]; split; [exact Hin|left; now exists d]]. eapply counts_encodable; eauto.
          -- apply owned_sub. exact (Forall_first_sub _ _ _ _ Hes Hd).
          -- apply Forall_flat_map. apply Forall_forall. intros n _. unfold glue. apply Forall_flat_map.
             eapply Forall_impl; [|exact Hes]. intros d' Hd'. now apply owned_sub.
        * destruct (C31_authoritative_answer p zs sd req q) as (r & Er & Sr & C & M); try assumption.
          exists r. split; [assumption|]. left. split; [|intros _; exists q; split; [exact Hv|]; split; [exact Hin|right; now split]]. eapply counts_encodable; eauto.
          unfold wanted in *. pose proof (owned_sub (q_node q) (q_type q) _ _ Hea) as W1. pose proof (owned_sub (q_node q) RT_CNAME _ _ Hea) as W2.
          destruct (owned (q_node q) (q_type q) _); assumption.
        * destruct (C29_outside_is_refused p zs sd req q) as (r & Er & Sr & (C1 & _) & M); try assumption.
          exists r. split; [assumption|]. right. destruct M as (_ & Mo & _ & _ & _ & _ & Mq). split; [split; [now rewrite Mo|]; split; [exact Mq|]; split; [exact Hq|now rewrite C1]|].
          split; [exact Hlt|]. intros q' Hv' (X & _). rewrite (Hu q' Hv') in X. contradiction.
        * destruct (C32_negative_answer p zs sd req q) as (r & soa & _ & Er & Sr & (C1 & _) & M); try assumption.
          exists r. split; [assumption|]. right. destruct M as (_ & Mo & _ & _ & _ & _ & Mq). split; [split; [now rewrite Mo|]; split; [exact Mq|]; split; [exact Hq|now rewrite C1]|].
          split; [exact Hlt|]. intros q' Hv' (_ & [(d & pre & post & X1 & X2 & _)|(_ & X)]); rewrite (Hu q' Hv') in *; [|contradiction].
          unfold in_no_sub in Hno. rewrite Forall_forall in Hno. apply (Hno d); [rewrite X1; apply in_app_iff; right; now left|exact X2].
    - assert (Em : handle_message p zs req = Done (handle_err req RC_FormErr)) by (unfold handle_message; now rewrite Ev).
      exists (handle_err req RC_FormErr). split; [exact Em|].
      assert (Hnv : forall q, ~ valid_query req q) by (intros q Hv; apply valid_spec in Hv; congruence).
      destruct (N.eq_dec (h_qd (m_header req)) (N.of_nat (length (m_questions req)))) as [E1|N1].
      + left. split; [|intros X; lia]. unfold encodable_message, handle_err. cbn [m_header m_questions m_answers m_authorities m_additionals].
        cbn [h_op h_qd h_an h_ns h_ar with_counts set_aa resp_header]. split; [exact Ho|]. split; [exact Hqe|]. split; [constructor|]. split; [constructor|]. split; [constructor|].
        cbn [length]. lia.
      + right. split; [|split; [lia|intros q Hv; now apply Hnv in Hv]]. split; [exact Ho|]. split; [reflexivity|]. split; [exact Hq|]. cbn [m_header handle_err h_qd with_counts set_aa resp_header]. lia.
  Qed.

  (** From bytes to the outcome, whatever the transport. *)
  Lemma transport : forall (enc : message -> exec (list N)) (fit : list question -> Prop) m, is_bytes m ->
    (forall r, encodable_message p r -> exists u, enc r = Done u) ->
    (forall h e, h_op h <> OP_STD \/ some_count h -> exists k, enc (handle_decode_err h e) = Panic k) ->
    (forall qs r, missing qs r -> (fit qs /\ exists k, enc r = Panic k) \/ (~ fit qs /\ exists u, enc r = Done u)) ->
    let served := (let! r := read_message p m in let! a := handle_dns_request p zs r in match a with None => Done None | Some x => let! l := enc x in Done (Some l) end) in
    ((exists k, served = Panic k) <-> crashes p sd fit m) /\ (served = Diverge <-> decode_message p m = Diverge).
  Proof.
    intros enc fit m Hm Henc Herr Hmis. cbv zeta. unfold read_message.
    destruct (decode_message p m) as [[req|e]|kd|] eqn:E; cbn [bind].
    - destruct (replies m req Hm E) as (reply & Em & [(En & Hans)|(Hmi & Hlt & Hno)]); cbn [handle_dns_request]; rewrite Em; cbn [bind].
      + destruct (Henc reply En) as (u & Eu). rewrite Eu. cbn [bind]. split; [|split; discriminate]. split; [intros (k & X); discriminate|].
        intros [kd X|h e rest _ _ X|req' X Hlt _ Hno]; rewrite E in X; try discriminate. injection X as <-. destruct (Hans Hlt) as (q & Hv & Ha). exfalso. now apply (Hno q Hv).
      + destruct (Hmis _ _ Hmi) as [(Hf & k & Ek)|(Hf & u & Eu)]; [rewrite Ek|rewrite Eu]; cbn [bind].
        * split; [|split; discriminate]. split; [intros _; eapply cr_skipped; eassumption|intros _; eexists; reflexivity].
        * split; [|split; discriminate]. split; [intros (k & X); discriminate|]. intros [kd X|h e rest _ _ X|req' X _ Hf' _]; rewrite E in X; try discriminate. injection X as <-. contradiction.
    - destruct (C14_decode_total m Hm) as (rh & Eh). rewrite Eh. cbn [bind]. destruct rh as [h|he]; cbn [handle_dns_request bind].
      + destruct (Herr h e (decode_err_hollow p m e h Hm E Eh)) as (k & Ek). rewrite Ek. cbn [bind]. split; [|split; discriminate]. split; [|intros _; eexists; reflexivity].
        intros _. apply C14_decode_header in Eh as (Hh & rest & Er); [|exact Hm]. eapply cr_error; [exact Hh|exact Er|exact E].
      + split; [|split; discriminate]. split; [intros (k & X); discriminate|]. intros [kd X|h e' rest Hh Er X|req' X _ _ _]; rewrite E in X; try discriminate.
        assert (Y : decode_header_bytes m = Done (Ok h)) by (apply C14_decode_header; [exact Hm|]; split; [exact Hh|now exists rest]). congruence.
    - split; [|split; discriminate]. split; [intros _; eapply cr_decoder; exact E|intros _; eexists; reflexivity].
    - split; [|split; reflexivity]. split; [intros (k & X); discriminate|]. intros [kd X|h e' rest Hh Er X|req' X _ _ _]; rewrite E in X; discriminate.
  Qed.
End Serve.

(** A name server with loaded zones (whose character strings are not over-long): a datagram
    panics its worker exactly if its first 512 bytes are such a request, and a TCP request
    exactly if it is one (whether the questions fit into 512 bytes does not matter there).
    Nothing hangs but the decoder. *)
Theorem C87_exactly_which_requests_crash : forall p zs sd, serves zs sd -> zone_loaded sd -> all_short sd ->
  (forall l, is_bytes l ->
     ((exists k, serve_udp p zs l = Panic k) <-> crashes p sd questions_fit (firstn 512 l)) /\
     (serve_udp p zs l = Diverge <-> decode_message p (firstn 512 l) = Diverge)) /\
  (forall m rest, is_bytes m -> (N.of_nat (length m) < 65536)%N ->
     ((exists k, serve_tcp p zs (on_tcp m ++ rest) = Panic k) <-> crashes p sd (fun _ => True) m) /\
     (serve_tcp p zs (on_tcp m ++ rest) = Diverge <-> decode_message p m = Diverge)).
Proof.
  intros p zs sd Hs Hl Hsh. split.
  - intros l Hb. unfold serve_udp, udp_read, MAX_UDP_LEN_BYTES.
    apply (transport p zs sd Hs Hl Hsh (udp_reply p) questions_fit (firstn 512 l)); [now apply is_bytes_firstn| | |].
    + intros r Hr. destruct (reply_both p r Hr) as (u & t & Eu & _). now exists u.
    + intros h e Hh. unfold udp_reply, handle_decode_err. set (code := match inner_err e with PE_UnsupportedOpCode _ => _ | _ => _ end). clearbody code.
      destruct (trunc_hollow p (resp_header h code)) as (k & Ek); [exact Hh|]. rewrite Ek. now exists k.
    + intros qs r Hr. now apply missing_udp.
  - intros m rest Hb Hlen. unfold serve_tcp. rewrite C38_request_framing by assumption.
    apply (transport p zs sd Hs Hl Hsh (tcp_reply p) (fun _ => True) m); [assumption| | |].
    + intros r Hr. destruct (reply_both p r Hr) as (u & t & _ & Et). now exists t.
    + intros h e Hh. unfold tcp_reply, handle_decode_err. set (code := match inner_err e with PE_UnsupportedOpCode _ => _ | _ => _ end). clearbody code.
      destruct (encode_hollow p (resp_header h code)) as (k & Ek); [exact Hh|]. rewrite Ek. now exists k.
    + intros qs r Hr. left. split; [exact Logic.I|]. now apply (missing_tcp p qs).
Qed.
Print Assumptions C87_exactly_which_requests_crash.

(** Requests to example.com.'s server: a query, one cut off, one with a pointer into the void,
    a question for a name next to one of unknown type (28, AAAA), and one that asks a name of
    240 bytes three times (by pointers) next to one of unknown type. *)
Definition two_questions (n : name) : list N :=
  wire_items (mkHeader 7 false OP_STD false false true false 0 RC_NoError 2 0 0 0)
    [Q_known (mkQ n RT_A C_IN); Q_unknown (mkUQ (s2b "www.example.com.") 28 1)] [] [] [].
Definition pkt_void : list N := [0; 7; 1; 0; 0; 1; 0; 0; 0; 0; 0; 0; 223; 255; 0; 1; 0; 1]%N.
Definition pkt_big : list N :=
  [0; 7; 1; 0; 0; 4; 0; 0; 0; 0; 0; 0]%N ++ concat (repeat (59%N :: repeat 97%N 59) 4) ++ [0; 0; 1; 0; 1]%N ++
  [192; 12; 0; 1; 0; 1]%N ++ [192; 12; 0; 1; 0; 1]%N ++ [192; 12; 0; 28; 0; 1]%N.
Definition ex_ask : list N := ex_query_bytes (s2b "ns.example.com.") RT_A.
Definition panicked {A} (e : exec A) : bool := match e with Panic _ => true | _ => false end.
Lemma panicked_ok : forall A (e : exec A), panicked e = true -> exists k, e = Panic k.
Proof. intros A [a|k|] H; try discriminate H. now exists k. Qed.
Lemma panicked_no : forall A (e : exec A), panicked e = false -> ~ exists k, e = Panic k.
Proof. intros A [a|k|] H (k' & X); discriminate. Qed.

Theorem C87_nonvacuous : forall p,
  serves ex_zones ex_data /\ zone_loaded ex_data /\ all_short ex_data /\
  Forall (fun l => is_bytes l /\ length l <= 512) [ex_ask; two_questions (s2b "ns.example.com."); two_questions (s2b "nope.example.com."); pkt_cut; pkt_void; pkt_big] /\
  (~ crashes p ex_data questions_fit ex_ask /\ exists r, serve_udp p ex_zones ex_ask = Done (Some r)) /\
  (~ crashes p ex_data questions_fit (two_questions (s2b "ns.example.com.")) /\ exists r, serve_udp p ex_zones (two_questions (s2b "ns.example.com.")) = Done (Some r)) /\
  (crashes p ex_data questions_fit (two_questions (s2b "nope.example.com.")) /\ exists k, serve_udp p ex_zones (two_questions (s2b "nope.example.com.")) = Panic k) /\
  (crashes p ex_data questions_fit pkt_cut /\ crashes p ex_data questions_fit pkt_void) /\
  (~ crashes p ex_data questions_fit pkt_big /\ crashes p ex_data (fun _ => True) pkt_big).
Proof.
  intros p. destruct C37_partial_nonvacuous as (Hs & Hl & Hsh & _).
  assert (Hall : Forall (fun l => is_bytes l /\ length l <= 512) [ex_ask; two_questions (s2b "ns.example.com."); two_questions (s2b "nope.example.com."); pkt_cut; pkt_void; pkt_big]).
  { assert (X : forallb (fun l => forallb (fun b => (b <? 256)%N) l && (length l <=? 512)) [ex_ask; two_questions (s2b "ns.example.com."); two_questions (s2b "nope.example.com."); pkt_cut; pkt_void; pkt_big] = true) by (destruct p; vm_compute; reflexivity).
    rewrite forallb_forall in X. apply Forall_forall. intros l Hin. apply X, Bool.andb_true_iff in Hin as (H1 & H2). split; [|now apply Nat.leb_le].
    rewrite forallb_forall in H1. apply Forall_forall. intros b Hb. apply H1, N.ltb_lt in Hb. exact Hb. }
  destruct (C87_exactly_which_requests_crash p ex_zones ex_data Hs Hl Hsh) as (U & T).
  assert (U' : forall l, is_bytes l /\ length l <= 512 -> (exists k, serve_udp p ex_zones l = Panic k) <-> crashes p ex_data questions_fit l).
  { intros l (H1 & H2). destruct (U l H1) as (X & _). now rewrite firstn_all2 in X by assumption. }
  split; [exact Hs|]. split; [exact Hl|]. split; [exact Hsh|]. split; [exact Hall|].
  pose proof (Forall_inv Hall) as H1. pose proof (Forall_inv_tail Hall) as A1. pose proof (Forall_inv A1) as H2. pose proof (Forall_inv_tail A1) as A2.
  pose proof (Forall_inv A2) as H3. pose proof (Forall_inv_tail A2) as A3. pose proof (Forall_inv A3) as H4. pose proof (Forall_inv_tail A3) as A4.
  pose proof (Forall_inv A4) as H5. pose proof (Forall_inv_tail A4) as A5. pose proof (Forall_inv A5) as H6. cbv beta in H1, H2, H3, H4, H5, H6.
  split; [split|].
  - intros X. apply U' in X; [|exact H1]. revert X. apply panicked_no. destruct p; vm_compute; reflexivity.
  - destruct p; eexists; vm_compute; reflexivity.
  - split; [split|].
    + intros X. apply U' in X; [|exact H2]. revert X. apply panicked_no. destruct p; vm_compute; reflexivity.
    + destruct p; eexists; vm_compute; reflexivity.
    + split; [|split; [split|split]].
      * assert (X : exists k, serve_udp p ex_zones (two_questions (s2b "nope.example.com.")) = Panic k) by (apply panicked_ok; destruct p; vm_compute; reflexivity).
        split; [apply U'; [exact H3|exact X]|exact X].
      * apply U'; [exact H4|]. apply panicked_ok. destruct p; vm_compute; reflexivity.
      * apply U'; [exact H5|]. apply panicked_ok. destruct p; vm_compute; reflexivity.
      * intros X. apply U' in X; [|exact H6]. revert X. apply panicked_no. destruct p; vm_compute; reflexivity.
      * destruct H6 as (Hb & Hlen). destruct (T pkt_big [] Hb) as (X & _); [apply N.ltb_lt; vm_compute; reflexivity|]. apply X.
        apply panicked_ok. destruct p; vm_compute; reflexivity.
Qed.
Print Assumptions C87_nonvacuous.
