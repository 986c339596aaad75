(** C91: lookups of name servers' addresses are nested no deeper than there are zones. *)
From Verif Require Import Base Types Name NameSpec NameProofs Codec CodecSpec CodecFacts PropCodec2 PropNs2 NsSpec Cache Resolver ResolverLists ResolverSpec ResolverInv ResolverRun ResolverFacts ResolverEx PropResolver1 PropResolver2 PropResolver3 PropResolver5
  Trace TraceSpec PropTrace NsHandler RsHandler PropRs ResolverNest NestSpec NestRun LocalSpec LocalSpec2 PropLocal PropLocal2 PropTrace2.

(** However long the run, and whatever its outcome. *)
Theorem C91_not_deeper_than_zones : forall p env conf node kind w fuel Z,
  only_zones p env Z -> cache_ok (known_zones Z) (ev_now (env (w_n w))) (w_cache w) -> accepted node -> usable_type kind ->
  nesting (l_trace (fst (snd (perform p env fuel (new_lookup conf node kind, w))))) <= length Z.
Proof.
  intros p env conf node kind w fuel Z [R E N] Hw Hn Hk. apply (run_nest p env (known_zones Z)); try assumption.
  - now apply zones_class; [apply (eo_bytes _ _ E)| |].
  - apply known_zone.
Qed.
Print Assumptions C91_not_deeper_than_zones.

(** It is enough to know the zones this lookup heard of. *)
Theorem C91_not_deeper_than_zones_heard_of : forall p env conf node kind w fuel o l' w',
  real env -> accepted node -> usable_type kind ->
  perform p env fuel (new_lookup conf node kind, w) = (o, (l', w')) ->
  exists ex, exchanges w w' ex /\ forall Z, heard_zones p env w w' ex Z -> nesting (l_trace l') <= length Z.
Proof.
  intros p env conf node kind w fuel o l' w' R Hn Hk E. destruct (run_confined _ _ _ _ _ _ _ _ E) as (ex & L & X & G). exists ex. split; [exact X|].
  intros Z [HR HC HO HT].
  assert (OZ : only_zones p (confined (w_n w) (w_n w') ex env) Z).
  { split; [exact HR|apply confined_ok; [exact L|exact R|exact HO]|]. intros n a x d m Hd Ed Ei. apply (HT n x m). eapply confined_taken; eassumption. }
  pose proof (C91_not_deeper_than_zones p _ conf node kind w fuel Z OZ (confined_start env _ _ ex L _ _ L HC) Hn Hk) as T. rewrite G in T. exact T.
Qed.
Print Assumptions C91_not_deeper_than_zones_heard_of.

(** C83: the traces of lookups that heard of at most 255 zones are printed in full. *)
Theorem C83_few_zones_are_printed_partial : forall p env conf node kind w fuel o l' w',
  real env -> accepted node -> usable_type kind ->
  perform p env fuel (new_lookup conf node kind, w) = (o, (l', w')) ->
  exists ex, exchanges w w' ex /\ forall Z, heard_zones p env w w' ex Z -> length Z <= 255 ->
  forall p', exists out, display_trace_lines p' 0 (l_trace l') = Done out /\ prints 0 (l_trace l') out.
Proof.
  intros p env conf node kind w fuel o l' w' R Hn Hk E. destruct (C91_not_deeper_than_zones_heard_of p env conf node kind w fuel o l' w' R Hn Hk E) as (ex & X & H).
  exists ex. split; [exact X|]. intros Z HZ L p'. apply C83_traces_are_printed_partial. specialize (H Z HZ). lia.
Qed.
Print Assumptions C83_few_zones_are_printed_partial.

(** C70: queries get replies, if the lookup is calm and, in debug builds that log at level
    info, heard of at most 255 zones. *)
Theorem C70_calm_replies_of_few_zones_partial : exists F, forall p lg env conf l req q w fuel o k w',
  query_packet p l req q -> env_ok plain_record env -> cache_ok plain_record (ev_now (env (w_n w))) (w_cache w) ->
  0 < max_ns conf -> 0 < max_retries conf -> F <= fuel ->
  perform p env fuel (new_lookup conf (q_node q) (q_type q), w) = (o, (k, w')) ->
  exists ex, exchanges w w' ex /\
  forall denied, cache_ok (serving denied) (ev_now (env (w_n w))) (w_cache w) -> calm_run p env denied w w' ex ->
  p = Release \/ lg = false \/ (exists Z, heard_zones p env w w' ex Z /\ length Z <= 255) ->
  exists r reply u t, o = Done r /\ mirrors_rec req reply /\ counts_say reply 1 /\ reports r reply /\
    encode_message_trunc p reply = Done (Ok u) /\ rs_serve_udp p lg env fuel conf l w = (Done (Some u), w') /\
    tcp_reply p reply = Done t /\ rs_serve_tcp p lg env fuel conf (on_tcp l) w = (Done (Some t), w').
Proof.
  destruct calm_replies as (F & T). exists F. intros p lg env conf l req q w fuel o k w' Q EO Hw H1 H2 Hf Ep.
  destruct (run_confined _ _ _ _ _ _ _ _ Ep) as (ex & L & X & G). exists ex. split; [exact X|]. intros denied Hwd C Hlog.
  apply (T p lg env conf l req q w fuel o k w' ex denied Q EO Hw H1 H2 Hf Ep); try assumption.
  destruct Hlog as [Hlog|[Hlog|(Z & [HR HC HO HT] & LZ)]]; auto. right. right.
  pose proof Q as (Hl & H512 & E & (V1 & V2 & V3 & V4) & V5). pose proof (C20_decoded_is_supported p l req Hl E) as (Ho & Hq & _). rewrite V4 in Hq. inversion Hq as [|? ? (Hn & Hc & Hk) _]; subst. clear Hq.
  assert (OZ : only_zones p (confined (w_n w) (w_n w') ex env) Z).
  { split; [exact HR|apply confined_ok; [exact L|exact (env_real _ _ EO)|exact HO]|]. intros n a x d m Hd Ed Ei. apply (HT n x m). eapply confined_taken; eassumption. }
  pose proof (C91_not_deeper_than_zones p _ conf (q_node q) (q_type q) w fuel Z OZ (confined_start env _ _ ex L _ _ L HC) Hn Hk) as D. rewrite G in D. cbn [fst snd] in D. lia.
Qed.
Print Assumptions C70_calm_replies_of_few_zones_partial.

(** * Examples *)
(** The chain of C83: 260 zones and the root zone; the nesting is 260. *)
Definition deep_zones : list name := [46%N] :: map (fun xy => [fst xy; snd xy; 46%N]) deep_pairs.
Definition zones_check (Z : list name) (d : list N) : bool :=
  match decode_message Debug (firstn 512 d) with
  | Done (Ok m) => forallb (fun r => match r_data r with D_NS _ => existsb (bytes_eqb (r_node r)) Z | _ => true end) (all_records m)
  | _ => true
  end.
Lemma zones_checked : forall Z d m, zones_check Z d = true -> decode_message Debug (firstn 512 d) = Done (Ok m) -> Forall (of_zones Z) (all_records m).
Proof.
  intros Z d m H E. unfold zones_check in H. rewrite E in H. rewrite forallb_forall in H. apply Forall_forall. intros r Hr t Et. specialize (H r Hr). rewrite Et in H.
  apply existsb_exists in H as (z & Hz & Ez). apply bytes_eqb_eq in Ez. now rewrite Ez.
Qed.
Lemma deep_zones_checked : forallb (fun xy => zones_check deep_zones (deep_packet (fst xy) (snd xy))) deep_pairs = true.
Proof. vm_compute. reflexivity. Qed.
Lemma deep_said : forall n a x d, ev_net (env_deep n) a x = Some d -> exists u v, In (u, v) deep_pairs /\ d = deep_packet u v.
Proof.
  intros n a x d. cbn [env_deep ev_net]. destruct (deep_asked x) as [(u, v)|] eqn:E; [|discriminate]. intros Ed. exists u, v. split.
  - clear Ed. unfold deep_asked in E. apply deep_bounds. revert E.
    destruct (skipn 12 x) as [|a1 [|b1 [|c1 [|x1 [|y1 [|e1 l1]]]]]]; try discriminate. destruct (andb _ _) eqn:B; [|discriminate].
    intros E. assert (x1 = u /\ y1 = v) as (-> & ->) by (split; congruence). rewrite !Bool.andb_true_iff in *. tauto.
  - revert Ed. generalize (deep_packet u v). congruence.
Qed.
Theorem C91_nonvacuous : only_zones Debug env_deep deep_zones /\ cache_ok (known_zones deep_zones) (ev_now (env_deep (w_n world0))) (w_cache world0) /\
  accepted (deep_name 97 97) /\ usable_type RT_A /\ length deep_zones = 261 /\
  nesting (l_trace (fst (snd (perform Debug env_deep 300 (new_lookup conf_deep (deep_name 97 97) RT_A, world0))))) = 260.
Proof.
  split; [|split; [apply world0_ok|split; [apply checked_accepted; vm_compute; reflexivity|split; [unfold usable_type; tauto|split; [vm_compute; reflexivity|apply C83_refuted_deep_nesting]]]]].
  split.
  - now left.
  - destruct (cu_env _ _ _ deep_calm) as [A1 A2 A3 A4 _]. split; try assumption. intros n c Hc. exact Hc.
  - intros n a x d m En Ed _. apply deep_said in En as (u & v & B & ->). pose proof deep_zones_checked as P. rewrite forallb_forall in P. specialize (P _ B). cbn [fst snd] in P.
    now apply (zones_checked _ _ m P).
Qed.
Print Assumptions C91_nonvacuous.

(** The lookup of "nope.org." among hostile servers (C90): it heard of two zones. *)
Definition nope_zones : list name := [[46%N]; s2b "org."].
Theorem C91_heard_nonvacuous : real env_trap /\ nope_run env_trap = (Done (Ok (mkResp [] [] [] true)), (fst (snd (nope_run env_trap)), nope_end)) /\
  (forall ex, exchanges world0 nope_end ex -> heard_zones Release env_trap world0 nope_end ex nope_zones) /\ length nope_zones <= 255.
Proof.
  split; [exact trap_real|]. split; [exact trap_end|]. split; [|cbn; lia]. intros ex X. split.
  - now left.
  - apply world0_ok.
  - intros n c _. apply (eo_others _ _ (trap_ok (known_zones nope_zones))).
  - intros n x m (d & H & Ed & _). destruct (trap_received ex n x d X H) as (a & _ & E). 
    assert (P : forall d', match decode_message Release (firstn 512 d') with Done (Ok m) => forallb (fun r => match r_data r with D_NS _ => existsb (bytes_eqb (r_node r)) nope_zones | _ => true end) (all_records m) | _ => false end = true ->
      decode_message Release (firstn 512 d') = Done (Ok m) -> Forall (of_zones nope_zones) (all_records m)).
    { intros d' P Ed'. rewrite Ed' in P. rewrite forallb_forall in P. apply Forall_forall. intros r Hr t Et. specialize (P r Hr). rewrite Et in P.
      apply existsb_exists in P as (z & Hz & Ez). apply bytes_eqb_eq in Ez. now rewrite Ez. }
    apply (P d); [|exact Ed]. apply env_nope_net in E as [(-> & _)| ->]; vm_compute; reflexivity.
Qed.
Print Assumptions C91_heard_nonvacuous.
