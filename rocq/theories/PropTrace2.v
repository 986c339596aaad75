(** C70 and C83: a chain of name servers, each in the domain of the next. *)
From Verif Require Import Base Types Name NameSpec Codec CodecSpec PropCodec1 NsSpec PropNs PropNs2 Cache Resolver ResolverSpec ResolverEx PropResolver3
  Trace TraceSpec PropTrace NsHandler RsHandler PropRs.

(** The name server of the domain [xy] is [n.x'y'], where [x'y'] follows [xy]; every
    server, asked for [n.xy], refers to it. The last domain is [jz]: 260 domains. *)
Definition deep_name (x y : N) : name := [110; 46; x; y; 46]%N.
Definition deep_packet (x y : N) : list N :=
  let t := if (y =? 122)%N then deep_name (x + 1) 97 else deep_name x (y + 1) in
  packet RC_NoError false [] [rec_ [x; y; 46]%N 0 (D_NS t)] [].
Definition deep_asked (l : list N) : option (N * N) :=
  match skipn 12 l with
  | a :: b :: c :: x :: y :: e :: _ => if (a =? 1) && (b =? 110) && (c =? 2) && (e =? 0) && (97 <=? x) && (x <=? 106) && (97 <=? y) && (y <=? 122) then Some (x, y) else None
  | _ => None
  end%N.
Definition env_deep : environment := fun _ => mkEv 0 0 (fun c => c) 7 (fun _ x =>
  match deep_asked x with Some (x, y) => Some (deep_packet x y) | None => None end).
Definition conf_deep : rconf := mkConf 1 1 5 false true false.
Definition deep_request : list N := wire_message (ex_req (deep_name 97 97) RT_A).

(** All the packets these servers send can be checked. *)
Definition deep_pairs : list (N * N) := list_prod (map N.of_nat (seq 97 10)) (map N.of_nat (seq 97 26)).
Definition deep_check (d : list N) : bool :=
  forallb (fun x => x <? 256)%N d &&
  match decode_message Debug (firstn 512 d) with
  | Done (Ok m) => match h_rcode (m_header m) with RC_NoError => true | _ => false end
  | _ => false
  end.
Lemma deep_packets : forallb (fun xy => deep_check (deep_packet (fst xy) (snd xy))) deep_pairs = true.
Proof. vm_compute. reflexivity. Qed.
Lemma deep_bounds : forall x y, ((97 <=? x) && (x <=? 106) && (97 <=? y) && (y <=? 122))%N = true -> In (x, y) deep_pairs.
Proof.
  intros x y H. rewrite !Bool.andb_true_iff, !N.leb_le in H. unfold deep_pairs. apply in_prod.
  - apply in_map_iff. exists (N.to_nat x). split; [apply N2Nat.id|]. apply in_seq. lia.
  - apply in_map_iff. exists (N.to_nat y). split; [apply N2Nat.id|]. apply in_seq. lia.
Qed.
Lemma deep_net : forall n a x d, ev_net (env_deep n) a x = Some d -> deep_check d = true.
Proof.
  intros n a x d. cbn [env_deep ev_net]. destruct (deep_asked x) as [(u, v)|] eqn:E; [|discriminate].
  intros Ed. assert (B : In (u, v) deep_pairs).
  { clear Ed. unfold deep_asked in E. apply deep_bounds. revert E.
    destruct (skipn 12 x) as [|a1 [|b1 [|c1 [|x1 [|y1 [|e1 l1]]]]]]; try discriminate. destruct (andb _ _) eqn:B; [|discriminate].
    intros E. assert (x1 = u /\ y1 = v) as (-> & ->) by (split; congruence). rewrite !Bool.andb_true_iff in *. tauto. }
  pose proof deep_packets as P. rewrite forallb_forall in P. specialize (P _ B). cbn [fst snd] in P. assert (Ed' : deep_packet u v = d) by (revert Ed; generalize (deep_packet u v); congruence). now rewrite Ed' in P.
Qed.
Lemma deep_calm : calm_upstream Debug env_deep (fun _ => False).
Proof.
  split.
  - split.
    + intros n. cbn. split; lia.
    + intros n. vm_compute. reflexivity.
    + intros n a x d E. apply deep_net in E. apply checked_bytes. unfold deep_check in E. now apply Bool.andb_true_iff in E.
    + intros n. unfold is_u16. cbn. lia.
    + intros n c Hc. exact Hc.
  - intros n a x d E. apply deep_net in E. unfold deep_check in E. apply Bool.andb_true_iff in E as (_ & E).
    destruct (decode_message Debug (firstn 512 d)) as [r| |]; try discriminate E. eauto.
  - intros n a x d m E Ed _ Rc _ _ _ _. apply deep_net in E. unfold deep_check in E. apply Bool.andb_true_iff in E as (_ & E).
    rewrite Ed, Rc in E. discriminate E.
  - intros ? ? ? ? ? ? ? _ _ _ _ _ [].
  - intros s _ [].
  - intros n. reflexivity.
Qed.

(** C83 and C70 are refuted: answering one query, a debug build with a log level of info
    panics while it prints the trace, though tracing is off; the upstream servers are calm
    and the lookup itself ends (in failure). At a higher log level the query is answered. *)
Theorem C83_refuted_deep_nesting :
  calm_upstream Debug env_deep (fun _ => False) /\ silent conf_deep = true /\
  query_packet Debug deep_request (ex_req (deep_name 97 97) RT_A) (mkQ (deep_name 97 97) RT_A C_IN) /\
  fst (rs_serve_udp Debug true env_deep 300 conf_deep deep_request world0) = Panic POverflow /\
  (exists u, fst (rs_serve_udp Debug false env_deep 300 conf_deep deep_request world0) = Done (Some u)) /\
  nesting (l_trace (fst (snd (perform Debug env_deep 300 (new_lookup conf_deep (deep_name 97 97) RT_A, world0))))) = 260.
Proof.
  split; [exact deep_calm|]. split; [reflexivity|]. split; [|split; [|split]].
  - split; [|split; [|split; [|split; [apply ex_valid|reflexivity]]]].
    + repeat (apply Forall_cons; [reflexivity|]). constructor.
    + vm_compute. lia.
    + vm_compute. reflexivity.
  - vm_compute. reflexivity.
  - exists [0; 7; 129; 130; 0; 1; 0; 0; 0; 0; 0; 0; 1; 110; 2; 97; 97; 0; 0; 1; 0; 1]%N. vm_compute. reflexivity.
  - vm_compute. reflexivity.
Qed.
Print Assumptions C83_refuted_deep_nesting.
