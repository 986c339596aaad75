(** Vocabulary for C97: what has been delivered so far, and what rests on it. *)
From Verif Require Import Base Types Name NameSpec Codec CodecSpec Cache Resolver ResolverSpec PropResolver3 PropResolver4 Process Many.

(** A datagram that came back: the id drawn for the query, the address it was sent to, the
    packet sent, and the datagram. *)
Definition delivery : Type := (N * list N * list N * list N)%type.

(** The same setting with other deliveries. *)
Definition with_delivers (g : setting) (D : N -> list N -> list N -> option (list N) -> Prop) : setting :=
  mkSetting (g_profile g) (g_fuel g) (g_asks g) (g_ids g) D (g_losses g) (g_timing g) (g_until g).
(** Nothing comes back. *)
Definition in_silence (g : setting) : setting := with_delivers g (fun id a x d => d = None /\ g_delivers g id a x d).

(** From a state to another one, with these datagrams delivered, the last one first: in every
    other step nothing comes back. *)
Inductive history (g : setting) (s : state) : list delivery -> state -> Prop :=
| hi_none : history g s [] s
| hi_quiet : forall l s1 s2, history g s l s1 -> step (in_silence g) s1 s2 -> history g s l s2
| hi_comes : forall l c T ts1 t ts2 q k id a x d, history g s l (mkState c T (ts1 ++ t :: ts2)) ->
    t_todo t = P_send q k -> g_ids g id -> q id = Done (a, x) -> g_delivers g id a x (Some d) ->
    history g s ((id, a, x, d) :: l) (mkState c T (ts1 ++ advance t [(a, x)] 0 (t_time t) (k id (Done (Some d))) :: ts2)).

(** A datagram delivered can be decoded (its first 512 bytes) and carries the id of the query
    that it came back to. *)
Definition accepted_reply (p : profile) (l : list delivery) (id : N) (x : list N) (m : message) : Prop :=
  exists a d, In (id, a, x, d) l /\ decode_message p (firstn 512 d) = Done (Ok m) /\ h_id (m_header m) = id.
(** Up to its TTL a record is that of a built-in root server, or in one of the datagrams
    delivered. *)
Definition heard (p : profile) (l : list delivery) (r : record) : Prop :=
  exists r0 t, r = set_ttl r0 t /\
    ((exists s, In s root_zone_nameservers /\ (r0 = n_rec s \/ In r0 (n_addrs s))) \/
     exists id x m, accepted_reply p l id x m /\ In r0 (all_records m)).
(** One of the datagrams delivered denies the name, with authority, in reply to a query for
    it. *)
Definition denial_heard (p : profile) (l : list delivery) (asked : name -> rtype -> Prop) (n : name) : Prop :=
  exists id x m k, accepted_reply p l id x m /\ h_rcode (m_header m) = RC_NxDomain /\ h_aa (m_header m) = true /\ asked n k /\
    exists body, x = query_header id ++ body /\ (sendable n -> body = wire_question (mkQ n k C_IN)).
