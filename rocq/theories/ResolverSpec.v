(** Vocabulary for what users of the resolver rely on: what a cache may hold, what an
    environment may do, what the answer of a lookup looks like. From the model only the
    types of records, servers, cache and environment are taken. *)
From Verif Require Import Base Types Name NameSpec Codec CodecSpec NsSpec Cache Resolver.

Definition SECOND : N := 1000000000.

(** The entry of a key seen at time [T], records of class [good] only: there are some, all
    of the key's type and with one TTL that the entry does not outlive; and they are owned
    by the key's name, except that of name server records only the first needs to be. *)
Definition entry_ok (good : record -> Prop) (T : N) (k : rkey) (exp : N) (rs : list record) : Prop :=
  rs <> [] /\ Forall good rs /\ Forall (fun r => record_type r = snd k) rs /\
  (exists ttl, Forall (fun r => r_ttl r = ttl) rs /\ (exp <= T + ttl * SECOND)%N) /\
  (snd k <> RT_NS -> Forall (fun r => r_node r = fst k) rs) /\
  (exists r rs', rs = r :: rs' /\ r_node r = fst k).
Definition cache_ok (good : record -> Prop) (T : N) (c : rcache) : Prop :=
  c_poisoned c = false /\ forall k exp rs, c_data c k = Some (exp, rs) -> entry_ok good T k exp rs.

(** The records of a response. *)
Definition all_records (m : message) : list record := m_answers m ++ m_authorities m ++ m_additionals m.

(** Environments: the clock does not go back and is not close to its end; the network
    delivers bytes; what other threads do to the cache keeps it as above (they are lookups,
    too: [C51_other_lookups_qualify]). *)
Record env_ok (good : record -> Prop) (env : environment) : Prop := mkEnvOk {
  eo_forward : forall n, (ev_now (env n) <= ev_now' (env n) /\ ev_now' (env n) <= ev_now (env (S n)))%N;
  eo_end : forall n, (ev_now' (env n) + 4294967296 * SECOND < INSTANT_END)%N;
  eo_bytes : forall n a x d, ev_net (env n) a x = Some d -> is_bytes d;
  eo_ids : forall n, is_u16 (ev_id (env n));
  eo_others : forall n c, cache_ok good (ev_now (env n)) c -> cache_ok good (ev_now' (env n)) (ev_others (env n) c) }.

(** [good] is a class of records that may come in: it holds of the built-in root servers
    and of every record of a response that carries the id of the query sent; it does not
    depend on the TTL; and it implies what the decoder guarantees. *)
Record class_ok (p : profile) (env : environment) (good : record -> Prop) : Prop := mkClassOk {
  co_names : forall r, good r -> accepted (r_node r) /\ is_u32 (r_ttl r) /\
    match r_data r with D_NS n | D_CNAME n => accepted n | _ => True end;
  co_ttl : forall r t, good r -> is_u32 t -> good (set_ttl r t);
  co_root : Forall (fun s => good (n_rec s) /\ Forall good (n_addrs s)) root_zone_nameservers;
  co_net : forall n a x d m, ev_net (env n) a x = Some d -> decode_message p (firstn 512 d) = Done (Ok m) ->
    h_id (m_header m) = ev_id (env n) -> Forall good (all_records m) }.

(** Records that can be put on the wire (see NsSpec). All records the decoder delivers are
    ([plain_is_a_class]). *)
Definition plain_record (r : record) : Prop := record_fine r /\ short_strings r.

(** A name server and its addresses: an NS record, and A records owned by the server it
    names. *)
Definition server_ok (good : record -> Prop) (s : nsrv) : Prop :=
  good (n_rec s) /\ exists n, r_data (n_rec s) = D_NS n /\
    Forall (fun r => good r /\ record_type r = RT_A /\ r_node r = n) (n_addrs s).

(** Aliases [cs] leading from [from] to [to]. *)
Fixpoint alias_chain (from : name) (cs : list record) (to : name) : Prop :=
  match cs with
  | [] => from = to
  | c :: cs' => r_node c = from /\ exists t, r_data c = D_CNAME t /\ alias_chain t cs' to
  end.
(** No alias points back to the owner of an earlier one. *)
Definition no_way_back (cs : list record) : Prop :=
  forall before c after t, cs = before ++ c :: after -> r_data c = D_CNAME t -> ~ In t (map r_node before).

(** The answer of a lookup of [q], type [kind]: a chain of aliases from [q], fewer than the
    configured number (none if aliases are not to be followed), then records of the type
    owned by its end (for name servers: at least the first is), or none. *)
Definition answer_ok (good : record -> Prop) (conf : rconf) (q : name) (kind : rtype) (x : response) : Prop :=
  exists cs last rs,
    x_answers x = cs ++ rs /\ alias_chain q cs last /\ no_way_back cs /\
    length cs < max_cname conf /\ (no_follow conf = true -> cs = []) /\
    Forall good (x_answers x ++ x_authorities x ++ x_additionals x) /\
    (if x_none x then rs = [] else rs <> []) /\
    Forall (fun r => record_type r = kind) rs /\
    (kind <> RT_NS -> Forall (fun r => r_node r = last) rs) /\
    match rs with r :: _ => r_node r = last | [] => True end /\
    Forall (fun r => record_type r = RT_SOA /\ r_node r = last) (x_authorities x).
