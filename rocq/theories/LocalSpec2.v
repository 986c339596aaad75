(** What the replies received by a lookup say (C56, C60, C61, C70, C77 in terms of them). *)
From Verif Require Import Base Types Name NameSpec Codec CodecSpec Cache Resolver ResolverSpec LocalSpec PropResolver3 PropResolver4.

(** A reply taken for the answer to the query [x] sent at step [n]: it can be decoded and
    carries the query's id. *)
Definition taken (p : profile) (env : environment) (ex : list exchange) (n : nat) (x : list N) (m : message) : Prop :=
  exists d, received env ex n x d /\ decode_message p (firstn 512 d) = Done (Ok m) /\ h_id (m_header m) = ev_id (env n).

(** The clock, datagrams and ids of an environment are what they are in reality. *)
Record real (env : environment) : Prop := mkReal {
  re_forward : forall n, (ev_now (env n) <= ev_now' (env n) /\ ev_now' (env n) <= ev_now (env (S n)))%N;
  re_end : forall n, (ev_now' (env n) + 4294967296 * SECOND < INSTANT_END)%N;
  re_bytes : forall n a x d, ev_net (env n) a x = Some d -> is_bytes d;
  re_ids : forall n, is_u16 (ev_id (env n)) }.
(** Between two states, other threads put only such records into the cache. *)
Definition others_store (good : record -> Prop) (env : environment) (w w' : world) : Prop :=
  forall n c, w_n w <= n < w_n w' -> cache_ok good (ev_now (env n)) c -> cache_ok good (ev_now' (env n)) (ev_others (env n) c).

(** Nothing happened to a lookup that could upset it: the replies it received can be decoded
    without panic and in finite time; those taken deny only names in [denied], none of which
    is a name server's by what it received, what others stored and the built-in root servers;
    and its accesses to the cache took less than a second. *)
Record calm_run (p : profile) (env : environment) (denied : name -> Prop) (w w' : world) (ex : list exchange) : Prop := mkCalmRun {
  cr_others : others_store (serving denied) env w w';
  cr_decode : forall n x d, received env ex n x d -> exists r, decode_message p (firstn 512 d) = Done r;
  cr_deny : forall n x m, taken p env ex n x m -> h_rcode (m_header m) = RC_NxDomain -> h_aa (m_header m) = true ->
     forall name type, encode_message p (build_dns_request (ev_id (env n)) name type) = Done (Ok x) -> denied name;
  cr_servers : forall n x m r t, taken p env ex n x m -> In r (all_records m) -> r_data r = D_NS t -> ~ denied t;
  cr_root : forall s, In s ROOT_SERVERS -> ~ denied (fst s);
  cr_quick : forall n, w_n w <= n < w_n w' -> (ev_now' (env n) < ev_now (env n) + SECOND)%N }.

(** Where a record comes from, TTLs aside: it was [known] before (the cache, other threads),
    it is one of the built-in root servers', or a reply this lookup received and took brought
    it. *)
Definition comes_from (p : profile) (env : environment) (ex : list exchange) (known : record -> Prop) (r : record) : Prop :=
  exists r0 t, r = set_ttl r0 t /\
    (known r0 \/ (exists s, In s root_zone_nameservers /\ (r0 = n_rec s \/ In r0 (n_addrs s))) \/
     exists n x m, taken p env ex n x m /\ In r0 (all_records m)).
Definition sourced (p : profile) (env : environment) (ex : list exchange) (known : record -> Prop) (r : record) : Prop :=
  plain_record r /\ comes_from p env ex known r.

(** A reply received and taken denies the name: it is the reply to a query for the name, with
    response code 3 and the authority bit. *)
Definition denied_to_it (p : profile) (env : environment) (ex : list exchange) (asked : name -> rtype -> Prop) (n : name) : Prop :=
  exists i query m k, taken p env ex i query m /\ h_rcode (m_header m) = RC_NxDomain /\ h_aa (m_header m) = true /\ asked n k /\
    exists body, query = query_header (ev_id (env i)) ++ body /\ (sendable n -> body = wire_question (mkQ n k C_IN)).
