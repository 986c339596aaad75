(** Any number of lookups at once, on one cache: the threads of the resolver (recursive.rs:
    every request is looked up by the worker thread that took it, resolver.rs; the cache is
    behind one lock, cache.rs:29) and the thread that cleans the cache (cache.rs:132-140).
    Accesses to the cache are atomic, since they hold the lock; everything else a lookup does
    touches nothing shared. Each step is an access to the cache or a packet sent, by any of
    the threads. *)
From Verif Require Import Base Types Name Codec CodecSpec Cache Resolver ResolverSpec Process.

(** A lookup: what was asked; the packets sent (newest first), how many of the last ones were
    lost in a row, the last reading of the clock, and what is still to be done. *)
Record thread := mkThread {
  t_conf : rconf; t_node : name; t_kind : rtype;
  t_sent : list (list N * list N); t_lost : nat; t_time : N;
  t_todo : proc (exec (result response lerr) * lookup) }.
Definition advance (t : thread) (sent : list (list N * list N)) (lost : nat) (time : N) (todo : proc (exec (result response lerr) * lookup)) : thread :=
  mkThread (t_conf t) (t_node t) (t_kind t) (sent ++ t_sent t) lost time todo.
(** The cache, the time of the last access to it, and the lookups, oldest first. *)
Record state := mkState { s_cache : rcache; s_time : N; s_threads : list thread }.

(** What is looked at: the build and the fuel; the requests that may come in; the ids that
    may be drawn; what may come back to a packet, by its id, address and contents (a datagram,
    or nothing in time); how many packets in a row may be lost; which two readings of the clock there may be before and during an
    access; and the time until which. *)
Record setting := mkSetting {
  g_profile : profile; g_fuel : nat;
  g_asks : rconf -> name -> rtype -> Prop;
  g_ids : N -> Prop;
  g_delivers : N -> list N -> list N -> option (list N) -> Prop;
  g_losses : nat;
  g_timing : N -> N -> Prop;
  g_until : N }.
(** Ids are u16, datagrams are bytes, something or nothing can come back to every packet, and
    until the end an entry with any TTL can be made. *)
Record setting_ok (g : setting) : Prop := mkSettingOk {
  go_ids : forall id, g_ids g id -> is_u16 id;
  go_id : exists id, g_ids g id;
  go_bytes : forall id a x b, g_delivers g id a x (Some b) -> is_bytes b;
  go_net : exists respond, forall id a x, g_delivers g id a x (respond id a x);
  go_until : (g_until g + 4294967296 * SECOND <= INSTANT_END)%N }.

Section Many.
  Variable g : setting.

  (** The i-th lookup goes on. *)
  Inductive move (i : nat) : state -> state -> Prop :=
  (** an access to the cache *)
  | mv_cache : forall c T ts1 t ts2 f k now now' x c', length ts1 = i -> t_todo t = P_cache f k ->
      (t_time t <= now /\ now <= now' /\ T <= now' /\ now' < g_until g)%N -> g_timing g now now' ->
      cache_run rkey_eqb c (f now now') = (x, c') ->
      move i (mkState c T (ts1 ++ t :: ts2)) (mkState c' now' (ts1 ++ advance t [] 0 now' (k now x) :: ts2))
  (** a packet is sent; the reply, or nothing in time *)
  | mv_send : forall c T ts1 t ts2 q k id a x d, length ts1 = i -> t_todo t = P_send q k -> g_ids g id -> q id = Done (a, x) -> g_delivers g id a x d ->
      move i (mkState c T (ts1 ++ t :: ts2)) (mkState c T (ts1 ++ advance t [(a, x)] 0 (t_time t) (k id (Done d)) :: ts2))
  (** a packet, or the reply to it, is lost *)
  | mv_lost : forall c T ts1 t ts2 q k id a x, length ts1 = i -> t_todo t = P_send q k -> g_ids g id -> q id = Done (a, x) -> t_lost t < g_losses g ->
      move i (mkState c T (ts1 ++ t :: ts2)) (mkState c T (ts1 ++ advance t [(a, x)] (S (t_lost t)) (t_time t) (k id (Done None)) :: ts2))
  (** a packet cannot be made *)
  | mv_unsent : forall c T ts1 t ts2 q k id j, length ts1 = i -> t_todo t = P_send q k -> g_ids g id -> q id = Panic j ->
      move i (mkState c T (ts1 ++ t :: ts2)) (mkState c T (ts1 ++ advance t [] (t_lost t) (t_time t) (k id (Panic j)) :: ts2)).
  Inductive step : state -> state -> Prop :=
  (** a request comes in: a new Lookup (recursive.rs:59-75) *)
  | st_new : forall c T ts conf node kind, g_asks g conf node kind ->
      step (mkState c T ts) (mkState c T (ts ++ [mkThread conf node kind [] 0 T (perform_p (g_profile g) (g_fuel g) (new_lookup conf node kind))]))
  | st_move : forall i s s', move i s s' -> step s s'
  (** the cleaning thread (cache.rs:101-105, 132-140) *)
  | st_clean : forall c T ts readings T' x c', (T <= T' /\ T' < g_until g)%N -> (forall k, readings k <= T')%N ->
      cache_run rkey_eqb c (O_clean readings) = (x, c') ->
      step (mkState c T ts) (mkState c' T' ts).

  Inductive steps : state -> state -> Prop :=
  | steps_none : forall s, steps s s
  | steps_more : forall s s1 s2, steps s s1 -> step s1 s2 -> steps s s2.
  (** What can happen, from an empty cache and no lookups. *)
  Definition reached_from (T : N) (s : state) : Prop := (T < g_until g)%N /\ steps (mkState cache_new T []) s.
  Definition reached (s : state) : Prop := exists T, reached_from T s.

  (** A course of events: steps, and pauses. [fair i]: as long as it has not ended, the i-th
      lookup goes on sooner or later (the operating system runs its thread, and a reply comes
      or the time for it is over). *)
  Definition course (s : nat -> state) : Prop := forall n, s (S n) = s n \/ step (s n) (s (S n)).
  Definition ended_thread (t : thread) : Prop := exists r, t_todo t = P_end r.
  Definition fair (i : nat) (s : nat -> state) : Prop :=
    forall n t, nth_error (s_threads (s n)) i = Some t -> ~ ended_thread t -> exists k, n <= k /\ move i (s k) (s (S k)).
End Many.
