(** The resolver while it serves: both servers (udp_server.rs, tcp_server.rs), each with its
    pool of worker threads (thread_pool.rs, [Pool.v]), the request handler (handler.rs) and the
    lookups of the workers on one cache ([Many.v]). *)
From Verif Require Import Base Types Name Codec Cache Resolver NsHandler Trace RsHandler ClientSpec Process Many ManyClient.
From Verif Require Pool.

(** What the handler is going to do with a request (the bytes of a datagram, or what a TCP
    client sends; handler.rs:20-46): something that needs no lookup, or a lookup and then
    [rs_finish]. *)
Inductive plan := Q_now (r : exec (option (list N))) | Q_lookup (req : message) (q : question).
Definition read_request (p : profile) (x : transport * list N) : exec read_result := match fst x with Udp => udp_read p (snd x) | Tcp => tcp_read p (snd x) end.
Definition plan_of (p : profile) (x : transport * list N) : plan :=
  let answer m := Q_now (let! b := rs_send p (fst x) m in Done (Some b)) in
  match read_request p x with
  | Done (FullMessage m) =>
      if rs_validate m then match index (m_questions m) 0 with Done q => Q_lookup m q | Panic k => Q_now (Panic k) | Diverge => Q_now Diverge end
      else answer (rs_handle_err m RC_FormErr)
  | Done (HeaderOnly h e) => answer (rs_handle_decode_err h e)
  | Done (ParseErr _ _) | Done IoErr => Q_now (Done None)
  | Panic k => Q_now (Panic k)
  | Diverge => Q_now Diverge
  end.

(** The lookups; the requests that came in, oldest first (a client is the number of its
    request); the pools, whose jobs are clients; which lookup is whose; and the replies sent. *)
Record server := mkServer {
  v_many : state; v_clients : list (transport * list N); v_pool : transport -> Pool.pool nat;
  v_tasks : list (nat * nat); v_replies : list (nat * list N) }.
Definition set_pool (v : transport -> Pool.pool nat) (tr : transport) (pl : Pool.pool nat) : transport -> Pool.pool nat :=
  fun tr' => match tr, tr' with Udp, Udp | Tcp, Tcp => pl | _, _ => v tr' end.

Inductive label := L_pool (tr : transport) (e : Pool.event nat) | L_many.

Section Server.
  Variable g : setting.
  Variable lg : bool.
  Variable conf : rconf.
  (** The requests that may come in. *)
  Variable requests : transport * list N -> Prop.
  Notation p := (g_profile g).
  (** Jobs may return or panic; when they do is told below. *)
  Notation pstep := (Pool.step (fun _ : nat => True) (fun _ : nat => True)).

  (** What comes of a client's request, as soon as that is settled. *)
  Inductive outcome (s : server) (c : nat) : exec (option (list N)) -> Prop :=
  | oc_now : forall x r, nth_error (v_clients s) c = Some x -> plan_of p x = Q_now r -> outcome s c r
  | oc_lookup : forall x req q k t o, nth_error (v_clients s) c = Some x -> plan_of p x = Q_lookup req q -> In (c, k) (v_tasks s) ->
      nth_error (s_threads (v_many s)) k = Some t -> t_todo t = P_end o -> outcome s c (let! b := rs_finish p lg (fst x) req o in Done (Some b)).

  (** The fields not mentioned stay as they are. *)
  Inductive sstep : server -> label -> server -> Prop :=
  (** a request is received and becomes a job (udp_server.rs:77-107, tcp_server.rs:84-113) *)
  | sv_request : forall m cs v ts rs tr x pl, requests (tr, x) -> pstep (v tr) (Pool.E_execute (length cs)) pl ->
      sstep (mkServer m cs v ts rs) (L_pool tr (Pool.E_execute (length cs))) (mkServer m (cs ++ [(tr, x)]) (set_pool v tr pl) ts rs)
  (** a worker takes the pool's lock, or ends *)
  | sv_worker : forall m cs v ts rs tr pl, pstep (v tr) Pool.E_worker pl ->
      sstep (mkServer m cs v ts rs) (L_pool tr Pool.E_worker) (mkServer m cs (set_pool v tr pl) ts rs)
  (** a worker starts a job: a new lookup, if it needs one (handler.rs:55-56) *)
  | sv_start_lookup : forall m m' cs v ts rs tr i c x req q pl, pstep (v tr) (Pool.E_start i c) pl ->
      nth_error cs c = Some x -> plan_of p x = Q_lookup req q -> g_asks g conf (q_node q) (q_type q) ->
      m' = mkState (s_cache m) (s_time m) (s_threads m ++ [mkThread conf (q_node q) (q_type q) [] 0 (s_time m) (perform_p p (g_fuel g) (new_lookup conf (q_node q) (q_type q)))]) ->
      sstep (mkServer m cs v ts rs) (L_pool tr (Pool.E_start i c)) (mkServer m' cs (set_pool v tr pl) ((c, length (s_threads m)) :: ts) rs)
  | sv_start_now : forall m cs v ts rs tr i c x r pl, pstep (v tr) (Pool.E_start i c) pl ->
      nth_error cs c = Some x -> plan_of p x = Q_now r ->
      sstep (mkServer m cs v ts rs) (L_pool tr (Pool.E_start i c)) (mkServer m cs (set_pool v tr pl) ts rs)
  (** the lookups go on, the cache is cleaned *)
  | sv_many : forall m m' cs v ts rs, Many.step g m m' -> length (s_threads m') = length (s_threads m) ->
      sstep (mkServer m cs v ts rs) L_many (mkServer m' cs v ts rs)
  (** a job is done, and its reply, if any, has been given to the operating system *)
  | sv_return : forall m cs v ts rs tr i c o pl, pstep (v tr) (Pool.E_return i c) pl -> outcome (mkServer m cs v ts rs) c (Done o) ->
      sstep (mkServer m cs v ts rs) (L_pool tr (Pool.E_return i c)) (mkServer m cs (set_pool v tr pl) ts (match o with Some b => (c, b) :: rs | None => rs end))
  (** a job panics *)
  | sv_panic : forall m cs v ts rs tr i c k pl, pstep (v tr) (Pool.E_panic i c) pl -> outcome (mkServer m cs v ts rs) c (Panic k) ->
      sstep (mkServer m cs v ts rs) (L_pool tr (Pool.E_panic i c)) (mkServer m cs (set_pool v tr pl) ts rs).

  (** Just started, with so many workers in each pool. *)
  Definition started_server (T : N) (size : transport -> nat) (s : server) : Prop :=
    v_many s = mkState cache_new T [] /\ v_clients s = [] /\ v_tasks s = [] /\ v_replies s = [] /\
    forall tr, 0 < size tr /\ v_pool s tr = Pool.mkPool [] (repeat Pool.W_ready (size tr)) false Pool.O_open.
  (** A course of events: steps, and pauses. *)
  Definition serving_course (s : nat -> server) : Prop := forall n, s (S n) = s n \/ exists l, sstep (s n) l (s (S n)).

  (** Nothing is starved: lookups go on as in [fair]; if some worker of a pool could take the
      lock or a job, then sooner or later one does; and a worker whose job is settled is done
      with it sooner or later. *)
  Definition takes (e : Pool.event nat) : Prop := match e with Pool.E_worker | Pool.E_start _ _ => True | _ => False end.
  Definition nothing_starved (s : nat -> server) : Prop :=
    (forall i, fair g i (fun n => v_many (s n))) /\
    (forall tr n e s', takes e -> sstep (s n) (L_pool tr e) s' -> exists k e', n <= k /\ takes e' /\ sstep (s k) (L_pool tr e') (s (S k))) /\
    (forall tr n i c o, nth_error (Pool.p_workers (v_pool (s n) tr)) i = Some (Pool.W_run c) -> outcome (s n) c (Done o) ->
       exists k, n <= k /\ sstep (s k) (L_pool tr (Pool.E_return i c)) (s (S k))).
End Server.
