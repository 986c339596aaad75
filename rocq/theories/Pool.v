(** Model of src/shared/thread_pool.rs (with the threads that use a pool in
    src/shared/net/udp_server.rs and tcp_server.rs): a transition system, one step per
    operation on the shared channel, lock or thread handle. *)
From Verif Require Import Base.

Section Pool.
  Context {job : Type}.
  (** What a job may do: return, or panic. (A job that may do neither runs for ever.) *)
  Variable returns panics : job -> Prop.

  (** thread_pool.rs:66-69, WorkerMessage *)
  Inductive wmsg := WJob (j : job) | WStop.

  (** thread_pool.rs:74-84: where a worker thread is. *)
  Inductive wstate :=
  | W_ready              (* before receiver.lock().unwrap(), line 76 *)
  | W_recv               (* holds the lock, in recv().unwrap(), line 77 *)
  | W_run (j : job)      (* lock released (line 78), in job_fn(), line 81 *)
  | W_end                (* returned, line 80 *)
  | W_dead.              (* panicked: its receiver handle is dropped *)

  (** The thread that owns the pool. *)
  Inductive ostate :=
  | O_open                      (* the pool is in use *)
  | O_stopping (n : nat)        (* in drop: [n] more Stop messages to send, lines 45-47 *)
  | O_joining (ws : list nat)   (* in drop: these threads are still to be joined, lines 48-53 *)
  | O_dropped                   (* drop returned *)
  | O_panic                     (* drop panicked; the pool's fields are dropped *)
  | O_abort.                    (* execute panicked, and drop, run by unwinding, again: the process is aborted *)

  (** The channel's queue, the worker threads, the lock's poison flag, the owner. Once all
      workers are gone the receiver and what is queued are dropped; the model keeps the
      queue, which nobody can then read. *)
  Record pool := mkPool { p_queue : list wmsg; p_workers : list wstate; p_poisoned : bool; p_owner : ostate }.

  (** What can be observed. *)
  Inductive event :=
  | E_execute (j : job)         (* execute(j) returned *)
  | E_execute_panic (j : job)   (* execute(j) panicked *)
  | E_start (i : nat) (j : job) (* worker i starts job j *)
  | E_return (i : nat) (j : job)
  | E_panic (i : nat) (j : job)
  | E_drop                      (* drop is called *)
  | E_dropped                   (* drop returned *)
  | E_drop_panic
  | E_worker                    (* a worker takes the lock, or ends *)
  | E_owner.                    (* a step of drop: a Stop sent, a thread joined *)

  (** thread_pool.rs:18-33, ThreadPool::new: None is the failed assertion *)
  Definition pool_new (size : nat) : option pool :=
    if 0 <? size then Some (mkPool [] (repeat W_ready size) false O_open) else None.

  (** Some receiver handle exists, so [send] works (std mpsc). *)
  Definition alive (w : wstate) : Prop := match w with W_end | W_dead => False | _ => True end.
  Definition receiver_exists (s : pool) : Prop := exists w, In w (p_workers s) /\ alive w.
  (** The pool's sender exists, so [recv] blocks on an empty queue. *)
  Definition sender_exists (s : pool) : Prop := match p_owner s with O_open | O_stopping _ | O_joining _ => True | _ => False end.
  Definition lock_free (s : pool) : Prop := ~ In W_recv (p_workers s).

  Inductive step : pool -> event -> pool -> Prop :=
  (** execute, lines 37-40 *)
  | st_execute : forall q ws b j, receiver_exists (mkPool q ws b O_open) ->
      step (mkPool q ws b O_open) (E_execute j) (mkPool (q ++ [WJob j]) ws b O_open)
  (** send(..).unwrap() panics in execute; unwinding drops the pool (a local variable of
      start_udp_server / start_tcp_server), whose drop panics at its first send *)
  | st_execute_panic : forall q ws b j, ~ receiver_exists (mkPool q ws b O_open) ->
      step (mkPool q ws b O_open) (E_execute_panic j) (mkPool q ws b O_abort)
  (** drop, lines 43-56 *)
  | st_drop : forall q ws b, step (mkPool q ws b O_open) E_drop (mkPool q ws b (O_stopping (length ws)))
  | st_stop : forall q ws b n, receiver_exists (mkPool q ws b (O_stopping (S n))) ->
      step (mkPool q ws b (O_stopping (S n))) E_owner (mkPool (q ++ [WStop]) ws b (O_stopping n))
  | st_stop_panic : forall q ws b n, ~ receiver_exists (mkPool q ws b (O_stopping (S n))) ->
      step (mkPool q ws b (O_stopping (S n))) E_drop_panic (mkPool q ws b O_panic)
  | st_stopped : forall q ws b, step (mkPool q ws b (O_stopping 0)) E_owner (mkPool q ws b (O_joining (seq 0 (length ws))))
  | st_join : forall q ws b i l, nth_error ws i = Some W_end ->
      step (mkPool q ws b (O_joining (i :: l))) E_owner (mkPool q ws b (O_joining l))
  | st_join_panic : forall q ws b i l, nth_error ws i = Some W_dead ->
      step (mkPool q ws b (O_joining (i :: l))) E_drop_panic (mkPool q ws b O_panic)
  | st_joined : forall q ws b, step (mkPool q ws b (O_joining [])) E_dropped (mkPool q ws b O_dropped)
  (** Worker::new, lines 74-84 *)
  | st_lock : forall q l1 l2 o, lock_free (mkPool q (l1 ++ W_ready :: l2) false o) -> o <> O_abort ->
      step (mkPool q (l1 ++ W_ready :: l2) false o) E_worker (mkPool q (l1 ++ W_recv :: l2) false o)
  | st_lock_panic : forall q l1 l2 o, lock_free (mkPool q (l1 ++ W_ready :: l2) true o) -> o <> O_abort ->
      step (mkPool q (l1 ++ W_ready :: l2) true o) E_worker (mkPool q (l1 ++ W_dead :: l2) true o)
  | st_start : forall q l1 l2 b o j, o <> O_abort ->
      step (mkPool (WJob j :: q) (l1 ++ W_recv :: l2) b o) (E_start (length l1) j) (mkPool q (l1 ++ W_run j :: l2) b o)
  | st_end : forall q l1 l2 b o, o <> O_abort ->
      step (mkPool (WStop :: q) (l1 ++ W_recv :: l2) b o) E_worker (mkPool q (l1 ++ W_end :: l2) b o)
  | st_recv_panic : forall l1 l2 b o, ~ sender_exists (mkPool [] (l1 ++ W_recv :: l2) b o) -> o <> O_abort ->
      step (mkPool [] (l1 ++ W_recv :: l2) b o) E_worker (mkPool [] (l1 ++ W_dead :: l2) true o)
  | st_return : forall q l1 l2 b o j, returns j -> o <> O_abort ->
      step (mkPool q (l1 ++ W_run j :: l2) b o) (E_return (length l1) j) (mkPool q (l1 ++ W_ready :: l2) b o)
  | st_panic : forall q l1 l2 b o j, panics j -> o <> O_abort ->
      step (mkPool q (l1 ++ W_run j :: l2) b o) (E_panic (length l1) j) (mkPool q (l1 ++ W_dead :: l2) b o).

  (** Runs: the events in order. *)
  Inductive runs : pool -> list event -> pool -> Prop :=
  | runs_none : forall s, runs s [] s
  | runs_more : forall s tr s1 e s2, runs s tr s1 -> step s1 e s2 -> runs s (tr ++ [e]) s2.
End Pool.
Arguments wmsg : clear implicits.
Arguments wstate : clear implicits.
Arguments pool : clear implicits.
Arguments event : clear implicits.
