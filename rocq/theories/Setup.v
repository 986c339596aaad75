(** Model of src/shared/net/setup.rs (start_servers, wake_up_servers) with the loops of
    start_udp_server and start_tcp_server: three threads, one step per operation that
    another thread or the network can observe. The thread pools are in Pool.v; here a
    server's drop of its pool either returns or panics. Requests are served by the pool and
    leave the loop where it is. Not modelled: failures of recv_from, accept and try_clone
    (the loop goes on), the log lines. *)
From Verif Require Import Base.

Inductive side := Udp | Tcp.
(** A server thread (setup.rs:20-24, 31-35). *)
Inductive sstate :=
| S_starting                (* before bind: udp_server.rs:64, tcp_server.rs:74 *)
| S_listening (pending : nat)  (* in recv_from / accept; so many packets or connections are queued *)
| S_closing                 (* leaving: the pool is being dropped *)
| S_done                    (* returned, and () sent to the channel *)
| S_panicked.               (* panicked: nothing is sent *)
(** The thread that called start_servers. *)
Inductive mstate :=
| M_first                   (* rx.recv(), line 39 *)
| M_store                   (* line 40 *)
| M_wake_udp                (* lines 50-54 *)
| M_wake_tcp                (* lines 55-59 *)
| M_second                  (* rx.recv_timeout, line 42 *)
| M_returned
| M_panicked.
Record servers := mkServers { v_udp : sstate; v_tcp : sstate; v_chan : nat; v_stop : bool; v_main : mstate }.
Inductive sevent :=
| V_bound (x : side) | V_bind_failed (x : side)
| V_request (x : side)      (* a client's packet or connection arrives *)
| V_serve (x : side)        (* it is taken and given to the pool *)
| V_closed (x : side) | V_crash (x : side)
| V_step                    (* a step of the calling thread, or the stop flag is seen *)
| V_no_socket               (* no socket for the wake-up: line 53 *)
| V_timeout                 (* 4 seconds are over *)
| V_return.

Definition servers_new : servers := mkServers S_starting S_starting 0 false M_first.
Definition get (x : side) (v : servers) : sstate := match x with Udp => v_udp v | Tcp => v_tcp v end.
Definition set (x : side) (s : sstate) (v : servers) : servers :=
  match x with
  | Udp => mkServers s (v_tcp v) (v_chan v) (v_stop v) (v_main v)
  | Tcp => mkServers (v_udp v) s (v_chan v) (v_stop v) (v_main v)
  end.
Definition set_main (m : mstate) (v : servers) : servers := mkServers (v_udp v) (v_tcp v) (v_chan v) (v_stop v) m.
Definition set_chan (c : nat) (v : servers) : servers := mkServers (v_udp v) (v_tcp v) c (v_stop v) (v_main v).
Definition set_stop (v : servers) : servers := mkServers (v_udp v) (v_tcp v) (v_chan v) true (v_main v).
(** A packet or connection for a server: lost unless it listens. *)
Definition knock (x : side) (v : servers) : servers :=
  match get x v with S_listening k => set x (S_listening (S k)) v | _ => v end.

Definition process_alive (v : servers) : Prop := match v_main v with M_returned | M_panicked => False | _ => True end.

Inductive sstep : servers -> sevent -> servers -> Prop :=
(** udp_server.rs:64-73, tcp_server.rs:74-83 *)
| vs_bound : forall x v, process_alive v -> get x v = S_starting -> sstep v (V_bound x) (set x (S_listening 0) v)
| vs_bind_failed : forall x v, process_alive v -> get x v = S_starting -> sstep v (V_bind_failed x) (set x S_closing v)
| vs_request : forall x v, process_alive v -> sstep v (V_request x) (knock x v)
(** udp_server.rs:77-112, tcp_server.rs:87-117 *)
| vs_serve : forall x v k, process_alive v -> get x v = S_listening (S k) -> v_stop v = false -> sstep v (V_serve x) (set x (S_listening k) v)
| vs_stop : forall x v k, process_alive v -> get x v = S_listening (S k) -> v_stop v = true -> sstep v V_step (set x S_closing v)
(** setup.rs:23, 34; the end of drop, thread_pool.rs:43-56 *)
| vs_closed : forall x v, process_alive v -> get x v = S_closing -> sstep v (V_closed x) (set_chan (S (v_chan v)) (set x S_done v))
| vs_crash : forall x v, process_alive v -> get x v = S_closing -> sstep v (V_crash x) (set x S_panicked v)
(** setup.rs:39-42 *)
| vs_first : forall v k, v_main v = M_first -> v_chan v = S k -> sstep v V_step (set_main M_store (set_chan k v))
| vs_store : forall v, v_main v = M_store -> sstep v V_step (set_main M_wake_udp (set_stop v))
| vs_wake_udp : forall v, v_main v = M_wake_udp -> sstep v V_step (set_main M_wake_tcp (knock Udp v))
| vs_no_socket : forall v, v_main v = M_wake_udp -> sstep v V_no_socket (set_main M_second v)
| vs_wake_tcp : forall v, v_main v = M_wake_tcp -> sstep v V_step (set_main M_second (knock Tcp v))
| vs_second : forall v k, v_main v = M_second -> v_chan v = S k -> sstep v V_return (set_main M_returned (set_chan k v))
| vs_timeout : forall v, v_main v = M_second -> sstep v V_timeout (set_main M_panicked v).

Inductive sruns : servers -> list sevent -> servers -> Prop :=
| sruns_none : forall v, sruns v [] v
| sruns_more : forall v tr v1 e v2, sruns v tr v1 -> sstep v1 e v2 -> sruns v (tr ++ [e]) v2.
