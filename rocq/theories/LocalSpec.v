(** What a lookup got to know from its surroundings (C90). *)
From Verif Require Import Base Types Name Codec Cache Resolver.
From Coq Require Export Sorted.

(** A packet sent at a step (event) of a run: the event, the address and the bytes. *)
Definition exchange : Type := nat * (list N * list N).
(** [ex] are the packets sent between two states of the resolver, in order. *)
Record exchanges (w w' : world) (ex : list exchange) : Prop := mkExchanges {
  ex_sent : w_sent w' = rev (map snd ex) ++ w_sent w;
  ex_when : Forall (fun x => w_n w <= fst x < w_n w') ex;
  ex_order : StronglySorted lt (map fst ex) }.

(** Two environments are the same for the steps from [lo] to [hi] in which [ex] is sent: same
    clock, same effects of other threads, same ids, same replies to those packets. Replies to
    other packets and everything earlier and later may differ. *)
Record same_for (lo hi : nat) (ex : list exchange) (env env' : environment) : Prop := mkSame {
  sf_now : forall n, lo <= n < hi -> ev_now (env' n) = ev_now (env n) /\ ev_now' (env' n) = ev_now' (env n);
  sf_others : forall n c, lo <= n < hi -> ev_others (env' n) c = ev_others (env n) c;
  sf_id : forall n, lo <= n <= hi -> ev_id (env' n) = ev_id (env n);
  sf_net : forall n a x, In (n, (a, x)) ex -> ev_net (env' n) a x = ev_net (env n) a x }.

(** A datagram received: the reply to one of the packets. *)
Definition received (env : environment) (ex : list exchange) (n : nat) (x d : list N) : Prop :=
  exists a, In (n, (a, x)) ex /\ ev_net (env n) a x = Some d.
