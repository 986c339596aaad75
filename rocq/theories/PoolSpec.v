(** What a history of events says of the jobs of a pool. *)
From Verif Require Import Base Pool.

Section Spec.
  Context {job : Type}.
  (** The jobs accepted by execute, started, returned and panicked, each in order. *)
  Definition submitted (tr : list (event job)) : list job := flat_map (fun e => match e with E_execute j => [j] | _ => [] end) tr.
  Definition started (tr : list (event job)) : list job := flat_map (fun e => match e with E_start _ j => [j] | _ => [] end) tr.
  Definition returned (tr : list (event job)) : list job := flat_map (fun e => match e with E_return _ j => [j] | _ => [] end) tr.
  Definition panicked (tr : list (event job)) : list job := flat_map (fun e => match e with E_panic _ j => [j] | _ => [] end) tr.
  (** Events of the worker threads; the others are those of the pool's owner. *)
  Definition by_worker (e : event job) : bool :=
    match e with E_worker | E_start _ _ | E_return _ _ | E_panic _ _ => true | _ => false end.
  Definition worker_steps (tr : list (event job)) : nat := length (filter by_worker tr).
  (** The events of worker [i] that concern jobs. *)
  Definition of_worker (i : nat) (tr : list (event job)) : list (event job) :=
    filter (fun e => match e with E_start k _ | E_return k _ | E_panic k _ => k =? i | _ => false end) tr.
  (** Jobs one after the other: each runs to its end before the next starts, and none
      starts after one that panicked. *)
  Inductive one_by_one (i : nat) : list (event job) -> Prop :=
  | ob_idle : one_by_one i []
  | ob_busy : forall j, one_by_one i [E_start i j]
  | ob_panic : forall j, one_by_one i [E_start i j; E_panic i j]
  | ob_next : forall j l, one_by_one i l -> one_by_one i (E_start i j :: E_return i j :: l).
  (** A run of a pool of [n] threads from its creation. *)
  Definition history (returns panics : job -> Prop) (n : nat) (tr : list (event job)) (s : pool job) : Prop :=
    exists s0, pool_new n = Some s0 /\ runs returns panics s0 tr s.
End Spec.
