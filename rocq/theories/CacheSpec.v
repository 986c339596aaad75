(** What a map with expiry is. Only the vocabulary of calls and replies is taken from
    the model. *)
From Verif Require Import Base Cache.

Section Spec.
  Context {K V : Type} (eqb : K -> K -> bool).

  (** The entry of a key after a history, newest call first: expiry and value of the last
      [set] that no [remove] followed, with the later updates by [on_found] that came
      before the expiry. Neither reading nor cleaning matters. *)
  Fixpoint stored (h : list (op K V)) (k : K) : option (N * V) :=
    match h with
    | [] => None
    | O_set k' ttl v t _ :: h' => if eqb k' k then Some (t + ttl, v)%N else stored h' k
    | O_remove k' _ :: h' => if eqb k' k then None else stored h' k
    | O_on_found k' f t :: h' =>
        if eqb k' k then match stored h' k with Some (e, v) => Some (e, if (t <? e)%N then snd (f e v) else v) | None => None end
        else stored h' k
    | O_get _ _ :: h' | O_clean _ :: h' => stored h' k
    end.

  (** An entry seen at a time: at or after its expiry there is none. *)
  Definition at_time (t : N) (o : option (N * V)) : option (N * V) :=
    match o with Some (e, v) => if (t <? e)%N then Some (e, v) else None | None => None end.

  (** The right reply to a call after a history (newest first). *)
  Definition right_reply (h : list (op K V)) (o : op K V) : reply V :=
    match o with
    | O_get k t | O_remove k t => R_entry (at_time t (stored h k))
    | O_set k _ _ _ t' => R_entry (at_time t' (stored h k))
    | O_on_found k _ t => R_found match at_time t (stored h k) with Some _ => true | None => false end
    | O_clean _ => R_unit
    end.
  (** The right replies to a history, oldest first, that comes after [past]. *)
  Fixpoint right_replies (past h : list (op K V)) : list (exec (reply V)) :=
    match h with [] => [] | o :: h' => Done (right_reply past o) :: right_replies (o :: past) h' end.

  (** A history, oldest first, whose clock readings never go back, from time [lo] on. *)
  Inductive timed : N -> list (op K V) -> Prop :=
  | timed_nil : forall lo, timed lo []
  | timed_cons : forall lo lo' hi o h, (lo <= lo')%N -> readings_in lo' hi o -> timed hi h -> timed lo (o :: h).

  (** Calls that cannot panic by themselves. *)
  Definition harmless (o : op K V) : Prop :=
    match o with
    | O_set _ ttl _ t _ => (t + ttl < INSTANT_END)%N
    | O_on_found _ f _ => forall e v, fst (f e v) = None
    | _ => True
    end.

  (** A log (newest event first) explained by a history (oldest first) of calls with their
      replies: every return is in it with its reply, under the call that was made; every
      call of the history was made; and a call made after a return comes after the
      returned call. *)
  Definition before {A} (l : list A) (a b : A) : Prop := exists l1 l2 l3, l = l1 ++ a :: l2 ++ b :: l3.
  Definition explains (h : list (nat * op K V * exec (reply V))) (log : list (event K V)) : Prop :=
    NoDup (map (fun x => fst (fst x)) h) /\
    (forall id r, In (E_return id r) log -> exists o, In (id, o, r) h) /\
    (forall id o r, In (id, o, r) h -> In (E_call id (call_of o)) log) /\
    (forall id id' r c, before log (E_call id' c) (E_return id r) -> In id' (map (fun x => fst (fst x)) h) ->
       before (map (fun x => fst (fst x)) h) id id').
End Spec.
