(** Model of src/resolver/back_end/cache.rs. A point in time (std [Instant]) and a
    duration are numbers of nanoseconds. Every [Instant::now()] of the code is an explicit
    argument, a clock reading. Not modelled: the Debug output; the cleaning thread is a
    thread that calls [clean] (lines 132-140); [max_cleaned] is never used by the code. *)
From Verif Require Import Base.

(** The largest representable [Instant] (64-bit Linux: seconds are an i64); going beyond
    it panics. *)
Definition INSTANT_END : N := (9223372036854775808 * 1000000000)%N.

Section Cache.
  Context {K V : Type} (eqb : K -> K -> bool).

  (** The HashMap, as a function (its iteration order is only seen by the Debug output). *)
  Definition cmap := K -> option (N * V).
  Definition upd (m : cmap) (k : K) (x : option (N * V)) : cmap := fun k' => if eqb k k' then x else m k'.

  (** cache.rs:28-31, struct Cache: the data, and whether its Mutex is poisoned, i.e. a
      thread has panicked while holding it ([lock().unwrap()] panics from then on). *)
  Record cache := mkCache { c_data : cmap; c_poisoned : bool }.

  (** cache.rs:33-49, default, new *)
  Definition cache_new : cache := mkCache (fun _ => None) false.

  (** cache.rs:156-158, is_expired, with the reading [now] *)
  Definition is_expired (exp now : N) : bool := (exp <=? now)%N.

  (** The methods, with their arguments (cache.rs:54-127). A callback maps the expiry and
      the value to a new value, and may panic. *)
  Definition callback := N -> V -> option panic_kind * V.
  Inductive call := C_get (k : K) | C_set (k : K) (ttl : N) (v : V) | C_remove (k : K) | C_on_found (k : K) (f : callback) | C_clean.

  Inductive reply := R_entry (o : option (N * V)) | R_found (b : bool) | R_unit.

  (** A call together with the clock readings it makes: [clean] reads the clock once for
      every entry. *)
  Inductive op :=
  | O_get (k : K) (t : N)
  | O_set (k : K) (ttl : N) (v : V) (t t' : N)
  | O_remove (k : K) (t : N)
  | O_on_found (k : K) (f : callback) (t : N)
  | O_clean (ts : K -> N).

  Definition call_of (o : op) : call :=
    match o with
    | O_get k _ => C_get k | O_set k ttl v _ _ => C_set k ttl v | O_remove k _ => C_remove k
    | O_on_found k f _ => C_on_found k f | O_clean _ => C_clean
    end.

  (** cache.rs:111-126, get_clone *)
  Definition cache_get (m : cmap) (k : K) (t : N) : exec reply * cache :=
    match m k with
    | None => (Done (R_entry None), mkCache m false)
    | Some (e, v) =>
        if is_expired e t then (Done (R_entry None), mkCache (upd m k None) false)
        else (Done (R_entry (Some (e, v))), mkCache m false)
    end.

  (** cache.rs:76-85, set. [t]: line 79, [t']: line 81. *)
  Definition cache_set (m : cmap) (k : K) (ttl : N) (v : V) (t t' : N) : exec reply * cache :=
    if (INSTANT_END <=? t + ttl)%N then (Panic POverflow, mkCache m true)
    else
      let m' := upd m k (Some (t + ttl, v))%N in
      match m k with
      | None => (Done (R_entry None), mkCache m' false)
      | Some (e, w) =>
          if is_expired e t' then (Done (R_entry None), mkCache m' false)
          else (Done (R_entry (Some (e, w))), mkCache m' false)
      end.

  (** cache.rs:89-97, remove *)
  Definition cache_remove (m : cmap) (k : K) (t : N) : exec reply * cache :=
    match m k with
    | None => (Done (R_entry None), mkCache m false)
    | Some (e, v) =>
        if is_expired e t then (Done (R_entry None), mkCache (upd m k None) false)
        else (Done (R_entry (Some (e, v))), mkCache (upd m k None) false)
    end.

  (** cache.rs:54-72, on_found: the callback runs while the lock is held. *)
  Definition cache_on_found (m : cmap) (k : K) (f : callback) (t : N) : exec reply * cache :=
    match m k with
    | None => (Done (R_found false), mkCache m false)
    | Some (e, v) =>
        if is_expired e t then (Done (R_found false), mkCache (upd m k None) false)
        else match f e v with
             | (Some p, v') => (Panic p, mkCache (upd m k (Some (e, v'))) true)
             | (None, v') => (Done (R_found true), mkCache (upd m k (Some (e, v'))) false)
             end
    end.

  (** cache.rs:101-105, clean: [ts k] is the reading made for the entry at [k] *)
  Definition cache_clean (m : cmap) (ts : K -> N) : exec reply * cache :=
    (Done R_unit,
     mkCache (fun k => match m k with Some (e, v) => if is_expired e (ts k) then None else Some (e, v) | None => None end) false).

  (** A call with the lock held (lines 60, 77, 90, 102, 116: [lock().unwrap()]) *)
  Definition cache_run (c : cache) (o : op) : exec reply * cache :=
    if c_poisoned c then (Panic PUnwrap, c)
    else match o with
         | O_get k t => cache_get (c_data c) k t
         | O_set k ttl v t t' => cache_set (c_data c) k ttl v t t'
         | O_remove k t => cache_remove (c_data c) k t
         | O_on_found k f t => cache_on_found (c_data c) k f t
         | O_clean ts => cache_clean (c_data c) ts
         end.

  (** A sequence of calls *)
  Fixpoint cache_runs (c : cache) (os : list op) : list (exec reply) * cache :=
    match os with
    | [] => ([], c)
    | o :: os' => let (r, c1) := cache_run c o in let (rs, c2) := cache_runs c1 os' in (r :: rs, c2)
    end.

  (** Threads sharing a cache (an [Arc<Cache>]). A thread calls a method, waits for the
      lock, runs the method's body, and returns, which releases the lock. The body starts
      by looking at the data and ends by having changed it, in separate steps: other
      threads run in between. The clock readings it makes lie between the two. *)
  Inductive pc :=
  | P_idle | P_waiting (id : nat) (c : call) | P_holding (id : nat) (c : call)
  | P_working (id : nat) (c : call) (seen : cache) (start : N) | P_finished (id : nat) (r : exec reply).
  Inductive event := E_call (id : nat) (c : call) | E_return (id : nat) (r : exec reply).
  Record sys := mkSys {
    y_cache : cache; y_lock : option nat; y_clock : N; y_pc : nat -> pc; y_next : nat; y_log : list event }.
  Definition sys_init (t : N) : sys := mkSys cache_new None t (fun _ => P_idle) 0 [].
  Definition upd_pc (f : nat -> pc) (i : nat) (x : pc) : nat -> pc := fun j => if Nat.eqb i j then x else f j.

  Definition readings_in (lo hi : N) (o : op) : Prop :=
    (lo <= hi)%N /\
    match o with
    | O_get _ t | O_remove _ t | O_on_found _ _ t => lo <= t <= hi
    | O_set _ _ _ t t' => lo <= t /\ t <= t' /\ t' <= hi
    | O_clean ts => forall k, lo <= ts k <= hi
    end%N.

  (** The log has the newest event first. *)
  Inductive step : sys -> sys -> Prop :=
  | st_tick : forall s t, (y_clock s <= t)%N -> step s (mkSys (y_cache s) (y_lock s) t (y_pc s) (y_next s) (y_log s))
  | st_call : forall s i c, y_pc s i = P_idle ->
      step s (mkSys (y_cache s) (y_lock s) (y_clock s) (upd_pc (y_pc s) i (P_waiting (y_next s) c)) (S (y_next s)) (E_call (y_next s) c :: y_log s))
  | st_lock : forall s i id c, y_pc s i = P_waiting id c -> y_lock s = None ->
      step s (mkSys (y_cache s) (Some i) (y_clock s) (upd_pc (y_pc s) i (P_holding id c)) (y_next s) (y_log s))
  | st_look : forall s i id c, y_pc s i = P_holding id c ->
      step s (mkSys (y_cache s) (y_lock s) (y_clock s) (upd_pc (y_pc s) i (P_working id c (y_cache s) (y_clock s))) (y_next s) (y_log s))
  | st_change : forall s i id c seen start o r ca, y_pc s i = P_working id c seen start -> call_of o = c ->
      readings_in start (y_clock s) o -> cache_run seen o = (r, ca) ->
      step s (mkSys ca (y_lock s) (y_clock s) (upd_pc (y_pc s) i (P_finished id r)) (y_next s) (y_log s))
  | st_return : forall s i id r, y_pc s i = P_finished id r ->
      step s (mkSys (y_cache s) None (y_clock s) (upd_pc (y_pc s) i P_idle) (y_next s) (E_return id r :: y_log s)).
  Inductive steps : sys -> sys -> Prop :=
  | steps_refl : forall s, steps s s
  | steps_snoc : forall s s' s'', steps s s' -> step s' s'' -> steps s s''.
End Cache.
Arguments cache : clear implicits.
Arguments call : clear implicits.
Arguments reply : clear implicits.
Arguments op : clear implicits.
Arguments callback : clear implicits.
Arguments pc : clear implicits.
Arguments event : clear implicits.
Arguments sys : clear implicits.
