(** How deep lookups of name servers' addresses are nested (C91). The nesting of a trace is
    that of TraceSpec: a lookup that needs the address of a name server looks it up, and adds
    the trace of that lookup to its own. *)
From Verif Require Import Base Types Name NameSpec Codec Cache Resolver ResolverSpec LocalSpec LocalSpec2.

(** A record, if it is an NS record, belongs to one of the given zones. *)
Definition of_zones (Z : list name) (r : record) : Prop := forall t, r_data r = D_NS t -> In (r_node r) Z.
Definition known_zones (Z : list name) (r : record) : Prop := plain_record r /\ of_zones Z r.

(** All servers there are, and all other threads, speak of the given zones only. *)
Record only_zones (p : profile) (env : environment) (Z : list name) : Prop := mkOnlyZones {
  oz_root : In [46%N] Z;
  oz_env : env_ok (known_zones Z) env;
  oz_net : forall n a x d m, ev_net (env n) a x = Some d -> decode_message p (firstn 512 d) = Done (Ok m) -> h_id (m_header m) = ev_id (env n) ->
    Forall (of_zones Z) (all_records m) }.

(** The replies one lookup took, and what other threads stored meanwhile. *)
Record heard_zones (p : profile) (env : environment) (w w' : world) (ex : list exchange) (Z : list name) : Prop := mkHeardZones {
  hz_root : In [46%N] Z;
  hz_cache : cache_ok (known_zones Z) (ev_now (env (w_n w))) (w_cache w);
  hz_others : others_store (known_zones Z) env w w';
  hz_taken : forall n x m, taken p env ex n x m -> Forall (of_zones Z) (all_records m) }.
