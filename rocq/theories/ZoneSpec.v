(** What a zone store should do: a plain list of records in the order in which they
    were added. *)
From Coq Require Import Permutation.
From Verif Require Import Base Types Name Codec Zone.

(** The records of [rs] with that owner and type, in order. *)
Definition owned (n : name) (t : rtype) (rs : list record) : list record :=
  filter (fun r => bytes_eqb (r_node r) n && rtype_eqb (record_type r) t) rs.
Definition of_type (t : rtype) (rs : list record) : list record :=
  filter (fun r => rtype_eqb (record_type r) t) rs.
Definition lookup (rs : list record) (n : name) (t : rtype) : option (list record) :=
  match owned n t rs with [] => None | l => Some l end.

(** Same map, other iteration order (of the outer map and of the inner ones). *)
Definition reordered (m m' : zmap) : Prop :=
  exists m1, Forall2 (fun e e' => fst e = fst e' /\ Permutation (snd e) (snd e')) m m1 /\ Permutation m1 m'.

(** [built zn rs z]: [z] was made by creating, inserting and merging, in such a way
    that the records [rs] were added in this order; the hash maps may change their
    iteration order at any time. *)
Inductive built : name -> list record -> zone -> Prop :=
| built_new : forall zn, built zn [] (zone_new zn)
| built_insert : forall zn rs z r, built zn rs z -> built zn (rs ++ [r]) (zone_insert z r)
| built_merge : forall zn rs z zn' rs' z',
    built zn rs z -> built zn' rs' z' -> built zn (rs ++ rs') (zone_extend z z')
| built_reordered : forall zn rs z m,
    built zn rs z -> reordered (z_records z) m -> built zn rs (mkZone m (z_zone z)).

(** A zone that answers look-ups as the list [rs] does. *)
Definition holds (z : zone) (rs : list record) : Prop :=
  (forall p n t, zone_get p z n t = Done (lookup rs n t)) /\
  (forall t, Permutation (zone_get_all_of_type z t) (of_type t rs)).
