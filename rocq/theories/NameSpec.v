(** Specification of domain names: grammar, label structure, RFC 1035 wire form
    with compression. Independent of the model of name.rs. *)
From Verif Require Import Base.

Definition letter_or_digit (c : N) : Prop :=
  (48 <= c <= 57 \/ 65 <= c <= 90 \/ 97 <= c <= 122)%N.

(** Letters, digits, hyphens; not empty; no hyphen at either end. *)
Definition good_label (l : list N) : Prop :=
  l <> [] /\ Forall (fun c => letter_or_digit c \/ c = 45%N) l /\
  List.hd 0%N l <> 45%N /\ List.last l 0%N <> 45%N.

(** Text of a sequence of labels: each followed by a dot; the root is ".". *)
Definition dotted (ls : list (list N)) : list N := flat_map (fun l => l ++ [46%N]) ls.
Definition name_text (ls : list (list N)) : list N :=
  match ls with [] => [46%N] | _ => dotted ls end.

(** The names the library accepts. [is_name s ls]: [s] is the accepted name
    made of the labels [ls]. *)
Definition is_name (s : list N) (ls : list (list N)) : Prop :=
  s = name_text ls /\ Forall good_label ls /\ length s <= 255.
Definition accepted (s : list N) : Prop := exists ls, is_name s ls.

(** RFC 1035 3.1: uncompressed wire form. *)
Definition plain_wire (ls : list (list N)) : list N :=
  flat_map (fun l => N.of_nat (length l) :: l) ls ++ [0%N].

(** RFC 1035 4.1.4: [wire_name T pkt k ls j e]: at byte offset [k] of [pkt] there
    is a (possibly compressed) name with labels [ls], reached through [j]
    pointers, and the bytes it occupies at [k] end at offset [e]. [T] gives the
    meaning of the 14 bits of a pointer: [Some] in the RFC. *)
Inductive wire_name (T : N -> option nat) (pkt : list N) : nat -> list (list N) -> nat -> nat -> Prop :=
| wn_root : forall k,
    nth_error pkt k = Some 0%N ->
    wire_name T pkt k [] 0 (k + 1)
| wn_label : forall k l ls j e,
    1 <= length l <= 63 ->
    nth_error pkt k = Some (N.of_nat (length l)) ->
    firstn (length l) (skipn (k + 1) pkt) = l ->
    wire_name T pkt (k + 1 + length l) ls j e ->
    wire_name T pkt k (l :: ls) j e
| wn_pointer : forall k hi lo target ls j e,
    nth_error pkt k = Some hi ->
    (192 <= hi < 256)%N ->
    nth_error pkt (k + 1) = Some lo ->
    T ((hi - 192) * 256 + lo)%N = Some target ->
    wire_name T pkt target ls j e ->
    wire_name T pkt k ls (S j) (k + 2).

(** The RFC: a pointer's 14 bits are the offset from the start of the message. *)
Definition rfc_pointer (off : N) : option nat := Some (N.to_nat off).

(** Pointers the code gives their RFC meaning in both build profiles. *)
Definition low_pointer (off : N) : option nat :=
  if (off <? 8192)%N then Some (N.to_nat off) else None.

(** What the code does in release builds: the offset modulo 8192. *)
Definition wrapped_pointer (off : N) : option nat := Some (N.to_nat (off mod 8192)).

(** Label-wise zone containment. *)
Definition in_zone_spec (name_labels zone_labels : list (list N)) : Prop :=
  exists pre, name_labels = pre ++ zone_labels.

(** Equality of names ignoring ASCII case (RFC 1034 3.1). *)
Definition lower (c : N) : N := if ((65 <=? c) && (c <=? 90))%N then (c + 32)%N else c.
Definition same_ignoring_case (a b : list N) : Prop := map lower a = map lower b.
