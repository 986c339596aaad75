(** Which bytes of a packet make reading a name fail fatally (C10, C22): the way a reader of the
    name takes through the packet, up to a pointer. Independent of the model of name.rs. *)
From Verif Require Import Base Types NameSpec Codec CodecSpec.

(** [leads_to T pkt k ls j k']: reading the name at offset [k] one passes the labels [ls] and
    [j] pointers and comes to offset [k']. [T]: as in [wire_name]. A pointer is followed if it
    does not point beyond the end of the packet. *)
Inductive leads_to (T : N -> option nat) (pkt : list N) : nat -> list (list N) -> nat -> nat -> Prop :=
| lt_here : forall k, leads_to T pkt k [] 0 k
| lt_label : forall k l ls j k',
    1 <= length l <= 63 -> nth_error pkt k = Some (N.of_nat (length l)) -> firstn (length l) (skipn (k + 1) pkt) = l ->
    leads_to T pkt (k + 1 + length l) ls j k' -> leads_to T pkt k (l :: ls) j k'
| lt_pointer : forall k hi lo target ls j k',
    nth_error pkt k = Some hi -> (192 <= hi < 256)%N -> nth_error pkt (k + 1) = Some lo ->
    T ((hi - 192) * 256 + lo)%N = Some target -> target <= length pkt ->
    leads_to T pkt target ls j k' -> leads_to T pkt k ls (S j) k'.

(** At offset [k] there is a pointer that is fatal: beyond the end of the packet, or in debug
    builds beyond 8191. *)
Definition fatal_pointer (p : profile) (pkt : list N) (k : nat) : Prop :=
  exists hi lo, nth_error pkt k = Some hi /\ (192 <= hi < 256)%N /\ nth_error pkt (k + 1) = Some lo /\
  let off := ((hi - 192) * 256 + lo)%N in
  match p with
  | Debug => (8192 <= off)%N \/ length pkt < N.to_nat off
  | Release => length pkt < N.to_nat (off mod 8192)
  end.

(** The name at offset [k] runs into such a pointer, before the text read is longer than 255
    bytes (256 with its last dot) and after at most 15 other pointers. *)
Definition runs_into_fatal_pointer (p : profile) (pkt : list N) (k : nat) : Prop :=
  exists ls j k', leads_to (match p with Debug => low_pointer | Release => wrapped_pointer end) pkt k ls j k' /\
  length (dotted ls) <= 256 /\ j <= 15 /\ fatal_pointer p pkt k'.

(** [question_passes p pkt k e]: the question at offset [k] of a packet lets the reader go on
    to offset [e]: a name that can be read, then a type nobody knows (such questions are
    skipped) or one that is supported, of class IN. *)
Definition question_passes (p : profile) (pkt : list N) (k e : nat) : Prop :=
  exists ls j e0 a b c d,
    wire_name (match p with Debug => low_pointer | Release => wrapped_pointer end) pkt k ls j e0 /\ j <= 16 /\ accepted (name_text ls) /\
    firstn 4 (skipn e0 pkt) = [a; b; c; d] /\ e = e0 + 4 /\
    (~ known_type (a * 256 + b) \/ (exists t, usable_type t /\ type_number t = (a * 256 + b)%N) /\ c = 0%N /\ d = 1%N).
(** [n] questions in a row. *)
Inductive questions_pass (p : profile) (pkt : list N) : nat -> nat -> nat -> Prop :=
| qp_none : forall k, questions_pass p pkt 0 k k
| qp_more : forall n k e k', question_passes p pkt k e -> questions_pass p pkt n e k' -> questions_pass p pkt (S n) k k'.
