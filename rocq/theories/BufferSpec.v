(** Specification of the bit buffer, independent of the implementation:
    a string of bits with a read and a write cursor. Nothing here mentions
    the model of buffer.rs. *)
From Verif Require Import Base.

(** A bit string, most significant bit first. *)
Definition bits := list bool.

(** Number denoted by a bit string (most significant bit first). *)
Definition val (l : bits) : N :=
  fold_left (fun a b => (2 * a + (if b : bool then 1 else 0))%N) l 0%N.

(** The [n] low bits of [v], most significant first. *)
Definition field (n : nat) (v : N) : bits :=
  map (fun i => N.testbit v (N.of_nat (n - 1 - i))) (seq 0 n).

(** Bytes holding a bit string: 8 bits per byte, the last byte zero padded. *)
Fixpoint pack_n (k : nat) (l : bits) : list N :=
  match k with
  | 0 => []
  | S k' => val (firstn 8 (l ++ repeat false 8)) :: pack_n k' (skipn 8 l)
  end.
Definition pack (l : bits) : list N := pack_n ((length l + 7) / 8) l.

(** The bit string of a byte string. *)
Definition unpack (l : list N) : bits := flat_map (field 8) l.

(** Abstract state: content and cursors. *)
Record sbuf := mkS { content : bits; rd : nat; wr : nat }.

(** Calls of the public interface. *)
Inductive op :=
| OSetRead (n : nat)
| OSetWrite (n : nat)
| OTruncate (n : nat)
| OReadBits (n : nat)
| OReadU8
| OReadU16
| OReadU32
| OReadBytes (n : nat)
| OWriteBits (v : N) (n : nat)
| OWriteU8 (v : N)
| OWriteU16 (v : N)
| OWriteU32 (v : N)
| OWriteBytes (l : list N).

(** What the caller sees of a call. *)
Inductive obs :=
| Unit
| Num (x : option N)
| Vec (x : option (list N)).

(** [n] bits at the read cursor, if there are that many. *)
Definition take_bits (s : sbuf) (n : nat) : option bits * sbuf :=
  if rd s + n <=? length (content s)
  then (Some (firstn n (skipn (rd s) (content s))), mkS (content s) (rd s + n) (wr s))
  else (None, s).

(** Overwrite / extend the content with [l] at the write cursor. *)
Definition put_bits (s : sbuf) (l : bits) : sbuf :=
  mkS (firstn (wr s) (content s) ++ l ++ skipn (wr s + length l) (content s))
      (rd s) (wr s + length l).

(** Group a bit string in [k] bytes. *)
Fixpoint chunks (k : nat) (l : bits) : list N :=
  match k with
  | 0 => []
  | S k' => val (firstn 8 l) :: chunks k' (skipn 8 l)
  end.

Definition sstep (s : sbuf) (o : op) : exec (obs * sbuf) :=
  let num n := let '(r, s') := take_bits s n in Done (Num (option_map val r), s') in
  match o with
  | OSetRead n =>
      if n <=? length (content s) then Done (Unit, mkS (content s) n (wr s)) else Panic PExplicit
  | OSetWrite n =>
      if n <=? length (content s) then Done (Unit, mkS (content s) (rd s) n) else Panic PExplicit
  | OTruncate n =>
      Done (Unit, mkS (firstn n (content s)) (Nat.min (rd s) n) (Nat.min (wr s) n))
  | OReadBits n => if n <=? 8 then num n else Panic PAssert
  | OReadU8 => num 8
  | OReadU16 => num 16
  | OReadU32 => num 32
  | OReadBytes n =>
      let '(r, s') := take_bits s (n * 8) in Done (Vec (option_map (chunks n) r), s')
  | OWriteBits v n =>
      if (1 <=? n) && (n <=? 8) then Done (Unit, put_bits s (field n v)) else Panic PAssert
  | OWriteU8 v => Done (Unit, put_bits s (field 8 v))
  | OWriteU16 v => Done (Unit, put_bits s (field 16 v))
  | OWriteU32 v => Done (Unit, put_bits s (field 32 v))
  | OWriteBytes l => Done (Unit, put_bits s (unpack l))
  end.

(** Run a sequence of calls: the observations made, and the final state or
    the panic that stopped the run. *)
Fixpoint run {S} (step : S -> op -> exec (obs * S)) (s : S) (ops : list op)
  : list obs * exec S :=
  match ops with
  | [] => ([], Done s)
  | o :: ops' =>
      match step s o with
      | Done (x, s') => let '(xs, e) := run step s' ops' in (x :: xs, e)
      | Panic k => ([], Panic k)
      | Diverge => ([], Diverge)
      end
  end.
