(** Model of src/shared/buffer/buffer.rs: the bit buffer used by the DNS codec. *)
From Verif Require Import Base.

(** buffer.rs:2-7, struct BitsBuf. Positions are in bits ([usize] as [nat]). *)
Record bitsbuf := mkBuf {
  buf : list N;
  last : nat;
  w_pos : nat;
  r_pos : nat;
}.

(** buffer.rs:18-25, BitsBuf::new *)
Definition new_buf : bitsbuf := mkBuf [] 0 0 0.

(** buffer.rs:29-36, BitsBuf::from_raw_bytes *)
Definition from_raw_bytes (l : list N) : bitsbuf :=
  mkBuf l (length l * 8) (length l * 8) 0.

(** u8 operators used below. Shift amounts in buffer.rs are always in 0..7,
    so the debug shift-overflow check never fires. *)
Definition shl8 (x : N) (k : nat) : N := u8 (N.shiftl x (N.of_nat k)).
Definition shr8 (x : N) (k : nat) : N := N.shiftr x (N.of_nat k).
Definition not8 (x : N) : N := N.lxor x 255.
(** [((1_u16 << k) - 1) as u8] for k in 0..8 *)
Definition mask8 (k : nat) : N := u8 (N.shiftl 1 (N.of_nat k) - 1).

(** [v[i] = f(v[i])]; index panic when out of range. *)
Definition upd (l : list N) (i : nat) (f : N -> N) : exec (list N) :=
  match nth_error l i with
  | Some x => Done (firstn i l ++ f x :: skipn (S i) l)
  | None => Panic PIndex
  end.

(** [self.buf.last_mut()]: apply [f] to the last element, if any. *)
Definition map_last (l : list N) (f : N -> N) : list N :=
  match l with
  | [] => []
  | _ => removelast l ++ [f (List.last l 0%N)]
  end.

(** buffer.rs:40-62, BitsBuf::truncate *)
Definition truncate (b : bitsbuf) (len : nat) : bitsbuf :=
  if last b <=? len then b
  else
    let last_byte := (len + 7) / 8 in
    let l1 := firstn last_byte (buf b) in
    let l2 :=
      if len mod 8 =? 0 then l1
      else
        let bits_to_discard := 8 - len mod 8 in
        let discard_mask := not8 (mask8 bits_to_discard) in
        map_last l1 (fun x => N.land x discard_mask) in
    mkBuf l2 len
      (if len <? w_pos b then len else w_pos b)
      (if len <? r_pos b then len else r_pos b).

(** buffer.rs:65-67, BitsBuf::into_vec *)
Definition into_vec (b : bitsbuf) : list N := buf b.

(** buffer.rs:71-79, read_pos / write_pos *)
Definition read_pos (b : bitsbuf) : nat := r_pos b.
Definition write_pos (b : bitsbuf) : nat := w_pos b.

(** buffer.rs:84-89, BitsBuf::set_read_pos (panics when beyond the length) *)
Definition set_read_pos (b : bitsbuf) (r : nat) : exec bitsbuf :=
  if last b <? r then Panic PExplicit
  else Done (mkBuf (buf b) (last b) (w_pos b) r).

(** buffer.rs:94-99, BitsBuf::set_write_pos *)
Definition set_write_pos (b : bitsbuf) (w : nat) : exec bitsbuf :=
  if last b <? w then Panic PExplicit
  else Done (mkBuf (buf b) (last b) w (r_pos b)).

(** buffer.rs:108-139, BitsBuf::read_bits *)
Definition read_bits (b : bitsbuf) (n : nat) : exec (option N * bitsbuf) :=
  assert_ (n <=? 8) (
  if n =? 0 then Done (Some 0%N, b)
  else if last b <? r_pos b + n then Done (None, b)
  else
    let bytes_offset := r_pos b / 8 in
    let bits_offset := r_pos b mod 8 in
    let remaining_bits := 8 - bits_offset in
    let! read :=
      if n <=? remaining_bits then
        let! x := index (buf b) bytes_offset in
        let bits_masked := N.land x (mask8 remaining_bits) in
        Done (shr8 bits_masked (remaining_bits - n))
      else
        let! x := index (buf b) bytes_offset in
        let first := N.land x (mask8 remaining_bits) in
        let first := shl8 first (n - remaining_bits) in
        let! y := index (buf b) (bytes_offset + 1) in
        let second := shr8 y (8 - (n - remaining_bits)) in
        Done (N.lor first second) in
    Done (Some read, mkBuf (buf b) (last b) (w_pos b) (r_pos b + n))).

(** buffer.rs:143-145, BitsBuf::read_u8 *)
Definition read_u8 (b : bitsbuf) : exec (option N * bitsbuf) := read_bits b 8.

(** [self.read_bits(8).unwrap()] *)
Definition read_u8_unwrap (b : bitsbuf) : exec (N * bitsbuf) :=
  let! (o, b') := read_bits b 8 in
  let! x := unwrap o in
  Done (x, b').

(** buffer.rs:149-157, BitsBuf::read_u16 *)
Definition read_u16 (b : bitsbuf) : exec (option N * bitsbuf) :=
  if last b <? r_pos b + 16 then Done (None, b)
  else
    let! (x1, b1) := read_u8_unwrap b in
    let! (x2, b2) := read_u8_unwrap b1 in
    Done (Some (N.lor (u16 (N.shiftl x1 8)) x2), b2).

(** buffer.rs:161-171, BitsBuf::read_u32 *)
Definition read_u32 (b : bitsbuf) : exec (option N * bitsbuf) :=
  if last b <? r_pos b + 32 then Done (None, b)
  else
    let! (x1, b1) := read_u8_unwrap b in
    let! (x2, b2) := read_u8_unwrap b1 in
    let! (x3, b3) := read_u8_unwrap b2 in
    let! (x4, b4) := read_u8_unwrap b3 in
    Done (Some (N.lor (N.lor (N.lor (u32 (N.shiftl x1 24)) (u32 (N.shiftl x2 16)))
                             (u32 (N.shiftl x3 8))) x4), b4).

Fixpoint read_n (b : bitsbuf) (n : nat) : exec (list N * bitsbuf) :=
  match n with
  | 0 => Done ([], b)
  | S n' =>
      let! (x, b1) := read_u8_unwrap b in
      let! (xs, b2) := read_n b1 n' in
      Done (x :: xs, b2)
  end.

(** buffer.rs:193-203, BitsBuf::read_bytes_vec. BitsBuf::read_bytes::<N>
    (177-187) is the same code with a fixed-size array. *)
Definition read_bytes_vec (b : bitsbuf) (n : nat) : exec (option (list N) * bitsbuf) :=
  if last b <? r_pos b + n * 8 then Done (None, b)
  else
    let! (l, b') := read_n b n in
    Done (Some l, b').

(** buffer.rs:212-247, BitsBuf::write_bits. [usize] subtraction at line 217
    cannot underflow (invariant w_pos <= 8 * len, see BufferProofs). *)
Definition write_bits (b : bitsbuf) (bits : N) (n : nat) : exec bitsbuf :=
  assert_ ((n <=? 8) && (0 <? n)) (
  let bits := N.land bits (mask8 n) in
  let l := if length (buf b) * 8 - w_pos b <? n then buf b ++ [0%N] else buf b in
  let avail := 8 - w_pos b mod 8 in
  let! l' :=
    if n <=? avail then
      let bits_eraser := shl8 (mask8 n) (avail - n) in
      let bits_shifted := shl8 bits (avail - n) in
      let! l1 := upd l (w_pos b / 8) (fun x => N.land x (not8 bits_eraser)) in
      upd l1 (w_pos b / 8) (fun x => N.lor x bits_shifted)
    else
      let first_bits_shifted := shr8 bits (n - avail) in
      let first_bits_eraser := mask8 avail in
      let! l1 := upd l (w_pos b / 8) (fun x => N.land x (not8 first_bits_eraser)) in
      let! l2 := upd l1 (w_pos b / 8) (fun x => N.lor x first_bits_shifted) in
      let second_bits_shifted := N.land bits (mask8 (n - avail)) in
      let second_bits_shifted := shl8 second_bits_shifted (8 - (n - avail)) in
      let second_bits_eraser := mask8 (n - avail) in
      let second_bits_eraser := shl8 second_bits_eraser (8 - (n - avail)) in
      let! l3 := upd l2 (w_pos b / 8 + 1) (fun x => N.land x (not8 second_bits_eraser)) in
      upd l3 (w_pos b / 8 + 1) (fun x => N.lor x second_bits_shifted) in
  let w := w_pos b + n in
  Done (mkBuf l' (if last b <? w then w else last b) w (r_pos b))).

(** buffer.rs:251-253, BitsBuf::write_u8 *)
Definition write_u8 (b : bitsbuf) (x : N) : exec bitsbuf := write_bits b x 8.

(** buffer.rs:257-260, BitsBuf::write_u16 *)
Definition write_u16 (b : bitsbuf) (x : N) : exec bitsbuf :=
  let! b1 := write_bits b (u8 (N.shiftr x 8)) 8 in
  write_bits b1 (u8 x) 8.

(** buffer.rs:264-269, BitsBuf::write_u32 *)
Definition write_u32 (b : bitsbuf) (x : N) : exec bitsbuf :=
  let! b1 := write_bits b (u8 (N.shiftr x 24)) 8 in
  let! b2 := write_bits b1 (u8 (N.shiftr x 16)) 8 in
  let! b3 := write_bits b2 (u8 (N.shiftr x 8)) 8 in
  write_bits b3 (u8 x) 8.

(** buffer.rs:274-278, BitsBuf::write_bytes *)
Fixpoint write_bytes (b : bitsbuf) (l : list N) : exec bitsbuf :=
  match l with
  | [] => Done b
  | x :: l' => let! b1 := write_u8 b x in write_bytes b1 l'
  end.
