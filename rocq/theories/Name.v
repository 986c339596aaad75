(** Model of src/shared/dns/name.rs. A [Name] is the byte list of its string. *)
From Verif Require Import Base Buffer Types.

Definition name := list N.

Definition DOT : N := 46.
Definition HYPHEN : N := 45.

(** [str::split(c)] for an ASCII character: always at least one piece. *)
Fixpoint split (c : N) (s : list N) : list (list N) :=
  match s with
  | [] => [[]]
  | x :: s' =>
      if (x =? c)%N then [] :: split c s'
      else match split c s' with
           | h :: t => (x :: h) :: t
           | [] => [[x]]
           end
  end.

(** [str::rsplit(c)] *)
Definition rsplit (c : N) (s : list N) : list (list N) := rev (split c s).

(** [char::is_ascii_alphanumeric] *)
Definition alnum (c : N) : bool :=
  ((48 <=? c) && (c <=? 57) || (65 <=? c) && (c <=? 90) || (97 <=? c) && (c <=? 122))%N.

(** name.rs:143-162, validate_label. Works on bytes: for the UTF-8 strings
    Rust handles, the first (last) char is ASCII alphanumeric exactly when the
    first (last) byte is. *)
Definition validate_label (l : list N) : result unit name_err :=
  match l with
  | [] => Err NE_MalformedLabel
  | first :: _ =>
      if negb (alnum first) then Err NE_MalformedLabel
      else if negb (alnum (List.last l 0%N)) then Err NE_MalformedLabel
      else if forallb (fun c => alnum c || (c =? HYPHEN)%N) l then Ok tt
      else Err NE_MalformedLabel
  end.

(** the loop at name.rs:131-136 *)
Fixpoint validate_labels (ls : list (list N)) : result unit name_err :=
  match ls with
  | [] => Ok tt
  | l :: ls' =>
      if length l =? 0 then Err NE_MalformedLabel
      else match validate_label l with
           | Err e => Err e
           | Ok _ => validate_labels ls'
           end
  end.

(** [name.contains("..")] *)
Fixpoint has_dotdot (s : list N) : bool :=
  match s with
  | a :: ((b :: _) as s') => ((a =? DOT) && (b =? DOT))%N || has_dotdot s'
  | _ => false
  end.

(** name.rs:115-139, validate_name *)
Definition validate_name (s : list N) : result unit name_err :=
  if bytes_eqb s [DOT] then Ok tt
  else if 255 <? length s then Err NE_LongName
  else if negb (ends_with s [DOT]) then Err NE_RelativeName
  else if match s with c :: _ => (c =? DOT)%N | [] => false end then Err NE_MalformedName
  else if has_dotdot s then Err NE_MalformedName
  else validate_labels (split DOT (firstn (length s - 1) s)).

Definition is_ok {A E} (r : result A E) : bool := match r with Ok _ => true | Err _ => false end.

(** name.rs:31-34, Name::from_string *)
Definition name_from_string (s : list N) : result name name_err :=
  match validate_name s with
  | Ok _ => Ok s
  | Err e => Err e
  end.

(** [str::from_utf8(..).is_ok()]: well-formed UTF-8 (Unicode table 3-7). *)
Fixpoint utf8_valid (s : list N) : bool :=
  let cont c := ((128 <=? c) && (c <=? 191))%N in
  match s with
  | [] => true
  | a :: s1 =>
      if (a <? 128)%N then utf8_valid s1
      else match s1 with
      | [] => false
      | b :: s2 =>
          if ((194 <=? a) && (a <=? 223))%N then cont b && utf8_valid s2
          else match s2 with
          | [] => false
          | c :: s3 =>
              if (a =? 224)%N then ((160 <=? b) && (b <=? 191))%N && cont c && utf8_valid s3
              else if ((225 <=? a) && (a <=? 236) || (238 <=? a) && (a <=? 239))%N
                   then cont b && cont c && utf8_valid s3
              else if (a =? 237)%N then ((128 <=? b) && (b <=? 159))%N && cont c && utf8_valid s3
              else match s3 with
              | [] => false
              | d :: s4 =>
                  if (a =? 240)%N then ((144 <=? b) && (b <=? 191))%N && cont c && cont d && utf8_valid s4
                  else if ((241 <=? a) && (a <=? 243))%N then cont b && cont c && cont d && utf8_valid s4
                  else if (a =? 244)%N then ((128 <=? b) && (b <=? 143))%N && cont c && cont d && utf8_valid s4
                  else false
              end
          end
      end
  end.

(** Loop of Name::from_bytes, name.rs:44-82. State: [nm] = name_bytes, [paj] =
    pos_after_jump (bits), [nj] = n_jumps. [fuel] bounds the number of
    iterations; running out would be [Diverge] (shown not to happen, C08). *)
Fixpoint name_loop (p : profile) (fuel : nat) (nm : list N) (paj nj : nat) (b : bitsbuf)
  : exec (result (list N * nat) name_err * bitsbuf) :=
  match fuel with
  | 0 => Diverge
  | S fuel' =>
      let! (o, b1) := read_u8 b in
      match o with
      | None => Done (Err NE_BytesEnd, b1)
      | Some len_byte =>
          let tag := N.land len_byte 192 in
          if (tag =? 192)%N then
            if 15 <? nj then Done (Err NE_MaxRedir, b1)
            else
              let paj' := if nj =? 0 then read_pos b1 + 8 else paj in
              let! (o2, b2) := read_u8 b1 in
              match o2 with
              | None => Done (Err NE_BytesEnd, b2)
              | Some second =>
                  let jump := N.land (N.lor (u16 (N.shiftl len_byte 8)) second) 16383 in
                  let! jump8 := chk_u16 p (jump * 8)%N in
                  let! b3 := set_read_pos b2 (N.to_nat jump8) in
                  name_loop p fuel' nm paj' (S nj) b3
              end
          else if (tag =? 0)%N then
            if (63 <? len_byte)%N then Done (Err NE_LongLabel, b1)
            else if (len_byte =? 0)%N then Done (Ok (nm ++ [DOT], paj), b1)
            else
              let nm' := match nm with [] => [] | _ => nm ++ [DOT] end in
              let! (o2, b2) := read_bytes_vec b1 (N.to_nat len_byte) in
              match o2 with
              | None => Done (Err NE_BytesEnd, b2)
              | Some label =>
                  let nm'' := nm' ++ label in
                  if 255 <? length nm'' then Done (Err NE_LongName, b2)
                  else name_loop p fuel' nm'' paj nj b2
              end
          else Done (Err NE_MalformedLabel, b1)
      end
  end.

(** Iterations that suffice for any packet (see C08). *)
Definition name_fuel : nat := 300.
(* Conversion hint only: unfold these last. *)
Strategy 1000 [name_loop name_fuel].

(** name.rs:39-98, Name::from_bytes *)
Definition name_from_bytes (p : profile) (b : bitsbuf) : exec (result name name_err * bitsbuf) :=
  let! (r, b1) := name_loop p name_fuel [] 0 0 b in
  match r with
  | Err e => Done (Err e, b1)
  | Ok (nm, paj) =>
      let! b2 := if 0 <? paj then set_read_pos b1 paj else Done b1 in
      if utf8_valid nm then
        match validate_name nm with
        | Err e => Done (Err e, b2)
        | Ok _ => Done (Ok nm, b2)
        end
      else Done (Err NE_MalformedName, b2)
  end.

(** name.rs:102-111, Name::to_bytes without its debug_assert: one length byte
    ([as u8]) and the bytes of every dot-separated piece. *)
Definition name_wire (n : name) : list N :=
  flat_map (fun l => u8 (N.of_nat (length l)) :: l) (split DOT n).

(** name.rs:102-111, Name::to_bytes *)
Definition name_to_bytes (p : profile) (n : name) : exec (list N) :=
  debug_assert p (is_ok (validate_name n)) (Done (name_wire n)).

(** name.rs:174-176, Name::is_in_zone_root (derived, case-sensitive equality) *)
Definition is_in_zone_root (n z : name) : bool := bytes_eqb n z.

(** the loop at name.rs:183-191 *)
Fixpoint labels_match (nls zls : list (list N)) {struct zls} : bool :=
  match zls with
  | [] => true
  | zl :: zls' =>
      match nls with
      | [] => false
      | nl :: nls' => if bytes_eqb nl zl then labels_match nls' zls' else false
      end
  end.

(** name.rs:180-193, Name::is_in_zone *)
Definition is_in_zone (n z : name) : bool := labels_match (rsplit DOT n) (rsplit DOT z).

(** name.rs:198-209, Name::is_only_in_auth_zone *)
Definition is_only_in_auth_zone (n auth : name) (subs : list name) : bool :=
  if negb (is_in_zone n auth) then false
  else negb (existsb (fun s => is_in_zone n s) subs).
