(** Model of src/nameserver/zones/tokens.rs. A file is a list of lines, a line a list
    of code points (without its line end, as [BufRead::lines] gives it), or [None] for
    a line that cannot be read (I/O error, not UTF-8). Opened files do not change. *)
From Verif Require Import Base Types Name Codec Zone.

Definition line := list N.
Definition file := list (option line).
(** Contents by path; [None]: the file cannot be opened. *)
Definition filesys := list N -> option file.

(** UTF-8 bytes of a code point / text: what [String::push] appends. *)
Definition utf8_char (c : N) : list N :=
  (if c <? 128 then [c]
   else if c <? 2048 then [192 + c / 64; 128 + c mod 64]
   else if c <? 65536 then [224 + c / 4096; 128 + c / 64 mod 64; 128 + c mod 64]
   else [240 + c / 262144; 128 + c / 4096 mod 64; 128 + c / 64 mod 64; 128 + c mod 64])%N.
Definition utf8_encode (s : list N) : list N := flat_map utf8_char s.

(** [char::is_whitespace]: the Unicode White_Space characters. *)
Definition is_ws (c : N) : bool :=
  ((9 <=? c) && (c <=? 13) || (c =? 32) || (c =? 133) || (c =? 160) || (c =? 5760)
   || (8192 <=? c) && (c <=? 8202) || (c =? 8232) || (c =? 8233) || (c =? 8239)
   || (c =? 8287) || (c =? 12288))%N.

(** tokens.rs:21-28, struct Tokenizer. [tk_cur] is [line_chars[pos..]] (the code never
    looks at characters before [pos]). *)
Record tok := mkTok {
  tk_rest : file; tk_cur : line; tk_peeked : list token; tk_multi : bool; tk_line : nat }.

(** tokens.rs:33-46, Tokenizer::from_file (after opening) *)
Definition tok_new (f : file) : tok := mkTok f [] [] false 0.

(** tokens.rs:148-149: the line holds something else than white space and a comment. *)
Fixpoint has_content (l : line) : bool :=
  match l with
  | [] => false
  | c :: l' => if is_ws c then has_content l' else negb (c =? 59)%N
  end.

(** tokens.rs:139-155, load_new_line: [Err]: read error; [None]: end of file; else
    the line loaded, the lines after it, and the new line number. *)
Fixpoint load_new_line (f : file) (n : nat) : result (option line * file * nat) token_err :=
  match f with
  | [] => Ok (None, [], n)
  | None :: _ => Err TE_ReadErr
  | Some l :: f' => if has_content l then Ok (Some l, f', S n) else load_new_line f' (S n)
  end.

Definition BACKSLASH : N := 92.

(** The loops of tokens.rs:177-192 and 260-275: at most [n] rounds, each looking at
    [line_chars[pos]] (out of bounds: panic), escapes (292-300) consume two characters.
    Collects the characters up to a ';', '(', ')' or white space. *)
Fixpoint word_loop (n : nat) (cur acc : line) : exec (result (line * line) token_err) :=
  match n with
  | 0 => Done (Ok (acc, cur))
  | S n' =>
      match cur with
      | [] => Panic PIndex
      | ch :: cur' =>
          if (ch =? BACKSLASH)%N then
            match cur' with
            | [] => Done (Err TE_InvalidEscape)
            | c :: cur'' => word_loop n' cur'' (acc ++ [c])
            end
          else if ((ch =? 59) || (ch =? 40) || (ch =? 41))%N then Done (Ok (acc, cur))
          else if is_ws ch then Done (Ok (acc, cur))
          else word_loop n' cur' (acc ++ [ch])
      end
  end.

(** The loop of tokens.rs:209-223; the boolean is [closed]. *)
Fixpoint quote_loop (n : nat) (cur acc : line) : exec (result (bool * line * line) token_err) :=
  match n with
  | 0 => Done (Ok (false, acc, cur))
  | S n' =>
      match cur with
      | [] => Panic PIndex
      | ch :: cur' =>
          if (ch =? BACKSLASH)%N then
            match cur' with
            | [] => Done (Err TE_InvalidEscape)
            | c :: cur'' => quote_loop n' cur'' (acc ++ [c])
            end
          else if (ch =? 34)%N then Done (Ok (true, acc, cur'))
          else quote_loop n' cur' (acc ++ [ch])
      end
  end.

(** tokens.rs:158-169, process_whitespace *)
Fixpoint skip_ws (l : line) : line :=
  match l with
  | c :: l' => if is_ws c then skip_ws l' else l
  | [] => []
  end.

(** [str.parse::<u32>()]: an optional '+', then at least one digit, value below 2^32. *)
Fixpoint digits_value (acc : N) (s : list N) : option N :=
  match s with
  | [] => Some acc
  | c :: s' => if ((48 <=? c) && (c <=? 57))%N then digits_value (acc * 10 + (c - 48))%N s' else None
  end.
Definition parse_digits (s : list N) : option N :=
  match s with
  | [] => None
  | _ => match digits_value 0 s with
         | Some v => if (v <? 4294967296)%N then Some v else None
         | None => None
         end
  end.
Definition parse_u32 (s : list N) : option N :=
  match s with
  | c :: s' => if (c =? 43)%N then parse_digits s' else parse_digits s
  | [] => None
  end.

Definition with_cur (t : tok) (c : line) : tok :=
  mkTok (tk_rest t) c (tk_peeked t) (tk_multi t) (tk_line t).
Definition with_multi (t : tok) (c : line) (m : bool) : tok :=
  mkTok (tk_rest t) c (tk_peeked t) m (tk_line t).
Definition with_peeked (t : tok) (ps : list token) : tok :=
  mkTok (tk_rest t) (tk_cur t) ps (tk_multi t) (tk_line t).

(** A tokenizer or parser action: after an error the state is never looked at again. *)
Definition T (A : Type) : Type := tok -> exec (result (A * tok) zone_err).
Definition retT {A} (a : A) : T A := fun t => Done (Ok (a, t)).
Definition failT {A} (e : zone_err) : T A := fun _ => Done (Err e).
Definition bindTk {A B} (m : T A) (k : A -> T B) : T B :=
  fun t => bindR (m t) (fun x => k (fst x) (snd x)).
Notation "'tk!' x ':=' m 'in' k" := (bindTk m (fun x => k))
  (at level 200, x pattern, m at level 100, k at level 200, right associativity).

(** tokens.rs:172-199, process_directive: [cur] starts at the '$'. *)
Definition process_directive (t : tok) (cur : line) : exec (result (token * tok) token_err) :=
  match cur with
  | [] => Panic PIndex
  | ch :: cur' =>
      assert_ (ch =? 36)%N
        (let! r := word_loop (length cur') cur' [36%N] in
         match r with
         | Err e => Done (Err e)
         | Ok (d, c) =>
             let s := utf8_encode d in
             if bytes_eqb s (s2b "$ORIGIN") then Done (Ok (T_OriginDir, with_cur t c))
             else if bytes_eqb s (s2b "$INCLUDE") then Done (Ok (T_IncludeDir, with_cur t c))
             else Done (Err (TE_DirMalformed s))
         end)
  end.

(** tokens.rs:202-230, process_quoted_string *)
Definition process_quoted_string (t : tok) (cur : line) : exec (result (token * tok) token_err) :=
  match cur with
  | [] => Panic PIndex
  | ch :: cur' =>
      assert_ (ch =? 34)%N
        (let! r := quote_loop (length cur') cur' [] in
         match r with
         | Err e => Done (Err e)
         | Ok (closed, s, c) =>
             if closed then Done (Ok (T_QString (utf8_encode s), with_cur t c))
             else Done (Err (TE_QStrNotClosed (utf8_encode s)))
         end)
  end.

(** tokens.rs:257-284, process_string_or_number *)
Definition process_string_or_number (t : tok) (cur : line) : exec (result (token * tok) token_err) :=
  let! r := word_loop (length cur) cur [] in
  match r with
  | Err e => Done (Err e)
  | Ok (w, c) =>
      let s := utf8_encode w in
      if bytes_eqb s [64%N] then Done (Ok (T_At, with_cur t c))
      else match parse_u32 s with
           | Some n => Done (Ok (T_Number n, with_cur t c))
           | None => Done (Ok (T_String s, with_cur t c))
           end
  end.

(** Where tokens.rs:65-81 leads: a token is returned, or the character at [pos] is
    looked at. *)
Inductive fetched := F_Token (tk : token) (t : tok) | F_Chars (t : tok).

(** tokens.rs:65-81 *)
Definition fetch (t : tok) : result fetched token_err :=
  match tk_peeked t with
  | tk :: ps => Ok (F_Token tk (with_peeked t ps))
  | [] =>
      match tk_cur t with
      | _ :: _ => Ok (F_Chars t)
      | [] =>
          match load_new_line (tk_rest t) (tk_line t) with
          | Err e => Err e
          | Ok (None, f, n) =>
              if tk_multi t then Err TE_MlMissingClose
              else Ok (F_Token T_End (mkTok f [] [] (tk_multi t) n))
          | Ok (Some l, f, n) =>
              let t' := mkTok f l [] (tk_multi t) n in
              if tk_multi t then Ok (F_Chars t') else Ok (F_Token T_NewLine t')
          end
      end
  end.

(** tokens.rs:52-63: only at line 0. [inl]: carry on with this state. *)
Definition bootstrap (t : tok) : result (tok + (token * tok)) token_err :=
  if tk_line t =? 0 then
    match load_new_line (tk_rest t) (tk_line t) with
    | Err e => Err e
    | Ok (None, f, n) =>
        if tk_multi t then Err TE_MlMissingClose
        else Ok (inr (T_End, mkTok f (tk_cur t) (tk_peeked t) (tk_multi t) n))
    | Ok (Some l, f, n) => Ok (inl (mkTok f l (tk_peeked t) (tk_multi t) n))
    end
  else Ok (inl t).

(** tokens.rs:51-103, Tokenizer::next. [fuel] bounds the recursive calls (lines 91, 95,
    99); [next] supplies enough (TokensProofs). *)
Fixpoint next_rec (fuel : nat) (t : tok) : exec (result (token * tok) token_err) :=
  match fuel with
  | 0 => Diverge
  | S fuel' =>
      match bootstrap t with
      | Err e => Done (Err e)
      | Ok (inr x) => Done (Ok x)
      | Ok (inl t1) =>
          match fetch t1 with
          | Err e => Done (Err e)
          | Ok (F_Token tk t2) => Done (Ok (tk, t2))
          | Ok (F_Chars t2) =>
              match tk_cur t2 with
              | [] => Panic PIndex
              | ch :: cur' =>
                  if ((ch =? 32) || (ch =? 9))%N then Done (Ok (T_Blank, with_cur t2 (skip_ws (ch :: cur'))))
                  else if (ch =? 36)%N then process_directive t2 (ch :: cur')
                  else if (ch =? 34)%N then process_quoted_string t2 (ch :: cur')
                  else if (ch =? 40)%N then
                    if tk_multi t2 then Done (Err TE_MlUnexpectedOpen)
                    else next_rec fuel' (with_multi t2 cur' true)
                  else if (ch =? 41)%N then
                    if tk_multi t2 then next_rec fuel' (with_multi t2 cur' false)
                    else Done (Err TE_MlUnexpectedClose)
                  else if (ch =? 59)%N then next_rec fuel' (with_cur t2 [])
                  else process_string_or_number t2 (ch :: cur')
              end
          end
      end
  end.

(** Characters and lines left, twice, and the peeked tokens. *)
Definition line_size (l : option line) : nat :=
  match l with Some l => S (length l) | None => 1 end.
Definition tok_size (t : tok) : nat :=
  length (tk_cur t) + list_sum (map line_size (tk_rest t)) + length (tk_peeked t).

(** [Tokenizer::next()?] in the parser: token errors become parse errors. *)
Definition next : T token := fun t =>
  let! r := next_rec (S (tok_size t)) t in
  match r with Ok x => Done (Ok x) | Err e => Done (Err (zone_err_of_token e)) end.

(** tokens.rs:107-115, next_after_blanks; every blank shrinks [tok_size]. *)
Fixpoint skip_blanks (fuel : nat) : T token :=
  match fuel with
  | 0 => fun _ => Diverge
  | S fuel' => tk! x := next in match x with T_Blank => skip_blanks fuel' | v => retT v end
  end.
Definition next_after_blanks : T token := fun t => skip_blanks (S (S (tok_size t))) t.

(** tokens.rs:118-122, peek *)
Definition peek : T token := fun t =>
  bindR (next t) (fun x => Done (Ok (fst x, with_peeked (snd x) (tk_peeked (snd x) ++ [fst x])))).

(** tokens.rs:126-130, peek_after_blanks *)
Definition peek_after_blanks : T token := fun t =>
  bindR (next_after_blanks t) (fun x => Done (Ok (fst x, with_peeked (snd x) (tk_peeked (snd x) ++ [fst x])))).
