(** What is said about where a zone file is wrong: the second component of ParseErrCtx
    (zones/errors.rs:6), a text made of a file, a line or a zone. The loops of Parser.v once
    more, with these contexts; the parsers of entries have none. *)
From Verif Require Import Base Types Name Codec Zone Tokens Parser.

(** The text, by how it was made: a file (parser_auth.rs:33, 67, parser_sub.rs:22); "parsing SOA
    record" (parser_auth.rs:49); "FILE, line: N" (parser_auth.rs:93, 109, parser_sub.rs:46, 59,
    65); "validating auth zone: ZONE" (parser.rs:44), "validating subzone: ZONE" (parser.rs:48). *)
Inductive place :=
| At_file (path : list N) | At_soa | At_line (path : list N) (n : nat)
| At_auth (zone_ : name) | At_sub (zone_ : name).

(** [map_err(|e| (e, place))?] *)
Definition placed {A} (w : place) (r : exec (result A zone_err)) : exec (result A (zone_err * place)) :=
  let! x := r in Done (match x with Ok a => Ok a | Err e => Err (e, w) end).

(** parser_auth.rs:86-129, parse_entries, and 64-81, parse_included_file; [path] is
    current_file. *)
Fixpoint parse_entries_at (fs : filesys) (fuel : nat) (path : list N) (s : pstate) (acc : zone) (t : tok)
  : exec (result zone (zone_err * place)) :=
  match fuel with
  | 0 => Diverge
  | S fuel' =>
      bindR (placed (At_line path (tk_line t)) (peek t)) (fun x =>
      let (tk, t1) := x in
      match tk with
      | T_End => Done (Ok acc)
      | _ =>
          bindR (placed (At_line path (tk_line t1)) (match tk with
                 | T_OriginDir => parse_origin s t1
                 | T_IncludeDir => parse_include s t1
                 | T_String _ | T_At | T_Blank => parse_record fuel' s t1
                 | _ => Done (Err (ZE_UnexpectedToken tk))
                 end)) (fun y =>
          match y with
          | (ZOrigin o, t2) => parse_entries_at fs fuel' path (with_orig s o) acc t2
          | (ZInclude path' o, t2) =>
              match fs path' with
              | None => Done (Err (ZE_ReadingErr, At_file path))
              | Some f =>
                  bindR (parse_entries_at fs fuel' path' (mkPS (ps_zone s) (ps_subs s) o (ps_ttl s) (ps_min s))
                           (zone_new (ps_zone s)) (tok_new f)) (fun z =>
                  parse_entries_at fs fuel' path s (zone_extend acc z) t2)
              end
          | (ZRecord r, t2) =>
              parse_entries_at fs fuel' path (with_ttl s (r_ttl r)) (zone_insert acc r) t2
          end)
      end)
  end.

(** parser_auth.rs:30-59, parse_auth_zone_file: first, with the contents of the file *)
Definition parse_auth_lines_at (fs : filesys) (fuel : nat) (c : params) (f : file) : exec (result zone (zone_err * place)) :=
  let s := mkPS (p_zone c) (map sp_zone (p_subs c)) (p_zone c) (p_ttl c) 0 in
  bindR (placed At_soa (parse_starting_soa_record s (tok_new f))) (fun x =>
  let '((soa, minimum), t) := x in
  bindR (parse_entries_at fs fuel (p_path c) (mkPS (ps_zone s) (ps_subs s) (ps_orig s) (ps_ttl s) minimum)
           (zone_new (ps_zone s)) t) (fun z =>
  Done (Ok (zone_insert z soa)))).
Definition parse_auth_zone_file_at (fs : filesys) (fuel : nat) (c : params) : exec (result zone (zone_err * place)) :=
  match fs (p_path c) with
  | None => Done (Err (ZE_ReadingErr, At_file (p_path c)))
  | Some f => parse_auth_lines_at fs fuel c f
  end.

(** parser_sub.rs:39-74, parse_entries *)
Fixpoint parse_sub_entries_at (fuel : nat) (path : list N) (zone_ : name) (cur_ttl min : N) (acc : zone) (t : tok)
  : exec (result zone (zone_err * place)) :=
  match fuel with
  | 0 => Diverge
  | S fuel' =>
      bindR (placed (At_line path (tk_line t)) (peek t)) (fun x =>
      let (tk, t1) := x in
      match tk with
      | T_End => Done (Ok acc)
      | T_String _ | T_At | T_Blank =>
          bindR (placed (At_line path (tk_line t1)) (parse_sub_record zone_ cur_ttl min t1)) (fun y =>
          parse_sub_entries_at fuel' path zone_ (r_ttl (fst y)) min (zone_insert acc (fst y)) (snd y))
      | _ => Done (Err (ZE_UnexpectedToken tk, At_line path (tk_line t1)))
      end)
  end.

(** parser_sub.rs:19-34, parse_sub_zone_file *)
Definition parse_sub_lines_at (fuel : nat) (c : sub_params) (f : file) : exec (result zone (zone_err * place)) :=
  parse_sub_entries_at fuel (sp_path c) (sp_zone c) (sp_ttl c) (sp_min c) (zone_new (sp_zone c)) (tok_new f).
Definition parse_sub_zone_file_at (fs : filesys) (fuel : nat) (c : sub_params) : exec (result zone (zone_err * place)) :=
  match fs (sp_path c) with
  | None => Done (Err (ZE_ReadingErr, At_file (sp_path c)))
  | Some f => parse_sub_lines_at fuel c f
  end.

(** the loop of parser.rs:32-40 *)
Fixpoint parse_sub_zone_files_at (fs : filesys) (fuel : nat) (cs : list sub_params) : exec (result (list zone) (zone_err * place)) :=
  match cs with
  | [] => Done (Ok [])
  | c :: cs' =>
      bindR (parse_sub_zone_file_at fs fuel c) (fun z =>
      bindR (parse_sub_zone_files_at fs fuel cs') (fun zs => Done (Ok (z :: zs))))
  end.

(** parser.rs:28-53, parse_zone_files *)
Definition parse_zone_files_at (p : profile) (fs : filesys) (fuel : nat) (c : params) : exec (result managed (zone_err * place)) :=
  bindR (parse_auth_zone_file_at fs fuel c) (fun az =>
  bindR (parse_sub_zone_files_at fs fuel (p_subs c)) (fun szs =>
  let zs := mkManaged az szs in
  bindR (placed (At_auth (z_zone (auth_zone zs))) (validate_auth_zone zs)) (fun _ =>
  bindR (for_each (sub_zones zs) (fun s => placed (At_sub (z_zone s)) (validate_subzone p s zs))) (fun _ =>
  Done (Ok zs))))).
