(** Model of src/nameserver/zones/{utils,errors,parser_auth,parser_sub}.rs and of
    parse_zone_files in parser.rs. Where an error is said to be
    (file and line) is in Report.v. *)
From Verif Require Import Base Types Name Codec Zone Tokens.

(** [tokenizer.next().unwrap()] *)
Definition next_unwrap : T token := fun t =>
  let! r := next t in match r with Ok x => Done (Ok x) | Err _ => Panic PUnwrap end.
Definition next_after_blanks_unwrap : T token := fun t =>
  let! r := next_after_blanks t in match r with Ok x => Done (Ok x) | Err _ => Panic PUnwrap end.

(** [r?] for a plain result *)
Definition tryT {A} (r : result A zone_err) : T A := fun t =>
  match r with Ok a => Done (Ok (a, t)) | Err e => Done (Err e) end.

(** *** utils.rs (zones) *)

(** utils.rs:45-51, try_to_ttl *)
Definition try_to_ttl (t : token) : option N := match t with T_Number n => Some n | _ => None end.

(** utils.rs:53-61, try_to_class *)
Definition try_to_class (t : token) : option class :=
  match t with
  | T_String s => match class_from_string s with Ok c => Some c | Err _ => None end
  | _ => None
  end.

(** utils.rs:8-43, parse_ttl_class *)
Definition parse_ttl_class : T (option N * option class) :=
  tk! tk := peek_after_blanks in
  match tk with
  | T_Number n =>
      tk! _ := next_unwrap in
      tk! ct := peek_after_blanks in
      match try_to_class ct with
      | Some c => tk! _ := next_unwrap in retT (Some n, Some c)
      | None => retT (Some n, None)
      end
  | T_String s =>
      match class_from_string s with
      | Ok c =>
          tk! _ := next_unwrap in
          tk! tt_ := peek_after_blanks in
          match try_to_ttl tt_ with
          | Some n => tk! _ := next_unwrap in retT (Some n, Some c)
          | None => retT (None, Some c)
          end
      | Err _ => retT (None, None)
      end
  | tk => failT (ZE_UnexpectedToken tk)
  end.

(** utils.rs:65-77, adjust_name *)
Definition adjust_name (origin : name) (s : list N) : result name zone_err :=
  if bytes_eqb s [64%N] then Ok origin
  else
    let s' := if ends_with s [DOT] then s else s ++ [DOT] ++ origin in
    match name_from_string s' with Ok n => Ok n | Err _ => Err ZE_MalformedData end.

(** dns/utils.rs:32-38, is_valid_character_string: on bytes, a string is all ASCII
    exactly when all its UTF-8 bytes are below 128. *)
Definition is_valid_character_string (s : list N) (quoted : bool) : bool :=
  if quoted then forallb (fun c => c <? 128)%N s
  else forallb (fun c => (c <? 128) && negb (c =? 32))%N s.

(** utils.rs:80-91, parse_char_string *)
Definition parse_char_string (t : token) : result (list N) zone_err :=
  match t with
  | T_String s => if is_valid_character_string s false then Ok s else Err ZE_MalformedData
  | T_QString s => if is_valid_character_string s true then Ok s else Err ZE_MalformedData
  | _ => Err (ZE_UnexpectedToken t)
  end.

(** utils.rs:95-109, discard_strings_until_newline: at most [fuel] rounds *)
Fixpoint discard_strings (fuel : nat) : T unit :=
  match fuel with
  | 0 => fun _ => Diverge
  | S fuel' =>
      tk! tk := peek_after_blanks in
      match tk with
      | T_NewLine | T_End => retT tt
      | T_String _ => tk! _ := next_after_blanks_unwrap in discard_strings fuel'
      | _ => failT (ZE_UnexpectedToken tk)
      end
  end.

(** *** errors.rs (zones) *)

(** errors.rs:43-50, ensure_absolute_name *)
Definition ensure_absolute_name (s : list N) : result unit zone_err :=
  if ends_with s [DOT] then Ok tt else Err ZE_MalformedData.
(** errors.rs:53-59, ensure_name_in_zone *)
Definition ensure_name_in_zone (n z : name) : result unit zone_err :=
  if is_in_zone n z then Ok tt else Err (ZE_NameNotInZone n).
(** errors.rs:63-69, ensure_name_in_auth_zone *)
Definition ensure_name_in_auth_zone (n z : name) (subs : list name) : result unit zone_err :=
  if is_only_in_auth_zone n z subs then Ok tt else Err (ZE_NameNotInZone n).
(** errors.rs:72-79, ensure_class_is_supported *)
Definition ensure_class_is_supported (c : class) : result unit zone_err :=
  if class_supported c then Ok tt else Err ZE_MalformedData.
(** errors.rs:82-88, ensure_min_ttl *)
Definition ensure_min_ttl (min_ttl ttl : N) : result unit zone_err :=
  if (min_ttl <=? ttl)%N then Ok tt else Err (ZE_TtlTooLow ttl).

(** [Name::from_string(s)?] with From<NameErr> (errors.rs:36-40) *)
Definition name_or_err (s : list N) : result name zone_err :=
  match name_from_string s with Ok n => Ok n | Err _ => Err ZE_MalformedData end.

(** *** std *)

(** [Ipv4Addr::from_str]: four decimal numbers of at most three digits, below 256,
    without superfluous leading zeros, separated by dots. *)
Definition parse_octet (s : list N) : option N :=
  if (3 <? length s) then None
  else if match s with c :: _ :: _ => (c =? 48)%N | _ => false end then None
  else match parse_digits s with
       | Some v => if (v <? 256)%N then Some v else None
       | None => None
       end.
Definition parse_ipv4 (s : list N) : option (list N) :=
  match split DOT s with
  | [a; b; c; d] =>
      match parse_octet a, parse_octet b, parse_octet c, parse_octet d with
      | Some a, Some b, Some c, Some d => Some [a; b; c; d]
      | _, _, _, _ => None
      end
  | _ => None
  end.

(** [u32::to_string]: decimal digits, most significant first (ten suffice). *)
Fixpoint to_digits (fuel : nat) (n : N) (acc : list N) : list N :=
  match fuel with
  | 0 => acc
  | S fuel' =>
      let acc' := (48 + n mod 10)%N :: acc in
      if (n <? 10)%N then acc' else to_digits fuel' (n / 10)%N acc'
  end.
Definition u32_to_string (n : N) : list N := to_digits 10 n [].

(** [pr.to_uppercase()] compared with "TCP"/"UDP": no non-ASCII character has these
    letters alone as its upper case, so ASCII upper-casing decides. *)
Definition upper (c : N) : N := if ((97 <=? c) && (c <=? 122))%N then (c - 32)%N else c.

(** *** parser_auth.rs *)

(** parser_auth.rs:11-15, enum ZoneEntry *)
Inductive zone_entry :=
| ZOrigin (o : name) | ZInclude (path : list N) (o : name) | ZRecord (r : record).

(** parser_auth.rs:18-25, struct AuthParsingState (current_file dropped) *)
Record pstate := mkPS {
  ps_zone : name; ps_subs : list name; ps_orig : name; ps_ttl : N; ps_min : N }.
Definition with_orig (s : pstate) (o : name) : pstate :=
  mkPS (ps_zone s) (ps_subs s) o (ps_ttl s) (ps_min s).
Definition with_ttl (s : pstate) (t : N) : pstate :=
  mkPS (ps_zone s) (ps_subs s) (ps_orig s) t (ps_min s).

(** The closing [match next { NewLine | End => Ok(x), _ => Err }], e.g.
    parser_auth.rs:145-150, 175-179, 238-243, 517-522; parser_sub.rs:121-126 *)
Definition close_line {A} (tk : token) (a : A) : T A :=
  match tk with T_NewLine | T_End => retT a | _ => failT (ZE_UnexpectedToken tk) end.

(** parser_auth.rs:132-151, parse_origin *)
Definition parse_origin (s : pstate) : T zone_entry := fun t0 =>
  let! r := next t0 in
  match r with
  | Ok (T_OriginDir, t1) =>
      (tk! tk := next_after_blanks in
       match tk with
       | T_String o =>
           tk! _ := tryT (ensure_absolute_name o) in
           tk! o' := tryT (name_or_err o) in
           tk! _ := tryT (ensure_name_in_auth_zone o' (ps_zone s) (ps_subs s)) in
           tk! nl := next_after_blanks in
           close_line nl (ZOrigin o')
       | _ => failT (ZE_UnexpectedToken tk)
       end) t1
  | _ => Panic PAssert
  end.

(** parser_auth.rs:154-180, parse_include *)
Definition parse_include (s : pstate) : T zone_entry := fun t0 =>
  let! r := next t0 in
  match r with
  | Ok (T_IncludeDir, t1) =>
      (tk! tk := next_after_blanks in
       tk! path := match tk with
                   | T_Number n => retT (u32_to_string n)
                   | T_String s => retT s
                   | _ => failT (ZE_UnexpectedToken tk)
                   end in
       tk! d := next_after_blanks in
       match d with
       | T_String nm =>
           tk! d' := next_after_blanks in
           tk! nm' := tryT (adjust_name (ps_orig s) nm) in
           tk! _ := tryT (ensure_name_in_auth_zone nm' (ps_zone s) (ps_subs s)) in
           close_line d' (ZInclude path nm')
       | _ => close_line d (ZInclude path (ps_orig s))
       end) t1
  | _ => Panic PAssert
  end.

(** parser_auth.rs:248-266, parse_a_record *)
Definition parse_a_record (node : name) (cl : class) (ttl : N) : T record :=
  tk! ip := next_after_blanks in
  match ip with
  | T_String s =>
      match parse_ipv4 s with
      | None => failT ZE_MalformedData
      | Some a => retT (mkRec node cl ttl 0 (D_A a))
      end
  | _ => failT (ZE_UnexpectedToken ip)
  end.

(** a [Token::String] adjusted to the origin, e.g. parser_auth.rs:269-275 *)
Definition parse_name_token (origin : name) : T name :=
  tk! tk := next_after_blanks in
  match tk with
  | T_String s => tryT (adjust_name origin s)
  | _ => failT (ZE_UnexpectedToken tk)
  end.

(** parser_auth.rs:268-284, parse_ns_record *)
Definition parse_ns_record (origin node : name) (cl : class) (ttl : N) : T record :=
  tk! n := parse_name_token origin in retT (mkRec node cl ttl 0 (D_NS n)).

(** parser_auth.rs:286-304, parse_cname_record *)
Definition parse_cname_record (origin node : name) (cl : class) (ttl : N) : T record :=
  tk! tk := next_after_blanks in
  tk! n := match tk with
           | T_At => retT origin
           | T_String s => tryT (adjust_name origin s)
           | _ => failT (ZE_UnexpectedToken tk)
           end in
  retT (mkRec node cl ttl 0 (D_CNAME n)).

(** one round of parser_auth.rs:324-331 *)
Definition parse_number : T N :=
  tk! tk := next_after_blanks in
  match tk with T_Number n => retT n | _ => failT (ZE_UnexpectedToken tk) end.

(** parser_auth.rs:306-346, parse_soa_record *)
Definition parse_soa_record (origin node : name) (cl : class) (ttl : N) : T record :=
  tk! ns := parse_name_token origin in
  tk! ml := parse_name_token origin in
  tk! serial := parse_number in
  tk! refresh := parse_number in
  tk! retry := parse_number in
  tk! expire := parse_number in
  tk! minimum := parse_number in
  retT (mkRec node cl ttl 0 (D_SOA ns ml serial refresh retry expire minimum)).

(** parser_auth.rs:348-383, parse_wks_record *)
Definition parse_wks_record (fuel : nat) (node : name) (cl : class) (ttl : N) : T record :=
  tk! ip := next_after_blanks in
  tk! a := match ip with
           | T_String s => match parse_ipv4 s with Some a => retT a | None => failT ZE_MalformedData end
           | _ => failT (ZE_UnexpectedToken ip)
           end in
  tk! pr := next_after_blanks in
  tk! protocol := match pr with
                  | T_String s =>
                      if bytes_eqb (map upper s) (s2b "TCP") then retT 6%N
                      else if bytes_eqb (map upper s) (s2b "UDP") then retT 17%N
                      else failT ZE_MalformedData
                  | _ => failT (ZE_UnexpectedToken pr)
                  end in
  tk! _ := discard_strings fuel in
  retT (mkRec node cl ttl 0 (D_WKS a protocol [])).

(** parser_auth.rs:385-401, parse_ptr_record *)
Definition parse_ptr_record (node : name) (cl : class) (ttl : N) : T record :=
  tk! tk := next_after_blanks in
  match tk with
  | T_String s =>
      tk! _ := tryT (ensure_absolute_name s) in
      tk! n := tryT (name_or_err s) in
      retT (mkRec node cl ttl 0 (D_PTR n))
  | _ => failT (ZE_UnexpectedToken tk)
  end.

(** parser_auth.rs:403-416, parse_hinfo_record *)
Definition parse_hinfo_record (node : name) (cl : class) (ttl : N) : T record :=
  tk! a := next_after_blanks in
  tk! cpu := tryT (parse_char_string a) in
  tk! b := next_after_blanks in
  tk! os := tryT (parse_char_string b) in
  retT (mkRec node cl ttl 0 (D_HINFO cpu os)).

(** parser_auth.rs:418-442, parse_mx_record *)
Definition parse_mx_record (origin node : name) (cl : class) (ttl : N) : T record :=
  tk! tk := next_after_blanks in
  tk! priority := match tk with
                  | T_Number n => if (n <? 65536)%N then retT n else failT ZE_MalformedData
                  | _ => failT (ZE_UnexpectedToken tk)
                  end in
  tk! n := parse_name_token origin in
  retT (mkRec node cl ttl 0 (D_MX priority n)).

(** the loop of parser_auth.rs:446-457: at most [fuel] rounds *)
Fixpoint parse_txts (fuel : nat) (txts : list (list N)) : T (list (list N)) :=
  match fuel with
  | 0 => fun _ => Diverge
  | S fuel' =>
      tk! tk := peek_after_blanks in
      match tk with
      | T_NewLine | T_End => retT txts
      | _ =>
          tk! _ := next_after_blanks_unwrap in
          tk! s := tryT (parse_char_string tk) in
          parse_txts fuel' (txts ++ [s])
      end
  end.

(** parser_auth.rs:444-466, parse_txt_record *)
Definition parse_txt_record (fuel : nat) (node : name) (cl : class) (ttl : N) : T record :=
  tk! txts := parse_txts fuel [] in retT (mkRec node cl ttl 0 (D_TXT txts)).

(** parser_auth.rs:220-236: the record data by type *)
Definition parse_record_data (fuel : nat) (t : rtype) (origin node : name) (cl : class) (ttl : N) : T record :=
  match t with
  | RT_A => parse_a_record node cl ttl
  | RT_NS => parse_ns_record origin node cl ttl
  | RT_CNAME => parse_cname_record origin node cl ttl
  | RT_WKS => parse_wks_record fuel node cl ttl
  | RT_PTR => parse_ptr_record node cl ttl
  | RT_HINFO => parse_hinfo_record node cl ttl
  | RT_MX => parse_mx_record origin node cl ttl
  | RT_TXT => parse_txt_record fuel node cl ttl
  | RT_SOA => failT ZE_UnexpectedRecord
  | _ => fun _ => Panic PUnreachable
  end.

Definition unwrap_or {A} (o : option A) (d : A) : A := match o with Some a => a | None => d end.

(** parser_auth.rs:184-244, parse_record *)
Definition parse_record (fuel : nat) (s : pstate) : T zone_entry := fun t0 =>
  let! r := next t0 in
  match r with
  | Ok (first, t1) =>
      (tk! node := match first with
                   | T_Blank | T_At => retT (ps_orig s)
                   | T_String nm =>
                       tk! nm' := tryT (adjust_name (ps_orig s) nm) in
                       tk! _ := tryT (ensure_name_in_auth_zone nm' (ps_zone s) (ps_subs s)) in
                       retT nm'
                   | _ => fun _ => Panic PUnreachable
                   end in
       tk! tc := parse_ttl_class in
       let cl := unwrap_or (snd tc) C_IN in
       let ttl := unwrap_or (fst tc) (ps_ttl s) in
       tk! _ := tryT (ensure_class_is_supported cl) in
       tk! _ := tryT (ensure_min_ttl (ps_min s) ttl) in
       tk! tytk := next_after_blanks in
       match tytk with
       | T_String ty =>
           match rtype_from_str ty with
           | Err _ => failT ZE_MalformedData
           | Ok rt =>
               if negb (supported_for_records rt) then failT ZE_UnexpectedRecord
               else
                 tk! rec := parse_record_data fuel rt (ps_orig s) node cl ttl in
                 tk! nx := next_after_blanks in
                 close_line nx (ZRecord rec)
           end
       | _ => failT (ZE_UnexpectedToken tytk)
       end) t1
  | Err _ => Panic PUnreachable
  end.

(** parser_auth.rs:86-129, parse_entries, and 64-81, parse_included_file. [fuel] bounds
    the rounds of the loop, the nesting of includes and the inner loops; running out
    means that the program is still working. *)
Fixpoint parse_entries (fs : filesys) (fuel : nat) (s : pstate) (acc : zone) (t : tok)
  : exec (result zone zone_err) :=
  match fuel with
  | 0 => Diverge
  | S fuel' =>
      bindR (peek t) (fun x =>
      let (tk, t1) := x in
      match tk with
      | T_End => Done (Ok acc)
      | _ =>
          bindR (match tk with
                 | T_OriginDir => parse_origin s t1
                 | T_IncludeDir => parse_include s t1
                 | T_String _ | T_At | T_Blank => parse_record fuel' s t1
                 | _ => Done (Err (ZE_UnexpectedToken tk))
                 end) (fun y =>
          match y with
          | (ZOrigin o, t2) => parse_entries fs fuel' (with_orig s o) acc t2
          | (ZInclude path o, t2) =>
              match fs path with
              | None => Done (Err ZE_ReadingErr)
              | Some f =>
                  bindR (parse_entries fs fuel' (mkPS (ps_zone s) (ps_subs s) o (ps_ttl s) (ps_min s))
                           (zone_new (ps_zone s)) (tok_new f)) (fun z =>
                  parse_entries fs fuel' s (zone_extend acc z) t2)
              end
          | (ZRecord r, t2) =>
              parse_entries fs fuel' (with_ttl s (r_ttl r)) (zone_insert acc r) t2
          end)
      end)
  end.

(** parser_auth.rs:471-523, parse_starting_soa_record: the SOA record and the new
    min_ttl *)
Definition parse_starting_soa_record (s : pstate) : T (record * N) :=
  tk! first := next in
  tk! node := match first with
              | T_String nm => tryT (adjust_name (ps_zone s) nm)
              | T_Blank | T_At => retT (ps_zone s)
              | v => failT (ZE_UnexpectedToken v)
              end in
  if negb (bytes_eqb node (ps_zone s)) then failT (ZE_NameNotInRootNode node)
  else
    tk! tc := parse_ttl_class in
    match snd tc with
    | None => failT ZE_MalformedData
    | Some cl =>
        let ttl := unwrap_or (fst tc) (ps_ttl s) in
        tk! _ := tryT (ensure_class_is_supported cl) in
        tk! tytk := next_after_blanks in
        match tytk with
        | T_String ty =>
            match rtype_from_str ty with
            | Ok RT_SOA =>
                tk! soa := parse_soa_record (ps_zone s) node cl ttl in
                match r_data soa with
                | D_SOA _ _ _ _ _ _ minimum =>
                    tk! _ := tryT (ensure_min_ttl minimum (r_ttl soa)) in
                    tk! nx := next_after_blanks in
                    close_line nx (soa, minimum)
                | _ => fun _ => Panic PUnreachable
                end
            | Err _ => failT ZE_MalformedData
            | Ok _ => failT ZE_UnexpectedRecord
            end
        | _ => failT (ZE_UnexpectedToken tytk)
        end
    end.

(** parser.rs:18-24, struct SubParsingParams *)
Record sub_params := mkSubParams { sp_path : list N; sp_zone : name; sp_ttl : N; sp_min : N }.
(** parser.rs:9-15, struct ParsingParams *)
Record params := mkParams { p_path : list N; p_zone : name; p_ttl : N; p_subs : list sub_params }.

(** parser_auth.rs:30-59, parse_auth_zone_file *)
Definition parse_auth_zone_file (fs : filesys) (fuel : nat) (c : params) : exec (result zone zone_err) :=
  match fs (p_path c) with
  | None => Done (Err ZE_ReadingErr)
  | Some f =>
      let s := mkPS (p_zone c) (map sp_zone (p_subs c)) (p_zone c) (p_ttl c) 0 in
      bindR (parse_starting_soa_record s (tok_new f)) (fun x =>
      let '((soa, minimum), t) := x in
      bindR (parse_entries fs fuel (mkPS (ps_zone s) (ps_subs s) (ps_orig s) (ps_ttl s) minimum)
               (zone_new (ps_zone s)) t) (fun z =>
      Done (Ok (zone_insert z soa))))
  end.

(** *** parser_sub.rs *)

(** parser_sub.rs:78-127, parse_record. [zone], [cur_ttl], [min] are SubParsingState's. *)
Definition parse_sub_record (zone_ : name) (cur_ttl min : N) : T record := fun t0 =>
  let! r := next t0 in
  match r with
  | Ok (first, t1) =>
      (tk! node := match first with
                   | T_Blank | T_At => retT zone_
                   | T_String nm =>
                       tk! nm' := tryT (adjust_name zone_ nm) in
                       tk! _ := tryT (ensure_name_in_zone nm' zone_) in
                       retT nm'
                   | _ => fun _ => Panic PUnreachable
                   end in
       tk! tc := parse_ttl_class in
       let cl := unwrap_or (snd tc) C_IN in
       let ttl := unwrap_or (fst tc) cur_ttl in
       tk! _ := tryT (ensure_class_is_supported cl) in
       tk! _ := tryT (ensure_min_ttl min ttl) in
       tk! tytk := next_after_blanks in
       match tytk with
       | T_String ty =>
           tk! rec := match rtype_from_str ty with
                      | Ok RT_A => parse_a_record node cl ttl
                      | Ok RT_NS =>
                          tk! _ := tryT (ensure_name_in_zone node zone_) in
                          parse_ns_record zone_ node cl ttl
                      | Ok _ => failT ZE_UnexpectedRecord
                      | Err _ => failT ZE_MalformedData
                      end in
           tk! nx := next_after_blanks in
           close_line nx rec
       | _ => failT (ZE_UnexpectedToken tytk)
       end) t1
  | Err _ => Panic PUnreachable
  end.

(** parser_sub.rs:39-74, parse_entries *)
Fixpoint parse_sub_entries (fuel : nat) (zone_ : name) (cur_ttl min : N) (acc : zone) (t : tok)
  : exec (result zone zone_err) :=
  match fuel with
  | 0 => Diverge
  | S fuel' =>
      bindR (peek t) (fun x =>
      let (tk, t1) := x in
      match tk with
      | T_End => Done (Ok acc)
      | T_String _ | T_At | T_Blank =>
          bindR (parse_sub_record zone_ cur_ttl min t1) (fun y =>
          parse_sub_entries fuel' zone_ (r_ttl (fst y)) min (zone_insert acc (fst y)) (snd y))
      | _ => Done (Err (ZE_UnexpectedToken tk))
      end)
  end.

(** parser_sub.rs:19-34, parse_sub_zone_file *)
Definition parse_sub_zone_file (fs : filesys) (fuel : nat) (c : sub_params) : exec (result zone zone_err) :=
  match fs (sp_path c) with
  | None => Done (Err ZE_ReadingErr)
  | Some f => parse_sub_entries fuel (sp_zone c) (sp_ttl c) (sp_min c) (zone_new (sp_zone c)) (tok_new f)
  end.

(** the loop of parser.rs:32-40 *)
Fixpoint parse_sub_zone_files (fs : filesys) (fuel : nat) (cs : list sub_params) : exec (result (list zone) zone_err) :=
  match cs with
  | [] => Done (Ok [])
  | c :: cs' =>
      bindR (parse_sub_zone_file fs fuel c) (fun z =>
      bindR (parse_sub_zone_files fs fuel cs') (fun zs => Done (Ok (z :: zs))))
  end.

(** parser.rs:28-53, parse_zone_files *)
Definition parse_zone_files (p : profile) (fs : filesys) (fuel : nat) (c : params) : exec (result managed zone_err) :=
  bindR (parse_auth_zone_file fs fuel c) (fun az =>
  bindR (parse_sub_zone_files fs fuel (p_subs c)) (fun szs =>
  let zs := mkManaged az szs in
  bindR (validate_auth_zone zs) (fun _ =>
  bindR (for_each (sub_zones zs) (fun s => validate_subzone p s zs)) (fun _ =>
  Done (Ok zs))))).
