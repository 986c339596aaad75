(** Model of the printing of traces, src/resolver/back_end/trace.rs. Colours are dropped,
    and the wording of the lines: a printed line is its indentation and what it is about. *)
From Verif Require Import Base Types Name Codec Cache Resolver.

(** What a printed line is about. *)
Inductive text :=
| X_start (n : name) (k : rtype)                    (* "Starting resolution of .. records (type ..)." *)
| X_hit (n : name) (k : rtype)                      (* "Cache hit for .. (type ..)." *)
| X_miss (n : name) (k : rtype)                     (* "Cache miss for .. (type ..)." *)
| X_ns_hit (n : name)                               (* "Cache hit searching nameservers for .." *)
| X_ns_miss (n : name)                              (* "Cache miss searching nameservers for .." *)
| X_ns_req (n : name) (k : rtype) (server zone : name) (* "Asking .. to nameserver .." *)
| X_no_domain (soa : bool) | X_answers | X_more_answers | X_alias | X_hints | X_delegation
| X_err (e : lerr)                                  (* "Asking to nameserver failed: .." *)
| X_header (h : header) | X_questions | X_section (i : nat)
| X_question (q : question) | X_record (r : record)
| X_blank.

(** trace.rs:92-191, the lines below the header of a response *)
Definition server_text (s : nsrv) : list text := X_record (n_rec s) :: map X_record (n_addrs s).
(** trace.rs:78-212: the lines the t_ methods compose *)
Definition line_text (t : tline) : list text :=
  match t with
  | T_start n k => [X_start n k]
  | T_hit n k rs => X_hit n k :: map X_record rs
  | T_miss n k => [X_miss n k]
  | T_ns_hit n l => X_ns_hit n :: flat_map server_text l
  | T_ns_miss n => [X_ns_miss n]
  | T_ns_req n k s z => [X_ns_req n k s z]
  | T_ns_resp (NR_NoDomain None) => [X_no_domain false]
  | T_ns_resp (NR_NoDomain (Some r)) => [X_no_domain true; X_record r]
  | T_ns_resp (NR_Answer a b) => X_answers :: map X_record a ++ match b with [] => [] | _ => X_more_answers :: map X_record b end
  | T_ns_resp (NR_Alias c l) => X_alias :: X_record c :: match l with [] => [] | _ => X_hints :: flat_map server_text l end
  | T_ns_resp (NR_Delegation l) => X_delegation :: map X_record (map n_rec l) ++ map X_record (flat_map n_addrs l)
  | T_ns_err e => [X_err e]
  | T_raw m =>
      X_header (m_header m) :: X_questions :: map X_question (m_questions m) ++ X_section 1 :: map X_record (m_answers m) ++
      X_section 2 :: map X_record (m_authorities m) ++ X_section 3 :: map X_record (m_additionals m)
  | T_sub _ => []
  end.

Definition chk_u8 (p : profile) (x : N) : exec N :=
  match p with
  | Debug => if (x <? 256)%N then Done x else Panic POverflow
  | Release => Done (u8 x)
  end.

(** trace.rs:253-322, display_trace_lines: printed lines with their indentation
    (trace.rs:324-329). [depth] is a u8, and line 317 adds 1 to it. *)
Fixpoint display_line (p : profile) (depth : N) (t : tline) : exec (list (N * text)) :=
  match t with
  | T_sub l =>
      let! d := chk_u8 p (depth + 1) in
      let! o := (fix lines (l : list tline) : exec (list (N * text)) :=
                   match l with
                   | [] => Done []
                   | x :: l' => let! a := display_line p d x in let! b := lines l' in Done (a ++ b)
                   end) l in
      Done (o ++ [(0%N, X_blank)])
  | _ => Done (map (pair depth) (line_text t))
  end.
Fixpoint display_trace_lines (p : profile) (depth : N) (l : list tline) : exec (list (N * text)) :=
  match l with
  | [] => Done []
  | x :: l' => let! a := display_line p depth x in let! b := display_trace_lines p depth l' in Done (a ++ b)
  end.

(** handler.rs:49-51: the trace is printed to the log unless it is empty; if the log level
    leaves out [info], nothing is formatted. *)
Definition log_trace (p : profile) (logs : bool) (l : list tline) : exec (list (N * text)) :=
  match l with
  | [] => Done []
  | _ => if logs then display_trace_lines p 0 l else Done []
  end.
