(** What printing a trace should show. *)
From Verif Require Import Base Types Name Codec Cache Resolver Trace.

(** How deep traces are nested in a trace. *)
Fixpoint line_nesting (t : tline) : nat :=
  match t with
  | T_sub l => S (fold_right Nat.max 0 (map line_nesting l))
  | _ => 0
  end.
Definition nesting (l : list tline) : nat := fold_right Nat.max 0 (map line_nesting l).

(** What is printed about one thing that happened: what it was, and then every record and
    question that was noted with it, each on a line of its own. *)
Definition lines_of (rs : list record) : list text := map X_record rs.
(** Servers, each followed by its addresses. *)
Fixpoint server_lines (l : list nsrv) : list text :=
  match l with
  | [] => []
  | s :: l' => [X_record (n_rec s)] ++ lines_of (n_addrs s) ++ server_lines l'
  end.
(** Servers first, then all addresses. *)
Fixpoint address_lines (l : list nsrv) : list text :=
  match l with
  | [] => []
  | s :: l' => lines_of (n_addrs s) ++ address_lines l'
  end.
(** A part that is left out with its caption if there is nothing in it. *)
Definition part (caption : text) (xs : list text) : list text := if xs then [] else caption :: xs.
Inductive shows : tline -> list text -> Prop :=
| sh_start : forall n k, shows (T_start n k) [X_start n k]
| sh_hit : forall n k rs, shows (T_hit n k rs) ([X_hit n k] ++ lines_of rs)
| sh_miss : forall n k, shows (T_miss n k) [X_miss n k]
| sh_ns_hit : forall n l, shows (T_ns_hit n l) ([X_ns_hit n] ++ server_lines l)
| sh_ns_miss : forall n, shows (T_ns_miss n) [X_ns_miss n]
| sh_ns_req : forall n k s z, shows (T_ns_req n k s z) [X_ns_req n k s z]
| sh_no_domain : shows (T_ns_resp (NR_NoDomain None)) [X_no_domain false]
| sh_no_domain_soa : forall r, shows (T_ns_resp (NR_NoDomain (Some r))) [X_no_domain true; X_record r]
| sh_answer : forall a b, shows (T_ns_resp (NR_Answer a b)) ([X_answers] ++ lines_of a ++ part X_more_answers (lines_of b))
| sh_alias : forall c l, shows (T_ns_resp (NR_Alias c l)) ([X_alias; X_record c] ++ part X_hints (server_lines l))
| sh_delegation : forall l, shows (T_ns_resp (NR_Delegation l)) ([X_delegation] ++ lines_of (map n_rec l) ++ address_lines l)
| sh_err : forall e, shows (T_ns_err e) [X_err e]
| sh_raw : forall m, shows (T_raw m) ([X_header (m_header m); X_questions] ++ map X_question (m_questions m) ++
    [X_section 1] ++ lines_of (m_answers m) ++ [X_section 2] ++ lines_of (m_authorities m) ++ [X_section 3] ++ lines_of (m_additionals m)).

(** Everything in order, each line indented by how deep it is nested; an empty line after
    each nested trace. *)
Inductive prints : N -> list tline -> list (N * text) -> Prop :=
| pr_nil : forall d, prints d [] []
| pr_line : forall d t xs ts out, shows t xs -> prints d ts out -> prints d (t :: ts) (map (pair d) xs ++ out)
| pr_sub : forall d l ts o1 o2, prints (d + 1) l o1 -> prints d ts o2 -> prints d (T_sub l :: ts) (o1 ++ (0%N, X_blank) :: o2).
