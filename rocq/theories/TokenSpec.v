(** Token streams of zone files. *)
From Verif Require Import Base Types Name Codec Zone Tokens.

(** Files without backslashes whose only white space characters are space and tab. *)
Definition plain_line (l : line) : Prop := Forall (fun c => c <> 92%N /\ (is_ws c = true -> c = 32%N \/ c = 9%N)) l.
Definition plain_file (f : file) : Prop := Forall (fun o => match o with Some l => plain_line l | None => True end) f.

(** Characters plus lines. *)
Definition file_size (f : file) : nat :=
  list_sum (map (fun o => match o with Some l => length l | None => 0 end) f) + length f.

(** The tokens the tokenizer delivers one after the other, up to the end of the file
    ([None]) or an error. *)
Inductive reads : tok -> list token -> option zone_err -> Prop :=
| reads_end : forall t t', next t = Done (Ok (T_End, t')) -> reads t [] None
| reads_err : forall t e, next t = Done (Err e) -> reads t [] (Some e)
| reads_token : forall t x t' ts o, next t = Done (Ok (x, t')) -> x <> T_End -> reads t' ts o -> reads t (x :: ts) o.

(** Lines with nothing but white space or a comment. *)
Definition idle_line (l : line) : Prop :=
  exists ws rest, l = ws ++ rest /\ Forall (fun c => is_ws c = true) ws /\
                  (rest = [] \/ exists comment, rest = 59%N :: comment).
