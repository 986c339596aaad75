(** How the text of a zone file divides into tokens: a small lexical grammar over lines
    and code points, independent of the tokenizer. From the model it takes only the
    types [line], [file] and [token]. *)
From Verif Require Import Base Types Zone Tokens.
Local Open Scope N_scope.

(** Unicode white space. *)
Definition white (c : N) : Prop :=
  In c [9; 10; 11; 12; 13; 32; 133; 160; 5760; 8192; 8193; 8194; 8195; 8196; 8197; 8198; 8199; 8200; 8201; 8202;
        8232; 8233; 8239; 8287; 12288].
(** Words end before white space, ';', '(' and ')'. *)
Definition delimiter (c : N) : Prop := white c \/ c = 59 \/ c = 40 \/ c = 41.

(** UTF-8. *)
Inductive utf8 : N -> list N -> Prop :=
| utf8_1 : forall c, c < 128 -> utf8 c [c]
| utf8_2 : forall a b, b < 64 -> 128 <= a * 64 + b < 2048 -> utf8 (a * 64 + b) [192 + a; 128 + b]
| utf8_3 : forall a b d, b < 64 -> d < 64 -> 2048 <= (a * 64 + b) * 64 + d < 65536 ->
    utf8 ((a * 64 + b) * 64 + d) [224 + a; 128 + b; 128 + d]
| utf8_4 : forall a b d e, b < 64 -> d < 64 -> e < 64 -> 65536 <= ((a * 64 + b) * 64 + d) * 64 + e ->
    utf8 (((a * 64 + b) * 64 + d) * 64 + e) [240 + a; 128 + b; 128 + d; 128 + e].
Inductive utf8s : list N -> list N -> Prop :=
| utf8s_nil : utf8s [] []
| utf8s_cons : forall c s bs bs', utf8 c bs -> utf8s s bs' -> utf8s (c :: s) (bs ++ bs').

(** The characters [s] that [u] writes, where characters in [stop] must be escaped: a
    backslash makes the next character, whatever it is, an ordinary one. *)
Inductive written (stop : N -> Prop) : line -> list N -> Prop :=
| wr_nil : written stop [] []
| wr_char : forall c u s, c <> 92 -> ~ stop c -> written stop u s -> written stop (c :: u) (c :: s)
| wr_escape : forall c u s, written stop u s -> written stop (92 :: c :: u) (c :: s).

(** The word [u] ends where [rest] begins: at a delimiter; at the end of the line only if
    nothing in it is escaped. *)
Definition ends_word (u rest : line) : Prop :=
  (exists c r, rest = c :: r /\ delimiter c) \/ (rest = [] /\ ~ In 92 u).

(** Numbers: decimal digits, perhaps after a plus sign, with a value below 2^32. *)
Definition number (s : list N) (n : N) : Prop :=
  exists ds, (s = ds \/ s = 43 :: ds) /\ ds <> [] /\ Forall (fun d => 48 <= d <= 57) ds /\
    n = fold_left (fun v d => v * 10 + (d - 48)) ds 0 /\ n < 4294967296.
(** What a word stands for. *)
Inductive word_token (s : list N) : token -> Prop :=
| wt_at : s = [64] -> word_token s T_At
| wt_number : forall n, number s n -> word_token s (T_Number n)
| wt_string : forall bs, s <> [64] -> (forall n, ~ number s n) -> utf8s s bs -> word_token s (T_String bs).

(** The tokens of a line. The booleans tell whether a parenthesis is open before and
    after. *)
Inductive lex_line : bool -> line -> list token -> bool -> Prop :=
| lx_end : forall p, lex_line p [] [] p
| lx_comment : forall p l, lex_line p (59 :: l) [] p
| lx_open : forall l ts q, lex_line true l ts q -> lex_line false (40 :: l) ts q
| lx_close : forall l ts q, lex_line false l ts q -> lex_line true (41 :: l) ts q
| lx_blank : forall p b ws l ts q, b = 32 \/ b = 9 -> Forall white ws -> (forall c r, l = c :: r -> ~ white c) ->
    lex_line p l ts q -> lex_line p (b :: ws ++ l) (T_Blank :: ts) q
| lx_origin : forall p u l ts q, written delimiter u (s2b "ORIGIN") -> ends_word u l ->
    lex_line p l ts q -> lex_line p (36 :: u ++ l) (T_OriginDir :: ts) q
| lx_include : forall p u l ts q, written delimiter u (s2b "INCLUDE") -> ends_word u l ->
    lex_line p l ts q -> lex_line p (36 :: u ++ l) (T_IncludeDir :: ts) q
| lx_quoted : forall p u s bs l ts q, written (eq 34) u s -> utf8s s bs ->
    lex_line p l ts q -> lex_line p (34 :: u ++ 34 :: l) (T_QString bs :: ts) q
| lx_word : forall p c u s x l ts q, c <> 36 -> c <> 34 -> written delimiter (c :: u) s -> ends_word (c :: u) l ->
    word_token s x -> lex_line p l ts q -> lex_line p (c :: u ++ l) (x :: ts) q.

(** Lines: a new line token between one line and the next, unless a parenthesis is open. *)
Inductive lex_lines : bool -> line -> list line -> list token -> Prop :=
| ll_last : forall p l ts, lex_line p l ts false -> lex_lines p l [] ts
| ll_next : forall p l ts l' ls ts', lex_line p l ts false -> lex_lines false l' ls ts' ->
    lex_lines p l (l' :: ls) (ts ++ T_NewLine :: ts')
| ll_open : forall p l ts l' ls ts', lex_line p l ts true -> lex_lines true l' ls ts' ->
    lex_lines p l (l' :: ls) (ts ++ ts').

(** Lines with nothing but white space and a comment do not count. *)
Definition idle (l : line) : Prop :=
  exists ws rest, l = ws ++ rest /\ Forall white ws /\ (rest = [] \/ exists comment, rest = 59 :: comment).
Inductive contents : file -> list line -> Prop :=
| ct_nil : contents [] []
| ct_idle : forall l f ls, idle l -> contents f ls -> contents (Some l :: f) ls
| ct_line : forall l f ls, ~ idle l -> contents f ls -> contents (Some l :: f) (l :: ls).

(** The tokens of a file. *)
Definition lexes (f : file) (ts : list token) : Prop :=
  contents f [] /\ ts = [] \/ exists l ls, contents f (l :: ls) /\ lex_lines false l ls ts.
