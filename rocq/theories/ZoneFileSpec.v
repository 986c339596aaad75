(** What a zone file says: a small grammar over its tokens (LexSpec gives the tokens of
    a text), and the records it denotes. Independent of the parser and the tokenizer. *)
From Verif Require Import Base Types Name NameSpec Codec CodecSpec Zone Tokens TokenSpec LexSpec.

(** The next token that is not white space is [x], and [u] follows it. *)
Inductive field : list token -> token -> list token -> Prop :=
| field_here : forall x u, x <> T_Blank -> field (x :: u) x u
| field_blank : forall ts x u, field ts x u -> field (T_Blank :: ts) x u.

(** The end of a line, or of the file. *)
Inductive line_end : list token -> list token -> Prop :=
| end_line : forall ts u, field ts T_NewLine u -> line_end ts u
| end_file : forall ts, Forall (eq T_Blank) ts -> line_end ts [].

(** A name as written: "@" is the origin, names with a final dot are absolute, the
    others are relative to the origin. *)
Definition full_name (origin : name) (s : list N) (n : name) : Prop :=
  (s = [64%N] /\ n = origin) \/
  (s <> [64%N] /\ accepted n /\
   ((exists u, s = u ++ [46%N]) /\ n = s \/ (~ (exists u, s = u ++ [46%N])) /\ n = s ++ [46%N] ++ origin)).

(** The owner at the start of a line: nothing and "@" stand for the origin. *)
Inductive owner (origin : name) : token -> name -> Prop :=
| owner_blank : owner origin T_Blank origin
| owner_at : owner origin T_At origin
| owner_name : forall s n, full_name origin s n -> owner origin (T_String s) n.

(** TTL and class, both optional, in either order. *)
Inductive ttl_class : list token -> option N -> option class -> list token -> Prop :=
| tc_none : forall ts, ttl_class ts None None ts
| tc_ttl : forall ts n u, field ts (T_Number n) u -> ttl_class ts (Some n) None u
| tc_class : forall ts s c u, field ts (T_String s) u -> class_from_string s = Ok c -> ttl_class ts None (Some c) u
| tc_ttl_class : forall ts n u s c v, field ts (T_Number n) u -> field u (T_String s) v ->
    class_from_string s = Ok c -> ttl_class ts (Some n) (Some c) v
| tc_class_ttl : forall ts n u s c v, field ts (T_String s) u -> class_from_string s = Ok c ->
    field u (T_Number n) v -> ttl_class ts (Some n) (Some c) v.

(** Decimal digits of a number below 1000; dotted addresses. *)
Definition decimal (n : N) : list N :=
  (if n <? 10 then [48 + n]
   else if n <? 100 then [48 + n / 10; 48 + n mod 10]
   else [48 + n / 100; 48 + n / 10 mod 10; 48 + n mod 10])%N.
Definition dotted_quad (s : list N) (a : list N) : Prop :=
  exists w x y z, (w < 256 /\ x < 256 /\ y < 256 /\ z < 256)%N /\ a = [w; x; y; z] /\
    s = decimal w ++ [46%N] ++ decimal x ++ [46%N] ++ decimal y ++ [46%N] ++ decimal z.

(** Character strings: ASCII; without quotes also without spaces. *)
Inductive char_string : token -> list N -> Prop :=
| cs_bare : forall s, Forall (fun c => (c < 128)%N /\ c <> 32%N) s -> char_string (T_String s) s
| cs_quoted : forall s, Forall (fun c => (c < 128)%N) s -> char_string (T_QString s) s.

(** Character strings up to the end of the line. *)
Inductive char_strings : list token -> list (list N) -> list token -> Prop :=
| css_stop : forall ts u, line_end ts u -> char_strings ts [] ts
| css_more : forall ts x s u l v, field ts x u -> char_string x s -> char_strings u l v -> char_strings ts (s :: l) v.
(** Words up to the end of the line. *)
Inductive words : list token -> list token -> Prop :=
| words_stop : forall ts u, line_end ts u -> words ts ts
| words_more : forall ts s u v, field ts (T_String s) u -> words u v -> words ts v.

Definition same_letters (s t : list N) : Prop := map (fun c => if ((97 <=? c) && (c <=? 122))%N then (c - 32)%N else c) s = t.

(** The data of a record, by type: [rest] follows it. *)
Inductive data_text (origin : name) : rtype -> list token -> rdata -> list token -> Prop :=
| dt_a : forall ts s a u, field ts (T_String s) u -> dotted_quad s a -> data_text origin RT_A ts (D_A a) u
| dt_ns : forall ts s n u, field ts (T_String s) u -> full_name origin s n -> data_text origin RT_NS ts (D_NS n) u
| dt_cname : forall ts s n u, field ts (T_String s) u -> full_name origin s n -> data_text origin RT_CNAME ts (D_CNAME n) u
| dt_cname_at : forall ts u, field ts T_At u -> data_text origin RT_CNAME ts (D_CNAME origin) u
| dt_ptr : forall ts s u, field ts (T_String s) u -> (exists v, s = v ++ [46%N]) -> accepted s -> data_text origin RT_PTR ts (D_PTR s) u
| dt_mx : forall ts p u s n v, field ts (T_Number p) u -> (p < 65536)%N -> field u (T_String s) v -> full_name origin s n ->
    data_text origin RT_MX ts (D_MX p n) v
| dt_hinfo : forall ts x s u y s' v, field ts x u -> char_string x s -> field u y v -> char_string y s' ->
    data_text origin RT_HINFO ts (D_HINFO s s') v
| dt_txt : forall ts l u, char_strings ts l u -> data_text origin RT_TXT ts (D_TXT l) u
| dt_wks : forall ts s a u p q v w, field ts (T_String s) u -> dotted_quad s a -> field u (T_String p) v ->
    (same_letters p (s2b "TCP") /\ q = 6%N \/ same_letters p (s2b "UDP") /\ q = 17%N) -> words v w ->
    data_text origin RT_WKS ts (D_WKS a q []) w
| dt_soa : forall ts m mn u r rn v a v1 b v2 c v3 d v4 e v5,
    field ts (T_String m) u -> full_name origin m mn -> field u (T_String r) v -> full_name origin r rn ->
    field v (T_Number a) v1 -> field v1 (T_Number b) v2 -> field v2 (T_Number c) v3 -> field v3 (T_Number d) v4 ->
    field v4 (T_Number e) v5 ->
    data_text origin RT_SOA ts (D_SOA mn rn a b c d e) v5.

(** A line with a record; [ttl] is the TTL used when none is written. *)
Definition record_text (origin : name) (ttl : N) (ts : list token) (r : record) (rest : list token) : Prop :=
  exists x u n ot oc v ty rt w d y,
    ts = x :: u /\ owner origin x n /\ ttl_class u ot oc v /\ (oc = None \/ oc = Some C_IN) /\
    field v (T_String ty) w /\ rtype_from_str ty = Ok rt /\ data_text origin rt w d y /\ line_end y rest /\
    r = mkRec n C_IN (match ot with Some t => t | None => ttl end) 0 d.

(** File names may be written as a number. *)
Fixpoint number_text (fuel : nat) (n : N) : list N :=
  match fuel with
  | 0 => []
  | S fuel' => if (n <? 10)%N then [(48 + n)%N] else number_text fuel' (n / 10)%N ++ [(48 + n mod 10)%N]
  end.
Inductive file_name : token -> list N -> Prop :=
| fn_word : forall s, file_name (T_String s) s
| fn_number : forall n, file_name (T_Number n) (number_text 10 n).

(** The records a token sequence denotes, given the origin and the default TTL, where
    [fs] gives the files that can be included. *)
Inductive denotes (fs : filesys) : name -> N -> list token -> list record -> Prop :=
| den_end : forall origin ttl, denotes fs origin ttl [] []
| den_origin : forall origin ttl ts s u rest rs,
    field ts (T_String s) u -> accepted s -> line_end u rest -> denotes fs s ttl rest rs ->
    denotes fs origin ttl (T_OriginDir :: ts) rs
| den_include : forall origin ttl ts x path u origin' v rest f tsf rsf rs,
    field ts x u -> file_name x path ->
    (v = u /\ origin' = origin \/ exists s, field u (T_String s) v /\ full_name origin s origin') ->
    line_end v rest ->
    fs path = Some f -> lexes f tsf -> denotes fs origin' ttl tsf rsf ->
    denotes fs origin ttl rest rs ->
    denotes fs origin ttl (T_IncludeDir :: ts) (rsf ++ rs)
| den_record : forall origin ttl ts r rest rs,
    record_text origin ttl ts r rest -> denotes fs origin (r_ttl r) rest rs ->
    denotes fs origin ttl ts (r :: rs).

(** A sub zone file: records only. *)
Inductive sub_denotes (origin : name) : N -> list token -> list record -> Prop :=
| sden_end : forall ttl, sub_denotes origin ttl [] []
| sden_record : forall ttl ts r rest rs,
    record_text origin ttl ts r rest -> sub_denotes origin (r_ttl r) rest rs -> sub_denotes origin ttl ts (r :: rs).

(** Included files: [q] is named by an include directive of the file at [p]. *)
Definition mentions (ts : list token) (q : list N) : Prop :=
  exists pre x u v, ts = pre ++ T_IncludeDir :: u /\ field u x v /\ file_name x q.
Definition includes (fs : filesys) (p q : list N) : Prop :=
  exists f ts o, fs p = Some f /\ reads (tok_new f) ts o /\ mentions ts q.
(** The file is read to its end, or to an error. *)
Definition tokenizable (f : file) : Prop := exists ts o, reads (tok_new f) ts o.

(** The main file of a zone: the SOA record, then the other records. *)
Definition auth_file (fs : filesys) (zone : name) (ttl : N) (f : file) (rs : list record) : Prop :=
  exists ts soa rest rs', lexes f ts /\ record_text zone ttl ts soa rest /\ record_type soa = RT_SOA /\
    denotes fs zone ttl rest rs' /\ rs = rs' ++ [soa].
(** The file of a sub zone. *)
Definition sub_file (zone : name) (ttl : N) (f : file) (rs : list record) : Prop :=
  exists ts, lexes f ts /\ sub_denotes zone ttl ts rs.

(** ** Which files are accepted *)

(** As [denotes], with the rules a file must keep: origins, include origins and owners
    that are written out satisfy [ok]; there is no further SOA record; no TTL is below
    [minimum]. *)
Inductive well_formed (fs : filesys) (ok : name -> Prop) (minimum : N) : name -> N -> list token -> list record -> Prop :=
| wf_end : forall origin ttl, well_formed fs ok minimum origin ttl [] []
| wf_origin : forall origin ttl ts s u rest rs,
    field ts (T_String s) u -> accepted s -> ok s -> line_end u rest -> well_formed fs ok minimum s ttl rest rs ->
    well_formed fs ok minimum origin ttl (T_OriginDir :: ts) rs
| wf_include : forall origin ttl ts x path u origin' v rest f tsf rsf rs,
    field ts x u -> file_name x path ->
    (v = u /\ origin' = origin \/ exists s, field u (T_String s) v /\ full_name origin s origin' /\ ok origin') ->
    line_end v rest ->
    fs path = Some f -> lexes f tsf -> well_formed fs ok minimum origin' ttl tsf rsf ->
    well_formed fs ok minimum origin ttl rest rs ->
    well_formed fs ok minimum origin ttl (T_IncludeDir :: ts) (rsf ++ rs)
| wf_record : forall origin ttl ts r rest rs,
    record_text origin ttl ts r rest -> (forall s u, ts = T_String s :: u -> ok (r_node r)) ->
    record_type r <> RT_SOA -> (minimum <= r_ttl r)%N -> well_formed fs ok minimum origin (r_ttl r) rest rs ->
    well_formed fs ok minimum origin ttl ts (r :: rs).

(** The line of the SOA record: at the apex, with its class written. *)
Definition soa_text (zone : name) (ttl : N) (ts : list token) (soa : record) (minimum : N) (rest : list token) : Prop :=
  record_text zone ttl ts soa rest /\ r_node soa = zone /\
  (exists x u ot v, ts = x :: u /\ ttl_class u ot (Some C_IN) v) /\
  (exists m r a b c d, r_data soa = D_SOA m r a b c d minimum) /\ (minimum <= r_ttl soa)%N.
Definition auth_well_formed (fs : filesys) (ok : name -> Prop) (zone : name) (ttl : N) (f : file) (rs : list record) : Prop :=
  exists ts soa minimum rest rs', lexes f ts /\ soa_text zone ttl ts soa minimum rest /\
    well_formed fs ok minimum zone ttl rest rs' /\ rs = rs' ++ [soa].

(** A sub zone file: NS and A records, written owners satisfying [ok]. *)
Inductive sub_well_formed (ok : name -> Prop) (minimum : N) (origin : name) : N -> list token -> list record -> Prop :=
| swf_end : forall ttl, sub_well_formed ok minimum origin ttl [] []
| swf_record : forall ttl ts r rest rs,
    record_text origin ttl ts r rest -> (forall s u, ts = T_String s :: u -> ok (r_node r)) ->
    record_type r = RT_NS \/ record_type r = RT_A -> (minimum <= r_ttl r)%N ->
    sub_well_formed ok minimum origin (r_ttl r) rest rs -> sub_well_formed ok minimum origin ttl ts (r :: rs).
Definition sub_file_well_formed (ok : name -> Prop) (minimum : N) (zone : name) (ttl : N) (f : file) (rs : list record) : Prop :=
  exists ts, lexes f ts /\ sub_well_formed ok minimum zone ttl ts rs.
