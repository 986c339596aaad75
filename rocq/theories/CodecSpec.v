(** RFC 1035 wire formats, written independently of the codec's code: only the data
    types of the model (headers, questions, records, messages) are used. *)
From Verif Require Import Base Types Name NameSpec Codec.

Definition be16 (x : N) : list N := [x / 256; x mod 256]%N.
Definition be32 (x : N) : list N :=
  [x / 16777216; x / 65536 mod 256; x / 256 mod 256; x mod 256]%N.

(** 4.1.1: the twelve bytes of a header. *)
Definition bit (b : bool) : N := if b then 1%N else 0%N.
Definition op_number (o : opcode) : N := match o with OP_STD => 0 | OP_INV => 1 | OP_STS => 2 end%N.
Definition rcode_number (r : rcode) : N :=
  match r with RC_NoError => 0 | RC_FormErr => 1 | RC_ServFail => 2 | RC_NxDomain => 3
             | RC_NotImp => 4 | RC_Refused => 5 end%N.
Definition wire_header (h : header) : list N :=
  be16 (h_id h) ++
  [bit (h_qr h) * 128 + op_number (h_op h) * 8 + bit (h_aa h) * 4 + bit (h_tc h) * 2 + bit (h_rd h);
   bit (h_ra h) * 128 + h_z h * 16 + rcode_number (h_rcode h)]%N ++
  be16 (h_qd h) ++ be16 (h_an h) ++ be16 (h_ns h) ++ be16 (h_ar h).

(** What the Rust types guarantee of a header, plus z in its three bits. *)
Definition header_ok (h : header) : Prop :=
  is_u16 (h_id h) /\ (h_z h < 8)%N /\
  is_u16 (h_qd h) /\ is_u16 (h_an h) /\ is_u16 (h_ns h) /\ is_u16 (h_ar h).

(** 3.2.2, 3.2.3: type and class numbers. *)
Definition type_number (t : rtype) : N :=
  match t with
  | RT_A => 1 | RT_NS => 2 | RT_MD => 3 | RT_MF => 4 | RT_CNAME => 5 | RT_SOA => 6
  | RT_MB => 7 | RT_MG => 8 | RT_MR => 9 | RT_NULL => 10 | RT_WKS => 11 | RT_PTR => 12
  | RT_HINFO => 13 | RT_MINFO => 14 | RT_MX => 15 | RT_TXT => 16 | RT_AXFR => 252
  | RT_MAILB => 253 | RT_MAILA => 254 | RT_WC => 255
  end%N.
Definition known_type (n : N) : Prop := exists t, type_number t = n.

(** The types the library says it supports in questions and records. *)
Definition usable_type (t : rtype) : Prop :=
  t = RT_A \/ t = RT_NS \/ t = RT_CNAME \/ t = RT_SOA \/ t = RT_WKS \/ t = RT_PTR \/
  t = RT_HINFO \/ t = RT_MX \/ t = RT_TXT.

(** Labels of a name given as text ("a.b." is [a; b], "." is []). *)
Fixpoint cut (s cur : list N) : list (list N) :=
  match s with
  | [] => []
  | c :: s' => if (c =? 46)%N then cur :: cut s' [] else cut s' (cur ++ [c])
  end.
Definition labels (s : list N) : list (list N) :=
  match s with [46%N] => [] | _ => cut s [] end.

(** Names that have a wire form the library can write: not the root, labels of at
    most 63 bytes. *)
Definition sendable (n : list N) : Prop :=
  exists ls, is_name n ls /\ ls <> [] /\ Forall (fun l => length l <= 63) ls.

Definition wname (n : list N) : list N := plain_wire (labels n).

(** 3.3: a character string. *)
Definition wstring (s : list N) : list N := N.of_nat (length s) :: s.
Definition good_string (s : list N) : Prop := is_bytes s /\ length s <= 255.

(** 3.3, 3.4: RDATA. (WKS bit maps are only given for the empty port set.) *)
Definition wire_rdata (d : rdata) : list N :=
  match d with
  | D_A a => a
  | D_NS n | D_CNAME n | D_PTR n => wname n
  | D_SOA m r serial refresh retry expire minimum =>
      wname m ++ wname r ++ be32 serial ++ be32 refresh ++ be32 retry ++ be32 expire ++ be32 minimum
  | D_WKS a pr _ => a ++ [pr]
  | D_HINFO c o => wstring c ++ wstring o
  | D_MX pr n => be16 pr ++ wname n
  | D_TXT ts => flat_map wstring ts
  end.

Definition address_ok (a : list N) : Prop := is_bytes a /\ length a = 4.

(** Data that can be put on the wire as RFC 1035 says. *)
Definition rdata_ok (d : rdata) : Prop :=
  match d with
  | D_A a => address_ok a
  | D_NS n | D_CNAME n | D_PTR n => sendable n
  | D_SOA m r serial refresh retry expire minimum =>
      sendable m /\ sendable r /\ is_u32 serial /\ is_u32 refresh /\ is_u32 retry /\ is_u32 expire /\
      is_u32 minimum
  | D_WKS a pr ports => address_ok a /\ is_byte pr /\ ports = []
  | D_HINFO c o => good_string c /\ good_string o
  | D_MX pr n => is_u16 pr /\ sendable n
  | D_TXT ts => Forall good_string ts /\ is_u16 (N.of_nat (length (flat_map wstring ts)))
  end.

(** Of these, the data the library reads back: texts must be UTF-8 (Rust strings
    are), and TXT is excluded (see C16). *)
(** UTF-8 (RFC 3629): the concatenation of the encodings of Unicode scalar values. *)
Definition scalar (c : N) : Prop := (c < 55296 \/ 57344 <= c < 1114112)%N.
Definition utf8_char (c : N) : list N :=
  if (c <? 128)%N then [c]
  else if (c <? 2048)%N then [192 + c / 64; 128 + c mod 64]%N
  else if (c <? 65536)%N then [224 + c / 4096; 128 + c / 64 mod 64; 128 + c mod 64]%N
  else [240 + c / 262144; 128 + c / 4096 mod 64; 128 + c / 64 mod 64; 128 + c mod 64]%N.
Definition is_utf8 (s : list N) : Prop := exists cs, Forall scalar cs /\ s = flat_map utf8_char cs.
Definition rdata_readable (d : rdata) : Prop :=
  match d with
  | D_HINFO c o => is_utf8 c /\ is_utf8 o
  | D_TXT _ => False
  | _ => True
  end.

(** 4.1.3: a resource record, uncompressed. *)
Definition wire_record (r : record) : list N :=
  wname (r_node r) ++ be16 (type_number (record_type r)) ++ be16 1 ++ be32 (r_ttl r) ++
  be16 (N.of_nat (length (wire_rdata (r_data r)))) ++ wire_rdata (r_data r).
Definition record_ok (r : record) : Prop :=
  sendable (r_node r) /\ r_class r = C_IN /\ is_u32 (r_ttl r) /\ rdata_ok (r_data r).
Definition record_readable (r : record) : Prop := record_ok r /\ rdata_readable (r_data r).

(** The record with its true RDATA length. *)
Definition normal (r : record) : record :=
  mkRec (r_node r) (r_class r) (r_ttl r) (N.of_nat (length (wire_rdata (r_data r)))) (r_data r).

(** 4.1.2: a question. *)
Definition wire_question (q : question) : list N :=
  wname (q_node q) ++ be16 (type_number (q_type q)) ++ be16 1.
Definition question_ok (q : question) : Prop :=
  sendable (q_node q) /\ usable_type (q_type q) /\ q_class q = C_IN.

(** A record of a type the library does not know. *)
Record unknown := mkUnknown { u_node : list N; u_type : N; u_class : N; u_ttl : N; u_data : list N }.
Definition wire_unknown (u : unknown) : list N :=
  wname (u_node u) ++ be16 (u_type u) ++ be16 (u_class u) ++ be32 (u_ttl u) ++
  be16 (N.of_nat (length (u_data u))) ++ u_data u.
Definition unknown_ok (u : unknown) : Prop :=
  sendable (u_node u) /\ is_u16 (u_type u) /\ ~ known_type (u_type u) /\ is_u16 (u_class u) /\
  is_u32 (u_ttl u) /\ is_bytes (u_data u) /\ is_u16 (N.of_nat (length (u_data u))).

(** 4.1: a message. *)
Definition wire_entries (m : message) : list (list N) :=
  map wire_question (m_questions m) ++ map wire_record (m_answers m) ++
  map wire_record (m_authorities m) ++ map wire_record (m_additionals m).
Definition wire_message (m : message) : list N :=
  wire_header (m_header m) ++ concat (wire_entries m).

Definition counts_match (m : message) : Prop :=
  h_qd (m_header m) = N.of_nat (length (m_questions m)) /\
  h_an (m_header m) = N.of_nat (length (m_answers m)) /\
  h_ns (m_header m) = N.of_nat (length (m_authorities m)) /\
  h_ar (m_header m) = N.of_nat (length (m_additionals m)).

Definition message_ok (m : message) : Prop :=
  header_ok (m_header m) /\ h_op (m_header m) = OP_STD /\ counts_match m /\
  Forall question_ok (m_questions m) /\ Forall record_ok (m_answers m) /\
  Forall record_ok (m_authorities m) /\ Forall record_ok (m_additionals m).
Definition message_readable (m : message) : Prop :=
  message_ok m /\ Forall record_readable (m_answers m) /\ Forall record_readable (m_authorities m) /\
  Forall record_readable (m_additionals m).
Definition normal_message (m : message) : message :=
  mkMsg (m_header m) (m_questions m) (map normal (m_answers m)) (map normal (m_authorities m))
        (map normal (m_additionals m)).
