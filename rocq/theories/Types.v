(** Model of src/shared/dns/{types,class,errors}.rs and of the code enums of
    src/shared/dns/header.rs. *)
From Verif Require Import Base.

(** types.rs:5-26, enum RecordType *)
Inductive rtype :=
| RT_A | RT_NS | RT_MD | RT_MF | RT_CNAME | RT_SOA | RT_MB | RT_MG | RT_MR | RT_NULL
| RT_WKS | RT_PTR | RT_HINFO | RT_MINFO | RT_MX | RT_TXT | RT_AXFR | RT_MAILB | RT_MAILA | RT_WC.

Definition rtype_eq_dec : forall a b : rtype, {a = b} + {a <> b}.
Proof. decide equality. Defined.
Definition rtype_eqb (a b : rtype) : bool := if rtype_eq_dec a b then true else false.

(** types.rs:30-54, RecordType::from_num *)
Definition rtype_from_num (n : N) : result rtype N :=
  (if n =? 1 then Ok RT_A else if n =? 2 then Ok RT_NS else if n =? 3 then Ok RT_MD
   else if n =? 4 then Ok RT_MF else if n =? 5 then Ok RT_CNAME else if n =? 6 then Ok RT_SOA
   else if n =? 7 then Ok RT_MB else if n =? 8 then Ok RT_MG else if n =? 9 then Ok RT_MR
   else if n =? 10 then Ok RT_NULL else if n =? 11 then Ok RT_WKS else if n =? 12 then Ok RT_PTR
   else if n =? 13 then Ok RT_HINFO else if n =? 14 then Ok RT_MINFO else if n =? 15 then Ok RT_MX
   else if n =? 16 then Ok RT_TXT else if n =? 252 then Ok RT_AXFR else if n =? 253 then Ok RT_MAILB
   else if n =? 254 then Ok RT_MAILA else if n =? 255 then Ok RT_WC else Err n)%N.

(** types.rs:57-80, RecordType::to_num *)
Definition rtype_to_num (t : rtype) : N :=
  match t with
  | RT_A => 1 | RT_NS => 2 | RT_MD => 3 | RT_MF => 4 | RT_CNAME => 5 | RT_SOA => 6
  | RT_MB => 7 | RT_MG => 8 | RT_MR => 9 | RT_NULL => 10 | RT_WKS => 11 | RT_PTR => 12
  | RT_HINFO => 13 | RT_MINFO => 14 | RT_MX => 15 | RT_TXT => 16 | RT_AXFR => 252
  | RT_MAILB => 253 | RT_MAILA => 254 | RT_WC => 255
  end%N.

(** types.rs:110-133, RecordType::to_str *)
Definition rtype_to_str (t : rtype) : list N :=
  s2b (match t with
  | RT_A => "A" | RT_NS => "NS" | RT_MD => "MD" | RT_MF => "MF" | RT_CNAME => "CNAME"
  | RT_SOA => "SOA" | RT_MB => "MB" | RT_MG => "MG" | RT_MR => "MR" | RT_NULL => "NULL"
  | RT_WKS => "WKS" | RT_PTR => "PTR" | RT_HINFO => "HINFO" | RT_MINFO => "MINFO"
  | RT_MX => "MX" | RT_TXT => "TXT" | RT_AXFR => "AXFR" | RT_MAILB => "MAILB"
  | RT_MAILA => "MAILA" | RT_WC => "*"
  end)%string.

(** types.rs:83-107, RecordType::from_str *)
Definition rtype_from_str (s : list N) : result rtype (list N) :=
  let is x := bytes_eqb s (s2b x) in
  (if is "A" then Ok RT_A else if is "NS" then Ok RT_NS else if is "MD" then Ok RT_MD
   else if is "MF" then Ok RT_MF else if is "CNAME" then Ok RT_CNAME else if is "SOA" then Ok RT_SOA
   else if is "MB" then Ok RT_MB else if is "MG" then Ok RT_MG else if is "MR" then Ok RT_MR
   else if is "NULL" then Ok RT_NULL else if is "WKS" then Ok RT_WKS else if is "PTR" then Ok RT_PTR
   else if is "HINFO" then Ok RT_HINFO else if is "MINFO" then Ok RT_MINFO else if is "MX" then Ok RT_MX
   else if is "TXT" then Ok RT_TXT else if is "AXFR" then Ok RT_AXFR else if is "MAILA" then Ok RT_MAILA
   else if is "MAILB" then Ok RT_MAILB else if is "*" then Ok RT_WC else Err s)%string.

(** types.rs:169-187, is_obsolete / is_experimental *)
Definition is_obsolete (t : rtype) : bool :=
  match t with RT_MD | RT_MF | RT_MAILA => true | _ => false end.
Definition is_experimental (t : rtype) : bool :=
  match t with RT_MB | RT_MG | RT_MR | RT_NULL | RT_MINFO => true | _ => false end.

(** types.rs:139-150, RecordType::is_supported_for_records *)
Definition supported_for_records (t : rtype) : bool :=
  if is_obsolete t || is_experimental t then false
  else match t with RT_AXFR | RT_MAILB | RT_MAILA | RT_WC => false | _ => true end.

(** types.rs:153-164, RecordType::is_supported_for_question *)
Definition supported_for_question (t : rtype) : bool :=
  if is_obsolete t || is_experimental t then false
  else match t with RT_AXFR | RT_MAILB | RT_MAILA | RT_WC => false | _ => true end.

(** class.rs:4-10, enum Class *)
Inductive class := C_IN | C_CS | C_CH | C_HS | C_WC.

(** class.rs:14-23, Class::from_num *)
Definition class_from_num (n : N) : result class N :=
  (if n =? 1 then Ok C_IN else if n =? 2 then Ok C_CS else if n =? 3 then Ok C_CH
   else if n =? 4 then Ok C_HS else if n =? 255 then Ok C_WC else Err n)%N.

(** class.rs:26-34, Class::to_num *)
Definition class_to_num (c : class) : N :=
  match c with C_IN => 1 | C_CS => 2 | C_CH => 3 | C_HS => 4 | C_WC => 255 end%N.

(** class.rs:37-46, Class::from_string *)
Definition class_from_string (s : list N) : result class (list N) :=
  let is x := bytes_eqb s (s2b x) in
  (if is "IN" then Ok C_IN else if is "CS" then Ok C_CS else if is "CH" then Ok C_CH
   else if is "HS" then Ok C_HS else if is "*" then Ok C_WC else Err s)%string.

(** class.rs:49-54, Class::is_supported *)
Definition class_supported (c : class) : bool := match c with C_IN => true | _ => false end.

(** header.rs:180-184, enum OpCode *)
Inductive opcode := OP_STD | OP_INV | OP_STS.

(** header.rs:188-195, OpCode::from_num *)
Definition opcode_from_num (n : N) : result opcode N :=
  (if n =? 0 then Ok OP_STD else if n =? 1 then Ok OP_INV else if n =? 2 then Ok OP_STS else Err n)%N.

(** header.rs:198-204, OpCode::to_num *)
Definition opcode_to_num (o : opcode) : N :=
  match o with OP_STD => 0 | OP_INV => 1 | OP_STS => 2 end%N.

(** header.rs:207-212, OpCode::is_supported *)
Definition opcode_supported (o : opcode) : bool := match o with OP_STD => true | _ => false end.

(** header.rs:143-150, enum RespCode *)
Inductive rcode := RC_NoError | RC_FormErr | RC_ServFail | RC_NxDomain | RC_NotImp | RC_Refused.

(** header.rs:153-163, RespCode::from_num *)
Definition rcode_from_num (n : N) : result rcode N :=
  (if n =? 0 then Ok RC_NoError else if n =? 1 then Ok RC_FormErr else if n =? 2 then Ok RC_ServFail
   else if n =? 3 then Ok RC_NxDomain else if n =? 4 then Ok RC_NotImp else if n =? 5 then Ok RC_Refused
   else Err n)%N.

(** header.rs:165-174, RespCode::to_num *)
Definition rcode_to_num (r : rcode) : N :=
  match r with RC_NoError => 0 | RC_FormErr => 1 | RC_ServFail => 2 | RC_NxDomain => 3
             | RC_NotImp => 4 | RC_Refused => 5 end%N.

(** name.rs:212-222, enum NameErr (the static message texts are dropped). *)
Inductive name_err :=
| NE_BytesEnd | NE_MaxRedir | NE_PointerOutOfBonds | NE_RelativeName | NE_LongName
| NE_MalformedName | NE_LongLabel | NE_MalformedLabel.

(** errors.rs:32-47, enum ParsingErr (message texts dropped). *)
Inductive parse_err :=
| PE_UnsupportedType (t : rtype)
| PE_UnexpectedType (t : rtype)
| PE_UnknownType (n : N)
| PE_UnsupportedClass (c : class)
| PE_UnknownClass (n : N)
| PE_UnknownOpCode (n : N)
| PE_UnsupportedOpCode (o : opcode)
| PE_UnknownRespCode (n : N)
| PE_DataLenMismatch
| PE_BytesEnd
| PE_DomainNameErr (e : name_err)
| PE_StringCharErr.

(** errors.rs:49-56, From<NameErr> for ParsingErr *)
Definition parse_err_of_name (e : name_err) : parse_err :=
  match e with NE_BytesEnd => PE_BytesEnd | v => PE_DomainNameErr v end.

(** errors.rs:9-15, enum MessageErr *)
Inductive msg_err :=
| ME_Header (e : parse_err)
| ME_Question (i : nat) (e : parse_err)
| ME_Answer (i : nat) (e : parse_err)
| ME_Authority (i : nat) (e : parse_err)
| ME_Additional (i : nat) (e : parse_err).

(** errors.rs:17-27, MessageErr::inner_err *)
Definition inner_err (e : msg_err) : parse_err :=
  match e with
  | ME_Header e | ME_Question _ e | ME_Answer _ e | ME_Authority _ e | ME_Additional _ e => e
  end.
