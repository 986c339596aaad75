(** Model of the message codec: src/shared/dns/{header,questions,records,message,utils}.rs.
    Decoders and encoders work on a mutable [BitsBuf]: they take a buffer and give
    back a result and the buffer they leave. *)
From Verif Require Import Base Buffer Types Name.

Definition M (A : Type) : Type := bitsbuf -> exec (result A parse_err * bitsbuf).

Definition ret {A} (a : A) : M A := fun b => Done (Ok a, b).
Definition fail {A} (e : parse_err) : M A := fun b => Done (Err e, b).
(** [let x = m?; k] *)
Definition bindM {A B} (m : M A) (k : A -> M B) : M B :=
  fun b => let! (r, b') := m b in
           match r with Ok a => k a b' | Err e => Done (Err e, b') end.
Notation "'do!' x ':=' m 'in' k" := (bindM m (fun x => k))
  (at level 200, x pattern, m at level 100, k at level 200, right associativity).

(** utils.rs:40-45, check_end; also [opt.ok_or(ParsingErr::BytesEnd)?] *)
Definition check_end {A} (m : bitsbuf -> exec (option A * bitsbuf)) : M A :=
  fun b => let! (o, b') := m b in
           Done (match o with Some a => Ok a | None => Err PE_BytesEnd end, b').

(** [Name::from_bytes(buffer)?] with From<NameErr> (errors.rs:49-56) *)
Definition dec_name (p : profile) : M name :=
  fun b => let! (r, b') := name_from_bytes p b in
           Done (match r with Ok n => Ok n | Err e => Err (parse_err_of_name e) end, b').

(** [buffer.write_xxx(..)] *)
Definition put (w : bitsbuf -> exec bitsbuf) : M unit :=
  fun b => let! b' := w b in Done (Ok tt, b').

(** [assert!(c); k] *)
Definition assertM {A} (c : bool) (k : M A) : M A := fun b => assert_ c (k b).

(** *** header.rs *)

(** header.rs:10-24, struct Header *)
Record header := mkHeader {
  h_id : N; h_qr : bool; h_op : opcode; h_aa : bool; h_tc : bool; h_rd : bool; h_ra : bool;
  h_z : N; h_rcode : rcode; h_qd : N; h_an : N; h_ns : N; h_ar : N }.

(** header.rs:108-118, decode_op_code *)
Definition decode_op_code (n : N) (allow_unsupported : bool) : result opcode parse_err :=
  match opcode_from_num n with
  | Err n => Err (PE_UnknownOpCode n)
  | Ok o => if negb (opcode_supported o) && negb allow_unsupported
            then Err (PE_UnsupportedOpCode o) else Ok o
  end.

(** header.rs:120-125, decode_resp_code *)
Definition decode_resp_code (n : N) : result rcode parse_err :=
  match rcode_from_num n with Err n => Err (PE_UnknownRespCode n) | Ok r => Ok r end.

Definition lift {A} (r : result A parse_err) : M A := fun b => Done (r, b).
Definition rbits (n : nat) : M N := check_end (fun b => read_bits b n).
Definition rflag : M bool := do! x := rbits 1 in ret (x =? 1)%N.

(** header.rs:49-78, Header::decode_from_buf *)
Definition decode_header : M header :=
  do! id := check_end read_u16 in
  do! qr := rflag in
  do! o := rbits 4 in
  do! op := lift (decode_op_code o true) in
  do! aa := rflag in
  do! tc := rflag in
  do! rd := rflag in
  do! ra := rflag in
  do! z := rbits 3 in
  do! rc := rbits 4 in
  do! rcode := lift (decode_resp_code rc) in
  do! qd := check_end read_u16 in
  do! an := check_end read_u16 in
  do! ns := check_end read_u16 in
  do! ar := check_end read_u16 in
  ret (mkHeader id qr op aa tc rd ra z rcode qd an ns ar).

(** header.rs:82-85, Header::decode_from_bytes *)
Definition decode_header_bytes (l : list N) : exec (result header parse_err) :=
  let! (r, _) := decode_header (from_raw_bytes l) in Done r.

Definition b2n (b : bool) : N := if b then 1%N else 0%N.

(** header.rs:90-105, Header::encode_to_buf *)
Definition encode_header (h : header) : M unit :=
  assertM (opcode_supported (h_op h)) (
  do! _ := put (fun b => write_u16 b (h_id h)) in
  do! _ := put (fun b => write_bits b (b2n (h_qr h)) 1) in
  do! _ := put (fun b => write_bits b (opcode_to_num (h_op h)) 4) in
  do! _ := put (fun b => write_bits b (b2n (h_aa h)) 1) in
  do! _ := put (fun b => write_bits b (b2n (h_tc h)) 1) in
  do! _ := put (fun b => write_bits b (b2n (h_rd h)) 1) in
  do! _ := put (fun b => write_bits b (b2n (h_ra h)) 1) in
  do! _ := put (fun b => write_bits b (h_z h) 3) in
  do! _ := put (fun b => write_bits b (rcode_to_num (h_rcode h)) 4) in
  do! _ := put (fun b => write_u16 b (h_qd h)) in
  do! _ := put (fun b => write_u16 b (h_an h)) in
  do! _ := put (fun b => write_u16 b (h_ns h)) in
  put (fun b => write_u16 b (h_ar h))).

(** header.rs:129-132, Header::is_supported *)
Definition header_is_supported (h : header) : result unit parse_err :=
  match decode_op_code (opcode_to_num (h_op h)) false with Ok _ => Ok tt | Err e => Err e end.

(** *** questions.rs *)

(** questions.rs:12-16, struct Question *)
Record question := mkQ { q_node : name; q_type : rtype; q_class : class }.

(** questions.rs:64-70 and records.rs:217-223, decode_class *)
Definition decode_class (n : N) : result class parse_err :=
  match class_from_num n with
  | Err n => Err (PE_UnknownClass n)
  | Ok c => if negb (class_supported c) then Err (PE_UnsupportedClass c) else Ok c
  end.

(** questions.rs:53-62, decode_record_type *)
Definition decode_qtype : M rtype :=
  do! n := check_end read_u16 in
  match rtype_from_num n with
  | Ok t => if negb (supported_for_question t) then fail (PE_UnsupportedType t) else ret t
  | Err n => do! _ := check_end read_u16 in fail (PE_UnknownType n)
  end.

(** questions.rs:23-28, Question::decode_from_buf *)
Definition decode_question (p : profile) : M question :=
  do! node := dec_name p in
  do! t := decode_qtype in
  do! c := check_end read_u16 in
  do! cl := lift (decode_class c) in
  ret (mkQ node t cl).

(** [buffer.write_bytes(&name.to_bytes())]; to_bytes runs first *)
Definition enc_name_bytes (p : profile) (n : name) (k : list N -> M unit) : M unit :=
  fun b => let! w := name_to_bytes p n in k w b.

(** questions.rs:41-50, Question::encode_to_buf *)
Definition encode_question (p : profile) (q : question) : M unit :=
  assertM (supported_for_question (q_type q)) (
  assertM (class_supported (q_class q)) (
  enc_name_bytes p (q_node q) (fun w =>
  do! _ := put (fun b => write_bytes b w) in
  do! _ := put (fun b => write_u16 b (rtype_to_num (q_type q))) in
  put (fun b => write_u16 b (class_to_num (q_class q)))))).

(** *** utils.rs *)

(** utils.rs:7-17, decode_character_string. Line 10-12 cannot trigger: the
    length is one byte. *)
Definition decode_character_string : M (list N) :=
  do! len := check_end read_u8 in
  do! s := check_end (fun b => read_bytes_vec b (N.to_nat len)) in
  if 255 <? length s then fail PE_StringCharErr
  else if utf8_valid s then ret s else fail PE_StringCharErr.

(** utils.rs:21-30, encode_character_string *)
Definition encode_character_string (s : list N) : result (list N) parse_err :=
  if 255 <? length s then Err PE_StringCharErr
  else Ok (u8 (N.of_nat (length s)) :: s).

(** *** records.rs *)

(** records.rs:13-87, enum Record: the common fields and the variant data.
    An address ([u8; 4]) is a list of four bytes. *)
Inductive rdata :=
| D_A (address : list N)
| D_NS (n : name)
| D_CNAME (n : name)
| D_SOA (ns_name ml_name : name) (serial refresh retry expire minimum : N)
| D_WKS (address : list N) (protocol : N) (ports : list N)
| D_PTR (n : name)
| D_HINFO (cpu os : list N)
| D_MX (priority : N) (n : name)
| D_TXT (txts : list (list N)).

Record record := mkRec {
  r_node : name; r_class : class; r_ttl : N; r_data_len : N; r_data : rdata }.

(** records.rs:275-287, Record::record_type *)
Definition record_type (r : record) : rtype :=
  match r_data r with
  | D_A _ => RT_A | D_NS _ => RT_NS | D_CNAME _ => RT_CNAME
  | D_SOA _ _ _ _ _ _ _ => RT_SOA | D_WKS _ _ _ => RT_WKS | D_PTR _ => RT_PTR
  | D_HINFO _ _ => RT_HINFO | D_MX _ _ => RT_MX | D_TXT _ => RT_TXT
  end.

(** records.rs:272, set_ttl *)
Definition set_ttl (r : record) (t : N) : record :=
  mkRec (r_node r) (r_class r) t (r_data_len r) (r_data r).

(** records.rs:291-314, a_data / ns_data / cname_data *)
Definition a_data (r : record) : exec (list N) :=
  match r_data r with D_A a => Done a | _ => Panic PExplicit end.
Definition ns_data (r : record) : exec name :=
  match r_data r with D_NS n => Done n | _ => Panic PExplicit end.
Definition cname_data (r : record) : exec name :=
  match r_data r with D_CNAME n => Done n | _ => Panic PExplicit end.

(** records.rs:203-215, decode_record_type *)
Definition decode_rtype : M rtype :=
  do! n := check_end read_u16 in
  match rtype_from_num n with
  | Ok t => if negb (supported_for_records t) then fail (PE_UnsupportedType t) else ret t
  | Err n =>
      do! _ := check_end read_u16 in
      do! _ := check_end read_u32 in
      do! len := check_end read_u16 in
      do! _ := check_end (fun b => read_bytes_vec b (N.to_nat len)) in
      fail (PE_UnknownType n)
  end.

(** The shape shared by records.rs:337-346, 356-365, 377-392, 449-458, 468-478,
    490-500: [before], body, [after], [after - before != (data_len * 8) as usize].
    [after - before] cannot underflow (the reader never goes back, NameDecode). *)
Definition len_checked {A} (p : profile) (data_len : N) (body : M A) : M A :=
  fun b =>
    let before := read_pos b in
    let! (r, b') := body b in
    match r with
    | Err e => Done (Err e, b')
    | Ok a =>
        let! bits := chk_u16 p (data_len * 8)%N in
        if N.of_nat (read_pos b' - before) =? bits then Done (Ok a, b')
        else Done (Err PE_DataLenMismatch, b')
    end%N.

(** records.rs:323-329, decode_a_data *)
Definition decode_a_data (data_len : N) : M (list N) :=
  if negb (data_len =? 4)%N then fail PE_DataLenMismatch
  else check_end (fun b => read_bytes_vec b 4).

(** records.rs:337-346, 356-365, 449-458: decode_ns_data, decode_cname_data,
    decode_ptr_data (three identical bodies) *)
Definition decode_name_data (p : profile) (data_len : N) : M name :=
  len_checked p data_len (dec_name p).

(** records.rs:377-392, decode_soa_data *)
Definition decode_soa_data (p : profile) (data_len : N) : M rdata :=
  len_checked p data_len (
    do! mname := dec_name p in
    do! rname := dec_name p in
    do! serial := check_end read_u32 in
    do! refresh := check_end read_u32 in
    do! retry := check_end read_u32 in
    do! expire := check_end read_u32 in
    do! minimum := check_end read_u32 in
    ret (D_SOA mname rname serial refresh retry expire minimum)).

(** The inner [for j in 1..] of records.rs:439-443, at most [fuel] iterations: [Some]
    would be leaving the loop (it has no exit), [None] still running.
    [byte << j] on u8 panics in debug builds for [j >= 8], and shifts by [j mod 8]
    in release builds. *)
Fixpoint wks_inner (p : profile) (fuel i : nat) (b : N) (j : nat) (ports : list N)
  : exec (option (list N)) :=
  match fuel with
  | 0 => Done None
  | S fuel' =>
      let! shifted :=
        if j <? 8 then Done (shl8 b j)
        else match p with Debug => Panic POverflow | Release => Done (shl8 b (j mod 8)) end in
      wks_inner p fuel' i b (S j)
        (if (shifted =? 0)%N then ports ++ [u32 (N.of_nat (i * 8 + j - 1))] else ports)
  end.

(** records.rs:433-446, parse_wks_ports. The inner loop has no exit: debug builds
    panic at its eighth iteration, release builds run forever (CodecProofs,
    [wks_inner_never_ends]). *)
Fixpoint parse_wks_ports (p : profile) (l : list N) : exec (list N) :=
  match l with
  | [] => Done []
  | b :: l' =>
      if (b =? 0)%N then parse_wks_ports p l'
      else match p with Debug => Panic POverflow | Release => Diverge end
  end.

(** records.rs:411-422, decode_wks_data *)
Definition decode_wks_data (p : profile) (data_len : N) : M rdata :=
  do! address := check_end (fun b => read_bytes_vec b 4) in
  do! protocol := check_end read_u8 in
  if (5 <? data_len)%N then
    fun b =>
      let! (o, b') := read_bytes_vec b (N.to_nat (data_len - 5)) in
      let! ports_bytes := unwrap o in
      let! ports := parse_wks_ports p ports_bytes in
      Done (Ok (D_WKS address protocol ports), b')
  else ret (D_WKS address protocol []).

(** records.rs:468-478, decode_hinfo_data *)
Definition decode_hinfo_data (p : profile) (data_len : N) : M rdata :=
  len_checked p data_len (
    do! cpu := decode_character_string in
    do! os := decode_character_string in
    ret (D_HINFO cpu os)).

(** records.rs:490-500, decode_mx_data *)
Definition decode_mx_data (p : profile) (data_len : N) : M rdata :=
  len_checked p data_len (
    do! preference := check_end read_u16 in
    do! exchange := dec_name p in
    ret (D_MX preference exchange)).

(** [buffer.set_read_pos(pos - 1)]: at position 0 the subtraction overflows (debug
    panic; release: a huge position, refused by set_read_pos). *)
Definition step_back (p : profile) (b : bitsbuf) (pos : nat) : exec bitsbuf :=
  match pos with
  | 0 => match p with Debug => Panic POverflow | Release => Panic PExplicit end
  | S pos' => set_read_pos b pos'
  end.

(** the loop of records.rs:514-526 *)
Fixpoint txt_loop (p : profile) (fuel : nat) (data_len read : N) (strings : list (list N))
  : M (list (list N)) :=
  match fuel with
  | 0 => fun _ => Diverge
  | S fuel' =>
      fun b =>
        let pos := read_pos b in
        (do! len := check_end read_u8 in
         fun b1 =>
           let! b2 := step_back p b1 pos in
           let! s1 := chk_u16 p (read + len)%N in
           let! s2 := chk_u16 p (s1 + 1)%N in
           if (data_len <? s2)%N then Done (Err PE_DataLenMismatch, b2)
           else
             (do! s := decode_character_string in
              fun b3 =>
                let! l1 := chk_u16 p (len + 1)%N in
                let! read' := chk_u16 p (read + l1)%N in
                let strings' := strings ++ [s] in
                if (read' =? data_len)%N then Done (Ok strings', b3)
                else txt_loop p fuel' data_len read' strings' b3) b2) b
  end.

(** records.rs:511-528, decode_txt_data. Each iteration moves at least seven bits
    forward, so the remaining bits bound the iterations (CodecProofs). *)
Definition decode_txt_data (p : profile) (data_len : N) : M rdata :=
  fun b =>
    (do! txts := txt_loop p (S (last b)) data_len 0 [] in ret (D_TXT txts)) b.

(** records.rs:95-154, Record::decode_from_buf *)
Definition decode_record (p : profile) : M record :=
  do! node := dec_name p in
  do! t := decode_rtype in
  do! c := check_end read_u16 in
  do! cl := lift (decode_class c) in
  do! ttl := check_end read_u32 in
  do! data_len := check_end read_u16 in
  do! d :=
    match t with
    | RT_A => do! a := decode_a_data data_len in ret (D_A a)
    | RT_NS => do! n := decode_name_data p data_len in ret (D_NS n)
    | RT_CNAME => do! n := decode_name_data p data_len in ret (D_CNAME n)
    | RT_SOA => decode_soa_data p data_len
    | RT_WKS => decode_wks_data p data_len
    | RT_PTR => do! n := decode_name_data p data_len in ret (D_PTR n)
    | RT_HINFO => decode_hinfo_data p data_len
    | RT_MX => decode_mx_data p data_len
    | RT_TXT => decode_txt_data p data_len
    | _ => fun _ => Panic PUnreachable
    end in
  ret (mkRec node cl ttl data_len d).

Definition wbytes (l : list N) : M unit := put (fun b => write_bytes b l).
Definition wu16 (x : N) : M unit := put (fun b => write_u16 b x).
Definition wu32 (x : N) : M unit := put (fun b => write_u32 b x).

(** records.rs:331-334, encode_a_data *)
Definition encode_a_data (ip : list N) : M unit := do! _ := wu16 4 in wbytes ip.

(** records.rs:348-353, 367-372, 460-465: encode_ns_data, encode_cname_data,
    encode_ptr_data (three identical bodies) *)
Definition encode_name_data (p : profile) (n : name) : M unit :=
  enc_name_bytes p n (fun w =>
  do! _ := wu16 (u16 (N.of_nat (length w))) in
  wbytes w).

(** records.rs:394-406, encode_soa_data *)
Definition encode_soa_data (p : profile) (m r : name) (serial refresh retry expire minimum : N) : M unit :=
  enc_name_bytes p m (fun wm =>
  enc_name_bytes p r (fun wn =>
  do! _ := wu16 (u16 (N.of_nat (length wm + length wn + 20))) in
  do! _ := wbytes wm in
  do! _ := wbytes wn in
  do! _ := wu32 serial in
  do! _ := wu32 refresh in
  do! _ := wu32 retry in
  do! _ := wu32 expire in
  wu32 minimum)).

Fixpoint wu32s (l : list N) : M unit :=
  match l with
  | [] => ret tt
  | x :: l' => do! _ := wu32 x in wu32s l'
  end.

(** records.rs:424-431, encode_wks_data *)
Definition encode_wks_data (address : list N) (protocol : N) (ports : list N) : M unit :=
  do! _ := wu16 (u16 (N.of_nat (5 + length ports))) in
  do! _ := wbytes address in
  do! _ := put (fun b => write_u8 b protocol) in
  wu32s ports.

(** records.rs:480-487, encode_hinfo_data *)
Definition encode_hinfo_data (cpu os : list N) : M unit :=
  do! c := lift (encode_character_string cpu) in
  do! o := lift (encode_character_string os) in
  do! _ := wu16 (u16 (N.of_nat (length c + length o))) in
  do! _ := wbytes c in
  wbytes o.

(** records.rs:502-508, encode_mx_data *)
Definition encode_mx_data (p : profile) (priority : N) (n : name) : M unit :=
  enc_name_bytes p n (fun w => fun b =>
  let! len := chk_u16 p (2 + u16 (N.of_nat (length w)))%N in
  (do! _ := wu16 len in
   do! _ := wu16 priority in
   wbytes w) b).

(** the loop of records.rs:533-537 *)
Fixpoint encode_strings (l : list (list N)) : result (list (list N)) parse_err :=
  match l with
  | [] => Ok []
  | s :: l' =>
      match encode_character_string s with
      | Err e => Err e
      | Ok w => match encode_strings l' with Err e => Err e | Ok ws => Ok (w :: ws) end
      end
  end.

(** the loop of records.rs:539-541 *)
Fixpoint wchunks (l : list (list N)) : M unit :=
  match l with
  | [] => ret tt
  | w :: l' => do! _ := wbytes w in wchunks l'
  end.

(** records.rs:530-543, encode_txt_data *)
Definition encode_txt_data (strings : list (list N)) : M unit :=
  do! ws := lift (encode_strings strings) in
  do! _ := wu16 (u16 (N.of_nat (length (concat ws)))) in
  wchunks ws.

(** records.rs:168-200, Record::encode_to_buf *)
Definition encode_record (p : profile) (r : record) : M unit :=
  assertM (supported_for_records (record_type r)) (
  assertM (class_supported (r_class r)) (
  enc_name_bytes p (r_node r) (fun w =>
  do! _ := wbytes w in
  do! _ := wu16 (rtype_to_num (record_type r)) in
  do! _ := wu16 (class_to_num (r_class r)) in
  do! _ := wu32 (r_ttl r) in
  match r_data r with
  | D_A a => encode_a_data a
  | D_NS n | D_CNAME n | D_PTR n => encode_name_data p n
  | D_WKS a pr ports => encode_wks_data a pr ports
  | D_HINFO c o => encode_hinfo_data c o
  | D_MX pr n => encode_mx_data p pr n
  | D_TXT l => encode_txt_data l
  | D_SOA m rn a b c d e => encode_soa_data p m rn a b c d e
  end))).

(** *** message.rs *)

(** message.rs:14-20, struct Message *)
Record message := mkMsg {
  m_header : header; m_questions : list question;
  m_answers : list record; m_authorities : list record; m_additionals : list record }.

(** message.rs:8, MAX_UDP_LEN_BYTES *)
Definition MAX_UDP_LEN_BYTES : nat := 512.

(** The four section loops of message.rs:43-74: entry [i] of [n] more; unknown types
    are skipped, any other error ends decoding with the section's error. *)
Fixpoint decode_section {A} (dec : M A) (mk : nat -> parse_err -> msg_err) (i n : nat) (b : bitsbuf)
  : exec (result (list A) msg_err * bitsbuf) :=
  match n with
  | 0 => Done (Ok [], b)
  | S n' =>
      let! (r, b') := dec b in
      match r with
      | Err (PE_UnknownType _) => decode_section dec mk (S i) n' b'
      | Err e => Done (Err (mk i e), b')
      | Ok v =>
          let! (rs, b'') := decode_section dec mk (S i) n' b' in
          Done (match rs with Ok vs => Ok (v :: vs) | Err e => Err e end, b'')
      end
  end.

(** message.rs:27-83, Message::decode_from_bytes *)
Definition decode_message (p : profile) (l : list N) : exec (result message msg_err) :=
  let! (rh, b0) := decode_header (from_raw_bytes l) in
  match rh with
  | Err e => Done (Err (ME_Header e))
  | Ok h =>
      match header_is_supported h with
      | Err e => Done (Err (ME_Header e))
      | Ok _ =>
          let! (rq, b1) := decode_section (decode_question p) ME_Question 0 (N.to_nat (h_qd h)) b0 in
          match rq with Err e => Done (Err e) | Ok qs =>
          let! (ra, b2) := decode_section (decode_record p) ME_Answer 0 (N.to_nat (h_an h)) b1 in
          match ra with Err e => Done (Err e) | Ok ans =>
          let! (rn, b3) := decode_section (decode_record p) ME_Authority 0 (N.to_nat (h_ns h)) b2 in
          match rn with Err e => Done (Err e) | Ok aus =>
          let! (rx, _) := decode_section (decode_record p) ME_Additional 0 (N.to_nat (h_ar h)) b3 in
          match rx with Err e => Done (Err e) | Ok ads =>
          Done (Ok (mkMsg h qs ans aus ads))
          end end end end
      end
  end.

(** The section loops of message.rs:92-115: [items[i].encode_to_buf] for [n] entries. *)
Fixpoint encode_section {A} (enc : A -> M unit) (mk : nat -> parse_err -> msg_err)
  (items : list A) (i n : nat) (b : bitsbuf) : exec (result bitsbuf msg_err) :=
  match n with
  | 0 => Done (Ok b)
  | S n' =>
      let! x := index items i in
      let! (r, b') := enc x b in
      match r with
      | Err e => Done (Err (mk i e))
      | Ok _ => encode_section enc mk items (S i) n' b'
      end
  end.

Definition bindR {A B E} (m : exec (result A E)) (k : A -> exec (result B E)) : exec (result B E) :=
  let! r := m in match r with Ok a => k a | Err e => Done (Err e) end.

(** message.rs:88-118, Message::encode_to_bytes *)
Definition encode_message (p : profile) (m : message) : exec (result (list N) msg_err) :=
  let h := m_header m in
  let! (_, b0) := encode_header h new_buf in
  bindR (encode_section (encode_question p) ME_Question (m_questions m) 0 (N.to_nat (h_qd h)) b0) (fun b1 =>
  bindR (encode_section (encode_record p) ME_Answer (m_answers m) 0 (N.to_nat (h_an h)) b1) (fun b2 =>
  bindR (encode_section (encode_record p) ME_Authority (m_authorities m) 0 (N.to_nat (h_ns h)) b2) (fun b3 =>
  bindR (encode_section (encode_record p) ME_Additional (m_additionals m) 0 (N.to_nat (h_ar h)) b3) (fun b4 =>
  Done (Ok (into_vec b4)))))).

Definition with_tc (h : header) : header :=
  mkHeader (h_id h) (h_qr h) (h_op h) (h_aa h) true (h_rd h) (h_ra h) (h_z h) (h_rcode h)
           (h_qd h) (h_an h) (h_ns h) (h_ar h).
Definition with_counts (h : header) (qd an ns ar : N) : header :=
  mkHeader (h_id h) (h_qr h) (h_op h) (h_aa h) (h_tc h) (h_rd h) (h_ra h) (h_z h) (h_rcode h)
           qd an ns ar.

(** What one section loop of encode_to_bytes_trunc does: carry on, or return. *)
Inductive trunc_step := TContinue (h : header) (b : bitsbuf) | TReturn (out : list N).

(** The section loops of message.rs:134-200. [bump] adds one to the section's count
    (the additions cannot overflow: the count stays below the loop bound). *)
Fixpoint trunc_section {A} (enc : A -> M unit) (mk : nat -> parse_err -> msg_err) (bump : header -> header)
  (items : list A) (i n : nat) (h : header) (b : bitsbuf) : exec (result trunc_step msg_err) :=
  match n with
  | 0 => Done (Ok (TContinue h b))
  | S n' =>
      let w_pos := write_pos b in
      let! x := index items i in
      let! (r, b1) := enc x b in
      match r with
      | Err e => Done (Err (mk i e))
      | Ok _ =>
          if MAX_UDP_LEN_BYTES <? write_pos b1 / 8 then
            let! b2 := set_write_pos b1 0 in
            let! (_, b3) := encode_header (with_tc h) b2 in
            Done (Ok (TReturn (into_vec (truncate b3 w_pos))))
          else trunc_section enc mk bump items (S i) n' (bump h) b1
      end
  end.

Definition bump_qd (h : header) := with_counts h (h_qd h + 1) (h_an h) (h_ns h) (h_ar h).
Definition bump_an (h : header) := with_counts h (h_qd h) (h_an h + 1) (h_ns h) (h_ar h).
Definition bump_ns (h : header) := with_counts h (h_qd h) (h_an h) (h_ns h + 1) (h_ar h).
Definition bump_ar (h : header) := with_counts h (h_qd h) (h_an h) (h_ns h) (h_ar h + 1).

Definition bindT (m : exec (result trunc_step msg_err)) (k : header -> bitsbuf -> exec (result (list N) msg_err))
  : exec (result (list N) msg_err) :=
  bindR m (fun s => match s with TContinue h b => k h b | TReturn out => Done (Ok out) end).

(** message.rs:123-205, Message::encode_to_bytes_trunc *)
Definition encode_message_trunc (p : profile) (m : message) : exec (result (list N) msg_err) :=
  let! b0 := write_bytes new_buf (repeat 0%N 12) in
  let h := m_header m in
  let h0 := with_counts h 0 0 0 0 in
  bindT (trunc_section (encode_question p) ME_Question bump_qd (m_questions m) 0 (N.to_nat (h_qd h)) h0 b0)
  (fun h1 b1 =>
  bindT (trunc_section (encode_record p) ME_Answer bump_an (m_answers m) 0 (N.to_nat (h_an h)) h1 b1)
  (fun h2 b2 =>
  bindT (trunc_section (encode_record p) ME_Authority bump_ns (m_authorities m) 0 (N.to_nat (h_ns h)) h2 b2)
  (fun h3 b3 =>
  bindT (trunc_section (encode_record p) ME_Additional bump_ar (m_additionals m) 0 (N.to_nat (h_ar h)) h3 b3)
  (fun h4 b4 =>
  let! b5 := set_write_pos b4 0 in
  let! (_, b6) := encode_header h4 b5 in
  Done (Ok (into_vec b6)))))).
