(** Model of src/nameserver/handler.rs and of the request reading / reply writing parts
    of src/shared/net/{udp_server,tcp_server}.rs. Logging is dropped. *)
From Verif Require Import Base Types Name Codec Zone.

(** traits.rs:13-18, enum DnsReadResult *)
Inductive read_result :=
| FullMessage (m : message)
| HeaderOnly (h : header) (e : msg_err)
| ParseErr (e : msg_err) (he : parse_err)
| IoErr.

(** udp_server.rs:11-21 and tcp_server.rs:25-33 (the same code): decode, or at least
    decode the header. *)
Definition read_message (p : profile) (l : list N) : exec read_result :=
  let! r := decode_message p l in
  match r with
  | Ok m => Done (FullMessage m)
  | Err e =>
      let! rh := decode_header_bytes l in
      Done (match rh with Ok h => HeaderOnly h e | Err he => ParseErr e he end)
  end.

(** udp_server.rs:78-79, 105: [recv_from] into a 512-byte buffer cuts longer datagrams. *)
Definition udp_read (p : profile) (datagram : list N) : exec read_result :=
  read_message p (firstn MAX_UDP_LEN_BYTES datagram).

(** tcp_server.rs:14-34, TcpRequest::read. [stream]: the bytes the peer sends before
    closing, failing or falling silent; [read_exact] fails if too few come. *)
Definition tcp_read (p : profile) (stream : list N) : exec read_result :=
  match stream with
  | a :: b :: rest =>
      let req_len := N.to_nat (N.lor (u16 (N.shiftl a 8)) b) in
      if length rest <? req_len then Done IoErr
      else read_message p (firstn req_len rest)
  | _ => Done IoErr
  end.

(** udp_server.rs:33-41, UdpResponse::reply: the bytes sent *)
Definition udp_reply (p : profile) (m : message) : exec (list N) :=
  let! r := encode_message_trunc p m in
  match r with Ok l => Done l | Err _ => Panic PUnwrap end.

(** tcp_server.rs:43-49, TcpResponse::reply: the bytes sent *)
Definition tcp_reply (p : profile) (m : message) : exec (list N) :=
  let! r := encode_message p m in
  match r with
  | Ok l =>
      let resp_len := u16 (N.of_nat (length l)) in
      Done ([u8 (N.shiftr resp_len 8); u8 resp_len] ++ l)
  | Err _ => Panic PUnwrap
  end.

(** handler.rs:232-241, resp_header_from_req_header *)
Definition resp_header (h : header) (rc : rcode) : header :=
  mkHeader (h_id h) true (h_op h) false (h_tc h) (h_rd h) false 0 rc (h_qd h) (h_an h) (h_ns h) (h_ar h).

Definition set_aa (h : header) (aa : bool) : header :=
  mkHeader (h_id h) (h_qr h) (h_op h) aa (h_tc h) (h_rd h) (h_ra h) (h_z h) (h_rcode h)
           (h_qd h) (h_an h) (h_ns h) (h_ar h).

(** [v.len() as u16] *)
Definition len16 {A} (l : list A) : N := u16 (N.of_nat (length l)).

(** handler.rs:159-177, handle_decode_err: the message given to the transport *)
Definition handle_decode_err (h : header) (e : msg_err) : message :=
  let code := match inner_err e with
              | PE_UnsupportedOpCode _ | PE_UnsupportedClass _ | PE_UnsupportedType _ => RC_NotImp
              | _ => RC_FormErr
              end in
  mkMsg (resp_header h code) [] [] [] [].

(** handler.rs:181-198, handle_nx_err *)
Definition handle_nx_err (req : message) (soa : record) : exec message :=
  assert_ (rtype_eqb (record_type soa) RT_SOA)
    (let h := set_aa (resp_header (m_header req) RC_NxDomain) true in
     Done (mkMsg (with_counts h (h_qd h) 0 1 0) (m_questions req) [] [soa] [])).

(** handler.rs:202-217, handle_err *)
Definition handle_err (req : message) (rc : rcode) : message :=
  let h := set_aa (resp_header (m_header req) rc) true in
  mkMsg (with_counts h (h_qd h) 0 0 0) (m_questions req) [] [] [].

(** handler.rs:244-262, validate_dns_request *)
Definition validate_dns_request (req : message) : option question :=
  let h := m_header req in
  if h_qr h then None
  else if negb (h_an h =? 0)%N then None
  else if negb (h_ns h =? 0)%N then None
  else match m_questions req with [q] => Some q | _ => None end.

(** handler.rs:75-110, handle_auth_zone *)
Definition handle_auth_zone (p : profile) (req : message) (z : zone) : exec message :=
  let! q := index (m_questions req) 0 in
  let! o := zone_get p z (q_node q) (q_type q) in
  let searched := match o with Some v => v | None => [] end in
  let answer (rs : list record) :=
    let h := set_aa (resp_header (m_header req) RC_NoError) true in
    mkMsg (with_counts h 1 (len16 rs) 0 0) (m_questions req) rs [] [] in
  match searched with
  | [] =>
      let! oc := zone_get p z (q_node q) RT_CNAME in
      match oc with
      | Some cname => Done (answer cname)
      | None =>
          let! os := zone_get p z (z_zone z) RT_SOA in
          let! soas := unwrap os in
          let! soa := unwrap (List.hd_error soas) in
          handle_nx_err req soa
      end
  | _ => Done (answer searched)
  end.

(** handler.rs:144-154, search_a_additionals_for_subzone_ns. The lazy iterator is run to
    its end. *)
Fixpoint search_a_additionals (p : profile) (ns : name) (subs : list zone) : exec (list record) :=
  match subs with
  | [] => Done []
  | s :: subs' =>
      if is_in_zone ns (z_zone s) then
        let! o := zone_get p s ns RT_A in
        let! rest := search_a_additionals p ns subs' in
        Done (match o with Some l => l ++ rest | None => rest end)
      else search_a_additionals p ns subs'
  end.

(** the loop of handler.rs:120-124 *)
Fixpoint glue_for (p : profile) (nss : list record) (subs : list zone) : exec (list record) :=
  match nss with
  | [] => Done []
  | r :: nss' =>
      let! n := ns_data r in
      let! g := search_a_additionals p n subs in
      let! rest := glue_for p nss' subs in
      Done (g ++ rest)
  end.

(** handler.rs:114-142, handle_subzone *)
Definition handle_subzone (p : profile) (req : message) (s : zone) (zs : managed) : exec message :=
  let! o := zone_get p s (z_zone s) RT_NS in
  let! nss := unwrap o in
  assert_ (0 <? length nss)
    (let! adds := glue_for p nss (sub_zones zs) in
     let h := set_aa (resp_header (m_header req) RC_NoError) false in
     Done (mkMsg (with_counts h 1 0 (len16 nss) (len16 adds)) (m_questions req) [] nss adds)).

(** the loop of handler.rs:63-68 *)
Fixpoint find_subzone (n : name) (subs : list zone) : option zone :=
  match subs with
  | [] => None
  | s :: subs' => if is_in_zone n (z_zone s) then Some s else find_subzone n subs'
  end.

(** handler.rs:54-71, handle_query *)
Definition handle_query (p : profile) (req : message) (zs : managed) : exec message :=
  let! q := index (m_questions req) 0 in
  if negb (is_in_zone (q_node q) (z_zone (auth_zone zs))) then Done (handle_err req RC_Refused)
  else match find_subzone (q_node q) (sub_zones zs) with
       | Some s => handle_subzone p req s zs
       | None => handle_auth_zone p req (auth_zone zs)
       end.

(** handler.rs:32-50: what is answered to a decoded request *)
Definition handle_message (p : profile) (zs : managed) (req : message) : exec message :=
  match validate_dns_request req with
  | None => Done (handle_err req RC_FormErr)
  | Some _ => handle_query p req zs
  end.

(** handler.rs:15-50, handle_dns_request: the message given to the transport, if any *)
Definition handle_dns_request (p : profile) (zs : managed) (r : read_result) : exec (option message) :=
  match r with
  | FullMessage m => let! a := handle_message p zs m in Done (Some a)
  | HeaderOnly h e => Done (Some (handle_decode_err h e))
  | ParseErr _ _ | IoErr => Done None
  end.

(** One request from bytes to bytes (udp_server.rs:104-111, tcp_server.rs:106-116, with
    the connection set up). [Done None]: nothing is sent. *)
Definition serve_udp (p : profile) (zs : managed) (datagram : list N) : exec (option (list N)) :=
  let! r := udp_read p datagram in
  let! a := handle_dns_request p zs r in
  match a with
  | None => Done None
  | Some m => let! l := udp_reply p m in Done (Some l)
  end.
Definition serve_tcp (p : profile) (zs : managed) (stream : list N) : exec (option (list N)) :=
  let! r := tcp_read p stream in
  let! a := handle_dns_request p zs r in
  match a with
  | None => Done None
  | Some m => let! l := tcp_reply p m in Done (Some l)
  end.
