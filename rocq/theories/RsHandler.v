(** Model of src/resolver/handler.rs, on top of the transports of NsHandler.v (the same
    code serves both programs). Logging is dropped, except for the printing of the lookup's
    trace, which can panic. *)
From Verif Require Import Base Types Name Codec Cache Resolver Trace NsHandler.

(** handler.rs:139-148, resp_header_from_req_header *)
Definition rs_resp_header (h : header) (rc : rcode) : header :=
  mkHeader (h_id h) true (h_op h) false (h_tc h) (h_rd h) true 0 rc (h_qd h) (h_an h) (h_ns h) (h_ar h).

(** handler.rs:88-106, handle_decode_err *)
Definition rs_handle_decode_err (h : header) (e : msg_err) : message :=
  let code := match inner_err e with
              | PE_UnsupportedOpCode _ | PE_UnsupportedClass _ | PE_UnsupportedType _ => RC_NotImp
              | _ => RC_FormErr
              end in
  mkMsg (rs_resp_header h code) [] [] [] [].

(** handler.rs:110-124, handle_err *)
Definition rs_handle_err (req : message) (rc : rcode) : message :=
  let h := rs_resp_header (m_header req) rc in
  mkMsg (with_counts h (h_qd h) 0 0 0) (m_questions req) [] [] [].

(** handler.rs:151-169, validate_dns_request *)
Definition rs_validate (req : message) : bool :=
  let h := m_header req in
  if h_qr h then false
  else if negb (h_qd h =? 1)%N then false
  else if negb (h_an h =? 0)%N then false
  else if negb (h_ns h =? 0)%N then false
  else true.

(** handler.rs:54-82, the reply to the outcome of the lookup *)
Definition rs_reply_to (req : message) (r : result response lerr) : message :=
  match r with
  | Err _ => rs_handle_err req RC_ServFail
  | Ok x =>
      if x_none x then rs_handle_err req RC_NxDomain
      else
        let h := rs_resp_header (m_header req) RC_NoError in
        mkMsg (with_counts h (h_qd h) (len16 (x_answers x)) (len16 (x_authorities x)) (len16 (x_additionals x)))
              (m_questions req) (x_answers x) (x_authorities x) (x_additionals x)
  end.

Section Serve.
  Variable p : profile.
  (** The log level includes [info] (conf.log_level). *)
  Variable logs : bool.
  Variable env : environment.
  Variable fuel : nat.
  Variable conf : rconf.

  (** handler.rs:46-83, handle_query *)
  Definition rs_handle_query (req : message) : W message :=
    let# q := wexec (index (m_questions req) 0) in
    fun w => match perform p env fuel (new_lookup conf (q_node q) (q_type q), w) with
             | (Done r, (l, w')) => (let! _ := log_trace p logs (l_trace l) in Done (rs_reply_to req r), w')
             | (Panic k, (_, w')) => (Panic k, w')
             | (Diverge, (_, w')) => (Diverge, w')
             end.

  (** handler.rs:31-41: what is answered to a decoded request *)
  Definition rs_handle_message (req : message) : W message :=
    if rs_validate req then let# _ := wexec (index (m_questions req) 0) in rs_handle_query req
    else wret (rs_handle_err req RC_FormErr).

  (** handler.rs:14-41, handle_request: the message given to the transport, if any *)
  Definition rs_handle_request (r : read_result) : W (option message) :=
    match r with
    | FullMessage m => let# a := rs_handle_message m in wret (Some a)
    | HeaderOnly h e => wret (Some (rs_handle_decode_err h e))
    | ParseErr _ _ | IoErr => wret None
    end.

  (** One request from bytes to bytes, as in NsHandler.v *)
  Definition rs_serve (read : exec read_result) (reply : message -> exec (list N)) : W (option (list N)) :=
    let# r := wexec read in
    let# a := rs_handle_request r in
    match a with
    | None => wret None
    | Some m => let# l := wexec (reply m) in wret (Some l)
    end.
  Definition rs_serve_udp (datagram : list N) : W (option (list N)) := rs_serve (udp_read p datagram) (udp_reply p).
  Definition rs_serve_tcp (stream : list N) : W (option (list N)) := rs_serve (tcp_read p stream) (tcp_reply p).
End Serve.
