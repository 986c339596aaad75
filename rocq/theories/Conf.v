(** Model of src/nameserver/conf.rs and src/resolver/conf.rs (the structs and
    Conf::validate) and of the parts of src/bin/*.rs and src/shared/net/*.rs that use the
    values. Not modelled: reading and parsing the JSON file (serde), log_level; whether a
    string parses as an IP address (std) is the parameter [ip_ok]. *)
From Verif Require Import Base Types Name Parser Resolver Pool NsHandler.

(** conf.rs:15-30 of both servers *)
Record udp_conf := mkUdpConf { uc_address : list N; uc_port : N; uc_write : N; uc_threads : nat }.
Record tcp_conf := mkTcpConf { tc_address : list N; tc_port : N; tc_read : N; tc_write : N; tc_threads : nat }.
(** nameserver/conf.rs:32-46 *)
Record sub_zone_conf := mkSubZoneConf { sc_ttl : N; sc_min : N; sc_zone : list N; sc_file : list N }.
Record zone_conf := mkZoneConf { zc_ttl : N; zc_zone : list N; zc_file : list N; zc_subs : list sub_zone_conf }.
(** nameserver/conf.rs:6-13 *)
Record ns_conf := mkNsConf { nc_udp : udp_conf; nc_tcp : tcp_conf; nc_zone : zone_conf }.
(** resolver/conf.rs:6-13, 32-54 *)
Record rs_conf := mkRsConf {
  rc_udp : udp_conf; rc_tcp : tcp_conf;
  rc_max_ns : nat; rc_max_retries : nat; rc_max_cname : nat; rc_read : N; rc_write : N;
  rc_clean_period : N; rc_entries_cleaned : N;
  rc_silent : bool; rc_verbose : bool; rc_color : bool }.

(** The error strings, in the order of the checks. *)
Inductive conf_err :=
| CE_udp_address | CE_udp_write | CE_udp_threads | CE_tcp_address | CE_tcp_write | CE_tcp_threads
| CE_zone (e : name_err) | CE_sub_zone (z : list N) (e : name_err)
| CE_max_ns | CE_max_retries | CE_max_cname | CE_timeouts | CE_clean_period | CE_entries_cleaned.

Section Conf.
  Variable ip_ok : list N -> bool.

  (** the checks both servers share: nameserver/conf.rs:68-88, resolver/conf.rs:76-96 *)
  Definition validate_servers (u : udp_conf) (t : tcp_conf) : result unit conf_err :=
    if negb (ip_ok (uc_address u)) then Err CE_udp_address
    else if (uc_write u =? 0)%N then Err CE_udp_write
    else if uc_threads u =? 0 then Err CE_udp_threads
    else if negb (ip_ok (tc_address t)) then Err CE_tcp_address
    else if (tc_write t =? 0)%N then Err CE_tcp_write
    else if tc_threads t =? 0 then Err CE_tcp_threads
    else Ok tt.

  (** the loop at nameserver/conf.rs:94-98 *)
  Fixpoint validate_sub_zones (l : list sub_zone_conf) : result unit conf_err :=
    match l with
    | [] => Ok tt
    | s :: l' => match name_from_string (sc_zone s) with
                 | Err e => Err (CE_sub_zone (sc_zone s) e)
                 | Ok _ => validate_sub_zones l'
                 end
    end.
  (** nameserver/conf.rs:67-101, validate *)
  Definition ns_validate (c : ns_conf) : result unit conf_err :=
    match validate_servers (nc_udp c) (nc_tcp c) with
    | Err e => Err e
    | Ok _ => match name_from_string (zc_zone (nc_zone c)) with
              | Err e => Err (CE_zone e)
              | Ok _ => validate_sub_zones (zc_subs (nc_zone c))
              end
    end.

  (** resolver/conf.rs:75-121, validate *)
  Definition rs_conf_validate (c : rs_conf) : result unit conf_err :=
    match validate_servers (rc_udp c) (rc_tcp c) with
    | Err e => Err e
    | Ok _ =>
        if rc_max_ns c =? 0 then Err CE_max_ns
        else if rc_max_retries c =? 0 then Err CE_max_retries
        else if rc_max_cname c =? 0 then Err CE_max_cname
        else if ((rc_read c =? 0) || (rc_write c =? 0))%N then Err CE_timeouts
        else if (rc_clean_period c =? 0)%N then Err CE_clean_period
        else if (rc_entries_cleaned c =? 0)%N then Err CE_entries_cleaned
        else Ok tt
    end.
End Conf.

(** the closure at bin/nameserver.rs:66-71 *)
Definition sub_params_of (s : sub_zone_conf) : exec sub_params :=
  match name_from_string (sc_zone s) with
  | Ok n => Done (mkSubParams (sc_file s) n (sc_ttl s) (sc_min s))
  | Err _ => Panic PUnwrap
  end.
Fixpoint subs_params_of (l : list sub_zone_conf) : exec (list sub_params) :=
  match l with
  | [] => Done []
  | s :: l' => let! x := sub_params_of s in let! xs := subs_params_of l' in Done (x :: xs)
  end.
(** bin/nameserver.rs:62-80, process_zones_confs *)
Definition process_zones_confs (z : zone_conf) : exec params :=
  let! subs := subs_params_of (zc_subs z) in
  match name_from_string (zc_zone z) with
  | Ok n => Done (mkParams (zc_file z) n (zc_ttl z) subs)
  | Err _ => Panic PUnwrap
  end.

(** bin/resolver.rs:39-51: what the resolver is given ([color] and the timeouts are not in
    the model of the resolver) *)
Definition resolver_params_of (c : rs_conf) : rconf :=
  mkConf (rc_max_ns c) (rc_max_retries c) (rc_max_cname c) false (rc_silent c) (rc_verbose c).

(** std: set_read_timeout / set_write_timeout with Some(Duration::ZERO) is an error *)
Definition timeout_settable (seconds : N) : bool := negb (seconds =? 0)%N.
(** tcp_server.rs:120-127, setup_connection, on a working stream *)
Definition setup_connection (t : tcp_conf) : bool := timeout_settable (tc_read t) && timeout_settable (tc_write t).
(** udp_server.rs:115-120, setup_listening_socket, once the address is bound *)
Definition setup_listening_socket (u : udp_conf) : bool := timeout_settable (uc_write u).
(** tcp_server.rs:106-116: the job made for an accepted connection *)
Definition tcp_job (t : tcp_conf) (serve : list N -> exec (option (list N))) (stream : list N) : exec (option (list N)) :=
  if setup_connection t then serve stream else Done None.
