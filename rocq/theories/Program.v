(** Model of the two programs, src/bin/nameserver.rs and src/bin/resolver.rs: from the
    command line to the start of the servers. Not modelled: the log; reading the
    configuration file and parsing its JSON (serde) is the parameter [conf_file], [None] if
    it fails (nameserver/conf.rs:51-59, resolver/conf.rs:59-67). *)
From Verif Require Import Base Types Name Zone Tokens Parser NsHandler Resolver Conf.

(** process::exit with a code, or start_servers with a handler and the servers' parameters *)
Inductive program (A : Type) :=
| P_exit (code : nat)
| P_runs (handler : A) (u : udp_conf) (t : tcp_conf).
Arguments P_exit {A}.
Arguments P_runs {A}.

(** bin/nameserver.rs:10-60, main; [args] with the program's own name in front *)
Definition ns_main (p : profile) (ip_ok : list N -> bool) (conf_file : list N -> option ns_conf) (fs : filesys) (fuel : nat)
  (args : list (list N)) : exec (program managed) :=
  match args with
  | [_; path] =>
      match conf_file path with
      | None => Done (P_exit 1)
      | Some c =>
          match ns_validate ip_ok c with
          | Err _ => Done (P_exit 1)
          | Ok _ =>
              let! prm := process_zones_confs (nc_zone c) in
              let! r := parse_zone_files p fs fuel prm in
              match r with
              | Err _ => Done (P_exit 1)
              | Ok zs => Done (P_runs zs (nc_udp c) (nc_tcp c))
              end
          end
      end
  | _ => Done (P_exit 1)
  end.

(** bin/resolver.rs:8-72, main (the cache starts empty; its cleaning thread is in Cache.v) *)
Definition rs_main (ip_ok : list N -> bool) (conf_file : list N -> option rs_conf) (args : list (list N)) : program rconf :=
  match args with
  | [_; path] =>
      match conf_file path with
      | None => P_exit 1
      | Some c =>
          match rs_conf_validate ip_ok c with
          | Err _ => P_exit 1
          | Ok _ => P_runs (resolver_params_of c) (rc_udp c) (rc_tcp c)
          end
      end
  | _ => P_exit 1
  end.
