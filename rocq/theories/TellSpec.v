(** What a trace should tell of the packets sent. *)
From Verif Require Import Base Types Name Codec Cache Resolver.

Section Tell.
  Variable p : profile.
  Variable env : environment.
  Variable tries : nat.

  (** A packet (address, bytes): the query for [n], [k] to [a]. *)
  Definition query_to (n : name) (k : rtype) (a : list N) (x : list N * list N) : Prop :=
    fst x = a /\ exists id, encode_message p (build_dns_request id n k) = Done (Ok (snd x)).
  (** [m] came in response to the packet [x]. *)
  Definition answered (x : list N * list N) (m : message) : Prop :=
    exists e d, ev_net (env e) (fst x) (snd x) = Some d /\ decode_message p (firstn 512 d) = Done (Ok m) /\ h_id (m_header m) = ev_id (env e).

  (** The records a line about a response shows. *)
  Definition shown (x : nsresp) : list record :=
    match x with
    | NR_Answer a b => a ++ b
    | NR_Alias c l => c :: flat_map (fun s => n_rec s :: n_addrs s) l
    | NR_NoDomain r => match r with Some r => [r] | None => [] end
    | NR_Delegation l => flat_map (fun s => n_rec s :: n_addrs s) l
    end.

  (** How one server was asked, as told after the line that says so: no usable response
      to any of the tries, or a response to the last of them, which is shown in full if
      tracing is verbose, and then what it means. *)
  Inductive exchange (v : bool) : list (list N * list N) -> list tline -> Prop :=
  | ex_failed : forall xs e, length xs = tries -> exchange v xs [T_ns_err e]
  | ex_useless : forall xs x m e, answered x m -> exchange v (xs ++ [x]) ((if v then [T_raw m] else []) ++ [T_ns_err e])
  | ex_response : forall xs x m r, answered x m -> incl (shown r) (m_answers m ++ m_authorities m ++ m_additionals m) ->
      exchange v (xs ++ [x]) ((if v then [T_raw m] else []) ++ [T_ns_resp r]).

  Definition tells_of_packets (t : tline) : bool :=
    match t with T_ns_req _ _ _ _ | T_ns_resp _ | T_ns_err _ | T_raw _ | T_sub _ => true | _ => false end.

  (** The packets [xs], in order, are told of by the lines. *)
  Inductive tells (v : bool) : list tline -> list (list N * list N) -> Prop :=
  | te_nil : tells v [] []
  | te_other : forall t ts xs, tells_of_packets t = false -> tells v ts xs -> tells v (t :: ts) xs
  | te_sub : forall l ts xs ys, tells v l xs -> tells v ts ys -> tells v (T_sub l :: ts) (xs ++ ys)
  | te_asked : forall n k s z a o ts xs ys, xs <> [] -> length xs <= tries -> Forall (query_to n k a) xs ->
      exchange v xs o -> tells v ts ys -> tells v (T_ns_req n k s z :: o ++ ts) (xs ++ ys).
End Tell.
