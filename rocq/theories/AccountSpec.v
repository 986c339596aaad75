(** What a trace should tell of a lookup (C88): a grammar of traces. *)
From Verif Require Import Base Types Name Codec Cache Resolver.

(** An error is reported if it was the first one. *)
Definition keep (err : option lerr) (e : lerr) : option lerr := match err with None => Some e | Some _ => err end.
(** A response in full, shown when tracing is verbose ([v]). *)
Definition in_full (v : bool) (l : list tline) : Prop := if v then exists m, l = [T_raw m] else l = [].

Section Account.
  (** [v]: verbose; [longest]: how many names a lookup may go through. *)
  Variable v : bool.
  Variable longest : nat.

  (** [account left nf prev n k known lines r]: the lines tell of a lookup of [n], [k] that has
      come through the aliases [prev], may go through [left] names, gives up at aliases if
      [nf], has been told which servers to ask if [known], and ends with [r].
      [queries err n k lines out]: the lines tell how the servers of one zone after the other
      were asked about [n], [k]; [err] went wrong first in the current zone; [out] came out. *)
  Inductive account : nat -> bool -> list record -> name -> rtype -> bool -> list tline -> result response lerr -> Prop :=
  | ac_too_many : forall nf prev n k known, account 0 nf prev n k known [] (Err L_MaxCname)
  | ac_cached : forall left nf prev n k known rs, rs <> [] ->
      account (S left) nf prev n k known [T_start n k; T_hit n k rs] (Ok (mkResp (prev ++ rs) [] [] false))
  | ac_cached_alias : forall left nf prev n k known c cs lines r, alias left nf prev c k false lines r ->
      account (S left) nf prev n k known (T_start n k :: T_miss n k :: T_hit n RT_CNAME (c :: cs) :: lines) r
  | ac_asked : forall left nf prev n k known sl qs out lines r, servers n known sl -> queries None n k qs out -> outcome left nf prev k out lines r ->
      account (S left) nf prev n k known (T_start n k :: T_miss n k :: T_miss n RT_CNAME :: sl ++ qs ++ lines) r
  (** whom to ask: servers the lookup was told of, servers in the cache, or the root servers *)
  with servers : name -> bool -> list tline -> Prop :=
  | sv_known : forall n, servers n true []
  | sv_hit : forall n l, l <> [] -> servers n false [T_ns_hit n l]
  | sv_miss : forall n, servers n false [T_ns_miss n]
  (** what follows from what came out *)
  with outcome : nat -> bool -> list record -> rtype -> result nsresp lerr -> list tline -> result response lerr -> Prop :=
  | oc_err : forall left nf prev k e, outcome left nf prev k (Err e) [] (Err e)
  | oc_answer : forall left nf prev k a b, outcome left nf prev k (Ok (NR_Answer a b)) [] (Ok (mkResp (prev ++ a) [] b false))
  | oc_nothing : forall left nf prev k soa, outcome left nf prev k (Ok (NR_NoDomain soa)) []
      (Ok (mkResp prev (match soa with Some r => [r] | None => [] end) [] true))
  | oc_alias : forall left nf prev k c next lines r, alias left nf prev c k (match next with [] => false | _ => true end) lines r ->
      outcome left nf prev k (Ok (NR_Alias c next)) lines r
  (** the alias [c]: a loop, one too many, or another name *)
  with alias : nat -> bool -> list record -> record -> rtype -> bool -> list tline -> result response lerr -> Prop :=
  | al_loop : forall left nf prev c k known t, r_data c = D_CNAME t -> In t (map r_node prev) -> alias left nf prev c k known [] (Err L_CnamesLoop)
  | al_given_up : forall left prev c k known t, r_data c = D_CNAME t -> ~ In t (map r_node prev) -> alias left true prev c k known [] (Err L_UnexpectedCname)
  | al_followed : forall left prev c k known t lines r, r_data c = D_CNAME t -> ~ In t (map r_node prev) ->
      account left false (prev ++ [c]) t k known lines r -> alias left false prev c k known lines r
  with queries : option lerr -> name -> rtype -> list tline -> result nsresp lerr -> Prop :=
  | q_none : forall e n k, queries (Some e) n k [] (Err e)
  (** a server whose address would have to be looked up below a zone that is being looked up
      already: passed over *)
  | q_loop : forall err n k ts out, queries (keep err (L_Sub L_ZonesLoop)) n k ts out -> queries err n k ts out
  (** a server whose address could not be found *)
  | q_unknown : forall err n k s l e ts out, account longest true [] s RT_A false l (Err e) -> queries (keep err (L_Sub e)) n k ts out ->
      queries err n k (T_sub l :: ts) out
  (** a server that did not help *)
  | q_failed : forall err n k s z pre raw e ts out, found s pre -> (raw = [] \/ in_full v raw) -> queries (keep err e) n k ts out ->
      queries err n k (pre ++ T_ns_req n k s z :: raw ++ T_ns_err e :: ts) out
  (** a server that says whom to ask *)
  | q_down : forall err n k s z pre raw l ts out, found s pre -> in_full v raw -> queries None n k ts out ->
      queries err n k (pre ++ T_ns_req n k s z :: raw ++ T_ns_resp (NR_Delegation l) :: ts) out
  (** a server that says something else *)
  | q_end : forall err n k s z pre raw x, found s pre -> in_full v raw -> (forall l, x <> NR_Delegation l) ->
      queries err n k (pre ++ T_ns_req n k s z :: raw ++ [T_ns_resp x]) (Ok x)
  (** the server [s] has a known address, or it was looked up first *)
  with found : name -> list tline -> Prop :=
  | fd_known : forall s, found s []
  | fd_looked_up : forall s l x, account longest true [] s RT_A false l (Ok x) -> found s [T_sub l].
End Account.

(** The aliases met, as told by the lines. *)
Definition alias_told (t : tline) : list record :=
  match t with
  | T_hit _ RT_CNAME (c :: _) => [c]
  | T_ns_resp (NR_Alias c _) => [c]
  | _ => []
  end.
(** The result that a trace whose last line is [last] tells, [before] being the lines before. *)
Definition result_told (before : list tline) (last : tline) : option response :=
  let aliases := flat_map alias_told before in
  match last with
  | T_hit _ _ rs => Some (mkResp (aliases ++ rs) [] [] false)
  | T_ns_resp (NR_Answer a b) => Some (mkResp (aliases ++ a) [] b false)
  | T_ns_resp (NR_NoDomain soa) => Some (mkResp aliases (match soa with Some r => [r] | None => [] end) [] true)
  | _ => None
  end.
