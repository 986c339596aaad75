(** Model of src/resolver/back_end/{recursive,requests,utils,trace,errors}.rs.
    Everything a lookup does not compute itself comes from an environment: clock readings,
    what other threads do to the shared cache between two accesses, the random message
    ids, and what the network delivers. The n-th access to the cache or the network of a
    run uses the n-th event of the environment; the properties are stated for every
    environment. Dropped: the texts of errors and trace lines (what they are about is
    kept), the unused [header] fields of NsResponse, [color]. Display for Trace is in Trace.v. *)
From Verif Require Import Base Types Name Codec Cache.

(** recursive.rs:45, RecordsCache *)
Definition rkey : Type := name * rtype.
Definition rkey_eqb (a b : rkey) : bool := bytes_eqb (fst a) (fst b) && rtype_eqb (snd a) (snd b).
Definition rcache := cache rkey (list record).

Record env_event := mkEv {
  ev_now : N;                    (* clock reading *)
  ev_now' : N;                   (* the next clock reading of the same access *)
  ev_others : rcache -> rcache;  (* what other threads did to the cache in the meantime *)
  ev_id : N;                     (* Header::default's random id *)
  (* first datagram received after sending these bytes to this address, None: any I/O
     error or timeout *)
  ev_net : list N -> list N -> option (list N) }.
Definition environment := nat -> env_event.

(** errors.rs:10-24, LookupErr, with the context strings (line 5) dropped *)
Inductive lerr :=
| L_IO | L_RespCode (rc : rcode) | L_Empty | L_Malformed
| L_ZonesLoop | L_CnamesLoop | L_UnexpectedCname | L_MaxCname | L_Sub (e : lerr).

(** requests.rs:48-51, NextSubzoneNs *)
Record nsrv := mkNs { n_rec : record; n_addrs : list record }.
(** requests.rs:54-56, node *)
Definition ns_node (s : nsrv) : exec name := ns_data (n_rec s).
(** requests.rs:57-59, zone *)
Definition ns_zone (s : nsrv) : name := r_node (n_rec s).
(** requests.rs:60-66, addrs *)
Fixpoint ips (rs : list record) : exec (list (list N)) :=
  match rs with
  | [] => Done []
  | r :: rs' => let! a := a_data r in let! l := ips rs' in Done (a :: l)
  end.
Definition ns_addrs (s : nsrv) : exec (list (list N)) := ips (n_addrs s).

(** requests.rs:25-44, NsResponse *)
Inductive nsresp :=
| NR_NoDomain (soa : option record)
| NR_Answer (answers additionals : list record)
| NR_Alias (cname : record) (next : list nsrv)
| NR_Delegation (next : list nsrv).

(** trace.rs:37-46, TraceLine, one case for each of the t_ methods *)
Inductive tline :=
| T_start (n : name) (k : rtype)
| T_hit (n : name) (k : rtype) (rs : list record)
| T_miss (n : name) (k : rtype)
| T_ns_hit (n : name) (l : list nsrv)
| T_ns_miss (n : name)
| T_ns_req (n : name) (k : rtype) (server zone : name)
| T_ns_resp (r : nsresp)
| T_ns_err (e : lerr)
| T_raw (m : message)
| T_sub (l : list tline).

(** recursive.rs:13-20, ResolverParams (timeouts dropped) and trace.rs:13-17, TraceParams *)
Record rconf := mkConf {
  max_ns : nat; max_retries : nat; max_cname : nat; no_follow : bool; silent : bool; verbose : bool }.

(** What all lookups share: the cache, the number of events used, the packets sent
    (address, bytes; newest first). *)
Record world := mkWorld { w_cache : rcache; w_n : nat; w_sent : list (list N * list N) }.

(** recursive.rs:77-86, Lookup *)
Record lookup := mkLookup {
  l_node : name; l_kind : rtype; l_zones : list name; l_cnames : list record;
  l_next : list nsrv; l_trace : list tline; l_conf : rconf }.

(** Code that uses the world, and code that also changes the lookup. What was done before
    a panic stays done. *)
Definition W (A : Type) := world -> exec A * world.
Definition L (A : Type) := lookup * world -> exec A * (lookup * world).
Definition wret {A} (a : A) : W A := fun w => (Done a, w).
Definition wexec {A} (m : exec A) : W A := fun w => (m, w).
Definition wbind {A B} (m : W A) (k : A -> W B) : W B :=
  fun w => match m w with (Done a, w') => k a w' | (Panic p, w') => (Panic p, w') | (Diverge, w') => (Diverge, w') end.
Definition lret {A} (a : A) : L A := fun s => (Done a, s).
Definition lexec {A} (m : exec A) : L A := fun s => (m, s).
Definition lbind {A B} (m : L A) (k : A -> L B) : L B :=
  fun s => match m s with (Done a, s') => k a s' | (Panic p, s') => (Panic p, s') | (Diverge, s') => (Diverge, s') end.
Definition lw {A} (m : W A) : L A := fun s => let (r, w) := m (snd s) in (r, (fst s, w)).
Definition lget {A} (f : lookup -> A) : L A := fun s => (Done (f (fst s)), s).
Definition lmod (f : lookup -> lookup) : L unit := fun s => (Done tt, (f (fst s), snd s)).
Notation "'let#' x ':=' m 'in' k" := (wbind m (fun x => k)) (at level 200, x pattern, m at level 100, k at level 200, right associativity).
Notation "'let*' x ':=' m 'in' k" := (lbind m (fun x => k)) (at level 200, x pattern, m at level 100, k at level 200, right associativity).

Definition set_node (n : name) (l : lookup) := mkLookup n (l_kind l) (l_zones l) (l_cnames l) (l_next l) (l_trace l) (l_conf l).
Definition set_cnames (c : list record) (l : lookup) := mkLookup (l_node l) (l_kind l) (l_zones l) c (l_next l) (l_trace l) (l_conf l).
Definition set_next (x : list nsrv) (l : lookup) := mkLookup (l_node l) (l_kind l) (l_zones l) (l_cnames l) x (l_trace l) (l_conf l).
Definition push_line (t : tline) (l : lookup) := mkLookup (l_node l) (l_kind l) (l_zones l) (l_cnames l) (l_next l) (l_trace l ++ [t]) (l_conf l).

(** trace.rs:78-212, the t_ methods: nothing happens when silent (skip_if_silent!) *)
Definition trace (t : tline) : L unit := fun s => (Done tt, (if silent (l_conf (fst s)) then fst s else push_line t (fst s), snd s)).
(** trace.rs:195-212, t_raw_resp *)
Definition trace_raw (m : message) : L unit :=
  fun s => (Done tt, (if silent (l_conf (fst s)) then fst s else if negb (verbose (l_conf (fst s))) then fst s else push_line (T_raw m) (fst s), snd s)).
(** trace.rs:125-136, t_ns_req: formatting the line reads the server's name *)
Definition trace_ns_req (n : name) (k : rtype) (s : nsrv) : L unit :=
  let* si := lget (fun l => silent (l_conf l)) in
  if si then lret tt else let* x := lexec (ns_node s) in trace (T_ns_req n k x (ns_zone s)).
(** trace.rs:215-218, add_sub_trace *)
Definition add_sub_trace (l : list tline) : L unit := lmod (push_line (T_sub l)).

Section Run.
  Variable p : profile.
  Variable env : environment.

  (** One access to the cache, by the n-th event: other threads, then the call. *)
  Definition access (f : env_event -> op rkey (list record)) : W (reply (list record)) :=
    fun w =>
      let e := env (w_n w) in
      let (r, c) := cache_run rkey_eqb (ev_others e (w_cache w)) (f e) in
      (r, mkWorld c (S (w_n w)) (w_sent w)).
  Definition reading : W N := fun w => (Done (ev_now (env (w_n w))), w).

  (** recursive.rs:337-363, search_records_in_cache. The clock is read (line 338) before
      the cache is accessed. All assertions of the loop (349-353) panic alike. *)
  Definition search_records (node : name) (kind : rtype) : W (list record) :=
    let# before_get := reading in
    let# entry := access (fun e => O_get (K := rkey) (node, kind) (ev_now' e)) in
    match entry with
    | R_entry (Some (exp, (r0 :: _) as records)) =>
        if forallb (fun r => rtype_eqb (record_type r) (record_type r0) && (r_ttl r =? r_ttl r0)%N) records
           && (before_get <? exp)%N
        then
          let ttl := ((exp - before_get) / 1000000000)%N in
          if (ttl <? 4294967296)%N then wret (map (fun r => set_ttl r ttl) records) else wexec (Panic PUnwrap)
        else wexec (Panic PAssert)
    | _ => wret []
    end.

  Definition min_ttl (r0 : record) (rs : list record) : N := fold_left N.min (map r_ttl rs) (r_ttl r0).

  (** recursive.rs:367-379, save_records_in_cache *)
  Definition save_records (records : list record) : W unit :=
    match records with
    | [] => wexec (Panic PAssert)
    | r0 :: rs =>
        if forallb (fun r => rtype_eqb (record_type r) (record_type r0)) records then
          let m := min_ttl r0 rs in
          let# _ := access (fun e => O_set (K := rkey) (r_node r0, record_type r0) (m * 1000000000)%N (map (fun r => set_ttl r m) records) (ev_now e) (ev_now' e)) in
          wret tt
        else wexec (Panic PAssert)
    end.

  (** recursive.rs:382-391, save_nss_in_cache *)
  Fixpoint save_glue (l : list nsrv) : W unit :=
    match l with
    | [] => wret tt
    | s :: l' => match n_addrs s with [] => save_glue l' | _ => let# _ := save_records (n_addrs s) in save_glue l' end
    end.
  Definition save_nss (l : list nsrv) : W unit := let# _ := save_glue l in save_records (map n_rec l).

  (** recursive.rs:395-406, generate_domain_hierarchy: [split_once('.')] finds the next
      dot; the rest, unless empty, is the next domain. *)
  Fixpoint parents (s : list N) : list (list N) :=
    match s with
    | [] => []
    | c :: s' => if (c =? DOT)%N then (match s' with [] => [] | _ => s' :: parents s' end) else parents s'
    end.
  Definition generate_domain_hierarchy (node : name) : list (list N) := node :: parents node.

  (** *** utils.rs *)
  (** Vec::swap_remove *)
  Fixpoint set_nth {A} (l : list A) (i : nat) (x : A) : list A :=
    match l, i with
    | [], _ => []
    | _ :: l', 0 => x :: l'
    | y :: l', S i' => y :: set_nth l' i' x
    end.
  Definition swap_remove {A} (l : list A) (i : nat) : list A :=
    match rev l with
    | [] => []
    | z :: _ => if i =? length l - 1 then removelast l else set_nth (removelast l) i z
    end.
  Definition is_wanted (kind : rtype) (node : name) (r : record) : bool := bytes_eqb (r_node r) node && rtype_eqb (record_type r) kind.
  (** the index of the first wanted record from [start] on *)
  Fixpoint find_from (f : record -> bool) (l : list record) (start i : nat) : option (nat * record) :=
    match l with
    | [] => None
    | r :: l' => if (start <=? i) && f r then Some (i, r) else find_from f l' start (S i)
    end.
  (** utils.rs:49-73, extract_records. [fuel]: every round removes a record, so the length
      of the section plus one rounds are enough. *)
  Fixpoint extract_loop (fuel : nat) (f : record -> bool) (l : list record) (start : nat) (acc : list record) : list record * list record :=
    match fuel with
    | 0 => (acc, l)
    | S fuel' =>
        if length l <=? start then (acc, l)
        else match find_from f l start 0 with
             | None => (acc, l)
             | Some (i, r) => extract_loop fuel' f (swap_remove l i) i (acc ++ [r])
             end
    end.
  Definition extract_records (l : list record) (kind : rtype) (node : name) : list record * list record :=
    extract_loop (S (length l)) (is_wanted kind node) l 0 [].
  (** utils.rs:77-86, extract_record *)
  Definition extract_record (l : list record) (kind : rtype) (node : name) : option record * list record :=
    match find_from (is_wanted kind node) l 0 0 with
    | None => (None, l)
    | Some (i, r) => (Some r, swap_remove l i)
    end.

  (** utils.rs:89-95, sort_nameservers: [sort_by] is a stable sort, modelled as insertion
      sort (what std does for up to 20 elements) *)
  Definition cmp_ns (a b : nsrv) : exec comparison :=
    let! la := ns_addrs a in
    let! lb := ns_addrs b in
    Done match la, lb with
         | _ :: _, [] => Lt
         | [], _ :: _ => Gt
         | _, _ => Eq
         end.
  Fixpoint insert_ns (x : nsrv) (l : list nsrv) : exec (list nsrv) :=
    match l with
    | [] => Done [x]
    | y :: l' => let! c := cmp_ns y x in match c with Lt => let! t := insert_ns x l' in Done (y :: t) | _ => Done (x :: y :: l') end
    end.
  Fixpoint sort_nameservers (l : list nsrv) : exec (list nsrv) :=
    match l with [] => Done [] | x :: l' => let! t := sort_nameservers l' in insert_ns x t end.

  (** utils.rs:8-45, root_zone_nameservers *)
  Definition ROOT_SERVERS : list (list N * list N) :=
    [ (s2b "a.root-servers.net.", [198; 41; 0; 4]); (s2b "b.root-servers.net.", [199; 9; 14; 201]);
      (s2b "c.root-servers.net.", [192; 33; 4; 12]); (s2b "d.root-servers.net.", [199; 7; 91; 13]);
      (s2b "e.root-servers.net.", [192; 203; 230; 10]); (s2b "f.root-servers.net.", [192; 5; 5; 241]);
      (s2b "g.root-servers.net.", [192; 112; 36; 4]); (s2b "h.root-servers.net.", [198; 97; 190; 53]);
      (s2b "i.root-servers.net.", [192; 36; 148; 17]); (s2b "j.root-servers.net.", [192; 58; 128; 30]);
      (s2b "k.root-servers.net.", [193; 0; 14; 129]); (s2b "l.root-servers.net.", [199; 7; 83; 42]);
      (s2b "m.root-servers.net.", [202; 12; 27; 33]) ]%N.
  Definition root_zone_nameservers : list nsrv :=
    map (fun x => mkNs (mkRec [DOT] C_IN 100000 0 (D_NS (fst x))) [mkRec (fst x) C_IN 10000 0 (D_A (snd x))]) ROOT_SERVERS.

  (** utils.rs:99-107, detect_cname_loops, for a record whose target is [target]: true if
      there is a loop *)
  Definition detect_cname_loops (target : name) (previous : list record) : bool :=
    existsb (fun c => bytes_eqb (r_node c) target) previous.
  (** utils.rs:111-119, detect_zones_loop *)
  Definition detect_zones_loop (zone : name) (previous : list name) : bool := existsb (fun z => bytes_eqb z zone) previous.

  (** *** requests.rs *)
  (** requests.rs:253-268, build_dns_request, with header.rs's Header::default *)
  Definition build_dns_request (id : N) (node : name) (kind : rtype) : message :=
    mkMsg (mkHeader id false OP_STD false false false false 0 RC_NoError 1 0 0 0) [mkQ node kind C_IN] [] [] [].

  (** requests.rs:228-251, 270-279, send_query and send_udp_packet. A socket that cannot be
      bound is an I/O error like any other: [w_sent] counts attempts. *)
  Definition send_query (node : name) (kind : rtype) (s : nsrv) : W (result message lerr) :=
    fun w =>
      let e := env (w_n w) in
      match encode_message p (build_dns_request (ev_id e) node kind) with
      | Panic k => (Panic k, w)
      | Diverge => (Diverge, w)
      | Done (Err _) => (Panic PUnwrap, w)
      | Done (Ok request_bytes) =>
          match ns_addrs s with
          | Panic k => (Panic k, w)
          | Diverge => (Diverge, w)
          | Done [] => (Panic PUnwrap, w)
          | Done (addr :: _) =>
              let w' := mkWorld (w_cache w) (S (w_n w)) ((addr, request_bytes) :: w_sent w) in
              match ev_net e addr request_bytes with
              | None => (Done (Err L_IO), w')
              | Some datagram =>
                  match decode_message p (firstn MAX_UDP_LEN_BYTES datagram) with
                  | Panic k => (Panic k, w')
                  | Diverge => (Diverge, w')
                  | Done (Err _) => (Done (Err L_Malformed), w')
                  | Done (Ok m) =>
                      if (h_id (m_header m) =? ev_id e)%N then (Done (Ok m), w') else (Done (Err L_Malformed), w')
                  end
              end
          end
      end.

  (** requests.rs:213-226, send_query_with_retries; [err]: the last error *)
  Fixpoint send_query_with_retries (retries : nat) (err : option lerr) (node : name) (kind : rtype) (s : nsrv) : W (result message lerr) :=
    match retries with
    | 0 => match err with Some e => wret (Err e) | None => wexec (Panic PUnwrap) end
    | S r =>
        let# x := send_query node kind s in
        match x with
        | Ok m => wret (Ok m)
        | Err e => send_query_with_retries r (Some e) node kind s
        end
    end.

  (** requests.rs:180-209 *)
  Definition is_nameserver_authoritative_over_node (ns_zone searched_node : name) : bool := ends_with searched_node ns_zone.
  Definition is_nameserver_authority_a_subzone (ns_zone current_zone : name) : bool := negb (length ns_zone <=? length current_zone).
  Definition is_nameserver_in_subzone_without_glue (ns_node ns_zone : name) (no_addr : bool) : bool := ends_with ns_node ns_zone && no_addr.

  (** requests.rs:127-142, extract_next_nss_for_cname: the servers named by the given
      records, and what is left of the additional section. *)
  Fixpoint nss_of (rs : list record) (additionals : list record) : exec (list nsrv * list record) :=
    match rs with
    | [] => Done ([], additionals)
    | r :: rs' =>
        let! ns_node := ns_data r in
        let (addrs, additionals') := extract_records additionals RT_A ns_node in
        let! (l, rest) := nss_of rs' additionals' in
        Done (mkNs r addrs :: l, rest)
    end.
  Definition extract_next_nss_for_cname (m : message) (cname : name) : exec (list nsrv) :=
    let! (l, _) := nss_of (filter (fun r => rtype_eqb (record_type r) RT_NS && ends_with cname (r_node r)) (m_authorities m)) (m_additionals m) in
    Done l.

  (** requests.rs:146-175, extract_next_nss_for_subzone *)
  Fixpoint drop_glueless (l : list nsrv) : exec (list nsrv) :=
    match l with
    | [] => Done []
    | s :: l' =>
        let! n := ns_node s in
        let! a := ns_addrs s in
        let! t := drop_glueless l' in
        Done (if is_nameserver_in_subzone_without_glue n (ns_zone s) (match a with [] => true | _ => false end) then t else s :: t)
    end.
  Definition extract_next_nss_for_subzone (m : message) (node zone : name) : exec (list nsrv) :=
    let! (l, _) := nss_of (filter (fun r => rtype_eqb (record_type r) RT_NS &&
                                     (is_nameserver_authoritative_over_node (r_node r) node && is_nameserver_authority_a_subzone (r_node r) zone))
                                  (m_authorities m)) (m_additionals m) in
    drop_glueless l.

  (** requests.rs:72-123, perform_request: the meaning of a response *)
  Definition read_response (m : message) (node : name) (kind : rtype) (zone : name) : exec (result nsresp lerr) :=
    match h_rcode (m_header m) with
    | RC_NoError =>
        let (answers, rest) := extract_records (m_answers m) kind node in
        match answers with
        | _ :: _ => Done (Ok (NR_Answer answers (m_additionals m)))
        | [] =>
            match fst (extract_record rest RT_CNAME node) with
            | Some c =>
                let! cname := cname_data c in
                let! next := extract_next_nss_for_cname m cname in
                Done (Ok (NR_Alias c next))
            | None =>
                let! next := extract_next_nss_for_subzone m node zone in
                Done match next with [] => Err L_Empty | _ => Ok (NR_Delegation next) end
            end
        end
    | RC_NxDomain =>
        if h_aa (m_header m) then Done (Ok (NR_NoDomain (fst (extract_record (m_authorities m) RT_SOA node))))
        else Done (Err (L_RespCode RC_NxDomain))
    | rc => Done (Err (L_RespCode rc))
    end.
  Definition perform_request (node : name) (kind : rtype) (s : nsrv) (retries : nat) : L (result nsresp lerr) :=
    let* r := lw (send_query_with_retries retries None node kind s) in
    match r with
    | Err e => lret (Err e)
    | Ok m => let* _ := trace_raw m in lexec (read_response m node kind (ns_zone s))
    end.

  (** *** recursive.rs *)
  (** recursive.rs:272-285, perform_request_with_trace *)
  Definition perform_request_with_trace (node : name) (kind : rtype) (s : nsrv) (retries : nat) : L (result nsresp lerr) :=
    let* _ := trace_ns_req node kind s in
    let* r := perform_request node kind s retries in
    match r with
    | Err e => let* _ := trace (T_ns_err e) in lret (Err e)
    | Ok x => let* _ := trace (T_ns_resp x) in lret (Ok x)
    end.

  (** recursive.rs:288-297, search_records_in_cache_with_trace *)
  Definition search_records_with_trace (kind : rtype) : L (list record) :=
    let* node := lget l_node in
    let* rs := lw (search_records node kind) in
    let* _ := trace match rs with [] => T_miss node kind | _ => T_hit node kind rs end in
    lret rs.

  (** recursive.rs:300-331, search_nss_in_cache_with_trace *)
  Fixpoint find_ns_records (domains : list (list N)) : W (list record) :=
    match domains with
    | [] => wret []
    | d :: ds =>
        match name_from_string d with
        | Err _ => wexec (Panic PUnwrap)
        | Ok n => let# rs := search_records n RT_NS in match rs with [] => find_ns_records ds | _ => wret rs end
        end
    end.
  Fixpoint cached_addrs (rs : list record) : W (list nsrv) :=
    match rs with
    | [] => wret []
    | r :: rs' => let# n := wexec (ns_data r) in let# a := search_records n RT_A in let# l := cached_addrs rs' in wret (mkNs r a :: l)
    end.
  Definition search_nss_with_trace : L (list nsrv) :=
    let* node := lget l_node in
    let* rs := lw (find_ns_records (generate_domain_hierarchy node)) in
    match rs with
    | [] => let* _ := trace (T_ns_miss node) in lret []
    | _ => let* l := lw (cached_addrs rs) in let* _ := trace (T_ns_hit node l) in lret l
    end.

  (** recursive.rs:91-96, LookupResponse *)
  Record response := mkResp { x_answers : list record; x_authorities : list record; x_additionals : list record; x_none : bool }.

  (** recursive.rs:168-179, handle_cname *)
  Definition handle_cname (c : record) (next : list nsrv) : L (result unit lerr) :=
    let* cname := lexec (cname_data c) in
    let* prev := lget l_cnames in
    if detect_cname_loops cname prev then lret (Err L_CnamesLoop)
    else
      let* _ := lmod (set_cnames (prev ++ [c])) in
      let* nf := lget (fun l => no_follow (l_conf l)) in
      if nf then lret (Err L_UnexpectedCname)
      else
        let* _ := lw (save_records [c]) in
        let* _ := lmod (set_next next) in
        let* _ := lmod (set_node cname) in
        lret (Ok tt).

  Section With_sub.
    (** The recursive call [perform] (recursive.rs:263), of a new lookup. *)
    Variable sub : L (result response lerr).

    Definition no_follow_conf (c : rconf) : rconf := mkConf (max_ns c) (max_retries c) (max_cname c) true (silent c) (verbose c).

    (** recursive.rs:243-269, resolve_ns_subquery *)
    Definition resolve_ns_subquery (node zone : name) : L (result (list record) lerr) :=
      let* zones := lget l_zones in
      if detect_zones_loop zone zones then lret (Err L_ZonesLoop)
      else
        fun s =>
          let inner := mkLookup node RT_A (zones ++ [zone]) [] [] [] (no_follow_conf (l_conf (fst s))) in
          let '(r, (inner', w')) := sub (inner, snd s) in
          match r with
          | Panic k => (Panic k, (fst s, w'))
          | Diverge => (Diverge, (fst s, w'))
          | Done r' =>
              (let* _ := add_sub_trace (l_trace inner') in
               lret match r' with Ok x => Ok (fst (extract_records (x_answers x) RT_A node)) | Err e => Err e end) (fst s, w')
          end.

    Inductive asked := Asked_result (r : result nsresp lerr) | Asked_next (l : list nsrv).

    (** recursive.rs:192-236, the servers of one zone; [err]: the first error. *)
    Definition first_err (err : option lerr) (e : lerr) : option lerr := match err with None => Some e | Some _ => err end.
    Fixpoint query_servers (l : list nsrv) (err : option lerr) : L asked :=
      match l with
      | [] => match err with Some e => lret (Asked_result (Err e)) | None => lexec (Panic PUnwrap) end
      | s :: l' =>
          let* addrs := lexec (ns_addrs s) in
          let* s' :=
            match addrs with
            | _ :: _ => lret (Ok s)
            | [] =>
                let* n := lexec (ns_node s) in
                let* r := resolve_ns_subquery n (ns_zone s) in
                lret match r with Ok a => Ok (mkNs (n_rec s) a) | Err e => Err (L_Sub e) end
            end in
          match s' with
          | Err e => query_servers l' (first_err err e)
          | Ok s' =>
              let* node := lget l_node in
              let* kind := lget l_kind in
              let* conf := lget l_conf in
              let* r := perform_request_with_trace node kind s' (max_retries conf) in
              match r with
              | Err e => query_servers l' (first_err err e)
              | Ok (NR_Delegation next) =>
                  let* _ := lw (save_nss next) in
                  let* _ := lmod (set_next next) in
                  lret (Asked_next next)
              | Ok x => lret (Asked_result (Ok x))
              end
          end
      end.

    (** recursive.rs:184-238, query_nameservers_iteratively: [fuel] zones *)
    Fixpoint query_zones (fuel : nat) : L (result nsresp lerr) :=
      match fuel with
      | 0 => lexec Diverge
      | S f =>
          let* next := lget l_next in
          match next with
          | [] => lexec (Panic PAssert)
          | _ =>
              let* _ := lmod (set_next []) in
              let* sorted := lexec (sort_nameservers next) in
              let* conf := lget l_conf in
              let* r := query_servers (firstn (max_ns conf) sorted) None in
              match r with
              | Asked_result x => lret x
              | Asked_next _ => query_zones f
              end
          end
      end.

    (** recursive.rs:111-164, perform_inner: [n] more names. [fuel]: zones per name. *)
    Fixpoint perform_inner (fuel n : nat) : L (result response lerr) :=
      match n with
      | 0 => lret (Err L_MaxCname)
      | S n' =>
          let* node := lget l_node in
          let* kind := lget l_kind in
          let* _ := trace (T_start node kind) in
          let* cached := search_records_with_trace kind in
          match cached with
          | _ :: _ =>
              let* prev := lget l_cnames in
              let* _ := lmod (set_cnames []) in
              lret (Ok (mkResp (prev ++ cached) [] [] false))
          | [] =>
              let* cnames := search_records_with_trace RT_CNAME in
              match cnames with
              | c :: _ =>
                  let* r := handle_cname c [] in
                  match r with Err e => lret (Err e) | Ok _ => perform_inner fuel n' end
              | [] =>
                  let* next := lget l_next in
                  let* _ :=
                    match next with
                    | _ :: _ => lret tt
                    | [] => let* l := search_nss_with_trace in lmod (set_next match l with [] => root_zone_nameservers | _ => l end)
                    end in
                  let* r := query_zones fuel in
                  match r with
                  | Err e => lret (Err e)
                  | Ok (NR_Answer answers additionals) =>
                      let* _ := lexec (debug_assert p (match answers with [] => false | _ => true end) (Done tt)) in
                      let* _ := lw (save_records answers) in
                      let* prev := lget l_cnames in
                      let* _ := lmod (set_cnames []) in
                      lret (Ok (mkResp (prev ++ answers) [] additionals false))
                  | Ok (NR_Alias c next) =>
                      let* r := handle_cname c next in
                      match r with Err e => lret (Err e) | Ok _ => perform_inner fuel n' end
                  | Ok (NR_NoDomain soa) =>
                      let* prev := lget l_cnames in
                      let* _ := lmod (set_cnames []) in
                      lret (Ok (mkResp prev match soa with Some r => [r] | None => [] end [] true))
                  | Ok (NR_Delegation _) => lexec (Panic PUnreachable)
                  end
              end
          end
      end.
  End With_sub.

  (** recursive.rs:103-106, perform; [fuel] bounds the depth of sub-lookups and the zones
      visited for one name: [Diverge] if it does not suffice. *)
  Fixpoint perform (fuel : nat) : L (result response lerr) :=
    match fuel with
    | 0 => lexec Diverge
    | S f => let* conf := lget l_conf in perform_inner (perform f) f (max_cname conf)
    end.

  (** recursive.rs:59-71, new_lookup *)
  Definition new_lookup (conf : rconf) (node : name) (kind : rtype) : lookup := mkLookup node kind [] [] [] [] conf.
End Run.
