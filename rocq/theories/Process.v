(** The lookup of recursive.rs once more, as a process: the same code as in Resolver.v, cut at
    its accesses to the shared cache and to the network, so that any number of lookups can be
    run at once, each access of one between any two of another ([Many.v]). Run alone in an
    environment of Resolver.v a process is the lookup modelled there ([ProcessRun.v]). *)
From Verif Require Import Base Types Name Codec Cache Resolver.

(** What a thread does until it ends with an [R]. Before an access to the cache the clock is
    read ([now]), and once more inside it ([now']); a packet is made with a random id, and
    sent, and a datagram or nothing comes back; making it may panic. *)
Inductive proc (R : Type) : Type :=
| P_end (r : R)
| P_cache (f : N -> N -> op rkey (list record)) (k : N -> exec (reply (list record)) -> proc R)
| P_send (q : N -> exec (list N * list N)) (k : N -> exec (option (list N)) -> proc R).
Arguments P_end {R} _.
Arguments P_cache {R} _ _.
Arguments P_send {R} _ _.

Fixpoint pthen {R S} (m : proc R) (k : R -> proc S) : proc S :=
  match m with
  | P_end r => k r
  | P_cache f c => P_cache f (fun now x => pthen (c now x) k)
  | P_send q c => P_send q (fun id d => pthen (c id d) k)
  end.

(** Code that uses cache and network, and code that also changes the lookup. *)
Definition WP (A : Type) := proc (exec A).
Definition LP (A : Type) := lookup -> proc (exec A * lookup).
Definition wpbind {A B} (m : WP A) (k : A -> WP B) : WP B :=
  pthen m (fun r => match r with Done a => k a | Panic q => P_end (Panic q) | Diverge => P_end Diverge end).
Definition lpbind {A B} (m : LP A) (k : A -> LP B) : LP B :=
  fun l => pthen (m l) (fun r => match fst r with Done a => k a (snd r) | Panic q => P_end (Panic q, snd r) | Diverge => P_end (Diverge, snd r) end).
Definition lwp {A} (m : WP A) : LP A := fun l => pthen m (fun r => P_end (r, l)).
(** Code of Resolver.v that uses neither cache nor network. *)
Definition pure {A} (m : L A) : LP A := fun l => let x := m (l, mkWorld cache_new 0 []) in P_end (fst x, fst (snd x)).
Notation "'let%' x ':=' m 'in' k" := (wpbind m (fun x => k)) (at level 200, x pattern, m at level 100, k at level 200, right associativity).
Notation "'let^' x ':=' m 'in' k" := (lpbind m (fun x => k)) (at level 200, x pattern, m at level 100, k at level 200, right associativity).

Section Process.
  Variable p : profile.

  (** recursive.rs:337-363, search_records_in_cache *)
  Definition search_p (node : name) (kind : rtype) : WP (list record) :=
    P_cache (fun _ now' => O_get (K := rkey) (node, kind) now') (fun before_get entry =>
      match entry with
      | Done (R_entry (Some (exp, (r0 :: _) as records))) =>
          P_end (if forallb (fun r => rtype_eqb (record_type r) (record_type r0) && (r_ttl r =? r_ttl r0)%N) records && (before_get <? exp)%N
                 then let ttl := ((exp - before_get) / 1000000000)%N in
                      if (ttl <? 4294967296)%N then Done (map (fun r => set_ttl r ttl) records) else Panic PUnwrap
                 else Panic PAssert)
      | Done _ => P_end (Done [])
      | Panic q => P_end (Panic q)
      | Diverge => P_end Diverge
      end).

  (** recursive.rs:367-379, save_records_in_cache *)
  Definition save_p (records : list record) : WP unit :=
    match records with
    | [] => P_end (Panic PAssert)
    | r0 :: rs =>
        if forallb (fun r => rtype_eqb (record_type r) (record_type r0)) records then
          let m := min_ttl r0 rs in
          P_cache (fun now now' => O_set (K := rkey) (r_node r0, record_type r0) (m * 1000000000)%N (map (fun r => set_ttl r m) records) now now')
            (fun _ x => P_end match x with Done _ => Done tt | Panic q => Panic q | Diverge => Diverge end)
        else P_end (Panic PAssert)
    end.

  (** recursive.rs:382-391, save_nss_in_cache *)
  Fixpoint save_glue_p (l : list nsrv) : WP unit :=
    match l with
    | [] => P_end (Done tt)
    | s :: l' => match n_addrs s with [] => save_glue_p l' | _ => let% _ := save_p (n_addrs s) in save_glue_p l' end
    end.
  Definition save_nss_p (l : list nsrv) : WP unit := let% _ := save_glue_p l in save_p (map n_rec l).

  (** requests.rs:228-251, 270-279, send_query and send_udp_packet *)
  Definition send_p (node : name) (kind : rtype) (s : nsrv) : WP (result message lerr) :=
    P_send (fun id =>
      match encode_message p (build_dns_request id node kind) with
      | Panic k => Panic k
      | Diverge => Diverge
      | Done (Err _) => Panic PUnwrap
      | Done (Ok request_bytes) =>
          match ns_addrs s with
          | Panic k => Panic k
          | Diverge => Diverge
          | Done [] => Panic PUnwrap
          | Done (addr :: _) => Done (addr, request_bytes)
          end
      end) (fun id d => P_end
      match d with
      | Panic k => Panic k
      | Diverge => Diverge
      | Done None => Done (Err L_IO)
      | Done (Some datagram) =>
          match decode_message p (firstn MAX_UDP_LEN_BYTES datagram) with
          | Panic k => Panic k
          | Diverge => Diverge
          | Done (Err _) => Done (Err L_Malformed)
          | Done (Ok m) => if (h_id (m_header m) =? id)%N then Done (Ok m) else Done (Err L_Malformed)
          end
      end).
  (** requests.rs:213-226, send_query_with_retries *)
  Fixpoint retries_p (retries : nat) (err : option lerr) (node : name) (kind : rtype) (s : nsrv) : WP (result message lerr) :=
    match retries with
    | 0 => match err with Some e => P_end (Done (Err e)) | None => P_end (Panic PUnwrap) end
    | S r =>
        let% x := send_p node kind s in
        match x with
        | Ok m => P_end (Done (Ok m))
        | Err e => retries_p r (Some e) node kind s
        end
    end.
  (** requests.rs:72-123, perform_request *)
  Definition request_p (node : name) (kind : rtype) (s : nsrv) (retries : nat) : LP (result nsresp lerr) :=
    let^ r := lwp (retries_p retries None node kind s) in
    match r with
    | Err e => pure (lret (Err e))
    | Ok m => let^ _ := pure (trace_raw m) in pure (lexec (read_response m node kind (ns_zone s)))
    end.
  (** recursive.rs:272-285, perform_request_with_trace *)
  Definition request_trace_p (node : name) (kind : rtype) (s : nsrv) (retries : nat) : LP (result nsresp lerr) :=
    let^ _ := pure (trace_ns_req node kind s) in
    let^ r := request_p node kind s retries in
    match r with
    | Err e => let^ _ := pure (trace (T_ns_err e)) in pure (lret (Err e))
    | Ok x => let^ _ := pure (trace (T_ns_resp x)) in pure (lret (Ok x))
    end.
  (** recursive.rs:288-297, search_records_in_cache_with_trace *)
  Definition search_trace_p (kind : rtype) : LP (list record) :=
    let^ node := pure (lget l_node) in
    let^ rs := lwp (search_p node kind) in
    let^ _ := pure (trace match rs with [] => T_miss node kind | _ => T_hit node kind rs end) in
    pure (lret rs).
  (** recursive.rs:300-331, search_nss_in_cache_with_trace *)
  Fixpoint find_ns_p (domains : list (list N)) : WP (list record) :=
    match domains with
    | [] => P_end (Done [])
    | d :: ds =>
        match name_from_string d with
        | Err _ => P_end (Panic PUnwrap)
        | Ok n => let% rs := search_p n RT_NS in match rs with [] => find_ns_p ds | _ => P_end (Done rs) end
        end
    end.
  Fixpoint cached_addrs_p (rs : list record) : WP (list nsrv) :=
    match rs with
    | [] => P_end (Done [])
    | r :: rs' => let% n := P_end (ns_data r) in let% a := search_p n RT_A in let% l := cached_addrs_p rs' in P_end (Done (mkNs r a :: l))
    end.
  Definition search_nss_p : LP (list nsrv) :=
    let^ node := pure (lget l_node) in
    let^ rs := lwp (find_ns_p (generate_domain_hierarchy node)) in
    match rs with
    | [] => let^ _ := pure (trace (T_ns_miss node)) in pure (lret [])
    | _ => let^ l := lwp (cached_addrs_p rs) in let^ _ := pure (trace (T_ns_hit node l)) in pure (lret l)
    end.
  (** recursive.rs:168-179, handle_cname *)
  Definition handle_cname_p (c : record) (next : list nsrv) : LP (result unit lerr) :=
    let^ cname := pure (lexec (cname_data c)) in
    let^ prev := pure (lget l_cnames) in
    if detect_cname_loops cname prev then pure (lret (Err L_CnamesLoop))
    else
      let^ _ := pure (lmod (set_cnames (prev ++ [c]))) in
      let^ nf := pure (lget (fun l => no_follow (l_conf l))) in
      if nf then pure (lret (Err L_UnexpectedCname))
      else
        let^ _ := lwp (save_p [c]) in
        let^ _ := pure (lmod (set_next next)) in
        let^ _ := pure (lmod (set_node cname)) in
        pure (lret (Ok tt)).

  Section With_sub.
    Variable sub : LP (result response lerr).

    (** recursive.rs:243-269, resolve_ns_subquery *)
    Definition subquery_p (node zone : name) : LP (result (list record) lerr) :=
      let^ zones := pure (lget l_zones) in
      if detect_zones_loop zone zones then pure (lret (Err L_ZonesLoop))
      else
        fun l =>
          pthen (sub (mkLookup node RT_A (zones ++ [zone]) [] [] [] (no_follow_conf (l_conf l))))
            (fun r => match fst r with
                      | Panic k => P_end (Panic k, l)
                      | Diverge => P_end (Diverge, l)
                      | Done r' =>
                          (let^ _ := pure (add_sub_trace (l_trace (snd r))) in
                           pure (lret match r' with Ok x => Ok (fst (extract_records (x_answers x) RT_A node)) | Err e => Err e end)) l
                      end).

    (** recursive.rs:192-236, the servers of one zone *)
    Fixpoint servers_p (l : list nsrv) (err : option lerr) : LP asked :=
      match l with
      | [] => match err with Some e => pure (lret (Asked_result (Err e))) | None => pure (lexec (Panic PUnwrap)) end
      | s :: l' =>
          let^ addrs := pure (lexec (ns_addrs s)) in
          let^ s' :=
            match addrs with
            | _ :: _ => pure (lret (Ok s))
            | [] =>
                let^ n := pure (lexec (ns_node s)) in
                let^ r := subquery_p n (ns_zone s) in
                pure (lret match r with Ok a => Ok (mkNs (n_rec s) a) | Err e => Err (L_Sub e) end)
            end in
          match s' with
          | Err e => servers_p l' (first_err err e)
          | Ok s' =>
              let^ node := pure (lget l_node) in
              let^ kind := pure (lget l_kind) in
              let^ conf := pure (lget l_conf) in
              let^ r := request_trace_p node kind s' (max_retries conf) in
              match r with
              | Err e => servers_p l' (first_err err e)
              | Ok (NR_Delegation next) =>
                  let^ _ := lwp (save_nss_p next) in
                  let^ _ := pure (lmod (set_next next)) in
                  pure (lret (Asked_next next))
              | Ok x => pure (lret (Asked_result (Ok x)))
              end
          end
      end.

    (** recursive.rs:184-238, query_nameservers_iteratively *)
    Fixpoint zones_p (fuel : nat) : LP (result nsresp lerr) :=
      match fuel with
      | 0 => pure (lexec Diverge)
      | S f =>
          let^ next := pure (lget l_next) in
          match next with
          | [] => pure (lexec (Panic PAssert))
          | _ =>
              let^ _ := pure (lmod (set_next [])) in
              let^ sorted := pure (lexec (sort_nameservers next)) in
              let^ conf := pure (lget l_conf) in
              let^ r := servers_p (firstn (max_ns conf) sorted) None in
              match r with
              | Asked_result x => pure (lret x)
              | Asked_next _ => zones_p f
              end
          end
      end.

    (** recursive.rs:111-164, perform_inner *)
    Fixpoint inner_p (fuel n : nat) : LP (result response lerr) :=
      match n with
      | 0 => pure (lret (Err L_MaxCname))
      | S n' =>
          let^ node := pure (lget l_node) in
          let^ kind := pure (lget l_kind) in
          let^ _ := pure (trace (T_start node kind)) in
          let^ cached := search_trace_p kind in
          match cached with
          | _ :: _ =>
              let^ prev := pure (lget l_cnames) in
              let^ _ := pure (lmod (set_cnames [])) in
              pure (lret (Ok (mkResp (prev ++ cached) [] [] false)))
          | [] =>
              let^ cnames := search_trace_p RT_CNAME in
              match cnames with
              | c :: _ =>
                  let^ r := handle_cname_p c [] in
                  match r with Err e => pure (lret (Err e)) | Ok _ => inner_p fuel n' end
              | [] =>
                  let^ next := pure (lget l_next) in
                  let^ _ :=
                    match next with
                    | _ :: _ => pure (lret tt)
                    | [] => let^ l := search_nss_p in pure (lmod (set_next match l with [] => root_zone_nameservers | _ => l end))
                    end in
                  let^ r := zones_p fuel in
                  match r with
                  | Err e => pure (lret (Err e))
                  | Ok (NR_Answer answers additionals) =>
                      let^ _ := pure (lexec (debug_assert p (match answers with [] => false | _ => true end) (Done tt))) in
                      let^ _ := lwp (save_p answers) in
                      let^ prev := pure (lget l_cnames) in
                      let^ _ := pure (lmod (set_cnames [])) in
                      pure (lret (Ok (mkResp (prev ++ answers) [] additionals false)))
                  | Ok (NR_Alias c next) =>
                      let^ r := handle_cname_p c next in
                      match r with Err e => pure (lret (Err e)) | Ok _ => inner_p fuel n' end
                  | Ok (NR_NoDomain soa) =>
                      let^ prev := pure (lget l_cnames) in
                      let^ _ := pure (lmod (set_cnames [])) in
                      pure (lret (Ok (mkResp prev match soa with Some r => [r] | None => [] end [] true)))
                  | Ok (NR_Delegation _) => pure (lexec (Panic PUnreachable))
                  end
              end
          end
      end.
  End With_sub.

  (** recursive.rs:103-106, perform *)
  Fixpoint perform_p (fuel : nat) : LP (result response lerr) :=
    match fuel with
    | 0 => pure (lexec Diverge)
    | S f => let^ conf := pure (lget l_conf) in inner_p (perform_p f) f (max_cname conf)
    end.
End Process.
