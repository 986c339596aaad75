(** What a healthy domain name system is (C78): a directory that says what there is, and
    name servers that tell the truth about it. From the model only the types of records,
    messages, cache and environment are taken, and the built-in root servers. *)
From Coq Require Import Permutation.
From Verif Require Import Base Types Name NameSpec Codec CodecSpec ZoneSpec NsSpec Cache Resolver ResolverSpec PropResolver5.

(** Records up to TTL and the length field; lists of them up to order. *)
Definition bare (r : record) : record := mkRec (r_node r) (r_class r) 0 0 (r_data r).
Definition same (a b : list record) : Prop := Permutation (map bare a) (map bare b).

(** The directory: the records of every name and type. A name with NS records is a zone. An
    alias is alone at its name. *)
Definition directory := name -> rtype -> list record.
Record directory_ok (D : directory) : Prop := {
  di_owner : forall n t r, In r (D n t) -> r_node r = n /\ record_type r = t;
  di_alias : forall n, D n RT_CNAME <> [] -> (exists c, D n RT_CNAME = [c]) /\ forall t, t <> RT_CNAME -> D n t = [];
  di_target : forall n c t, In c (D n RT_CNAME) -> r_data c = D_CNAME t -> sendable t;
  di_servers : forall z, NoDup (map r_data (D z RT_NS)) }.
Definition serves (D : directory) (z h : name) : Prop := exists r, In r (D z RT_NS) /\ r_data r = D_NS h.

(** How the servers of zones are found. [depth z = 0]: whoever refers to zone [z] sends the
    addresses of an anchor, a server of the zone; [anchor z h]: [h] is one. [depth z > 0]:
    addresses may be missing; the servers' names lie in zones of smaller depth only, and can
    be looked up. *)
Record layout := mkLayout { depth : name -> nat; anchor : name -> name -> Prop }.

(** What a lookup of [n], type [t] should find: the aliases [cs], then the records [rs], or
    none. *)
Inductive leads (D : directory) : name -> rtype -> list record -> list record -> Prop :=
| L_here : forall n t, D n t <> [] -> leads D n t [] (D n t)
| L_nothing : forall n t, D n t = [] -> D n RT_CNAME = [] -> leads D n t [] []
| L_alias : forall n t c n' cs rs, D n t = [] -> D n RT_CNAME = [c] -> r_data c = D_CNAME n' -> leads D n' t cs rs -> leads D n t (c :: cs) rs.

(** A message names all servers of zone [z]; of each, either all addresses or none (then its
    name must not end with the text of the zone's name); of an anchor, if need be. *)
Definition refers (D : directory) (Y : layout) (m : message) (z : name) : Prop :=
  D z RT_NS <> [] /\ same (of_type RT_NS (m_authorities m)) (D z RT_NS) /\
  (forall h, serves D z h -> owned h RT_A (m_additionals m) <> [] /\ same (owned h RT_A (m_additionals m)) (D h RT_A) \/ owned h RT_A (m_additionals m) = [] /\ ~ exists pre, h = pre ++ z) /\
  (depth Y z = 0 -> exists h, serves D z h /\ anchor Y z h /\ owned h RT_A (m_additionals m) <> []).

(** Honest responses of a server of zone [z] to a question: the records; the alias (and, if
    it names servers whose zone's name ends the text of the target, they are the servers of
    a zone of the target); that there is nothing; or the servers of a zone that is closer. *)
Inductive honest (D : directory) (Y : layout) (m : message) (n : name) (t : rtype) (z : name) : Prop :=
| H_answer : h_rcode (m_header m) = RC_NoError -> D n t <> [] -> same (owned n t (m_answers m)) (D n t) -> honest D Y m n t z
| H_alias : forall c target, h_rcode (m_header m) = RC_NoError -> D n t = [] -> owned n t (m_answers m) = [] ->
    D n RT_CNAME = [c] -> r_data c = D_CNAME target -> same (owned n RT_CNAME (m_answers m)) [c] ->
    ((forall r, In r (m_authorities m) -> record_type r = RT_NS -> ~ exists pre, target = pre ++ r_node r) \/
     exists z', within target z' /\ refers D Y m z') -> honest D Y m n t z
| H_nothing : h_rcode (m_header m) = RC_NxDomain -> h_aa (m_header m) = true -> D n t = [] -> D n RT_CNAME = [] -> honest D Y m n t z
| H_referral : forall z', h_rcode (m_header m) = RC_NoError -> owned n t (m_answers m) = [] -> owned n RT_CNAME (m_answers m) = [] ->
    within n z' -> length z < length z' -> refers D Y m z' -> honest D Y m n t z.

(** Worthless responses: errors, and those that say nothing about the question. *)
Definition worthless (m : message) (n : name) (t : rtype) (z : name) : Prop :=
  match h_rcode (m_header m) with
  | RC_NoError => owned n t (m_answers m) = [] /\ owned n RT_CNAME (m_answers m) = [] /\
      forall r, In r (m_authorities m) -> record_type r = RT_NS -> (exists pre, n = pre ++ r_node r) -> length (r_node r) <= length z
  | RC_NxDomain => h_aa (m_header m) = false
  | _ => True
  end.

Section Healthy.
  Context (p : profile) (env : environment) (D : directory) (Y : layout).
  (** The lookup starts at time [start] and is over before [T]; a server is tried [retries]
      times, and of a zone [servers] servers. *)
  Context (start T : N) (retries servers : nat).

  (** The addresses of anchors stay valid until [T]. *)
  Definition lasting (m : message) : Prop := forall z r, In r (m_answers m ++ m_additionals m) -> record_type r = RT_A -> anchor Y z (r_node r) -> (T <= start + r_ttl r * SECOND)%N.
  (** No response to the question makes the resolver panic (C22 says which do). *)
  Definition readable (a : list N) (n : name) (t : rtype) : Prop := forall i d, ev_net (env i) a (query_at env n t i) = Some d -> exists r, decode_message p (firstn 512 d) = Done r.
  (** The address is that of a good server of zone [z]: asked about a name in the zone, all
      its responses are honest, and it responds to one of [retries] tries in a row. *)
  Definition good_server (a : list N) (z : name) : Prop := forall n t, sendable n -> usable_type t -> within n z ->
    readable a n t /\ (forall i m, try_yields p env a n t i m -> honest D Y m n t z /\ lasting m) /\
    (forall i, exists k m, k < retries /\ try_yields p env a n t (i + k) m).
  (** A useless one: it responds, if at all, with worthless responses. *)
  Definition useless_server (a : list N) (z : name) : Prop := forall n t, sendable n -> usable_type t -> within n z ->
    readable a n t /\ forall i m, try_yields p env a n t i m -> worthless m n t z.
  Definition works (z h : name) : Prop := forall g a, In g (D h RT_A) -> r_data g = D_A a -> good_server a z.
  Definition broken (z h : name) : Prop := forall g a, In g (D h RT_A) -> r_data g = D_A a -> useless_server a z.

  Record healthy : Prop := {
    he_directory : directory_ok D;
    (** Of the root servers, and of the servers of every zone, fewer than [servers] are
        broken, and at least one works. *)
    he_root : exists bad, length bad < servers /\ Forall (fun s => good_server (snd s) [46%N] \/ In s bad /\ useless_server (snd s) [46%N]) ROOT_SERVERS;
    he_root_works : exists s, In s ROOT_SERVERS /\ good_server (snd s) [46%N];
    he_servers : forall z, exists bad, length bad < servers /\ forall h, serves D z h -> works z h \/ In h bad /\ broken z h;
    he_works : forall z, D z RT_NS <> [] -> exists h, serves D z h /\ works z h;
    he_anchors : forall z h, anchor Y z h -> works z h;
    he_names : forall z h, 0 < depth Y z -> serves D z h -> sendable h /\ D h RT_A <> [] /\ forall z', D z' RT_NS <> [] -> within h z' -> depth Y z' < depth Y z }.

  (** What the cache holds and has not expired at the start is true, and where it holds the
      servers of a zone, it holds the address of an anchor until [T], if need be. *)
  Definition address_cached (c : rcache) (h : name) : Prop := exists exp rs, c_data c (h, RT_A) = Some (exp, rs) /\ (T <= exp)%N.
  Definition anchored (c : rcache) (z : name) : Prop := exists h, serves D z h /\ anchor Y z h /\ address_cached c h.
  Definition cache_true (c : rcache) : Prop := forall k exp rs, c_data c k = Some (exp, rs) -> (start < exp)%N ->
    same rs (D (fst k) (snd k)) /\ (snd k = RT_NS -> depth Y (fst k) = 0 -> anchored c (fst k)).
  (** Other threads keep it so, and do not remove such addresses. *)
  Definition keeps_anchors (c c' : rcache) : Prop := forall z h, anchor Y z h -> address_cached c h -> address_cached c' h.
  Definition others_true : Prop := forall n c, cache_ok plain_record (ev_now (env n)) c -> cache_true c ->
    cache_true (ev_others (env n) c) /\ keeps_anchors c (ev_others (env n) c).
End Healthy.

(** A lookup returned what there is: the aliases in order, then the records. *)
Definition right_answer (D : directory) (q : name) (kind : rtype) (r : exec (result response lerr)) : Prop :=
  exists cs rs x cs' rs', leads D q kind cs rs /\ r = Done (Ok x) /\ x_answers x = cs' ++ rs' /\ map bare cs' = map bare cs /\ same rs' rs /\ (x_none x = true <-> rs = []).
(** A sequence of lookups, one after the other (other threads act in between). *)
Fixpoint lookups (p : profile) (env : environment) (conf : rconf) (fuel : nat) (qs : list (name * rtype)) (w : world) : list (exec (result response lerr)) * world :=
  match qs with
  | [] => ([], w)
  | (q, kind) :: qs' =>
      let '(r, (_, w1)) := perform p env fuel (new_lookup conf q kind, w) in
      let '(rs, w2) := lookups p env conf fuel qs' w1 in (r :: rs, w2)
  end.
(** Other threads do not store an alias of [n]. *)
Definition others_leave (env : environment) (n : name) : Prop :=
  forall i c, c_data c (n, RT_CNAME) = None -> c_data (ev_others (env i) c) (n, RT_CNAME) = None.
(** Questions whose aliases end within the configured limit. *)
Definition fair_question (D : directory) (conf : rconf) (q : name) (kind : rtype) : Prop :=
  sendable q /\ usable_type kind /\ exists cs rs, leads D q kind cs rs /\ length cs < max_cname conf.

(** Lookups after which others find what there is: those of NS records only if the zone's
    servers can be found without being told their addresses. *)
Definition leaves_no_trap (D : directory) (Y : layout) (q : name) (kind : rtype) : Prop :=
  kind = RT_NS -> forall cs rs r, leads D q kind cs rs -> In r rs -> 0 < depth Y (r_node r).
