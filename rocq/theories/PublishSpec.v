(** What it takes to publish a part of the directory (C78) with the name server of this
    project (C85). *)
From Coq Require Import Permutation.
From Verif Require Import Base Types Name NameSpec Codec CodecSpec Zone ZoneSpec NsSpec Parser LoadSpec ZoneFileSpec ZoneLoadSpec Cache Resolver ResolverSpec PropResolver5 PropTalk HealthSpec.

Section Publish.
  Context (D : directory) (Y : layout) (start T : N).
  Notation apex sd := (d_apex (s_auth sd)).

  (** The zones' data say what the directory says: of the names of the zone that are not
      delegated, all records; of each sub zone, its servers; and of these servers, all
      addresses or none. *)
  Record agrees (sd : server_data) : Prop := {
    (** No TXT records (C16), labels of at most 63 bytes (C06). *)
    ag_readable : zones_readable sd;
    ag_auth : forall n t, within n (apex sd) -> in_no_sub sd n -> same (owned n t (d_records (s_auth sd))) (D n t);
    ag_sub : forall d, In d (s_subs sd) -> within (d_apex d) (apex sd) /\ d_apex d <> apex sd /\ same (owned (d_apex d) RT_NS (d_records d)) (D (d_apex d) RT_NS);
    ag_glue : forall d h, In d (s_subs sd) -> HealthSpec.serves D (d_apex d) h -> (within h (d_apex d) \/ ~ exists pre, h = pre ++ d_apex d) /\ (glue sd h = [] \/ same (glue sd h) (D h RT_A));
    ag_anchor : forall d, In d (s_subs sd) -> depth Y (d_apex d) = 0 -> exists h, HealthSpec.serves D (d_apex d) h /\ anchor Y (d_apex d) h /\ glue sd h <> [];
    (** The addresses of anchors are valid until [T]. *)
    ag_ttl : forall d z r, In d (s_auth sd :: s_subs sd) -> In r (d_records d) -> record_type r = RT_A -> anchor Y z (r_node r) -> (T <= start + r_ttl r * SECOND)%N;
    (** All replies fit into a datagram of 512 bytes. *)
    ag_fits : forall n t, sendable n -> usable_type t -> within n (apex sd) ->
      (in_no_sub sd n -> fits n t (wanted n t (d_records (s_auth sd))) /\ fits n t (firstn 1 (owned (apex sd) RT_SOA (d_records (s_auth sd))))) /\
      (forall d, first_sub sd n d -> let nss := owned (d_apex d) RT_NS (d_records d) in fits n t (nss ++ flat_map (glue sd) (targets nss))) }.

  (** At the address, a name server of this project runs, which has loaded well-formed files
      of zone [z] that agree with the directory. Packets may be lost, but not [retries] in a
      row. *)
  Definition published_at (env : environment) (retries : nat) (a : list N) (z : name) : Prop :=
    exists p fs fuel c zs sd, params_ok c /\ p_zone c = z /\ loadable fs c sd /\ agrees sd /\ parse_zone_files p fs fuel c = Done (Ok zs) /\
      forall n t, sendable n -> usable_type t -> within n z ->
        (forall i, ev_net (env i) a (query_at env n t i) = None \/ ev_net (env i) a (query_at env n t i) = answers_of p zs (query_at env n t i)) /\
        (forall i, exists k, k < retries /\ ev_net (env (i + k)) a (query_at env n t (i + k)) = answers_of p zs (query_at env n t (i + k))).

  (** A domain name system as in C78, in which servers may be those of this project. *)
  Context (p : profile) (env : environment) (retries servers : nat).
  Definition up (z h : name) : Prop := forall g a, In g (D h RT_A) -> r_data g = D_A a -> published_at env retries a z \/ good_server p env D Y start T retries a z.
  Record published_dns : Prop := {
    pd_directory : directory_ok D;
    pd_root : exists bad, length bad < servers /\ Forall (fun s => good_server p env D Y start T retries (snd s) [46%N] \/ In s bad /\ useless_server p env (snd s) [46%N]) ROOT_SERVERS;
    pd_root_works : exists s, In s ROOT_SERVERS /\ good_server p env D Y start T retries (snd s) [46%N];
    pd_servers : forall z, exists bad, length bad < servers /\ forall h, HealthSpec.serves D z h -> up z h \/ In h bad /\ broken p env D z h;
    pd_up : forall z, D z RT_NS <> [] -> exists h, HealthSpec.serves D z h /\ up z h;
    pd_anchors : forall z h, anchor Y z h -> up z h;
    pd_names : forall z h, 0 < depth Y z -> HealthSpec.serves D z h -> sendable h /\ D h RT_A <> [] /\ forall z', D z' RT_NS <> [] -> within h z' -> depth Y z' < depth Y z }.
End Publish.
