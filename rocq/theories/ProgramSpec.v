(** What the name server program should do: the answer due to each question, and when the
    program runs at all. *)
From Verif Require Import Base Types Name NameSpec Codec CodecSpec Zone ZoneSpec NsSpec Parser LoadSpec ZoneLoadSpec Resolver Conf.

(** What is due to a question about [n] and [t] from a server of the zones [sd]: the code,
    whether with authority, and the three sections. *)
Inductive due (sd : server_data) (n : name) (t : rtype) : rcode -> bool -> list record -> list record -> list record -> Prop :=
| due_refusal : ~ within n (d_apex (s_auth sd)) -> due sd n t RC_Refused true [] [] []
| due_referral : forall d, within n (d_apex (s_auth sd)) -> first_sub sd n d ->
    due sd n t RC_NoError false [] (owned (d_apex d) RT_NS (d_records d))
      (flat_map (glue sd) (targets (owned (d_apex d) RT_NS (d_records d))))
| due_answer : within n (d_apex (s_auth sd)) -> in_no_sub sd n -> wanted n t (d_records (s_auth sd)) <> [] ->
    due sd n t RC_NoError true (wanted n t (d_records (s_auth sd))) [] []
| due_denial : forall soa more, within n (d_apex (s_auth sd)) -> in_no_sub sd n -> wanted n t (d_records (s_auth sd)) = [] ->
    owned (d_apex (s_auth sd)) RT_SOA (d_records (s_auth sd)) = soa :: more ->
    due sd n t RC_NxDomain true [] [soa] [].

(** A query: its header says so; one question, nothing else. *)
Definition query_header (h : header) : Prop :=
  header_ok h /\ h_qr h = false /\ h_op h = OP_STD /\ h_qd h = 1%N /\ h_an h = 0%N /\ h_ns h = 0%N /\ h_ar h = 0%N.
Definition query_of (h : header) (q : question) : message := mkMsg h [q] [] [] [].
(** The reply to it: same id, recursion wish and TC bit, a response, recursion not
    available, Z zero. *)
Definition reply_of (h : header) (q : question) (rc : rcode) (aa : bool) (ans aus ads : list record) : message :=
  mkMsg (mkHeader (h_id h) true OP_STD aa (h_tc h) (h_rd h) false 0 rc 1 (N.of_nat (length ans)) (N.of_nat (length aus)) (N.of_nat (length ads)))
        [q] ans aus ads.
(** Sections that can be counted in 16 bits. *)
Definition countable (ans aus ads : list record) : Prop :=
  is_u16 (N.of_nat (length ans)) /\ is_u16 (N.of_nat (length aus)) /\ is_u16 (N.of_nat (length ads)).
(** All records can be written as RFC 1035 says. *)
Definition all_writable (sd : server_data) : Prop :=
  Forall record_ok (d_records (s_auth sd)) /\ Forall (fun d => Forall record_ok (d_records d)) (s_subs sd).

(** The zones a configuration names. *)
Definition zones_of (z : zone_conf) : params :=
  mkParams (zc_file z) (zc_zone z) (zc_ttl z) (map (fun s => mkSubParams (sc_file s) (sc_zone s) (sc_ttl s) (sc_min s)) (zc_subs z)).
(** What the types of the configuration guarantee (TTLs are u32), with no zone the root. *)
Definition conf_typed (z : zone_conf) : Prop :=
  is_u32 (zc_ttl z) /\ zc_zone z <> [46%N] /\
  Forall (fun s => is_u32 (sc_ttl s) /\ is_u32 (sc_min s) /\ sc_zone s <> [46%N]) (zc_subs z).
