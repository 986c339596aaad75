(** What the nameserver should answer, in terms of plain lists of records. *)
From Verif Require Import Base Types Name NameSpec Codec CodecSpec Zone ZoneSpec.

(** The contents of a zone: its apex and its records in file order. *)
Record zone_data := mkData { d_apex : name; d_records : list record }.
Record server_data := mkServer { s_auth : zone_data; s_subs : list zone_data }.

Definition stores (z : zone) (d : zone_data) : Prop := z_zone z = d_apex d /\ holds z (d_records d).
Definition serves (zs : managed) (sd : server_data) : Prop :=
  stores (auth_zone zs) (s_auth sd) /\ Forall2 stores (sub_zones zs) (s_subs sd).

(** A name lies in a zone: its labels end with the zone's. *)
Definition within (n z : name) : Prop := in_zone_spec (labels n) (labels z).

(** A name one can use as a zone: accepted and not the root. *)
Definition apex_ok (z : name) : Prop := accepted z /\ z <> [46%N].
Definition apexes_ok (sd : server_data) : Prop :=
  apex_ok (d_apex (s_auth sd)) /\ Forall (fun d => apex_ok (d_apex d)) (s_subs sd).

(** A query (RFC 1035 4.1): not a response, no answers, no authorities, one question. *)
Definition valid_query (req : message) (q : question) : Prop :=
  h_qr (m_header req) = false /\ h_an (m_header req) = 0%N /\ h_ns (m_header req) = 0%N /\
  m_questions req = [q].

(** [first_sub sd n d]: [d] is the first sub zone that contains [n]. *)
Definition first_sub (sd : server_data) (n : name) (d : zone_data) : Prop :=
  exists pre post, s_subs sd = pre ++ d :: post /\ within n (d_apex d) /\
                   Forall (fun d' => ~ within n (d_apex d')) pre.
Definition in_no_sub (sd : server_data) (n : name) : Prop :=
  Forall (fun d => ~ within n (d_apex d)) (s_subs sd).

(** The name servers a list of NS records points to. *)
Definition targets (nss : list record) : list name :=
  flat_map (fun r => match r_data r with D_NS n => [n] | _ => [] end) nss.
(** The address records the sub zones hold for a name. *)
Definition glue (sd : server_data) (n : name) : list record :=
  flat_map (fun d => owned n RT_A (d_records d)) (s_subs sd).
(** Sub zones hold no record for a name outside them. *)
Definition subs_tidy (sd : server_data) : Prop :=
  Forall (fun d => Forall (fun r => within (r_node r) (d_apex d)) (d_records d)) (s_subs sd).

(** The records that answer a question: those asked for, otherwise the alias. *)
Definition wanted (n : name) (t : rtype) (rs : list record) : list record :=
  match owned n t rs with [] => owned n RT_CNAME rs | l => l end.

(** A reply made for a request: same id, op code, recursion wish and questions; a
    response, recursion not available, Z zero. *)
Definition mirrors (req reply : message) : Prop :=
  let h := m_header req in let h' := m_header reply in
  h_id h' = h_id h /\ h_op h' = h_op h /\ h_rd h' = h_rd h /\ h_qr h' = true /\ h_ra h' = false /\
  h_z h' = 0%N /\ m_questions reply = m_questions req.

(** A reply with that code, authority flag and sections. *)
Definition says (reply : message) (rc : rcode) (aa : bool) (ans aus ads : list record) : Prop :=
  h_rcode (m_header reply) = rc /\ h_aa (m_header reply) = aa /\
  m_answers reply = ans /\ m_authorities reply = aus /\ m_additionals reply = ads.

(** Its section counts as they go out (a Vec's length cast to 16 bits). *)
Definition counts_say (reply : message) (qd : N) : Prop :=
  let h := m_header reply in
  h_qd h = qd /\ h_an h = (N.of_nat (length (m_answers reply)) mod 65536)%N /\
  h_ns h = (N.of_nat (length (m_authorities reply)) mod 65536)%N /\
  h_ar h = (N.of_nat (length (m_additionals reply)) mod 65536)%N.

(** Records that can always be put on the wire: accepted names, class IN, and values in
    the range of their Rust types; [short_strings] also asks that character strings have
    at most 255 bytes. *)
Definition data_fine (d : rdata) : Prop :=
  match d with
  | D_A a => address_ok a
  | D_NS n | D_CNAME n | D_PTR n => accepted n
  | D_SOA m r a b c d e =>
      accepted m /\ accepted r /\ is_u32 a /\ is_u32 b /\ is_u32 c /\ is_u32 d /\ is_u32 e
  | D_WKS a pr ports => address_ok a /\ is_byte pr /\ Forall is_u32 ports
  | D_HINFO c o => is_bytes c /\ is_bytes o
  | D_MX pr n => is_u16 pr /\ accepted n
  | D_TXT ts => Forall is_bytes ts
  end.
Definition record_fine (r : record) : Prop :=
  accepted (r_node r) /\ r_class r = C_IN /\ is_u32 (r_ttl r) /\ data_fine (r_data r).
Definition short_strings (r : record) : Prop :=
  match r_data r with
  | D_HINFO c o => length c <= 255 /\ length o <= 255
  | D_TXT ts => Forall (fun s => length s <= 255) ts
  | _ => True
  end.

(** What the loader guarantees of the zones it accepts (see C40-C42). *)
Definition zone_loaded (sd : server_data) : Prop :=
  apexes_ok sd /\
  owned (d_apex (s_auth sd)) RT_SOA (d_records (s_auth sd)) <> [] /\
  Forall (fun d => owned (d_apex d) RT_NS (d_records d) <> []) (s_subs sd) /\
  Forall record_fine (d_records (s_auth sd)) /\
  Forall (fun d => Forall record_fine (d_records d)) (s_subs sd) /\
  subs_tidy sd.
