(** What the loader should guarantee of the zones it accepts, on plain record lists. *)
From Verif Require Import Base Types Name NameSpec Codec CodecSpec Zone ZoneSpec NsSpec Parser.

(** Configurations: zone names are accepted names and not the root, TTLs fit 32 bits. *)
Definition params_ok (c : params) : Prop :=
  apex_ok (p_zone c) /\ is_u32 (p_ttl c) /\
  Forall (fun s => apex_ok (sp_zone s) /\ is_u32 (sp_ttl s) /\ is_u32 (sp_min s)) (p_subs c).

(** C40: a record of the authoritative zone whose SOA minimum is [minimum]. *)
Definition auth_record_ok (c : params) (minimum : N) (r : record) : Prop :=
  record_fine r /\ usable_type (record_type r) /\
  within (r_node r) (p_zone c) /\ (minimum <= r_ttl r)%N /\
  (r_node r = p_zone c \/ Forall (fun s => ~ within (r_node r) (sp_zone s)) (p_subs c)).

(** C41: the only SOA record; NS records. *)
Definition soa_of (rs : list record) (soa : record) (minimum : N) : Prop :=
  of_type RT_SOA rs = [soa] /\
  exists m r a b c d, r_data soa = D_SOA m r a b c d minimum.
Definition ns_at_apex (apex : name) (rs : list record) : Prop :=
  of_type RT_NS rs <> [] /\ Forall (fun r => r_node r = apex) (of_type RT_NS rs).

(** C42 *)
Definition sub_record_ok (s : sub_params) (r : record) : Prop :=
  record_fine r /\ (sp_min s <= r_ttl r)%N /\
  ((record_type r = RT_NS /\ r_node r = sp_zone s) \/ (record_type r = RT_A /\ within (r_node r) (sp_zone s))).
(** The name servers of a zone. *)
Definition servers_of (d : zone_data) : list name := targets (of_type RT_NS (d_records d)).
Definition glue_complete (sd : server_data) : Prop :=
  forall d d' n, In d (s_subs sd) -> In d' (s_subs sd) -> In n (servers_of d) ->
    within n (d_apex (s_auth sd)) -> within n (d_apex d') ->
    owned n RT_A (d_records d') <> [].
Definition glue_needed (sd : server_data) : Prop :=
  forall d r, In d (s_subs sd) -> In r (of_type RT_A (d_records d)) ->
    exists d', In d' (s_subs sd) /\ In (r_node r) (servers_of d').
