(** When files can be loaded. *)
From Verif Require Import Base Types Name NameSpec Codec CodecSpec Zone ZoneSpec Tokens TokenSpec NsSpec Parser LoadSpec ZoneFileSpec.

(** A name of the zone that is not delegated. *)
Definition undelegated (c : params) (n : name) : Prop :=
  within n (p_zone c) /\ Forall (fun s => ~ within n (sp_zone s)) (p_subs c).
(** The files of a configuration are well formed, hold the records [sd], and these form
    proper zones: name servers at each apex, glue for the name servers that need it, and
    no other addresses in the sub zones. *)
Definition loadable (fs : filesys) (c : params) (sd : server_data) : Prop :=
  d_apex (s_auth sd) = p_zone c /\
  (exists f, fs (p_path c) = Some f /\ auth_well_formed fs (undelegated c) (p_zone c) (p_ttl c) f (d_records (s_auth sd))) /\
  Forall2 (fun s d => d_apex d = sp_zone s /\ exists f, fs (sp_path s) = Some f /\
             sub_file_well_formed (fun n => within n (sp_zone s)) (sp_min s) (sp_zone s) (sp_ttl s) f (d_records d))
    (p_subs c) (s_subs sd) /\
  ns_at_apex (p_zone c) (d_records (s_auth sd)) /\
  Forall (fun d => ns_at_apex (d_apex d) (d_records d)) (s_subs sd) /\
  glue_complete sd /\ glue_needed sd.
