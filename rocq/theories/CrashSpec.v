(** Which requests should be blamed for the loss of a worker of the name server (C87). *)
From Verif Require Import Base Types Name NameSpec Codec CodecSpec ZoneSpec NsSpec.

(** Bytes a question takes in a reply: its text, one length byte more, type and class. *)
Definition question_size (q : question) : nat := length (q_node q) + 5.
(** Header and questions fit into a UDP reply. *)
Definition questions_fit (qs : list question) : Prop := 12 + list_sum (map question_size qs) <= 512.

(** The zone has something to say about the question: a referral, records or an alias. *)
Definition answered (sd : server_data) (q : question) : Prop :=
  within (q_node q) (d_apex (s_auth sd)) /\
  ((exists d, first_sub sd (q_node q) d) \/
   in_no_sub sd (q_node q) /\ wanted (q_node q) (q_type q) (d_records (s_auth sd)) <> []).

(** [crashes p sd fit m]: the request [m] is one whose header can be read but the rest not;
    or one on which the decoder itself panics; or it can be read, but some questions were
    skipped (their type is unknown), those left satisfy [fit], and it is not a query that
    is answered. *)
Inductive crashes (p : profile) (sd : server_data) (fit : list question -> Prop) (m : list N) : Prop :=
| cr_decoder : forall kd, decode_message p m = Panic kd -> crashes p sd fit m
| cr_error : forall h e rest, header_ok h -> m = wire_header h ++ rest -> decode_message p m = Done (Err e) -> crashes p sd fit m
| cr_skipped : forall req, decode_message p m = Done (Ok req) -> (N.of_nat (length (m_questions req)) < h_qd (m_header req))%N ->
    fit (m_questions req) -> (forall q, valid_query req q -> ~ answered sd q) -> crashes p sd fit m.
