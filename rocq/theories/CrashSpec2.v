(** Which client requests should be blamed for the loss of a worker of the resolver (C89). *)
From Verif Require Import Base Types Name NameSpec Codec CodecSpec Cache Resolver Trace TraceSpec.

(** What the resolver takes for a query: one question, of a type it knows, in a message that
    is no response and announces no answers and authorities. *)
Definition a_query (req : message) (q : question) : Prop :=
  let h := m_header req in
  h_qr h = false /\ h_qd h = 1%N /\ h_an h = 0%N /\ h_ns h = 0%N /\ m_questions req = [q].

(** The lookup of a question, from the state [w] of the resolver. *)
Definition lookup (p : profile) (env : environment) (fuel : nat) (conf : rconf) (q : question) (w : world) :=
  perform p env fuel (new_lookup conf (q_node q) (q_type q), w).

(** The request is one on which the decoder itself panics; or one whose header can be read
    but the rest not; or it can be read, but some questions were skipped (their type is
    unknown) and those left satisfy [fit]; or it is a query, whose lookup panics, or ends with
    a trace nested deeper than 255 which a debug build has to log. *)
Inductive rs_crashes (p : profile) (logs : bool) (env : environment) (fuel : nat) (conf : rconf) (w : world) (fit : list question -> Prop) (m : list N) : Prop :=
| rc_decoder : forall k, decode_message p m = Panic k -> rs_crashes p logs env fuel conf w fit m
| rc_error : forall h e rest, header_ok h -> m = wire_header h ++ rest -> decode_message p m = Done (Err e) -> rs_crashes p logs env fuel conf w fit m
| rc_skipped : forall req, decode_message p m = Done (Ok req) -> (N.of_nat (length (m_questions req)) < h_qd (m_header req))%N ->
    fit (m_questions req) -> rs_crashes p logs env fuel conf w fit m
| rc_lookup : forall req q k s, decode_message p m = Done (Ok req) -> a_query req q -> lookup p env fuel conf q w = (Panic k, s) ->
    rs_crashes p logs env fuel conf w fit m
| rc_trace : forall req q r l w', decode_message p m = Done (Ok req) -> a_query req q -> lookup p env fuel conf q w = (Done r, (l, w')) ->
    p = Debug -> logs = true -> 255 < nesting (l_trace l) -> rs_crashes p logs env fuel conf w fit m.

(** It hangs if the decoder or the lookup does. *)
Inductive rs_hangs (p : profile) (env : environment) (fuel : nat) (conf : rconf) (w : world) (m : list N) : Prop :=
| rh_decoder : decode_message p m = Diverge -> rs_hangs p env fuel conf w m
| rh_lookup : forall req q s, decode_message p m = Done (Ok req) -> a_query req q -> lookup p env fuel conf q w = (Diverge, s) -> rs_hangs p env fuel conf w m.

(** It is dropped if its header cannot be read. *)
Definition dropped (m : list N) : Prop := forall h rest, header_ok h -> m <> wire_header h ++ rest.
