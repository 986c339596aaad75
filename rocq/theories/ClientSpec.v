(** What clients of the resolver should be told (C86). *)
From Verif Require Import Base Types Name NameSpec Codec CodecSpec ZoneSpec NsSpec PropNs2 PropRs NsHandler Cache Resolver ResolverSpec RsHandler HealthSpec.

(** The reply tells what there is (the directory is that of C78): the aliases in order and
    the records, or, if there are none, NXDOMAIN. It mirrors the request. *)
Definition tells (D : directory) (req : message) (q : question) (reply : message) : Prop :=
  mirrors_rec req reply /\ counts_say reply 1 /\ exists cs rs, leads D (q_node q) (q_type q) cs rs /\
    ((rs = [] /\ says reply RC_NxDomain false [] [] []) \/
     (rs <> [] /\ exists cs' rs' aus ads, says reply RC_NoError false (cs' ++ rs') aus ads /\ map bare cs' = map bare cs /\ same rs' rs)).

(** The bytes sent for a reply: its encoding, over UDP cut to 512 bytes; if it can be put on
    the wire as RFC 1035 says and (UDP) fits, these are its bytes as RFC 1035 says. *)
Inductive transport := Udp | Tcp.
Definition sent_as (p : profile) (tr : transport) (reply : message) (out : list N) : Prop :=
  match tr with
  | Udp => encode_message_trunc p reply = Done (Ok out) /\ (message_ok reply -> length (wire_message reply) <= 512 -> out = wire_message reply)
  | Tcp => (exists body, encode_message p reply = Done (Ok body) /\ out = be16 (N.of_nat (length body) mod 65536) ++ body) /\
           (message_ok reply -> (N.of_nat (length (wire_message reply)) < 65536)%N -> out = on_tcp (wire_message reply))
  end.

(** Requests served one after the other. (What other threads do in between is part of the
    environment.) *)
Definition serve_one (p : profile) (lg : bool) (env : environment) (fuel : nat) (conf : rconf) (x : transport * list N) : W (option (list N)) :=
  match fst x with Udp => rs_serve_udp p lg env fuel conf (snd x) | Tcp => rs_serve_tcp p lg env fuel conf (on_tcp (snd x)) end.
Fixpoint serve_all (p : profile) (lg : bool) (env : environment) (fuel : nat) (conf : rconf) (xs : list (transport * list N)) (w : world) : list (exec (option (list N))) * world :=
  match xs with
  | [] => ([], w)
  | x :: xs' => let '(r, w1) := serve_one p lg env fuel conf x w in let '(rs, w2) := serve_all p lg env fuel conf xs' w1 in (r :: rs, w2)
  end.

(** The packet is a query with a question as in C78. *)
Definition client_query (p : profile) (D : directory) (Y : layout) (env : environment) (conf : rconf) (l : list N) (req : message) (q : question) : Prop :=
  query_packet p l req q /\ fair_question D conf (q_node q) (q_type q) /\ leaves_no_trap D Y (q_node q) (q_type q) /\ (q_type q = RT_CNAME -> others_leave env (q_node q)).
(** What the client gets. *)
Definition served (p : profile) (D : directory) (Y : layout) (env : environment) (conf : rconf) (x : transport * list N) (out : exec (option (list N))) : Prop :=
  exists req q reply b, client_query p D Y env conf (snd x) req q /\ tells D req q reply /\ out = Done (Some b) /\ sent_as p (fst x) reply b.
