(** From zone files to replies: the name server on the zones its own loader accepts.
    Also the non-vacuity witnesses of C40-C42. *)
From Verif Require Import Base Types Name NameSpec PropName Codec CodecSpec Zone ZoneSpec ZoneProofs
  Tokens Parser NsSpec NsHandler PropNs PropNs2 LoadSpec LoadProofs PropLoad.

Definition txt_file (ls : list (list N)) : file := map Some ls.
Definition ex_main : file := txt_file
  [ s2b "@ IN SOA ns hostmaster ( 1 3600 600 86400"; s2b "   ; the minimum"; s2b "      300 )";
    s2b ""; s2b "   3600 IN NS ns"; s2b "ns A 10.0.0.1"; s2b "$ORIGIN a.example.com.";
    s2b "www CNAME ns.example.com."; s2b "@ TXT ""hello world"" x"; s2b "$INCLUDE more b.example.com.";
    s2b "last A 10.0.0.10"; s2b "mail 7200 MX 10 www" ].
Definition ex_more : file := txt_file [ s2b "@ A 10.0.0.9"; s2b "w WKS 10.0.0.1 tcp smtp"; s2b "h IN 500 HINFO cpu os" ].
Definition ex_sub : file := txt_file [ s2b "@ 3600 NS ns"; s2b "ns A 10.0.1.1" ].
Definition ex_fs : filesys := fun path =>
  if bytes_eqb path (s2b "main") then Some ex_main else if bytes_eqb path (s2b "more") then Some ex_more
  else if bytes_eqb path (s2b "sub") then Some ex_sub else None.
Definition ex_params : params :=
  mkParams (s2b "main") (s2b "example.com.") 1000 [mkSubParams (s2b "sub") (s2b "sub.example.com.") 1000 60].

Lemma ex_params_ok : params_ok ex_params.
Proof.
  split; [split; [now apply accepted_b|discriminate]|]. split; [reflexivity|].
  constructor; [|constructor]. split; [split; [now apply accepted_b|discriminate]|]. now split.
Qed.

(** The example loads, includes another file and has a delegated sub zone. *)
Theorem C40_C42_nonvacuous : params_ok ex_params /\
  forall p, exists zs, parse_zone_files p ex_fs 100 ex_params = Done (Ok zs) /\
    zone_get_all_of_type (auth_zone zs) RT_MX =
      [mkRec (s2b "mail.a.example.com.") C_IN 7200 0 (D_MX 10 (s2b "www.a.example.com."))] /\
    zone_get_all_of_type (auth_zone zs) RT_HINFO =
      [mkRec (s2b "h.b.example.com.") C_IN 500 0 (D_HINFO (s2b "cpu") (s2b "os"))] /\
    map z_zone (sub_zones zs) = [s2b "sub.example.com."].
Proof.
  split; [apply ex_params_ok|]. intros []; eexists; (split; [vm_compute; reflexivity|]); vm_compute; now repeat split.
Qed.

(** C37, end to end: a server started from files answers every query of at most 512
    bytes, unless the answer holds a character string of more than 255 bytes. *)
Theorem C37_server_started_from_files_answers_partial : forall p fs fuel c zs sd l req q,
  params_ok c -> parse_zone_files p fs fuel c = Done (Ok zs) -> serves zs sd -> all_short sd ->
  query_packet p l req q ->
  exists reply u t, handle_message p zs req = Done reply /\
    udp_reply p reply = Done u /\ serve_udp p zs l = Done (Some u) /\
    tcp_reply p reply = Done t /\ serve_tcp p zs (on_tcp l) = Done (Some t).
Proof.
  intros p fs fuel c zs sd l req q Hc E Hs Hsh Hq.
  eapply C37_valid_queries_are_answered_partial; try eassumption. eapply C40_C42_give_zone_loaded; eassumption.
Qed.
Print Assumptions C37_server_started_from_files_answers_partial.

(** The name served is the one the files give: the answers to a query are exactly the
    records of that owner and type, or the alias. *)
Theorem C31_server_started_from_files : forall p fs fuel c zs sd req q,
  params_ok c -> parse_zone_files p fs fuel c = Done (Ok zs) -> serves zs sd ->
  valid_query req q -> accepted (q_node q) ->
  within (q_node q) (p_zone c) -> Forall (fun s => ~ within (q_node q) (sp_zone s)) (p_subs c) ->
  let ans := wanted (q_node q) (q_type q) (d_records (s_auth sd)) in
  ans <> [] ->
  exists reply, handle_message p zs req = Done reply /\ says reply RC_NoError true ans [] [] /\
                counts_say reply 1 /\ mirrors req reply.
Proof.
  intros p fs fuel c zs sd req q Hc E Hs Hv Hq Hin Hno ans Hne.
  pose proof (C40_C42_give_zone_loaded _ _ _ _ _ _ Hc E Hs) as Hl.
  destruct (C40_loaded_records_respect_the_zone _ _ _ _ _ Hc E) as (_ & H40). destruct (H40 sd Hs) as (Ha & _).
  destruct (C42_loaded_sub_zones _ _ _ _ _ _ Hc E Hs) as (F2 & _).
  apply (C31_authoritative_answer p zs sd req q); try assumption.
  - apply Hl.
  - now rewrite Ha.
  - apply Forall_forall. intros d Hd. destruct (forall2_in_r _ _ _ _ _ _ F2 Hd) as (s & Hi & (Ed & _)).
    rewrite Ed. rewrite Forall_forall in Hno. now apply Hno.
Qed.
Print Assumptions C31_server_started_from_files.

(** A zone file whose TXT string has 256 characters loads, and then one query for it
    crashes the worker: C37 is refuted from the files on. *)
Definition ex_long_fs : filesys := fun path =>
  if bytes_eqb path (s2b "main") then
    Some (txt_file [ s2b "@ IN SOA ns hostmaster 1 3600 600 86400 300"; s2b "@ NS ns"; s2b "txt TXT " ++ repeat 97%N 256 ])
  else None.
Definition ex_long_params : params := mkParams (s2b "main") (s2b "example.com.") 1000 [].
Theorem C37_refuted_from_files : params_ok ex_long_params /\
  forall p, exists zs, parse_zone_files p ex_long_fs 100 ex_long_params = Done (Ok zs) /\
    serve_udp p zs (ex_query_bytes (s2b "txt.example.com.") RT_TXT) = Panic PUnwrap /\
    serve_tcp p zs (on_tcp (ex_query_bytes (s2b "txt.example.com.") RT_TXT)) = Panic PUnwrap.
Proof.
  split.
  - split; [split; [now apply accepted_b|discriminate]|]. split; [reflexivity|constructor].
  - intros []; eexists; (split; [vm_compute; reflexivity|]); split; vm_compute; reflexivity.
Qed.
Print Assumptions C37_refuted_from_files.
