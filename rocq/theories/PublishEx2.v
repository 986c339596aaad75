(** What is published but not found (C85): TXT records, and more records than fit into 512
    bytes. And what clients of the resolver see (C86). *)
From Coq Require Import Permutation.
From Verif Require Import Base Types Name NameSpec NameProofs Codec CodecSpec CodecWrite CodecMessage PropCodec1 Zone ZoneSpec ZoneProofs NsHandler NsSpec PropNs PropNs2 Tokens Parser LoadSpec ZoneFileSpec ZoneLoadSpec LoadProofs PropLoad PropServe PropZoneLoad Cache Resolver ResolverLists ResolverSpec ResolverInv ResolverRun ResolverFacts ResolverEx PropResolver1 PropResolver2 PropResolver3 PropResolver5 ResolverStays PropResolver7 PropTalk RsHandler PropRs HealthSpec HealthRun PropHealth HealthEx PublishSpec PropPublish PublishEx ClientSpec PropClient.

Definition file_more : file := txt_file [ s2b "@ IN SOA ns admin ( 1 3600 600 86400 300 )"; s2b "@ 3600 NS ns"; s2b "ns 3600 A 5.5.5.5"; s2b "txt 3600 TXT hello" ;
  s2b "www 3600 A 1.1.1.1"; s2b "www 3600 A 1.1.1.2"; s2b "www 3600 A 1.1.1.3"; s2b "www 3600 A 1.1.1.4"; s2b "www 3600 A 1.1.1.5"; s2b "www 3600 A 1.1.1.6"; s2b "www 3600 A 1.1.1.7"; s2b "www 3600 A 1.1.1.8"; s2b "www 3600 A 1.1.1.9";
  s2b "www 3600 A 1.1.1.10"; s2b "www 3600 A 1.1.1.11"; s2b "www 3600 A 1.1.1.12"; s2b "www 3600 A 1.1.1.13"; s2b "www 3600 A 1.1.1.14"; s2b "www 3600 A 1.1.1.15"; s2b "www 3600 A 1.1.1.16"; s2b "www 3600 A 1.1.1.17"; s2b "www 3600 A 1.1.1.18"; s2b "www 3600 A 1.1.1.19";
  s2b "www 3600 A 1.1.1.20"; s2b "www 3600 A 1.1.1.21"; s2b "www 3600 A 1.1.1.22"; s2b "www 3600 A 1.1.1.23"; s2b "www 3600 A 1.1.1.24"; s2b "www 3600 A 1.1.1.25" ].
Definition fs_more : filesys := fun path => if bytes_eqb path (s2b "com") then Some file_more else None.
Definition conf_more : params := mkParams (s2b "com") com 1000 [].
Definition more_www : list record := map (fun i => rec_ (s2b "www.com.") 3600 (D_A [1; 1; 1; N.of_nat i]%N)) (seq 1 25).
Definition more_txt : record := rec_ (s2b "txt.com.") 3600 (D_TXT [s2b "hello"]).
Definition more_recs : list record := [ex_ns; ex_glue 3600; more_txt] ++ more_www ++ [w_soa com].
Definition zs_more : managed := mkManaged (ex_zone com more_recs) [].
Definition more_env : environment := fun i => mkEv 0 0 (fun c => c) 7 (fun a x => if bytes_eqb a [5; 5; 5; 5]%N then checked (answers_of Release zs_more x) else ex_net 3600 false a x).
Definition answers_in (r : exec (result response lerr)) : option nat := match r with Done (Ok x) => Some (length (x_answers x)) | _ => None end.
(** The file is loaded, with 25 addresses of www.com. and a TXT record; the server is asked
    and responds. The resolver finds 21 addresses and reports success (it does not look at
    the TC flag), and the TXT record is not found. *)
Theorem C85_refuted_large_and_txt : exists sd, loadable fs_more conf_more sd /\
  owned (s2b "www.com.") RT_A (d_records (s_auth sd)) = more_www /\ length more_www = 25 /\ owned (s2b "txt.com.") RT_TXT (d_records (s_auth sd)) = [more_txt] /\
  forall p p', parse_zone_files p' fs_more 100 conf_more = Done (Ok zs_more) /\
  map answers_in (fst (lookups p more_env conf0 260 [(s2b "www.com.", RT_A)] world0)) = [Some 21] /\
  fst (lookups p more_env conf0 260 [(s2b "txt.com.", RT_TXT)] world0) = [Done (Err L_Malformed)].
Proof.
  assert (P : forall p, parse_zone_files p fs_more 100 conf_more = Done (Ok zs_more)) by (intros []; vm_compute; reflexivity).
  assert (C : params_ok conf_more) by (split; [split; [now apply accepted_b|discriminate]|]; split; [reflexivity|constructor]).
  destruct (C81_loaded_files_are_well_formed Release fs_more 100 conf_more zs_more C (P Release)) as (sd & (S1 & _) & L). exists sd. split; [exact L|].
  destruct (stores_same _ _ _ (ex_zone_stores com more_recs) S1) as (_ & _ & O1). cbn [d_records] in O1.
  split; [rewrite <- O1; vm_compute; reflexivity|]. split; [reflexivity|]. split; [rewrite <- O1; vm_compute; reflexivity|].
  intros p p'. split; [apply P|]. split; destruct p; vm_compute; reflexivity.
Qed.
Print Assumptions C85_refuted_large_and_txt.

(** * Clients *)
Definition asks_for (n : name) (t : rtype) : list N := wire_message (ex_req n t).
Definition w_clients : list (transport * list N) := [(Udp, asks_for (s2b "www.com.") RT_A); (Tcp, asks_for (s2b "www.ex.com.") RT_A); (Tcp, asks_for (s2b "x.com.") RT_A); (Udp, asks_for (s2b "x.org.") RT_A)].
(** What a client reads: the response code and the answers. *)
Definition client_reads (tr : transport) (out : exec (option (list N))) : option (rcode * list record) :=
  match out with
  | Done (Some b) => match decode_message Debug (match tr with Udp => b | Tcp => skipn 2 b end) with Done (Ok m) => Some (h_rcode (m_header m), map bare (m_answers m)) | _ => None end
  | _ => None
  end.
Lemma w_client : forall n t cs rs, sendable_b n = true -> usable_type t -> leads D_w n t cs rs -> length cs < 5 -> t <> RT_NS ->
  decode_message Release (asks_for n t) = Done (Ok (ex_req n t)) -> length (asks_for n t) <= 512 -> forallb (fun x => x <? 256)%N (asks_for n t) = true ->
  exists req q, client_query Release D_w Y_w w_env conf0 (asks_for n t) req q.
Proof.
  intros n t cs rs Hs Ht Hl Hc Hns Ed L B. exists (ex_req n t), (mkQ n t C_IN). split; [|split; [|split]].
  - split; [now apply checked_bytes|]. split; [exact L|]. split; [exact Ed|]. split; [apply ex_valid|reflexivity].
  - exact (w_fair n t cs rs Hl Hs Ht Hc).
  - intros X. cbn in X. congruence.
  - intros _ i c Hi. exact Hi.
Qed.
Theorem C86_nonvacuous :
  env_ok plain_record w_env /\ (forall n, (ev_now' (w_env n) < ev_now (w_env n) + SECOND)%N) /\ published_dns D_w Y_w 0 T_w Release w_env (max_retries conf0) (max_ns conf0) /\
  healthy Release w_env D_w Y_w 0 T_w (max_retries conf0) (max_ns conf0) /\ others_true w_env D_w Y_w 0 T_w /\
  cache_ok plain_record 0 (w_cache world0) /\ cache_true D_w Y_w 0 T_w (w_cache world0) /\ no_follow conf0 = false /\
  Forall (fun x => exists req q, client_query Release D_w Y_w w_env conf0 (snd x) req q) w_clients /\
  (256 < 260 /\ forall z, D_w z RT_NS <> [] -> 256 + depth Y_w z < 260) /\ (forall m, (ev_now' (w_env m) < T_w)%N) /\
  map (fun xo => client_reads (fst (fst xo)) (snd xo)) (combine w_clients (fst (serve_all Release true w_env 260 conf0 w_clients world0))) =
    [Some (RC_NoError, map bare (w_alias :: w_www)); Some (RC_NoError, map bare w_www); Some (RC_NxDomain, []); Some (RC_NxDomain, [])].
Proof.
  destruct C85_nonvacuous as (A1 & A2 & A3 & A4 & A5 & A6 & A7 & _ & A8 & A9 & _). split; [exact A1|]. split; [exact A2|]. split; [exact A3|]. split; [apply published_healthy; [apply w_ids|exact A3]|].
  split; [exact A4|]. split; [exact A5|]. split; [exact A6|]. split; [exact A7|]. split; [|split; [exact A8|split; [exact A9|vm_compute; reflexivity]]].
  destruct w_leads as (L1 & L2 & L3 & L4 & _). unfold w_clients. constructor; [|constructor; [|constructor; [|constructor; [|constructor]]]]; cbn [snd].
  - refine (w_client _ _ _ _ _ _ L2 _ _ _ _ _); [reflexivity|unfold usable_type; tauto|apply Nat.ltb_lt; reflexivity|discriminate|vm_compute; reflexivity|apply Nat.leb_le; vm_compute; reflexivity|vm_compute; reflexivity].
  - refine (w_client _ _ _ _ _ _ L1 _ _ _ _ _); [reflexivity|unfold usable_type; tauto|apply Nat.ltb_lt; reflexivity|discriminate|vm_compute; reflexivity|apply Nat.leb_le; vm_compute; reflexivity|vm_compute; reflexivity].
  - refine (w_client _ _ _ _ _ _ L3 _ _ _ _ _); [reflexivity|unfold usable_type; tauto|apply Nat.ltb_lt; reflexivity|discriminate|vm_compute; reflexivity|apply Nat.leb_le; vm_compute; reflexivity|vm_compute; reflexivity].
  - refine (w_client _ _ _ _ _ _ L4 _ _ _ _ _); [reflexivity|unfold usable_type; tauto|apply Nat.ltb_lt; reflexivity|discriminate|vm_compute; reflexivity|apply Nat.leb_le; vm_compute; reflexivity|vm_compute; reflexivity].
Qed.
Print Assumptions C86_nonvacuous.
