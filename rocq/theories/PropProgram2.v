(** C92: cases that meet the hypotheses. *)
From Coq Require Import Permutation.
From Verif Require Import Base Types Name NameSpec NameProofs PropName Codec CodecSpec CodecWrite PropCodec1 PropCodec3 Zone ZoneSpec NsHandler NsSpec PropNs PropNs2 Tokens TokenSpec Parser LoadSpec
  ZoneFileSpec ZoneFileTotal ZoneLoadSpec PropLoad PropServe PropZoneFile PropZoneLoad Resolver Conf PropConf ResolverEx PropResolver3 PropTalk HealthEx PublishEx Program ProgramSpec PropProgram.

(** com. with the delegation of ex.com. (PublishEx.v), as a program. *)
Definition com_conf (a : list N) : ns_conf :=
  mkNsConf (mkUdpConf a 53 1 4) (mkTcpConf a 53 5 1 4) (mkZoneConf 1000 com (s2b "com") [mkSubZoneConf 1000 60 ex_com (s2b "sub")]).
Definition com_confs (a path : list N) : option ns_conf := if bytes_eqb path (s2b "conf.json") then Some (com_conf a) else None.
Definition ask_header : header := mkHeader 7 false OP_STD false false true false 0 RC_NoError 1 0 0 0.
Lemma com_fine : forall (ip_ok : list N -> bool) a, ip_ok a = true -> ns_conf_fine ip_ok (com_conf a).
Proof.
  intros ip_ok a Ha. split; [repeat split; try exact Ha; try discriminate; cbn; lia|]. split; [apply accepted_b; reflexivity|].
  constructor; [apply accepted_b; reflexivity|constructor].
Qed.
Lemma perm_writable : forall l l', Permutation l l' -> Forall record_ok l -> Forall record_ok l'.
Proof. intros l l' P H. eapply Permutation_Forall; eassumption. Qed.
Lemma com_loadable : exists sd, loadable fs_w conf_com sd /\ all_writable sd.
Proof.
  destruct (C81_loaded_files_are_well_formed Debug fs_w 100 conf_com zs_com com_ok (com_parsed Debug)) as (sd & (Sa & Ss) & L). exists sd. split; [exact L|].
  assert (W : forall l, incl l (com_recs ++ ex_recs') -> Forall record_ok l).
  { intros l H. apply Forall_forall. intros r Hr. pose proof w_readable as R. rewrite Forall_forall in R. now apply R, H. }
  assert (T : NsSpec.serves zs_com sd_com) by (split; [apply ex_zone_stores|repeat constructor; apply ex_zone_stores]).
  destruct T as (Ta & Ts). split.
  - destruct (stores_same _ _ _ Ta Sa) as (_ & P & _). apply (perm_writable _ _ P). apply W. intros r Hr. apply in_or_app. now left.
  - cbn [zs_com sub_zones] in Ss. inversion Ss as [|z d zs ds S1 S2 E1 E2]; subst. inversion S2; subst.
    inversion Ts as [|? ? ? ? T1 _]; subst. destruct (stores_same _ _ _ T1 S1) as (_ & P & _). constructor; [|constructor].
    apply (perm_writable _ _ P). apply W. intros r Hr. apply in_or_app. right. unfold ex_recs'. apply in_or_app. now left.
Qed.
Theorem C92_nonvacuous : forall (ip_ok : list N -> bool) a, ip_ok a = true ->
  com_confs a (s2b "conf.json") = Some (com_conf a) /\ ns_conf_fine ip_ok (com_conf a) /\ conf_typed (nc_zone (com_conf a)) /\
  (exists sd, loadable fs_w (zones_of (nc_zone (com_conf a))) sd /\ all_writable sd) /\
  query_header ask_header /\ question_ok (mkQ (s2b "www.ex.com.") RT_A C_IN) /\
  (forall p, serve_udp p zs_com (wire_message (query_of ask_header (mkQ (s2b "www.ex.com.") RT_A C_IN))) =
    Done (Some (wire_message (reply_of ask_header (mkQ (s2b "www.ex.com.") RT_A C_IN) RC_NoError false [] [w_ns] [w_addr])))) /\
  (forall p fuel, ns_main p ip_ok (com_confs a) fs_w fuel [s2b "nameserver"] = Done (P_exit 1)) /\
  (forall p, ns_main p ip_ok (com_confs a) fs_w 100 [s2b "nameserver"; s2b "conf.json"] = Done (P_runs zs_com (nc_udp (com_conf a)) (nc_tcp (com_conf a)))).
Proof.
  intros ip_ok a Ha. split; [reflexivity|]. split; [now apply com_fine|].
  split; [split; [reflexivity|]; split; [discriminate|]; constructor; [|constructor]; split; [reflexivity|]; split; [reflexivity|discriminate]|].
  split; [exact com_loadable|].
  split; [repeat split; unfold is_u16; cbn; lia|]. split; [split; [apply sendable_b_ok; vm_compute; reflexivity|split; [now left|reflexivity]]|].
  split; [intros []; vm_compute; reflexivity|]. split; [reflexivity|].
  intros p. unfold ns_main. change (com_confs a (s2b "conf.json")) with (Some (com_conf a)).
  destruct (proj2 (C66_accepted_nameserver_confs ip_ok (com_conf a)) (com_fine ip_ok a Ha)) as (x & ->).
  change (process_zones_confs (nc_zone (com_conf a))) with (Done conf_com). cbn [bind]. rewrite com_parsed. reflexivity.
Qed.
(** Files as the exit theorem wants them. *)
Theorem C92_exits_nonvacuous : (forall q f, ex_fs q = Some f -> plain_file f) /\ (forall q, Acc (fun q q' => includes ex_fs q' q) q).
Proof.
  split; [apply C43_nonvacuous|]. intros q. constructor. intros q1 I1. apply ex_includes in I1 as (_ & ->). constructor. intros q2 I2. apply ex_includes in I2 as (E & _). discriminate E.
Qed.
Print Assumptions C92_nonvacuous.
