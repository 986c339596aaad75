(** Two zones published with the name server of this project (C85): com. at 5.5.5.5, a
    release build that loses every other packet, and ex.com. at 6.6.6.6, a debug build. *)
From Coq Require Import Permutation.
From Verif Require Import Base Types Name NameSpec NameProofs Codec CodecSpec CodecWrite CodecMessage PropCodec1 Zone ZoneSpec ZoneProofs NsHandler NsSpec PropNs Tokens Parser LoadSpec ZoneFileSpec ZoneLoadSpec LoadProofs PropLoad PropServe PropZoneLoad Cache Resolver ResolverLists ResolverSpec ResolverInv ResolverRun ResolverFacts ResolverEx PropResolver1 PropResolver2 PropResolver3 PropResolver5 ResolverStays PropResolver7 PropTalk HealthSpec HealthRun PropHealth HealthEx PublishSpec PropPublish.

Definition ex_com : name := s2b "ex.com.".
Definition file_com : file := txt_file [ s2b "@ IN SOA ns admin ( 1 3600 600 86400 300 )"; s2b "@ 3600 NS ns"; s2b "ns 3600 A 5.5.5.5"; s2b "www 3600 CNAME www.ex" ].
Definition file_sub : file := txt_file [ s2b "@ 3600 NS ns"; s2b "ns 3600 A 6.6.6.6" ].
Definition file_ex : file := txt_file [ s2b "@ IN SOA ns admin ( 1 3600 600 86400 300 )"; s2b "@ 3600 NS ns"; s2b "ns 3600 A 6.6.6.6"; s2b "www 3600 A 1.2.3.4"; s2b "www 600 A 1.2.3.5" ].
Definition fs_w : filesys := fun path =>
  if bytes_eqb path (s2b "com") then Some file_com else if bytes_eqb path (s2b "sub") then Some file_sub else if bytes_eqb path (s2b "ex") then Some file_ex else None.
Definition conf_com : params := mkParams (s2b "com") com 1000 [mkSubParams (s2b "sub") ex_com 1000 60].
Definition conf_ex : params := mkParams (s2b "ex") ex_com 1000 [].

(** Their records. *)
Definition w_soa (z : name) : record := rec_ z 1000 (D_SOA (s2b "ns." ++ z) (s2b "admin." ++ z) 1 3600 600 86400 300).
Definition w_ns : record := rec_ ex_com 3600 (D_NS (s2b "ns.ex.com.")).
Definition w_addr : record := rec_ (s2b "ns.ex.com.") 3600 (D_A [6; 6; 6; 6]%N).
Definition com_recs : list record := [ex_ns; ex_glue 3600; rec_ (s2b "www.com.") 3600 (D_CNAME (s2b "www.ex.com.")); w_soa com].
Definition sub_recs : list record := [w_ns; w_addr].
Definition w_www : list record := [rec_ (s2b "www.ex.com.") 3600 (D_A [1; 2; 3; 4]%N); rec_ (s2b "www.ex.com.") 600 (D_A [1; 2; 3; 5]%N)].
Definition ex_recs' : list record := [w_ns; w_addr] ++ w_www ++ [w_soa ex_com].
Definition zs_com : managed := mkManaged (ex_zone com com_recs) [ex_zone ex_com sub_recs].
Definition zs_ex : managed := mkManaged (ex_zone ex_com ex_recs') [].
Definition sd_com : server_data := mkServer (mkData com com_recs) [mkData ex_com sub_recs].
Definition sd_ex : server_data := mkServer (mkData ex_com ex_recs') [].
Lemma com_parsed : forall p, parse_zone_files p fs_w 100 conf_com = Done (Ok zs_com). Proof. intros []; vm_compute; reflexivity. Qed.
Lemma ex_parsed : forall p, parse_zone_files p fs_w 100 conf_ex = Done (Ok zs_ex). Proof. intros []; vm_compute; reflexivity. Qed.
Lemma com_ok : params_ok conf_com.
Proof. split; [split; [now apply accepted_b|discriminate]|]. split; [reflexivity|]. constructor; [|constructor]. split; [split; [now apply accepted_b|discriminate]|]. now split. Qed.
Lemma ex_ok : params_ok conf_ex.
Proof. split; [split; [now apply accepted_b|discriminate]|]. split; [reflexivity|constructor]. Qed.

(** What there is. *)
Definition D_w : directory := fun n t => owned n t (com_recs ++ ex_recs').
Definition Y_w : layout := mkLayout (fun _ => 0) (fun z h => z = com /\ h = s2b "ns.com." \/ z = ex_com /\ h = s2b "ns.ex.com.").
Lemma w_in : forall n t r, In r (D_w n t) -> In r (com_recs ++ ex_recs') /\ r_node r = n /\ record_type r = t.
Proof. intros n t r H. now apply owned_in in H. Qed.
Ltac one_of H := cbn [com_recs ex_recs' sub_recs w_www app In] in H; repeat (destruct H as [<-|H]); [..|destruct H].
Lemma w_serves : forall z h, HealthSpec.serves D_w z h -> z = com /\ h = s2b "ns.com." \/ z = ex_com /\ h = s2b "ns.ex.com.".
Proof. intros z h (r & Hr & Eh). apply w_in in Hr as (Hr & <- & _). one_of Hr; try discriminate Eh; injection Eh as <-; tauto. Qed.
Lemma w_zones : forall z, D_w z RT_NS <> [] -> z = com \/ z = ex_com.
Proof. intros z H. destruct (D_w z RT_NS) as [|x l] eqn:E; [congruence|]. assert (Hx : In x (D_w z RT_NS)) by (rewrite E; now left). apply w_in in Hx as (Hx & <- & Et). one_of Hx; try discriminate Et; tauto. Qed.
Lemma w_directory_ok : directory_ok D_w.
Proof.
  split.
  - intros n t r H. now apply w_in in H.
  - intros n H. destruct (D_w n RT_CNAME) as [|c l] eqn:E; [congruence|]. assert (Hc : In c (D_w n RT_CNAME)) by (rewrite E; now left). apply w_in in Hc as (Hc & En & Et).
    one_of Hc; try discriminate Et. subst n. split.
    + eexists. rewrite <- E. reflexivity.
    + intros t Ht. destruct (D_w _ t) as [|x l'] eqn:Ex; [reflexivity|]. exfalso. match type of Ex with ?d = _ => assert (Hx : In x d) by (rewrite Ex; now left) end. apply w_in in Hx as (Hx & Xn & Xt).
      one_of Hx; try discriminate Xn. apply Ht. now rewrite <- Xt.
  - intros n c t Hc Et. apply w_in in Hc as (Hc & _). one_of Hc; try discriminate Et. injection Et as <-. apply sendable_b_ok. reflexivity.
  - intros z. destruct (D_w z RT_NS) as [|x l] eqn:E; [constructor|]. destruct (w_zones z) as [-> | ->]; [congruence| |]; rewrite <- E; constructor; [intros []|constructor|intros []|constructor].
Qed.

(** The files agree with it. *)
Lemma w_readable : Forall record_readable (com_recs ++ ex_recs').
Proof.
  apply Forall_forall. intros r Hr. one_of Hr; (split; [split; [apply sendable_b_ok; vm_compute; reflexivity|]; split; [reflexivity|]; split; [unfold is_u32; cbn; lia|]|exact I]); cbn [rdata_ok r_data rec_ w_soa ex_ns ex_glue w_ns w_addr];
    repeat split; try (apply sendable_b_ok; vm_compute; reflexivity); try (unfold is_u32; lia); repeat constructor; unfold is_byte; lia.
Qed.
Lemma filter_short : forall (f : record -> bool) l, length (flat_map wire_record (filter f l)) <= length (flat_map wire_record l).
Proof. intros f. induction l as [|x l IH]; [reflexivity|]. cbn [filter]. destruct (f x); cbn [flat_map]; rewrite !app_length; lia. Qed.
Lemma small_fits : forall n t rs, sendable n -> length (flat_map wire_record rs) <= 240 -> fits n t rs.
Proof. intros n t rs Hn H. unfold fits. pose proof (question_length n t Hn). lia. Qed.
Lemma wanted_fits : forall n t l rs, sendable n -> (forall n t, owned n t rs = owned n t l) -> length (flat_map wire_record l) <= 240 -> fits n t (wanted n t rs) /\ forall z, fits n t (firstn 1 (owned z RT_SOA rs)).
Proof.
  intros n t l rs Hn H L. split; [|intros z]; apply small_fits; try exact Hn.
  - unfold wanted. rewrite !H. pose proof (filter_short (fun r => bytes_eqb (r_node r) n && rtype_eqb (record_type r) t) l) as F1. pose proof (filter_short (fun r => bytes_eqb (r_node r) n && rtype_eqb (record_type r) RT_CNAME) l) as F2. unfold owned. destruct (filter _ l) eqn:E; [|rewrite <- E in *]; lia.
  - rewrite H. pose proof (filter_short (fun r => bytes_eqb (r_node r) z && rtype_eqb (record_type r) RT_SOA) l) as F. unfold owned. destruct (filter _ l) as [|x k]; cbn [firstn flat_map length] in *; rewrite ?app_length in *; cbn [length]; lia.
Qed.
Lemma same_self : forall l, same l l. Proof. intros l. apply Permutation_refl. Qed.
Lemma ex_inside : forall r, In r ex_recs' -> within (r_node r) ex_com.
Proof. intros r Hr. one_of Hr; apply within_b; first [reflexivity|discriminate]. Qed.
Lemma com_outside : forall r, In r com_recs -> ~ within (r_node r) ex_com.
Proof. intros r Hr. one_of Hr; apply not_within_b; first [reflexivity|discriminate]. Qed.
Definition T_w : N := (3600 * SECOND)%N.
Lemma w_ttl : forall z r, In r (com_recs ++ ex_recs') -> record_type r = RT_A -> anchor Y_w z (r_node r) -> (T_w <= 0 + r_ttl r * SECOND)%N.
Proof. intros z r Hr Ht Ha. one_of Hr; try discriminate Ht; try apply N.le_refl. destruct Ha as [(_ & Ha)|(_ & Ha)]; discriminate Ha. Qed.

Lemma com_agrees : forall sd, NsSpec.serves zs_com sd -> agrees D_w Y_w 0 T_w sd.
Proof.
  intros sd (S1 & S2). destruct (stores_same _ _ _ (ex_zone_stores com com_recs) S1) as (E1 & P1 & O1). cbn [d_apex d_records] in *.
  inversion S2 as [|? d ? l S3 S4 Ea El]; subst. inversion S4; subst. destruct (stores_same _ _ _ (ex_zone_stores ex_com sub_recs) S3) as (E2 & P2 & O2). cbn [d_apex d_records] in *.
  assert (Sb : In d (s_subs sd)) by (rewrite <- El; now left). assert (So : forall d', In d' (s_subs sd) -> d' = d) by (rewrite <- El; intros d' [<-|[]]; reflexivity).
  assert (G : forall h, glue sd h = owned h RT_A sub_recs). { intros h. unfold glue. rewrite <- El. cbn [flat_map]. rewrite app_nil_r. symmetry. apply O2. }
  split.
  - split; [|rewrite <- El; constructor; [|constructor]]; apply Forall_forall; intros r Hr; apply (proj1 (Forall_forall _ _) w_readable); apply in_or_app; [left|right].
    + exact (Permutation_in _ (Permutation_sym P1) Hr).
    + apply (Permutation_in _ (Permutation_sym P2)) in Hr. one_of Hr; cbn; tauto.
  - intros n t Hw Hno. rewrite <- O1. unfold D_w. rewrite owned_app. rewrite (owned_none n t ex_recs'); [rewrite app_nil_r; apply same_self|]. intros r Hr (Er & _). unfold in_no_sub in Hno. rewrite <- El in Hno. inversion Hno as [|? ? N1 _]; subst. apply N1. rewrite <- E2. now apply ex_inside.
  - intros d' Hd'. rewrite (So d' Hd'), <- E1, <- E2. split; [apply within_b; first [reflexivity|discriminate]|]. split; [discriminate|]. rewrite <- O2. apply same_self.
  - intros d' h Hd' Hh. rewrite (So d' Hd'), <- E2 in *. apply w_serves in Hh as [(X & _)|(_ & ->)]; [discriminate X|]. split; [left; apply within_b; first [reflexivity|discriminate]|]. right. rewrite G. apply same_self.
  - intros d' Hd' _. rewrite (So d' Hd'), <- E2. exists (s2b "ns.ex.com."). split; [exists w_ns; split; [left; reflexivity|reflexivity]|]. split; [right; now split|]. rewrite G. discriminate.
  - intros d' z r [<-|Hd'] Hr; apply w_ttl; apply in_or_app; [left; exact (Permutation_in _ (Permutation_sym P1) Hr)|right]. rewrite (So d' Hd') in Hr. apply (Permutation_in _ (Permutation_sym P2)) in Hr. one_of Hr; cbn; tauto.
  - intros n t Hn Ht Hw. split.
    + intros _. destruct (wanted_fits n t com_recs (d_records (s_auth sd)) Hn) as (F1 & F2); [intros; symmetry; apply O1|vm_compute; lia|]. split; [exact F1|apply F2].
    + intros d' (pre & post & E & _). assert (Hd' : In d' (s_subs sd)) by (rewrite E; apply in_or_app; right; now left). rewrite (So d' Hd'), <- E2, <- O2. cbv zeta. apply small_fits; [exact Hn|].
      rewrite (flat_map_ext _ (fun h => owned h RT_A sub_recs)) by exact G. vm_compute. lia.
Qed.
Lemma ex_agrees : forall sd, NsSpec.serves zs_ex sd -> agrees D_w Y_w 0 T_w sd.
Proof.
  intros sd (S1 & S2). destruct (stores_same _ _ _ (ex_zone_stores ex_com ex_recs') S1) as (E1 & P1 & O1). cbn [d_apex d_records] in *.
  inversion S2 as [El Ea|]; subst. assert (No : s_subs sd = []) by (symmetry; exact Ea).
  split.
  - split; [|rewrite No; constructor]. apply Forall_forall; intros r Hr; apply (proj1 (Forall_forall _ _) w_readable); apply in_or_app; right. exact (Permutation_in _ (Permutation_sym P1) Hr).
  - intros n t Hw _. rewrite <- O1. unfold D_w. rewrite owned_app. rewrite (owned_none n t com_recs); [apply same_self|]. intros r Hr (Er & _). apply (com_outside r Hr). rewrite Er, E1. exact Hw.
  - rewrite No. intros d [].
  - rewrite No. intros d h [].
  - rewrite No. intros d [].
  - rewrite No. intros d z r [<-|[]] Hr. apply w_ttl. apply in_or_app. right. exact (Permutation_in _ (Permutation_sym P1) Hr).
  - intros n t Hn Ht Hw. split.
    + intros _. destruct (wanted_fits n t ex_recs' (d_records (s_auth sd)) Hn) as (F1 & F2); [intros; symmetry; apply O1|vm_compute; lia|]. split; [exact F1|apply F2].
    + intros d' (pre & post & E & _). rewrite No in E. destruct pre; discriminate E.
Qed.

(** The network: the two name servers, and root servers that know com.  The server of com.
    (5.5.5.5) loses every other packet. *)
Definition checked (o : option (list N)) : option (list N) := match o with Some d => if forallb (fun x => x <? 256)%N d then Some d else None | None => None end.
Definition w_net (i : nat) (a x : list N) : option (list N) :=
  if bytes_eqb a [5; 5; 5; 5]%N then if Nat.even i then None else checked (answers_of Release zs_com x)
  else if bytes_eqb a [6; 6; 6; 6]%N then checked (answers_of Debug zs_ex x)
  else ex_net 3600 false a x.
Definition w_env : environment := fun i => mkEv 0 0 (fun c => c) 7 (w_net i).
Lemma w_ids : forall i, is_u16 (ev_id (w_env i)). Proof. intros i. unfold is_u16. cbn. lia. Qed.
Lemma checked_same : forall d, is_bytes d -> checked (Some d) = Some d.
Proof. intros d H. cbn [checked]. assert (E : forallb (fun x => x <? 256)%N d = true) by (apply forallb_forall; intros x Hx; apply N.ltb_lt; exact (proj1 (Forall_forall _ _) H x Hx)). rewrite E. reflexivity. Qed.
Lemma com_published : published_at D_w Y_w 0 T_w w_env 2 [5; 5; 5; 5]%N com.
Proof.
  destruct (C81_loaded_files_are_well_formed Release fs_w 100 conf_com zs_com com_ok (com_parsed Release)) as (sd & Ss & L).
  exists Release, fs_w, 100, conf_com, zs_com, sd. split; [exact com_ok|]. split; [reflexivity|]. split; [exact L|]. pose proof (com_agrees sd Ss) as Ag. split; [exact Ag|]. split; [apply com_parsed|].
  pose proof (C40_C42_give_zone_loaded _ _ _ _ _ _ com_ok (com_parsed Release) Ss) as Zl. pose proof L as (La & _ & _ & _ & _ & Gc & _).
  intros n t Hn Ht Hw. change com with (p_zone conf_com) in Hw. rewrite <- La in Hw.
  assert (R : forall i, checked (answers_of Release zs_com (query_at w_env n t i)) = answers_of Release zs_com (query_at w_env n t i)).
  { intros i. destruct (reply_honest Release Release w_env zs_com sd D_w Y_w 0 T_w w_ids Ss Zl Gc w_directory_ok Ag n t i Hn Ht Hw) as (d & m & E & B & _). rewrite E. now apply checked_same. }
  assert (W : forall i, ev_net (w_env i) [5; 5; 5; 5]%N (query_at w_env n t i) = if Nat.even i then None else answers_of Release zs_com (query_at w_env n t i)).
  { intros i. rewrite <- R. reflexivity. }
  split.
  - intros i. rewrite W. destruct (Nat.even i); [now left|now right].
  - intros i. destruct (Nat.even i) eqn:Ev.
    + exists 1. split; [lia|]. rewrite W. replace (Nat.even (i + 1)) with false; [reflexivity|]. rewrite Nat.even_add, Ev. reflexivity.
    + exists 0. split; [lia|]. rewrite W, Nat.add_0_r, Ev. reflexivity.
Qed.
Lemma ex_published : published_at D_w Y_w 0 T_w w_env 2 [6; 6; 6; 6]%N ex_com.
Proof.
  destruct (C81_loaded_files_are_well_formed Debug fs_w 100 conf_ex zs_ex ex_ok (ex_parsed Debug)) as (sd & Ss & L).
  exists Debug, fs_w, 100, conf_ex, zs_ex, sd. split; [exact ex_ok|]. split; [reflexivity|]. split; [exact L|]. pose proof (ex_agrees sd Ss) as Ag. split; [exact Ag|]. split; [apply ex_parsed|].
  pose proof (C40_C42_give_zone_loaded _ _ _ _ _ _ ex_ok (ex_parsed Debug) Ss) as Zl. pose proof L as (La & _ & _ & _ & _ & Gc & _).
  intros n t Hn Ht Hw. change ex_com with (p_zone conf_ex) in Hw. rewrite <- La in Hw.
  assert (W : forall i, ev_net (w_env i) [6; 6; 6; 6]%N (query_at w_env n t i) = answers_of Debug zs_ex (query_at w_env n t i)).
  { intros i. change (checked (answers_of Debug zs_ex (query_at w_env n t i)) = answers_of Debug zs_ex (query_at w_env n t i)).
    destruct (reply_honest Debug Debug w_env zs_ex sd D_w Y_w 0 T_w w_ids Ss Zl Gc w_directory_ok Ag n t i Hn Ht Hw) as (d & m & E & B & _). rewrite E. now apply checked_same. }
  split; [intros i; right; apply W|]. intros i. exists 0. split; [lia|]. rewrite Nat.add_0_r. apply W.
Qed.
Lemma root_address : forall s, In s ROOT_SERVERS -> bytes_eqb (snd s) [5; 5; 5; 5]%N = false /\ bytes_eqb (snd s) [6; 6; 6; 6]%N = false.
Proof.
  intros s Hs. assert (X : forallb (fun x => negb (bytes_eqb (snd x) [5; 5; 5; 5]%N) && negb (bytes_eqb (snd x) [6; 6; 6; 6]%N)) ROOT_SERVERS = true) by reflexivity.
  rewrite forallb_forall in X. specialize (X s Hs). apply andb_true_iff in X as (X1 & X2). apply negb_true_iff in X1, X2. now split.
Qed.
Lemma w_root : forall p s, In s ROOT_SERVERS -> good_server p w_env D_w Y_w 0 T_w 2 (snd s) [46%N].
Proof.
  intros p s Hs n t Hn Ht _. destruct (root_address s Hs) as (A1 & A2).
  assert (W : forall i, ev_net (w_env i) (snd s) (query_at w_env n t i) = Some (root_server 3600 n t)).
  { intros i. change (w_net i (snd s) (query_at w_env n t i) = Some (root_server 3600 n t)). unfold w_net. rewrite A1, A2.
    pose proof (asked (fun _ c => c) 3600 false (fun _ => 0%N) (or_introl eq_refl) (snd s) n t i Hn Ht) as X. unfold ex_reply in X. rewrite A1 in X. exact X. }
  pose proof (root_says p 3600 (or_introl eq_refl) n t) as S1.
  assert (K : exists m, decode_message p (firstn 512 (root_server 3600 n t)) = Done (Ok m) /\ h_id (m_header m) = 7%N /\ honest D_w Y_w m n t [46%N] /\ lasting Y_w 0 T_w m).
  { destruct (is_in_zone n com) eqn:Z.
    - destruct S1 as (m & Em & Ei & Hrc & _ & Ha & Hau & Had). cbn [map] in *. exists m. split; [exact Em|]. split; [exact Ei|]. split.
      + apply (H_referral D_w Y_w m n t [46%N] com); rewrite ?Ha; try reflexivity; [exact Hrc| |cbn; lia|].
        * apply within_ok; [now apply sendable_accepted|split; [now apply accepted_b|discriminate]|exact Z].
        * split; [discriminate|]. split; [rewrite Hau; apply Permutation_refl|]. split.
          -- intros h Hh. apply w_serves in Hh as [(_ & ->)|(X & _)]; [|discriminate X]. left. rewrite Had. split; [discriminate|apply Permutation_refl].
          -- intros _. exists (s2b "ns.com."). split; [exists ex_ns; split; [left; reflexivity|reflexivity]|]. split; [left; now split|]. rewrite Had. discriminate.
      + intros z r Hr Hrt _. rewrite Ha, Had in Hr. destruct Hr as [<-|[]]. apply N.le_refl.
    - destruct S1 as (m & Em & Ei & Hrc & Haa & Ha & Hau & Had). cbn [map] in *. exists m. split; [exact Em|]. split; [exact Ei|].
      assert (No : forall t', D_w n t' = []).
      { intros t'. destruct (D_w n t') as [|x l] eqn:Ex; [reflexivity|]. exfalso. assert (Hx : In x (D_w n t')) by (rewrite Ex; now left). apply w_in in Hx as (Hx & <- & _). one_of Hx; discriminate Z. }
      split; [now apply H_nothing|]. intros z r Hr. rewrite Ha, Had in Hr. destruct Hr. }
  destruct K as (m & Em & Ei & Ho & La). split; [|split].
  - intros i d E. rewrite W in E. assert (X : root_server 3600 n t = d) by congruence. rewrite <- X, Em. now eexists.
  - intros i m' (d & E & Ed & _). rewrite W in E. assert (X : root_server 3600 n t = d) by congruence. rewrite <- X, Em in Ed. assert (m = m') by congruence. subst m'. now split.
  - intros i. exists 0, m. split; [lia|]. exists (root_server 3600 n t). split; [apply W|]. now split.
Qed.
Lemma w_up : forall p z h, z = com /\ h = s2b "ns.com." \/ z = ex_com /\ h = s2b "ns.ex.com." -> up D_w Y_w 0 T_w p w_env 2 z h.
Proof.
  intros p z h H g a Hg Ea. left. apply w_in in Hg as (Hg & Gn & _). destruct H as [(-> & ->)|(-> & ->)]; one_of Hg; try discriminate Gn; try discriminate Ea; injection Ea as <-; [apply com_published|apply ex_published].
Qed.
Lemma w_published : forall p servers, 0 < servers -> published_dns D_w Y_w 0 T_w p w_env 2 servers.
Proof.
  intros p servers Hs. split.
  - exact w_directory_ok.
  - exists []. split; [exact Hs|]. apply Forall_forall. intros s Hin. left. now apply w_root.
  - assert (X : exists s l, ROOT_SERVERS = s :: l) by (eexists _, _; reflexivity). destruct X as (s & l & X). exists s. assert (Hin : In s ROOT_SERVERS) by (rewrite X; now left). split; [exact Hin|now apply w_root].
  - intros z. exists []. split; [exact Hs|]. intros h Hh. left. now apply w_up, w_serves.
  - intros z Hz. apply w_zones in Hz as [-> | ->].
    + exists (s2b "ns.com."). split; [exists ex_ns; split; [left; reflexivity|reflexivity]|]. apply w_up. left. now split.
    + exists (s2b "ns.ex.com."). split; [exists w_ns; split; [left; reflexivity|reflexivity]|]. apply w_up. right. now split.
  - intros z h H. now apply w_up.
  - intros z h H. cbn in H. lia.
Qed.
Lemma w_env_ok : env_ok plain_record w_env.
Proof.
  pose proof (ex_env_ok 3600 false (fun _ => 0%N) (or_introl eq_refl) (fun _ => N.le_refl _) (fun _ => eq_refl)) as [E1 E2 E3 E4 E5].
  split; [exact E1|exact E2| |exact E4|exact E5].
  intros i a x d H. change (w_net i a x = Some d) in H. unfold w_net in H.
  assert (C : forall o, checked o = Some d -> is_bytes d).
  { intros [d'|] X; [|discriminate X]. cbn [checked] in X. destruct (forallb _ d') eqn:F; [|discriminate X]. assert (Ed : d' = d) by congruence. rewrite <- Ed. now apply checked_bytes. }
  destruct (bytes_eqb a [5; 5; 5; 5]%N); [destruct (Nat.even i); [discriminate H|exact (C _ H)]|]. destruct (bytes_eqb a [6; 6; 6; 6]%N); [exact (C _ H)|]. exact (E3 i a x d H).
Qed.

Definition w_alias : record := rec_ (s2b "www.com.") 3600 (D_CNAME (s2b "www.ex.com.")).
Lemma w_leads : leads D_w (s2b "www.ex.com.") RT_A [] w_www /\ leads D_w (s2b "www.com.") RT_A [w_alias] w_www /\ leads D_w (s2b "x.com.") RT_A [] [] /\ leads D_w (s2b "x.org.") RT_A [] [] /\ leads D_w (s2b "ex.com.") RT_SOA [] [w_soa ex_com].
Proof.
  assert (A : leads D_w (s2b "www.ex.com.") RT_A [] w_www) by (change w_www with (D_w (s2b "www.ex.com.") RT_A); apply L_here; discriminate). split; [exact A|].
  split; [eapply L_alias; [reflexivity|reflexivity|reflexivity|exact A]|]. split; [apply L_nothing; reflexivity|]. split; [apply L_nothing; reflexivity|]. change [w_soa ex_com] with (D_w (s2b "ex.com.") RT_SOA). apply L_here. discriminate.
Qed.
Lemma w_fair : forall q kind cs rs, leads D_w q kind cs rs -> sendable_b q = true -> usable_type kind -> length cs < 5 -> fair_question D_w conf0 q kind.
Proof. intros q kind cs rs Hl Hs Hk Hc. split; [now apply sendable_b_ok|]. split; [exact Hk|]. exists cs, rs. split; [exact Hl|exact Hc]. Qed.
Definition w_questions : list (name * rtype) := [(s2b "www.com.", RT_A); (s2b "www.ex.com.", RT_A); (s2b "x.com.", RT_A); (s2b "x.org.", RT_A); (s2b "ex.com.", RT_SOA)].
(** The hypotheses hold, and the lookups find what is written in the zone files. *)
Theorem C85_nonvacuous :
  env_ok plain_record w_env /\ (forall n, (ev_now' (w_env n) < ev_now (w_env n) + SECOND)%N) /\ published_dns D_w Y_w 0 T_w Release w_env (max_retries conf0) (max_ns conf0) /\ others_true w_env D_w Y_w 0 T_w /\
  cache_ok plain_record 0 (w_cache world0) /\ cache_true D_w Y_w 0 T_w (w_cache world0) /\ no_follow conf0 = false /\
  Forall (fun qk => fair_question D_w conf0 (fst qk) (snd qk) /\ leaves_no_trap D_w Y_w (fst qk) (snd qk) /\ (snd qk = RT_CNAME -> others_leave w_env (fst qk))) w_questions /\
  (256 < 260 /\ forall z, D_w z RT_NS <> [] -> 256 + depth Y_w z < 260) /\ (forall m, (ev_now' (w_env m) < T_w)%N) /\
  map shown (fst (lookups Release w_env conf0 260 w_questions world0)) =
    [Some (map bare (w_alias :: w_www), false); Some (map bare w_www, false); Some ([], true); Some ([], true); Some ([bare (w_soa ex_com)], false)].
Proof.
  split; [exact w_env_ok|]. split; [intros n; vm_compute; reflexivity|].
  split; [apply w_published; apply Nat.ltb_lt; reflexivity|]. split; [intros n c _ Hc; split; [exact Hc|intros z h _ Hh; exact Hh]|]. split; [apply world0_ok|]. split; [apply empty_true|]. split; [reflexivity|].
  destruct w_leads as (A & B & C & E & F). split.
  { unfold w_questions. constructor; [|constructor; [|constructor; [|constructor; [|constructor; [|constructor]]]]]; (split; [|split; [intros X; discriminate X|intros _ i c Hc; exact Hc]]); cbn [fst snd]; [apply (w_fair _ _ _ _ B)|apply (w_fair _ _ _ _ A)|apply (w_fair _ _ _ _ C)|apply (w_fair _ _ _ _ E)|apply (w_fair _ _ _ _ F)]; try reflexivity; try (unfold usable_type; tauto); apply Nat.ltb_lt; reflexivity. }
  split; [split; [apply Nat.ltb_lt; reflexivity|intros z _; cbn [Y_w depth]; apply Nat.ltb_lt; reflexivity]|]. split; [intros m; vm_compute; reflexivity|]. vm_compute. reflexivity.
Qed.
Print Assumptions C85_nonvacuous.
