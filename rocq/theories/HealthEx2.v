(** A less tidy domain name system that is healthy too (C78): a root server and a server of
    com. are dead, another one refuses, org. has only a server in com. (of which no address
    is sent), and of the two servers of net. the address of one is sent. *)
From Coq Require Import Permutation.
From Verif Require ZoneProofs.
From Verif Require Import Base Types Name NameSpec NameProofs Codec CodecSpec CodecWrite CodecMessage PropCodec1 Zone ZoneSpec NsSpec PropNs Cache Resolver ResolverLists ResolverSpec ResolverInv ResolverRun ResolverFacts ResolverEx PropResolver1 PropResolver2 PropResolver3 PropResolver5 ResolverStays PropResolver7 PropTalk HealthSpec HealthRun PropHealth HealthEx.

Definition org : name := s2b "org.".
Definition net : name := s2b "net.".
Definition h_live : name := s2b "ns.com.".
Definition h_dead : name := s2b "dead.com.".
Definition h_mute : name := s2b "refuses.com.".
Definition h_net : name := s2b "ns.net.".
Definition a_live : list N := [5; 5; 5; 5]%N.
Definition a_dead : list N := [6; 6; 6; 6]%N.
Definition a_mute : list N := [7; 7; 7; 7]%N.
Definition a_net : list N := [8; 8; 8; 8]%N.
Definition u_com : list record := [rec_ com 3600 (D_NS h_dead); rec_ com 3600 (D_NS h_mute); rec_ com 3600 (D_NS h_live)].
Definition u_org : list record := [rec_ org 3600 (D_NS h_live)].
Definition u_net : list record := [rec_ net 3600 (D_NS h_live); rec_ net 3600 (D_NS h_net)].
Definition u_dead : list record := [rec_ h_dead 3600 (D_A a_dead)].
Definition u_mute : list record := [rec_ h_mute 3600 (D_A a_mute)].
Definition u_live : list record := [rec_ h_live 3600 (D_A a_live)].
Definition u_nsnet : list record := [rec_ h_net 3600 (D_A a_net)].
Definition u_a : list record := [rec_ (s2b "a.org.") 3600 (D_A [1; 2; 3; 4]%N); rec_ (s2b "a.org.") 60 (D_A [1; 2; 3; 5]%N)].
Definition u_c : list record := [rec_ (s2b "b.net.") 3600 (D_CNAME (s2b "a.org."))].
Definition u_sets : list (name * rtype * list record) :=
  [(com, RT_NS, u_com); (org, RT_NS, u_org); (net, RT_NS, u_net); (h_dead, RT_A, u_dead); (h_mute, RT_A, u_mute); (h_live, RT_A, u_live); (h_net, RT_A, u_nsnet); (s2b "a.org.", RT_A, u_a); (s2b "b.net.", RT_CNAME, u_c)].
Definition u_find (n : name) (t : rtype) : option (name * rtype * list record) := find (fun s => bytes_eqb (fst (fst s)) n && rtype_eqb (snd (fst s)) t) u_sets.
Definition D_u : directory := fun n t => match u_find n t with Some s => snd s | None => [] end.
(** org. is one level above com.; com. and net. are referred to with an anchor's address. *)
Definition Y_u : layout := mkLayout (fun z => if bytes_eqb z org then 1 else 0) (fun z h => z = com /\ h = h_live \/ z = net /\ h = h_net).

Definition u_zone (n : name) (t : rtype) : list N :=
  match D_u n t with
  | [] => match D_u n RT_CNAME with [] => nothing_there | l => packet RC_NoError true l [] [] end
  | l => packet RC_NoError true l [] []
  end.
Definition u_root (n : name) (t : rtype) : list N :=
  if is_in_zone n com then packet RC_NoError false [] u_com (u_dead ++ u_mute ++ u_live)
  else if is_in_zone n org then packet RC_NoError false [] u_org []
  else if is_in_zone n net then packet RC_NoError false [] u_net u_nsnet
  else nothing_there.
Definition refusal : list N := packet RC_Refused false [] [] [].
(** The first root server (198.41.0.4) and 6.6.6.6 are dead; 7.7.7.7 refuses. *)
Definition u_reply (a : list N) (n : name) (t : rtype) : option (list N) :=
  if bytes_eqb a a_dead || bytes_eqb a [198; 41; 0; 4]%N then None
  else if bytes_eqb a a_mute then Some refusal
  else if bytes_eqb a a_live || bytes_eqb a a_net then Some (u_zone n t)
  else Some (u_root n t).
Definition u_env : environment := fun _ => mkEv 0 0 (fun c => c) 7 (fun a x =>
  match decode_message Release x with
  | Done (Ok m) => match m_questions m with q :: _ => u_reply a (q_node q) (q_type q) | [] => None end
  | _ => None
  end).

Lemma u_find_in : forall n t s, u_find n t = Some s -> In s u_sets /\ s = (n, t, snd s).
Proof.
  intros n t [[n' t'] l] H. apply find_some in H as (H1 & H2). split; [exact H1|]. cbn [fst snd] in *. apply andb_true_iff in H2 as (H2 & H3). apply bytes_eqb_eq in H2. apply rtype_eqb_eq in H3. now subst.
Qed.
Lemma D_u_sets : forall n t, D_u n t = [] \/ In (n, t, D_u n t) u_sets.
Proof.
  intros n t. unfold D_u. destruct (u_find n t) as [s|] eqn:E; [|now left]. right. apply u_find_in in E as (H & E). now rewrite <- E.
Qed.
Lemma D_u_cases : forall (P : name -> rtype -> list record -> Prop) n t, D_u n t <> [] -> Forall (fun s => P (fst (fst s)) (snd (fst s)) (snd s)) u_sets -> P n t (D_u n t).
Proof. intros P n t H F. destruct (D_u_sets n t) as [E|E]; [congruence|]. rewrite Forall_forall in F. exact (F _ E). Qed.
Ltac each := unfold u_sets; repeat (apply Forall_cons; [cbn [fst snd]|]); [..|apply Forall_nil].
Lemma u_alias : forall n, D_u n RT_CNAME <> [] -> n = s2b "b.net." /\ D_u n RT_CNAME = u_c.
Proof.
  intros n H. assert (G := D_u_cases (fun n t l => t = RT_CNAME -> n = s2b "b.net." /\ l = u_c) n RT_CNAME H). apply G; [|reflexivity]. each; intros X; first [discriminate X|now split].
Qed.
Lemma u_directory_ok : directory_ok D_u.
Proof.
  split.
  - intros n t r H. assert (N : D_u n t <> []) by (intros E; rewrite E in H; exact H). revert r H.
    apply (D_u_cases (fun n t l => forall r, In r l -> r_node r = n /\ record_type r = t) n t N). each; cbn [u_com u_org u_net u_dead u_mute u_live u_nsnet u_a u_c In]; intros r H; repeat (destruct H as [<-|H]; [now split|]); destruct H.
  - intros n H. apply u_alias in H as (-> & E). split; [exists (rec_ (s2b "b.net.") 3600 (D_CNAME (s2b "a.org."))); exact E|]. intros t Ht. destruct (D_u_sets (s2b "b.net.") t) as [X|X]; [exact X|exfalso].
    cbn [u_sets In] in X. repeat (destruct X as [X|X]; [first [now inversion X | injection X as X1 X2; congruence]|]). exact X.
  - intros n c t Hc Et. assert (N : D_u n RT_CNAME <> []) by (intros E; rewrite E in Hc; exact Hc). apply u_alias in N as (-> & E). rewrite E in Hc. destruct Hc as [<-|[]]. injection Et as <-. apply sendable_b_ok. reflexivity.
  - intros z. destruct (D_u_sets z RT_NS) as [E|E]; [rewrite E; constructor|]. revert E. generalize (D_u z RT_NS). intros l X.
    cbn [u_sets In] in X. repeat (destruct X as [X|X]; [first [discriminate X | injection X as _ <-; cbn; repeat (constructor; [cbn; intros Y; repeat (destruct Y as [Y|Y]; [discriminate Y|]); exact Y|]); constructor]|]). destruct X.
Qed.
Lemma u_serves : forall z h, serves D_u z h -> z = com /\ (h = h_dead \/ h = h_mute \/ h = h_live) \/ z = org /\ h = h_live \/ z = net /\ (h = h_live \/ h = h_net).
Proof.
  intros z h (r & Hr & Eh). destruct (D_u_sets z RT_NS) as [E|E]; [rewrite E in Hr; destruct Hr|]. revert E Hr. generalize (D_u z RT_NS). intros l X Hr.
  cbn [u_sets In] in X. repeat (destruct X as [X|X]; [first [discriminate X | injection X as <- <-; cbn [u_com u_org u_net In] in Hr; repeat (destruct Hr as [<-|Hr]; [injection Eh as <-; tauto|]); destruct Hr]|]). destruct X.
Qed.
Lemma u_zones : forall z, D_u z RT_NS <> [] -> z = com \/ z = org \/ z = net.
Proof.
  intros z H. destruct (D_u_sets z RT_NS) as [E|E]; [congruence|]. cbn [u_sets In] in E. repeat (destruct E as [E|E]; [first [discriminate E | injection E as <- _; tauto]|]). destruct E.
Qed.

Lemma live_com : serves D_u com h_live. Proof. exists (rec_ com 3600 (D_NS h_live)). split; [right; right; left; reflexivity|reflexivity]. Qed.
Lemma live_org : serves D_u org h_live. Proof. exists (rec_ org 3600 (D_NS h_live)). split; [left; reflexivity|reflexivity]. Qed.
Lemma net_net : serves D_u net h_net. Proof. exists (rec_ net 3600 (D_NS h_net)). split; [right; left; reflexivity|reflexivity]. Qed.

Section Replies.
  Context (p : profile).
  Definition reads (d : list N) (m : message) : Prop := decode_message p (firstn 512 d) = Done (Ok m).
  Lemma u_asked : forall a n t i, sendable n -> usable_type t -> ev_net (u_env i) a (query_at u_env n t i) = u_reply a n t.
  Proof.
    intros a n t i Hn Ht. cbn [u_env ev_net].
    assert (E : decode_message Release (query_at u_env n t i) = Done (Ok (build_dns_request 7 n t))).
    { exact (req_decodes Release (env_ex ex_zones) ex_zones n t [] 1 world0 Hn Ht (le_n _) ltac:(unfold is_u16; cbn; lia) (fun _ => eq_refl)). }
    rewrite E. reflexivity.
  Qed.
  Lemma u_refusal : says p refusal RC_Refused false [] [] []. Proof. say p. Qed.
  Lemma u_answer : forall n t, D_u n t <> [] -> says p (packet RC_NoError true (D_u n t) [] []) RC_NoError true (D_u n t) [] [].
  Proof. intros n t H. apply (D_u_cases (fun n t l => says p (packet RC_NoError true l [] []) RC_NoError true l [] []) n t H). each; say p. Qed.
  Lemma u_to_com : says p (packet RC_NoError false [] u_com (u_dead ++ u_mute ++ u_live)) RC_NoError false [] u_com (u_dead ++ u_mute ++ u_live). Proof. say p. Qed.
  Lemma u_to_org : says p (packet RC_NoError false [] u_org []) RC_NoError false [] u_org []. Proof. say p. Qed.
  Lemma u_to_net : says p (packet RC_NoError false [] u_net u_nsnet) RC_NoError false [] u_net u_nsnet. Proof. say p. Qed.

  Lemma u_says_zone : forall n t, D_u n t <> [] /\ says p (u_zone n t) RC_NoError true (D_u n t) [] [] \/
    D_u n t = [] /\ D_u n RT_CNAME <> [] /\ says p (u_zone n t) RC_NoError true (D_u n RT_CNAME) [] [] \/
    D_u n t = [] /\ D_u n RT_CNAME = [] /\ says p (u_zone n t) RC_NxDomain true [] [] [].
  Proof.
    intros n t. unfold u_zone. pose proof (u_answer n t) as A. pose proof (u_answer n RT_CNAME) as B. pose proof (says_nothing p) as C. destruct (D_u n t) as [|x l].
    - right. destruct (D_u n RT_CNAME) as [|y k]; [now right|left]. split; [reflexivity|]. split; [discriminate|]. apply B. discriminate.
    - left. split; [discriminate|]. apply A. discriminate.
  Qed.
  Lemma u_says_root : forall n t, is_in_zone n com = true /\ says p (u_root n t) RC_NoError false [] u_com (u_dead ++ u_mute ++ u_live) \/
    is_in_zone n org = true /\ says p (u_root n t) RC_NoError false [] u_org [] \/ is_in_zone n net = true /\ says p (u_root n t) RC_NoError false [] u_net u_nsnet \/
    is_in_zone n com = false /\ is_in_zone n org = false /\ is_in_zone n net = false /\ says p (u_root n t) RC_NxDomain true [] [] [].
  Proof.
    intros n t. unfold u_root. destruct (is_in_zone n com) eqn:E1; [left; split; [reflexivity|apply u_to_com]|]. destruct (is_in_zone n org) eqn:E2; [right; left; split; [reflexivity|apply u_to_org]|].
    destruct (is_in_zone n net) eqn:E3; [right; right; left; split; [reflexivity|apply u_to_net]|]. right. right. right. split; [reflexivity|]. split; [reflexivity|]. split; [reflexivity|apply says_nothing].
  Qed.
  Lemma u_reply_says : forall a n t d, u_reply a n t = Some d -> exists rc aa ans aus ads, says p d rc aa ans aus ads.
  Proof.
    intros a n t d. unfold u_reply. destruct (_ || _); [discriminate|]. destruct (bytes_eqb a a_mute); [|destruct (bytes_eqb a a_live || bytes_eqb a a_net)]; intros E.
    - assert (Ed : refusal = d) by congruence. rewrite <- Ed. eexists _, _, _, _, _. apply u_refusal.
    - assert (Ed : u_zone n t = d) by congruence. rewrite <- Ed. destruct (u_says_zone n t) as [(_ & X)|[(_ & _ & X)|(_ & _ & X)]]; eexists _, _, _, _, _; exact X.
    - assert (Ed : u_root n t = d) by congruence. rewrite <- Ed. destruct (u_says_root n t) as [(_ & X)|[(_ & X)|[(_ & X)|(_ & _ & _ & X)]]]; eexists _, _, _, _, _; exact X.
  Qed.
  Lemma u_decodes : forall i a x d, ev_net (u_env i) a x = Some d -> exists r, decode_message p (firstn 512 d) = Done r.
  Proof.
    intros i a x d. cbn [u_env ev_net]. destruct (decode_message Release x) as [[m|e]|k|]; try discriminate. destruct (m_questions m) as [|q qs]; [discriminate|].
    intros H. destruct (u_reply_says _ _ _ _ H) as (rc & aa & ans & aus & ads & m' & E & _). rewrite E. now eexists.
  Qed.
  Lemma same_normal : forall l, same (map normal l) l.
  Proof. intros l. unfold same. rewrite map_map. apply Permutation_refl. Qed.
  (** Of the anchors' addresses (and all others), the responses say that they are valid for an
      hour; a.org. is not an anchor. *)
  Definition hour (l : list record) : Prop := forall r, In r l -> record_type r = RT_A -> r_node r <> s2b "a.org." -> r_ttl r = 3600%N.
  Lemma u_lasting : forall m l1 l2, m_answers m = map normal l1 -> m_additionals m = map normal l2 -> hour (l1 ++ l2) -> lasting Y_u 0 (3600 * SECOND) m.
  Proof.
    intros m l1 l2 E1 E2 H z r Hr Ht Ha. rewrite E1, E2, <- map_app in Hr. apply in_map_iff in Hr as (r' & <- & Hr'). cbn [normal r_ttl r_node] in *. rewrite (H r' Hr' Ht); [lia|].
    intros C. rewrite C in Ha. destruct Ha as [(_ & Ha)|(_ & Ha)]; discriminate Ha.
  Qed.
  Lemma hour_D : forall n t, hour (D_u n t).
  Proof.
    intros n t. destruct (D_u n t) as [|x l] eqn:E; [intros r []|]. rewrite <- E. assert (N : D_u n t <> []) by congruence.
    apply (D_u_cases (fun n t l => hour l) n t N). each; intros r H; cbn [u_com u_org u_net u_dead u_mute u_live u_nsnet u_a u_c In] in H; repeat (destruct H as [<-|H]; [intros X; first [discriminate X|intros Y; first [reflexivity|exfalso; apply Y; reflexivity]]|]); destruct H.
  Qed.
  Lemma owned_D : forall n t, owned n t (map normal (D_u n t)) = map normal (D_u n t).
  Proof. intros n t. rewrite owned_normal. f_equal. apply ZoneProofs.owned_all. apply Forall_forall. intros r Hr. now apply (di_owner _ u_directory_ok). Qed.
  Lemma u_zone_honest : forall n t z m, reads (u_zone n t) m -> honest D_u Y_u m n t z /\ lasting Y_u 0 (3600 * SECOND) m.
  Proof.
    intros n t z m E. destruct (u_says_zone n t) as [(Hn & m' & Em & _ & Hrc & _ & Ha & _ & Had)|[(Hn & Hc & m' & Em & _ & Hrc & _ & Ha & Hau & Had)|(Hn & Hc & m' & Em & _ & Hrc & Haa & Ha & Hau & Had)]];
      (assert (Emm : m' = m) by (unfold reads in E; congruence)); subst m'; (split; [|apply (u_lasting m _ _ Ha Had); rewrite app_nil_r; try apply hour_D; intros r []]).
    - apply H_answer; [exact Hrc|exact Hn|]. rewrite Ha, owned_D. apply same_normal.
    - pose proof (u_alias n Hc) as (-> & Ec). apply (H_alias D_u Y_u m _ t z (rec_ (s2b "b.net.") 3600 (D_CNAME (s2b "a.org."))) (s2b "a.org.")); [exact Hrc|exact Hn| |exact Ec|reflexivity| |].
      + rewrite Ha, owned_normal. replace (owned (s2b "b.net.") t (D_u (s2b "b.net.") RT_CNAME)) with (@nil record); [reflexivity|]. rewrite Ec. unfold u_c, owned. cbn [filter]. destruct (bytes_eqb _ _); [|reflexivity]. cbn [andb].
        change (record_type (rec_ (s2b "b.net.") 3600 (D_CNAME (s2b "a.org.")))) with RT_CNAME. destruct (rtype_eqb RT_CNAME t) eqn:X; [|reflexivity]. apply rtype_eqb_eq in X. subst t. congruence.
      + rewrite Ha, owned_D, Ec. apply same_normal.
      + left. rewrite Hau. intros r [].
    - now apply H_nothing.
  Qed.
  Lemma u_within : forall n z, sendable n -> is_ok (validate_name z) = true -> z <> [46%N] -> is_in_zone n z = true -> within n z.
  Proof. intros n z Hn Hz Hr E. apply within_ok; [now apply sendable_accepted|split; [now apply accepted_b|exact Hr]|exact E]. Qed.
  Lemma u_root_honest : forall n t m, sendable n -> reads (u_root n t) m -> honest D_u Y_u m n t [46%N] /\ lasting Y_u 0 (3600 * SECOND) m.
  Proof.
    intros n t m Hn E.
    assert (OT : forall l, Forall (fun r => record_type r = RT_NS) l -> of_type RT_NS (map normal l) = map normal l).
    { intros l F. induction F as [|x l' Hx F IH]; [reflexivity|]. cbn [map]. unfold of_type. cbn [filter]. change (record_type (normal x)) with (record_type x). rewrite Hx. change (rtype_eqb RT_NS RT_NS) with true. cbv iota. f_equal. exact IH. }
    destruct (u_says_root n t) as [(Z & m' & Em & _ & Hrc & _ & Ha & Hau & Had)|[(Z & m' & Em & _ & Hrc & _ & Ha & Hau & Had)|[(Z & m' & Em & _ & Hrc & _ & Ha & Hau & Had)|(Z1 & Z2 & Z3 & m' & Em & _ & Hrc & Haa & Ha & Hau & Had)]]];
      (assert (Emm : m' = m) by (unfold reads in E; congruence)); subst m'.
    - split; [|apply (u_lasting m _ _ Ha Had); intros r [<-|[<-|[<-|[]]]]; reflexivity].
      apply (H_referral D_u Y_u m n t [46%N] com); rewrite ?Ha; try reflexivity; [exact Hrc|apply u_within; [exact Hn|reflexivity|discriminate|exact Z]|cbn; lia|].
      split; [discriminate|]. split; [rewrite Hau, OT by repeat constructor; apply same_normal|]. split.
      + intros h Hh. left. rewrite Had. apply u_serves in Hh as [(_ & [->|[->| ->]])|[(X & _)|(X & _)]]; try discriminate X; (split; [discriminate|apply Permutation_refl]).
      + intros _. exists h_live. split; [exact live_com|]. split; [left; now split|]. rewrite Had. discriminate.
    - split; [|apply (u_lasting m _ _ Ha Had); intros r []].
      apply (H_referral D_u Y_u m n t [46%N] org); rewrite ?Ha; try reflexivity; [exact Hrc|apply u_within; [exact Hn|reflexivity|discriminate|exact Z]|cbn; lia|].
      split; [discriminate|]. split; [rewrite Hau, OT by repeat constructor; apply same_normal|]. split.
      + intros h Hh. right. rewrite Had. apply u_serves in Hh as [(X & _)|[(_ & ->)|(X & _)]]; try discriminate X. split; [reflexivity|].
        intros (pre & X). apply (f_equal (fun l => skipn 3 l)) in X. destruct pre as [|b1 [|b2 [|b3 [|b4 pre]]]]; try discriminate X. apply (f_equal (@length N)) in X. cbn in X. rewrite app_length in X. cbn in X. lia.
      + intros X. discriminate X.
    - split; [|apply (u_lasting m _ _ Ha Had); intros r [<-|[]]; reflexivity].
      apply (H_referral D_u Y_u m n t [46%N] net); rewrite ?Ha; try reflexivity; [exact Hrc|apply u_within; [exact Hn|reflexivity|discriminate|exact Z]|cbn; lia|].
      split; [discriminate|]. split; [rewrite Hau, OT by repeat constructor; apply same_normal|]. split.
      + intros h Hh. rewrite Had. apply u_serves in Hh as [(X & _)|[(X & _)|(_ & [->| ->])]]; try discriminate X; [right|left].
        * split; [reflexivity|]. intros (pre & X). apply (f_equal (fun l => skipn 3 l)) in X. destruct pre as [|b1 [|b2 [|b3 [|b4 pre]]]]; try discriminate X. apply (f_equal (@length N)) in X. cbn in X. rewrite app_length in X. cbn in X. lia.
        * split; [discriminate|apply Permutation_refl].
      + intros _. exists h_net. split; [exact net_net|]. split; [right; now split|]. rewrite Had. discriminate.
    - assert (No : forall t', D_u n t' = []).
      { intros t'. destruct (D_u_sets n t') as [X|X]; [exact X|exfalso]. cbn [u_sets In] in X. clear E Em. repeat (destruct X as [X|X]; [injection X as <- _ _; first [discriminate Z1|discriminate Z2|discriminate Z3]|]). exact X. }
      split; [now apply H_nothing|apply (u_lasting m _ _ Ha Had); intros r []].
  Qed.
  Lemma u_server : forall a z, (forall n t, u_reply a n t <> None) ->
    (forall n t, sendable n -> usable_type t -> within n z -> forall d m, u_reply a n t = Some d -> reads d m -> honest D_u Y_u m n t z /\ lasting Y_u 0 (3600 * SECOND) m) -> good_server p u_env D_u Y_u 0 (3600 * SECOND) 2 a z.
  Proof.
    intros a z Hs H n t Hn Ht Hw. split; [intros i d; apply u_decodes|]. split.
    - intros i m (d & E1 & E2 & _). rewrite (u_asked a n t i Hn Ht) in E1. exact (H n t Hn Ht Hw d m E1 E2).
    - intros i. destruct (u_reply a n t) as [d|] eqn:Ed; [|exfalso; now apply (Hs n t)]. destruct (u_reply_says a n t d Ed) as (rc & aa & ans & aus & ads & m & E & Ei & _). exists 0, m. split; [lia|]. rewrite Nat.add_0_r. exists d. split; [now rewrite u_asked|]. split; [exact E|exact Ei].
  Qed.
  Lemma u_good : forall a z, a = a_live \/ a = a_net -> good_server p u_env D_u Y_u 0 (3600 * SECOND) 2 a z.
  Proof.
    intros a z Ha. assert (E : forall n t, u_reply a n t = Some (u_zone n t)) by (intros n t; destruct Ha as [-> | ->]; reflexivity). apply u_server; [intros n t; rewrite E; discriminate|].
    intros n t Hn Ht _ d m Ed. rewrite E in Ed. assert (X : u_zone n t = d) by congruence. rewrite <- X. apply u_zone_honest.
  Qed.
  Lemma u_root_good : forall s, In s ROOT_SERVERS -> bytes_eqb (snd s) [198; 41; 0; 4]%N = false -> good_server p u_env D_u Y_u 0 (3600 * SECOND) 2 (snd s) [46%N].
  Proof.
    intros s Hin Hb. assert (E : forall n t, u_reply (snd s) n t = Some (u_root n t)).
    { intros n t. unfold u_reply. rewrite Hb. assert (X : forallb (fun x => negb (bytes_eqb (snd x) a_dead || bytes_eqb (snd x) a_mute || bytes_eqb (snd x) a_live || bytes_eqb (snd x) a_net)) ROOT_SERVERS = true) by reflexivity.
      rewrite forallb_forall in X. specialize (X _ Hin). apply negb_true_iff in X. apply orb_false_iff in X as (X & ->). apply orb_false_iff in X as (X & ->). apply orb_false_iff in X as (-> & ->). reflexivity. }
    apply u_server; [intros n t; rewrite E; discriminate|]. intros n t Hn Ht _ d m Ed. rewrite E in Ed. assert (X : u_root n t = d) by congruence. rewrite <- X. now apply u_root_honest.
  Qed.
  Lemma u_useless : forall a z, a = a_dead \/ a = a_mute \/ a = [198; 41; 0; 4]%N -> useless_server p u_env a z.
  Proof.
    intros a z Ha n t Hn Ht _. split; [intros i d; apply u_decodes|]. intros i m (d & E1 & E2 & _). rewrite (u_asked a n t i Hn Ht) in E1. destruct Ha as [->|[->| ->]].
    { exfalso. change (@None (list N) = Some d) in E1. discriminate E1. }
    2: { exfalso. change (@None (list N) = Some d) in E1. discriminate E1. }
    assert (X : refusal = d) by (change (Some refusal = Some d) in E1; congruence). subst d. destruct u_refusal as (m' & Em & _ & Hrc & _). assert (Emm : m' = m) by congruence. subst m'. unfold worthless. rewrite Hrc. exact I.
  Qed.
  Lemma u_addr : forall h g a, In g (D_u h RT_A) -> r_data g = D_A a -> (h = h_live -> a = a_live) /\ (h = h_net -> a = a_net) /\ (h = h_dead -> a = a_dead) /\ (h = h_mute -> a = a_mute).
  Proof.
    intros h g a Hg Ea. split; [|split; [|split]]; intros ->; (destruct Hg as [<-|[]]); injection Ea as <-; reflexivity.
  Qed.
  Lemma u_works : forall z h, h = h_live \/ h = h_net -> works p u_env D_u Y_u 0 (3600 * SECOND) 2 z h.
  Proof. intros z h Hh g a Hg Ea. destruct (u_addr h g a Hg Ea) as (A1 & A2 & _). apply u_good. tauto. Qed.
  Lemma u_broken : forall z h, h = h_dead \/ h = h_mute -> broken p u_env D_u z h.
  Proof. intros z h Hh g a Hg Ea. destruct (u_addr h g a Hg Ea) as (_ & _ & A1 & A2). apply u_useless. tauto. Qed.
  Lemma u_healthy : healthy p u_env D_u Y_u 0 (3600 * SECOND) 2 3.
  Proof.
    split.
    - exact u_directory_ok.
    - exists [(s2b "a.root-servers.net.", [198; 41; 0; 4]%N)]. split; [cbn; lia|]. apply Forall_forall. intros s Hs. destruct (bytes_eqb (snd s) [198; 41; 0; 4]%N) eqn:E; [right|left; now apply u_root_good]. split.
      + left. symmetry. assert (X : forallb (fun s => negb (bytes_eqb (snd s) [198; 41; 0; 4]%N) || bytes_eqb (fst s) (s2b "a.root-servers.net.")) ROOT_SERVERS = true) by reflexivity. rewrite forallb_forall in X. specialize (X _ Hs). rewrite E in X. cbn in X. apply bytes_eqb_eq in X, E. destruct s as [s1 s2]. cbn [fst snd] in *. now rewrite X, E.
      + apply u_useless. apply bytes_eqb_eq in E. tauto.
    - exists (s2b "b.root-servers.net.", [199; 9; 14; 201]%N). assert (Hs : In (s2b "b.root-servers.net.", [199; 9; 14; 201]%N) ROOT_SERVERS) by (right; left; reflexivity). split; [exact Hs|]. apply (u_root_good _ Hs). reflexivity.
    - intros z. exists [h_dead; h_mute]. split; [cbn; lia|]. intros h Hh.
      assert (X : (h = h_live \/ h = h_net) \/ (h = h_dead \/ h = h_mute)) by (apply u_serves in Hh; tauto). destruct X as [X|X]; [left; now apply u_works|right]. split; [cbn; destruct X; auto|now apply u_broken].
    - intros z Hz. apply u_zones in Hz as [->|[->| ->]]; [exists h_live|exists h_live|exists h_net]; (split; [first [exact live_com|exact live_org|exact net_net]|apply u_works; tauto]).
    - intros z h Ha. apply u_works. destruct Ha as [(_ & ->)|(_ & ->)]; tauto.
    - intros z h Hd Hh. assert (Hz : z = org). { cbn [Y_u depth] in Hd. destruct (bytes_eqb z org) eqn:E; [now apply bytes_eqb_eq|lia]. } subst z.
      apply u_serves in Hh as [(X & _)|[(_ & ->)|(X & _)]]; try discriminate X. split; [apply sendable_b_ok; reflexivity|]. split; [discriminate|].
      intros z' Hz Hw. apply u_zones in Hz as [->|[->| ->]]; [apply Nat.ltb_lt; reflexivity| |apply Nat.ltb_lt; reflexivity]. exfalso. revert Hw. apply not_within_b; [reflexivity|reflexivity|discriminate|reflexivity].
  Qed.
End Replies.

Lemma u_bytes : forall a n t d, u_reply a n t = Some d -> is_bytes d.
Proof.
  assert (No : is_bytes nothing_there) by (apply checked_bytes; vm_compute; reflexivity).
  assert (R : forall n t, D_u n t <> [] -> is_bytes (packet RC_NoError true (D_u n t) [] [])).
  { intros n t H. apply checked_bytes. apply (D_u_cases (fun n t l => forallb (fun x => x <? 256)%N (packet RC_NoError true l [] []) = true) n t H). each; vm_compute; reflexivity. }
  intros a n t d. unfold u_reply. destruct (_ || _); [discriminate|]. destruct (bytes_eqb a a_mute); [|destruct (bytes_eqb a a_live || bytes_eqb a a_net)]; intros E.
  - assert (Ed : refusal = d) by congruence. rewrite <- Ed. apply checked_bytes. vm_compute. reflexivity.
  - assert (Ed : u_zone n t = d) by congruence. rewrite <- Ed. unfold u_zone. pose proof (R n t) as A. pose proof (R n RT_CNAME) as B.
    destruct (D_u n t); [|apply A; discriminate]. destruct (D_u n RT_CNAME); [exact No|apply B; discriminate].
  - assert (Ed : u_root n t = d) by congruence. rewrite <- Ed. unfold u_root.
    destruct (is_in_zone n com); [|destruct (is_in_zone n org); [|destruct (is_in_zone n net); [|exact No]]]; apply checked_bytes; vm_compute; reflexivity.
Qed.
Lemma u_env_ok : env_ok plain_record u_env.
Proof.
  split; cbn [u_env ev_now ev_now' ev_net ev_id ev_others].
  - intros i. split; apply N.le_refl.
  - intros i. vm_compute. reflexivity.
  - intros i a x d. destruct (decode_message Release x) as [[m|e]|k|]; try discriminate. destruct (m_questions m) as [|q qs]; [discriminate|]. apply u_bytes.
  - intros i. unfold is_u16. lia.
  - intros i c Hc. exact Hc.
Qed.

(** An alias in net. for a name in org.: the server of org. is found by looking up its
    address in com., of which a server is dead and another one refuses. Also a lookup of the NS
    records of org. does no harm. *)
Definition u_questions : list (name * rtype) := [(s2b "b.net.", RT_A); (org, RT_NS); (s2b "a.org.", RT_A); (s2b "x.org.", RT_A); (s2b "x.com.", RT_A)].
Theorem C78_nonvacuous_glueless :
  env_ok plain_record u_env /\ (forall n, (ev_now' (u_env n) < ev_now (u_env n) + SECOND)%N) /\ healthy Release u_env D_u Y_u 0 (3600 * SECOND) (max_retries conf0) (max_ns conf0) /\ others_true u_env D_u Y_u 0 (3600 * SECOND) /\
  cache_ok plain_record 0 (w_cache world0) /\ cache_true D_u Y_u 0 (3600 * SECOND) (w_cache world0) /\ no_follow conf0 = false /\
  Forall (fun qk => fair_question D_u conf0 (fst qk) (snd qk) /\ leaves_no_trap D_u Y_u (fst qk) (snd qk) /\ (snd qk = RT_CNAME -> others_leave u_env (fst qk))) u_questions /\
  (256 < 260 /\ forall z, D_u z RT_NS <> [] -> 256 + depth Y_u z < 260) /\ (forall m, (ev_now' (u_env m) < 3600 * SECOND)%N) /\
  (** The layout is not trivial: no address of a server of org. is known beforehand. *)
  depth Y_u org = 1 /\ broken Release u_env D_u com h_dead /\ broken Release u_env D_u com h_mute /\
  map shown (fst (lookups Release u_env conf0 260 u_questions world0)) =
    [Some (map bare (u_c ++ u_a), false); Some (map bare u_org, false); Some (map bare u_a, false); Some ([], true); Some ([], true)].
Proof.
  split; [exact u_env_ok|]. split; [intros n; vm_compute; reflexivity|]. split; [exact (u_healthy Release)|].
  split; [intros n c _ Hc; split; [exact Hc|intros z h _ Hh; exact Hh]|]. split; [apply world0_ok|]. split; [apply empty_true|]. split; [reflexivity|].
  assert (A : leads D_u (s2b "a.org.") RT_A [] u_a) by (change u_a with (D_u (s2b "a.org.") RT_A); apply L_here; discriminate).
  assert (F : forall q k cs rs, leads D_u q k cs rs -> k = RT_A \/ k = RT_NS -> sendable_b q = true -> length cs < 5 -> fair_question D_u conf0 q k).
  { intros q k cs rs Hl Hk Hs Hc. split; [now apply sendable_b_ok|]. split; [unfold usable_type; destruct Hk as [-> | ->]; tauto|]. exists cs, rs. split; [exact Hl|exact Hc]. }
  split.
  assert (G : leads D_u org RT_NS [] u_org) by (change u_org with (D_u org RT_NS); apply L_here; discriminate).
  { unfold u_questions. repeat (apply Forall_cons; [cbn [fst snd]; split; [|split; [try (intros X; discriminate X)|intros X; discriminate X]]|]); [| | | | | |apply Forall_nil].
    - apply (F _ _ u_c u_a); [eapply L_alias; [reflexivity|reflexivity|reflexivity|exact A]|tauto|reflexivity|cbn; lia].
    - apply (F _ _ [] u_org); [exact G|tauto|reflexivity|cbn; lia].
    - intros _ cs rs r Hl Hr. destruct (leads_unique _ _ _ _ _ G _ _ Hl) as (_ & Er). rewrite Er in Hr. destruct Hr as [<-|[]]. apply Nat.ltb_lt. reflexivity.
    - apply (F _ _ [] u_a); [exact A|tauto|reflexivity|cbn; lia].
    - apply (F _ _ [] []); [apply L_nothing; reflexivity|tauto|reflexivity|cbn; lia].
    - apply (F _ _ [] []); [apply L_nothing; reflexivity|tauto|reflexivity|cbn; lia]. }
  split; [split; [lia|intros z Hz; apply u_zones in Hz as [->|[->| ->]]; apply Nat.ltb_lt; reflexivity]|]. split; [intros m; vm_compute; reflexivity|]. split; [reflexivity|].
  split; [apply (u_broken Release); tauto|]. split; [apply (u_broken Release); tauto|]. vm_compute. reflexivity.
Qed.
Print Assumptions C78_nonvacuous_glueless.
