(** A small domain name system that is healthy (C78), and what goes wrong in others. *)
From Coq Require Import Permutation.
From Verif Require Import Base Types Name NameSpec NameProofs Codec CodecSpec CodecWrite CodecMessage PropCodec1 Zone ZoneSpec NsSpec PropNs Cache Resolver ResolverLists ResolverSpec ResolverInv ResolverRun ResolverFacts ResolverEx PropResolver1 PropResolver2 PropResolver3 PropResolver5 ResolverStays PropResolver7 PropTalk HealthSpec HealthRun PropHealth.

(** The zone com. with the server ns.com. (5.5.5.5), an address and an alias. The address of
    the server is valid for [gl] seconds, everything else for an hour. *)
Definition com : name := s2b "com.".
Definition ex_ns : record := rec_ com 3600 (D_NS (s2b "ns.com.")).
Definition ex_glue (gl : N) : record := rec_ (s2b "ns.com.") gl (D_A [5; 5; 5; 5]%N).
Definition ex_a : record := rec_ (s2b "a.com.") 3600 (D_A [1; 2; 3; 4]%N).
Definition ex_c : record := rec_ (s2b "b.com.") 3600 (D_CNAME (s2b "a.com.")).
Definition ex_recs (gl : N) : list record := [ex_ns; ex_glue gl; ex_a; ex_c].
Definition D_ex : directory := fun n t => owned n t (ex_recs 3600).

Definition the_record (gl : N) (n : name) (t : rtype) : option record := find (fun r => bytes_eqb (r_node r) n && rtype_eqb (record_type r) t) (ex_recs gl).
(** A server of com.: the record, the alias, or nothing. *)
Definition nothing_there : list N := packet RC_NxDomain true [] [] [].
Definition com_server (gl : N) (n : name) (t : rtype) : list N :=
  match the_record gl n t with
  | Some r => packet RC_NoError true [r] [] []
  | None => match the_record gl n RT_CNAME with Some r => packet RC_NoError true [r] [] [] | None => nothing_there end
  end.
(** A root server: the servers of com., or nothing. *)
Definition root_server (gl : N) (n : name) (t : rtype) : list N :=
  if is_in_zone n com then packet RC_NoError false [] [ex_ns] [ex_glue gl] else nothing_there.
(** The servers at all addresses; if [flat], the root servers are servers of com. too. *)
Definition ex_net (gl : N) (flat : bool) (a x : list N) : option (list N) :=
  match decode_message Release x with
  | Done (Ok m) => match m_questions m with
      | q :: _ => Some (if flat || bytes_eqb a [5; 5; 5; 5]%N then com_server gl (q_node q) (q_type q) else root_server gl (q_node q) (q_type q))
      | [] => None
      end
  | _ => None
  end.
Definition ex_env_with (oth : nat -> rcache -> rcache) (gl : N) (flat : bool) (time : nat -> N) : environment := fun i => mkEv (time i) (time i) (oth i) 7 (ex_net gl flat).
Definition ex_env : N -> bool -> (nat -> N) -> environment := ex_env_with (fun _ c => c).

Definition says (p : profile) (d : list N) (rc : rcode) (aa : bool) (ans aus ads : list record) : Prop :=
  exists m, decode_message p (firstn 512 d) = Done (Ok m) /\ h_id (m_header m) = 7%N /\ h_rcode (m_header m) = rc /\ h_aa (m_header m) = aa /\ m_answers m = map normal ans /\ m_authorities m = map normal aus /\ m_additionals m = map normal ads.
Ltac say p0 := destruct p0; (eexists; split; [vm_compute; reflexivity|]; repeat split; vm_compute; reflexivity).
Lemma says_nothing : forall p0, says p0 nothing_there RC_NxDomain true [] [] []. Proof. intros p0. say p0. Qed.
Lemma says_record : forall p0 gl r, gl = 3600%N \/ gl = 60%N -> In r (ex_recs gl) -> says p0 (packet RC_NoError true [r] [] []) RC_NoError true [r] [] [].
Proof. intros p0 gl r [-> | ->] Hr; cbn [ex_recs In] in Hr; (destruct Hr as [<-|[<-|[<-|[<-|[]]]]]; say p0). Qed.
Lemma says_referral : forall p0 gl, gl = 3600%N \/ gl = 60%N -> says p0 (packet RC_NoError false [] [ex_ns] [ex_glue gl]) RC_NoError false [] [ex_ns] [ex_glue gl].
Proof. intros p0 gl [-> | ->]; say p0. Qed.

Lemma the_record_some : forall gl n t r, the_record gl n t = Some r -> In r (ex_recs gl) /\ r_node r = n /\ record_type r = t.
Proof. intros gl n t r H. apply find_some in H as (H1 & H2). apply owned_test in H2. tauto. Qed.
Lemma D_in : forall n t r, In r (D_ex n t) -> In r (ex_recs 3600) /\ r_node r = n /\ record_type r = t.
Proof. intros n t r H. apply owned_in in H. tauto. Qed.
Lemma the_record_D : forall gl n t, match the_record gl n t with Some r => map bare (D_ex n t) = [bare r] | None => D_ex n t = [] end.
Proof.
  intros gl n t. unfold the_record, D_ex, owned, ex_recs. cbn [find filter].
  change (r_node (ex_glue gl)) with (r_node (ex_glue 3600)). change (record_type (ex_glue gl)) with (record_type (ex_glue 3600)).
  destruct (bytes_eqb (r_node ex_ns) n) eqn:E1; cbn [andb].
  { apply bytes_eqb_eq in E1. subst n. cbn. destruct (rtype_eqb RT_NS t) eqn:E; reflexivity. }
  destruct (bytes_eqb (r_node (ex_glue 3600)) n) eqn:E2; cbn [andb].
  { apply bytes_eqb_eq in E2. subst n. cbn. destruct (rtype_eqb RT_A t) eqn:E; reflexivity. }
  destruct (bytes_eqb (r_node ex_a) n) eqn:E3; cbn [andb].
  { apply bytes_eqb_eq in E3. subst n. cbn. destruct (rtype_eqb RT_A t) eqn:E; reflexivity. }
  destruct (bytes_eqb (r_node ex_c) n) eqn:E4; cbn [andb]; [|reflexivity].
  apply bytes_eqb_eq in E4. subst n. cbn. destruct (rtype_eqb RT_CNAME t) eqn:E; reflexivity.
Qed.
Lemma ex_directory_ok : directory_ok D_ex.
Proof.
  split.
  - intros n t r H. now apply D_in in H.
  - intros n H. destruct (D_ex n RT_CNAME) as [|c l] eqn:E; [congruence|]. assert (Hc : In c (D_ex n RT_CNAME)) by (rewrite E; now left). apply D_in in Hc as (Hc & En & Et).
    destruct Hc as [<-|[<-|[<-|[<-|[]]]]]; try discriminate Et. subst n. split.
    + exists ex_c. rewrite <- E. reflexivity.
    + intros t Ht. destruct (D_ex (r_node ex_c) t) as [|x l'] eqn:Ex; [reflexivity|]. exfalso. assert (Hx : In x (D_ex (r_node ex_c) t)) by (rewrite Ex; now left). apply D_in in Hx as (Hx & Xn & Xt).
      destruct Hx as [<-|[<-|[<-|[<-|[]]]]]; try discriminate Xn. apply Ht. now rewrite <- Xt.
  - intros n c t Hc Et. apply D_in in Hc as (Hc & _). destruct Hc as [<-|[<-|[<-|[<-|[]]]]]; try discriminate Et. injection Et as <-. apply sendable_b_ok. reflexivity.
  - intros z. assert (H : forall gl, match the_record gl z RT_NS with Some r => map bare (D_ex z RT_NS) = [bare r] | None => D_ex z RT_NS = [] end) by (intros; apply the_record_D).
    specialize (H 3600%N). destruct (the_record 3600 z RT_NS).
    + assert (L : length (D_ex z RT_NS) = 1) by (rewrite <- (map_length bare), H; reflexivity). destruct (D_ex z RT_NS) as [|x [|y l]]; try discriminate L. cbn. constructor; [intros []|constructor].
    + rewrite H. constructor.
Qed.
(** Whoever refers to com. sends the address of ns.com. *)
Definition Y_ex : layout := mkLayout (fun _ => 0) (fun z h => z = com /\ h = s2b "ns.com.").
Lemma D_serves : forall z h, serves D_ex z h -> z = com /\ h = s2b "ns.com.".
Proof. intros z h (r & Hr & Eh). apply D_in in Hr as (Hr & Hz & _). destruct Hr as [<-|[<-|[<-|[<-|[]]]]]; try discriminate Eh. injection Eh as <-. now split. Qed.
Lemma D_ns : forall z, D_ex z RT_NS <> [] -> z = com.
Proof. intros z H. destruct (D_ex z RT_NS) as [|x l] eqn:E; [congruence|]. assert (Hx : In x (D_ex z RT_NS)) by (rewrite E; now left). apply D_in in Hx as (Hx & <- & Et). destruct Hx as [<-|[<-|[<-|[<-|[]]]]]; try discriminate Et. reflexivity. Qed.
Lemma com_served : serves D_ex com (s2b "ns.com."). Proof. exists ex_ns. split; [now left|reflexivity]. Qed.

Section Net.
  Context (p : profile) (oth : nat -> rcache -> rcache) (gl : N) (flat : bool) (time : nat -> N) (Hgl : gl = 3600%N \/ gl = 60%N).
  Notation env := (ex_env_with oth gl flat time).
  Definition ex_reply (a : list N) (n : name) (t : rtype) : list N := if flat || bytes_eqb a [5; 5; 5; 5]%N then com_server gl n t else root_server gl n t.
  Lemma asked : forall a n t i, sendable n -> usable_type t -> ev_net (env i) a (query_at env n t i) = Some (ex_reply a n t).
  Proof.
    intros a n t i Hn Ht. cbn [ex_env_with ev_net]. unfold ex_net.
    assert (E : decode_message Release (query_at env n t i) = Done (Ok (build_dns_request 7 n t))).
    { exact (req_decodes Release (env_ex ex_zones) ex_zones n t [] 1 world0 Hn Ht (le_n _) ltac:(unfold is_u16; cbn; lia) (fun _ => eq_refl)). }
    rewrite E. reflexivity.
  Qed.
  Lemma com_says : forall n t, match the_record gl n t with
    | Some r => says p (com_server gl n t) RC_NoError true [r] [] []
    | None => match the_record gl n RT_CNAME with Some r => says p (com_server gl n t) RC_NoError true [r] [] [] | None => says p (com_server gl n t) RC_NxDomain true [] [] [] end
    end.
  Proof.
    intros n t. unfold com_server. destruct (the_record gl n t) as [r|] eqn:E; [apply (says_record p gl); [exact Hgl|now apply the_record_some in E]|].
    destruct (the_record gl n RT_CNAME) as [r|] eqn:E'; [apply (says_record p gl); [exact Hgl|now apply the_record_some in E']|apply says_nothing].
  Qed.
  Lemma root_says : forall n t, if is_in_zone n com then says p (root_server gl n t) RC_NoError false [] [ex_ns] [ex_glue gl] else says p (root_server gl n t) RC_NxDomain true [] [] [].
  Proof. intros n t. unfold root_server. destruct (is_in_zone n com); [now apply says_referral|apply says_nothing]. Qed.
  Lemma reply_says : forall a n t, exists rc aa ans aus ads, says p (ex_reply a n t) rc aa ans aus ads.
  Proof.
    intros a n t. unfold ex_reply. destruct (flat || _).
    - pose proof (com_says n t) as H. destruct (the_record gl n t) as [r|]; [|destruct (the_record gl n RT_CNAME) as [r|]]; eexists _, _, _, _, _; exact H.
    - pose proof (root_says n t) as H. destruct (is_in_zone n com); eexists _, _, _, _, _; exact H.
  Qed.
  Lemma ex_decodes : forall i a x d, ev_net (env i) a x = Some d -> exists r, decode_message p (firstn 512 d) = Done r.
  Proof.
    intros i a x d. cbn [ex_env_with ev_net]. unfold ex_net. destruct (decode_message Release x) as [[m|e]|k|]; try discriminate. destruct (m_questions m) as [|q qs]; [discriminate|].
    fold (ex_reply a (q_node q) (q_type q)). intros H. assert (Ed : ex_reply a (q_node q) (q_type q) = d) by congruence. rewrite <- Ed.
    destruct (reply_says a (q_node q) (q_type q)) as (rc & aa & ans & aus & ads & m' & E & _). rewrite E. now eexists.
  Qed.
  Lemma ex_server : forall T a z, (forall n t, sendable n -> usable_type t -> within n z -> forall m, decode_message p (firstn 512 (ex_reply a n t)) = Done (Ok m) -> honest D_ex Y_ex m n t z /\ lasting Y_ex (time 0) T m) ->
    good_server p env D_ex Y_ex (time 0) T 2 a z.
  Proof.
    intros T a z H n t Hn Ht Hw. split; [intros i d; apply ex_decodes|]. split.
    - intros i m (d & E1 & E2 & _). rewrite (asked a n t i Hn Ht) in E1. injection E1 as <-. now apply H.
    - intros i. destruct (reply_says a n t) as (rc & aa & ans & aus & ads & m & E & Ei & _). exists 0, m. split; [lia|]. rewrite Nat.add_0_r. exists (ex_reply a n t). split; [now apply asked|]. split; [exact E|exact Ei].
  Qed.
  Lemma bare_normal : forall r, bare (normal r) = bare r. Proof. reflexivity. Qed.
  Lemma owned_one : forall n t r, r_node r = n -> record_type r = t -> owned n t [r] = [r].
  Proof. intros n t r <- <-. cbn. now rewrite bytes_eqb_refl, (proj2 (rtype_eqb_eq _ _) eq_refl). Qed.
  Lemma same_one : forall l r, map bare l = [bare r] -> same [normal r] l.
  Proof. intros l r E. unfold same. rewrite E. apply Permutation_refl. Qed.
  (** The addresses last as long as their TTLs say. *)
  Lemma ex_lasting : forall T m, (T <= time 0 + gl * SECOND)%N -> (forall r, In r (m_answers m ++ m_additionals m) -> exists r', In r' (ex_recs gl) /\ r = normal r') -> lasting Y_ex (time 0) T m.
  Proof.
    intros T m HT H z r Hr Ht _. destruct (H r Hr) as (r' & Hr' & ->). cbn [normal r_ttl]. destruct Hr' as [<-|[<-|[<-|[<-|[]]]]]; try discriminate Ht; cbn [ex_glue ex_a rec_ r_ttl]; [exact HT|].
    destruct Hgl as [-> | ->]; unfold SECOND in *; lia.
  Qed.
  Lemma com_honest : forall T n t z m, (T <= time 0 + gl * SECOND)%N -> decode_message p (firstn 512 (com_server gl n t)) = Done (Ok m) -> honest D_ex Y_ex m n t z /\ lasting Y_ex (time 0) T m.
  Proof.
    intros T n t z m HT E. pose proof (com_says n t) as S1. pose proof (the_record_D gl n t) as R1. pose proof (the_record_D gl n RT_CNAME) as R2.
    destruct (the_record gl n t) as [r|] eqn:E1.
    - destruct S1 as (m' & Em & _ & Hrc & _ & Ha & _ & Had). rewrite E in Em. injection Em as <-. apply the_record_some in E1 as (Hin & Hn & Ht). cbn [map] in *. split.
      + apply H_answer; [exact Hrc|intros C; rewrite C in R1; discriminate R1|]. rewrite Ha, owned_one; [|exact Hn|exact Ht]. now apply same_one.
      + apply ex_lasting; [exact HT|]. rewrite Ha, Had. cbn. intros x [<-|[]]. now exists r.
    - destruct (the_record gl n RT_CNAME) as [c|] eqn:E2.
      + destruct S1 as (m' & Em & _ & Hrc & _ & Ha & Hau & Had). rewrite E in Em. injection Em as <-. apply the_record_some in E2 as (Hin & Hn & Ht). cbn [map] in *.
        assert (Ec : c = ex_c) by (destruct Hin as [<-|[<-|[<-|[<-|[]]]]]; try discriminate Ht; reflexivity). subst c n.
        assert (Tc : t <> RT_CNAME). { intros ->. rewrite R1 in R2. discriminate R2. } split.
        * apply (H_alias D_ex Y_ex m _ t z ex_c (s2b "a.com.")); [exact Hrc|exact R1| |reflexivity|reflexivity| |].
          -- rewrite Ha. cbn. destruct (rtype_eqb RT_CNAME t) eqn:X; [apply rtype_eqb_eq in X; congruence|reflexivity].
          -- rewrite Ha, owned_one; [|reflexivity|reflexivity]. apply same_one. reflexivity.
          -- left. rewrite Hau. intros r [].
        * apply ex_lasting; [exact HT|]. rewrite Ha, Had. cbn. intros x [<-|[]]. exists ex_c. cbn. tauto.
      + destruct S1 as (m' & Em & _ & Hrc & Haa & Ha & Hau & Had). rewrite E in Em. injection Em as <-. cbn [map] in *. split.
        * now apply H_nothing.
        * apply ex_lasting; [exact HT|]. rewrite Ha, Had. intros x [].
  Qed.
  Lemma root_honest : forall T n t m, sendable n -> (T <= time 0 + gl * SECOND)%N -> decode_message p (firstn 512 (root_server gl n t)) = Done (Ok m) -> honest D_ex Y_ex m n t [46%N] /\ lasting Y_ex (time 0) T m.
  Proof.
    intros T n t m Hn HT E. pose proof (root_says n t) as S1. destruct (is_in_zone n com) eqn:Z.
    - destruct S1 as (m' & Em & _ & Hrc & _ & Ha & Hau & Had). rewrite E in Em. injection Em as <-. cbn [map] in *. split.
      + apply (H_referral D_ex Y_ex m n t [46%N] com); rewrite ?Ha; try reflexivity; [exact Hrc| |cbn; lia|].
        * apply within_ok; [now apply sendable_accepted|split; [now apply accepted_b|discriminate]|exact Z].
        * split; [discriminate|]. split; [rewrite Hau; apply Permutation_refl|]. split.
          -- intros h Hh. apply D_serves in Hh as (_ & ->). left. rewrite Had. split; [discriminate|apply Permutation_refl].
          -- intros _. exists (s2b "ns.com."). split; [exact com_served|]. split; [now split|]. rewrite Had. discriminate.
      + apply ex_lasting; [exact HT|]. rewrite Ha, Had. intros x [<-|[]]. exists (ex_glue gl). cbn. tauto.
    - destruct S1 as (m' & Em & _ & Hrc & Haa & Ha & Hau & Had). rewrite E in Em. injection Em as <-. cbn [map] in *.
      assert (No : forall t', D_ex n t' = []). { intros t'. destruct (D_ex n t') as [|x l] eqn:Ex; [reflexivity|]. exfalso. assert (Hx : In x (D_ex n t')) by (rewrite Ex; now left). apply D_in in Hx as (Hx & <- & _).
        destruct Hx as [<-|[<-|[<-|[<-|[]]]]]; discriminate Z. } split.
      + now apply H_nothing.
      + apply ex_lasting; [exact HT|]. rewrite Ha, Had. intros x [].
  Qed.
  Lemma ex_works : forall T h, (T <= time 0 + gl * SECOND)%N -> h = s2b "ns.com." -> works p env D_ex Y_ex (time 0) T 2 com h.
  Proof.
    intros T h HT -> g a Hg Ea. apply ex_server. intros n t Hn Ht _ m. unfold ex_reply.
    apply D_in in Hg as (Hg & Gn & _). destruct Hg as [<-|[<-|[<-|[<-|[]]]]]; try discriminate Ea; try discriminate Gn. injection Ea as <-.
    rewrite orb_true_r. now apply com_honest.
  Qed.
  Lemma ex_root : forall T h a, (T <= time 0 + gl * SECOND)%N -> In (h, a) ROOT_SERVERS -> good_server p env D_ex Y_ex (time 0) T 2 a [46%N].
  Proof.
    intros T h a HT Hin. apply ex_server. intros n t Hn Ht _ m. unfold ex_reply. assert (E : bytes_eqb a [5; 5; 5; 5]%N = false).
    { assert (X : forallb (fun x => negb (bytes_eqb (snd x) [5; 5; 5; 5]%N)) ROOT_SERVERS = true) by reflexivity. rewrite forallb_forall in X. specialize (X _ Hin). now apply negb_true_iff in X. }
    rewrite E, orb_false_r. destruct flat; [apply com_honest|apply root_honest]; assumption.
  Qed.
  Lemma ex_healthy : forall T servers, 0 < servers -> (T <= time 0 + gl * SECOND)%N -> healthy p env D_ex Y_ex (time 0) T 2 servers.
  Proof.
    intros T servers Hs HT. split.
    - exact ex_directory_ok.
    - exists []. split; [exact Hs|]. apply Forall_forall. intros [h a] Hin. left. exact (ex_root T h a HT Hin).
    - assert (X : exists s l, ROOT_SERVERS = s :: l) by (eexists _, _; reflexivity). destruct X as ([h a] & l & X). exists (h, a). assert (Hin : In (h, a) ROOT_SERVERS) by (rewrite X; now left). split; [exact Hin|exact (ex_root T h a HT Hin)].
    - intros z. exists []. split; [exact Hs|]. intros h Hh. apply D_serves in Hh as (-> & Hh). left. now apply ex_works.
    - intros z Hz. apply D_ns in Hz as ->. exists (s2b "ns.com."). split; [exact com_served|now apply ex_works].
    - intros z h (-> & Hh). now apply ex_works.
    - intros z h H. cbn in H. lia.
  Qed.
End Net.

Lemma ex_bytes : forall gl flat a n t, gl = 3600%N \/ gl = 60%N -> is_bytes (ex_reply gl flat a n t).
Proof.
  intros gl flat a n t Hgl. unfold ex_reply, com_server, root_server.
  assert (No : is_bytes nothing_there) by (apply checked_bytes; vm_compute; reflexivity).
  assert (R : forall n t r, the_record gl n t = Some r -> is_bytes (packet RC_NoError true [r] [] [])).
  { intros n' t' r H. apply the_record_some in H as (H & _). destruct Hgl as [-> | ->]; (destruct H as [<-|[<-|[<-|[<-|[]]]]]; apply checked_bytes; vm_compute; reflexivity). }
  destruct (flat || _).
  - destruct (the_record gl n t) as [r|] eqn:E; [exact (R _ _ _ E)|]. destruct (the_record gl n RT_CNAME) as [r|] eqn:E'; [exact (R _ _ _ E')|exact No].
  - destruct (is_in_zone n com); [|exact No]. destruct Hgl as [-> | ->]; apply checked_bytes; vm_compute; reflexivity.
Qed.
Lemma ex_env_with_ok : forall oth gl flat time, gl = 3600%N \/ gl = 60%N -> (forall i, time i <= time (S i))%N -> (forall i, time i < 1000 * SECOND)%N ->
  (forall i c, cache_ok plain_record (time i) c -> cache_ok plain_record (time i) (oth i c)) -> env_ok plain_record (ex_env_with oth gl flat time).
Proof.
  intros oth gl flat time Hgl Hm Hb Ho. split; cbn [ex_env_with ev_now ev_now' ev_net ev_id ev_others].
  - intros i. split; [lia|apply Hm].
  - intros i. specialize (Hb i). assert (X : (1000 * SECOND + 4294967296 * SECOND < INSTANT_END)%N) by (vm_compute; reflexivity). lia.
  - intros i a x d. unfold ex_net. destruct (decode_message Release x) as [[m|e]|k|]; try discriminate. destruct (m_questions m) as [|q qs]; [discriminate|].
    fold (ex_reply gl flat a (q_node q) (q_type q)). intros H. assert (Ed : ex_reply gl flat a (q_node q) (q_type q) = d) by congruence. rewrite <- Ed. now apply ex_bytes.
  - intros i. unfold is_u16. lia.
  - exact Ho.
Qed.
Lemma ex_env_ok : forall gl flat time, gl = 3600%N \/ gl = 60%N -> (forall i, time i <= time (S i))%N -> (forall i, time i < 1000 * SECOND)%N -> env_ok plain_record (ex_env gl flat time).
Proof. intros gl flat time H1 H2 H3. apply ex_env_with_ok; auto. Qed.
Lemma ex_others : forall gl flat time start T, others_true (ex_env gl flat time) D_ex Y_ex start T.
Proof. intros gl flat time start T n c _ Hc. split; [exact Hc|]. intros z h _ Hh. exact Hh. Qed.
Lemma empty_true : forall D Y start T, cache_true D Y start T (w_cache world0).
Proof. intros D Y start T k exp rs H. discriminate H. Qed.

(** What a lookup returned, without TTLs. *)
Definition shown (r : exec (result response lerr)) : option (list record * bool) := match r with Done (Ok x) => Some (map bare (x_answers x), x_none x) | _ => None end.
Definition now0 : nat -> N := fun _ => 0%N.

Lemma ex_fair : forall q kind cs rs, leads D_ex q kind cs rs -> sendable_b q = true -> usable_type kind -> length cs < 5 -> fair_question D_ex conf0 q kind.
Proof. intros q kind cs rs Hl Hs Hk Hc. split; [now apply sendable_b_ok|]. split; [exact Hk|]. exists cs, rs. split; [exact Hl|exact Hc]. Qed.
Lemma ex_leads : leads D_ex (s2b "a.com.") RT_A [] [ex_a] /\ leads D_ex (s2b "b.com.") RT_A [ex_c] [ex_a] /\ leads D_ex (s2b "x.com.") RT_A [] [] /\ leads D_ex (s2b "x.org.") RT_A [] [].
Proof.
  assert (A : leads D_ex (s2b "a.com.") RT_A [] [ex_a]) by (change [ex_a] with (D_ex (s2b "a.com.") RT_A); apply L_here; discriminate). split; [exact A|].
  split; [eapply L_alias; [reflexivity|reflexivity|reflexivity|exact A]|]. split; apply L_nothing; reflexivity.
Qed.
Definition ex_questions : list (name * rtype) := [(s2b "b.com.", RT_A); (s2b "a.com.", RT_A); (s2b "x.com.", RT_A); (s2b "x.org.", RT_A); (s2b "b.com.", RT_CNAME)].
Theorem C78_nonvacuous :
  let env := ex_env 3600 false now0 in
  env_ok plain_record env /\ (forall n, (ev_now' (env n) < ev_now (env n) + SECOND)%N) /\ healthy Release env D_ex Y_ex 0 (3600 * SECOND) (max_retries conf0) (max_ns conf0) /\ others_true env D_ex Y_ex 0 (3600 * SECOND) /\
  cache_ok plain_record 0 (w_cache world0) /\ cache_true D_ex Y_ex 0 (3600 * SECOND) (w_cache world0) /\ no_follow conf0 = false /\
  Forall (fun qk => fair_question D_ex conf0 (fst qk) (snd qk) /\ leaves_no_trap D_ex Y_ex (fst qk) (snd qk) /\ (snd qk = RT_CNAME -> others_leave env (fst qk))) ex_questions /\
  (256 < 260 /\ forall z, D_ex z RT_NS <> [] -> 256 + depth Y_ex z < 260) /\ (forall m, (ev_now' (env m) < 3600 * SECOND)%N) /\
  map shown (fst (lookups Release env conf0 260 ex_questions world0)) =
    [Some ([bare ex_c; bare ex_a], false); Some ([bare ex_a], false); Some ([], true); Some ([], true); Some ([bare ex_c], false)].
Proof.
  intros env. split; [apply ex_env_ok; [now left|intros; apply N.le_refl|intros; vm_compute; reflexivity]|]. split; [intros n; vm_compute; reflexivity|].
  split; [apply (ex_healthy Release (fun _ c => c) 3600 false now0 (or_introl eq_refl)); [cbn; lia|cbn; apply N.le_refl]|]. split; [apply ex_others|]. split; [apply world0_ok|]. split; [apply empty_true|]. split; [reflexivity|].
  destruct ex_leads as (A & B & C & E). split.
  { unfold ex_questions. constructor; [|constructor; [|constructor; [|constructor; [|constructor; [|constructor]]]]]; (split; [|split; [intros X; discriminate X|intros _ i c Hc; exact Hc]]); cbn [fst snd]; [apply (ex_fair _ _ _ _ B)|apply (ex_fair _ _ _ _ A)|apply (ex_fair _ _ _ _ C)|apply (ex_fair _ _ _ _ E)|apply (ex_fair _ _ [] [ex_c])]; try reflexivity; try (unfold usable_type; tauto); try (cbn; lia).
    change [ex_c] with (D_ex (s2b "b.com.") RT_CNAME); apply L_here; discriminate. }
  split; [split; [lia|intros z _; cbn [Y_ex depth]; lia]|]. split; [intros m; vm_compute; reflexivity|]. vm_compute. reflexivity.
Qed.
Print Assumptions C78_nonvacuous.

(** Looking up NS records spoils later lookups: where the root servers serve com. as well,
    the NS records of com. are answered (and cached) without addresses; whoever then looks
    up a name in com. gets an error, although the DNS is healthy. *)
Theorem C78_refuted_after_ns_lookup :
  let env := ex_env 3600 true now0 in
  env_ok plain_record env /\ healthy Release env D_ex Y_ex 0 (3600 * SECOND) (max_retries conf0) (max_ns conf0) /\ (forall m, (ev_now' (env m) < 3600 * SECOND)%N) /\
  (forall cs rs, leads D_ex (s2b "a.com.") RT_A cs rs -> cs = [] /\ rs = [ex_a]) /\
  map shown (fst (lookups Release env conf0 260 [(com, RT_NS); (s2b "a.com.", RT_A)] world0)) = [Some ([bare ex_ns], false); None] /\
  nth_error (fst (lookups Release env conf0 260 [(com, RT_NS); (s2b "a.com.", RT_A)] world0)) 1 = Some (Done (Err (L_Sub (L_Sub L_ZonesLoop)))) /\
  map shown (fst (lookups Release env conf0 260 [(s2b "a.com.", RT_A)] world0)) = [Some ([bare ex_a], false)].
Proof.
  intros env. split; [apply ex_env_ok; [now left|intros; apply N.le_refl|intros; vm_compute; reflexivity]|].
  split; [apply (ex_healthy Release (fun _ c => c) 3600 true now0 (or_introl eq_refl)); [cbn; lia|cbn; apply N.le_refl]|]. split; [intros m; vm_compute; reflexivity|].
  split; [intros cs rs H; exact (leads_unique _ _ _ _ _ (proj1 ex_leads) _ _ H)|].
  split; [vm_compute; reflexivity|]. split; vm_compute; reflexivity.
Qed.
Print Assumptions C78_refuted_after_ns_lookup.

(** Addresses that expire before the NS records: after 100 seconds the address of ns.com.
    (valid for 60) is gone, and every lookup in com. fails until its NS records expire too. *)
Definition later (k : nat) : nat -> N := fun i => if i <? k then 0%N else (100 * SECOND)%N.
Theorem C78_refuted_expired_glue :
  exists k w1, snd (lookups Release (ex_env 60 false (later k)) conf0 260 [(s2b "a.com.", RT_A)] world0) = w1 /\ w_n w1 = k /\
  env_ok plain_record (ex_env 60 false (later k)) /\ healthy Release (ex_env 60 false (later k)) D_ex Y_ex 0 0 (max_retries conf0) (max_ns conf0) /\
  map shown (fst (lookups Release (ex_env 60 false (later k)) conf0 260 [(s2b "a.com.", RT_A)] world0)) = [Some ([bare ex_a], false)] /\
  fst (lookups Release (ex_env 60 false (later k)) conf0 260 [(s2b "b.com.", RT_A)] w1) = [Done (Err (L_Sub (L_Sub L_ZonesLoop)))] /\
  map shown (fst (lookups Release (ex_env 60 false (fun _ => 100 * SECOND)%N) conf0 260 [(s2b "b.com.", RT_A)] world0)) = [Some ([bare ex_c; bare ex_a], false)].
Proof.
  let v := eval vm_compute in (w_n (snd (lookups Release (ex_env 60 false now0) conf0 260 [(s2b "a.com.", RT_A)] world0))) in set (k := v); exists k. eexists. split; [reflexivity|]. split; [vm_compute; reflexivity|].
  split; [apply ex_env_ok; [now right| |]|].
  { intros i. unfold later. destruct (Nat.ltb_spec i k), (Nat.ltb_spec (S i) k); lia. }
  { intros i. unfold later. destruct (i <? k); unfold SECOND; lia. }
  split; [apply (ex_healthy Release (fun _ c => c) 60 false (later k) (or_intror eq_refl)); [cbn; lia|lia]|]. split; [vm_compute; reflexivity|]. split; vm_compute; reflexivity.
Qed.
Print Assumptions C78_refuted_expired_glue.

(** A lookup of type CNAME: if another thread stores the (true) alias between the two cache
    searches, the alias is followed, and the lookup says that there is no such record. *)
Definition ex_store (i : nat) (c : rcache) : rcache := if i =? 1 then mkCache (upd rkey_eqb (c_data c) (s2b "b.com.", RT_CNAME) (Some ((3600 * SECOND)%N, [ex_c]))) (c_poisoned c) else c.
Lemma ex_c_plain : plain_record ex_c.
Proof.
  assert (A : forall n, is_ok (validate_name n) = true -> accepted n) by (intros; now apply accepted_b).
  split; [split; [apply A; reflexivity|]; split; [reflexivity|]; split; [unfold is_u32; cbn; lia|]; apply A; reflexivity|exact I].
Qed.
Theorem C78_refuted_cname_race :
  let env := ex_env_with ex_store 3600 false now0 in
  env_ok plain_record env /\ healthy Release env D_ex Y_ex 0 (3600 * SECOND) (max_retries conf0) (max_ns conf0) /\ others_true env D_ex Y_ex 0 (3600 * SECOND) /\ (forall m, (ev_now' (env m) < 3600 * SECOND)%N) /\
  leads D_ex (s2b "b.com.") RT_CNAME [] [ex_c] /\
  map shown (fst (lookups Release env conf0 260 [(s2b "b.com.", RT_CNAME)] world0)) = [Some ([bare ex_c], true)] /\
  map shown (fst (lookups Release (ex_env 3600 false now0) conf0 260 [(s2b "b.com.", RT_CNAME)] world0)) = [Some ([bare ex_c], false)].
Proof.
  intros env. split.
  { apply ex_env_with_ok; [now left|intros; apply N.le_refl|intros; vm_compute; reflexivity|]. intros i c (H1 & H2). unfold ex_store. destruct (i =? 1); [|now split]. split; [exact H1|]. intros k exp rs. cbn [c_data]. unfold upd.
    destruct (rkey_eqb (s2b "b.com.", RT_CNAME) k) eqn:E; [|apply H2]. apply rkey_eqb_eq in E. intros H. injection H as <- <-. subst k. split; [discriminate|]. split; [constructor; [exact ex_c_plain|constructor]|].
    split; [repeat constructor|]. split; [exists 3600%N; split; [repeat constructor|apply N.le_refl]|]. split; [intros _; repeat constructor|]. now exists ex_c, []. }
  split; [apply (ex_healthy Release ex_store 3600 false now0 (or_introl eq_refl)); [cbn; lia|cbn; apply N.le_refl]|]. split.
  { intros i c _ Hc. cbn [env ex_env_with ev_others]. unfold ex_store. destruct (i =? 1); [|split; [exact Hc|intros z h _ Hh; exact Hh]].
    assert (K : forall h, address_cached (3600 * SECOND) c h -> address_cached (3600 * SECOND) (mkCache (upd rkey_eqb (c_data c) (s2b "b.com.", RT_CNAME) (Some ((3600 * SECOND)%N, [ex_c]))) (c_poisoned c)) h).
    { intros h (exp & rs & E1 & E2). exists exp, rs. split; [|exact E2]. cbn [c_data]. unfold upd. destruct (rkey_eqb _ (h, RT_A)) eqn:E; [apply rkey_eqb_eq in E; discriminate E|exact E1]. }
    split; [|intros z h _; apply K]. intros k exp rs. cbn [c_data]. unfold upd at 1. destruct (rkey_eqb (s2b "b.com.", RT_CNAME) k) eqn:E.
    - apply rkey_eqb_eq in E. intros H _. injection H as _ <-. subst k. split; [apply same_refl|]. discriminate.
    - intros H L. destruct (Hc k exp rs H L) as (X & Y). split; [exact X|]. intros Hk Hd. destruct (Y Hk Hd) as (h & Y1 & Y2 & Y3). exists h. split; [exact Y1|]. split; [exact Y2|now apply K]. }
  split; [intros m; vm_compute; reflexivity|]. split; [change [ex_c] with (D_ex (s2b "b.com.") RT_CNAME); apply L_here; discriminate|]. split; vm_compute; reflexivity.
Qed.
Print Assumptions C78_refuted_cname_race.

(** A name without records of the type: the usual response (no error, no records) makes the
    lookup fail. *)
Theorem C78_refuted_no_data :
  let env := script (fun _ => Some (packet RC_NoError true [] [] [])) in
  env_ok plain_record env /\ fst (lookups Release env conf0 260 [(s2b "a.com.", RT_TXT)] world0) = [Done (Err L_Empty)].
Proof.
  intros env. split; [|vm_compute; reflexivity]. apply script_ok. intros n d H. assert (E : packet RC_NoError true [] [] [] = d) by congruence. rewrite <- E. apply checked_bytes. vm_compute. reflexivity.
Qed.
Print Assumptions C78_refuted_no_data.

(** An alias to a name whose text ends with the zone's name: the zone's servers, 9.9.9.9,
    are asked about a name in another zone, and refuse. Looked up alone, it is found. *)
Definition www : name := s2b "www.example.com.".
Definition cdn : name := s2b "cdn.notexample.com.".
Definition cdn_a : record := rec_ cdn 3600 (D_A [1; 2; 3; 4]%N).
Definition suffix_env : environment := fun _ => mkEv 0 0 (fun c => c) 7 (fun a x =>
  if bytes_eqb a [9; 9; 9; 9]%N then Some (packet RC_Refused false [] [] [])
  else if bytes_eqb x (query_at (ex_env 3600 false now0) cdn RT_A 0) then Some (packet RC_NoError true [cdn_a] [] [])
  else Some (packet RC_NoError true [rec_ www 3600 (D_CNAME cdn)] [rec_ (s2b "example.com.") 3600 (D_NS (s2b "ns.example.com."))] [rec_ (s2b "ns.example.com.") 3600 (D_A [9; 9; 9; 9]%N)])).
Theorem C78_refuted_alias_suffix :
  env_ok plain_record suffix_env /\ ~ within cdn (s2b "example.com.") /\
  fst (lookups Release suffix_env conf0 260 [(www, RT_A)] world0) = [Done (Err (L_RespCode RC_Refused))] /\
  map shown (fst (lookups Release suffix_env conf0 260 [(cdn, RT_A)] world0)) = [Some ([bare cdn_a], false)].
Proof.
  split; [|split; [apply not_within_b; [reflexivity|reflexivity|discriminate|reflexivity]|split; vm_compute; reflexivity]]. split; cbn [suffix_env ev_now ev_now' ev_net ev_id ev_others].
  - intros i. split; apply N.le_refl.
  - intros i. vm_compute. reflexivity.
  - intros i a x d. destruct (bytes_eqb a _); [|destruct (bytes_eqb x _)]; intros H; match type of H with Some ?l = _ => assert (E : l = d) by congruence end; rewrite <- E; apply checked_bytes; vm_compute; reflexivity.
  - intros i. unfold is_u16. lia.
  - intros i c Hc. exact Hc.
Qed.
Print Assumptions C78_refuted_alias_suffix.
