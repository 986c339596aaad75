(** Lemmas about the zone store. *)
From Coq Require Import Permutation.
From Verif Require Import Base Types Name Codec Zone ZoneSpec.

Lemma rtype_eqb_eq : forall a b, rtype_eqb a b = true <-> a = b.
Proof. intros a b. unfold rtype_eqb. destruct (rtype_eq_dec a b); split; intros; congruence. Qed.
Lemma rtype_eqb_refl : forall a, rtype_eqb a a = true.
Proof. intros. now apply rtype_eqb_eq. Qed.

Section MapFacts.
  Context {K V : Type} (eqb : K -> K -> bool).
  Hypothesis eqb_eq : forall a b, eqb a b = true <-> a = b.

  Lemma eqb_refl' : forall a, eqb a a = true.
  Proof. intros. now apply eqb_eq. Qed.
  Lemma eqb_neq : forall a b, eqb a b = false <-> a <> b.
  Proof. intros a b. rewrite <- eqb_eq. destruct (eqb a b); split; congruence. Qed.

  Lemma map_get_none : forall (m : list (K * V)) k, map_get eqb m k = None <-> ~ In k (map fst m).
  Proof.
    induction m as [|[k' v] m IH]; intros k; cbn; [tauto|].
    destruct (eqb k' k) eqn:E.
    - apply eqb_eq in E. split; [congruence|]. intros H. exfalso. apply H. now left.
    - rewrite IH. apply eqb_neq in E. split; intros H; [intros [?|?]|]; tauto.
  Qed.

  Lemma map_get_in : forall (m : list (K * V)) k v, map_get eqb m k = Some v -> In (k, v) m.
  Proof.
    induction m as [|[k' v'] m IH]; intros k v; cbn; [easy|].
    destruct (eqb k' k) eqn:E.
    - apply eqb_eq in E. intros [= <-]. left. congruence.
    - intros H. right. auto.
  Qed.

  Lemma in_map_get : forall (m : list (K * V)) k v, NoDup (map fst m) -> In (k, v) m -> map_get eqb m k = Some v.
  Proof.
    induction m as [|[k' v'] m IH]; intros k v ND H; cbn in *; [easy|].
    inversion_clear ND as [|? ? NI ND']. destruct H as [H|H].
    - injection H as -> ->. now rewrite eqb_refl'.
    - destruct (eqb k' k) eqn:E; auto.
      apply eqb_eq in E. subst. exfalso. apply NI. change k with (fst (k, v)). now apply in_map.
  Qed.

  Lemma map_get_perm : forall (m m' : list (K * V)) k,
      NoDup (map fst m) -> Permutation m m' -> map_get eqb m k = map_get eqb m' k.
  Proof.
    intros m m' k ND P.
    assert (ND' : NoDup (map fst m')).
    { eapply Permutation_NoDup; [|exact ND]. now apply Permutation_map. }
    destruct (map_get eqb m k) as [v|] eqn:E.
    - apply map_get_in in E. symmetry. apply in_map_get; auto. eapply Permutation_in; eauto.
    - symmetry. apply map_get_none. apply map_get_none in E. intros H. apply E.
      eapply Permutation_in; [apply Permutation_sym, Permutation_map|]; eauto.
  Qed.

  Lemma map_get_update : forall (m : list (K * V)) k d f k',
      map_get eqb (map_update eqb m k d f) k' =
      if eqb k k' then Some (f (match map_get eqb m k with Some v => v | None => d end))
      else map_get eqb m k'.
  Proof.
    induction m as [|[k1 v1] m IH]; intros k d f k'; cbn.
    - destruct (eqb k k') eqn:E; reflexivity.
    - destruct (eqb k1 k) eqn:E1; cbn.
      + apply eqb_eq in E1. subst k1. destruct (eqb k k') eqn:E; reflexivity.
      + rewrite IH. destruct (eqb k1 k') eqn:E2; [|reflexivity].
        apply eqb_eq in E2. subst k'.
        destruct (eqb k k1) eqn:E3; [|reflexivity].
        apply eqb_eq in E3. apply eqb_neq in E1. congruence.
  Qed.

  Lemma map_update_keys : forall (m : list (K * V)) k d f,
      map fst (map_update eqb m k d f) = map fst m ++ (if existsb (fun x => eqb x k) (map fst m) then [] else [k]).
  Proof.
    induction m as [|[k1 v1] m IH]; intros k d f; cbn; [reflexivity|].
    destruct (eqb k1 k) eqn:E; cbn.
    - now rewrite app_nil_r.
    - now rewrite IH.
  Qed.

  Lemma map_update_nodup : forall (m : list (K * V)) k d f,
      NoDup (map fst m) -> NoDup (map fst (map_update eqb m k d f)).
  Proof.
    intros m k d f ND. rewrite map_update_keys.
    destruct (existsb (fun x => eqb x k) (map fst m)) eqn:E.
    - now rewrite app_nil_r.
    - apply NoDup_Add with (a := k) (l := map fst m).
      + rewrite <- (app_nil_r (map fst m)) at 1. apply Add_app.
      + split; [exact ND|]. intros H. apply not_true_iff_false in E. apply E.
        apply existsb_exists. exists k. split; [exact H|apply eqb_refl'].
  Qed.

  Lemma map_update_forall : forall (P : K * V -> Prop) (m : list (K * V)) k d f,
      Forall P m -> (forall v, (In (k, v) m \/ v = d) -> P (k, f v)) ->
      Forall P (map_update eqb m k d f).
  Proof.
    induction m as [|[k1 v1] m IH]; intros k d f F H; cbn.
    - constructor; [|constructor]. apply H. now right.
    - inversion_clear F. destruct (eqb k1 k) eqn:E.
      + apply eqb_eq in E. subst k1. constructor; auto. apply H. left. now left.
      + constructor; auto. apply IH; auto. intros v [Hv|Hv]; apply H; auto. left. now right.
  Qed.
End MapFacts.

(** Well-formed stores. *)
Definition inner_ok (n : name) (i : list (rtype * list record)) : Prop :=
  NoDup (map fst i) /\
  Forall (fun e => snd e <> [] /\ Forall (fun r => r_node r = n /\ record_type r = fst e) (snd e)) i.
Definition zmap_ok (m : zmap) : Prop :=
  NoDup (map fst m) /\ Forall (fun e => inner_ok (fst e) (snd e)) m.

Definition find (m : zmap) (n : name) (t : rtype) : list record :=
  match map_get bytes_eqb m n with
  | None => []
  | Some i => match map_get rtype_eqb i t with None => [] | Some l => l end
  end.

Lemma find_inner : forall m n t,
    zmap_ok m -> forall i l, map_get bytes_eqb m n = Some i -> map_get rtype_eqb i t = Some l ->
    l <> [] /\ Forall (fun r => r_node r = n /\ record_type r = t) l.
Proof.
  intros m n t [_ F] i l Hi Hl.
  apply (map_get_in _ bytes_eqb_eq) in Hi. apply (map_get_in _ rtype_eqb_eq) in Hl.
  rewrite Forall_forall in F. specialize (F _ Hi). destruct F as [_ F].
  rewrite Forall_forall in F. exact (F _ Hl).
Qed.

Lemma zone_get_ok : forall p z n t,
    zmap_ok (z_records z) ->
    zone_get p z n t = Done (match find (z_records z) n t with [] => None | l => Some l end).
Proof.
  intros p z n t OK. unfold zone_get, find.
  destruct (map_get bytes_eqb (z_records z) n) as [i|] eqn:Ei; [|reflexivity].
  destruct (map_get rtype_eqb i t) as [l|] eqn:El; [|reflexivity].
  destruct (find_inner _ _ _ OK _ _ Ei El) as [NE F].
  assert (E1 : forallb (fun r => rtype_eqb (record_type r) t) l = true).
  { apply forallb_forall. intros r Hr. rewrite Forall_forall in F. apply rtype_eqb_eq. now apply F. }
  assert (E2 : forallb (fun r => bytes_eqb (r_node r) n) l = true).
  { apply forallb_forall. intros r Hr. rewrite Forall_forall in F. apply bytes_eqb_eq. now apply F. }
  rewrite E1, E2. destruct l as [|r l]; [easy|]. now destruct p.
Qed.

Lemma insert_ok : forall m r, zmap_ok m -> zmap_ok (zmap_insert m r).
Proof.
  intros m r [ND F]. split.
  - now apply map_update_nodup; [apply bytes_eqb_eq|].
  - apply map_update_forall; [apply bytes_eqb_eq|exact F|].
    intros v Hv. cbn [fst snd].
    assert (OKv : inner_ok (r_node r) v).
    { destruct Hv as [Hv| ->].
      - rewrite Forall_forall in F. exact (F _ Hv).
      - split; constructor. }
    destruct OKv as [ND' F']. split.
    + now apply map_update_nodup; [apply rtype_eqb_eq|].
    + apply map_update_forall; [apply rtype_eqb_eq|exact F'|].
      intros l Hl. cbn [fst snd]. split; [now destruct l|].
      apply Forall_app. split; [|repeat constructor].
      destruct Hl as [Hl| ->]; [|constructor].
      rewrite Forall_forall in F'. exact (proj2 (F' _ Hl)).
Qed.

Lemma find_insert : forall m r n t,
    find (zmap_insert m r) n t =
    find m n t ++ (if bytes_eqb (r_node r) n && rtype_eqb (record_type r) t then [r] else []).
Proof.
  intros m r n t. unfold find, zmap_insert.
  rewrite (map_get_update _ bytes_eqb_eq).
  destruct (bytes_eqb (r_node r) n) eqn:E; cbn [andb].
  - apply bytes_eqb_eq in E. rewrite E.
    rewrite (map_get_update _ rtype_eqb_eq).
    destruct (rtype_eqb (record_type r) t) eqn:E2.
    + apply rtype_eqb_eq in E2. rewrite E2.
      destruct (map_get bytes_eqb m n) as [i|]; cbn; [|reflexivity].
      now destruct (map_get rtype_eqb i t).
    + rewrite app_nil_r. destruct (map_get bytes_eqb m n) as [i|]; reflexivity.
  - now rewrite app_nil_r.
Qed.

(** The records of a well-formed store, in iteration order, filtered by owner and type. *)
Lemma owned_app : forall n t a b, owned n t (a ++ b) = owned n t a ++ owned n t b.
Proof. intros. apply filter_app. Qed.

Lemma owned_cons : forall n t r l,
    owned n t (r :: l) = if bytes_eqb (r_node r) n && rtype_eqb (record_type r) t then r :: owned n t l else owned n t l.
Proof. reflexivity. Qed.

Lemma owned_none : forall n t l, (forall r, In r l -> ~ (r_node r = n /\ record_type r = t)) -> owned n t l = [].
Proof.
  induction l as [|r l IH]; intros H; [reflexivity|]. cbn.
  destruct (bytes_eqb (r_node r) n && rtype_eqb (record_type r) t) eqn:E.
  - apply andb_true_iff in E as [E1 E2]. apply bytes_eqb_eq in E1. apply rtype_eqb_eq in E2.
    exfalso. exact (H r (or_introl eq_refl) (conj E1 E2)).
  - apply IH. intros r' Hr. apply H. now right.
Qed.

Lemma owned_all : forall n t l, Forall (fun r => r_node r = n /\ record_type r = t) l -> owned n t l = l.
Proof.
  induction l as [|r l IH]; intros F; [reflexivity|]. inversion_clear F as [|? ? [E1 E2] F'].
  rewrite owned_cons, E1, E2, bytes_eqb_refl, rtype_eqb_refl. cbn [andb]. now rewrite IH.
Qed.

Lemma owned_inner : forall n t i,
    inner_ok n i -> owned n t (flat_map snd i) = match map_get rtype_eqb i t with None => [] | Some l => l end.
Proof.
  intros n t. induction i as [|[t' l] i IH]; intros [ND F]; [reflexivity|].
  cbn in ND. inversion_clear ND as [|? ? NI ND']. inversion_clear F as [|? ? [NE Fl] F'].
  cbn [flat_map snd map_get]. rewrite owned_app, IH by (split; assumption). cbn [fst snd] in Fl.
  destruct (rtype_eqb t' t) eqn:E.
  - apply rtype_eqb_eq in E. subst t'. rewrite owned_all by exact Fl.
    apply (map_get_none _ rtype_eqb_eq) in NI. rewrite NI. now rewrite app_nil_r.
  - rewrite owned_none; [reflexivity|].
    intros r Hr [_ H2]. rewrite Forall_forall in Fl. destruct (Fl _ Hr) as [_ H].
    assert (rtype_eqb t' t = true) by (apply rtype_eqb_eq; congruence). congruence.
Qed.

Lemma inner_records : forall n i r, inner_ok n i -> In r (flat_map snd i) -> r_node r = n.
Proof.
  intros n i r [_ F] H. apply in_flat_map in H as [e [He Hr]].
  rewrite Forall_forall in F. destruct (F _ He) as [_ Fl].
  rewrite Forall_forall in Fl. now apply Fl.
Qed.

Lemma owned_zmap : forall n t m, zmap_ok m -> owned n t (zmap_records m) = find m n t.
Proof.
  intros n t. unfold find. induction m as [|[n' i] m IH]; intros [ND F]; [reflexivity|].
  cbn in ND. inversion_clear ND as [|? ? NI ND']. inversion_clear F as [|? ? OKi F'].
  unfold zmap_records. cbn [flat_map snd map_get]. rewrite owned_app.
  fold (zmap_records m). rewrite IH by (split; assumption). cbn [fst snd] in OKi.
  destruct (bytes_eqb n' n) eqn:E.
  - apply bytes_eqb_eq in E. subst n'. rewrite (owned_inner _ _ _ OKi).
    apply (map_get_none _ bytes_eqb_eq) in NI. rewrite NI. now rewrite app_nil_r.
  - rewrite owned_none; [reflexivity|].
    intros r Hr [H1 _]. apply bytes_eqb_neq in E. apply E.
    rewrite <- H1. symmetry. exact (inner_records _ _ _ OKi Hr).
Qed.

Lemma extend_ok : forall rs z,
    zmap_ok (z_records z) ->
    zmap_ok (z_records (fold_left zone_insert rs z)) /\
    z_zone (fold_left zone_insert rs z) = z_zone z /\
    forall n t, find (z_records (fold_left zone_insert rs z)) n t = find (z_records z) n t ++ owned n t rs.
Proof.
  induction rs as [|r rs IH]; intros z OK; cbn [fold_left].
  - split; [exact OK|]. split; [reflexivity|]. intros. cbn. now rewrite app_nil_r.
  - specialize (IH (zone_insert z r)). cbn [z_records zone_insert] in IH.
    destruct (IH (insert_ok _ _ OK)) as (A & B & C). split; [exact A|]. split; [exact B|].
    intros n t. rewrite C, find_insert, <- app_assoc. f_equal. cbn.
    now destruct (bytes_eqb (r_node r) n && rtype_eqb (record_type r) t).
Qed.

Lemma reordered_ok : forall m m', zmap_ok m -> reordered m m' ->
    zmap_ok m' /\ forall n t, find m' n t = find m n t.
Proof.
  intros m m' OK (m1 & F2 & P).
  assert (OK1 : zmap_ok m1 /\ map fst m1 = map fst m /\ forall n t, find m1 n t = find m n t).
  { clear P. induction F2 as [|[n i] [n1 i1] m m1 [E PP] F2 IH]; [split; [exact OK|now split]|].
    cbn [fst snd] in E, PP. subst n1.
    destruct OK as [ND F]. cbn in ND. inversion_clear ND as [|? ? NI ND']. inversion_clear F as [|? ? [NDi Fi] F'].
    destruct IH as ([ND1 F1] & K1 & Find1); [split; assumption|].
    assert (OKi1 : inner_ok n i1).
    { split.
      - eapply Permutation_NoDup; [apply Permutation_map, PP|exact NDi].
      - eapply Permutation_Forall; [exact PP|exact Fi]. }
    split; [|split].
    - split; [cbn; rewrite K1; now constructor|]. constructor; [exact OKi1|exact F1].
    - cbn. now rewrite K1.
    - intros n' t. unfold find. cbn [map_get]. destruct (bytes_eqb n n').
      + now rewrite (map_get_perm _ rtype_eqb_eq i i1).
      + apply Find1. }
  destruct OK1 as ([ND1 F1] & K & Find1). split.
  - split.
    + eapply Permutation_NoDup; [apply Permutation_map, P|exact ND1].
    + eapply Permutation_Forall; [exact P|exact F1].
  - intros n t. rewrite <- Find1. unfold find. now rewrite (map_get_perm _ bytes_eqb_eq m1 m').
Qed.

Lemma built_ok : forall zn rs z, built zn rs z ->
    zmap_ok (z_records z) /\ z_zone z = zn /\ forall n t, find (z_records z) n t = owned n t rs.
Proof.
  induction 1 as [zn|zn rs z r B IH|zn rs z zn' rs' z' B IH B' IH'|zn rs z m B IH R].
  - split; [split; constructor|]. now split.
  - destruct IH as (OK & E & F). split; [now apply insert_ok|]. split; [exact E|].
    intros n t. cbn [z_records zone_insert]. rewrite find_insert, F, owned_app. reflexivity.
  - destruct IH as (OK & E & F). destruct IH' as (OK' & E' & F').
    unfold zone_extend. destruct (extend_ok (zmap_records (z_records z')) z OK) as (A & Ez & C).
    split; [exact A|]. split; [congruence|].
    intros n t. rewrite C, F, owned_app. f_equal. now rewrite owned_zmap.
  - destruct IH as (OK & E & F). destruct (reordered_ok _ _ OK R) as [A C].
    split; [exact A|]. split; [exact E|]. intros n t. cbn [z_records]. rewrite C. apply F.
Qed.

Lemma of_type_app : forall t a b, of_type t (a ++ b) = of_type t a ++ of_type t b.
Proof. intros. apply filter_app. Qed.

Lemma get_all_inner : forall n t i,
    inner_ok n i -> of_type t (flat_map snd i) = match map_get rtype_eqb i t with None => [] | Some l => l end.
Proof.
  intros n t i OK. rewrite <- (owned_inner n t i OK). unfold of_type, owned.
  apply filter_ext_in. intros r Hr. rewrite (inner_records _ _ _ OK Hr), bytes_eqb_refl. reflexivity.
Qed.

Lemma get_all_zmap : forall m t z, zmap_ok m -> of_type t (zmap_records m) = zone_get_all_of_type (mkZone m z) t.
Proof.
  intros m t z [_ F]. unfold zone_get_all_of_type, zmap_records. cbn [z_records].
  induction m as [|[n i] m IH]; [reflexivity|]. inversion_clear F as [|? ? OKi F'].
  cbn [flat_map snd]. rewrite of_type_app, (get_all_inner n t i OKi), IH; auto.
Qed.

(** Two lists with the same records under every (owner, type) are permutations. *)
Lemma owned_perm : forall a b,
    (forall n t, owned n t a = owned n t b) -> Permutation a b.
Proof.
  induction a as [|r a IH]; intros b H.
  - destruct b as [|r b]; [constructor|]. specialize (H (r_node r) (record_type r)).
    cbn in H. rewrite bytes_eqb_refl, rtype_eqb_refl in H. easy.
  - assert (I : In r b).
    { specialize (H (r_node r) (record_type r)). rewrite owned_cons, bytes_eqb_refl, rtype_eqb_refl in H.
      cbn [andb] in H. assert (In r (owned (r_node r) (record_type r) b)) as I by (rewrite <- H; now left).
      now apply filter_In in I. }
    (* take the first element of b under r's key *)
    assert (exists b1 b2, b = b1 ++ r :: b2 /\ forall r', In r' b1 -> ~ (r_node r' = r_node r /\ record_type r' = record_type r)) as (b1 & b2 & -> & NB).
    { specialize (H (r_node r) (record_type r)). rewrite owned_cons, bytes_eqb_refl, rtype_eqb_refl in H.
      cbn [andb] in H. clear I IH. revert H. generalize (owned (r_node r) (record_type r) a) as la. intros la H.
      induction b as [|x b IHb]; [easy|]. rewrite owned_cons in H.
      destruct (bytes_eqb (r_node x) (r_node r) && rtype_eqb (record_type x) (record_type r)) eqn:E.
      - injection H as <- _. exists [], b. split; [reflexivity|]. easy.
      - destruct (IHb H) as (b1 & b2 & -> & NB). exists (x :: b1), b2. split; [reflexivity|].
        intros r' [<-|Hr'] [A B]; [|exact (NB r' Hr' (conj A B))].
        rewrite A, B, bytes_eqb_refl, rtype_eqb_refl in E. easy. }
    apply Permutation_cons_app. apply IH. intros n t. specialize (H n t).
    rewrite owned_app in H |- *. rewrite !owned_cons in H.
    destruct (bytes_eqb (r_node r) n && rtype_eqb (record_type r) t) eqn:E; [|exact H].
    apply andb_true_iff in E as [E1 E2]. apply bytes_eqb_eq in E1. apply rtype_eqb_eq in E2. subst n t.
    rewrite (owned_none _ _ b1 NB) in H |- *. cbn in *. congruence.
Qed.

Lemma built_records_perm : forall zn rs z, built zn rs z -> Permutation (zmap_records (z_records z)) rs.
Proof.
  intros zn rs z B. destruct (built_ok _ _ _ B) as (OK & _ & F).
  apply owned_perm. intros n t. now rewrite owned_zmap.
Qed.

Lemma perm_filter : forall A (f : A -> bool) a b, Permutation a b -> Permutation (filter f a) (filter f b).
Proof.
  induction 1; cbn; try constructor.
  - destruct (f x); auto.
  - destruct (f x), (f y); repeat constructor; apply Permutation_refl.
  - eapply Permutation_trans; eauto.
Qed.

Lemma built_holds : forall zn rs z, built zn rs z -> holds z rs.
Proof.
  intros zn rs z B. destruct (built_ok _ _ _ B) as (OK & E & F). split.
  - intros p n t. rewrite zone_get_ok by exact OK. unfold lookup. now rewrite F.
  - intros t. destruct z as [m zz]. rewrite <- (get_all_zmap m t zz OK).
    apply perm_filter. exact (built_records_perm _ _ _ B).
Qed.

Lemma built_zone : forall zn rs z, built zn rs z -> z_zone z = zn.
Proof. intros zn rs z B. exact (proj1 (proj2 (built_ok _ _ _ B))). Qed.
