(** C48, C49: the cache. *)
From Verif Require Import Base Cache CacheSpec.

Section Cache_proofs.
  Context {K V : Type} (eqb : K -> K -> bool).
  Hypothesis eqb_eq : forall a b, eqb a b = true <-> a = b.

  Lemma eqb_refl : forall a, eqb a a = true. Proof. intros a. now apply eqb_eq. Qed.

  (** What is in the map after [past], at time [now]: what is stored, but expired entries
      may already be gone. *)
  Definition agrees (past : list (op K V)) (now : N) (c : cache K V) : Prop :=
    c_poisoned c = false /\
    forall k, c_data c k = stored eqb past k \/
      (c_data c k = None /\ exists e v, stored eqb past k = Some (e, v) /\ (e <= now)%N).

  Lemma agrees_at_time : forall past now c k t, agrees past now c -> (now <= t)%N -> at_time t (c_data c k) = at_time t (stored eqb past k).
  Proof.
    intros past now c k t (_ & A) L. destruct (A k) as [-> |(-> & e & v & -> & Le)]; [reflexivity|]. cbn [at_time].
    destruct (t <? e)%N eqn:E; [lia|reflexivity].
  Qed.

  Lemma expired_eq : forall e t, is_expired e t = negb (t <? e)%N.
  Proof. intros e t. unfold is_expired. destruct (N.leb_spec e t), (N.ltb_spec t e); lia || reflexivity. Qed.

  Lemma agrees_later : forall past now now' c, agrees past now c -> (now <= now')%N -> agrees past now' c.
  Proof. intros past now now' c (P & A) L. split; [exact P|]. intros k. destruct (A k) as [H|(H & e & v & E & Le)]; [now left|right]. split; [exact H|]. exists e, v. split; [exact E|lia]. Qed.

  (** One call. *)
  Lemma run_right : forall past now lo hi c o, agrees past now c -> (now <= lo)%N -> readings_in lo hi o -> harmless o ->
    exists c', cache_run eqb c o = (Done (right_reply eqb past o), c') /\ agrees (o :: past) hi c'.
  Proof.
    intros past now lo hi c o A L (Lh & R) Hh. pose proof A as (P & Ak). unfold cache_run. rewrite P.
    assert (Sk : forall k t, (lo <= t)%N -> at_time t (c_data c k) = at_time t (stored eqb past k)) by (intros; eapply agrees_at_time; [exact A|lia]).
    destruct o as [k t|k ttl v t t'|k t|k f t|ts]; cbn [readings_in] in R.
    - unfold cache_get, right_reply. rewrite <- Sk by lia. destruct (c_data c k) as [[e v]|] eqn:E; cbn [at_time].
      + rewrite expired_eq. destruct (t <? e)%N eqn:El; cbn [negb]; eexists; (split; [reflexivity|]).
        * apply agrees_later with (now := now); [|lia]. split; [reflexivity|exact Ak].
        * split; [reflexivity|]. intros k'. cbn [c_data stored]. unfold upd. destruct (eqb k k') eqn:Ek.
          -- apply eqb_eq in Ek. subst k'. right. split; [reflexivity|]. destruct (Ak k) as [Ek|(Ek & _)]; [|congruence]. exists e, v. split; [congruence|lia].
          -- destruct (Ak k') as [H|(H & e' & v' & H' & Le)]; [now left|]. right. split; [exact H|]. exists e', v'. split; [exact H'|lia].
      + eexists. split; [reflexivity|]. apply agrees_later with (now := now); [|lia]. split; [reflexivity|exact Ak].
    - cbn [harmless] in Hh. unfold cache_set, right_reply. rewrite <- Sk by lia.
      destruct (INSTANT_END <=? t + ttl)%N eqn:Eo; [lia|].
      assert (G : agrees (O_set k ttl v t t' :: past) hi (mkCache (upd eqb (c_data c) k (Some (t + ttl, v))%N) false)).
      { split; [reflexivity|]. intros k'. cbn [c_data stored]. unfold upd. destruct (eqb k k'); [now left|].
        destruct (Ak k') as [H|(H & e' & v' & H' & Le)]; [now left|]. right. split; [exact H|]. exists e', v'. split; [exact H'|lia]. }
      destruct (c_data c k) as [[e w]|] eqn:E; cbn [at_time].
      + rewrite expired_eq. destruct (t' <? e)%N; eexists; (split; [reflexivity|exact G]).
      + eexists. split; [reflexivity|exact G].
    - unfold cache_remove, right_reply. rewrite <- Sk by lia.
      assert (G : agrees (O_remove k t :: past) hi (mkCache (upd eqb (c_data c) k None) false)).
      { split; [reflexivity|]. intros k'. cbn [c_data stored]. unfold upd. destruct (eqb k k'); [now left|].
        destruct (Ak k') as [H|(H & e' & v' & H' & Le)]; [now left|]. right. split; [exact H|]. exists e', v'. split; [exact H'|lia]. }
      destruct (c_data c k) as [[e v]|] eqn:E; cbn [at_time].
      + rewrite expired_eq. destruct (t <? e)%N; eexists; (split; [reflexivity|exact G]).
      + eexists. split; [reflexivity|]. split; [reflexivity|]. intros k'. cbn [c_data stored]. destruct (eqb k k') eqn:Ek.
        * apply eqb_eq in Ek. subst k'. now left.
        * destruct (Ak k') as [H|(H & e' & v' & H' & Le)]; [now left|]. right. split; [exact H|]. exists e', v'. split; [exact H'|lia].
    - cbn [harmless] in Hh. unfold cache_on_found, right_reply. rewrite <- Sk by lia.
      assert (O : forall k', eqb k k' = false -> stored eqb (O_on_found k f t :: past) k' = stored eqb past k') by (intros k' Ek; cbn [stored]; now rewrite Ek).
      assert (G : forall x, (x = stored eqb (O_on_found k f t :: past) k \/ (x = None /\ exists e v, stored eqb (O_on_found k f t :: past) k = Some (e, v) /\ (e <= hi)%N)) ->
                 agrees (O_on_found k f t :: past) hi (mkCache (upd eqb (c_data c) k x) false)).
      { intros x Hx. split; [reflexivity|]. intros k'. cbn [c_data]. unfold upd. destruct (eqb k k') eqn:Ek.
        - apply eqb_eq in Ek. subst k'. exact Hx.
        - rewrite O by exact Ek. destruct (Ak k') as [H|(H & e' & v' & H' & Le)]; [now left|]. right. split; [exact H|]. exists e', v'. split; [exact H'|lia]. }
      destruct (c_data c k) as [[e v]|] eqn:E; cbn [at_time].
      + destruct (Ak k) as [H|(H & _)]; [|congruence].
        rewrite expired_eq. destruct (t <? e)%N eqn:El; cbn [negb].
        * specialize (Hh e v). destruct (f e v) as [po v'] eqn:Ef. cbn [fst] in Hh. subst po.
          eexists. split; [reflexivity|]. apply G. left. cbn [stored]. rewrite eqb_refl, <- H, E, El, Ef. reflexivity.
        * eexists. split; [reflexivity|]. apply G. right. split; [reflexivity|]. cbn [stored]. rewrite eqb_refl, <- H, E, El. exists e, v. split; [reflexivity|lia].
      + eexists. split; [reflexivity|]. split; [reflexivity|]. intros k'. cbn [c_data]. destruct (eqb k k') eqn:Ek.
        * apply eqb_eq in Ek. subst k'. cbn [stored]. rewrite eqb_refl. destruct (Ak k) as [H|(H & e & v & H' & Le)].
          -- left. rewrite <- H, E. reflexivity.
          -- right. split; [exact H|]. rewrite H'. eexists _, _. split; [reflexivity|lia].
        * rewrite O by exact Ek. destruct (Ak k') as [H|(H & e' & v' & H' & Le)]; [now left|]. right. split; [exact H|]. exists e', v'. split; [exact H'|lia].
    - eexists. split; [reflexivity|]. split; [reflexivity|]. intros k. cbn [c_data stored]. specialize (R k).
      destruct (c_data c k) as [[e v]|] eqn:E.
      + rewrite expired_eq. destruct (Ak k) as [H|(H & _)]; [|congruence]. destruct (ts k <? e)%N eqn:El; cbn [negb].
        * left. congruence.
        * right. split; [reflexivity|]. exists e, v. split; [congruence|lia].
      + destruct (Ak k) as [H|(H & e' & v' & H' & Le)]; [left; congruence|]. right. split; [reflexivity|]. exists e', v'. split; [exact H'|lia].
  Qed.

  Lemma runs_right : forall h past now c, agrees past now c -> timed now h -> Forall harmless h ->
    exists c' now', cache_runs eqb c h = (right_replies eqb past h, c') /\ agrees (rev h ++ past) now' c'.
  Proof.
    induction h as [|o h IH]; intros past now c A T F.
    - exists c, now. split; [reflexivity|exact A].
    - inversion T as [|lo lo' hi o' h' L R T']; subst. inversion F as [|? ? Fo Fh]; subst.
      destruct (run_right past now lo' hi c o A L R Fo) as (c1 & E & A1).
      destruct (IH (o :: past) hi c1 A1 T' Fh) as (c2 & now' & E' & A2).
      exists c2, now'. split.
      + cbn [cache_runs right_replies]. rewrite E, E'. reflexivity.
      + cbn [rev]. rewrite <- app_assoc. exact A2.
  Qed.

  Lemma agrees_new : forall t, agrees [] t cache_new.
  Proof. intros t. split; [reflexivity|]. intros k. now left. Qed.

  (** C48, calls one after the other: every reply is the right one. *)
  Theorem C48_cache_is_a_map_with_expiry : forall t (h : list (op K V)), timed t h -> Forall harmless h ->
    fst (cache_runs eqb cache_new h) = right_replies eqb [] h.
  Proof. intros t h T F. destruct (runs_right h [] t cache_new (agrees_new t) T F) as (c & now & E & _). now rewrite E. Qed.

  (** In particular: a get. *)
  Theorem C48_gets : forall t (h : list (op K V)) k g, timed t (h ++ [O_get k g]) -> Forall harmless h ->
    last (fst (cache_runs eqb cache_new (h ++ [O_get k g]))) Diverge = Done (R_entry (at_time g (stored eqb (rev h) k))).
  Proof.
    intros t h k g T F. assert (F' : Forall harmless (h ++ [O_get k g])) by (apply Forall_app; split; [exact F|repeat constructor]).
    rewrite (C48_cache_is_a_map_with_expiry t _ T F').
    assert (G : forall (h : list (op K V)) past, right_replies eqb past (h ++ [O_get k g]) = right_replies eqb past h ++ [Done (R_entry (at_time g (stored eqb (rev h ++ past) k)))]).
    { clear. induction h as [|o h IH]; intros past; [reflexivity|]. cbn [app right_replies rev]. rewrite IH, <- app_assoc. reflexivity. }
    rewrite G, app_nil_r. apply last_last.
  Qed.

  (** *** Threads *)
  Notation hist := (list (nat * op K V * exec (reply V))).
  Definition ids (h : hist) : list nat := map (fun x => fst (fst x)) h.
  Definition ops (h : hist) : list (op K V) := map (fun x => snd (fst x)) h.
  Definition replies (h : hist) : list (exec (reply V)) := map snd h.

  (** Histories all of whose calls lie between two times. *)
  Inductive timed_to : N -> N -> list (op K V) -> Prop :=
  | tt_nil : forall lo hi, (lo <= hi)%N -> timed_to lo hi []
  | tt_snoc : forall lo h lo' hi' hi o, timed_to lo lo' h -> readings_in lo' hi' o -> (hi' <= hi)%N -> timed_to lo hi (h ++ [o]).
  Lemma timed_to_later : forall lo hi hi' h, timed_to lo hi h -> (hi <= hi')%N -> timed_to lo hi' h.
  Proof. intros lo hi hi' h T L. destruct T; [apply tt_nil; lia|]. eapply tt_snoc; [eassumption|eassumption|lia]. Qed.
  Lemma timed_earlier : forall lo lo' (h : list (op K V)), timed lo h -> (lo' <= lo)%N -> timed lo' h.
  Proof. intros lo lo' h T L. destruct T; [constructor|]. econstructor; [|eassumption|eassumption]. lia. Qed.
  Lemma timed_to_app : forall lo hi h, timed_to lo hi h -> forall h2, timed hi h2 -> timed lo (h ++ h2).
  Proof.
    intros lo hi h T. induction T as [lo hi L|lo h lo' hi' hi o T IH R L]; intros h2 T2.
    - eapply timed_earlier; eassumption.
    - rewrite <- app_assoc. apply IH. econstructor; [apply N.le_refl|exact R|]. eapply timed_earlier; eassumption.
  Qed.
  Lemma cache_runs_snoc : forall (h : list (op K V)) c o, cache_runs eqb c (h ++ [o]) =
    (fst (cache_runs eqb c h) ++ [fst (cache_run eqb (snd (cache_runs eqb c h)) o)], snd (cache_run eqb (snd (cache_runs eqb c h)) o)).
  Proof.
    induction h as [|x h IH]; intros c o; cbn [app cache_runs fst snd].
    - now destruct (cache_run eqb c o).
    - destruct (cache_run eqb c x) as [r c1]. rewrite IH. destruct (cache_runs eqb c1 h) as [rs c2]. reflexivity.
  Qed.

  Definition critical (p : pc K V) : Prop := match p with P_holding _ _ | P_working _ _ _ _ | P_finished _ _ => True | _ => False end.
  Definition pending (p : pc K V) : option (nat * call K V) :=
    match p with P_waiting id c | P_holding id c | P_working id c _ _ => Some (id, c) | _ => None end.
  Record inv (t0 : N) (s : sys K V) (h : hist) : Prop := {
    i_timed : timed_to t0 (y_clock s) (ops h);
    i_runs : cache_runs eqb cache_new (ops h) = (replies h, y_cache s);
    i_nodup : NoDup (ids h);
    i_lock : forall i, critical (y_pc s i) -> y_lock s = Some i;
    i_pending : forall i id c, pending (y_pc s i) = Some (id, c) -> In (E_call id c) (y_log s) /\ ~ In id (ids h) /\ id < y_next s;
    i_distinct : forall i j id c c', pending (y_pc s i) = Some (id, c) -> pending (y_pc s j) = Some (id, c') -> i = j;
    i_working : forall i id c seen start, y_pc s i = P_working id c seen start -> seen = y_cache s /\ (start <= y_clock s)%N /\ timed_to t0 start (ops h);
    i_finished : forall i id r, y_pc s i = P_finished id r -> exists o, In (id, o, r) h;
    i_ids : forall id, In id (ids h) -> id < y_next s;
    i_ret : forall id r, In (E_return id r) (y_log s) -> exists o, In (id, o, r) h;
    i_called : forall id o r, In (id, o, r) h -> In (E_call id (call_of o)) (y_log s);
    i_order : forall id id' r c, before (y_log s) (E_call id' c) (E_return id r) -> In id' (ids h) -> before (ids h) id id' }.

  Lemma before_cons : forall A (l : list A) x a b, a <> x -> before (x :: l) a b -> before l a b.
  Proof. intros A l x a b N ([|y l1] & l2 & l3 & E); cbn in E; [congruence|]. exists l1, l2, l3. congruence. Qed.
  Lemma before_in_r : forall A (l : list A) a b, before l a b -> In b l.
  Proof. intros A l a b (l1 & l2 & l3 & ->). apply in_or_app. right. right. apply in_or_app. right. now left. Qed.
  Lemma before_app : forall A (l l' : list A) a b, before l a b -> before (l ++ l') a b.
  Proof. intros A l l' a b (l1 & l2 & l3 & ->). exists l1, l2, (l3 ++ l'). now rewrite <- app_assoc, <- app_comm_cons, <- app_assoc, <- app_comm_cons. Qed.
  Lemma before_last : forall A (l : list A) a b, In a l -> before (l ++ [b]) a b.
  Proof. intros A l a b H. apply in_split in H as (l1 & l2 & ->). exists l1, l2, []. now rewrite <- app_assoc, <- app_comm_cons. Qed.
  Lemma in_ids : forall (h : hist) id o r, In (id, o, r) h -> In id (ids h).
  Proof. intros h id o r H. apply in_map_iff. now exists (id, o, r). Qed.
  Lemma pend_upd : forall f i x j y, pending (upd_pc f i x j) = y -> (i = j /\ pending x = y) \/ (i <> j /\ pending (f j) = y).
  Proof. intros f i x j y. unfold upd_pc. destruct (Nat.eqb_spec i j); intros <-; [left|right]; now split. Qed.

  Lemma inv_init : forall t, inv t (sys_init t) [].
  Proof.
    intros t. constructor; cbn; intros; try contradiction; try discriminate; try reflexivity.
    - apply tt_nil. lia.
    - constructor.
  Qed.

  Lemma inv_step : forall t0 s s' h, inv t0 s h -> step eqb s s' -> exists h', inv t0 s' h'.
  Proof.
    intros t0 s s' h I St. destruct I as [I1 I2 I3 I4 I5 I6 I7 I8 I9 I10 I11 I12].
    assert (Cr : forall f i x j, critical (upd_pc f i x j) -> (i = j /\ critical x) \/ (i <> j /\ critical (f j))).
    { intros f i x j. unfold upd_pc. destruct (Nat.eqb_spec i j); intros H; [left|right]; now split. }
    destruct St as [s t L|s i c Ei|s i id c Ei El|s i id c Ei|s i id c seen start o r ca Ei Eo R Er|s i id r Ei].
    - exists h. constructor; cbn [y_cache y_lock y_clock y_pc y_next y_log]; try assumption.
      + eapply timed_to_later; eassumption.
      + intros j id c seen start E. destruct (I7 _ _ _ _ _ E) as (A & B & C). repeat split; try assumption. lia.
    - exists h. constructor; cbn [y_cache y_lock y_clock y_pc y_next y_log]; try assumption.
      + intros j H. apply Cr in H as [(<- & [])|(_ & H)]. now apply I4.
      + intros j id c' H. apply pend_upd in H as [(<- & H)|(_ & H)].
        * cbn in H. assert (id = y_next s /\ c' = c) as (-> & ->) by (split; congruence). repeat split; [now left| |lia]. intros F. apply I9 in F. lia.
        * destruct (I5 _ _ _ H) as (A & B & C). repeat split; [now right|exact B|lia].
      + intros j j' id c1 c2 H H'. apply pend_upd in H as [(<- & H)|(N & H)]; apply pend_upd in H' as [(<- & H')|(N' & H')]; try reflexivity.
        * cbn in H. apply I5 in H' as (_ & _ & L). assert (id = y_next s) by congruence. lia.
        * cbn in H'. apply I5 in H as (_ & _ & L). assert (id = y_next s) by congruence. lia.
        * eapply I6; eassumption.
      + intros j id c' seen start H. unfold upd_pc in H. destruct (Nat.eqb i j); [discriminate|]. now apply I7 in H.
      + intros j id r H. unfold upd_pc in H. destruct (Nat.eqb i j); [discriminate|]. now apply I8 in H.
      + intros id H. apply I9 in H. lia.
      + intros id r [H|H]; [discriminate|]. now apply I10.
      + intros id o r H. right. now apply I11 in H.
      + intros id id' r c' B H. destruct (Nat.eq_dec id' (y_next s)) as [-> |N]; [apply I9 in H; lia|].
        apply before_cons in B; [|congruence]. eapply I12; eassumption.
    - exists h. constructor; cbn [y_cache y_lock y_clock y_pc y_next y_log]; try assumption.
      + intros j H. apply Cr in H as [(<- & _)|(_ & H)]; [reflexivity|]. apply I4 in H. congruence.
      + intros j id' c' H. apply pend_upd in H as [(<- & H)|(_ & H)]; [|now apply I5 with (i := j)].
        cbn in H. apply I5 with (i := i). rewrite Ei. exact H.
      + intros j j' id0 c1 c2 H H'.
        apply pend_upd in H as [(<- & H)|(N & H)]; apply pend_upd in H' as [(<- & H')|(N' & H')]; try reflexivity.
        * eapply I6; [rewrite Ei; exact H|exact H'].
        * eapply I6; [exact H|rewrite Ei; exact H'].
        * eapply I6; eassumption.
      + intros j id0 c' seen start H. unfold upd_pc in H. destruct (Nat.eqb i j); [discriminate|]. now apply I7 in H.
      + intros j id0 r H. unfold upd_pc in H. destruct (Nat.eqb i j); [discriminate|]. now apply I8 in H.
    - exists h. constructor; cbn [y_cache y_lock y_clock y_pc y_next y_log]; try assumption.
      + intros j H. apply Cr in H as [(<- & _)|(_ & H)]; apply I4; [rewrite Ei; exact I|exact H].
      + intros j id' c' H. apply pend_upd in H as [(<- & H)|(_ & H)]; [|now apply I5 with (i := j)].
        cbn in H. apply I5 with (i := i). rewrite Ei. exact H.
      + intros j j' id0 c1 c2 H H'.
        apply pend_upd in H as [(<- & H)|(N & H)]; apply pend_upd in H' as [(<- & H')|(N' & H')]; try reflexivity.
        * eapply I6; [rewrite Ei; exact H|exact H'].
        * eapply I6; [exact H|rewrite Ei; exact H'].
        * eapply I6; eassumption.
      + intros j id0 c' seen start H. unfold upd_pc in H. destruct (Nat.eqb i j) eqn:E; [|now apply I7 in H].
        injection H as <- <- <- <-. repeat split; [lia|exact I1].
      + intros j id0 r H. unfold upd_pc in H. destruct (Nat.eqb i j); [discriminate|]. now apply I8 in H.
    - destruct (I7 _ _ _ _ _ Ei) as (-> & Ls & T). destruct (I5 i id c) as (Hc & Hn & Hid); [now rewrite Ei|].
      assert (Il : forall j, critical (y_pc s j) -> i = j).
      { intros j H. apply I4 in H. pose proof (I4 i) as H'. rewrite Ei in H'. specialize (H' I). congruence. }
      exists (h ++ [(id, o, r)]).
      assert (E1 : ids (h ++ [(id, o, r)]) = ids h ++ [id]) by (unfold ids; now rewrite map_app).
      assert (E2 : ops (h ++ [(id, o, r)]) = ops h ++ [o]) by (unfold ops; now rewrite map_app).
      assert (E3 : replies (h ++ [(id, o, r)]) = replies h ++ [r]) by (unfold replies; now rewrite map_app).
      constructor; cbn [y_cache y_lock y_clock y_pc y_next y_log]; rewrite ?E1, ?E2, ?E3.
      + eapply tt_snoc; [exact T|exact R|lia].
      + rewrite cache_runs_snoc, I2. cbn [fst snd]. now rewrite Er.
      + clear - I3 Hn. induction (ids h) as [|x l IH]; cbn [app]; [constructor; [easy|constructor]|].
        inversion I3; subst. constructor; [|apply IH; [assumption|intros F; apply Hn; now right]].
        rewrite in_app_iff. intros [F|[F|[]]]; [contradiction|]. apply Hn. now left.
      + intros j H. apply Cr in H as [(<- & _)|(_ & H)]; apply I4; [rewrite Ei; exact I|exact H].
      + intros j id' c' H. apply pend_upd in H as [(<- & H)|(N & H)]; [discriminate|]. destruct (I5 _ _ _ H) as (A & B & C). repeat split; try assumption.
        rewrite in_app_iff. intros [F|[<-|[]]]; [contradiction|]. apply N. eapply I6; [rewrite Ei; reflexivity|exact H].
      + intros j j' id0 c1 c2 H H'. apply pend_upd in H as [(<- & H)|(N & H)]; [discriminate|]. apply pend_upd in H' as [(<- & H')|(N' & H')]; [discriminate|].
        eapply I6; eassumption.
      + intros j id' c' seen start' H. unfold upd_pc in H. destruct (Nat.eqb_spec i j); [discriminate|]. exfalso. apply n, Il. now rewrite H.
      + intros j id' r' H. unfold upd_pc in H. destruct (Nat.eqb_spec i j).
        * injection H as <- <-. exists o. apply in_or_app. right. now left.
        * exfalso. apply n, Il. now rewrite H.
      + intros id' H. apply in_app_iff in H as [H|[<-|[]]]; [now apply I9|exact Hid].
      + intros id' r' H. apply I10 in H as (o' & H). exists o'. apply in_or_app. now left.
      + intros id' o' r' H. apply in_app_iff in H as [H|[H|[]]]; [now apply I11 in H|]. injection H as <- <- <-. now rewrite Eo.
      + intros id1 id2 r' c' B H. apply in_app_iff in H as [H|[<-|[]]].
        * apply before_app. eapply I12; eassumption.
        * apply before_last. apply before_in_r in B. apply I10 in B as (o' & B). eapply in_ids, B.
    - exists h. destruct (I8 _ _ _ Ei) as (o & Ho). constructor; cbn [y_cache y_lock y_clock y_pc y_next y_log]; try assumption.
      + intros j H. apply Cr in H as [(_ & [])|(N & H)]. exfalso. apply N. apply I4 in H. pose proof (I4 i) as H'. rewrite Ei in H'. specialize (H' I). congruence.
      + intros j id' c' H. apply pend_upd in H as [(<- & H)|(_ & H)]; [discriminate|]. destruct (I5 _ _ _ H) as (A & B & C). repeat split; [now right|exact B|exact C].
      + intros j j' id0 c1 c2 H H'. apply pend_upd in H as [(<- & H)|(N & H)]; [discriminate|]. apply pend_upd in H' as [(<- & H')|(N' & H')]; [discriminate|].
        eapply I6; eassumption.
      + intros j id0 c' seen start H. unfold upd_pc in H. destruct (Nat.eqb i j); [discriminate|]. now apply I7 in H.
      + intros j id0 r' H. unfold upd_pc in H. destruct (Nat.eqb i j); [discriminate|]. now apply I8 in H.
      + intros id' r' [H|H]; [injection H as <- <-; now exists o|now apply I10].
      + intros id' o' r' H. right. now apply I11 in H.
      + intros id1 id2 r' c' B H. apply before_cons in B; [|discriminate]. eapply I12; eassumption.
  Qed.

  (** C48, any number of threads, any schedule: what the threads saw is explained by one
      sequence of calls, in an order compatible with real time, whose replies are the
      right ones. *)
  Theorem C48_every_schedule : forall t s, steps eqb (sys_init t) s ->
    exists h, explains h (y_log s) /\ timed t (ops h) /\
      (Forall harmless (ops h) -> replies h = right_replies eqb [] (ops h)).
  Proof.
    intros t s H. assert (G : exists h, inv t s h).
    { remember (sys_init t) as s0 eqn:E0. induction H as [s|s s1 s2 H IH St]; [subst s; exists []; apply inv_init|].
      destruct (IH E0) as (h & I). eapply inv_step; eassumption. }
    destruct G as (h & [I1 I2 I3 I4 I5 I6 I7 I8 I9 I10 I11 I12]). exists h. split; [now repeat split|].
    assert (T : timed t (ops h)). { rewrite <- (app_nil_r (ops h)). eapply timed_to_app; [exact I1|constructor]. }
    split; [exact T|]. intros F. rewrite <- (C48_cache_is_a_map_with_expiry t (ops h) T F), I2. reflexivity.
  Qed.

  (** * C49 *)
  (** Cleaning at any moment changes no other reply ... *)
  Lemma replies_clean : forall (h past past' : list (op K V)), (forall k, stored eqb past k = stored eqb past' k) -> right_replies eqb past h = right_replies eqb past' h.
  Proof.
    induction h as [|o h IH]; intros past past' E; [reflexivity|]. cbn [right_replies]. f_equal.
    - f_equal. destruct o; cbn [right_reply]; now rewrite ?E.
    - apply IH. intros k. destruct o; cbn [stored]; rewrite ?E; reflexivity.
  Qed.
  Lemma replies_app : forall (h1 h2 past : list (op K V)), right_replies eqb past (h1 ++ h2) = right_replies eqb past h1 ++ right_replies eqb (rev h1 ++ past) h2.
  Proof. induction h1 as [|o h1 IH]; intros h2 past; [reflexivity|]. cbn [app right_replies rev]. now rewrite IH, <- app_assoc. Qed.
  Lemma timed_drop : forall (h1 : list (op K V)) t o h2, timed t (h1 ++ o :: h2) -> timed t (h1 ++ h2).
  Proof.
    induction h1 as [|x h1 IH]; intros t o h2 T; cbn [app] in *; inversion T; subst.
    - match goal with H : readings_in _ _ _ |- _ => destruct H as (L & _) end. eapply timed_earlier; [eassumption|lia].
    - econstructor; [eassumption|eassumption|]. eapply IH; eassumption.
  Qed.
  Theorem C49_cleaning_is_unobservable : forall t (h1 : list (op K V)) ts h2, timed t (h1 ++ O_clean ts :: h2) -> Forall harmless (h1 ++ h2) ->
    exists rs1 rs2, length rs1 = length h1 /\ length rs2 = length h2 /\
      fst (cache_runs eqb cache_new (h1 ++ h2)) = rs1 ++ rs2 /\
      fst (cache_runs eqb cache_new (h1 ++ O_clean ts :: h2)) = rs1 ++ Done R_unit :: rs2.
  Proof.
    intros t h1 ts h2 T F.
    rewrite (C48_cache_is_a_map_with_expiry t _ (timed_drop _ _ _ _ T) F), (C48_cache_is_a_map_with_expiry t _ T).
    2: { apply Forall_app in F as (F1 & F2). apply Forall_app. split; [exact F1|]. constructor; [exact I|exact F2]. }
    rewrite !replies_app. cbn [right_replies right_reply].
    assert (L : forall (h past : list (op K V)), length (right_replies eqb past h) = length h).
    { induction h as [|o h IH]; intros past; [reflexivity|]. cbn [right_replies length]. now rewrite IH. }
    eexists _, _. split; [apply L|]. split; [apply L|]. split; [reflexivity|]. do 2 f_equal. apply replies_clean. reflexivity.
  Qed.

  (** ... and afterwards no entry is stored that had expired when the cleaning began; the
      others are untouched. *)
  Theorem C49_cleaning_is_complete : forall (c : cache K V) lo hi ts, c_poisoned c = false -> readings_in lo hi (@O_clean K V ts) ->
    exists c', cache_run eqb c (O_clean ts) = (Done R_unit, c') /\
      (forall k e v, c_data c' k = Some (e, v) -> (lo < e)%N) /\
      (forall k e v, c_data c k = Some (e, v) -> (hi < e)%N -> c_data c' k = Some (e, v)) /\
      (forall k, c_data c' k = c_data c k \/ c_data c' k = None).
  Proof.
    intros c lo hi ts P (L & R). unfold cache_run. rewrite P. eexists. split; [reflexivity|]. cbn [c_data].
    repeat split.
    - intros k e v E. destruct (c_data c k) as [[e' v']|]; [|discriminate]. rewrite expired_eq in E. specialize (R k).
      destruct (ts k <? e')%N eqn:El; [|discriminate]. cbn [negb] in E. assert (e = e') by congruence. lia.
    - intros k e v E Lh. rewrite E, expired_eq. specialize (R k). replace (ts k <? e)%N with true by (symmetry; lia). reflexivity.
    - intros k. destruct (c_data c k) as [[e' v']|]; [|now left]. destruct (is_expired e' (ts k)); auto.
  Qed.

  (** * C67 *)
  (** A call that panics while it holds the lock disables the cache for good. *)
  Theorem C67_panicking_callbacks_disable_the_cache : forall (c : cache K V) k f t e v p v',
    c_poisoned c = false -> c_data c k = Some (e, v) -> (t < e)%N -> f e v = (Some p, v') ->
    forall os, Forall (fun r => r = Panic PUnwrap) (fst (cache_runs eqb (snd (cache_run eqb c (O_on_found k f t))) os)).
  Proof.
    intros c k f t e v p v' P E L F os. unfold cache_run at 1. rewrite P. unfold cache_on_found. rewrite E, expired_eq, F.
    replace (t <? e)%N with true by (symmetry; lia). cbn [negb snd].
    induction os as [|o os IH]; [constructor|]. cbn [cache_runs]. unfold cache_run at 1. cbn [c_poisoned].
    destruct (cache_runs eqb _ os) as [rs c2] eqn:Er. cbn [fst] in *. constructor; [reflexivity|exact IH].
  Qed.
  (** Nothing else does: as long as callbacks do not panic and no expiry lies beyond the end
      of time, no call panics ([C48_cache_is_a_map_with_expiry]: every reply is [Done]). *)
End Cache_proofs.
Print Assumptions C48_cache_is_a_map_with_expiry.
Print Assumptions C48_gets.
Print Assumptions C48_every_schedule.
Print Assumptions C49_cleaning_is_unobservable.
Print Assumptions C49_cleaning_is_complete.
Print Assumptions C67_panicking_callbacks_disable_the_cache.

(** Examples: keys and values are numbers. *)
Definition ex_hist : list (op nat nat) :=
  [O_set 1 10 7 100 100; O_get 1 109; O_on_found 1 (fun _ v => (None, v + 1)) 109; O_get 1 109; O_set 2 50 9 109 109; O_get 1 110; O_clean (fun _ => 110%N); O_remove 2 120; O_get 2 121].
Theorem C48_nonvacuous : timed 0 ex_hist /\ Forall harmless ex_hist /\
  fst (cache_runs Nat.eqb cache_new ex_hist) =
    map Done [R_entry None; R_entry (Some (110%N, 7)); R_found true; R_entry (Some (110%N, 8)); R_entry None; R_entry None; R_unit; R_entry (Some (159%N, 9)); R_entry None].
Proof.
  split; [|split; [|vm_compute; reflexivity]].
  - unfold ex_hist.
    repeat match goal with
    | |- timed ?lo (?o :: _) =>
        match o with
        | O_set _ _ _ ?t ?t' => apply timed_cons with (lo' := t) (hi := t')
        | O_get _ ?t => apply timed_cons with (lo' := t) (hi := t)
        | O_remove _ ?t => apply timed_cons with (lo' := t) (hi := t)
        | O_on_found _ _ ?t => apply timed_cons with (lo' := t) (hi := t)
        | O_clean _ => apply timed_cons with (lo' := 110%N) (hi := 110%N)
        end; [lia|split; cbn; intros; lia|]
    end. constructor.
  - unfold ex_hist. repeat (apply Forall_cons; [cbv [harmless]; match goal with |- True => exact I | |- (_ < _)%N => vm_compute; reflexivity | |- _ => intros; reflexivity end|]). apply Forall_nil.
Qed.

(** Two threads: one calls [get] while the other's [set] is under way. *)
Theorem C48_schedules_nonvacuous : exists s, steps Nat.eqb (sys_init 0) s /\
  y_log s = [E_return 1 (Done (R_entry (Some (5%N, 7)))); E_return 0 (Done (R_entry None)); E_call 1 (C_get 3); E_call 0 (C_set 3 5 7)].
Proof.
  assert (H : @steps nat nat Nat.eqb (sys_init 0) (sys_init 0)) by apply steps_refl. unfold sys_init at 2 in H.
  Ltac go tac := match goal with H : steps _ _ ?s |- _ =>
    let St := fresh "St" in eassert (St : step Nat.eqb s _) by tac;
    cbn [y_cache y_lock y_clock y_pc y_next y_log] in St; pose proof (steps_snoc _ _ _ _ H St) as H'; clear St H; rename H' into H end.
  go ltac:(eapply (st_call Nat.eqb _ 0 (C_set 3 5%N 7)); reflexivity).
  go ltac:(eapply (st_lock Nat.eqb _ 0); reflexivity).
  go ltac:(eapply (st_look Nat.eqb _ 0); reflexivity).
  go ltac:(eapply (st_call Nat.eqb _ 1 (C_get (V:=nat) 3)); reflexivity).
  go ltac:(eapply (st_change Nat.eqb _ 0 0 (C_set 3 5%N 7) cache_new 0%N (O_set 3 5%N 7 0%N 0%N)); first [reflexivity | split; cbn; repeat split; lia | vm_compute; reflexivity]).
  go ltac:(eapply (st_return Nat.eqb _ 0); reflexivity).
  go ltac:(eapply (@st_tick nat nat Nat.eqb); instantiate (1 := 4%N); cbn; lia).
  go ltac:(eapply (st_lock Nat.eqb _ 1); reflexivity).
  go ltac:(eapply (st_look Nat.eqb _ 1); reflexivity).
  match goal with H : steps _ _ (mkSys ?ca _ _ _ _ _) |- _ =>
    go ltac:(eapply (st_change Nat.eqb _ 1 1 (C_get (V:=nat) 3) ca 4%N (O_get 3 4%N)); first [reflexivity | split; cbn; repeat split; lia | vm_compute; reflexivity]) end.
  go ltac:(eapply (st_return Nat.eqb _ 1); reflexivity).
  eexists. split; [exact H|]. vm_compute. reflexivity.
Qed.

(** Cleaning: an entry of each kind. *)
Definition ex_sets : list (op nat nat) := [O_set 1 10 7 100 100; O_set 2 90 8 100 100].
Definition ex_gets : list (op nat nat) := [O_get 1 111; O_get 2 111].
Definition ex_clean : op nat nat := O_clean (fun _ => 110%N).
Theorem C49_nonvacuous :
  c_data (snd (cache_runs Nat.eqb cache_new (ex_sets ++ [ex_clean]))) 1 = None /\ c_data (snd (cache_runs Nat.eqb cache_new (ex_sets ++ [ex_clean]))) 2 = Some (190%N, 8) /\ fst (cache_runs Nat.eqb cache_new (ex_sets ++ ex_clean :: ex_gets)) = map Done [R_entry None; R_entry None; R_unit; R_entry None; R_entry (Some (190%N, 8))].
Proof. split; [|split]; vm_compute; reflexivity. Qed.

(** A cache with one entry, a callback that panics on it, and the next calls. *)
Definition ex_panic : list (op nat nat) := [O_set 1 10 7 100 100; O_on_found 1 (fun _ v => (Some PAssert, v)) 101; O_get 1 102; O_get 2 103].
Theorem C67_refuted_witness :
  fst (cache_runs Nat.eqb cache_new ex_panic) = [Done (R_entry None); Panic PAssert; Panic PUnwrap; Panic PUnwrap].
Proof. vm_compute. reflexivity. Qed.
