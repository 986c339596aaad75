(** C39: the zone store. *)
From Coq Require Import Permutation.
From Verif Require Import Base Types Name NameSpec Codec Zone ZoneSpec ZoneProofs.

(** Whatever the order in which the hash maps are iterated (when merging, and between
    any two operations), look-ups give what a plain list of the added records gives. *)
Theorem C39_store_is_the_list_of_added_records : forall apex rs z, built apex rs z ->
  z_zone z = apex /\
  (forall p n t, zone_get p z n t = Done (lookup rs n t)) /\
  (forall t, Permutation (zone_get_all_of_type z t) (of_type t rs)).
Proof. intros apex rs z H. split; [exact (built_zone _ _ _ H)|]. exact (built_holds _ _ _ H). Qed.
Print Assumptions C39_store_is_the_list_of_added_records.

(** Insertion and merging can always be done (they are total), so every sequence of
    operations is covered by [built]. *)
Inductive zone_op := Op_insert (r : record) | Op_merge (ops : list zone_op).
Fixpoint run (z : zone) (o : zone_op) : zone :=
  match o with
  | Op_insert r => zone_insert z r
  | Op_merge ops => zone_extend z (fold_left run ops (zone_new (z_zone z)))
  end.
Fixpoint added (o : zone_op) : list record :=
  match o with Op_insert r => [r] | Op_merge ops => flat_map added ops end.

Fixpoint op_ind' (P : zone_op -> Prop) (Hi : forall r, P (Op_insert r))
  (Hm : forall ops, Forall P ops -> P (Op_merge ops)) (o : zone_op) : P o :=
  match o with
  | Op_insert r => Hi r
  | Op_merge ops => Hm ops ((fix go l : Forall P l :=
      match l with [] => Forall_nil _ | x :: l' => Forall_cons _ (op_ind' P Hi Hm x) (go l') end) ops)
  end.

Lemma run_built : forall o apex rs z, built apex rs z -> built apex (rs ++ added o) (run z o).
Proof.
  induction o as [r|ops IH] using op_ind'; intros apex rs z H; cbn [run added].
  - now constructor.
  - apply built_merge with (zn' := z_zone z); [assumption|].
    assert (G : forall rs0 z0, built (z_zone z) rs0 z0 -> built (z_zone z) (rs0 ++ flat_map added ops) (fold_left run ops z0)).
    { clear H. induction IH as [|o ops Ho IH IH2]; intros rs0 z0 H0; cbn [flat_map fold_left]; [now rewrite app_nil_r|].
      rewrite app_assoc. apply IH2. now apply Ho. }
    apply (G [] _ (built_new _)).
Qed.

Theorem C39_every_history : forall ops apex,
  let z := fold_left run ops (zone_new apex) in
  let rs := flat_map added ops in
  (forall p n t, zone_get p z n t = Done (lookup rs n t)) /\
  (forall t, Permutation (zone_get_all_of_type z t) (of_type t rs)).
Proof.
  intros ops apex. cbv zeta.
  assert (G : forall rs0 z0, built apex rs0 z0 -> built apex (rs0 ++ flat_map added ops) (fold_left run ops z0)).
  { induction ops as [|o ops IH]; intros rs0 z0 H0; cbn [flat_map fold_left]; [now rewrite app_nil_r|].
    rewrite app_assoc. apply IH. now apply run_built. }
  apply (C39_store_is_the_list_of_added_records apex). apply (G [] _ (built_new _)).
Qed.
Print Assumptions C39_every_history.

(** Two records at one owner, one at another, the second pair from an included file;
    after it the map happens to be iterated the other way round. *)
Definition z_a (o : name) (x : N) : record := mkRec o C_IN 60 0 (D_A [10; 0; 0; x]%N).
Theorem C39_nonvacuous :
  let a := s2b "a.x." in let b := s2b "b.x." in
  let z := fold_left run [Op_insert (z_a a 1); Op_merge [Op_insert (z_a b 2); Op_insert (z_a a 3)]] (zone_new (s2b "x.")) in
  zone_get Debug z a RT_A = Done (Some [z_a a 1; z_a a 3]) /\
  zone_get Debug (mkZone (rev (z_records z)) (s2b "x.")) a RT_A = Done (Some [z_a a 1; z_a a 3]) /\
  built (s2b "x.") [z_a a 1; z_a b 2; z_a a 3] (mkZone (rev (z_records z)) (z_zone z)).
Proof.
  cbv zeta. split; [vm_compute; reflexivity|]. split; [vm_compute; reflexivity|].
  apply built_reordered.
  - exact (run_built (Op_merge [Op_insert (z_a (s2b "b.x.") 2); Op_insert (z_a (s2b "a.x.") 3)]) _ _ _ (run_built (Op_insert (z_a (s2b "a.x.") 1)) _ _ _ (built_new _))).
  - eexists. split; [|apply Permutation_rev].
    generalize (z_records (fold_left run [Op_insert (z_a (s2b "a.x.") 1); Op_merge [Op_insert (z_a (s2b "b.x.") 2); Op_insert (z_a (s2b "a.x.") 3)]] (zone_new (s2b "x.")))).
    intros m. induction m; constructor; auto.
Qed.
