(** Properties of the resolver's helpers on lists: C53 (extraction), C54 (sorting), C55
    (hierarchy). *)
From Coq Require Import Permutation.
From Verif Require Import Base Types Name NameSpec NameProofs Codec Cache Resolver.

Lemma rtype_eqb_eq : forall a b, rtype_eqb a b = true <-> a = b.
Proof. intros a b. unfold rtype_eqb. destruct (rtype_eq_dec a b); split; congruence. Qed.

(** * C53 *)
Lemma set_nth_app : forall A (l1 : list A) x l2 y, set_nth (l1 ++ x :: l2) (length l1) y = l1 ++ y :: l2.
Proof. induction l1 as [|z l1 IH]; intros x l2 y; cbn; [reflexivity|]. now rewrite IH. Qed.
Lemma swap_remove_last : forall A (l1 : list A) x, swap_remove (l1 ++ [x]) (length l1) = l1.
Proof.
  intros A l1 x. unfold swap_remove. rewrite rev_app_distr. cbn [rev app]. rewrite app_length. cbn [length].
  replace (length l1 =? length l1 + 1 - 1) with true by (symmetry; apply Nat.eqb_eq; lia). apply removelast_last.
Qed.
Lemma swap_remove_mid : forall A (l1 : list A) x l2 z, swap_remove (l1 ++ x :: l2 ++ [z]) (length l1) = l1 ++ z :: l2.
Proof.
  intros A l1 x l2 z. unfold swap_remove.
  replace (l1 ++ x :: l2 ++ [z]) with ((l1 ++ x :: l2) ++ [z]) by (rewrite <- app_assoc; reflexivity).
  rewrite rev_app_distr. cbn [rev app]. rewrite app_length. cbn [length].
  replace (length l1 =? length (l1 ++ x :: l2) + 1 - 1) with false by (symmetry; apply Nat.eqb_neq; rewrite app_length; cbn [length]; lia).
  rewrite removelast_last. apply set_nth_app.
Qed.
Lemma swap_remove_spec : forall A (l1 : list A) x l2, exists l2', swap_remove (l1 ++ x :: l2) (length l1) = l1 ++ l2' /\ Permutation l2' l2.
Proof.
  intros A l1 x l2. destruct l2 as [|y l2 _] using rev_ind; [exists []; rewrite app_nil_r; split; [apply swap_remove_last|constructor]|].
  exists (y :: l2). split; [apply swap_remove_mid|apply Permutation_cons_append].
Qed.

Lemma find_from_spec : forall f start l i0, start <= i0 ->
  match find_from f l start i0 with
  | None => Forall (fun r => f r = false) l
  | Some (i, r) => exists l1 l2, l = l1 ++ r :: l2 /\ i = i0 + length l1 /\ f r = true /\ Forall (fun r => f r = false) l1
  end.
Proof.
  intros f start. induction l as [|x l IH]; intros i0 Hs; cbn [find_from]; [constructor|].
  replace (start <=? i0) with true by (symmetry; apply Nat.leb_le; lia). cbn [andb].
  destruct (f x) eqn:E; [exists [], l; cbn; repeat split; [lia|assumption|constructor]|].
  specialize (IH (S i0) ltac:(lia)). destruct (find_from f l start (S i0)) as [[i r]|]; [|now constructor].
  destruct IH as (l1 & l2 & -> & -> & Hr & Hl). exists (x :: l1), l2. cbn. repeat split; [lia|assumption|now constructor].
Qed.
(** with an already searched beginning *)
Lemma find_from_spec2 : forall f pre l i0,
  match find_from f (pre ++ l) (i0 + length pre) i0 with
  | None => Forall (fun r => f r = false) l
  | Some (i, r) => exists l1 l2, l = l1 ++ r :: l2 /\ i = i0 + length pre + length l1 /\ f r = true /\ Forall (fun r => f r = false) l1
  end.
Proof.
  intros f. induction pre as [|x pre IH]; intros l i0; cbn [app length].
  - pose proof (find_from_spec f (i0 + 0) l i0 ltac:(lia)) as H. destruct (find_from f l (i0 + 0) i0) as [[i r]|]; [|exact H].
    destruct H as (l1 & l2 & -> & -> & Hr & Hl). exists l1, l2. repeat split; [lia|assumption|assumption].
  - cbn [find_from]. replace (i0 + S (length pre) <=? i0) with false by (symmetry; apply Nat.leb_gt; lia). cbn [andb].
    specialize (IH l (S i0)). replace (S i0 + length pre) with (i0 + S (length pre)) in IH by lia. exact IH.
Qed.

Lemma extract_loop_spec : forall f fuel pre l acc, length l < fuel -> Forall (fun r => f r = false) pre -> Forall (fun r => f r = true) acc ->
  exists got rest, extract_loop fuel f (pre ++ l) (length pre) acc = (acc ++ got, rest) /\
    Forall (fun r => f r = true) got /\ Forall (fun r => f r = false) rest /\ Permutation (got ++ rest) (pre ++ l).
Proof.
  intros f. induction fuel as [|fuel IH]; intros pre l acc Hf Hpre Hacc; [lia|]. cbn [extract_loop].
  destruct (Nat.leb_spec (length (pre ++ l)) (length pre)) as [Hle|Hgt].
  { rewrite app_length in Hle. destruct l; [|cbn in Hle; lia]. exists [], pre. rewrite !app_nil_r. repeat split; auto. }
  pose proof (find_from_spec2 f pre l 0) as H. cbn [Nat.add] in H. destruct (find_from f (pre ++ l) (length pre) 0) as [[i r]|].
  - destruct H as (l1 & l2 & -> & -> & Hr & Hl).
    destruct (swap_remove_spec record (pre ++ l1) r l2) as (l2' & E & P). rewrite app_length in E.
    rewrite <- app_assoc in E. rewrite E. rewrite <- app_length.
    destruct (IH (pre ++ l1) l2' (acc ++ [r])) as (got & rest & Eg & Hg & Hrst & Pg).
    + rewrite app_length in Hf. cbn [length] in Hf. rewrite (Permutation_length P). lia.
    + apply Forall_app. now split.
    + apply Forall_app. split; [assumption|now repeat constructor].
    + exists (r :: got), rest. rewrite <- app_assoc in Eg. cbn [app] in Eg. rewrite <- app_assoc in *. rewrite Eg. repeat split; [now constructor|assumption|].
      cbn [app]. rewrite Pg. rewrite (app_assoc pre l1 (r :: l2)). rewrite <- Permutation_middle. rewrite <- app_assoc. constructor. now rewrite P.
  - exists [], (pre ++ l). rewrite app_nil_r. repeat split; [constructor|apply Forall_app; now split|reflexivity].
Qed.

Lemma is_wanted_spec : forall kind node r, is_wanted kind node r = true <-> r_node r = node /\ record_type r = kind.
Proof. intros kind node r. unfold is_wanted. now rewrite andb_true_iff, bytes_eqb_eq, rtype_eqb_eq. Qed.

Theorem C53_extract_records : forall l kind node, exists got rest, extract_records l kind node = (got, rest) /\
  Permutation (got ++ rest) l /\
  (forall r, In r got -> r_node r = node /\ record_type r = kind) /\
  (forall r, In r rest -> ~ (r_node r = node /\ record_type r = kind)).
Proof.
  intros l kind node. destruct (extract_loop_spec (is_wanted kind node) (S (length l)) [] l []) as (got & rest & E & H1 & H2 & P); [lia|constructor|constructor|].
  exists got, rest. split; [exact E|]. split; [exact P|]. rewrite Forall_forall in H1, H2. split.
  - intros r Hr. now apply is_wanted_spec, H1.
  - intros r Hr C. apply is_wanted_spec in C. now rewrite H2 in C.
Qed.
Print Assumptions C53_extract_records.

Theorem C53_extract_record : forall l kind node,
  (exists r rest before after, extract_record l kind node = (Some r, rest) /\ l = before ++ r :: after /\
     r_node r = node /\ record_type r = kind /\ Permutation rest (before ++ after) /\
     (forall x, In x before -> ~ (r_node x = node /\ record_type x = kind))) \/
  (extract_record l kind node = (None, l) /\ forall x, In x l -> ~ (r_node x = node /\ record_type x = kind)).
Proof.
  intros l kind node. unfold extract_record. pose proof (find_from_spec (is_wanted kind node) 0 l 0 ltac:(lia)) as H.
  destruct (find_from (is_wanted kind node) l 0 0) as [[i r]|].
  - destruct H as (l1 & l2 & -> & -> & Hr & Hl). left. destruct (swap_remove_spec record l1 r l2) as (l2' & E & P).
    cbn [Nat.add]. rewrite E. exists r, (l1 ++ l2'), l1, l2. apply is_wanted_spec in Hr as (H1 & H2).
    repeat split; try assumption; [now rewrite P|]. intros x Hx C. apply is_wanted_spec in C. rewrite Forall_forall in Hl. now rewrite Hl in C.
  - right. split; [reflexivity|]. intros x Hx C. apply is_wanted_spec in C. rewrite Forall_forall in H. now rewrite H in C.
Qed.
Print Assumptions C53_extract_record.

Definition exA (n : String.string) (t : N) (a : N) : record := mkRec (s2b n) C_IN t 0 (D_A [10; 0; 0; a]%N).
Theorem C53_nonvacuous :
  extract_records [exA "b." 1 0; exA "a." 1 1; exA "b." 1 2; exA "a." 1 3; exA "a." 1 4] RT_A (s2b "a.")
    = ([exA "a." 1 1; exA "a." 1 4; exA "a." 1 3], [exA "b." 1 0; exA "b." 1 2]) /\
  extract_record [exA "b." 1 0; exA "a." 1 1; exA "b." 1 2; exA "a." 1 3] RT_A (s2b "a.")
    = (Some (exA "a." 1 1), [exA "b." 1 0; exA "a." 1 3; exA "b." 1 2]).
Proof. split; reflexivity. Qed.

(** * C54 *)
(** A server with addresses: all of its address records are A records. *)
Definition addresses_only (s : nsrv) : Prop := Forall (fun r => record_type r = RT_A) (n_addrs s).
Definition addressed (s : nsrv) : bool := match n_addrs s with [] => false | _ => true end.

Lemma record_type_A : forall r, record_type r = RT_A -> exists a, r_data r = D_A a.
Proof. intros r H. unfold record_type in H. destruct (r_data r); try discriminate. now eexists. Qed.
Lemma ips_total : forall rs, Forall (fun r => record_type r = RT_A) rs -> exists l, ips rs = Done l /\ length l = length rs.
Proof.
  induction rs as [|r rs IH]; intros H; cbn [ips]; [now exists []|]. inversion H; subst.
  destruct (record_type_A r) as (a & E); [assumption|]. unfold a_data. rewrite E. cbn [bind].
  destruct IH as (l & -> & Hl); [assumption|]. cbn [bind]. exists (a :: l). cbn. now rewrite Hl.
Qed.
Lemma cmp_ns_eq : forall a b, addresses_only a -> addresses_only b -> cmp_ns a b =
  Done match addressed a, addressed b with true, false => Lt | false, true => Gt | _, _ => Eq end.
Proof.
  intros a b Ha Hb. unfold cmp_ns, ns_addrs, addressed.
  destruct (ips_total _ Ha) as (la & -> & La). destruct (ips_total _ Hb) as (lb & -> & Lb). cbn [bind].
  destruct (n_addrs a), (n_addrs b), la, lb; cbn in La, Lb; try lia; reflexivity.
Qed.
Lemma insert_sorted : forall x l1 l2, addresses_only x -> Forall addresses_only (l1 ++ l2) ->
  Forall (fun s => addressed s = true) l1 -> Forall (fun s => addressed s = false) l2 ->
  insert_ns x (l1 ++ l2) = Done (if addressed x then x :: l1 ++ l2 else l1 ++ x :: l2).
Proof.
  intros x l1 l2 Hx Hf H1 H2. induction l1 as [|y l1 IH]; cbn [app insert_ns].
  - destruct l2 as [|y l2]; [now destruct (addressed x)|]. inversion Hf; subst. inversion H2; subst. cbn [insert_ns]. rewrite cmp_ns_eq by assumption. cbn [bind].
    match goal with H : addressed y = false |- _ => rewrite H end. now destruct (addressed x).
  - cbn [app] in Hf. inversion Hf; subst. inversion H1; subst. rewrite cmp_ns_eq by assumption. cbn [bind].
    match goal with H : addressed y = true |- _ => rewrite H end. destruct (addressed x) eqn:E; [reflexivity|].
    rewrite IH by assumption. reflexivity.
Qed.
(** Sorting puts the servers with addresses first and changes the order of no others. *)
Theorem C54_servers_with_addresses_first : forall l, Forall addresses_only l ->
  sort_nameservers l = Done (filter addressed l ++ filter (fun s => negb (addressed s)) l).
Proof.
  induction l as [|x l IH]; intros H; [reflexivity|]. inversion H; subst. cbn [sort_nameservers]. rewrite IH by assumption. cbn [bind].
  rewrite insert_sorted.
  - cbn [filter]. destruct (addressed x); reflexivity.
  - assumption.
  - apply Forall_app. split; apply Forall_forall; intros y Hy; apply filter_In in Hy as (Hy & _); rewrite Forall_forall in *; auto.
  - apply Forall_forall. intros y Hy. now apply filter_In in Hy as (_ & Hy).
  - apply Forall_forall. intros y Hy. apply filter_In in Hy as (_ & Hy). now destruct (addressed y).
Qed.
Print Assumptions C54_servers_with_addresses_first.
Definition exNs (n : String.string) (a : list record) : nsrv := mkNs (mkRec (s2b "z.") C_IN 1 0 (D_NS (s2b n))) a.
Theorem C54_nonvacuous :
  let l := [exNs "a." []; exNs "b." [exA "b." 1 1]; exNs "c." []; exNs "d." [exA "d." 1 2; exA "d." 1 3]] in
  Forall addresses_only l /\
  sort_nameservers l = Done [exNs "b." [exA "b." 1 1]; exNs "d." [exA "d." 1 2; exA "d." 1 3]; exNs "a." []; exNs "c." []].
Proof. split; [repeat constructor|reflexivity]. Qed.

(** * C55 *)
(** A name and its ancestors below the root, the most specific first. *)
Fixpoint ancestors (ls : list (list N)) : list (list (list N)) :=
  match ls with [] => [] | _ :: ls' => ls :: ancestors ls' end.

Lemma parents_label : forall l s, nodot l -> parents (l ++ DOT :: s) = match s with [] => [] | _ => s :: parents s end.
Proof.
  intros l s H. induction l as [|c l IH]; cbn [app parents]; [reflexivity|].
  inversion H; subst. replace (c =? DOT)%N with false; [now apply IH|]. symmetry. apply N.eqb_neq. assumption.
Qed.
Lemma parents_dotted : forall ls, Forall nodot ls -> parents (dotted ls) = map dotted (ancestors (tl ls)).
Proof.
  induction ls as [|l ls IH]; intros H; [reflexivity|]. inversion H; subst. cbn [dotted flat_map tl].
  rewrite <- app_assoc. cbn [app]. rewrite parents_label by assumption. change (flat_map (fun l0 => l0 ++ [46%N]) ls) with (dotted ls).
  rewrite IH by assumption. destruct ls as [|l' ls']; [reflexivity|]. cbn [tl ancestors map].
  destruct (dotted (l' :: ls')) eqn:E; [now apply dotted_nonempty in E|reflexivity].
Qed.
Theorem C55_hierarchy : forall s ls, is_name s ls ->
  generate_domain_hierarchy s = match ls with [] => [[46%N]] | _ => map name_text (ancestors ls) end.
Proof.
  intros s ls (-> & Hg & _). unfold generate_domain_hierarchy. destruct ls as [|l ls]; [reflexivity|].
  cbn [name_text]. rewrite parents_dotted by now apply goods_nodot. cbn [tl ancestors map name_text]. f_equal.
  assert (G : forall x, In x (ancestors ls) -> dotted x = name_text x). { clear. induction ls as [|l ls IH]; cbn; [easy|]. intros x [<- | H]; [reflexivity|auto]. }
  now apply map_ext_in.
Qed.
Print Assumptions C55_hierarchy.
Lemma ancestors_names : forall ls, Forall good_label ls -> length (dotted ls) <= 255 -> Forall accepted (map name_text (ancestors ls)).
Proof.
  induction ls as [|l ls IH]; intros H L; cbn [ancestors map]; [constructor|]. constructor.
  - exists (l :: ls). now repeat split.
  - inversion H; subst. apply IH; [assumption|]. cbn [dotted flat_map] in L. rewrite app_length in L. fold (dotted ls) in L. lia.
Qed.
Theorem C55_hierarchy_is_accepted : forall s, accepted s -> Forall accepted (generate_domain_hierarchy s).
Proof.
  intros s (ls & H). rewrite (C55_hierarchy s ls H). destruct H as (-> & Hg & Hl). destruct ls as [|l ls].
  - constructor; [|constructor]. exists []. repeat split; [constructor|cbn; lia].
  - now apply ancestors_names.
Qed.
Print Assumptions C55_hierarchy_is_accepted.
Theorem C55_nonvacuous : accepted (s2b "a.b.c.") /\
  generate_domain_hierarchy (s2b "a.b.c.") = [s2b "a.b.c."; s2b "b.c."; s2b "c."] /\ generate_domain_hierarchy (s2b ".") = [s2b "."].
Proof. split; [apply validate_name_dec; reflexivity|split; reflexivity]. Qed.
