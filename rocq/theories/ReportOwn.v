(** Errors of zone files: the file whose own run fails, and where. *)
From Verif Require Import Base Types Name NameSpec Codec Zone Tokens Parser TokenSpec TokenProofs TokenSim PropCodec3 ZoneFileTotal Report ReportErase ReportSim ReportNear.

(** * Where the run of a file itself fails *)
Definition goes_on (fs : filesys) (fuel : nat) (s : pstate) (acc : zone) (z : zone_entry) (s' : pstate) (acc' : zone) : Prop :=
  match z with
  | ZOrigin o => s' = with_orig s o /\ acc' = acc
  | ZRecord r => s' = with_ttl s (r_ttl r) /\ acc' = zone_insert acc r
  | ZInclude p o => s' = s /\ exists f zz, fs p = Some f /\ acc' = zone_extend acc zz /\
      parse_entries_at fs fuel p (mkPS (ps_zone s) (ps_subs s) o (ps_ttl s) (ps_min s)) (zone_new (ps_zone s)) (tok_new f) = Done (Ok zz)
  end.
Inductive own (fs : filesys) : nat -> pstate -> zone -> tok -> zone_err -> nat -> Prop :=
| own_peek : forall fuel s acc t e, peek t = Done (Err e) -> own fs (S fuel) s acc t e (tk_line t)
| own_entry : forall fuel s acc t x t1 e, peek t = Done (Ok (x, t1)) -> x <> T_End -> entry fuel s x t1 = Done (Err e) -> own fs (S fuel) s acc t e (tk_line t1)
| own_next : forall fuel s acc t x t1 z t2 s' acc' e n, peek t = Done (Ok (x, t1)) -> x <> T_End -> entry fuel s x t1 = Done (Ok (z, t2)) ->
    goes_on fs fuel s acc z s' acc' -> own fs fuel s' acc' t2 e n -> own fs (S fuel) s acc t e n.

Definition more (fs : filesys) (fuel : nat) (path : list N) (s : pstate) (acc : zone) (y : zone_entry * tok) : exec (result zone (zone_err * place)) :=
  match y with
  | (ZOrigin o, t2) => parse_entries_at fs fuel path (with_orig s o) acc t2
  | (ZInclude path' o, t2) =>
      match fs path' with
      | None => Done (Err (ZE_ReadingErr, At_file path))
      | Some f =>
          bindR (parse_entries_at fs fuel path' (mkPS (ps_zone s) (ps_subs s) o (ps_ttl s) (ps_min s)) (zone_new (ps_zone s)) (tok_new f)) (fun z =>
          parse_entries_at fs fuel path s (zone_extend acc z) t2)
      end
  | (ZRecord r, t2) => parse_entries_at fs fuel path (with_ttl s (r_ttl r)) (zone_insert acc r) t2
  end.
Lemma entries_step : forall fs fuel path s acc t, parse_entries_at fs (S fuel) path s acc t =
  bindR (placed (At_line path (tk_line t)) (peek t)) (fun x =>
    match fst x with T_End => Done (Ok acc) | _ => bindR (placed (At_line path (tk_line (snd x))) (entry fuel s (fst x) (snd x))) (more fs fuel path s acc) end).
Proof.
  intros fs fuel path s acc t. cbn [parse_entries_at]. destruct (peek t) as [[[x t1]|e]|k|]; cbn [placed bind bindR fst snd]; try reflexivity.
Qed.
Lemma step_ok : forall fs fuel path s acc t x t1 z t2, peek t = Done (Ok (x, t1)) -> x <> T_End -> entry fuel s x t1 = Done (Ok (z, t2)) ->
  parse_entries_at fs (S fuel) path s acc t = more fs fuel path s acc (z, t2).
Proof.
  intros fs fuel path s acc t x t1 z t2 P Hx E. rewrite entries_step, P. cbn [placed bind bindR fst snd]. rewrite E. cbn [placed bind bindR]. destruct x; try reflexivity. now destruct Hx.
Qed.
Lemma step_more : forall fs fuel path s acc z s' acc' t2, goes_on fs fuel s acc z s' acc' -> more fs fuel path s acc (z, t2) = parse_entries_at fs fuel path s' acc' t2.
Proof.
  intros fs fuel path s acc z s' acc' t2 H. destruct z as [o|p o|r]; cbn [goes_on more] in *.
  - destruct H as (-> & ->). reflexivity.
  - destruct H as (-> & f & zz & Ef & -> & E). rewrite Ef, E. reflexivity.
  - destruct H as (-> & ->). reflexivity.
Qed.

Lemma own_error : forall fs fuel s acc t e n, own fs fuel s acc t e n -> forall path, parse_entries_at fs fuel path s acc t = Done (Err (e, At_line path n)).
Proof.
  intros fs fuel s acc t e n H. induction H as [fuel s acc t e P|fuel s acc t x t1 e P Hx E|fuel s acc t x t1 z t2 s' acc' e n P Hx E G H IH]; intros path.
  - rewrite entries_step, P. reflexivity.
  - rewrite entries_step, P. cbn [placed bind bindR fst snd]. rewrite E. cbn [placed bind bindR]. destruct x; try reflexivity. now destruct Hx.
  - rewrite (step_ok fs fuel path s acc t x t1 z t2 P Hx E), (step_more fs fuel path s acc z s' acc' t2 G). apply IH.
Qed.
(** The file named is the one read, or one that it includes, directly or not. *)
Lemma error_own : forall fs fuel path s acc t e P n, parse_entries_at fs fuel path s acc t = Done (Err (e, At_line P n)) ->
  (P = path /\ own fs fuel s acc t e n) \/
  exists fuel' o ttl f, fuel' < fuel /\ fs P = Some f /\ own fs fuel' (mkPS (ps_zone s) (ps_subs s) o ttl (ps_min s)) (zone_new (ps_zone s)) (tok_new f) e n.
Proof.
  intros fs. induction fuel as [|fuel IH]; intros path s acc t e P n H; [discriminate H|].
  rewrite entries_step in H. destruct (peek t) as [[[x t1]|e']|k|] eqn:Ep; cbn [placed bind bindR fst snd] in H; try discriminate H.
  2:{ assert (e' = e /\ path = P /\ tk_line t = n) as (-> & -> & <-) by (repeat split; congruence). left. split; [reflexivity|now constructor]. }
  assert (C : x = T_End \/ x <> T_End) by (destruct x; (now left) || (right; discriminate)). destruct C as [->|Hx]; [discriminate H|].
  assert (H' : bindR (placed (At_line path (tk_line t1)) (entry fuel s x t1)) (more fs fuel path s acc) = Done (Err (e, At_line P n))) by (destruct x; try exact H; now destruct Hx). clear H.
  destruct (entry fuel s x t1) as [[[z t2]|e']|k|] eqn:Ee; cbn [placed bind bindR] in H'; try discriminate H'.
  2:{ assert (e' = e /\ path = P /\ tk_line t1 = n) as (-> & -> & <-) by (repeat split; congruence). left. split; [reflexivity|]. now apply (own_entry fs fuel s acc t x t1). }
  assert (K : forall s' acc', goes_on fs fuel s acc z s' acc' -> ps_zone s' = ps_zone s -> ps_subs s' = ps_subs s -> ps_min s' = ps_min s ->
    parse_entries_at fs fuel path s' acc' t2 = Done (Err (e, At_line P n)) ->
    (P = path /\ own fs (S fuel) s acc t e n) \/
    exists fuel' o ttl f, fuel' < S fuel /\ fs P = Some f /\ own fs fuel' (mkPS (ps_zone s) (ps_subs s) o ttl (ps_min s)) (zone_new (ps_zone s)) (tok_new f) e n).
  { intros s' acc' G Z1 Z2 Z3 E. destruct (IH path s' acc' t2 e P n E) as [(-> & O)|(fuel' & o & ttl & f & L & Ef & O)].
    - left. split; [reflexivity|]. now apply (own_next fs fuel s acc t x t1 z t2 s' acc').
    - right. exists fuel', o, ttl, f. rewrite Z1, Z2, Z3 in O. split; [lia|]. now split. }
  destruct z as [o|p o|r]; cbn [more] in H'.
  - apply (K (with_orig s o) acc); try reflexivity; [now split|exact H'].
  - destruct (fs p) as [f|] eqn:Ef; [|discriminate H']. destruct (parse_entries_at fs fuel p _ _ (tok_new f)) as [[zz|e']|k|] eqn:Ei; cbn [bindR bind] in H'; try discriminate H'.
    + apply (K s (zone_extend acc zz)); try reflexivity; [|exact H']. split; [reflexivity|]. exists f, zz. now repeat split.
    + assert (e' = (e, At_line P n)) as -> by congruence. destruct (IH p _ _ (tok_new f) e P n Ei) as [(-> & O)|(fuel' & o' & ttl & f' & L & Ef' & O)].
      * right. exists fuel, o, (ps_ttl s), f. cbn [ps_zone ps_subs ps_min] in O. split; [lia|]. now split.
      * right. exists fuel', o', ttl, f'. cbn [ps_zone ps_subs ps_min] in O. split; [lia|]. now split.
  - apply (K (with_ttl s (r_ttl r)) (zone_insert acc r)); try reflexivity; [now split|exact H'].
Qed.

(** * Lines are read in order *)
Lemma late_start : forall A (k : result (token * tok) zone_err -> exec (result (A * tok) zone_err)),
  (forall x, lateT (fun t => k (Ok (x, t)))) -> (forall e, exists j, k (Err e) = Panic j) -> lateT (fun t0 => let! r := next t0 in k r).
Proof.
  intros A k Hk He n t a t1 G L Lt E. destruct (next t) as [[[x u]|e]|kd|] eqn:En; cbn [bind] in E; try discriminate E.
  - destruct (late_next n t x u G L Lt En) as (G1 & L1 & H). exact (Hk x n u a t1 G1 L1 (late_of_tok _ _ _ H) E).
  - destruct (He e) as (j & X). congruence.
Qed.
Ltac started := unfold parse_origin, parse_include, parse_record, parse_sub_record; apply late_start; [|intros e; eexists; reflexivity];
  intros x; cbv beta iota; try match goal with |- lateT (fun t => ?m t) => change (lateT m) end.
Lemma late_origin : forall s, lateT (parse_origin s).
Proof. intros s. started. destruct x; try (intros k t a t1 _ _ _ E; discriminate E). match goal with |- lateT (fun t => ?m t) => change (lateT m) end. latet. Qed.
Lemma late_include : forall s, lateT (parse_include s).
Proof. intros s. started. destruct x; try (intros k t a t1 _ _ _ E; discriminate E). match goal with |- lateT (fun t => ?m t) => change (lateT m) end. latet. Qed.
Lemma late_record : forall fuel s, lateT (parse_record fuel s).
Proof. intros fuel s. started. latet; try apply late_ttl_class; try apply late_data. Qed.
Lemma late_sub_record : forall zn ttl mn, lateT (parse_sub_record zn ttl mn).
Proof. intros zn ttl mn. started. latet; try apply late_ttl_class; try apply late_a; try apply late_ns. Qed.
Lemma late_entry : forall fuel s x, lateT (entry fuel s x).
Proof. intros fuel s x. destruct x; cbn [entry]; try apply late_origin; try apply late_include; try apply late_record; intros k t a t1 _ _ _ E; discriminate E. Qed.

Lemma peeked_end : forall t x t1, good t -> peek t = Done (Ok (x, t1)) -> In x (tk_peeked t1).
Proof.
  intros t x t1 G E. unfold peek in E. destruct (next t) as [[[y u]|e]|k|]; cbn [bindR bind fst snd] in E; try discriminate E.
  assert (t1 = with_peeked u (tk_peeked u ++ [x]) ) as -> by congruence. cbn. apply in_or_app. right. now left.
Qed.
Lemma not_ended : forall t x t1, good t -> peek t = Done (Ok (x, t1)) -> x <> T_End -> ~ ended t1.
Proof. intros t x t1 G E Hx (_ & _ & _ & F). rewrite Forall_forall in F. apply Hx. symmetry. apply F. now apply (peeked_end t x t1). Qed.
Lemma own_late : forall fs fuel s acc t e n, own fs fuel s acc t e n -> good t -> 1 <= tk_line t -> forall k, late k t -> k <= n.
Proof.
  intros fs fuel s acc t e n H. induction H as [fuel s acc t e P|fuel s acc t x t1 e P Hx E|fuel s acc t x t1 z t2 s' acc' e n P Hx E G H IH]; intros Gt L k Lt.
  - destruct Lt as [D|Lt]; [|lia]. exfalso. unfold peek in P. destruct (ended_next t D) as (u & Eu & _). rewrite Eu in P. discriminate P.
  - destruct (late_peek k t x t1 Gt L Lt P) as (G1 & L1 & [D|Lt1]); [|lia]. now apply (not_ended t x t1) in D.
  - destruct (late_peek k t x t1 Gt L Lt P) as (G1 & L1 & Lt1). destruct (late_entry fuel s x k t1 z t2 G1 L1 Lt1 E) as (G2 & L2 & Lt2). now apply IH.
Qed.

(** At the start of a line that does not start with a parenthesis, the first token is on that
    line. *)
Definition no_paren_first (f : file) : Prop := forall l, In (Some l) f -> hd 0%N l <> 40%N.
Lemma peek_bnd : forall f t x t1, bnd f t -> tk_peeked t = [] -> 1 <= tk_line t -> hd 0%N (tk_cur t) <> 40%N -> peek t = Done (Ok (x, t1)) ->
  tk_line t1 = tk_line t /\ eol x = false.
Proof.
  intros f t x t1 (_ & Hc & Hm) P L H40 E. unfold peek, next in E. cbn [next_rec] in E. unfold bootstrap in E. destruct (tk_line t =? 0) eqn:X; [apply Nat.eqb_eq in X; lia|].
  unfold fetch in E. rewrite P in E. destruct (tk_cur t) as [|ch cur] eqn:Ec; [discriminate Hc|]. rewrite ?Ec in E. cbn [hd] in H40.
  assert (Z : forall c y, y = T_Blank \/ y = T_OriginDir \/ y = T_IncludeDir \/ y = T_At \/ (exists v, y = T_Number v) \/ (exists v, y = T_String v) \/ (exists v, y = T_QString v) ->
    @Done (result (token * tok) zone_err) (Ok (fst (y, with_cur t c), with_peeked (snd (y, with_cur t c)) (tk_peeked (snd (y, with_cur t c)) ++ [fst (y, with_cur t c)]))) = Done (Ok (x, t1)) ->
    tk_line t1 = tk_line t /\ eol x = false).
  { intros c y Hy Q. cbn [fst snd] in Q. assert (x = y) as -> by congruence. assert (t1 = with_peeked (with_cur t c) (tk_peeked (with_cur t c) ++ [y])) as -> by congruence.
    split; [reflexivity|]. destruct Hy as [->|[->|[->|[->|[(v & ->)|[(v & ->)|(v & ->)]]]]]]; reflexivity. }
  destruct ((ch =? 32) || (ch =? 9))%N; [eapply Z; [|exact E]; tauto|].
  destruct (ch =? 36)%N eqn:E36.
  { unfold process_directive in E. rewrite E36 in E. cbn [assert_] in E. destruct (word_loop _ _ _) as [[[d c]|e]|kd|]; cbn [bind bindR] in E; try discriminate E.
    destruct (bytes_eqb _ _); [eapply Z; [|exact E]; tauto|]. destruct (bytes_eqb _ _); [eapply Z; [|exact E]; tauto|discriminate E]. }
  destruct (ch =? 34)%N eqn:E34.
  { unfold process_quoted_string in E. rewrite E34 in E. cbn [assert_] in E. destruct (quote_loop _ _ _) as [[[[cl s] c]|e]|kd|]; cbn [bind bindR] in E; try discriminate E.
    destruct cl; [|discriminate E]. eapply Z; [|exact E]. repeat right. now eexists. }
  destruct (ch =? 40)%N eqn:E40; [apply N.eqb_eq in E40; contradiction|].
  destruct (ch =? 41)%N. { rewrite Hm in E. discriminate E. }
  destruct (ch =? 59)%N eqn:E59. { apply N.eqb_eq in E59. subst ch. discriminate Hc. }
  unfold process_string_or_number in E. destruct (word_loop _ _ _) as [[[d c]|e]|kd|]; cbn [bind bindR] in E; try discriminate E.
  destruct (bytes_eqb _ _); [eapply Z; [|exact E]; tauto|].
  destruct (parse_u32 _) as [v|]; (eapply Z; [|exact E]); [do 4 right; left; now eexists|do 5 right; left; now eexists].
Qed.
