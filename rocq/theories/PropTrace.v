(** C83: printing traces. *)
From Verif Require Import Base Types Name Codec Cache Resolver Trace TraceSpec.

Lemma tline_rec' (P : tline -> Prop) (Ht : forall t, (forall l, t <> T_sub l) -> P t) (Hs : forall l, Forall P l -> P (T_sub l)) : forall t, P t.
Proof.
  fix F 1. intros t. destruct t as [n k|n k rs|n k|n l|n|n k s z|r|e|m|l]; try (apply Ht; discriminate).
  apply Hs. induction l as [|x l IH]; constructor; [apply F|exact IH].
Qed.
Lemma display_sub : forall p d l, display_line p d (T_sub l) =
  let! d' := chk_u8 p (d + 1) in let! o := display_trace_lines p d' l in Done (o ++ [(0%N, X_blank)]).
Proof.
  assert (K : forall p d l, (fix lines (l : list tline) : exec (list (N * text)) :=
                   match l with
                   | [] => Done []
                   | x :: l' => let! a := display_line p d x in let! b := lines l' in Done (a ++ b)
                   end) l = display_trace_lines p d l).
  { intros p d. induction l as [|x l IH]; [reflexivity|]. cbn [display_trace_lines]. now rewrite <- IH. }
  intros p d l. change (display_line p d (T_sub l)) with
    (let! d := chk_u8 p (d + 1) in
      let! o := (fix lines (l : list tline) : exec (list (N * text)) :=
                   match l with
                   | [] => Done []
                   | x :: l' => let! a := display_line p d x in let! b := lines l' in Done (a ++ b)
                   end) l in
      Done (o ++ [(0%N, X_blank)])).
  destruct (chk_u8 p (d + 1)) as [d'| |]; cbn [bind]; try reflexivity. now rewrite K.
Qed.
Lemma display_plain : forall p d t, (forall l, t <> T_sub l) -> display_line p d t = Done (map (pair d) (line_text t)).
Proof. intros p d t H. destruct t; try reflexivity. now destruct (H l). Qed.
(** The lines that are composed are those that should be shown. *)
Lemma server_lines_are : forall l, flat_map server_text l = server_lines l.
Proof. induction l as [|s l IH]; [reflexivity|]. cbn [flat_map server_lines]. rewrite IH. unfold server_text. reflexivity. Qed.
Lemma address_lines_are : forall l, map X_record (flat_map n_addrs l) = address_lines l.
Proof. induction l as [|s l IH]; [reflexivity|]. cbn [flat_map address_lines]. now rewrite map_app, IH. Qed.
Lemma line_shows : forall t, (forall l, t <> T_sub l) -> shows t (line_text t).
Proof.
  intros t H. destruct t as [n k|n k rs|n k|n l|n|n k s z|r|e|m|l].
  - apply sh_start.
  - apply sh_hit.
  - apply sh_miss.
  - cbn [line_text]. rewrite server_lines_are. apply sh_ns_hit.
  - apply sh_ns_miss.
  - apply sh_ns_req.
  - destruct r as [[r|]|a b|c l|l].
    + apply sh_no_domain_soa.
    + apply sh_no_domain.
    + destruct b as [|b bs]; [exact (sh_answer a [])|exact (sh_answer a (b :: bs))].
    + destruct l as [|s l]; [exact (sh_alias c [])|]. cbn [line_text]. rewrite server_lines_are. exact (sh_alias c (s :: l)).
    + cbn [line_text]. rewrite address_lines_are. apply sh_delegation.
  - apply sh_err.
  - apply sh_raw.
  - exfalso. now apply (H l).
Qed.
Lemma shows_once : forall t xs xs', shows t xs -> shows t xs' -> xs = xs'.
Proof. intros t xs xs' H H'. destruct H; inversion H'; reflexivity. Qed.
Lemma shows_plain : forall t xs, shows t xs -> forall l, t <> T_sub l.
Proof. intros t xs H l E. subst t. inversion H. Qed.
Lemma line_sub_or_not : forall t, (exists l, t = T_sub l) \/ (forall l, t <> T_sub l).
Proof. intros t. destruct t; try (right; discriminate). left. eauto. Qed.
Lemma nesting_cons : forall t l, nesting (t :: l) = Nat.max (line_nesting t) (nesting l).
Proof. reflexivity. Qed.
Lemma plain_nesting : forall t, (forall l, t <> T_sub l) -> line_nesting t = 0.
Proof. intros t H. destruct t; try reflexivity. now destruct (H l). Qed.

(** One line, given what holds for the lines nested in it. *)
Lemma debug_lines : forall l,
  Forall (fun t => forall d, (d <= 255)%N ->
    if N.of_nat (line_nesting t) + d <=? 255 then exists o, display_line Debug d t = Done o /\ prints d [t] o else display_line Debug d t = Panic POverflow)%N l ->
  forall d, (d <= 255)%N ->
  (if N.of_nat (nesting l) + d <=? 255 then exists o, display_trace_lines Debug d l = Done o /\ prints d l o else display_trace_lines Debug d l = Panic POverflow)%N.
Proof.
  induction 1 as [|t l Ht _ IH]; intros d Hd.
  - destruct (N.leb_spec (N.of_nat (nesting []) + d) 255) as [H|H]; [|cbn in H; lia]. exists []. split; [reflexivity|constructor].
  - specialize (Ht d Hd). specialize (IH d Hd). rewrite nesting_cons. cbn [display_trace_lines].
    destruct (N.leb_spec (N.of_nat (line_nesting t) + d) 255) as [H1|H1].
    + destruct Ht as (o1 & -> & P1). cbn [bind].
      destruct (N.leb_spec (N.of_nat (nesting l) + d) 255) as [H2|H2], (N.leb_spec (N.of_nat (Nat.max (line_nesting t) (nesting l)) + d) 255) as [H3|H3]; try lia.
      * destruct IH as (o2 & -> & P2). cbn [bind]. exists (o1 ++ o2). split; [reflexivity|].
        inversion P1 as [|? ? ? ? out Hp Pn|? l0 ? o3 o4 Pl Pn]; subst; inversion Pn; subst.
        -- rewrite app_nil_r. now constructor.
        -- rewrite <- app_assoc. now constructor.
      * now rewrite IH.
    + rewrite Ht. cbn [bind]. destruct (N.leb_spec (N.of_nat (Nat.max (line_nesting t) (nesting l)) + d) 255) as [H3|H3]; [lia|reflexivity].
Qed.
Lemma debug_line : forall t d, (d <= 255)%N ->
  (if N.of_nat (line_nesting t) + d <=? 255 then exists o, display_line Debug d t = Done o /\ prints d [t] o else display_line Debug d t = Panic POverflow)%N.
Proof.
  intros t. pattern t. apply tline_rec'; clear t.
  - intros t H d Hd. rewrite plain_nesting, display_plain by assumption.
    destruct (N.leb_spec (N.of_nat 0 + d) 255) as [H1|H1]; [|lia]. eexists. split; [reflexivity|].
    rewrite <- (app_nil_r (map _ _)). constructor; [now apply line_shows|constructor].
  - intros l F d Hd. rewrite display_sub. change (line_nesting (T_sub l)) with (S (nesting l)). unfold chk_u8.
    destruct (N.ltb_spec (d + 1) 256) as [H|H]; cbn [bind].
    + pose proof (debug_lines l F (d + 1)%N ltac:(lia)) as L.
      destruct (N.leb_spec (N.of_nat (nesting l) + (d + 1)) 255) as [H1|H1], (N.leb_spec (N.of_nat (S (nesting l)) + d) 255) as [H2|H2]; try lia.
      * destruct L as (o & -> & P). cbn [bind]. eexists. split; [reflexivity|]. constructor; [assumption|constructor].
      * now rewrite L.
    + destruct (N.leb_spec (N.of_nat (S (nesting l)) + d) 255) as [H2|H2]; [lia|reflexivity].
Qed.

Definition wrapped (out : list (N * text)) : list (N * text) := map (fun x => (fst x mod 256, snd x)%N) out.
Lemma release_lines : forall l,
  Forall (fun t => forall d e, (d mod 256 = e)%N -> exists o, display_line Release e t = Done (wrapped o) /\ prints d [t] o) l ->
  forall d e, (d mod 256 = e)%N -> exists o, display_trace_lines Release e l = Done (wrapped o) /\ prints d l o.
Proof.
  induction 1 as [|t l Ht _ IH]; intros d e Hd.
  - exists []. split; [reflexivity|constructor].
  - destruct (Ht d e Hd) as (o1 & E1 & P1). destruct (IH d e Hd) as (o2 & E2 & P2). cbn [display_trace_lines]. rewrite E1. cbn [bind]. rewrite E2. cbn [bind].
    exists (o1 ++ o2). split; [unfold wrapped; now rewrite map_app|].
    inversion P1 as [|? ? ? ? out Hp Pn|? l0 ? o3 o4 Pl Pn]; subst; inversion Pn; subst.
    + rewrite app_nil_r. now constructor.
    + rewrite <- app_assoc. now constructor.
Qed.
Lemma release_line : forall t d e, (d mod 256 = e)%N -> exists o, display_line Release e t = Done (wrapped o) /\ prints d [t] o.
Proof.
  intros t. pattern t. apply tline_rec'; clear t.
  - intros t H d e <-. rewrite display_plain by assumption. exists (map (pair d) (line_text t)). split.
    + f_equal. unfold wrapped. rewrite map_map. reflexivity.
    + rewrite <- (app_nil_r (map _ _)). constructor; [now apply line_shows|constructor].
  - intros l F d e Hd. rewrite display_sub. unfold chk_u8, u8. cbn [bind].
    assert (Hd' : ((d + 1) mod 256 = (e + 1) mod 256)%N).
    { subst e. rewrite N.add_mod_idemp_l by discriminate. reflexivity. }
    destruct (release_lines l F (d + 1)%N _ Hd') as (o & E & P). rewrite E. cbn [bind]. exists (o ++ [(0%N, X_blank)]). split.
    + unfold wrapped. rewrite map_app. reflexivity.
    + constructor; [assumption|constructor].
Qed.

(** Printing a trace with traces nested at most 255 deep shows everything, in order and
    indented by the nesting, whatever the build. *)
Theorem C83_traces_are_printed_partial : forall p l, nesting l <= 255 ->
  exists out, display_trace_lines p 0 l = Done out /\ prints 0 l out.
Proof.
  intros [] l H.
  - pose proof (debug_lines l (proj2 (Forall_forall _ _) (fun t _ => debug_line t)) 0%N ltac:(lia)) as D.
    destruct (N.leb_spec (N.of_nat (nesting l) + 0) 255) as [H1|H1]; [exact D|lia].
  - destruct (release_lines l (proj2 (Forall_forall _ _) (fun t _ => release_line t)) 0%N 0%N eq_refl) as (o & E & P).
    exists o. split; [|exact P]. rewrite E. f_equal. clear E.
    assert (B : forall d l o, prints d l o -> (d + N.of_nat (nesting l) <= 255)%N -> wrapped o = o).
    { clear. induction 1 as [d|d t xs ts out Hp _ IH|d l ts o1 o2 _ IH1 _ IH2]; intros B; rewrite ?nesting_cons in B.
      - reflexivity.
      - unfold wrapped in *. rewrite map_app, IH by lia. f_equal. rewrite map_map. cbn [fst snd]. rewrite N.mod_small by lia. reflexivity.
      - change (line_nesting (T_sub l)) with (S (nesting l)) in B. unfold wrapped in *. rewrite map_app. cbn [map fst snd]. rewrite IH1, IH2 by lia. reflexivity. }
    apply (B 0%N l); [assumption|lia].
Qed.
Print Assumptions C83_traces_are_printed_partial.

(** Deeper nesting: debug builds panic, release builds print everything, with the
    indentation counted modulo 256. *)
Theorem C83_deep_traces : forall l, 255 < nesting l ->
  display_trace_lines Debug 0 l = Panic POverflow /\
  exists out, prints 0 l out /\ display_trace_lines Release 0 l = Done (map (fun x => (fst x mod 256, snd x)%N) out).
Proof.
  intros l H. split.
  - pose proof (debug_lines l (proj2 (Forall_forall _ _) (fun t _ => debug_line t)) 0%N ltac:(lia)) as D.
    destruct (N.leb_spec (N.of_nat (nesting l) + 0) 255) as [H1|H1]; [lia|exact D].
  - destruct (release_lines l (proj2 (Forall_forall _ _) (fun t _ => release_line t)) 0%N 0%N eq_refl) as (o & E & P). now exists o.
Qed.
Print Assumptions C83_deep_traces.

(** Printing to the log returns in release builds, when the level leaves it out, and for
    traces that are not nested deeper than 255. *)
Lemma log_trace_ok : forall p lg l, p = Release \/ lg = false \/ nesting l <= 255 -> exists o, log_trace p lg l = Done o.
Proof.
  intros p lg l H. unfold log_trace. destruct l as [|t l]; [eauto|]. destruct lg; [|eauto]. destruct H as [->|[H|H]]; [|discriminate|].
  - destruct (Nat.le_gt_cases (nesting (t :: l)) 255) as [L|L].
    + destruct (C83_traces_are_printed_partial Release _ L) as (o & -> & _). eauto.
    + destruct (C83_deep_traces _ L) as (_ & o & _ & ->). eauto.
  - destruct (C83_traces_are_printed_partial p _ H) as (o & -> & _). eauto.
Qed.
(** What is printed says what the trace holds, and nothing else: each event's lines. *)
Theorem C83_printed_once : forall d l out out', prints d l out -> prints d l out' -> out = out'.
Proof.
  intros d l out out' H. revert out'. induction H as [d|d t xs ts out Hp _ IH|d l ts o1 o2 _ IH1 _ IH2]; intros out' H'; inversion H' as [|d' t' xs' ts' out'' Hp' P'|d' l' ts' o1' o2' P1 P2]; subst.
  - reflexivity.
  - rewrite (shows_once _ _ _ Hp Hp'). f_equal. auto.
  - now exact (False_ind _ (shows_plain _ _ Hp _ eq_refl)).
  - now exact (False_ind _ (shows_plain _ _ Hp' _ eq_refl)).
  - f_equal; [auto|]. f_equal. auto.
Qed.
Print Assumptions C83_printed_once.

Theorem C83_nonvacuous :
  nesting [T_start (s2b "a.") RT_A; T_sub [T_miss (s2b "b.") RT_A; T_sub []]; T_ns_err L_IO] = 2 /\
  display_trace_lines Debug 0 [T_start (s2b "a.") RT_A; T_sub [T_miss (s2b "b.") RT_A; T_sub []]; T_ns_err L_IO] =
    Done [(0, X_start (s2b "a.") RT_A); (1, X_miss (s2b "b.") RT_A); (0, X_blank); (0, X_blank); (0, X_err L_IO)]%N.
Proof. split; reflexivity. Qed.
