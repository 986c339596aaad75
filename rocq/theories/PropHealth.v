(** C78: in a healthy domain name system, lookups find what there is. *)
From Coq Require Import Permutation.
From Verif Require Import Base Types Name NameSpec NameProofs Codec CodecSpec CodecWrite CodecMessage PropCodec1 ZoneSpec NsSpec PropNs Cache Resolver ResolverLists ResolverSpec ResolverInv ResolverRun ResolverFacts ResolverEx PropResolver1 PropResolver2 PropResolver3 PropResolver5 ResolverStays PropResolver7 PropTalk HealthSpec HealthRun.

Section Main.
  Context (p : profile) (env : environment) (D : directory) (Y : layout) (T : N) (conf : rconf) (n0 : nat).
  Let start : N := ev_now (env n0).
  Context (EO : env_ok plain_record env) (Quick : forall n, (ev_now' (env n) < ev_now (env n) + SECOND)%N).
  Context (HE : healthy p env D Y start T (max_retries conf) (max_ns conf)).
  Context (Xtra : rcache -> Prop) (XE : extra env D Y start T Xtra).
  Context (Hnf : no_follow conf = false).
  Context (fuel : nat) (Hfuel : 256 < fuel /\ forall z, D z RT_NS <> [] -> 256 + depth Y z < fuel).
  Notation winv := (winv env plain_record (fun _ => True) 0).
  Notation wise := (wise env D Y T n0 Xtra).

  Lemma one_lookup : forall q kind w, winv w -> wise w -> fair_question D conf q kind -> (kind = RT_CNAME -> others_leave env q) -> forall res l' w', perform p env fuel (new_lookup conf q kind, w) = (res, (l', w')) ->
    late env T w' \/ right_answer D q kind res /\ winv w' /\ (leaves_no_trap D Y q kind -> wise w' /\ keeps_anchors Y T (w_cache w) (w_cache w')).
  Proof.
    intros q kind w Hw Hws (Hs & Hk & cs & rs & Hl & Hc) Hkc res l' w' E. destruct Hfuel as (F1 & F2). destruct fuel as [|f]; [lia|].
    pose proof (perform_true p env D Y T (max_retries conf) (max_ns conf) n0 EO Quick HE Xtra XE (f - 256) f ltac:(lia) (sub_all p env D Y T (max_retries conf) (max_ns conf) n0 EO Quick HE Xtra XE (f - 256) f ltac:(lia)) kind q cs rs [] conf w Hl Hk Hkc Hs Hw Hws Hc eq_refl eq_refl (or_intror Hnf)) as G.
    change (mkLookup q kind [] [] [] [] conf) with (new_lookup conf q kind) in G. rewrite E in G. unfold good_end in G. cbn [fst snd app] in G.
    destruct G as [L|(x & cs' & rs' & G1 & G2 & G3 & G4 & G5 & G6 & G7)]; [|now left|].
    - intros z Hz _. specialize (F2 z Hz). split; [lia|intros z' []].
    - right. split; [exists cs, rs, x, cs', rs'; split; [exact Hl|]; split; [exact G1|]; split; [exact G2|]; split; [exact G3|]; now split|]. split; [exact G6|]. intros Ht. apply G7. intros Hkn r Hr. exact (Ht Hkn cs rs r Hl Hr).
  Qed.
  Lemma lookup_late : forall q kind w, late env T w -> late env T (snd (snd (perform p env fuel (new_lookup conf q kind, w)))).
  Proof.
    intros q kind w L. destruct fuel as [|f]; [exact L|]. cbn [perform]. unfold lbind, lget. cbn [fst snd new_lookup l_conf].
    exact (proj1 (late_parts p env T f f (max_cname conf) (new_lookup conf q kind, w) L)).
  Qed.
  Lemma lookups_late : forall qs w, late env T w -> late env T (snd (lookups p env conf fuel qs w)).
  Proof.
    induction qs as [|[q kind] qs IH]; intros w L; [exact L|]. cbn [lookups]. pose proof (lookup_late q kind w L) as L1. destruct (perform _ _ _ _) as [r [l1 w1]]. cbn [snd] in L1.
    specialize (IH w1 L1). destruct (lookups _ _ _ _ _ _) as [rs w2]. exact IH.
  Qed.
  Lemma all_lookups : forall qs w, winv w -> wise w -> Forall (fun qk => fair_question D conf (fst qk) (snd qk) /\ leaves_no_trap D Y (fst qk) (snd qk) /\ (snd qk = RT_CNAME -> others_leave env (fst qk))) qs ->
    late env T (snd (lookups p env conf fuel qs w)) \/ Forall2 (fun qk r => right_answer D (fst qk) (snd qk) r) qs (fst (lookups p env conf fuel qs w)) /\ cache_true D Y start T (w_cache (snd (lookups p env conf fuel qs w))).
  Proof.
    induction qs as [|[q kind] qs IH]; intros w Hw Hws Hq; [right; split; [constructor|apply Hws]|]. cbn [lookups]. inversion Hq as [|? ? (Q1 & Q2 & Q3) Hq']; subst. cbn [fst snd] in *.
    destruct (perform p env fuel (new_lookup conf q kind, w)) as [r [l1 w1]] eqn:E. destruct (one_lookup q kind w Hw Hws Q1 Q3 r l1 w1 E) as [L|(R & Hw1 & Hws1)].
    - left. pose proof (lookups_late qs w1 L) as L2. destruct (lookups _ _ _ _ _ _). exact L2.
    - specialize (IH w1 Hw1 (proj1 (Hws1 Q2)) Hq'). destruct (lookups p env conf fuel qs w1) as [rs w2]. cbn [fst snd] in *. destruct IH as [L|(F & C)]; [now left|right]. split; [now constructor|exact C].
  Qed.
End Main.

(** The DNS is healthy: there is a directory; of the root servers, and of the servers of
    every zone, fewer than [max_ns] are broken (silent, or responding worthlessly), the others
    respond to one of [max_retries] tries in a row, and honestly; referrals to zones come with
    the addresses of a working server, valid until [T], or the servers have names in other
    zones (of smaller depth), where they are looked up. What the cache holds at the beginning
    is true, other threads keep it so, and cache accesses take less than a second. Then a
    lookup of which all clock readings are before [T] finds what there is, through aliases as
    many as configured. (For lookups of type CNAME, other threads must not store that very
    alias meanwhile. [fuel]: the nesting of lookups is as deep as the depths of zones.) *)
Theorem C78_lookups_find_what_is_there_partial : forall p env D Y T conf q kind w fuel res l' w',
  env_ok plain_record env -> (forall n, (ev_now' (env n) < ev_now (env n) + SECOND)%N) ->
  healthy p env D Y (ev_now (env (w_n w))) T (max_retries conf) (max_ns conf) -> others_true env D Y (ev_now (env (w_n w))) T ->
  cache_ok plain_record (ev_now (env (w_n w))) (w_cache w) -> cache_true D Y (ev_now (env (w_n w))) T (w_cache w) ->
  no_follow conf = false -> fair_question D conf q kind -> (kind = RT_CNAME -> others_leave env q) ->
  256 < fuel /\ (forall z, D z RT_NS <> [] -> 256 + depth Y z < fuel) ->
  perform p env fuel (new_lookup conf q kind, w) = (res, (l', w')) -> (forall m, m < w_n w' -> (ev_now' (env m) < T)%N) ->
  right_answer D q kind res.
Proof.
  intros p env D Y T conf q kind w fuel res l' w' EO Quick HE HOt Hc Ht Hnf Hq Hkc Hf E Htime.
  destruct (one_lookup p env D Y T conf (w_n w) EO Quick HE (fun _ => True) (extra_none _ _ _ _ _ HOt) Hnf fuel Hf q kind w) with (res := res) (l' := l') (w' := w') as [(m & M1 & M2)|(R & _)]; try assumption.
  - split; [exact Hc|]. split; [apply Forall_forall; intros; exact I|lia].
  - split; [split; [lia|exact Logic.I]|exact Ht].
  - specialize (Htime m M1). lia.
Qed.
Print Assumptions C78_lookups_find_what_is_there_partial.

(** So do all lookups of a sequence, whatever they are (but NS lookups, see below), and what
    the cache holds stays true. *)
Theorem C78_all_lookups_find_what_is_there_partial : forall p env D Y T conf qs w fuel res w',
  env_ok plain_record env -> (forall n, (ev_now' (env n) < ev_now (env n) + SECOND)%N) ->
  healthy p env D Y (ev_now (env (w_n w))) T (max_retries conf) (max_ns conf) -> others_true env D Y (ev_now (env (w_n w))) T ->
  cache_ok plain_record (ev_now (env (w_n w))) (w_cache w) -> cache_true D Y (ev_now (env (w_n w))) T (w_cache w) ->
  no_follow conf = false -> Forall (fun qk => fair_question D conf (fst qk) (snd qk) /\ leaves_no_trap D Y (fst qk) (snd qk) /\ (snd qk = RT_CNAME -> others_leave env (fst qk))) qs ->
  256 < fuel /\ (forall z, D z RT_NS <> [] -> 256 + depth Y z < fuel) ->
  lookups p env conf fuel qs w = (res, w') -> (forall m, m < w_n w' -> (ev_now' (env m) < T)%N) ->
  Forall2 (fun qk r => right_answer D (fst qk) (snd qk) r) qs res /\ cache_true D Y (ev_now (env (w_n w))) T (w_cache w').
Proof.
  intros p env D Y T conf qs w fuel res w' EO Quick HE HOt Hc Ht Hnf Hq Hf E Htime.
  destruct (all_lookups p env D Y T conf (w_n w) EO Quick HE (fun _ => True) (extra_none _ _ _ _ _ HOt) Hnf fuel Hf qs w) as [L|R]; try assumption.
  - split; [exact Hc|]. split; [apply Forall_forall; intros; exact I|lia].
  - split; [split; [lia|exact Logic.I]|exact Ht].
  - rewrite E in L. destruct L as (m & M1 & M2). specialize (Htime m M1). lia.
  - rewrite E in R. exact R.
Qed.
Print Assumptions C78_all_lookups_find_what_is_there_partial.

(** Other threads that run such lookups are what [others_true] asks of them: lookups in a
    healthy DNS, whenever they begin after the start, keep the cache true and do not remove
    addresses of anchors that are valid until [T]. *)
Theorem C78_other_lookups_qualify_partial : forall p env D Y T conf q kind n0 n c fuel res l' w',
  env_ok plain_record env -> (forall n, (ev_now' (env n) < ev_now (env n) + SECOND)%N) ->
  healthy p env D Y (ev_now (env n0)) T (max_retries conf) (max_ns conf) -> others_true env D Y (ev_now (env n0)) T -> n0 <= n ->
  no_follow conf = false -> fair_question D conf q kind -> (kind = RT_CNAME -> others_leave env q) -> leaves_no_trap D Y q kind ->
  256 < fuel /\ (forall z, D z RT_NS <> [] -> 256 + depth Y z < fuel) ->
  perform p env fuel (new_lookup conf q kind, mkWorld c n []) = (res, (l', w')) -> (forall m, m < w_n w' -> (ev_now' (env m) < T)%N) ->
  cache_ok plain_record (ev_now (env n)) c -> cache_true D Y (ev_now (env n0)) T c ->
  cache_true D Y (ev_now (env n0)) T (w_cache w') /\ keeps_anchors Y T c (w_cache w').
Proof.
  intros p env D Y T conf q kind n0 n c fuel res l' w' EO Quick HE HOt Hn Hnf Hq Hkc Hk Hf E Htime Hc Ht.
  destruct (one_lookup p env D Y T conf n0 EO Quick HE (fun _ => True) (extra_none _ _ _ _ _ HOt) Hnf fuel Hf q kind (mkWorld c n [])) with (res := res) (l' := l') (w' := w') as [(m & M1 & M2)|(_ & _ & R)]; try assumption.
  - split; [exact Hc|]. split; [apply Forall_forall; intros; exact I|lia].
  - split; [split; [exact Hn|exact Logic.I]|exact Ht].
  - specialize (Htime m M1). lia.
  - destruct (R Hk) as ((_ & R1) & R2). now split.
Qed.
Print Assumptions C78_other_lookups_qualify_partial.
