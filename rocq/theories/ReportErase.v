(** Without the places, the loading of Report.v is that of Parser.v. *)
From Verif Require Import Base Types Name Codec Zone Tokens Parser Report.

Definition unplaced {A} (r : exec (result A (zone_err * place))) : exec (result A zone_err) :=
  let! x := r in Done (match x with Ok a => Ok a | Err e => Err (fst e) end).

Lemma unplaced_placed : forall A w (r : exec (result A zone_err)), unplaced (placed w r) = r.
Proof. intros A w [[a|e]|k|]; reflexivity. Qed.
Lemma unplaced_bind : forall A B (m : exec (result A (zone_err * place))) (k : A -> exec (result B (zone_err * place))) m' k',
  unplaced m = m' -> (forall a, unplaced (k a) = k' a) -> unplaced (bindR m k) = bindR m' k'.
Proof. intros A B m k m' k' <- Hk. destruct m as [[a|e]|kd|]; cbn; [apply Hk|reflexivity..]. Qed.

Lemma entries_unplaced : forall fs fuel path s acc t, unplaced (parse_entries_at fs fuel path s acc t) = parse_entries fs fuel s acc t.
Proof.
  intros fs. induction fuel as [|fuel IH]; intros path s acc t; [reflexivity|]. cbn [parse_entries_at parse_entries].
  apply unplaced_bind; [apply unplaced_placed|]. intros (tk & t1).
  assert (G : forall m : exec (result (zone_entry * tok) zone_err), unplaced (bindR (placed (At_line path (tk_line t1)) m) (fun y =>
          match y with
          | (ZOrigin o, t2) => parse_entries_at fs fuel path (with_orig s o) acc t2
          | (ZInclude path' o, t2) =>
              match fs path' with
              | None => Done (Err (ZE_ReadingErr, At_file path))
              | Some f =>
                  bindR (parse_entries_at fs fuel path' (mkPS (ps_zone s) (ps_subs s) o (ps_ttl s) (ps_min s)) (zone_new (ps_zone s)) (tok_new f)) (fun z =>
                  parse_entries_at fs fuel path s (zone_extend acc z) t2)
              end
          | (ZRecord r, t2) => parse_entries_at fs fuel path (with_ttl s (r_ttl r)) (zone_insert acc r) t2
          end)) = bindR m (fun y =>
          match y with
          | (ZOrigin o, t2) => parse_entries fs fuel (with_orig s o) acc t2
          | (ZInclude path o, t2) =>
              match fs path with
              | None => Done (Err ZE_ReadingErr)
              | Some f =>
                  bindR (parse_entries fs fuel (mkPS (ps_zone s) (ps_subs s) o (ps_ttl s) (ps_min s)) (zone_new (ps_zone s)) (tok_new f)) (fun z =>
                  parse_entries fs fuel s (zone_extend acc z) t2)
              end
          | (ZRecord r, t2) => parse_entries fs fuel (with_ttl s (r_ttl r)) (zone_insert acc r) t2
          end)).
  { intros m. apply unplaced_bind; [apply unplaced_placed|]. intros ([o|path' o|r] & t2); [apply IH| |apply IH].
    destruct (fs path') as [f|]; [|reflexivity]. apply unplaced_bind; [apply IH|]. intros z. apply IH. }
  destruct tk; try (apply G); reflexivity.
Qed.
Lemma sub_entries_unplaced : forall fuel path zn ttl mn acc t, unplaced (parse_sub_entries_at fuel path zn ttl mn acc t) = parse_sub_entries fuel zn ttl mn acc t.
Proof.
  induction fuel as [|fuel IH]; intros path zn ttl mn acc t; [reflexivity|]. cbn [parse_sub_entries_at parse_sub_entries].
  apply unplaced_bind; [apply unplaced_placed|]. intros (tk & t1).
  destruct tk; try reflexivity; (apply unplaced_bind; [apply unplaced_placed|]; intros (r & t2); apply IH).
Qed.
Lemma auth_unplaced : forall fs fuel c, unplaced (parse_auth_zone_file_at fs fuel c) = parse_auth_zone_file fs fuel c.
Proof.
  intros fs fuel c. unfold parse_auth_zone_file_at, parse_auth_zone_file. destruct (fs (p_path c)) as [f|]; [|reflexivity].
  unfold parse_auth_lines_at. cbv zeta. apply unplaced_bind; [apply unplaced_placed|]. intros ((soa & mn) & t).
  apply unplaced_bind; [apply entries_unplaced|]. reflexivity.
Qed.
Lemma subs_unplaced : forall fs fuel cs, unplaced (parse_sub_zone_files_at fs fuel cs) = parse_sub_zone_files fs fuel cs.
Proof.
  intros fs fuel. induction cs as [|c cs IH]; [reflexivity|]. cbn [parse_sub_zone_files_at parse_sub_zone_files].
  apply unplaced_bind.
  - unfold parse_sub_zone_file_at, parse_sub_zone_file. destruct (fs (sp_path c)); [apply sub_entries_unplaced|reflexivity].
  - intros z. apply unplaced_bind; [exact IH|reflexivity].
Qed.
Theorem C96_the_places_change_nothing : forall p fs fuel c, unplaced (parse_zone_files_at p fs fuel c) = parse_zone_files p fs fuel c.
Proof.
  intros p fs fuel c. unfold parse_zone_files_at, parse_zone_files. apply unplaced_bind; [apply auth_unplaced|]. intros az.
  apply unplaced_bind; [apply subs_unplaced|]. intros szs. cbv zeta. apply unplaced_bind; [apply unplaced_placed|]. intros _.
  apply unplaced_bind; [|reflexivity]. generalize (mkManaged az szs) as zs. intros zs. generalize (sub_zones zs) as l.
  induction l as [|z l IH]; [reflexivity|]. cbn [for_each]. apply unplaced_bind; [apply unplaced_placed|]. intros _. exact IH.
Qed.
Print Assumptions C96_the_places_change_nothing.
