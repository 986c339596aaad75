(** Model of the zone store and of the cross-file validation of
    src/nameserver/zones/parser.rs. *)
From Verif Require Import Base Types Name Codec.

(** Rust HashMap as an association list: the list order is one possible iteration
    order. Looking up, [entry(k).or_default()] with an update. *)
Section Maps.
  Context {K V : Type} (eqb : K -> K -> bool).

  Fixpoint map_get (m : list (K * V)) (k : K) : option V :=
    match m with
    | [] => None
    | (k', v) :: m' => if eqb k' k then Some v else map_get m' k
    end.

  (** [f(m.entry(k).or_default())] with default [d] *)
  Fixpoint map_update (m : list (K * V)) (k : K) (d : V) (f : V -> V) : list (K * V) :=
    match m with
    | [] => [(k, f d)]
    | (k', v) :: m' => if eqb k' k then (k', f v) :: m' else (k', v) :: map_update m' k d f
    end.
End Maps.

Definition zmap := list (name * list (rtype * list record)).

(** parser.rs:164-167, struct Zone *)
Record zone := mkZone { z_records : zmap; z_zone : name }.

(** parser.rs:171-176, Zone::new *)
Definition zone_new (z : name) : zone := mkZone [] z.

(** parser.rs:179-185, Zone::insert *)
Definition zmap_insert (m : zmap) (r : record) : zmap :=
  map_update bytes_eqb m (r_node r) []
    (fun inner => map_update rtype_eqb inner (record_type r) [] (fun l => l ++ [r])).
Definition zone_insert (z : zone) (r : record) : zone :=
  mkZone (zmap_insert (z_records z) r) (z_zone z).

(** parser.rs:188-195, Zone::get *)
Definition zone_get (p : profile) (z : zone) (n : name) (t : rtype) : exec (option (list record)) :=
  match map_get bytes_eqb (z_records z) n with
  | None => Done None
  | Some inner =>
      match map_get rtype_eqb inner t with
      | None => Done None
      | Some l =>
          debug_assert p (forallb (fun r => rtype_eqb (record_type r) t) l)
            (debug_assert p (forallb (fun r => bytes_eqb (r_node r) n) l)
               (assert_ (negb (length l =? 0)) (Done (Some l))))
      end
  end.

(** parser.rs:198-205, Zone::get_all_of_type (in the map's iteration order) *)
Definition zone_get_all_of_type (z : zone) (t : rtype) : list record :=
  flat_map (fun e => match map_get rtype_eqb (snd e) t with Some l => l | None => [] end) (z_records z).

(** parser.rs:208-216, Zone::extend (in the other map's iteration order) *)
Definition zmap_records (m : zmap) : list record := flat_map (fun e => flat_map snd (snd e)) m.
Definition zone_extend (z other : zone) : zone :=
  fold_left zone_insert (zmap_records (z_records other)) z.

(** parser.rs:159-162, struct ManagedZone *)
Record managed := mkManaged { auth_zone : zone; sub_zones : list zone }.

(** errors.rs (zones) 9-26 and tokens.rs:305-313: errors; texts dropped. *)
Inductive token :=
| T_OriginDir | T_IncludeDir | T_QString (s : list N) | T_String (s : list N) | T_Number (n : N)
| T_Blank | T_NewLine | T_End | T_At.

Inductive token_err :=
| TE_DirMalformed (s : list N) | TE_QStrNotClosed (s : list N) | TE_MlUnexpectedOpen
| TE_MlUnexpectedClose | TE_MlMissingClose | TE_InvalidEscape | TE_ReadErr.

Inductive zone_err :=
| ZE_UnexpectedToken (t : token) | ZE_MalformedToken (e : token_err) | ZE_ReadingErr
| ZE_MalformedData | ZE_TtlTooLow (n : N) | ZE_UnexpectedRecord | ZE_NameNotInRootNode (n : name)
| ZE_NameNotInZone (n : name) | ZE_MalformedZone.

(** zones/errors.rs:27-34, From<TokenErr> *)
Definition zone_err_of_token (e : token_err) : zone_err :=
  match e with TE_ReadErr => ZE_ReadingErr | _ => ZE_MalformedToken e end.

(** [for x in l { body?; }] with a body that may stop early. *)
Fixpoint for_each {A E} (l : list A) (body : A -> exec (result unit E)) : exec (result unit E) :=
  match l with
  | [] => Done (Ok tt)
  | x :: l' => bindR (body x) (fun _ => for_each l' body)
  end.

(** parser.rs:58-74, validate_auth_zone *)
Definition validate_auth_zone (zs : managed) : exec (result unit zone_err) :=
  let nss := zone_get_all_of_type (auth_zone zs) RT_NS in
  if length nss =? 0 then Done (Err ZE_MalformedZone)
  else for_each nss (fun r =>
         if is_in_zone_root (r_node r) (z_zone (auth_zone zs)) then Done (Ok tt)
         else Done (Err (ZE_NameNotInRootNode (z_zone (auth_zone zs))))).

(** parser.rs:128-140, search_glue_records *)
Definition search_glue_records (p : profile) (ns : name) (sub : zone) : exec bool :=
  let! o := zone_get p sub ns RT_A in
  match o with
  | None => Done false
  | Some l => Done (existsb (fun r => bytes_eqb ns (r_node r)) l)
  end.

(** the loop of parser.rs:149-153 *)
Fixpoint any_ns_is (a : name) (l : list record) : exec bool :=
  match l with
  | [] => Done false
  | r :: l' => let! n := ns_data r in if bytes_eqb a n then Done true else any_ns_is a l'
  end.

(** parser.rs:143-155, search_referred_ns *)
Definition search_referred_ns (p : profile) (a : name) (sub : zone) : exec bool :=
  let! o := zone_get p sub (z_zone sub) RT_NS in
  match o with
  | None => Done false
  | Some l => any_ns_is a l
  end.

(** [iter().find(pred)] as used at parser.rs:113-116 (is one found) *)
Fixpoint find_exec {A} (f : A -> exec bool) (l : list A) : exec bool :=
  match l with
  | [] => Done false
  | x :: l' => let! b := f x in if b then Done true else find_exec f l'
  end.

(** parser.rs:81-125, validate_subzone *)
Definition validate_subzone (p : profile) (sub : zone) (zs : managed) : exec (result unit zone_err) :=
  let nss := zone_get_all_of_type sub RT_NS in
  if length nss =? 0 then Done (Err ZE_MalformedZone)
  else
    bindR (for_each nss (fun r =>
      if negb (is_in_zone_root (r_node r) (z_zone sub)) then Done (Err (ZE_NameNotInRootNode (z_zone sub)))
      else
        let! pointed := ns_data r in
        if negb (is_in_zone pointed (z_zone (auth_zone zs))) then Done (Ok tt)
        else for_each (sub_zones zs) (fun s =>
               if is_in_zone pointed (z_zone s) then
                 let! g := search_glue_records p pointed s in
                 if negb g then Done (Err ZE_MalformedZone) else Done (Ok tt)
               else Done (Ok tt)))) (fun _ =>
    for_each (zone_get_all_of_type sub RT_A) (fun r =>
      let! b := find_exec (search_referred_ns p (r_node r)) (sub_zones zs) in
      if b then Done (Ok tt) else Done (Err ZE_MalformedZone))).
