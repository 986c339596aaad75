(** Shared vocabulary of the model: outcomes of Rust code, build profiles,
    integer casts, strings as byte lists. No /repo code is modelled here
    except Rust's own panic / Result / cast semantics. *)
From Coq Require Export List NArith Arith Bool Lia.
From Coq Require Export ZifyBool ZifyNat ZifyN.
From Coq Require String Ascii.
Export ListNotations.
Export String.StringSyntax.
Delimit Scope string_scope with string.
Bind Scope string_scope with String.string.

(** Why a thread panicked. *)
Inductive panic_kind :=
| PAssert        (* assert! / assert_eq! / debug_assert! *)
| PIndex         (* slice or Vec index out of bounds *)
| PUnwrap        (* unwrap on None / Err *)
| POverflow      (* arithmetic overflow, checked in debug builds only *)
| PExplicit      (* panic!(..) *)
| PUnreachable.  (* unreachable!() *)

(** Outcome of running a piece of Rust code: it returns, panics, or never
    returns ([Diverge]: endless loop or unbounded recursion). *)
Inductive exec (A : Type) :=
| Done (a : A)
| Panic (k : panic_kind)
| Diverge.
Arguments Done {A} a.
Arguments Panic {A} k.
Arguments Diverge {A}.

Definition bind {A B} (m : exec A) (f : A -> exec B) : exec B :=
  match m with
  | Done a => f a
  | Panic k => Panic k
  | Diverge => Diverge
  end.

Notation "'let!' x ':=' m 'in' k" := (bind m (fun x => k))
  (at level 200, x pattern, m at level 100, k at level 200, right associativity).

(** Rust's [Result]. *)
Inductive result (A E : Type) :=
| Ok (a : A)
| Err (e : E).
Arguments Ok {A E} a.
Arguments Err {A E} e.

(** Cargo build profile: [Debug] has overflow checks and debug_assert!,
    [Release] (README: "cargo build --release") wraps and skips them.
    Cargo.toml defines no custom profile. *)
Inductive profile := Debug | Release.

(** A byte is an [N] (below 256 when well formed); strings and byte
    vectors are lists of bytes. *)
Definition byte := N.
Definition bytes := list N.

Definition is_byte (x : N) : Prop := (x < 256)%N.
Definition is_bytes (l : list N) : Prop := Forall is_byte l.
Definition is_u16 (x : N) : Prop := (x < 65536)%N.
Definition is_u32 (x : N) : Prop := (x < 4294967296)%N.

(** [as u8], [as u16], [as u32] casts. *)
Definition u8 (x : N) : N := (x mod 256)%N.
Definition u16 (x : N) : N := (x mod 65536)%N.
Definition u32 (x : N) : N := (x mod 4294967296)%N.

(** u16 arithmetic: panics on overflow in debug builds, wraps in release. *)
Definition chk_u16 (p : profile) (x : N) : exec N :=
  if (x <? 65536)%N then Done x
  else match p with Debug => Panic POverflow | Release => Done (u16 x) end.

(** [opt.unwrap()] *)
Definition unwrap {A} (o : option A) : exec A :=
  match o with Some a => Done a | None => Panic PUnwrap end.

(** [assert!(b)] followed by [k]. *)
Definition assert_ {A} (b : bool) (k : exec A) : exec A :=
  if b then k else Panic PAssert.

(** [debug_assert!(b)] followed by [k]. *)
Definition debug_assert {A} (p : profile) (b : bool) (k : exec A) : exec A :=
  match p with Debug => assert_ b k | Release => k end.

(** [v[i]] *)
Definition index {A} (l : list A) (i : nat) : exec A :=
  match nth_error l i with Some a => Done a | None => Panic PIndex end.

(** ASCII literals as byte lists. *)
Definition s2b (s : String.string) : list N :=
  map Ascii.N_of_ascii (String.list_ascii_of_string s).

Fixpoint bytes_eqb (a b : list N) : bool :=
  match a, b with
  | [], [] => true
  | x :: a', y :: b' => (x =? y)%N && bytes_eqb a' b'
  | _, _ => false
  end.

Lemma bytes_eqb_eq : forall a b, bytes_eqb a b = true <-> a = b.
Proof.
  induction a as [|x a IH]; destruct b as [|y b]; cbn; split; intros H; try easy.
  - apply andb_true_iff in H as [H1 H2]. apply N.eqb_eq in H1. apply IH in H2. congruence.
  - injection H as -> ->. rewrite N.eqb_refl. cbn. now apply IH.
Qed.

Lemma bytes_eqb_refl : forall a, bytes_eqb a a = true.
Proof. intros a. now apply bytes_eqb_eq. Qed.

Lemma bytes_eqb_neq : forall a b, bytes_eqb a b = false <-> a <> b.
Proof.
  intros a b. rewrite <- bytes_eqb_eq. destruct (bytes_eqb a b); split; intros H; congruence.
Qed.

Lemma bytes_eq_dec : forall a b : list N, {a = b} + {a <> b}.
Proof. decide equality. apply N.eq_dec. Defined.

(** [s.ends_with(t)] on strings. *)
Definition ends_with (s t : list N) : bool :=
  (length t <=? length s) && bytes_eqb (skipn (length s - length t) s) t.

Lemma ends_with_spec : forall s t, ends_with s t = true <-> exists pre, s = pre ++ t.
Proof.
  intros s t. unfold ends_with. rewrite andb_true_iff, bytes_eqb_eq, Nat.leb_le.
  split.
  - intros [Hl He]. exists (firstn (length s - length t) s).
    rewrite <- (firstn_skipn (length s - length t) s) at 1. now rewrite He.
  - intros [pre ->]. rewrite app_length. split; [lia|].
    replace (length pre + length t - length t) with (length pre + 0) by lia.
    rewrite skipn_app, skipn_all2 by lia.
    replace (length pre + 0 - length pre) with 0 by lia. reflexivity.
Qed.

Lemma Done_inj : forall A (a b : A), Done a = Done b -> a = b.
Proof. congruence. Qed.
