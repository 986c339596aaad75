(** Small environments for examples: a clock that stands still (or ticks), no other
    threads, message id 7, and packets written with the library's own encoder. *)
From Verif Require Import Base Types Name NameSpec Codec CodecSpec NsSpec Cache Resolver ResolverSpec.

Definition packet (rc : rcode) (aa : bool) (ans aus ads : list record) : list N :=
  match encode_message Release (mkMsg (mkHeader 7 true OP_STD aa false false false 0 rc 0 (N.of_nat (length ans)) (N.of_nat (length aus)) (N.of_nat (length ads))) [] ans aus ads) with
  | Done (Ok l) => l
  | _ => []
  end.
Definition script (l : nat -> option (list N)) : environment := fun n => mkEv 0 0 (fun c => c) 7 (fun _ _ => l n).
Definition at_event {A} (n : nat) (x : A) (f : nat -> option A) : nat -> option A := fun i => if i =? n then Some x else f i.
Definition silence {A} : nat -> option A := fun _ => None.
Definition world0 : world := mkWorld cache_new 0 [].
Definition conf0 : rconf := mkConf 3 2 5 false true false.

Definition rec_ (n : list N) (ttl : N) (d : rdata) : record := mkRec n C_IN ttl 0 d.

Lemma script_ok : forall l, (forall n d, l n = Some d -> is_bytes d) -> env_ok plain_record (script l).
Proof.
  intros l H. split; cbn.
  - intros _. split; lia.
  - intros _. vm_compute. reflexivity.
  - intros n _ _. apply H.
  - intros _. unfold is_u16. lia.
  - intros _ c Hc. exact Hc.
Qed.
Lemma script_bytes : forall n x f, is_bytes x -> (forall n d, f n = Some d -> is_bytes d) -> forall n' d, at_event n x f n' = Some d -> is_bytes d.
Proof. intros n x f Hx Hf n' d. unfold at_event. destruct (n' =? n); [intros [= <-]; exact Hx|apply Hf]. Qed.
Lemma silence_bytes : forall (n : nat) (d : list N), silence n = Some d -> is_bytes d.
Proof. discriminate. Qed.
Lemma checked_bytes : forall l, forallb (fun x => x <? 256)%N l = true -> is_bytes l.
Proof. intros l H. unfold is_bytes, is_byte. apply Forall_forall. intros x Hx. rewrite forallb_forall in H. now apply N.ltb_lt, H. Qed.
Lemma world0_ok : forall good T, cache_ok good T (w_cache world0).
Proof. intros good T. split; [reflexivity|]. discriminate. Qed.
