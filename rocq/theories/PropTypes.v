(** C26: code tables, against the RFC 1035 numbers of CodecSpec. *)
From Verif Require Import Base Types Codec CodecSpec CodecWrite.

(** RFC 1035 3.2.4 and the mnemonics of 3.2.2-3.2.4. *)
Definition class_number (c : class) : N :=
  match c with C_IN => 1 | C_CS => 2 | C_CH => 3 | C_HS => 4 | C_WC => 255 end%N.
Definition mnemonic (t : rtype) : String.string :=
  (match t with
  | RT_A => "A" | RT_NS => "NS" | RT_MD => "MD" | RT_MF => "MF" | RT_CNAME => "CNAME"
  | RT_SOA => "SOA" | RT_MB => "MB" | RT_MG => "MG" | RT_MR => "MR" | RT_NULL => "NULL"
  | RT_WKS => "WKS" | RT_PTR => "PTR" | RT_HINFO => "HINFO" | RT_MINFO => "MINFO"
  | RT_MX => "MX" | RT_TXT => "TXT" | RT_AXFR => "AXFR" | RT_MAILB => "MAILB"
  | RT_MAILA => "MAILA" | RT_WC => "*" end)%string.

Ltac number_table n :=
  repeat match goal with |- context [if (n =? ?c)%N then _ else _] => destruct (N.eqb_spec n c) end.

Theorem C26_type_numbers : forall n,
  (forall t, rtype_from_num n = Ok t <-> n = type_number t) /\
  (rtype_from_num n = Err n <-> ~ known_type n) /\
  (forall e, rtype_from_num n = Err e -> e = n) /\
  (forall t, rtype_to_num t = type_number t).
Proof.
  assert (A : forall n t, rtype_from_num n = Ok t <-> n = type_number t).
  { intros n t. split.
    - unfold rtype_from_num. intros E. revert E. number_table n; intros E; try discriminate; injection E as <-; assumption.
    - intros ->. now destruct t. }
  assert (B : forall n e, rtype_from_num n = Err e -> e = n).
  { intros n e. unfold rtype_from_num. number_table n; intros E; congruence. }
  intros n. split; [intros t; apply A|]. split; [|split; [apply B|now intros []]].
  split.
  - intros E (t & Ht). symmetry in Ht. apply A in Ht. congruence.
  - intros H. destruct (rtype_from_num n) as [t|e] eqn:E; [|f_equal; now apply B].
    exfalso. apply H. exists t. symmetry. now apply A.
Qed.
Print Assumptions C26_type_numbers.

Theorem C26_class_numbers : forall n,
  (forall c, class_from_num n = Ok c <-> n = class_number c) /\
  ((forall c, class_number c <> n) -> class_from_num n = Err n) /\
  (forall e, class_from_num n = Err e -> e = n) /\
  (forall c, class_to_num c = class_number c).
Proof.
  intros n. unfold class_from_num. repeat split.
  - number_table n; intros E; try discriminate; injection E as <-; assumption.
  - intros ->. now destruct c.
  - intros H. number_table n; try reflexivity; exfalso;
      [apply (H C_IN)|apply (H C_CS)|apply (H C_CH)|apply (H C_HS)|apply (H C_WC)]; now subst.
  - intros e. number_table n; congruence.
Qed.
Print Assumptions C26_class_numbers.

Theorem C26_op_and_response_codes : forall n,
  (forall o, opcode_from_num n = Ok o <-> n = op_number o) /\
  (forall r, rcode_from_num n = Ok r <-> n = rcode_number r) /\
  (forall e, opcode_from_num n = Err e -> e = n) /\ (forall e, rcode_from_num n = Err e -> e = n) /\
  (forall o, opcode_to_num o = op_number o) /\ (forall r, rcode_to_num r = rcode_number r).
Proof.
  intros n. unfold opcode_from_num, rcode_from_num. repeat split; try (now intros []);
    try (intros e; number_table n; congruence).
  - number_table n; intros E; try discriminate; injection E as <-; assumption.
  - intros ->. now destruct o.
  - number_table n; intros E; try discriminate; injection E as <-; assumption.
  - intros ->. now destruct r.
Qed.
Print Assumptions C26_op_and_response_codes.

Theorem C26_type_names : forall s,
  (forall t, rtype_from_str s = Ok t <-> s = s2b (mnemonic t)) /\
  (forall e, rtype_from_str s = Err e -> e = s) /\
  (forall t, rtype_to_str t = s2b (mnemonic t)).
Proof.
  intros s. repeat split; try (now intros []).
  - unfold rtype_from_str. intros E. cbv zeta in E.
    repeat match type of E with (if bytes_eqb s ?c then _ else _) = _ =>
      let B := fresh in destruct (bytes_eqb s c) eqn:B;
      [apply bytes_eqb_eq in B; injection E as <-; exact B|clear B] end. discriminate.
  - intros ->. now destruct t.
  - unfold rtype_from_str. intros e E. cbv zeta in E.
    repeat match type of E with (if ?c then _ else _) = _ => destruct c; [discriminate|] end. congruence.
Qed.
Print Assumptions C26_type_names.

(** The only class and op code let in, and the supported types. *)
Theorem C26_supported : forall t c o,
  (supported_for_question t = true <-> usable_type t) /\ (supported_for_records t = true <-> usable_type t) /\
  (class_supported c = true <-> c = C_IN) /\ (opcode_supported o = true <-> o = OP_STD).
Proof.
  intros t c o. split; [symmetry; apply usable_supported|]. split; [symmetry; apply usable_supported|].
  split; [destruct c|destruct o]; cbn; split; congruence.
Qed.
Print Assumptions C26_supported.

Theorem C26_nonvacuous : rtype_from_num 28 = Err 28%N /\ rtype_from_num 15 = Ok RT_MX /\
  rtype_from_str (s2b "MX") = Ok RT_MX /\ rtype_from_str (s2b "mx") = Err (s2b "mx").
Proof. now repeat split. Qed.
