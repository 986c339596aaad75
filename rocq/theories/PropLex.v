(** C82: how text divides into tokens. *)
From Verif Require Import Base Types Name NameSpec Codec Zone Tokens Parser TokenSpec TokenProofs TokenSim PropTok LexSpec LexProofs
  ZoneSpec NsSpec LoadSpec PropLoad ZoneFileSpec.

(** For every file, whatever its characters: the tokenizer reads the whole file and
    delivers [ts] exactly when the lexical grammar divides the text into [ts]. *)
Theorem C82_tokens_are_those_of_the_text : forall f ts, reads (tok_new f) ts None <-> lexes f ts.
Proof. intros f ts. symmetry. apply lexes_reads. Qed.
Print Assumptions C82_tokens_are_those_of_the_text.

(** The grammar is unambiguous. *)
Theorem C82_unambiguous : forall f ts ts', lexes f ts -> lexes f ts' -> ts = ts'.
Proof. exact lexes_unique. Qed.
Print Assumptions C82_unambiguous.

(** If the text is not divided into tokens by the grammar, reading does not come to the
    end of the file: it fails, panics or goes on for ever. *)
Theorem C82_other_text_is_not_read : forall f, (forall ts, ~ lexes f ts) -> forall ts, ~ reads (tok_new f) ts None.
Proof. intros f H ts R. apply (H ts). now apply lexes_reads. Qed.
Print Assumptions C82_other_text_is_not_read.

(** Every rule at work: idle lines, comments, parentheses over several lines, escapes in
    words and quoted strings, directives, numbers, "@", other characters. *)
Definition ex_text : file :=
  [Some (s2b "  ; nothing"); Some (s2b "$ORIGIN b.a.;x"); Some []; Some (s2b "w\ w\;( +300"); Some (s2b "	;y");
   Some (s2b "IN)TXT ""a\"" ;b""@  "); Some ([233; 48; 8364; 32] ++ s2b "4294967296")%N].
Theorem C82_nonvacuous :
  lexes ex_text
    [T_OriginDir; T_Blank; T_String (s2b "b.a."); T_NewLine;
     T_String (s2b "w w;"); T_Blank; T_Number 300; T_String (s2b "IN"); T_String (s2b "TXT"); T_Blank; T_QString (s2b "a"" ;b"); T_At; T_Blank; T_NewLine;
     T_String [195; 169; 48; 226; 130; 172]%N; T_Blank; T_String (s2b "4294967296")].
Proof. apply lexes_reads. apply (token_list_reads 40). vm_compute. reflexivity. Qed.

(** Text outside of the grammar. *)
Theorem C82_other_text_nonvacuous :
  (forall ts, ~ lexes [Some (s2b "a """ ++ s2b "b")] ts) /\ (forall ts, ~ lexes [Some (s2b "( a")] ts) /\
  (forall ts, ~ lexes [Some (s2b "a\b")] ts) /\ (forall ts, ~ lexes [Some (s2b "a" ++ [12; 98])%N] ts) /\ (forall ts, ~ lexes [None] ts).
Proof.
  assert (K : forall f e, (exists l, token_list 5 (tok_new f) = Some (l, Some e)) -> forall ts, ~ lexes f ts).
  { intros f e (l & E) ts H. apply token_list_reads in E. apply lexes_reads in H. destruct (reads_det _ _ _ E _ _ H) as (_ & C). discriminate. }
  split; [|split; [|split; [|split]]].
  - eapply K. eexists. vm_compute. reflexivity.
  - eapply K. eexists. vm_compute. reflexivity.
  - intros ts H. apply lexes_reads in H. inversion H as [t t' E|t e E|t x t' ts' o E _ _]; subst; vm_compute in E; discriminate.
  - intros ts H. apply lexes_reads in H.
    set (t0 := tok_new [Some (s2b "a" ++ [12; 98])%N]) in *. inversion H as [t t' E|t e E|t x t1 ts1 o E _ R]; subst; try (vm_compute in E; discriminate).
    assert (t1 = mkTok [] [12; 98]%N [] false 1) as -> by (vm_compute in E; congruence). clear E H t0.
    inversion R as [t t' E|t e E|t y t2 ts2 o E _ R2]; subst; try (vm_compute in E; discriminate).
    assert (t2 = mkTok [] [12; 98]%N [] false 1) as -> by (vm_compute in E; congruence).
    destruct (reads_det _ _ _ R _ _ R2) as (C & _). apply (f_equal (@length token)) in C. cbn [length] in C. lia.
  - eapply K. eexists. vm_compute. reflexivity.
Qed.
