(** The decoders on arbitrary bytes. *)
From Verif Require Import Base Buffer BufferSpec BufferProofs Reader Types Name NameSpec NameProofs NameDecode
  Codec CodecSpec Utf8 CodecWrite CodecMessage CodecRead PropName.

(** Wherever it starts: the buffer is only moved, a value read satisfies [Q] and
    the reader went forward by at least [d] bits; endless only if [dv]. *)
Definition gen {A} (d : nat) (dv : Prop) (m : M A) (Q : A -> Prop) : Prop :=
  forall l r, is_bytes l -> r <= 8 * length l ->
  match m (at_ l r) with
  | Done (res, b') => exists r', b' = at_ l r' /\ r' <= 8 * length l /\
      match res with Ok a => r + d <= r' /\ Q a | Err _ => True end
  | Panic _ => True
  | Diverge => dv
  end.

Lemma gen_bind : forall A B d1 d2 dv (m : M A) (k : A -> M B) Q1 Q2,
  gen d1 dv m Q1 -> (forall a, Q1 a -> gen d2 dv (k a) Q2) -> gen (d1 + d2) dv (bindM m k) Q2.
Proof.
  intros A B d1 d2 dv m k Q1 Q2 Hm Hk l r Hl Hr. unfold bindM. specialize (Hm l r Hl Hr).
  destruct (m (at_ l r)) as [[[a|e] b']|kd|]; cbn [bind]; try exact Hm; try exact I.
  - destruct Hm as (r1 & -> & H1 & H2 & Hq). specialize (Hk a Hq l r1 Hl H1).
    destruct (k a (at_ l r1)) as [[[a'|e] b']|kd|]; try exact I; try exact Hk.
    destruct Hk as (r2 & -> & H3 & H4 & H5). exists r2. repeat split; try assumption. lia.
Qed.

Lemma gen_weaken : forall A d d' dv (m : M A) (Q Q' : A -> Prop), gen d dv m Q -> d' <= d ->
  (forall a, Q a -> Q' a) -> gen d' dv m Q'.
Proof.
  intros A d d' dv m Q Q' H Hd HQ l r Hl Hr. specialize (H l r Hl Hr).
  destruct (m (at_ l r)) as [[[a|e] b']|kd|]; try exact H.
  destruct H as (r1 & -> & H1 & H2 & Hq). exists r1. repeat split; try assumption; [lia|now apply HQ].
Qed.

Lemma gen_ret : forall A dv (a : A) (Q : A -> Prop), Q a -> gen 0 dv (ret a) Q.
Proof. intros A dv a Q H l r Hl Hr. exists r. repeat split; try assumption. lia. Qed.

Lemma gen_fail : forall A dv e (Q : A -> Prop), gen 0 dv (fail e) Q.
Proof. intros A dv e Q l r Hl Hr. exists r. repeat split; assumption. Qed.

Lemma gen_lift : forall A dv (x : result A parse_err) (Q : A -> Prop),
  (forall a, x = Ok a -> Q a) -> gen 0 dv (lift x) Q.
Proof.
  intros A dv x Q H l r Hl Hr. exists r. repeat split; try assumption.
  destruct x; [|exact I]. split; [lia|now apply H].
Qed.

Lemma gen_u16 : forall dv, gen 16 dv (check_end read_u16) is_u16.
Proof.
  intros dv l r Hl Hr. unfold check_end. rewrite read_u16_at by assumption.
  destruct (Nat.leb_spec (r + 16) (8 * length l)); cbn [bind].
  - exists (r + 16). repeat split; try assumption; [lia|]. exact (rb_bound l r 16).
  - exists r. repeat split; assumption.
Qed.

Lemma gen_u32 : forall dv, gen 32 dv (check_end read_u32) is_u32.
Proof.
  intros dv l r Hl Hr. unfold check_end. rewrite read_u32_at by assumption.
  destruct (Nat.leb_spec (r + 32) (8 * length l)); cbn [bind].
  - exists (r + 32). repeat split; try assumption; [lia|]. exact (rb_bound l r 32).
  - exists r. repeat split; assumption.
Qed.

Lemma gen_u8 : forall dv, gen 8 dv (check_end read_u8) is_byte.
Proof.
  intros dv l r Hl Hr. unfold check_end. rewrite read_u8_at by assumption.
  destruct (Nat.leb_spec (r + 8) (8 * length l)); cbn [bind].
  - exists (r + 8). repeat split; try assumption; [lia|]. exact (rb_bound l r 8).
  - exists r. repeat split; assumption.
Qed.

Lemma gen_bytes : forall dv n, gen (n * 8) dv (check_end (fun b => read_bytes_vec b n))
  (fun s => is_bytes s /\ length s = n).
Proof.
  intros dv n l r Hl Hr. unfold check_end. rewrite read_bytes_at by assumption.
  destruct (Nat.leb_spec (r + n * 8) (8 * length l)); cbn [bind].
  - exists (r + n * 8). repeat split; try assumption; [lia|apply rbs_is_bytes|apply rbs_length].
  - exists r. repeat split; assumption.
Qed.

Definition good_name (n : list N) : Prop :=
  exists ls, is_name n ls /\ Forall (fun l => length l <= 63) ls.

Lemma gen_name : forall p dv, gen 8 dv (dec_name p) good_name.
Proof.
  intros p dv l r Hl Hr. unfold dec_name.
  pose proof (name_from_bytes_general p l r Hl Hr) as G.
  destruct (name_from_bytes p (at_ l r)) as [[[n|e] b']|k|] eqn:E; cbn [bind].
  - apply C07_decoded_names_are_accepted in E as (_ & Hn & d & Hd & -> & Hle); try assumption.
    exists (r + 8 * d). repeat split; try assumption. lia.
  - destruct G as (r' & -> & Hr' & _). exists r'. now repeat split.
  - exact I.
  - contradiction.
Qed.

Lemma gen_len_checked : forall A p d dv n (m : M A) Q, gen d dv m Q -> gen d dv (len_checked p n m) Q.
Proof.
  intros A p d dv n m Q H l r Hl Hr. unfold len_checked. specialize (H l r Hl Hr).
  destruct (m (at_ l r)) as [[[a|e] b']|k|]; cbn [bind]; try exact H.
  unfold chk_u16. destruct (_ <? _)%N; cbn [bind].
  - destruct (_ =? _)%N; [exact H|]. destruct H as (r' & -> & H1 & _). now exists r'.
  - destruct p; cbn [bind]; [exact I|]. destruct (_ =? _)%N; [exact H|].
    destruct H as (r' & -> & H1 & _). now exists r'.
Qed.

Definition string_val (s : list N) : Prop := is_bytes s /\ length s <= 255 /\ is_utf8 s.

Lemma gen_string : forall dv, gen 8 dv decode_character_string string_val.
Proof.
  intros dv. unfold decode_character_string. apply (gen_bind _ _ 8 0 _ _ _ is_byte); [apply gen_u8|]. intros n Hn.
  eapply (gen_weaken _ (N.to_nat n * 8 + 0)); [|lia|intros a Ha; exact Ha].
  eapply gen_bind; [apply gen_bytes|]. intros s (Hs & Hlen).
  destruct (Nat.ltb_spec 255 (length s)); [apply gen_fail|].
  destruct (utf8_valid s) eqn:E; [|apply gen_fail]. apply gen_ret. apply utf8_ok in E; now repeat split.
Qed.

(** Data a decoder can produce. *)
Definition decoded_data (d : rdata) : Prop :=
  match d with
  | D_A a => is_bytes a /\ length a = 4
  | D_NS n | D_CNAME n | D_PTR n => good_name n
  | D_SOA m r a b c d e => good_name m /\ good_name r /\ is_u32 a /\ is_u32 b /\ is_u32 c /\ is_u32 d /\ is_u32 e
  | D_WKS a pr ports => is_bytes a /\ length a = 4 /\ is_byte pr /\ ports = []
  | D_HINFO c o => string_val c /\ string_val o
  | D_MX pr n => is_u16 pr /\ good_name n
  | D_TXT ts => Forall string_val ts
  end.

Lemma step_back_at : forall p l r q, q <= 8 * length l ->
  step_back p (at_ l r) q =
  match q with 0 => Panic (match p with Debug => POverflow | Release => PExplicit end) | S q' => Done (at_ l q') end.
Proof.
  intros p l r [|q'] Hq; cbn [step_back]; [now destruct p|].
  rewrite set_read_pos_at. now replace (q' <=? 8 * length l) with true by (symmetry; apply Nat.leb_le; lia).
Qed.

Lemma chk_u16_cases : forall p x (P : exec N -> Prop),
  (forall y, is_u16 y -> P (Done y)) -> P (Panic POverflow) -> P (chk_u16 p x).
Proof.
  intros p x P H1 H2. unfold chk_u16. destruct (N.ltb_spec x 65536); [now apply H1|].
  destruct p; [assumption|]. apply H1. unfold is_u16, u16. now apply N.mod_lt.
Qed.

Lemma gen_txt_loop : forall p fuel data_len read strings l r, is_bytes l -> r <= 8 * length l ->
  Forall string_val strings -> 8 * length l < fuel + r ->
  match txt_loop p fuel data_len read strings (at_ l r) with
  | Done (res, b') => exists r', b' = at_ l r' /\ r' <= 8 * length l /\
      match res with Ok ts => r <= r' /\ Forall string_val ts | Err _ => True end
  | Panic _ => True
  | Diverge => False
  end.
Proof.
  intros p fuel. induction fuel as [|fuel IH]; intros data_len read strings l r Hl Hr Hs Hf; [lia|].
  cbn [txt_loop]. unfold bindM at 1. unfold check_end at 1.
  rewrite read_u8_at by assumption.
  destruct (Nat.leb_spec (r + 8) (8 * length l)) as [H8|H8]; cbn [bind].
  2:{ exists r. repeat split; assumption. }
  unfold read_pos. cbn [at_ r_pos]. fold (at_ l (r + 8)).
  rewrite step_back_at by assumption. destruct r as [|r1]; [exact I|]. cbn [bind].
  apply chk_u16_cases; [intros s1 _|exact I]. cbn [bind].
  apply chk_u16_cases; [intros s2 _|exact I]. cbn [bind].
  destruct (data_len <? s2)%N. { exists r1. repeat split; try assumption. lia. }
  unfold bindM at 1. pose proof (gen_string False l r1 Hl ltac:(lia)) as G.
  destruct (decode_character_string (at_ l r1)) as [[[s|e] b3]|k|]; cbn [bind]; try exact I; try contradiction.
  2:{ destruct G as (r' & -> & H1 & _). exists r'. now repeat split. }
  destruct G as (r' & -> & H1 & H2 & H3).
  apply chk_u16_cases; [intros l1 _|exact I]. cbn [bind].
  apply chk_u16_cases; [intros read' _|exact I]. cbn [bind].
  assert (Hs' : Forall string_val (strings ++ [s])) by (apply Forall_app; split; [assumption|now constructor]).
  destruct (read' =? data_len)%N. { exists r'. repeat split; try assumption. lia. }
  specialize (IH data_len read' (strings ++ [s]) l r' Hl H1 Hs' ltac:(lia)).
  destruct (txt_loop _ _ _ _ _ _) as [[res b']|k|]; try exact IH.
  destruct IH as (r'' & -> & H4 & H5). exists r''. repeat split; try assumption.
  destruct res; [|exact I]. split; [lia|apply H5].
Qed.

Lemma parse_wks_ports_cases : forall p l ports, parse_wks_ports p l = Done ports -> ports = [] /\ Forall (fun x => x = 0%N) l.
Proof.
  intros p l. induction l as [|x l IH]; intros ports E; cbn in E; [injection E as <-; now split|].
  destruct (N.eqb_spec x 0) as [->|]; [|destruct p; discriminate].
  apply IH in E as [-> H]. split; [reflexivity|now constructor].
Qed.

Lemma gen_data : forall p t n, gen 0 (p = Release) (decode_data p t n) decoded_data.
Proof.
  intros p t n. destruct t; cbn [decode_data]; try (intros l r _ _; exact I).
  - apply (gen_bind _ _ 0 0 _ _ _ (fun s => is_bytes s /\ length s = 4)).
    + unfold decode_a_data. destruct (negb _); [apply gen_fail|].
      eapply gen_weaken; [apply gen_bytes|lia|auto].
    + intros a Ha. now apply gen_ret.
  - apply (gen_bind _ _ 0 0 _ _ _ good_name).
    + apply gen_len_checked. eapply gen_weaken; [apply gen_name|lia|auto].
    + intros a Ha. now apply gen_ret.
  - apply (gen_bind _ _ 0 0 _ _ _ good_name).
    + apply gen_len_checked. eapply gen_weaken; [apply gen_name|lia|auto].
    + intros a Ha. now apply gen_ret.
  - apply gen_len_checked. eapply gen_weaken; [|apply Nat.le_0_l|intros a Ha; exact Ha].
    eapply gen_bind; [apply gen_name|]. intros m Hm.
    eapply gen_bind; [apply gen_name|]. intros rn Hrn.
    do 5 (eapply gen_bind; [apply gen_u32|]; intros ? ?).
    apply gen_ret. cbn. now repeat split.
  - unfold decode_wks_data. eapply gen_weaken; [|apply Nat.le_0_l|intros a Ha; exact Ha].
    eapply gen_bind; [apply gen_bytes|]. intros a (Ha & Hla).
    eapply gen_bind; [apply gen_u8|]. intros pr Hpr.
    destruct (5 <? n)%N; [|apply gen_ret; cbn; now repeat split].
    intros l r Hl Hr. rewrite read_bytes_at by assumption.
    destruct (Nat.leb_spec (r + N.to_nat (n - 5) * 8) (8 * length l)); cbn [bind unwrap]; [|exact I].
    destruct (parse_wks_ports p _) as [ports|k|] eqn:E; cbn [bind].
    + apply parse_wks_ports_cases in E as [-> _]. exists (r + N.to_nat (n - 5) * 8).
      split; [reflexivity|]. split; [lia|]. split; [lia|]. cbn. now repeat split.
    + exact I.
    + destruct p; [|reflexivity]. exfalso. clear -E. induction (rbs l r (N.to_nat (n - 5))) as [|x xs IH]; cbn in E; [discriminate|].
      destruct (x =? 0)%N; [now apply IH|discriminate].
  - apply (gen_bind _ _ 0 0 _ _ _ good_name).
    + apply gen_len_checked. eapply gen_weaken; [apply gen_name|lia|auto].
    + intros a Ha. now apply gen_ret.
  - apply gen_len_checked. eapply gen_weaken; [|apply Nat.le_0_l|intros a Ha; exact Ha].
    eapply gen_bind; [apply gen_string|]. intros c Hc.
    eapply gen_bind; [apply gen_string|]. intros o Ho.
    apply gen_ret. cbn. now split.
  - apply gen_len_checked. eapply gen_weaken; [|apply Nat.le_0_l|intros a Ha; exact Ha].
    eapply gen_bind; [apply gen_u16|]. intros c Hc.
    eapply gen_bind; [apply gen_name|]. intros o Ho.
    apply gen_ret. cbn. now split.
  - intros l r Hl Hr. unfold decode_txt_data, bindM. cbn [last at_].
    pose proof (gen_txt_loop p (S (length l * 8)) n 0 [] l r Hl Hr ltac:(constructor) ltac:(lia)) as G.
    fold (at_ l r).
    destruct (txt_loop _ _ _ _ _ _) as [[[ts|e] b']|k|]; cbn [bind]; try exact I; try contradiction.
    + destruct G as (r' & -> & H1 & H2 & H3). exists r'. repeat split; try assumption. lia.
    + destruct G as (r' & -> & H1 & _). exists r'. now repeat split.
Qed.

Lemma decode_class_ok : forall n c, decode_class n = Ok c -> c = C_IN.
Proof.
  intros n c. unfold decode_class. destruct (class_from_num n) as [c'|]; [|discriminate].
  destruct c'; cbn; intros [= <-]; reflexivity.
Qed.

Lemma gen_rtype : forall dv, gen 16 dv decode_rtype (fun t => usable_type t).
Proof.
  intros dv. unfold decode_rtype. apply (gen_bind _ _ 16 0 _ _ _ is_u16); [apply gen_u16|]. intros n Hn.
  destruct (rtype_from_num n) as [t|m].
  - destruct (supported_for_records t) eqn:E; cbn [negb]; [|apply gen_fail].
    apply gen_ret. now apply usable_supported.
  - eapply gen_weaken; [|apply Nat.le_0_l|intros a Ha; exact Ha].
    eapply gen_bind; [apply gen_u16|]. intros ? _.
    eapply gen_bind; [apply gen_u32|]. intros ? _.
    eapply gen_bind; [apply gen_u16|]. intros ? _.
    eapply gen_bind; [eapply (gen_weaken _ _ 0); [apply gen_bytes|lia|intros aa Ha; exact Ha]|].
    intros ? _. apply gen_fail.
Qed.

Lemma gen_qtype : forall dv, gen 16 dv decode_qtype (fun t => usable_type t).
Proof.
  intros dv. unfold decode_qtype. apply (gen_bind _ _ 16 0 _ _ _ is_u16); [apply gen_u16|]. intros n Hn.
  destruct (rtype_from_num n) as [t|m].
  - destruct (supported_for_question t) eqn:E; cbn [negb]; [|apply gen_fail].
    apply gen_ret. now apply usable_supported.
  - eapply gen_weaken; [|apply Nat.le_0_l|intros a Ha; exact Ha].
    eapply gen_bind; [apply gen_u16|]. intros ? _. apply gen_fail.
Qed.

Definition decoded_record (r : record) : Prop :=
  good_name (r_node r) /\ r_class r = C_IN /\ is_u32 (r_ttl r) /\ is_u16 (r_data_len r) /\ decoded_data (r_data r).
Definition decoded_question (q : question) : Prop :=
  good_name (q_node q) /\ q_class q = C_IN /\ usable_type (q_type q).

Lemma gen_record : forall p, gen 0 (p = Release) (decode_record p) decoded_record.
Proof.
  intros p. rewrite decode_record_eq. eapply gen_weaken; [|apply Nat.le_0_l|intros a Ha; exact Ha].
  eapply gen_bind; [apply gen_name|]. intros n Hn.
  eapply gen_bind; [apply gen_rtype|]. intros t Ht.
  eapply gen_bind; [apply gen_u16|]. intros c _.
  eapply gen_bind; [apply gen_lift; intros cl E; exact (decode_class_ok _ _ E)|]. intros cl ->.
  eapply gen_bind; [apply gen_u32|]. intros ttl Httl.
  eapply gen_bind; [apply gen_u16|]. intros len Hlen.
  eapply gen_bind; [apply gen_data|]. intros d Hd.
  apply gen_ret. now repeat split.
Qed.

Lemma gen_question : forall p dv, gen 0 dv (decode_question p) decoded_question.
Proof.
  intros p dv. unfold decode_question. eapply gen_weaken; [|apply Nat.le_0_l|intros a Ha; exact Ha].
  eapply gen_bind; [apply gen_name|]. intros n Hn.
  eapply gen_bind; [apply gen_qtype|]. intros t Ht.
  eapply gen_bind; [apply gen_u16|]. intros c _.
  eapply gen_bind; [apply gen_lift; intros cl E; exact (decode_class_ok _ _ E)|]. intros cl ->.
  apply gen_ret. now repeat split.
Qed.

Lemma gen_section : forall A d dv (dec : M A) mk Q, gen d dv dec Q -> forall n i l r,
  is_bytes l -> r <= 8 * length l ->
  match decode_section dec mk i n (at_ l r) with
  | Done (res, b') => exists r', b' = at_ l r' /\ r' <= 8 * length l /\
      match res with Ok vs => Forall Q vs /\ length vs <= n | Err _ => True end
  | Panic _ => True
  | Diverge => dv
  end.
Proof.
  intros A d dv dec mk Q H n. induction n as [|n IH]; intros i l r Hl Hr; cbn [decode_section].
  - exists r. repeat split; try assumption; constructor.
  - specialize (H l r Hl Hr). destruct (dec (at_ l r)) as [[[a|e] b']|k|]; cbn [bind]; try exact H; try exact I.
    + destruct H as (r1 & -> & H1 & H2 & H3). specialize (IH (S i) l r1 Hl H1).
      destruct (decode_section dec mk (S i) n (at_ l r1)) as [[[vs|e] b']|k|]; cbn [bind]; try exact IH; try exact I.
      destruct IH as (r2 & -> & H4 & H5 & H6). exists r2. repeat split; try assumption; [now constructor|].
      cbn [length]. lia.
    + destruct H as (r1 & -> & H1 & _).
      assert (Hskip : match decode_section dec mk (S i) n (at_ l r1) with
        | Done (res, b') => exists r', b' = at_ l r' /\ r' <= 8 * length l /\
            match res with Ok vs => Forall Q vs /\ length vs <= S n | Err _ => True end
        | Panic _ => True | Diverge => dv end).
      { specialize (IH (S i) l r1 Hl H1).
        destruct (decode_section dec mk (S i) n (at_ l r1)) as [[[vs|e'] b']|k|]; try exact IH.
        destruct IH as (r2 & -> & H4 & H5 & H6). exists r2. repeat split; try assumption. lia. }
      destruct e; try exact Hskip; exists r1; now repeat split.
Qed.
