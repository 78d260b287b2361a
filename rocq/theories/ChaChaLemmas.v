(** ChaCha20 and the AEAD against RFC 8439. *)
From Verif Require Import Base HashSpec Blocks Hash HashLemmas MdLemmas CmacLemmas DerLemmas PropHash GcmSpec Gcm GaloisLemmas GcmLemmas ChaChaSpec ChaCha PolyLemmas.

(** the quarter round of chacha.c as a function of four words *)
Definition c_qr (a b c d : Z) : Z * Z * Z * Z :=
  let a := u32 (a + b) in let d := cROTL 32 (Z.lxor d a) 16 in
  let c := u32 (c + d) in let b := cROTL 32 (Z.lxor b c) 12 in
  let a := u32 (a + b) in let d := cROTL 32 (Z.lxor d a) 8 in
  let c := u32 (c + d) in let b := cROTL 32 (Z.lxor b c) 7 in
  (a, b, c, d).
Lemma c_qr_spec a b c d : wd 32 a -> wd 32 b -> wd 32 c -> wd 32 d -> c_qr a b c d = cc_qr (a, b, c, d) /\
  let '(a', b', c', d') := cc_qr (a, b, c, d) in wd 32 a' /\ wd 32 b' /\ wd 32 c' /\ wd 32 d'.
Proof.
  intros A B C D. unfold c_qr, cc_qr. cbv zeta.
  assert (AW : forall x y, wd 32 (add_w 32 x y)) by (intros; unfold wd, add_w; apply Z.mod_pos_bound; lia).
  assert (RW : forall n x, 0 <= n <= 32 -> wd 32 x -> wd 32 (rotl 32 n x)) by (intros; apply rotl_wd; auto).
  change (u32 (a + b)) with (add_w 32 a b). set (a1 := add_w 32 a b). assert (A1 : wd 32 a1) by apply AW.
  rewrite (cROTL_rotl 32 16 (Z.lxor d a1)) by (first [lia|apply lxor_wd; auto; lia]). set (d1 := rotl 32 16 (Z.lxor d a1)).
  assert (D1 : wd 32 d1) by (apply RW; [lia|apply lxor_wd; auto; lia]).
  change (u32 (c + d1)) with (add_w 32 c d1). set (c1 := add_w 32 c d1). assert (C1 : wd 32 c1) by apply AW.
  rewrite (cROTL_rotl 32 12 (Z.lxor b c1)) by (first [lia|apply lxor_wd; auto; lia]). set (b1 := rotl 32 12 (Z.lxor b c1)).
  assert (B1 : wd 32 b1) by (apply RW; [lia|apply lxor_wd; auto; lia]).
  change (u32 (a1 + b1)) with (add_w 32 a1 b1). set (a2 := add_w 32 a1 b1). assert (A2 : wd 32 a2) by apply AW.
  rewrite (cROTL_rotl 32 8 (Z.lxor d1 a2)) by (first [lia|apply lxor_wd; auto; lia]). set (d2 := rotl 32 8 (Z.lxor d1 a2)).
  assert (D2 : wd 32 d2) by (apply RW; [lia|apply lxor_wd; auto; lia]).
  change (u32 (c1 + d2)) with (add_w 32 c1 d2). set (c2 := add_w 32 c1 d2). assert (C2 : wd 32 c2) by apply AW.
  rewrite (cROTL_rotl 32 7 (Z.lxor b1 c2)) by (first [lia|apply lxor_wd; auto; lia]). set (b2 := rotl 32 7 (Z.lxor b1 c2)).
  assert (B2 : wd 32 b2) by (apply RW; [lia|apply lxor_wd; auto; lia]).
  split; [reflexivity|]. auto.
Qed.
Definition st16 (s : list Z) : Prop := length s = 16%nat /\ words_ok s.
Lemma st16_nth s i : st16 s -> wd 32 (nthZ i s).
Proof. intros [_ W]. exact (nthZ_words s i W). Qed.
Lemma qr_list0 s0 s1 s2 s3 s4 s5 s6 s7 s8 s9 s10 s11 s12 s13 s14 s15 : qround 0 4 8 12 [s0; s1; s2; s3; s4; s5; s6; s7; s8; s9; s10; s11; s12; s13; s14; s15] =
  let '(a, b, c, d) := c_qr s0 s4 s8 s12 in [a; s1; s2; s3; b; s5; s6; s7; c; s9; s10; s11; d; s13; s14; s15].
Proof. reflexivity. Qed.
Lemma qr_step0 s : st16 s -> qround 0 4 8 12 s = cc_QR 0 4 8 12 s /\ st16 (cc_QR 0 4 8 12 s).
Proof.
  intros [L W]. destruct s as [|z0 s]; [discriminate|]. destruct s as [|z1 s]; [discriminate|]. destruct s as [|z2 s]; [discriminate|]. destruct s as [|z3 s]; [discriminate|]. destruct s as [|z4 s]; [discriminate|]. destruct s as [|z5 s]; [discriminate|]. destruct s as [|z6 s]; [discriminate|]. destruct s as [|z7 s]; [discriminate|]. destruct s as [|z8 s]; [discriminate|]. destruct s as [|z9 s]; [discriminate|]. destruct s as [|z10 s]; [discriminate|]. destruct s as [|z11 s]; [discriminate|]. destruct s as [|z12 s]; [discriminate|]. destruct s as [|z13 s]; [discriminate|]. destruct s as [|z14 s]; [discriminate|]. destruct s as [|z15 s]; [discriminate|]. destruct s; [|discriminate].
  destruct (c_qr_spec z0 z4 z8 z12) as [E1 E2]; try (match goal with |- wd 32 ?v => exact (proj1 (Forall_forall _ _) W v ltac:(cbn; tauto)) end).
  rewrite qr_list0, E1. unfold cc_QR. cbn [nthZ nth]. unfold nthZ. cbn [nth]. destruct (cc_qr (z0, z4, z8, z12)) as [[[a b] c] d].
  cbn [map seq Nat.eqb]. split; [reflexivity|]. split; [reflexivity|].
  destruct E2 as (A & B & C & D). repeat (inversion W as [|? ? ? W']; clear W; rename W' into W; subst). repeat (apply Forall_cons; [assumption|]). constructor.
Qed.
Lemma qr_list1 s0 s1 s2 s3 s4 s5 s6 s7 s8 s9 s10 s11 s12 s13 s14 s15 : qround 1 5 9 13 [s0; s1; s2; s3; s4; s5; s6; s7; s8; s9; s10; s11; s12; s13; s14; s15] =
  let '(a, b, c, d) := c_qr s1 s5 s9 s13 in [s0; a; s2; s3; s4; b; s6; s7; s8; c; s10; s11; s12; d; s14; s15].
Proof. reflexivity. Qed.
Lemma qr_step1 s : st16 s -> qround 1 5 9 13 s = cc_QR 1 5 9 13 s /\ st16 (cc_QR 1 5 9 13 s).
Proof.
  intros [L W]. destruct s as [|z0 s]; [discriminate|]. destruct s as [|z1 s]; [discriminate|]. destruct s as [|z2 s]; [discriminate|]. destruct s as [|z3 s]; [discriminate|]. destruct s as [|z4 s]; [discriminate|]. destruct s as [|z5 s]; [discriminate|]. destruct s as [|z6 s]; [discriminate|]. destruct s as [|z7 s]; [discriminate|]. destruct s as [|z8 s]; [discriminate|]. destruct s as [|z9 s]; [discriminate|]. destruct s as [|z10 s]; [discriminate|]. destruct s as [|z11 s]; [discriminate|]. destruct s as [|z12 s]; [discriminate|]. destruct s as [|z13 s]; [discriminate|]. destruct s as [|z14 s]; [discriminate|]. destruct s as [|z15 s]; [discriminate|]. destruct s; [|discriminate].
  destruct (c_qr_spec z1 z5 z9 z13) as [E1 E2]; try (match goal with |- wd 32 ?v => exact (proj1 (Forall_forall _ _) W v ltac:(cbn; tauto)) end).
  rewrite qr_list1, E1. unfold cc_QR. cbn [nthZ nth]. unfold nthZ. cbn [nth]. destruct (cc_qr (z1, z5, z9, z13)) as [[[a b] c] d].
  cbn [map seq Nat.eqb]. split; [reflexivity|]. split; [reflexivity|].
  destruct E2 as (A & B & C & D). repeat (inversion W as [|? ? ? W']; clear W; rename W' into W; subst). repeat (apply Forall_cons; [assumption|]). constructor.
Qed.
Lemma qr_list2 s0 s1 s2 s3 s4 s5 s6 s7 s8 s9 s10 s11 s12 s13 s14 s15 : qround 2 6 10 14 [s0; s1; s2; s3; s4; s5; s6; s7; s8; s9; s10; s11; s12; s13; s14; s15] =
  let '(a, b, c, d) := c_qr s2 s6 s10 s14 in [s0; s1; a; s3; s4; s5; b; s7; s8; s9; c; s11; s12; s13; d; s15].
Proof. reflexivity. Qed.
Lemma qr_step2 s : st16 s -> qround 2 6 10 14 s = cc_QR 2 6 10 14 s /\ st16 (cc_QR 2 6 10 14 s).
Proof.
  intros [L W]. destruct s as [|z0 s]; [discriminate|]. destruct s as [|z1 s]; [discriminate|]. destruct s as [|z2 s]; [discriminate|]. destruct s as [|z3 s]; [discriminate|]. destruct s as [|z4 s]; [discriminate|]. destruct s as [|z5 s]; [discriminate|]. destruct s as [|z6 s]; [discriminate|]. destruct s as [|z7 s]; [discriminate|]. destruct s as [|z8 s]; [discriminate|]. destruct s as [|z9 s]; [discriminate|]. destruct s as [|z10 s]; [discriminate|]. destruct s as [|z11 s]; [discriminate|]. destruct s as [|z12 s]; [discriminate|]. destruct s as [|z13 s]; [discriminate|]. destruct s as [|z14 s]; [discriminate|]. destruct s as [|z15 s]; [discriminate|]. destruct s; [|discriminate].
  destruct (c_qr_spec z2 z6 z10 z14) as [E1 E2]; try (match goal with |- wd 32 ?v => exact (proj1 (Forall_forall _ _) W v ltac:(cbn; tauto)) end).
  rewrite qr_list2, E1. unfold cc_QR. cbn [nthZ nth]. unfold nthZ. cbn [nth]. destruct (cc_qr (z2, z6, z10, z14)) as [[[a b] c] d].
  cbn [map seq Nat.eqb]. split; [reflexivity|]. split; [reflexivity|].
  destruct E2 as (A & B & C & D). repeat (inversion W as [|? ? ? W']; clear W; rename W' into W; subst). repeat (apply Forall_cons; [assumption|]). constructor.
Qed.
Lemma qr_list3 s0 s1 s2 s3 s4 s5 s6 s7 s8 s9 s10 s11 s12 s13 s14 s15 : qround 3 7 11 15 [s0; s1; s2; s3; s4; s5; s6; s7; s8; s9; s10; s11; s12; s13; s14; s15] =
  let '(a, b, c, d) := c_qr s3 s7 s11 s15 in [s0; s1; s2; a; s4; s5; s6; b; s8; s9; s10; c; s12; s13; s14; d].
Proof. reflexivity. Qed.
Lemma qr_step3 s : st16 s -> qround 3 7 11 15 s = cc_QR 3 7 11 15 s /\ st16 (cc_QR 3 7 11 15 s).
Proof.
  intros [L W]. destruct s as [|z0 s]; [discriminate|]. destruct s as [|z1 s]; [discriminate|]. destruct s as [|z2 s]; [discriminate|]. destruct s as [|z3 s]; [discriminate|]. destruct s as [|z4 s]; [discriminate|]. destruct s as [|z5 s]; [discriminate|]. destruct s as [|z6 s]; [discriminate|]. destruct s as [|z7 s]; [discriminate|]. destruct s as [|z8 s]; [discriminate|]. destruct s as [|z9 s]; [discriminate|]. destruct s as [|z10 s]; [discriminate|]. destruct s as [|z11 s]; [discriminate|]. destruct s as [|z12 s]; [discriminate|]. destruct s as [|z13 s]; [discriminate|]. destruct s as [|z14 s]; [discriminate|]. destruct s as [|z15 s]; [discriminate|]. destruct s; [|discriminate].
  destruct (c_qr_spec z3 z7 z11 z15) as [E1 E2]; try (match goal with |- wd 32 ?v => exact (proj1 (Forall_forall _ _) W v ltac:(cbn; tauto)) end).
  rewrite qr_list3, E1. unfold cc_QR. cbn [nthZ nth]. unfold nthZ. cbn [nth]. destruct (cc_qr (z3, z7, z11, z15)) as [[[a b] c] d].
  cbn [map seq Nat.eqb]. split; [reflexivity|]. split; [reflexivity|].
  destruct E2 as (A & B & C & D). repeat (inversion W as [|? ? ? W']; clear W; rename W' into W; subst). repeat (apply Forall_cons; [assumption|]). constructor.
Qed.
Lemma qr_list4 s0 s1 s2 s3 s4 s5 s6 s7 s8 s9 s10 s11 s12 s13 s14 s15 : qround 0 5 10 15 [s0; s1; s2; s3; s4; s5; s6; s7; s8; s9; s10; s11; s12; s13; s14; s15] =
  let '(a, b, c, d) := c_qr s0 s5 s10 s15 in [a; s1; s2; s3; s4; b; s6; s7; s8; s9; c; s11; s12; s13; s14; d].
Proof. reflexivity. Qed.
Lemma qr_step4 s : st16 s -> qround 0 5 10 15 s = cc_QR 0 5 10 15 s /\ st16 (cc_QR 0 5 10 15 s).
Proof.
  intros [L W]. destruct s as [|z0 s]; [discriminate|]. destruct s as [|z1 s]; [discriminate|]. destruct s as [|z2 s]; [discriminate|]. destruct s as [|z3 s]; [discriminate|]. destruct s as [|z4 s]; [discriminate|]. destruct s as [|z5 s]; [discriminate|]. destruct s as [|z6 s]; [discriminate|]. destruct s as [|z7 s]; [discriminate|]. destruct s as [|z8 s]; [discriminate|]. destruct s as [|z9 s]; [discriminate|]. destruct s as [|z10 s]; [discriminate|]. destruct s as [|z11 s]; [discriminate|]. destruct s as [|z12 s]; [discriminate|]. destruct s as [|z13 s]; [discriminate|]. destruct s as [|z14 s]; [discriminate|]. destruct s as [|z15 s]; [discriminate|]. destruct s; [|discriminate].
  destruct (c_qr_spec z0 z5 z10 z15) as [E1 E2]; try (match goal with |- wd 32 ?v => exact (proj1 (Forall_forall _ _) W v ltac:(cbn; tauto)) end).
  rewrite qr_list4, E1. unfold cc_QR. cbn [nthZ nth]. unfold nthZ. cbn [nth]. destruct (cc_qr (z0, z5, z10, z15)) as [[[a b] c] d].
  cbn [map seq Nat.eqb]. split; [reflexivity|]. split; [reflexivity|].
  destruct E2 as (A & B & C & D). repeat (inversion W as [|? ? ? W']; clear W; rename W' into W; subst). repeat (apply Forall_cons; [assumption|]). constructor.
Qed.
Lemma qr_list5 s0 s1 s2 s3 s4 s5 s6 s7 s8 s9 s10 s11 s12 s13 s14 s15 : qround 1 6 11 12 [s0; s1; s2; s3; s4; s5; s6; s7; s8; s9; s10; s11; s12; s13; s14; s15] =
  let '(a, b, c, d) := c_qr s1 s6 s11 s12 in [s0; a; s2; s3; s4; s5; b; s7; s8; s9; s10; c; d; s13; s14; s15].
Proof. reflexivity. Qed.
Lemma qr_step5 s : st16 s -> qround 1 6 11 12 s = cc_QR 1 6 11 12 s /\ st16 (cc_QR 1 6 11 12 s).
Proof.
  intros [L W]. destruct s as [|z0 s]; [discriminate|]. destruct s as [|z1 s]; [discriminate|]. destruct s as [|z2 s]; [discriminate|]. destruct s as [|z3 s]; [discriminate|]. destruct s as [|z4 s]; [discriminate|]. destruct s as [|z5 s]; [discriminate|]. destruct s as [|z6 s]; [discriminate|]. destruct s as [|z7 s]; [discriminate|]. destruct s as [|z8 s]; [discriminate|]. destruct s as [|z9 s]; [discriminate|]. destruct s as [|z10 s]; [discriminate|]. destruct s as [|z11 s]; [discriminate|]. destruct s as [|z12 s]; [discriminate|]. destruct s as [|z13 s]; [discriminate|]. destruct s as [|z14 s]; [discriminate|]. destruct s as [|z15 s]; [discriminate|]. destruct s; [|discriminate].
  destruct (c_qr_spec z1 z6 z11 z12) as [E1 E2]; try (match goal with |- wd 32 ?v => exact (proj1 (Forall_forall _ _) W v ltac:(cbn; tauto)) end).
  rewrite qr_list5, E1. unfold cc_QR. cbn [nthZ nth]. unfold nthZ. cbn [nth]. destruct (cc_qr (z1, z6, z11, z12)) as [[[a b] c] d].
  cbn [map seq Nat.eqb]. split; [reflexivity|]. split; [reflexivity|].
  destruct E2 as (A & B & C & D). repeat (inversion W as [|? ? ? W']; clear W; rename W' into W; subst). repeat (apply Forall_cons; [assumption|]). constructor.
Qed.
Lemma qr_list6 s0 s1 s2 s3 s4 s5 s6 s7 s8 s9 s10 s11 s12 s13 s14 s15 : qround 2 7 8 13 [s0; s1; s2; s3; s4; s5; s6; s7; s8; s9; s10; s11; s12; s13; s14; s15] =
  let '(a, b, c, d) := c_qr s2 s7 s8 s13 in [s0; s1; a; s3; s4; s5; s6; b; c; s9; s10; s11; s12; d; s14; s15].
Proof. reflexivity. Qed.
Lemma qr_step6 s : st16 s -> qround 2 7 8 13 s = cc_QR 2 7 8 13 s /\ st16 (cc_QR 2 7 8 13 s).
Proof.
  intros [L W]. destruct s as [|z0 s]; [discriminate|]. destruct s as [|z1 s]; [discriminate|]. destruct s as [|z2 s]; [discriminate|]. destruct s as [|z3 s]; [discriminate|]. destruct s as [|z4 s]; [discriminate|]. destruct s as [|z5 s]; [discriminate|]. destruct s as [|z6 s]; [discriminate|]. destruct s as [|z7 s]; [discriminate|]. destruct s as [|z8 s]; [discriminate|]. destruct s as [|z9 s]; [discriminate|]. destruct s as [|z10 s]; [discriminate|]. destruct s as [|z11 s]; [discriminate|]. destruct s as [|z12 s]; [discriminate|]. destruct s as [|z13 s]; [discriminate|]. destruct s as [|z14 s]; [discriminate|]. destruct s as [|z15 s]; [discriminate|]. destruct s; [|discriminate].
  destruct (c_qr_spec z2 z7 z8 z13) as [E1 E2]; try (match goal with |- wd 32 ?v => exact (proj1 (Forall_forall _ _) W v ltac:(cbn; tauto)) end).
  rewrite qr_list6, E1. unfold cc_QR. cbn [nthZ nth]. unfold nthZ. cbn [nth]. destruct (cc_qr (z2, z7, z8, z13)) as [[[a b] c] d].
  cbn [map seq Nat.eqb]. split; [reflexivity|]. split; [reflexivity|].
  destruct E2 as (A & B & C & D). repeat (inversion W as [|? ? ? W']; clear W; rename W' into W; subst). repeat (apply Forall_cons; [assumption|]). constructor.
Qed.
Lemma qr_list7 s0 s1 s2 s3 s4 s5 s6 s7 s8 s9 s10 s11 s12 s13 s14 s15 : qround 3 4 9 14 [s0; s1; s2; s3; s4; s5; s6; s7; s8; s9; s10; s11; s12; s13; s14; s15] =
  let '(a, b, c, d) := c_qr s3 s4 s9 s14 in [s0; s1; s2; a; b; s5; s6; s7; s8; c; s10; s11; s12; s13; d; s15].
Proof. reflexivity. Qed.
Lemma qr_step7 s : st16 s -> qround 3 4 9 14 s = cc_QR 3 4 9 14 s /\ st16 (cc_QR 3 4 9 14 s).
Proof.
  intros [L W]. destruct s as [|z0 s]; [discriminate|]. destruct s as [|z1 s]; [discriminate|]. destruct s as [|z2 s]; [discriminate|]. destruct s as [|z3 s]; [discriminate|]. destruct s as [|z4 s]; [discriminate|]. destruct s as [|z5 s]; [discriminate|]. destruct s as [|z6 s]; [discriminate|]. destruct s as [|z7 s]; [discriminate|]. destruct s as [|z8 s]; [discriminate|]. destruct s as [|z9 s]; [discriminate|]. destruct s as [|z10 s]; [discriminate|]. destruct s as [|z11 s]; [discriminate|]. destruct s as [|z12 s]; [discriminate|]. destruct s as [|z13 s]; [discriminate|]. destruct s as [|z14 s]; [discriminate|]. destruct s as [|z15 s]; [discriminate|]. destruct s; [|discriminate].
  destruct (c_qr_spec z3 z4 z9 z14) as [E1 E2]; try (match goal with |- wd 32 ?v => exact (proj1 (Forall_forall _ _) W v ltac:(cbn; tauto)) end).
  rewrite qr_list7, E1. unfold cc_QR. cbn [nthZ nth]. unfold nthZ. cbn [nth]. destruct (cc_qr (z3, z4, z9, z14)) as [[[a b] c] d].
  cbn [map seq Nat.eqb]. split; [reflexivity|]. split; [reflexivity|].
  destruct E2 as (A & B & C & D). repeat (inversion W as [|? ? ? W']; clear W; rename W' into W; subst). repeat (apply Forall_cons; [assumption|]). constructor.
Qed.
Lemma inner_spec s : st16 s -> inner_block s = cc_double_round s /\ st16 (cc_double_round s).
Proof.
  intros S. unfold inner_block, cc_double_round. cbn [fold_left]. cbv zeta.
  destruct (qr_step0 _ S) as [E0 S0]. rewrite E0. clear S. rename S0 into S.
  destruct (qr_step1 _ S) as [E1 S1]. rewrite E1. clear S. rename S1 into S.
  destruct (qr_step2 _ S) as [E2 S2]. rewrite E2. clear S. rename S2 into S.
  destruct (qr_step3 _ S) as [E3 S3]. rewrite E3. clear S. rename S3 into S.
  destruct (qr_step4 _ S) as [E4 S4]. rewrite E4. clear S. rename S4 into S.
  destruct (qr_step5 _ S) as [E5 S5]. rewrite E5. clear S. rename S5 into S.
  destruct (qr_step6 _ S) as [E6 S6]. rewrite E6. clear S. rename S6 into S.
  destruct (qr_step7 _ S) as [E7 S7]. rewrite E7. clear S. rename S7 into S.
  split; [reflexivity|exact S].
Qed.

Lemma iter_inner n s : st16 s -> Nat.iter n inner_block s = Nat.iter n cc_double_round s /\ st16 (Nat.iter n cc_double_round s).
Proof.
  intros S. induction n as [|n [E I]]; [auto|]. change (Nat.iter (Datatypes.S n) ?f s) with (f (Nat.iter n f s)).
  rewrite E. apply inner_spec. exact I.
Qed.
Lemma cc_block_length K c n : length (cc_block K c n) = 64%nat.
Proof. reflexivity. Qed.
Lemma cc_block_bytes K c n : bytes_ok (cc_block K c n).
Proof.
  unfold cc_block. cbv zeta. generalize (Nat.iter 10 cc_double_round (cc_state K c n)), (cc_state K c n), (seq 0 16). intros t s l.
  induction l as [|i l IH]; [constructor|]. cbn [flat_map]. apply Forall_app. split; [apply le_bytes_ok|exact IH].
Qed.

(** every later counter value gives the RFC state *)
Definition ready (K iv s : list Z) : Prop := st16 s /\ forall c, upd 12 c s = cc_state K c iv.
Definition keyed (K s : list Z) : Prop := st16 s /\ firstn 12 s = [0x61707865; 0x3320646e; 0x79622d32; 0x6b206574] ++ le_words K.
Lemma le_words_ok b : bytes_ok b -> words_ok (le_words b).
Proof.
  intros B. unfold le_words, words_ok. apply Forall_map. pose proof (blocks_bytes 4 b ltac:(lia) B) as F. eapply Forall_impl; [|exact F].
  cbv beta. intros l [L Bl]. pose proof (le_val_bound l Bl) as X. rewrite L in X. exact X.
Qed.
Lemma le_words_key K : length K = 32%nat -> le_words K = map (le32_at K) (seq 0 8).
Proof. intros L. unfold le_words, blocks. rewrite L, map_map. reflexivity. Qed.
Lemma le_words_nonce K : length K = 12%nat -> le_words K = map (le32_at K) (seq 0 3).
Proof. intros L. unfold le_words, blocks. rewrite L, map_map. reflexivity. Qed.
Lemma set_key s K : st16 s -> bytes_ok K -> length K = 32%nat -> keyed K (chacha20_set_state s (Some K) None).
Proof.
  intros [L W] B LK. split.
  - do 16 (destruct s as [|? s]; [discriminate|]). destruct s; [|discriminate]. split; [reflexivity|].
    unfold chacha20_set_state, set_words. cbn [fold_left seq upd Nat.add].
    repeat (inversion W as [|? ? ? W']; clear W; rename W' into W; subst).
    repeat (apply Forall_cons; [first [assumption|apply (le32_at_word K); exact B|unfold word_ok; lia]|]). constructor.
  - rewrite le_words_key by auto. do 16 (destruct s as [|? s]; [discriminate|]). destruct s; [|discriminate]. reflexivity.
Qed.
Lemma keyed_ready K iv s : keyed K s -> length K = 32%nat -> bytes_ok iv -> length iv = 12%nat -> ready K iv (chacha20_set_state s None (Some iv)).
Proof.
  intros [[L W] E] LK B LI. rewrite le_words_key in E by auto.
  do 16 (destruct s as [|? s]; [discriminate|]). destruct s; [|discriminate]. cbn [firstn app map seq] in E. split.
  - split; [reflexivity|]. unfold chacha20_set_state, set_words. cbn [fold_left seq upd Nat.add].
    repeat (inversion W as [|? ? ? W']; clear W; rename W' into W; subst).
    repeat (apply Forall_cons; [first [assumption|apply (le32_at_word iv); exact B|unfold word_ok; lia]|]). constructor.
  - intros c. unfold cc_state. rewrite le_words_key, le_words_nonce by auto. cbn [map seq app]. unfold chacha20_set_state, set_words. cbn [fold_left seq upd Nat.add].
    repeat match type of E with ?a :: ?l = ?b :: ?r => let E0 := fresh in assert (E0 : a = b) by congruence; assert (l = r) by congruence; clear E; rename H into E || idtac end.
    congruence.
Qed.
Lemma ready_keyed K iv s : ready K iv s -> length K = 32%nat -> keyed K s.
Proof.
  intros [S R] LK. split; [exact S|]. specialize (R 0). destruct S as [L _].
  assert (E : firstn 12 s = firstn 12 (upd 12 0 s)).
  { do 16 (destruct s as [|? s]; [discriminate|]). reflexivity. }
  rewrite E, R. unfold cc_state. rewrite app_assoc. apply firstn_app_exact. rewrite app_length, le_words_key, map_length, seq_length by auto. reflexivity.
Qed.
Lemma upd_upd {A} i (a b : A) l : upd i a (upd i b l) = upd i a l.
Proof. revert i; induction l as [|h l IH]; intros [|i]; cbn; auto. now rewrite IH. Qed.
Lemma block_spec K iv s c len inp : ready K iv s -> 0 <= c < 2 ^ 32 -> (len <= 64)%nat -> (match inp with Some b => (len <= length b)%nat | None => True end) ->
  ready K iv (fst (chacha20_block s c len inp)) /\
  snd (chacha20_block s c len inp) = match inp with Some b => xorb_list (firstn len b) (cc_block K c iv) | None => firstn len (cc_block K c iv) end.
Proof.
  intros [S R] Hc HL HI. unfold chacha20_block. cbv zeta. cbn [fst snd]. rewrite R.
  assert (SC : st16 (cc_state K c iv)).
  { rewrite <- R. destruct S as [L W]. split; [now rewrite upd_length|]. apply upd_Forall; auto. }
  split.
  - split; [exact SC|]. intros c'. rewrite <- R, upd_upd. apply R.
  - destruct (iter_inner 10 _ SC) as [E _]. rewrite E.
    assert (EB : flat_map (fun i => le_bytes 4 (u32 (nthZ i (Nat.iter 10 cc_double_round (cc_state K c iv)) + nthZ i (cc_state K c iv)))) (seq 0 16) = cc_block K c iv)
      by (unfold cc_block, add_w, u32; cbv zeta; reflexivity).
    rewrite EB. clear EB.
    assert (LB := cc_block_length K c iv). set (B := cc_block K c iv) in *. clearbody B.
    destruct inp as [b|].
    + apply list_ext; [rewrite map_length, seq_length, xorb_list_length, firstn_length; lia|]. intros i Hi. rewrite map_length, seq_length in Hi.
      rewrite nthZ_map_seq by auto. unfold nthZ. rewrite nth_xorb by (rewrite ?firstn_length; lia). rewrite nth_firstn.
      replace (i <? len)%nat with true by (symmetry; now apply Nat.ltb_lt). apply Z.lxor_comm.
    + apply list_ext; [rewrite map_length, seq_length, firstn_length; lia|]. intros i Hi. rewrite map_length, seq_length in Hi.
      rewrite nthZ_map_seq by auto. unfold nthZ. rewrite nth_firstn. replace (i <? len)%nat with true by (symmetry; now apply Nat.ltb_lt). apply Z.lxor_0_r.
Qed.

(* ---- key streams of 64-octet blocks ---- *)
Definition xstream (B : nat -> list Z) (q : nat) (P : list Z) : list Z :=
  xorb_list P (concat (map (fun j => B (q + j)%nat) (seq 0 ((length P + 63) / 64)))).
Lemma ceil64 n : (0 < n)%nat -> ((n + 63) / 64 = S ((n - 64 + 63) / 64))%nat.
Proof.
  intros Hn. destruct (Nat.le_gt_cases 64 n).
  - replace (n + 63)%nat with (n - 64 + 63 + 1 * 64)%nat by lia. rewrite Nat.div_add by lia. lia.
  - replace (n - 64 + 63)%nat with 63%nat by lia. replace (n + 63)%nat with (n - 1 + 1 * 64)%nat by lia. rewrite Nat.div_add, (Nat.div_small (n - 1)) by lia. reflexivity.
Qed.
Lemma xorb_split' n a b c : length b = n -> xorb_list a (b ++ c) = xorb_list (firstn n a) b ++ xorb_list (skipn n a) c.
Proof.
  intros L. destruct (Nat.le_gt_cases n (length a)).
  - rewrite <- (firstn_skipn n a) at 1. apply xorb_list_app. rewrite firstn_length. lia.
  - rewrite firstn_all2 by lia. rewrite skipn_all2 by lia. cbn [xorb_list]. rewrite app_nil_r.
    rewrite <- xorb_list_firstn_r. rewrite firstn_app. replace (length a - length b)%nat with 0%nat by lia. rewrite firstn_O, app_nil_r. apply xorb_list_firstn_r.
Qed.
Lemma xstream_step B q P : (forall i, length (B i) = 64%nat) -> P <> [] -> xstream B q P = xorb_list (firstn 64 P) (B q) ++ xstream B (S q) (skipn 64 P).
Proof.
  intros L N. unfold xstream. assert (0 < length P)%nat by (destruct P; [congruence|cbn [length]; lia]).
  rewrite ceil64 by auto. cbn [seq map concat]. rewrite Nat.add_0_r. rewrite (xorb_split' 64) by auto. f_equal.
  rewrite skipn_length, <- seq_shift, map_map. do 2 f_equal. apply map_ext. intros i. f_equal. lia.
Qed.
Lemma xstream_length B q P : (forall i, length (B i) = 64%nat) -> length (xstream B q P) = length P.
Proof.
  intros L. remember (length P) as n eqn:Hn. revert P q Hn. induction n as [n IH] using lt_wf_ind. intros P q Hn.
  destruct P as [|x P]; [subst; reflexivity|]. rewrite xstream_step by (auto; congruence). rewrite app_length, xorb_list_length, L.
  rewrite (IH (length (skipn 64 (x :: P)))) by (rewrite ?skipn_length; auto; cbn [length] in *; lia).
  rewrite firstn_length, skipn_length. lia.
Qed.
Lemma xstream_bytes B q P : (forall i, length (B i) = 64%nat) -> (forall i, bytes_ok (B i)) -> bytes_ok P -> bytes_ok (xstream B q P).
Proof.
  intros L BB BP. unfold xstream. apply xorb_list_ok; auto. set (l := seq 0 _). clearbody l. induction l as [|j l IH]; [constructor|]. cbn [map concat]. apply Forall_app. split; [apply BB|exact IH].
Qed.
Lemma xstream_twice B q P : (forall i, length (B i) = 64%nat) -> xstream B q (xstream B q P) = P.
Proof.
  intros L. unfold xstream at 1. rewrite xstream_length by auto. unfold xstream. apply xorb_list_cancel.
  pose proof (xstream_length B q P L) as G. unfold xstream in G. rewrite xorb_list_length in G. lia.
Qed.
Lemma xstream_skip B q P n : (forall i, length (B i) = 64%nat) -> skipn (64 * n) (xstream B q P) = xstream B (q + n) (skipn (64 * n) P).
Proof.
  intros L. revert q P. induction n as [|n IH]; intros q P; [now rewrite Nat.mul_0_r, Nat.add_0_r|].
  replace (64 * S n)%nat with (64 + 64 * n)%nat by lia. rewrite <- !(skipn_skipn' (64 * n) 64).
  destruct (list_eq_dec Z.eq_dec P []) as [->|N]; [cbn; now rewrite !skipn_nil|].
  replace (q + S n)%nat with (S q + n)%nat by lia. rewrite <- IH. f_equal. rewrite xstream_step by auto.
  destruct (Nat.le_gt_cases 64 (length P)).
  - apply skipn_app_exact. rewrite xorb_list_length, firstn_length, L. lia.
  - rewrite (@skipn_all2 Z 64 P) by lia. cbn [xstream xorb_list]. unfold xstream. cbn [xorb_list]. rewrite app_nil_r. apply skipn_all2. rewrite xorb_list_length, firstn_length. lia.
Qed.
Definition code_stream (K iv : list Z) (j : nat) : list Z := cc_block K (u32 (Z.of_nat j + 1)) iv.
Lemma crypt_spec K iv p : forall fuel s out q, ready K iv s -> (length p - 64 * q <= fuel)%nat ->
  ready K iv (fst (ca_crypt fuel s p out (64 * q))) /\ snd (ca_crypt fuel s p out (64 * q)) = out ++ xstream (code_stream K iv) q (skipn (64 * q) p).
Proof.
  induction fuel as [|fuel IH]; intros s out q R Hf; cbn [ca_crypt].
  - rewrite skipn_all2 by lia. cbn [fst snd]. unfold xstream. cbn [xorb_list]. rewrite app_nil_r. auto.
  - destruct (Nat.ltb_spec (64 * q) (length p)) as [H|H].
    2:{ rewrite skipn_all2 by lia. cbn [fst snd]. unfold xstream. cbn [xorb_list]. rewrite app_nil_r. auto. }
    rewrite (Nat.mul_comm 64 q), Nat.div_mul by lia. rewrite (Nat.mul_comm q 64).
    destruct (block_spec K iv s (u32 (Z.of_nat q + 1)) (Nat.min 64 (length p - 64 * q)) (Some (skipn (64 * q) p)) R) as [R' O]; [apply Z.mod_pos_bound; lia|lia|rewrite skipn_length; lia|].
    destruct (chacha20_block _ _ _ _) as [s' o]. cbn [fst snd] in R', O. replace (64 * q + 64)%nat with (64 * S q)%nat by lia.
    destruct (IH s' (out ++ o) (S q) R') as [A B]; [lia|]. split; [exact A|]. rewrite B, <- app_assoc. f_equal.
    rewrite (xstream_step _ q) by (try (intros; apply cc_block_length); now apply skipn_nonnil). rewrite skipn_skipn'. replace (64 * S q)%nat with (64 * q + 64)%nat by lia. f_equal.
    rewrite O. unfold code_stream. f_equal. destruct (Nat.le_gt_cases 64 (length p - 64 * q)).
    + f_equal. lia.
    + rewrite !firstn_all2 by (rewrite skipn_length; lia). reflexivity.
Qed.

(* ---- the authenticator ---- *)
Lemma ca_words_spec d i : ca_words d i = padblk (skipn i d).
Proof. unfold ca_words. apply padblk_map. intros j _. now rewrite (Nat.add_comm j i). Qed.
Lemma ca_absorb_spec d : forall fuel m i, (length d - i <= fuel)%nat -> ca_absorb fuel m d i = fold_left poly1305_1block (blocks 16 (pad16 (skipn i d))) m.
Proof.
  induction fuel as [|fuel IH]; intros m i Hf; cbn [ca_absorb].
  - rewrite skipn_all2 by lia. reflexivity.
  - destruct (Nat.ltb_spec i (length d)).
    + rewrite IH by lia. rewrite (pad16_blocks (skipn i d)) by now apply skipn_nonnil. cbn [fold_left]. rewrite ca_words_spec, skipn_skipn'. reflexivity.
    + rewrite skipn_all2 by lia. reflexivity.
Qed.
(** the poly1305.c functions over a message of whole blocks: init, 1block for each, final, and the four words read out *)
Definition poly_tag (key msg : list Z) : list Z :=
  ca_tag (poly1305_final (fold_left poly1305_1block (blocks 16 msg) (poly1305_init key))).
Lemma mac_data_blocks aad C m : fold_left poly1305_1block (blocks 16 (cc_mac_data aad C)) m =
  poly1305_1block (fold_left poly1305_1block (blocks 16 (pad16 C)) (fold_left poly1305_1block (blocks 16 (pad16 aad)) m)) (ca_lens (length aad) (length C)).
Proof.
  unfold cc_mac_data, ca_lens. set (L := le_bytes 8 _ ++ _). assert (LL : length L = 16%nat) by (unfold L; rewrite app_length, !le_bytes_length; reflexivity).
  rewrite blocks_app by (try apply pad16_mod; lia). rewrite blocks_app by (try apply pad16_mod; lia). rewrite (blocks_one 16 L) by (auto; lia).
  rewrite !fold_left_app. reflexivity.
Qed.
Lemma mac_data_shape aad C : bytes_ok aad -> bytes_ok C -> bytes_ok (cc_mac_data aad C) /\ (length (cc_mac_data aad C) mod 16 = 0)%nat.
Proof.
  intros A B. unfold cc_mac_data. split.
  - apply Forall_app; split; [now apply pad16_bytes|]. apply Forall_app; split; [now apply pad16_bytes|]. apply Forall_app; split; apply le_bytes_ok.
  - rewrite !app_length, !le_bytes_length. pose proof (pad16_mod aad) as X. pose proof (pad16_mod C) as Y.
    apply Nat.mod_divides in X; [|lia]. apply Nat.mod_divides in Y; [|lia]. destruct X as [x ->], Y as [y ->].
    replace (16 * x + (16 * y + (8 + 8)))%nat with ((x + y + 1) * 16)%nat by lia. apply Nat.mod_mul. lia.
Qed.
Lemma ca_differ_spec T X : bytes_ok T -> bytes_ok X -> forall l b, 0 <= b ->
  (fold_left (fun b i => Z.lor b (Z.lxor (nthZ i T) (if (i <? 16)%nat then nthZ i X else 0))) l b = 0 <-> b = 0 /\ forall m, In m l -> nthZ m T = if (m <? 16)%nat then nthZ m X else 0).
Proof.
  intros BT BX. induction l as [|i l IH]; intros b Hb; cbn [fold_left].
  - split; [intros ->; split; auto; intros m []|tauto].
  - assert (N : 0 <= Z.lxor (nthZ i T) (if (i <? 16)%nat then nthZ i X else 0) < 2 ^ 8).
    { apply lxor_bound; [lia|now apply nthZ_bytes|]. destruct (i <? 16)%nat; [now apply nthZ_bytes|lia]. }
    rewrite IH by (apply Z.lor_nonneg; lia). rewrite Z.lor_eq_0_iff, Z.lxor_eq_0_iff. split.
    + intros [[H1 H2] H3]. split; auto. intros m [->|Hm]; auto.
    + intros [H1 H2]. repeat split; auto; [apply H2; now left|]. intros m Hm. apply H2. now right.
Qed.
Lemma ca_differ_octets T X : bytes_ok T -> blk16 X -> (ca_differ T X =? 0) = true <-> T = octets (length T) X.
Proof.
  intros BT [BX LX]. rewrite Z.eqb_eq. unfold ca_differ. rewrite ca_differ_spec by (auto; lia). rewrite <- tag_octets_spec by auto. unfold gcm_tag_octets. split.
  - intros [_ H]. apply list_ext; [now rewrite map_length, seq_length|]. intros i Hi. rewrite nthZ_map_seq by auto. apply H. apply in_seq. lia.
  - intros E. split; auto. intros m Hm. apply in_seq in Hm. rewrite E at 1. rewrite nthZ_map_seq by lia. reflexivity.
Qed.
Lemma ca_tag_blk m : blk16 (ca_tag m).
Proof. unfold ca_tag. cbn [seq flat_map]. split; [|reflexivity]. repeat (apply Forall_app; split; [apply le_bytes_ok|]). constructor. Qed.

(* ---- whole operations ---- *)
Definition aead_C (K iv P : list Z) : list Z := xstream (code_stream K iv) 0 P.
Definition aead_T (K iv aad C : list Z) : list Z := poly_tag (cc_otk K iv) (cc_mac_data aad C).
Lemma aead_C_length K iv P : length (aead_C K iv P) = length P.
Proof. apply xstream_length. intros. apply cc_block_length. Qed.
Lemma aead_C_bytes K iv P : bytes_ok P -> bytes_ok (aead_C K iv P).
Proof. apply xstream_bytes; intros; [apply cc_block_length|apply cc_block_bytes]. Qed.
Lemma aead_C_twice K iv P : aead_C K iv (aead_C K iv P) = P.
Proof. apply xstream_twice. intros. apply cc_block_length. Qed.

Lemma aead_encrypt_spec K x iv aad p t : keyed K (ca_state x) -> length K = 32%nat -> bytes_ok iv -> length iv = 12%nat -> Z.of_nat (length p) < 2 ^ 38 ->
  keyed K (ca_state (fst (ChaCha_AEAD_Encrypt x iv aad p t))) /\
  snd (ChaCha_AEAD_Encrypt x iv aad p t) = Some (aead_C K iv p, octets t (aead_T K iv aad (aead_C K iv p))).
Proof.
  intros HK LK Biv Liv HP. unfold ChaCha_AEAD_Encrypt. rewrite Liv, Nat.eqb_refl. replace (2 ^ 38 <=? Z.of_nat (length p)) with false by lia. cbn [negb orb].
  pose proof (keyed_ready K iv _ HK LK Biv Liv) as R.
  destruct (block_spec K iv _ 0 32 None R) as [R' O]; [lia|lia|auto|]. destruct (chacha20_block _ 0 32 None) as [s w]. cbn [fst snd] in R', O.
  destruct (crypt_spec K iv p (length p) s [] 0 R') as [R2 O2]; [lia|]. change (64 * 0)%nat with 0%nat in *.
  destruct (ca_crypt (length p) s p [] 0) as [s2 out]. cbn [fst snd] in R2, O2. cbn [skipn app] in O2. fold (aead_C K iv p) in O2. cbv zeta. cbn [fst snd ca_state].
  split; [now apply (ready_keyed K iv)|]. subst w out. rewrite !ca_absorb_spec by lia. cbn [skipn]. replace (ca_lens (length aad) (length p)) with (ca_lens (length aad) (length (aead_C K iv p))) by now rewrite aead_C_length. rewrite <- mac_data_blocks.
  change (ca_octets ?w t) with (gcm_tag_octets w t). rewrite tag_octets_spec by apply ca_tag_blk. reflexivity.
Qed.
Lemma aead_decrypt_spec K x iv aad c T : keyed K (ca_state x) -> length K = 32%nat -> bytes_ok iv -> length iv = 12%nat -> bytes_ok T -> Z.of_nat (length c) < 2 ^ 38 ->
  keyed K (ca_state (fst (ChaCha_AEAD_Decrypt x iv aad c T))) /\
  (T = octets (length T) (aead_T K iv aad c) -> snd (ChaCha_AEAD_Decrypt x iv aad c T) = Some (aead_C K iv c)) /\
  (T <> octets (length T) (aead_T K iv aad c) -> snd (ChaCha_AEAD_Decrypt x iv aad c T) = None).
Proof.
  intros HK LK Biv Liv BT HP. unfold ChaCha_AEAD_Decrypt. rewrite Liv, Nat.eqb_refl. replace (2 ^ 38 <=? Z.of_nat (length c)) with false by lia. cbn [negb orb].
  pose proof (keyed_ready K iv _ HK LK Biv Liv) as R.
  destruct (block_spec K iv _ 0 32 None R) as [R' O]; [lia|lia|auto|]. destruct (chacha20_block _ 0 32 None) as [s w]. cbn [fst snd] in R', O.
  subst w. rewrite !ca_absorb_spec by lia. cbn [skipn]. rewrite <- mac_data_blocks. cbv zeta.
  pose proof (ca_differ_octets T (aead_T K iv aad c) BT (ca_tag_blk _)) as D.
  change (ca_tag (poly1305_final (fold_left poly1305_1block (blocks 16 (cc_mac_data aad c)) (poly1305_init (firstn 32 (cc_block K 0 iv)))))) with (aead_T K iv aad c).
  destruct (ca_differ T (aead_T K iv aad c) =? 0); cbn [negb].
  - destruct (crypt_spec K iv c (length c) s [] 0 R') as [R2 O2]; [lia|]. change (64 * 0)%nat with 0%nat in *.
    destruct (ca_crypt (length c) s c [] 0) as [s2 out]. cbn [fst snd ca_state] in *. split; [now apply (ready_keyed K iv)|].
    split; intros H; [now rewrite O2|]. exfalso. apply H. now apply D.
  - cbn [fst snd ca_state]. split; [now apply (ready_keyed K iv)|]. split; intros H; auto. apply D in H. discriminate.
Qed.
