(** The chord-and-tangent relation as an operation on canonical points. *)
From Coq Require Import ZArith Znumtheory Lia Setoid Morphisms.
From Verif Require Import Fermat EcSpec EcGroupLemmas ScaleLemmas.
Open Scope Z_scope.

Section Law.
  Variables (p a b : Z).
  Hypothesis Hp : prime p.
  Hypothesis H2 : p <> 2.
  Hypothesis NoTwo : forall x, ~ eqm p (x * x * x + a * x + b) 0.
  Notation "x == y" := (eqm p x y) (at level 70).

  Lemma pt_eq_refl P : pt_eq p P P.
  Proof. destruct P; cbn; auto. split; reflexivity. Qed.
  Lemma pt_eq_sym P Q : pt_eq p P Q -> pt_eq p Q P.
  Proof. destruct P, Q; cbn; auto. intros [A B]. split; now symmetry. Qed.
  Lemma pt_eq_trans P Q R : pt_eq p P Q -> pt_eq p Q R -> pt_eq p P R.
  Proof. destruct P, Q, R; cbn; try tauto. intros [A B] [C D]. split; etransitivity; eauto. Qed.
  Lemma on_curve_eq P Q : pt_eq p P Q -> on_curve p a b P -> on_curve p a b Q.
  Proof. destruct P, Q; cbn; try tauto. intros [A B] C. rewrite <- A, <- B. exact C. Qed.

  Lemma ec_add_det P Q R P' Q' R' : ec_add p a P Q R -> ec_add p a P' Q' R' -> pt_eq p P P' -> pt_eq p Q Q' -> pt_eq p R R'.
  Proof.
    intros H H' EP EQ.
    destruct H as [Q0|P0|x1 y1 x2 y2 EX EY|x1 y1 x2 y2 l x3 y3 NX EL E3 E4|x1 y1 x2 y2 l x3 y3 EX EY NY EL E3 E4];
    destruct H' as [Q0'|P0'|x1' y1' x2' y2' EX' EY'|x1' y1' x2' y2' l' x3' y3' NX' EL' E3' E4'|x1' y1' x2' y2' l' x3' y3' EX' EY' NY' EL' E3' E4'];
    repeat match goal with X : point |- _ => destruct X end; cbn [pt_eq] in *; try tauto;
    destruct EP as [EP1 EP2], EQ as [EQ1 EQ2].
    - exfalso. apply NX'. now rewrite <- EP1, <- EQ1.
    - exfalso. apply NY'. now rewrite <- EP2, <- EQ2.
    - exfalso. apply NX. now rewrite EP1, EQ1.
    - assert (L : l == l').
      { apply (cancel p Hp (x2 - x1)).
        - intros C. apply NX. symmetry. now apply eqm_minus.
        - rewrite (Z.mul_comm _ l), (Z.mul_comm _ l'), EL. rewrite EQ1, EQ2, EP1, EP2. now symmetry. }
      assert (X : x3 == x3') by (rewrite E3, E3', L, EP1, EQ1; reflexivity).
      split; [exact X|]. rewrite E4, E4', X, L, EP1, EP2. reflexivity.
    - exfalso. apply NX. now rewrite EP1, EQ1.
    - exfalso. apply NY. now rewrite EP2, EQ2.
    - exfalso. apply NX'. now rewrite <- EP1, <- EQ1.
    - assert (L : l == l').
      { apply (cancel p Hp (2 * y1)).
        - intros C. apply (double0 p Hp H2) in C. apply NY. rewrite <- EY, C. reflexivity.
        - rewrite (Z.mul_comm _ l), (Z.mul_comm _ l'), EL. rewrite EP1, EP2. now symmetry. }
      assert (X : x3 == x3') by (rewrite E3, E3', L, EP1, EQ1; reflexivity).
      split; [exact X|]. rewrite E4, E4', X, L, EP1, EP2. reflexivity.
  Qed.

  Lemma ec_add_comm P Q R : ec_add p a P Q R -> ec_add p a Q P R.
  Proof.
    intros H. destruct H as [Q0|P0|x1 y1 x2 y2 EX EY|x1 y1 x2 y2 l x3 y3 NX EL E3 E4|x1 y1 x2 y2 l x3 y3 EX EY NY EL E3 E4].
    - constructor.
    - constructor.
    - constructor; [now symmetry|]. rewrite EY. apply eqm_eq; ring.
    - apply (add_chord p a x2 y2 x1 y1 l).
      + intros C. apply NX. now symmetry.
      + replace (l * (x1 - x2)) with (- (l * (x2 - x1))) by ring. rewrite EL. apply eqm_eq; ring.
      + rewrite E3. apply eqm_eq; ring.
      + rewrite E4. replace (l * (x1 - x3) - y1) with (l * (x2 - x3) - (l * (x2 - x1)) - y1) by ring. rewrite EL. apply eqm_eq; ring.
    - apply (add_tangent p a x2 y2 x1 y1 l).
      + now symmetry.
      + now symmetry.
      + intros C. apply NY. rewrite C. apply eqm_eq; ring.
      + rewrite <- EX, <- EY. exact EL.
      + rewrite E3. apply eqm_eq; ring.
      + rewrite <- EX, <- EY. exact E4.
  Qed.

  (** normal form *)
  Definition canon (P : point) : Prop := match P with Inf => True | Aff x y => 0 <= x < p /\ 0 <= y < p end.
  Lemma canon_eq P Q : canon P -> canon Q -> pt_eq p P Q -> P = Q.
  Proof.
    destruct P as [|x y], Q as [|x' y']; cbn; try tauto. intros [A B] [C D] [E F].
    apply eqm_mod in E; [|lia]. apply eqm_mod in F; [|lia]. rewrite !Z.mod_small in E, F by lia. now subst.
  Qed.
  Definition norm (X Y Z : Z) : point :=
    if Z mod p =? 0 then Inf else Aff ((X * Z ^ (p - 2)) mod p) ((Y * Z ^ (p - 2)) mod p).
  Lemma mod_eqm x : x mod p == x.
  Proof. pose proof (prime_ge_2 p Hp). apply eqm_mod; [lia|]. apply Zmod_mod. Qed.
  Lemma inv_eqm x : ~ x == 0 -> x * x ^ (p - 2) == 1.
  Proof.
    intros H. pose proof (prime_ge_2 p Hp). apply eqm_mod; [lia|]. rewrite (Z.mod_small 1) by lia.
    apply fermat_inverse; auto. now rewrite <- eqm0.
  Qed.
  Lemma norm_canon X Y Z : canon (norm X Y Z).
  Proof. pose proof (prime_ge_2 p Hp). unfold norm. destruct (Z mod p =? 0); cbn; auto. split; apply Z.mod_pos_bound; lia. Qed.
  Lemma norm_proj X Y Z R : proj p X Y Z R -> pt_eq p R (norm X Y Z).
  Proof.
    unfold norm. pose proof (prime_ge_2 p Hp) as G2.
    assert (ZD : Z mod p = 0 <-> Z == 0) by (rewrite eqm_mod by lia; rewrite Zmod_0_l; tauto).
    destruct R as [|x y]; cbn [proj]; intros (A & B & C); destruct (Z.eqb_spec (Z mod p) 0) as [D|D]; cbn [pt_eq]; auto; try tauto.
    rewrite ZD in D.
    rewrite !mod_eqm, B, C. pose proof (inv_eqm Z D) as I. split.
    - replace (x * Z * Z ^ (p - 2)) with (x * (Z * Z ^ (p - 2))) by ring. rewrite I. apply eqm_eq; ring.
    - replace (y * Z * Z ^ (p - 2)) with (y * (Z * Z ^ (p - 2))) by ring. rewrite I. apply eqm_eq; ring.
  Qed.
  Definition embX (P : point) := match P with Inf => 0 | Aff x _ => x end.
  Definition embY (P : point) := match P with Inf => 1 | Aff _ y => y end.
  Definition embZ (P : point) := match P with Inf => 0 | Aff _ _ => 1 end.
  Lemma one_nz : ~ 1 == 0.
  Proof. pose proof (prime_ge_2 p Hp). rewrite eqm0. intros D. apply Z.divide_1_r_nonneg in D; lia. Qed.
  Lemma emb_proj P : proj p (embX P) (embY P) (embZ P) P.
  Proof. destruct P; cbn; split; try split; try reflexivity; try apply one_nz; apply eqm_eq; ring. Qed.

  Definition op (P Q : point) : point :=
    norm (rcbX a b (embX P) (embY P) (embZ P) (embX Q) (embY Q) (embZ Q))
         (rcbY a b (embX P) (embY P) (embZ P) (embX Q) (embY Q) (embZ Q))
         (rcbZ a b (embX P) (embY P) (embZ P) (embX Q) (embY Q) (embZ Q)).
  Definition valid (P : point) : Prop := on_curve p a b P /\ canon P.

  Lemma op_ex P Q : on_curve p a b P -> on_curve p a b Q ->
    exists R, ec_add p a P Q R /\ pt_eq p R (op P Q) /\ valid (op P Q).
  Proof.
    intros A B. destruct (rcb_law p a b Hp H2 NoTwo _ _ _ _ _ _ P Q A B (emb_proj P) (emb_proj Q)) as (R & E & C & D).
    exists R. split; [exact E|]. pose proof (norm_proj _ _ _ _ D) as N. split; [exact N|]. split; [|apply norm_canon].
    now apply (on_curve_eq R).
  Qed.
  Lemma op_valid P Q : valid P -> valid Q -> valid (op P Q).
  Proof. intros [A _] [B _]. destruct (op_ex P Q A B) as (R & _ & _ & V). exact V. Qed.
  Lemma op_add P Q R : on_curve p a b P -> on_curve p a b Q -> ec_add p a P Q R -> pt_eq p R (op P Q).
  Proof.
    intros A B E. destruct (op_ex P Q A B) as (R' & E' & N & _).
    apply pt_eq_trans with R'; [|exact N]. apply (ec_add_det P Q R P Q R'); auto using pt_eq_refl.
  Qed.
  Lemma op_cong P Q P' Q' : on_curve p a b P -> on_curve p a b Q -> pt_eq p P P' -> pt_eq p Q Q' -> pt_eq p (op P Q) (op P' Q').
  Proof.
    intros A B EP EQ. destruct (op_ex P Q A B) as (R & E & N & _).
    destruct (op_ex P' Q' (on_curve_eq _ _ EP A) (on_curve_eq _ _ EQ B)) as (R' & E' & N' & _).
    apply pt_eq_trans with R; [now apply pt_eq_sym|]. apply pt_eq_trans with R'; [|exact N'].
    exact (ec_add_det P Q R P' Q' R' E E' EP EQ).
  Qed.
  Lemma op_comm P Q : valid P -> valid Q -> op P Q = op Q P.
  Proof.
    intros VP VQ. destruct (op_ex P Q (proj1 VP) (proj1 VQ)) as (R & E & N & V). apply canon_eq.
    - exact (proj2 V).
    - exact (proj2 (op_valid Q P VQ VP)).
    - apply pt_eq_trans with R; [now apply pt_eq_sym|]. apply op_add; [apply VQ|apply VP|]. now apply ec_add_comm.
  Qed.
  Lemma op_Inf P : valid P -> op P Inf = P.
  Proof.
    intros VP. apply canon_eq.
    - apply (op_valid P Inf VP). split; exact I.
    - exact (proj2 VP).
    - apply pt_eq_sym. apply op_add; [apply VP|exact I|constructor].
  Qed.

  (** Associativity is the one fact about elliptic curves taken as a hypothesis. *)
  Definition ec_associative : Prop := forall P Q R PQ QR S S', on_curve p a b P -> on_curve p a b Q -> on_curve p a b R ->
    ec_add p a P Q PQ -> ec_add p a PQ R S -> ec_add p a Q R QR -> ec_add p a P QR S' -> pt_eq p S S'.

  Lemma op_assoc : ec_associative -> forall P Q R, valid P -> valid Q -> valid R -> op (op P Q) R = op P (op Q R).
  Proof.
    intros AS P Q R VP VQ VR.
    pose proof (op_valid P Q VP VQ) as VPQ. pose proof (op_valid Q R VQ VR) as VQR.
    destruct (op_ex P Q (proj1 VP) (proj1 VQ)) as (PQ & E1 & N1 & _).
    destruct (op_ex Q R (proj1 VQ) (proj1 VR)) as (QR & E2 & N2 & _).
    assert (C1 : on_curve p a b PQ) by (apply (on_curve_eq (op P Q)); [now apply pt_eq_sym|apply VPQ]).
    assert (C2 : on_curve p a b QR) by (apply (on_curve_eq (op Q R)); [now apply pt_eq_sym|apply VQR]).
    destruct (op_ex PQ R C1 (proj1 VR)) as (S1 & E3 & N3 & _).
    destruct (op_ex P QR (proj1 VP) C2) as (S2 & E4 & N4 & _).
    pose proof (AS P Q R PQ QR S1 S2 (proj1 VP) (proj1 VQ) (proj1 VR) E1 E3 E2 E4) as E.
    apply canon_eq.
    - exact (proj2 (op_valid _ _ VPQ VR)).
    - exact (proj2 (op_valid _ _ VP VQR)).
    - apply pt_eq_trans with (op PQ R); [apply op_cong; [apply VPQ|apply VR|now apply pt_eq_sym|apply pt_eq_refl]|].
      apply pt_eq_trans with S1; [now apply pt_eq_sym|]. apply pt_eq_trans with S2; [exact E|].
      apply pt_eq_trans with (op P QR); [exact N4|]. apply op_cong; [apply VP|exact C2|apply pt_eq_refl|exact N2].
  Qed.

  Lemma assoc_of_op : (forall P Q R, valid P -> valid Q -> valid R -> op (op P Q) R = op P (op Q R)) -> ec_associative.
  Proof.
    intros AS P Q R PQ QR S1 S2 CP CQ CR E1 E3 E2 E4. pose proof (prime_ge_2 p Hp) as G2.
    assert (K : forall Q, on_curve p a b Q -> exists Q', valid Q' /\ pt_eq p Q Q').
    { intros T CT. destruct T as [|x y]; [exists Inf; repeat split|].
      exists (Aff (x mod p) (y mod p)).
      assert (E : pt_eq p (Aff x y) (Aff (x mod p) (y mod p))) by (split; symmetry; apply mod_eqm).
      split; [|exact E]. split; [exact (on_curve_eq _ _ E CT)|]. split; apply Z.mod_pos_bound; lia. }
    destruct (K P CP) as (P' & VP & EP). destruct (K Q CQ) as (Q' & VQ & EQ). destruct (K R CR) as (R' & VR & ER).
    pose proof (op_valid P' Q' VP VQ) as VPQ. pose proof (op_valid Q' R' VQ VR) as VQR.
    assert (NPQ : pt_eq p PQ (op P' Q')) by (apply pt_eq_trans with (op P Q); [now apply op_add|now apply op_cong]).
    assert (NQR : pt_eq p QR (op Q' R')) by (apply pt_eq_trans with (op Q R); [now apply op_add|now apply op_cong]).
    assert (C1 : on_curve p a b PQ) by (apply (on_curve_eq (op P' Q')); [now apply pt_eq_sym|apply VPQ]).
    assert (C2 : on_curve p a b QR) by (apply (on_curve_eq (op Q' R')); [now apply pt_eq_sym|apply VQR]).
    apply pt_eq_trans with (op PQ R); [now apply op_add|]. apply pt_eq_trans with (op (op P' Q') R'); [now apply op_cong|].
    rewrite AS by auto. apply pt_eq_sym. apply pt_eq_trans with (op P QR); [now apply op_add|]. now apply op_cong.
  Qed.

  Lemma smul_mul P k : valid P -> exists M, ec_mul p a P k M /\ pt_eq p M (smul point op Inf k P).
  Proof.
    intros VP. induction k as [|k (M & E & N)].
    - exists Inf. split; [constructor|exact I].
    - assert (VS : valid (smul point op Inf k P)).
      { apply (smul_V point op Inf valid); auto. split; exact I. apply op_valid. }
      assert (CM : on_curve p a b M) by (apply (on_curve_eq (smul point op Inf k P)); [now apply pt_eq_sym|apply VS]).
      destruct (op_ex P M (proj1 VP) CM) as (R & E' & N' & _). exists R. split; [econstructor; eauto|].
      cbn [smul]. apply pt_eq_trans with (op P M); [exact N'|]. apply op_cong; [apply VP|exact CM|apply pt_eq_refl|exact N].
  Qed.
End Law.
