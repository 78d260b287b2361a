(** Multiples of a point on a Weierstrass curve without 2-torsion; scalars modulo the order. *)
From Coq Require Import Znumtheory Setoid.
From Verif Require Import Base EcSpec EcGroupLemmas ScaleLemmas EcLawLemmas EcAssocLemmas.

Section Group.
  Variables (p a b : Z).
  Hypothesis Hp : prime p.
  Hypothesis H2 : p <> 2.
  Hypothesis NoTwo : forall x, ~ eqm p (x * x * x + a * x + b) 0.
  Notation "x == y" := (eqm p x y) (at level 70).
  Notation On := (on_curve p a b).
  Notation vop := (op p a b). Notation ok := (valid p a b).
  Definition mulW (k : nat) (P : point) : point := smul point vop Inf k P.
  Definition canW (P : point) : point := match P with Inf => Inf | Aff x y => Aff (x mod p) (y mod p) end.

  Lemma assocW : ec_associative p a b.
  Proof. apply ec_assoc; auto. intros x E. destruct (NoTwo x E). Qed.
  Lemma canW_eq P : pt_eq p P (canW P).
  Proof. destruct P; cbn; [exact I|]. split; symmetry; (apply eqm_mod; [pose proof (prime_ge_2 _ Hp); lia|]); apply Zmod_mod. Qed.
  Lemma canW_ok P : On P -> ok (canW P).
  Proof.
    intros C. pose proof (prime_ge_2 _ Hp). split; [apply (on_curve_eq p a b P); [apply canW_eq|exact C]|].
    destruct P; cbn; [exact I|]. split; apply Z.mod_pos_bound; lia.
  Qed.
  Lemma canW_id P : ok P -> canW P = P.
  Proof. intros [_ K]. destruct P; [reflexivity|]. cbn in *. now rewrite !Z.mod_small by tauto. Qed.
  Lemma canW_of P Q : pt_eq p P Q -> canW P = canW Q.
  Proof.
    pose proof (prime_ge_2 _ Hp). destruct P, Q; cbn; try tauto. intros [A B]. apply eqm_mod in A; [|lia]. apply eqm_mod in B; [|lia]. now rewrite A, B.
  Qed.
  Lemma canW_pt P Q : canW P = canW Q -> pt_eq p P Q.
  Proof. intros E. apply (pt_eq_trans p P (canW P)); [apply canW_eq|]. rewrite E. apply pt_eq_sym, canW_eq. Qed.
  Lemma ok_Inf : ok Inf.
  Proof. split; exact I. Qed.
  Lemma vop_ok P Q : ok P -> ok Q -> ok (vop P Q).
  Proof. now apply op_valid. Qed.
  Lemma vop_Inf P : ok P -> vop P Inf = P.
  Proof. now apply op_Inf. Qed.
  Lemma vop_comm P Q : ok P -> ok Q -> vop P Q = vop Q P.
  Proof. now apply op_comm. Qed.
  Lemma vop_assoc P Q R : ok P -> ok Q -> ok R -> vop (vop P Q) R = vop P (vop Q R).
  Proof. apply op_assoc; auto. apply assocW. Qed.
  Lemma Inf_vop P : ok P -> vop Inf P = P.
  Proof. intros V. rewrite vop_comm by auto using ok_Inf. now apply vop_Inf. Qed.
  Lemma mulW_ok k P : ok P -> ok (mulW k P).
  Proof. intros V. apply (smul_V point vop Inf ok); auto using ok_Inf, vop_ok. Qed.
  Lemma mulW_add j k P : ok P -> mulW (j + k) P = vop (mulW j P) (mulW k P).
  Proof.
    intros V. apply (smul_add point vop Inf ok); auto using ok_Inf, vop_ok, vop_Inf, vop_comm, vop_assoc.
  Qed.
  Lemma mulW_mul j k P : ok P -> mulW j (mulW k P) = mulW (j * k) P.
  Proof.
    intros VB. assert (V : ok (mulW k P)) by now apply mulW_ok.
    induction j as [|j IH]; [reflexivity|]. change (mulW (S j) (mulW k P)) with (vop (mulW k P) (mulW j (mulW k P))). rewrite IH. cbn [Nat.mul]. symmetry. now apply mulW_add.
  Qed.
  Lemma mulW_O k : mulW k Inf = Inf.
  Proof.
    induction k as [|k IH]; [reflexivity|]. change (mulW (S k) Inf) with (vop Inf (mulW k Inf)). rewrite IH. apply vop_Inf, ok_Inf.
  Qed.
  Lemma mulW_1 P : ok P -> mulW 1 P = P.
  Proof. intros V. now apply vop_Inf. Qed.

  Lemma add_on P Q R : On P -> On Q -> ec_add p a P Q R -> On R.
  Proof.
    intros A B E. destruct (op_ex p a b Hp H2 NoTwo P Q A B) as (R' & E' & N & V).
    apply (on_curve_eq p a b R'); [apply (ec_add_det p a Hp H2 P Q R' P Q R); auto using pt_eq_refl|].
    apply (on_curve_eq p a b (vop P Q)); [now apply pt_eq_sym|apply V].
  Qed.
  Lemma ec_mul_on P k M : On P -> ec_mul p a P k M -> On M.
  Proof. intros C H. induction H; [exact I|]. apply (add_on P Q); auto. Qed.
  Lemma add_can P Q R : On P -> On Q -> ec_add p a P Q R -> canW R = vop (canW P) (canW Q).
  Proof.
    intros A B E. pose proof (op_add p a b Hp H2 NoTwo P Q R A B E) as N.
    rewrite <- (canW_id (vop (canW P) (canW Q))) by (apply vop_ok; now apply canW_ok).
    apply canW_of. apply (pt_eq_trans p R (vop P Q)); [exact N|]. apply op_cong; auto; apply canW_eq.
  Qed.
  Lemma ec_mul_can P k M : On P -> ec_mul p a P k M -> canW M = mulW k (canW P).
  Proof.
    intros C H. induction H as [|k Q Rr HQ IH HA]; [reflexivity|].
    pose proof (ec_mul_on P k Q C HQ) as CQ. change (mulW (S k) (canW P)) with (vop (canW P) (mulW k (canW P))). rewrite <- IH.
    now apply add_can.
  Qed.
  Lemma ec_mul_ex P k : ok P -> exists M, ec_mul p a P k M /\ pt_eq p M (mulW k P).
  Proof. intros V. apply smul_mul; auto. Qed.
  Lemma smul_mul' P k : On P -> exists M, ec_mul p a P k M.
  Proof.
    intros C. induction k as [|k (M & E)]; [exists Inf; constructor|].
    destruct (op_ex p a b Hp H2 NoTwo P M C (ec_mul_on P k M C E)) as (R & E' & _). exists R. econstructor; eauto.
  Qed.
  Lemma ec_add_ex P Q : On P -> On Q -> exists R, ec_add p a P Q R /\ pt_eq p R (vop P Q).
  Proof. intros A B. destruct (op_ex p a b Hp H2 NoTwo P Q A B) as (R & E & N & _). now exists R. Qed.

  (** * Scalars modulo the order *)
  Variable n : Z.
  Hypothesis n0 : 1 < n.
  Definition mulZ (k : Z) (P : point) : point := mulW (Z.to_nat (k mod n)) P.
  Notation ord P := (mulW (Z.to_nat n) P = Inf).
  Lemma mulZ_ok k P : ok P -> ok (mulZ k P).
  Proof. apply mulW_ok. Qed.
  Lemma mulW_Z k P : ok P -> ord P -> 0 <= k -> mulW (Z.to_nat k) P = mulZ k P.
  Proof.
    intros V E K. unfold mulZ. rewrite (Z.div_mod k n) at 1 by lia.
    assert (0 <= k / n) by (apply Z.div_pos; lia). pose proof (Z.mod_pos_bound k n ltac:(lia)) as B.
    rewrite Z2Nat.inj_add, Z2Nat.inj_mul by (try lia; apply Z.mul_nonneg_nonneg; lia).
    rewrite mulW_add, Nat.mul_comm, <- mulW_mul, E, mulW_O by exact V. apply Inf_vop. now apply mulW_ok.
  Qed.
  Lemma mulZ_mod j k P : j mod n = k mod n -> mulZ j P = mulZ k P.
  Proof. unfold mulZ. now intros ->. Qed.
  Lemma mulZ_add j k P : ok P -> ord P -> vop (mulZ j P) (mulZ k P) = mulZ (j + k) P.
  Proof.
    intros V E. unfold mulZ at 1 2. rewrite <- mulW_add by exact V.
    pose proof (Z.mod_pos_bound j n ltac:(lia)). pose proof (Z.mod_pos_bound k n ltac:(lia)).
    rewrite <- Z2Nat.inj_add by lia. rewrite mulW_Z by (auto; lia). apply mulZ_mod. symmetry. apply Zplus_mod.
  Qed.
  Lemma mulZ_mul j k P : ok P -> ord P -> mulZ j (mulZ k P) = mulZ (j * k) P.
  Proof.
    intros V E. unfold mulZ at 1 2. rewrite mulW_mul by exact V.
    pose proof (Z.mod_pos_bound j n ltac:(lia)). pose proof (Z.mod_pos_bound k n ltac:(lia)).
    rewrite <- Z2Nat.inj_mul by lia. rewrite mulW_Z by (auto; apply Z.mul_nonneg_nonneg; lia). apply mulZ_mod. symmetry. apply Zmult_mod.
  Qed.
  Lemma mulZ_1 P : ok P -> mulZ 1 P = P.
  Proof. intros V. unfold mulZ. rewrite Z.mod_1_l by lia. now apply mulW_1. Qed.
  Lemma mulZ_0 P : mulZ 0 P = Inf.
  Proof. reflexivity. Qed.
  Lemma mulZ_ord k P : ok P -> ord P -> ord (mulZ k P).
  Proof. intros V E. unfold mulZ. rewrite mulW_mul, Nat.mul_comm, <- mulW_mul, E by exact V. apply mulW_O. Qed.
  (** a multiple of a point of prime order is infinity only for multiples of the order *)
  Lemma mulZ_nz k P : prime n -> ok P -> ord P -> P <> Inf -> mulZ k P = Inf -> (n | k).
  Proof.
    intros Hn V E NI H. destruct (Zdivide_dec n k) as [D|D]; [exact D|]. exfalso.
    pose proof (proj2 (Zgcd_1_rel_prime k n) (rel_prime_sym _ _ (prime_rel_prime n Hn k D))) as G.
    destruct (Zis_gcd_bezout k n 1) as [u v BZ]; [apply rel_prime_sym, prime_rel_prime; auto|].
    apply NI. rewrite <- (mulZ_1 P V).
    replace (mulZ 1 P) with (mulZ (u * k) P). { rewrite <- mulZ_mul, H by auto. apply mulW_O. }
    apply mulZ_mod. replace (u * k) with (1 + (- v) * n) by (rewrite <- BZ; ring). apply Z_mod_plus_full.
  Qed.
End Group.
