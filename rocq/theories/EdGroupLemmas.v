(** The Edwards addition law: completeness, closure, associativity. *)
From Coq Require Import ZArith Znumtheory Lia Setoid Morphisms.
From Verif Require Import Fermat EcSpec EcGroupLemmas EdSpec EdCert.
Open Scope Z_scope.

Section Law.
  Variables (p a d1 d2 : Z).
  Hypothesis Hp : prime p.
  Hypothesis H2 : p <> 2.
  Hypothesis HC : ed_complete p a d1 d2.
  Notation "x == y" := (eqm p x y) (at level 70).

  Lemma G2 : 2 <= p. Proof. exact (prime_ge_2 p Hp). Qed.

  (** the coefficient d itself *)
  Definition dd : Z := d1 * d2 ^ (p - 2).
  Lemma inv_eqm x : ~ x == 0 -> x * x ^ (p - 2) == 1.
  Proof.
    intros H. pose proof G2. apply eqm_mod; [lia|]. rewrite (Z.mod_small 1) by lia.
    apply fermat_inverse; auto. now rewrite <- eqm0.
  Qed.
  Lemma dd_spec : d2 * dd == d1.
  Proof.
    unfold dd. replace (d2 * (d1 * d2 ^ (p - 2))) with (d2 * d2 ^ (p - 2) * d1) by ring.
    rewrite inv_eqm by apply HC. apply eqm_eq; ring.
  Qed.
  Lemma dd_nonsquare z : ~ dd == z * z.
  Proof. intros E. destruct HC as (_ & _ & _ & N). apply (N z). rewrite <- E. exact dd_spec. Qed.
  Lemma d2_nz : ~ d2 == 0. Proof. apply HC. Qed.

  Definition on (x y : Z) : Prop := a * (x * x) + y * y == 1 + dd * (x * x * (y * y)).
  Lemma on_iff x y : ed_on p a d1 d2 (x, y) <-> on x y.
  Proof.
    unfold ed_on, on. rewrite <- dd_spec. split; intros H.
    - apply (cancel p Hp d2 _ _ d2_nz). rewrite H. apply eqm_eq; ring.
    - rewrite H. apply eqm_eq; ring.
  Qed.
  Lemma nz_ratio u v : ~ u == 0 -> dd * (u * u) == v * v -> False.
  Proof.
    intros N E. destruct (div_ex p 0 Hp H2 u v N) as (q & Hq). apply (dd_nonsquare q).
    apply (cancel p Hp (u * u)); [now apply mul_nz|].
    replace (u * u * dd) with (dd * (u * u)) by ring. rewrite E. rewrite <- Hq. apply eqm_eq; ring.
  Qed.
  Lemma one_nz : ~ 1 == 0.
  Proof. pose proof G2. rewrite eqm0. intros D. apply Z.divide_1_r_nonneg in D; lia. Qed.
  Lemma sq_one_nz x : ~ 1 - dd * x * x == 0.
  Proof.
    intros E. assert (E' : dd * (x * x) == 1 * 1).
    { replace (dd * (x * x)) with (1 - (1 - dd * x * x)) by ring. rewrite E. apply eqm_eq; ring. }
    apply (nz_ratio x 1); [|exact E']. intros X. apply one_nz. rewrite X in E'. rewrite <- (Z.mul_1_l 1), <- E'. apply eqm_eq; ring.
  Qed.

  (** d x1 x2 y1 y2 is never 1 or -1 *)
  Lemma complete_eps e x1 y1 x2 y2 : e * e == 1 -> on x1 y1 -> on x2 y2 -> dd * (x1 * x2 * (y1 * y2)) == e -> False.
  Proof.
    intros He C1 C2 E. unfold on in C1, C2. destruct HC as (_ & (s & Hs) & Na & _).
    assert (Ns : ~ s == 0) by (intros X; apply Na; rewrite Hs, X; reflexivity).
    set (k := x1 * y1).
    assert (KK : dd * (k * k) * (dd * (x2 * x2 * (y2 * y2))) == 1).
    { rewrite <- He, <- E. apply eqm_eq. unfold k. ring. }
    assert (Nk : ~ k == 0).
    { intros X. apply one_nz. rewrite <- KK, X. apply eqm_eq; ring. }
    assert (A1 : dd * (k * k) * (a * (x2 * x2) + y2 * y2) == a * (x1 * x1) + y1 * y1).
    { rewrite C2. replace (dd * (k * k) * (1 + dd * (x2 * x2 * (y2 * y2)))) with (dd * (k * k) + dd * (k * k) * (dd * (x2 * x2 * (y2 * y2)))) by ring.
      rewrite KK. rewrite C1. apply eqm_eq. unfold k. ring. }
    assert (SQ : forall t, t * t == 1 -> dd * (k * (s * x2 + t * y2) * (k * (s * x2 + t * y2))) == (s * x1 + t * e * y1) * (s * x1 + t * e * y1)).
    { intros t Ht.
      replace (dd * (k * (s * x2 + t * y2) * (k * (s * x2 + t * y2)))) with
        (dd * (k * k) * (s * s * (x2 * x2) + t * t * (y2 * y2)) + 2 * (s * t) * k * (dd * (x1 * x2 * (y1 * y2)))) by (unfold k; ring).
      rewrite Ht, <- Hs, E. replace (1 * (y2 * y2)) with (y2 * y2) by ring. rewrite A1.
      replace ((s * x1 + t * e * y1) * (s * x1 + t * e * y1)) with (s * s * (x1 * x1) + (t * t) * (e * e) * (y1 * y1) + 2 * (s * t) * (x1 * y1) * e) by ring.
      rewrite Ht, He, <- Hs. apply eqm_eq. unfold k. ring. }
    assert (Z1 : forall t, t * t == 1 -> s * x2 + t * y2 == 0).
    { intros t Ht. destruct (eqm_dec p (s * x2 + t * y2) 0) as [Y|Y]; [exact Y|exfalso].
      apply (nz_ratio _ _ (mul_nz p Hp _ _ Nk Y) (SQ t Ht)). }
    pose proof (Z1 1 (eqm_eq p _ _ eq_refl)) as U. pose proof (Z1 (-1) (eqm_eq p _ _ eq_refl)) as W.
    assert (X2 : 2 * (s * x2) == 0).
    { replace (2 * (s * x2)) with ((s * x2 + 1 * y2) + (s * x2 + -1 * y2)) by ring. rewrite U, W. reflexivity. }
    apply (double0 p Hp H2) in X2. apply (mul0 p Hp) in X2. destruct X2 as [X2|X2]; [tauto|].
    apply one_nz. rewrite <- KK, X2. apply eqm_eq; ring.
  Qed.
  Lemma edP_nz x1 y1 x2 y2 : on x1 y1 -> on x2 y2 -> ~ edP dd x1 y1 x2 y2 == 0.
  Proof.
    intros C1 C2 E. unfold edP in E. apply (complete_eps (-1) x1 y1 x2 y2); auto; [now apply eqm_eq|].
    replace (dd * (x1 * x2 * (y1 * y2))) with (1 + dd * (x1 * x2 * (y1 * y2)) - 1) by ring. rewrite E. now apply eqm_eq.
  Qed.
  Lemma edQ_nz x1 y1 x2 y2 : on x1 y1 -> on x2 y2 -> ~ edQ dd x1 y1 x2 y2 == 0.
  Proof.
    intros C1 C2 E. unfold edQ in E. apply (complete_eps 1 x1 y1 x2 y2); auto; [now apply eqm_eq|].
    replace (dd * (x1 * x2 * (y1 * y2))) with (1 - (1 - dd * (x1 * x2 * (y1 * y2)))) by ring. rewrite E. now apply eqm_eq.
  Qed.
  Lemma on_cert x y : on x y -> (1 - dd * x * x) * (y * y) - (1 - a * x * x) == 0.
  Proof.
    intros H. unfold on in H. replace ((1 - dd * x * x) * (y * y) - (1 - a * x * x)) with (a * (x * x) + y * y - (1 + dd * (x * x * (y * y)))) by ring.
    rewrite H. apply eqm_eq; ring.
  Qed.

  (** the law, with d *)
  Definition sum (x1 y1 x2 y2 x3 y3 : Z) : Prop :=
    x3 * edP dd x1 y1 x2 y2 == edN x1 y1 x2 y2 /\ y3 * edQ dd x1 y1 x2 y2 == edM a x1 y1 x2 y2.
  Lemma den_plus x1 y1 x2 y2 : d2 + d1 * (x1 * x2 * (y1 * y2)) == d2 * edP dd x1 y1 x2 y2.
  Proof. unfold edP. rewrite <- dd_spec. apply eqm_eq; ring. Qed.
  Lemma den_minus x1 y1 x2 y2 : d2 - d1 * (x1 * x2 * (y1 * y2)) == d2 * edQ dd x1 y1 x2 y2.
  Proof. unfold edQ. rewrite <- dd_spec. apply eqm_eq; ring. Qed.
  Lemma add_iff x1 y1 x2 y2 x3 y3 : on x1 y1 -> on x2 y2 ->
    (ed_add p a d1 d2 (x1, y1) (x2, y2) (x3, y3) <-> sum x1 y1 x2 y2 x3 y3).
  Proof.
    intros C1 C2. unfold ed_add, sum. rewrite den_plus, den_minus. split.
    - intros (_ & _ & A & B). split; apply (cancel p Hp d2 _ _ d2_nz).
      + replace (d2 * (x3 * edP dd x1 y1 x2 y2)) with (x3 * (d2 * edP dd x1 y1 x2 y2)) by ring. exact A.
      + replace (d2 * (y3 * edQ dd x1 y1 x2 y2)) with (y3 * (d2 * edQ dd x1 y1 x2 y2)) by ring. exact B.
    - intros (A & B). split; [|split; [|split]].
      + apply mul_nz; auto; [apply d2_nz|now apply edP_nz].
      + apply mul_nz; auto; [apply d2_nz|now apply edQ_nz].
      + replace (x3 * (d2 * edP dd x1 y1 x2 y2)) with (d2 * (x3 * edP dd x1 y1 x2 y2)) by ring. rewrite A. reflexivity.
      + replace (y3 * (d2 * edQ dd x1 y1 x2 y2)) with (d2 * (y3 * edQ dd x1 y1 x2 y2)) by ring. rewrite B. reflexivity.
  Qed.

  Lemma sum_closed x1 y1 x2 y2 x3 y3 : on x1 y1 -> on x2 y2 -> sum x1 y1 x2 y2 x3 y3 -> on x3 y3.
  Proof.
    intros C1 C2 (A & B). pose proof (edP_nz _ _ _ _ C1 C2) as NP. pose proof (edQ_nz _ _ _ _ C1 C2) as NQ.
    pose proof (ed_closure a dd x1 y1 x2 y2) as E.
    assert (E0 : (1 - dd * x1 * x1) * (1 - dd * x1 * x1) * (1 - dd * x2 * x2) * (1 - dd * x2 * x2) *
       (a * (edN x1 y1 x2 y2 * edN x1 y1 x2 y2) * (edQ dd x1 y1 x2 y2 * edQ dd x1 y1 x2 y2) + edM a x1 y1 x2 y2 * edM a x1 y1 x2 y2 * (edP dd x1 y1 x2 y2 * edP dd x1 y1 x2 y2) - edP dd x1 y1 x2 y2 * edQ dd x1 y1 x2 y2 * (edP dd x1 y1 x2 y2 * edQ dd x1 y1 x2 y2) - dd * (edN x1 y1 x2 y2 * edN x1 y1 x2 y2 * (edM a x1 y1 x2 y2 * edM a x1 y1 x2 y2))) == 0).
    { rewrite E. rewrite (on_cert _ _ C1), (on_cert _ _ C2). apply eqm_eq; ring. }
    clear E. apply (mul0 p Hp) in E0. destruct E0 as [E0|E0].
    { exfalso. revert E0. repeat apply (mul_nz p Hp); apply sq_one_nz. }
    set (PP := edP dd x1 y1 x2 y2) in *. set (QQ := edQ dd x1 y1 x2 y2) in *. set (NN := edN x1 y1 x2 y2) in *. set (MM := edM a x1 y1 x2 y2) in *.
    clearbody PP QQ NN MM. unfold on. rewrite <- A, <- B in E0.
    apply (cancel p Hp (PP * PP * (QQ * QQ))); [repeat apply (mul_nz p Hp); auto|].
    apply eqm_minus. rewrite <- E0. apply eqm_eq. ring.
  Qed.

  Lemma sum_ex x1 y1 x2 y2 : on x1 y1 -> on x2 y2 -> exists x3 y3, sum x1 y1 x2 y2 x3 y3.
  Proof.
    intros C1 C2. destruct (div_ex p 0 Hp H2 _ (edN x1 y1 x2 y2) (edP_nz _ _ _ _ C1 C2)) as (x3 & E3).
    destruct (div_ex p 0 Hp H2 _ (edM a x1 y1 x2 y2) (edQ_nz _ _ _ _ C1 C2)) as (y3 & E4). exists x3, y3. split; assumption.
  Qed.

  Lemma sum_det x1 y1 x2 y2 x3 y3 x4 y4 : on x1 y1 -> on x2 y2 -> sum x1 y1 x2 y2 x3 y3 -> sum x1 y1 x2 y2 x4 y4 -> x3 == x4 /\ y3 == y4.
  Proof.
    intros C1 C2 (A & B) (A' & B'). split.
    - apply (cancel p Hp _ _ _ (edP_nz _ _ _ _ C1 C2)). rewrite !(Z.mul_comm (edP _ _ _ _ _)). rewrite A, A'. reflexivity.
    - apply (cancel p Hp _ _ _ (edQ_nz _ _ _ _ C1 C2)). rewrite !(Z.mul_comm (edQ _ _ _ _ _)). rewrite B, B'. reflexivity.
  Qed.

  Lemma sum_assoc x1 y1 x2 y2 x3 y3 x4 y4 x5 y5 x6 y6 x7 y7 : on x1 y1 -> on x2 y2 -> on x3 y3 ->
    sum x1 y1 x2 y2 x4 y4 -> sum x4 y4 x3 y3 x6 y6 -> sum x2 y2 x3 y3 x5 y5 -> sum x1 y1 x5 y5 x7 y7 -> x6 == x7 /\ y6 == y7.
  Proof.
    intros C1 C2 C3 S12 S123 S23 S123'.
    pose proof (sum_closed _ _ _ _ _ _ C1 C2 S12) as C4. pose proof (sum_closed _ _ _ _ _ _ C2 C3 S23) as C5.
    pose proof (edP_nz _ _ _ _ C1 C2) as NP12. pose proof (edQ_nz _ _ _ _ C1 C2) as NQ12.
    pose proof (edP_nz _ _ _ _ C2 C3) as NP23. pose proof (edQ_nz _ _ _ _ C2 C3) as NQ23.
    pose proof (edP_nz _ _ _ _ C4 C3) as NP43. pose proof (edQ_nz _ _ _ _ C4 C3) as NQ43.
    pose proof (edP_nz _ _ _ _ C1 C5) as NP15. pose proof (edQ_nz _ _ _ _ C1 C5) as NQ15.
    destruct S12 as [A1 A2], S123 as [B1 B2], S23 as [D1 D2], S123' as [F1 F2].
    assert (U : ~ (1 - dd * x1 * x1) * (1 - dd * x1 * x1) * (1 - dd * x2 * x2) * (1 - dd * x2 * x2) * (1 - dd * x2 * x2) * (1 - dd * x3 * x3) * (1 - dd * x3 * x3) == 0)
      by (repeat apply (mul_nz p Hp); apply sq_one_nz).
    pose proof (on_cert _ _ C1) as K1. pose proof (on_cert _ _ C2) as K2. pose proof (on_cert _ _ C3) as K3.
    split.
    - pose proof (eqm_eq p _ _ (ed_assoc_x a dd x1 y1 x2 y2 x3 y3)) as E. rewrite K1, K2, K3 in E. rewrite !Z.mul_0_r, !Z.add_0_r in E.
      apply (mul0 p Hp) in E. destruct E as [E|E]; [now apply U in E|]. apply eqm_minus in E.
      clear U K1 K2 K3. unfold edP at 1 in NP43. unfold edP at 1 in NP15. unfold edP at 1, edN at 1 in B1. unfold edP at 1, edN at 1 in F1.
      set (PP := edP dd x1 y1 x2 y2) in *. set (QQ := edQ dd x1 y1 x2 y2) in *. set (NN := edN x1 y1 x2 y2) in *. set (MM := edM a x1 y1 x2 y2) in *.
      set (P' := edP dd x2 y2 x3 y3) in *. set (Q' := edQ dd x2 y2 x3 y3) in *. set (N' := edN x2 y2 x3 y3) in *. set (M' := edM a x2 y2 x3 y3) in *.
      clearbody PP QQ NN MM P' Q' N' M'.
      assert (L : x6 * (PP * QQ + dd * (NN * MM * (x3 * y3))) == NN * QQ * y3 + MM * PP * x3).
      { rewrite <- A1, <- A2. 
        replace (x6 * (PP * QQ + dd * (x4 * PP * (y4 * QQ) * (x3 * y3)))) with (PP * QQ * (x6 * (1 + dd * (x4 * x3 * (y4 * y3))))) by ring.
        rewrite B1. apply eqm_eq; ring. }
      assert (R : x7 * (P' * Q' + dd * (N' * M' * (x1 * y1))) == x1 * (M' * P') + y1 * (N' * Q')).
      { rewrite <- D1, <- D2. 
        replace (x7 * (P' * Q' + dd * (x5 * P' * (y5 * Q') * (x1 * y1)))) with (P' * Q' * (x7 * (1 + dd * (x1 * x5 * (y1 * y5))))) by ring.
        rewrite F1. apply eqm_eq; ring. }
      assert (NL : ~ PP * QQ + dd * (NN * MM * (x3 * y3)) == 0).
      { rewrite <- A1, <- A2. replace (PP * QQ + dd * (x4 * PP * (y4 * QQ) * (x3 * y3))) with (PP * QQ * (1 + dd * (x4 * x3 * (y4 * y3)))) by ring.
        repeat apply (mul_nz p Hp); auto. }
      assert (NR : ~ P' * Q' + dd * (N' * M' * (x1 * y1)) == 0).
      { rewrite <- D1, <- D2. replace (P' * Q' + dd * (x5 * P' * (y5 * Q') * (x1 * y1))) with (P' * Q' * (1 + dd * (x1 * x5 * (y1 * y5)))) by ring.
        repeat apply (mul_nz p Hp); auto. }
      rewrite <- L, <- R in E.
      set (l := PP * QQ + dd * (NN * MM * (x3 * y3))) in *. set (r := P' * Q' + dd * (N' * M' * (x1 * y1))) in *. clearbody l r.
      apply (cancel p Hp (l * r)); [now apply (mul_nz p Hp)|].
      replace (l * r * x6) with (x6 * l * r) by ring. rewrite E. apply eqm_eq; ring.
    - pose proof (eqm_eq p _ _ (ed_assoc_y a dd x1 y1 x2 y2 x3 y3)) as E. rewrite K1, K2, K3 in E. rewrite !Z.mul_0_r, !Z.add_0_r in E.
      apply (mul0 p Hp) in E. destruct E as [E|E]; [now apply U in E|]. apply eqm_minus in E.
      clear U K1 K2 K3. unfold edQ at 1 in NQ43. unfold edQ at 1 in NQ15. unfold edQ at 1, edM at 1 in B2. unfold edQ at 1, edM at 1 in F2.
      set (PP := edP dd x1 y1 x2 y2) in *. set (QQ := edQ dd x1 y1 x2 y2) in *. set (NN := edN x1 y1 x2 y2) in *. set (MM := edM a x1 y1 x2 y2) in *.
      set (P' := edP dd x2 y2 x3 y3) in *. set (Q' := edQ dd x2 y2 x3 y3) in *. set (N' := edN x2 y2 x3 y3) in *. set (M' := edM a x2 y2 x3 y3) in *.
      clearbody PP QQ NN MM P' Q' N' M'.
      assert (L : y6 * (PP * QQ - dd * (NN * MM * (x3 * y3))) == MM * PP * y3 - a * (NN * QQ * x3)).
      { rewrite <- A1, <- A2. 
        replace (y6 * (PP * QQ - dd * (x4 * PP * (y4 * QQ) * (x3 * y3)))) with (PP * QQ * (y6 * (1 - dd * (x4 * x3 * (y4 * y3))))) by ring.
        rewrite B2. apply eqm_eq; ring. }
      assert (R : y7 * (P' * Q' - dd * (N' * M' * (x1 * y1))) == y1 * (M' * P') - a * (x1 * (N' * Q'))).
      { rewrite <- D1, <- D2. 
        replace (y7 * (P' * Q' - dd * (x5 * P' * (y5 * Q') * (x1 * y1)))) with (P' * Q' * (y7 * (1 - dd * (x1 * x5 * (y1 * y5))))) by ring.
        rewrite F2. apply eqm_eq; ring. }
      assert (NL : ~ PP * QQ - dd * (NN * MM * (x3 * y3)) == 0).
      { rewrite <- A1, <- A2. replace (PP * QQ - dd * (x4 * PP * (y4 * QQ) * (x3 * y3))) with (PP * QQ * (1 - dd * (x4 * x3 * (y4 * y3)))) by ring.
        repeat apply (mul_nz p Hp); auto. }
      assert (NR : ~ P' * Q' - dd * (N' * M' * (x1 * y1)) == 0).
      { rewrite <- D1, <- D2. replace (P' * Q' - dd * (x5 * P' * (y5 * Q') * (x1 * y1))) with (P' * Q' * (1 - dd * (x1 * x5 * (y1 * y5)))) by ring.
        repeat apply (mul_nz p Hp); auto. }
      rewrite <- L, <- R in E.
      set (l := PP * QQ - dd * (NN * MM * (x3 * y3))) in *. set (r := P' * Q' - dd * (N' * M' * (x1 * y1))) in *. clearbody l r.
      apply (cancel p Hp (l * r)); [now apply (mul_nz p Hp)|].
      replace (l * r * y6) with (y6 * l * r) by ring. rewrite E. apply eqm_eq; ring.
  Qed.
End Law.
