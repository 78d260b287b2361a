(** The complete addition polynomials of Renes-Costello-Batina evaluate the
    chord-and-tangent law. *)
From Coq Require Import ZArith Znumtheory Lia Setoid Morphisms.
From Verif Require Import Fermat EcSpec.
Open Scope Z_scope.

Lemma eqm_eq p x y : x = y -> eqm p x y.
Proof. intros ->. unfold eqm. rewrite Z.sub_diag. apply Z.divide_0_r. Qed.
Lemma eqm_mod p x y : p <> 0 -> (eqm p x y <-> x mod p = y mod p).
Proof.
  intros H. unfold eqm. split.
  - intros [k E]. replace x with (y + k * p) by lia. apply Z_mod_plus_full.
  - intros E. apply Z.mod_divide; auto. rewrite Zminus_mod, E, Z.sub_diag. apply Zmod_0_l.
Qed.
Global Instance eqm_equiv p : Equivalence (eqm p).
Proof.
  split.
  - intros x. now apply eqm_eq.
  - intros x y [k E]. exists (- k). lia.
  - intros x y z [k E] [k' E']. exists (k + k'). lia.
Qed.
Global Instance add_eqm p : Proper (eqm p ==> eqm p ==> eqm p) Z.add.
Proof. intros x x' [k E] y y' [k' E']. exists (k + k'). lia. Qed.
Global Instance sub_eqm p : Proper (eqm p ==> eqm p ==> eqm p) Z.sub.
Proof. intros x x' [k E] y y' [k' E']. exists (k - k'). lia. Qed.
Global Instance opp_eqm p : Proper (eqm p ==> eqm p) Z.opp.
Proof. intros x x' [k E]. exists (- k). lia. Qed.
Global Instance mul_eqm p : Proper (eqm p ==> eqm p ==> eqm p) Z.mul.
Proof.
  intros x x' [k E] y y' [k' E']. exists (k * y + x' * k'). 
  replace (x * y - x' * y') with ((x - x') * y + x' * (y - y')) by ring. rewrite E, E'. ring.
Qed.

Definition rcbX (a b X1 Y1 Z1 X2 Y2 Z2 : Z) : Z :=
  (X1 * Y2 + X2 * Y1) * (Y1 * Y2 - a * (X1 * Z2 + X2 * Z1) - 3 * b * (Z1 * Z2))
  - (Y1 * Z2 + Y2 * Z1) * (a * (X1 * X2) + 3 * b * (X1 * Z2 + X2 * Z1) - a * a * (Z1 * Z2)).
Definition rcbY (a b X1 Y1 Z1 X2 Y2 Z2 : Z) : Z :=
  (Y1 * Y2 + a * (X1 * Z2 + X2 * Z1) + 3 * b * (Z1 * Z2)) * (Y1 * Y2 - a * (X1 * Z2 + X2 * Z1) - 3 * b * (Z1 * Z2))
  + (3 * (X1 * X2) + a * (Z1 * Z2)) * (a * (X1 * X2) + 3 * b * (X1 * Z2 + X2 * Z1) - a * a * (Z1 * Z2)).
Definition rcbZ (a b X1 Y1 Z1 X2 Y2 Z2 : Z) : Z :=
  (Y1 * Z2 + Y2 * Z1) * (Y1 * Y2 + a * (X1 * Z2 + X2 * Z1) + 3 * b * (Z1 * Z2))
  + (X1 * Y2 + X2 * Y1) * (3 * (X1 * X2) + a * (Z1 * Z2)).

Global Instance rcbX_proper p : Proper (eqm p ==> eqm p ==> eqm p ==> eqm p ==> eqm p ==> eqm p ==> eqm p ==> eqm p ==> eqm p) rcbX.
Proof. intros a a' Ha b b' Hb x x' Hx y y' Hy z z' Hz u u' Hu v v' Hv w w' Hw. unfold rcbX. rewrite Ha, Hb, Hx, Hy, Hz, Hu, Hv, Hw. reflexivity. Qed.
Global Instance rcbY_proper p : Proper (eqm p ==> eqm p ==> eqm p ==> eqm p ==> eqm p ==> eqm p ==> eqm p ==> eqm p ==> eqm p) rcbY.
Proof. intros a a' Ha b b' Hb x x' Hx y y' Hy z z' Hz u u' Hu v v' Hv w w' Hw. unfold rcbY. rewrite Ha, Hb, Hx, Hy, Hz, Hu, Hv, Hw. reflexivity. Qed.
Global Instance rcbZ_proper p : Proper (eqm p ==> eqm p ==> eqm p ==> eqm p ==> eqm p ==> eqm p ==> eqm p ==> eqm p ==> eqm p) rcbZ.
Proof. intros a a' Ha b b' Hb x x' Hx y y' Hy z z' Hz u u' Hu v v' Hv w w' Hw. unfold rcbZ. rewrite Ha, Hb, Hx, Hy, Hz, Hu, Hv, Hw. reflexivity. Qed.

Section Law.
  Variables (p a b : Z).
  Hypothesis Hp : prime p.
  Hypothesis H2 : p <> 2.
  Notation "x == y" := (eqm p x y) (at level 70).

  Lemma p_pos : 1 < p. Proof. destruct Hp; lia. Qed.

  Lemma eqm0 x : x == 0 <-> (p | x).
  Proof. unfold eqm. now rewrite Z.sub_0_r. Qed.

  Lemma eqm_minus x y : x == y <-> x - y == 0.
  Proof.
    split; intros H.
    - rewrite H. apply eqm_eq. ring.
    - replace x with (x - y + y) by ring. rewrite H. reflexivity.
  Qed.

  Lemma mul0 x y : x * y == 0 -> x == 0 \/ y == 0.
  Proof. rewrite !eqm0. apply prime_mult. exact Hp. Qed.

  Lemma mul_nz x y : ~ x == 0 -> ~ y == 0 -> ~ x * y == 0.
  Proof. intros A B C. apply mul0 in C. tauto. Qed.

  Lemma cancel k x y : ~ k == 0 -> k * x == k * y -> x == y.
  Proof.
    intros K E. apply eqm_minus. apply eqm_minus in E. replace (k * x - k * y) with (k * (x - y)) in E by ring.
    apply mul0 in E. tauto.
  Qed.

  Lemma inv_ex x : ~ x == 0 -> exists i, x * i == 1.
  Proof.
    intros H. exists (x ^ (p - 2)). pose proof p_pos. apply eqm_mod; [lia|]. rewrite (Z.mod_small 1) by lia.
    apply fermat_inverse; auto. now rewrite <- eqm0.
  Qed.

  Lemma div_ex x y : ~ x == 0 -> exists q, q * x == y.
  Proof.
    intros H. destruct (inv_ex x H) as (i & Hi). exists (i * y).
    replace (i * y * x) with (x * i * y) by ring. rewrite Hi. now rewrite Z.mul_1_l.
  Qed.

  Lemma two_nz : ~ 2 == 0.
  Proof.
    rewrite eqm0. intros D. apply prime_div_prime in D; auto. apply prime_2.
  Qed.

  Lemma double0 y : 2 * y == 0 -> y == 0.
  Proof. intros H. apply mul0 in H. destruct H; auto. now apply two_nz in H. Qed.

  Lemma eight_cube y : ~ y == 0 -> ~ 8 * (y * y * y) == 0.
  Proof.
    intros H E. replace (8 * (y * y * y)) with (2 * y * (2 * y) * (2 * y)) in E by ring.
    apply mul0 in E. destruct E as [E|E]; [apply mul0 in E; destruct E as [E|E]|]; apply double0 in E; auto.
  Qed.

  (** the third point of a chord or tangent lies on the curve *)
  Definition chordA x1 y1 l d := 2 * y1 * l + l * l * d - 3 * x1 * x1 - 3 * x1 * d - d * d.

  Lemma chord_a x1 y1 l d : ~ d == 0 -> y1 * y1 == x1 * x1 * x1 + a * x1 + b ->
    (y1 + l * d) * (y1 + l * d) == (x1 + d) * (x1 + d) * (x1 + d) + a * (x1 + d) + b -> a == chordA x1 y1 l d.
  Proof.
    intros D E1 E2. apply (cancel d); auto. apply eqm_minus in E1. apply eqm_minus in E2. apply eqm_minus.
    unfold chordA.
    replace (d * a - d * (2 * y1 * l + l * l * d - 3 * x1 * x1 - 3 * x1 * d - d * d))
      with ((y1 * y1 - (x1 * x1 * x1 + a * x1 + b)) - ((y1 + l * d) * (y1 + l * d) - ((x1 + d) * (x1 + d) * (x1 + d) + a * (x1 + d) + b))) by ring.
    rewrite E1, E2. reflexivity.
  Qed.

  Lemma curve_b x1 y1 : y1 * y1 == x1 * x1 * x1 + a * x1 + b -> b == y1 * y1 - x1 * x1 * x1 - a * x1.
  Proof. intros E. rewrite E. apply eqm_minus. apply eqm_eq; ring. Qed.

  Lemma chord_on_curve x1 y1 l d x3 y3 : y1 * y1 == x1 * x1 * x1 + a * x1 + b -> a == chordA x1 y1 l d ->
    x3 == l * l - x1 - (x1 + d) -> y3 == l * (x1 - x3) - y1 -> y3 * y3 == x3 * x3 * x3 + a * x3 + b.
  Proof.
    intros E1 EA EX EY. rewrite EY, EX. rewrite (curve_b x1 y1 E1), EA. unfold chordA. apply eqm_eq; ring.
  Qed.

  (** tangent: the same with d = 0 and slope l, 2 y1 l = 3 x1^2 + a *)
  Lemma tangent_a x1 y1 l : l * (2 * y1) == 3 * x1 * x1 + a -> a == chordA x1 y1 l 0.
  Proof.
    intros E. unfold chordA. replace (2 * y1 * l) with (l * (2 * y1)) by ring. rewrite E. apply eqm_eq; ring.
  Qed.

  Hypothesis NoTwo : forall x, ~ x * x * x + a * x + b == 0.

  Lemma y_nz x y : y * y == x * x * x + a * x + b -> ~ y == 0.
  Proof. intros E Y. apply (NoTwo x). rewrite <- E, Y. reflexivity. Qed.

  Lemma rcb_chord x1 y1 x2 y2 l : ~ x1 == x2 -> l * (x2 - x1) == y2 - y1 ->
    y1 * y1 == x1 * x1 * x1 + a * x1 + b -> y2 * y2 == x2 * x2 * x2 + a * x2 + b ->
    let x3 := l * l - x1 - x2 in let y3 := l * (x1 - x3) - y1 in
    ~ rcbZ a b x1 y1 1 x2 y2 1 == 0 /\
    rcbX a b x1 y1 1 x2 y2 1 == x3 * rcbZ a b x1 y1 1 x2 y2 1 /\
    rcbY a b x1 y1 1 x2 y2 1 == y3 * rcbZ a b x1 y1 1 x2 y2 1.
  Proof.
    intros NE EL E1 E2 x3 y3. set (d := x2 - x1) in *.
    assert (D : ~ d == 0). { intros H. apply NE. symmetry. now apply eqm_minus. }
    assert (X2 : x2 = x1 + d) by (unfold d; ring).
    assert (Y2 : y2 == y1 + l * d). { rewrite EL. apply eqm_eq; ring. }
    assert (EA : a == chordA x1 y1 l d).
    { apply chord_a; auto. rewrite <- Y2, <- X2. exact E2. }
    pose proof (curve_b x1 y1 E1) as EB.
    split; [|split].
    - (* y-coordinate of P - Q *)
      destruct (div_ex d (- y2 - y1) D) as (l' & EL').
      assert (Y2' : - y2 == y1 + l' * d). { rewrite EL'. apply eqm_eq; ring. }
      assert (EA' : a == chordA x1 y1 l' d).
      { apply chord_a; auto. rewrite <- Y2', <- X2. replace (- y2 * - y2) with (y2 * y2) by ring. exact E2. }
      set (xd := l' * l' - x1 - (x1 + d)). set (yd := l' * (x1 - xd) - y1).
      assert (ED : yd * yd == xd * xd * xd + a * xd + b).
      { apply (chord_on_curve x1 y1 l' d); auto; reflexivity. }
      assert (EZ : rcbZ a b x1 y1 1 x2 y2 1 == d * d * d * yd).
      { assert (Y2n : y2 == - (y1 + l' * d)) by (rewrite <- Y2'; apply eqm_eq; ring).
        rewrite X2, Y2n, EB, EA'. unfold rcbZ, chordA, yd, xd. apply eqm_eq; ring. }
      rewrite EZ. repeat apply mul_nz; auto. now apply (y_nz xd).
    - unfold x3. rewrite X2, Y2, EB, EA. unfold rcbX, rcbZ, chordA. apply eqm_eq; ring.
    - unfold y3, x3. rewrite X2, Y2, EB, EA. unfold rcbY, rcbZ, chordA. apply eqm_eq; ring.
  Qed.

  Lemma rcb_tangent x y l : l * (2 * y) == 3 * x * x + a -> y * y == x * x * x + a * x + b ->
    let x3 := l * l - x - x in let y3 := l * (x - x3) - y in
    ~ rcbZ a b x y 1 x y 1 == 0 /\
    rcbX a b x y 1 x y 1 == x3 * rcbZ a b x y 1 x y 1 /\
    rcbY a b x y 1 x y 1 == y3 * rcbZ a b x y 1 x y 1 /\
    rcbY a b x y 1 x (- y) 1 == 8 * (y * y * y) * y3.
  Proof.
    intros EL E x3 y3. pose proof (tangent_a x y l EL) as EA. pose proof (curve_b x y E) as EB.
    split; [|split; [|split]].
    - assert (EZ : rcbZ a b x y 1 x y 1 == 8 * (y * y * y)).
      { rewrite EB, EA. unfold rcbZ, chordA. apply eqm_eq; ring. }
      rewrite EZ. apply eight_cube. now apply (y_nz x).
    - unfold x3. rewrite EB, EA. unfold rcbX, rcbZ, chordA. apply eqm_eq; ring.
    - unfold y3, x3. rewrite EB, EA. unfold rcbY, rcbZ, chordA. apply eqm_eq; ring.
    - unfold y3, x3. rewrite EB, EA. unfold rcbY, chordA. apply eqm_eq; ring.
  Qed.

  (** totality of the law on the curve *)
  Lemma eqm_dec x y : {x == y} + {~ x == y}.
  Proof. apply Znumtheory.Zdivide_dec. Qed.

  Lemma same_x x1 y1 x2 y2 : x1 == x2 -> y1 * y1 == x1 * x1 * x1 + a * x1 + b -> y2 * y2 == x2 * x2 * x2 + a * x2 + b ->
    y1 == y2 \/ y1 == - y2.
  Proof.
    intros EX E1 E2.
    assert (H : (y1 - y2) * (y1 + y2) == 0).
    { replace ((y1 - y2) * (y1 + y2)) with (y1 * y1 - y2 * y2) by ring. rewrite E1, E2, EX. apply eqm_eq; ring. }
    apply mul0 in H. destruct H as [H|H]; [left|right]; apply eqm_minus; auto.
    replace (y1 - - y2) with (y1 + y2) by ring. exact H.
  Qed.

  Theorem rcb_law X1 Y1 Z1 X2 Y2 Z2 P Q : on_curve p a b P -> on_curve p a b Q ->
    proj p X1 Y1 Z1 P -> proj p X2 Y2 Z2 Q ->
    exists R, ec_add p a P Q R /\ on_curve p a b R /\
      proj p (rcbX a b X1 Y1 Z1 X2 Y2 Z2) (rcbY a b X1 Y1 Z1 X2 Y2 Z2) (rcbZ a b X1 Y1 Z1 X2 Y2 Z2) R.
  Proof.
    intros CP CQ RP RQ. destruct P as [|x1 y1]; [|destruct Q as [|x2 y2]].
    - (* inf + Q *)
      cbn [proj] in RP. destruct RP as (A1 & A2 & A3). exists Q. split; [constructor|]. split; [exact CQ|].
      destruct Q as [|x2 y2]; cbn [proj] in RQ |- *; destruct RQ as (B1 & B2 & B3).
      + split; [|split].
        * rewrite A1, A2, B1, B2. unfold rcbX. apply eqm_eq; ring.
        * rewrite A1, A2, B1, B2. unfold rcbZ. apply eqm_eq; ring.
        * rewrite A1, A2, B1, B2. unfold rcbY.
          replace (_ + _) with (Y1 * Y2 * (Y1 * Y2)) by ring. auto using mul_nz.
      + cbn [on_curve] in CQ. pose proof (y_nz _ _ CQ) as N.
        assert (EZ : rcbZ a b X1 Y1 Z1 X2 Y2 Z2 == Z2 * (Y1 * Y1) * Y2).
        { rewrite A1, A2. unfold rcbZ. apply eqm_eq; ring. }
        assert (N2 : ~ Y2 == 0) by (rewrite B3; auto using mul_nz).
        split; [|split].
        * rewrite EZ. auto using mul_nz.
        * rewrite EZ, A1, A2. rewrite B2. unfold rcbX. apply eqm_eq; ring.
        * rewrite EZ, A1, A2. transitivity (Y2 * (Y1 * Y1) * Y2); [unfold rcbY; apply eqm_eq; ring|].
          rewrite B3 at 1. apply eqm_eq; ring.
    - (* P + inf *)
      cbn [proj] in RP, RQ |- *. destruct RP as (A1 & A2 & A3). destruct RQ as (B1 & B2 & B3).
      exists (Aff x1 y1). split; [constructor|]. split; [exact CP|]. cbn [proj].
      cbn [on_curve] in CP. pose proof (y_nz _ _ CP) as N.
      assert (EZ : rcbZ a b X1 Y1 Z1 X2 Y2 Z2 == Z1 * (Y2 * Y2) * Y1).
      { rewrite B1, B2. unfold rcbZ. apply eqm_eq; ring. }
      assert (N2 : ~ Y1 == 0) by (rewrite A3; auto using mul_nz).
      split; [|split].
      + rewrite EZ. auto using mul_nz.
      + rewrite EZ, B1, B2. rewrite A2. unfold rcbX. apply eqm_eq; ring.
      + rewrite EZ, B1, B2. transitivity (Y1 * (Y2 * Y2) * Y1); [unfold rcbY; apply eqm_eq; ring|].
        rewrite A3 at 1. apply eqm_eq; ring.
    - cbn [proj on_curve] in *. destruct RP as (A1 & A2 & A3). destruct RQ as (B1 & B2 & B3).
      (* homogeneity *)
      set (k := Z1 * Z1 * (Z2 * Z2)).
      assert (K : ~ k == 0) by (unfold k; auto using mul_nz).
      assert (HX : rcbX a b X1 Y1 Z1 X2 Y2 Z2 == k * rcbX a b x1 y1 1 x2 y2 1).
      { rewrite A2, A3, B2, B3. unfold rcbX, k. apply eqm_eq; ring. }
      assert (HY : rcbY a b X1 Y1 Z1 X2 Y2 Z2 == k * rcbY a b x1 y1 1 x2 y2 1).
      { rewrite A2, A3, B2, B3. unfold rcbY, k. apply eqm_eq; ring. }
      assert (HZ : rcbZ a b X1 Y1 Z1 X2 Y2 Z2 == k * rcbZ a b x1 y1 1 x2 y2 1).
      { rewrite A2, A3, B2, B3. unfold rcbZ, k. apply eqm_eq; ring. }
      clearbody k.
      destruct (eqm_dec x1 x2) as [EX|NX].
      + pose proof (y_nz _ _ CP) as N1.
        assert (T : exists l, l * (2 * y1) == 3 * x1 * x1 + a).
        { apply div_ex. intros H. now apply double0 in H. }
        destruct T as (l & EL). destruct (rcb_tangent x1 y1 l EL CP) as (T1 & T2 & T3 & T4).
        set (x3 := l * l - x1 - x1) in *. set (y3 := l * (x1 - x3) - y1) in *.
        assert (C3 : y3 * y3 == x3 * x3 * x3 + a * x3 + b).
        { apply (chord_on_curve x1 y1 l 0); auto; [now apply tangent_a| |reflexivity]. unfold x3. apply eqm_eq; ring. }
        destruct (eqm_dec y1 (- y2)) as [EN|NN].
        * exists Inf. split; [now constructor|]. split; [exact I|]. cbn [proj].
          assert (YY : y2 == - y1) by (rewrite EN; apply eqm_eq; ring).
          split; [|split].
          -- rewrite HX, <- EX, YY. unfold rcbX. apply eqm_eq; ring.
          -- rewrite HZ, <- EX, YY. unfold rcbZ. apply eqm_eq; ring.
          -- rewrite HY, <- EX, YY, T4. apply mul_nz; auto. apply mul_nz; [now apply eight_cube|]. now apply (y_nz x3).
        * destruct (same_x x1 y1 x2 y2 EX CP CQ) as [EY|EY]; [|contradiction].
          exists (Aff x3 y3). split; [|split; [exact C3|]].
          { apply add_tangent with (l := l); auto; [|reflexivity]. unfold x3. rewrite EX at 2. reflexivity. }
          cbn [proj]. rewrite HX, HY, HZ, <- EX, <- EY.
          split; [now apply mul_nz|]. rewrite T2, T3. split; apply eqm_eq; ring.
      + assert (T : exists l, l * (x2 - x1) == y2 - y1).
        { apply div_ex. intros H. apply NX. symmetry. now apply eqm_minus. }
        destruct T as (l & EL). destruct (rcb_chord x1 y1 x2 y2 l NX EL CP CQ) as (T1 & T2 & T3).
        set (x3 := l * l - x1 - x2) in *. set (y3 := l * (x1 - x3) - y1) in *.
        exists (Aff x3 y3). split; [|split].
        * apply add_chord with (l := l); auto; reflexivity.
        * cbn [on_curve]. apply (chord_on_curve x1 y1 l (x2 - x1)); auto; [| |reflexivity].
          -- apply chord_a; auto.
             ++ intros H. apply NX. symmetry. now apply eqm_minus.
             ++ rewrite EL. replace (y1 + (y2 - y1)) with y2 by ring. replace (x1 + (x2 - x1)) with x2 by ring. exact CQ.
          -- unfold x3. apply eqm_eq; ring.
        * cbn [proj]. rewrite HX, HY, HZ. split; [now apply mul_nz|]. rewrite T2, T3. split; apply eqm_eq; ring.
  Qed.

  (** the doubling polynomials of ecp_point_dbl_fast *)
  Theorem dbl_law X Y Z P : on_curve p a b P -> P <> Inf -> proj p X Y Z P ->
    let w := 3 * (X * X) + a * (Z * Z) in
    let s := Y * Y * Z in
    exists R, ec_add p a P P R /\ on_curve p a b R /\ R <> Inf /\
      proj p (Y * Z * (2 * (w * w - 8 * (s * X)))) (4 * ((3 * (w * X) - 2 * s) * (Y * Y) * Z) - w * w * w)
             (8 * (Y * Z * (Y * Z) * (Y * Z))) R.
  Proof.
    intros CP NI RP w s. destruct P as [|x y]; [congruence|]. cbn [on_curve proj] in CP, RP. destruct RP as (A1 & A2 & A3).
    pose proof (y_nz _ _ CP) as N.
    assert (T : exists l, l * (2 * y) == 3 * x * x + a).
    { apply div_ex. intros H. now apply double0 in H. }
    destruct T as (l & EL). set (x3 := l * l - x - x). set (y3 := l * (x - x3) - y).
    exists (Aff x3 y3). split; [|split; [|split; [congruence|]]].
    - apply add_tangent with (l := l); auto; try reflexivity.
      intros H. apply N. apply double0. apply eqm_minus in H. replace (y - - y) with (2 * y) in H by ring. exact H.
    - cbn [on_curve]. apply (chord_on_curve x y l 0); auto; [now apply tangent_a| |reflexivity]. unfold x3. apply eqm_eq; ring.
    - cbn [proj].
      assert (W : w == 2 * y * l * (Z * Z)).
      { unfold w. rewrite A2. replace (3 * (x * Z * (x * Z)) + a * (Z * Z)) with ((3 * x * x + a) * (Z * Z)) by ring.
        rewrite <- EL. apply eqm_eq; ring. }
      assert (S : s == y * y * (Z * Z * Z)) by (unfold s; rewrite A3; apply eqm_eq; ring).
      split; [|split].
      + rewrite A3. replace (8 * (y * Z * Z * (y * Z * Z) * (y * Z * Z))) with (8 * (y * Z * Z * (y * Z * Z) * (y * Z * Z))) by ring.
        apply eight_cube. auto using mul_nz.
      + rewrite W, S, A2, A3. unfold x3. apply eqm_eq; ring.
      + rewrite W, S, A2, A3. unfold y3, x3. apply eqm_eq; ring.
  Qed.
End Law.
