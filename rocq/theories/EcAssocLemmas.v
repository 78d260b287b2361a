(** Associativity of the chord-and-tangent law.

    Chords and tangents are treated alike: the slope l of two points that are not
    opposite is the l with l (x2 - x1) = y2 - y1 and
    l (y1 + y2) = x1^2 + x1 x2 + x2^2 + a.  If al is the slope of A, B and be that of
    B, C, then the slopes ga of A + B, C and de of A, B + C satisfy
    (al - be) (ga + al) = x_A - x_C = (al - be) (de + be). *)
From Coq Require Import ZArith Znumtheory Lia Setoid Morphisms.
From Verif Require Import Fermat EcSpec EcGroupLemmas ScaleLemmas EcLawLemmas.
Open Scope Z_scope.

Section Assoc.
  Variables (p a b : Z).
  Hypothesis Hp : prime p.
  Hypothesis H2 : p <> 2.
  Notation "x == y" := (eqm p x y) (at level 70).

  Lemma by0 z x y : z == 0 -> x - y = z -> x == y.
  Proof. intros H E. apply eqm_minus. rewrite E. exact H. Qed.
  Lemma z_add u v : u == 0 -> v == 0 -> u + v == 0.
  Proof. intros A B. rewrite A, B. apply eqm_eq; ring. Qed.
  Lemma z_mul c v : v == 0 -> c * v == 0.
  Proof. intros A. rewrite A. apply eqm_eq; ring. Qed.
  Lemma z_sub u v : u == v -> u - v == 0.
  Proof. intros A. rewrite A. apply eqm_eq; ring. Qed.
  Ltac comb e := apply (by0 e); [repeat first [assumption | apply z_sub; assumption | apply z_add | apply z_mul]|ring].

  Definition slope (l x1 y1 x2 y2 : Z) : Prop :=
    l * (x2 - x1) == y2 - y1 /\ l * (y1 + y2) == x1 * x1 + x1 * x2 + x2 * x2 + a.
  Definition opposite (x1 y1 x2 y2 : Z) : Prop := x1 == x2 /\ y1 == - y2.
  Definition third (l x1 y1 x2 y2 x3 y3 : Z) : Prop :=
    slope l x1 y1 x2 y2 /\ ~ opposite x1 y1 x2 y2 /\ x3 == l * l - x1 - x2 /\ y3 == l * (x1 - x3) - y1.

  Lemma opposite_sym x1 y1 x2 y2 : opposite x1 y1 x2 y2 -> opposite x2 y2 x1 y1.
  Proof. intros [A B]. split; [now symmetry|]. comb (y1 - - y2). Qed.
  Lemma slope_sym l x1 y1 x2 y2 : slope l x1 y1 x2 y2 -> slope l x2 y2 x1 y1.
  Proof. intros [A B]. split; [comb (-1 * (l * (x2 - x1) - (y2 - y1)))|comb (l * (y1 + y2) - (x1 * x1 + x1 * x2 + x2 * x2 + a))]. Qed.
  Lemma third_sym l x1 y1 x2 y2 x3 y3 : third l x1 y1 x2 y2 x3 y3 -> third l x2 y2 x1 y1 x3 y3.
  Proof.
    intros (A & N & B & C). split; [now apply slope_sym|]. split; [intros H; apply N; now apply opposite_sym|].
    destruct A as [A _]. split; [comb (x3 - (l * l - x1 - x2))|].
    comb ((y3 - (l * (x1 - x3) - y1)) + (-1) * (l * (x2 - x1) - (y2 - y1))).
  Qed.
  Lemma slope_unique l l' x1 y1 x2 y2 : ~ opposite x1 y1 x2 y2 -> slope l x1 y1 x2 y2 -> slope l' x1 y1 x2 y2 -> l == l'.
  Proof.
    intros N [A B] [A' B'].
    destruct (eqm_dec p x1 x2) as [E|E].
    - apply (cancel p Hp (y1 + y2)).
      + intros H. apply N. split; [exact E|]. comb (y1 + y2).
      + comb ((l * (y1 + y2) - (x1 * x1 + x1 * x2 + x2 * x2 + a)) + (-1) * (l' * (y1 + y2) - (x1 * x1 + x1 * x2 + x2 * x2 + a))).
    - apply (cancel p Hp (x2 - x1)).
      + intros H. apply E. comb (-1 * (x2 - x1)).
      + comb ((l * (x2 - x1) - (y2 - y1)) + (-1) * (l' * (x2 - x1) - (y2 - y1))).
  Qed.

  (** Every sum of affine points is one or the other. *)
  Lemma add_cases x1 y1 x2 y2 R : on_curve p a b (Aff x1 y1) -> on_curve p a b (Aff x2 y2) -> ec_add p a (Aff x1 y1) (Aff x2 y2) R ->
    (R = Inf /\ opposite x1 y1 x2 y2) \/ exists l x3 y3, R = Aff x3 y3 /\ third l x1 y1 x2 y2 x3 y3.
  Proof.
    intros C1 C2 H. cbn [on_curve] in C1, C2.
    inversion H as [| |? ? ? ? EX EY|? ? ? ? l x3 y3 NX EL E3 E4|? ? ? ? l x3 y3 EX EY NY EL E3 E4]; subst.
    - left. split; [reflexivity|]. split; assumption.
    - right. exists l, x3, y3. split; [reflexivity|]. split; [split; [exact EL|]|split; [intros [X _]; now apply NX|split; assumption]].
      apply (cancel p Hp (x2 - x1)).
      + intros X. apply NX. comb (-1 * (x2 - x1)).
      + comb ((y1 + y2) * (l * (x2 - x1) - (y2 - y1)) + ((y2 * y2 - (x2 * x2 * x2 + a * x2 + b)) + (-1) * (y1 * y1 - (x1 * x1 * x1 + a * x1 + b)))).
    - right. exists l, x3, y3. split; [reflexivity|]. split; [split|split; [intros [_ X]; now apply NY|split; assumption]].
      + comb ((- l) * (x1 - x2) + 1 * (y1 - y2)).
      + comb ((l * (2 * y1) - (3 * x1 * x1 + a)) + ((- l) * (y1 - y2) + (2 * x1 + x2) * (x1 - x2))).
  Qed.

  (** The heart: the slope of A + B and C. *)
  Lemma slope_sum al be ga x1 y1 x2 y2 x3 y3 xD yD :
    third al x1 y1 x2 y2 xD yD -> slope be x2 y2 x3 y3 -> slope ga xD yD x3 y3 -> ~ opposite xD yD x3 y3 ->
    (al - be) * (ga + al) == x1 - x3.
  Proof.
    intros ([A1 A2] & _ & DX & DY) [B1 B2] [G1 G2] N.
    assert (REL : (al - be) * (y1 + y3) == (x1 - x3) * (x1 + x2 + x3 - al * be)).
    { comb ((al * (y1 + y2) - (x1 * x1 + x1 * x2 + x2 * x2 + a)) + ((-1) * (be * (y2 + y3) - (x2 * x2 + x2 * x3 + x3 * x3 + a)) +
            ((-al) * (be * (x3 - x2) - (y3 - y2)) + (-be) * (al * (x2 - x1) - (y2 - y1))))). }
    destruct (eqm_dec p x3 xD) as [E|E].
    - assert (Y : y3 == yD) by comb ((-1) * (ga * (x3 - xD) - (y3 - yD)) + ga * (x3 - xD)).
      assert (NY : ~ 2 * y3 == 0).
      { intros X. apply N. split; [now symmetry|]. comb (2 * y3 + (-1) * (y3 - yD)). }
      assert (SIG : x1 + x2 + x3 == al * al) by comb ((x3 - xD) + 1 * (xD - (al * al - x1 - x2))).
      assert (ST : y1 + y3 == al * (x1 - x3)).
      { comb ((y3 - yD) + ((yD - (al * (x1 - xD) - y1)) + al * (x3 - xD))). }
      assert (Y3 : 2 * y3 == - ((al - be) * (x3 - x2))).
      { comb ((y1 + y3 - al * (x1 - x3)) + ((-1) * (be * (x3 - x2) - (y3 - y2)) + (-1) * (al * (x2 - x1) - (y2 - y1)))). }
      assert (T2 : 2 * y3 * ga == 3 * x3 * x3 + a).
      { comb ((ga * (yD + y3) - (xD * xD + xD * x3 + x3 * x3 + a)) + (ga * (y3 - yD) + (- (2 * x3 + xD)) * (x3 - xD))). }
      apply (cancel p Hp (2 * y3) _ _ NY).
      comb ((al - be) * (2 * y3 * ga - (3 * x3 * x3 + a)) +
            ((al - be) * (-1) * (be * (y2 + y3) - (x2 * x2 + x2 * x3 + x3 * x3 + a)) +
            ((al - be) * be * (be * (x3 - x2) - (y3 - y2)) +
            ((be * be - x2 - 2 * x3) * (-1) * (2 * y3 - - ((al - be) * (x3 - x2))) +
             2 * y3 * (-1) * (x1 + x2 + x3 - al * al))))).
    - apply (cancel p Hp (x3 - xD)).
      + intros X. apply E. comb (x3 - xD).
      + assert (S1 : (x3 - xD) * (ga + al) == (y1 + y3) - al * (x1 - x3)).
        { comb ((ga * (x3 - xD) - (y3 - yD)) + (-1) * (yD - (al * (x1 - xD) - y1))). }
        comb ((al - be) * ((x3 - xD) * (ga + al) - ((y1 + y3) - al * (x1 - x3))) +
              (((al - be) * (y1 + y3) - (x1 - x3) * (x1 + x2 + x3 - al * be)) +
               (x1 - x3) * (xD - (al * al - x1 - x2)))).
  Qed.

  Lemma assoc_affine al be ga de x1 y1 x2 y2 x3 y3 xD yD xE yE xS yS xT yT :
    third al x1 y1 x2 y2 xD yD -> third be x2 y2 x3 y3 xE yE -> third ga xD yD x3 y3 xS yS -> third de x1 y1 xE yE xT yT ->
    xS == xT /\ yS == yT.
  Proof.
    intros TA TB TG TD.
    pose proof (slope_sum al be ga _ _ _ _ _ _ _ _ TA (proj1 TB) (proj1 TG) (proj1 (proj2 TG))) as G.
    pose proof (slope_sum be al de _ _ _ _ _ _ _ _ (third_sym _ _ _ _ _ _ _ TB) (slope_sym _ _ _ _ _ (proj1 TA))
      (slope_sym _ _ _ _ _ (proj1 TD)) (fun X => proj1 (proj2 TD) (opposite_sym _ _ _ _ X))) as D.
    destruct TA as ([A1 A2] & NA & A3 & A4), TB as ([B1 B2] & NB & B3 & B4).
    destruct (eqm_dec p al be) as [E|E].
    - assert (X13 : x1 == x3) by comb ((-1) * ((al - be) * (ga + al) - (x1 - x3)) + (ga + al) * (al - be)).
      assert (Y13 : y1 == y3).
      { comb ((al * (x2 - x1) - (y2 - y1)) + ((be * (x3 - x2) - (y3 - y2)) + (al * (x1 - x3) + (x3 - x2) * (al - be)))). }
      assert (XDE : xD == xE).
      { comb ((xD - (al * al - x1 - x2)) + ((-1) * (xE - (be * be - x2 - x3)) + ((al + be) * (al - be) + (-1) * (x1 - x3)))). }
      assert (YDE : yD == yE).
      { comb ((yD - (al * (x1 - xD) - y1)) + ((-1) * (yE - (be * (x2 - xE) - y2)) + ((x1 - xD) * (al - be) +
          ((- be) * (xD - xE) + (be * (x3 - x2) - (y3 - y2) + (be * (x1 - x3) + (-1) * (y1 - y3))))))). }
      destruct TG as ([G1 G2] & NG & G3 & G4), TD as ([D1 D2] & ND & D3 & D4).
      assert (SL : ga == de).
      { apply (slope_unique ga de xD yD x3 y3 NG); [split; assumption|]. split.
        - comb ((-1) * (de * (xE - x1) - (yE - y1)) + ((-de) * (x1 - x3) + ((-de) * (xD - xE) + ((y1 - y3) + (yD - yE))))).
        - comb ((de * (y1 + yE) - (x1 * x1 + x1 * xE + xE * xE + a)) + ((-de) * (y1 - y3) + (de * (yD - yE) +
            ((x1 + x3 + xE) * (x1 - x3) + (- (xD + xE + x3)) * (xD - xE))))). }
      assert (XST : xS == xT).
      { comb ((xS - (ga * ga - xD - x3)) + ((-1) * (xT - (de * de - x1 - xE)) + ((ga + de) * (ga - de) + ((-1) * (xD - xE) + (x1 - x3))))). }
      split; [exact XST|].
      comb ((yS - (ga * (xD - xS) - yD)) + ((-1) * (yT - (de * (x1 - xT) - y1)) + ((x1 - xT) * (ga - de) + ((-ga) * (xS - xT) +
        ((-ga) * (x1 - x3) + ((-1) * (ga * (x3 - xD) - (y3 - yD)) + (y1 - y3))))))).
    - assert (NE : ~ al - be == 0) by (intros X; apply E; comb (al - be)).
      assert (K : ga + al == de + be).
      { apply (cancel p Hp (al - be) _ _ NE).
        comb (((al - be) * (ga + al) - (x1 - x3)) + ((be - al) * (de + be) - (x3 - x1))). }
      destruct TG as ([G1 G2] & NG & G3 & G4), TD as ([D1 D2] & ND & D3 & D4).
      assert (XST : xS == xT).
      { comb ((xS - (ga * ga - xD - x3)) + ((-1) * (xT - (de * de - x1 - xE)) + ((-1) * (xD - (al * al - x1 - x2)) + ((xE - (be * be - x2 - x3)) +
          ((ga + al + de + be - 2 * al) * (ga + al - (de + be)) + 2 * ((be - al) * (de + be) - (x3 - x1))))))). }
      split; [exact XST|].
      comb ((yS - (ga * (xD - xS) - yD)) + ((-1) * (yT - (de * (x1 - xT) - y1)) + ((-1) * (ga * (x3 - xD) - (y3 - yD)) + ((- ga) * (xS - xT) +
        ((al * (x2 - x1) - (y2 - y1)) + ((be * (x3 - x2) - (y3 - y2)) + ((x3 - xT) * (ga + al - (de + be)) +
        ((al - be) * (xT - (de * de - x1 - xE)) + ((- (al - be)) * (xE - (be * be - x2 - x3)) +
         (- (de - be)) * ((be - al) * (de + be) - (x3 - x1))))))))))).
  Qed.

  Lemma third_add l x1 y1 x2 y2 x3 y3 : third l x1 y1 x2 y2 x3 y3 -> ec_add p a (Aff x1 y1) (Aff x2 y2) (Aff x3 y3).
  Proof.
    intros ([A B] & N & C & D). destruct (eqm_dec p x1 x2) as [E|E].
    - assert (Y : y1 == y2) by comb ((l * (x2 - x1) - (y2 - y1)) + l * (x1 - x2)).
      apply (add_tangent p a x1 y1 x2 y2 l); auto.
      + intros X. apply N. now split.
      + comb ((l * (y1 + y2) - (x1 * x1 + x1 * x2 + x2 * x2 + a)) + (l * (y1 - y2) + (- (2 * x1 + x2)) * (x1 - x2))).
    - apply (add_chord p a x1 y1 x2 y2 l); auto.
  Qed.
  Lemma third_det l l' x1 y1 x2 y2 x3 y3 x1' y1' x2' y2' x3' y3' :
    third l x1 y1 x2 y2 x3 y3 -> third l' x1' y1' x2' y2' x3' y3' -> x1 == x1' -> y1 == y1' -> x2 == x2' -> y2 == y2' -> x3 == x3' /\ y3 == y3'.
  Proof.
    intros A B E1 E2 E3 E4.
    exact (ec_add_det p a Hp H2 _ _ _ _ _ _ (third_add _ _ _ _ _ _ _ A) (third_add _ _ _ _ _ _ _ B) (conj E1 E2) (conj E3 E4)).
  Qed.

  (** No singular point; a curve without points of order 2 has none. *)
  Hypothesis NonSing : forall x, x * x * x + a * x + b == 0 -> ~ 3 * x * x + a == 0.

  (** If B = -A then A + (B + C) = C. *)
  Lemma cancellation be x1 y1 x2 y2 x3 y3 xE yE : on_curve p a b (Aff x1 y1) -> opposite x1 y1 x2 y2 ->
    third be x2 y2 x3 y3 xE yE -> third (- be) x1 y1 xE yE x3 y3.
  Proof.
    intros C1 [O1 O2] ([B1 B2] & N & E1 & E2). cbn [on_curve] in C1.
    assert (YE : yE == be * (x1 - xE) + y1).
    { comb ((yE - (be * (x2 - xE) - y2)) + ((- be) * (x1 - x2) + (-1) * (y1 - - y2))). }
    assert (XE : be * be == xE + x1 + x3) by comb ((-1) * (xE - (be * be - x2 - x3)) + (-1) * (x1 - x2)).
    assert (T1 : be * (x3 - x1) == y3 + y1).
    { comb ((be * (x3 - x2) - (y3 - y2)) + ((-1) * (y1 - - y2) + (- be) * (x1 - x2))). }
    assert (T2 : be * (y3 - y1) == x1 * x1 + x1 * x3 + x3 * x3 + a).
    { comb ((be * (y2 + y3) - (x2 * x2 + x2 * x3 + x3 * x3 + a)) + ((- be) * (y1 - - y2) + (- (x1 + x2 + x3)) * (x1 - x2))). }
    assert (S1 : - be * (xE - x1) == yE - y1) by comb ((-1) * (yE - (be * (x1 - xE) + y1))).
    assert (S2 : - be * (y1 + yE) == x1 * x1 + x1 * xE + xE * xE + a).
    { comb ((be * (y3 - y1) - (x1 * x1 + x1 * x3 + x3 * x3 + a)) + (be * (be * (x3 - x1) - (y3 + y1)) + ((- be) * (yE - (be * (x1 - xE) + y1)) +
        (xE - x3) * (be * be - (xE + x1 + x3))))). }
    split; [split; assumption|]. split; [|split].
    - intros [X Y].
      assert (Y1 : 2 * y1 == 0).
      { comb ((y1 - - yE) + ((-1) * (yE - (be * (x1 - xE) + y1)) + (- be) * (x1 - xE))). }
      apply (double0 p Hp H2) in Y1.
      apply (NonSing x1).
      + comb ((-1) * (y1 * y1 - (x1 * x1 * x1 + a * x1 + b)) + y1 * y1).
      + comb ((-1) * (- be * (y1 + yE) - (x1 * x1 + x1 * xE + xE * xE + a)) + ((- be) * (y1 - - yE) + (2 * x1 + xE) * (x1 - xE))).
    - comb ((-1) * (be * be - (xE + x1 + x3))).
    - comb ((-1) * (be * (x3 - x1) - (y3 + y1))).
  Qed.

  (** If C = -(A + B) then B + C = -A. *)
  Lemma cancellation_opp al be x1 y1 x2 y2 x3 y3 xD yD xE yE : on_curve p a b (Aff x2 y2) ->
    third al x1 y1 x2 y2 xD yD -> opposite xD yD x3 y3 -> third be x2 y2 x3 y3 xE yE -> opposite x1 y1 xE yE.
  Proof.
    intros C2 TA [O1 O2] TB.
    assert (TN : third (- al) x2 (- y2) x1 (- y1) xD (- yD)).
    { apply third_sym in TA. destruct TA as ([A1 A2] & N & A3 & A4). split; [split|split; [|split]].
      - comb ((-1) * (al * (x1 - x2) - (y1 - y2))).
      - comb (al * (y2 + y1) - (x2 * x2 + x2 * x1 + x1 * x1 + a)).
      - intros [X Y]. apply N. split; [exact X|]. comb ((-1) * (- y2 - - - y1)).
      - comb (xD - (al * al - x2 - x1)).
      - comb ((-1) * (yD - (al * (x2 - xD) - y2))). }
    pose proof (cancellation (- al) x2 y2 x2 (- y2) x1 (- y1) xD (- yD) C2 (conj (eqm_eq p _ _ eq_refl) (eqm_eq p _ _ (eq_sym (Z.opp_involutive y2)))) TN) as TC.
    destruct (third_det _ _ _ _ _ _ _ _ _ _ _ _ _ _ TC TB) as [X Y]; try (apply eqm_eq; reflexivity); try assumption.
    - comb ((-1) * (yD - - y3)).
    - split; [exact X|]. comb ((-1) * (- y1 - yE)).
  Qed.

  Lemma add_Inf_l Q R : ec_add p a Inf Q R -> R = Q.
  Proof. intros H. inversion H; reflexivity. Qed.
  Lemma add_Inf_r P R : ec_add p a P Inf R -> R = P.
  Proof. intros H. inversion H; reflexivity. Qed.
  Lemma third_on l x1 y1 x2 y2 x3 y3 : on_curve p a b (Aff x1 y1) -> third l x1 y1 x2 y2 x3 y3 -> on_curve p a b (Aff x3 y3).
  Proof.
    cbn [on_curve]. intros C ([A B] & N & X & Y).
    assert (Q : l * (2 * y1) + l * l * (x2 - x1) == x1 * x1 + x1 * x2 + x2 * x2 + a).
    { comb ((l * (y1 + y2) - (x1 * x1 + x1 * x2 + x2 * x2 + a)) + l * (l * (x2 - x1) - (y2 - y1))). }
    assert (YY : y3 * y3 == (l * (x1 - x3) - y1) * (l * (x1 - x3) - y1)) by (rewrite Y; reflexivity).
    comb ((y3 * y3 - (l * (x1 - x3) - y1) * (l * (x1 - x3) - y1)) + ((y1 * y1 - (x1 * x1 * x1 + a * x1 + b)) +
      ((x3 - x1) * (l * (2 * y1) + l * l * (x2 - x1) - (x1 * x1 + x1 * x2 + x2 * x2 + a)) +
       (- ((x3 - x1) * (x3 - x2))) * (x3 - (l * l - x1 - x2))))).
  Qed.

  Theorem ec_assoc : ec_associative p a b.
  Proof.
    intros P Q R PQ QR S1 S2 CP CQ CR E1 E3 E2 E4.
    destruct P as [|x1 y1].
    { apply add_Inf_l in E1, E4. subst. apply (ec_add_det p a Hp H2 Q R S1 Q R QR E3 E2); apply pt_eq_refl. }
    destruct Q as [|x2 y2].
    { apply add_Inf_r in E1. apply add_Inf_l in E2. subst. apply (ec_add_det p a Hp H2 _ R S1 _ R S2 E3 E4); apply pt_eq_refl. }
    destruct R as [|x3 y3].
    { apply add_Inf_r in E3, E2. subst. apply (ec_add_det p a Hp H2 _ _ _ _ _ _ E1 E4); apply pt_eq_refl. }
    destruct (add_cases _ _ _ _ _ CP CQ E1) as [[-> O1]|(al & xD & yD & -> & TA)];
    destruct (add_cases _ _ _ _ _ CQ CR E2) as [[-> O2]|(be & xE & yE & -> & TB)].
    - apply add_Inf_l in E3. apply add_Inf_r in E4. subst. destruct O1 as [U1 U2], O2 as [V1 V2]. split.
      + comb ((-1) * (x1 - x2) + (-1) * (x2 - x3)).
      + comb ((-1) * (y1 - - y2) + (y2 - - y3)).
    - apply add_Inf_l in E3. subst. pose proof (third_add _ _ _ _ _ _ _ (cancellation _ _ _ _ _ _ _ _ _ CP O1 TB)) as X.
      apply (ec_add_det p a Hp H2 _ _ _ _ _ _ X E4); apply pt_eq_refl.
    - apply add_Inf_r in E4. subst.
      pose proof (third_add _ _ _ _ _ _ _ (cancellation _ _ _ _ _ _ _ _ _ CR (opposite_sym _ _ _ _ O2) (third_sym _ _ _ _ _ _ _ TA))) as X.
      apply (ec_add_det p a Hp H2 _ _ _ _ _ _ (ec_add_comm p a _ _ _ E3) X); apply pt_eq_refl.
    - pose proof (third_on _ _ _ _ _ _ _ CP TA) as CD. pose proof (third_on _ _ _ _ _ _ _ CQ TB) as CE.
      destruct (add_cases _ _ _ _ _ CD CR E3) as [[-> O3]|(ga & xS & yS & -> & TG)];
      destruct (add_cases _ _ _ _ _ CP CE E4) as [[-> O4]|(de & xT & yT & -> & TD)].
      + exact I.
      + exfalso. apply (proj1 (proj2 TD)). exact (cancellation_opp _ _ _ _ _ _ _ _ _ _ _ _ CQ TA O3 TB).
      + exfalso. apply (proj1 (proj2 TG)). apply opposite_sym.
        exact (cancellation_opp _ _ _ _ _ _ _ _ _ _ _ _ CQ (third_sym _ _ _ _ _ _ _ TB) (opposite_sym _ _ _ _ O4) (third_sym _ _ _ _ _ _ _ TA)).
      + exact (assoc_affine _ _ _ _ _ _ _ _ _ _ _ _ _ _ _ _ _ _ TA TB TG TD).
  Qed.
End Assoc.
