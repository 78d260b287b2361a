(** The ladder of RFC 7748 multiplies: its output is the u-coordinate of k P, through the
    birational map u = e (1 + y) / (1 - y) from a complete Edwards curve. *)
From Coq Require Import ZArith Znumtheory Lia Setoid Morphisms.
From Verif Require Import Base Fermat EcSpec EcGroupLemmas EdSpec EdCert EdGroupLemmas ScaleLemmas EdScaleLemmas EdCompleteLemmas MtSpec.
Open Scope Z_scope.

Section Ladder.
  Variables (p a d1 d2 ep a24 : Z).
  Hypothesis Hp : prime p.
  Hypothesis H2 : p <> 2.
  Hypothesis HC : ed_complete p a d1 d2.
  Notation "x == y" := (eqm p x y) (at level 70).
  Hypothesis Hep : (ep = 1 /\ a24 * (a * d2 - d1) == d1) \/ (ep = -1 /\ a24 * (d1 - a * d2) == a * d2).
  Notation dd := (dd p d1 d2).
  Notation On := (on p a d1 d2).
  Notation Add := (ed_add p a d1 d2).
  Notation OnE := (ed_on p a d1 d2).

  Lemma two_nz : ~ 2 == 0.
  Proof. intros E. apply (one_nz p Hp H2). apply (double0 p Hp H2). exact E. Qed.
  Lemma kap_nz : ~ a - dd == 0.
  Proof.
    intros E. destruct HC as (_ & (s & Hs) & _). apply (dd_nonsquare p a d1 d2 Hp H2 HC s).
    rewrite <- Hs. symmetry. now apply eqm_minus.
  Qed.
  Lemma Kap_nz y : ~ a - dd * (y * y) == 0.
  Proof.
    intros E. destruct HC as (_ & (s & Hs) & Na & _). apply eqm_minus in E.
    destruct (eqm_dec p y 0) as [Y|Y]; [apply Na; rewrite E, Y; apply eqm_eq; ring|].
    apply (nz_ratio p a d1 d2 Hp H2 HC y s Y). rewrite <- E. exact Hs.
  Qed.
  Lemma a24_dd : (ep = 1 /\ a24 * (a - dd) == dd) \/ (ep = -1 /\ a24 * (dd - a) == a).
  Proof.
    assert (N : ~ d2 == 0) by apply HC.
    destruct Hep as [[E H]|[E H]]; [left|right]; (split; [exact E|]); rewrite <- (dd_spec p a d1 d2 Hp H2 HC) in H.
    - apply (cancel p Hp d2 _ _ N). rewrite <- H. apply eqm_eq; ring.
    - apply (cancel p Hp d2 _ _ N). rewrite (Z.mul_comm d2 a), <- H. apply eqm_eq; ring.
  Qed.
  Lemma ep_sq : ep * ep = 1. Proof. destruct Hep as [[-> _]|[-> _]]; reflexivity. Qed.
  Lemma on_K x y : On x y -> x * x * (a - dd * (y * y)) == 1 - y * y.
  Proof.
    intros C. unfold on in C. replace (x * x * (a - dd * (y * y))) with (a * (x * x) + y * y - y * y - dd * (x * x * (y * y))) by ring.
    rewrite C. apply eqm_eq; ring.
  Qed.

  (** (X : Z) is a multiple of (1 + y : e (1 - y)) *)
  Definition urep (X Z y : Z) : Prop := exists l, ~ l == 0 /\ X == l * (1 + y) /\ Z == l * (ep * (1 - y)).
  Lemma urep_eqm X Z y X' Z' y' : X == X' -> Z == Z' -> y == y' -> urep X Z y -> urep X' Z' y'.
  Proof. intros A B C (l & N & E & F). exists l. split; [exact N|]. rewrite <- A, <- B, <- C. now split. Qed.
  Lemma urep_cross X Z y : X * (ep * (1 - y)) == Z * (1 + y) -> ~ (X == 0 /\ Z == 0) -> urep X Z y.
  Proof.
    intros E N. destruct (div_ex p 0 Hp H2 2 (X + ep * Z) two_nz) as (l & Hl).
    assert (E' : X * (1 - y) == ep * (Z * (1 + y))).
    { rewrite <- E. apply eqm_eq. replace (ep * (X * (ep * (1 - y)))) with (ep * ep * (X * (1 - y))) by ring. rewrite ep_sq. ring. }
    assert (A1 : X == l * (1 + y)).
    { apply (cancel p Hp 2 _ _ two_nz). replace (2 * (l * (1 + y))) with (l * 2 * (1 + y)) by ring. rewrite Hl.
      replace (2 * X) with (X * (1 + y) + X * (1 - y)) by ring. rewrite E'. apply eqm_eq; ring. }
    assert (A2 : Z == l * (ep * (1 - y))).
    { apply (cancel p Hp 2 _ _ two_nz). replace (2 * (l * (ep * (1 - y)))) with (l * 2 * (ep * (1 - y))) by ring. rewrite Hl.
      replace ((X + ep * Z) * (ep * (1 - y))) with (ep * (X * (1 - y)) + ep * ep * Z * (1 - y)) by ring. rewrite E', ep_sq.
      replace (ep * (ep * (Z * (1 + y))) + 1 * Z * (1 - y)) with (ep * ep * (Z * (1 + y)) + Z * (1 - y)) by ring. rewrite ep_sq. apply eqm_eq; ring. }
    exists l. split; [|split; assumption]. intros L. apply N. rewrite A1, A2, L. split; apply eqm_eq; ring.
  Qed.

  (** doubling *)
  Lemma dbl_u X Z x y x3 y3 : On x y -> Add (x, y) (x, y) (x3, y3) -> urep X Z y ->
    let AA := (X + Z) * (X + Z) in let BB := (X - Z) * (X - Z) in let E := AA - BB in
    urep (AA * BB) (E * (AA + a24 * E)) y3.
  Proof.
    intros C S (l & Nl & EX & EZ).
    apply (proj1 (add_iff p a d1 d2 Hp H2 HC _ _ _ _ _ _ C C)) in S. destruct S as [_ S].
    pose proof (edQ_nz p a d1 d2 Hp H2 HC _ _ _ _ C C) as NQ. unfold edQ in S, NQ. unfold edM in S.
    pose proof (on_K _ _ C) as OK. pose proof (Kap_nz y) as NK. pose proof kap_nz as Nk.
    destruct (div_ex p 0 Hp H2 (a - dd) 1 Nk) as (ki & Hki).
    set (K := a - dd * (y * y)) in *. set (W := 1 - dd * (x * x * (y * y))) in *.
    assert (KW : K * W == K - dd * (y * y) * (1 - y * y)).
    { unfold W. replace (K * (1 - dd * (x * x * (y * y)))) with (K - dd * (y * y) * (x * x * K)) by ring. rewrite OK. reflexivity. }
    assert (KV : K * (y3 * W) == y * y * K - a * (1 - y * y)).
    { rewrite S. replace (K * (y * y - a * (x * x))) with (y * y * K - a * (x * x * K)) by ring. rewrite OK. reflexivity. }
    assert (S1 : K * W * (1 + y3) == 2 * (a - dd) * (y * y)).
    { replace (K * W * (1 + y3)) with (K * W + K * (y3 * W)) by ring. rewrite KW, KV. apply eqm_eq. unfold K. ring. }
    assert (S2 : K * W * (1 - y3) == 2 * ((1 - y * y) * K)).
    { replace (K * W * (1 - y3)) with (K * W - K * (y3 * W)) by ring. rewrite KW, KV. apply eqm_eq. unfold K. ring. }
    assert (L : urep (16 * (l * l * l * l) * (y * y)) (ep * (16 * (l * l * l * l) * ((1 - y * y) * K * ki))) y3).
    { exists (8 * (l * l * l * l) * (K * W) * ki). split; [|split].
      - assert (N8 : ~ 8 == 0). { replace 8 with (2 * (2 * 2)) by reflexivity. pose proof two_nz. repeat apply (mul_nz p Hp); assumption. }
        assert (Nki : ~ ki == 0). { intros Z0. apply (one_nz p Hp H2). rewrite <- Hki, Z0. apply eqm_eq; ring. }
        repeat apply (mul_nz p Hp); assumption.
      - replace (8 * (l * l * l * l) * (K * W) * ki * (1 + y3)) with (8 * (l * l * l * l) * ki * (K * W * (1 + y3))) by ring. rewrite S1.
        replace (8 * (l * l * l * l) * ki * (2 * (a - dd) * (y * y))) with (16 * (l * l * l * l) * (y * y) * (ki * (a - dd))) by ring. rewrite Hki. apply eqm_eq; ring.
      - replace (8 * (l * l * l * l) * (K * W) * ki * (ep * (1 - y3))) with (8 * (l * l * l * l) * ki * ep * (K * W * (1 - y3))) by ring. rewrite S2. apply eqm_eq; ring. }
    apply (urep_eqm _ _ y3) with (4 := L); [| |reflexivity].
    - rewrite EX, EZ. apply eqm_eq. destruct Hep as [[-> _]|[-> _]]; ring.
    - rewrite EX, EZ. destruct a24_dd as [[-> H]|[-> H]].
      + assert (KK : K * ki == 1 + a24 * (1 - y * y)).
        { replace K with ((a - dd) + dd * (1 - y * y)) by (unfold K; ring). rewrite <- H at 2.
          replace ((a - dd + a24 * (a - dd) * (1 - y * y)) * ki) with (ki * (a - dd) * (1 + a24 * (1 - y * y))) by ring. rewrite Hki. apply eqm_eq; ring. }
        replace (1 * (16 * (l * l * l * l) * ((1 - y * y) * K * ki))) with (16 * (l * l * l * l) * (1 - y * y) * (K * ki)) by ring. rewrite KK. apply eqm_eq; ring.
      + assert (KK : K * ki == y * y - a24 * (1 - y * y)).
        { replace K with ((a - dd) * (y * y) + a * (1 - y * y)) by (unfold K; ring). rewrite <- H at 2.
          replace (((a - dd) * (y * y) + a24 * (dd - a) * (1 - y * y)) * ki) with (ki * (a - dd) * (y * y - a24 * (1 - y * y))) by ring. rewrite Hki. apply eqm_eq; ring. }
        replace (-1 * (16 * (l * l * l * l) * ((1 - y * y) * K * ki))) with (-16 * (l * l * l * l) * (1 - y * y) * (K * ki)) by ring. rewrite KK. apply eqm_eq; ring.
  Qed.

  (** the heart of the differential addition *)
  Lemma diff_identity x1 y1 x2 y2 : On x1 y1 -> On x2 y2 ->
    (y1 + y2) * (y1 + y2) * ((edQ dd x1 y1 x2 y2 - edM a x1 y1 x2 y2) * (edQ dd x1 y1 (- x2) y2 - edM a x1 y1 (- x2) y2)) ==
    (y1 - y2) * (y1 - y2) * ((edQ dd x1 y1 x2 y2 + edM a x1 y1 x2 y2) * (edQ dd x1 y1 (- x2) y2 + edM a x1 y1 (- x2) y2)).
  Proof.
    intros C1 C2. pose proof (on_K _ _ C1) as K1. pose proof (on_K _ _ C2) as K2.
    set (U1 := a - dd * (y1 * y1)) in *. set (U2 := a - dd * (y2 * y2)) in *.
    apply (cancel p Hp (U1 * U2)); [apply (mul_nz p Hp); apply Kap_nz|].
    assert (KK : x1 * x2 * (x1 * x2) * (U1 * U2) == (1 - y1 * y1) * (1 - y2 * y2)).
    { replace (x1 * x2 * (x1 * x2) * (U1 * U2)) with (x1 * x1 * U1 * (x2 * x2 * U2)) by ring. now rewrite K1, K2. }
    unfold edQ, edM. set (t := y1 * y2). set (s := x1 * x2) in *.
    transitivity ((y1 + y2) * (y1 + y2) * ((1 - t) * (1 - t) * (U1 * U2) - (a - dd * t) * (a - dd * t) * (s * s * (U1 * U2)))).
    { apply eqm_eq. unfold s, t. ring. }
    transitivity ((y1 - y2) * (y1 - y2) * ((1 + t) * (1 + t) * (U1 * U2) - (a + dd * t) * (a + dd * t) * (s * s * (U1 * U2)))).
    2: { apply eqm_eq. unfold s, t. ring. }
    rewrite KK. apply eqm_eq. unfold U1, U2, t. ring.
  Qed.
  Lemma on_neg x y : On x y -> On (- x) y.
  Proof. unfold on. intros C. replace (- x * - x) with (x * x) by ring. exact C. Qed.

  Lemma diff_u X2 Z2 X3 Z3 U x1 y1 x2 y2 xs ys xd yd : On x1 y1 -> On x2 y2 ->
    Add (x1, y1) (x2, y2) (xs, ys) -> Add (x1, y1) (- x2, y2) (xd, yd) ->
    ~ U == 0 -> ~ 1 - yd == 0 -> U * (ep * (1 - yd)) == 1 + yd ->
    urep X2 Z2 y1 -> urep X3 Z3 y2 ->
    let DA := (X3 - Z3) * (X2 + Z2) in let CB := (X3 + Z3) * (X2 - Z2) in
    urep ((DA + CB) * (DA + CB)) (U * ((DA - CB) * (DA - CB))) ys.
  Proof.
    intros C1 C2 S D NU Nd HU (l & Nl & EX2 & EZ2) (m & Nm & EX3 & EZ3). cbv zeta.
    apply (proj1 (add_iff p a d1 d2 Hp H2 HC _ _ _ _ _ _ C1 C2)) in S. destruct S as [_ S].
    apply (proj1 (add_iff p a d1 d2 Hp H2 HC _ _ _ _ _ _ C1 (on_neg _ _ C2))) in D. destruct D as [_ D].
    pose proof (edQ_nz p a d1 d2 Hp H2 HC _ _ _ _ C1 C2) as NS. pose proof (edQ_nz p a d1 d2 Hp H2 HC _ _ _ _ C1 (on_neg _ _ C2)) as ND.
    pose proof (diff_identity x1 y1 x2 y2 C1 C2) as I.
    assert (Z0 : y1 == 0 -> y2 == 0 -> False).
    { intros Y1 Y2. pose proof (on_K _ _ C1) as K1. pose proof (on_K _ _ C2) as K2. unfold edQ, edM in D. rewrite Y1, Y2 in *.
      assert (E1 : yd == a * (x1 * x2)). { replace yd with (yd * (1 - dd * (x1 * - x2 * (0 * 0)))) by ring. rewrite D. apply eqm_eq; ring. }
      assert (E2 : (1 - yd) * (1 + yd) == 0).
      { replace ((1 - yd) * (1 + yd)) with (1 - yd * yd) by ring. rewrite E1.
        replace (1 - a * (x1 * x2) * (a * (x1 * x2))) with (1 - x1 * x1 * (a - dd * (0 * 0)) * (x2 * x2 * (a - dd * (0 * 0)))) by ring. rewrite K1, K2. apply eqm_eq; ring. }
      apply (mul0 p Hp) in E2. destruct E2 as [E2|E2]; [tauto|]. rewrite E2 in HU. apply NU.
      apply (mul0 p Hp) in HU. destruct HU as [HU|HU]; [exact HU|]. exfalso. apply (mul0 p Hp) in HU. destruct HU as [HU|HU]; [|tauto].
      apply (one_nz p Hp H2). rewrite <- ep_sq, HU. apply eqm_eq; ring. }
    set (QS := edQ dd x1 y1 x2 y2) in *. set (QD := edQ dd x1 y1 (- x2) y2) in *.
    set (MS := edM a x1 y1 x2 y2) in *. set (MD := edM a x1 y1 (- x2) y2) in *. clearbody QS QD MS MD.
    rewrite <- S, <- D in I.
    assert (I' : (y1 + y2) * (y1 + y2) * ((1 - ys) * (1 - yd)) == (y1 - y2) * (y1 - y2) * ((1 + ys) * (1 + yd))).
    { apply (cancel p Hp (QS * QD)); [now apply (mul_nz p Hp)|].
      etransitivity; [|etransitivity; [exact I|]]; apply eqm_eq; ring. }
    assert (T : urep (16 * (l * l) * (m * m) * ((y1 + y2) * (y1 + y2))) (U * (16 * (l * l) * (m * m) * ((y1 - y2) * (y1 - y2)))) ys).
    { apply urep_cross.
      - apply (cancel p Hp (1 - yd)); [exact Nd|].
        replace ((1 - yd) * (16 * (l * l) * (m * m) * ((y1 + y2) * (y1 + y2)) * (ep * (1 - ys)))) with (16 * (l * l) * (m * m) * ep * ((y1 + y2) * (y1 + y2) * ((1 - ys) * (1 - yd)))) by ring.
        rewrite I'. rewrite <- HU.
        replace (16 * (l * l) * (m * m) * ep * ((y1 - y2) * (y1 - y2) * ((1 + ys) * (U * (ep * (1 - yd)))))) with
          (ep * ep * (16 * (l * l) * (m * m) * ((y1 - y2) * (y1 - y2) * ((1 + ys) * (U * (1 - yd)))))) by ring. rewrite ep_sq. apply eqm_eq; ring.
      - assert (N16 : ~ 16 == 0). { replace 16 with (2 * (2 * (2 * 2))) by reflexivity. pose proof two_nz. repeat apply (mul_nz p Hp); assumption. }
        assert (NN : ~ 16 * (l * l) * (m * m) == 0) by (repeat apply (mul_nz p Hp); assumption).
        intros [A B]. apply (mul0 p Hp) in A. destruct A as [A|A]; [tauto|]. apply (mul0 p Hp) in B. destruct B as [B|B]; [tauto|].
        apply (mul0 p Hp) in B. destruct B as [B|B]; [tauto|].
        assert (A' : y1 + y2 == 0) by (apply (mul0 p Hp) in A; tauto). assert (B' : y1 - y2 == 0) by (apply (mul0 p Hp) in B; tauto).
        apply Z0; apply (double0 p Hp H2).
        + replace (2 * y1) with (y1 + y2 + (y1 - y2)) by ring. rewrite A', B'. now apply eqm_eq.
        + replace (2 * y2) with (y1 + y2 - (y1 - y2)) by ring. rewrite A', B'. now apply eqm_eq. }
    apply (urep_eqm _ _ ys) with (4 := T); [| |reflexivity].
    - rewrite EX2, EZ2, EX3, EZ3. apply eqm_eq. destruct Hep as [[-> _]|[-> _]]; ring.
    - rewrite EX2, EZ2, EX3, EZ3. apply eqm_eq. destruct Hep as [[-> _]|[-> _]]; ring.
  Qed.

  (** the ladder *)
  Notation vop := (eop p a d1 d2). Notation ok := (evalid p a d1 d2).
  Notation mulB := (smul epoint vop (0, 1)).
  Variables (B : epoint) (U : Z).
  Hypothesis VB : ok B.
  Hypothesis NB : ~ 1 - snd B == 0.
  Hypothesis NU : ~ U == 0.
  Hypothesis HU : U * (ep * (1 - snd B)) == 1 + snd B.

  Lemma mulB_V j : ok (mulB j B).
  Proof. apply (smul_V epoint vop (0, 1) ok); auto; [now apply id_valid|]. intros; now apply eop_valid. Qed.
  Lemma mulB_add j k : mulB (j + k) B = vop (mulB j B) (mulB k B).
  Proof.
    apply (smul_add epoint vop (0, 1) ok); auto; [now apply id_valid| | | | ].
    - intros; now apply eop_valid.
    - intros; now apply eop_id.
    - intros; now apply eop_comm.
    - intros; now apply eop_assoc.
  Qed.
  Definition neg (P : epoint) : epoint := ((- fst P) mod p, snd P).
  Lemma neg_V P : ok P -> ok (neg P).
  Proof.
    destruct P as [x y]. intros [A [C D]]. pose proof (prime_ge_2 p Hp). split; [|split; cbn; [apply Z.mod_pos_bound; lia|exact D]].
    apply (on_iff p a d1 d2 Hp H2 HC). cbn. apply (proj1 (on_iff p a d1 d2 Hp H2 HC _ _)) in A. apply on_neg in A.
    unfold on in *. rewrite (mod_eqm p Hp H2 (- x)). exact A.
  Qed.
  Lemma neg_sum P : ok P -> vop P (neg P) = (0, 1).
  Proof.
    intros V. destruct (neg_V P V) as [VN _]. destruct V as [V _]. apply (eop_eq p a d1 d2 Hp H2 HC); [exact V|exact VN|split; cbn; pose proof (prime_ge_2 p Hp); lia|].
    destruct P as [x y]. cbn [neg fst snd] in *. 
    apply (ed_add_eq p a d1 d2 (x, y) (- x, y) (0, 1)); [apply ept_refl|split; cbn; [symmetry; apply (mod_eqm p Hp H2)|reflexivity]|apply ept_refl|].
    apply (proj1 (on_iff p a d1 d2 Hp H2 HC _ _)) in V. apply (add_iff p a d1 d2 Hp H2 HC); [exact V|now apply on_neg|].
    split.
    - unfold edP, edN. apply eqm_eq; ring.
    - unfold edQ, edM. unfold on in V. replace (y * y - a * (x * - x)) with (a * (x * x) + y * y) by ring. rewrite V. apply eqm_eq; ring.
  Qed.
  (** (m+1)B - mB = B *)
  Lemma diff_B m : vop (mulB (S m) B) (neg (mulB m B)) = B /\ vop (mulB m B) (neg (mulB (S m) B)) = neg B.
  Proof.
    pose proof (mulB_V m) as Vm. pose proof (mulB_V (S m)) as Vs. pose proof (neg_V _ Vm) as Vn. pose proof (neg_V _ Vs) as Vns. pose proof (neg_V _ VB) as VnB.
    assert (E1 : vop (mulB (S m) B) (neg (mulB m B)) = B).
    { cbn [smul]. rewrite (eop_assoc p a d1 d2 Hp H2 HC) by assumption. rewrite neg_sum by assumption. now apply eop_id. }
    split; [exact E1|].
    (* mB - (m+1)B = - B, since adding B gives 0 *)
    assert (E2 : vop (vop (mulB m B) (neg (mulB (S m) B))) B = (0, 1)).
    { rewrite (eop_comm p a d1 d2 Hp H2 HC) by (auto; now apply eop_valid). rewrite <- (eop_assoc p a d1 d2 Hp H2 HC) by assumption.
      change (vop B (mulB m B)) with (mulB (S m) B). now apply neg_sum. }
    set (X := vop (mulB m B) (neg (mulB (S m) B))) in *. assert (VX : ok X) by now apply eop_valid. clearbody X.
    rewrite <- (eop_id p a d1 d2 Hp H2 HC X VX), <- (neg_sum B VB), <- (eop_assoc p a d1 d2 Hp H2 HC) by assumption. rewrite E2.
    rewrite (eop_comm p a d1 d2 Hp H2 HC); [now apply eop_id| |assumption]. now apply id_valid.
  Qed.

  Definition urepP (X Z : Z) (P : epoint) : Prop := urep X Z (snd P).
  Lemma add_vop P Q : ok P -> ok Q -> Add P Q (vop P Q).
  Proof. intros [A _] [C _]. now apply eop_add. Qed.
  Lemma okE x y : ok (x, y) -> On x y.
  Proof. intros [A _]. now apply (on_iff p a d1 d2 Hp H2 HC). Qed.
  Lemma rfc_step_u P Q D X2 Z2 X3 Z3 : ok P -> ok Q -> vop P (neg Q) = D -> snd D = snd B ->
    urepP X2 Z2 P -> urepP X3 Z3 Q ->
    let '(x2, z2, x3, z3) := rfc_step p a24 U (X2, Z2, X3, Z3) in urepP x2 z2 (vop P P) /\ urepP x3 z3 (vop P Q).
  Proof.
    intros VP VQ HD HB R2 R3. unfold rfc_step. pose proof (add_vop P P VP VP) as APP. pose proof (add_vop P Q VP VQ) as APQ.
    pose proof (add_vop P (neg Q) VP (neg_V Q VQ)) as APN. rewrite HD in APN.
    destruct P as [px py], Q as [qx qy], D as [dx dy], (vop (px, py) (px, py)) as [ax ay], (vop (px, py) (qx, qy)) as [bx b_y].
    unfold urepP in *. cbn [snd neg fst] in *. subst dy.
    assert (APN' : Add (px, py) (- qx, qy) (dx, snd B)).
    { apply (ed_add_eq p a d1 d2 (px, py) ((- qx) mod p, qy) (dx, snd B)); [apply ept_refl| |apply ept_refl|exact APN]. split; cbn; [apply (mod_eqm p Hp H2)|reflexivity]. }
    split.
    - apply (urep_eqm _ _ ay) with (4 := dbl_u X2 Z2 px py ax ay (okE _ _ VP) APP R2); [| |reflexivity]; symmetry; apply (mod_eqm p Hp H2).
    - apply (urep_eqm _ _ b_y) with (4 := diff_u X2 Z2 X3 Z3 U px py qx qy bx b_y dx (snd B) (okE _ _ VP) (okE _ _ VQ) APQ APN' NU NB HU R2 R3);
        [| |reflexivity]; symmetry; apply (mod_eqm p Hp H2).
  Qed.

  Definition linv (swap : Z) (st : Z * Z * Z * Z) (m : nat) : Prop :=
    let '(x2, z2, x3, z3) := st in
    (swap = 0 /\ urepP x2 z2 (mulB m B) /\ urepP x3 z3 (mulB (S m) B)) \/
    (swap = 1 /\ urepP x3 z3 (mulB m B) /\ urepP x2 z2 (mulB (S m) B)).
  Lemma linv_step kt swap st m : kt = 0 \/ kt = 1 -> linv swap st m ->
    linv kt (let '(x2, z2, x3, z3) := st in
      let '(x2, x3) := rfc_swap (Z.lxor swap kt) x2 x3 in let '(z2, z3) := rfc_swap (Z.lxor swap kt) z2 z3 in
      rfc_step p a24 U (x2, z2, x3, z3)) (Z.to_nat kt + 2 * m)%nat.
  Proof.
    intros Hk. destruct st as [[[x2 z2] x3] z3]. intros L.
    assert (S0 : exists a2 b2 a3 b3, (let '(x2, x3) := rfc_swap (Z.lxor swap kt) x2 x3 in let '(z2, z3) := rfc_swap (Z.lxor swap kt) z2 z3 in
      rfc_step p a24 U (x2, z2, x3, z3)) = rfc_step p a24 U (a2, b2, a3, b3) /\
      ((kt = 0 /\ urepP a2 b2 (mulB m B) /\ urepP a3 b3 (mulB (S m) B)) \/ (kt = 1 /\ urepP a3 b3 (mulB m B) /\ urepP a2 b2 (mulB (S m) B)))).
    { destruct L as [(-> & R1 & R2)|(-> & R1 & R2)]; destruct Hk as [->| ->]; cbn [Z.lxor rfc_swap Z.eqb Pos.eqb];
        (eexists _, _, _, _; split; [reflexivity|]); [left|right|left|right]; (split; [reflexivity|]); split; assumption. }
    destruct S0 as (a2 & b2 & a3 & b3 & E & [(-> & R1 & R2)|(-> & R1 & R2)]); rewrite E; clear E L.
    - pose proof (rfc_step_u (mulB m B) (mulB (S m) B) (neg B) a2 b2 a3 b3 (mulB_V m) (mulB_V (S m)) (proj2 (diff_B m)) eq_refl R1 R2) as H.
      rewrite <- !mulB_add in H. cbn [Z.to_nat Nat.add].
      replace (2 * m)%nat with (m + m)%nat by lia. replace (S (m + m)) with (m + S m)%nat by lia.
      destruct (rfc_step p a24 U (a2, b2, a3, b3)) as [[[u1 u2] u3] u4]. left. split; [reflexivity|].
      replace (S (m + m)) with (m + S m)%nat by lia. exact H.
    - pose proof (rfc_step_u (mulB (S m) B) (mulB m B) B a2 b2 a3 b3 (mulB_V (S m)) (mulB_V m) (proj1 (diff_B m)) eq_refl R2 R1) as H.
      rewrite <- !mulB_add in H. destruct H as [H1 H2'] eqn:EH; clear EH || idtac.
      destruct (rfc_step p a24 U (a2, b2, a3, b3)) as [[[u1 u2] u3] u4]. right. split; [reflexivity|].
      change (Z.to_nat 1) with 1%nat.
      replace (1 + 2 * m)%nat with (S m + m)%nat by lia. replace (S (S m + m)) with (S m + S m)%nat by lia. tauto.
  Qed.

  Fixpoint top (k : Z) (t : nat) (m : nat) : nat :=
    match t with O => m | S t' => top k t' (Z.to_nat ((k / 2 ^ Z.of_nat t') mod 2) + 2 * m) end.
  Lemma rfc_loop_u k t : forall swap st m, linv swap st m ->
    linv (fst (rfc_loop p a24 k U t swap st)) (snd (rfc_loop p a24 k U t swap st)) (top k t m).
  Proof.
    induction t as [|t IH]; intros swap st m L; [exact L|]. cbn [rfc_loop top].
    set (kt := (k / 2 ^ Z.of_nat t) mod 2). assert (Hk : kt = 0 \/ kt = 1) by (pose proof (Z.mod_pos_bound (k / 2 ^ Z.of_nat t) 2); lia).
    pose proof (linv_step kt swap st m Hk L) as L'. clearbody kt.
    destruct st as [[[x2 z2] x3] z3]. destruct (rfc_swap (Z.lxor swap kt) x2 x3) as [y2 y3], (rfc_swap (Z.lxor swap kt) z2 z3) as [w2 w3].
    apply IH. exact L'.
  Qed.
  Lemma top_val k t : 0 <= k -> forall m, Z.of_nat (top k t m) = k mod 2 ^ Z.of_nat t + Z.of_nat m * 2 ^ Z.of_nat t.
  Proof.
    intros Hk. induction t as [|t IH]; intros m; cbn [top].
    - change (2 ^ Z.of_nat 0) with 1. rewrite Z.mod_1_r. lia.
    - rewrite IH, Nat2Z.inj_add, Nat2Z.inj_mul, Z2Nat.id by (apply Z.mod_pos_bound; lia). change (Z.of_nat 2) with 2. rewrite (Nat2Z.inj_succ t), Z.pow_succ_r by lia.
      rewrite (Z.mul_comm 2 (2 ^ Z.of_nat t)), Z.rem_mul_r by lia. ring.
  Qed.

  (** what a u-coordinate is *)
  Definition ucoord (u : Z) (P : epoint) : Prop := (1 - snd P == 0 /\ u == 0) \/ (~ 1 - snd P == 0 /\ u * (ep * (1 - snd P)) == 1 + snd P).
  Lemma rfc7748_u bits k u : u == U -> 0 <= k -> ucoord (rfc7748 p a24 bits k u) (mulB (Z.to_nat (k mod 2 ^ Z.of_nat bits)) B).
  Proof.
    intros Eu Hk. pose proof (prime_ge_2 p Hp) as G2. unfold rfc7748.
    assert (EU : u mod p = U mod p) by (apply eqm_mod; [lia|exact Eu]).
    (* the hypotheses on U also hold of U mod p *)
    assert (L0 : linv 0 (1, 0, u mod p, 1) 0).
    { left. split; [reflexivity|]. split.
      - exists ((p + 1) / 2). cbn [smul snd]. assert (D2 : eqm p ((p + 1) / 2 * 2) 1).
        { destruct (Z.even p) eqn:EV.
          - exfalso. apply Z.even_spec in EV. destruct EV as [q Hq]. destruct (prime_divisors p Hp 2) as [D|[D|[D|D]]]; try lia. exists q. lia.
          - assert (OD : Z.odd p = true) by (rewrite <- Z.negb_even, EV; reflexivity). apply Z.odd_spec in OD. destruct OD as [q Hq].
            replace ((p + 1) / 2) with (q + 1) by (apply Z.div_unique_exact; lia). exists 1. lia. }
        split; [|split].
        + intros Z0. apply (one_nz p Hp H2). rewrite <- D2, Z0. apply eqm_eq; ring.
        + change (1 + 1) with 2. now symmetry.
        + apply eqm_eq; ring.
      - cbn [smul]. rewrite (eop_id p a d1 d2 Hp H2 HC B VB). apply urep_cross.
        + rewrite (mod_eqm p Hp H2 u), Eu, HU. apply eqm_eq; ring.
        + intros [_ O1]. exact (one_nz p Hp H2 O1). }
    assert (LR : forall t swap st, rfc_loop p a24 k (u mod p) t swap st = rfc_loop p a24 k (U mod p) t swap st) by (now rewrite EU).
    rewrite LR.
    assert (MU : forall t swap st, linv swap st 0 -> linv (fst (rfc_loop p a24 k (U mod p) t swap st)) (snd (rfc_loop p a24 k (U mod p) t swap st)) (top k t 0)).
    { intros t swap st L. replace (rfc_loop p a24 k (U mod p) t swap st) with (rfc_loop p a24 k U t swap st); [now apply rfc_loop_u|].
      revert swap st L. clear. intros swap st _. revert swap st. induction t as [|t IH]; intros swap st; [reflexivity|]. cbn [rfc_loop].
      destruct st as [[[x2 z2] x3] z3]. set (kt := (k / 2 ^ Z.of_nat t) mod 2).
      destruct (rfc_swap (Z.lxor swap kt) x2 x3) as [y2 y3], (rfc_swap (Z.lxor swap kt) z2 z3) as [w2 w3]. rewrite IH. f_equal.
      unfold rfc_step. rewrite Zmult_mod_idemp_l. reflexivity. }
    specialize (MU bits 0 _ L0). destruct (rfc_loop p a24 k (U mod p) bits 0 (1, 0, u mod p, 1)) as [sw [[[x2 z2] x3] z3]]. cbn [fst snd] in MU.
    assert (T : top k bits 0 = Z.to_nat (k mod 2 ^ Z.of_nat bits)) by (apply Nat2Z.inj; rewrite (top_val k bits Hk 0), Z2Nat.id by (apply Z.mod_pos_bound; lia); lia).
    rewrite T in MU. clear T L0 LR. set (Q := mulB (Z.to_nat (k mod 2 ^ Z.of_nat bits)) B) in *.
    assert (FIN : forall X Z, urepP X Z Q -> ucoord ((X * Z ^ (p - 2)) mod p) Q).
    { intros X Z (l & Nl & EX & EZ). unfold ucoord. rewrite (mod_eqm p Hp H2).
      destruct (eqm_dec p (1 - snd Q) 0) as [Y|Y]; [left|right]; (split; [exact Y|]).
      - assert (Z == 0) by (rewrite EZ, Y; apply eqm_eq; ring).
        rewrite (pow_eqm p Z 0 (p - 2)) by (lia || assumption). rewrite Z.pow_0_l by lia. apply eqm_eq; ring.
      - assert (NZ : ~ Z == 0). { rewrite EZ. apply (mul_nz p Hp); [exact Nl|]. apply (mul_nz p Hp); [|exact Y]. intros E0. apply (one_nz p Hp H2). rewrite <- ep_sq, E0. apply eqm_eq; ring. }
        apply (cancel p Hp l _ _ Nl). rewrite <- EX. replace (l * (X * Z ^ (p - 2) * (ep * (1 - snd Q)))) with (X * Z ^ (p - 2) * (l * (ep * (1 - snd Q)))) by ring.
        rewrite <- EZ. replace (X * Z ^ (p - 2) * Z) with (X * (Z * Z ^ (p - 2))) by ring. rewrite (inv_eqm p Hp H2 Z NZ). apply eqm_eq; ring. }
    unfold linv in MU. destruct MU as [(-> & R1 & R2)|(-> & R1 & R2)]; cbn [rfc_swap Z.eqb Pos.eqb]; apply FIN; assumption.
  Qed.
End Ladder.
