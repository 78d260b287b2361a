(** ecEd_point_add, ecEd_point_dbl and ecEd_point_scale_accumulate on curve points. *)
From Coq Require Import Znumtheory.
From Verif Require Import Base Vlong VlongLemmas VlongDivLemmas VlongMulLemmas EcMod EcModLemmas EcFieldLemmas EcExpLemmas EcSpec EcGroupLemmas EcpXyz ScaleLemmas EcpScaleLemmas EdSpec EdCert EdGroupLemmas EcEd EdLemmas.

(** Four registers of the curve's width, values at most p, holding extended coordinates of P. *)
Definition ed_register (c : ed_curve) (v : list Z) : Prop := words_ok v /\ length v = ed_w c /\ vval v <= vval (ed_p c).
Definition ed_holds (c : ed_curve) (q : ed_xytz) (P : epoint) : Prop :=
  ed_register c (ex q) /\ ed_register c (ey q) /\ ed_register c (et q) /\ ed_register c (ez q) /\
  extended (vval (ed_p c)) (vval (ex q)) (vval (ey q)) (vval (et q)) (vval (ez q)) P.

Lemma ept_refl p P : ept_eq p P P. Proof. split; reflexivity. Qed.
Lemma ept_sym p P Q : ept_eq p P Q -> ept_eq p Q P. Proof. intros [A B]. split; now symmetry. Qed.
Lemma ept_trans p P Q R : ept_eq p P Q -> ept_eq p Q R -> ept_eq p P R.
Proof. intros [A B] [C D]. split; [now rewrite A|now rewrite B]. Qed.
Lemma ed_on_eq p a d1 d2 P Q : ept_eq p P Q -> ed_on p a d1 d2 P -> ed_on p a d1 d2 Q.
Proof. destruct P, Q. intros [A B]. unfold ed_on. cbn in A, B. rewrite A, B. tauto. Qed.
Lemma ed_add_eq p a d1 d2 P Q R P' Q' R' : ept_eq p P P' -> ept_eq p Q Q' -> ept_eq p R R' -> ed_add p a d1 d2 P Q R -> ed_add p a d1 d2 P' Q' R'.
Proof. destruct P, Q, R, P', Q', R'. intros [A B] [C D] [E F]. unfold ed_add. cbn in *. rewrite A, B, C, D, E, F. tauto. Qed.
Lemma extended_eqm p X Y T Z X' Y' T' Z' P : eqm p X X' -> eqm p Y Y' -> eqm p T T' -> eqm p Z Z' -> extended p X Y T Z P -> extended p X' Y' T' Z' P.
Proof. intros A B C D. destruct P; cbn; rewrite A, B, C, D; tauto. Qed.
Lemma extended_pt p X Y T Z P P' : ept_eq p P P' -> extended p X Y T Z P -> extended p X Y T Z P'.
Proof. destruct P, P'. intros [A B]. cbn in *. rewrite A, B. tauto. Qed.

Section Group.
  Variables (p a d1 d2 : Z).
  Hypothesis Hp : prime p.
  Hypothesis H2 : p <> 2.
  Hypothesis HC : ed_complete p a d1 d2.
  Notation "x == y" := (eqm p x y) (at level 70).
  Notation On := (ed_on p a d1 d2).
  Notation Add := (ed_add p a d1 d2).

  Lemma add_ex P Q : On P -> On Q -> exists R, Add P Q R /\ On R.
  Proof.
    destruct P as [x1 y1], Q as [x2 y2]. intros C1 C2. apply (proj1 (on_iff p a d1 d2 Hp H2 HC _ _)) in C1. apply (proj1 (on_iff p a d1 d2 Hp H2 HC _ _)) in C2.
    destruct (sum_ex p a d1 d2 Hp H2 HC x1 y1 x2 y2 C1 C2) as (x3 & y3 & S3). exists (x3, y3). split.
    - now apply (add_iff p a d1 d2 Hp H2 HC).
    - apply (on_iff p a d1 d2 Hp H2 HC). apply (sum_closed p a d1 d2 Hp H2 HC x1 y1 x2 y2); auto.
  Qed.
  Lemma add_det P Q R R' : Add P Q R -> Add P Q R' -> ept_eq p R R'.
  Proof.
    destruct P as [x1 y1], Q as [x2 y2], R as [x3 y3], R' as [x4 y4]. cbn. intros (N1 & N2 & A & B) (_ & _ & A' & B'). split; cbn.
    - apply (cancel p Hp _ _ _ N1). rewrite !(Z.mul_comm (d2 + _)). rewrite A, A'. reflexivity.
    - apply (cancel p Hp _ _ _ N2). rewrite !(Z.mul_comm (d2 - _)). rewrite B, B'. reflexivity.
  Qed.
  Lemma add_closed P Q R : On P -> On Q -> Add P Q R -> On R.
  Proof. intros A B E. destruct (add_ex P Q A B) as (R' & E' & C). apply (ed_on_eq p a d1 d2 R'); [now apply (add_det P Q)|exact C]. Qed.
  Lemma add_comm P Q R : Add P Q R -> Add Q P R.
  Proof.
    destruct P as [x1 y1], Q as [x2 y2], R as [x3 y3]. unfold ed_add.
    replace (x2 * x1 * (y2 * y1)) with (x1 * x2 * (y1 * y2)) by ring.
    replace (x2 * y1 + x1 * y2) with (x1 * y2 + x2 * y1) by ring.
    replace (y2 * y1 - a * (x2 * x1)) with (y1 * y2 - a * (x1 * x2)) by ring. tauto.
  Qed.
  Lemma add_id P : Add P (0, 1) P.
  Proof.
    destruct P as [x y]. unfold ed_add. 
    replace (d2 + d1 * (x * 0 * (y * 1))) with d2 by ring. replace (d2 - d1 * (x * 0 * (y * 1))) with d2 by ring.
    split; [apply HC|]. split; [apply HC|]. split; apply eqm_eq; ring.
  Qed.
  Lemma on_id : On (0, 1). Proof. unfold ed_on. apply eqm_eq. ring. Qed.
  Lemma add_assoc P Q R PQ QR S S' : On P -> On Q -> On R -> Add P Q PQ -> Add PQ R S -> Add Q R QR -> Add P QR S' -> ept_eq p S S'.
  Proof.
    intros C1 C2 C3 E1 E2 E3 E4. pose proof (add_closed _ _ _ C1 C2 E1) as C4. pose proof (add_closed _ _ _ C2 C3 E3) as C5.
    destruct P as [x1 y1], Q as [x2 y2], R as [x3 y3], PQ as [x4 y4], QR as [x5 y5], S as [x6 y6], S' as [x7 y7].
    apply (proj1 (on_iff p a d1 d2 Hp H2 HC _ _)) in C1, C2, C3, C4, C5.
    apply (proj1 (add_iff p a d1 d2 Hp H2 HC _ _ _ _ _ _ C1 C2)) in E1.
    apply (proj1 (add_iff p a d1 d2 Hp H2 HC _ _ _ _ _ _ C4 C3)) in E2.
    apply (proj1 (add_iff p a d1 d2 Hp H2 HC _ _ _ _ _ _ C2 C3)) in E3.
    apply (proj1 (add_iff p a d1 d2 Hp H2 HC _ _ _ _ _ _ C1 C5)) in E4.
    exact (sum_assoc p a d1 d2 Hp H2 HC x1 y1 x2 y2 x3 y3 x4 y4 x5 y5 x6 y6 x7 y7 C1 C2 C3 E1 E2 E3 E4).
  Qed.

  (** a function on canonical representatives *)
  Definition ecanon (P : epoint) : Prop := 0 <= fst P < p /\ 0 <= snd P < p.
  Definition evalid (P : epoint) : Prop := On P /\ ecanon P.
  Definition eop (P Q : epoint) : epoint :=
    let '(x1, y1) := P in let '(x2, y2) := Q in
    ((d2 * (x1 * y2 + x2 * y1) * (d2 + d1 * (x1 * x2 * (y1 * y2))) ^ (p - 2)) mod p,
     (d2 * (y1 * y2 - a * (x1 * x2)) * (d2 - d1 * (x1 * x2 * (y1 * y2))) ^ (p - 2)) mod p).
  Lemma ept_canon P Q : ecanon P -> ecanon Q -> ept_eq p P Q -> P = Q.
  Proof.
    destruct P as [x y], Q as [x' y']. intros [A B] [C D] [E F]. cbn in *. pose proof (prime_ge_2 _ Hp).
    apply eqm_mod in E; [|lia]. apply eqm_mod in F; [|lia]. rewrite !Z.mod_small in E, F by assumption. congruence.
  Qed.
  Lemma eop_canon P Q : ecanon (eop P Q).
  Proof. destruct P, Q. pose proof (prime_ge_2 _ Hp). split; cbn [fst snd eop]; apply Z.mod_pos_bound; lia. Qed.
  Lemma mod_eqm x : x mod p == x.
  Proof. pose proof (prime_ge_2 _ Hp). apply eqm_mod; [lia|]. apply Zmod_mod. Qed.
  Lemma eop_add P Q : On P -> On Q -> Add P Q (eop P Q).
  Proof.
    intros C1 C2. destruct (add_ex P Q C1 C2) as (R & E & _). destruct P as [x1 y1], Q as [x2 y2], R as [x3 y3]. cbn in E.
    destruct E as (N1 & N2 & _). cbn [eop ed_add].
    set (D1 := d2 + d1 * (x1 * x2 * (y1 * y2))) in *. set (D2 := d2 - d1 * (x1 * x2 * (y1 * y2))) in *. clearbody D1 D2.
    split; [exact N1|]. split; [exact N2|].
    split; rewrite mod_eqm, <- Z.mul_assoc, (Z.mul_comm (_ ^ _)), inv_eqm by assumption; apply eqm_eq; ring.
  Qed.
  Lemma eop_valid P Q : evalid P -> evalid Q -> evalid (eop P Q).
  Proof. intros [A _] [B _]. split; [|apply eop_canon]. apply (add_closed P Q); auto. now apply eop_add. Qed.
  Lemma eop_eq P Q R : On P -> On Q -> ecanon R -> Add P Q R -> eop P Q = R.
  Proof. intros A B C E. apply ept_canon; [apply eop_canon|exact C|]. apply (add_det P Q); [now apply eop_add|exact E]. Qed.
  Lemma eop_id P : evalid P -> eop P (0, 1) = P.
  Proof. intros [A B]. apply eop_eq; auto; [apply on_id|apply add_id]. Qed.
  Lemma eop_comm P Q : evalid P -> evalid Q -> eop P Q = eop Q P.
  Proof. intros [A B] [C D]. apply eop_eq; auto; [apply eop_canon|]. apply add_comm. now apply eop_add. Qed.
  Lemma eop_assoc P Q R : evalid P -> evalid Q -> evalid R -> eop (eop P Q) R = eop P (eop Q R).
  Proof.
    intros V1 V2 V3. pose proof (eop_valid _ _ V1 V2) as V4. pose proof (eop_valid _ _ V2 V3) as V5.
    apply ept_canon; try apply eop_canon. apply (add_assoc P Q R (eop P Q) (eop Q R)); try (apply V1 || apply V2 || apply V3); apply eop_add; (apply V1 || apply V2 || apply V3 || apply V4 || apply V5).
  Qed.
  Lemma id_valid : evalid (0, 1).
  Proof. pose proof (prime_ge_2 _ Hp). split; [apply on_id|]. split; cbn; lia. Qed.
  Lemma ecanon_of Q : exists Q', ecanon Q' /\ ept_eq p Q Q'.
  Proof.
    pose proof (prime_ge_2 _ Hp). destruct Q as [x y].
    exists (x mod p, y mod p). split; [split; cbn; apply Z.mod_pos_bound; lia|].
    split; cbn; symmetry; apply mod_eqm.
  Qed.
  Lemma eop_cong P Q P' Q' : On P -> On Q -> ept_eq p P P' -> ept_eq p Q Q' -> ept_eq p (eop P Q) (eop P' Q').
  Proof.
    intros A B E F. apply (add_det P Q); [now apply eop_add|].
    apply (ed_add_eq p a d1 d2 P' Q' (eop P' Q')); [now apply ept_sym|now apply ept_sym|apply ept_refl|].
    apply eop_add; [now apply (ed_on_eq p a d1 d2 P)|now apply (ed_on_eq p a d1 d2 Q)].
  Qed.

  (** the formulas of the code *)
  Lemma add_law X1 Y1 T1 Z1 X2 Y2 T2 Z2 P Q R : extended p X1 Y1 T1 Z1 P -> extended p X2 Y2 T2 Z2 Q -> Add P Q R ->
    let w := X1 * Y2 + X2 * Y1 in let u := Y1 * Y2 - X1 * X2 * a in
    let v := Z1 * Z2 * d2 - T1 * T2 * d1 in let v' := Z1 * Z2 * d2 + T1 * T2 * d1 in
    extended p (w * v * d2) (u * v' * d2) (u * w * d2 * d2) (v * v') R.
  Proof.
    destruct P as [x1 y1], Q as [x2 y2], R as [x3 y3]. cbn. intros (NZ1 & EX1 & EY1 & ET1) (NZ2 & EX2 & EY2 & ET2) (N1 & N2 & A & B).
    set (ZZ := Z1 * Z2). assert (NZ : ~ ZZ == 0) by now apply (mul_nz p Hp).
    set (D1 := d2 + d1 * (x1 * x2 * (y1 * y2))) in *. set (D2 := d2 - d1 * (x1 * x2 * (y1 * y2))) in *.
    assert (Ev : ZZ * d2 - T1 * T2 * d1 == ZZ * D2) by (rewrite ET1, ET2; apply eqm_eq; unfold ZZ, D2; ring).
    assert (Ev' : ZZ * d2 + T1 * T2 * d1 == ZZ * D1) by (rewrite ET1, ET2; apply eqm_eq; unfold ZZ, D1; ring).
    assert (Ew : X1 * Y2 + X2 * Y1 == ZZ * (x1 * y2 + x2 * y1)) by (rewrite EX1, EX2, EY1, EY2; apply eqm_eq; unfold ZZ; ring).
    assert (Eu : Y1 * Y2 - X1 * X2 * a == ZZ * (y1 * y2 - a * (x1 * x2))) by (rewrite EX1, EX2, EY1, EY2; apply eqm_eq; unfold ZZ; ring).
    rewrite Ev, Ev', Ew, Eu. clear Ev Ev' Ew Eu. clearbody D1 D2 ZZ.
    set (N := x1 * y2 + x2 * y1) in *. set (M := y1 * y2 - a * (x1 * x2)) in *. clearbody N M.
    split; [|split; [|split]].
    - repeat apply (mul_nz p Hp); assumption.
    - replace (ZZ * N * (ZZ * D2) * d2) with (ZZ * ZZ * D2 * (d2 * N)) by ring. rewrite <- A. apply eqm_eq; ring.
    - replace (ZZ * M * (ZZ * D1) * d2) with (ZZ * ZZ * D1 * (d2 * M)) by ring. rewrite <- B. apply eqm_eq; ring.
    - replace (ZZ * M * (ZZ * N) * d2 * d2) with (ZZ * ZZ * (d2 * M) * (d2 * N)) by ring. rewrite <- A, <- B. apply eqm_eq; ring.
  Qed.
  Lemma dbl_law' X Y T Z P R : On P -> extended p X Y T Z P -> Add P P R ->
    let u := Y * Y + X * X * a in let v := Y * Y - X * X * a in
    let s := 2 * (X * Y) in let w := 2 * (Z * Z) - u in
    extended p (s * w) (u * v) (s * v) (u * w) R.
  Proof.
    destruct P as [x y], R as [x3 y3]. cbn. intros C (NZ & EX & EY & _) (N1 & N2 & A & B).
    assert (K1 : d2 + d1 * (x * x * (y * y)) == d2 * (a * (x * x) + y * y)) by (now symmetry).
    assert (K2 : d2 - d1 * (x * x * (y * y)) == d2 * (2 - (a * (x * x) + y * y))).
    { replace (d2 - d1 * (x * x * (y * y))) with (2 * d2 - (d2 + d1 * (x * x * (y * y)))) by ring. rewrite K1. apply eqm_eq; ring. }
    rewrite K1 in N1, A. rewrite K2 in N2, B. clear K1 K2 C.
    assert (Nd : ~ d2 == 0) by apply HC.
    assert (Eu : Y * Y + X * X * a == Z * Z * (a * (x * x) + y * y)) by (rewrite EX, EY; apply eqm_eq; ring).
    assert (Ev : Y * Y - X * X * a == Z * Z * (y * y - a * (x * x))) by (rewrite EX, EY; apply eqm_eq; ring).
    assert (Es : 2 * (X * Y) == Z * Z * (x * y + x * y)) by (rewrite EX, EY; apply eqm_eq; ring).
    assert (Ew : 2 * (Z * Z) - (Y * Y + X * X * a) == Z * Z * (2 - (a * (x * x) + y * y))) by (rewrite Eu; apply eqm_eq; ring).
    rewrite Ew, Eu, Ev, Es. clear Ew Eu Ev Es.
    set (U := a * (x * x) + y * y) in *. set (V := y * y - a * (x * x)) in *. set (N := x * y + x * y) in *.
    set (W := 2 - U) in *. clearbody U V N W. 
    assert (A' : x3 * U == N). { apply (cancel p Hp d2 _ _ Nd). rewrite <- A. apply eqm_eq; ring. }
    assert (B' : y3 * W == V). { apply (cancel p Hp d2 _ _ Nd). rewrite <- B. apply eqm_eq; ring. }
    split; [|split; [|split]].
    - assert (NU : ~ U == 0) by (intros E; apply N1; rewrite E; apply eqm_eq; ring).
      assert (NW : ~ W == 0) by (intros E; apply N2; rewrite E; apply eqm_eq; ring).
      repeat apply (mul_nz p Hp); assumption.
    - rewrite <- A'. apply eqm_eq; ring.
    - rewrite <- B'. apply eqm_eq; ring.
    - rewrite <- A', <- B'. apply eqm_eq; ring.
  Qed.
End Group.

Section Curve.
  Variable c : ed_curve.
  Hypothesis OK : edcurve_ok c.
  Notation p := (vval (ed_p c)). Notation a := (ed_a c). Notation d1 := (ed_over c). Notation d2 := (ed_under c).
  Hypothesis Hp : prime p.
  Hypothesis H2 : p <> 2.
  Hypothesis HC : ed_complete p a d1 d2.
  Notation On := (ed_on p a d1 d2).
  Notation Add := (ed_add p a d1 d2).

  Lemma ereg_rep v : ed_register c v -> rep (ed_w c) (ed_p c) v (vval v).
  Proof. intros (A & B & C). split; [|split; [|split]]; auto. Qed.
  Lemma rep_ereg v x : rep (ed_w c) (ed_p c) v x -> ed_register c v /\ eqm p x (vval v).
  Proof.
    intros (A & B & C & D). split; [split; [|split]; auto|]. pose proof (prime_ge_2 _ Hp). apply eqm_mod; [lia|]. now symmetry.
  Qed.
  Lemma eholds_rep q Q : ed_holds c q Q -> xytz_rep c q (vval (ex q)) (vval (ey q)) (vval (et q)) (vval (ez q)).
  Proof. intros (A & B & C & D & _). split; [|split; [|split]]; now apply ereg_rep. Qed.
  Lemma rep_eholds q X Y T Z Q : xytz_rep c q X Y T Z -> extended p X Y T Z Q -> ed_holds c q Q.
  Proof.
    intros (A & B & C & D) E. destruct (rep_ereg _ _ A) as [A1 A2]. destruct (rep_ereg _ _ B) as [B1 B2].
    destruct (rep_ereg _ _ C) as [C1 C2]. destruct (rep_ereg _ _ D) as [D1 D2].
    split; [|split; [|split; [|split]]]; auto. exact (extended_eqm _ _ _ _ _ _ _ _ _ _ A2 B2 C2 D2 E).
  Qed.
  Lemma eholds_pt q Q Q' : ept_eq p Q Q' -> ed_holds c q Q -> ed_holds c q Q'.
  Proof. intros E (A & B & C & D & F). split; [|split; [|split; [|split]]]; auto. exact (extended_pt _ _ _ _ _ _ _ E F). Qed.

  Lemma ed_add_holds q1 q2 P1 P2 : On P1 -> On P2 -> ed_holds c q1 P1 -> ed_holds c q2 P2 ->
    exists R, Add P1 P2 R /\ On R /\ ed_holds c (ecEd_point_add c q1 q2) R.
  Proof.
    intros C1 C2 A1 A2. pose proof (ed_add_rep c OK q1 q2 _ _ _ _ _ _ _ _ (eholds_rep _ _ A1) (eholds_rep _ _ A2)) as R. cbv zeta in R.
    destruct A1 as (_ & _ & _ & _ & A1). destruct A2 as (_ & _ & _ & _ & A2).
    destruct (add_ex p a d1 d2 Hp H2 HC P1 P2 C1 C2) as (S & E & CS).
    exists S. split; [exact E|]. split; [exact CS|]. apply (rep_eholds _ _ _ _ _ _ R).
    exact (add_law p a d1 d2 Hp _ _ _ _ _ _ _ _ P1 P2 S A1 A2 E).
  Qed.
  Lemma ed_dbl_holds q P1 : On P1 -> ed_holds c q P1 ->
    exists R, Add P1 P1 R /\ On R /\ ed_holds c (ecEd_point_dbl c q) R.
  Proof.
    intros C1 A1. pose proof (ed_dbl_rep c OK q _ _ _ _ (eholds_rep _ _ A1)) as R. cbv zeta in R.
    destruct A1 as (_ & _ & _ & _ & A1).
    destruct (add_ex p a d1 d2 Hp H2 HC P1 P1 C1 C1) as (S & E & CS).
    exists S. split; [exact E|]. split; [exact CS|]. apply (rep_eholds _ _ _ _ _ _ R).
    exact (dbl_law' p a d1 d2 Hp HC _ _ _ _ P1 S C1 A1 E).
  Qed.
  Lemma ed_copy_holds q Q : ed_holds c q Q -> ed_holds c (ecEd_xytz_copy c q) Q.
  Proof.
    intros (A & B & C & D & E). apply (rep_eholds _ (vval (ex q)) (vval (ey q)) (vval (et q)) (vval (ez q))); [|exact E].
    split; [|split; [|split]]; cbn [ex ey et ez ecEd_xytz_copy]; apply (cpy_rep (ed_w c) (ed_p c)); now apply ereg_rep.
  Qed.

  Notation vop := (eop p a d1 d2). Notation ok := (evalid p a d1 d2).
  Definition erp (q : ed_xytz) (Q : epoint) : Prop := ok Q /\ ed_holds c q Q.
  Lemma erp_add s t x y : erp s x -> erp t y -> erp (ecEd_point_add c s t) (vop x y).
  Proof.
    intros [V1 A1] [V2 A2]. split; [now apply eop_valid|].
    destruct (ed_add_holds s t x y (proj1 V1) (proj1 V2) A1 A2) as (R & E & _ & HR).
    apply (eholds_pt _ R); [|exact HR]. apply (add_det p a d1 d2 Hp x y); [exact E|]. apply eop_add; auto; [apply V1|apply V2].
  Qed.
  Lemma erp_dbl s x : erp s x -> erp (ecEd_point_dbl c s) (vop x x).
  Proof.
    intros [V A]. split; [now apply eop_valid|]. destruct (ed_dbl_holds s x (proj1 V) A) as (R & E & _ & HR).
    apply (eholds_pt _ R); [|exact HR]. apply (add_det p a d1 d2 Hp x x); [exact E|]. apply eop_add; auto; apply V.
  Qed.
  Lemma erp_sel s t x y m : m = 0 \/ m = 1 -> erp s x -> erp t y -> erp (ecEd_xytz_substitute s t m) (if m =? 1 then y else x).
  Proof.
    intros Hm [V1 (A1 & A2 & A3 & A4 & A5)] [V2 (B1 & B2 & B3 & B4 & B5)].
    assert (E : ecEd_xytz_substitute s t m = if m =? 1 then t else s).
    { unfold ecEd_xytz_substitute. destruct s as [sx sy st sz], t as [tx ty tt tz]. cbn [ex ey et ez] in *.
      destruct A1 as (U1 & U2 & _), A2 as (U3 & U4 & _), A3 as (U5 & U6 & _), A4 as (U7 & U8 & _),
        B1 as (W1 & W2 & _), B2 as (W3 & W4 & _), B3 as (W5 & W6 & _), B4 as (W7 & W8 & _).
      rewrite !subst_words_sel by (auto; congruence). destruct (m =? 1); reflexivity. }
    rewrite E. destruct (m =? 1); (split; [assumption|split; [|split; [|split; [|split]]]; assumption]).
  Qed.
  Lemma ed_scale_dloop s k : forall i acc tmp,
    ed_scale_loop c s k i acc tmp = dloop ed_xytz (ecEd_point_add c) (ecEd_point_dbl c) ecEd_xytz_substitute (scalar_bit s) k i acc tmp.
  Proof.
    induction k as [|k IH]; intros i acc tmp; [reflexivity|]. cbn [ed_scale_loop dloop]. destruct k; [reflexivity|]. rewrite IH. reflexivity.
  Qed.

  Theorem ed_scale_holds acc base A B scalar : On A -> On B -> words_ok scalar ->
    ed_holds c acc A -> ed_holds c base B ->
    exists M R, ed_mul p a d1 d2 B (Z.to_nat (vval scalar)) M /\ Add A M R /\ ed_holds c (ecEd_point_scale_accumulate c acc base scalar) R.
  Proof.
    intros CA CB Ws HA HB.
    destruct (ecanon_of p Hp H2 A) as (A' & KA & EA). destruct (ecanon_of p Hp H2 B) as (B' & KB & EB).
    assert (VA : ok A') by (split; [now apply (ed_on_eq p a d1 d2 A)|exact KA]).
    assert (VB : ok B') by (split; [now apply (ed_on_eq p a d1 d2 B)|exact KB]).
    assert (S : erp (ecEd_point_scale_accumulate c acc base scalar) (vop A' (smul epoint vop (0, 1) (Z.to_nat (vval scalar)) B'))).
    { unfold ecEd_point_scale_accumulate. rewrite ed_scale_dloop, <- (bits_all scalar Ws).
      apply (dloop_spec epoint vop (0, 1) ok) with (rp := erp) (nz := fun _ => True).
      - now apply id_valid.
      - intros; now apply eop_valid.
      - intros; now apply eop_id.
      - intros; now apply eop_comm.
      - intros; now apply eop_assoc.
      - intros s x [V _]. exact V.
      - exact erp_add.
      - intros s x _ R. split; [now apply erp_dbl|exact I].
      - exact erp_sel.
      - intros j. now apply scalar_bit_01.
      - split; [exact VA|exact (eholds_pt _ _ _ EA HA)].
      - split; [exact VB|]. apply (eholds_pt _ _ _ EB). now apply ed_copy_holds.
      - exact I. }
    set (k := Z.to_nat (vval scalar)) in *. clearbody k.
    assert (VS : forall j, ok (smul epoint vop (0, 1) j B')).
    { intros j. apply (smul_V epoint vop (0, 1) ok); auto; [now apply id_valid|]. intros; now apply eop_valid. }
    assert (ML : forall j, exists M, ed_mul p a d1 d2 B j M /\ ept_eq p M (smul epoint vop (0, 1) j B')).
    { induction j as [|j (M & E & N)]; [exists (0, 1); split; [constructor|apply ept_refl]|].
      assert (CM : On M) by (apply (ed_on_eq p a d1 d2 (smul epoint vop (0, 1) j B')); [now apply ept_sym|apply VS]).
      exists (vop B M). split; [econstructor; [exact E|now apply eop_add]|]. cbn [smul]. now apply eop_cong. }
    destruct (ML k) as (M & EM & NM).
    assert (CM : On M) by (apply (ed_on_eq p a d1 d2 (smul epoint vop (0, 1) k B')); [now apply ept_sym|apply VS]).
    exists M, (vop A M). split; [exact EM|]. split; [now apply eop_add|]. destruct S as [_ S].
    apply (eholds_pt _ (vop A' (smul epoint vop (0, 1) k B'))); [|exact S]. apply ept_sym. now apply eop_cong.
  Qed.
End Curve.
