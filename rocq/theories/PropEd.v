(** C34 (Edwards part), C35: point arithmetic on twisted Edwards curves. *)
From Coq Require Import Znumtheory.
From Verif Require Import Base Vlong VlongLemmas VlongDivLemmas VlongMulLemmas EcMod EcModLemmas EcFieldLemmas EcExpLemmas EcCurveLemmas EcSpec EcGroupLemmas EcpXyz ScaleLemmas EcpScaleLemmas EdSpec EdCert EdGroupLemmas EcEd EdLemmas EdScaleLemmas EdCompleteLemmas CurvePrimes.

(** The two curves of the library, or any other with small coefficients reduced by the
    generic division. *)
Definition edwards (c : ed_curve) : Prop :=
  c = CurveEd25519 \/ c = CurveEd448 \/
  (words_ok (ed_p c) /\ (length (ed_p c) + 2 <= ed_w c)%nat /\ 1 < val_le 32 (ed_p c) /\ ed_g c = (fun v => vlong_remv_inplace v (ed_p c)) /\
   - 2 ^ 12 <= ed_a c <= 2 ^ 12 /\ - 2 ^ 20 <= ed_over c <= 2 ^ 20 /\ 0 <= ed_under c <= 2 ^ 20).
Lemma edwards_ok c : edwards c -> edcurve_ok c.
Proof.
  intros [->|[->|(A1 & A2 & A3 & A4 & A5 & A6 & A7)]].
  - split; [apply field_25519; cbn; lia|cbn; lia|cbn; lia|cbn; lia].
  - split; [apply field_448; cbn; lia|cbn; lia|cbn; lia|cbn; lia].
  - split; auto. rewrite A4. now apply field_remv.
Qed.
(** p is an odd prime, a a non-zero square and d not a square modulo p. *)
Definition ed_field (c : ed_curve) : Prop :=
  prime (val_le 32 (ed_p c)) /\ val_le 32 (ed_p c) <> 2 /\ ed_complete (val_le 32 (ed_p c)) (ed_a c) (ed_over c) (ed_under c).
Definition on (c : ed_curve) (P : epoint) : Prop := ed_on (val_le 32 (ed_p c)) (ed_a c) (ed_over c) (ed_under c) P.
Definition sum_of (c : ed_curve) (P Q R : epoint) : Prop := ed_add (val_le 32 (ed_p c)) (ed_a c) (ed_over c) (ed_under c) P Q R.

(** * C35.  For every pair of curve points (equal, opposite and neutral ones included)
    ecEd_point_add delivers extended coordinates of their sum, T = XY/Z included. *)
Theorem C35_addition : forall (c : ed_curve) (q1 q2 : ed_xytz) (P Q : epoint),
  edwards c -> ed_field c -> on c P -> on c Q -> ed_holds c q1 P -> ed_holds c q2 Q ->
  exists R, sum_of c P Q R /\ on c R /\ ed_holds c (ecEd_point_add c q1 q2) R.
Proof. intros c q1 q2 P Q W (Hp & H2 & N). apply ed_add_holds; auto. now apply edwards_ok. Qed.
Print Assumptions C35_addition.

Theorem C35_doubling : forall (c : ed_curve) (q : ed_xytz) (P : epoint),
  edwards c -> ed_field c -> on c P -> ed_holds c q P ->
  exists R, sum_of c P P R /\ on c R /\ ed_holds c (ecEd_point_dbl c q) R.
Proof. intros c q P W (Hp & H2 & N). apply ed_dbl_holds; auto. now apply edwards_ok. Qed.
Print Assumptions C35_doubling.

Lemma vval_repeat0 n : vval (repeat 0 n) = 0.
Proof. induction n as [|n IH]; [reflexivity|]. cbn [repeat val_le]. rewrite IH. reflexivity. Qed.
(** The neutral element is what ecEd_xytz_inf stores. *)
Theorem C35_neutral : forall (c : ed_curve), edwards c -> (1 < ed_w c)%nat -> 1 < val_le 32 (ed_p c) ->
  on c (0, 1) /\ ed_holds c (ecEd_xytz_inf c) (0, 1).
Proof.
  intros c W Hw Hp. split; [unfold on, ed_on; apply eqm_eq; ring|].
  assert (V0 : vval (repeat 0 (ed_w c)) = 0) by apply vval_repeat0.
  assert (V1 : vval (1 :: repeat 0 (ed_w c - 1)) = 1).
  { cbn [val_le]. fold (vval (repeat 0 (ed_w c - 1))). rewrite vval_repeat0. reflexivity. }
  assert (Z0 : ed_register c (repeat 0 (ed_w c))).
  { split; [apply repeat_words|]. split; [apply repeat_length|]. rewrite V0. clear -Hp. lia. }
  assert (Z1 : ed_register c (1 :: repeat 0 (ed_w c - 1))).
  { split; [constructor; [unfold word_ok; lia|apply repeat_words]|]. split; [cbn [length]; rewrite repeat_length; clear -Hw; lia|]. rewrite V1. clear -Hp; lia. }
  split; [exact Z0|]. split; [exact Z1|]. split; [exact Z0|]. split; [exact Z1|]. cbn [extended ecEd_xytz_inf ex ey et ez]. rewrite V0, V1.
  split; [|split; [|split]]; try (apply eqm_eq; ring).
  intros D. apply eqm_mod in D; [|clear -Hp; lia]. rewrite Z.mod_small, Z.mod_0_l in D by (clear -Hp; lia). discriminate.
Qed.
Print Assumptions C35_neutral.

(** The law is a commutative group law on the curve's points: total and closed, functional,
    commutative, with neutral element (0, 1), and associative. *)
Theorem C35_group : forall (c : ed_curve), ed_field c ->
  (forall P Q, on c P -> on c Q -> exists R, sum_of c P Q R /\ on c R) /\
  (forall P Q R R', sum_of c P Q R -> sum_of c P Q R' -> ept_eq (val_le 32 (ed_p c)) R R') /\
  (forall P Q R, sum_of c P Q R -> sum_of c Q P R) /\
  (forall P, sum_of c P (0, 1) P) /\
  (forall P Q R PQ QR U V, on c P -> on c Q -> on c R -> sum_of c P Q PQ -> sum_of c PQ R U -> sum_of c Q R QR -> sum_of c P QR V ->
     ept_eq (val_le 32 (ed_p c)) U V).
Proof.
  intros c (Hp & H2 & N). split; [|split; [|split; [|split]]].
  - intros P Q. now apply add_ex.
  - intros P Q R R'. now apply add_det.
  - intros P Q R. apply add_comm.
  - intros P. now apply add_id.
  - intros P Q R PQ QR U V. now apply add_assoc.
Qed.
Print Assumptions C35_group.

(** On the library's curves every condition holds: p is an odd prime, a a square, d not one. *)
Theorem C35_complete : forall (c : ed_curve), c = CurveEd25519 \/ c = CurveEd448 -> ed_field c.
Proof.
  assert (P1 : prime (val_le 32 Fp_25519)) by (rewrite p25519_val; exact prime_p25519).
  assert (P2 : prime (val_le 32 Fp_448)) by (rewrite p448_val; exact prime_p448).
  intros c [->|E]; [|subst c]; (split; [assumption|]).
  - split; [apply Z.eqb_neq; vm_compute; reflexivity|]. cbn [ed_p CurveEd25519 ed_a ed_over ed_under] in *. rewrite p25519_val in *. now apply complete_25519.
  - split; [apply Z.eqb_neq; vm_compute; reflexivity|]. cbn [ed_p CurveEd448 ed_a ed_over ed_under] in *. rewrite p448_val in *. now apply complete_448.
Qed.
Print Assumptions C35_complete.

(** The base points are on their curves and their T registers are right. *)
Theorem C35_base_points :
  Forall (fun '(c, g) => on c (val_le 32 (ex g), val_le 32 (ey g)) /\ ed_holds c g (val_le 32 (ex g), val_le 32 (ey g)))
    [(CurveEd25519, B_Ed25519); (CurveEd448, B_Ed448)].
Proof.
  assert (H : forall c g, (length (ex g) =? ed_w c)%nat && (length (ey g) =? ed_w c)%nat && (length (et g) =? ed_w c)%nat && (length (ez g) =? ed_w c)%nat &&
    (val_le 32 (ez g) =? 1) && (val_le 32 (ex g) <=? val_le 32 (ed_p c)) && (val_le 32 (ey g) <=? val_le 32 (ed_p c)) && (val_le 32 (et g) <=? val_le 32 (ed_p c)) && (1 <? val_le 32 (ed_p c)) = true ->
    words_ok (ex g) -> words_ok (ey g) -> words_ok (et g) -> words_ok (ez g) ->
    (Z.rem (ed_under c * (ed_a c * (val_le 32 (ex g) * val_le 32 (ex g)) + val_le 32 (ey g) * val_le 32 (ey g)) - (ed_under c + ed_over c * (val_le 32 (ex g) * val_le 32 (ex g) * (val_le 32 (ey g) * val_le 32 (ey g))))) (val_le 32 (ed_p c)) =? 0) = true ->
    (Z.rem (val_le 32 (et g) - val_le 32 (ex g) * val_le 32 (ey g) * 1) (val_le 32 (ed_p c)) =? 0) = true ->
    on c (val_le 32 (ex g), val_le 32 (ey g)) /\ ed_holds c g (val_le 32 (ex g), val_le 32 (ey g))).
  { intros c g H W1 W2 W3 W4 E E'. rewrite !Bool.andb_true_iff in H. destruct H as ((((((((L1 & L2) & L3) & L4) & EZ) & B1) & B2) & B3) & B0).
    apply Nat.eqb_eq in L1, L2, L3, L4. apply Z.eqb_eq in EZ. apply Z.leb_le in B1, B2, B3. apply Z.ltb_lt in B0.
    assert (N0 : val_le 32 (ed_p c) <> 0) by (clear -B0; lia).
    split; [exact (eqm_by _ _ _ E N0)|]. split; [|split; [|split; [|split]]]; [split; [|split]; assumption|split; [|split]; assumption|split; [|split]; assumption|split; [|split]|].
    - exact W4.
    - exact L4.
    - rewrite EZ. clear -B0; lia.
    - cbn [extended]. rewrite EZ. split; [|split; [apply eqm_eq; ring|split; [apply eqm_eq; ring|exact (eqm_by _ _ _ E' N0)]]].
      intros D. apply eqm_mod in D; [|clear -B0; lia]. rewrite Z.mod_small, Z.mod_0_l in D by (clear -B0; lia). discriminate. }
  assert (W : forall l, forallb (fun z => (0 <=? z) && (z <? 2 ^ 32)) l = true -> words_ok l).
  { intros l E. apply Forall_forall. intros z Hz. rewrite forallb_forall in E. specialize (E z Hz). apply andb_true_iff in E.
    destruct E as [E1 E2]. apply Z.leb_le in E1. apply Z.ltb_lt in E2. split; assumption. }
  apply Forall_cons; [|apply Forall_cons; [|apply Forall_nil]]; (apply H; [|apply W|apply W|apply W|apply W| |]); vm_compute; reflexivity.
Qed.
Print Assumptions C35_base_points.

(** * C34 on Edwards curves.  For every scalar, base and accumulator (no exception):
    accum' = accum + scalar * base. *)
Theorem C34_edwards : forall (c : ed_curve) (accum base : ed_xytz) (A B : epoint) (scalar : list Z),
  edwards c -> ed_field c -> on c A -> on c B -> words_ok scalar -> ed_holds c accum A -> ed_holds c base B ->
  exists M R, ed_mul (val_le 32 (ed_p c)) (ed_a c) (ed_over c) (ed_under c) B (Z.to_nat (val_le 32 scalar)) M /\ sum_of c A M R /\
              ed_holds c (ecEd_point_scale_accumulate c accum base scalar) R.
Proof. intros c accum base A B scalar W (Hp & H2 & N). apply ed_scale_holds; auto. now apply edwards_ok. Qed.
Print Assumptions C34_edwards.

(** A small curve meeting every hypothesis: -x^2 + y^2 = 1 + 2 x^2 y^2 over F_13. *)
Definition ed_toy : ed_curve :=
  {| ed_w := 3; ed_a := -1; ed_over := 2; ed_under := 1; ed_p := [13]; ed_L := [4]; ed_g := fun v => vlong_remv_inplace v [13] |}.
Definition ed_toyB : ed_xytz := {| ex := [2; 0; 0]; ey := [4; 0; 0]; et := [8; 0; 0]; ez := [1; 0; 0] |}.
Lemma ed_toy_w : edwards ed_toy.
Proof. right. right. cbn [ed_toy ed_p ed_w ed_g ed_a ed_over ed_under]. repeat split; try (repeat constructor; unfold word_ok; lia); cbn; lia. Qed.
Lemma prime_13 : prime 13.
Proof. apply prime_alt. split; [lia|]. intros n Hn [j Hj]. assert (n = 2 \/ n = 3 \/ n = 4 \/ n = 5 \/ n = 6 \/ n = 7 \/ n = 8 \/ n = 9 \/ n = 10 \/ n = 11 \/ n = 12) by lia. lia. Qed.
Lemma ed_toy_f : ed_field ed_toy.
Proof.
  split; [exact prime_13|]. split; [cbn; lia|]. cbn [ed_toy ed_p ed_a ed_over ed_under]. change (val_le 32 [13]) with 13.
  apply (complete_5mod8 13 1 (-1) 2 1 5 5 4 prime_13); try lia; try (apply eqm_by; [reflexivity|lia]); apply neqm_by; (reflexivity || lia).
Qed.
Lemma ed_toy_B : ed_holds ed_toy ed_toyB (2, 4) /\ on ed_toy (2, 4).
Proof.
  split.
  - repeat split; try (repeat constructor; unfold word_ok; lia); try (cbn; lia); try (apply eqm_eq; reflexivity).
    change (val_le 32 (ed_p ed_toy)) with 13. apply neqm_by; [reflexivity|lia].
  - apply eqm_by; [reflexivity|cbn; lia].
Qed.
Example C35_nonvacuous :
  edwards ed_toy /\ ed_field ed_toy /\ ed_holds ed_toy ed_toyB (2, 4) /\ on ed_toy (2, 4) /\
  exists M R, ed_mul 13 (-1) 2 1 (2, 4) (Z.to_nat 3) M /\ sum_of ed_toy (2, 4) M R /\ ed_holds ed_toy (ecEd_point_scale_accumulate ed_toy ed_toyB ed_toyB [3]) R.
Proof.
  split; [exact ed_toy_w|]. split; [exact ed_toy_f|]. split; [apply ed_toy_B|]. split; [apply ed_toy_B|].
  apply (C34_edwards ed_toy ed_toyB ed_toyB (2, 4) (2, 4) [3] ed_toy_w ed_toy_f); try apply ed_toy_B.
  repeat constructor; unfold word_ok; lia.
Qed.
