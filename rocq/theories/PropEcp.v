(** C33, C34: point arithmetic on short Weierstrass curves. *)
From Coq Require Import Znumtheory.
From Verif Require Import Base Vlong VlongLemmas VlongDivLemmas VlongMulLemmas EcMod EcModLemmas EcFieldLemmas EcExpLemmas EcCurveLemmas EcSpec EcGroupLemmas EcpXyz EcpLemmas ScaleLemmas EcLawLemmas EcAssocLemmas EcpScaleLemmas.

(** The curves: the three the library defines, or any other with a small coefficient a,
    reduced by the generic division. *)
Definition weierstrass (c : ecp_curve) : Prop :=
  c = secp256r1 \/ c = secp384r1 \/ c = curveSM2 \/
  (words_ok (cv_p c) /\ (length (cv_p c) + 2 <= cv_w c)%nat /\ 1 < val_le 32 (cv_p c) /\ cv_g c = (fun v => vlong_remv_inplace v (cv_p c)) /\
   - 2 ^ 12 <= cv_a c <= 2 ^ 12 /\ words_ok (cv_b c) /\ (0 < length (cv_b c))%nat /\ val_le 32 (cv_b c) <= val_le 32 (cv_p c)).

Lemma weierstrass_ok c : weierstrass c -> curve_ok c.
Proof.
  intros [->|[->|[->|(A1 & A2 & A3 & A4 & A5 & A6 & A7 & A8)]]].
  - split; [apply field_secp256r1; cbn; lia|cbn; lia|repeat constructor; unfold word_ok; lia|cbn; lia|vm_compute; congruence].
  - split; [apply field_secp384r1; cbn; lia|cbn; lia|repeat constructor; unfold word_ok; lia|cbn; lia|vm_compute; congruence].
  - split; [apply field_SM2; cbn; lia|cbn; lia|repeat constructor; unfold word_ok; lia|cbn; lia|vm_compute; congruence].
  - split; auto. rewrite A4. now apply field_remv.
Qed.

(** The prime is odd and there is no point of order 2 (true of every curve of odd order). *)
Definition odd_prime_order (c : ecp_curve) : Prop :=
  prime (val_le 32 (cv_p c)) /\ val_le 32 (cv_p c) <> 2 /\
  forall x, ~ eqm (val_le 32 (cv_p c)) (x * x * x + cv_a c * x + val_le 32 (cv_b c)) 0.
Definition on (c : ecp_curve) (P : point) : Prop := on_curve (val_le 32 (cv_p c)) (cv_a c) (val_le 32 (cv_b c)) P.

(** * C33.  For all curve points, infinity and equal or opposite points included, the
    addition delivers the sum by the chord-and-tangent law. *)
Theorem C33_addition : forall (c : ecp_curve) (q1 q2 : ecp_xyz) (P Q : point),
  weierstrass c -> odd_prime_order c -> on c P -> on c Q -> holds_point c q1 P -> holds_point c q2 Q ->
  exists R, ec_add (val_le 32 (cv_p c)) (cv_a c) P Q R /\ on c R /\ holds_point c (ecp_point_add_rcb15 c q1 q2) R.
Proof. intros c q1 q2 P Q W (Hp & H2 & N). apply add_holds; auto. now apply weierstrass_ok. Qed.
Print Assumptions C33_addition.

(** Doubling delivers P + P; missing from the full claim: P = infinity. *)
Theorem C33_doubling_partial : forall (c : ecp_curve) (q : ecp_xyz) (P : point),
  weierstrass c -> odd_prime_order c -> on c P -> P <> Inf -> holds_point c q P ->
  exists R, ec_add (val_le 32 (cv_p c)) (cv_a c) P P R /\ on c R /\ R <> Inf /\ holds_point c (ecp_point_dbl_fast c q) R.
Proof. intros c q P W (Hp & H2 & N). apply dbl_holds; auto. now apply weierstrass_ok. Qed.
Print Assumptions C33_doubling_partial.

(** Whatever the curve, what ecp_point_dbl_fast makes of the point at infinity represents no point. *)
Theorem C33_doubling_infinity_refuted : forall (c : ecp_curve) (q : ecp_xyz) (R : point),
  weierstrass c -> odd_prime_order c -> holds_point c q Inf -> ~ holds_point c (ecp_point_dbl_fast c q) R.
Proof.
  intros c q R W (Hp & H2 & N) H HR. pose proof (weierstrass_ok c W) as OK.
  pose proof (dbl_fast_rep c OK q _ _ _ (holds_rep c q Inf H)) as (A1 & A2 & A3). cbv zeta in A1, A2, A3.
  destruct H as (_ & _ & _ & E1 & E2 & _). destruct HR as (_ & _ & _ & HR).
  destruct (rep_reg c Hp H2 N _ _ A1) as [_ B1]. destruct (rep_reg c Hp H2 N _ _ A2) as [_ B2]. destruct (rep_reg c Hp H2 N _ _ A3) as [_ B3].
  clear A1 A2 A3. set (Y := val_le 32 (py q)) in *. clearbody Y.
  assert (Z3 : eqm (val_le 32 (cv_p c)) (val_le 32 (pz (ecp_point_dbl_fast c q))) 0).
  { rewrite <- B3, E2. apply eqm_eq; ring. }
  assert (Y3 : eqm (val_le 32 (cv_p c)) (val_le 32 (py (ecp_point_dbl_fast c q))) 0).
  { rewrite <- B2, E1, E2. apply eqm_eq; ring. }
  destruct R; cbn [proj] in HR; [now apply HR|now apply HR].
Qed.
Print Assumptions C33_doubling_infinity_refuted.

(** The sum is unique: ec_add is a (partial) function on points modulo p. *)
Theorem C33_law_functional : forall (c : ecp_curve) (P Q R R' : point), odd_prime_order c ->
  ec_add (val_le 32 (cv_p c)) (cv_a c) P Q R -> ec_add (val_le 32 (cv_p c)) (cv_a c) P Q R' -> pt_eq (val_le 32 (cv_p c)) R R'.
Proof. intros c P Q R R' (Hp & H2 & N) A B. apply (ec_add_det _ _ Hp H2 P Q R P Q R' A B); apply pt_eq_refl. Qed.
Print Assumptions C33_law_functional.

(** ... and makes the curve, singular points excepted, an abelian group: commutative, with neutral
    element infinity, opposites (x, -y), and associative. *)
Theorem C33_law_group : forall (p a b : Z), prime p -> p <> 2 ->
  (forall x, eqm p (x * x * x + a * x + b) 0 -> ~ eqm p (3 * x * x + a) 0) ->
  (forall P Q R, ec_add p a P Q R -> ec_add p a Q P R) /\
  (forall P, ec_add p a P Inf P) /\
  (forall x y, ec_add p a (Aff x y) (Aff x (- y)) Inf) /\
  (forall P Q R PQ QR S S', on_curve p a b P -> on_curve p a b Q -> on_curve p a b R ->
     ec_add p a P Q PQ -> ec_add p a PQ R S -> ec_add p a Q R QR -> ec_add p a P QR S' -> pt_eq p S S').
Proof.
  intros p a b Hp H2 NS. split; [exact (ec_add_comm p a)|]. split; [constructor|].
  split; [|exact (ec_assoc p a b Hp H2 NS)].
  intros x y. constructor; apply eqm_eq; ring.
Qed.
Print Assumptions C33_law_group.

(** The base points are on their curves. *)
Theorem C33_base_points :
  Forall (fun '(c, g) => exists x y, val_le 32 (px g) = x /\ val_le 32 (py g) = y /\ on c (Aff x y) /\
            (1 < val_le 32 (cv_p c) -> holds_point c g (Aff x y)))
    [(secp256r1, G_secp256r1); (secp384r1, G_secp384r1); (curveSM2, G_SM2)].
Proof.
  assert (H : forall c g, (length (px g) =? cv_w c)%nat && (length (py g) =? cv_w c)%nat && (length (pz g) =? cv_w c)%nat &&
    (val_le 32 (pz g) =? 1) && (val_le 32 (px g) <=? val_le 32 (cv_p c)) && (val_le 32 (py g) <=? val_le 32 (cv_p c)) && (1 <? val_le 32 (cv_p c)) = true ->
    words_ok (px g) -> words_ok (py g) -> words_ok (pz g) ->
    ((val_le 32 (py g) * val_le 32 (py g) - (val_le 32 (px g) * val_le 32 (px g) * val_le 32 (px g) + cv_a c * val_le 32 (px g) + val_le 32 (cv_b c))) mod val_le 32 (cv_p c) =? 0) = true ->
    exists x y, val_le 32 (px g) = x /\ val_le 32 (py g) = y /\ on c (Aff x y) /\ (1 < val_le 32 (cv_p c) -> holds_point c g (Aff x y))).
  { intros c g H W1 W2 W3 E. rewrite !Bool.andb_true_iff in H. destruct H as ((((((L1 & L2) & L3) & EZ) & B1) & B2) & B0).
    apply Nat.eqb_eq in L1, L2, L3. apply Z.eqb_eq in EZ, E. apply Z.leb_le in B1, B2. apply Z.ltb_lt in B0.
    exists (val_le 32 (px g)), (val_le 32 (py g)). split; [reflexivity|]. split; [reflexivity|]. split.
    - unfold on, on_curve, eqm. apply Z.mod_divide; [clear -B0; lia|exact E].
    - intros _. split; [|split; [|split]]; [split; [|split]; assumption|split; [|split]; assumption|split; [|split]|].
      + exact W3.
      + exact L3.
      + rewrite EZ. clear -B0; lia.
      + cbn [proj]. rewrite EZ. split; [|split; apply eqm_eq; ring]. unfold eqm. rewrite Z.sub_0_r. intros D.
        apply Z.divide_1_r_nonneg in D; clear -D B0; lia. }
  repeat constructor; apply H; try (repeat constructor; unfold word_ok; lia); vm_compute; reflexivity.
Qed.
Print Assumptions C33_base_points.

(** A small curve meeting every hypothesis: y^2 = x^3 - 3x + 1 over F_7, of order 5. *)
Definition toy : ecp_curve :=
  {| cv_w := 3; cv_a := -3; cv_b := [1]; cv_p := [7]; cv_n := [5]; cv_g := fun v => vlong_remv_inplace v [7] |}.
Definition toyG : ecp_xyz := {| px := [0; 0; 0]; py := [1; 0; 0]; pz := [1; 0; 0] |}.
Lemma toy_w : weierstrass toy.
Proof. right. right. right. cbn [toy cv_p cv_w cv_g cv_a cv_b]. repeat split; try (repeat constructor; unfold word_ok; lia); cbn; lia. Qed.
Lemma prime_7 : prime 7.
Proof. apply prime_alt. split; [lia|]. intros n Hn [j Hj]. assert (n = 2 \/ n = 3 \/ n = 4 \/ n = 5 \/ n = 6) by lia. lia. Qed.
Lemma toy_o : odd_prime_order toy.
Proof.
  split; [exact prime_7|]. split; [cbn; lia|]. intros x. change (val_le 32 (cv_p toy)) with 7. change (val_le 32 (cv_b toy)) with 1. change (cv_a toy) with (-3).
  intros H. apply eqm_mod in H; [|lia].
  assert (E : eqm 7 (x mod 7) x) by (apply eqm_mod; [lia|apply Zmod_mod]).
  assert (H' : eqm 7 (x mod 7 * (x mod 7) * (x mod 7) + -3 * (x mod 7) + 1) 0).
  { rewrite E. apply eqm_mod; [lia|]. exact H. }
  pose proof (Z.mod_pos_bound x 7 ltac:(lia)) as B. clear H E. set (r := x mod 7) in *. clearbody r.
  assert (r = 0 \/ r = 1 \/ r = 2 \/ r = 3 \/ r = 4 \/ r = 5 \/ r = 6) as D by lia.
  apply eqm_mod in H'; [|lia].
  destruct D as [D|[D|[D|[D|[D|[D|D]]]]]]; subst r; vm_compute in H'; discriminate.
Qed.
Lemma toy_G : holds_point toy toyG (Aff 0 1) /\ on toy (Aff 0 1).
Proof.
  split.
  - repeat split; try (repeat constructor; unfold word_ok; lia); try (cbn; lia); try (apply eqm_eq; reflexivity).
    change (val_le 32 (cv_p toy)) with 7. intros D. apply eqm_mod in D; [|lia]. vm_compute in D. discriminate.
  - apply eqm_eq. reflexivity.
Qed.
Example C33_nonvacuous :
  weierstrass toy /\ odd_prime_order toy /\ holds_point toy toyG (Aff 0 1) /\ on toy (Aff 0 1) /\
  exists R, ec_add 7 (-3) (Aff 0 1) (Aff 0 1) R /\ on toy R /\ holds_point toy (ecp_point_add_rcb15 toy toyG toyG) R.
Proof.
  split; [exact toy_w|]. split; [exact toy_o|]. split; [apply toy_G|]. split; [apply toy_G|].
  apply (C33_addition toy toyG toyG (Aff 0 1) (Aff 0 1) toy_w toy_o); apply toy_G.
Qed.

(** * C34.  For every scalar, base point other than infinity and accumulator:
    accum' = accum + scalar * base. *)
Theorem C34_weierstrass : forall (c : ecp_curve) (accum base : ecp_xyz) (A B : point) (scalar : list Z),
  weierstrass c -> odd_prime_order c ->
  on c A -> on c B -> B <> Inf -> words_ok scalar -> holds_point c accum A -> holds_point c base B ->
  exists M R, ec_mul (val_le 32 (cv_p c)) (cv_a c) B (Z.to_nat (val_le 32 scalar)) M /\
              ec_add (val_le 32 (cv_p c)) (cv_a c) A M R /\
              holds_point c (ecp_point_scale_accumulate c accum base scalar) R.
Proof. intros c accum base A B scalar W (Hp & H2 & N). apply scale_holds; auto. now apply weierstrass_ok. Qed.
Print Assumptions C34_weierstrass.

(** For a base at infinity the claim is false for every curve, accumulator and scalar from 2 on:
    the result represents no point at all. *)
Theorem C34_base_infinity_refuted : forall (c : ecp_curve) (accum base : ecp_xyz) (A R : point) (scalar : list Z),
  weierstrass c -> odd_prime_order c -> words_ok scalar -> 2 <= val_le 32 scalar ->
  holds_point c accum A -> holds_point c base Inf ->
  ~ holds_point c (ecp_point_scale_accumulate c accum base scalar) R.
Proof. intros c accum base A R scalar W (Hp & H2 & N) Ws Hs HA HB. apply scale_inf with A; auto. now apply weierstrass_ok. Qed.
Print Assumptions C34_base_infinity_refuted.

Example C34_nonvacuous : exists M R, ec_mul 7 (-3) (Aff 0 1) (Z.to_nat 3) M /\ ec_add 7 (-3) (Aff 0 1) M R /\
  holds_point toy (ecp_point_scale_accumulate toy toyG toyG [3]) R.
Proof.
  apply (C34_weierstrass toy toyG toyG (Aff 0 1) (Aff 0 1) [3] toy_w toy_o); try apply toy_G; [congruence|].
  repeat constructor; unfold word_ok; lia.
Qed.
