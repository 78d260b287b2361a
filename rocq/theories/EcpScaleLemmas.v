(** ecp_point_add_rcb15, ecp_point_dbl_fast and ecp_point_scale_accumulate on
    curve points. *)
From Coq Require Import Znumtheory.
From Verif Require Import Base Vlong VlongLemmas VlongDivLemmas VlongMulLemmas EcMod EcModLemmas EcFieldLemmas EcExpLemmas EcCurveLemmas EcSpec EcGroupLemmas EcpXyz EcpLemmas ScaleLemmas EcLawLemmas EcAssocLemmas.

(** A register of the curve's width with a value at most p; three of them holding
    projective coordinates of the point P. *)
Definition register (c : ecp_curve) (v : list Z) : Prop := words_ok v /\ length v = cv_w c /\ vval v <= vval (cv_p c).
Definition holds_point (c : ecp_curve) (q : ecp_xyz) (P : point) : Prop :=
  register c (px q) /\ register c (py q) /\ register c (pz q) /\ proj (vval (cv_p c)) (vval (px q)) (vval (py q)) (vval (pz q)) P.

Lemma proj_eqm p X Y Z X' Y' Z' P : eqm p X X' -> eqm p Y Y' -> eqm p Z Z' -> proj p X Y Z P -> proj p X' Y' Z' P.
Proof.
  intros A B C. destruct P; cbn; rewrite A, B, C; tauto.
Qed.
Lemma proj_pt p X Y Z P P' : pt_eq p P P' -> proj p X Y Z P -> proj p X Y Z P'.
Proof. destruct P, P'; cbn; try tauto. intros [A B]. rewrite A, B. tauto. Qed.

Lemma nthZ_map_seq f n i : (i < n)%nat -> nthZ i (map f (seq 0 n)) = f i.
Proof.
  intros H. unfold nthZ. rewrite (nth_indep _ 0 (f 0%nat)) by (rewrite map_length, seq_length; exact H).
  rewrite map_nth, seq_nth by exact H. reflexivity.
Qed.

(** ecp_xyz_substitute *)
Lemma subst_words_sel a b m : m = 0 \/ m = 1 -> words_ok a -> words_ok b -> length b = length a ->
  subst_words a b m = if m =? 1 then b else a.
Proof.
  intros Hm Wa Wb L. apply list_ext.
  - unfold subst_words. rewrite map_length, seq_length. destruct (m =? 1); lia.
  - unfold subst_words. rewrite map_length, seq_length. intros i Hi. rewrite nthZ_map_seq by exact Hi.
    rewrite L. destruct (Nat.ltb_spec i (length a)) as [H|H]; [|lia].
    assert (Ba : 0 <= nthZ i a < 2 ^ 32) by (apply (proj1 (Forall_forall _ _) Wa); apply nth_In; exact Hi).
    assert (Bb : 0 <= nthZ i b < 2 ^ 32) by (apply (proj1 (Forall_forall _ _) Wb); apply nth_In; lia).
    destruct Hm as [->| ->]; cbn [Z.eqb].
    + change (u32 (- 0)) with 0. rewrite Z.land_0_l, Z.lor_0_r. change (2 ^ 32 - 1 - 0) with (Z.ones 32).
      rewrite (Z.land_comm (Z.ones 32)), Z.land_ones by lia. now apply Z.mod_small.
    + change (u32 (- 1)) with (Z.ones 32). change (2 ^ 32 - 1 - Z.ones 32) with 0. rewrite Z.land_0_l, Z.lor_0_l.
      rewrite (Z.land_comm (Z.ones 32)), Z.land_ones by lia. now apply Z.mod_small.
Qed.

Definition scalar_bit (scalar : list Z) (i : nat) : Z := Z.land (Z.shiftr (nthZ (i / 32) scalar) (Z.of_nat (i mod 32))) 1.
Lemma scalar_bit_val s i : words_ok s -> scalar_bit s i = (vval s / 2 ^ Z.of_nat i) mod 2.
Proof. intros W. unfold scalar_bit. rewrite <- (bit_of_words s i W). apply (Z.land_ones _ 1). lia. Qed.
Lemma scalar_bit_01 s i : words_ok s -> scalar_bit s i = 0 \/ scalar_bit s i = 1.
Proof. intros W. rewrite (scalar_bit_val s i W). pose proof (Z.mod_pos_bound (vval s / 2 ^ Z.of_nat i) 2). lia. Qed.
Lemma bits_val s k : words_ok s -> forall i, Z.of_nat (bits (scalar_bit s) k i) = (vval s / 2 ^ Z.of_nat i) mod 2 ^ Z.of_nat k.
Proof.
  intros W. induction k as [|k IH]; intros i; cbn [bits].
  - rewrite Z.pow_0_r, Z.mod_1_r. reflexivity.
  - rewrite Nat2Z.inj_add, Nat2Z.inj_mul, IH. rewrite Z2Nat.id by (destruct (scalar_bit_01 s i W); lia).
    rewrite (scalar_bit_val s i W). rewrite !Nat2Z.inj_succ, !Z.pow_succ_r by lia.
    rewrite (Z.mul_comm 2 (2 ^ Z.of_nat i)), <- Z.div_div by lia.
    rewrite Z.rem_mul_r by lia. reflexivity.
Qed.
Lemma bits_all s : words_ok s -> bits (scalar_bit s) (length s * 32) 0 = Z.to_nat (vval s).
Proof.
  intros W. apply Nat2Z.inj. rewrite (bits_val s _ W). change (2 ^ Z.of_nat 0) with 1. rewrite Z.div_1_r.
  pose proof (vval_bound s W) as B. rewrite Z2Nat.id by lia. apply Z.mod_small.
  replace (Z.of_nat (length s * 32)) with (32 * Z.of_nat (length s)) by lia. exact B.
Qed.

Section Curve.
  Variable c : ecp_curve.
  Hypothesis OK : curve_ok c.
  Notation P := (vval (cv_p c)). Notation a := (cv_a c). Notation b := (vval (cv_b c)).
  Hypothesis Hp : prime P.
  Hypothesis H2 : P <> 2.
  Hypothesis NoTwo : forall x, ~ eqm P (x * x * x + a * x + b) 0.

  Lemma reg_rep v : register c v -> rep (cv_w c) (cv_p c) v (vval v).
  Proof. intros (A & B & C). split; [|split; [|split]]; auto. Qed.
  Lemma rep_reg v x : rep (cv_w c) (cv_p c) v x -> register c v /\ eqm P x (vval v).
  Proof.
    intros (A & B & C & D). split; [split; [|split]; auto|]. pose proof (prime_ge_2 _ Hp). apply eqm_mod; [lia|]. now symmetry.
  Qed.
  Lemma holds_rep q Q : holds_point c q Q -> xyz_rep c q (vval (px q)) (vval (py q)) (vval (pz q)).
  Proof. intros (A & B & C & _). split; [|split]; now apply reg_rep. Qed.
  Lemma rep_holds q X Y Z Q : xyz_rep c q X Y Z -> proj P X Y Z Q -> holds_point c q Q.
  Proof.
    intros (A & B & C) D. destruct (rep_reg _ _ A) as [A1 A2]. destruct (rep_reg _ _ B) as [B1 B2]. destruct (rep_reg _ _ C) as [C1 C2].
    split; [|split; [|split]]; auto. exact (proj_eqm _ _ _ _ _ _ _ _ A2 B2 C2 D).
  Qed.

  Lemma add_holds q1 q2 P1 P2 : on_curve P a b P1 -> on_curve P a b P2 -> holds_point c q1 P1 -> holds_point c q2 P2 ->
    exists R, ec_add P a P1 P2 R /\ on_curve P a b R /\ holds_point c (ecp_point_add_rcb15 c q1 q2) R.
  Proof.
    intros C1 C2 A1 A2. pose proof (add_rcb_rep c OK q1 q2 _ _ _ _ _ _ (holds_rep _ _ A1) (holds_rep _ _ A2)) as R.
    destruct A1 as (_ & _ & _ & A1). destruct A2 as (_ & _ & _ & A2).
    destruct (rcb_law P a b Hp H2 NoTwo _ _ _ _ _ _ P1 P2 C1 C2 A1 A2) as (S & E & CS & PS).
    exists S. split; [exact E|]. split; [exact CS|]. exact (rep_holds _ _ _ _ _ R PS).
  Qed.
  Lemma dbl_holds q P1 : on_curve P a b P1 -> P1 <> Inf -> holds_point c q P1 ->
    exists R, ec_add P a P1 P1 R /\ on_curve P a b R /\ R <> Inf /\ holds_point c (ecp_point_dbl_fast c q) R.
  Proof.
    intros C1 N A1. pose proof (dbl_fast_rep c OK q _ _ _ (holds_rep _ _ A1)) as R. cbv zeta in R.
    destruct A1 as (_ & _ & _ & A1).
    destruct (dbl_law P a b Hp H2 NoTwo _ _ _ P1 C1 N A1) as (S & E & CS & NS & PS).
    exists S. split; [exact E|]. split; [exact CS|]. split; [exact NS|]. exact (rep_holds _ _ _ _ _ R PS).
  Qed.

  Lemma copy_holds q Q : holds_point c q Q -> holds_point c (ecp_xyz_copy c q) Q.
  Proof.
    intros (A & B & C & D). pose proof (reg_rep _ A) as RA. pose proof (reg_rep _ B) as RB. pose proof (reg_rep _ C) as RC.
    apply (rep_holds _ (vval (px q)) (vval (py q)) (vval (pz q))); [|exact D].
    split; [|split]; cbn [px py pz ecp_xyz_copy]; now apply (cpy_rep (cv_w c) (cv_p c)).
  Qed.

  (** the loop over canonical points *)
  Notation vop := (op P a b). Notation ok := (valid P a b).
  Definition rp (q : ecp_xyz) (Q : point) : Prop := ok Q /\ holds_point c q Q.
  Lemma holds_pt q Q Q' : pt_eq P Q Q' -> holds_point c q Q -> holds_point c q Q'.
  Proof. intros E (A & B & C & D). split; [|split; [|split]]; auto. exact (proj_pt _ _ _ _ _ _ E D). Qed.
  Lemma rp_add s t x y : rp s x -> rp t y -> rp (ecp_point_add_rcb15 c s t) (vop x y).
  Proof.
    intros [V1 A1] [V2 A2]. split; [now apply op_valid|].
    destruct (add_holds s t x y (proj1 V1) (proj1 V2) A1 A2) as (R & E & _ & HR).
    apply (holds_pt _ R); [|exact HR]. apply op_add; auto; [apply V1|apply V2].
  Qed.
  Lemma rp_dbl s x : x <> Inf -> rp s x -> rp (ecp_point_dbl_fast c s) (vop x x) /\ vop x x <> Inf.
  Proof.
    intros N [V A]. destruct (dbl_holds s x (proj1 V) N A) as (R & E & _ & NR & HR).
    assert (PE : pt_eq P R (vop x x)) by (apply op_add; auto; apply V).
    split; [split; [now apply op_valid|]|].
    - exact (holds_pt _ _ _ PE HR).
    - intros C. rewrite C in PE. destruct R; [congruence|]. exact PE.
  Qed.
  Lemma rp_sel s t x y m : m = 0 \/ m = 1 -> rp s x -> rp t y -> rp (ecp_xyz_substitute s t m) (if m =? 1 then y else x).
  Proof.
    intros Hm [V1 (A1 & A2 & A3 & A4)] [V2 (B1 & B2 & B3 & B4)].
    assert (E : ecp_xyz_substitute s t m = if m =? 1 then t else s).
    { unfold ecp_xyz_substitute. destruct s as [sx sy sz], t as [tx ty tz]. cbn [px py pz] in *.
      destruct A1 as (U1 & U2 & _), A2 as (U3 & U4 & _), A3 as (U5 & U6 & _), B1 as (W1 & W2 & _), B2 as (W3 & W4 & _), B3 as (W5 & W6 & _).
      rewrite !subst_words_sel by (auto; congruence). destruct (m =? 1); reflexivity. }
    rewrite E. destruct (m =? 1); (split; [assumption|split; [|split; [|split]]; assumption]).
  Qed.
  Lemma scale_dloop s k : forall i acc tmp,
    scale_loop c s k i acc tmp = dloop ecp_xyz (ecp_point_add_rcb15 c) (ecp_point_dbl_fast c) ecp_xyz_substitute (scalar_bit s) k i acc tmp.
  Proof.
    induction k as [|k IH]; intros i acc tmp; [reflexivity|]. cbn [scale_loop dloop]. destruct k; [reflexivity|]. rewrite IH. reflexivity.
  Qed.

  Lemma canon_of Q : exists Q', canon P Q' /\ pt_eq P Q Q'.
  Proof.
    pose proof (prime_ge_2 _ Hp). destruct Q as [|x y]; [exists Inf; split; exact I|].
    exists (Aff (x mod P) (y mod P)). split; [split; apply Z.mod_pos_bound; lia|].
    split; symmetry; (apply eqm_mod; [lia|]); apply Zmod_mod.
  Qed.

  Lemma no_sing x : eqm P (x * x * x + a * x + b) 0 -> ~ eqm P (3 * x * x + a) 0.
  Proof. intros H. now apply NoTwo in H. Qed.
  Lemma associative : ec_associative P a b.
  Proof. exact (ec_assoc P a b Hp H2 no_sing). Qed.

  Theorem scale_holds acc base A B scalar : on_curve P a b A -> on_curve P a b B -> B <> Inf -> words_ok scalar ->
    holds_point c acc A -> holds_point c base B ->
    exists M R, ec_mul P a B (Z.to_nat (vval scalar)) M /\ ec_add P a A M R /\ holds_point c (ecp_point_scale_accumulate c acc base scalar) R.
  Proof.
    pose proof associative as AS. intros CA CB NB Ws HA HB.
    destruct (canon_of A) as (A' & KA & EA). destruct (canon_of B) as (B' & KB & EB).
    assert (VA : ok A') by (split; [now apply (on_curve_eq P a b A)|exact KA]).
    assert (VB : ok B') by (split; [now apply (on_curve_eq P a b B)|exact KB]).
    assert (NB' : B' <> Inf) by (intros C; rewrite C in EB; destruct B; [congruence|exact EB]).
    assert (S : rp (ecp_point_scale_accumulate c acc base scalar) (vop A' (smul point vop Inf (Z.to_nat (vval scalar)) B'))).
    { unfold ecp_point_scale_accumulate. rewrite scale_dloop, <- (bits_all scalar Ws).
      apply (dloop_spec point vop Inf ok) with (rp := rp) (nz := fun Q => Q <> Inf).
      - split; exact I.
      - intros; now apply op_valid.
      - intros; now apply op_Inf.
      - intros; now apply op_comm.
      - intros. now apply op_assoc.
      - intros s x [V _]. exact V.
      - exact rp_add.
      - intros s x N R. now apply rp_dbl.
      - exact rp_sel.
      - intros j. now apply scalar_bit_01.
      - split; [exact VA|exact (holds_pt _ _ _ EA HA)].
      - split; [exact VB|]. apply (holds_pt _ _ _ EB). now apply copy_holds.
      - exact NB'. }
    (* back to the relations, for B itself *)
    set (k := Z.to_nat (vval scalar)) in *. clearbody k.
    assert (VS : forall j, ok (smul point vop Inf j B')).
    { intros j. apply (smul_V point vop Inf ok); auto; [split; exact I|]. intros; now apply op_valid. }
    assert (ML : forall j, exists M, ec_mul P a B j M /\ pt_eq P M (smul point vop Inf j B')).
    { induction j as [|j (M & E & N)]; [exists Inf; split; [constructor|exact I]|].
      assert (CM : on_curve P a b M) by (apply (on_curve_eq P a b (smul point vop Inf j B')); [now apply pt_eq_sym|apply VS]).
      destruct (op_ex P a b Hp H2 NoTwo B M CB CM) as (R & E' & N' & _). exists R. split; [econstructor; eauto|].
      cbn [smul]. apply pt_eq_trans with (vop B M); [exact N'|]. apply op_cong; auto. }
    destruct (ML k) as (M & EM & NM).
    assert (CM : on_curve P a b M) by (apply (on_curve_eq P a b (smul point vop Inf k B')); [now apply pt_eq_sym|apply VS]).
    destruct (op_ex P a b Hp H2 NoTwo A M CA CM) as (R & ER & NR & _).
    exists M, R. split; [exact EM|]. split; [exact ER|]. destruct S as [_ S]. apply (holds_pt _ (vop A' (smul point vop Inf k B'))); [|exact S].
    apply pt_eq_sym. apply pt_eq_trans with (vop A M); [exact NR|]. apply op_cong; auto.
  Qed.

  (** What happens to a base at infinity: ecp_point_dbl_fast turns it into (0,0,0), which swallows the accumulator. *)
  Definition zero3 (q : ecp_xyz) : Prop := xyz_rep c q 0 0 0.
  Definition any3 (q : ecp_xyz) : Prop := register c (px q) /\ register c (py q) /\ register c (pz q).
  Lemma rep_any q X Y Z : xyz_rep c q X Y Z -> any3 q.
  Proof. intros (A & B & C). split; [|split]; [apply (rep_reg _ _ A)|apply (rep_reg _ _ B)|apply (rep_reg _ _ C)]. Qed.
  Lemma any_rep q : any3 q -> xyz_rep c q (vval (px q)) (vval (py q)) (vval (pz q)).
  Proof. intros (A & B & C). split; [|split]; now apply reg_rep. Qed.
  Lemma zero_none q R : zero3 q -> ~ holds_point c q R.
  Proof.
    intros (_ & B & C) (_ & _ & _ & H). destruct (rep_reg _ _ B) as [_ B']. destruct (rep_reg _ _ C) as [_ C'].
    destruct R; cbn [proj] in H; apply H; now symmetry.
  Qed.
  Lemma zero_add s t : zero3 s -> any3 t -> zero3 (ecp_point_add_rcb15 c s t).
  Proof.
    intros A B. pose proof (add_rcb_rep c OK s t _ _ _ _ _ _ A (any_rep t B)) as (R1 & R2 & R3).
    split; [|split]; (eapply (rep_eq (cv_w c) (cv_p c)); [|eassumption]); unfold rcbX, rcbY, rcbZ; ring.
  Qed.
  Lemma zero_dbl s : zero3 s -> zero3 (ecp_point_dbl_fast c s).
  Proof. intros A. pose proof (dbl_fast_rep c OK s _ _ _ A) as (R1 & R2 & R3). cbv zeta in *.
    split; [|split]; (eapply (rep_eq (cv_w c) (cv_p c)); [|eassumption]); ring.
  Qed.
  Lemma inf_dbl s : holds_point c s Inf -> zero3 (ecp_point_dbl_fast c s).
  Proof.
    intros H. pose proof (dbl_fast_rep c OK s _ _ _ (holds_rep _ _ H)) as (A1 & A2 & A3). cbv zeta in A1, A2, A3.
    destruct H as (_ & _ & _ & E1 & E2 & _). pose proof (prime_ge_2 _ Hp) as G2.
    split; [|split]; (eapply (rep_ext (cv_w c) (cv_p c)); [|eassumption]); apply eqm_mod; try lia; rewrite ?E1, E2; apply eqm_eq; ring.
  Qed.
  Lemma any_sel s t m : m = 0 \/ m = 1 -> any3 s -> any3 t -> ecp_xyz_substitute s t m = if m =? 1 then t else s.
  Proof.
    intros Hm (A1 & A2 & A3) (B1 & B2 & B3). unfold ecp_xyz_substitute. destruct s as [sx sy sz], t as [tx ty tz]. cbn [px py pz] in *.
    destruct A1 as (U1 & U2 & _), A2 as (U3 & U4 & _), A3 as (U5 & U6 & _), B1 as (W1 & W2 & _), B2 as (W3 & W4 & _), B3 as (W5 & W6 & _).
    rewrite !subst_words_sel by (auto; congruence). destruct (m =? 1); reflexivity.
  Qed.
  Lemma zero_loop s (Ws : words_ok s) k : forall i acc tmp, any3 acc -> zero3 tmp -> (zero3 acc \/ bits (scalar_bit s) k i <> 0%nat) ->
    zero3 (scale_loop c s k i acc tmp).
  Proof.
    induction k as [|k IH]; intros i acc tmp HA HT HZ.
    - cbn in *. destruct HZ as [HZ|HZ]; [exact HZ|congruence].
    - cbn [scale_loop bits] in *. fold (scalar_bit s i). pose proof (scalar_bit_01 s i Ws) as H01.
      pose proof (zero_add tmp acc HT HA) as ZA. rewrite (any_sel acc _ _ H01 HA (rep_any _ _ _ _ ZA)).
      set (acc' := if scalar_bit s i =? 1 then ecp_point_add_rcb15 c tmp acc else acc).
      assert (HA' : any3 acc') by (unfold acc'; destruct (scalar_bit s i =? 1); [exact (rep_any _ _ _ _ ZA)|exact HA]).
      assert (HZ' : zero3 acc' \/ bits (scalar_bit s) k (S i) <> 0%nat).
      { unfold acc'. destruct H01 as [E|E]; rewrite E in *; cbn [Z.eqb] in *.
        - destruct HZ as [HZ|HZ]; [now left|right]. change (Z.to_nat 0) with 0%nat in HZ. lia.
        - now left. }
      destruct k as [|k'].
      + destruct HZ' as [Z|Z]; [exact Z|]. cbn in Z. congruence.
      + apply IH; auto. now apply zero_dbl.
  Qed.
  Theorem scale_inf acc base A scalar R : holds_point c acc A -> holds_point c base Inf -> words_ok scalar -> 2 <= vval scalar ->
    ~ holds_point c (ecp_point_scale_accumulate c acc base scalar) R.
  Proof.
    intros HA HB Ws H2s. apply zero_none. unfold ecp_point_scale_accumulate.
    pose proof (bits_all scalar Ws) as BA. destruct (length scalar * 32)%nat as [|k] eqn:EK.
    { cbn in BA. assert (Z.to_nat (vval scalar) <> 0%nat) by lia. congruence. }
    cbn [scale_loop bits] in *. fold (scalar_bit scalar 0). pose proof (scalar_bit_01 scalar 0 Ws) as H01.
    assert (AA : any3 acc) by (destruct HA as (X1 & X2 & X3 & _); split; [|split]; assumption).
    pose proof (copy_holds _ _ HB) as HC.
    assert (AC : any3 (ecp_xyz_copy c base)) by (destruct HC as (X1 & X2 & X3 & _); split; [|split]; assumption).
    assert (AD : any3 (ecp_point_add_rcb15 c (ecp_xyz_copy c base) acc))
      by exact (rep_any _ _ _ _ (add_rcb_rep c OK _ _ _ _ _ _ _ _ (any_rep _ AC) (any_rep _ AA))).
    rewrite (any_sel acc _ _ H01 AA AD).
    assert (NZ : bits (scalar_bit scalar) k 1 <> 0%nat).
    { intros E. rewrite E in BA. assert (Z.to_nat (scalar_bit scalar 0) <= 1)%nat by (destruct H01 as [X|X]; rewrite X; cbn; lia). lia. }
    destruct k as [|k']; [cbn in NZ; congruence|].
    apply zero_loop; auto.
    - destruct (scalar_bit scalar 0 =? 1); assumption.
    - now apply inf_dbl.
  Qed.
End Curve.
