(** ecMt_point_scale computes the ladder of RFC 7748. *)
From Coq Require Import Znumtheory.
From Verif Require Import Base Vlong VlongLemmas VlongDivLemmas VlongMulLemmas EcMod EcModLemmas EcFieldLemmas EcExpLemmas EcCurveLemmas EcSpec EcGroupLemmas EcpXyz EcpScaleLemmas Der MtSpec EcMt.

Record mtcurve_ok (c : mt_curve) : Prop := {
  mo_field : field_ok (mt_w c) (mt_p c) (mt_g c);
  mo_a24 : 0 <= mt_a24 c <= 2 ^ 20;
  mo_low : 2 <= nthZ 0 (mt_p c) }.

Section Curve.
  Variable c : mt_curve.
  Hypothesis OK : mtcurve_ok c.
  Notation n := (mt_w c). Notation p := (mt_p c). Notation g := (mt_g c). Notation P := (vval (mt_p c)).
  Notation R := (rep n p).
  Let F : field_ok n p g := mo_field c OK.

  Lemma mul_rep' a b x y : R a x -> R b y -> R (fst (vlong_mulv_masked n a b 1 (Some g))) (x * y).
  Proof. intros A B. exact (mul_rep n p g F a b 1 x y 1 (or_intror eq_refl) A (rep_repb n p b y B)). Qed.
  Lemma add_rep2 a b x y : R a x -> R b y -> repb n p 2 (vlong_addv n a b) (x + y).
  Proof. intros A B. apply (addv_repb n p g F a b x y 1 1); [now apply rep_repb|now apply rep_repb|lia]. Qed.
  Lemma addm_rep a b x y : R a x -> R b y -> R (fst (g (vlong_addv n a b))) (x + y).
  Proof. intros A B. apply (mod_rep n p g F _ _ 2); [now apply add_rep2|lia]. Qed.
  Lemma sub_rep' a b x y : R a x -> R b y -> R (ecp_imod_inplace g p (vlong_subv n a b)) (x - y).
  Proof. intros A B. apply (sub_rep n p g F a b x y 1 1); [now apply rep_repb|now apply rep_repb|lia|lia]. Qed.
  Lemma mod_k a x k : repb n p k a x -> k <= 8 -> R (fst (g a)) x.
  Proof. intros A Hk. apply (mod_rep n p g F a x k); [exact A|lia]. Qed.
  Lemma acc_rep r s x y : R r x -> R s y -> R (fst (g (vlong_muls r s (mt_a24 c) true))) (x + mt_a24 c * y).
  Proof.
    intros (A1 & A2 & A3 & A4) (B1 & B2 & B3 & B4). pose proof (fo_pos _ _ _ F) as PP. pose proof (vval_bound r A1) as U. pose proof (vval_bound s B1) as U'.
    pose proof (mo_a24 c OK) as Hd. pose proof (fo_room _ _ _ F) as RM.
    assert (B : 0 <= vval s * mt_a24 c + vval r <= (2 ^ 20 + 1) * P) by (clear -U U' A3 B3 Hd PP; nia).
    assert (V : vval (vlong_muls r s (mt_a24 c) true) = vval s * mt_a24 c + vval r).
    { rewrite vlong_muls_val by (auto; unfold word_ok; clear -Hd; lia). rewrite A2. apply Z.mod_small. fold (pw n). clear -B RM PP. lia. }
    apply (mod_rep n p g F) with (k := 2 ^ 20 + 1); [|lia].
    split; [apply vlong_muls_words|]. split; [now rewrite vlong_muls_length|].
    rewrite V. split; [apply B|]. rewrite Z.add_comm, (Zplus_mod (vval r)), A4, (Zmult_mod (vval s)), B4, <- Zmult_mod, <- Zplus_mod, (Z.mul_comm y). reflexivity.
  Qed.

  Ltac rep_of e :=
    lazymatch e with
    | fst (vlong_mulv_masked _ ?a ?b 1 _) =>
        match goal with
        | H : R a _, H' : R b _ |- _ => constr:(mul_rep' _ _ _ _ H H')
        | H : R a _ |- _ => constr:(mul_rep' _ _ _ _ H H)
        end
    | vlong_addv _ ?a ?b => match goal with H : R a _, H' : R b _ |- _ => constr:(add_rep2 _ _ _ _ H H') end
    | vlong_subv _ ?a ?b => constr:(I)
    | ecp_imod_inplace _ _ (vlong_subv _ ?a ?b) => match goal with H : R a _, H' : R b _ |- _ => constr:(sub_rep' _ _ _ _ H H') end
    | fst (g (vlong_muls ?a ?b _ true)) => match goal with H : R a _, H' : R b _ |- _ => constr:(acc_rep _ _ _ _ H H') end
    | fst (g (vlong_addv _ ?a ?b)) => match goal with H : R a _, H' : R b _ |- _ => constr:(addm_rep _ _ _ _ H H') end
    | fst (g ?a) => match goal with H : repb n p _ a _ |- _ => constr:(mod_k _ _ _ H ltac:(clear; lia)) end
    end.
  Ltac rstep :=
    lazymatch goal with |- ?G (let x := ?e in @?b x) =>
      lazymatch e with
      | vlong_subv _ _ _ => change (G (b e)); cbv beta
      | _ =>
        let pf := rep_of e in
        let H := fresh "H" in
        pose proof pf as H;
        let v := fresh x in
        change (G (b e)); cbv beta; revert H; generalize e; intros v H
      end
    end.

  Definition srep (st : list Z * list Z * list Z * list Z) (sx : Z * Z * Z * Z) : Prop :=
    let '(x2, z2, x3, z3) := st in let '(X2, Z2, X3, Z3) := sx in R x2 X2 /\ R z2 Z2 /\ R x3 X3 /\ R z3 Z3.

  Lemma R_mod v x y : x = y -> R v x -> R v (y mod P).
  Proof. intros E H. apply (rep_ext n p v x); [|exact H]. rewrite E. symmetry. apply Zmod_mod. Qed.

  Lemma mt_step_rep x1 X1 st sx : R x1 X1 -> srep st sx -> srep (mt_step c x1 st) (rfc_step P (mt_a24 c) X1 sx).
  Proof.
    intros H1. destruct st as [[[x2 z2] x3] z3], sx as [[[X2 Z2] X3] Z3]. intros (A1 & A2 & A3 & A4).
    set (G := fun r => srep r (rfc_step P (mt_a24 c) X1 (X2, Z2, X3, Z3))).
    match goal with |- srep ?r _ => change (G r) end.
    cbv beta iota delta [mt_step].
    repeat rstep. unfold G. clear G. unfold srep, rfc_step. cbv zeta.
    split; [|split; [|split]]; (eapply R_mod; [|eassumption]); ring.
  Qed.

  Lemma cswap_sel m a b : m = 0 \/ m = 1 -> words_ok a -> words_ok b -> length b = length a ->
    cswap_words m a b = if m =? 1 then (b, a) else (a, b).
  Proof.
    intros Hm Wa Wb L.
    assert (N : forall v i, words_ok v -> 0 <= nthZ i v < 2 ^ 32).
    { intros v i W. unfold nthZ. destruct (nth_in_or_default i v 0) as [H|H]; [|rewrite H; lia]. exact (proj1 (Forall_forall _ _) W _ H). }
    assert (K : forall x y, 0 <= x < 2 ^ 32 -> 0 <= y < 2 ^ 32 -> Z.land (Z.ones 32) (Z.lxor x y) = Z.lxor x y).
    { intros x y Bx By. rewrite Z.land_comm, Z.land_ones by lia. apply Z.mod_small. now apply lxor_bound. }
    unfold cswap_words. destruct Hm as [->| ->]; [change (0 =? 1) with false|change (1 =? 1) with true]; cbv iota zeta.
    - change (u32 (- 0)) with 0. apply f_equal2; (apply list_ext; rewrite map_length, seq_length; [reflexivity|]; intros i Hi; rewrite nthZ_map_seq by exact Hi;
        rewrite Z.land_0_l, Z.lxor_0_r; reflexivity).
    - change (u32 (- 1)) with (Z.ones 32). apply f_equal2; (apply list_ext; rewrite map_length, seq_length; [congruence|]; intros i Hi; rewrite nthZ_map_seq by exact Hi;
        rewrite K by auto).
      + rewrite <- Z.lxor_assoc, Z.lxor_nilpotent, Z.lxor_0_l. reflexivity.
      + rewrite (Z.lxor_comm (nthZ i a)), <- Z.lxor_assoc, Z.lxor_nilpotent, Z.lxor_0_l. reflexivity.
  Qed.
  Lemma cswap_rep m a b x y : m = 0 \/ m = 1 -> R a x -> R b y ->
    let '(a', b') := cswap_words m a b in let '(x', y') := rfc_swap m x y in R a' x' /\ R b' y'.
  Proof.
    intros Hm HA HB. rewrite cswap_sel; auto; [|apply HA|apply HB|destruct HA as (_ & -> & _), HB as (_ & -> & _); reflexivity].
    unfold rfc_swap. destruct (m =? 1); auto.
  Qed.
  Lemma cswap_rep2 m a b x y : m = 0 \/ m = 1 -> R a x -> R b y ->
    exists a' b' x' y', cswap_words m a b = (a', b') /\ rfc_swap m x y = (x', y') /\ R a' x' /\ R b' y'.
  Proof.
    intros Hm HA HB. pose proof (cswap_rep m a b x y Hm HA HB) as H. destruct (cswap_words m a b) as [a' b'], (rfc_swap m x y) as [x' y'].
    exists a', b', x', y'. tauto.
  Qed.
  Lemma lxor01 s t : s = 0 \/ s = 1 -> t = 0 \/ t = 1 -> Z.lxor s t = 0 \/ Z.lxor s t = 1.
  Proof. intros [->| ->] [->| ->]; cbn; auto. Qed.

  Lemma mt_loop_rep k x1 X1 (Wk : words_ok k) (H1 : R x1 X1) t : forall swap st sx, swap = 0 \/ swap = 1 -> srep st sx ->
    fst (mt_loop c k x1 t swap st) = fst (rfc_loop P (mt_a24 c) (vval k) X1 t swap sx) /\
    (fst (mt_loop c k x1 t swap st) = 0 \/ fst (mt_loop c k x1 t swap st) = 1) /\
    srep (snd (mt_loop c k x1 t swap st)) (snd (rfc_loop P (mt_a24 c) (vval k) X1 t swap sx)).
  Proof.
    induction t as [|t IH]; intros swap st sx Hs HS; [cbn; auto|].
    destruct st as [[[x2 z2] x3] z3], sx as [[[X2 Z2] X3] Z3]. destruct HS as (A1 & A2 & A3 & A4). cbn [mt_loop rfc_loop].
    fold (scalar_bit k t). pose proof (scalar_bit_01 k t Wk) as H01. rewrite <- (scalar_bit_val k t Wk).
    pose proof (lxor01 _ _ Hs H01) as Hx.
    destruct (cswap_rep2 _ _ _ _ _ Hx A1 A3) as (x2' & x3' & X2' & X3' & E1 & E2 & B1 & B3). rewrite E1, E2.
    destruct (cswap_rep2 _ _ _ _ _ Hx A2 A4) as (z2' & z3' & Z2' & Z3' & E3 & E4 & B2 & B4). rewrite E3, E4.
    apply IH; [exact H01|]. apply mt_step_rep; [exact H1|]. split; [|split; [|split]]; assumption.
  Qed.

  Lemma R_one : R (1 :: repeat 0 (n - 1)) 1.
  Proof.
    assert (E : forall m, vval (repeat 0 m) = 0) by (induction m as [|m IH]; [reflexivity|cbn [repeat val_le]; rewrite IH; reflexivity]).
    pose proof (fo_pos _ _ _ F) as PP. pose proof (fo_n n p g F) as NN.
    assert (V : vval (1 :: repeat 0 (n - 1)) = 1) by (cbn [val_le]; rewrite E; reflexivity).
    split; [constructor; [unfold word_ok; lia|apply repeat_words]|]. split; [cbn [length]; rewrite repeat_length; lia|]. rewrite V. split; [lia|reflexivity].
  Qed.
  Lemma R_zero : R (repeat 0 n) 0.
  Proof.
    assert (E : forall m, vval (repeat 0 m) = 0) by (induction m as [|m IH]; [reflexivity|cbn [repeat val_le]; rewrite IH; reflexivity]).
    pose proof (fo_pos _ _ _ F) as PP. split; [apply repeat_words|]. split; [apply repeat_length|]. rewrite E. split; [lia|reflexivity].
  Qed.
  Lemma R_pow v x : R v x -> R (vlong_modexpv_shiftadded n v g p (-2) 0) (x ^ (P - 2)).
  Proof.
    intros H. pose proof (fo_words _ _ _ F) as W. pose proof (fo_pos _ _ _ F) as P1. pose proof (mo_low c OK) as H2.
    assert (L : (0 < length p)%nat). { clear -P1. destruct (mt_p c); [cbn in P1; lia|cbn; lia]. }
    pose proof (vval_bound p W) as B.
    pose proof (shiftadded_spec n p g p v x (-2) 0 F W H ltac:(lia) ltac:(lia) ltac:(lia) ltac:(lia) L) as S'.
    change (Z.of_nat 0) with 0 in S'. rewrite Z.pow_0_r, Z.div_1_r in S'. exact S'.
  Qed.
  Lemma rfc_swap_pair m x y : rfc_swap m x y = (fst (rfc_swap m x y), snd (rfc_swap m x y)).
  Proof. unfold rfc_swap. destruct (m =? 1); reflexivity. Qed.

  Theorem scale_rfc k x1 : words_ok k -> words_ok x1 -> length x1 = n -> vval x1 <= 8 * P ->
    words_ok (ecMt_point_scale c k x1) /\ length (ecMt_point_scale c k x1) = n /\ vval (ecMt_point_scale c k x1) <= P /\
    vval (ecMt_point_scale c k x1) mod P = rfc7748 P (mt_a24 c) (mt_bits c) (vval k) (vval x1).
  Proof.
    intros Wk Wx Lx Bx. pose proof (fo_pos _ _ _ F) as PP.
    assert (RX : R (fst (g x1)) (vval x1 mod P)).
    { apply (rep_ext n p _ (vval x1)); [symmetry; apply Zmod_mod|]. apply (mod_k x1 (vval x1) 8); [|lia]. split; [|split; [|split]]; auto. }
    assert (S0 : srep (1 :: repeat 0 (n - 1), repeat 0 n, fst (g x1), 1 :: repeat 0 (n - 1)) (1, 0, vval x1 mod P, 1)).
    { split; [exact R_one|]. split; [exact R_zero|]. split; [exact RX|exact R_one]. }
    destruct (mt_loop_rep k (fst (g x1)) (vval x1 mod P) Wk RX (mt_bits c) 0 _ _ (or_introl eq_refl) S0) as (E & H01 & HS).
    unfold ecMt_point_scale, rfc7748.
    destruct (mt_loop c k (fst (g x1)) (mt_bits c) 0 _) as [sw [[[x2 z2] x3] z3]].
    destruct (rfc_loop P (mt_a24 c) (vval k) (vval x1 mod P) (mt_bits c) 0 _) as [sw' [[[X2 Z2] X3] Z3]].
    cbn [fst snd] in E, H01, HS. subst sw'. destruct HS as (A1 & A2 & A3 & A4).
    destruct (cswap_rep2 _ _ _ _ _ H01 A1 A3) as (x2' & x3' & X2' & X3' & E1 & E2 & B1 & B3). rewrite E1, E2.
    destruct (cswap_rep2 _ _ _ _ _ H01 A2 A4) as (z2' & z3' & Z2' & Z3' & E3 & E4 & B2 & B4). rewrite E3, E4.
    pose proof (mul_rep' _ _ _ _ B1 (R_pow _ _ B2)) as (W & L & K & V). split; [exact W|]. split; [exact L|]. split; [exact K|exact V].
  Qed.
End Curve.
