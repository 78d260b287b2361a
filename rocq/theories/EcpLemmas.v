(** ecp_point_add_rcb15 and ecp_point_dbl_fast evaluate their polynomials. *)
From Coq Require Import Znumtheory.
From Verif Require Import Base Vlong VlongLemmas VlongDivLemmas VlongMulLemmas EcMod EcModLemmas EcFieldLemmas EcExpLemmas EcSpec EcGroupLemmas EcpXyz.

(** What a curve definition must satisfy (all of it holds for the three curves by computation,
    except that p is taken to be prime where the group law needs it). *)
Record curve_ok (c : ecp_curve) : Prop := {
  co_field : field_ok (cv_w c) (cv_p c) (cv_g c);
  co_a : - 2 ^ 12 <= cv_a c <= 2 ^ 12;
  co_b : words_ok (cv_b c); co_blen : (0 < length (cv_b c))%nat; co_ble : vval (cv_b c) <= vval (cv_p c) }.

(** The registers of a point hold these residues. *)
Definition xyz_rep (c : ecp_curve) (q : ecp_xyz) (X Y Z : Z) : Prop :=
  rep (cv_w c) (cv_p c) (px q) X /\ rep (cv_w c) (cv_p c) (py q) Y /\ rep (cv_w c) (cv_p c) (pz q) Z.

Ltac zlet H := match goal with |- ?G (let x := ?e in @?b x) => change (let x := e in G (b x)); intro end.

Section Curve.
  Variable c : ecp_curve.
  Hypothesis OK : curve_ok c.
  Notation n := (cv_w c). Notation p := (cv_p c). Notation g := (cv_g c).
  Notation R := (rep n p).
  Let F : field_ok n p g := co_field c OK.

  Lemma zeros_ok : words_ok (repeat 0 n) /\ length (repeat 0 n) = n.
  Proof. split; [apply repeat_words|apply repeat_length]. Qed.

  Lemma mul_rep' a b x y : R a x -> R b y -> R (fst (vlong_mulv_masked n a b 1 (Some g))) (x * y).
  Proof. intros A B. exact (mul_rep n p g F a b 1 x y 1 (or_intror eq_refl) A (rep_repb n p b y B)). Qed.
  Lemma mul_repk a b k x y : R a x -> repb n p k b y -> R (fst (vlong_mulv_masked n a b 1 (Some g))) (x * y).
  Proof. intros A B. exact (mul_rep n p g F a b 1 x y k (or_intror eq_refl) A B). Qed.
  Lemma mul_b_l a x : R a x -> R (fst (vlong_mulv_masked n (cv_b c) a 1 (Some g))) (vval (cv_b c) * x).
  Proof.
    intros (A1 & A2 & A3 & A4). pose proof (fo_n n p g F) as N. pose proof (fo_pos _ _ _ F). pose proof (fo_room _ _ _ F).
    destruct (mulv_on n (cv_b c) a 1 (vval p) (vval p) g) as (r & E & W & L & K & V);
      [exact (co_b c OK)|exact A1|lia|now right|apply (fo_good _ _ _ F)|exact (co_ble c OK)|lia|lia|].
    rewrite E. cbn [fst]. split; [|split; [|split]]; auto. rewrite V.
    change (1 =? 1) with true. cbv iota. rewrite Zmult_mod, A4, <- Zmult_mod. reflexivity.
  Qed.
  Lemma mul_b_r a x : R a x -> R (fst (vlong_mulv_masked n a (cv_b c) 1 (Some g))) (x * vval (cv_b c)).
  Proof.
    intros (A1 & A2 & A3 & A4). pose proof (fo_pos _ _ _ F). pose proof (fo_room _ _ _ F).
    destruct (mulv_on n a (cv_b c) 1 (vval p) (vval p) g) as (r & E & W & L & K & V);
      [exact A1|exact (co_b c OK)|exact (co_blen c OK)|now right|apply (fo_good _ _ _ F)|exact A3|lia|lia|].
    rewrite E. cbn [fst]. split; [|split; [|split]]; auto. rewrite V.
    change (1 =? 1) with true. cbv iota. rewrite Zmult_mod, A4, <- Zmult_mod. reflexivity.
  Qed.
  Lemma add_rep2 a b x y : R a x -> R b y -> repb n p 2 (vlong_addv n a b) (x + y).
  Proof. intros A B. apply (addv_repb n p g F a b x y 1 1); [now apply rep_repb|now apply rep_repb|lia]. Qed.
  Lemma sub_rep' a b x y : R a x -> R b y -> R (ecp_imod_inplace g p (vlong_subv n a b)) (x - y).
  Proof. intros A B. apply (sub_rep n p g F a b x y 1 1); [now apply rep_repb|now apply rep_repb|lia|lia]. Qed.
  Lemma imuls_a a x : R a x -> R (ecp_imod_inplace g p (vlong_imuls (repeat 0 n) a (cv_a c) false)) (x * cv_a c).
  Proof. intros A. apply (imuls_rep n p g F _ a x _ 1); [apply zeros_ok|apply zeros_ok|now apply rep_repb|lia|exact (co_a c OK)]. Qed.
  Lemma imuls_k a x k : R a x -> 0 <= k <= 8 -> repb n p k (vlong_imuls (repeat 0 n) a k false) (x * k).
  Proof.
    intros A Hk. apply (repb_weaken n p g F (1 * k)); [lia|].
    apply (imuls_repb n p g F); [apply zeros_ok|apply zeros_ok|now apply rep_repb|lia|lia].
  Qed.
  Lemma muls_k a x k : R a x -> 0 <= k <= 8 -> repb n p k (vlong_muls (repeat 0 n) a k false) (x * k).
  Proof.
    intros A Hk. apply (repb_weaken n p g F (1 * k)); [lia|].
    apply (muls_repb n p g F); [apply zeros_ok|apply zeros_ok|now apply rep_repb|lia|lia].
  Qed.
  Lemma mod_k a x k : repb n p k a x -> k <= 8 -> R (fst (g a)) x.
  Proof. intros A Hk. apply (mod_rep n p g F a x k); [exact A|lia]. Qed.
  Lemma imod_k a x k : repb n p k a x -> k <= 8 -> R (ecp_imod_inplace g p a) x.
  Proof. intros A Hk. apply (imod_rep0 n p g F a k x); [exact A|lia]. Qed.
  Lemma add_repk a b x y k : repb n p k a x -> R b y -> 0 <= k <= 8 -> repb n p (k + 1) (vlong_addv n a b) (x + y).
  Proof. intros A B Hk. apply (addv_repb n p g F a b x y k 1); [exact A|now apply rep_repb|lia]. Qed.
  Lemma cpy_rep' a x : R a x -> R (vlong_cpy n a) x.
  Proof. apply (cpy_rep n p). Qed.

  Ltac find_rep v k :=
    match goal with
    | H : R v ?x |- _ => k H
    end.
  Ltac rep_of e := (* a proof of [rep] or [repb] for one operation *)
    lazymatch e with
    | fst (vlong_mulv_masked _ (cv_b c) ?a 1 _) => match goal with H : R a _ |- _ => constr:(mul_b_l _ _ H) end
    | fst (vlong_mulv_masked _ ?a (cv_b c) 1 _) => match goal with H : R a _ |- _ => constr:(mul_b_r _ _ H) end
    | fst (vlong_mulv_masked _ ?a ?b 1 _) =>
        match goal with
        | H : R a _, H' : R b _ |- _ => constr:(mul_rep' _ _ _ _ H H')
        | H : R a _, H' : repb n p _ b _ |- _ => constr:(mul_repk _ _ _ _ _ H H')
        | H : R a _ |- _ => constr:(mul_rep' _ _ _ _ H H)
        end
    | vlong_addv _ ?a ?b =>
        match goal with
        | H : R a _, H' : R b _ |- _ => constr:(add_rep2 _ _ _ _ H H')
        | H : repb n p _ a _, H' : R b _ |- _ => constr:(add_repk _ _ _ _ _ H H' ltac:(clear; lia))
        end
    | ecp_imod_inplace _ _ (vlong_subv _ ?a ?b) =>
        match goal with H : R a _, H' : R b _ |- _ => constr:(sub_rep' _ _ _ _ H H') end
    | ecp_imod_inplace _ _ (vlong_imuls _ ?a (cv_a c) false) => match goal with H : R a _ |- _ => constr:(imuls_a _ _ H) end
    | vlong_imuls _ ?a ?k false => match goal with H : R a _ |- _ => constr:(imuls_k _ _ k H ltac:(clear; lia)) end
    | vlong_muls _ ?a ?k false => match goal with H : R a _ |- _ => constr:(muls_k _ _ k H ltac:(clear; lia)) end
    | fst (g ?a) => match goal with H : repb n p _ a _ |- _ => constr:(mod_k _ _ _ H ltac:(clear; lia)) end
    | ecp_imod_inplace _ _ ?a => match goal with H : repb n p _ a _ |- _ => constr:(imod_k _ _ _ H ltac:(clear; lia)) end
    | vlong_cpy _ ?a => match goal with H : R a _ |- _ => constr:(cpy_rep' _ _ H) end
    | _ => match goal with H : R e _ |- _ => constr:(H) end
    end.
  Ltac rstep :=
    lazymatch goal with |- ?G (let x := ?e in @?b x) =>
      let pf := rep_of e in
      let H := fresh "H" in
      pose proof pf as H;
      let v := fresh x in
      change (G (b e)); cbv beta; revert H; generalize e; intros v H
    end.

  Lemma add_rcb_rep q1 q2 X1 Y1 Z1 X2 Y2 Z2 : xyz_rep c q1 X1 Y1 Z1 -> xyz_rep c q2 X2 Y2 Z2 ->
    xyz_rep c (ecp_point_add_rcb15 c q1 q2)
      (rcbX (cv_a c) (vval (cv_b c)) X1 Y1 Z1 X2 Y2 Z2) (rcbY (cv_a c) (vval (cv_b c)) X1 Y1 Z1 X2 Y2 Z2)
      (rcbZ (cv_a c) (vval (cv_b c)) X1 Y1 Z1 X2 Y2 Z2).
  Proof.
    intros (A1 & A2 & A3) (B1 & B2 & B3). 
    set (G := fun r => xyz_rep c r (rcbX (cv_a c) (vval (cv_b c)) X1 Y1 Z1 X2 Y2 Z2) (rcbY (cv_a c) (vval (cv_b c)) X1 Y1 Z1 X2 Y2 Z2)
      (rcbZ (cv_a c) (vval (cv_b c)) X1 Y1 Z1 X2 Y2 Z2)).
    match goal with |- xyz_rep c ?r _ _ _ => change (G r) end.
    cbv beta delta [ecp_point_add_rcb15].
    repeat rstep. unfold G. clear G. unfold xyz_rep. cbn [px py pz].
    split; [|split]; (eapply (rep_eq n p); [|eassumption]); unfold rcbX, rcbY, rcbZ; ring.
  Qed.

  Lemma dbl_fast_rep q1 X Y Z : xyz_rep c q1 X Y Z ->
    let w := 3 * (X * X) + cv_a c * (Z * Z) in
    let s := Y * Y * Z in
    xyz_rep c (ecp_point_dbl_fast c q1) (Y * Z * (2 * (w * w - 8 * (s * X))))
      (4 * ((3 * (w * X) - 2 * s) * (Y * Y) * Z) - w * w * w) (8 * (Y * Z * (Y * Z) * (Y * Z))).
  Proof.
    intros (A1 & A2 & A3) w s.
    set (G := fun r => xyz_rep c r (Y * Z * (2 * (w * w - 8 * (s * X))))
      (4 * ((3 * (w * X) - 2 * s) * (Y * Y) * Z) - w * w * w) (8 * (Y * Z * (Y * Z) * (Y * Z)))).
    match goal with |- xyz_rep c ?r _ _ _ => change (G r) end.
    cbv beta delta [ecp_point_dbl_fast].
    repeat rstep. unfold G. clear G. unfold xyz_rep. cbn [px py pz].
    split; [|split]; (eapply (rep_eq n p); [|eassumption]); unfold w, s; ring.
  Qed.
End Curve.
