(** ecEd_point_add and ecEd_point_dbl evaluate their polynomials. *)
From Coq Require Import Znumtheory.
From Verif Require Import Base Vlong VlongLemmas VlongDivLemmas VlongMulLemmas EcMod EcModLemmas EcFieldLemmas EcExpLemmas EcSpec EcGroupLemmas EcpXyz EdSpec EcEd.

(** What a curve definition must satisfy. *)
Record edcurve_ok (c : ed_curve) : Prop := {
  eo_field : field_ok (ed_w c) (ed_p c) (ed_g c);
  eo_a : - 2 ^ 12 <= ed_a c <= 2 ^ 12;
  eo_over : - 2 ^ 20 <= ed_over c <= 2 ^ 20;
  eo_under : 0 <= ed_under c <= 2 ^ 20 }.

Definition xytz_rep (c : ed_curve) (q : ed_xytz) (X Y T Z : Z) : Prop :=
  rep (ed_w c) (ed_p c) (ex q) X /\ rep (ed_w c) (ed_p c) (ey q) Y /\ rep (ed_w c) (ed_p c) (et q) T /\ rep (ed_w c) (ed_p c) (ez q) Z.

Section Curve.
  Variable c : ed_curve.
  Hypothesis OK : edcurve_ok c.
  Notation n := (ed_w c). Notation p := (ed_p c). Notation g := (ed_g c).
  Notation R := (rep n p).
  Let F : field_ok n p g := eo_field c OK.

  Lemma zeros_ok : words_ok (repeat 0 n) /\ length (repeat 0 n) = n.
  Proof. split; [apply repeat_words|apply repeat_length]. Qed.
  Lemma mul_rep' a b x y : R a x -> R b y -> R (fst (vlong_mulv_masked n a b 1 (Some g))) (x * y).
  Proof. intros A B. exact (mul_rep n p g F a b 1 x y 1 (or_intror eq_refl) A (rep_repb n p b y B)). Qed.
  Lemma add_rep2 a b x y : R a x -> R b y -> repb n p 2 (vlong_addv n a b) (x + y).
  Proof. intros A B. apply (addv_repb n p g F a b x y 1 1); [now apply rep_repb|now apply rep_repb|lia]. Qed.
  Lemma sub_rep' a b x y : R a x -> R b y -> R (ecp_imod_inplace g p (vlong_subv n a b)) (x - y).
  Proof. intros A B. apply (sub_rep n p g F a b x y 1 1); [now apply rep_repb|now apply rep_repb|lia|lia]. Qed.
  Lemma sub_rep2 a b x y : repb n p 2 a x -> R b y -> R (ecp_imod_inplace g p (vlong_subv n a b)) (x - y).
  Proof. intros A B. apply (sub_rep n p g F a b x y 2 1); [exact A|now apply rep_repb|lia|lia]. Qed.
  Lemma imuls_a a x : R a x -> R (ecp_imod_inplace g p (vlong_imuls (repeat 0 n) a (ed_a c) false)) (x * ed_a c).
  Proof. intros A. apply (imuls_rep n p g F _ a x _ 1); [apply zeros_ok|apply zeros_ok|now apply rep_repb|lia|exact (eo_a c OK)]. Qed.
  Lemma mod_k a x k : repb n p k a x -> k <= 8 -> R (fst (g a)) x.
  Proof. intros A Hk. apply (mod_rep n p g F a x k); [exact A|lia]. Qed.

  (** x + a y in one signed multiplication *)
  Lemma subimuls_rep s r y x : R s y -> R r x ->
    R (ecp_imod_inplace g p (vlong_subv n s (vlong_imuls (repeat 0 n) r (ed_a c) false))) (y - x * ed_a c).
  Proof.
    intros (A1 & A2 & A3 & A4) (B1 & B2 & B3 & B4). pose proof (fo_pos _ _ _ F) as PP. pose proof (vval_bound s A1) as U.
    pose proof (vval_bound r B1) as U'. pose proof (eo_a c OK) as HA.
    assert (V : vval (vlong_imuls (repeat 0 n) r (ed_a c) false) = (vval r * ed_a c) mod pw n).
    { rewrite vlong_imuls_val by (auto; try apply zeros_ok; clear -HA; lia). rewrite Z.add_0_r, repeat_length. reflexivity. }
    apply (imod_rep n p g F) with (s := vval s - vval r * ed_a c).
    - apply vlong_subv_words.
    - apply vlong_subv_length.
    - rewrite vlong_subv_val by (try assumption; try apply imuls_loop_words; unfold vlong_imuls; rewrite ?imuls_loop_length, ?repeat_length; auto). rewrite V.
      fold (pw n). rewrite Zminus_mod_idemp_r. reflexivity.
    - clear -U U' A3 B3 HA PP. nia.
    - rewrite Zminus_mod, A4, (Zmult_mod (vval r)), B4, <- (Zmult_mod x), <- Zminus_mod. reflexivity.
  Qed.
  Lemma lin_rep r s x y k d : 0 <= d <= 2 ^ 20 -> - 2 ^ 20 <= k <= 2 ^ 20 -> R r x -> R s y ->
    R (ecp_imod_inplace g p (vlong_imuls (vlong_muls (repeat 0 n) r d false) s k true)) (x * d + y * k).
  Proof.
    intros Hd Hk (A1 & A2 & A3 & A4) (B1 & B2 & B3 & B4). pose proof (fo_pos _ _ _ F) as PP. pose proof (vval_bound r A1) as U.
    pose proof (vval_bound s B1) as U'.
    assert (V : vval (vlong_muls (repeat 0 n) r d false) = (vval r * d) mod pw n).
    { rewrite vlong_muls_val by (auto; try apply zeros_ok; unfold word_ok; clear -Hd; lia). rewrite Z.add_0_r, repeat_length. reflexivity. }
    apply (imod_rep n p g F) with (s := vval r * d + vval s * k).
    - apply imuls_loop_words.
    - unfold vlong_imuls. rewrite imuls_loop_length, vlong_muls_length. apply repeat_length.
    - rewrite vlong_imuls_val by (try assumption; try apply vlong_muls_words; clear -Hk; lia). rewrite V, vlong_muls_length, repeat_length.
      fold (pw n). rewrite Zplus_mod_idemp_r. f_equal. ring.
    - clear -U U' A3 B3 Hd Hk PP. nia.
    - rewrite Zplus_mod, (Zmult_mod (vval r)), A4, (Zmult_mod (vval s)), B4, <- (Zmult_mod x), <- (Zmult_mod y), <- Zplus_mod. reflexivity.
  Qed.
  Lemma mulmod_rep r x : R r x -> R (fst (g (vlong_muls (repeat 0 n) r (ed_under c) false))) (x * ed_under c).
  Proof.
    intros (A1 & A2 & A3 & A4). pose proof (fo_pos _ _ _ F) as PP. pose proof (vval_bound r A1) as U. pose proof (eo_under c OK) as Hd.
    pose proof (fo_room _ _ _ F) as RM.
    assert (B : 0 <= vval r * ed_under c <= 2 ^ 20 * vval p) by (clear -U A3 Hd PP; nia).
    apply (mod_rep n p g F) with (k := 2 ^ 20); [|lia].
    split; [apply vlong_muls_words|]. split; [rewrite vlong_muls_length; apply repeat_length|].
    assert (V : vval (vlong_muls (repeat 0 n) r (ed_under c) false) = vval r * ed_under c).
    { rewrite vlong_muls_val by (auto; try apply zeros_ok; unfold word_ok; clear -Hd; lia). rewrite Z.add_0_r, repeat_length.
      apply Z.mod_small. fold (pw n). clear -B RM PP. lia. }
    rewrite V. split; [apply B|]. rewrite Zmult_mod, A4, <- Zmult_mod. reflexivity.
  Qed.
  Lemma lin_plus r s x y : R r x -> R s y ->
    R (ecp_imod_inplace g p (vlong_imuls (vlong_muls (repeat 0 n) r (ed_under c) false) s (ed_over c) true)) (x * ed_under c + y * ed_over c).
  Proof. apply lin_rep; [apply (eo_under c OK)|apply (eo_over c OK)]. Qed.
  Lemma lin_minus r s x y : R r x -> R s y ->
    R (ecp_imod_inplace g p (vlong_imuls (vlong_muls (repeat 0 n) r (ed_under c) false) s (- ed_over c) true)) (x * ed_under c + y * - ed_over c).
  Proof. apply lin_rep; [apply (eo_under c OK)|pose proof (eo_over c OK); lia]. Qed.

  Ltac rep_of e :=
    lazymatch e with
    | fst (vlong_mulv_masked _ ?a ?b 1 _) =>
        match goal with
        | H : R a _, H' : R b _ |- _ => constr:(mul_rep' _ _ _ _ H H')
        | H : R a _ |- _ => constr:(mul_rep' _ _ _ _ H H)
        end
    | vlong_addv _ ?a ?b =>
        match goal with
        | H : R a _, H' : R b _ |- _ => constr:(add_rep2 _ _ _ _ H H')
        | H : R a _ |- _ => constr:(add_rep2 _ _ _ _ H H)
        end
    | ecp_imod_inplace _ _ (vlong_subv _ ?a (vlong_imuls _ ?b _ false)) =>
        match goal with H : R a _, H' : R b _ |- _ => constr:(subimuls_rep _ _ _ _ H H') end
    | ecp_imod_inplace _ _ (vlong_subv _ ?a ?b) =>
        match goal with
        | H : R a _, H' : R b _ |- _ => constr:(sub_rep' _ _ _ _ H H')
        | H : repb n p 2 a _, H' : R b _ |- _ => constr:(sub_rep2 _ _ _ _ H H')
        end
    | ecp_imod_inplace _ _ (vlong_imuls (vlong_muls _ ?a _ _) ?b (- _) true) => match goal with H : R a _, H' : R b _ |- _ => constr:(lin_minus _ _ _ _ H H') end
    | ecp_imod_inplace _ _ (vlong_imuls (vlong_muls _ ?a _ _) ?b _ true) => match goal with H : R a _, H' : R b _ |- _ => constr:(lin_plus _ _ _ _ H H') end
    | ecp_imod_inplace _ _ (vlong_imuls _ ?a (ed_a c) false) => match goal with H : R a _ |- _ => constr:(imuls_a _ _ H) end
    | fst (g (vlong_muls _ ?a _ false)) => match goal with H : R a _ |- _ => constr:(mulmod_rep _ _ H) end
    | fst (g ?a) => match goal with H : repb n p _ a _ |- _ => constr:(mod_k _ _ _ H ltac:(clear; lia)) end
    | _ => match goal with H : R e _ |- _ => constr:(H) end
    end.
  Ltac rstep :=
    lazymatch goal with |- ?G (let x := ?e in @?b x) =>
      let pf := rep_of e in
      let H := fresh "H" in
      pose proof pf as H;
      let v := fresh x in
      change (G (b e)); cbv beta; revert H; generalize e; intros v H
    end.

  Lemma ed_add_rep q1 q2 X1 Y1 T1 Z1 X2 Y2 T2 Z2 : xytz_rep c q1 X1 Y1 T1 Z1 -> xytz_rep c q2 X2 Y2 T2 Z2 ->
    let w := X1 * Y2 + X2 * Y1 in let u := Y1 * Y2 - X1 * X2 * ed_a c in
    let v := Z1 * Z2 * ed_under c - T1 * T2 * ed_over c in let v' := Z1 * Z2 * ed_under c + T1 * T2 * ed_over c in
    xytz_rep c (ecEd_point_add c q1 q2) (w * v * ed_under c) (u * v' * ed_under c) (u * w * ed_under c * ed_under c) (v * v').
  Proof.
    intros (A1 & A2 & A3 & A4) (B1 & B2 & B3 & B4) w u v v'.
    set (G := fun r => xytz_rep c r (w * v * ed_under c) (u * v' * ed_under c) (u * w * ed_under c * ed_under c) (v * v')).
    match goal with |- xytz_rep c ?r _ _ _ _ => change (G r) end.
    cbv beta delta [ecEd_point_add].
    repeat rstep. unfold G. clear G. unfold xytz_rep. cbn [ex ey et ez].
    split; [|split; [|split]]; (eapply (rep_eq n p); [|eassumption]); unfold w, u, v, v'; ring.
  Qed.

  Lemma ed_dbl_rep q1 X Y T Z : xytz_rep c q1 X Y T Z ->
    let u := Y * Y + X * X * ed_a c in let v := Y * Y - X * X * ed_a c in
    let s := 2 * (X * Y) in let w := 2 * (Z * Z) - u in
    xytz_rep c (ecEd_point_dbl c q1) (s * w) (u * v) (s * v) (u * w).
  Proof.
    intros (A1 & A2 & A3 & A4) u v s w.
    set (G := fun r => xytz_rep c r (s * w) (u * v) (s * v) (u * w)).
    match goal with |- xytz_rep c ?r _ _ _ _ => change (G r) end.
    cbv beta delta [ecEd_point_dbl].
    repeat rstep. unfold G. clear G. unfold xytz_rep. cbn [ex ey et ez].
    split; [|split; [|split]]; (eapply (rep_eq n p); [|eassumption]); unfold w, u, v, s; ring.
  Qed.
End Curve.
