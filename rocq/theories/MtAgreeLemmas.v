(** Montgomery points come from Edwards points; the ladder commutes. *)
From Coq Require Import ZArith Znumtheory Lia Setoid Morphisms.
From Verif Require Import Base Fermat EcSpec EcGroupLemmas EdSpec EdCert EdGroupLemmas ScaleLemmas EdScaleLemmas EdCompleteLemmas MtSpec MtLadderLemmas.
Open Scope Z_scope.

(** x1 = 0: everything becomes 0 *)
Section Zero.
  Variables (p a24 : Z).
  Hypothesis P2 : 2 < p.
  Definition zinv (swap : Z) (st : Z * Z * Z * Z) : Prop :=
    let '(x2, z2, x3, z3) := st in (z2 = 0 /\ z3 = 0) \/ (swap = 0 /\ (x2, z2, x3, z3) = (1, 0, 0, 1)).
  Lemma zero_loop k t : forall swap st, zinv swap st -> zinv (fst (rfc_loop p a24 k 0 t swap st)) (snd (rfc_loop p a24 k 0 t swap st)).
  Proof.
    induction t as [|t IH]; intros swap st L; [exact L|]. cbn [rfc_loop].
    set (kt := (k / 2 ^ Z.of_nat t) mod 2). destruct st as [[[x2 z2] x3] z3].
    assert (G : forall X2 Z2 X3 Z3, X2 * Z2 = 0 -> zinv kt (rfc_step p a24 0 (X2, Z2, X3, Z3))).
    { intros X2 Z2 X3 Z3 H0. unfold rfc_step, zinv. left. split; [|rewrite Z.mul_0_l; apply Zmod_0_l].
      replace ((X2 + Z2) * (X2 + Z2) - (X2 - Z2) * (X2 - Z2)) with (4 * (X2 * Z2)) by ring. rewrite H0. apply Zmod_0_l. }
    unfold rfc_swap. destruct L as [[-> ->]|[-> E]].
    - destruct (Z.lxor swap kt =? 1); cbv iota; apply IH; apply G; ring.
    - inversion E; subst. destruct (Z.lxor 0 kt =? 1); cbv iota; apply IH; apply G; ring.
  Qed.
  Lemma rfc_zero bits k : rfc7748 p a24 bits k 0 = 0.
  Proof.
    unfold rfc7748. rewrite Zmod_0_l. pose proof (zero_loop k bits 0 (1, 0, 0, 1) (or_intror (conj eq_refl eq_refl))) as L.
    destruct (rfc_loop p a24 k 0 bits 0 (1, 0, 0, 1)) as [sw [[[x2 z2] x3] z3]]. cbn [fst snd] in L. unfold zinv in L. unfold rfc_swap.
    destruct L as [[-> ->]|[-> E]].
    - destruct (sw =? 1); rewrite Z.pow_0_l, Z.mul_0_r by lia; apply Zmod_0_l.
    - inversion E; subst. cbn [Z.eqb]. rewrite Z.pow_0_l, Z.mul_0_r by lia; apply Zmod_0_l.
  Qed.
End Zero.

Section Agree.
  Variables (p a d1 d2 ep a24 A kap : Z).
  Hypothesis Hp : prime p.
  Hypothesis H2 : p <> 2.
  Hypothesis HC : ed_complete p a d1 d2.
  Notation "x == y" := (eqm p x y) (at level 70).
  Hypothesis Hep : (ep = 1 /\ a24 * (a * d2 - d1) == d1) \/ (ep = -1 /\ a24 * (d1 - a * d2) == a * d2).
  Hypothesis HA : ep * A * (a * d2 - d1) == 2 * (a * d2 + d1).
  Hypothesis Hk : kap * kap * (a * d2 - d1) == 4 * ep * d2.
  Notation dd := (dd p d1 d2).
  Notation ok := (evalid p a d1 d2).
  Notation vop := (eop p a d1 d2).
  Notation mulP := (smul epoint vop (0, 1)).

  Lemma epsq : ep * ep = 1. Proof. destruct Hep as [[-> _]|[-> _]]; reflexivity. Qed.
  Lemma ep_nz : ~ ep == 0.
  Proof. intros E. apply (one_nz p Hp H2). rewrite <- epsq, E. apply eqm_eq; ring. Qed.
  Lemma A_dd : ep * A * (a - dd) == 2 * (a + dd).
  Proof.
    assert (N : ~ d2 == 0) by apply HC. apply (cancel p Hp d2 _ _ N). pose proof HA as H. rewrite <- (dd_spec p a d1 d2 Hp H2 HC) in H.
    replace (d2 * (2 * (a + dd))) with (2 * (a * d2 + d2 * dd)) by ring. rewrite <- H. apply eqm_eq; ring.
  Qed.
  Lemma k_dd : kap * kap * (a - dd) == 4 * ep.
  Proof.
    assert (N : ~ d2 == 0) by apply HC. apply (cancel p Hp d2 _ _ N). pose proof Hk as H. rewrite <- (dd_spec p a d1 d2 Hp H2 HC) in H.
    replace (d2 * (4 * ep)) with (4 * ep * d2) by ring. rewrite <- H. apply eqm_eq; ring.
  Qed.
  Lemma four_nz : ~ 4 == 0.
  Proof. pose proof (two_nz p Hp H2). replace 4 with (2 * 2) by reflexivity. now apply (mul_nz p Hp). Qed.
  Lemma kap_nz' : ~ kap == 0.
  Proof. intros E. apply (mul_nz p Hp 4 ep four_nz ep_nz). rewrite <- k_dd, E. apply eqm_eq; ring. Qed.

  (** kap^2 (a (u+e)^2 - d (u-e)^2) = 4 e (u^2 + A u + 1) *)
  Lemma mont_key u : kap * kap * (a * ((u + ep) * (u + ep)) - dd * ((u - ep) * (u - ep))) == 4 * ep * (u * u + A * u + 1).
  Proof.
    assert (E1 : kap * kap * (2 * (a + dd)) == 4 * A).
    { rewrite <- A_dd. replace (kap * kap * (ep * A * (a - dd))) with (ep * A * (kap * kap * (a - dd))) by ring. rewrite k_dd.
      replace (ep * A * (4 * ep)) with (4 * A * (ep * ep)) by ring. rewrite epsq. apply eqm_eq; ring. }
    replace (kap * kap * (a * ((u + ep) * (u + ep)) - dd * ((u - ep) * (u - ep)))) with
      (kap * kap * (a - dd) * (u * u + ep * ep) + ep * u * (kap * kap * (2 * (a + dd)))) by ring.
    rewrite k_dd, E1, epsq. apply eqm_eq; ring.
  Qed.

  Lemma mont_point u : on_montgomery p A u -> ~ u == 0 ->
    exists B, ok B /\ ~ 1 - snd B == 0 /\ u * (ep * (1 - snd B)) == 1 + snd B.
  Proof.
    intros (v & Hv) Nu. pose proof (mont_key u) as K. pose proof kap_nz' as NK. pose proof four_nz as N4. pose proof ep_nz as Ne.
    destruct HC as (_ & (s & Hs) & Na & _).
    assert (Hv' : v * v == u * (u * u + A * u + 1)) by (rewrite Hv; apply eqm_eq; ring). clear Hv.
    (* u + e <> 0 *)
    assert (N1 : ~ u + ep == 0).
    { intros E. assert (Eu : u == - ep). { replace u with (u + ep - ep) by ring. rewrite E. apply eqm_eq; ring. }
      destruct (div_ex p 0 Hp H2 kap v NK) as (w & Hw). apply (dd_nonsquare p a d1 d2 Hp H2 HC w).
      apply (cancel p Hp (4 * (kap * kap))); [repeat apply (mul_nz p Hp); assumption|].
      replace (4 * (kap * kap) * (w * w)) with (4 * (w * kap * (w * kap))) by ring. rewrite Hw, Hv'.
      replace (4 * (u * (u * u + A * u + 1))) with (u * ep * (4 * ep * (u * u + A * u + 1)) + 4 * u * (1 - ep * ep) * (u * u + A * u + 1)) by ring.
      rewrite epsq, <- K, E, Eu.
      replace (- ep * ep * (kap * kap * (a * (0 * 0) - dd * ((- ep - ep) * (- ep - ep)))) + 4 * - ep * (1 - 1) * (- ep * - ep + A * - ep + 1)) with
        (4 * (kap * kap) * dd * (ep * ep) * (ep * ep)) by ring. rewrite epsq. apply eqm_eq; ring. }
    (* v <> 0 *)
    assert (Nv : ~ v == 0).
    { intros E. rewrite E in Hv'. change (0 * 0) with 0 in Hv'. symmetry in Hv'. apply (mul0 p Hp) in Hv'. destruct Hv' as [Hv'|Hv']; [tauto|].
      rewrite Hv' in K. rewrite Z.mul_0_r in K. apply (mul0 p Hp) in K. destruct K as [K|K]; [apply (mul0 p Hp) in K; tauto|]. apply eqm_minus in K.
      destruct (eqm_dec p (u - ep) 0) as [Y|Y].
      - rewrite Y in K. assert (K' : a * ((u + ep) * (u + ep)) == 0) by (rewrite K; apply eqm_eq; ring).
        apply (mul0 p Hp) in K'. destruct K' as [K'|K']; [tauto|]. apply (mul0 p Hp) in K'; tauto.
      - apply (nz_ratio p a d1 d2 Hp H2 HC (u - ep) (s * (u + ep)) Y). rewrite <- K, Hs. apply eqm_eq; ring. }
    destruct (div_ex p 0 Hp H2 (u + ep) (u - ep) N1) as (y & Hy). destruct (div_ex p 0 Hp H2 v (kap * u) Nv) as (x & Hx).
    assert (S1 : (1 - y) * (u + ep) == 2 * ep). { replace ((1 - y) * (u + ep)) with (u + ep - y * (u + ep)) by ring. rewrite Hy. apply eqm_eq; ring. }
    assert (S2 : (1 + y) * (u + ep) == 2 * u). { replace ((1 + y) * (u + ep)) with (u + ep + y * (u + ep)) by ring. rewrite Hy. apply eqm_eq; ring. }
    assert (ON : on p a d1 d2 x y).
    { unfold on. apply eqm_minus.
      assert (X : v * v * ((u + ep) * (u + ep)) * (a * (x * x) + y * y - (1 + dd * (x * x * (y * y)))) == 0).
      { replace (v * v * ((u + ep) * (u + ep)) * (a * (x * x) + y * y - (1 + dd * (x * x * (y * y))))) with
          (x * v * (x * v) * (a * ((u + ep) * (u + ep)) - dd * (y * (u + ep) * (y * (u + ep)))) - v * v * ((1 - y) * (u + ep) * ((1 + y) * (u + ep)))) by ring.
        rewrite Hx, Hy, S1, S2, Hv'.
        replace (kap * u * (kap * u) * (a * ((u + ep) * (u + ep)) - dd * ((u - ep) * (u - ep)))) with
          (u * u * (kap * kap * (a * ((u + ep) * (u + ep)) - dd * ((u - ep) * (u - ep))))) by ring. rewrite K. apply eqm_eq; ring. }
      apply (mul0 p Hp) in X. destruct X as [X|X]; [|exact X]. exfalso. revert X. repeat apply (mul_nz p Hp); assumption. }
    destruct (ecanon_of p Hp H2 (x, y)) as ([x' y'] & KB & [E1 E2]). cbn in E1, E2. exists (x', y'). cbn [snd].
    split; [split; [|exact KB]|split].
    - apply (ed_on_eq p a d1 d2 (x, y)); [split; assumption|]. now apply (on_iff p a d1 d2 Hp H2 HC).
    - rewrite <- E2. intros E. rewrite E in S1. apply (mul_nz p Hp 2 ep (two_nz p Hp H2) Ne). rewrite <- S1. apply eqm_eq; ring.
    - rewrite <- E2. apply (cancel p Hp (u + ep) _ _ N1). replace ((u + ep) * (u * (ep * (1 - y)))) with (u * ep * ((1 - y) * (u + ep))) by ring.
      rewrite S1. rewrite (Z.mul_comm (u + ep)), S2. replace (u * ep * (2 * ep)) with (2 * u * (ep * ep)) by ring. rewrite epsq. apply eqm_eq; ring.
  Qed.

  Lemma uc_det u u' P : ucoord p ep u P -> ucoord p ep u' P -> u == u'.
  Proof.
    intros [[A1 B1]|[A1 B1]] [[A2 B2]|[A2 B2]]; try tauto; [now rewrite B1, B2|].
    assert (N : ~ ep * (1 - snd P) == 0) by (apply (mul_nz p Hp); [exact ep_nz|exact A1]).
    apply (cancel p Hp _ _ _ N). rewrite !(Z.mul_comm (ep * _)). now rewrite B1, B2.
  Qed.
  Lemma smul_mul B j k : ok B -> mulP j (mulP k B) = mulP (j * k) B.
  Proof.
    intros VB. assert (V : ok (mulP k B)) by now apply mulB_V.
    induction j as [|j IH]; [reflexivity|]. cbn [smul Nat.mul]. rewrite IH. symmetry. now apply mulB_add.
  Qed.
  (** points with u = 0: (0, 1) and (0, -1) *)
  Definition small (P : epoint) : Prop := fst P == 0 /\ snd P * snd P == 1.
  Lemma small_y P : ok P -> snd P * snd P == 1 -> small P.
  Proof.
    destruct P as [x y]. intros V E. split; [|exact E]. cbn [fst snd] in *. pose proof (okE p a d1 d2 Hp H2 HC x y V) as C.
    apply (on_K p a d1 d2) in C. rewrite E in C. 
    assert (C' : x * x * (a - dd) == 0). { replace (a - dd) with (a - dd * 1) by ring. rewrite C. now apply eqm_eq. }
    apply (mul0 p Hp) in C'. destruct C' as [C'|C']; [apply (mul0 p Hp) in C'; tauto|]. destruct (kap_nz p a d1 d2 Hp H2 HC C').
  Qed.
  Lemma small_op P Q : ok P -> ok Q -> small P -> small Q -> small (vop P Q).
  Proof.
    intros VP VQ [X1 Y1] [X2 Y2]. apply small_y; [now apply eop_valid|].
    pose proof (add_vop p a d1 d2 Hp H2 HC P Q VP VQ) as S. destruct P as [x1 y1], Q as [x2 y2], (vop (x1, y1) (x2, y2)) as [x3 y3]. cbn [fst snd] in *.
    destruct S as (_ & N & _ & S). rewrite X1, X2 in S, N.
    assert (S' : d2 * y3 == d2 * (y1 * y2)). { transitivity (y3 * (d2 - d1 * (0 * 0 * (y1 * y2)))); [apply eqm_eq; ring|]. rewrite S. apply eqm_eq; ring. }
    apply (cancel p Hp) in S'; [|apply HC]. rewrite S'. replace (y1 * y2 * (y1 * y2)) with (y1 * y1 * (y2 * y2)) by ring. rewrite Y1, Y2. now apply eqm_eq.
  Qed.
  Lemma small_mul j P : ok P -> small P -> small (mulP j P).
  Proof.
    intros VP S. induction j as [|j IH]; cbn [smul]; [split; cbn; now apply eqm_eq|]. apply small_op; auto. now apply mulB_V.
  Qed.
  Lemma small_u u P : small P -> ucoord p ep u P -> u == 0.
  Proof.
    intros [_ Y] [[_ B]|[N B]]; [exact B|].
    assert (E : (1 - snd P) * (1 + snd P) == 0) by (replace ((1 - snd P) * (1 + snd P)) with (1 - snd P * snd P) by ring; rewrite Y; now apply eqm_eq).
    apply (mul0 p Hp) in E. destruct E as [E|E]; [tauto|]. rewrite E in B. apply (mul0 p Hp) in B. destruct B as [B|B]; [exact B|].
    exfalso. revert B. apply (mul_nz p Hp); [exact ep_nz|exact N].
  Qed.
  Lemma zero_small u P : ok P -> ucoord p ep u P -> u == 0 -> small P.
  Proof.
    intros V H E. apply small_y; [exact V|]. destruct H as [[B _]|[_ B]].
    - apply eqm_minus. replace (snd P * snd P - 1) with ((1 - snd P) * - (1 + snd P)) by ring. rewrite B. apply eqm_eq; ring.
    - rewrite E in B. rewrite Z.mul_0_l in B. apply eqm_minus. replace (snd P * snd P - 1) with ((1 + snd P) * (snd P - 1)) by ring. rewrite <- B. apply eqm_eq; ring.
  Qed.

  Lemma rfc_mod bits k u u' : u == u' -> rfc7748 p a24 bits k u = rfc7748 p a24 bits k u'.
  Proof. intros E. unfold rfc7748. apply eqm_mod in E; [|pose proof (prime_ge_2 p Hp); lia]. now rewrite E. Qed.

  (** iterating the ladder *)
  Lemma rfc_twice B u bits j k : ok B -> ~ 1 - snd B == 0 -> u * (ep * (1 - snd B)) == 1 + snd B -> ~ u == 0 -> 0 <= j -> 0 <= k ->
    ucoord p ep (rfc7748 p a24 bits j (rfc7748 p a24 bits k u)) (mulP (Z.to_nat (j mod 2 ^ Z.of_nat bits) * Z.to_nat (k mod 2 ^ Z.of_nat bits)) B).
  Proof.
    intros VB NB HU NU Hj Hk'. pose proof (prime_ge_2 p Hp) as G2.
    pose proof (rfc7748_u p a d1 d2 ep a24 Hp H2 HC Hep B u VB NB NU HU bits k u ltac:(reflexivity) Hk') as R.
    set (kk := Z.to_nat (k mod 2 ^ Z.of_nat bits)) in *. set (u' := rfc7748 p a24 bits k u) in *. clearbody u' kk.
    assert (VK : ok (mulP kk B)) by now apply mulB_V.
    rewrite <- smul_mul by exact VB.
    destruct (eqm_dec p u' 0) as [Z0|Z0].
    - rewrite (rfc_mod bits j u' 0 Z0), rfc_zero by lia.
      pose proof (zero_small _ _ VK R Z0) as SM.
      pose proof (small_mul (Z.to_nat (j mod 2 ^ Z.of_nat bits)) _ VK SM) as SJ. set (Q := mulP (Z.to_nat (j mod 2 ^ Z.of_nat bits)) (mulP kk B)) in *. clearbody Q.
      destruct (eqm_dec p (1 - snd Q) 0) as [Y|Y]; [left; split; [exact Y|reflexivity]|right; split; [exact Y|]].
      destruct SJ as [_ SJ]. apply eqm_minus in SJ.
      replace (snd Q * snd Q - 1) with (- (1 - snd Q) * (1 + snd Q)) in SJ by ring. apply (mul0 p Hp) in SJ. destruct SJ as [SJ|SJ].
      + exfalso. apply Y. replace (1 - snd Q) with (- - (1 - snd Q)) by ring. rewrite SJ. now apply eqm_eq.
      + rewrite SJ. apply eqm_eq; ring.
    - destruct R as [[_ R]|[N1 R]]; [tauto|].
      apply (rfc7748_u p a d1 d2 ep a24 Hp H2 HC Hep (mulP kk B) u' VK N1 Z0 R bits j u' ltac:(reflexivity) Hj).
  Qed.

  Theorem rfc_commutes u bits j k : on_montgomery p A u -> 0 <= j -> 0 <= k ->
    rfc7748 p a24 bits j (rfc7748 p a24 bits k u) = rfc7748 p a24 bits k (rfc7748 p a24 bits j u).
  Proof.
    intros HM Hj Hk'. pose proof (prime_ge_2 p Hp) as G2.
    destruct (eqm_dec p u 0) as [Z0|Z0].
    - rewrite !(rfc_mod bits _ u 0 Z0), !rfc_zero by lia. reflexivity.
    - destruct (mont_point u HM Z0) as (B & VB & NB & HU).
      pose proof (rfc_twice B u bits j k VB NB HU Z0 Hj Hk') as R1. pose proof (rfc_twice B u bits k j VB NB HU Z0 Hk' Hj) as R2.
      rewrite Nat.mul_comm in R2. pose proof (uc_det _ _ _ R1 R2) as E. apply eqm_mod in E; [|lia].
      assert (RG : forall i w, 0 <= rfc7748 p a24 bits i w < p).
      { intros i w. unfold rfc7748. destruct (rfc_loop p a24 i (w mod p) bits 0 _) as [sw [[[x2 z2] x3] z3]]. 
        destruct (rfc_swap sw x2 x3), (rfc_swap sw z2 z3). apply Z.mod_pos_bound. lia. }
      rewrite !Z.mod_small in E by apply RG. exact E.
  Qed.
End Agree.
