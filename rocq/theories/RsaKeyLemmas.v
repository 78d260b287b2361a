(** rsa_keygen derives a consistent key from any distinct odd primes. *)
From Coq Require Import Znumtheory.
From Verif Require Import Base Vlong VlongLemmas VlongDivLemmas VlongMulLemmas NumTheory NumLemmas Rsa RsaSpec Fermat RsaLemmas.

Lemma dec1_spec r : words_ok r -> 0 < vval r ->
  words_ok (dec1 r) /\ length (dec1 r) = length r /\ vval (dec1 r) = vval r - 1.
Proof.
  intros W P. unfold dec1. rewrite vlong_adds_val, vlong_adds_length by (auto; lia).
  split; [apply vlong_adds_words|]. split; [reflexivity|].
  change (32 * Z.of_nat 0) with 0. rewrite Z.mul_1_r. pose proof (vval_bound r W). rewrite Z.mod_small; lia.
Qed.

Lemma one_vec n : (0 < n)%nat -> forall x, 0 <= x < 2 ^ 32 ->
  words_ok (upd 0 x (repeat 0 n)) /\ length (upd 0 x (repeat 0 n)) = n /\ vval (upd 0 x (repeat 0 n)) = x.
Proof.
  intros H x Hx. split; [apply upd_words; [apply repeat_words|exact Hx]|]. split; [rewrite upd_length, repeat_length; auto|].
  destruct n; [lia|]. cbn [repeat upd]. unfold upd. cbn [val_le]. rewrite val_le_zeros. lia.
Qed.

Lemma mul_into_spec wm a b : words_ok a -> words_ok b -> (0 < length b)%nat -> vval a * vval b < 2 ^ (32 * Z.of_nat wm) ->
  words_ok (mul_into wm a b) /\ length (mul_into wm a b) = wm /\ vval (mul_into wm a b) = vval a * vval b.
Proof.
  intros Wa Wb Lb B. unfold mul_into. destruct (mulv_nomod_spec wm a b 1) as (r & E & W & L & V); auto.
  rewrite E. cbn [fst]. change (1 =? 1) with true in V. cbv iota in V. split; [auto|]. split; [auto|].
  rewrite V. apply Z.mod_small. pose proof (vval_bound a Wa). pose proof (vval_bound b Wb). nia.
Qed.

Lemma prodZ_ge l : Forall (fun r => 2 < r) l -> 1 <= phi_of l <= prodZ l.
Proof.
  induction 1 as [|r l Hr _ IH]; [cbn; lia|]. unfold phi_of in *. cbn [map prodZ fold_right].
  fold (prodZ (map (fun r => r - 1) l)). fold (prodZ l). nia.
Qed.

Lemma keygen_phi_fold wm wf primes : Forall (drawn wf) primes -> forall vl,
  words_ok vl -> length vl = wm -> 0 < vval vl -> vval vl * prodZ (map vval primes) < 2 ^ (32 * Z.of_nat wm) ->
  let r := fold_left (fun vl r => mul_into wm vl (dec1 r)) primes vl in
  words_ok r /\ length r = wm /\ vval r = vval vl * phi_of (map vval primes).
Proof.
  induction 1 as [|r l (F & Lr & Pr & R2) Hl IH]; intros vl W L P B; cbv zeta.
  - cbn. rewrite Z.mul_1_r. auto.
  - destruct F as (Wr & _ & _ & _). destruct (dec1_spec r Wr ltac:(clear -R2; lia)) as (W1 & L1 & V1).
    cbn [map prodZ fold_right] in B. fold (prodZ (map vval l)) in B.
    assert (Q : 1 <= prodZ (map vval l)).
    { destruct (prodZ_ge (map vval l)); [|lia]. apply Forall_map. eapply Forall_impl; [|exact Hl].
      intros a (_ & _ & _ & ?). auto. }
    destruct (mul_into_spec wm vl (dec1 r)) as (W2 & L2 & V2); auto.
    { rewrite L1. destruct r; [cbn in R2; lia|cbn; lia]. }
    { rewrite V1. clear -P R2 B Q. nia. }
    cbn [fold_left]. destruct (IH (mul_into wm vl (dec1 r))) as (W3 & L3 & V3); auto.
    { rewrite V2, V1. clear -P R2. nia. } { rewrite V2, V1. clear -P R2 B Q. nia. }
    split; [auto|]. split; [auto|]. rewrite V3, V2, V1. cbn [map]. unfold phi_of. cbn [map prodZ fold_right]. unfold prodZ. ring.
Qed.

Section Derive.
  Variables (wm wf fuel : nat) (p q : list Z) (others : list (list Z)).
  Hypothesis Hdr : Forall (drawn wf) (p :: q :: others).
  Hypothesis Hfit : prodZ (map vval (p :: q :: others)) * 2 ^ 32 <= 2 ^ (32 * Z.of_nat wm).
  Hypothesis Hwm : (0 < wm)%nat.
  Hypothesis Hfuel : 65537 <= Z.of_nat fuel.
  Let N := prodZ (map vval (p :: q :: others)).
  Let Phi := phi_of (map vval (p :: q :: others)).

  Lemma primes_gt2 : Forall (fun r => 2 < r) (map vval (p :: q :: others)).
  Proof. apply Forall_map. eapply Forall_impl; [|exact Hdr]. intros a (_ & _ & _ & ?). auto. Qed.

  Lemma phi_spec : words_ok (keygen_phi wm (p :: q :: others)) /\ length (keygen_phi wm (p :: q :: others)) = wm /\
    vval (keygen_phi wm (p :: q :: others)) = Phi.
  Proof.
    unfold keygen_phi. destruct (one_vec wm Hwm 1 ltac:(lia)) as (W & L & V).
    destruct (keygen_phi_fold wm wf (p :: q :: others) Hdr (upd 0 1 (repeat 0 wm)) W L) as (W1 & L1 & V1).
    { rewrite V. lia. } { rewrite V. pose proof (prodZ_ge _ primes_gt2). clear -Hfit H. lia. }
    split; [exact W1|]. split; [exact L1|]. etransitivity; [exact V1|]. rewrite V, Z.mul_1_l. reflexivity.
  Qed.

  Lemma keygen_d_spec :
    (Z.gcd 65537 Phi <> 1 -> keygen_d fuel wm (p :: q :: others) = Some None) /\
    (Z.gcd 65537 Phi = 1 -> exists d, keygen_d fuel wm (p :: q :: others) = Some (Some d) /\
       words_ok d /\ length d = wm /\ 0 <= vval d < Phi /\ (Phi | 65537 * vval d - 1)).
  Proof.
    destruct phi_spec as (W & L & V). unfold keygen_d. cbv zeta.
    set (phi := keygen_phi wm (p :: q :: others)) in *. clearbody phi.
    destruct (one_vec wm Hwm 65537 ltac:(lia)) as (We & Le & Ve).
    set (ee := upd 0 65537 (repeat 0 wm)) in *. clearbody ee.
    pose proof (prodZ_ge _ primes_gt2) as PG. fold Phi N in PG.
    assert (BW : 2 ^ 32 <= 2 ^ (32 * Z.of_nat wm)) by (apply Z.pow_le_mono_r; lia).
    fold N in Hfit. clearbody N Phi. clear Hdr.
    destruct (egcd_spec wm fuel ee phi (repeat 0 wm) (repeat 0 wm) (repeat 0 wm) (repeat 0 wm)) as (A & B);
      auto using repeat_length.
    { rewrite Ve. lia. } { rewrite V. lia. } { rewrite Ve. lia. } { rewrite V. lia. } { rewrite Ve. auto. }
    rewrite Ve, V in A, B. split; intros G.
    - rewrite A by auto. reflexivity.
    - destruct (B G) as (y & E & Wy & Ly & _ & Dy). rewrite E.
      destruct (imod_residue (vlong_cpy wm y) phi) as (W5 & L5 & V5); auto using vlong_cpy_words.
      { intros X. apply (f_equal (@length Z)) in X. rewrite vlong_cpy_length in X. cbn in X. lia. }
      { rewrite vlong_cpy_length. lia. } { lia. }
      rewrite vlong_cpy_length in L5, V5. cbv zeta in V5.
      assert (EV : vval (vlong_cpy wm y) = vval y).
      { rewrite vlong_cpy_val by auto. apply Z.mod_small. rewrite <- Ly. apply vval_bound; auto. }
      rewrite EV in V5.
      fold (signed wm (vval y)) in V5.
      eexists. split; [reflexivity|]. split; [exact W5|]. split; [exact L5|].
      rewrite V5, V. split; [apply Z.mod_pos_bound; lia|].
      apply Z.mod_divide; [lia|]. rewrite Zminus_mod, Zmult_mod_idemp_r, <- Zminus_mod.
      apply Z.mod_divide; [lia|]. rewrite Z.mul_comm. exact Dy.
  Qed.
End Derive.

Lemma keygen_coeff_spec wm wf R r : words_ok R -> length R = wm -> drawn wf r -> ~ (vval r | vval R) ->
  words_ok (keygen_coeff wf R r) /\ length (keygen_coeff wf R r) = wf /\
  (vval R * vval (keygen_coeff wf R r)) mod vval r = 1.
Proof.
  intros WR LR (F & Lr & Pr & R2) ND. unfold keygen_coeff. pose proof F as (Wr & Lw & _ & Fr).
  destruct (divv_into_spec wf R r WR F) as (W1 & L1 & V1).
  pose proof (Z.mod_pos_bound (vval R) (vval r) ltac:(clear -R2; lia)) as B1.
  assert (V2 : vval (vlong_adds wf r (-2) 0) = vval r - 2).
  { rewrite vlong_adds_val by (auto; lia). change (32 * Z.of_nat 0) with 0. rewrite Z.mul_1_r.
    pose proof (vval_bound r Wr). rewrite Lr in H. apply Z.mod_small. clear -H R2. lia. }
  destruct (modexpv_into_spec wf (divv_into (repeat 0 wf) R r) (vlong_adds wf r (-2) 0) r W1 L1 F) as (W3 & L3 & V3).
  { apply vlong_adds_words. } { rewrite vlong_adds_length. destruct r; [cbn in R2; lia|cbn in Lr; lia]. }
  { rewrite V1. apply B1. }
  split; [exact W3|]. split; [exact L3|]. rewrite V3, V2, V1, pow_mod, Zmult_mod_idemp_r by (clear -R2; lia).
  apply fermat_inverse; auto.
Qed.

Lemma bit_window x i : 0 <= x -> x < 2 ^ (Z.of_nat i + 1) -> forall l, words_ok l -> vval l = x ->
  (Z.shiftr (nthZ (i / 32) l) (Z.of_nat (i mod 32)) =? 0) = (x <? 2 ^ Z.of_nat i).
Proof.
  intros Hx B l W V. rewrite nthZ_vval by auto. rewrite V, Z.shiftr_div_pow2 by lia.
  assert (Ei : Z.of_nat i = 32 * Z.of_nat (i / 32) + Z.of_nat (i mod 32)).
  { pose proof (Nat.div_mod i 32 ltac:(lia)). lia. }
  pose proof (Nat.mod_upper_bound i 32 ltac:(lia)) as Bm.
  set (a := Z.of_nat (i / 32)) in *. set (b := Z.of_nat (i mod 32)) in *.
  assert (0 <= a /\ 0 <= b < 32) as (Ha & Hb) by lia.
  replace (2 ^ 32) with (2 ^ b * 2 ^ (32 - b)) by (rewrite <- Z.pow_add_r by lia; f_equal; lia).
  assert (P1 : 0 < 2 ^ (32 * a)) by (apply Z.pow_pos_nonneg; lia).
  assert (P2 : 0 < 2 ^ b) by (apply Z.pow_pos_nonneg; lia).
  assert (P3 : 1 < 2 ^ (32 - b)) by (apply Z.pow_gt_1; lia).
  rewrite Z.rem_mul_r by lia. rewrite (Z.mul_comm (2 ^ b)), Z.div_add, (Z.div_small (_ mod _) (2 ^ b)), Z.add_0_l by (try apply Z.mod_pos_bound; lia).
  rewrite Z.div_div by lia. rewrite <- Z.pow_add_r by lia. rewrite <- Ei.
  assert (P4 : 0 < 2 ^ Z.of_nat i) by (apply Z.pow_pos_nonneg; lia).
  rewrite Z.pow_add_r in B by lia. change (2 ^ 1) with 2 in B.
  destruct (Z.ltb_spec x (2 ^ Z.of_nat i)).
  - rewrite Z.div_small, Z.mod_0_l by lia. reflexivity.
  - assert (x / 2 ^ Z.of_nat i = 1) as ->. { symmetry. apply Z.div_unique with (x - 2 ^ Z.of_nat i); lia. }
    rewrite Z.mod_small by lia. reflexivity.
Qed.

Definition mk_rest (wf : nat) (d : list Z) (rs ts : list (list Z)) : list rsa_prime :=
  map (fun rt => {| r_ := fst rt; d_ := keygen_exp wf d (fst rt); t_ := snd rt |}) (combine rs ts).

Lemma keygen_coeffs_spec wm wf bpp dd : (0 < bpp)%nat -> forall rs t R,
  Forall (drawn wf) rs -> Forall (fun r => vval r < 2 ^ Z.of_nat bpp) rs ->
  NoDup (map vval rs) -> words_ok R -> length R = wm ->
  Forall (fun r => ~ (vval r | vval R)) rs -> 0 < vval R -> vval R < 2 ^ (Z.of_nat bpp * Z.of_nat (t + 1)) ->
  vval R * prodZ (map vval rs) < 2 ^ (32 * Z.of_nat wm) ->
  match keygen_coeffs wm wf bpp t R rs with
  | Some (ts, n) => length ts = length rs /\ words_ok n /\ length n = wm /\ vval n = vval R * prodZ (map vval rs) /\
      Forall (fun t => words_ok t /\ length t = wf) ts /\ coeffs_ok (vval R) (mk_rest wf dd rs ts)
  | None => exists k, (1 <= k <= length rs)%nat /\
      vval R * prodZ (map vval (firstn k rs)) < 2 ^ (Z.of_nat bpp * Z.of_nat (t + 1 + k) - 1)
  end.
Proof.
  intros Hb. induction rs as [|r rs IH]; intros t R D SB ND WR LR NR PR SR BR.
  - cbn. rewrite Z.mul_1_r. split; [auto|]. split; [auto|]. split; [auto|]. split; [auto|]. split; [constructor|exact I].
  - inversion D as [|? ? D1 D2]; subst. inversion SB as [|? ? S1 S2]; subst. inversion NR as [|? ? N1 N2]; subst.
    cbn [map] in ND. inversion ND as [|? ? M1 M2]; subst.
    pose proof D1 as (F & Lr & Pr & R2). pose proof F as (Wr & _ & _ & _).
    cbn [map prodZ fold_right] in BR. fold (prodZ (map vval rs)) in BR.
    assert (Q : 1 <= prodZ (map vval rs)).
    { destruct (prodZ_ge (map vval rs)); [|lia]. apply Forall_map. eapply Forall_impl; [|exact D2].
      intros a (_ & _ & _ & ?). auto. }
    destruct (keygen_coeff_spec (length R) wf R r WR eq_refl D1 N1) as (Wc & Lc & Vc).
    destruct (mul_into_spec (length R) R r WR Wr) as (W2 & L2 & V2).
    { destruct r; [cbn in R2; lia|cbn; lia]. } { clear -PR R2 BR Q. nia. }
    cbn [keygen_coeffs]. cbv zeta.
    set (R' := vlong_cpy (length R) (mul_into (length R) R r)).
    assert (V3 : vval R' = vval R * vval r).
    { unfold R'. rewrite vlong_cpy_val, V2 by auto. apply Z.mod_small. clear -PR R2 BR Q. nia. }
    assert (W3 : words_ok R') by (apply vlong_cpy_words; auto).
    assert (L3 : length R' = length R) by apply vlong_cpy_length.
    clearbody R'. clear W2 L2 V2.
    set (i := (bpp * (t + 2) - 1)%nat).
    assert (Ei : Z.of_nat i = Z.of_nat bpp * Z.of_nat (t + 2) - 1) by (unfold i; nia).
    assert (SR' : vval R' < 2 ^ (Z.of_nat bpp * Z.of_nat (t + 2))).
    { rewrite V3. replace (Z.of_nat bpp * Z.of_nat (t + 2)) with (Z.of_nat bpp * Z.of_nat (t + 1) + Z.of_nat bpp) by lia.
      rewrite Z.pow_add_r by lia. clear -SR S1 PR R2. nia. }
    rewrite (bit_window (vval R') i); [|rewrite V3; clear -PR R2; nia|rewrite Ei, Z.sub_add; exact SR'|exact W3|reflexivity].
    rewrite Ei. clear i Ei.
    destruct (Z.ltb_spec (vval R') (2 ^ (Z.of_nat bpp * Z.of_nat (t + 2) - 1))) as [Hsm|Hbig].
    + exists 1%nat. split; [cbn; lia|]. cbn [firstn map prodZ fold_right]. rewrite Z.mul_1_r, <- V3.
      replace (t + 1 + 1)%nat with (t + 2)%nat by lia. exact Hsm.
    + assert (IH' := IH (S t) R' D2 S2 M2 W3 L3).
      replace (S t + 1)%nat with (t + 2)%nat in IH' by lia.
      assert (NR' : Forall (fun r0 => ~ (vval r0 | vval R')) rs).
      { rewrite Forall_forall in *. intros y Hy Dy. rewrite V3 in Dy.
        destruct (D2 y Hy) as (_ & _ & Py & _). apply prime_mult in Dy; auto. destruct Dy as [Dy|Dy].
        - apply (N2 y Hy Dy).
        - apply prime_div_prime in Dy; auto. apply M1. rewrite <- Dy. apply in_map. auto. }
      specialize (IH' NR'). rewrite V3 in IH'.
      specialize (IH' ltac:(clear -PR R2; nia)). rewrite <- V3 in IH' at 1. specialize (IH' SR').
      rewrite <- Z.mul_assoc in IH'. specialize (IH' BR).
      destruct (keygen_coeffs (length R) wf bpp (S t) R' rs) as [[ts n]|].
      * destruct IH' as (A1 & A2 & A3 & A4 & A5 & A6). split; [cbn; auto|]. split; [auto|]. split; [auto|].
        split; [rewrite A4; cbn [map prodZ fold_right]; unfold prodZ; ring|].
        split; [constructor; auto|]. cbn [mk_rest combine map coeffs_ok fst snd]. cbn [r_ t_].
        split; [rewrite Vc; symmetry; apply Z.mod_small; clear -R2; lia|]. exact A6.
      * destruct IH' as (k & Hk & Bk). exists (S k). split; [cbn; lia|].
        cbn [firstn map prodZ fold_right]. rewrite Z.mul_assoc. replace (t + 1 + S k)%nat with (t + 2 + k)%nat by lia. exact Bk.
Qed.

Lemma keygen_exp_spec wf d r m : words_ok d -> drawn wf r -> (vval r - 1 | m) -> (m | 65537 * vval d - 1) ->
  words_ok (keygen_exp wf d r) /\ length (keygen_exp wf d r) = wf /\ 0 < vval (keygen_exp wf d r) /\
  (vval r - 1 | 65537 * vval (keygen_exp wf d r) - 1).
Proof.
  intros Wd (F & Lr & Pr & R2) D1 D2. pose proof F as (Wr & Lw & _ & Fr). unfold keygen_exp.
  destruct (dec1_spec r Wr ltac:(clear -R2; lia)) as (W1 & L1 & V1).
  destruct (divv_into_spec wf d (dec1 r) Wd) as (W2 & L2 & V2).
  { split; [auto|]. rewrite V1, L1. split; [auto|]. clear -R2 Fr. lia. }
  split; [auto|]. split; [auto|]. rewrite V2, V1.
  assert (D : (vval r - 1 | 65537 * (vval d mod (vval r - 1)) - 1)).
  { apply Z.mod_divide; [clear -R2; lia|]. rewrite Zminus_mod, Zmult_mod_idemp_r, <- Zminus_mod.
    apply Z.mod_divide; [clear -R2; lia|]. eapply Z.divide_trans; eassumption. }
  split; [|exact D]. pose proof (Z.mod_pos_bound (vval d) (vval r - 1) ltac:(clear -R2; lia)) as B.
  destruct (Z.eq_dec (vval d mod (vval r - 1)) 0) as [E|]; [|lia]. rewrite E in D.
  change (65537 * 0 - 1) with (-(1)) in D. apply Z.divide_opp_r in D. apply Z.divide_1_r_nonneg in D; lia.
Qed.

Lemma phi_div l r : In r l -> (r - 1 | phi_of l).
Proof.
  unfold phi_of. induction l as [|x l IH]; [intros []|]. cbn [map prodZ fold_right]. intros [->|H].
  - apply Z.divide_factor_l.
  - apply Z.divide_mul_r. apply IH. auto.
Qed.

Lemma mk_rest_rvals wf d rs ts : length ts = length rs -> rvals (mk_rest wf d rs ts) = map vval rs.
Proof.
  unfold rvals, mk_rest. revert ts. induction rs as [|r rs IH]; intros [|t ts] L; cbn in *; try discriminate; auto.
  f_equal. apply IH. lia.
Qed.

Lemma mk_rest_forall wf d rs ts (P : rsa_prime -> Prop) : length ts = length rs ->
  (forall r t, In r rs -> In t ts -> P {| r_ := r; d_ := keygen_exp wf d r; t_ := t |}) -> Forall P (mk_rest wf d rs ts).
Proof.
  unfold mk_rest. intros L H. apply Forall_map. apply Forall_forall. intros [r t] Hi. cbn [fst snd].
  apply H; [eapply in_combine_l; eauto|eapply in_combine_r; eauto].
Qed.

Lemma derive_spec wm wf fuel bpp p q others :
  Forall (drawn wf) (p :: q :: others) -> NoDup (map vval (p :: q :: others)) ->
  Forall (fun r => vval r < 2 ^ Z.of_nat bpp) (p :: q :: others) -> (0 < bpp)%nat -> (0 < wm)%nat ->
  prodZ (map vval (p :: q :: others)) * 2 ^ 32 <= 2 ^ (32 * Z.of_nat wm) -> 65537 <= Z.of_nat fuel ->
  match keygen_derive fuel wm wf bpp p q others with
  | None => False
  | Some None => Z.gcd 65537 (phi_of (map vval (p :: q :: others))) <> 1 \/
      exists k, (1 <= k <= S (length others))%nat /\
        vval q * prodZ (map vval (firstn k (p :: others))) < 2 ^ (Z.of_nat bpp * Z.of_nat (1 + k) - 1)
  | Some (Some (n, d, k)) =>
      vval n = prodZ (map vval (p :: q :: others)) /\ 0 <= vval d < phi_of (map vval (p :: q :: others)) /\
      (phi_of (map vval (p :: q :: others)) | 65537 * vval d - 1) /\
      key_q k = q /\ map r_ (key_rest k) = p :: others /\
      forall M, words_ok M -> length M = wm -> vval M < vval n ->
        exists C, rsa_enc wm M [65537] n = Some C /\ vval C = vval M ^ 65537 mod vval n /\ words_ok C /\
                  rsa_fastdec wm wf k C = M
  end.
Proof.
  intros D ND SB Hb Hwm Fit Hfuel.
  destruct (keygen_d_spec wm wf fuel p q others D Fit Hwm Hfuel) as (K1 & K2).
  unfold keygen_derive.
  destruct (Z.eq_dec (Z.gcd 65537 (phi_of (map vval (p :: q :: others)))) 1) as [G|G].
  2:{ rewrite K1 by exact G. left. exact G. }
  destruct (K2 G) as (d & E & Wd & Ld & Bd & Dd). rewrite E. clear E K1 K2.
  pose proof (primes_gt2 wf p q others D) as GT.
  assert (Dp : drawn wf p) by (inversion D; auto). assert (Dq : drawn wf q) by (inversion D as [|? ? ? D']; inversion D'; auto).
  assert (Do : Forall (drawn wf) (p :: others)) by (inversion D as [|? ? ? D']; inversion D'; constructor; auto).
  assert (Sq : vval q < 2 ^ Z.of_nat bpp) by (inversion SB as [|? ? ? D']; inversion D'; auto).
  assert (So : Forall (fun r => vval r < 2 ^ Z.of_nat bpp) (p :: others)) by (inversion SB as [|? ? ? D']; inversion D'; constructor; auto).
  pose proof Dq as (Fq & Lq & Pq & Q2). pose proof Fq as (Wq & _ & _ & _).
  set (phi := phi_of (map vval (p :: q :: others))) in *.
  assert (PG : 1 <= prodZ (map vval (p :: others))).
  { destruct (prodZ_ge (map vval (p :: others))); [|lia]. apply Forall_map. eapply Forall_impl; [|exact Do].
    intros a (_ & _ & _ & ?). auto. }
  assert (EN : prodZ (map vval (p :: q :: others)) = vval q * prodZ (map vval (p :: others))).
  { cbn [map prodZ fold_right]. ring. }
  assert (BW : vval q * prodZ (map vval (p :: others)) < 2 ^ (32 * Z.of_nat wm)).
  { rewrite EN in Fit. clear -Fit Q2 PG. nia. }
  assert (Vq : vval (vlong_cpy wm q) = vval q). { rewrite vlong_cpy_val by auto. apply Z.mod_small. clear -Q2 PG BW. nia. }
  assert (Nq : Forall (fun r => ~ (vval r | vval q)) (p :: others)).
  { apply Forall_forall. intros r Hr Dv. rewrite Forall_forall in Do. destruct (Do r Hr) as (_ & _ & Pr & _).
    apply prime_div_prime in Dv; auto. cbn [map] in ND. inversion ND as [|? ? N1 N2]; subst. inversion N2 as [|? ? N3 N4]; subst.
    destruct Hr as [<-|Hr]; [apply N1; left; auto|apply N3; rewrite <- Dv; apply in_map; auto]. }
  assert (NDo : NoDup (map vval (p :: others))).
  { cbn [map] in *. inversion ND as [|? ? N1 N2]; subst. inversion N2; subst. constructor; auto. intros X. apply N1. right. auto. }
  assert (C := keygen_coeffs_spec wm wf bpp d Hb (p :: others) 0 (vlong_cpy wm q) Do So NDo
     (vlong_cpy_words wm q Wq) (vlong_cpy_length wm q)). rewrite Vq in C. specialize (C Nq ltac:(clear -Q2; lia)).
  change (Z.of_nat (0 + 1)) with 1 in C. rewrite Z.mul_1_r in C. specialize (C Sq BW).
  destruct (keygen_coeffs wm wf bpp 0 (vlong_cpy wm q) (p :: others)) as [[ts n]|].
  2:{ right. destruct C as (k & Hk & Bk). exists k. split; [exact Hk|exact Bk]. }
  destruct C as (Lts & Wn & Ln & Vn & Ft & Co).
  fold (mk_rest wf d (p :: others) ts). rewrite EN.
  split; [exact Vn|]. split; [exact Bd|]. split; [exact Dd|]. cbn [key_q key_rest]. split; [reflexivity|].
  split.
  { clear -Lts. unfold mk_rest. rewrite map_map. cbn [r_]. revert ts Lts. generalize (p :: others) as l.
    induction l as [|x l IH]; intros [|t ts] L; cbn in *; try discriminate; auto. f_equal. apply IH. lia. }
  intros M WM LM BM.
  destruct (keygen_exp_spec wf d q phi Wd Dq) as (We & Le & Pe & De); auto.
  { apply phi_div. cbn. auto. }
  assert (wfpos : (0 < wf)%nat). { rewrite <- Lq. destruct q; [cbn in Q2; lia|cbn; lia]. }
  destruct (fastdec_inverts wm wf {| key_q := q; key_dQ := keygen_exp wf d q; key_rest := mk_rest wf d (p :: others) ts |} [65537] n M)
    as (C & E1 & E2 & E3 & E4 & E5); cbn [key_q key_dQ key_rest]; auto.
  - unfold key_fits. cbn [key_q key_dQ key_rest]. split; [auto|]. split; [auto|]. split; [auto|]. split; [lia|].
    rewrite mk_rest_rvals by auto. split; [|exact BW].
    apply mk_rest_forall; auto. intros r t Hr Ht. unfold prime_ok. cbn [r_ d_ t_].
    rewrite Forall_forall in Do, Ft. destruct (Ft t Ht) as (Wt & Lt).
    destruct (keygen_exp_spec wf d r phi Wd (Do r Hr)) as (We' & Le' & _); auto.
    { apply phi_div. apply in_map. cbn in Hr |- *. tauto. }
    split; [apply (Do r Hr)|]. split; [auto|]. split; [lia|]. split; [auto|lia].
  - repeat constructor; unfold word_ok; lia.
  - lia.
  - rewrite Vn, <- EN. exact Fit.
  - rewrite mk_rest_rvals by auto. exact Vn.
  - rewrite mk_rest_rvals by auto. constructor; auto. apply Forall_map. eapply Forall_impl; [|exact Do]. intros a (_ & _ & ? & _); auto.
  - rewrite mk_rest_rvals by auto. constructor; auto. intros X. apply in_map_iff in X. destruct X as (y & Ey & Hy).
    rewrite Forall_forall in Nq. apply (Nq y Hy). rewrite Ey. apply Z.divide_refl.
  - apply mk_rest_forall; auto. intros r t Hr Ht. cbn [r_ d_ t_]. rewrite Forall_forall in Do.
    destruct (keygen_exp_spec wf d r phi Wd (Do r Hr)) as (_ & _ & _ & X); auto.
    apply phi_div. apply in_map. cbn in Hr |- *. tauto.
  - cbn; lia.
  - apply mk_rest_forall; auto. intros r t Hr Ht. cbn [r_ d_ t_]. rewrite Forall_forall in Do.
    destruct (keygen_exp_spec wf d r phi Wd (Do r Hr)) as (_ & _ & X & _); auto.
    apply phi_div. apply in_map. cbn in Hr |- *. tauto.
  - exists C. change (vval [65537]) with 65537 in *. auto.
Qed.
