(** rsa_fastdec = Garner's recombination of the residues, and RSA inverts. *)
From Coq Require Import Znumtheory.
From Verif Require Import Base Vlong VlongLemmas VlongDivLemmas VlongMulLemmas NumTheory NumLemmas Rsa RsaSpec Fermat.

Lemma crt_inner_spec ha : 0 <= ha < 2 ^ 32 -> forall R Mt ax, words_ok R -> words_ok Mt -> (length Mt <= length R)%nat ->
  0 <= ax < 2 ^ 32 ->
  length (crt_inner ha R Mt ax) = length Mt /\ words_ok (crt_inner ha R Mt ax) /\
  vval (crt_inner ha R Mt ax) = (vval Mt + ha * vval R + ax) mod 2 ^ (32 * Z.of_nat (length Mt)).
Proof.
  intros Hh. induction R as [|r R IH]; intros Mt ax HR HM L Hax.
  - destruct Mt; [|cbn in L; lia]. cbn. split; [auto|]. split; [constructor|]. rewrite Z.mod_1_r. reflexivity.
  - destruct Mt as [|m Mt]. { cbn. split; [auto|]. split; [constructor|]. rewrite Z.mod_1_r. reflexivity. }
    inversion HR as [|? ? Hr HR']; inversion HM as [|? ? Hm HM']; subst. unfold word_ok in Hr, Hm.
    cbn [crt_inner]. 
    assert (E1 : u64 (r * ha) = r * ha) by (unfold u64; apply Z.mod_small; nia).
    assert (E2 : u64 (ax + r * ha) = ax + r * ha) by (unfold u64; apply Z.mod_small; nia).
    assert (E3 : u64 (ax + r * ha + m) = ax + r * ha + m) by (unfold u64; apply Z.mod_small; nia).
    cbv zeta. rewrite E1, E2, E3. set (s := ax + r * ha + m) in *.
    assert (Hs : 0 <= s < 2 ^ 64) by (subst s; nia).
    destruct (IH Mt (s / 2 ^ 32)) as (L1 & W1 & V1); auto.
    { cbn in L. lia. }
    { split; [apply Z.div_pos; lia|]. apply Z.div_lt_upper_bound; [lia|]. change (2 ^ 32 * 2 ^ 32) with (2 ^ 64). lia. }
    split; [cbn [length]; auto|]. split; [constructor; [apply u32_word|auto]|].
    cbn [val_le]. rewrite V1. cbn [length]. rewrite pow32_succ.
    pose proof (pow32_pos (length Mt)) as PB. set (B := 2 ^ (32 * Z.of_nat (length Mt))) in *.
    unfold u32. 
    replace (m + 2 ^ 32 * vval Mt + ha * (r + 2 ^ 32 * vval R) + ax)
      with (s mod 2 ^ 32 + 2 ^ 32 * (vval Mt + ha * vval R + s / 2 ^ 32)).
    2:{ subst s. pose proof (Z.div_mod (ax + r * ha + m) (2 ^ 32) ltac:(lia)). lia. }
    pose proof (Z.mod_pos_bound s (2 ^ 32) ltac:(lia)).
    rewrite (Z.rem_mul_r _ (2 ^ 32) B) by lia.
    rewrite (Z.mul_comm (2 ^ 32) (vval Mt + ha * vval R + s / 2 ^ 32)), Z.mod_add, Z.div_add, (Z.div_small (s mod 2 ^ 32)), Z.mod_mod by lia.
    reflexivity.
Qed.

Lemma crt_outer_spec R : words_ok R -> forall h a M, words_ok h -> words_ok M -> (length M <= length R)%nat ->
  length (crt_outer R h a M) = length M /\ words_ok (crt_outer R h a M) /\
  vval (crt_outer R h a M) = (vval M + 2 ^ (32 * Z.of_nat a) * (vval h * vval R)) mod 2 ^ (32 * Z.of_nat (length M)).
Proof.
  intros HR. induction h as [|x h IH]; intros a M Hh HM L.
  - cbn [crt_outer val_le]. rewrite Z.mul_0_l, Z.mul_0_r, Z.add_0_r. split; [auto|]. split; [auto|].
    symmetry. apply Z.mod_small, vval_bound; auto.
  - inversion Hh as [|? ? Hx Hh']; subst. cbn [crt_outer].
    destruct (crt_inner_spec x Hx R (skipn a M) 0) as (L1 & W1 & V1); auto.
    { apply Forall_skipn; auto. } { rewrite skipn_length. lia. } { lia. }
    set (N := firstn a M ++ crt_inner x R (skipn a M) 0) in *.
    assert (LN : length N = length M). { unfold N. rewrite app_length, L1, <- app_length, firstn_skipn. reflexivity. }
    assert (WN : words_ok N). { unfold N. apply Forall_app. split; [apply Forall_firstn; auto|auto]. }
    destruct (IH (S a) N) as (L2 & W2 & V2); auto; try lia.
    split; [lia|]. split; [auto|]. rewrite V2, LN. clear IH V2 L2 W2.
    cbn [val_le].
    assert (VN : vval N mod 2 ^ (32 * Z.of_nat (length M)) = (vval M + 2 ^ (32 * Z.of_nat a) * (x * vval R)) mod 2 ^ (32 * Z.of_nat (length M))).
    { unfold N. destruct (Nat.leb_spec (length M) a).
      - rewrite skipn_all2 in * by auto. rewrite firstn_all2 by auto.
        assert (crt_inner x R [] 0 = []) as -> by (destruct R; reflexivity). rewrite app_nil_r.
        replace (32 * Z.of_nat a) with (32 * Z.of_nat (length M) + 32 * Z.of_nat (a - length M)) by lia.
        rewrite Z.pow_add_r by lia.
        replace (2 ^ (32 * Z.of_nat (length M)) * 2 ^ (32 * Z.of_nat (a - length M)) * (x * vval R))
          with (2 ^ (32 * Z.of_nat (a - length M)) * (x * vval R) * 2 ^ (32 * Z.of_nat (length M))) by ring.
        rewrite Z_mod_plus_full. reflexivity.
      - rewrite val_le_app by lia. rewrite V1, firstn_length, Nat.min_l by lia. rewrite skipn_length.
        assert (EM : vval M = vval (firstn a M) + 2 ^ (32 * Z.of_nat a) * vval (skipn a M)).
        { rewrite <- (firstn_skipn a M) at 1. rewrite val_le_app, firstn_length, Nat.min_l by lia. reflexivity. }
        rewrite EM.
        replace (32 * Z.of_nat (length M)) with (32 * Z.of_nat a + 32 * Z.of_nat (length M - a)) by lia.
        rewrite Z.pow_add_r by lia. rewrite <- Zmult_mod_distr_l. rewrite Zplus_mod_idemp_r.
        f_equal. ring. }
    rewrite Zplus_mod, VN, <- Zplus_mod. f_equal. rewrite pow32_succ. ring.
Qed.

Lemma divv_into_spec wf C r : words_ok C -> fits wf r ->
  words_ok (divv_into (repeat 0 wf) C r) /\ length (divv_into (repeat 0 wf) C r) = wf /\
  vval (divv_into (repeat 0 wf) C r) = vval C mod vval r.
Proof.
  intros HC (Hr & L & P & F). unfold divv_into. rewrite repeat_length.
  destruct (vlong_divv_spec wf None C r) as (x & q' & E & W & Lx & V & _); auto; try lia.
  rewrite E. auto.
Qed.

Lemma modexpv_into_spec wf h d r : words_ok h -> length h = wf -> fits wf r -> words_ok d -> (0 < length d)%nat ->
  vval h < vval r ->
  words_ok (modexpv_into h d r) /\ length (modexpv_into h d r) = wf /\
  vval (modexpv_into h d r) = vval h ^ vval d mod vval r.
Proof.
  intros Wh Lh (Hr & L & P & F) Wd Ld B. unfold modexpv_into, remv. rewrite Lh.
  destruct (modexpv_mod wf h d r) as (x & E & W & Lx & V); auto. rewrite E. auto.
Qed.

Lemma garner_mod M R C h m t r : 0 < r -> (R * t) mod r = 1 mod r -> h = (((C - m) mod r) * t) mod r -> m = M mod r ->
  (M + R * h) mod r = C mod r.
Proof.
  intros Hr HT Hh Hm.
  assert (E : (R * h) mod r = (C - M) mod r).
  { subst h m. rewrite Zmult_mod_idemp_r. 
    replace (R * ((C - M mod r) mod r * t)) with ((R * t) * ((C - M mod r) mod r)) by ring.
    rewrite Zmult_mod, HT, <- Zmult_mod, Z.mul_1_l, Zmod_mod. apply Zminus_mod_idemp_r. }
  rewrite Zplus_mod, E, <- Zplus_mod. f_equal. ring.
Qed.

Lemma crt_step_spec wf wm C M R pr :
  words_ok C -> words_ok M -> words_ok R -> length M = wm -> length R = wm -> (0 < wf)%nat ->
  prime_ok wf pr -> (vval R * vval (t_ pr)) mod vval (r_ pr) = 1 mod vval (r_ pr) ->
  0 <= vval M < vval R -> vval R * vval (r_ pr) < 2 ^ (32 * Z.of_nat wm) ->
  exists M' R', crt_step wf C (M, R) pr = (M', R') /\ words_ok M' /\ words_ok R' /\ length M' = wm /\ length R' = wm /\
    vval R' = vval R * vval (r_ pr) /\ 0 <= vval M' < vval R' /\
    (exists k, vval M' = vval M + vval R * k) /\
    vval M' mod vval (r_ pr) = (vval C ^ vval (d_ pr)) mod vval (r_ pr).
Proof.
  intros WC WM WR LM LR Hwf (F & Wd & Ld & Wt & Lt) T BM BR.
  pose proof F as (Wr & Lr & Pr & Fr). unfold crt_step.
  destruct (divv_into_spec wf C (r_ pr) WC F) as (W1 & L1 & V1).
  set (h1 := divv_into (repeat 0 wf) C (r_ pr)) in *. clearbody h1.
  pose proof (Z.mod_pos_bound (vval C) (vval (r_ pr)) ltac:(clear -Pr; lia)) as B1.
  destruct (modexpv_into_spec wf h1 (d_ pr) (r_ pr) W1 L1 F Wd Ld ltac:(rewrite V1; clear -B1; lia)) as (W2 & L2 & V2).
  set (h2 := modexpv_into h1 (d_ pr) (r_ pr)) in *. clearbody h2.
  destruct (divv_into_spec wf M (r_ pr) WM F) as (W3 & L3 & V3).
  set (m1 := divv_into (repeat 0 wf) M (r_ pr)) in *. clearbody m1. cbv zeta.
  set (m2 := vlong_subv (length m1) h2 m1).
  assert (W4 : words_ok m2) by apply vlong_subv_words.
  assert (L4 : length m2 = wf) by (unfold m2; rewrite vlong_subv_length; auto).
  assert (V4 : vval m2 = (vval h2 - vval m1) mod 2 ^ (32 * Z.of_nat wf)) by (unfold m2; rewrite vlong_subv_val, L3; auto).
  clearbody m2.
  destruct (imod_residue m2 (r_ pr)) as (W5 & L5 & V5); [exact W4|exact Wr| |rewrite L4; exact Lr|clear -Pr; lia|].
  { intros E. rewrite E in L4. cbn in L4. clear -L4 Hwf; lia. }
  set (m3 := vlong_imod_inplace m2 (r_ pr)) in *. clearbody m3. cbv zeta in V5. fold (signed (length m2) (vval m2)) in V5.
  pose proof (Z.mod_pos_bound (vval h1 ^ vval (d_ pr)) (vval (r_ pr)) ltac:(clear -Pr; lia)) as B2.
  pose proof (Z.mod_pos_bound (vval M) (vval (r_ pr)) ltac:(clear -Pr; lia)) as B3.
  rewrite L4, V4, signed_mod in V5.
  2: exact Hwf.
  2:{ assert (2 ^ 31 * vval (r_ pr) <= 2 ^ (32 * Z.of_nat wf) / 2) by (clear -Fr; apply Z.div_le_lower_bound; lia).
      rewrite V2, V3. clear -H B2 B3 Pr. lia. }
  pose proof (Z.mod_pos_bound (vval h2 - vval m1) (vval (r_ pr)) ltac:(clear -Pr; lia)) as B5.
  destruct (mulv_masked_mod wf m3 (t_ pr) (r_ pr) 1) as (h3 & E6 & W6 & L6 & V6);
    [exact W5|exact Wt|exact Wr|exact Lt|exact Lr|clear -Pr; lia|rewrite V5; apply B5|right; reflexivity|exact Fr|].
  rewrite Z.pow_1_r in V6. unfold remv. rewrite E6. cbn [fst].
  pose proof (Z.mod_pos_bound (vval m3 * vval (t_ pr)) (vval (r_ pr)) ltac:(clear -Pr; lia)) as B6.
  destruct (crt_outer_spec R WR h3 0 M W6 WM ltac:(clear -LM LR; lia)) as (L7 & W7 & V7).
  destruct (mulv_nomod_spec (length R) R (r_ pr) 1) as (t2 & E8 & W8 & L8 & V8); auto.
  { clear -Pr. destruct (r_ pr); [cbn in Pr; lia|cbn; lia]. }
  rewrite E8. cbn [fst]. change (1 =? 1) with true in V8. cbv iota in V8.
  exists (crt_outer R h3 0 M), (vlong_cpy (length R) t2). split; [reflexivity|].
  assert (VR : vval (vlong_cpy (length R) t2) = vval R * vval (r_ pr)).
  { rewrite vlong_cpy_val by auto. rewrite V8, Zmod_mod, LR. apply Z.mod_small. clear -BM BR Pr. nia. }
  assert (VM : vval (crt_outer R h3 0 M) = vval M + vval R * vval h3).
  { rewrite V7. change (32 * Z.of_nat 0) with 0. change (2 ^ 0) with 1. rewrite LM, Z.mod_small; [ring|]. rewrite <- V6 in B6. clear -BM BR B6. nia. }
  split; [auto|]. split; [apply vlong_cpy_words; auto|]. split; [rewrite L7; exact LM|]. split; [rewrite vlong_cpy_length; exact LR|].
  split; [auto|]. split; [rewrite VM, VR; rewrite <- V6 in B6; clear -BM BR B6; nia|]. split; [exists (vval h3); auto|].
  rewrite VM. rewrite <- (pow_mod (vval (r_ pr)) (vval C)) by (clear -Pr; lia). rewrite <- V1, <- (Zmod_mod (vval h1 ^ _)), <- V2.
  apply garner_mod with (m := vval m1) (t := vval (t_ pr)); [clear -Pr; lia| | |exact V3].
  - exact T.
  - rewrite V6, V5. reflexivity.
Qed.

Lemma crt_fold_spec wf wm C : words_ok C -> (0 < wf)%nat -> forall l M R,
  words_ok M -> words_ok R -> length M = wm -> length R = wm ->
  Forall (prime_ok wf) l -> coeffs_ok (vval R) l ->
  0 <= vval M < vval R -> vval R * prodZ (rvals l) < 2 ^ (32 * Z.of_nat wm) ->
  exists M' R', fold_left (crt_step wf C) l (M, R) = (M', R') /\ words_ok M' /\ length M' = wm /\
    0 <= vval M' < vval R * prodZ (rvals l) /\
    (exists k, vval M' = vval M + vval R * k) /\
    Forall (fun pr => vval M' mod vval (r_ pr) = (vval C ^ vval (d_ pr)) mod vval (r_ pr)) l.
Proof.
  intros WC Hwf. induction l as [|pr l IH]; intros M R WM WR LM LR HP HT BM BR.
  - exists M, R. cbn [rvals map prodZ fold_right]. rewrite Z.mul_1_r. split; [reflexivity|].
    split; [auto|]. split; [auto|]. split; [auto|]. split; [exists 0; lia|constructor].
  - inversion HP as [|? ? P1 P2]; subst. destruct HT as (T1 & T2).
    cbn [rvals map prodZ fold_right] in BR. fold (rvals l) in BR. fold (prodZ (rvals l)) in BR.
    assert (PP : 1 <= prodZ (rvals l)).
    { clear -P2. induction P2 as [|pr l [(_ & _ & Hr & _) _] ? IH]; cbn [rvals map prodZ fold_right]; [lia|].
      fold (rvals l). fold (prodZ (rvals l)). nia. }
    assert (P1r : 1 < vval (r_ pr)) by (destruct P1 as ((_ & _ & ? & _) & _); auto).
    destruct (crt_step_spec wf (length M) C M R pr) as (M1 & R1 & E & W1 & W2 & L1 & L2 & VR & B1 & (k & Hk) & Res); auto.
    { nia. }
    cbn [fold_left]. rewrite E.
    destruct (IH M1 R1) as (M' & R' & E' & W' & L' & B' & (k' & Hk') & Res'); auto.
    { rewrite VR. auto. } { rewrite VR. rewrite <- Z.mul_assoc. auto. }
    exists M', R'. split; [auto|]. split; [auto|]. split; [auto|].
    cbn [rvals map prodZ fold_right]. fold (rvals l). fold (prodZ (rvals l)).
    split; [rewrite VR in B'; rewrite Z.mul_assoc; auto|].
    split; [exists (k + vval (r_ pr) * k'); rewrite Hk', Hk, VR; ring|].
    constructor; [|auto]. rewrite <- Res, Hk', VR.
    replace (vval M1 + vval R * vval (r_ pr) * k') with (vval M1 + (vval R * k') * vval (r_ pr)) by ring.
    apply Z_mod_plus_full.
Qed.

Lemma fastdec_crt wm wf k C : words_ok C -> key_fits wm wf k -> coeffs_ok (vval (key_q k)) (key_rest k) ->
  let M := rsa_fastdec wm wf k C in
  words_ok M /\ length M = wm /\ 0 <= vval M < vval (key_q k) * prodZ (rvals (key_rest k)) /\
  vval M mod vval (key_q k) = (vval C ^ vval (key_dQ k)) mod vval (key_q k) /\
  Forall (fun pr => vval M mod vval (r_ pr) = (vval C ^ vval (d_ pr)) mod vval (r_ pr)) (key_rest k).
Proof.
  intros WC (Hwf & F & Wd & Ld & P & BN) T. cbv zeta. unfold rsa_fastdec.
  pose proof F as (Wq & Lq & Pq & Fq).
  destruct (divv_into_spec wf C (key_q k) WC F) as (W1 & L1 & V1).
  set (h1 := divv_into (repeat 0 wf) C (key_q k)) in *.
  pose proof (Z.mod_pos_bound (vval C) (vval (key_q k)) ltac:(lia)) as B1.
  destruct (modexpv_into_spec wf h1 (key_dQ k) (key_q k) W1 L1 F Wd Ld ltac:(lia)) as (W2 & L2 & V2).
  set (h2 := modexpv_into h1 (key_dQ k) (key_q k)) in *.
  pose proof (Z.mod_pos_bound (vval h1 ^ vval (key_dQ k)) (vval (key_q k)) ltac:(lia)) as B2.
  assert (PP : 1 <= prodZ (rvals (key_rest k))).
  { clear -P. induction P as [|pr l [(_ & _ & Hr & _) _] ? IH]; cbn [rvals map prodZ fold_right]; [lia|].
    fold (rvals l). fold (prodZ (rvals l)). nia. }
  assert (Vq : vval (vlong_cpy wm (key_q k)) = vval (key_q k)). { rewrite vlong_cpy_val by auto. apply Z.mod_small. nia. }
  assert (Vh : vval (vlong_cpy wm h2) = vval h2). { rewrite vlong_cpy_val by auto. apply Z.mod_small. nia. }
  destruct (crt_fold_spec wf wm C WC Hwf (key_rest k) (vlong_cpy wm h2) (vlong_cpy wm (key_q k)))
    as (M' & R' & E & W' & L' & B' & (j & Hj) & Res); auto using vlong_cpy_words, vlong_cpy_length.
  { rewrite Vq. auto. } { rewrite Vq, Vh. lia. } { rewrite Vq. auto. }
  rewrite E. cbn [fst]. rewrite Vq, Vh in *. split; [auto|]. split; [auto|]. split; [auto|]. split; [|auto].
  rewrite Hj. replace (vval h2 + vval (key_q k) * j) with (vval h2 + j * vval (key_q k)) by ring.
  rewrite Z_mod_plus_full, V2, Zmod_mod, V1. apply pow_mod. lia.
Qed.

Lemma coprime_of_primes p q : prime p -> prime q -> p <> q -> rel_prime p q.
Proof.
  intros Hp Hq N. apply prime_rel_prime; auto. intros D. apply N. apply prime_div_prime; auto.
Qed.

Lemma fastdec_inverts wm wf k e n M :
  key_fits wm wf k -> coeffs_ok (vval (key_q k)) (key_rest k) ->
  words_ok e -> words_ok n -> (0 < length e)%nat -> (length n <= wm)%nat ->
  vval n * 2 ^ 32 <= 2 ^ (32 * Z.of_nat wm) ->
  vval n = vval (key_q k) * prodZ (rvals (key_rest k)) ->
  Forall prime (vval (key_q k) :: rvals (key_rest k)) -> NoDup (vval (key_q k) :: rvals (key_rest k)) ->
  (vval (key_q k) - 1 | vval e * vval (key_dQ k) - 1) ->
  Forall (fun pr => (vval (r_ pr) - 1 | vval e * vval (d_ pr) - 1)) (key_rest k) ->
  0 < vval e -> 0 < vval (key_dQ k) -> Forall (fun pr => 0 < vval (d_ pr)) (key_rest k) ->
  words_ok M -> length M = wm -> vval M < vval n ->
  exists C, rsa_enc wm M e n = Some C /\ words_ok C /\ length C = wm /\ vval C = vval M ^ vval e mod vval n /\
            rsa_fastdec wm wf k C = M.
Proof.
  intros KF CO We Wn Le Ln Bn Vn Pr ND Hq Hr Pe Pd Pds WM LM BM.
  assert (Pos : Forall (fun r => 0 < r) (vval (key_q k) :: rvals (key_rest k))).
  { eapply Forall_impl; [|exact Pr]. intros a Ha. apply prime_ge_2 in Ha. lia. }
  assert (n1 : 1 < vval n).
  { inversion Pr as [|? ? P1 P2]; subst. apply prime_ge_2 in P1. rewrite Vn.
    assert (1 <= prodZ (rvals (key_rest k))); [|nia].
    clear -P2. induction P2 as [|x l Hx ? IH]; cbn; [lia|]. apply prime_ge_2 in Hx. unfold prodZ in IH. nia. }
  destruct (modexpv_mod wm M e n) as (C & E & WC & LC & VC); auto.
  exists C. unfold rsa_enc, remv. split; [exact E|]. split; [auto|]. split; [auto|]. split; [auto|].
  destruct (fastdec_crt wm wf k C WC KF CO) as (W & L & B & Rq & Rs).
  apply (val_le_inj 32); auto; try lia.
  apply (crt_unique (vval (key_q k) :: rvals (key_rest k))); auto.
  - clear -Pr ND. induction Pr as [|x l Hx Hl IH]; [constructor|]. inversion ND; subst. constructor; [|auto].
    rewrite Forall_forall in *. intros y Hy. apply coprime_of_primes; auto. intros ->. contradiction.
  - pose proof (vval_bound M WM). rewrite Vn in BM. cbn. unfold prodZ in *. lia.
  - assert (G : forall r d, prime r -> (r | vval n) -> 0 < d -> (r - 1 | vval e * d - 1) ->
       (vval C ^ d) mod r = vval M mod r).
    { intros r d Hpr [c Hc] Hd Hdiv. pose proof (prime_ge_2 r Hpr).
      rewrite <- (pow_mod r (vval C)) by lia. rewrite VC, Hc, (Z.mul_comm c).
      assert (0 < c) by (clear -Hc H n1; nia). rewrite Z.rem_mul_r by (clear -H H0; lia).
      rewrite (Z.mul_comm r), Z_mod_plus_full, Zmod_mod, pow_mod, <- Z.pow_mul_r by (clear -H Pe Hd; lia).
      apply fermat_exp; auto. clear -Pe Hd; nia. }
    intros r [<-|Hin].
    + rewrite Rq. inversion Pr; subst. apply G; auto. rewrite Vn. apply Z.divide_factor_l.
    + unfold rvals in Hin. apply in_map_iff in Hin. destruct Hin as (pr & <- & Hin).
      rewrite Forall_forall in Rs, Hr, Pds. rewrite Rs by auto. apply G; auto.
      * rewrite Forall_forall in Pr. apply Pr. right. unfold rvals. apply in_map_iff. eauto.
      * rewrite Vn. apply Z.divide_mul_r. clear -Hin. induction (key_rest k) as [|x l IH]; [destruct Hin|].
        cbn [rvals map prodZ fold_right]. fold (rvals l). fold (prodZ (rvals l)). destruct Hin as [->|Hin].
        -- apply Z.divide_factor_l.
        -- apply Z.divide_mul_r. auto.
Qed.
