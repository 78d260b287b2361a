(** Multiplication when the first factor is a not yet reduced octet string, and the
    exact values of the reduction modulo the group order. *)
From Coq Require Import Znumtheory.
From Verif Require Import Base Vlong VlongLemmas VlongDivLemmas VlongMulLemmas EcMod EcModLemmas EcFieldLemmas EcExpLemmas EcCurveLemmas.

Lemma mulv_loop_wide n a b mask m K A Q g :
  words_ok a -> words_ok b -> mask = 0 \/ mask = 1 -> good_on n m K Q g -> vval a <= A -> 0 <= K -> 0 <= A ->
  K + A * (2 ^ 32 - 1) <= Q -> K * 2 ^ 32 <= Q -> Q < pw n ->
  forall i out, (i <= length b)%nat -> (0 < i)%nat -> words_ok out -> length out = n -> vval out <= K ->
    vval out mod m = (vval a * (vval (beff b mask) / pw i) * 2 ^ 32) mod m ->
    exists r, mulv_loop a b mask (Some g) i out = (r, true) /\ words_ok r /\ length r = n /\
              vval r <= K /\ vval r mod m = (vval a * vval (beff b mask)) mod m.
Proof.
  intros Ha Hb Hm Hg Ba HK0 HA0 HQ1 HQ2 HQ. induction i as [|i IH]; intros out Hi H0 Wo Lo Io Vo; [lia|].
  cbn [mulv_loop]. cbv zeta. rewrite bv_spec' by (auto; lia).
  pose proof (beff_words' b mask Hb) as WB.
  pose proof (nthZ_words (beff b mask) i WB) as Wb.
  pose proof (vval_bound out Wo) as Bo. pose proof (vval_bound a Ha) as Ba0.
  assert (PB : vval a * nthZ i (beff b mask) <= A * (2 ^ 32 - 1)).
  { unfold word_ok in Wb. apply Z.mul_le_mono_nonneg; lia. }
  assert (PB0 : 0 <= vval a * nthZ i (beff b mask)) by (unfold word_ok in Wb; apply Z.mul_nonneg_nonneg; lia).
  assert (VM : vval (vlong_muls out a (nthZ i (beff b mask)) true) = vval out + vval a * nthZ i (beff b mask)).
  { rewrite vlong_muls_val by auto. rewrite Lo. rewrite Z.mod_small; [ring|]. clear -PB PB0 HQ1 HQ Bo Io. generalize dependent (vval a * nthZ i (beff b mask)). generalize dependent (A * (2 ^ 32 - 1)). intros. lia. }
  destruct (Hg (vlong_muls out a (nthZ i (beff b mask)) true)) as (o1 & E1 & W1 & L1 & V1 & I1).
  { apply vlong_muls_words. } { now rewrite vlong_muls_length. }
  { rewrite VM. clear -PB HQ1 Io. generalize dependent (vval a * nthZ i (beff b mask)). generalize dependent (A * (2 ^ 32 - 1)). intros. lia. }
  cbn [run_mod]. rewrite E1. cbn [negb].
  assert (S1 : vval o1 mod m = (vval a * (vval (beff b mask) / pw i)) mod m).
  { rewrite V1, VM, <- Zplus_mod_idemp_l, Vo, Zplus_mod_idemp_l. f_equal.
    rewrite (div_step (vval (beff b mask)) i), <- nthZ_vval by auto. ring. }
  destruct (Nat.eqb_spec i 0) as [->|N0].
  - exists o1. repeat split; auto. rewrite S1. change (32 * Z.of_nat 0) with 0. now rewrite Z.pow_0_r, Z.div_1_r.
  - rewrite L1. assert (HK : K * 2 ^ 32 < pw n) by (eapply Z.le_lt_trans; eassumption).
    pose proof (mulx_nowrap n o1 K W1 I1 HK) as VX. pose proof (vval_bound o1 W1) as Bo1.
    destruct (Hg (vlong_mulx n o1)) as (o2 & E2 & W2 & L2 & V2 & I2).
    { now apply vlong_mulx_words. } { apply vlong_mulx_length. } { rewrite VX. clear -HQ2 I1. lia. }
    rewrite E2. cbn [negb]. apply IH; [clear -Hi; lia|clear -N0; lia|assumption|assumption|assumption|].
    rewrite V2, VX. now rewrite <- Zmult_mod_idemp_l, S1, Zmult_mod_idemp_l.
Qed.

Lemma mulv_wide n a b m K A Q g :
  words_ok a -> words_ok b -> (0 < length b)%nat -> good_on n m K Q g -> vval a <= A -> 0 <= K -> 0 <= A ->
  K + A * (2 ^ 32 - 1) <= Q -> K * 2 ^ 32 <= Q -> Q < pw n ->
  exists r, vlong_mulv_masked n a b 1 (Some g) = (r, true) /\ words_ok r /\ length r = n /\
            vval r <= K /\ vval r mod m = (vval a * vval b) mod m.
Proof.
  intros Ha Hb Hl Hg Ba HK0 HA0 H1 H2 HQ. unfold vlong_mulv_masked.
  destruct (mulv_loop_wide n a b 1 m K A Q g Ha Hb (or_intror eq_refl) Hg Ba HK0 HA0 H1 H2 HQ (length b) (repeat 0 n)) as (r & E & W & L & I & V); auto.
  - apply repeat_words.
  - apply repeat_length.
  - now rewrite val_le_zeros.
  - rewrite val_le_zeros. unfold beff. cbn [Z.eqb Pos.eqb].
    rewrite vval_div_top; [|exact Hb|lia]. f_equal. ring.
  - exists r. repeat split; auto.
Qed.

(** A reduction that copes with everything below 2^32 times the modulus rounded up to whole words. *)
Definition wide_ok (n : nat) (p : list Z) (g : modfun) : Prop :=
  good_on n (vval p) (vval p) (pw (S (length p)) - 1) g /\ (S (length p) <= n)%nat.

Lemma mul_wide n p g a b : field_ok n p g -> wide_ok n p g -> words_ok a -> words_ok b -> (0 < length b)%nat -> vval a < pw (length p) ->
  rep n p (fst (vlong_mulv_masked n a b 1 (Some g))) (vval a * vval b).
Proof.
  intros F [G L] Wa Wb Lb Ba. pose proof (fo_pos _ _ _ F) as P1. pose proof (vval_bound p (fo_words _ _ _ F)) as BP.
  pose proof (pow32_pos (length p)) as PP.
  assert (X : pw (S (length p)) <= pw n) by now apply pw_le.
  destruct (mulv_wide n a b (vval p) (vval p) (pw (length p) - 1) (pw (S (length p)) - 1) g) as (r & E & W & L' & I & V); auto;
    try (rewrite ?pow32_succ in *; clear -P1 BP PP Ba X; lia).
  rewrite E. cbn [fst]. split; [|split; [|split]]; auto.
Qed.
