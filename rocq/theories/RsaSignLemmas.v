(** RSA signing: rsa_fastdec is the inverse of x -> x^e mod n on all of [0, n), and its octets. *)
From Coq Require Import Znumtheory.
From Verif Require Import Base Blocks Vlong VlongLemmas VlongDivLemmas VlongMulLemmas NumTheory NumLemmas Rsa RsaSpec RsaLemmas Fermat Der DerLemmas.

(** e d = 1 modulo every prime minus one, n the product of distinct primes, coefficients as rsa_fastdec wants them *)
Record key_pair (wm wf : nat) (k : rsa_priv) (n e : Z) : Prop := {
  kp_fits : key_fits wm wf k;
  kp_coeffs : coeffs_ok (vval (key_q k)) (key_rest k);
  kp_n : n = vval (key_q k) * prodZ (rvals (key_rest k));
  kp_primes : Forall prime (vval (key_q k) :: rvals (key_rest k));
  kp_distinct : NoDup (vval (key_q k) :: rvals (key_rest k));
  kp_e : 0 < e;
  kp_dq : 0 < vval (key_dQ k) /\ (vval (key_q k) - 1 | e * vval (key_dQ k) - 1);
  kp_dr : Forall (fun pr => 0 < vval (d_ pr) /\ (vval (r_ pr) - 1 | e * vval (d_ pr) - 1)) (key_rest k) }.

Lemma pow_exp_mod r a b d e : 0 < r -> 0 <= d -> 0 <= e -> a mod r = (b ^ d) mod r -> (a ^ e) mod r = (b ^ (e * d)) mod r.
Proof.
  intros Hr Hd He E. rewrite <- (pow_mod r a) by lia. rewrite E, (pow_mod r (b ^ d)) by lia. rewrite <- Z.pow_mul_r by lia.
  now rewrite (Z.mul_comm d).
Qed.

Lemma sign_inverts wm wf k n e C : key_pair wm wf k n e -> words_ok C -> vval C < n ->
  let M := rsa_fastdec wm wf k C in
  words_ok M /\ length M = wm /\ 0 <= vval M < n /\ (vval M ^ e) mod n = vval C.
Proof.
  intros [KF CO Vn Pr ND Pe (Pd & Hq) Hr] WC BC M.
  destruct (fastdec_crt wm wf k C WC KF CO) as (W & L & B & Rq & Rs). fold M in W, L, B, Rq, Rs.
  split; [exact W|]. split; [exact L|]. rewrite <- Vn in B. split; [exact B|].
  apply (crt_unique (vval (key_q k) :: rvals (key_rest k))).
  - eapply Forall_impl; [|exact Pr]. intros a Ha. apply prime_ge_2 in Ha. lia.
  - clear -Pr ND. induction Pr as [|x l Hx Hl IH]; [constructor|]. inversion ND; subst. constructor; [|auto].
    rewrite Forall_forall in *. intros y Hy. apply coprime_of_primes; auto. intros ->. contradiction.
  - pose proof (Z.mod_pos_bound (vval M ^ e) n ltac:(lia)) as MB. change (prodZ (vval (key_q k) :: rvals (key_rest k))) with (vval (key_q k) * prodZ (rvals (key_rest k))). rewrite <- Vn. exact MB.
  - pose proof (vval_bound C WC) as CB. rewrite Vn in BC. split; [apply CB|exact BC].
  - assert (n0 : 0 < n) by lia.
    assert (G : forall r d, prime r -> (r | n) -> 0 < d -> (r - 1 | e * d - 1) -> vval M mod r = (vval C ^ d) mod r ->
       ((vval M ^ e) mod n) mod r = vval C mod r).
    { intros r d Hpr [c Hc] Hd Hdiv E. pose proof (prime_ge_2 r Hpr) as r2.
      assert (0 < c) by (clear -Hc r2 n0; nia). rewrite Hc, (Z.mul_comm c), Z.rem_mul_r by (clear -r2 H; lia).
      rewrite (Z.mul_comm r), Z_mod_plus_full, Zmod_mod.
      rewrite (pow_exp_mod r (vval M) (vval C) d e) by (auto; clear -r2 Hd Pe; lia).
      apply fermat_exp; auto. clear -Pe Hd. nia. }
    intros r [<-|Hin].
    + apply (G _ (vval (key_dQ k))); auto; [exact (Forall_inv Pr)|]. rewrite Vn. apply Z.divide_factor_l.
    + unfold rvals in Hin. apply in_map_iff in Hin. destruct Hin as (pr & <- & Hin).
      rewrite Forall_forall in Rs, Hr. destruct (Hr pr Hin) as (D1 & D2). apply (G _ (vval (d_ pr))); auto.
      * rewrite Forall_forall in Pr. apply Pr. right. unfold rvals. apply in_map_iff. eauto.
      * rewrite Vn. apply Z.divide_mul_r. clear -Hin. induction (key_rest k) as [|x l IH]; [destruct Hin|].
        cbn [rvals map prodZ fold_right]. fold (rvals l). fold (prodZ (rvals l)). destruct Hin as [->|Hin].
        -- apply Z.divide_factor_l.
        -- apply Z.divide_mul_r. auto.
Qed.
