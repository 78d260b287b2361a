(** Properties C45 (RSA with CRT), C48 (Miller-Rabin), C50 (extended Euclid) and
    C52 (RSA key derivation).  [prime], [rel_prime] are the standard library's
    (Znumtheory); [val_le 32 l] is the number denoted by the words l; the
    vocabulary is in RsaSpec.v and MillerRabinSpec.v. *)
From Coq Require Import Znumtheory.
From Verif Require Import Base Vlong VlongLemmas NumTheory NumLemmas Rsa RsaSpec Fermat RsaLemmas RsaKeyLemmas RsaGenLemmas
  MillerRabin MillerRabinSpec MillerRabinLemmas.

(** * C50: EGCD.  [c] is the common width of the six variables; the arguments
    need one spare bit.  The loop stops within x iterations; NULL exactly when
    x and p are not coprime; otherwise the signed result y satisfies
    y*x = 1 (mod p) and |y| <= p. *)
Theorem C50_egcd : forall (c fuel : nat) (x p quo rem y1 y2 : list Z),
  (0 < c)%nat -> words_ok x -> words_ok p ->
  length x = c -> length p = c -> length quo = c -> length rem = c -> length y1 = c -> length y2 = c ->
  0 < val_le 32 x -> 0 < val_le 32 p ->
  2 * val_le 32 x <= 2 ^ (32 * Z.of_nat c) -> 2 * val_le 32 p < 2 ^ (32 * Z.of_nat c) ->
  val_le 32 x <= Z.of_nat fuel ->
  (Z.gcd (val_le 32 x) (val_le 32 p) <> 1 -> EGCD fuel x p quo rem y1 y2 = Some None) /\
  (Z.gcd (val_le 32 x) (val_le 32 p) = 1 -> exists y, EGCD fuel x p quo rem y1 y2 = Some (Some y) /\
     words_ok y /\ length y = c /\ - val_le 32 p <= signed c (val_le 32 y) <= val_le 32 p /\
     (val_le 32 p | signed c (val_le 32 y) * val_le 32 x - 1)).
Proof. exact egcd_spec. Qed.
Print Assumptions C50_egcd.

(** Followed by vlong_imod_inplace, as in rsa_keygen, it is the inverse in [0,p). *)
Theorem C50_inverse : forall (c fuel : nat) (x p quo rem y1 y2 : list Z),
  (0 < c)%nat -> words_ok x -> words_ok p ->
  length x = c -> length p = c -> length quo = c -> length rem = c -> length y1 = c -> length y2 = c ->
  0 < val_le 32 x -> 0 < val_le 32 p ->
  2 * val_le 32 x <= 2 ^ (32 * Z.of_nat c) -> 2 * val_le 32 p < 2 ^ (32 * Z.of_nat c) ->
  val_le 32 x <= Z.of_nat fuel -> Z.gcd (val_le 32 x) (val_le 32 p) = 1 ->
  exists y, EGCD fuel x p quo rem y1 y2 = Some (Some y) /\
    0 <= val_le 32 (vlong_imod_inplace y p) < val_le 32 p /\
    (val_le 32 (vlong_imod_inplace y p) * val_le 32 x) mod val_le 32 p = 1 mod val_le 32 p.
Proof.
  intros c fuel x p quo rem y1 y2 Hc Wx Wp Lx Lp L1 L2 L3 L4 Px Pp Bx Bp Hf G.
  destruct (egcd_spec c fuel x p quo rem y1 y2) as (_ & H); auto.
  destruct (H G) as (y & E & Wy & Ly & _ & D). exists y. split; [exact E|].
  destruct (VlongMulLemmas.imod_residue y p) as (W & L & V);
    [exact Wy|exact Wp|intros X; rewrite X in Ly; cbn in Ly; lia|rewrite Ly, Lp; lia|lia|].
  cbv zeta in V. rewrite Ly in V. fold (signed c (val_le 32 y)) in V. rewrite V.
  split; [apply Z.mod_pos_bound; lia|]. rewrite Zmult_mod_idemp_l.
  destruct D as [k D]. replace (signed c (val_le 32 y) * val_le 32 x) with (1 + k * val_le 32 p) by lia.
  apply Z_mod_plus_full.
Qed.
Print Assumptions C50_inverse.

Example C50_nonvacuous :
  EGCD 7 [7; 0] [40; 0] [0; 0] [0; 0] [0; 0] [0; 0] = Some (Some [23 - 40 + 2 ^ 32; 2 ^ 32 - 1]) /\
  EGCD 6 [6; 0] [40; 0] [0; 0] [0; 0] [0; 0] [0; 0] = Some None /\ Z.gcd 7 40 = 1.
Proof. vm_compute. auto. Qed.

(** * C45: RSA decryption with CRT inverts encryption, any number of primes. *)
Theorem C45_crt_residues : forall (wm wf : nat) (k : rsa_priv) (C : list Z),
  words_ok C -> key_fits wm wf k -> coeffs_ok (val_le 32 (key_q k)) (key_rest k) ->
  let M := rsa_fastdec wm wf k C in
  words_ok M /\ length M = wm /\ 0 <= val_le 32 M < val_le 32 (key_q k) * prodZ (rvals (key_rest k)) /\
  val_le 32 M mod val_le 32 (key_q k) = (val_le 32 C ^ val_le 32 (key_dQ k)) mod val_le 32 (key_q k) /\
  Forall (fun pr => val_le 32 M mod val_le 32 (r_ pr) = (val_le 32 C ^ val_le 32 (d_ pr)) mod val_le 32 (r_ pr)) (key_rest k).
Proof. exact fastdec_crt. Qed.
Print Assumptions C45_crt_residues.

Theorem C45_fastdec_inverts_enc : forall (wm wf : nat) (k : rsa_priv) (e n M : list Z),
  key_fits wm wf k -> coeffs_ok (val_le 32 (key_q k)) (key_rest k) ->
  words_ok e -> words_ok n -> (0 < length e)%nat -> (length n <= wm)%nat ->
  val_le 32 n * 2 ^ 32 <= 2 ^ (32 * Z.of_nat wm) ->
  (* the modulus is the product of distinct primes *)
  val_le 32 n = val_le 32 (key_q k) * prodZ (rvals (key_rest k)) ->
  Forall prime (val_le 32 (key_q k) :: rvals (key_rest k)) -> NoDup (val_le 32 (key_q k) :: rvals (key_rest k)) ->
  (* e*d = 1 modulo every prime minus one *)
  (val_le 32 (key_q k) - 1 | val_le 32 e * val_le 32 (key_dQ k) - 1) ->
  Forall (fun pr => (val_le 32 (r_ pr) - 1 | val_le 32 e * val_le 32 (d_ pr) - 1)) (key_rest k) ->
  0 < val_le 32 e -> 0 < val_le 32 (key_dQ k) -> Forall (fun pr => 0 < val_le 32 (d_ pr)) (key_rest k) ->
  (* every message below the modulus *)
  words_ok M -> length M = wm -> val_le 32 M < val_le 32 n ->
  exists C, rsa_enc wm M e n = Some C /\ words_ok C /\ length C = wm /\
            val_le 32 C = val_le 32 M ^ val_le 32 e mod val_le 32 n /\
            rsa_fastdec wm wf k C = M.
Proof. exact fastdec_inverts. Qed.
Print Assumptions C45_fastdec_inverts_enc.

(** three primes 7, 11, 13, e = 7: q = 7 (d = 1), then p = 11 (d = 3, t = 8),
    then 13 (d = 7, t = 12) *)
Example C45_nonvacuous :
  let k := {| key_q := [7]; key_dQ := [1];
              key_rest := [{| r_ := [11]; d_ := [3]; t_ := [8] |}; {| r_ := [13]; d_ := [7]; t_ := [12] |}] |} in
  key_fits 3 2 k /\ coeffs_ok 7 (key_rest k) /\ rvals (key_rest k) = [11; 13] /\
  (6 | 7 * 1 - 1) /\ (10 | 7 * 3 - 1) /\ (12 | 7 * 7 - 1) /\
  exists C, rsa_enc 3 [900; 0; 0] [7] [1001] = Some C /\ words_ok C /\ length C = 3%nat /\
            val_le 32 C = 900 ^ 7 mod 1001 /\ rsa_fastdec 3 2 k C = [900; 0; 0].
Proof.
  cbv zeta. set (k := {| key_q := _ |}).
  assert (H1 : key_fits 3 2 k /\ coeffs_ok 7 (key_rest k) /\ rvals (key_rest k) = [11; 13] /\
    (6 | 7 * 1 - 1) /\ (10 | 7 * 3 - 1) /\ (12 | 7 * 7 - 1)).
  { unfold k. split; [|split; [|split; [|split; [|split]]]].
  - unfold key_fits, fits, prime_ok. repeat split; try (repeat constructor; unfold word_ok; lia); try (cbn; lia);
      repeat constructor; unfold fits; repeat split; try (repeat constructor; unfold word_ok; lia); cbn; lia.
  - cbn. repeat split; reflexivity.
  - reflexivity.
  - exists 1. reflexivity.
  - exists 2. reflexivity.
  - exists 4. reflexivity. }
  destruct H1 as (A1 & A2 & A3 & A4 & A5 & A6). repeat (split; [assumption|]).
  apply (C45_fastdec_inverts_enc 3 2 k [7] [1001] [900; 0; 0]); try assumption; unfold k;
    try (repeat (apply Forall_cons; [cbn; unfold word_ok; lia|]); apply Forall_nil); try (cbn; lia).
  - apply Forall_cons; [|apply Forall_cons; [|apply Forall_cons; [|constructor]]]; cbn;
    apply prime_alt; (split; [lia|]); intros n Hn [j Hj].
    + assert (n = 2 \/ n = 3 \/ n = 4 \/ n = 5 \/ n = 6) by lia. lia.
    + assert (n = 2 \/ n = 3 \/ n = 4 \/ n = 5 \/ n = 6 \/ n = 7 \/ n = 8 \/ n = 9 \/ n = 10) by lia. lia.
    + assert (n = 2 \/ n = 3 \/ n = 4 \/ n = 5 \/ n = 6 \/ n = 7 \/ n = 8 \/ n = 9 \/ n = 10 \/ n = 11 \/ n = 12) by lia. lia.
  - cbn. repeat constructor; cbn; lia.
  - repeat (apply Forall_cons; [cbn; assumption|]). constructor.
Qed.

(** * C52: the key rsa_keygen derives from distinct odd primes is consistent. *)
Theorem C52_keygen_consistent : forall (wm wf fuel bpp : nat) (p q : list Z) (others : list (list Z)),
  Forall (drawn wf) (p :: q :: others) -> NoDup (map (val_le 32) (p :: q :: others)) ->
  Forall (fun r => val_le 32 r < 2 ^ Z.of_nat bpp) (p :: q :: others) -> (0 < bpp)%nat -> (0 < wm)%nat ->
  prodZ (map (val_le 32) (p :: q :: others)) * 2 ^ 32 <= 2 ^ (32 * Z.of_nat wm) -> 65537 <= Z.of_nat fuel ->
  match keygen_derive fuel wm wf bpp p q others with
  | None => False (* it terminates *)
  | Some None => (* "goto restart" *)
      Z.gcd 65537 (phi_of (map (val_le 32) (p :: q :: others))) <> 1 \/
      exists k, (1 <= k <= S (length others))%nat /\
        val_le 32 q * prodZ (map (val_le 32) (firstn k (p :: others))) < 2 ^ (Z.of_nat bpp * Z.of_nat (1 + k) - 1)
  | Some (Some (n, d, k)) =>
      val_le 32 n = prodZ (map (val_le 32) (p :: q :: others)) /\
      0 <= val_le 32 d < phi_of (map (val_le 32) (p :: q :: others)) /\
      (phi_of (map (val_le 32) (p :: q :: others)) | 65537 * val_le 32 d - 1) /\
      key_q k = q /\ map r_ (key_rest k) = p :: others /\
      forall M, words_ok M -> length M = wm -> val_le 32 M < val_le 32 n ->
        exists C, rsa_enc wm M [65537] n = Some C /\ val_le 32 C = val_le 32 M ^ 65537 mod val_le 32 n /\
                  words_ok C /\ rsa_fastdec wm wf k C = M
  end.
Proof. exact derive_spec. Qed.
Print Assumptions C52_keygen_consistent.

(** the candidates: odd, exactly [bits] bits, top five bits set, for whatever the rng returns *)
Theorem C52_candidate : forall (w : list Z) (bits : nat),
  words_ok w -> (bits / 32 < length w)%nat -> (64 <= bits)%nat ->
  words_ok (gen_oddint_bits w bits) /\ length (gen_oddint_bits w bits) = length w /\
  Z.odd (val_le 32 (gen_oddint_bits w bits)) = true /\
  31 * 2 ^ (Z.of_nat bits - 5) <= val_le 32 (gen_oddint_bits w bits) < 2 ^ Z.of_nat bits.
Proof. exact gen_oddint_spec. Qed.
Print Assumptions C52_candidate.

(** hence with at most 21 such primes the modulus keeps its full bit length
    (so the second reason to restart never occurs) *)
Theorem C52_full_length : forall (bpp : nat) (l : list Z), (64 <= bpp)%nat ->
  Forall (fun r => 31 * 2 ^ (Z.of_nat bpp - 5) <= r) l -> (length l <= 21)%nat ->
  2 ^ (Z.of_nat bpp * Z.of_nat (length l)) <= 2 * prodZ l.
Proof. exact no_shrink. Qed.
Print Assumptions C52_full_length.

Example C52_nonvacuous :
  Forall (drawn 2) [[11; 0]; [7; 0]; [13; 0]] /\ NoDup (map (val_le 32) [[11; 0]; [7; 0]; [13; 0]]) /\
  Forall (fun r => val_le 32 r < 2 ^ Z.of_nat 4) [[11; 0]; [7; 0]; [13; 0]] /\
  prodZ (map (val_le 32) [[11; 0]; [7; 0]; [13; 0]]) * 2 ^ 32 <= 2 ^ (32 * Z.of_nat 3) /\
  gen_oddint_bits [0; 0x1234; 0] 64 = [1; 0xf8001234; 0].
Proof.
  split; [|split; [|split; [|split]]].
  - apply Forall_cons; [|apply Forall_cons; [|apply Forall_cons; [|constructor]]];
    unfold drawn, fits; (split; [|split; [reflexivity|split; [|cbn; lia]]]);
    try (split; [repeat constructor; unfold word_ok; lia|]; cbn; lia);
    cbn; apply prime_alt; (split; [lia|]); intros n Hn [j Hj].
    + assert (n = 2 \/ n = 3 \/ n = 4 \/ n = 5 \/ n = 6 \/ n = 7 \/ n = 8 \/ n = 9 \/ n = 10) by lia. lia.
    + assert (n = 2 \/ n = 3 \/ n = 4 \/ n = 5 \/ n = 6) by lia. lia.
    + assert (n = 2 \/ n = 3 \/ n = 4 \/ n = 5 \/ n = 6 \/ n = 7 \/ n = 8 \/ n = 9 \/ n = 10 \/ n = 11 \/ n = 12) by lia. lia.
  - cbn. repeat constructor; cbn; lia.
  - repeat constructor; cbn; lia.
  - cbn. lia.
  - vm_compute. reflexivity.
Qed.

(** * C48: Miller-Rabin.  The code decides exactly the strong probable-prime
    test for the bases it uses ([mr_bases]: one per rng output that is not
    redrawn), for every odd w > 2 stored with a spare word. *)
Theorem C48_decides_strong_test : forall (w : list Z) (draws : list (list Z)) (iterations : nat),
  words_ok w -> 2 < val_le 32 w -> Z.odd (val_le 32 w) = true ->
  val_le 32 w * 2 ^ 32 <= 2 ^ (32 * Z.of_nat (length w)) ->
  Forall (fun d => words_ok d /\ length d = length w) draws ->
  let used := firstn iterations (mr_bases w draws) in
  (MillerRabin w draws iterations = Some true <->
     (iterations <= length (mr_bases w draws))%nat /\
     Forall (fun b => strong_probable_prime (val_le 32 w) (val_le 32 b)) used) /\
  (MillerRabin w draws iterations = Some false <->
     Exists (fun b => ~ strong_probable_prime (val_le 32 w) (val_le 32 b)) used).
Proof.
  intros w draws it Ww H2 Odd Sp Hd used.
  assert (S : Forall (small w) (mr_bases w draws)).
  { induction Hd as [|d l (Wd & Ld) Hl IH]; cbn [mr_bases]; [constructor|].
    destruct (mr_base w d) as [b|] eqn:E; [|auto]. constructor; [|auto]. eapply mr_base_small; eauto. }
  assert (SU : Forall (small w) used) by (apply Forall_firstn; auto).
  destruct (MillerRabin_bases w draws it) as (A & B). fold used in A, B.
  assert (T : forall b, In b used -> (mr_test w b = true <-> strong_probable_prime (val_le 32 w) (val_le 32 b))).
  { intros b Hb. rewrite Forall_forall in SU. apply mr_test_spec; auto. }
  split.
  - rewrite A, !Forall_forall. split; intros (X & Y); (split; [exact X|]); intros b Hb; apply T; auto.
  - rewrite B, !Exists_exists. split; intros (b & Hb & X); exists b; (split; [exact Hb|]).
    + intros Y. apply T in Y; auto. congruence.
    + destruct (mr_test w b) eqn:E; [|reflexivity]. exfalso. apply X. apply T; auto.
Qed.
Print Assumptions C48_decides_strong_test.

(** A prime is called composite only if some base drawn for it is a multiple of
    it.  Missing from the full claim: that case, which the code does not exclude. *)
Theorem C48_prime_accepted_partial : forall (w : list Z) (draws : list (list Z)) (iterations : nat),
  words_ok w -> prime (val_le 32 w) -> 2 < val_le 32 w ->
  val_le 32 w * 2 ^ 32 <= 2 ^ (32 * Z.of_nat (length w)) ->
  Forall (fun d => words_ok d /\ length d = length w) draws ->
  MillerRabin w draws iterations = Some false ->
  Exists (fun b => (val_le 32 w | val_le 32 b)) (firstn iterations (mr_bases w draws)).
Proof.
  intros w draws it Ww Hp H2 Sp Hd E.
  assert (Odd : Z.odd (val_le 32 w) = true).
  { destruct (Z.odd (val_le 32 w)) eqn:O; [reflexivity|]. exfalso.
    assert (D : (2 | val_le 32 w)). { exists (val_le 32 w / 2). pose proof (Z.div_mod (val_le 32 w) 2 ltac:(lia)) as DM. rewrite Zmod_odd, O in DM. lia. }
    apply prime_div_prime in D; auto; [lia|apply prime_2]. }
  apply C48_decides_strong_test in E; auto.
  apply Exists_exists in E. destruct E as (b & Hb & Hn). apply Exists_exists. exists b. split; [exact Hb|].
  destruct (Znumtheory.Zdivide_dec (val_le 32 w) (val_le 32 b)) as [D|D]; [exact D|].
  exfalso. apply Hn. apply prime_strong; auto.
Qed.
Print Assumptions C48_prime_accepted_partial.

(** The full claim is false: the prime 3 is called composite when the rng
    returns 0xAA55. *)
Theorem C48_prime_rejected_refuted : exists (w : list Z) (draws : list (list Z)) (iterations : nat),
  words_ok w /\ prime (val_le 32 w) /\ val_le 32 w * 2 ^ 32 <= 2 ^ (32 * Z.of_nat (length w)) /\
  Forall (fun d => words_ok d /\ length d = length w) draws /\
  MillerRabin w draws iterations = Some false.
Proof.
  exists [3; 0], [[0xAA55; 0]], 5%nat. split; [repeat constructor; unfold word_ok; lia|].
  split; [exact prime_3|]. split; [cbn; lia|]. split.
  - repeat constructor; unfold word_ok; lia.
  - vm_compute. reflexivity.
Qed.
Print Assumptions C48_prime_rejected_refuted.

Example C48_nonvacuous :
  MillerRabin [13; 0] [[1; 0]; [77; 5]; [256; 0]] 2 = Some true /\
  MillerRabin [15; 0] [[1; 0]; [77; 5]; [256; 0]] 2 = Some false /\
  mr_bases [13; 0] [[1; 0]; [77; 5]; [256; 0]] = [[0xAA5D; 0]; [0xAB55; 0]].
Proof. vm_compute. auto. Qed.
