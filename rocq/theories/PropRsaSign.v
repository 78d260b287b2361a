(** C57: RSA signing.  The signature octets that RSASSA-PSS and RSASSA-PKCS1-v1_5 signers produce are valid by RFC 8017, and
    the check of the verifier accepts them, for every key pair (two or more primes), message and salt. *)
From Coq Require Import Znumtheory.
From Verif Require Import Base Vlong VlongLemmas Der DerLemmas Blocks Hash HashSpec HashLemmas MdLemmas PropHash HashIface MacLemmas
  Rsa RsaSpec RsaLemmas RsaSignLemmas PkcsSpec Pkcs1 PkcsLemmas PkcsLemmas2 PkcsLemmas3 PropPkcs1 RsaSign Fermat CcmLemmas CurvePrimes.

Lemma be_last k s : 0 <= s -> (0 < k)%nat -> be_val (be_bytes k s ++ [0]) = 256 * (s mod 2 ^ (8 * Z.of_nat k)).
Proof. intros Hs Hk. rewrite be_val_app, be_val_be_bytes. cbn [length]. change (be_val [0]) with 0. change (2 ^ (8 * Z.of_nat 1)) with 256. ring. Qed.

Section W.
  Variables hm hg : hash_impl.
  Variables (x : pkctx hm hg) (wf : nat) (k : rsa_priv).
  Hypothesis KO : key_ok hm hg x.
  Hypothesis KP : key_pair (pk_w x) wf k (val_le 32 (pk_n x)) (val_le 32 (pk_e x)).
  Notation n := (val_le 32 (pk_n x)).
  Notation e := (val_le 32 (pk_e x)).
  Notation el := (em_len hm hg x).

  Lemma el_width : (el + 1 <= 4 * pk_w x)%nat.
  Proof.
    destruct (ko_size _ _ _ KO) as (S1 & S2). destruct (ko_width _ _ _ KO) as (_ & W). pose proof (ko_bits _ _ _ KO) as B.
    assert (L : Z.of_nat (pk_bits x) - 1 + 32 < 32 * Z.of_nat (pk_w x)).
    { apply (Z.pow_lt_mono_r_iff 2); try lia. rewrite Z.pow_add_r by lia. eapply Z.le_lt_trans; [|exact W]. apply Z.mul_le_mono_nonneg_r; [lia|exact S1]. }
    rewrite em_len_ceil. pose proof (em_len_range (pk_bits x) B) as R. cbv zeta in R. lia.
  Qed.
  Lemma el_sig : (pk_bits x mod 8 <> 1)%nat -> ((pk_bits x + 7) / 8 = el)%nat.
  Proof.
    intros M. pose proof (ko_bits _ _ _ KO) as B. rewrite em_len_ceil. unfold ceil_div.
    pose proof (Nat.div_mod (pk_bits x) 8 ltac:(lia)) as D. pose proof (Nat.mod_upper_bound (pk_bits x) 8 ltac:(lia)) as U.
    pose proof (Nat.div_mod (pk_bits x + 7) 8 ltac:(lia)). pose proof (Nat.mod_upper_bound (pk_bits x + 7) 8 ltac:(lia)).
    pose proof (Nat.div_mod (pk_bits x - 1 + 8 - 1) 8 ltac:(lia)). pose proof (Nat.mod_upper_bound (pk_bits x - 1 + 8 - 1) 8 ltac:(lia)). lia.
  Qed.
  Lemma el_sig1 : (pk_bits x mod 8 = 1)%nat -> ((pk_bits x + 7) / 8 = S el)%nat /\ (pk_bits x = S (8 * el))%nat.
  Proof.
    intros M. pose proof (ko_bits _ _ _ KO) as B. rewrite em_len_ceil. unfold ceil_div.
    pose proof (Nat.div_mod (pk_bits x) 8 ltac:(lia)) as D.
    pose proof (Nat.div_mod (pk_bits x + 7) 8 ltac:(lia)). pose proof (Nat.mod_upper_bound (pk_bits x + 7) 8 ltac:(lia)).
    pose proof (Nat.div_mod (pk_bits x - 1 + 8 - 1) 8 ltac:(lia)). pose proof (Nat.mod_upper_bound (pk_bits x - 1 + 8 - 1) 8 ltac:(lia)). lia.
  Qed.
  Lemma sign_octets em : bytes_ok em -> (el <= length em)%nat -> be_val (firstn el em) < n ->
    exists s r, 0 <= s < n /\ s ^ e mod n = be_val (firstn el em) /\ sign_maths hm hg x wf k em = be_bytes el s ++ 0 :: r.
  Proof.
    intros BE LE LT. pose proof el_width as EW. assert (BF : bytes_ok (firstn el em)) by now apply Forall_firstn.
    destruct (OS2IP_spec (pk_w x) _ BF) as (WC & LC & VC).
    assert (LF : length (firstn el em) = el) by (rewrite firstn_length; lia).
    pose proof (be_val_bound _ BF) as BB. rewrite LF in BB.
    assert (P1 : 2 ^ (8 * Z.of_nat el) <= 2 ^ (32 * Z.of_nat (pk_w x))) by (apply Z.pow_le_mono_r; lia).
    rewrite Z.mod_small in VC by lia.
    destruct (sign_inverts (pk_w x) wf k n e _ KP WC) as (WM & LM & BM & EM); [rewrite VC; exact LT|].
    exists (vval (rsa_fastdec (pk_w x) wf k (vlong_OS2IP (pk_w x) (firstn el em)))).
    exists (skipn (S el) (vlong_EncLSB (vlong_OS2IP (pk_w x) (firstn el em)) (4 * pk_w x))).
    split; [exact BM|]. split; [rewrite <- VC; exact EM|].
    unfold sign_maths. cbv zeta. rewrite (I2OSP_spec _ _ WM). f_equal.
    rewrite (EncLSB_spec _ _ WC), VC. set (v := be_val (firstn el em)) in *. clearbody v.
    assert (N0 : nthZ el (le_bytes (4 * pk_w x) v) = 0).
    { unfold le_bytes. rewrite nth_to_le by lia. rewrite Z.div_small by lia. reflexivity. }
    assert (LL : length (le_bytes (4 * pk_w x) v) = (4 * pk_w x)%nat) by apply to_le_length.
    set (l := le_bytes (4 * pk_w x) v) in *. clearbody l.
    rewrite (skipn_step l el) by lia. rewrite N0. reflexivity.
  Qed.

  Lemma n_lt_octets : (pk_bits x mod 8 <> 1)%nat -> n < 2 ^ (8 * Z.of_nat el).
  Proof.
    intros M. destruct (ko_size _ _ _ KO) as (_ & B). eapply Z.lt_le_trans; [exact B|]. apply Z.pow_le_mono_r; [lia|].
    rewrite <- (el_sig M). pose proof (Nat.div_mod (pk_bits x + 7) 8 ltac:(lia)). pose proof (Nat.mod_upper_bound (pk_bits x + 7) 8 ltac:(lia)). lia.
  Qed.

  (** the usual modulus lengths: k octets, whose value is the RSASP1 result *)
  Lemma sign_encoded em sl : (pk_bits x mod 8 <> 1)%nat -> bytes_ok em -> (el <= length em)%nat -> be_val (firstn el em) < n ->
    (el <= sl)%nat ->
    exists s, 0 <= s < n /\ s ^ e mod n = be_val (firstn el em) /\
      Encode_Signature hm hg x (sign_maths hm hg x wf k em) sl = Some (be_bytes el s) /\ be_val (be_bytes el s) = s.
  Proof.
    intros M BE LE LT Ls. destruct (sign_octets em BE LE LT) as (s & r & B & E & O). exists s. split; [exact B|]. split; [exact E|].
    pose proof (n_lt_octets M) as NL. split.
    - unfold Encode_Signature. rewrite (el_sig M), O. destruct (Nat.ltb_spec sl el); [lia|]. f_equal. apply firstn_app_exact.
      now rewrite be_bytes_length.
    - rewrite be_val_be_bytes. apply Z.mod_small. lia.
  Qed.

  Lemma enc_injective a b : 0 <= a < n -> 0 <= b < n -> a ^ e mod n = b ^ e mod n -> a = b.
  Proof.
    intros A B E. destruct KP as [KF CO Vn Pr ND Pe (Pd & Hq) Hr]. assert (n0 : 0 < n) by lia.
    apply (crt_unique (vval (key_q k) :: rvals (key_rest k))).
    - eapply Forall_impl; [|exact Pr]. intros c Ha. apply prime_ge_2 in Ha. lia.
    - clear -Pr ND. induction Pr as [|y l Hx Hl IH]; [constructor|]. inversion ND; subst. constructor; [|auto].
      rewrite Forall_forall in *. intros z Hy. apply coprime_of_primes; auto. intros ->. contradiction.
    - change (prodZ (vval (key_q k) :: rvals (key_rest k))) with (vval (key_q k) * prodZ (rvals (key_rest k))). rewrite <- Vn. exact A.
    - change (prodZ (vval (key_q k) :: rvals (key_rest k))) with (vval (key_q k) * prodZ (rvals (key_rest k))). rewrite <- Vn. exact B.
    - assert (G : forall r d, prime r -> (r | n) -> 0 < d -> (r - 1 | e * d - 1) -> a mod r = b mod r).
      { intros r d Hpr [c Hc] Hd Hdiv. pose proof (prime_ge_2 r Hpr) as r2.
        assert (R : a ^ e mod r = b ^ e mod r).
        { assert (0 < c) by (clear -Hc r2 n0; nia).
          assert (Q : forall v, (v mod n) mod r = v mod r).
          { intros v. rewrite Hc, (Z.mul_comm c), Z.rem_mul_r by (clear -r2 H; lia). now rewrite (Z.mul_comm r), Z_mod_plus_full, Zmod_mod. }
          rewrite <- (Q (a ^ e)), <- (Q (b ^ e)), E. reflexivity. }
        assert (X : forall v, v mod r = (v ^ e mod r) ^ d mod r).
        { intros v. rewrite (pow_mod r (v ^ e)) by (clear -r2 Hd; lia). rewrite <- Z.pow_mul_r by (clear -Hd Pe; lia). symmetry. apply fermat_exp; auto. clear -Pe Hd. nia. }
        rewrite (X a), (X b), R. reflexivity. }
      intros r [<-|Hin].
      + apply (G _ (vval (key_dQ k))); auto; [exact (Forall_inv Pr)|]. rewrite Vn. apply Z.divide_factor_l.
      + unfold rvals in Hin. apply in_map_iff in Hin. destruct Hin as (pr & <- & Hin).
        rewrite Forall_forall in Hr. destruct (Hr pr Hin) as (D1 & D2). apply (G _ (vval (d_ pr))); auto.
        * rewrite Forall_forall in Pr. apply Pr. right. unfold rvals. apply in_map_iff. eauto.
        * rewrite Vn. apply Z.divide_mul_r. clear -Hin. induction (key_rest k) as [|y l IH]; [destruct Hin|].
          cbn [rvals map prodZ fold_right]. fold (rvals l). fold (prodZ (rvals l)). destruct Hin as [->|Hin].
          -- apply Z.divide_factor_l.
          -- apply Z.divide_mul_r. auto.
  Qed.

  (** a modulus of 8j+1 bits: j octets of the result, then a zero octet *)
  Lemma sign_encoded_bad em sl : (pk_bits x mod 8 = 1)%nat -> bytes_ok em -> (el <= length em)%nat -> 0 < be_val (firstn el em) < n ->
    (S el <= sl)%nat ->
    exists sig, Encode_Signature hm hg x (sign_maths hm hg x wf k em) sl = Some sig /\ length sig = S el /\
      ~ (0 <= be_val sig < n /\ be_val sig ^ e mod n = be_val (firstn el em)).
  Proof.
    intros M BE LE LT Ls. destruct (sign_octets em BE LE ltac:(lia)) as (s & r & B & E & O). destruct (el_sig1 M) as (L1 & L2).
    exists (be_bytes el s ++ [0]). split; [|split].
    - unfold Encode_Signature. rewrite L1, O. destruct (Nat.ltb_spec sl (S el)); [lia|]. f_equal.
      replace (0 :: r) with ([0] ++ r) by reflexivity. rewrite app_assoc. apply firstn_app_exact. rewrite app_length, be_bytes_length. cbn [length]. lia.
    - rewrite app_length, be_bytes_length. cbn [length]. lia.
    - intros (R & Q). assert (X : be_val (be_bytes el s ++ [0]) = s) by (apply enc_injective; auto; rewrite Q, E; reflexivity).
      assert (EL : (0 < el)%nat) by (pose proof (ko_bits _ _ _ KO); lia).
      rewrite be_last in X by lia. destruct (ko_size _ _ _ KO) as (_ & SB). change vval with (val_le 32) in SB. rewrite L2 in SB.
      replace (Z.of_nat (S (8 * el))) with (8 * Z.of_nat el + 1) in SB by lia. rewrite Z.pow_add_r in SB by lia.
      assert (S0 : s <> 0).
      { intros ->. rewrite Z.pow_0_l in E by (apply (kp_e _ _ _ _ _ KP)). rewrite Z.mod_0_l in E by lia. lia. }
      assert (C255 : 2 ^ (8 * Z.of_nat el) mod 255 = 1).
      { clear. rewrite Z.pow_mul_r by lia. change (2 ^ 8) with 256. induction el as [|j IH]; [reflexivity|].
        rewrite Nat2Z.inj_succ, Z.pow_succ_r by lia. rewrite Z.mul_mod, IH by lia. reflexivity. }
      set (P := 2 ^ (8 * Z.of_nat el)) in *. assert (PP : 0 < P) by (apply Z.pow_pos_nonneg; lia). clearbody P.
      pose proof (Z.div_mod s P ltac:(lia)) as D. pose proof (Z.mod_pos_bound s P PP) as Mb.
      assert (q01 : s / P = 0 \/ s / P = 1).
      { assert (0 <= s / P) by (apply Z.div_pos; lia). assert (s / P < 2) by (apply Z.div_lt_upper_bound; lia). lia. }
      destruct q01 as [q|q]; rewrite q in D; [lia|]. assert (Y : P = (s mod P) * 255) by lia. rewrite Y in C255. rewrite Z_mod_mult in C255. discriminate.
  Qed.
End W.

Lemma ceil8 b : ((b + 7) / 8 = ceil_div b 8)%nat.
Proof. unfold ceil_div. f_equal. lia. Qed.

(** RSASSA-PSS: refused exactly when the modulus is too short for hash and salt; otherwise the k octets that
    Encode_Signature gives are a valid signature of the message by RFC 8017, for every message cutting, salt, key pair
    (any number of primes) and stale contents of the working buffers. *)
Theorem C57_pss_sign : forall (hm hg : hash_impl) (H G : list Z -> list Z) (lim : Z),
  hash_correct hm H lim -> hash_correct hg G lim -> (0 < hi_out hg)%nat ->
  forall (x : pkctx hm hg) (wf : nat) (k : rsa_priv) (junk : hi_ctx hm) (chunks : list (list Z)) (salt w1 w2 : list Z) (siglen : nat),
  key_ok hm hg x -> key_pair (pk_w x) wf k (val_le 32 (pk_n x)) (val_le 32 (pk_e x)) -> (pk_bits x mod 8 <> 1)%nat ->
  hi_shape hm junk -> Forall bytes_ok chunks -> Z.of_nat (length (concat chunks)) < lim ->
  bytes_ok salt -> length salt = pk_slen x -> length w2 = ceil_div (pk_bits x - 1) 8 ->
  Z.of_nat (em_len hm hg x) < 2 ^ 32 -> Z.of_nat (8 + hi_out hm + em_len hm hg x) < lim ->
  let '(status, out) := RSASSA_PSS_Sign hm hg x wf k (fold_left (hi_update hm) chunks (hi_init hm junk)) salt w1 w2 in
  ((ceil_div (pk_bits x - 1) 8 < hi_out hm + pk_slen x + 2)%nat -> status = -1) /\
  ((hi_out hm + pk_slen x + 2 <= ceil_div (pk_bits x - 1) 8)%nat ->
    status = 1 /\ Encode_Signature_len hm hg x = ceil_div (pk_bits x) 8 /\
    ((siglen < ceil_div (pk_bits x) 8)%nat -> Encode_Signature hm hg x out siglen = None) /\
    ((ceil_div (pk_bits x) 8 <= siglen)%nat -> exists sig,
      Encode_Signature hm hg x out siglen = Some sig /\ bytes_ok sig /\ length sig = ceil_div (pk_bits x) 8 /\
      be_val sig ^ val_le 32 (pk_e x) mod val_le 32 (pk_n x) = be_val (emsa_pss H (rfc_mgf1 G (hi_out hg)) (pk_bits x - 1) (H (concat chunks)) salt) /\
      pss_signature_ok H (rfc_mgf1 G (hi_out hg)) (val_le 32 (pk_n x)) (val_le 32 (pk_e x)) (pk_bits x) (pk_slen x)
        (H (concat chunks)) (be_val sig))).
Proof.
  intros hm hg H G lim HH HG Gp x wf k junk chunks salt w1 w2 siglen K KP M8 Sj Bc Lc Bs Ls Lp L32 Ll.
  pose proof (em_len_ceil hm hg x) as EC. rewrite <- EC in *. unfold RSASSA_PSS_Sign.
  rewrite (C41_pss_encode hm hg H G lim HH HG Gp x junk chunks salt w2) by auto.
  destruct (Nat.ltb_spec (em_len hm hg x) (hi_out hm + pk_slen x + 2)) as [A|A]; [split; [auto|lia]|].
  split; [lia|]. intros _. split; [reflexivity|].
  destruct (hc_digest _ _ _ HH (concat chunks) (concat_bytes _ Bc)) as [Dl Db].
  pose proof (ko_bits _ _ _ K) as B2. pose proof (em_len_range (pk_bits x) B2) as R. cbv zeta in R. destruct R as [R1 R2].
  assert (AL : (length (H (concat chunks)) + length salt + 2 <= ceil_div (pk_bits x - 1) 8)%nat) by (rewrite Dl, Ls, <- EC; exact A).
  destruct (emsa_pss_ok hm hg H G lim HH HG Gp (pk_bits x - 1) (H (concat chunks)) salt Db Bs Dl R1 R2 AL) as [Q1 Q2].
  destruct (C41_pss_encoding_in_range hm hg H G lim HH HG Gp (pk_bits x) (H (concat chunks)) salt B2 Db Dl Bs AL) as (Q3 & Q4).
  destruct (ko_size _ _ _ K) as (KS & _). change (@vval) with (val_le 32) in KS.
  set (em := emsa_pss _ _ _ _ _) in *. rewrite <- EC in Q2.
  assert (F : firstn (em_len hm hg x) em = em) by (apply firstn_all2; lia).
  unfold Encode_Signature_len. rewrite ceil8. split; [reflexivity|]. split.
  - intros Lt. unfold Encode_Signature. rewrite ceil8. destruct (Nat.ltb_spec siglen (ceil_div (pk_bits x) 8)); [reflexivity|lia].
  - intros Le. rewrite <- (ceil8 (pk_bits x)), (el_sig hm hg x K M8) in Le |- *.
    destruct (sign_encoded hm hg x wf k K KP em siglen M8 Q1 ltac:(lia) ltac:(rewrite F; clear -Q4 KS; lia) Le) as (s & B & E & En & V).
    exists (be_bytes (em_len hm hg x) s). rewrite F in E. split; [exact En|]. split; [apply be_bytes_ok|]. split; [apply be_bytes_length|].
    rewrite V. split; [exact E|]. split; [exact B|]. split; [rewrite <- EC; lia|]. exists salt. auto.
Qed.
Print Assumptions C57_pss_sign.

(** and the check behind Decode_Signature accepts these octets *)
Theorem C57_pss_accepted : forall (hm hg : hash_impl) (H G : list Z -> list Z) (lim : Z),
  hash_correct hm H lim -> hash_correct hg G lim -> (0 < hi_out hg)%nat ->
  forall (x y : pkctx hm hg) (wf : nat) (k : rsa_priv) (junk : hi_ctx hm) (chunks : list (list Z)) (salt w1 w2 sig : list Z) (siglen : nat),
  key_ok hm hg x -> key_pair (pk_w x) wf k (val_le 32 (pk_n x)) (val_le 32 (pk_e x)) -> (pk_bits x mod 8 <> 1)%nat ->
  hi_shape hm junk -> Forall bytes_ok chunks -> Z.of_nat (length (concat chunks)) < lim ->
  bytes_ok salt -> length salt = pk_slen x -> length w2 = ceil_div (pk_bits x - 1) 8 ->
  Z.of_nat (em_len hm hg x) < 2 ^ 32 -> Z.of_nat (8 + hi_out hm + em_len hm hg x) < lim ->
  fst (RSASSA_PSS_Sign hm hg x wf k (fold_left (hi_update hm) chunks (hi_init hm junk)) salt w1 w2) = 1 ->
  Encode_Signature hm hg x (snd (RSASSA_PSS_Sign hm hg x wf k (fold_left (hi_update hm) chunks (hi_init hm junk)) salt w1 w2)) siglen = Some sig ->
  (* the verifier's context: the same public key *)
  key_ok hm hg y -> val_le 32 (pk_n y) = val_le 32 (pk_n x) -> val_le 32 (pk_e y) = val_le 32 (pk_e x) ->
  pk_bits y = pk_bits x -> pk_slen y = pk_slen x -> pk_status y = 2 -> pk_w1 y = vlong_OS2IP (pk_w y) sig ->
  pss_body hm hg y (H (concat chunks)) = Some 1.
Proof.
  intros hm hg H G lim HH HG Gp x y wf k junk chunks salt w1 w2 sig siglen K KP M8 Sj Bc Lc Bs Ls Lp L32 Ll St En Ky En_n En_e Eb Es Sy Ew.
  pose proof (C57_pss_sign hm hg H G lim HH HG Gp x wf k junk chunks salt w1 w2 siglen K KP M8 Sj Bc Lc Bs Ls Lp L32 Ll) as T.
  destruct (RSASSA_PSS_Sign _ _ _ _ _ _ _ _ _) as (status, out). cbn [fst snd] in St, En. destruct T as (T1 & T2).
  destruct (Nat.lt_ge_cases (ceil_div (pk_bits x - 1) 8) (hi_out hm + pk_slen x + 2)) as [A|A]; [specialize (T1 A); lia|].
  destruct (T2 A) as (_ & _ & T3 & T4). destruct (Nat.lt_ge_cases siglen (ceil_div (pk_bits x) 8)) as [C|C]; [rewrite (T3 C) in En; discriminate|].
  destruct (T4 C) as (sig' & En' & Bsig & Lsig & _ & OK). rewrite En in En'. injection En' as <-.
  assert (VW : val_le 32 (pk_w1 y) = be_val sig).
  { rewrite Ew. destruct (OS2IP_spec (pk_w y) sig Bsig) as (_ & _ & V). etransitivity; [exact V|]. apply Z.mod_small.
    split; [apply OK|]. destruct OK as ((_ & O1) & _). destruct (ko_width _ _ _ Ky) as (_ & W). change (@vval) with (val_le 32) in W.
    rewrite En_n in W. pose proof (be_val_bound _ Bsig). clear -O1 W H0. lia. }
  destruct (hc_digest _ _ _ HH (concat chunks) (concat_bytes _ Bc)) as [Dl Db].
  assert (EL : em_len hm hg y = em_len hm hg x) by (unfold em_len; now rewrite Eb).
  destruct (C41_pss_check_partial hm hg H G lim HH HG Gp y (H (concat chunks)) Ky Sy) as (s & P & _ & I); auto; try (rewrite ?EL, ?Eb; assumption).
  rewrite P. f_equal. apply I. rewrite VW, En_n, En_e, Eb, Es. exact OK.
Qed.
Print Assumptions C57_pss_accepted.

Lemma v15_range (L : nat) T : bytes_ok T -> (length T + 11 <= L)%nat ->
  bytes_ok (emsa_v15 L T) /\ length (emsa_v15 L T) = L /\ 0 < be_val (emsa_v15 L T) < 2 ^ (8 * Z.of_nat L - 8).
Proof.
  intros B Le. assert (BT : bytes_ok (repeat 255 (L - length T - 3) ++ [0] ++ T)).
  { apply Forall_app. split; [apply Forall_forall; intros z Hz; apply repeat_spec in Hz; subst; unfold byte_ok; lia|].
    constructor; [unfold byte_ok; lia|exact B]. }
  assert (BA : bytes_ok (emsa_v15 L T)) by (constructor; [unfold byte_ok; lia|constructor; [unfold byte_ok; lia|exact BT]]).
  split; [exact BA|]. split; [unfold emsa_v15; rewrite !app_length, repeat_length; cbn [length]; lia|].
  unfold emsa_v15. set (tl := repeat 255 (L - length T - 3) ++ [0] ++ T) in *.
  assert (LT : Z.of_nat (length tl) = Z.of_nat L - 2) by (unfold tl; rewrite !app_length, repeat_length; cbn [length]; lia).
  rewrite be_val_app. change (be_val [0; 1]) with 1. pose proof (be_val_bound _ BT) as Bd. rewrite LT in *.
  replace (8 * Z.of_nat L - 8) with (8 + 8 * (Z.of_nat L - 2)) by lia. rewrite Z.pow_add_r by lia.
  assert (0 < 2 ^ (8 * (Z.of_nat L - 2))) by (apply Z.pow_pos_nonneg; lia). change (2 ^ 8) with 256. lia.
Qed.

(** RSASSA-PKCS1-v1_5, the same *)
Theorem C57_v15_sign : forall (hm hg : hash_impl) (H : list Z -> list Z) (lim : Z), hash_correct hm H lim ->
  forall (x : pkctx hm hg) (wf : nat) (k : rsa_priv) (junk : hi_ctx hm) (chunks : list (list Z)) (pre w1 w2 : list Z) (siglen : nat),
  key_ok hm hg x -> key_pair (pk_w x) wf k (val_le 32 (pk_n x)) (val_le 32 (pk_e x)) -> (pk_bits x mod 8 <> 1)%nat ->
  hi_shape hm junk -> Forall bytes_ok chunks -> Z.of_nat (length (concat chunks)) < lim ->
  bytes_ok pre -> bytes_ok w2 -> (ceil_div (pk_bits x - 1) 8 <= length w2)%nat ->
  let '(status, out) := RSAEncryptionWithHash_Sign hm hg (Some (pre, hi_out hm)) x wf k (fold_left (hi_update hm) chunks (hi_init hm junk)) w1 w2 in
  ((ceil_div (pk_bits x) 8 < length pre + hi_out hm + 11)%nat -> status = -1) /\
  ((length pre + hi_out hm + 11 <= ceil_div (pk_bits x) 8)%nat ->
    status = 1 /\ Encode_Signature_len hm hg x = ceil_div (pk_bits x) 8 /\
    ((siglen < ceil_div (pk_bits x) 8)%nat -> Encode_Signature hm hg x out siglen = None) /\
    ((ceil_div (pk_bits x) 8 <= siglen)%nat -> exists sig,
      Encode_Signature hm hg x out siglen = Some sig /\ bytes_ok sig /\ length sig = ceil_div (pk_bits x) 8 /\
      v15_signature_ok (val_le 32 (pk_n x)) (val_le 32 (pk_e x)) (pk_bits x) (pre ++ H (concat chunks)) (be_val sig))).
Proof.
  intros hm hg H lim HH x wf k junk chunks pre w1 w2 siglen K KP M8 Sj Bc Lc Bpre Bw Lw.
  pose proof (em_len_ceil hm hg x) as EC. pose proof (el_sig hm hg x K M8) as ES. rewrite ceil8 in ES. rewrite <- EC in Lw. rewrite ES.
  destruct (hc_digest _ _ _ HH (concat chunks) (concat_bytes _ Bc)) as [Dl Db].
  assert (EF : snd (hi_final hm (fold_left (hi_update hm) chunks (hi_init hm junk)) (hi_out hm)) = H (concat chunks)).
  { rewrite (run1 hm H lim HH) by auto. now apply octets_exact. }
  unfold RSAEncryptionWithHash_Sign.
  destruct (Nat.ltb_spec (em_len hm hg x) (length pre + hi_out hm + 11)) as [A|A]; [split; [auto|lia]|].
  split; [lia|]. intros _. split; [reflexivity|]. unfold Encode_Signature_len. rewrite ceil8, ES. split; [reflexivity|]. split.
  { intros Lt. unfold Encode_Signature. rewrite ceil8, ES. destruct (Nat.ltb_spec siglen (em_len hm hg x)); [reflexivity|lia]. }
  intros Le. set (hc := fold_left _ _ _) in *.
  pose proof (v15_em_spec hm hg H H hc pre (hi_out hm) (em_len hm hg x) w2 _ Dl EF A Lw) as F.
  pose proof (v15_em_bytes hm hg H H hc pre (hi_out hm) (em_len hm hg x) w2 Bw Bpre ltac:(rewrite EF; exact Db)) as BE.
  set (em := v15_em _ _ _ _ _ _) in *.
  assert (BT : bytes_ok (pre ++ H (concat chunks))) by (apply Forall_app; auto).
  destruct (v15_range (em_len hm hg x) _ BT) as (V1 & V2 & V3); [rewrite app_length, Dl; lia|].
  assert (LE : (em_len hm hg x <= length em)%nat).
  { apply (f_equal (@length Z)) in F. rewrite firstn_length, V2 in F. lia. }
  assert (RG : be_val (firstn (em_len hm hg x) em) < val_le 32 (pk_n x)).
  { rewrite F. destruct (ko_size _ _ _ K) as (KS & _). change (@vval) with (val_le 32) in KS. eapply Z.lt_le_trans; [|exact KS].
    eapply Z.lt_le_trans; [apply V3|]. apply Z.pow_le_mono_r; [lia|].
    pose proof (em_len_range (pk_bits x) (ko_bits _ _ _ K)) as R. cbv zeta in R. rewrite <- EC in R. lia. }
  destruct (sign_encoded hm hg x wf k K KP em siglen M8 BE LE RG Le) as (s & B & E & En & V).
  exists (be_bytes (em_len hm hg x) s). rewrite F in E. split; [exact En|]. split; [apply be_bytes_ok|]. split; [apply be_bytes_length|].
  rewrite V. split; [exact B|]. rewrite ES. split; [rewrite app_length, Dl; lia|exact E].
Qed.
Print Assumptions C57_v15_sign.

Theorem C57_v15_unknown_hash : forall (hm hg : hash_impl) (x : pkctx hm hg) (wf : nat) (k : rsa_priv) (hc : hi_ctx hm) (w1 w2 : list Z),
  fst (RSAEncryptionWithHash_Sign hm hg None x wf k hc w1 w2) = -1.
Proof. reflexivity. Qed.
Print Assumptions C57_v15_unknown_hash.

Theorem C57_v15_accepted : forall (hm hg : hash_impl) (H : list Z -> list Z) (lim : Z), hash_correct hm H lim ->
  forall (x y : pkctx hm hg) (wf : nat) (k : rsa_priv) (junk junk' : hi_ctx hm) (chunks chunks' : list (list Z)) (pre w1 w2 w2' sig : list Z) (siglen : nat),
  key_ok hm hg x -> key_pair (pk_w x) wf k (val_le 32 (pk_n x)) (val_le 32 (pk_e x)) -> (pk_bits x mod 8 <> 1)%nat ->
  hi_shape hm junk -> Forall bytes_ok chunks -> Z.of_nat (length (concat chunks)) < lim ->
  bytes_ok pre -> bytes_ok w2 -> (ceil_div (pk_bits x - 1) 8 <= length w2)%nat ->
  fst (RSAEncryptionWithHash_Sign hm hg (Some (pre, hi_out hm)) x wf k (fold_left (hi_update hm) chunks (hi_init hm junk)) w1 w2) = 1 ->
  Encode_Signature hm hg x (snd (RSAEncryptionWithHash_Sign hm hg (Some (pre, hi_out hm)) x wf k (fold_left (hi_update hm) chunks (hi_init hm junk)) w1 w2)) siglen = Some sig ->
  (* the verifier's context: the same public key, the same message however it is cut *)
  key_ok hm hg y -> val_le 32 (pk_n y) = val_le 32 (pk_n x) -> val_le 32 (pk_e y) = val_le 32 (pk_e x) ->
  pk_bits y = pk_bits x -> pk_status y = 2 -> pk_w1 y = vlong_OS2IP (pk_w y) sig ->
  hi_shape hm junk' -> pk_hmsg y = fold_left (hi_update hm) chunks' (hi_init hm junk') -> Forall bytes_ok chunks' -> concat chunks' = concat chunks ->
  bytes_ok w2' -> (ceil_div (pk_bits x - 1) 8 <= length w2')%nat ->
  v15_body hm hg (Some (pre, hi_out hm)) w2' y = Some 1.
Proof.
  intros hm hg H lim HH x y wf k junk junk' chunks chunks' pre w1 w2 w2' sig siglen K KP M8 Sj Bc Lc Bpre Bw Lw St En Ky En_n En_e Eb Sy Ew Sj' Eh Bc' Ecc Bw' Lw'.
  pose proof (C57_v15_sign hm hg H lim HH x wf k junk chunks pre w1 w2 siglen K KP M8 Sj Bc Lc Bpre Bw Lw) as T.
  destruct (RSAEncryptionWithHash_Sign _ _ _ _ _ _ _ _ _) as (status, out). cbn [fst snd] in St, En. destruct T as (T1 & T2).
  destruct (Nat.lt_ge_cases (ceil_div (pk_bits x) 8) (length pre + hi_out hm + 11)) as [A|A]; [specialize (T1 A); lia|].
  destruct (T2 A) as (_ & _ & T3 & T4). destruct (Nat.lt_ge_cases siglen (ceil_div (pk_bits x) 8)) as [C|C]; [rewrite (T3 C) in En; discriminate|].
  destruct (T4 C) as (sig' & En' & Bsig & Lsig & OK). rewrite En in En'. injection En' as <-.
  assert (VW : val_le 32 (pk_w1 y) = be_val sig).
  { rewrite Ew. destruct (OS2IP_spec (pk_w y) sig Bsig) as (_ & _ & V). etransitivity; [exact V|]. apply Z.mod_small.
    split; [apply OK|]. destruct OK as ((_ & O1) & _). destruct (ko_width _ _ _ Ky) as (_ & W). change (@vval) with (val_le 32) in W.
    rewrite En_n in W. pose proof (be_val_bound _ Bsig). clear -O1 W H0. lia. }
  assert (EL : em_len hm hg y = em_len hm hg x) by (unfold em_len; now rewrite Eb).
  destruct (C42_v15_check_partial hm hg H lim HH y junk' chunks' pre w2' Ky Sy) as (s & P & _ & I); auto; try (rewrite ?EL, ?Eb, ?Ecc, ?em_len_ceil; assumption).
  rewrite P. f_equal. apply I. rewrite VW, En_n, En_e, Eb, Ecc. exact OK.
Qed.
Print Assumptions C57_v15_accepted.

(** A refused signing is not noticed by Encode_Signature: whatever was in the working buffer goes out as the signature. *)
Theorem C57_refused_refuted : forall (hm hg : hash_impl) (H G : list Z -> list Z) (lim : Z),
  hash_correct hm H lim -> hash_correct hg G lim -> (0 < hi_out hg)%nat ->
  forall (x : pkctx hm hg) (wf : nat) (k : rsa_priv) (junk : hi_ctx hm) (chunks : list (list Z)) (salt w1 w2 : list Z),
  key_ok hm hg x -> hi_shape hm junk -> Forall bytes_ok chunks -> Z.of_nat (length (concat chunks)) < lim ->
  bytes_ok salt -> length salt = pk_slen x -> length w2 = em_len hm hg x ->
  Z.of_nat (em_len hm hg x) < 2 ^ 32 -> Z.of_nat (8 + hi_out hm + em_len hm hg x) < lim ->
  (em_len hm hg x < hi_out hm + pk_slen x + 2)%nat ->
  let r := RSASSA_PSS_Sign hm hg x wf k (fold_left (hi_update hm) chunks (hi_init hm junk)) salt w1 w2 in
  fst r = -1 /\ Encode_Signature hm hg x (snd r) (Encode_Signature_len hm hg x) = Some (firstn (Encode_Signature_len hm hg x) w1).
Proof.
  intros hm hg H G lim HH HG Gp x wf k junk chunks salt w1 w2 K Sj Bc Lc Bs Ls Lp L32 Ll A r. subst r. unfold RSASSA_PSS_Sign.
  rewrite (C41_pss_encode hm hg H G lim HH HG Gp x junk chunks salt w2) by auto.
  destruct (Nat.ltb_spec (em_len hm hg x) (hi_out hm + pk_slen x + 2)) as [_|C]; [|lia]. cbn [fst snd]. split; [reflexivity|].
  unfold Encode_Signature, Encode_Signature_len. now rewrite Nat.ltb_irrefl.
Qed.
Print Assumptions C57_refused_refuted.

(** With a modulus of 8j+1 bits the octets given are never the RSASP1 result: emLen = j octets of it are written, j+1 are copied. *)
Theorem C57_modulus_bits_refuted : forall (hm hg : hash_impl) (H G : list Z -> list Z) (lim : Z),
  hash_correct hm H lim -> hash_correct hg G lim -> (0 < hi_out hg)%nat ->
  forall (x : pkctx hm hg) (wf : nat) (k : rsa_priv) (junk : hi_ctx hm) (chunks : list (list Z)) (salt w1 w2 : list Z),
  key_ok hm hg x -> key_pair (pk_w x) wf k (val_le 32 (pk_n x)) (val_le 32 (pk_e x)) -> (pk_bits x mod 8 = 1)%nat ->
  hi_shape hm junk -> Forall bytes_ok chunks -> Z.of_nat (length (concat chunks)) < lim ->
  bytes_ok salt -> length salt = pk_slen x -> length w2 = em_len hm hg x ->
  Z.of_nat (em_len hm hg x) < 2 ^ 32 -> Z.of_nat (8 + hi_out hm + em_len hm hg x) < lim ->
  (hi_out hm + pk_slen x + 2 <= em_len hm hg x)%nat ->
  let r := RSASSA_PSS_Sign hm hg x wf k (fold_left (hi_update hm) chunks (hi_init hm junk)) salt w1 w2 in
  fst r = 1 /\ exists sig, Encode_Signature hm hg x (snd r) (Encode_Signature_len hm hg x) = Some sig /\ length sig = ceil_div (pk_bits x) 8 /\
    ~ (0 <= be_val sig < val_le 32 (pk_n x) /\
       be_val sig ^ val_le 32 (pk_e x) mod val_le 32 (pk_n x) = be_val (emsa_pss H (rfc_mgf1 G (hi_out hg)) (pk_bits x - 1) (H (concat chunks)) salt)).
Proof.
  intros hm hg H G lim HH HG Gp x wf k junk chunks salt w1 w2 K KP M8 Sj Bc Lc Bs Ls Lp L32 Ll A r. subst r. unfold RSASSA_PSS_Sign.
  pose proof (em_len_ceil hm hg x) as EC.
  rewrite (C41_pss_encode hm hg H G lim HH HG Gp x junk chunks salt w2) by auto.
  destruct (Nat.ltb_spec (em_len hm hg x) (hi_out hm + pk_slen x + 2)) as [C|_]; [lia|]. cbn [fst snd]. split; [reflexivity|].
  destruct (hc_digest _ _ _ HH (concat chunks) (concat_bytes _ Bc)) as [Dl Db].
  pose proof (ko_bits _ _ _ K) as B2. pose proof (em_len_range (pk_bits x) B2) as R. cbv zeta in R. destruct R as [R1 R2].
  assert (AL : (length (H (concat chunks)) + length salt + 2 <= ceil_div (pk_bits x - 1) 8)%nat) by (rewrite Dl, Ls, <- EC; exact A).
  destruct (emsa_pss_ok hm hg H G lim HH HG Gp (pk_bits x - 1) (H (concat chunks)) salt Db Bs Dl R1 R2 AL) as [Q1 Q2].
  destruct (C41_pss_encoding_in_range hm hg H G lim HH HG Gp (pk_bits x) (H (concat chunks)) salt B2 Db Dl Bs AL) as (Q3 & Q4).
  assert (P0 : 0 < be_val (emsa_pss H (rfc_mgf1 G (hi_out hg)) (pk_bits x - 1) (H (concat chunks)) salt)).
  { unfold emsa_pss in Q1 |- *. cbv zeta in Q1 |- *. rewrite !app_assoc in Q1 |- *. rewrite be_val_app. apply Forall_app in Q1 as [Q1 _].
    apply be_val_bound in Q1. set (u := be_val _) in *. change (be_val [188]) with 188. change (2 ^ (8 * Z.of_nat (length [188]))) with 256. lia. }
  destruct (ko_size _ _ _ K) as (KS & _). change (@vval) with (val_le 32) in KS.
  set (em := emsa_pss _ _ _ _ _) in *. rewrite <- EC in Q2.
  assert (F : firstn (em_len hm hg x) em = em) by (apply firstn_all2; lia).
  destruct (el_sig1 hm hg x K M8) as (S1 & _). unfold Encode_Signature_len. rewrite S1.
  destruct (sign_encoded_bad hm hg x wf k K KP em (S (em_len hm hg x)) M8 Q1) as (sig & E & L & N);
    [lia|rewrite F; clear -P0 Q4 KS; lia|lia|].
  exists sig. rewrite F in N. split; [exact E|]. split; [rewrite L, <- ceil8; auto|exact N].
Qed.
Print Assumptions C57_modulus_bits_refuted.

(* ------------------------------------------------------------------ *)
(** Concrete keys: n = q p and n = q p 991, with q = 2^255-19, p the SM2 prime; e = 65537. *)
Definition ex_q : Z := 2 ^ 255 - 19.
Definition ex_p : Z := 2 ^ 256 - 2 ^ 224 - 2 ^ 96 + 2 ^ 64 - 1.
Definition ex_dq : Z := 47504492169670881278568641743268562467779576082290581584889391659989934184169.
Definition ex_dp : Z := 57896928015230540236799644358427310298873275401091960720965685093915951103999.
Definition ex_tp : Z := 35183335750837583674012612476843142246178734956568976166627564601435276329185.
Definition ex_key2 : rsa_priv := {| key_q := to_le 32 8 ex_q; key_dQ := to_le 32 8 ex_dq;
  key_rest := [{| r_ := to_le 32 8 ex_p; d_ := to_le 32 8 ex_dp; t_ := to_le 32 8 ex_tp |}] |}.
Definition ex_key3 : rsa_priv := {| key_q := to_le 32 8 ex_q; key_dQ := to_le 32 8 ex_dq;
  key_rest := [{| r_ := to_le 32 8 ex_p; d_ := to_le 32 8 ex_dp; t_ := to_le 32 8 ex_tp |}; {| r_ := [991]; d_ := [593]; t_ := [52] |}] |}.
Definition ex_sctx (n : Z) (bits slen : nat) (w1 : list Z) : pkctx (md_impl alg_sha256) (md_impl alg_sha256) :=
  Build_pkctx (md_impl alg_sha256) (md_impl alg_sha256) 2 slen
    (md_init alg_sha256 (repeat 0 64)) (md_init alg_sha256 (repeat 0 64)) bits (to_le 32 17 n) [65537] 18 w1.
Lemma tl8 n v : 0 <= v < 2 ^ (32 * Z.of_nat n) -> words_ok (to_le 32 n v) /\ length (to_le 32 n v) = n /\ val_le 32 (to_le 32 n v) = v.
Proof. intros B. split; [apply words_digits, to_le_digits; lia|]. split; [apply to_le_length|]. rewrite val_to_le by lia. now apply Z.mod_small. Qed.
Lemma ex_sctx_ok n bits slen w1 : words_ok w1 -> (2 <= bits)%nat -> 2 ^ (Z.of_nat bits - 1) <= n < 2 ^ Z.of_nat bits -> Z.of_nat bits <= 544 ->
  key_ok _ _ (ex_sctx n bits slen w1).
Proof.
  intros W B2 B Bb. assert (Pb : 2 ^ Z.of_nat bits <= 2 ^ 544) by (apply Z.pow_le_mono_r; lia).
  destruct (tl8 17 n) as (T1 & T2 & T3). { change (32 * Z.of_nat 17) with 544. split; [|lia]. pose proof (Z.pow_nonneg 2 (Z.of_nat bits - 1)). lia. }
  assert (E1 : words_ok [65537]) by (constructor; [unfold word_ok; lia|constructor]).
  constructor; cbn [ex_sctx pk_n pk_e pk_w1 pk_bits pk_w pk_hmsg pk_hmgf].
  - exact T1.
  - exact E1.
  - exact W.
  - cbn; lia.
  - reflexivity.
  - exact B2.
  - rewrite T3. exact B.
  - rewrite T2, T3. split; [lia|]. change (32 * Z.of_nat 18) with (544 + 32). rewrite Z.pow_add_r by lia.
    apply Z.mul_lt_mono_pos_r; [reflexivity|lia].
  - reflexivity.
  - reflexivity.
Qed.

Lemma ex_key_pairs : key_pair 18 10 ex_key2 (ex_q * ex_p) 65537 /\ key_pair 18 10 ex_key3 (ex_q * ex_p * 991) 65537.
Proof.
  destruct (tl8 8 ex_q) as (A1 & A2 & A3); [split; [discriminate|reflexivity]|].
  destruct (tl8 8 ex_dq) as (B1 & B2 & B3); [split; [discriminate|reflexivity]|].
  destruct (tl8 8 ex_p) as (C1 & C2 & C3); [split; [discriminate|reflexivity]|].
  destruct (tl8 8 ex_dp) as (D1 & D2 & D3); [split; [discriminate|reflexivity]|].
  destruct (tl8 8 ex_tp) as (E1 & E2 & E3); [split; [discriminate|reflexivity]|].
  change (val_le 32) with vval in *.
  assert (W991 : words_ok [991] /\ words_ok [593] /\ words_ok [52]) by (repeat split; (constructor; [unfold word_ok; lia|constructor])). destruct W991 as (W1 & W2 & W3).
  assert (Fq : fits 10 (to_le 32 8 ex_q)).
  { unfold fits. rewrite A2, A3. split; [exact A1|]. split; [lia|]. split; [reflexivity|discriminate]. }
  assert (Fp : fits 10 (to_le 32 8 ex_p)).
  { unfold fits. rewrite C2, C3. split; [exact C1|]. split; [lia|]. split; [reflexivity|discriminate]. }
  assert (Fr : fits 10 [991]).
  { unfold fits. split; [exact W1|]. split; [cbn; lia|]. split; [reflexivity|discriminate]. }
  assert (Pp : prime_ok 10 {| r_ := to_le 32 8 ex_p; d_ := to_le 32 8 ex_dp; t_ := to_le 32 8 ex_tp |}).
  { unfold prime_ok. cbn [r_ d_ t_]. rewrite D2, E2. repeat (split; [first [assumption|lia]|]). lia. }
  assert (Pr : prime_ok 10 {| r_ := [991]; d_ := [593]; t_ := [52] |}).
  { unfold prime_ok. cbn [r_ d_ t_ length]. repeat (split; [first [assumption|lia]|]). lia. }
  assert (Nqp : ex_q <> ex_p) by discriminate. assert (Nqr : ex_q <> 991) by discriminate. assert (Npr : ex_p <> 991) by discriminate.
  assert (V9 : vval [991] = 991 /\ vval [593] = 593 /\ vval [52] = 52) by (split; [|split]; reflexivity). destruct V9 as (V1 & V2 & V3).
  assert (Eq : (ex_q - 1 | 65537 * ex_dq - 1)) by (exists 53774; vm_compute; reflexivity).
  assert (Ep : (ex_p - 1 | 65537 * ex_dp - 1)) by (exists 32769; vm_compute; reflexivity).
  assert (Er : (991 - 1 | 65537 * 593 - 1)) by (exists 39256; vm_compute; reflexivity).
  assert (Tp : (ex_q * ex_tp) mod ex_p = 1 mod ex_p) by (vm_compute; reflexivity).
  assert (Tr : (ex_q * ex_p * 52) mod 991 = 1 mod 991) by (vm_compute; reflexivity).
  assert (L2 : ex_q * (ex_p * 1) < 2 ^ (32 * Z.of_nat 18)) by (vm_compute; reflexivity).
  assert (L3 : ex_q * (ex_p * (991 * 1)) < 2 ^ (32 * Z.of_nat 18)) by (vm_compute; reflexivity).
  assert (Dq : 0 < ex_dq) by reflexivity. assert (Dp : 0 < ex_dp) by reflexivity.
  assert (Pq : prime ex_q) by exact prime_p25519. assert (Pp' : prime ex_p) by exact prime_psm2.
  set (zq := ex_q) in *. set (zp := ex_p) in *. set (zdq := ex_dq) in *. set (zdp := ex_dp) in *. set (ztp := ex_tp) in *.
  split; constructor; unfold ex_key2, ex_key3, key_fits; fold zq zp zdq zdp ztp; cbn [key_q key_dQ key_rest rvals map r_ d_ t_ prodZ fold_right coeffs_ok];
    rewrite ?A2, ?A3, ?B2, ?B3, ?C3, ?D3, ?E3, ?V1, ?V2, ?V3; try lia.
  - split; [lia|]. split; [exact Fq|]. split; [exact B1|]. split; [lia|]. split; [apply Forall_cons; [exact Pp|apply Forall_nil]|exact L2].
  - apply Forall_cons; [exact Pq|]. apply Forall_cons; [exact Pp'|apply Forall_nil].
  - constructor; [|constructor; [auto|constructor]]. intros [X|[]]; congruence.
  - split; [exact Dq|exact Eq].
  - apply Forall_cons; [|apply Forall_nil]. cbn [r_ d_]. rewrite C3, D3. split; [exact Dp|exact Ep].
  - split; [lia|]. split; [exact Fq|]. split; [exact B1|]. split; [lia|]. split; [apply Forall_cons; [exact Pp|apply Forall_cons; [exact Pr|apply Forall_nil]]|exact L3].
  - apply Forall_cons; [exact Pq|]. apply Forall_cons; [exact Pp'|]. apply Forall_cons; [exact prime_991|apply Forall_nil].
  - constructor; [intros [X|[X|[]]]; congruence|]. constructor; [intros [X|[]]; congruence|]. constructor; [auto|constructor].
  - split; [exact Dq|exact Eq].
  - apply Forall_cons; [|apply Forall_cons; [|apply Forall_nil]]; cbn [r_ d_]; rewrite ?C3, ?D3, ?V1, ?V2; [split; [exact Dp|exact Ep]|split; [lia|exact Er]].
Qed.

(** both signers with the 511-bit key: every message (below the SHA-256 limit) and salt gives a valid signature *)
Example C57_nonvacuous : forall (m salt : list Z), bytes_ok m -> Z.of_nat (length m) < 2 ^ 61 -> bytes_ok salt -> length salt = 30%nat ->
  let x := ex_sctx (ex_q * ex_p) 511 30 (repeat 0 18) in
  let hc := md_update alg_sha256 (md_init alg_sha256 (repeat 0 64)) m in
  (exists sig, Encode_Signature _ _ x (snd (RSASSA_PSS_Sign _ _ x 10 ex_key2 hc salt [] (repeat 7 64))) 64 = Some sig /\
    pss_signature_ok (fips_sha256 K_sha256) (rfc_mgf1 (fips_sha256 K_sha256) 32) (ex_q * ex_p) 65537 511 30 (fips_sha256 K_sha256 m) (be_val sig) /\
    pss_body _ _ (ex_sctx (ex_q * ex_p) 511 30 (vlong_OS2IP 18 sig)) (fips_sha256 K_sha256 m) = Some 1) /\
  (exists sig, Encode_Signature _ _ x (snd (RSAEncryptionWithHash_Sign _ _ (Some oid_sha256) x 10 ex_key2 hc [] (repeat 7 64))) 64 = Some sig /\
    v15_signature_ok (ex_q * ex_p) 65537 511 (fst oid_sha256 ++ fips_sha256 K_sha256 m) (be_val sig)).
Proof.
  intros m salt Bm Lm Bs Ls x hc.
  assert (SZ : 2 ^ (Z.of_nat 511 - 1) <= ex_q * ex_p < 2 ^ Z.of_nat 511) by (split; [discriminate|reflexivity]).
  assert (KO : forall w, words_ok w -> key_ok _ _ (ex_sctx (ex_q * ex_p) 511 30 w)).
  { intros w W. apply ex_sctx_ok; auto; cbn; lia. }
  assert (W0 : words_ok (repeat 0 18)) by (apply Forall_forall; intros z Hz; apply repeat_spec in Hz; subst; unfold word_ok; lia).
  destruct (tl8 17 (ex_q * ex_p)) as (_ & _ & VN); [split; [discriminate|reflexivity]|].
  assert (KP : key_pair (pk_w x) 10 ex_key2 (val_le 32 (pk_n x)) (val_le 32 (pk_e x))).
  { subst x. cbn [ex_sctx pk_w pk_n pk_e]. rewrite VN. exact (proj1 ex_key_pairs). }
  assert (Bc : Forall bytes_ok [m]) by (constructor; [exact Bm|constructor]).
  assert (Cm : concat [m] = m) by (cbn; apply app_nil_r).
  assert (M8 : (pk_bits x mod 8 <> 1)%nat) by (vm_compute; discriminate).
  assert (CB : ceil_div (pk_bits x) 8 = 64%nat /\ ceil_div (pk_bits x - 1) 8 = 64%nat) by (split; vm_compute; reflexivity). destruct CB as (CB1 & CB2).
  split.
  - pose proof (C57_pss_sign _ _ _ _ _ sha256_correct sha256_correct ltac:(cbn; lia) x 10 ex_key2 (md_init alg_sha256 (repeat 0 64)) [m] salt [] (repeat 7 64) 64
      (KO _ W0) KP M8 eq_refl Bc ltac:(rewrite Cm; exact Lm) Bs ltac:(exact Ls) ltac:(rewrite CB2; reflexivity) ltac:(vm_compute; reflexivity) ltac:(vm_compute; reflexivity)) as T.
    pose proof (C57_pss_accepted _ _ _ _ _ sha256_correct sha256_correct ltac:(cbn; lia) x) as TA.
    change (fold_left _ [m] _) with hc in T.
    destruct (RSASSA_PSS_Sign _ _ x 10 ex_key2 hc salt [] (repeat 7 64)) as (st, out) eqn:ES. destruct T as (_ & T). rewrite CB1, CB2 in T.
    destruct T as (Tst & _ & _ & T); [cbn; lia|]. destruct T as (sig & En & Bsig & Lsig & _ & OK); [lia|]. exists sig. split; [exact En|].
    cbn [ex_sctx x pk_n pk_e pk_bits pk_slen] in OK. rewrite VN, Cm in OK. split; [exact OK|].
    rewrite <- Cm. apply (TA (ex_sctx (ex_q * ex_p) 511 30 (vlong_OS2IP 18 sig)) 10%nat ex_key2 (md_init alg_sha256 (repeat 0 64)) [m] salt [] (repeat 7 64) sig 64%nat); auto.
    + exact (KO _ W0).
    + rewrite Cm. exact Lm.
    + vm_compute. reflexivity.
    + vm_compute. reflexivity.
    + change (fold_left _ [m] _) with hc. rewrite ES. exact En.
    + apply KO. apply (OS2IP_spec 18 sig Bsig).
  - pose proof (C57_v15_sign _ (md_impl alg_sha256) _ _ sha256_correct x 10 ex_key2 (md_init alg_sha256 (repeat 0 64)) [m] (fst oid_sha256) [] (repeat 7 64) 64
      (KO _ W0) KP M8 eq_refl Bc ltac:(rewrite Cm; exact Lm)) as T.
    change (fold_left _ [m] _) with hc in T. change (Some (fst oid_sha256, hi_out (md_impl alg_sha256))) with (Some oid_sha256) in T.
    assert (Bo : bytes_ok (fst oid_sha256)) by (cbn [fst oid_sha256]; repeat (constructor; [unfold byte_ok; lia|]); constructor).
    assert (B7 : bytes_ok (repeat 7 64)) by (apply Forall_forall; intros z Hz; apply repeat_spec in Hz; subst; unfold byte_ok; lia).
    specialize (T Bo B7 ltac:(rewrite CB2; cbn; lia)).
    destruct (RSAEncryptionWithHash_Sign _ _ _ x 10 ex_key2 hc [] (repeat 7 64)) as (st, out). destruct T as (_ & T). rewrite CB1 in T.
    destruct T as (_ & _ & _ & T); [cbn; lia|]. destruct T as (sig & En & _ & _ & OK); [lia|]. exists sig. split; [exact En|].
    cbn [ex_sctx x pk_n pk_e pk_bits] in OK. rewrite VN, Cm in OK. exact OK.
Qed.

(** the 521-bit three-prime key meets the hypotheses of C57_modulus_bits_refuted, the 511-bit one with a 31-octet salt those of C57_refused_refuted *)
Example C57_refuted_nonvacuous :
  key_ok _ _ (ex_sctx (ex_q * ex_p * 991) 521 31 []) /\ key_pair 18 10 ex_key3 (val_le 32 (to_le 32 17 (ex_q * ex_p * 991))) 65537 /\
  (521 mod 8 = 1)%nat /\ (32 + 31 + 2 <= em_len _ _ (ex_sctx (ex_q * ex_p * 991) 521 31 []))%nat /\
  key_ok _ _ (ex_sctx (ex_q * ex_p) 511 31 []) /\ (em_len _ _ (ex_sctx (ex_q * ex_p) 511 31 []) < 32 + 31 + 2)%nat.
Proof.
  destruct (tl8 17 (ex_q * ex_p * 991)) as (_ & _ & VN); [split; [discriminate|reflexivity]|]. rewrite VN.
  split; [apply ex_sctx_ok; [constructor|lia|split; [discriminate|reflexivity]|lia]|]. split; [exact (proj2 ex_key_pairs)|]. split; [reflexivity|].
  split; [vm_compute; lia|]. split; [apply ex_sctx_ok; [constructor|lia|split; [discriminate|reflexivity]|lia]|vm_compute; lia].
Qed.
