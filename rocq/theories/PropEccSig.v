(** C37, C38, C40, C53: theorems about ECDSA, SM2 signatures, key pairs and ECDH-KEM.  The demo
    domain of PropEcc.v shows that the hypotheses can be met. *)
From Coq Require Import Znumtheory.
From Verif Require Import Base Vlong VlongLemmas EcMod EcSpec EcGroupLemmas EcpXyz EcLawLemmas EcpScaleLemmas EcMulLemmas Der DerLemmas PropEcp
  Ecc EccSpec EccLemmas EccSigLemmas EccRunLemmas PropEcc.

(** The context holds a public key Q, a point of the curve other than infinity. *)
Definition has_public (D : ec_domain) (x : ecc_ctx) (Q : point) : Prop :=
  on (ed_c D) Q /\ Q <> Inf /\ holds_point (ed_c D) (e_Q x) Q.
(** The context holds a private key d, 1 <= d < n, with Q = d G. *)
Definition has_private (D : ec_domain) (g : point) (x : ecc_ctx) (Q : point) : Prop :=
  is_reg D (e_d x) /\ 1 <= val_le 32 (e_d x) < nN D /\ ec_mul (pP D) (aA D) g (Z.to_nat (val_le 32 (e_d x))) Q.
Definition octet_hash (hash : list Z -> list Z) : Prop := forall m, bytes_ok (hash m).
(** The number signed: the leading plen octets of the digest. *)
Definition hash_int (D : ec_domain) (hash : list Z -> list Z) (msg : list Z) : Z := be_val (firstn (ed_plen D) (hash msg)).

(** * C37 *)
(** A signature is accepted only if r and s are in [1, n-1] and it is valid by SEC 1. *)
Theorem C37_verify_sound : forall (D : ec_domain) (g : point) hash (x : ecc_ctx) (Q : point) (r s msg : list Z),
  domain_ok D g -> has_public D x Q -> octet_hash hash -> is_reg D r -> is_reg D s ->
  snd (ECDSA_Verify D hash (load_signature x r s) msg) = true ->
  ecdsa_valid (pP D) (aA D) (nN D) g Q (hash_int D hash msg) (val_le 32 r) (val_le 32 s).
Proof.
  intros D g hash x Q r s msg DO (CQ & NQ & HQ) BH Rr Rs E. unfold ECDSA_Verify in E. cbn [load_signature e_status] in E. change (0 =? 1) with false in E. change (0 =? -1) with false in E. cbv iota in E.
  apply (proj1 (ecdsa_verify_spec D g DO (load_signature x r s) (hash msg) Q CQ NQ HQ Rr Rs (BH msg))) in E. cbn [load_signature e_r e_s] in E. destruct E as (A & B & C).
  split; [exact A|]. split; [exact B|]. exists (val_le 32 r). split; [exact C|]. apply Z.mod_small. lia.
Qed.
Print Assumptions C37_verify_sound.

(** A valid signature is accepted.  Missing from the full claim: x-coordinates from n to p-1, which
    the code compares with r without reducing them modulo n (see C37_large_x_refuted). *)
Theorem C37_verify_complete_partial : forall (D : ec_domain) (g : point) hash (x : ecc_ctx) (Q : point) (r s msg : list Z),
  domain_ok D g -> has_public D x Q -> octet_hash hash -> is_reg D r -> is_reg D s ->
  1 <= val_le 32 r < nN D -> 1 <= val_le 32 s < nN D ->
  ecdsa_x (pP D) (aA D) (nN D) g Q (hash_int D hash msg) (val_le 32 r) (val_le 32 s) (val_le 32 r) ->
  snd (ECDSA_Verify D hash (load_signature x r s) msg) = true.
Proof.
  intros D g hash x Q r s msg DO (CQ & NQ & HQ) BH Rr Rs A B C. unfold ECDSA_Verify. cbn [load_signature e_status]. change (0 =? 1) with false. change (0 =? -1) with false. cbv iota.
  apply (proj2 (ecdsa_verify_spec D g DO (load_signature x r s) (hash msg) Q CQ NQ HQ Rr Rs (BH msg))). split; [exact A|]. split; [exact B|exact C].
Qed.
Print Assumptions C37_verify_complete_partial.

(** What is signed verifies, in any context holding the public key, whatever the randomness.
    Missing from the full claim: the case that the r produced is not in [1, n-1] (see below). *)
Theorem C37_sign_verify_partial : forall (D : ec_domain) (g : point) hash (x x' y : ecc_ctx) (Q : point) (msg : list Z) (rnd : list (list Z)),
  domain_ok D g -> has_private D g x Q -> has_public D y Q -> octet_hash hash -> Forall bytes_ok rnd ->
  ECDSA_Sign D hash x msg rnd = Some x' -> 1 <= val_le 32 (e_r x') < nN D ->
  snd (ECDSA_Verify D hash (load_signature y (e_r x') (e_s x')) msg) = true.
Proof.
  intros D g hash x x' y Q msg rnd DO (RD & BD & EQ) (CQ & NQ & HQ) BH F E BR. unfold ECDSA_Verify. cbn [load_signature e_status]. change (0 =? 1) with false. change (0 =? -1) with false. cbv iota.
  apply (ecdsa_sign_verify D g DO x (hash msg) rnd x' (load_signature y (e_r x') (e_s x')) Q); auto.
Qed.
Print Assumptions C37_sign_verify_partial.

(** The r of a signature is the x-coordinate of k G, not reduced modulo n: if that is n or more,
    a signature comes out that no one accepts. *)
Theorem C37_large_x_refuted : forall (D : ec_domain) (g : point) hash (x : ecc_ctx) (msg k : list Z) (x0 y0 : Z),
  domain_ok D g -> octet_hash hash -> bytes_ok k -> is_reg D (e_d x) -> val_le 32 (e_d x) < nN D ->
  let kv := topword_modmask D (vlong_OS2IP (cv_w (ed_c D)) k) in
  in_range D kv = true -> ec_mul (pP D) (aA D) g (Z.to_nat (val_le 32 kv)) (Aff x0 y0) -> nN D <= x0 mod pP D ->
  (hash_int D hash msg + x0 mod pP D * val_le 32 (e_d x)) mod nN D <> 0 ->
  exists x', ECDSA_Sign D hash x msg [k] = Some x' /\
    forall y m, snd (ECDSA_Verify D hash (load_signature y (e_r x') (e_s x')) m) = false.
Proof.
  intros D g hash x msg k x0 y0 DO BH Bk RD BD kv IR EM LX NS. pose proof (N1 D g DO) as n1. pose proof (topword_reg D _ (os_reg D k Bk)) as RK. fold kv in RK.
  pose proof (proj1 (in_range_spec D g DO _ (proj1 RK)) IR) as BK.
  assert (CM : on (ed_c D) (Aff x0 y0)) by exact (ec_mul_on _ _ _ (Hp D g DO) (H2 D g DO) (NoTwo D g DO) g _ _ (do_Gc _ _ DO) EM).
  pose proof (key_point D g DO (val_le 32 kv) _ ltac:(lia) CM EM) as KP. cbn [canW] in KP.
  destruct (sign_some D g DO x (hash msg) k _ _ Bk RD BD (BH msg) IR (eq_sym KP) ltac:(lia) NS) as (x' & E & Er & Rr & Rs).
  exists x'. split; [exact E|]. intros y m. unfold ECDSA_Verify. cbn [load_signature e_status]. change (0 =? 1) with false. change (0 =? -1) with false. cbv iota.
  unfold HMP1994_Verify. cbn [load_signature e_r e_s]. destruct (in_range D (e_r x')) eqn:I; [|reflexivity].
  apply (in_range_spec D g DO _ (proj1 Rr)) in I. rewrite Er in I. lia.
Qed.
Print Assumptions C37_large_x_refuted.

(** Verification overwrites the private key: afterwards the register of d holds e / s modulo n. *)
Theorem C37_verify_overwrites_key_refuted : forall (D : ec_domain) (g : point) hash (x : ecc_ctx) (r s msg : list Z),
  domain_ok D g -> octet_hash hash -> is_reg D r -> is_reg D s -> 1 <= val_le 32 r < nN D -> 1 <= val_le 32 s < nN D ->
  (val_le 32 (e_d (fst (ECDSA_Verify D hash (load_signature x r s) msg))) * val_le 32 s) mod nN D = hash_int D hash msg mod nN D.
Proof.
  intros D g hash x r s msg DO BH Rr Rs A B. unfold ECDSA_Verify. cbn [load_signature e_status]. change (0 =? 1) with false. change (0 =? -1) with false. cbv iota.
  exact (verify_d D g DO (load_signature x r s) (hash msg) Rr Rs (BH msg) A B).
Qed.
Print Assumptions C37_verify_overwrites_key_refuted.

(** Key pairs: generated and decoded private keys are in [1, n-1] and come with Q = d G, affine. *)
Theorem C37_keypair : forall (D : ec_domain) (g : point) (d : list Z) (q : ecp_xyz),
  domain_ok D g ->
  (exists rnd, Forall bytes_ok rnd /\ ecc_gen_privkey D rnd = Some (d, q)) \/ (exists enc, bytes_ok enc /\ ecc_dec_privkey D enc = Some (d, q) ) ->
  is_reg D d /\ 1 <= val_le 32 d < nN D /\
  exists Q, ec_mul (pP D) (aA D) g (Z.to_nat (val_le 32 d)) Q /\ on (ed_c D) Q /\ Q <> Inf /\ holds_point (ed_c D) q Q /\ val_le 32 (pz q) = 1.
Proof.
  intros D g d q DO H.
  assert (K : is_reg D d /\ 1 <= val_le 32 d < nN D /\ q = ecc_pubkey D d).
  { destruct H as [(rnd & F & E)|(enc & B & E)].
    - exact (gen_spec D g DO rnd F d q E).
    - apply (proj1 (dec_spec D g DO enc d q B)) in E. destruct E as (L & BB & -> & ->). destruct (os_val D g DO enc B ltac:(lia)) as (R & V & _).
      split; [exact R|]. split; [rewrite V; exact BB|reflexivity]. }
  destruct K as (R & B & ->). split; [exact R|]. split; [exact B|]. exact (pubkey_spec D g DO d R B).
Qed.
Print Assumptions C37_keypair.
(** A private key of plen octets is taken exactly if its value is in [1, n-1]. *)
Theorem C37_private_key_range : forall (D : ec_domain) (g : point) (enc : list Z), domain_ok D g -> bytes_ok enc ->
  (exists k, ecc_dec_privkey D enc = Some k) <-> length enc = ed_plen D /\ 1 <= be_val enc < nN D.
Proof.
  intros D g enc DO B. split.
  - intros ([d q] & E). apply (proj1 (dec_spec D g DO enc d q B)) in E. tauto.
  - intros (L & R). set (d := vlong_OS2IP (cv_w (ed_c D)) enc). exists (d, ecc_pubkey D d). apply (proj2 (dec_spec D g DO enc d (ecc_pubkey D d) B)). split; [exact L|]. split; [exact R|]. split; reflexivity.
Qed.
Print Assumptions C37_private_key_range.

(** * C38 *)
(** SM2SIG_Verify accepts exactly the valid signatures.  Missing from the full claim: verification
    points that are infinity or have x-coordinate 0 (the code may add p instead of 0 to the digest). *)
Theorem C38_verify_partial : forall (D : ec_domain) (g : point) hash (uinfo : list Z) (x : ecc_ctx) (Q : point) (r s msg : list Z),
  domain_ok D g -> has_public D x Q -> octet_hash hash -> is_reg D r -> is_reg D s ->
  (exists x0, combination_x (pP D) (aA D) g Q (val_le 32 s) ((val_le 32 r + val_le 32 s) mod nN D) x0 /\ x0 <> 0) ->
  snd (SM2SIG_Verify D hash uinfo (load_signature x r s) msg) = true <->
  sm2_valid (pP D) (aA D) (nN D) g Q (hash_int D hash (uinfo ++ msg)) (val_le 32 r) (val_le 32 s).
Proof.
  intros D g hash uinfo x Q r s msg DO (CQ & NQ & HQ) BH Rr Rs X. unfold SM2SIG_Verify. cbn [load_signature e_status]. change (0 =? 1) with false. change (0 =? -1) with false. cbv iota.
  apply (sm2_verify_spec D g DO (load_signature x r s) (hash (uinfo ++ msg)) Q CQ NQ HQ Rr Rs (BH _)). intros _ _ _. exact X.
Qed.
Print Assumptions C38_verify_partial.
(** Without any restriction: what is accepted has r and s in [1, n-1] and r + s not 0 modulo n. *)
Theorem C38_verify_range : forall (D : ec_domain) (g : point) hash (uinfo : list Z) (x : ecc_ctx) (r s msg : list Z),
  domain_ok D g -> is_reg D r -> is_reg D s -> snd (SM2SIG_Verify D hash uinfo (load_signature x r s) msg) = true ->
  1 <= val_le 32 r < nN D /\ 1 <= val_le 32 s < nN D /\ (val_le 32 r + val_le 32 s) mod nN D <> 0.
Proof.
  intros D g hash uinfo x r s msg DO Rr Rs E. unfold SM2SIG_Verify in E. cbn [load_signature e_status] in E. change (0 =? 1) with false in E. change (0 =? -1) with false in E. cbv iota in E.
  exact (sm2_reject_range D g DO (load_signature x r s) (hash (uinfo ++ msg)) Rr Rs E).
Qed.
Print Assumptions C38_verify_range.
(** What is signed verifies.  Missing from the full claim: nonces k for which k G has x-coordinate 0. *)
Theorem C38_sign_verify_partial : forall (D : ec_domain) (g : point) hash (uinfo : list Z) (x x' y : ecc_ctx) (Q : point) (msg : list Z) (rnd : list (list Z)) (xk yk : Z),
  domain_ok D g -> 2 < nN D -> has_private D g x Q -> has_public D y Q -> octet_hash hash -> Forall bytes_ok rnd ->
  SM2SIG_Sign D hash uinfo x msg rnd = Some x' ->
  ec_mul (pP D) (aA D) g (Z.to_nat (val_le 32 (e_k x'))) (Aff xk yk) -> ~ eqm (pP D) xk 0 ->
  snd (SM2SIG_Verify D hash uinfo (load_signature y (e_r x') (e_s x')) msg) = true.
Proof.
  intros D g hash uinfo x x' y Q msg rnd xk yk DO HN (RD & BD & EQ) (CQ & NQ & HQ) BH F E EK NX. unfold SM2SIG_Verify. cbn [load_signature e_status]. change (0 =? 1) with false. change (0 =? -1) with false. cbv iota.
  destruct (sm2_sign_verify D g DO x (hash (uinfo ++ msg)) rnd x' (load_signature y (e_r x') (e_s x')) Q CQ NQ EQ RD BD HN (BH _) F E HQ eq_refl eq_refl) as [_ V].
  apply (V (xk mod pP D)).
  - exists (Aff xk yk), Inf, xk, yk. split; [exact EK|]. split; [constructor|]. split; [constructor|reflexivity].
  - intros Z0. apply NX. pose proof (P1 D g DO). apply eqm_mod; [lia|]. now rewrite Zmod_0_l.
Qed.
Print Assumptions C38_sign_verify_partial.
(** Signing with the key n - 1, which the decoder accepts, never ends, whatever the randomness. *)
Theorem C38_signing_diverges_refuted : forall (D : ec_domain) (g : point) hash (uinfo : list Z) (x : ecc_ctx) (msg : list Z) (rnd : list (list Z)),
  domain_ok D g -> 2 < nN D -> is_reg D (e_d x) -> val_le 32 (e_d x) = nN D - 1 -> octet_hash hash -> Forall bytes_ok rnd ->
  SM2SIG_Sign D hash uinfo x msg rnd = None.
Proof. intros D g hash uinfo x msg rnd DO HN RD ED BH F. exact (sm2_diverges D g DO (length rnd) x (hash (uinfo ++ msg)) RD ED HN (BH _) rnd F). Qed.
Print Assumptions C38_signing_diverges_refuted.
(** Verification overwrites the private key with s. *)
Theorem C38_verify_overwrites_key_refuted : forall (D : ec_domain) (g : point) hash (uinfo : list Z) (x : ecc_ctx) (r s msg : list Z),
  domain_ok D g -> is_reg D r -> is_reg D s -> 1 <= val_le 32 r < nN D -> 1 <= val_le 32 s < nN D ->
  val_le 32 (e_d (fst (SM2SIG_Verify D hash uinfo (load_signature x r s) msg))) = val_le 32 s.
Proof.
  intros D g hash uinfo x r s msg DO Rr Rs A B. unfold SM2SIG_Verify. cbn [load_signature e_status]. change (0 =? 1) with false. change (0 =? -1) with false. cbv iota.
  exact (sm2_verify_d D g DO (load_signature x r s) (hash (uinfo ++ msg)) Rr Rs A B).
Qed.
Print Assumptions C38_verify_overwrites_key_refuted.

(** * C40 for ECDSA and SM2 *)
(** Once a message has been accepted, every message is accepted. *)
Theorem C40_ecdsa_cached_verdict : forall (D : ec_domain) hash (x : ecc_ctx) (msg msg' : list Z),
  snd (ECDSA_Verify D hash x msg) = true -> snd (ECDSA_Verify D hash (fst (ECDSA_Verify D hash x msg)) msg') = true.
Proof.
  intros D hash x msg msg' E.
  assert (S1 : e_status (fst (ECDSA_Verify D hash x msg)) = 1).
  { unfold ECDSA_Verify in *. destruct (Z.eqb_spec (e_status x) 1) as [H|H]; [exact H|]. destruct (e_status x =? -1); [discriminate|].
    unfold HMP1994_Verify in *. repeat (match type of E with context [snd (if ?q then _ else _)] => destruct q end; [try discriminate E|]; try reflexivity); try reflexivity; discriminate. }
  set (x' := fst (ECDSA_Verify D hash x msg)) in *. clearbody x'. unfold ECDSA_Verify. rewrite S1. reflexivity.
Qed.
Print Assumptions C40_ecdsa_cached_verdict.
Theorem C40_sm2_cached_verdict : forall (D : ec_domain) hash (uinfo : list Z) (x : ecc_ctx) (msg msg' : list Z),
  snd (SM2SIG_Verify D hash uinfo x msg) = true -> snd (SM2SIG_Verify D hash uinfo (fst (SM2SIG_Verify D hash uinfo x msg)) msg') = true.
Proof.
  intros D hash uinfo x msg msg' E.
  assert (S1 : e_status (fst (SM2SIG_Verify D hash uinfo x msg)) = 1).
  { unfold SM2SIG_Verify in *. destruct (Z.eqb_spec (e_status x) 1) as [H|H]; [exact H|]. destruct (e_status x =? -1); [discriminate|].
    unfold GMT0003pt2_Verify in *. cbv zeta in *. repeat (match type of E with context [snd (if ?q then _ else _)] => destruct q end; [try discriminate E|]; try reflexivity); try reflexivity; discriminate. }
  set (x' := fst (SM2SIG_Verify D hash uinfo x msg)) in *. clearbody x'. unfold SM2SIG_Verify. rewrite S1. reflexivity.
Qed.
Print Assumptions C40_sm2_cached_verdict.

(** * C53 *)
(** Both sides of ECDH-KEM come to the x-coordinate of d k G.  Missing from the full claim: a shared
    point with x-coordinate 0. *)
Theorem C53_agreement_partial : forall (D : ec_domain) (g : point) (d : list Z) (q ct : ecp_xyz) (Q : point) (rnd : list (list Z)) (ss : list Z),
  domain_ok D g -> is_reg D d -> 1 <= val_le 32 d < nN D -> ec_mul (pP D) (aA D) g (Z.to_nat (val_le 32 d)) Q -> holds_point (ed_c D) q Q ->
  Forall bytes_ok rnd -> ECDH_KEM_Enc D q rnd = Some (ct, ss) ->
  exists k K S, (exists H, In H rnd /\ k = val_le 32 (topword_modmask D (vlong_OS2IP (cv_w (ed_c D)) H))) /\ 1 <= k < nN D /\ ec_mul (pP D) (aA D) g (Z.to_nat k) K /\ on (ed_c D) K /\ K <> Inf /\ holds_point (ed_c D) ct K /\
    ec_mul (pP D) (aA D) Q (Z.to_nat k) S /\
    forall xs ys, S = Aff xs ys -> ~ eqm (pP D) xs 0 ->
      ss = be_bytes (ed_plen D) (xs mod pP D) /\ forall ct', holds_point (ed_c D) ct' K -> ECDH_KEM_Dec D d ct' = Some ss.
Proof. intros D g d q ct Q rnd ss DO RD BD EQ HQ F E. exact (ecdh_agree D g DO d Q q rnd ct ss RD BD EQ HQ F E). Qed.
Print Assumptions C53_agreement_partial.

(** * The hypotheses are met: runs in the demo domain, d = 3, Q = 3 G = (17, 12) *)
Definition idh (m : list Z) : list Z := map (fun w => w mod 256) m.
Lemma idh_ok : octet_hash idh.
Proof. intros m. induction m as [|w m IH]; cbn [idh map]; constructor; [|exact IH]. unfold byte_ok. apply Z.mod_pos_bound. lia. Qed.
Definition demoQ : ecp_xyz := {| px := [17; 0; 0]; py := [12; 0; 0]; pz := [1; 0; 0] |}.
Definition demo_x : ecc_ctx := {| e_d := [3; 0; 0]; e_Q := demoQ; e_k := []; e_R := demoQ; e_r := []; e_s := []; e_status := 0 |}.
Lemma demo_Q_on : on demoC (Aff 17 12). Proof. apply demo_on. vm_compute. reflexivity. Qed.
Lemma demo_public : has_public demoD demo_x (Aff 17 12).
Proof. split; [exact demo_Q_on|]. split; [discriminate|]. apply demo_holds; try (apply reg3; lia); reflexivity. Qed.
Lemma demo_mulG k x y : mulW 31 (-3) 25 k (Aff 9 13) = Aff x y -> mulW 31 (-3) 25 k (canW 31 (Aff 9 13)) = Aff x y.
Proof. intros E. exact E. Qed.
Lemma demo_private : exists Q, has_private demoD (Aff 9 13) demo_x Q /\ has_public demoD demo_x Q.
Proof.
  destruct (demo_mulx 3 17 12) as (x & y & EM & Ex & Ey); [vm_compute; reflexivity|]. exists (Aff x y).
  assert (PE : pt_eq 31 (Aff 17 12) (Aff x y)) by (split; symmetry; assumption).
  destruct demo_public as (A & _ & B).
  split; [split; [apply reg3'; lia|split; [split; vm_compute; congruence|exact EM]]|].
  split; [exact (on_curve_eq 31 (-3) 25 (Aff 17 12) (Aff x y) PE A)|]. split; [discriminate|]. exact (holds_pt demoC _ (Aff 17 12) _ PE B).
Qed.
(** ECDSA, digest 7, k = 5: r = 19, s = 22; and the same signature is not valid for digest 8. *)
Lemma demo_sig_ok : ecdsa_x 31 (-3) 23 (Aff 9 13) (Aff 17 12) 7 19 22 19.
Proof.
  exists 22. split; [apply eqm_mod; [lia|vm_compute; reflexivity]|].
  apply (proj2 (comb_point demoD (Aff 9 13) demo_ok (Aff 17 12) _ _ _ demo_Q_on)). exists 10. vm_compute. reflexivity.
Qed.
Lemma demo_sig_bad : ~ ecdsa_valid 31 (-3) 23 (Aff 9 13) (Aff 17 12) 8 19 22.
Proof.
  intros (_ & _ & x & (w & EW & CX) & Hx). apply eqm_mod in EW; [|lia].
  assert (W : w mod 23 = 22 mod 23) by (apply (inv_unique 23 22); [lia|exact EW|vm_compute; reflexivity]).
  rewrite <- (Zmult_mod_idemp_r w), W in CX. rewrite <- (Zmult_mod_idemp_r w), W in CX.
  apply (proj1 (comb_point demoD (Aff 9 13) demo_ok (Aff 17 12) _ _ _ demo_Q_on)) in CX. destruct CX as (y & CX).
  assert (K : op 31 (-3) 25 (mulW 31 (-3) 25 (Z.to_nat ((8 * (22 mod 23)) mod 23)) (Aff 9 13)) (mulW 31 (-3) 25 (Z.to_nat ((19 * (22 mod 23)) mod 23)) (Aff 17 12)) = Aff 21 4) by (vm_compute; reflexivity).
  assert (K' : Aff 21 4 = Aff x y) by (rewrite <- K; exact CX). injection K' as <- <-. exfalso. clear -Hx. vm_compute in Hx. discriminate Hx.
Qed.
Example C37_verify_example : snd (ECDSA_Verify demoD idh (load_signature demo_x [19; 0; 0] [22; 0; 0]) [7]) = true.
Proof.
  apply (C37_verify_complete_partial demoD (Aff 9 13) idh demo_x (Aff 17 12) [19; 0; 0] [22; 0; 0] [7] demo_ok demo_public idh_ok);
    [apply reg3'; lia|apply reg3'; lia|split; vm_compute; congruence|split; vm_compute; congruence|exact demo_sig_ok].
Qed.
(** The verdict on the second message is the one on the first, though the signature is not valid for it. *)
Theorem C40_ecdsa_verdict_refuted : exists D g hash x Q r s m m',
  domain_ok D g /\ octet_hash hash /\ has_public D x Q /\
  snd (ECDSA_Verify D hash (load_signature x r s) m) = true /\
  snd (ECDSA_Verify D hash (fst (ECDSA_Verify D hash (load_signature x r s) m)) m') = true /\
  ~ ecdsa_valid (pP D) (aA D) (nN D) g Q (hash_int D hash m') (val_le 32 r) (val_le 32 s).
Proof.
  exists demoD, (Aff 9 13), idh, demo_x, (Aff 17 12), [19; 0; 0], [22; 0; 0], [7], [8].
  split; [exact demo_ok|]. split; [exact idh_ok|]. split; [exact demo_public|]. split; [exact C37_verify_example|].
  split; [apply C40_ecdsa_cached_verdict; exact C37_verify_example|exact demo_sig_bad].
Qed.
Print Assumptions C40_ecdsa_verdict_refuted.

(** Signing with k = 5 gives r = 19, in range; with k = 2, (23, 8) has x-coordinate n. *)
Example C37_sign_example : exists x', ECDSA_Sign demoD idh demo_x [7] [[5]] = Some x' /\ 1 <= val_le 32 (e_r x') < nN demoD.
Proof.
  destruct (sign_some demoD (Aff 9 13) demo_ok demo_x [7] [5] 19 10) as (x' & E & Er & _).
  - repeat constructor; unfold byte_ok; lia.
  - apply reg3'. lia.
  - vm_compute. reflexivity.
  - repeat constructor; unfold byte_ok; lia.
  - vm_compute. reflexivity.
  - vm_compute. reflexivity.
  - lia.
  - vm_compute. congruence.
  - exists x'. split; [exact E|]. rewrite Er. split; vm_compute; congruence.
Qed.
Example C37_large_x_example : exists x', ECDSA_Sign demoD idh demo_x [7] [[2]] = Some x' /\
    forall y m, snd (ECDSA_Verify demoD idh (load_signature y (e_r x') (e_s x')) m) = false.
Proof.
  destruct (demo_mulx 2 23 8) as (x & y & EM & Ex & Ey); [vm_compute; reflexivity|]. apply eqm_mod in Ex; [|lia]. change (23 mod 31) with 23 in Ex.
  apply (C37_large_x_refuted demoD (Aff 9 13) idh demo_x [7] [2] x y demo_ok idh_ok).
  - repeat constructor; unfold byte_ok; lia.
  - apply reg3'. lia.
  - vm_compute. reflexivity.
  - vm_compute. reflexivity.
  - exact EM.
  - change (pP demoD) with 31. rewrite Ex. vm_compute. congruence.
  - change (pP demoD) with 31. rewrite Ex. vm_compute. congruence.
Qed.
(** SM2, digest 7, k = 5: r = 3, s = 22; not valid for digest 8. *)
Lemma demo_comb : combination_x 31 (-3) (Aff 9 13) (Aff 17 12) 22 ((3 + 22) mod 23) 19.
Proof. apply (proj2 (comb_point demoD (Aff 9 13) demo_ok (Aff 17 12) _ _ _ demo_Q_on)). exists 10. vm_compute. reflexivity. Qed.
Lemma n19 : 19 <> 0. Proof. discriminate. Qed.
Example C38_verify_example : snd (SM2SIG_Verify demoD idh [] (load_signature demo_x [3; 0; 0] [22; 0; 0]) [7]) = true.
Proof.
  apply (proj2 (C38_verify_partial demoD (Aff 9 13) idh [] demo_x (Aff 17 12) [3; 0; 0] [22; 0; 0] [7] demo_ok demo_public idh_ok (reg3' 3 ltac:(lia)) (reg3' 22 ltac:(lia))
    (ex_intro _ 19 (conj demo_comb n19)))).
  split; [split; vm_compute; congruence|]. split; [split; vm_compute; congruence|]. split; [vm_compute; congruence|].
  exists 19. split; [exact demo_comb|vm_compute; reflexivity].
Qed.
Theorem C40_sm2_verdict_refuted : exists D g hash x Q r s m m',
  domain_ok D g /\ octet_hash hash /\ has_public D x Q /\
  snd (SM2SIG_Verify D hash [] (load_signature x r s) m) = true /\
  snd (SM2SIG_Verify D hash [] (fst (SM2SIG_Verify D hash [] (load_signature x r s) m)) m') = true /\
  ~ sm2_valid (pP D) (aA D) (nN D) g Q (hash_int D hash m') (val_le 32 r) (val_le 32 s).
Proof.
  exists demoD, (Aff 9 13), idh, demo_x, (Aff 17 12), [3; 0; 0], [22; 0; 0], [7], [8].
  split; [exact demo_ok|]. split; [exact idh_ok|]. split; [exact demo_public|]. split; [exact C38_verify_example|].
  split; [apply C40_sm2_cached_verdict; exact C38_verify_example|].
  intros (_ & _ & _ & x & CX & Hx).
  apply (proj1 (comb_point demoD (Aff 9 13) demo_ok (Aff 17 12) _ _ _ demo_Q_on)) in CX. destruct CX as (y & CX).
  assert (K : op 31 (-3) 25 (mulW 31 (-3) 25 (Z.to_nat 22) (Aff 9 13)) (mulW 31 (-3) 25 (Z.to_nat ((3 + 22) mod 23)) (Aff 17 12)) = Aff 19 10) by (vm_compute; reflexivity).
  assert (K' : Aff 19 10 = Aff x y) by (rewrite <- K; exact CX). injection K' as <- <-. exfalso. clear -Hx. vm_compute in Hx. discriminate Hx.
Qed.
Print Assumptions C40_sm2_verdict_refuted.
Example C38_sign_example : exists x' xk yk, SM2SIG_Sign demoD idh [] demo_x [7] [[5]] = Some x' /\
  ec_mul 31 (-3) (Aff 9 13) (Z.to_nat (val_le 32 (e_k x'))) (Aff xk yk) /\ ~ eqm 31 xk 0.
Proof.
  destruct (demo_mulx 5 19 10) as (xk & yk & EM & Ex & Ey); [vm_compute; reflexivity|].
  destruct (sm2_sign_some demoD (Aff 9 13) demo_ok demo_x [7] [5] 19 10) as (x' & E & Ek).
  - repeat constructor; unfold byte_ok; lia.
  - apply reg3'. lia.
  - vm_compute. reflexivity.
  - vm_compute. reflexivity.
  - repeat constructor; unfold byte_ok; lia.
  - vm_compute. reflexivity.
  - vm_compute. reflexivity.
  - lia.
  - vm_compute. congruence.
  - vm_compute. congruence.
  - vm_compute. congruence.
  - exists x', xk, yk. split; [exact E|]. split; [rewrite Ek; exact EM|]. intros Z0. apply (demo_neq 19 0); [vm_compute; congruence|]. rewrite <- Ex. exact Z0.
Qed.
(** ECDH-KEM, k = 5: both come to 27, the x-coordinate of 15 G. *)
Example C53_example : exists ct ss, ECDH_KEM_Enc demoD demoQ [[5]] = Some (ct, ss) /\ ECDH_KEM_Dec demoD [3; 0; 0] ct = Some ss.
Proof.
  destruct demo_private as (Q & (RD & BD & EQ) & (CQ & NQ & HQ)).
  assert (CK : canW 31 Q = Aff 17 12).
  { pose proof (key_point demoD (Aff 9 13) demo_ok 3 Q ltac:(lia) CQ EQ) as K. change (pP demoD) with 31 in K. rewrite K. vm_compute. reflexivity. }
  assert (M15 : mulW 31 (-3) 25 5 (canW 31 Q) = Aff 27 2) by (rewrite CK; vm_compute; reflexivity).
  assert (B5 : bytes_ok [5]) by (repeat constructor; unfold byte_ok; lia).
  destruct (kem_some demoD (Aff 9 13) demo_ok demoQ Q [5] B5 CQ NQ HQ ltac:(vm_compute; reflexivity) 27 2 M15) as (ct & ss & E).
  exists ct, ss. split; [exact E|].
  destruct (C53_agreement_partial demoD (Aff 9 13) [3; 0; 0] demoQ ct Q [[5]] ss demo_ok RD BD EQ HQ (Forall_cons _ B5 (Forall_nil _)) E) as (k' & K & S & (H & IH & KH) & B' & EK & CK' & NK & HK & EM & V).
  destruct IH as [<-|[]]. assert (K5 : k' = 5) by (rewrite KH; vm_compute; reflexivity). clear KH. subst k'.
  pose proof (ec_mul_can 31 (-3) 25 prime_31 ltac:(lia) demo_NT Q _ _ CQ EM) as KM. change (Z.to_nat 5) with 5%nat in KM. rewrite M15 in KM.
  destruct S as [|xs ys]; cbn [canW] in KM; [discriminate KM|].
  apply (fun h => proj2 (V xs ys eq_refl h) ct HK). intros Z0.
  assert (X : xs mod 31 = 27) by congruence. apply eqm_mod in Z0; [|discriminate]. change (pP demoD) with 31 in Z0. rewrite X in Z0. clear -Z0. vm_compute in Z0. discriminate Z0.
Qed.
