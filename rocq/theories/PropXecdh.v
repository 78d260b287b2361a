(** C51: X25519 and X448 key agreement. *)
From Coq Require Import Znumtheory.
From Verif Require Import Base Vlong VlongLemmas VlongDivLemmas VlongMulLemmas EcMod EcModLemmas EcFieldLemmas EcCurveLemmas EcSpec EcGroupLemmas PolyLemmas Der DerLemmas OctetLemmas EdSpec EdCompleteLemmas MtSpec EcMt EcMtLemmas MtAgreeLemmas CurvePrimes PropEd.

(** The two curves of the library, or any other modulus and coefficient reduced by the generic division. *)
Definition montgomery (c : mt_curve) : Prop :=
  c = Curve25519 \/ c = Curve448 \/
  (words_ok (mt_p c) /\ (length (mt_p c) + 2 <= mt_w c)%nat /\ 1 < val_le 32 (mt_p c) /\ 2 <= nthZ 0 (mt_p c) /\
   mt_g c = (fun v => vlong_remv_inplace v (mt_p c)) /\ 2 <= mt_a c <= 2 ^ 20).
Definition mt_register (c : mt_curve) (r : list Z) : Prop := words_ok r /\ length r = mt_w c /\ val_le 32 r <= val_le 32 (mt_p c).
(** The u-coordinate function of RFC 7748 on the curve's parameters: (A - 2) / 4, p, the number of bits. *)
Definition xfun (c : mt_curve) (k u : Z) : Z := rfc7748 (val_le 32 (mt_p c)) ((mt_a c - 2) / 4) (mt_bits c) k u.

Lemma montgomery_ok c : montgomery c -> mtcurve_ok c.
Proof.
  intros [->|[->|(A1 & A2 & A3 & A4 & A5 & A6)]].
  - split; [apply field_25519; cbn; lia|cbn; lia|cbn; lia].
  - split; [apply field_448; cbn; lia|cbn; lia|cbn; lia].
  - split; [rewrite A5; now apply field_remv| |exact A4]. unfold mt_a24. split; [apply Z.div_pos; lia|]. apply Z.div_le_upper_bound; lia.
Qed.

(** * C51.  For every scalar register and every u register (any value up to 8p, so every
    decoded octet string, canonical or not) the ladder computes the RFC's function. *)
Theorem C51_ladder : forall (c : mt_curve) (k u : list Z), montgomery c -> words_ok k -> words_ok u -> length u = mt_w c -> val_le 32 u <= 8 * val_le 32 (mt_p c) ->
  mt_register c (ecMt_point_scale c k u) /\ val_le 32 (ecMt_point_scale c k u) mod val_le 32 (mt_p c) = xfun c (val_le 32 k) (val_le 32 u).
Proof.
  intros c k u M Wk Wu Lu Bu. destruct (scale_rfc c (montgomery_ok c M) k u Wk Wu Lu Bu) as (A & B & C & D). split; [split; [|split]|]; assumption.
Qed.
Print Assumptions C51_ladder.

(** The ladder really multiplies points and so the order of two scalars does not matter:
    for every u-coordinate of the curve and every two scalars. *)
Definition mt_lib (c : mt_curve) : Prop := c = Curve25519 \/ c = Curve448.
Theorem C51_commutes : forall (c : mt_curve) (u j k : Z), mt_lib c ->
  on_montgomery (val_le 32 (mt_p c)) (mt_a c) u -> 0 <= j -> 0 <= k -> xfun c j (xfun c k u) = xfun c k (xfun c j u).
Proof.
  intros c u j k [->|E] HM Hj Hk; [|subst c]; unfold xfun; cbn [mt_p mt_a mt_bits Curve25519 Curve448] in *.
  - pose proof prime_p25519 as Hp. rewrite p25519_val in *. change ((486662 - 2) / 4) with 121665.
    assert (N0 : 2 ^ 255 - 19 <> 0) by (apply Z.eqb_neq; vm_compute; reflexivity).
    apply (rfc_commutes (2 ^ 255 - 19) (-1) (-121665) 121666 1 121665 486662 0xf26edf460a006bbd27b08dc03fc4f7ec5a1d3d14b7d1a82cc6e04aaff457e06); auto.
    + apply Z.eqb_neq. vm_compute. reflexivity.
    + now apply complete_25519.
    + left. split; [reflexivity|]. apply eqm_by; [vm_compute; reflexivity|exact N0].
    + apply eqm_by; [vm_compute; reflexivity|exact N0].
    + apply eqm_by; [vm_compute; reflexivity|exact N0].
  - pose proof prime_p448 as Hp. rewrite p448_val in *. change ((156326 - 2) / 4) with 39081.
    assert (N0 : 2 ^ 448 - 2 ^ 224 - 1 <> 0) by (apply Z.eqb_neq; vm_compute; reflexivity).
    apply (rfc_commutes (2 ^ 448 - 2 ^ 224 - 1) 1 39082 39081 (-1) 39081 156326
      0xba4d3a0829b6112f8812e51ba0bb2abebc1cb08eb48e556936ba50fdd2e7d68af8cb32160522425b3f990812abbe635ad37a21e17551b193); auto.
    + apply Z.eqb_neq. vm_compute. reflexivity.
    + apply (complete_3mod4 _ (2 ^ 446 - 2 ^ 222 - 1) _ _ _ 1
        0x54457070fb7967d346710750c9f632c2792bd08a0d9bc3791700015fcada1acc74ce0dd46445d2d8b81c730cd43d844a7e20c44e4b9a266c); [exact Hp| | | | | | | ].
      * apply Z.leb_le. vm_compute. reflexivity.
      * apply Z.eqb_eq. vm_compute. reflexivity.
      * apply neqm_by; [vm_compute; reflexivity|exact N0].
      * apply neqm_by; [vm_compute; reflexivity|exact N0].
      * apply eqm_by; [vm_compute; reflexivity|exact N0].
      * apply neqm_by; [vm_compute; reflexivity|exact N0].
      * apply eqm_by; [vm_compute; reflexivity|exact N0].
    + right. split; [reflexivity|]. apply eqm_by; [vm_compute; reflexivity|exact N0].
    + apply eqm_by; [vm_compute; reflexivity|exact N0].
    + apply eqm_by; [vm_compute; reflexivity|exact N0].
Qed.
Print Assumptions C51_commutes.

(** the base points are u-coordinates of the curves *)
Theorem C51_base_points : Forall (fun c => on_montgomery (val_le 32 (mt_p c)) (mt_a c) (mt_u c)) [Curve25519; Curve448].
Proof.
  apply Forall_cons; [|apply Forall_cons; [|apply Forall_nil]].
  - exists 0x20ae19a1b8a086b4e01edd2c7748d14c923d4d7e6d7c61b229e9c5a27eced3d9. apply eqm_by; [vm_compute; reflexivity|]. apply Z.eqb_neq; vm_compute; reflexivity.
  - exists 0x82dca2ed6a0a4e0993675491a7cd90313451a2cb0aaaba2f9f08a23c720c091247fd81dcb9bcf2deeced3b4eaf9885089028ddc2ba84a4e5.
    apply eqm_by; [vm_compute; reflexivity|]. apply Z.eqb_neq; vm_compute; reflexivity.
Qed.
Print Assumptions C51_base_points.

(** ** octets *)
Definition octets (n : nat) (l : list Z) : Prop := length l = n /\ bytes_ok l.
(** the number an xECDH private key of [mt_sslen c] octets denotes *)
Definition rfc_scalar (c : mt_curve) (n : Z) : Z := if mt_a c =? 486662 then rfc_scalar25519 n else rfc_scalar448 n.

Lemma clamp25519_val sk : octets 32 sk -> bytes_ok (clamp25519 sk) /\ le_val (clamp25519 sk) = rfc_scalar25519 (le_val sk).
Proof.
  intros [L B]. assert (B0 : byte_ok (nthZ 0 sk)) by now apply nthZ_bytes. assert (Bt : byte_ok (nthZ 31 sk)) by now apply nthZ_bytes.
  unfold clamp25519. set (s1 := upd 0 (Z.land (nthZ 0 sk) 248) sk).
  assert (L1 : length s1 = 32%nat) by (unfold s1; now rewrite upd_length).
  assert (N1 : nthZ 31 s1 = nthZ 31 sk) by (unfold s1; apply nthZ_upd_neq; lia). rewrite N1.
  assert (E1 : byte_ok (Z.land (nthZ 0 sk) 248)). { rewrite land248 by exact B0. unfold byte_ok in *. clear -B0. Z.div_mod_to_equations; lia. }
  assert (E2 : byte_ok (Z.lor (Z.land (nthZ 31 sk) 127) 64)). { rewrite top25519 by exact Bt. unfold byte_ok in *. clear -Bt. Z.div_mod_to_equations; lia. }
  assert (E3 : byte_ok (Z.land (nthZ 31 sk) 127)).
  { unfold byte_ok in *. change 127 with (Z.ones 7). rewrite Z.land_ones by lia. clear -Bt. change (2 ^ 7) with 128. Z.div_mod_to_equations; lia. }
  rewrite nthZ_upd_eq by lia.
  split; [unfold bytes_ok; repeat apply upd_Forall; auto|].
  rewrite le_val_upd by (rewrite upd_length; lia). rewrite nthZ_upd_eq by lia. rewrite le_val_upd by lia. rewrite N1. unfold s1. rewrite le_val_upd by lia.
  rewrite top25519, land248 by assumption. destruct (split3 sk 30 L) as (m & H). destruct (H B) as (V & M). rewrite V. unfold rfc_scalar25519, byte_ok in *.
  set (b0 := nthZ 0 sk) in *. set (bt := nthZ 31 sk) in *. clearbody b0 bt. clear -B0 Bt M.
  change (2 ^ (8 * Z.of_nat 31)) with (2 ^ 248). change (2 ^ (8 * Z.of_nat 0)) with 1. change (2 ^ (8 * Z.of_nat 30)) with (2 ^ 240) in M.
  assert (D : (b0 + 256 * m + 2 ^ 248 * bt) / 8 = b0 / 8 + 32 * m + 2 ^ 245 * bt).
  { replace (b0 + 256 * m + 2 ^ 248 * bt) with (b0 + (32 * m + 2 ^ 245 * bt) * 8) by ring. rewrite Z.div_add by lia. ring. }
  rewrite D. 
  assert (E : (b0 / 8 + 32 * m + 2 ^ 245 * bt) mod 2 ^ 251 = b0 / 8 + 32 * m + 2 ^ 245 * (bt mod 64)).
  { pose proof (Z.div_mod bt 64 ltac:(lia)) as Q. pose proof (Z.mod_pos_bound bt 64 ltac:(lia)) as QB.
    assert (0 <= b0 / 8 < 32) by (clear -B0; Z.div_mod_to_equations; lia).
    symmetry. apply Z.mod_unique with (q := bt / 64); [left; lia|]. rewrite Q at 1. ring. }
  rewrite E. ring.
Qed.
Lemma clamp448_val sk : octets 56 sk -> bytes_ok (clamp448 sk) /\ le_val (clamp448 sk) = rfc_scalar448 (le_val sk).
Proof.
  intros [L B]. assert (B0 : byte_ok (nthZ 0 sk)) by now apply nthZ_bytes. assert (Bt : byte_ok (nthZ 55 sk)) by now apply nthZ_bytes.
  unfold clamp448. set (s1 := upd 0 (Z.land (nthZ 0 sk) 252) sk).
  assert (L1 : length s1 = 56%nat) by (unfold s1; now rewrite upd_length).
  assert (N1 : nthZ 55 s1 = nthZ 55 sk) by (unfold s1; apply nthZ_upd_neq; lia). rewrite N1.
  assert (E1 : byte_ok (Z.land (nthZ 0 sk) 252)). { rewrite land252 by exact B0. unfold byte_ok in *. clear -B0. Z.div_mod_to_equations; lia. }
  assert (E2 : byte_ok (Z.lor (nthZ 55 sk) 128)). { rewrite top448 by exact Bt. unfold byte_ok in *. clear -Bt. Z.div_mod_to_equations; lia. }
  split; [unfold bytes_ok; repeat apply upd_Forall; auto|].
  rewrite le_val_upd by lia. rewrite N1. unfold s1. rewrite le_val_upd by lia.
  rewrite top448, land252 by assumption. destruct (split3 sk 54 L) as (m & H). destruct (H B) as (V & M). rewrite V. unfold rfc_scalar448, byte_ok in *.
  set (b0 := nthZ 0 sk) in *. set (bt := nthZ 55 sk) in *. clearbody b0 bt. clear -B0 Bt M.
  change (2 ^ (8 * Z.of_nat 55)) with (2 ^ 440). change (2 ^ (8 * Z.of_nat 0)) with 1. change (2 ^ (8 * Z.of_nat 54)) with (2 ^ 432) in M.
  assert (D : (b0 + 256 * m + 2 ^ 440 * bt) / 4 = b0 / 4 + 64 * m + 2 ^ 438 * bt).
  { replace (b0 + 256 * m + 2 ^ 440 * bt) with (b0 + (64 * m + 2 ^ 438 * bt) * 4) by ring. rewrite Z.div_add by lia. ring. }
  rewrite D. 
  assert (E : (b0 / 4 + 64 * m + 2 ^ 438 * bt) mod 2 ^ 445 = b0 / 4 + 64 * m + 2 ^ 438 * (bt mod 128)).
  { pose proof (Z.div_mod bt 128 ltac:(lia)) as Q. pose proof (Z.mod_pos_bound bt 128 ltac:(lia)) as QB.
    assert (0 <= b0 / 4 < 64) by (clear -B0; Z.div_mod_to_equations; lia).
    symmetry. apply Z.mod_unique with (q := bt / 128); [left; lia|]. rewrite Q at 1. ring. }
  rewrite E. ring.
Qed.
Lemma scalar448_bound n : 0 <= rfc_scalar448 n < 2 ^ 448.
Proof. unfold rfc_scalar448. pose proof (Z.mod_pos_bound (n / 4) (2 ^ 445) ltac:(lia)). lia. Qed.
Lemma scalar25519_bound n : 0 <= rfc_scalar25519 n < 2 ^ 255.
Proof. unfold rfc_scalar25519. pose proof (Z.mod_pos_bound (n / 8) (2 ^ 251) ltac:(lia)). lia. Qed.

(** Every private key of the right length, whatever its octets, is decoded and clamped as in the RFC. *)
Theorem C51_private_key : forall (c : mt_curve) (sk : list Z), mt_lib c -> octets (mt_sslen c) sk ->
  words_ok (gen_scl_k c sk) /\ val_le 32 (gen_scl_k c sk) = rfc_scalar c (le_val sk) /\ fst (XECDH_Keygen c sk) = gen_scl_k c sk.
Proof.
  intros c sk [->|E] H; [|subst c]; unfold gen_scl_k, clamp, rfc_scalar; cbn [mt_a mt_w mt_sslen Curve25519 Curve448 Z.eqb Pos.eqb] in *.
  - destruct (clamp25519_val sk H) as [B V]. destruct (DecLSB_spec 11 _ B) as (W & _ & D). split; [exact W|]. split; [|reflexivity].
    rewrite D, V. apply Z.mod_small. pose proof (scalar25519_bound (le_val sk)) as S1. split; [apply S1|]. eapply Z.lt_le_trans; [apply S1|]. apply Z.pow_le_mono_r; lia.
  - destruct (clamp448_val sk H) as [B V]. destruct (DecLSB_spec 17 _ B) as (W & _ & D). split; [exact W|]. split; [|reflexivity].
    rewrite D, V. apply Z.mod_small. pose proof (scalar448_bound (le_val sk)) as S1. split; [apply S1|]. eapply Z.lt_le_trans; [apply S1|]. apply Z.pow_le_mono_r; lia.
Qed.
Print Assumptions C51_private_key.

(** Every octet string of the right length is accepted as a u-coordinate; X25519 ignores its top bit. *)
Theorem C51_public_key : forall (c : mt_curve) (enc : list Z), mt_lib c -> octets (mt_sslen c) enc ->
  words_ok (XECDH_Decode_u c enc) /\ length (XECDH_Decode_u c enc) = mt_w c /\
  val_le 32 (XECDH_Decode_u c enc) = (if mt_a c =? 486662 then le_val enc mod 2 ^ 255 else le_val enc) /\
  val_le 32 (XECDH_Decode_u c enc) <= 8 * val_le 32 (mt_p c).
Proof.
  intros c enc [->|E] [L B]; [|subst c]; unfold XECDH_Decode_u; cbn [mt_a mt_u mt_w mt_p mt_sslen Curve25519 Curve448 Z.eqb Pos.eqb Nat.eqb andb] in *.
  - destruct (DecLSB_spec 11 enc B) as (W & LL & V). pose proof (le_val_bound enc B) as U. rewrite L in U. change (8 * Z.of_nat 32) with 256 in U.
    assert (V' : vval (vlong_DecLSB 11 enc) = le_val enc). { rewrite V. apply Z.mod_small. split; [apply U|]. eapply Z.lt_le_trans; [apply U|]. apply Z.pow_le_mono_r; lia. }
    set (vl := vlong_DecLSB 11 enc) in *. clearbody vl.
    change (2 ^ 31 - 1) with (Z.ones 31). rewrite Z.land_ones by lia. pose proof (nthZ_words vl 7 W) as B7. unfold word_ok in B7.
    assert (M7 : 0 <= nthZ 7 vl mod 2 ^ 31 < 2 ^ 31) by (apply Z.mod_pos_bound; lia).
    assert (E : vval (upd 7 (nthZ 7 vl mod 2 ^ 31) vl) = le_val enc mod 2 ^ 255).
    { rewrite vval_upd by lia. rewrite V'. change (32 * Z.of_nat 7) with 224.
      (* word 7 is le_val enc / 2^224 *)
      assert (W7 : nthZ 7 vl = le_val enc / 2 ^ 224).
      { assert (vval vl / 2 ^ 224 < 2 ^ 32). { rewrite V'. apply Z.div_lt_upper_bound; [lia|]. rewrite <- Z.pow_add_r by lia. apply U. }
        rewrite <- V'. pose proof (firstn_skipn 7 vl) as FS. rewrite <- FS at 2. rewrite val_le_app by lia.
        rewrite firstn_length_le by lia. change (32 * Z.of_nat 7) with 224.
        pose proof (vval_bound (firstn 7 vl) (Forall_firstn _ _ _ W)) as BF. rewrite firstn_length_le in BF by lia. change (32 * Z.of_nat 7) with 224 in BF.
        rewrite Z.add_comm, Z.mul_comm, Z.div_add_l, (Z.div_small (vval (firstn 7 vl))), Z.add_0_r by lia.
        assert (SK : skipn 7 vl = nthZ 7 vl :: skipn 8 vl).
        { clear -LL. do 8 (destruct vl as [|? vl]; [discriminate|]). reflexivity. }
        assert (Q : vval (skipn 7 vl) < 2 ^ 32).
        { rewrite <- FS, val_le_app, firstn_length_le in H by lia. change (32 * Z.of_nat 7) with 224 in H.
          rewrite Z.add_comm, Z.mul_comm, Z.div_add_l, (Z.div_small (vval (firstn 7 vl))), Z.add_0_r in H by lia. exact H. }
        rewrite SK in *. cbn [val_le] in *. pose proof (vval_bound (skipn 8 vl) (Forall_skipn _ _ _ W)) as BS.
        clear -Q BS B7. lia. }
      rewrite W7. set (n := le_val enc) in *. clearbody n. clear -U.
      pose proof (Z.div_mod n (2 ^ 224) ltac:(lia)) as Q1. pose proof (Z.mod_pos_bound n (2 ^ 224) ltac:(lia)) as Q1b.
      pose proof (Z.div_mod (n / 2 ^ 224) (2 ^ 31) ltac:(lia)) as Q2. pose proof (Z.mod_pos_bound (n / 2 ^ 224) (2 ^ 31) ltac:(lia)) as Q2b.
      set (h := n / 2 ^ 224) in *. set (lo := n mod 2 ^ 224) in *. set (hm := h mod 2 ^ 31) in *. set (hh := h / 2 ^ 31) in *. clearbody h lo hm hh.
      apply Z.mod_unique with (q := hh); [left; lia|]. lia. }
    split; [apply upd_Forall; [exact W|]; unfold word_ok; lia|]. split; [now rewrite upd_length|]. split; [exact E|]. rewrite E.
    pose proof (Z.mod_pos_bound (le_val enc) (2 ^ 255) ltac:(lia)) as R. rewrite p25519_val. lia.
  - destruct (DecLSB_spec 17 enc B) as (W & LL & V). pose proof (le_val_bound enc B) as U. rewrite L in U. change (8 * Z.of_nat 56) with 448 in U.
    assert (V' : vval (vlong_DecLSB 17 enc) = le_val enc). { rewrite V. apply Z.mod_small. split; [apply U|]. eapply Z.lt_le_trans; [apply U|]. apply Z.pow_le_mono_r; lia. }
    split; [exact W|]. split; [exact LL|]. split; [exact V'|]. rewrite V', p448_val. lia.
Qed.
Print Assumptions C51_public_key.

(** ** the protocol *)
Lemma lib_montgomery c : mt_lib c -> montgomery c.
Proof. intros [H|H]; [now left|right; now left]. Qed.
Lemma lib_sizes c : mt_lib c -> 2 < val_le 32 (mt_p c) /\ val_le 32 (mt_p c) < 2 ^ (8 * Z.of_nat (mt_sslen c)) /\
  (if mt_a c =? 486662 then val_le 32 (mt_p c) < 2 ^ 255 else True).
Proof. intros [->|E]; [|subst c]; cbn [mt_p mt_sslen mt_a Curve25519 Curve448 Z.eqb Pos.eqb]; rewrite ?p25519_val, ?p448_val; [change (8 * Z.of_nat 32) with 256|change (8 * Z.of_nat 56) with 448]; repeat split; lia. Qed.
Lemma xfun_range c k u : 0 < val_le 32 (mt_p c) -> 0 <= xfun c k u < val_le 32 (mt_p c).
Proof.
  intros H. unfold xfun, rfc7748. destruct (rfc_loop _ _ k _ _ 0 _) as [sw [[[x2 z2] x3] z3]]. destruct (rfc_swap sw x2 x3), (rfc_swap sw z2 z3).
  now apply Z.mod_pos_bound.
Qed.
Lemma xfun_mod c k u : 0 < val_le 32 (mt_p c) -> xfun c k (u mod val_le 32 (mt_p c)) = xfun c k u.
Proof. intros H. unfold xfun, rfc7748. now rewrite Zmod_mod. Qed.
(** a register at most p sent through its octets comes back *)
Lemma wire c r : mt_lib c -> mt_register c r -> octets (mt_sslen c) (XECDH_Encode_u c r) /\ le_val (XECDH_Encode_u c r) = val_le 32 r /\
  words_ok (XECDH_Decode_u c (XECDH_Encode_u c r)) /\ length (XECDH_Decode_u c (XECDH_Encode_u c r)) = mt_w c /\
  val_le 32 (XECDH_Decode_u c (XECDH_Encode_u c r)) = val_le 32 r.
Proof.
  intros HL (W & L & B). destruct (lib_sizes c HL) as (S1 & S2 & S3). pose proof (vval_bound r W) as U.
  assert (E : XECDH_Encode_u c r = le_bytes (mt_sslen c) (val_le 32 r)) by (unfold XECDH_Encode_u; now apply EncLSB_spec).
  assert (V : le_val (XECDH_Encode_u c r) = val_le 32 r). { rewrite E, le_val_le_bytes. apply Z.mod_small. clear -B S2 U. lia. }
  assert (OC : octets (mt_sslen c) (XECDH_Encode_u c r)) by (rewrite E; split; [apply le_bytes_length|apply le_bytes_ok]).
  split; [exact OC|]. split; [exact V|]. destruct (C51_public_key c _ HL OC) as (D1 & D2 & D3 & _). split; [exact D1|]. split; [exact D2|].
  rewrite D3, V. destruct (mt_a c =? 486662); [|reflexivity]. apply Z.mod_small. clear -B S3 U. lia.
Qed.
Lemma base_register c : mt_lib c -> mt_register c (mt_u c :: repeat 0 (mt_w c - 1)) /\ val_le 32 (mt_u c :: repeat 0 (mt_w c - 1)) = mt_u c.
Proof.
  intros HL. assert (V : val_le 32 (mt_u c :: repeat 0 (mt_w c - 1)) = mt_u c). { cbn [val_le]. fold (vval (repeat 0 (mt_w c - 1))). rewrite vval_repeat0. ring. }
  split; [|exact V]. split; [constructor; [destruct HL as [->|E]; [|subst c]; unfold word_ok; cbn; lia|apply repeat_words]|].
  split; [cbn [length]; rewrite repeat_length; destruct HL as [->|E]; [|subst c]; reflexivity|]. rewrite V. destruct HL as [->|E]; [|subst c].
  - change (mt_p Curve25519) with Fp_25519. rewrite p25519_val. cbn [mt_u Curve25519]. lia.
  - change (mt_p Curve448) with Fp_448. rewrite p448_val. cbn [mt_u Curve448]. lia.
Qed.
Lemma reg_8p c r : mt_lib c -> mt_register c r -> words_ok r /\ length r = mt_w c /\ val_le 32 r <= 8 * val_le 32 (mt_p c).
Proof. intros HL (A & B & C). destruct (lib_sizes c HL) as (S1 & _). split; [exact A|]. split; [exact B|]. clear -C S1. lia. Qed.

(** The public key sent is the RFC's function of the private key and the base point,
    in canonical octets unless it is 0 (whose octets may be those of p). *)
Definition u_octets (c : mt_curve) (o : list Z) (u : Z) : Prop :=
  octets (mt_sslen c) o /\ le_val o mod val_le 32 (mt_p c) = u /\ (u <> 0 -> o = le_bytes (mt_sslen c) u).
Lemma reg_octets c r u : mt_lib c -> mt_register c r -> val_le 32 r mod val_le 32 (mt_p c) = u -> u_octets c (XECDH_Encode_u c r) u.
Proof.
  intros HL RR E. destruct (wire c r HL RR) as (W1 & W2 & _). destruct (lib_sizes c HL) as (S1 & _). split; [exact W1|]. rewrite W2. split; [exact E|]. intros N.
  destruct RR as (W & L & B). unfold XECDH_Encode_u. rewrite EncLSB_spec by exact W. f_equal. pose proof (vval_bound r W) as U.
  destruct (Z.eq_dec (val_le 32 r) (val_le 32 (mt_p c))) as [Q|Q].
  - rewrite Q, Z.mod_same in E by (clear -S1; lia). congruence.
  - rewrite Z.mod_small in E by (clear -U B Q; lia). exact E.
Qed.
Theorem C51_keygen : forall (c : mt_curve) (sk : list Z), mt_lib c -> octets (mt_sslen c) sk ->
  u_octets c (XECDH_Encode_u c (snd (XECDH_Keygen c sk))) (xfun c (rfc_scalar c (le_val sk)) (mt_u c)).
Proof.
  intros c sk HL HS. destruct (C51_private_key c sk HL HS) as (K1 & K2 & _). destruct (base_register c HL) as [BR BV].
  destruct (reg_8p c _ HL BR) as (R1 & R2 & R3).
  destruct (C51_ladder c (gen_scl_k c sk) _ (lib_montgomery c HL) K1 R1 R2 R3) as (G1 & G2).
  apply reg_octets; [exact HL|exact G1|]. cbn [snd XECDH_Keygen]. rewrite G2, K2, BV. reflexivity.
Qed.
Print Assumptions C51_keygen.

(** The encapsulated secret and the ciphertext, for every received public key (canonical or not). *)
Theorem C51_encapsulate : forall (c : mt_curve) (pk sk : list Z), mt_lib c -> octets (mt_sslen c) pk -> octets (mt_sslen c) sk ->
  let '(ss, ct) := XECDH_Enc c (XECDH_Decode_u c pk) sk in
  u_octets c ss (xfun c (rfc_scalar c (le_val sk)) (if mt_a c =? 486662 then le_val pk mod 2 ^ 255 else le_val pk)) /\
  u_octets c (XECDH_Encode_u c ct) (xfun c (rfc_scalar c (le_val sk)) (mt_u c)).
Proof.
  intros c pk sk HL HP HS. pose proof (C51_keygen c sk HL HS) as G. destruct (C51_private_key c sk HL HS) as (K1 & K2 & _).
  destruct (C51_public_key c pk HL HP) as (D1 & D2 & D3 & D4). unfold XECDH_Enc. split; [|exact G].
  assert (V : vval (vlong_cpy (mt_w c) (XECDH_Decode_u c pk)) = vval (XECDH_Decode_u c pk)).
  { rewrite vlong_cpy_val by exact D1. apply Z.mod_small. rewrite <- D2. now apply vval_bound. }
  destruct (C51_ladder c (gen_scl_k c sk) (vlong_cpy (mt_w c) (XECDH_Decode_u c pk)) (lib_montgomery c HL) K1) as (G1 & G2);
    [now apply vlong_cpy_words|apply vlong_cpy_length|rewrite V; exact D4|].
  apply reg_octets; [exact HL|exact G1|]. rewrite G2, K2, V, D3. reflexivity.
Qed.
Print Assumptions C51_encapsulate.
Theorem C51_decapsulate : forall (c : mt_curve) (sk ct : list Z), mt_lib c -> octets (mt_sslen c) sk -> octets (mt_sslen c) ct ->
  u_octets c (XECDH_Dec c (fst (XECDH_Keygen c sk)) (XECDH_Decode_u c ct))
    (xfun c (rfc_scalar c (le_val sk)) (if mt_a c =? 486662 then le_val ct mod 2 ^ 255 else le_val ct)).
Proof.
  intros c sk ct HL HS HC. destruct (C51_private_key c sk HL HS) as (K1 & K2 & K3).
  destruct (C51_public_key c ct HL HC) as (D1 & D2 & D3 & D4). rewrite K3.
  destruct (C51_ladder c (gen_scl_k c sk) _ (lib_montgomery c HL) K1 D1 D2 D4) as (G1 & G2).
  unfold XECDH_Dec. apply reg_octets; [exact HL|exact G1|]. rewrite G2, K2, D3. reflexivity.
Qed.
Print Assumptions C51_decapsulate.

Lemma keygen_reg c sk : mt_lib c -> octets (mt_sslen c) sk ->
  mt_register c (snd (XECDH_Keygen c sk)) /\ val_le 32 (snd (XECDH_Keygen c sk)) mod val_le 32 (mt_p c) = xfun c (rfc_scalar c (le_val sk)) (mt_u c).
Proof.
  intros HL HS. destruct (C51_private_key c sk HL HS) as (K1 & K2 & _). destruct (base_register c HL) as [BR BV].
  destruct (reg_8p c _ HL BR) as (R1 & R2 & R3).
  destruct (C51_ladder c (gen_scl_k c sk) _ (lib_montgomery c HL) K1 R1 R2 R3) as (G1 & G2).
  split; [exact G1|]. cbn [snd XECDH_Keygen]. rewrite G2, K2, BV. reflexivity.
Qed.
Lemma recv c r : mt_lib c -> mt_register c r ->
  (if mt_a c =? 486662 then le_val (XECDH_Encode_u c r) mod 2 ^ 255 else le_val (XECDH_Encode_u c r)) = val_le 32 r.
Proof.
  intros HL RR. destruct (wire c r HL RR) as (_ & W2 & _). rewrite W2. destruct (lib_sizes c HL) as (_ & _ & S3).
  destruct (mt_a c =? 486662); [|reflexivity]. apply Z.mod_small. destruct RR as (W & L & B). pose proof (vval_bound r W) as U. clear -U B S3. lia.
Qed.
Lemma base_on c : mt_lib c -> on_montgomery (val_le 32 (mt_p c)) (mt_a c) (mt_u c).
Proof.
  intros HL. pose proof C51_base_points as F. rewrite Forall_forall in F. apply F. destruct HL as [->|E]; [left; reflexivity|right; left; symmetry; exact E].
Qed.
Lemma scalar_pos c n : mt_lib c -> 0 <= rfc_scalar c n.
Proof. intros _. unfold rfc_scalar. destruct (mt_a c =? 486662); [apply scalar25519_bound|apply scalar448_bound]. Qed.

(** Both sides obtain the same secret, for every pair of private keys: the same residue
    always, the same octets whenever it is not 0. *)
Theorem C51_shared_secret : forall (c : mt_curve) (skA skB : list Z), mt_lib c ->
  octets (mt_sslen c) skA -> octets (mt_sslen c) skB ->
  let '(kA, KA) := XECDH_Keygen c skA in
  let '(ssB, ct) := XECDH_Enc c (XECDH_Decode_u c (XECDH_Encode_u c KA)) skB in
  let ssA := XECDH_Dec c kA (XECDH_Decode_u c (XECDH_Encode_u c ct)) in
  le_val ssA mod val_le 32 (mt_p c) = le_val ssB mod val_le 32 (mt_p c) /\
  (le_val ssA mod val_le 32 (mt_p c) <> 0 -> ssA = ssB).
Proof.
  intros c skA skB HL HA HB. destruct (lib_sizes c HL) as (S1 & _ & _). assert (PP : 0 < val_le 32 (mt_p c)) by (clear -S1; lia).
  destruct (keygen_reg c skA HL HA) as (A1 & A2). destruct (keygen_reg c skB HL HB) as (B1 & B2).
  destruct (wire c _ HL A1) as (OA & _). destruct (wire c _ HL B1) as (OB & _).
  pose proof (C51_encapsulate c _ skB HL OA HB) as H. pose proof (C51_decapsulate c skA _ HL HA OB) as H'.
  change (XECDH_Enc c (XECDH_Decode_u c (XECDH_Encode_u c (snd (XECDH_Keygen c skA)))) skB) with
    (fst (XECDH_Enc c (XECDH_Decode_u c (XECDH_Encode_u c (snd (XECDH_Keygen c skA)))) skB), snd (XECDH_Keygen c skB)) in H.
  destruct H as [H _]. rewrite (recv c _ HL A1) in H. rewrite (recv c _ HL B1) in H'.
  rewrite <- (xfun_mod c _ (val_le 32 _) PP), A2 in H. rewrite <- (xfun_mod c _ (val_le 32 _) PP), B2 in H'.
  rewrite (C51_commutes c (mt_u c) _ _ HL) in H'; [|apply base_on; exact HL|apply scalar_pos; exact HL|apply scalar_pos; exact HL].
  set (X := xfun c _ (xfun c _ _)) in *. clearbody X. 
  destruct (XECDH_Keygen c skA) as [kA KA] eqn:EA. cbn [fst snd] in *.
  destruct (XECDH_Enc c (XECDH_Decode_u c (XECDH_Encode_u c KA)) skB) as [ssB ct] eqn:EB.
  assert (CT : ct = snd (XECDH_Keygen c skB)) by (unfold XECDH_Enc in EB; unfold XECDH_Keygen; cbn [snd]; congruence). subst ct. cbn [fst] in H.
  cbv zeta. destruct H as (_ & H1 & H2). destruct H' as (_ & H1' & H2'). split; [congruence|]. intros N. rewrite H1' in N. rewrite (H2 N), (H2' N). reflexivity.
Qed.
Print Assumptions C51_shared_secret.

(** ** Non-vacuity *)
Example C51_nonvacuous :
  mt_lib Curve25519 /\ mt_lib Curve448 /\ octets (mt_sslen Curve25519) (map Z.of_nat (seq 200 32)) /\
  octets (mt_sslen Curve448) (map Z.of_nat (seq 100 56)) /\
  rfc_scalar25519 (le_val (255 :: repeat 0 30 ++ [255])) = 2 ^ 255 - 1 - 7 - (2 ^ 248 - 2 ^ 8) /\
  rfc_scalar448 (le_val (3 :: repeat 0 55)) = 2 ^ 447.
Proof.
  assert (B : forall l, forallb (fun z => (0 <=? z) && (z <? 256)) l = true -> bytes_ok l).
  { intros l E. apply Forall_forall. intros z Hz. rewrite forallb_forall in E. specialize (E z Hz). apply andb_true_iff in E.
    destruct E as [E1 E2]. apply Z.leb_le in E1. apply Z.ltb_lt in E2. split; assumption. }
  split; [now left|]. split; [now right|]. split; [split; [reflexivity|apply B; vm_compute; reflexivity]|].
  split; [split; [reflexivity|apply B; vm_compute; reflexivity]|]. split; vm_compute; reflexivity.
Qed.
(** The ladder on a small curve, v^2 = u^3 + 34 u^2 + u over F_13: 3 u(P) and 5 u(P) commute and
    do not vanish. *)
Definition mt_toy : mt_curve := {| mt_bits := 4; mt_a := 34; mt_u := 7; mt_sslen := 1; mt_w := 3; mt_p := [13]; mt_g := fun v => vlong_remv_inplace v [13] |}.
Example C51_ladder_nonvacuous :
  montgomery mt_toy /\ map (fun k => xfun mt_toy k 7) [1; 2; 3] = [7; 4; 6] /\
  val_le 32 (ecMt_point_scale mt_toy [3] [20; 0; 0]) mod 13 = 6.
Proof.
  assert (M : montgomery mt_toy).
  { right. right. cbn [mt_toy mt_p mt_w mt_g mt_a]. repeat split; try (repeat constructor; unfold word_ok; lia); cbn; lia. }
  split; [exact M|]. split; [vm_compute; reflexivity|].
  destruct (C51_ladder mt_toy [3] [20; 0; 0] M) as [_ H]; [repeat constructor; unfold word_ok; lia|repeat constructor; unfold word_ok; lia|reflexivity|cbn; lia|].
  change (val_le 32 (mt_p mt_toy)) with 13 in H. rewrite H. vm_compute. reflexivity.
Qed.
