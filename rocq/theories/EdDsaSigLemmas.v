(** EdDSA signatures: encodings of held points, scalars modulo the order, the verification equation. *)
From Coq Require Import Znumtheory Setoid.
From Verif Require Import MdLemmas Base Vlong VlongLemmas VlongDivLemmas VlongMulLemmas EcMod EcModLemmas EcFieldLemmas EcExpLemmas EcCurveLemmas EcSpec EcGroupLemmas EcpXyz ScaleLemmas EcpScaleLemmas Fermat EdSpec EdCert EdGroupLemmas EcEd EdLemmas EdScaleLemmas EdCompleteLemmas CurvePrimes PolyLemmas Der DerLemmas OctetLemmas EcMt PropEd EddsaSpec EdDsa EdDsaLemmas EdDsaDecLemmas EdDsaPointLemmas EdMulLemmas.

(** the RFC's parameters are the code's *)
Definition rfc_of (D : eddsa_params) (C : rfc8032_curve) : Prop := (D = dp_25519 /\ C = rfc_Ed25519) \/ (D = dp_448 /\ C = rfc_Ed448).
Record rfc_match (D : eddsa_params) (C : rfc8032_curve) : Prop := {
  rm_p : rc_p C = vval (ed_p (dp_c D)); rm_a : rc_a C = ed_a (dp_c D); rm_d1 : rc_d1 C = ed_over (dp_c D); rm_d2 : rc_d2 C = ed_under (dp_c D);
  rm_B : rc_B C = (vval (ex (dp_B D)), vval (ey (dp_B D))); rm_L : rc_L C = vval (ed_L (dp_c D)); rm_b : rc_b C = plen D }.
Lemma rfc_of_match D C : rfc_of D C -> rfc_match D C.
Proof. intros [[-> ->]|[-> ->]]; split; vm_compute; reflexivity. Qed.
Lemma rfc_of_lib D C : rfc_of D C -> dlib D.
Proof. intros [[-> _]|[-> _]]; [left|right]; reflexivity. Qed.

Lemma lor0 a b : 0 <= a -> 0 <= b -> Z.lor a b = 0 <-> a = 0 /\ b = 0.
Proof. intros A B. apply Z.lor_eq_0_iff. Qed.
Lemma fold_lor_xor (f h : nat -> Z) l : forall z, 0 <= z -> (forall i, In i l -> 0 <= f i /\ 0 <= h i) ->
  (fold_left Z.lor (map (fun i => Z.lxor (f i) (h i)) l) z = 0 <-> z = 0 /\ forall i, In i l -> f i = h i).
Proof.
  induction l as [|i l IH]; intros z Hz Hl; cbn [map fold_left].
  - split; [intros ->; split; [reflexivity|intros i []]|tauto].
  - assert (F : 0 <= Z.lxor (f i) (h i)). { apply Z.lxor_nonneg. destruct (Hl i (or_introl eq_refl)). tauto. }
    rewrite IH; [|apply Z.lor_nonneg; tauto|intros j Hj; apply Hl; now right]. rewrite Z.lor_eq_0_iff, Z.lxor_eq_0_iff. split.
    + intros [[A B] E]. split; [exact A|]. intros j [<-|Hj]; auto.
    + intros [A E]. split; [split; [exact A|apply E; now left]|]. intros j Hj. apply E. now right.
Qed.
Lemma same_octets a b n : bytes_ok a -> bytes_ok b -> length a = n -> length b = n ->
  (fold_left Z.lor (map (fun i => Z.lxor (nthZ i a) (nthZ i b)) (seq 0 n)) 0 =? 0) = true <-> a = b.
Proof.
  intros A B La Lb. rewrite Z.eqb_eq, fold_lor_xor; [|lia|intros i _; pose proof (nthZ_bytes a i A); pose proof (nthZ_bytes b i B); unfold byte_ok in *; lia].
  split; [|intros ->; split; auto]. intros [_ E]. apply (nth_ext _ _ 0 0); [congruence|]. intros i Hi. apply E. apply in_seq. lia.
Qed.

(** clamping *)
Lemma firstn_upd_in i k (v : Z) : forall l, (i < k)%nat -> firstn k (upd i v l) = upd i v (firstn k l).
Proof.
  revert k. induction i as [|i IH]; intros [|k] [|x l] H; cbn [upd firstn]; try reflexivity; try lia. f_equal. apply IH. lia.
Qed.
Lemma clamp_25519_val x : bytes_ok x -> length x = 32%nat ->
  le_val (upd 31 (Z.lor 64 (Z.land (nthZ 31 (upd 0 (Z.land (nthZ 0 x) 248) x)) 127)) (upd 0 (Z.land (nthZ 0 x) 248) x)) = 2 ^ 254 + 8 * ((le_val x mod 2 ^ 254) / 8).
Proof.
  intros B Ln. destruct (split3 x 30 Ln) as (m & Hm). destruct (Hm B) as [E Bm]. clear Hm. pose proof (nthZ_bytes x 0 B) as B0. pose proof (nthZ_bytes x 31 B) as B31.
  rewrite nthZ_upd_neq by lia. rewrite Z.lor_comm, (top25519 _ B31), (land248 _ B0). rewrite !le_val_upd by (rewrite ?upd_len; lia). rewrite nthZ_upd_neq by lia.
  change (8 * Z.of_nat 0) with 0. change (8 * Z.of_nat 31) with 248 in *. change (8 * Z.of_nat 30) with 240 in Bm. rewrite E. unfold byte_ok in *.
  set (b0 := nthZ 0 x) in *. set (bt := nthZ 31 x) in *. clearbody b0 bt. clear E B Ln x.
  pose proof (Z.div_mod b0 8 ltac:(lia)) as D0. pose proof (Z.mod_pos_bound b0 8 ltac:(lia)) as M0. pose proof (Z.div_mod bt 64 ltac:(lia)) as D1. pose proof (Z.mod_pos_bound bt 64 ltac:(lia)) as M1.
  set (q0 := b0 / 8) in *. set (r0 := b0 mod 8) in *. set (q1 := bt / 64) in *. set (r1 := bt mod 64) in *. clearbody q0 r0 q1 r1.
  assert (X : (b0 + 256 * m + 2 ^ 248 * bt) mod 2 ^ 254 = b0 + 256 * m + 2 ^ 248 * r1) by (symmetry; apply Z.mod_unique with (q := q1); [left; lia|lia]).
  assert (Y : (b0 + 256 * m + 2 ^ 248 * r1) / 8 = q0 + 32 * m + 2 ^ 245 * r1) by (symmetry; apply Z.div_unique with (r := r0); [left; lia|lia]).
  rewrite X, Y. lia.
Qed.
Lemma clamp_448_val x t : bytes_ok (x ++ [t]) -> length x = 56%nat -> let y := upd 0 (Z.land (nthZ 0 (x ++ [t])) 252) (x ++ [t]) in
  le_val (upd 56 0 (upd 55 (Z.lor (nthZ 55 y) 128) y)) = 2 ^ 447 + 4 * ((le_val (x ++ [t]) mod 2 ^ 447) / 4).
Proof.
  intros B Ln. cbv zeta. apply Forall_app in B. destruct B as [B Bt]. inversion Bt as [|? ? Bt' _]; subst. destruct (split3 x 54 Ln) as (m & Hm). destruct (Hm B) as [E Bm]. clear Hm.
  assert (N0 : nthZ 0 (x ++ [t]) = nthZ 0 x) by (unfold nthZ; apply app_nth1; lia). assert (N55 : nthZ 55 (x ++ [t]) = nthZ 55 x) by (unfold nthZ; apply app_nth1; lia).
  assert (N56 : nthZ 56 (x ++ [t]) = t) by (unfold nthZ; rewrite app_nth2, Ln by lia; reflexivity).
  pose proof (nthZ_bytes x 0 B) as B0. pose proof (nthZ_bytes x 55 B) as B55. assert (LL : length (x ++ [t]) = 57%nat) by (rewrite app_length; cbn [length]; lia).
  rewrite nthZ_upd_neq by lia. rewrite N0, N55, (top448 _ B55), (land252 _ B0). rewrite !le_val_upd by (rewrite ?upd_len; lia). rewrite !nthZ_upd_neq by lia. rewrite N0, N55, N56.
  rewrite le_val_app, Ln. change (le_val [t]) with (t + 2 ^ 8 * 0). 
  change (8 * Z.of_nat 0) with 0. change (8 * Z.of_nat 55) with 440 in *. change (8 * Z.of_nat 54) with 432 in Bm. change (8 * Z.of_nat 56) with 448. rewrite E. unfold byte_ok in *.
  set (b0 := nthZ 0 x) in *. set (bt := nthZ 55 x) in *. clearbody b0 bt. clear E B Ln LL N0 N55 N56 Bt x.
  pose proof (Z.div_mod b0 4 ltac:(lia)) as D0. pose proof (Z.mod_pos_bound b0 4 ltac:(lia)) as M0. pose proof (Z.div_mod bt 128 ltac:(lia)) as D1. pose proof (Z.mod_pos_bound bt 128 ltac:(lia)) as M1.
  set (q0 := b0 / 4) in *. set (r0 := b0 mod 4) in *. set (q1 := bt / 128) in *. set (r1 := bt mod 128) in *. clearbody q0 r0 q1 r1.
  assert (X : (b0 + 256 * m + 2 ^ 440 * bt + 2 ^ 448 * (t + 2 ^ 8 * 0)) mod 2 ^ 447 = b0 + 256 * m + 2 ^ 440 * r1) by (symmetry; apply Z.mod_unique with (q := q1 + 2 * t); [left; lia|lia]).
  assert (Y : (b0 + 256 * m + 2 ^ 440 * r1) / 4 = q0 + 64 * m + 2 ^ 438 * r1) by (symmetry; apply Z.div_unique with (r := r0); [left; lia|lia]).
  rewrite X, Y. lia.
Qed.

Section Lib.
  Variable D : eddsa_params.
  Hypothesis HD : dlib D.
  Notation c := (dp_c D).
  Notation n := (ed_w (dp_c D)).
  Notation p := (ed_p (dp_c D)).
  Notation g := (ed_g (dp_c D)).
  Notation P := (vval (ed_p (dp_c D))).
  Notation a := (ed_a (dp_c D)).
  Notation d1 := (ed_over (dp_c D)).
  Notation d2 := (ed_under (dp_c D)).
  Notation L := (ed_L (dp_c D)).
  Notation "x == y" := (eqm P x y) (at level 70).
  Notation mul a b := (fst (vlong_mulv_masked n a b 1 (Some g))).
  Notation R := (rep n p).
  Notation On := (ed_on P a d1 d2).
  Let F := d_field D HD.
  Let HP := d_prime D HD.
  Let HO := d_odd D HD.
  Let HC := d_complete D HD.

  Definition denc (v : Z) (par : Z) : list Z := le_bytes (plen D) (v + 2 ^ (8 * Z.of_nat (plen D) - 1) * par).
  Lemma denc_ok v par : bytes_ok (denc v par) /\ length (denc v par) = plen D.
  Proof. split; [apply le_bytes_ok|apply le_bytes_length]. Qed.
  Lemma rep_self v x : R v x -> R v (vval v).
  Proof. intros Rx. split; [apply Rx|split; [apply Rx|split; [apply Rx|reflexivity]]]. Qed.
  Lemma rep_mod v x : R v x -> ~ x == 0 -> vval v = x mod P.
  Proof.
    intros Rv N. pose proof (rep_b D v x Rv) as B. pose proof (d_P1 D HD) as P1. destruct Rv as (_ & _ & _ & E). rewrite <- E. symmetry. apply Z.mod_small.
    split; [apply B|]. destruct (Z.eq_dec (vval v) P) as [Q|]; [|lia]. exfalso. apply N. apply eqm_mod; [lia|]. rewrite <- E, Q, Z_mod_same_full. symmetry. apply Z.mod_0_l. lia.
  Qed.
  Lemma enc_reg q x y : R (ex q) x -> R (ey q) y -> eddsa_point_enc D q = denc (vval (ey q)) (vval (ex q) mod 2).
  Proof.
    intros Rx Ry. apply (enc_val D HD); [apply Ry|apply Rx|]. pose proof (rep_b D _ _ Ry). pose proof (d_bits D HD). lia.
  Qed.
  (** the affine registers of a canonicalised point *)
  Definition aff (q : ed_xytz) (Q : epoint) : Prop := R (ex q) (fst Q) /\ R (ey q) (snd Q) /\ R (et q) (fst Q * snd Q) /\ ez q = vlong_cpy n [1].
  Lemma aff_holds q Q : aff q Q -> ed_holds c q Q.
  Proof.
    destruct Q as [x y]. intros (A & B & C & E). cbn [fst snd] in *. pose proof (one_rep D HD) as [O1 V1]. pose proof (d_P1 D HD) as P1.
    apply (rep_eholds c HP HO _ x y (x * y) 1); [split; [exact A|split; [exact B|split; [exact C|rewrite E; exact O1]]]|].
    cbn [extended]. split; [|split; [|split]; apply eqm_eq; ring]. intros Z0. apply eqm_mod in Z0; [|lia]. rewrite Z.mod_small, Z.mod_0_l in Z0 by lia. discriminate.
  Qed.
  Lemma aff_pt q Q Q' : ept_eq P Q Q' -> aff q Q -> aff q Q'.
  Proof.
    pose proof (d_P1 D HD) as P1. destruct Q as [x y], Q' as [x' y']. intros [E1 E2] (A & B & C & E). cbn [fst snd] in *.
    split; [|split; [|split; [|exact E]]]; cbn [fst snd]; [refine (rep_ext n p _ _ _ _ A)|refine (rep_ext n p _ _ _ _ B)|refine (rep_ext n p _ _ _ _ C)];
      (apply eqm_mod; [lia|]); [exact E1|exact E2|rewrite E1, E2; reflexivity].
  Qed.
  (** registers with exactly the canonical coordinates *)
  Definition held (q : ed_xytz) (Q : epoint) : Prop := aff q Q /\ vval (ex q) = fst Q /\ vval (ey q) = snd Q /\ ecanon P Q /\ On Q.
  Lemma aff_held q Q : aff q Q -> On Q -> ~ fst Q == 0 -> ~ snd Q == 0 -> held q (canE P Q).
  Proof.
    intros A C N1 N2. split; [apply (aff_pt q Q); [now apply canE_eq|exact A]|]. destruct A as (A1 & A2 & _). split; [exact (rep_mod _ _ A1 N1)|]. split; [exact (rep_mod _ _ A2 N2)|].
    destruct (canE_ok P a d1 d2 HP HO Q C) as [V1 V2]. split; [exact V2|exact V1].
  Qed.
  Lemma held_enc q Q : held q Q -> eddsa_point_enc D q = denc (snd Q) (fst Q mod 2).
  Proof. intros ((A & B & _) & E1 & E2 & _). rewrite (enc_reg q _ _ A B), E1, E2. reflexivity. Qed.

  (** equal encodings, equal points *)
  Lemma vV_nz X Y : On (X, Y) -> ~ vV D Y == 0.
  Proof.
    intros C Z0. pose proof (proj1 (on_U D HD X Y) C) as E. rewrite Z0 in E.
    assert (U0 : uU D Y == 0) by (rewrite <- E; apply eqm_eq; ring).
    destruct HC as (N2 & (s & Es) & _ & NS). unfold uU in U0. unfold vV in Z0.
    assert (Y1 : Y * Y - 1 == 0). { apply (cancel P HP d2 _ _ N2). rewrite (Z.mul_comm d2), U0. apply eqm_eq. ring. }
    apply (NS s). rewrite <- Es. symmetry.
    assert (Y2 : Y * Y == 1). { replace (Y * Y) with (Y * Y - 1 + 1) by ring. rewrite Y1. reflexivity. }
    rewrite Y2 in Z0. replace d1 with (1 * d1 - a * d2 + d2 * a) by ring. rewrite Z0. reflexivity.
  Qed.
  Lemma same_y x1 x2 y : On (x1, y) -> On (x2, y) -> x1 == x2 \/ x1 == - x2.
  Proof.
    intros C1 C2. pose proof (vV_nz _ _ C1) as N. apply (proj1 (on_U D HD _ _)) in C1. apply (proj1 (on_U D HD _ _)) in C2.
    assert (E : x1 * x1 == x2 * x2) by (apply (cancel P HP _ _ _ N); rewrite C1, C2; reflexivity).
    assert (E' : (x1 - x2) * (x1 + x2) == 0). { replace ((x1 - x2) * (x1 + x2)) with (x1 * x1 - x2 * x2) by ring. rewrite E. apply eqm_eq. ring. }
    unfold eqm in *. rewrite Z.sub_0_r in E'. apply prime_mult in E'; [|exact HP]. destruct E' as [E'|E']; [left; exact E'|right]. replace (x1 - - x2) with (x1 + x2) by ring. exact E'.
  Qed.
  Lemma same_parity v1 v2 : 0 <= v1 <= P -> 0 <= v2 <= P -> v1 mod 2 = v2 mod 2 -> v1 == - v2 -> v1 == v2.
  Proof.
    intros B1 B2 Pq (k & Ek). pose proof (d_P1 D HD) as P1. pose proof (d_par D HD) as PO.
    assert (K : k = 0 \/ k = 1 \/ k = 2) by (clear PO Pq; nia).
    destruct K as [->|[->| ->]].
    - exists 0. lia.
    - exfalso. assert (E : P = v1 + v2) by lia. rewrite E, Zplus_mod, Pq in PO. pose proof (Z.mod_pos_bound v2 2 ltac:(lia)). assert (v2 mod 2 = 0 \/ v2 mod 2 = 1) as [Q|Q] by lia; rewrite Q in PO; discriminate.
    - exists 0. lia.
  Qed.
  Lemma enc_inj q1 q2 Q1 Q2 : aff q1 Q1 -> aff q2 Q2 -> On Q1 -> On Q2 -> eddsa_point_enc D q1 = eddsa_point_enc D q2 -> ept_eq P Q1 Q2.
  Proof.
    destruct Q1 as [x1 y1], Q2 as [x2 y2]. intros (A1 & B1 & _) (A2 & B2 & _) C1 C2 E. cbn [fst snd] in *.
    rewrite (enc_reg _ _ _ A1 B1), (enc_reg _ _ _ A2 B2) in E. apply (f_equal le_val) in E. unfold denc in E. rewrite !le_val_le_bytes in E.
    assert (M : forall z, z mod 2 = 0 \/ z mod 2 = 1). { intros z. pose proof (Z.mod_pos_bound z 2 ltac:(lia)). lia. }
    pose proof (d_bits D HD) as DB.
    assert (Y1 : 0 <= vval (ey q1) < 2 ^ Z.of_nat (dp_bits D)). { pose proof (rep_b D _ _ B1). lia. }
    assert (Y2 : 0 <= vval (ey q2) < 2 ^ Z.of_nat (dp_bits D)). { pose proof (rep_b D _ _ B2). lia. }
    destruct (enc_split D HD _ _ Y1 (M (vval (ex q1)))) as (S1 & S2 & S3). destruct (enc_split D HD _ _ Y2 (M (vval (ex q2)))) as (T1 & T2 & T3). cbv zeta in *.
    rewrite S1, T1 in E. rewrite E in S2, S3. rewrite S2 in T2. rewrite S3 in T3.
    assert (EY : y1 == y2). { rewrite <- (rep_e D HD _ _ B1), <- (rep_e D HD _ _ B2), T2. reflexivity. }
    split; [|exact EY]. cbn [fst].
    assert (C1' : On (x1, y2)). { apply (ed_on_eq P a d1 d2 (x1, y1)); [split; [reflexivity|exact EY]|exact C1]. }
    destruct (same_y x1 x2 y2 C1' C2) as [|Nx]; [assumption|].
    rewrite <- (rep_e D HD _ _ A1), <- (rep_e D HD _ _ A2). apply same_parity; [exact (rep_b D _ _ A1)|exact (rep_b D _ _ A2)|exact T3|].
    rewrite (rep_e D HD _ _ A1), (rep_e D HD _ _ A2). exact Nx.
  Qed.
  Lemma enc_det q1 q2 Q1 Q2 : aff q1 Q1 -> aff q2 Q2 -> ept_eq P Q1 Q2 -> ~ fst Q1 == 0 -> ~ snd Q1 == 0 -> eddsa_point_enc D q1 = eddsa_point_enc D q2.
  Proof.
    destruct Q1 as [x1 y1], Q2 as [x2 y2]. intros (A1 & B1 & _) (A2 & B2 & _) [E1 E2] N1 N2. cbn [fst snd] in *. pose proof (d_P1 D HD) as P1.
    assert (A2' : R (ex q2) x1) by (refine (rep_ext n p _ _ _ _ A2); apply eqm_mod; [lia|]; now symmetry).
    assert (B2' : R (ey q2) y1) by (refine (rep_ext n p _ _ _ _ B2); apply eqm_mod; [lia|]; now symmetry).
    rewrite (enc_reg _ _ _ A1 B1), (enc_reg _ _ _ A2 B2), (rep_same D HD _ _ _ A1 A2' N1), (rep_same D HD _ _ _ B1 B2' N2). reflexivity.
  Qed.

  (** scalars modulo the order *)
  Lemma L_facts : words_ok L /\ (length L + 2 <= n)%nat /\ 1 < vval L /\ vval L < pw n /\ (length L <= 32)%nat /\ (8 * (2 * plen D) <= 32 * 32)%nat /\ vval L < 2 ^ (8 * Z.of_nat (plen D)) /\ exists m, vval L = 2 * m + 1.
  Proof.
    assert (W : forall l, forallb (fun z => (0 <=? z) && (z <? 2 ^ 32)) l = true -> words_ok l).
    { intros l E. apply Forall_forall. intros z Hz. rewrite forallb_forall in E. specialize (E z Hz). apply andb_true_iff in E.
      destruct E as [E1 E2]. apply Z.leb_le in E1. apply Z.ltb_lt in E2. split; assumption. }
    assert (Q : vval L = 2 * (vval L / 2) + 1 -> exists m, vval L = 2 * m + 1) by (intros E; eexists; exact E).
    destruct HD as [->| ->]; (split; [apply W; vm_compute; reflexivity|]; split; [cbn; lia|]; split; [apply Z.ltb_lt; vm_compute; reflexivity|]; split; [apply Z.ltb_lt; vm_compute; reflexivity|];
      split; [cbn; lia|]; split; [apply Nat.leb_le; vm_compute; reflexivity|]; split; [apply Z.ltb_lt; vm_compute; reflexivity|]; apply Q; apply Z.eqb_eq; vm_compute; reflexivity).
  Qed.
  Lemma mod_L_spec h : bytes_ok h -> length h = (2 * plen D)%nat ->
    words_ok (eddsa_mod_L D h) /\ length (eddsa_mod_L D h) = n /\ vval (eddsa_mod_L D h) = le_val h mod vval L.
  Proof.
    intros B Lh. destruct L_facts as (WL & LL & L1 & L2 & L3 & L4 & _). unfold eddsa_mod_L. destruct (DecLSB_spec 32 h B) as (W & Ln & V).
    assert (V' : vval (vlong_DecLSB 32 h) = le_val h).
    { rewrite V. apply Z.mod_small. pose proof (le_val_bound h B) as U. split; [apply U|]. eapply Z.lt_le_trans; [apply U|]. apply Z.pow_le_mono_r; [lia|]. rewrite Lh. clear -L4. lia. }
    destruct (vlong_remv_inplace_spec _ L W WL ltac:(rewrite Ln; exact L3) ltac:(lia)) as (_ & W' & L' & V2).
    split; [now apply vlong_cpy_words|]. split; [apply vlong_cpy_length|]. rewrite vlong_cpy_val by exact W'. rewrite V2, V'.
    apply Z.mod_small. pose proof (Z.mod_pos_bound (le_val h) (vval L) ltac:(lia)) as M. split; [apply M|eapply Z.lt_trans; [apply M|exact L2]].
  Qed.
  Lemma sign_scalar r k s vr vk vs : words_ok r -> length r = n -> vval r = vr mod vval L -> words_ok k -> length k = n -> vval k = vk mod vval L ->
    words_ok s -> length s = n -> vval s = vs ->
    let w := fst (vlong_mulv_masked n k s 1 (Some (fun v => vlong_remv_inplace v L))) in
    let z := fst (vlong_remv_inplace (vlong_addv n r w) L) in
    words_ok z /\ length z = n /\ vval z = (vr + vk * vs) mod vval L.
  Proof.
    intros Wr Lr Vr Wk Lk Vk Ws Ls Vs. cbv zeta. destruct L_facts as (WL & LL & L1 & L2 & _).
    pose proof (field_remv n L WL LL L1) as FL. pose proof (Z.mod_pos_bound vr (vval L) ltac:(lia)) as Br. pose proof (Z.mod_pos_bound vk (vval L) ltac:(lia)) as Bk.
    pose proof (vval_bound s Ws) as Bs.
    assert (Rk : rep n L k vk). { split; [exact Wk|]. split; [exact Lk|]. rewrite Vk. split; [lia|apply Zmod_mod]. }
    assert (Rs : repb n L (vval s) s vs). { split; [exact Ws|]. split; [exact Ls|]. split; [clear -Bs L1; nia|]. now rewrite Vs. }
    assert (Rw : rep n L (fst (vlong_mulv_masked n k s 1 (Some (fun v => vlong_remv_inplace v L)))) (vk * vs)) by exact (mul_rep n L _ FL k s 1 vk vs _ ltac:(now right) Rk Rs).
    set (w := fst (vlong_mulv_masked n k s 1 (Some (fun v => vlong_remv_inplace v L)))) in *. clearbody w.
    destruct Rw as (Ww & Lw & Bw & Ew). pose proof (vval_bound w Ww) as Bw0. pose proof (fo_room _ _ _ FL) as RM.
    assert (Va : vval (vlong_addv n r w) = vval r + vval w).
    { rewrite vlong_addv_val by assumption. apply Z.mod_small. rewrite Vr. set (z := vr mod vval L) in *. clearbody z. clear -Br Bw Bw0 RM L1. split; [lia|]. eapply Z.le_lt_trans; [|exact RM]. lia. }
    destruct (vlong_remv_inplace_spec (vlong_addv n r w) L (vlong_addv_words _ _ _) WL ltac:(rewrite vlong_addv_length; clear -LL; lia) ltac:(lia)) as (_ & W' & L' & V2).
    split; [exact W'|]. split; [rewrite L'; apply vlong_addv_length|]. rewrite V2, Va, Vr, Zplus_mod, Ew, Zmod_mod, <- Zplus_mod. reflexivity.
  Qed.
  (** the base point *)
  Definition BP : epoint := (vval (ex (dp_B D)), vval (ey (dp_B D))).
  Lemma base_ok : On BP /\ ed_holds c (dp_B D) BP.
  Proof.
    pose proof C35_base_points as H. inversion H as [|? ? A H1]; subst. inversion H1 as [|? ? B _]; subst. unfold BP. destruct HD as [->| ->]; [exact A|exact B].
  Qed.
  Lemma inf_ok : On (0, 1) /\ ed_holds c (ecEd_xytz_inf c) (0, 1).
  Proof.
    split; [now apply on_id|]. apply C35_neutral.
    - destruct HD as [->| ->]; [left|right; left]; reflexivity.
    - pose proof (d_n D HD). lia.
    - apply (d_P1 D HD).
  Qed.
  (** canonicalised A + [k]Q *)
  Lemma scale_aff acc base A Q s : On A -> On Q -> words_ok s -> ed_holds c acc A -> ed_holds c base Q ->
    exists M T, ed_mul P a d1 d2 Q (Z.to_nat (vval s)) M /\ ed_add P a d1 d2 A M T /\ On M /\ On T /\ aff (eddsa_canon_pubkey D (ecEd_point_scale_accumulate c acc base s)) T.
  Proof.
    intros CA CQ Ws HA HQ. destruct (ed_scale_holds c (d_ok D HD) HP HO HC acc base A Q s CA CQ Ws HA HQ) as (M & T & E1 & E2 & HT).
    pose proof (ed_mul_on P a d1 d2 HP HO HC Q _ M CQ E1) as CM. exists M, T. split; [exact E1|]. split; [exact E2|]. split; [exact CM|].
    split; [exact (add_closed P a d1 d2 HP HO HC A M T CA CM E2)|]. exact (canon_spec D HD _ _ HT).
  Qed.
  Lemma scale_base s : words_ok s -> exists M, ed_mul P a d1 d2 BP (Z.to_nat (vval s)) M /\ On M /\ aff (eddsa_canon_pubkey D (ecEd_point_scale_accumulate c (ecEd_xytz_inf c) (dp_B D) s)) M.
  Proof.
    intros Ws. destruct base_ok as [CB HB]. destruct inf_ok as [CI HI]. destruct (scale_aff _ _ _ _ s CI CB Ws HI HB) as (M & T & E1 & E2 & CM & CT & AT).
    exists M. split; [exact E1|]. split; [exact CM|]. apply (aff_pt _ T); [|exact AT].
    apply (add_det P a d1 d2 HP (0, 1) M); [exact E2|]. apply add_comm. now apply add_id.
  Qed.

  (** a decoded point *)
  Lemma dec_reenc enc q : bytes_ok enc -> length enc = plen D -> le_val enc mod 2 ^ (8 * Z.of_nat (plen D) - 1) < P -> decoded D enc q ->
    let y := le_val enc mod 2 ^ (8 * Z.of_nat (plen D) - 1) in
    eddsa_point_enc D q = enc /\ aff q (vval (ex q), y) /\ On (vval (ex q), y) /\ vval (ex q) mod 2 = le_val enc / 2 ^ (8 * Z.of_nat (plen D) - 1).
  Proof.
    intros B Ln CY (A1 & A2 & A3 & A4 & A5 & A6 & A7 & A8). cbv zeta in *. pose proof (d_bits D HD) as DB.
    set (t := 8 * Z.of_nat (plen D) - 1) in *. assert (BT : 0 <= Z.of_nat (dp_bits D) <= t). { unfold t. destruct (d_sizes D HD) as [(_ & -> & _ & -> & _)|(_ & -> & _ & -> & _)]; lia. }
    assert (T0 : 0 < 2 ^ t) by (apply Z.pow_pos_nonneg; lia).
    assert (EY : le_val enc mod 2 ^ Z.of_nat (dp_bits D) = le_val enc mod 2 ^ t).
    { pose proof (Z.mod_pos_bound (le_val enc) (2 ^ t) T0) as M. rewrite (Zmod_div_mod (2 ^ Z.of_nat (dp_bits D)) (2 ^ t) (le_val enc)); [|apply Z.pow_pos_nonneg; lia|exact T0|].
      - apply Z.mod_small. lia.
      - exists (2 ^ (t - Z.of_nat (dp_bits D))). rewrite <- Z.pow_add_r by lia. f_equal. lia. }
    rewrite EY in *. set (y := le_val enc mod 2 ^ t) in *. pose proof (Z.mod_pos_bound (le_val enc) (2 ^ t) T0) as M. fold y in M.
    assert (Ry : R (ey q) y). { split; [exact A2|]. split; [exact A3|]. rewrite A4. split; [lia|reflexivity]. }
    split; [|split; [split; [exact A1|split; [exact Ry|split; [exact A5|exact A6]]]|split; [exact A7|exact A8]]].
    rewrite (enc_reg q _ _ A1 Ry), A4, A8. unfold denc. fold t. transitivity (le_bytes (length enc) (le_val enc)); [|now apply le_bytes_le_val]. rewrite Ln. f_equal.
    unfold y. pose proof (Z.div_mod (le_val enc) (2 ^ t) ltac:(lia)) as DM. lia.
  Qed.

  (** RFC8032_Verify *)
  Variable hash : list Z -> nat -> list Z.
  Hypothesis HH : forall m k, bytes_ok (hash m k) /\ length (hash m k) = k.
  Definition dk (eA eR : list Z) (fl : Z) (ctx M : list Z) : Z := le_val (hash (eddsa_dom D fl ctx ++ eR ++ eA ++ M) (plen D * 2)) mod vval L.
  Definition deq (PA PR : epoint) (s k : Z) : Prop :=
    exists SB kA T, ed_mul P a d1 d2 BP (Z.to_nat s) SB /\ ed_mul P a d1 d2 PA (Z.to_nat k) kA /\ ed_add P a d1 d2 PR kA T /\ ept_eq P SB T.
  Lemma verify_spec A Rq s PA PR fl ctx M : aff A PA -> On PA -> aff Rq PR -> On PR -> words_ok s ->
    let k := dk (eddsa_point_enc D A) (eddsa_point_enc D Rq) fl ctx M in
    (RFC8032_Verify D hash A Rq s fl ctx M = true -> deq PA PR (vval s) k) /\
    (deq PA PR (vval s) k -> (forall SB, ed_mul P a d1 d2 BP (Z.to_nat (vval s)) SB -> ~ fst SB == 0 /\ ~ snd SB == 0) -> RFC8032_Verify D hash A Rq s fl ctx M = true).
  Proof.
    intros HA CA HR CR Ws. cbv zeta. unfold RFC8032_Verify. 
    set (eA := eddsa_point_enc D A). set (eR := eddsa_point_enc D Rq).
    set (h := hash (eddsa_dom D fl ctx ++ eR ++ eA ++ M) (plen D * 2)).
    destruct (mod_L_spec h) as (Wk & Lk & Vk); [apply HH|unfold h; rewrite (proj2 (HH _ _)); lia|].
    assert (Ek : dk eA eR fl ctx M = vval (eddsa_mod_L D h)) by (rewrite Vk; reflexivity). rewrite Ek.
    set (k := eddsa_mod_L D h) in *. clearbody k. clear Vk Ek.
    destruct (scale_aff Rq A PR PA k CR CA Wk (aff_holds _ _ HR) (aff_holds _ _ HA)) as (M1 & T1 & E1 & E2 & CM1 & CT1 & AT1).
    destruct (scale_base s Ws) as (SB & E3 & CSB & ASB).
    set (q1 := eddsa_canon_pubkey D (ecEd_point_scale_accumulate c Rq A k)) in *.
    set (q2 := eddsa_canon_pubkey D (ecEd_point_scale_accumulate c (ecEd_xytz_inf c) (dp_B D) s)) in *. clearbody q1 q2.
    assert (O1 : bytes_ok (eddsa_point_enc D q1) /\ length (eddsa_point_enc D q1) = plen D) by (rewrite (enc_reg q1 _ _ (proj1 AT1) (proj1 (proj2 AT1))); apply denc_ok).
    assert (O2 : bytes_ok (eddsa_point_enc D q2) /\ length (eddsa_point_enc D q2) = plen D) by (rewrite (enc_reg q2 _ _ (proj1 ASB) (proj1 (proj2 ASB))); apply denc_ok).
    pose proof (same_octets _ _ (plen D) (proj1 O1) (proj1 O2) (proj2 O1) (proj2 O2)) as SO. split.
    - intros V. apply SO in V. exists SB, M1, T1. split; [exact E3|]. split; [exact E1|]. split; [exact E2|]. apply ept_sym. now apply (enc_inj q1 q2).
    - intros (SB' & kA & T & F1 & F2 & F3 & F4) ND. apply SO.
      destruct (ND SB E3) as [N1 N2]. symmetry. apply (enc_det q2 q1 SB T1); auto.
      assert (Q1 : canE P SB' = canE P SB). { rewrite (ed_mul_smul P a d1 d2 HP HO HC _ _ _ (proj1 base_ok) F1), (ed_mul_smul P a d1 d2 HP HO HC _ _ _ (proj1 base_ok) E3). reflexivity. }
      assert (CkA : On kA) by (apply (ed_mul_on P a d1 d2 HP HO HC PA _ kA CA F2)).
      assert (Q2 : canE P kA = canE P M1). { rewrite (ed_mul_smul P a d1 d2 HP HO HC _ _ _ CA F2), (ed_mul_smul P a d1 d2 HP HO HC _ _ _ CA E1). reflexivity. }
      assert (Q3 : canE P T = canE P T1). { rewrite (add_canE P a d1 d2 HP HO HC _ _ _ CR CkA F3), (add_canE P a d1 d2 HP HO HC _ _ _ CR CM1 E2), Q2. reflexivity. }
      apply (ept_trans P SB SB'); [apply (canE_ept P HP HO); now symmetry|]. apply (ept_trans P SB' T); [exact F4|]. apply (canE_ept P HP HO). exact Q3.
  Qed.
End Lib.
