(** Point encoding, decoding and canonicalisation of EdDSA. *)
From Coq Require Import Znumtheory.
From Verif Require Import Base Vlong VlongLemmas VlongDivLemmas VlongMulLemmas EcMod EcModLemmas EcFieldLemmas EcExpLemmas EcCurveLemmas EcSpec EcGroupLemmas EcpXyz ScaleLemmas EcpScaleLemmas Fermat EdSpec EdCert EdGroupLemmas EcEd EdLemmas EdScaleLemmas EdCompleteLemmas CurvePrimes Der DerLemmas OctetLemmas EcMt PropEd EddsaSpec EdDsa.

Definition dlib (D : eddsa_params) : Prop := D = dp_25519 \/ D = dp_448.

Section Lib.
  Variable D : eddsa_params.
  Hypothesis HD : dlib D.
  Notation c := (dp_c D).
  Notation n := (ed_w (dp_c D)).
  Notation p := (ed_p (dp_c D)).
  Notation g := (ed_g (dp_c D)).
  Notation P := (vval (ed_p (dp_c D))).
  Notation d1 := (ed_over (dp_c D)).
  Notation d2 := (ed_under (dp_c D)).
  Notation "x == y" := (eqm P x y) (at level 70).
  Notation mul a b := (fst (vlong_mulv_masked n a b 1 (Some g))).
  Notation R := (rep n p).
  Lemma d_ok : edcurve_ok c.
  Proof. apply edwards_ok. destruct HD as [->| ->]; [left|right; left]; reflexivity. Qed.
  Lemma d_field : field_ok n p g. Proof. apply (eo_field _ d_ok). Qed.
  Lemma d_ed : ed_field c. Proof. apply C35_complete. destruct HD as [->| ->]; [left|right]; reflexivity. Qed.
  Lemma d_prime : prime P. Proof. apply d_ed. Qed.
  Lemma d_odd : P <> 2. Proof. apply d_ed. Qed.
  Lemma d_complete : ed_complete P (ed_a c) d1 d2. Proof. apply d_ed. Qed.
  Lemma d_P1 : 1 < P. Proof. apply (fo_pos _ _ _ d_field). Qed.
  Lemma d_low : 2 <= nthZ 0 p.
  Proof. destruct HD as [->| ->]; apply Z.leb_le; vm_compute; reflexivity. Qed.
  Lemma d_bits : P < 2 ^ Z.of_nat (dp_bits D) <= 2 * P.
  Proof. destruct HD as [->| ->]; (split; [apply Z.ltb_lt|apply Z.leb_le]); vm_compute; reflexivity. Qed.
  Lemma d_8P : 8 * P * 2 ^ 32 < pw n.
  Proof. destruct HD as [->| ->]; apply Z.ltb_lt; vm_compute; reflexivity. Qed.
  Lemma d_n : (8 <= n)%nat.
  Proof. destruct HD as [->| ->]; cbn; lia. Qed.
  Lemma d_total v : words_ok v -> length v = n -> exists v', g v = (v', true) /\ reduces p v v'.
  Proof. destruct HD as [->| ->]; intros W L; [apply remv_25519_spec|apply remv_448_spec]; auto; rewrite L; cbn; lia. Qed.
  Lemma d_par : P mod 2 = 1.
  Proof. destruct HD as [->| ->]; apply Z.eqb_eq; vm_compute; reflexivity. Qed.

  Lemma reduced_le v v' : reduces p v v' -> vval v' <= P.
  Proof. pose proof d_P1. intros (_ & _ & [E|[E _]]); rewrite E; [|lia]. pose proof (Z.mod_pos_bound (vval v) P ltac:(lia)). lia. Qed.
  Lemma mulv_loop_last a b : words_ok a -> forall i out, (0 < i)%nat -> words_ok out -> length out = n ->
    vval (fst (mulv_loop a b 1 (Some g) i out)) <= P.
  Proof.
    intros Wa. induction i as [|i IH]; intros out Hi Wo Lo; [lia|]. cbn [mulv_loop]. cbv zeta. cbn [run_mod].
    match goal with |- context [g ?v] => destruct (d_total v) as (o1 & E1 & T1); [apply vlong_muls_words|now rewrite vlong_muls_length|] end.
    rewrite E1. cbn [negb]. pose proof (reduced_le _ _ T1) as B1. destruct T1 as (W1 & L1 & _). rewrite vlong_muls_length in L1.
    destruct (Nat.eqb_spec i 0) as [->|N0]; [exact B1|].
    destruct (d_total (vlong_mulx (length o1) o1)) as (o2 & E2 & T2); [now apply vlong_mulx_words|rewrite vlong_mulx_length; congruence|].
    rewrite E2. cbn [negb]. destruct T2 as (W2 & L2 & _). apply IH; [lia|exact W2|]. rewrite L2, vlong_mulx_length. congruence.
  Qed.
  Lemma d_good8 : good_on n P (8 * P) (8 * P * 2 ^ 32) g.
  Proof.
    intros v W L _. destruct (d_total v W L) as (v' & E & T). exists v'. split; [exact E|]. pose proof (reduced_le _ _ T) as B. destruct T as (W' & L' & V).
    pose proof d_P1 as P1. split; [exact W'|]. split; [congruence|]. split; [|lia].
    destruct V as [V|[V V0]]; rewrite V; [apply Zmod_mod|]. rewrite V0. apply Z_mod_same_full.
  Qed.
  (** a first operand above p (an undecoded y) is allowed *)
  Lemma mul_big a b x y : words_ok a -> vval a <= 8 * P -> words_ok b -> length b = n -> vval a mod P = x mod P -> vval b mod P = y mod P -> R (mul a b) (x * y).
  Proof.
    intros Wa Ba Wb Lb Ea Eb. pose proof d_n. pose proof d_P1.
    destruct (mulv_on n a b 1 P (8 * P) g Wa Wb ltac:(lia) ltac:(now right) d_good8 Ba ltac:(lia) d_8P) as (r & E & W & L & _ & V).
    assert (B : vval (mul a b) <= P).
    { unfold vlong_mulv_masked. apply mulv_loop_last; auto; [lia|apply repeat_words|apply repeat_length]. }
    rewrite E in *. cbn [fst] in *. split; [exact W|]. split; [exact L|]. split; [exact B|]. rewrite V. change (1 =? 1) with true. cbv iota.
    rewrite Zmult_mod, Ea, Eb, <- Zmult_mod. reflexivity.
  Qed.
  Lemma rep_w v x : R v x -> words_ok v. Proof. intros (A & _). exact A. Qed.
  Lemma rep_l v x : R v x -> length v = n. Proof. intros (_ & A & _). exact A. Qed.
  Lemma rep_b v x : R v x -> 0 <= vval v <= P. Proof. intros (A & _ & B & _). pose proof (vval_bound v A). lia. Qed.
  Lemma rep_e v x : R v x -> vval v == x.
  Proof. pose proof d_P1. intros (_ & _ & _ & A). apply eqm_mod; [lia|exact A]. Qed.
  Lemma rep_same v w x : R v x -> R w x -> ~ x == 0 -> vval v = vval w.
  Proof.
    pose proof d_P1 as P1. intros A B N. pose proof (rep_b _ _ A) as [A1 A2]. pose proof (rep_b _ _ B) as [B1 B2].
    pose proof (rep_e _ _ A) as EA. pose proof (rep_e _ _ B) as EB. 
    assert (X : forall v, 0 <= v <= P -> v == x -> v = x mod P).
    { intros z Hz E. apply eqm_mod in E; [|lia]. rewrite <- E. symmetry. apply Z.mod_small. split; [apply Hz|]. destruct (Z.eq_dec z P) as [->|]; [|lia].
      exfalso. apply N. apply eqm_mod; [lia|]. rewrite <- E, Z_mod_same_full. symmetry. apply Z.mod_0_l. lia. }
    rewrite (X (vval v)), (X (vval w)) by (try assumption; lia). reflexivity.
  Qed.
  Lemma one_rep : R (vlong_cpy n [1]) 1 /\ vval (vlong_cpy n [1]) = 1.
  Proof.
    pose proof d_P1. pose proof d_n. assert (W1 : words_ok [1]) by (constructor; [unfold word_ok; lia|constructor]).
    assert (V : vval (vlong_cpy n [1]) = 1).
    { rewrite vlong_cpy_val by exact W1. change (vval [1]) with 1. apply Z.mod_small. split; [lia|]. apply Z.pow_gt_1; lia. }
    split; [|exact V]. split; [now apply vlong_cpy_words|]. split; [apply vlong_cpy_length|]. rewrite V. split; [lia|reflexivity].
  Qed.

  (** eddsa_canon_pubkey: the affine coordinates. *)
  Lemma canon_spec q Q : ed_holds c q Q ->
    R (ex (eddsa_canon_pubkey D q)) (fst Q) /\ R (ey (eddsa_canon_pubkey D q)) (snd Q) /\ R (et (eddsa_canon_pubkey D q)) (fst Q * snd Q) /\
    ez (eddsa_canon_pubkey D q) = vlong_cpy n [1].
  Proof.
    intros (A1 & A2 & A3 & A4 & E). destruct Q as [x y]. cbn [extended] in E. destruct E as (NZ & EX & EY & ET). pose proof d_P1 as P1.
    pose proof (ereg_rep c _ A1) as R1. pose proof (ereg_rep c _ A2) as R2. pose proof (ereg_rep c _ A3) as R3. pose proof (ereg_rep c _ A4) as R4.
    assert (ND : ~ (P | vval (ez q))). { intros Dv. apply NZ. unfold eqm. rewrite Z.sub_0_r. exact Dv. }
    destruct (inv_spec n p g _ _ d_field d_prime d_low R4 ND) as [RI EI]. unfold vlong_inv_fermat in RI, EI.
    set (s := vlong_modexpv_shiftadded n (ez q) g p (-2) 0) in *.
    assert (IV : vval (ez q) * vval s == 1). { apply eqm_mod; [lia|]. rewrite EI. symmetry. apply Z.mod_small. lia. }
    assert (RS : R s (vval s)). { split; [apply (rep_w _ _ RI)|]. split; [apply (rep_l _ _ RI)|]. split; [apply (rep_b _ _ RI)|reflexivity]. }
    unfold eddsa_canon_pubkey. fold s. cbn [ex ey et ez fst snd]. 
    assert (K : forall r v w, R r v -> v == w * vval (ez q) -> R (vlong_cpy n (mul r s)) w).
    { intros r v w Rr E. apply (cpy_rep n p). apply (rep_ext n p _ (v * vval s)); [|now apply (mul_rep' c d_ok)].
      apply eqm_mod; [lia|]. rewrite E. rewrite <- Z.mul_assoc, IV, Z.mul_1_r. reflexivity. }
    split; [exact (K _ _ _ R1 EX)|]. split; [exact (K _ _ _ R2 EY)|]. split; [exact (K _ _ _ R3 ET)|reflexivity].
  Qed.

  (** eddsa_point_enc *)
  Lemma land127 b : byte_ok b -> Z.land b 127 = b mod 128.
  Proof. revert b. apply (byte_cases _ (fun b => Z.land b 127 =? b mod 128)); [intros x; apply Z.eqb_eq|vm_compute; reflexivity]. Qed.
  Lemma lor_par b par : byte_ok b -> b < 128 -> par = 0 \/ par = 1 -> Z.lor b (Z.shiftl par 7) = b + 128 * par.
  Proof.
    intros Hb Hl [->| ->].
    - change (Z.shiftl 0 7) with 0. rewrite Z.lor_0_r. lia.
    - revert Hl. revert b Hb. apply (byte_cases (fun b => b < 128 -> Z.lor b (Z.shiftl 1 7) = b + 128 * 1) (fun b => (128 <=? b) || (Z.lor b (Z.shiftl 1 7) =? b + 128 * 1))); [|vm_compute; reflexivity].
      intros x Hx Hl. apply orb_true_iff in Hx. destruct Hx as [Hx|Hx]; [apply Z.leb_le in Hx; lia|now apply Z.eqb_eq].
  Qed.
  Definition parity (v : list Z) : Z := vval v mod 2.
  Lemma low_bit v : words_ok v -> Z.land (nthZ 0 v) 1 = vval v mod 2.
  Proof.
    intros W. rewrite (nthZ_vval v 0 W). change (32 * Z.of_nat 0) with 0. rewrite Z.pow_0_r, Z.div_1_r.
    change 1 with (Z.ones 1) at 1. rewrite Z.land_ones by lia. change (2 ^ 1) with 2.
    change (2 ^ 32) with (2 * 2 ^ 31). rewrite Z.rem_mul_r by lia. rewrite (Z.mul_comm 2), Z_mod_plus_full. apply Zmod_mod.
  Qed.
  Lemma top_octet l k v : length l = S k -> bytes_ok l -> le_val l = v -> nthZ k l = v / 2 ^ (8 * Z.of_nat k).
  Proof.
    intros L B <-. destruct (exists_last (l := l)) as (a & z & E); [intros ->; discriminate|]. subst l. rewrite app_length in L. cbn [length] in L.
    assert (La : length a = k) by lia. apply Forall_app in B. destruct B as [B _]. rewrite PolyLemmas.le_val_app. pose proof (le_val_bound a B) as U. rewrite La in *.
    unfold nthZ. rewrite app_nth2, La, Nat.sub_diag by lia. cbn [nth]. change (le_val [z]) with (z + 2 ^ 8 * 0).
    apply Z.div_unique with (r := le_val a); [left; exact U|]. ring.
  Qed.
  Lemma upd_bytes i v l : bytes_ok l -> byte_ok v -> bytes_ok (upd i v l).
  Proof.
    revert i. induction l as [|x l IH]; intros i B Hv; [destruct i; constructor|]. inversion B; subst. destruct i; cbn [upd]; constructor; auto. apply IH; auto.
  Qed.
  Lemma upd_len i v (l : list Z) : length (upd i v l) = length l.
  Proof. revert i. induction l as [|x l IH]; intros [|i]; cbn [upd length]; auto. Qed.
  Lemma enc_25519 k y par : 0 <= y < 128 * 2 ^ (8 * Z.of_nat k) -> par = 0 \/ par = 1 -> forall l, l = le_bytes (S k) y ->
    forall l', l' = upd k (Z.land (nthZ k l) 127) l ->
    upd k (Z.lor (nthZ k l') (Z.shiftl par 7)) l' = le_bytes (S k) (y + 128 * 2 ^ (8 * Z.of_nat k) * par).
  Proof.
    intros By Pr l El l' El'. subst l'. assert (PW : 0 < 2 ^ (8 * Z.of_nat k)) by (apply Z.pow_pos_nonneg; lia).
    pose proof (le_bytes_ok (S k) y) as B. pose proof (le_bytes_length (S k) y) as L. pose proof (le_val_le_bytes (S k) y) as V.
    assert (M : y mod 2 ^ (8 * Z.of_nat (S k)) = y). { apply Z.mod_small. replace (8 * Z.of_nat (S k)) with (8 + 8 * Z.of_nat k) by lia. rewrite Z.pow_add_r by lia. lia. }
    rewrite M in V. clear M. rewrite <- El in *. clear El. pose proof (top_octet l k y L B V) as T. set (W := 2 ^ (8 * Z.of_nat k)) in *. 
    assert (T1 : 0 <= nthZ k l < 128). { rewrite T. split; [apply Z.div_pos; lia|]. apply Z.div_lt_upper_bound; lia. }
    assert (Tb : byte_ok (nthZ k l)) by (unfold byte_ok; clear -T1; lia).
    assert (Em : nthZ k l mod 128 = nthZ k l) by (apply Z.mod_small; exact T1).
    rewrite (land127 _ Tb), Em. rewrite nthZ_upd_eq by (clear -L; lia).
    rewrite lor_par by (auto; apply T1).
    assert (Tb' : byte_ok (nthZ k l + 128 * par)). { unfold byte_ok. clear -T1 Pr. destruct Pr; subst par; lia. }
    rewrite <- (le_bytes_le_val (upd k (nthZ k l + 128 * par) (upd k (nthZ k l) l))) by (apply upd_bytes; [apply upd_bytes; assumption|exact Tb']).
    rewrite !upd_len, L. f_equal. rewrite !le_val_upd by (rewrite ?upd_len; clear -L; lia). rewrite nthZ_upd_eq by (clear -L; lia). rewrite V.
    fold W. ring.
  Qed.
  Lemma enc_448 k y par : 0 <= y < 2 ^ (8 * Z.of_nat k) -> par = 0 \/ par = 1 -> forall l, l = le_bytes k y ++ [0] ->
    forall l', l' = upd k (Z.land (nthZ k l) 0) l ->
    upd k (Z.lor (nthZ k l') (Z.shiftl par 7)) l' = le_bytes (S k) (y + 128 * 2 ^ (8 * Z.of_nat k) * par).
  Proof.
    intros By Pr l El l' El'. subst l'.
    pose proof (le_bytes_ok k y) as B. pose proof (le_bytes_length k y) as L. pose proof (le_val_le_bytes k y) as V.
    assert (M : y mod 2 ^ (8 * Z.of_nat k) = y) by (apply Z.mod_small; exact By). rewrite M in V. clear M.
    set (l0 := le_bytes k y) in *. clearbody l0.
    assert (N : nthZ k l = 0). { subst l. unfold nthZ. rewrite app_nth2, L, Nat.sub_diag by (clear -L; lia). reflexivity. }
    assert (Z0 : byte_ok 0) by (unfold byte_ok; lia).
    assert (B1 : bytes_ok l). { subst l. apply Forall_app. split; [exact B|constructor; [exact Z0|constructor]]. }
    assert (LL : length l = S k) by (subst l; rewrite app_length; cbn [length]; clear -L; lia).
    assert (V1 : le_val l = y). { subst l. rewrite PolyLemmas.le_val_app, V. change (le_val [0]) with 0. ring. }
    clear El B L V l0. rewrite N. change (Z.land 0 0) with 0. rewrite nthZ_upd_eq by (clear -LL; lia).
    rewrite lor_par by (auto; lia).
    assert (Tb' : byte_ok (0 + 128 * par)) by (unfold byte_ok; clear -Pr; destruct Pr; subst par; lia).
    rewrite <- (le_bytes_le_val (upd k (0 + 128 * par) (upd k 0 l))) by (apply upd_bytes; [apply upd_bytes; [exact B1|exact Z0]|exact Tb']).
    rewrite !upd_len, LL. f_equal. rewrite !le_val_upd by (rewrite ?upd_len; clear -LL; lia). rewrite nthZ_upd_eq by (clear -LL; lia). rewrite V1, N.
    ring.
  Qed.
  Lemma enc_val Q : words_ok (ey Q) -> words_ok (ex Q) -> vval (ey Q) < 2 ^ Z.of_nat (dp_bits D) ->
    eddsa_point_enc D Q = le_bytes (plen D) (vval (ey Q) + 2 ^ (8 * Z.of_nat (plen D) - 1) * (vval (ex Q) mod 2)).
  Proof.
    intros Wy Wx By. pose proof (vval_bound _ Wy) as [By0 _]. unfold eddsa_point_enc. rewrite (low_bit _ Wx), (EncLSB_spec _ _ Wy).
    assert (Pr : vval (ex Q) mod 2 = 0 \/ vval (ex Q) mod 2 = 1). { pose proof (Z.mod_pos_bound (vval (ex Q)) 2 ltac:(lia)). lia. }
    set (par := vval (ex Q) mod 2) in *. set (y := vval (ey Q)) in *. clearbody par y. clear Wx Wy Q.
    destruct HD as [->| ->].
    - change (plen dp_25519) with 32%nat. change (pbytes dp_25519) with 32%nat. change (dp_bits dp_25519 / 8)%nat with 31%nat. change (dp_bits dp_25519 mod 8)%nat with 7%nat.
      change (Z.of_nat (dp_bits dp_25519)) with 255 in By. change (32 - 32)%nat with 0%nat. change (repeat 0 0) with (@nil Z). rewrite app_nil_r.
      change (Z.shiftl 1 (Z.of_nat 7) - 1) with 127. replace (2 ^ (8 * Z.of_nat 32 - 1)) with (128 * 2 ^ (8 * Z.of_nat 31)) by reflexivity. refine (enc_25519 31 y par (conj By0 By) Pr _ eq_refl _ eq_refl).
    - change (plen dp_448) with 57%nat. change (pbytes dp_448) with 56%nat. change (dp_bits dp_448 / 8)%nat with 56%nat. change (dp_bits dp_448 mod 8)%nat with 0%nat.
      change (Z.of_nat (dp_bits dp_448)) with 448 in By. change (57 - 56)%nat with 1%nat. change (repeat 0 1) with [0].
      change (Z.shiftl 1 (Z.of_nat 0) - 1) with 0. replace (2 ^ (8 * Z.of_nat 57 - 1)) with (128 * 2 ^ (8 * Z.of_nat 56)) by reflexivity. refine (enc_448 56 y par (conj By0 By) Pr _ eq_refl _ eq_refl).
  Qed.
End Lib.
