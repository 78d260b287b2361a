(** C43 (RSAES-OAEP) and C44 (RSAES-PKCS1-v1_5). *)
From Coq Require Import Znumtheory.
From Verif Require Pocklington.
From Verif Require Import Base Vlong VlongLemmas Der DerLemmas HashIface HashSpec PropHash HashLemmas MdLemmas MacLemmas PkcsSpec PkcsLemmas PkcsLemmas2 PkcsLemmas3 Rsa RsaSpec RsaLemmas RsaEs RsaEsSpec RsaEsLemmas RsaEsRunLemmas RsaEsEncLemmas.

(** A private (public) context over a key pair of [bits] bits (rsa_pair, RsaEsRunLemmas.v: C45's
    conditions on the key, and a modulus of that many bits); its hash contexts have their C types' sizes. *)
Definition priv_over {hm hg} (x : privctx hm hg) (bits wm wf : nat) (key : rsa_priv) (n : list Z) : Prop :=
  v_wm x = wm /\ v_wf x = wf /\ v_key x = key /\ v_n x = n /\ v_bits x = bits /\ hi_shape hm (v_hmsg x) /\ hi_shape hg (v_hmgf x).
Definition pub_over {hm hg} (x : pubctx hm hg) (bits wm : nat) (e n : list Z) : Prop :=
  u_w x = wm /\ u_e x = e /\ u_n x = n /\ u_bits x = bits /\ hi_shape hm (u_hmsg x) /\ hi_shape hg (u_hmgf x) /\ (bits / 8 <= length (u_buf x))%nat.

Section WithHash.
  Variables (hm hg : hash_impl) (H G : list Z -> list Z) (lim : Z).
  Let MGF := rfc_mgf1 G (hi_out hg).
  Definition is_oaep (bits : nat) (lH M em : list Z) : Prop :=
    length lH = hi_out hm /\ bytes_ok lH /\ oaep_of MGF (bits / 8) lH M em.

  Lemma core_shape (x : privctx hm hg) : v_k hm hg (oaep_core hm hg x) = v_k hm hg x /\ v_hmsg (oaep_core hm hg x) = v_hmsg x.
  Proof. unfold oaep_core. destruct (negb _); [auto|]. cbv zeta. destruct (_ <? _)%nat; [auto|]. destruct (ct_above _ _ _); auto. Qed.
  Lemma core15_shape (x : privctx hm hg) : v_k hm hg (v15_core hm hg x) = v_k hm hg x.
  Proof. unfold v15_core. destruct (negb _); [auto|]. destruct (ct_above _ _ _); auto. Qed.
  Lemma label_diff_spec : forall p d c, bytes_ok p -> bytes_ok d -> length p = length d -> 0 <= c < 256 ->
    0 <= label_diff p d c < 256 /\ (label_diff p d c = 0 <-> c = 0 /\ p = d).
  Proof.
    induction p as [|b p IH]; intros [|e d] c Bp Bd L Bc; cbn in L; try discriminate; cbn [label_diff]; [split; [exact Bc|tauto]|].
    inversion Bp as [|? ? B1 B2]. inversion Bd as [|? ? D1 D2]. subst.
    assert (LB : forall v, 0 <= v < 256 -> Z.log2 v <= 7). { intros v Hv. destruct (Z.eq_dec v 0) as [->|E]; [cbn; lia|]. assert (Z.log2 v < 8) by (apply Z.log2_lt_pow2; change (2 ^ 8) with 256; lia). lia. }
    assert (BX : 0 <= Z.lor c (Z.lxor b e) < 256).
    { destruct B1 as [b1 b2], D1 as [d1 d2]. assert (NX : 0 <= Z.lxor b e) by (apply Z.lxor_nonneg; split; lia). split; [apply Z.lor_nonneg; split; lia|].
      change 256 with (2 ^ 8). destruct (Z_lt_le_dec (Z.lor c (Z.lxor b e)) (2 ^ 8)) as [X|X]; [exact X|exfalso].
      assert (P : 0 < Z.lor c (Z.lxor b e)) by (change (2 ^ 8) with 256 in X; lia). apply Z.log2_le_pow2 in X; [|exact P]. rewrite Z.log2_lor in X by lia.
      pose proof (Z.log2_lxor b e b1 d1) as Q. change (2 ^ 8) with 256 in *. pose proof (LB b (conj b1 b2)). pose proof (LB e (conj d1 d2)). pose proof (LB c Bc). lia. }
    destruct (IH d (Z.lor c (Z.lxor b e)) B2 D2 ltac:(lia) BX) as [A1 A2]. split; [exact A1|]. rewrite A2. rewrite Z.lor_eq_0_iff, Z.lxor_eq_0_iff. split; [intros ((X & Y) & Z); subst; tauto|].
    intros (X & Y). injection Y as -> ->. tauto.
  Qed.

  (** * C43 *)
  (** Decryption, of every ciphertext: it is that of some m below n.  The answer is yes exactly if the
      octets of m are an OAEP encoding (of any label); then the length of the message is returned,
      and a second call, or a first call with a buffer, delivers the message; and the label test,
      made after decryption, says yes exactly if the hash of the label is the one in the encoding. *)
  Theorem C43_decrypt : hash_correct hm H lim -> hash_correct hg G lim -> (0 < hi_out hg)%nat ->
    forall (bits wm wf : nat) (key : rsa_priv) (e n : list Z) (x : privctx hm hg) (ct : list Z) (m : Z),
    rsa_pair bits wm wf key e n -> priv_over x bits wm wf key n -> room lim (bits / 8) ->
    bytes_ok ct -> 0 <= m < val_le 32 n -> be_val ct = m ^ val_le 32 e mod val_le 32 n ->
    let x0 := Decode_Ciphertext hm hg x ct in
    let '(x1, ok, len) := RSAES_OAEP_Dec_len hm hg x0 in
    (ok = true <-> exists lH M, is_oaep bits lH M (be_bytes (bits / 8) m)) /\
    (ok = false -> len = -1) /\
    forall lH M, is_oaep bits lH M (be_bytes (bits / 8) m) ->
      len = Z.of_nat (length M) /\
      RSAES_OAEP_Dec hm hg x0 (length M) = (x1, true, M) /\
      (M <> [] -> RSAES_OAEP_Dec hm hg x1 (length M) = (x1, true, M)) /\
      forall label, bytes_ok label -> Z.of_nat (length label) < lim ->
        snd (RSAES_OAEP_TestLabel hm hg x1 label) = true <-> H label = lH.
  Proof.
    intros HH HG Gp bits wm wf key e n x ct m RP (E1 & E2 & E3 & E4 & E5 & Sm & Sg) RM Bc Bm Em x0.
    destruct (decrypts hm hg bits wm wf key e n x ct m RP E1 E2 E3 E4 E5 Bc Bm Em) as [CA DE]. fold x0 in CA, DE.
    assert (K0 : v_k hm hg x0 = (bits / 8)%nat) by (unfold v_k; cbn [x0 Decode_Ciphertext with_vbuf v_bits]; now rewrite E5).
    pose proof (oaep_core_spec hm hg G lim HG Gp x0 eq_refl CA Sg ltac:(rewrite K0; exact RM) ltac:(rewrite DE; apply be_bytes_ok) ltac:(rewrite DE, K0; apply be_bytes_length)) as CS.
    destruct (core_shape x0) as [CK CH]. cbv zeta in CS. rewrite DE, K0 in CS. unfold RSAES_OAEP_Dec_len. cbv zeta. set (x1 := oaep_core hm hg x0) in *.
    assert (HX1 : v_hmsg x1 = v_hmsg x) by exact CH. rewrite K0 in CK.
    set (em := be_bytes (bits / 8) m) in *.
    destruct CS as [(lH & M & pre & rest & LL & BL & OA & ST & BF & LP & SL)|(ST & NO)].
    - assert (MB : Z.of_nat (length M) < 2 ^ 31) by (destruct RM as [R1 _], OA as [Q1 _]; lia).
      assert (OK : ret_ok (v_status x1) = true) by (apply ret_ok_small; rewrite ST; lia). rewrite OK.
      split; [split; [intros _; exists lH, M; split; [exact LL|split; [exact BL|exact OA]]|reflexivity]|]. split; [discriminate|].
      intros lH' M' (LL' & BL' & OA'). destruct (oaep_unique hm hg G lim HG Gp _ lH M lH' M' em LL BL LL' BL' OA OA') as [<- <-]. clear OA' LL' BL'.
      assert (CO : copy_out hm hg x1 (length M) = M) by (apply (copy_tail hm hg x1 pre M rest BF); [rewrite CK; exact LP|exact ST]).
      split; [exact ST|]. split; [|split].
      + unfold RSAES_OAEP_Dec. cbv zeta. fold x1. now rewrite OK, CO.
      + intros NM. unfold RSAES_OAEP_Dec. cbv zeta.
        assert (C1 : oaep_core hm hg x1 = x1). { unfold oaep_core at 1. rewrite ST. destruct (Z.eqb_spec (Z.of_nat (length M)) 0) as [Z0|_]; [|reflexivity]. destruct M; [contradiction|cbn in Z0; lia]. }
        rewrite C1, OK, CO. reflexivity.
      + intros label Bl Ll. unfold RSAES_OAEP_TestLabel. cbv zeta.
        assert (RF : snd (hi_final hm (hi_update hm (hi_init hm (v_hmsg x1)) label) (hi_out hm)) = H label).
        { rewrite HX1. pose proof (run1 hm H lim HH (v_hmsg x) [label] (hi_out hm) Sm) as X. cbn [fold_left concat] in X. rewrite app_nil_r in X.
          rewrite X; [|constructor; [exact Bl|constructor]|exact Ll]. apply octets_exact. apply (hc_digest _ _ _ HH label Bl). }
        destruct (hi_final hm _ (hi_out hm)) as [hc dg]. cbn [snd] in RF. subst dg. cbn [snd]. rewrite SL.
        destruct (hc_digest _ _ _ HH label Bl) as [DL DB].
        destruct (label_diff_spec lH (H label) 0 BL DB ltac:(lia) ltac:(lia)) as [LD1 LD2]. rewrite (or_fold4_spec _ LD1).
        rewrite Z.lxor_m1_r, Z.lnot_involutive. rewrite and_fold_small by (rewrite ST; lia).
        destruct (Z.eqb_spec (label_diff lH (H label) 0) 0) as [Z0|N0].
        * apply LD2 in Z0. destruct Z0 as [_ <-]. split; reflexivity.
        * split; [discriminate|]. intros X. exfalso. apply N0, LD2. split; [reflexivity|now symmetry].
    - rewrite ST, ret_ok_m1. split; [split; [discriminate|]|].
      + intros (lH & M & LL & BL & OA). exfalso. exact (NO lH M LL BL OA).
      + split; [reflexivity|]. intros lH M (LL & BL & OA). exfalso. exact (NO lH M LL BL OA).
  Qed.

  (** Encryption, with a label or without: the ciphertext is RSA of the OAEP encoding of the secret
      that is handed to the caller; hence (C43_decrypt) it decrypts to that secret. *)
  Theorem C43_encrypt : hash_correct hm H lim -> hash_correct hg G lim -> (0 < hi_out hg)%nat ->
    forall (bits wm wf : nat) (key : rsa_priv) (e n : list Z) (x : pubctx hm hg) (label : option (list Z)) (sslen ctlen : nat) (rnd : nat -> nat -> list Z),
    rsa_pair bits wm wf key e n -> pub_over x bits wm e n -> room lim (bits / 8) -> u_status x <> 2 ->
    match label with None => True | Some l => bytes_ok l /\ Z.of_nat (length l) < lim end ->
    (sslen + 2 * hi_out hm + 2 <= bits / 8)%nat -> (bits <= 8 * ctlen)%nat ->
    bytes_ok (rnd 0%nat sslen) -> length (rnd 0%nat sslen) = sslen -> bytes_ok (rnd 1%nat (hi_out hm)) -> length (rnd 1%nat (hi_out hm)) = hi_out hm ->
    exists C ct, 
      RSAES_OAEP_Enc hm hg (match label with None => x | Some l => RSAES_OAEP_SetLabel hm hg x l end) sslen rnd = Some (rnd 0%nat sslen, Some C) /\
      Encode_Ciphertext hm hg x C ctlen = Some ct /\ bytes_ok ct /\ length ct = ctlen /\
      exists m, 0 <= m < val_le 32 n /\ be_val ct = m ^ val_le 32 e mod val_le 32 n /\
        is_oaep bits (H (match label with None => [] | Some l => l end)) (rnd 0%nat sslen) (be_bytes (bits / 8) m).
  Proof.
    intros HH HG Gp bits wm wf key e n x label sslen ctlen rnd RP (E1 & E2 & E3 & E4 & Sm & Sg & LB) RM NS LBL LEN CTL Bss Lss Bsd Lsd.
    set (lab := match label with None => [] | Some l => l end). set (ss := rnd 0%nat sslen) in *. set (seed := rnd 1%nat (hi_out hm)) in *.
    assert (Blab : bytes_ok lab) by (unfold lab; destruct label; [tauto|constructor]).
    assert (KK : u_k hm hg x = (bits / 8)%nat) by (unfold u_k; now rewrite E4).
    destruct (hc_digest _ _ _ HH lab Blab) as [DL DB].
    set (em := eme_oaep MGF (bits / 8) (H lab) seed ss).
    destruct (eme_oaep_ok hm hg G lim HG Gp (bits / 8) (H lab) seed ss DL DB Bss Bsd Lsd ltac:(lia)) as (Be & Le & Ve). fold MGF in Be, Le, Ve. fold em in Be, Le, Ve.
    assert (B8 : (8 * (bits / 8) <= bits)%nat) by (apply Nat.mul_div_le; lia).
    assert (EN : be_val em < val_le 32 n).
    { pose proof (rp_lo _ _ _ _ _ _ RP) as LO. assert (2 ^ (8 * Z.of_nat (bits / 8) - 8) <= 2 ^ (Z.of_nat bits - 1)) by (apply Z.pow_le_mono_r; lia). lia. }
    destruct (encrypts hm hg bits wm wf key e n x em RP E1 E2 E3 Be EN) as (C & EC & WC & VC).
    assert (BND : 0 <= val_le 32 C < 2 ^ (8 * Z.of_nat ctlen)).
    { rewrite VC. pose proof (be_val_bound em Be). pose proof (Z.mod_pos_bound (be_val em ^ val_le 32 e) (val_le 32 n) ltac:(lia)) as Q. pose proof (rp_hi _ _ _ _ _ _ RP).
      assert (2 ^ Z.of_nat bits <= 2 ^ (8 * Z.of_nat ctlen)) by (apply Z.pow_le_mono_r; lia). lia. }
    exists C, (be_bytes ctlen (val_le 32 C)).
    assert (RUN : RSAES_OAEP_Enc hm hg (match label with None => x | Some l => RSAES_OAEP_SetLabel hm hg x l end) sslen rnd = Some (ss, Some C)).
    { unfold RSAES_OAEP_Enc. destruct label as [l|].
      - assert (RF : snd (hi_final hm (hi_update hm (hi_init hm (u_hmsg x)) l) (hi_out hm)) = H l).
        { pose proof (run1 hm H lim HH (u_hmsg x) [l] (hi_out hm) Sm) as X. cbn [fold_left concat] in X. rewrite app_nil_r in X.
          rewrite X; [|constructor; [tauto|constructor]|tauto]. now apply octets_exact. }
        pose proof (label_block hm hg H lim HH x (hi_update hm (hi_init hm (u_hmsg x)) l) l RF Blab ltac:(lia) ltac:(lia)) as LBK.
        unfold RSAES_OAEP_SetLabel. destruct (oaep_label hm hg x _) as [hc ptr]. cbn [snd] in LBK. subst ptr. cbn [with_ubuf u_status]. change (2 =? 2) with true. cbv iota.
        fold ss seed. set (y := with_ubuf hm hg x 2 hc _). 
        pose proof (oaep_em_spec hm hg G lim HG Gp y (H l) ss seed (skipn (u_k hm hg x) (u_buf x)) Sg DL DB Bss Bsd Lsd) as OE.
        change (u_k hm hg y) with (u_k hm hg x) in OE. fold MGF in OE.
        assert (YB : u_buf y = 0 :: repeat 0 (hi_out hm) ++ (H l ++ repeat 0 (u_k hm hg x - 2 * hi_out hm - 1)) ++ skipn (u_k hm hg x) (u_buf x)) by reflexivity.
        rewrite YB, OE by (rewrite ?KK; try assumption; lia). rewrite KK. change (H l) with (H lab). fold em.
        change (enc_finish hm hg y em) with (enc_finish hm hg x em). now rewrite EC.
      - destruct (Z.eqb_spec (u_status x) 2) as [X|_]; [contradiction|].
        destruct (Z.ltb_spec (u32 (Z.of_nat (u_k hm hg x) - 2 * Z.of_nat (hi_out hm) - 2)) (Z.of_nat sslen)) as [X|_].
        { exfalso. unfold u32 in X. destruct RM as [R1 R2]. rewrite KK, Z.mod_small in X by lia. lia. }
        assert (RF : snd (hi_final hm (hi_init hm (u_hmsg x)) (hi_out hm)) = H []).
        { pose proof (run1 hm H lim HH (u_hmsg x) [] (hi_out hm) Sm) as X. cbn [fold_left concat] in X. rewrite X; [|constructor|destruct RM; cbn; lia]. now apply octets_exact. }
        rewrite (label_block hm hg H lim HH x (hi_init hm (u_hmsg x)) [] RF Blab ltac:(lia) ltac:(lia)).
        fold ss seed. rewrite (oaep_em_spec hm hg G lim HG Gp x (H []) ss seed (skipn (u_k hm hg x) (u_buf x)) Sg DL DB Bss Bsd Lsd) by (rewrite KK; try assumption; lia).
        rewrite KK. fold MGF. change (H []) with (H lab). fold em. now rewrite EC. }
    split; [exact RUN|]. split.
    { unfold Encode_Ciphertext. rewrite E4. destruct (Nat.ltb_spec (ctlen * 8) bits); [lia|]. f_equal. now apply I2OSP_spec. }
    split; [apply be_bytes_ok|]. split; [apply be_bytes_length|]. exists (be_val em). pose proof (be_val_bound em Be).
    split; [lia|]. split; [rewrite be_val_be_bytes, Z.mod_small by exact BND; exact VC|].
    split; [exact DL|]. split; [exact DB|].
    assert (EE : be_bytes (bits / 8) (be_val em) = em) by (rewrite <- Le; now apply be_bytes_be_val). rewrite EE.
    split; [lia|]. split; [exact Bss|]. exists seed. split; [lia|]. split; [exact Bsd|reflexivity].
  Qed.

  (** The length check is not one: after a label has been set there is none, and a key too short
      for the hash makes the bound wrap around. *)
  Theorem C43_length_check_refuted : forall (x : pubctx hm hg) (rnd : nat -> nat -> list Z),
    (forall label sslen, RSAES_OAEP_Enc hm hg (RSAES_OAEP_SetLabel hm hg x label) sslen rnd <> None) /\
    (Z.of_nat (hi_out hm) < 2 ^ 29 -> (u_k hm hg x < 2 * hi_out hm + 2)%nat -> forall sslen, Z.of_nat sslen < 2 ^ 31 - 2 -> RSAES_OAEP_Enc hm hg x sslen rnd <> None).
  Proof. clear MGF H G lim.
    intros x rnd. split.
    - intros label sslen. unfold RSAES_OAEP_Enc, RSAES_OAEP_SetLabel. destruct (oaep_label hm hg x _) as [hc ptr]. cbn [with_ubuf u_status]. discriminate.
    - intros LH K sslen LS. unfold RSAES_OAEP_Enc. destruct (u_status x =? 2); [discriminate|].
      destruct (Z.ltb_spec (u32 (Z.of_nat (u_k hm hg x) - 2 * Z.of_nat (hi_out hm) - 2)) (Z.of_nat sslen)) as [X|_]; [|discriminate].
      exfalso. unfold u32 in X. rewrite <- (Z_mod_plus_full _ 1), Z.mod_small in X by lia. lia.
  Qed.

  (** * C44 *)
  Theorem C44_decrypt : 
    forall (bits wm wf : nat) (key : rsa_priv) (e n : list Z) (x : privctx hm hg) (ct : list Z) (m : Z),
    rsa_pair bits wm wf key e n -> priv_over x bits wm wf key n -> room lim (bits / 8) -> (16 <= bits)%nat ->
    bytes_ok ct -> 0 <= m < val_le 32 n -> be_val ct = m ^ val_le 32 e mod val_le 32 n ->
    let x0 := Decode_Ciphertext hm hg x ct in
    let '(x1, ok, len) := RSAEncryption_Dec_len hm hg x0 in
    (ok = true <-> exists M, v15_of (bits / 8) M (be_bytes (bits / 8) m)) /\
    (ok = false -> len = -1) /\
    forall M, v15_of (bits / 8) M (be_bytes (bits / 8) m) ->
      len = Z.of_nat (length M) /\
      RSAEncryption_Dec hm hg x0 (length M) = (x1, true, M) /\
      (M <> [] -> RSAEncryption_Dec hm hg x1 (length M) = (x1, true, M)).
  Proof. clear MGF H G.
    intros bits wm wf key e n x ct m RP (E1 & E2 & E3 & E4 & E5 & Sm & Sg) RM B16 Bc Bm Em x0.
    destruct (decrypts hm hg bits wm wf key e n x ct m RP E1 E2 E3 E4 E5 Bc Bm Em) as [CA DE]. fold x0 in CA, DE.
    assert (K0 : v_k hm hg x0 = (bits / 8)%nat) by (unfold v_k; cbn [x0 Decode_Ciphertext with_vbuf v_bits]; now rewrite E5).
    assert (K2 : (2 <= bits / 8)%nat) by (apply Nat.div_le_lower_bound; lia).
    pose proof (v15_core_spec hm hg lim x0 eq_refl CA ltac:(rewrite K0; exact RM) ltac:(rewrite K0; exact K2) ltac:(rewrite DE; apply be_bytes_ok) ltac:(rewrite DE, K0; apply be_bytes_length)) as CS.
    pose proof (core15_shape x0) as CK. cbv zeta in CS. rewrite DE, K0 in CS. unfold RSAEncryption_Dec_len. cbv zeta. set (x1 := v15_core hm hg x0) in *. rewrite K0 in CK.
    set (em := be_bytes (bits / 8) m) in *.
    destruct CS as [(M & pre & rest & OA & ST & BF & LP)|(ST & NO)].
    - assert (MB : Z.of_nat (length M) < 2 ^ 31). { destruct RM as [R1 _]. rewrite app_length in LP. lia. }
      assert (OK : ret_ok (v_status x1) = true) by (apply ret_ok_small; rewrite ST; lia). rewrite OK.
      split; [split; [intros _; exists M; exact OA|reflexivity]|]. split; [discriminate|].
      intros M' OA'.
      assert (MM : M' = M).
      { destruct OA as (_ & P & _ & _ & F & E & _), OA' as (_ & P' & _ & _ & F' & E' & _). rewrite E in E'. cbn [app] in E'. injection E' as E'. clear - F F' E'.
        revert P' E' F'. induction F as [|b P Nb F IH]; intros [|b' P'] E' F'; cbn in E'; [congruence| | |].
        - exfalso. injection E' as E' _. inversion F'. congruence.
        - exfalso. injection E' as E' _. congruence.
        - injection E' as -> E'. inversion F'. now apply (IH P'). }
      subst M'. clear OA'.
      assert (CO : copy_out hm hg x1 (length M) = M) by (apply (copy_tail hm hg x1 pre M rest BF); [rewrite CK; exact LP|exact ST]).
      split; [exact ST|]. split.
      + unfold RSAEncryption_Dec. cbv zeta. fold x1. now rewrite OK, CO.
      + intros NM. unfold RSAEncryption_Dec. cbv zeta.
        assert (C1 : v15_core hm hg x1 = x1). { unfold v15_core at 1. rewrite ST. destruct (Z.eqb_spec (Z.of_nat (length M)) 0) as [Z0|_]; [|reflexivity]. destruct M; [contradiction|cbn in Z0; lia]. }
        rewrite C1, OK, CO. reflexivity.
    - rewrite ST, ret_ok_m1. split; [split; [discriminate|]|].
      + intros (M & OA). exfalso. exact (NO M OA).
      + split; [reflexivity|]. intros M OA. exfalso. exact (NO M OA).
  Qed.

  (** Encryption.  Missing from the full claim: rng outputs with a zero octet (see
      C44_zero_draw_refuted); the padding makes 1 + (k - sslen - 3) / 2 calls, the secret is the next. *)
  Theorem C44_encrypt_partial : 
    forall (bits wm wf : nat) (key : rsa_priv) (e n : list Z) (x : pubctx hm hg) (sslen ctlen : nat) (rnd : nat -> nat -> list Z),
    rsa_pair bits wm wf key e n -> pub_over x bits wm e n ->
    (sslen + 11 <= bits / 8)%nat -> (bits <= 8 * ctlen)%nat ->
    let calls := (1 + (bits / 8 - sslen - 3) / 2)%nat in
    (forall i len, (i < calls)%nat -> (len <= bits / 8)%nat -> length (rnd i len) = len /\ bytes_ok (rnd i len) /\ Forall (fun b => b <> 0) (rnd i len)) ->
    bytes_ok (rnd calls sslen) -> length (rnd calls sslen) = sslen ->
    exists em C ct, RSAEncryption_Enc hm hg x sslen rnd = Some (Some (rnd calls sslen, em, Some C)) /\
      Encode_Ciphertext hm hg x C ctlen = Some ct /\ bytes_ok ct /\ length ct = ctlen /\
      exists m, 0 <= m < val_le 32 n /\ be_val ct = m ^ val_le 32 e mod val_le 32 n /\
        v15_of (bits / 8) (rnd calls sslen) (be_bytes (bits / 8) m).
  Proof. clear MGF H G lim.
    intros bits wm wf key e n x sslen ctlen rnd RP (E1 & E2 & E3 & E4 & Sm & Sg & LB) LEN CTL calls D Bss Lss.
    assert (KK : u_k hm hg x = (bits / 8)%nat) by (unfold u_k; now rewrite E4).
    destruct (v15_enc_spec hm hg x sslen rnd) as (em & RUN & V); try (rewrite ?KK; assumption || lia).
    { rewrite KK. intros j Hj m Hm. destruct (D j m) as (D1 & D2 & D3); [unfold calls; lia|lia|]. split; [exact D1|]. apply Forall_forall. intros b Hb.
      rewrite Forall_forall in D3. unfold bytes_ok in D2. rewrite Forall_forall in D2. split; auto. }
    rewrite KK in RUN, V. fold calls in RUN, V. pose proof V as (_ & PS & P1 & P2 & P3 & P4 & P5).
    assert (Be : bytes_ok em). { rewrite P4. repeat (apply Forall_app; split); auto; repeat (constructor; [unfold byte_ok; lia|]); constructor. }
    assert (B8 : (8 * (bits / 8) <= bits)%nat) by (apply Nat.mul_div_le; lia).
    assert (EN : be_val em < val_le 32 n).
    { pose proof (rp_lo _ _ _ _ _ _ RP) as LO. assert (2 ^ (8 * Z.of_nat (bits / 8) - 8) <= 2 ^ (Z.of_nat bits - 1)) by (apply Z.pow_le_mono_r; lia).
      assert (be_val em < 2 ^ (8 * Z.of_nat (bits / 8) - 8)); [|lia]. rewrite P4 in Be, P5 |- *. change ([0; 2] ++ PS ++ [0] ++ rnd calls sslen) with ([0] ++ (2 :: PS ++ [0] ++ rnd calls sslen)) in *.
      apply Forall_app in Be. destruct Be as [_ Be]. rewrite be_val_app. change (be_val [0]) with 0. rewrite Z.mul_0_l. pose proof (be_val_bound _ Be) as Q. rewrite app_length in P5.
      set (t := 2 :: PS ++ [0] ++ rnd calls sslen) in *. cbn [length] in P5. replace (8 * Z.of_nat (bits / 8) - 8) with (8 * Z.of_nat (length t)) by lia. lia. }
    destruct (encrypts hm hg bits wm wf key e n x em RP E1 E2 E3 Be EN) as (C & EC & WC & VC).
    assert (BND : 0 <= val_le 32 C < 2 ^ (8 * Z.of_nat ctlen)).
    { rewrite VC. pose proof (be_val_bound em Be). pose proof (Z.mod_pos_bound (be_val em ^ val_le 32 e) (val_le 32 n) ltac:(lia)) as Q. pose proof (rp_hi _ _ _ _ _ _ RP).
      assert (2 ^ Z.of_nat bits <= 2 ^ (8 * Z.of_nat ctlen)) by (apply Z.pow_le_mono_r; lia). lia. }
    exists em, C, (be_bytes ctlen (val_le 32 C)). rewrite EC in RUN. split; [exact RUN|]. split.
    { unfold Encode_Ciphertext. rewrite E4. destruct (Nat.ltb_spec (ctlen * 8) bits); [lia|]. f_equal. now apply I2OSP_spec. }
    split; [apply be_bytes_ok|]. split; [apply be_bytes_length|]. exists (be_val em). pose proof (be_val_bound em Be).
    split; [lia|]. split; [rewrite be_val_be_bytes, Z.mod_small by exact BND; exact VC|].
    assert (EE : be_bytes (bits / 8) (be_val em) = em) by (rewrite <- P5; now apply be_bytes_be_val). rewrite EE. exact V.
  Qed.

  (** One zero octet from the rng, in a 96-bit example: with zeros behind the padding, Enc reads on
      past the end of the buffer; with other octets there, one of them ends up in the padding,
      although the rng delivered only zeros and ones. *)
  Definition one_zero (i len : nat) : list Z := match i with O => 0 :: repeat 1 (len - 1) | _ => repeat 1 len end.
  Theorem C44_zero_draw_refuted : forall (x : pubctx hm hg), u_bits x = 96%nat ->
    (u_buf x = repeat 0 16 -> RSAEncryption_Enc hm hg x 1 one_zero = None) /\
    (u_buf x = repeat 7 16 -> exists C, RSAEncryption_Enc hm hg x 1 one_zero = Some (Some ([1], [0; 2; 1; 1; 1; 1; 1; 1; 1; 7; 0; 1], C))).
  Proof. clear MGF H G lim.
    intros x B. unfold RSAEncryption_Enc, u_k. rewrite B. cbv zeta. change (96 / 8 <? 1 + 11)%nat with false. cbv iota. split; intros E; rewrite E.
    - match goal with |- match ?q with _ => _ end = _ => assert (Q : q = None) by (vm_compute; reflexivity); rewrite Q end. reflexivity.
    - match goal with |- exists C, match ?q with _ => _ end = _ => assert (Q : q = Some ([0; 2; 1; 1; 1; 1; 1; 1; 1; 7; 0; 7; 7; 7; 7; 7], 6%nat)) by (vm_compute; reflexivity); rewrite Q end.
      eexists. reflexivity.
  Qed.
End WithHash.
Print Assumptions C43_decrypt.
Print Assumptions C43_encrypt.
Print Assumptions C43_length_check_refuted.
Print Assumptions C44_decrypt.
Print Assumptions C44_encrypt_partial.
Print Assumptions C44_zero_draw_refuted.

(** * Concrete cases *)
(** A one-octet checksum in place of the hash, so that the keys can be small. *)
Definition toyH (m : list Z) : list Z := [(fold_right Z.add 0 m * 7 + 5) mod 256].
Definition toy_impl : hash_impl := {|
  hi_ctx := list Z; hi_init := fun _ => []; hi_update := @app Z; hi_final := fun c t => (c, octets t (toyH c));
  hi_block := 1; hi_out := 1; hi_shape := fun _ => True |}.
Lemma toy_correct : hash_correct toy_impl toyH (2 ^ 40).
Proof.
  constructor; cbn [toy_impl hi_shape hi_init hi_update hi_final hi_ctx hi_out]; auto.
  - intros m _. split; [reflexivity|]. repeat constructor; apply Z.mod_pos_bound; lia.
  - intros c chunks ts _ _ _.
    assert (F : forall chunks c, fold_left (@app Z) chunks c = c ++ concat chunks).
    { clear. induction chunks as [|d l IH]; intros c; cbn [fold_left concat]; [now rewrite app_nil_r|]. now rewrite IH, app_assoc. }
    rewrite (F chunks []). cbn [app]. induction ts as [|t ts IH]; cbn [hi_finals map]; [reflexivity|]. cbn. f_equal. exact IH.
Qed.
Definition mkp (a : Z * Z * Z) : rsa_prime := let '(r, d, t) := a in {| r_ := [r]; d_ := [d]; t_ := [t] |}.
Lemma mk_pair bits wm wf q dq (l : list (Z * Z * Z)) (e : Z) (n : list Z) (k : rsa_priv) :
  k = {| key_q := [q]; key_dQ := [dq]; key_rest := map mkp l |} ->
  (2 <= wf)%nat -> word_ok e -> words_ok n -> (length n <= wm)%nat -> vval n * 2 ^ 32 <= 2 ^ (32 * Z.of_nat wm) ->
  Forall (fun a => let '(r, d, t) := a in prime r /\ word_ok r /\ word_ok d /\ word_ok t /\ 0 < d /\ (r - 1 | e * d - 1)) ((q, dq, 1) :: l) ->
  NoDup (q :: map (fun a => let '(r, d, t) := a in r) l) ->
  coeffs_ok q (map mkp l) -> vval n = q * prodZ (map (fun a => let '(r, d, t) := a in r) l) -> 0 < e ->
  2 ^ (Z.of_nat bits - 1) <= vval n < 2 ^ Z.of_nat bits -> rsa_pair bits wm wf k [e] n.
Proof.
  intros -> W2 We Wn Ln Rm F ND CO VN Pe [B1 B2].
  assert (V1 : forall v, vval [v] = v) by (intros v; cbn; ring).
  assert (RV : rvals (map mkp l) = map (fun a => let '(r, d, t) := a in r) l).
  { unfold rvals. rewrite map_map. apply map_ext. intros [[r d] t]. cbn [mkp r_]. apply V1. }
  assert (W1 : forall v, word_ok v -> words_ok [v]) by (intros v Hv; constructor; [exact Hv|constructor]).
  assert (FT : forall r, prime r -> word_ok r -> fits wf [r]).
  { intros r Pr Wr. split; [now apply W1|]. split; [cbn; lia|]. rewrite V1. split; [pose proof (prime_ge_2 r Pr); lia|].
    unfold word_ok in Wr. assert (2 ^ 64 <= 2 ^ (32 * Z.of_nat wf)) by (apply Z.pow_le_mono_r; lia). change (2 ^ 64) with (2 ^ 32 * 2 ^ 32) in H. change (2 ^ 32) with 4294967296 in *. lia. }
  inversion F as [|? ? Q FL]. subst. cbv beta iota in Q. destruct Q as (Q1 & Q2 & Q3 & Q4 & Q5 & Q6).
  constructor; cbn [key_q key_dQ key_rest]; rewrite ?V1, ?RV; auto.
  - unfold key_fits. cbn [key_q key_dQ key_rest]. rewrite V1, RV. split; [lia|]. split; [now apply FT|]. split; [now apply W1|]. split; [cbn; lia|]. split.
    + apply Forall_map. revert FL. apply Forall_impl. intros [[r d] t] (A1 & A2 & A3 & A4 & A5 & A6). unfold prime_ok. cbn [mkp r_ d_ t_].
      split; [now apply FT|]. split; [now apply W1|]. split; [cbn; lia|]. split; [now apply W1|]. cbn; lia.
    + rewrite <- VN. assert (1 <= 2 ^ 32) by (cbn; lia). assert (0 <= 2 ^ (Z.of_nat bits - 1)) by (apply Z.pow_nonneg; lia).
      assert (0 < vval n). { rewrite VN. apply Z.mul_pos_pos; [pose proof (prime_ge_2 q Q1); lia|]. clear - FL. induction FL as [|[[r d] t] l (A & _) FL IH]; cbn; [lia|]. pose proof (prime_ge_2 r A). apply Z.mul_pos_pos; [lia|exact IH]. }
      change (2 ^ 32) with 4294967296 in *. lia.
  - constructor; [exact Q1|]. apply Forall_map. revert FL. apply Forall_impl. intros [[r d] t]. tauto.
  - apply Forall_map. revert FL. apply Forall_impl. intros [[r d] t]. cbn [mkp r_ d_]. rewrite !V1. tauto.
  - apply Forall_map. revert FL. apply Forall_impl. intros [[r d] t]. cbn [mkp d_]. rewrite !V1. tauto.
Qed.
Ltac key_tac := 
  repeat match goal with |- Forall _ (_ :: _) => apply Forall_cons; [split; [apply Pocklington.small_prime; vm_compute; reflexivity|split; [unfold word_ok; lia|split; [unfold word_ok; lia|split; [unfold word_ok; lia|split; [lia|apply Z.mod_divide; [discriminate|reflexivity]]]]]]|] end; apply Forall_nil.

(** OAEP: a 40-bit modulus of five primes, e = 11. *)
Definition ex_l : list (Z * Z * Z) := [(241, 131, 217); (239, 65, 10); (233, 211, 209); (229, 83, 185)].
Definition ex_key : rsa_priv := {| key_q := [251]; key_dQ := [91]; key_rest := map mkp ex_l |}.
Definition ex_n : list Z := [771400770593 mod 2 ^ 32; 771400770593 / 2 ^ 32].
Lemma ex_pair : rsa_pair 40 3 2 ex_key [11] ex_n.
Proof.
  apply (mk_pair 40 3 2 251 91 ex_l 11 ex_n ex_key eq_refl); try (cbn; lia).
  - unfold word_ok. cbn. lia.
  - repeat (apply Forall_cons; [unfold word_ok; cbn; lia|]). apply Forall_nil.
  - unfold ex_l. key_tac.
  - cbn. repeat constructor; cbn; lia.
Qed.
Definition ex_priv : privctx toy_impl toy_impl := Build_privctx toy_impl toy_impl (-1) [] [] 40 ex_n ex_key 3 2 [].
Definition ex_pub : pubctx toy_impl toy_impl := Build_pubctx toy_impl toy_impl 0 [] [] 40 ex_n [11] 3 (repeat 0 12).
(** The message [255] under the label [1; 2]. *)
Definition ex_em : list Z := eme_oaep (rfc_mgf1 toyH 1) 5 (toyH [1; 2]) [77] [255].
Definition ex_ct : list Z := be_bytes 5 (be_val ex_em ^ 11 mod 771400770593).
Lemma ex_valid : is_oaep toy_impl toy_impl toyH 40 (toyH [1; 2]) [255] (be_bytes 5 (be_val ex_em)).
Proof.
  assert (E : be_bytes 5 (be_val ex_em) = ex_em) by (vm_compute; reflexivity). rewrite E. split; [reflexivity|]. split; [vm_compute; repeat constructor; discriminate|].
  split; [cbn; lia|]. split; [repeat constructor; lia|]. exists [77]. split; [reflexivity|]. split; [repeat constructor; lia|]. reflexivity.
Qed.
Lemma ex_room : room (2 ^ 40) (40 / 8). Proof. split; cbn; lia. Qed.
Lemma ex_over : priv_over ex_priv 40 3 2 ex_key ex_n. Proof. repeat split. Qed.
Example C43_decrypt_nonvacuous : let x0 := Decode_Ciphertext _ _ ex_priv ex_ct in
  snd (RSAES_OAEP_Dec_len _ _ x0) = 1 /\ snd (RSAES_OAEP_Dec _ _ x0 1) = [255] /\
  snd (RSAES_OAEP_TestLabel _ _ (fst (fst (RSAES_OAEP_Dec_len _ _ x0))) [1; 2]) = true /\
  snd (RSAES_OAEP_TestLabel _ _ (fst (fst (RSAES_OAEP_Dec_len _ _ x0))) [1; 3]) = false.
Proof.
  cbv zeta. pose proof (C43_decrypt toy_impl toy_impl toyH toyH (2 ^ 40) toy_correct toy_correct (le_n 1) 40 3 2 ex_key [11] ex_n ex_priv ex_ct (be_val ex_em)
    ex_pair ex_over ex_room ltac:(apply be_bytes_ok) ltac:(vm_compute; split; [discriminate|reflexivity]) ltac:(vm_compute; reflexivity)) as C. cbv zeta in C.
  destruct (RSAES_OAEP_Dec_len _ _ _) as [[x1 ok] len]. destruct C as (_ & _ & C). destruct (C _ _ ex_valid) as (C1 & C2 & _ & C4). cbn [fst snd].
  assert (B : forall a b, byte_ok a -> byte_ok b -> bytes_ok [a; b]) by (intros; repeat (apply Forall_cons; [assumption|]); apply Forall_nil).
  split; [exact C1|]. split; [now rewrite (C2 : RSAES_OAEP_Dec _ _ _ 1 = _)|]. split.
  - apply C4; [apply B; unfold byte_ok; lia|cbn; lia|reflexivity].
  - apply not_true_is_false. intros X. apply C4 in X; [discriminate X|apply B; unfold byte_ok; lia|cbn; lia].
Qed.
Definition ex_rnd (i len : nat) : list Z := repeat (255 - 178 * Z.of_nat i) len.
Example C43_encrypt_nonvacuous : pub_over ex_pub 40 3 [11] ex_n /\ u_status ex_pub <> 2 /\ (1 + 2 * 1 + 2 <= 40 / 8)%nat /\
  exists C ct, RSAES_OAEP_Enc _ _ (RSAES_OAEP_SetLabel _ _ ex_pub [1; 2]) 1 ex_rnd = Some ([255], Some C) /\
    Encode_Ciphertext _ _ ex_pub C 5 = Some ct /\ length ct = 5%nat /\
    snd (RSAES_OAEP_Dec _ _ (Decode_Ciphertext _ _ ex_priv ct) 1) = [255].
Proof.
  assert (PO : pub_over ex_pub 40 3 [11] ex_n) by (repeat split; cbn; lia).
  split; [exact PO|]. split; [discriminate|]. split; [cbn; lia|].
  destruct (C43_encrypt toy_impl toy_impl toyH toyH (2 ^ 40) toy_correct toy_correct (le_n 1) 40 3 2 ex_key [11] ex_n ex_pub (Some [1; 2]) 1 5 ex_rnd
    ex_pair PO ex_room ltac:(discriminate)) as (C & ct & R1 & R2 & B & L & m & Bm & Em & V).
  - split; [repeat (apply Forall_cons; [unfold byte_ok; lia|]); apply Forall_nil|cbn; lia].
  - cbn. lia.
  - cbn. lia.
  - repeat constructor; cbn; lia.
  - reflexivity.
  - repeat constructor; cbn; lia.
  - reflexivity.
  - exists C, ct. split; [exact R1|]. split; [exact R2|]. split; [exact L|].
    pose proof (C43_decrypt toy_impl toy_impl toyH toyH (2 ^ 40) toy_correct toy_correct (le_n 1) 40 3 2 ex_key [11] ex_n ex_priv ct m ex_pair ex_over ex_room B Bm Em) as D. cbv zeta in D.
    destruct (RSAES_OAEP_Dec_len _ _ _) as [[x1 ok] len]. destruct D as (_ & _ & D). destruct (D _ _ V) as (_ & D2 & _). now rewrite (D2 : RSAES_OAEP_Dec _ _ _ 1 = _).
Qed.

(** A correct label spoils what was decrypted: after RSAES_OAEP_TestLabel has said yes, the next
    RSAES_OAEP_Dec takes the decrypted block for a ciphertext.  Here it then reports a failure. *)
Theorem C43_label_then_dec_refuted : let x0 := Decode_Ciphertext toy_impl toy_impl ex_priv ex_ct in
  let '(x1, ok, len) := RSAES_OAEP_Dec_len toy_impl toy_impl x0 in
  ok = true /\ len = 1 /\ snd (RSAES_OAEP_Dec toy_impl toy_impl x1 1) = [255] /\
  let '(x2, yes) := RSAES_OAEP_TestLabel toy_impl toy_impl x1 [1; 2] in
  yes = true /\ snd (fst (RSAES_OAEP_Dec toy_impl toy_impl x2 1)) = false.
Proof.
  cbv zeta. destruct (decrypts toy_impl toy_impl 40 3 2 ex_key [11] ex_n ex_priv ex_ct (be_val ex_em) ex_pair eq_refl eq_refl eq_refl eq_refl eq_refl
    ltac:(apply be_bytes_ok) ltac:(vm_compute; split; [discriminate|reflexivity]) ltac:(vm_compute; reflexivity)) as [CA DE].
  set (x0 := Decode_Ciphertext _ _ _ _) in *. change (40 / 8)%nat with 5%nat in DE.
  assert (X1 : oaep_core toy_impl toy_impl x0 = with_vbuf toy_impl toy_impl x0 1 ([0; 77] ++ toyH [1; 2] ++ [1; 255] ++ skipn 5 (v_buf x0))).
  { unfold oaep_core. change (negb (v_status x0 =? 0)) with false. cbv iota. cbv zeta. rewrite CA, DE.
    change (v_hmgf x0) with ([] : list Z). change (v_k toy_impl toy_impl x0) with 5%nat. generalize (skipn 5 (v_buf x0)). intros r.
    match goal with |- (if ?b then _ else _) = _ => change b with false end. cbv iota.
    unfold with_vbuf. f_equal; vm_compute; reflexivity. }
  unfold RSAES_OAEP_Dec_len. rewrite X1. set (x1 := with_vbuf _ _ _ _ _).
  assert (R0 : skipn 5 (v_buf x0) = repeat 0 7) by (vm_compute; reflexivity).
  split; [reflexivity|]. split; [reflexivity|]. split; [unfold x1; rewrite R0; vm_compute; reflexivity|].
  unfold x1. rewrite R0.
  assert (TL : RSAES_OAEP_TestLabel toy_impl toy_impl (with_vbuf toy_impl toy_impl x0 1 ([0; 77] ++ toyH [1; 2] ++ [1; 255] ++ repeat 0 7)) [1; 2] = (with_vbuf toy_impl toy_impl x0 0 ([0; 77] ++ toyH [1; 2] ++ [1; 255] ++ repeat 0 7), true)).
  { unfold RSAES_OAEP_TestLabel, with_vbuf. vm_compute. reflexivity. }
  rewrite TL. split; [reflexivity|]. vm_compute. reflexivity.
Qed.
Print Assumptions C43_label_then_dec_refuted.

(** PKCS1-v1_5: a 101-bit modulus of thirteen primes, e = 13. *)
Definition ex_l15 : list (Z * Z * Z) := [(241, 37, 217); (239, 55, 10); (233, 125, 209); (229, 193, 185); (227, 87, 172); (223, 205, 133); (211, 97, 72); (199, 61, 153); (197, 181, 95); (193, 133, 134); (191, 117, 52); (181, 97, 125)].
Definition ex_key15 : rsa_priv := {| key_q := [251]; key_dQ := [77]; key_rest := map mkp ex_l15 |}.
Definition ex_n15 : list Z := [3996065639; 1000808681; 867953985; 27].
Lemma ex_pair15 : rsa_pair 101 5 2 ex_key15 [13] ex_n15.
Proof.
  assert (VN : vval ex_n15 = 2155171312918486894641801011047) by (vm_compute; reflexivity).
  apply (mk_pair 101 5 2 251 77 ex_l15 13 ex_n15 ex_key15 eq_refl).
  - lia.
  - unfold word_ok; lia.
  - repeat (apply Forall_cons; [unfold word_ok; lia|]). apply Forall_nil.
  - cbn [length ex_n15]. lia.
  - rewrite VN. vm_compute. discriminate.
  - unfold ex_l15. key_tac.
  - cbn [map ex_l15]. repeat (constructor; [intros K; cbn [In] in K; intuition discriminate|]). constructor.
  - vm_compute. repeat split; reflexivity.
  - rewrite VN. vm_compute. reflexivity.
  - lia.
  - rewrite VN. split; vm_compute; [discriminate|reflexivity].
Qed.
Definition ex_priv15 : privctx toy_impl toy_impl := Build_privctx toy_impl toy_impl (-1) [] [] 101 ex_n15 ex_key15 5 2 [].
Definition ex_pub15 : pubctx toy_impl toy_impl := Build_pubctx toy_impl toy_impl 0 [] [] 101 ex_n15 [13] 5 (repeat 0 20).
Definition ex_rnd15 (i len : nat) : list Z := repeat (40 + Z.of_nat (i mod 8)) len.
Lemma ex_rnd15_ok i len : length (ex_rnd15 i len) = len /\ bytes_ok (ex_rnd15 i len) /\ Forall (fun b => b <> 0) (ex_rnd15 i len).
Proof.
  pose proof (Nat.mod_upper_bound i 8 ltac:(lia)) as B. split; [apply repeat_length|]. unfold bytes_ok. rewrite !Forall_forall. split; intros b Hb; apply repeat_spec in Hb; unfold byte_ok; lia.
Qed.
Example C44_nonvacuous : pub_over ex_pub15 101 5 [13] ex_n15 /\ priv_over ex_priv15 101 5 2 ex_key15 ex_n15 /\
  exists em C ct, RSAEncryption_Enc _ _ ex_pub15 1 ex_rnd15 = Some (Some ([45], em, Some C)) /\ Encode_Ciphertext _ _ ex_pub15 C 13 = Some ct /\
    snd (RSAEncryption_Dec_len _ _ (Decode_Ciphertext _ _ ex_priv15 ct)) = 1 /\ snd (RSAEncryption_Dec _ _ (Decode_Ciphertext _ _ ex_priv15 ct) 1) = [45].
Proof.
  assert (PO : pub_over ex_pub15 101 5 [13] ex_n15) by (repeat split; cbn; lia).
  assert (VO : priv_over ex_priv15 101 5 2 ex_key15 ex_n15) by (repeat split).
  split; [exact PO|]. split; [exact VO|].
  destruct (C44_encrypt_partial toy_impl toy_impl 101 5 2 ex_key15 [13] ex_n15 ex_pub15 1 13 ex_rnd15 ex_pair15 PO ltac:(cbn; lia) ltac:(lia)) as (em & C & ct & R1 & R2 & B & L & m & Bm & Em & V).
  - intros i len _ _. apply ex_rnd15_ok.
  - apply ex_rnd15_ok.
  - apply ex_rnd15_ok.
  - exists em, C, ct. split; [exact R1|]. split; [exact R2|].
    pose proof (C44_decrypt toy_impl toy_impl (2 ^ 40) 101 5 2 ex_key15 [13] ex_n15 ex_priv15 ct m ex_pair15 VO ltac:(split; cbn; lia) ltac:(lia) B Bm Em) as D. cbv zeta in D.
    destruct (RSAEncryption_Dec_len _ _ _) as [[x1 ok] len]. destruct D as (_ & _ & D). destruct (D _ V) as (D1 & D2 & _). split; [exact D1|]. now rewrite (D2 : RSAEncryption_Dec _ _ _ 1 = _).
Qed.
