(** CMAC refines SP 800-38B. *)
From Verif Require Import Base Blocks HashSpec HashLemmas MdLemmas DerLemmas SpongeSpec SpongeLemmas Mac MacSpec.

(** i-th octet of a big-endian encoding / digit of a big-endian number *)
Lemma nth_be_bytes n v i : (i < n)%nat -> nthZ i (be_bytes n v) = (v / 2 ^ (8 * Z.of_nat (n - 1 - i))) mod 2 ^ 8.
Proof.
  intros H. unfold be_bytes, nthZ. rewrite rev_nth by now rewrite to_le_length. rewrite to_le_length.
  fold (nthZ (n - S i) (to_le 8 n v)). rewrite nth_to_le by lia. do 4 f_equal. lia.
Qed.
Lemma be_val_digit K i : bytes_ok K -> (i < length K)%nat ->
  nthZ i K = (be_val K / 2 ^ (8 * Z.of_nat (length K - 1 - i))) mod 2 ^ 8.
Proof. intros B H. rewrite <- nth_be_bytes by auto. now rewrite be_bytes_be_val. Qed.
Lemma lxor_mod a b n : 0 <= n -> Z.lxor a b mod 2 ^ n = Z.lxor (a mod 2 ^ n) (b mod 2 ^ n).
Proof.
  intros H. rewrite <- !Z.land_ones by auto. apply Z.bits_inj'. intros k Hk.
  rewrite !Z.land_spec, !Z.lxor_spec, !Z.land_spec. destruct (Z.testbit a k), (Z.testbit b k), (Z.testbit (Z.ones n) k); reflexivity.
Qed.
Lemma lxor_div a b n : 0 <= n -> Z.lxor a b / 2 ^ n = Z.lxor (a / 2 ^ n) (b / 2 ^ n).
Proof. intros H. rewrite <- !Z.shiftr_div_pow2 by auto. apply Z.shiftr_lxor. Qed.

Lemma nthZ_map_seq f n i : (i < n)%nat -> nthZ i (map f (seq 0 n)) = f i.
Proof.
  intros H. unfold nthZ. rewrite (nth_indep _ 0 (f 0%nat)) by (rewrite map_length, seq_length; lia).
  rewrite map_nth, seq_nth by lia. reflexivity.
Qed.
Lemma mod_div_mod a n j w : 0 <= j -> 0 <= w -> j + w <= n -> (a mod 2 ^ n) / 2 ^ j mod 2 ^ w = a / 2 ^ j mod 2 ^ w.
Proof.
  intros Hj Hw Hn. apply Z.bits_inj'. intros k Hk. destruct (Z.lt_ge_cases k w).
  - rewrite !Z.mod_pow2_bits_low, !Z.div_pow2_bits, Z.mod_pow2_bits_low by lia. reflexivity.
  - rewrite !Z.mod_pow2_bits_high by lia. reflexivity.
Qed.

Lemma cmac_shift_spec K : bytes_ok K -> length K = 16%nat -> cmac_shift K = be_bytes 16 (dbl128 (be_val K)).
Proof.
  intros B L. set (x := be_val K).
  assert (X : 0 <= x < 2 ^ 128) by (unfold x; pose proof (be_val_bound K B) as P; rewrite L in P; exact P).
  assert (D : forall i, (i < 16)%nat -> nthZ i K = (x / 2 ^ (8 * Z.of_nat (15 - i))) mod 2 ^ 8).
  { intros i Hi. unfold x. rewrite be_val_digit by (auto; lia). now rewrite L. }
  assert (TB : Z.shiftr (nthZ 0 K) 7 = if 2 ^ 127 <=? x then 1 else 0).
  { rewrite D by lia. rewrite Z.shiftr_div_pow2 by lia. change (8 * Z.of_nat (15 - 0)) with 120.
    destruct (Z.leb_spec (2 ^ 127) x); Z.div_mod_to_equations; lia. }
  apply list_ext; [unfold cmac_shift; now rewrite map_length, seq_length, be_bytes_length|].
  unfold cmac_shift at 1. rewrite map_length, seq_length. intros i Hi.
  rewrite nth_be_bytes by auto. unfold cmac_shift. cbv zeta. rewrite nthZ_map_seq by auto. cbv beta.
  unfold dbl128. rewrite lxor_div, lxor_mod by lia.
  destruct (Nat.ltb_spec i 15) as [G|G].
  - assert (Z0 : (if 2 ^ 127 <=? x then 0x87 else 0) / 2 ^ (8 * Z.of_nat (16 - 1 - i)) = 0).
    { assert (2 ^ 8 <= 2 ^ (8 * Z.of_nat (16 - 1 - i))) by (apply Z.pow_le_mono_r; lia).
      destruct (2 ^ 127 <=? x); apply Z.div_small; lia. }
    rewrite Z0. change (0 mod 2 ^ 8) with 0. rewrite Z.lxor_0_r.
    assert (Bn : byte_ok (nthZ (i + 1) K)) by now apply nthZ_bytes.
    unfold u8. rewrite Z.shiftl_mul_pow2 by lia. rewrite Z.lor_comm, DerLemmas.lor_shift_add.
    2:{ lia. } 2:{ rewrite Z.shiftr_div_pow2 by lia. unfold byte_ok in Bn. split; [apply Z.div_pos; lia|apply Z.div_lt_upper_bound; lia]. }
    rewrite Z.shiftr_div_pow2 by lia. rewrite !D by lia.
    remember (15 - (i + 1))%nat as k eqn:Hk. replace (15 - i)%nat with (S k) by lia. replace (16 - 1 - i)%nat with (S k) by lia.
    set (y := x / 2 ^ (8 * Z.of_nat k)).
    assert (PK : 0 < 2 ^ (8 * Z.of_nat k)) by (apply Z.pow_pos_nonneg; lia).
    assert (E1 : x / 2 ^ (8 * Z.of_nat (S k)) = y / 2 ^ 8).
    { unfold y. rewrite Z.div_div by lia. rewrite <- Z.pow_add_r by lia. do 2 f_equal. lia. }
    rewrite mod_div_mod by lia. rewrite E1.
    replace (2 * x / 2 ^ (8 * Z.of_nat (S k))) with (y / 2 ^ 7).
    2:{ unfold y. rewrite Z.div_div by lia. rewrite <- Z.pow_add_r by lia.
        replace (8 * Z.of_nat (S k)) with (1 + (8 * Z.of_nat k + 7)) by lia. rewrite (Z.pow_add_r 2 1) by lia.
        change (2 ^ 1) with 2. rewrite Z.div_mul_cancel_l; [reflexivity|apply Z.pow_nonzero; lia|lia]. }
    clearbody y. change (2 ^ 8) with 256. change (2 ^ 7) with 128. change (2 ^ 1) with 2.
    clear. Z.div_mod_to_equations. lia.
  - assert (i = 15)%nat by lia. subst i. change (8 * Z.of_nat (16 - 1 - 15)) with 0. change (2 ^ 0) with 1. rewrite !Z.div_1_r.
    unfold u8. rewrite lxor_mod by lia. f_equal.
    + rewrite Z.shiftl_mul_pow2 by lia. rewrite D by lia. change (15 - 15)%nat with 0%nat. change (8 * Z.of_nat 0) with 0.
      change (2 ^ 0) with 1. rewrite Z.div_1_r. change (2 ^ 1) with 2.
      change (2 ^ 128) with (2 ^ 8 * 2 ^ 120). rewrite (Z.rem_mul_r (2 * x)) by lia.
      rewrite (Z.mul_comm (2 ^ 8)), Z.mod_add by lia. change (2 ^ 8) with 256. clear. Z.div_mod_to_equations. lia.
    + rewrite TB. destruct (2 ^ 127 <=? x); reflexivity.
Qed.

(* ---- the byte-wise view of Update ---- *)
Section C.
  Variable E : list Z -> list Z.
  Hypothesis EL : forall b, length b = 16%nat -> length (E b) = 16%nat.
  Hypothesis EB : forall b, bytes_ok b -> length b = 16%nat -> bytes_ok (E b).

  Definition cm_abs (x : cmac) (b : Z) : cmac :=
    let x := if (16 <=? cm_filled x)%nat then cmac_flush E x else x in
    Cm (upd (cm_filled x) (Z.lxor (nthZ (cm_filled x) (cm_T x)) b) (cm_T x)) (cm_K1 x) (cm_K2 x) (cm_filled x + 1) (cm_flags x).

  Lemma loop_abs data : forall x, ((cm_filled x < 16)%nat \/ data = []) -> cmac_loop E x data = fold_left cm_abs data x.
  Proof.
    induction data as [|b data IH]; intros x H; cbn [cmac_loop fold_left]; [reflexivity|].
    destruct H as [H|H]; [|discriminate].
    unfold cm_abs at 2. replace (16 <=? cm_filled x)%nat with false by (symmetry; apply Nat.leb_gt; lia).
    set (x1 := Cm _ _ _ _ _). destruct data as [|b2 data]; [cbn [length Nat.eqb negb]; now rewrite Bool.andb_false_r|].
    cbn [length Nat.eqb negb]. rewrite Bool.andb_true_r.
    destruct (Nat.leb_spec 16 (cm_filled x1)) as [G|G].
    - rewrite IH by (left; cbn; lia). cbn [fold_left]. f_equal. unfold cm_abs.
      replace (16 <=? cm_filled x1)%nat with true by (symmetry; apply Nat.leb_le; lia). reflexivity.
    - apply IH. now left.
  Qed.
  Lemma update_abs x data : CMAC_Update E x data = fold_left cm_abs data x.
  Proof.
    unfold CMAC_Update. destruct data as [|b data]; [cbn [length Nat.eqb negb]; now rewrite Bool.andb_false_r|].
    cbn [length Nat.eqb negb]. rewrite Bool.andb_true_r. destruct (Nat.leb_spec 16 (cm_filled x)) as [G|G].
    - rewrite loop_abs by (left; cbn; lia). cbn [fold_left]. f_equal. unfold cm_abs.
      replace (16 <=? cm_filled x)%nat with true by (symmetry; apply Nat.leb_le; lia). reflexivity.
    - apply loop_abs. now left.
  Qed.
  Lemma updates_abs chunks : forall x, fold_left (CMAC_Update E) chunks x = fold_left cm_abs (concat chunks) x.
  Proof. induction chunks as [|d ds IH]; intros x; cbn [fold_left concat]; [reflexivity|]. rewrite fold_left_app, update_abs. apply IH. Qed.

  (** The context holds chaining value C with octets p of the current block xored in. *)
  Definition crep (kb : Z) (x : cmac) (C p : list Z) : Prop :=
    x = Cm (xor_front C p) (cmac_k1 E) (cmac_k2 E) (length p) kb /\ length C = 16%nat /\ (length p <= 16)%nat.

  Lemma abs_crep kb x C p b : crep kb x C p ->
    crep kb (cm_abs x b) (if (length p =? 16)%nat then E (xorb_list C p) else C) (if (length p =? 16)%nat then [b] else p ++ [b]).
  Proof.
    intros (-> & LC & Lp). unfold cm_abs. cbn [cm_filled].
    destruct (Nat.eqb_spec (length p) 16) as [G|G].
    - rewrite G. cbn [Nat.leb]. unfold cmac_flush. cbn [cm_T cm_K1 cm_K2 cm_flags cm_filled].
      assert (X : xor_front C p = xorb_list C p).
      { unfold xor_front. rewrite (firstn_all2 C), (@skipn_all2 Z _ C) by lia. apply app_nil_r. }
      rewrite X. split; [|split; [apply EL; rewrite xorb_list_length; lia|cbn; lia]].
      f_equal. pose proof (xor_front_snoc b [] (E (xorb_list C p))) as Q. rewrite xor_front_nil in Q. apply Q.
      rewrite EL by (rewrite xorb_list_length; lia). cbn [length]; lia.
    - replace (16 <=? length p)%nat with false by (symmetry; apply Nat.leb_gt; lia). cbn [cm_T cm_K1 cm_K2 cm_flags cm_filled].
      split; [|split; [auto|rewrite app_length; cbn [length]; lia]].
      rewrite xor_front_snoc by lia. f_equal. rewrite app_length. reflexivity.
  Qed.

  Lemma xor3 a b c : xorb_list (xorb_list a b) c = xorb_list a (xorb_list c b).
  Proof.
    revert b c. induction a as [|x a IH]; intros [|y b] [|z c]; cbn [xorb_list]; auto.
    f_equal; [rewrite (Z.lxor_comm z y); apply Z.lxor_assoc|apply IH].
  Qed.

  (** Absorbing the rest then finishing is the specification's chain. *)
  Lemma chain_spec rest : forall kb x C p fuel, crep kb x C p -> (length (p ++ rest) < fuel)%nat ->
    Z.land kb 256 = 0 ->
    cm_T (fst (CMAC_Final E (fold_left cm_abs rest x) 0)) = cmac_chain E fuel C (p ++ rest).
  Proof.
    induction rest as [|b rest IH]; intros kb x C p fuel R HF HK; (destruct fuel as [|fuel]; [lia|]); cbn [fold_left].
    - destruct R as (-> & LC & Lp). rewrite app_nil_r in *. unfold CMAC_Final. cbn [cm_T cm_K1 cm_K2 cm_flags cm_filled fst].
      rewrite HK. cbn [negb Z.eqb]. cbn [cmac_chain].
      replace (16 <? length p)%nat with false by (symmetry; apply Nat.ltb_ge; lia).
      destruct (Nat.eqb_spec (length p) 16) as [G|G].
      + rewrite G. cbn [Nat.leb cm_T]. f_equal.
        assert (X : xor_front C p = xorb_list C p).
        { unfold xor_front. rewrite (firstn_all2 C), (@skipn_all2 Z _ C) by lia. apply app_nil_r. }
        rewrite X. apply xor3.
      + replace (16 <=? length p)%nat with false by (symmetry; apply Nat.leb_gt; lia). cbn [cm_T]. f_equal.
        rewrite xor_front_snoc by lia. rewrite <- xor3. f_equal.
        rewrite <- (xor_front_zeros (15 - length p)) by (rewrite app_length; cbn [length]; lia).
        rewrite <- app_assoc. cbn [app]. unfold xor_front. set (q := p ++ 128 :: repeat 0 (15 - length p)).
        assert (Lq : length q = 16%nat) by (unfold q; rewrite app_length; cbn [length]; rewrite repeat_length; lia).
        rewrite Lq, (firstn_all2 C), (@skipn_all2 Z _ C) by lia. apply app_nil_r.
    - pose proof (abs_crep kb x C p b R) as R'. destruct R as (_ & LC & Lp).
      destruct (Nat.eqb_spec (length p) 16) as [G|G].
      + rewrite (IH _ _ _ _ fuel R') by (auto; rewrite app_length in *; cbn [length] in *; lia).
        cbn [cmac_chain]. replace (16 <? length (p ++ b :: rest))%nat with true
          by (symmetry; apply Nat.ltb_lt; rewrite app_length; cbn [length]; lia).
        rewrite firstn_app_exact, skipn_app_exact by auto. reflexivity.
      + rewrite (IH _ _ _ _ (S fuel) R'); [now rewrite <- app_assoc|rewrite <- app_assoc; exact HF|auto].
  Qed.

  Lemma setkey_crep kb : crep (Z.land (Z.land kb 63) 255) (CMAC_SetKey E kb) (repeat 0 16) [].
  Proof.
    assert (L0 : length (repeat 0 16) = 16%nat) by reflexivity.
    assert (B0 : bytes_ok (repeat 0 16)) by apply repeat0_bytes.
    split; [|split; [reflexivity|cbn; lia]]. unfold CMAC_SetKey.
    assert (E1 : cmac_shift (E (repeat 0 16)) = cmac_k1 E) by (apply cmac_shift_spec; [now apply EB|now apply EL]).
    rewrite E1. f_equal. unfold cmac_k2. apply cmac_shift_spec; [apply be_bytes_ok|apply be_bytes_length].
  Qed.

  Lemma flags_clear kb : Z.land (Z.land (Z.land kb 63) 255) 256 = 0.
  Proof. rewrite <- !Z.land_assoc. change (Z.land 63 (Z.land 255 256)) with 0. apply Z.land_0_r. Qed.

  Lemma final_out x t : snd (CMAC_Final E x t) =
    map (fun i => if (i <? 16)%nat then nthZ i (cm_T (fst (CMAC_Final E x 0))) else 0) (seq 0 t).
  Proof. reflexivity. Qed.

  Lemma cmac_spec kb chunks t :
    snd (CMAC_Final E (fold_left (CMAC_Update E) chunks (CMAC_SetKey E kb)) t) =
    map (fun i => if (i <? 16)%nat then nthZ i (nist_cmac E (concat chunks)) else 0) (seq 0 t).
  Proof.
    rewrite final_out, updates_abs.
    rewrite (chain_spec (concat chunks) _ _ _ [] (S (length (concat chunks))) (setkey_crep kb)).
    - reflexivity.
    - cbn [app]. lia.
    - apply flags_clear.
  Qed.
End C.
