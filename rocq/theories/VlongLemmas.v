(** Proofs about the vlong model. *)
From Verif Require Import Base Vlong.

Lemma nthZ_guard i l : (if (i <? length l)%nat then nthZ i l else 0) = nthZ i l.
Proof.
  destruct (Nat.ltb_spec i (length l)); auto. unfold nthZ. now rewrite nth_overflow.
Qed.

Lemma pow32_pos n : 0 < 2 ^ (32 * Z.of_nat n).
Proof. apply Z.pow_pos_nonneg; lia. Qed.

Lemma pow32_succ n : 2 ^ (32 * Z.of_nat (S n)) = 2 ^ 32 * 2 ^ (32 * Z.of_nat n).
Proof. rewrite <- Z.pow_add_r by lia. f_equal. lia. Qed.

Lemma vval_bound l : words_ok l -> 0 <= vval l < 2 ^ (32 * Z.of_nat (length l)).
Proof. intros; apply val_le_bound; auto; lia. Qed.

Lemma mod_to_le n X (f : nat -> Z) :
  (forall j, f j = (X / 2 ^ (32 * Z.of_nat j)) mod 2 ^ 32) ->
  map f (seq 0 n) = to_le 32 n X.
Proof.
  intros H. apply list_ext.
  - now rewrite map_length, seq_length, to_le_length.
  - intros i Hi. rewrite map_length, seq_length in Hi.
    rewrite nth_to_le by lia. rewrite <- H. unfold nthZ.
    rewrite nth_indep with (d' := f 0%nat) by now rewrite map_length, seq_length.
    rewrite map_nth, seq_nth by auto. reflexivity.
Qed.

Lemma vval_map_seq n X (f : nat -> Z) :
  (forall j, f j = (X / 2 ^ (32 * Z.of_nat j)) mod 2 ^ 32) ->
  vval (map f (seq 0 n)) = X mod 2 ^ (32 * Z.of_nat n).
Proof. intros H. rewrite (mod_to_le n X f H). apply val_to_le; lia. Qed.

Lemma nthZ_vval l j : words_ok l -> nthZ j l = (vval l / 2 ^ (32 * Z.of_nat j)) mod 2 ^ 32.
Proof. intros H. apply nth_val_le; auto; lia. Qed.

Lemma vval_nth_seq n l : words_ok l ->
  vval (map (fun j => nthZ j l) (seq 0 n)) = vval l mod 2 ^ (32 * Z.of_nat n).
Proof. intros H. apply vval_map_seq. intros j. now apply nthZ_vval. Qed.

Lemma vval_map_add (f g : nat -> Z) l :
  vval (map (fun j => f j + g j) l) = vval (map f l) + vval (map g l).
Proof. induction l; cbn [map val_le]; [reflexivity|]. rewrite IHl. ring. Qed.

Lemma vval_map_opp (f : nat -> Z) l : vval (map (fun j => - f j) l) = - vval (map f l).
Proof. induction l; cbn [map val_le]; [reflexivity|]. rewrite IHl. ring. Qed.

Lemma u64_idem_add x y : u64 (u64 x + y) = u64 (x + y).
Proof. unfold u64. now rewrite Zplus_mod_idemp_l. Qed.

Lemma sext32_carry S :
  - 2 ^ 63 <= S < 2 ^ 63 -> sext32 (u64 S / 2 ^ 32) = u64 (S / 2 ^ 32).
Proof.
  intros H. unfold sext32, u64.
  assert (E : S mod 2 ^ 64 = S \/ S mod 2 ^ 64 = S + 2 ^ 64).
  { destruct (Z_lt_ge_dec S 0).
    - right. symmetry. apply Z.mod_unique_pos with (q := -1); lia.
    - left. apply Z.mod_small; lia. }
  assert (D : - 2 ^ 31 <= S / 2 ^ 32 < 2 ^ 31).
  { split; [apply Z.div_le_lower_bound|apply Z.div_lt_upper_bound]; lia. }
  destruct (Z_lt_ge_dec S 0) as [HS|HS].
  - assert (E' : S mod 2 ^ 64 = S + 2 ^ 64).
    { destruct E as [E|E]; auto. pose proof (Z.mod_pos_bound S (2 ^ 64)). lia. }
    rewrite E'. replace (S + 2 ^ 64) with (S + 2 ^ 32 * 2 ^ 32) by lia.
    rewrite Z.div_add by lia.
    assert (S / 2 ^ 32 < 0) by (apply Z.div_lt_upper_bound; lia).
    rewrite (Z.mod_small (S / 2 ^ 32 + 2 ^ 32)) by lia.
    destruct (Z.ltb_spec (S / 2 ^ 32 + 2 ^ 32) (2 ^ 31)); [lia|].
    apply Z.mod_unique_pos with (q := -1); lia.
  - rewrite (Z.mod_small S) by lia.
    assert (0 <= S / 2 ^ 32) by (apply Z.div_pos; lia).
    rewrite (Z.mod_small (S / 2 ^ 32)) by lia.
    destruct (Z.ltb_spec (S / 2 ^ 32) (2 ^ 31)); [|lia].
    symmetry. apply Z.mod_small. lia.
Qed.

Lemma u32_u64 S : u32 (u64 S) = S mod 2 ^ 32.
Proof.
  unfold u32, u64. symmetry. apply Znumtheory.Zmod_div_mod; try lia.
  exists (2 ^ 32). reflexivity.
Qed.

Lemma add_kernel_val bexpr B a i n x k :
  words_ok a ->
  (forall j y, u64 (bexpr j y) = u64 (y + B j)) ->
  (forall j, - 2 ^ 62 <= B j <= 2 ^ 62) ->
  - 2 ^ 31 <= k < 2 ^ 31 -> x = u64 k ->
  vval (add_kernel bexpr a i n x) =
  (k + vval (map (fun j => nthZ j a + B j) (seq i n))) mod 2 ^ (32 * Z.of_nat n).
Proof.
  intros Ha Hb HB. revert i x k. induction n as [|n IH]; intros i x k Hk Hx.
  - cbn. now rewrite Z.mod_1_r.
  - rewrite pow32_succ.
    cbn [add_kernel seq map val_le].
    rewrite Hb, nthZ_guard, u64_idem_add. subst x.
    rewrite <- Z.add_assoc, u64_idem_add.
    pose proof (nthZ_words a i Ha) as Hw. unfold word_ok in Hw. specialize (HB i).
    set (S := k + (nthZ i a + B i)) in *.
    assert (HS : - 2 ^ 63 <= S < 2 ^ 63) by lia.
    rewrite u32_u64, sext32_carry by auto.
    rewrite IH with (k := S / 2 ^ 32); auto.
    2:{ split; [apply Z.div_le_lower_bound|apply Z.div_lt_upper_bound]; lia. }
    set (R := val_le 32 (map _ (seq _ n))).
    replace (k + (nthZ i a + B i + 2 ^ 32 * R)) with (S + R * 2 ^ 32) by (unfold S; ring).
    rewrite Z.rem_mul_r; [|lia|apply pow32_pos].
    rewrite Z.mod_add, Z.div_add by lia. reflexivity.
Qed.

Lemma add_kernel_length bexpr a i n x : length (add_kernel bexpr a i n x) = n.
Proof. revert i x; induction n; intros; cbn [add_kernel length]; auto. Qed.

Lemma u32_word x : word_ok (u32 x).
Proof. apply Z.mod_pos_bound; lia. Qed.

Lemma add_kernel_words bexpr a i n x : words_ok (add_kernel bexpr a i n x).
Proof.
  revert i x; induction n; intros; cbn [add_kernel]; constructor; auto.
  apply u32_word. apply IHn.
Qed.

Lemma add_kernel_val0 bexpr B a n :
  words_ok a ->
  (forall j y, u64 (bexpr j y) = u64 (y + B j)) ->
  (forall j, - 2 ^ 62 <= B j <= 2 ^ 62) ->
  vval (add_kernel bexpr a 0 n 0) =
  (vval a + vval (map B (seq 0 n))) mod 2 ^ (32 * Z.of_nat n).
Proof.
  intros Ha Hb HB.
  rewrite add_kernel_val with (B := B) (k := 0); auto; try lia; try reflexivity.
  rewrite vval_map_add, vval_nth_seq by auto. now rewrite Z.add_0_l, Zplus_mod_idemp_l.
Qed.

(** vlong_cpy *)
Lemma vlong_cpy_val n a : words_ok a -> vval (vlong_cpy n a) = vval a mod 2 ^ (32 * Z.of_nat n).
Proof.
  intros H. unfold vlong_cpy. rewrite <- (vval_nth_seq n a H). f_equal.
  apply map_ext. intros; apply nthZ_guard.
Qed.
Lemma vlong_cpy_length n a : length (vlong_cpy n a) = n.
Proof. unfold vlong_cpy. now rewrite map_length, seq_length. Qed.
Lemma map_words (f : nat -> Z) l : (forall j, word_ok (f j)) -> words_ok (map f l).
Proof. intros H. induction l; cbn; constructor; auto. Qed.
Lemma vlong_cpy_words n a : words_ok a -> words_ok (vlong_cpy n a).
Proof. intros H. apply map_words. intros j. rewrite nthZ_guard. now apply nthZ_words. Qed.

(** vlong_adds *)
Lemma vval_single n s b :
  vval (map (fun i => if Nat.eqb i s then b else 0) (seq 0 n)) =
  if (s <? n)%nat then b * 2 ^ (32 * Z.of_nat s) else 0.
Proof.
  assert (G : forall k, vval (map (fun i => if Nat.eqb i s then b else 0) (seq k n)) =
     if (k <=? s)%nat && (s <? k + n)%nat then b * 2 ^ (32 * Z.of_nat (s - k)) else 0).
  { induction n as [|n IH]; intros k.
    - cbn [seq map val_le]. destruct (Nat.leb_spec k s), (Nat.ltb_spec s (k + 0)); auto; lia.
    - cbn [seq map val_le]. rewrite IH.
      destruct (Nat.eqb_spec k s) as [->|N].
      + rewrite Nat.sub_diag. rewrite (proj2 (Nat.leb_gt (S s) s)) by apply Nat.lt_succ_diag_r.
        rewrite Nat.leb_refl, (proj2 (Nat.ltb_lt s (s + S n))) by lia.
        cbn [andb]. change (32 * Z.of_nat 0) with 0. rewrite Z.pow_0_r. ring.
      + destruct (Nat.leb_spec (S k) s), (Nat.leb_spec k s); try lia;
        destruct (Nat.ltb_spec s (S k + n)), (Nat.ltb_spec s (k + S n)); try lia;
        cbn [andb]; try lia.
        replace (s - k)%nat with (S (s - S k)) by lia. rewrite pow32_succ. ring. }
  rewrite G. cbn [Nat.leb andb]. now rewrite Nat.sub_0_r, Nat.add_0_l.
Qed.

Lemma vlong_adds_val n a b s :
  words_ok a -> - 2 ^ 62 <= b <= 2 ^ 62 ->
  vval (vlong_adds n a b s) = (vval a + b * 2 ^ (32 * Z.of_nat s)) mod 2 ^ (32 * Z.of_nat n).
Proof.
  intros Ha Hb. unfold vlong_adds.
  rewrite add_kernel_val0 with (B := fun i => if Nat.eqb i s then b else 0); auto.
  2:{ intros j. destruct (Nat.eqb j s); lia. }
  rewrite vval_single. destruct (Nat.ltb_spec s n) as [L|L]; auto.
  replace (32 * Z.of_nat s) with (32 * Z.of_nat (s - n) + 32 * Z.of_nat n) by lia.
  rewrite Z.pow_add_r, Z.mul_assoc by lia.
  rewrite Z.mod_add by (pose proof (pow32_pos n); lia). now rewrite Z.add_0_r.
Qed.
Lemma vlong_adds_length n a b s : length (vlong_adds n a b s) = n.
Proof. apply add_kernel_length. Qed.
Lemma vlong_adds_words n a b s : words_ok (vlong_adds n a b s).
Proof. apply add_kernel_words. Qed.

Lemma vval_nth_guard n l : words_ok l ->
  vval (map (fun i => if (i <? length l)%nat then nthZ i l else 0) (seq 0 n)) = vval l mod 2 ^ (32 * Z.of_nat n).
Proof. intros H. apply vlong_cpy_val, H. Qed.

Lemma nthZ_range l i : words_ok l -> 0 <= nthZ i l < 2 ^ 32.
Proof. apply nthZ_words. Qed.

Lemma vlong_addv_val n a b :
  words_ok a -> words_ok b ->
  vval (vlong_addv n a b) = (vval a + vval b) mod 2 ^ (32 * Z.of_nat n).
Proof.
  intros Ha Hb. unfold vlong_addv.
  rewrite add_kernel_val0 with (B := fun i => if (i <? length b)%nat then nthZ i b else 0); auto.
  - now rewrite vval_nth_guard, Zplus_mod_idemp_r.
  - intros j. rewrite nthZ_guard. pose proof (nthZ_range b j Hb). lia.
Qed.
Lemma vlong_addv_length n a b : length (vlong_addv n a b) = n.
Proof. apply add_kernel_length. Qed.
Lemma vlong_addv_words n a b : words_ok (vlong_addv n a b).
Proof. apply add_kernel_words. Qed.

Lemma vlong_subv_val n a b :
  words_ok a -> words_ok b ->
  vval (vlong_subv n a b) = (vval a - vval b) mod 2 ^ (32 * Z.of_nat n).
Proof.
  intros Ha Hb. unfold vlong_subv.
  rewrite add_kernel_val0 with (B := fun i => - (if (i <? length b)%nat then nthZ i b else 0)); auto.
  - rewrite (vval_map_opp (fun i => if (i <? length b)%nat then nthZ i b else 0)).
    rewrite vval_nth_guard by auto.
    rewrite <- Z.sub_opp_r, Z.opp_involutive. now rewrite Zminus_mod_idemp_r.
  - intros j. rewrite nthZ_guard. pose proof (nthZ_range b j Hb). lia.
Qed.
Lemma vlong_subv_length n a b : length (vlong_subv n a b) = n.
Proof. apply add_kernel_length. Qed.
Lemma vlong_subv_words n a b : words_ok (vlong_subv n a b).
Proof. apply add_kernel_words. Qed.

(** vlong_mulx *)
Lemma vlong_mulx_val n a : words_ok a ->
  vval (vlong_mulx n a) = (vval a * 2 ^ 32) mod 2 ^ (32 * Z.of_nat n).
Proof.
  intros Ha. apply vval_map_seq. intros j.
  destruct j as [|j].
  - rewrite andb_false_r. cbn [Z.of_nat]. rewrite Z.mul_0_r, Z.pow_0_r, Z.div_1_r.
    now rewrite Z.mod_mul by lia.
  - replace (S j - 1)%nat with j by lia. cbn [Nat.ltb Nat.leb]. rewrite andb_true_r.
    assert (E : (if (S j <=? length a)%nat then nthZ j a else 0) = nthZ j a).
    { destruct (Nat.leb_spec (S j) (length a)); auto. unfold nthZ. rewrite nth_overflow; auto; lia. }
    change (match length a with O => false | S m' => (j <=? m')%nat end) with (S j <=? length a)%nat.
    rewrite E, pow32_succ, (Z.mul_comm (vval a)).
    rewrite Z.div_mul_cancel_l by (pose proof (pow32_pos j); lia). now apply nthZ_vval.
Qed.
Lemma vlong_mulx_length n a : length (vlong_mulx n a) = n.
Proof. unfold vlong_mulx. now rewrite map_length, seq_length. Qed.
Lemma vlong_mulx_words n a : words_ok a -> words_ok (vlong_mulx n a).
Proof.
  intros H. apply map_words. intros j. destruct (_ && _); [now apply nthZ_words|].
  unfold word_ok; lia.
Qed.

(** vlong_muls *)
Lemma muls_loop_val a b accum out i x :
  words_ok a -> word_ok b -> words_ok out -> 0 <= x < 2 ^ 32 ->
  vval (muls_loop a b accum out i x) =
  (x + b * vval (map (fun j => nthZ j a) (seq i (length out)))
     + (if accum then vval out else 0)) mod 2 ^ (32 * Z.of_nat (length out)).
Proof.
  intros Ha Hb Ho. revert i x. induction Ho as [|o out Hoo Ho IH]; intros i x Hx.
  - cbn. now rewrite Z.mod_1_r.
  - cbn [length seq map muls_loop val_le]. rewrite pow32_succ.
    rewrite (nthZ_guard i a) || idtac.
    assert (E : (if (i <? length a)%nat then u64 (nthZ i a * b) else 0) = nthZ i a * b).
    { pose proof (nthZ_range a i Ha). unfold word_ok in Hb.
      destruct (Nat.ltb_spec i (length a)).
      - unfold u64. apply Z.mod_small. nia.
      - unfold nthZ. rewrite nth_overflow; auto; lia. }
    rewrite E. clear E.
    pose proof (nthZ_range a i Ha) as Hai. unfold word_ok in Hb, Hoo.
    set (S := x + nthZ i a * b + (if accum then o else 0)).
    assert (HP : 0 <= nthZ i a * b <= (2 ^ 32 - 1) * (2 ^ 32 - 1)) by nia.
    assert (HS : 0 <= S < 2 ^ 64) by (unfold S; destruct accum; lia).
    assert (EX : (if accum then u64 (u64 (x + nthZ i a * b) + o) else u64 (x + nthZ i a * b)) = S).
    { rewrite u64_idem_add. unfold S, u64. destruct accum; rewrite Z.mod_small; lia. }
    rewrite EX. clear EX.
    rewrite IH.
    2:{ split; [apply Z.div_pos; lia| apply Z.div_lt_upper_bound; lia]. }
    set (R := val_le 32 (map _ (seq _ _))).
    set (O := if accum then vval out else 0).
    replace (x + b * (nthZ i a + 2 ^ 32 * R) + (if accum then o + 2 ^ 32 * vval out else 0))
      with (S + (b * R + O) * 2 ^ 32) by (unfold S, O; destruct accum; ring).
    rewrite Z.rem_mul_r; [|lia|apply pow32_pos].
    rewrite Z.mod_add, Z.div_add by lia. unfold u32. f_equal. f_equal. f_equal. ring.
Qed.

Lemma muls_loop_length a b accum out i x : length (muls_loop a b accum out i x) = length out.
Proof. revert i x; induction out; intros; cbn [muls_loop length]; auto. Qed.
Lemma muls_loop_words a b accum out i x : words_ok (muls_loop a b accum out i x).
Proof. revert i x; induction out; intros; cbn [muls_loop]; constructor; auto. apply u32_word. apply IHout. Qed.

Lemma vlong_muls_val out a b accum :
  words_ok a -> word_ok b -> words_ok out ->
  vval (vlong_muls out a b accum) =
  (vval a * b + (if accum then vval out else 0)) mod 2 ^ (32 * Z.of_nat (length out)).
Proof.
  intros Ha Hb Ho. unfold vlong_muls. rewrite muls_loop_val by (auto; lia).
  rewrite vval_nth_seq by auto. rewrite Z.add_0_l.
  rewrite <- Zplus_mod_idemp_l, Zmult_mod_idemp_r, Zplus_mod_idemp_l. f_equal. ring.
Qed.
Lemma vlong_muls_length out a b accum : length (vlong_muls out a b accum) = length out.
Proof. apply muls_loop_length. Qed.
Lemma vlong_muls_words out a b accum : words_ok (vlong_muls out a b accum).
Proof. apply muls_loop_words. Qed.

(** vlong_imuls: right as long as every partial sum fits an int64_t. *)
Lemma imuls_loop_val a b accum out i x k :
  words_ok a -> - 2 ^ 31 < b < 2 ^ 31 -> words_ok out -> - 2 ^ 31 <= k < 2 ^ 31 -> x = u64 k ->
  vval (imuls_loop a b accum out i x) =
  (k + b * vval (map (fun j => nthZ j a) (seq i (length out)))
     + (if accum then vval out else 0)) mod 2 ^ (32 * Z.of_nat (length out)).
Proof.
  intros Ha Hb Ho. revert i x k. induction Ho as [|o out Hoo Ho IH]; intros i x k Hk Hx.
  - cbn. now rewrite Z.mod_1_r.
  - cbn [length seq map imuls_loop val_le]. rewrite pow32_succ. subst x.
    pose proof (nthZ_range a i Ha) as Hai. unfold word_ok in Hoo.
    assert (E : u64 (u64 k + (if (i <? length a)%nat then u64 (nthZ i a * u64 b) else 0)) = u64 (k + nthZ i a * b)).
    { rewrite u64_idem_add. destruct (Nat.ltb_spec i (length a)).
      - unfold u64. rewrite Zplus_mod_idemp_r. rewrite <- Zplus_mod_idemp_r, Zmult_mod_idemp_r, Zplus_mod_idemp_r. reflexivity.
      - unfold nthZ. rewrite nth_overflow; auto; lia. }
    rewrite E. clear E.
    set (S := k + nthZ i a * b + (if accum then o else 0)).
    assert (HP : - ((2 ^ 32 - 1) * (2 ^ 31 - 1)) <= nthZ i a * b <= (2 ^ 32 - 1) * (2 ^ 31 - 1)) by nia.
    assert (HS : - 2 ^ 63 <= S < 2 ^ 63) by (unfold S; destruct accum; lia).
    assert (EX : (if accum then u64 (u64 (k + nthZ i a * b) + o) else u64 (k + nthZ i a * b)) = u64 S).
    { rewrite u64_idem_add. unfold S. destruct accum; auto. now rewrite Z.add_0_r. }
    rewrite EX. clear EX. rewrite u32_u64, sext32_carry by auto.
    rewrite IH with (k := S / 2 ^ 32); auto.
    2:{ split; [apply Z.div_le_lower_bound|apply Z.div_lt_upper_bound]; lia. }
    set (R := val_le 32 (map _ (seq _ _))).
    set (O := if accum then vval out else 0).
    replace (k + b * (nthZ i a + 2 ^ 32 * R) + (if accum then o + 2 ^ 32 * vval out else 0))
      with (S + (b * R + O) * 2 ^ 32) by (unfold S, O; destruct accum; ring).
    rewrite Z.rem_mul_r; [|lia|apply pow32_pos].
    rewrite Z.mod_add, Z.div_add by lia. f_equal. f_equal. f_equal. ring.
Qed.
Lemma imuls_loop_length a b accum out i x : length (imuls_loop a b accum out i x) = length out.
Proof. revert i x; induction out; intros; cbn [imuls_loop length]; auto. Qed.
Lemma imuls_loop_words a b accum out i x : words_ok (imuls_loop a b accum out i x).
Proof. revert i x; induction out; intros; cbn [imuls_loop]; constructor; auto. apply u32_word. apply IHout. Qed.

Lemma vlong_imuls_val out a b accum :
  words_ok a -> - 2 ^ 31 < b < 2 ^ 31 -> words_ok out ->
  vval (vlong_imuls out a b accum) =
  (vval a * b + (if accum then vval out else 0)) mod 2 ^ (32 * Z.of_nat (length out)).
Proof.
  intros Ha Hb Ho. unfold vlong_imuls. rewrite imuls_loop_val with (k := 0) by (auto; lia).
  rewrite vval_nth_seq by auto. rewrite Z.add_0_l.
  rewrite <- Zplus_mod_idemp_l, Zmult_mod_idemp_r, Zplus_mod_idemp_l. f_equal. ring.
Qed.
