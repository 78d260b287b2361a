(** Lemmas about the RSAES model. *)
From Coq Require Import Znumtheory.
From Verif Require Import Base Vlong VlongLemmas Der DerLemmas HashIface HashLemmas MdLemmas MacLemmas PkcsSpec PkcsLemmas PkcsLemmas2 PkcsLemmas3 Rsa RsaSpec RsaLemmas RsaEs RsaEsSpec.
From Verif Require Pkcs1.

(** * Words and octets *)
Lemma le_val4 b : bytes_ok b -> length b = 4%nat -> word_ok (le_val b).
Proof. intros B L. pose proof (le_val_bound b B) as H. rewrite L in H. unfold word_ok. change (2 ^ (8 * Z.of_nat 4)) with (2 ^ 32) in H. exact H. Qed.
Lemma octets_words_octets ws r : words_ok ws -> octets_words (length ws) (words_octets ws ++ r) = ws.
Proof.
  induction 1 as [|w ws Hw Hws IH]; [reflexivity|]. cbn [length octets_words words_octets flat_map]. rewrite <- app_assoc.
  assert (L : length (le_bytes 4 w) = 4%nat) by apply le_bytes_length.
  rewrite firstn_app, L, Nat.sub_diag, firstn_O, app_nil_r. rewrite (firstn_all2 (n := 4) (le_bytes 4 w)) by lia.
  rewrite skipn_app, L, Nat.sub_diag, skipn_O. rewrite (skipn_all2 (le_bytes 4 w)) by lia. cbn [app].
  rewrite le_val_le_bytes. change (2 ^ (8 * Z.of_nat 4)) with (2 ^ 32). rewrite Z.mod_small by (destruct Hw; lia). f_equal. exact IH.
Qed.
Lemma words_octets_length ws : length (words_octets ws) = (4 * length ws)%nat.
Proof. induction ws as [|w ws IH]; [reflexivity|]. cbn [words_octets flat_map length]. rewrite app_length, le_bytes_length. unfold words_octets in IH. rewrite IH. lia. Qed.
Lemma words_octets_ok ws : bytes_ok (words_octets ws).
Proof. induction ws as [|w ws IH]; [constructor|]. cbn [words_octets flat_map]. apply Forall_app. split; [apply le_bytes_ok|exact IH]. Qed.
Lemma octets_words_ok w : forall b, bytes_ok b -> words_ok (octets_words w b) /\ length (octets_words w b) = w.
Proof.
  induction w as [|w IH]; intros b B; [split; [constructor|reflexivity]|]. cbn [octets_words length].
  assert (B1 : bytes_ok (firstn 4 b)) by (rewrite <- (firstn_skipn 4 b) in B; apply Forall_app in B; tauto).
  assert (B2 : bytes_ok (skipn 4 b)) by (rewrite <- (firstn_skipn 4 b) in B; apply Forall_app in B; tauto).
  destruct (IH _ B2) as [A1 A2]. split; [|now rewrite A2]. constructor; [|exact A1].
  pose proof (le_val_bound _ B1) as H. pose proof (firstn_le_length 4 b) as L. split; [tauto|].
  assert (P : 2 ^ (8 * Z.of_nat (length (firstn 4 b))) <= 2 ^ 32) by (apply Z.pow_le_mono_r; lia). lia.
Qed.

(** * The folds *)
Lemma land1 x : Z.land x 1 = Z.b2z (Z.testbit x 0).
Proof. change 1 with (Z.ones 1) at 1. rewrite Z.land_ones by lia. change (2 ^ 1) with 2. rewrite Z.bit0_mod. reflexivity. Qed.
Lemma and_fold_small x : 0 <= x < 2 ^ 31 -> and_fold x = 0.
Proof.
  intros B. unfold and_fold. rewrite land1.
  match goal with |- Z.b2z ?b = 0 => replace b with false; [reflexivity|symmetry] end.
  assert (T : Z.testbit x 31 = false).
  { destruct (Z.eq_dec x 0) as [->|N]; [apply Z.testbit_0_l|]. apply Z.bits_above_log2; [lia|]. apply Z.log2_lt_pow2; lia. }
  repeat (rewrite ?Z.land_spec, ?Z.shiftr_spec by lia). cbn [Z.add Pos.add Pos.succ Pos.add_carry]. rewrite T. now rewrite ?Bool.andb_false_r.
Qed.
Lemma ret_ok_small x : 0 <= x < 2 ^ 31 -> ret_ok x = true.
Proof. intros B. unfold ret_ok. rewrite Z.lxor_m1_r, Z.lnot_involutive, (and_fold_small x B). reflexivity. Qed.
Lemma ret_ok_m1 : ret_ok (-1) = false. Proof. reflexivity. Qed.
Lemma or_fold_spec x : 0 <= x < 256 -> or_fold x = if x =? 0 then 0 else 1.
Proof.
  intros B. assert (F : forallb (fun i => or_fold (Z.of_nat i) =? (if Z.of_nat i =? 0 then 0 else 1)) (seq 0 256) = true) by (vm_compute; reflexivity).
  rewrite forallb_forall in F. specialize (F (Z.to_nat x)). rewrite in_seq, Z2Nat.id in F by lia. apply Z.eqb_eq. apply F. lia.
Qed.
Lemma or_fold4_spec x : 0 <= x < 256 -> Z.land (or_fold4 x) 1 = if x =? 0 then 0 else 1.
Proof.
  intros B. assert (F : forallb (fun i => Z.land (or_fold4 (Z.of_nat i)) 1 =? (if Z.of_nat i =? 0 then 0 else 1)) (seq 0 256) = true) by (vm_compute; reflexivity).
  rewrite forallb_forall in F. specialize (F (Z.to_nat x)). rewrite in_seq, Z2Nat.id in F by lia. apply Z.eqb_eq. apply F. lia.
Qed.
Lemma nz_bit x : byte_ok x -> Z.land 1 (Z.lnot (Z.shiftr (x - 1) 8)) = if x =? 0 then 0 else 1.
Proof.
  intros [B1 B2]. destruct (Z.eqb_spec x 0) as [->|N]; [reflexivity|]. rewrite Z.shiftr_div_pow2 by lia. rewrite Z.div_small by (change (2 ^ 8) with 256 in *; lia). reflexivity.
Qed.
Lemma lor01 a b : Z.lor (if a : bool then 0 else 1) (if b : bool then 0 else 1) = if a && b then 0 else 1.
Proof. now destruct a, b. Qed.

(** * The searches *)
Lemma find_nz_spec l : forall f s, (s <= find_nz f l s <= s + f)%nat /\ (forall i, (s <= i < find_nz f l s)%nat -> nthZ i l = 0) /\
  ((find_nz f l s < s + f)%nat -> nthZ (find_nz f l s) l <> 0).
Proof.
  induction f as [|f IH]; intros s; cbn [find_nz]; [split; [lia|split; intros; lia]|].
  destruct (Z.eqb_spec (nthZ s l) 0) as [E|N]; cbn [negb].
  - destruct (IH (S s)) as (A & B & C). split; [lia|]. split; [|intros; apply C; lia].
    intros i Hi. destruct (Nat.eq_dec i s) as [->|]; [exact E|apply B; lia].
  - split; [lia|]. split; [intros; lia|]. intros _. exact N.
Qed.
Lemma find_z_spec l : forall f s, (s <= find_z f l s <= s + f)%nat /\ (forall i, (s <= i < find_z f l s)%nat -> nthZ i l <> 0) /\
  ((find_z f l s < s + f)%nat -> nthZ (find_z f l s) l = 0).
Proof.
  induction f as [|f IH]; intros s; cbn [find_z]; [split; [lia|split; intros; lia]|].
  destruct (Z.eqb_spec (nthZ s l) 0) as [E|N].
  - split; [lia|]. split; [intros; lia|]. intros _. exact E.
  - destruct (IH (S s)) as (A & B & C). split; [lia|]. split; [|intros; apply C; lia].
    intros i Hi. destruct (Nat.eq_dec i s) as [->|]; [exact N|apply B; lia].
Qed.
Lemma zeros_prefix (l : list Z) t : (t <= length l)%nat -> (forall i, (i < t)%nat -> nthZ i l = 0) -> firstn t l = repeat 0 t.
Proof.
  revert l. induction t as [|t IH]; intros l L H; [reflexivity|]. destruct l as [|b l]; [cbn in L; lia|]. cbn [firstn repeat].
  pose proof (H 0%nat ltac:(lia)) as H0. cbn [nthZ nth] in H0. unfold nthZ in H0. cbn in H0. subst b. f_equal. apply IH; [cbn in L; lia|].
  intros i Hi. exact (H (S i) ltac:(lia)).
Qed.
Lemma split_nth (l : list Z) t : (t < length l)%nat -> l = firstn t l ++ nthZ t l :: skipn (S t) l.
Proof.
  revert l. induction t as [|t IH]; intros [|b l] L; cbn in L; try lia; [reflexivity|].
  cbn [firstn skipn app]. f_equal. exact (IH l ltac:(lia)).
Qed.
(** The parse of R = 00..00 01 M behind lHash. *)
Lemma oaep_parse Y R : byte_ok Y -> bytes_ok R -> (0 < length R)%nat ->
  let t := find_nz (length R - 1) R 0 in
  let err := Z.lor (Z.land 1 (Z.lnot (Z.shiftr (Y - 1) 8))) (Z.land 1 (Z.lnot (Z.shiftr (Z.lxor (nthZ t R) 1 - 1) 8))) in
  let st := - err + (Z.of_nat (length R) - Z.of_nat t - 1) * Z.lxor err 1 in
  (exists z M, Y = 0 /\ R = repeat 0 z ++ 1 :: M /\ st = Z.of_nat (length M)) \/
  (st = -1 /\ forall z M, Y = 0 -> R <> repeat 0 z ++ 1 :: M).
Proof.
  intros BY BR L t err st.
  destruct (find_nz_spec R (length R - 1) 0) as (T1 & T2 & T3). fold t in T1, T2, T3. clearbody t.
  pose proof (nthZ_bytes R t BR) as BT.
  assert (BX : byte_ok (Z.lxor (nthZ t R) 1)).
  { destruct BT as [b1 b2]. split; [apply Z.lxor_nonneg; split; lia|]. 
    assert (X : Z.lxor (nthZ t R) 1 < 2 ^ 8 \/ 2 ^ 8 <= Z.lxor (nthZ t R) 1) by lia. destruct X as [X|X]; [exact X|exfalso].
    assert (P : 0 < Z.lxor (nthZ t R) 1) by (change (2 ^ 8) with 256 in X; lia).
    apply Z.log2_le_pow2 in X; [|exact P]. pose proof (Z.log2_lxor (nthZ t R) 1 b1 ltac:(lia)) as Q.
    assert (W : Z.log2 (nthZ t R) <= 7). { destruct (Z.eq_dec (nthZ t R) 0) as [E|E]; [rewrite E; cbn; lia|]. assert (Z.log2 (nthZ t R) < 8) by (apply Z.log2_lt_pow2; change (2 ^ 8) with 256 in *; lia). lia. }
    change (Z.log2 1) with 0 in Q. rewrite Z.max_l in Q by (apply Z.log2_nonneg). lia. }
  assert (ER : err = if (Y =? 0) && (nthZ t R =? 1) then 0 else 1).
  { unfold err. rewrite (nz_bit Y BY), (nz_bit _ BX). rewrite lor01. 
    replace (Z.lxor (nthZ t R) 1 =? 0) with (nthZ t R =? 1); [reflexivity|].
    destruct (Z.eqb_spec (nthZ t R) 1) as [->|N]; [reflexivity|]. symmetry. apply Z.eqb_neq. intros X. apply Z.lxor_eq in X. contradiction. }
  unfold st. rewrite ER. clear st err ER BX.
  destruct (Z.eqb_spec Y 0) as [->|NY]; cbn [andb].
  - destruct (Z.eqb_spec (nthZ t R) 1) as [E1|N1].
    + left. exists t, (skipn (S t) R). split; [reflexivity|]. split.
      * rewrite (split_nth R t) at 1 by lia. rewrite E1. rewrite (zeros_prefix R t) by (try lia; intros; apply T2; lia). reflexivity.
      * rewrite skipn_length. change (Z.lxor 0 1) with 1. lia.
    + right. change (Z.lxor 1 1) with 0. split; [lia|]. intros z M _ E. apply N1.
      assert (TZ : t = z); [|rewrite E, TZ; unfold nthZ; rewrite app_nth2, repeat_length, Nat.sub_diag by (rewrite repeat_length; lia); reflexivity].
      assert (LR : length R = (z + S (length M))%nat) by (rewrite E, app_length, repeat_length; reflexivity).
      assert (RZ : nthZ z R = 1) by (rewrite E; unfold nthZ; rewrite app_nth2, repeat_length, Nat.sub_diag by (rewrite repeat_length; lia); reflexivity).
      destruct (lt_eq_lt_dec t z) as [[H|H]|H]; [exfalso|exact H|exfalso].
      * apply T3; [lia|]. rewrite E. unfold nthZ. rewrite app_nth1 by (rewrite repeat_length; lia). apply nth_repeat.
      * pose proof (T2 z ltac:(lia)) as X. rewrite RZ in X. discriminate.
  - right. change (Z.lxor 1 1) with 0. split; [lia|]. intros z M E. contradiction.
Qed.
(** The parse of 00 02 PS 00 M. *)
Lemma v15_parse em : bytes_ok em -> Z.of_nat (length em) < 2 ^ 31 -> (2 <= length em)%nat ->
  let k := length em in
  let t := find_z (k - 2) em 2 in
  let err := Z.lor (nthZ 0 em) (Z.lxor (nthZ 1 em) 2) in
  let err := Z.lor err (Z.shiftr (u32 (Z.of_nat t - 10)) 31) in
  let err := or_fold (Z.lor err (Z.shiftr (u32 (Z.of_nat k - Z.of_nat t - 1)) 31)) in
  let st := - err + (Z.of_nat k - Z.of_nat t - 1) * Z.lxor err 1 in
  (exists M, v15_of k M em /\ st = Z.of_nat (length M)) \/ (st = -1 /\ forall M, ~ v15_of k M em).
Proof.
  intros B L31 L2 k t e1 e2 err st.
  destruct (find_z_spec em (k - 2) 2) as (T1 & T2 & T3). fold t in T1, T2, T3. clearbody t.
  pose proof (nthZ_bytes em 0 B) as B0. pose proof (nthZ_bytes em 1 B) as B1.
  assert (S1 : Z.shiftr (u32 (Z.of_nat t - 10)) 31 = if (t <? 10)%nat then 1 else 0).
  { unfold u32. rewrite Z.shiftr_div_pow2 by lia. destruct (Nat.ltb_spec t 10).
    - rewrite <- (Z_mod_plus_full _ 1), Z.mod_small by lia. symmetry. apply Z.div_unique with (Z.of_nat t - 10 + 2 ^ 31); lia.
    - rewrite Z.mod_small by lia. apply Z.div_small. lia. }
  assert (S2 : Z.shiftr (u32 (Z.of_nat k - Z.of_nat t - 1)) 31 = if (t =? k)%nat then 1 else 0).
  { unfold u32. rewrite Z.shiftr_div_pow2 by lia. destruct (Nat.eqb_spec t k).
    - rewrite <- (Z_mod_plus_full _ 1), Z.mod_small by lia. symmetry. apply Z.div_unique with (2 ^ 31 - 1); lia.
    - rewrite Z.mod_small by lia. apply Z.div_small. lia. }
  set (good := (nthZ 0 em =? 0) && (nthZ 1 em =? 2) && negb (t <? 10)%nat && negb (t =? k)%nat).
  assert (BX : 0 <= Z.lxor (nthZ 1 em) 2 < 2 ^ 8).
  { destruct B1 as [b1 b2]. split; [apply Z.lxor_nonneg; split; lia|].
    destruct (Z_lt_le_dec (Z.lxor (nthZ 1 em) 2) (2 ^ 8)) as [X|X]; [exact X|exfalso].
    assert (P : 0 < Z.lxor (nthZ 1 em) 2) by (change (2 ^ 8) with 256 in X; lia).
    apply Z.log2_le_pow2 in X; [|exact P]. pose proof (Z.log2_lxor (nthZ 1 em) 2 b1 ltac:(lia)) as Q.
    assert (W : Z.log2 (nthZ 1 em) <= 7). { destruct (Z.eq_dec (nthZ 1 em) 0) as [E|E]; [rewrite E; cbn; lia|]. assert (Z.log2 (nthZ 1 em) < 8) by (apply Z.log2_lt_pow2; change (2 ^ 8) with 256 in *; lia). lia. }
    change (Z.log2 2) with 1 in Q. lia. }
  assert (LB : forall x y, 0 <= x < 2 ^ 8 -> 0 <= y < 2 ^ 8 -> 0 <= Z.lor x y < 2 ^ 8).
  { intros x y Hx Hy. split; [apply Z.lor_nonneg; split; lia|]. 
    destruct (Z_lt_le_dec (Z.lor x y) (2 ^ 8)) as [X|X]; [exact X|exfalso]. assert (P : 0 < Z.lor x y) by (change (2 ^ 8) with 256 in X; lia).
    apply Z.log2_le_pow2 in X; [|exact P]. rewrite Z.log2_lor in X by lia.
    assert (G : forall v, 0 <= v < 2 ^ 8 -> Z.log2 v <= 7). { intros v Hv. destruct (Z.eq_dec v 0) as [->|E]; [cbn; lia|]. assert (Z.log2 v < 8) by (apply Z.log2_lt_pow2; change (2 ^ 8) with 256 in *; lia). lia. }
    pose proof (G x Hx). pose proof (G y Hy). lia. }
  assert (ER : err = if good then 0 else 1).
  { unfold err, e2, e1. rewrite S1, S2.
    assert (B2 : 0 <= (if (t <? 10)%nat then 1 else 0) < 2 ^ 8) by (destruct (t <? 10)%nat; lia).
    assert (B3 : 0 <= (if (t =? k)%nat then 1 else 0) < 2 ^ 8) by (destruct (t =? k)%nat; lia).
    pose proof (LB _ _ B0 BX) as Q1. pose proof (LB _ _ Q1 B2) as Q2. pose proof (LB _ _ Q2 B3) as Q3.
    rewrite or_fold_spec by (change (2 ^ 8) with 256 in Q3; exact Q3).
    replace (_ =? 0) with good; [reflexivity|]. unfold good. symmetry.
    destruct (Z.eqb_spec (nthZ 0 em) 0) as [Z0|Z0]; cbn [andb]; [|apply Z.eqb_neq; intros X; apply Z.lor_eq_0_iff in X; destruct X as [X _]; apply Z.lor_eq_0_iff in X; destruct X as [X _]; apply Z.lor_eq_0_iff in X; tauto].
    destruct (Z.eqb_spec (nthZ 1 em) 2) as [Z1|Z1]; cbn [andb].
    - rewrite Z0, Z1. destruct (t <? 10)%nat, (t =? k)%nat; reflexivity.
    - apply Z.eqb_neq. intros X. apply Z.lor_eq_0_iff in X. destruct X as [X _]. apply Z.lor_eq_0_iff in X. destruct X as [X _]. apply Z.lor_eq_0_iff in X. destruct X as [_ X]. apply Z.lxor_eq in X. contradiction. }
  unfold st. rewrite ER. clear st err e1 e2 ER S1 S2 BX LB.
  destruct em as [|x0 [|x1 r]]; [cbn in L2; lia..|]. unfold nthZ in B0, B1, good. cbn [nth] in B0, B1, good.
  assert (HB : bytes_ok r) by (inversion B as [|? ? _ B']; inversion B'; assumption).
  assert (T2' : forall i, (i < t - 2)%nat -> nthZ i r <> 0) by (intros i Hi; exact (T2 (S (S i)) ltac:(lia))).
  assert (KL : k = S (S (length r))) by reflexivity.
  destruct good eqn:GD; unfold good in GD.
  - apply Bool.andb_true_iff in GD. destruct GD as [GD G4]. apply Bool.andb_true_iff in GD. destruct GD as [GD G3]. apply Bool.andb_true_iff in GD. destruct GD as [G1 G2].
    apply Z.eqb_eq in G1, G2. apply Bool.negb_true_iff in G3, G4. apply Nat.ltb_ge in G3. apply Nat.eqb_neq in G4.
    left. exists (skipn (t - 1) r).
    assert (E : r = firstn (t - 2) r ++ 0 :: skipn (t - 1) r).
    { rewrite (split_nth r (t - 2)) at 1 by lia. replace (S (t - 2)) with (t - 1)%nat by lia. f_equal. f_equal.
      pose proof (T3 ltac:(lia)) as X. replace t with (S (S (t - 2))) in X by lia. exact X. }
    split.
    + split; [rewrite E in HB; apply Forall_app in HB; destruct HB as [_ HB]; inversion HB; assumption|].
      exists (firstn (t - 2) r). split; [rewrite firstn_length; lia|]. split; [rewrite E in HB; apply Forall_app in HB; tauto|].
      split.
      * apply Forall_forall. intros b Hb. apply (In_nth _ _ 0) in Hb. destruct Hb as (i & Hi & <-). rewrite firstn_length in Hi.
        rewrite nth_firstn. destruct (Nat.ltb_spec i (t - 2)); [|lia]. apply T2'. lia.
      * subst x0 x1. split; [cbn [app]; do 2 f_equal; exact E|reflexivity].
    + rewrite skipn_length. change (Z.lxor 0 1) with 1. lia.
  - right. change (Z.lxor 1 1) with 0. split; [lia|]. intros M (BM & PS & LP & BP & NZ & E & _).
    cbn [app] in E. injection E as -> -> E.
    assert (LR : length r = (length PS + S (length M))%nat) by (rewrite E, app_length; reflexivity).
    assert (TP : t = (2 + length PS)%nat).
    { destruct (lt_eq_lt_dec t (2 + length PS)) as [[H|H]|H]; [exfalso|exact H|exfalso].
      - pose proof (T3 ltac:(lia)) as X. replace t with (S (S (t - 2))) in X by lia. change (nthZ (S (S (t - 2))) (0 :: 2 :: r)) with (nthZ (t - 2) r) in X.
        rewrite E in X. unfold nthZ in X. rewrite app_nth1 in X by lia. rewrite Forall_forall in NZ. apply (NZ (nth (t - 2) PS 0)); [apply nth_In; lia|exact X].
      - apply (T2' (length PS)); [lia|]. rewrite E. unfold nthZ. rewrite app_nth2, Nat.sub_diag by lia. reflexivity. }
    change (0 =? 0) with true in GD. change (2 =? 2) with true in GD. cbn [andb] in GD.
    destruct (Nat.ltb_spec t 10); [lia|]. destruct (Nat.eqb_spec t k); [lia|]. discriminate.
Qed.
