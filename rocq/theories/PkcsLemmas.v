(** Lemmas about the PKCS#1 signature model. *)
From Verif Require Import Base Vlong VlongLemmas VlongDivLemmas VlongMulLemmas Der DerLemmas Blocks HashLemmas PropHash HashIface MacLemmas CmacLemmas PkcsSpec Pkcs1.

(* ---- modular exponentiation when base = modulus is allowed ---- *)
Lemma mulv_last n g K a b mask : good_modfun n K (K - 1) g -> words_ok a -> words_ok b ->
  forall i out, (0 < i)%nat -> words_ok out -> length out = n ->
  let r := mulv_loop a b mask (Some g) i out in
  words_ok (fst r) /\ length (fst r) = n /\ vval (fst r) <= K - 1.
Proof.
  intros G Wa Wb. induction i as [|i IH]; intros out Hi Wo Lo; [lia|]. cbn [mulv_loop run_mod].
  set (bv := Z.lor _ _).
  assert (Wm : words_ok (vlong_muls out a bv true)) by (apply vlong_muls_words; auto).
  assert (Lm : length (vlong_muls out a bv true) = n) by (rewrite vlong_muls_length; auto).
  destruct (G _ Wm Lm) as (v1 & E1 & W1 & L1 & _ & B1). rewrite E1. cbn [negb].
  destruct (Nat.eqb_spec i 0) as [->|Ni].
  - cbn [Nat.eqb fst]. auto.
  - destruct i as [|i']; [lia|]. cbn [Nat.eqb].
    assert (Wx : words_ok (vlong_mulx (length v1) v1)) by (apply vlong_mulx_words; auto).
    assert (Lx : length (vlong_mulx (length v1) v1) = n) by (rewrite vlong_mulx_length; auto).
    destruct (G _ Wx Lx) as (v2 & E2 & W2 & L2 & _ & B2). rewrite E2. cbn [negb].
    apply IH; auto; lia.
Qed.
Lemma modexp_loop_last n g K e : good_modfun n K (K - 1) g ->
  forall k i out tmp, (0 < k)%nat -> (0 < n)%nat -> words_ok out -> length out = n -> words_ok tmp -> length tmp = n ->
  vval (modexp_loop e (Some g) n k i out tmp) <= K - 1.
Proof.
  intros G. induction k as [|k IH]; intros i out tmp Hk Hn Wo Lo Wt Lt; [lia|].
  cbn [modexp_loop]. set (mask := Z.land _ 1).
  assert (Z0 : words_ok (repeat 0 n)) by (apply Forall_forall; intros ? Hx; apply repeat_spec in Hx; subst; unfold word_ok; lia).
  destruct (mulv_last n g K out tmp mask G Wo Wt (length tmp) (repeat 0 n)) as (A & B & C); auto; [lia|apply repeat_length|].
  destruct (mulv_last n g K tmp tmp 1 G Wt Wt (length tmp) (repeat 0 n)) as (A' & B' & _); auto; [lia|apply repeat_length|].
  destruct k; [exact C|]. apply IH; auto; lia.
Qed.

Lemma modexp_le n base e m : words_ok base -> words_ok e -> words_ok m -> (0 < length e)%nat -> (length m <= n)%nat ->
  1 < vval m -> vval base <= vval m -> vval m * 2 ^ 32 < 2 ^ (32 * Z.of_nat n) ->
  exists r, vlong_modexpv n n n base e (Some (fun v => vlong_remv_inplace v m)) = Some r /\ words_ok r /\ length r = n /\
    vval r = (vval base ^ vval e) mod vval m.
Proof.
  intros Wb We Wm Le Ln Hm Hb HK.
  assert (N0 : (0 < n)%nat).
  { destruct n; [|lia]. change (2 ^ (32 * Z.of_nat 0)) with 1 in HK. lia. }
  pose proof (remv_good n m Wm ltac:(lia) Ln) as G.
  destruct (modexpv_mod_spec n base e (vval m) (vval m) (fun v => vlong_remv_inplace v m)) as (r & E & W & L & _ & V); auto; try lia.
  { apply (good_weaken _ _ (vval m - 1)); auto; lia. }
  exists r. repeat split; auto. rewrite <- V. symmetry. apply Z.mod_small. pose proof (vval_bound r W).
  split; [lia|]. enough (vval r <= vval m - 1) by lia.
  unfold vlong_modexpv in E. rewrite Nat.eqb_refl in E. cbn [negb orb] in E. assert (E' : forall a b : list Z, Some a = Some b -> a = b) by (intros a b X; now injection X).
  apply E' in E. rewrite <- E. fold (vlong_cpy n base). apply modexp_loop_last; auto; try lia.
  - apply map_words. intros j. destruct (Nat.eqb j 0); unfold word_ok; lia.
  - now rewrite map_length, seq_length.
  - now apply vlong_cpy_words.
  - apply vlong_cpy_length.
Qed.

(* ---- the range check ---- *)
Lemma sig_above_spec a n : words_ok a -> words_ok n -> forall t,
  sig_above a n t = (vval (vlong_cpy t n) <? vval (vlong_cpy t a)).
Proof.
  intros Wa Wn.
  assert (E : forall l t, vval (vlong_cpy (S t) l) = vval (vlong_cpy t l) + 2 ^ (32 * Z.of_nat t) * (if (t <? length l)%nat then nthZ t l else 0)).
  { intros l t. unfold vlong_cpy. rewrite seq_S, map_app, val_le_app, map_length, seq_length by lia. cbn [map val_le plus]. lia. }
  assert (B : forall l t, words_ok l -> 0 <= vval (vlong_cpy t l) < 2 ^ (32 * Z.of_nat t)).
  { intros l t Wl. pose proof (vval_bound (vlong_cpy t l) (vlong_cpy_words t l Wl)) as X. now rewrite vlong_cpy_length in X. }
  induction t as [|t IH]; [reflexivity|]. cbn [sig_above]. rewrite !E.
  set (u := if (t <? length a)%nat then _ else _). set (v := if (t <? length n)%nat then _ else _).
  pose proof (B a t Wa). pose proof (B n t Wn). set (P := 2 ^ (32 * Z.of_nat t)) in *.
  destruct (Z.ltb_spec v u).
  - symmetry. apply Z.ltb_lt. nia.
  - destruct (Z.ltb_spec u v).
    + symmetry. apply Z.ltb_ge. nia.
    + rewrite IH. assert (u = v) by lia. rewrite H3.
      destruct (Z.ltb_spec (vval (vlong_cpy t n)) (vval (vlong_cpy t a))); symmetry; [apply Z.ltb_lt|apply Z.ltb_ge]; lia.
Qed.
Lemma sig_above_max a n : words_ok a -> words_ok n ->
  sig_above a n (if (length n <? length a)%nat then length a else length n) = (vval n <? vval a).
Proof.
  intros Wa Wn. rewrite sig_above_spec by auto. set (t := if (_ <? _)%nat then length a else _).
  assert (X : (length a <= t)%nat /\ (length n <= t)%nat) by (unfold t; destruct (Nat.ltb_spec (length n) (length a)); lia).
  rewrite !vlong_cpy_val by auto. 
  assert (Q : forall l, words_ok l -> (length l <= t)%nat -> vval l mod 2 ^ (32 * Z.of_nat t) = vval l).
  { intros l Wl Hl. apply Z.mod_small. pose proof (vval_bound l Wl). split; [lia|]. eapply Z.lt_le_trans; [apply H|]. apply Z.pow_le_mono_r; lia. }
  now rewrite !Q by (auto; lia).
Qed.

(* ---- MGF1 ---- *)
Lemma octets_firstn t (d : list Z) : (t <= length d)%nat -> octets t d = firstn t d.
Proof. intros H. unfold octets. rewrite firstn_app. replace (t - length d)%nat with 0%nat by lia. cbn [firstn]. apply app_nil_r. Qed.

Lemma ceil_div_step a b : (0 < b)%nat -> (b < a)%nat -> ceil_div a b = S (ceil_div (a - b) b).
Proof.
  intros Hb Ha. unfold ceil_div. replace (a + b - 1)%nat with ((a - b + b - 1) + 1 * b)%nat by lia.
  rewrite Nat.div_add by lia. lia.
Qed.
Lemma ceil_div_one a b : (0 < a)%nat -> (a <= b)%nat -> ceil_div a b = 1%nat.
Proof.
  intros Ha Hb. unfold ceil_div. replace (a + b - 1)%nat with ((a - 1) + 1 * b)%nat by lia.
  rewrite Nat.div_add by lia. rewrite Nat.div_small; lia.
Qed.
Lemma xorb_list_nil_r a : xorb_list a [] = [].
Proof. now destruct a. Qed.

Section M.
  Variables (hm hg : hash_impl) (G : list Z -> list Z) (lim : Z).
  Hypothesis HG : hash_correct hg G lim.
  Hypothesis Gpos : (0 < hi_out hg)%nat.

  Lemma mgf1_loop_spec inp : bytes_ok inp -> Z.of_nat (length inp) + 4 < lim ->
    forall fuel hc c dst, hi_shape hg hc -> (length dst <= fuel)%nat -> Z.of_nat (c + length dst) < 2 ^ 32 ->
    mgf1_loop hg fuel hc inp (Z.of_nat c) dst
    = xorb_list dst (firstn (length dst) (concat (map (fun c => G (inp ++ be_bytes 4 (Z.of_nat c))) (seq c (ceil_div (length dst) (hi_out hg)))))).
  Proof.
    intros Bi Li. induction fuel as [|fuel IH]; intros hc c dst Sh Lf Lc.
    { destruct dst; [reflexivity|cbn in Lf; lia]. }
    cbn [mgf1_loop]. destruct (Nat.eqb_spec (length dst) 0) as [E0|N0].
    { destruct dst; [reflexivity|discriminate]. }
    set (t := if (hi_out hg <? length dst)%nat then hi_out hg else length dst).
    assert (DG : length (G (inp ++ be_bytes 4 (Z.of_nat c))) = hi_out hg).
    { apply (hc_digest _ _ _ HG). apply Forall_app. split; [auto|apply be_bytes_ok]. }
    assert (R : snd (hi_final hg (hi_update hg (hi_update hg (hi_init hg hc) inp) (be_bytes 4 (Z.of_nat c))) t) = octets t (G (inp ++ be_bytes 4 (Z.of_nat c)))).
    { pose proof (run1 hg G lim HG hc [inp; be_bytes 4 (Z.of_nat c)] t Sh) as X. cbn [fold_left concat] in X. rewrite app_nil_r in X.
      apply X; [constructor; [auto|constructor; [apply be_bytes_ok|constructor]]|]. rewrite app_length, be_bytes_length. lia. }
    assert (Sh2 : hi_shape hg (fst (hi_final hg (hi_update hg (hi_update hg (hi_init hg hc) inp) (be_bytes 4 (Z.of_nat c))) t))).
    { apply (hc_final _ _ _ HG), (hc_update _ _ _ HG), (hc_update _ _ _ HG), (hc_init _ _ _ HG), Sh. }
    destruct (hi_final hg _ t) as [hc' buf]. cbn [fst snd] in R, Sh2. subst buf.
    assert (Ht : (t <= hi_out hg)%nat /\ (t <= length dst)%nat /\ (0 < t)%nat) by (unfold t; destruct (Nat.ltb_spec (hi_out hg) (length dst)); lia).
    rewrite octets_firstn by lia.
    replace (u32 (Z.of_nat c + 1)) with (Z.of_nat (S c)) by (unfold u32; rewrite Z.mod_small; lia).
    rewrite IH by (auto; rewrite ?skipn_length; lia). rewrite skipn_length.
    match goal with |- _ = xorb_list dst ?X => replace (xorb_list dst X) with (xorb_list (firstn t dst ++ skipn t dst) X) by now rewrite firstn_skipn end. unfold t in *. destruct (Nat.ltb_spec (hi_out hg) (length dst)).
    - rewrite ceil_div_step with (a := length dst) by lia. cbn [seq map concat].
      rewrite firstn_app. rewrite DG. rewrite !(@firstn_all2 Z) with (l := G _) by lia.
      rewrite xorb_list_app by (rewrite firstn_length; lia). f_equal.
    - replace (length dst - length dst)%nat with 0%nat by lia. cbn [firstn]. rewrite ceil_div_one by lia. cbn [seq map concat]. rewrite !app_nil_r.
      rewrite (@firstn_all2 Z (length dst) dst), skipn_all by lia. cbn [xorb_list]. now rewrite !app_nil_r.
  Qed.
  Lemma mgf_auto_spec (x : pkctx hm hg) inp dst : hi_shape hg (pk_hmgf x) -> bytes_ok inp -> Z.of_nat (length inp) + 4 < lim ->
    Z.of_nat (length dst) < 2 ^ 32 ->
    mgf_auto hm hg x inp dst = xorb_list dst (rfc_mgf1 G (hi_out hg) inp (length dst)).
  Proof. intros S B L D. exact (mgf1_loop_spec inp B L (length dst) (pk_hmgf x) 0 dst S (le_n _) D). Qed.
  Lemma rfc_mgf1_ok inp n : bytes_ok inp -> bytes_ok (rfc_mgf1 G (hi_out hg) inp n) /\ length (rfc_mgf1 G (hi_out hg) inp n) = n.
  Proof.
    intros B. unfold rfc_mgf1.
    assert (D : forall c, length (G (inp ++ be_bytes 4 (Z.of_nat c))) = hi_out hg /\ bytes_ok (G (inp ++ be_bytes 4 (Z.of_nat c)))).
    { intros c. apply (hc_digest _ _ _ HG). apply Forall_app. split; [auto|apply be_bytes_ok]. }
    split.
    - apply Forall_firstn, concat_bytes, Forall_map, Forall_forall. intros c _. apply D.
    - rewrite firstn_length. 
      assert (L : forall l, length (concat (map (fun c => G (inp ++ be_bytes 4 (Z.of_nat c))) l)) = (length l * hi_out hg)%nat).
      { induction l as [|c l IH]; [reflexivity|]. cbn [map concat length]. rewrite app_length, IH, (proj1 (D c)). lia. }
      rewrite L, seq_length. apply Nat.min_l. unfold ceil_div.
      pose proof (Nat.div_mod (n + hi_out hg - 1) (hi_out hg) ltac:(lia)) as X. pose proof (Nat.mod_upper_bound (n + hi_out hg - 1) (hi_out hg) ltac:(lia)). nia.
  Qed.
End M.
