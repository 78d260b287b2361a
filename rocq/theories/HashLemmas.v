(** The compression functions as coded agree with the standards' definitions. *)
From Verif Require Import Base Hash HashSpec Blocks DerLemmas.

(** Words of w bits. *)
Definition wd (w x : Z) : Prop := 0 <= x < 2 ^ w.

Lemma wrap_wd w x : 0 <= w -> wd w (wrap w x).
Proof. intros H. apply Z.mod_pos_bound. apply Z.pow_pos_nonneg; lia. Qed.
Lemma lxor_wd w x y : 0 <= w -> wd w x -> wd w y -> wd w (Z.lxor x y).
Proof. intros. now apply lxor_bound. Qed.
Lemma land_wd w x y : 0 <= w -> wd w x -> 0 <= y -> wd w (Z.land x y).
Proof.
  intros Hw Hx Hy. unfold wd in *.
  assert (E : Z.land x y = Z.land (Z.land x y) (Z.ones w)).
  { rewrite <- Z.land_assoc, (Z.land_comm y), Z.land_assoc, (Z.land_ones x) by lia.
    now rewrite (Z.mod_small x (2 ^ w)) by lia. }
  rewrite E, Z.land_ones by lia. apply Z.mod_pos_bound. apply Z.pow_pos_nonneg; lia.
Qed.
Lemma lor_wd w x y : 0 <= w -> wd w x -> wd w y -> wd w (Z.lor x y).
Proof.
  intros Hw Hx Hy. unfold wd in *. assert (0 <= Z.lor x y) by (apply Z.lor_nonneg; lia).
  split; auto. destruct (Z.eq_dec (Z.lor x y) 0) as [->|N]; [apply Z.pow_pos_nonneg; lia|].
  apply Z.log2_lt_pow2; [lia|]. rewrite Z.log2_lor by lia.
  assert (L : forall z, 0 <= z < 2 ^ w -> Z.log2 z < w \/ z = 0).
  { intros z Hz. destruct (Z.eq_dec z 0); auto. left. apply Z.log2_lt_pow2; lia. }
  destruct (Z.eq_dec w 0) as [->|W0].
  - assert (x = 0 /\ y = 0) as [-> ->] by lia. cbn in N. lia.
  - destruct (L x), (L y); subst; auto; change (Z.log2 0) with 0; lia.
Qed.

Lemma rotr_wd w n x : 0 <= n <= w -> wd w x -> wd w (rotr w n x).
Proof.
  intros Hn Hx. unfold wd, rotr in *.
  assert (P : 2 ^ w = 2 ^ n * 2 ^ (w - n)) by (rewrite <- Z.pow_add_r by lia; f_equal; lia).
  assert (0 < 2 ^ n) by (apply Z.pow_pos_nonneg; lia). assert (0 < 2 ^ (w - n)) by (apply Z.pow_pos_nonneg; lia).
  pose proof (Z.mod_pos_bound x (2 ^ n) ltac:(lia)). 
  assert (0 <= x / 2 ^ n < 2 ^ (w - n)).
  { split; [apply Z.div_pos; lia|]. apply Z.div_lt_upper_bound; lia. }
  nia.
Qed.
Lemma rotl_wd w n x : 0 <= n <= w -> wd w x -> wd w (rotl w n x).
Proof. intros. apply rotr_wd; auto; lia. Qed.

Lemma shl_mod w n x : 0 <= n <= w -> (x * 2 ^ n) mod 2 ^ w = (x mod 2 ^ (w - n)) * 2 ^ n.
Proof.
  intros H. assert (P : 2 ^ w = 2 ^ (w - n) * 2 ^ n) by (rewrite <- Z.pow_add_r by lia; f_equal; lia).
  rewrite P. apply Z.mul_mod_distr_r; apply Z.pow_nonzero; lia.
Qed.

Lemma cROTR_rotr w n x : 0 <= n <= w -> wd w x -> cROTR w x n = rotr w n x.
Proof.
  intros Hn Hx. unfold cROTR, rotr, wrap. rewrite Z.shiftr_div_pow2, Z.shiftl_mul_pow2 by lia.
  rewrite shl_mod by lia. replace (w - (w - n)) with n by lia.
  apply lor_shift_add; [lia|]. unfold wd in Hx.
  split; [apply Z.div_pos; [lia|apply Z.pow_pos_nonneg; lia]|].
  apply Z.div_lt_upper_bound; [apply Z.pow_pos_nonneg; lia|]. rewrite <- Z.pow_add_r by lia.
  replace (n + (w - n)) with w by lia. lia.
Qed.
Lemma cROTL_rotl w n x : 0 <= n <= w -> wd w x -> cROTL w x n = rotl w n x.
Proof.
  intros Hn Hx. unfold rotl. rewrite <- (cROTR_rotr w (w - n) x) by (auto; lia).
  unfold cROTL, cROTR. rewrite Z.lor_comm. f_equal. f_equal. f_equal. lia.
Qed.

Lemma cnot_compl w x : 0 <= w -> wd w x -> cnot w x = compl w x.
Proof.
  intros Hw Hx. unfold cnot, compl, wd in *. rewrite Z.sub_1_r, <- Z.ones_equiv.
  assert (S : Z.ldiff x (Z.ones w) = 0).
  { apply Z.bits_inj'. intros k Hk. rewrite Z.ldiff_spec, Z.bits_0.
    destruct (Z_lt_ge_dec k w) as [L|L].
    - rewrite Z.ones_spec_low by lia. apply andb_false_r.
    - rewrite <- (Z.mod_small x (2 ^ w)) by lia. rewrite Z.mod_pow2_bits_high by lia. reflexivity. }
  rewrite Z.sub_nocarry_ldiff by exact S.
  apply Z.bits_inj'. intros k Hk. rewrite Z.lxor_spec, Z.ldiff_spec.
  assert (T : Z.testbit (Z.ldiff x (Z.ones w)) k = false) by (rewrite S; apply Z.bits_0).
  rewrite Z.ldiff_spec in T. destruct (Z.testbit x k), (Z.testbit (Z.ones w) k); cbn in *; congruence.
Qed.
Lemma compl_wd w x : wd w x -> wd w (compl w x).
Proof. unfold wd, compl. lia. Qed.

Lemma cCh_Ch w x y z : 0 <= w -> wd w x -> cCh w x y z = Ch w x y z.
Proof. intros. unfold cCh, Ch. now rewrite cnot_compl. Qed.
Lemma cMaj_Maj x y z : cMaj x y z = Maj x y z.
Proof. unfold cMaj, Maj. now rewrite Z.lxor_assoc. Qed.
Lemma cParity_Parity x y z : cParity x y z = Parity x y z.
Proof. unfold cParity, Parity. now rewrite Z.lxor_assoc. Qed.

Lemma add_w_mod w x y : add_w w x (add_w w y 0) = add_w w x y.
Proof. unfold add_w. now rewrite Z.add_0_r, Zplus_mod_idemp_r. Qed.
Lemma add_w2 w a b : wrap w (a + b) = add_w w a b.
Proof. reflexivity. Qed.
Lemma add_w_r w x y : add_w w x (wrap w y) = wrap w (x + y).
Proof. unfold add_w, wrap. apply Zplus_mod_idemp_r. Qed.

(** Loaded words. *)
Lemma load_words_of wb msg : load_words wb 16 msg = words_of wb msg.
Proof. reflexivity. Qed.
Lemma words_of_length wb msg : length (words_of wb msg) = 16%nat.
Proof. unfold words_of. now rewrite map_length, seq_length. Qed.
Lemma be_val_firstn_wd wb l : bytes_ok l -> wd (8 * Z.of_nat wb) (be_val (firstn wb l)).
Proof.
  intros H. pose proof (be_val_bound (firstn wb l) (Forall_firstn _ _ _ H)) as B. unfold wd.
  split; [lia|]. apply Z.lt_le_trans with (1 := proj2 B). apply Z.pow_le_mono_r; [lia|].
  rewrite firstn_length. lia.
Qed.
Lemma words_of_wd wb msg : bytes_ok msg -> Forall (wd (8 * Z.of_nat wb)) (words_of wb msg).
Proof.
  intros H. apply Forall_forall. intros x Hx. unfold words_of in Hx. apply in_map_iff in Hx.
  destruct Hx as (t & <- & _). apply be_val_firstn_wd. now apply Forall_skipn.
Qed.

(** Schedules. *)
Lemma schedule_length f M k : length (schedule f M k) = (length M + k)%nat.
Proof.
  induction k as [|k IH]; cbn [schedule]; [lia|]. rewrite app_length, IH. cbn [length]. lia.
Qed.
Lemma schedule_prefix f M k k' t : (k <= k')%nat -> (t < length M + k)%nat ->
  nthZ t (schedule f M k') = nthZ t (schedule f M k).
Proof.
  intros Hk Ht. induction Hk as [|k' Hk IH]; auto. cbn [schedule]. unfold nthZ in *.
  rewrite app_nth1; [exact IH|]. rewrite schedule_length. lia.
Qed.
Lemma schedule_next f M k k' : (k < k')%nat ->
  nthZ (length M + k) (schedule f M k') = f (schedule f M k) (length M + k)%nat.
Proof.
  intros H. rewrite (schedule_prefix f M (S k) k') by lia. cbn [schedule]. unfold nthZ.
  rewrite app_nth2; rewrite schedule_length; [|lia]. now rewrite Nat.sub_diag.
Qed.
(** Recurrence, seen from the complete schedule. *)
Lemma schedule_rec f M k t : length M = 16%nat -> (16 <= t < 16 + k)%nat ->
  (forall W W', (forall i, (i < t)%nat -> nthZ i W = nthZ i W') -> f W t = f W' t) ->
  nthZ t (schedule f M k) = f (schedule f M k) t.
Proof.
  intros HM Ht Hf. replace t with (length M + (t - 16))%nat at 1 by lia.
  rewrite schedule_next by lia. replace (length M + (t - 16))%nat with t by lia.
  apply Hf. intros i Hi. symmetry. apply schedule_prefix; lia.
Qed.
Lemma schedule_wd f M k w : length M = 16%nat -> Forall (wd w) M -> 0 <= w ->
  (forall W t, (16 <= t)%nat -> (forall i, (i < t)%nat -> wd w (nthZ i W)) -> wd w (f W t)) ->
  forall i, wd w (nthZ i (schedule f M k)).
Proof.
  intros HM HF Hw Hf. induction k as [|k IH]; intros i; cbn [schedule].
  - destruct (Nat.lt_ge_cases i (length M)) as [L|L].
    + rewrite Forall_forall in HF. apply HF. now apply nth_In.
    + unfold nthZ. rewrite nth_overflow by lia. unfold wd. split; [lia|]. apply Z.pow_pos_nonneg; lia.
  - unfold nthZ. destruct (Nat.lt_trichotomy i (length (schedule f M k))) as [L|[L|L]].
    + rewrite app_nth1 by auto. apply IH.
    + rewrite app_nth2, L, Nat.sub_diag by lia. cbn [nth]. apply Hf; auto.
      rewrite schedule_length. lia.
    + rewrite nth_overflow; [unfold wd; split; [lia|]; apply Z.pow_pos_nonneg; lia|].
      rewrite app_length. cbn. lia.
Qed.

(** The circular buffer holds the last sixteen schedule words. *)
Definition circ (t : nat) (Wc Wf : list Z) : Prop :=
  length Wc = 16%nat /\ forall i, (i < Nat.max 16 t)%nat -> (t <= i + 16)%nat -> nthZ (i mod 16) Wc = nthZ i Wf.

Lemma circ_init M f k : length M = 16%nat -> circ 0 M (schedule f M k).
Proof.
  intros H. split; auto. intros i Hi _. rewrite Nat.mod_small by lia. symmetry.
  rewrite (schedule_prefix f M 0 k i) by lia. reflexivity.
Qed.

Lemma mod16_neq i t : (i < t < i + 16)%nat -> (t mod 16 <> i mod 16)%nat.
Proof.
  intros H E. pose proof (Nat.div_mod i 16 ltac:(lia)). pose proof (Nat.div_mod t 16 ltac:(lia)). lia.
Qed.

Lemma circ_step t Wc Wf x : circ t Wc Wf -> (16 <= t)%nat -> x = nthZ t Wf -> circ (S t) (upd (t mod 16) x Wc) Wf.
Proof.
  intros [L H] Ht ->. split; [now rewrite upd_length|]. intros i Hi Hi2.
  destruct (Nat.eq_dec i t) as [->|N].
  - unfold nthZ. rewrite nth_upd_eq; auto. rewrite L. apply Nat.mod_upper_bound. lia.
  - unfold nthZ. rewrite nth_upd_neq by (apply mod16_neq; lia). apply H; lia.
Qed.
Lemma circ_low t Wc Wf : circ t Wc Wf -> (t < 16)%nat -> circ (S t) Wc Wf.
Proof. intros [L H] Ht. split; auto. intros i Hi Hi2. apply H; lia. Qed.

Lemma nthZ_wd w l i : 0 <= w -> Forall (wd w) l -> wd w (nthZ i l).
Proof.
  intros Hw H. destruct (Nat.lt_ge_cases i (length l)) as [L|L].
  - rewrite Forall_forall in H. apply H. now apply nth_In.
  - unfold nthZ. rewrite nth_overflow by lia. unfold wd. split; [lia|]. apply Z.pow_pos_nonneg; lia.
Qed.

(** ---- SHA-1 ---- *)
Lemma nthZ_0 a l : nthZ 0 (a :: l) = a. Proof. reflexivity. Qed.
Lemma nthZ_S i a l : nthZ (S i) (a :: l) = nthZ i l. Proof. reflexivity. Qed.

Definition rel5 (v : list Z) (s : Z * Z * Z * Z * Z) : Prop :=
  let '(a, b, c, d, e) := s in v = [a; b; c; d; e] /\ wd 32 a /\ wd 32 b /\ wd 32 c /\ wd 32 d /\ wd 32 e.

Lemma sha1_W_local W W' t : (16 <= t)%nat -> (forall i, (i < t)%nat -> nthZ i W = nthZ i W') -> sha1_W W t = sha1_W W' t.
Proof. intros Ht H. unfold sha1_W. rewrite !H by lia. reflexivity. Qed.

Lemma sha1_K_eq t : K_sha1 t = sha1_K t.
Proof.
  unfold K_sha1, sha1_K.
  reflexivity.
Qed.
Lemma sha1_f_eq t x y z : wd 32 x ->
  (if (t <? 20)%nat then cCh 32 x y z else if (t <? 40)%nat then cParity x y z
      else if (t <? 60)%nat then cMaj x y z else cParity x y z) = sha1_f t x y z.
Proof.
  intros Hx. unfold sha1_f. rewrite cCh_Ch, cMaj_Maj, cParity_Parity by (auto; lia).
  reflexivity.
Qed.

Lemma sha1_step_rel Wf t v W s :
  (forall i, wd 32 (nthZ i Wf)) ->
  ((16 <= t)%nat -> nthZ t Wf = sha1_W Wf t) ->
  circ t W Wf -> rel5 v s ->
  circ (S t) (snd (sha1_step (v, W) t)) Wf /\ rel5 (fst (sha1_step (v, W) t)) (sha1_round Wf s t).
Proof.
  intros HW Hrec HC HR. destruct s as [[[[a b] c] d] e]. destruct HR as (-> & Ha & Hb & Hc & Hd & He).
  unfold sha1_step, sha1_round. cbv zeta. rewrite ?nthZ_S, ?nthZ_0.
  set (W1 := if (t <? 16)%nat then W else _).
  assert (C1 : circ (S t) W1 Wf).
  { unfold W1. destruct (Nat.ltb_spec t 16) as [L|L]; [now apply circ_low|].
    apply circ_step; auto. rewrite Hrec by auto. unfold sha1_W.
    destruct HC as [_ HC]. rewrite !HC by lia. rewrite !Z.lxor_assoc.
    apply cROTL_rotl; [lia|]. repeat apply lxor_wd; try lia; apply HW. }
  cbn [fst snd]. split; auto.
  assert (WT : nthZ (t mod 16) W1 = nthZ t Wf) by (apply C1; lia).
  rewrite WT, sha1_f_eq, sha1_K_eq, !cROTL_rotl by (auto; lia).
  assert (E : wrap 32 (rotl 32 5 a + sha1_f t b c d + e + sha1_K t + nthZ t Wf) =
              add_w 32 (rotl 32 5 a) (add_w 32 (sha1_f t b c d) (add_w 32 e (add_w 32 (sha1_K t) (nthZ t Wf))))).
  { rewrite <- (add_w2 32 (sha1_K t)). rewrite !add_w_r. f_equal. ring. }
  rewrite <- E. split; [reflexivity|]. split; [apply wrap_wd; lia|]. repeat split; auto; try apply Ha; try apply Hc; try apply Hd;
  apply rotl_wd; auto; lia.
Qed.

Definition state_wd (w : Z) (n : nat) (H : list Z) : Prop := length H = n /\ Forall (wd w) H.

Lemma sha1_compress_eq H blk : state_wd 32 5 H -> bytes_ok blk -> compressfunc_sha1 H blk = sha1_compress H blk.
Proof.
  intros [HL HF] Hb. unfold compressfunc_sha1, sha1_compress. cbv zeta.
  rewrite load_words_of. set (M := words_of 4 blk). set (Wf := schedule sha1_W M 64).
  assert (LM : length M = 16%nat) by apply words_of_length.
  assert (WM : Forall (wd 32) M) by (apply (words_of_wd 4 blk); auto).
  assert (HW : forall i, wd 32 (nthZ i Wf)).
  { apply schedule_wd; auto; [lia|]. intros W t Ht Hi. unfold sha1_W. apply rotl_wd; [lia|].
    repeat apply lxor_wd; try lia; apply Hi; lia. }
  destruct H as [|a [|b [|c [|d [|e [|? ?]]]]]]; try discriminate HL.
  rewrite !nthZ_S, !nthZ_0.
  pose proof (fold_seq_inv (fun t (x : list Z * list Z) y => circ t (snd x) Wf /\ rel5 (fst x) y)
               sha1_step (sha1_round Wf) 80 0 ([a; b; c; d; e], M) (a, b, c, d, e)) as F.
  destruct F as [_ F].
  - cbn [fst snd]. split; [now apply circ_init|]. rewrite !Forall_cons_iff in HF. cbn. tauto.
  - intros t [v W] s Ht [HC HR]. apply sha1_step_rel; auto.
    intros H16. apply schedule_rec; auto; [lia|]. intros; now apply sha1_W_local.
  - destruct (fold_left sha1_step (seq 0 80) ([a; b; c; d; e], M)) as [v W'].
    destruct (fold_left (sha1_round Wf) (seq 0 80) (a, b, c, d, e)) as [[[[a' b'] c'] d'] e'].
    cbn [fst] in F. destruct F as [-> _]. cbn [accum].
    unfold add_w, wrap. now rewrite (Z.add_comm a a'), (Z.add_comm b b'), (Z.add_comm c c'), (Z.add_comm d d'), (Z.add_comm e e').
Qed.

(** ---- SHA-2 ---- *)
Definition rel8 (w : Z) (v : list Z) (s : Z * Z * Z * Z * Z * Z * Z * Z) : Prop :=
  let '(a, b, c, d, e, f, g, h) := s in v = [a; b; c; d; e; f; g; h] /\ Forall (wd w) [a; b; c; d; e; f; g; h].

Definition SSig (w : Z) (r : Z * Z * Z) (x : Z) : Z := let '(i, j, k) := r in x3 (rotr w i x) (rotr w j x) (rotr w k x).
Definition ssig (w : Z) (r : Z * Z * Z) (x : Z) : Z := let '(i, j, k) := r in x3 (rotr w i x) (rotr w j x) (x / 2 ^ k).
Definition rot_ok (w : Z) (r : Z * Z * Z) : Prop := let '(i, j, k) := r in 0 <= i <= w /\ 0 <= j <= w /\ 0 <= k <= w.

Lemma div_wd w x k : 0 <= k -> wd w x -> wd w (x / 2 ^ k).
Proof.
  intros Hk Hx. unfold wd in *. split; [apply Z.div_pos; [lia|apply Z.pow_pos_nonneg; lia]|].
  apply Z.le_lt_trans with x; [|lia].
  apply Z.div_le_upper_bound; [apply Z.pow_pos_nonneg; lia|]. assert (1 <= 2 ^ k) by (apply Z.pow_pos_nonneg with (a:=2) in Hk; lia). nia.
Qed.
Lemma cSigma_eq w r x : rot_ok w r -> wd w x -> cSigma w r x = SSig w r x.
Proof.
  destruct r as [[i j] k]. intros (A & B & C) Hx. unfold cSigma, SSig, x3. rewrite !cROTR_rotr by auto. apply Z.lxor_assoc.
Qed.
Lemma csigma_eq w r x : rot_ok w r -> wd w x -> csigma w r x = ssig w r x.
Proof.
  destruct r as [[i j] k]. intros (A & B & C) Hx. unfold csigma, ssig, x3. rewrite !cROTR_rotr by auto.
  rewrite Z.shiftr_div_pow2 by lia. apply Z.lxor_assoc.
Qed.

Record sha2_ok (p : sha2_params) : Prop := {
  ok_w : s2_w p = 8 * Z.of_nat (s2_wb p); ok_S0 : rot_ok (s2_w p) (s2_S0 p); ok_S1 : rot_ok (s2_w p) (s2_S1 p);
  ok_s0 : rot_ok (s2_w p) (s2_s0 p); ok_s1 : rot_ok (s2_w p) (s2_s1 p); ok_r : (16 <= s2_rounds p)%nat }.

Definition spec_sha2 (p : sha2_params) : list Z -> list Z -> list Z :=
  sha2_compress (s2_w p) (s2_wb p) (SSig (s2_w p) (s2_S0 p)) (SSig (s2_w p) (s2_S1 p))
    (ssig (s2_w p) (s2_s0 p)) (ssig (s2_w p) (s2_s1 p)) (s2_K p) (s2_rounds p).

Lemma sha2_compress_eq p H blk : sha2_ok p -> state_wd (s2_w p) 8 H -> bytes_ok blk ->
  compressfunc_sha2 p H blk = spec_sha2 p H blk.
Proof.
  intros [Ow OS0 OS1 Os0 Os1 Or] [HL HF] Hb. unfold compressfunc_sha2, spec_sha2, sha2_compress. cbv zeta.
  rewrite load_words_of. set (w := s2_w p) in *.
  assert (Hw : 0 <= w) by lia.
  set (SW := sha2_W w (ssig w (s2_s0 p)) (ssig w (s2_s1 p))).
  set (M := words_of (s2_wb p) blk). set (Wf := schedule SW M (s2_rounds p - 16)).
  set (rnd := sha2_round w (SSig w (s2_S0 p)) (SSig w (s2_S1 p)) (s2_K p) Wf).
  assert (LM : length M = 16%nat) by apply words_of_length.
  assert (WM : Forall (wd w) M) by (rewrite Ow; apply words_of_wd; auto).
  assert (HW : forall i, wd w (nthZ i Wf)).
  { apply schedule_wd; auto. intros W t Ht Hi. unfold SW, sha2_W. apply wrap_wd; lia. }
  destruct H as [|a [|b [|c [|d [|e [|f [|g [|h [|? ?]]]]]]]]]; try discriminate HL.
  rewrite !nthZ_S, !nthZ_0.
  pose proof (fold_seq_inv (fun t (x : list Z * list Z) y => circ t (snd x) Wf /\ rel8 w (fst x) y)
               (sha2_step p) rnd (s2_rounds p) 0 ([a; b; c; d; e; f; g; h], M) (a, b, c, d, e, f, g, h)) as F.
  destruct F as [_ F].
  - cbn [fst snd]. split; [now apply circ_init|]. split; auto.
  - intros t [v W] [[[[[[[a' b'] c'] d'] e'] f'] g'] h'] Ht [HC [Hv Hwd]]. cbn [fst snd] in *. subst v.
    rewrite !Forall_cons_iff in Hwd. destruct Hwd as (Ha & Hb' & Hc & Hd & He & Hf & Hg & Hh & _).
    unfold sha2_step, rnd, sha2_round. cbv zeta. fold w. rewrite ?nthZ_S, ?nthZ_0.
    set (W1 := if (t <? 16)%nat then W else _).
    assert (C1 : circ (S t) W1 Wf).
    { unfold W1. destruct (Nat.ltb_spec t 16) as [L|L]; [now apply circ_low|].
      apply circ_step; auto.
      assert (R : nthZ t Wf = SW Wf t).
      { apply schedule_rec; auto; [lia|]. intros A B HAB. unfold SW, sha2_W. rewrite !HAB by lia. reflexivity. }
      rewrite R. unfold SW, sha2_W. destruct HC as [_ HC]. rewrite !HC by lia.
      rewrite !csigma_eq by auto.
      rewrite <- (add_w2 w (ssig w (s2_s0 p) _)), !add_w_r. f_equal. ring. }
    cbn [fst snd]. split; auto.
    assert (WT : nthZ (t mod 16) W1 = nthZ t Wf) by (apply C1; lia).
    rewrite WT, !cSigma_eq, cCh_Ch, cMaj_Maj by auto.
    set (T1 := wrap w (h' + _ + _ + _ + _)). set (T1' := add_w w h' _).
    assert (E : T1 = T1').
    { unfold T1, T1'. rewrite <- (add_w2 w (nthZ t (s2_K p))), !add_w_r. f_equal. ring. }
    rewrite <- E, !add_w2. split; [reflexivity|].
    rewrite !Forall_cons_iff. repeat split; auto; try apply Ha; try apply Hb'; try apply Hc; try apply He; try apply Hf; try apply Hg;
      apply wrap_wd; auto.
  - destruct (fold_left (sha2_step p) _ _) as [v W'].
    destruct (fold_left rnd _ _) as [[[[[[[a' b'] c'] d'] e'] f'] g'] h'].
    cbn [fst] in F. destruct F as [-> _]. cbn [accum].
    unfold add_w, wrap. now rewrite (Z.add_comm a a'), (Z.add_comm b b'), (Z.add_comm c c'), (Z.add_comm d d'), (Z.add_comm e e'),
      (Z.add_comm f f'), (Z.add_comm g g'), (Z.add_comm h h').
Qed.

Lemma sha256_ok : sha2_ok sha256_params. Proof. constructor; cbn; lia. Qed.
Lemma sha512_ok : sha2_ok sha512_params. Proof. constructor; cbn; lia. Qed.

Lemma spec_sha256 : spec_sha2 sha256_params = sha256_compress K_sha256.
Proof.
  unfold spec_sha2, sha256_compress.
  cbn [s2_w s2_wb s2_S0 s2_S1 s2_s0 s2_s1 s2_K s2_rounds sha256_params]. unfold SSig, ssig. reflexivity.
Qed.
Lemma sha256_compress_eq H blk : state_wd 32 8 H -> bytes_ok blk ->
  compressfunc_sha2 sha256_params H blk = sha256_compress K_sha256 H blk.
Proof. intros HH Hb. rewrite (sha2_compress_eq sha256_params H blk sha256_ok) by auto. now rewrite spec_sha256. Qed.
Lemma spec_sha512 : spec_sha2 sha512_params = sha512_compress K_sha512.
Proof.
  unfold spec_sha2, sha512_compress.
  cbn [s2_w s2_wb s2_S0 s2_S1 s2_s0 s2_s1 s2_K s2_rounds sha512_params]. unfold SSig, ssig. reflexivity.
Qed.
Lemma sha512_compress_eq H blk : state_wd 64 8 H -> bytes_ok blk ->
  compressfunc_sha2 sha512_params H blk = sha512_compress K_sha512 H blk.
Proof. intros HH Hb. rewrite (sha2_compress_eq sha512_params H blk sha512_ok) by auto. now rewrite spec_sha512. Qed.

(** ---- SM3 ---- *)
Lemma xorb_wd w a b : 0 <= w -> Forall (wd w) a -> Forall (wd w) b -> Forall (wd w) (xorb_list a b).
Proof.
  intros Hw Ha; revert b; induction Ha; intros b Hb; cbn [xorb_list]; [constructor|].
  destruct Hb; constructor; auto. now apply lxor_wd.
Qed.
Lemma add4a w x a b c : wrap w (x + wrap w (a + b + c)) = add_w w a (add_w w b (add_w w c x)).
Proof. rewrite <- (add_w2 w c x), !add_w_r. unfold wrap. rewrite !Zplus_mod_idemp_r. f_equal. ring. Qed.
Lemma add4b w a b c d : wrap w (a + b + c + d) = add_w w a (add_w w b (add_w w c d)).
Proof. rewrite <- (add_w2 w c d), !add_w_r. unfold wrap. f_equal. ring. Qed.
Lemma add3a w x a b : wrap w (x + wrap w (a + b)) = add_w w a (add_w w b x).
Proof. unfold wrap, add_w. rewrite !Zplus_mod_idemp_r. f_equal. ring. Qed.
Definition circ_ahead (j : nat) (Wc Wf : list Z) : Prop :=
  length Wc = 16%nat /\ forall i, (i < 16)%nat -> (i + j < 68)%nat -> nthZ ((j + i) mod 16) Wc = nthZ (j + i) Wf.

Lemma mod16_add j k : ((j mod 16 + k) mod 16 = (j + k) mod 16)%nat.
Proof. rewrite Nat.add_mod_idemp_l by lia. reflexivity. Qed.

Lemma sm3_compress_full V blk : state_wd 32 8 V -> bytes_ok blk ->
  compressfunc_sm3 V blk = sm3_compress V blk /\ state_wd 32 8 (compressfunc_sm3 V blk).
Proof.
  intros [HL HF] Hb. unfold compressfunc_sm3, sm3_compress. cbv zeta.
  rewrite load_words_of. set (M := words_of 4 blk). set (Wf := schedule sm3_W M 52).
  assert (LM : length M = 16%nat) by apply words_of_length.
  assert (WM : Forall (wd 32) M) by (apply (words_of_wd 4 blk); auto).
  assert (WD : forall W t, (16 <= t)%nat -> (forall i, (i < t)%nat -> wd 32 (nthZ i W)) -> wd 32 (sm3_W W t)).
  { intros W t Ht Hi. unfold sm3_W, x3, SP1, x3.
    repeat (apply lxor_wd || apply rotl_wd); try lia; apply Hi; lia. }
  assert (HW : forall i, wd 32 (nthZ i Wf)) by (apply schedule_wd; auto; lia).
  destruct V as [|a [|b [|c [|d [|e [|f [|g [|h [|? ?]]]]]]]]]; try discriminate HL.
  rewrite !nthZ_S, !nthZ_0.
  pose proof (fold_seq_inv (fun t (x : list Z * list Z) y => circ_ahead t (snd x) Wf /\ rel8 32 (fst x) y)
               sm3_step (sm3_round Wf) 64 0 ([a; b; c; d; e; f; g; h], M) (a, b, c, d, e, f, g, h)) as F.
  destruct F as [_ F].
  - cbn [fst snd]. split; [|split; auto]. split; auto. intros i Hi _. cbn [Nat.add]. rewrite Nat.mod_small by lia.
    symmetry. unfold Wf. rewrite (schedule_prefix sm3_W M 0 52 i) by lia. reflexivity.
  - intros j [v W] [[[[[[[A B] C] D] E] F] G] H] Hj [HC [Hv Hwd]]. cbn [fst snd] in *. subst v.
    rewrite !Forall_cons_iff in Hwd. destruct Hwd as (HA & HB & HCc & HD & HE & HFf & HG & HH & _).
    destruct HC as [LW HC].
    assert (W0 : nthZ (j mod 16) W = nthZ j Wf).
    { specialize (HC 0%nat ltac:(lia) ltac:(lia)). rewrite Nat.add_0_r in HC. exact HC. }
    assert (WK : forall k, (k < 16)%nat -> (k + j < 68)%nat -> nthZ ((j mod 16 + k) mod 16) W = nthZ (j + k) Wf).
    { intros k Hk Hk2. rewrite mod16_add. now apply HC. }
    unfold sm3_step, sm3_round. cbv zeta. rewrite ?nthZ_S, ?nthZ_0. cbn [fst snd].
    split.
    + split; [now rewrite upd_length|]. intros i Hi Hi2.
      destruct (Nat.eq_dec i 15) as [->|N].
      * replace (S j + 15)%nat with (j + 16)%nat by lia.
        replace ((j + 16) mod 16)%nat with (j mod 16)%nat by (rewrite <- (mod16_add j 16);
          replace (j mod 16 + 16)%nat with (j mod 16 + 1 * 16)%nat by lia; rewrite Nat.mod_add, Nat.mod_mod by lia; reflexivity).
        unfold nthZ at 1. rewrite nth_upd_eq by (rewrite LW; apply Nat.mod_upper_bound; lia).
        assert (R : nthZ (j + 16) Wf = sm3_W Wf (j + 16)).
        { apply schedule_rec; auto; [lia|]. intros X Y HXY. unfold sm3_W. rewrite !HXY by lia. reflexivity. }
        rewrite R. unfold sm3_W. rewrite W0, !WK by lia.
        replace (j + 16 - 16)%nat with j by lia. replace (j + 16 - 9)%nat with (j + 7)%nat by lia.
        replace (j + 16 - 3)%nat with (j + 13)%nat by lia. replace (j + 16 - 13)%nat with (j + 3)%nat by lia.
        replace (j + 16 - 6)%nat with (j + 10)%nat by lia.
        unfold sm3_P1, SP1, x3. rewrite !cROTL_rotl; try lia; try apply HW.
        -- now rewrite !Z.lxor_assoc.
        -- repeat (apply lxor_wd || apply rotl_wd); try lia; apply HW.
        -- repeat (apply lxor_wd || apply rotl_wd); try lia; apply HW.
      * unfold nthZ at 1. rewrite nth_upd_neq.
        -- specialize (HC (S i) ltac:(lia) ltac:(lia)). replace (S j + i)%nat with (j + S i)%nat by lia. exact HC.
        -- intros Q. symmetry in Q. revert Q. apply mod16_neq. lia.
    + rewrite W0, WK by lia.
      assert (ET : (if Nat.eqb (j mod 32) 0 then sm3_T j else cROTL 32 (sm3_T j) (Z.of_nat (j mod 32))) =
                   rotl 32 (Z.of_nat (j mod 32)) (sm3_Tj j)).
      { assert (TT : sm3_T j = sm3_Tj j).
        { unfold sm3_T, sm3_Tj. destruct (Nat.leb_spec j 15), (Nat.ltb_spec j 16); try lia; auto.
          destruct (Nat.leb_spec j 63); [reflexivity|lia]. }
        rewrite TT. assert (TW : wd 32 (sm3_Tj j)) by (unfold sm3_Tj; destruct (_ <? _)%nat; unfold wd; lia).
        pose proof (Nat.mod_upper_bound j 32 ltac:(lia)).
        destruct (Nat.eqb_spec (j mod 32) 0) as [->|N].
        - unfold rotl, rotr. change (32 - Z.of_nat 0) with 32. change (32 - 32) with 0. unfold wd in TW.
          rewrite Z.div_small, Z.mod_small by lia. change (2 ^ 0) with 1. lia.
        - apply cROTL_rotl; auto. lia. }
      rewrite ET. clear ET.
      assert (EF : sm3_FF j A B C = sm3_FFj j A B C).
      { unfold sm3_FF, sm3_FFj, x3. destruct (Nat.leb_spec j 15), (Nat.ltb_spec j 16); try lia.
        - apply Z.lxor_assoc.
        - destruct (Nat.leb_spec j 63); [|lia]. now rewrite Z.lor_assoc. }
      assert (EG : sm3_GG j E F G = sm3_GGj j E F G).
      { unfold sm3_GG, sm3_GGj, x3. destruct (Nat.leb_spec j 15), (Nat.ltb_spec j 16); try lia.
        - apply Z.lxor_assoc.
        - destruct (Nat.leb_spec j 63); [|lia]. rewrite cnot_compl by (auto; lia). reflexivity. }
      rewrite EF, EG. set (rt := rotl 32 (Z.of_nat (j mod 32)) (sm3_Tj j)).
      rewrite !(cROTL_rotl 32 12 A) by (auto; lia).
      assert (S1W : wrap 32 (rt + wrap 32 (rotl 32 12 A + E)) = add_w 32 (rotl 32 12 A) (add_w 32 E rt)).
      { apply add3a. }
      rewrite S1W. set (ss := add_w 32 (rotl 32 12 A) (add_w 32 E rt)).
      assert (SSW : wd 32 ss) by (apply wrap_wd; lia).
      rewrite !(cROTL_rotl 32 7 ss) by (auto; lia). set (SS1 := rotl 32 7 ss).
      set (SS2 := Z.lxor SS1 (rotl 32 12 A)).
      set (x := Z.lxor (nthZ j Wf) (nthZ (j + 4) Wf)).
      assert (T1 : wrap 32 (x + wrap 32 (sm3_FFj j A B C + D + SS2)) =
                   add_w 32 (sm3_FFj j A B C) (add_w 32 D (add_w 32 SS2 x))).
      { apply add4a. }
      assert (T2 : wrap 32 (sm3_GGj j E F G + H + SS1 + nthZ j Wf) =
                   add_w 32 (sm3_GGj j E F G) (add_w 32 H (add_w 32 SS1 (nthZ j Wf)))).
      { apply add4b. }
      rewrite T1, T2. set (TT1 := add_w 32 (sm3_FFj j A B C) _). set (TT2 := add_w 32 (sm3_GGj j E F G) _).
      assert (TT2W : wd 32 TT2) by (apply wrap_wd; lia).
      unfold sm3_P0, SP0, x3. rewrite !cROTL_rotl by (auto; lia). rewrite Z.lxor_assoc.
      split; [reflexivity|].
      rewrite !Forall_cons_iff.
      repeat match goal with |- _ /\ _ => split end; auto;
        repeat (apply lxor_wd || apply rotl_wd); auto; try lia.
      apply wrap_wd; lia.
  - destruct (fold_left sm3_step _ _) as [v W'].
    destruct (fold_left (sm3_round Wf) _ _) as [[[[[[[A B] C] D] E] F'] G] H].
    cbn [fst] in F. destruct F as [-> FW]. split.
    2:{ split; [reflexivity|]. apply xorb_wd; auto; lia. }
    cbn [xorb_list].
    now rewrite (Z.lxor_comm a A), (Z.lxor_comm b B), (Z.lxor_comm c C), (Z.lxor_comm d D), (Z.lxor_comm e E),
      (Z.lxor_comm f F'), (Z.lxor_comm g G), (Z.lxor_comm h H).
Qed.

Lemma sm3_compress_eq V blk : state_wd 32 8 V -> bytes_ok blk -> compressfunc_sm3 V blk = sm3_compress V blk.
Proof. intros. now apply sm3_compress_full. Qed.

(** Outputs stay in range and keep their length. *)
Lemma accum_length w H v : length (accum w H v) = Nat.min (length H) (length v).
Proof. revert v; induction H as [|h H IH]; intros [|x v]; cbn [accum length]; auto. now rewrite IH. Qed.
Lemma accum_wd w H v : 0 <= w -> Forall (wd w) (accum w H v).
Proof. intros Hw. revert v; induction H as [|h H IH]; intros [|x v]; cbn [accum]; constructor; auto. apply wrap_wd; lia. Qed.

Lemma sha1_state H blk : state_wd 32 5 H -> bytes_ok blk -> state_wd 32 5 (compressfunc_sha1 H blk).
Proof.
  intros HH Hb. rewrite sha1_compress_eq by auto. unfold sha1_compress. cbv zeta.
  destruct (fold_left _ _ _) as [[[[a b] c] d] e]. split; [reflexivity|].
  repeat constructor; try apply wrap_wd; try apply Z.mod_pos_bound; lia.
Qed.
Lemma sha2_state p H blk : sha2_ok p -> state_wd (s2_w p) 8 H -> bytes_ok blk ->
  state_wd (s2_w p) 8 (compressfunc_sha2 p H blk).
Proof.
  intros Op HH Hb. rewrite (sha2_compress_eq p) by auto. unfold spec_sha2, sha2_compress. cbv zeta.
  destruct (fold_left _ _ _) as [[[[[[[a b] c] d] e] f] g] h]. split; [reflexivity|].
  destruct Op as [Ow _ _ _ _ _]. repeat apply Forall_cons; try apply Forall_nil; apply wrap_wd; lia.
Qed.
