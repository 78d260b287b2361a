(** The Keccak-p[1600] and Gimli models: agreement with FIPS 202, sizes. *)
From Verif Require Import Base Hash HashSpec Blocks DerLemmas HashLemmas Sponge SpongeSpec.

Definition st25 (A : list Z) : Prop := length A = 25%nat /\ Forall (wd 64) A.

Lemma rotl64_0 x : wd 64 x -> rotl 64 0 x = x.
Proof.
  intros Hx. unfold rotl, rotr, wd in *. rewrite Z.sub_0_r, Z.mod_small, Z.div_small by assumption.
  rewrite Z.sub_diag, Z.pow_0_r. lia.
Qed.

Lemma krot_rotl x s u : Z.land s 63 = u -> 0 <= u < 64 -> wd 64 x -> krot x s = rotl 64 u x.
Proof.
  intros E Hu Hx. unfold krot. cbv zeta. rewrite E. destruct (Z.eqb_spec u 0) as [->|N].
  - symmetry. apply rotl64_0, Hx.
  - rewrite <- cROTL_rotl by (auto; lia). reflexivity.
Qed.

Ltac explode A :=
  let H := fresh "HL" in let W := fresh "W" in
  intros [H W];
  do 25 (destruct A as [|? A]; [discriminate H|]); destruct A; [|discriminate H];
  repeat match goal with W : Forall _ (_ :: _) |- _ => apply Forall_cons_iff in W; destruct W as [? W] end.
Ltac wd64 := repeat (apply lxor_wd; [lia| |]); assumption.

Lemma xor5 a b c d e : Z.lxor (Z.lxor (Z.lxor (Z.lxor a b) c) d) e = Z.lxor a (Z.lxor b (Z.lxor c (Z.lxor d e))).
Proof. now rewrite !Z.lxor_assoc. Qed.

Lemma rotl64_wd n x : 0 <= n < 64 -> wd 64 x -> wd 64 (rotl 64 n x).
Proof. intros. apply rotl_wd; [lia|auto]. Qed.

Lemma theta_eq A : st25 A -> k_theta A = theta A.
Proof.
  explode A.
  cbv -[Z.lxor krot rotl wd].
  rewrite !(krot_rotl _ 1 1) by first [reflexivity|lia|wd64].
  rewrite !Z.lxor_assoc. reflexivity.
Qed.

Lemma rho_eq A : st25 A -> k_rho A = rho A.
Proof.
  explode A.
  cbv -[krot rotl wd].
  repeat match goal with |- context [krot ?x ?s] =>
    rewrite (krot_rotl x s (Z.land s 63)) by first [reflexivity|assumption|cbn; lia] end.
  repeat apply f_equal2; try reflexivity.
  symmetry. now apply rotl64_0.
Qed.

Lemma pi_eq A : st25 A -> k_pi A = pi A.
Proof. explode A. reflexivity. Qed.

Lemma chi_eq A : st25 A -> k_chi A = chi A.
Proof.
  explode A.
  cbv -[Z.lxor Z.land cnot compl wd].
  rewrite !cnot_compl by (assumption || lia). reflexivity.
Qed.

Lemma mk_state_length f : length (mk_state f) = 25%nat.
Proof. reflexivity. Qed.
Lemma mk_state_st f : (forall x y, wd 64 (f x y)) -> st25 (mk_state f).
Proof.
  intros H. split; [reflexivity|]. unfold mk_state. apply Forall_forall. intros z Hz.
  apply in_map_iff in Hz. destruct Hz as (i & <- & _). apply H.
Qed.
Lemma lane_wd A x y : st25 A -> wd 64 (lane A x y).
Proof. intros [_ H]. apply nthZ_wd; [lia|auto]. Qed.
Lemma col_wd A x : st25 A -> wd 64 (col A x).
Proof. intros H. unfold col. repeat (apply lxor_wd; [lia| |]); now apply lane_wd. Qed.

Lemma theta_st A : st25 A -> st25 (theta A).
Proof.
  intros H. apply mk_state_st. intros. apply lxor_wd; [lia|now apply lane_wd|].
  apply lxor_wd; [lia|now apply col_wd|]. apply rotl64_wd; [lia|now apply col_wd].
Qed.
Lemma rho_st A : st25 A -> st25 (rho A).
Proof.
  intros H. apply mk_state_st. intros. apply rotl64_wd; [apply Z.mod_pos_bound; lia|now apply lane_wd].
Qed.
Lemma pi_st A : st25 A -> st25 (pi A).
Proof. intros H. apply mk_state_st. intros. now apply lane_wd. Qed.
Lemma chi_st A : st25 A -> st25 (chi A).
Proof.
  intros H. apply mk_state_st. intros. apply lxor_wd; [lia|now apply lane_wd|].
  apply land_wd; [lia|apply compl_wd; now apply lane_wd|].
  pose proof (lane_wd A (x + 2) y H) as L. unfold wd in L. lia.
Qed.

(** the value of [lfsr] before round ir *)
Definition lf (ir : nat) : Z := Nat.iter ir (fun l => snd (iota_rc l)) 1.
Definition rc_ok (ir : nat) : bool :=
  (fst (iota_rc (lf ir)) =? RC ir) && (0 <=? RC ir) && (RC ir <? 2 ^ 64).
Lemma rc_all : forallb rc_ok (seq 0 24) = true.
Proof. vm_compute. reflexivity. Qed.
Lemma rc_at ir : (ir < 24)%nat -> fst (iota_rc (lf ir)) = RC ir /\ wd 64 (RC ir).
Proof.
  intros H. pose proof rc_all as R. rewrite forallb_forall in R. specialize (R ir).
  rewrite in_seq in R. specialize (R ltac:(lia)). unfold rc_ok in R. unfold wd. lia.
Qed.
Lemma iota_st A ir : (ir < 24)%nat -> st25 A -> st25 (iota A ir).
Proof.
  intros Hi H. apply mk_state_st. intros. destruct ((x =? 0) && (y =? 0))%nat; [|now apply lane_wd].
  apply lxor_wd; [lia|now apply lane_wd|now apply rc_at].
Qed.
Lemma iota_eq A ir : st25 A -> kset A 0 0 (Z.lxor (kget A 0 0) (RC ir)) = iota A ir.
Proof. explode A. cbv -[Z.lxor RC]. reflexivity. Qed.

Lemma Rnd_st A ir : (ir < 24)%nat -> st25 A -> st25 (Rnd A ir).
Proof. intros Hi H. unfold Rnd. apply iota_st; [auto|]. now apply chi_st, pi_st, rho_st, theta_st. Qed.

Lemma kp_round_on rounds A ir : (ir < 24)%nat -> (24 <= ir + rounds)%nat -> st25 A ->
  kp_round rounds (A, lf ir) ir = (Rnd A ir, lf (S ir)).
Proof.
  intros Hi Hr H. unfold kp_round. replace (24 <=? ir + rounds)%nat with true by (symmetry; apply Nat.leb_le; lia).
  unfold k_iota. cbv zeta. cbv iota beta.
  destruct (rc_at ir Hi) as [E _].
  destruct (iota_rc (lf ir)) as [R l'] eqn:EI. cbn [fst] in E. subst R.
  cbv iota beta. rewrite theta_eq by auto. rewrite rho_eq by now apply theta_st.
  rewrite pi_eq by now apply rho_st, theta_st. rewrite chi_eq by now apply pi_st, rho_st, theta_st.
  rewrite iota_eq by now apply chi_st, pi_st, rho_st, theta_st.
  unfold Rnd. f_equal. change (lf (S ir)) with (snd (iota_rc (lf ir))). now rewrite EI.
Qed.
Lemma kp_round_off rounds A ir : (ir + rounds < 24)%nat ->
  kp_round rounds (A, lf ir) ir = (A, lf (S ir)).
Proof.
  intros Hr. unfold kp_round. replace (24 <=? ir + rounds)%nat with false by (symmetry; apply Nat.leb_gt; lia).
  unfold k_iota. cbv zeta. change (lf (S ir)) with (snd (iota_rc (lf ir))).
  destruct (iota_rc (lf ir)) as [R l']. reflexivity.
Qed.

Lemma kp_loop_on rounds n : forall a A, (a + n <= 24)%nat -> (24 <= a + rounds)%nat -> st25 A ->
  fold_left (kp_round rounds) (seq a n) (A, lf a) = (fold_left Rnd (seq a n) A, lf (a + n)) /\
  st25 (fold_left Rnd (seq a n) A).
Proof.
  induction n as [|n IH]; intros a A Ha Hr H; cbn [seq fold_left].
  - now rewrite Nat.add_0_r.
  - rewrite kp_round_on by (auto; lia). rewrite <- Nat.add_succ_comm. apply IH; [lia|lia|]. apply Rnd_st; [lia|auto].
Qed.
Lemma kp_loop_off rounds n : forall a A, (a + n + rounds <= 24)%nat ->
  fold_left (kp_round rounds) (seq a n) (A, lf a) = (A, lf (a + n)).
Proof.
  induction n as [|n IH]; intros a A Ha; cbn [seq fold_left].
  - now rewrite Nat.add_0_r.
  - rewrite kp_round_off by lia. rewrite <- Nat.add_succ_comm. apply IH. lia.
Qed.

Lemma le_words_length wb n s : length (le_words wb n s) = n.
Proof. unfold le_words. now rewrite map_length, seq_length. Qed.
Lemma le_words_wd wb n s : bytes_ok s -> Forall (wd (8 * Z.of_nat wb)) (le_words wb n s).
Proof.
  intros H. apply Forall_forall. intros z Hz. apply in_map_iff in Hz. destruct Hz as (i & <- & _).
  pose proof (le_val_bound (firstn wb (skipn (wb * i) s)) ltac:(now apply Forall_firstn, Forall_skipn)) as B.
  unfold wd. split; [lia|]. eapply Z.lt_le_trans; [apply B|]. apply Z.pow_le_mono_r; [lia|].
  rewrite firstn_length. lia.
Qed.
Lemma le_unwords_length wb A : length (le_unwords wb A) = (wb * length A)%nat.
Proof.
  unfold le_unwords. induction A as [|a A IH]; cbn [map concat length]; [lia|].
  rewrite app_length, le_bytes_length, IH. lia.
Qed.
Lemma le_unwords_ok wb A : bytes_ok (le_unwords wb A).
Proof.
  unfold le_unwords. induction A as [|a A IH]; cbn [map concat]; [constructor|].
  apply Forall_app. split; [apply le_bytes_ok|auto].
Qed.

Lemma KeccakP_eq nr s : (nr <= 24)%nat -> bytes_ok s -> KeccakP1600_Permute nr s = keccak_p nr s.
Proof.
  intros Hn H. unfold KeccakP1600_Permute, keccak_p.
  assert (S0 : st25 (le_words 8 25 s)) by (split; [apply le_words_length|now apply (le_words_wd 8 25)]).
  change (map _ (seq 0 25)) with (le_words 8 25 s).
  replace (seq 0 24) with (seq 0 (24 - nr) ++ seq (24 - nr) nr) by (rewrite <- seq_app; f_equal; lia).
  rewrite fold_left_app. change 1 with (lf 0) at 1. rewrite kp_loop_off by lia.
  rewrite Nat.add_0_l. destruct (kp_loop_on nr nr (24 - nr) (le_words 8 25 s)) as [E _]; [lia|lia|auto|].
  rewrite E. reflexivity.
Qed.

Lemma fold_Rnd_len n : forall a A, length A = 25%nat -> length (fold_left Rnd (seq a n) A) = 25%nat.
Proof. induction n as [|n IH]; intros a A H; cbn [seq fold_left]; [auto|]. apply IH. reflexivity. Qed.
Lemma keccak_p_length nr s : length (keccak_p nr s) = 200%nat.
Proof.
  unfold keccak_p. cbv zeta. change (concat (map (le_bytes 8) ?A)) with (le_unwords 8 A).
  rewrite le_unwords_length, fold_Rnd_len; [reflexivity|]. now rewrite map_length, seq_length.
Qed.
Lemma keccak_p_ok nr s : bytes_ok (keccak_p nr s).
Proof. apply (le_unwords_ok 8). Qed.

(** Gimli: sizes *)
Lemma g_column_length st c : length (g_column st c) = length st.
Proof. unfold g_column. now rewrite !upd_length. Qed.
Lemma g_round_length st r : length (g_round st r) = length st.
Proof.
  unfold g_round, g_swap. cbn [fold_left].
  destruct (Z.land r 3 =? 0), (Z.land r 3 =? 2); rewrite ?upd_length, ?g_column_length; reflexivity.
Qed.
Lemma gimli_length st : length (gimli st) = length st.
Proof.
  unfold gimli. generalize (map (fun i => 24 - Z.of_nat i) (seq 0 24)). intros l. revert st.
  induction l as [|r l IH]; intros st; cbn [fold_left]; [auto|]. now rewrite IH, g_round_length.
Qed.
Lemma Gimli_Permute_length s : length (Gimli_Permute s) = 48%nat.
Proof. unfold Gimli_Permute. now rewrite le_unwords_length, gimli_length, le_words_length. Qed.
Lemma Gimli_Permute_ok s : bytes_ok (Gimli_Permute s).
Proof. apply le_unwords_ok. Qed.
