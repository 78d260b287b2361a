(** Lemmas for ShaNi.v. *)
From Verif Require Import Base Blocks Hash HashSpec HashLemmas ShaIsa ShaNi.
From Coq Require Import Btauto.

(** ** Loads *)
Lemma skipn_nth t (l : list Z) : (t < length l)%nat -> skipn t l = nthZ t l :: skipn (S t) l.
Proof.
  revert t. induction l as [|a l IH]; intros t H; cbn [length] in H; [lia|].
  destruct t as [|t]; [reflexivity|]. cbn [skipn]. rewrite IH by lia. reflexivity.
Qed.
Lemma firstn_skipn_nth n t (l : list Z) : (t + n <= length l)%nat ->
  firstn n (skipn t l) = map (fun k => nthZ (t + k) l) (seq 0 n).
Proof.
  revert t. induction n as [|n IH]; intros t H; [reflexivity|].
  rewrite skipn_nth by lia. cbn [firstn seq map]. rewrite Nat.add_0_r. f_equal.
  rewrite IH by lia. rewrite <- seq_shift, map_map. apply map_ext. intros k. f_equal. lia.
Qed.

Ltac idx := repeat match goal with
  | |- be_val _ = be_val _ => apply f_equal
  | |- rev _ = rev _ => apply f_equal
  | |- (_ :: _) = (_ :: _) => apply f_equal2
  | |- nthZ _ _ = nthZ _ _ => apply f_equal2; [lia|reflexivity]
  | |- (_ + _ = _)%nat => lia
  | |- _ = _ => reflexivity end.

Definition V4 (h : nat -> Z) (k : nat) : list Z := [h (k + 0)%nat; h (k + 1)%nat; h (k + 2)%nat; h (k + 3)%nat].
Definition V2 (h : nat -> Z) (k : nat) : list Z := [h (k + 0)%nat; h (k + 1)%nat].
Definition B4 (W : list Z) (i : nat) : list Z := V4 (fun k => nthZ (4 * i + k) W) 0.
Definition B2 (W : list Z) (i : nat) : list Z := V2 (fun k => nthZ (2 * i + k) W) 0.
Lemma B4_at W i j : B4 W (i + j) = V4 (fun k => nthZ (4 * i + k) W) (4 * j).
Proof. unfold B4, V4. cbn beta. idx. Qed.
Lemma B2_at W i j : B2 W (i + j) = V2 (fun k => nthZ (2 * i + k) W) (2 * j).
Proof. unfold B2, V2. cbn beta. idx. Qed.
Lemma rev_B4_at W i j : rev (B4 W (i + j)) = rev (V4 (fun k => nthZ (4 * i + k) W) (4 * j)).
Proof. now rewrite B4_at. Qed.

Lemma words_at wb msg t : (wb * t + wb <= length msg)%nat -> (t < 16)%nat ->
  nthZ t (words_of wb msg) = be_val (map (fun k => nthZ (wb * t + k) msg) (seq 0 wb)).
Proof.
  intros H Ht. unfold words_of, nthZ at 1.
  rewrite (nth_indep _ 0 (be_val (firstn wb (skipn (wb * 0) msg)))) by (rewrite map_length, seq_length; lia).
  rewrite (map_nth (fun t => be_val (firstn wb (skipn (wb * t) msg))) (seq 0 16) 0%nat t), seq_nth by lia.
  now rewrite firstn_skipn_nth by lia.
Qed.

Lemma ldv_at msg i : (16 * i + 16 <= length msg)%nat ->
  ldv msg i = map (fun k => nthZ (16 * i + k) msg) (seq 0 16).
Proof. intros. unfold ldv. now apply firstn_skipn_nth. Qed.

Lemma load_vec32 (f : list Z -> list Z) msg i : length msg = 64%nat -> (i < 4)%nat ->
  (forall g : nat -> Z, f (map g (seq 0 16)) =
     V4 (fun k => be_val [g (4 * k)%nat; g (4 * k + 1)%nat; g (4 * k + 2)%nat; g (4 * k + 3)%nat]) 0) ->
  f (ldv msg i) = B4 (words_of 4 msg) i.
Proof.
  intros L Hi Hf. rewrite ldv_at by lia. rewrite Hf. unfold B4, V4. cbv beta.
  rewrite !words_at by lia. cbn [map seq]. idx.
Qed.
Lemma load_vec32r (f : list Z -> list Z) msg i : length msg = 64%nat -> (i < 4)%nat ->
  (forall g : nat -> Z, f (map g (seq 0 16)) =
     rev (V4 (fun k => be_val [g (4 * k)%nat; g (4 * k + 1)%nat; g (4 * k + 2)%nat; g (4 * k + 3)%nat]) 0)) ->
  f (ldv msg i) = rev (B4 (words_of 4 msg) i).
Proof.
  intros L Hi Hf. rewrite ldv_at by lia. rewrite Hf. unfold B4, V4. cbv beta.
  rewrite !words_at by lia. cbn [map seq]. idx.
Qed.
Lemma load_vec64 (f : list Z -> list Z) msg i : length msg = 128%nat -> (i < 8)%nat ->
  (forall g : nat -> Z, f (map g (seq 0 16)) =
     V2 (fun k => be_val [g (8 * k)%nat; g (8 * k + 1)%nat; g (8 * k + 2)%nat; g (8 * k + 3)%nat;
                          g (8 * k + 4)%nat; g (8 * k + 5)%nat; g (8 * k + 6)%nat; g (8 * k + 7)%nat]) 0) ->
  f (ldv msg i) = B2 (words_of 8 msg) i.
Proof.
  intros L Hi Hf. rewrite ldv_at by lia. rewrite Hf. unfold B2, V2. cbv beta.
  rewrite !words_at by lia. cbn [map seq]. idx.
Qed.

Lemma arm_load32_at msg i : length msg = 64%nat -> (i < 4)%nat -> vget (arm_load32 msg) i = B4 (words_of 4 msg) i.
Proof.
  intros L Hi. rewrite <- (load_vec32 (fun l => lanes 4 4 (vrev 4 l)) msg i L Hi); [|reflexivity].
  do 4 (destruct i as [|i]; [reflexivity|]). lia.
Qed.
Lemma x86_sha256_load_at msg i : length msg = 64%nat -> (i < 4)%nat -> vget (x86_sha256_load msg) i = B4 (words_of 4 msg) i.
Proof.
  intros L Hi. rewrite <- (load_vec32 (fun l => lanes 4 4 (pshufb l [12; 13; 14; 15; 8; 9; 10; 11; 4; 5; 6; 7; 0; 1; 2; 3])) msg i L Hi); [|reflexivity].
  do 4 (destruct i as [|i]; [reflexivity|]). lia.
Qed.
Lemma x86_sha1_load_at msg i : length msg = 64%nat -> (i < 4)%nat -> vget (x86_sha1_load msg) i = rev (B4 (words_of 4 msg) i).
Proof.
  intros L Hi. rewrite <- (load_vec32r (fun l => lanes 4 4 (pshufb l [0; 1; 2; 3; 4; 5; 6; 7; 8; 9; 10; 11; 12; 13; 14; 15])) msg i L Hi); [|reflexivity].
  do 4 (destruct i as [|i]; [reflexivity|]). lia.
Qed.
Lemma arm_load64_at msg i : length msg = 128%nat -> (i < 8)%nat -> vget (arm_load64 msg) i = B2 (words_of 8 msg) i.
Proof.
  intros L Hi. rewrite <- (load_vec64 (fun l => lanes 8 2 (vrev 8 l)) msg i L Hi); [|reflexivity].
  do 8 (destruct i as [|i]; [reflexivity|]). lia.
Qed.

(** ** The circular array *)
Lemma mod_inj n i j k : (0 < n)%nat -> (j < n)%nat -> (k < n)%nat -> ((i + j) mod n = (i + k) mod n)%nat -> j = k.
Proof.
  intros Hn Hj Hk E.
  pose proof (Nat.div_mod (i + j) n ltac:(lia)). pose proof (Nat.div_mod (i + k) n ltac:(lia)).
  destruct (Nat.lt_trichotomy ((i + j) / n) ((i + k) / n)) as [D|[D|D]]; nia.
Qed.
Lemma ring_same n i k x w : (0 < n)%nat -> length w = n ->
  vget (upd ((i + k) mod n) x w) ((i + k) mod n) = x.
Proof. intros Hn L. unfold vget. apply nth_upd_eq. rewrite L. apply Nat.mod_upper_bound. lia. Qed.
Lemma ring_other n i k j x w : (0 < n)%nat -> (j < n)%nat -> (k < n)%nat -> j <> k ->
  vget (upd ((i + k) mod n) x w) ((i + j) mod n) = vget w ((i + j) mod n).
Proof. intros Hn Hj Hk D. unfold vget. apply nth_upd_neq. intros E. apply D. symmetry. exact (mod_inj n i k j Hn Hk Hj E). Qed.
Lemma mod_wrap n i k : (0 < n)%nat -> ((i + (k + n)) mod n = (i + k) mod n)%nat.
Proof. intros Hn. replace (i + (k + n))%nat with (i + k + 1 * n)%nat by lia. now rewrite Nat.mod_add by lia. Qed.

(** ** Grouping of rounds *)
Lemma fold_group {S} (g : S -> nat -> S) m n x :
  fold_left g (seq 0 (m * n)) x = fold_left (fun x i => fold_left g (seq (m * i) m) x) (seq 0 n) x.
Proof.
  induction n as [|n IH]; [now rewrite Nat.mul_0_r|].
  replace (m * Datatypes.S n)%nat with (m * n + m)%nat by lia. rewrite seq_app, fold_left_app, IH.
  rewrite seq_S, fold_left_app. reflexivity.
Qed.
Lemma seq_quad t : seq t 4 = [(t + 0)%nat; (t + 1)%nat; (t + 2)%nat; (t + 3)%nat].
Proof. cbn [seq]. f_equal; [lia|]. f_equal; [lia|]. f_equal; [lia|]. f_equal; lia. Qed.
Lemma seq_pair t : seq t 2 = [(t + 0)%nat; (t + 1)%nat].
Proof. cbn [seq]. f_equal; [lia|]. f_equal; lia. Qed.

(** ** Rotations *)
Lemma rotl_bit w n x i : 0 <= n <= w -> 0 < w -> wd w x -> 0 <= i < w ->
  Z.testbit (rotl w n x) i = Z.testbit x ((i - n) mod w).
Proof.
  intros Hn Hw Hx Hi. rewrite <- cROTL_rotl by auto. unfold cROTL, wrap. rewrite Z.lor_spec, Z.mod_pow2_bits_low by lia.
  rewrite Z.shiftl_spec, Z.shiftr_spec by lia.
  destruct (Z.ltb_spec i n) as [L|L].
  - rewrite (Z.testbit_neg_r x (i - n)) by lia. cbn [orb]. f_equal.
    rewrite <- (Z.mod_small (i + (w - n)) w) by lia. replace (i + (w - n)) with (i - n + 1 * w) by lia. now rewrite Z_mod_plus_full.
  - rewrite Z.mod_small by lia.
    assert (Z.testbit x (i + (w - n)) = false) as ->; [|now rewrite orb_false_r].
    destruct Hx as [H0 H1]. destruct (Z.eq_dec x 0) as [->|Hnz]; [apply Z.bits_0|].
    apply Z.bits_above_log2; [lia|]. assert (Z.log2 x < w) by (apply Z.log2_lt_pow2; lia). lia.
Qed.
Lemma wd_high w x i : 0 <= w -> wd w x -> w <= i -> Z.testbit x i = false.
Proof.
  intros Hw [H0 H1] Hi. destruct (Z.eq_dec x 0) as [->|Hnz]; [apply Z.bits_0|].
  apply Z.bits_above_log2; [lia|]. assert (Z.log2 x < w) by (apply Z.log2_lt_pow2; lia). lia.
Qed.
Lemma rotl_lxor w n x y : 0 <= n <= w -> 0 < w -> wd w x -> wd w y ->
  rotl w n (Z.lxor x y) = Z.lxor (rotl w n x) (rotl w n y).
Proof.
  intros Hn Hw Hx Hy. apply Z.bits_inj'. intros i Hi.
  destruct (Z.lt_ge_cases i w) as [L|L].
  - rewrite Z.lxor_spec, !rotl_bit, Z.lxor_spec; auto. apply lxor_wd; auto; lia.
  - rewrite Z.lxor_spec, !(wd_high w) by (auto; try lia; try apply rotl_wd; auto; apply lxor_wd; auto; lia). reflexivity.
Qed.
Lemma rotl_rotl w a b x : 0 <= a -> 0 <= b -> a + b <= w -> 0 < w -> wd w x -> rotl w a (rotl w b x) = rotl w (a + b) x.
Proof.
  intros Ha Hb Hab Hw Hx. assert (Hr : wd w (rotl w b x)) by (apply rotl_wd; auto; lia).
  apply Z.bits_inj'. intros i Hi. destruct (Z.lt_ge_cases i w) as [L|L].
  - rewrite !rotl_bit by (auto; try lia; apply Z.mod_pos_bound; lia). f_equal.
    rewrite Zminus_mod_idemp_l. f_equal. lia.
  - rewrite !(wd_high w); auto; try lia; apply rotl_wd; auto; lia.
Qed.

Ltac xor_ac := apply Z.bits_inj'; intros ? ?; rewrite ?Z.lxor_spec; btauto.
Ltac sum_ac := unfold add_w, wrap; repeat match goal with
  | |- context [?X mod ?m] => match X with context [?y mod m] =>
      let F := eval pattern (y mod m) in X in
      match F with ?f _ => let r := eval cbv beta in (f 0) in
        replace X with (y mod m + r) by ring; rewrite (Zplus_mod_idemp_l y r m) end end
  end; f_equal; ring.

(** ** Message schedules *)
Lemma arm_sha1_sched (h : nat -> Z) : (forall k, wd 32 (h k)) ->
  (forall k, (k < 4)%nat -> h (k + 16)%nat = rotl 32 1 (Z.lxor (h (k + 13)%nat) (Z.lxor (h (k + 8)%nat) (Z.lxor (h (k + 2)%nat) (h k))))) ->
  vsha1su1 (vsha1su0 (V4 h 0) (V4 h 4) (V4 h 8)) (V4 h 12) = V4 h 16.
Proof.
  intros Hw HR. pose proof (HR 0%nat ltac:(lia)) as R0. pose proof (HR 1%nat ltac:(lia)) as R1.
  pose proof (HR 2%nat ltac:(lia)) as R2. pose proof (HR 3%nat ltac:(lia)) as R3. cbn [Nat.add] in *.
  unfold vsha1su1, vsha1su0, vxor, V4. cbn [Nat.add combine map fst snd nthZ nth].
  rewrite R3, R2, R1, R0. f_equal; [f_equal; xor_ac|]. f_equal; [f_equal; xor_ac|]. f_equal; [f_equal; xor_ac|]. f_equal.
  rewrite (rotl_lxor 32 1 (rotl 32 1 _)) by (try lia; repeat (apply rotl_wd || apply lxor_wd); auto; lia).
  rewrite rotl_rotl by (try lia; repeat apply lxor_wd; auto; lia).
  rewrite Z.lxor_comm. f_equal; [f_equal; xor_ac|]. f_equal. rewrite Z.lxor_0_r. xor_ac.
Qed.
Lemma x86_sha1_sched (h : nat -> Z) :
  (forall k, (k < 4)%nat -> h (k + 16)%nat = rotl 32 1 (Z.lxor (h (k + 13)%nat) (Z.lxor (h (k + 8)%nat) (Z.lxor (h (k + 2)%nat) (h k))))) ->
  sha1msg2 (vxor (sha1msg1 (rev (V4 h 0)) (rev (V4 h 4))) (rev (V4 h 8))) (rev (V4 h 12)) = rev (V4 h 16).
Proof.
  intros HR. pose proof (HR 0%nat ltac:(lia)) as R0. pose proof (HR 1%nat ltac:(lia)) as R1.
  pose proof (HR 2%nat ltac:(lia)) as R2. pose proof (HR 3%nat ltac:(lia)) as R3. cbn [Nat.add] in *.
  unfold sha1msg2, sha1msg1, vxor, V4. cbn [rev app Nat.add combine map fst snd nthZ nth].
  rewrite R3, R2, R1, R0. f_equal; [|f_equal; [|f_equal; [|f_equal]]]; f_equal; try xor_ac.
  rewrite Z.lxor_comm. f_equal; [f_equal; xor_ac|xor_ac].
Qed.
Lemma arm_sha256_sched (h : nat -> Z) :
  (forall k, (k < 4)%nat -> h (k + 16)%nat = add_w 32 (ss1_256 (h (k + 14)%nat)) (add_w 32 (h (k + 9)%nat) (add_w 32 (ss0_256 (h (k + 1)%nat)) (h k)))) ->
  vsha256su1 (vsha256su0 (V4 h 0) (V4 h 4)) (V4 h 8) (V4 h 12) = V4 h 16.
Proof.
  intros HR. pose proof (HR 0%nat ltac:(lia)) as R0. pose proof (HR 1%nat ltac:(lia)) as R1.
  pose proof (HR 2%nat ltac:(lia)) as R2. pose proof (HR 3%nat ltac:(lia)) as R3. cbn [Nat.add] in *.
  unfold vsha256su1, vsha256su0, V4. cbn [Nat.add nthZ nth]. cbv zeta.
  assert (G : forall s a b d, (s + add_w 32 a b + d) mod 2 ^ 32 = add_w 32 s (add_w 32 d (add_w 32 a b))).
  { intros. sum_ac. }
  rewrite !G. rewrite R3, R2, R1, R0. reflexivity.
Qed.
Lemma x86_sha256_sched (h : nat -> Z) :
  (forall k, (k < 4)%nat -> h (k + 16)%nat = add_w 32 (ss1_256 (h (k + 14)%nat)) (add_w 32 (h (k + 9)%nat) (add_w 32 (ss0_256 (h (k + 1)%nat)) (h k)))) ->
  sha256msg2 (vadd 32 (sha256msg1 (V4 h 0) (V4 h 4)) (palignr4 (V4 h 12) (V4 h 8))) (V4 h 12) = V4 h 16.
Proof.
  intros HR. pose proof (HR 0%nat ltac:(lia)) as R0. pose proof (HR 1%nat ltac:(lia)) as R1.
  pose proof (HR 2%nat ltac:(lia)) as R2. pose proof (HR 3%nat ltac:(lia)) as R3. cbn [Nat.add] in *.
  unfold sha256msg2, sha256msg1, palignr4, vadd, V4. cbn [Nat.add app skipn firstn combine map fst snd nthZ nth]. cbv zeta.
  assert (G : forall s a b d, add_w 32 (add_w 32 (add_w 32 b a) d) s = add_w 32 s (add_w 32 d (add_w 32 a b))).
  { intros. sum_ac. }
  rewrite !G. rewrite R3, R2, R1, R0. reflexivity.
Qed.
Lemma arm_sha512_sched (h : nat -> Z) :
  (forall k, (k < 2)%nat -> h (k + 16)%nat = add_w 64 (ss1_512 (h (k + 14)%nat)) (add_w 64 (h (k + 9)%nat) (add_w 64 (ss0_512 (h (k + 1)%nat)) (h k)))) ->
  vsha512su1 (vsha512su0 (V2 h 0) (V2 h 2)) (V2 h 14) (vext1_64 (V2 h 8) (V2 h 10)) = V2 h 16.
Proof.
  intros HR. pose proof (HR 0%nat ltac:(lia)) as R0. pose proof (HR 1%nat ltac:(lia)) as R1. cbn [Nat.add] in *.
  unfold vsha512su1, vsha512su0, vext1_64, V2. cbn [Nat.add nthZ nth]. cbv zeta.
  assert (G : forall s a b d, (add_w 64 b a + s + d) mod 2 ^ 64 = add_w 64 s (add_w 64 d (add_w 64 a b))).
  { intros. sum_ac. }
  rewrite !G. rewrite R1, R0. reflexivity.
Qed.

(** ** Rounds *)
Lemma arm_sha1_rnd_eq W f v t x k : f = sha1_f t -> k = sha1_K t -> x = nthZ t W ->
  arm_sha1_rnd f v (add_w 32 x k) = sha1_round W v t.
Proof.
  intros -> -> ->. destruct v as [[[[a b] c] d] e]. unfold arm_sha1_rnd, sha1_round. cbv zeta.
  repeat f_equal. generalize (rotl 32 5 a) (sha1_f t b c d) (sha1_K t) (nthZ t W). intros. sum_ac.
Qed.
Lemma x86_rnd_eq W n v t : x86_f n = sha1_f t -> x86_k n = sha1_K t ->
  x86_rnd n v (nthZ t W) = sha1_round W v t.
Proof.
  intros E1 E2. destruct v as [[[[a b] c] d] e]. unfold x86_rnd, sha1_round. rewrite E1, E2. cbv zeta.
  repeat f_equal. generalize (rotl 32 5 a) (sha1_f t b c d) (sha1_K t) (nthZ t W). intros. sum_ac.
Qed.
(** the first of four: e has been added to the word *)
Lemma x86_rnd_eq0 W n a b c d e t : x86_f n = sha1_f t -> x86_k n = sha1_K t ->
  x86_rnd n (a, b, c, d, 0) (add_w 32 (nthZ t W) e) = sha1_round W (a, b, c, d, e) t.
Proof.
  intros E1 E2. unfold x86_rnd, sha1_round. rewrite E1, E2. cbv zeta.
  repeat f_equal. generalize (rotl 32 5 a) (sha1_f t b c d) (sha1_K t) (nthZ t W). intros. sum_ac.
Qed.
Lemma sha1_round_e W v t : snd (sha1_round W v t) = snd (fst v).
Proof. now destruct v as [[[[a b] c] d] e]. Qed.

Notation rnd256 := (sha2_round 32 BS0_256 BS1_256 K_sha256).
Notation rnd512 := (sha2_round 64 BS0_512 BS1_512 K_sha512).
Lemma sha256_compress_alt : sha256_compress K_sha256 = sha2_compress 32 4 BS0_256 BS1_256 ss0_256 ss1_256 K_sha256 64.
Proof. reflexivity. Qed.
Lemma sha512_compress_alt : sha512_compress K_sha512 = sha2_compress 64 8 BS0_512 BS1_512 ss0_512 ss1_512 K_sha512 80.
Proof. reflexivity. Qed.

Lemma arm_sha256_rnd_eq W v t x k : x = nthZ t W -> k = nthZ t K_sha256 ->
  arm_sha256_rnd v (add_w 32 x k) = rnd256 W v t.
Proof.
  intros -> ->. destruct v as [[[[[[[a b] c] d] e] f] g] h]. unfold arm_sha256_rnd, sha2_round. cbv zeta.
  generalize (BS1_256 e) (Ch 32 e f g) (BS0_256 a) (Maj a b c) (nthZ t W) (nthZ t K_sha256). intros.
  apply f_equal2; [|reflexivity]. apply f_equal2; [|reflexivity]. apply f_equal2; [|reflexivity].
  apply f_equal2; [|sum_ac]. apply f_equal2; [|reflexivity]. apply f_equal2; [|reflexivity]. apply f_equal2; [|reflexivity].
  sum_ac.
Qed.
Lemma x86_rnd2_eq W v t x k : x = nthZ t W -> k = nthZ t K_sha256 ->
  x86_rnd2 v (add_w 32 x k) = rnd256 W v t.
Proof.
  intros -> ->. destruct v as [[[[[[[a b] c] d] e] f] g] h]. unfold x86_rnd2, sha2_round. cbv zeta.
  generalize (BS1_256 e) (Ch 32 e f g) (BS0_256 a) (Maj a b c) (nthZ t W) (nthZ t K_sha256). intros.
  apply f_equal2; [|reflexivity]. apply f_equal2; [|reflexivity]. apply f_equal2; [|reflexivity].
  apply f_equal2; [|sum_ac]. apply f_equal2; [|reflexivity]. apply f_equal2; [|reflexivity]. apply f_equal2; [|reflexivity].
  sum_ac.
Qed.
Lemma Maj_rev x y z : Maj z y x = Maj x y z.
Proof. unfold Maj. apply Z.bits_inj'. intros i Hi. rewrite !Z.lxor_spec, !Z.land_spec. btauto. Qed.

(** two rounds of SHA-512 by SHA512H, SHA512H2 *)
Lemma arm_sha512_rnds W i a b c d e f g h (t0 := (2 * i + 0)%nat) (t1 := (2 * i + 1)%nat) :
  let wk0 := add_w 64 (nthZ t0 W) (nthZ t0 K_sha512) in
  let wk1 := add_w 64 (nthZ t1 W) (nthZ t1 K_sha512) in
  let save := vsha512h [add_w 64 wk1 g; add_w 64 wk0 h] [f; g] [d; e] in
  exists T1 T1' e' a' a'' e'',
  save = [T1'; T1] /\ vsha512h2 save [c; d] [a; b] = [a''; a'] /\ vadd 64 [c; d] save = [e''; e'] /\
  rnd512 W (rnd512 W (a, b, c, d, e, f, g, h) t0) t1 = (a'', a', a, b, e'', e', e, f).
Proof.
  cbv zeta. unfold vsha512h2, vsha512h, vadd. cbn [nthZ nth combine map fst snd]. cbv zeta. cbn [nthZ nth combine map fst snd].
  do 6 eexists. split; [reflexivity|]. split; [reflexivity|]. split; [reflexivity|].
  unfold sha2_round at 1 2. cbv beta iota zeta.
  cbn [nthZ nth].
  set (w0 := nthZ t0 W). set (w1 := nthZ t1 W). set (k0 := nthZ t0 K_sha512). set (k1 := nthZ t1 K_sha512). clearbody w0 w1 k0 k1.
  set (T := (Ch 64 e f g + BS1_512 e + add_w 64 (add_w 64 w0 k0) h) mod 2 ^ 64).
  assert (HT : add_w 64 h (add_w 64 (BS1_512 e) (add_w 64 (Ch 64 e f g) (add_w 64 k0 w0))) = T).
  { unfold T. generalize (Ch 64 e f g) (BS1_512 e). intros. sum_ac. }
  rewrite HT. clearbody T. clear HT.
  assert (HE : (T + d) mod 2 ^ 64 = add_w 64 d T) by sum_ac. rewrite HE. clear HE. set (e' := add_w 64 d T).
  set (T' := (Ch 64 e' e f + BS1_512 e' + add_w 64 (add_w 64 w1 k1) g) mod 2 ^ 64).
  assert (HT : add_w 64 g (add_w 64 (BS1_512 e') (add_w 64 (Ch 64 e' e f) (add_w 64 k1 w1))) = T').
  { unfold T'. generalize (Ch 64 e' e f) (BS1_512 e'). intros. sum_ac. }
  rewrite HT. clearbody T'. clear HT.
  assert (HA : add_w 64 T (add_w 64 (BS0_512 a) (Maj a b c)) = (Maj c b a + BS0_512 a + T) mod 2 ^ 64).
  { rewrite (Maj_rev a b c). generalize (Maj a b c) (BS0_512 a). intros. sum_ac. }
  rewrite HA. clear HA. set (a' := (Maj c b a + BS0_512 a + T) mod 2 ^ 64). clearbody a'.
  apply f_equal2; [|reflexivity]. apply f_equal2; [|reflexivity]. apply f_equal2; [|reflexivity]. apply f_equal2; [|reflexivity].
  apply f_equal2; [|reflexivity]. apply f_equal2; [|reflexivity]. apply f_equal2; [|reflexivity].
  generalize (Maj a' a b) (BS0_512 a'). intros. sum_ac.
Qed.

(** ** The schedule, extended *)
Lemma sched1_rec M n t W : length M = 16%nat -> (t < n)%nat -> W = schedule sha1_W M n ->
  nthZ (t + 16) W = rotl 32 1 (Z.lxor (nthZ (t + 13) W) (Z.lxor (nthZ (t + 8) W) (Z.lxor (nthZ (t + 2) W) (nthZ t W)))).
Proof.
  intros L Ht HW. rewrite HW at 1. rewrite schedule_rec; auto; [|lia|intros A B HAB; apply sha1_W_local; auto; lia].
  rewrite <- HW. clear HW. unfold sha1_W.
  replace (t + 16 - 3)%nat with (t + 13)%nat by lia. replace (t + 16 - 8)%nat with (t + 8)%nat by lia.
  replace (t + 16 - 14)%nat with (t + 2)%nat by lia. replace (t + 16 - 16)%nat with t by lia. reflexivity.
Qed.
Lemma sched2_rec w s0 s1 M n t W : length M = 16%nat -> (t < n)%nat -> W = schedule (sha2_W w s0 s1) M n ->
  nthZ (t + 16) W = add_w w (s1 (nthZ (t + 14) W)) (add_w w (nthZ (t + 9) W) (add_w w (s0 (nthZ (t + 1) W)) (nthZ t W))).
Proof.
  intros L Ht HW. rewrite HW at 1. rewrite schedule_rec; auto; [|lia|intros A B HAB; unfold sha2_W; rewrite !HAB by lia; reflexivity].
  rewrite <- HW. clear HW. unfold sha2_W.
  replace (t + 16 - 2)%nat with (t + 14)%nat by lia. replace (t + 16 - 7)%nat with (t + 9)%nat by lia.
  replace (t + 16 - 15)%nat with (t + 1)%nat by lia. replace (t + 16 - 16)%nat with t by lia. reflexivity.
Qed.
Lemma sched1_wd M n i : length M = 16%nat -> Forall (wd 32) M -> wd 32 (nthZ i (schedule sha1_W M n)).
Proof.
  intros L F. apply schedule_wd; auto; [lia|]. intros W t Ht Hi. unfold sha1_W. apply rotl_wd; [lia|].
  repeat apply lxor_wd; try lia; apply Hi; lia.
Qed.
