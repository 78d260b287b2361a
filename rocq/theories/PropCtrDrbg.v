(** C25: CTR_DRBG. *)
From Verif Require Import Base HashSpec Blocks HashLemmas MdLemmas GcmSpec GaloisLemmas GcmLemmas CtrDrbgSpec CtrDrbg CtrDrbgLemmas Cipher PropCipher PropAead.

(** What a user does with a generator: instantiate once, then reseed and generate in any order.
    [df] = the library was built with the derivation function (the default). *)
Inductive drbg_op : Type := op_reseed (s : list Z) | op_generate (n : nat).
(** accepted seeds: seedlen octets without the derivation function, anything below 2^32 octets with it *)
Definition seed_ok (df : bool) (ks : nat) (s : list Z) : Prop :=
  bytes_ok s /\ if df then Z.of_nat (length s) < 2 ^ 32 else length s = (ks + 16)%nat.
Definition op_ok (df : bool) (ks : nat) (o : drbg_op) : Prop := match o with op_reseed s => seed_ok df ks s | op_generate _ => True end.

(** the code: context and the outputs so far *)
Definition code_seed E ks (df : bool) (x : ctr_drbg) s := if df then CTR_DRBG_Seed_WithDF E ks x s else CTR_DRBG_Seed E ks x s.
Definition code_op E ks (df : bool) (st : ctr_drbg * list (list Z)) (o : drbg_op) : ctr_drbg * list (list Z) :=
  match o with
  | op_reseed s => ((if df then CTR_DRBG_Reseed_WithDF E ks (fst st) s else CTR_DRBG_Reseed E ks (fst st) s), snd st)
  | op_generate n => (fst (CTR_DRBG_Generate E ks (fst st) n), snd st ++ [snd (CTR_DRBG_Generate E ks (fst st) n)])
  end.
Definition code_run E ks df x s ops : list (list Z) := snd (fold_left (code_op E ks df) ops (code_seed E ks df x s, [])).
(** the standard: (K,V) and the outputs so far *)
Definition sp_input E ks (df : bool) s := if df then sp_df E ks s (ks + 16) else s.
Definition sp_op E ks (df : bool) (st : (list Z * list Z) * list (list Z)) (o : drbg_op) :=
  match o with
  | op_reseed s => (sp_reseed E ks (sp_input E ks df s) (fst st), snd st)
  | op_generate n => (snd (sp_generate E ks n (fst st)), snd st ++ [fst (sp_generate E ks n (fst st))])
  end.
Definition sp_run E ks df s ops : list (list Z) := snd (fold_left (sp_op E ks df) ops (sp_instantiate E ks (sp_input E ks df s), [])).

Lemma input_ok E ks df s : ciphers E ks -> (ks <= 256)%nat -> seed_ok df ks s -> bytes_ok (sp_input E ks df s) /\ length (sp_input E ks df s) = (ks + 16)%nat.
Proof.
  intros HE Hk [B H]. unfold sp_input. destruct df; [|auto]. destruct (df_spec E ks s (ks + 16) HE Hk B H ltac:(lia)) as (_ & A & C). auto.
Qed.
Lemma seed_state E ks df x s : ciphers E ks -> (ks <= 256)%nat -> seed_ok df ks s ->
  let KV := sp_instantiate E ks (sp_input E ks df s) in cd_state ks (code_seed E ks df x s) (fst KV) (snd KV).
Proof.
  intros HE Hk Hs. pose proof (input_ok E ks df s HE Hk Hs) as HI. unfold code_seed, sp_instantiate. destruct df; unfold sp_input in *.
  - unfold CTR_DRBG_Seed_WithDF. destruct Hs as [B H]. destruct (df_spec E ks s (ks + 16) HE Hk B H ltac:(lia)) as (D & _). replace (16 + ks)%nat with (ks + 16)%nat by lia.
    destruct (BlockCipher_df E ks s (ks + 16)) as [sc sm]. cbn [snd] in D. subst sm. unfold CTR_DRBG_Seed.
    apply (update_spec E ks _ _ _ (Some _) HE (zero_state ks)). tauto.
  - unfold CTR_DRBG_Seed. apply (update_spec E ks _ _ _ (Some s) HE (zero_state ks)). tauto.
Qed.
Lemma reseed_state E ks df x s outs K V : ciphers E ks -> (ks <= 256)%nat -> seed_ok df ks s -> cd_state ks x K V ->
  let KV := sp_reseed E ks (sp_input E ks df s) (K, V) in cd_state ks (fst (code_op E ks df (x, outs) (op_reseed s))) (fst KV) (snd KV).
Proof.
  intros HE Hk Hs HX. pose proof (input_ok E ks df s HE Hk Hs) as HI. unfold code_op, sp_reseed. cbn [fst snd]. destruct df; unfold sp_input in *.
  - unfold CTR_DRBG_Reseed_WithDF. destruct Hs as [B H]. destruct (df_spec E ks s (ks + 16) HE Hk B H ltac:(lia)) as (D & _). replace (16 + ks)%nat with (ks + 16)%nat by lia.
    destruct (BlockCipher_df E ks s (ks + 16)) as [sc sm]. cbn [snd] in D. subst sm.
    assert (EX : {| cd_sched := firstn ks (cd_seed x); cd_seed := cd_seed x |} = x).
    { destruct HX as (A1 & A2 & A3 & _). destruct x as [sd se]. cbn [cd_sched cd_seed] in *. subst. rewrite firstn_app_exact; reflexivity. }
    rewrite EX. apply (update_spec E ks _ _ _ (Some _) HE HX). tauto.
  - apply (update_spec E ks _ _ _ (Some s) HE HX). tauto.
Qed.

(** Instantiate, any number of reseeds, one request of any length: the SP 800-90A octets.
    Missing: further requests, for which this is false (below). *)
Theorem C25_first_output_partial : forall E ks df x s seeds n, ciphers E ks -> (8 <= ks <= 32)%nat ->
  seed_ok df ks s -> Forall (seed_ok df ks) seeds ->
  code_run E ks df x s (map op_reseed seeds ++ [op_generate n]) = sp_run E ks df s (map op_reseed seeds ++ [op_generate n]).
Proof.
  intros E ks df x s seeds n HE Hk Hs HF. unfold code_run, sp_run. rewrite !fold_left_app. cbn [fold_left].
  pose proof (seed_state E ks df x s HE ltac:(lia) Hs) as H0. cbv zeta in H0. generalize dependent (sp_instantiate E ks (sp_input E ks df s)). generalize (code_seed E ks df x s). generalize (@nil (list Z)).
  induction HF as [|r seeds Hr HF IH]; intros outs y [K V] H; cbn [fst snd] in H.
  - cbn [map fold_left code_op sp_op fst snd sp_generate]. now rewrite (generate_spec E ks y K V n HE H).
  - cbn [map fold_left]. pose proof (reseed_state E ks df y r outs K V HE ltac:(lia) Hr H) as H1. cbv zeta in H1.
    unfold code_op at 2, sp_op at 2. cbn [fst snd]. apply IH. unfold code_op in H1. cbn [fst] in H1. exact H1.
Qed.

(** The generator's future read off its output: the next request, computed from the octets
    returned by the previous one. *)
Definition predict (E : list Z -> list Z -> list Z) (ks : nat) (out : list Z) (n : nat) : list Z :=
  firstn n (ctr_stream (E (firstn ks out)) (firstn 16 (skipn ks out)) (nblk n)).
(** A context that has been instantiated and used in any way. *)
Definition used_context (E : list Z -> list Z -> list Z) (ks : nat) (df : bool) (x : ctr_drbg) : Prop :=
  exists x0 s ops, seed_ok df ks s /\ Forall (op_ok df ks) ops /\ x = fst (fold_left (code_op E ks df) ops (code_seed E ks df x0 s, [])).
Lemma used_state E ks df x : ciphers E ks -> (ks <= 256)%nat -> used_context E ks df x -> exists K V, cd_state ks x K V.
Proof.
  intros HE Hk (x0 & s & ops & Hs & HF & ->). pose proof (seed_state E ks df x0 s HE Hk Hs) as H0. cbv zeta in H0.
  assert (G : exists K V, cd_state ks (code_seed E ks df x0 s) K V) by eauto. clear H0. generalize dependent (code_seed E ks df x0 s). generalize (@nil (list Z)).
  induction HF as [|o ops Ho HF IH]; intros outs y (K & V & H); [exists K, V; exact H|]. cbn [fold_left].
  destruct o as [r|n].
  - pose proof (reseed_state E ks df y r outs K V HE Hk Ho H) as H1. cbv zeta in H1. destruct (code_op E ks df (y, outs) (op_reseed r)) as [y' outs']. apply IH. eauto.
  - unfold code_op at 2. cbn [fst snd]. apply IH. rewrite (generate_spec E ks y K V n HE H). cbn [fst].
    pose proof (update_spec E ks y K V None HE H I) as H1. cbv zeta in H1. eauto.
Qed.
Lemma nblk_ge n : (n <= 16 * nblk n)%nat.
Proof. unfold nblk. pose proof (Nat.div_mod (n + 15) 16 ltac:(lia)). pose proof (Nat.mod_upper_bound (n + 15) 16 ltac:(lia)). lia. Qed.
Lemma nblk_mono a b : (a <= b)%nat -> (nblk a <= nblk b)%nat.
Proof. intros H. unfold nblk. apply Nat.div_le_mono; lia. Qed.

(** Backtracking/prediction resistance fails outright: whatever the cipher, the history and the
    secret state, a caller who sees one answer of at least seedlen octets (for AES-256: 48) can
    compute the new key and counter, hence the next answer and so every later one. *)
Theorem C25_predictable_refuted : forall E ks df x n1 n2, ciphers E ks -> (8 <= ks <= 32)%nat -> used_context E ks df x -> (ks + 16 <= n1)%nat ->
  let r1 := CTR_DRBG_Generate E ks x n1 in
  let r2 := CTR_DRBG_Generate E ks (fst r1) n2 in
  cd_seed (fst r1) = firstn (ks + 16) (snd r1) /\ snd r2 = predict E ks (snd r1) n2.
Proof.
  intros E ks df x n1 n2 HE Hk HU Hn. cbv zeta. destruct (used_state E ks df x HE ltac:(lia) HU) as (K & V & H).
  rewrite (generate_spec E ks x K V n1 HE H). cbn [fst snd].
  pose proof (update_spec E ks x K V None HE H I) as H1. cbv zeta in H1. destruct (H) as (_ & _ & LK & BK & BV).
  set (st1 := ctr_stream (E K) V (nblk n1)).
  assert (EQ : firstn (ks + 16) (ctr_stream (E K) V (nblk (ks + 16))) = firstn (ks + 16) (firstn n1 st1)).
  { unfold st1. rewrite firstn_firstn. replace (Nat.min (ks + 16) n1) with (ks + 16)%nat by lia.
    pose proof (nblk_mono _ _ Hn). replace (nblk n1) with (nblk (ks + 16) + (nblk n1 - nblk (ks + 16)))%nat by lia. rewrite stream_app, firstn_app.
    rewrite stream_length by auto. pose proof (nblk_ge (ks + 16)). replace (ks + 16 - 16 * nblk (ks + 16))%nat with 0%nat by lia. now rewrite firstn_O, app_nil_r. }
  assert (LS : length (firstn (ks + 16) (firstn n1 st1)) = (ks + 16)%nat).
  { rewrite <- EQ, firstn_length, stream_length by auto. pose proof (nblk_ge (ks + 16)). lia. }
  unfold sp_update in H1. rewrite xor_zeros in H1 by (rewrite firstn_length; lia). rewrite EQ in H1. cbn [fst snd] in H1.
  rewrite (generate_spec E ks _ _ _ n2 HE H1). cbn [snd]. destruct H1 as (_ & Hs & _). split.
  - rewrite Hs. apply firstn_skipn.
  - unfold predict. set (out := firstn n1 st1) in *. rewrite firstn_firstn. replace (Nat.min ks (ks + 16)) with ks by lia.
    rewrite skipn_firstn_comm. replace (ks + 16 - ks)%nat with 16%nat by lia. reflexivity.
Qed.

(** Consequently two requests do not give the SP 800-90A octets: an octet-wise xor as the cipher, all-zero seed (with AES-128
    the octets differ as well, but a kernel without the VM takes minutes over it). *)
Theorem C25_sp800_90a_refuted :
  ~ (forall (E : list Z -> list Z -> list Z) (ks : nat) df x s ops, ciphers E ks -> (16 <= ks)%nat -> seed_ok df ks s -> Forall (op_ok df ks) ops ->
     code_run E ks df x s ops = sp_run E ks df s ops).
Proof.
  intros H. specialize (H (fun K b => xorb_list (firstn 16 K) b) 16%nat false {| cd_sched := []; cd_seed := [] |} (repeat 0 32) [op_generate 16; op_generate 16]).
  assert (B : (nthZ 15 (nth 1 (code_run (fun K b => xorb_list (firstn 16 K) b) 16 false {| cd_sched := []; cd_seed := [] |} (repeat 0 32) [op_generate 16; op_generate 16]) [])
    =? nthZ 15 (nth 1 (sp_run (fun K b => xorb_list (firstn 16 K) b) 16 false (repeat 0 32) [op_generate 16; op_generate 16]) [])) = false) by (vm_compute; reflexivity).
  rewrite H in B.
  - rewrite Z.eqb_refl in B. discriminate.
  - intros K BK LK b (Lb & Bb). assert (LF : length (firstn 16 K) = 16%nat) by (rewrite firstn_length; lia). split.
    + apply xorb_list_ok; auto. now apply Forall_firstn.
    + rewrite xorb_list_length; lia.
  - lia.
  - split; [apply repeat0_bytes|reflexivity].
  - repeat constructor.
Qed.
(** the hypotheses are met by every AES: *)
Example C25_ciphers : ciphers (fun K => AES128_Cipher (AES128_KeyExpansion K)) 16 /\ ciphers (fun K => AES192_Cipher (AES192_KeyExpansion K)) 24 /\
  ciphers (fun K => AES256_Cipher (AES256_KeyExpansion K)) 32 /\
  used_context (fun K => AES256_Cipher (AES256_KeyExpansion K)) 32 true (CTR_DRBG_Seed_WithDF (fun K => AES256_Cipher (AES256_KeyExpansion K)) 32 {| cd_sched := []; cd_seed := [] |} [1;2;3]).
Proof.
  split; [|split; [|split]].
  - intros K B L. destruct (C20_aes K B) as (A & _ & _). exact (A L).
  - intros K B L. destruct (C20_aes K B) as (_ & A & _). exact (A L).
  - intros K B L. destruct (C20_aes K B) as (_ & _ & A). exact (A L).
  - exists {| cd_sched := []; cd_seed := [] |}, [1;2;3], []. split; [|split; [constructor|reflexivity]]. split; [repeat (apply Forall_cons; [unfold byte_ok; lia|]); constructor|]. cbn. lia.
Qed.
(** One case: the answer gives the next answer away. *)
Example C25_nonvacuous :
  let E := fun K => AES128_Cipher (AES128_KeyExpansion K) in
  let x := CTR_DRBG_Seed E 16 {| cd_sched := []; cd_seed := [] |} (repeat 0 32) in
  let r1 := CTR_DRBG_Generate E 16 x 32 in
  cd_seed (fst r1) = firstn 32 (snd r1) /\ snd (CTR_DRBG_Generate E 16 (fst r1) 3) = predict E 16 (snd r1) 3.
Proof.
  cbv zeta. apply (C25_predictable_refuted (fun K => AES128_Cipher (AES128_KeyExpansion K)) 16 false).
  - exact (proj1 C25_ciphers).
  - lia.
  - exists {| cd_sched := []; cd_seed := [] |}, (repeat 0 32), []. split; [|split; [constructor|reflexivity]]. split; [apply repeat0_bytes|reflexivity].
  - lia.
Qed.

Print Assumptions C25_first_output_partial.
Print Assumptions C25_predictable_refuted.
Print Assumptions C25_sp800_90a_refuted.
