(** Property C60: the SHA-1 and SHA-2 compression functions written with processor
    instructions (ShaNi.v) compute what FIPS 180-4 defines (HashSpec.v), hence what the
    portable ones (Hash.v) compute, and so do whole hashing sessions that use them. *)
From Verif Require Import Base Blocks Hash HashSpec HashLemmas MdLemmas PropHash ShaIsa ShaNi ShaNiLemmas ShaNiSteps.

Lemma add_comm_w w x y : wrap w (x + y) = add_w w y x.
Proof. unfold wrap, add_w. now rewrite Z.add_comm. Qed.

(** rounds see the same words in the schedule of the standard and in a longer one *)
Lemma fold_W_ext {S} (r : list Z -> S -> nat -> S) W W' n v :
  (forall v t, (t < n)%nat -> nthZ t W = nthZ t W' -> r W v t = r W' v t) ->
  (forall t, (t < n)%nat -> nthZ t W = nthZ t W') -> fold_left (r W) (seq 0 n) v = fold_left (r W') (seq 0 n) v.
Proof.
  intros Hr HW. induction n as [|n IH]; [reflexivity|]. rewrite seq_S, !fold_left_app. cbn [fold_left Nat.add].
  rewrite IH by auto. apply Hr; auto.
Qed.

Section One.
  Variables (H blk : list Z).
  Hypotheses (HH : state_wd 32 5 H) (Hb : bytes_ok blk) (HL : length blk = 64%nat).
  Let M := words_of 4 blk.
  Let W := schedule sha1_W M 100.
  Let LM : length M = 16%nat := words_of_length 4 blk.
  Let v0 := (nthZ 0 H, nthZ 1 H, nthZ 2 H, nthZ 3 H, nthZ 4 H).
  Lemma W1rec t : (t < 100)%nat ->
    nthZ (t + 16) W = rotl 32 1 (Z.lxor (nthZ (t + 13) W) (Z.lxor (nthZ (t + 8) W) (Z.lxor (nthZ (t + 2) W) (nthZ t W)))).
  Proof. intros Ht. exact (sched1_rec M 100 t W LM Ht eq_refl). Qed.
  Lemma W1wd t : wd 32 (nthZ t W).
  Proof. apply sched1_wd; [exact LM|]. apply (words_of_wd 4 blk Hb). Qed.
  Lemma B4_M i : (i < 4)%nat -> B4 M i = B4 W i.
  Proof.
    intros Hi. unfold B4, V4. cbv beta. unfold W. rewrite !(schedule_prefix sha1_W M 0 100) by (try rewrite LM; lia). reflexivity.
  Qed.
  Lemma sha1_alt : sha1_compress H blk =
    let '(a, b, c, d, e) := fold_left (fun v i => quad (sha1_round W) i v) (seq 0 20) v0 in
    [add_w 32 a (nthZ 0 H); add_w 32 b (nthZ 1 H); add_w 32 c (nthZ 2 H); add_w 32 d (nthZ 3 H); add_w 32 e (nthZ 4 H)].
  Proof.
    unfold sha1_compress. cbv zeta. fold M. fold v0.
    rewrite (fold_W_ext sha1_round _ W 80 v0).
    - change 80%nat with (4 * 20)%nat. rewrite fold_group. reflexivity.
    - intros [[[[a b] c] d] e] t Ht E. unfold sha1_round. rewrite E. reflexivity.
    - intros t Ht. unfold W. symmetry. apply schedule_prefix; [lia|]. rewrite LM. lia.
  Qed.
  Lemma arm_sha1_ok : arm_sha1_ni H blk = sha1_compress H blk.
  Proof.
    rewrite sha1_alt. unfold arm_sha1_ni. cbv zeta.
    pose proof (fold_seq_inv (arm1_rel W) arm_sha1_body (fun v i => quad (sha1_round W) i v) 20 0
                  (firstn 4 H, nthZ 4 H, arm_load32 blk) v0) as F.
    destruct F as (F1 & F2 & _).
    - split; [|split; [reflexivity|]].
      + destruct HH as [LH _]. destruct H as [|a [|b [|c [|d [|e [|? ?]]]]]]; try discriminate LH. reflexivity.
      + split; [reflexivity|]. intros k Hk. cbn [snd Nat.add]. rewrite Nat.mod_small by lia.
        rewrite arm_load32_at by auto. now apply B4_M.
    - intros t x y Ht R. apply arm_sha1_step; [exact W1rec|exact W1wd|lia|exact R].
    - destruct (fold_left arm_sha1_body (seq 0 20) (firstn 4 H, nthZ 4 H, arm_load32 blk)) as [[abcd e] w].
      cbn [fst snd] in F1, F2. rewrite F1, F2.
      destruct (fold_left (fun v i => quad (sha1_round W) i v) (seq 0 20) v0) as [[[[a' b'] c'] d'] e'].
      cbn [abcd4 snd seq map app nthZ nth Nat.sub]. rewrite !add_comm_w. reflexivity.
  Qed.
  Lemma x86_sha1_ok : x86_sha1 H blk = sha1_compress H blk.
  Proof.
    rewrite sha1_alt. unfold x86_sha1. cbv zeta.
    set (x0 := (rev [nthZ 0 H; nthZ 1 H; nthZ 2 H; nthZ 3 H], rev [nthZ 4 H; 0; 0; 0],
                vadd 32 (rev [nthZ 4 H; 0; 0; 0]) (vget (x86_sha1_load blk) 0), x86_sha1_load blk)).
    pose proof (fold_seq_inv (x861_rel W) x86_sha1_body (fun v i => quad (sha1_round W) i v) 20 0 x0 v0) as F.
    assert (LD : forall k, (k < 4)%nat -> vget (x86_sha1_load blk) k = R4 W k).
    { intros k Hk. rewrite x86_sha1_load_at by auto. unfold R4. now rewrite <- B4_M. }
    assert (F0 : x861_rel W 0 x0 v0).
    { unfold x0, x861_rel. split; [reflexivity|]. split; [intros X; lia|]. split; [|split].
      - rewrite LD by lia. cbn [rev app snd v0]. unfold R4, B4, V4, vadd. cbn [rev app combine map fst snd].
        unfold add_w. rewrite !(Z.add_comm (nthZ _ W)). reflexivity.
      - split; [reflexivity|]. intros k Hk. cbn [Nat.add]. rewrite Nat.mod_small by lia. rewrite LD by lia.
        destruct k as [|[|[|[|k]]]]; try reflexivity. lia.
      - unfold v0, abcd4. cbn [nthZ nth]. apply nthZ_wd; [lia|]. apply HH. }
    specialize (F F0). destruct (fold_left x86_sha1_body (seq 0 20) x0) as [[[abcd e] save] w].
    assert (F2 : x861_rel W 20 (abcd, e, save, w) (fold_left (fun v i => quad (sha1_round W) i v) (seq 0 20) v0)).
    { apply F. intros t x y Ht R. apply x86_sha1_step; [exact W1rec|exact W1wd|lia|exact R]. }
    clear F F0. unfold x861_rel in F2. destruct F2 as (F1 & F2 & _). destruct (F2 ltac:(lia)) as [F3 F4].
    rewrite F1, cROTL_rotl, F3 by (try lia; exact F4).
    destruct (fold_left (fun v i => quad (sha1_round W) i v) (seq 0 20) v0) as [[[[a' b'] c'] d'] e'].
    cbn [abcd4 snd seq map app rev nthZ nth Nat.sub]. rewrite !add_comm_w. reflexivity.
  Qed.
End One.

Section Two.
  Variables (H blk : list Z).
  Hypotheses (HH : state_wd 32 8 H) (Hb : bytes_ok blk) (HL : length blk = 64%nat).
  Let M := words_of 4 blk.
  Let W := schedule (sha2_W 32 ss0_256 ss1_256) M 100.
  Let LM : length M = 16%nat := words_of_length 4 blk.
  Let v0 := (nthZ 0 H, nthZ 1 H, nthZ 2 H, nthZ 3 H, nthZ 4 H, nthZ 5 H, nthZ 6 H, nthZ 7 H).
  Lemma W2rec t : (t < 100)%nat ->
    nthZ (t + 16) W = add_w 32 (ss1_256 (nthZ (t + 14) W)) (add_w 32 (nthZ (t + 9) W) (add_w 32 (ss0_256 (nthZ (t + 1) W)) (nthZ t W))).
  Proof. intros Ht. exact (sched2_rec 32 ss0_256 ss1_256 M 100 t W LM Ht eq_refl). Qed.
  Lemma B4_M2 i : (i < 4)%nat -> B4 M i = B4 W i.
  Proof.
    intros Hi. unfold B4, V4. cbv beta. unfold W. rewrite !(schedule_prefix (sha2_W 32 ss0_256 ss1_256) M 0 100) by (try rewrite LM; lia). reflexivity.
  Qed.
  Lemma sha256_alt : sha256_compress K_sha256 H blk =
    let '(a, b, c, d, e, f, g, h) := fold_left (fun (v : v8) i => quad (rnd256 W) i v) (seq 0 16) v0 in
    [add_w 32 a (nthZ 0 H); add_w 32 b (nthZ 1 H); add_w 32 c (nthZ 2 H); add_w 32 d (nthZ 3 H);
     add_w 32 e (nthZ 4 H); add_w 32 f (nthZ 5 H); add_w 32 g (nthZ 6 H); add_w 32 h (nthZ 7 H)].
  Proof.
    rewrite sha256_compress_alt. unfold sha2_compress. cbv zeta. fold M. fold v0.
    rewrite (fold_W_ext (sha2_round 32 BS0_256 BS1_256 K_sha256) _ W 64 v0).
    - change 64%nat with (4 * 16)%nat at 1. rewrite fold_group. reflexivity.
    - intros [[[[[[[a b] c] d] e] f] g] h] t Ht E. unfold sha2_round. rewrite E. reflexivity.
    - intros t Ht. unfold W. symmetry. apply schedule_prefix; [lia|]. rewrite LM. lia.
  Qed.
  Lemma arm_sha256_ok : arm_sha256_ni H blk = sha256_compress K_sha256 H blk.
  Proof.
    rewrite sha256_alt. unfold arm_sha256_ni. cbv zeta.
    pose proof (fold_seq_inv (arm2_rel W) arm_sha256_body (fun (v : v8) i => quad (rnd256 W) i v) 16 0
                  (firstn 4 H, firstn 4 (skipn 4 H), arm_load32 blk) v0) as F.
    destruct F as (F1 & F2 & _).
    - destruct HH as [LH _]. split; [|split].
      + cbn [fst snd]. change (firstn 4 H) with (firstn 4 (skipn 0 H)); rewrite (firstn_skipn_nth 4 0 H) by lia. reflexivity.
      + cbn [fst snd]. rewrite (firstn_skipn_nth 4 4 H) by lia. reflexivity.
      + split; [reflexivity|]. intros k Hk. cbn [snd Nat.add]. rewrite Nat.mod_small by lia.
        rewrite arm_load32_at by auto. now apply B4_M2.
    - intros t x y Ht R. apply arm_sha256_step; [exact W2rec|lia|exact R].
    - destruct (fold_left arm_sha256_body (seq 0 16) _) as [[abcd efgh] w].
      cbn [fst snd] in F1, F2. rewrite F1, F2.
      destruct (fold_left (fun (v : v8) i => quad (rnd256 W) i v) (seq 0 16) v0) as [[[[[[[a' b'] c'] d'] e'] f'] g'] h'].
      cbn [lo4 hi4 snd seq map app nthZ nth Nat.sub Nat.add]. rewrite !add_comm_w. reflexivity.
  Qed.
  Lemma x86_sha256_ok : x86_sha256 H blk = sha256_compress K_sha256 H blk.
  Proof.
    rewrite sha256_alt. unfold x86_sha256. cbv zeta.
    set (x0 := (rev [nthZ 0 H; nthZ 1 H; nthZ 4 H; nthZ 5 H], rev [nthZ 2 H; nthZ 3 H; nthZ 6 H; nthZ 7 H], x86_sha256_load blk)).
    pose proof (fold_seq_inv (x862_rel W) x86_sha256_body (fun (v : v8) i => quad (rnd256 W) i v) 16 0 x0 v0) as F.
    destruct F as (F1 & F2 & _).
    - split; [reflexivity|]. split; [reflexivity|].
      split; [reflexivity|]. intros k Hk. cbn [snd Nat.add x0]. rewrite Nat.mod_small by lia.
      rewrite x86_sha256_load_at by auto. fold M. rewrite B4_M2 by auto.
      destruct k as [|[|[|[|k]]]]; try reflexivity. lia.
    - intros t x y Ht R. apply x86_sha256_step; [exact W2rec|lia|exact R].
    - destruct (fold_left x86_sha256_body (seq 0 16) x0) as [[ab cd] w].
      cbn [fst snd] in F1, F2. rewrite F1, F2.
      destruct (fold_left (fun (v : v8) i => quad (rnd256 W) i v) (seq 0 16) v0) as [[[[[[[a' b'] c'] d'] e'] f'] g'] h'].
      clear - HH. destruct HH as [LH _]. clear HH. destruct H as [|? [|? [|? [|? [|? [|? [|? [|? [|? ?]]]]]]]]]; try discriminate LH.
      cbn [abef cdgh upd nthZ nth]. rewrite !add_comm_w. reflexivity.
  Qed.
End Two.

Section Five.
  Variables (H blk : list Z).
  Hypotheses (HH : state_wd 64 8 H) (Hb : bytes_ok blk) (HL : length blk = 128%nat).
  Let M := words_of 8 blk.
  Let W := schedule (sha2_W 64 ss0_512 ss1_512) M 100.
  Let LM : length M = 16%nat := words_of_length 8 blk.
  Let v0 := (nthZ 0 H, nthZ 1 H, nthZ 2 H, nthZ 3 H, nthZ 4 H, nthZ 5 H, nthZ 6 H, nthZ 7 H).
  Lemma W5rec t : (t < 100)%nat ->
    nthZ (t + 16) W = add_w 64 (ss1_512 (nthZ (t + 14) W)) (add_w 64 (nthZ (t + 9) W) (add_w 64 (ss0_512 (nthZ (t + 1) W)) (nthZ t W))).
  Proof. intros Ht. exact (sched2_rec 64 ss0_512 ss1_512 M 100 t W LM Ht eq_refl). Qed.
  Lemma B2_M i : (i < 8)%nat -> B2 M i = B2 W i.
  Proof.
    intros Hi. unfold B2, V2. cbv beta. unfold W. rewrite !(schedule_prefix (sha2_W 64 ss0_512 ss1_512) M 0 100) by (try rewrite LM; lia). reflexivity.
  Qed.
  Lemma sha512_alt : sha512_compress K_sha512 H blk =
    let '(a, b, c, d, e, f, g, h) := fold_left (fun (v : v8) i => pair2 (rnd512 W) i v) (seq 0 40) v0 in
    [add_w 64 a (nthZ 0 H); add_w 64 b (nthZ 1 H); add_w 64 c (nthZ 2 H); add_w 64 d (nthZ 3 H);
     add_w 64 e (nthZ 4 H); add_w 64 f (nthZ 5 H); add_w 64 g (nthZ 6 H); add_w 64 h (nthZ 7 H)].
  Proof.
    rewrite sha512_compress_alt. unfold sha2_compress. cbv zeta. fold M. fold v0.
    rewrite (fold_W_ext (sha2_round 64 BS0_512 BS1_512 K_sha512) _ W 80 v0).
    - change 80%nat with (2 * 40)%nat at 1. rewrite fold_group. reflexivity.
    - intros [[[[[[[a b] c] d] e] f] g] h] t Ht E. unfold sha2_round. rewrite E. reflexivity.
    - intros t Ht. unfold W. symmetry. apply schedule_prefix; [lia|]. rewrite LM. lia.
  Qed.
  Lemma arm_sha512_ok : arm_sha512_ni H blk = sha512_compress K_sha512 H blk.
  Proof.
    rewrite sha512_alt.
    unfold arm_sha512_ni. cbv zeta.
    pose proof (fold_seq_inv (arm5_rel W) arm_sha512_body (fun (v : v8) i => pair2 (rnd512 W) i v) 40 0
                  (firstn 2 H, firstn 2 (skipn 2 H), firstn 2 (skipn 4 H), firstn 2 (skipn 6 H), arm_load64 blk) v0) as F.
    destruct (fold_left arm_sha512_body (seq 0 40) _) as [[[[ab cd] ef] gh] w].
    destruct (fold_left (fun (v : v8) i => pair2 (rnd512 W) i v) (seq 0 40) v0) as [[[[[[[a' b'] c'] d'] e'] f'] g'] h'].
    destruct F as (F1 & F2 & F3 & F4 & _).
    - destruct HH as [LH _]. unfold arm5_rel, v0.
      split; [|split; [|split; [|split]]];
        [change (firstn 2 H) with (firstn 2 (skipn 0 H)); rewrite (firstn_skipn_nth 2 0 H) by lia; reflexivity|rewrite (firstn_skipn_nth 2 2 H) by lia; reflexivity|
         rewrite (firstn_skipn_nth 2 4 H) by lia; reflexivity|rewrite (firstn_skipn_nth 2 6 H) by lia; reflexivity|].
      split; [reflexivity|]. intros k Hk. cbn [snd Nat.add]. rewrite Nat.mod_small by lia.
      rewrite arm_load64_at by auto. now apply B2_M.
    - intros t x y Ht R. apply arm_sha512_step; [exact W5rec|lia|exact R].
    - rewrite F1, F2, F3, F4. cbn [nthZ nth]. rewrite !add_comm_w. reflexivity.
  Qed.
End Five.

Theorem C60_sha1 : forall H blk : list Z,
  state_wd 32 5 H -> bytes_ok blk -> length blk = 64%nat ->
  x86_sha1 H blk = sha1_compress H blk /\ arm_sha1_ni H blk = sha1_compress H blk /\
  compressfunc_sha1 H blk = sha1_compress H blk.
Proof.
  intros H blk HH Hb HL. split; [now apply x86_sha1_ok|]. split; [now apply arm_sha1_ok|]. now apply sha1_compress_eq.
Qed.
Print Assumptions C60_sha1.

Theorem C60_sha256 : forall H blk : list Z,
  state_wd 32 8 H -> bytes_ok blk -> length blk = 64%nat ->
  x86_sha256 H blk = sha256_compress K_sha256 H blk /\ arm_sha256_ni H blk = sha256_compress K_sha256 H blk /\
  compressfunc_sha2 sha256_params H blk = sha256_compress K_sha256 H blk.
Proof.
  intros H blk HH Hb HL. split; [now apply x86_sha256_ok|]. split; [now apply arm_sha256_ok|]. now apply sha256_compress_eq.
Qed.
Print Assumptions C60_sha256.

Theorem C60_sha512 : forall H blk : list Z,
  state_wd 64 8 H -> bytes_ok blk -> length blk = 128%nat ->
  x86_sha512 H blk = sha512_compress K_sha512 H blk /\ arm_sha512_ni H blk = sha512_compress K_sha512 H blk /\
  compressfunc_sha2 sha512_params H blk = sha512_compress K_sha512 H blk.
Proof.
  intros H blk HH Hb HL. split; [now apply sha512_compress_eq|]. split; [now apply arm_sha512_ok|]. now apply sha512_compress_eq.
Qed.
Print Assumptions C60_sha512.

(** ** Whole sessions *)
Lemma digest_ext a w n c m : md_good a w n ->
  (forall H blk, state_wd w n H -> bytes_ok blk -> length blk = md_block a -> c H blk = md_compress a H blk) ->
  bytes_ok m -> md_digest (with_compress a c) m = md_digest a m.
Proof.
  intros G HE Hm. unfold md_digest, md_hash, L. change (md_block (with_compress a c)) with (md_block a).
  cbn [md_wb md_compress md_iv md_out with_compress]. f_equal. f_equal.
  assert (HB : Forall (fun b => length b = md_block a /\ bytes_ok b) (blocks (md_block a) (md_padded (md_block a) (2 * md_wb a) m))).
  { apply blocks_bytes; [apply (B_pos a w n G)|]. unfold md_padded. apply Forall_app; split; auto. apply Forall_app; split.
    - repeat constructor; unfold byte_ok; lia.
    - apply Forall_app; split; [apply repeat0_bytes|apply be_bytes_ok]. }
  revert HB. pose proof (g_iv _ _ _ G) as HI. revert HI. generalize (md_iv a). generalize (blocks (md_block a) (md_padded (md_block a) (2 * md_wb a) m)).
  intros l. induction l as [|b l IH]; intros H HH HF; cbn [fold_left]; auto.
  inversion HF as [|? ? [Hl Hb] HF']; subst. rewrite HE by auto. apply IH; auto. now apply (g_comp _ _ _ G).
Qed.
Lemma session_ext a w n c junk chunks t : md_good a w n ->
  (forall H blk, state_wd w n H -> bytes_ok blk -> state_wd w n (c H blk)) ->
  (forall H blk, state_wd w n H -> bytes_ok blk -> length blk = md_block a -> c H blk = md_compress a H blk) ->
  length junk = md_block a -> Forall bytes_ok chunks -> 8 * Z.of_nat (length (concat chunks)) < 2 ^ 64 ->
  session (with_compress a c) junk chunks t = session a junk chunks t.
Proof.
  intros G HS HE HJ HC HL. unfold session.
  assert (G' : md_good (with_compress a c) w n).
  { destruct G. constructor; auto. }
  rewrite (md_lifecycle (with_compress a c) w n chunks junk t G' HJ HC HL), (md_lifecycle a w n chunks junk t G HJ HC HL).
  rewrite (digest_ext a w n c _ G HE); [reflexivity|]. apply Forall_concat, HC.
Qed.
Lemma wraps_wd w l : 0 <= w -> Forall (fun x => exists y, x = wrap w y) l -> Forall (wd w) l.
Proof. intros Hw F. induction F as [|x l [y ->] F IH]; constructor; auto. now apply wrap_wd. Qed.
Ltac wraps := split; [reflexivity|]; apply wraps_wd; [lia|]; cbn [map seq app]; repeat constructor; eexists; reflexivity.
Lemma x86_sha1_state H blk : state_wd 32 5 (x86_sha1 H blk).
Proof. unfold x86_sha1. cbv zeta. destruct (fold_left _ _ _) as [[[abcd e] s] w]. wraps. Qed.
Lemma arm_sha1_state H blk : state_wd 32 5 (arm_sha1_ni H blk).
Proof. unfold arm_sha1_ni. cbv zeta. destruct (fold_left _ _ _) as [[abcd e] w]. wraps. Qed.
Lemma x86_sha256_state H blk : state_wd 32 8 H -> state_wd 32 8 (x86_sha256 H blk).
Proof.
  intros [L F]. unfold x86_sha256. cbv zeta. destruct (fold_left _ _ _) as [[abcd e] w].
  split; [now rewrite !upd_length|]. repeat apply upd_Forall; auto; apply wrap_wd; lia.
Qed.
Lemma arm_sha256_state H blk : state_wd 32 8 (arm_sha256_ni H blk).
Proof. unfold arm_sha256_ni. cbv zeta. destruct (fold_left _ _ _) as [[abcd e] w]. wraps. Qed.
Lemma arm_sha512_state H blk : state_wd 64 8 (arm_sha512_ni H blk).
Proof. unfold arm_sha512_ni. cbv zeta. destruct (fold_left _ _ _) as [[[[ab cd] ef] gh] w]. wraps. Qed.

Theorem C60_sessions : forall (a : md_alg) (c : list Z -> list Z -> list Z), In (a, c) ni_algs ->
  forall (junk : list Z) (chunks : list (list Z)) (t : nat),
  length junk = md_block a -> Forall bytes_ok chunks -> 8 * Z.of_nat (length (concat chunks)) < 2 ^ 64 ->
  session (with_compress a c) junk chunks t = session a junk chunks t.
Proof.
  intros a c HI junk chunks t HJ HC HL.
  assert (E1 : forall H blk, state_wd 32 5 H -> bytes_ok blk -> length blk = 64%nat -> x86_sha1 H blk = compressfunc_sha1 H blk).
  { intros. destruct (C60_sha1 H blk) as (A & _ & B); auto. now rewrite A, B. }
  assert (E2 : forall H blk, state_wd 32 5 H -> bytes_ok blk -> length blk = 64%nat -> arm_sha1_ni H blk = compressfunc_sha1 H blk).
  { intros. destruct (C60_sha1 H blk) as (_ & A & B); auto. now rewrite A, B. }
  assert (E3 : forall H blk, state_wd 32 8 H -> bytes_ok blk -> length blk = 64%nat -> x86_sha256 H blk = compressfunc_sha2 sha256_params H blk).
  { intros. destruct (C60_sha256 H blk) as (A & _ & B); auto. now rewrite A, B. }
  assert (E4 : forall H blk, state_wd 32 8 H -> bytes_ok blk -> length blk = 64%nat -> arm_sha256_ni H blk = compressfunc_sha2 sha256_params H blk).
  { intros. destruct (C60_sha256 H blk) as (_ & A & B); auto. now rewrite A, B. }
  assert (E5 : forall H blk, state_wd 64 8 H -> bytes_ok blk -> length blk = 128%nat -> arm_sha512_ni H blk = compressfunc_sha2 sha512_params H blk).
  { intros. destruct (C60_sha512 H blk) as (_ & A & B); auto. now rewrite A, B. }
  assert (E6 : forall H blk, state_wd 64 8 H -> bytes_ok blk -> length blk = 128%nat -> x86_sha512 H blk = compressfunc_sha2 sha512_params H blk).
  { intros. unfold x86_sha512. exact eq_refl. }
  assert (S6 : forall H blk, state_wd 64 8 H -> bytes_ok blk -> state_wd 64 8 (x86_sha512 H blk)).
  { intros. now apply (sha2_state sha512_params H blk sha512_ok). }
  cbn [In ni_algs] in HI. repeat (destruct HI as [HI|HI]; [injection HI as <- <-|]); [..|contradiction].
  - exact (session_ext alg_sha1 32 5 x86_sha1 junk chunks t good_sha1 (fun H blk _ _ => x86_sha1_state H blk) E1 HJ HC HL).
  - exact (session_ext alg_sha1 32 5 arm_sha1_ni junk chunks t good_sha1 (fun H blk _ _ => arm_sha1_state H blk) E2 HJ HC HL).
  - exact (session_ext alg_sha224 32 8 x86_sha256 junk chunks t good_sha224 (fun H blk h _ => x86_sha256_state H blk h) E3 HJ HC HL).
  - exact (session_ext alg_sha224 32 8 arm_sha256_ni junk chunks t good_sha224 (fun H blk _ _ => arm_sha256_state H blk) E4 HJ HC HL).
  - exact (session_ext alg_sha256 32 8 x86_sha256 junk chunks t good_sha256 (fun H blk h _ => x86_sha256_state H blk h) E3 HJ HC HL).
  - exact (session_ext alg_sha256 32 8 arm_sha256_ni junk chunks t good_sha256 (fun H blk _ _ => arm_sha256_state H blk) E4 HJ HC HL).
  - exact (session_ext alg_sha384 64 8 x86_sha512 junk chunks t good_sha384 S6 E6 HJ HC HL).
  - exact (session_ext alg_sha384 64 8 arm_sha512_ni junk chunks t good_sha384 (fun H blk _ _ => arm_sha512_state H blk) E5 HJ HC HL).
  - exact (session_ext alg_sha512 64 8 x86_sha512 junk chunks t good_sha512 S6 E6 HJ HC HL).
  - exact (session_ext alg_sha512 64 8 arm_sha512_ni junk chunks t good_sha512 (fun H blk _ _ => arm_sha512_state H blk) E5 HJ HC HL).
  - exact (session_ext alg_sha512t224 64 8 x86_sha512 junk chunks t good_sha512t224 S6 E6 HJ HC HL).
  - exact (session_ext alg_sha512t224 64 8 arm_sha512_ni junk chunks t good_sha512t224 (fun H blk _ _ => arm_sha512_state H blk) E5 HJ HC HL).
  - exact (session_ext alg_sha512t256 64 8 x86_sha512 junk chunks t good_sha512t256 S6 E6 HJ HC HL).
  - exact (session_ext alg_sha512t256 64 8 arm_sha512_ni junk chunks t good_sha512t256 (fun H blk _ _ => arm_sha512_state H blk) E5 HJ HC HL).
Qed.
Print Assumptions C60_sessions.

(** Non-vacuity: "abc" padded (FIPS 180-4 example values), and a session in two pieces. *)
Definition abc_blk : list Z := [97; 98; 99; 128] ++ repeat 0 59 ++ [24].
Example C60_abc_hyps : state_wd 32 5 (md_iv alg_sha1) /\ state_wd 32 8 (md_iv alg_sha256) /\ bytes_ok abc_blk /\ length abc_blk = 64%nat.
Proof.
  split; [apply good_sha1|]. split; [apply good_sha256|]. split; [|reflexivity].
  repeat constructor; unfold byte_ok; lia.
Qed.
Example C60_abc : x86_sha1 (md_iv alg_sha1) abc_blk = [0xa9993e36; 0x4706816a; 0xba3e2571; 0x7850c26c; 0x9cd0d89d].
Proof. vm_compute. reflexivity. Qed.
Example C60_session_hyps : In (alg_sha512, arm_sha512_ni) ni_algs /\ length (repeat 7 128) = md_block alg_sha512 /\
  Forall bytes_ok [[97]; [98; 99]] /\ 8 * Z.of_nat (length (concat [[97]; [98; 99]])) < 2 ^ 64.
Proof.
  split; [unfold ni_algs; cbn [In]; do 9 right; left; reflexivity|]. split; [reflexivity|]. split; [|reflexivity].
  repeat constructor; unfold byte_ok; lia.
Qed.
