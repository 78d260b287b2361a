(** One iteration of each loop of ShaNi.v does four (SHA-512: two) rounds and extends the schedule. *)
From Verif Require Import Base Blocks Hash HashSpec HashLemmas ShaIsa ShaNi ShaNiLemmas.

Definition ring (n : nat) (B : nat -> list Z) (i : nat) (w : list (list Z)) : Prop :=
  length w = n /\ forall k, (k < n)%nat -> vget w ((i + k) mod n) = B (i + k)%nat.

Lemma ring_upd2 n B i w x y : (0 < n)%nat -> ring n B i w -> y = B (i + n)%nat ->
  ring n B (S i) (upd (i mod n) y (upd (i mod n) x w)).
Proof.
  intros Hn [L H] ->. split; [now rewrite !upd_length|]. intros k Hk.
  assert (E : (i mod n = (i + 0) mod n)%nat) by now rewrite Nat.add_0_r. rewrite E.
  replace (S i + k)%nat with (i + (k + 1))%nat by lia.
  destruct (Nat.eq_dec (k + 1) n) as [D|D].
  - rewrite D. rewrite <- (mod_wrap n i 0) at 1 by lia. rewrite <- (mod_wrap n i 0) at 1 by lia. cbn [Nat.add].
    apply ring_same; auto. now rewrite upd_length.
  - rewrite !ring_other by lia. apply H. lia.
Qed.
Lemma ring_0 n B i w : (0 < n)%nat -> ring n B i w -> vget w (i mod n) = B i.
Proof. intros Hn [_ H]. specialize (H 0%nat Hn). now rewrite Nat.add_0_r in H. Qed.
Lemma ring_k n B i w k x : ring n B i w -> (0 < k < n)%nat -> vget (upd (i mod n) x w) ((i + k) mod n) = B (i + k)%nat.
Proof.
  intros [_ H] Hk. assert (E : (i mod n = (i + 0) mod n)%nat) by now rewrite Nat.add_0_r. rewrite E.
  rewrite ring_other by lia. apply H. lia.
Qed.
Lemma ring_x n B i w x : (0 < n)%nat -> ring n B i w -> vget (upd (i mod n) x w) (i mod n) = x.
Proof. intros Hn [L _]. rewrite <- (Nat.add_0_r i). now apply ring_same. Qed.

Lemma f_Ch t : (t < 20)%nat -> sha1_f t = Ch 32 /\ sha1_K t = 0x5a827999.
Proof. intros H. unfold sha1_f, sha1_K. rewrite (leb_correct t 19) by lia. split; reflexivity. Qed.
Lemma f_P1 t : (20 <= t < 40)%nat -> sha1_f t = Parity /\ sha1_K t = 0x6ed9eba1.
Proof. intros H. unfold sha1_f, sha1_K. rewrite (leb_correct_conv 19 t), (leb_correct t 39) by lia. split; reflexivity. Qed.
Lemma f_Maj t : (40 <= t < 60)%nat -> sha1_f t = Maj /\ sha1_K t = 0x8f1bbcdc.
Proof.
  intros H. unfold sha1_f, sha1_K. rewrite (leb_correct_conv 19 t), (leb_correct_conv 39 t), (leb_correct t 59) by lia. split; reflexivity.
Qed.
Lemma f_P3 t : (60 <= t < 80)%nat -> sha1_f t = Parity /\ sha1_K t = 0xca62c1d6.
Proof.
  intros H. unfold sha1_f, sha1_K. rewrite (leb_correct_conv 19 t), (leb_correct_conv 39 t), (leb_correct_conv 59 t) by lia. split; reflexivity.
Qed.

Definition abcd4 (v : Z * Z * Z * Z * Z) : list Z := let '(a, b, c, d, _) := v in [a; b; c; d].
Definition quad {S} (g : S -> nat -> S) (i : nat) (v : S) : S := fold_left g (seq (4 * i) 4) v.

Definition ringc (c : nat -> nat -> list Z) (i : nat) (w : list (list Z)) : Prop :=
  length w = 4%nat /\ forall k, (k < 4)%nat -> vget w ((i + k) mod 4) = c i k.

Lemma back i k : (0 < k < 4)%nat -> (k <= i)%nat -> ((i - k) mod 4 = (i + (4 - k)) mod 4)%nat.
Proof. intros Hk Hi. replace (i + (4 - k))%nat with (i - k + 1 * 4)%nat by lia. now rewrite Nat.mod_add by lia. Qed.
Lemma ringc_next c i w' : length w' = 4%nat ->
  vget w' ((i + 1) mod 4) = c (S i) 0%nat -> vget w' ((i + 2) mod 4) = c (S i) 1%nat ->
  vget w' ((i + 3) mod 4) = c (S i) 2%nat -> vget w' ((i + 0) mod 4) = c (S i) 3%nat -> ringc c (S i) w'.
Proof.
  intros L H1 H2 H3 H4. split; auto. intros k Hk. replace (S i + k)%nat with (i + (k + 1))%nat by lia.
  destruct k as [|[|[|[|k]]]]; auto; [|lia]. change (i + (3 + 1))%nat with (i + (0 + 4))%nat. rewrite (mod_wrap 4 i 0) by lia. exact H4.
Qed.

(** ** SHA-1 on Arm *)
Section Sha1.
  Variable W : list Z.
  Hypothesis Wrec : forall t, (t < 100)%nat ->
    nthZ (t + 16) W = rotl 32 1 (Z.lxor (nthZ (t + 13) W) (Z.lxor (nthZ (t + 8) W) (Z.lxor (nthZ (t + 2) W) (nthZ t W)))).
  Hypothesis Wwd : forall t, wd 32 (nthZ t W).

  Lemma arm_sha1_4 f k i v : (forall t, (4 * i <= t < 4 * i + 4)%nat -> sha1_f t = f /\ sha1_K t = k) ->
    arm_sha1 f (abcd4 v) (snd v) (vadd 32 (B4 W i) [k; k; k; k]) = abcd4 (quad (sha1_round W) i v).
  Proof.
    intros H. unfold quad. rewrite seq_quad. unfold B4, V4, vadd, arm_sha1. cbn [Nat.add combine map fst snd]. cbn [fold_left].
    destruct v as [[[[a b] c] d] e]. unfold abcd4 at 1 2 3 4. cbn [snd]. cbn [nthZ nth].
    rewrite !(fun v t => arm_sha1_rnd_eq W f v t (nthZ t W) k) by (try reflexivity; symmetry; apply H; lia). reflexivity.
  Qed.
  Lemma quad_e i v : snd (quad (sha1_round W) i v) = rotl 32 30 (nthZ 0 (abcd4 v)).
  Proof.
    unfold quad. rewrite seq_quad. cbn [fold_left]. rewrite sha1_round_e.
    destruct v as [[[[a b] c] d] e]. unfold sha1_round. cbv beta iota zeta. reflexivity.
  Qed.
  Lemma rec_at i : (i < 24)%nat -> forall k, (k < 4)%nat ->
    (fun k => nthZ (4 * i + k) W) (k + 16)%nat = rotl 32 1 (Z.lxor ((fun k => nthZ (4 * i + k) W) (k + 13)%nat)
      (Z.lxor ((fun k => nthZ (4 * i + k) W) (k + 8)%nat) (Z.lxor ((fun k => nthZ (4 * i + k) W) (k + 2)%nat) ((fun k => nthZ (4 * i + k) W) k)))).
  Proof. intros Hi k Hk. cbv beta. rewrite !Nat.add_assoc. apply Wrec. lia. Qed.
  Lemma arm_sha1_next i : (i < 24)%nat ->
    vsha1su1 (vsha1su0 (B4 W i) (B4 W (i + 1)) (B4 W (i + 2))) (B4 W (i + 3)) = B4 W (i + 4).
  Proof. intros Hi. rewrite !B4_at. unfold B4. apply arm_sha1_sched; [intros k; apply Wwd|now apply rec_at]. Qed.

  Definition arm1_rel (i : nat) (x : list Z * Z * list (list Z)) (v : Z * Z * Z * Z * Z) : Prop :=
    fst (fst x) = abcd4 v /\ snd (fst x) = snd v /\ ring 4 (B4 W) i (snd x).
  Lemma arm_sha1_step i x v : (i < 20)%nat -> arm1_rel i x v ->
    arm1_rel (S i) (arm_sha1_body x i) (quad (sha1_round W) i v).
  Proof.
    intros Hi. destruct x as [[abcd e] w]. unfold arm1_rel. cbn [fst snd]. intros (-> & -> & HR).
    unfold arm_sha1_body. cbv zeta. cbn [fst snd].
    rewrite !(ring_0 4 (B4 W) i w) by (auto; lia).
    split; [|split].
    - change (0 <=? i)%nat with true. unfold vsha1c, vsha1p, vsha1m.
      destruct (Nat.ltb_spec i 5) as [L1|L1]; destruct (Nat.leb_spec 5 i) as [L2|L2]; try lia;
      destruct (Nat.ltb_spec i 10) as [L3|L3]; destruct (Nat.leb_spec 10 i) as [L4|L4]; try lia;
      destruct (Nat.ltb_spec i 15) as [L5|L5]; destruct (Nat.leb_spec 15 i) as [L6|L6]; try lia;
      destruct (Nat.ltb_spec i 20) as [L7|L7]; try lia; cbn [andb]; apply arm_sha1_4; intros t Ht.
      all: first [apply f_Ch; lia | apply f_P1; lia | apply f_Maj; lia | apply f_P3; lia].
    - symmetry. apply quad_e.
    - apply ring_upd2; [lia|exact HR|]. rewrite (ring_x 4 (B4 W)), (ring_k 4 (B4 W) i w 3) by (auto; lia).
      destruct HR as [_ HR]. rewrite !HR by lia. apply arm_sha1_next. lia.
  Qed.

  (** ** SHA-1 on x86 *)
  Lemma x86_sha1_4 n i a b c d e : (forall t, (4 * i <= t < 4 * i + 4)%nat -> x86_f n = sha1_f t /\ x86_k n = sha1_K t) ->
    sha1rnds4 [d; c; b; a] (vadd 32 (rev (B4 W i)) [0; 0; 0; e]) n = rev (abcd4 (quad (sha1_round W) i (a, b, c, d, e))).
  Proof.
    intros H. unfold quad. rewrite seq_quad. unfold B4, V4, vadd, sha1rnds4. cbn [Nat.add combine map fst snd rev app].
    cbn [fold_left]. cbn [nthZ nth].
    rewrite (x86_rnd_eq0 W n a b c d e (4 * i + 0)) by (apply H; lia).
    assert (Z0 : forall t, add_w 32 (nthZ t W) 0 = nthZ t W).
    { intros t. unfold add_w. rewrite Z.add_0_r. apply Z.mod_small, Wwd. }
    rewrite !Z0. rewrite !(fun v t => x86_rnd_eq W n v t) by (apply H; lia).
    generalize (sha1_round W (sha1_round W (sha1_round W (sha1_round W (a, b, c, d, e) (4 * i + 0)) (4 * i + 1)) (4 * i + 2)) (4 * i + 3)).
    intros [[[[? ?] ?] ?] ?]. reflexivity.
  Qed.
  Definition R4 (i : nat) : list Z := rev (B4 W i).
  Definition P1 (i : nat) : list Z := sha1msg1 (R4 i) (R4 (i + 1)).
  Definition P2 (i : nat) : list Z := vxor (P1 i) (R4 (i + 2)).
  Lemma x86_sha1_next i : (i < 24)%nat -> sha1msg2 (P2 i) (R4 (i + 3)) = R4 (i + 4).
  Proof. intros Hi. unfold P2, P1, R4. rewrite !B4_at. unfold B4. apply x86_sha1_sched. now apply rec_at. Qed.
  (** contents of slot (i+k) mod 4 when iteration i starts *)
  Definition cont1 (i k : nat) : list Z :=
    match k with
    | 0%nat => R4 i
    | 1%nat => if (3 <=? i)%nat then P2 (i - 3) else R4 (i + 1)
    | 2%nat => if (2 <=? i)%nat then P1 (i - 2) else R4 (i + 2)
    | _ => if (1 <=? i)%nat then R4 (i - 1) else R4 (i + 3)
    end.
  Ltac ringr := repeat ((rewrite ring_other by lia) || rewrite ring_same by (rewrite ?upd_length; auto; lia)).

  Definition e_ok (i : nat) (e : list Z) (v : Z * Z * Z * Z * Z) : Prop :=
    (0 < i)%nat -> rotl 32 30 (nthZ 3 e) = snd v /\ wd 32 (nthZ 3 e).
  Definition x861_rel (i : nat) (x : list Z * list Z * list Z * list (list Z)) (v : Z * Z * Z * Z * Z) : Prop :=
    let '(abcd, e, save, w) := x in
    abcd = rev (abcd4 v) /\ e_ok i e v /\   save = vadd 32 (R4 i) [0; 0; 0; snd v] /\ ringc cont1 i w /\ wd 32 (nthZ 0 (abcd4 v)).
  Lemma quad_a i v : wd 32 (nthZ 0 (abcd4 (quad (sha1_round W) i v))).
  Proof.
    unfold quad. rewrite seq_quad. cbn [fold_left].
    generalize (sha1_round W (sha1_round W (sha1_round W v (4 * i + 0)) (4 * i + 1)) (4 * i + 2)).
    intros [[[[a b] c] d] e]. unfold sha1_round, abcd4. cbv zeta. cbn [nthZ nth]. apply Z.mod_pos_bound. lia.
  Qed.
  Lemma x86_sha1_step i x v : (i < 20)%nat -> x861_rel i x v ->
    x861_rel (S i) (x86_sha1_body x i) (quad (sha1_round W) i v).
  Proof.
    intros Hi. destruct x as [[[abcd e] save] w]. unfold x861_rel. intros (-> & _ & -> & [L HR] & Ha).
    unfold x86_sha1_body. cbv zeta.
    set (w1 := if (1 <=? i)%nat then upd _ _ w else w).
    set (w2 := if (2 <=? i)%nat then upd _ _ w1 else w1).
    set (w3 := if (3 <=? i)%nat then upd _ _ w2 else w2).
    assert (HW : ringc cont1 (S i) w3).
    { pose proof (HR 0%nat ltac:(lia)) as H0. pose proof (HR 1%nat ltac:(lia)) as H1.
      pose proof (HR 2%nat ltac:(lia)) as H2. pose proof (HR 3%nat ltac:(lia)) as H3. clear HR.
      assert (E0 : (i mod 4 = (i + 0) mod 4)%nat) by now rewrite Nat.add_0_r.
      unfold w3, w2, w1. rewrite !E0. clear E0 w1 w2 w3.
      unfold cont1 in H0, H1, H2, H3.
      destruct (Nat.leb_spec 1 i) as [L1|L1].
      2:{ assert (i = 0)%nat by lia. subst i. cbn [Nat.leb]. apply ringc_next; auto. }
      rewrite (back i 1) by lia. cbn [Nat.sub].
      destruct (Nat.leb_spec 2 i) as [L2|L2].
      2:{ rewrite (leb_correct_conv i 3) in * by lia.
          apply ringc_next; [now rewrite upd_length| | | |]; ringr; rewrite ?H0, ?H1, ?H2, ?H3; assert (i = 1)%nat by lia; subst i; reflexivity. }
      rewrite (back i 2) by lia. cbn [Nat.sub].
      destruct (Nat.leb_spec 3 i) as [L3|L3].
      2:{ apply ringc_next; [now rewrite !upd_length| | | |]; ringr; rewrite ?H0, ?H1, ?H2, ?H3; assert (i = 2)%nat by lia; subst i; reflexivity. }
      rewrite (back i 3) by lia. cbn [Nat.sub].
      apply ringc_next; [now rewrite !upd_length| | | |]; ringr.
      - rewrite H0, H1. unfold cont1. pose proof (x86_sha1_next (i - 3) ltac:(lia)) as N.
        replace (i - 3 + 3)%nat with i in N by lia. replace (i - 3 + 4)%nat with (S i) in N by lia. exact N.
      - rewrite H0, H2. unfold cont1. rewrite (leb_correct 3 (S i)) by lia. unfold P2.
        replace (S i - 3)%nat with (i - 2)%nat by lia. replace (i - 2 + 2)%nat with i by lia. reflexivity.
      - rewrite H0, H3. unfold cont1. rewrite (leb_correct 2 (S i)) by lia. unfold P1.
        replace (S i - 2)%nat with (i - 1)%nat by lia. replace (i - 1 + 1)%nat with i by lia. reflexivity.
      - rewrite H0. unfold cont1. rewrite (leb_correct 1 (S i)) by lia. replace (S i - 1)%nat with i by lia. reflexivity. }
    assert (HN : vget w3 ((i + 1) mod 4) = R4 (S i)).
    { destruct HW as [_ HW]. specialize (HW 0%nat ltac:(lia)). rewrite Nat.add_0_r in HW. rewrite Nat.add_1_r. exact HW. }
    clearbody w3. clear w1 w2.
    destruct v as [[[[a b] c] d] e0]. split; [|split; [|split; [|split; [exact HW|apply quad_a]]]].
    - change (0 <=? i)%nat with true. unfold abcd4 at 1 2 3 4 5 6. cbn [rev app snd]. unfold R4.
      destruct (Nat.ltb_spec i 5) as [L1|L1]; destruct (Nat.leb_spec 5 i) as [L2|L2]; try lia;
      destruct (Nat.ltb_spec i 10) as [L3|L3]; destruct (Nat.leb_spec 10 i) as [L4|L4]; try lia;
      destruct (Nat.ltb_spec i 15) as [L5|L5]; destruct (Nat.leb_spec 15 i) as [L6|L6]; try lia;
      destruct (Nat.ltb_spec i 20) as [L7|L7]; try lia; cbn [andb]; apply x86_sha1_4; intros t Ht.
      all: first [destruct (f_Ch t ltac:(lia)) as [-> ->] | destruct (f_P1 t ltac:(lia)) as [-> ->]
                 | destruct (f_Maj t ltac:(lia)) as [-> ->] | destruct (f_P3 t ltac:(lia)) as [-> ->]]; split; reflexivity.
    - intros _. rewrite quad_e. split; [reflexivity|exact Ha].
    - rewrite HN, quad_e. unfold sha1nexte. reflexivity.
  Qed.
End Sha1.

(** ** SHA-256 *)
Section Sha256.
  Variable W : list Z.
  Hypothesis Wrec : forall t, (t < 100)%nat ->
    nthZ (t + 16) W = add_w 32 (ss1_256 (nthZ (t + 14) W)) (add_w 32 (nthZ (t + 9) W) (add_w 32 (ss0_256 (nthZ (t + 1) W)) (nthZ t W))).
  Lemma rec2_at i : (i < 24)%nat -> forall k, (k < 4)%nat ->
    (fun k => nthZ (4 * i + k) W) (k + 16)%nat = add_w 32 (ss1_256 ((fun k => nthZ (4 * i + k) W) (k + 14)%nat))
      (add_w 32 ((fun k => nthZ (4 * i + k) W) (k + 9)%nat) (add_w 32 (ss0_256 ((fun k => nthZ (4 * i + k) W) (k + 1)%nat)) ((fun k => nthZ (4 * i + k) W) k))).
  Proof. intros Hi k Hk. cbv beta. rewrite !Nat.add_assoc. apply Wrec. lia. Qed.
  Lemma arm_sha256_next i : (i < 24)%nat ->
    vsha256su1 (vsha256su0 (B4 W i) (B4 W (i + 1))) (B4 W (i + 2)) (B4 W (i + 3)) = B4 W (i + 4).
  Proof. intros Hi. rewrite !B4_at. unfold B4. apply arm_sha256_sched. now apply rec2_at. Qed.
  Definition v8 := (Z * Z * Z * Z * Z * Z * Z * Z)%type.
  Definition lo4 (v : v8) : list Z := let '(a, b, c, d, _, _, _, _) := v in [a; b; c; d].
  Definition hi4 (v : v8) : list Z := let '(_, _, _, _, e, f, g, h) := v in [e; f; g; h].
  Lemma ldk4 i : (i < 16)%nat -> ldk 4 K_sha256 i = B4 K_sha256 i.
  Proof.
    intros Hi. unfold ldk. rewrite firstn_skipn_nth by (change (length K_sha256) with 64%nat; lia). reflexivity.
  Qed.
  Lemma SHA256hash_eq i v : SHA256hash (lo4 v) (hi4 v) (vadd 32 (B4 W i) (B4 K_sha256 i)) = quad (rnd256 W) i v.
  Proof.
    unfold quad. rewrite seq_quad. unfold B4, V4, vadd, SHA256hash. cbn [Nat.add combine map fst snd]. cbn [fold_left].
    destruct v as [[[[[[[a b] c] d] e] f] g] h]. unfold lo4, hi4. cbn [nthZ nth].
    rewrite !(fun v t => arm_sha256_rnd_eq W v t (nthZ t W) (nthZ t K_sha256)) by reflexivity. reflexivity.
  Qed.
  Definition arm2_rel (i : nat) (x : list Z * list Z * list (list Z)) (v : v8) : Prop :=
    fst (fst x) = lo4 v /\ snd (fst x) = hi4 v /\ ring 4 (B4 W) i (snd x).
  Lemma arm_sha256_step i x v : (i < 16)%nat -> arm2_rel i x v ->
    arm2_rel (S i) (arm_sha256_body x i) (quad (rnd256 W) i v).
  Proof.
    intros Hi. destruct x as [[abcd efgh] w]. unfold arm2_rel. cbn [fst snd]. intros (-> & -> & HR).
    unfold arm_sha256_body. cbv zeta. cbn [fst snd]. rewrite (ldk4 i Hi).
    rewrite !(ring_0 4 (B4 W) i w) by (auto; lia).
    split; [|split].
    - unfold vsha256h. rewrite SHA256hash_eq. reflexivity.
    - unfold vsha256h2. rewrite SHA256hash_eq. reflexivity.
    - apply ring_upd2; [lia|exact HR|]. rewrite (ring_x 4 (B4 W)), !(ring_k 4 (B4 W) i w) by (auto; lia).
      destruct HR as [_ HR]. rewrite !HR by lia. apply arm_sha256_next. lia.
  Qed.

  (** x86 *)
  Definition abef (v : v8) : list Z := let '(a, b, _, _, e, f, _, _) := v in [f; e; b; a].
  Definition cdgh (v : v8) : list Z := let '(_, _, c, d, _, _, g, h) := v in [h; g; d; c].
  Lemma rnds2_eq v t0 t1 s : nthZ 0 s = add_w 32 (nthZ t0 W) (nthZ t0 K_sha256) -> nthZ 1 s = add_w 32 (nthZ t1 W) (nthZ t1 K_sha256) ->
    sha256rnds2 (cdgh v) (abef v) s = abef (rnd256 W (rnd256 W v t0) t1) /\   cdgh (rnd256 W (rnd256 W v t0) t1) = abef v.
  Proof.
    intros E1 E2. unfold sha256rnds2. rewrite E1, E2. unfold fold_left.
    destruct v as [[[[[[[a b] c] d] e] f] g] h]. unfold cdgh at 1 2 3 4, abef at 1 2 3 4. cbn [nthZ nth].
    rewrite !(fun v t => x86_rnd2_eq W v t (nthZ t W) (nthZ t K_sha256)) by reflexivity.
    split; [reflexivity|]. unfold sha2_round. cbv beta iota zeta. reflexivity.
  Qed.
  Definition Q1 (i : nat) : list Z := sha256msg1 (B4 W i) (B4 W (i + 1)).
  Definition cont2 (i k : nat) : list Z :=
    match k with
    | 0%nat => B4 W i
    | 1%nat => if (3 <=? i)%nat then Q1 (i - 3) else B4 W (i + 1)
    | 2%nat => if (2 <=? i)%nat then Q1 (i - 2) else B4 W (i + 2)
    | _ => if (1 <=? i)%nat then B4 W (i - 1) else B4 W (i + 3)
    end.
  Lemma x86_sha256_next i : (i < 24)%nat ->
    sha256msg2 (vadd 32 (Q1 i) (palignr4 (B4 W (i + 3)) (B4 W (i + 2)))) (B4 W (i + 3)) = B4 W (i + 4).
  Proof. intros Hi. unfold Q1. rewrite !B4_at. unfold B4. apply x86_sha256_sched. now apply rec2_at. Qed.
  Ltac ringr := repeat ((rewrite ring_other by lia) || rewrite ring_same by (rewrite ?upd_length; auto; lia)).
  Definition x862_rel (i : nat) (x : list Z * list Z * list (list Z)) (v : v8) : Prop :=
    fst (fst x) = abef v /\ snd (fst x) = cdgh v /\ ringc cont2 i (snd x).
  Lemma x86_sha256_step i x v : (i < 16)%nat -> x862_rel i x v ->
    x862_rel (S i) (x86_sha256_body x i) (quad (rnd256 W) i v).
  Proof.
    intros Hi. destruct x as [[ab cd] w]. unfold x862_rel. cbn [fst snd]. intros (-> & -> & [L HR]).
    pose proof (HR 0%nat ltac:(lia)) as H0. pose proof (HR 1%nat ltac:(lia)) as H1.
    pose proof (HR 2%nat ltac:(lia)) as H2. pose proof (HR 3%nat ltac:(lia)) as H3. clear HR.
    assert (E0 : (i mod 4 = (i + 0) mod 4)%nat) by now rewrite Nat.add_0_r.
    unfold x86_sha256_body. cbv zeta. cbn [fst snd]. rewrite (ldk4 i Hi). rewrite !E0.
    unfold cont2 in H0, H1, H2, H3. rewrite !H0.
    destruct (rnds2_eq v (4 * i + 0) (4 * i + 1) (vadd 32 (B4 W i) (B4 K_sha256 i)) eq_refl eq_refl) as [A1 A2].
    rewrite A1. rewrite <- A2.
    destruct (rnds2_eq (rnd256 W (rnd256 W v (4 * i + 0)) (4 * i + 1)) (4 * i + 2) (4 * i + 3)
                (pshufd (vadd 32 (B4 W i) (B4 K_sha256 i)) 0x0e) eq_refl eq_refl) as [C1 C2].
    rewrite C1. rewrite <- C2.
    split; [|split].
    - unfold quad. rewrite seq_quad. reflexivity.
    - unfold quad. rewrite seq_quad. reflexivity.
    - clear A1 A2 C1 C2 E0.
      destruct (Nat.leb_spec 1 i) as [L1|L1].
      2:{ assert (i = 0)%nat by lia. subst i. cbn [Nat.leb]. apply ringc_next; auto. }
      rewrite (back i 1) by lia. cbn [Nat.sub].
      destruct (Nat.leb_spec 3 i) as [L3|L3].
      2:{ apply ringc_next; [now rewrite !upd_length| | | |]; ringr; rewrite ?H0, ?H1, ?H2, ?H3;
            (destruct (Nat.eq_dec i 1) as [->|N1]; [|assert (i = 2)%nat by lia; subst i]; reflexivity). }
      rewrite (leb_correct 2 i) in H2 by lia.
      rewrite (back i 3) by lia. cbn [Nat.sub].
      apply ringc_next; [now rewrite !upd_length| | | |]; ringr.
      + rewrite H0, H1, H3. unfold cont2. pose proof (x86_sha256_next (i - 3) ltac:(lia)) as N.
        replace (i - 3 + 3)%nat with i in N by lia. replace (i - 3 + 4)%nat with (S i) in N by lia.
        replace (i - 3 + 2)%nat with (i - 1)%nat in N by lia. exact N.
      + rewrite H2. unfold cont2. rewrite (leb_correct 3 (S i)) by lia. replace (S i - 3)%nat with (i - 2)%nat by lia. reflexivity.
      + rewrite H0, H3. unfold cont2. rewrite (leb_correct 2 (S i)) by lia. unfold Q1.
        replace (S i - 2)%nat with (i - 1)%nat by lia. replace (i - 1 + 1)%nat with i by lia. reflexivity.
      + rewrite H0. unfold cont2. rewrite (leb_correct 1 (S i)) by lia. replace (S i - 1)%nat with i by lia. reflexivity.
  Qed.
End Sha256.

(** ** SHA-512 on Arm *)
Section Sha512.
  Variable W : list Z.
  Hypothesis Wrec : forall t, (t < 100)%nat ->
    nthZ (t + 16) W = add_w 64 (ss1_512 (nthZ (t + 14) W)) (add_w 64 (nthZ (t + 9) W) (add_w 64 (ss0_512 (nthZ (t + 1) W)) (nthZ t W))).
  Definition pair2 {S} (g : S -> nat -> S) (i : nat) (v : S) : S := fold_left g (seq (2 * i) 2) v.
  Lemma arm_sha512_next i : (i < 48)%nat ->
    vsha512su1 (vsha512su0 (B2 W i) (B2 W (i + 1))) (B2 W (i + 7)) (vext1_64 (B2 W (i + 4)) (B2 W (i + 5))) = B2 W (i + 8).
  Proof.
    intros Hi. rewrite !B2_at. unfold B2. apply arm_sha512_sched.
    intros k Hk. rewrite !Nat.add_assoc. apply Wrec. lia.
  Qed.
  Lemma ldk2 i : (i < 40)%nat -> ldk 2 K_sha512 i = B2 K_sha512 i.
  Proof.
    intros Hi. unfold ldk. rewrite firstn_skipn_nth by (change (length K_sha512) with 80%nat; lia). reflexivity.
  Qed.
  Definition arm5_rel (i : nat) (x : list Z * list Z * list Z * list Z * list (list Z)) (v : v8) : Prop :=
    let '(ab, cd, ef, gh, w) := x in let '(a, b, c, d, e, f, g, h) := v in
    ab = [a; b] /\ cd = [c; d] /\ ef = [e; f] /\ gh = [g; h] /\ ring 8 (B2 W) i w.
  Lemma arm_sha512_step i x v : (i < 40)%nat -> arm5_rel i x v ->
    arm5_rel (S i) (arm_sha512_body x i) (pair2 (rnd512 W) i v).
  Proof.
    intros Hi. destruct x as [[[[ab cd] ef] gh] w]. destruct v as [[[[[[[a b] c] d] e] f] g] h]. unfold arm5_rel at 1.
    intros (-> & -> & -> & -> & HR).
    unfold arm_sha512_body. cbv zeta. rewrite (ldk2 i Hi).
    rewrite !(ring_0 8 (B2 W) i w) by (auto; lia).
    destruct (arm_sha512_rnds W i a b c d e f g h) as (T & T' & e' & a' & a'' & e'' & S1 & S2 & S3 & S4).
    unfold pair2. rewrite seq_pair. cbn [fold_left]. rewrite S4.
    assert (EQ : vsha512h (vadd 64 (vext1_64 (vadd 64 (B2 W i) (B2 K_sha512 i)) (vadd 64 (B2 W i) (B2 K_sha512 i))) [g; h])
                   (vext1_64 [e; f] [g; h]) (vext1_64 [c; d] [e; f]) =
                 vsha512h [add_w 64 (add_w 64 (nthZ (2 * i + 1) W) (nthZ (2 * i + 1) K_sha512)) g;
                           add_w 64 (add_w 64 (nthZ (2 * i + 0) W) (nthZ (2 * i + 0) K_sha512)) h] [f; g] [d; e]) by reflexivity.
    rewrite EQ. rewrite S2, S3. unfold arm5_rel. repeat (split; [reflexivity|]).
    apply ring_upd2; [lia|exact HR|]. rewrite (ring_x 8 (B2 W)), !(ring_k 8 (B2 W) i w) by (auto; lia).
    destruct HR as [_ HR]. rewrite !HR by lia. apply arm_sha512_next. lia.
  Qed.
End Sha512.
