(** Lemmas about NumTheory.v: extended Euclid. *)
From Coq Require Import Znumtheory.
From Verif Require Import Base Vlong VlongLemmas VlongDivLemmas VlongMulLemmas NumTheory Rsa RsaSpec.

Lemma is_zero_iff j : words_ok j -> is_zero j = true <-> vval j = 0.
Proof.
  intros H. unfold is_zero. rewrite forallb_forall. split.
  - intros F. induction H as [|w l Hw Hl IH]; [reflexivity|].
    cbn [val_le]. rewrite IH by (intros; apply F; right; auto).
    specialize (F w (or_introl eq_refl)). apply Z.eqb_eq in F. lia.
  - induction H as [|w l Hw Hl IH]; intros E x Hx; [destruct Hx|].
    cbn [val_le] in E. pose proof (vval_bound l Hl). unfold word_ok in Hw.
    assert (w = 0 /\ vval l = 0) as [? ?] by lia.
    destruct Hx as [<-|Hx]; [apply Z.eqb_eq; auto|auto].
Qed.

Lemma is_one_iff i : words_ok i -> is_one i = true <-> vval i = 1.
Proof.
  intros H. unfold is_one. destruct H as [|w l Hw Hl].
  - cbn. split; discriminate.
  - simpl tl. unfold nthZ. simpl nth. cbn [val_le]. rewrite Bool.andb_true_iff, is_zero_iff, Z.eqb_eq by auto.
    pose proof (vval_bound l Hl). unfold word_ok in Hw. lia.
Qed.

Lemma egcd_b1 a b i j P : 0 <= a -> 0 <= b -> 0 < i -> 0 < j -> a * i + b * j = P -> a <= P.
Proof. nia. Qed.
Lemma egcd_b2 a b q : 0 <= a -> 0 <= b -> 0 <= q -> 0 <= a + q * b.
Proof. nia. Qed.

Section Egcd.
  Variables (x p : Z) (c : nat).
  Let B := 2 ^ (32 * Z.of_nat c).
  Hypothesis Hc : (0 < c)%nat.
  Hypothesis Hx : 0 < x.
  Hypothesis Hp : 0 < p.
  Hypothesis Hx2 : 2 * x <= B.

  Lemma egcd_loop_spec fuel : forall i j rem quo y1 y2 Y1 Y2 s,
    words_ok i -> words_ok j -> words_ok y1 -> words_ok y2 ->
    length i = c -> length j = c -> length rem = c -> length quo = c -> length y1 = c -> length y2 = c ->
    0 < vval j -> vval j <= x -> 0 < vval i ->
    Z.gcd (vval i) (vval j) = Z.gcd x p ->
    s = 1 \/ s = -1 ->
    0 <= s * Y1 -> s * Y2 <= 0 ->
    s * Y1 * vval i + - (s * Y2) * vval j = p ->
    vval y1 = Y1 mod B -> vval y2 = Y2 mod B ->
    (p | Y1 * x - vval j) -> (p | Y2 * x - vval i) ->
    vval j <= Z.of_nat fuel ->
    exists i' y' Y', egcd_loop fuel i j rem quo y1 y2 = Some (i', y') /\
      words_ok i' /\ words_ok y' /\ length i' = c /\ length y' = c /\
      vval i' = Z.gcd x p /\ vval y' = Y' mod B /\ (p | Y' * x - vval i') /\ - p <= Y' <= p.
  Proof.
    induction fuel as [|fuel IH]; intros i j rem quo y1 y2 Y1 Y2 s Hi Hj Hy1 Hy2 Li Lj Lr Lq L1 L2
      Jpos Jx Ipos G Hs S1 S2 Inv V1 V2 D1 D2 Hf.
    { lia. }
    cbn [egcd_loop].
    destruct (vlong_divv_spec (length rem) (Some (length quo)) i j) as (r & q' & E & Hr & Lr' & Vr & Q);
      auto; try lia.
    { rewrite Lr. fold B. lia. }
    destruct q' as [q|]; [|contradiction]. destruct Q as (Hq & Lq' & Vq). rewrite E. clear E.
    destruct (mulv_nomod_spec (length i) y1 q 1) as (t & E & Ht & Lt & Vt); auto; try lia.
    rewrite E. clear E. cbn [fst]. cbv zeta. change (Z.eqb 1 1) with true in Vt. cbv iota in Vt.
    pose proof (Z.div_mod (vval i) (vval j) ltac:(lia)) as DM.
    pose proof (Z.mod_pos_bound (vval i) (vval j) ltac:(lia)) as MB.
    destruct (is_zero r) eqn:Z0.
    - apply is_zero_iff in Z0; [|auto].
      exists j, y1, Y1. repeat (split; [first [assumption | reflexivity]|]).
      split; [|split; [assumption|split; [assumption|]]].
      + rewrite <- G. rewrite Z.gcd_comm, <- Z.gcd_mod, <- Vr, Z0, Z.gcd_0_l by lia. symmetry. apply Z.abs_eq. lia.
      + assert (s * Y1 <= p) by (apply (egcd_b1 (s * Y1) (- (s * Y2)) (vval i) (vval j) p); [lia..|exact Inv]). clear Inv. destruct Hs; subst s; lia.
    - assert (0 < vval r). { pose proof (vval_bound r Hr). destruct (Z.eq_dec (vval r) 0) as [e|]; [|lia].
        apply is_zero_iff in e; [congruence|auto]. }
      apply (IH j r t q (vlong_subv (length y2) y2 t) y1 (Y2 - vval q * Y1) Y1 (- s)); auto.
      + apply vlong_subv_words.
      + rewrite Lr'. exact Lr.
      + rewrite Lt. exact Li.
      + rewrite Lq'. exact Lq.
      + rewrite vlong_subv_length. exact L2.
      + lia.
      + rewrite <- G, Vr, Z.gcd_comm, Z.gcd_mod, Z.gcd_comm by lia. reflexivity.
      + clear -Hs; lia.
      + clear Inv. assert (0 <= vval q) by (rewrite Vq; apply Z.div_pos; lia).
        replace (- s * (Y2 - vval q * Y1)) with (- (s * Y2) + vval q * (s * Y1)) by ring. apply egcd_b2; clear -S1 S2 H0; lia.
      + clear -S1; lia.
      + rewrite <- Inv, Vr, Vq. clear Inv. rewrite Z.mod_eq by lia. ring.
      + clear Inv. rewrite vlong_subv_val by auto. rewrite L2. fold B. rewrite V2, Vt, V1, Li. fold B.
        rewrite <- Zminus_mod. rewrite Zminus_mod, Z.mul_mod_idemp_l by (subst B; pose proof (pow32_pos c); lia).
        rewrite <- Zminus_mod. f_equal. ring.
      + clear Inv. rewrite Vr, Vq, Z.mod_eq by lia.
        replace ((Y2 - vval i / vval j * Y1) * x - (vval i - vval j * (vval i / vval j)))
          with ((Y2 * x - vval i) - (vval i / vval j) * (Y1 * x - vval j)) by ring.
        apply Z.divide_sub_r; [assumption|]. apply Z.divide_mul_r. assumption.
      + clear -Vr MB Hf; lia.
  Qed.
End Egcd.

Lemma signed_mod c Y : (0 < c)%nat -> - (2 ^ (32 * Z.of_nat c) / 2) <= Y < 2 ^ (32 * Z.of_nat c) / 2 ->
  signed c (Y mod 2 ^ (32 * Z.of_nat c)) = Y.
Proof.
  intros Hc H. unfold signed.
  assert (E : 2 ^ (32 * Z.of_nat c) = 2 * (2 ^ (32 * Z.of_nat c) / 2)).
  { replace (32 * Z.of_nat c) with (1 + (32 * Z.of_nat c - 1)) by lia.
    rewrite Z.pow_add_r by lia. change (2 ^ 1) with 2. rewrite Z.mul_comm, Z.div_mul by lia. lia. }
  set (B := 2 ^ (32 * Z.of_nat c)) in *. set (h := B / 2) in *. 
  destruct (Z.ltb_spec Y 0).
  - replace (Y mod B) with (Y + B). 2:{ apply Z.mod_unique with (-1); lia. }
    destruct (Z.ltb_spec (Y + B) h); lia.
  - rewrite Z.mod_small by lia. destruct (Z.ltb_spec Y h); lia.
Qed.

Lemma egcd_spec (c fuel : nat) (x p quo rem y1 y2 : list Z) :
  (0 < c)%nat -> words_ok x -> words_ok p ->
  length x = c -> length p = c -> length quo = c -> length rem = c -> length y1 = c -> length y2 = c ->
  0 < vval x -> 0 < vval p -> 2 * vval x <= 2 ^ (32 * Z.of_nat c) -> 2 * vval p < 2 ^ (32 * Z.of_nat c) ->
  vval x <= Z.of_nat fuel ->
  (Z.gcd (vval x) (vval p) <> 1 -> EGCD fuel x p quo rem y1 y2 = Some None) /\
  (Z.gcd (vval x) (vval p) = 1 -> exists y, EGCD fuel x p quo rem y1 y2 = Some (Some y) /\
     words_ok y /\ length y = c /\ - vval p <= signed c (vval y) <= vval p /\
     (vval p | signed c (vval y) * vval x - 1)).
Proof.
  intros Hc Wx Wp Lx Lp Lq Lr L1 L2 Px Pp X2 P2 F.
  assert (W1 : vval (upd 0 1 (repeat 0 (length y1))) = 1).
  { rewrite L1. destruct c; [lia|]. cbn [repeat]. unfold upd. simpl. 
    rewrite (proj1 (is_zero_iff (repeat 0 c) (repeat_words c))); [lia|].
    unfold is_zero. clear. induction c; cbn; auto. }
  assert (W2 : vval (repeat 0 (length y2)) = 0).
  { apply is_zero_iff; [apply repeat_words|]. unfold is_zero. clear. induction (length y2); cbn; auto. }
  unfold EGCD.
  destruct (egcd_loop_spec (vval x) (vval p) c Hc Px Pp X2 fuel p x rem quo
     (upd 0 1 (repeat 0 (length y1))) (repeat 0 (length y2)) 1 0 1) as (i & y & Y & E & Wi & Wy & Li & Ly & Vi & Vy & D & Bd); auto.
  - apply upd_words; [apply repeat_words|unfold word_ok; lia].
  - apply repeat_words.
  - rewrite upd_length, repeat_length. exact L1.
  - rewrite repeat_length. exact L2.
  - lia.
  - apply Z.gcd_comm.
  - lia.
  - lia.
  - lia.
  - rewrite W1. symmetry. apply Z.mod_small. lia.
  - rewrite Z.mul_1_l, Z.sub_diag. apply Z.divide_0_r.
  - exists (-1). lia.
  - rewrite E. split; intros G.
    + destruct (is_one i) eqn:O; [|reflexivity]. apply is_one_iff in O; [|auto]. congruence.
    + assert (O : is_one i = true) by (apply is_one_iff; [auto|congruence]). rewrite O.
      exists y. split; [reflexivity|]. split; [auto|]. split; [auto|].
      assert (S' : signed c (vval y) = Y).
      { rewrite Vy. apply signed_mod; [auto|].
        assert (Bh : vval p <= 2 ^ (32 * Z.of_nat c) / 2) by (apply Z.div_le_lower_bound; lia).
        assert (vval p < 2 ^ (32 * Z.of_nat c) / 2).
        { apply Z.lt_le_trans with (vval p + 1); [lia|]. apply Z.div_le_lower_bound; [lia|].
          assert (Ev : 2 ^ (32 * Z.of_nat c) = 2 * 2 ^ (32 * Z.of_nat c - 1)).
          { rewrite <- Z.pow_succ_r by lia. f_equal. lia. }
          lia. }
        lia. }
      rewrite S'. split; [exact Bd|]. rewrite Vi, G in D. exact D.
Qed.
