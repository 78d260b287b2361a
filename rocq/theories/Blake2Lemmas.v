(** BLAKE2: the code against RFC 7693. *)
From Verif Require Import Base Hash HashSpec HashLemmas Blocks MdLemmas DerLemmas CmacLemmas CcmLemmas GcmLemmas BlakeSpec Blake2.

Lemma cROTR_rotr w n x : 0 < n < w -> wd w x -> cROTR w x n = rotr w n x.
Proof.
  intros Hn Hx. unfold cROTR. rewrite Z.lor_comm. change (Z.lor (wrap w (Z.shiftl x (w - n))) (Z.shiftr x n)) with (Z.lor (wrap w (Z.shiftl x (w - n))) (Z.shiftr x n)).
  pose proof (cROTL_rotl w (w - n) x ltac:(lia) Hx) as E. unfold cROTL, rotl in E. replace (w - (w - n)) with n in E by lia. exact E.
Qed.
Lemma wrap_add2 w a b x : 0 <= w -> wrap w (a + wrap w (b + x)) = (a + b + x) mod 2 ^ w.
Proof. intros H. unfold wrap. rewrite Zplus_mod_idemp_r. f_equal. lia. Qed.

Ltac solve_upd := match goal with |- nthZ ?i ?v = ?x => (try unfold v); refine (nthZ_upd_eq _ _ _ _); match goal with H : length ?l = 16%nat |- (_ < length ?l)%nat => rewrite H; assumption end end.
Definition rot_ok (w r1 r2 r3 r4 : Z) : Prop := 0 < w /\ 0 < r1 < w /\ 0 < r2 < w /\ 0 < r3 < w /\ 0 < r4 < w.
Lemma mod_wd w x : 0 < w -> wd w (x mod 2 ^ w).
Proof. intros H. apply Z.mod_pos_bound. apply Z.pow_pos_nonneg; lia. Qed.
Definition st16 (w : Z) (v : list Z) : Prop := length v = 16%nat /\ Forall (wd w) v.
Lemma nth_wd w v i : 0 <= w -> Forall (wd w) v -> wd w (nthZ i v).
Proof.
  intros Hw F. unfold nthZ. destruct (Nat.lt_ge_cases i (length v)).
  - rewrite Forall_forall in F. apply F. now apply nth_In.
  - rewrite nth_overflow by lia. split; [lia|]. apply Z.pow_pos_nonneg; lia.
Qed.
Lemma upd8 (v : list Z) (a b c d : nat) A1 A2 B1 B2 C1 C2 D1 D2 :
  (a < length v)%nat -> (b < length v)%nat -> (c < length v)%nat -> (d < length v)%nat -> a <> b -> a <> c -> a <> d -> b <> c -> b <> d -> c <> d ->
  upd b B2 (upd c C2 (upd d D2 (upd a A2 (upd b B1 (upd c C1 (upd d D1 (upd a A1 v))))))) = upd d D2 (upd c C2 (upd b B2 (upd a A2 v))).
Proof.
  intros Ha Hb Hc Hd Nab Nac Nad Nbc Nbd Ncd. apply list_ext; [rewrite !upd_length; reflexivity|]. intros i Hi. rewrite !upd_length in Hi. unfold nthZ.
  destruct (Nat.eq_dec i a) as [->|Na]; [|destruct (Nat.eq_dec i b) as [->|Nb]; [|destruct (Nat.eq_dec i c) as [->|Nc]; [|destruct (Nat.eq_dec i d) as [->|Nd]]]];
    repeat (first [rewrite nth_upd_eq by (rewrite ?upd_length; assumption) | rewrite nth_upd_neq by auto]); reflexivity.
Qed.
Lemma qround_at_G w r1 r2 r3 r4 v a b c d x y : rot_ok w r1 r2 r3 r4 -> st16 w v ->
  (a < 16)%nat -> (b < 16)%nat -> (c < 16)%nat -> (d < 16)%nat -> a <> b -> a <> c -> a <> d -> b <> c -> b <> d -> c <> d ->
  qround_at (qround w r1 r2 r3 r4) v a b c d x y = blake_G w r1 r2 r3 r4 v a b c d x y /\ st16 w (blake_G w r1 r2 r3 r4 v a b c d x y).
Proof.
  intros (Hw & H1 & H2 & H3 & H4) [L F] Ha Hb Hc Hd Nab Nac Nad Nbc Nbd Ncd.
  set (A0 := nthZ a v). set (B0 := nthZ b v). set (C0 := nthZ c v). set (D0 := nthZ d v).
  assert (WA0 : wd w A0) by (apply nth_wd; auto; lia). assert (WB0 : wd w B0) by (apply nth_wd; auto; lia).
  assert (WC0 : wd w C0) by (apply nth_wd; auto; lia). assert (WD0 : wd w D0) by (apply nth_wd; auto; lia).
  set (A1 := (A0 + B0 + x) mod 2 ^ w). assert (WA1 : wd w A1) by now apply mod_wd.
  set (D1 := rotr w r1 (Z.lxor D0 A1)). assert (WD1 : wd w D1) by (apply rotr_wd; [lia|apply lxor_wd; auto; lia]).
  set (C1 := (C0 + D1) mod 2 ^ w). assert (WC1 : wd w C1) by now apply mod_wd.
  set (B1 := rotr w r2 (Z.lxor B0 C1)). assert (WB1 : wd w B1) by (apply rotr_wd; [lia|apply lxor_wd; auto; lia]).
  set (A2 := (A1 + B1 + y) mod 2 ^ w). assert (WA2 : wd w A2) by now apply mod_wd.
  set (D2 := rotr w r3 (Z.lxor D1 A2)). assert (WD2 : wd w D2) by (apply rotr_wd; [lia|apply lxor_wd; auto; lia]).
  set (C2 := (C1 + D2) mod 2 ^ w). assert (WC2 : wd w C2) by now apply mod_wd.
  set (B2 := rotr w r4 (Z.lxor B1 C2)). assert (WB2 : wd w B2) by (apply rotr_wd; [lia|apply lxor_wd; auto; lia]).
  assert (EQ : qround w r1 r2 r3 r4 A0 B0 C0 D0 x y = (A2, B2, C2, D2)).
  { unfold qround. cbv zeta. rewrite (wrap_add2 w A0 B0 x) by lia. fold A1. rewrite (cROTR_rotr w r1) by (auto; apply lxor_wd; auto; lia). fold D1.
    change (wrap w (C0 + D1)) with C1. rewrite (cROTR_rotr w r2) by (auto; apply lxor_wd; auto; lia). fold B1.
    rewrite (wrap_add2 w A1 B1 y) by lia. fold A2. rewrite (cROTR_rotr w r3) by (auto; apply lxor_wd; auto; lia). fold D2.
    change (wrap w (C1 + D2)) with C2. rewrite (cROTR_rotr w r4) by (auto; apply lxor_wd; auto; lia). fold B2. reflexivity. }
  assert (EG : blake_G w r1 r2 r3 r4 v a b c d x y = upd d D2 (upd c C2 (upd b B2 (upd a A2 v)))).
  { unfold blake_G. fold A0 B0. fold A1. set (v1 := upd a A1 v).
    assert (E1 : nthZ d v1 = D0) by (unfold v1; rewrite nthZ_upd_neq by auto; reflexivity). assert (E2 : nthZ a v1 = A1) by (solve_upd). rewrite E1, E2. fold D1.
    set (v2 := upd d D1 v1). assert (L1 : length v1 = 16%nat) by (unfold v1; now rewrite upd_length). assert (L2 : length v2 = 16%nat) by (unfold v2; now rewrite upd_length).
    assert (E3 : nthZ c v2 = C0) by (unfold v2, v1; rewrite !nthZ_upd_neq by auto; reflexivity). assert (E4 : nthZ d v2 = D1) by (solve_upd). rewrite E3, E4. fold C1.
    set (v3 := upd c C1 v2). assert (L3 : length v3 = 16%nat) by (unfold v3; now rewrite upd_length).
    assert (E5 : nthZ b v3 = B0) by (unfold v3, v2, v1; rewrite !nthZ_upd_neq by auto; reflexivity). assert (E6 : nthZ c v3 = C1) by (solve_upd). rewrite E5, E6. fold B1.
    set (v4 := upd b B1 v3). assert (L4 : length v4 = 16%nat) by (unfold v4; now rewrite upd_length).
    assert (E7 : nthZ a v4 = A1) by (unfold v4, v3, v2, v1; rewrite !nthZ_upd_neq by auto; solve_upd). assert (E8 : nthZ b v4 = B1) by (solve_upd). rewrite E7, E8. fold A2.
    set (v5 := upd a A2 v4). assert (L5 : length v5 = 16%nat) by (unfold v5; now rewrite upd_length).
    assert (E9 : nthZ d v5 = D1) by (unfold v5, v4, v3; rewrite !nthZ_upd_neq by auto; solve_upd). assert (E10 : nthZ a v5 = A2) by (solve_upd). rewrite E9, E10. fold D2.
    set (v6 := upd d D2 v5). assert (L6 : length v6 = 16%nat) by (unfold v6; now rewrite upd_length).
    assert (E11 : nthZ c v6 = C1) by (unfold v6, v5, v4; rewrite !nthZ_upd_neq by auto; solve_upd). assert (E12 : nthZ d v6 = D2) by (solve_upd). rewrite E11, E12. fold C2.
    set (v7 := upd c C2 v6). assert (L7 : length v7 = 16%nat) by (unfold v7; now rewrite upd_length).
    assert (E13 : nthZ b v7 = B1) by (unfold v7, v6, v5; rewrite !nthZ_upd_neq by auto; solve_upd). assert (E14 : nthZ c v7 = C2) by (solve_upd). rewrite E13, E14. fold B2.
    apply upd8; auto; rewrite L; assumption. }
  split.
  - unfold qround_at. fold A0 B0 C0 D0. rewrite EQ, EG. reflexivity.
  - rewrite EG. split; [now rewrite !upd_length|]. repeat apply upd_Forall; auto.
Qed.
Lemma inner_round w r1 r2 r3 r4 v mw s : rot_ok w r1 r2 r3 r4 -> st16 w v ->
  inner_block (qround w r1 r2 r3 r4) v mw s = blake_round (blake_G w r1 r2 r3 r4) (fun j => nthZ (nth j s 0%nat) mw) v /\
  st16 w (blake_round (blake_G w r1 r2 r3 r4) (fun j => nthZ (nth j s 0%nat) mw) v).
Proof.
  intros R S0. unfold inner_block, blake_round.
  repeat match goal with |- context[qround_at _ ?v ?a ?b ?c ?d ?x ?y] => lazymatch v with qround_at _ _ _ _ _ _ _ _ => fail | _ =>
    let E := fresh "E" in let S := fresh "S" in
    destruct (qround_at_G w r1 r2 r3 r4 v a b c d x y R ltac:(assumption) ltac:(lia) ltac:(lia) ltac:(lia) ltac:(lia) ltac:(lia) ltac:(lia) ltac:(lia) ltac:(lia) ltac:(lia) ltac:(lia)) as [E S];
    rewrite E end end.
  split; [reflexivity|assumption].
Qed.
Definition b2p (lg : bool) : b2_params := if lg then BLAKE2b else BLAKE2s.
Lemma sigma_eq : sigma2 = SIGMA. Proof. reflexivity. Qed.
Definition hok (lg : bool) (h : list Z) : Prop := length h = 8%nat /\ Forall (wd (b2_w (b2p lg))) h.
Lemma IV_ok lg : hok lg (b2_IV (b2p lg)).
Proof. destruct lg; (split; [reflexivity|]); repeat (apply Forall_cons; [unfold wd; cbn; lia|]); constructor. Qed.
Lemma fold_inv {A B} (f g : A -> B -> A) (P : A -> Prop) : (forall v i, P v -> f v i = g v i /\ P (g v i)) ->
  forall l v, P v -> fold_left f l v = fold_left g l v /\ P (fold_left g l v).
Proof.
  intros H. induction l as [|i l IH]; intros v Hv; [split; [reflexivity|exact Hv]|]. cbn [fold_left]. destruct (H v i Hv) as [E P']. rewrite E. apply IH. exact P'.
Qed.
Lemma rounds_ok w r1 r2 r3 r4 mw (sg : nat -> list nat) (l : list nat) : rot_ok w r1 r2 r3 r4 -> forall v, st16 w v ->
  fold_left (fun v i => inner_block (qround w r1 r2 r3 r4) v mw (sg i)) l v =
  fold_left (fun v i => blake_round (blake_G w r1 r2 r3 r4) (fun j => nthZ (nth j (sg i) 0%nat) mw) v) l v /\
  st16 w (fold_left (fun v i => blake_round (blake_G w r1 r2 r3 r4) (fun j => nthZ (nth j (sg i) 0%nat) mw) v) l v).
Proof.
  intros R v S0. refine (fold_inv _ _ (st16 w) _ l v S0). intros v' i Hv. exact (inner_round w r1 r2 r3 r4 v' mw (sg i) R Hv).
Qed.
Lemma lnot_ones w x : 0 < w -> wd w x -> 2 ^ w - 1 - x = Z.lxor x (2 ^ w - 1).
Proof.
  intros Hw H. replace (2 ^ w - 1) with (Z.ones w) by (rewrite Z.ones_equiv; lia).
  assert (LG : Z.log2 x < w) by (destruct H as [H0 H1]; destruct (Z.eq_dec x 0) as [->|N]; [destruct (Z.eq_dec w 0) as [->|]; [cbn in *; lia|cbn; lia]|apply Z.log2_lt_pow2; lia]).
  rewrite <- Z.ldiff_ones_l_low by (destruct H; lia).
  apply Z.sub_nocarry_ldiff. rewrite Z.ldiff_ones_r by lia. destruct H as [H0 H1]. rewrite Z.shiftr_div_pow2 by lia. rewrite Z.div_small by lia. apply Z.shiftl_0_l.
Qed.
Lemma v_init_wd lg h : hok lg h -> st16 (b2_w (b2p lg)) (h ++ b2_IV (b2p lg)).
Proof. intros [L F]. destruct (IV_ok lg) as [L' F']. split; [rewrite app_length, L, L'; reflexivity|]. apply Forall_app; auto. Qed.
Lemma map_nth8 h : length h = 8%nat -> map (fun i => nthZ i h) (seq 0 8) = h.
Proof. intros L. do 8 (destruct h as [|? h]; [discriminate|]). destruct h; [reflexivity|discriminate]. Qed.
Lemma compress_F lg h m t f : hok lg h -> 0 <= t < 2 ^ 64 -> blake2_compress lg h m t f = b2_F (b2p lg) h m t f /\ hok lg (b2_F (b2p lg) h m t f).
Proof.
  intros H Ht. pose proof (v_init_wd lg h H) as S0. destruct H as [L F]. unfold blake2_compress. rewrite map_nth8 by exact L. unfold b2_F.
  set (w := b2_w (b2p lg)) in *. assert (Hw : 0 < w) by (destruct lg; reflexivity).
  assert (EQw : (if lg then 64 else 32) = w) by (destruct lg; reflexivity). rewrite EQw.
  assert (EIV : (if lg then blake_IVl else blake_IV) = b2_IV (b2p lg)) by (destruct lg; reflexivity). rewrite EIV.
  set (v0 := h ++ b2_IV (b2p lg)) in *.
  set (v1 := upd 12 (Z.lxor (nthZ 12 v0) (wrap w t)) v0).
  change (upd 12 (Z.lxor (nthZ 12 v0) (t mod 2 ^ w)) v0) with v1.
  assert (S1 : st16 w v1). { destruct S0 as [A B]. split; [unfold v1; rewrite upd_length; exact A|]. apply upd_Forall; [exact B|]. apply lxor_wd; [lia|apply nth_wd; [lia|exact B]|apply mod_wd; exact Hw]. }
  set (v2 := upd 13 (Z.lxor (nthZ 13 v1) (t / 2 ^ w)) v1).
  assert (E2 : (if lg then v1 else upd 13 (Z.lxor (nthZ 13 v1) (Z.shiftr t 32)) v1) = v2).
  { unfold v2. destruct lg.
    - change w with 64. rewrite Z.div_small by lia. rewrite Z.lxor_0_r. apply list_ext; [now rewrite upd_length|]. intros i Hi.
      destruct (Nat.eq_dec i 13) as [->|N]; [rewrite nthZ_upd_eq by exact Hi; reflexivity|rewrite nthZ_upd_neq by auto; reflexivity].
    - rewrite Z.shiftr_div_pow2 by lia. reflexivity. }
  rewrite E2.
  assert (S2 : st16 w v2). { destruct S1 as [A B]. split; [unfold v2; rewrite upd_length; exact A|]. apply upd_Forall; [exact B|]. apply lxor_wd; [lia|apply nth_wd; [lia|exact B]|].
    split; [apply Z.div_pos; [lia|apply Z.pow_pos_nonneg; lia]|]. apply Z.div_lt_upper_bound; [apply Z.pow_pos_nonneg; lia|]. rewrite <- Z.pow_add_r by lia. eapply Z.lt_le_trans; [apply Ht|]. apply Z.pow_le_mono_r; [lia|]. destruct lg; unfold w; cbn; lia. }
  set (v3 := if f then upd 14 (Z.lxor (nthZ 14 v2) (2 ^ w - 1)) v2 else v2).
  assert (E3 : (if f then upd 14 (2 ^ w - 1 - nthZ 14 v2) v2 else v2) = v3).
  { unfold v3. destruct f; [|reflexivity]. rewrite lnot_ones by (lia || (apply nth_wd; [lia|apply S2])). reflexivity. }
  rewrite E3.
  assert (S3 : st16 w v3). { unfold v3. destruct f; [|exact S2]. destruct S2 as [A B]. split; [rewrite upd_length; exact A|]. apply upd_Forall; [exact B|]. apply lxor_wd; [lia|apply nth_wd; [lia|exact B]|].
    split; [|lia]. pose proof (Z.pow_pos_nonneg 2 w ltac:(lia) ltac:(lia)). lia. }
  clearbody v3. clear v1 v2 E2 E3 S1 S2.
  assert (R : rot_ok w (b2_R1 (b2p lg)) (b2_R2 (b2p lg)) (b2_R3 (b2p lg)) (b2_R4 (b2p lg))) by (destruct lg; unfold rot_ok, w; cbn; lia).
  destruct (rounds_ok w _ _ _ _ (words_le (b2_wb (b2p lg)) m) (fun i => nth (i mod 10) SIGMA []) (seq 0 (b2_r (b2p lg))) R v3 S3) as [E SE].
  assert (EM : msg_words (if lg then 8%nat else 4%nat) m = words_le (b2_wb (b2p lg)) m) by (destruct lg; reflexivity).
  assert (ER : (if lg then 12 else 10)%nat = b2_r (b2p lg)) by (destruct lg; reflexivity).
  assert (EQR : (if lg then qround_long else qround_word) = qround w (b2_R1 (b2p lg)) (b2_R2 (b2p lg)) (b2_R3 (b2p lg)) (b2_R4 (b2p lg))) by (destruct lg; reflexivity).
  rewrite EM, ER, EQR, sigma_eq, E. set (v4 := fold_left _ _ v3) in *. clearbody v4. destruct SE as [L4 F4]. split.
  - apply map_ext. intros i. symmetry. apply Z.lxor_assoc.
  - split; [reflexivity|]. apply Forall_forall. intros z Hz. apply in_map_iff in Hz. destruct Hz as [i [<- _]].
    apply lxor_wd; [lia|apply lxor_wd; [lia| |]|]; apply nth_wd; auto; lia.
Qed.

(* ---- streaming ---- *)
Lemma nth_firstn_lt (d : Z) n l i : (i < n)%nat -> nth i (firstn n l) d = nth i l d.
Proof. intros H. rewrite nth_firstn. destruct (Nat.ltb_spec i n); [reflexivity|lia]. Qed.
Definition hseq (lg : bool) (h0 D : list Z) (k : nat) : list Z :=
  fold_left (fun h i => b2_F (b2p lg) h (block (b2_bb (b2p lg)) D i) (Z.of_nat ((i + 1) * b2_bb (b2p lg))) false) (seq 0 k) h0.
Lemma bb_size lg : b2_bb (b2p lg) = bk_size lg. Proof. destruct lg; reflexivity. Qed.
Lemma size_pos lg : (64 <= bk_size lg)%nat. Proof. destruct lg; cbn [bk_size]; lia. Qed.
Definition b2inv (lg : bool) (nn kk : nat) (h0 D : list Z) (x : blake2) : Prop :=
  exists k, (k * bk_size lg + bk_filled x = length D)%nat /\ (bk_filled x <= bk_size lg)%nat /\ ((0 < k)%nat -> (0 < bk_filled x)%nat) /\
    bk_h x = hseq lg h0 D k /\ hok lg (bk_h x) /\ bk_t x = Z.of_nat (k * bk_size lg) /\ length (bk_b x) = bk_size lg /\
    firstn (bk_filled x) (bk_b x) = skipn (k * bk_size lg) D /\ bk_fin x = false /\ bk_outlen x = nn /\ bk_keylen x = kk.
Lemma block_app B D E i : ((i + 1) * B <= length D)%nat -> block B (D ++ E) i = block B D i.
Proof.
  intros H. unfold block. rewrite skipn_app. rewrite firstn_app. rewrite skipn_length.
  replace (B - (length D - B * i))%nat with 0%nat by nia. cbn [firstn]. rewrite app_nil_r. reflexivity.
Qed.
Lemma hseq_app lg h0 D E k : (k * bk_size lg <= length D)%nat -> hseq lg h0 (D ++ E) k = hseq lg h0 D k.
Proof.
  intros H. unfold hseq. rewrite bb_size. revert h0. assert (HI : forall i, In i (seq 0 k) -> (i < k)%nat) by (intros i Hi; apply in_seq in Hi; lia).
  revert HI. generalize (seq 0 k). intros l. induction l as [|i l IH]; intros HI h0; [reflexivity|]. cbn [fold_left].
  rewrite block_app. - apply IH. intros j Hj. apply HI. now right.
  - assert (i < k)%nat by (apply HI; now left). nia.
Qed.
Lemma hseq_S lg h0 D k : hseq lg h0 D (S k) = b2_F (b2p lg) (hseq lg h0 D k) (block (bk_size lg) D k) (Z.of_nat ((k + 1) * bk_size lg)) false.
Proof. unfold hseq. rewrite seq_S, fold_left_app, bb_size. reflexivity. Qed.
Lemma block_at B D k : (length (skipn (k * B) D) = B)%nat -> block B D k = skipn (k * B) D.
Proof. intros H. unfold block. rewrite (Nat.mul_comm B k). rewrite (@firstn_all2 Z B) by lia. reflexivity. Qed.
Lemma update1_inv lg nn kk h0 D x c : b2inv lg nn kk h0 D x -> Z.of_nat (length D) < 2 ^ 64 -> b2inv lg nn kk h0 (D ++ [c]) (blake2_update1 lg x c).
Proof.
  intros (k & Lk & Lf & Kf & Eh & Hh & Et & Lb & Eb & Ef & Eo & Ek) HD. pose proof (size_pos lg) as SP. unfold blake2_update1.
  destruct (Nat.eqb_spec (bk_filled x) (bk_size lg)) as [FE|FN].
  - exists (S k). cbn [bk_filled bk_h bk_t bk_b bk_fin bk_outlen bk_keylen].
    assert (ET : u64 (bk_t x + Z.of_nat (bk_filled x)) = Z.of_nat ((k + 1) * bk_size lg)).
    { unfold u64, wrap. rewrite Z.mod_small; rewrite Et; nia. }
    assert (EB : bk_b x = block (bk_size lg) D k).
    { rewrite block_at. - rewrite <- Eb. rewrite FE. symmetry. apply firstn_all2. lia. - rewrite skipn_length. lia. }
    destruct (compress_F lg (bk_h x) (bk_b x) (Z.of_nat ((k + 1) * bk_size lg)) false Hh ltac:(nia)) as [EC HC].
    rewrite ET. rewrite app_length; cbn [length].
    split; [nia|]. split; [lia|]. split; [lia|]. split; [|split; [rewrite EC; exact HC|split; [f_equal; nia|split; [rewrite upd_length; exact Lb|split; [|auto]]]]].
    + rewrite EC. rewrite hseq_app by nia. rewrite hseq_S. rewrite <- Eh, <- EB. reflexivity.
    + destruct (bk_b x) as [|b0 b1]; [cbn in Lb; lia|]. cbn [upd firstn]. rewrite skipn_app. rewrite skipn_all2 by nia.
      replace (S k * bk_size lg - length D)%nat with 0%nat by nia. reflexivity.
  - exists k. cbn [bk_filled bk_h bk_t bk_b bk_fin bk_outlen bk_keylen]. rewrite app_length; cbn [length].
    split; [lia|]. split; [lia|]. split; [lia|]. split; [rewrite hseq_app by nia; exact Eh|]. split; [exact Hh|]. split; [exact Et|]. split; [rewrite upd_length; exact Lb|]. split; [|auto].
    rewrite skipn_app. replace (k * bk_size lg - length D)%nat with 0%nat by lia. cbn [skipn]. rewrite <- Eb.
    rewrite firstn_succ by (rewrite upd_length; lia). rewrite nthZ_upd_eq by lia. f_equal.
    apply list_ext; [rewrite !firstn_length, upd_length; reflexivity|]. intros i Hi. rewrite firstn_length, upd_length in Hi. unfold nthZ.
    rewrite !nth_firstn_lt by lia. rewrite nth_upd_neq by lia. reflexivity.
Qed.
Lemma update_inv lg nn kk h0 l : forall D x, b2inv lg nn kk h0 D x -> Z.of_nat (length D + length l) < 2 ^ 64 -> b2inv lg nn kk h0 (D ++ l) (blake2_update lg x l).
Proof.
  induction l as [|c l IH]; intros D x H HD; [rewrite app_nil_r; exact H|]. unfold blake2_update. cbn [fold_left].
  replace (D ++ c :: l) with ((D ++ [c]) ++ l) by (rewrite <- app_assoc; reflexivity). apply IH; [apply update1_inv; [exact H|cbn [length] in HD; lia]|]. rewrite app_length. cbn [length] in *. lia.
Qed.
Definition b2_h0 (lg : bool) (kk nn : nat) : list Z :=
  upd 0 (Z.lxor (Z.lxor (Z.lxor (nthZ 0 (b2_IV (b2p lg))) 0x01010000) (Z.shiftl (Z.of_nat kk) 8)) (Z.of_nat nn)) (b2_IV (b2p lg)).
Definition b2_max (lg : bool) : nat := if lg then 64%nat else 32%nat.
Lemma h0_ok lg kk nn : (kk <= 64)%nat -> (nn <= 64)%nat -> hok lg (b2_h0 lg kk nn).
Proof.
  intros K N. destruct (IV_ok lg) as [L F]. unfold b2_h0. split; [rewrite upd_length; exact L|]. apply upd_Forall; [exact F|].
  assert (W : forall z, 0 <= z < 2 ^ 32 -> wd (b2_w (b2p lg)) z) by (intros z Hz; destruct lg; unfold wd; cbn; lia).
  assert (WP : 0 <= b2_w (b2p lg)) by (destruct lg; cbn; lia).
  apply lxor_wd; [exact WP|apply lxor_wd; [exact WP|apply lxor_wd; [exact WP|apply nth_wd; auto|apply W; lia]|apply W]|apply W; lia].
  rewrite Z.shiftl_mul_pow2 by lia. lia.
Qed.
Lemma init_inv lg nn key : (1 <= nn <= b2_max lg)%nat -> (length key <= b2_max lg)%nat ->
  exists x, blake2_init lg nn key = Some x /\ b2inv lg nn (length key) (b2_h0 lg (length key) nn) (b2_input (b2p lg) key []) x.
Proof.
  intros Hn Hk. pose proof (size_pos lg) as SP. assert (MX : (b2_max lg <= 64)%nat) by (destruct lg; cbn; lia). assert (MS : (b2_max lg < bk_size lg)%nat) by (destruct lg; cbn; lia).
  unfold blake2_init. change (if lg then 64%nat else 32%nat) with (b2_max lg).
  destruct (Nat.ltb_spec (b2_max lg) nn); [lia|]. destruct (Nat.ltb_spec nn 1); [lia|]. destruct (Nat.ltb_spec (b2_max lg) (length key)); [lia|]. cbn [orb].
  assert (EIV : (if lg then blake_IVl else blake_IV) = b2_IV (b2p lg)) by (destruct lg; reflexivity). rewrite EIV.
  rewrite <- (Z.lxor_assoc (nthZ 0 _)). rewrite <- Z.lxor_assoc. fold (b2_h0 lg (length key) nn). set (h0 := b2_h0 _ _ _).
  assert (HH : hok lg h0) by (apply h0_ok; lia).
  set (x0 := {| bk_b := repeat 0 (bk_size lg); bk_h := h0 |}).
  assert (I0 : b2inv lg nn (length key) h0 [] x0).
  { exists 0%nat. cbn [bk_filled bk_h bk_t bk_b bk_fin bk_outlen bk_keylen x0]. rewrite repeat_length. unfold hseq. cbn [seq fold_left length firstn skipn Nat.mul Nat.add]. repeat (split; [try lia; auto|]). reflexivity. }
  destruct (Nat.ltb_spec 0 (length key)) as [KP|KZ].
  - eexists. split; [reflexivity|]. assert (KE : b2_input (b2p lg) key [] = key ++ repeat 0 (b2_bb (b2p lg) - length key)) by (unfold b2_input; rewrite app_nil_r; destruct key; [cbn in KP; lia|reflexivity]). rewrite KE.
    assert (FULL : forall l x p, (length l + length p <= b2_max lg)%nat -> bk_b x = p ++ repeat 0 (bk_size lg - length p) -> bk_filled x = length p -> bk_b (blake2_update lg x l) = (p ++ l) ++ repeat 0 (bk_size lg - length (p ++ l)) /\ bk_h (blake2_update lg x l) = bk_h x /\ bk_t (blake2_update lg x l) = bk_t x).
    { induction l as [|c l IH]; intros x p HL EB EF; [rewrite app_nil_r; auto|]. cbn [length] in HL. unfold blake2_update. cbn [fold_left].
      assert (EU : blake2_update1 lg x c = {| bk_b := (p ++ [c]) ++ repeat 0 (bk_size lg - length (p ++ [c])); bk_h := bk_h x; bk_t := bk_t x; bk_filled := length (p ++ [c]); bk_outlen := bk_outlen x; bk_keylen := bk_keylen x; bk_fin := bk_fin x |}).
      { unfold blake2_update1. rewrite EF. destruct (Nat.eqb_spec (length p) (bk_size lg)); [lia|]. rewrite EF, EB. rewrite app_length. cbn [length]. f_equal; [|lia].
        rewrite upd_app_r by lia. rewrite Nat.sub_diag, <- app_assoc. f_equal. replace (bk_size lg - length p)%nat with (S (bk_size lg - (length p + 1)))%nat by lia. reflexivity. }
      rewrite EU. replace (p ++ c :: l) with ((p ++ [c]) ++ l) by (rewrite <- app_assoc; reflexivity).
      match goal with |- context[fold_left _ l ?x1] => destruct (IH x1 (p ++ [c])) as (A & B & C) end; [rewrite app_length; cbn [length]; lia|reflexivity|reflexivity|]. unfold blake2_update in A, B, C. split; [exact A|split; [exact B|exact C]]. }
    destruct (FULL key x0 []) as (A & B & C); [cbn [length]; lia|cbn [length x0 bk_b app]; rewrite Nat.sub_0_r; reflexivity|reflexivity|]. cbn [app] in A.
    pose proof (update_inv lg nn (length key) h0 key [] x0 I0 ltac:(cbn [length]; lia)) as (k & _ & _ & _ & _ & _ & _ & _ & _ & E1 & E2 & E3).
    exists 0%nat. cbn [bk_filled bk_h bk_t bk_b bk_fin bk_outlen bk_keylen]. rewrite A, B, C. rewrite bb_size. rewrite app_length, repeat_length.
    unfold hseq. cbn [seq fold_left Nat.mul Nat.add skipn]. split; [lia|]. split; [lia|]. split; [lia|]. split; [reflexivity|]. split; [exact HH|]. split; [reflexivity|]. split; [lia|]. split; [apply firstn_all2; rewrite app_length, repeat_length; lia|]. auto.
  - destruct key; [|cbn [length] in *; lia]. eexists. split; [reflexivity|]. exact I0.
Qed.
Lemma init_refuses lg nn key : blake2_init lg nn key = None <-> ~ ((1 <= nn <= b2_max lg)%nat /\ (length key <= b2_max lg)%nat).
Proof.
  unfold blake2_init. change (if lg then 64%nat else 32%nat) with (b2_max lg).
  destruct (Nat.ltb_spec (b2_max lg) nn); [cbn [orb]; split; [lia|reflexivity]|]. destruct (Nat.ltb_spec nn 1); [cbn [orb]; split; [lia|reflexivity]|]. destruct (Nat.ltb_spec (b2_max lg) (length key)); [cbn [orb]; split; [lia|reflexivity]|]. cbn [orb].
  destruct (0 <? length key)%nat; split; (discriminate || lia).
Qed.
Lemma zero_tail n : forall f b, (f + n = length b)%nat -> fold_left (fun b i => upd i 0 b) (seq f n) b = firstn f b ++ repeat 0 n.
Proof.
  induction n as [|n IH]; intros f b H; [cbn [seq fold_left repeat]; rewrite app_nil_r; symmetry; apply firstn_all2; lia|].
  cbn [seq fold_left]. rewrite IH by (rewrite upd_length; lia). rewrite firstn_succ by (rewrite upd_length; lia). rewrite nthZ_upd_eq by lia. rewrite <- app_assoc. cbn [app repeat]. f_equal.
  apply list_ext; [rewrite !firstn_length, upd_length; reflexivity|]. intros i Hi. rewrite firstn_length, upd_length in Hi. unfold nthZ. rewrite !nth_firstn_lt by lia. rewrite nth_upd_neq by lia. reflexivity.
Qed.
Lemma concat_le_length wb h : length (concat (map (le_bytes wb) h)) = (length h * wb)%nat.
Proof. induction h as [|a h IH]; [reflexivity|]. cbn [map concat length]. rewrite app_length, IH, le_bytes_length. lia. Qed.
Definition outs (b : list Z) (n t : nat) : list Z := map (fun i => if (i <? n)%nat then nthZ i b else 0) (seq 0 t).
Lemma outs_octets b n t : (n <= length b)%nat -> outs b n t = firstn t (firstn n b ++ repeat 0 t).
Proof.
  intros H. unfold outs. apply list_ext; [rewrite map_length, seq_length, firstn_length, app_length, repeat_length; lia|]. intros i Hi. rewrite map_length, seq_length in Hi.
  rewrite nthZ_map_seq by exact Hi. unfold nthZ. rewrite nth_firstn_lt by lia. destruct (Nat.ltb_spec i n).
  - rewrite app_nth1 by (rewrite firstn_length; lia). rewrite nth_firstn_lt by lia. reflexivity.
  - rewrite app_nth2 by (rewrite firstn_length; lia). rewrite nth_repeat. reflexivity.
Qed.
Lemma final_spec lg nn key msg x t : b2inv lg nn (length key) (b2_h0 lg (length key) nn) (b2_input (b2p lg) key msg) x -> (1 <= nn <= b2_max lg)%nat ->
  Z.of_nat (length (b2_input (b2p lg) key msg)) < 2 ^ 64 ->
  snd (blake2_final lg x t) = firstn t (rfc_blake2 (b2p lg) key msg nn ++ repeat 0 t) /\
  forall t', blake2_final lg (fst (blake2_final lg x t)) t' = (fst (blake2_final lg x t), firstn t' (rfc_blake2 (b2p lg) key msg nn ++ repeat 0 t')).
Proof.
  intros (k & Lk & Lf & Kf & Eh & Hh & Et & Lb & Eb & Ef & Eo & Ek) Hn HD. pose proof (size_pos lg) as SP.
  set (D := b2_input (b2p lg) key msg) in *. set (h0 := b2_h0 lg (length key) nn) in *.
  assert (DD : Nat.max 1 ((length D + bk_size lg - 1) / bk_size lg) = S k).
  { destruct (Nat.eq_dec (length D) 0) as [Z0|NZ].
    - assert (k = 0)%nat by nia. subst k. rewrite Z0. rewrite Nat.div_small by lia. reflexivity.
    - assert (0 < bk_filled x)%nat by (destruct k; [lia|apply Kf; lia]).
      replace ((length D + bk_size lg - 1) / bk_size lg)%nat with (S k); [lia|]. apply (Nat.div_unique _ _ _ (bk_filled x - 1)); nia. }
  set (padded := D ++ repeat 0 (S k * bk_size lg - length D)).
  assert (PB : firstn (bk_filled x) (bk_b x) ++ repeat 0 (bk_size lg - bk_filled x) = block (bk_size lg) padded k).
  { rewrite Eb. unfold padded. rewrite block_at; rewrite skipn_app; replace (k * bk_size lg - length D)%nat with 0%nat by lia; cbn [skipn]; [f_equal; f_equal; nia|]. rewrite app_length, skipn_length, repeat_length. nia. }
  set (Hfin := b2_F (b2p lg) (hseq lg h0 padded k) (block (bk_size lg) padded k) (Z.of_nat (length D)) true).
  assert (RS : rfc_blake2 (b2p lg) key msg nn = firstn nn (concat (map (le_bytes (b2_wb (b2p lg))) Hfin))).
  { unfold rfc_blake2. fold D. rewrite bb_size, DD. fold padded. replace (S k - 1)%nat with k by lia. fold (b2_h0 lg (length key) nn). fold h0. unfold Hfin, hseq. rewrite bb_size. reflexivity. }
  assert (EHs : bk_h x = hseq lg h0 padded k) by (rewrite Eh; unfold padded; rewrite hseq_app by lia; reflexivity).
  destruct (compress_F lg (bk_h x) (block (bk_size lg) padded k) (Z.of_nat (length D)) true Hh ltac:(lia)) as [EC HC].
  rewrite EHs in EC at 2. rewrite EHs in HC. fold Hfin in EC, HC.
  assert (ET : u64 (bk_t x + Z.of_nat (bk_filled x)) = Z.of_nat (length D)) by (unfold u64, wrap; rewrite Z.mod_small; rewrite Et; lia).
  assert (WB : (if lg then 8%nat else 4%nat) = b2_wb (b2p lg)) by (destruct lg; reflexivity).
  assert (MXE : b2_max lg = (8 * b2_wb (b2p lg))%nat) by (destruct lg; reflexivity).
  set (hb := concat (map (le_bytes (b2_wb (b2p lg))) Hfin)).
  assert (LH : (nn <= length hb)%nat) by (unfold hb; rewrite concat_le_length; destruct HC as [-> _]; rewrite MXE in Hn; lia).
  set (xf := {| bk_b := hb ++ skipn (length hb) (block (bk_size lg) padded k); bk_h := Hfin; bk_t := Z.of_nat (length D); bk_filled := bk_size lg; bk_outlen := bk_outlen x; bk_keylen := bk_keylen x; bk_fin := true |}).
  assert (EF : forall t, blake2_final lg x t = (xf, outs (bk_b xf) (bk_outlen xf) t)).
  { intros t'. unfold blake2_final. rewrite Ef. rewrite zero_tail by lia. rewrite PB, ET, EC, WB. fold hb. reflexivity. }
  assert (OX : forall t, outs (bk_b xf) (bk_outlen xf) t = firstn t (rfc_blake2 (b2p lg) key msg nn ++ repeat 0 t)).
  { intros t'. cbn [bk_b bk_outlen xf]. rewrite Eo. rewrite outs_octets by (rewrite app_length; lia). rewrite RS. fold hb. rewrite (firstn_app nn hb). replace (nn - length hb)%nat with 0%nat by lia. cbn [firstn]. rewrite app_nil_r. reflexivity. }
  rewrite !EF. cbn [fst snd]. split; [apply OX|]. intros t'. unfold blake2_final. cbn [bk_fin xf]. f_equal. apply (OX t').
Qed.
