(** Lemmas about the SM4, SEED, ARIA and Camellia models. *)
From Verif Require Import Base Blocks Hash HashLemmas DerLemmas CmacLemmas Cipher CipherSpec CipherLemmas.

(* ---- a function with a left inverse on the finite set of blocks is a bijection ---- *)
Lemma all_strings n : exists l : list (list Z), NoDup l /\ forall s, In s l <-> (length s = n /\ bytes_ok s).
Proof.
  assert (G : exists l : list (list Z), forall s, In s l <-> (length s = n /\ bytes_ok s)).
  { induction n as [|n [l IH]].
    - exists [[]]. intros s. split.
      + intros [<-|[]]. split; [reflexivity|constructor].
      + intros [L _]. left. now destruct s.
    - exists (flat_map (fun b => map (cons b) l) idx). intros s. rewrite in_flat_map. split.
      + intros (b & Hb & Hs). apply in_map_iff in Hs as (t & <- & Ht). apply IH in Ht as [L B]. split; [cbn; lia|].
        constructor; auto. unfold idx in Hb. apply in_map_iff in Hb as (k & <- & Hk). apply in_seq in Hk. unfold byte_ok. change (2 ^ 8) with 256. lia.
      + intros [L B]. destruct s as [|b t]; [discriminate L|]. inversion B as [|? ? B1 B2]; subst. exists b. split.
        * unfold byte_ok in B1. change (2 ^ 8) with 256 in B1. apply in_map_iff. exists (Z.to_nat b). split; [lia|]. apply in_seq. lia.
        * apply in_map. apply IH. split; auto. }
  destruct G as [l Hl]. exists (nodup (list_eq_dec Z.eq_dec) l). split; [apply NoDup_nodup|].
  intros s. rewrite nodup_In. apply Hl.
Qed.
Lemma inv_other_side (f g : list Z -> list Z) :
  (forall s, blk s -> blk (f s)) -> (forall s, blk s -> g (f s) = s) ->
  forall s, blk s -> f (g s) = s /\ blk (g s).
Proof.
  intros Hf Hg s Hs. destruct (all_strings 16) as (l & ND & Hl).
  assert (I : In s (map f l)).
  { apply (NoDup_length_incl (l := map f l) (l' := l)).
    - assert (Q : forall m, NoDup m -> (forall x, In x m -> blk x) -> NoDup (map f m)).
      { induction m as [|a m IH]; intros N HI; cbn [map]; [constructor|]. inversion N; subst. constructor.
        - intros C. apply in_map_iff in C as (b & E & Hb). assert (a = b).
          { rewrite <- (Hg a), <- (Hg b), E by (apply HI; cbn; auto). reflexivity. }
          subst. contradiction.
        - apply IH; auto. intros x Hx. apply HI. now right. }
      apply Q; auto. intros x Hx. now apply Hl.
    - rewrite map_length. lia.
    - intros x Hx. apply in_map_iff in Hx as (y & <- & Hy). apply Hl. apply Hf. now apply Hl.
    - now apply Hl. }
  apply in_map_iff in I as (x & <- & Hx). apply Hl in Hx. rewrite Hg by exact Hx. split; [reflexivity|exact Hx].
Qed.

(* ---- words in a block ---- *)
Lemma be_val_be_bytes_wd n x : wd (8 * Z.of_nat n) x -> be_val (be_bytes n x) = x.
Proof. intros H. rewrite be_val_be_bytes. now apply Z.mod_small. Qed.
Lemma slice_app_0 n a b : length a = n -> slice 0 n (a ++ b) = a.
Proof. intros <-. unfold slice. rewrite Nat.mul_0_l, skipn_O, firstn_app, Nat.sub_diag, firstn_all. cbn [firstn]. apply app_nil_r. Qed.
Lemma slice_app_S i n a b : length a = n -> slice (S i) n (a ++ b) = slice i n b.
Proof.
  intros L. unfold slice. f_equal. rewrite skipn_app. replace (S i * n - length a)%nat with (i * n)%nat by lia.
  rewrite skipn_all2 by lia. reflexivity.
Qed.
Lemma slice_0_all n a : length a = n -> slice 0 n a = a.
Proof. intros <-. unfold slice. rewrite Nat.mul_0_l, skipn_O. apply firstn_all. Qed.
Lemma blk_words64 s : blk s -> be_bytes 8 (be_val (slice 0 8 s)) ++ be_bytes 8 (be_val (slice 1 8 s)) = s /\
  wd 64 (be_val (slice 0 8 s)) /\ wd 64 (be_val (slice 1 8 s)).
Proof.
  intros H. list16 s H. unfold slice. cbn [Nat.mul Nat.add firstn skipn].
  assert (B0 : bytes_ok [s0; s1; s2; s3; s4; s5; s6; s7]) by (repeat (constructor; [assumption|]); constructor).
  assert (B1 : bytes_ok [s8; s9; s10; s11; s12; s13; s14; s15]) by (repeat (constructor; [assumption|]); constructor).
  split; [exact (f_equal2 (@app Z) (be_bytes_be_val _ B0) (be_bytes_be_val _ B1))|].
  split; [exact (be_val_bound _ B0)|exact (be_val_bound _ B1)].
Qed.
Lemma slice64_0 a b : wd 64 a -> be_val (slice 0 8 (be_bytes 8 a ++ be_bytes 8 b)) = a.
Proof. intros. rewrite slice_app_0 by apply be_bytes_length. now apply be_val_be_bytes_wd. Qed.
Lemma slice64_1 a b : wd 64 b -> be_val (slice 1 8 (be_bytes 8 a ++ be_bytes 8 b)) = b.
Proof. intros. rewrite slice_app_S, slice_0_all by apply be_bytes_length. now apply be_val_be_bytes_wd. Qed.
Lemma blk64 a b : blk (be_bytes 8 a ++ be_bytes 8 b).
Proof. split; [rewrite app_length, !be_bytes_length; reflexivity|]. apply Forall_app. split; apply be_bytes_ok. Qed.

Lemma lxor_cancel_r a b : Z.lxor (Z.lxor a b) b = a.
Proof. now rewrite Z.lxor_assoc, Z.lxor_nilpotent, Z.lxor_0_r. Qed.
Lemma u32_wd x : wd 32 (u32 x). Proof. unfold u32, wd. apply Z.mod_pos_bound. lia. Qed.
Lemma u64_wd x : wd 64 (u64 x). Proof. unfold u64, wd. apply Z.mod_pos_bound. lia. Qed.
Lemma shiftr_wd w x n : 0 <= n -> wd w x -> wd w (Z.shiftr x n).
Proof. intros Hn H. rewrite Z.shiftr_div_pow2 by lia. now apply div_wd. Qed.
Lemma rol32_wd x n : 0 <= n <= 32 -> wd 32 x -> wd 32 (rol32 x n).
Proof. intros Hn H. unfold rol32. apply lor_wd; [lia|apply u32_wd|apply shiftr_wd; [lia|auto]]. Qed.

(* ---- SM4 ---- *)
Lemma Pmt_T0_wd x : wd 32 (Pmt_T0 x).
Proof.
  unfold Pmt_T0, Lin0. assert (H : wd 32 (sm4_tau x)) by apply wsbox_range.
  repeat (apply lxor_wd; [lia| |apply rol32_wd; [lia|auto]]). exact H.
Qed.
Definition w4 (X : list Z) : Prop := length X = 4%nat /\ Forall (wd 32) X.
Lemma sm4_step_w4 rk b X i : w4 X -> w4 (sm4_step rk b X i).
Proof.
  intros [L F]. unfold sm4_step. split; [now rewrite upd_length|]. apply upd_Forall; auto.
  unfold Rnd_F. apply lxor_wd; [lia|now apply nthZ_wd|apply Pmt_T0_wd].
Qed.
Lemma sm4_steps_w4 rk b l : forall X, w4 X -> w4 (fold_left (sm4_step rk b) l X).
Proof. induction l as [|i l IH]; intros X H; cbn [fold_left]; auto. apply IH. now apply sm4_step_w4. Qed.
Definition sm4_rnd (k : Z) (i : nat) (X : list Z) : list Z :=
  upd (Nat.modulo i 4)
      (Rnd_F (nthZ (Nat.modulo (i + 0) 4) X) (nthZ (Nat.modulo (i + 1) 4) X) (nthZ (Nat.modulo (i + 2) 4) X)
             (nthZ (Nat.modulo (i + 3) 4) X) k) X.
Lemma sm4_rnd_invol k i X : (i < 32)%nat -> length X = 4%nat -> sm4_rnd k i (sm4_rnd k i X) = X.
Proof.
  intros Hi L. do 4 (destruct X as [|? X]; [discriminate L|]). destruct X; [|discriminate L]. clear L.
  unfold sm4_rnd. unfold Rnd_F. generalize Pmt_T0. intros T.
  do 32 (destruct i as [|i];
    [cbn [Nat.add Nat.modulo Nat.divmod fst snd Nat.sub nthZ nth upd]; rewrite lxor_cancel_r; reflexivity|]). lia.
Qed.
Lemma sm4_rnd_rev k i X : (i < 32)%nat -> length X = 4%nat -> sm4_rnd k i (rev X) = rev (sm4_rnd k (31 - i) X).
Proof.
  intros Hi L. do 4 (destruct X as [|? X]; [discriminate L|]). destruct X; [|discriminate L]. clear L.
  unfold sm4_rnd. unfold Rnd_F. generalize Pmt_T0. intros T.
  assert (E : forall a b c, Z.lxor (Z.lxor a b) c = Z.lxor (Z.lxor c b) a).
  { intros. now rewrite (Z.lxor_comm a b), (Z.lxor_comm c b), !Z.lxor_assoc, (Z.lxor_comm a c). }
  do 32 (destruct i as [|i];
    [cbn [Nat.add Nat.modulo Nat.divmod fst snd Nat.sub nthZ nth upd rev app]; 
     match goal with |- context [T (Z.lxor (Z.lxor (Z.lxor ?a ?b) ?c) k)] => rewrite (E a b c) end; reflexivity|]). lia.
Qed.
Lemma sm4_rnd_length k i X : length (sm4_rnd k i X) = length X.
Proof. apply upd_length. Qed.
Lemma sm4_dec_steps rk l : forall X, Forall (fun i => (i < 32)%nat) l -> length X = 4%nat ->
  fold_left (sm4_step rk true) l (rev X) = rev (fold_left (fun X i => sm4_rnd (nthZ (31 - i) rk) (31 - i) X) l X).
Proof.
  induction l as [|i l IH]; intros X F L; cbn [fold_left]; [reflexivity|]. inversion F; subst.
  change (sm4_step rk true (rev X) i) with (sm4_rnd (nthZ (31 - i) rk) i (rev X)). rewrite sm4_rnd_rev by auto.
  apply IH; auto. now rewrite sm4_rnd_length.
Qed.
Lemma sm4_undo rk : forall n X, (n <= 32)%nat -> length X = 4%nat ->
  fold_left (fun X i => sm4_rnd (nthZ (31 - i) rk) (31 - i) X) (seq (32 - n) n) (fold_left (sm4_step rk false) (seq 0 n) X) = X.
Proof.
  induction n as [|n IH]; intros X Hn L; [reflexivity|].
  rewrite (seq_S n 0), fold_left_app. cbn [fold_left Nat.add].
  replace (seq (32 - S n) (S n)) with ((31 - n)%nat :: seq (32 - n) n).
  2:{ change (seq (32 - S n) (S n)) with ((32 - S n)%nat :: seq (S (32 - S n)) n). now replace (S (32 - S n)) with (32 - n)%nat by lia. }
  cbn [fold_left]. set (Y := fold_left _ (seq 0 n) X).
  change (sm4_step rk false Y n) with (sm4_rnd (nthZ n rk) n Y). replace (31 - (31 - n))%nat with n by lia.
  rewrite sm4_rnd_invol; [apply IH; auto; lia|lia|].
  unfold Y. assert (G : forall l X, length X = 4%nat -> length (fold_left (sm4_step rk false) l X) = 4%nat).
  { induction l as [|i l IHl]; intros X0 HX; cbn [fold_left]; auto. apply IHl. unfold sm4_step. now rewrite upd_length. }
  now apply G.
Qed.
Definition words4 (s : list Z) : list Z := map (fun i => be_val (slice i 4 s)) (seq 0 4).
Definition unwords4r (X : list Z) : list Z := flat_map (fun i => be_bytes 4 (nthZ (3 - i) X)) (seq 0 4).
Lemma words4_unwords X : w4 X -> words4 (unwords4r X) = rev X.
Proof.
  intros [L F]. do 4 (destruct X as [|? X]; [discriminate L|]). destruct X; [|discriminate L]. clear L.
  rewrite !Forall_cons_iff in F. destruct F as (F0 & F1 & F2 & F3 & _).
  unfold words4, unwords4r. cbn [seq map flat_map Nat.sub nthZ nth rev app].
  rewrite !slice_app_S, !slice_app_0 by apply be_bytes_length.
  now rewrite !be_val_be_bytes_wd by assumption.
Qed.
Lemma words4_w4 s : blk s -> w4 (words4 s).
Proof.
  intros [L B]. split; [reflexivity|]. unfold words4. cbn [seq map].
  assert (G : forall i, wd 32 (be_val (slice i 4 s))).
  { intros i. unfold slice. apply (be_val_firstn_wd 4). now apply Forall_skipn. }
  repeat (constructor; [apply G|]). constructor.
Qed.
Lemma unwords4_rev s : blk s -> unwords4r (rev (words4 s)) = s.
Proof.
  intros H. unfold unwords4r, words4. cbn [seq map rev app flat_map Nat.sub nthZ nth].
  list16 s H. unfold slice. cbn [Nat.mul Nat.add firstn skipn].
  assert (G : forall a b c d, byte_ok a -> byte_ok b -> byte_ok c -> byte_ok d -> be_bytes 4 (be_val [a; b; c; d]) = [a; b; c; d]).
  { intros. apply (be_bytes_be_val [a; b; c; d]). repeat (constructor; [assumption|]). constructor. }
  rewrite !G by assumption. reflexivity.
Qed.
Lemma unwords4_blk X : blk (unwords4r X).
Proof.
  unfold unwords4r. cbn [seq flat_map]. split; [rewrite !app_length, !be_bytes_length; reflexivity|].
  repeat (apply Forall_app; split; [apply be_bytes_ok|]). constructor.
Qed.
Lemma sm4_feistel_blk rk b s : blk (SM4Feistel rk b s).
Proof. unfold SM4Feistel. cbv zeta. apply unwords4_blk. Qed.
Lemma sm4_dec_enc rk s : blk s -> SM4Decrypt rk (SM4Encrypt rk s) = s.
Proof.
  intros Hs. unfold SM4Decrypt, SM4Encrypt, SM4Feistel. cbv zeta. fold (words4 s).
  set (X := fold_left (sm4_step rk false) (seq 0 32) (words4 s)). fold (unwords4r X). fold (words4 (unwords4r X)).
  rewrite words4_unwords by (apply sm4_steps_w4, words4_w4, Hs).
  rewrite sm4_dec_steps.
  - unfold X. pose proof (sm4_undo rk 32 (words4 s) (le_n _) eq_refl) as E. change (32 - 32)%nat with 0%nat in E. rewrite E. now apply unwords4_rev.
  - apply Forall_forall. intros i Hi. apply in_seq in Hi. lia.
  - apply sm4_steps_w4, words4_w4, Hs.
Qed.

(* ---- SEED ---- *)
Lemma bswap32_wd x : wd 32 (bswap32 x).
Proof. unfold bswap32. pose proof (be_val_bound (le_bytes 4 x) (le_bytes_ok 4 x)) as H. rewrite le_bytes_length in H. exact H. Qed.
Lemma land_wd_l w a b : 0 <= w -> wd w a -> wd w (Z.land a b).
Proof. intros. rewrite Z.land_comm. apply land_range; auto. Qed.
Lemma seed_F_wd k x : wd 64 (seed_F k x).
Proof.
  unfold seed_F. cbv zeta. apply lor_wd; [lia| |].
  - pose proof (u32_wd) as W. rewrite Z.shiftl_mul_pow2 by lia. specialize (W (seed_G
       (u32 (seed_G (u32 (seed_G (Z.lxor (Z.lxor (u32 (Z.shiftr x 32)) (u32 (Z.shiftr k 32))) (Z.lxor (u32 x) (u32 k))) +
         Z.lxor (u32 (Z.shiftr x 32)) (u32 (Z.shiftr k 32)))) + seed_G (Z.lxor (Z.lxor (u32 (Z.shiftr x 32)) (u32 (Z.shiftr k 32))) (Z.lxor (u32 x) (u32 k))))) +
         seed_G (u32 (seed_G (Z.lxor (Z.lxor (u32 (Z.shiftr x 32)) (u32 (Z.shiftr k 32))) (Z.lxor (u32 x) (u32 k))) +
         Z.lxor (u32 (Z.shiftr x 32)) (u32 (Z.shiftr k 32)))))).
    unfold wd in *. lia.
  - match goal with |- wd 64 (u32 ?t) => pose proof (u32_wd t) as W end. unfold wd in *. lia.
Qed.
Definition sd_e (K : list Z) (LR : Z * Z) (i : nat) : Z * Z := let '(L, R) := LR in (R, Z.lxor L (seed_F (nthZ i K) R)).
Definition sd_d (K : list Z) (LR : Z * Z) (i : nat) : Z * Z := let '(L, R) := LR in (Z.lxor R (seed_F (nthZ i K) L), L).
Lemma seed_undo K l : forall s, fold_left (sd_d K) (rev l) (fold_left (sd_e K) l s) = s.
Proof.
  induction l as [|i l IH] using rev_ind; intros s; [reflexivity|].
  rewrite rev_app_distr, !fold_left_app. cbn [rev app fold_left].
  rewrite <- (IH s) at 2. f_equal. destruct (fold_left (sd_e K) l s) as [L R]. cbn [sd_e sd_d]. now rewrite lxor_cancel_r.
Qed.
Lemma sd_e_wd K l : forall s, wd 64 (fst s) -> wd 64 (snd s) ->
  wd 64 (fst (fold_left (sd_e K) l s)) /\ wd 64 (snd (fold_left (sd_e K) l s)).
Proof.
  induction l as [|i l IH]; intros [L R] H1 H2; cbn [fold_left]; auto. apply IH; cbn [sd_e fst snd] in *; auto.
  apply lxor_wd; auto; [lia|apply seed_F_wd].
Qed.
Lemma seed_enc_blk K s : blk (SEED_Encrypt K s).
Proof. unfold SEED_Encrypt. cbv zeta. destruct (fold_left _ _ _) as [L R]. apply blk64. Qed.
Lemma seed_dec_enc K s : blk s -> SEED_Decrypt K (SEED_Encrypt K s) = s.
Proof.
  intros Hs. destruct (blk_words64 s Hs) as (E & W0 & W1). unfold SEED_Encrypt. cbv zeta.
  change (fold_left _ (seq 0 15) ?s) with (fold_left (sd_e K) (seq 0 15) s).
  set (p := fold_left (sd_e K) _ _). destruct p as [L R] eqn:Ep.
  destruct (sd_e_wd K (seq 0 15) (be_val (slice 0 8 s), be_val (slice 1 8 s)) W0 W1) as [WL WR].
  fold p in WL, WR. rewrite Ep in WL, WR. cbn [fst snd] in WL, WR.
  unfold SEED_Decrypt. cbv zeta. rewrite slice64_0 by (apply lxor_wd; auto; [lia|apply seed_F_wd]). rewrite slice64_1 by auto.
  rewrite lxor_cancel_r. change (fold_left _ (rev (seq 0 15)) ?s) with (fold_left (sd_d K) (rev (seq 0 15)) s).
  rewrite <- Ep. unfold p. rewrite seed_undo. exact E.
Qed.

(* ---- ARIA ---- *)
Definition aria_rows : list (list nat) :=
  [[3;4;6;8;9;13;14]; [2;5;7;8;9;12;15]; [1;4;6;10;11;12;15]; [0;5;7;10;11;13;14];
   [0;2;5;8;11;14;15]; [1;3;4;9;10;14;15]; [0;2;7;9;10;12;13]; [1;3;6;8;11;12;13];
   [0;1;4;7;10;13;15]; [0;1;5;6;11;12;14]; [2;3;5;6;8;13;15]; [2;3;4;7;9;12;14];
   [1;2;6;7;9;11;12]; [0;3;6;7;8;10;13]; [0;3;4;5;9;11;14]; [1;2;4;5;8;10;15]]%nat.
Fixpoint rowx (row : list nat) (l : list Z) : Z := match row with [] => 0 | k :: t => Z.lxor (nthZ k l) (rowx t l) end.
Lemma aria_A_rows l : aria_A l = map (fun r => rowx r l) aria_rows.
Proof.
  unfold aria_A, aria_rows. cbn [map rowx].
  change (Z.to_nat 0) with 0%nat. change (Z.to_nat 1) with 1%nat. change (Z.to_nat 2) with 2%nat. change (Z.to_nat 3) with 3%nat.
  change (Z.to_nat 4) with 4%nat. change (Z.to_nat 5) with 5%nat. change (Z.to_nat 6) with 6%nat. change (Z.to_nat 7) with 7%nat.
  change (Z.to_nat 8) with 8%nat. change (Z.to_nat 9) with 9%nat. change (Z.to_nat 10) with 10%nat. change (Z.to_nat 11) with 11%nat.
  change (Z.to_nat 12) with 12%nat. change (Z.to_nat 13) with 13%nat. change (Z.to_nat 14) with 14%nat. change (Z.to_nat 15) with 15%nat.
  rewrite !Z.lxor_0_r, !Z.lxor_assoc. reflexivity.
Qed.
Lemma rowx_app a b l : rowx (a ++ b) l = Z.lxor (rowx a l) (rowx b l).
Proof. induction a as [|k a IH]; cbn [app rowx]; [now rewrite Z.lxor_0_l|]. now rewrite IH, Z.lxor_assoc. Qed.
Lemma rowx_comp row rows l : rowx row (map (fun r => rowx r l) rows) = rowx (flat_map (fun k => nth k rows []) row) l.
Proof.
  induction row as [|k row IH]; cbn [rowx flat_map]; auto. rewrite rowx_app, <- IH. f_equal.
  unfold nthZ. change 0 with ((fun r => rowx r l) []). apply map_nth.
Qed.
Fixpoint par (k : nat) (row : list nat) : bool := match row with [] => false | j :: t => xorb (Nat.eqb j k) (par k t) end.
Definition selx (n : nat) (P : nat -> bool) (l : list Z) : Z := rowx (filter P (seq 0 n)) l.
Lemma selx_S n P l : selx (S n) P l = Z.lxor (selx n P l) (if P n then nthZ n l else 0).
Proof.
  unfold selx. rewrite seq_S, filter_app, rowx_app. f_equal. cbn [filter Nat.add]. destruct (P n); cbn [rowx]; auto. apply Z.lxor_0_r.
Qed.
Lemma selx_xor n P Q l : selx n (fun k => xorb (P k) (Q k)) l = Z.lxor (selx n P l) (selx n Q l).
Proof.
  induction n as [|n IH]; [reflexivity|]. rewrite !selx_S, IH, lxor4. f_equal.
  destruct (P n), (Q n); cbn [xorb]; now rewrite ?Z.lxor_nilpotent, ?Z.lxor_0_r, ?Z.lxor_0_l.
Qed.
Lemma selx_one n j l : selx n (Nat.eqb j) l = if (j <? n)%nat then nthZ j l else 0.
Proof.
  induction n as [|n IH]; [reflexivity|]. rewrite selx_S, IH.
  destruct (Nat.eqb_spec j n) as [->|N].
  - rewrite Nat.ltb_irrefl. destruct (Nat.ltb_spec n (S n)); [apply Z.lxor_0_l|lia].
  - rewrite Z.lxor_0_r. destruct (Nat.ltb_spec j n), (Nat.ltb_spec j (S n)); auto; lia.
Qed.
Lemma selx_ext n P Q l : (forall k, (k < n)%nat -> P k = Q k) -> selx n P l = selx n Q l.
Proof. induction n as [|n IH]; intros H; [reflexivity|]. rewrite !selx_S, IH, H by auto. reflexivity. Qed.
Lemma rowx_par n row l : Forall (fun k => (k < n)%nat) row -> rowx row l = selx n (fun k => par k row) l.
Proof.
  induction row as [|j row IH]; intros F; cbn [rowx par].
  - unfold selx. assert (E : forall m, filter (fun _ : nat => false) m = []) by (induction m; auto). now rewrite E.
  - inversion F; subst. rewrite selx_xor, selx_one. destruct (Nat.ltb_spec j n); [|lia]. now rewrite IH.
Qed.
Definition invol_ok : bool :=
  forallb (fun i => let r := flat_map (fun k => nth k aria_rows []) (nth i aria_rows []) in
    forallb (fun k => (k <? 16)%nat) r && forallb (fun k => Bool.eqb (par k r) (Nat.eqb i k)) (seq 0 16)) (seq 0 16).
Lemma aria_A_invol l : length l = 16%nat -> aria_A (aria_A l) = l.
Proof.
  intros L. rewrite (aria_A_rows l), aria_A_rows.
  assert (OK : invol_ok = true) by (vm_compute; reflexivity).
  apply list_ext; [now rewrite map_length, L|]. intros i Hi. rewrite map_length in Hi. change (length aria_rows) with 16%nat in Hi.
  unfold nthZ at 1. rewrite (nth_indep _ 0 (rowx [] (map (fun r => rowx r l) aria_rows))) by (rewrite map_length; exact Hi).
  rewrite (map_nth (fun r => rowx r (map (fun r => rowx r l) aria_rows))). rewrite rowx_comp.
  unfold invol_ok in OK. rewrite forallb_forall in OK. specialize (OK i ltac:(apply in_seq; lia)). cbv zeta in OK.
  apply andb_prop in OK as [O1 O2]. rewrite forallb_forall in O1, O2.
  rewrite (rowx_par 16).
  - rewrite (selx_ext 16 _ (Nat.eqb i)).
    + rewrite selx_one. destruct (Nat.ltb_spec i 16); [reflexivity|lia].
    + intros k Hk. apply Bool.eqb_prop. apply O2. apply in_seq. lia.
  - apply Forall_forall. intros k Hk. apply Nat.ltb_lt. now apply O1.
Qed.
Lemma nthZ_xorb i a b : length a = length b -> nthZ i (xorb_list a b) = Z.lxor (nthZ i a) (nthZ i b).
Proof.
  revert i b. induction a as [|x a IH]; intros i [|y b] H; try discriminate.
  - destruct i; reflexivity.
  - destruct i as [|i]; [reflexivity|]. unfold nthZ in *. cbn [xorb_list nth]. apply IH. now injection H.
Qed.
Lemma rowx_xorb row a b : length a = length b -> rowx row (xorb_list a b) = Z.lxor (rowx row a) (rowx row b).
Proof. intros H. induction row as [|k row IH]; cbn [rowx]; auto. rewrite nthZ_xorb, IH by auto. apply lxor4. Qed.
Lemma aria_A_xor a b : length a = length b -> aria_A (xorb_list a b) = xorb_list (aria_A a) (aria_A b).
Proof.
  intros H. rewrite !aria_A_rows. induction aria_rows as [|r rows IH]; cbn [map xorb_list]; auto.
  now rewrite rowx_xorb, IH by auto.
Qed.
Lemma rowx_byte row l : bytes_ok l -> byte_ok (rowx row l).
Proof.
  intros B. induction row as [|k row IH]; cbn [rowx]; [unfold byte_ok; lia|]. apply lxor_bound; auto; [lia|].
  unfold nthZ. destruct (Nat.lt_ge_cases k (length l)).
  - apply (proj1 (Forall_forall _ _) B). now apply nth_In.
  - rewrite nth_overflow by lia. unfold byte_ok; lia.
Qed.
Lemma aria_A_blk s : bytes_ok s -> blk (aria_A s).
Proof.
  intros B. rewrite aria_A_rows. split; [now rewrite map_length|]. apply Forall_map, Forall_forall. intros. now apply rowx_byte.
Qed.
