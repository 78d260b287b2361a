(** Lemmas about the block cipher models. *)
From Verif Require Import Base Blocks Hash HashLemmas DerLemmas CmacLemmas Cipher CipherSpec.

Definition byteat (j : nat) (w : Z) : Z := (w / 2 ^ (8 * Z.of_nat j)) mod 2 ^ 8.

Lemma byteat_ok j w : byte_ok (byteat j w).
Proof. unfold byteat, byte_ok. apply Z.mod_pos_bound. lia. Qed.
Lemma nth_le_bytes n w j : (j < n)%nat -> nthZ j (le_bytes n w) = byteat j w.
Proof. intros H. unfold le_bytes. rewrite nth_to_le by lia. reflexivity. Qed.
Lemma land_mod a b n : 0 <= n -> Z.land a b mod 2 ^ n = Z.land (a mod 2 ^ n) (b mod 2 ^ n).
Proof.
  intros Hn. rewrite <- !Z.land_ones by lia. apply Z.bits_inj'. intros k Hk. rewrite !Z.land_spec.
  destruct (Z.testbit a k), (Z.testbit b k), (Z.testbit (Z.ones n) k); reflexivity.
Qed.
Lemma lor_mod a b n : 0 <= n -> Z.lor a b mod 2 ^ n = Z.lor (a mod 2 ^ n) (b mod 2 ^ n).
Proof.
  intros Hn. rewrite <- !Z.land_ones by lia. apply Z.bits_inj'. intros k Hk. rewrite !Z.lor_spec, !Z.land_spec, Z.lor_spec.
  destruct (Z.testbit a k), (Z.testbit b k), (Z.testbit (Z.ones n) k); reflexivity.
Qed.
Lemma byteat_lxor j a b : byteat j (Z.lxor a b) = Z.lxor (byteat j a) (byteat j b).
Proof. unfold byteat. rewrite lxor_div by lia. apply lxor_mod. lia. Qed.
Lemma byteat_land j a b : byteat j (Z.land a b) = Z.land (byteat j a) (byteat j b).
Proof. unfold byteat. rewrite <- !Z.shiftr_div_pow2 by lia. rewrite Z.shiftr_land. apply land_mod. lia. Qed.
Lemma byteat_lor j a b : byteat j (Z.lor a b) = Z.lor (byteat j a) (byteat j b).
Proof. unfold byteat. rewrite <- !Z.shiftr_div_pow2 by lia. rewrite Z.shiftr_lor. apply lor_mod. lia. Qed.

Lemma testbit_byteat j w i : 0 <= i < 8 -> Z.testbit (byteat j w) i = Z.testbit w (8 * Z.of_nat j + i).
Proof.
  intros Hi. unfold byteat. rewrite Z.mod_pow2_bits_low by lia.
  rewrite <- Z.shiftr_div_pow2 by lia. rewrite Z.shiftr_spec by lia. f_equal. lia.
Qed.

(** the masked comparison *)
Definition fold3 (m : Z) : Z :=
  let m := Z.lor m (Z.shiftr m 4) in
  let m := Z.lor m (Z.shiftr m 2) in
  Z.lor m (Z.shiftr m 1).
Lemma fold3_bit m n : 0 <= n ->
  Z.testbit (fold3 m) n = (Z.testbit m n || Z.testbit m (n + 1) || Z.testbit m (n + 2) || Z.testbit m (n + 3) ||
    Z.testbit m (n + 4) || Z.testbit m (n + 5) || Z.testbit m (n + 6) || Z.testbit m (n + 7))%bool.
Proof.
  intros Hn. unfold fold3. rewrite !Z.lor_spec, !Z.shiftr_spec, !Z.lor_spec, !Z.shiftr_spec, !Z.lor_spec, !Z.shiftr_spec by lia.
  rewrite <- !Z.add_assoc. cbn [Z.add Pos.add Pos.succ].
  destruct (Z.testbit m n), (Z.testbit m (n + 1)), (Z.testbit m (n + 2)), (Z.testbit m (n + 3)),
    (Z.testbit m (n + 4)), (Z.testbit m (n + 5)), (Z.testbit m (n + 6)), (Z.testbit m (n + 7)); reflexivity.
Qed.
Lemma byte_zero_bits b : byte_ok b ->
  negb (b =? 0) = (Z.testbit b 0 || Z.testbit b 1 || Z.testbit b 2 || Z.testbit b 3 ||
    Z.testbit b 4 || Z.testbit b 5 || Z.testbit b 6 || Z.testbit b 7)%bool.
Proof.
  intros Hb. unfold byte_ok in Hb. change (2 ^ 8) with 256 in Hb. destruct (Z.eqb_spec b 0) as [->|N]; [reflexivity|].
  cbn [negb]. symmetry. apply Bool.not_false_is_true. intros E. apply N.
  rewrite !Bool.orb_false_iff in E. apply Z.bits_inj'. intros n Hn. rewrite Z.bits_0.
  destruct (Z.lt_ge_cases n 8) as [G|G].
  - assert (n = 0 \/ n = 1 \/ n = 2 \/ n = 3 \/ n = 4 \/ n = 5 \/ n = 6 \/ n = 7) as C by lia.
    repeat destruct C as [->|C]; try subst n; tauto.
  - rewrite <- (Z.mod_small b (2 ^ 8)) by lia. apply Z.mod_pow2_bits_high. lia.
Qed.
Definition bz (j : nat) (m : Z) : Z := if byteat j m =? 0 then 0 else 1.
Lemma land01_bytes m j : (j < 4)%nat -> byteat j (Z.land (fold3 m) 0x01010101) = bz j m.
Proof.
  intros Hj. rewrite byteat_land.
  replace (byteat j 0x01010101) with (Z.ones 1) by (destruct j as [|[|[|[|]]]]; [reflexivity..|lia]).
  rewrite Z.land_ones by lia. change (2 ^ 1) with 2. rewrite <- Z.bit0_mod.
  rewrite testbit_byteat by lia. rewrite fold3_bit by lia.
  unfold bz. pose proof (byte_zero_bits _ (byteat_ok j m)) as E. rewrite !testbit_byteat in E by lia.
  rewrite Z.add_0_r in *. rewrite <- E. now destruct (_ =? 0).
Qed.
Lemma word_bytes v : 0 <= v < 2 ^ 32 ->
  v = byteat 0 v + 2 ^ 8 * byteat 1 v + 2 ^ 16 * byteat 2 v + 2 ^ 24 * byteat 3 v.
Proof.
  intros H. unfold byteat. change (8 * Z.of_nat 0) with 0. change (8 * Z.of_nat 1) with 8.
  change (8 * Z.of_nat 2) with 16. change (8 * Z.of_nat 3) with 24. change (2 ^ 0) with 1.
  change (2 ^ 32) with 4294967296 in H. change (2 ^ 8) with 256. change (2 ^ 16) with 65536. change (2 ^ 24) with 16777216.
  Z.div_mod_to_equations. lia.
Qed.
Lemma land_range a b n : 0 <= n -> 0 <= b < 2 ^ n -> 0 <= Z.land a b < 2 ^ n.
Proof.
  intros Hn Hb. rewrite Z.land_comm. destruct (Z.eq_dec (Z.land b a) 0) as [->|N]; [lia|].
  assert (0 <= Z.land b a) by (apply Z.land_nonneg; lia). split; [lia|].
  rewrite <- (Z.mod_small b (2 ^ n)) by lia. rewrite <- Z.land_ones by lia.
  rewrite <- Z.land_assoc, (Z.land_comm (Z.ones n)), Z.land_assoc, Z.land_ones by lia. apply Z.mod_pos_bound. lia.
Qed.
Lemma wmask_byte m j : (j < 4)%nat -> byteat j (wmask m) = if byteat j m =? 0 then 255 else 0.
Proof.
  intros Hj. unfold wmask. fold (fold3 m). cbv zeta.
  change (Z.lor (Z.lor (Z.lor m (Z.shiftr m 4)) (Z.shiftr (Z.lor m (Z.shiftr m 4)) 2))
     (Z.shiftr (Z.lor (Z.lor m (Z.shiftr m 4)) (Z.shiftr (Z.lor m (Z.shiftr m 4)) 2)) 1)) with (fold3 m).
  set (v := Z.land (fold3 m) 0x01010101).
  assert (Hv : 0 <= v < 2 ^ 32) by (apply land_range; lia).
  rewrite (word_bytes v Hv). unfold v. rewrite !land01_bytes by lia. unfold bz.
  destruct j as [|[|[|[|]]]]; [| | | |lia];
  destruct (byteat 0 m =? 0), (byteat 1 m =? 0), (byteat 2 m =? 0), (byteat 3 m =? 0); reflexivity.
Qed.
Lemma wmask_range m : 0 <= wmask m < 2 ^ 32.
Proof. unfold wmask, u32. cbv zeta. match goal with |- context [?a mod ?b] => pose proof (Z.mod_pos_bound a b ltac:(lia)) end. lia. Qed.

(** table look-up, one octet at a time *)
Definition lk (l1 l2 : list Z) (x : Z) : Z :=
  fold_left (fun r e => if snd e =? x then Z.lor r (fst e) else r) (combine l1 l2) 0.
Definition outs (j : nat) (tab : list (Z * Z)) : list Z := map (fun e => byteat j (fst e)) tab.
Definition ins (j : nat) (tab : list (Z * Z)) : list Z := map (fun e => byteat j (snd e)) tab.

Lemma lxor_byte_0 a b : byte_ok a -> byte_ok b -> (Z.lxor a b =? 0) = (a =? b).
Proof.
  intros _ _. destruct (Z.eqb_spec a b) as [->|N]; [now rewrite Z.lxor_nilpotent|].
  apply Z.eqb_neq. intros E. apply N. now apply Z.lxor_eq.
Qed.
Lemma land_255 b : byte_ok b -> Z.land b 255 = b.
Proof. intros H. change 255 with (Z.ones 8). rewrite Z.land_ones by lia. apply Z.mod_small. exact H. Qed.

Lemma wsbox_byte w tab j : (j < 4)%nat -> byteat j (wsbox w tab) = lk (outs j tab) (ins j tab) (byteat j w).
Proof.
  intros Hj. unfold wsbox, lk, outs, ins.
  assert (G : forall r r', byteat j r = r' ->
    byteat j (fold_left (fun ret e => Z.lor ret (Z.land (fst e) (wmask (Z.lxor (snd e) w)))) tab r) =
    fold_left (fun r e => if snd e =? byteat j w then Z.lor r (fst e) else r)
      (combine (map (fun e => byteat j (fst e)) tab) (map (fun e => byteat j (snd e)) tab)) r').
  { induction tab as [|e tab IH]; intros r r' E; cbn [fold_left map combine]; [exact E|].
    apply IH. rewrite byteat_lor, byteat_land, wmask_byte, byteat_lxor by auto.
    rewrite lxor_byte_0 by apply byteat_ok. cbn [fst snd]. rewrite E.
    destruct (_ =? _); [now rewrite land_255 by apply byteat_ok|]. now rewrite Z.land_0_r, Z.lor_0_r. }
  apply G. destruct j as [|[|[|[|]]]]; reflexivity.
Qed.
Lemma lor_range a b n : 0 <= n -> 0 <= a < 2 ^ n -> 0 <= b < 2 ^ n -> 0 <= Z.lor a b < 2 ^ n.
Proof. intros Hn Ha Hb. apply (lor_wd n a b); auto. Qed.
Lemma wsbox_range w tab : 0 <= wsbox w tab < 2 ^ 32.
Proof.
  unfold wsbox. assert (G : forall r, 0 <= r < 2 ^ 32 ->
    0 <= fold_left (fun ret e => Z.lor ret (Z.land (fst e) (wmask (Z.lxor (snd e) w)))) tab r < 2 ^ 32).
  { induction tab as [|e tab IH]; intros r Hr; cbn [fold_left]; auto. apply IH. apply lor_range; auto; [lia|].
    apply land_range; [lia|apply wmask_range]. }
  apply G. lia.
Qed.
Lemma invwsbox_swap w tab : invwsbox w tab = wsbox w (map (fun e => (snd e, fst e)) tab).
Proof.
  unfold invwsbox, wsbox. generalize 0. induction tab as [|e tab IH]; intros r; cbn [fold_left map]; auto.
Qed.
Lemma outs_swap j tab : outs j (map (fun e => (snd e, fst e)) tab) = ins j tab.
Proof. unfold outs, ins. rewrite map_map. reflexivity. Qed.
Lemma ins_swap j tab : ins j (map (fun e => (snd e, fst e)) tab) = outs j tab.
Proof. unfold outs, ins. rewrite map_map. reflexivity. Qed.

Lemma lk_nth l1 l2 i : NoDup l2 -> length l1 = length l2 -> (i < length l2)%nat -> lk l1 l2 (nthZ i l2) = nthZ i l1.
Proof.
  unfold lk. assert (S : forall a b x r, ~ In x b -> fold_left (fun r e => if snd e =? x then Z.lor r (fst e) else r) (combine a b) r = r).
  { induction a as [|u a IH]; intros [|v b] x r N; cbn [combine fold_left snd fst]; auto.
    destruct (Z.eqb_spec v x) as [->|]; [exfalso; apply N; now left|]. apply IH. intros I. apply N. now right. }
  revert l2 i. induction l1 as [|u l1 IH]; intros [|v l2] i ND L Hi; cbn [length] in *; try lia.
  inversion ND as [|? ? NI ND']; subst. destruct i as [|i]; cbn [combine fold_left snd fst].
  - unfold nthZ. cbn [nth]. rewrite Z.eqb_refl. rewrite S by auto. apply Z.lor_0_l.
  - unfold nthZ. cbn [nth]. destruct (Z.eqb_spec v (nth i l2 0)) as [E|E].
    + exfalso. apply NI. rewrite E. apply nth_In. lia.
    + apply IH; auto. lia.
Qed.
(** octets 0 .. 255 in order *)
Definition idx : list Z := map Z.of_nat (seq 0 256).
Definition perm256 (l : list Z) : Prop := length l = 256%nat /\ NoDup l /\ bytes_ok l.
Fixpoint nodupb (l : list Z) : bool := match l with [] => true | x :: l => negb (existsb (Z.eqb x) l) && nodupb l end.
Lemma nodupb_ok l : nodupb l = true -> NoDup l.
Proof.
  induction l as [|x l IH]; cbn [nodupb]; intros H; [constructor|]. apply andb_prop in H as [H1 H2]. constructor; auto.
  intros I. apply Bool.negb_true_iff in H1. rewrite <- Bool.not_true_iff_false in H1. apply H1. apply existsb_exists.
  exists x. split; [auto|apply Z.eqb_refl].
Qed.
Definition perm256b (l : list Z) : bool := (length l =? 256)%nat && nodupb l && forallb (fun b => (0 <=? b) && (b <? 256)) l.
Lemma perm256b_ok l : perm256b l = true -> perm256 l.
Proof.
  unfold perm256b. intros H. apply andb_prop in H as [H H3]. apply andb_prop in H as [H1 H2].
  split; [now apply Nat.eqb_eq|]. split; [now apply nodupb_ok|]. rewrite forallb_forall in H3. apply Forall_forall.
  intros b Hb. specialize (H3 b Hb). unfold byte_ok. lia.
Qed.
Lemma idx_nth i : (i < 256)%nat -> nthZ i idx = Z.of_nat i.
Proof. intros H. unfold idx, nthZ. rewrite (nth_indep _ 0 (Z.of_nat 0)) by (rewrite map_length, seq_length; lia). rewrite map_nth, seq_nth by lia. reflexivity. Qed.
Lemma perm256_in l x : perm256 l -> byte_ok x -> exists i, (i < 256)%nat /\ nthZ i l = x.
Proof.
  intros (L & ND & B) Hx. assert (I : In x l).
  { apply (NoDup_length_incl (l' := idx) ND).
    - unfold idx. rewrite map_length, seq_length. lia.
    - intros b Hb. pose proof (proj1 (Forall_forall _ _) B b Hb) as B'. unfold byte_ok in B'. change (2 ^ 8) with 256 in B'.
      apply in_map_iff. exists (Z.to_nat b). split; [lia|]. apply in_seq. lia.
    - unfold byte_ok in Hx. change (2 ^ 8) with 256 in Hx.
      apply in_map_iff. exists (Z.to_nat x). split; [lia|]. apply in_seq. lia. }
  destruct (In_nth l x 0 I) as (i & Hi & E). exists i. split; [lia|exact E].
Qed.
Lemma lk_inv l1 l2 x : perm256 l1 -> perm256 l2 -> byte_ok x -> lk l2 l1 (lk l1 l2 x) = x /\ byte_ok (lk l1 l2 x).
Proof.
  intros P1 P2 Hx. destruct (perm256_in l2 x P2 Hx) as (i & Hi & <-).
  destruct P1 as (L1 & N1 & B1), P2 as (L2 & N2 & B2).
  rewrite (lk_nth l1 l2) by (auto; lia). split; [apply lk_nth; auto; lia|]. now apply nthZ_bytes.
Qed.
Lemma lk_idx l x : length l = 256%nat -> byte_ok x -> lk l idx x = nthZ (Z.to_nat x) l.
Proof.
  intros L Hx. unfold byte_ok in Hx. change (2 ^ 8) with 256 in Hx.
  replace x with (nthZ (Z.to_nat x) idx) at 1 by (rewrite idx_nth; lia).
  apply lk_nth; [apply nodupb_ok; vm_compute; reflexivity|rewrite L; reflexivity|change (length idx) with 256%nat; lia].
Qed.

(* ---- words and blocks ---- *)
Definition blk (s : list Z) : Prop := length s = 16%nat /\ bytes_ok s.

Lemma le_bytes_4 v : le_bytes 4 v = [byteat 0 v; byteat 1 v; byteat 2 v; byteat 3 v].
Proof.
  apply list_ext; [reflexivity|]. intros i Hi. rewrite le_bytes_length in Hi. rewrite nth_le_bytes by lia.
  destruct i as [|[|[|[|]]]]; try reflexivity. lia.
Qed.
Lemma be_bytes_4 v : be_bytes 4 v = [byteat 3 v; byteat 2 v; byteat 1 v; byteat 0 v].
Proof. unfold be_bytes. change (to_le 8 4 v) with (le_bytes 4 v). rewrite le_bytes_4. reflexivity. Qed.
Lemma byteat_le4 a b c d : byte_ok a -> byte_ok b -> byte_ok c -> byte_ok d ->
  let v := le_val [a; b; c; d] in byteat 0 v = a /\ byteat 1 v = b /\ byteat 2 v = c /\ byteat 3 v = d.
Proof.
  intros A B C D v. assert (E : le_bytes 4 v = [a; b; c; d]).
  { apply (le_bytes_le_val [a; b; c; d]). repeat (constructor; auto). }
  rewrite le_bytes_4 in E. injection E. auto.
Qed.
Lemma word_le_act f g0 g1 g2 g3 a b c d : byte_ok a -> byte_ok b -> byte_ok c -> byte_ok d ->
  (forall w, byteat 0 (f w) = g0 (byteat 0 w)) -> (forall w, byteat 1 (f w) = g1 (byteat 1 w)) ->
  (forall w, byteat 2 (f w) = g2 (byteat 2 w)) -> (forall w, byteat 3 (f w) = g3 (byteat 3 w)) ->
  le_bytes 4 (f (le_val [a; b; c; d])) = [g0 a; g1 b; g2 c; g3 d].
Proof.
  intros A B C D F0 F1 F2 F3. rewrite le_bytes_4, F0, F1, F2, F3.
  destruct (byteat_le4 a b c d A B C D) as (-> & -> & -> & ->). reflexivity.
Qed.
Lemma word_be_act f g0 g1 g2 g3 a b c d : byte_ok a -> byte_ok b -> byte_ok c -> byte_ok d ->
  (forall w, byteat 0 (f w) = g0 (byteat 0 w)) -> (forall w, byteat 1 (f w) = g1 (byteat 1 w)) ->
  (forall w, byteat 2 (f w) = g2 (byteat 2 w)) -> (forall w, byteat 3 (f w) = g3 (byteat 3 w)) ->
  be_bytes 4 (f (be_val [a; b; c; d])) = [g3 a; g2 b; g1 c; g0 d].
Proof.
  intros A B C D F0 F1 F2 F3. rewrite be_bytes_4, F0, F1, F2, F3.
  change (be_val [a; b; c; d]) with (le_val [d; c; b; a]).
  destruct (byteat_le4 d c b a D C B A) as (-> & -> & -> & ->). reflexivity.
Qed.

Ltac list16 s H :=
  let L := fresh "L" in let B := fresh "B" in destruct H as [L B];
  do 16 (let x := fresh "s" in destruct s as [|x s]; [discriminate L|]);
  destruct s; [|discriminate L]; clear L;
  unfold bytes_ok in B; rewrite !Forall_cons_iff in B;
  repeat match goal with H : _ /\ _ |- _ => destruct H end.

Definition sub_byte (tab : list (Z * Z)) (x : Z) : Z := lk (outs 0 tab) (ins 0 tab) x.

Lemma sub_words_map f g s : blk s -> (forall j w, (j < 4)%nat -> byteat j (f w) = g (byteat j w)) ->
  sub_words f s = map g s.
Proof.
  intros Hs HF. list16 s Hs. unfold sub_words, slice. cbn [flat_map seq Nat.mul Nat.add skipn firstn].
  assert (F0 : forall w, byteat 0 (f w) = g (byteat 0 w)) by (intros; apply HF; lia).
  assert (F1 : forall w, byteat 1 (f w) = g (byteat 1 w)) by (intros; apply HF; lia).
  assert (F2 : forall w, byteat 2 (f w) = g (byteat 2 w)) by (intros; apply HF; lia).
  assert (F3 : forall w, byteat 3 (f w) = g (byteat 3 w)) by (intros; apply HF; lia).
  rewrite !(word_le_act f g g g g) by auto. reflexivity.
Qed.

(* ---- AES ---- *)
Lemma aes_outs j : (j < 4)%nat -> outs j aes_table = aes_sbox.
Proof. intros H. destruct j as [|[|[|[|]]]]; [vm_compute; reflexivity..|lia]. Qed.
Lemma aes_ins j : (j < 4)%nat -> ins j aes_table = idx.
Proof. intros H. destruct j as [|[|[|[|]]]]; [vm_compute; reflexivity..|lia]. Qed.
Lemma aes_perm : perm256 aes_sbox.
Proof. apply perm256b_ok. vm_compute. reflexivity. Qed.
Lemma idx_perm : perm256 idx.
Proof. apply perm256b_ok. vm_compute. reflexivity. Qed.
Definition aes_S (x : Z) : Z := lk aes_sbox idx x.
Definition aes_Si (x : Z) : Z := lk idx aes_sbox x.
Lemma aes_S_inv x : byte_ok x -> aes_Si (aes_S x) = x /\ byte_ok (aes_S x).
Proof. apply lk_inv; [apply aes_perm|apply idx_perm]. Qed.
Lemma aes_Si_inv x : byte_ok x -> aes_S (aes_Si x) = x /\ byte_ok (aes_Si x).
Proof. apply lk_inv; [apply idx_perm|apply aes_perm]. Qed.
Lemma aes_wsbox j w : (j < 4)%nat -> byteat j (wsbox w aes_table) = aes_S (byteat j w).
Proof. intros H. unfold aes_S. rewrite wsbox_byte, aes_outs, aes_ins by auto. exact eq_refl. Qed.
Lemma aes_invwsbox j w : (j < 4)%nat -> byteat j (invwsbox w aes_table) = aes_Si (byteat j w).
Proof. intros H. unfold aes_Si. rewrite invwsbox_swap, wsbox_byte, outs_swap, ins_swap, aes_outs, aes_ins by auto. exact eq_refl. Qed.
Global Opaque aes_S aes_Si.
Lemma SubBytes_map s : blk s -> SubBytes s = map aes_S s.
Proof. intros H. unfold SubBytes. apply sub_words_map; auto. intros. now apply aes_wsbox. Qed.
Lemma InvSubBytes_map s : blk s -> InvSubBytes s = map aes_Si s.
Proof. intros H. unfold InvSubBytes. apply sub_words_map; auto. intros. now apply aes_invwsbox. Qed.
Lemma blk_map g s : (forall x, byte_ok x -> byte_ok (g x)) -> blk s -> blk (map g s).
Proof. intros G [L B]. split; [now rewrite map_length|]. apply Forall_map. eapply Forall_impl; [|exact B]. auto. Qed.
Lemma SubBytes_blk s : blk s -> blk (SubBytes s).
Proof. intros H. rewrite SubBytes_map by auto. apply blk_map; auto. intros. now apply aes_S_inv. Qed.
Lemma InvSubBytes_blk s : blk s -> blk (InvSubBytes s).
Proof. intros H. rewrite InvSubBytes_map by auto. apply blk_map; auto. intros. now apply aes_Si_inv. Qed.
Lemma InvSub_Sub s : blk s -> InvSubBytes (SubBytes s) = s.
Proof.
  intros H. rewrite InvSubBytes_map by now apply SubBytes_blk. rewrite SubBytes_map, map_map by auto.
  rewrite <- (map_id s) at 2. apply map_ext_in. intros x Hx. apply aes_S_inv. destruct H as [_ B].
  apply (proj1 (Forall_forall _ _) B x Hx).
Qed.
Lemma Sub_InvSub s : blk s -> SubBytes (InvSubBytes s) = s.
Proof.
  intros H. rewrite SubBytes_map by now apply InvSubBytes_blk. rewrite InvSubBytes_map, map_map by auto.
  rewrite <- (map_id s) at 2. apply map_ext_in. intros x Hx. apply aes_Si_inv. destruct H as [_ B].
  apply (proj1 (Forall_forall _ _) B x Hx).
Qed.
Lemma ShiftRows_build s : length s = 16%nat -> ShiftRows s = fips_ShiftRows s.
Proof. intros L. do 16 (destruct s as [|? s]; [discriminate L|]). destruct s; [|discriminate L]. reflexivity. Qed.
Lemma InvShift_Shift s : length s = 16%nat -> InvShiftRows (ShiftRows s) = s.
Proof. intros L. do 16 (destruct s as [|? s]; [discriminate L|]). destruct s; [|discriminate L]. reflexivity. Qed.
Lemma Shift_InvShift s : length s = 16%nat -> ShiftRows (InvShiftRows s) = s.
Proof. intros L. do 16 (destruct s as [|? s]; [discriminate L|]). destruct s; [|discriminate L]. reflexivity. Qed.
Lemma Shift_blk s : blk s -> blk (ShiftRows s).
Proof.
  intros H. list16 s H. split; [reflexivity|].
  cbv [ShiftRows gets puts upd nthZ nth Nat.add Nat.mul]. repeat (constructor; [assumption|]). constructor.
Qed.
Lemma InvShift_blk s : blk s -> blk (InvShiftRows s).
Proof.
  intros H. list16 s H. split; [reflexivity|].
  cbv [InvShiftRows gets puts upd nthZ nth Nat.add Nat.mul]. repeat (constructor; [assumption|]). constructor.
Qed.

(** GF(2^8): linearity of xtime and gmul in the first operand *)
Lemma xtime_simpl x : byte_ok x -> xtime x = Z.lxor (u8 (2 * x)) (if 128 <=? x then 27 else 0).
Proof.
  intros H. assert (G : forallb (fun x => xtime x =? Z.lxor (u8 (2 * x)) (if 128 <=? x then 27 else 0)) idx = true)
    by (vm_compute; reflexivity).
  rewrite forallb_forall in G. apply Z.eqb_eq, G. unfold byte_ok in H. change (2 ^ 8) with 256 in H.
  apply in_map_iff. exists (Z.to_nat x). split; [lia|]. apply in_seq. lia.
Qed.
Lemma xtime_ok x : byte_ok (xtime x).
Proof. unfold xtime, u8, byte_ok. apply Z.mod_pos_bound. lia. Qed.
Lemma xtime_xor x y : byte_ok x -> byte_ok y -> xtime (Z.lxor x y) = Z.lxor (xtime x) (xtime y).
Proof.
  intros Hx Hy. assert (Hz : byte_ok (Z.lxor x y)) by (apply lxor_bound; auto; lia).
  rewrite !xtime_simpl by auto.
  assert (T : forall z, byte_ok z -> (128 <=? z) = Z.testbit z 7).
  { intros z Hz'. unfold byte_ok in Hz'. change (2 ^ 8) with 256 in *. rewrite Z.testbit_odd, Z.shiftr_div_pow2 by lia. change (2 ^ 7) with 128.
    destruct (Z.leb_spec 128 z).
    - replace (z / 128) with 1; [reflexivity|]. apply (Z.div_unique z 128 1 (z - 128)); lia.
    - rewrite Z.div_small by lia. reflexivity. }
  rewrite !T by auto. rewrite Z.lxor_spec.
  assert (D : u8 (2 * Z.lxor x y) = Z.lxor (u8 (2 * x)) (u8 (2 * y))).
  { unfold u8. rewrite <- lxor_mod by lia. f_equal. rewrite !(Z.mul_comm 2). change 2 with (2 ^ 1).
    rewrite <- !Z.shiftl_mul_pow2 by lia. apply Z.shiftl_lxor. }
  rewrite D. set (p := u8 (2 * x)). set (q := u8 (2 * y)).
  destruct (Z.testbit x 7), (Z.testbit y 7); cbn [xorb]; rewrite ?Z.lxor_0_r.
  - rewrite Z.lxor_assoc. rewrite (Z.lxor_comm 27 (Z.lxor q 27)), (Z.lxor_assoc q 27 27), Z.lxor_nilpotent, Z.lxor_0_r. reflexivity.
  - rewrite Z.lxor_assoc, (Z.lxor_comm q 27), <- Z.lxor_assoc. reflexivity.
  - now rewrite Z.lxor_assoc.
  - reflexivity.
Qed.
Lemma lxor4 a b c d : Z.lxor (Z.lxor a b) (Z.lxor c d) = Z.lxor (Z.lxor a c) (Z.lxor b d).
Proof. rewrite !Z.lxor_assoc. f_equal. rewrite <- !Z.lxor_assoc. now rewrite (Z.lxor_comm b c). Qed.
Lemma gmul_xor x y c : byte_ok x -> byte_ok y -> gmul (Z.lxor x y) c = Z.lxor (gmul x c) (gmul y c).
Proof.
  intros Hx Hy. unfold gmul.
  assert (G : forall l a b p q, byte_ok a -> byte_ok b ->
    snd (fold_left (fun '(a, x) i => (xtime a, if Z.testbit c (Z.of_nat i) then Z.lxor x a else x)) l (Z.lxor a b, Z.lxor p q)) =
    Z.lxor (snd (fold_left (fun '(a, x) i => (xtime a, if Z.testbit c (Z.of_nat i) then Z.lxor x a else x)) l (a, p)))
           (snd (fold_left (fun '(a, x) i => (xtime a, if Z.testbit c (Z.of_nat i) then Z.lxor x a else x)) l (b, q)))).
  { induction l as [|i l IH]; intros a b p q Ha Hb; cbn [fold_left]; [reflexivity|].
    rewrite xtime_xor by auto. destruct (Z.testbit c (Z.of_nat i)).
    - rewrite lxor4. apply IH; apply xtime_ok.
    - apply IH; apply xtime_ok. }
  now rewrite <- G by auto.
Qed.
Lemma gmul_ok x c : byte_ok x -> byte_ok (gmul x c).
Proof.
  intros Hx. unfold gmul.
  assert (G : forall l a p, byte_ok a -> byte_ok p ->
    byte_ok (snd (fold_left (fun '(a, x) i => (xtime a, if Z.testbit c (Z.of_nat i) then Z.lxor x a else x)) l (a, p)))).
  { induction l as [|i l IH]; intros a p Ha Hp; cbn [fold_left]; [exact Hp|]. apply IH; [apply xtime_ok|].
    destruct (Z.testbit c (Z.of_nat i)); auto. apply lxor_bound; auto; lia. }
  apply G; auto. unfold byte_ok; lia.
Qed.
Lemma all_bytes (P : Z -> bool) : forallb P idx = true -> forall x, byte_ok x -> P x = true.
Proof.
  intros G x H. rewrite forallb_forall in G. apply G. unfold byte_ok in H. change (2 ^ 8) with 256 in H.
  apply in_map_iff. exists (Z.to_nat x). split; [lia|]. apply in_seq. lia.
Qed.

(** one column through both matrices *)
Definition mixcol (a : list Z) (s0 s1 s2 s3 : Z) (r : nat) : Z :=
  fold_left (fun acc i => Z.lxor acc (gmul (nthZ i [s0; s1; s2; s3]) (nthZ (Nat.modulo (i + 7 - r) 4) a))) (seq 0 4) 0.
Definition mixes (a : list Z) (s0 s1 s2 s3 : Z) : list Z := map (mixcol a s0 s1 s2 s3) (seq 0 4).
Lemma mix_cols a s0 s1 s2 s3 s4 s5 s6 s7 s8 s9 s10 s11 s12 s13 s14 s15 :
  mix_with a [s0; s1; s2; s3; s4; s5; s6; s7; s8; s9; s10; s11; s12; s13; s14; s15] =
  mixes a s0 s1 s2 s3 ++ mixes a s4 s5 s6 s7 ++ mixes a s8 s9 s10 s11 ++ mixes a s12 s13 s14 s15.
Proof. reflexivity. Qed.
Lemma lxor_0_l' x : Z.lxor 0 x = x. Proof. apply Z.lxor_0_l. Qed.

Definition enc_a : list Z := [0x03; 0x01; 0x01; 0x02].
Definition dec_a : list Z := [0x0b; 0x0d; 0x09; 0x0e].
(** row r of (dec * enc) applied to a single octet x placed at position k *)
Definition prod_entry (a b : list Z) (r k : nat) (x : Z) : Z :=
  fold_left (fun acc i => Z.lxor acc (gmul (gmul x (nthZ (Nat.modulo (k + 7 - i) 4) a)) (nthZ (Nat.modulo (i + 7 - r) 4) b))) (seq 0 4) 0.
Definition prod_ok (a b : list Z) : bool :=
  forallb (fun r => forallb (fun k => forallb (fun x => prod_entry a b r k x =? (if Nat.eqb r k then x else 0)) idx) (seq 0 4)) (seq 0 4).
Lemma prod_enc_dec : prod_ok enc_a dec_a = true. Proof. vm_compute. reflexivity. Qed.
Lemma prod_dec_enc : prod_ok dec_a enc_a = true. Proof. vm_compute. reflexivity. Qed.
Lemma prod_ok_entry a b r k x : prod_ok a b = true -> (r < 4)%nat -> (k < 4)%nat -> byte_ok x ->
  prod_entry a b r k x = if Nat.eqb r k then x else 0.
Proof.
  intros P Hr Hk Hx. unfold prod_ok in P. rewrite forallb_forall in P. specialize (P r ltac:(apply in_seq; lia)).
  rewrite forallb_forall in P. specialize (P k ltac:(apply in_seq; lia)).
  apply Z.eqb_eq. exact (all_bytes _ P x Hx).
Qed.
Lemma mixcol_ok a s0 s1 s2 s3 r : byte_ok s0 -> byte_ok s1 -> byte_ok s2 -> byte_ok s3 -> byte_ok (mixcol a s0 s1 s2 s3 r).
Proof.
  intros. unfold mixcol. cbn [fold_left seq]. cbn [nthZ nth].
  repeat (apply lxor_bound; [lia| |apply gmul_ok; assumption]). unfold byte_ok; lia.
Qed.
Definition S4 (a b c d : Z) : Z := Z.lxor (Z.lxor (Z.lxor a b) c) d.
Lemma S4_lxor a b c d a' b' c' d' :
  S4 (Z.lxor a a') (Z.lxor b b') (Z.lxor c c') (Z.lxor d d') = Z.lxor (S4 a b c d) (S4 a' b' c' d').
Proof. unfold S4. rewrite (lxor4 a a' b b'), (lxor4 _ _ c c'), (lxor4 _ _ d d'). reflexivity. Qed.
Lemma S4_exch a0 a1 a2 a3 b0 b1 b2 b3 c0 c1 c2 c3 d0 d1 d2 d3 :
  S4 (S4 a0 b0 c0 d0) (S4 a1 b1 c1 d1) (S4 a2 b2 c2 d2) (S4 a3 b3 c3 d3) =
  S4 (S4 a0 a1 a2 a3) (S4 b0 b1 b2 b3) (S4 c0 c1 c2 c3) (S4 d0 d1 d2 d3).
Proof.
  unfold S4 at 2 3 4 5. rewrite !S4_lxor. unfold S4 at 5. reflexivity.
Qed.
Lemma mixcol_S4 a s0 s1 s2 s3 r : mixcol a s0 s1 s2 s3 r =
  S4 (gmul s0 (nthZ (Nat.modulo (0 + 7 - r) 4) a)) (gmul s1 (nthZ (Nat.modulo (1 + 7 - r) 4) a))
     (gmul s2 (nthZ (Nat.modulo (2 + 7 - r) 4) a)) (gmul s3 (nthZ (Nat.modulo (3 + 7 - r) 4) a)).
Proof. unfold mixcol, S4. cbn [fold_left seq]. cbn [nthZ nth]. now rewrite Z.lxor_0_l. Qed.
Lemma prod_S4 a b r k x : prod_entry a b r k x =
  S4 (gmul (gmul x (nthZ (Nat.modulo (k + 7 - 0) 4) a)) (nthZ (Nat.modulo (0 + 7 - r) 4) b))
     (gmul (gmul x (nthZ (Nat.modulo (k + 7 - 1) 4) a)) (nthZ (Nat.modulo (1 + 7 - r) 4) b))
     (gmul (gmul x (nthZ (Nat.modulo (k + 7 - 2) 4) a)) (nthZ (Nat.modulo (2 + 7 - r) 4) b))
     (gmul (gmul x (nthZ (Nat.modulo (k + 7 - 3) 4) a)) (nthZ (Nat.modulo (3 + 7 - r) 4) b)).
Proof. unfold prod_entry, S4. cbn [fold_left seq]. now rewrite Z.lxor_0_l. Qed.
Lemma gmul_S4 a b c d k : byte_ok a -> byte_ok b -> byte_ok c -> byte_ok d ->
  gmul (S4 a b c d) k = S4 (gmul a k) (gmul b k) (gmul c k) (gmul d k).
Proof.
  intros. assert (L : forall x y, byte_ok x -> byte_ok y -> byte_ok (Z.lxor x y)) by (intros; apply lxor_bound; auto; lia).
  unfold S4. rewrite !gmul_xor by auto. reflexivity.
Qed.
Lemma mixcol_inv a b s0 s1 s2 s3 r : prod_ok a b = true -> (r < 4)%nat ->
  byte_ok s0 -> byte_ok s1 -> byte_ok s2 -> byte_ok s3 ->
  mixcol b (mixcol a s0 s1 s2 s3 0) (mixcol a s0 s1 s2 s3 1) (mixcol a s0 s1 s2 s3 2) (mixcol a s0 s1 s2 s3 3) r = nthZ r [s0; s1; s2; s3].
Proof.
  intros P Hr H0 H1 H2 H3. rewrite mixcol_S4, !(mixcol_S4 a). rewrite !gmul_S4 by (apply gmul_ok; assumption).
  rewrite S4_exch. rewrite <- (prod_S4 a b r 0 s0), <- (prod_S4 a b r 1 s1), <- (prod_S4 a b r 2 s2), <- (prod_S4 a b r 3 s3).
  rewrite !prod_ok_entry by (auto; lia). unfold S4.
  destruct r as [|[|[|[|]]]]; [| | | |lia]; cbn [Nat.eqb nthZ nth]; rewrite ?Z.lxor_0_r, ?Z.lxor_0_l; reflexivity.
Qed.
Lemma mixes_inv a b s0 s1 s2 s3 : prod_ok a b = true ->
  byte_ok s0 -> byte_ok s1 -> byte_ok s2 -> byte_ok s3 ->
  mixes b (mixcol a s0 s1 s2 s3 0) (mixcol a s0 s1 s2 s3 1) (mixcol a s0 s1 s2 s3 2) (mixcol a s0 s1 s2 s3 3) = [s0; s1; s2; s3].
Proof. intros. unfold mixes. cbn [map seq]. rewrite !mixcol_inv by (auto; lia). reflexivity. Qed.
Lemma mix_inv a b s : prod_ok a b = true -> blk s -> mix_with b (mix_with a s) = s.
Proof.
  intros P H. list16 s H. rewrite mix_cols. unfold mixes at 1 2 3 4. cbn [map seq app]. rewrite mix_cols.
  rewrite !mixes_inv by auto. reflexivity.
Qed.
Lemma mix_blk a s : blk s -> blk (mix_with a s).
Proof.
  intros H. list16 s H. rewrite mix_cols. split; [reflexivity|]. unfold mixes. cbn [map seq app].
  repeat (constructor; [apply mixcol_ok; assumption|]). constructor.
Qed.
Lemma slice_length i n l : ((i + 1) * n <= length l)%nat -> length (slice i n l) = n.
Proof. intros H. unfold slice. rewrite firstn_length, skipn_length. nia. Qed.
Lemma slice_bytes i n l : bytes_ok l -> bytes_ok (slice i n l).
Proof. intros H. apply Forall_firstn, Forall_skipn, H. Qed.
Definition keyed (Nr : nat) (w : list Z) : Prop := length w = (16 * (Nr + 1))%nat /\ bytes_ok w.
Lemma slice_key Nr w i : keyed Nr w -> (i <= Nr)%nat -> blk (slice i 16 w).
Proof. intros [L B] H. split; [apply slice_length; lia|now apply slice_bytes]. Qed.
Lemma ark_blk Nr w s i : keyed Nr w -> (i <= Nr)%nat -> blk s -> blk (AddRoundKey s w i).
Proof.
  intros K H [L B]. destruct (slice_key Nr w i K H) as [L2 B2]. unfold AddRoundKey.
  split; [rewrite xorb_list_length; lia|now apply xorb_list_ok].
Qed.
Lemma ark_inv Nr w s i : keyed Nr w -> (i <= Nr)%nat -> blk s -> AddRoundKey (AddRoundKey s w i) w i = s.
Proof.
  intros K H [L B]. destruct (slice_key Nr w i K H) as [L2 B2]. unfold AddRoundKey. apply xorb_list_cancel. lia.
Qed.

Section Aes.
  Variables (Nr : nat) (w : list Z).
  Hypothesis K : keyed Nr w.
  Definition er (out : list Z) (i : nat) : list Z := AddRoundKey (MixColumns (ShiftRows (SubBytes out))) w i.
  Definition dr (out : list Z) (i : nat) : list Z := InvMixColumns (AddRoundKey (InvSubBytes (InvShiftRows out)) w i).
  (** one decryption round seen after moving the boundary: on states of the form Shift(Sub x) *)
  Lemma er_blk s i : (i <= Nr)%nat -> blk s -> blk (er s i).
  Proof. intros Hi Hs. unfold er. apply (ark_blk Nr); auto. apply mix_blk, Shift_blk, SubBytes_blk, Hs. Qed.
  Lemma ers_blk l : forall s, Forall (fun i => (i <= Nr)%nat) l -> blk s -> blk (fold_left er l s).
  Proof. induction l as [|i l IH]; intros s F Hs; cbn [fold_left]; auto. inversion F; subst. apply IH; auto. now apply er_blk. Qed.
  Lemma dr_blk s i : (i <= Nr)%nat -> blk s -> blk (dr s i).
  Proof. intros Hi Hs. unfold dr. apply mix_blk, (ark_blk Nr); auto. apply InvSubBytes_blk, InvShift_blk, Hs. Qed.
  Lemma drs_blk l : forall s, Forall (fun i => (i <= Nr)%nat) l -> blk s -> blk (fold_left dr l s).
  Proof. induction l as [|i l IH]; intros s F Hs; cbn [fold_left]; auto. inversion F; subst. apply IH; auto. now apply dr_blk. Qed.

  Definition SS (s : list Z) : list Z := ShiftRows (SubBytes s).
  Definition iSS (s : list Z) : list Z := InvSubBytes (InvShiftRows s).
  Lemma iSS_SS s : blk s -> iSS (SS s) = s.
  Proof. intros H. unfold iSS, SS. rewrite InvShift_Shift by apply SubBytes_blk, H. now apply InvSub_Sub. Qed.
  Lemma SS_iSS s : blk s -> SS (iSS s) = s.
  Proof. intros H. unfold iSS, SS. rewrite Sub_InvSub by apply InvShift_blk, H. apply Shift_InvShift, H. Qed.
  Lemma SS_blk s : blk s -> blk (SS s). Proof. intros. now apply Shift_blk, SubBytes_blk. Qed.
  Lemma iSS_blk s : blk s -> blk (iSS s). Proof. intros. now apply InvSubBytes_blk, InvShift_blk. Qed.

  (** dr undoes er behind SS *)
  Lemma dr_er s i : (i <= Nr)%nat -> blk s -> dr (SS (er s i)) i = SS s.
  Proof.
    intros Hi Hs. unfold dr. fold (iSS (SS (er s i))). rewrite iSS_SS by now apply er_blk. unfold er.
    rewrite (ark_inv Nr) by (auto; apply mix_blk, SS_blk, Hs). apply (mix_inv _ _ _ prod_enc_dec). now apply SS_blk.
  Qed.
  Lemma drs_ers l : forall s, Forall (fun i => (i <= Nr)%nat) l -> blk s -> fold_left dr (rev l) (SS (fold_left er l s)) = SS s.
  Proof.
    induction l as [|i l IH] using rev_ind; intros s F Hs; [reflexivity|]. apply Forall_app in F as [F1 F2]. inversion F2; subst.
    rewrite rev_app_distr, !fold_left_app. cbn [rev app fold_left]. rewrite dr_er by (auto using ers_blk). now apply IH.
  Qed.
  Lemma er_dr s i : (i <= Nr)%nat -> blk s -> er (iSS (dr s i)) i = iSS s.
  Proof.
    intros Hi Hs. unfold er. change (ShiftRows (SubBytes (iSS (dr s i)))) with (SS (iSS (dr s i))).
    rewrite SS_iSS by now apply dr_blk. unfold dr. fold (iSS s).
    change (MixColumns (InvMixColumns (AddRoundKey (iSS s) w i))) with (mix_with enc_a (mix_with dec_a (AddRoundKey (iSS s) w i))).
    rewrite (mix_inv _ _ _ prod_dec_enc) by (apply (ark_blk Nr); auto using iSS_blk). apply (ark_inv Nr); auto using iSS_blk.
  Qed.
  Lemma ers_drs l : forall s, Forall (fun i => (i <= Nr)%nat) l -> blk s -> fold_left er l (iSS (fold_left dr (rev l) s)) = iSS s.
  Proof.
    induction l as [|i l IH]; intros s F Hs; [reflexivity|]. inversion F as [|? ? F1 F2]; subst.
    cbn [rev]. rewrite fold_left_app. cbn [fold_left]. rewrite er_dr; auto.
    apply drs_blk; auto. now apply Forall_rev.
  Qed.
  Lemma rounds_le : Forall (fun i => (i <= Nr)%nat) (seq 1 (Nr - 1)).
  Proof. apply Forall_forall. intros i Hi. apply in_seq in Hi. lia. Qed.

  Lemma cipher_blk s : blk s -> blk (Rijndael_Cipher Nr w s).
  Proof.
    intros Hs. unfold Rijndael_Cipher. apply (ark_blk Nr); auto. apply SS_blk. apply ers_blk; [apply rounds_le|].
    apply (ark_blk Nr); auto. lia.
  Qed.
  Lemma invcipher_blk s : blk s -> blk (Rijndael_InvCipher Nr w s).
  Proof.
    intros Hs. unfold Rijndael_InvCipher. apply (ark_blk Nr); [auto|lia|]. apply iSS_blk. apply drs_blk; [apply Forall_rev, rounds_le|].
    apply (ark_blk Nr); auto.
  Qed.
  Lemma aes_dec_enc s : blk s -> Rijndael_InvCipher Nr w (Rijndael_Cipher Nr w s) = s.
  Proof.
    intros Hs. unfold Rijndael_InvCipher, Rijndael_Cipher.
    set (s0 := AddRoundKey s w 0). assert (B0 : blk s0) by (apply (ark_blk Nr); auto; lia).
    change (fold_left (fun out i => AddRoundKey (MixColumns (ShiftRows (SubBytes out))) w i) (seq 1 (Nr - 1)) s0)
      with (fold_left er (seq 1 (Nr - 1)) s0).
    set (s1 := fold_left er _ s0). assert (B1 : blk s1) by (apply ers_blk; [apply rounds_le|auto]).
    rewrite (ark_inv Nr) by (auto; now apply SS_blk).
    change (fold_left _ (rev (seq 1 (Nr - 1))) (ShiftRows (SubBytes s1))) with (fold_left dr (rev (seq 1 (Nr - 1))) (SS s1)).
    unfold s1. rewrite drs_ers by (auto; apply rounds_le). fold (iSS (SS s0)). rewrite iSS_SS by auto.
    apply (ark_inv Nr); auto. lia.
  Qed.
  Lemma aes_enc_dec s : blk s -> Rijndael_Cipher Nr w (Rijndael_InvCipher Nr w s) = s.
  Proof.
    intros Hs. unfold Rijndael_InvCipher, Rijndael_Cipher.
    set (s0 := AddRoundKey s w Nr). assert (B0 : blk s0) by (apply (ark_blk Nr); auto).
    change (fold_left (fun out i => InvMixColumns (AddRoundKey (InvSubBytes (InvShiftRows out)) w i)) (rev (seq 1 (Nr - 1))) s0)
      with (fold_left dr (rev (seq 1 (Nr - 1))) s0).
    set (s1 := fold_left dr _ s0). assert (B1 : blk s1) by (apply drs_blk; [apply Forall_rev, rounds_le|auto]).
    rewrite (ark_inv Nr) by (first [exact K|lia|now apply iSS_blk]).
    change (fold_left _ (seq 1 (Nr - 1)) (InvSubBytes (InvShiftRows s1))) with (fold_left er (seq 1 (Nr - 1)) (iSS s1)).
    unfold s1. rewrite ers_drs by (auto; apply rounds_le). fold (SS (iSS s0)). rewrite SS_iSS by auto.
    apply (ark_inv Nr); auto.
  Qed.
End Aes.
