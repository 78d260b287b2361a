(** Lemmas about the ARIA (continued) and Camellia models. *)
From Verif Require Import Base Blocks Hash HashLemmas DerLemmas CmacLemmas Cipher CipherSpec CipherLemmas CipherLemmas2.

Lemma word_be_act32 f g0 g1 g2 g3 a b c d : byte_ok a -> byte_ok b -> byte_ok c -> byte_ok d ->
  (forall w, wd 32 w -> byteat 0 (f w) = g0 (byteat 0 w)) -> (forall w, wd 32 w -> byteat 1 (f w) = g1 (byteat 1 w)) ->
  (forall w, wd 32 w -> byteat 2 (f w) = g2 (byteat 2 w)) -> (forall w, wd 32 w -> byteat 3 (f w) = g3 (byteat 3 w)) ->
  be_bytes 4 (f (be_val [a; b; c; d])) = [g3 a; g2 b; g1 c; g0 d].
Proof.
  intros A B C D F0 F1 F2 F3.
  assert (W : wd 32 (be_val [a; b; c; d])) by (apply (be_val_bound [a; b; c; d]); repeat (constructor; [assumption|]); constructor).
  rewrite be_bytes_4, F0, F1, F2, F3 by exact W.
  change (be_val [a; b; c; d]) with (le_val [d; c; b; a]).
  destruct (byteat_le4 d c b a D C B A) as (-> & -> & -> & ->). reflexivity.
Qed.

(** the four octet substitutions of ARIA *)
Definition a_S1 (x : Z) : Z := lk aria_s1 idx x.
Definition a_S2 (x : Z) : Z := lk aria_s2 idx x.
Definition a_S1i (x : Z) : Z := lk idx aria_s1 x.
Definition a_S2i (x : Z) : Z := lk idx aria_s2 x.
Lemma aria_perm1 : perm256 aria_s1. Proof. apply perm256b_ok. vm_compute. reflexivity. Qed.
Lemma aria_perm2 : perm256 aria_s2. Proof. apply perm256b_ok. vm_compute. reflexivity. Qed.
Lemma a_S1_inv x : byte_ok x -> a_S1i (a_S1 x) = x /\ byte_ok (a_S1 x).
Proof. apply lk_inv; [apply aria_perm1|apply idx_perm]. Qed.
Lemma a_S2_inv x : byte_ok x -> a_S2i (a_S2 x) = x /\ byte_ok (a_S2 x).
Proof. apply lk_inv; [apply aria_perm2|apply idx_perm]. Qed.
Lemma a_S1i_inv x : byte_ok x -> a_S1 (a_S1i x) = x /\ byte_ok (a_S1i x).
Proof. apply lk_inv; [apply idx_perm|apply aria_perm1]. Qed.
Lemma a_S2i_inv x : byte_ok x -> a_S2 (a_S2i x) = x /\ byte_ok (a_S2i x).
Proof. apply lk_inv; [apply idx_perm|apply aria_perm2]. Qed.
Lemma aria_outs3 : outs 3 aria_table = aria_s1. Proof. vm_compute. reflexivity. Qed.
Lemma aria_outs2 : outs 2 aria_table = aria_s2. Proof. vm_compute. reflexivity. Qed.
Lemma aria_outs1 : outs 1 aria_table = idx. Proof. vm_compute. reflexivity. Qed.
Lemma aria_outs0 : outs 0 aria_table = idx. Proof. vm_compute. reflexivity. Qed.
Lemma aria_ins3 : ins 3 aria_table = idx. Proof. vm_compute. reflexivity. Qed.
Lemma aria_ins2 : ins 2 aria_table = idx. Proof. vm_compute. reflexivity. Qed.
Lemma aria_ins1 : ins 1 aria_table = aria_s1. Proof. vm_compute. reflexivity. Qed.
Lemma aria_ins0 : ins 0 aria_table = aria_s2. Proof. vm_compute. reflexivity. Qed.
Lemma aria_w3 w : byteat 3 (wsbox w aria_table) = a_S1 (byteat 3 w).
Proof. unfold a_S1. rewrite wsbox_byte, aria_outs3, aria_ins3 by lia. exact eq_refl. Qed.
Lemma aria_w2 w : byteat 2 (wsbox w aria_table) = a_S2 (byteat 2 w).
Proof. unfold a_S2. rewrite wsbox_byte, aria_outs2, aria_ins2 by lia. exact eq_refl. Qed.
Lemma aria_w1 w : byteat 1 (wsbox w aria_table) = a_S1i (byteat 1 w).
Proof. unfold a_S1i. rewrite wsbox_byte, aria_outs1, aria_ins1 by lia. exact eq_refl. Qed.
Lemma aria_w0 w : byteat 0 (wsbox w aria_table) = a_S2i (byteat 0 w).
Proof. unfold a_S2i. rewrite wsbox_byte, aria_outs0, aria_ins0 by lia. exact eq_refl. Qed.
Global Opaque a_S1 a_S2 a_S1i a_S2i.

Lemma rol16_eq w : wd 32 w -> rol32 w 16 = (w mod 2 ^ 16) * 2 ^ 16 + w / 2 ^ 16.
Proof.
  intros H. unfold rol32, u32. change (32 - 16) with 16. rewrite Z.shiftl_mul_pow2, Z.shiftr_div_pow2 by lia.
  replace (w * 2 ^ 16 mod 2 ^ 32) with ((w mod 2 ^ 16) * 2 ^ 16).
  2:{ change (2 ^ 32) with (2 ^ 16 * 2 ^ 16). now rewrite Z.mul_mod_distr_r by lia. }
  rewrite Z.lor_comm, lor_shift_add; [lia|lia|]. unfold wd in H. change (2 ^ 32) with (2 ^ 16 * 2 ^ 16) in H.
  split; [apply Z.div_pos; lia|apply Z.div_lt_upper_bound; lia].
Qed.
Lemma rol16_bytes w : wd 32 w -> byteat 0 (rol32 w 16) = byteat 2 w /\ byteat 1 (rol32 w 16) = byteat 3 w /\
  byteat 2 (rol32 w 16) = byteat 0 w /\ byteat 3 (rol32 w 16) = byteat 1 w.
Proof.
  intros H. rewrite rol16_eq by auto. unfold byteat. change (8 * Z.of_nat 0) with 0. change (8 * Z.of_nat 1) with 8.
  change (8 * Z.of_nat 2) with 16. change (8 * Z.of_nat 3) with 24. change (2 ^ 0) with 1.
  unfold wd in H. change (2 ^ 32) with 4294967296 in H. change (2 ^ 8) with 256. change (2 ^ 16) with 65536. change (2 ^ 24) with 16777216.
  Z.div_mod_to_equations. lia.
Qed.
Lemma aria_rot_w w : wd 32 w ->
  byteat 3 (rol32 (wsbox (rol32 w 16) aria_table) 16) = a_S1i (byteat 3 w) /\
  byteat 2 (rol32 (wsbox (rol32 w 16) aria_table) 16) = a_S2i (byteat 2 w) /\
  byteat 1 (rol32 (wsbox (rol32 w 16) aria_table) 16) = a_S1 (byteat 1 w) /\
  byteat 0 (rol32 (wsbox (rol32 w 16) aria_table) 16) = a_S2 (byteat 0 w).
Proof.
  intros H. destruct (rol16_bytes w H) as (E0 & E1 & E2 & E3).
  destruct (rol16_bytes (wsbox (rol32 w 16) aria_table) (wsbox_range _ _)) as (-> & -> & -> & ->).
  now rewrite aria_w0, aria_w1, aria_w2, aria_w3, E0, E1, E2, E3.
Qed.
Definition cyc4 (f0 f1 f2 f3 : Z -> Z) (s : list Z) : list Z :=
  match s with
  | [a0; a1; a2; a3; b0; b1; b2; b3; c0; c1; c2; c3; d0; d1; d2; d3] =>
    [f0 a0; f1 a1; f2 a2; f3 a3; f0 b0; f1 b1; f2 b2; f3 b3; f0 c0; f1 c1; f2 c2; f3 c3; f0 d0; f1 d1; f2 d2; f3 d3]
  | _ => []
  end.
Lemma SL1_cyc s : blk s -> SL1 s = cyc4 a_S1 a_S2 a_S1i a_S2i s.
Proof.
  intros H. list16 s H. unfold SL1, slice. cbn [seq flat_map Nat.mul Nat.add firstn skipn].
  rewrite !(word_be_act32 (fun w => wsbox w aria_table) a_S2i a_S1i a_S2 a_S1) by
    (try assumption; intros; first [apply aria_w0|apply aria_w1|apply aria_w2|apply aria_w3]).
  reflexivity.
Qed.
Lemma SL2_cyc s : blk s -> SL2 s = cyc4 a_S1i a_S2i a_S1 a_S2 s.
Proof.
  intros H. list16 s H. unfold SL2, slice. cbn [seq flat_map Nat.mul Nat.add firstn skipn].
  rewrite !(word_be_act32 (fun w => rol32 (wsbox (rol32 w 16) aria_table) 16) a_S2 a_S1 a_S2i a_S1i) by
    (try assumption; intros w Hw; apply (aria_rot_w w Hw)).
  reflexivity.
Qed.
Lemma cyc4_blk f0 f1 f2 f3 s : (forall x, byte_ok x -> byte_ok (f0 x)) -> (forall x, byte_ok x -> byte_ok (f1 x)) ->
  (forall x, byte_ok x -> byte_ok (f2 x)) -> (forall x, byte_ok x -> byte_ok (f3 x)) -> blk s -> blk (cyc4 f0 f1 f2 f3 s).
Proof.
  intros H0 H1 H2 H3 H. list16 s H. cbn [cyc4]. split; [reflexivity|].
  repeat (constructor; [auto|]). constructor.
Qed.
Lemma SL1_blk s : blk s -> blk (SL1 s).
Proof. intros H. rewrite SL1_cyc by auto. apply cyc4_blk; auto; intros; [now apply a_S1_inv|now apply a_S2_inv|now apply a_S1i_inv|now apply a_S2i_inv]. Qed.
Lemma SL2_blk s : blk s -> blk (SL2 s).
Proof. intros H. rewrite SL2_cyc by auto. apply cyc4_blk; auto; intros; [now apply a_S1i_inv|now apply a_S2i_inv|now apply a_S1_inv|now apply a_S2_inv]. Qed.
Lemma SL2_SL1 s : blk s -> SL2 (SL1 s) = s.
Proof.
  intros H. rewrite SL2_cyc by now apply SL1_blk. rewrite SL1_cyc by auto. list16 s H. cbn [cyc4].
  repeat match goal with |- context [a_S1i (a_S1 ?x)] => rewrite (proj1 (a_S1_inv x ltac:(assumption))) end.
  repeat match goal with |- context [a_S2i (a_S2 ?x)] => rewrite (proj1 (a_S2_inv x ltac:(assumption))) end.
  repeat match goal with |- context [a_S1 (a_S1i ?x)] => rewrite (proj1 (a_S1i_inv x ltac:(assumption))) end.
  repeat match goal with |- context [a_S2 (a_S2i ?x)] => rewrite (proj1 (a_S2i_inv x ltac:(assumption))) end.
  reflexivity.
Qed.
Lemma SL1_SL2 s : blk s -> SL1 (SL2 s) = s.
Proof.
  intros H. rewrite SL1_cyc by now apply SL2_blk. rewrite SL2_cyc by auto. list16 s H. cbn [cyc4].
  repeat match goal with |- context [a_S1i (a_S1 ?x)] => rewrite (proj1 (a_S1_inv x ltac:(assumption))) end.
  repeat match goal with |- context [a_S2i (a_S2 ?x)] => rewrite (proj1 (a_S2_inv x ltac:(assumption))) end.
  repeat match goal with |- context [a_S1 (a_S1i ?x)] => rewrite (proj1 (a_S1i_inv x ltac:(assumption))) end.
  repeat match goal with |- context [a_S2 (a_S2i ?x)] => rewrite (proj1 (a_S2i_inv x ltac:(assumption))) end.
  reflexivity.
Qed.
Lemma xorb_blk a b : blk a -> blk b -> blk (xorb_list a b).
Proof. intros [L B] [L' B']. split; [rewrite xorb_list_length; lia|now apply xorb_list_ok]. Qed.

Section Aria.
  Variables (c : nat) (ek : list Z).
  Hypothesis K : keyed c ek.
  Notation k i := (slice i 16 ek).
  Let kb i : (i <= c)%nat -> blk (k i). Proof. apply (slice_key c); auto. Qed.
  (** the encryption trajectory *)
  Fixpoint traj (x : list Z) (j : nat) : list Z :=
    match j with O => x | S j => aria_A ((if Nat.even j then SL1 else SL2) (xorb_list (traj x j) (k j))) end.
  Lemma traj_blk x j : blk x -> (j <= c)%nat -> blk (traj x j).
  Proof.
    intros Hx. induction j as [|j IH]; intros Hj; cbn [traj]; auto.
    assert (B : blk (xorb_list (traj x j) (k j))) by (apply xorb_blk; [apply IH; lia|apply kb; lia]).
    apply aria_A_blk. destruct (Nat.even j); [apply SL1_blk, B|apply SL2_blk, B].
  Qed.
  Lemma enc_loop x n : fold_left (fun out i => FE (FO out (k (i * 2))) (k (i * 2 + 1))) (seq 0 n) x = traj x (n * 2).
  Proof.
    induction n as [|n IH]; [reflexivity|]. rewrite seq_S, fold_left_app. cbn [fold_left Nat.add]. rewrite IH.
    replace (S n * 2)%nat with (S (S (n * 2))) by lia. cbn [traj]. unfold FE, FO.
    assert (E : Nat.even (n * 2) = true) by (rewrite Nat.even_mul; apply Bool.orb_true_r).
    rewrite Nat.even_succ, <- Nat.negb_even, E. cbn [negb]. rewrite (Nat.add_1_r (n * 2)). reflexivity.
  Qed.
  Lemma even_c m : Nat.even (2 * m) = true. Proof. rewrite Nat.even_mul. reflexivity. Qed.
  Lemma even_c1 m : Nat.even (2 * m + 1) = false.
  Proof. rewrite Nat.add_1_r, Nat.even_succ, <- Nat.negb_even, even_c. reflexivity. Qed.

  Lemma dec_inv x : blk x -> forall n m out dk, (n < m)%nat -> (2 * m <= c)%nat -> blk out -> blk dk ->
    xorb_list out dk = SL2 (xorb_list (traj x (2 * m - 1)) (k (2 * m - 1))) ->
    exists out' dk', aria_dec_loop n ek out dk (2 * m) = (out', dk', (2 * (m - n))%nat) /\ blk out' /\ blk dk' /\
      xorb_list out' dk' = SL2 (xorb_list (traj x (2 * (m - n) - 1)) (k (2 * (m - n) - 1))).
  Proof.
    intros Hx. induction n as [|n IH]; intros m out dk Hm Hc Bo Bd E.
    - exists out, dk. rewrite Nat.sub_0_r. split; [reflexivity|]. auto.
    - cbn [aria_dec_loop]. destruct m as [|m]; [lia|]. destruct m as [|m]; [lia|].
      replace (2 * S (S m) - 1)%nat with (S (2 * m + 2)) in * by lia.
      replace (S (2 * m + 2) - 1)%nat with (2 * m + 2)%nat by lia.
      set (i := (2 * m + 2)%nat) in *.
      assert (B1 : blk (xorb_list (traj x (S i)) (k (S i)))) by (apply xorb_blk; [apply traj_blk; auto; lia|apply kb; lia]).
      assert (B0 : blk (xorb_list (traj x i) (k i))) by (apply xorb_blk; [apply traj_blk; auto; lia|apply kb; lia]).
      assert (O1 : FO out dk = aria_A (xorb_list (traj x (S i)) (k (S i)))) by (unfold FO; now rewrite E, SL1_SL2).
      assert (E1 : xorb_list (FO out dk) (aria_A (k (S i))) = SL1 (xorb_list (traj x i) (k i))).
      { rewrite O1. assert (L1 : length (traj x (S i)) = length (k (S i))).
        { transitivity 16%nat; [apply traj_blk; auto; lia|symmetry; apply kb; lia]. }
        rewrite aria_A_xor by exact L1.
        rewrite xorb_list_cancel.
        - assert (Ev : Nat.even i = true) by (unfold i; replace (2 * m + 2)%nat with (2 * (m + 1))%nat by lia; apply even_c).
          cbn [traj]. rewrite Ev. apply aria_A_invol. apply SL1_blk, B0.
        - rewrite (proj1 (aria_A_blk (traj x (S i)) ltac:(apply traj_blk; auto; lia))).
          rewrite (proj1 (aria_A_blk (k (S i)) ltac:(apply kb; lia))). lia. }
      assert (O2 : FE (FO out dk) (aria_A (k (S i))) = aria_A (xorb_list (traj x i) (k i))).
      { unfold FE. now rewrite E1, SL2_SL1. }
      rewrite O2.
      destruct (IH (S m) (aria_A (xorb_list (traj x i) (k i))) (aria_A (k i))) as (out' & dk' & R & Bo' & Bd' & E').
      + lia.
      + lia.
      + apply aria_A_blk, B0.
      + apply aria_A_blk, kb. lia.
      + replace (2 * S m - 1)%nat with (2 * m + 1)%nat by lia. unfold i in *. replace (2 * m + 2)%nat with (S (2 * m + 1)) in * by lia.
        assert (L1 : length (traj x (S (2 * m + 1))) = length (k (S (2 * m + 1)))).
        { transitivity 16%nat; [apply traj_blk; auto; lia|symmetry; apply kb; lia]. }
        rewrite aria_A_xor by exact L1.
        rewrite xorb_list_cancel.
        * cbn [traj]. rewrite even_c1. apply aria_A_invol. apply SL2_blk. apply xorb_blk; [apply traj_blk; auto; lia|apply kb; lia].
        * rewrite (proj1 (aria_A_blk (traj x (S (2 * m + 1))) ltac:(apply traj_blk; auto; lia))).
          rewrite (proj1 (aria_A_blk (k (S (2 * m + 1))) ltac:(apply kb; lia))). lia.
      + exists out', dk'. replace (2 * S m)%nat with i in R by (unfold i; lia). rewrite R.
        replace (S (S m) - S n)%nat with (S m - n)%nat by lia. auto.
  Qed.

  Lemma aria_enc_eq x n : c = (2 * (n + 1))%nat ->
    ARIA_Encrypt c ek x = xorb_list (SL2 (xorb_list (traj x (c - 1)) (k (c - 1)))) (k c).
  Proof.
    intros Ec. unfold ARIA_Encrypt. cbv zeta. rewrite enc_loop.
    replace (c / 2)%nat with (n + 1)%nat by (rewrite Ec, Nat.mul_comm, Nat.div_mul; lia).
    replace (n + 1 - 1)%nat with n by lia. replace (c - 1)%nat with (S (n * 2)) by lia. cbn [traj].
    replace (Nat.even (n * 2)) with true by (rewrite Nat.mul_comm, even_c; reflexivity).
    unfold FO. replace (n * 2 + 1)%nat with (S (n * 2)) by lia. replace (n * 2 + 2)%nat with c by lia. reflexivity.
  Qed.
  Lemma aria_enc_blk x n : c = (2 * (n + 1))%nat -> blk x -> blk (ARIA_Encrypt c ek x).
  Proof.
    intros Ec Hx. rewrite (aria_enc_eq x n Ec). apply xorb_blk; [|apply kb; lia]. apply SL2_blk.
    apply xorb_blk; [apply traj_blk; auto; lia|apply kb; lia].
  Qed.
  Lemma aria_dec_enc x n : c = (2 * (n + 1))%nat -> blk x -> ARIA_Decrypt c ek (ARIA_Encrypt c ek x) = x.
  Proof.
    intros Ec Hx. assert (BE : blk (ARIA_Encrypt c ek x)) by (eapply aria_enc_blk; eauto).
    assert (BT : forall j, (j <= c)%nat -> blk (xorb_list (traj x j) (k j))).
    { intros j Hj. apply xorb_blk; [apply traj_blk; auto|apply kb; auto]. }
    unfold ARIA_Decrypt.
    destruct (dec_inv x Hx n (n + 1) (ARIA_Encrypt c ek x) (k c)) as (out & dk & R & Bo & Bd & E).
    - lia.
    - lia.
    - exact BE.
    - apply kb. lia.
    - rewrite (aria_enc_eq x n Ec), <- Ec. rewrite xorb_list_cancel; [reflexivity|].
      pose proof (SL2_blk _ (BT (c - 1)%nat ltac:(lia))) as [L _]. rewrite L. rewrite (proj1 (kb c (le_n c))). lia.
    - replace ((c - 1) / 2)%nat with n.
      2:{ rewrite Ec. replace (2 * (n + 1) - 1)%nat with (n * 2 + 1)%nat by lia. rewrite Nat.div_add_l by lia. cbn. lia. }
      rewrite <- Ec in R. rewrite R. cbv zeta. replace (n + 1 - n)%nat with 1%nat in E by lia. change (2 * 1 - 1)%nat with 1%nat in E.
      unfold FO. rewrite E, SL1_SL2 by (apply BT; lia).
      assert (L1 : length (traj x 1) = length (k 1)).
      { transitivity 16%nat; [apply traj_blk; auto; lia|symmetry; apply kb; lia]. }
      rewrite aria_A_xor by exact L1.
      rewrite xorb_list_cancel.
      + cbn [traj Nat.even]. rewrite aria_A_invol by (apply SL1_blk, (BT 0%nat); lia).
        rewrite SL2_SL1 by (apply (BT 0%nat); lia). apply xorb_list_cancel.
        rewrite (proj1 Hx). rewrite (proj1 (kb 0%nat ltac:(lia))). lia.
      + rewrite (proj1 (aria_A_blk (traj x 1) ltac:(apply traj_blk; auto; lia))).
        rewrite (proj1 (aria_A_blk (k 1) ltac:(apply kb; lia))). lia.
  Qed.
End Aria.

(** the key schedules give whole round keys *)
Lemma flat_be8_keyed l : bytes_ok (flat_map (be_bytes 8) l) /\ length (flat_map (be_bytes 8) l) = (8 * length l)%nat.
Proof.
  induction l as [|w l [IH1 IH2]]; cbn [flat_map length]; [split; [constructor|reflexivity]|]. split.
  - apply Forall_app. split; [apply be_bytes_ok|exact IH1].
  - rewrite app_length, be_bytes_length, IH2. lia.
Qed.
Lemma aria_sched_keyed c C1 C2 C3 key : (c <= 16)%nat -> keyed c (ARIA_KeySched c C1 C2 C3 key).
Proof.
  intros Hc. unfold ARIA_KeySched, ARIA_Kschd. cbv zeta.
  match goal with |- keyed _ (flat_map _ ?l) => destruct (flat_be8_keyed l) as [B L] end.
  split; [|exact B]. rewrite L, firstn_length. cbn [length]. lia.
Qed.

(* ---- Camellia ---- *)
Definition inv_op (o : cam_op) : cam_op :=
  match o with OpFLL k => OpInvFLL k | OpFLR k => OpInvFLR k | OpInvFLL k => OpFLL k | OpInvFLR k => OpFLR k | o => o end.
Definition op_ok (o : cam_op) : Prop := match o with OpXL k | OpXR k => wd 64 k | _ => True end.
Definition st64 (s : Z * Z) : Prop := wd 64 (fst s) /\ wd 64 (snd s).
Lemma pack64 h l : wd 32 h -> wd 32 l -> Z.lor (Z.shiftl h 32) l = h * 2 ^ 32 + l /\ wd 64 (Z.lor (Z.shiftl h 32) l) /\
  u32 (Z.shiftr (Z.lor (Z.shiftl h 32) l) 32) = h /\ u32 (Z.lor (Z.shiftl h 32) l) = l.
Proof.
  intros Hh Hl. unfold wd in *. rewrite Z.shiftl_mul_pow2 by lia. rewrite Z.lor_comm, lor_shift_add by lia.
  unfold u32. rewrite Z.shiftr_div_pow2 by lia. change (2 ^ 64) with (2 ^ 32 * 2 ^ 32). repeat split; nia.
Qed.
Lemma unpack64 x : wd 64 x -> wd 32 (u32 (Z.shiftr x 32)) /\ wd 32 (u32 x) /\ Z.lor (Z.shiftl (u32 (Z.shiftr x 32)) 32) (u32 x) = x.
Proof.
  intros H. split; [apply u32_wd|]. split; [apply u32_wd|].
  destruct (pack64 (u32 (Z.shiftr x 32)) (u32 x) (u32_wd _) (u32_wd _)) as (-> & _).
  unfold u32, wd in *. rewrite Z.shiftr_div_pow2 by lia. change (2 ^ 64) with (2 ^ 32 * 2 ^ 32) in H.
  rewrite (Z.mod_small (x / 2 ^ 32)). 2:{ split; [apply Z.div_pos; lia|apply Z.div_lt_upper_bound; lia]. }
  pose proof (Z.div_mod x (2 ^ 32) ltac:(lia)). lia.
Qed.
Lemma lxor_cancel_l a b : Z.lxor a (Z.lxor a b) = b.
Proof. now rewrite <- Z.lxor_assoc, Z.lxor_nilpotent, Z.lxor_0_l. Qed.
Lemma func_FL_wd X k : wd 64 X -> wd 64 (func_FL X k) .
Proof.
  intros H. unfold func_FL. cbv zeta. destruct (unpack64 X H) as (H1 & H2 & _).
  assert (YR : wd 32 (Z.lxor (rol32 (Z.land (u32 (Z.shiftr X 32)) (u32 (Z.shiftr k 32))) 1) (u32 X))).
  { apply lxor_wd; auto; [lia|]. apply rol32_wd; [lia|]. apply land_wd_l; [lia|auto]. }
  apply pack64; auto. apply lxor_wd; auto; [lia|]. apply lor_wd; auto; [lia|apply u32_wd].
Qed.
Lemma invf_FL_wd X k : wd 64 X -> wd 64 (invf_FL X k).
Proof.
  intros H. unfold invf_FL. cbv zeta. destruct (unpack64 X H) as (H1 & H2 & _).
  assert (XL : wd 32 (Z.lxor (Z.lor (u32 X) (u32 k)) (u32 (Z.shiftr X 32)))).
  { apply lxor_wd; auto; [lia|]. apply lor_wd; auto; [lia|apply u32_wd]. }
  apply pack64; auto. apply lxor_wd; auto; [lia|]. apply rol32_wd; [lia|]. apply land_wd_l; [lia|auto].
Qed.
Lemma FL_inv X k : wd 64 X -> invf_FL (func_FL X k) k = X.
Proof.
  intros H. destruct (unpack64 X H) as (H1 & H2 & E). unfold func_FL. cbv zeta.
  set (XL := u32 (Z.shiftr X 32)) in *. set (XR := u32 X) in *. set (kl := u32 (Z.shiftr k 32)). set (kr := u32 k).
  set (YR := Z.lxor (rol32 (Z.land XL kl) 1) XR).
  assert (WR : wd 32 YR).
  { apply lxor_wd; auto; [lia|]. apply rol32_wd; [lia|]. apply land_wd_l; [lia|auto]. }
  assert (WL : wd 32 (Z.lxor (Z.lor YR kr) XL)).
  { apply lxor_wd; auto; [lia|]. apply lor_wd; auto; [lia|apply u32_wd]. }
  destruct (pack64 _ _ WL WR) as (_ & _ & P1 & P2). unfold invf_FL. cbv zeta. rewrite P1, P2. fold kl kr.
  rewrite lxor_cancel_l. unfold YR. rewrite lxor_cancel_l. exact E.
Qed.
Lemma invFL_FL X k : wd 64 X -> func_FL (invf_FL X k) k = X.
Proof.
  intros H. destruct (unpack64 X H) as (H1 & H2 & E). unfold invf_FL. cbv zeta.
  set (YL := u32 (Z.shiftr X 32)) in *. set (YR := u32 X) in *. set (kl := u32 (Z.shiftr k 32)). set (kr := u32 k).
  set (XL := Z.lxor (Z.lor YR kr) YL).
  assert (WL : wd 32 XL).
  { apply lxor_wd; auto; [lia|]. apply lor_wd; auto; [lia|apply u32_wd]. }
  assert (WR : wd 32 (Z.lxor (rol32 (Z.land XL kl) 1) YR)).
  { apply lxor_wd; auto; [lia|]. apply rol32_wd; [lia|]. apply land_wd_l; [lia|auto]. }
  destruct (pack64 _ _ WL WR) as (_ & _ & P1 & P2). unfold func_FL. cbv zeta. rewrite P1, P2. fold kl kr.
  rewrite lxor_cancel_l. unfold XL. rewrite lxor_cancel_l. exact E.
Qed.
Lemma cam_F_wd X k : wd 64 (cam_F X k). Proof. apply u64_wd. Qed.
Lemma cam_exec_ok s o : st64 s -> op_ok o -> st64 (cam_exec s o).
Proof.
  destruct s as [l r]. intros [Hl Hr] Ho. cbn [fst snd] in *. destruct o; cbn [cam_exec op_ok] in *; split; cbn [fst snd]; auto;
  try (apply lxor_wd; auto; [lia|apply cam_F_wd]); try (apply lxor_wd; auto; lia); auto using func_FL_wd, invf_FL_wd.
Qed.
Lemma cam_exec_inv s o : st64 s -> cam_exec (cam_exec s o) (inv_op o) = s.
Proof.
  destruct s as [l r]. intros [Hl Hr]. cbn [fst snd] in *.
  destruct o; cbn [cam_exec inv_op]; rewrite ?lxor_cancel_r, ?FL_inv, ?invFL_FL by auto; reflexivity.
Qed.
Lemma cam_body_ok l : forall s, st64 s -> Forall op_ok l -> st64 (fold_left cam_exec l s).
Proof. induction l as [|o l IH]; intros s Hs F; cbn [fold_left]; auto. inversion F; subst. apply IH; auto. now apply cam_exec_ok. Qed.
Lemma cam_body_inv l : forall s, st64 s -> Forall op_ok l -> fold_left cam_exec (rev (map inv_op l)) (fold_left cam_exec l s) = s.
Proof.
  induction l as [|o l IH]; intros s Hs F; [reflexivity|]. inversion F; subst. cbn [map rev fold_left].
  rewrite fold_left_app. cbn [fold_left]. rewrite IH by (auto; now apply cam_exec_ok). now apply cam_exec_inv.
Qed.
Lemma cam_round enc dec s : blk s -> Forall op_ok enc -> dec = rev (map inv_op enc) ->
  blk (cam_encrypt enc s) /\ cam_decrypt dec (cam_encrypt enc s) = s.
Proof.
  intros Hs F ->. destruct (blk_words64 s Hs) as (E & W0 & W1). unfold cam_encrypt.
  set (s0 := (be_val (slice 0 8 s), be_val (slice 1 8 s))). assert (S0 : st64 s0) by (split; assumption).
  pose proof (cam_body_ok enc s0 S0 F) as [O1 O2]. pose proof (cam_body_inv enc s0 S0 F) as I.
  destruct (fold_left cam_exec enc s0) as [l r] eqn:Ef. cbn [fst snd] in *. split; [apply blk64|].
  unfold cam_decrypt. rewrite slice64_0, slice64_1 by auto. rewrite I. unfold s0. exact E.
Qed.
Definition kw_ok (kw : cam_kw) : Prop :=
  wd 64 (K_LL kw) /\ wd 64 (K_LR kw) /\ wd 64 (K_AL kw) /\ wd 64 (K_AR kw) /\
  wd 64 (K_RL kw) /\ wd 64 (K_RR kw) /\ wd 64 (K_BL kw) /\ wd 64 (K_BR kw).
Lemma sh_wd a n b m : 0 <= m -> wd 64 b -> wd 64 (sh a n b m).
Proof. intros Hm Hb. unfold sh. apply lor_wd; [lia|apply u64_wd|now apply shiftr_wd]. Qed.
Lemma cam128_ops kw : kw_ok kw -> Forall op_ok (Camellia128_Encrypt_body kw).
Proof.
  intros (K0 & K1 & K2 & K3 & K4 & K5 & K6 & K7). unfold Camellia128_Encrypt_body.
  repeat (constructor; [first [exact I|assumption|apply sh_wd; [lia|assumption]]|]). constructor.
Qed.
Lemma cam256_ops kw : kw_ok kw -> Forall op_ok (Camellia256_Encrypt_body kw).
Proof.
  intros (K0 & K1 & K2 & K3 & K4 & K5 & K6 & K7). unfold Camellia256_Encrypt_body.
  repeat (constructor; [first [exact I|assumption|apply sh_wd; [lia|assumption]]|]). constructor.
Qed.
Lemma cam128_rev kw : Camellia128_Decrypt_body kw = rev (map inv_op (Camellia128_Encrypt_body kw)).
Proof. reflexivity. Qed.
Lemma cam256_rev kw : Camellia256_Decrypt_body kw = rev (map inv_op (Camellia256_Encrypt_body kw)).
Proof. reflexivity. Qed.
Lemma be_slice8_wd key i : bytes_ok key -> wd 64 (be_val (slice i 8 key)).
Proof. intros B. unfold slice. apply (be_val_firstn_wd 8). now apply Forall_skipn. Qed.
Lemma sched128_ok k0 k1 l0 l1 : wd 64 k0 -> wd 64 k1 -> wd 64 l0 -> wd 64 l1 -> kw_ok (Camellia_KeySched128 k0 k1 l0 l1).
Proof.
  intros. unfold Camellia_KeySched128, kw_ok. cbv zeta. cbn [K_LL K_LR K_AL K_AR K_RL K_RR K_BL K_BR].
  repeat match goal with |- _ /\ _ => split end; try assumption; try (unfold wd; lia);
  repeat (apply (lxor_wd 64); [lia| |first [assumption|apply cam_F_wd]]); assumption.
Qed.
Lemma sched256_ok r0 r1 kw : kw_ok kw -> wd 64 r0 -> wd 64 r1 -> kw_ok (Camellia_KeySched256 r0 r1 kw).
Proof.
  intros (K0 & K1 & K2 & K3 & K4 & K5 & K6 & K7) H0 H1. unfold Camellia_KeySched256, kw_ok. cbv zeta.
  cbn [K_LL K_LR K_AL K_AR K_RL K_RR K_BL K_BR].
  repeat match goal with |- _ /\ _ => split end; try assumption; repeat (apply (lxor_wd 64); [lia| |first [assumption|apply cam_F_wd]]); assumption.
Qed.
Lemma cam128_sched key : bytes_ok key -> kw_ok (Camellia128_KeySched key).
Proof. intros B. unfold Camellia128_KeySched. apply sched128_ok; now apply be_slice8_wd. Qed.
Lemma cam256_sched key : bytes_ok key -> kw_ok (Camellia256_KeySched key).
Proof.
  intros B. unfold Camellia256_KeySched. apply sched256_ok; try now apply be_slice8_wd.
  apply sched128_ok; try now apply be_slice8_wd.
  all: apply lxor_wd; [lia| |]; now apply be_slice8_wd.
Qed.
Lemma cam192_sched key : bytes_ok key -> kw_ok (Camellia192_KeySched key).
Proof.
  intros B. pose proof (be_slice8_wd key 2 B) as W2. unfold Camellia192_KeySched.
  assert (N2 : wd 64 (2 ^ 64 - 1 - be_val (slice 2 8 key))) by (unfold wd in *; lia).
  apply sched256_ok; auto.
  apply sched128_ok; try now apply be_slice8_wd.
  all: apply lxor_wd; [lia| |]; auto; now apply be_slice8_wd.
Qed.
