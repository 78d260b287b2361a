(** Lemmas about the SM4 and Keccak models of NeonNi.v and the specification Sm4Spec.v. *)
From Verif Require Import Base Hash HashSpec Blocks HashLemmas Cipher CipherLemmas CipherLemmas2 Sponge SpongeSpec KeccakLemmas ShaIsa ShaNiLemmas Sm4Spec NeonNi.

(** ** the substitution and the linear maps of sm4.c *)
Lemma sm4_outs j : (j < 4)%nat -> outs j sm4_table = sm4_sbox.
Proof. intros H. destruct j as [|[|[|[|]]]]; [vm_compute; reflexivity..|lia]. Qed.
Lemma sm4_ins j : (j < 4)%nat -> ins j sm4_table = idx.
Proof. intros H. destruct j as [|[|[|[|]]]]; [vm_compute; reflexivity..|lia]. Qed.
Lemma sm4_lk_all : forallb (fun i => lk sm4_sbox idx (Z.of_nat i) =? Sbox (Z.of_nat i)) (seq 0 256) = true.
Proof. vm_compute. reflexivity. Qed.
Lemma sm4_lk x : byte_ok x -> lk sm4_sbox idx x = Sbox x.
Proof.
  intros H. unfold byte_ok in H. pose proof sm4_lk_all as G. rewrite forallb_forall in G.
  specialize (G (Z.to_nat x)). rewrite Z2Nat.id in G by lia. apply Z.eqb_eq, G. apply in_seq. lia.
Qed.
Lemma sm4_tau_eq w : sm4_tau w = tau w.
Proof.
  unfold tau, sm4_tau. rewrite be_bytes_4. cbn [map].
  rewrite <- (be_val_be_bytes_wd 4 (wsbox w sm4_table)) by apply wsbox_range.
  rewrite be_bytes_4, !wsbox_byte by lia. rewrite !sm4_outs, !sm4_ins by lia. now rewrite !sm4_lk by apply byteat_ok.
Qed.
Lemma tau_wd w : wd 32 (tau w).
Proof. rewrite <- sm4_tau_eq. apply wsbox_range. Qed.
Lemma rol32_rotl x n : wd 32 x -> 0 <= n <= 32 -> rol32 x n = rotl 32 n x.
Proof. intros. rewrite <- cROTL_rotl by auto. reflexivity. Qed.
Lemma Pmt_T0_eq x : Pmt_T0 x = L (tau x).
Proof. unfold Pmt_T0, Lin0, L. rewrite sm4_tau_eq, !rol32_rotl by (apply tau_wd || lia). reflexivity. Qed.
Lemma Pmt_T1_eq x : Pmt_T1 x = L' (tau x).
Proof. unfold Pmt_T1, Lin1, L'. rewrite sm4_tau_eq, !rol32_rotl by (apply tau_wd || lia). reflexivity. Qed.

Definition tl4 (x : word4) : list Z := let '(a, b, c, d) := x in [a; b; c; d].

(** four rounds *)
Definition quad4 (lin : Z -> Z) (x : word4) (k0 k1 k2 k3 : Z) : word4 := slide lin (slide lin (slide lin (slide lin x k0) k1) k2) k3.

Lemma isa_slide lin x k : sm4_isa lin (tl4 x) k = tl4 (slide lin x k).
Proof.
  destruct x as [[[a b] c] d]. unfold sm4_isa, slide, tl4, nthZ. cbv zeta. cbn [nth].
  rewrite (Z.lxor_comm (lin _) a). replace (Z.lxor (Z.lxor (Z.lxor d c) b) k) with (Z.lxor (Z.lxor (Z.lxor b c) d) k); [reflexivity|].
  f_equal. rewrite (Z.lxor_comm b c), (Z.lxor_comm _ d). now rewrite !Z.lxor_assoc.
Qed.
Lemma vsm4eq_quad x k0 k1 k2 k3 : vsm4eq_u32 (tl4 x) [k0; k1; k2; k3] = tl4 (quad4 L x k0 k1 k2 k3).
Proof. unfold vsm4eq_u32, quad4. cbn [fold_left]. fold L. now rewrite !isa_slide. Qed.
Lemma vsm4ekey_quad x k0 k1 k2 k3 : vsm4ekeyq_u32 (tl4 x) [k0; k1; k2; k3] = tl4 (quad4 L' x k0 k1 k2 k3).
Proof. unfold vsm4ekeyq_u32, quad4. cbn [fold_left]. fold L'. now rewrite !isa_slide. Qed.

Lemma fold_ext_in {S A} (f g : S -> A -> S) l : forall s, (forall s i, In i l -> f s i = g s i) -> fold_left f l s = fold_left g l s.
Proof. induction l as [|a l IH]; intros s H; [reflexivity|]. cbn [fold_left]. rewrite H by now left. apply IH. intros. apply H. now right. Qed.
(** a simulation between two folds over the same list *)
Lemma fold_sim {S T A} (R : S -> T -> Prop) (f : S -> A -> S) (g : T -> A -> T) l : forall s t,
  (forall s t i, In i l -> R s t -> R (f s i) (g t i)) -> R s t -> R (fold_left f l s) (fold_left g l t).
Proof. induction l as [|a l IH]; intros s t H HR; [exact HR|]. cbn [fold_left]. apply IH; [intros; apply H; [now right|auto]|]. apply H; [now left|auto]. Qed.

(** ** folding over the round keys by index *)
Lemma fold_nth {S} (f : S -> Z -> S) l : forall s, fold_left f l s = fold_left (fun s i => f s (nthZ i l)) (seq 0 (length l)) s.
Proof.
  induction l as [|k l IH] using rev_ind; intros s; [reflexivity|].
  rewrite app_length, fold_left_app. cbn [length fold_left]. rewrite Nat.add_1_r, seq_S, fold_left_app. cbn [fold_left Nat.add].
  rewrite IH. replace (nthZ (length l) (l ++ [k])) with k by (unfold nthZ; now rewrite app_nth2, Nat.sub_diag by lia).
  f_equal. apply fold_ext_in. intros x i Hi. apply in_seq in Hi. unfold nthZ. now rewrite app_nth1 by lia.
Qed.

Section Rounds.
  Variable rk : list Z.
  Hypothesis HL : length rk = 32%nat.
  (** the round key used at round i *)
  Definition keyat (rv : bool) (i : nat) : Z := nthZ (if rv then 31 - i else i) rk.
  Definition rks (rv : bool) : list Z := if rv then rev rk else rk.
  Lemma rks_at rv i : (i < 32)%nat -> nthZ i (rks rv) = keyat rv i.
  Proof.
    intros Hi. destruct rv; [|reflexivity]. unfold rks, keyat, nthZ. rewrite rev_nth by lia. f_equal. lia.
  Qed.
  Definition std4 (rv : bool) (x : word4) (i : nat) : word4 :=
    quad4 L x (keyat rv (4 * i)) (keyat rv (4 * i + 1)) (keyat rv (4 * i + 2)) (keyat rv (4 * i + 3)).
  Lemma std_rounds rv x : fold_left (slide L) (rks rv) x = fold_left (std4 rv) (seq 0 8) x.
  Proof.
    rewrite fold_nth. replace (length (rks rv)) with 32%nat by (destruct rv; unfold rks; rewrite ?rev_length; auto).
    rewrite (fold_ext_in _ (fun s i => slide L s (keyat rv i))).
    2:{ intros s i Hi. apply in_seq in Hi. now rewrite rks_at by lia. }
    change 32%nat with (4 * 8)%nat. rewrite fold_group. apply fold_ext_in. intros s i Hi. rewrite seq_quad. cbn [fold_left].
    unfold std4, quad4. now rewrite Nat.add_0_r.
  Qed.
  Lemma sm4_portable_quad rv x i : (i < 8)%nat ->
    fold_left (sm4_step rk rv) (seq (4 * i) 4) (tl4 x) = tl4 (std4 rv x i).
  Proof.
    intros Hi. destruct x as [[[a b] c] d].
    assert (M : forall j : nat, ((4 * i + j) mod 4 = j mod 4)%nat) by (intros j; rewrite Nat.add_comm, Nat.mul_comm; now apply Nat.mod_add).
    rewrite seq_quad. cbn [fold_left]. unfold sm4_step. rewrite <- !Nat.add_assoc, !M. cbn [Nat.add].
    unfold std4, quad4, keyat. rewrite !Nat.add_0_r. generalize (4 * i)%nat. intros m.
    change (0 mod 4)%nat with 0%nat. change (1 mod 4)%nat with 1%nat. change (2 mod 4)%nat with 2%nat. change (3 mod 4)%nat with 3%nat.
    change (4 mod 4)%nat with 0%nat. change (5 mod 4)%nat with 1%nat. change (6 mod 4)%nat with 2%nat.
    unfold Rnd_F. unfold slide, tl4. cbn [upd nthZ nth]. rewrite !Pmt_T0_eq. reflexivity.
  Qed.
  Lemma sm4_portable_rounds rv x : fold_left (sm4_step rk rv) (seq 0 32) (tl4 x) = tl4 (fold_left (slide L) (rks rv) x).
  Proof.
    rewrite std_rounds. change 32%nat with (4 * 8)%nat. rewrite fold_group.
    apply (fold_sim (fun s t => s = tl4 t)); [|reflexivity]. intros s t i Hi ->. apply in_seq in Hi. apply sm4_portable_quad. lia.
  Qed.
  Lemma arm_rks (rv : bool) i : (i < 8)%nat ->
    (if rv then swap_lanes (firstn 4 (skipn (28 - i * 4) rk)) else firstn 4 (skipn (i * 4) rk)) =
    [keyat rv (4 * i); keyat rv (4 * i + 1); keyat rv (4 * i + 2); keyat rv (4 * i + 3)].
  Proof.
    intros Hi. unfold keyat. destruct rv; rewrite firstn_skipn_nth by lia; cbn [seq map].
    - unfold swap_lanes, vtrn1q_u64, vtrn2q_u64, vtrn1q_u32, vtrn2q_u32. unfold nthZ. cbn [nth]. repeat (apply f_equal2; [apply (f_equal (fun n => nth n rk 0)); lia|]); reflexivity.
    - unfold nthZ. repeat (apply f_equal2; [apply (f_equal (fun n => nth n rk 0)); lia|]); reflexivity.
  Qed.
  Lemma sm4_arm_rounds rv x : fold_left (ni_sm4_body rk rv) (seq 0 8) (tl4 x) = tl4 (fold_left (slide L) (rks rv) x).
  Proof.
    rewrite std_rounds. apply (fold_sim (fun s t => s = tl4 t)); [|reflexivity]. intros s t i Hi ->. apply in_seq in Hi.
    unfold ni_sm4_body. cbv zeta. rewrite arm_rks by lia. apply vsm4eq_quad.
  Qed.
  Lemma sm4_portable_crypt rv b : SM4Feistel rk rv b = sm4_crypt (rks rv) b.
  Proof.
    unfold SM4Feistel, sm4_crypt. cbv zeta. change (map _ (seq 0 4)) with (tl4 (words_be b)). rewrite sm4_portable_rounds.
    destruct (fold_left (slide L) (rks rv) (words_be b)) as [[[x0 x1] x2] x3]. cbn [seq flat_map tl4 Nat.sub nthZ nth].
    now rewrite app_nil_r.
  Qed.
  Lemma ld_be32_words b : length b = 16%nat -> ld_be32 b = tl4 (words_be b).
  Proof.
    intros E. do 16 (destruct b as [|? b]; [discriminate E|]). destruct b; [|discriminate E]. reflexivity.
  Qed.
  Lemma st_be32_words x0 x1 x2 x3 : st_be32 [x3; x2; x1; x0] = be_bytes 4 x3 ++ be_bytes 4 x2 ++ be_bytes 4 x1 ++ be_bytes 4 x0.
  Proof. reflexivity. Qed.
  Lemma sm4_arm_crypt rv b : length b = 16%nat -> NI_SM4Feistel rk rv b = sm4_crypt (rks rv) b.
  Proof.
    intros E. unfold NI_SM4Feistel, sm4_crypt. rewrite ld_be32_words by exact E. rewrite sm4_arm_rounds.
    destruct (fold_left (slide L) (rks rv) (words_be b)) as [[[x0 x1] x2] x3]. apply st_be32_words.
  Qed.
End Rounds.

(** ** key expansion *)
Lemma CK_all : forallb (fun i => nthZ i sm4_CK =? CK_spec i) (seq 0 32) = true.
Proof. vm_compute. reflexivity. Qed.
Lemma CK_at i : (i < 32)%nat -> nthZ i sm4_CK = CK_spec i.
Proof. intros H. pose proof CK_all as G. rewrite forallb_forall in G. apply Z.eqb_eq, G, in_seq. lia. Qed.
Definition key_step (s : word4 * list Z) (i : nat) : word4 * list Z :=
  let x := slide L' (fst s) (CK_spec i) in (x, snd s ++ [last4 x]).
Definition key4 (s : word4 * list Z) (i : nat) : word4 * list Z :=
  let x := quad4 L' (fst s) (CK_spec (4 * i)) (CK_spec (4 * i + 1)) (CK_spec (4 * i + 2)) (CK_spec (4 * i + 3)) in
  (x, snd s ++ tl4 x).
Lemma key_quad s i : fold_left key_step (seq (4 * i) 4) s = key4 s i.
Proof.
  rewrite seq_quad. cbn [fold_left]. unfold key4, key_step, quad4. rewrite Nat.add_0_r. destruct s as [[[[a b] c] d] l].
  cbn [fst snd slide last4]. rewrite <- !app_assoc. reflexivity.
Qed.
Lemma key_group s : fold_left key_step (seq 0 32) s = fold_left key4 (seq 0 8) s.
Proof. change 32%nat with (4 * 8)%nat. rewrite fold_group. apply fold_ext_in. intros t i _. apply key_quad. Qed.
Lemma sm4_keys_alt key : sm4_round_keys key = let '(m0, m1, m2, m3) := words_be key in
  snd (fold_left key4 (seq 0 8) ((Z.lxor m0 0xA3B1BAC6, Z.lxor m1 0x56AA3350, Z.lxor m2 0x677D9197, Z.lxor m3 0xB27022DC), [])).
Proof.
  unfold sm4_round_keys. destruct (words_be key) as [[[m0 m1] m2] m3]. fold key_step. now rewrite key_group.
Qed.
Lemma sm4_keys_length key : length (sm4_round_keys key) = 32%nat.
Proof.
  rewrite sm4_keys_alt. destruct (words_be key) as [[[m0 m1] m2] m3].
  assert (G : forall n a s, length (snd (fold_left key4 (seq a n) s)) = (length (snd s) + 4 * n)%nat).
  { induction n as [|n IH]; intros a s; cbn [seq fold_left]; [lia|]. rewrite IH. unfold key4 at 1. cbn [snd].
    rewrite app_length. destruct (quad4 _ _ _ _ _ _) as [[[? ?] ?] ?]. cbn [tl4 length]. lia. }
  now rewrite G.
Qed.
Definition pkey_step (s : list Z * list Z) (i : nat) : list Z * list Z :=
  let v := Z.lxor (nthZ (Nat.modulo i 4) (fst s)) (Pmt_T1 (Z.lxor (Z.lxor (Z.lxor (nthZ (Nat.modulo (i + 1) 4) (fst s))
             (nthZ (Nat.modulo (i + 2) 4) (fst s))) (nthZ (Nat.modulo (i + 3) 4) (fst s))) (nthZ i sm4_CK))) in
  (upd (Nat.modulo i 4) v (fst s), snd s ++ [v]).
Lemma pkey_quad x l i : (i < 8)%nat -> fold_left pkey_step (seq (4 * i) 4) (tl4 x, l) =
  (tl4 (fst (key4 (x, l) i)), snd (key4 (x, l) i)).
Proof.
  intros Hi. destruct x as [[[a b] c] d].
  assert (M : forall j : nat, ((4 * i + j) mod 4 = j mod 4)%nat) by (intros j; rewrite Nat.add_comm, Nat.mul_comm; now apply Nat.mod_add).
  rewrite seq_quad. cbn [fold_left]. unfold pkey_step. cbn [fst snd]. rewrite <- !Nat.add_assoc, !M. cbn [Nat.add].
  rewrite !CK_at by lia. unfold key4, quad4. cbn [fst snd]. rewrite !Nat.add_0_r. generalize (4 * i)%nat. intros m.
  change (0 mod 4)%nat with 0%nat. change (1 mod 4)%nat with 1%nat. change (2 mod 4)%nat with 2%nat. change (3 mod 4)%nat with 3%nat.
  change (4 mod 4)%nat with 0%nat. change (5 mod 4)%nat with 1%nat. change (6 mod 4)%nat with 2%nat.
  unfold slide, tl4. cbn [upd nthZ nth]. rewrite !Pmt_T1_eq. rewrite <- !app_assoc. reflexivity.
Qed.
Lemma sm4_keysched_eq key : SM4KeySched key = sm4_round_keys key.
Proof.
  rewrite sm4_keys_alt. unfold SM4KeySched. cbv zeta.
  rewrite (fold_ext_in _ pkey_step) by (intros [K r] i _; reflexivity).
  assert (E : map (fun i => Z.lxor (be_val (slice i 4 key)) (nthZ i sm4_FK)) (seq 0 4) =
    (let '(m0, m1, m2, m3) := words_be key in tl4 (Z.lxor m0 0xA3B1BAC6, Z.lxor m1 0x56AA3350, Z.lxor m2 0x677D9197, Z.lxor m3 0xB27022DC))) by reflexivity.
  rewrite E. clear E. destruct (words_be key) as [[[m0 m1] m2] m3].
  change 32%nat with (4 * 8)%nat. rewrite fold_group.
  refine (proj2 (fold_sim (fun (s : list Z * list Z) (t : word4 * list Z) => fst s = tl4 (fst t) /\ snd s = snd t) _ _ _ _ _ _ _)); [|split; reflexivity].
  intros [K r] [x l] i Hi [H1 H2]. cbn [fst snd] in H1, H2. subst. apply in_seq in Hi. rewrite pkey_quad by lia. split; reflexivity.
Qed.
Lemma sm4_arm_keysched key : length key = 16%nat -> NI_SM4KeySched key = sm4_round_keys key.
Proof.
  intros HL. rewrite sm4_keys_alt. unfold NI_SM4KeySched. cbv zeta. rewrite ld_be32_words by exact HL.
  destruct (words_be key) as [[[m0 m1] m2] m3].
  refine (proj2 (fold_sim (fun (s : list Z * list Z) (t : word4 * list Z) => fst s = tl4 (fst t) /\ snd s = snd t) _ _ _ _ _ _ _)); [|split; reflexivity].
  intros [K r] [x l] i Hi [H1 H2]. cbn [fst snd] in H1, H2. subst. apply in_seq in Hi. cbn [fst snd].
  rewrite firstn_skipn_nth by (change (length sm4_CK) with 32%nat; lia). cbn [seq map].
  rewrite !CK_at by lia. rewrite vsm4ekey_quad. unfold key4. cbn [fst snd]. rewrite (Nat.mul_comm i 4), Nat.add_0_r. split; reflexivity.
Qed.

(** ** Keccak *)
Lemma theta64_eq A : st25 A -> theta64 A = theta A.
Proof.
  explode A. cbv -[Z.lxor rotl wd]. rewrite !Z.lxor_assoc. reflexivity.
Qed.
Lemma chi64_eq A : st25 A -> chi64 A = chi A.
Proof.
  explode A. cbv -[Z.lxor Z.land cnot compl wd]. rewrite !cnot_compl by (assumption || lia).
  repeat match goal with |- context [Z.land ?x (compl ?w ?y)] => rewrite (Z.land_comm x (compl w y)) end. reflexivity.
Qed.
Lemma kp_round_ni_eq rounds A lf ir : st25 A -> kp_round_ni rounds (A, lf) ir = kp_round rounds (A, lf) ir.
Proof.
  intros H. unfold kp_round_ni, kp_round. destruct (24 <=? ir + rounds)%nat; [|reflexivity].
  rewrite theta64_eq, theta_eq by auto. assert (H1 := theta_st A H). rewrite rho_eq by auto. assert (H2 := rho_st _ H1).
  rewrite pi_eq by auto. assert (H3 := pi_st _ H2). now rewrite chi64_eq, chi_eq by auto.
Qed.
