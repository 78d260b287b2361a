(** Base: machine words, octet strings and list helpers shared by all models.
    Everything here is plain arithmetic on [Z]; C unsigned arithmetic is made
    explicit as "mod 2^k" where the code relies on it. *)
From Coq Require Export ZArith List Lia Bool Arith.
From Coq Require Export ZifyBool ZifyNat.
Export ListNotations.
Open Scope Z_scope.

Definition u8  (x : Z) : Z := x mod 2 ^ 8.
Definition u16 (x : Z) : Z := x mod 2 ^ 16.
Definition u32 (x : Z) : Z := x mod 2 ^ 32.
Definition u64 (x : Z) : Z := x mod 2 ^ 64.

Definition byte_ok (b : Z) : Prop := 0 <= b < 2 ^ 8.
Definition word_ok (w : Z) : Prop := 0 <= w < 2 ^ 32.
Definition dword_ok (w : Z) : Prop := 0 <= w < 2 ^ 64.
Definition bytes_ok (l : list Z) : Prop := Forall byte_ok l.
Definition words_ok (l : list Z) : Prop := Forall word_ok l.
Definition dwords_ok (l : list Z) : Prop := Forall dword_ok l.

(** [nthZ i l] : the i-th element, 0 beyond the end.  Models only use it where
    the C code itself substitutes 0 ("i < a->c ? a->v[i] : 0") or where the
    index is in range. *)
Definition nthZ (i : nat) (l : list Z) : Z := nth i l 0.

(** Functional array update: [upd i v l] is [l] with element i replaced. *)
Fixpoint upd {A} (i : nat) (v : A) (l : list A) : list A :=
  match l, i with
  | [], _ => []
  | _ :: t, O => v :: t
  | h :: t, S j => h :: upd j v t
  end.

Lemma upd_length {A} i (v : A) l : length (upd i v l) = length l.
Proof. revert i; induction l as [|h t IH]; intros [|i]; simpl; auto. Qed.

Lemma nth_upd_eq {A} i (v d : A) l :
  (i < length l)%nat -> nth i (upd i v l) d = v.
Proof.
  revert i; induction l as [|h t IH]; intros [|i] H; simpl in *; try lia; auto.
  apply IH; lia.
Qed.

Lemma nth_upd_neq {A} i j (v d : A) l :
  i <> j -> nth j (upd i v l) d = nth j l d.
Proof.
  revert i j; induction l as [|h t IH]; intros [|i] [|j] H; simpl; auto; try congruence.
Qed.

Lemma upd_Forall {A} (P : A -> Prop) i v l : Forall P l -> P v -> Forall P (upd i v l).
Proof.
  intros H Hv; revert i; induction H as [|h t Hh Ht IH]; intros [|i]; simpl; constructor; auto.
Qed.

Lemma upd_app_r {A} i (v : A) l1 l2 :
  (length l1 <= i)%nat -> upd i v (l1 ++ l2) = l1 ++ upd (i - length l1) v l2.
Proof.
  revert i; induction l1 as [|h t IH]; intros i Hi; simpl in *.
  - now rewrite Nat.sub_0_r.
  - destruct i as [|i]; [lia|]. simpl. f_equal. rewrite IH by lia. reflexivity.
Qed.

Lemma upd_app_l {A} i (v : A) l1 l2 :
  (i < length l1)%nat -> upd i v (l1 ++ l2) = upd i v l1 ++ l2.
Proof.
  revert i; induction l1 as [|h t IH]; intros i Hi; simpl in *; [lia|].
  destruct i as [|i]; simpl; f_equal. apply IH; lia.
Qed.

Lemma list_ext (l1 l2 : list Z) :
  length l1 = length l2 ->
  (forall i, (i < length l1)%nat -> nthZ i l1 = nthZ i l2) -> l1 = l2.
Proof.
  intros HL H. apply nth_ext with (d := 0) (d' := 0); auto.
Qed.

Lemma nthZ_words l i : words_ok l -> word_ok (nthZ i l).
Proof.
  intros H. unfold nthZ. destruct (Nat.lt_ge_cases i (length l)) as [Hl|Hl].
  - apply Forall_nth; auto.
  - rewrite nth_overflow by lia. unfold word_ok; lia.
Qed.

Lemma nthZ_bytes l i : bytes_ok l -> byte_ok (nthZ i l).
Proof.
  intros H. unfold nthZ. destruct (Nat.lt_ge_cases i (length l)) as [Hl|Hl].
  - apply Forall_nth; auto.
  - rewrite nth_overflow by lia. unfold byte_ok; lia.
Qed.

(** Little-endian value of a list of base-2^w digits. *)
Fixpoint val_le (w : Z) (l : list Z) : Z :=
  match l with
  | [] => 0
  | d :: t => d + 2 ^ w * val_le w t
  end.

(** The number denoted by an octet string read as big-endian / little-endian. *)
Definition le_val (l : list Z) : Z := val_le 8 l.
Definition be_val (l : list Z) : Z := val_le 8 (rev l).

(** [to_le w n x]: n little-endian base-2^w digits of x. *)
Fixpoint to_le (w : Z) (n : nat) (x : Z) : list Z :=
  match n with
  | O => []
  | S k => x mod 2 ^ w :: to_le w k (x / 2 ^ w)
  end.
Definition le_bytes (n : nat) (x : Z) : list Z := to_le 8 n x.
Definition be_bytes (n : nat) (x : Z) : list Z := rev (to_le 8 n x).

Lemma to_le_length w n x : length (to_le w n x) = n.
Proof. revert x; induction n; intros; simpl; auto. Qed.

Lemma val_le_bound w l :
  0 <= w -> Forall (fun d => 0 <= d < 2 ^ w) l ->
  0 <= val_le w l < 2 ^ (w * Z.of_nat (length l)).
Proof.
  intros Hw H; induction H as [|d t Hd Ht IH]; cbn [val_le length].
  - rewrite Z.mul_0_r. simpl. lia.
  - rewrite Nat2Z.inj_succ, Z.mul_succ_r, Z.pow_add_r by lia.
    assert (0 < 2 ^ w) by (apply Z.pow_pos_nonneg; lia). nia.
Qed.

Lemma val_le_app w l1 l2 :
  0 <= w ->
  val_le w (l1 ++ l2) = val_le w l1 + 2 ^ (w * Z.of_nat (length l1)) * val_le w l2.
Proof.
  intros Hw; induction l1 as [|d t IH]; cbn [app val_le length].
  - rewrite Z.mul_0_r. simpl (2 ^ 0). lia.
  - rewrite IH, Nat2Z.inj_succ, Z.mul_succ_r, Z.pow_add_r by lia. ring.
Qed.

Lemma to_le_digits w n x :
  0 <= w -> Forall (fun d => 0 <= d < 2 ^ w) (to_le w n x).
Proof.
  intros Hw; revert x; induction n; intros x; simpl; constructor; auto.
  apply Z.mod_pos_bound, Z.pow_pos_nonneg; lia.
Qed.

Lemma val_to_le w n x :
  0 <= w -> val_le w (to_le w n x) = x mod 2 ^ (w * Z.of_nat n).
Proof.
  intros Hw; revert x; induction n as [|n IH]; intros x; cbn [to_le val_le].
  - rewrite Z.mul_0_r. simpl. now rewrite Z.mod_1_r.
  - rewrite IH, Nat2Z.inj_succ, Z.mul_succ_r, Z.add_comm, (Z.add_comm _ w), Z.pow_add_r by lia.
    rewrite Z.rem_mul_r; [lia| |]; try apply Z.pow_nonzero; try lia.
    all: try (apply Z.pow_pos_nonneg; lia).
Qed.

Lemma to_le_val w l :
  0 <= w -> Forall (fun d => 0 <= d < 2 ^ w) l ->
  to_le w (length l) (val_le w l) = l.
Proof.
  intros Hw H; induction H as [|d t Hd Ht IH]; cbn [length val_le to_le]; auto.
  rewrite (Z.mul_comm (2 ^ w)), Z.mod_add, Z.div_add by (apply Z.pow_nonzero; lia).
  rewrite Z.mod_small, Z.div_small, Z.add_0_l by lia. now f_equal.
Qed.

Lemma val_le_inj w l1 l2 :
  0 <= w -> Forall (fun d => 0 <= d < 2 ^ w) l1 -> Forall (fun d => 0 <= d < 2 ^ w) l2 ->
  length l1 = length l2 -> val_le w l1 = val_le w l2 -> l1 = l2.
Proof.
  intros Hw H1 H2 HL HV.
  rewrite <- (to_le_val w l1), <- (to_le_val w l2) by auto. now rewrite HL, HV.
Qed.

Lemma val_le_zeros w n : val_le w (repeat 0 n) = 0.
Proof. induction n; cbn [repeat val_le]; [reflexivity|]. rewrite IHn. ring. Qed.

Lemma nth_to_le w n x i :
  0 <= w -> (i < n)%nat -> nthZ i (to_le w n x) = (x / 2 ^ (w * Z.of_nat i)) mod 2 ^ w.
Proof.
  intros Hw; revert x i; induction n as [|n IH]; intros x i Hi; [lia|].
  destruct i as [|i]; unfold nthZ; cbn [to_le nth].
  - rewrite Z.mul_0_r. simpl (2 ^ 0). now rewrite Z.div_1_r.
  - unfold nthZ in IH. rewrite IH by lia. rewrite Nat2Z.inj_succ, Z.mul_succ_r.
    rewrite Z.add_comm, Z.pow_add_r by lia.
    rewrite Z.div_div; auto; try apply Z.pow_nonzero; try lia.
    all: try (apply Z.pow_pos_nonneg; lia).
Qed.

Lemma nth_val_le w l i :
  0 <= w -> Forall (fun d => 0 <= d < 2 ^ w) l ->
  nthZ i l = (val_le w l / 2 ^ (w * Z.of_nat i)) mod 2 ^ w.
Proof.
  intros Hw H. destruct (Nat.lt_ge_cases i (length l)) as [Hi|Hi].
  - rewrite <- (nth_to_le w (length l)) by auto. now rewrite to_le_val.
  - unfold nthZ. rewrite nth_overflow by lia.
    pose proof (val_le_bound w l Hw H) as B.
    rewrite Z.div_small; [symmetry; apply Z.mod_0_l, Z.pow_nonzero; lia|].
    split; [lia|]. apply Z.lt_le_trans with (1 := proj2 B).
    apply Z.pow_le_mono_r; try lia. nia.
Qed.

Lemma words_digits l : words_ok l <-> Forall (fun d => 0 <= d < 2 ^ 32) l.
Proof. reflexivity. Qed.

Lemma bytes_digits l : bytes_ok l <-> Forall (fun d => 0 <= d < 2 ^ 8) l.
Proof. reflexivity. Qed.

Lemma le_val_bound l : bytes_ok l -> 0 <= le_val l < 2 ^ (8 * Z.of_nat (length l)).
Proof. intros H. apply val_le_bound; auto; lia. Qed.

Lemma be_val_bound l : bytes_ok l -> 0 <= be_val l < 2 ^ (8 * Z.of_nat (length l)).
Proof.
  intros H. unfold be_val. rewrite <- (rev_length l). apply val_le_bound; [lia|].
  apply Forall_rev, H.
Qed.

Lemma le_bytes_ok n x : bytes_ok (le_bytes n x).
Proof. apply to_le_digits; lia. Qed.
Lemma be_bytes_ok n x : bytes_ok (be_bytes n x).
Proof. apply Forall_rev, to_le_digits; lia. Qed.
Lemma le_bytes_length n x : length (le_bytes n x) = n.
Proof. apply to_le_length. Qed.
Lemma be_bytes_length n x : length (be_bytes n x) = n.
Proof. unfold be_bytes. rewrite rev_length. apply to_le_length. Qed.
Lemma le_val_le_bytes n x : le_val (le_bytes n x) = x mod 2 ^ (8 * Z.of_nat n).
Proof. apply val_to_le; lia. Qed.
Lemma be_val_be_bytes n x : be_val (be_bytes n x) = x mod 2 ^ (8 * Z.of_nat n).
Proof. unfold be_val, be_bytes. rewrite rev_involutive. apply val_to_le; lia. Qed.
Lemma be_bytes_be_val l : bytes_ok l -> be_bytes (length l) (be_val l) = l.
Proof.
  intros H. unfold be_val, be_bytes. rewrite <- (rev_length l), to_le_val, rev_involutive; auto; try lia.
  apply Forall_rev, H.
Qed.
Lemma le_bytes_le_val l : bytes_ok l -> le_bytes (length l) (le_val l) = l.
Proof. intros H. apply to_le_val; auto; lia. Qed.

Lemma be_val_app a b : be_val (a ++ b) = be_val a * 2 ^ (8 * Z.of_nat (length b)) + be_val b.
Proof.
  unfold be_val. rewrite rev_app_distr, val_le_app, rev_length by lia. ring.
Qed.

(** xor of two octet strings, element-wise over the shorter one. *)
Fixpoint xorb_list (a b : list Z) : list Z :=
  match a, b with
  | x :: s, y :: t => Z.lxor x y :: xorb_list s t
  | _, _ => []
  end.

Lemma xorb_list_length a b : length (xorb_list a b) = Nat.min (length a) (length b).
Proof. revert b; induction a; intros [|y t]; simpl; auto. Qed.

Lemma lxor_bound n x y : 0 <= n -> 0 <= x < 2 ^ n -> 0 <= y < 2 ^ n -> 0 <= Z.lxor x y < 2 ^ n.
Proof.
  intros Hn Hx Hy. assert (0 <= Z.lxor x y) by (apply Z.lxor_nonneg; lia).
  split; auto. destruct (Z.eq_dec (Z.lxor x y) 0) as [->|E]; [lia|].
  apply Z.log2_lt_pow2; [lia|].
  apply Z.le_lt_trans with (Z.max (Z.log2 x) (Z.log2 y)).
  - apply Z.log2_lxor; lia.
  - destruct (Z.eq_dec n 0) as [->|].
    { change (2 ^ 0) with 1 in *. assert (x = 0) by lia. assert (y = 0) by lia. subst. simpl in E. lia. }
    apply Z.max_lub_lt.
    + destruct (Z.eq_dec x 0) as [->|]; [simpl; lia|]. apply Z.log2_lt_pow2; lia.
    + destruct (Z.eq_dec y 0) as [->|]; [simpl; lia|]. apply Z.log2_lt_pow2; lia.
Qed.

Lemma xorb_list_ok a b : bytes_ok a -> bytes_ok b -> bytes_ok (xorb_list a b).
Proof.
  intros Ha; revert b; induction Ha; intros b Hb; simpl; [constructor|].
  destruct Hb; constructor; [|now apply IHHa]. apply lxor_bound; auto; lia.
Qed.

Lemma xorb_list_cancel a b : (length a <= length b)%nat -> xorb_list (xorb_list a b) b = a.
Proof.
  revert b; induction a as [|x s IH]; intros [|y t] H; simpl in *; auto; try lia.
  rewrite IH by lia. f_equal. now rewrite Z.lxor_assoc, Z.lxor_nilpotent, Z.lxor_0_r.
Qed.

Lemma xorb_list_comm a b : xorb_list a b = xorb_list b a.
Proof. revert b; induction a; intros [|y t]; simpl; auto. now rewrite Z.lxor_comm, IHa. Qed.

Lemma xorb_list_app a b c d : length a = length c ->
  xorb_list (a ++ b) (c ++ d) = xorb_list a c ++ xorb_list b d.
Proof.
  revert c; induction a; intros [|y t] H; simpl in *; auto; try lia. f_equal. apply IHa; lia.
Qed.

Lemma xorb_list_firstn_r a b : xorb_list a (firstn (length a) b) = xorb_list a b.
Proof. revert b; induction a; intros [|y t]; simpl; auto. now rewrite IHa. Qed.

Lemma Forall_firstn {A} (P : A -> Prop) n l : Forall P l -> Forall P (firstn n l).
Proof. intros H. revert n. induction H; intros [|n]; cbn; constructor; auto. Qed.
Lemma Forall_skipn {A} (P : A -> Prop) n l : Forall P l -> Forall P (skipn n l).
Proof. intros H. revert n. induction H; intros [|n]; cbn; auto. Qed.
Lemma nth_skipn {A} (d : A) n l i : nth i (skipn n l) d = nth (n + i) l d.
Proof. revert l. induction n; intros [|h t]; cbn; auto. now destruct i. Qed.

Lemma nth_firstn {A} (d : A) n l i : nth i (firstn n l) d = if (i <? n)%nat then nth i l d else d.
Proof.
  revert l i. induction n as [|n IH]; intros l i.
  - cbn. now destruct i.
  - destruct l as [|h t]; [cbn [firstn]; rewrite !nth_overflow by (cbn; lia); now destruct (i <? S n)%nat|].
    destruct i as [|i]; cbn [firstn nth]; [reflexivity|]. rewrite IH. reflexivity.
Qed.
