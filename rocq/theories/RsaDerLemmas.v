(** Lemmas for C46: the RSA key writers and parsers. *)
From Verif Require Import Base Blocks Vlong VlongLemmas Der DerLemmas DerLemmas2 RsaDerSpec RsaDer.

(** a vlong_t: words, with a 32-bit count *)
Definition reg (w : list Z) : Prop := words_ok w /\ Z.of_nat (length w) < 2 ^ 32.

Lemma octets_of_log2 v n : octets_of v n -> Z.of_nat n = Z.log2 v / 8 + 1.
Proof.
  intros (H1 & H2 & H3).
  assert (P : 0 < v). { pose proof (Z.pow_pos_nonneg 2 (8 * (Z.of_nat n - 1))). lia. }
  apply (proj1 (Z.log2_le_pow2 _ _ P)) in H2. apply (proj1 (Z.log2_lt_pow2 _ _ P)) in H3.
  assert (Z.log2 v / 8 = Z.of_nat n - 1); [|lia].
  symmetry. apply Z.div_unique with (r := Z.log2 v - 8 * (Z.of_nat n - 1)); lia.
Qed.
Lemma der_length_len v bs : der_length v bs -> bs = der_len v.
Proof.
  unfold der_len. intros [(H & ->)|(H & n & HN & H2 & ->)].
  - destruct (Z.ltb_spec v 128); [reflexivity|lia].
  - destruct (Z.ltb_spec v 128); [lia|]. cbv zeta. rewrite <- (octets_of_log2 v n) by (split; auto). now rewrite Nat2Z.id.
Qed.
Lemma put_len_der n : 0 <= n < 2 ^ 56 -> ber_put_len n = Ret (der_len n).
Proof. intros H. destruct (len_roundtrip n H) as (bs & E & D & _). now rewrite E, (der_length_len _ _ D). Qed.
Lemma get_len_der n rest : 0 <= n < 2 ^ 56 -> ber_get_len (der_len n ++ rest) = Ret (n, rest).
Proof. intros H. destruct (len_roundtrip n H) as (bs & _ & D & G & _). rewrite <- (der_length_len _ _ D). apply G. Qed.

Definition int_contents (v : Z) : list Z := be_bytes (Z.to_nat ((Z.log2 v + 1) / 8 + 1)) v.
Lemma int_contents_uint v : 0 <= v -> der_uint v (int_contents v).
Proof.
  intros H. unfold int_contents. pose proof (Z.log2_nonneg v) as LN.
  set (k := (Z.log2 v + 1) / 8).
  assert (K : 0 <= k) by (apply Z.div_pos; lia).
  assert (D : Z.log2 v + 1 = 8 * k + (Z.log2 v + 1) mod 8) by (apply Z.div_mod; lia).
  pose proof (Z.mod_pos_bound (Z.log2 v + 1) 8 ltac:(lia)) as M.
  assert (EN : Z.of_nat (Z.to_nat (k + 1)) = k + 1) by (apply Z2Nat.id; lia).
  clearbody k. apply be_bytes_der_uint; auto; rewrite ?EN.
  - lia.
  - destruct (Z.eq_dec v 0) as [->|N]; [apply Z.pow_pos_nonneg; lia|].
    apply Z.log2_lt_pow2; lia.
  - destruct (Z.eq_dec k 0) as [->|N]; [left; reflexivity|right].
    destruct (Z.eq_dec v 0) as [->|N2]; [change (Z.log2 0) with 0 in D; exfalso; change (0 + 1) with 1 in *; change (1 mod 8) with 1 in *; lia|].
    apply Z.log2_le_pow2; lia.
Qed.
Lemma der_int_contents v : der_int v = der_tlv 2 (int_contents v).
Proof. reflexivity. Qed.

Lemma put_integer_der w L : reg w ->
  ber_tlv_put_integer w L = Ret (if L <? Z.of_nat (length (der_int (val_le 32 w))) then None else Some (der_int (val_le 32 w))).
Proof.
  intros (Hw & HL). destruct (put_integer_spec w L Hw ltac:(lia)) as (lenb & c & D & U & E). rewrite E.
  rewrite (der_length_len _ _ D). rewrite der_int_contents, <- (der_uint_unique _ c (int_contents (val_le 32 w)) U); [reflexivity|].
  apply int_contents_uint. apply vval_bound; auto.
Qed.
Lemma int_octets_small w : reg w -> Z.of_nat (int_octets w) < 2 ^ 56 /\ length (int_contents (val_le 32 w)) = int_octets w.
Proof.
  intros (Hw & HL). split.
  - destruct (int_octets_spec w Hw) as (H1 & H2 & H3). pose proof (vval_bound w Hw) as VB.
    destruct H3 as [->|H3]; [lia|].
    destruct (Z_lt_ge_dec (Z.of_nat (int_octets w)) (2 ^ 56)) as [?|G]; auto. exfalso.
    assert (2 ^ (32 * Z.of_nat (length w)) <= 2 ^ (8 * (Z.of_nat (int_octets w) - 1) - 1)) by (apply Z.pow_le_mono_r; lia).
    lia.
  - rewrite <- encode_integer_length. f_equal. apply (der_uint_unique (val_le 32 w)); [|now apply encode_integer_der].
    apply int_contents_uint. apply vval_bound; auto.
Qed.
Lemma put_int_null w ret : reg w -> put_int w None ret = Ret (Some (length (der_int (val_le 32 w)), None)).
Proof.
  intros R. destruct (int_octets_small w R) as (B & E). unfold put_int. rewrite put_len_der by lia.
  rewrite der_int_contents. unfold der_tlv. change (ber_put_tag (2 ^ 31 + 2) 0) with [2].
  cbn [length]. rewrite app_length, E. do 3 f_equal. lia.
Qed.

Notation DI w := (der_int (val_le 32 w)).
Lemma put_int_buf w A B : reg w ->
  put_int w (Some (A ++ B)) (length A) = Ret (if (length B <? length (DI w))%nat then None
    else Some (length (DI w), Some (A ++ DI w ++ skipn (length (DI w)) B))).
Proof.
  intros R. unfold put_int. rewrite put_integer_der by auto. rewrite app_length.
  replace (Z.of_nat (length A + length B) - Z.of_nat (length A)) with (Z.of_nat (length B)) by lia.
  destruct (Z.ltb_spec (Z.of_nat (length B)) (Z.of_nat (length (DI w)))); destruct (Nat.ltb_spec (length B) (length (DI w))); try lia; [reflexivity|].
  unfold store. rewrite firstn_app_exact by reflexivity. rewrite skipn_app, (skipn_all2 A) by lia.
  replace (length A + length (DI w) - length A)%nat with (length (DI w)) by lia. reflexivity.
Qed.

Definition DIs (ws : list (list Z)) : list Z := concat (map (fun w => DI w) ws).
Lemma put_ints_null ws base ret : Forall reg ws -> put_ints ws None base ret = Ret (Some ((ret + length (DIs ws))%nat, None)).
Proof.
  intros H. revert ret. induction H as [|w ws Hw _ IH]; intros ret; cbn [put_ints].
  - cbn. now rewrite Nat.add_0_r.
  - rewrite put_int_null by auto. cbn [bind]. rewrite IH. unfold DIs. cbn [map concat]. rewrite app_length. do 3 f_equal. lia.
Qed.
Lemma put_ints_buf ws base : Forall reg ws -> forall A B ret, length A = (base + ret)%nat ->
  put_ints ws (Some (A ++ B)) base ret = Ret (if (length B <? length (DIs ws))%nat then None
    else Some ((ret + length (DIs ws))%nat, Some (A ++ DIs ws ++ skipn (length (DIs ws)) B))).
Proof.
  induction 1 as [|w ws Hw _ IH]; intros A B ret LA; cbn [put_ints].
  - cbn [DIs map concat length app]. rewrite skipn_O, Nat.add_0_r. destruct (Nat.ltb_spec (length B) 0); [lia|reflexivity].
  - rewrite <- LA, put_int_buf by auto.
    replace (length (DIs (w :: ws))) with (length (DI w) + length (DIs ws))%nat by (unfold DIs; cbn [map concat]; now rewrite app_length).
    destruct (Nat.ltb_spec (length B) (length (DI w))) as [L|L]; cbn [bind].
    + destruct (Nat.ltb_spec (length B) (length (DI w) + length (DIs ws))); [reflexivity|lia].
    + rewrite app_assoc, IH by (rewrite app_length; lia).
      rewrite skipn_length, skipn_skipn'.
      destruct (Nat.ltb_spec (length B - length (DI w)) (length (DIs ws)));
      destruct (Nat.ltb_spec (length B) (length (DI w) + length (DIs ws))); try lia; [reflexivity|].
      unfold DIs. cbn [map concat]. rewrite <- !app_assoc. do 3 f_equal. lia.
Qed.

(** the shift and the header *)
Lemma shift_up_spec P sub : forall C R, (sub <= length R)%nat ->
  exists X, length X = sub /\ shift_up (length P) sub (length C) (P ++ C ++ R) = P ++ X ++ C ++ skipn sub R.
Proof.
  intros C. induction C as [|c C IH] using rev_ind; intros R HR.
  - exists (firstn sub R). split; [rewrite firstn_length; lia|]. cbn [length shift_up app]. now rewrite firstn_skipn.
  - rewrite app_length. cbn [length]. rewrite Nat.add_1_r. cbn [shift_up].
    assert (E : upd (length P + sub + length C) (nthZ (length P + length C) (P ++ (C ++ [c]) ++ R)) (P ++ (C ++ [c]) ++ R)
              = P ++ C ++ (firstn sub (c :: R) ++ c :: skipn sub R)).
    { rewrite <- !app_assoc. cbn [app].
      assert (N : nthZ (length P + length C) (P ++ C ++ c :: R) = c).
      { unfold nthZ. rewrite app_nth2 by lia. replace (length P + length C - length P)%nat with (length C) by lia.
        rewrite app_nth2 by lia. now rewrite Nat.sub_diag. }
      rewrite N. rewrite upd_app_r by lia. f_equal. rewrite upd_app_r by lia. f_equal.
      replace (length P + sub + length C - length P - length C)%nat with sub by lia.
      rewrite <- (firstn_skipn sub (c :: R)) at 1. rewrite upd_app_r by (rewrite firstn_length; cbn [length]; lia).
      f_equal. rewrite firstn_length_le by (cbn [length]; lia). rewrite Nat.sub_diag.
      destruct (skipn sub (c :: R)) as [|y ys] eqn:EY; [apply (f_equal (@length Z)) in EY; rewrite skipn_length in EY; cbn [length] in EY; lia|].
      cbn [upd]. f_equal. apply (f_equal (skipn 1)) in EY. rewrite skipn_skipn' in EY. rewrite Nat.add_1_r in EY. cbn [skipn] in EY. now rewrite EY. }
    rewrite E. destruct (IH (firstn sub (c :: R) ++ c :: skipn sub R)) as (X & LX & EX).
    { rewrite app_length, firstn_length. cbn [length]. rewrite skipn_length. lia. }
    exists X. split; [exact LX|]. rewrite EX. rewrite skipn_app_exact by (rewrite firstn_length; cbn [length]; lia).
    now rewrite <- app_assoc.
Qed.
Lemma copy_hdr_0 tl : forall X T, (length X <= length tl)%nat -> copy_hdr 0 (length X) tl (X ++ T) = Ret (firstn (length X) tl ++ T).
Proof.
  intros X. induction X as [|x X IH] using rev_ind; intros T HL; [reflexivity|].
  rewrite app_length in *. cbn [length] in *. rewrite Nat.add_1_r in *. cbn [copy_hdr]. rewrite Nat.add_0_l.
  destruct (nth_error tl (length X)) as [c|] eqn:N; [|apply nth_error_None in N; lia].
  rewrite <- app_assoc. cbn [app]. rewrite upd_app_r by lia. rewrite Nat.sub_diag. cbn [upd].
  rewrite IH by lia. f_equal. apply nth_error_split in N. destruct N as (l1 & l2 & -> & E).
  rewrite <- E. rewrite firstn_app_exact by reflexivity.
  replace (S (length l1)) with (length (l1 ++ [c])) by (rewrite app_length; cbn; lia).
  change (l1 ++ c :: l2) with (l1 ++ [c] ++ l2). rewrite (app_assoc l1), firstn_app_exact by reflexivity. now rewrite <- app_assoc.
Qed.
Lemma copy_hdr_ub lo n tl buf : length tl = n -> (0 < n)%nat -> (0 < lo)%nat -> copy_hdr lo n tl buf = UB.
Proof.
  intros L N LO. destruct n as [|k]; [lia|]. cbn [copy_hdr].
  destruct (nth_error tl (lo + k)) as [c|] eqn:E; [|reflexivity].
  assert (lo + k < length tl)%nat by (apply nth_error_Some; congruence). lia.
Qed.

Notation HDR n := (0x30 :: der_len (Z.of_nat n)).
Lemma close_seq_null lo n : Z.of_nat n < 2 ^ 56 -> close_seq lo n None = Ret (Some ((n + length (HDR n))%nat, None)).
Proof. intros H. unfold close_seq. rewrite put_len_der by lia. reflexivity. Qed.
Lemma close_seq_0 C R : Z.of_nat (length C) < 2 ^ 56 ->
  close_seq 0 (length C) (Some (C ++ R)) = Ret (if (length R <? length (HDR (length C)))%nat then None
    else Some (length (der_seq C), Some (der_seq C ++ skipn (length (HDR (length C))) R))).
Proof.
  intros H. unfold close_seq. rewrite put_len_der by lia. cbv zeta. change (ber_put_tag (2 ^ 31 + 16) 1) with [0x30].
  change ([48] ++ der_len (Z.of_nat (length C))) with (HDR (length C)). rewrite app_length, Nat.add_0_l.
  set (h := HDR (length C)).
  assert (LS : length (der_seq C) = (length C + length h)%nat) by (unfold der_seq, der_tlv, h; cbn [length]; rewrite app_length; lia).
  destruct (Nat.ltb_spec (length C + length R) (length C + length h)); destruct (Nat.ltb_spec (length R) (length h)); try lia; [reflexivity|].
  destruct (shift_up_spec [] (length h) C R ltac:(lia)) as (X & LX & EX). cbn [length app] in EX. rewrite EX.
  rewrite <- LX at 1. rewrite copy_hdr_0 by lia. rewrite LX, firstn_all. rewrite LS. do 4 f_equal.
  unfold der_seq, der_tlv, h. cbn [app]. rewrite <- !app_assoc. reflexivity.
Qed.
Lemma close_seq_ub lo n buf : Z.of_nat n < 2 ^ 56 -> (0 < lo)%nat -> (lo + n + length (HDR n) <= length buf)%nat -> close_seq lo n (Some buf) = UB.
Proof.
  intros H L B. unfold close_seq. rewrite put_len_der by lia. cbv zeta. change (ber_put_tag (2 ^ 31 + 16) 1) with [0x30].
  change ([48] ++ der_len (Z.of_nat n)) with (HDR n). destruct (Nat.ltb_spec (length buf) (lo + n + length (HDR n))); [lia|].
  rewrite copy_hdr_ub; auto. cbn [length]. lia.
Qed.
