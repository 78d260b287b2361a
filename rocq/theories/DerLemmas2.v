(** Proofs about DER lengths, tags, headers and INTEGER contents. *)
From Verif Require Import Base Vlong VlongLemmas VlongDivLemmas VlongMulLemmas Der DerLemmas.

Lemma pow8_succ n : 2 ^ (8 * Z.of_nat (S n)) = 2 ^ 8 * 2 ^ (8 * Z.of_nat n).
Proof. rewrite <- Z.pow_add_r by lia. f_equal. lia. Qed.
Lemma pow8_pos n : 0 < 2 ^ (8 * Z.of_nat n).
Proof. apply Z.pow_pos_nonneg; lia. Qed.

(** n is the number of significant octets of val *)
Definition octets_of (val : Z) (n : nat) : Prop :=
  (1 <= n)%nat /\ 2 ^ (8 * (Z.of_nat n - 1)) <= val < 2 ^ (8 * Z.of_nat n).

Lemma octets_exist val m : 0 < val < 2 ^ (8 * Z.of_nat m) -> exists n, octets_of val n /\ (n <= m)%nat.
Proof.
  induction m as [|m IH]; intros H.
  - change (2 ^ (8 * Z.of_nat 0)) with 1 in H. lia.
  - destruct (Z_lt_ge_dec val (2 ^ (8 * Z.of_nat m))) as [L|L].
    + destruct IH as (n & Hn & Hm); [lia|]. exists n. split; auto.
    + exists (S m). split; [|lia]. split; [lia|]. split; [|lia].
      replace (Z.of_nat (S m) - 1) with (Z.of_nat m) by lia. lia.
Qed.

Lemma octets_step val n : octets_of val (S n) -> n <> 0%nat -> octets_of (val / 2 ^ 8) n.
Proof.
  intros [H1 [H2 H3]] Hn. split; [lia|]. rewrite pow8_succ in H3.
  replace (8 * (Z.of_nat (S n) - 1)) with (8 + 8 * (Z.of_nat n - 1)) in H2 by lia.
  rewrite Z.pow_add_r in H2 by lia.
  split; [apply Z.div_le_lower_bound; lia|apply Z.div_lt_upper_bound; lia].
Qed.

Lemma be_bytes_succ n x : be_bytes (S n) x = be_bytes n (x / 2 ^ 8) ++ [x mod 2 ^ 8].
Proof. reflexivity. Qed.

Lemma push_len_loop_spec n : forall fuel val st ret, octets_of val n -> (n <= fuel)%nat ->
  push_len_loop fuel val st ret = (be_bytes n val ++ st, ret + Z.of_nat n).
Proof.
  induction n as [|n IH]; intros fuel val st ret H Hf.
  - destruct H; lia.
  - destruct fuel as [|f]; [lia|]. cbn [push_len_loop].
    assert (0 < val). { destruct H as [_ [H _]]. pose proof (Z.pow_pos_nonneg 2 (8 * (Z.of_nat (S n) - 1))). lia. }
    destruct (Z.eqb_spec val 0); [lia|].
    rewrite Z.shiftr_div_pow2 by lia.
    destruct n as [|n].
    + assert (V : val / 2 ^ 8 = 0). { apply Z.div_small. destruct H as [_ [_ H]]. change (8 * Z.of_nat 1) with 8 in H. lia. }
      rewrite V. assert (P : forall s r, push_len_loop f 0 s r = (s, r)) by (intros; destruct f; reflexivity).
      rewrite P. rewrite be_bytes_succ. cbn [be_bytes to_le rev app]. f_equal.
    + rewrite IH; [|apply octets_step; auto; lia|lia].
      rewrite (be_bytes_succ (S n) val), <- app_assoc. cbn [app]. f_equal; lia.
Qed.

Lemma put_len_count_spec n : forall fuel val ret, octets_of val n -> (n <= 7)%nat ->
  (0 <= ret <= Z.of_nat n) -> (Z.of_nat n - ret < Z.of_nat fuel) -> put_len_count fuel val ret = Ret (Z.of_nat n).
Proof.
  intros fuel. induction fuel as [|f IH]; intros val ret H Hn Hr Hf; [lia|].
  cbn [put_len_count]. destruct (Z.leb_spec 64 (8 * ret)); [lia|].
  destruct H as [G1 [G2 G3]]. rewrite Z.shiftr_div_pow2 by lia.
  destruct (Z.eq_dec ret (Z.of_nat n)) as [E|E].
  - subst ret. rewrite Z.div_small by (split; [pose proof (Z.pow_pos_nonneg 2 (8 * (Z.of_nat n - 1))); lia|lia]).
    destruct (Z.ltb_spec 0 0); [lia|]. reflexivity.
  - assert (1 <= val / 2 ^ (8 * ret)).
    { apply Z.div_le_lower_bound; [apply Z.pow_pos_nonneg; lia|]. rewrite Z.mul_1_r.
      apply Z.le_trans with (2 := G2). apply Z.pow_le_mono_r; lia. }
    destruct (Z.ltb_spec 0 (val / 2 ^ (8 * ret))); [|lia].
    apply IH; try lia. split; auto.
Qed.

Lemma lor128 n : (n <= 127)%nat -> u8 (Z.lor 128 (Z.of_nat n)) = 128 + Z.of_nat n.
Proof.
  intros H. rewrite Z.lor_comm. change 128 with (1 * 2 ^ 7) at 1.
  rewrite lor_shift_add by lia. unfold u8. rewrite Z.mod_small; lia.
Qed.

Lemma map_be_bytes val n :
  map (fun j => u8 (Z.shiftr val (8 * (Z.of_nat n - 1 - Z.of_nat j)))) (seq 0 n) = be_bytes n val.
Proof.
  unfold be_bytes.
  rewrite <- (map_seq_to_le 8 (fun i => u8 (Z.shiftr val (8 * Z.of_nat i))) val n); [|lia|].
  - rewrite <- (map_seq_rev (fun i => u8 (Z.shiftr val (8 * Z.of_nat i)))).
    apply map_ext_in. intros j Hj. apply in_seq in Hj. f_equal. f_equal. lia.
  - intros i _. unfold u8. now rewrite Z.shiftr_div_pow2 by lia.
Qed.

Lemma put_len_long val n : 128 <= val -> octets_of val n -> (n <= 7)%nat ->
  ber_put_len val = Ret ((128 + Z.of_nat n) :: be_bytes n val).
Proof.
  intros Hv Hn H7. unfold ber_put_len. destruct (Z.ltb_spec val 128); [lia|].
  rewrite (put_len_count_spec n) by (auto; lia).
  rewrite Nat2Z.id, lor128 by lia. now rewrite map_be_bytes.
Qed.

Lemma push_len_long stack val n : 128 <= val -> octets_of val n -> (n <= 8)%nat ->
  ber_push_len stack val = ((128 + Z.of_nat n) :: be_bytes n val ++ stack, Z.of_nat n + 1).
Proof.
  intros Hv Hn H7. unfold ber_push_len. destruct (Z.ltb_spec val 128); [lia|].
  rewrite (push_len_loop_spec n) by (auto; lia). rewrite Z.add_0_l, lor128 by lia. reflexivity.
Qed.

Lemma get_len_loop_spec bs : bytes_ok bs -> forall ret rest, 0 <= ret ->
  ret * 2 ^ (8 * Z.of_nat (length bs)) + be_val bs < 2 ^ 64 ->
  get_len_loop (length bs) ret (bs ++ rest) = (ret * 2 ^ (8 * Z.of_nat (length bs)) + be_val bs, rest).
Proof.
  induction 1 as [|b bs Hb Hbs IH]; intros ret rest Hr HB.
  - cbn [length app get_len_loop]. change (2 ^ (8 * Z.of_nat 0)) with 1. cbn. f_equal. lia.
  - cbn [length app get_len_loop]. cbn [length] in HB. unfold byte_ok in Hb.
    change (b :: bs) with ([b] ++ bs) in *. rewrite be_val_app in *. rewrite pow8_succ in *.
    cbn [length app] in *.
    assert (BV : be_val [b] = b) by (cbn; lia). rewrite BV in *.
    pose proof (be_val_bound bs Hbs) as BB. pose proof (pow8_pos (length bs)) as PP.
    assert (R1 : 0 <= ret * 2 ^ 8 + b < 2 ^ 64) by nia.
    assert (E : Z.lor (u64 (Z.shiftl ret 8)) b = ret * 2 ^ 8 + b).
    { rewrite Z.shiftl_mul_pow2 by lia. unfold u64. rewrite Z.mod_small by lia.
      rewrite Z.lor_comm, lor_shift_add by lia. lia. }
    rewrite E, IH; [f_equal; ring|lia|]. nia.
Qed.

Lemma get_len_long val n rest : octets_of val n -> (n <= 8)%nat ->
  ber_get_len (((128 + Z.of_nat n) :: be_bytes n val) ++ rest) = Ret (val, rest).
Proof.
  intros H Hn. cbn [app]. unfold ber_get_len. destruct (Z.ltb_spec (128 + Z.of_nat n) 128); [lia|].
  assert (S : Z.land (128 + Z.of_nat n) 127 = Z.of_nat n).
  { change 127 with (Z.ones 7). rewrite Z.land_ones by lia.
    symmetry. apply Z.mod_unique with (q := 1); lia. }
  rewrite S. rewrite app_length, be_bytes_length.
  destruct (Z.ltb_spec 8 (Z.of_nat n)); [lia|]. cbn [orb].
  destruct (Z.ltb_spec (Z.of_nat (n + length rest)) (Z.of_nat n)); [lia|].
  rewrite Nat2Z.id. destruct H as [G1 [G2 G3]].
  assert (V0 : 0 <= val) by (pose proof (Z.pow_pos_nonneg 2 (8 * (Z.of_nat n - 1))); lia).
  assert (VB : val < 2 ^ 64). { apply Z.lt_le_trans with (1 := G3). apply Z.pow_le_mono_r; lia. }
  pose proof (get_len_loop_spec (be_bytes n val) (be_bytes_ok n val) 0 rest ltac:(lia)) as G.
  rewrite be_bytes_length, be_val_be_bytes, Z.mod_small in G by lia.
  rewrite Z.mul_0_l, Z.add_0_l in G. now rewrite G.
Qed.

(** The DER encoding of a length, stated on its own. *)
Definition der_length (val : Z) (bs : list Z) : Prop :=
  (val < 128 /\ bs = [val]) \/
  (128 <= val /\ exists n, (1 <= n)%nat /\ 2 ^ (8 * (Z.of_nat n - 1)) <= val < 2 ^ (8 * Z.of_nat n) /\
     bs = (128 + Z.of_nat n) :: be_bytes n val).

Lemma len_roundtrip val : 0 <= val < 2 ^ 56 ->
  exists bs, ber_put_len val = Ret bs /\ der_length val bs /\
    (forall rest, ber_get_len (bs ++ rest) = Ret (val, rest)) /\
    (forall stack, ber_push_len stack val = (bs ++ stack, Z.of_nat (length bs))).
Proof.
  intros H. destruct (Z_lt_ge_dec val 128) as [L|L].
  - exists [val]. unfold ber_put_len, ber_push_len, ber_get_len. cbn [app].
    destruct (Z.ltb_spec val 128); [|lia]. repeat split; auto. left; auto.
  - destruct (octets_exist val 7) as (n & Hn & H7); [change (8 * Z.of_nat 7) with 56; lia|].
    exists ((128 + Z.of_nat n) :: be_bytes n val). repeat split.
    + apply put_len_long; auto; lia.
    + right. split; [lia|]. exists n. destruct Hn as [? ?]. auto.
    + intros rest. apply get_len_long; auto; lia.
    + intros stack. rewrite (push_len_long stack val n) by (auto; lia).
      cbn [length app]. rewrite be_bytes_length. f_equal. lia.
Qed.

Lemma push_len_roundtrip val stack : 0 <= val < 2 ^ 64 ->
  exists bs, ber_push_len stack val = (bs ++ stack, Z.of_nat (length bs)) /\ der_length val bs /\
    ber_get_len (bs ++ stack) = Ret (val, stack).
Proof.
  intros H. destruct (Z_lt_ge_dec val 128) as [L|L].
  - exists [val]. unfold ber_push_len, ber_get_len. cbn [app].
    destruct (Z.ltb_spec val 128); [|lia]. repeat split; auto. left; auto.
  - destruct (octets_exist val 8) as (n & Hn & H7); [change (8 * Z.of_nat 8) with 64; lia|].
    exists ((128 + Z.of_nat n) :: be_bytes n val). repeat split.
    + rewrite (push_len_long stack val n) by (auto; lia).
      cbn [length app]. rewrite be_bytes_length. f_equal. lia.
    + right. split; [lia|]. exists n. destruct Hn as [? ?]. auto.
    + apply get_len_long; auto; lia.
Qed.

Lemma put_len_count_ub fuel val ret : 2 ^ 56 <= val -> 0 <= ret -> put_len_count fuel val ret = UB \/
  (8 <= ret).
Proof.
  revert ret. induction fuel as [|f IH]; intros ret Hv Hr; cbn [put_len_count]; auto.
  destruct (Z.leb_spec 64 (8 * ret)); [auto|].
  rewrite Z.shiftr_div_pow2 by lia.
  assert (1 <= val / 2 ^ (8 * ret)).
  { apply Z.div_le_lower_bound; [apply Z.pow_pos_nonneg; lia|]. rewrite Z.mul_1_r.
    apply Z.le_trans with (2 := Hv). apply Z.pow_le_mono_r; lia. }
  destruct (Z.ltb_spec 0 (val / 2 ^ (8 * ret))); [|lia].
  destruct (IH (ret + 1) Hv ltac:(lia)) as [E|E]; auto.
  (* ret + 1 >= 8 means ret = 7: next step is UB *)
  assert (ret = 7) by lia. subst. left. destruct f; cbn [put_len_count]; auto.
Qed.

Lemma put_len_ub val : 2 ^ 56 <= val -> ber_put_len val = UB.
Proof.
  intros H. unfold ber_put_len. destruct (Z.ltb_spec val 128); [lia|].
  destruct (put_len_count_ub 9 val 0 H) as [E|E]; [lia| |lia]. now rewrite E.
Qed.

(** tags *)
Lemma land_mod x k : 0 <= k -> Z.land x (2 ^ k - 1) = x mod 2 ^ k.
Proof.
  intros. rewrite <- Z.land_ones by auto. f_equal. rewrite Z.ones_equiv. lia.
Qed.

Definition tag_value (cls num : Z) : Z := 2 ^ 31 + cls * 2 ^ 29 + num.

Lemma tagnum_value cls num : 0 <= cls <= 3 -> 0 <= num < 2 ^ 28 -> tagnum (tag_value cls num) = num.
Proof.
  intros Hc Hn. unfold tagnum, tag_value. rewrite land_mod by lia.
  replace (2 ^ 31 + cls * 2 ^ 29 + num) with (num + (8 + cls * 2) * 2 ^ 28) by lia.
  rewrite Z.mod_add by lia. apply Z.mod_small; lia.
Qed.

Lemma tagflags_value cls num pc : 0 <= cls <= 3 -> 0 <= num < 2 ^ 28 -> pc = 0 \/ pc = 1 ->
  tagflags (tag_value cls num) pc = (cls * 2 + pc) * 2 ^ 5.
Proof.
  intros Hc Hn Hp. unfold tagflags, tag_value. rewrite Z.shiftr_div_pow2 by lia.
  replace (2 ^ 31 + cls * 2 ^ 29 + num) with (num + (8 + cls * 2) * 2 ^ 28) by lia.
  rewrite Z.div_add by lia. rewrite Z.div_small by lia. rewrite Z.add_0_l.
  assert (C : cls = 0 \/ cls = 1 \/ cls = 2 \/ cls = 3) by lia.
  destruct C as [->|[->|[->| ->]]]; destruct Hp as [-> | ->]; reflexivity.
Qed.

Lemma final_tag cls num : 0 <= cls <= 3 -> 0 <= num < 2 ^ 28 ->
  Z.lor num (Z.lor (2 ^ 31) (u32 (Z.shiftl cls 29))) = tag_value cls num.
Proof.
  intros Hc Hn. unfold tag_value.
  assert (E : Z.lor (2 ^ 31) (u32 (Z.shiftl cls 29)) = (4 + cls) * 2 ^ 29).
  { assert (C : cls = 0 \/ cls = 1 \/ cls = 2 \/ cls = 3) by lia.
    destruct C as [->|[->|[->| ->]]]; reflexivity. }
  rewrite E, lor_shift_add by lia. lia.
Qed.

Lemma septet d : 0 <= d < 128 ->
  Z.lor d 128 = d + 128 /\ Z.land (d + 128) 127 = d /\ (Z.land (d + 128) 128 =? 0) = false /\
  Z.land d 127 = d /\ (Z.land d 128 =? 0) = true.
Proof.
  intros H.
  assert (F : forallb (fun n => let d := Z.of_nat n in
     (Z.lor d 128 =? d + 128) && (Z.land (d + 128) 127 =? d) && negb (Z.land (d + 128) 128 =? 0) &&
     (Z.land d 127 =? d) && (Z.land d 128 =? 0)) (seq 0 128) = true) by (vm_compute; reflexivity).
  rewrite forallb_forall in F. specialize (F (Z.to_nat d)).
  rewrite Z2Nat.id in F by lia. cbv zeta in F.
  assert (I : In (Z.to_nat d) (seq 0 128)) by (apply in_seq; lia).
  specialize (F I). repeat (apply andb_prop in F; destruct F as [F ?]).
  repeat split; try (now apply Z.eqb_eq); auto. now apply negb_true_iff.
Qed.

Lemma land127 x : Z.land 127 x = x mod 128.
Proof. rewrite Z.land_comm. exact (land_mod x 7 ltac:(lia)). Qed.

Lemma acc_septet t d : 0 <= t -> t * 128 + 127 < 2 ^ 32 -> 0 <= d < 128 ->
  Z.lor (u32 (Z.shiftl t 7)) d = t * 128 + d.
Proof.
  intros Ht Hb Hd. rewrite Z.shiftl_mul_pow2 by lia. unfold u32. rewrite Z.mod_small by lia.
  rewrite Z.lor_comm, lor_shift_add by lia. lia.
Qed.

Lemma first_octet cls pc v : 0 <= cls <= 3 -> pc = 0 \/ pc = 1 -> 0 <= v < 32 ->
  let b := Z.lor ((cls * 2 + pc) * 2 ^ 5) v in Z.shiftr b 6 = cls /\ Z.land b 31 = v.
Proof.
  intros Hc Hp Hv. cbv zeta. rewrite Z.lor_comm, lor_shift_add by lia.
  rewrite Z.shiftr_div_pow2 by lia. split.
  - symmetry. apply Z.div_unique with (r := pc * 32 + v); lia.
  - rewrite (land_mod _ 5) by lia. symmetry. apply Z.mod_unique with (q := cls * 2 + pc); lia.
Qed.

Lemma get_tag_cont cls tag d p k : 0 <= tag -> tag * 128 + 127 < 2 ^ 32 -> 0 <= d < 128 ->
  get_tag_loop cls tag ((d + 128) :: p) (S k) = get_tag_loop cls (tag * 128 + d) p k.
Proof.
  intros Ht Hb Hd. cbn [get_tag_loop]. destruct (septet d Hd) as (_ & E1 & E2 & _ & _).
  rewrite E1, E2, acc_septet by lia. reflexivity.
Qed.

Lemma get_tag_last cls tag d p k : 0 <= cls <= 3 -> 0 <= tag -> tag * 128 + d < 2 ^ 28 -> 0 <= d < 128 ->
  get_tag_loop cls tag (d :: p) (S k) = (tag_value cls (tag * 128 + d), p).
Proof.
  intros Hc Ht Hb Hd. cbn [get_tag_loop]. destruct (septet d Hd) as (_ & _ & _ & E1 & E2).
  rewrite E1, E2, acc_septet by lia. now rewrite final_tag by lia.
Qed.

Lemma push_put_tag stack val pc : ber_push_tag stack val pc = ber_put_tag val pc ++ stack.
Proof.
  unfold ber_push_tag, ber_put_tag. cbv zeta.
  repeat match goal with |- context [if ?c then _ else _] => destruct c end; reflexivity.
Qed.

Lemma tag_roundtrip cls num pc rest :
  0 <= cls <= 3 -> pc = 0 \/ pc = 1 -> 0 <= num < 2 ^ 21 -> num <> 31 ->
  ber_get_tag (ber_put_tag (tag_value cls num) pc ++ rest) = Ret (tag_value cls num, rest).
Proof.
  intros Hc Hp Hn H31. unfold ber_put_tag. rewrite tagnum_value, tagflags_value by (auto; lia). cbv zeta.
  destruct (Z.ltb_spec num (2 ^ 5)).
  { cbn [app]. unfold ber_get_tag. destruct (first_octet cls pc num Hc Hp) as [E1 E2]; [lia|].
    cbv zeta. rewrite E1, E2. destruct (Z.ltb_spec num 31); [|lia]. now rewrite final_tag by lia. }
  assert (G : forall l, ber_get_tag (Z.lor ((cls * 2 + pc) * 2 ^ 5) 31 :: l) = Ret (get_tag_loop cls 0 l 3)).
  { intros l. unfold ber_get_tag. destruct (first_octet cls pc 31 Hc Hp) as [E1 E2]; [lia|].
    cbv zeta. rewrite E1, E2. reflexivity. }
  assert (D : forall x, 0 <= x mod 128 < 128) by (intros; apply Z.mod_pos_bound; lia).
  assert (L128 : forall x, Z.lor (Z.land 127 x) 128 = x mod 128 + 128).
  { intros x. rewrite land127. apply septet, D. }
  destruct (Z.ltb_spec num (2 ^ 7)).
  { cbn [app]. rewrite G. rewrite get_tag_last by lia. f_equal. }
  rewrite !L128, !land127, !Z.shiftr_div_pow2 by lia.
  pose proof (Z.div_mod num 128 ltac:(lia)) as D1. pose proof (D num) as M1.
  assert (Q2 : num / 2 ^ 14 = num / 128 / 128) by (rewrite Z.div_div by lia; reflexivity).
  pose proof (Z.div_mod (num / 128) 128 ltac:(lia)) as D2. pose proof (D (num / 128)) as M2.
  change (2 ^ 7) with 128 in *.
  destruct (Z.ltb_spec num (2 ^ 14)).
  { cbn [app]. rewrite G. rewrite get_tag_cont by (try lia; apply D).
    assert (num / 128 < 128) by (apply Z.div_lt_upper_bound; lia).
    assert (0 <= num / 128) by (apply Z.div_pos; lia).
    rewrite (Z.mod_small (num / 128)) by lia.
    rewrite get_tag_last by lia. f_equal. f_equal. f_equal. lia. }
  destruct (Z.ltb_spec num (2 ^ 21)); [|lia].
  cbn [app]. rewrite G, Q2.
  assert (0 <= num / 128 / 128 < 128).
  { rewrite <- Q2. split; [apply Z.div_pos; lia|apply Z.div_lt_upper_bound; lia]. }
  rewrite (Z.mod_small (num / 128 / 128)) by lia.
  rewrite get_tag_cont by lia. rewrite get_tag_cont by lia. rewrite get_tag_last by lia.
  f_equal. f_equal. f_equal. lia.
Qed.

(** headers *)
Lemma get_tag_loop_suffix cls tag buf k : exists pre, buf = pre ++ snd (get_tag_loop cls tag buf k).
Proof.
  revert tag buf. induction k as [|k IH]; intros tag [|b p]; cbn [get_tag_loop snd]; try (now exists []).
  destruct (Z.land b 128 =? 0); cbn [snd].
  - now exists [b].
  - destruct (IH (Z.lor (u32 (Z.shiftl tag 7)) (Z.land b 127)) p) as [pre E].
    exists (b :: pre). cbn [app]. now rewrite <- E.
Qed.

Lemma get_len_loop_suffix s ret buf : exists pre, buf = pre ++ snd (get_len_loop s ret buf).
Proof.
  revert ret buf. induction s as [|s IH]; intros ret [|b p]; cbn [get_len_loop snd]; try (now exists []).
  destruct (IH (Z.lor (u64 (Z.shiftl ret 8)) b) p) as [pre E]. exists (b :: pre). cbn [app]. now rewrite <- E.
Qed.

Lemma Ret_inj {A} (x y : A) : Ret x = Ret y -> x = y.
Proof. intros H. exact (f_equal (fun r => match r with Ret z => z | UB => x end) H). Qed.

Lemma get_tag_suffix buf tag rest : ber_get_tag buf = Ret (tag, rest) -> exists pre, pre <> [] /\ buf = pre ++ rest.
Proof.
  destruct buf as [|b p]; cbn [ber_get_tag]; [discriminate|].
  destruct (Z.land b 31 <? 31).
  - intros E. apply Ret_inj, (f_equal snd) in E. cbn [snd] in E. subst rest. exists [b]. split; [discriminate|reflexivity].
  - intros E. apply Ret_inj in E. destruct (get_tag_loop_suffix (Z.shiftr b 6) 0 p 3) as [pre P].
    rewrite E in P. cbn [snd] in P. exists (b :: pre). split; [discriminate|]. cbn [app]. now rewrite <- P.
Qed.

Lemma get_len_suffix buf len rest : ber_get_len buf = Ret (len, rest) -> exists pre, pre <> [] /\ buf = pre ++ rest.
Proof.
  destruct buf as [|b p]; cbn [ber_get_len]; [discriminate|].
  destruct (b <? 128); [intros E; apply Ret_inj, (f_equal snd) in E; cbn [snd] in E; subst rest; exists [b]; split; [discriminate|reflexivity]|].
  destruct (_ || _); [intros E; apply Ret_inj, (f_equal snd) in E; cbn [snd] in E; subst rest; exists [b]; split; [discriminate|reflexivity]|].
  intros E. apply Ret_inj in E. destruct (get_len_loop_suffix (Z.to_nat (Z.land b 127)) 0 p) as [pre P].
  rewrite E in P. cbn [snd] in P. exists (b :: pre). split; [discriminate|]. cbn [app]. now rewrite <- P.
Qed.

Lemma get_tag_ub buf : ber_get_tag buf = UB <-> buf = [].
Proof. destruct buf as [|b p]; cbn [ber_get_tag]; [tauto|]. destruct (_ <? _); split; discriminate. Qed.
Lemma get_len_ub buf : ber_get_len buf = UB <-> buf = [].
Proof.
  destruct buf as [|b p]; cbn [ber_get_len]; [tauto|]. destruct (_ <? _); [split; discriminate|].
  destruct (_ || _); split; discriminate.
Qed.

Lemma get_hdr_ub buf : ber_get_hdr buf = UB <->
  buf = [] \/ exists tag, ber_get_tag buf = Ret (tag, []) /\ tag <> 2 ^ 32 - 1.
Proof.
  unfold ber_get_hdr. destruct (ber_get_tag buf) as [|[tag p]] eqn:T.
  - apply get_tag_ub in T. tauto.
  - assert (NE : buf <> []) by (intros ->; cbn in T; discriminate).
    unfold TAG_FAIL. destruct (Z.eqb_spec tag (2 ^ 32 - 1)) as [E|E].
    + split; [discriminate|]. intros [?|(t & H & ?)]; [tauto|]. injection H as -> _. tauto.
    + destruct (ber_get_len p) as [|[len q]] eqn:L.
      * apply get_len_ub in L. subst p. split; auto. intros _. right. exists tag. auto.
      * split.
        -- destruct (len =? LEN_FAIL); [discriminate|]. destruct (_ <? _); discriminate.
        -- intros [?|(t & H & ?)]; [tauto|]. injection H as _ ->. cbn in L. discriminate.
Qed.

Lemma get_hdr_fits buf tag len q : ber_get_hdr buf = Ret (Some (tag, len, q)) ->
  len <= Z.of_nat (length q) /\ exists pre, (2 <= length pre)%nat /\ buf = pre ++ q.
Proof.
  unfold ber_get_hdr. destruct (ber_get_tag buf) as [|[t p]] eqn:T; [discriminate|].
  destruct (t =? TAG_FAIL); [discriminate|].
  destruct (ber_get_len p) as [|[l r]] eqn:L; [discriminate|].
  destruct (l =? LEN_FAIL); [discriminate|].
  destruct (Z.ltb_spec (Z.of_nat (length r)) l); [discriminate|].
  intros E. injection E as -> -> ->. split; auto.
  destruct (get_tag_suffix _ _ _ T) as (p1 & N1 & ->). destruct (get_len_suffix _ _ _ L) as (p2 & N2 & ->).
  exists (p1 ++ p2). rewrite app_assoc. split; auto. rewrite app_length.
  destruct p1; [congruence|]. destruct p2; [congruence|]. cbn [length]. lia.
Qed.

Lemma get_tag_loop_rest cls tag buf k : (length (snd (get_tag_loop cls tag buf k)) + k >= length buf)%nat.
Proof.
  revert tag buf. induction k as [|k IH]; intros tag [|b p]; cbn [get_tag_loop snd length]; try lia.
  destruct (Z.land b 128 =? 0); cbn [snd]; [lia|]. specialize (IH (Z.lor (u32 (Z.shiftl tag 7)) (Z.land b 127)) p). lia.
Qed.

Lemma get_hdr_safe5 buf : (5 <= length buf)%nat -> ber_get_hdr buf <> UB.
Proof.
  intros H U. apply get_hdr_ub in U. destruct U as [->|(tag & T & _)]; [cbn in H; lia|].
  destruct buf as [|b p]; [cbn in H; lia|]. cbn [ber_get_tag length] in *.
  destruct (_ <? 31).
  - apply Ret_inj, (f_equal snd) in T. cbn [snd] in T. subst p. cbn in H. lia.
  - apply Ret_inj in T. pose proof (get_tag_loop_rest (Z.shiftr b 6) 0 p 3) as R. rewrite T in R. cbn [snd length] in R. lia.
Qed.

(** INTEGER *)
Lemma below_01 x k : below x k = 0 \/ below x k = 1.
Proof. unfold below. destruct (_ <? _); auto. Qed.

Lemma int_octets_loop_spec w i ret : words_ok w -> vval w < 2 ^ (32 * Z.of_nat i) -> ret = Z.of_nat i * 4 + 1 ->
  let r := int_octets_loop w i ret in
  1 <= r /\ vval w < 2 ^ (8 * r - 1) /\ (r = 1 \/ 2 ^ (8 * (r - 1) - 1) <= vval w).
Proof.
  intros Hw. revert ret. induction i as [|i IH]; intros ret Hv Hr.
  - cbn [int_octets_loop]. cbv zeta. change (2 ^ (32 * Z.of_nat 0)) with 1 in Hv. subst ret. cbn. lia.
  - cbn [int_octets_loop].
    assert (T : nthZ i w = vval w / 2 ^ (32 * Z.of_nat i)).
    { rewrite (nthZ_vval w i Hw). apply Z.mod_small. split.
      - apply Z.div_pos; [apply vval_bound; auto|apply pow32_pos].
      - apply Z.div_lt_upper_bound; [apply pow32_pos|]. rewrite pow32_succ in Hv. lia. }
    pose proof (pow32_pos i) as PP. pose proof (nthZ_range w i Hw) as W.
    pose proof (vval_bound w Hw) as VB.
    pose proof (Z.div_mod (vval w) (2 ^ (32 * Z.of_nat i)) ltac:(lia)) as DM. rewrite <- T in DM.
    pose proof (Z.mod_pos_bound (vval w) (2 ^ (32 * Z.of_nat i)) PP) as MB.
    set (x := nthZ i w) in *. set (P := 2 ^ (32 * Z.of_nat i)) in *.
    cbv zeta. destruct (Z.eqb_spec x 0) as [X0|X0].
    + rewrite X0. change (below 0 31) with 1. change (below 0 23) with 1. change (below 0 15) with 1. change (below 0 7) with 1.
      apply IH; [|lia]. fold P. nia.
    + assert (Q : forall j, 0 <= j -> 2 ^ (32 * Z.of_nat i + j) = P * 2 ^ j) by (intros; unfold P; apply Z.pow_add_r; lia).
      unfold below.
      destruct (Z.ltb_spec x (2 ^ 31)) as [A|A].
      2:{ destruct (Z.ltb_spec x (2 ^ 23)), (Z.ltb_spec x (2 ^ 15)), (Z.ltb_spec x (2 ^ 7)); try lia.
          split; [lia|].
          replace (8 * (ret - 0 - 0 - 0 - 0) - 1) with (32 * Z.of_nat i + 39) by lia.
          replace (8 * (ret - 0 - 0 - 0 - 0 - 1) - 1) with (32 * Z.of_nat i + 31) by lia.
          rewrite !Q by lia. split; [nia|right; nia]. }
      destruct (Z.ltb_spec x (2 ^ 23)) as [B|B].
      2:{ destruct (Z.ltb_spec x (2 ^ 15)), (Z.ltb_spec x (2 ^ 7)); try lia.
          split; [lia|].
          replace (8 * (ret - 1 - 0 - 0 - 0) - 1) with (32 * Z.of_nat i + 31) by lia.
          replace (8 * (ret - 1 - 0 - 0 - 0 - 1) - 1) with (32 * Z.of_nat i + 23) by lia.
          rewrite !Q by lia. split; [nia|right; nia]. }
      destruct (Z.ltb_spec x (2 ^ 15)) as [C|C].
      2:{ destruct (Z.ltb_spec x (2 ^ 7)); try lia.
          split; [lia|].
          replace (8 * (ret - 1 - 1 - 0 - 0) - 1) with (32 * Z.of_nat i + 23) by lia.
          replace (8 * (ret - 1 - 1 - 0 - 0 - 1) - 1) with (32 * Z.of_nat i + 15) by lia.
          rewrite !Q by lia. split; [nia|right; nia]. }
      destruct (Z.ltb_spec x (2 ^ 7)) as [D|D].
      2:{ split; [lia|].
          replace (8 * (ret - 1 - 1 - 1 - 0) - 1) with (32 * Z.of_nat i + 15) by lia.
          replace (8 * (ret - 1 - 1 - 1 - 0 - 1) - 1) with (32 * Z.of_nat i + 7) by lia.
          rewrite !Q by lia. split; [nia|right; nia]. }
      split; [lia|].
      replace (8 * (ret - 1 - 1 - 1 - 1) - 1) with (32 * Z.of_nat i + 7) by lia.
      rewrite Q by lia. split; [nia|].
      destruct i as [|i]; [left; lia|]. right.
      replace (8 * (ret - 1 - 1 - 1 - 1 - 1) - 1) with (32 * Z.of_nat (S i) - 1) by lia.
      apply Z.le_trans with P; [unfold P; apply Z.pow_le_mono_r; lia|nia].
Qed.

Lemma int_octets_spec w : words_ok w ->
  let r := int_octets w in
  (1 <= r)%nat /\ vval w < 2 ^ (8 * Z.of_nat r - 1) /\ (r = 1%nat \/ 2 ^ (8 * (Z.of_nat r - 1) - 1) <= vval w).
Proof.
  intros Hw. unfold int_octets.
  pose proof (vval_bound w Hw) as VB.
  destruct (int_octets_loop_spec w (length w) (Z.of_nat (length w) * 4 + 1) Hw) as (H1 & H2 & H3); try lia.
  cbv zeta. rewrite Z2Nat.id by lia. repeat split; auto; try lia.
Qed.

Lemma encode_integer_spec w : words_ok w ->
  ber_tlv_encode_integer w = be_bytes (int_octets w) (vval w).
Proof.
  intros Hw. unfold ber_tlv_encode_integer. cbv zeta. set (n := int_octets w).
  unfold be_bytes.
  set (f := fun u => if (u / 4 <? length w)%nat then u8 (Z.shiftr (nthZ (u / 4) w) (Z.of_nat (u mod 4 * 8))) else 0).
  transitivity (rev (map f (seq 0 n))); [exact (map_seq_rev f n)|]. f_equal. apply map_seq_to_le; [lia|].
  intros i _. rewrite <- (octet_of_words w i Hw). unfold f. rewrite mul8mod32, (Nat.mul_comm 8).
  destruct (Nat.ltb_spec (i / 4) (length w)) as [L|L], (Nat.leb_spec (length w * 4) i) as [M|M]; auto.
  - pose proof (Nat.div_le_lower_bound i 4 (length w)). lia.
  - pose proof (Nat.div_lt_upper_bound i 4 (length w)). lia.
Qed.

(** X.690 8.3: contents octets of the non-negative INTEGER v. *)
Definition der_uint (v : Z) (c : list Z) : Prop :=
  bytes_ok c /\ c <> [] /\ be_val c = v /\ nthZ 0 c < 128 /\
  (length c = 1%nat \/ ~ (nthZ 0 c = 0 /\ nthZ 1 c < 128)).

Lemma be_val_cons b c : be_val (b :: c) = b * 2 ^ (8 * Z.of_nat (length c)) + be_val c.
Proof.
  change (b :: c) with ([b] ++ c). rewrite be_val_app. f_equal. f_equal. cbn. lia.
Qed.

Lemma nthZ_cons0 b c : nthZ 0 (b :: c) = b.
Proof. reflexivity. Qed.

Lemma der_uint_bounds v c : der_uint v c ->
  v < 2 ^ (8 * Z.of_nat (length c) - 1) /\ (length c = 1%nat \/ 2 ^ (8 * (Z.of_nat (length c) - 1) - 1) <= v).
Proof.
  intros (Hb & Hne & <- & H0 & Hm). destruct c as [|b c]; [congruence|].
  rewrite nthZ_cons0 in *. inversion Hb as [|? ? Hb1 Hb2]; subst. unfold byte_ok in Hb1.
  rewrite be_val_cons. pose proof (be_val_bound c Hb2) as B. pose proof (pow8_pos (length c)) as PP.
  cbn [length] in *.
  replace (8 * Z.of_nat (S (length c)) - 1) with (7 + 8 * Z.of_nat (length c)) by lia.
  rewrite Z.pow_add_r by lia. split; [nia|].
  destruct Hm as [Hm|Hm]; [left; lia|]. destruct c as [|b2 c]; [left; reflexivity|].
  right. change (nthZ 1 (b :: b2 :: c)) with b2 in Hm.
  inversion Hb2 as [|? ? Hb3 Hb4]; subst. unfold byte_ok in Hb3.
  rewrite be_val_cons. pose proof (be_val_bound c Hb4) as B2. pose proof (pow8_pos (length c)) as PP2.
  cbn [length] in *. rewrite pow8_succ.
  replace (8 * (Z.of_nat (S (S (length c))) - 1) - 1) with (7 + 8 * Z.of_nat (length c)) by lia.
  rewrite Z.pow_add_r by lia. assert (b <> 0 \/ 128 <= b2) by lia. nia.
Qed.

Lemma be_bytes_der_uint v n : 0 <= v -> (1 <= n)%nat -> v < 2 ^ (8 * Z.of_nat n - 1) ->
  (n = 1%nat \/ 2 ^ (8 * (Z.of_nat n - 1) - 1) <= v) -> der_uint v (be_bytes n v).
Proof.
  intros Hv Hn H1 H2.
  pose proof (be_bytes_ok n v) as BO. pose proof (be_bytes_length n v) as BL.
  assert (VB : v < 2 ^ (8 * Z.of_nat n)).
  { apply Z.lt_le_trans with (1 := H1). apply Z.pow_le_mono_r; lia. }
  assert (BV : be_val (be_bytes n v) = v) by (rewrite be_val_be_bytes; apply Z.mod_small; lia).
  destruct (be_bytes n v) as [|b c]; [cbn in BL; lia|].
  cbn [length] in BL. rewrite be_val_cons in BV.
  inversion BO as [|? ? Hb1 Hb2]; subst. unfold byte_ok in Hb1.
  pose proof (be_val_bound c Hb2) as B. pose proof (pow8_pos (length c)) as PP.
  split; auto. split; [discriminate|]. split; [now rewrite be_val_cons|].
  rewrite nthZ_cons0.
  replace (8 * Z.of_nat (S (length c)) - 1) with (7 + 8 * Z.of_nat (length c)) in H1 by lia.
  rewrite Z.pow_add_r in H1 by lia. split; [nia|].
  destruct H2 as [H2|H2]; [left; cbn; lia|]. destruct c as [|b2 c]; [left; reflexivity|].
  right. change (nthZ 1 (b :: b2 :: c)) with b2. intros [-> Hb]. 
  rewrite be_val_cons in *. inversion Hb2 as [|? ? Hb3 Hb4]; subst. unfold byte_ok in Hb3.
  pose proof (be_val_bound c Hb4) as B2. pose proof (pow8_pos (length c)) as PP2.
  cbn [length] in *.
  replace (8 * (Z.of_nat (S (S (length c))) - 1) - 1) with (7 + 8 * Z.of_nat (length c)) in H2 by lia.
  rewrite Z.pow_add_r in H2 by lia. nia.
Qed.

Lemma der_uint_unique v c1 c2 : der_uint v c1 -> der_uint v c2 -> c1 = c2.
Proof.
  intros H1 H2. destruct (der_uint_bounds _ _ H1) as [U1 L1]. destruct (der_uint_bounds _ _ H2) as [U2 L2].
  destruct H1 as (B1 & N1 & V1 & _ & _). destruct H2 as (B2 & N2 & V2 & _ & _).
  assert (length c1 <> 0 /\ length c2 <> 0)%nat as [Z1 Z2] by (split; destruct c1, c2; cbn; congruence).
  assert (LE : length c1 = length c2).
  { destruct (Nat.lt_trichotomy (length c1) (length c2)) as [L|[L|L]]; auto; exfalso.
    - destruct L2 as [L2|L2]; [lia|].
      assert (2 ^ (8 * Z.of_nat (length c1) - 1) <= 2 ^ (8 * (Z.of_nat (length c2) - 1) - 1)) by (apply Z.pow_le_mono_r; lia). lia.
    - destruct L1 as [L1|L1]; [lia|].
      assert (2 ^ (8 * Z.of_nat (length c2) - 1) <= 2 ^ (8 * (Z.of_nat (length c1) - 1) - 1)) by (apply Z.pow_le_mono_r; lia). lia. }
  rewrite <- (be_bytes_be_val c1), <- (be_bytes_be_val c2) by auto. now rewrite LE, V1, V2.
Qed.

Lemma encode_integer_der w : words_ok w -> der_uint (vval w) (ber_tlv_encode_integer w).
Proof.
  intros Hw. rewrite encode_integer_spec by auto. destruct (int_octets_spec w Hw) as (H1 & H2 & H3).
  apply be_bytes_der_uint; auto. now apply vval_bound.
Qed.

Lemma decode_integer_spec enc : bytes_ok enc ->
  words_ok (ber_tlv_decode_integer enc) /\ length (ber_tlv_decode_integer enc) = (2 + (length enc + 4) / 4)%nat /\
  vval (ber_tlv_decode_integer enc) = be_val enc.
Proof.
  intros H. unfold ber_tlv_decode_integer.
  set (c := (2 + (length enc + 4) / 4)%nat).
  destruct (OS2IP_spec c enc H) as (W & L & V). unfold vlong_OS2IP in *.
  repeat split; auto. rewrite V. apply Z.mod_small. pose proof (be_val_bound enc H) as B.
  split; [lia|]. apply Z.lt_le_trans with (1 := proj2 B). apply Z.pow_le_mono_r; [lia|].
  pose proof (Nat.div_mod (length enc + 4) 4 ltac:(lia)). pose proof (Nat.mod_upper_bound (length enc + 4) 4 ltac:(lia)).
  unfold c. lia.
Qed.

Lemma decode_encode_integer w : words_ok w ->
  vval (ber_tlv_decode_integer (ber_tlv_encode_integer w)) = vval w.
Proof.
  intros Hw. pose proof (encode_integer_der w Hw) as (B & _ & V & _).
  destruct (decode_integer_spec _ B) as (_ & _ & E). congruence.
Qed.

Lemma encode_integer_length w : length (ber_tlv_encode_integer w) = int_octets w.
Proof. unfold ber_tlv_encode_integer. cbv zeta. now rewrite map_length, seq_length. Qed.

Lemma put_integer_spec w enclen : words_ok w -> Z.of_nat (length w) * 4 + 1 < 2 ^ 56 ->
  exists lenb c, der_length (Z.of_nat (length c)) lenb /\ der_uint (vval w) c /\
    ber_tlv_put_integer w enclen =
      Ret (if enclen <? Z.of_nat (length (2 :: lenb ++ c)) then None else Some (2 :: lenb ++ c)).
Proof.
  intros Hw HL.
  assert (OB : Z.of_nat (int_octets w) <= Z.of_nat (length w) * 4 + 1).
  { destruct (int_octets_spec w Hw) as (H1 & H2 & H3). pose proof (vval_bound w Hw) as VB.
    destruct H3 as [->|H3]; [lia|].
    destruct (Z_le_gt_dec (Z.of_nat (int_octets w)) (Z.of_nat (length w) * 4 + 1)) as [?|G]; auto. exfalso.
    assert (2 ^ (32 * Z.of_nat (length w)) <= 2 ^ (8 * (Z.of_nat (int_octets w) - 1) - 1)) by (apply Z.pow_le_mono_r; lia).
    lia. }
  destruct (len_roundtrip (Z.of_nat (int_octets w))) as (lenb & P & D & _); [lia|].
  exists lenb, (ber_tlv_encode_integer w). rewrite encode_integer_length.
  split; auto. split; [now apply encode_integer_der|].
  unfold ber_tlv_put_integer. cbv zeta. rewrite P.
  change (ber_put_tag (2 ^ 31 + 2) 0) with [2]. cbn [length app]. rewrite app_length, encode_integer_length.
  replace (Z.of_nat (int_octets w) + (Z.of_nat 1 + Z.of_nat (length lenb))) with (Z.of_nat (S (length lenb + int_octets w))) by lia.
  destruct (_ <? _); reflexivity.
Qed.
