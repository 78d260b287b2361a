(** Lemmas for C46: whole keys. *)
From Verif Require Import Base Blocks Vlong VlongLemmas Der DerLemmas DerLemmas2 RsaDerSpec RsaDer RsaDerLemmas.

(** what a writer is to do for the encoding D: its length for NULL; else D at the start of the buffer, or -1 *)
Definition writes (f : dest -> res (option (nat * dest))) (D : list Z) : Prop :=
  f None = Ret (Some (length D, None)) /\
  forall buf, f (Some buf) = Ret (if (length buf <? length D)%nat then None else Some (length D, Some (D ++ skipn (length D) buf))).

Lemma der_seq_length C : length (der_seq C) = (length C + length (HDR (length C)))%nat.
Proof. unfold der_seq, der_tlv. cbn [length]. rewrite app_length. lia. Qed.

Lemma close_writes C buf : Z.of_nat (length C) < 2 ^ 56 -> (length C <= length buf)%nat ->
  close_seq 0 (length C) (Some (C ++ skipn (length C) buf)) = Ret (if (length buf <? length (der_seq C))%nat then None
    else Some (length (der_seq C), Some (der_seq C ++ skipn (length (der_seq C)) buf))).
Proof.
  intros H L. rewrite close_seq_0 by auto. rewrite skipn_length, skipn_skipn'. rewrite (der_seq_length C).
  destruct (Nat.ltb_spec (length buf - length C) (length (HDR (length C))));
  destruct (Nat.ltb_spec (length buf) (length C + length (HDR (length C)))); try lia; reflexivity.
Qed.

Lemma pub_writes n e : reg n -> reg e -> Z.of_nat (length (der_RSAPublicKey (val_le 32 n) (val_le 32 e))) < 2 ^ 56 ->
  writes (ber_tlv_encode_RSAPublicKey n e) (der_RSAPublicKey (val_le 32 n) (val_le 32 e)).
Proof.
  intros Hn He HL.
  assert (F : Forall reg [n; e]) by (repeat (apply Forall_cons; [assumption|]); apply Forall_nil).
  unfold der_RSAPublicKey in *. set (C := DI n ++ DI e) in *.
  assert (EC : DIs [n; e] = C) by (unfold DIs; cbn [map concat]; now rewrite app_nil_r).
  pose proof (der_seq_length C) as LS.
  assert (LC : Z.of_nat (length C) < 2 ^ 56) by lia.
  split.
  - unfold ber_tlv_encode_RSAPublicKey. rewrite put_ints_null by auto. cbn [bind]. rewrite EC.
    rewrite close_seq_null by lia. rewrite LS. reflexivity.
  - intros buf. unfold ber_tlv_encode_RSAPublicKey.
    change (Some buf) with (Some ([] ++ buf)). rewrite put_ints_buf by auto. rewrite EC.
    destruct (Nat.ltb_spec (length buf) (length C)) as [L|L]; cbn [bind].
    + destruct (Nat.ltb_spec (length buf) (length (der_seq C))); [reflexivity|lia].
    + cbn [app]. rewrite Nat.add_0_l. apply close_writes; auto.
Qed.

(** private keys *)
Definition reg3 (o : list Z * list Z * list Z) : Prop := let '(r, d, t) := o in reg r /\ reg d /\ reg t.
Definition val3 (o : list Z * list Z * list Z) : Z * Z * Z := let '(r, d, t) := o in (val_le 32 r, val_le 32 d, val_le 32 t).
Definition key_ok (k : rsa_priv) : Prop :=
  Forall reg [r_n k; r_e k; r_d k; r_p k; r_q k; r_dP k; r_dQ k; r_qInv k] /\ Forall reg3 (r_other k).
Definition key_val (k : rsa_priv) : rsa_key :=
  {| k_n := val_le 32 (r_n k); k_e := val_le 32 (r_e k); k_d := val_le 32 (r_d k); k_p := val_le 32 (r_p k); k_q := val_le 32 (r_q k);
     k_dP := val_le 32 (r_dP k); k_dQ := val_le 32 (r_dQ k); k_qInv := val_le 32 (r_qInv k); k_other := map val3 (r_other k) |}.

Definition others_der (os : list (list Z * list Z * list Z)) : list Z := concat (map (fun o => der_OtherPrimeInfo (val3 o)) os).
Lemma others_der_cons o os : others_der (o :: os) = der_OtherPrimeInfo (val3 o) ++ others_der os.
Proof. reflexivity. Qed.
Lemma other_DIs r d t : der_OtherPrimeInfo (val3 (r, d, t)) = der_seq (DIs [r; d; t]).
Proof. unfold der_OtherPrimeInfo, val3, DIs. cbn [map concat]. now rewrite app_nil_r. Qed.
Lemma seq_bound C : (length C <= length (der_seq C))%nat.
Proof. rewrite der_seq_length. lia. Qed.

Lemma encode_others_null os base : Forall reg3 os -> forall ret, Z.of_nat (ret + length (others_der os)) < 2 ^ 56 ->
  encode_others os None base ret = Ret (Some ((ret + length (others_der os) + length (HDR (ret + length (others_der os))))%nat, None)).
Proof.
  induction 1 as [|[[r d] t] os (Hr & Hd & Ht) _ IH]; intros ret HL.
  - cbn [encode_others]. change (length (others_der [])) with 0%nat in *. rewrite Nat.add_0_r in *. now rewrite close_seq_null by lia.
  - rewrite others_der_cons, other_DIs in *. rewrite app_length in *.
    set (C := DIs [r; d; t]) in *. pose proof (der_seq_length C) as LS.
    cbn [encode_others]. rewrite put_ints_null by (repeat (apply Forall_cons; [assumption|]); apply Forall_nil). cbn [bind].
    fold C. rewrite Nat.add_0_l, close_seq_null by lia. cbn [bind]. rewrite <- LS.
    rewrite IH by lia. rewrite Nat.add_assoc. reflexivity.
Qed.

(** one other prime *)
Lemma encode_others_one o A B : reg3 o -> Z.of_nat (length (der_seq (der_OtherPrimeInfo (val3 o)))) < 2 ^ 56 ->
  let D := der_seq (der_OtherPrimeInfo (val3 o)) in
  encode_others [o] (Some (A ++ B)) (length A) 0 = Ret (if (length B <? length D)%nat then None
    else Some (length D, Some (A ++ D ++ skipn (length D) B))).
Proof.
  destruct o as [[r d] t]. intros (Hr & Hd & Ht). rewrite other_DIs. set (C := DIs [r; d; t]).
  pose proof (seq_bound C) as B1. pose proof (seq_bound (der_seq C)) as B2. intros HL. cbv zeta.
  cbn [encode_others]. rewrite Nat.add_0_r.
  rewrite put_ints_buf by (try (repeat (apply Forall_cons; [assumption|]); apply Forall_nil); lia). fold C.
  destruct (Nat.ltb_spec (length B) (length C)) as [L|L]; cbn [bind].
  { destruct (Nat.ltb_spec (length B) (length (der_seq (der_seq C)))); [reflexivity|lia]. }
  rewrite Nat.add_0_l. rewrite skipn_app_exact, firstn_app_exact by reflexivity.
  rewrite close_writes by lia.
  destruct (Nat.ltb_spec (length B) (length (der_seq C))) as [L2|L2]; cbn [bind].
  { destruct (Nat.ltb_spec (length B) (length (der_seq (der_seq C)))); [reflexivity|lia]. }
  rewrite skipn_app_exact, firstn_app_exact by reflexivity. rewrite Nat.add_0_l.
  rewrite close_writes by lia.
  destruct (Nat.ltb_spec (length B) (length (der_seq (der_seq C)))) as [L3|L3]; reflexivity.
Qed.

(** two or more: the second header is copied from beyond the end of tlbuf's contents *)
Lemma encode_others_ub o1 o2 os A B : reg3 o1 -> reg3 o2 -> Z.of_nat (length (others_der (o1 :: o2 :: os))) < 2 ^ 56 ->
  (length (others_der (o1 :: o2 :: os)) <= length B)%nat ->
  encode_others (o1 :: o2 :: os) (Some (A ++ B)) (length A) 0 = UB.
Proof.
  destruct o1 as [[r d] t], o2 as [[r2 d2] t2]. intros (Hr & Hd & Ht) (Hr2 & Hd2 & Ht2).
  rewrite !others_der_cons, !other_DIs. set (C := DIs [r; d; t]). set (C2 := DIs [r2; d2; t2]).
  rewrite !app_length. intros HL HB.
  pose proof (seq_bound C) as B1. pose proof (der_seq_length C2) as B2.
  assert (NZ : (0 < length (der_seq C))%nat) by (unfold der_seq, der_tlv; cbn [length]; lia).
  cbn [encode_others]. rewrite Nat.add_0_r.
  rewrite put_ints_buf by (try (repeat (apply Forall_cons; [assumption|]); apply Forall_nil); lia). fold C.
  destruct (Nat.ltb_spec (length B) (length C)) as [L|L]; [lia|]. cbn [bind].
  rewrite Nat.add_0_l. rewrite skipn_app_exact, firstn_app_exact by reflexivity.
  rewrite close_writes by lia.
  destruct (Nat.ltb_spec (length B) (length (der_seq C))) as [L2|L2]; [lia|]. cbn [bind].
  rewrite Nat.add_0_l. rewrite app_assoc.
  rewrite put_ints_buf; [|repeat (apply Forall_cons; [assumption|]); apply Forall_nil|rewrite app_length; lia]. fold C2.
  rewrite skipn_length.
  destruct (Nat.ltb_spec (length B - length (der_seq C)) (length C2)) as [L3|L3]; [lia|]. cbn [bind].
  rewrite close_seq_ub; [reflexivity|lia|lia|].
  rewrite Nat.add_0_l. rewrite <- app_assoc, skipn_app_exact by reflexivity. rewrite !app_length, !skipn_length. lia.
Qed.

Definition nine (k : rsa_priv) : list (list Z) :=
  [[match r_other k with [] => 0 | _ => 1 end]; r_n k; r_e k; r_d k; r_p k; r_q k; r_dP k; r_dQ k; r_qInv k].
Lemma nine_ok k : key_ok k -> Forall reg (nine k).
Proof.
  intros (H & _). constructor; [|exact H]. split; [|cbn; lia]. constructor; [|constructor].
  unfold word_ok. destruct (r_other k); lia.
Qed.
Lemma ver_val k : DI [match r_other k with [] => 0 | _ => 1 end] = der_int (match k_other (key_val k) with [] => 0 | _ => 1 end).
Proof. unfold key_val. cbn [k_other]. destruct (r_other k); reflexivity. Qed.
Lemma priv_der k : der_RSAPrivateKey (key_val k) = der_seq (DIs (nine k) ++ match r_other k with [] => [] | os => der_seq (others_der os) end).
Proof.
  unfold der_RSAPrivateKey, nine. f_equal. unfold DIs. cbn [map concat]. rewrite ver_val, app_nil_r. rewrite <- !app_assoc.
  do 9 f_equal. unfold key_val. cbn [k_other]. destruct (r_other k) as [|o os]; [reflexivity|].
  cbn [map]. f_equal. unfold others_der. cbn [map concat]. now rewrite map_map.
Qed.
Lemma encode_priv_unfold k enc : ber_tlv_encode_RSAPrivateKey k enc =
  bind (put_ints (nine k) enc 0 0) (fun '(ret, enc) =>
  bind (match r_other k with [] => Ret (Some (ret, enc)) | os => bind (encode_others os enc ret 0) (fun '(subret, enc) => Ret (Some ((ret + subret)%nat, enc))) end)
    (fun '(ret, enc) => close_seq 0 ret enc)).
Proof. unfold ber_tlv_encode_RSAPrivateKey, nine. destruct (r_other k); reflexivity. Qed.

Lemma priv_null k : key_ok k -> Z.of_nat (length (der_RSAPrivateKey (key_val k))) < 2 ^ 56 ->
  ber_tlv_encode_RSAPrivateKey k None = Ret (Some (length (der_RSAPrivateKey (key_val k)), None)).
Proof.
  intros K. rewrite priv_der. rewrite encode_priv_unfold. rewrite put_ints_null by (now apply nine_ok). cbn [bind]. rewrite Nat.add_0_l.
  set (N := DIs (nine k)). destruct K as (_ & K). intros HL.
  destruct (r_other k) as [|o os].
  - cbn [bind]. rewrite app_nil_r in *. pose proof (der_seq_length N). rewrite close_seq_null by lia. do 3 f_equal. lia.
  - pose proof (der_seq_length (N ++ der_seq (others_der (o :: os)))) as L1. rewrite app_length in L1.
    pose proof (der_seq_length (others_der (o :: os))) as L2.
    rewrite encode_others_null by (auto; lia). cbn [bind]. rewrite Nat.add_0_l. rewrite <- L2. rewrite close_seq_null by lia.
    rewrite L1. reflexivity.
Qed.
Lemma priv_writes k : key_ok k -> (length (r_other k) <= 1)%nat -> Z.of_nat (length (der_RSAPrivateKey (key_val k))) < 2 ^ 56 ->
  writes (ber_tlv_encode_RSAPrivateKey k) (der_RSAPrivateKey (key_val k)).
Proof.
  intros K C1 HL. split; [now apply priv_null|]. intros buf. revert HL. rewrite priv_der, encode_priv_unfold.
  change (Some buf) with (Some ([] ++ buf)). rewrite put_ints_buf by (auto; now apply nine_ok).
  set (N := DIs (nine k)). destruct K as (_ & K). rewrite Nat.add_0_l.
  destruct (r_other k) as [|o [|]]; [| |cbn in C1; lia]; intros HL.
  - rewrite app_nil_r in *. pose proof (der_seq_length N).
    destruct (Nat.ltb_spec (length buf) (length N)); cbn [bind].
    { destruct (Nat.ltb_spec (length buf) (length (der_seq N))); [reflexivity|lia]. }
    cbn [app]. apply close_writes; lia.
  - assert (EO : others_der [o] = der_OtherPrimeInfo (val3 o)) by (unfold others_der; cbn [map concat]; apply app_nil_r).
    rewrite EO in *. set (D := der_seq (der_OtherPrimeInfo (val3 o))) in *.
    pose proof (der_seq_length (N ++ D)) as L1. rewrite app_length in L1.
    inversion K as [|? ? Ho _]; subst.
    destruct (Nat.ltb_spec (length buf) (length N)) as [L|L]; cbn [bind].
    { destruct (Nat.ltb_spec (length buf) (length (der_seq (N ++ D)))); [reflexivity|lia]. }
    cbn [app]. rewrite encode_others_one by (auto; fold D; lia). fold D. rewrite skipn_length, skipn_skipn'.
    destruct (Nat.ltb_spec (length buf - length N) (length D)) as [L2|L2]; cbn [bind].
    { destruct (Nat.ltb_spec (length buf) (length (der_seq (N ++ D)))); [reflexivity|lia]. }
    rewrite app_assoc, <- app_length. apply close_writes; rewrite app_length; lia.
Qed.
Lemma priv_ub k o1 o2 os buf : key_ok k -> r_other k = o1 :: o2 :: os -> Z.of_nat (length (der_RSAPrivateKey (key_val k))) < 2 ^ 56 ->
  (length (der_RSAPrivateKey (key_val k)) <= length buf)%nat -> ber_tlv_encode_RSAPrivateKey k (Some buf) = UB.
Proof.
  intros K E. rewrite priv_der, encode_priv_unfold.
  change (Some buf) with (Some ([] ++ buf)). rewrite put_ints_buf by (auto; now apply nine_ok).
  set (N := DIs (nine k)). destruct K as (_ & K). rewrite Nat.add_0_l. rewrite E in *. intros HL HB.
  pose proof (der_seq_length (N ++ der_seq (others_der (o1 :: o2 :: os)))) as L1. rewrite app_length in L1.
  pose proof (der_seq_length (others_der (o1 :: o2 :: os))) as L2.
  destruct (Nat.ltb_spec (length buf) (length N)); [lia|]. cbn [bind app].
  inversion K as [|? ? Ho K2]; subst. inversion K2 as [|? ? Ho2 _]; subst.
  rewrite encode_others_ub; auto; rewrite ?skipn_length; lia.
Qed.
