(** Octet strings: changing one octet or word, clamping. *)
From Verif Require Import Base Vlong VlongLemmas PolyLemmas Der DerLemmas.

Lemma le_val_upd l : forall i v, (i < length l)%nat -> le_val (upd i v l) = le_val l + (v - nthZ i l) * 2 ^ (8 * Z.of_nat i).
Proof.
  unfold le_val, nthZ. induction l as [|x l IH]; intros i v Hi; cbn [length] in Hi; [lia|]. destruct i as [|i].
  - cbn [upd val_le nth]. change (2 ^ (8 * Z.of_nat 0)) with 1. ring.
  - cbn [upd val_le nth]. rewrite IH by lia. replace (8 * Z.of_nat (S i)) with (8 + 8 * Z.of_nat i) by lia. rewrite Z.pow_add_r by lia. ring.
Qed.
Lemma vval_upd l : forall i v, (i < length l)%nat -> vval (upd i v l) = vval l + (v - nthZ i l) * 2 ^ (32 * Z.of_nat i).
Proof.
  unfold nthZ. induction l as [|x l IH]; intros i v Hi; cbn [length] in Hi; [lia|]. destruct i as [|i].
  - cbn [upd val_le nth]. change (2 ^ (32 * Z.of_nat 0)) with 1. ring.
  - cbn [upd val_le nth]. rewrite IH by lia. replace (32 * Z.of_nat (S i)) with (32 + 32 * Z.of_nat i) by lia. rewrite Z.pow_add_r by lia. ring.
Qed.
Lemma byte_cases (P : Z -> Prop) f : (forall x, f x = true -> P x) -> forallb f (map Z.of_nat (seq 0 256)) = true -> forall b, byte_ok b -> P b.
Proof.
  intros H E b Hb. apply H. rewrite forallb_forall in E. apply E. apply in_map_iff. exists (Z.to_nat b). unfold byte_ok in Hb. split; [lia|]. apply in_seq. lia.
Qed.
Lemma land248 b : byte_ok b -> Z.land b 248 = 8 * (b / 8).
Proof. revert b. apply (byte_cases _ (fun b => Z.land b 248 =? 8 * (b / 8))); [intros x; apply Z.eqb_eq|vm_compute; reflexivity]. Qed.
Lemma land252 b : byte_ok b -> Z.land b 252 = 4 * (b / 4).
Proof. revert b. apply (byte_cases _ (fun b => Z.land b 252 =? 4 * (b / 4))); [intros x; apply Z.eqb_eq|vm_compute; reflexivity]. Qed.
Lemma top25519 b : byte_ok b -> Z.lor (Z.land b 127) 64 = 64 + b mod 64.
Proof. revert b. apply (byte_cases _ (fun b => Z.lor (Z.land b 127) 64 =? 64 + b mod 64)); [intros x; apply Z.eqb_eq|vm_compute; reflexivity]. Qed.
Lemma top448 b : byte_ok b -> Z.lor b 128 = 128 + b mod 128.
Proof. revert b. apply (byte_cases _ (fun b => Z.lor b 128 =? 128 + b mod 128)); [intros x; apply Z.eqb_eq|vm_compute; reflexivity]. Qed.

(** n = b0 + 256 m + 2^h bt *)
Lemma split3 l h : length l = S (S h) -> exists m, bytes_ok l -> le_val l = nthZ 0 l + 256 * m + 2 ^ (8 * Z.of_nat (S h)) * nthZ (S h) l /\ 0 <= m < 2 ^ (8 * Z.of_nat h).
Proof.
  intros L. destruct l as [|b0 l]; [discriminate|]. cbn [length] in L. assert (L' : length l = S h) by lia.
  destruct (exists_last (l := l)) as (mid & bt & E); [intros ->; discriminate|]. subst l. rewrite app_length in L'. cbn [length] in L'. assert (Lm : length mid = h) by lia.
  exists (le_val mid). intros B. inversion B as [|? ? _ B2]; subst. apply Forall_app in B2. destruct B2 as [B2 _].
  pose proof (le_val_bound mid B2) as R. split; [|exact R].
  assert (N : nthZ (S (length mid)) (b0 :: mid ++ [bt]) = bt). { unfold nthZ. cbn [nth]. rewrite app_nth2, Nat.sub_diag by lia. reflexivity. }
  rewrite N. change (le_val (b0 :: mid ++ [bt])) with (b0 + 2 ^ 8 * le_val (mid ++ [bt])). rewrite le_val_app. change (le_val [bt]) with (bt + 2 ^ 8 * 0).
  change (nthZ 0 (b0 :: mid ++ [bt])) with b0. replace (8 * Z.of_nat (S (length mid))) with (8 + 8 * Z.of_nat (length mid)) by lia. rewrite Z.pow_add_r by lia. ring.
Qed.

