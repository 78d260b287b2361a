(** Properties C01-C07: multi-word integer arithmetic (src/1-integers/vlong.c).
    [vval l] = [val_le 32 l] is the number denoted by the little-endian 32-bit
    words [l]; [sval l] is its two's-complement reading. *)
From Verif Require Import Base Vlong VlongLemmas VlongDivLemmas VlongMulLemmas.

(** C01 *)
Theorem C01_addv_exact : forall (n : nat) (a b : list Z),
  words_ok a -> words_ok b ->
  length (vlong_addv n a b) = n /\ words_ok (vlong_addv n a b) /\
  val_le 32 (vlong_addv n a b) = (val_le 32 a + val_le 32 b) mod 2 ^ (32 * Z.of_nat n).
Proof. exact (fun n a b Ha Hb => conj (vlong_addv_length n a b) (conj (vlong_addv_words n a b) (vlong_addv_val n a b Ha Hb))). Qed.
Print Assumptions C01_addv_exact.

Theorem C01_subv_exact : forall (n : nat) (a b : list Z),
  words_ok a -> words_ok b ->
  length (vlong_subv n a b) = n /\ words_ok (vlong_subv n a b) /\
  val_le 32 (vlong_subv n a b) = (val_le 32 a - val_le 32 b) mod 2 ^ (32 * Z.of_nat n).
Proof. exact (fun n a b Ha Hb => conj (vlong_subv_length n a b) (conj (vlong_subv_words n a b) (vlong_subv_val n a b Ha Hb))). Qed.
Print Assumptions C01_subv_exact.

(** The documented range of b is -UINT32_MAX..UINT32_MAX; the proof covers more. *)
Theorem C01_adds_exact : forall (n : nat) (a : list Z) (b : Z) (s : nat),
  words_ok a -> - 2 ^ 62 <= b <= 2 ^ 62 ->
  length (vlong_adds n a b s) = n /\ words_ok (vlong_adds n a b s) /\
  val_le 32 (vlong_adds n a b s) = (val_le 32 a + b * 2 ^ (32 * Z.of_nat s)) mod 2 ^ (32 * Z.of_nat n).
Proof. exact (fun n a b s Ha Hb => conj (vlong_adds_length n a b s) (conj (vlong_adds_words n a b s) (vlong_adds_val n a b s Ha Hb))). Qed.
Print Assumptions C01_adds_exact.

Example C01_nonvacuous :
  words_ok [2 ^ 32 - 1; 2 ^ 32 - 1] /\ words_ok [1] /\
  vlong_addv 3 [2 ^ 32 - 1; 2 ^ 32 - 1] [1] = [0; 0; 1] /\
  vlong_subv 3 [] [1] = [2 ^ 32 - 1; 2 ^ 32 - 1; 2 ^ 32 - 1].
Proof. repeat split; try (repeat constructor; unfold word_ok; lia); vm_compute; reflexivity. Qed.

(** C02 *)
Theorem C02_cmps_order : forall a b : Z, 0 <= a < 2 ^ 32 -> 0 <= b < 2 ^ 32 ->
  vlong_cmps a b = (if a =? b then 0 else if b <? a then 1 else 2).
Proof. exact vlong_cmps_spec. Qed.
Print Assumptions C02_cmps_order.

Theorem C02_cmpv_shifted_order : forall (a b : list Z) (s : nat), words_ok a -> words_ok b ->
  vlong_cmpv_shifted a b s =
  (if val_le 32 a =? val_le 32 b * 2 ^ Z.of_nat s then 0
   else if val_le 32 b * 2 ^ Z.of_nat s <? val_le 32 a then 1 else 2).
Proof. exact vlong_cmpv_shifted_spec. Qed.
Print Assumptions C02_cmpv_shifted_order.

Example C02_nonvacuous :
  vlong_cmpv_shifted [0; 0; 5] [3] 64 = 1 /\ vlong_cmpv_shifted [0; 6; 0] [3] 33 = 0 /\
  vlong_cmpv_shifted [7] [0; 1] 0 = 2.
Proof. vm_compute. auto. Qed.

(** C03 *)
Theorem C03_remv_inplace_remainder : forall rem b : list Z,
  words_ok rem -> words_ok b -> (length b <= length rem)%nat -> 0 < val_le 32 b ->
  snd (vlong_remv_inplace rem b) = true /\
  words_ok (fst (vlong_remv_inplace rem b)) /\
  length (fst (vlong_remv_inplace rem b)) = length rem /\
  val_le 32 (fst (vlong_remv_inplace rem b)) = val_le 32 rem mod val_le 32 b.
Proof. exact vlong_remv_inplace_spec. Qed.
Print Assumptions C03_remv_inplace_remainder.

Theorem C03_remv_inplace_null : forall rem b : list Z,
  snd (vlong_remv_inplace rem b) = false <-> (length rem < length b)%nat.
Proof. exact remv_null_iff. Qed.
Print Assumptions C03_remv_inplace_null.

Example C03_nonvacuous :
  words_ok [5; 7; 9] /\ words_ok [11; 0] /\ 0 < val_le 32 [11; 0] /\
  fst (vlong_remv_inplace [5; 7; 9] [11; 0]) = [(5 + 7 * 2 ^ 32 + 9 * 2 ^ 64) mod 11; 0; 0].
Proof. repeat split; try (repeat constructor; unfold word_ok; lia). Qed.

(** C04: false in general ... *)
Theorem C04_divv_refuted : exists (a b : list Z) (remc qc : nat) (r q : list Z),
  words_ok a /\ words_ok b /\ 0 < val_le 32 b /\ (length b <= remc)%nat /\ (length a <= qc)%nat /\
  vlong_divv remc (Some qc) a b = Some (r, Some q) /\
  val_le 32 a <> val_le 32 q * val_le 32 b + val_le 32 r.
Proof. exact divv_refuted. Qed.
Print Assumptions C04_divv_refuted.

(** ... but right whenever rem can hold twice the divisor (for instance when it
    has one word more than the divisor, or the divisor's top bit is clear).
    Missing from the full claim: divisors b with 2*b > 2^(32*rem->c). *)
Theorem C04_divv_partial : forall (remc : nat) (quo : option nat) (a b : list Z),
  words_ok a -> words_ok b -> 0 < val_le 32 b -> (length b <= remc)%nat ->
  match quo with Some qc => (length a <= qc)%nat | None => True end ->
  2 * val_le 32 b <= 2 ^ (32 * Z.of_nat remc) ->
  exists r q', vlong_divv remc quo a b = Some (r, q') /\
    words_ok r /\ length r = remc /\ val_le 32 r = val_le 32 a mod val_le 32 b /\
    match quo, q' with
    | None, None => True
    | Some qc, Some q => words_ok q /\ length q = qc /\ val_le 32 q = val_le 32 a / val_le 32 b
    | _, _ => False
    end.
Proof. exact vlong_divv_spec. Qed.
Print Assumptions C04_divv_partial.

Theorem C04_divv_null : forall (remc : nat) (quo : option nat) (a b : list Z),
  vlong_divv remc quo a b = None <->
  (remc < length b)%nat \/ (exists qc, quo = Some qc /\ (qc < length a)%nat).
Proof. exact divv_null_iff. Qed.
Print Assumptions C04_divv_null.

Example C04_nonvacuous :
  vlong_divv 2 (Some 2%nat) [1; 2] [2 ^ 32 - 1] = Some ([3; 0], Some [2; 0]) /\
  2 * val_le 32 [2 ^ 32 - 1] <= 2 ^ (32 * Z.of_nat 2).
Proof. split; [vm_compute; reflexivity|]. vm_compute. discriminate. Qed.

(** C05 *)
Theorem C05_imod_inplace_residue : forall rem b : list Z,
  words_ok rem -> words_ok b -> rem <> [] -> (length b <= length rem)%nat -> 0 < val_le 32 b ->
  let top := 2 ^ (32 * Z.of_nat (length rem)) in
  let signed := if val_le 32 rem <? top / 2 then val_le 32 rem else val_le 32 rem - top in
  words_ok (vlong_imod_inplace rem b) /\
  length (vlong_imod_inplace rem b) = length rem /\
  val_le 32 (vlong_imod_inplace rem b) = signed mod val_le 32 b.
Proof. exact imod_residue. Qed.
Print Assumptions C05_imod_inplace_residue.

Example C05_nonvacuous : vlong_imod_inplace [2 ^ 32 - 5; 2 ^ 32 - 1] [7] = [2; 0].
Proof. vm_compute. reflexivity. Qed.

(** C06 *)
Theorem C06_muls_exact : forall (out a : list Z) (b : Z) (accum : bool),
  words_ok a -> 0 <= b < 2 ^ 32 -> words_ok out ->
  length (vlong_muls out a b accum) = length out /\ words_ok (vlong_muls out a b accum) /\
  val_le 32 (vlong_muls out a b accum) =
  (val_le 32 a * b + (if accum then val_le 32 out else 0)) mod 2 ^ (32 * Z.of_nat (length out)).
Proof. exact (fun o a b c Ha Hb Ho => conj (vlong_muls_length o a b c) (conj (vlong_muls_words o a b c) (vlong_muls_val o a b c Ha Hb Ho))). Qed.
Print Assumptions C06_muls_exact.

Theorem C06_imuls_partial : forall (out a : list Z) (b : Z) (accum : bool),
  words_ok a -> - 2 ^ 31 < b < 2 ^ 31 -> words_ok out ->
  val_le 32 (vlong_imuls out a b accum) =
  (val_le 32 a * b + (if accum then val_le 32 out else 0)) mod 2 ^ (32 * Z.of_nat (length out)).
Proof. exact vlong_imuls_val. Qed.
Print Assumptions C06_imuls_partial.

(** The full claim for vlong_imuls (any b with |b| <= UINT32_MAX) is false. *)
Theorem C06_imuls_refuted : exists (out a : list Z) (b : Z),
  words_ok a /\ words_ok out /\ 0 <= b < 2 ^ 32 /\
  val_le 32 (vlong_imuls out a b false) <> (val_le 32 a * b) mod 2 ^ (32 * Z.of_nat (length out)).
Proof. exact imuls_refuted. Qed.
Print Assumptions C06_imuls_refuted.

Example C06_nonvacuous :
  vlong_muls [1; 1] [2 ^ 32 - 1] (2 ^ 32 - 1) true = [2; 2 ^ 32 - 1] /\
  vlong_imuls [0; 0] [5] (-1) false = [2 ^ 32 - 5; 2 ^ 32 - 1].
Proof. vm_compute. auto. Qed.

(** C07 *)
Theorem C07_mulv_masked_mod : forall (n : nat) (a b m : list Z) (mask : Z),
  words_ok a -> words_ok b -> words_ok m -> (0 < length b)%nat -> (length m <= n)%nat ->
  0 < val_le 32 m -> val_le 32 a < val_le 32 m -> mask = 0 \/ mask = 1 ->
  val_le 32 m * 2 ^ 32 <= 2 ^ (32 * Z.of_nat n) ->
  exists r, vlong_mulv_masked n a b mask (Some (fun v => vlong_remv_inplace v m)) = (r, true) /\
    words_ok r /\ length r = n /\
    val_le 32 r = (val_le 32 a * val_le 32 b ^ mask) mod val_le 32 m.
Proof. exact mulv_masked_mod. Qed.
Print Assumptions C07_mulv_masked_mod.

Theorem C07_modexpv_mod : forall (n : nat) (base e m : list Z),
  words_ok base -> words_ok e -> words_ok m -> (0 < length e)%nat -> (length m <= n)%nat ->
  1 < val_le 32 m -> val_le 32 base < val_le 32 m ->
  val_le 32 m * 2 ^ 32 <= 2 ^ (32 * Z.of_nat n) ->
  exists r, vlong_modexpv n n n base e (Some (fun v => vlong_remv_inplace v m)) = Some r /\
    words_ok r /\ length r = n /\
    val_le 32 r = (val_le 32 base ^ val_le 32 e) mod val_le 32 m.
Proof. exact modexpv_mod. Qed.
Print Assumptions C07_modexpv_mod.

(** With any reduction callback that preserves residues modulo m and leaves a
    value at most K (good_modfun), K*2^32 < 2^(32n). *)
Theorem C07_modexpv_callback : forall (n : nat) (base e : list Z) (m K : Z) (g : modfun),
  words_ok base -> words_ok e -> (0 < length e)%nat -> (0 < n)%nat -> 0 < m ->
  (forall v, words_ok v -> length v = n ->
    exists v', g v = (v', true) /\ words_ok v' /\ length v' = n /\
               val_le 32 v' mod m = val_le 32 v mod m /\ val_le 32 v' <= K) ->
  val_le 32 base <= K -> 1 <= K -> K * 2 ^ 32 < 2 ^ (32 * Z.of_nat n) ->
  exists r, vlong_modexpv n n n base e (Some g) = Some r /\ words_ok r /\ length r = n /\
            val_le 32 r <= K /\ val_le 32 r mod m = (val_le 32 base ^ val_le 32 e) mod m.
Proof. exact modexpv_mod_spec. Qed.
Print Assumptions C07_modexpv_callback.

Theorem C07_mulv_nomod : forall (n : nat) (a b : list Z),
  words_ok a -> words_ok b -> (0 < length b)%nat ->
  exists r, vlong_mulv_masked n a b 1 None = (r, true) /\ words_ok r /\ length r = n /\
            val_le 32 r = (val_le 32 a * val_le 32 b) mod 2 ^ (32 * Z.of_nat n).
Proof. exact (fun n a b Ha Hb Hl => mulv_nomod_spec n a b 1 Ha Hb Hl (or_intror eq_refl)). Qed.
Print Assumptions C07_mulv_nomod.

Example C07_nonvacuous :
  vlong_modexpv 2 2 2 [3] [5] None = Some [243; 0] /\
  vlong_mulv_masked 2 [999999] [123456] 1 (Some (fun v => vlong_remv_inplace v [1000003])) = ([(999999 * 123456) mod 1000003; 0], true).
Proof. vm_compute. auto. Qed.
