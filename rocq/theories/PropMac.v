(** C17 (HMAC), C18 (CMAC), C24 (HMAC_DRBG). *)
From Verif Require Import Base Hash HashSpec Blocks HashLemmas MdLemmas PropHash Sponge SpongeSpec
  SpongeLemmas PropSponge HashIface Mac MacSpec MacLemmas CmacLemmas.

(* ------------------------------------------------------------------ *)
(** * C17 *)

(** One HMAC conversation through the API: Init with a key, any Updates, any Finals. *)
Definition hmac_talk (h : hash_impl) (aux : hi_ctx h) (key : list Z) (chunks : list (list Z)) (ts : list nat)
  : option (list (list Z)) :=
  let '(x, ok) := HMAC_Init h aux key in
  if ok then Some (hmac_finals h (fold_left (HMAC_Update h) chunks x) ts) else None.

(** Over any hash interface correct for H: whatever the stale context contents, the
    cutting of the message and the tag lengths asked for, every Final (the first and
    all later ones) gives the RFC 2104 value. *)
Theorem C17_hmac : forall (h : hash_impl) (H : list Z -> list Z) (lim : Z),
  hash_correct h H lim -> (hi_block h <= 256)%nat -> (hi_out h <= 64)%nat ->
  Z.of_nat (hi_block h + hi_out h) < lim ->
  forall (aux : hi_ctx h) (key : list Z) (chunks : list (list Z)) (ts : list nat),
  hi_shape h aux -> bytes_ok key -> Forall bytes_ok chunks ->
  (length key <= hi_block h)%nat ->
  Z.of_nat (hi_block h + length (concat chunks)) < lim ->
  hmac_talk h aux key chunks ts
  = Some (map (fun t => octets t (rfc_hmac H (hi_block h) key (concat chunks))) ts).
Proof.
  intros h H lim HC LB LO LL aux key chunks ts SA BK BC LK LM. unfold hmac_talk.
  destruct (hmac_session h H lim HC aux key chunks SA BK BC LK LB LO LM LL) as (x & E & R & _).
  now rewrite E, R.
Qed.
Print Assumptions C17_hmac.

(** A key longer than the hash block is refused, and only such a key. *)
Theorem C17_key_length : forall h aux key chunks ts,
  hmac_talk h aux key chunks ts = None <-> (hi_block h < length key)%nat.
Proof.
  intros. unfold hmac_talk, HMAC_Init, HMAC_SetKey. destruct (Nat.leb_spec (length key) (hi_block h)) as [G|G].
  - split; [discriminate|lia].
  - split; auto.
Qed.
Print Assumptions C17_key_length.

(** The instances the library offers. *)
Definition hmac_instance_ok (h : hash_impl) (H : list Z -> list Z) : Prop :=
  forall aux key chunks ts,
  hi_shape h aux -> bytes_ok key -> Forall bytes_ok chunks -> (length key <= hi_block h)%nat ->
  Z.of_nat (length (concat chunks)) < 2 ^ 61 - 256 ->
  hmac_talk h aux key chunks ts
  = Some (map (fun t => octets t (rfc_hmac H (hi_block h) key (concat chunks))) ts).
Lemma hmac_instance h H : hash_correct h H (2 ^ 61) -> (hi_block h <= 256)%nat -> (hi_out h <= 64)%nat ->
  hmac_instance_ok h H.
Proof. intros HC LB LO aux key chunks ts. intros. eapply C17_hmac; eauto; lia. Qed.

Theorem C17_instances :
  hmac_instance_ok (md_impl alg_sha1) fips_sha1 /\
  hmac_instance_ok (md_impl alg_sha224) (fips_sha224 K_sha256) /\
  hmac_instance_ok (md_impl alg_sha256) (fips_sha256 K_sha256) /\
  hmac_instance_ok (md_impl alg_sha384) (fips_sha384 K_sha512) /\
  hmac_instance_ok (md_impl alg_sha512) (fips_sha512 K_sha512) /\
  hmac_instance_ok (md_impl alg_sm3) gbt_sm3 /\
  hmac_instance_ok (sha3_impl 28) (fips_sha3 28) /\
  hmac_instance_ok (sha3_impl 32) (fips_sha3 32) /\
  hmac_instance_ok (sha3_impl 48) (fips_sha3 48) /\
  hmac_instance_ok (sha3_impl 64) (fips_sha3 64).
Proof.
  repeat (split; [apply hmac_instance; [auto using sha1_correct, sha224_correct, sha256_correct, sha384_correct,
    sha512_correct, sm3_correct, sha3_correct|cbn; lia|cbn; lia]|]).
  apply hmac_instance; [auto using sha3_correct|cbn; lia|cbn; lia].
Qed.
Print Assumptions C17_instances.

(** HMAC_SetKey alone does not re-arm a context that has been finalised: unlike
    HMAC_*_Init it keeps the "finalized" flag, and the next Final then returns the bare
    inner hash of the padded key and message (no outer hash). *)
Theorem C17_rekey_after_final : forall (h : hash_impl) (H : list Z -> list Z) (lim : Z),
  hash_correct h H lim ->
  forall (x : hmac h) (key : list Z) (chunks : list (list Z)) (t : nat),
  hm_finalized x = true -> hi_shape h (hm_aux x) -> length (hm_K0 x) = 256%nat ->
  bytes_ok key -> Forall bytes_ok chunks -> (length key <= hi_block h <= 256)%nat ->
  Z.of_nat (hi_block h + length (concat chunks)) < lim ->
  snd (HMAC_Final h (fold_left (HMAC_Update h) chunks (fst (HMAC_SetKey h x key))) t)
  = octets t (H (map (Z.lxor 0x36) (key_block (hi_block h) key) ++ concat chunks)).
Proof.
  intros h H lim HC x key chunks t F S LK0 BK BC LK LM.
  unfold HMAC_SetKey. replace (length key <=? hi_block h)%nat with true by (symmetry; apply Nat.leb_le; lia).
  cbn [fst]. rewrite (hmac_updates h). unfold HMAC_Final. cbn [hm_K0 hm_tag hm_finalized hm_aux]. rewrite F. cbn [hm_aux].
  rewrite (xor_pad_block h). 2:{ rewrite app_length, skipn_length, repeat_length. unfold Bk. lia. }
  rewrite LK0, (key_firstn h) by (unfold Bk; lia). rewrite map_lxor_comm.
  pose proof (run1 h H lim HC (hm_aux x) (map (Z.lxor 54) (key_block (Bk h) key) :: chunks) t S) as R.
  cbn [fold_left concat] in R. destruct (hi_final h _ t) as [a o]. cbn [snd] in *. apply R.
  - constructor; auto. apply map_lxor_bytes; [unfold byte_ok; lia|now apply key_block_bytes].
  - rewrite app_length, map_length. unfold key_block, Bk. rewrite app_length, repeat_length. lia.
Qed.
Print Assumptions C17_rekey_after_final.

(** Non-vacuity: RFC 2202 test case 2 for HMAC-SHA-1 through the model:
    key "Jefe", data "what do ya want for nothing?". *)
Example C17_rfc2202 :
  hmac_talk (md_impl alg_sha1) (md_init alg_sha1 (repeat 0xcc 64)) [0x4a;0x65;0x66;0x65]
    [[0x77;0x68;0x61;0x74;0x20;0x64;0x6f;0x20;0x79;0x61;0x20]; [0x77;0x61;0x6e;0x74;0x20;0x66;0x6f;0x72;0x20;
      0x6e;0x6f;0x74;0x68;0x69;0x6e;0x67;0x3f]] [4; 2]%nat = Some [[0xef;0xfc;0xdf;0x6a]; [0xef;0xfc]].
Proof. vm_compute. reflexivity. Qed.

(* ------------------------------------------------------------------ *)
(** * C18 *)

(** What a block cipher under a fixed key is to CMAC. *)
Definition block_fn (E : list Z -> list Z) : Prop :=
  forall b, length b = 16%nat -> length (E b) = 16%nat /\ (bytes_ok b -> bytes_ok (E b)).

(** Any block cipher, any cutting of the message, any tag length: the first Final is the
    SP 800-38B tag (extended with zeros beyond 16 octets). *)
Theorem C18_cmac_partial : forall (E : list Z -> list Z) (keybytes : Z) (chunks : list (list Z)) (t : nat),
  block_fn E ->
  snd (CMAC_Final E (fold_left (CMAC_Update E) chunks (CMAC_SetKey E keybytes)) t)
  = octets t (nist_cmac E (concat chunks)).
Proof.
  intros E kb chunks t HE. rewrite cmac_spec.
  - assert (L : length (nist_cmac E (concat chunks)) = 16%nat).
    { unfold nist_cmac. assert (G : forall f C m, length C = 16%nat -> (length m < f)%nat -> length (cmac_chain E f C m) = 16%nat).
      { induction f as [|f IH]; intros C m LC Lm; [lia|]. cbn [cmac_chain].
        assert (LK1 : length (cmac_k1 E) = 16%nat) by apply be_bytes_length.
        assert (LK2 : length (cmac_k2 E) = 16%nat) by apply be_bytes_length.
        destruct (Nat.ltb_spec 16 (length m)).
        - apply IH; [|rewrite skipn_length; lia]. apply HE. rewrite xorb_list_length, firstn_length. lia.
        - destruct (Nat.eqb_spec (length m) 16); apply HE; rewrite !xorb_list_length; [lia|].
          rewrite app_length. cbn [length]. rewrite repeat_length. lia. }
      apply G; [reflexivity|lia]. }
    unfold octets. apply list_ext.
    + rewrite map_length, seq_length, firstn_length, app_length, repeat_length. lia.
    + intros i Hi. rewrite map_length, seq_length in Hi.
      rewrite nthZ_map_seq by lia. unfold nthZ. rewrite nth_firstn. replace (i <? t)%nat with true by (symmetry; apply Nat.ltb_lt; lia).
      destruct (Nat.ltb_spec i 16) as [G|G].
      * rewrite app_nth1 by lia. reflexivity.
      * rewrite app_nth2 by lia. now rewrite nth_repeat.
  - intros b Hb. now apply HE.
  - intros b HB Hb. now apply HE.
Qed.
Print Assumptions C18_cmac_partial.

(** A second Final processes the tag as if it were one more block: the flag meant to stop
    it (0400) does not fit the uint8_t it is or-ed into.  The exact second answer: *)
Theorem C18_second_final : forall (E : list Z -> list Z) (x : cmac) (t1 t2 : nat),
  0 <= cm_flags x < 256 ->
  let x1 := fst (CMAC_Final E x t1) in
  snd (CMAC_Final E x1 t2) =
  map (fun i => if (i <? 16)%nat then nthZ i (
    if (16 <=? cm_filled x)%nat then E (xorb_list (cm_T x1) (cm_K1 x))
    else E (xorb_list (upd 0 (Z.lxor (nthZ 0 (cm_T x1)) 0x80) (cm_T x1)) (cm_K2 x))) else 0) (seq 0 t2).
Proof.
  intros E x t1 t2 HF x1.
  assert (L : Z.land (cm_flags x) 256 = 0).
  { apply Z.bits_inj'. intros n Hn. rewrite Z.land_spec, Z.bits_0. change 256 with (2 ^ 8).
    rewrite Z.pow2_bits_eqb by lia. destruct (Z.eqb_spec 8 n) as [<-|]; [|apply Bool.andb_false_r].
    rewrite Bool.andb_true_r, Z.testbit_false by lia. rewrite Z.div_small by lia. reflexivity. }
  assert (L2 : Z.land (u8 (Z.lor (cm_flags x) 256)) 256 = 0).
  { unfold u8. apply Z.bits_inj'. intros n Hn. rewrite Z.land_spec, Z.bits_0. change 256 with (2 ^ 8).
    rewrite Z.pow2_bits_eqb by lia. destruct (Z.eqb_spec 8 n) as [<-|]; [|apply Bool.andb_false_r].
    now rewrite Z.mod_pow2_bits_high by lia. }
  subst x1. unfold CMAC_Final. cbv zeta. rewrite L. cbn [Z.eqb negb].
  destruct (16 <=? cm_filled x)%nat eqn:G; cbn [fst snd cm_T cm_K1 cm_K2 cm_filled cm_flags]; rewrite L2; cbn [Z.eqb negb];
    rewrite ?G; cbn [cm_T cm_K1 cm_K2 cm_filled cm_flags snd Nat.leb]; reflexivity.
Qed.
Print Assumptions C18_second_final.

(** So "Final is repeatable" is false (also for ciphers as simple as a fixed xor; PropCipher
    repeats this with AES-128). *)
Theorem C18_final_again_refuted :
  ~ (forall (E : list Z -> list Z) (keybytes : Z) (m : list Z), block_fn E -> bytes_ok m ->
     let '(x, tag) := CMAC_Final E (CMAC_Update E (CMAC_SetKey E keybytes) m) 16 in
     snd (CMAC_Final E x 16) = tag).
Proof.
  intros H. specialize (H (map (Z.lxor 0x5a)) 16 [1;2;3]).
  assert (B : block_fn (map (Z.lxor 90))).
  { intros b Hb. split; [now rewrite map_length|]. intros HB. apply map_lxor_bytes; [unfold byte_ok; lia|auto]. }
  specialize (H B ltac:(repeat (constructor; [unfold byte_ok; lia|]); constructor)). vm_compute in H. discriminate.
Qed.
Print Assumptions C18_final_again_refuted.

(* ------------------------------------------------------------------ *)
(** * C24 *)

(** A history after Seed: reseeds and generate requests. *)
Inductive drbg_call := Reseed (seed : list Z) | Generate (len : nat).

Fixpoint drbg_run (h : hash_impl) (x : hdrbg h) (cs : list drbg_call) : list (list Z) :=
  match cs with
  | [] => []
  | Reseed s :: cs => drbg_run h (HMAC_DRBG_Reseed h x s) cs
  | Generate n :: cs => let '(x, o) := HMAC_DRBG_Generate h x n in o :: drbg_run h x cs
  end.
(** The same history in the standard. *)
Fixpoint drbg_std (mac : list Z -> list Z -> list Z) (L : nat) (KV : list Z * list Z) (cs : list drbg_call) : list (list Z) :=
  match cs with
  | [] => []
  | Reseed s :: cs => drbg_std mac L (drbg_reseed mac KV s) cs
  | Generate n :: cs => let '(KV, o) := drbg_generate mac L KV n in o :: drbg_std mac L KV cs
  end.
Definition call_ok (h : hash_impl) (lim : Z) (c : drbg_call) : Prop :=
  match c with
  | Reseed s => bytes_ok s /\ Z.of_nat (hi_block h + hi_out h + 1 + length s) < lim
  | Generate _ => True
  end.

Theorem C24_hmac_drbg : forall (h : hash_impl) (H : list Z -> list Z) (lim : Z),
  hash_correct h H lim -> (hi_block h <= 256)%nat -> (0 < hi_out h <= 64)%nat -> (hi_out h <= hi_block h)%nat ->
  Z.of_nat (hi_block h + hi_out h + 1) < lim ->
  forall (x : hdrbg h) (seed : list Z) (cs : list drbg_call),
  hi_shape h (hm_aux (hd_H x)) -> call_ok h lim (Reseed seed) -> Forall (call_ok h lim) cs ->
  drbg_run h (HMAC_DRBG_Seed h x seed) cs
  = drbg_std (rfc_hmac H (hi_block h)) (hi_out h)
      (drbg_instantiate (rfc_hmac H (hi_block h)) (hi_out h) seed) cs.
Proof.
  intros h H lim HC LB LO LOB LL x seed cs S [Hs Ls] Hcs.
  assert (R : drep h (HMAC_DRBG_Seed h x seed) (drbg_instantiate (rfc_hmac H (hi_block h)) (hi_out h) seed)).
  { unfold HMAC_DRBG_Seed, drbg_instantiate.
    apply (update_drep h H lim HC LB ltac:(lia) LOB ltac:(lia)); auto.
    repeat split; cbn [fst snd hd_H]; auto; try apply repeat_length; try apply repeat0_bytes.
    apply Forall_forall. intros b Hb. apply repeat_spec in Hb. subst b. unfold byte_ok. lia. }
  clear Hs Ls S. revert R. generalize (HMAC_DRBG_Seed h x seed), (drbg_instantiate (rfc_hmac H (hi_block h)) (hi_out h) seed).
  clear x seed. induction cs as [|c cs IH]; intros x KV R; cbn [drbg_run drbg_std]; [reflexivity|].
  inversion Hcs as [|? ? Hc Hcs']; subst. destruct c as [s|n].
  - apply IH; auto. destruct Hc as [Hb Hl].
    apply (update_drep h H lim HC LB ltac:(lia) LOB ltac:(lia)); auto.
  - destruct (generate_drep h H lim HC LB ltac:(lia) LOB ltac:(lia) x KV n R LL) as [EO R'].
    change (mac h H) with (rfc_hmac H (hi_block h)) in *.
    destruct (HMAC_DRBG_Generate h x n) as [x' o]. destruct (drbg_generate _ _ KV n) as [KV' o'].
    cbn [fst snd] in *. subst o'. f_equal. now apply IH.
Qed.
Print Assumptions C24_hmac_drbg.

(** The instances: HMAC_DRBG over each hash of the library. *)
Definition drbg_instance_ok (h : hash_impl) (H : list Z -> list Z) : Prop :=
  forall x seed cs, hi_shape h (hm_aux (hd_H x)) -> call_ok h (2 ^ 61) (Reseed seed) -> Forall (call_ok h (2 ^ 61)) cs ->
  drbg_run h (HMAC_DRBG_Seed h x seed) cs
  = drbg_std (rfc_hmac H (hi_block h)) (hi_out h) (drbg_instantiate (rfc_hmac H (hi_block h)) (hi_out h) seed) cs.
Lemma drbg_instance h H : hash_correct h H (2 ^ 61) -> (hi_block h <= 256)%nat -> (0 < hi_out h <= 64)%nat ->
  (hi_out h <= hi_block h)%nat -> drbg_instance_ok h H.
Proof. intros HC LB LO LOB x seed cs. intros. eapply C24_hmac_drbg; eauto; lia. Qed.
Theorem C24_instances :
  drbg_instance_ok (md_impl alg_sha1) fips_sha1 /\
  drbg_instance_ok (md_impl alg_sha224) (fips_sha224 K_sha256) /\
  drbg_instance_ok (md_impl alg_sha256) (fips_sha256 K_sha256) /\
  drbg_instance_ok (md_impl alg_sha384) (fips_sha384 K_sha512) /\
  drbg_instance_ok (md_impl alg_sha512) (fips_sha512 K_sha512) /\
  drbg_instance_ok (md_impl alg_sm3) gbt_sm3 /\
  drbg_instance_ok (sha3_impl 28) (fips_sha3 28) /\
  drbg_instance_ok (sha3_impl 32) (fips_sha3 32) /\
  drbg_instance_ok (sha3_impl 48) (fips_sha3 48) /\
  drbg_instance_ok (sha3_impl 64) (fips_sha3 64).
Proof.
  repeat (split; [apply drbg_instance; [auto using sha1_correct, sha224_correct, sha256_correct, sha384_correct,
    sha512_correct, sm3_correct, sha3_correct|cbn; lia|cbn; lia|cbn; lia]|]).
  apply drbg_instance; [auto using sha3_correct|cbn; lia|cbn; lia|cbn; lia].
Qed.
Print Assumptions C24_instances.

(** Non-vacuity: a short history with SHA-1, computed on both sides. *)
Example C24_history :
  exists o1 o2, drbg_run (md_impl alg_sha1)
    (HMAC_DRBG_Seed (md_impl alg_sha1) (Hd [] [] (HMAC_INIT (md_impl alg_sha1) (md_init alg_sha1 (repeat 0 64)))) [1;2;3])
    [Generate 3; Reseed [9]; Generate 21] = [o1; o2] /\ length o1 = 3%nat /\ length o2 = 21%nat.
Proof. eexists; eexists; split; [vm_compute; reflexivity|split; reflexivity]. Qed.
