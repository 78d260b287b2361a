(** C21: CCM against SP 800-38C. *)
From Verif Require Import Base HashSpec Blocks HashLemmas MdLemmas PropHash GcmSpec GaloisLemmas GcmLemmas CcmSpec Ccm CcmLemmas Cipher PropCipher PropAead.

(** Any block cipher, nonce, associated data, and payload of at most 31 octets, accepted
    parameters: once the loops may run as many times as there are octets, CCM_Encrypt returns the
    ciphertext and tag of SP 800-38C.  Missing from the full claim: payloads of 32 octets and more,
    for which the claim is false (below). *)
Theorem C21_encrypt_partial : forall E iv aad p out tlen fuel, block_cipher E ->
  bytes_ok iv -> bytes_ok aad -> bytes_ok p -> length out = length p ->
  ccm_params tlen iv (length p) -> (length p <= 31)%nat -> (length p <= fuel)%nat ->
  CCM_Encrypt E iv aad p out tlen fuel = Some (Some (ccm_C E iv p, ccm_T E tlen iv aad p)).
Proof. intros. apply encrypt_ccm; auto; lia. Qed.

(** ... and CCM_Decrypt accepts exactly the pairs CCM_Encrypt can produce, returning the payload;
    everything else is refused with nothing written. *)
Theorem C21_decrypt_partial : forall E iv aad c out T fuel, block_cipher E ->
  bytes_ok iv -> bytes_ok aad -> bytes_ok c -> bytes_ok T -> length out = length c ->
  ccm_params (length T) iv (length c) -> (length c <= 31)%nat -> (length c <= fuel)%nat ->
  (forall p, bytes_ok p -> length p = length c ->
    (CCM_Decrypt E iv aad c out T fuel = Some (Some p) <-> CCM_Encrypt E iv aad p out (length T) fuel = Some (Some (c, T)))) /\
  (T <> ccm_T E (length T) iv aad (ccm_C E iv c) -> CCM_Decrypt E iv aad c out T fuel = Some None).
Proof.
  intros E iv aad c out T fuel BF BI BA BC BT Lo HP Hl Hf. pose proof HP as (Hi & Ht & Hn).
  destruct (decrypt_ccm E iv aad c out T fuel BF BI BA BC BT Lo HP ltac:(lia) Hf) as [D1 D2]. split; [|exact D2].
  intros p BP LP. rewrite encrypt_ccm by (auto; try lia; rewrite ?LP; auto). split.
  - intros D. destruct (list_eq_dec Z.eq_dec T (ccm_T E (length T) iv aad (ccm_C E iv c))) as [ET|NT].
    + rewrite (D1 ET) in D. assert (EP : ccm_C E iv c = p) by congruence. rewrite EP in ET. rewrite <- ET. rewrite <- EP, C_twice by (auto; lia). reflexivity.
    + rewrite (D2 NT) in D. discriminate.
  - intros D. assert (EC : ccm_C E iv p = c) by congruence. assert (ET : ccm_T E (length T) iv aad p = T) by congruence.
    assert (EP : ccm_C E iv c = p) by (rewrite <- EC; apply C_twice; auto; lia). rewrite EP in D1. apply D1. now symmetry.
Qed.

(** The claim for longer payloads is false: whatever the cipher and the data, with 32 octets of
    payload or more neither function ever returns. *)
Theorem C21_never_returns_refuted : forall E iv aad inp out tag tlen, ccm_params tlen iv (length inp) -> length tag = tlen ->
  (32 <= length inp)%nat -> forall fuel,
  CCM_Encrypt E iv aad inp out tlen fuel = None /\ CCM_Decrypt E iv aad inp out tag fuel = None.
Proof.
  intros E iv aad inp out tag tlen HP HT HL fuel. unfold CCM_Encrypt, CCM_Decrypt. rewrite HT, params_accepted by auto. cbv zeta.
  rewrite !loop_forever by (auto; cbn [cs_i cs_j]; lia). auto.
Qed.

(** Parameters the standard excludes are refused at once. *)
Theorem C21_refused : forall E iv aad inp out tag tlen fuel, Z.of_nat (length inp) < 2 ^ 64 -> length tag = tlen -> ~ ccm_params tlen iv (length inp) ->
  CCM_Encrypt E iv aad inp out tlen fuel = Some None /\ CCM_Decrypt E iv aad inp out tag fuel = Some None.
Proof. intros E iv aad inp out tag tlen fuel HL HT HP. unfold CCM_Encrypt, CCM_Decrypt. rewrite HT, params_refused by auto. auto. Qed.

(** SP 800-38C example 1, with the AES model *)
Definition ccm_K : list Z := be_bytes 16 0x404142434445464748494a4b4c4d4e4f.
Definition ccm_E : list Z -> list Z := AES128_Cipher (AES128_KeyExpansion ccm_K).
Example C21_nonvacuous :
  CCM_Encrypt ccm_E (be_bytes 7 0x10111213141516) [0;1;2;3;4;5;6;7] [0x20;0x21;0x22;0x23] (repeat 0 4) 4 4 = Some (Some (be_bytes 4 0x7162015b, be_bytes 4 0x4dac255d)).
Proof. vm_compute; reflexivity. Qed.
Example C21_hypotheses : ccm_params 4 (be_bytes 7 0x10111213141516) 4 /\ ccm_params 16 (repeat 0 13) 32 /\ ~ ccm_params 5 (repeat 0 12) 16 /\ block_cipher ccm_E.
Proof.
  split; [|split; [|split]].
  - unfold ccm_params. rewrite be_bytes_length. split; [lia|]. split; [lia|]. change (8 * Z.of_nat (15 - 7)) with 64. lia.
  - unfold ccm_params. rewrite repeat_length. split; [lia|]. split; [lia|]. change (8 * Z.of_nat (15 - 13)) with 16. lia.
  - unfold ccm_params. intros (_ & H & _). lia.
  - assert (HK : bytes_ok ccm_K) by apply be_bytes_ok. assert (LK : length ccm_K = 16%nat) by reflexivity. destruct (C20_aes ccm_K HK) as [A _]. exact (A LK).
Qed.

Print Assumptions C21_encrypt_partial.
Print Assumptions C21_decrypt_partial.
Print Assumptions C21_never_returns_refuted.
Print Assumptions C21_refused.
