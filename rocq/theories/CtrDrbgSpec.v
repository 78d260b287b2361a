(** Specification: CTR_DRBG (SP 800-90A rev. 1, 10.2.1 and 10.3.2-10.3.3), 16-octet blocks, ctr_len = 32,
    no additional input.  [E K] is the block cipher under key K, [ks] the key length in octets. *)
From Verif Require Import Base HashSpec GcmSpec.

(** E(K,V+1) || E(K,V+2) || ... (n blocks); V+i increments the rightmost 32 bits *)
Definition ctr_stream (E : list Z -> list Z) (V : list Z) (n : nat) : list Z :=
  concat (map (fun i => E (Nat.iter (i + 1) inc32 V)) (seq 0 n)).
(** number of blocks covering n octets *)
Definition nblk (n : nat) : nat := ((n + 15) / 16)%nat.
(** 10.2.1.2 CTR_DRBG_Update *)
Definition sp_update (E : list Z -> list Z -> list Z) (ks : nat) (data K V : list Z) : list Z * list Z :=
  let temp := xorb_list (firstn (ks + 16) (ctr_stream (E K) V (nblk (ks + 16)))) data in
  (firstn ks temp, skipn ks temp).
(** 10.2.1.3.1 CTR_DRBG_Instantiate, without personalization string *)
Definition sp_instantiate (E : list Z -> list Z -> list Z) (ks : nat) (seed : list Z) : list Z * list Z :=
  sp_update E ks seed (repeat 0 ks) (repeat 0 16).
(** 10.2.1.4.1 *)
Definition sp_reseed (E : list Z -> list Z -> list Z) (ks : nat) (seed : list Z) (KV : list Z * list Z) : list Z * list Z :=
  sp_update E ks seed (fst KV) (snd KV).
(** 10.2.1.5: n octets, then Update from the last counter value *)
Definition sp_generate (E : list Z -> list Z -> list Z) (ks n : nat) (KV : list Z * list Z) : list Z * (list Z * list Z) :=
  (firstn n (ctr_stream (E (fst KV)) (snd KV) (nblk n)),
   sp_update E ks (repeat 0 (ks + 16)) (fst KV) (Nat.iter (nblk n) inc32 (snd KV))).
(** 10.3.3 BCC *)
Definition sp_bcc (E : list Z -> list Z) (data : list Z) : list Z :=
  fold_left (fun c B => E (xorb_list c B)) (blocks 16 data) (repeat 0 16).
(** 10.3.2 Block_Cipher_df: step 4 *)
Definition df_S (input : list Z) (n : nat) : list Z :=
  pad16 (be_bytes 4 (Z.of_nat (length input)) ++ be_bytes 4 (Z.of_nat n) ++ input ++ [0x80]).
Definition df_temp (E : list Z -> list Z -> list Z) (ks : nat) (input : list Z) (n : nat) : list Z :=
  concat (map (fun i => sp_bcc (E (map Z.of_nat (seq 0 ks))) (be_bytes 4 (Z.of_nat i) ++ repeat 0 12 ++ df_S input n)) (seq 0 (nblk (ks + 16)))).
Definition sp_df (E : list Z -> list Z -> list Z) (ks : nat) (input : list Z) (n : nat) : list Z :=
  let temp := df_temp E ks input n in
  let K := firstn ks temp in
  let X := firstn 16 (skipn ks temp) in
  firstn n (concat (map (fun i => Nat.iter (i + 1) (E K) X) (seq 0 (nblk n)))).
