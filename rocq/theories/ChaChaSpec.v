(** Specification: RFC 8439 (ChaCha20, Poly1305, AEAD_CHACHA20_POLY1305).  Independent of the model. *)
From Verif Require Import Base HashSpec GcmSpec.

(** 2.1: the quarter round on four 32-bit words *)
Definition cc_qr (w : Z * Z * Z * Z) : Z * Z * Z * Z :=
  let '(a, b, c, d) := w in
  let a := add_w 32 a b in let d := rotl 32 16 (Z.lxor d a) in
  let c := add_w 32 c d in let b := rotl 32 12 (Z.lxor b c) in
  let a := add_w 32 a b in let d := rotl 32 8 (Z.lxor d a) in
  let c := add_w 32 c d in let b := rotl 32 7 (Z.lxor b c) in
  (a, b, c, d).
(** 2.2: QUARTERROUND(x, y, z, w) of a state of 16 words *)
Definition cc_QR (x y z w : nat) (s : list Z) : list Z :=
  let '(a, b, c, d) := cc_qr (nthZ x s, nthZ y s, nthZ z s, nthZ w s) in
  map (fun i => if (i =? x)%nat then a else if (i =? y)%nat then b else if (i =? z)%nat then c else if (i =? w)%nat then d else nthZ i s) (seq 0 16).
(** 2.3: column rounds then diagonal rounds *)
Definition cc_double_round (s : list Z) : list Z :=
  fold_left (fun s q => let '(x, y, z, w) := q in cc_QR x y z w s)
    [(0, 4, 8, 12); (1, 5, 9, 13); (2, 6, 10, 14); (3, 7, 11, 15);
     (0, 5, 10, 15); (1, 6, 11, 12); (2, 7, 8, 13); (3, 4, 9, 14)]%nat s.
(** 2.3: the state: "expa" "nd 3" "2-by" "te k", key, counter, nonce *)
Definition le_words (b : list Z) : list Z := map le_val (blocks 4 b).
Definition cc_state (key : list Z) (counter : Z) (nonce : list Z) : list Z :=
  [0x61707865; 0x3320646e; 0x79622d32; 0x6b206574] ++ le_words key ++ [counter] ++ le_words nonce.
(** 2.3: 10 double rounds, feed-forward, little-endian serialisation *)
Definition cc_block (key : list Z) (counter : Z) (nonce : list Z) : list Z :=
  let s := cc_state key counter nonce in
  let t := Nat.iter 10 cc_double_round s in
  flat_map (fun i => le_bytes 4 (add_w 32 (nthZ i t) (nthZ i s))) (seq 0 16).
(** 2.4: encryption with block counters counter, counter+1, ... *)
Definition cc_encrypt (key : list Z) (counter : Z) (nonce P : list Z) : list Z :=
  xorb_list P (concat (map (fun j => cc_block key (counter + Z.of_nat j) nonce) (seq 0 ((length P + 63) / 64)))).

(** 2.5: Poly1305 *)
Definition p1305 : Z := 2 ^ 130 - 5.
Definition clamp (r : Z) : Z := Z.land r 0x0ffffffc0ffffffc0ffffffc0fffffff.
(** one step: the block, with the octet 01 appended, is added and the sum multiplied by r *)
Definition poly_step (r acc : Z) (block : list Z) : Z := ((acc + le_val (block ++ [1])) * r) mod p1305.
Definition poly_acc (key msg : list Z) : Z :=
  let r := clamp (le_val (firstn 16 key)) in
  let full := fold_left (poly_step r) (blocks 16 msg) 0 in
  let rest := skipn (16 * (length msg / 16)) msg in
  match rest with [] => full | _ => poly_step r full rest end.
Definition rfc_poly1305 (key msg : list Z) : list Z :=
  le_bytes 16 (poly_acc key msg + le_val (skipn 16 key)).

(** 2.8: the AEAD *)
Definition cc_otk (key nonce : list Z) : list Z := firstn 32 (cc_block key 0 nonce).
Definition cc_mac_data (aad C : list Z) : list Z :=
  pad16 aad ++ pad16 C ++ le_bytes 8 (Z.of_nat (length aad)) ++ le_bytes 8 (Z.of_nat (length C)).
Definition cc_aead_C (key nonce P : list Z) : list Z := cc_encrypt key 1 nonce P.
Definition cc_aead_T (key nonce aad C : list Z) : list Z := rfc_poly1305 (cc_otk key nonce) (cc_mac_data aad C).
