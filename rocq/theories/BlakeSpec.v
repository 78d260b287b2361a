(** Specifications: BLAKE2 (RFC 7693) and BLAKE3 (specification of 2020-01-09), on octet strings. *)
From Verif Require Import Base HashSpec.

(* ---------------- BLAKE2 ---------------- *)
(** 2.1, 2.7: word size, rounds, G rotations, IV, message word schedule *)
Record b2_params := { b2_w : Z; b2_r : nat; b2_R1 : Z; b2_R2 : Z; b2_R3 : Z; b2_R4 : Z; b2_IV : list Z }.
Definition BLAKE2s : b2_params := {| b2_w := 32; b2_r := 10; b2_R1 := 16; b2_R2 := 12; b2_R3 := 8; b2_R4 := 7;
  b2_IV := [0x6A09E667; 0xBB67AE85; 0x3C6EF372; 0xA54FF53A; 0x510E527F; 0x9B05688C; 0x1F83D9AB; 0x5BE0CD19] |}.
Definition BLAKE2b : b2_params := {| b2_w := 64; b2_r := 12; b2_R1 := 32; b2_R2 := 24; b2_R3 := 16; b2_R4 := 63;
  b2_IV := [0x6A09E667F3BCC908; 0xBB67AE8584CAA73B; 0x3C6EF372FE94F82B; 0xA54FF53A5F1D36F1;
            0x510E527FADE682D1; 0x9B05688C2B3E6C1F; 0x1F83D9ABFB41BD6B; 0x5BE0CD19137E2179] |}.
Definition SIGMA : list (list nat) := [
  [0; 1; 2; 3; 4; 5; 6; 7; 8; 9; 10; 11; 12; 13; 14; 15];
  [14; 10; 4; 8; 9; 15; 13; 6; 1; 12; 0; 2; 11; 7; 5; 3];
  [11; 8; 12; 0; 5; 2; 15; 13; 10; 14; 3; 6; 7; 1; 9; 4];
  [7; 9; 3; 1; 13; 12; 11; 14; 2; 6; 5; 10; 4; 0; 15; 8];
  [9; 0; 5; 7; 2; 4; 10; 15; 14; 1; 11; 12; 6; 8; 3; 13];
  [2; 12; 6; 10; 0; 11; 8; 3; 4; 13; 7; 5; 15; 14; 1; 9];
  [12; 5; 1; 15; 14; 13; 4; 10; 0; 7; 6; 3; 9; 2; 8; 11];
  [13; 11; 7; 14; 12; 1; 3; 9; 5; 0; 15; 4; 8; 6; 2; 10];
  [6; 15; 14; 9; 11; 3; 0; 8; 12; 2; 13; 7; 1; 4; 10; 5];
  [10; 2; 8; 4; 7; 6; 1; 5; 15; 11; 9; 14; 3; 12; 13; 0]]%nat.
(** 3.1: the mixing function, on v[a], v[b], v[c], v[d] *)
Definition blake_G (w R1 R2 R3 R4 : Z) (v : list Z) (a b c d : nat) (x y : Z) : list Z :=
  let v := upd a ((nthZ a v + nthZ b v + x) mod 2 ^ w) v in
  let v := upd d (rotr w R1 (Z.lxor (nthZ d v) (nthZ a v))) v in
  let v := upd c ((nthZ c v + nthZ d v) mod 2 ^ w) v in
  let v := upd b (rotr w R2 (Z.lxor (nthZ b v) (nthZ c v))) v in
  let v := upd a ((nthZ a v + nthZ b v + y) mod 2 ^ w) v in
  let v := upd d (rotr w R3 (Z.lxor (nthZ d v) (nthZ a v))) v in
  let v := upd c ((nthZ c v + nthZ d v) mod 2 ^ w) v in
  upd b (rotr w R4 (Z.lxor (nthZ b v) (nthZ c v))) v.
(** one round: columns, then diagonals; [m i] the i-th word of the round's schedule *)
Definition blake_round (G : list Z -> nat -> nat -> nat -> nat -> Z -> Z -> list Z) (m : nat -> Z) (v : list Z) : list Z :=
  let v := (G v 0 4 8 12 (m 0) (m 1))%nat in
  let v := (G v 1 5 9 13 (m 2) (m 3))%nat in
  let v := (G v 2 6 10 14 (m 4) (m 5))%nat in
  let v := (G v 3 7 11 15 (m 6) (m 7))%nat in
  let v := (G v 0 5 10 15 (m 8) (m 9))%nat in
  let v := (G v 1 6 11 12 (m 10) (m 11))%nat in
  let v := (G v 2 7 8 13 (m 12) (m 13))%nat in
  (G v 3 4 9 14 (m 14) (m 15))%nat.
(** octets per word, per block *)
Definition b2_wb (p : b2_params) : nat := Z.to_nat (b2_w p / 8).
Definition b2_bb (p : b2_params) : nat := (16 * b2_wb p)%nat.
Definition words_le (wb : nat) (m : list Z) : list Z := map (fun i => le_val (firstn wb (skipn (wb * i) m))) (seq 0 16).
(** 3.2: F(h, m, t, f) *)
Definition b2_F (p : b2_params) (h m : list Z) (t : Z) (f : bool) : list Z :=
  let w := b2_w p in
  let mw := words_le (b2_wb p) m in
  let v := h ++ b2_IV p in
  let v := upd 12 (Z.lxor (nthZ 12 v) (t mod 2 ^ w)) v in
  let v := upd 13 (Z.lxor (nthZ 13 v) (t / 2 ^ w)) v in
  let v := if f then upd 14 (Z.lxor (nthZ 14 v) (2 ^ w - 1)) v else v in
  let v := fold_left (fun v i => blake_round (blake_G w (b2_R1 p) (b2_R2 p) (b2_R3 p) (b2_R4 p))
                                  (fun j => nthZ (nth j (nth (i mod 10) SIGMA []) 0%nat) mw) v) (seq 0 (b2_r p)) v in
  map (fun i => Z.lxor (Z.lxor (nthZ i h) (nthZ i v)) (nthZ (i + 8) v)) (seq 0 8).
(** 3.3: the key block, if there is a key, and the message, padded with zeros to dd >= 1 blocks *)
Definition b2_input (p : b2_params) (key msg : list Z) : list Z :=
  (match key with [] => [] | _ => key ++ repeat 0 (b2_bb p - length key) end) ++ msg.
Definition rfc_blake2 (p : b2_params) (key msg : list Z) (nn : nat) : list Z :=
  let bb := b2_bb p in
  let d := b2_input p key msg in
  let dd := Nat.max 1 ((length d + bb - 1) / bb) in
  let padded := d ++ repeat 0 (dd * bb - length d) in
  let h := upd 0 (Z.lxor (Z.lxor (Z.lxor (nthZ 0 (b2_IV p)) 0x01010000) (Z.shiftl (Z.of_nat (length key)) 8)) (Z.of_nat nn)) (b2_IV p) in
  let h := fold_left (fun h i => b2_F p h (block bb padded i) (Z.of_nat ((i + 1) * bb)) false) (seq 0 (dd - 1)) h in
  let h := b2_F p h (block bb padded (dd - 1)) (Z.of_nat (length d)) true in
  firstn nn (concat (map (le_bytes (b2_wb p)) h)).
