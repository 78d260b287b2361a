(** FIPS 197 (AES), independent of the model.  A state is the list of its 16 octets in
    column order (in0 .. in15), so s[r,c] is element r + 4c (3.4). *)
From Verif Require Import Base.

(** 4.2: multiplication in GF(2^8) modulo x^8+x^4+x^3+x+1: carry-less product, then
    reduction of the bits 14 .. 8. *)
Definition gf_mul (a b : Z) : Z :=
  let p := fold_left (fun p i => if Z.testbit b (Z.of_nat i) then Z.lxor p (a * 2 ^ Z.of_nat i) else p) (seq 0 8) 0 in
  fold_left (fun p i => if Z.testbit p (Z.of_nat i) then Z.lxor p (0x11b * 2 ^ (Z.of_nat i - 8)) else p) (rev (seq 8 7)) p.
(** x^254, the multiplicative inverse (0 for 0). *)
Fixpoint gf_pow (x : Z) (n : nat) : Z := match n with O => 1 | S n => gf_mul x (gf_pow x n) end.
Definition gf_inv (x : Z) : Z :=
  let x2 := gf_mul x x in let x4 := gf_mul x2 x2 in let x8 := gf_mul x4 x4 in let x16 := gf_mul x8 x8 in
  let x32 := gf_mul x16 x16 in let x64 := gf_mul x32 x32 in let x128 := gf_mul x64 x64 in
  gf_mul x128 (gf_mul x64 (gf_mul x32 (gf_mul x16 (gf_mul x8 (gf_mul x4 x2))))).
(** 5.1.1: the affine transformation, bit by bit. *)
Definition fips_sbox (x : Z) : Z :=
  let b := gf_inv x in
  let bit i := xorb (xorb (xorb (xorb (xorb (Z.testbit b (Z.of_nat i))
      (Z.testbit b (Z.of_nat ((i + 4) mod 8)))) (Z.testbit b (Z.of_nat ((i + 5) mod 8))))
      (Z.testbit b (Z.of_nat ((i + 6) mod 8)))) (Z.testbit b (Z.of_nat ((i + 7) mod 8))))
      (Z.testbit 0x63 (Z.of_nat i)) in
  fold_left (fun v i => v + (if bit i then 2 ^ Z.of_nat i else 0)) (seq 0 8) 0.

Definition st (r c : nat) (s : list Z) : Z := nthZ (r + 4 * c) s.
Definition build (f : nat -> nat -> Z) : list Z := map (fun k => f (k mod 4)%nat (k / 4)%nat) (seq 0 16).

Definition fips_SubBytes (s : list Z) : list Z := build (fun r c => fips_sbox (st r c s)).
(** 5.1.2 *)
Definition fips_ShiftRows (s : list Z) : list Z := build (fun r c => st r ((c + r) mod 4) s).
(** 5.1.3 *)
Definition fips_MixColumns (s : list Z) : list Z :=
  build (fun r c => Z.lxor (Z.lxor (gf_mul 2 (st r c s)) (gf_mul 3 (st ((r + 1) mod 4) c s)))
                           (Z.lxor (st ((r + 2) mod 4) c s) (st ((r + 3) mod 4) c s))).
(** 5.1.4: w is the list of 4-octet key-schedule words. *)
Definition fips_AddRoundKey (round : nat) (w : list (list Z)) (s : list Z) : list Z :=
  build (fun r c => Z.lxor (st r c s) (nthZ r (nth (4 * round + c) w []))).

(** Figure 5 *)
Definition fips_Cipher (Nr : nat) (w : list (list Z)) (inp : list Z) : list Z :=
  let s := fips_AddRoundKey 0 w inp in
  let s := fold_left (fun s round => fips_AddRoundKey round w (fips_MixColumns (fips_ShiftRows (fips_SubBytes s)))) (seq 1 (Nr - 1)) s in
  fips_AddRoundKey Nr w (fips_ShiftRows (fips_SubBytes s)).

(** 5.2, figure 11 *)
Definition RotWord (w : list Z) : list Z := match w with a :: t => t ++ [a] | [] => [] end.
Definition SubWord (w : list Z) : list Z := map fips_sbox w.
Definition Rcon (i : nat) : list Z := [gf_pow 2 (i - 1); 0; 0; 0].
Definition fips_word (Nk : nat) (w : list (list Z)) (i : nat) : list Z :=
  let temp := nth (i - 1) w [] in
  let temp := if (i mod Nk =? 0)%nat then xorb_list (SubWord (RotWord temp)) (Rcon (i / Nk))
              else if (6 <? Nk)%nat && (i mod Nk =? 4)%nat then SubWord temp else temp in
  xorb_list (nth (i - Nk) w []) temp.
Definition fips_KeyExpansion (Nk Nr : nat) (key : list Z) : list (list Z) :=
  fold_left (fun w i => w ++ [fips_word Nk w i]) (seq Nk (4 * (Nr + 1) - Nk))
            (map (fun i => firstn 4 (skipn (4 * i) key)) (seq 0 Nk)).

(** AES-128/192/256 of a 16-octet block under a key of 16/24/32 octets. *)
Definition fips_aes (Nk Nr : nat) (key block : list Z) : list Z := fips_Cipher Nr (fips_KeyExpansion Nk Nr key) block.
