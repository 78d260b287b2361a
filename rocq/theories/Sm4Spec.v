(** GB/T 32907-2016 (SM4): an independent specification of the cipher, on 32-bit words.
    The S-box is given by its algebraic description (inversion in GF(2^8) between two equal
    affine maps), the constants CK by the formula of the standard. *)
From Verif Require Import Base HashSpec.

(** GF(2^8) with the polynomial x^8+x^7+x^6+x^5+x^4+x^2+1 *)
Definition sm4_xtime (a : Z) : Z := if 256 <=? 2 * a then Z.lxor (2 * a) 0x1F5 else 2 * a.
Definition sm4_mul (a b : Z) : Z :=
  fst (fold_left (fun (s : Z * Z) k => (if Z.testbit b (Z.of_nat k) then Z.lxor (fst s) (snd s) else fst s, sm4_xtime (snd s)))
                 (seq 0 8) (0, a)).
(** the inverse of a, 0 for 0: a to the power 254 *)
Definition sm4_inv (a : Z) : Z :=
  let a2 := sm4_mul a a in let a4 := sm4_mul a2 a2 in let a8 := sm4_mul a4 a4 in let a16 := sm4_mul a8 a8 in
  let a32 := sm4_mul a16 a16 in let a64 := sm4_mul a32 a32 in let a128 := sm4_mul a64 a64 in
  sm4_mul a2 (sm4_mul a4 (sm4_mul a8 (sm4_mul a16 (sm4_mul a32 (sm4_mul a64 a128))))).
(** the affine map: a circulant matrix and the constant D3 *)
Definition sm4_affine (x : Z) : Z :=
  Z.lxor (Z.lxor (Z.lxor (Z.lxor (Z.lxor x (rotl 8 1 x)) (rotl 8 3 x)) (rotl 8 6 x)) (rotl 8 7 x)) 0xD3.
Definition Sbox (x : Z) : Z := sm4_affine (sm4_inv (sm4_affine x)).

(** 6.2: tau, L, T, and L' of 7.3 *)
Definition tau (A : Z) : Z := be_val (map Sbox (be_bytes 4 A)).
Definition L (B : Z) : Z := Z.lxor (Z.lxor (Z.lxor (Z.lxor B (rotl 32 2 B)) (rotl 32 10 B)) (rotl 32 18 B)) (rotl 32 24 B).
Definition L' (B : Z) : Z := Z.lxor (Z.lxor B (rotl 32 13 B)) (rotl 32 23 B).
(** 6.1: F(X0,X1,X2,X3,rk); the window (Xi, .., Xi+3) becomes (Xi+1, .., Xi+4) *)
Definition word4 : Type := Z * Z * Z * Z.
Definition slide (lin : Z -> Z) (x : word4) (k : Z) : word4 :=
  let '(x0, x1, x2, x3) := x in
  (x1, x2, x3, Z.lxor x0 (lin (tau (Z.lxor (Z.lxor (Z.lxor x1 x2) x3) k)))).
Definition last4 (x : word4) : Z := snd x.
Definition words_be (b : list Z) : word4 :=
  (be_val (firstn 4 b), be_val (firstn 4 (skipn 4 b)), be_val (firstn 4 (skipn 8 b)), be_val (firstn 4 (skipn 12 b))).
(** 7.1: 32 rounds and the reversal R *)
Definition sm4_crypt (rks : list Z) (b : list Z) : list Z :=
  let '(x0, x1, x2, x3) := fold_left (slide L) rks (words_be b) in
  be_bytes 4 x3 ++ be_bytes 4 x2 ++ be_bytes 4 x1 ++ be_bytes 4 x0.
(** 7.3: key expansion *)
Definition CK_spec (i : nat) : Z := be_val (map (fun j => (Z.of_nat (4 * i + j) * 7) mod 256) (seq 0 4)).
Definition sm4_round_keys (key : list Z) : list Z :=
  let '(m0, m1, m2, m3) := words_be key in
  snd (fold_left (fun (s : word4 * list Z) i => let x := slide L' (fst s) (CK_spec i) in (x, snd s ++ [last4 x]))
    (seq 0 32) ((Z.lxor m0 0xA3B1BAC6, Z.lxor m1 0x56AA3350, Z.lxor m2 0x677D9197, Z.lxor m3 0xB27022DC), [])).
Definition sm4_encrypt (key b : list Z) : list Z := sm4_crypt (sm4_round_keys key) b.
Definition sm4_decrypt (key b : list Z) : list Z := sm4_crypt (rev (sm4_round_keys key)) b.
