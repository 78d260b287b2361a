(** Specifications: FIPS 202 (Keccak-p[1600,nr], sponge, SHA-3, SHAKE) and SP 800-185
    (cSHAKE, KMAC), on octet strings.  Independent of the model in Sponge.v. *)
From Verif Require Import Base HashSpec.

(* ---- Keccak-p[1600, nr]: lanes Lane(x,y), 64-bit, indexed 5y+x (3.1.2) ---- *)
Definition lane (A : list Z) (x y : nat) : Z := nthZ (5 * (y mod 5) + x mod 5) A.
(** Build a state from its lanes. *)
Definition mk_state (f : nat -> nat -> Z) : list Z := map (fun i => f (i mod 5)%nat (i / 5)%nat) (seq 0 25).

(** 3.2.1: C[x] is the parity of column x, D[x] = C[x-1] xor rot(C[x+1],1). *)
Definition col (A : list Z) (x : nat) : Z :=
  Z.lxor (lane A x 0) (Z.lxor (lane A x 1) (Z.lxor (lane A x 2) (Z.lxor (lane A x 3) (lane A x 4)))).
Definition theta (A : list Z) : list Z :=
  mk_state (fun x y => Z.lxor (lane A x y) (Z.lxor (col A (x + 4)) (rotl 64 1 (col A (x + 1))))).
(** 3.2.2, Table 2 (offsets, row y, column x = 0..4) *)
Definition rho_table : list Z := [
    0;   1; 190;  28;  91;
   36; 300;   6;  55; 276;
    3;  10; 171; 153; 231;
  105;  45;  15;  21; 136;
  210;  66; 253; 120;  78].
Definition rho (A : list Z) : list Z := mk_state (fun x y => rotl 64 (nthZ (5 * y + x) rho_table mod 64) (lane A x y)).
(** 3.2.3: A'[x,y] = A[(x+3y) mod 5, x] *)
Definition pi (A : list Z) : list Z := mk_state (fun x y => lane A (x + 3 * y) x).
(** 3.2.4 *)
Definition chi (A : list Z) : list Z :=
  mk_state (fun x y => Z.lxor (lane A x y) (Z.land (compl 64 (lane A (x + 1) y)) (lane A (x + 2) y))).
(** 3.2.5, Algorithm 5: rc(t), with R as the list of its bits. *)
Definition rc_step (R : list bool) : list bool :=
  let R := false :: R in
  let r i := nth i R false in
  [xorb (r 0%nat) (r 8%nat); r 1%nat; r 2%nat; r 3%nat; xorb (r 4%nat) (r 8%nat);
   xorb (r 5%nat) (r 8%nat); xorb (r 6%nat) (r 8%nat); r 7%nat].
Definition rc (t : nat) : bool :=
  hd false (Nat.iter (t mod 255) rc_step [true; false; false; false; false; false; false; false]).
(** Algorithm 6: RC[2^j - 1] = rc(j + 7 ir) for j = 0..6 *)
Definition RC (ir : nat) : Z :=
  fold_right Z.add 0 (map (fun j => if rc (j + 7 * ir) then 2 ^ (2 ^ Z.of_nat j - 1) else 0) (seq 0 7)).
Definition iota (A : list Z) (ir : nat) : list Z :=
  mk_state (fun x y => if ((x =? 0) && (y =? 0))%nat then Z.lxor (lane A 0 0) (RC ir) else lane A x y).
(** 3.3: Rnd and Keccak-p[1600,nr]: rounds 24-nr .. 23. *)
Definition Rnd (A : list Z) (ir : nat) : list Z := iota (chi (pi (rho (theta A)))) ir.
(** Lanes are the little-endian 64-bit words of the state (3.1.2 with B.1). *)
Definition keccak_p (nr : nat) (s : list Z) : list Z :=
  let A := map (fun i => le_val (firstn 8 (skipn (8 * i) s))) (seq 0 25) in
  concat (map (le_bytes 8) (fold_left Rnd (seq (24 - nr) nr) A)).

(* ---- Sponge (4, 5.1 and B.2), permutation p on octet strings of length b ---- *)
(** xor of a rate-sized block into the front of the state *)
Definition xor_front (S blk : list Z) : list Z := xorb_list (firstn (length blk) S) blk ++ skipn (length blk) S.
(** Padding: first octet [lo] (domain-separation bits and the first pad10*1 bit),
    last octet [hi] (the last pad10*1 bit); both in one octet if one is missing. *)
Definition sponge_pad (rate : nat) (lo hi : Z) (m : list Z) : list Z :=
  let k := (rate - length m mod rate)%nat in
  m ++ (if (k =? 1)%nat then [Z.lxor lo hi] else lo :: repeat 0 (k - 2) ++ [hi]).
(** The state once the padded message is absorbed. *)
Definition absorb (p : list Z -> list Z) (b rate : nat) (m : list Z) : list Z :=
  fold_left (fun S blk => p (xor_front S blk)) (blocks rate m) (repeat 0 b).
(** i-th octet of the output stream *)
Definition squeeze_octet (p : list Z -> list Z) (rate : nat) (S : list Z) (i : nat) : Z :=
  nthZ (i mod rate) (Nat.iter (i / rate) p S).
Definition sponge_stream (p : list Z -> list Z) (b rate : nat) (lo hi : Z) (m : list Z) (i : nat) : Z :=
  squeeze_octet p rate (absorb p b rate (sponge_pad rate lo hi m)) i.
(** d octets of output *)
Definition sponge_hash (p : list Z -> list Z) (b rate : nat) (lo hi : Z) (m : list Z) (d : nat) : list Z :=
  map (sponge_stream p b rate lo hi m) (seq 0 d).

(** FIPS 202 6.1 (suffix 01 then 10*1: 0x06, 0x80), 6.2 (suffix 1111: 0x1f, 0x80) *)
Definition fips_sha3 (d : nat) (m : list Z) : list Z := sponge_hash (keccak_p 24) 200 (200 - 2 * d) 0x06 0x80 m d.
Definition fips_shake (sec : nat) (m : list Z) (d : nat) : list Z := sponge_hash (keccak_p 24) 200 (200 - 2 * sec) 0x1f 0x80 m d.

(* ---- SP 800-185 ---- *)
(** 2.3.1: the smallest positive number of octets holding x *)
Fixpoint octets_needed (fuel : nat) (x : Z) : nat :=
  match fuel with O => 1 | S f => if x <? 256 then 1%nat else S (octets_needed f (x / 256)) end.
Definition olen (x : Z) : nat := octets_needed 300 x.
Definition left_encode (x : Z) : list Z := Z.of_nat (olen x) :: be_bytes (olen x) x.
Definition right_encode (x : Z) : list Z := be_bytes (olen x) x ++ [Z.of_nat (olen x)].
(** 2.3.2 *)
Definition encode_string (s : list Z) : list Z := left_encode (8 * Z.of_nat (length s)) ++ s.
(** 2.3.3: bytepad(X, w): left_encode(w) || X, zero-filled to a multiple of w *)
Definition zero_fill_to (w : nat) (z : list Z) : list Z := z ++ repeat 0 ((w - length z mod w) mod w).
Definition bytepad (x : list Z) (w : nat) : list Z := zero_fill_to w (left_encode (Z.of_nat w) ++ x).
(** 3.3: cSHAKE (suffix 00 then 10*1: 0x04, 0x80) *)
Definition nist_cshake (sec : nat) (N S : list Z) (m : list Z) (d : nat) : list Z :=
  let rate := (200 - 2 * sec)%nat in
  match N, S with
  | [], [] => fips_shake sec m d
  | _, _ => sponge_hash (keccak_p 24) 200 rate 0x04 0x80 (bytepad (encode_string N ++ encode_string S) rate ++ m) d
  end.
(** 4.3: KMAC; L = 8d, and 0 for KMACXOF *)
Definition nist_kmac (sec : nat) (K X S : list Z) (d : nat) : list Z :=
  let rate := (200 - 2 * sec)%nat in
  nist_cshake sec [75; 77; 65; 67] S (bytepad (encode_string K) rate ++ X ++ right_encode (8 * Z.of_nat d)) d.
Definition nist_kmacxof (sec : nat) (K X S : list Z) (d : nat) : list Z :=
  let rate := (200 - 2 * sec)%nat in
  nist_cshake sec [75; 77; 65; 67] S (bytepad (encode_string K) rate ++ X ++ right_encode 0) d.
