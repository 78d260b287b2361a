(** Models of the SM4 of src/1-symm-national/sm4-arm.c and of the Keccak-p[1600] permutation
    of src/1-symm/keccak-arm.c.h, written with Arm instructions.  A 128-bit register is the
    list of its lanes, lane 0 first.  The instructions are defined as the Arm Architecture
    Reference Manual (A64, "shared/functions" pseudocode) does. *)
From Verif Require Import Base Hash HashSpec Cipher Sponge ShaIsa Sm4Spec.

(** ** Instructions *)
(** VREV32.8 after a load (sm4-arm.c:11-20) of 16 octets, four 32-bit lanes *)
Definition ld_be32 (b : list Z) : list Z := lanes 4 4 (vrev 4 b).
(** VREV32.8 before a store (sm4-arm.c:45-52) *)
Definition st_be32 (v : list Z) : list Z := vrev 4 (flat_map (le_bytes 4) v).
(** TRN1, TRN2 on 64-bit lanes, each a pair of 32-bit lanes, and on 32-bit lanes *)
Definition vtrn1q_u64 (a b : list Z) : list Z := [nthZ 0 a; nthZ 1 a; nthZ 0 b; nthZ 1 b].
Definition vtrn2q_u64 (a b : list Z) : list Z := [nthZ 2 a; nthZ 3 a; nthZ 2 b; nthZ 3 b].
Definition vtrn1q_u32 (a b : list Z) : list Z := [nthZ 0 a; nthZ 0 b; nthZ 2 a; nthZ 2 b].
Definition vtrn2q_u32 (a b : list Z) : list Z := [nthZ 1 a; nthZ 1 b; nthZ 3 a; nthZ 3 b].
(** SM4E, SM4EKEY: for each of the four round keys (constants), substitute the octets of
    the exclusive or of lanes 3, 2, 1 and the key, mix, add lane 0, shift in at lane 3. *)
Definition sm4_isa (lin : Z -> Z) (r : list Z) (k : Z) : list Z :=
  let v := Z.lxor (Z.lxor (Z.lxor (nthZ 3 r) (nthZ 2 r)) (nthZ 1 r)) k in
  [nthZ 1 r; nthZ 2 r; nthZ 3 r; Z.lxor (lin (tau v)) (nthZ 0 r)].
Definition vsm4eq_u32 (X rk : list Z) : list Z :=
  fold_left (sm4_isa (fun v => Z.lxor (Z.lxor (Z.lxor (Z.lxor v (rotl 32 2 v)) (rotl 32 10 v)) (rotl 32 18 v)) (rotl 32 24 v))) rk X.
Definition vsm4ekeyq_u32 (K ck : list Z) : list Z :=
  fold_left (sm4_isa (fun v => Z.lxor (Z.lxor v (rotl 32 13 v)) (rotl 32 23 v))) ck K.
(** EOR3, RAX1, BCAX, EOR on two 64-bit lanes; [vcombine_u64] and [vdupd_laneq_u64] build
    a register and read a lane. *)
Definition vcombine (a b : Z) : list Z := [a; b].
Definition vdup (v : list Z) (i : nat) : Z := nthZ i v.
Definition veor3 (a b c : list Z) : list Z :=
  [Z.lxor (Z.lxor (nthZ 0 a) (nthZ 0 b)) (nthZ 0 c); Z.lxor (Z.lxor (nthZ 1 a) (nthZ 1 b)) (nthZ 1 c)].
Definition vrax1 (a b : list Z) : list Z :=
  [Z.lxor (nthZ 0 a) (rotl 64 1 (nthZ 0 b)); Z.lxor (nthZ 1 a) (rotl 64 1 (nthZ 1 b))].
Definition vbcax (a b c : list Z) : list Z :=
  [Z.lxor (nthZ 0 a) (Z.land (nthZ 0 b) (cnot 64 (nthZ 0 c))); Z.lxor (nthZ 1 a) (Z.land (nthZ 1 b) (cnot 64 (nthZ 1 c)))].

(** ** sm4-arm.c *)
(** sm4-arm.c:30-31, 42-43 *)
Definition swap_lanes (v : list Z) : list Z :=
  let v := vtrn1q_u64 (vtrn2q_u64 v v) v in vtrn1q_u32 (vtrn2q_u32 v v) v.
(** sm4-arm.c:22-39, one iteration; [kschd] is the array of 32 words *)
Definition ni_sm4_body (kschd : list Z) (rv : bool) (X : list Z) (i : nat) : list Z :=
  let rk := if rv then swap_lanes (firstn 4 (skipn (28 - i * 4) kschd)) else firstn 4 (skipn (i * 4) kschd) in
  vsm4eq_u32 X rk.
(** sm4-arm.c:6-53 *)
Definition NI_SM4Feistel (kschd : list Z) (rv : bool) (inp : list Z) : list Z :=
  st_be32 (swap_lanes (fold_left (ni_sm4_body kschd rv) (seq 0 8) (ld_be32 inp))).
(** sm4-arm.c:55-63 *)
Definition NI_SM4Encrypt (w inp : list Z) : list Z := NI_SM4Feistel w false inp.
Definition NI_SM4Decrypt (w inp : list Z) : list Z := NI_SM4Feistel w true inp.
(** sm4-arm.c:68-87; the result is w, as 32 words *)
Definition NI_SM4KeySched (key : list Z) : list Z :=
  let K := vxor (ld_be32 key) (firstn 4 sm4_FK) in
  snd (fold_left (fun (s : list Z * list Z) i =>
    let K := vsm4ekeyq_u32 (fst s) (firstn 4 (skipn (i * 4) sm4_CK)) in (K, snd s ++ K)) (seq 0 8) (K, [])).

(** ** keccak-arm.c.h *)
(** keccak-arm.c.h:51-85: the columns x and x' of the state, summed *)
Definition arm_col (A : list Z) (x x' : Z) : list Z :=
  veor3 (veor3 (vcombine (kget A 0 x) (kget A 0 x')) (vcombine (kget A 1 x) (kget A 1 x')) (vcombine (kget A 2 x) (kget A 2 x')))
        (vcombine (kget A 3 x) (kget A 3 x')) (vcombine (kget A 4 x) (kget A 4 x')).
(** keccak-arm.c.h:46-112 *)
Definition theta64 (A : list Z) : list Z :=
  let C0 := arm_col A 4 0 in let C1 := arm_col A 1 2 in let C2 := arm_col A 3 4 in let C3 := arm_col A 0 1 in
  let D := vrax1 C0 C1 in
  let A := fold_left (fun A y =>
    let T := vxor (vcombine (kget A y 0) (kget A y 1)) D in kset (kset A y 0 (vdup T 0)) y 1 (vdup T 1)) r5 A in
  let D := vrax1 C1 C2 in
  let A := fold_left (fun A y =>
    let T := vxor (vcombine (kget A y 2) (kget A y 3)) D in kset (kset A y 2 (vdup T 0)) y 3 (vdup T 1)) r5 A in
  let D := vrax1 C2 C3 in
  fold_left (fun A y => let T := vxor (vcombine (kget A y 4) 0) D in kset A y 4 (vdup T 0)) r5 A.
(** keccak-arm.c.h:117-148 *)
Definition chi64 (A : list Z) : list Z :=
  fold_left (fun A y =>
    let V0 := vcombine (kget A y 0) (kget A y 1) in let V1 := vcombine (kget A y 2) (kget A y 3) in
    let V2 := vcombine (kget A y 4) (kget A y 0) in let V3 := vcombine (kget A y 1) (kget A y 2) in
    let V4 := vcombine (kget A y 3) (kget A y 4) in
    let T := vbcax V0 V1 V3 in let A := kset (kset A y 0 (vdup T 0)) y 1 (vdup T 1) in
    let T := vbcax V1 V2 V4 in let A := kset (kset A y 2 (vdup T 0)) y 3 (vdup T 1) in
    let T := vbcax V2 V3 V0 in kset A y 4 (vdup T 0)) r5 A.
(** keccak-arm.c.h:166-171, one iteration; rho, pi and iota are those of keccak.c.h *)
Definition kp_round_ni (rounds : nat) (st : list Z * Z) (ir : nat) : list Z * Z :=
  let '(A, lfsr) := st in
  let on := (24 <=? ir + rounds)%nat in
  let A := if on then chi64 (k_pi (k_rho (theta64 A))) else A in
  k_iota on A lfsr.
(** keccak-arm.c.h:153-174 *)
Definition KeccakP1600_Permute_ni (rounds : nat) (s : list Z) : list Z :=
  le_unwords 8 (fst (fold_left (kp_round_ni rounds) (seq 0 24) (le_words 8 25 s, 1))).
