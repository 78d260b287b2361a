(** Model of the sponge construction src/1-symm/sponge.c, the wrappers
    src/2-hash/sha3.c, src/2-xof/shake.c (incl. cSHAKE), src/2-xof/gimli-xof.c and
    src/2-mac/kmac.c, and the permutations src/1-symm/keccak.c.h (Keccak-p[1600],
    the portable variant) and src/1-symm/gimli.c.

    Simplifications: the state block appended to sponge_t is a field, reached in C
    with DeltaAdd; the function pointer [permute] is a parameter [p];
    le64toh/le32toh on the state words is little-endian decoding of its octets. *)
From Verif Require Import Base Hash.

(** sponge.h:110-138 (blksize is [length sp_state]). *)
Record sponge := Sp {
  sp_rate : nat; sp_lopad : Z; sp_hipad : Z;
  sp_finalized : bool; sp_filled : nat;
  sp_state : list Z;   (* 1st block *)
  sp_saved : list Z    (* 2nd block *)
}.

(** sponge.h:140-145 together with ".state = {0}" of the wrappers, which zero both blocks. *)
Definition SPONGE_INIT (blk rate : nat) (lo hi : Z) : sponge :=
  Sp rate lo hi false 0 (repeat 0 blk) (repeat 0 blk).

(** sponge.c:37-41: the block is full: permute, filled = 0. *)
Definition sp_permute (p : list Z -> list Z) (s : sponge) : sponge :=
  Sp (sp_rate s) (sp_lopad s) (sp_hipad s) (sp_finalized s) 0 (p (sp_state s)) (sp_saved s).

(** sponge.c:34-41: one iteration of the absorb loop. *)
Definition sp_absorb1 (p : list Z -> list Z) (s : sponge) (b : Z) : sponge :=
  let f := sp_filled s in
  let s' := Sp (sp_rate s) (sp_lopad s) (sp_hipad s) (sp_finalized s) (f + 1)
               (upd f (Z.lxor (nthZ f (sp_state s)) b) (sp_state s)) (sp_saved s) in
  if (sp_filled s' =? sp_rate s')%nat then sp_permute p s' else s'.

(** sponge.c:6-43 with data non-NULL (or len = 0) *)
Definition Sponge_Update (p : list Z -> list Z) (s : sponge) (data : list Z) : sponge :=
  fold_left (sp_absorb1 p) data s.
(** sponge.c:11-30, 38-41: data NULL and len non-zero *)
Definition Sponge_Update_null (p : list Z -> list Z) (s : sponge) : sponge := sp_permute p s.

(** sponge.c:45-62 *)
Definition Sponge_Final (p : list Z -> list Z) (s : sponge) : sponge :=
  if sp_finalized s then s else
  let st := upd (sp_filled s) (Z.lxor (nthZ (sp_filled s) (sp_state s)) (sp_lopad s)) (sp_state s) in
  let st := upd (sp_rate s - 1) (Z.lxor (nthZ (sp_rate s - 1) st) (sp_hipad s)) st in
  Sp (sp_rate s) (sp_lopad s) (sp_hipad s) true 0 (p st) (sp_saved s).

(** sponge.c:64-78; the list is what is stored at [data]. *)
Fixpoint Sponge_Read (p : list Z -> list Z) (s : sponge) (len : nat) : sponge * list Z :=
  match len with
  | O => (s, [])
  | S k =>
    let o := nthZ (sp_filled s) (sp_state s) in
    let s' := Sp (sp_rate s) (sp_lopad s) (sp_hipad s) (sp_finalized s) (sp_filled s + 1) (sp_state s) (sp_saved s) in
    let s' := if (sp_filled s' =? sp_rate s')%nat then sp_permute p s' else s' in
    let '(s'', r) := Sponge_Read p s' k in (s'', o :: r)
  end.

(** sponge.c:80-88 *)
Definition Sponge_Save (s : sponge) : sponge :=
  Sp (sp_rate s) (sp_lopad s) (sp_hipad s) (sp_finalized s) (sp_filled s) (sp_state s) (sp_state s).
(** sponge.c:90-99 *)
Definition Sponge_Restore (s : sponge) : sponge :=
  Sp (sp_rate s) (sp_lopad s) (sp_hipad s) (sp_finalized s) 0 (sp_saved s) (sp_saved s).

(* ---------------- Keccak-p[1600] ---------------- *)

(** keccak.c.h:24-28 *)
Definition krot (x s : Z) : Z :=
  let u := Z.land s 63 in
  if u =? 0 then x else Z.lor (wrap 64 (Z.shiftl x u)) (Z.shiftr x (64 - u)).

(** keccak.c.h:32-38; the loops run at most 8 times for the arguments used (-5..75). *)
Fixpoint mod5_down (fuel : nat) (x : Z) : Z :=
  match fuel with O => x | S f => if 5 <=? x then mod5_down f (x - 10) else x end.
Fixpoint mod5_up (fuel : nat) (x : Z) : Z :=
  match fuel with O => x | S f => if x <? 0 then mod5_up f (x + 5) else x end.
Definition mod5 (x : Z) : Z := mod5_up 8 (mod5_down 8 x).

(** A[y][x] of keccak_state_t (keccak.c.h:20) in row-major order. *)
Definition kidx (y x : Z) : nat := Z.to_nat (5 * y + x).
Definition kget (A : list Z) (y x : Z) : Z := nthZ (kidx y x) A.
Definition kset (A : list Z) (y x v : Z) : list Z := upd (kidx y x) v A.

Definition r5 : list Z := [0; 1; 2; 3; 4].

(** keccak.c.h:62-80 *)
Definition k_theta (A : list Z) : list Z :=
  let C := map (fun x => Z.lxor (Z.lxor (Z.lxor (Z.lxor (kget A 0 x) (kget A 1 x)) (kget A 2 x)) (kget A 3 x)) (kget A 4 x)) r5 in
  fold_left (fun A x =>
    let D := Z.lxor (nthZ (Z.to_nat (mod5 (x - 1))) C) (krot (nthZ (Z.to_nat (mod5 (x + 1))) C) 1) in
    fold_left (fun A y => kset A y x (Z.lxor (kget A y x) D)) r5 A) r5 A.

(** keccak.c.h:82-97 *)
Definition k_rho (A : list Z) : list Z :=
  let '(A, _, _) := fold_left (fun '(A, x, y) t =>
    let t := Z.of_nat t in
    (kset A y x (krot (kget A y x) (Z.shiftr ((t + 1) * (t + 2)) 1)), y, mod5 (2 * x + 3 * y)))
    (seq 0 24) (A, 1, 0) in A.

(** keccak.c.h:108-131: the assignments A[y][x] = A[y'][x'] in order, as (y,x,y',x'). *)
Definition pi_moves : list (Z * Z * Z * Z) := [
  (1,0,0,3); (0,3,3,3); (3,3,3,2); (3,2,2,1); (2,1,1,2); (1,2,2,0); (2,0,0,1); (0,1,1,1);
  (1,1,1,4); (1,4,4,2); (4,2,2,4); (2,4,4,0); (4,0,0,2); (0,2,2,2); (2,2,2,3); (2,3,3,4);
  (3,4,4,3); (4,3,3,0); (3,0,0,4); (0,4,4,4); (4,4,4,1); (4,1,1,3); (1,3,3,1)].
(** keccak.c.h:99-132 *)
Definition k_pi (A : list Z) : list Z :=
  let u := kget A 1 0 in
  let A := fold_left (fun A '(y, x, y', x') => kset A y x (kget A y' x')) pi_moves A in
  kset A 3 1 u.

(** keccak.c.h:134-153 *)
Definition k_chi (A : list Z) : list Z :=
  fold_left (fun A y =>
    let u := kget A y 0 in let v := kget A y 1 in
    let A := kset A y 0 (Z.lxor (kget A y 0) (Z.land (cnot 64 (kget A y 1)) (kget A y 2))) in
    let A := kset A y 1 (Z.lxor (kget A y 1) (Z.land (cnot 64 (kget A y 2)) (kget A y 3))) in
    let A := kset A y 2 (Z.lxor (kget A y 2) (Z.land (cnot 64 (kget A y 3)) (kget A y 4))) in
    let A := kset A y 3 (Z.lxor (kget A y 3) (Z.land (cnot 64 (kget A y 4)) u)) in
    kset A y 4 (Z.lxor (kget A y 4) (Z.land (cnot 64 u) v))) r5 A.

(** keccak.c.h:161-169: one j iteration on (RC, lfsr); l = 6 for 64-bit lanes. *)
Definition iota_step (st : Z * Z) (j : nat) : Z * Z :=
  let '(RC, lfsr) := st in
  let RC := if (j <=? 6)%nat then Z.lxor RC (Z.shiftl (Z.land lfsr 1) (2 ^ Z.of_nat j - 1)) else RC in
  let lfsr := Z.shiftl lfsr 1 in
  let lfsr := Z.lxor lfsr (Z.land (Z.shiftr lfsr 8) 1 * 0x71) in
  (RC, Z.land lfsr 0xff).
Definition iota_rc (lfsr : Z) : Z * Z := fold_left iota_step (seq 0 7) (0, lfsr).
(** keccak.c.h:155-177; [doit = false] is A == NULL. *)
Definition k_iota (doit : bool) (A : list Z) (lfsr : Z) : list Z * Z :=
  let '(RC, lfsr') := iota_rc lfsr in
  ((if doit then kset A 0 0 (Z.lxor (kget A 0 0) RC) else A), lfsr').

(** keccak.c.h:194-198, one iteration *)
Definition kp_round (rounds : nat) (st : list Z * Z) (ir : nat) : list Z * Z :=
  let '(A, lfsr) := st in
  let on := (24 <=? ir + rounds)%nat in
  let A := if on then k_chi (k_pi (k_rho (k_theta A))) else A in
  k_iota on A lfsr.

(** letoh of the i-th 64-bit word (keccak.c.h:191) / htole (200). *)
Definition le_words (wb n : nat) (s : list Z) : list Z := map (fun i => le_val (firstn wb (skipn (wb * i) s))) (seq 0 n).
Definition le_unwords (wb : nat) (A : list Z) : list Z := concat (map (le_bytes wb) A).

(** keccak.c.h:180-201 *)
Definition KeccakP1600_Permute (rounds : nat) (s : list Z) : list Z :=
  le_unwords 8 (fst (fold_left (kp_round rounds) (seq 0 24) (le_words 8 25 s, 1))).
(** keccak.c.h:204-211 *)
Definition KeccakF1600_Permute : list Z -> list Z := KeccakP1600_Permute 24.
(** keccak.c.h:213-221 *)
Definition KeccakP1600nr12_Permute : list Z -> list Z := KeccakP1600_Permute 12.
Definition KeccakP1600nr14_Permute : list Z -> list Z := KeccakP1600_Permute 14.

(* ---------------- Gimli ---------------- *)

(** gimli.c:9-13 *)
Definition g_rotate (x bits : Z) : Z :=
  if bits =? 0 then x else Z.lor (u32 (Z.shiftl x bits)) (Z.shiftr x (32 - bits)).
(** gimli.c:25-34, one column *)
Definition g_column (st : list Z) (c : nat) : list Z :=
  let x := g_rotate (nthZ c st) 24 in
  let y := g_rotate (nthZ (4 + c) st) 9 in
  let z := nthZ (8 + c) st in
  let st := upd (8 + c) (Z.lxor (Z.lxor x (u32 (Z.shiftl z 1))) (u32 (Z.shiftl (Z.land y z) 2))) st in
  let st := upd (4 + c) (Z.lxor (Z.lxor y x) (u32 (Z.shiftl (Z.lor x z) 1))) st in
  upd c (Z.lxor (Z.lxor z y) (u32 (Z.shiftl (Z.land x y) 3))) st.
(** exchange of state[i] and state[j] (gimli.c:37-42, 45-50) *)
Definition g_swap (i j : nat) (st : list Z) : list Z :=
  let x := nthZ i st in upd j x (upd i (nthZ j st) st).
(** gimli.c:23-56, one round *)
Definition g_round (st : list Z) (round : Z) : list Z :=
  let st := fold_left g_column [0; 1; 2; 3]%nat st in
  let st := if Z.land round 3 =? 0 then g_swap 2 3 (g_swap 0 1 st) else st in
  let st := if Z.land round 3 =? 2 then g_swap 1 3 (g_swap 0 2 st) else st in
  if Z.land round 3 =? 0 then upd 0 (Z.lxor (nthZ 0 st) (Z.lor 0x9e377900 round)) st else st.
(** gimli.c:15-57; round = 24, 23, ..., 1 *)
Definition gimli (st : list Z) : list Z := fold_left g_round (map (fun i => 24 - Z.of_nat i) (seq 0 24)) st.
(** gimli.c:59-70 *)
Definition Gimli_Permute (s : list Z) : list Z := le_unwords 4 (gimli (le_words 4 12 s)).

(* ---------------- SHA-3 ---------------- *)

(** sha3.c:7-19; [hlen] = 28, 32, 48, 64 *)
Definition SHA3_Init (hlen : nat) : sponge := SPONGE_INIT 200 (200 - hlen * 2) 0x06 0x80.
(** sha3.c:21-24 *)
Definition SHA3_Update (x : sponge) (data : list Z) : sponge := Sponge_Update KeccakF1600_Permute x data.
(** sha3.c:30-45 *)
Definition SHA3_Final (x : sponge) (t : nat) : sponge * list Z :=
  let hlen := ((200 - sp_rate x) / 2)%nat in
  let x := if sp_finalized x then x else Sponge_Save (Sponge_Final KeccakF1600_Permute x) in
  let x := Sponge_Restore x in
  let '(x, o) := Sponge_Read KeccakF1600_Permute x (if (t <? hlen)%nat then t else hlen) in
  (x, o ++ repeat 0 (t - hlen)).

(* ---------------- XOFs ---------------- *)

(** shake.c:28-40, gimli-xof.c:22-32 *)
Definition XOF_Final (p : list Z -> list Z) (x : sponge) : sponge :=
  if sp_finalized x then Sponge_Restore x else Sponge_Save (Sponge_Final p x).
(** shake.c:7-13 and 15-21: sec = 16, 32 *)
Definition SHAKE_Init (sec : nat) : sponge := SPONGE_INIT 200 (200 - sec * 2) 0x1f 0x80.
(** shake.c:23-26 *)
Definition SHAKE_Write (x : sponge) (data : list Z) : sponge := Sponge_Update KeccakF1600_Permute x data.
Definition SHAKE_Final (x : sponge) : sponge := XOF_Final KeccakF1600_Permute x.
(** shake.c:42-45 *)
Definition SHAKE_Read (x : sponge) (len : nat) : sponge * list Z := Sponge_Read KeccakF1600_Permute x len.
(** gimli-xof.c:6-12 *)
Definition Gimli_XOF_Init : sponge := SPONGE_INIT 48 16 0x1f 0x80.
(** gimli-xof.c:14-37 *)
Definition Gimli_XOF_Write (x : sponge) (data : list Z) : sponge := Sponge_Update Gimli_Permute x data.
Definition Gimli_XOF_Final (x : sponge) : sponge := XOF_Final Gimli_Permute x.
Definition Gimli_XOF_Read (x : sponge) (len : nat) : sponge * list Z := Sponge_Read Gimli_Permute x len.

(* ---------------- cSHAKE and KMAC ---------------- *)

(** shake.c:47-60 *)
Definition ilen (v : Z) : nat :=
  if negb (v <? 2 ^ 56) then 8 else if negb (v <? 2 ^ 48) then 7 else if negb (v <? 2 ^ 40) then 6
  else if negb (v <? 2 ^ 32) then 5 else if negb (v <? 2 ^ 24) then 4 else if negb (v <? 2 ^ 16) then 3
  else if negb (v <? 2 ^ 8) then 2 else 1.
(** shake.c:62-74; v is a uint64_t *)
Definition cshake_left_encode (x : sponge) (v : Z) : sponge :=
  let c := be_bytes 8 v in let o := ilen v in
  SHAKE_Write (SHAKE_Write x [Z.of_nat o]) (skipn (8 - o) c).
(** shake.c:76-88 *)
Definition cshake_right_encode (x : sponge) (v : Z) : sponge :=
  let c := be_bytes 8 v in let o := ilen v in
  SHAKE_Write (SHAKE_Write x (skipn (8 - o) c)) [Z.of_nat o].
(** shake.c:90-97; len * 8 in a 64-bit size_t *)
Definition cshake_encode_string (x : sponge) (S : list Z) : sponge :=
  SHAKE_Write (cshake_left_encode x (u64 (Z.of_nat (length S) * 8))) S.
(** shake.c:99-143, SHAKE_cSHAKE_customize with bufvec = (N, S) *)
Definition cSHAKE_customize (x : sponge) (N S : list Z) : sponge :=
  let rate := sp_rate x in
  if ((length N =? 0) && (length S =? 0))%nat then SPONGE_INIT 200 rate 0x1f 0x80
  else
    let x := SPONGE_INIT 200 rate 0x04 0x80 in
    let x := cshake_left_encode x (Z.of_nat rate) in
    let x := cshake_encode_string x N in
    let x := cshake_encode_string x S in
    Sponge_Update_null KeccakF1600_Permute x.

(** kmac.c:16: "KMAC" *)
Definition kmac_name : list Z := [75; 77; 65; 67].
(** kmac.c:6-32, rate < 200 *)
Definition KMAC_VInit (k s : list Z) (rate : nat) : sponge :=
  let x := SPONGE_INIT 200 rate 0x0f 0x80 in
  let x := cSHAKE_customize x kmac_name s in
  let x := cshake_left_encode x (Z.of_nat rate) in
  let x := cshake_encode_string x k in
  Sponge_Update_null KeccakF1600_Permute x.
(** kmac.c:102-105 *)
Definition KMAC_Update (x : sponge) (data : list Z) : sponge := Sponge_Update KeccakF1600_Permute x data.
(** kmac.c:113-117 = 128-132 *)
Definition KMAC_begin (x : sponge) : sponge := if sp_finalized x then Sponge_Restore x else Sponge_Save x.
(** kmac.c:107-122 *)
Definition KMAC_Final (x : sponge) (t : nat) : sponge * list Z :=
  let x := KMAC_begin x in
  let x := cshake_right_encode x (u64 (Z.of_nat t * 8)) in
  let x := Sponge_Final KeccakF1600_Permute x in
  Sponge_Read KeccakF1600_Permute x t.
(** kmac.c:124-136 *)
Definition KMAC_XofFinal (x : sponge) : sponge :=
  let x := KMAC_begin x in
  let x := cshake_right_encode x 0 in
  Sponge_Final KeccakF1600_Permute x.
(** kmac.c:138-141 *)
Definition KMAC_XofRead (x : sponge) (t : nat) : sponge * list Z := Sponge_Read KeccakF1600_Permute x t.
