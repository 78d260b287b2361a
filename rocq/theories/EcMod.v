(** Model of the fast reductions in src/2-ec (curve-secp256r1.c, curve-secp384r1.c,
    curveSM2.c, modp25519.c, modp448.c) and of src/2-ec/ec-common.c. *)
From Verif Require Import Base Vlong.

(** One application of "b = rem->v[t]; rem->v[t] = 0; vlong_adds(...)...":
    curve-secp256r1.c:39-44 and the like.  [terms] lists the calls of vlong_adds
    in order: (c, o) is vlong_adds(rem, rem, c*b, t-o). *)
Definition fold_word (terms : list (Z * nat)) (t : nat) (rem : list Z) : list Z :=
  let b := nthZ t rem in
  fold_left (fun r '(c, o) => vlong_adds (length r) r (c * b) (t - o)) terms (upd t 0 rem).

(** curve-secp256r1.c:37-52: for(t = rem->c; t-- > n; ), two applications each. *)
Fixpoint fold_loop (terms : list (Z * nat)) (n t : nat) (rem : list Z) : list Z :=
  match t with
  | O => rem
  | S t' => if (n <=? t')%nat then fold_loop terms n t' (fold_word terms t' (fold_word terms t' rem)) else rem
  end.

(** curve-secp256r1.c:54-63: constant-time comparison of rem with p. *)
Fixpoint cmp_loop (rem p : list Z) (t : nat) (res : Z) : Z :=
  match t with
  | O => res
  | S t' =>
      let u := nthZ t' rem in
      let v := if (t' <? length p)%nat then nthZ t' p else 0 in
      let mask := Z.land 1 (Z.lor (Z.shiftr res 1) res) * 3 in
      let mask := Z.lnot mask in
      let mask := Z.land mask (vlong_cmps u v) in
      cmp_loop rem p t' (Z.lor res mask)
  end.

(** curve-secp256r1.c:54-71: one conditional subtraction of p. *)
Definition final_sub (p rem : list Z) : list Z :=
  let res := cmp_loop rem p (length rem) 0 in
  let u := u32 (Z.shiftr (Z.lxor res 1 - 1) 8) in
  let u := u32 (- Z.land u 1) in
  vlong_subv (length rem) rem (map (fun w => Z.land w u) p).

(** The shape shared by the reductions of secp256r1, secp384r1, SM2 and p448. *)
Definition remv_generic (terms : list (Z * nat)) (p rem : list Z) : list Z * bool :=
  if (length rem <? length p)%nat then (rem, true)
  else (final_sub p (fold_loop terms (length p) (length rem) rem), true).

(** curve-secp256r1.c:5-16 and 18-74. *)
Definition Fp_secp256r1 : list Z :=
  [2^32-1; 2^32-1; 2^32-1; 0; 0; 0; 1; 2^32-1].
Definition remv_secp256r1 : modfun :=
  remv_generic [(1, 1%nat); (-1, 2%nat); (-1, 5%nat); (1, 8%nat)] Fp_secp256r1.

(** curve-secp384r1.c:5-20 and 22-78. *)
Definition Fp_secp384r1 : list Z :=
  [2^32-1; 0; 0; 2^32-1; 2^32-2; 2^32-1; 2^32-1; 2^32-1; 2^32-1; 2^32-1; 2^32-1; 2^32-1].
Definition remv_secp384r1 : modfun :=
  remv_generic [(1, 8%nat); (1, 9%nat); (-1, 11%nat); (1, 12%nat)] Fp_secp384r1.

(** curveSM2.c:5-16 and 18-74. *)
Definition Fp_SM2 : list Z :=
  [2^32-1; 2^32-1; 0; 2^32-1; 2^32-1; 2^32-1; 2^32-1; 2^32-2].
Definition remv_SM2 : modfun :=
  remv_generic [(1, 1%nat); (1, 5%nat); (-1, 6%nat); (1, 8%nat)] Fp_SM2.

(** modp448.c:7-24 and 26-74. *)
Definition Fp_448 : list Z :=
  [2^32-1; 2^32-1; 2^32-1; 2^32-1; 2^32-1; 2^32-1; 2^32-1; 2^32-2; 2^32-1; 2^32-1; 2^32-1; 2^32-1; 2^32-1; 2^32-1].
Definition remv_448 : modfun :=
  remv_generic [(1, 7%nat); (1, 14%nat)] Fp_448.

(** modp25519.c:49-55: fold bit 255, twice. *)
Definition fold_bit255 (rem : list Z) : list Z :=
  let b := Z.shiftr (nthZ 7 rem) 31 in
  vlong_adds (length rem) (upd 7 (Z.land (nthZ 7 rem) (2^31-1)) rem) (b * 19) 0.

(** modp25519.c:7-18 and 20-74. *)
Definition Fp_25519 : list Z :=
  [2^32-19; 2^32-1; 2^32-1; 2^32-1; 2^32-1; 2^32-1; 2^32-1; 2^31-1].
Definition remv_25519 (rem : list Z) : list Z * bool :=
  if (length rem <? 8)%nat then (rem, true)
  else (final_sub Fp_25519 (fold_bit255 (fold_bit255 (fold_loop [(38, 8%nat)] 8 (length rem) rem))), true).

(** ec-common.c:5-45, ecp_imod_inplace; (g, p) = (aux->modfunc, aux->mod_ctx). *)
Definition ecp_imod_inplace (g : modfun) (p rem : list Z) : list Z :=
  let neg := u32 (- Z.land (Z.shiftr (nthZ (length rem - 1) rem) 31) 1) in
  let rem := map (fun w => Z.lxor w neg) rem in
  let rem := vlong_adds (length rem) rem (Z.land neg 1) 0 in
  let rem := fst (g rem) in
  let z := fold_left Z.lor rem 0 in
  let z := nz_mask z in
  let neg := Z.land neg z in
  let nneg := u32 (Z.lnot neg) in
  add_kernel (fun i x =>
      let u := if (i <? length rem)%nat then nthZ i rem else 0 in
      let v := if (i <? length p)%nat then nthZ i p else 0 in
      u64 (x + Z.lor (Z.land nneg u) (Z.land neg v)) - Z.land neg u)
    [] 0 (length rem) 0.

(** ec-common.c:76-101, the loop of vlong_modexpv_shiftadded; [k] = f - i.
    w is a uint64_t.  The results of vlong_mulv_masked are ignored. *)
Fixpoint shiftadded_loop (e : list Z) (g : modfun) (n k i : nat) (w : Z) (out tmp1 : list Z) : list Z :=
  match k with
  | O => out
  | S k' =>
      let mask := Z.land (Z.shiftr w (Z.of_nat (i mod 32))) 1 in
      let out' := fst (vlong_mulv_masked n out tmp1 mask (Some g)) in
      match k' with
      | O => out'
      | _ => let w' := if Nat.eqb (S i mod 32) 0 then u64 (Z.shiftr w 32 + nthZ (S i / 32) e) else w in
             shiftadded_loop e g n k' (S i) w' out' (fst (vlong_mulv_masked n tmp1 tmp1 1 (Some g)))
      end
  end.

(** ec-common.c:47-104, vlong_modexpv_shiftadded with equal widths n of out, tmp1
    and tmp2 (else it returns NULL).  "(uint64_t)e->v[0] + addend". *)
Definition vlong_modexpv_shiftadded (n : nat) (x : list Z) (g : modfun) (e : list Z) (addend : Z) (shift : nat) : list Z :=
  shiftadded_loop e g n (length e * 32 - shift) shift (u64 (nthZ 0 e + addend))
    (map (fun i => if Nat.eqb i 0 then 1 else 0) (seq 0 n))
    (map (fun i => if (i <? length x)%nat then nthZ i x else 0) (seq 0 n)).

(** ecp-xyz.c:321-334, vlong_sqrt_c3m4. *)
Definition vlong_sqrt_c3m4 (n : nat) (x : list Z) (g : modfun) (p : list Z) : option (list Z) :=
  if negb (Z.land (nthZ 0 p) 3 =? 3) then None
  else Some (vlong_modexpv_shiftadded n x g p 1 2).

(** ecp-xyz.c:336-347 and 349-360, vlong_inv_mod_p_fermat; with
    g = vlong_remv_inplace(., n) and p = n, vlong_inv_mod_n_fermat. *)
Definition vlong_inv_fermat (n : nat) (x : list Z) (g : modfun) (p : list Z) : list Z :=
  vlong_modexpv_shiftadded n x g p (-2) 0.
