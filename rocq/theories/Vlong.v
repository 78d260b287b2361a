(** Model of src/1-integers/vlong.c (multi-word unsigned integers).

    A [vlong_t] {c; v[c]} is the little-endian list of its 32-bit words
    (c = length).  Functions that write through [out] return the new word
    list of [out]; the only thing the model needs to know about the previous
    [out] is its width (or its words, when the C code accumulates).
    Indices, widths and shift counts are [nat]: the C type is uint32_t, the
    model assumes widths < 2^26 words so that "32 * width" does not wrap. *)
From Verif Require Import Base.

Notation vval := (val_le 32).

(** int32 sign extension to uint64: "x = (uint64_t)(int64_t)(int32_t)x"
    (vlong.c:41, 114, 297). *)
Definition sext32 (x : Z) : Z :=
  let y := x mod 2 ^ 32 in if y <? 2 ^ 31 then y else y + 2 ^ 64 - 2 ^ 32.

(** vlong.c:8-14, vlong_cpy; [n] = out->c. *)
Definition vlong_cpy (n : nat) (a : list Z) : list Z :=
  map (fun i => if (i <? length a)%nat then nthZ i a else 0) (seq 0 n).

(** vlong.c:31-44, VLONG_ADD_KERNEL(BEXPR): [bexpr i x] is x after BEXPR.
    Each iteration only reads a->v[i] before writing out->v[i], hence the
    functional form is also right when out aliases a or b. *)
Fixpoint add_kernel (bexpr : nat -> Z -> Z) (a : list Z) (i n : nat) (x : Z) : list Z :=
  match n with
  | O => []
  | S n' =>
      let x1 := u64 (x + (if (i <? length a)%nat then nthZ i a else 0)) in
      let x2 := u64 (bexpr i x1) in
      u32 x2 :: add_kernel bexpr a (S i) n' (sext32 (x2 / 2 ^ 32))
  end.

(** vlong.c:46-52, vlong_adds; b is an int64_t. *)
Definition vlong_adds (n : nat) (a : list Z) (b : Z) (s : nat) : list Z :=
  add_kernel (fun i x => x + (if Nat.eqb i s then b else 0)) a 0 n 0.

(** vlong.c:54-60, vlong_addv. *)
Definition vlong_addv (n : nat) (a b : list Z) : list Z :=
  add_kernel (fun i x => x + (if (i <? length b)%nat then nthZ i b else 0)) a 0 n 0.

(** vlong.c:62-68, vlong_subv. *)
Definition vlong_subv (n : nat) (a b : list Z) : list Z :=
  add_kernel (fun i x => x - (if (i <? length b)%nat then nthZ i b else 0)) a 0 n 0.

(** vlong.c:72-86, vlong_mulx: multiplication by 2^32; runs from the top word
    down, so it is also right in place. *)
Definition vlong_mulx (n : nat) (a : list Z) : list Z :=
  map (fun i => if (i <=? length a)%nat && (0 <? i)%nat then nthZ (i - 1) a else 0) (seq 0 n).

(** vlong.c:88-102, vlong_muls: [out] is the old content of out. *)
Fixpoint muls_loop (a : list Z) (b : Z) (accum : bool) (out : list Z) (i : nat) (x : Z) : list Z :=
  match out with
  | [] => []
  | o :: out' =>
      let x1 := u64 (x + (if (i <? length a)%nat then u64 (nthZ i a * b) else 0)) in
      let x2 := if accum then u64 (x1 + o) else x1 in
      u32 x2 :: muls_loop a b accum out' (S i) (x2 / 2 ^ 32)
  end.
Definition vlong_muls (out a : list Z) (b : Z) (accum : bool) : list Z :=
  muls_loop a b accum out 0 0.

(** vlong.c:104-118, vlong_imuls: b is an int64_t, "(uint64_t)b". *)
Fixpoint imuls_loop (a : list Z) (b : Z) (accum : bool) (out : list Z) (i : nat) (x : Z) : list Z :=
  match out with
  | [] => []
  | o :: out' =>
      let x1 := u64 (x + (if (i <? length a)%nat then u64 (nthZ i a * u64 b) else 0)) in
      let x2 := if accum then u64 (x1 + o) else x1 in
      u32 x2 :: imuls_loop a b accum out' (S i) (sext32 (x2 / 2 ^ 32))
  end.
Definition vlong_imuls (out a : list Z) (b : Z) (accum : bool) : list Z :=
  imuls_loop a b accum out 0 0.

(** The constant-time "is non-zero" idiom of vlong.c:137-139 and 281-283:
    all-ones if x <> 0, 0 otherwise. *)
Definition nz_mask (x : Z) : Z :=
  let x1 := Z.lor x (Z.shiftr x 16) in
  let x2 := Z.land x1 (2 ^ 16 - 1) in
  u32 (- (Z.lxor 1 (Z.shiftr (Z.lxor x2 (u32 (x2 - 1))) 31))).

(** vlong.c:124-145, vlong_cmps. *)
Definition vlong_cmps (a b : Z) : Z :=
  let y := u64 (a - b) in
  let x := u32 y in
  let y := Z.land (Z.shiftr y 32) 1 in
  let x := nz_mask x in
  let x := Z.land x 1 in
  let x := Z.land x (u64 (Z.lnot y)) in
  Z.lor x (Z.shiftl y 1).

(** vlong.c:149-158, vlong_word_shifted.  The unsigned "i-w < b->c" test is
    false when i < w because of wrap-around; written here as (w <= i). *)
Definition vlong_word_shifted (b : list Z) (i s : nat) : Z :=
  let w := (s / 32)%nat in
  let r := (s mod 32)%nat in
  let v := if (w <=? i)%nat && (i - w <? length b)%nat then nthZ (i - w) b else 0 in
  if Nat.eqb r 0 then v
  else Z.lor (u32 (Z.shiftl v (Z.of_nat r)))
             (if (w + 1 <=? i)%nat && (i - w - 1 <? length b)%nat
              then Z.shiftr (nthZ (i - w - 1) b) (32 - Z.of_nat r) else 0).

(** vlong.c:161-183, vlong_cmpv_shifted; res, mask are ints. *)
Fixpoint cmpv_loop (a b : list Z) (s t : nat) (res : Z) : Z :=
  match t with
  | O => res
  | S t' =>
      let u := if (t' <? length a)%nat then nthZ t' a else 0 in
      let v := vlong_word_shifted b t' s in
      let mask := Z.land 1 (Z.lor (Z.shiftr res 1) res) * 3 in
      let mask := Z.lnot mask in
      let mask := Z.land mask (vlong_cmps u v) in
      cmpv_loop a b s t' (Z.lor res mask)
  end.
Definition vlong_cmpv_shifted (a b : list Z) (s : nat) : Z :=
  let w := ((s + 31) / 32)%nat in
  let t := if (length b + w <? length a)%nat then length a else (length b + w)%nat in
  cmpv_loop a b s t 0.

(** vlong.c:185-197, vlong_shift_1bit. *)
Definition vlong_shift_1bit (x : list Z) (b : Z) : list Z :=
  map (fun i => Z.lor (u32 (Z.shiftl (nthZ i x) 1))
                      (if Nat.eqb i 0 then Z.land b 1 else Z.shiftr (nthZ (i - 1) x) 31))
      (seq 0 (length x)).

(** vlong.c:199-207, vlong_sub_shifted_masked. *)
Definition vlong_sub_shifted_masked (n : nat) (a b : list Z) (s : nat) (mask : Z) : list Z :=
  add_kernel (fun i x => x - Z.land (vlong_word_shifted b i s) (u32 (0 - mask))) a 0 n 0.

(** vlong.c:209-238, vlong_divv.  [remc] = rem->c; [quo] = None when the caller
    passes NULL, else Some (quo->c).  The result is None for NULL, otherwise
    the words of rem and of quo.  ("cmp << 31" on an int is taken to produce
    the bit pattern 0x80000000.) *)
Fixpoint divv_loop (a b : list Z) (i : nat) (rem : list Z) (quo : option (list Z))
  : list Z * option (list Z) :=
  match i with
  | O => (rem, quo)
  | S i' =>
      let rem1 := vlong_shift_1bit rem (Z.shiftr (nthZ (i' / 32) a) (Z.of_nat (i' mod 32))) in
      let cmp := vlong_cmpv_shifted rem1 b 0 in
      let cmp := Z.land (Z.lnot (Z.shiftr cmp 1)) 1 in
      let rem2 := vlong_sub_shifted_masked (length rem1) rem1 b 0 cmp in
      let quo' := match quo with
                  | None => None
                  | Some q => Some (upd (i' / 32)
                      (Z.lor (nthZ (i' / 32) q) (u32 (Z.shiftl cmp (Z.of_nat (i' mod 32))))) q)
                  end in
      divv_loop a b i' rem2 quo'
  end.
Definition vlong_divv (remc : nat) (quo : option nat) (a b : list Z)
  : option (list Z * option (list Z)) :=
  if match quo with Some q => (q <? length a)%nat | None => false end then None
  else if (remc <? length b)%nat then None
  else Some (divv_loop a b (length a * 32) (repeat 0 remc) (option_map (repeat 0) quo)).

(** vlong.c:251, "for(i=b->c; i && !b->v[--i]; );": index of the most
    significant non-zero word, 0 if there is none. *)
Fixpoint top_index (b : list Z) (i : nat) : nat :=
  match i with
  | O => O
  | S i' => if nthZ i' b =? 0 then top_index b i' else i'
  end.

(** vlong.c:254-259, the loop of vlong_remv_inplace. *)
Fixpoint remv_loop (b : list Z) (i : nat) (rem : list Z) : list Z :=
  match i with
  | O => rem
  | S i' =>
      let cmp := vlong_cmpv_shifted rem b i' in
      let cmp := Z.land (Z.lnot (Z.shiftr cmp 1)) 1 in
      remv_loop b i' (vlong_sub_shifted_masked (length rem) rem b i' cmp)
  end.

(** vlong.c:240-262, vlong_remv_inplace.  Result: words left in rem, and
    whether the returned pointer is non-NULL. *)
Definition vlong_remv_inplace (rem b : list Z) : list Z * bool :=
  if (length rem <? length b)%nat then (rem, false)
  else (remv_loop b ((1 + length rem - top_index b (length b)) * 32) rem, true).

(** vlong.c:264-300, vlong_imod_inplace; requires rem->c >= 1 (it reads
    rem->v[rem->c-1]).  The NULL result of vlong_remv_inplace is ignored by the
    code, and so it is here. *)
Definition vlong_imod_inplace (rem b : list Z) : list Z :=
  let neg := u32 (- Z.land (Z.shiftr (nthZ (length rem - 1) rem) 31) 1) in
  let rem := map (fun w => Z.lxor w neg) rem in
  let rem := vlong_adds (length rem) rem (Z.land neg 1) 0 in
  let rem := fst (vlong_remv_inplace rem b) in
  let z := fold_left Z.lor rem 0 in
  let z := nz_mask z in
  let neg := Z.land neg z in
  let nneg := u32 (Z.lnot neg) in
  add_kernel (fun i x =>
      let u := if (i <? length rem)%nat then nthZ i rem else 0 in
      let v := if (i <? length b)%nat then nthZ i b else 0 in
      u64 (x + Z.lor (Z.land nneg u) (Z.land neg v)) - Z.land neg u)
    [] 0 (length rem) 0.

(** A modular-reduction callback (vlong_modfunc_t): words left in v, and
    whether the returned pointer is non-NULL.  mod_ctx is closed over. *)
Definition modfun := list Z -> list Z * bool.

(** vlong.c:324, 329: "if( modfunc && !modfunc(out, mod_ctx) ) return NULL". *)
Definition run_mod (f : option modfun) (v : list Z) : list Z * bool :=
  match f with None => (v, true) | Some g => g v end.

(** vlong.c:304-334, vlong_mulv_masked. Result: words left in out, and whether
    the returned pointer is non-NULL. *)
Fixpoint mulv_loop (a b : list Z) (mask : Z) (f : option modfun) (i : nat) (out : list Z)
  : list Z * bool :=
  match i with
  | O => (out, true)
  | S i' =>
      let bmask := u32 (0 - mask) in
      let umask := u32 (Z.lnot bmask) in
      let bv := if Nat.eqb i' 0 then 1 else 0 in
      let bv := Z.lor (Z.land bv umask) (Z.land (nthZ i' b) bmask) in
      let '(o1, ok1) := run_mod f (vlong_muls out a bv true) in
      if negb ok1 then (o1, false)
      else if Nat.eqb i' 0 then (o1, true)
      else let '(o2, ok2) := run_mod f (vlong_mulx (length o1) o1) in
           if negb ok2 then (o2, false) else mulv_loop a b mask f i' o2
  end.
Definition vlong_mulv_masked (n : nat) (a b : list Z) (mask : Z) (f : option modfun)
  : list Z * bool := mulv_loop a b mask f (length b) (repeat 0 n).

(** vlong.c:364-385, the loop of vlong_modexpv; [k] = remaining iterations,
    i = current bit.  The results of vlong_mulv_masked are ignored by the
    code: whatever it left in tmp2 is copied. *)
Fixpoint modexp_loop (e : list Z) (f : option modfun) (n k i : nat) (out tmp1 : list Z) : list Z :=
  match k with
  | O => out
  | S k' =>
      let mask := Z.land (Z.shiftr (nthZ (i / 32) e) (Z.of_nat (i mod 32))) 1 in
      let out' := fst (vlong_mulv_masked n out tmp1 mask f) in
      match k' with
      | O => out'
      | _ => modexp_loop e f n k' (S i) out' (fst (vlong_mulv_masked n tmp1 tmp1 1 f))
      end
  end.

(** vlong.c:338-388, vlong_modexpv.  [n], [t1], [t2] = out->c, tmp1->c, tmp2->c.
    None = NULL.  e->c = 0 would read e->v[0] out of bounds: excluded by the
    hypothesis 0 < length e in the theorems. *)
Definition vlong_modexpv (n t1 t2 : nat) (base e : list Z) (f : option modfun) : option (list Z) :=
  if negb (Nat.eqb n t1) || negb (Nat.eqb t1 t2) then None
  else Some (modexp_loop e f n (length e * 32) 0
               (map (fun i => if Nat.eqb i 0 then 1 else 0) (seq 0 n))
               (map (fun i => if (i <? length base)%nat then nthZ i base else 0) (seq 0 n))).
