(** Model of src/2-numbertheory/MillerRabin.c. *)
From Verif Require Import Base Vlong NumTheory.

(** MillerRabin.c:9-18, its private vlong_word_shifted is a verbatim copy of the
    one in vlong.c (Vlong.vlong_word_shifted).
    MillerRabin.c:20-38, vlong_ge_shifted: compare from the top word down. *)
Fixpoint ge_loop (a b : list Z) (s t : nat) : bool :=
  match t with
  | O => true
  | S t' =>
      let u := if (t' <? length a)%nat then nthZ t' a else 0 in
      let v := vlong_word_shifted b t' s in
      if v <? u then true else if u <? v then false else ge_loop a b s t'
  end.
Definition vlong_ge_shifted (a b : list Z) (s : nat) : bool :=
  let w := ((s + 31) / 32)%nat in
  ge_loop a b s (if (length b + w <? length a)%nat then length a else (length b + w)%nat).

(** MillerRabin.c:40-58, vlong_sub_shifted. *)
Definition vlong_sub_shifted (n : nat) (a b : list Z) (s : nat) : list Z :=
  add_kernel (fun i x => x - vlong_word_shifted b i s) a 0 n 0.

(** MillerRabin.c:67-68: number of zero words at the top. *)
Fixpoint lead_zeros (b : list Z) (t : nat) : nat :=
  match t with
  | O => O
  | S t' => if nthZ t' b =? 0 then S (lead_zeros b t') else O
  end.

(** MillerRabin.c:73-77. *)
Fixpoint remv_fast_loop (b : list Z) (i : nat) (rem : list Z) : list Z :=
  match i with
  | O => rem
  | S i' => remv_fast_loop b i'
              (if vlong_ge_shifted rem b i' then vlong_sub_shifted (length rem) rem b i' else rem)
  end.

(** MillerRabin.c:60-80, vlong_remv_inplace_fast.  i = lz(b) - lz(rem) is
    unsigned: when negative it wraps to more than rem->c. *)
Definition vlong_remv_inplace_fast (b : list Z) (rem : list Z) : list Z * bool :=
  if (length rem <? length b)%nat then (rem, false)
  else let zb := lead_zeros b (length b) in
       let zr := lead_zeros rem (length rem) in
       if (zb <? zr)%nat || (length rem <? zb - zr)%nat then (rem, true)
       else (remv_fast_loop b ((zb - zr + 1) * 32) rem, true).

(** MillerRabin.c:96-100: the lowest set bit at position 1 or above, or n*32. *)
Fixpoint low_bit (w : list Z) (a k : nat) : nat :=
  match k with
  | O => a
  | S k' => if Z.land (Z.shiftr (nthZ (a / 32) w) (Z.of_nat (a mod 32))) 1 =? 1 then a
            else low_bit w (S a) k'
  end.

(** MillerRabin.c:110-114: highest i > 0 with a non-zero word, else 0. *)
Fixpoint top_word (l : list Z) (t : nat) : nat :=
  match t with
  | O => O
  | S t' => if nthZ t l =? 0 then top_word l t' else t
  end.

(** MillerRabin.c:117: while( x && x >= y ) x >>= 1 (x < 2^32: 32 steps). *)
Fixpoint shrink (x y : Z) (k : nat) : Z :=
  match k with
  | O => x
  | S k' => if negb (x =? 0) && (y <=? x) then shrink (Z.shiftr x 1) y k' else x
  end.

(** MillerRabin.c:107-118, from the n words the rng wrote to the base b; None:
    "goto regen". *)
Definition mr_base (w d : list Z) : option (list Z) :=
  let n := length w in
  let i := top_word d (n - 1) in
  if Nat.eqb i 0 && (nthZ 0 d <=? 1) then None
  else let d := if (0 <? i)%nat then upd i (shrink (nthZ i d) (nthZ i w) 32) d else d in
       Some (upd 0 (Z.lor (nthZ 0 d) 0xAA55) d).

(** MillerRabin.c:120-147, z := b ** m (mod w), m = w >> a; [k] = iterations left. *)
Definition mr_mul (w x y : list Z) : list Z :=
  fst (vlong_mulv_masked (length w) x y 1 (Some (vlong_remv_inplace_fast w))).
Fixpoint mr_pow (w : list Z) (k i : nat) (tmp tmp1 : list Z) : list Z :=
  match k with
  | O => tmp
  | S k' =>
      let mask := Z.land (Z.shiftr (nthZ (i / 32) w) (Z.of_nat (i mod 32))) 1 in
      let tmp' := if mask =? 1 then mr_mul w tmp tmp1 else tmp in
      match k' with
      | O => tmp'
      | _ => mr_pow w k' (S i) tmp' (mr_mul w tmp1 tmp1)
      end
  end.

(** MillerRabin.c:157-159: tmp + 1 equals w, word by word. *)
Definition is_minus1 (w tmp : list Z) : bool :=
  forallb (fun i => nthZ i (vlong_adds (length w) tmp 1 0) =? nthZ i w) (seq 0 (length w)).

(** MillerRabin.c:161-179: the squaring loop, [k] = a - 1 rounds left. *)
Fixpoint mr_square (w : list Z) (k : nat) (tmp : list Z) : bool :=
  match k with
  | O => false
  | S k' =>
      let tmp := mr_mul w tmp tmp in
      if is_one tmp then false
      else if is_minus1 w tmp then true
      else mr_square w k' tmp
  end.

(** MillerRabin.c:120-182 for one base: true = "goto iteration_enter",
    false = "return 0". *)
Definition mr_test (w base : list Z) : bool :=
  let n := length w in
  let a := low_bit w 1 (n * 32 - 1) in
  let tmp := mr_pow w (n * 32 - a) a (upd 0 1 (repeat 0 n)) base in
  if is_one tmp then true
  else if is_minus1 w tmp then true
  else mr_square w (a - 1) tmp.

(** MillerRabin.c:82-183.  [draws] are the successive outputs of the rng (n
    words each); None: the rng stream of this run is exhausted. *)
Fixpoint MillerRabin (w : list Z) (draws : list (list Z)) : nat -> option bool :=
  fix go (iterations : nat) : option bool :=
  match iterations with
  | O => Some true
  | S it =>
      match draws with
      | [] => None
      | d :: draws' =>
          match mr_base w d with
          | None => MillerRabin w draws' iterations
          | Some b => if mr_test w b then MillerRabin w draws' it else Some false
          end
      end
  end.
