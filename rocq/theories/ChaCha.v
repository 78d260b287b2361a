(** Model of src/1-symm/poly1305.c, src/1-symm/chacha.c and src/2-encryption/chacha20-poly1305.c.
    p1305bn_t is a list of 5 uint32_t, the ChaCha state a list of 16 uint32_t; size_t and uint64_t are 64 bits. *)
From Verif Require Import Base Hash.

(** poly1305.c:7-17: the loop over the words of a and b with the carry u *)
Fixpoint p1305bn_add (u : Z) (a b : list Z) : list Z :=
  match a, b with
  | x :: a, v :: b =>
    let x1 := u32 (x + u) in
    let u1 := Z.shiftr (u64 (x1 - u)) 63 in
    let x2 := u32 (x1 + v) in
    let u2 := u32 (u1 + Z.shiftr (u64 (x2 - v)) 63) in
    x2 :: p1305bn_add u2 a b
  | _, _ => a
  end.
(** for(i=1; i<5; i++) { w[i] += w[i-1]>>32; w[i-1] &= 0xffffffff; }, poly1305.c:27, 41, 44:
    [c] is w[i-1]>>32 (0 at the start); the last word is not masked *)
Fixpoint p1305_carry (c : Z) (w : list Z) : list Z :=
  match w with
  | [] => []
  | [x] => [u64 (x + c)]
  | x :: w => Z.land (u64 (x + c)) 0xffffffff :: p1305_carry (Z.shiftr (u64 (x + c)) 32) w
  end.
(** w[0] += 5*(w[4]>>2); w[4] &= 3; poly1305.c:26, 43 *)
Definition p1305_fold (w : list Z) : list Z :=
  let w := upd 0 (u64 (nthZ 0 w + u64 (5 * Z.shiftr (nthZ 4 w) 2))) w in
  upd 4 (Z.land (nthZ 4 w) 3) w.
(** poly1305.c:19-30 *)
Definition p1305bn_modp (x : list Z) : list Z := map u32 (p1305_carry 0 (p1305_fold x)).
(** poly1305.c:32-47 *)
Definition p1305bn_scl (a : list Z) (x : Z) : list Z :=
  let w := map (fun ai => u64 (ai * x)) a in
  map u32 (p1305_carry 0 (p1305_fold (p1305_carry 0 w))).
(** poly1305.c:49-63; the new a *)
Definition p1305bn_mul (a b : list Z) : list Z :=
  let n := fold_left (fun n i =>
      let m := p1305bn_scl a (nthZ i b) in
      let m := Nat.iter i (fun m => p1305bn_scl m 0x100000000) m in
      p1305bn_add 0 n m) [4; 3; 2; 1; 0]%nat [0; 0; 0; 0; 0] in
  p1305bn_modp n.
(** poly1305.h: poly1305_t *)
Record poly1305 := { p_r : list Z; p_s : list Z; p_a : list Z }.
(** le32toh(k[i]) of an octet string *)
Definition le32_at (k : list Z) (i : nat) : Z := le_val (firstn 4 (skipn (4 * i) k)).
(** poly1305.c:65-79 *)
Definition poly1305_init (key : list Z) : poly1305 :=
  let r := map (le32_at key) (seq 0 4) ++ [0] in
  let s := map (fun i => le32_at key (i + 4)) (seq 0 4) ++ [0] in
  let r := upd 0 (Z.land (nthZ 0 r) 0x0fffffff) r in
  let r := upd 1 (Z.land (nthZ 1 r) 0x0ffffffc) r in
  let r := upd 2 (Z.land (nthZ 2 r) 0x0ffffffc) r in
  let r := upd 3 (Z.land (nthZ 3 r) 0x0ffffffc) r in
  {| p_r := r; p_s := s; p_a := [0; 0; 0; 0; 0] |}.
(** poly1305.c:81-88, [k] = 5 - i iterations left *)
Fixpoint p1305bn_addto (k : nat) (a : list Z) (u : Z) (i : nat) : list Z :=
  match k with
  | O => a
  | S k =>
    if u =? 0 then a
    else
      let x := u32 (nthZ i a + u) in
      p1305bn_addto k (upd i x a) (u32 (Z.shiftr (u64 (x - u)) 63)) (S i)
  end.
(** poly1305.c:90-103, data non-NULL *)
Definition poly1305_1block (x : poly1305) (data : list Z) : poly1305 :=
  let a := p1305bn_addto 5 (p_a x) (le32_at data 0) 0 in
  let a := p1305bn_addto 4 a (le32_at data 1) 1 in
  let a := p1305bn_addto 3 a (le32_at data 2) 2 in
  let a := p1305bn_addto 2 a (le32_at data 3) 3 in
  let a := p1305bn_addto 1 a 1 4 in
  {| p_r := p_r x; p_s := p_s x; p_a := p1305bn_mul a (p_r x) |}.
(** poly1305.c:105-112 *)
Definition poly1305_final (x : poly1305) : poly1305 :=
  {| p_r := repeat 0 5; p_s := repeat 0 5; p_a := p1305bn_add 0 (p_a x) (p_s x) |}.

(** chacha.c:6-12 *)
Definition qround (a b c d : nat) (s : list Z) : list Z :=
  let s := upd a (u32 (nthZ a s + nthZ b s)) s in
  let s := upd d (Z.lxor (nthZ d s) (nthZ a s)) s in
  let s := upd d (cROTL 32 (nthZ d s) 16) s in
  let s := upd c (u32 (nthZ c s + nthZ d s)) s in
  let s := upd b (Z.lxor (nthZ b s) (nthZ c s)) s in
  let s := upd b (cROTL 32 (nthZ b s) 12) s in
  let s := upd a (u32 (nthZ a s + nthZ b s)) s in
  let s := upd d (Z.lxor (nthZ d s) (nthZ a s)) s in
  let s := upd d (cROTL 32 (nthZ d s) 8) s in
  let s := upd c (u32 (nthZ c s + nthZ d s)) s in
  let s := upd b (Z.lxor (nthZ b s) (nthZ c s)) s in
  upd b (cROTL 32 (nthZ b s) 7) s.
(** chacha.c:14-26 *)
Definition inner_block (s : list Z) : list Z :=
  let s := qround 0 4 8 12 s in
  let s := qround 1 5 9 13 s in
  let s := qround 2 6 10 14 s in
  let s := qround 3 7 11 15 s in
  let s := qround 0 5 10 15 s in
  let s := qround 1 6 11 12 s in
  let s := qround 2 7 8 13 s in
  qround 3 4 9 14 s.
(** s[off+i] = le32toh(p[i]) for i < n: the two loops of chacha20_set_state *)
Definition set_words (s : list Z) (off n : nat) (p : list Z) : list Z :=
  fold_left (fun s i => upd (i + off) (le32_at p i) s) (seq 0 n) s.
(** chacha.c:28-50; None = NULL pointer *)
Definition chacha20_set_state (s : list Z) (key nonce : option (list Z)) : list Z :=
  let s := upd 0 0x61707865 s in
  let s := upd 1 0x3320646e s in
  let s := upd 2 0x79622d32 s in
  let s := upd 3 0x6b206574 s in
  let s := match key with Some k => set_words s 4 8 k | None => s end in
  match nonce with Some n => set_words s 13 3 n | None => s end.
(** chacha.c:52-75, out non-NULL and len <= 64: the new state and the octets written;
    [inp] None = NULL *)
Definition chacha20_block (s : list Z) (counter : Z) (len : nat) (inp : option (list Z)) : list Z * list Z :=
  let s := upd 12 counter s in
  let ws := Nat.iter 10 inner_block s in
  let ptr := flat_map (fun i => le_bytes 4 (u32 (nthZ i ws + nthZ i s))) (seq 0 16) in
  (s, map (fun i => Z.lxor (nthZ i ptr) (match inp with Some b => nthZ i b | None => 0 end)) (seq 0 len)).

(** chacha20-poly1305.h: the context *)
Record chacha_aead := { ca_state : list Z; ca_poly : poly1305 }.
(** chacha20-poly1305.c:6-14 *)
Definition ChaCha_AEAD_Init (x : chacha_aead) (K : list Z) : option chacha_aead :=
  if negb (length K =? 32)%nat then None
  else Some {| ca_state := chacha20_set_state (ca_state x) (Some K) None; ca_poly := ca_poly x |}.

(** chacha20-poly1305.c:40-42, 115-117; [out] = octets written so far.  (uint32_t)(i/64+1). *)
Fixpoint ca_crypt (fuel : nat) (s p out : list Z) (i : nat) : list Z * list Z :=
  match fuel with
  | O => (s, out)
  | S fuel =>
    if (i <? length p)%nat then
      let '(s, o) := chacha20_block s (u32 (Z.of_nat (i / 64) + 1)) (Nat.min 64 (length p - i)) (Some (skipn i p)) in
      ca_crypt fuel s p (out ++ o) (i + 64)
    else (s, out)
  end.
(** chacha20-poly1305.c:44-47, 49-52, 93-96, 98-101 *)
Definition ca_words (d : list Z) (i : nat) : list Z :=
  map (fun j => if (i + j <? length d)%nat then nthZ (i + j) d else 0) (seq 0 16).
Fixpoint ca_absorb (fuel : nat) (x : poly1305) (d : list Z) (i : nat) : poly1305 :=
  match fuel with
  | O => x
  | S fuel => if (i <? length d)%nat then ca_absorb fuel (poly1305_1block x (ca_words d i)) d (i + 16) else x
  end.
(** chacha20-poly1305.c:54-59, 103-109: length block, final, the 16 octets *)
Definition ca_lens (alen len : nat) : list Z := le_bytes 8 (Z.of_nat alen) ++ le_bytes 8 (Z.of_nat len).
Definition ca_tag (x : poly1305) : list Z := flat_map (fun i => le_bytes 4 (nthZ i (p_a x))) (seq 0 4).
Definition ca_octets (w : list Z) (tlen : nat) : list Z := map (fun i => if (i <? 16)%nat then nthZ i w else 0) (seq 0 tlen).

(** chacha20-poly1305.c:18-66.  Result: the context, and None = NULL or Some (out, T). *)
Definition ChaCha_AEAD_Encrypt (x : chacha_aead) (iv aad p : list Z) (tlen : nat) : chacha_aead * option (list Z * list Z) :=
  if negb (length iv =? 12)%nat || (2 ^ 38 <=? Z.of_nat (length p)) then (x, None)
  else
    let s := chacha20_set_state (ca_state x) None (Some iv) in
    let '(s, words) := chacha20_block s 0 32 None in
    let m := poly1305_init words in
    let '(s, out) := ca_crypt (length p) s p [] 0 in
    let m := ca_absorb (length aad) m aad 0 in
    let m := ca_absorb (length out) m out 0 in
    let m := poly1305_1block m (ca_lens (length aad) (length p)) in
    let m := poly1305_final m in
    ({| ca_state := s; ca_poly := m |}, Some (out, ca_octets (ca_tag m) tlen)).

(** b |= T[i] ^ (i<16 ? words[i] : 0) *)
Definition ca_differ (T w : list Z) : Z :=
  fold_left (fun b i => Z.lor b (Z.lxor (nthZ i T) (if (i <? 16)%nat then nthZ i w else 0))) (seq 0 (length T)) 0.
(** chacha20-poly1305.c:68-120.  [T]: tlen octets.  None = NULL, nothing written to out. *)
Definition ChaCha_AEAD_Decrypt (x : chacha_aead) (iv aad c T : list Z) : chacha_aead * option (list Z) :=
  if negb (length iv =? 12)%nat || (2 ^ 38 <=? Z.of_nat (length c)) then (x, None)
  else
    let s := chacha20_set_state (ca_state x) None (Some iv) in
    let '(s, words) := chacha20_block s 0 32 None in
    let m := poly1305_init words in
    let m := ca_absorb (length aad) m aad 0 in
    let m := ca_absorb (length c) m c 0 in
    let m := poly1305_1block m (ca_lens (length aad) (length c)) in
    let m := poly1305_final m in
    if negb (ca_differ T (ca_tag m) =? 0) then ({| ca_state := s; ca_poly := m |}, None)
    else
      let '(s, out) := ca_crypt (length c) s c [] 0 in
      ({| ca_state := s; ca_poly := m |}, Some out).
