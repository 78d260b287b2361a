(** Model of src/2-rsa/rsa-enc.c, rsa-fastdec.c and of the arithmetic part of
    rsa-keygen.c (everything after the primes have been drawn). *)
From Verif Require Import Base Vlong NumTheory.

(** The key material rsa_fastdec reads from RSA_Priv_Ctx_Hdr_t (rsa.h:25-41):
    q, dQ, and the records primes_other[-1] = (p, dP, qInv),
    primes_other[0], ... (r_i, d_i, t_i), in memory order. *)
Record rsa_prime := { r_ : list Z; d_ : list Z; t_ : list Z }.
Record rsa_priv := { key_q : list Z; key_dQ : list Z; key_rest : list rsa_prime }.

(** (vlong_modfunc_t)vlong_remv_inplace with mod_ctx = m. *)
Definition remv (m : list Z) : option modfun := Some (fun v => vlong_remv_inplace v m).

(** rsa-enc.c:6-16: w2 := w1^e mod n, temporaries w3 and w4, all of [wm] words. *)
Definition rsa_enc (wm : nat) (M e n : list Z) : option (list Z) :=
  vlong_modexpv wm wm wm M e (remv n).

(** "vlong_divv(h, NULL, C, r)" with the result ignored: on NULL, h is left as
    it was. *)
Definition divv_into (h C r : list Z) : list Z :=
  match vlong_divv (length h) None C r with Some (x, _) => x | None => h end.

(** "vlong_modexpv(h, h, d, t, m, vlong_remv_inplace, r)", result ignored; h, t
    and m all have vlsize_factor words. *)
Definition modexpv_into (h d r : list Z) : list Z :=
  match vlong_modexpv (length h) (length h) (length h) h d (remv r) with Some x => x | None => h end.

(** rsa-fastdec.c:101-111, the inner loop for one word h->v[a]: [R] the words of
    R from index b on, [Mt] the words of M from index a+b on. *)
Fixpoint crt_inner (ha : Z) (R Mt : list Z) (ax : Z) : list Z :=
  match R, Mt with
  | [], _ => Mt
  | _, [] => []
  | r :: R', m :: M' =>
      let ax1 := u64 (ax + u64 (r * ha)) in
      let ax2 := u64 (ax1 + m) in
      u32 ax2 :: crt_inner ha R' M' (ax2 / 2 ^ 32)
  end.

(** rsa-fastdec.c:98-111: for(a=0; a<h->c; a++) ... *)
Fixpoint crt_outer (R : list Z) (h : list Z) (a : nat) (M : list Z) : list Z :=
  match h with
  | [] => M
  | ha :: h' => crt_outer R h' (S a) (firstn a M ++ crt_inner ha R (skipn a M) 0)
  end.

(** rsa-fastdec.c:79-135, one iteration for the prime record [pr]: new (M, R).
    h, m and t lie behind R in memory and have [wf] words; the modulus-sized t
    of lines 113-118 overlaps them when they are dead. *)
Definition crt_step (wf : nat) (C : list Z) (MR : list Z * list Z) (pr : rsa_prime) : list Z * list Z :=
  let '(M, R) := MR in
  let h := divv_into (repeat 0 wf) C (r_ pr) in
  let h := modexpv_into h (d_ pr) (r_ pr) in
  let m := divv_into (repeat 0 wf) M (r_ pr) in
  let m := vlong_subv (length m) h m in
  let m := vlong_imod_inplace m (r_ pr) in
  let h := fst (vlong_mulv_masked wf m (t_ pr) 1 (remv (r_ pr))) in
  let M' := crt_outer R h 0 M in
  let t := fst (vlong_mulv_masked (length R) R (r_ pr) 1 None) in
  (M', vlong_cpy (length R) t).

(** rsa-fastdec.c:26-138.  [wm] = VLONG_BITS_WCNT(modulus_bits) = C->c = M->c =
    R->c; [wf] = vlsize_factor.  The stale content of h and m that survives when
    vlong_divv returns NULL is modelled as zeros (the theorems have no such case). *)
Definition rsa_fastdec (wm wf : nat) (k : rsa_priv) (C : list Z) : list Z :=
  let h := divv_into (repeat 0 wf) C (key_q k) in
  let h := modexpv_into h (key_dQ k) (key_q k) in
  fst (fold_left (crt_step wf C) (key_rest k) (vlong_cpy wm h, vlong_cpy wm (key_q k))).

(** rsa-keygen.c:174-227, phi := (p-1)(q-1)(r_3-1)...: every factor is
    decremented in place, multiplied in, and incremented again. *)
Definition dec1 (r : list Z) : list Z := vlong_adds (length r) r (-1) 0.
Definition mul_into (wm : nat) (vl r : list Z) : list Z := fst (vlong_mulv_masked wm vl r 1 None).
Definition keygen_phi (wm : nat) (primes : list (list Z)) : list Z :=
  fold_left (fun vl r => mul_into wm vl (dec1 r)) primes (upd 0 1 (repeat 0 wm)).

(** rsa-keygen.c:230-241: t5 := 65537, t6 := phi, EGCD(t5, vl, t1, t2, t3, t4),
    vl := result, vlong_imod_inplace(vl, t6).  Inner None: "goto restart". *)
Definition keygen_d (fuel wm : nat) (primes : list (list Z)) : option (option (list Z)) :=
  let phi := keygen_phi wm primes in
  let z := repeat 0 wm in
  match EGCD fuel (upd 0 65537 z) phi z z z z with
  | None => None
  | Some None => Some None
  | Some (Some y) => Some (Some (vlong_imod_inplace (vlong_cpy wm y) phi))
  end.

(** rsa-keygen.c:276-293: vl := t6 mod r; t1 := r - 2; vl := vl^t1 mod r. *)
Definition keygen_coeff (wf : nat) (R r : list Z) : list Z :=
  modexpv_into (divv_into (repeat 0 wf) R r) (vlong_adds wf r (-2) 0) r.

(** rsa-keygen.c:299-313: t6 := t6 * r; restart if the word holding bit
    bits_per_prime * (t + 2) - 1, shifted down to that bit, is zero. *)
Fixpoint keygen_coeffs (wm wf bpp t : nat) (R : list Z) (rs : list (list Z))
  : option (list (list Z) * list Z) :=
  match rs with
  | [] => Some ([], R)
  | r :: rs' =>
      let c := keygen_coeff wf R r in
      let R' := vlong_cpy (length R) (mul_into (length R) R r) in
      let i := (bpp * (t + 2) - 1)%nat in
      if Z.shiftr (nthZ (i / 32) R') (Z.of_nat (i mod 32)) =? 0 then None
      else match keygen_coeffs wm wf bpp (S t) R' rs' with
           | None => None
           | Some (cs, n) => Some (c :: cs, n)
           end
  end.

(** rsa-keygen.c:318-379: dP, dQ, d_i := d mod (r - 1). *)
Definition keygen_exp (wf : nat) (d r : list Z) : list Z := divv_into (repeat 0 wf) d (dec1 r).

(** rsa-keygen.c:159-379, everything that follows the choice of the primes p, q
    and r_3, r_4, ... ([others]).  None: EGCD still running after [fuel]
    iterations; Some None: "goto restart"; otherwise (n, d, CRT key). *)
Definition keygen_derive (fuel wm wf bpp : nat) (p q : list Z) (others : list (list Z))
  : option (option (list Z * list Z * rsa_priv)) :=
  match keygen_d fuel wm (p :: q :: others) with
  | None => None
  | Some None => Some None
  | Some (Some d) =>
      match keygen_coeffs wm wf bpp 0 (vlong_cpy wm q) (p :: others) with
      | None => Some None
      | Some (ts, n) =>
          Some (Some (n, d,
            {| key_q := q; key_dQ := keygen_exp wf d q;
               key_rest := map (fun rt => {| r_ := fst rt; d_ := keygen_exp wf d (fst rt); t_ := snd rt |})
                             (combine (p :: others) ts) |}))
      end
  end.

(** rsa-keygen.c:21-51, gen_oddint_bits; [w] is what the rng wrote, bits >= 64
    (the code indexes w->v[(bits-1)/32 - 1]).  "(1 << m) - 1" with m = 31 is
    taken to produce 0x7fffffff. *)
Definition gen_oddint_bits (w : list Z) (bits : nat) : list Z :=
  let w1 := map (fun t =>
      if (t <? bits / 32)%nat then nthZ t w
      else let m := if (bits <=? t * 32)%nat then O else (bits - t * 32)%nat in
           Z.land (nthZ t w) (2 ^ Z.of_nat m - 1)) (seq 0 (length w)) in
  let w2 := upd 0 (Z.lor (nthZ 0 w1) 1) w1 in
  let b := (bits - 1)%nat in
  let x := Z.shiftl 0x1f0000000 (Z.of_nat (b mod 32)) in
  let w3 := upd (b / 32) (Z.lor (nthZ (b / 32) w2) (Z.shiftr x 32)) w2 in
  upd (b / 32 - 1) (Z.lor (nthZ (b / 32 - 1) w3) (u32 x)) w3.
