(** Model of src/2-encryption/ccm.c.  Loops that might not end take a number of iterations; None at the
    outer level means "has not returned after that many iterations".  size_t is 64 bits. *)
From Verif Require Import Base.

(** ccm.c:40-47, 205-212 *)
Definition ccm_ctr_init (iv : list Z) : list Z :=
  let q := (15 - length iv)%nat in
  let Ctr := repeat 0 16 in
  let Ctr := upd 0 (Z.of_nat q - 1) Ctr in
  let Ctr := upd 15 1 Ctr in
  fold_left (fun C i => upd (i + 1) (nthZ i iv) C) (seq 0 (length iv)) Ctr.
(** ccm.c:54-67, 219-232 *)
Definition ccm_b0 (iv : list Z) (alen len tlen : nat) : list Z :=
  let q := (15 - length iv)%nat in
  let B := repeat 0 16 in
  let B := upd 0 (u8 (Z.lor (Z.lor (Z.shiftl (if (alen =? 0)%nat then 0 else 1) 6) (Z.shiftl (Z.of_nat ((tlen - 2) / 2)) 3)) (Z.of_nat q - 1))) B in
  let B := fold_left (fun B i => upd (i + 1) (nthZ i iv) B) (seq 0 (length iv)) B in
  fold_left (fun B i => upd (i + length iv) (u8 (Z.shiftr (Z.of_nat len) (Z.of_nat (q - i) * 8))) B) (seq 1 q) B.
(** ccm.c:74-112, 239-277: (B, j) *)
Definition ccm_b1 (alen : nat) : list Z * nat :=
  let a := Z.of_nat alen in
  let B := repeat 0 16 in
  if a =? 0 then (B, 0%nat)
  else if a <? 0xFF00 then
    (upd 1 (u8 a) (upd 0 (u8 (Z.shiftr a 8)) B), 2%nat)
  else if a <=? 0xFFFFFFFF then
    (upd 5 (u8 a) (upd 4 (u8 (Z.shiftr a 8)) (upd 3 (u8 (Z.shiftr a 16)) (upd 2 (u8 (Z.shiftr a 24)) (upd 1 0xFE (upd 0 0xFF B))))), 6%nat)
  else
    (upd 9 (u8 a) (upd 8 (u8 (Z.shiftr a 8)) (upd 7 (u8 (Z.shiftr a 16)) (upd 6 (u8 (Z.shiftr a 24))
      (upd 5 (u8 (Z.shiftr a 32)) (upd 4 (u8 (Z.shiftr a 40)) (upd 3 (u8 (Z.shiftr a 48)) (upd 2 (u8 (Z.shiftr a 56)) (upd 1 0xFF (upd 0 0xFF B))))))))), 10%nat).
(** ccm.c:117-127, 282-292: one octet of AAD; the state is (B, j, Y) *)
Definition ccm_aad_step (E : list Z -> list Z) (st : list Z * nat * list Z) (b : Z) : list Z * nat * list Z :=
  let '(B, j, Y) := st in
  let B := upd j b B in
  let j := S j in
  if (16 <=? j)%nat then (repeat 0 16, 0%nat, E (xorb_list B Y)) else (B, j, Y).
(** if( j ) { B ^= Y; enc(B, Y) }: ccm.c:129-135, 160-166, 294-300, 325-331; the new Y *)
Definition ccm_flush (E : list Z -> list Z) (j : nat) (B Y : list Z) : list Z :=
  if (j =? 0)%nat then Y else E (xorb_list B Y).
(** for(j=16; --j>ivlen; ) if( ++Ctr[j] ) break;  [k] = j - ivlen - 1 at the start of an iteration *)
Fixpoint ccm_inc (ivlen k : nat) (Ctr : list Z) : list Z :=
  match k with
  | O => Ctr
  | S k' =>
    let j := (ivlen + k)%nat in
    let v := u8 (nthZ j Ctr + 1) in
    let Ctr := upd j v Ctr in
    if v =? 0 then ccm_inc ivlen k' Ctr else Ctr
  end.
(** for(j=hi; --j>ivlen; ) Ctr[j] = 0; *)
Definition ccm_ctr_zero (ivlen hi : nat) (Ctr : list Z) : list Z :=
  fold_left (fun C j => upd j 0 C) (seq (ivlen + 1) (hi - 1 - ivlen)) Ctr.

(** state of the payload loops: i, j, B, Y, Ctr, S, out *)
Record ccm_st := { cs_i : nat; cs_j : nat; cs_B : list Z; cs_Y : list Z; cs_Ctr : list Z; cs_S : list Z; cs_out : list Z }.
(** ccm.c:142-157 ([dec] = false) and 307-322 ([dec] = true, out untouched): note that the loop
    `for(i=0; i<16; i++) B[i] ^= Y[i]` leaves i = 16. *)
Definition ccm_step (E : list Z -> list Z) (ivlen : nat) (dec : bool) (inp : list Z) (st : ccm_st) : ccm_st :=
  let i := cs_i st in
  let j := cs_j st in
  let x := Z.lxor (nthZ i inp) (nthZ j (cs_S st)) in
  let B := upd j (if dec then x else nthZ i inp) (cs_B st) in
  let out := if dec then cs_out st else upd i x (cs_out st) in
  let i := S i in
  let j := S j in
  if (16 <=? j)%nat then
    let B := xorb_list B (cs_Y st) in
    let i := 16%nat in
    let Y := E B in
    let Ctr := ccm_inc ivlen (15 - ivlen) (cs_Ctr st) in
    {| cs_i := i; cs_j := 0; cs_B := repeat 0 16; cs_Y := Y; cs_Ctr := Ctr; cs_S := E Ctr; cs_out := out |}
  else {| cs_i := i; cs_j := j; cs_B := B; cs_Y := cs_Y st; cs_Ctr := cs_Ctr st; cs_S := cs_S st; cs_out := out |}.
(** ccm.c:140-158, 305-323 *)
Fixpoint ccm_loop (E : list Z -> list Z) (ivlen : nat) (dec : bool) (inp : list Z) (fuel : nat) (st : ccm_st) : option ccm_st :=
  if (cs_i st <? length inp)%nat then
    match fuel with
    | O => None
    | S fuel => ccm_loop E ivlen dec inp fuel (ccm_step E ivlen dec inp st)
    end
  else Some st.
(** ccm.c:348-362: i, j, Ctr, S, out *)
Fixpoint ccm_ctr_loop (E : list Z -> list Z) (ivlen : nat) (inp : list Z) (fuel : nat) (i j : nat) (Ctr S out : list Z) : option (list Z) :=
  if (i <? length inp)%nat then
    match fuel with
    | O => None
    | Datatypes.S fuel =>
      let out := upd i (Z.lxor (nthZ i inp) (nthZ j S)) out in
      let i := Datatypes.S i in
      let j := Datatypes.S j in
      if (16 <=? j)%nat then
        let Ctr := ccm_inc ivlen (15 - ivlen) Ctr in
        ccm_ctr_loop E ivlen inp fuel i 0 Ctr (E Ctr) out
      else ccm_ctr_loop E ivlen inp fuel i j Ctr S out
    end
  else Some out.
(** ccm.c:26-33, 191-198 (q*8 < 64 unless ivlen = 7, where the limit is not tested) *)
Definition ccm_refuse (ivlen tlen len : nat) : bool :=
  (ivlen <? 7)%nat || (13 <? ivlen)%nat || (tlen <? 4)%nat || (16 <? tlen)%nat || (tlen mod 2 =? 1)%nat
  || ((Z.of_nat (15 - ivlen) * 8 <? 64) && (2 ^ (Z.of_nat (15 - ivlen) * 8) <=? Z.of_nat len)).
(** ccm.c:69, 114-135: Y after B_0 and the AAD *)
Definition ccm_start (E : list Z -> list Z) (iv aad : list Z) (len tlen : nat) : list Z :=
  let Y := E (ccm_b0 iv (length aad) len tlen) in
  let '(B, j) := ccm_b1 (length aad) in
  let '(B, j, Y) := fold_left (ccm_aad_step E) aad (B, j, Y) in
  ccm_flush E j B Y.
(** ccm.c:12-173.  [out]: the caller's buffer, of the length of p.  Some None = NULL. *)
Definition CCM_Encrypt (E : list Z -> list Z) (iv aad p out : list Z) (tlen fuel : nat) : option (option (list Z * list Z)) :=
  if ccm_refuse (length iv) tlen (length p) then Some None
  else
    let Ctr := ccm_ctr_init iv in
    let Y := ccm_start E iv aad (length p) tlen in
    match ccm_loop E (length iv) false p fuel
      {| cs_i := 0; cs_j := 0; cs_B := repeat 0 16; cs_Y := Y; cs_Ctr := Ctr; cs_S := E Ctr; cs_out := out |} with
    | None => None
    | Some st =>
      let Y := ccm_flush E (cs_j st) (cs_B st) (cs_Y st) in
      let S := E (ccm_ctr_zero (length iv) 16 (cs_Ctr st)) in
      Some (Some (cs_out st, map (fun j => Z.lxor (nthZ j Y) (nthZ j S)) (seq 0 tlen)))
    end.
(** ccm.c:175-365.  Some None = NULL and out not written. *)
Definition CCM_Decrypt (E : list Z -> list Z) (iv aad c out T : list Z) (fuel : nat) : option (option (list Z)) :=
  if ccm_refuse (length iv) (length T) (length c) then Some None
  else
    let Ctr := ccm_ctr_init iv in
    let Y := ccm_start E iv aad (length c) (length T) in
    match ccm_loop E (length iv) true c fuel
      {| cs_i := 0; cs_j := 0; cs_B := repeat 0 16; cs_Y := Y; cs_Ctr := Ctr; cs_S := E Ctr; cs_out := out |} with
    | None => None
    | Some st =>
      let Y := ccm_flush E (cs_j st) (cs_B st) (cs_Y st) in
      let Ctr := ccm_ctr_zero (length iv) 16 (cs_Ctr st) in
      let S := E Ctr in
      let tcmp := fold_left (fun t j => Z.lor t (Z.lxor (Z.lxor (nthZ j T) (nthZ j Y)) (nthZ j S))) (seq 0 (length T)) 0 in
      if Z.shiftr (tcmp - 1) 15 =? 0 then Some None
      else
        let Ctr := upd 15 1 Ctr in
        let Ctr := ccm_ctr_zero (length iv) 15 Ctr in
        match ccm_ctr_loop E (length iv) c fuel 0 0 Ctr (E Ctr) out with
        | None => None
        | Some out => Some (Some out)
        end
    end.
