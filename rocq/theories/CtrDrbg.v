(** Model of src/2-prng/ctr-drbg.c, for bc_blksize = 16 (the only size in the library).  [E K] is bc_enc
    under the key schedule of K; [ks] = bc_keysize. *)
From Verif Require Import Base.

(** ctr-drbg.c:6-14, on the 16 octets before the pointer: a = 1; for i = 1..4: a += vec[-i], store, a >>= 8 *)
Fixpoint cd_inc_loop (n : nat) (a : Z) (blk : list Z) (pos : nat) : list Z :=
  match n with
  | O => blk
  | S n => let a := a + nthZ (pos - 1) blk in cd_inc_loop n (Z.shiftr a 8) (upd (pos - 1) (u8 a) blk) (pos - 1)
  end.
(** inc(blk + end) *)
Definition cd_inc (blk : list Z) (e : nat) : list Z := cd_inc_loop 4 1 blk e.

(** The context: the key last given to bc_kschd, and the octets K || V at offset_k. *)
Record ctr_drbg := { cd_sched : list Z; cd_seed : list Z }.

(** ctr-drbg.c:36-40, 115-119: for(t = 0; t <= lim; t += 16) { inc; enc(blk, dst + t) }.  The writes
    are contiguous, so [out] is what has been written from dst on; [lim] is signed here because
    t + 16 <= len is t <= len - 16. *)
Fixpoint cd_ctr_loop (fuel : nat) (E : list Z -> list Z) (lim : Z) (t : nat) (blk out : list Z) : nat * list Z * list Z :=
  match fuel with
  | O => (t, blk, out)
  | S fuel =>
    if Z.of_nat t <=? lim then
      let blk := cd_inc blk 16 in
      cd_ctr_loop fuel E lim (t + 16) blk (out ++ E blk)
    else (t, blk, out)
  end.
(** ctr-drbg.c:42-49, 121-128: the last, short, block up to [total] octets *)
Definition cd_ctr_tail (E : list Z -> list Z) (total t : nat) (blk out : list Z) : list Z :=
  if (t <? total)%nat then
    let blk := cd_inc blk 16 in
    out ++ firstn (total - t) (E blk)
  else out.
(** ctr-drbg.c:52-56; None = NULL *)
Definition cd_mix (ks : nat) (str : option (list Z)) (seed : list Z) : list Z :=
  match str with
  | None => seed
  | Some s => fold_left (fun sd t => upd t (Z.lxor (nthZ t sd) (nthZ t s)) sd) (seq 0 (Nat.min (length s) (16 + ks))) seed
  end.
(** ctr-drbg.c:18-66 *)
Definition CTR_DRBG_Update (E : list Z -> list Z -> list Z) (ks : nat) (x : ctr_drbg) (str : option (list Z)) : ctr_drbg :=
  let blk := map (fun t => nthZ (ks + t) (cd_seed x)) (seq 0 16) in
  let '(t, blk, out) := cd_ctr_loop (S ks) (E (cd_sched x)) (Z.of_nat ks) 0 blk [] in
  let seed := cd_ctr_tail (E (cd_sched x)) (16 + ks) t blk out in
  let seed := cd_mix ks str seed in
  {| cd_sched := firstn ks seed; cd_seed := seed |}.
(** ctr-drbg.c:68-86 *)
Definition CTR_DRBG_Seed (E : list Z -> list Z -> list Z) (ks : nat) (x : ctr_drbg) (seedstr : list Z) : ctr_drbg :=
  let seed := repeat 0 (16 + ks) in
  CTR_DRBG_Update E ks {| cd_sched := firstn ks seed; cd_seed := seed |} (Some seedstr).
(** ctr-drbg.c:88-94 *)
Definition CTR_DRBG_Reseed (E : list Z -> list Z -> list Z) (ks : nat) (x : ctr_drbg) (seedstr : list Z) : ctr_drbg :=
  CTR_DRBG_Update E ks x (Some seedstr).
(** ctr-drbg.c:96-131 *)
Definition CTR_DRBG_Generate (E : list Z -> list Z -> list Z) (ks : nat) (x : ctr_drbg) (len : nat) : ctr_drbg * list Z :=
  let blk := map (fun t => nthZ (ks + t) (cd_seed x)) (seq 0 16) in
  let '(t, blk, out) := cd_ctr_loop (S len) (E (cd_sched x)) (Z.of_nat len - 16) 0 blk [] in
  let out := cd_ctr_tail (E (cd_sched x)) len t blk out in
  (CTR_DRBG_Update E ks x None, out).

(** ctr-drbg.c:148-157: one octet *)
Definition cd_bcc_step (E : list Z -> list Z) (st : list Z * nat) (b : Z) : list Z * nat :=
  let '(buf, t) := st in
  let buf := upd t (Z.lxor (nthZ t buf) b) buf in
  let t := S t in
  if (16 <=? t)%nat then (E buf, 0%nat) else (buf, t).
(** ctr-drbg.c:135-168; [vec]: the n buffers *)
Definition cd_BCC (E : list Z -> list Z) (vec : list (list Z)) : list Z :=
  let '(buf, t) := fold_left (fun st d => fold_left (cd_bcc_step E) d st) vec (repeat 0 16, 0%nat) in
  E (upd t (Z.lxor (nthZ t buf) 0x80) buf).
(** ctr-drbg.c:187-191 *)
Definition cd_LN (inlen outlen : nat) : list Z :=
  map (fun o => u8 (Z.shiftr (Z.of_nat inlen) (24 - Z.of_nat o * 8))) (seq 0 4) ++
  map (fun o => u8 (Z.shiftr (Z.of_nat outlen) (24 - Z.of_nat o * 8))) (seq 0 4).
(** ctr-drbg.c:209-221: [key] = what has been written from key on *)
Fixpoint cd_df_loop (fuel : nat) (E : list Z -> list Z) (ks t : nat) (buf LN inp key : list Z) : nat * list Z * list Z :=
  match fuel with
  | O => (t, buf, key)
  | S fuel =>
    if (t <=? ks)%nat then
      let tmp := cd_BCC E [buf; LN; inp] in
      let key := key ++ firstn (ks + 16 - t) tmp in
      cd_df_loop fuel E ks (t + 16) (cd_inc buf 4) LN inp key
    else (t, buf, key)
  end.
(** ctr-drbg.c:241-250 *)
Fixpoint cd_df_out (fuel : nat) (E : list Z -> list Z) (outlen t : nat) (blk out : list Z) : list Z :=
  match fuel with
  | O => out
  | S fuel =>
    if (t <? outlen)%nat then
      let blk := E blk in
      cd_df_out fuel E outlen (t + 16) blk (out ++ firstn (outlen - t) blk)
    else out
  end.
(** ctr-drbg.c:170-257: (new key schedule, output) *)
Definition BlockCipher_df (E : list Z -> list Z -> list Z) (ks : nat) (inp : list Z) (outlen : nat) : list Z * list Z :=
  let LN := cd_LN (length inp) outlen in
  let key := map (fun o => u8 (Z.of_nat o)) (seq 0 ks) in
  let '(t, buf, temp) := cd_df_loop (S ks) (E key) ks 0 (repeat 0 16) LN inp [] in
  let temp := if (t <? ks + 16)%nat then temp ++ firstn (ks + 16 - t) (cd_BCC (E key) [buf; LN; inp]) else temp in
  let sched := firstn ks temp in
  (sched, cd_df_out outlen (E sched) outlen 0 (firstn 16 (skipn ks temp)) []).
(** ctr-drbg.c:259-270 *)
Definition CTR_DRBG_Seed_WithDF (E : list Z -> list Z -> list Z) (ks : nat) (x : ctr_drbg) (seedstr : list Z) : ctr_drbg :=
  let '(sched, sm) := BlockCipher_df E ks seedstr (16 + ks) in
  CTR_DRBG_Seed E ks {| cd_sched := sched; cd_seed := cd_seed x |} sm.
(** ctr-drbg.c:272-287 *)
Definition CTR_DRBG_Reseed_WithDF (E : list Z -> list Z -> list Z) (ks : nat) (x : ctr_drbg) (seedstr : list Z) : ctr_drbg :=
  let '(sched, sm) := BlockCipher_df E ks seedstr (16 + ks) in
  CTR_DRBG_Update E ks {| cd_sched := firstn ks (cd_seed x); cd_seed := cd_seed x |} (Some sm).
