(** Models of src/2-rsa/rsa-pubkey-writer-der.c, rsa-pubkey-export-der.c, rsa-privkey-writer-der.c,
    rsa-pubkey-parser-der.c and rsa-privkey-parser-der.c.

    A vlong_t is its list of words; a key context is its integers, those of a parsed key with the offset at which
    they are placed.  [UB]: reading outside of the input or of initialised memory, or a failed assert; [Ret None]:
    the function returns -1.  Simplifications: the offsets and size_modulus (uint32_t, int32_t) are unbounded
    integers (theorem C46_decoder_memory shows that they fit); a parsed context is returned instead of stored. *)
From Verif Require Import Base Vlong Der.

Definition bind {A C} (x : res (option A)) (f : A -> res (option C)) : res (option C) :=
  match x with UB => UB | Ret None => Ret None | Ret (Some a) => f a end.
Notation "'do' ' p <- x ; r" := (bind x (fun p => r)) (at level 200, p pattern, x at level 100, r at level 200).

(* ---------------- writers ---------------- *)
(** The destination: NULL, or [enclen] octets of memory. *)
Definition dest : Type := option (list Z).
(** storing os at offset i *)
Definition store (i : nat) (os buf : list Z) : list Z := firstn i buf ++ os ++ skipn (i + length os) buf.
(** ber_tlv_put_integer(w, DeltaAdd(enc, ret), enclen - ret) (der-codec.c:417-457): its value and the memory after *)
Definition put_int (w : list Z) (enc : dest) (ret : nat) : res (option (nat * dest)) :=
  match enc with
  | None => match ber_put_len (Z.of_nat (int_octets w)) with
            | UB => UB
            | Ret lenb => Ret (Some (int_octets w + (length (ber_put_tag (2 ^ 31 + 2) 0) + length lenb), None))%nat
            end
  | Some buf => match ber_tlv_put_integer w (Z.of_nat (length buf) - Z.of_nat ret) with
                | UB => UB
                | Ret None => Ret None
                | Ret (Some os) => Ret (Some (length os, Some (store ret os buf)))
                end
  end.
(** put_int of several integers one after the other, from offset base on, as each writer does *)
Fixpoint put_ints (ws : list (list Z)) (enc : dest) (base ret : nat) : res (option (nat * dest)) :=
  match ws with
  | [] => Ret (Some (ret, enc))
  | w :: ws => do '(subret, enc) <- put_int w enc (base + ret); put_ints ws enc base (ret + subret)
  end.
(** for(t=lo+n+sub; t-->lo+sub; ) enc[t] = enc[t - sub]; *)
Fixpoint shift_up (lo sub n : nat) (buf : list Z) : list Z :=
  match n with
  | O => buf
  | S k => shift_up lo sub k (upd (lo + sub + k) (nthZ (lo + k) buf) buf)
  end.
(** for(t=lo+n; t-->lo; ) enc[t] = tlbuf[t];  of tlbuf only the octets [tl] were written *)
Fixpoint copy_hdr (lo n : nat) (tl buf : list Z) : res (list Z) :=
  match n with
  | O => Ret buf
  | S k => match nth_error tl (lo + k) with
           | None => UB
           | Some c => copy_hdr lo k tl (upd (lo + k) c buf)
           end
  end.
(** The end of a SEQUENCE whose n content octets are at offset lo (rsa-pubkey-writer-der.c:36-52 = rsa-pubkey-export-der.c:36-52
    = rsa-privkey-writer-der.c:114-130 = 155-171, and 203-219 with lo = ret): the header is put before them. *)
Definition close_seq (lo n : nat) (enc : dest) : res (option (nat * dest)) :=
  match ber_put_len (Z.of_nat n) with
  | UB => UB
  | Ret lenb =>
    let tl := ber_put_tag (2 ^ 31 + 16) 1 ++ lenb in
    let subret := length tl in
    match enc with
    | None => Ret (Some ((n + subret)%nat, None))
    | Some buf =>
      if (length buf <? lo + n + subret)%nat then Ret None
      else match copy_hdr lo subret tl (shift_up lo subret n buf) with
           | UB => UB
           | Ret buf => Ret (Some ((n + subret)%nat, Some buf))
           end
    end
  end.

(** rsa-pubkey-writer-der.c:6-53; rsa-pubkey-export-der.c:6-53 (of a private context) *)
Definition ber_tlv_encode_RSAPublicKey (n e : list Z) (enc : dest) : res (option (nat * dest)) :=
  do '(ret, enc) <- put_ints [n; e] enc 0 0; close_seq 0 ret enc.

(** The integers of a private key context: RSA_Priv_Base_Ctx_t and primes_other (rsa.h:21-46) *)
Record rsa_priv := { r_n : list Z; r_e : list Z; r_d : list Z; r_p : list Z; r_q : list Z; r_dP : list Z; r_dQ : list Z; r_qInv : list Z;
                     r_other : list (list Z * list Z * list Z) }.
(** rsa-privkey-writer-der.c:137-222; [base] is the offset at which enc points *)
Fixpoint encode_others (os : list (list Z * list Z * list Z)) (enc : dest) (base ret : nat) : res (option (nat * dest)) :=
  match os with
  | [] => match enc with None => close_seq 0 ret None
          | Some buf => do '(r, sub) <- close_seq 0 ret (Some (skipn base buf));
                        match sub with Some s => Ret (Some (r, Some (firstn base buf ++ s))) | None => Ret None end
          end
  | (r, d, t) :: os =>
    do '(accum, enc) <- put_ints [r; d; t] enc (base + ret) 0;
    match enc with
    | None => do '(len, enc) <- close_seq ret accum None; encode_others os enc base (ret + len)
    | Some buf => do '(len, sub) <- close_seq ret accum (Some (skipn base buf));
                  match sub with Some s => encode_others os (Some (firstn base buf ++ s)) base (ret + len) | None => Ret None end
    end
  end.
(** rsa-privkey-writer-der.c:9-131 *)
Definition ber_tlv_encode_RSAPrivateKey (k : rsa_priv) (enc : dest) : res (option (nat * dest)) :=
  let version := match r_other k with [] => 0 | _ => 1 end in
  do '(ret, enc) <- put_ints [[version]; r_n k; r_e k; r_d k; r_p k; r_q k; r_dP k; r_dQ k; r_qInv k] enc 0 0;
  do '(ret, enc) <- (if version =? 0 then Ret (Some (ret, enc)) else do '(subret, enc) <- encode_others (r_other k) enc ret 0; Ret (Some ((ret + subret)%nat, enc)));
  close_seq 0 ret enc.

(* ---------------- parsers ---------------- *)
(** BER_TLV_TAG_UNI(x), der-codec.h:22 *)
Definition TAG_UNI (x : Z) : Z := x + 2 ^ 31.
(** "if( -1 == BER_HDR ) return -1; if( tag != BER_TLV_TAG_UNI(t) ) return -1;": len and what ptr points at *)
Definition get_hdr (t : Z) (ptr : list Z) : res (option (nat * list Z)) :=
  do '(tag, len, q) <- ber_get_hdr ptr; if tag =? TAG_UNI t then Ret (Some (Z.to_nat len, q)) else Ret None.
(** an integer in the context: its offset and its words *)
Record vobj := VO { vo_off : Z; vo_words : list Z }.
(** VLONG_BYTES_SIZE(len), vlong.h:35-36 *)
Definition VLONG_BYTES_SIZE (len : nat) : Z := 4 * (2 + (Z.of_nat len + 4) / 4 + 1).
(** an INTEGER is parsed and placed at base + ret: the object, its size, the new ret and ptr *)
Definition get_int (base : Z) (ret : Z) (ptr : list Z) : res (option (vobj * Z * Z * list Z)) :=
  do '(len, q) <- get_hdr 2 ptr;
  let size := VLONG_BYTES_SIZE len in
  Ret (Some (VO (base + ret) (ber_tlv_decode_integer (firstn len q)), size, ret + size, skipn len q)).

(** RSA_Pub_Ctx_Hdr_t: rsa.h:82-85.  [p_w]: offset_w1..w4, [p_wc] the c of each. *)
Record rsa_pub_ctx := { p_n : vobj; p_e : vobj; p_bits : Z; p_w : list Z; p_wc : Z }.
Definition sizeof_pub : Z := 28.
(** rsa-pubkey-parser-der.c:8-104; with any = NULL only the number is used *)
Definition ber_tlv_decode_RSAPublicKey (enc : list Z) : res (option (Z * rsa_pub_ctx)) :=
  do '(_, ptr) <- get_hdr 16 enc;
  do '(n, size, ret, ptr) <- get_int sizeof_pub 0 ptr;
  let w := map (fun i => sizeof_pub + ret + Z.of_nat i * size) (seq 0 4) in
  let ret := ret + 4 * size in
  do '(e, _, ret, ptr) <- get_int sizeof_pub ret ptr;
  Ret (Some (ret + sizeof_pub, {| p_n := n; p_e := e; p_bits := vlong_topbit (vo_words n); p_w := w; p_wc := size / 4 - 1 |})).

(** RSA_Priv_Base_Ctx_t, RSA_OtherPrimeInfo_t: rsa.h:21-35 *)
Record rsa_priv_ctx := { s_n : vobj; s_e : vobj; s_d : vobj; s_p : vobj; s_q : vobj; s_dP : vobj; s_dQ : vobj; s_qInv : vobj;
                         s_other : list (vobj * vobj * vobj); s_count : Z; s_bits : Z; s_w : list Z; s_wc : Z }.
Definition sizeof_base : Z := 60.
Definition sizeof_other : Z := 12.
(** rsa-privkey-parser-der.c:280-371: pass 1 ([count = None]) goes on until the input is used up, pass 2 for *count primes.
    The offsets are base + addr + ret; the fuel bounds the number of primes by the input's length. *)
Fixpoint decode_others (fuel : nat) (count : option nat) (base addr ret : Z) (ptr : list Z) (i : nat) : res (option (Z * list (vobj * vobj * vobj))) :=
  if match count with None => (length ptr =? 0)%nat | Some c => (c <=? i)%nat end then Ret (Some (ret, []))
  else match fuel with
  | O => UB
  | S f =>
    do '(_, ptr) <- get_hdr 16 ptr;
    do '(r, _, ret, ptr) <- get_int (base + addr) ret ptr;
    do '(d, _, ret, ptr) <- get_int (base + addr) ret ptr;
    do '(t, _, ret, ptr) <- get_int (base + addr) ret ptr;
    do '(ret, l) <- decode_others f count base addr ret ptr (S i);
    Ret (Some (ret, (r, d, t) :: l))
  end.
(** rsa-privkey-parser-der.c:48: version = (version << 8) | ptr[i] *)
Definition get_version (os : list Z) : Z := fold_left (fun v b => Z.lor (u32 (Z.shiftl v 8)) b) os 0.
(** rsa-privkey-parser-der.c:36-264: one pass; [count]: None in pass 1 (nothing is stored: the offsets are not used),
    Some (count_primes_other) in pass 2.  The result: ret, count_primes_other and the context. *)
Definition decode_priv_pass (count : option nat) (enc : list Z) : res (option (Z * nat * rsa_priv_ctx)) :=
  let base := sizeof_base + sizeof_other * Z.of_nat (match count with Some c => c | None => 0 end) in
  do '(_, ptr) <- get_hdr 16 enc;
  do '(len, ptr) <- get_hdr 2 ptr;
  let version := get_version (firstn len ptr) in
  let ptr := skipn len ptr in
  do '(n, size, ret, ptr) <- get_int base 0 ptr;
  let w := map (fun i => base + ret + Z.of_nat i * size) (seq 0 5) in
  let ret := ret + 5 * size in
  do '(e, _, ret, ptr) <- get_int base ret ptr;
  do '(d, _, ret, ptr) <- get_int base ret ptr;
  do '(p, _, ret, ptr) <- get_int base ret ptr;
  do '(q, _, ret, ptr) <- get_int base ret ptr;
  do '(dP, _, ret, ptr) <- get_int base ret ptr;
  do '(dQ, _, ret, ptr) <- get_int base ret ptr;
  do '(qInv, _, ret, ptr) <- get_int base ret ptr;
  let fin cnt ret l := Ret (Some (ret + sizeof_base + sizeof_other * Z.of_nat cnt, cnt,
    {| s_n := n; s_e := e; s_d := d; s_p := p; s_q := q; s_dP := dP; s_dQ := dQ; s_qInv := qInv; s_other := l;
       s_count := Z.of_nat cnt; s_bits := vlong_topbit (vo_words n); s_w := w; s_wc := size / 4 - 1 |})) in
  if version =? 0 then fin 0%nat ret []
  else if version =? 1 then
    do '(len, ptr) <- get_hdr 16 ptr;
    do '(subret, l) <- decode_others (S len) count base ret 0 (firstn len ptr) 0;
    fin (match count with Some c => c | None => length l end) (ret + subret) l
  else UB (* assert( version == 0 || version == 1 ) *).
(** rsa-privkey-parser-der.c:12-278: any = NULL *)
Definition ber_tlv_decode_RSAPrivateKey_size (enc : list Z) : res (option Z) :=
  do '(ret, _, _) <- decode_priv_pass None enc; Ret (Some ret).
(** ... and any non-NULL: both passes *)
Definition ber_tlv_decode_RSAPrivateKey (enc : list Z) : res (option (Z * rsa_priv_ctx)) :=
  do '(_, count, _) <- decode_priv_pass None enc;
  do '(ret, _, ctx) <- decode_priv_pass (Some count) enc;
  Ret (Some (ret, ctx)).
