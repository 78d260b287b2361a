(** Model of RSASSA-PSS and RSASSA-PKCS1-v1_5 (src/3-pkcs1/rsassa-*.c, src/2-rsa/pkcs1-padding.c,
    src/2-rsa/rsa-enc.c) over any pair of hash interfaces without an xfinalfunc.
    Simplifications: the single hashctx buffer (pkcs1-padding.h) is kept as one field per
    hash (each use starts with Init over arbitrary contents, so what the other hash left
    there is irrelevant); the working vlongs w1..w4 all have [pk_w] words; clobbered
    contents of w1..w4 after a call are not tracked (only the status and w1 as decoded);
    sizes are natural numbers (the code's are uint32_t, so slen + hlen + 2 < 2^32 is assumed). *)
From Verif Require Import Base Vlong Der HashIface.

(** PKCS1_Pub_Ctx_Hdr_t / pkcs1_padding_oracles_base_t (pkcs1-padding.h:20-70) with the RSA
    public context behind offset_rsa_pubctx. *)
Record pkctx (hm hg : hash_impl) := {
  pk_status : Z;
  pk_slen : nat;
  pk_hmsg : hi_ctx hm;
  pk_hmgf : hi_ctx hg;
  pk_bits : nat;          (* modulus_bits *)
  pk_n : list Z;
  pk_e : list Z;
  pk_w : nat;             (* words in each of w1..w4 *)
  pk_w1 : list Z          (* the decoded signature *)
}.
Arguments pk_status {hm hg}. Arguments pk_slen {hm hg}. Arguments pk_hmsg {hm hg}. Arguments pk_hmgf {hm hg}.
Arguments pk_bits {hm hg}. Arguments pk_n {hm hg}. Arguments pk_e {hm hg}. Arguments pk_w {hm hg}. Arguments pk_w1 {hm hg}.

Section P.
  Variables hm hg : hash_impl.
  Let ctx := pkctx hm hg.
  Definition with_status (x : ctx) (s : Z) : ctx :=
    Build_pkctx hm hg s (pk_slen x) (pk_hmsg x) (pk_hmgf x) (pk_bits x) (pk_n x) (pk_e x) (pk_w x) (pk_w1 x).
  Definition with_hmsg (x : ctx) (c : hi_ctx hm) : ctx :=
    Build_pkctx hm hg (pk_status x) (pk_slen x) c (pk_hmgf x) (pk_bits x) (pk_n x) (pk_e x) (pk_w x) (pk_w1 x).

  (** pkcs1-padding.c:6-39, mgf1_pkcs1 with xor = 1: [dst] is the part of out still to do,
      [c] the host value of the counter (a uint32_t).  Fuel: at least one octet per round. *)
  Fixpoint mgf1_loop (fuel : nat) (hc : hi_ctx hg) (inp : list Z) (c : Z) (dst : list Z) : list Z :=
    match fuel with
    | O => dst
    | S fuel =>
      if (length dst =? 0)%nat then []
      else
        let t := if (hi_out hg <? length dst)%nat then hi_out hg else length dst in
        let hc := hi_init hg hc in
        let hc := hi_update hg hc inp in
        let hc := hi_update hg hc (be_bytes 4 c) in
        let '(hc, buf) := hi_final hg hc t in
        xorb_list (firstn t dst) buf ++ mgf1_loop fuel hc inp (u32 (c + 1)) (skipn t dst)
    end.
  (** pkcs1-padding.c:70-79, mgf_auto when hfuncs_mgf.xfinalfunc is NULL. *)
  Definition mgf_auto (x : ctx) (inp dst : list Z) : list Z := mgf1_loop (length dst) (pk_hmgf x) inp 0 dst.

  (** rsa-enc.c:6-16 *)
  Definition rsa_enc (x : ctx) : option (list Z) :=
    vlong_modexpv (pk_w x) (pk_w x) (pk_w x) (pk_w1 x) (pk_e x) (Some (fun v => vlong_remv_inplace v (pk_n x))).

  (** rsassa-pss-verify.c:117-133, rsassa-pkcs1-v1_5-verify.c:93-109: is w1 > n? (t runs down) *)
  Fixpoint sig_above (a n : list Z) (t : nat) : bool :=
    match t with
    | O => false
    | S t =>
      let u := if (t <? length a)%nat then nthZ t a else 0 in
      let v := if (t <? length n)%nat then nthZ t n else 0 in
      if v <? u then true else if u <? v then false else sig_above a n t
    end.

  (** rsassa-pss-verify.c:7-19, rsassa-pkcs1-v1_5-verify.c:7-19 *)
  Definition Decode_Signature (x : ctx) (sig : list Z) : ctx :=
    Build_pkctx hm hg 0 (pk_slen x) (pk_hmsg x) (pk_hmgf x) (pk_bits x) (pk_n x) (pk_e x) (pk_w x) (vlong_OS2IP (pk_w x) sig).

  Definition em_len (x : ctx) : nat := ((pk_bits x - 1) + 7) / 8.

  (** H == H' loop, rsassa-pss-verify.c:194-204. *)
  Fixpoint octets_differ (u v : list Z) (t k : nat) : bool :=
    match k with
    | O => false
    | S k => if negb (nthZ t u =? nthZ t v) then true else octets_differ u v (S t) k
    end.

  (** rsassa-pss-verify.c:104-210, the body of PKCS1v2_SSA_PSS_Verify behind the status
      guard.  Result: None if assert( po->status == 2 ) aborts, else the new status. *)
  Definition pss_body (x : ctx) (mHash : list Z) : option Z :=
    let emBits := (pk_bits x - 1)%nat in
    let emLen := em_len x in
    let hlen := hi_out hm in
    let slen := pk_slen x in
    if (emLen <? hlen + slen + 2)%nat then Some (-1)
    else if sig_above (pk_w1 x) (pk_n x) (if (length (pk_n x) <? length (pk_w1 x))%nat then length (pk_w1 x) else length (pk_n x)) then Some (-1)
    else
      let vp1 := match rsa_enc x with Some v => v | None => [] end in   (* NULL would be dereferenced *)
      let em := vlong_I2OSP vp1 emLen in
      let t := Z.of_nat (8 * emLen - emBits) in
      if negb (nthZ (emLen - 1) em =? 0xbc) then Some (-1)
      else if negb (Z.land (nthZ 0 em) (Z.lnot (Z.shiftr 0xff t)) =? 0) then Some (-1)
      else
        let dbl := (emLen - hlen - 1)%nat in
        let h := firstn hlen (skipn dbl em) in
        let db := mgf_auto x h (firstn dbl em) in
        let db := upd 0 (Z.land (nthZ 0 db) (Z.shiftr 0xff t)) db in
        if existsb (fun i => negb (nthZ i db =? 0)) (seq 0 (emLen - hlen - slen - 2)) then Some (-1)
        else if negb (nthZ (emLen - hlen - slen - 2) db =? 1) then Some (-1)
        else if negb (pk_status x =? 2) then None
        else
          let hc := hi_init hm (pk_hmsg x) in
          let hc := hi_update hm hc (repeat 0 8) in
          let hc := hi_update hm hc (firstn hlen mHash) in
          let hc := hi_update hm hc (firstn slen (skipn (emLen - hlen - slen - 1) db)) in
          let '(_, v) := hi_final hm hc hlen in
          if octets_differ h v 0 hlen then Some (-1) else Some 1.

  (** rsassa-pss-verify.c:81-211, PKCS1v2_SSA_PSS_Verify: lines 98-102 return at once when
      po->status is not 0.  None = abort. *)
  Definition PSS_Verify_inner (x : ctx) (mHash : list Z) : option (ctx * bool) :=
    if negb (pk_status x =? 0) then Some (x, 0 <=? pk_status x)
    else match pss_body x mHash with
         | None => None
         | Some s => Some (with_status x s, 0 <=? s)
         end.

  (** rsassa-pss-verify.c:25-46; true = returns msg, false = NULL. *)
  Definition RSASSA_PSS_Verify (x : ctx) (msg : list Z) : option (ctx * bool) :=
    if pk_status x =? 1 then Some (x, true)
    else if pk_status x =? -1 then Some (x, false)
    else
      let hc := hi_init hm (pk_hmsg x) in
      let hc := hi_update hm hc msg in
      let '(hc, mHash) := hi_final hm hc (hi_out hm) in
      PSS_Verify_inner (with_status (with_hmsg x hc) 2) mHash.

  (** rsassa-pss-verify.c:48-59 and rsassa-pkcs1-v1_5-verify.c:42-53; the caller then feeds the
      returned hash context through the returned updatefunc. *)
  Definition IncVerify_Init (x : ctx) : ctx := with_status (with_hmsg x (hi_init hm (pk_hmsg x))) 0.
  Definition IncVerify_Update (x : ctx) (d : list Z) : ctx := with_hmsg x (hi_update hm (pk_hmsg x) d).

  (** rsassa-pss-verify.c:61-79 *)
  Definition RSASSA_PSS_IncVerify_Final (x : ctx) : option (ctx * bool) :=
    if pk_status x =? 1 then Some (x, true)
    else if pk_status x =? -1 then Some (x, false)
    else
      let '(hc, mHash) := hi_final hm (pk_hmsg x) (hi_out hm) in
      PSS_Verify_inner (with_status (with_hmsg x hc) 2) mHash.

  (** rsassa-pkcs1-v1_5-verify.c:134-149 (sign.c:116-131): 00 01 FF..FF 00, the loop writing ptr[t]. *)
  Fixpoint v15_ps_loop (fuel : nat) (tlen emLen t : nat) (ptr : list Z) : list Z :=
    match fuel with
    | O => ptr
    | S fuel =>
      if (emLen <=? tlen + t + 1)%nat then upd t 0 ptr
      else v15_ps_loop fuel tlen emLen (S t) (upd t 0xff ptr)
    end.
  Fixpoint put_at (ptr : list Z) (off : nat) (d : list Z) : list Z :=
    match d with [] => ptr | b :: d => put_at (upd off b ptr) (S off) d end.
  (** rsassa-pkcs1-v1_5-verify.c:126-160, rsassa-pkcs1-v1_5-sign.c:108-142: EM in the buffer
      [ptr] (at least emLen octets); [hc] is the context that absorbed the message, [pre] and
      [dl] the DER prefix and Digest_Len of the hash's row in HashOIDs_Table. *)
  Definition v15_em (hc : hi_ctx hm) (pre : list Z) (dl emLen : nat) (ptr : list Z) : list Z :=
    let ptr := upd 0 0 ptr in
    let ptr := upd 1 1 ptr in
    let ptr := v15_ps_loop emLen (length pre + dl) emLen 2 ptr in
    let ptr := put_at ptr (emLen - dl - length pre) pre in
    put_at ptr (emLen - dl) (snd (hi_final hm hc dl)).
  (** the diff loop, rsassa-pkcs1-v1_5-verify.c:166-169 *)
  Fixpoint or_diff (p q : list Z) (t k : nat) (diff : Z) : Z :=
    match k with O => diff | S k => or_diff p q (S t) k (Z.lor diff (Z.lxor (nthZ t p) (nthZ t q))) end.

  (** rsassa-pkcs1-v1_5-verify.c:88-191.  [oid] is the row of HashOIDs_Table found for
      po->hfuncs_msg.initfunc, None when the table has none; [w2] the stale contents of the w2 buffer. *)
  Definition v15_body (oid : option (list Z * nat)) (w2 : list Z) (x : ctx) : option Z :=
    let emLen := em_len x in
    if sig_above (pk_w1 x) (pk_n x) (if (length (pk_n x) <? length (pk_w1 x))%nat then length (pk_w1 x) else length (pk_n x)) then Some (-1)
    else
      let vp1 := match rsa_enc x with Some v => v | None => [] end in
      let eem := vlong_I2OSP vp1 emLen in
      match oid with
      | None => Some (-1)
      | Some (pre, dl) =>
        if (emLen <? length pre + dl + 11)%nat then Some (-1)
        else if negb (pk_status x =? 2) then None
        else
          let ptr := v15_em (pk_hmsg x) pre dl emLen w2 in
          if negb (or_diff ptr eem 0 emLen 0 =? 0) then Some (-1) else Some 1
      end.
  (** rsassa-pkcs1-v1_5-verify.c:67-192 *)
  Definition V15_Verify_inner (oid : option (list Z * nat)) (w2 : list Z) (x : ctx) : option (ctx * bool) :=
    if negb (pk_status x =? 0) then Some (x, 0 <=? pk_status x)
    else match v15_body oid w2 x with
         | None => None
         | Some s => Some (with_status x s, 0 <=? s)
         end.
  (** rsassa-pkcs1-v1_5-verify.c:23-40 *)
  Definition RSAEncryptionWithHash_Verify (oid : option (list Z * nat)) (w2 : list Z) (x : ctx) (msg : list Z) : option (ctx * bool) :=
    if pk_status x =? 1 then Some (x, true)
    else if pk_status x =? -1 then Some (x, false)
    else
      let hc := hi_update hm (hi_init hm (pk_hmsg x)) msg in
      V15_Verify_inner oid w2 (with_status (with_hmsg x hc) 2).
  (** rsassa-pkcs1-v1_5-verify.c:55-65 *)
  Definition RSAEncryptionWithHash_IncVerify_Final (oid : option (list Z * nat)) (w2 : list Z) (x : ctx) : option (ctx * bool) :=
    if pk_status x =? 1 then Some (x, true)
    else if pk_status x =? -1 then Some (x, false)
    else V15_Verify_inner oid w2 (with_status x 2).

  (** rsassa-pss-sign.c:107-150, the encoding half of PKCS1v2_SSA_PSS_Sign: the octets handed to
      vlong_OS2IP, or None when status becomes -1.  [hc] = context that absorbed the message,
      [salt] = what prng_gen wrote, [ptr] = stale contents of the w2 buffer (emLen octets). *)
  Definition pss_sign_em (x : ctx) (hc : hi_ctx hm) (salt ptr : list Z) : option (list Z) :=
    let emBits := (pk_bits x - 1)%nat in
    let emLen := em_len x in
    let hlen := hi_out hm in
    let slen := pk_slen x in
    if (emLen <? hlen + slen + 2)%nat then None
    else
      let ptr := upd (emLen - 1) 0xbc ptr in
      let ptr := put_at ptr (emLen - hlen - slen - 1) salt in
      let '(hc, mh) := hi_final hm hc hlen in
      let ptr := put_at ptr (emLen - hlen - 1) mh in
      let hc := hi_init hm hc in
      let hc := hi_update hm hc (repeat 0 8) in
      let hc := hi_update hm hc (firstn hlen (skipn (emLen - hlen - 1) ptr)) in
      let hc := hi_update hm hc (firstn slen (skipn (emLen - hlen - slen - 1) ptr)) in
      let '(_, h) := hi_final hm hc hlen in
      let ptr := put_at ptr (emLen - hlen - 1) h in
      let ptr := put_at ptr 0 (repeat 0 (emLen - hlen - slen - 2)) in
      let ptr := upd (emLen - hlen - slen - 2) 1 ptr in
      let dbl := (emLen - hlen - 1)%nat in
      let ptr := mgf_auto x (firstn hlen (skipn dbl ptr)) (firstn dbl ptr) ++ skipn dbl ptr in
      Some (upd 0 (Z.land (nthZ 0 ptr) (Z.shiftr 0xff (Z.of_nat (8 * emLen - emBits)))) ptr).
End P.

(** rsassa-pkcs1-v1_5.c:6-81, HashOIDs_Table: DER_Prefix (DER_Prefix_Len octets) and Digest_Len. *)
Definition oid_sha1 : list Z * nat := ([0x30;0x21;0x30;0x09;0x06;0x05;0x2b;0x0e;0x03;0x02;0x1a;0x05;0x00;0x04;0x14], 20%nat).
Definition oid_sha224 : list Z * nat := ([0x30;0x2d;0x30;0x0d;0x06;0x09;0x60;0x86;0x48;0x01;0x65;0x03;0x04;0x02;0x04;0x05;0x00;0x04;0x1c], 28%nat).
Definition oid_sha256 : list Z * nat := ([0x30;0x31;0x30;0x0d;0x06;0x09;0x60;0x86;0x48;0x01;0x65;0x03;0x04;0x02;0x01;0x05;0x00;0x04;0x20], 32%nat).
Definition oid_sha384 : list Z * nat := ([0x30;0x41;0x30;0x0d;0x06;0x09;0x60;0x86;0x48;0x01;0x65;0x03;0x04;0x02;0x02;0x05;0x00;0x04;0x30], 48%nat).
Definition oid_sha512 : list Z * nat := ([0x30;0x51;0x30;0x0d;0x06;0x09;0x60;0x86;0x48;0x01;0x65;0x03;0x04;0x02;0x03;0x05;0x00;0x04;0x40], 64%nat).
Definition oid_sha512t224 : list Z * nat := ([0x30;0x2d;0x30;0x0d;0x06;0x09;0x60;0x86;0x48;0x01;0x65;0x03;0x04;0x02;0x05;0x05;0x00;0x04;0x1c], 28%nat).
Definition oid_sha512t256 : list Z * nat := ([0x30;0x31;0x30;0x0d;0x06;0x09;0x60;0x86;0x48;0x01;0x65;0x03;0x04;0x02;0x06;0x05;0x00;0x04;0x20], 32%nat).
