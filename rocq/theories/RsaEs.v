(** Model of RSAES-OAEP and RSAES-PKCS1-v1_5 (src/3-pkcs1/rsaes-oaep-enc.c, rsaes-oaep-dec.c,
    rsaes-pkcs1-v1_5-enc.c, rsaes-pkcs1-v1_5-dec.c) over hash interfaces without an xfinalfunc.
    Simplifications: the working variables are seen as octet buffers where the code does so (w2
    when encrypting, w1 when decrypting), the words of w1 being read from the octets as a
    little-endian host does; w2's contents after rsa_enc are the ciphertext words; the single
    hashctx is one context per hash.  Sizes are natural numbers, except in the
    length check of RSAES_OAEP_Enc, which is computed in uint32_t.  The rng is a function from
    the number of the call and the octets asked for to the octets delivered. *)
From Verif Require Import Base Vlong Der HashIface Rsa.
From Verif Require Pkcs1.

(** PKCS1_Pub_Ctx_Hdr_t (pkcs1-padding.h:20-70) and the RSA public context behind it. *)
Record pubctx (hm hg : hash_impl) := {
  u_status : Z; u_hmsg : hi_ctx hm; u_hmgf : hi_ctx hg;
  u_bits : nat; u_n : list Z; u_e : list Z;
  u_w : nat;          (* words in each of w1..w4 *)
  u_buf : list Z      (* the octets of w2, and what is readable behind them *)
}.
Arguments u_status {hm hg}. Arguments u_hmsg {hm hg}. Arguments u_hmgf {hm hg}. Arguments u_bits {hm hg}.
Arguments u_n {hm hg}. Arguments u_e {hm hg}. Arguments u_w {hm hg}. Arguments u_buf {hm hg}.
(** PKCS1_Priv_Ctx_Hdr_t and the RSA private context behind it. *)
Record privctx (hm hg : hash_impl) := {
  v_status : Z; v_hmsg : hi_ctx hm; v_hmgf : hi_ctx hg;
  v_bits : nat; v_n : list Z; v_key : rsa_priv; v_wm : nat; v_wf : nat;
  v_buf : list Z      (* the octets of w1 *)
}.
Arguments v_status {hm hg}. Arguments v_hmsg {hm hg}. Arguments v_hmgf {hm hg}. Arguments v_bits {hm hg}.
Arguments v_n {hm hg}. Arguments v_key {hm hg}. Arguments v_wm {hm hg}. Arguments v_wf {hm hg}. Arguments v_buf {hm hg}.

(** The octets of a vlong's words, and the words of octets, on a little-endian host. *)
Definition words_octets (ws : list Z) : list Z := flat_map (le_bytes 4) ws.
Fixpoint octets_words (w : nat) (buf : list Z) : list Z :=
  match w with O => [] | S w => le_val (firstn 4 buf) :: octets_words w (skipn 4 buf) end.

Section Es.
  Variables hm hg : hash_impl.
  Let pub := pubctx hm hg.
  Let priv := privctx hm hg.
  Definition with_ubuf (x : pub) (st : Z) (hc : hi_ctx hm) (buf : list Z) : pub :=
    Build_pubctx hm hg st hc (u_hmgf x) (u_bits x) (u_n x) (u_e x) (u_w x) buf.
  Definition with_vbuf (x : priv) (st : Z) (buf : list Z) : priv :=
    Build_privctx hm hg st (v_hmsg x) (v_hmgf x) (v_bits x) (v_n x) (v_key x) (v_wm x) (v_wf x) buf.
  (** pkcs1-padding.c:70-79, mgf_auto(po, inp, dst, xor = 1). *)
  Definition mgf (hc : hi_ctx hg) (inp dst : list Z) : list Z := Pkcs1.mgf1_loop hg (length dst) hc inp 0 dst.
  (** ptr[off..off+len) *)
  Definition sub (l : list Z) (off len : nat) : list Z := firstn len (skipn off l).

  (** rsaes-oaep-enc.c:72, "k = (modulus_bits + 0) / 8", and likewise in the other files. *)
  Definition u_k (x : pub) : nat := (u_bits x / 8)%nat.
  Definition v_k (x : priv) : nat := (v_bits x / 8)%nat.

  (** The end of the Enc functions: OS2IP into w1, rsa_enc (rsaes-oaep-enc.c:125-130, rsaes-pkcs1-v1_5-enc.c:80-85). *)
  Definition enc_finish (x : pub) (em : list Z) : option (list Z) := rsa_enc (u_w x) (vlong_OS2IP (u_w x) em) (u_e x) (u_n x).
  (** rsaes-oaep-enc.c:7-25, rsaes-pkcs1-v1_5-enc.c:7-25, Encode_Ciphertext with ct not NULL: the
      octets written, None for NULL.  [vp] = w2.  With ct == NULL, *ctlen := modulus_bits / 8. *)
  Definition Encode_Ciphertext (x : pub) (vp : list Z) (ctlen : nat) : option (list Z) :=
    if (ctlen * 8 <? u_bits x)%nat then None else Some (vlong_I2OSP vp ctlen).
  Definition Encode_Ciphertext_len (x : pub) : nat := (u_bits x / 8)%nat.

  (** * rsaes-oaep-enc.c *)
  (** rsaes-oaep-enc.c:47-54 and 92-98: zero the block and put the hash of the label. *)
  Definition oaep_label (x : pub) (hc : hi_ctx hm) : hi_ctx hm * list Z :=
    let ptr := Pkcs1.put_at (u_buf x) 0 (repeat 0 (u_k x)) in
    let '(hc, d) := hi_final hm hc (hi_out hm) in
    (hc, Pkcs1.put_at ptr (1 + hi_out hm) d).
  (** rsaes-oaep-enc.c:27-59 *)
  Definition RSAES_OAEP_SetLabel (x : pub) (label : list Z) : pub :=
    let '(hc, ptr) := oaep_label x (hi_update hm (hi_init hm (u_hmsg x)) label) in
    with_ubuf x 2 hc ptr.
  (** rsaes-oaep-enc.c:100-123: the octets of EM. *)
  Definition oaep_em (x : pub) (ptr ss seed : list Z) : list Z :=
    let k := u_k x in let hlen := hi_out hm in let sslen := length ss in
    let ptr := upd (k - sslen - 1) 1 ptr in
    let ptr := Pkcs1.put_at ptr (k - sslen) ss in
    let ptr := Pkcs1.put_at ptr 1 seed in
    let ptr := Pkcs1.put_at ptr (hlen + 1) (mgf (u_hmgf x) (sub ptr 1 hlen) (sub ptr (hlen + 1) (k - hlen - 1))) in
    let ptr := Pkcs1.put_at ptr 1 (mgf (u_hmgf x) (sub ptr (hlen + 1) (k - hlen - 1)) (sub ptr 1 hlen)) in
    firstn k ptr.
  (** rsaes-oaep-enc.c:60-134; None: returns NULL; otherwise ss and the words of w2.  The first
      rng call delivers the secret, the second the seed. *)
  Definition RSAES_OAEP_Enc (x : pub) (sslen : nat) (rnd : nat -> nat -> list Z) : option (list Z * option (list Z)) :=
    let go ptr := let ss := rnd 0%nat sslen in Some (ss, enc_finish x (oaep_em x ptr ss (rnd 1%nat (hi_out hm)))) in
    if u_status x =? 2 then go (u_buf x)
    else if u32 (Z.of_nat (u_k x) - 2 * Z.of_nat (hi_out hm) - 2) <? Z.of_nat sslen then None
    else go (snd (oaep_label x (hi_init hm (u_hmsg x)))).

  (** * rsaes-pkcs1-v1_5-enc.c *)
  (** rsaes-pkcs1-v1_5-enc.c:69-73, the inner loop; u, v are offsets from ptr, [mem] what is
      readable from ptr on.  None: *v lies outside mem (v grows with every turn, so a fuel of
      length mem is never used up before that). *)
  Fixpoint ps_inner (fuel : nat) (mem : list Z) (u v t : nat) : option (list Z * nat * nat * nat) :=
    match fuel with
    | O => None
    | S fuel =>
      match nth_error mem v with
      | None => None
      | Some b =>
        let mem := upd u b mem in
        let '(u, t) := if b =? 0 then (u, t) else (S u, (t - 1)%nat) in
        if (t + 2 <=? S v)%nat then Some (mem, u, S v, t) else ps_inner fuel mem u (S v) t
      end
    end.
  (** rsaes-pkcs1-v1_5-enc.c:65-74, the outer loop; [i] rng calls have been made. *)
  Fixpoint ps_outer (fuel : nat) (rnd : nat -> nat -> list Z) (i : nat) (mem : list Z) (u v t : nat) : option (list Z * nat) :=
    match fuel with
    | O => None
    | S fuel =>
      if (t =? 0)%nat then Some (mem, i)
      else
        match ps_inner (length mem) (Pkcs1.put_at mem u (rnd i t)) u v t with
        | None => None
        | Some (mem, u, v, t) => ps_outer fuel rnd (S i) mem u v t
        end
    end.
  (** rsaes-pkcs1-v1_5-enc.c:27-89.  None: reads outside the buffer; Some None: returns NULL;
      otherwise ss, EM and the words of w2. *)
  Definition RSAEncryption_Enc (x : pub) (sslen : nat) (rnd : nat -> nat -> list Z)
    : option (option (list Z * list Z * option (list Z))) :=
    let k := u_k x in
    if (k <? sslen + 11)%nat then Some None
    else
      let t := (k - sslen - 3)%nat in
      let ptr := upd (t + 2) 0 (upd 1 2 (upd 0 0 (u_buf x))) in
      match ps_outer (S (length ptr)) rnd 0 ptr 2 2 t with
      | None => None
      | Some (ptr, i) =>
        let ss := rnd i sslen in
        let em := firstn k (Pkcs1.put_at ptr (k - sslen) ss) in
        Some (Some (ss, em, enc_finish x em))
      end.

  (** * The Dec functions *)
  (** rsaes-oaep-dec.c:7-19, rsaes-pkcs1-v1_5-dec.c:7-19 *)
  Definition Decode_Ciphertext (x : priv) (ct : list Z) : priv := with_vbuf x 0 (words_octets (vlong_OS2IP (v_wm x) ct)).
  (** rsaes-oaep-dec.c:41-52, rsaes-pkcs1-v1_5-dec.c:41-52: 0 iff ret is NULL; the folding is on int32_t. *)
  Definition and_fold (e : Z) : Z :=
    let e := Z.land e (Z.shiftr e 16) in
    let e := Z.land e (Z.shiftr e 8) in
    let e := Z.land e (Z.shiftr e 4) in
    let e := Z.land e (Z.shiftr e 2) in
    let e := Z.land e (Z.shiftr e 1) in
    Z.land e 1.
  Definition ret_ok (st : Z) : bool := Z.lxor (and_fold (Z.lnot (Z.lxor st (-1)))) 1 =? 1.
  (** rsaes-oaep-dec.c:59-77, rsaes-pkcs1-v1_5-dec.c:54-72 with ss not NULL: sslen octets. *)
  Definition copy_out (x : priv) (sslen : nat) : list Z :=
    map (fun i => if Z.of_nat i <? v_status x then nthZ (v_k x - Z.to_nat (v_status x) + i) (v_buf x) else 0) (seq 0 sslen).
  (** rsaes-oaep-dec.c:88-107, rsaes-pkcs1-v1_5-dec.c:77-96: is w1 > n? *)
  Definition ct_above (x : priv) : bool :=
    let w1 := octets_words (v_wm x) (v_buf x) in
    Pkcs1.sig_above w1 (v_n x) (if (length (v_n x) <? length w1)%nat then length w1 else length (v_n x)).
  (** rsa_fastdec and vlong_I2OSP(vp1, ptr, k): rsaes-oaep-dec.c:109-112, rsaes-pkcs1-v1_5-dec.c:98-101. *)
  Definition dec_em (x : priv) : list Z :=
    vlong_I2OSP (rsa_fastdec (v_wm x) (v_wf x) (v_key x) (octets_words (v_wm x) (v_buf x))) (v_k x).

  (** rsaes-oaep-dec.c:144, the loop for(t=0; t<k-1; t++) if( ptr[t] ) break; *)
  Fixpoint find_nz (fuel : nat) (l : list Z) (t : nat) : nat :=
    match fuel with O => t | S fuel => if negb (nthZ t l =? 0) then t else find_nz fuel l (S t) end.
  (** rsaes-oaep-dec.c:21-152: what happens before "finish" when it is not reached at once. *)
  Definition oaep_core (x : priv) : priv :=
    if negb (v_status x =? 0) then x
    else
      let k := v_k x in let hlen := hi_out hm in
      if (k <? 2 * hlen + 2)%nat then with_vbuf x (-1) (v_buf x)
      else if ct_above x then with_vbuf x (-1) (v_buf x)
      else
        let ptr := dec_em x in
        let ptr := Pkcs1.put_at ptr 1 (mgf (v_hmgf x) (sub ptr (hlen + 1) (k - hlen - 1)) (sub ptr 1 hlen)) in
        let ptr := Pkcs1.put_at ptr (hlen + 1) (mgf (v_hmgf x) (sub ptr 1 hlen) (sub ptr (hlen + 1) (k - hlen - 1))) in
        let err := Z.land 1 (Z.lnot (Z.shiftr (nthZ 0 ptr - 1) 8)) in
        let p := skipn (1 + hlen * 2) ptr in
        let k' := (k - (1 + hlen * 2))%nat in
        let t := find_nz (k' - 1) p 0 in
        let err := Z.lor err (Z.land 1 (Z.lnot (Z.shiftr (Z.lxor (nthZ t p) 1 - 1) 8))) in
        with_vbuf x (- err + (Z.of_nat k' - Z.of_nat t - 1) * Z.lxor err 1) (ptr ++ skipn k (v_buf x)).
  (** RSAES_OAEP_Dec(x, NULL, &sslen): the new context, whether it returns x, and *sslen. *)
  Definition RSAES_OAEP_Dec_len (x : priv) : priv * bool * Z := let x := oaep_core x in (x, ret_ok (v_status x), v_status x).
  (** RSAES_OAEP_Dec(x, ss, &sslen) *)
  Definition RSAES_OAEP_Dec (x : priv) (sslen : nat) : priv * bool * list Z :=
    let x := oaep_core x in (x, ret_ok (v_status x), copy_out x sslen).
  (** rsaes-oaep-dec.c:205-211: c |= ptr[t + 1 + hlen] ^ digest[t], folded to one bit. *)
  Fixpoint label_diff (p d : list Z) (c : Z) : Z :=
    match p, d with b :: p, e :: d => label_diff p d (Z.lor c (Z.lxor b e)) | _, _ => c end.
  Definition or_fold4 (c : Z) : Z :=
    let c := Z.lor c (Z.shiftr c 4) in let c := Z.lor c (Z.shiftr c 2) in Z.lor c (Z.shiftr c 1).
  (** rsaes-oaep-dec.c:154-217, RSAES_OAEP_TestLabel with label not NULL. *)
  Definition RSAES_OAEP_TestLabel (x : priv) (label : list Z) : priv * bool :=
    let err := and_fold (Z.lnot (Z.lxor (v_status x) (-1))) in
    let '(hc, digest) := hi_final hm (hi_update hm (hi_init hm (v_hmsg x)) label) (hi_out hm) in
    let c := or_fold4 (label_diff (sub (v_buf x) (1 + hi_out hm) (hi_out hm)) digest 0) in
    let err := Z.lor err (Z.land c 1) in
    (with_vbuf x (- err) (v_buf x), Z.lxor err 1 =? 1).

  (** rsaes-pkcs1-v1_5-dec.c:111-115 *)
  Fixpoint find_z (fuel : nat) (l : list Z) (t : nat) : nat :=
    match fuel with O => t | S fuel => if nthZ t l =? 0 then t else find_z fuel l (S t) end.
  Definition or_fold (e : Z) : Z :=
    let e := Z.lor e (Z.shiftr e 16) in
    let e := Z.lor e (Z.shiftr e 8) in
    let e := Z.lor e (Z.shiftr e 4) in
    let e := Z.lor e (Z.shiftr e 2) in
    let e := Z.lor e (Z.shiftr e 1) in
    Z.land e 1.
  (** rsaes-pkcs1-v1_5-dec.c:21-138 *)
  Definition v15_core (x : priv) : priv :=
    if negb (v_status x =? 0) then x
    else if ct_above x then with_vbuf x (-1) (v_buf x)
    else
      let k := v_k x in
      let ptr := dec_em x in
      let err := Z.lor (nthZ 0 ptr) (Z.lxor (nthZ 1 ptr) 2) in
      let t := find_z (k - 2) ptr 2 in
      let err := Z.lor err (Z.shiftr (u32 (Z.of_nat t - 10)) 31) in
      let err := Z.lor err (Z.shiftr (u32 (Z.of_nat k - Z.of_nat t - 1)) 31) in
      let err := or_fold err in
      with_vbuf x (- err + (Z.of_nat k - Z.of_nat t - 1) * Z.lxor err 1) (ptr ++ skipn k (v_buf x)).
  Definition RSAEncryption_Dec_len (x : priv) : priv * bool * Z := let x := v15_core x in (x, ret_ok (v_status x), v_status x).
  Definition RSAEncryption_Dec (x : priv) (sslen : nat) : priv * bool * list Z :=
    let x := v15_core x in (x, ret_ok (v_status x), copy_out x sslen).
End Es.
