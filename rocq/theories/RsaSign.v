(** Model of the second half of the RSA signers, from EM to the signature octets:
    src/3-pkcs1/rsassa-pss-sign.c:7-192 and src/3-pkcs1/rsassa-pkcs1-v1_5-sign.c:7-170 (the encodings of the message are
    in Pkcs1.v, rsa_fastdec is in Rsa.v).  The private context is the same pkctx with the CRT key [k], whose factor
    registers have [wf] words; a little-endian host (the octets of w1 beyond those written are read back by Encode). *)
From Verif Require Import Base Vlong Der HashIface Rsa Pkcs1.

Section S.
  Variables hm hg : hash_impl.
  Notation ctx := (pkctx hm hg).

  (** rsassa-pss-sign.c:152-160 = rsassa-pkcs1-v1_5-sign.c:146-154: the octets of the w1 buffer afterwards (M, the result of
      rsa_fastdec, is w2; w1 holds C until it is overwritten) *)
  Definition sign_maths (x : ctx) (wf : nat) (k : rsa_priv) (em : list Z) : list Z :=
    let C := vlong_OS2IP (pk_w x) (firstn (em_len hm hg x) em) in
    let M := rsa_fastdec (pk_w x) wf k C in
    vlong_I2OSP M (em_len hm hg x) ++ skipn (em_len hm hg x) (vlong_EncLSB C (4 * pk_w x)).

  (** rsassa-pss-sign.c:38-52 and 54-79 (Sign; IncSign_Init, updates, IncSign_Final), then 80-162: the new status and the
      octets of the w1 buffer; [hc] has absorbed the message, [w1] and [w2] are the stale octets of the buffers *)
  Definition RSASSA_PSS_Sign (x : ctx) (wf : nat) (k : rsa_priv) (hc : hi_ctx hm) (salt w1 w2 : list Z) : Z * list Z :=
    match pss_sign_em hm hg x hc salt w2 with
    | None => (-1, w1)
    | Some em => (1, sign_maths x wf k em)
    end.

  (** rsassa-pkcs1-v1_5-sign.c:38-170; [oid]: the row of HashOIDs_Table that is found *)
  Definition RSAEncryptionWithHash_Sign (oid : option (list Z * nat)) (x : ctx) (wf : nat) (k : rsa_priv) (hc : hi_ctx hm) (w1 w2 : list Z) : Z * list Z :=
    match oid with
    | None => (-1, w1)
    | Some (pre, dl) =>
      if (em_len hm hg x <? length pre + dl + 11)%nat then (-1, w1)
      else (1, sign_maths x wf k (v15_em hm hc pre dl (em_len hm hg x) w2))
    end.

  (** rsassa-pss-sign.c:7-34 = rsassa-pkcs1-v1_5-sign.c:7-34: what *siglen is set to, and the octets copied into a buffer of
      [siglen] octets (None: NULL).  The status is not looked at. *)
  Definition Encode_Signature_len (x : ctx) : nat := ((pk_bits x + 7) / 8)%nat.
  Definition Encode_Signature (x : ctx) (w1 : list Z) (siglen : nat) : option (list Z) :=
    if (siglen <? (pk_bits x + 7) / 8)%nat then None else Some (firstn ((pk_bits x + 7) / 8) w1).
End S.
