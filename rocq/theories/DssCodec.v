(** Model of the signature codec shared by ECDSA and SM2 (src/3-ecc-common/ecc-common.c:226-322) and of
    ECDSA_Encode_Signature, ECDSA_Decode_Signature (src/3-sec1/ecdsa.c:454-485), SM2SIG_Encode_Signature,
    SM2SIG_Decode_Signature (src/3-sm2/sm2sig.c:564-580, 608-617; the same text).  [UB]: octets outside of the signature are
    read.  The DER writer is that of the RSA keys (RsaDer.v): the same statements with the other two integers. *)
From Verif Require Import Base Vlong EcMod EcpXyz Der Ecc RsaDer.

(** ecc-common.c:226-274, ber_tlv_ecc_encode_dss_signature *)
Definition ber_tlv_ecc_encode_dss_signature (x : ecc_ctx) (enc : dest) : res (option (nat * dest)) :=
  do '(ret, enc) <- put_ints [e_r x; e_s x] enc 0 0; close_seq 0 ret enc.

Definition set_r (x : ecc_ctx) (r : list Z) : ecc_ctx :=
  {| e_d := e_d x; e_Q := e_Q x; e_k := e_k x; e_R := e_R x; e_r := r; e_s := e_s x; e_status := e_status x |}.
Definition set_s (x : ecc_ctx) (s : list Z) : ecc_ctx :=
  {| e_d := e_d x; e_Q := e_Q x; e_k := e_k x; e_R := e_R x; e_r := e_r x; e_s := s; e_status := e_status x |}.
Definition set_status (x : ecc_ctx) (st : Z) : ecc_ctx :=
  {| e_d := e_d x; e_Q := e_Q x; e_k := e_k x; e_R := e_R x; e_r := e_r x; e_s := e_s x; e_status := st |}.

(** ecc-common.c:280-322, ber_tlv_ecc_decode_dss_signature: whether 0 (true) or -1 (false) is returned, and the context,
    whose registers r and s ([wd] words) are written as the input is read *)
Definition ber_tlv_ecc_decode_dss_signature (wd : nat) (x : ecc_ctx) (sig : list Z) : res (bool * ecc_ctx) :=
  match get_hdr 16 sig with
  | UB => UB
  | Ret None => Ret (false, x)
  | Ret (Some (_, ptr)) =>
    match get_hdr 2 ptr with
    | UB => UB
    | Ret None => Ret (false, x)
    | Ret (Some (len, ptr)) =>
      let x := set_r x (vlong_OS2IP wd (firstn len ptr)) in
      match get_hdr 2 (skipn len ptr) with
      | UB => UB
      | Ret None => Ret (false, x)
      | Ret (Some (len, ptr)) => Ret (true, set_s x (vlong_OS2IP wd (firstn len ptr)))
      end
    end
  end.

(** ecdsa.c:454-470 = sm2sig.c:564-580; [sig] = None: the value stored in *siglen; else the buffer of *siglen octets:
    None for NULL, otherwise its new contents *)
Definition Encode_Signature_len (x : ecc_ctx) : res (option nat) :=
  do '(minlen, _) <- ber_tlv_ecc_encode_dss_signature x None; Ret (Some minlen).
Definition Encode_Signature (x : ecc_ctx) (sig : list Z) : res (option (list Z)) :=
  do '(minlen, _) <- ber_tlv_ecc_encode_dss_signature x None;
  if (length sig <? minlen)%nat then Ret None
  else match ber_tlv_ecc_encode_dss_signature x (Some sig) with
       | Ret (Some (_, Some sig)) => Ret (Some sig)
       | UB => UB
       | _ => Ret (Some sig)   (* the result is not looked at *)
       end.

(** ecdsa.c:476-485 = sm2sig.c:608-617 *)
Definition Decode_Signature (wd : nat) (x : ecc_ctx) (sig : list Z) : res (bool * ecc_ctx) :=
  match ber_tlv_ecc_decode_dss_signature wd x sig with
  | UB => UB
  | Ret (ok, x) => Ret (ok, set_status x 0)
  end.
