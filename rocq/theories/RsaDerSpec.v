(** Specification: the DER encodings (X.690) of RSA keys, RFC 8017 appendix A.1.  Independent of the model in RsaDer.v. *)
From Verif Require Import Base.

(** X.690 8.1.3, 10.1: the length in the fewest octets *)
Definition der_len (n : Z) : list Z :=
  if n <? 128 then [n] else let k := (Z.log2 n / 8 + 1)%Z in (128 + k) :: be_bytes (Z.to_nat k) n.
Definition der_tlv (t : Z) (c : list Z) : list Z := t :: der_len (Z.of_nat (length c)) ++ c.
(** X.690 8.3: a non-negative INTEGER: two's complement, in the fewest octets *)
Definition der_int (v : Z) : list Z := der_tlv 2 (be_bytes (Z.to_nat ((Z.log2 v + 1) / 8 + 1)) v).
(** X.690 8.9: SEQUENCE *)
Definition der_seq (c : list Z) : list Z := der_tlv 0x30 c.

(** RFC 8017, A.1.1 *)
Definition der_RSAPublicKey (n e : Z) : list Z := der_seq (der_int n ++ der_int e).
(** RFC 8017, A.1.2; version 0 for two primes and 1 for more *)
Record rsa_key := { k_n : Z; k_e : Z; k_d : Z; k_p : Z; k_q : Z; k_dP : Z; k_dQ : Z; k_qInv : Z; k_other : list (Z * Z * Z) }.
Definition der_OtherPrimeInfo (o : Z * Z * Z) : list Z := let '(r, d, t) := o in der_seq (der_int r ++ der_int d ++ der_int t).
Definition der_RSAPrivateKey (k : rsa_key) : list Z :=
  der_seq (der_int (match k_other k with [] => 0 | _ => 1 end) ++ der_int (k_n k) ++ der_int (k_e k) ++ der_int (k_d k) ++
    der_int (k_p k) ++ der_int (k_q k) ++ der_int (k_dP k) ++ der_int (k_dQ k) ++ der_int (k_qInv k) ++
    match k_other k with [] => [] | os => der_seq (concat (map der_OtherPrimeInfo os)) end).
