(** Specification of RSAES-OAEP and RSAES-PKCS1-v1_5 encodings (RFC 8017, 7.1 and 7.2), independent of the model. *)
From Verif Require Import Base.

(** 7.1.1 step 2: EM = 00 || maskedSeed || maskedDB for the label hash lHash, the seed and the message M. *)
Definition eme_oaep (mgf : list Z -> nat -> list Z) (k : nat) (lHash seed M : list Z) : list Z :=
  let hLen := length lHash in
  let DB := lHash ++ repeat 0 (k - length M - 2 * hLen - 2) ++ [1] ++ M in
  let maskedDB := xorb_list DB (mgf seed (k - hLen - 1)%nat) in
  let maskedSeed := xorb_list seed (mgf maskedDB hLen) in
  [0] ++ maskedSeed ++ maskedDB.
(** EM is an OAEP encoding of M, of k octets, with the given label hash. *)
Definition oaep_of (mgf : list Z -> nat -> list Z) (k : nat) (lHash M EM : list Z) : Prop :=
  (length M + 2 * length lHash + 2 <= k)%nat /\ bytes_ok M /\
  exists seed, length seed = length lHash /\ bytes_ok seed /\ EM = eme_oaep mgf k lHash seed M.

(** 7.2.1 step 2: EM = 00 || 02 || PS || 00 || M, PS of at least eight nonzero octets. *)
Definition v15_of (k : nat) (M EM : list Z) : Prop :=
  bytes_ok M /\ exists PS, (8 <= length PS)%nat /\ bytes_ok PS /\ Forall (fun b => b <> 0) PS /\
    EM = [0; 2] ++ PS ++ [0] ++ M /\ length EM = k.
