(** Specifications: HMAC (RFC 2104 / FIPS 198-1), CMAC (SP 800-38B) and HMAC_DRBG
    (SP 800-90A 10.1.2).  Independent of the model. *)
From Verif Require Import Base.

(** RFC 2104 2, for keys of at most B octets. *)
Definition key_block (B : nat) (K : list Z) : list Z := K ++ repeat 0 (B - length K).
Definition rfc_hmac (H : list Z -> list Z) (B : nat) (K m : list Z) : list Z :=
  H (map (Z.lxor 0x5c) (key_block B K) ++ H (map (Z.lxor 0x36) (key_block B K) ++ m)).

(** SP 800-38B 6.1: subkeys, on 128-bit numbers. *)
Definition dbl128 (x : Z) : Z := Z.lxor ((2 * x) mod 2 ^ 128) (if 2 ^ 127 <=? x then 0x87 else 0).
Definition cmac_k1 (E : list Z -> list Z) : list Z := be_bytes 16 (dbl128 (be_val (E (repeat 0 16)))).
Definition cmac_k2 (E : list Z -> list Z) : list Z := be_bytes 16 (dbl128 (be_val (cmac_k1 E))).
(** 6.2: cut m into 16-octet blocks M_1 .. M_n (n >= 1), the last xored with K1 if complete,
    else padded with 10..0 and xored with K2; C_i = E(C_{i-1} xor M_i). *)
Fixpoint cmac_chain (E : list Z -> list Z) (fuel : nat) (C m : list Z) : list Z :=
  match fuel with
  | O => C
  | S fuel =>
    if (16 <? length m)%nat then cmac_chain E fuel (E (xorb_list C (firstn 16 m))) (skipn 16 m)
    else if (length m =? 16)%nat then E (xorb_list C (xorb_list (cmac_k1 E) m))
    else E (xorb_list C (xorb_list (cmac_k2 E) (m ++ 128 :: repeat 0 (15 - length m))))
  end.
Definition nist_cmac (E : list Z -> list Z) (m : list Z) : list Z := cmac_chain E (S (length m)) (repeat 0 16) m.

(** SP 800-90A 10.1.2; the state is (Key, V); [mac K d] is HMAC with outputs of L octets. *)
Section Drbg.
  Variables (mac : list Z -> list Z -> list Z) (L : nat).
  (** 10.1.2.2 *)
  Definition drbg_update (data : list Z) (KV : list Z * list Z) : list Z * list Z :=
    let '(K, V) := KV in
    let K := mac K (V ++ [0] ++ data) in
    let V := mac K V in
    match data with
    | [] => (K, V)
    | _ => let K := mac K (V ++ [1] ++ data) in
           let V := mac K V in
           (K, V)
    end.
  (** 10.1.2.3 *)
  Definition drbg_instantiate (seed : list Z) : list Z * list Z := drbg_update seed (repeat 0 L, repeat 1 L).
  (** 10.1.2.4 *)
  Definition drbg_reseed (KV : list Z * list Z) (seed : list Z) : list Z * list Z := drbg_update seed KV.
  (** 10.1.2.5, step 4: iterates of V = mac K V; temp is their concatenation. *)
  Fixpoint drbg_iter (K V : list Z) (n : nat) : list Z * list Z :=   (* (V, temp) after n rounds *)
    match n with
    | O => (V, [])
    | S n => let '(V', temp) := drbg_iter K V n in let V'' := mac K V' in (V'', temp ++ V'')
    end.
  Definition drbg_generate (KV : list Z * list Z) (len : nat) : (list Z * list Z) * list Z :=
    let '(K, V) := KV in
    let '(V, temp) := drbg_iter K V ((len + L - 1) / L) in
    (drbg_update [] (K, V), firstn len temp).
End Drbg.
