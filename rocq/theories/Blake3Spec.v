(** Specification of BLAKE3 (section 2 of the paper), hash and keyed-hash modes, on octet strings. *)
From Verif Require Import Base HashSpec BlakeSpec.

(** 2.2 and table 1: the IV; table 2: the message permutation; table 3: the flags. *)
Definition B3_IV : list Z := b2_IV BLAKE2s.
Definition B3_PERM : list nat := [2; 6; 3; 10; 7; 0; 4; 13; 1; 11; 12; 5; 9; 14; 15; 8]%nat.
Definition CHUNK_START : Z := 1.
Definition CHUNK_END : Z := 2.
Definition PARENT : Z := 4.
Definition ROOT : Z := 8.
Definition KEYED_HASH : Z := 16.

(** 2.2: seven rounds, the message words permuted after each; sixteen output words. *)
Definition b3_permute (m : list Z) : list Z := map (fun i => nthZ i m) B3_PERM.
Definition b3_rnd (m v : list Z) : list Z := blake_round (blake_G 32 16 12 8 7) (fun i => nthZ i m) v.
Fixpoint b3_iter (permute : list Z -> list Z) (round : list Z -> list Z -> list Z) (k : nat) (m v : list Z) : list Z :=
  match k with
  | O => v
  | S k => b3_iter permute round k (permute m) (round m v)
  end.
Definition b3_rounds : nat -> list Z -> list Z -> list Z := b3_iter b3_permute b3_rnd.
Definition b3_compress (h block : list Z) (t : Z) (blen d : Z) : list Z :=
  let v := b3_rounds 7 (words_le 4 block) (h ++ firstn 4 B3_IV ++ [t mod 2 ^ 32; t / 2 ^ 32; blen; d]) in
  map (fun i => Z.lxor (nthZ i v) (nthZ (i + 8) v)) (seq 0 8) ++ map (fun i => Z.lxor (nthZ (i + 8) v) (nthZ i h)) (seq 0 8).

(** The last compression of a chunk or parent is kept apart, as the root's differs. *)
Record b3_out := { o_cv : list Z; o_block : list Z; o_t : Z; o_len : Z; o_flags : Z }.
Definition b3_cv (o : b3_out) : list Z := firstn 8 (b3_compress (o_cv o) (o_block o) (o_t o) (o_len o) (o_flags o)).
Definition b3_octets (ws : list Z) : list Z := concat (map (le_bytes 4) ws).
Definition b3_pad (d : list Z) : list Z := d ++ repeat 0 (64 - length d).

(** 2.4: a chunk of at most 1024 octets, blocks of 64, the last one (possibly empty) zero-padded. *)
Fixpoint b3_blocks (fuel : nat) (cv data : list Z) (t : Z) (flags start : Z) : b3_out :=
  match fuel with
  | O => {| o_cv := cv; o_block := b3_pad data; o_t := t; o_len := Z.of_nat (length data); o_flags := Z.lor (Z.lor flags start) CHUNK_END |}
  | S fuel =>
    if (length data <=? 64)%nat then {| o_cv := cv; o_block := b3_pad data; o_t := t; o_len := Z.of_nat (length data); o_flags := Z.lor (Z.lor flags start) CHUNK_END |}
    else b3_blocks fuel (firstn 8 (b3_compress cv (firstn 64 data) t 64 (Z.lor flags start))) (skipn 64 data) t flags 0
  end.
Definition b3_chunk (key : list Z) (flags : Z) (t : Z) (data : list Z) : b3_out := b3_blocks 16 key data t flags CHUNK_START.
(** 2.5: a parent node. *)
Definition b3_parent (key : list Z) (flags : Z) (l r : list Z) : b3_out :=
  {| o_cv := key; o_block := b3_octets l ++ b3_octets r; o_t := 0; o_len := 64; o_flags := Z.lor flags PARENT |}.
(** 2.1: n > 1 chunks: the left subtree has the largest power of two of chunks that leaves one for the right. *)
Fixpoint b3_tree (fuel : nat) (key : list Z) (flags : Z) (t : nat) (cs : list (list Z)) : b3_out :=
  match fuel, cs with
  | S fuel, _ :: _ :: _ =>
      let k := (2 ^ Nat.log2 (length cs - 1))%nat in
      b3_parent key flags (b3_cv (b3_tree fuel key flags t (firstn k cs))) (b3_cv (b3_tree fuel key flags (t + k) (skipn k cs)))
  | _, c :: _ => b3_chunk key flags (Z.of_nat t) c
  | _, [] => b3_chunk key flags (Z.of_nat t) []
  end.
(** The chunks of a message: 1024 octets each, the last one 1 to 1024, or a single empty one. *)
Fixpoint b3_chunks (fuel : nat) (m : list Z) : list (list Z) :=
  match fuel with
  | O => [m]
  | S fuel => if (length m <=? 1024)%nat then [m] else firstn 1024 m :: b3_chunks fuel (skipn 1024 m)
  end.
(** 2.6: octet i of the output. *)
Definition b3_root_octet (o : b3_out) (i : nat) : Z :=
  nthZ (i mod 64) (b3_octets (b3_compress (o_cv o) (o_block o) (Z.of_nat (i / 64)) (o_len o) (Z.lor (o_flags o) ROOT))).
(** The hash (no key) and the keyed hash (a key of 32 octets): octets from..from+n-1 of the output. *)
Definition b3_hash (key : option (list Z)) (m : list Z) (from n : nat) : list Z :=
  let cs := b3_chunks (length m) m in
  let o := match key with
           | None => b3_tree (length cs) B3_IV 0 0 cs
           | Some k => b3_tree (length cs) (firstn 8 (words_le 4 k)) KEYED_HASH 0 cs
           end in
  map (b3_root_octet o) (seq from n).
