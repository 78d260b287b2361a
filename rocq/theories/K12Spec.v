(** Specification: TurboSHAKE, KangarooTwelve (RFC 9861: KT128, KT256) and MarsupilamiFourteen.
    Independent of the model in K12.v. *)
From Verif Require Import Base HashSpec SpongeSpec.

(** RFC 9861, 2.2: TurboSHAKE on Keccak-p[1600,nr]: the message followed by the domain octet D,
    filled with zeros to a multiple of the rate, the last octet xored with 0x80.  The i-th octet of its output. *)
Definition turboshake (nr rate : nat) (D : Z) (m : list Z) (i : nat) : Z :=
  sponge_stream (keccak_p nr) 200 rate D 0x80 m i.
(** RFC 9861, 3.3: length_encode(x): the octets of x in base 256, most significant first, none for 0;
    then their count. *)
Fixpoint base256 (fuel : nat) (x : Z) : list Z :=
  match fuel with
  | O => []
  | S f => if x =? 0 then [] else base256 f (x / 256) ++ [x mod 256]
  end.
Definition length_encode (x : Z) : list Z :=
  let l := base256 255 x in l ++ [Z.of_nat (length l)].
(** S cut into pieces of B octets, the last one 1 to B (one empty piece if S is empty). *)
Fixpoint pieces_of (fuel B : nat) (s : list Z) : list (list Z) :=
  match fuel with
  | O => [s]
  | S f => if (length s <=? B)%nat then [s] else firstn B s :: pieces_of f B (skipn B s)
  end.
Definition k12_chunk : nat := Z.to_nat 8192.
(** RFC 9861, 3.2: S = M || C || length_encode(|C|), n chunks S_0 .. S_(n-1);
    one chunk: TurboSHAKE(S, 0x07); otherwise the final node is
    S_0 || 03 00 00 00 00 00 00 00 || CV_1 || ... || CV_(n-1) || length_encode(n-1) || FF FF,
    CV_i = the first cv octets of TurboSHAKE(S_i, 0x0B), and the result TurboSHAKE(final node, 0x06). *)
Definition kt_cv (nr rate : nat) (s : list Z) : list Z := map (turboshake nr rate 0x0B s) (seq 0 (200 - rate)).
Definition kt_stream_of (nr rate B : nat) (s : list Z) (i : nat) : Z :=
  match pieces_of (length s) B s with
  | s0 :: s1 :: more =>
    turboshake nr rate 0x06
      (s0 ++ [3; 0; 0; 0; 0; 0; 0; 0] ++ concat (map (kt_cv nr rate) (s1 :: more))
          ++ length_encode (Z.of_nat (length (s1 :: more))) ++ [0xff; 0xff]) i
  | _ => turboshake nr rate 0x07 s i
  end.
Definition kt_stream (nr rate : nat) (M C : list Z) (i : nat) : Z :=
  kt_stream_of nr rate k12_chunk (M ++ C ++ length_encode (Z.of_nat (length C))) i.
Definition KT128 (M C : list Z) (from n : nat) : list Z := map (kt_stream 12 168 M C) (seq from n).
Definition KT256 (M C : list Z) (from n : nat) : list Z := map (kt_stream 12 136 M C) (seq from n).
Definition M14 (M C : list Z) (from n : nat) : list Z := map (kt_stream 14 136 M C) (seq from n).
