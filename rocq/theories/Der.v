(** Models of src/1-integers/vlong-dat.c and src/2-asn1/der-codec.c. *)
From Verif Require Import Base Vlong.

(** Outcome of a C function on untrusted input: [UB] when it would read outside
    the buffer (or shift by the full width), [Ret x] when it returns. *)
Inductive res (A : Type) : Type := UB : res A | Ret : A -> res A.
Arguments UB {A}.
Arguments Ret {A} _.

(* ---------------- vlong-dat.c ---------------- *)

(** vlong-dat.c:5-17, vlong_topbit; requires x->c >= 1. *)
Fixpoint topbit_scan (x : list Z) (i : nat) : nat :=   (* "for(i=x->c; --i; ) if( x->v[i] ) break;" *)
  match i with
  | O => O
  | S i' => match i' with
            | O => O
            | _ => if nthZ i' x =? 0 then topbit_scan x i' else i'
            end
  end.
Fixpoint bits_loop (fuel : nat) (bits i : Z) : Z :=    (* "while( bits ) i++, bits >>= 1;" *)
  match fuel with
  | O => i
  | S f => if bits =? 0 then i else bits_loop f (Z.shiftr bits 1) (i + 1)
  end.
Definition vlong_topbit (x : list Z) : Z :=
  let i := topbit_scan x (length x) in
  bits_loop 32 (nthZ i x) (Z.of_nat i * 32).

(** The accumulation loop shared by vlong_OS2IP (vlong-dat.c:34-38),
    vlong_DecLSB (89-93) and ber_tlv_decode_integer (der-codec.c:370-374, where
    the break never fires): v[i/4] |= (uint32_t)octet(i) << (i*8 % 32). *)
Fixpoint dec_loop (get : nat -> Z) (vl : list Z) (i k : nat) : list Z :=
  match k with
  | O => vl
  | S k' =>
      if (length vl * 4 <=? i)%nat then vl
      else dec_loop get
             (upd (i / 4) (Z.lor (nthZ (i / 4) vl) (u32 (Z.shiftl (get i) (Z.of_nat (i * 8 mod 32))))) vl)
             (S i) k'
  end.

(** vlong-dat.c:19-39; [c] = vl->c. *)
Definition vlong_OS2IP (c : nat) (os : list Z) : list Z :=
  dec_loop (fun i => nthZ (length os - i - 1) os) (repeat 0 c) 0 (length os).

(** vlong-dat.c:79-94 *)
Definition vlong_DecLSB (c : nat) (os : list Z) : list Z :=
  dec_loop (fun i => nthZ i os) (repeat 0 c) 0 (length os).

(** vlong-dat.c:63-77: octet i is (uint8_t)(v[i/4] >> (i*8 % 32)), 0 past the words. *)
Definition vlong_EncLSB (vl : list Z) (len : nat) : list Z :=
  map (fun i => if (length vl * 4 <=? i)%nat then 0
                else u8 (Z.shiftr (nthZ (i / 4) vl) (Z.of_nat (i * 8 mod 32)))) (seq 0 len).

(** vlong-dat.c:41-61: same octets stored at len-i-1. *)
Definition vlong_I2OSP (vl : list Z) (len : nat) : list Z :=
  map (fun p => let i := (len - p - 1)%nat in
                if (length vl * 4 <=? i)%nat then 0
                else u8 (Z.shiftr (nthZ (i / 4) vl) (Z.of_nat (i * 8 mod 32)))) (seq 0 len).

(* ---------------- der-codec.c: reading ---------------- *)

Definition TAG_FAIL : Z := 2 ^ 32 - 1.
Definition LEN_FAIL : Z := 2 ^ 64 - 1.

(** der-codec.c:29-40: continuation octets; [k] = how many more may be read
    (p - *buf < 4). The result is the tag and the remaining input. *)
Fixpoint get_tag_loop (cls tag : Z) (buf : list Z) (k : nat) : Z * list Z :=
  match k, buf with
  | S k', b :: p =>
      let tag := Z.lor (u32 (Z.shiftl tag 7)) (Z.land b 127) in
      if Z.land b 128 =? 0
      then (Z.lor tag (Z.lor (2 ^ 31) (u32 (Z.shiftl cls 29))), p)
      else get_tag_loop cls tag p k'
  | _, _ => (TAG_FAIL, buf)
  end.

(** der-codec.c:5-47, ber_get_tag: reads *p unconditionally. *)
Definition ber_get_tag (buf : list Z) : res (Z * list Z) :=
  match buf with
  | [] => UB
  | b :: p =>
      let cls := Z.shiftr b 6 in
      let tag := Z.land b 31 in
      if tag <? 31 then Ret (Z.lor tag (Z.lor (2 ^ 31) (u32 (Z.shiftl cls 29))), p)
      else Ret (get_tag_loop cls 0 p 3)
  end.

(** der-codec.c:75-79 *)
Fixpoint get_len_loop (s : nat) (ret : Z) (buf : list Z) : Z * list Z :=
  match s, buf with
  | S s', b :: p => get_len_loop s' (Z.lor (u64 (Z.shiftl ret 8)) b) p
  | _, _ => (ret, buf)
  end.

(** der-codec.c:49-84, ber_get_len: reads *p unconditionally; on failure the
    pointer is left after the first octet. *)
Definition ber_get_len (buf : list Z) : res (Z * list Z) :=
  match buf with
  | [] => UB
  | b :: p =>
      if b <? 128 then Ret (b, p)
      else let s := Z.land b 127 in
           if (8 <? s) || (Z.of_nat (length p) <? s) then Ret (LEN_FAIL, p)
           else Ret (get_len_loop (Z.to_nat s) 0 p)
  end.

(** der-codec.c:86-94, ber_get_hdr: [None] is the -1 return. *)
Definition ber_get_hdr (buf : list Z) : res (option (Z * Z * list Z)) :=
  match ber_get_tag buf with
  | UB => UB
  | Ret (tag, p) =>
      if tag =? TAG_FAIL then Ret None
      else match ber_get_len p with
           | UB => UB
           | Ret (len, q) =>
               if len =? LEN_FAIL then Ret None
               else if Z.of_nat (length q) <? len then Ret None
               else Ret (Some (tag, len, q))
           end
  end.

(* ---------------- der-codec.c: writing ---------------- *)

(** der-codec.c:96-120, ber_push_len: octets in memory order (the stack grows
    down, so each push conses).  [fuel] bounds the "while( val )" loop. *)
Fixpoint push_len_loop (fuel : nat) (val : Z) (stack : list Z) (ret : Z) : list Z * Z :=
  match fuel with
  | O => (stack, ret)
  | S f => if val =? 0 then (stack, ret)
           else push_len_loop f (Z.shiftr val 8) (u8 val :: stack) (ret + 1)
  end.
Definition ber_push_len (stack : list Z) (val : Z) : list Z * Z :=
  if val <? 128 then (val :: stack, 1)
  else let '(st, ret) := push_len_loop 8 val stack 0 in
       (u8 (Z.lor 128 ret) :: st, ret + 1).

(** der-codec.c:245-272, ber_put_len: octets written at buf (their number is the
    return value).  "val >> (8*ret)" with 8*ret = 64 is undefined. *)
Fixpoint put_len_count (fuel : nat) (val ret : Z) : res Z :=
  match fuel with
  | O => UB
  | S f => if 64 <=? 8 * ret then UB
           else if 0 <? Z.shiftr val (8 * ret) then put_len_count f val (ret + 1) else Ret ret
  end.
Definition ber_put_len (val : Z) : res (list Z) :=
  if val <? 128 then Ret [val]
  else match put_len_count 9 val 0 with
       | UB => UB
       | Ret ret =>
           Ret (u8 (Z.lor 128 ret) ::
                map (fun j => u8 (Z.shiftr val (8 * (ret - 1 - Z.of_nat j)))) (seq 0 (Z.to_nat ret)))
       end.

(** der-codec.c:124-125, 187-188 *)
Definition tagflags (val pc : Z) : Z :=
  u8 (Z.shiftl (Z.lor (Z.land 6 (Z.shiftr val 28)) (Z.land pc 1)) 5).
Definition tagnum (val : Z) : Z := Z.land val (2 ^ 28 - 1).

(** der-codec.c:185-243, ber_put_tag. *)
Definition ber_put_tag (val pc : Z) : list Z :=
  let fl := tagflags val pc in
  let v := tagnum val in
  if v <? 2 ^ 5 then [Z.lor fl v]
  else if v <? 2 ^ 7 then [Z.lor fl 31; v]
  else if v <? 2 ^ 14 then [Z.lor fl 31; Z.lor (Z.land 127 (Z.shiftr v 7)) 128; Z.land 127 v]
  else if v <? 2 ^ 21 then
    [Z.lor fl 31; Z.lor (Z.land 127 (Z.shiftr v 14)) 128; Z.lor (Z.land 127 (Z.shiftr v 7)) 128; Z.land 127 v]
  else if v <? 2 ^ 28 then
    [Z.lor fl 31; Z.lor (Z.land 127 (Z.shiftr v 21)) 128; Z.lor (Z.land 127 (Z.shiftr v 14)) 128;
     Z.lor (Z.land 127 (Z.shiftr v 7)) 128; Z.land 127 v]
  else [].

(** der-codec.c:122-183, ber_push_tag: pushes in reverse order. *)
Definition ber_push_tag (stack : list Z) (val pc : Z) : list Z :=
  let fl := tagflags val pc in
  let v := tagnum val in
  let push x s := x :: s in
  if v <? 2 ^ 5 then push (Z.lor fl v) stack
  else if v <? 2 ^ 7 then push (Z.lor fl 31) (push v stack)
  else if v <? 2 ^ 14 then
    push (Z.lor fl 31) (push (Z.lor (Z.land 127 (Z.shiftr v 7)) 128) (push (Z.land 127 v) stack))
  else if v <? 2 ^ 21 then
    push (Z.lor fl 31) (push (Z.lor (Z.land 127 (Z.shiftr v 14)) 128)
      (push (Z.lor (Z.land 127 (Z.shiftr v 7)) 128) (push (Z.land 127 v) stack)))
  else if v <? 2 ^ 28 then
    push (Z.lor fl 31) (push (Z.lor (Z.land 127 (Z.shiftr v 21)) 128)
      (push (Z.lor (Z.land 127 (Z.shiftr v 14)) 128)
        (push (Z.lor (Z.land 127 (Z.shiftr v 7)) 128) (push (Z.land 127 v) stack))))
  else stack.

(* ---------------- der-codec.c: splice ---------------- *)

(** der-codec.c:312-317, the rotating copy; written so that the last of the n
    steps is step n-1 (same order as the ascending C loop). *)
Fixpoint splice_copy (dst swap src n : nat) (buf : list Z) : list Z :=
  match n with
  | O => buf
  | S i =>
      let buf := splice_copy dst swap src i buf in
      let save := nthZ (src + i) buf in
      let buf := upd (swap + i) (nthZ (dst + i) buf) buf in
      upd (dst + i) save buf
  end.

(** der-codec.c:303-349; base/offset are absolute indices into buf.
    None = the iteration budget ran out (excluded by the theorem). *)
Fixpoint splice_loop (fuel base len1 offset len2 : nat) (buf : list Z) : option (list Z) :=
  match fuel with
  | O => None
  | S f =>
      let copy_remain := if (len1 <? len2)%nat then len1 else len2 in
      if Nat.eqb copy_remain 0 then Some buf
      else
        let buf := splice_copy base (base + len1) offset copy_remain buf in
        if (len2 <? len1)%nat
        then splice_loop f (base + copy_remain) (len1 - copy_remain) (len1 + base) copy_remain buf
        else splice_loop f (base + copy_remain) copy_remain (offset + copy_remain) (len2 - copy_remain) buf
  end.

(** der-codec.c:296-297: "for(i=0; i<len2; i++) base[i] = base[i + offset];" *)
Fixpoint splice_move (offset n : nat) (buf : list Z) : list Z :=
  match n with
  | O => buf
  | S i => let buf := splice_move offset i buf in upd i (nthZ (i + offset) buf) buf
  end.

(** der-codec.c:274-350 *)
Definition ber_util_splice_insert (buf : list Z) (len1 offset len2 : nat) : option (list Z) :=
  if Nat.eqb len1 0 then Some (splice_move offset len2 buf)
  else splice_loop (len1 + len2 + 1) 0 len1 offset len2 buf.

(* ---------------- der-codec.c: INTEGER ---------------- *)

(** der-codec.c:352-377; the vlong_t gets VLONG_BYTES_WCNT(enclen) =
    2 + (enclen+4)/4 words (vlong.h:37). *)
Definition ber_tlv_decode_integer (enc : list Z) : list Z :=
  dec_loop (fun i => nthZ (length enc - i - 1) enc)
           (repeat 0 (2 + (length enc + 4) / 4)) 0 (length enc).

(** der-codec.c:393-401 = 429-437: number of contents octets. *)
Definition below (x k : Z) : Z := if x <? 2 ^ k then 1 else 0.
Fixpoint int_octets_loop (w : list Z) (i : nat) (ret : Z) : Z :=
  match i with
  | O => ret
  | S i' =>
      let x := nthZ i' w in
      let ret := ret - below x 31 - below x 23 - below x 15 - below x 7 in
      if x =? 0 then int_octets_loop w i' ret else ret
  end.
Definition int_octets (w : list Z) : nat :=
  Z.to_nat (int_octets_loop w (length w) (Z.of_nat (length w) * 4 + 1)).

(** der-codec.c:379-415 (enc non-NULL): the contents octets. *)
Definition ber_tlv_encode_integer (w : list Z) : list Z :=
  let ret := int_octets w in
  map (fun i => let u := (ret - i - 1)%nat in
                let v := ((u mod 4) * 8)%nat in
                let u := (u / 4)%nat in
                if (u <? length w)%nat then u8 (Z.shiftr (nthZ u w) (Z.of_nat v)) else 0) (seq 0 ret).

(** der-codec.c:417-457 (enc non-NULL, [enclen] octets available):
    None = returns -1; otherwise the octets written from enc on. *)
Definition ber_tlv_put_integer (w : list Z) (enclen : Z) : res (option (list Z)) :=
  let ret := int_octets w in
  let tag := ber_put_tag (2 ^ 31 + 2) 0 in
  match ber_put_len (Z.of_nat ret) with
  | UB => UB
  | Ret lenb =>
      let hdr := Z.of_nat (length tag) + Z.of_nat (length lenb) in
      if enclen <? Z.of_nat ret + hdr then Ret None
      else Ret (Some (tag ++ lenb ++ ber_tlv_encode_integer w))
  end.
