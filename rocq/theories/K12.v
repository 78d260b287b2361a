(** Model of src/2-hash/KangarooTwelve.c and .h.
    Simplifications: the field [me] of a node is its index and [hashed] is never read; the 200-octet state
    follows sponge_t as in Sponge.v, whose second block does not exist here ([sp_saved] is unused); the jobs
    given to the thread crew run each once, one after the other, in the order that [sched] makes of the
    enqueued ones (each works on its own node); [None] is a failed assert, an access outside of an array or a
    shift of an int beyond its width.  The chunk size [B] (8192) and the node count [NN] (64) are parameters,
    fixed at the end. *)
From Verif Require Import Base Hash Sponge.

(** KangarooTwelve.h:22-27 *)
Record knode := KN { kn_filled : nat; kn_buf : list Z }.
(** KangarooTwelve.h:38-51 *)
Record k12 := K12C { k_nodes : list knode; k_sp : sponge; k_total : Z; k_clen : Z; k_infilled : nat; k_fin : bool }.

(** a chain of operations any of which may fail *)
Fixpoint try_fold {X A} (f : X -> A -> option X) (l : list A) (x : X) : option X :=
  match l with
  | [] => Some x
  | a :: l => match f x a with Some x => try_fold f l x | None => None end
  end.

(** KangarooTwelve.c:211, 240: while( l < 8 && n >= (1 << (l << 3)) ) l++;  1 << k for an int is undefined
    from k = 31 on. *)
Fixpoint k12_lenloop (fuel : nat) (n l : Z) : option Z :=
  match fuel with
  | O => Some l
  | S f => if l <? 8 then
             if 31 <=? Z.shiftl l 3 then None
             else if Z.shiftl 1 (Z.shiftl l 3) <=? n then k12_lenloop f n (l + 1) else Some l
           else Some l
  end.
(** KangarooTwelve.c:213-218, 242-247: the octets fed by the loop on b and after it *)
Definition k12_lenoctets (n l : Z) : list Z :=
  map (fun b => wrap 8 (Z.shiftr n (Z.shiftl (Z.of_nat b) 3))) (rev (seq 0 (Z.to_nat l))) ++ [l].

Section K12.
  Variables (B NN : nat).              (* 8192; KangarooTwelve.h:33: K12_NODES_COUNT = 64 *)
  Variable p : list Z -> list Z.       (* sponge.permute *)
  Variable sched : Z -> list nat -> list nat.

  (** KangarooTwelve.c:54-61 *)
  Definition init1inode : knode := KN 0 (repeat 0 B).
  (** KangarooTwelve.c:63-81, 93-111 *)
  Definition KT_Init (rate : nat) : k12 :=
    K12C (repeat init1inode NN) (SPONGE_INIT 200 rate 0x07 0x80) 0 0 0 false.

  (** KangarooTwelve.c:16-33, 35-52 *)
  Definition hash1inode (rate : nat) (node : knode) : knode :=
    let s := SPONGE_INIT 200 rate 0x0B 0x80 in
    let cvsize := (200 - rate)%nat in
    let s := Sponge_Update p s (firstn (kn_filled node) (kn_buf node)) in
    let s := Sponge_Final p s in
    let '(_, cv) := Sponge_Read p s cvsize in
    KN cvsize (cv ++ skipn cvsize (kn_buf node)).
  (** KangarooTwelve.c:113-123 *)
  Definition job_leaf2cv (rate : nat) (nodes : list knode) (i : nat) : list knode :=
    upd i (hash1inode rate (nth i nodes (KN 0 []))) nodes.
  (** KangarooTwelve.c:125-136 *)
  Definition cv2final (x : k12) : k12 :=
    let todo := firstn (k_infilled x) (k_nodes x) in
    K12C (map (fun _ => init1inode) todo ++ skipn (k_infilled x) (k_nodes x))
         (fold_left (fun s node => Sponge_Update p s (firstn (kn_filled node) (kn_buf node))) todo (k_sp x))
         (k_total x) (k_clen x) 0 (k_fin x).
  (** KangarooTwelve.c:180-190, 229-235: enqueue for each filled node, wait, collect *)
  Definition k12_flush (x : k12) : k12 :=
    let nodes := fold_left (job_leaf2cv (sp_rate (k_sp x))) (sched (k_total x) (seq 0 (k_infilled x))) (k_nodes x) in
    cv2final (K12C nodes (k_sp x) (k_total x) (k_clen x) (k_infilled x) (k_fin x)).

  (** KangarooTwelve.c:164-191: one octet into the current node *)
  Definition k12_push (x : k12) (c : Z) : option k12 :=
    match nth_error (k_nodes x) (k_infilled x) with
    | None => None
    | Some node =>
      if (length (kn_buf node) <=? kn_filled node)%nat then None else
      let node := KN (kn_filled node + 1) (upd (kn_filled node) c (kn_buf node)) in
      if negb (kn_filled node <=? B)%nat then None else
      let f := (if (kn_filled node =? B)%nat then k_infilled x + 1 else k_infilled x)%nat in
      let x := K12C (upd (k_infilled x) node (k_nodes x)) (k_sp x) (u64 (k_total x + 1)) (k_clen x) f (k_fin x) in
      if negb (f <=? NN)%nat then None else
      Some (if (f =? NN)%nat then k12_flush x else x)
    end.

  (** KangarooTwelve.c:138-192.  The first loop is left after one round: then len = 0 or total = 8192. *)
  Definition K12_Update4 (x : k12) (dat : list Z) : option k12 :=
    let ulen := if k_total x <? Z.of_nat B
                then if Z.of_nat B <? Z.of_nat (length dat) + k_total x then (B - Z.to_nat (k_total x))%nat else length dat
                else 0%nat in
    let x := K12C (k_nodes x) (Sponge_Update p (k_sp x) (firstn ulen dat)) (u64 (k_total x + Z.of_nat ulen))
                  (k_clen x) (k_infilled x) (k_fin x) in
    let rest := skipn ulen dat in
    let x := match rest with
             | [] => x
             | _ => if k_total x =? Z.of_nat B then
                      let s := k_sp x in
                      let s := Sp (sp_rate s) 0x06 (sp_hipad s) (sp_finalized s) (sp_filled s) (sp_state s) (sp_saved s) in
                      K12C (k_nodes x) (Sponge_Update p s [3; 0; 0; 0; 0; 0; 0; 0]) (k_total x) (k_clen x) (k_infilled x) (k_fin x)
                    else x
             end in
    try_fold k12_push rest x.

  (** KangarooTwelve.c:299-303: K12_Xctrl with K12_cmd_Feed_CStr *)
  Definition K12_Feed_CStr (x : k12) (dat : list Z) : option k12 :=
    K12_Update4 (K12C (k_nodes x) (k_sp x) (k_total x) (u64 (k_clen x + Z.of_nat (length dat))) (k_infilled x) (k_fin x)) dat.

  (** KangarooTwelve.c:256-265 *)
  Definition k12_finish (x : k12) : k12 :=
    let s := Sponge_Final p (k_sp x) in
    let nodes := match k_nodes x with
                 | [] => []
                 | n :: r => KN (kn_filled n) (firstn 200 (sp_state s) ++ skipn 200 (kn_buf n)) :: r
                 end in
    K12C nodes s (k_total x) (k_clen x) (k_infilled x) true.

  (** KangarooTwelve.c:194-265 *)
  Definition K12_Final2 (x : k12) : option k12 :=
    if k_fin x then Some x else
    match k12_lenloop 9 (k_clen x) 0 with
    | None => None
    | Some l =>
      match try_fold (fun x c => K12_Update4 x [c]) (k12_lenoctets (k_clen x) l) x with
      | None => None
      | Some x =>
        if k_total x <=? Z.of_nat B then Some (k12_finish x) else
        match nth_error (k_nodes x) (k_infilled x) with
        | None => None
        | Some node =>
          let f := (if (0 <? kn_filled node)%nat then k_infilled x + 1 else k_infilled x)%nat in
          let x := k12_flush (K12C (k_nodes x) (k_sp x) (k_total x) (k_clen x) f (k_fin x)) in
          let n := u64 (u64 (k_total x + (Z.of_nat B - 1)) / Z.of_nat B - 1) in
          match k12_lenloop 9 n 0 with
          | None => None
          | Some l =>
            let s := Sponge_Update p (k_sp x) (k12_lenoctets n l) in
            let s := Sponge_Update p (Sponge_Update p s [0xff]) [0xff] in
            Some (k12_finish (K12C (k_nodes x) s (k_total x) (k_clen x) (k_infilled x) (k_fin x)))
          end
        end
      end
    end.

  (** KangarooTwelve.c:267-285 *)
  Definition K12_Read4 (x : k12) (len : nat) (rewind : bool) : k12 * list Z :=
    let s := k_sp x in
    let s := if rewind
             then Sp (sp_rate s) (sp_lopad s) (sp_hipad s) (sp_finalized s) 0
                     (firstn 200 (kn_buf (nth 0 (k_nodes x) (KN 0 [])))) (sp_saved s)
             else s in
    let '(s, out) := Sponge_Read p s len in
    (K12C (k_nodes x) s (k_total x) (k_clen x) (k_infilled x) (k_fin x), out).
End K12.

(** KangarooTwelve.h:26, 33 *)
Definition k12_bufsize : nat := Z.to_nat 8192.
Definition K12_NODES_COUNT : nat := 64.
(** KangarooTwelve.c:83-91 *)
Definition KT128_Init : k12 := KT_Init k12_bufsize K12_NODES_COUNT 168.
Definition KT256_Init : k12 := KT_Init k12_bufsize K12_NODES_COUNT 136.
(** KangarooTwelve.c:93-111 *)
Definition MarsupilamiFourteen_Init : k12 := KT_Init k12_bufsize K12_NODES_COUNT 136.
