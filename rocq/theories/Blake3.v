(** Model of src/2-hash/blake3.c.  Simplifications: nodes is the list of the nodes in the order of
    nind (nodes[nind[0]], nodes[nind[1]], ...), so that bury1node moves a node to the end; [me] is not
    kept, it only serves to find x and the array from the node; x->k holds words; heights and
    counts are natural numbers (heights stay below 64); hash1node's jobs are run one after the
    other, in the order that [sched] makes of the enqueued ones (each works on its own node). *)
From Verif Require Import Base Blake2.
From Verif Require Import Hash.

(** blake3.h:11-22 *)
Record b3_node := { n_hashed : bool; n_height : nat; n_remain : nat; n_d : Z; n_t : Z; n_buf : list Z }.
(** blake3.h:38-63 *)
Record blake3 := { b3_k : list Z; b3_t : Z; b3_keyed : bool; b3_finalize : bool; b3_leaves : nat; b3_branches : nat; b3_nodes : list b3_node }.
Definition NODES_COUNT : nat := 65.
Definition set_nodes (x : blake3) (l : list b3_node) : blake3 :=
  {| b3_k := b3_k x; b3_t := b3_t x; b3_keyed := b3_keyed x; b3_finalize := b3_finalize x; b3_leaves := b3_leaves x; b3_branches := b3_branches x; b3_nodes := l |}.
Definition set_counts (x : blake3) (t : Z) (lv br : nat) : blake3 :=
  {| b3_k := b3_k x; b3_t := t; b3_keyed := b3_keyed x; b3_finalize := b3_finalize x; b3_leaves := lv; b3_branches := br; b3_nodes := b3_nodes x |}.
Definition set_final (x : blake3) : blake3 :=
  {| b3_k := b3_k x; b3_t := b3_t x; b3_keyed := b3_keyed x; b3_finalize := true; b3_leaves := b3_leaves x; b3_branches := b3_branches x; b3_nodes := b3_nodes x |}.
Definition set_k (x : blake3) (k : option (list Z)) : blake3 :=
  match k with
  | None => x
  | Some k => {| b3_k := k; b3_t := b3_t x; b3_keyed := b3_keyed x; b3_finalize := b3_finalize x; b3_leaves := b3_leaves x; b3_branches := b3_branches x; b3_nodes := b3_nodes x |}
  end.
Definition no_node : b3_node := {| n_hashed := false; n_height := 0; n_remain := 0; n_d := 0; n_t := 0; n_buf := [] |}.
Definition node_at (x : blake3) (i : nat) : b3_node := nth i (b3_nodes x) no_node.

(** blake3.c:16-31 *)
Definition init1node (keyed : bool) (nd : b3_node) : b3_node :=
  {| n_hashed := false; n_height := 0; n_remain := 0; n_d := if keyed then 16 else 0; n_t := n_t nd; n_buf := repeat 0 1024 |}.
(** blake3.c:33-50; [old] is what the context held before. *)
Definition BLAKE3_Init (old : blake3) : blake3 :=
  {| b3_k := repeat 0 8; b3_t := 0; b3_keyed := false; b3_finalize := false; b3_leaves := 0; b3_branches := 0; b3_nodes := map (init1node false) (b3_nodes old) |}.
(** blake3.c:52-73; k.u8 read back through le32toh in hash1node (lines 140-144). *)
Definition BLAKE3_KInit (old : blake3) (k : list Z) : option blake3 :=
  if negb (length k =? 32)%nat then None
  else Some {| b3_k := firstn 8 (msg_words 4 k); b3_t := 0; b3_keyed := true; b3_finalize := false; b3_leaves := 0; b3_branches := 0; b3_nodes := map (init1node true) (b3_nodes old) |}.

(** blake3.c:100-101 *)
Definition b3_tab : list nat := [2; 6; 3; 10; 7; 0; 4; 13; 1; 11; 12; 5; 9; 14; 15; 8]%nat.
(** blake3.c:77-130; inner_block_word is blake2.c's.  h has 8 words, the result 16. *)
Definition b3_round (mw : list Z) (st : list Z * list nat) : list Z * list nat :=
  let '(v, lut) := st in (inner_block qround_word v mw lut, map (fun j => nth (nth j lut 0%nat) b3_tab 0%nat) (seq 0 16)).
Definition blake3_compress (h m : list Z) (t : Z) (b d : Z) : list Z :=
  let v := map (fun i => nthZ i h) (seq 0 8) ++ firstn 4 blake_IV ++ [u32 t; u32 (Z.shiftr t 32); b; d] in
  let v := fst (Nat.iter 7 (b3_round (msg_words 4 m)) (v, seq 0 16)) in
  map (fun i => Z.lxor (nthZ i v) (nthZ (i + 8) v)) (seq 0 8) ++ map (fun i => Z.lxor (nthZ i h) (nthZ (i + 8) v)) (seq 0 8).

(** blake3.c:146-174, the loop, k turns left.  inl: left by break or at the end, with h and
    remain; inr: left by goto finish, with remain, d and the words stored in x->k. *)
Fixpoint hash_loop (k : nat) (fin : bool) (nd : b3_node) (t : nat) (h : list Z) (remain : nat) : (list Z * nat) + (nat * Z * list Z) :=
  match k with
  | O => inl (h, remain)
  | S k =>
    let d := n_d nd in
    let d := if ((t =? 0) && (n_height nd =? 0))%nat then Z.lor d 1 else d in
    let d := if (0 <? n_height nd)%nat then Z.lor d 4 else d in
    let b := if (remain <? 64)%nat then remain else 64%nat in
    let d := if ((remain <=? 64) && (n_height nd =? 0))%nat then Z.lor d 2 else d in
    if (remain <=? 64)%nat && fin then inr ((remain + t * 64)%nat, Z.lor d 8, firstn 8 h)
    else
      let h := blake3_compress h (firstn 64 (skipn (t * 64) (n_buf nd))) (n_t nd) (Z.of_nat b) d in
      let remain := (remain - b)%nat in
      if (remain =? 0)%nat then inl (h, remain) else hash_loop k fin nd (S t) h remain
  end.
(** blake3.c:132-181: the node, and the new x->k if it is written. *)
Definition hash1node (x : blake3) (nd : b3_node) : b3_node * option (list Z) :=
  match hash_loop 16 (b3_finalize x) nd 0 (if b3_keyed x then b3_k x else blake_IV) (n_remain nd) with
  | inl (h, r) => ({| n_hashed := n_hashed nd; n_height := n_height nd; n_remain := r; n_d := n_d nd; n_t := n_t nd;
                      n_buf := concat (map (le_bytes 4) h) ++ skipn 64 (n_buf nd) |}, None)
  | inr (r, d, h) => ({| n_hashed := n_hashed nd; n_height := n_height nd; n_remain := r; n_d := d; n_t := n_t nd; n_buf := n_buf nd |}, Some h)
  end.
Definition mark_hashed (nd : b3_node) (ht : nat) : b3_node :=
  {| n_hashed := true; n_height := ht; n_remain := n_remain nd; n_d := n_d nd; n_t := n_t nd; n_buf := n_buf nd |}.
(** blake3.c:183-188 and 229-237: the job for the node at position p. *)
Definition job_hash1leaf (x : blake3) (p : nat) : blake3 :=
  let '(nd, k) := hash1node x (node_at x p) in
  set_k (set_nodes x (upd p (mark_hashed nd 0) (b3_nodes x))) k.
(** blake3.c:223-227, for the node at position p *)
Definition commit1parent (x : blake3) (p : nat) : blake3 :=
  let '(nd, k) := hash1node x (node_at x p) in
  set_k (set_nodes x (upd p (mark_hashed nd (n_height nd)) (b3_nodes x))) k.
(** blake3.c:190-202 *)
Definition bury1node (x : blake3) (ni : nat) : blake3 :=
  set_nodes x (firstn ni (b3_nodes x) ++ skipn (S ni) (b3_nodes x) ++ [node_at x ni]).
(** blake3.c:204-221 *)
Definition join2nodes (x : blake3) (li : nat) : blake3 :=
  let n1 := node_at x li in let n2 := node_at x (S li) in
  set_nodes x (upd li {| n_hashed := false; n_height := S (n_height n1); n_remain := 64; n_d := if b3_keyed x then 16 else 0; n_t := 0;
                         n_buf := firstn 32 (n_buf n1) ++ firstn 32 (n_buf n2) ++ skipn 64 (n_buf n1) |} (b3_nodes x)).
(** "if( !node->hashed ) commit1parent(x, node)" *)
Definition commit_if (x : blake3) (p : nat) : blake3 := if n_hashed (node_at x p) then x else commit1parent x p.
(** blake3.c:289-294, 369-374, 387-392 *)
Definition merge_at (x : blake3) (i : nat) : blake3 :=
  let x := commit_if x i in
  let x := commit_if x (S i) in
  let x := join2nodes x i in
  let x := set_nodes x (upd (S i) (init1node (b3_keyed x) (node_at x (S i))) (b3_nodes x)) in
  bury1node x (S i).

(** blake3.c:239-271: the context and the octets that are left.  The inner while is the outer
    one's next turns: its condition and its end at inLen == 0 are the same. *)
Fixpoint update_fill (fuel : nat) (x : blake3) (inp : list Z) : blake3 * list Z :=
  match fuel with
  | O => (x, inp)
  | S fuel =>
    let i := (b3_branches x + b3_leaves x)%nat in
    match inp with
    | [] => (x, inp)
    | c :: inp' =>
      if (NODES_COUNT <=? i)%nat then (x, inp)
      else
        let nd := node_at x i in
        if (n_remain nd =? 1024)%nat then
          update_fill fuel (set_counts (set_nodes x (upd i {| n_hashed := n_hashed nd; n_height := n_height nd; n_remain := n_remain nd; n_d := n_d nd; n_t := b3_t x; n_buf := n_buf nd |} (b3_nodes x)))
                              (u64 (b3_t x + 1)) (S (b3_leaves x)) (b3_branches x)) inp
        else
          update_fill fuel (set_nodes x (upd i {| n_hashed := n_hashed nd; n_height := n_height nd; n_remain := S (n_remain nd); n_d := n_d nd; n_t := n_t nd; n_buf := upd (n_remain nd) c (n_buf nd) |} (b3_nodes x))) inp'
    end
  end.
(** blake3.c:281-308; every turn either advances i or merges, so that n (n + 1) turns are enough for n branches. *)
Fixpoint climb_loop (fuel : nat) (x : blake3) (i : nat) : blake3 :=
  match fuel with
  | O => x
  | S fuel =>
    if (i + 1 <? b3_branches x)%nat then
      if (n_height (node_at x i) =? n_height (node_at x (i + 1)))%nat then
        let B := b3_branches x in
        let x := merge_at x i in
        let x := if (0 <? i)%nat || (2 <? B)%nat then commit1parent x i else x in
        climb_loop fuel (set_counts x (b3_t x) (b3_leaves x) (B - 1)) 0
      else climb_loop fuel x (i + 1)
    else x
  end.
(** blake3.c:273-311 *)
Definition update_climb (x : blake3) : blake3 :=
  let x := set_counts x (b3_t x) 0 (b3_branches x + b3_leaves x) in
  climb_loop (b3_branches x * S (b3_branches x)) x 0.

Section Sched.
  (** The order in which the jobs of the batch that begins at chunk counter t are run. *)
  Variable sched : Z -> list nat -> list nat.
  Definition run_jobs (x : blake3) (ps : list nat) : blake3 := fold_left job_hash1leaf (sched (b3_t x) ps) x.
  (** blake3.c:313-332; the leaves all hold 1024 octets. *)
  Definition update_1bat2tc (x : blake3) : blake3 := update_climb (run_jobs x (seq (b3_branches x) (b3_leaves x))).
  (** blake3.c:334-352, the do-while loop *)
  Fixpoint update_loop (fuel : nat) (x : blake3) (inp : list Z) : blake3 :=
    match fuel with
    | O => x
    | S fuel =>
      let '(y, rest) := update_fill (NODES_COUNT + length inp) x inp in
      let y := update_1bat2tc y in
      if (length rest <? length inp)%nat then update_loop fuel y rest else y
    end.
  Definition BLAKE3_Update4 (x : blake3) (dat : list Z) : blake3 := update_loop (S (length dat)) x dat.

  (** blake3.c:364-377, i turns left *)
  Fixpoint final_merge (i : nat) (x : blake3) : blake3 :=
    match i with
    | O => x
    | S i' =>
      let x := commit1parent (merge_at x i) i in
      final_merge i' (set_counts x (b3_t x) (b3_leaves x) (b3_branches x - 1))
    end.
  (** blake3.c:354-407 *)
  Definition final_climb (x : blake3) : blake3 :=
    let x := update_climb x in
    let x := final_merge (b3_branches x - 2) x in
    let x := if (b3_branches x =? 2)%nat then merge_at x 0 else x in
    if n_hashed (node_at x 0) then x
    else
      let x := commit1parent (set_final x) 0 in
      set_counts x (b3_t x) (b3_leaves x) (b3_branches x - 1).
  (** blake3.c:415-442: the context and the positions whose jobs are enqueued.  The job of the first may run
      before finalize is set for another: finalize is set at i = 0 only, before its own enqueue. *)
  Fixpoint final_enqueue (k : nat) (x : blake3) (i : nat) (ps : list nat) : blake3 * list nat :=
    match k with
    | O => (x, ps)
    | S k =>
      let nd := node_at x i in
      if (n_remain nd =? 0)%nat && (0 <? i)%nat then (x, ps)
      else
        let x := if (n_remain nd <=? 1024)%nat && (b3_branches x =? 0)%nat && (b3_leaves x =? 0)%nat then set_final x else x in
        let x := set_nodes x (upd i {| n_hashed := n_hashed nd; n_height := n_height nd; n_remain := n_remain nd; n_d := n_d nd; n_t := b3_t x; n_buf := n_buf nd |} (b3_nodes x)) in
        final_enqueue k (set_counts x (u64 (b3_t x + 1)) (S (b3_leaves x)) (b3_branches x)) (S i) (ps ++ [i])
    end.
  (** blake3.c:409-445 *)
  Definition final_1bat2tc (x : blake3) : blake3 :=
    let '(x, ps) := final_enqueue (NODES_COUNT - b3_branches x) x (b3_branches x) [] in
    final_climb (run_jobs x ps).
  (** blake3.c:447-454 *)
  Definition BLAKE3_Final2 (x : blake3) : blake3 :=
    if b3_finalize x then x
    else let x := final_1bat2tc x in set_counts x 0 (b3_leaves x) (b3_branches x).
End Sched.

(** blake3.c:487-505, with [blk] the octets of h that are left to deliver (None: NULL). *)
Fixpoint read_loop (len : nat) (k buf : list Z) (s b : nat) (d : Z) (t : Z) (blk : option (list Z)) : Z * list Z :=
  match len with
  | O => (t, [])
  | S len =>
    let blk := match blk with
               | Some l => if t mod 64 =? 0 then None else Some l
               | None => None
               end in
    let l := match blk with
             | Some l => l
             | None => skipn (Z.to_nat (t mod 64)) (concat (map (le_bytes 4) (blake3_compress k (firstn 64 (skipn s buf)) (t / 64) (Z.of_nat b) d)))
             end in
    let '(t', out) := read_loop len k buf s b d (u64 (t + 1)) (Some (tl l)) in
    (t', nthZ 0 l :: out)
  end.
(** blake3.c:456-506 *)
Definition BLAKE3_Read4 (x : blake3) (len : nat) (rewind : bool) : blake3 * list Z :=
  let nd := node_at x 0 in
  let b := (n_remain nd mod 64)%nat in
  let s := (n_remain nd - b)%nat in
  let '(b, s) := if (b =? 0)%nat && (0 <? s)%nat then (64%nat, (s - 64)%nat) else (b, s) in
  let t := if rewind then 0 else b3_t x in
  let '(t, out) := read_loop len (b3_k x) (n_buf nd) s b (n_d nd) t None in
  (set_counts x t (b3_leaves x) (b3_branches x), out).
