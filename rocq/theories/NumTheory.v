(** Model of src/2-numbertheory (extended Euclid, Miller-Rabin) and of
    src/2-rsa/rsa-fastdec.c.h, on top of the multi-word arithmetic of Vlong.v. *)
From Verif Require Import Base Vlong.

(** EGCD.c:36-37, "end = true; for(t=j->c; t--; ) if( j->v[t] ) end = false". *)
Definition is_zero (j : list Z) : bool := forallb (fun w => w =? 0) j.

(** EGCD.c:40-41: the words above the lowest are zero and the lowest is 1. *)
Definition is_one (i : list Z) : bool := is_zero (tl i) && (nthZ 0 i =? 1).

(** EGCD.c:21-38, the while loop.  The five buffers that the code rotates are
    passed by content; [fuel] bounds the number of iterations (None: fuel
    exhausted).  The results of vlong_divv are ignored by the code: when it
    returns NULL it has not written rem and quo.  Final state: (i, y2). *)
Fixpoint egcd_loop (fuel : nat) (i j rem quo y1 y2 : list Z) : option (list Z * list Z) :=
  match fuel with
  | O => None
  | S fuel' =>
      let '(rem', quo') :=
        match vlong_divv (length rem) (Some (length quo)) i j with
        | Some (r, Some q) => (r, q)
        | Some (r, None) => (r, quo)
        | None => (rem, quo)
        end in
      let tmp := fst (vlong_mulv_masked (length i) y1 quo' 1 None) in
      let y2' := vlong_subv (length y2) y2 tmp in
      if is_zero rem' then Some (j, y1)
      else egcd_loop fuel' j rem' tmp quo' y2' y1
  end.

(** EGCD.c:5-43.  Outer None: still running after [fuel] iterations; inner
    None: NULL; otherwise the words of the vlong_t that is returned. *)
Definition EGCD (fuel : nat) (x p quo rem y1 y2 : list Z) : option (option (list Z)) :=
  match egcd_loop fuel p x rem quo
          (upd 0 1 (repeat 0 (length y1))) (repeat 0 (length y2)) with
  | None => None
  | Some (i, y) => Some (if is_one i then Some y else None)
  end.
