(** A boolean equality of octet lists, so that test vectors are checked by one evaluation. *)
From Verif Require Import Base.
Fixpoint leqb (a b : list Z) : bool :=
  match a, b with
  | [], [] => true
  | x :: a, y :: b => if x =? y then leqb a b else false
  | _, _ => false
  end.
Lemma leqb_ok a : forall b, leqb a b = true -> a = b.
Proof.
  induction a as [|x a IH]; destruct b as [|y b]; cbn [leqb]; try discriminate; [reflexivity|].
  destruct (Z.eqb_spec x y) as [->|]; [|discriminate]. intros H. f_equal. auto.
Qed.
