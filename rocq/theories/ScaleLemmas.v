(** Double-and-add over any commutative monoid, for code that computes on
    representations. *)
From Verif Require Import Base.

Section Monoid.
  Variables (G : Type) (op : G -> G -> G) (O : G) (V : G -> Prop).
  Hypothesis VO : V O.
  Hypothesis Vop : forall x y, V x -> V y -> V (op x y).
  Hypothesis op_O : forall x, V x -> op x O = x.
  Hypothesis comm : forall x y, V x -> V y -> op x y = op y x.
  Hypothesis assoc : forall x y z, V x -> V y -> V z -> op (op x y) z = op x (op y z).

  Fixpoint smul (k : nat) (x : G) : G := match k with 0%nat => O | S k' => op x (smul k' x) end.

  Lemma smul_V k x : V x -> V (smul k x).
  Proof. intros H. induction k; cbn; auto. Qed.
  Lemma smul_add j k x : V x -> smul (j + k) x = op (smul j x) (smul k x).
  Proof.
    intros H. induction j as [|j IH]; cbn.
    - rewrite comm by (auto using smul_V). now rewrite op_O by (auto using smul_V).
    - rewrite IH, assoc by (auto using smul_V). reflexivity.
  Qed.
  Lemma smul_dbl k x : V x -> smul k (op x x) = smul (2 * k) x.
  Proof.
    intros H. induction k as [|k IH]; [reflexivity|]. cbn [smul]. rewrite IH.
    replace (2 * S k)%nat with (S (S (2 * k))) by lia. cbn [smul]. rewrite assoc by (auto using smul_V). reflexivity.
  Qed.

  (** the code *)
  Variables (St : Type) (add : St -> St -> St) (dbl : St -> St) (sel : St -> St -> Z -> St) (rp : St -> G -> Prop) (nz : G -> Prop).
  Hypothesis rp_V : forall s x, rp s x -> V x.
  Hypothesis add_ok : forall s t x y, rp s x -> rp t y -> rp (add s t) (op x y).
  Hypothesis dbl_ok : forall s x, nz x -> rp s x -> rp (dbl s) (op x x) /\ nz (op x x).
  Hypothesis sel_ok : forall s t x y m, m = 0 \/ m = 1 -> rp s x -> rp t y -> rp (sel s t m) (if m =? 1 then y else x).

  Variable bit : nat -> Z.
  Fixpoint dloop (k i : nat) (acc tmp : St) : St :=
    match k with
    | 0%nat => acc
    | S k' =>
        let acc := sel acc (add tmp acc) (bit i) in
        match k' with 0%nat => acc | _ => dloop k' (S i) acc (dbl tmp) end
    end.
  (** the number made of bits i, i+1, ..., i+k-1 *)
  Fixpoint bits (k i : nat) : nat := match k with 0%nat => 0%nat | S k' => (Z.to_nat (bit i) + 2 * bits k' (S i))%nat end.

  Lemma dloop_spec k : forall i acc tmp x t, (forall j, bit j = 0 \/ bit j = 1) -> rp acc x -> rp tmp t -> nz t ->
    rp (dloop k i acc tmp) (op x (smul (bits k i) t)).
  Proof.
    induction k as [|k IH]; intros i acc tmp x t HB Ha Ht Hn.
    - cbn. rewrite op_O by (eauto using rp_V). exact Ha.
    - cbn [dloop bits]. pose proof (sel_ok acc (add tmp acc) x (op t x) (bit i) (HB i) Ha (add_ok _ _ _ _ Ht Ha)) as Hs.
      assert (Vx : V x) by eauto. assert (Vt : V t) by eauto.
      assert (E : (if bit i =? 1 then op t x else x) = op x (smul (Z.to_nat (bit i)) t)).
      { destruct (HB i) as [E|E]; rewrite E; cbn.
        - now rewrite op_O.
        - change (Pos.to_nat 1) with 1%nat. cbn. rewrite op_O by auto. now apply comm. }
      rewrite E in Hs.
      assert (S1 : op x (smul (Z.to_nat (bit i) + 2 * bits k (S i)) t) = op (op x (smul (Z.to_nat (bit i)) t)) (smul (bits k (S i)) (op t t))).
      { rewrite smul_add by auto. rewrite smul_dbl by auto. rewrite assoc by (auto using smul_V). reflexivity. }
      rewrite S1. destruct k as [|k'].
      + cbn [bits smul]. rewrite op_O by (auto using smul_V). exact Hs.
      + destruct (dbl_ok tmp t Hn Ht) as [Hd Hn']. apply IH; auto.
  Qed.
End Monoid.
