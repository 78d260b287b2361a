(** Multiples of a point of odd order on a complete Edwards curve. *)
From Coq Require Import Znumtheory Setoid.
From Verif Require Import Base EcSpec EcGroupLemmas EdSpec EdCert EdGroupLemmas ScaleLemmas EdScaleLemmas.

Section Group.
  Variables (p a d1 d2 : Z).
  Hypothesis Hp : prime p.
  Hypothesis H2 : p <> 2.
  Hypothesis HC : ed_complete p a d1 d2.
  Notation "x == y" := (eqm p x y) (at level 70).
  Notation On := (ed_on p a d1 d2).
  Notation Add := (ed_add p a d1 d2).
  Notation vop := (eop p a d1 d2). Notation ok := (evalid p a d1 d2).
  Definition mulE (k : nat) (P : epoint) : epoint := smul epoint vop (0, 1) k P.
  Definition canE (P : epoint) : epoint := (fst P mod p, snd P mod p).
  Lemma canE_eq P : ept_eq p P (canE P).
  Proof. split; cbn; symmetry; apply mod_eqm; auto. Qed.
  Lemma canE_ok P : On P -> ok (canE P).
  Proof.
    intros C. pose proof (prime_ge_2 _ Hp). split; [apply (ed_on_eq p a d1 d2 P); [apply canE_eq|exact C]|].
    split; cbn; apply Z.mod_pos_bound; lia.
  Qed.
  Lemma canE_id P : ok P -> canE P = P.
  Proof. intros [_ [A B]]. destruct P as [x y]. unfold canE. cbn [fst snd] in *. now rewrite !Z.mod_small by assumption. Qed.
  Lemma canE_of P Q : ept_eq p P Q -> canE P = canE Q.
  Proof.
    pose proof (prime_ge_2 _ Hp). intros [A B]. apply eqm_mod in A; [|lia]. apply eqm_mod in B; [|lia]. unfold canE. now rewrite A, B.
  Qed.
  Lemma mulE_ok k P : ok P -> ok (mulE k P).
  Proof. intros V. apply (smul_V epoint vop (0, 1) ok); auto; [now apply id_valid|]. intros; now apply eop_valid. Qed.
  Lemma mulE_add j k P : ok P -> mulE (j + k) P = vop (mulE j P) (mulE k P).
  Proof.
    intros V. apply (smul_add epoint vop (0, 1) ok); auto; [now apply id_valid| | | | ].
    - intros; now apply eop_valid.
    - intros; now apply eop_id.
    - intros; now apply eop_comm.
    - intros; now apply eop_assoc.
  Qed.
  Lemma mulE_mul j k P : ok P -> mulE j (mulE k P) = mulE (j * k) P.
  Proof.
    intros VB. assert (V : ok (mulE k P)) by now apply mulE_ok.
    induction j as [|j IH]; [reflexivity|]. change (mulE (S j) (mulE k P)) with (vop (mulE k P) (mulE j (mulE k P))). rewrite IH. cbn [Nat.mul]. symmetry. now apply mulE_add.
  Qed.
  Lemma mulE_O k : mulE k (0, 1) = (0, 1).
  Proof.
    induction k as [|k IH]; [reflexivity|]. change (mulE (S k) (0, 1)) with (vop (0, 1) (mulE k (0, 1))). rewrite IH. apply eop_id; auto. now apply id_valid.
  Qed.
  Lemma ed_mul_on P k M : On P -> ed_mul p a d1 d2 P k M -> On M.
  Proof. intros C H. induction H; [now apply on_id|]. apply (add_closed p a d1 d2 Hp H2 HC P Q); auto. Qed.
  Lemma ed_mul_smul P k M : On P -> ed_mul p a d1 d2 P k M -> canE M = mulE k (canE P).
  Proof.
    intros C H. induction H as [|k Q Rr HQ IH HA].
    - apply canE_id. now apply id_valid.
    - pose proof (ed_mul_on P k Q C HQ) as CQ. change (mulE (S k) (canE P)) with (vop (canE P) (mulE k (canE P))). rewrite <- IH.
      symmetry. apply eop_eq; auto; [apply canE_ok; exact C|apply canE_ok; exact CQ| |].
      + apply canE_ok. apply (add_closed p a d1 d2 Hp H2 HC P Q); auto.
      + apply (ed_add_eq p a d1 d2 P Q Rr); try apply canE_eq. exact HA.
  Qed.
  Lemma ed_mul_ex P k : On P -> exists M, ed_mul p a d1 d2 P k M.
  Proof.
    intros C. induction k as [|k (M & E)]; [exists (0, 1); constructor|]. exists (vop P M). econstructor; [exact E|]. apply eop_add; auto. now apply (ed_mul_on P k).
  Qed.
  Lemma add_canE P Q T : On P -> On Q -> Add P Q T -> canE T = vop (canE P) (canE Q).
  Proof.
    intros A B E. symmetry. apply eop_eq; auto; [now apply canE_ok|now apply canE_ok| |].
    - apply canE_ok. now apply (add_closed p a d1 d2 Hp H2 HC P Q).
    - apply (ed_add_eq p a d1 d2 P Q T); try apply canE_eq. exact E.
  Qed.
  Lemma canE_ept P Q : canE P = canE Q -> ept_eq p P Q.
  Proof. intros E. apply (ept_trans p P (canE P)); [apply canE_eq|]. rewrite E. apply ept_sym, canE_eq. Qed.

  (** points of odd order: neither coordinate is zero *)
  Lemma two_x0 x y : On (x, y) -> x == 0 -> Add (x, y) (x, y) (0, 1).
  Proof.
    intros C X. destruct HC as (N2 & _ & _ & _). unfold ed_on in C. rewrite X in C.
    assert (Y : y * y == 1). { apply (cancel p Hp d2 _ _ N2). transitivity (d2 * (a * (0 * 0) + y * y)); [apply eqm_eq; ring|]. rewrite C. apply eqm_eq. ring. }
    unfold ed_add. assert (E : d1 * (x * x * (y * y)) == 0). { rewrite X. apply eqm_eq. ring. }
    rewrite E. split; [rewrite Z.add_0_r; exact N2|]. split; [rewrite Z.sub_0_r; exact N2|]. split.
    - rewrite X. apply eqm_eq. ring.
    - rewrite X, Y. apply eqm_eq. ring.
  Qed.
  Lemma two_y0 x y : On (x, y) -> y == 0 -> Add (x, y) (x, y) (0, -1).
  Proof.
    intros C Y. destruct HC as (N2 & _ & _ & _). unfold ed_on in C. rewrite Y in C.
    assert (X : a * (x * x) == 1). { apply (cancel p Hp d2 _ _ N2). transitivity (d2 * (a * (x * x) + 0 * 0)); [apply eqm_eq; ring|]. rewrite C. apply eqm_eq. ring. }
    unfold ed_add. assert (E : d1 * (x * x * (y * y)) == 0). { rewrite Y. apply eqm_eq. ring. }
    rewrite E. split; [rewrite Z.add_0_r; exact N2|]. split; [rewrite Z.sub_0_r; exact N2|]. split.
    - rewrite Y. apply eqm_eq. ring.
    - rewrite Y, X. apply eqm_eq. ring.
  Qed.
  Lemma odd_order_x m T : ok T -> mulE (2 * m + 1) T = (0, 1) -> fst T == 0 -> T = (0, 1).
  Proof.
    intros V E X. destruct T as [x y]. cbn [fst] in X.
    assert (D : mulE 2 (x, y) = (0, 1)).
    { change (mulE 2 (x, y)) with (vop (x, y) (vop (x, y) (0, 1))). rewrite (eop_id p a d1 d2 Hp H2 HC (x, y) V).
      apply eop_eq; auto; [apply V|apply V| |apply two_x0; [apply V|exact X]]. now apply (id_valid p a d1 d2). }
    rewrite mulE_add, (Nat.mul_comm 2 m), <- mulE_mul, D, mulE_O in E by exact V.
    change (mulE 1 (x, y)) with (vop (x, y) (0, 1)) in E. rewrite (eop_id p a d1 d2 Hp H2 HC (x, y) V) in E.
    rewrite (eop_comm p a d1 d2 Hp H2 HC (0, 1) (x, y)) in E by (try exact V; now apply id_valid). now rewrite eop_id in E.
  Qed.
  Lemma odd_order m T : ok T -> mulE (2 * m + 1) T = (0, 1) -> T <> (0, 1) -> ~ fst T == 0 /\ ~ snd T == 0.
  Proof.
    intros V E N. split; [intros X; apply N; now apply (odd_order_x m)|]. intros Y. destruct T as [x y]. cbn [snd] in Y.
    assert (D : mulE 2 (x, y) = canE (0, -1)).
    { change (mulE 2 (x, y)) with (vop (x, y) (vop (x, y) (0, 1))). rewrite (eop_id p a d1 d2 Hp H2 HC (x, y) V).
      symmetry. rewrite <- (canE_id (x, y) V) at 1 2. apply add_canE; [apply V|apply V|]. apply two_y0; [apply V|exact Y]. }
    assert (V2 : ok (mulE 2 (x, y))) by now apply mulE_ok.
    assert (E2 : mulE (2 * m + 1) (mulE 2 (x, y)) = (0, 1)). { rewrite mulE_mul, Nat.mul_comm, <- mulE_mul, E by exact V. apply mulE_O. }
    pose proof (odd_order_x m _ V2 E2) as F. rewrite D in F. specialize (F ltac:(unfold canE; cbn [fst]; apply mod_eqm; auto)).
    apply (f_equal snd) in F. unfold canE in F. cbn [snd] in F. pose proof (prime_ge_2 _ Hp). replace (-1) with (p - 1 + (-1) * p) in F by ring. rewrite Z_mod_plus_full, Z.mod_small in F by lia. lia.
  Qed.
End Group.
