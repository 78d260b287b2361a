import re
ops=open('/tmp/pk/ops.txt').read()
s=r'''(** The base point of Ed25519 has order L (generated: tools/pk/ord25519.py, genord.py). *)
From Coq Require Import ZArith Znumtheory List Lia Bool Setoid.
From Verif Require Import Base EcSpec EcGroupLemmas EdSpec EdCert EdGroupLemmas ScaleLemmas EdScaleLemmas EdMulLemmas.
Import ListNotations.
Open Scope Z_scope.

(** Straight-line programs of doublings and additions with the affine results given. *)
Inductive eop_step : Type := Dbl (x y : Z) | Add (i : nat) (x y : Z).
Section Chain.
  Variables (p a d1 d2 : Z).
  Hypothesis Hp : prime p.
  Hypothesis H2 : p <> 2.
  Hypothesis HC : ed_complete p a d1 d2.
  Variable red : Z -> Z.
  Hypothesis Hred : forall z, eqm p (red z) z.
  Notation "x == y" := (eqm p x y) (at level 70).
  Notation On := (ed_on p a d1 d2).
  Notation ok := (evalid p a d1 d2).
  Definition isz (z : Z) : bool := let r := red (red (red z)) in (r =? 0) || (r =? p).
  Definition inr (z : Z) : bool := (0 <=? z) && (z <? p).
  Definition sdbl (x y : Z) : Z := if a =? -1 then Z.square (x + y) else (y - a * x) * (x + y).
  Definition chk (m n mm s0 x3 y3 : Z) : bool :=
    let w := d1 * red mm in
    let s := s0 - n + a * m in
    inr x3 && inr y3 && isz (x3 * (d2 + w) - d2 * (m + n)) && isz (y3 * (d2 - w) - d2 * red s).
  Fixpoint run (l : list eop_step) (known : list (Z * epoint)) : bool * list (Z * epoint) :=
    match l with
    | [] => (true, known)
    | st :: l' =>
        match known with
        | [] => (false, known)
        | (k, (x1, y1)) :: _ =>
            match st with
            | Dbl x3 y3 => let m := red (x1 * y1) in if chk m m (Z.square m) (sdbl x1 y1) x3 y3 then run l' ((k + k, (x3, y3)) :: known) else (false, known)
            | Add i x3 y3 =>
                match nth_error known i with
                | None => (false, known)
                | Some (k2, (x2, y2)) => let m := red (x1 * y2) in let n := red (x2 * y1) in if chk m n (m * n) ((y1 - a * x1) * (x2 + y2)) x3 y3 then run l' ((k + k2, (x3, y3)) :: known) else (false, known)
                end
            end
        end
    end.
  Lemma sdbl_ok x y : sdbl x y = (y - a * x) * (x + y).
  Proof. unfold sdbl. destruct (a =? -1) eqn:E; [|reflexivity]. apply Z.eqb_eq in E. rewrite E, Z.square_spec. ring. Qed.
  Lemma isz_ok z : isz z = true -> z == 0.
  Proof.
    unfold isz. intros H. apply orb_true_iff in H. transitivity (red (red (red z))); [rewrite !Hred; reflexivity|].
    destruct H as [H|H]; apply Z.eqb_eq in H; rewrite H; [reflexivity|]. exists 1. ring.
  Qed.
  Lemma chk_ok x1 y1 x2 y2 m n mm s0 x3 y3 : On (x1, y1) -> On (x2, y2) -> m == x1 * y2 -> n == x2 * y1 -> mm = m * n -> s0 = (y1 - a * x1) * (x2 + y2) -> chk m n mm s0 x3 y3 = true ->
    ed_add p a d1 d2 (x1, y1) (x2, y2) (x3, y3) /\ ecanon p (x3, y3).
  Proof.
    intros C1 C2 Em En -> -> H. unfold chk in H. rewrite !andb_true_iff in H. destruct H as (((I1 & I2) & Z1) & Z2). unfold inr in I1, I2. rewrite andb_true_iff in I1, I2.
    destruct I1 as [I1 I1'], I2 as [I2 I2']. apply Z.leb_le in I1, I2. apply Z.ltb_lt in I1', I2'. split; [|split; cbn; lia].
    apply isz_ok in Z1. apply isz_ok in Z2.
    assert (W : red (m * n) == x1 * y2 * (x2 * y1)) by (rewrite Hred, Em, En; reflexivity). set (w := red (m * n)) in *. clearbody w.
    assert (V : red ((y1 - a * x1) * (x2 + y2) - n + a * m) == y1 * y2 - a * (x1 * x2)) by (rewrite Hred, Em, En; apply eqm_eq; ring).
    set (v := red ((y1 - a * x1) * (x2 + y2) - n + a * m)) in *. clearbody v. assert (MN : m + n == x1 * y2 + x2 * y1) by (rewrite Em, En; reflexivity). set (mn := m + n) in *. clearbody mn. clear Em En m n.
    destruct (eop_add p a d1 d2 Hp H2 HC (x1, y1) (x2, y2) C1 C2) as (N1 & N2 & _).
    unfold ed_add. split; [exact N1|]. split; [exact N2|]. split.
    - transitivity (x3 * (d2 + d1 * w)); [rewrite W; apply eqm_eq; ring|]. transitivity (x3 * (d2 + d1 * w) - d2 * mn + d2 * mn); [apply eqm_eq; ring|]. rewrite Z1, MN. reflexivity.
    - transitivity (y3 * (d2 - d1 * w)); [rewrite W; apply eqm_eq; ring|]. transitivity (y3 * (d2 - d1 * w) - d2 * v + d2 * v); [apply eqm_eq; ring|]. rewrite Z2, V. reflexivity.
  Qed.
  Variable B : epoint.
  Hypothesis HB : ok B.
  Definition kn (e : Z * epoint) : Prop := 0 <= fst e /\ ok (snd e) /\ mulE p a d1 d2 (Z.to_nat (fst e)) B = snd e.
  Lemma kn_add k1 P1 k2 P2 x3 y3 : kn (k1, P1) -> kn (k2, P2) -> ed_add p a d1 d2 P1 P2 (x3, y3) -> ecanon p (x3, y3) -> kn (k1 + k2, (x3, y3)).
  Proof.
    intros (A1 & O1 & M1) (A2 & O2 & M2) E CN. cbn [fst snd] in *. split; cbn [fst snd]; [lia|]. split.
    - split; [|exact CN]. apply (add_closed p a d1 d2 Hp H2 HC P1 P2); [apply O1|apply O2|exact E].
    - rewrite Z2Nat.inj_add by lia. rewrite (mulE_add p a d1 d2 Hp H2 HC) by exact HB. rewrite M1, M2. apply (eop_eq p a d1 d2 Hp H2 HC); [apply O1|apply O2|exact CN|exact E].
  Qed.
  Lemma run_ok l : forall known r, Forall kn known -> run l known = (true, r) -> Forall kn r.
  Proof.
    induction l as [|st l IH]; intros known r K H; [cbn in H; congruence|]. cbn [run] in H. destruct known as [|[k [x1 y1]] t]; [discriminate|].
    assert (K1 : kn (k, (x1, y1))) by (inversion K; assumption). destruct st as [x3 y3|i x3 y3].
    - cbv zeta in H. destruct (chk _ _ _ _ x3 y3) eqn:E; [|discriminate]. apply (IH _ _) in H; [exact H|]. apply Forall_cons; [|exact K].
      destruct (chk_ok x1 y1 x1 y1 (red (x1 * y1)) (red (x1 * y1)) (Z.square (red (x1 * y1))) (sdbl x1 y1) x3 y3) as [E1 E2]; [apply K1|apply K1|apply Hred|apply Hred|apply Z.square_spec|apply sdbl_ok|exact E|]. now apply (kn_add k (x1, y1) k (x1, y1)).
    - destruct (nth_error _ i) as [[k2 [x2 y2]]|] eqn:EN; [|discriminate]. cbv zeta in H. destruct (chk _ _ _ _ x3 y3) eqn:E; [|discriminate]. apply (IH _ _) in H; [exact H|]. apply Forall_cons; [|exact K].
      assert (K2 : kn (k2, (x2, y2))) by (rewrite Forall_forall in K; apply K; eapply nth_error_In; exact EN).
      destruct (chk_ok x1 y1 x2 y2 (red (x1 * y2)) (red (x2 * y1)) (red (x1 * y2) * red (x2 * y1)) ((y1 - a * x1) * (x2 + y2)) x3 y3) as [E1 E2]; [apply K1|apply K2|apply Hred|apply Hred|reflexivity|reflexivity|exact E|]. now apply (kn_add k (x1, y1) k2 (x2, y2)).
  Qed.
  Theorem chain_ok l k R : match run l [(1, B)] with (true, (k', (x, y)) :: _) => (k' =? k) && (x =? fst R) && (y =? snd R) | _ => false end = true -> mulE p a d1 d2 (Z.to_nat k) B = R.
  Proof.
    destruct (run l [(1, B)]) as [b r] eqn:E. intros H. destruct b; [|discriminate]. destruct r as [|[k' [x y]] t]; [discriminate|]. rewrite !andb_true_iff in H. destruct H as ((H1 & H3) & H4).
    apply Z.eqb_eq in H1, H3, H4. apply run_ok in E.
    - assert (K : kn (k', (x, y))) by (inversion E; assumption). destruct K as (_ & _ & M). cbn [fst snd] in M. subst k'. rewrite M. destruct R. cbn [fst snd] in *. now subst.
    - apply Forall_cons; [|apply Forall_nil]. split; cbn [fst snd]; [lia|]. split; [exact HB|]. change (Z.to_nat 1) with 1%nat. change (mulE p a d1 d2 1 B) with (eop p a d1 d2 B (0, 1)). now apply (eop_id p a d1 d2 Hp H2 HC).
  Qed.
End Chain.

Definition red25519 (z : Z) : Z := Z.land z (Z.ones 255) + 19 * Z.shiftr z 255.
Lemma red25519_ok z : eqm (2 ^ 255 - 19) (red25519 z) z.
Proof.
  unfold red25519. rewrite Z.land_ones, Z.shiftr_div_pow2 by lia. pose proof (Z.div_mod z (2 ^ 255) ltac:(lia)) as E. exists (- (z / 2 ^ 255)). set (q := z / 2 ^ 255) in *. set (r := z mod 2 ^ 255) in *. clearbody q r. lia.
Qed.
Definition chain25519 : list eop_step :=
 [''' + ops + '''].
'''
open('/verif/rocq/theories/EdOrder.v','w').write(s)
s=open('/verif/rocq/theories/EdOrder.v').read()
s+=r'''Definition B25519 : epoint :=
  (15112221349535400772501151409588531511454012693041857206046113283949847762202, 46316835694926478169428394003475163141307993866256225615783033603165251855960).
Lemma chain25519_ok :
  match run (2 ^ 255 - 19) (-1) (-121665) 121666 red25519 chain25519 [(1, B25519)] with (true, (k', (x, y)) :: _) => (k' =? 2 ^ 252 + 27742317777372353535851937790883648493) && (x =? fst (0, 1)) && (y =? snd (0, 1)) | _ => false end = true.
Proof. vm_compute. reflexivity. Qed.
'''
open('/verif/rocq/theories/EdOrder.v','w').write(s)
