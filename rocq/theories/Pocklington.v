(** Primality certificates (Pocklington): used to discharge the primality of the library's moduli. *)
From Coq Require Import ZArith Znumtheory Zwf List Lia Bool.
From Verif Require Import Fermat.
Import ListNotations.
Open Scope Z_scope.

(** b^e mod N with the quotients of the reductions given *)
Section Chain.
  Variables (N : Z) (mulN : Z -> Z) (b : Z).
  Hypothesis HN : forall q, mulN q = q * N.
  Fixpoint pchain (e : positive) (l : list Z) : Z * list Z :=
    match e with
    | xH => (b, l)
    | xO e => let '(a, l) := pchain e l in (Z.square a - mulN (hd 0 l), tl l)
    | xI e => let '(a, l) := pchain e l in
              let s := Z.square a - mulN (hd 0 l) in (s * b - mulN (hd 0 (tl l)), tl (tl l))
    end.
  Lemma pchain_spec e : forall l, (N | fst (pchain e l) - b ^ Zpos e).
  Proof.
    induction e as [e IH|e IH|]; intros l; cbn [pchain].
    - specialize (IH l). destruct (pchain e l) as [a l']. cbn [fst] in *. rewrite !HN, Z.square_spec. destruct IH as [k Hk].
      assert (E : b ^ Zpos e~1 = b ^ Zpos e * b ^ Zpos e * b).
      { rewrite <- Z.pow_add_r by lia. rewrite <- (Z.pow_1_r b) at 3. rewrite <- Z.pow_add_r by lia. f_equal. lia. }
      rewrite E. set (X := b ^ Zpos e) in *. clearbody X. assert (a = X + k * N) by lia. subst a.
      exists ((2 * X * k + k * k * N - hd 0 l') * b - hd 0 (tl l')). ring.
    - specialize (IH l). destruct (pchain e l) as [a l']. cbn [fst] in *. rewrite !HN, Z.square_spec. destruct IH as [k Hk].
      assert (E : b ^ Zpos e~0 = b ^ Zpos e * b ^ Zpos e).
      { rewrite <- Z.pow_add_r by lia. f_equal. lia. }
      rewrite E. set (X := b ^ Zpos e) in *. clearbody X. assert (a = X + k * N) by lia. subst a.
      exists (2 * X * k + k * k * N - hd 0 l'). ring.
    - cbn [fst]. rewrite Z.pow_1_r, Z.sub_diag. apply Z.divide_0_r.
  Qed.
End Chain.

Lemma divide_prod (qs : list Z) m : Forall prime qs -> NoDup qs -> Forall (fun q => (q | m)) qs -> (fold_right Z.mul 1 qs | m).
Proof.
  induction qs as [|q qs IH]; intros P D H; cbn [fold_right]; [apply Z.divide_1_l|].
  inversion P as [|? ? Pq P']; subst. inversion D as [|? ? Dq D']; subst. inversion H as [|? ? Hq H']; subst.
  specialize (IH P' D' H'). destruct IH as [k Hk].
  assert (R : rel_prime q (fold_right Z.mul 1 qs)).
  { clear -Pq P' Dq. induction qs as [|r qs IH]; cbn [fold_right]; [apply rel_prime_sym, rel_prime_1|].
    inversion P' as [|? ? Pr P2]; subst. apply rel_prime_mult; [|apply IH; [exact P2|intros X; apply Dq; now right]].
    apply prime_rel_prime; [exact Pq|]. intros D. apply Dq. left. symmetry.
    destruct (prime_divisors r Pr q D) as [E|[E|[E|E]]]; pose proof (prime_ge_2 q Pq); pose proof (prime_ge_2 r Pr); lia. }
  assert (D2 : (q | k)). { apply (Gauss q (fold_right Z.mul 1 qs) k); [|exact R]. rewrite Z.mul_comm, <- Hk. exact Hq. }
  destruct D2 as [j Hj]. exists j. rewrite Hk, Hj. ring.
Qed.

Lemma order_divides N q b p : prime p -> prime q -> (p | N) -> (N | b ^ q - 1) -> (exists w, (N | w * (b - 1) - 1)) -> (q | p - 1).
Proof.
  intros Pp Pq D1 D2 (w & D3). destruct (Zdivide_dec q (p - 1)) as [D|D]; [exact D|]. exfalso.
  pose proof (prime_ge_2 p Pp) as G2. pose proof (prime_ge_2 q Pq) as Gq.
  assert (E1 : (p | b ^ q - 1)) by exact (Z.divide_trans _ _ _ D1 D2). assert (E2 : (p | w * (b - 1) - 1)) by exact (Z.divide_trans _ _ _ D1 D3).
  assert (NB : ~ (p | b)).
  { intros E. assert (X : (p | b ^ q)). { replace q with (1 + (q - 1)) by lia. rewrite Z.pow_add_r, Z.pow_1_r by lia. now apply Z.divide_mul_l. }
    assert (Y : (p | 1)) by (replace 1 with (b ^ q - (b ^ q - 1)) by ring; now apply Z.divide_sub_r).
    apply Z.divide_1_r_nonneg in Y; lia. }
  pose proof (fermat p b Pp NB) as F.
  destruct (rel_prime_bezout q (p - 1) (prime_rel_prime q Pq _ D)) as [u v UV].
  (* u q + v (p-1) = 1: shift to nonnegative *)
  set (t := Z.abs u + Z.abs v) in *.
  assert (X : (u + t * (p - 1)) * q = 1 + (t * q - v) * (p - 1)) by (transitivity ((u * q + v * (p - 1)) + (t * q - v) * (p - 1)); [ring|rewrite UV; reflexivity]).
  assert (U0 : 0 <= u + t * (p - 1)) by (unfold t; nia). assert (V0 : 0 <= t * q - v) by (unfold t; nia).
  assert (A : b ^ ((u + t * (p - 1)) * q) mod p = 1).
  { rewrite Z.mul_comm, Z.pow_mul_r by lia. assert (E : b ^ q mod p = 1). { destruct E1 as [j Hj]. replace (b ^ q) with (1 + j * p) by lia. rewrite Z.mod_add by lia. apply Z.mod_small. lia. }
    clear -E G2 U0. generalize dependent (u + t * (p - 1)). intros m Hm. pattern m. apply natlike_ind; [| |exact Hm].
    - rewrite Z.pow_0_r. apply Z.mod_small. lia.
    - intros x Hx IH. rewrite Z.pow_succ_r by exact Hx. rewrite Z.mul_mod, E, IH by lia. apply Z.mod_small. lia. }
  assert (B : b ^ (1 + (t * q - v) * (p - 1)) mod p = b mod p).
  { rewrite Z.pow_add_r by nia. rewrite Z.pow_1_r, (Z.mul_comm (t * q - v)), Z.pow_mul_r by lia.
    assert (C : (b ^ (p - 1)) ^ (t * q - v) mod p = 1).
    { clear -F G2 V0. generalize dependent (t * q - v). intros m Hm. pattern m. apply natlike_ind; [| |exact Hm].
      - rewrite Z.pow_0_r. apply Z.mod_small. lia.
      - intros x Hx IH. rewrite Z.pow_succ_r by exact Hx. rewrite Z.mul_mod, F, IH by lia. apply Z.mod_small. lia. }
    rewrite Z.mul_mod, C, Z.mul_1_r by lia. apply Zmod_mod. }
  rewrite X, B in A.
  assert (D4 : (p | b - 1)). { exists (b / p). pose proof (Z.div_mod b p ltac:(lia)). lia. }
  assert (Y : (p | 1)) by (replace 1 with (w * (b - 1) - (w * (b - 1) - 1)) by ring; apply Z.divide_sub_r; [now apply Z.divide_mul_r|exact E2]).
  apply Z.divide_1_r_nonneg in Y; lia.
Qed.

(** a number without a prime divisor at most its square root is prime *)
Lemma prime_divisor m : 1 < m -> exists p, prime p /\ (p | m).
Proof.
  intros Hm. revert Hm. pattern m. apply (well_founded_ind (Zwf_well_founded 0)). clear m. intros x IH Hx.
  destruct (prime_dec x) as [P|P]; [exists x; split; [exact P|apply Z.divide_refl]|].
  destruct (not_prime_divide x Hx P) as (d & Hd & D). destruct (IH d) as (r & R1 & R2); [unfold Zwf; lia|lia|]. exists r. split; [exact R1|]. eapply Z.divide_trans; eauto.
Qed.
Lemma prime_by_divisors N : 1 < N -> (forall p, prime p -> (p | N) -> N < p * p) -> prime N.
Proof.
  intros H1 H. apply prime_alt. split; [exact H1|]. intros n Hn [k Hk]. assert (Hk0 : 1 < k < N) by nia.
  destruct (prime_divisor n ltac:(lia)) as (r & R1 & R2). destruct (prime_divisor k ltac:(lia)) as (s & S1 & S2).
  pose proof (H r R1 (Z.divide_trans _ _ _ R2 ltac:(exists k; exact Hk))) as B1.
  assert (DN : (k | N)) by (exists n; rewrite Hk; ring). pose proof (H s S1 (Z.divide_trans _ _ _ S2 DN)) as B2.
  apply Z.divide_pos_le in R2; [|lia]. apply Z.divide_pos_le in S2; [|lia]. pose proof (prime_ge_2 r R1). pose proof (prime_ge_2 s S1).
  assert (X : r * s <= N) by (rewrite Hk; clear -R2 S2 H0 H2 Hn Hk0; nia). assert (Y : N * N < (r * r) * (s * s)) by (clear -B1 B2 H1; nia).
  assert (Z : (r * s) * (r * s) <= N * N) by (clear -X H0 H2; nia). replace (r * r * (s * s)) with (r * s * (r * s)) in Y by ring. clear -Y Z; lia.
Qed.

Definition pcert : Type := positive * Z * Z * Z * list Z.
Definition pc_q (c : pcert) : Z := let '(q, _, _, _, _) := c in Zpos q.
Definition pc_check (N : Z) (mulN : Z -> Z) (c : pcert) : bool :=
  let '(q, b, w, k, l) := c in (fst (pchain mulN b q l) =? 1) && (w * (b - 1) - 1 =? mulN k).
Fixpoint decr (l : list Z) : bool := match l with a :: ((b :: _) as t) => (b <? a) && decr t | _ => true end.
Lemma decr_nodup l : decr l = true -> NoDup l.
Proof.
  assert (K : forall l a, decr (a :: l) = true -> Forall (fun x => x < a) l).
  { induction l0 as [|b l0 IH]; intros a H; [constructor|]. cbn [decr] in H. apply andb_true_iff in H. destruct H as [H1 H2]. apply Z.ltb_lt in H1.
    constructor; [exact H1|]. eapply Forall_impl; [|apply IH; exact H2]. cbn. intros; lia. }
  induction l as [|a l IH]; intros H; [constructor|]. constructor.
  - intros X. pose proof (K l a H) as F. rewrite Forall_forall in F. specialize (F a X). lia.
  - apply IH. destruct l as [|b l]; [reflexivity|]. cbn [decr] in H. apply andb_true_iff in H. apply H.
Qed.

Theorem pocklington N mulN cs : (forall q, mulN q = q * N) -> Forall prime (map pc_q cs) ->
  (1 <? N) && decr (map pc_q cs) && (N <? (fold_right Z.mul 1 (map pc_q cs)) * (fold_right Z.mul 1 (map pc_q cs))) && forallb (pc_check N mulN) cs = true -> prime N.
Proof.
  intros HN P H. rewrite !andb_true_iff in H. destruct H as (((H1 & H2) & H3) & H4). apply Z.ltb_lt in H1, H3. apply decr_nodup in H2.
  apply prime_by_divisors; [exact H1|]. intros p Pp D. pose proof (prime_ge_2 p Pp) as G2.
  assert (F : Forall (fun q => (q | p - 1)) (map pc_q cs)).
  { apply Forall_forall. intros q Hq. apply in_map_iff in Hq. destruct Hq as (c & E & Hc). rewrite forallb_forall in H4. specialize (H4 c Hc).
    rewrite Forall_forall in P. assert (Pq : prime q) by (apply P; rewrite <- E; now apply in_map).
    destruct c as [[[[q' b] w] k] l]. cbn [pc_q pc_check] in *. subst q. apply andb_true_iff in H4. destruct H4 as [C1 C2]. apply Z.eqb_eq in C1, C2.
    pose proof (pchain_spec N mulN b HN q' l) as S1. rewrite C1 in S1.
    apply (order_divides N (Zpos q') b p Pp Pq D); [|exists w; exists k; rewrite C2; apply HN].
    destruct S1 as [j Hj]. exists (- j). lia. }
  apply (divide_prod _ _ P H2) in F. apply Z.divide_pos_le in F; [|lia].
  assert (0 <= fold_right Z.mul 1 (map pc_q cs)).
  { clear -P. induction (map pc_q cs) as [|x l IH]; cbn [fold_right]; [lia|]. inversion P; subst. pose proof (prime_ge_2 x H1). specialize (IH H2). nia. }
  nia.
Qed.

(** small primes by trial division *)
Fixpoint trial (N : Z) (d : Z) (fuel : nat) : bool :=
  match fuel with
  | O => N <? d * d
  | S f => if N <? d * d then true else negb (Z.rem N d =? 0) && trial N (d + 1) f
  end.
Lemma trial_spec N fuel : forall d, 2 <= d -> trial N d fuel = true -> forall p, d <= p -> (p | N) -> N < p * p.
Proof.
  induction fuel as [|f IH]; intros d Hd H p Hp D; cbn [trial] in H.
  - apply Z.ltb_lt in H. nia.
  - destruct (N <? d * d) eqn:E; [apply Z.ltb_lt in E; nia|]. apply andb_true_iff in H. destruct H as [H1 H2].
    destruct (Z.eq_dec p d) as [->|Ne]; [|apply (IH (d + 1)); auto; lia].
    exfalso. apply negb_true_iff in H1. apply Z.eqb_neq in H1. apply H1. apply Z.rem_divide; [lia|exact D].
Qed.
Lemma small_prime N : (1 <? N) && trial N 2 200 = true -> prime N.
Proof.
  intros H. apply andb_true_iff in H. destruct H as [H1 H2]. apply Z.ltb_lt in H1. apply prime_by_divisors; [exact H1|].
  intros p Pp D. apply (trial_spec N 200 2 ltac:(lia) H2 p); [|exact D]. pose proof (prime_ge_2 p Pp). lia.
Qed.
