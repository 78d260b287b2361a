(** Lemmas: update_climb. *)
From Coq Require Import Sorted Permutation.
From Verif Require Import Base Blocks HashSpec MdLemmas BlakeSpec Blake2 HashLemmas Blake2Lemmas DerLemmas Blake3Spec Blake3 Blake3Lemmas Blake3TreeLemmas Blake3NodeLemmas.

Lemma SS_app (R : nat -> nat -> Prop) a b : StronglySorted R (a ++ b) <-> StronglySorted R a /\ StronglySorted R b /\ (forall x y, In x a -> In y b -> R x y).
Proof.
  induction a as [|u a IH]; cbn [app].
  - split; [intros H; split; [constructor|split; [exact H|intros ? ? []]]|intros (_ & H & _); exact H].
  - split.
    + intros H. apply StronglySorted_inv in H. destruct H as [H F]. apply (proj1 IH) in H. destruct H as (H1 & H2 & H3). rewrite Forall_app in F. destruct F as [F1 F2].
      split; [constructor; assumption|]. split; [exact H2|]. intros x y [<-|Hx] Hy; [rewrite Forall_forall in F2; auto|auto].
    + intros (H1 & H2 & H3). apply StronglySorted_inv in H1. destruct H1 as [H1 F]. constructor.
      * apply (proj2 IH). split; [exact H1|]. split; [exact H2|]. intros x y Hx Hy. apply H3; [now right|exact Hy].
      * apply Forall_app. split; [exact F|]. apply Forall_forall. intros y Hy. apply H3; [now left|exact Hy].
Qed.
Lemma SS_cons (R : nat -> nat -> Prop) u a : StronglySorted R (u :: a) <-> StronglySorted R a /\ (forall y, In y a -> R u y).
Proof.
  split.
  - intros H. apply StronglySorted_inv in H. destruct H as [H F]. split; [exact H|]. now apply Forall_forall.
  - intros [H F]. constructor; [exact H|]. now apply Forall_forall.
Qed.
Lemma split2 {A} (l : list A) i : (i + 1 < length l)%nat -> exists L a b R, l = L ++ a :: b :: R /\ length L = i.
Proof.
  intros H. exists (firstn i l). assert (L2 : (2 <= length (skipn i l))%nat) by (rewrite skipn_length; lia).
  destruct (skipn i l) as [|a [|b R]] eqn:E; [cbn in L2; lia|cbn in L2; lia|]. exists a, b, R. split; [now rewrite <- E, firstn_skipn|]. rewrite firstn_length. lia.
Qed.
Definition ht (l : list b3_node) : list nat := map n_height l.
Lemma pow_sum h : (2 ^ S h = 2 ^ h + 2 ^ h)%nat.
Proof. rewrite Nat.pow_succ_r'. lia. Qed.

Section C.
Variables (key : list Z) (kf : Z).
Hypothesis CK : cvok key.
Hypothesis KF : kf = 0 \/ kf = 16.
Notation tree := (tree key kf).
Notation node_rep := (node_rep key kf).
Notation cfg := (cfg key kf).
Notation emp := (emp kf).

Fixpoint reps (lo : nat) (cs : list (list Z)) (Bs : list b3_node) : Prop :=
  match Bs with
  | [] => cs = []
  | n :: Bs => exists c1 c2, cs = c1 ++ c2 /\ length c1 = (2 ^ n_height n)%nat /\ node_rep lo c1 n /\ reps (lo + length c1) c2 Bs
  end.
Lemma reps_app A B : forall lo cs, reps lo cs (A ++ B) <-> exists c1 c2, cs = c1 ++ c2 /\ reps lo c1 A /\ reps (lo + length c1) c2 B.
Proof.
  induction A as [|n A IH]; intros lo cs; cbn [app reps].
  - split; [intros H; exists [], cs; cbn; rewrite Nat.add_0_r; auto|]. intros (c1 & c2 & -> & -> & H). cbn in *. now rewrite Nat.add_0_r in H.
  - split.
    + intros (c1 & c2 & -> & L & N & R). apply (proj1 (IH _ _)) in R. destruct R as (d1 & d2 & -> & R1 & R2). exists (c1 ++ d1), d2. rewrite app_assoc. split; [reflexivity|].
      split; [exists c1, d1; auto|]. rewrite app_length, Nat.add_assoc. exact R2.
    + intros (c & c2 & -> & (c1 & d1 & -> & L & N & R1) & R2). exists c1, (d1 ++ c2). rewrite app_assoc. split; [reflexivity|]. split; [exact L|]. split; [exact N|].
      apply (proj2 (IH _ _)). exists d1, c2. rewrite app_length, Nat.add_assoc in R2. auto.
Qed.
Definition root_ok (Bs : list b3_node) : Prop := forall n, Bs = [n] -> (0 < n_height n)%nat -> n_hashed n = false.

Lemma ht_app a b : ht (a ++ b) = ht a ++ ht b.
Proof. apply map_app. Qed.
Lemma climb_ok : forall fuel x i Bs Es cs, cfg x -> b3_nodes x = Bs ++ Es -> b3_branches x = length Bs -> reps 0 cs Bs ->
  StronglySorted ge (ht Bs) -> StronglySorted gt (ht (firstn (S i) Bs)) -> root_ok Bs -> (length Bs * S (length Bs) <= fuel + i)%nat ->
  exists Bs' E1, climb_loop fuel x i = set_counts (set_nodes x (Bs' ++ Es ++ E1)) (b3_t x) (b3_leaves x) (length Bs') /\ reps 0 cs Bs' /\
    StronglySorted gt (ht Bs') /\ root_ok Bs' /\ Forall emp E1 /\ (length Bs' + length E1 = length Bs)%nat.
Proof.
  induction fuel as [|fuel IH]; intros x i Bs Es cs Cx Nx Bx Rp Ge Gt Ro Fu.
  - exists Bs, []. cbn [climb_loop]. rewrite app_nil_r, <- Nx, set_nodes_id, <- Bx. split; [destruct x; reflexivity|]. split; [exact Rp|].
    split; [|split; [exact Ro|split; [constructor|cbn; lia]]]. rewrite firstn_all2 in Gt; [exact Gt|]. nia.
  - cbn [climb_loop]. destruct (Nat.ltb_spec (i + 1) (b3_branches x)) as [Hi|Hi].
    2:{ exists Bs, []. rewrite app_nil_r, <- Nx, set_nodes_id, <- Bx. split; [destruct x; reflexivity|]. split; [exact Rp|].
        split; [|split; [exact Ro|split; [constructor|cbn; lia]]]. rewrite firstn_all2 in Gt; [exact Gt|]. lia. }
    rewrite Bx in Hi. destruct (split2 Bs i Hi) as (L & n1 & n2 & R & EB & LL).
    assert (Nx' : b3_nodes x = L ++ n1 :: n2 :: (R ++ Es)) by (rewrite Nx, EB, <- app_assoc; reflexivity).
    assert (A1 : node_at x i = n1) by (unfold node_at; rewrite Nx'; apply nth_mid; exact LL).
    assert (A2 : node_at x (i + 1) = n2).
    { unfold node_at. rewrite Nx'. assert (Q : L ++ n1 :: n2 :: R ++ Es = (L ++ [n1]) ++ n2 :: R ++ Es) by (now rewrite <- app_assoc). rewrite Q. apply nth_mid. rewrite app_length. cbn. lia. }
    rewrite A1, A2. assert (LB : length Bs = (i + 2 + length R)%nat) by (rewrite EB, app_length; cbn; lia).
    assert (F1 : firstn (S i) Bs = L ++ [n1]).
    { rewrite EB, firstn_app, firstn_all2 by lia. replace (S i - length L)%nat with 1%nat by lia. reflexivity. }
    rewrite F1 in Gt. rewrite ht_app in Gt. apply (proj1 (SS_app _ _ _)) in Gt. destruct Gt as (G1 & _ & G3).
    destruct (Nat.eqb_spec (n_height n1) (n_height n2)) as [EH|NH].
    + destruct (merge_eq key kf x i L n1 n2 (R ++ Es) Cx Nx' LL) as (e & Ee & EM). rewrite EM.
      rewrite EB in Rp. apply (proj1 (reps_app _ _ _ _)) in Rp. destruct Rp as (c0 & c & -> & R0 & (c1 & c' & -> & L1 & N1 & (c2 & c3 & -> & L2 & N2 & R3))).
      assert (P1 : (0 < 2 ^ n_height n1)%nat) by (assert (2 ^ n_height n1 <> 0)%nat by (apply Nat.pow_nonzero; lia); lia).
      destruct (jn_rep key kf CK KF (0 + length c0)%nat c1 c2 n1 n2 (n_height n1) L1) as [J1 J2]; [rewrite L2, <- EH; lia|exact N1|exact N2|].
      set (j := jn kf (cmt key n1) (cmt key n2)) in *.
      assert (HJ : n_height j = S (n_height n1)) by (unfold j, jn; cbn [n_height]; now destruct (cmt_rep key kf CK KF _ _ _ N1) as (_ & _ & ->)).
      set (j' := if (0 <? i)%nat || (2 <? b3_branches x)%nat then cm key j else j).
      assert (EC : (if (0 <? i)%nat || (2 <? b3_branches x)%nat then commit1parent (set_nodes x (L ++ j :: (R ++ Es) ++ [e])) i else set_nodes x (L ++ j :: (R ++ Es) ++ [e]))
                   = set_nodes x (L ++ j' :: (R ++ Es) ++ [e])).
      { unfold j'. destruct ((0 <? i)%nat || (2 <? b3_branches x)%nat); [|reflexivity]. rewrite (commit_eq key kf _ i L j ((R ++ Es) ++ [e]) (cfg_nodes key kf _ _ Cx) eq_refl LL). apply set_nodes2. }
      rewrite EC. 
      assert (HJ' : n_height j' = S (n_height n1)) by (unfold j'; destruct ((0 <? i)%nat || (2 <? b3_branches x)%nat); [destruct (cm_hashed key j) as [_ Q]; rewrite Q; exact HJ|exact HJ]).
      assert (RJ : node_rep (0 + length c0) (c1 ++ c2) j') by (unfold j'; destruct ((0 <? i)%nat || (2 <? b3_branches x)%nat); [apply cm_rep; [exact CK|exact KF|exact J1|reflexivity]|exact J1]).
      assert (UJ : (i = 0)%nat -> R = [] -> n_hashed j' = false).
      { intros -> ->. unfold j'. rewrite Bx, LB. reflexivity. }
      clearbody j'.
      assert (NE : L ++ j' :: (R ++ Es) ++ [e] = (L ++ j' :: R) ++ (Es ++ [e])) by (rewrite <- !app_assoc; cbn [app]; rewrite <- ?app_assoc; reflexivity).
      rewrite NE.
      rewrite EB, ht_app in Ge. apply (proj1 (SS_app _ _ _)) in Ge. destruct Ge as (_ & Ge2 & Ge3). cbn [ht map] in Ge2, Ge3. apply (proj1 (SS_cons _ _ _)) in Ge2. destruct Ge2 as [Ge2 Ge4].
      apply (proj1 (SS_cons _ _ _)) in Ge2. destruct Ge2 as [Ge2 Ge5].
      match goal with |- context [climb_loop fuel ?y 0] => destruct (IH y 0%nat (L ++ j' :: R) (Es ++ [e]) (c0 ++ c1 ++ c2 ++ c3)) as (Bs' & E1 & Q1 & Q2 & Q3 & Q4 & Q5 & Q6) end.
      * exact Cx.
      * reflexivity.
      * cbn [b3_branches set_counts]. rewrite Bx, LB, app_length. cbn [length]. lia.
      * apply (proj2 (reps_app _ _ _ _)). exists c0, (c1 ++ c2 ++ c3). split; [reflexivity|]. split; [exact R0|]. cbn [reps]. exists (c1 ++ c2), c3. rewrite app_assoc. split; [reflexivity|].
        split; [rewrite app_length, L1, L2, HJ', pow_sum, <- EH; reflexivity|]. split; [exact RJ|]. rewrite app_length, Nat.add_assoc. exact R3.
      * rewrite ht_app. apply (proj2 (SS_app _ _ _)). split; [|split].
        -- clear -G1. induction G1 as [|a l S1 IH F]; constructor; [exact IH|]. eapply Forall_impl; [|exact F]. intros; lia.
        -- change (StronglySorted ge (n_height j' :: ht R)). rewrite HJ'. apply (proj2 (SS_cons _ _ _)). split; [exact Ge2|]. intros y Hy. specialize (Ge5 y Hy). lia.
        -- intros u v Hu Hv. change (In v (n_height j' :: ht R)) in Hv. rewrite HJ' in Hv. destruct Hv as [<-|Hv].
           ++ specialize (G3 u (n_height n1) Hu (or_introl eq_refl)). lia.
           ++ apply Ge3; [exact Hu|]. right. right. exact Hv.
      * destruct (L ++ j' :: R); cbn [firstn ht map]; repeat constructor.
      * intros n Q Hn. assert (LQ : length (L ++ j' :: R) = 1%nat) by (rewrite Q; reflexivity). rewrite app_length in LQ. cbn [length] in LQ. destruct L; [|cbn in LQ; lia]. destruct R; [|cbn in LQ; lia]. cbn [app] in Q. injection Q as <-. apply UJ; [symmetry; exact LL|reflexivity].
      * rewrite app_length. cbn [length]. rewrite LB in Fu. nia.
      * exists Bs', (e :: E1). split; [|split; [exact Q2|split; [exact Q3|split; [exact Q4|split; [constructor; assumption|]]]]].
        -- rewrite Q1. cbn [b3_t b3_leaves set_counts set_nodes]. rewrite <- !app_assoc. reflexivity.
        -- cbn [length]. rewrite app_length in Q6. cbn [length] in Q6. rewrite LB. lia.
    + destruct (IH x (i + 1)%nat Bs Es cs Cx Nx Bx Rp Ge) as (Bs' & E1 & Q).
      * assert (F2 : firstn (S (i + 1)) Bs = (L ++ [n1]) ++ [n2]).
        { rewrite EB, firstn_app, firstn_all2 by lia. replace (S (i + 1) - length L)%nat with 2%nat by lia. rewrite <- app_assoc. reflexivity. }
        rewrite F2, ht_app, ht_app. rewrite EB, ht_app in Ge. apply (proj1 (SS_app _ _ _)) in Ge. destruct Ge as (_ & Ge2 & Ge3). cbn [ht map] in Ge2, Ge3. apply (proj1 (SS_cons _ _ _)) in Ge2. destruct Ge2 as [Ge2 Ge4].
        assert (N12 : (n_height n1 > n_height n2)%nat) by (specialize (Ge4 (n_height n2) (or_introl eq_refl)); lia).
        apply (proj2 (SS_app _ _ _)). split; [|split].
        -- apply (proj2 (SS_app _ _ _)). split; [exact G1|]. split; [repeat constructor|]. exact G3.
        -- repeat constructor.
        -- intros u v Hu Hv. destruct Hv as [<-|[]]. apply in_app_or in Hu. destruct Hu as [Hu|[<-|[]]]; [|exact N12]. specialize (G3 u (n_height n1) Hu (or_introl eq_refl)). lia.
      * exact Ro.
      * lia.
      * exists Bs', E1. exact Q.
Qed.
End C.
