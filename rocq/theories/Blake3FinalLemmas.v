(** Lemmas: BLAKE3_Final2 and BLAKE3_Read4. *)
From Coq Require Import Sorted Permutation.
From Verif Require Import Base Blocks HashSpec MdLemmas BlakeSpec Blake2 HashLemmas Blake2Lemmas DerLemmas Blake3Spec Blake3 Blake3Lemmas Blake3TreeLemmas Blake3NodeLemmas Blake3ClimbLemmas Blake3RunLemmas.

Definition with_t (nd : b3_node) (t : Z) : b3_node :=
  {| n_hashed := n_hashed nd; n_height := n_height nd; n_remain := n_remain nd; n_d := n_d nd; n_t := t; n_buf := n_buf nd |}.
Lemma enqueue_ok k x L T E Es i : b3_nodes x = L ++ T :: E :: Es -> length L = i -> n_remain E = 0%nat -> (n_remain T <> 0%nat \/ i = 0%nat) -> (n_remain T <= 1024)%nat ->
  final_enqueue (S (S k)) x i [] =
  (set_counts (set_nodes (if (b3_branches x =? 0)%nat && (b3_leaves x =? 0)%nat then set_final x else x) (L ++ with_t T (b3_t x) :: E :: Es)) (u64 (b3_t x + 1)) (S (b3_leaves x)) (b3_branches x), [i]).
Proof.
  intros N LI R0 NZ Le. cbn [final_enqueue]. assert (AT : node_at x i = T) by (unfold node_at; rewrite N; apply nth_mid; exact LI). rewrite AT.
  assert (C1 : (n_remain T =? 0)%nat && (0 <? i)%nat = false). { destruct (Nat.eqb_spec (n_remain T) 0); [|reflexivity]. destruct NZ as [NZ| ->]; [contradiction|reflexivity]. }
  rewrite C1. rewrite (proj2 (Nat.leb_le _ _) Le). cbn [andb].
  set (y := if (b3_branches x =? 0)%nat && (b3_leaves x =? 0)%nat then set_final x else x).
  assert (Y : b3_t y = b3_t x /\ b3_leaves y = b3_leaves x /\ b3_branches y = b3_branches x /\ b3_nodes y = b3_nodes x) by (unfold y; destruct ((b3_branches x =? 0)%nat && (b3_leaves x =? 0)%nat); auto).
  destruct Y as (Y1 & Y2 & Y3 & Y4). rewrite Y4, N, (upd_mid L _ _ _ i LI). cbn [b3_t b3_leaves b3_branches set_nodes]. rewrite Y1, Y2, Y3. fold (with_t T (b3_t x)).
  match goal with |- context [node_at ?z (S i)] => assert (AE : node_at z (S i) = E) end.
  { unfold node_at. cbn [b3_nodes set_counts set_nodes]. assert (Q : L ++ with_t T (b3_t x) :: E :: Es = (L ++ [with_t T (b3_t x)]) ++ E :: Es) by (now rewrite <- app_assoc). rewrite Q. apply nth_mid. rewrite app_length. cbn. lia. }
  rewrite AE, R0. reflexivity.
Qed.

Section F.
Variables (key : list Z) (kf : Z).
Hypothesis CK : cvok key.
Hypothesis KF : kf = 0 \/ kf = 16.
Notation tree := (tree key kf).
Notation node_rep := (node_rep key kf).
Notation cfg := (cfg key kf).
Notation emp := (emp kf).
Notation reps := (reps key kf).
Notation pend := (pend kf).
Notation waiting := (waiting key kf).

(** * The state in which BLAKE3_Read4 can be called *)
Definition RS (x : blake3) (o : b3_out) (t : Z) : Prop :=
  b3_finalize x = true /\ b3_t x = t /\ b3_k x = o_cv o /\
  exists t' r', fin_ok o (n_buf (node_at x 0)) t' r' /\ n_remain (node_at x 0) = (r' + t' * 64)%nat /\ n_d (node_at x 0) = Z.lor (o_flags o) 8.

Fixpoint fr (lo : nat) (cs : list (list Z)) (A : list b3_node) (n : b3_node) : Prop :=
  match A with
  | [] => node_rep lo cs n
  | a :: A => exists c1 c2, cs = c1 ++ c2 /\ length c1 = (2 ^ n_height a)%nat /\ (0 < length c2 <= 2 ^ n_height a)%nat /\ node_rep lo c1 a /\ fr (lo + length c1) c2 A n
  end.
Lemma fr_merge n : forall A a lo cs, fr lo cs (A ++ [a]) n -> fr lo cs A (cm key (jn kf (cmt key a) (cmt key n))) /\ fr lo cs A (jn kf (cmt key a) (cmt key n)).
Proof.
  induction A as [|b A IH]; intros a lo cs H; cbn [app fr] in *.
  - destruct H as (c1 & c2 & -> & L1 & L2 & N1 & N2). destruct (jn_rep key kf CK KF lo c1 c2 a n (n_height a) L1 L2 N1 N2) as [J1 J2]. split; [|exact J1]. apply cm_rep; auto.
  - destruct H as (c1 & c2 & -> & L1 & L2 & N1 & F). destruct (IH _ _ _ F) as [F1 F2]. split; exists c1, c2; auto.
Qed.
Lemma fmerge_ok : forall i x a A n Es cs, cfg x -> length A = i -> b3_nodes x = (a :: A) ++ n :: Es -> b3_branches x = (i + 2)%nat -> fr 0 cs (a :: A) n ->
  exists n' Es', final_merge i x = set_counts (set_nodes x (a :: n' :: Es')) (b3_t x) (b3_leaves x) 2 /\ fr 0 cs [a] n'.
Proof.
  induction i as [|i IH]; intros x a A n Es cs C LA N B F.
  - destruct A; [|discriminate LA]. exists n, Es. cbn [final_merge]. split; [|exact F]. cbn in B, N. rewrite <- N, set_nodes_id. rewrite <- B. destruct x; reflexivity.
  - cbn [final_merge]. assert (SP : exists A' b, A = A' ++ [b] /\ length A' = i).
    { exists (removelast A), (last A no_node). assert (AN : A <> []) by (intros ->; discriminate LA). split; [now apply app_removelast_last|]. rewrite (app_removelast_last no_node AN), app_length in LA. cbn in LA. lia. }
    destruct SP as (A' & b & -> & LA').
    assert (N1 : b3_nodes x = (a :: A') ++ b :: n :: Es) by (rewrite N; cbn [app]; rewrite <- app_assoc; reflexivity).
    destruct (merge_eq key kf x (S i) (a :: A') b n Es C N1) as (e & Ee & EM); [cbn; lia|]. rewrite EM.
    set (j := jn kf (cmt key b) (cmt key n)).
    rewrite (commit_eq key kf (set_nodes x ((a :: A') ++ j :: Es ++ [e])) (S i) (a :: A') j (Es ++ [e]) (cfg_nodes key kf _ _ C) eq_refl) by (cbn; lia). rewrite set_nodes2.
    destruct (fr_merge n (a :: A') b 0 cs F) as [F1 _]. fold j in F1.
    match goal with |- context [final_merge i ?y] => destruct (IH y a A' (cm key j) (Es ++ [e]) cs) as (n' & Es' & Q1 & Q2) end.
    + exact C.
    + exact LA'.
    + reflexivity.
    + cbn [b3_branches set_counts set_nodes]. lia.
    + exact F1.
    + exists n', Es'. rewrite Q1. split; [reflexivity|exact Q2].
Qed.
Lemma reps_fr : forall A n lo cs, StronglySorted gt (ht (A ++ [n])) -> reps lo cs (A ++ [n]) -> fr lo cs A n.
Proof.
  induction A as [|a A IH]; intros n lo cs S R; cbn [app fr Blake3ClimbLemmas.reps] in *.
  - destruct R as (c1 & c2 & -> & L1 & N & ->). now rewrite app_nil_r.
  - destruct R as (c1 & c2 & -> & L1 & N & R). exists c1, c2. split; [reflexivity|]. split; [exact L1|]. pose proof (reps_upper key kf (A ++ [n]) (n_height a) _ _ S R) as U.
    apply (proj1 (SS_cons _ _ _)) in S. destruct S as [S _]. split; [|split; [exact N|exact (IH _ _ _ S R)]]. split; [|lia].
    pose proof (reps_lower key kf (A ++ [n]) _ _ S R) as Lw. rewrite app_length in Lw. cbn [length] in Lw. assert (2 ^ 1 <= 2 ^ Z.of_nat (length A + 1)) by (apply Z.pow_le_mono_r; lia). lia.
Qed.
Lemma root_commit x n Es o lv br t : cfg x -> waiting o n -> length (n_buf n) = 1024%nat -> (n_hashed n = false) ->
  let y := set_counts (set_nodes x (n :: Es)) t lv br in
  let z := if n_hashed (node_at y 0) then y else let w := commit1parent (set_final y) 0 in set_counts w (b3_t w) (b3_leaves w) (b3_branches w - 1) in RS (set_counts z 0 (b3_leaves z) (b3_branches z)) o 0.
Proof.
  intros (F & K & D) (H & HH & R & Dn & Tn & B & (P1 & P2 & P3 & P4)) L _ y. cbv zeta.
  assert (A : node_at y 0 = n) by reflexivity. rewrite A, H. unfold commit1parent, hash1node.
  change (b3_finalize (set_final y)) with true. change (b3_keyed (set_final y)) with (b3_keyed x). change (b3_k (set_final y)) with (b3_k x). rewrite K.
  change (node_at (set_final y) 0) with n. rewrite R, (parent_loop key kf CK KF true n 15 HH Dn Tn). cbn [set_k].
  unfold RS. split; [reflexivity|]. split; [reflexivity|]. split; [symmetry; exact P1|]. exists 0%nat, 64%nat.
  split; [|split; [reflexivity|rewrite P4; reflexivity]]. change (n_buf (node_at _ 0)) with (n_buf n). unfold fin_ok. split; [lia|]. split; [lia|]. split; [lia|]. split; [exact P3|]. rewrite Nat.mul_0_l, skipn_O. split; [symmetry; exact B|].
  split; [rewrite P1; exact CK|]. rewrite P4. destruct KF as [-> | ->]; vm_compute; split; congruence.
Qed.

Lemma climb_one f x : b3_branches x = 1%nat -> climb_loop f x 0 = x.
Proof. intros B. destruct f; [reflexivity|]. cbn [climb_loop]. rewrite B. reflexivity. Qed.
Section S.
Variable sched : Z -> list nat -> list nat.
Hypothesis SO : forall t ps, Permutation ps (sched t ps).
Lemma sched_one t i : sched t [i] = [i].
Proof. apply Permutation_length_1_inv. apply SO. Qed.
Lemma final_single x T E Es p : b3_nodes x = T :: E :: Es -> pend p T -> n_t T = 0 -> b3_finalize x = true -> (if b3_keyed x then b3_k x else blake_IV) = key -> b3_branches x = 0%nat -> b3_leaves x = 1%nat ->
  let z := final_climb (run_jobs sched x [0%nat]) in RS (set_counts z 0 (b3_leaves z) (b3_branches z)) (tree 0 [p]) 0.
Proof.
  intros N (A & B & C & D & E0 & F) Ht Fi K Br Lv.
  assert (K8 : firstn 8 key = key) by (apply firstn_all2; destruct CK as [L _]; rewrite L; apply Nat.le_refl).
  destruct (leaf_loop kf KF true T B D) with (k := 15%nat) (t := 0%nat) (h := key) (data := p) as [_ Q].
  - rewrite Ht. lia.
  - reflexivity.
  - rewrite K8. exact CK.
  - change (0 * 64)%nat with 0%nat. rewrite skipn_O, E0. reflexivity.
  - exact F.
  - auto.
  - destruct (Q eq_refl) as (t' & r' & E1 & FO). clear Q. change (S 15) with 16%nat in E1, FO. rewrite K8, Ht in E1, FO. change (if (0 =? 0)%nat then 1 else 0) with CHUNK_START in E1, FO. fold (b3_chunk key kf 0 p) in E1, FO.
    change (b3_chunk key kf 0 p) with (tree 0 [p]) in E1, FO. set (o := tree 0 [p]) in *. clearbody o.
    assert (J : exists nd, run_jobs sched x [0%nat] = set_k (set_nodes x (nd :: E :: Es)) (Some (o_cv o)) /\ n_hashed nd = true /\ n_buf nd = n_buf T /\ n_remain nd = (r' + t' * 64)%nat /\ n_d nd = Z.lor (o_flags o) 8).
    { unfold run_jobs. rewrite sched_one, fold_cons. change (fold_left job_hash1leaf [] ?a) with a.
      exists (mark_hashed {| n_hashed := n_hashed T; n_height := n_height T; n_remain := (r' + t' * 64)%nat; n_d := Z.lor (o_flags o) 8; n_t := n_t T; n_buf := n_buf T |} 0).
      split; [|cbn [mark_hashed n_hashed n_buf n_remain n_d]; auto]. unfold job_hash1leaf, hash1node. assert (AT : node_at x 0 = T) by (unfold node_at; rewrite N; reflexivity).
      rewrite AT, Fi, K, C, E1, N. reflexivity. }
    destruct J as (nd & EJ & H1 & H2 & H3 & H4). rewrite EJ. cbn [set_k]. unfold final_climb, update_climb. cbn [b3_branches b3_leaves set_counts set_nodes b3_t]. rewrite Br, Lv. change (0 + 1)%nat with 1%nat.
    rewrite climb_one by reflexivity. cbn [b3_branches set_counts]. change (1 - 2)%nat with 0%nat. cbn [final_merge b3_branches]. change (1 =? 2)%nat with false. cbv iota.
    match goal with |- context [n_hashed (node_at ?y 0)] => change (node_at y 0) with nd end. rewrite H1. cbv zeta.
    unfold RS. cbn [b3_finalize b3_t b3_k set_counts]. split; [exact Fi|]. split; [reflexivity|]. split; [reflexivity|]. exists t', r'.
    match goal with |- context [node_at ?y 0] => change (node_at y 0) with nd end. rewrite H2. auto.
Qed.
Lemma final_many x Bs T E Es cs p : cfg x -> b3_nodes x = Bs ++ T :: E :: Es -> pend p T -> n_t T = Z.of_nat (length cs) -> b3_branches x = length Bs -> b3_leaves x = 1%nat -> cs <> [] ->
  Z.of_nat (length cs + 1) < 2 ^ 64 -> reps 0 cs Bs -> StronglySorted gt (ht Bs) -> root_ok Bs ->
  let z := final_climb (run_jobs sched x [length Bs]) in RS (set_counts z 0 (b3_leaves z) (b3_branches z)) (tree 0 (cs ++ [p])) 0.
Proof.
  intros C N P Ht Br Lv CN Bd R S Ro. unfold run_jobs. rewrite sched_one.
  rewrite (jobs_ok key kf [length Bs] x Bs [T] (E :: Es) C N (Permutation_refl _)).
  destruct (batch_climb key kf CK KF (set_nodes x (Bs ++ map (jb key) [T] ++ E :: Es)) Bs cs [T] [p] (E :: Es) C eq_refl Br Lv) as (Bs' & E1 & Q1 & Q2 & Q3 & Q4 & Q5 & Q6).
  { right. exists (length cs), p. split; [reflexivity|]. exists T. auto. }
  { exact Bd. } { exact R. } { exact S. } { exact Ro. }
  unfold final_climb. rewrite Q1. rewrite set_nodes2. set (Z0 := (E :: Es) ++ E1). cbn [b3_t set_nodes].
  assert (LC : (2 <= length (cs ++ [p]))%nat) by (rewrite app_length; destruct cs; [now destruct CN|cbn; lia]).
  destruct Bs' as [|a Bs0]; [cbn in Q2; rewrite Q2 in LC; cbn in LC; lia|].
  destruct Bs0 as [|b Bs1].
  - cbn [b3_branches set_counts length]. change (1 - 2)%nat with 0%nat. cbn [final_merge b3_branches]. change (1 =? 2)%nat with false. cbv iota.
    destruct Q2 as (c1 & c2 & EC & L1 & N1 & R1). cbn in R1. subst c2. rewrite app_nil_r in EC. subst c1.
    assert (HP : (0 < n_height a)%nat) by (destruct (n_height a); [cbn in L1; lia|lia]). pose proof (Q4 a eq_refl HP) as UH.
    destruct N1 as (LB & _ & [(HH & _)|W]); [congruence|]. apply (root_commit x a Z0 (tree 0 (cs ++ [p])) 0 1 (b3_t x) C W LB UH).
  - assert (SP : exists A n, b :: Bs1 = A ++ [n]) by (destruct (exists_last (l := b :: Bs1)) as (A & n & E2); [discriminate|eauto]). destruct SP as (A & n & EA). rewrite EA in *. clear b Bs1 EA.
    assert (LA : length (a :: A ++ [n]) = (length A + 2)%nat) by (cbn [length]; rewrite app_length; cbn; lia). cbn [b3_branches set_counts]. rewrite LA. replace (length A + 2 - 2)%nat with (length A) by lia.
    pose proof (reps_fr (a :: A) n 0 (cs ++ [p]) Q3 Q2) as FR.
    destruct (fmerge_ok (length A) (set_counts (set_nodes x ((a :: A ++ [n]) ++ Z0)) (b3_t x) 0 (length A + 2)) a A n Z0 (cs ++ [p])) as (n' & Es' & M1 & M2).
    + exact C.
    + reflexivity.
    + cbn [b3_nodes set_counts set_nodes app]. rewrite <- app_assoc. reflexivity.
    + reflexivity.
    + exact FR.
    + rewrite M1. clear M1. cbn [b3_branches set_counts b3_t b3_leaves set_nodes]. change (2 =? 2)%nat with true. cbv iota.
      match goal with |- context [merge_at ?y 0] => destruct (merge_eq key kf y 0 [] a n' Es') as (e & Ee & EM) end; [exact C|reflexivity|reflexivity|]. rewrite EM. clear EM. cbn [app].
      destruct M2 as (c1 & c2 & EC & L1 & L2 & N1 & N2). cbn [fr] in N2. rewrite EC. destruct (jn_rep key kf CK KF 0 c1 c2 a n' (n_height a) L1 L2 N1 N2) as [J1 J2].
      set (j := jn kf (cmt key a) (cmt key n')) in *.
      apply (root_commit x j (Es' ++ [e]) (tree 0 (c1 ++ c2)) 0 2 (b3_t x) C J2); [exact (proj1 J1)|reflexivity].
Qed.
Lemma final_ok x cs p : QI key kf x cs p -> (p <> [] \/ cs = []) -> Z.of_nat (1024 * length cs + length p) < 2 ^ 64 -> RS (BLAKE3_Final2 sched x) (tree 0 (cs ++ [p])) 0.
Proof.
  intros (Bs & Ts & (Cx & Nx & Lx & Bx & Vx & Tx & LF & TO) & R & SS & Ro & F1024) NE Bd. pose proof Cx as (Fi & Ke & Kd).
  assert (LE : (length Bs <= 54)%nat) by (apply (few key kf Bs 0 cs SS R); clear -Bd; lia).
  cbn [app] in Nx. assert (LT : (11 <= length Ts)%nat) by (rewrite Nx, app_length in Lx; clear -Lx LE; lia).
  destruct Ts as [|T [|E Es]]; [cbn in LT; clear -LT; lia|cbn in LT; clear -LT; lia|]. destruct TO as [PT EE]. apply Forall_inv in EE.
  unfold BLAKE3_Final2. rewrite Fi. unfold final_1bat2tc. rewrite Bx. assert (KK : exists k, (NODES_COUNT - length Bs)%nat = S (S k)) by (exists (63 - length Bs)%nat; unfold NODES_COUNT; clear -LE; lia). destruct KK as [k ->].
  pose proof PT as (P1 & P2 & P3 & P4 & P5 & P6). cbn [length] in Vx.
  rewrite (enqueue_ok k x Bs T E Es (length Bs) Nx eq_refl).
  2:{ destruct EE as (_ & _ & G & _). exact G. }
  2:{ rewrite P3. destruct NE as [G| ->]; [left; destruct p; [now destruct G|discriminate]|]. destruct Bs as [|b Bs]; [right; reflexivity|exfalso]. destruct R as (c1 & c2 & Q & _ & (_ & NN & _) & _). destruct c1; [now apply NN|discriminate Q]. }
  2:{ rewrite P3. exact P6. }
  assert (PT' : pend p (with_t T (b3_t x))) by (unfold Blake3RunLemmas.pend, with_t; cbn [n_hashed n_height n_remain n_d n_t n_buf]; auto).
  rewrite Vx, Bx. cbn [Nat.eqb]. rewrite andb_true_r.
  destruct Bs as [|b Bs].
  - cbn in R. subst cs. cbn [length Nat.eqb app]. apply (final_single _ (with_t T (b3_t x)) E Es p); try reflexivity; [exact PT'|exact Tx|exact Ke].
  - change (length (b :: Bs) =? 0)%nat with false. cbv iota.
    assert (CN : cs <> []). { intros ->. destruct R as (c1 & c2 & Q & _ & (_ & NN & _) & _). destruct c1; [now apply NN|discriminate Q]. }
    apply (final_many _ (b :: Bs) (with_t T (b3_t x)) E Es cs p); try reflexivity; try assumption; [cbn [length] in Tx; rewrite Nat.add_0_r in Tx; exact Tx|clear -Bd CN; destruct cs; [now destruct CN|cbn [length] in *; lia]].
Qed.
End S.
End F.

(** * Reading *)
Lemma nth_skip (l : list Z) a : nthZ 0 (skipn a l) = nthZ a l.
Proof. unfold nthZ. rewrite nth_skipn. now rewrite Nat.add_0_r. Qed.
Lemma tl_skip (l : list Z) a : tl (skipn a l) = skipn (S a) l.
Proof. revert a. induction l as [|z l IH]; intros a; [destruct a; reflexivity|]. destruct a; [reflexivity|]. cbn [skipn]. rewrite IH. reflexivity. Qed.
Lemma read_ok_loop o buf s b : cvok (o_cv o) -> 0 <= o_flags o < 32 -> o_len o = Z.of_nat b -> (b <= 64)%nat -> o_block o = firstn 64 (skipn s buf) ->
  forall len t blk, Z.of_nat (t + len) < 2 ^ 64 ->
  (forall l, blk = Some l -> (t mod 64 <> 0)%nat -> l = skipn (t mod 64) (b3_octets (b3_compress (o_cv o) (o_block o) (Z.of_nat (t / 64)) (o_len o) (Z.lor (o_flags o) ROOT)))) ->
  read_loop len (o_cv o) buf s b (Z.lor (o_flags o) 8) (Z.of_nat t) blk = (Z.of_nat (t + len), map (b3_root_octet o) (seq t len)).
Proof.
  intros CO FL OL LB OB. induction len as [|len IH]; intros t blk Bd HB.
  - cbn [read_loop seq map]. now rewrite Nat.add_0_r.
  - cbn [read_loop]. set (D := fun i => b3_octets (b3_compress (o_cv o) (o_block o) (Z.of_nat (i / 64)) (o_len o) (Z.lor (o_flags o) ROOT))).
    assert (ZM : Z.of_nat t mod 64 = Z.of_nat (t mod 64)) by (rewrite Nat2Z.inj_mod; reflexivity).
    assert (ZD : Z.of_nat t / 64 = Z.of_nat (t / 64)) by (rewrite Nat2Z.inj_div; reflexivity).
    assert (FB : 0 <= Z.lor (o_flags o) 8 < 2 ^ 32).
    { split; [apply Z.lor_nonneg; lia|]. destruct (Z_lt_le_dec (Z.lor (o_flags o) 8) (2 ^ 32)) as [Y|Y]; [exact Y|exfalso]. apply Z.log2_le_pow2 in Y.
      - rewrite Z.log2_lor in Y by lia. assert (Z.log2 (o_flags o) <= Z.log2 32) by (apply Z.log2_le_mono; lia). change (Z.log2 32) with 5 in *. change (Z.log2 8) with 3 in *. lia.
      - assert (0 <= Z.lor (o_flags o) 8) by (apply Z.lor_nonneg; lia). destruct (Z.eq_dec (Z.lor (o_flags o) 8) 0) as [Q|Q]; [|lia]. rewrite Q in Y. lia. }
    assert (T64 : 0 <= Z.of_nat (t / 64) < 2 ^ 64). { pose proof (Nat.div_le_upper_bound t 64 t ltac:(lia) ltac:(lia)). lia. }
    assert (CQ : concat (map (le_bytes 4) (blake3_compress (o_cv o) (firstn 64 (skipn s buf)) (Z.of_nat t / 64) (Z.of_nat b) (Z.lor (o_flags o) 8))) = D t).
    { rewrite ZD, <- OL, <- OB. destruct (compress_eq (o_cv o) (o_block o) (Z.of_nat (t / 64)) (o_len o) (Z.lor (o_flags o) 8)) as [Q _]; [apply CO|apply CO|exact T64|rewrite OL; lia|exact FB|]. rewrite Q. reflexivity. }
    rewrite CQ, ZM, Nat2Z.id.
    set (l := match match blk with Some l => if Z.of_nat (t mod 64) =? 0 then None else Some l | None => None end with Some l => l | None => skipn (t mod 64) (D t) end).
    assert (EL : l = skipn (t mod 64) (D t)).
    { unfold l. destruct blk as [l0|]; [|reflexivity]. destruct (Z.eqb_spec (Z.of_nat (t mod 64)) 0) as [Q|Q]; [reflexivity|]. apply HB; [reflexivity|lia]. }
    rewrite EL. assert (U : u64 (Z.of_nat t + 1) = Z.of_nat (S t)) by (unfold u64; rewrite Z.mod_small; lia). rewrite U.
    rewrite (IH (S t) (Some (tl (skipn (t mod 64) (D t))))).
    + rewrite nth_skip. cbn [seq map]. replace (S t + len)%nat with (t + S len)%nat by lia. change (nthZ (t mod 64) (D t)) with (b3_root_octet o t). reflexivity.
    + lia.
    + intros l1 Q NZ. injection Q as <-. rewrite tl_skip.
      assert (DM : (S t / 64 = t / 64 /\ S t mod 64 = S (t mod 64))%nat).
      { pose proof (Nat.div_mod t 64 ltac:(lia)) as E0. pose proof (Nat.mod_upper_bound t 64 ltac:(lia)) as B0.
        assert (NS : (S (t mod 64) < 64)%nat). { destruct (Nat.eq_dec (S (t mod 64)) 64) as [Q|Q]; [exfalso|lia]. apply NZ. symmetry. apply (Nat.mod_unique (S t) 64 (S (t / 64)) 0); lia. }
        split; [symmetry; apply (Nat.div_unique (S t) 64 (t / 64) (S (t mod 64))); lia|symmetry; apply (Nat.mod_unique (S t) 64 (t / 64) (S (t mod 64))); lia]. }
      destruct DM as [DM1 DM2]. rewrite DM2. unfold D. rewrite DM1. reflexivity.
Qed.
Lemma read_ok x o t len (rw : bool) : RS x o (Z.of_nat t) -> Z.of_nat ((if rw then 0 else t) + len) < 2 ^ 64 ->
  exists y, BLAKE3_Read4 x len rw = (y, map (b3_root_octet o) (seq (if rw then 0 else t)%nat len)) /\ RS y o (Z.of_nat ((if rw then 0 else t) + len)).
Proof.
  intros (Fi & Tx & Kx & (t' & r' & FO & Rm & Dn)) Bd. pose proof FO as (F1 & F2 & F3 & F4 & F5 & F6 & F7).
  unfold BLAKE3_Read4. rewrite Rm, Dn, Tx, Kx.
  assert (BS : (if ((r' + t' * 64) mod 64 =? 0)%nat && (0 <? r' + t' * 64 - (r' + t' * 64) mod 64)%nat then (64%nat, (r' + t' * 64 - (r' + t' * 64) mod 64 - 64)%nat) else ((r' + t' * 64) mod 64, r' + t' * 64 - (r' + t' * 64) mod 64)%nat) = (r', (t' * 64)%nat)).
  { rewrite Nat.mod_add by lia. destruct (Nat.eq_dec r' 64) as [->|NE].
    - change (64 mod 64)%nat with 0%nat. cbn [Nat.eqb andb]. rewrite Nat.sub_0_r. destruct (Nat.ltb_spec 0 (64 + t' * 64)); [|lia]. f_equal. lia.
    - rewrite Nat.mod_small by lia. destruct (Nat.eqb_spec r' 0) as [->|NZ].
      + rewrite (F3 eq_refl). reflexivity.
      + cbn [andb]. f_equal. lia. }
  rewrite BS. assert (T0 : (if rw then 0 else Z.of_nat t) = Z.of_nat (if rw then 0 else t)) by (destruct rw; reflexivity). rewrite T0.
  rewrite (read_ok_loop o (n_buf (node_at x 0)) (t' * 64) r' F6 F7 F4 F1 F5 len _ None Bd) by discriminate.
  eexists. split; [reflexivity|]. split; [exact Fi|]. split; [reflexivity|]. split; [exact Kx|]. exists t', r'. auto.
Qed.
Lemma chunks_ok : forall cs p fuel, Forall (fun c : list Z => length c = 1024%nat) cs -> (length p <= 1024)%nat -> (p <> [] \/ cs = []) -> (length cs <= fuel)%nat -> b3_chunks fuel (concat cs ++ p) = cs ++ [p].
Proof.
  induction cs as [|c cs IH]; intros p fuel F Lp NE Fu.
  - cbn [concat app]. destruct fuel; [reflexivity|]. cbn [b3_chunks]. now rewrite (proj2 (Nat.leb_le _ _) Lp).
  - inversion F as [|? ? Lc Fc]; subst. destruct fuel as [|fuel]; [cbn in Fu; lia|]. cbn [concat app b3_chunks].
    assert (NP : p <> []) by (destruct NE as [G|G]; [exact G|discriminate G]).
    assert (LL : (1024 < length ((c ++ concat cs) ++ p))%nat). { rewrite !app_length, Lc. destruct p; [now destruct NP|]. cbn [length]. clear. lia. }
    rewrite (proj2 (Nat.leb_gt _ _) LL). rewrite <- app_assoc. rewrite skipn_app_exact by exact Lc. rewrite firstn_app, Lc, Nat.sub_diag, firstn_O, app_nil_r. rewrite <- Lc at 1. rewrite firstn_all.
    rewrite IH; [reflexivity|exact Fc|exact Lp|left; exact NP|cbn in Fu; lia].
Qed.
