(** Lemmas: the nodes of blake3.c and their merging. *)
From Coq Require Import Sorted Permutation.
From Verif Require Import Base Blocks HashSpec MdLemmas BlakeSpec Blake2 HashLemmas Blake2Lemmas DerLemmas Blake3Spec Blake3 Blake3Lemmas Blake3TreeLemmas.

Lemma octets_first (h : list Z) n : b3_octets (firstn n h) = firstn (4 * n) (b3_octets h).
Proof.
  unfold b3_octets. revert n. induction h as [|a h IH]; intros n; [rewrite !firstn_nil; reflexivity|]. destruct n; [rewrite Nat.mul_0_r, !firstn_O; reflexivity|].
  cbn [firstn map concat]. rewrite IH. rewrite firstn_app, le_bytes_length. replace (4 * S n - 4)%nat with (4 * n)%nat by lia. f_equal. rewrite firstn_all2; [reflexivity|]. rewrite le_bytes_length. lia.
Qed.
Lemma octets_len h : length (b3_octets h) = (length h * 4)%nat.
Proof. apply concat_le_length. Qed.
Lemma nth_mid {A} (L : list A) n R d i : length L = i -> nth i (L ++ n :: R) d = n.
Proof. intros <-. rewrite app_nth2 by lia. now rewrite Nat.sub_diag. Qed.
Lemma upd_mid {A} (L : list A) n m R i : length L = i -> upd i m (L ++ n :: R) = L ++ m :: R.
Proof. intros <-. induction L as [|a L IH]; [reflexivity|]. cbn [length app upd]. now rewrite IH. Qed.

Section N.
Variables (key : list Z) (kf : Z).
Hypothesis CK : cvok key.
Hypothesis KF : kf = 0 \/ kf = 16.
Notation tree := (tree key kf).

Definition cfg (x : blake3) : Prop :=
  b3_finalize x = false /\ (if b3_keyed x then b3_k x else blake_IV) = key /\ (if b3_keyed x then 16 else 0) = kf.
Lemma cfg_nodes x l : cfg x -> cfg (set_nodes x l).
Proof. intros H. exact H. Qed.
Lemma cfg_counts x t a b : cfg x -> cfg (set_counts x t a b).
Proof. intros H. exact H. Qed.
Lemma set_nodes2 x l l' : set_nodes (set_nodes x l) l' = set_nodes x l'.
Proof. reflexivity. Qed.
Lemma set_nodes_id x : set_nodes x (b3_nodes x) = x.
Proof. destruct x. reflexivity. Qed.
Lemma nodes_set x l : b3_nodes (set_nodes x l) = l.
Proof. reflexivity. Qed.

(** hash1node while finalize is not set *)
Definition h1 (nd : b3_node) : b3_node :=
  match hash_loop 16 false nd 0 key (n_remain nd) with
  | inl (h, r) => {| n_hashed := n_hashed nd; n_height := n_height nd; n_remain := r; n_d := n_d nd; n_t := n_t nd; n_buf := concat (map (le_bytes 4) h) ++ skipn 64 (n_buf nd) |}
  | inr _ => nd
  end.
Lemma hash1_h1 x nd : cfg x -> hash1node x nd = (h1 nd, None).
Proof.
  intros (F & K & D). unfold hash1node, h1. rewrite F, K. destruct (loop_inl nd 16 0 key (n_remain nd)) as [h' [r' E]]. rewrite E. reflexivity.
Qed.
Definition cm (nd : b3_node) : b3_node := mark_hashed (h1 nd) (n_height nd).
Lemma h1_height nd : n_height (h1 nd) = n_height nd.
Proof. unfold h1. destruct (hash_loop _ _ _ _ _ _) as [[? ?]|]; reflexivity. Qed.
Lemma commit_eq x p L n R : cfg x -> b3_nodes x = L ++ n :: R -> length L = p -> commit1parent x p = set_nodes x (L ++ cm n :: R).
Proof.
  intros C E P. unfold commit1parent. rewrite hash1_h1 by exact C. unfold node_at. rewrite E, nth_mid, upd_mid by exact P. unfold cm. rewrite h1_height. reflexivity.
Qed.
Definition cmt (nd : b3_node) : b3_node := if n_hashed nd then nd else cm nd.
Lemma commit_if_eq x p L n R : cfg x -> b3_nodes x = L ++ n :: R -> length L = p -> commit_if x p = set_nodes x (L ++ cmt n :: R).
Proof.
  intros C E P. unfold commit_if, cmt. unfold node_at at 1. rewrite E, nth_mid by exact P. destruct (n_hashed n).
  - rewrite <- E. symmetry. apply set_nodes_id.
  - now apply commit_eq.
Qed.
Definition emp (nd : b3_node) : Prop := n_hashed nd = false /\ n_height nd = 0%nat /\ n_remain nd = 0%nat /\ n_d nd = kf /\ n_buf nd = repeat 0 1024.
Definition jn (n1 n2 : b3_node) : b3_node :=
  {| n_hashed := false; n_height := S (n_height n1); n_remain := 64; n_d := kf; n_t := 0; n_buf := firstn 32 (n_buf n1) ++ firstn 32 (n_buf n2) ++ skipn 64 (n_buf n1) |}.
Lemma join_eq x i L n1 n2 R : cfg x -> b3_nodes x = L ++ n1 :: n2 :: R -> length L = i -> join2nodes x i = set_nodes x (L ++ jn n1 n2 :: n2 :: R).
Proof.
  intros (_ & _ & D) E P. assert (P2 : length (L ++ [n1]) = S i) by (rewrite app_length, P; cbn; lia).
  unfold join2nodes, node_at. cbv zeta. rewrite E. rewrite (nth_mid L n1 (n2 :: R) no_node i P).
  assert (E2 : L ++ n1 :: n2 :: R = (L ++ [n1]) ++ n2 :: R) by (now rewrite <- app_assoc).
  assert (N2 : nth (S i) (L ++ n1 :: n2 :: R) no_node = n2) by (rewrite E2; apply nth_mid; exact P2). rewrite N2, D. rewrite (upd_mid L _ _ _ i P). reflexivity.
Qed.
Lemma bury_eq x i L n R : b3_nodes x = L ++ n :: R -> length L = i -> bury1node x i = set_nodes x (L ++ R ++ [n]).
Proof.
  intros E P. assert (SK : skipn (S i) (L ++ n :: R) = R).
  { assert (E2 : L ++ n :: R = (L ++ [n]) ++ R) by (now rewrite <- app_assoc). rewrite E2. apply skipn_app_exact. rewrite app_length, P. cbn. lia. }
  unfold bury1node, node_at. rewrite E, nth_mid, SK by exact P. rewrite firstn_app, P, Nat.sub_diag, firstn_O, app_nil_r, firstn_all2 by lia. reflexivity.
Qed.
Lemma merge_eq x i L n1 n2 R : cfg x -> b3_nodes x = L ++ n1 :: n2 :: R -> length L = i ->
  exists e, emp e /\ merge_at x i = set_nodes x (L ++ jn (cmt n1) (cmt n2) :: R ++ [e]).
Proof.
  intros C E P. unfold merge_at. rewrite (commit_if_eq x i L n1 (n2 :: R) C E P).
  assert (E2 : forall n, L ++ n :: n2 :: R = (L ++ [n]) ++ n2 :: R) by (intros n; now rewrite <- app_assoc).
  assert (P2 : forall n, length (L ++ [n]) = S i) by (intros n; rewrite app_length, P; cbn; lia).
  rewrite (commit_if_eq _ (S i) (L ++ [cmt n1]) n2 R (cfg_nodes _ _ C)); [|rewrite nodes_set; apply E2|apply P2].
  rewrite set_nodes2. rewrite (join_eq _ i L (cmt n1) (cmt n2) R (cfg_nodes _ _ C)); [|rewrite nodes_set, <- app_assoc; reflexivity|exact P].
  rewrite set_nodes2. set (j := jn (cmt n1) (cmt n2)). assert (DK : (if b3_keyed x then 16 else 0) = kf) by (destruct C as (_ & _ & D); exact D).
  assert (EJ : L ++ j :: cmt n2 :: R = (L ++ [j]) ++ cmt n2 :: R) by (now rewrite <- app_assoc). rewrite EJ.
  unfold node_at. cbv zeta. rewrite !nodes_set. rewrite (nth_mid (L ++ [j]) (cmt n2) R no_node (S i) (P2 _)). rewrite (upd_mid (L ++ [j]) _ _ R (S i) (P2 _)). rewrite set_nodes2.
  change (b3_keyed (set_nodes x ((L ++ [j]) ++ cmt n2 :: R))) with (b3_keyed x).
  exists (init1node (b3_keyed x) (cmt n2)). split; [unfold emp, init1node; cbn [n_hashed n_height n_remain n_d n_buf]; rewrite DK; auto|].
  rewrite (bury_eq _ (S i) (L ++ [j]) (init1node (b3_keyed x) (cmt n2)) R); [|reflexivity|apply P2]. rewrite set_nodes2, <- app_assoc. reflexivity.
Qed.

(** * What a node stands for *)
Definition cvoct (o : b3_out) : list Z := b3_octets (b3_cv o).
Definition isparent (o : b3_out) : Prop := o_cv o = key /\ o_t o = 0 /\ o_len o = 64 /\ o_flags o = Z.lor kf 4.
Definition waiting (o : b3_out) (nd : b3_node) : Prop :=
  n_hashed nd = false /\ (0 < n_height nd)%nat /\ n_remain nd = 64%nat /\ n_d nd = kf /\ n_t nd = 0 /\ firstn 64 (n_buf nd) = o_block o /\ isparent o.
Definition node_rep (lo : nat) (cs : list (list Z)) (nd : b3_node) : Prop :=
  length (n_buf nd) = 1024%nat /\ cs <> [] /\
  ((n_hashed nd = true /\ firstn 32 (n_buf nd) = cvoct (tree lo cs)) \/ waiting (tree lo cs) nd).
Lemma cm_hashed nd : n_hashed (cm nd) = true /\ n_height (cm nd) = n_height nd.
Proof. split; reflexivity. Qed.
Lemma waiting_cm o nd : length (n_buf nd) = 1024%nat -> waiting o nd -> length (n_buf (cm nd)) = 1024%nat /\ firstn 32 (n_buf (cm nd)) = cvoct o.
Proof.
  intros L (H & HH & R & D & T & B & (P1 & P2 & P3 & P4)). unfold cm, h1. rewrite R, (parent_loop key kf CK KF false nd 15 HH D T). cbn [mark_hashed n_buf].
  assert (D2 : 0 <= Z.lor kf 4 < 32) by (destruct KF as [-> | ->]; vm_compute; split; congruence).
  destruct (compress_eq key (firstn 64 (n_buf nd)) 0 64 (Z.lor kf 4)) as [_ [LC _]]; [apply CK|apply CK|lia|lia|lia|].
  assert (LO : length (concat (map (le_bytes 4) (b3_compress key (firstn 64 (n_buf nd)) 0 64 (Z.lor kf 4)))) = 64%nat) by (rewrite concat_le_length, LC; reflexivity).
  split; [rewrite app_length, LO, skipn_length; lia|]. rewrite firstn_app, LO. change (32 - 64)%nat with 0%nat. rewrite firstn_O, app_nil_r.
  unfold cvoct, b3_cv. rewrite P1, P2, P3, P4, <- B, octets_first. reflexivity.
Qed.
Lemma cmt_rep lo cs nd : node_rep lo cs nd -> length (n_buf (cmt nd)) = 1024%nat /\ firstn 32 (n_buf (cmt nd)) = cvoct (tree lo cs) /\ n_height (cmt nd) = n_height nd.
Proof.
  intros (L & N & [(H & F)|W]); unfold cmt.
  - rewrite H. auto.
  - pose proof W as (H & _). rewrite H. destruct (waiting_cm _ _ L W) as [A B]. repeat split; assumption.
Qed.
Lemma cm_rep lo cs nd : node_rep lo cs nd -> n_hashed nd = false -> node_rep lo cs (cm nd).
Proof.
  intros (L & N & [(H & F)|W]) H0; [congruence|]. destruct (waiting_cm _ _ L W) as [A B]. split; [exact A|]. split; [exact N|]. left. split; [reflexivity|exact B].
Qed.
Lemma cv_len o : 0 <= o_t o < 2 ^ 64 -> 0 <= o_len o < 2 ^ 32 -> 0 <= o_flags o < 2 ^ 32 -> length (cvoct o) = 32%nat.
Proof. intros A B C. unfold cvoct. rewrite octets_len. unfold b3_cv. rewrite firstn_length. reflexivity. Qed.
Lemma jn_rep lo c1 c2 n1 n2 h : length c1 = (2 ^ h)%nat -> (0 < length c2 <= 2 ^ h)%nat -> node_rep lo c1 n1 -> node_rep (lo + length c1) c2 n2 ->
  node_rep lo (c1 ++ c2) (jn (cmt n1) (cmt n2)) /\ waiting (tree lo (c1 ++ c2)) (jn (cmt n1) (cmt n2)).
Proof.
  intros L1 L2 R1 R2. pose proof (tree_join key kf lo c1 c2 h L1 L2) as TJ.
  destruct (cmt_rep _ _ _ R1) as (A1 & A2 & A3). destruct (cmt_rep _ _ _ R2) as (B1 & B2 & B3).
  assert (LA : length (firstn 32 (n_buf (cmt n1))) = 32%nat) by (rewrite firstn_length; lia).
  assert (LB : length (firstn 32 (n_buf (cmt n2))) = 32%nat) by (rewrite firstn_length; lia).
  assert (W : waiting (tree lo (c1 ++ c2)) (jn (cmt n1) (cmt n2))).
  { unfold waiting, jn. cbn [n_hashed n_height n_remain n_d n_t n_buf]. split; [reflexivity|]. split; [lia|]. split; [reflexivity|]. split; [reflexivity|]. split; [reflexivity|].
    rewrite TJ. unfold b3_parent. cbn [o_block]. split; [|unfold isparent; cbn [o_cv o_t o_len o_flags]; auto].
    rewrite app_assoc, firstn_app, (app_length (firstn 32 _)), LA, LB. change (64 - (32 + 32))%nat with 0%nat. rewrite firstn_O, app_nil_r. rewrite firstn_all2 by (rewrite app_length; lia). rewrite A2, B2. reflexivity. }
  split; [|exact W]. split; [|split; [|right; exact W]].
  - unfold jn. cbn [n_buf]. rewrite !app_length, LA, LB, skipn_length. lia.
  - destruct c2; [cbn in L2; lia|]. intros Z. destruct c1; discriminate Z.
Qed.
End N.
