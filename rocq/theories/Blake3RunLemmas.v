(** Lemmas: BLAKE3_Update4. *)
From Coq Require Import Sorted Permutation.
From Verif Require Import Base Blocks HashSpec MdLemmas BlakeSpec Blake2 HashLemmas Blake2Lemmas DerLemmas Blake3Spec Blake3 Blake3Lemmas Blake3TreeLemmas Blake3NodeLemmas Blake3ClimbLemmas.

Lemma upd_end (p : list Z) c n : upd (length p) c (p ++ repeat 0 (S n)) = (p ++ [c]) ++ repeat 0 n.
Proof. cbn [repeat]. rewrite (upd_mid p 0 c (repeat 0 n) (length p) eq_refl), <- app_assoc. reflexivity. Qed.
Lemma upd_nth_ne {A} (l : list A) p v i d : i <> p -> nth i (upd p v l) d = nth i l d.
Proof. intros H. now apply nth_upd_neq; auto. Qed.

Lemma fold_cons {A B} (f : A -> B -> A) a l x : fold_left f (a :: l) x = fold_left f l (f x a).
Proof. reflexivity. Qed.
Definition jstep (f : b3_node -> b3_node) (x : blake3) (p : nat) : blake3 := set_nodes x (upd p (f (node_at x p)) (b3_nodes x)).
Lemma jobs_nth f : forall ps x, NoDup ps -> (forall p, In p ps -> (p < length (b3_nodes x))%nat) ->
  exists l, fold_left (jstep f) ps x = set_nodes x l /\ length l = length (b3_nodes x) /\
    forall i, nth i l no_node = if in_dec Nat.eq_dec i ps then f (nth i (b3_nodes x) no_node) else nth i (b3_nodes x) no_node.
Proof.
  induction ps as [|p ps IH]; intros x ND R.
  - exists (b3_nodes x). cbn [fold_left]. rewrite set_nodes_id. split; [reflexivity|]. split; [reflexivity|]. intros i. destruct (in_dec Nat.eq_dec i []) as [[]|]; reflexivity.
  - cbn [fold_left]. unfold jstep at 2. inversion ND as [|? ? NI ND']; subst.
    destruct (IH (set_nodes x (upd p (f (node_at x p)) (b3_nodes x))) ND') as (l & E & L & H).
    + intros q Hq. rewrite nodes_set, upd_length. apply R. now right.
    + exists l. rewrite E, set_nodes2. split; [reflexivity|]. rewrite nodes_set, upd_length in L. split; [exact L|]. intros i. rewrite H, nodes_set.
      destruct (Nat.eq_dec i p) as [->|NE].
      * destruct (in_dec Nat.eq_dec p ps) as [I|_]; [contradiction|]. destruct (in_dec Nat.eq_dec p (p :: ps)) as [_|N]; [|exfalso; apply N; now left].
        rewrite nth_upd_eq by (apply R; now left). reflexivity.
      * rewrite nth_upd_neq by auto. destruct (in_dec Nat.eq_dec i ps) as [I|N]; destruct (in_dec Nat.eq_dec i (p :: ps)) as [I'|N']; try reflexivity.
        -- exfalso. apply N'. now right.
        -- exfalso. destruct I' as [<-|I']; [now apply NE|contradiction].
Qed.
Lemma jobs_gen f ps x L M R : b3_nodes x = L ++ M ++ R -> Permutation (seq (length L) (length M)) ps ->
  fold_left (jstep f) ps x = set_nodes x (L ++ map f M ++ R).
Proof.
  intros E P. destruct (jobs_nth f ps x) as (l & E1 & E2 & E3).
  - apply (Permutation_NoDup P). apply seq_NoDup.
  - intros p Hp. apply (Permutation_in _ (Permutation_sym P)) in Hp. apply in_seq in Hp. rewrite E, !app_length. lia.
  - rewrite E1. f_equal. apply (nth_ext l (L ++ map f M ++ R) no_node no_node); [rewrite E2, E, !app_length, map_length; reflexivity|]. intros i _. rewrite E3, E.
    assert (II : In i ps <-> (length L <= i < length L + length M)%nat).
    { split; [intros Hp; apply (Permutation_in _ (Permutation_sym P)) in Hp; now apply in_seq in Hp|]. intros H. apply (Permutation_in _ P). now apply in_seq. }
    destruct (Nat.lt_ge_cases i (length L)) as [A|A].
    { destruct (in_dec Nat.eq_dec i ps) as [I|_]; [apply (proj1 II) in I; lia|]. now rewrite !app_nth1 by lia. }
    rewrite !(app_nth2 L) by lia. destruct (Nat.lt_ge_cases (i - length L) (length M)) as [B|B].
    + destruct (in_dec Nat.eq_dec i ps) as [_|N]; [|exfalso; apply N, II; lia]. rewrite !app_nth1 by (rewrite ?map_length; lia).
      rewrite (nth_indep (map f M) no_node (f no_node)) by (rewrite map_length; lia). now rewrite map_nth.
    + destruct (in_dec Nat.eq_dec i ps) as [I|_]; [apply (proj1 II) in I; lia|]. rewrite !app_nth2 by (rewrite ?map_length; lia). now rewrite map_length.
Qed.


Section U.
Variables (key : list Z) (kf : Z).
Hypothesis CK : cvok key.
Hypothesis KF : kf = 0 \/ kf = 16.
Notation tree := (tree key kf).
Notation node_rep := (node_rep key kf).
Notation cfg := (cfg key kf).
Notation emp := (emp kf).
Notation reps := (reps key kf).

Definition pend (p : list Z) (nd : b3_node) : Prop :=
  n_hashed nd = false /\ n_height nd = 0%nat /\ n_remain nd = length p /\ n_d nd = kf /\ n_buf nd = p ++ repeat 0 (1024 - length p) /\ (length p <= 1024)%nat.
Lemma emp_pend e : emp e -> pend [] e.
Proof. intros (A & B & C & D & E). unfold pend. cbn [length app]. change (1024 - 0)%nat with 1024%nat. repeat split; try assumption. apply Nat.le_0_l. Qed.
Definition jb (nd : b3_node) : b3_node := mark_hashed (h1 key nd) 0.
Lemma jb_rep t p nd : pend p nd -> n_t nd = Z.of_nat t -> Z.of_nat t < 2 ^ 64 -> node_rep t [p] (jb nd) /\ n_height (jb nd) = 0%nat.
Proof.
  intros (A & B & C & D & E & F) Ht Hb. split; [|reflexivity].
  assert (K8 : firstn 8 key = key) by (apply firstn_all2; destruct CK as [L _]; rewrite L; apply Nat.le_refl).
  destruct (leaf_loop kf KF false nd B D) with (k := 15%nat) (t := 0%nat) (h := key) (data := p) as [Q _].
  - rewrite Ht. clear -Hb. lia.
  - reflexivity.
  - rewrite K8. exact CK.
  - change (0 * 64)%nat with 0%nat. rewrite skipn_O, E. reflexivity.
  - exact F.
  - auto.
  - destruct (Q eq_refl) as (h' & E1 & L1 & E2). change (S 15) with 16%nat in E1. assert (EJ : n_buf (jb nd) = concat (map (le_bytes 4) h') ++ skipn 64 (n_buf nd)) by (unfold jb, h1; rewrite C, E1; reflexivity).
    assert (LO : length (concat (map (le_bytes 4) h')) = 64%nat) by (rewrite concat_le_length, L1; reflexivity).
    assert (LBf : length (n_buf nd) = 1024%nat). { rewrite E, app_length, repeat_length. clear -F. lia. }
    split; [|split; [discriminate|left; split; [reflexivity|]]]; rewrite EJ.
    + rewrite app_length, LO, skipn_length, LBf. reflexivity.
    + rewrite firstn_app, LO. change (32 - 64)%nat with 0%nat. rewrite firstn_O, app_nil_r. unfold cvoct. rewrite tree_one. unfold b3_chunk. rewrite <- Ht.
      rewrite K8 in E2. change (if (0 =? 0)%nat then 1 else 0) with CHUNK_START in E2. change (S 15) with 16%nat in E2. rewrite <- E2. rewrite octets_first. reflexivity.
Qed.
Fixpoint lfs (t : nat) (ls : list (list Z)) (Ls : list b3_node) : Prop :=
  match ls, Ls with
  | [], [] => True
  | c :: ls, n :: Ls => pend c n /\ length c = 1024%nat /\ n_t n = Z.of_nat t /\ lfs (S t) ls Ls
  | _, _ => False
  end.
Lemma lfs_len : forall ls t Ls, lfs t ls Ls -> length Ls = length ls.
Proof. induction ls as [|c ls IH]; intros t [|n Ls] H; cbn in H; try contradiction; [reflexivity|]. destruct H as (_ & _ & _ & H). cbn. now rewrite (IH _ _ H). Qed.
Lemma lfs_snoc : forall ls t Ls c n, lfs t ls Ls -> pend c n -> length c = 1024%nat -> n_t n = Z.of_nat (t + length ls) -> lfs t (ls ++ [c]) (Ls ++ [n]).
Proof.
  induction ls as [|c0 ls IH]; intros t [|n0 Ls] c n H P L T; cbn in H; try contradiction.
  - cbn [app lfs]. cbn [length] in T. rewrite Nat.add_0_r in T. auto.
  - destruct H as (H1 & H2 & H3 & H4). cbn [app lfs]. split; [exact H1|]. split; [exact H2|]. split; [exact H3|]. apply IH; auto. rewrite T. f_equal. cbn [length]. lia.
Qed.
Lemma lfs_chunks : forall ls t Ls, lfs t ls Ls -> Forall (fun c => length c = 1024%nat) ls.
Proof. induction ls as [|c ls IH]; intros t [|n Ls] H; cbn in H; try contradiction; [constructor|]. destruct H as (_ & L & _ & H). constructor; [exact L|eauto]. Qed.
Lemma lfs_reps : forall ls t Ls, lfs t ls Ls -> Z.of_nat (t + length ls) < 2 ^ 64 -> reps t ls (map jb Ls).
Proof.
  induction ls as [|c ls IH]; intros t [|n Ls] H B; cbn in H; try contradiction; [reflexivity|]. destruct H as (P & L & T & H). cbn [map Blake3ClimbLemmas.reps]. exists [c], ls. split; [reflexivity|].
  cbn [length] in B. destruct (jb_rep t c n P T) as [R1 R2]; [clear -B; lia|]. rewrite R2. split; [reflexivity|]. split; [exact R1|]. cbn [length]. rewrite Nat.add_1_r. apply IH; [exact H|]. rewrite <- Nat.add_succ_comm in B. exact B.
Qed.

(** * The state while a batch is being filled *)
Definition tail_ok (p : list Z) (Ts : list b3_node) : Prop := match Ts with [] => p = [] | T :: Es => pend p T /\ Forall emp Es end.
Definition FI (Bs : list b3_node) (cs : list (list Z)) (Ls : list b3_node) (ls : list (list Z)) (p : list Z) (Ts : list b3_node) (x : blake3) : Prop :=
  cfg x /\ b3_nodes x = Bs ++ Ls ++ Ts /\ length (b3_nodes x) = 65%nat /\ b3_branches x = length Bs /\ b3_leaves x = length Ls /\
  b3_t x = Z.of_nat (length cs + length ls) /\ lfs (length cs) ls Ls /\ tail_ok p Ts.
Lemma fill_ok Bs cs : forall fuel x inp Ls ls p Ts, FI Bs cs Ls ls p Ts x -> (65 - (length Bs + length Ls) + length inp <= fuel)%nat ->
  Z.of_nat (1024 * (length cs + length ls) + length p + length inp) < 2 ^ 64 ->
  exists y rest Ls' ls' p' Ts', update_fill fuel x inp = (y, rest) /\ FI Bs cs Ls' ls' p' Ts' y /\ concat ls ++ p ++ inp = concat ls' ++ p' ++ rest /\
    (rest = [] \/ Ts' = []) /\ (rest = [] -> p' <> [] \/ (inp = [] /\ p' = p)).
Proof.
  induction fuel as [|fuel IH]; intros x inp Ls ls p Ts HF Fu Bd.
  - assert (inp = []) by (destruct inp; [reflexivity|cbn in Fu; lia]). subst inp. exists x, [], Ls, ls, p, Ts. cbn [update_fill]. split; [reflexivity|]. split; [exact HF|]. split; [reflexivity|]. split; [left; reflexivity|]. intros _. right. split; reflexivity.
  - cbn [update_fill]. destruct inp as [|c inp]; [exists x, [], Ls, ls, p, Ts; split; [reflexivity|]; split; [exact HF|]; split; [reflexivity|]; split; [left; reflexivity|]; intros _; right; split; reflexivity|].
    pose proof HF as (Cx & Nx & Lx & Bx & Vx & Tx & LF & TO). rewrite Bx, Vx.
    assert (LN : (length Bs + length Ls + length Ts = 65)%nat) by (rewrite Nx, !app_length in Lx; lia).
    destruct (Nat.leb_spec NODES_COUNT (length Bs + length Ls)) as [Q|Q]; unfold NODES_COUNT in Q.
    + exists x, (c :: inp), Ls, ls, p, Ts. split; [reflexivity|]. split; [exact HF|]. split; [reflexivity|]. split; [right; destruct Ts; [reflexivity|cbn in LN; lia]|discriminate].
    + destruct Ts as [|T Es]; [cbn in LN; lia|]. destruct TO as [PT EE]. 
      assert (NT : b3_nodes x = (Bs ++ Ls) ++ T :: Es) by (rewrite Nx, <- app_assoc; reflexivity).
      assert (LBL : length (Bs ++ Ls) = (length Bs + length Ls)%nat) by apply app_length.
      assert (AT : node_at x (length Bs + length Ls) = T) by (unfold node_at; rewrite NT; apply nth_mid; exact LBL). rewrite AT, NT.
      pose proof PT as (P1 & P2 & P3 & P4 & P5 & P6). rewrite P3.
      destruct (Nat.eqb_spec (length p) 1024) as [FL|NF].
      * rewrite (upd_mid (Bs ++ Ls) _ _ _ _ LBL).
        set (T' := {| n_hashed := n_hashed T; n_height := n_height T; n_remain := length p; n_d := n_d T; n_t := b3_t x; n_buf := n_buf T |}).
        match goal with |- context [update_fill fuel ?y _] => destruct (IH y (c :: inp) (Ls ++ [T']) (ls ++ [p]) [] Es) as (y' & rest & Ls' & ls' & p' & Ts' & E1 & E2 & E3 & E4 & E5) end.
        -- split; [exact Cx|]. split; [cbn [b3_nodes set_counts set_nodes]; rewrite <- !app_assoc; reflexivity|]. split; [cbn [b3_nodes set_counts set_nodes]; rewrite <- Lx, NT, !app_length; reflexivity|].
           split; [reflexivity|]. split; [cbn [b3_leaves set_counts]; rewrite app_length; cbn [length]; lia|].
           split; [cbn [b3_t set_counts set_nodes]; rewrite Tx, app_length; cbn [length]; unfold u64; rewrite Z.mod_small; [lia|]; clear -Bd; cbn [length] in Bd; lia|].
           split; [apply lfs_snoc; [exact LF| |exact FL|exact Tx]|].
           ++ unfold pend, T'. cbn [n_hashed n_height n_remain n_d n_t n_buf]. split; [exact P1|]. split; [exact P2|]. split; [reflexivity|]. split; [exact P4|]. split; [exact P5|exact P6].
           ++ destruct Es as [|e Es]; [reflexivity|]. inversion EE as [|? ? QE FE]. split; [apply emp_pend; exact QE|exact FE].
        -- rewrite app_length. cbn [length] in *. lia.
        -- rewrite app_length. cbn [length] in *. clear -Bd FL. rewrite FL in Bd. lia.
        -- exists y', rest, Ls', ls', p', Ts'. split; [exact E1|]. split; [exact E2|]. split; [|split; [exact E4|]].
           ++ rewrite <- E3. rewrite concat_app. cbn [concat]. rewrite app_nil_r, <- app_assoc. reflexivity.
           ++ intros R. destruct (E5 R) as [G|[G _]]; [left; exact G|discriminate G].
      * rewrite (upd_mid (Bs ++ Ls) _ _ _ _ LBL).
        set (T' := {| n_hashed := n_hashed T; n_height := n_height T; n_remain := S (length p); n_d := n_d T; n_t := n_t T; n_buf := upd (length p) c (n_buf T) |}).
        match goal with |- context [update_fill fuel ?y _] => destruct (IH y inp Ls ls (p ++ [c]) (T' :: Es)) as (y' & rest & Ls' & ls' & p' & Ts' & E1 & E2 & E3 & E4 & E5) end.
        -- split; [exact Cx|]. split; [cbn [b3_nodes set_nodes]; rewrite <- !app_assoc; reflexivity|]. split; [cbn [b3_nodes set_nodes]; rewrite <- Lx, NT, !app_length; reflexivity|].
           split; [exact Bx|]. split; [exact Vx|]. split; [exact Tx|]. split; [exact LF|]. split; [|exact EE].
           unfold pend, T'. cbn [n_hashed n_height n_remain n_d n_t n_buf]. rewrite app_length. cbn [length]. rewrite Nat.add_1_r. split; [exact P1|]. split; [exact P2|]. split; [reflexivity|]. split; [exact P4|].
           assert (RW : (1024 - length p = S (1024 - S (length p)))%nat) by (clear -NF P6; lia). split; [|clear -NF P6; lia]. rewrite P5, RW. apply upd_end.
        -- cbn [length] in *. lia.
        -- rewrite app_length. cbn [length] in *. clear -Bd. lia.
        -- exists y', rest, Ls', ls', p', Ts'. split; [exact E1|]. split; [exact E2|]. split; [|split; [exact E4|]].
           ++ rewrite <- E3. rewrite <- app_assoc. reflexivity.
           ++ intros R. destruct (E5 R) as [G|[_ G]]; [left; exact G|]. left. rewrite G. intros Z. destruct p; discriminate Z.
Qed.

(** * Jobs *)
Lemma job_eq x p : cfg x -> job_hash1leaf x p = set_nodes x (upd p (jb (node_at x p)) (b3_nodes x)).
Proof. intros C. unfold job_hash1leaf. rewrite (hash1_h1 key kf x _ C). reflexivity. Qed.
Lemma jobs_step : forall ps x, cfg x -> fold_left job_hash1leaf ps x = fold_left (jstep jb) ps x.
Proof. induction ps as [|p ps IH]; intros x C; [reflexivity|]. rewrite !fold_cons. rewrite (job_eq x p C). fold (jstep jb x p). apply IH. unfold jstep. apply cfg_nodes. exact C. Qed.
Lemma jobs_ok ps x L M R : cfg x -> b3_nodes x = L ++ M ++ R -> Permutation (seq (length L) (length M)) ps ->
  fold_left job_hash1leaf ps x = set_nodes x (L ++ map jb M ++ R).
Proof. intros C E P. rewrite jobs_step by exact C. apply jobs_gen; assumption. Qed.

(** * Between calls *)
Definition QI (x : blake3) (cs : list (list Z)) (p : list Z) : Prop :=
  exists Bs Ts, FI Bs cs [] [] p Ts x /\ reps 0 cs Bs /\ StronglySorted gt (ht Bs) /\ root_ok Bs /\ Forall (fun c => length c = 1024%nat) cs.
Lemma concat_1024 cs : Forall (fun c : list Z => length c = 1024%nat) cs -> length (concat cs) = (1024 * length cs)%nat.
Proof. induction 1 as [|c cs H F IH]; [reflexivity|]. cbn [concat length]. rewrite app_length, H, IH. lia. Qed.
Lemma height_ge : forall Bs h, StronglySorted gt (h :: ht Bs) -> (length Bs <= h)%nat.
Proof.
  induction Bs as [|n Bs IH]; intros h H; [cbn; lia|]. apply (proj1 (SS_cons _ _ _)) in H. destruct H as [H F]. cbn [length]. specialize (IH _ H). specialize (F (n_height n) (or_introl eq_refl)). lia.
Qed.
Lemma reps_lower : forall Bs lo cs, StronglySorted gt (ht Bs) -> reps lo cs Bs -> 2 ^ Z.of_nat (length Bs) <= Z.of_nat (length cs) + 1.
Proof.
  induction Bs as [|n Bs IH]; intros lo cs H R; [cbn in R; subst cs; cbn; lia|]. pose proof (height_ge Bs (n_height n) H) as HG. apply (proj1 (SS_cons _ _ _)) in H. destruct H as [H _].
  destruct R as (c1 & c2 & -> & L1 & _ & R). specialize (IH _ _ H R). rewrite app_length, L1. cbn [length]. rewrite Nat2Z.inj_succ, Z.pow_succ_r by lia. rewrite Nat2Z.inj_add, Nat2Z.inj_pow.
  assert (2 ^ Z.of_nat (length Bs) <= Z.of_nat 2 ^ Z.of_nat (n_height n)) by (change (Z.of_nat 2) with 2; apply Z.pow_le_mono_r; lia). lia.
Qed.
Lemma reps_upper : forall Bs h lo cs, StronglySorted gt (h :: ht Bs) -> reps lo cs Bs -> (length cs < 2 ^ h)%nat.
Proof.
  induction Bs as [|n Bs IH]; intros h lo cs H R; [cbn in R; subst cs; cbn; assert (2 ^ h <> 0)%nat by (apply Nat.pow_nonzero; lia); lia|].
  apply (proj1 (SS_cons _ _ _)) in H. destruct H as [H F]. specialize (F (n_height n) (or_introl eq_refl)).
  destruct R as (c1 & c2 & -> & L1 & _ & R). specialize (IH _ _ _ H R). rewrite app_length, L1. assert (2 ^ S (n_height n) <= 2 ^ h)%nat by (apply Nat.pow_le_mono_r; lia). rewrite pow_sum in *. lia.
Qed.
Lemma few Bs lo cs : StronglySorted gt (ht Bs) -> reps lo cs Bs -> Z.of_nat (1024 * length cs) < 2 ^ 64 -> (length Bs <= 54)%nat.
Proof.
  intros S R B. pose proof (reps_lower Bs lo cs S R) as Q. destruct (Nat.le_gt_cases (length Bs) 54) as [L|G]; [exact L|exfalso].
  assert (2 ^ 55 <= 2 ^ Z.of_nat (length Bs)) by (apply Z.pow_le_mono_r; lia). lia.
Qed.
Lemma SS_gt_ge l : StronglySorted gt l -> StronglySorted ge l.
Proof. induction 1 as [|a l S1 IH F]; constructor; [exact IH|]. eapply Forall_impl; [|exact F]. intros; lia. Qed.
Lemma ht_jb Ls : forall y, In y (ht (map jb Ls)) -> y = 0%nat.
Proof. intros y H. unfold ht in H. rewrite map_map in H. apply in_map_iff in H. destruct H as (n & <- & _). reflexivity. Qed.
Lemma SS_zero Ls : StronglySorted ge (ht (map jb Ls)).
Proof. induction Ls as [|n Ls IH]; [constructor|]. cbn [map ht]. constructor; [exact IH|]. apply Forall_forall. intros y Hy. apply ht_jb in Hy. subst y. lia. Qed.
(** update_climb after the jobs of a batch *)
Lemma batch_climb x Bs cs Ls ls Ts : cfg x -> b3_nodes x = Bs ++ map jb Ls ++ Ts -> b3_branches x = length Bs -> b3_leaves x = length Ls -> lfs (length cs) ls Ls \/ (exists t p, ls = [p] /\ exists n, Ls = [n] /\ pend p n /\ n_t n = Z.of_nat t /\ t = length cs) ->
  Z.of_nat (length cs + length ls) < 2 ^ 64 -> reps 0 cs Bs -> StronglySorted gt (ht Bs) -> root_ok Bs ->
  exists Bs' E1, update_climb x = set_counts (set_nodes x (Bs' ++ Ts ++ E1)) (b3_t x) 0 (length Bs') /\ reps 0 (cs ++ ls) Bs' /\ StronglySorted gt (ht Bs') /\ root_ok Bs' /\ Forall emp E1 /\
    (length Bs' + length E1 = length Bs + length Ls)%nat.
Proof.
  intros C N B V LF Bd R S Ro. unfold update_climb. set (x0 := set_counts x (b3_t x) 0 (b3_branches x + b3_leaves x)).
  assert (LBB : length (Bs ++ map jb Ls) = (length Bs + length Ls)%nat) by (rewrite app_length, map_length; reflexivity).
  destruct (climb_ok key kf CK KF (b3_branches x0 * Datatypes.S (b3_branches x0)) x0 0 (Bs ++ map jb Ls) Ts (cs ++ ls)) as (Bs' & E1 & Q1 & Q2 & Q3 & Q4 & Q5 & Q6).
  - exact C.
  - change (b3_nodes x0) with (b3_nodes x). rewrite N, app_assoc. reflexivity.
  - cbn [b3_branches x0 set_counts]. lia.
  - apply (proj2 (reps_app key kf _ _ _ _)). exists cs, ls. split; [reflexivity|]. split; [exact R|]. destruct LF as [LF|(t & p & -> & n & -> & P1 & P2 & ->)]; [apply lfs_reps; assumption|].
    cbn [map Blake3ClimbLemmas.reps]. exists [p], []. cbn [length] in Bd. destruct (jb_rep (length cs) p n P1 P2) as [R1 R2]; [clear -Bd; lia|]. rewrite R2. auto.
  - rewrite ht_app. apply (proj2 (SS_app _ _ _)). split; [apply SS_gt_ge; exact S|]. split; [apply SS_zero|]. intros u v _ Hv. apply ht_jb in Hv. lia.
  - destruct (Bs ++ map jb Ls); cbn [firstn ht map]; repeat constructor.
  - intros n Q Hn. destruct Bs as [|b Bs0]; cbn [app] in Q.
    + destruct Ls as [|m Ls0]; [discriminate Q|]. cbn [map] in Q. injection Q as <- _. cbn in Hn. lia.
    + injection Q as -> Q. destruct Bs0; [|discriminate Q]. apply Ro; [reflexivity|exact Hn].
  - cbn [b3_branches x0 set_counts]. rewrite LBB, B, V. lia.
  - exists Bs', E1. rewrite Q1. split; [reflexivity|]. split; [exact Q2|]. split; [exact Q3|]. split; [exact Q4|]. split; [exact Q5|]. lia.
Qed.
Section S.
Variable sched : Z -> list nat -> list nat.
Hypothesis SO : forall t ps, Permutation ps (sched t ps).
Lemma batch_ok x Bs cs Ls ls p Ts : FI Bs cs Ls ls p Ts x -> Z.of_nat (1024 * (length cs + length ls)) < 2 ^ 64 -> reps 0 cs Bs -> StronglySorted gt (ht Bs) -> root_ok Bs -> Forall (fun c => length c = 1024%nat) cs ->
  QI (update_1bat2tc sched x) (cs ++ ls) p.
Proof.
  intros (Cx & Nx & Lx & Bx & Vx & Tx & LF & TO) Bd R S Ro F1024. unfold update_1bat2tc, run_jobs. rewrite Bx, Vx.
  rewrite (jobs_ok (sched (b3_t x) (seq (length Bs) (length Ls))) x Bs Ls Ts Cx Nx (SO _ _)).
  destruct (batch_climb (set_nodes x (Bs ++ map jb Ls ++ Ts)) Bs cs Ls ls Ts Cx eq_refl Bx Vx (or_introl LF)) as (Bs' & E1 & Q1 & Q2 & Q3 & Q4 & Q5 & Q6); [clear -Bd; lia|exact R|exact S|exact Ro|].
  rewrite Q1. exists Bs', (Ts ++ E1). split; [|split; [exact Q2|split; [exact Q3|split; [exact Q4|apply Forall_app; split; [exact F1024|exact (lfs_chunks _ _ _ LF)]]]]].
  split; [exact Cx|]. split; [reflexivity|]. split.
  { cbn [b3_nodes set_counts set_nodes]. rewrite <- Lx, Nx, !app_length. lia. }
  split; [reflexivity|]. split; [reflexivity|]. split; [cbn [b3_t set_counts set_nodes]; rewrite Tx, app_length; cbn [length]; now rewrite Nat.add_0_r|]. split; [exact I|].
  destruct Ts as [|T Es]; cbn [app tail_ok].
  - cbn in TO. subst p. destruct E1 as [|e E1]; [reflexivity|]. inversion Q5 as [|? ? QE FE]. split; [apply emp_pend; exact QE|exact FE].
  - destruct TO as [TP TE]. split; [exact TP|]. apply Forall_app. split; assumption.
Qed.
Lemma update_ok : forall fuel inp x cs p, QI x cs p -> (length inp < fuel)%nat -> Z.of_nat (1024 * length cs + length p + length inp) < 2 ^ 64 -> (inp <> [] \/ p <> [] \/ cs = []) ->
  exists cs' p', QI (update_loop sched fuel x inp) cs' p' /\ concat cs ++ p ++ inp = concat cs' ++ p' /\ (p' <> [] \/ cs' = []).
Proof.
  induction fuel as [|fuel IH]; intros inp x cs p Q Fu Bd NE; [lia|]. destruct Q as (Bs & Ts & HF & R & S & Ro & F1024).
  cbn [update_loop]. destruct (fill_ok Bs cs (NODES_COUNT + length inp) x inp [] [] p Ts HF) as (y & rest & Ls' & ls' & p' & Ts' & E1 & E2 & E3 & E4 & E5); [unfold NODES_COUNT; cbn [length]; lia|cbn [length]; rewrite Nat.add_0_r; exact Bd|].
  rewrite E1. cbn [concat app] in E3. assert (LF' : lfs (length cs) ls' Ls') by (destruct E2 as (_ & _ & _ & _ & _ & _ & G & _); exact G).
  assert (E3L : (length p + length inp = 1024 * length ls' + length p' + length rest)%nat).
  { pose proof (f_equal (@length Z) E3) as G. rewrite !app_length in G. rewrite (concat_1024 ls') in G by exact (lfs_chunks _ _ _ LF'). lia. }
  assert (Bd2 : Z.of_nat (1024 * (length cs + length ls')) < 2 ^ 64) by (clear -Bd E3L; lia).
  pose proof (batch_ok y Bs cs Ls' ls' p' Ts' E2 Bd2 R S Ro F1024) as QB.
  assert (LP : (length p <= 1024)%nat). { destruct HF as (_ & _ & _ & _ & _ & _ & _ & TO). destruct Ts; [cbn in TO; subst p; cbn; lia|]. destruct TO as [(_ & _ & _ & _ & _ & G) _]. exact G. }
  destruct (Nat.ltb_spec (length rest) (length inp)) as [LT|GE].
  - destruct (IH rest (update_1bat2tc sched y) (cs ++ ls') p' QB) as (cs2 & p2 & Q2 & C2 & N2); [lia|rewrite app_length; clear -Bd E3L; lia| |].
    + destruct rest; [|left; discriminate]. right. left. destruct (E5 eq_refl) as [G|[G _]]; [exact G|]. subst inp. cbn in LT. lia.
    + exists cs2, p2. split; [exact Q2|]. split; [|exact N2]. rewrite <- C2, concat_app, <- app_assoc, <- E3. reflexivity.
  - assert (RN : rest = []).
    { destruct E4 as [G|G]; [exact G|exfalso]. subst Ts'. destruct E2 as (_ & Ny & Ly & _ & _ & _ & _ & _). rewrite Ny, !app_length in Ly. cbn [length] in Ly.
      assert (LE : (length Bs <= 54)%nat) by (apply (few Bs 0 cs S R); clear -Bd; lia). rewrite (lfs_len _ _ _ LF') in Ly. lia. }
    subst rest. cbn [length] in GE. assert (inp = []) by (destruct inp; [reflexivity|cbn in GE; lia]). subst inp. cbn [length] in E3L.
    exists (cs ++ ls'), p'. split; [exact QB|]. split; [rewrite concat_app, <- app_assoc, E3; now rewrite app_nil_r|].
    destruct (E5 eq_refl) as [G|[_ G]]; [left; exact G|]. subst p'. destruct ls'; [|cbn [length] in E3L; lia]. rewrite app_nil_r. destruct NE as [G|G]; [now destruct G|exact G].
Qed.
End S.
End U.
