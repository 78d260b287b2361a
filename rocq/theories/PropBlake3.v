(** C27: BLAKE3 (src/2-hash/blake3.c). *)
From Coq Require Import Sorted Permutation.
From Verif Require Import Base Blocks HashSpec MdLemmas BlakeSpec Blake2 HashLemmas Blake2Lemmas DerLemmas Blake3Spec Blake3 Blake3Lemmas Blake3TreeLemmas Blake3NodeLemmas Blake3ClimbLemmas Blake3RunLemmas Blake3FinalLemmas.

(** What a user does after the first Final: more Finals, and Reads of n octets, from the start (rewind) or
    from where the last Read stopped. *)
Inductive b3_op := op_final | op_read (n : nat) (rewind : bool).
Definition op_len (o : b3_op) : nat := match o with op_final => 0 | op_read n _ => n end.
Fixpoint b3_session (sched : Z -> list nat -> list nat) (x : blake3) (ops : list b3_op) : list (list Z) :=
  match ops with
  | [] => []
  | op_final :: ops => b3_session sched (BLAKE3_Final2 sched x) ops
  | op_read n rw :: ops => let '(x, out) := BLAKE3_Read4 x n rw in out :: b3_session sched x ops
  end.
(** The same on a stream, [S pos n] being its octets pos .. pos+n-1. *)
Fixpoint stream_session (S : nat -> nat -> list Z) (pos : nat) (ops : list b3_op) : list (list Z) :=
  match ops with
  | [] => []
  | op_final :: ops => stream_session S pos ops
  | op_read n rw :: ops => let pos := if rw then 0%nat else pos in S pos n :: stream_session S (pos + n) ops
  end.
(** The jobs of a batch are done each once, in some order. *)
Definition any_order (sched : Z -> list nat -> list nat) : Prop := forall t ps, Permutation ps (sched t ps).

Lemma session_ok sched o : forall ops x t, RS x o (Z.of_nat t) -> Z.of_nat (t + list_sum (map op_len ops)) < 2 ^ 64 ->
  b3_session sched x ops = stream_session (fun from n => map (b3_root_octet o) (seq from n)) t ops.
Proof.
  induction ops as [|[|n rw] ops IH]; intros x t R B; cbn [b3_session stream_session]; [reflexivity| |].
  - cbn [map list_sum fold_right op_len] in B. unfold BLAKE3_Final2. pose proof R as (Fi & _). rewrite Fi. apply IH; [exact R|exact B].
  - cbn [map list_sum fold_right op_len] in B. fold (list_sum (map op_len ops)) in B. destruct (read_ok x o t n rw R) as (y & E & R2); [destruct rw; lia|]. rewrite E. f_equal. apply IH; [exact R2|]. destruct rw; lia.
Qed.
Section K.
Variables (key : list Z) (kf : Z).
Hypothesis CK : cvok key.
Hypothesis KF : kf = 0 \/ kf = 16.
Definition MI (x : blake3) (m : list Z) : Prop := exists cs p, QI key kf x cs p /\ m = concat cs ++ p /\ (p <> [] \/ cs = []).
Lemma QI_facts x cs p : QI key kf x cs p -> (length p <= 1024)%nat /\ Forall (fun c => length c = 1024%nat) cs.
Proof.
  intros (Bs & Ts & (_ & _ & _ & _ & _ & _ & _ & TO) & _ & _ & _ & F). split; [|exact F].
  destruct Ts; [cbn in TO; subst p; cbn; lia|]. destruct TO as [(_ & _ & _ & _ & _ & G) _]. exact G.
Qed.
Lemma MI_update sched x m d : any_order sched -> MI x m -> Z.of_nat (length (m ++ d)) < 2 ^ 64 -> MI (BLAKE3_Update4 sched x d) (m ++ d).
Proof.
  intros SO (cs & p & Q & -> & NE) B. destruct (QI_facts _ _ _ Q) as [LP FC]. rewrite !app_length, (concat_1024 cs FC) in B.
  destruct (update_ok key kf CK KF sched SO (S (length d)) d x cs p Q) as (cs' & p' & Q' & E & N); [lia|exact B|destruct NE as [G|G]; [right; left; exact G|right; right; exact G]|].
  exists cs', p'. split; [exact Q'|]. split; [rewrite <- app_assoc; exact E|exact N].
Qed.
Lemma MI_updates sched : any_order sched -> forall ds x m, MI x m -> Z.of_nat (length (m ++ concat ds)) < 2 ^ 64 -> MI (fold_left (BLAKE3_Update4 sched) ds x) (m ++ concat ds).
Proof.
  intros SO. induction ds as [|d ds IH]; intros x m H B; [cbn [concat fold_left]; rewrite app_nil_r; exact H|]. rewrite fold_cons. cbn [concat] in *. rewrite app_assoc in *. apply IH; [|exact B]. apply MI_update; [exact SO|exact H|].
  rewrite app_length in B. lia.
Qed.
Lemma MI_init x : cfg key kf x -> length (b3_nodes x) = 65%nat -> Forall (emp kf) (b3_nodes x) -> b3_branches x = 0%nat -> b3_leaves x = 0%nat -> b3_t x = 0 -> MI x [].
Proof.
  intros C L F B V T. exists [], []. split; [|auto]. exists [], (b3_nodes x). split; [|split; [reflexivity|split; [constructor|split; [intros n Q; discriminate Q|constructor]]]].
  split; [exact C|]. split; [reflexivity|]. split; [exact L|]. split; [exact B|]. split; [exact V|]. split; [exact T|]. split; [exact I|].
  destruct (b3_nodes x) as [|T0 Es]; [reflexivity|]. inversion F as [|? ? QE FE]. split; [apply emp_pend; exact QE|exact FE].
Qed.
Lemma MI_final sched x m : any_order sched -> MI x m -> Z.of_nat (length m) < 2 ^ 64 -> RS (BLAKE3_Final2 sched x) (tree key kf 0 (b3_chunks (length m) m)) 0.
Proof.
  intros SO (cs & p & Q & -> & NE) B. destruct (QI_facts _ _ _ Q) as [LP FC].
  assert (LL : length (concat cs ++ p) = (1024 * length cs + length p)%nat) by (rewrite app_length, (concat_1024 cs FC); reflexivity).
  rewrite chunks_ok; [|exact FC|exact LP|exact NE|rewrite LL; lia]. apply final_ok; [exact CK|exact KF|exact SO|exact Q|exact NE|]. rewrite <- LL. exact B.
Qed.
End K.
Lemma init_emp (keyed : bool) nds : Forall (emp (if keyed then 16 else 0)) (map (init1node keyed) nds).
Proof. apply Forall_map, Forall_forall. intros n _. unfold emp, init1node. cbn [n_hashed n_height n_remain n_d n_buf]. auto. Qed.

(** The message cut into Updates at will, the jobs run in any order, the output read in pieces:
    the BLAKE3 output stream of the message. *)
Theorem C27_blake3 : forall (sched : Z -> list nat -> list nat) (old : blake3) (pieces : list (list Z)) (ops : list b3_op),
  any_order sched -> length (b3_nodes old) = NODES_COUNT ->
  Z.of_nat (length (concat pieces)) < 2 ^ 64 -> Z.of_nat (list_sum (map op_len ops)) < 2 ^ 64 ->
  b3_session sched (BLAKE3_Final2 sched (fold_left (BLAKE3_Update4 sched) pieces (BLAKE3_Init old))) ops
  = stream_session (b3_hash None (concat pieces)) 0 ops.
Proof.
  intros sched old pieces ops SO LN B1 B2.
  assert (CK : cvok B3_IV). { split; [reflexivity|]. repeat (apply Forall_cons; [unfold wd; split; [discriminate|reflexivity]|]). apply Forall_nil. }
  assert (KF : 0 = 0 \/ 0 = 16) by now left.
  assert (MI0 : MI B3_IV 0 (BLAKE3_Init old) []).
  { apply MI_init; try reflexivity; [split; [reflexivity|split; reflexivity]|cbn [BLAKE3_Init b3_nodes]; rewrite map_length; exact LN|exact (init_emp false (b3_nodes old))]. }
  pose proof (MI_updates B3_IV 0 CK KF sched SO pieces _ [] MI0 B1) as MI1. pose proof (MI_final B3_IV 0 CK KF sched _ _ SO MI1 B1) as R.
  exact (session_ok sched _ ops _ 0 R B2).
Qed.
(** ... and the keyed hash; keys of another length than 32 are refused. *)
Theorem C27_blake3_keyed : forall (sched : Z -> list nat -> list nat) (old : blake3) (k : list Z) (pieces : list (list Z)) (ops : list b3_op),
  any_order sched -> length (b3_nodes old) = NODES_COUNT -> bytes_ok k ->
  Z.of_nat (length (concat pieces)) < 2 ^ 64 -> Z.of_nat (list_sum (map op_len ops)) < 2 ^ 64 ->
  match BLAKE3_KInit old k with
  | Some x => length k = 32%nat /\ b3_session sched (BLAKE3_Final2 sched (fold_left (BLAKE3_Update4 sched) pieces x)) ops = stream_session (b3_hash (Some k) (concat pieces)) 0 ops
  | None => length k <> 32%nat
  end.
Proof.
  intros sched old k pieces ops SO LN BK B1 B2. unfold BLAKE3_KInit. destruct (Nat.eqb_spec (length k) 32) as [LK|NK]; [|exact NK]. cbn [negb]. split; [exact LK|].
  set (key := firstn 8 (msg_words 4 k)).
  assert (CK : cvok key). { split; [unfold key, msg_words; rewrite firstn_length, map_length, seq_length; reflexivity|]. pose proof (words_le_ok k BK) as W. change (words_le 4 k) with (msg_words 4 k) in W.
    unfold w32s in *. rewrite Forall_forall in *. intros z Hz. apply W. rewrite <- (firstn_skipn 8 (msg_words 4 k)). apply in_or_app. now left. }
  assert (KF : 16 = 0 \/ 16 = 16) by now right.
  set (x0 := {| b3_k := key; b3_t := 0; b3_keyed := true; b3_finalize := false; b3_leaves := 0; b3_branches := 0; b3_nodes := map (init1node true) (b3_nodes old) |}).
  assert (MI0 : MI key 16 x0 []).
  { apply MI_init; try reflexivity; [split; [reflexivity|split; reflexivity]|cbn [x0 b3_nodes]; rewrite map_length; exact LN|exact (init_emp true (b3_nodes old))]. }
  pose proof (MI_updates key 16 CK KF sched SO pieces _ [] MI0 B1) as MI1. pose proof (MI_final key 16 CK KF sched _ _ SO MI1 B1) as R.
  exact (session_ok sched _ ops _ 0 R B2).
Qed.

(** The official test vector for the empty message, in the specification; a schedule that runs a batch backwards; a used context. *)
Example C27_vector : b3_hash None [] 0 32 = be_bytes 32 0xaf1349b9f5f9a1a6a0404dea36dcc9499bcb25c9adc112b7cc9a93cae41f3262.
Proof. vm_compute. reflexivity. Qed.
Example C27_nonvacuous : any_order (fun _ ps => rev ps) /\ length (repeat no_node NODES_COUNT) = NODES_COUNT /\
  b3_session (fun _ ps => rev ps) (BLAKE3_Final2 (fun _ ps => rev ps) (fold_left (BLAKE3_Update4 (fun _ ps => rev ps)) [repeat 1 1000; repeat 2 3000] (BLAKE3_Init {| b3_k := []; b3_t := 5; b3_keyed := true; b3_finalize := true; b3_leaves := 3; b3_branches := 9; b3_nodes := repeat no_node NODES_COUNT |})))
    [op_read 10 false; op_final; op_read 54 false; op_read 64 true]
  = [b3_hash None (repeat 1 1000 ++ repeat 2 3000) 0 10; b3_hash None (repeat 1 1000 ++ repeat 2 3000) 10 54; b3_hash None (repeat 1 1000 ++ repeat 2 3000) 0 64].
Proof.
  assert (A : any_order (fun _ ps => rev ps)) by (intros t ps; apply Permutation_rev). split; [exact A|]. split; [reflexivity|].
  rewrite C27_blake3; [cbn [concat]; rewrite app_nil_r; reflexivity|exact A|reflexivity| |cbn; lia]. cbn [concat]. rewrite app_nil_r, app_length, !repeat_length. lia.
Qed.
Print Assumptions C27_blake3.
Print Assumptions C27_blake3_keyed.
