(** C28: KangarooTwelve (KT128, KT256) and MarsupilamiFourteen (src/2-hash/KangarooTwelve.c). *)
From Coq Require Import Permutation.
From Verif Require Import Base Hash HashSpec Blocks DerLemmas HashLemmas MdLemmas Sponge SpongeSpec KeccakLemmas SpongeLemmas K12Spec K12 K12Lemmas K12FinalLemmas.

(** What a user does after the first Final: more Finals, and Reads of n octets, from the start (rewind) or
    from where the last Read stopped. *)
Inductive k_op := kop_final | kop_read (n : nat) (rewind : bool).
(** The octets that a session of such operations reads from a stream, [S pos n] being its octets pos .. pos+n-1. *)
Fixpoint k_stream_session (S : nat -> nat -> list Z) (pos : nat) (ops : list k_op) : list (list Z) :=
  match ops with
  | [] => []
  | kop_final :: ops => k_stream_session S pos ops
  | kop_read n rw :: ops => let pos := if rw then 0%nat else pos in S pos n :: k_stream_session S (pos + n) ops
  end.
Section Run.
  Variables (B NN : nat) (p : list Z -> list Z) (sched : Z -> list nat -> list nat).
  Fixpoint k_session (x : k12) (ops : list k_op) : option (list (list Z)) :=
    match ops with
    | [] => Some []
    | kop_final :: ops => match K12_Final2 B NN p sched x with Some x => k_session x ops | None => None end
    | kop_read n rw :: ops => let '(x, out) := K12_Read4 p x n rw in
        match k_session x ops with Some r => Some (out :: r) | None => None end
    end.
  (** A whole use: the message in Updates, the customisation string in Feed_CStrs, Final, then the session.
      [None]: undefined behaviour or a failed assert somewhere. *)
  Definition k_run (init : k12) (Ms Cs : list (list Z)) (ops : list k_op) : option (list (list Z)) :=
    match try_fold (K12_Update4 B NN p sched) Ms init with
    | None => None
    | Some x => match try_fold (K12_Feed_CStr B NN p sched) Cs x with
                | None => None
                | Some x => k_session x (kop_final :: ops)
                end
    end.
End Run.
(** The jobs of a batch are done each once, in some order. *)
Definition any_order (sched : Z -> list nat -> list nat) : Prop := forall t ps, Permutation ps (sched t ps).

Section G.
  Variables (B NN rate : nat) (p : list Z -> list Z) (sched : Z -> list nat -> list nat).
  Hypothesis Hp : forall S, length S = 200%nat -> length (p S) = 200%nat.
  Hypothesis Hr : (0 < rate < 200)%nat.
  Hypothesis HB : (200 <= B)%nat.
  Hypothesis HN : (0 < NN)%nat.
  Hypothesis Hs : any_order sched.
  Notation KIp := (KI B NN rate p).

  Lemma session_ok D : forall ops x i, RS B rate p x D i ->
    k_session B NN p sched x ops = Some (k_stream_session (fun from n => map (strm B rate p D) (seq from n)) i ops).
  Proof.
    induction ops as [|[|n rw] ops IH]; intros x i R; cbn [k_session k_stream_session]; [reflexivity| |].
    - unfold K12_Final2. pose proof R as (F & _). rewrite F. apply IH, R.
    - destruct (read_ok B NN rate p Hp Hr HB HN x D i n rw R) as (y & E & R'). rewrite E. rewrite (IH _ _ R'). reflexivity.
  Qed.
  Lemma feed_ok x D cl d : KIp x D cl -> 0 <= cl -> cl + Z.of_nat (length d) < 2 ^ 64 -> Z.of_nat (length (D ++ d)) < 2 ^ 64 ->
    exists y, K12_Feed_CStr B NN p sched x d = Some y /\ KIp y (D ++ d) (cl + Z.of_nat (length d)).
  Proof.
    intros K C0 C1 L. unfold K12_Feed_CStr. destruct (KI_clen _ _ _ _ _ _ _ K) as [EC EF]. rewrite EC.
    assert (U : u64 (cl + Z.of_nat (length d)) = cl + Z.of_nat (length d)) by (unfold u64, wrap; apply Z.mod_small; lia). rewrite U.
    apply update_ok; try assumption. destruct K as [(H1 & H2 & H3 & H4 & H5 & H6 & H7)|(D0 & dn & fl & cur & (H0 & H1 & H2 & H3 & H4 & H5 & H6 & H7 & H8 & H9 & HA) & H)].
    - left. unfold small. cbn [k_sp k_nodes k_total k_clen k_infilled k_fin]. auto 10.
    - right. exists D0, dn, fl, cur. split; [|exact H]. unfold big. cbn [k_sp k_nodes k_total k_clen k_infilled k_fin]. auto 12.
  Qed.
  Lemma feeds_ok : forall ds x D cl, KIp x D cl -> 0 <= cl -> cl + Z.of_nat (length (concat ds)) < 2 ^ 64 -> Z.of_nat (length (D ++ concat ds)) < 2 ^ 64 ->
    exists y, try_fold (K12_Feed_CStr B NN p sched) ds x = Some y /\ KIp y (D ++ concat ds) (cl + Z.of_nat (length (concat ds))).
  Proof.
    induction ds as [|d ds IH]; intros x D cl K C0 C1 L; cbn [try_fold concat] in *.
    - exists x. rewrite app_nil_r, Z.add_0_r. auto.
    - rewrite app_assoc in *. rewrite app_length in C1. destruct (feed_ok x D cl d K) as (y & E & K'); [exact C0|lia|rewrite app_length in L; lia|]. rewrite E.
      destruct (IH y _ _ K') as (z & Ez & Kz); [lia|lia|exact L|]. exists z. split; [exact Ez|]. rewrite app_length. replace (cl + Z.of_nat (length d + length (concat ds))) with (cl + Z.of_nat (length d) + Z.of_nat (length (concat ds))) by lia. exact Kz.
  Qed.
  (** the whole use *)
  Definition S_of (Ms Cs : list (list Z)) : list Z := concat Ms ++ concat Cs ++ length_encode (Z.of_nat (length (concat Cs))).
  Lemma run_ok Ms Cs ops : Z.of_nat (length (concat Cs)) < 2 ^ 24 -> Z.of_nat (length (S_of Ms Cs)) + Z.of_nat B < 2 ^ 64 ->
    k_run B NN p sched (KT_Init B NN rate) Ms Cs ops =
    if Z.of_nat (length (S_of Ms Cs)) <=? Z.of_nat B * 2 ^ 24
    then Some (k_stream_session (fun from n => map (strm B rate p (S_of Ms Cs)) (seq from n)) 0 ops) else None.
  Proof.
    intros C L. unfold S_of in *. rewrite app_assoc in *. unfold k_run. assert (L2 := L). rewrite !app_length in L2.
    destruct (updates_ok B NN rate p sched Hp Hr HB HN Hs Ms _ [] 0 (init_ok B NN rate p Hr HB HN)) as (x & E & K); [cbn [app]; lia|]. rewrite E. cbn [app] in K.
    destruct (feeds_ok Cs x (concat Ms) 0 K) as (y & E2 & K2); [lia|lia|rewrite app_length; lia|]. rewrite E2. rewrite Z.add_0_l in K2.
    pose proof (final_ok B NN rate p sched Hp Hr HB HN Hs y _ _ K2 (conj (Zle_0_nat _) C) L) as F. cbn [k_session].
    set (D := (concat Ms ++ concat Cs) ++ length_encode _) in *. clearbody D.
    destruct (Z.of_nat (length D) <=? Z.of_nat B * 2 ^ 24); [|rewrite F; reflexivity]. destruct F as (z & Ez & R). rewrite Ez. apply session_ok, R.
  Qed.
  Lemma run_ub Ms Cs ops : 2 ^ 24 <= Z.of_nat (length (concat Cs)) -> Z.of_nat (length (S_of Ms Cs)) + Z.of_nat B < 2 ^ 64 ->
    k_run B NN p sched (KT_Init B NN rate) Ms Cs ops = None.
  Proof.
    intros C L. unfold S_of in *. unfold k_run. rewrite !app_length in L.
    destruct (updates_ok B NN rate p sched Hp Hr HB HN Hs Ms _ [] 0 (init_ok B NN rate p Hr HB HN)) as (x & E & K); [cbn [app]; lia|]. rewrite E. cbn [app] in K.
    destruct (feeds_ok Cs x (concat Ms) 0 K) as (y & E2 & K2); [lia|lia|rewrite app_length; lia|]. rewrite E2. rewrite Z.add_0_l in K2. cbn [k_session].
    destruct (KI_clen _ _ _ _ _ _ _ K2) as [EC EF]. unfold K12_Final2. rewrite EF, EC, len_ub by exact C. reflexivity.
  Qed.
End G.

(** * the permutations of the code are those of the specification *)
Lemma kp_ext nr S : (nr <= 24)%nat -> length S = 200%nat -> bytes_ok S -> KeccakP1600_Permute nr S = keccak_p nr S /\ length (KeccakP1600_Permute nr S) = 200%nat /\ bytes_ok (KeccakP1600_Permute nr S).
Proof. intros N _ B. rewrite KeccakP_eq by assumption. auto using keccak_p_length, keccak_p_ok. Qed.
Lemma kp_length nr S : length (KeccakP1600_Permute nr S) = 200%nat.
Proof.
  unfold KeccakP1600_Permute. rewrite le_unwords_length.
  enough (length (fst (fold_left (kp_round nr) (seq 0 24) (le_words 8 25 S, 1))) = 25%nat) by lia.
  assert (L : length (le_words 8 25 S) = 25%nat) by apply le_words_length.
  revert L. generalize (le_words 8 25 S) 1 (seq 0 24). intros A l sq. revert A l.
  induction sq as [|i sq IH]; intros A l L; cbn [fold_left]; [exact L|].
  destruct (kp_round nr (A, l) i) as [A' l'] eqn:E. apply IH.
  unfold kp_round, k_iota in E. destruct (iota_rc l) as [R l''].
  assert (L1 : length (k_chi (k_pi (k_rho (k_theta A)))) = 25%nat).
  { do 25 (destruct A as [|? A]; [discriminate L|]); destruct A; [|discriminate L]. reflexivity. }
  assert (EA := f_equal fst E). cbn [fst] in EA. subst A'. unfold kset.
  destruct (24 <=? i + nr)%nat; rewrite ?upd_length; auto.
Qed.
Lemma nthZ_byte i l : bytes_ok l -> byte_ok (nthZ i l).
Proof. intros H. unfold nthZ. destruct (nth_in_or_default i l 0) as [I|E]; [exact (proj1 (Forall_forall _ _) H _ I)|rewrite E; unfold byte_ok; lia]. Qed.
Lemma stream_byte nr rate lo m i : (nr <= 24)%nat -> (0 < rate <= 200)%nat -> byte_ok lo -> bytes_ok m -> byte_ok (sponge_stream (KeccakP1600_Permute nr) 200 rate lo 0x80 m i).
Proof.
  intros N R L M. unfold sponge_stream, squeeze_octet.
  pose proof (fun S => kp_ext nr S N) as X.
  destruct (absorb_ext _ _ 200 rate (sponge_pad rate lo 0x80 m) X R) as (_ & L1 & B1); [apply sponge_pad_ok; [exact L|unfold byte_ok; lia|exact M]|].
  destruct (iter_ext _ _ 200 (i / rate) _ X L1 B1) as (_ & _ & B2). apply nthZ_byte, B2.
Qed.
Lemma base256_ok : forall f x, bytes_ok (base256 f x) /\ (length (base256 f x) <= f)%nat.
Proof.
  induction f as [|f IH]; intros x; cbn [base256]; [split; [constructor|cbn; lia]|]. destruct (x =? 0); [split; [constructor|cbn; lia]|].
  destruct (IH (x / 256)) as [A C]. split; [apply Forall_app; split; [exact A|apply Forall_cons; [unfold byte_ok; apply Z.mod_pos_bound; lia|apply Forall_nil]]|rewrite app_length; cbn [length]; lia].
Qed.
Lemma length_encode_ok x : bytes_ok (length_encode x).
Proof.
  unfold length_encode. destruct (base256_ok 255 x) as [A C]. cbv zeta. apply Forall_app. split; [exact A|]. apply Forall_cons; [|apply Forall_nil]. unfold byte_ok. split; [lia|]. lia.
Qed.
Lemma pieces_bytes B : forall f s, bytes_ok s -> Forall bytes_ok (pieces_of f B s).
Proof.
  induction f as [|f IH]; intros s H; cbn [pieces_of]; [apply Forall_cons; [exact H|apply Forall_nil]|]. destruct (_ <=? _)%nat; [apply Forall_cons; [exact H|apply Forall_nil]|].
  rewrite <- (firstn_skipn B s) in H. apply Forall_app in H. destruct H as [H1 H2]. apply Forall_cons; [exact H1|apply IH, H2].
Qed.
Lemma strm_spec B nr rate D i : (nr <= 24)%nat -> (0 < rate < 200)%nat -> bytes_ok D -> strm B rate (KeccakP1600_Permute nr) D i = kt_stream_of nr rate B D i.
Proof.
  intros N R H. assert (R' : (0 < rate <= 200)%nat) by lia. pose proof (fun S => kp_ext nr S N) as X. unfold strm, kt_stream_of, fnode, turboshake. pose proof (pieces_bytes B (length D) D H) as F.
  assert (CV : forall c, bytes_ok c -> cvm rate (KeccakP1600_Permute nr) c = kt_cv nr rate c /\ bytes_ok (cvm rate (KeccakP1600_Permute nr) c)).
  { intros c Hc. split.
    - unfold cvm, kt_cv, turboshake. apply map_ext. intros j. apply stream_ext; [exact X|exact R'|unfold byte_ok; lia|unfold byte_ok; lia|exact Hc].
    - unfold cvm. apply Forall_map, Forall_forall. intros j _. apply stream_byte; [exact N|exact R'|unfold byte_ok; lia|exact Hc]. }
  destruct (pieces_of (length D) B D) as [|s0 [|s1 more]]; cbn [fst snd].
  - apply stream_ext; [exact X|exact R'|unfold byte_ok; lia|unfold byte_ok; lia|exact H].
  - apply stream_ext; [exact X|exact R'|unfold byte_ok; lia|unfold byte_ok; lia|exact H].
  - inversion F as [|? ? F0 F1]; subst. set (cs := s1 :: more) in *. clearbody cs.
    assert (E : map (cvm rate (KeccakP1600_Permute nr)) cs = map (kt_cv nr rate) cs /\ bytes_ok (concat (map (cvm rate (KeccakP1600_Permute nr)) cs))).
    { clear - F1 CV. induction F1 as [|c cs Hc F1 IH]; [split; [reflexivity|constructor]|]. destruct IH as [I1 I2]. destruct (CV c Hc) as [C1 C2]. cbn [map concat]. rewrite I1, C1. split; [reflexivity|]. rewrite <- I1, <- C1. apply Forall_app. split; assumption. }
    destruct E as [E1 E2]. rewrite <- E1. apply stream_ext; [exact X|exact R'|unfold byte_ok; lia|unfold byte_ok; lia|].
    apply Forall_app. split; [exact F0|]. apply Forall_app. split; [unfold oct8; repeat (apply Forall_cons; [unfold byte_ok; lia|]); apply Forall_nil|]. apply Forall_app. split; [exact E2|]. apply Forall_app. split; [apply length_encode_ok|]. repeat (apply Forall_cons; [unfold byte_ok; lia|]); apply Forall_nil.
Qed.
Lemma session_ext S1 S2 : (forall a n, S1 a n = S2 a n) -> forall ops i, k_stream_session S1 i ops = k_stream_session S2 i ops.
Proof. intros E. induction ops as [|[|n rw] ops IH]; intros i; cbn [k_stream_session]; [reflexivity|apply IH|]. now rewrite E, IH. Qed.

Lemma B200 : (200 <= k12_bufsize)%nat. Proof. unfold k12_bufsize. lia. Qed.
Lemma kt_generic nr rate sched Ms Cs ops : (nr <= 24)%nat -> (0 < rate < 200)%nat -> any_order sched ->
  bytes_ok (concat Ms) -> bytes_ok (concat Cs) -> Z.of_nat (length (concat Cs)) < 2 ^ 24 ->
  Z.of_nat (length (concat Ms ++ concat Cs ++ length_encode (Z.of_nat (length (concat Cs))))) <= 8192 * 2 ^ 24 ->
  k_run k12_bufsize K12_NODES_COUNT (KeccakP1600_Permute nr) sched (KT_Init k12_bufsize K12_NODES_COUNT rate) Ms Cs ops
  = Some (k_stream_session (fun from n => map (kt_stream nr rate (concat Ms) (concat Cs)) (seq from n)) 0 ops).
Proof.
  intros N R SO BM BC LC LS. assert (EB : Z.of_nat k12_bufsize = 8192) by (unfold k12_bufsize; lia).
  rewrite (run_ok k12_bufsize K12_NODES_COUNT rate (KeccakP1600_Permute nr) sched (fun S _ => kp_length nr S) R B200 ltac:(unfold K12_NODES_COUNT; lia) SO Ms Cs ops LC) by (unfold S_of; rewrite EB; lia).
  unfold S_of. rewrite EB, (proj2 (Z.leb_le _ _)) by exact LS. f_equal. apply session_ext. intros a n. apply map_ext. intros j.
  unfold kt_stream. change k12_chunk with k12_bufsize. apply strm_spec; [exact N|exact R|]. apply Forall_app. split; [exact BM|]. apply Forall_app. split; [exact BC|apply length_encode_ok].
Qed.

(** The message cut into Updates and the customisation string into Feed_CStrs at will, the jobs run in any order,
    the output read in pieces: the output stream that RFC 9861 defines, as long as |C| < 2^24 and S is at most
    2^24 chunks (2^37 octets).  (No assert fails and no array is overrun.) *)
Theorem C28_kt128_partial : forall (sched : Z -> list nat -> list nat) (Ms Cs : list (list Z)) (ops : list k_op),
  any_order sched -> bytes_ok (concat Ms) -> bytes_ok (concat Cs) -> Z.of_nat (length (concat Cs)) < 2 ^ 24 ->
  Z.of_nat (length (concat Ms ++ concat Cs ++ length_encode (Z.of_nat (length (concat Cs))))) <= 8192 * 2 ^ 24 ->
  k_run k12_bufsize K12_NODES_COUNT KeccakP1600nr12_Permute sched KT128_Init Ms Cs ops
  = Some (k_stream_session (KT128 (concat Ms) (concat Cs)) 0 ops).
Proof. intros. apply (kt_generic 12 168); try assumption; lia. Qed.
Theorem C28_kt256_partial : forall (sched : Z -> list nat -> list nat) (Ms Cs : list (list Z)) (ops : list k_op),
  any_order sched -> bytes_ok (concat Ms) -> bytes_ok (concat Cs) -> Z.of_nat (length (concat Cs)) < 2 ^ 24 ->
  Z.of_nat (length (concat Ms ++ concat Cs ++ length_encode (Z.of_nat (length (concat Cs))))) <= 8192 * 2 ^ 24 ->
  k_run k12_bufsize K12_NODES_COUNT KeccakP1600nr12_Permute sched KT256_Init Ms Cs ops
  = Some (k_stream_session (KT256 (concat Ms) (concat Cs)) 0 ops).
Proof. intros. apply (kt_generic 12 136); try assumption; lia. Qed.
Theorem C28_m14_partial : forall (sched : Z -> list nat -> list nat) (Ms Cs : list (list Z)) (ops : list k_op),
  any_order sched -> bytes_ok (concat Ms) -> bytes_ok (concat Cs) -> Z.of_nat (length (concat Cs)) < 2 ^ 24 ->
  Z.of_nat (length (concat Ms ++ concat Cs ++ length_encode (Z.of_nat (length (concat Cs))))) <= 8192 * 2 ^ 24 ->
  k_run k12_bufsize K12_NODES_COUNT KeccakP1600nr14_Permute sched MarsupilamiFourteen_Init Ms Cs ops
  = Some (k_stream_session (M14 (concat Ms) (concat Cs)) 0 ops).
Proof. intros. apply (kt_generic 14 136); try assumption; lia. Qed.

(** Beyond these bounds (and below 2^64 octets) Final shifts an int by 32: undefined behaviour, for every input.
    On a machine that takes the shift count modulo 32 the length is then encoded in 8 octets instead of 4. *)
Theorem C28_kt_long_refuted : forall (sched : Z -> list nat -> list nat) (Ms Cs : list (list Z)) (ops : list k_op),
  any_order sched ->
  Z.of_nat (length (concat Ms ++ concat Cs ++ length_encode (Z.of_nat (length (concat Cs))))) < 2 ^ 64 - 8192 ->
  2 ^ 24 <= Z.of_nat (length (concat Cs)) \/ 8192 * 2 ^ 24 < Z.of_nat (length (concat Ms ++ concat Cs ++ length_encode (Z.of_nat (length (concat Cs))))) ->
  k_run k12_bufsize K12_NODES_COUNT KeccakP1600nr12_Permute sched KT128_Init Ms Cs ops = None /\
  k_run k12_bufsize K12_NODES_COUNT KeccakP1600nr12_Permute sched KT256_Init Ms Cs ops = None /\
  k_run k12_bufsize K12_NODES_COUNT KeccakP1600nr14_Permute sched MarsupilamiFourteen_Init Ms Cs ops = None.
Proof.
  intros sched Ms Cs ops SO L H. assert (EB : Z.of_nat k12_bufsize = 8192) by (unfold k12_bufsize; lia).
  assert (G : forall nr rate, (0 < rate < 200)%nat -> k_run k12_bufsize K12_NODES_COUNT (KeccakP1600_Permute nr) sched (KT_Init k12_bufsize K12_NODES_COUNT rate) Ms Cs ops = None).
  { intros nr rate R. assert (L' : Z.of_nat (length (S_of Ms Cs)) + Z.of_nat k12_bufsize < 2 ^ 64) by (unfold S_of; rewrite EB; lia).
    destruct (Z.le_gt_cases (2 ^ 24) (Z.of_nat (length (concat Cs)))) as [C|C].
    - apply run_ub; [intros S _; apply kp_length|exact R|exact B200|unfold K12_NODES_COUNT; lia|exact SO|exact C|exact L'].
    - rewrite (run_ok k12_bufsize K12_NODES_COUNT rate (KeccakP1600_Permute nr) sched (fun S _ => kp_length nr S) R B200 ltac:(unfold K12_NODES_COUNT; lia) SO Ms Cs ops) by (assumption || lia).
      unfold S_of. rewrite EB, (proj2 (Z.leb_gt _ _)); [reflexivity|]. destruct H as [H|H]; [lia|exact H]. }
  split; [apply (G 12%nat 168%nat); lia|]. split; [apply (G 12%nat 136%nat); lia|apply (G 14%nat 136%nat); lia].
Qed.

(** Test vector of RFC 9861 (empty message and customisation string), in the specification; a message of three chunks
    and a customisation string in pieces, run with a schedule that does each batch backwards. *)
Lemma first_octets p rate S n : (n <= rate)%nat -> (n <= length S)%nat -> map (squeeze_octet p rate S) (seq 0 n) = firstn n S.
Proof.
  intros R L. apply list_ext; [rewrite map_length, seq_length, firstn_length; lia|]. intros i Hi. rewrite map_length, seq_length in Hi. unfold nthZ at 1.
  rewrite (nth_indep _ 0 (squeeze_octet p rate S 0)) by (rewrite map_length, seq_length; exact Hi). rewrite map_nth, seq_nth by exact Hi. unfold squeeze_octet. cbn [Nat.add].
  rewrite Nat.mod_small, Nat.div_small by lia. change (Nat.iter 0 p S) with S. rewrite <- (firstn_skipn n S) at 1. unfold nthZ. rewrite app_nth1; [reflexivity|rewrite firstn_length; lia].
Qed.
Example C28_vector : KT128 [] [] 0 32 = be_bytes 32 0x1ac2d450fc3b4205d19da7bfca1b37513c0803577ac7167f06fe2ce1f0ef39e5.
Proof.
  change (KT128 [] [] 0 32) with (map (squeeze_octet (keccak_p 12) 168 (absorb (keccak_p 12) 200 168 (sponge_pad 168 7 128 [0]))) (seq 0 32)).
  assert (L : length (absorb (keccak_p 12) 200 168 (sponge_pad 168 7 128 [0])) = 200%nat) by (apply absorb_length; [intros; apply keccak_p_length|lia]).
  rewrite first_octets by lia. vm_compute. reflexivity.
Qed.
Example C28_nonvacuous : any_order (fun _ ps => rev ps) /\
  k_run k12_bufsize K12_NODES_COUNT KeccakP1600nr12_Permute (fun _ ps => rev ps) KT128_Init [repeat 1 1000; repeat 2 (Z.to_nat 19000)] [[1; 2]; [3]] [kop_read 10 false; kop_final; kop_read 54 false; kop_read 64 true]
  = Some [KT128 (repeat 1 1000 ++ repeat 2 (Z.to_nat 19000)) [1; 2; 3] 0 10; KT128 (repeat 1 1000 ++ repeat 2 (Z.to_nat 19000)) [1; 2; 3] 10 54; KT128 (repeat 1 1000 ++ repeat 2 (Z.to_nat 19000)) [1; 2; 3] 0 64].
Proof.
  assert (A : any_order (fun _ ps => rev ps)) by (intros t ps; apply Permutation_rev). split; [exact A|].
  assert (RB : forall v n, byte_ok v -> bytes_ok (repeat v n)) by (intros v n H; apply Forall_forall; intros z Hz; apply repeat_spec in Hz; subst z; exact H).
  assert (LB : length (repeat 2 (Z.to_nat 19000)) = Z.to_nat 19000) by apply repeat_length.
  assert (BB : bytes_ok (repeat 2 (Z.to_nat 19000))) by (apply RB; unfold byte_ok; lia).
  set (b := repeat 2 (Z.to_nat 19000)) in *. clearbody b.
  rewrite C28_kt128_partial; [cbn [concat app]; rewrite app_nil_r; reflexivity|exact A| | |reflexivity|].
  - cbn [concat]. rewrite app_nil_r. apply Forall_app. split; [apply RB; unfold byte_ok; lia|exact BB].
  - cbn [concat app]. repeat (apply Forall_cons; [unfold byte_ok; lia|]); apply Forall_nil.
  - cbn [concat]. rewrite !app_length, LB, repeat_length. change (length (length_encode _)) with 2%nat. cbn [length]. lia.
Qed.
Print Assumptions C28_kt128_partial.
Print Assumptions C28_kt256_partial.
Print Assumptions C28_m14_partial.
Print Assumptions C28_kt_long_refuted.
