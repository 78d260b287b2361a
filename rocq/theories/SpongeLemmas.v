(** Refinement of the sponge model to the sponge specification. *)
From Verif Require Import Base Hash HashSpec Blocks DerLemmas HashLemmas MdLemmas Sponge SpongeSpec KeccakLemmas.

Lemma xor_front_nil S : xor_front S [] = S.
Proof. reflexivity. Qed.
Lemma xor_front_cons x S y blk : xor_front (x :: S) (y :: blk) = Z.lxor x y :: xor_front S blk.
Proof. reflexivity. Qed.
Lemma xor_front_length S blk : (length blk <= length S)%nat -> length (xor_front S blk) = length S.
Proof.
  intros H. unfold xor_front. rewrite app_length, xorb_list_length, firstn_length, skipn_length. lia.
Qed.
Lemma xor_front_ok S blk : bytes_ok S -> bytes_ok blk -> bytes_ok (xor_front S blk).
Proof.
  intros HS Hb. unfold xor_front. apply Forall_app. split; [|now apply Forall_skipn].
  apply xorb_list_ok; [now apply Forall_firstn|auto].
Qed.
Lemma xor_front_snoc c : forall blk S, (length blk < length S)%nat ->
  upd (length blk) (Z.lxor (nthZ (length blk) (xor_front S blk)) c) (xor_front S blk) = xor_front S (blk ++ [c]).
Proof.
  induction blk as [|y blk IH]; intros [|x S] H; cbn [length] in *; try lia.
  - reflexivity.
  - cbn [app]. rewrite !xor_front_cons. rewrite nthZ_S. cbn [upd]. f_equal. apply IH. lia.
Qed.
Lemma xor_front_zeros k : forall blk S, (length blk + k <= length S)%nat ->
  xor_front S (blk ++ repeat 0 k) = xor_front S blk.
Proof.
  induction k as [|k IH]; intros blk S H.
  - cbn [repeat]. now rewrite app_nil_r.
  - change (repeat 0 (Datatypes.S k)) with ([0] ++ repeat 0 k). rewrite app_assoc, IH by (rewrite app_length; cbn [length]; lia).
    rewrite <- xor_front_snoc by lia. rewrite Z.lxor_0_r.
    apply list_ext; rewrite upd_length; [reflexivity|]. intros i Hi.
    destruct (Nat.eq_dec i (length blk)) as [->|N]; [now rewrite nthZ_upd_eq|now rewrite nthZ_upd_neq by auto].
Qed.

Lemma absorb_snoc p b rate m blk : (0 < rate)%nat -> (length m mod rate = 0)%nat -> length blk = rate ->
  absorb p b rate (m ++ blk) = p (xor_front (absorb p b rate m) blk).
Proof. intros. unfold absorb. rewrite blocks_snoc by auto. rewrite fold_left_app. reflexivity. Qed.
Lemma absorb_full p b rate m : (0 < rate)%nat -> absorb p b rate m = absorb p b rate (full rate m).
Proof. intros. unfold absorb. now rewrite blocks_full by auto. Qed.
Lemma absorb_length p b rate m : (forall S, length S = b -> length (p S) = b) -> (0 < rate <= b)%nat ->
  length (absorb p b rate m) = b.
Proof.
  intros Hp Hr. unfold absorb.
  assert (F : Forall (fun blk => length blk = rate) (blocks rate m))
    by (apply blocks_Forall; [lia|intros; now apply block_length]).
  assert (L : length (repeat 0 b) = b) by apply repeat_length.
  revert L. generalize (repeat 0 b). induction F as [|blk l Hb F IH]; intros S L; cbn [fold_left]; [auto|].
  apply IH, Hp. rewrite xor_front_length; lia.
Qed.

(** What the context holds after absorbing m. *)
Record srep (p : list Z -> list Z) (b rate : nat) (lo hi : Z) (m : list Z) (s : sponge) : Prop := {
  sr_rate : sp_rate s = rate; sr_lo : sp_lopad s = lo; sr_hi : sp_hipad s = hi;
  sr_fin : sp_finalized s = false;
  sr_filled : sp_filled s = (length m mod rate)%nat;
  sr_state : sp_state s = xor_front (absorb p b rate m) (part rate m)
}.

Section Squeeze.
  Variables (p : list Z -> list Z) (rate : nat) (lo hi : Z).
  Hypothesis Hr : (0 < rate)%nat.
  (** The context after i octets of the stream from S were squeezed. *)
  Definition spos (S : list Z) (i : nat) (sv : list Z) : sponge :=
    Sp rate lo hi true (i mod rate) (Nat.iter (i / rate) p S) sv.

  Lemma read_spos S sv len : forall i,
    Sponge_Read p (spos S i sv) len = (spos S (i + len) sv, map (squeeze_octet p rate S) (seq i len)).
  Proof.
    induction len as [|len IH]; intros i; cbn [Sponge_Read].
    - now rewrite Nat.add_0_r.
    - cbv zeta. cbn [sp_filled sp_rate sp_state].
      assert (N : (if (i mod rate + 1 =? rate)%nat
         then sp_permute p (Sp rate lo hi true (i mod rate + 1) (Nat.iter (i / rate) p S) sv)
         else Sp rate lo hi true (i mod rate + 1) (Nat.iter (i / rate) p S) sv) = spos S (Datatypes.S i) sv).
      { destruct (div_snoc rate i ltac:(lia)) as [D M]. unfold spos. rewrite D, M, Nat.add_1_r.
        destruct (Datatypes.S (i mod rate) =? rate)%nat; reflexivity. }
      change (sp_filled (spos S i sv)) with (i mod rate)%nat. change (sp_rate (spos S i sv)) with rate.
      change (sp_state (spos S i sv)) with (Nat.iter (i / rate) p S). change (sp_saved (spos S i sv)) with sv.
      change (sp_lopad (spos S i sv)) with lo. change (sp_hipad (spos S i sv)) with hi.
      change (sp_finalized (spos S i sv)) with true.
      rewrite N, IH, Nat.add_succ_comm. reflexivity.
  Qed.

  Lemma xof_final_again S i : XOF_Final p (spos S i S) = spos S 0 S.
  Proof. unfold XOF_Final, spos, Sponge_Restore. cbn [sp_rate sp_lopad sp_hipad sp_finalized sp_filled sp_state sp_saved]. now rewrite Nat.mod_0_l, Nat.div_0_l by lia. Qed.
End Squeeze.

Section Generic.
  Variables (p : list Z -> list Z) (b rate : nat) (lo hi : Z).
  Hypothesis Hp : forall S, length S = b -> length (p S) = b.
  Hypothesis Hr : (0 < rate <= b)%nat.
  Notation A := (absorb p b rate).
  Lemma Al m : length (A m) = b. Proof. apply absorb_length; auto. Qed.
  Lemma Pl (m : list Z) : length (part rate m) = (length m mod rate)%nat. Proof. clear Hp. apply part_length. lia. Qed.
  Lemma Pu (m : list Z) : (length m mod rate < rate)%nat. Proof. apply Nat.mod_upper_bound; lia. Qed.

  Lemma init_srep : srep p b rate lo hi [] (SPONGE_INIT b rate lo hi).
  Proof.
    constructor; cbn [sp_rate sp_lopad sp_hipad sp_finalized sp_filled sp_state sp_saved SPONGE_INIT]; auto.
    - now rewrite Nat.mod_0_l by lia.
    - unfold absorb. rewrite blocks_nil. unfold part. cbn [length]. now rewrite skipn_nil.
  Qed.

  Lemma absorb1_srep m s c : srep p b rate lo hi m s -> srep p b rate lo hi (m ++ [c]) (sp_absorb1 p s c).
  Proof.
    intros H. destruct H as [E1 E2 E3 E4 E5 E6].
    destruct (full_snoc rate m c ltac:(lia)) as [F1 F2].
    destruct (div_snoc rate (length m) ltac:(lia)) as [_ DM].
    assert (L : length (m ++ [c]) = S (length m)) by (rewrite app_length; cbn; lia).
    assert (X : upd (sp_filled s) (Z.lxor (nthZ (sp_filled s) (sp_state s)) c) (sp_state s)
                = xor_front (A m) (part rate m ++ [c])).
    { rewrite E6, E5, <- Pl. apply xor_front_snoc. rewrite Pl. rewrite Al. pose proof (Pu m). lia. }
    unfold sp_absorb1. cbv zeta. cbn [sp_filled sp_rate]. rewrite E5, E1, Nat.add_1_r. rewrite E5 in X.
    destruct (Nat.eqb_spec (S (length m mod rate)) rate) as [E|N].
    - destruct (F1 E) as [FF FP]. unfold sp_permute. constructor; cbn [sp_rate sp_lopad sp_hipad sp_finalized sp_filled sp_state sp_saved SPONGE_INIT]; auto.
      + now rewrite L, DM.
      + rewrite FP, xor_front_nil, X. rewrite (absorb_full _ _ _ (m ++ [c])), FF by lia.
        rewrite absorb_snoc; [|lia|apply full_mod; lia|rewrite app_length, Pl; cbn [length]; lia].
        now rewrite (absorb_full _ _ _ m) by lia.
    - destruct (F2 N) as [FF FP]. constructor; cbn [sp_rate sp_lopad sp_hipad sp_finalized sp_filled sp_state sp_saved SPONGE_INIT]; auto.
      + now rewrite L, DM.
      + rewrite FP, X. rewrite (absorb_full _ _ _ (m ++ [c])), FF by lia. 
        now rewrite <- absorb_full by lia.
  Qed.

  Lemma update_srep data : forall m s, srep p b rate lo hi m s -> srep p b rate lo hi (m ++ data) (Sponge_Update p s data).
  Proof.
    induction data as [|c data IH]; intros m s H.
    - now rewrite app_nil_r.
    - change (c :: data) with ([c] ++ data). rewrite app_assoc. cbn [Sponge_Update fold_left app].
      apply (IH (m ++ [c])), absorb1_srep, H.
  Qed.
  Lemma updates_srep chunks : forall m s, srep p b rate lo hi m s ->
    srep p b rate lo hi (m ++ concat chunks) (fold_left (Sponge_Update p) chunks s).
  Proof.
    induction chunks as [|c chunks IH]; intros m s H; cbn [concat fold_left].
    - now rewrite app_nil_r.
    - rewrite app_assoc. apply IH, update_srep, H.
  Qed.

  Lemma tail_absorb m t : (length m mod rate + length t = rate)%nat ->
    A (m ++ t) = p (xor_front (A m) (part rate m ++ t)).
  Proof.
    intros H. rewrite <- (full_part rate m) at 1. rewrite <- app_assoc.
    rewrite absorb_snoc; [|lia|apply full_mod; lia|rewrite app_length, Pl; lia].
    now rewrite <- absorb_full by lia.
  Qed.

  Lemma null_srep m s : srep p b rate lo hi m s ->
    srep p b rate lo hi (m ++ repeat 0 (rate - length m mod rate)) (Sponge_Update_null p s).
  Proof.
    intros H. destruct H as [E1 E2 E3 E4 E5 E6]. pose proof (Pu m).
    assert (DM : ((length m + (rate - length m mod rate)) mod rate = 0)%nat).
    { rewrite (Nat.div_mod (length m) rate) at 1 by lia.
      replace (rate * (length m / rate) + length m mod rate + (rate - length m mod rate))%nat
        with ((length m / rate + 1) * rate)%nat by lia. apply Nat.mod_mul; lia. }
    unfold Sponge_Update_null, sp_permute. constructor; cbn [sp_rate sp_lopad sp_hipad sp_finalized sp_filled sp_state sp_saved SPONGE_INIT]; auto.
    - rewrite app_length, repeat_length. now rewrite DM.
    - rewrite E6. change (absorb p b rate (m ++ ?z)) with (A (m ++ z)). rewrite tail_absorb by (rewrite repeat_length; lia).
      rewrite xor_front_zeros by (rewrite Pl; rewrite Al; lia).
      replace (part rate (m ++ repeat 0 (rate - length m mod rate))) with (@nil Z); [reflexivity|].
      symmetry. apply length_zero_iff_nil. rewrite part_length by lia. now rewrite app_length, repeat_length, DM.
  Qed.

  (** After Final: the state from which octets are squeezed. *)
  Definition S0 (m : list Z) := A (sponge_pad rate lo hi m).

  Lemma final_state m s : srep p b rate lo hi m s ->
    Sponge_Final p s = Sp rate lo hi true 0 (S0 m) (sp_saved s).
  Proof.
    intros H. destruct H as [E1 E2 E3 E4 E5 E6]. pose proof (Pu m).
    unfold Sponge_Final. rewrite E4. cbv zeta. rewrite E1, E2, E3. f_equal.
    unfold S0, sponge_pad. set (k := (rate - length m mod rate)%nat).
    assert (X : upd (sp_filled s) (Z.lxor (nthZ (sp_filled s) (sp_state s)) lo) (sp_state s)
                = xor_front (A m) (part rate m ++ [lo])).
    { rewrite E6, E5, <- Pl. apply xor_front_snoc. rewrite Pl. rewrite Al. lia. }
    rewrite X. destruct (Nat.eqb_spec k 1) as [K|K].
    - rewrite tail_absorb by (cbn [length]; lia). f_equal.
      replace (rate - 1)%nat with (length (part rate m)) by (rewrite Pl; lia).
      rewrite <- !xor_front_snoc by (rewrite Al, Pl; lia).
      set (F := xor_front (A m) (part rate m)).
      assert (LF : (length (part rate m) < length F)%nat) by (unfold F; rewrite xor_front_length; rewrite Al, Pl; lia).
      rewrite nthZ_upd_eq by auto. rewrite Z.lxor_assoc.
      apply list_ext; rewrite !upd_length; [reflexivity|]. intros i Hi.
      destruct (Nat.eq_dec i (length (part rate m))) as [->|N].
      + now rewrite !nthZ_upd_eq by (rewrite ?upd_length; auto).
      + now rewrite !nthZ_upd_neq by auto.
    - rewrite tail_absorb by (cbn [length]; rewrite app_length, repeat_length; cbn [length]; lia). f_equal.
      replace (part rate m ++ lo :: repeat 0 (k - 2) ++ [hi]) with (((part rate m ++ [lo]) ++ repeat 0 (k - 2)) ++ [hi])
        by (rewrite <- !app_assoc; reflexivity).
      assert (LL : length ((part rate m ++ [lo]) ++ repeat 0 (k - 2)) = (rate - 1)%nat)
        by (rewrite !app_length, repeat_length, Pl; cbn [length]; lia).
      rewrite <- (xor_front_snoc hi) by (rewrite LL, Al; lia).
      rewrite LL, xor_front_zeros; [reflexivity|]. rewrite app_length, Pl, Al. cbn [length]. lia.
  Qed.

  Lemma S0_length m : length (S0 m) = b. Proof. apply Al. Qed.

  Lemma xof_final_first m s : srep p b rate lo hi m s -> XOF_Final p s = spos p rate lo hi (S0 m) 0 (S0 m).
  Proof.
    intros H. unfold XOF_Final. rewrite (sr_fin _ _ _ _ _ _ _ H), (final_state m s H). unfold Sponge_Save, spos. cbn [sp_rate sp_lopad sp_hipad sp_finalized sp_filled sp_state sp_saved].
    now rewrite Nat.mod_0_l, Nat.div_0_l by lia.
  Qed.
End Generic.

(** Replacing the permutation by an equal one (on octet states of b octets). *)
Lemma absorb_ext p q b rate m :
  (forall S, length S = b -> bytes_ok S -> p S = q S /\ length (p S) = b /\ bytes_ok (p S)) ->
  (0 < rate <= b)%nat -> bytes_ok m ->
  absorb p b rate m = absorb q b rate m /\ length (absorb p b rate m) = b /\ bytes_ok (absorb p b rate m).
Proof.
  intros H Hr Hm. unfold absorb.
  pose proof (blocks_bytes rate m ltac:(lia) Hm) as F.
  assert (L : length (repeat 0 b) = b) by apply repeat_length.
  assert (B : bytes_ok (repeat 0 b)) by apply repeat0_bytes.
  revert L B. generalize (repeat 0 b). induction F as [|blk l [Hb Hk] F IH]; intros S L B; cbn [fold_left]; [auto|].
  destruct (H (xor_front S blk)) as (E1 & E2 & E3); [rewrite xor_front_length; lia|now apply xor_front_ok|].
  rewrite <- E1. apply IH; auto.
Qed.
Lemma iter_ext p q b n S :
  (forall S, length S = b -> bytes_ok S -> p S = q S /\ length (p S) = b /\ bytes_ok (p S)) ->
  length S = b -> bytes_ok S ->
  Nat.iter n p S = Nat.iter n q S /\ length (Nat.iter n p S) = b /\ bytes_ok (Nat.iter n p S).
Proof.
  intros H L B. induction n as [|n (E & L' & B')]; [auto|].
  change (Nat.iter (Datatypes.S n) p S) with (p (Nat.iter n p S)).
  change (Nat.iter (Datatypes.S n) q S) with (q (Nat.iter n q S)).
  destruct (H _ L' B') as (E1 & E2 & E3). rewrite <- E. auto.
Qed.
Lemma sponge_pad_ok rate lo hi m : byte_ok lo -> byte_ok hi -> bytes_ok m -> bytes_ok (sponge_pad rate lo hi m).
Proof.
  intros Hl Hh Hm. unfold sponge_pad. apply Forall_app. split; [auto|].
  destruct (_ =? 1)%nat.
  - constructor; [apply lxor_bound; auto; lia|constructor].
  - constructor; [auto|]. apply Forall_app. split; [apply repeat0_bytes|now constructor].
Qed.
Lemma stream_ext p q b rate lo hi m i :
  (forall S, length S = b -> bytes_ok S -> p S = q S /\ length (p S) = b /\ bytes_ok (p S)) ->
  (0 < rate <= b)%nat -> byte_ok lo -> byte_ok hi -> bytes_ok m ->
  sponge_stream p b rate lo hi m i = sponge_stream q b rate lo hi m i.
Proof.
  intros H Hr Hl Hh Hm. unfold sponge_stream, squeeze_octet.
  destruct (absorb_ext p q b rate (sponge_pad rate lo hi m) H Hr ltac:(now apply sponge_pad_ok)) as (E & L & B).
  destruct (iter_ext p q b (i / rate) _ H L B) as (E' & _ & _). now rewrite E', E.
Qed.

Lemma keccakF_ext S : length S = 200%nat -> bytes_ok S ->
  KeccakF1600_Permute S = keccak_p 24 S /\ length (KeccakF1600_Permute S) = 200%nat /\ bytes_ok (KeccakF1600_Permute S).
Proof.
  intros _ B. unfold KeccakF1600_Permute. rewrite KeccakP_eq by (auto; lia).
  auto using keccak_p_length, keccak_p_ok.
Qed.
Lemma KeccakF_length S : length (KeccakF1600_Permute S) = 200%nat.
Proof.
  unfold KeccakF1600_Permute, KeccakP1600_Permute. rewrite le_unwords_length.
  enough (length (fst (fold_left (kp_round 24) (seq 0 24) (le_words 8 25 S, 1))) = 25%nat) by lia.
  assert (L : length (le_words 8 25 S) = 25%nat) by apply le_words_length.
  revert L. generalize (le_words 8 25 S) 1 (seq 0 24). intros A l sq. revert A l.
  induction sq as [|i sq IH]; intros A l L; cbn [fold_left]; [exact L|].
  destruct (kp_round 24 (A, l) i) as [A' l'] eqn:E. apply IH.
  unfold kp_round, k_iota in E. destruct (iota_rc l) as [R l''].
  assert (L1 : length (k_chi (k_pi (k_rho (k_theta A)))) = 25%nat).
  { do 25 (destruct A as [|? A]; [discriminate L|]); destruct A; [|discriminate L]. reflexivity. }
  assert (EA := f_equal fst E). cbn [fst] in EA. subst A'. unfold kset.
  destruct (24 <=? i + 24)%nat; rewrite ?upd_length; auto.
Qed.
