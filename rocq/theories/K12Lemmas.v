(** KangarooTwelve: the chunk buffers, the jobs and the final node. *)
From Coq Require Import Permutation.
From Verif Require Import Base Hash HashSpec Blocks DerLemmas HashLemmas MdLemmas Sponge SpongeSpec KeccakLemmas SpongeLemmas Blake3NodeLemmas K12Spec K12.

(** * length_encode *)
Lemma base256_S f x : base256 (S f) x = if x =? 0 then [] else base256 f (x / 256) ++ [x mod 256].
Proof. reflexivity. Qed.
Lemma base256_0 f : base256 f 0 = [].
Proof. destruct f; reflexivity. Qed.
Lemma len_ok n : 0 <= n < 2 ^ 24 -> exists l, k12_lenloop 9 n 0 = Some l /\ k12_lenoctets n l = length_encode n.
Proof.
  intros R. unfold length_encode. change 255%nat with (S (S (S (S 251)))). generalize 251%nat. intros f. rewrite !base256_S.
  assert (L : k12_lenloop 9 n 0 = if 1 <=? n then if 256 <=? n then if 65536 <=? n then if 16777216 <=? n then None else Some 3 else Some 2 else Some 1 else Some 0).
  { cbn [k12_lenloop]. change (0 <? 8) with true. change (0 + 1 <? 8) with true. change (0 + 1 + 1 <? 8) with true. change (0 + 1 + 1 + 1 <? 8) with true. change (0 + 1 + 1 + 1 + 1 <? 8) with true.
    change (31 <=? Z.shiftl 0 3) with false. change (31 <=? Z.shiftl (0 + 1) 3) with false. change (31 <=? Z.shiftl (0 + 1 + 1) 3) with false. change (31 <=? Z.shiftl (0 + 1 + 1 + 1) 3) with false. change (31 <=? Z.shiftl (0 + 1 + 1 + 1 + 1) 3) with true.
    reflexivity. }
  rewrite L. clear L. change (2 ^ 24) with 16777216 in R.
  destruct (Z.leb_spec 1 n) as [H1|H1].
  2:{ assert (n = 0) by lia. subst n. exists 0. split; reflexivity. }
  rewrite (proj2 (Z.eqb_neq n 0)) by lia.
  destruct (Z.leb_spec 256 n) as [H2|H2].
  2:{ exists 1. split; [reflexivity|]. rewrite (Z.div_small n 256) by lia. cbn [app length Z.eqb]. unfold k12_lenoctets. cbn [Z.to_nat Pos.to_nat Pos.iter_op seq rev map app]. reflexivity. }
  assert (D1 : 1 <= n / 256) by (apply Z.div_le_lower_bound; lia).
  rewrite (proj2 (Z.eqb_neq (n / 256) 0)) by lia.
  destruct (Z.leb_spec 65536 n) as [H3|H3].
  2:{ exists 2. split; [reflexivity|]. assert (D2 : n / 256 / 256 = 0) by (rewrite Z.div_div by lia; apply Z.div_small; lia). rewrite D2. cbn [Z.eqb app length].
      unfold k12_lenoctets. change (rev (seq 0 (Z.to_nat 2))) with [1; 0]%nat. cbn [map app]. change (Z.shiftl (Z.of_nat 1) 3) with 8. change (Z.shiftl (Z.of_nat 0) 3) with 0. rewrite Z.shiftr_0_r, Z.shiftr_div_pow2 by lia. reflexivity. }
  assert (D2 : 1 <= n / 256 / 256) by (rewrite Z.div_div by lia; apply Z.div_le_lower_bound; lia).
  rewrite (proj2 (Z.eqb_neq (n / 256 / 256) 0)) by lia.
  destruct (Z.leb_spec 16777216 n) as [H4|H4]; [lia|].
  exists 3. split; [reflexivity|]. assert (D3 : n / 256 / 256 / 256 = 0) by (rewrite !Z.div_div by lia; apply Z.div_small; lia). rewrite D3. cbn [Z.eqb app length].
  unfold k12_lenoctets. change (rev (seq 0 (Z.to_nat 3))) with [2; 1; 0]%nat. cbn [map app]. change (Z.shiftl (Z.of_nat 2) 3) with 16. change (Z.shiftl (Z.of_nat 1) 3) with 8. change (Z.shiftl (Z.of_nat 0) 3) with 0.
  rewrite Z.shiftr_0_r, !Z.shiftr_div_pow2 by lia. rewrite Z.div_div by lia. reflexivity.
Qed.
Lemma len_ub n : 2 ^ 24 <= n -> k12_lenloop 9 n 0 = None.
Proof.
  intros R. change (2 ^ 24) with 16777216 in R.
  assert (L : k12_lenloop 9 n 0 = if 1 <=? n then if 256 <=? n then if 65536 <=? n then if 16777216 <=? n then None else Some 3 else Some 2 else Some 1 else Some 0).
  { cbn [k12_lenloop]. change (0 <? 8) with true. change (0 + 1 <? 8) with true. change (0 + 1 + 1 <? 8) with true. change (0 + 1 + 1 + 1 <? 8) with true. change (0 + 1 + 1 + 1 + 1 <? 8) with true.
    change (31 <=? Z.shiftl 0 3) with false. change (31 <=? Z.shiftl (0 + 1) 3) with false. change (31 <=? Z.shiftl (0 + 1 + 1) 3) with false. change (31 <=? Z.shiftl (0 + 1 + 1 + 1) 3) with false. change (31 <=? Z.shiftl (0 + 1 + 1 + 1 + 1) 3) with true.
    reflexivity. }
  rewrite L. rewrite !(proj2 (Z.leb_le _ _)) by lia. reflexivity.
Qed.

(** * jobs on the nodes, in any order *)
Section Jobs.
  Variables (f : knode -> knode) (d0 : knode).
  Definition jst (l : list knode) (i : nat) : list knode := upd i (f (nth i l d0)) l.
  Lemma jst_nth : forall ps l, NoDup ps -> (forall i, In i ps -> (i < length l)%nat) ->
    length (fold_left jst ps l) = length l /\
    forall i, nth i (fold_left jst ps l) d0 = if in_dec Nat.eq_dec i ps then f (nth i l d0) else nth i l d0.
  Proof.
    induction ps as [|q ps IH]; intros l ND R; cbn [fold_left].
    - split; [reflexivity|]. intros i. destruct (in_dec Nat.eq_dec i []) as [[]|]; reflexivity.
    - inversion ND as [|? ? NI ND']; subst. destruct (IH (jst l q) ND') as [L H].
      + intros i Hi. unfold jst. rewrite upd_length. apply R. now right.
      + assert (LJ : length (jst l q) = length l) by (unfold jst; apply upd_length). rewrite LJ in L. split; [exact L|]. intros i. rewrite H. unfold jst.
        destruct (Nat.eq_dec i q) as [->|NE].
        * destruct (in_dec Nat.eq_dec q ps) as [I|_]; [contradiction|]. destruct (in_dec Nat.eq_dec q (q :: ps)) as [_|N]; [|exfalso; apply N; now left].
          rewrite nth_upd_eq by (apply R; now left). reflexivity.
        * rewrite nth_upd_neq by auto. destruct (in_dec Nat.eq_dec i ps) as [I|N]; destruct (in_dec Nat.eq_dec i (q :: ps)) as [I'|N']; try reflexivity.
          -- exfalso. apply N'. now right.
          -- exfalso. destruct I' as [<-|I']; [now apply NE|contradiction].
  Qed.
  Lemma jst_all M R ps : Permutation (seq 0 (length M)) ps -> fold_left jst ps (M ++ R) = map f M ++ R.
  Proof.
    intros P.
    assert (II : forall i, In i ps <-> (i < length M)%nat).
    { intros i. split; [intros Hp; apply (Permutation_in _ (Permutation_sym P)) in Hp; apply in_seq in Hp; lia|]. intros H. apply (Permutation_in _ P). apply in_seq. lia. }
    destruct (jst_nth ps (M ++ R)) as [L H].
    - apply (Permutation_NoDup P), seq_NoDup.
    - intros i Hi. apply II in Hi. rewrite app_length. lia.
    - apply (nth_ext _ _ d0 d0); [rewrite L, !app_length, map_length; reflexivity|]. intros i _. rewrite H.
      destruct (in_dec Nat.eq_dec i ps) as [I|N].
      + apply II in I. rewrite !app_nth1 by (rewrite ?map_length; lia). rewrite (nth_indep (map f M) d0 (f d0)) by (rewrite map_length; lia). now rewrite map_nth.
      + assert (length M <= i)%nat by (destruct (Nat.lt_ge_cases i (length M)) as [A|A]; [exfalso; apply N, II, A|exact A]). rewrite !app_nth2 by (rewrite ?map_length; lia). now rewrite map_length.
  Qed.
End Jobs.

Section K.
  Variables (B NN rate : nat) (p : list Z -> list Z) (sched : Z -> list nat -> list nat).
  Hypothesis Hp : forall S, length S = 200%nat -> length (p S) = 200%nat.
  Hypothesis Hr : (0 < rate < 200)%nat.
  Hypothesis HB : (200 <= B)%nat.
  Hypothesis HN : (0 < NN)%nat.
  Hypothesis Hs : forall t ps, Permutation ps (sched t ps).
  Lemma Hr' : (0 < rate <= 200)%nat. Proof. lia. Qed.

  Notation SR := (srep p 200 rate).
  Definition oct8 : list Z := [3; 0; 0; 0; 0; 0; 0; 0].
  Definition cvm (c : list Z) : list Z := map (sponge_stream p 200 rate 0x0B 0x80 c) (seq 0 (200 - rate)).
  (** a node holding the octets c *)
  Definition pn (c : list Z) : knode := KN (length c) (c ++ repeat 0 (B - length c)).
  Lemma pn_nil : pn [] = init1inode B.
  Proof. unfold pn, init1inode. cbn [length app]. now rewrite Nat.sub_0_r. Qed.
  Lemma firstn_pn c : firstn (kn_filled (pn c)) (kn_buf (pn c)) = c.
  Proof. unfold pn. cbn [kn_filled kn_buf]. rewrite firstn_app, Nat.sub_diag, firstn_O, app_nil_r. apply firstn_all. Qed.
  Lemma cvm_length c : length (cvm c) = (200 - rate)%nat.
  Proof. unfold cvm. now rewrite map_length, seq_length. Qed.

  Lemma hash1_ok c : let n := hash1inode p rate (pn c) in firstn (kn_filled n) (kn_buf n) = cvm c.
  Proof.
    cbv zeta. unfold hash1inode. cbv zeta. rewrite firstn_pn.
    pose proof (update_srep p 200 rate 0x0B 0x80 Hp Hr' c [] _ (init_srep p 200 rate 0x0B 0x80 Hr')) as H. rewrite app_nil_l in H.
    rewrite (final_state p 200 rate 0x0B 0x80 Hp Hr' c _ H).
    set (sv := sp_saved _).
    pose proof (read_spos p rate 0x0B 0x80 ltac:(lia) (S0 p 200 rate 0x0B 0x80 c) sv (200 - rate) 0) as E.
    unfold spos in E at 1. rewrite Nat.mod_0_l, Nat.div_0_l in E by lia. cbn [Nat.iter] in E. change (Nat.iter 0 p ?s) with s in E.
    rewrite E. cbn [kn_filled kn_buf].
    change (map _ (seq 0 (200 - rate))) with (cvm c) at 1.
    rewrite <- (cvm_length c) at 1. rewrite firstn_app, Nat.sub_diag, firstn_O, app_nil_r. apply firstn_all.
  Qed.

  (** flush: the filled nodes become chaining values of the final node *)
  Lemma collect_ok lo : forall fl m s, SR lo 0x80 m s ->
    SR lo 0x80 (m ++ concat (map cvm fl)) (fold_left (fun s node => Sponge_Update p s (firstn (kn_filled node) (kn_buf node))) (map (hash1inode p rate) (map pn fl)) s).
  Proof.
    induction fl as [|c fl IH]; intros m s H; cbn [map concat fold_left]; [rewrite app_nil_r; exact H|].
    rewrite app_assoc. apply IH. rewrite hash1_ok. apply update_srep; [exact Hp|exact Hr'|exact H].
  Qed.
  Lemma flush_ok lo m fl R s t cl fi : SR lo 0x80 m s ->
    exists s', k12_flush B p sched (K12C (map pn fl ++ R) s t cl (length fl) fi) = K12C (repeat (pn []) (length fl) ++ R) s' t cl 0 fi
      /\ SR lo 0x80 (m ++ concat (map cvm fl)) s'.
  Proof.
    intros H. unfold k12_flush. cbn [k_sp k_total k_nodes k_infilled k_clen k_fin]. rewrite (sr_rate _ _ _ _ _ _ _ H).
    change (job_leaf2cv p rate) with (jst (hash1inode p rate) (KN 0 [])).
    assert (P : Permutation (seq 0 (length (map pn fl))) (sched t (seq 0 (length fl)))) by (rewrite map_length; apply Hs).
    rewrite (jst_all (hash1inode p rate) (KN 0 []) (map pn fl) R _ P).
    unfold cv2final. cbn [k_sp k_total k_nodes k_infilled k_clen k_fin]. cbv zeta.
    assert (LM : length fl = length (map (hash1inode p rate) (map pn fl))) by now rewrite !map_length.
    assert (F1 : firstn (length fl) (map (hash1inode p rate) (map pn fl) ++ R) = map (hash1inode p rate) (map pn fl)) by (rewrite LM, firstn_app, Nat.sub_diag, firstn_O, app_nil_r; apply firstn_all).
    assert (F2 : skipn (length fl) (map (hash1inode p rate) (map pn fl) ++ R) = R) by (rewrite LM, skipn_app, Nat.sub_diag, skipn_O, skipn_all; reflexivity).
    rewrite F1, F2.
    eexists. split; [f_equal|apply collect_ok; exact H].
    f_equal. rewrite pn_nil. clear. induction fl as [|c fl IH]; [reflexivity|]. cbn [map repeat length]. now rewrite IH.
  Qed.

  (** * the state after the octets D *)
  Definition big (x : k12) (D0 : list Z) (dn fl : list (list Z)) (cur : list Z) (t cl : Z) : Prop :=
    length D0 = B /\ Forall (fun c => length c = B) dn /\ Forall (fun c => length c = B) fl /\ (length cur < B)%nat /\ (length fl < NN)%nat /\
    SR 0x06 0x80 (D0 ++ oct8 ++ concat (map cvm dn)) (k_sp x) /\
    k_nodes x = map pn fl ++ pn cur :: repeat (pn []) (NN - length fl - 1) /\
    k_total x = t /\ k_clen x = cl /\ k_infilled x = length fl /\ k_fin x = false.

  Lemma push_ok x D0 dn fl cur t cl c : big x D0 dn fl cur t cl -> 0 <= t < 2 ^ 64 - 1 ->
    exists y dn' fl' cur', k12_push B NN p sched x c = Some y /\ big y D0 dn' fl' cur' (t + 1) cl /\
      concat dn' ++ concat fl' ++ cur' = (concat dn ++ concat fl ++ cur) ++ [c].
  Proof.
    intros (L0 & Fd & Ff & Lc & Lf & Hsp & En & Et & Ec & Ei & Efi) Bt. destruct x as [nodes s t0 cl0 inf fi]. cbn [k_sp k_nodes k_total k_clen k_infilled k_fin] in *. subst t0 cl0 inf fi.
    unfold k12_push. cbn [k_sp k_nodes k_total k_clen k_infilled k_fin].
    assert (NE : nth_error nodes (length fl) = Some (pn cur)). { rewrite En. rewrite nth_error_app2 by (rewrite map_length; lia). rewrite map_length, Nat.sub_diag. reflexivity. }
    rewrite NE. cbv zeta. change (kn_filled (pn cur)) with (length cur). change (kn_buf (pn cur)) with (cur ++ repeat 0 (B - length cur)). cbn [kn_filled kn_buf].
    rewrite app_length, repeat_length. rewrite (proj2 (Nat.leb_gt (length cur + (B - length cur)) (length cur))) by lia.
    rewrite (proj2 (Nat.leb_le (length cur + 1) B)) by lia. cbn [negb].
    assert (EN : KN (length cur + 1) (upd (length cur) c (cur ++ repeat 0 (B - length cur))) = pn (cur ++ [c])).
    { unfold pn. rewrite app_length. cbn [length]. f_equal. replace (B - length cur)%nat with (S (B - (length cur + 1))) by lia. cbn [repeat]. rewrite upd_mid by reflexivity. now rewrite <- app_assoc. }
    rewrite EN. assert (U : u64 (t + 1) = t + 1) by (unfold u64, wrap; apply Z.mod_small; lia). rewrite U.
    assert (UN : upd (length fl) (pn (cur ++ [c])) nodes = map pn fl ++ pn (cur ++ [c]) :: repeat (pn []) (NN - length fl - 1)) by (rewrite En; apply upd_mid; now rewrite map_length).
    rewrite UN.
    destruct (Nat.eqb_spec (length cur + 1) B) as [E1|E1].
    - rewrite (proj2 (Nat.leb_le (length fl + 1) NN)) by lia. cbn [negb].
      assert (MM : map pn fl ++ pn (cur ++ [c]) :: repeat (pn []) (NN - length fl - 1) = map pn (fl ++ [cur ++ [c]]) ++ repeat (pn []) (NN - length fl - 1)) by (rewrite map_app, <- app_assoc; reflexivity).
      assert (LL : (length fl + 1)%nat = length (fl ++ [cur ++ [c]])) by (rewrite app_length; reflexivity).
      assert (FF : Forall (fun c => length c = B) (fl ++ [cur ++ [c]])) by (apply Forall_app; split; [exact Ff|]; apply Forall_cons; [rewrite app_length; exact E1|apply Forall_nil]).
      destruct (Nat.eqb_spec (length fl + 1) NN) as [E2|E2].
      + rewrite MM, LL. destruct (flush_ok 0x06 _ (fl ++ [cur ++ [c]]) (repeat (pn []) (NN - length fl - 1)) s (t + 1) cl false Hsp) as (s' & EF & Hsp').
        rewrite EF. eexists _, (dn ++ fl ++ [cur ++ [c]]), [], []. split; [reflexivity|]. split.
        * split; [exact L0|]. split; [apply Forall_app; split; [exact Fd|exact FF]|]. split; [apply Forall_nil|]. split; [cbn [length]; lia|]. split; [cbn [length]; lia|]. cbn [k_sp k_nodes k_total k_clen k_infilled k_fin].
          split; [rewrite map_app, concat_app; rewrite !app_assoc in *; exact Hsp'|]. split; [|split; [reflexivity|split; [reflexivity|split; reflexivity]]].
          cbn [map app length]. rewrite <- repeat_app, <- LL. rewrite Nat.sub_0_r. replace (length fl + 1 + (NN - length fl - 1))%nat with (S (NN - 1)) by lia. reflexivity.
        * cbn [concat]. rewrite !concat_app. cbn [concat]. rewrite !app_nil_r, !app_assoc. reflexivity.
      + eexists _, dn, (fl ++ [cur ++ [c]]), []. split; [reflexivity|]. split.
        * split; [exact L0|]. split; [exact Fd|]. split; [exact FF|]. split; [cbn [length]; lia|]. split; [lia|]. cbn [k_sp k_nodes k_total k_clen k_infilled k_fin].
          split; [exact Hsp|]. split; [|split; [reflexivity|split; [reflexivity|split; [exact LL|reflexivity]]]].
          rewrite MM, <- LL. f_equal. replace (NN - length fl - 1)%nat with (S (NN - (length fl + 1) - 1)) by lia. reflexivity.
        * rewrite concat_app. cbn [concat]. rewrite !app_nil_r, !app_assoc. reflexivity.
    - rewrite (proj2 (Nat.leb_le (length fl) NN)) by lia. cbn [negb]. rewrite (proj2 (Nat.eqb_neq (length fl) NN)) by lia.
      eexists _, dn, fl, (cur ++ [c]). split; [reflexivity|]. split.
      + split; [exact L0|]. split; [exact Fd|]. split; [exact Ff|]. split; [rewrite app_length; cbn [length]; lia|]. split; [exact Lf|]. cbn [k_sp k_nodes k_total k_clen k_infilled k_fin].
        split; [exact Hsp|]. split; [reflexivity|]. split; [reflexivity|]. split; [reflexivity|]. split; reflexivity.
      + rewrite !app_assoc. reflexivity.
  Qed.
  Lemma pushes_ok : forall d x D0 dn fl cur t cl, big x D0 dn fl cur t cl -> 0 <= t -> t + Z.of_nat (length d) < 2 ^ 64 ->
    exists y dn' fl' cur', try_fold (k12_push B NN p sched) d x = Some y /\ big y D0 dn' fl' cur' (t + Z.of_nat (length d)) cl /\
      concat dn' ++ concat fl' ++ cur' = (concat dn ++ concat fl ++ cur) ++ d.
  Proof.
    induction d as [|c d IH]; intros x D0 dn fl cur t cl H B0 B1.
    - exists x, dn, fl, cur. split; [reflexivity|]. rewrite Z.add_0_r, app_nil_r. split; [exact H|reflexivity].
    - cbn [length] in B1. destruct (push_ok x D0 dn fl cur t cl c H) as (y & dn1 & fl1 & cur1 & E & H1 & C1); [lia|].
      destruct (IH y D0 dn1 fl1 cur1 (t + 1) cl H1) as (z & dn2 & fl2 & cur2 & E2 & H2 & C2); [lia|lia|].
      exists z, dn2, fl2, cur2. cbn [try_fold]. rewrite E. split; [exact E2|]. split.
      + replace (t + Z.of_nat (length (c :: d))) with (t + 1 + Z.of_nat (length d)) by (cbn [length]; lia). exact H2.
      + rewrite C2, C1, <- app_assoc. reflexivity.
  Qed.

  Definition small (x : k12) (D : list Z) (cl : Z) : Prop :=
    (length D <= B)%nat /\ SR 0x07 0x80 D (k_sp x) /\ k_nodes x = repeat (pn []) NN /\ k_total x = Z.of_nat (length D) /\
    k_clen x = cl /\ k_infilled x = 0%nat /\ k_fin x = false.
  Definition KI (x : k12) (D : list Z) (cl : Z) : Prop :=
    small x D cl \/ exists D0 dn fl cur, big x D0 dn fl cur (Z.of_nat (length D)) cl /\ D = D0 ++ concat dn ++ concat fl ++ cur /\ concat dn ++ concat fl ++ cur <> [].

  Lemma init_ok : KI (KT_Init B NN rate) [] 0.
  Proof.
    left. split; [cbn [length]; lia|]. unfold KT_Init. cbn [k_sp k_nodes k_total k_clen k_infilled k_fin]. split; [apply init_srep, Hr'|].
    rewrite pn_nil. split; [reflexivity|]. split; [reflexivity|]. split; [reflexivity|]. split; reflexivity.
  Qed.
  Lemma update_ok x D cl d : KI x D cl -> Z.of_nat (length (D ++ d)) < 2 ^ 64 ->
    exists y, K12_Update4 B NN p sched x d = Some y /\ KI y (D ++ d) cl.
  Proof.
    intros K BD. rewrite app_length in BD. destruct K as [(LD & Hsp & En & Et & Ec & Ei & Efi)|(D0 & dn & fl & cur & H & ED & NE)].
    - destruct x as [nodes s t0 cl0 inf fi]. cbn [k_sp k_nodes k_total k_clen k_infilled k_fin] in *. subst t0 cl0 inf fi nodes.
      unfold K12_Update4. cbn [k_sp k_nodes k_total k_clen k_infilled k_fin].
      set (ulen := if Z.of_nat (length D) <? Z.of_nat B then _ else _).
      assert (UL : ulen = Nat.min (length d) (B - length D)).
      { unfold ulen. destruct (Z.ltb_spec (Z.of_nat (length D)) (Z.of_nat B)); [|lia]. destruct (Z.ltb_spec (Z.of_nat B) (Z.of_nat (length d) + Z.of_nat (length D))); rewrite ?Nat2Z.id; lia. }
      clearbody ulen. cbv zeta.
      assert (U : u64 (Z.of_nat (length D) + Z.of_nat ulen) = Z.of_nat (length D + ulen)) by (unfold u64, wrap; rewrite Z.mod_small by lia; lia).
      rewrite U.
      assert (Hs1 : SR 0x07 0x80 (D ++ firstn ulen d) (Sponge_Update p s (firstn ulen d))) by (apply update_srep; [exact Hp|exact Hr'|exact Hsp]).
      set (s1 := Sponge_Update p s (firstn ulen d)) in *. clearbody s1.
      destruct (skipn ulen d) as [|c rest] eqn:ES.
      + cbn [try_fold]. eexists. split; [reflexivity|]. left.
        assert (FD : firstn ulen d = d) by (rewrite <- (firstn_skipn ulen d) at 2; rewrite ES, app_nil_r; reflexivity).
        assert (LU : ulen = length d). { assert (length (skipn ulen d) = 0%nat) by now rewrite ES. rewrite skipn_length in H. lia. }
        rewrite FD in Hs1. split; [rewrite app_length; lia|]. cbn [k_sp k_nodes k_total k_clen k_infilled k_fin]. split; [exact Hs1|]. split; [reflexivity|]. rewrite app_length, LU. split; [reflexivity|]. split; [reflexivity|]. split; reflexivity.
      + assert (LU : (length D + ulen = B)%nat). { assert (length (skipn ulen d) = S (length rest)) by now rewrite ES. rewrite skipn_length in H. lia. }
        rewrite LU, Z.eqb_refl.
        assert (Hs2 : SR 0x06 0x80 ((D ++ firstn ulen d) ++ oct8) (Sponge_Update p (Sp (sp_rate s1) 0x06 (sp_hipad s1) (sp_finalized s1) (sp_filled s1) (sp_state s1) (sp_saved s1)) oct8)).
        { apply update_srep; [exact Hp|exact Hr'|]. destruct Hs1 as [E1 E2 E3 E4 E5 E6]. constructor; cbn [sp_rate sp_lopad sp_hipad sp_finalized sp_filled sp_state sp_saved]; auto. }
        change [3; 0; 0; 0; 0; 0; 0; 0] with oct8. set (s2 := Sponge_Update p _ oct8) in *. clearbody s2.
        assert (LR : length (c :: rest) = (length d - ulen)%nat) by (rewrite <- ES, skipn_length; reflexivity).
        assert (BG : big (K12C (repeat (pn []) NN) s2 (Z.of_nat B) cl 0 false) (D ++ firstn ulen d) [] [] [] (Z.of_nat B) cl).
        { split; [rewrite app_length, firstn_length; lia|]. split; [apply Forall_nil|]. split; [apply Forall_nil|]. split; [cbn [length]; lia|]. split; [cbn [length]; lia|]. cbn [k_sp k_nodes k_total k_clen k_infilled k_fin].
          split; [cbn [map concat]; rewrite app_nil_r; exact Hs2|]. split; [|split; [reflexivity|split; [reflexivity|split; reflexivity]]]. cbn [map app length]. rewrite Nat.sub_0_r. replace NN with (S (NN - 1)) at 1 by lia. reflexivity. }
        destruct (pushes_ok (c :: rest) _ _ _ _ _ _ _ BG) as (y & dn & fl & cur & E & H & C); [lia|rewrite LR; lia|].
        exists y. split; [exact E|]. right. exists (D ++ firstn ulen d), dn, fl, cur. cbn [concat app] in C. split; [|split].
        * replace (Z.of_nat (length (D ++ d))) with (Z.of_nat B + Z.of_nat (length (c :: rest))) by (rewrite LR, app_length; lia). exact H.
        * rewrite C, <- ES, <- app_assoc. now rewrite firstn_skipn.
        * rewrite C. discriminate.
    - assert (LD : (B < length D)%nat). { destruct H as (L0 & _). rewrite ED, app_length, L0. destruct (concat dn ++ concat fl ++ cur); [congruence|cbn [length]; lia]. }
      pose proof H as (_ & _ & _ & _ & _ & _ & _ & Et & _). unfold K12_Update4. rewrite Et. rewrite (proj2 (Z.ltb_ge (Z.of_nat (length D)) (Z.of_nat B))) by lia. cbv zeta. rewrite firstn_O, skipn_O. cbn [Sponge_Update fold_left].
      assert (U : u64 (Z.of_nat (length D) + Z.of_nat 0) = Z.of_nat (length D)) by (unfold u64, wrap; rewrite Z.mod_small by lia; lia). rewrite U. cbn [k_total].
      rewrite (proj2 (Z.eqb_neq (Z.of_nat (length D)) (Z.of_nat B))) by lia.
      replace (match d with [] => _ | _ => _ end) with (K12C (k_nodes x) (k_sp x) (Z.of_nat (length D)) (k_clen x) (k_infilled x) (k_fin x)) by (destruct d; reflexivity).
      rewrite <- Et. replace (K12C (k_nodes x) (k_sp x) (k_total x) (k_clen x) (k_infilled x) (k_fin x)) with x by (destruct x; reflexivity).
      destruct (pushes_ok d _ _ _ _ _ _ _ H) as (y & dn' & fl' & cur' & E & H' & C); [lia|lia|].
      exists y. split; [exact E|]. right. exists D0, dn', fl', cur'. split; [|split].
      + rewrite app_length, Nat2Z.inj_add. exact H'.
      + rewrite C, ED, <- app_assoc. reflexivity.
      + rewrite C. destruct (concat dn ++ concat fl ++ cur); [congruence|discriminate].
  Qed.
End K.
