(** KangarooTwelve: finalisation and output. *)
From Coq Require Import Permutation.
From Verif Require Import Base Hash HashSpec Blocks DerLemmas HashLemmas MdLemmas Sponge SpongeSpec KeccakLemmas SpongeLemmas Blake3NodeLemmas K12Spec K12 K12Lemmas.

Lemma pieces_gen B : (0 < B)%nat -> forall cs l fuel, Forall (fun c : list Z => length c = B) cs -> (0 < length l <= B)%nat -> (length cs <= fuel)%nat ->
  pieces_of fuel B (concat cs ++ l) = cs ++ [l].
Proof.
  intros HB. induction cs as [|c cs IH]; intros l fuel F L Lf.
  - cbn [concat app]. destruct fuel; [reflexivity|]. cbn [pieces_of]. now rewrite (proj2 (Nat.leb_le (length l) B)) by lia.
  - cbn [length] in Lf. destruct fuel as [|fuel]; [lia|]. inversion F as [|? ? Lc F']; subst. cbn [pieces_of concat].
    rewrite (proj2 (Nat.leb_gt _ _)) by (rewrite !app_length; lia). rewrite <- app_assoc.
    rewrite firstn_app, Nat.sub_diag, firstn_O, app_nil_r, firstn_all, skipn_app, Nat.sub_diag, skipn_O, skipn_all, app_nil_l.
    cbn [app]. f_equal. apply IH; [exact F'|exact L|lia].
Qed.
Lemma pieces_all B cs fuel : (0 < B)%nat -> cs <> [] -> Forall (fun c : list Z => length c = B) cs -> (length cs <= fuel)%nat -> pieces_of fuel B (concat cs) = cs.
Proof.
  intros HB NE F Lf. destruct (exists_last NE) as (cs' & l & ->). apply Forall_app in F. destruct F as [F1 F2]. inversion F2 as [|? ? Ll _]; subst.
  rewrite concat_app. cbn [concat]. rewrite app_nil_r. rewrite app_length in Lf. cbn [length] in Lf. apply pieces_gen; [lia|exact F1|lia|lia].
Qed.
Lemma concat_len B cs : Forall (fun c : list Z => length c = B) cs -> length (concat cs) = (B * length cs)%nat.
Proof. induction 1 as [|c cs H F IH]; [cbn [concat length]; lia|]. cbn [concat length]. rewrite app_length, H, IH. lia. Qed.

Section K.
  Variables (B NN rate : nat) (p : list Z -> list Z) (sched : Z -> list nat -> list nat).
  Hypothesis Hp : forall S, length S = 200%nat -> length (p S) = 200%nat.
  Hypothesis Hr : (0 < rate < 200)%nat.
  Hypothesis HB : (200 <= B)%nat.
  Hypothesis HN : (0 < NN)%nat.
  Hypothesis Hs : forall t ps, Permutation ps (sched t ps).
  Notation SR := (srep p 200 rate).
  Notation KIp := (KI B NN rate p).
  Notation cv := (cvm rate p).
  Lemma Hrb : (0 < rate <= 200)%nat. Proof. lia. Qed.

  (** what is absorbed by the final node, with its domain octet *)
  Definition fnode (D : list Z) : Z * list Z :=
    match pieces_of (length D) B D with
    | s0 :: s1 :: more => (0x06, s0 ++ oct8 ++ concat (map cv (s1 :: more)) ++ length_encode (Z.of_nat (length (s1 :: more))) ++ [0xff; 0xff])
    | _ => (0x07, D)
    end.
  Lemma fnode_small D : (length D <= B)%nat -> fnode D = (0x07, D).
  Proof. intros L. unfold fnode. destruct (length D) as [|k] eqn:E; [reflexivity|]. cbn [pieces_of]. rewrite (proj2 (Nat.leb_le (length D) B)) by lia. reflexivity. Qed.
  Lemma fnode_big D0 cs : length D0 = B -> cs <> [] -> pieces_of (length (D0 ++ concat cs)) B (D0 ++ concat cs) = D0 :: cs ->
    fnode (D0 ++ concat cs) = (0x06, D0 ++ oct8 ++ concat (map cv cs) ++ length_encode (Z.of_nat (length cs)) ++ [0xff; 0xff]).
  Proof. intros L NE E. unfold fnode. rewrite E. destruct cs as [|s1 more]; [congruence|reflexivity]. Qed.

  (** ready to output octet i *)
  Definition RS (x : k12) (D : list Z) (i : nat) : Prop :=
    k_fin x = true /\ (exists sv, k_sp x = spos p rate (fst (fnode D)) 0x80 (S0 p 200 rate (fst (fnode D)) 0x80 (snd (fnode D))) i sv) /\
    firstn 200 (kn_buf (nth 0 (k_nodes x) (KN 0 []))) = S0 p 200 rate (fst (fnode D)) 0x80 (snd (fnode D)).

  Lemma finish_ok x D m lo : fnode D = (lo, m) -> SR lo 0x80 m (k_sp x) -> k_nodes x <> [] -> RS (k12_finish p x) D 0.
  Proof.
    intros E H NE. unfold RS. rewrite E. cbn [fst snd]. unfold k12_finish. cbv zeta. rewrite (final_state p 200 rate lo 0x80 Hp Hrb m _ H). cbn [k_fin k_sp k_nodes].
    split; [reflexivity|]. split.
    - exists (sp_saved (k_sp x)). unfold spos. rewrite Nat.mod_0_l, Nat.div_0_l by lia. reflexivity.
    - destruct (k_nodes x) as [|n r]; [congruence|]. cbn [nth kn_buf sp_state].
      pose proof (S0_length p 200 rate lo 0x80 Hp Hrb m) as L. rewrite (firstn_all2 (S0 _ _ _ _ _ _)) by lia.
      rewrite firstn_app, L, Nat.sub_diag, firstn_O, app_nil_r. apply firstn_all2. lia.
  Qed.

  Lemma updates_ok : forall ds x D cl, KIp x D cl -> Z.of_nat (length (D ++ concat ds)) < 2 ^ 64 ->
    exists y, try_fold (K12_Update4 B NN p sched) ds x = Some y /\ KIp y (D ++ concat ds) cl.
  Proof.
    induction ds as [|d ds IH]; intros x D cl K L; cbn [try_fold concat] in *.
    - exists x. rewrite app_nil_r. auto.
    - rewrite app_assoc in *. destruct (update_ok B NN rate p sched Hp Hr HB HN Hs x D cl d K) as (y & E & K'); [rewrite app_length in L; lia|]. rewrite E. apply IH; assumption.
  Qed.
  Lemma octets_ok : forall os x D cl, KIp x D cl -> Z.of_nat (length (D ++ os)) < 2 ^ 64 ->
    exists y, try_fold (fun x c => K12_Update4 B NN p sched x [c]) os x = Some y /\ KIp y (D ++ os) cl.
  Proof.
    induction os as [|c os IH]; intros x D cl K L; cbn [try_fold] in *.
    - exists x. rewrite app_nil_r. auto.
    - change (c :: os) with ([c] ++ os) in *. rewrite app_assoc in *. destruct (update_ok B NN rate p sched Hp Hr HB HN Hs x D cl [c] K) as (y & E & K'); [rewrite app_length in L; lia|]. rewrite E. apply IH; assumption.
  Qed.
  Lemma KI_clen x D cl : KIp x D cl -> k_clen x = cl /\ k_fin x = false.
  Proof. intros [(_ & _ & _ & _ & Ec & _ & Ef)|(D0 & dn & fl & cur & (_ & _ & _ & _ & _ & _ & _ & _ & Ec & _ & Ef) & _)]; auto. Qed.

  Lemma count_ok total k lc : total = Z.of_nat B * (1 + Z.of_nat k) + Z.of_nat lc -> (lc < B)%nat -> total + Z.of_nat B < 2 ^ 64 ->
    u64 (u64 (total + (Z.of_nat B - 1)) / Z.of_nat B - 1) = Z.of_nat (k + (if (0 <? lc)%nat then 1 else 0)).
  Proof.
    intros E L R. assert (T0 : 0 <= total) by (rewrite E; nia). assert (KB : Z.of_nat k <= total) by (rewrite E; nia).
    unfold u64, wrap. rewrite (Z.mod_small (total + _)) by lia.
    assert (Q : (total + (Z.of_nat B - 1)) / Z.of_nat B = 1 + Z.of_nat k + (if (0 <? lc)%nat then 1 else 0)).
    { symmetry. destruct (Nat.ltb_spec 0 lc) as [G|G].
      - apply (Z.div_unique _ _ _ (Z.of_nat lc - 1)); [lia|rewrite E; ring].
      - assert (lc = 0%nat) by lia. subst lc. apply (Z.div_unique _ _ _ (Z.of_nat B - 1)); [lia|rewrite E; ring]. }
    rewrite Q. clear Q E. destruct (0 <? lc)%nat; rewrite Z.mod_small by lia; lia.
  Qed.

  Theorem final_ok x M cl : KIp x M cl -> 0 <= cl < 2 ^ 24 ->
    Z.of_nat (length (M ++ length_encode cl)) + Z.of_nat B < 2 ^ 64 ->
    if Z.of_nat (length (M ++ length_encode cl)) <=? Z.of_nat B * 2 ^ 24
    then exists y, K12_Final2 B NN p sched x = Some y /\ RS y (M ++ length_encode cl) 0
    else K12_Final2 B NN p sched x = None.
  Proof.
    intros K Rc RL. destruct (KI_clen _ _ _ K) as [EC EF]. unfold K12_Final2. rewrite EF, EC. destruct (len_ok cl Rc) as (l & E1 & E2). rewrite E1, E2.
    destruct (octets_ok (length_encode cl) x M cl K) as (y & Ey & Ky); [lia|]. rewrite Ey. set (D := M ++ length_encode cl) in *. clearbody D. clear - Ky RL Hp Hr HB HN Hs.
    destruct Ky as [(LD & Hsp & En & Et & Ec & Ei & Efi)|(D0 & dn & fl & cur & H & ED & NE)].
    - rewrite Et. rewrite (proj2 (Z.leb_le (Z.of_nat (length D)) (Z.of_nat B * 2 ^ 24))) by lia. rewrite (proj2 (Z.leb_le (Z.of_nat (length D)) (Z.of_nat B))) by lia. eexists. split; [reflexivity|]. apply (finish_ok y D D 0x07); [apply fnode_small, LD|exact Hsp|]. rewrite En. destruct NN; [lia|discriminate].
    - destruct H as (L0 & Fd & Ff & Lc & Lf & Hsp & En & Et & Ec & Ei & Efi).
      assert (LD : length D = (B * (1 + length (dn ++ fl)) + length cur)%nat) by (rewrite ED, !app_length, L0, (concat_len B dn Fd), (concat_len B fl Ff); lia).
      assert (GT : (B < length D)%nat). { rewrite ED, app_length, L0. destruct (concat dn ++ concat fl ++ cur); [congruence|cbn [length]; lia]. }
      rewrite Et. rewrite (proj2 (Z.leb_gt (Z.of_nat (length D)) (Z.of_nat B))) by lia.
      assert (NR : nth_error (k_nodes y) (k_infilled y) = Some (pn B cur)). { rewrite En, Ei. rewrite nth_error_app2 by (rewrite map_length; lia). rewrite map_length, Nat.sub_diag. reflexivity. }
      rewrite NR. cbv zeta. change (kn_filled (pn B cur)) with (length cur).
      set (last := if (0 <? length cur)%nat then [cur] else []).
      assert (NC : k_nodes y = map (pn B) (fl ++ last) ++ repeat (pn B []) (NN - length (fl ++ last)) /\ (if (0 <? length cur)%nat then k_infilled y + 1 else k_infilled y)%nat = length (fl ++ last)).
      { rewrite En, Ei. unfold last. destruct (Nat.ltb_spec 0 (length cur)) as [G|G].
        - rewrite map_app, <- app_assoc, app_length. cbn [map app length]. rewrite Nat.sub_add_distr. split; reflexivity.
        - destruct cur; [|cbn in G; lia]. rewrite app_nil_r. split; [|reflexivity]. f_equal. destruct (NN - length fl)%nat as [|k] eqn:EK; [lia|]. replace (S k - 1)%nat with k by lia. reflexivity. }
      destruct NC as [NC1 NC2]. rewrite NC1, NC2.
      destruct (flush_ok B NN rate p sched Hp Hr HB HN Hs 0x06 _ (fl ++ last) (repeat (pn B []) (NN - length (fl ++ last))) (k_sp y) (Z.of_nat (length D)) (k_clen y) (k_fin y) Hsp) as (s' & EFl & Hsp').
      rewrite EFl. cbn [k_total k_sp k_nodes k_clen k_infilled k_fin].
      assert (LE : length ((dn ++ fl) ++ last) = (length (dn ++ fl) + (if (0 <? length cur)%nat then 1 else 0))%nat) by (rewrite app_length; unfold last; destruct (0 <? length cur)%nat; reflexivity).
      rewrite (count_ok (Z.of_nat (length D)) (length (dn ++ fl)) (length cur)) by lia.
      rewrite <- LE. set (cs := (dn ++ fl) ++ last) in *.
      assert (NCS : cs <> []). { intros Q. apply NE. apply app_eq_nil in Q. destruct Q as [Q1 Q2]. apply app_eq_nil in Q1. destruct Q1 as [-> ->]. unfold last in Q2. destruct cur; [reflexivity|discriminate Q2]. }
      assert (CS : D = D0 ++ concat cs). { rewrite ED. f_equal. unfold cs, last. rewrite !concat_app, <- app_assoc. f_equal. f_equal. destruct cur; [reflexivity|]. cbn [length Nat.ltb Nat.leb concat]. now rewrite app_nil_r. }
      assert (PC : pieces_of (length D) B D = D0 :: cs).
      { assert (FD : Forall (fun c => length c = B) (D0 :: dn ++ fl)) by (apply Forall_cons; [exact L0|apply Forall_app; split; assumption]).
        rewrite CS at 2. unfold cs, last. destruct (Nat.ltb_spec 0 (length cur)) as [G|G].
        - rewrite concat_app, app_assoc. cbn [concat]. rewrite app_nil_r. change (D0 ++ concat (dn ++ fl)) with (concat (D0 :: dn ++ fl)).
          apply (pieces_gen B ltac:(lia) (D0 :: dn ++ fl) cur); [exact FD|lia|]. cbn [length]. rewrite LD. nia.
        - rewrite app_nil_r. change (D0 ++ concat (dn ++ fl)) with (concat (D0 :: dn ++ fl)). apply pieces_all; [lia|discriminate|exact FD|]. cbn [length]. rewrite LD. nia. }
      assert (LCS : Z.of_nat (length D) <= Z.of_nat B * 2 ^ 24 <-> Z.of_nat (length cs) < 2 ^ 24).
      { rewrite LE, LD. set (W := 2 ^ 24) in *. assert (WP : W > 0) by reflexivity. clearbody W. clear - HB Lc WP. set (k := length (dn ++ fl)). set (c := length cur) in *. clearbody k c. destruct (Nat.ltb_spec 0 c); nia. }
      destruct (Z.leb_spec (Z.of_nat (length D)) (Z.of_nat B * 2 ^ 24)) as [YL|YL].
      2:{ rewrite len_ub; [reflexivity|]. destruct (Z.lt_ge_cases (Z.of_nat (length cs)) (2 ^ 24)) as [Q|Q]; [apply LCS in Q; lia|exact Q]. }
      apply (proj1 LCS) in YL.
      destruct (len_ok _ (conj (Zle_0_nat (length cs)) YL)) as (l & E1 & E2). rewrite E1, E2. eexists. split; [reflexivity|].
      eapply finish_ok.
      + rewrite CS. apply fnode_big; [exact L0|exact NCS|rewrite <- CS; exact PC].
      + cbn [k_sp].
        assert (Q : SR 0x06 0x80 (((((D0 ++ oct8 ++ concat (map cv dn)) ++ concat (map cv (fl ++ last))) ++ length_encode (Z.of_nat (length cs))) ++ [0xff]) ++ [0xff])
          (Sponge_Update p (Sponge_Update p (Sponge_Update p s' (length_encode (Z.of_nat (length cs)))) [0xff]) [0xff])).
        { apply update_srep; [exact Hp|exact Hrb|]. apply update_srep; [exact Hp|exact Hrb|]. apply update_srep; [exact Hp|exact Hrb|]. exact Hsp'. }
        replace (D0 ++ oct8 ++ concat (map cv cs) ++ length_encode (Z.of_nat (length cs)) ++ [0xff; 0xff]) with (((((D0 ++ oct8 ++ concat (map cv dn)) ++ concat (map cv (fl ++ last))) ++ length_encode (Z.of_nat (length cs))) ++ [0xff]) ++ [0xff]); [exact Q|].
        replace (concat (map cv cs)) with (concat (map cv dn) ++ concat (map cv (fl ++ last))) by (unfold cs; rewrite <- app_assoc, (map_app _ dn), concat_app; reflexivity).
        generalize (concat (map cv dn)) (concat (map cv (fl ++ last))) (length_encode (Z.of_nat (length cs))). intros a b c. rewrite <- !app_assoc. reflexivity.
      + cbn [k_nodes]. destruct (fl ++ last) eqn:G; [|discriminate]. rewrite Nat.sub_0_r. destruct NN; [lia|discriminate].
  Qed.

  (** the output stream *)
  Definition strm (D : list Z) (i : nat) : Z := sponge_stream p 200 rate (fst (fnode D)) 0x80 (snd (fnode D)) i.
  Lemma read_ok x D i n (rw : bool) : RS x D i ->
    exists y, K12_Read4 p x n rw = (y, map (strm D) (seq (if rw then 0%nat else i) n)) /\ RS y D ((if rw then 0%nat else i) + n).
  Proof.
    intros (F & (sv & E) & N). unfold K12_Read4. cbv zeta.
    assert (EQ : (if rw then Sp (sp_rate (k_sp x)) (sp_lopad (k_sp x)) (sp_hipad (k_sp x)) (sp_finalized (k_sp x)) 0 (firstn 200 (kn_buf (nth 0 (k_nodes x) (KN 0 [])))) (sp_saved (k_sp x)) else k_sp x)
      = spos p rate (fst (fnode D)) 0x80 (S0 p 200 rate (fst (fnode D)) 0x80 (snd (fnode D))) (if rw then 0%nat else i) sv).
    { destruct rw; [|exact E]. rewrite N, E. unfold spos. cbn [sp_rate sp_lopad sp_hipad sp_finalized sp_saved]. rewrite Nat.mod_0_l, Nat.div_0_l by lia. reflexivity. }
    rewrite EQ, (read_spos p rate _ 0x80 ltac:(lia)). eexists. split; [reflexivity|]. split; [exact F|]. split; [exists sv; reflexivity|exact N].
  Qed.
End K.
