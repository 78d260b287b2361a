(** Buffering in the Merkle-Damgard hashes: Update/Final compute pad-then-iterate. *)
From Verif Require Import Base Hash HashSpec Blocks DerLemmas HashLemmas.

Lemma firstn_upd {A} i (b : A) l : (i < length l)%nat -> firstn (S i) (upd i b l) = firstn i l ++ [b].
Proof.
  revert i. induction l as [|h t IH]; intros [|i] H; cbn [length] in H; try lia; [reflexivity|].
  cbn [upd]. rewrite !firstn_cons, IH by lia. reflexivity.
Qed.
Lemma firstn_upd_lt {A} i j (b : A) l : (j <= i)%nat -> firstn j (upd i b l) = firstn j l.
Proof.
  revert i l. induction j as [|j IH]; intros i l H; [reflexivity|].
  destruct l as [|h t]; [now destruct i|]. destruct i as [|i]; [lia|]. cbn [upd]. rewrite !firstn_cons, IH by lia. reflexivity.
Qed.
Lemma skipn_upd {A} i j (b : A) l : (i < j)%nat -> skipn j (upd i b l) = skipn j l.
Proof.
  revert i l. induction j as [|j IH]; intros i l H; [lia|].
  destruct l as [|h t]; [now destruct i|]. destruct i as [|i]; [reflexivity|]. cbn [upd skipn]. apply IH. lia.
Qed.

Lemma zero_fill_spec k : forall f msg, (f + k = length msg)%nat -> zero_fill k f msg = firstn f msg ++ repeat 0 k.
Proof.
  induction k as [|k IH]; intros f msg H; cbn [zero_fill].
  - rewrite firstn_all2 by lia. cbn. now rewrite app_nil_r.
  - rewrite IH by (rewrite upd_length; lia). rewrite firstn_upd by lia. rewrite <- app_assoc. reflexivity.
Qed.
Lemma store_spec bs : forall off msg, (off + length bs <= length msg)%nat ->
  store off bs msg = firstn off msg ++ bs ++ skipn (off + length bs) msg.
Proof.
  induction bs as [|b bs IH]; intros off msg H; cbn [store length] in *.
  - rewrite Nat.add_0_r. cbn. now rewrite firstn_skipn.
  - rewrite IH by (rewrite upd_length; lia). rewrite firstn_upd by lia. rewrite <- app_assoc. cbn [app].
    f_equal. f_equal. f_equal. rewrite <- Nat.add_succ_comm. apply skipn_upd. lia.
Qed.
Lemma store_length bs off msg : length (store off bs msg) = length msg.
Proof. revert off msg. induction bs as [|b bs IH]; intros; cbn [store]; auto. rewrite IH. apply upd_length. Qed.

Lemma be_bytes_app a b v : be_bytes (a + b) v = be_bytes a (v / 2 ^ (8 * Z.of_nat b)) ++ be_bytes b v.
Proof.
  unfold be_bytes. rewrite <- rev_app_distr. f_equal.
  apply list_ext; [now rewrite app_length, !to_le_length, Nat.add_comm|].
  intros i Hi. rewrite to_le_length in Hi. rewrite nth_to_le by lia.
  unfold nthZ. destruct (Nat.lt_ge_cases i b) as [L|L].
  - rewrite app_nth1 by now rewrite to_le_length. fold (nthZ i (to_le 8 b v)). rewrite nth_to_le by lia. reflexivity.
  - rewrite app_nth2; rewrite to_le_length; [|auto].
    fold (nthZ (i - b) (to_le 8 a (v / 2 ^ (8 * Z.of_nat b)))). rewrite nth_to_le by lia.
    rewrite Z.div_div by (try (apply Z.pow_nonzero; lia); apply Z.pow_pos_nonneg; lia).
    rewrite <- Z.pow_add_r by lia. f_equal. f_equal. f_equal. lia.
Qed.
Lemma be_bytes_mod n v : be_bytes n (v mod 2 ^ (8 * Z.of_nat n)) = be_bytes n v.
Proof.
  rewrite <- (be_val_be_bytes n v). pose proof (be_bytes_be_val (be_bytes n v) (be_bytes_ok n v)) as E.
  rewrite be_bytes_length in E. exact E.
Qed.

Lemma two_stores k o b1 b2 msg : length b1 = k -> length b2 = k -> length msg = (o + k + k)%nat ->
  forall o2, o2 = (o + k)%nat -> store o2 b2 (store o b1 msg) = firstn o msg ++ b1 ++ b2.
Proof.
  intros H1 H2 H3 o2 ->. rewrite (store_spec b1) by lia. set (X := firstn o msg ++ b1 ++ _).
  assert (LX : length X = length msg) by (unfold X; rewrite !app_length, firstn_length, skipn_length; lia).
  rewrite store_spec by lia. rewrite (@skipn_all2 Z _ X) by lia. rewrite app_nil_r.
  rewrite app_assoc. f_equal. unfold X. rewrite app_assoc. apply firstn_app_exact.
  rewrite app_length, firstn_length. lia.
Qed.

Record md_good (a : md_alg) (w : Z) (n : nat) : Prop := {
  g_wb : md_wb a = 4%nat \/ md_wb a = 8%nat;
  g_w : w = 8 * Z.of_nat (md_wb a);
  g_iv : state_wd w n (md_iv a);
  g_comp : forall H blk, state_wd w n H -> bytes_ok blk -> state_wd w n (md_compress a H blk);
  g_out : (md_out a <= md_wb a * n)%nat;
  g_n : (n <= 8)%nat }.

(** [rep a m x]: x is what the context holds after exactly the octets m. *)
Record rep (a : md_alg) (m : list Z) (x : md_ctx) : Prop := {
  r_fin : md_finalized x = false;
  r_fill : md_filled x = (length m mod md_block a)%nat;
  r_len : md_len x = u64 (8 * Z.of_nat (length m));
  r_H : md_H x = fold_left (md_compress a) (blocks (md_block a) m) (md_iv a);
  r_msgl : length (md_Msg x) = md_block a;
  r_msg : firstn (md_filled x) (md_Msg x) = part (md_block a) m }.

Lemma repeat0_bytes k : bytes_ok (repeat 0 k).
Proof. apply Forall_forall. intros x Hx. apply repeat_spec in Hx. subst. unfold byte_ok. lia. Qed.

Section Md.
  Variables (a : md_alg) (w : Z) (n : nat).
  Hypothesis G : md_good a w n.
  Let B := md_block a.

  Lemma B_pos : (0 < B)%nat.
  Proof. unfold B, md_block. destruct (g_wb _ _ _ G) as [-> | ->]; lia. Qed.

  Lemma init_rep junk : length junk = B -> rep a [] (md_init a junk).
  Proof.
    intros H. pose proof B_pos as BP. constructor; cbn [md_init md_finalized md_filled md_len md_H md_Msg]; auto.
    - rewrite Nat.mod_small; [reflexivity|exact BP].
    - now rewrite blocks_nil.
    - unfold part. cbn [length]. now rewrite skipn_nil.
  Qed.

  (** Without the length field, which Update writes once per call. *)
  Record rep0 (m : list Z) (x : md_ctx) : Prop := {
    r0_fin : md_finalized x = false;
    r0_fill : md_filled x = (length m mod B)%nat;
    r0_H : md_H x = fold_left (md_compress a) (blocks B m) (md_iv a);
    r0_msgl : length (md_Msg x) = B;
    r0_msg : firstn (md_filled x) (md_Msg x) = part B m }.

  Lemma loop_rep0 data : forall m x, rep0 m x ->
    rep0 (m ++ data) (md_update_loop a x data) /\ md_len (md_update_loop a x data) = md_len x.
  Proof.
    pose proof B_pos as BP. induction data as [|b data IH]; intros m x H.
    - rewrite app_nil_r. auto.
    - destruct H as [Hf Hfl HH HL HM]. cbn [md_update_loop]. fold B.
      change (b :: data) with ([b] ++ data). rewrite app_assoc.
      pose proof (Nat.mod_upper_bound (length m) B ltac:(lia)) as UB.
      destruct (full_snoc B m b BP) as [FS FN]. destruct (div_snoc B (length m) BP) as [_ MS].
      assert (LA : length (m ++ [b]) = S (length m)) by (rewrite app_length; cbn; lia).
      assert (FM : firstn (S (md_filled x)) (upd (md_filled x) b (md_Msg x)) = part B m ++ [b]).
      { rewrite firstn_upd by (rewrite HL, Hfl; auto). now rewrite HM. }
      destruct (Nat.eqb_spec (S (md_filled x)) B) as [E|E].
      + rewrite Hfl in E. destruct (FS E) as [F1 F2].
        refine (let R := IH (m ++ [b]) {| md_finalized := md_finalized x; md_filled := 0; md_len := md_len x;
                   md_H := md_compress a (md_H x) (upd (md_filled x) b (md_Msg x)); md_Msg := upd (md_filled x) b (md_Msg x) |} _
                in R).
        constructor; cbn [md_finalized md_filled md_H md_Msg]; auto.
        * rewrite LA, MS, E, Nat.eqb_refl. reflexivity.
        * rewrite (blocks_full B (m ++ [b])), F1 by auto.
          rewrite blocks_snoc; [|auto|now apply full_mod|rewrite app_length, part_length by auto; cbn [length]; lia].
          rewrite fold_left_app. cbn [fold_left]. rewrite <- blocks_full, <- HH by auto.
          rewrite <- FM, Hfl, E. rewrite firstn_all2; [reflexivity|]. rewrite upd_length. lia.
        * rewrite upd_length. auto.
      + rewrite Hfl in E. destruct (FN E) as [F1 F2].
        refine (let R := IH (m ++ [b]) {| md_finalized := md_finalized x; md_filled := S (md_filled x); md_len := md_len x;
                   md_H := md_H x; md_Msg := upd (md_filled x) b (md_Msg x) |} _
                in R).
        constructor; cbn [md_finalized md_filled md_H md_Msg]; auto.
        * rewrite LA, MS, Hfl. apply Nat.eqb_neq in E. now rewrite E.
        * rewrite (blocks_full B (m ++ [b])), F1, <- blocks_full by auto. exact HH.
        * rewrite upd_length. auto.
        * rewrite FM. auto.
  Qed.

  Lemma update_rep m x data : rep a m x -> rep a (m ++ data) (md_update a x data).
  Proof.
    intros [Hf Hfl Hl HH HL HM]. destruct (loop_rep0 data m x) as [R E]; [constructor; auto|].
    destruct R as [Rf Rfl RH RL RM]. unfold md_update.
    constructor; cbn [md_finalized md_filled md_len md_H md_Msg]; auto.
    rewrite E, Hl, app_length, Nat2Z.inj_add. unfold u64. rewrite <- Zplus_mod. f_equal. ring.
  Qed.

  Lemma updates_rep chunks : forall m x, rep a m x -> rep a (m ++ concat chunks) (fold_left (md_update a) chunks x).
  Proof.
    induction chunks as [|c chunks IH]; intros m x H; cbn [fold_left concat].
    - now rewrite app_nil_r.
    - rewrite app_assoc. apply IH. now apply update_rep.
  Qed.

  (** The length field as stored. *)
  Definition L := (2 * md_wb a)%nat.
  Lemma len_store len msg : 0 <= len < 2 ^ 64 -> length msg = B ->
    (if Nat.eqb (md_wb a) 4
     then store 60 (be_bytes 4 (u32 len)) (store 56 (be_bytes 4 (u32 (Z.shiftr len 32))) msg)
     else store (15 * 8) (be_bytes 8 len) (store (14 * 8) (be_bytes 8 0) msg))
    = firstn (B - L) msg ++ be_bytes L len.
  Proof.
    intros Hlen HL. unfold L, B, md_block in *.
    destruct (g_wb _ _ _ G) as [E | E]; rewrite E in *; cbn [Nat.eqb].
    - rewrite two_stores with (k := 4%nat) (o := 56%nat) by (try apply be_bytes_length; lia).
      change (2 * 4)%nat with (4 + 4)%nat. rewrite be_bytes_app. f_equal. f_equal.
      + unfold u32. rewrite (be_bytes_mod 4), Z.shiftr_div_pow2 by lia. reflexivity.
      + unfold u32. apply (be_bytes_mod 4).
    - rewrite two_stores with (k := 8%nat) (o := (14 * 8)%nat) by (try apply be_bytes_length; lia).
      change (2 * 8)%nat with (8 + 8)%nat. rewrite be_bytes_app. f_equal. f_equal. f_equal.
      change (8 * Z.of_nat 8) with 64. symmetry. apply Z.div_small. lia.
  Qed.

  Lemma firstn_repeat {A} (x : A) k j : firstn k (repeat x j) = repeat x (Nat.min k j).
  Proof. revert j. induction k as [|k IH]; intros [|j]; cbn; auto. now rewrite IH. Qed.

  (** The padded message, block by block. *)
  Lemma padded_blocks m :
    let f := (length m mod B)%nat in
    let lenb := be_bytes L (8 * Z.of_nat (length m)) in
    blocks B (md_padded B L m) =
      blocks B m ++
      (if (f <? B - L)%nat
       then [part B m ++ [128] ++ repeat 0 (B - L - 1 - f) ++ lenb]
       else [part B m ++ [128] ++ repeat 0 (B - 1 - f); repeat 0 (B - L) ++ lenb]).
  Proof.
    cbv zeta. pose proof B_pos as BP.
    assert (LB : (L < B)%nat) by (unfold L, B, md_block; destruct (g_wb _ _ _ G) as [-> | ->]; lia).
    pose proof (Nat.mod_upper_bound (length m) B ltac:(lia)) as UB.
    pose proof (Nat.div_mod (length m) B ltac:(lia)) as DM.
    set (f := (length m mod B)%nat) in *. set (lenb := be_bytes L _).
    assert (LL : length lenb = L) by apply be_bytes_length.
    assert (PL : length (part B m) = f) by now apply part_length.
    unfold md_padded. fold lenb. rewrite <- (full_part B m) at 1. rewrite <- app_assoc.
    rewrite blocks_app by (auto using full_mod). rewrite <- blocks_full by auto. f_equal.
    destruct (Nat.ltb_spec f (B - L)) as [LT|GE].
    - assert (K : ((B - (length m + 1 + L) mod B) mod B = B - L - 1 - f)%nat).
      { assert (M1 : ((length m + 1 + L) mod B = (f + 1 + L) mod B)%nat).
        { symmetry. rewrite <- !Nat.add_assoc. unfold f. rewrite Nat.add_mod_idemp_l by lia. reflexivity. }
        rewrite M1. destruct (Nat.eq_dec (f + 1 + L) B) as [E|N].
        - rewrite E, Nat.mod_same, Nat.sub_0_r, Nat.mod_same by lia. lia.
        - rewrite (Nat.mod_small (f + 1 + L)) by lia. rewrite Nat.mod_small by lia. lia. }
      rewrite K. apply blocks_one; auto. rewrite !app_length, repeat_length, LL, PL. cbn [length]. lia.
    - assert (K : ((B - (length m + 1 + L) mod B) mod B = (B - 1 - f) + (B - L))%nat).
      { assert (M1 : ((length m + 1 + L) mod B = f + 1 + L - B)%nat).
        { symmetry. apply Nat.mod_unique with (q := (length m / B + 1)%nat); [lia|]. nia. }
        rewrite M1. rewrite Nat.mod_small by lia. lia. }
      rewrite K, repeat_app.
      replace (part B m ++ [128] ++ (repeat 0 (B - 1 - f) ++ repeat 0 (B - L)) ++ lenb)
        with ((part B m ++ [128] ++ repeat 0 (B - 1 - f)) ++ (repeat 0 (B - L) ++ lenb)) by now rewrite <- !app_assoc.
      assert (L1 : length (part B m ++ [128] ++ repeat 0 (B - 1 - f)) = B)
        by (rewrite !app_length, repeat_length, PL; cbn [length]; lia).
      rewrite blocks_app; [|auto|rewrite L1; apply Nat.mod_same; lia].
      rewrite !blocks_one; auto. rewrite app_length, repeat_length, LL. lia.
  Qed.


  Lemma fold_state l : forall H, state_wd w n H -> Forall (fun b => length b = B /\ bytes_ok b) l ->
    state_wd w n (fold_left (md_compress a) l H).
  Proof.
    induction l as [|b l IH]; intros H HH HF; cbn [fold_left]; auto.
    inversion HF as [|? ? [_ Hb] HF']; subst. apply IH; auto. now apply (g_comp _ _ _ G).
  Qed.

  Lemma final_pad_spec m x : rep a m x -> bytes_ok m -> 8 * Z.of_nat (length m) < 2 ^ 64 ->
    let h := fold_left (md_compress a) (blocks B (md_padded B L m)) (md_iv a) in
    md_finalized (md_final_pad a x) = true /\
    firstn (md_wb a * n) (md_Msg (md_final_pad a x)) = flat_map (be_bytes (md_wb a)) h /\
    length (flat_map (be_bytes (md_wb a)) h) = (md_wb a * n)%nat.
  Proof.
    intros [Hf Hfl Hl HH HL HM] Hm Hlen h. pose proof B_pos as BP.
    assert (LB : (L < B)%nat /\ (B - L = 14 * md_wb a)%nat /\ (md_wb a * n <= B)%nat).
    { pose proof (g_n _ _ _ G). unfold L, B, md_block. destruct (g_wb _ _ _ G) as [-> | ->]; lia. }
    destruct LB as (LB & B14 & WN).
    fold B in Hfl, HH, HL, HM.
    pose proof (Nat.mod_upper_bound (length m) B ltac:(lia)) as UB.
    set (f := (length m mod B)%nat) in *.
    assert (PL : length (part B m) = f) by now apply part_length.
    assert (PB : bytes_ok (part B m)) by (apply Forall_skipn; auto).
    assert (HS : state_wd w n h).
    { unfold h. apply fold_state; [apply (g_iv _ _ _ G)|]. apply blocks_bytes; auto.
      unfold md_padded. apply Forall_app; split; auto. apply Forall_app; split.
      - repeat constructor; unfold byte_ok; lia.
      - apply Forall_app; split; [apply repeat0_bytes|apply be_bytes_ok]. }
    assert (FML : length (flat_map (be_bytes (md_wb a)) h) = (md_wb a * n)%nat).
    { destruct HS as [<- _]. clear. induction h as [|z h IH]; cbn [flat_map length]; [lia|].
      rewrite app_length, be_bytes_length, IH. lia. }
    assert (U : md_len x = 8 * Z.of_nat (length m)) by (rewrite Hl; unfold u64; rewrite Z.mod_small; lia).
    assert (H14 : (14 <=? f / md_wb a)%nat = negb (f <? B - L)%nat).
    { rewrite B14. destruct (Nat.ltb_spec f (14 * md_wb a)) as [LT|GE]; cbn [negb].
      - apply Nat.leb_gt. apply Nat.div_lt_upper_bound; [destruct (g_wb _ _ _ G); lia|lia].
      - apply Nat.leb_le. apply Nat.div_le_lower_bound; [destruct (g_wb _ _ _ G); lia|lia]. }
    pose proof (padded_blocks m) as PBK. cbv zeta in PBK. fold f in PBK.
    unfold md_final_pad. rewrite Hf. fold B. rewrite Hfl in *. cbv zeta.
    rewrite (zero_fill_spec (B - S f)) by (rewrite upd_length; lia).
    rewrite firstn_upd by lia. rewrite HM. rewrite H14.
    set (msg1 := (part B m ++ [128]) ++ repeat 0 (B - S f)).
    assert (M1L : length msg1 = B) by (unfold msg1; rewrite !app_length, repeat_length, PL; cbn [length]; lia).
    destruct (Nat.ltb_spec f (B - L)) as [LT|GE]; cbn [negb].
    - rewrite len_store by (auto; lia).
      set (last := firstn (B - L) msg1 ++ be_bytes L (md_len x)).
      assert (LE : last = part B m ++ [128] ++ repeat 0 (B - L - 1 - f) ++ be_bytes L (8 * Z.of_nat (length m))).
      { unfold last, msg1. rewrite U, firstn_app. rewrite (@firstn_all2 Z (B - L) (part B m ++ [128])) by (rewrite app_length; cbn [length]; lia).
        rewrite firstn_repeat, app_length, PL. cbn [length].
        replace (Nat.min (B - L - (f + 1)) (B - S f)) with (B - L - 1 - f)%nat by lia. now rewrite <- !app_assoc. }
      assert (LL : length last = B) by (unfold last; rewrite app_length, be_bytes_length, firstn_length; lia).
      rewrite HH, LE. 
      assert (EH : md_compress a (fold_left (md_compress a) (blocks B m) (md_iv a))
                (part B m ++ [128] ++ repeat 0 (B - L - 1 - f) ++ be_bytes L (8 * Z.of_nat (length m))) = h).
      { unfold h. rewrite PBK. rewrite fold_left_app. reflexivity. }
      cbn [md_finalized md_Msg]. rewrite EH. split; auto. split; auto.
      rewrite store_spec by (rewrite FML, <- LE, LL; lia). cbn [firstn app]. apply firstn_app_exact. auto.
    - rewrite (zero_fill_spec B 0 msg1) by lia. cbn [firstn app].
      rewrite len_store by (try lia; apply repeat_length).
      rewrite firstn_repeat. replace (Nat.min (B - L) B) with (B - L)%nat by lia.
      assert (LE1 : msg1 = part B m ++ [128] ++ repeat 0 (B - 1 - f)).
      { unfold msg1. rewrite <- app_assoc. do 3 f_equal. lia. }
      set (last := repeat 0 (B - L) ++ be_bytes L (md_len x)).
      assert (LL : length last = B) by (unfold last; rewrite app_length, be_bytes_length, repeat_length; lia).
      assert (EH : md_compress a (md_compress a (md_H x) msg1) last = h).
      { unfold h. rewrite PBK, fold_left_app, HH, LE1. unfold last. rewrite U. reflexivity. }
      cbn [md_finalized md_Msg]. rewrite EH. split; auto. split; auto.
      rewrite store_spec by (rewrite FML, LL; lia). cbn [firstn app]. apply firstn_app_exact. auto.
  Qed.

  (** Bytes handed out by Final: the digest, zero-extended past its end. *)
  Lemma out_spec msg t d : (md_out a <= length d)%nat -> firstn (length d) msg = d ->
    map (fun i => if (i <? md_out a)%nat then nthZ i msg else 0) (seq 0 t) =
    firstn t (firstn (md_out a) d ++ repeat 0 t).
  Proof.
    intros Ho Hd. apply list_ext.
    - rewrite map_length, seq_length, firstn_length, app_length, repeat_length. lia.
    - rewrite map_length, seq_length. intros i Hi.
      unfold nthZ at 1. rewrite nth_indep with (d' := (fun i => if (i <? md_out a)%nat then nthZ i msg else 0) 0%nat)
        by (rewrite map_length, seq_length; auto).
      rewrite (map_nth (fun i => if (i <? md_out a)%nat then nthZ i msg else 0)), seq_nth by auto. cbn [Nat.add].
      unfold nthZ. rewrite nth_firstn. destruct (Nat.ltb_spec i t); [|lia].
      assert (LF : length (firstn (md_out a) d) = md_out a) by (rewrite firstn_length; lia).
      destruct (Nat.ltb_spec i (md_out a)) as [LT|GE].
      + rewrite app_nth1 by lia. rewrite nth_firstn. destruct (Nat.ltb_spec i (md_out a)); [|lia].
        rewrite <- Hd. rewrite nth_firstn. destruct (Nat.ltb_spec i (length d)); [reflexivity|lia].
      + rewrite app_nth2 by lia. symmetry. apply nth_repeat.
  Qed.

  Definition md_digest (m : list Z) : list Z := md_hash B L (md_wb a) (md_compress a) (md_iv a) (md_out a) m.

  Lemma final_spec m x t : rep a m x -> bytes_ok m -> 8 * Z.of_nat (length m) < 2 ^ 64 ->
    snd (md_final a x t) = firstn t (md_digest m ++ repeat 0 t).
  Proof.
    intros HR Hm HL. destruct (final_pad_spec m x HR Hm HL) as (F1 & F2 & F3).
    unfold md_final. cbn [snd]. unfold md_digest, md_hash. apply out_spec.
    - rewrite F3. apply (g_out _ _ _ G).
    - rewrite F3. exact F2.
  Qed.

End Md.

(** Final again, with any output length, from any context. *)
Lemma final_twice a x t t' :
  fst (md_final a (fst (md_final a x t)) t') = fst (md_final a x t) /\
  snd (md_final a (fst (md_final a x t)) t') = snd (md_final a x t').
Proof.
  unfold md_final. cbn [fst snd].
  assert (E : md_final_pad a (md_final_pad a x) = md_final_pad a x).
  { assert (F : md_finalized (md_final_pad a x) = true).
    { unfold md_final_pad. destruct (md_finalized x) eqn:E; auto. cbv zeta. destruct (_ <=? _)%nat; reflexivity. }
    unfold md_final_pad at 1. now rewrite F. }
  rewrite E. auto.
Qed.

Lemma good_sha1 : md_good alg_sha1 32 5.
Proof.
  constructor; cbn [alg_sha1 md_wb md_iv md_compress md_out]; auto; try lia.
  - split; [reflexivity|]. repeat constructor; lia.
  - intros. now apply sha1_state.
Qed.
Lemma good_sha224 : md_good alg_sha224 32 8.
Proof.
  constructor; cbn [alg_sha224 md_wb md_iv md_compress md_out]; auto; try lia.
  - split; [reflexivity|]. repeat constructor; lia.
  - intros. now apply (sha2_state sha256_params); [apply sha256_ok|..].
Qed.
Lemma good_sha256 : md_good alg_sha256 32 8.
Proof.
  constructor; cbn [alg_sha256 md_wb md_iv md_compress md_out]; auto; try lia.
  - split; [reflexivity|]. repeat constructor; lia.
  - intros. now apply (sha2_state sha256_params); [apply sha256_ok|..].
Qed.
Lemma good_sha384 : md_good alg_sha384 64 8.
Proof.
  constructor; cbn [alg_sha384 md_wb md_iv md_compress md_out]; auto; try lia.
  - split; [reflexivity|]. repeat constructor; lia.
  - intros. now apply (sha2_state sha512_params); [apply sha512_ok|..].
Qed.
Lemma good_sha512 : md_good alg_sha512 64 8.
Proof.
  constructor; cbn [alg_sha512 md_wb md_iv md_compress md_out]; auto; try lia.
  - split; [reflexivity|]. repeat constructor; lia.
  - intros. now apply (sha2_state sha512_params); [apply sha512_ok|..].
Qed.
Lemma good_sha512t224 : md_good alg_sha512t224 64 8.
Proof.
  constructor; cbn [alg_sha512t224 md_wb md_iv md_compress md_out]; auto; try lia.
  - split; [reflexivity|]. repeat constructor; lia.
  - intros. now apply (sha2_state sha512_params); [apply sha512_ok|..].
Qed.
Lemma good_sha512t256 : md_good alg_sha512t256 64 8.
Proof.
  constructor; cbn [alg_sha512t256 md_wb md_iv md_compress md_out]; auto; try lia.
  - split; [reflexivity|]. repeat constructor; lia.
  - intros. now apply (sha2_state sha512_params); [apply sha512_ok|..].
Qed.
Lemma sm3_state V blk : state_wd 32 8 V -> bytes_ok blk -> state_wd 32 8 (compressfunc_sm3 V blk).
Proof.
  intros HH Hb. now apply sm3_compress_full.
Qed.
Lemma good_sm3 : md_good alg_sm3 32 8.
Proof.
  constructor; cbn [alg_sm3 md_wb md_iv md_compress md_out]; auto; try lia.
  - split; [reflexivity|]. repeat constructor; lia.
  - intros. now apply sm3_state.
Qed.

(** Replacing the coded compression function by an equal one. *)
Lemma md_hash_ext a w n comp' m : md_good a w n ->
  (forall H blk, state_wd w n H -> bytes_ok blk -> md_compress a H blk = comp' H blk) ->
  bytes_ok m ->
  md_digest a m = md_hash (md_block a) (2 * md_wb a) (md_wb a) comp' (md_iv a) (md_out a) m.
Proof.
  intros G HE Hm. unfold md_digest, md_hash, L. f_equal. f_equal.
  assert (HB : Forall (fun b => length b = md_block a /\ bytes_ok b) (blocks (md_block a) (md_padded (md_block a) (2 * md_wb a) m))).
  { apply blocks_bytes; [apply (B_pos a w n G)|]. unfold md_padded. apply Forall_app; split; auto. apply Forall_app; split.
    - repeat constructor; unfold byte_ok; lia.
    - apply Forall_app; split; [apply repeat0_bytes|apply be_bytes_ok]. }
  revert HB. pose proof (g_iv _ _ _ G) as HI. revert HI. generalize (md_iv a). generalize (blocks (md_block a) (md_padded (md_block a) (2 * md_wb a) m)).
  intros l. induction l as [|b l IH]; intros H HH HF; cbn [fold_left]; auto.
  inversion HF as [|? ? [_ Hb] HF']; subst. rewrite <- HE by auto. apply IH; auto. now apply (g_comp _ _ _ G).
Qed.

(** The whole life of a context: Init, any Updates, Final. *)
Lemma md_lifecycle a w n chunks junk t : md_good a w n ->
  length junk = md_block a -> Forall bytes_ok chunks -> 8 * Z.of_nat (length (concat chunks)) < 2 ^ 64 ->
  snd (md_final a (fold_left (md_update a) chunks (md_init a junk)) t) =
  firstn t (md_digest a (concat chunks) ++ repeat 0 t).
Proof.
  intros G HJ HC HL. apply (final_spec a w n G); auto.
  - exact (updates_rep a w n G chunks [] _ (init_rep a w n G junk HJ)).
  - clear HL. induction HC; cbn [concat]; [constructor|]. apply Forall_app; split; auto.
Qed.
