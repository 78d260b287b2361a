(** HMAC and HMAC_DRBG refine their specifications over any correct hash. *)
From Verif Require Import Base Blocks HashSpec HashLemmas MdLemmas PropHash HashIface Mac MacSpec.

Fixpoint hmac_finals (h : hash_impl) (x : hmac h) (ts : list nat) : list (list Z) :=
  match ts with [] => [] | t :: ts => let '(x, o) := HMAC_Final h x t in o :: hmac_finals h x ts end.

Lemma octets_exact d n : length d = n -> octets n d = d.
Proof. intros H. unfold octets. now apply firstn_app_exact. Qed.

Lemma concat_bytes l : Forall bytes_ok l -> bytes_ok (concat l).
Proof. induction 1; cbn [concat]; [constructor|]. now apply Forall_app. Qed.

Lemma Forall3 {A} (P : A -> Prop) a b c : P a -> P b -> P c -> Forall P [a; b; c].
Proof. intros. repeat (constructor; auto). Qed.
Lemma Forall1 {A} (P : A -> Prop) a : P a -> Forall P [a].
Proof. intros. repeat (constructor; auto). Qed.
Section H.
  Variables (h : hash_impl) (H : list Z -> list Z) (lim : Z).
  Hypothesis HC : hash_correct h H lim.

  Lemma fold_shape chunks : forall c, hi_shape h c -> hi_shape h (fold_left (hi_update h) chunks c).
  Proof. induction chunks as [|d ds IH]; intros c Hc; cbn [fold_left]; auto. apply IH. now apply (hc_update _ _ _ HC). Qed.

  Lemma run1 c chunks t : hi_shape h c -> Forall bytes_ok chunks -> Z.of_nat (length (concat chunks)) < lim ->
    snd (hi_final h (fold_left (hi_update h) chunks (hi_init h c)) t) = octets t (H (concat chunks)).
  Proof.
    intros S B L. pose proof (hc_run _ _ _ HC c chunks [t] S B L) as E. cbn [hi_finals map] in E.
    destruct (hi_final h _ t) as [x o]. cbn [snd]. now injection E.
  Qed.

  Lemma hmac_finals_fin x : hm_finalized x = true -> forall ts, hmac_finals h x ts = hi_finals h (hm_aux x) ts.
  Proof.
    intros F ts. revert x F. induction ts as [|t ts IH]; intros x F; cbn [hmac_finals hi_finals]; [reflexivity|].
    unfold HMAC_Final. rewrite F. destruct (hi_final h (hm_aux x) t) as [a o]. f_equal.
    rewrite IH by (cbn; first [exact F|reflexivity]). reflexivity.
  Qed.

  Definition Bk := hi_block h.

  Lemma xor_pad_block c K0 : (Bk <= length K0)%nat -> firstn Bk (xor_pad h c K0) = map (fun b => Z.lxor b c) (firstn Bk K0).
  Proof. intros L. unfold xor_pad. apply firstn_app_exact. rewrite map_length, firstn_length. fold Bk. lia. Qed.
  Lemma xor_pad_length c K0 : length (xor_pad h c K0) = length K0.
  Proof. unfold xor_pad. rewrite app_length, map_length, <- app_length, firstn_skipn. reflexivity. Qed.
  Lemma xor_pad_twice c K0 : (Bk <= length K0)%nat -> xor_pad h c (xor_pad h c K0) = K0.
  Proof.
    intros L. unfold xor_pad at 1. fold Bk. rewrite xor_pad_block by auto. unfold xor_pad.
    fold Bk. rewrite skipn_app_exact by (rewrite map_length, firstn_length; lia).
    rewrite map_map. rewrite <- (firstn_skipn Bk K0) at 3. f_equal.
    rewrite <- (map_id (firstn Bk K0)) at 2. apply map_ext. intros b.
    now rewrite Z.lxor_assoc, Z.lxor_nilpotent, Z.lxor_0_r.
  Qed.
  Lemma key_firstn key : (length key <= Bk)%nat -> (Bk <= 256)%nat ->
    firstn Bk (key ++ skipn (length key) (repeat 0 256)) = key_block Bk key.
  Proof.
    intros L1 L2. unfold key_block. rewrite firstn_app, (firstn_all2 key) by lia. f_equal.
    assert (SK : skipn (length key) (repeat 0 256) = repeat 0 (256 - length key)).
    { replace 256%nat with (length key + (256 - length key))%nat at 1 by lia. rewrite repeat_app.
      apply skipn_app_exact, repeat_length. }
    rewrite SK. replace (256 - length key)%nat with ((Bk - length key) + (256 - Bk))%nat by lia.
    rewrite repeat_app. apply firstn_app_exact, repeat_length.
  Qed.
  Lemma key_block_bytes key : bytes_ok key -> bytes_ok (key_block Bk key).
  Proof. intros B. apply Forall_app. split; [auto|apply repeat0_bytes]. Qed.
  Lemma map_lxor_bytes c l : byte_ok c -> bytes_ok l -> bytes_ok (map (Z.lxor c) l).
  Proof. intros Hc Hl. apply Forall_map. eapply Forall_impl; [|exact Hl]. intros b Hb. apply lxor_bound; auto. lia. Qed.
  Lemma map_lxor_comm c l : map (fun b => Z.lxor b c) l = map (Z.lxor c) l.
  Proof. apply map_ext. intros. apply Z.lxor_comm. Qed.

  (** State after Init: the key block, and the hash having absorbed the ipad block. *)
  Lemma hmac_init_spec aux key : (length key <= Bk)%nat -> (Bk <= 256)%nat ->
    exists x, HMAC_Init h aux key = (x, true) /\ hm_finalized x = false /\
      length (hm_tag x) = 64%nat /\ length (hm_K0 x) = 256%nat /\ firstn Bk (hm_K0 x) = key_block Bk key /\
      hm_aux x = hi_update h (hi_init h aux) (map (Z.lxor 0x36) (key_block Bk key)).
  Proof.
    intros L1 L2. unfold HMAC_Init, HMAC_SetKey, HMAC_INIT.
    cbn [hm_K0 hm_tag hm_finalized hm_aux]. rewrite !repeat_length.
    replace (length key <=? hi_block h)%nat with true by (symmetry; apply Nat.leb_le; exact L1).
    set (K0 := key ++ skipn (length key) (repeat 0 256)).
    assert (LK : length K0 = 256%nat) by (unfold K0; rewrite app_length, skipn_length, repeat_length; lia).
    eexists. split; [reflexivity|]. cbn [hm_K0 hm_tag hm_finalized hm_aux].
    rewrite xor_pad_twice by lia. fold Bk. rewrite xor_pad_block by lia.
    repeat split; try apply repeat_length; auto.
    - now apply key_firstn.
    - rewrite map_lxor_comm. unfold K0. now rewrite key_firstn.
  Qed.

  Lemma hmac_updates chunks : forall x, fold_left (HMAC_Update h) chunks x =
    Hm (hm_K0 x) (hm_tag x) (hm_finalized x) (fold_left (hi_update h) chunks (hm_aux x)).
  Proof. induction chunks as [|d ds IH]; intros x; cbn [fold_left]; [now destruct x|]. now rewrite IH. Qed.

  (** A whole session. *)
  Lemma hmac_session aux key chunks : hi_shape h aux -> bytes_ok key -> Forall bytes_ok chunks ->
    (length key <= Bk)%nat -> (Bk <= 256)%nat -> (hi_out h <= 64)%nat ->
    Z.of_nat (Bk + length (concat chunks)) < lim -> Z.of_nat (Bk + hi_out h) < lim ->
    exists x, HMAC_Init h aux key = (x, true) /\
      (forall ts, hmac_finals h (fold_left (HMAC_Update h) chunks x) ts
        = map (fun t => octets t (rfc_hmac H Bk key (concat chunks))) ts) /\
      (forall t, hi_shape h (hm_aux (fst (HMAC_Final h (fold_left (HMAC_Update h) chunks x) t)))).
  Proof.
    intros SA BK BC L1 L2 L3 LM LO.
    destruct (hmac_init_spec aux key L1 L2) as (x & E & F & TL & KL & KB & AX).
    exists x. split; [exact E|].
    set (ip := map (Z.lxor 0x36) (key_block Bk key)) in *.
    set (op := map (Z.lxor 0x5c) (key_block Bk key)).
    set (m := concat chunks) in *.
    assert (KBL : length (key_block Bk key) = Bk) by (unfold key_block; rewrite app_length, repeat_length; lia).
    assert (LI : length ip = Bk) by (unfold ip; rewrite map_length; exact KBL).
    assert (LP : length op = Bk) by (unfold op; rewrite map_length; exact KBL).
    assert (Bip : bytes_ok ip) by (apply map_lxor_bytes; [unfold byte_ok; lia|now apply key_block_bytes]).
    assert (Bop : bytes_ok op) by (apply map_lxor_bytes; [unfold byte_ok; lia|now apply key_block_bytes]).
    assert (Bm : bytes_ok m) by now apply concat_bytes.
    rewrite hmac_updates, AX, F. set (y := Hm _ _ _ _).
    (* the first Final *)
    set (aux1 := fold_left (hi_update h) chunks (hi_update h (hi_init h aux) ip)) in *.
    assert (R1 : snd (hi_final h aux1 (hi_out h)) = H (ip ++ m)).
    { change aux1 with (fold_left (hi_update h) (ip :: chunks) (hi_init h aux)).
      rewrite run1; [|auto|now constructor|cbn [concat]; fold m; rewrite app_length, LI; lia].
      cbn [concat]. fold m. apply octets_exact. apply (hc_digest _ _ _ HC). now apply Forall_app. }
    assert (S1 : hi_shape h (fst (hi_final h aux1 (hi_out h)))).
    { apply (hc_final _ _ _ HC). change aux1 with (fold_left (hi_update h) (ip :: chunks) (hi_init h aux)).
      apply fold_shape. now apply (hc_init _ _ _ HC). }
    destruct (hc_digest _ _ _ HC (ip ++ m)) as [DL DB]; [now apply Forall_app|].
    set (aux2 := hi_update h (hi_update h (hi_init h (fst (hi_final h aux1 (hi_out h)))) op) (H (ip ++ m))).
    assert (FE : forall t, HMAC_Final h y t =
      (Hm (repeat 0 Bk ++ skipn Bk (xor_pad h 0x5c (hm_K0 x))) (H (ip ++ m) ++ skipn (hi_out h) (hm_tag x)) true
          (fst (hi_final h (fst (hi_final h aux2 0)) t)),
       snd (hi_final h (fst (hi_final h aux2 0)) t))).
    { intros t. unfold HMAC_Final, y. cbn [hm_K0 hm_tag hm_finalized hm_aux].
      destruct (hi_final h aux1 (hi_out h)) as [a1 o1] eqn:E1. cbn [fst snd] in R1. subst o1.
      cbn [fst] in aux2. fold Bk. rewrite xor_pad_block by lia. rewrite KB, map_lxor_comm. fold op.
      rewrite firstn_app_exact by exact DL. fold aux2.
      destruct (hi_final h aux2 0) as [a2 o2]. cbn [hm_K0 hm_tag hm_finalized hm_aux fst snd].
      destruct (hi_final h a2 t) as [a3 o3]. reflexivity. }
    assert (S2 : hi_shape h aux2).
    { unfold aux2. now apply (hc_update _ _ _ HC), (hc_update _ _ _ HC), (hc_init _ _ _ HC). }
    split.
    - intros ts. destruct ts as [|t ts]; [reflexivity|]. cbn [hmac_finals]. rewrite FE.
      rewrite hmac_finals_fin by reflexivity. cbn [hm_aux].
      assert (R2 : hi_finals h aux2 (0%nat :: t :: ts) =
                   map (fun t => octets t (rfc_hmac H Bk key m)) (0%nat :: t :: ts)).
      { change aux2 with (fold_left (hi_update h) [op; H (ip ++ m)] (hi_init h (fst (hi_final h aux1 (hi_out h))))).
        rewrite (hc_run _ _ _ HC); [|exact S1|repeat constructor; auto|].
        - cbn [concat]. rewrite app_nil_r. reflexivity.
        - cbn [concat]. rewrite app_nil_r, app_length, LP, DL. lia. }
      cbn [hi_finals map] in R2. destruct (hi_final h aux2 0) as [a2 o2]. cbn [fst snd].
      destruct (hi_final h a2 t) as [a3 o3]. cbn [fst snd]. injection R2 as _ E3 E4. cbn [map]. now rewrite E3, E4.
    - intros t. rewrite FE. cbn [fst hm_aux]. now apply (hc_final _ _ _ HC), (hc_final _ _ _ HC).
  Qed.

  (* ---------------- HMAC_DRBG ---------------- *)
  Hypotheses (LB : (Bk <= 256)%nat) (LO : (hi_out h <= 64)%nat) (LOB : (hi_out h <= Bk)%nat)
             (LO0 : (0 < hi_out h)%nat).
  Definition mac (K d : list Z) : list Z := rfc_hmac H Bk K d.
  Definition isK (K : list Z) : Prop := length K = hi_out h /\ bytes_ok K.

  Lemma mac_ok K d : bytes_ok K -> bytes_ok d -> isK (mac K d).
  Proof.
    intros HK Hd. unfold mac, rfc_hmac. apply (hc_digest _ _ _ HC). apply Forall_app. split.
    - apply map_lxor_bytes; [unfold byte_ok; lia|now apply key_block_bytes].
    - apply (hc_digest _ _ _ HC). apply Forall_app. split; auto.
      apply map_lxor_bytes; [unfold byte_ok; lia|now apply key_block_bytes].
  Qed.

  Lemma prf_spec x K chunks : hi_shape h (hm_aux x) -> isK K -> Forall bytes_ok chunks ->
    Z.of_nat (Bk + length (concat chunks)) < lim -> Z.of_nat (Bk + hi_out h) < lim ->
    exists x', drbg_prf h x K chunks = (x', mac K (concat chunks)) /\ hi_shape h (hm_aux x').
  Proof.
    intros S [KL KB] BC L1 L2. unfold drbg_prf.
    destruct (hmac_session (hm_aux x) K chunks S KB BC ltac:(lia) LB LO L1 L2) as (y & E & R & SH).
    rewrite E. specialize (R [hi_out h]). specialize (SH (hi_out h)). cbn [hmac_finals map] in R.
    destruct (HMAC_Final h _ _) as [z o]. exists z. split; [|exact SH]. f_equal. injection R as ->.
    apply octets_exact. apply mac_ok; auto. now apply concat_bytes.
  Qed.

  Definition drep (x : hdrbg h) (KV : list Z * list Z) : Prop :=
    hd_K x = fst KV /\ hd_V x = snd KV /\ isK (fst KV) /\ isK (snd KV) /\ hi_shape h (hm_aux (hd_H x)).

  Lemma update_drep x KV str : drep x KV -> bytes_ok str ->
    Z.of_nat (Bk + hi_out h + 1 + length str) < lim ->
    drep (HMAC_DRBG_Update h x str) (drbg_update mac str KV).
  Proof.
    destruct KV as [K V]. intros (EK & EV & IK & IV & S) B L. cbn [fst snd] in *.
    unfold HMAC_DRBG_Update, drbg_update. rewrite EK, EV.
    assert (B0 : bytes_ok [0]) by (repeat constructor; unfold byte_ok; lia).
    assert (B1 : bytes_ok [1]) by (repeat constructor; unfold byte_ok; lia).
    assert (LL : forall V', isK V' -> forall c, length (concat [V'; [c]; str]) = (hi_out h + 1 + length str)%nat).
    { intros V' [LV _] c. cbn [concat]. rewrite app_nil_r, !app_length, LV. cbn [length]. lia. }
    assert (L1 : forall V', isK V' -> length (concat [V']) = hi_out h).
    { intros V' [LV _]. cbn [concat]. now rewrite app_nil_r. }
    destruct (prf_spec (hd_H x) K [V; [0]; str] S IK) as (H1 & E1 & S1);
      [apply Forall3; auto; apply IV|rewrite LL by auto; lia|lia|].
    rewrite E1. cbn [concat]. rewrite !app_nil_r. set (K1 := mac K (V ++ [0] ++ str)) in *.
    assert (IK1 : isK K1) by (apply mac_ok; [apply IK|apply Forall_app; split; [apply IV|now apply Forall_app]]).
    destruct (prf_spec H1 K1 [V] S1 IK1) as (H2 & E2 & S2); [apply Forall1, IV|rewrite L1 by auto; lia|lia|].
    rewrite E2. cbn [concat]. rewrite !app_nil_r. set (V1 := mac K1 V) in *.
    assert (IV1 : isK V1) by (apply mac_ok; [apply IK1|apply IV]).
    destruct str as [|s0 str']; cbn [length Nat.eqb]; [repeat split; auto; try apply IK1; apply IV1|].
    set (str := s0 :: str') in *.
    destruct (prf_spec H2 K1 [V1; [1]; str] S2 IK1) as (H3 & E3 & S3);
      [apply Forall3; auto; apply IV1|rewrite LL by auto; lia|lia|].
    rewrite E3. cbn [concat]. rewrite !app_nil_r. set (K2 := mac K1 (V1 ++ [1] ++ str)) in *.
    assert (IK2 : isK K2) by (apply mac_ok; [apply IK1|apply Forall_app; split; [apply IV1|now apply Forall_app]]).
    destruct (prf_spec H3 K2 [V1] S3 IK2) as (H4 & E4 & S4); [apply Forall1, IV1|rewrite L1 by auto; lia|lia|].
    rewrite E4. cbn [concat]. rewrite !app_nil_r.
    assert (IV2 : isK (mac K2 V1)) by (apply mac_ok; [apply IK2|apply IV1]).
    repeat split; auto; try apply IK2; apply IV2.
  Qed.

  Lemma iter_isK K V n : isK K -> isK V -> isK (fst (drbg_iter mac K V n)).
  Proof.
    intros IK IV. induction n as [|n IH]; cbn [drbg_iter fst]; auto.
    destruct (drbg_iter mac K V n) as [V' temp]. cbn [fst] in *. apply mac_ok; [apply IK|apply IH].
  Qed.
  Lemma iter_shift K V n : drbg_iter mac K V (S n) =
    (fst (drbg_iter mac K (mac K V) n), mac K V ++ snd (drbg_iter mac K (mac K V) n)).
  Proof.
    induction n as [|n IH]; [cbn; now rewrite app_nil_r|].
    change (drbg_iter mac K V (S (S n))) with (let '(V', temp) := drbg_iter mac K V (S n) in (mac K V', temp ++ mac K V')).
    rewrite IH. cbn [drbg_iter]. destruct (drbg_iter mac K (mac K V) n) as [V' temp]. cbn [fst snd]. now rewrite app_assoc.
  Qed.

  Lemma gen_loop fuel : forall x K V len, (len <= fuel)%nat -> drep x (K, V) -> Z.of_nat (Bk + hi_out h) < lim ->
    let '(V', temp) := drbg_iter mac K V ((len + hi_out h - 1) / hi_out h) in
    exists x', drbg_gen_loop h fuel x len = (x', firstn len temp) /\ drep x' (K, V').
  Proof.
    induction fuel as [|fuel IH]; intros x K V len Hl D HL.
    - assert (len = 0)%nat by lia. subst len. rewrite Nat.add_0_l, Nat.div_small by lia. cbn [drbg_iter drbg_gen_loop firstn]. eauto.
    - cbn [drbg_gen_loop]. destruct (Nat.eqb_spec len 0) as [->|N].
      { rewrite Nat.add_0_l, Nat.div_small by lia. cbn [drbg_iter firstn]. eauto. }
      replace ((len + hi_out h - 1) / hi_out h)%nat with (S ((len - Nat.min (hi_out h) len + hi_out h - 1) / hi_out h)).
      2:{ destruct (Nat.le_gt_cases (hi_out h) len) as [G|G].
          - rewrite Nat.min_l by lia. replace (len + hi_out h - 1)%nat with (1 * hi_out h + (len - hi_out h + hi_out h - 1))%nat by lia.
            rewrite Nat.div_add_l by lia. lia.
          - rewrite Nat.min_r by lia. rewrite Nat.sub_diag, Nat.add_0_l, (Nat.div_small (hi_out h - 1)) by lia.
            apply (Nat.div_unique _ _ 1 (len - 1)); lia. }
      rewrite iter_shift. destruct D as (EK & EV & IK & IV & S). cbn [fst snd] in *. rewrite EK, EV.
      destruct (prf_spec (hd_H x) K [V] S IK) as (H1 & E1 & S1);
        [apply Forall1, IV|cbn [concat]; rewrite app_nil_r; destruct IV as [-> _]; lia|lia|].
      rewrite E1. cbn [concat]. rewrite app_nil_r.
      assert (IV1 : isK (mac K V)) by (apply mac_ok; [apply IK|apply IV]).
      specialize (IH (Hd K (mac K V) H1) K (mac K V) (len - Nat.min (hi_out h) len)%nat).
      destruct (drbg_iter mac K (mac K V) _) as [V' temp].
      destruct IH as (x' & E' & D'); [lia|repeat split; cbn; auto; try apply IK; apply IV1|auto|].
      rewrite E'. cbn [fst snd]. exists x'. split; [|exact D']. f_equal.
      rewrite firstn_app. destruct IV1 as [LV1 _]. rewrite LV1. f_equal.
      + destruct (Nat.le_gt_cases (hi_out h) len) as [G|G].
        * rewrite Nat.min_l by lia. rewrite !firstn_all2 by lia. reflexivity.
        * now rewrite Nat.min_r by lia.
      + f_equal. lia.
  Qed.

  Lemma generate_drep x KV len : drep x KV -> Z.of_nat (Bk + hi_out h + 1) < lim ->
    snd (HMAC_DRBG_Generate h x len) = snd (drbg_generate mac (hi_out h) KV len) /\
    drep (fst (HMAC_DRBG_Generate h x len)) (fst (drbg_generate mac (hi_out h) KV len)).
  Proof.
    destruct KV as [K V]. intros D HL. unfold HMAC_DRBG_Generate, drbg_generate.
    pose proof (gen_loop len x K V len (le_n _) D ltac:(lia)) as G.
    destruct (drbg_iter mac K V _) as [V' temp]. destruct G as (x' & E & D'). rewrite E. cbn [fst snd].
    split; [reflexivity|]. apply update_drep; [exact D'|constructor|cbn [length]; lia].
  Qed.
End H.
