(** eddsa_point_dec against the curve, and eddsa_point_enc after it. *)
From Coq Require Import Znumtheory Setoid.
From Verif Require Import Base Vlong VlongLemmas VlongDivLemmas VlongMulLemmas EcMod EcModLemmas EcFieldLemmas EcExpLemmas EcCurveLemmas EcSpec EcGroupLemmas EcpXyz ScaleLemmas EcpScaleLemmas Fermat EdSpec EdCert EdGroupLemmas EcEd EdLemmas EdScaleLemmas EdCompleteLemmas CurvePrimes PolyLemmas Der DerLemmas OctetLemmas EcMt PropEd EddsaSpec EdDsa EdDsaLemmas EdDsaDecLemmas.

Lemma le_val_firstn l k : bytes_ok l -> le_val (firstn k l) = le_val l mod 2 ^ (8 * Z.of_nat k).
Proof.
  intros B. destruct (Nat.le_gt_cases k (length l)) as [H|H].
  - rewrite <- (firstn_skipn k l) at 2. rewrite le_val_app, firstn_length, Nat.min_l by exact H.
    rewrite (Z.mul_comm (2 ^ _)), Z_mod_plus_full. symmetry. apply Z.mod_small. pose proof (le_val_bound (firstn k l) (Forall_firstn _ k l B)) as U. rewrite firstn_length, Nat.min_l in U by exact H. exact U.
  - rewrite firstn_all2 by lia. symmetry. apply Z.mod_small. pose proof (le_val_bound l B) as U. split; [apply U|]. eapply Z.lt_le_trans; [apply U|]. apply Z.pow_le_mono_r; lia.
Qed.
(** a masked top word *)
Lemma mask_word v i k : words_ok v -> (i < length v)%nat -> (k < 32)%nat -> vval v < 2 ^ (32 * Z.of_nat (S i)) ->
  words_ok (upd i (Z.land (nthZ i v) (Z.shiftl 1 (Z.of_nat k) - 1)) v) /\
  vval (upd i (Z.land (nthZ i v) (Z.shiftl 1 (Z.of_nat k) - 1)) v) = vval v mod 2 ^ (32 * Z.of_nat i + Z.of_nat k).
Proof.
  intros W Hi Hk HB. replace (Z.shiftl 1 (Z.of_nat k) - 1) with (Z.ones (Z.of_nat k)) by (unfold Z.ones; lia).
  rewrite Z.land_ones by lia. pose proof (vval_bound v W) as [B0 _].
  pose proof (nthZ_words v i W) as Wi. unfold word_ok in Wi. set (w := nthZ i v) in *.
  assert (K0 : 0 < 2 ^ Z.of_nat k <= 2 ^ 32). { split; [apply Z.pow_pos_nonneg; lia|apply Z.pow_le_mono_r; lia]. }
  assert (Mw : 0 <= w mod 2 ^ Z.of_nat k < 2 ^ Z.of_nat k) by (apply Z.mod_pos_bound; lia).
  split.
  - apply upd_words; [exact W|]. unfold word_ok. lia.
  - rewrite vval_upd by exact Hi. fold w.
    assert (Ew : w = vval v / 2 ^ (32 * Z.of_nat i)).
    { unfold w. rewrite (nthZ_vval v i W). fold (pw i). apply Z.mod_small. split; [apply Z.div_pos; [exact B0|apply Z.pow_pos_nonneg; lia]|].
      apply Z.div_lt_upper_bound; [apply Z.pow_pos_nonneg; lia|]. rewrite <- Z.pow_add_r by lia. replace (32 * Z.of_nat i + 32) with (32 * Z.of_nat (S i)) by lia. exact HB. }
    rewrite Z.pow_add_r by lia. rewrite Z.rem_mul_r by (try (apply Z.pow_nonzero; lia); apply Z.pow_pos_nonneg; lia).
    rewrite <- Ew. pose proof (Z.div_mod (vval v) (2 ^ (32 * Z.of_nat i)) ltac:(apply Z.pow_nonzero; lia)) as DM. rewrite <- Ew in DM. rewrite DM at 1.
    generalize (2 ^ (32 * Z.of_nat i)) (w mod 2 ^ Z.of_nat k). intros a b. ring.
Qed.

Section Lib.
  Variable D : eddsa_params.
  Hypothesis HD : dlib D.
  Notation c := (dp_c D).
  Notation n := (ed_w (dp_c D)).
  Notation p := (ed_p (dp_c D)).
  Notation g := (ed_g (dp_c D)).
  Notation P := (vval (ed_p (dp_c D))).
  Notation d1 := (ed_over (dp_c D)).
  Notation d2 := (ed_under (dp_c D)).
  Notation "x == y" := (eqm P x y) (at level 70).
  Notation mul a b := (fst (vlong_mulv_masked n a b 1 (Some g))).
  Notation R := (rep n p).
  Let F := d_field D HD.

  (** the sign bit and y, as eddsa_point_dec extracts them *)
  Definition dec_y (buf : list Z) : list Z :=
    let y := vlong_DecLSB n (firstn (pbytes D) buf) in
    upd (dp_bits D / 32) (Z.land (nthZ (dp_bits D / 32) y) (Z.shiftl 1 (Z.of_nat (dp_bits D mod 32)) - 1)) y.
  Lemma d_sizes : (D = dp_25519 /\ plen D = 32%nat /\ pbytes D = 32%nat /\ dp_bits D = 255%nat /\ n = 11%nat) \/
                  (D = dp_448 /\ plen D = 57%nat /\ pbytes D = 56%nat /\ dp_bits D = 448%nat /\ n = 17%nat).
  Proof. destruct HD as [->| ->]; [left|right]; repeat (split; [reflexivity|]); reflexivity. Qed.
  Lemma dec_y_spec enc : bytes_ok enc -> length enc = plen D ->
    words_ok (dec_y enc) /\ length (dec_y enc) = n /\ vval (dec_y enc) = le_val enc mod 2 ^ Z.of_nat (dp_bits D).
  Proof.
    intros B L. unfold dec_y. cbv zeta. pose proof (Forall_firstn _ (pbytes D) enc B) as B'. destruct (DecLSB_spec n _ B') as (W & LL & V).
    rewrite (le_val_firstn _ _ B) in V. set (v := vlong_DecLSB n (firstn (pbytes D) enc)) in *. clearbody v. clear B'.
    assert (E : vval v = le_val enc mod 2 ^ (8 * Z.of_nat (pbytes D))).
    { rewrite V. apply Z.mod_small. pose proof (Z.mod_pos_bound (le_val enc) (2 ^ (8 * Z.of_nat (pbytes D))) ltac:(apply Z.pow_pos_nonneg; lia)) as M.
      split; [apply M|]. eapply Z.lt_le_trans; [apply M|]. apply Z.pow_le_mono_r; [lia|]. destruct d_sizes as [(_ & _ & -> & _ & ->)|(_ & _ & -> & _ & ->)]; lia. }
    clear V. assert (U : vval v < 2 ^ (32 * Z.of_nat (S (dp_bits D / 32)))).
    { rewrite E. eapply Z.lt_le_trans; [apply Z.mod_pos_bound; apply Z.pow_pos_nonneg; lia|]. apply Z.pow_le_mono_r; [lia|].
      destruct d_sizes as [(_ & _ & -> & -> & _)|(_ & _ & -> & -> & _)]; [change (255 / 32)%nat with 7%nat|change (448 / 32)%nat with 14%nat]; lia. }
    assert (Hi : (dp_bits D / 32 < length v)%nat). { rewrite LL. destruct d_sizes as [(_ & _ & _ & -> & ->)|(_ & _ & _ & -> & ->)]; [change (255 / 32)%nat with 7%nat|change (448 / 32)%nat with 14%nat]; lia. }
    assert (Hk : (dp_bits D mod 32 < 32)%nat) by (apply Nat.mod_upper_bound; lia).
    destruct (mask_word v _ _ W Hi Hk U) as [W' V']. split; [exact W'|]. split; [now rewrite upd_len|]. rewrite V', E.
    replace (32 * Z.of_nat (dp_bits D / 32) + Z.of_nat (dp_bits D mod 32)) with (Z.of_nat (dp_bits D)).
    2:{ pose proof (Nat.div_mod (dp_bits D) 32 ltac:(lia)) as Q. clear -Q. lia. }
    rewrite <- (Zmod_div_mod _ _ (le_val enc)); [reflexivity|apply Z.pow_pos_nonneg; lia|apply Z.pow_pos_nonneg; lia|].
    exists (2 ^ (8 * Z.of_nat (pbytes D) - Z.of_nat (dp_bits D))). rewrite <- Z.pow_add_r; [f_equal; lia| |lia].
    destruct d_sizes as [(_ & _ & -> & -> & _)|(_ & _ & -> & -> & _)]; lia.
  Qed.
  Definition dec_par (buf : list Z) : Z := Z.land (Z.shiftr (nthZ (dp_bits D / 8) buf) 7) 1.
  Lemma dec_par_spec enc : bytes_ok enc -> length enc = plen D -> dec_par enc = le_val enc / 2 ^ (8 * Z.of_nat (plen D) - 1) /\ (dec_par enc = 0 \/ dec_par enc = 1).
  Proof.
    intros B L. unfold dec_par. assert (X : exists k, plen D = S k /\ (dp_bits D / 8)%nat = k).
    { destruct d_sizes as [(_ & -> & _ & -> & _)|(_ & -> & _ & -> & _)]; eexists; split; reflexivity. }
    destruct X as (k & Ek & ->). rewrite Ek in *. rewrite (top_octet enc k (le_val enc) L B eq_refl).
    pose proof (le_val_bound enc B) as U. rewrite L in U. replace (8 * Z.of_nat (S k)) with (8 * Z.of_nat k + 8) in * by lia. rewrite Z.pow_add_r in U by lia.
    assert (W0 : 0 < 2 ^ (8 * Z.of_nat k)) by (apply Z.pow_pos_nonneg; lia).
    rewrite Z.shiftr_div_pow2 by lia. change 1 with (Z.ones 1) at 1. rewrite Z.land_ones by lia. rewrite Z.div_div by (try apply Z.pow_pos_nonneg; lia).
    replace (8 * Z.of_nat k + 8 - 1) with (8 * Z.of_nat k + 7) by lia. rewrite <- Z.pow_add_r by lia.
    assert (Q : 0 <= le_val enc / 2 ^ (8 * Z.of_nat k + 7) < 2). { split; [apply Z.div_pos; [apply U|apply Z.pow_pos_nonneg; lia]|]. apply Z.div_lt_upper_bound; [apply Z.pow_pos_nonneg; lia|]. rewrite Z.pow_add_r by lia. change (2 ^ 7) with 128. change (2 ^ 8) with 256 in U. lia. }
    change (Z.land (le_val enc / 2 ^ (8 * Z.of_nat k + 7)) 1) with (Z.land (le_val enc / 2 ^ (8 * Z.of_nat k + 7)) (Z.ones 1)). 
    rewrite ?Z.land_ones by lia. change (2 ^ 1) with 2. rewrite Z.mod_small by exact Q. split; [reflexivity|]. lia.
  Qed.

  Notation On := (ed_on P (ed_a c) d1 d2).
  Definition vV (Y : Z) : Z := Y * Y * d1 - ed_a c * d2.
  Lemma on_U X Y : On (X, Y) <-> vV Y * (X * X) == uU D Y.
  Proof.
    unfold ed_on, vV, uU, eqm. replace (vV Y) with (vV Y) by reflexivity.
    assert (A : ed_a c * ed_a c = 1) by (destruct HD as [->| ->]; reflexivity).
    split; intros (k & E); exists (- k); lia.
  Qed.
  Lemma uU_zero X Y : On (X, Y) -> uU D Y == 0 <-> X == 0.
  Proof.
    intros C. pose proof (proj1 (on_U X Y) C) as E. split.
    - intros Z0. rewrite Z0 in E. pose proof (d_prime D HD) as HP.
      destruct (eqm_dec P X 0) as [|NX]; [assumption|]. exfalso.
      (* v = 0, u = 0: y^2 = 1 and d1 = a d2 *)
      assert (Ev : vV Y == 0). { apply (cancel P HP (X * X)); [now apply mul_nz|]. rewrite (Z.mul_comm (X * X)), E. apply eqm_eq. ring. }
      destruct (d_complete D HD) as (N2 & (s & Es) & _ & NS). unfold uU in Z0. unfold vV in Ev.
      assert (Y1 : Y * Y - 1 == 0). { apply (cancel P HP d2 _ _ N2). rewrite (Z.mul_comm d2), Z0. apply eqm_eq. ring. }
      apply (NS s). rewrite <- Es. symmetry. 
      assert (Y2 : Y * Y == 1). { replace (Y * Y) with (Y * Y - 1 + 1) by ring. rewrite Y1. reflexivity. }
      rewrite Y2 in Ev. replace d1 with (1 * d1 - ed_a c * d2 + d2 * ed_a c) by ring. rewrite Ev. reflexivity.
    - intros Z0. rewrite <- E, Z0. apply eqm_eq. ring.
  Qed.
  Lemma getx_any y Y : words_ok y -> length y = n -> vval y <= 8 * P -> vval y == Y ->
    getx_ok D y Y (vV Y) (if cond_p25519 D then getx_p25519 D y else if cond_p448 D then getx_p448 D y else None).
  Proof.
    intros W L B E. destruct HD as [ED|ED].
    - assert (C : cond_p25519 D = true) by (rewrite ED; reflexivity). rewrite C.
      replace (vV Y) with (Y * Y * d1 + d2) by (unfold vV; rewrite ED; cbn [ed_a dp_c dp_25519 CurveEd25519]; ring).
      now apply (getx_25519_ok D HD y Y ED).
    - assert (C : cond_p25519 D = false) by (rewrite ED; reflexivity). rewrite C.
      assert (C' : cond_p448 D = true) by (rewrite ED; reflexivity). rewrite C'.
      replace (vV Y) with (Y * Y * d1 + - d2) by (unfold vV; rewrite ED; cbn [ed_a dp_c dp_448 CurveEd448]; ring).
      now apply (getx_448_ok D HD y Y ED).
  Qed.
  Lemma zeros_val x : words_ok x -> forallb (Z.eqb 0) x = true -> vval x = 0.
  Proof. intros _. induction x as [|z x IH]; intros E; [reflexivity|]. cbn [forallb] in E. apply andb_true_iff in E. destruct E as [E1 E2]. apply Z.eqb_eq in E1. subst z. cbn [val_le]. rewrite (IH E2). ring. Qed.

  (** what a decoded point is *)
  Definition decoded (enc : list Z) (q : ed_xytz) : Prop :=
    let y := le_val enc mod 2 ^ Z.of_nat (dp_bits D) in
    R (ex q) (vval (ex q)) /\ words_ok (ey q) /\ length (ey q) = n /\ vval (ey q) = y /\ R (et q) (vval (ex q) * y) /\ ez q = vlong_cpy n [1] /\
    On (vval (ex q), y) /\ vval (ex q) mod 2 = le_val enc / 2 ^ (8 * Z.of_nat (plen D) - 1).
  Lemma dec_form enc : eddsa_point_dec D enc =
    match (if cond_p25519 D then getx_p25519 D (dec_y enc) else if cond_p448 D then getx_p448 D (dec_y enc) else None) with
    | None => None
    | Some x => if forallb (Z.eqb 0) x && (dec_par enc =? 1) then None
                else let x := if Z.lxor (Z.land 1 (nthZ 0 x)) (dec_par enc) =? 0 then x else vlong_subv n p x in
                     Some {| ex := x; ey := dec_y enc; et := mul x (dec_y enc); ez := vlong_cpy n [1] |}
    end.
  Proof. reflexivity. Qed.
  Lemma fix_par x par : R x (vval x) -> par = 0 \/ par = 1 ->
    let x' := if Z.lxor (Z.land 1 (nthZ 0 x)) par =? 0 then x else vlong_subv n p x in
    R x' (vval x') /\ (vval x' == vval x \/ vval x' == - vval x) /\ vval x' mod 2 = par.
  Proof.
    intros Rx Hp. cbv zeta. rewrite Z.land_comm, (low_bit _ (rep_w D _ _ Rx)). pose proof (Z.mod_pos_bound (vval x) 2 ltac:(lia)) as M.
    destruct (neg_rep D HD x _ Rx) as [Rn Vn]. pose proof (d_par D HD) as PO.
    assert (RN : R (vlong_subv n p x) (vval (vlong_subv n p x))) by (split; [apply Rn|split; [apply Rn|split; [apply Rn|reflexivity]]]).
    assert (N2 : vval (vlong_subv n p x) mod 2 = 1 - vval x mod 2). { rewrite Vn, Zminus_mod, PO. assert (vval x mod 2 = 0 \/ vval x mod 2 = 1) as [->| ->] by lia; reflexivity. }
    assert (NE : vval (vlong_subv n p x) == - vval x) by (rewrite Vn; exists 1; ring).
    assert (vval x mod 2 = 0 \/ vval x mod 2 = 1) as [E|E] by lia; rewrite E; rewrite E in N2; destruct Hp as [->| ->]; cbn [Z.lxor Pos.lxor Z.eqb Pos.eqb];
      (split; [assumption|split; [first [right; exact NE|left; reflexivity]|first [exact E|rewrite N2; reflexivity]]]).
  Qed.
  Lemma dec_sound enc q : bytes_ok enc -> length enc = plen D -> eddsa_point_dec D enc = Some q -> decoded enc q.
  Proof.
    intros B L. rewrite dec_form. destruct (dec_y_spec enc B L) as (W & LL & V). destruct (dec_par_spec enc B L) as [VP P01].
    set (y := dec_y enc) in *. set (par := dec_par enc) in *. clearbody y par. set (Y := le_val enc mod 2 ^ Z.of_nat (dp_bits D)) in *.
    assert (By : vval y <= 8 * P).
    { rewrite V. unfold Y. pose proof (Z.mod_pos_bound (le_val enc) (2 ^ Z.of_nat (dp_bits D)) ltac:(apply Z.pow_pos_nonneg; lia)). pose proof (d_bits D HD). pose proof (d_P1 D HD). lia. }
    assert (EY : vval y == Y) by (rewrite V; reflexivity).
    destruct (getx_any y Y W LL By EY) as [GS _]. destruct (if cond_p25519 D then _ else _) as [x|]; [|discriminate].
    destruct (GS x eq_refl) as [Rx Cx]. destruct (forallb (Z.eqb 0) x && (par =? 1)); [discriminate|].
    destruct (fix_par x par Rx P01) as (Rx' & Ex' & Px'). cbv zeta in *. set (x' := if _ =? 0 then x else _) in *. clearbody x'.
    intros E. injection E as <-. unfold decoded. cbn [ex ey et ez]. fold Y. split; [exact Rx'|]. split; [exact W|]. split; [exact LL|]. split; [exact V|].
    split; [|split; [reflexivity|split; [|now rewrite Px', VP]]].
    - apply (mul_rep n p g F x' y 1 (vval x') Y 8); [now right|exact Rx'|]. split; [exact W|]. split; [exact LL|]. split; [exact By|]. now rewrite V.
    - apply on_U. rewrite <- Cx. destruct Ex' as [Ex'|Ex']; rewrite Ex'; apply eqm_eq; ring.
  Qed.
  Lemma dec_complete enc X : bytes_ok enc -> length enc = plen D -> On (X, le_val enc mod 2 ^ Z.of_nat (dp_bits D)) -> ~ X == 0 ->
    exists q, eddsa_point_dec D enc = Some q.
  Proof.
    intros B L C NX. rewrite dec_form. destruct (dec_y_spec enc B L) as (W & LL & V).
    set (y := dec_y enc) in *. clearbody y. set (par := dec_par enc). clearbody par. set (Y := le_val enc mod 2 ^ Z.of_nat (dp_bits D)) in *.
    assert (By : vval y <= 8 * P).
    { rewrite V. unfold Y. pose proof (Z.mod_pos_bound (le_val enc) (2 ^ Z.of_nat (dp_bits D)) ltac:(apply Z.pow_pos_nonneg; lia)). pose proof (d_bits D HD). pose proof (d_P1 D HD). lia. }
    assert (EY : vval y == Y) by (rewrite V; reflexivity).
    assert (NU : ~ uU D Y == 0) by (intros Z0; apply NX; now apply (uU_zero X Y C)).
    destruct (getx_any y Y W LL By EY) as [GS GC]. destruct GC as (x & Gx); [exists X; now apply on_U|exact NU|]. rewrite Gx in *.
    destruct (GS x eq_refl) as [Rx Cx].
    destruct (forallb (Z.eqb 0) x) eqn:FZ; [|cbn [andb]; eexists; reflexivity].
    exfalso. apply NU. rewrite <- Cx, (zeros_val x (rep_w D _ _ Rx) FZ). apply eqm_eq. ring.
  Qed.
  (** encode, then decode *)
  Lemma enc_split y par : 0 <= y < 2 ^ Z.of_nat (dp_bits D) -> par = 0 \/ par = 1 ->
    let e := y + 2 ^ (8 * Z.of_nat (plen D) - 1) * par in
    e mod 2 ^ (8 * Z.of_nat (plen D)) = e /\ e mod 2 ^ Z.of_nat (dp_bits D) = y /\ e / 2 ^ (8 * Z.of_nat (plen D) - 1) = par.
  Proof.
    intros Hy Hp. cbv zeta. set (b := Z.of_nat (dp_bits D)) in *. set (t := 8 * Z.of_nat (plen D) - 1).
    assert (BT : 0 <= b <= t). { unfold b, t. destruct d_sizes as [(_ & -> & _ & -> & _)|(_ & -> & _ & -> & _)]; lia. }
    replace (8 * Z.of_nat (plen D)) with (t + 1) by (unfold t; lia). clearbody b t.
    assert (E : 2 ^ t = 2 ^ (t - b) * 2 ^ b) by (rewrite <- Z.pow_add_r by lia; f_equal; lia).
    assert (G : 2 ^ b <= 2 ^ t) by (apply Z.pow_le_mono_r; lia). rewrite Z.pow_add_r by lia. change (2 ^ 1) with 2.
    split; [|split].
    - apply Z.mod_small. clear E. destruct Hp; subst par; lia.
    - rewrite E. replace (y + 2 ^ (t - b) * 2 ^ b * par) with (y + 2 ^ (t - b) * par * 2 ^ b) by ring. rewrite Z_mod_plus_full. now apply Z.mod_small.
    - clear E. symmetry. apply Z.div_unique with (r := y); [left; lia|ring].
  Qed.
End Lib.
