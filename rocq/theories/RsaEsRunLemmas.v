(** Lemmas: the RSAES encryption and decryption functions against the encodings. *)
From Coq Require Import Znumtheory.
From Verif Require Import Base Vlong VlongLemmas Der DerLemmas HashIface HashLemmas MdLemmas MacLemmas PkcsSpec PkcsLemmas PkcsLemmas2 PkcsLemmas3 Rsa RsaSpec RsaLemmas RsaEs RsaEsSpec RsaEsLemmas.
From Verif Require Pkcs1.

(** What is assumed of a key pair: C45's conditions, and a modulus of [bits] bits. *)
Record rsa_pair (bits wm wf : nat) (k : rsa_priv) (e n : list Z) : Prop := {
  rp_fits : key_fits wm wf k; rp_co : coeffs_ok (vval (key_q k)) (key_rest k);
  rp_We : words_ok e; rp_Wn : words_ok n; rp_Le : (0 < length e)%nat; rp_Ln : (length n <= wm)%nat;
  rp_room : vval n * 2 ^ 32 <= 2 ^ (32 * Z.of_nat wm);
  rp_n : vval n = vval (key_q k) * prodZ (rvals (key_rest k));
  rp_pr : Forall prime (vval (key_q k) :: rvals (key_rest k)); rp_nd : NoDup (vval (key_q k) :: rvals (key_rest k));
  rp_dq : (vval (key_q k) - 1 | vval e * vval (key_dQ k) - 1);
  rp_d : Forall (fun pr => (vval (r_ pr) - 1 | vval e * vval (d_ pr) - 1)) (key_rest k);
  rp_pe : 0 < vval e; rp_pq : 0 < vval (key_dQ k); rp_pd : Forall (fun pr => 0 < vval (d_ pr)) (key_rest k);
  rp_lo : 2 ^ (Z.of_nat bits - 1) <= vval n; rp_hi : vval n < 2 ^ Z.of_nat bits
}.

Lemma putf (d ptr : list Z) off : (off + length d <= length ptr)%nat -> Pkcs1.put_at ptr off d = firstn off ptr ++ d ++ skipn (off + length d) ptr.
Proof. exact (put_at_firstn (sha3_impl 1) (fun x => x) (fun x => x) d ptr off). Qed.
Lemma put1 Y a a' (b : list Z) : length a' = length a -> Pkcs1.put_at (Y :: a ++ b) 1 a' = Y :: a' ++ b.
Proof.
  intros L. rewrite putf by (cbn [length]; rewrite app_length; lia). cbn [firstn skipn Nat.add app]. f_equal. f_equal.
  rewrite skipn_app, L, Nat.sub_diag, skipn_O, skipn_all2 by lia. reflexivity.
Qed.
Lemma put2 Y a (b b' : list Z) h : length a = h -> length b' = length b -> Pkcs1.put_at (Y :: a ++ b) (h + 1) b' = Y :: a ++ b'.
Proof.
  intros L L'. rewrite putf by (cbn [length]; rewrite app_length; lia). replace (h + 1)%nat with (S h) by lia. cbn [firstn skipn Nat.add app]. f_equal.
  rewrite firstn_app, <- L, Nat.sub_diag, firstn_O, app_nil_r, firstn_all2 by lia. f_equal.
  rewrite skipn_all2 by (rewrite app_length; lia). apply app_nil_r.
Qed.
Lemma sub1 Y (a b : list Z) h : length a = h -> sub (Y :: a ++ b) 1 h = a.
Proof. intros L. unfold sub. cbn [skipn]. rewrite firstn_app, <- L, Nat.sub_diag, firstn_O, app_nil_r, firstn_all2 by lia. reflexivity. Qed.
Lemma sub2 Y (a b : list Z) h m : length a = h -> length b = m -> sub (Y :: a ++ b) (h + 1) m = b.
Proof. intros L L'. unfold sub. replace (h + 1)%nat with (S h) by lia. cbn [skipn]. rewrite skipn_app, <- L, Nat.sub_diag, skipn_O, skipn_all2 by lia. cbn [app]. rewrite firstn_all2 by lia. reflexivity. Qed.

Lemma nthZ_mapseq (f : nat -> Z) n i : (i < n)%nat -> nthZ i (map f (seq 0 n)) = f i.
Proof. intros L. unfold nthZ. rewrite (nth_indep _ 0 (f 0%nat)) by (rewrite map_length, seq_length; lia). rewrite map_nth, seq_nth by lia. reflexivity. Qed.
Section Run.
  Variables (hm hg : hash_impl) (H G : list Z -> list Z) (lim : Z).
  Hypothesis HH : hash_correct hm H lim.
  Hypothesis HG : hash_correct hg G lim.
  Hypothesis Gpos : (0 < hi_out hg)%nat.
  Notation MGF := (rfc_mgf1 G (hi_out hg)).

  Lemma mgf_spec hc inp dst : hi_shape hg hc -> bytes_ok inp -> Z.of_nat (length inp) + 4 < lim -> Z.of_nat (length dst) < 2 ^ 32 ->
    mgf hg hc inp dst = xorb_list dst (MGF inp (length dst)).
  Proof. intros S B L D. exact (mgf1_loop_spec hg G lim HG Gpos inp B L (length dst) hc 0 dst S (le_n _) D). Qed.

  (** ** RSA *)
  Lemma decrypts_buf bits wm wf key e n (y : privctx hm hg) m : rsa_pair bits wm wf key e n ->
    v_wm y = wm -> v_wf y = wf -> v_key y = key -> v_n y = n -> v_bits y = bits -> bytes_ok (v_buf y) -> 0 <= m < vval n ->
    vval (octets_words wm (v_buf y)) = m ^ vval e mod vval n ->
    ct_above hm hg y = false /\ dec_em hm hg y = be_bytes (bits / 8) m.
  Proof. try clear MGF; clear HH HG Gpos; try clear G; try clear H; try clear lim.
    intros RP E1 E2 E3 E4 E5 Bc Bm V. unfold ct_above, dec_em, v_k. rewrite E1, E2, E3, E4, E5.
    destruct (octets_words_ok wm (v_buf y) Bc) as (W & L).
    assert (N32 : vval n < 2 ^ (32 * Z.of_nat wm)) by (pose proof (rp_room _ _ _ _ _ _ RP); lia).
    pose proof (Z.mod_pos_bound (m ^ vval e) (vval n) ltac:(lia)) as MB.
    set (C := octets_words wm (v_buf y)) in *. clearbody C. split.
    - rewrite (sig_above_max C n W (rp_Wn _ _ _ _ _ _ RP)). apply Z.ltb_ge. lia.
    - set (M := to_le 32 wm m).
      assert (VM : vval M = m) by (unfold M; rewrite val_to_le by lia; apply Z.mod_small; lia).
      assert (WM : words_ok M) by (unfold M; apply to_le_digits; lia).
      assert (LM : length M = wm) by apply to_le_length.
      destruct (fastdec_inverts wm wf key e n M (rp_fits _ _ _ _ _ _ RP) (rp_co _ _ _ _ _ _ RP) (rp_We _ _ _ _ _ _ RP) (rp_Wn _ _ _ _ _ _ RP) (rp_Le _ _ _ _ _ _ RP) (rp_Ln _ _ _ _ _ _ RP)
        (rp_room _ _ _ _ _ _ RP) (rp_n _ _ _ _ _ _ RP) (rp_pr _ _ _ _ _ _ RP) (rp_nd _ _ _ _ _ _ RP) (rp_dq _ _ _ _ _ _ RP) (rp_d _ _ _ _ _ _ RP) (rp_pe _ _ _ _ _ _ RP) (rp_pq _ _ _ _ _ _ RP) (rp_pd _ _ _ _ _ _ RP)
        WM LM ltac:(rewrite VM; lia)) as (C' & _ & WC' & LC' & VC' & F).
      rewrite VM in VC'. assert (EC : C' = C) by (apply (val_le_inj 32); [lia|exact WC'|exact W|lia|lia]).
      rewrite <- EC, F. rewrite (I2OSP_spec M _ WM), VM. reflexivity.
  Qed.
  Lemma decrypts bits wm wf key e n (x : privctx hm hg) ct m : rsa_pair bits wm wf key e n ->
    v_wm x = wm -> v_wf x = wf -> v_key x = key -> v_n x = n -> v_bits x = bits -> bytes_ok ct -> 0 <= m < vval n -> be_val ct = m ^ vval e mod vval n ->
    let y := Decode_Ciphertext hm hg x ct in
    ct_above hm hg y = false /\ dec_em hm hg y = be_bytes (bits / 8) m.
  Proof. try clear MGF; clear HH HG Gpos; try clear G; try clear H; try clear lim.
    intros RP E1 E2 E3 E4 E5 Bc Bm Em. cbv zeta.
    apply (decrypts_buf bits wm wf key e n _ m RP); try assumption; cbn [Decode_Ciphertext with_vbuf v_wm v_wf v_key v_buf v_n v_bits]; try assumption; [apply words_octets_ok|].
    destruct (OS2IP_spec wm ct Bc) as (W & L & V).
    assert (N32 : vval n < 2 ^ (32 * Z.of_nat wm)) by (pose proof (rp_room _ _ _ _ _ _ RP); lia).
    pose proof (Z.mod_pos_bound (m ^ vval e) (vval n) ltac:(lia)) as MB.
    rewrite Em, (Z.mod_small _ (2 ^ (32 * Z.of_nat wm))) in V by lia. rewrite E1. rewrite <- V. f_equal.
    rewrite <- L at 1. rewrite <- (app_nil_r (words_octets _)). now apply octets_words_octets.
  Qed.
  Lemma encrypts bits wm wf key e n (x : pubctx hm hg) em : rsa_pair bits wm wf key e n ->
    u_w x = wm -> u_e x = e -> u_n x = n -> bytes_ok em -> be_val em < vval n ->
    exists C, enc_finish hm hg x em = Some C /\ words_ok C /\ vval C = be_val em ^ vval e mod vval n.
  Proof. try clear MGF; clear HH HG Gpos; try clear G; try clear H; try clear lim.
    intros RP E1 E2 E3 Be Lm. unfold enc_finish. rewrite E1, E2, E3. destruct (OS2IP_spec wm em Be) as (W & L & V).
    pose proof (be_val_bound em Be) as BB. pose proof (rp_room _ _ _ _ _ _ RP) as N32. rewrite Z.mod_small in V by lia.
    destruct (fastdec_inverts wm wf key e n (vlong_OS2IP wm em) (rp_fits _ _ _ _ _ _ RP) (rp_co _ _ _ _ _ _ RP) (rp_We _ _ _ _ _ _ RP) (rp_Wn _ _ _ _ _ _ RP) (rp_Le _ _ _ _ _ _ RP) (rp_Ln _ _ _ _ _ _ RP)
        (rp_room _ _ _ _ _ _ RP) (rp_n _ _ _ _ _ _ RP) (rp_pr _ _ _ _ _ _ RP) (rp_nd _ _ _ _ _ _ RP) (rp_dq _ _ _ _ _ _ RP) (rp_d _ _ _ _ _ _ RP) (rp_pe _ _ _ _ _ _ RP) (rp_pq _ _ _ _ _ _ RP) (rp_pd _ _ _ _ _ _ RP)
        W L ltac:(rewrite V; lia)) as (C' & E & WC' & LC' & VC' & F).
    exists C'. split; [exact E|]. split; [exact WC'|]. rewrite VC', V. reflexivity.
  Qed.

  (** ** OAEP decoding *)
  Lemma copy_tail (x : privctx hm hg) pre M rest : v_buf x = pre ++ M ++ rest -> length (pre ++ M) = v_k hm hg x -> v_status x = Z.of_nat (length M) ->
    copy_out hm hg x (length M) = M.
  Proof. try clear MGF; clear HH HG Gpos; try clear G; try clear H; try clear lim.
    intros E L S. unfold copy_out. rewrite S, E, Nat2Z.id, <- L, app_length. replace (length pre + length M - length M)%nat with (length pre) by lia.
    apply list_ext; [now rewrite map_length, seq_length|]. intros i Hi. rewrite map_length, seq_length in Hi.
    rewrite (nthZ_mapseq (fun i => if Z.of_nat i <? Z.of_nat (length M) then nthZ (length pre + i) (pre ++ M ++ rest) else 0)) by exact Hi.
    cbn [Nat.add]. destruct (Z.ltb_spec (Z.of_nat i) (Z.of_nat (length M))); [|lia]. unfold nthZ. rewrite app_nth2 by lia. rewrite app_nth1 by lia. f_equal. lia.
  Qed.
  Definition room (k : nat) : Prop := Z.of_nat k < 2 ^ 31 /\ Z.of_nat k + 4 < lim.
  (** What the core does to the block em. *)
  Lemma oaep_core_spec (x : privctx hm hg) : v_status x = 0 -> ct_above hm hg x = false -> hi_shape hg (v_hmgf x) -> room (v_k hm hg x) ->
    bytes_ok (dec_em hm hg x) -> length (dec_em hm hg x) = v_k hm hg x ->
    let y := oaep_core hm hg x in
    (exists lH M pre rest, length lH = hi_out hm /\ bytes_ok lH /\ oaep_of MGF (v_k hm hg x) lH M (dec_em hm hg x) /\ v_status y = Z.of_nat (length M) /\
       v_buf y = pre ++ M ++ rest /\ length (pre ++ M) = v_k hm hg x /\ sub (v_buf y) (1 + hi_out hm) (hi_out hm) = lH) \/
    (v_status y = -1 /\ forall lH M, length lH = hi_out hm -> bytes_ok lH -> ~ oaep_of MGF (v_k hm hg x) lH M (dec_em hm hg x)).
  Proof. clear HH; try clear H.
    intros S0 CA Sh (R31 & Rl) Bem Lem. cbv zeta. unfold oaep_core. rewrite S0. change (0 =? 0) with true. cbn [negb]. cbv iota.
    set (k := v_k hm hg x) in *. set (h := hi_out hm).
    destruct (Nat.ltb_spec k (2 * h + 2)) as [K|K].
    { right. cbn [with_vbuf v_status]. split; [reflexivity|]. intros lH M LL _ (Q & _). rewrite LL in Q. fold h in Q. lia. }
    rewrite CA. set (em := dec_em hm hg x) in *. clearbody em. set (buf := v_buf x). clearbody buf k. cbv zeta. cbn [with_vbuf v_status v_buf].
    destruct em as [|Y em']; [cbn in Lem; lia|]. cbn [length] in Lem.
    set (ms := firstn h em'). set (md := skipn h em').
    assert (EE : Y :: em' = Y :: ms ++ md) by (unfold ms, md; now rewrite firstn_skipn).
    assert (Lms : length ms = h) by (unfold ms; rewrite firstn_length; lia). assert (Lmd : length md = (k - h - 1)%nat) by (unfold md; rewrite skipn_length; lia).
    rewrite EE in *. clear EE. assert (BY : byte_ok Y) by (inversion Bem; assumption). assert (Bmm : bytes_ok ms /\ bytes_ok md) by (inversion Bem; now apply Forall_app).
    clearbody ms md. destruct Bmm as [Bms Bmd].
    rewrite (sub2 Y ms md h (k - h - 1) Lms Lmd), (sub1 Y ms md h Lms).
    rewrite (mgf_spec _ md ms Sh Bmd ltac:(lia) ltac:(lia)). rewrite Lms.
    destruct (rfc_mgf1_ok hg G lim HG Gpos md h Bmd) as [Bm1 Lm1].
    set (seed := xorb_list ms (MGF md h)).
    assert (Bs : bytes_ok seed) by (now apply xorb_list_ok). assert (Ls : length seed = h) by (unfold seed; rewrite xorb_list_length; lia).
    rewrite (put1 Y ms seed md) by lia. rewrite (sub2 Y seed md h (k - h - 1) Ls Lmd), (sub1 Y seed md h Ls).
    rewrite (mgf_spec _ seed md Sh Bs ltac:(lia) ltac:(lia)). rewrite Lmd.
    destruct (rfc_mgf1_ok hg G lim HG Gpos seed (k - h - 1) Bs) as [Bm2 Lm2].
    set (DB := xorb_list md (MGF seed (k - h - 1))).
    assert (BD : bytes_ok DB) by (now apply xorb_list_ok). assert (LD : length DB = (k - h - 1)%nat) by (unfold DB; rewrite xorb_list_length; lia).
    rewrite (put2 Y seed md DB h) by lia.
    change (nthZ 0 (Y :: seed ++ DB)) with Y.
    set (lH := firstn h DB). set (R := skipn h DB).
    assert (LlH : length lH = h) by (unfold lH; rewrite firstn_length; lia). assert (LR : length R = (k - (1 + h * 2))%nat) by (unfold R; rewrite skipn_length; lia).
    assert (ED : DB = lH ++ R) by (unfold lH, R; now rewrite firstn_skipn).
    assert (BlR : bytes_ok lH /\ bytes_ok R) by (rewrite ED in BD; now apply Forall_app). destruct BlR as [BlH BR].
    assert (SK : skipn (1 + h * 2) (Y :: seed ++ DB) = R).
    { rewrite ED. rewrite app_assoc. change (Y :: (seed ++ lH) ++ R) with ((Y :: (seed ++ lH)) ++ R). rewrite skipn_app. rewrite skipn_all2 by (cbn [length]; rewrite app_length; lia). cbn [app].
      replace (1 + h * 2 - length (Y :: seed ++ lH))%nat with 0%nat by (cbn [length]; rewrite app_length; lia). reflexivity. }
    rewrite SK. rewrite <- LR.
    assert (MD : md = xorb_list DB (MGF seed (k - h - 1))) by (unfold DB; symmetry; apply xorb_list_cancel; lia).
    assert (MS : ms = xorb_list seed (MGF md h)) by (unfold seed; symmetry; apply xorb_list_cancel; lia).
    destruct (oaep_parse Y R BY BR ltac:(lia)) as [(z & M & -> & ER & ST)|(ST & NO)]; cbv zeta in ST; rewrite ST; clear ST.
    - left. exists lH, M, (0 :: seed ++ lH ++ repeat 0 z ++ [1]), (skipn k buf).
      assert (LZ : (z + S (length M) = k - (1 + h * 2))%nat) by (rewrite <- LR, ER, app_length, repeat_length; reflexivity).
      split; [exact LlH|]. split; [exact BlH|]. split; [|split; [reflexivity|split; [|split]]].
      + split; [rewrite LlH; lia|]. split; [rewrite ER in BR; apply Forall_app in BR; destruct BR as [_ BR]; inversion BR; assumption|].
        exists seed. split; [lia|]. split; [exact Bs|]. unfold eme_oaep. cbv zeta. rewrite LlH.
        replace (k - length M - 2 * h - 2)%nat with z by lia. change (repeat 0 z ++ [1] ++ M) with (repeat 0 z ++ 1 :: M). rewrite <- ER, <- ED, <- MD, <- MS. reflexivity.
      + rewrite ED, ER. cbn [app]. f_equal. rewrite <- !app_assoc. reflexivity.
      + cbn [app length]. rewrite !app_length, repeat_length. cbn [length]. lia.
      + unfold sub. cbn [skipn Nat.add app]. rewrite ED. rewrite <- !app_assoc. rewrite skipn_app, Ls, Nat.sub_diag, skipn_O, skipn_all2 by lia. cbn [app].
        rewrite firstn_app, LlH, Nat.sub_diag, firstn_O, app_nil_r, firstn_all2 by lia. reflexivity.
    - right. split; [reflexivity|]. intros lH' M LL BL (Q1 & Q2 & seed' & Q3 & Q4 & Q5). unfold eme_oaep in Q5. cbv zeta in Q5. fold h in LL. rewrite LL in Q1, Q3, Q5.
      set (DB' := lH' ++ repeat 0 (k - length M - 2 * h - 2) ++ [1] ++ M) in *.
      assert (BD' : bytes_ok DB'). { unfold DB'. apply Forall_app. split; [exact BL|]. apply Forall_app. split; [apply repeat0_bytes|]. constructor; [unfold byte_ok; lia|exact Q2]. }
      assert (LD' : length DB' = (k - h - 1)%nat) by (unfold DB'; rewrite !app_length, repeat_length; cbn [length app]; lia).
      destruct (rfc_mgf1_ok hg G lim HG Gpos seed' (k - h - 1) Q4) as [Bm3 Lm3].
      set (md' := xorb_list DB' (MGF seed' (k - h - 1))) in *. assert (Bmd' : bytes_ok md') by (now apply xorb_list_ok).
      destruct (rfc_mgf1_ok hg G lim HG Gpos md' h Bmd') as [Bm4 Lm4].
      pose proof (f_equal (hd 0) Q5) as Y0. pose proof (f_equal (@tl Z) Q5) as Q5'. cbn [app hd tl] in Y0, Q5'. clear Q5. rename Q5' into Q5.
      apply app_inj_l in Q5; [|rewrite xorb_list_length, Lm4; lia]. destruct Q5 as [Q5 Q6].
      assert (ES : seed = seed') by (unfold seed; rewrite Q6, Q5; apply xorb_list_cancel; lia).
      assert (EDB : DB = DB') by (unfold DB; rewrite Q6, ES; unfold md'; apply xorb_list_cancel; lia).
      apply (NO (k - length M - 2 * h - 2)%nat M Y0). unfold R. rewrite EDB. unfold DB'. rewrite skipn_app, LL, Nat.sub_diag, skipn_O, skipn_all2 by lia. reflexivity.
  Qed.
  Lemma oaep_unique k lH M lH' M' em : length lH = hi_out hm -> bytes_ok lH -> length lH' = hi_out hm -> bytes_ok lH' ->
    oaep_of MGF k lH M em -> oaep_of MGF k lH' M' em -> lH = lH' /\ M = M'.
  Proof. clear HH; try clear H.
    intros L B L' B' (Q1 & Q2 & s & Q3 & Q4 & Q5) (P1 & P2 & s' & P3 & P4 & P5). rewrite Q5 in P5. clear Q5 em. unfold eme_oaep in P5. cbv zeta in P5. rewrite L, L' in *.
    set (h := hi_out hm) in *.
    set (D := lH ++ repeat 0 (k - length M - 2 * h - 2) ++ [1] ++ M) in *. set (D' := lH' ++ repeat 0 (k - length M' - 2 * h - 2) ++ [1] ++ M') in *.
    assert (LD : length D = (k - h - 1)%nat) by (unfold D; rewrite !app_length, repeat_length; cbn [length]; lia).
    assert (LD' : length D' = (k - h - 1)%nat) by (unfold D'; rewrite !app_length, repeat_length; cbn [length]; lia).
    assert (BD : bytes_ok D). { unfold D. apply Forall_app. split; [exact B|]. apply Forall_app. split; [apply repeat0_bytes|]. constructor; [unfold byte_ok; lia|exact Q2]. }
    assert (BD' : bytes_ok D'). { unfold D'. apply Forall_app. split; [exact B'|]. apply Forall_app. split; [apply repeat0_bytes|]. constructor; [unfold byte_ok; lia|exact P2]. }
    destruct (rfc_mgf1_ok hg G lim HG Gpos s (k - h - 1) Q4) as [X1 X2]. destruct (rfc_mgf1_ok hg G lim HG Gpos s' (k - h - 1) P4) as [X3 X4].
    set (md := xorb_list D (MGF s (k - h - 1))) in *. set (md' := xorb_list D' (MGF s' (k - h - 1))) in *.
    assert (Bmd : bytes_ok md) by (now apply xorb_list_ok). assert (Bmd' : bytes_ok md') by (now apply xorb_list_ok).
    destruct (rfc_mgf1_ok hg G lim HG Gpos md h Bmd) as [Y1 Y2]. destruct (rfc_mgf1_ok hg G lim HG Gpos md' h Bmd') as [Y3 Y4].
    pose proof (f_equal (@tl Z) P5) as E. cbn [app tl] in E. apply app_inj_l in E; [|rewrite !xorb_list_length, Y2, Y4; lia]. destruct E as [E1 E2].
    rewrite <- E2 in E1. assert (ES : s = s').
    { rewrite <- (xorb_list_cancel s (MGF md h)) by lia. rewrite E1. apply xorb_list_cancel. lia. }
    assert (ED : D = D').
    { rewrite <- (xorb_list_cancel D (MGF s (k - h - 1))) by lia. fold md. rewrite E2. unfold md'. rewrite <- ES. apply xorb_list_cancel. lia. }
    unfold D, D' in ED. apply app_inj_l in ED; [|lia]. destruct ED as [E3 E4]. split; [exact E3|].
    assert (LM : length M = length M').
    { destruct (lt_eq_lt_dec (length M) (length M')) as [[C|C]|C]; [exfalso|exact C|exfalso].
      - apply (f_equal (nthZ (k - length M' - 2 * h - 2))) in E4. unfold nthZ in E4. rewrite app_nth1, nth_repeat in E4 by (rewrite repeat_length; lia).
        rewrite app_nth2, repeat_length, Nat.sub_diag in E4 by (rewrite repeat_length; lia). discriminate E4.
      - apply (f_equal (nthZ (k - length M - 2 * h - 2))) in E4. unfold nthZ in E4. rewrite (app_nth1 (repeat 0 (k - length M' - 2 * h - 2))), nth_repeat in E4 by (rewrite repeat_length; lia).
        rewrite app_nth2, repeat_length, Nat.sub_diag in E4 by (rewrite repeat_length; lia). discriminate E4. }
    rewrite LM in E4. apply app_inj_l in E4; [|reflexivity]. destruct E4 as [_ E4]. cbn [app] in E4. congruence.
  Qed.
  Lemma v15_core_spec (x : privctx hm hg) : v_status x = 0 -> ct_above hm hg x = false -> room (v_k hm hg x) -> (2 <= v_k hm hg x)%nat ->
    bytes_ok (dec_em hm hg x) -> length (dec_em hm hg x) = v_k hm hg x ->
    let y := v15_core hm hg x in
    (exists M pre rest, v15_of (v_k hm hg x) M (dec_em hm hg x) /\ v_status y = Z.of_nat (length M) /\ v_buf y = pre ++ M ++ rest /\ length (pre ++ M) = v_k hm hg x) \/
    (v_status y = -1 /\ forall M, ~ v15_of (v_k hm hg x) M (dec_em hm hg x)).
  Proof. try clear MGF; clear HH HG Gpos; try clear G; try clear H; try clear lim.
    intros S0 CA (R31 & Rl) K2 Bem Lem. cbv zeta. unfold v15_core. rewrite S0. change (0 =? 0) with true. cbn [negb]. cbv iota. rewrite CA.
    set (em := dec_em hm hg x) in *. clearbody em. cbv zeta. cbn [with_vbuf v_status v_buf]. rewrite <- Lem.
    destruct (v15_parse em Bem ltac:(lia) ltac:(lia)) as [(M & V & ST)|(ST & NO)]; cbv zeta in ST; rewrite ST; clear ST.
    - left. destruct V as (BM & PS & V1 & V2 & V3 & V4 & V5). exists M, ([0; 2] ++ PS ++ [0]), (skipn (length em) (v_buf x)).
      split; [split; [exact BM|exists PS; auto]|]. split; [reflexivity|]. split; [rewrite V4 at 1; rewrite <- !app_assoc; reflexivity|]. rewrite V4 at 1. rewrite <- !app_assoc. reflexivity.
    - right. split; [reflexivity|exact NO].
  Qed.
End Run.
