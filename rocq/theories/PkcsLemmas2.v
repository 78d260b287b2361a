(** The padding checks of the PSS and v1.5 verifiers decide the RFC 8017 encodings. *)
From Verif Require Import Base Vlong VlongLemmas VlongDivLemmas VlongMulLemmas Der DerLemmas Blocks HashLemmas MdLemmas PropHash HashIface MacLemmas CmacLemmas PkcsSpec Pkcs1 PkcsLemmas.

Lemma land_top x t : (t < 8)%nat -> Z.land x (Z.shiftr 255 (Z.of_nat t)) = x mod 2 ^ (8 - Z.of_nat t).
Proof.
  intros Ht. replace (Z.shiftr 255 (Z.of_nat t)) with (Z.ones (8 - Z.of_nat t)).
  - apply Z.land_ones. lia.
  - do 8 (destruct t as [|t]; [reflexivity|]). lia.
Qed.
Lemma land_top_not x t : (t < 8)%nat -> Z.land x (Z.lnot (Z.shiftr 255 (Z.of_nat t))) = 0 <-> x mod 2 ^ (8 - Z.of_nat t) = x.
Proof.
  intros Ht. replace (Z.shiftr 255 (Z.of_nat t)) with (Z.ones (8 - Z.of_nat t)).
  2:{ do 8 (destruct t as [|t]; [reflexivity|]). lia. }
  rewrite <- Z.ldiff_land, <- Z.land_ones by lia. set (o := Z.ones _).
  assert (E : x = Z.lor (Z.land x o) (Z.ldiff x o)).
  { apply Z.bits_inj'. intros m Hm. rewrite Z.lor_spec, Z.land_spec, Z.ldiff_spec. now destruct (Z.testbit x m), (Z.testbit o m). }
  split; intros X.
  - rewrite X, Z.lor_0_r in E. auto.
  - rewrite <- X. apply Z.bits_inj'. intros m Hm. rewrite Z.ldiff_spec, Z.land_spec, Z.bits_0. now destruct (Z.testbit x m), (Z.testbit o m).
Qed.

Lemma mod_lxor_cancel a b k : 0 <= k -> a mod 2 ^ k = a ->
  Z.lxor (Z.lxor a b mod 2 ^ k) b mod 2 ^ k = a.
Proof.
  intros Hk Ha. rewrite !lxor_mod by lia. rewrite !Z.mod_mod by (apply Z.pow_nonzero; lia).
  rewrite Z.lxor_assoc, Z.lxor_nilpotent, Z.lxor_0_r. exact Ha.
Qed.

(** Masking twice gives back a DB whose top bits are clear. *)
Definition top_clear (emLen emBits : nat) (db : list Z) : Prop :=
  nthZ 0 db mod 2 ^ (8 - (8 * Z.of_nat emLen - Z.of_nat emBits)) = nthZ 0 db.
Lemma clear_top_twice emLen emBits db M : length db = length M -> 0 <= 8 - (8 * Z.of_nat emLen - Z.of_nat emBits) ->
  top_clear emLen emBits db ->
  clear_top emLen emBits (xorb_list (clear_top emLen emBits (xorb_list db M)) M) = db.
Proof.
  intros L K T. destruct db as [|b db], M as [|m M]; try discriminate; [reflexivity|].
  cbn [xorb_list clear_top]. unfold top_clear, nthZ in T. cbn [nth] in T.
  rewrite mod_lxor_cancel by auto. f_equal. apply xorb_list_cancel. cbn [length] in L. lia.
Qed.
Lemma clear_top_clear emLen emBits db : 0 <= 8 - (8 * Z.of_nat emLen - Z.of_nat emBits) -> top_clear emLen emBits (clear_top emLen emBits db).
Proof.
  intros K. unfold top_clear. destruct db as [|b db]; cbn [clear_top]; unfold nthZ; cbn [nth].
  - apply Z.mod_0_l. apply Z.pow_nonzero; lia.
  - apply Z.mod_mod. apply Z.pow_nonzero; lia.
Qed.
Lemma clear_top_length a b l : length (clear_top a b l) = length l.
Proof. now destruct l. Qed.
Lemma clear_top_bytes a b l : 0 <= 8 - (8 * Z.of_nat a - Z.of_nat b) <= 8 -> bytes_ok l -> bytes_ok (clear_top a b l).
Proof.
  intros K B. destruct l as [|x l]; [constructor|]. inversion B; subst. constructor; [|auto].
  unfold byte_ok in *. set (k := 8 - _) in *. pose proof (Z.mod_pos_bound x (2 ^ k) ltac:(apply Z.pow_pos_nonneg; lia)).
  assert (2 ^ k <= 2 ^ 8) by (apply Z.pow_le_mono_r; lia). lia.
Qed.
Lemma clear_top_upd a b l : (8 * a - b < 8)%nat -> (b <= 8 * a)%nat -> l <> [] ->
  upd 0 (Z.land (nthZ 0 l) (Z.shiftr 255 (Z.of_nat (8 * a - b)))) l = clear_top a b l.
Proof.
  intros K K2 N. destruct l as [|x l]; [easy|]. cbn [upd clear_top]. f_equal. unfold nthZ. cbn [nth].
  rewrite land_top by auto. f_equal. f_equal. lia.
Qed.

Lemma octets_differ_spec u v : forall k t,
  octets_differ u v t k = false <-> forall i, (i < k)%nat -> nthZ (t + i) u = nthZ (t + i) v.
Proof.
  induction k as [|k IH]; intros t; cbn [octets_differ].
  - split; auto. intros _ i Hi. lia.
  - destruct (Z.eqb_spec (nthZ t u) (nthZ t v)) as [E|E]; cbn [negb].
    + rewrite IH. split; intros X i Hi.
      * destruct i; [now rewrite Nat.add_0_r|]. specialize (X i ltac:(lia)). now rewrite Nat.add_succ_r in *.
      * specialize (X (S i) ltac:(lia)). now rewrite Nat.add_succ_r in X.
    + split; [discriminate|]. intros X. specialize (X 0%nat ltac:(lia)). now rewrite Nat.add_0_r in X.
Qed.
Lemma octets_differ_eq u v k : length u = k -> length v = k -> octets_differ u v 0 k = false <-> u = v.
Proof.
  intros Lu Lv. rewrite octets_differ_spec. split; [|intros -> ? ?; reflexivity].
  intros X. apply list_ext; [congruence|]. intros i Hi. apply X. lia.
Qed.

Lemma existsb_zeros (f : nat -> Z) k : existsb (fun i => negb (f i =? 0)) (seq 0 k) = false <-> forall i, (i < k)%nat -> f i = 0.
Proof.
  split.
  - intros E i Hi. destruct (Z.eqb_spec (f i) 0); auto. exfalso.
    enough (X : existsb (fun i => negb (f i =? 0)) (seq 0 k) = true) by congruence.
    apply existsb_exists. exists i. split; [apply in_seq; lia|]. destruct (Z.eqb_spec (f i) 0); auto.
  - intros H. destruct (existsb _ _) eqn:E; auto. apply existsb_exists in E as (i & Hi & X). apply in_seq in Hi.
    rewrite H in X by lia. discriminate.
Qed.
(** The "00..00 01 salt" shape. *)
Lemma pad_shape db z s : length db = (z + 1 + s)%nat ->
  (forall i, (i < z)%nat -> nthZ i db = 0) /\ nthZ z db = 1 <->
  exists salt, length salt = s /\ db = repeat 0 z ++ [1] ++ salt.
Proof.
  intros L. split.
  - intros [Z0 Z1]. exists (skipn (z + 1) db). split; [rewrite skipn_length; lia|].
    apply list_ext. { rewrite !app_length, repeat_length, skipn_length. cbn [length]. lia. }
    intros i Hi. unfold nthZ in *. destruct (Nat.lt_ge_cases i z).
    + rewrite app_nth1 by now rewrite repeat_length. rewrite Z0 by auto. symmetry. apply nth_repeat.
    + rewrite app_nth2 by (rewrite repeat_length; lia). rewrite repeat_length. destruct (Nat.eq_dec i z) as [->|N].
      * now rewrite Nat.sub_diag.
      * rewrite app_nth2 by (cbn [length]; lia). cbn [length]. rewrite nth_skipn. f_equal. lia.
  - intros (salt & Ls & ->). unfold nthZ. split.
    + intros i Hi. rewrite app_nth1 by now rewrite repeat_length. apply nth_repeat.
    + rewrite app_nth2 by (rewrite repeat_length; lia). now rewrite repeat_length, Nat.sub_diag.
Qed.

Lemma em_len_range bits : (2 <= bits)%nat -> let L := ceil_div (bits - 1) 8 in (8 * L - (bits - 1) < 8)%nat /\ (bits - 1 <= 8 * L)%nat.
Proof.
  intros H. cbv zeta. unfold ceil_div. pose proof (Nat.div_mod (bits - 1 + 8 - 1) 8 ltac:(lia)).
  pose proof (Nat.mod_upper_bound (bits - 1 + 8 - 1) 8 ltac:(lia)). lia.
Qed.
Lemma em_len_ceil hm hg (x : pkctx hm hg) : em_len hm hg x = ceil_div (pk_bits x - 1) 8.
Proof. unfold em_len, ceil_div. f_equal. lia. Qed.

Lemma be_val_inj a b : bytes_ok a -> bytes_ok b -> length a = length b -> be_val a = be_val b -> a = b.
Proof. intros A B L E. rewrite <- (be_bytes_be_val a A), <- (be_bytes_be_val b B). now rewrite L, E. Qed.

Lemma app_inj_l {A} (a b c d : list A) : length a = length c -> a ++ b = c ++ d -> a = c /\ b = d.
Proof.
  intros L E. split.
  - apply (f_equal (firstn (length a))) in E. rewrite firstn_app_exact in E by auto. rewrite L, firstn_app_exact in E by auto. exact E.
  - apply (f_equal (skipn (length a))) in E. rewrite skipn_app_exact in E by auto. rewrite L, skipn_app_exact in E by auto. exact E.
Qed.

Section S.
  Variables (hm hg : hash_impl) (H G : list Z -> list Z) (lim : Z).
  Hypothesis HH : hash_correct hm H lim.
  Hypothesis HG : hash_correct hg G lim.
  Hypothesis Gpos : (0 < hi_out hg)%nat.
  Let mgf := rfc_mgf1 G (hi_out hg).

  Lemma emsa_pss_ok emBits mHash salt : bytes_ok mHash -> bytes_ok salt -> length mHash = hi_out hm ->
    (8 * ceil_div emBits 8 - emBits < 8)%nat -> (emBits <= 8 * ceil_div emBits 8)%nat ->
    (length mHash + length salt + 2 <= ceil_div emBits 8)%nat ->
    bytes_ok (emsa_pss H mgf emBits mHash salt) /\ length (emsa_pss H mgf emBits mHash salt) = ceil_div emBits 8.
  Proof.
    intros Bm Bs Lm R1 R2 L. unfold emsa_pss. cbv zeta.
    destruct (hc_digest _ _ _ HH (repeat 0 8 ++ mHash ++ salt)) as [Dl Db].
    { repeat (apply Forall_app; split); auto. apply repeat0_bytes. }
    destruct (rfc_mgf1_ok hg G lim HG Gpos (H (repeat 0 8 ++ mHash ++ salt)) (ceil_div emBits 8 - length mHash - 1) Db) as [Mb Ml].
    split.
    - repeat (apply Forall_app; split); auto.
      + apply clear_top_bytes; [lia|]. apply xorb_list_ok; [|exact Mb].
        repeat (apply Forall_app; split); auto; [apply repeat0_bytes|]. constructor; [unfold byte_ok; lia|constructor].
      + constructor; [unfold byte_ok; lia|constructor].
    - rewrite !app_length, clear_top_length, xorb_list_length, Dl. fold mgf in Ml. rewrite Ml, !app_length, repeat_length. cbn [length]. lia.
  Qed.

  (** The checks on an EM of the right length. *)
  Definition em_checks (x : pkctx hm hg) (mHash em : list Z) : option Z :=
    let emBits := (pk_bits x - 1)%nat in
    let emLen := em_len hm hg x in
    let hlen := hi_out hm in
    let slen := pk_slen x in
      let t := Z.of_nat (8 * emLen - emBits) in
      if negb (nthZ (emLen - 1) em =? 0xbc) then Some (-1)
      else if negb (Z.land (nthZ 0 em) (Z.lnot (Z.shiftr 0xff t)) =? 0) then Some (-1)
      else
        let dbl := (emLen - hlen - 1)%nat in
        let h := firstn hlen (skipn dbl em) in
        let db := mgf_auto hm hg x h (firstn dbl em) in
        let db := upd 0 (Z.land (nthZ 0 db) (Z.shiftr 0xff t)) db in
        if existsb (fun i => negb (nthZ i db =? 0)) (seq 0 (emLen - hlen - slen - 2)) then Some (-1)
        else if negb (nthZ (emLen - hlen - slen - 2) db =? 1) then Some (-1)
        else if negb (pk_status x =? 2) then None
        else
          let hc := hi_init hm (pk_hmsg x) in
          let hc := hi_update hm hc (repeat 0 8) in
          let hc := hi_update hm hc (firstn hlen mHash) in
          let hc := hi_update hm hc (firstn slen (skipn (emLen - hlen - slen - 1) db)) in
          let '(_, v) := hi_final hm hc hlen in
          if octets_differ h v 0 hlen then Some (-1) else Some 1.

  Lemma em_checks_spec (x : pkctx hm hg) mHash em :
    hi_shape hm (pk_hmsg x) -> hi_shape hg (pk_hmgf x) -> pk_status x = 2 ->
    bytes_ok mHash -> length mHash = hi_out hm -> bytes_ok em -> length em = em_len hm hg x ->
    (2 <= pk_bits x)%nat -> (hi_out hm + pk_slen x + 2 <= em_len hm hg x)%nat ->
    Z.of_nat (em_len hm hg x) < 2 ^ 32 -> Z.of_nat (8 + hi_out hm + em_len hm hg x) < lim ->
    exists s, em_checks x mHash em = Some s /\ (s = 1 \/ s = -1) /\
      (s = 1 <-> exists salt, length salt = pk_slen x /\ bytes_ok salt /\ em = emsa_pss H mgf (pk_bits x - 1) mHash salt).
  Proof.
    intros Sm Sg St Bm Lm Be Le Hb Hlen L32 Llim.
    pose proof (em_len_range (pk_bits x) Hb) as R. cbv zeta in R. rewrite <- (em_len_ceil hm hg x) in R. destruct R as [R1 R2].
    unfold em_checks. cbv zeta. set (emLen := em_len hm hg x) in *. set (hlen := hi_out hm) in *. set (slen := pk_slen x) in *.
    set (emBits := (pk_bits x - 1)%nat) in *. set (dbl := (emLen - hlen - 1)%nat).
    set (h := firstn hlen (skipn dbl em)). set (mdb := firstn dbl em).
    assert (Lh : length h = hlen) by (unfold h; rewrite firstn_length, skipn_length; lia).
    assert (Lmdb : length mdb = dbl) by (unfold mdb; rewrite firstn_length; lia).
    assert (Bh : bytes_ok h) by (apply Forall_firstn, Forall_skipn; auto).
    assert (Bmdb : bytes_ok mdb) by (apply Forall_firstn; auto).
    assert (EM : em = mdb ++ h ++ [nthZ (emLen - 1) em]).
    { unfold mdb, h. rewrite <- (firstn_skipn dbl em) at 1. f_equal. rewrite <- (firstn_skipn hlen (skipn dbl em)) at 1. f_equal.
      apply list_ext. { rewrite !skipn_length. cbn [length]. lia. }
      intros i Hi. rewrite !skipn_length in Hi. unfold nthZ. rewrite !nth_skipn. replace i with 0%nat by lia. cbn [nth]. f_equal. lia. }
    assert (E0 : nthZ 0 em = nthZ 0 mdb).
    { unfold mdb, nthZ. rewrite nth_firstn. destruct (Nat.ltb_spec 0 dbl); [auto|lia]. }
    set (last := nthZ (emLen - 1) em) in *.
    destruct (rfc_mgf1_ok hg G lim HG Gpos h dbl Bh) as [Mb Ml]. fold mgf in Mb, Ml. set (M := mgf h dbl) in *.
    assert (MG : mgf_auto hm hg x h mdb = xorb_list mdb M).
    { rewrite (mgf_auto_spec hm hg G lim HG Gpos) by (auto; lia). rewrite Lmdb. reflexivity. }
    rewrite MG, clear_top_upd.
    2: lia. 2: lia. 2:{ intros X. apply (f_equal (@length Z)) in X. rewrite xorb_list_length, Ml, Lmdb in X. cbn [length] in X. lia. }
    set (db := clear_top emLen emBits (xorb_list mdb M)).
    assert (Ldb : length db = dbl) by (unfold db; rewrite clear_top_length, xorb_list_length; lia).
    assert (Bdb : bytes_ok db) by (apply clear_top_bytes; [lia|apply xorb_list_ok; auto]).
    assert (NoSalt : forall salt, length salt = slen -> bytes_ok salt -> em = emsa_pss H mgf emBits mHash salt ->
      last = 0xbc /\ nthZ 0 mdb mod 2 ^ (8 - Z.of_nat (8 * emLen - emBits)) = nthZ 0 mdb /\ db = repeat 0 (emLen - hlen - slen - 2) ++ [1] ++ salt /\
      h = H (repeat 0 8 ++ mHash ++ salt)).
    { intros salt Ls Bs EE. unfold emsa_pss in EE. cbv zeta in EE.
      replace (ceil_div emBits 8) with emLen in EE by (unfold emLen, emBits; apply em_len_ceil).
      rewrite Lm in EE. fold hlen in EE. rewrite Ls in EE.
      destruct (hc_digest _ _ _ HH (repeat 0 8 ++ mHash ++ salt)) as [Dl Db].
      { repeat (apply Forall_app; split); auto. apply repeat0_bytes. }
      set (h' := H _) in *. set (DB := repeat 0 (emLen - slen - hlen - 2) ++ [1] ++ salt) in *.
      assert (LDB : length DB = dbl) by (unfold DB; rewrite !app_length, repeat_length; cbn [length]; lia).
      destruct (rfc_mgf1_ok hg G lim HG Gpos h' (emLen - hlen - 1) Db) as [Mb' Ml']. fold mgf in Mb', Ml'.
      set (MD := clear_top emLen emBits (xorb_list DB (mgf h' (emLen - hlen - 1)%nat))) in *.
      assert (LMD : length MD = dbl) by (unfold MD; rewrite clear_top_length, xorb_list_length, Ml', LDB; unfold dbl; lia).
      assert (X : mdb = MD /\ h = h' /\ last = 188).
      { rewrite EM in EE. apply app_inj_l in EE; [|congruence]. destruct EE as [X1 X2]. apply app_inj_l in X2; [|rewrite Lh; symmetry; exact Dl]. destruct X2 as [X2 X3].
        split; [auto|split; [auto|]]. now injection X3. }
      destruct X as (X1 & X2 & X3). split; [auto|]. split; [|split; [|auto]].
      - rewrite X1. pose proof (clear_top_clear emLen emBits (xorb_list DB (mgf h' (emLen - hlen - 1)%nat)) ltac:(lia)) as T. unfold top_clear in T. fold MD in T.
        replace (8 - Z.of_nat (8 * emLen - emBits)) with (8 - (8 * Z.of_nat emLen - Z.of_nat emBits)) by lia. exact T.
      - unfold db. rewrite X1. unfold MD, M. rewrite X2. fold dbl. transitivity DB; [|unfold DB; do 2 f_equal; lia].
        apply clear_top_twice; [rewrite LDB; symmetry; exact Ml'|lia|].
        unfold top_clear, DB. destruct (emLen - slen - hlen - 2)%nat; unfold nthZ; cbn [repeat app nth].
        + apply Z.mod_small. split; [lia|]. apply Z.pow_gt_1; lia.
        + apply Z.mod_0_l. apply Z.pow_nonzero; lia. }
    destruct (Z.eqb_spec last 188) as [Elast|Nlast]; cbn [negb].
    2:{ exists (-1). split; [auto|]. split; [auto|]. split; [lia|]. intros (salt & A & B & C). destruct (NoSalt salt A B C) as (X & _). congruence. }
    rewrite E0.
    destruct (Z.eqb_spec (Z.land (nthZ 0 mdb) (Z.lnot (Z.shiftr 255 (Z.of_nat (8 * emLen - emBits))))) 0) as [Et|Nt]; cbn [negb].
    2:{ exists (-1). split; [auto|]. split; [auto|]. split; [lia|]. intros (salt & A & B & C). destruct (NoSalt salt A B C) as (_ & X & _).
        exfalso; exact (Nt (proj2 (land_top_not _ _ R1) X)). }
    apply (proj1 (land_top_not _ _ R1)) in Et.
    destruct (existsb _ _) eqn:EX.
    { exists (-1). split; [auto|]. split; [auto|]. split; [lia|]. intros (salt & A & B & C). destruct (NoSalt salt A B C) as (_ & _ & X & _).
      enough (existsb (fun i => negb (nthZ i db =? 0)) (seq 0 (emLen - hlen - slen - 2)) = false) by congruence.
      apply (existsb_zeros (fun i => nthZ i db)). apply (pad_shape db _ slen); [lia|]. eauto. }
    pose proof (proj1 (existsb_zeros (fun i => nthZ i db) _) EX) as EX'. clear EX.
    destruct (Z.eqb_spec (nthZ (emLen - hlen - slen - 2) db) 1) as [E1|N1]; cbn [negb].
    2:{ exists (-1). split; [auto|]. split; [auto|]. split; [lia|]. intros (salt & A & B & C). destruct (NoSalt salt A B C) as (_ & _ & X & _).
        exfalso. apply N1. apply (pad_shape db _ slen); [lia|]. eauto. }
    rewrite St. cbn [Z.eqb Pos.eqb negb].
    assert (PS : exists salt, length salt = slen /\ db = repeat 0 (emLen - hlen - slen - 2) ++ [1] ++ salt) by (apply pad_shape; auto; lia).
    destruct PS as (salt & Ls & Ed).
    assert (Bs : bytes_ok salt).
    { rewrite Ed in Bdb. apply Forall_app in Bdb as [_ Bdb]. apply Forall_app in Bdb as [_ Bdb]. exact Bdb. }
    assert (ES : firstn slen (skipn (emLen - hlen - slen - 1) db) = salt).
    { rewrite Ed, app_assoc. rewrite skipn_app_exact. 2:{ rewrite app_length, repeat_length. cbn [length]. lia. }
      apply firstn_all2. lia. }
    rewrite ES. rewrite (@firstn_all2 Z hlen mHash) by lia.
    assert (RUN : snd (hi_final hm (hi_update hm (hi_update hm (hi_update hm (hi_init hm (pk_hmsg x)) (repeat 0 8)) mHash) salt) hlen)
       = H (repeat 0 8 ++ mHash ++ salt)).
    { pose proof (run1 hm H lim HH (pk_hmsg x) [repeat 0 8; mHash; salt] hlen Sm) as X. cbn [fold_left concat] in X. rewrite app_nil_r in X.
      rewrite X; [|apply Forall3; auto; apply repeat0_bytes|rewrite !app_length, repeat_length; lia].
      apply octets_exact. apply (hc_digest _ _ _ HH). repeat (apply Forall_app; split); auto. apply repeat0_bytes. }
    destruct (hc_digest _ _ _ HH (repeat 0 8 ++ mHash ++ salt)) as [Dl Db].
    { repeat (apply Forall_app; split); auto. apply repeat0_bytes. }
    destruct (hi_final hm _ hlen) as [hc' v]. cbn [snd] in RUN. subst v.
    destruct (octets_differ h (H (repeat 0 8 ++ mHash ++ salt)) 0 hlen) eqn:OD.
    - exists (-1). split; [auto|]. split; [auto|]. split; [lia|]. intros (salt' & A & B & C). destruct (NoSalt salt' A B C) as (_ & _ & X & Y).
      rewrite Ed in X. apply app_inv_head in X. apply app_inv_head in X. subst salt'.
      enough (octets_differ h (H (repeat 0 8 ++ mHash ++ salt)) 0 hlen = false) by congruence.
      apply octets_differ_eq; auto.
    - exists 1. split; [auto|]. split; [auto|]. split; [|auto]. intros _. exists salt. split; [auto|]. split; [auto|].
      apply octets_differ_eq in OD; [|auto|auto].
      rewrite EM. unfold emsa_pss. cbv zeta.
      replace (ceil_div emBits 8) with emLen by (unfold emLen, emBits; first [apply em_len_ceil|symmetry; apply em_len_ceil]).
      rewrite Lm. fold hlen. rewrite Ls, <- OD. fold dbl. fold M. replace (emLen - slen - hlen - 2)%nat with (emLen - hlen - slen - 2)%nat by lia.
      rewrite <- Ed. unfold db. rewrite clear_top_twice; [|lia|lia|].
      + now rewrite Elast.
      + unfold top_clear. replace (8 - (8 * Z.of_nat emLen - Z.of_nat emBits)) with (8 - Z.of_nat (8 * emLen - emBits)) by lia. exact Et.
  Qed.
End S.
