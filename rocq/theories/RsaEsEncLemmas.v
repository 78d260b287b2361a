(** Lemmas: the encodings the RSAES encryption functions produce. *)
From Coq Require Import Znumtheory.
From Verif Require Import Base Vlong VlongLemmas Der DerLemmas HashIface HashLemmas MdLemmas MacLemmas PkcsSpec PkcsLemmas PkcsLemmas2 PkcsLemmas3 Rsa RsaSpec RsaLemmas RsaEs RsaEsSpec RsaEsLemmas RsaEsRunLemmas.
From Verif Require Pkcs1.

Lemma put2r Y a (b b' r : list Z) h : length a = h -> length b' = length b -> Pkcs1.put_at (Y :: a ++ b ++ r) (h + 1) b' = Y :: a ++ b' ++ r.
Proof.
  intros L L'. rewrite putf by (cbn [length]; rewrite !app_length; lia). replace (h + 1)%nat with (S h) by lia. cbn [firstn skipn Nat.add app]. f_equal.
  rewrite firstn_app, <- L, Nat.sub_diag, firstn_O, app_nil_r, firstn_all2 by lia. f_equal. f_equal.
  rewrite L', skipn_app, skipn_all2 by lia. cbn [app]. replace (length a + length b - length a)%nat with (length b) by lia.
  rewrite skipn_app, skipn_all2, Nat.sub_diag, skipn_O by lia. reflexivity.
Qed.
Lemma sub2r Y (a b r : list Z) h m : length a = h -> length b = m -> sub (Y :: a ++ b ++ r) (h + 1) m = b.
Proof.
  intros L L'. unfold sub. replace (h + 1)%nat with (S h) by lia. cbn [skipn]. rewrite skipn_app, <- L, Nat.sub_diag, skipn_O, skipn_all2 by lia. cbn [app].
  rewrite firstn_app, <- L', Nat.sub_diag, firstn_O, app_nil_r, firstn_all2 by lia. reflexivity.
Qed.
Lemma put_mid (p a a' r : list Z) off : length p = off -> length a' = length a -> Pkcs1.put_at (p ++ a ++ r) off a' = p ++ a' ++ r.
Proof.
  intros L L'. rewrite putf by (rewrite !app_length; lia). rewrite firstn_app, L, Nat.sub_diag, firstn_O, app_nil_r, firstn_all2 by lia. f_equal. f_equal.
  rewrite skipn_app, skipn_all2 by lia. cbn [app]. replace (off + length a' - length p)%nat with (length a) by lia.
  rewrite skipn_app, skipn_all2, Nat.sub_diag, skipn_O by lia. reflexivity.
Qed.

Section Enc.
  Variables (hm hg : hash_impl) (H G : list Z -> list Z) (lim : Z).
  Hypothesis HH : hash_correct hm H lim.
  Hypothesis HG : hash_correct hg G lim.
  Hypothesis Gpos : (0 < hi_out hg)%nat.
  Notation MGF := (rfc_mgf1 G (hi_out hg)).

  Lemma label_block (x : pubctx hm hg) hc label : snd (hi_final hm hc (hi_out hm)) = H label -> bytes_ok label ->
    (u_k hm hg x <= length (u_buf x))%nat -> (2 * hi_out hm + 2 <= u_k hm hg x)%nat ->
    snd (oaep_label hm hg x hc) = 0 :: repeat 0 (hi_out hm) ++ (H label ++ repeat 0 (u_k hm hg x - 2 * hi_out hm - 1)) ++ skipn (u_k hm hg x) (u_buf x).
  Proof. try clear MGF; clear HG Gpos; try clear G.
    intros E BL LB K. unfold oaep_label. destruct (hi_final hm hc (hi_out hm)) as [hc' d]. cbn [snd] in *. subst d.
    destruct (hc_digest _ _ _ HH label BL) as [LH _]. set (h := hi_out hm) in *. set (k := u_k hm hg x) in *. clearbody k.
    rewrite (putf (repeat 0 k) (u_buf x) 0) by (rewrite repeat_length; lia). cbn [firstn app Nat.add]. rewrite repeat_length.
    replace k with (S h + (h + (k - 2 * h - 1)))%nat at 1 by lia. rewrite !repeat_app. cbn [repeat app]. rewrite <- !app_assoc.
    change (0 :: repeat 0 h ++ ?z) with ((0 :: repeat 0 h) ++ z). rewrite (put_mid (0 :: repeat 0 h) (repeat 0 h) (H label)) by (cbn [length]; rewrite ?repeat_length; lia).
    cbn [app]. rewrite <- ?app_assoc. reflexivity.
  Qed.
  Lemma oaep_em_spec (x : pubctx hm hg) lH ss seed r : hi_shape hg (u_hmgf x) -> length lH = hi_out hm -> bytes_ok lH -> bytes_ok ss -> bytes_ok seed -> length seed = hi_out hm ->
    room lim (u_k hm hg x) -> (length ss + 2 * hi_out hm + 2 <= u_k hm hg x)%nat ->
    oaep_em hm hg x (0 :: repeat 0 (hi_out hm) ++ (lH ++ repeat 0 (u_k hm hg x - 2 * hi_out hm - 1)) ++ r) ss seed
    = eme_oaep MGF (u_k hm hg x) lH seed ss.
  Proof. clear HH; try clear H.
    intros Sh LL BL Bss Bs Ls (R1 & R2) K. unfold oaep_em. cbv zeta. set (h := hi_out hm) in *. set (k := u_k hm hg x) in *. clearbody k.
    replace (k - 2 * h - 1)%nat with ((k - length ss - 2 * h - 2) + (1 + length ss))%nat by lia. rewrite !repeat_app. cbn [repeat].
    set (z := repeat 0 (k - length ss - 2 * h - 2)). assert (Lz : length z = (k - length ss - 2 * h - 2)%nat) by apply repeat_length.
    set (p := 0 :: repeat 0 h ++ lH ++ z). assert (Lp : length p = (k - length ss - 1)%nat) by (unfold p; cbn [length]; rewrite !app_length, repeat_length; lia).
    replace (0 :: repeat 0 h ++ (lH ++ z ++ [0] ++ repeat 0 (length ss)) ++ r) with (p ++ [0] ++ repeat 0 (length ss) ++ r) by (unfold p; cbn [app]; rewrite <- !app_assoc; reflexivity).
    rewrite upd_app_r by lia. rewrite <- Lp, Nat.sub_diag. cbn [app upd]. change (p ++ 1 :: repeat 0 (length ss) ++ r) with (p ++ [1] ++ repeat 0 (length ss) ++ r). rewrite app_assoc.
    rewrite (put_mid (p ++ [1]) (repeat 0 (length ss)) ss r) by (rewrite ?app_length, ?repeat_length; cbn [length]; lia).
    set (DB := lH ++ z ++ [1] ++ ss). assert (LD : length DB = (k - h - 1)%nat) by (unfold DB; rewrite !app_length; cbn [length]; lia).
    assert (BD : bytes_ok DB). { unfold DB. apply Forall_app. split; [exact BL|]. apply Forall_app. split; [apply repeat0_bytes|]. constructor; [unfold byte_ok; lia|exact Bss]. }
    replace ((p ++ [1]) ++ ss ++ r) with (0 :: repeat 0 h ++ DB ++ r) by (unfold p, DB; cbn [app]; rewrite <- !app_assoc; reflexivity).
    rewrite (put1 0 (repeat 0 h) seed (DB ++ r)) by (rewrite repeat_length; lia).
    rewrite (sub1 0 seed (DB ++ r) h Ls), (sub2r 0 seed DB r h (k - h - 1) Ls LD).
    rewrite (mgf_spec hg G lim HG Gpos (u_hmgf x) seed DB Sh Bs ltac:(lia) ltac:(lia)), LD.
    destruct (rfc_mgf1_ok hg G lim HG Gpos seed (k - h - 1) Bs) as [B1 L1].
    set (md := xorb_list DB (MGF seed (k - h - 1))). assert (Lmd : length md = (k - h - 1)%nat) by (unfold md; rewrite xorb_list_length; lia). assert (Bmd : bytes_ok md) by (now apply xorb_list_ok).
    rewrite (put2r 0 seed DB md r h) by lia. rewrite (sub1 0 seed (md ++ r) h Ls), (sub2r 0 seed md r h (k - h - 1) Ls Lmd).
    rewrite (mgf_spec hg G lim HG Gpos (u_hmgf x) md seed Sh Bmd ltac:(lia) ltac:(lia)), Ls.
    destruct (rfc_mgf1_ok hg G lim HG Gpos md h Bmd) as [B2 L2].
    set (ms := xorb_list seed (MGF md h)). assert (Lms : length ms = h) by (unfold ms; rewrite xorb_list_length; lia).
    rewrite (put1 0 seed ms (md ++ r)) by lia.
    replace k with (length (0 :: ms ++ md)) at 1 by (cbn [length]; rewrite app_length; lia).
    replace (0 :: ms ++ md ++ r) with ((0 :: ms ++ md) ++ r) by (cbn [app]; now rewrite <- app_assoc).
    rewrite firstn_app, Nat.sub_diag, firstn_O, app_nil_r, firstn_all. unfold eme_oaep. cbv zeta. rewrite LL. fold z. fold DB. fold md. reflexivity.
  Qed.
  Lemma eme_oaep_ok k lH seed ss : length lH = hi_out hm -> bytes_ok lH -> bytes_ok ss -> bytes_ok seed -> length seed = hi_out hm ->
    (length ss + 2 * hi_out hm + 2 <= k)%nat -> let em := eme_oaep MGF k lH seed ss in
    bytes_ok em /\ length em = k /\ be_val em < 2 ^ (8 * Z.of_nat k - 8).
  Proof. clear HH; try clear H.
    intros LL BL Bss Bs Ls K. cbv zeta. unfold eme_oaep. cbv zeta. rewrite LL. set (h := hi_out hm) in *.
    set (DB := lH ++ repeat 0 (k - length ss - 2 * h - 2) ++ [1] ++ ss).
    assert (LD : length DB = (k - h - 1)%nat) by (unfold DB; rewrite !app_length, repeat_length; cbn [length]; lia).
    assert (BD : bytes_ok DB). { unfold DB. apply Forall_app. split; [exact BL|]. apply Forall_app. split; [apply repeat0_bytes|]. constructor; [unfold byte_ok; lia|exact Bss]. }
    destruct (rfc_mgf1_ok hg G lim HG Gpos seed (k - h - 1) Bs) as [B1 L1].
    set (md := xorb_list DB (MGF seed (k - h - 1))). assert (Lmd : length md = (k - h - 1)%nat) by (unfold md; rewrite xorb_list_length; lia). assert (Bmd : bytes_ok md) by (now apply xorb_list_ok).
    destruct (rfc_mgf1_ok hg G lim HG Gpos md h Bmd) as [B2 L2].
    set (ms := xorb_list seed (MGF md h)). assert (Lms : length ms = h) by (unfold ms; rewrite xorb_list_length; lia). assert (Bms : bytes_ok ms) by (now apply xorb_list_ok).
    assert (BB : bytes_ok (ms ++ md)) by (apply Forall_app; split; assumption).
    split; [constructor; [unfold byte_ok; lia|exact BB]|]. split; [cbn [app length]; rewrite app_length; lia|].
    rewrite be_val_app. change (be_val [0]) with 0. rewrite Z.mul_0_l. pose proof (be_val_bound _ BB) as Q. rewrite app_length in Q. replace (8 * Z.of_nat k - 8) with (8 * Z.of_nat (length ms + length md)) by lia. lia.
  Qed.
End Enc.

(** * The v1.5 padding loop *)
Definition nz (b : Z) : Prop := byte_ok b /\ b <> 0.
Lemma upd_same (l : list Z) u b : nth_error l u = Some b -> upd u b l = l.
Proof. revert u. induction l as [|a l IH]; intros [|u] E; cbn in *; try discriminate; [congruence|]. f_equal. now apply IH. Qed.
Lemma inner_spec : forall fuel mem u t, (2 <= u)%nat -> (1 <= t <= fuel)%nat -> (forall i, (u <= i < u + t)%nat -> exists b, nth_error mem i = Some b /\ nz b) ->
  let i := Nat.max 1 ((t + 3 - u) / 2) in ps_inner fuel mem u u t = Some (mem, (u + i)%nat, (u + i)%nat, (t - i)%nat).
Proof.
  induction fuel as [|fuel IH]; intros mem u t U T M; [lia|]. cbv zeta. cbn [ps_inner].
  destruct (M u ltac:(lia)) as (b & E & _ & N). rewrite E. rewrite (upd_same mem u b E). destruct (Z.eqb_spec b 0) as [X|_]; [contradiction|].
  destruct (Nat.leb_spec (t - 1 + 2) (S u)) as [L|L].
  - assert (X : ((t + 3 - u) / 2 <= 1)%nat) by (apply Nat.lt_succ_r; apply Nat.div_lt_upper_bound; lia). rewrite Nat.max_l by lia. replace (u + 1)%nat with (S u) by lia. reflexivity.
  - rewrite IH; [|lia|lia|intros i Hi; apply M; lia]. cbv zeta.
    assert (X : ((t + 3 - u) / 2 = 1 + (t - 1 + 3 - S u) / 2)%nat). { replace (t + 3 - u)%nat with ((t - 1 + 3 - S u) + 1 * 2)%nat by lia. rewrite Nat.div_add by lia. lia. }
    assert (Y : (1 <= (t - 1 + 3 - S u) / 2)%nat) by (apply Nat.div_le_lower_bound; lia).
    rewrite (Nat.max_r 1 ((t + 3 - u) / 2)) by lia. rewrite Nat.max_r by lia. rewrite X.
    set (q := ((t - 1 + 3 - S u) / 2)%nat). clearbody q. replace (S u + q)%nat with (u + (1 + q))%nat by lia. replace (t - 1 - q)%nat with (t - (1 + q))%nat by lia. reflexivity.
Qed.
(** mem' is mem with nonzero octets in [u, u+t). *)
Definition filled (mem mem' : list Z) (u t : nat) : Prop :=
  length mem' = length mem /\ firstn u mem' = firstn u mem /\ skipn (u + t) mem' = skipn (u + t) mem /\
  forall i, (u <= i < u + t)%nat -> exists b, nth_error mem' i = Some b /\ nz b.
Definition good_draw (rnd : nat -> nat -> list Z) (i n : nat) : Prop := length (rnd i n) = n /\ Forall nz (rnd i n).
Lemma put_filled mem u d : (u + length d <= length mem)%nat -> Forall nz d -> filled mem (Pkcs1.put_at mem u d) u (length d).
Proof.
  intros L F. rewrite putf by exact L. assert (Lf : length (firstn u mem) = u) by (rewrite firstn_length; lia). split; [|split; [|split]].
  - rewrite !app_length, skipn_length, Lf. lia.
  - rewrite firstn_app, Lf, Nat.sub_diag, firstn_O, app_nil_r, firstn_all2 by lia. reflexivity.
  - rewrite skipn_app, skipn_all2, Lf by lia. cbn [app]. replace (u + length d - u)%nat with (length d) by lia. rewrite skipn_app, skipn_all2, Nat.sub_diag, skipn_O by lia. reflexivity.
  - intros i Hi. exists (nth (i - u) d 0). split.
    + rewrite nth_error_app2 by lia. rewrite Lf. rewrite nth_error_app1 by lia. apply nth_error_nth'. lia.
    + rewrite Forall_forall in F. apply F. apply nth_In. lia.
Qed.
Lemma nth_error_firstn_eq (a b : list Z) u i : firstn u a = firstn u b -> (i < u)%nat -> nth_error a i = nth_error b i.
Proof. revert a b i. induction u as [|u IH]; intros a b i E L; [lia|]. destruct a, b; cbn in E; try discriminate; [reflexivity|]. injection E as -> E. destruct i; [reflexivity|]. cbn. now apply IH; [|lia]. Qed.
Lemma nth_error_skipn' (a : list Z) n i : nth_error (skipn n a) i = nth_error a (n + i).
Proof. revert a. induction n as [|n IH]; intros a; [reflexivity|]. destruct a; cbn; [now destruct i|apply IH]. Qed.
Lemma firstn_firstn_le (l : list Z) a b : (a <= b)%nat -> firstn a (firstn b l) = firstn a l.
Proof. intros L. rewrite firstn_firstn. f_equal. lia. Qed.
Lemma nth_error_upd_eq (l : list Z) i b : (i < length l)%nat -> nth_error (upd i b l) i = Some b.
Proof. revert i. induction l as [|a l IH]; intros [|i] L; cbn in *; try lia; [reflexivity|]. apply IH. lia. Qed.
Lemma skipn_skipn (a : list Z) n m : skipn m (skipn n a) = skipn (m + n) a.
Proof. revert a. induction n as [|n IH]; intros a; [now rewrite Nat.add_0_r|]. destruct a; [now rewrite !skipn_nil|]. rewrite Nat.add_succ_r. cbn. apply IH. Qed.
Lemma filled_trans mem m1 m2 u t s : (s <= t)%nat -> filled mem m1 u t -> filled m1 m2 (u + s) (t - s) -> filled mem m2 u t.
Proof.
  intros Hs (A1 & A2 & A3 & A4) (B1 & B2 & B3 & B4). split; [lia|]. split; [|split].
  - rewrite <- A2. rewrite <- (firstn_firstn_le m2 u (u + s)) by lia. rewrite <- (firstn_firstn_le m1 u (u + s)) by lia. now rewrite B2.
  - replace (u + s + (t - s))%nat with (u + t)%nat in B3 by lia. now rewrite B3.
  - intros i Hi. destruct (Nat.lt_ge_cases i (u + s)) as [C|C]; [|apply B4; lia].
    destruct (A4 i Hi) as (b & E & N). exists b. split; [|exact N]. rewrite <- E. now apply (nth_error_firstn_eq m2 m1 (u + s)).
Qed.
Lemma outer_tail : forall fuel rnd i mem u t, (t < fuel)%nat -> (t + 2 <= u)%nat -> (u + t <= length mem)%nat ->
  (forall j, (j < t)%nat -> good_draw rnd (i + j) (t - j)) ->
  exists mem', ps_outer fuel rnd i mem u u t = Some (mem', (i + t)%nat) /\ filled mem mem' u t.
Proof.
  induction fuel as [|fuel IH]; intros rnd i mem u t F U L D; [lia|]. cbn [ps_outer]. destruct (Nat.eqb_spec t 0) as [->|NT].
  - exists mem. split; [f_equal; f_equal; lia|]. split; [reflexivity|]. split; [reflexivity|]. split; [reflexivity|]. intros; lia.
  - destruct (D 0%nat ltac:(lia)) as [D1 D2]. rewrite Nat.add_0_r, Nat.sub_0_r in D1, D2.
    pose proof (put_filled mem u (rnd i t) ltac:(rewrite D1; lia) D2) as PF. rewrite D1 in PF. set (m1 := Pkcs1.put_at mem u (rnd i t)) in *. clearbody m1.
    rewrite (inner_spec (length mem) m1 u t ltac:(lia) ltac:(lia) (proj2 (proj2 (proj2 PF)))). cbv zeta.
    assert (X : ((t + 3 - u) / 2 <= 1)%nat) by (apply Nat.lt_succ_r; apply Nat.div_lt_upper_bound; lia). rewrite Nat.max_l by lia.
    destruct (IH rnd (S i) m1 (u + 1)%nat (t - 1)%nat) as (m2 & E & FL); [lia|lia|pose proof (proj1 PF); lia| |].
    + intros j Hj. pose proof (D (S j) ltac:(lia)) as Q. replace (S i + j)%nat with (i + S j)%nat by lia. replace (t - 1 - j)%nat with (t - S j)%nat by lia. exact Q.
    + exists m2. split; [rewrite E; f_equal; f_equal; lia|]. exact (filled_trans mem m1 m2 u t 1 ltac:(lia) PF FL).
Qed.
(** From the start: 1 + T/2 calls. *)
Lemma outer_spec rnd mem T : (1 <= T)%nat -> (2 + T <= length mem)%nat ->
  (forall j, (j <= T / 2)%nat -> forall n, (n <= T)%nat -> good_draw rnd j n) ->
  exists mem', ps_outer (S (length mem)) rnd 0 mem 2 2 T = Some (mem', (1 + T / 2)%nat) /\ filled mem mem' 2 T.
Proof.
  intros T1 L D. cbn [ps_outer]. destruct (Nat.eqb_spec T 0); [lia|]. destruct (D 0%nat ltac:(lia) T ltac:(lia)) as [D1 D2].
  pose proof (put_filled mem 2 (rnd 0%nat T) ltac:(rewrite D1; lia) D2) as PF. rewrite D1 in PF. set (m1 := Pkcs1.put_at mem 2 (rnd 0%nat T)) in *. clearbody m1.
  rewrite (inner_spec (length mem) m1 2 T ltac:(lia) ltac:(lia) (proj2 (proj2 (proj2 PF)))). cbv zeta. replace (T + 3 - 2)%nat with (T + 1)%nat by lia.
  assert (Q1 : (1 <= (T + 1) / 2)%nat) by (apply Nat.div_le_lower_bound; lia). rewrite Nat.max_r by lia.
  assert (Q2 : (T - (T + 1) / 2 = T / 2)%nat). { pose proof (Nat.div_mod T 2 ltac:(lia)). pose proof (Nat.mod_upper_bound T 2 ltac:(lia)). pose proof (Nat.div_mod (T + 1) 2 ltac:(lia)). pose proof (Nat.mod_upper_bound (T + 1) 2 ltac:(lia)). lia. }
  set (c := ((T + 1) / 2)%nat) in *. assert (C2 : (c <= T)%nat) by (unfold c; apply Nat.lt_succ_r, Nat.div_lt_upper_bound; lia).
  assert (C3 : (T / 2 <= c)%nat) by (unfold c; apply Nat.div_le_mono; lia).
  destruct (outer_tail (length mem) rnd 1 m1 (2 + c)%nat (T - c)%nat) as (m2 & E & FL); [lia|lia|pose proof (proj1 PF); lia| |].
  - intros j Hj. apply D; lia.
  - exists m2. split; [rewrite E; f_equal; f_equal; lia|]. exact (filled_trans mem m1 m2 2 T c C2 PF FL).
Qed.
Section Enc15.
  Variables (hm hg : hash_impl).
  Lemma v15_enc_spec (x : pubctx hm hg) sslen rnd :
    (u_k hm hg x <= length (u_buf x))%nat -> (sslen + 11 <= u_k hm hg x)%nat ->
    (forall j, (j <= (u_k hm hg x - sslen - 3) / 2)%nat -> forall n, (n <= u_k hm hg x)%nat -> good_draw rnd j n) ->
    let ss := rnd (1 + (u_k hm hg x - sslen - 3) / 2)%nat sslen in
    bytes_ok ss -> length ss = sslen ->
    exists em, RSAEncryption_Enc hm hg x sslen rnd = Some (Some (ss, em, enc_finish hm hg x em)) /\ v15_of (u_k hm hg x) ss em.
  Proof.
    intros LB K D ss Bss Lss. unfold RSAEncryption_Enc. cbv zeta. set (k := u_k hm hg x) in *. clearbody k. destruct (Nat.ltb_spec k (sslen + 11)) as [|_]; [lia|].
    set (T := (k - sslen - 3)%nat) in *. set (ptr := upd (T + 2) 0 (upd 1 2 (upd 0 0 (u_buf x)))).
    assert (LP : length ptr = length (u_buf x)) by (unfold ptr; now rewrite !upd_length).
    destruct (outer_spec rnd ptr T ltac:(lia) ltac:(lia) ltac:(intros; apply D; lia)) as (mem & E & (F1 & F2 & F3 & F4)). rewrite E. fold ss.
    exists (firstn k (Pkcs1.put_at mem (k - sslen) ss)). split; [reflexivity|].
    assert (P2 : firstn 2 mem = [0; 2]).
    { rewrite F2. unfold ptr. destruct (u_buf x) as [|b0 [|b1 r]]; cbn [length] in LB; [lia..|]. cbn [upd]. replace (T + 2)%nat with (S (S T)) by lia. reflexivity. }
    assert (PZ : nth_error mem (T + 2) = Some 0).
    { pose proof (f_equal (fun l => nth_error l 0) F3) as Q. cbn beta in Q. rewrite !nth_error_skipn' in Q. rewrite Nat.add_0_r in Q. replace (2 + T)%nat with (T + 2)%nat in Q by lia. rewrite Q.
      unfold ptr. apply nth_error_upd_eq. rewrite !upd_length. lia. }
    set (PS := firstn T (skipn 2 mem)).
    assert (LPS : length PS = T) by (unfold PS; rewrite firstn_length, skipn_length; lia).
    assert (EM : mem = [0; 2] ++ PS ++ [0] ++ skipn (3 + T) mem).
    { rewrite <- (firstn_skipn 2 mem) at 1. rewrite P2. f_equal. rewrite <- (firstn_skipn T (skipn 2 mem)) at 1. fold PS. f_equal.
      rewrite skipn_skipn. destruct (skipn (T + 2) mem) as [|b r] eqn:SE.
      - pose proof (f_equal (fun l => nth_error l 0) SE) as Q. cbn beta in Q. rewrite nth_error_skipn', Nat.add_0_r, PZ in Q. discriminate.
      - pose proof (f_equal (fun l => nth_error l 0) SE) as Q. cbn beta in Q. rewrite nth_error_skipn', Nat.add_0_r, PZ in Q. cbn in Q. injection Q as <-. cbn [app]. f_equal.
        replace (3 + T)%nat with (1 + (T + 2))%nat by lia. rewrite <- skipn_skipn, SE. reflexivity. }
    set (R := skipn (3 + T) mem) in *. assert (LR : (sslen <= length R)%nat) by (unfold R; rewrite skipn_length; lia).
    assert (EE : firstn k (Pkcs1.put_at mem (k - sslen) ss) = [0; 2] ++ PS ++ [0] ++ ss).
    { rewrite EM. rewrite putf by (rewrite !app_length; cbn [length]; lia).
      set (p := [0; 2] ++ PS ++ [0]). replace ([0; 2] ++ PS ++ [0] ++ R) with (p ++ R) by (unfold p; cbn [app]; rewrite <- !app_assoc; reflexivity).
      assert (Lp : length p = (k - sslen)%nat) by (unfold p; rewrite !app_length; cbn [length]; lia).
      rewrite (firstn_app (k - sslen)), Lp, Nat.sub_diag, firstn_O, app_nil_r, (firstn_all2 (n := (k - sslen)%nat) p) by lia.
      rewrite app_assoc. replace k with (length (p ++ ss)) at 1 by (rewrite app_length; lia). rewrite firstn_app, Nat.sub_diag, firstn_O, app_nil_r, firstn_all.
      unfold p. cbn [app]. rewrite <- !app_assoc. reflexivity. }
    rewrite EE. split; [exact Bss|]. exists PS.
    assert (NZ : Forall nz PS).
    { apply Forall_forall. intros b Hb. apply In_nth_error in Hb. destruct Hb as (i & Hi). assert (Li : (i < T)%nat) by (rewrite <- LPS; apply nth_error_Some; congruence).
      destruct (F4 (2 + i)%nat ltac:(lia)) as (b' & E' & N'). rewrite EM in E'. rewrite nth_error_app2 in E' by (cbn; lia). cbn [length] in E'. replace (2 + i - 2)%nat with i in E' by lia.
      rewrite nth_error_app1 in E' by lia. congruence. }
    split; [lia|]. split; [eapply Forall_impl; [|exact NZ]; intros b Hb; exact (proj1 Hb)|]. split; [eapply Forall_impl; [|exact NZ]; intros b Hb; exact (proj2 Hb)|].
    split; [reflexivity|]. rewrite !app_length. cbn [length]. lia.
  Qed.
End Enc15.
