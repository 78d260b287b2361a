(** Properties C16 (sponge hashes and XOFs) and C19 (cSHAKE/KMAC). *)
From Verif Require Import Base Hash HashSpec Blocks HashLemmas MdLemmas Sponge SpongeSpec KeccakLemmas SpongeLemmas KmacLemmas.

(** Successive Read calls for the given numbers of octets. *)
Fixpoint reads (p : list Z -> list Z) (s : sponge) (ks : list nat) : sponge * list (list Z) :=
  match ks with
  | [] => (s, [])
  | k :: ks => let '(s1, o) := Sponge_Read p s k in let '(s2, os) := reads p s1 ks in (s2, o :: os)
  end.
(** An XOF session after all Write calls: each element of [groups] is one call of
    Final followed by Read calls of the listed sizes. *)
Fixpoint xof_out (p : list Z -> list Z) (s : sponge) (groups : list (list nat)) : list (list (list Z)) :=
  match groups with
  | [] => []
  | ks :: gs => let '(s1, os) := reads p (XOF_Final p s) ks in os :: xof_out p s1 gs
  end.
(** The consecutive pieces of an octet stream of the given sizes, from position [off]. *)
Fixpoint slices (f : nat -> Z) (off : nat) (ks : list nat) : list (list Z) :=
  match ks with [] => [] | k :: ks => map f (seq off k) :: slices f (off + k) ks end.

Lemma reads_spos p rate lo hi S sv ks : (0 < rate)%nat -> forall i,
  reads p (spos p rate lo hi S i sv) ks = (spos p rate lo hi S (i + list_sum ks) sv, slices (squeeze_octet p rate S) i ks).
Proof.
  intros Hr. induction ks as [|k ks IH]; intros i; cbn [reads slices list_sum fold_right].
  - now rewrite Nat.add_0_r.
  - rewrite read_spos by auto. rewrite IH. now rewrite Nat.add_assoc.
Qed.
Lemma xof_again p rate lo hi S gs : (0 < rate)%nat -> forall i,
  xof_out p (spos p rate lo hi S i S) gs = map (slices (squeeze_octet p rate S) 0) gs.
Proof.
  intros Hr. induction gs as [|ks gs IH]; intros i; cbn [xof_out map]; [reflexivity|].
  rewrite xof_final_again, reads_spos by auto. now rewrite IH.
Qed.

(** C16: for any permutation p on b-octet states, any rate and padding octets, any cutting
    of the input and any sequence of Final/Read calls. *)
Theorem C16_any_sponge : forall (p : list Z -> list Z) (b rate : nat) (lo hi : Z) (chunks : list (list Z)) (groups : list (list nat)),
  (forall S, length S = b -> length (p S) = b) -> (0 < rate <= b)%nat ->
  xof_out p (fold_left (Sponge_Update p) chunks (SPONGE_INIT b rate lo hi)) groups
  = map (slices (sponge_stream p b rate lo hi (concat chunks)) 0) groups.
Proof.
  intros p b rate lo hi chunks groups Hp Hr.
  assert (H : srep p b rate lo hi (concat chunks) (fold_left (Sponge_Update p) chunks (SPONGE_INIT b rate lo hi))).
  { apply (updates_srep p b rate lo hi Hp Hr chunks []), init_srep. lia. }
  destruct groups as [|ks gs]; cbn [xof_out map]; [reflexivity|].
  rewrite (xof_final_first p b rate lo hi Hp Hr _ _ H), reads_spos by lia.
  rewrite xof_again by lia. reflexivity.
Qed.
Print Assumptions C16_any_sponge.

Lemma slices_ext f g : (forall i, f i = g i) -> forall ks off, slices f off ks = slices g off ks.
Proof. intros H. induction ks as [|k ks IH]; intros off; cbn [slices]; [auto|]. f_equal; [now apply map_ext|auto]. Qed.

(** SHAKE128 (sec = 16), SHAKE256 (sec = 32): the output is the FIPS 202 stream. *)
Theorem C16_shake : forall (sec : nat) (chunks : list (list Z)) (groups : list (list nat)),
  (sec = 16 \/ sec = 32)%nat -> Forall bytes_ok chunks ->
  xof_out KeccakF1600_Permute (fold_left SHAKE_Write chunks (SHAKE_Init sec)) groups
  = map (slices (sponge_stream (keccak_p 24) 200 (200 - 2 * sec) 0x1f 0x80 (concat chunks)) 0) groups.
Proof.
  intros sec chunks groups Hs HC. unfold SHAKE_Write, SHAKE_Init. rewrite (Nat.mul_comm sec 2).
  rewrite C16_any_sponge; [|intros; apply KeccakF_length|lia].
  apply map_ext. intros ks. apply slices_ext. intros i.
  apply stream_ext; [apply keccakF_ext|lia|unfold byte_ok; lia|unfold byte_ok; lia|apply Forall_concat, HC].
Qed.
Print Assumptions C16_shake.

(** ... hence one Final and one Read of d octets is SHAKE(M, 8d) of FIPS 202. *)
Theorem C16_shake_fips202 : forall (sec : nat) (chunks : list (list Z)) (d : nat),
  (sec = 16 \/ sec = 32)%nat -> Forall bytes_ok chunks ->
  snd (SHAKE_Read (SHAKE_Final (fold_left SHAKE_Write chunks (SHAKE_Init sec))) d) = fips_shake sec (concat chunks) d.
Proof.
  intros sec chunks d Hs HC. pose proof (C16_shake sec chunks [[d]] Hs HC) as E.
  cbn [xof_out reads map slices] in E. unfold SHAKE_Read, SHAKE_Final.
  destruct (Sponge_Read _ _ d) as [s o]. cbn [snd]. now injection E.
Qed.
Print Assumptions C16_shake_fips202.

(** The Gimli XOF is the sponge over the Gimli permutation with rate 16. *)
Theorem C16_gimli_xof : forall (chunks : list (list Z)) (groups : list (list nat)),
  xof_out Gimli_Permute (fold_left Gimli_XOF_Write chunks Gimli_XOF_Init) groups
  = map (slices (sponge_stream Gimli_Permute 48 16 0x1f 0x80 (concat chunks)) 0) groups.
Proof. intros. apply C16_any_sponge; [intros; apply Gimli_Permute_length|lia]. Qed.
Print Assumptions C16_gimli_xof.

(** SHA3-224/256/384/512: any cutting, any number of Final calls with any output lengths. *)
Fixpoint sha3_finals (x : sponge) (ts : list nat) : list (list Z) :=
  match ts with [] => [] | t :: ts => let '(x, o) := SHA3_Final x t in o :: sha3_finals x ts end.

Lemma sha3_final_step (h t i : nat) (x : sponge) S : (0 < 200 - h * 2)%nat -> (h <= 64)%nat ->
  (if sp_finalized x then x else Sponge_Save (Sponge_Final KeccakF1600_Permute x))
    = spos KeccakF1600_Permute (200 - h * 2) 0x06 0x80 S i S -> sp_rate x = (200 - h * 2)%nat ->
  exists i', SHA3_Final x t = (spos KeccakF1600_Permute (200 - h * 2) 0x06 0x80 S i' S,
     firstn t (map (squeeze_octet KeccakF1600_Permute (200 - h * 2) S) (seq 0 h) ++ repeat 0 t)).
Proof.
  intros Hr Hh E R. exists (if (t <? h)%nat then t else h). unfold SHA3_Final. rewrite R.
  replace ((200 - (200 - h * 2)) / 2)%nat with h by (replace (200 - (200 - h * 2))%nat with (h * 2)%nat by lia; now rewrite Nat.div_mul).
  rewrite E. change (Sponge_Restore (spos KeccakF1600_Permute (200 - h * 2) 6 128 S i S))
    with (Sp (200 - h * 2) 6 128 true 0 S S).
  replace (Sp (200 - h * 2) 6 128 true 0 S S) with (spos KeccakF1600_Permute (200 - h * 2) 0x06 0x80 S 0 S)
    by (unfold spos; now rewrite Nat.mod_0_l, Nat.div_0_l by lia).
  rewrite read_spos by lia. rewrite Nat.add_0_l. f_equal.
  rewrite firstn_app, map_length, seq_length.
  destruct (Nat.ltb_spec t h).
  - replace (t - h)%nat with 0%nat by lia. cbn [repeat firstn]. rewrite !app_nil_r.
    rewrite firstn_map. f_equal. replace h with (t + (h - t))%nat by lia. rewrite seq_app.
    symmetry. apply firstn_app_exact, seq_length.
  - rewrite (firstn_all2 (map _ _)) by (rewrite map_length, seq_length; lia). f_equal.
    replace (repeat 0 t) with (repeat 0 (t - h) ++ repeat 0 h) by (rewrite <- repeat_app; f_equal; lia).
    symmetry. apply firstn_app_exact, repeat_length.
Qed.

Theorem C16_sha3 : forall (h : nat) (chunks : list (list Z)) (ts : list nat),
  (h = 28 \/ h = 32 \/ h = 48 \/ h = 64)%nat -> Forall bytes_ok chunks ->
  sha3_finals (fold_left SHA3_Update chunks (SHA3_Init h)) ts
  = map (fun t => firstn t (fips_sha3 h (concat chunks) ++ repeat 0 t)) ts.
Proof.
  intros h chunks ts Hh HC. set (m := concat chunks).
  set (p := KeccakF1600_Permute). set (rate := (200 - h * 2)%nat).
  assert (Hr : (0 < rate <= 200)%nat) by (unfold rate; lia).
  assert (KL : forall S, length S = 200%nat -> length (p S) = 200%nat) by (intros; apply KeccakF_length).
  assert (H : srep p 200 rate 6 128 m (fold_left SHA3_Update chunks (SHA3_Init h))).
  { apply (updates_srep p 200 rate 6 128 KL Hr chunks []), init_srep. lia. }
  set (S := S0 p 200 rate 6 128 m).
  assert (D : map (squeeze_octet p rate S) (seq 0 h) = fips_sha3 h m).
  { unfold fips_sha3, sponge_hash. rewrite (Nat.mul_comm 2 h). apply map_ext. intros i.
    change (squeeze_octet p rate S i) with (sponge_stream p 200 rate 6 128 m i).
    apply stream_ext; [apply keccakF_ext|lia|unfold byte_ok; lia|unfold byte_ok; lia|apply Forall_concat, HC]. }
  assert (G : forall ts i, sha3_finals (spos p rate 6 128 S i S) ts = map (fun t => firstn t (fips_sha3 h m ++ repeat 0 t)) ts).
  { induction ts0 as [|t ts0 IH]; intros i; cbn [sha3_finals map]; [reflexivity|].
    destruct (sha3_final_step h t i (spos p rate 6 128 S i S) S) as (i' & E); [lia|lia|reflexivity|reflexivity|].
    rewrite E. f_equal; [|apply IH]. fold p rate. now rewrite D. }
  destruct ts as [|t ts]; cbn [sha3_finals map]; [reflexivity|].
  destruct (sha3_final_step h t 0 (fold_left SHA3_Update chunks (SHA3_Init h)) S) as (i' & E); [lia|lia| |apply H|].
  - rewrite (sr_fin _ _ _ _ _ _ _ H). pose proof (final_state p 200 rate 6 128 KL Hr m _ H) as F.
    unfold p in F at 1. rewrite F. unfold Sponge_Save, spos. cbn [sp_rate sp_lopad sp_hipad sp_finalized sp_filled sp_state sp_saved].
    now rewrite Nat.mod_0_l, Nat.div_0_l by lia.
  - rewrite E. f_equal; [|apply G]. fold p rate. now rewrite D.
Qed.
Print Assumptions C16_sha3.

(** The permutation model itself is Keccak-p[1600,nr] of FIPS 202, for every number of rounds. *)
Theorem C16_keccak_p : forall (nr : nat) (s : list Z), (nr <= 24)%nat -> bytes_ok s ->
  KeccakP1600_Permute nr s = keccak_p nr s.
Proof. exact KeccakP_eq. Qed.
Print Assumptions C16_keccak_p.

(** Non-vacuity: 'abc' in two pieces; SHA3-256 test vector prefix. *)
Example C16_example :
  firstn 4 (snd (SHA3_Final (fold_left SHA3_Update [[97]; [98; 99]] (SHA3_Init 32)) 32)) = [0x3a; 0x98; 0x5d; 0xa7].
Proof. vm_compute. reflexivity. Qed.

(* ------------------------------------------------------------------ C19 *)

(** Inputs: octet strings whose bit length fits the 64-bit length encoding. *)
Definition input (s : list Z) : Prop := bytes_ok s /\ 8 * Z.of_nat (length s) < 2 ^ 64.

(** The code's bytepad is wrong exactly when the string to pad already fills whole blocks. *)
Definition not_aligned (rate : nat) (prefix : list Z) : Prop := (length prefix mod rate <> 0)%nat.

Lemma kmac_stream sec K S chunks (v : Z) i : (sec = 16 \/ sec = 32)%nat -> input K -> input S ->
  let rate := (200 - 2 * sec)%nat in
  not_aligned rate (cshake_prefix rate kmac_name S) -> not_aligned rate (kmac_prefix rate K) ->
  Forall bytes_ok chunks -> 0 <= v < 2 ^ 64 ->
  let m := (bytepad (encode_string kmac_name ++ encode_string S) rate ++
            bytepad (encode_string K) rate ++ concat chunks ++ right_encode v) in
  exists x sv, KMAC_begin (fold_left KMAC_Update chunks (KMAC_VInit K S rate)) = x /\
    Sponge_Final KeccakF1600_Permute (cshake_right_encode x v) = spos KeccakF1600_Permute rate 0x04 0x80 (S0 KeccakF1600_Permute 200 rate 4 128 m) 0 sv /\
    squeeze_octet KeccakF1600_Permute rate (S0 KeccakF1600_Permute 200 rate 4 128 m) i
    = sponge_stream (keccak_p 24) 200 rate 4 128 m i.
Proof.
  intros Hs HK HS rate A1 A2 HC Hv m.
  set (p := KeccakF1600_Permute).
  assert (Hr : (0 < rate <= 200)%nat) by (unfold rate; lia).
  assert (KL : forall S, length S = 200%nat -> length (p S) = 200%nat) by (intros; apply KeccakF_length).
  pose proof (kmac_rep rate K S ltac:(lia) HK HS A1 A2) as R0.
  pose proof (updates_srep p 200 rate 4 128 KL Hr chunks _ _ R0) as R1.
  change (fold_left (Sponge_Update p) chunks (KMAC_VInit K S rate)) with (fold_left KMAC_Update chunks (KMAC_VInit K S rate)) in R1.
  set (x := fold_left KMAC_Update chunks (KMAC_VInit K S rate)) in *.
  assert (B : KMAC_begin x = Sponge_Save x) by (unfold KMAC_begin; now rewrite (sr_fin _ _ _ _ _ _ _ R1)).
  assert (R2 : srep p 200 rate 4 128 ((bytepad (encode_string kmac_name ++ encode_string S) rate ++ bytepad (encode_string K) rate) ++ concat chunks) (KMAC_begin x)).
  { rewrite B. destruct R1. constructor; auto. }
  pose proof (right_rep rate 4 128 Hr _ _ v Hv R2) as R3.
  rewrite <- !app_assoc in R3. fold m in R3.
  exists (KMAC_begin x), (sp_saved (cshake_right_encode (KMAC_begin x) v)). split; [reflexivity|]. split.
  - pose proof (final_state p 200 rate 4 128 KL Hr m _ R3) as F. fold p. rewrite F.
    unfold spos. now rewrite Nat.mod_0_l, Nat.div_0_l by lia.
  - change (squeeze_octet p rate (S0 p 200 rate 4 128 m) i) with (sponge_stream p 200 rate 4 128 m i).
    apply stream_ext; [apply keccakF_ext|lia|unfold byte_ok; lia|unfold byte_ok; lia|].
    unfold m. apply Forall_app; split; [|apply Forall_app; split; [|apply Forall_app; split]].
    + apply bytepad_ok; [apply Forall_app; split; apply encode_string_ok|unfold rate; lia]; [|exact HS].
      split; [repeat constructor; unfold byte_ok; lia|reflexivity].
    + apply bytepad_ok; [apply encode_string_ok, HK|unfold rate; lia].
    + apply Forall_concat, HC.
    + now apply right_encode_ok.
Qed.

(** C19, first tag: for every key, customisation string and cutting of the message, provided
    neither encoded prefix is an exact multiple of the rate. *)
Theorem C19_kmac_partial : forall (sec : nat) (K S : list Z) (chunks : list (list Z)) (t : nat),
  let rate := (200 - 2 * sec)%nat in
  (sec = 16 \/ sec = 32)%nat -> input K -> input S -> Forall bytes_ok chunks -> 8 * Z.of_nat t < 2 ^ 64 ->
  not_aligned rate (left_encode (Z.of_nat rate) ++ encode_string kmac_name ++ encode_string S) ->
  not_aligned rate (left_encode (Z.of_nat rate) ++ encode_string K) ->
  snd (KMAC_Final (fold_left KMAC_Update chunks (KMAC_VInit K S rate)) t) = nist_kmac sec K (concat chunks) S t.
Proof.
  intros sec K S chunks t rate Hs HK HS HC Ht A1 A2.
  destruct (kmac_stream sec K S chunks (8 * Z.of_nat t) 0 Hs HK HS A1 A2 HC ltac:(lia)) as (x & sv & B & F & _).
  unfold KMAC_Final. fold rate in B, F. rewrite B. unfold u64. rewrite (Z.mul_comm (Z.of_nat t)), Z.mod_small by lia.
  cbv zeta. rewrite F. rewrite read_spos by (unfold rate; lia). cbn [snd].
  unfold nist_kmac, nist_cshake, sponge_hash. fold rate. apply map_ext. intros i.
  destruct (kmac_stream sec K S chunks (8 * Z.of_nat t) i Hs HK HS A1 A2 HC ltac:(lia)) as (_ & _ & _ & _ & E).
  exact E.
Qed.
Print Assumptions C19_kmac_partial.

(** KMACXOF, squeezed in any pieces. *)
Theorem C19_kmacxof_partial : forall (sec : nat) (K S : list Z) (chunks : list (list Z)) (ks : list nat),
  let rate := (200 - 2 * sec)%nat in
  (sec = 16 \/ sec = 32)%nat -> input K -> input S -> Forall bytes_ok chunks ->
  not_aligned rate (left_encode (Z.of_nat rate) ++ encode_string kmac_name ++ encode_string S) ->
  not_aligned rate (left_encode (Z.of_nat rate) ++ encode_string K) ->
  concat (snd (reads KeccakF1600_Permute (KMAC_XofFinal (fold_left KMAC_Update chunks (KMAC_VInit K S rate))) ks))
  = nist_kmacxof sec K (concat chunks) S (list_sum ks).
Proof.
  intros sec K S chunks ks rate Hs HK HS HC A1 A2.
  destruct (kmac_stream sec K S chunks 0 0 Hs HK HS A1 A2 HC ltac:(lia)) as (x & sv & B & F & _).
  unfold KMAC_XofFinal. fold rate in B, F. rewrite B. cbv zeta. rewrite F.
  rewrite reads_spos by (unfold rate; lia). cbn [snd].
  unfold nist_kmacxof, nist_cshake, sponge_hash. fold rate.
  transitivity (map (squeeze_octet KeccakF1600_Permute rate (S0 KeccakF1600_Permute 200 rate 4 128
     (bytepad (encode_string kmac_name ++ encode_string S) rate ++ bytepad (encode_string K) rate ++ concat chunks ++ right_encode 0)))
     (seq 0 (list_sum ks))).
  - generalize (squeeze_octet KeccakF1600_Permute rate (S0 KeccakF1600_Permute 200 rate 4 128
     (bytepad (encode_string kmac_name ++ encode_string S) rate ++ bytepad (encode_string K) rate ++ concat chunks ++ right_encode 0))).
    intros f. generalize 0%nat. induction ks as [|k ks IH]; intros o; cbn [slices concat list_sum fold_right]; [reflexivity|].
    rewrite IH, <- map_app, <- seq_app. reflexivity.
  - apply map_ext. intros i.
    destruct (kmac_stream sec K S chunks 0 i Hs HK HS A1 A2 HC ltac:(lia)) as (_ & _ & _ & _ & E). exact E.
Qed.
Print Assumptions C19_kmacxof_partial.

(** The customised XOF (cSHAKE), same proviso. *)
Theorem C19_cshake_partial : forall (sec : nat) (N S : list Z) (chunks : list (list Z)) (groups : list (list nat)),
  let rate := (200 - 2 * sec)%nat in
  (sec = 16 \/ sec = 32)%nat -> input N -> input S -> Forall bytes_ok chunks -> N ++ S <> [] ->
  not_aligned rate (left_encode (Z.of_nat rate) ++ encode_string N ++ encode_string S) ->
  xof_out KeccakF1600_Permute (fold_left SHAKE_Write chunks (cSHAKE_customize (SHAKE_Init sec) N S)) groups
  = map (slices (sponge_stream (keccak_p 24) 200 rate 0x04 0x80
          (bytepad (encode_string N ++ encode_string S) rate ++ concat chunks)) 0) groups.
Proof.
  intros sec N S chunks groups rate Hs HN HS HC NE A1.
  assert (Hr : (0 < rate <= 200)%nat) by (unfold rate; lia).
  set (p := KeccakF1600_Permute).
  assert (KL : forall S, length S = 200%nat -> length (p S) = 200%nat) by (intros; apply KeccakF_length).
  assert (SR : sp_rate (SHAKE_Init sec) = rate) by (unfold SHAKE_Init, SPONGE_INIT, rate; cbn [sp_rate]; lia).
  pose proof (cshake_rep rate (SHAKE_Init sec) N S ltac:(lia) SR HN HS NE A1) as R0.
  pose proof (updates_srep p 200 rate 4 128 KL Hr chunks _ _ R0) as H.
  destruct groups as [|ks gs]; cbn [xof_out map]; [reflexivity|].
  change (fold_left SHAKE_Write chunks) with (fold_left (Sponge_Update p) chunks).
  rewrite (xof_final_first p 200 rate 4 128 KL Hr _ _ H), reads_spos by lia.
  rewrite xof_again by lia.
  assert (E : forall i, squeeze_octet p rate (S0 p 200 rate 4 128 (bytepad (encode_string N ++ encode_string S) rate ++ concat chunks)) i
     = sponge_stream (keccak_p 24) 200 rate 4 128 (bytepad (encode_string N ++ encode_string S) rate ++ concat chunks) i).
  { intros i. apply stream_ext; [apply keccakF_ext|lia|unfold byte_ok; lia|unfold byte_ok; lia|].
    apply Forall_app; split; [|apply Forall_concat, HC].
    apply bytepad_ok; [apply Forall_app; split; now apply encode_string_ok|unfold rate; lia]. }
  apply f_equal2; [now apply slices_ext|]. apply map_ext. intros k. now apply slices_ext.
Qed.
Print Assumptions C19_cshake_partial.

(** Non-vacuity: an ordinary 32-octet key and empty customisation meet the provisos. *)
Example C19_provisos : not_aligned 168 (left_encode 168 ++ encode_string kmac_name ++ encode_string []) /\
  not_aligned 168 (left_encode 168 ++ encode_string (repeat 7 32)).
Proof. split; vm_compute; discriminate. Qed.

(** The full claim is false: with a 163-octet key, 2 + 3 + 163 = 168 octets fill exactly one
    block and the code absorbs an additional block of zeros. *)
Theorem C19_aligned_key_refuted :
  ~ (forall (K S m : list Z) (t : nat), input K -> input S -> bytes_ok m -> 8 * Z.of_nat t < 2 ^ 64 ->
     snd (KMAC_Final (KMAC_Update (KMAC_VInit K S 168) m) t) = nist_kmac 16 K m S t).
Proof.
  intros H. specialize (H (repeat 0 163) [] [] 1%nat).
  assert (E : snd (KMAC_Final (KMAC_Update (KMAC_VInit (repeat 0 163) [] 168) []) 1)
              = nist_kmac 16 (repeat 0 163) [] [] 1).
  { apply H; [split; [apply repeat0_bytes|reflexivity]|split; [constructor|reflexivity]|constructor|reflexivity]. }
  apply (f_equal (fun l => hd 0 l =? 160)) in E. revert E.
  replace (hd 0 (snd _) =? 160) with true by (vm_compute; reflexivity).
  replace (hd 0 (nist_kmac _ _ _ _ _) =? 160) with false; [discriminate|].
  vm_compute; reflexivity.
Qed.
Print Assumptions C19_aligned_key_refuted.

(** Final is not repeatable: the second call does not permute at all. *)
Theorem C19_final_again_refuted :
  ~ (forall (K m : list Z) (t : nat), input K -> bytes_ok m ->
     let '(x, tag) := KMAC_Final (KMAC_Update (KMAC_VInit K [] 168) m) t in
     snd (KMAC_Final x t) = tag).
Proof.
  intros H. specialize (H [1] [] 2%nat ltac:(split; [repeat constructor; unfold byte_ok; lia|reflexivity]) ltac:(constructor)).
  enough (E : (let '(x, tag) := KMAC_Final (KMAC_Update (KMAC_VInit [1] [] 168) []) 2 in
     hd 0 (snd (KMAC_Final x 2)) =? hd 0 tag) = false).
  { destruct (KMAC_Final (KMAC_Update (KMAC_VInit [1] [] 168) []) 2) as [x tag]. rewrite H, Z.eqb_refl in E. discriminate. }
  vm_compute; reflexivity.
Qed.
Print Assumptions C19_final_again_refuted.
