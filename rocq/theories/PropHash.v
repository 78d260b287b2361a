(** Properties C14, C15: Merkle-Damgard hashes (src/2-hash/sha.c, sm3.c).
    [fips_*]/[gbt_sm3] (HashSpec.v) are the standards' definitions: padding,
    message schedule, rounds, iteration, truncation. *)
From Verif Require Import Base Hash HashSpec Blocks HashLemmas MdLemmas.

(** A session: Init on a context with arbitrary leftover buffer contents, any
    number of Update calls, then Final asking for t octets. *)
Definition session (a : md_alg) (junk : list Z) (chunks : list (list Z)) (t : nat) : list Z :=
  snd (md_final a (fold_left (md_update a) chunks (md_init a junk)) t).
(** t octets of a digest, zero-extended. *)
Definition octets (t : nat) (d : list Z) : list Z := firstn t (d ++ repeat 0 t).

(** C14: the round-constant tables and initial values are the ones of the standard. *)
Definition cbrt_check (w p k : Z) : bool :=
  existsb (fun i => (0 <=? k) && (k <? 2 ^ w) && ((i * 2 ^ w + k) ^ 3 <=? p * 2 ^ (3 * w)) &&
                    (p * 2 ^ (3 * w) <? (i * 2 ^ w + k + 1) ^ 3)) [1; 2; 3; 4; 5; 6; 7].
Lemma cbrt_check_ok w p k : cbrt_check w p k = true -> is_cbrt_frac w p k.
Proof.
  unfold cbrt_check. rewrite existsb_exists. intros (i & Hi & H). exists i.
  rewrite !Bool.andb_true_iff, Z.leb_le, Z.ltb_lt, Z.leb_le, Z.ltb_lt in H.
  cbn [In] in Hi. repeat split; lia.
Qed.
Lemma forall2_check (f : Z -> Z -> bool) (P : Z -> Z -> Prop) : (forall x y, f x y = true -> P x y) ->
  forall l l', length l = length l' -> forallb (fun q => f (fst q) (snd q)) (combine l l') = true -> Forall2 P l l'.
Proof.
  intros HP. induction l as [|x l IH]; intros [|y l'] HL HB; cbn in *; try discriminate; constructor.
  - apply HP. now apply andb_prop in HB.
  - apply IH; [lia|]. now apply andb_prop in HB.
Qed.
Theorem C14_round_constants :
  Forall2 (is_cbrt_frac 32) (firstn 64 primes80) K_sha256 /\ Forall2 (is_cbrt_frac 64) primes80 K_sha512.
Proof.
  split; [apply (forall2_check (cbrt_check 32))|apply (forall2_check (cbrt_check 64))];
    [apply cbrt_check_ok|reflexivity|vm_compute; reflexivity|apply cbrt_check_ok|reflexivity|vm_compute; reflexivity].
Qed.
Print Assumptions C14_round_constants.

Theorem C14_sha1 : forall (junk : list Z) (chunks : list (list Z)) (t : nat),
  length junk = 64%nat -> Forall bytes_ok chunks -> 8 * Z.of_nat (length (concat chunks)) < 2 ^ 64 ->
  session alg_sha1 junk chunks t = octets t (fips_sha1 (concat chunks)).
Proof.
  intros junk chunks t HJ HC HL. unfold session, octets.
  rewrite (md_lifecycle alg_sha1 32 5 chunks junk t good_sha1 HJ HC HL).
  rewrite (md_hash_ext alg_sha1 32 5 sha1_compress _ good_sha1); [reflexivity| |].
  - intros H blk HH Hb. now apply sha1_compress_eq.
  - apply Forall_concat, HC.
Qed.
Print Assumptions C14_sha1.

Theorem C14_sha224 : forall (junk : list Z) (chunks : list (list Z)) (t : nat),
  length junk = 64%nat -> Forall bytes_ok chunks -> 8 * Z.of_nat (length (concat chunks)) < 2 ^ 64 ->
  session alg_sha224 junk chunks t = octets t (fips_sha224 K_sha256 (concat chunks)).
Proof.
  intros junk chunks t HJ HC HL. unfold session, octets.
  rewrite (md_lifecycle alg_sha224 32 8 chunks junk t good_sha224 HJ HC HL).
  rewrite (md_hash_ext alg_sha224 32 8 (sha256_compress K_sha256) _ good_sha224).
  - unfold fips_sha224. change (map _ (firstn 8 (skipn 8 primes80))) with (md_iv alg_sha224). reflexivity.
  - intros H blk HH Hb. now apply sha256_compress_eq.
  - apply Forall_concat, HC.
Qed.
Print Assumptions C14_sha224.

Theorem C14_sha256 : forall (junk : list Z) (chunks : list (list Z)) (t : nat),
  length junk = 64%nat -> Forall bytes_ok chunks -> 8 * Z.of_nat (length (concat chunks)) < 2 ^ 64 ->
  session alg_sha256 junk chunks t = octets t (fips_sha256 K_sha256 (concat chunks)).
Proof.
  intros junk chunks t HJ HC HL. unfold session, octets.
  rewrite (md_lifecycle alg_sha256 32 8 chunks junk t good_sha256 HJ HC HL).
  rewrite (md_hash_ext alg_sha256 32 8 (sha256_compress K_sha256) _ good_sha256).
  - unfold fips_sha256. change (map _ (firstn 8 primes80)) with (md_iv alg_sha256). reflexivity.
  - intros H blk HH Hb. now apply sha256_compress_eq.
  - apply Forall_concat, HC.
Qed.
Print Assumptions C14_sha256.

Theorem C14_sha384 : forall (junk : list Z) (chunks : list (list Z)) (t : nat),
  length junk = 128%nat -> Forall bytes_ok chunks -> 8 * Z.of_nat (length (concat chunks)) < 2 ^ 64 ->
  session alg_sha384 junk chunks t = octets t (fips_sha384 K_sha512 (concat chunks)).
Proof.
  intros junk chunks t HJ HC HL. unfold session, octets.
  rewrite (md_lifecycle alg_sha384 64 8 chunks junk t good_sha384 HJ HC HL).
  rewrite (md_hash_ext alg_sha384 64 8 (sha512_compress K_sha512) _ good_sha384).
  - unfold fips_sha384. change (map _ (firstn 8 (skipn 8 primes80))) with (md_iv alg_sha384). reflexivity.
  - intros H blk HH Hb. now apply sha512_compress_eq.
  - apply Forall_concat, HC.
Qed.
Print Assumptions C14_sha384.

Theorem C14_sha512 : forall (junk : list Z) (chunks : list (list Z)) (t : nat),
  length junk = 128%nat -> Forall bytes_ok chunks -> 8 * Z.of_nat (length (concat chunks)) < 2 ^ 64 ->
  session alg_sha512 junk chunks t = octets t (fips_sha512 K_sha512 (concat chunks)).
Proof.
  intros junk chunks t HJ HC HL. unfold session, octets.
  rewrite (md_lifecycle alg_sha512 64 8 chunks junk t good_sha512 HJ HC HL).
  rewrite (md_hash_ext alg_sha512 64 8 (sha512_compress K_sha512) _ good_sha512).
  - unfold fips_sha512. change (map _ (firstn 8 primes80)) with (md_iv alg_sha512). reflexivity.
  - intros H blk HH Hb. now apply sha512_compress_eq.
  - apply Forall_concat, HC.
Qed.
Print Assumptions C14_sha512.

Lemma iv_512_224 : sha512t_iv K_sha512 [83; 72; 65; 45; 53; 49; 50; 47; 50; 50; 52] = md_iv alg_sha512t224.
Proof. vm_compute. reflexivity. Qed.
Lemma iv_512_256 : sha512t_iv K_sha512 [83; 72; 65; 45; 53; 49; 50; 47; 50; 53; 54] = md_iv alg_sha512t256.
Proof. vm_compute. reflexivity. Qed.

Theorem C14_sha512t224 : forall (junk : list Z) (chunks : list (list Z)) (t : nat),
  length junk = 128%nat -> Forall bytes_ok chunks -> 8 * Z.of_nat (length (concat chunks)) < 2 ^ 64 ->
  session alg_sha512t224 junk chunks t = octets t (fips_sha512_224 K_sha512 (concat chunks)).
Proof.
  intros junk chunks t HJ HC HL. unfold session, octets.
  rewrite (md_lifecycle alg_sha512t224 64 8 chunks junk t good_sha512t224 HJ HC HL).
  rewrite (md_hash_ext alg_sha512t224 64 8 (sha512_compress K_sha512) _ good_sha512t224).
  - unfold fips_sha512_224. rewrite iv_512_224. reflexivity.
  - intros H blk HH Hb. now apply sha512_compress_eq.
  - apply Forall_concat, HC.
Qed.
Print Assumptions C14_sha512t224.

Theorem C14_sha512t256 : forall (junk : list Z) (chunks : list (list Z)) (t : nat),
  length junk = 128%nat -> Forall bytes_ok chunks -> 8 * Z.of_nat (length (concat chunks)) < 2 ^ 64 ->
  session alg_sha512t256 junk chunks t = octets t (fips_sha512_256 K_sha512 (concat chunks)).
Proof.
  intros junk chunks t HJ HC HL. unfold session, octets.
  rewrite (md_lifecycle alg_sha512t256 64 8 chunks junk t good_sha512t256 HJ HC HL).
  rewrite (md_hash_ext alg_sha512t256 64 8 (sha512_compress K_sha512) _ good_sha512t256).
  - unfold fips_sha512_256. rewrite iv_512_256. reflexivity.
  - intros H blk HH Hb. now apply sha512_compress_eq.
  - apply Forall_concat, HC.
Qed.
Print Assumptions C14_sha512t256.

Theorem C14_sm3 : forall (junk : list Z) (chunks : list (list Z)) (t : nat),
  length junk = 64%nat -> Forall bytes_ok chunks -> 8 * Z.of_nat (length (concat chunks)) < 2 ^ 64 ->
  session alg_sm3 junk chunks t = octets t (gbt_sm3 (concat chunks)).
Proof.
  intros junk chunks t HJ HC HL. unfold session, octets.
  rewrite (md_lifecycle alg_sm3 32 8 chunks junk t good_sm3 HJ HC HL).
  rewrite (md_hash_ext alg_sm3 32 8 sm3_compress _ good_sm3); [reflexivity| |].
  - intros H blk HH Hb. now apply sm3_compress_eq.
  - apply Forall_concat, HC.
Qed.
Print Assumptions C14_sm3.

(** Known-answer sanity of the specification itself (one block of "abc"). *)
Example C14_spec_sane :
  be_val (fips_sha256 K_sha256 [97; 98; 99]) = 0xba7816bf8f01cfea414140de5dae2223b00361a396177a9cb410ff61f20015ad /\
  be_val (gbt_sm3 [97; 98; 99]) = 0x66c7f0f462eeedd9d1f2d46bdc10e4e24167c4875cf2f7a2297da02b8f4ba8e0 /\
  be_val (fips_sha1 [97; 98; 99]) = 0xa9993e364706816aba3e25717850c26c9cd0d89d.
Proof. vm_compute. auto. Qed.
Example C14_nonvacuous :
  length (repeat 7 64) = 64%nat /\ Forall bytes_ok [[97]; []; [98; 99]] /\
  be_val (session alg_sha256 (repeat 7 64) [[97]; []; [98; 99]] 32) =
    0xba7816bf8f01cfea414140de5dae2223b00361a396177a9cb410ff61f20015ad.
Proof. split; [reflexivity|]. split; [repeat constructor; unfold byte_ok; lia|vm_compute; reflexivity]. Qed.

(** C15: for every algorithm and every context whatsoever, a further Final call
    leaves the context alone and answers as the first would have; so by
    induction does any sequence of them. *)
Fixpoint finals (a : md_alg) (x : md_ctx) (ts : list nat) : md_ctx * list (list Z) :=
  match ts with
  | [] => (x, [])
  | t :: ts' => let '(y, o) := md_final a x t in let '(z, os) := finals a y ts' in (z, o :: os)
  end.
Theorem C15_final_repeatable : forall (a : md_alg) (x : md_ctx) (ts : list nat),
  snd (finals a x ts) = map (fun t => snd (md_final a x t)) ts.
Proof.
  intros a x ts.
  assert (E : forall t0, snd (finals a (fst (md_final a x t0)) ts) = map (fun t => snd (md_final a x t)) ts).
  { induction ts as [|t ts IH]; intros t0; cbn [finals map]; auto.
    destruct (final_twice a x t0 t) as [E1 E2].
    destruct (md_final a (fst (md_final a x t0)) t) as [y o]. cbn [fst snd] in E1, E2. subst y o.
    specialize (IH t0). destruct (finals a (fst (md_final a x t0)) ts) as [z os]. cbn [snd] in *. now rewrite IH. }
  destruct ts as [|t ts]; [reflexivity|]. cbn [finals map].
  specialize (E t). cbn [finals map] in E.
  destruct (md_final a x t) as [y o] eqn:F. cbn [fst snd] in *.
  destruct (final_twice a x t t) as [E1 E2]. rewrite F in E1, E2. cbn [fst snd] in E1, E2.
  destruct (md_final a y t) as [y' o']. cbn [fst snd] in E1, E2. subst y' o'.
  destruct (finals a y ts) as [z os]. cbn [snd] in *. exact E.
Qed.
Print Assumptions C15_final_repeatable.

(** ... and each answer is a prefix / zero-extension of one digest. *)
Theorem C15_final_prefixes : forall (a : md_alg) (x : md_ctx) (t t' : nat), (t <= t')%nat ->
  snd (md_final a x t) = firstn t (snd (md_final a x t')).
Proof.
  intros a x t t' H. unfold md_final. cbn [snd].
  rewrite (DerLemmas.firstn_map_seq _ t t') by auto. reflexivity.
Qed.
Print Assumptions C15_final_prefixes.

Example C15_nonvacuous :
  let x := fold_left (md_update alg_sha1) [[97; 98; 99]] (md_init alg_sha1 (repeat 0 64)) in
  map (@length Z) (snd (finals alg_sha1 x [4%nat; 20%nat; 22%nat])) = [4%nat; 20%nat; 22%nat] /\
  be_val (nth 0 (snd (finals alg_sha1 x [4%nat; 20%nat; 22%nat])) []) = 0xa9993e36.
Proof. vm_compute. auto. Qed.
