(** The common hash-function interface through which HMAC, HMAC_DRBG, the PKCS#1 and
    the elliptic-curve signature code call a hash: the function pointers
    hInit/hUpdate/hFinal (src/2-mac/hmac.h:26-30, src/mysuitea-common.h InitFunc_t,
    UpdateFunc_t, FinalFunc_t, src/2-hash/hash-funcs-set.h). *)
From Verif Require Import Base Hash HashSpec Blocks HashLemmas MdLemmas PropHash Sponge SpongeSpec KeccakLemmas SpongeLemmas PropSponge.

(** A context type and the three functions.  [hi_init] gets the previous contents of
    the context; [hi_block]/[hi_out] are BLOCK_BYTES and OUT_BYTES. *)
Record hash_impl := {
  hi_ctx : Type;
  hi_init : hi_ctx -> hi_ctx;
  hi_update : hi_ctx -> list Z -> hi_ctx;
  hi_final : hi_ctx -> nat -> hi_ctx * list Z;
  hi_block : nat;
  hi_out : nat;
  hi_shape : hi_ctx -> Prop      (* the context has the size of its C type *)
}.

(** Successive Final calls asking for the given numbers of octets. *)
Fixpoint hi_finals (h : hash_impl) (x : hi_ctx h) (ts : list nat) : list (list Z) :=
  match ts with
  | [] => []
  | t :: ts => let '(x, o) := hi_final h x t in o :: hi_finals h x ts
  end.

(** What every user of the interface relies on: any Init, Update*, Final+ history
    answers with the (zero-extended) digest of the concatenation, for messages of
    fewer than [lim] octets. *)
Record hash_correct (h : hash_impl) (H : list Z -> list Z) (lim : Z) : Prop := {
  hc_init : forall c, hi_shape h c -> hi_shape h (hi_init h c);
  hc_update : forall c d, hi_shape h c -> hi_shape h (hi_update h c d);
  hc_final : forall c t, hi_shape h c -> hi_shape h (fst (hi_final h c t));
  hc_digest : forall m, bytes_ok m -> length (H m) = hi_out h /\ bytes_ok (H m);
  hc_run : forall c chunks ts, hi_shape h c -> Forall bytes_ok chunks -> Z.of_nat (length (concat chunks)) < lim ->
    hi_finals h (fold_left (hi_update h) chunks (hi_init h c)) ts = map (fun t => octets t (H (concat chunks))) ts
}.

(** Merkle-Damgard instances (src/2-hash/sha.c, sm3.c). *)
Definition md_impl (a : md_alg) : hash_impl := {|
  hi_ctx := md_ctx; hi_init := fun c => md_init a (md_Msg c); hi_update := md_update a; hi_final := md_final a;
  hi_block := md_block a; hi_out := md_out a; hi_shape := fun c => length (md_Msg c) = md_block a |}.
(** SHA-3 instances (src/2-hash/sha3.c); h is the digest size in octets. *)
Definition sha3_impl (h : nat) : hash_impl := {|
  hi_ctx := sponge; hi_init := fun _ => SHA3_Init h; hi_update := SHA3_Update; hi_final := SHA3_Final;
  hi_block := 200 - 2 * h; hi_out := h; hi_shape := fun _ => True |}.

Lemma hi_finals_md a : forall ts x, hi_finals (md_impl a) x ts = snd (finals a x ts).
Proof.
  induction ts as [|t ts IH]; intros x; cbn [hi_finals finals]; [reflexivity|].
  cbn [md_impl hi_final]. destruct (md_final a x t) as [y o]. rewrite IH. now destruct (finals a y ts).
Qed.
Lemma loop_msg_length a d : forall x, length (md_Msg (md_update_loop a x d)) = length (md_Msg x).
Proof.
  induction d as [|b d IH]; intros x; cbn [md_update_loop]; [reflexivity|].
  destruct (Nat.eqb _ _); rewrite IH; cbn [md_Msg]; apply upd_length.
Qed.
Lemma zero_fill_length k : forall f msg, length (zero_fill k f msg) = length msg.
Proof. induction k as [|k IH]; intros; cbn [zero_fill]; [auto|]. rewrite IH. apply upd_length. Qed.
Lemma final_pad_msg_length a x : length (md_Msg (md_final_pad a x)) = length (md_Msg x).
Proof.
  unfold md_final_pad. destruct (md_finalized x); [auto|]. cbv zeta. destruct (_ <=? _)%nat; cbn [md_Msg];
    rewrite store_length; destruct (Nat.eqb _ _); rewrite !store_length, ?zero_fill_length, ?upd_length; reflexivity.
Qed.

Lemma md_impl_correct a w n (H : list Z -> list Z) : md_good a w n ->
  (forall m, length (H m) = md_out a) -> (forall m, bytes_ok (H m)) ->
  (forall junk chunks t, length junk = md_block a -> Forall bytes_ok chunks ->
     8 * Z.of_nat (length (concat chunks)) < 2 ^ 64 -> session a junk chunks t = octets t (H (concat chunks))) ->
  hash_correct (md_impl a) H (2 ^ 61).
Proof.
  intros G HL HB HS. constructor; cbn [md_impl hi_shape hi_init hi_update hi_final hi_ctx hi_out].
  - intros c Hc. exact Hc.
  - intros c d Hc. unfold md_update. cbn [md_Msg]. now rewrite loop_msg_length.
  - intros c t Hc. unfold md_final. cbn [fst]. now rewrite final_pad_msg_length.
  - intros m Hm. split; [apply HL|apply HB].
  - intros c chunks ts Hc HC Hlen. rewrite hi_finals_md, C15_final_repeatable.
    apply map_ext. intros t. apply HS; auto. lia.
Qed.

Lemma flat_map_len (wb : nat) (f : Z -> list Z) l : (forall x, length (f x) = wb) -> length (flat_map f l) = (length l * wb)%nat.
Proof. intros Hf. induction l as [|x l IH]; cbn [flat_map length]; [reflexivity|]. rewrite app_length, Hf, IH. reflexivity. Qed.
Lemma md_hash_length B L wb comp iv out m n : (forall h b, length (comp h b) = n) ->
  length iv = n -> (out <= n * wb)%nat -> length (md_hash B L wb comp iv out m) = out.
Proof.
  intros HC HI HO. unfold md_hash. rewrite firstn_length, (flat_map_len wb) by (intros; apply be_bytes_length).
  assert (E : length (fold_left comp (blocks B (md_padded B L m)) iv) = n).
  { generalize (blocks B (md_padded B L m)). intros l. revert iv HI. induction l as [|b l IH]; intros iv HI; cbn [fold_left]; auto. }
  rewrite E. lia.
Qed.
Lemma md_hash_bytes B L wb comp iv out m : bytes_ok (md_hash B L wb comp iv out m).
Proof.
  unfold md_hash. apply Forall_firstn. apply Forall_flat_map, Forall_forall. intros x _. apply be_bytes_ok.
Qed.
Lemma sha1_compress_length H b : length (sha1_compress H b) = 5%nat.
Proof. unfold sha1_compress. cbv zeta. now destruct (fold_left _ _ _) as [[[[? ?] ?] ?] ?]. Qed.
Lemma sha2_compress_length w wb a b c d K r H blk : length (sha2_compress w wb a b c d K r H blk) = 8%nat.
Proof. unfold sha2_compress. cbv zeta. now destruct (fold_left _ _ _) as [[[[[[[? ?] ?] ?] ?] ?] ?] ?]. Qed.
Lemma sm3_compress_length H blk : length (sm3_compress H blk) = 8%nat.
Proof. unfold sm3_compress. cbv zeta. now destruct (fold_left _ _ _) as [[[[[[[? ?] ?] ?] ?] ?] ?] ?]. Qed.

Lemma sha1_correct : hash_correct (md_impl alg_sha1) fips_sha1 (2 ^ 61).
Proof.
  apply (md_impl_correct _ _ _ _ good_sha1); [|intros; apply md_hash_bytes|exact C14_sha1].
  intros m. unfold fips_sha1. cbn [alg_sha1 md_out]. rewrite (md_hash_length _ _ _ _ _ _ _ 5); [reflexivity|apply sha1_compress_length|reflexivity|lia].
Qed.
Lemma sha224_correct : hash_correct (md_impl alg_sha224) (fips_sha224 K_sha256) (2 ^ 61).
Proof.
  apply (md_impl_correct _ _ _ _ good_sha224); [|intros; apply md_hash_bytes|exact C14_sha224].
  intros m. unfold fips_sha224. cbn [alg_sha224 md_out]. rewrite (md_hash_length _ _ _ _ _ _ _ 8); [reflexivity|intros; unfold sha256_compress, sha512_compress; apply sha2_compress_length|rewrite map_length; reflexivity|lia].
Qed.
Lemma sha256_correct : hash_correct (md_impl alg_sha256) (fips_sha256 K_sha256) (2 ^ 61).
Proof.
  apply (md_impl_correct _ _ _ _ good_sha256); [|intros; apply md_hash_bytes|exact C14_sha256].
  intros m. unfold fips_sha256. cbn [alg_sha256 md_out]. rewrite (md_hash_length _ _ _ _ _ _ _ 8); [reflexivity|intros; unfold sha256_compress, sha512_compress; apply sha2_compress_length|rewrite map_length; reflexivity|lia].
Qed.
Lemma sha384_correct : hash_correct (md_impl alg_sha384) (fips_sha384 K_sha512) (2 ^ 61).
Proof.
  apply (md_impl_correct _ _ _ _ good_sha384); [|intros; apply md_hash_bytes|exact C14_sha384].
  intros m. unfold fips_sha384. cbn [alg_sha384 md_out]. rewrite (md_hash_length _ _ _ _ _ _ _ 8); [reflexivity|intros; unfold sha256_compress, sha512_compress; apply sha2_compress_length|rewrite map_length; reflexivity|lia].
Qed.
Lemma sha512_correct : hash_correct (md_impl alg_sha512) (fips_sha512 K_sha512) (2 ^ 61).
Proof.
  apply (md_impl_correct _ _ _ _ good_sha512); [|intros; apply md_hash_bytes|exact C14_sha512].
  intros m. unfold fips_sha512. cbn [alg_sha512 md_out]. rewrite (md_hash_length _ _ _ _ _ _ _ 8); [reflexivity|intros; unfold sha256_compress, sha512_compress; apply sha2_compress_length|rewrite map_length; reflexivity|lia].
Qed.
Lemma sha512t224_correct : hash_correct (md_impl alg_sha512t224) (fips_sha512_224 K_sha512) (2 ^ 61).
Proof.
  apply (md_impl_correct _ _ _ _ good_sha512t224); [|intros; apply md_hash_bytes|exact C14_sha512t224].
  intros m. unfold fips_sha512_224. cbn [alg_sha512t224 md_out]. rewrite (md_hash_length _ _ _ _ _ _ _ 8); [reflexivity|intros; unfold sha512_compress; apply sha2_compress_length| |lia].
  unfold sha512t_iv. now rewrite map_length, seq_length.
Qed.
Lemma sha512t256_correct : hash_correct (md_impl alg_sha512t256) (fips_sha512_256 K_sha512) (2 ^ 61).
Proof.
  apply (md_impl_correct _ _ _ _ good_sha512t256); [|intros; apply md_hash_bytes|exact C14_sha512t256].
  intros m. unfold fips_sha512_256. cbn [alg_sha512t256 md_out]. rewrite (md_hash_length _ _ _ _ _ _ _ 8); [reflexivity|intros; unfold sha512_compress; apply sha2_compress_length| |lia].
  unfold sha512t_iv. now rewrite map_length, seq_length.
Qed.
Lemma sm3_correct : hash_correct (md_impl alg_sm3) gbt_sm3 (2 ^ 61).
Proof.
  apply (md_impl_correct _ _ _ _ good_sm3); [|intros; apply md_hash_bytes|exact C14_sm3].
  intros m. unfold gbt_sm3. cbn [alg_sm3 md_out]. rewrite (md_hash_length _ _ _ _ _ _ _ 8); [reflexivity|intros; apply sm3_compress_length|reflexivity|lia].
Qed.

Lemma hi_finals_sha3 h : forall ts x, hi_finals (sha3_impl h) x ts = sha3_finals x ts.
Proof.
  induction ts as [|t ts IH]; intros x; cbn [hi_finals sha3_finals]; [reflexivity|].
  cbn [sha3_impl hi_final]. destruct (SHA3_Final x t) as [y o]. now rewrite IH.
Qed.
Lemma sha3_digest h m : (h = 28 \/ h = 32 \/ h = 48 \/ h = 64)%nat -> bytes_ok m ->
  length (fips_sha3 h m) = h /\ bytes_ok (fips_sha3 h m).
Proof.
  intros Hh Hm. split; [unfold fips_sha3, sponge_hash; now rewrite map_length, seq_length|].
  unfold fips_sha3, sponge_hash. apply Forall_map, Forall_forall. intros i _.
  unfold sponge_stream, squeeze_octet. apply nthZ_bytes.
  assert (Hp : bytes_ok (sponge_pad (200 - 2 * h) 6 128 m)) by (apply sponge_pad_ok; unfold byte_ok; auto; lia).
  destruct (absorb_ext KeccakF1600_Permute (keccak_p 24) 200 (200 - 2 * h) _ keccakF_ext ltac:(lia) Hp) as (E & L & B).
  rewrite <- E.
  destruct (iter_ext KeccakF1600_Permute (keccak_p 24) 200 (i / (200 - 2 * h))%nat _ keccakF_ext L B) as (E2 & _ & B2).
  now rewrite <- E2.
Qed.
Lemma sha3_correct h : (h = 28 \/ h = 32 \/ h = 48 \/ h = 64)%nat -> hash_correct (sha3_impl h) (fips_sha3 h) (2 ^ 61).
Proof.
  intros Hh. constructor; cbn [sha3_impl hi_shape hi_init hi_update hi_final hi_ctx hi_out]; auto.
  - intros m Hm. now apply sha3_digest.
  - intros c chunks ts _ HC _. rewrite hi_finals_sha3. now apply C16_sha3.
Qed.
