(** C26: BLAKE2s and BLAKE2b against RFC 7693. *)
From Verif Require Import Base BlakeSpec Blake2 Blake2Lemmas PropHash.

Definition b2_run (lg : bool) (outlen : nat) (key : list Z) (chunks : list (list Z)) : option blake2 :=
  match blake2_init lg outlen key with None => None | Some x => Some (fold_left (blake2_update lg) chunks x) end.

(** For every key of at most 64 (32) octets, every output length 1..64 (1..32), every message fed in any chunks
    (key block and message below 2^64 octets) the first Final returns the RFC 7693 digest cut or zero-extended to the requested t octets,
    and so does every later one, whatever lengths were asked before. *)
Theorem C26_blake2 (lg : bool) outlen key chunks t :
  (1 <= outlen <= if lg then 64 else 32)%nat -> (length key <= if lg then 64 else 32)%nat ->
  Z.of_nat (length (concat chunks)) + 128 < 2 ^ 64 ->
  exists x, b2_run lg outlen key chunks = Some x /\
    let digest := rfc_blake2 (if lg then BLAKE2b else BLAKE2s) key (concat chunks) outlen in
    snd (blake2_final lg x t) = octets t digest /\
    forall t' t'', let x1 := fst (blake2_final lg x t) in let x2 := fst (blake2_final lg x1 t') in
      snd (blake2_final lg x1 t') = octets t' digest /\ snd (blake2_final lg x2 t'') = octets t'' digest.
Proof.
  intros Hn Hk Hl. change (if lg then 64%nat else 32%nat) with (b2_max lg) in *. unfold b2_run.
  destruct (init_inv lg outlen key Hn Hk) as (x0 & E & I). rewrite E. eexists. split; [reflexivity|].
  assert (LI : (length (b2_input (b2p lg) key []) <= 128)%nat).
  { unfold b2_input. rewrite app_nil_r. destruct key as [|k0 kr]; [cbn; lia|]. rewrite app_length, repeat_length, bb_size. destruct lg; cbn [b2_max bk_size length] in *; lia. }
  assert (IN : forall m, b2_input (b2p lg) key m = b2_input (b2p lg) key [] ++ m) by (intros m; unfold b2_input; rewrite app_nil_r; reflexivity).
  assert (I2 : b2inv lg outlen (length key) (b2_h0 lg (length key) outlen) (b2_input (b2p lg) key (concat chunks)) (fold_left (blake2_update lg) chunks x0)).
  { rewrite IN. revert I LI Hl. generalize (b2_input (b2p lg) key []) as D. intros D I LI Hl.
    assert (HL : Z.of_nat (length D + length (concat chunks)) < 2 ^ 64) by lia. clear LI Hl E. revert D x0 I HL.
    induction chunks as [|c cs IH]; intros D x0 I HL; cbn [concat fold_left]; [rewrite app_nil_r; exact I|]. cbn [concat] in HL. rewrite app_length in HL.
    rewrite app_assoc. apply IH; [apply update_inv; [exact I|lia]|rewrite app_length; lia]. }
  change (if lg then BLAKE2b else BLAKE2s) with (b2p lg).
  destruct (final_spec lg outlen key (concat chunks) _ t I2 Hn) as [F1 F2]; [rewrite IN, app_length; lia|].
  cbv zeta. split; [exact F1|]. intros t' t''. rewrite F2. cbn [fst snd]. split; [reflexivity|]. rewrite F2. reflexivity.
Qed.
Print Assumptions C26_blake2.

(** Init fails exactly on the output and key lengths RFC 7693 excludes. *)
Theorem C26_refused (lg : bool) outlen key :
  blake2_init lg outlen key = None <-> ~ ((1 <= outlen <= if lg then 64 else 32)%nat /\ (length key <= if lg then 64 else 32)%nat).
Proof. exact (init_refuses lg outlen key). Qed.
Print Assumptions C26_refused.

(** Two ways of cutting the same message give the same digest. *)
Theorem C26_chunking (lg : bool) outlen key c1 c2 t x1 x2 : concat c1 = concat c2 -> Z.of_nat (length (concat c1)) + 128 < 2 ^ 64 ->
  b2_run lg outlen key c1 = Some x1 -> b2_run lg outlen key c2 = Some x2 -> snd (blake2_final lg x1 t) = snd (blake2_final lg x2 t).
Proof.
  intros E Hl R1 R2. destruct (blake2_init lg outlen key) as [x0|] eqn:EI; [|unfold b2_run in R1; rewrite EI in R1; discriminate].
  assert (OK : (1 <= outlen <= if lg then 64 else 32)%nat /\ (length key <= if lg then 64 else 32)%nat).
  { change (if lg then 64%nat else 32%nat) with (b2_max lg). destruct (Nat.lt_ge_cases outlen 1) as [A|A]; [|destruct (Nat.lt_ge_cases (b2_max lg) outlen) as [B|B]; [|destruct (Nat.lt_ge_cases (b2_max lg) (length key)) as [C|C]; [|lia]]];
      (assert (N : blake2_init lg outlen key = None) by (apply init_refuses; lia)); congruence. }
  destruct OK as [O1 O2]. destruct (C26_blake2 lg outlen key c1 t O1 O2 Hl) as (y1 & A1 & B1 & _). destruct (C26_blake2 lg outlen key c2 t O1 O2) as (y2 & A2 & B2 & _); [rewrite <- E; exact Hl|].
  assert (y1 = x1) by congruence. assert (y2 = x2) by congruence. subst. rewrite B1, B2, E. reflexivity.
Qed.
Print Assumptions C26_chunking.

(** RFC 7693 Appendices A and B: "abc", fed as "a" and "bc" *)
Example C26_blake2b_abc : match b2_run true 64 [] [[97]; [98; 99]] with Some x => firstn 8 (snd (blake2_final true x 70)) | None => [] end = [0xBA; 0x80; 0xA5; 0x3F; 0x98; 0x1C; 0x4D; 0x0D].
Proof. vm_compute. reflexivity. Qed.
Example C26_blake2s_abc : match b2_run false 32 [] [[97]; [98; 99]] with Some x => firstn 8 (snd (blake2_final false x 32)) | None => [] end = [0x50; 0x8C; 0x5E; 0x8C; 0x32; 0x7C; 0x14; 0xE2].
Proof. vm_compute. reflexivity. Qed.
(** a keyed, two-block case meets the hypotheses of C26_blake2 *)
Example C26_keyed : exists x, b2_run false 20 [1; 2; 3] [repeat 7 100%nat; []; [5]] = Some x /\ snd (blake2_final false x 4) = octets 4 (rfc_blake2 BLAKE2s [1; 2; 3] (repeat 7 100%nat ++ [5]) 20).
Proof. destruct (C26_blake2 false 20 [1; 2; 3] [repeat 7 100%nat; []; [5]] 4) as (x & A & B & _); [cbn; lia|cbn; lia|cbn; lia|]. exists x. split; [exact A|exact B]. Qed.
