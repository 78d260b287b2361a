(** C36, C37, C38, C40, C53: theorems about public point codecs, ECDSA, SM2 signatures and ECDH-KEM.
    The hypothesis domain_ok (EccLemmas.v) collects what is assumed of the domain parameters; a
    complete small instance is given below (demo_ok). *)
From Coq Require Import Znumtheory.
From Verif Require Import Base Vlong VlongLemmas EcMod EcSpec EcGroupLemmas EcpXyz EcLawLemmas EcpScaleLemmas EcMulLemmas Der DerLemmas PropEcp
  Ecc EccSpec EccCodecSpec EccLemmas EccSigLemmas EccZeroLemmas EccCodecLemmas EccRunLemmas.

Notation pP D := (val_le 32 (cv_p (ed_c D))).
Notation nN D := (val_le 32 (cv_n (ed_c D))).
Notation aA D := (cv_a (ed_c D)).
Definition is_reg (D : ec_domain) (v : list Z) : Prop := words_ok v /\ length v = cv_w (ed_c D).

(** * A complete instance: y^2 = x^3 - 3x + 25 over F_31, of prime order 23 *)
Definition demoC : ecp_curve :=
  {| cv_w := 3; cv_a := -3; cv_b := [25]; cv_p := [31]; cv_n := [23]; cv_g := fun v => vlong_remv_inplace v [31] |}.
Definition demoG : ecp_xyz := {| px := [9; 0; 0]; py := [13; 0; 0]; pz := [1; 0; 0] |}.
Definition demoD : ec_domain := {| ed_c := demoC; ed_plen := 1; ed_G := demoG |}.
Lemma demo_w : weierstrass demoC.
Proof. right. right. right. cbn [demoC cv_p cv_w cv_g cv_a cv_b]. repeat split; try (repeat constructor; unfold word_ok; lia); cbn; lia. Qed.
Lemma small_prime n : 1 < n -> forallb (fun d => negb (n mod Z.of_nat d =? 0)) (seq 2 (Z.to_nat n - 2)) = true -> prime n.
Proof.
  intros H F. apply prime_alt. split; [exact H|]. intros d Hd [j Hj]. rewrite forallb_forall in F.
  specialize (F (Z.to_nat d)). rewrite in_seq in F. specialize (F ltac:(lia)). rewrite Z2Nat.id in F by lia.
  apply Bool.negb_true_iff, Z.eqb_neq in F. apply F. rewrite Hj. apply Z_mod_mult.
Qed.
Lemma prime_31 : prime 31. Proof. apply small_prime; [lia|vm_compute; reflexivity]. Qed.
Lemma prime_23 : prime 23. Proof. apply small_prime; [lia|vm_compute; reflexivity]. Qed.
Lemma demo_o : odd_prime_order demoC.
Proof.
  split; [exact prime_31|]. split; [cbn; lia|]. intros x. change (val_le 32 (cv_p demoC)) with 31. change (val_le 32 (cv_b demoC)) with 25. change (cv_a demoC) with (-3).
  intros H. assert (E : eqm 31 (x mod 31) x) by (apply eqm_mod; [lia|apply Zmod_mod]).
  assert (H' : eqm 31 (x mod 31 * (x mod 31) * (x mod 31) + -3 * (x mod 31) + 25) 0) by (rewrite E; exact H).
  pose proof (Z.mod_pos_bound x 31 ltac:(lia)) as B. clear H E. set (r := x mod 31) in *. clearbody r.
  apply eqm_mod in H'; [|lia].
  assert (F : forallb (fun d => negb ((Z.of_nat d * Z.of_nat d * Z.of_nat d + -3 * Z.of_nat d + 25) mod 31 =? 0)) (seq 0 31) = true) by (vm_compute; reflexivity).
  rewrite forallb_forall in F. specialize (F (Z.to_nat r)). rewrite in_seq in F. specialize (F ltac:(lia)). rewrite Z2Nat.id in F by lia.
  apply Bool.negb_true_iff, Z.eqb_neq in F. apply F. rewrite H'. reflexivity.
Qed.
Lemma demo_on x y : (y * y) mod 31 = (x * x * x + -3 * x + 25) mod 31 -> on demoC (Aff x y).
Proof. intros E. apply (proj2 (eqm_mod 31 _ _ ltac:(lia))). exact E. Qed.
Lemma demo_holds q x y : register demoC (px q) -> register demoC (py q) -> register demoC (pz q) -> val_le 32 (px q) = x -> val_le 32 (py q) = y -> val_le 32 (pz q) = 1 -> holds_point demoC q (Aff x y).
Proof.
  intros A B C <- <- E. split; [exact A|]. split; [exact B|]. split; [exact C|]. rewrite E. cbn [proj]. split; [|split; apply eqm_eq; ring].
  change (val_le 32 (cv_p demoC)) with 31. intros H. apply eqm_mod in H; [|lia]. vm_compute in H. discriminate.
Qed.
Definition demo_mul k P := mulW 31 (-3) 25 k P.
Lemma demo_NT : forall x, ~ eqm 31 (x * x * x + -3 * x + 25) 0. Proof. exact (proj2 (proj2 demo_o)). Qed.
Lemma demo_ec_mul P k R : on demoC P -> canW 31 P = P -> demo_mul k P = R -> ec_mul 31 (-3) P k (match R with Inf => Inf | Aff x y => Aff x y end) \/ exists x y, R = Aff x y.
Proof.
  intros C K E. destruct R as [|x y]; [left|right; now exists x, y].
  destruct (smul_mul' 31 (-3) 25 prime_31 ltac:(lia) demo_NT P k C) as (M & EM).
  pose proof (ec_mul_can 31 (-3) 25 prime_31 ltac:(lia) demo_NT P k M C EM) as KM. rewrite K in KM. unfold demo_mul in E. rewrite E in KM. destruct M; [exact EM|discriminate].
Qed.
Lemma reg3 w : 0 <= w <= 31 -> register demoC [w; 0; 0].
Proof. intros H. split; [repeat constructor; unfold word_ok; lia|]. split; [reflexivity|]. cbn [val_le]. change (val_le 32 (cv_p demoC)) with 31. lia. Qed.
Theorem demo_ok : domain_ok demoD (Aff 9 13).
Proof.
  assert (C : on demoC (Aff 9 13)) by (apply demo_on; vm_compute; reflexivity).
  split; cbn [demoD ed_c ed_plen ed_G].
  - exact demo_w.
  - exact demo_o.
  - vm_compute. congruence.
  - repeat constructor; unfold word_ok; lia.
  - cbn. lia.
  - exact prime_23.
  - vm_compute. congruence.
  - vm_compute. congruence.
  - cbn. lia.
  - vm_compute. reflexivity.
  - apply demo_holds; try (apply reg3; lia); reflexivity.
  - exact C.
  - discriminate.
  - destruct (demo_ec_mul (Aff 9 13) 23 Inf C eq_refl) as [H|(x & y & H)]; [vm_compute; reflexivity|exact H|discriminate].
Qed.
Lemma reg3' w : 0 <= w < 2 ^ 32 -> is_reg demoD [w; 0; 0].
Proof. intros H. split; [repeat constructor; unfold word_ok; lia|reflexivity]. Qed.
(** 3 G, 16 G *)
Lemma demo_mulx k x y : mulW 31 (-3) 25 k (Aff 9 13) = Aff x y -> exists x' y', ec_mul 31 (-3) (Aff 9 13) k (Aff x' y') /\ eqm 31 x' x /\ eqm 31 y' y.
Proof.
  intros E. assert (C : on demoC (Aff 9 13)) by (apply demo_on; vm_compute; reflexivity).
  destruct (smul_mul' 31 (-3) 25 prime_31 ltac:(lia) demo_NT _ k C) as (M & EM).
  pose proof (ec_mul_can 31 (-3) 25 prime_31 ltac:(lia) demo_NT _ k M C EM) as KM. change (canW 31 (Aff 9 13)) with (Aff 9 13) in KM. rewrite E in KM.
  destruct M as [|x' y']; [discriminate|]. cbn [canW] in KM. injection KM as <- <-. exists x', y'. split; [exact EM|].
  split; apply eqm_mod; try lia; now rewrite Zmod_mod.
Qed.

(** * C36.  Whatever octets are decoded: the result is the point they encode by SEC 1, it is on
    the curve, and, unless a coordinate is not reduced, n times it is the point at infinity. *)
Theorem C36_decode_sound : forall (D : ec_domain) (g : point) (enc : list Z) (Q : ecp_xyz),
  domain_ok D g -> (ed_plen D <= 4 * length (cv_p (ed_c D)))%nat -> pP D mod 4 = 3 -> bytes_ok enc ->
  ecp_point_decode D enc = Some Q ->
  let X := val_le 32 (px Q) in let Y := val_le 32 (py Q) in
  sec1_octets (ed_plen D) enc X Y /\ val_le 32 (pz Q) = 1 /\ on (ed_c D) (Aff X Y) /\
  (X < pP D -> Y < pP D -> holds_point (ed_c D) Q (Aff X Y) /\ ec_mul (pP D) (aA D) (Aff X Y) (Z.to_nat (nN D)) Inf).
Proof.
  intros D g enc Q DO HL H4 B E X Y. destruct (decode_sound D g DO HL H4 enc Q B E) as (X' & Y' & _ & _ & EX & EY & _ & EZ & _ & _ & S & C & _).
  unfold X, Y. rewrite EX, EY in *. split; [exact S|]. split; [exact EZ|]. split; [exact C|].
  rewrite <- EX, <- EY. intros LX LY. now apply (decode_order D g DO HL H4 enc Q B E).
Qed.
Print Assumptions C36_decode_sound.

(** Every point of order n is decoded, from the uncompressed and from the compressed form.  Missing
    from the full claim: the order test looks for Z = 0 in the registers, and the proof that it finds
    it needs 2^t Q, t the index of the top bit of n, to have y not 1 or -1 and x not y or -y. *)
Theorem C36_decode_complete_partial : forall (D : ec_domain) (g : point) (enc : list Z) (X Y : Z) (t : nat) (x y : Z),
  domain_ok D g -> (ed_plen D <= 4 * length (cv_p (ed_c D)))%nat -> pP D mod 4 = 3 ->
  0 <= X < pP D -> 0 <= Y < pP D -> sec1_octets (ed_plen D) enc X Y -> on (ed_c D) (Aff X Y) ->
  ec_mul (pP D) (aA D) (Aff X Y) (Z.to_nat (nN D)) Inf ->
  2 ^ Z.of_nat t <= nN D < 2 ^ Z.of_nat (S t) -> ec_mul (pP D) (aA D) (Aff X Y) (2 ^ t) (Aff x y) ->
  ~ eqm (pP D) y 1 -> ~ eqm (pP D) y (-1) -> ~ eqm (pP D) x y -> ~ eqm (pP D) x (- y) ->
  exists Q, ecp_point_decode D enc = Some Q /\ holds_point (ed_c D) Q (Aff X Y) /\ val_le 32 (px Q) = X /\ val_le 32 (py Q) = Y /\ val_le 32 (pz Q) = 1.
Proof.
  intros D g enc X Y t x y DO HL H4 BX BY S C O HT HM A1 A2 A3 A4. exact (decode_complete D g DO HL H4 enc X Y t x y BX BY S C O HT HM A1 A2 A3 A4).
Qed.
Print Assumptions C36_decode_complete_partial.

(** ecp_point_encode writes the SEC 1 encoding, whichever of the two lengths is asked for. *)
Theorem C36_encode : forall (D : ec_domain) (g : point) (Q : ecp_xyz) (l : nat),
  domain_ok D g -> is_reg D (px Q) -> is_reg D (py Q) -> val_le 32 (px Q) < pP D -> val_le 32 (py Q) < pP D ->
  match ecp_point_encode D Q l with
  | Some enc => length enc = l /\ sec1_octets (ed_plen D) enc (val_le 32 (px Q)) (val_le 32 (py Q))
  | None => l <> (1 + ed_plen D * 2)%nat /\ l <> (1 + ed_plen D)%nat
  end.
Proof.
  intros D g Q l DO RX RY LX LY. pose proof (do_pb _ _ DO). apply (encode_spec D g DO); auto; lia.
Qed.
Print Assumptions C36_encode.

(** What is encoded is decoded to the same coordinates (with the restriction of the theorem above). *)
Theorem C36_round_trip_partial : forall (D : ec_domain) (g : point) (Q : ecp_xyz) (l : nat) (enc : list Z) (t : nat) (x y : Z),
  domain_ok D g -> (ed_plen D <= 4 * length (cv_p (ed_c D)))%nat -> pP D mod 4 = 3 ->
  is_reg D (px Q) -> is_reg D (py Q) -> val_le 32 (px Q) < pP D -> val_le 32 (py Q) < pP D ->
  ecp_point_encode D Q l = Some enc -> on (ed_c D) (Aff (val_le 32 (px Q)) (val_le 32 (py Q))) ->
  ec_mul (pP D) (aA D) (Aff (val_le 32 (px Q)) (val_le 32 (py Q))) (Z.to_nat (nN D)) Inf ->
  2 ^ Z.of_nat t <= nN D < 2 ^ Z.of_nat (S t) -> ec_mul (pP D) (aA D) (Aff (val_le 32 (px Q)) (val_le 32 (py Q))) (2 ^ t) (Aff x y) ->
  ~ eqm (pP D) y 1 -> ~ eqm (pP D) y (-1) -> ~ eqm (pP D) x y -> ~ eqm (pP D) x (- y) ->
  exists Q', ecp_point_decode D enc = Some Q' /\ val_le 32 (px Q') = val_le 32 (px Q) /\ val_le 32 (py Q') = val_le 32 (py Q) /\ val_le 32 (pz Q') = 1.
Proof.
  intros D g Q l enc t x y DO HL H4 RX RY LX LY E C O HT HM A1 A2 A3 A4. pose proof (C36_encode D g Q l DO RX RY LX LY) as S. rewrite E in S. destruct S as [_ S].
  pose proof (vval_bound _ (proj1 RX)). pose proof (vval_bound _ (proj1 RY)).
  destruct (decode_complete D g DO HL H4 enc (val_le 32 (px Q)) (val_le 32 (py Q)) t x y ltac:(split; [lia|exact LX]) ltac:(split; [lia|exact LY]) S C O HT HM A1 A2 A3 A4) as (Q' & A & _ & B1 & B2 & B3).
  exists Q'. auto.
Qed.
Print Assumptions C36_round_trip_partial.

(** Encodings are not unique: where (0, Y) is a point of order n, octets giving x as p are taken. *)
Theorem C36_x_not_reduced_refuted : forall (D : ec_domain) (g : point) (Y : Z) (t : nat) (x y : Z),
  domain_ok D g -> (ed_plen D <= 4 * length (cv_p (ed_c D)))%nat ->
  0 <= Y < pP D -> on (ed_c D) (Aff 0 Y) -> ec_mul (pP D) (aA D) (Aff 0 Y) (Z.to_nat (nN D)) Inf ->
  2 ^ Z.of_nat t <= nN D < 2 ^ Z.of_nat (S t) -> ec_mul (pP D) (aA D) (Aff 0 Y) (2 ^ t) (Aff x y) ->
  ~ eqm (pP D) y 1 -> ~ eqm (pP D) y (-1) -> ~ eqm (pP D) x y -> ~ eqm (pP D) x (- y) ->
  exists Q, ecp_point_decode D (4 :: be_bytes (ed_plen D) (pP D) ++ be_bytes (ed_plen D) Y) = Some Q /\ val_le 32 (px Q) = pP D.
Proof.
  intros D g Y t x y DO HL BY C O HT HM A1 A2 A3 A4. exact (decode_noncanonical D g DO HL Y t x y BY C O HT HM A1 A2 A3 A4).
Qed.
Print Assumptions C36_x_not_reduced_refuted.

(** ECDH_KEM_Decode_Ciphertext never delivers the point a compressed ciphertext denotes: what it
    delivers, when it succeeds, has y = 0 modulo p and is not on the curve. *)
Theorem C36_kem_compressed_refuted : forall (D : ec_domain) (g : point) (enc : list Z) (Q : ecp_xyz),
  domain_ok D g -> (ed_plen D <= 4 * length (cv_p (ed_c D)))%nat -> pP D mod 4 = 3 ->
  nthZ 0 enc = 2 \/ nthZ 0 enc = 3 -> ecp_point_decode_inplace D enc = Some Q ->
  eqm (pP D) (val_le 32 (py Q)) 0 /\ forall X, ~ on (ed_c D) (Aff X (val_le 32 (py Q))).
Proof.
  intros D g enc Q DO HL H4 Os E. pose proof (inplace_compressed D g DO HL H4 enc Q Os E) as Z0. split; [exact Z0|].
  intros X C. apply (NoTwo D g DO X). cbn [on on_curve] in C. rewrite <- C, Z0. apply eqm_eq. reflexivity.
Qed.
Print Assumptions C36_kem_compressed_refuted.

Lemma demo_neq u v : u mod 31 <> v mod 31 -> ~ eqm 31 u v.
Proof. intros H E. apply H. now apply eqm_mod in E; [|lia]. Qed.
(** The hypotheses hold: both encodings of the base point are decoded, and 4 || 31 || 5 too. *)
Example C36_example :
  (exists Q, ecp_point_decode demoD [4; 9; 13] = Some Q /\ val_le 32 (px Q) = 9 /\ val_le 32 (py Q) = 13) /\
  (exists Q, ecp_point_decode demoD [3; 9] = Some Q /\ val_le 32 (px Q) = 9 /\ val_le 32 (py Q) = 13) /\
  (exists Q, ecp_point_decode demoD [4; 31; 5] = Some Q /\ val_le 32 (px Q) = 31).
Proof.
  assert (C : on demoC (Aff 9 13)) by (apply demo_on; vm_compute; reflexivity).
  destruct (demo_mulx 16 28 21) as (x & y & EM & Ex & Ey); [vm_compute; reflexivity|].
  assert (NE : ~ eqm 31 y 1 /\ ~ eqm 31 y (-1) /\ ~ eqm 31 x y /\ ~ eqm 31 x (- y)).
  { split; [|split; [|split]]; intros H.
    - apply (demo_neq 21 1); [vm_compute; congruence|]. rewrite <- Ey. exact H.
    - apply (demo_neq 21 (-1)); [vm_compute; congruence|]. rewrite <- Ey. exact H.
    - apply (demo_neq 28 21); [vm_compute; congruence|]. rewrite <- Ex, <- Ey. exact H.
    - apply (demo_neq 28 (-21)); [vm_compute; congruence|]. rewrite <- Ex, H, Ey. apply eqm_eq. reflexivity. }
  destruct NE as (A1 & A2 & A3 & A4). pose proof (do_Go _ _ demo_ok) as OG.
  assert (HL : (ed_plen demoD <= 4 * length (cv_p (ed_c demoD)))%nat) by (cbn; lia).
  assert (H4 : pP demoD mod 4 = 3) by (vm_compute; reflexivity).
  assert (HT : 2 ^ Z.of_nat 4 <= nN demoD < 2 ^ Z.of_nat 5) by (split; vm_compute; congruence).
  assert (B1 : 0 <= 9 < pP demoD) by (split; vm_compute; congruence).
  assert (B2 : 0 <= 13 < pP demoD) by (split; vm_compute; congruence).
  split; [|split].
  - assert (SEleft : sec1_octets (ed_plen demoD) [4; 9; 13] 9 13) by (split; [cbn; lia|]; split; [cbn; lia|]; left; vm_compute; reflexivity).
    destruct (C36_decode_complete_partial demoD (Aff 9 13) [4; 9; 13] 9 13 4 x y demo_ok HL H4 B1 B2 SEleft C OG HT EM A1 A2 A3 A4) as (Q & E & _ & E1 & E2 & _). exists Q. split; [exact E|split; [exact E1|exact E2]].
  - assert (SEright : sec1_octets (ed_plen demoD) [3; 9] 9 13) by (split; [cbn; lia|]; split; [cbn; lia|]; right; vm_compute; reflexivity).
    destruct (C36_decode_complete_partial demoD (Aff 9 13) [3; 9] 9 13 4 x y demo_ok HL H4 B1 B2 SEright C OG HT EM A1 A2 A3 A4) as (Q & E & _ & E1 & E2 & _). exists Q. split; [exact E|split; [exact E1|exact E2]].
  - assert (C0 : on demoC (Aff 0 5)) by (apply demo_on; vm_compute; reflexivity).
    destruct (smul_mul' 31 (-3) 25 prime_31 ltac:(lia) demo_NT (Aff 0 5) 16 C0) as (M & EM').
    pose proof (ec_mul_can 31 (-3) 25 prime_31 ltac:(lia) demo_NT (Aff 0 5) 16 M C0 EM') as KM.
    assert (K2 : mulW 31 (-3) 25 16 (canW 31 (Aff 0 5)) = Aff 22 6) by (vm_compute; reflexivity). rewrite K2 in KM.
    clear K2. destruct M as [|x' y']; cbn [canW] in KM; [discriminate KM|]. injection KM as Kx Ky.
    assert (O5 : ec_mul 31 (-3) (Aff 0 5) 23 Inf).
    { destruct (demo_ec_mul (Aff 0 5) 23 Inf C0 eq_refl) as [H|(? & ? & H)]; [vm_compute; reflexivity|exact H|discriminate]. }
    assert (B5 : 0 <= 5 < pP demoD) by (split; vm_compute; congruence).
    destruct (C36_x_not_reduced_refuted demoD (Aff 9 13) 5 4 x' y' demo_ok HL B5 C0 O5 HT EM') as (Q & E & E1).
    + apply demo_neq. rewrite Ky. vm_compute. congruence.
    + apply demo_neq. rewrite Ky. vm_compute. congruence.
    + apply demo_neq. rewrite Kx, Ky. vm_compute. congruence.
    + apply demo_neq. rewrite Kx. assert (Z0 : (- y') mod 31 = (- 6) mod 31) by (rewrite <- (Z.sub_0_l y'), <- Zminus_mod_idemp_r, Ky; reflexivity). rewrite Z0. vm_compute. congruence.
    + exists Q. split; [exact E|exact E1].
Qed.
