(** The base point of Ed25519 has order L (generated: tools/pk/ord25519.py, genord.py). *)
From Coq Require Import ZArith Znumtheory List Lia Bool Setoid.
From Verif Require Import Base EcSpec EcGroupLemmas EdSpec EdCert EdGroupLemmas ScaleLemmas EdScaleLemmas EdMulLemmas.
Import ListNotations.
Open Scope Z_scope.

(** Straight-line programs of doublings and additions with the affine results given. *)
Inductive eop_step : Type := Dbl (x y : Z) | Add (i : nat) (x y : Z).
Section Chain.
  Variables (p a d1 d2 : Z).
  Hypothesis Hp : prime p.
  Hypothesis H2 : p <> 2.
  Hypothesis HC : ed_complete p a d1 d2.
  Variable red : Z -> Z.
  Hypothesis Hred : forall z, eqm p (red z) z.
  Notation "x == y" := (eqm p x y) (at level 70).
  Notation On := (ed_on p a d1 d2).
  Notation ok := (evalid p a d1 d2).
  Definition isz (z : Z) : bool := let r := red (red (red z)) in (r =? 0) || (r =? p).
  Definition inr (z : Z) : bool := (0 <=? z) && (z <? p).
  Definition sdbl (x y : Z) : Z := if a =? -1 then Z.square (x + y) else (y - a * x) * (x + y).
  Definition chk (m n mm s0 x3 y3 : Z) : bool :=
    let w := d1 * red mm in
    let s := s0 - n + a * m in
    inr x3 && inr y3 && isz (x3 * (d2 + w) - d2 * (m + n)) && isz (y3 * (d2 - w) - d2 * red s).
  Fixpoint run (l : list eop_step) (known : list (Z * epoint)) : bool * list (Z * epoint) :=
    match l with
    | [] => (true, known)
    | st :: l' =>
        match known with
        | [] => (false, known)
        | (k, (x1, y1)) :: _ =>
            match st with
            | Dbl x3 y3 => let m := red (x1 * y1) in if chk m m (Z.square m) (sdbl x1 y1) x3 y3 then run l' ((k + k, (x3, y3)) :: known) else (false, known)
            | Add i x3 y3 =>
                match nth_error known i with
                | None => (false, known)
                | Some (k2, (x2, y2)) => let m := red (x1 * y2) in let n := red (x2 * y1) in if chk m n (m * n) ((y1 - a * x1) * (x2 + y2)) x3 y3 then run l' ((k + k2, (x3, y3)) :: known) else (false, known)
                end
            end
        end
    end.
  Lemma sdbl_ok x y : sdbl x y = (y - a * x) * (x + y).
  Proof. unfold sdbl. destruct (a =? -1) eqn:E; [|reflexivity]. apply Z.eqb_eq in E. rewrite E, Z.square_spec. ring. Qed.
  Lemma isz_ok z : isz z = true -> z == 0.
  Proof.
    unfold isz. intros H. apply orb_true_iff in H. transitivity (red (red (red z))); [rewrite !Hred; reflexivity|].
    destruct H as [H|H]; apply Z.eqb_eq in H; rewrite H; [reflexivity|]. exists 1. ring.
  Qed.
  Lemma chk_ok x1 y1 x2 y2 m n mm s0 x3 y3 : On (x1, y1) -> On (x2, y2) -> m == x1 * y2 -> n == x2 * y1 -> mm = m * n -> s0 = (y1 - a * x1) * (x2 + y2) -> chk m n mm s0 x3 y3 = true ->
    ed_add p a d1 d2 (x1, y1) (x2, y2) (x3, y3) /\ ecanon p (x3, y3).
  Proof.
    intros C1 C2 Em En -> -> H. unfold chk in H. rewrite !andb_true_iff in H. destruct H as (((I1 & I2) & Z1) & Z2). unfold inr in I1, I2. rewrite andb_true_iff in I1, I2.
    destruct I1 as [I1 I1'], I2 as [I2 I2']. apply Z.leb_le in I1, I2. apply Z.ltb_lt in I1', I2'. split; [|split; cbn; lia].
    apply isz_ok in Z1. apply isz_ok in Z2.
    assert (W : red (m * n) == x1 * y2 * (x2 * y1)) by (rewrite Hred, Em, En; reflexivity). set (w := red (m * n)) in *. clearbody w.
    assert (V : red ((y1 - a * x1) * (x2 + y2) - n + a * m) == y1 * y2 - a * (x1 * x2)) by (rewrite Hred, Em, En; apply eqm_eq; ring).
    set (v := red ((y1 - a * x1) * (x2 + y2) - n + a * m)) in *. clearbody v. assert (MN : m + n == x1 * y2 + x2 * y1) by (rewrite Em, En; reflexivity). set (mn := m + n) in *. clearbody mn. clear Em En m n.
    destruct (eop_add p a d1 d2 Hp H2 HC (x1, y1) (x2, y2) C1 C2) as (N1 & N2 & _).
    unfold ed_add. split; [exact N1|]. split; [exact N2|]. split.
    - transitivity (x3 * (d2 + d1 * w)); [rewrite W; apply eqm_eq; ring|]. transitivity (x3 * (d2 + d1 * w) - d2 * mn + d2 * mn); [apply eqm_eq; ring|]. rewrite Z1, MN. reflexivity.
    - transitivity (y3 * (d2 - d1 * w)); [rewrite W; apply eqm_eq; ring|]. transitivity (y3 * (d2 - d1 * w) - d2 * v + d2 * v); [apply eqm_eq; ring|]. rewrite Z2, V. reflexivity.
  Qed.
  Variable B : epoint.
  Hypothesis HB : ok B.
  Definition kn (e : Z * epoint) : Prop := 0 <= fst e /\ ok (snd e) /\ mulE p a d1 d2 (Z.to_nat (fst e)) B = snd e.
  Lemma kn_add k1 P1 k2 P2 x3 y3 : kn (k1, P1) -> kn (k2, P2) -> ed_add p a d1 d2 P1 P2 (x3, y3) -> ecanon p (x3, y3) -> kn (k1 + k2, (x3, y3)).
  Proof.
    intros (A1 & O1 & M1) (A2 & O2 & M2) E CN. cbn [fst snd] in *. split; cbn [fst snd]; [lia|]. split.
    - split; [|exact CN]. apply (add_closed p a d1 d2 Hp H2 HC P1 P2); [apply O1|apply O2|exact E].
    - rewrite Z2Nat.inj_add by lia. rewrite (mulE_add p a d1 d2 Hp H2 HC) by exact HB. rewrite M1, M2. apply (eop_eq p a d1 d2 Hp H2 HC); [apply O1|apply O2|exact CN|exact E].
  Qed.
  Lemma run_ok l : forall known r, Forall kn known -> run l known = (true, r) -> Forall kn r.
  Proof.
    induction l as [|st l IH]; intros known r K H; [cbn in H; congruence|]. cbn [run] in H. destruct known as [|[k [x1 y1]] t]; [discriminate|].
    assert (K1 : kn (k, (x1, y1))) by (inversion K; assumption). destruct st as [x3 y3|i x3 y3].
    - cbv zeta in H. destruct (chk _ _ _ _ x3 y3) eqn:E; [|discriminate]. apply (IH _ _) in H; [exact H|]. apply Forall_cons; [|exact K].
      destruct (chk_ok x1 y1 x1 y1 (red (x1 * y1)) (red (x1 * y1)) (Z.square (red (x1 * y1))) (sdbl x1 y1) x3 y3) as [E1 E2]; [apply K1|apply K1|apply Hred|apply Hred|apply Z.square_spec|apply sdbl_ok|exact E|]. now apply (kn_add k (x1, y1) k (x1, y1)).
    - destruct (nth_error _ i) as [[k2 [x2 y2]]|] eqn:EN; [|discriminate]. cbv zeta in H. destruct (chk _ _ _ _ x3 y3) eqn:E; [|discriminate]. apply (IH _ _) in H; [exact H|]. apply Forall_cons; [|exact K].
      assert (K2 : kn (k2, (x2, y2))) by (rewrite Forall_forall in K; apply K; eapply nth_error_In; exact EN).
      destruct (chk_ok x1 y1 x2 y2 (red (x1 * y2)) (red (x2 * y1)) (red (x1 * y2) * red (x2 * y1)) ((y1 - a * x1) * (x2 + y2)) x3 y3) as [E1 E2]; [apply K1|apply K2|apply Hred|apply Hred|reflexivity|reflexivity|exact E|]. now apply (kn_add k (x1, y1) k2 (x2, y2)).
  Qed.
  Theorem chain_ok l k R : match run l [(1, B)] with (true, (k', (x, y)) :: _) => (k' =? k) && (x =? fst R) && (y =? snd R) | _ => false end = true -> mulE p a d1 d2 (Z.to_nat k) B = R.
  Proof.
    destruct (run l [(1, B)]) as [b r] eqn:E. intros H. destruct b; [|discriminate]. destruct r as [|[k' [x y]] t]; [discriminate|]. rewrite !andb_true_iff in H. destruct H as ((H1 & H3) & H4).
    apply Z.eqb_eq in H1, H3, H4. apply run_ok in E.
    - assert (K : kn (k', (x, y))) by (inversion E; assumption). destruct K as (_ & _ & M). cbn [fst snd] in M. subst k'. rewrite M. destruct R. cbn [fst snd] in *. now subst.
    - apply Forall_cons; [|apply Forall_nil]. split; cbn [fst snd]; [lia|]. split; [exact HB|]. change (Z.to_nat 1) with 1%nat. change (mulE p a d1 d2 1 B) with (eop p a d1 d2 B (0, 1)). now apply (eop_id p a d1 d2 Hp H2 HC).
  Qed.
End Chain.

Definition red25519 (z : Z) : Z := Z.land z (Z.ones 255) + 19 * Z.shiftr z 255.
Lemma red25519_ok z : eqm (2 ^ 255 - 19) (red25519 z) z.
Proof.
  unfold red25519. rewrite Z.land_ones, Z.shiftr_div_pow2 by lia. pose proof (Z.div_mod z (2 ^ 255) ltac:(lia)) as E. exists (- (z / 2 ^ 255)). set (q := z / 2 ^ 255) in *. set (r := z mod 2 ^ 255) in *. clearbody q r. lia.
Qed.
Definition chain25519 : list eop_step :=
 [Dbl 0x36ab384c9f5a046c3d043b7d1833e7ac080d8e4515d7a45f83c5a14e2843ce0e 0x2260cdf3092329c21da25ee8c9a21f5697390f51643851560e5f46ae6af8a3c9;
  Add 1 0x67ae9c4a22928f491ff4ae743edac83a6343981981624886ac62485fd3f8e25c 0x1267b1d177ee69aba126a18e60269ef79f16ec176724030402c3684878f5b4d4;
  Add 1 0x49fda73eade3587bfcef7cf7d12da5de5c2819f93e1be1a591409cc0322ef233 0x5f4825b298feae6fe02c6e148992466631282eca89430b5d10d21f83d676c8ed;
  Add 2 0x14568685fcf4bd4ee9e3ee194b1d810783e809f3bbf1ce955855981af50e4107 0x31c563e32b47d52f87ce6468dd36ad41f0882b46f7abf23d12c4c4b59f4062b8;
  Add 3 0x357cc970c80071651bf336e06f9422b886d80e5c2e4e0294d3e023065185715c 0x7f3d23c2c2dd0df4b2befce956f2d2fd1f789013236e4430c74e44845522f1c0;
  Add 4 0x14e528b1154be417b6cf078dd6712438d381a5b2c593d552ff2fd2c1207cf3cb 0x2d9082313f21ab975a6f7ce340ff0fce1258591c3c9c58d4308f2dc36a033713;
  Add 5 0x107427e0d5f366ccdb33adf0282d304f8843e3e88d22b7b83780e073b7c05fed 0x12dbb00ded538b7478466022d2da89b83740cfb2289a272387efe1aeea401f80;
  Add 6 0x4f162deaec2ec435dc5ac6f95d20419ed9631374770189cb90617f3e66a18dc1 0x12cbfb2d04ff22f55162f70164d29331ace5af18a19a9aa1946d4cc4ad2e5cdf;
  Add 8 0x23a4860627e53aeeb8e22b1508249c9109578d33e7bf237459b2596d6c28f9f8 0x709696f2827fc3729f980f2e3aad6e78b06a11ff8e079c27d87aab37c16727eb;
  Dbl 0x39cf6c6917421af98582561d0b39567de6033190f97852fc4fdd40f6977e4f26 0x4434a90ee12cce6b7ade93ecc0f88b78b41205e74c8c4038f92d394f3a06d269;
  Dbl 0x5fa64200bf829139cf290f9871d79a8b8e846fd6ad9d678f1517a0fb03ca40b 0x3d199eeaf926002872f486796fa8aa4c99f1125e6e0d196afbd695af17da0926;
  Dbl 0x379dbeb1a97b5f082402eabf1ad28bb78a837aa426237a405da2495bf0cfdd87 0x28eb9fe001ce99d063f7995348559bfc233261c134094521fda0e7ee084b86fc;
  Dbl 0x5e7e07ed4e1decbfe6e9cbc126905449d4b578fbb561576d20b8bcdd0cc2a556 0xf55755c51f102796bf5ebaa81d3260e7d1b3d9ac127d9a80e142031566cf6c7;
  Dbl 0x2eecbf81b3d084733331f9eefa70d42621effd9b303961d25409333c82cd340a 0x54d2dc2da137827c4132d9b740a119b6484d4d4849e6e074b89cf764008b93e8;
  Dbl 0x6b113a52f9f3fd0590ac7cb6c8cbb37abcf147c44b2ae11d9151c7d55b4a2b68 0x1aeb017159697e792eb8da1805519c06296595f4f57996c590954359f327c13d;
  Dbl 0x3c1ae7527612d38bb541f511fcc6283d8482afe93115b345ecd2bcfbbd1317f7 0x51c91c3f9d7e57eb786116c8545f90fa67f5e8b62c32ac4512015a20711364e;
  Dbl 0x7d13c0248b891b47eb524f2692008e2f97b199bac426cb5902b9003a29ded6ea 0x59a976ab2c01a81a91f1a56c75ccc77a9e1e9e878e9fe9c3952080a6805b20d5;
  Dbl 0x17d5a9ff7f338d8ee53c26531f9a5d4ad2718234b5d46a1435aa161031b1c9de 0x73022287d3b73f6c43c3f9071cf0a87aac83dabd44efad1de010d564a4f6af89;
  Dbl 0x7a8bc68bf5f3ed3bed79c11bf2d6b20cb84442dfe4ae185b0c2dabc38e74b8a 0x7249d7c47afd427018b32d20a2a81307bddc3e039574c80329aa786a22288901;
  Dbl 0x5b4fd9f4a9a79b1f34a4c426c1a467d36560338b1a5457e83254935c2b32ff02 0x40ebd1230468fbf85a49aa47278ec1375a3cf9c2ecc5bbdf685b265433b08d46;
  Dbl 0x5de7faa2ee4e70132f541f79ca07cd54a39fe1347a6844d19e9d678a8411a565 0x2c9f23641e1c2e0aab8ea9926b432d92c0e8bc08901d6ff6df85e4cef854ec36;
  Dbl 0x74e337a01c13b537323663602811d1d532d8747e81489415271411b172d04f27 0x8648f02b3a4daf96ecffabdbaf3599fb2ee85dae253b2c21ce66796114e25f1;
  Dbl 0x6a6fbd51efa6a855e82cb0142325ba473fd7554aba208a400737475464f29434 0x16f5f8529f55fc2b7cf811161d7870ade1d1617e52c3c4f579ea06b27616d671;
  Dbl 0x243eb188de73a5549b32c39d2ef1b29623709a9ead4c0e240314e0c5f69a9634 0x3779298951f452d801eb7a0b7eb224cca2dbef041081cfa582afb25b1f4ce2f6;
  Dbl 0x6b349eebfed4dad4a805b63a6ed2231a565cda752d9477ff427dd9a8c9ab5ed 0x7a09289ff3e1f9aab68aa374c48df65f550c2323607b97744dee990608b64f8;
  Dbl 0x482a4cdf57d9eadaab1c92b8edd4d15f66a39c16b2ebaaf9ec314ac0199c4f7d 0x7391de4381c2f7a80b3c5fc6145192983f115fa525e4fd6abd513b116e4eb04b;
  Dbl 0x3bad86defe0d244dcc4b246c137dcc68bf6b733d1fff688f33431f2a339f8f3c 0x2de3cdf2fa86ba8c2b899f9fc04b8d5384145c3f68ea9b6ee05373dc01815179;
  Dbl 0x45afc85dc571ed1bd5e8115a9622d44627cf19fc4a8626e7b754b005cb75be54 0x6c0c8abfa60bfc771e39a18f57b8142f7adbcf220b81ee2339809e4957777b40;
  Dbl 0xaf367956af630266b1cc760154256ed79da960dddca9d72a1e8cf27d8d43a77 0x21108d900134d3b3708dd28ace96b0b23dda9100e4b6a62a8131bd2f2ba408c5;
  Dbl 0x2b760154fc5ceb5a64141345f55b1b57e5b0b1d6c5a07dea8ddf074fbae70d33 0x7dc81af96fed42e0373411203fa2ced7629fb2eb6a2054e24afe3696afc20c02;
  Dbl 0x67dbc33418bbcd3878489398639484b6d6fa42f875b8c5af23bc92c69c5bdb6b 0x38436fdf8589a33059fc92e7ca7aa2250cc9ea48391b1e517c6fb056093af396;
  Dbl 0x29ea44a50a4b47b8b3dffa01dc5f2271d5439ba8a82a6ec0c454e9bd19448479 0x6c775ac8ab2eda8cbbdb4bd1196ab24630ac6c1f97389de19e9d5f63af509005;
  Dbl 0x1e45a60140a3b2dee9b8dc6ff307154a1b410bcd38e0e38fb10b2f6da1afbe2b 0xe730da473dffd60d2f3241a85e68acb47d26e5043ad047d893f072c8dda0a76;
  Dbl 0x61708161cb4660ff22c3c1eaafb1414244579864b07e73fb9bcd90aabec9935d 0x38d6936d12e8157c0621bd2d8fdf95a1f84987ee724e0c98f5c4cd21feb9820d;
  Dbl 0x48f451397792915909604c632c838021641749a67fb8e91301427defd951f791 0x315385d3bd5a22b69068de89e52a3126525be7da886d693e99ff2f088322d560;
  Dbl 0x7956a04df862178ee4c705ffbd30f9dcbccdfc7abe362f2c1da24b3cf9dcced8 0x5eeac17f2e772f551e761978b395b6ddea37a16aa33cff34a30a8453baf6e782;
  Dbl 0x4d1e116d136158c5ddabd4276832800f2c081c1072de6f2d931797a46abc0cbb 0x6d415be49d4e35b65cc51354b5008f8c43e84b7b5e8a4b84f44e1efb10c9b91a;
  Dbl 0x4b5bae5a77a867ddbee3944524f8e2ec8c2a6172c14bd432cd42148248127d15 0x739476e0b38471219875a4580e6742ecb6aecba57b8c0fa0d923b8de209a77cb;
  Dbl 0x33bfa90cc1b9df13e106ffcf6ca898d06b22d51df337243bf85b3f232869fcdf 0x53b120db6327cae59fa5fff109017d2df4acef01d2f10981439d824fb2da81d9;
  Dbl 0x444929347c2ded029bc19558b0f69a4492017a9c35b370711e08222bc0b9efc6 0x77785ec5cbbdabd645a3251e7da57c8ffc39158c0d7b25a4211c2aff2e1d6245;
  Dbl 0x2b6b892ae94b454b2c2d92bb947fc4d506d173d281779c2c153c001ded42d3d0 0x7f1cf64e0e180fc4d6e12c1b5c5285f376e979616a52c94a0dea4d48c5880cd2;
  Dbl 0x1b9175b7fc19a618d5848c5761c2b760529e3eaaac087b51112b1fcb422e04b4 0x1730a59fff4717e258cc853dece7c5f70ecb52cc35320a53cc3838c844ca68e8;
  Dbl 0x1371cf67fe47f8ef91246ae0485874d601e31984d854224569ac29e56a6ee87 0x71cad7d8350661ce798e332a98ee5b62f8431fd9ac5a4a48856ce9c4c5b64c73;
  Dbl 0x63bd671eca1e6accd0f980845b163ca4e927d2a74d198e78cccd8fcaa6aed372 0x460cc32f5d27a15f4294faa20a99112392cdbdc8515e9caa1ff4887d22a6e7b;
  Dbl 0xf6c3a96e0032a9394337a02ffb2c83ba70efb8f566feab530fc90fa3b4710e5 0x3d4e97e286378675038a4b58e84224ee515e1d6697ac79389f78479be167635a;
  Dbl 0x3b13c71c2a90bd24c51df6bd138c5d16208a9ceaaa8eb34a69469fade6abb440 0x14890a7ab24817b2bba826792e8fd342a6f705af800252616435be180d16dc54;
  Dbl 0x184b48cb455000542259174da9a6eb83a928b2835182278abb6ec091e388a820 0x3ee0e07a03dc33a9dd60c2682380ef736679a5e383faf453fe324dba26e77c33;
  Dbl 0x5a04ae1195edf508262196e9d23c259c937f81769b2258542b78e3c0fb135c34 0x676667092118acccece87e75f0a6825c5952f92dd499943efe831f9712c5e8b9;
  Dbl 0x52ee53b981dfbc41ddaa5ddc2754c4175f4811aa45f8e2b19a425657c238a83e 0x7eb0a1be3400dec87b388cad51613957643cdf0595b891cc6f925fb36da7f1c3;
  Dbl 0x501fe138924e05cc1a05129d241e6b5e9d46cd8b0bed38eb42ee20678a1d2425 0x2f8022ecede0189c215882ca856dae0f7b4daf6675181a558ebd11e6911cee4e;
  Dbl 0x2d8294fd94996032b73b4f09a0ff645ce8db39db5463f0fc57156a1d390a3b68 0x3a8a6faa67c6dd905a4fdeb95ac127c9fde3ac017c847ceadb2c55f1445af624;
  Dbl 0x56857d02674276af0099d63b04a39544a23b841cb2ef18688ba9500361e4da1d 0xb543a6720e318d2647915bcd619efcdedcf7fed0657be45d27db284290e72ce;
  Dbl 0x52a837bc7a7bc9459bcc2ecf80f74d9ed99def0342e18cfbe8e799fbc504fd52 0x50d6460185d8924e5485f23f36a98c86053514d163547adab6fe91478a411196;
  Dbl 0x3f30ee695b236bc74620afb10469324b45c8201a45cbd6954239e64086f3cd53 0x414231531dd52e5555640faeae608c4a0c205a04f56d187ba80855dbc0478370;
  Dbl 0xebc38c54fd6aa12dcc60ca5c72ed865b7c35a6bfcf98778c235307d306de6e4 0x4b3a1d9f2ef40fdb3e31ddd56a08526dbda15a4f58d78162c7bf23886763ce2;
  Dbl 0x3b75696730dc8d8cfb7ddb23241cc7ce78a13e6a377db5da527a1058e60e49db 0x34d031744cd2d9cfef9f9ea654000016fb3e8b4a8c44198760f46016166deaa9;
  Dbl 0x6b2bd5d00fab38ceca21a27d6aaec82626b14b555d859527718f8ca404eba4 0x727340c27a15f6ab3d80547f0827c56ab1ba33bc30d1ef3909ea9a3af10c67e5;
  Dbl 0x1f4e8938dcf3a6d5907d88572bfb36a8191aa9d05bae8f68d3f120ea165b2bd8 0x5a8b0c6f649f8e191aeeca653774a6ddfc8cf8ae3d4d232e2148433b9bda19cc;
  Dbl 0x8fe8df51b345989553484e20f600c2e46f4ed256f3c8dcc1615b872f0c2b925 0x2738e06810f4cec5d894c91432edeab5ba632e54d06f494b751bba44bc93abf8;
  Dbl 0x1a2403cc5ef2ad62b4f09afac79a48a5ba8ef74f3321b65a716164d49b141c74 0x7779fbcd8be50c9b021180ac97a544ad0c21cd1f3bd263ce5903b9afe4fd76f5;
  Dbl 0x71dd75fe35761c01a48597ec730bc33237902fd4ad8612cbed1031eebdf40de4 0x39674a4532078e34378667beae5cb55f814ead9bbaf7e01b3b69533e9f88a411;
  Dbl 0x300d6b0bd6734e6170b814d2f28c82de4a2debb1c5589bc8b2671e0320587090 0x40ca073d0343190c7f042b83c7bcabd3fa997de98f4bf0e2bdc4a7bf5c55fc81;
  Dbl 0x42545a6a59885c28266ae07652d24503c2fb5830c85817f6963981168cbec8f9 0x706406cdbd1ce0bdbd9ea269bab2e060b129d6da0f1e6983fb9b15672c2eb507;
  Dbl 0x6c1262e3f8a43b517673a0ce209f76cb22d7cd7e54fce6ac235711e441703a02 0x193841cf1e0f528b9a8d508a276202a84f1fb096c5ed013a7f486f0d269c007f;
  Dbl 0x57426aefc21be9ccf162e23d25ac3002ba8534351e65613f870f690f2fd46cf5 0x6b45b002fb4e8a6f59a6ffb006ed71f75434217333b266325204c7d1ac2e1f34;
  Dbl 0x205aa3463e7e41af60f5cff4853fbd6f748aa1b132fe5308807d22c5030b48f5 0x320b08e8ec6153e2be9955058bd26993bf50353e040c556ef8976663448735aa;
  Dbl 0x592c8b8843ca1f7d9ee692d5e29bc1612b0a98bea402c5c2e1e8253b65feea37 0x42a352d8dc52fef9017cbe617cdbee3aaefed1935aa62f8679af6f2a1d00b5e0;
  Dbl 0x41c030fbca90151ce0d0064a815e03825ed77a4ac634604ac7137bd3713af22 0x72467625ee43fb7ac67dc71c655e5c16e4e97c2a3d4445e7e9b33fcf0780f989;
  Dbl 0x6222bd88bf2df9d5d44b60cfb4a08a960078db7ed51a35eb3e0b6b8ff4eda202 0x325bb42ea4ed025dd6bdaed261b7c4f5410b608ba902b068f1efa5782e45313;
  Dbl 0x23bc7abc84cb4c4ae5fa62b25a0a8114e8406d9bb93f2091142aa2d8bdba597 0x4d2b97a739eceb14c95020371d7206e904f94b8f2c620dceed8511df0f29c9ee;
  Dbl 0x6d5066cf7137b4a5980aa453b672c84797fc6856f0ef5cf0c4be33fbbd39d169 0x54bb8cd82a0a87c883abe35abeb81857f95200b4222ea95b5cb347115219a417;
  Dbl 0x6b66159ac8702d4e34073b76629deab2d3aa50942db5b00e4a73e8be859362a9 0x19dd4bef38efd504e49b3a5d584432b9ce630883226031e75fee1a22c8ca96c5;
  Dbl 0x71ac99647b61b9eca6f0c23432a518f738aee708d5932d4ef0f172240250a226 0x3a96c2c028ebe5f48913be30147e41bc5e1cab9595d5404138a9aa1b5574cf25;
  Dbl 0x221b138a1bbb6548d2ef719bbaee436114e7cb6b3225dfb94c327667ec45772b 0x7951b295fab7fbffa46c08f6979bb32060974fb037bf5998d0ba5a38180cad84;
  Dbl 0x1c1b0d95db6a057eb34f28beeda9f6bbb5315285de2804d15c3b186bdb3f5c28 0x57bd5de4e0056cbb4d98abef9d1e0ed6cab1628ac08e36073e31d00a9ac3c5d5;
  Dbl 0x4f846fad2eefb8c948a8bd3a87d8b4dfa0a0ab643e724ebb1c91437c567c9f47 0xa2640ccde505da1aa9227bacaca13d49a67a199f0e16aa9f86c2a7e1bf02d2d;
  Dbl 0x1f6a1fd8cc0e05b2742ba0fc0369b5247670543637dd033e64dbce90b2f23e9f 0x779964401ee869a9b31c0ef874a86440ba85d25c2ce932bd31a0865869605e19;
  Dbl 0x6f0a87af6e0f4a05fa7067cfecd4f98dada3791f714a66648dbb5cbbfd4f326c 0x6b6013813505927dcbcb6a42e887cc1d5fca175e4cd226be6009248c6c6e36c6;
  Dbl 0x1f90c7ef4610dd083b3d64bac47574d9da326b536b9a6eb0f6c3134a847a0564 0x63344ccbe4169ab97a13c3ccb097c0f4fdffbcf6284412303c79a1c8ce3a2f7b;
  Dbl 0x47ac42e7c59481a928348d7aaaade88b00b7aae4e73ebe0dd20e33092dd34e07 0x28a6c1d1356c10ebea15cbfd161ae974f3b2a4f51ed06403c2f09bb58f7a8924;
  Dbl 0x22e2c039067920c42980dcb3a905fc91601c2b34e819ce1532ada4a5fc39d5cc 0x631cf9945a09bf26d7e595b3f8e3390696870512820df63c5418577089e1a8bb;
  Dbl 0x1a62e85ba4a14a3f24f9dca8529ca842f5c7f18a3f429886d6b13673649ad53d 0x1f6d17d9a1e5c5d8cbb98100757e5183551d00091183e6a5e1eb0dd514c8bdc5;
  Dbl 0x36b566a2c0f8e36e760992eb83d509238731939dd9dd0d19513f52e1e9e4f9ea 0x1bde4ad0433ee4e19e734c558978dd945ed244e38414387a43e70232ed39bb3a;
  Dbl 0xfc8f365bb4b04e275d358bd3c277745c565eedff84179ee72cbc5a3e38fe7b2 0x16f91c8191db1e7817455b6a395de2b0f4396697920ba0cd4874e2b534937b24;
  Dbl 0x608de273a9f6a534219d7aaede3cf65a81e4dc03d7a2765eced1d2b7be4610f4 0x3b31d0113f98d81ab1312fb2837aa9c8dcc7960f84eb371358c6d841f67144fa;
  Dbl 0x8d1e75a33bf363f2ef64faa0ab5f9582d1181b793ec9452ea93a3011634d581 0x47dd939350f06a41ea9c3d889d127155d0275926d05b5bc43977b5ccae42cf1a;
  Dbl 0xb2fcb60a19e6a0a29bcc1e5224ee0acfd648e6ee2143f90a5f5aa1c6d51c96f 0x6301b568e9c613866d76b4c693de25e83435344795fb78c3c5e944a1f33239dc;
  Dbl 0xb216ceec26c5cc827ebff75a3b41630d8925bcf8ae53c7dea348f4c0dd3ae27 0x563053b0dec5518f24c57a3f9138916ec287602e8a557819ad77aa2a5312bac3;
  Dbl 0x3f748617ca63ab3e44c6e34f63e7328ea56a2a146da34368a57dca181254fe02 0xfed89e6420fc47b3938a2891ba9acee4cbb2899ee4e9ca15a13dc527dc1641e;
  Dbl 0x8f050e6e4bbb5e43b756c82a0ffd60723f78c3fdfb49c50378a1083808c3cf3 0x38900048f0768542b4b9354736b6880632a94601a17a15adf4f233924875ee62;
  Dbl 0x2583374456f20c85e78e820263e1507524897a5232050bd0ebfc357d04b900bd 0x62d1c4fffd5ac72c7e7dd52c2bc9ea4077ebb7032a39291e0212da60cbcea18f;
  Dbl 0x5b4079d8c7a5a10bb68984233b2726bd95196ae2b50e6052441fc4e5b98881d 0x2329432253e9aa57901c1369e57e54e4a363d2cfe69069108c833fa8d79f612f;
  Dbl 0x69d98b5ecc35d56c97c0bf312955d199befe116b417d70f5f57e2dfd0af81ce5 0x3e26d487fbfe36ab44e0ca3b248fe94bce92a69b8154d50e2d5481f8259f4e8e;
  Dbl 0x62a8a839f45660759f741c7892703326e4ad11bd9e102c0770af6ad49dd4b6d9 0x3d45d6c61b8a03c29d11cb1e9660112995fd3bc8c1553ae897448b613555bf3b;
  Dbl 0x4e1c036204e123f311e8da4e3fa212fcf0acafbded425b71a66b0dccb2500e7e 0x6a5908d961f00a62a2ac904fd824f6932f0e735f257a7d0d273d61736f1bb1c8;
  Dbl 0x7fe8906b455e9f3a49464810d3e6b8e5fef5d17226ddea3b18f08e2ff8552d6f 0x1300ff9d28f135030203b137ea4a3ec18d5dd0dd6b29a6ee7040b97b336976d3;
  Dbl 0x1e34443347f9e627b3531157faab6eaca1bc3114df4a1423cc12bf8417b5d622 0x295955a5ed061eca7f87b9485666ba9489ec20a9c484224dc920350bb4a6fc79;
  Dbl 0x4cab819c06b2f861b4be5b06a918bc314bf29f56cff389ae2ba8abd5f1f5e156 0x1f10fb18bd5ecfe633b53936f70ce8e58b6a864e679297770f2b38160176681f;
  Dbl 0x7c686b90cf6ff6a3a59cc7d8a5e00a2c9b2204decf83f96bb56b53ef630df083 0xf1deab1d3a4a3d2528d9103d118fafda873ccf0a518c45821d51a7fd71533;
  Dbl 0xaecf4e5a0c4c4da709921a44dca45965f89a3215bb5445cf72dddf4ade53a2c 0x19304020c00e6169712d6050734bf5c51bd0af80b5ba4a6a0ba008e965216807;
  Dbl 0x51f4ff8c599b1c96da82941520a9f5abf4a31eb8b84fc95056145ceb3b5775d0 0x35ac9588d46e41f3f6f99aee3852eeb4b12e807807d4bd1b7f8406b0d7863ac1;
  Dbl 0x568de690133ca63f63c08161d852682fa5696c0ee66bf8f3ec729b6a71bf9741 0x4c48220992e8e64741dcdc433a0e65b43a5bae7f4d743e3d1bfdb123773039e8;
  Dbl 0x3342c4717d55221def46b89fdd237cf4e9528170f9b524bc6e730cc4663403da 0x50676cdf00c935368d54ccf1fa7dd2671cd7ea46686e61fca49dc6a85b6937c5;
  Dbl 0x3396978bfc50b33d58eb8dccc52201ef36dfd27b914d8aa86f6ba45d29424d9a 0x5ccf1359113c127dcb9d35bf9107cccb453eac7ca7ddbdabb1d0ca4ac8073393;
  Dbl 0x3faa2a093a19a02424f65a10955101f4dc015c43b2dfce8e001507abd741b845 0x7a1de10dacfda389ca663b15574bdc8ae8c5b6e7cee647e77b11ddbfc6eb8edc;
  Dbl 0x30f9cd3076c51c96a9baeda10ec893105d920f022947716064e32717aee8e3c5 0x2caedfaa420120c6711921684f9f5a2b8079045fbf3a4efd7e4fa7bc8cbdb095;
  Dbl 0x6070951e96e618be7d750fa819593ecbfe9c26972471ebed72c093714b7e6e90 0x7bb8b8086b2c8f273841de642871dc22c7adb51944d64304c0fe5f4c1d3e6689;
  Dbl 0x1ec0eb040164dd81f57ebc3a26c3e8606154303a1e5de3af27b1afd99d27703d 0x3df62c38b3077c694268ed7aae9a3329999e190eb81f07326e5cc3a1d1a42cda;
  Dbl 0x1924416956ea2c1269062588569b18178011ea7cba1a3266284f48aa01d5a90f 0xc8e28127b7dcdd206fb6fee96eb88cfc7db7319826ac8cdb8b1fb8adaf021de;
  Dbl 0x2898ffaab663ed49ec57038cecd898fb84076bf49bf6f5c4403aff28ce974493 0x94f3b96ab6c9477e759d6bcb9934557e613a0f4fa4fb6c6f4b3bc46f335163d;
  Dbl 0x34e2ddf5115701105d5d590f6617ccd7716c01b247948470c1514f12016bf75a 0x1bdaea88b78eb71777558f7452cd868e6d7fc33a0f85c3d2038bac585c1fd926;
  Dbl 0x4cb56bd83d7bb25558c34ece98dd878ca5fe850aa79f4bf656269fedfe165cc8 0x5d1f6fb463251914535bd81a9f9a8aea4d5ea5309b86c4eb8fb4a7fa15a03865;
  Dbl 0x49761c57ce3c8c4f1435d495903e2f536f3be3712e76af8d0b5a8b7d1ebc8fac 0x3225035e1065094ef32d7f3e7a6f8ff2748025f96e0c0b44eb35576b61e150a8;
  Dbl 0x654b39f4650804bfb7c76a3d254377050002240e2f794f8de21de5640fdc60a9 0x50ce7be2f1011218849a34ce62654414a8dcaea8b4db9b45dce3b76a6b121996;
  Dbl 0x91605b338ea1bd98bdfae06ba25bd540525a3b02efa65df30de5c6e8c637d0f 0x1df405521e9a2232baf654aa3d2f66bdd6d57fd5bac96f5aa5f8ad2864bf8cc7;
  Dbl 0x4606fdec56d46970938a8f9fa5f24624f5b9c6f488b72cb1fc87e4feebbb1faa 0xf00d9e6656d8243e0350fa5b89beefa58e9af955ed650a6d90cce344ecf664e;
  Dbl 0x4339fa86a23242851a16afc3ab05b352a7b4bf53599a49dd7e29d364fc3a757b 0x6d07cc3462bae9160bbebb997510817040767faa9dbd13f158a5fe8a63a34b0e;
  Dbl 0x62332ee4f8ee5e56398dd304eca6ffbcde556467ba2c0d5fabb64e9736c701eb 0x3e1bfb3c0218cf9f7e6a2f47f179f29b0ad68235929b4921fda74bc89fb8ef65;
  Dbl 0x7b9e0081b2e20f4f3d3f6d57f7bf977b2f192142a2a9e40b1aacd15140c88b2f 0x93854716ef9794d2057036ff3f97da686fa3a1784c42279e8abf1fcc42b858c;
  Dbl 0x7ecfa6b215265291f32d21771e88699aac3133fdb93ef3a479f95e2fa8742940 0x10958b5cdaf36afe557b7e60184207ce6d81883edf035bea63cb7da46c4720c6;
  Dbl 0x6bda13918dcbaf8529d6326ae7a9c278b72417c2188c5ea4f062fc50639295fb 0x2c3fa803b162ee887d0d97a6734866f992f846625f314117075da54bb6c20a36;
  Dbl 0x19af956d2b5b4ac28b0c67889f19ad66a40f4bca1625e2007963e8a98a70b14a 0x5e228bb5fbae687754307287833c3245a1ab34684a5a69174f72b460ccb69d8b;
  Dbl 0x45bf322997c4469aac6d1e4251fb3490e60e7c0cd5cdd6f5cfb9bbc53587b9f1 0x529d884884075753fd9a2f9ba021ff427fea7b9773f0d4885da5edc024c69e66;
  Dbl 0x39632228d7d1471800e549128f91a680c9a64e37ae27d919a2609ce21522c607 0x6f59557cabbd86e8e4d546e2aae6ac26b27b671ebd049539991e9ef27e00e2e8;
  Dbl 0x4da4821314574d4fed4dcf692c8b15b99b73f13633210333ce7871359b6e6424 0x314016034673d2d20529bc93a2dab6e462bcb5f66e1f4a6bf2170759a40a6e65;
  Dbl 0x22423cb8e82129da6655d94354181feb5b1c789806240b135c4da1bd156d734c 0x627dcf9be9be798eb639f6b776ce9ef34573c7a7f1d1ed220b1a23156f08cdb4;
  Dbl 0x4230253b946f9c176ea49e7fe2b913a35738999750b1e21555104dcab320bb4 0x4db9dd92f8d939e6e4d0b0245ef57a62d793b173e977b8fa69558741d1e5afc;
  Dbl 0x63b06e648bf7aa8e8bbf75c0f3e0bc5d438683b063be9f4f09de91589756d7c0 0x1b17d88ed99541bf1b2cfd50b7d4d87ffd627bb708d0c2445c68249be08bae16;
  Dbl 0xb2cea0029ee963c0034b61bf19e384435f14554a7d297b5144838c38e375586 0x47ea95da28d39aaade5edb8ed941c687603cfdd1508776e96d6683199e99daea;
  Dbl 0x6e3d157d1cd96bb4ed4cb069497e6041334d698b1640a59a44a45cde613aabd 0x72f5ce3c9ce0c93d9339b91978f1d9c688b56b3a3850627c7d7f93c427456c7a;
  Dbl 0x1f13202c95083f854583ff4cda13ef4b1e745a880460850e59e22c567d23ea24 0x66336d356c381b7ef21109e7fdfd7ffa0085087eb55c4778ad42025c90275f48;
  Dbl 0x1d4e70e7fa35c13ec61efe8d7b8ae9e621144c1eb2454c350920e4ac81360393 0x7b2807a91ce09ff20a518d85be729e118ae448b51763e880abd15795ddc22e61;
  Dbl 0x4c27afff3c45f32c952d3984e14e29a098e685c9c2e723e5fc8047ae60b7e824 0x5f2c99e6526dc87d95f11eb626c29c3a90d0be1e51a4c49e5bbabd114bf5a66b;
  Dbl 0x786be30733efdaf7a08157f7907d6ee4f6952c728fbfa269fcefd1b43224e085 0x653a5f772f34985b34270ecdd4fd08472a7c08beb39d69be4eab0712c63e2736;
  Dbl 0x21fee4804968a933df8957815bc8dd9cc6a4d06beb4d19b36cb822f04c2eaa13 0x500b7740072cb51d416c5da150858339bda5367a8972c2313060d3e930901700;
  Add 132 0x7ea78304507728dd99f0086fb9e090c5967f5f6a9c5d8fca0a1ec954baea07cb 0x754069dc0e577bbaa4e6e641df716fef040ad634ffe944b8a97b3eb227cdd25f;
  Dbl 0x2a43c009484b1faaf8dede6f6fe34d7fa6748fc3f5026e350d124f34823d3f0b 0x3859dc451e6c19be1d7aa2a00dccafda2c2b74c58bf065827d8cdf29dcfe3f77;
  Dbl 0x28e5aeef868576117d40fba6d18148a6057ad9fbe8de8d038e2742ded97176f5 0x5b43a4a02f8caf711a26c0bef6bb06a23c670402778b076de5637978022a0142;
  Dbl 0x20534e2733b0702e18c1cf7347d3802dc151b2a2422b0bf8700dbd72cf0c36ba 0x4b080f81fc24a4b4bddde36fd00fde71c96627045563014bb46fb9a40a81ad98;
  Dbl 0x23018ebce6526fb121adb89fbfef285149144479bcf9e6bdb3dbd49a0d41bafa 0x1da419481dd95d5fd6a22a6872f0cf47edf7813f3e582ffcc9d464175c0529c7;
  Dbl 0x21998f9f2814bdebcaa2226dbf8dbf541156224b81ca09de37306f0a5720a47f 0x6d318304811effba77655691aca52de6a1abbc8d3c6475cc74c74496f3645bb0;
  Dbl 0x37d8267b60cebc6e166cac3ed747c59052f7ece9c9eb8c7e3e3d6be792bb93ca 0x75818d47fafc5aa85cb5c1d756ce8b5d7f71d2351fc9bb6289d49d8aa686a26c;
  Add 135 0x7f39e0519cde34ef435ce2a7be21029b6cf1de4d3f3113ba6b374d3672ce185c 0x4ee68e54e99b5679cd29b673be7e929a4861e4b905d3dacc5424e7f8c8753ba1;
  Dbl 0x386390cb42af5106c2a40ede0dd0348e110822c6bc696c39aae277271648a1fd 0x17f3f9fbd70e2c8a0da707569cb9cf4c0c55713632fe542d1a5a182849fd5343;
  Dbl 0x551d0ed3a66bcdb201683eb76003d497320c24dab242388f7628e45293f7ab9d 0x1ad7f746893698c75b17386f821cfea2522b87bcb0da89fc4fcf052af1dc7f9e;
  Dbl 0x59254572f4c6e89f8083ef1efb0715fae7682aa9b07162cd0663d5cd8bc5327d 0x5078164d92aac3586741767734826fb2b206ce1490fae3039edf42f232c8f0e5;
  Add 142 0x6961aaab37b03f1cfe2d3daf27a84a48d4d88a5f88cccfc80bd2ab34ac1dba56 0x5a71785d54b24bf8d1248aa4725d8c5c82e1ccddb29e9a0b0de92fc212c9fb2c;
  Dbl 0x75332bce246d8bfd0c9cba7fb512cd55ca2b8f98f16a2255430271d0a9e24fb0 0x2766fdc8090fb8179e50f8965d28faa5dc7dc634642db9d90c514e6749d80076;
  Dbl 0x1339f6e2373d1c5bcf2d2d5ba09e8d5bfe4ce052451128b6060643380649df1a 0x6e5a9a384767243dab4263da05cdfe19b56ba6902f7f72fb9f9fcca97fa38d19;
  Dbl 0x249b6c98f892a61cf7f1e83c703bab2cee667ea5c2050c8ef5566f6c41f13e7f 0x1508ce78451c9059dd10bb0f3395d30dff066b3f0c495bc351e63fde33b04f7c;
  Dbl 0x74c438f2e6971196bfcf753d41b014611231018afcd776b8f81c26ec1362328d 0x3c8ee8599a42e38f0563cb1ff14290fe08f4b6ba83e0e1c85e2b54f413bfe3b8;
  Dbl 0x6b55b758a1cfb3e8e3ca15e5505d648acba2581a318bbb168c2241818caefcc5 0x3b5852c0229799e3faf834e253d331b0eca16f3169391bd64306a87eb261fd70;
  Add 144 0x1c08aa4b58e3694f3479b6cca3d7ebc1f5ce7c7be450eaa3c0e722c9ef341800 0x4088acf7361fda921091fa4070cfba9bf90c39710760219062ecc1a30a4f85ca;
  Dbl 0x793118b0db982ec4c67f9ddd89cf43fa07f5c4e1356ccd7b15bc44c7cc07d139 0x23d62511a462a1480c21e2682985d4ec9838a6b73e1898f8bf3f9ef6d053e30f;
  Dbl 0x5ecb9ebd0eb334f44f28add64956ee215e1979e3b9185ae2c2ab43c9921ef435 0x7c43baf8c5529d3278e9c1962a387635d3995b34ed59dcb7da779a2b61e9d12d;
  Dbl 0xbfc392d8f9299ce4d89e7f2d6ca8f7612b1b0ec171e02dbe0e0a6162c02c7df 0x50bccb1a72e6fe53dafd467620333d95858b458c63885ac9deda7c96f06bae06;
  Dbl 0x7ab2e3d9c2901e2941c091d27c010b6a068500cf27e7856c8942ec393abaa09f 0x46ce5345b3f4a4a093d361f3769e7e7ccf4d606969399bd63450032b6360c55b;
  Add 152 0x9f00a580ed6c398da955eb2d9cdb9b8cfb11a54a2cc76b1a99b7285b07699c0 0x2a14b220b33d055d2adec71b5b1d3b5accbe7feae883fe5d739777b2d9b5d27c;
  Dbl 0x5e7be391ecd0bafd9e18843dcb7efcf9be85a1d5489568aedf9336673d14a773 0x52b870ab3479404c390697f20e1bf88e184714a9f2b29ebe956885b1eed4bc74;
  Dbl 0x1f61cf9e79f59f58ccebbedb37b8a204255738e51469eb3f28cc35a6e3d0c076 0x347365cef3c7fc3bf58452a4122896b2989772f7558fac613c3a8dce92c3d225;
  Dbl 0x5b3cb1474e2cec79392505cb40148910d921d21c39e19968a1561c2b48c5a68a 0x8c6417519af2f12292df37eed14152655e58d55efdda3125d8f1076f03b4f09;
  Dbl 0x46f4abec855009b379e41e573f186713a22bbd731fc77c374e962132c21657a9 0x10451cfb157e60bf4e8f0394334bef6cf7d745a3ee07a419c208295d3923ff1b;
  Add 155 0x7f5192f483252e208b643b61e187013608693bd61087fff4951f925426fc37ae 0xd2b31ac34a0860c2fa7e82446e07ce21ff96512c04486c9ea72b3f2d66bad4f;
  Dbl 0x2187b058d777c336b50d1dd2513885290710c23fe4d72cb5942f864055409d9a 0x76516cf6d4abed511f465417d24ffe5967a32d394479296dc1397ab8db03191b;
  Dbl 0x7dd342c4cb53f8fda43d84df1fce45fcd88f3bfd02daf413538022313580a1aa 0x490a56d76d6320145d63b8da25001be71ec5de85ef152a4233416e39418374d3;
  Dbl 0x28a7c7ccc89c0dc4d1bef8c9526c05a2eb4e65537eebbe9c2478abfc9dcc590b 0x9b31265c38a9168ee00775f7150820c2b2010ed7140421fa387c5ef83b50391;
  Add 162 0x695610990c75daa069c813a631a6061183549d768846962090f79dcaa5dc2be9 0x526e2356b1d33db3ee1e11c8091c11dc69fec730bdd5a0533e450c13a1c7af54;
  Dbl 0x23afdf0d6a7e08f389d5a51847ced4f31b415ce3fa76997252d3c8042459fb4b 0x719536c017cfa3c17acee83a1939f41c822b8db2c7ab21ebc87dbe019385bc0a;
  Dbl 0x28673d4d20fa9c1da7a7d66b9bd72bb8aaccc5b432cb4fe440aa9ec94d5e4855 0x7605e384da666ce248309556829eb2a885b2150c839606128462591cbea71253;
  Dbl 0x552a88f402b452ebe51a30dca8bf28c1dc253fda7e047eb8bca392fff3d5c727 0x3afb6ecb8561c3fc74c36c8351b9308901ec3431181a6d46192afad3908fb3af;
  Dbl 0x3105423b1014bcc857c09bc661bd63364526272772345f4695bad64e671108cc 0x5fad83c05358dd106c41ff1d7dfd22509ae7723322aaf2ae9d780436dc2d9c57;
  Add 168 0xfb308074d5c933379d5a7235fb5c36717668e748ee8c9ab3485ae054b0aefce 0x377e44a7603f8631565afac9f1e95368f51348484c1b83367c8d662d86b90ae5;
  Dbl 0x76145e80bd944d3b04b759c1ad23a0bb149d0a3d63878e4bbf90aa12d12533b1 0x3a8d4a424e897751a95f74c919a41bd7198083b11858e603989d2d52c2d965e3;
  Dbl 0x18c5bfe58d2c9dd2e8bd77b4d6ea13dcab3a43cffcd0ed8c608bec658d135459 0x51acaeb92ff3674031943f0152de2070dbe5e98e57a934c39c276e5ff2b2bb75;
  Dbl 0x70dc9136f5e352f230cbdd689ae7d73d1ec8b4d6bf4d5888a180d27186a88c6a 0x4ce7b00ace68ed9a47f6207b7d268b851bcbd00bc04a3d7e54b9f353f4725665;
  Dbl 0x55007a544e5d576ea1427178a016552da596fd942529c042a7fca6e918add5e2 0x5f910ff923bdfca6902c2c387a9fc7ac792699e52331aca00e6c0c9cf1635816;
  Dbl 0x1e16e28bc8fef5b8ace4cbce33a537dc5a43a95c674e0e76b121973713b7f06d 0x2a4333702f438304ad715a138d0cc33e51eb23fbe5f82209d9f304c223d73290;
  Dbl 0x62e2ff8473a79c85822ae73bf96472cd6ce356cba7bb21db10a27d3fea673663 0x74fc42aa3ae5d892e20252eeb976901b70fc1fff5f4189a635312fe348a2717c;
  Dbl 0x27607138664d5b68fb01f6f77f3087a41fb0acb953654d484e3c5d4c7a88509f 0x2bb78190a5ec69460d2a93e7673c793669bd27cd65fe861084578e5c6e25214e;
  Add 173 0xeda526805ac53315097de854cc424364de09b677c3ba5ba880d79ec99704fe9 0x17650d0facc47c02820c5f6624c192fbe7ede447f32b132f01aed546ab842e4e;
  Dbl 0x2f07a78e2bb067591789912f582c61f67fe0cd5b8245f5184ab2702d00f3cd0b 0x1e49b86f7350c617577430927c7de09689e134108dc2611839ea9c6080cb1cf2;
  Dbl 0x2bdb4fd3294154bcafedde160ad6a1cf372013272852476519998a75d717783c 0x5d6c356c5fc9e304d6ea3a51900b3af9fed6cd174ab61099d80fbbd4cfd5b22d;
  Dbl 0x7c315aef24caed098cb4fb4009f4f64162758ebac48ee842a5288dec2b0c775d 0x478837dddd6d331043254127f15d316717e2aedb052c431e1517a020aeca8ef7;
  Dbl 0x3a130f2b1d23b092048472b07357dd17c4c7643fe6d898d613b65fc3506102af 0x518384230eb2c24d80d8b760567385ccf44b208a59441a401cd8e27b3907b0f2;
  Add 177 0x733c54266c4dca9986bd571ffd5d6ecdd101d795bb1bcb4e27ae488f57b1a022 0x6dc0a5253f33f9e1634fd4341dd3da9db3257f4bdf8d5ff14e17f3c938072b35;
  Dbl 0x47e5ccc40daaf95dd24cfbf29964f8fd1963b46a4d8ca55590d261a7013c7c84 0x1d43893411bd1e13d99440c4aa1ca132613c53b3b114fb80392c437b4d623b6b;
  Dbl 0x116cced1e3fe29c23e054a69840dd16b7c09538d624be5bddcb79f2c4fb67d5d 0x57275ca87dd28438f9d78851144c1a2bc4643bb3ac6bb8a83d8f74021564fc;
  Dbl 0x4dade5fadbf1a43c2aeb194b53b42492c0624671a70fedda72e9f9eccbc5c771 0x7565553332e6d4ed24ce900e74c06e04ed47f21f1da5cd207da60c82463938b0;
  Add 184 0x38b134fcb2edcab14185bba354a60604e140d8f943881c570611d622154c2a75 0x1a683ec8479e69fc479bbb93bba4d7f52469c7b35e5060e8a91040c08564705e;
  Dbl 0x6db79d4b001f4031c020618cf2815d977a4875e0ec42eadfd8e0d3f40b9ba4ae 0xc277166834fbf50c3a3f59f302695df43509a3d809155095f18812ba5d721a1;
  Dbl 0x45997974317248bb37daad58ae6012f4be854f783c828af1e0d942e976c6a6ea 0x79da8f28ff1410729c2c806fd139b054472c2123f5b8d92bf0ace67d5a9e660d;
  Dbl 0x41ade170c60897e875248a33d60aa555e9a75222888b7dd4bf6ce765854b3c48 0x62659115f742ef046d832d96fe2cbafba859d74dd7a2f2b67a942f0814aea437;
  Dbl 0x7c08b4efd14aa63d2ebcd76ce6031463fe31aa7f0ae221e9704c7970708960c1 0x6759fa74ffbef36e31cf49e7fbbb48b1165e4c948f4af0910f7fa524a9b6543c;
  Dbl 0x164e5c13d8cdde1f42e6e30facd379f78dbafdb1d5163f214f8d549585e6de96 0x2602b9d551eb16b7a14d4d4d6a0bf9b1a0416651b6e45da0c59d4b3bda7ca984;
  Add 190 0x30dba84f0cd132775194b4a25926320b2b0c5f120204d8e9545d70d764fbb206 0x1bc931a5b331adbfb5516736e78c6ee74639a8379f95208cc44233f1438ab76;
  Dbl 0x44987df38f8a506ca81878c40461a23415d958f4f116f1f666a9dfd0617c8290 0x525618acec7d466cf74856a317edd906f8a177cac55b5fed5aa1bbaecbe27d3e;
  Dbl 0x567c281163625fc06276e3b75fea4870c4f3077ca5ef80dd6fdc51dcbc8afd1f 0x7c9fe8d294d9748be92c38f17e898ccbb2b20612851621ae12c599a70a3c6518;
  Dbl 0x3c740d62104030e67d04224b575858475076abc1b6f6c5138146857ae99a2890 0x6080a124de94a827a96e1901ebf763847cc14ab06a9d899572f4ff9d52126795;
  Dbl 0x12f595d56f634362bc7db42e0599d004ccbbcad0345c345d7f5417dfa5052b7f 0x4177363de68c70b272c67420bbde72e14bb49d427e0735be9ecb2a92476fbc51;
  Dbl 0x12ed6585365800a1444fb5c3ac8256c216d71ed7814fc87527170966f69d5c19 0x7d120f0d3acc98f182b3b0c1509ae793d8f69c38a46c4dfaab2071a9a37b3688;
  Dbl 0x23c49687aa7f17171c0e03b75415bcf6c91ab3843b403cada7513ce350c8acb7 0x12725e1afc6a67440384d1743563d228ec677c8e8022f42e7de961497d8efa74;
  Add 194 0x4f175c88f1f18c44c21c21d4859f4ab50eaed92d362b7f22c574d1887b1cf92a 0x3c67a93523a8aa9763a0ad2b976c66c7cf62181c2fa809b15bc4d25be4560f38;
  Dbl 0x432f1938627f74e78671e2a43cbcb213cb9e35dbffec84a1941d0573b206498a 0x22ce09d583c2478325374ad3f55c77db2950fd2989d41d94ed619759c00b485d;
  Dbl 0x69d813691098c822fb29c81e1a41b313ffadf5a69f17943e1cfa2e55dfb43122 0x2a216d2062bc2644ed0c18491c46bb9dbc8411411aae71f7cfd400f652b332cc;
  Dbl 0x52b9f38c1ab521bd880a5533a222c342dab45a9dd0a884ed307b2b7642c1af28 0x14eb5c12702ea886a3965e7df60a78b13442c355e689fc5bd3b7030856725a86;
  Add 203 0x6a9eb9ab75e3aabd8bd21bfa246ce1e1bb598826469899de07d45d5be9e3df5e 0x42f6a437f88165a3c2803a64148544f81e78564c81a59c0ecb6964ad7bfde2ae;
  Dbl 0x28dea5b653a8874341aed397c2f47f0e9f4e8db796628257f92a4a613a4dec75 0xb5a5f41eb97504950630df1cc279904813319781798c75b73e3269b123d4ef9;
  Dbl 0x241fd8625768d336c5b2859ece0269dc744edc4f9be6f2a152b363c938292e77 0x67b74adb92343107a0e770761d62e63d08d730d97f4aaab4d7a507e2d7a4fe9a;
  Dbl 0x14d4d53fd40390f03d1980cbc4dc1068b52b2f89831f71b3b589a6fd12cfc35d 0x772b227c06bec255c207246f14a22fcc6c202661735a889ba8d5ce604ca7f3c0;
  Dbl 0x2551804939abcbefba313ccd14e074b0cb45efd233f2a6f01e6e21336dca9278 0x36b6c38317db8da7128fdc6776b8019e400a0c7d41084420d2f0f83cb3dbe428;
  Dbl 0x65c1d5bb4ba1b32a9ea97a1acae804314f9f87baddf57c4669b8c0e5e6c894d2 0x49e800a256fb67fa6ecf7690c84796783abfcfe4006adb97eef174b89cbc2302;
  Dbl 0x79c92c68f1bbc0069701d8ad6cc60444a5dcb7bba6990ad11630c3972d42b5e 0x70ad3530216e979ff54dae9a3e52ae9244f74a8848328104122f3760cab499ff;
  Add 206 0x66d729896eee90b4b256708d50bbe2ba54e92aca741ff1634b6715b51bf313b8 0x5bbe8edb8f98d5ed8031069799fc0e65d93c3d3bf4475e79ddca1cc775f905d;
  Dbl 0x46ed181fa9c14c7ad6f26af9d8a6f3840369eab60751da48e07669441e427e88 0x3159da64986c457fdc9a558811e02f916c3c1419e2ec7a77692bb9aa03eea812;
  Dbl 0x708ac5959efa659b950fd201d9d0dd1b0500720050201eaf649138e5414a076c 0x35ce4b8c44cf204403dbdcb41ea0e409dd8d2ae186f7e2fa34325950a3f920a9;
  Dbl 0x4bcb5fe2d71d9b1d24270b76cd89ece9aec968750ad5286dc875bc3cf3533577 0x3628ed54d02e5dfb64d0327c29ed40ab476e047ce4fa7ac02586ccbc75a214db;
  Dbl 0x63f263b8a78463d91d6b36e9dbe4499ffad5687c9e7f0dc45310224b10e4ffbd 0x57522c241c319711600da8563792e34a86220a1f9559bbfdf41b46e0d1610bcc;
  Dbl 0x15def7d3220773cf17caa0acb3cc1592a0a3b31a9ae0c32119b23f6609f59678 0x13eac586b39d40545275d33b9a1b989c179b72f043312898e49d2671aab0c404;
  Dbl 0x3a7ab5d0456fd731ba66658fbe73219dd5e3049211b65cfa0f95f354b521a9e4 0xf8aa4214d8d1b29eb9b07bba973c12806495b5e821bbbcb3a571fac21c1970d;
  Dbl 0x75ac8909bf1e224f29732dcda6c64471cfc2c0480a9332a5ab6262f3e4e74293 0x3cce4b3e3043fbf4dc7807940f5911dd415445864106e12c8815af37d8d2995e;
  Dbl 0x34ca61574cc91321b5ad642e8f2d2d2d05b5e00e8227073a6248b7583b186aa7 0xc9b889ad6982015c548c41e5e186f014070760bc10587a7c5ef318e287f7b2c;
  Dbl 0x10e409864cb52f7cdc92c3b764b79e44ed77f027ace539cee00663df658804d 0x116c4d8f4066c44122873fc74ab67d3e9df6a472426fbc1c14ad9ccb76126713;
  Dbl 0x438d7a1f95cdd8772f7d6af542dcc27255a11c068f06169b8312980e7eff99d4 0x6b89bff37b1bcd26e58f7329639ddaba612f96bdc67d366a5ae5add731536890;
  Add 218 0xd47f14c8c132ef07b48fa44bf77800c9a711992cfdcf161d5b75fe915911ae5 0x6b51fc6e8c2bf539b9c06d3f057263f1ee1ccaa6ddeae7f4fb3236f74bc26441;
  Dbl 0x432a126d4d4634439e01606c5667acbcb3ef0fd1d966149e325d9e30bc542ca4 0x22bc7a01c7367c8d225e31a32809a7f9b2e1c2dae1b580960039e0cb6d2a2934;
  Dbl 0x2b5fb5ddd21b1cae59e1ff994944c1a4fe17256aa02c974d58b053e07647a145 0x79d648e277e566c254f8442a869ec17b8071e46c526184439cb0c8ebd5c615f7;
  Dbl 0x3eaf1ba76a2b5f0b11d7e0daa387b9f67b3eb87bae0ff2ce69e02569f8939d5 0x3f04caed886ef4e868b85e242ed1a6263b98b3347c06664583bd12dcc06c61c3;
  Dbl 0xe4107020650a2532013c3906eaaf93c5bd00c897ef9b7b9a91a0535764413a7 0x6cb5a7133144a359cca08f14ef992a0bce12b9e63bdf2b60c05533ee551416e3;
  Add 226 0x3d38b1c0c66f51874e7fd89fe5a9c1fcfc236680c0afbf9d461a20404ca6d81f 0x6a557a5fecdb3472a824ed6bbd1c8e73e159e6a2b59fe9f805a5039a1b808746;
  Dbl 0x93fbbfa99f64dc86cb4205e79c0b3efbd7144cc369d8b740c298bb94120e7df 0x7db56a89ccd1a70bd28f0aaa384b91ee26baa9321128324b4a66dc432a15822c;
  Dbl 0x249381815e4b1cba475fda1c544f5845a8f4115a73a124eac6c0f319a926fe59 0x3a03adcf9dacfab38be8536b09881ca3170c9220b3469476b55c08c6a289b5f1;
  Dbl 0x6ae7e7952c5dce7537db7571a53051740dfaf89d4da25b4201912dc9278615de 0x16f2d16d2759ca1e6937a253c1d101dbc89ef93eeb2b638a5ebe74337add37b4;
  Dbl 0x4cfa44c0c5be23dce4bab911fbcfb97fc89ecd6137a641c70c768654e99b2c25 0x4c3b1bdd8fda8ad330e2c86e38b2bc8f5e8ea900ff3946d9964268d96eb01d9c;
  Dbl 0x50908269e007aebb1563165032240827fdf495a8caf5fcc10ef75c96309a1d2b 0x335ec0cbb845a756fdb6622c29eb970641ae36664edb46b33cd622ccfc5bdeea;
  Add 232 0x3926bf21cba647fde8367602f0ff38c251405dd90cf2172dc4bf877511294a43 0x74df064c09cac0feaccd1f1a52e21605469caa26ce0bfa95367df75b52399425;
  Dbl 0x69636b156dfb45574cefce501c97412f1bd9a32637fe427c32aeeb0900cc4666 0x325b718ee3a989dc2143836aaf2aaac8045df1be322e4c7ab29aaec1ff03c3c1;
  Dbl 0x56ac2f28cb88eb654ee053238535e1811813791d23d0c7481ff2e86f8af419d9 0x76200ea57cc69ae334d8625b0d22d96f140dd73f2f986350b2365b753a759060;
  Dbl 0x25fb7eb9993f0be9b5ef8641dd843f65354f8a61d26f2b12f016266929b12f31 0x490fe8962f6ebfa75dfd14b3baf430e1ae9d51b73450086c69feb60e22ce937;
  Dbl 0x5cca363a50ffe6861e78963f556ebd1266f04e162f40e61238baadcce16b1062 0x614330fcbd5ff656134bb6dbc0c74c87def250a24501c7e537aaf1c37d5a251;
  Dbl 0x7226940a5a69eb73c2688b725d41a0bfc319b1a8fbc986bc7dd50879b5521814 0x67aaf7c8745cb61d98f3a18a211337c5029580871a180493660a80f52756b064;
  Dbl 0x2e801a7d1df028cb5a08f43e6bdfe21369eacbc6e14588153294f1d2ea2a7334 0x5a984118584ca4f38a8b40cbff92a162a8922867c23060e86d6305cd265ca224;
  Dbl 0x7997f1e80d62e1274d7684d57b3ce682e50f722c8e8bd88ab813460311369e4e 0x70cad909ab09c3114cbab7e2d8850bc90c0bdb1f69d4b18e8e6e5df0cc2d93c7;
  Add 235 0x7ea9dd8c6eec859f500b5a73dfdeaa73e360b4487e59d1eb78b60c3a2cf3936d 0x750f204980a75d94747bdd36a8e715dfe5a2867cda5c80b4833c4d1eceed552e;
  Dbl 0x66f242c7b5371371f0b7a8c2d55cbb84e7cc3914e7009c4a28419f9d2524efe5 0x162c584f9c65ed317ea6449da312cba2655901d568d484b005671033d587b6da;
  Dbl 0x4a77ee4a439242155b3fb380e6eea18191f03808aa1c35e5085938a641ec0a8f 0x52889d2e49c717360559c0513c6d41828180324413ab90487e40eac43f7b0a38;
  Dbl 0x2da31ffd284a98174b33b0ff674c37e397cb83c5f78eb4382aebf181819b082 0x42290115cb7b5283fd2807f1c8f2d830ea5f40dddfb024952eec31be261db0bd;
  Dbl 0x38a22caab02dab6d7eb2ca5d47c2269cea03ee1fea0915488e4a834140b578ad 0x750b906c85e85a88854b5e5d6f46988cd9125b9d314faa5694569fe488326901;
  Dbl 0x16f7b86a29fb2aee1e777c2a204b0a08ebbf8a6acfc50f8de6ef843b734af545 0x2de4ac5d2785c0a545557fbc28eb18a8743d7070cfc3741394d8b1ba5451753c;
  Dbl 0x6ee10eafbf211ce4edc7acf74edc1a725788e547e2f4b88a45e10a2ed1a4d27b 0x45db32d35e5033fc6d9dc7c24d43d08d1cf0e46226238cd941a518ac64a009ff;
  Add 243 0x5e92bef0f7f029935cc5a6405fc4e54e174b03b8b2ec8d1133d10fd5fff3a5d5 0x87a5cbba647f2b4367bfa168afae5bbeb91c92206a3d3676d90bf01fc806dd2;
  Dbl 0x688b06af67dd4fd90b0c582406114a5ce41aa75c3736ff207d76f56e529b1f29 0x32f203a9b676ba97d7e640d2f3f5a7ee164c04df9fc0acfe97293149e357bf8;
  Dbl 0x7ae5304548c6061a03c07de19e5fdea0a4595cbbfa328016f13020932aa99ca4 0x1f8d99d3e3225c37ba8f11173462bd7386df03a07ad6fe5e693a6df07443eb33;
  Dbl 0x7a00dd2d8262d9d93117c94cd4a6d7ae5031c450d86b64e23c341138b9c74e0 0x8460a5fbf38e9dbd0fad2b67ab0063e2cd12ea628ab8ed0dcd2146dbd0c093;
  Dbl 0x5cbaf4627a94c43d1ee05129e2d7f31be231d09a688b12146ada9e925b86cd13 0x152ec2a34c6cd6f7427bb4f557a701eb0282efc04fb18f964cd13616eed139f4;
  Add 249 0x17d5a2bbcb05b5b3002253acbe17a80dc97db9473135481d1295764866541a14 0x16057d9536dd8a7817009371eea615886335141ab09e787a413f13f47cf45386;
  Dbl 0x2b287d9bc5dbf2cd1c97ac6c60393a1b42287b92d2e6ce1158d7b38d612280ec 0x6d3723de53b33fc048bc64d2aef1a6c1c25190d5e6c0a46401b0de7e3843192d;
  Dbl 0x115b6ac4a62154e1629a31635f31f394f5488c390df1c32255a8c64b1194893d 0x6050bcf9831830cc6b1715e40eaaac866c9e6369f114d72d89ac80cc519c7fe9;
  Dbl 0x69e6d9cc457984f57e7d4d9a83ea4cd054f202a25327ac23d45917c33e9aa749 0x3ebfdf6e74573a0333b216a66d9081db08077a30dcafdea357ac95dd4977bd6;
  Add 254 0x60ac863b4b74c2679e54e63280dd1aa1707a245f08b0bf5b6429d6e8c968edf2 0x2066210dd3c343b296ac9c8286c289584b74dc5003233d5134aa149e8577d81c;
  Dbl 0x640489281d9dbabf4c72ef95b3c730d5967097fadeba0deb375dcb8e4542ed66 0x3521fd49d2dfd164cb226b717d9deca16ce8deb0676e923f6aa6c6b5f974d2e2;
  Dbl 0x6bed9bda7a0757ba55772bd79d55ba3f192875dd53a26c000e6136ae4a33dcfc 0x4323452515812eec775a96c27a48c75a4a5d592548e3598d629b23acd498cb3e;
  Dbl 0x2daad5b30cd661e68e72005d4858e8114f8496f59d645c800fd8ecf7779ce055 0xe9303b43aae6a1f7d3c541398ffb2263aaadb0a9bc910b242cfa941f29c0264;
  Dbl 0x2ed490aaaedb5c0dbdd0e16ec66d6ae8e2b55143733b70807d46a862df4c1c4a 0x79ed1a819e64b5d6049a4f35a01f5c43a8ccfd63fe0da8a9baacecb26b72abf9;
  Dbl 0x1154ab9a414b492afc7cd2e0d66625aebc0a91e856f0283597ce562027b0aa69 0x6c7d33fd4c097a7bc6aadb5b130f2c7e0014c2b9b4ccd1dd16a9c1430da65c79;
  Add 258 0x395a3769c37a6d028355b3a8d943cdc6319677e936133e0af09fc61de3e227e 0x46ecb145656b72ae77a28f686fe70a2a1bec1967f0f675b24f9e70fb5e2ab119;
  Dbl 0x4c04ca05843708a77c4ae34c57317cb515b5d61af842183e712c5b08e640dd1e 0x4bb9abdd73041eb33e312408dbee94619914c028f07ee39ba994c15c78c2cff3;
  Dbl 0x68bdc2fee1dc7d317cfc5d5c5f4b36baea5b9108739f27a948d5908697c02e5b 0x6d460288b2502631cc0ace12a624ff4e2808c62b3f2ab2fa5ebede14c9de2fdc;
  Dbl 0xc97474b9711096eaf654dd3cbad365ee8d60976169925e0467dac525053f7d0 0xec13841ff17807bdf177109a91f52dcd9779e7ce2294b358b78c5b0ffadb479;
  Add 265 0x228186ee051ff14e229513ae97e899bbbe33c3eeba62e25aa187da793bf7bc63 0x39af13cdc3e32d11a6c4f51df741f5696a1d8a54d741c6d47db65297ecd0e730;
  Dbl 0x126ff0067107bd59d0bda2d954adcfb19be1ca45d169f90f3b24b0dffce5b635 0x1fdc65578c8cfef58cd7f54fc29250b0fe8c16eb55f575e4486fb632f956bb80;
  Dbl 0x56cef4beeb3de11659875735371548b600de8b9731d9e43dcaa87506596b7b3e 0x58946677980578b96c24485081813dc5717a301b171f0e2a1ddb736d45e09dd0;
  Dbl 0x6339bd5e48f6968063fd45554ec9624b8605c360d7a16157c09fb9c9c05abfb9 0x36b326b9843e99e1dab3790d57cd881c52038b00348327d1b0dab33996a6c38;
  Dbl 0x720bf7dad9a24bf2c9c6194820a65b820d60402aebb1da57d2f8975fdc6c3fef 0x7d69189f7567f8ed19339c6c03b2e746ad78e65760b6c00648450c46eb8883d4;
  Dbl 0x3244e39628abd4d388d310aea18b7697142ce6124ba536d7d29ea7e145153760 0x730091c78c25ee629ea5d24b6b62310ae4381e2e913c4952daad090f043b9eeb;
  Dbl 0x3bf5d907ddba64048011170f321c52a695579dc72344acd8349aef36fcc92b5a 0x449f1306a05c04202c78e39d5be40d51d5336faac6319571d16ccad08ad6dbea;
  Add 267 0x412d51c6b5b0333b9d32566a0f718f293c065d203e47596c487fc9a4146ac646 0x11caa89538d4b46efb1217596c925cd0af5c74b79d38e8af9f7e4f166a40ae2c;
  Dbl 0x5a086ffe05a6f60498a22be4d54a28b25af83d8e3ea560944df17f3d612b445f 0x73e95e54d53f191a304649934be5aabe07e6fc5042ef09999188a7c44e12780e;
  Dbl 0x74d8ce961394d747e9d61e6b9a1061f44c2d51d829e0b23e7b71a785851f14b2 0x4ddc46c6e55561edbb01ff116a8c92529d06b2d2314d111e8e8cd94989adf6dd;
  Dbl 0x73b6ad24889121f0b33ec1fef5fbf3c7191140f41dc31c2a8e34ef4f0a91898 0x6fff1b87d5e57e17f916bd40b0473f5fb5d60a4a9ccf13009e844561e00cc22a;
  Dbl 0x734f888f563b8c38535121af9c0f43d3175b2cb8ce520216373e7099e90a2fb3 0x6fb1d83c8fe2cde813885ff8ae8cdce55e3dd829efd98ac194d3a48ef41a68b5;
  Add 274 0x72ae998b572929f5fd20ba2adfd10c7afbc9bbe9d0d93cf8cfa51130afe990f6 0x1a17d98da7bd9ac5fb755c2cf8fb2b36735a9264b9ef1043ad4d065381dc693e;
  Dbl 0x306ad5575ae1e840c8d3df2438a96bd29617e302bf0cb269412f64c0b859c3e0 0x70bc44e7a355558547bffef8b575aa3b8b9aa81ae3c89c30c6b22103079919ac;
  Dbl 0x5e96c92c3291ac013f5b1dce022923a396d3389f6ada584d36a9d29f70da2ad3 0x6666666666666666666666666666666666666666666666666666666666666658;
  Add 283 0x0 0x1].
Definition B25519 : epoint :=
  (15112221349535400772501151409588531511454012693041857206046113283949847762202, 46316835694926478169428394003475163141307993866256225615783033603165251855960).
Lemma chain25519_ok :
  match run (2 ^ 255 - 19) (-1) (-121665) 121666 red25519 chain25519 [(1, B25519)] with (true, (k', (x, y)) :: _) => (k' =? 2 ^ 252 + 27742317777372353535851937790883648493) && (x =? fst (0, 1)) && (y =? snd (0, 1)) | _ => false end = true.
Proof. vm_compute. reflexivity. Qed.
