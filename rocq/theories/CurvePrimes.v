(** Certificates for the primality of the library's moduli (generated: tools/pk). *)
From Coq Require Import ZArith Znumtheory List Lia.
From Verif Require Import Pocklington.
Import ListNotations.
Open Scope Z_scope.

Lemma prime_991 : prime 991. Proof. apply small_prime. vm_compute. reflexivity. Qed.
Lemma prime_3 : prime 3. Proof. apply small_prime. vm_compute. reflexivity. Qed.
Lemma prime_8574133 : prime 8574133.
Proof.
  apply (pocklington _ (fun q => q * 8574133) [(991%positive, 0x346cd1, 0xf79eb, 0x63393, [0x1501d6; 0xbd17a; 0x651a15; 0x12351a; 0x7637a9; 0x1eb48f; 0x51ec5e; 0x33dd20; 0x20c8d9; 0x392a9; 0x2fc2e; 0x4ae80c; 0xbcaa6; 0x2d22de; 0x257c8a; 0x68dc2e; 0x13f1a5]);
    (3%positive, 0x6c0491, 0x79ab6, 0x64743, [0x592ec6; 0x12d5ca])]).
  - intros q. reflexivity.
  - cbn [map pc_q]. apply Forall_cons; [exact prime_991|]. apply Forall_cons; [exact prime_3|]. apply Forall_nil.
  - vm_compute. reflexivity.
Qed.
Lemma prime_7 : prime 7. Proof. apply small_prime. vm_compute. reflexivity. Qed.
Lemma prime_1919519569386763 : prime 1919519569386763.
Proof.
  apply (pocklington _ (fun q => q * 1919519569386763) [(8574133%positive, 0x3c3ffdef7c0b1, 0x495bef080ea35, 0x2881fc4256cad, [0x2144e30a3ca68; 0x43d85ed83004; 0x9deaace0372; 0xef8148638fa; 0x1df3232986edb; 0x567a42357983b; 0x52eff17ff663; 0x11dc3459497eb; 0x58c66551b3e1e; 0x13ffffdf548e7; 0x6a5af7245494d; 0x3c6b21808c58; 0x6a7501a4524d; 0x171d1fc5343f9; 0x3a78686f44f7c; 0x619c82d1371d4; 0xf9592cc8c3d1; 0x98db78b9f43e; 0x237efe1cda61d; 0x6a8905bf5f95f; 0x3f494d8db7a5e; 0x25662ef0bf3af; 0x5dfec2560275f; 0xe1fdbae51575; 0x52cfa6310e8d; 0x8cdc8e01c30d; 0x227f429d09c4e; 0x2da805cca8a5; 0xffce8b156f8c; 0x23fb389d7cc20; 0x494263703b17f; 0x1b4ab5c4a43c1; 0x19831c6ea4c87]);
    (7%positive, 0x3feed21da4894, 0x26bd6058faef6, 0x16b2f797b4463, [0x2575f0fe8c29d; 0x80beaa2096fb; 0x544bac4312257; 0xea5a5999e96d])]).
  - intros q. reflexivity.
  - cbn [map pc_q]. apply Forall_cons; [exact prime_8574133|]. apply Forall_cons; [exact prime_7|]. apply Forall_nil.
  - vm_compute. reflexivity.
Qed.
Lemma prime_9463 : prime 9463. Proof. apply small_prime. vm_compute. reflexivity. Qed.
Lemma prime_37853 : prime 37853.
Proof.
  apply (pocklington _ (fun q => q * 37853) [(9463%positive, 0x10, 0x8026, 0xd, [0x0; 0x1; 0x4f15; 0x6; 0x286; 0xa11; 0x4f32; 0xa; 0x1226; 0x6; 0x349a; 0xf; 0x745f; 0x2; 0x4c; 0x292d; 0xd; 0x2ff6; 0xd; 0x93d; 0xb])]).
  - intros q. reflexivity.
  - cbn [map pc_q]. apply Forall_cons; [exact prime_9463|]. apply Forall_nil.
  - vm_compute. reflexivity.
Qed.
Lemma prime_75707 : prime 75707.
Proof.
  apply (pocklington _ (fun q => q * 75707) [(37853%positive, 0x4, 0x6294, 0x1, [0x0; 0x0; 0x0; 0x3; 0x3f4a; 0x1af; 0x3339; 0x0; 0x3725; 0x0; 0x668a; 0x3; 0x618a; 0x1; 0x6e; 0xd8eb; 0x0; 0x5b16; 0x0; 0x3aaa; 0x3; 0x9f5c; 0x49ee; 0x1])]).
  - intros q. reflexivity.
  - cbn [map pc_q]. apply Forall_cons; [exact prime_37853|]. apply Forall_nil.
  - vm_compute. reflexivity.
Qed.
Lemma prime_116_864801 : prime 75445702479781427272750846543864801.
Proof.
  apply (pocklington _ (fun q => q * 75445702479781427272750846543864801) [(1919519569386763%positive, 0xaedd80ab27e8de3ca5f2fb22d5403, 0xe5e342b4c0a3d507894bab5f20e8b, 0xace963d3b072b0ebd18629ad3bbb5, [0x8386b01ca0f44b189bf0b8beec2de; 0x85058059f61e8fe1e1ae647e1ab44; 0x540da770283a7cd781a7833afe1e; 0x411b5c16e00a8274d2cbaba87; 0x35224627088d9993c2807e7518237; 0x2535218a7991c8681b889b95383a; 0x8a50105ef6f03b51e58616ac2da08; 0x4e569506265386f77caab4d269155; 0x6a06ebf01c3596b3d86bb6179a6fb; 0xa8a9e33a38ce0e85bf6b6dd5caba3; 0x1e3946df5c4cd4f65ab96a803f0c7; 0x805cd1750b8a8ef6f286fe6affb0; 0x37e06c9c7dd90639b721cf75e75f0; 0xd30bc22cdd7fe90caf77fe9abf8be; 0x6dfb75ac26ebde51c48f3931d6737; 0x5245999f265c7f7b8c9e3020ec225; 0x5f003fb1f03006d658f8f7a1b1d94; 0x999e8f957e5863c8154b834926f8; 0x5b818be749a664ddcba3c8f8b0103; 0x938bfa47b26fb03be4df3a001; 0xd22e6ec55b82b7ea04fd010e6b80a; 0xa5fe021a113457b0a2d0e1916392; 0x6520255348e72fdace949ba03b3dc; 0x25cd0fa4ccd1df611b660e8d85f6; 0xe0ce0d7a655f79ea488a5d7e0b6a8; 0x452c6e5c1de7eba7970b38c3449e5; 0x1b9567234e08f3280d126d8a5671; 0x4a02d1ca6bcbc2de7046d300f4bb1; 0x7c28233221522d6b654389b6a7226; 0x2c1dd4759f0f6457303dfa01da3c; 0x44ddc7721787c09b5b1a59503cc34; 0xa7741df753b319af20d7015ab8c1; 0x46b4af081525bdaad1432966e8635; 0x3c5bc8f6fd7b0638c44bb9e818bc; 0x98956a60d89534770cb92004e91a5; 0xd5d1450086a39f691af9bb9d8e1f2; 0x9e8ac71571c3252915cd5be1e59e1; 0x9c2d55e7ec8c5e1a345a2b82eca2; 0x2e953dfea08b959b6f589fccfcb0; 0x1fa68c0b9271d1121aadf2d5d80e6; 0x4f8cfa59dc78b418f877b036c667; 0x823f6eeb610351391efbac451691; 0x73a3841874b9611e5ba9ad0ae6075; 0x52ce36106300a93acc32118f1a6e1; 0x5dd211b6e486167efc9458323a7e3; 0x4132e6e8e533294fb43513d5e7adc; 0x1d16e8fa7e323a8a56375228f72f5; 0x4a1c9cb86c6214d08ec7346642e8d; 0x3ab74bdb8ebe533dee8cd15c5b499; 0x39537041c3cc46344672a1210157a; 0x63444fc41ea090c81a82f4a76394; 0x3177c396fdbff822e72e7b9d6cf3; 0x93c837197861e6fab3948747e14c6; 0x55565dfcb5ea3e910684dd545c12d; 0xbf6765a4de0a1fc2f7c119a48f858; 0x1403c4f79e62ddc4a5bbe58c5b3b7; 0xae6b28b932e5499aa9c16557e274d; 0x7f4cc2a56fd407069cf6530b9523; 0x70fe414482cdce4a004d59efc0100; 0xaaf5d03ea92d755b7b174cb1a0851; 0x5edd20fbda2c234c2660b7263c223; 0x538fc830fd43ab403479560c7bedc; 0x61b692c30cb7e513e7da268d79b09; 0x72fcb858537309a57eaad2c335ed4; 0xd2bf31c449f7766a4bd3331e00e4b; 0x302d24a776c8e7c392c4ff723c721; 0x40e636414d7fc2b6d3cb1136e5496; 0xc4177a638c81673eaad83c870398; 0x65d8a590a3f59e3f96da9f663278; 0x3b9f125644baa9f442f118b3b8c8e; 0x7981f0b2bc40028e8100491f5e147; 0x2091a182c2c068d9a4b5ab6948a64; 0x87048da3a0f9fc9323653c76d10bb; 0x750c69bf776fcef40e45974e67e28; 0x97bbe2ab0418ed71bb0ccaa747417]);
    (75707%positive, 0xb52295a2da9f8731db89340ad8f16, 0x1bb0fee20f00433b82723f09a47f3, 0x1593384f4bdb9ad4dd1a3562561ae, [0x8d2085bebaf6e5b227c185d3d3e56; 0xf2b7eb4d0a6457ce402a2c697562; 0x4d085a5cb1c696af1ed2e05f6a5b; 0x113d2d65790ac3f8baff59a010901; 0x3a8c87025cad59705449feb151abb; 0xb9cd7d414beaf8e8c0b5edbc2cf69; 0x15510014148a2c11d11560ddbe536; 0x78c3aeb1542a067b52c1bb0e9a4ed; 0x6efd2bba192ada16bac939e6941b; 0x2d058546820e81a50a42010cb7100; 0x81e7cac7d28e8b940811012ee2bfe; 0x9ec5b42c777a7dc950650f6e00044; 0x4daa71b0673fa51e06e58e6405bbc; 0x1dd68e92129e984689e27ad85478e; 0x457d5aaa07150b623b101929f6a6e; 0x946164b0b033cd8242f0f5b77361c; 0xae8f4d6c523a64ec223531562b7b3; 0xd239de7f4b4881d16884ba806a12; 0x41de1ee705a8a772c251816a38b75; 0xb06d5ec12e796adc2290cf7b3f1f; 0x5cb9e2c8223725d52f9b71fbe0526; 0x36ad81207115fef533d98d5c30e22; 0x58d4c12f39fd7d907a658924d47fc; 0x403dfb5f7497d7e14c7fbd7de6849; 0x20caa746a4f1ff45eca83ee95ae73; 0x945edbc4e76edd112bb4e0c0d70f3])]).
  - intros q. reflexivity.
  - cbn [map pc_q]. apply Forall_cons; [exact prime_1919519569386763|]. apply Forall_cons; [exact prime_75707|]. apply Forall_nil.
  - vm_compute. reflexivity.
Qed.
Lemma prime_2 : prime 2. Proof. apply small_prime. vm_compute. reflexivity. Qed.
Lemma prime_236_340907 : prime 74058212732561358302231226437062788676166966415465897661863160754340907.
Proof.
  apply (pocklington _ (fun q => q * 74058212732561358302231226437062788676166966415465897661863160754340907) [(75445702479781427272750846543864801%positive, 0xa118eb0f9d8184bab59e8e45df736d65fba3c64f4aa855bc8921ac18308, 0xa35a14fb1452ddd0fca6eef50ac9bd9a369cab894104fc366d4fa595e38, 0x9947077cf95ee7c5af8d022726b2cf5d7414add310510833ec83cebac15, [0x972976047fe584361f19817aa3d3b183e19635f3f44a04e18648502b64c; 0x9b933ef9e513ff815db3e5cfc8def0982e73ec49e913e3b3d23c1786576; 0x710633a41458805c4d04f82ec67a34cc03e8f6736257b6cde7c14082135; 0x253ce115a7b31ddc01260242365a8cac0378b58bdf3e52edf042500cdcf; 0x49e3980d574b2a0c32a5a79ef382a6ec4e5f09fafe9f50ef6c25396991; 0x2dfdc1f8c3e5ddc0f605df82317e42cceee4dc83b6e66d50e3a52a75d; 0x21465eb98283a5a43b50666999f9455ec186336a9b87cf1ce2967f9c0b9; 0x3bd63f48556dce99d8fca2adf3d85c5989d958cd68631289d13f6a84573; 0x5bc5a3ece2a99a6204b9fbf268894f5f020cd78b550f4c3788a24fc5dab; 0x3fc64b7b0c45be45e8d90e61d486c947c6f4db83543a0b51bb4bb25b49; 0x8447685289dd67dd9084cfdc27609da60d014de0c1ac176fdb072657924; 0xc2e27f2f00718832e269587594855a33aa2ac3f6faad9288488febd253; 0x1b0a46a9497f43537a4ea21511191ca20bf4ff81a663ab0771bf10ee791; 0x882bd60954211d50b24d4abdf79ab0adb2fbdc6b721d57a46d5c5492dd; 0x143731dfd36a200d906afbfbceb4fb40d9288baabbeab740d1f2d2e8cea; 0x72a7e0d3fad6e3a5a34f6e3fdcdaf91dd1bed9487c97e9dc79646b6e505; 0x884778f574d1e386fab0aa3bb8eee9dc458771dda0c9bc0edc11322ff02; 0x77b26ccbfd66d0e23847fa80aa4fa63bc385158876a18051ca08a86673; 0x3db0768cde3d908ae6ee05646023a038e6e87e0fc053cecc8dd7155eb19; 0x1a248e3c52c4a528bb4b03f82bfdc914cfeb0460edff1ac54f5baf67579; 0x862bd0d5305ae56bb25165b74124c65b73507d58932d2d357fb25457de7; 0x3dac07e145c22dfbe2f288b497328743fa184c011ebc6b9b6cec46b83ad; 0x6dd01e563806efbd9cd8129f4ad0bc7da58c025450a9daef8470d45be87; 0x4e389eae28b7889f0a6353ce5f24bc87b4b6eaf5d7a00102a62d23c689d; 0x2c664cc5747941bedf64ad8f48cbc885b578e6d4c8d5d356f79144b0e6b; 0x9db62776b495b154352444363b760dfcb4870e860cd3d9a64f5e9fbef06; 0x71a70cc13aca9e736ce73193f568efa9ced87b2ebc59df12512e04d3ef1; 0x78674fa07e31aeecae8b957ac0a3c3251566265b5f3f964c0d2d014fec; 0x9ce9a427d3162545cd862c96376f15398900ef3006baa3f3085364b6bba; 0x5648e2287620c8192690e9ce0c16f43a07d28dcee49df36f500af49b9c1; 0x74879c176bcb7d007c95dcd3cee2f8821c4507ffd39e1b5f83a506725; 0x5cd4e6b808c27272d0c5de59c666b89b8934f56eb1b64eca664a7421d88; 0x3692295bfc6f3e16fcaa8c9da61e996ee46c315b1dd596d9cf6a963b8cf; 0x39ec4769c3d0f7c9686c876b833be5faec5635c700c7150ec27163128df; 0x40f17be53f279e5397a0ed4e8217c44c8c35509214501e2dcdad509a17f; 0x4f65dec661a4d05104d96cb16d88de2adc7f938177e51d4139cb9b3c6ed; 0x1187560d5d79465174eef28bdda6377dbab9ffc97e59f7d06ef6a2673cc; 0x1c6f3a79d0044cd449393d7b01fcd6553224940e8c432ff7a2ac9d3a8b6; 0x3ddf39aadbf3c1ff1c7af3c839ca41e369626423b3a933d1a4d33c892ed; 0x26403a782ddbe8267a068bcf75d9f435d608b29370aaa5c56ad522af130; 0x16ed8acaf784b549e61bd994b53d6db2d60bed148f6308f05736d0a0b9f; 0x76bb6208d2146795415a8b65aebc51abe8c80f69136fada3aed9d1ae36d; 0x12fc7ecbe543b74e203dd1c0d1bb65b527cc4abeecec48e20255d440b20; 0x3c3c76d55a9842e2f780944b8b2d1c8c117fa1e5032cfcfc6ba8101fab1; 0x230cf7e288ffe2801e424c03c3eb32ca087c6369cb90290ac6c42fb8cc6; 0x858bcb56ea9690b970a4560668968628f03efa4d46b609eaf98fc9e4855; 0x72a95186c7c293d181da30a192fd20dccd905c83c8d911cd39796a4e51a; 0x8a68951b4b0888b8e2515760afa43d3f0d0bfe1ead4eb1fa5bede22bcd9; 0x36b38e9c94aa66ab46c686e3d791068abdffcd622da2b2fa7ccf9ea17f0; 0x9c6b19e8d9d654f2b889fbb8ecb3422adfc77b4c1a900c193fe404344; 0x9bce7ce4bb34267e6f3e80cdf834fb1cad7ea598dd82874a8be5a2d4c8d; 0x99803922e02ac821d63e3d60ae6cb15042c0fd616fed4824eaad08e08fd; 0x22d12fb69c7bc87fc6598e9e32cf98d7f6441985d64bb159d8d4d102d5f; 0xdb742a7f03b217a7c656fc82f11d848a6010272b8121827bc746bd313; 0x2617f12bb8c8f0916972154b09ace8705a59282f2550c8a5ad0b87d2492; 0x6c169cb769f56d36e954b40d180ab097ed6077eb9f7d407661ef2ff21b9; 0x299d828a664d647df4ed7c80b565e7345d16fe278d27629ebc0b2d8598; 0x5db8166cc38afcda035e07e1458847c044bfccf1238b3d847f04aea672; 0x615e77229d55af57a0eb4bacfd43bf540de77c3e9b3c6f53bf2bd352ef9; 0x396fb09dfb5f03f29ff71023a813e424debdb7bb87ffbf54ee32b51345c; 0x18d0d94cab05690640e9e30372886009937953efdcafe0f4c2476e1aba9; 0x9ca88fee510d6d6f6a8012214f6521361f2188e0d57815c09aae7d09664; 0x2faf1409c2cbbcd4b9f0cb26d3e769be98f0ac2e66391778eed1e2b7964; 0x21d578f92f51b1fdfb30f538fadbd258cb7e9ddc0fc6165b980b7490f27; 0x1fc2572b4e6a7da1fff7063a60d8e7c1eaf51db9c373094bd2af67acfd; 0x1f1253943967596c4166a9c29ae28e036a06a7095344af0452f4d5c1041; 0x22efd284755fb8f0f2871d7d7f5321f41ae24854589c6aa683fd2f55; 0x7eb5a0635bbd33455cb0001c8486eceae32dbf21e52aa42f7e1d7cdcf6c; 0x63146bcac0a26054efd9139dff470ed0c04a87d486ae94fac38b0413444; 0x824ca821238c9967da14e8ff1239326d4df2f7066bb1c57e4de0a614195; 0x31121402f654fe3084d7244edbc5195a6d04e4b236d9e04286da540383e; 0xb5489c28901ea28e2c79fd2f93c4dca40a040e1a4ad275ae8b56c08d73; 0x2b14e9ac3708946636090ddc8efe68eaaadade98eb1a8ee2c46a8b5681d; 0x1179ada276dbe612353b98eedff153416d98d3a598ebfd30d61fcaf75d; 0x734aa9f0729da064cade34a85a691fd1439276b942f6d01dcb22bbb49e5; 0x34e7f85f56e95de5bbce1033b3466331dc4a6ac4a67dfe9d041ea31110d; 0x19162e7e02de899e63e9f8157aa89a154f4cf400913600e79f1d06d5ce1; 0x924505bc9e6b439c192ea0e8d904b2ada305284b3771452f02742c38a67; 0x72bd52830210e578d79f4d7f508299d49e8e0be56ab98b5c8c01753fbf1; 0x15654c8d1aea3855d74ca324095aa0072f63c6830a53410849d1d7c6e74; 0x9c1d0389ea5ddeec782066f99ace462140f43990c2a12f76169a5b3bcaf; 0x720b00d10b5d76975b245e060b8ec2f134f28db692eef9cc727c6a5346; 0x143013a481046ec42a9fa6ed04a52965e193809484b792260d0ff562efa; 0x50630de722f1ac6ec897630fa9327a06ba28a6a24fecb8f2a842c4432d; 0x6035ed2d741d60d112640adca6ada42bb6a7e5b4e77a4ec262b10dc91e0; 0x489993647a8258b9732795a5be6e050af4b9044821695012f0fcab82765; 0x3f9df9622fa6df0b2ee59cdddd7430f091de0ab75892073191a4568de8b; 0xddf0e7216750872463adaee06a35384531f3ff919cbd78955f9a8ff2f; 0x59b0a4fdaf5130e5062b27fdc5f54f54797d7d578cd89d95253e8902193; 0x7debd070d2b14eb8d883ce7aa3211d3448805d60b06ea82ed5d5076a85c; 0x19dbc262a2314188da061857a124c07ab47669d9e03727a7cc29d6a75c1; 0x169caab946604d5e1038616c0f3f0861e45113db45c1ea6811f86f5d652; 0x9abb7b36cc992448ca74028d59eaed12ed2e869caa7eec1a6db3210c25d; 0x3ddf8d69efcb6073c224c5dbd919fb76d09d7e41925ec979babe15221db; 0x1261c17670414014104416aaa78bf67338d2f0e26eab792e0184436750; 0x8c94b0f2496f654ff2de0ce5b09e12f63819f2d83c63689dfbc0ef273f6; 0x24b5ceae1b5adbeb584f4fc66f10e82f07c4105d7021a9b33335d1d60c; 0x2a596bf1aeea2b05482e355ecbd4cfb3c9680d250bcd4e5d2117f304964; 0xbe02ad70826c7b44da87604f75a27d0fb824915b00c9f30ad1950df3a8; 0x253f0c6d5e217ce522c0eb3a280eaa7f6f31067915a683ad73899bd1371; 0x2333a321f7e50b6e379792482f06d648f4fe96b24a32ae498806a819a0c; 0x5366639c097705978c4c1dabad46b974cfcac872078ad911a2fb0192370; 0x1b6bd43fc15dfa143a2971749d9032f9e3f4cd72ab0891cc03a6acc10f; 0x49204a05387d8b208ae3271342a5ac61e3915fa72a977394cacb363a630; 0x11a20d87990d555fbdc3a35b4434c2c76febf897632bb19a416bb9907b; 0x1f2f77ba3cf57b73b11cc56709d1fac45597b5aa854b4ac96ecfef950b2; 0x548a2dc1a5882d35df7f1071ef33acb6d13063489a325aefeb9cdada9a4; 0x7f839abb76887d08e99b95b63dc0c5cedbad3ca17ba693be764e9db35a7; 0x329b1e28a669df0b904582cc6c90f88bee90ca0a57b4cfb44ae66a70fd6; 0x450b3646d4de50a35df3140031031f9e90771ac5f01f04027098893a0f; 0x520bdb9d112f519606543f21d5232ac02324d712ed89656d86da93b480f; 0x6dcf759d6ac6531ebd0c5eaf723fca351cb02c1fc5b1d29a03fee4d1166; 0x1d62047131b175db2fa5f4e68ec06f15d21a81780c9fec4610361998a07; 0x6b9a88fcc4dc232b9e4cf7c5252c3ec20759bd0d3defaef6c3882e78c20; 0x54f6ce8ed84d5cf972f63c3bbf60370f5459a02960c68fdc88164e33bf0; 0x2e4028d376510224b45d8d1f1fc5f150337203963b3bca22f6e85e2cc4; 0xf403c442c8fd1f58640f99bfa131e1a09df709510818c9b36938b0e31; 0x2ff1246c31fde6bca4401f626a4dddafebd689e17647ee55461b07c0d62; 0x2c8720383e79b23f0c4a6c3e6a0405d46b7a17381618e4edb8089fbd7; 0x999972db69610a8cbc927b0b92540fe5d1c327194d02c45778b6de2af5d; 0x2de3eab5696f2a77c34b005c70b839f00d7ad83fa3d13a55ab6195e9a10; 0x862d675a1a8a1211973e2fa89b077ac188d74f3ffff202fe0a96555755; 0x7e9ef23a2c4871413f393852422d3c198b48ede33b5451e7610704037f7; 0xa55382d191879b69315b8c76b288ae8776d7f99a02e381b0821385a5aff; 0xcfe6a9527e23c6a902d414da7c9fbc0aae1d310c10d79ae074415b33d0; 0x3b2c1a15244bbd3351fda00e2acc764de097a4e0e1a9daf54929ab7bad1; 0x9c964778f9c7c5fc90ad660cc8a1abd0a426f9d1fed9ff391b247e8be87; 0x5a466c65fa3f637dd73b598b50b5cd88fa8a3d34612c198fbc88500771; 0x2d60260288232d17a3d09c52cd6e7310030a224888eb544224ad9b233e4; 0x87d8316312036afb14e747bf1d16f076b007b4cf10a6bca6e1eb3665dcf; 0x762e2131a22e7ce6aa79f55871711009fea02abdb3fe2c09fc488b0940f; 0x19e0881eee8da15da3506a4ebbe651d7adf2bfecec0343e3a8e76a72363; 0x3c534f624390c0aea40db3d4a77c7add24b652e406b8ddaca6b5f040c12; 0x4b4efe43b13a1a3d4abfd085db117b077fc4e1133f3ffaef082d05e9b7a; 0x1bdaeafaa2f3089c38ced1a447dfce70af5d4ae9eca951488287e917c49; 0x9cd1b93e7803815c90be8ec6502fabf0d38017a2f9f1eee912fae22bdaa; 0xa63a0d5dbfa918db67c77755ebe9c4c4a93a5b24e86b3a30e1148f48fe; 0x592d124ccc85440f3c85ce3cd2c110b2ef0326d2af242bc6d76ea1bb68; 0x1deedbbb207843a3628789e0b823752c9d9193b5618e75843d5778728bf; 0x8f6cbd972633f172800d49981ad1bb1a7a42cb43dcd974521746f2d6084; 0x1124f04456120a69f5b1eac1a80cf1c3045b04a1ae377c934b8e315c71b; 0xcec7426b5a956e6e2e63f8b936204361894b548f5077d0a02f1f02836b; 0x139ddc1298b55d32fcff5e0d56b24aa56ee68ad672be5f85ac28c89cdcc; 0xa9611a71a9ccd78314f37f466e7d064144719dcb245724b2c1f9ec01524; 0x80dc86aff8ef2143836fca6754b7d925dd16592e5be16dcbede149e6988; 0x6029b6ec035dea45c3b3991d530d5cdf106409bca2687f302546796d648; 0x728302f0ada547131d8c18b8f1beb1c118d1c5fb56fc585ff7848bf8f0f; 0x3d056497995a58c10b8f1d7feabd7b1935793c8336e87b527b1779a2268; 0x343e0c36f6fa2ad414cf11c6bab4d7182237216b761704214ad52a444b4; 0x468f50a81cf36888572e72f379ae025bfcb4ffa89ccb86022ca1922b15a; 0x72f98edb50bdec8433894c568f1a6131e165f1d88b4b5283dd29ffd182; 0x30392936af7981757ca6a9209740c7b6dbd777abcee203945558636fa57; 0xa34a04d1ba9eddd4a1025e6bf826c8d641c985b2e1129ea33446159037; 0x5faf4129618a2d4361efdceb5b8e1dd8f70105614d757cc72b849ebe855; 0x46668a6275bf6c2de2c54cd66abb0c3787e4ae50a68f16045a5cd8a6e7d; 0x1a3184fd9653f0997af4f9cbd148d5c297a221e4c6d5704223a60609b27; 0x6ee039ab29898763553853ba2e181b1724c811696e4d010f2eee78c316d; 0x2276eae419549a743fb3bd814dfb14bbaf7a87629d649dee6db5445cc15; 0x33d353530f09e71179ae9fa9259583f936aecf99879cc139e9e47272ff6; 0x2e5ec4e7ec7b224433dae9211092dbd397c16e36d7de5feef174a267525; 0x6947115cc16da15bb83d8fd74c8974fbd8fbbddc0e33b7b61e70f6c8ca6; 0xa44a99f8aa3757b216562396a7c6eed4ca660fb0e3f7ae2612b6b8e45e8; 0x114e51f63c8ab9e435bdd9f673c589c48dc7cc8ce915bb986bed10a5f17; 0xe211cba9cdbbcd342fb1fec56f5a3de6ab493f7977d38d082500b24c5f; 0x152d578b432357a98298ce5dd4e0cdc63288b508d8bd18a9fe6e7ce28d2; 0x53728c0abf89ef536c0092a3f83981163c8ee7e099ef36311af46a2e6e; 0x5822decd7ffd4a821d90d0648a2e33e3361295d88ebcbd1ae5de30ef511; 0x3c6d0e6aee07d9b5e433c99e9c3b2492c20af53c2334ec674c661d15e; 0x905d41a44c53055cafa2fbce9ef3f1265a8f031880e6a9ccff0f95c4558; 0x304fe8d80380101457b177a6f847cdd6370dc99ee74d986bb78cb7868e5; 0x10871245e400fea5e77a049358637390d6d390a2ed16d429fd6cb0639d; 0x1c4210c281c1ba7603b7618286366f39b393cba055d32148422dd8cab4; 0x926ea8318a61a3ab4dc34ca4c8bbd6bd5098a985d177f77ec535124df35]);
    (3%positive, 0x4677dcfd5b5696e879646c54a12f4f2d5dc2b0291aa779e205a68b682db, 0x5af7be9d926dae549fa70db59a88cd8ec71ff2e209da170a2e83ce481d3, 0x25566da8d9d8f23db072fd2db4868d1cadb06c98921054f4d63f94b0387, [0x1cec710029225717e16fe12024caf704b2741a887f1df4e5888e58bfb1e; 0x298b6bfd32343fd097f48b347c645828ab4e95a09b8984fc7d1832a87bc]);
    (2%positive, 0xabaf8c6b094fd0f32c2ccabab864dbecd99144679c1adf804898fb2042a, 0x55d7c63584a7e8799616655d5c326df66cc8a233ce0d6fc0244c7d90215, 0x55d7c63584a7e8799616655d5c326df66cc8a233ce0d6fc0244c7d90214, [0xabaf8c6b094fd0f32c2ccabab864dbecd99144679c1adf804898fb20429])]).
  - intros q. reflexivity.
  - cbn [map pc_q]. apply Forall_cons; [exact prime_116_864801|]. apply Forall_cons; [exact prime_3|]. apply Forall_cons; [exact prime_2|]. apply Forall_nil.
  - vm_compute. reflexivity.
Qed.
Lemma prime_255_819949 : prime (2 ^ 255 - 19).
Proof.
  apply (pocklington _ (fun q => Z.shiftl q 255 - 19 * q) [(74058212732561358302231226437062788676166966415465897661863160754340907%positive, 0xf1ba0c491eeef83c49fc1b744331bb096d4893142c187431f7b03e61a75a49, 0x7acaff384090e983b641a51e1df0807078e467d06ab8164555f0f7fd51653bdc, 0xe7e4af4bf4ae51c6996e39a9badd1eb5671824129a6d5e45ca50be7abc337b, [0x1c87fa4af0e2ba4d69468913683eab388140ef1da1104d622ef571d932c0f; 0x62fd6db4812b4b51ae41758ada65cc6185b236253e4543c798ac5ff3d4b1b66c; 0x8c9a8145936a4f8ac21f85fca035d40aba111c409c96101730c04aa7446fb7; 0x154293d38d7936e8b1c66243f9caa3fb8637de5cf0c493dabc80eda6b789436c; 0x181e26ece1ed979ac6e46224cd62c198d00c54415b53e22defe8e250a869fcf; 0xee797275744a61ff2f5f1f1659d822c07f99299047814a6b7634f5e87078d8; 0x4376d02aba52efb6a8f080a225fea6e30aefd1b1f4ce3643272e2958044d951; 0x853731103d492b3130a2120c86fee458181da40bf880e9703c11670fefa4b20; 0x303d9846f12cec434ddeaa05749dd29fbe9f7568cbd7efd7a2349e025ab932; 0x467d59c92e3034b8125a13ffe49242c7b0e9bc1bfa5512175b0898703f70befa; 0x9a7f67d2c91bb51c166f720ca40115976cc159bf1ae7e22f765c42440b619e; 0x8384c8ff311cacbf6fff6709927b146519e9b836a11ab879452853dd948a3e3; 0x7d213eca997f90ee2aed8a2d1f56d570950630cb721b82d8368aab12c2c660; 0x228d5f6d2f299e08dcf009c056c949b60cb42397f1a316d28834ecabf7f661e7; 0x2046e450cc271e9de3c79141d74caca4090d6d7f2cbacf996a54b58a1e235f04; 0x1e06147284344eae21ef1dbcd1a1aacd7b4fba787860690cf3246b1ce8b31c; 0xa8ffb73ecf44cc07162c6b4d7f7f7ce4d4592c96f1192d75d1646c5c8c2637; 0x4b498319f6860e9fa57030bb1c1a422d506286567eea007f268c058b5cbd5974; 0xc2bd487ef76c10edff20829935af5150f1743cded0d27bdbd6d638b2f2dfcb; 0x3e735bd5e3d59272cc68bf80b71d170f12267679f6916da952dabe57c69b3a9d; 0x4eea4c001b3be449479109f4be5fef51c0e12d75aaa12eebaac224c224d89e; 0x5bf750a41c064e79bbaf5fa70369dbf0cc368163d2656c4e68a9f3954c2144f; 0x8e3d6623ee956f2b4aa92de701c2336d60a91e14ec26c48d209cc631ff0eed; 0x1b56acd0e2d3df1442774bf44bde7823c578ec6ea859912af0431e1956dd9151; 0xc4a0c85b4566ea44b3b435fc4f7e53ffaa655638a8108c73de1e9fb0bccb4d; 0x47cdf32f67071dc9757494d90967defdf77e3661bfa859ee9e597f27737de431; 0xeccc0817b8a3860e59b1274724a0ac054b8d0e7f20ad72b38c0a614de43629; 0x2c9e52f0d69bcb425bbe0f04628b4a6f61782a8718ccf2b4ead20e4e9d72cd6; 0xe447bd2a7292b8b37a8ea82df671a640dac6370373653a1ba825b3d1c91c7; 0x2d634537a131e111f74c31b0649a9bd77925f9af38f2cc3d9f4c10560823a5e7; 0x6e1c1c7d3a67781fc212eae16d7d207caa433d2fbb4a6ec2213951ed73f874e; 0x57226dd7593f1bd476278722e2094ef8d17bb7cc0ad433becc66169c26781a; 0x104fd84529d71fe51efa914b3de72ff850f5c56ee59aec831945b7dc1a22ac0c; 0x866e5397c0078305661d5e57c5b63d7b0f1373dd5f09c08e28a0f20608f854; 0x22c30fe17426c47dea8060018069fa5c6594cf28c158cdf8920ebeabc29bc4f4; 0x1cc24f0e8156050461781d7acc721c20c3144839654fece2d61f21e5e3789aa; 0x58fbe5801d31e39d3ca8d36410ca317de1df4444e33cfa88cfae33cd36dddd30; 0x2f2032da55ffa8ebaf348aa616811af7683065e2e69a2dee713af0d0647ac1d8; 0x31f146e503a0473e011b6845ade2113570babc5b4c102676ec84666a184a0f; 0x67cb8975cd9e3ae5b10bcc51673d9c089cef0167e85c202511e97fa672de414; 0x4b349de444c44ed4a136490bb902a4436b0cd03115a64d65879cdd88e359f7; 0x44819506f8ad3c41d5bb9750dbbf74da69d62414bfa6583de68401114278e9; 0x11c9109766c7dc1bf616e8a032939a3ade438b0cd937d1797036370d6be8fe56; 0x1029239bde8ab942322f74e85330c204e7c5938c654f7b1be197a7e83fd691; 0x5f2cb11a2a0f5043af04717f251e4f30e75bf7f171313c2a6640848a9330d90e; 0x1aec2f23c0c478aa0a5cf5f815c3b3d02b63a86a1134d0e90e8e89104ffa3c7d; 0x33122cb45188b6fabb992dace127f6b55142277b2a4e008c409c8fe5cc583d; 0x72ba8dc8e210a2b88af540ee07eb769b8fcfcf553509d66a3923945eedb13138; 0xa8008f31e614b8a57a07f7917927e704ac01ef139e103425f6a9e58714b47a; 0x3a6be86fb9229593fe3491e77863525e76f3f791cb4488480d194216570b6bdf; 0x1c22ba376166d67412039192d1adbe94c970cb1e0c35cd5e6f5e68be25bd67c9; 0x72720790c3a97dad399533a82a1b8ffcf5bdef82add7a9e288a01ebe2ea95b4; 0x9c7d37283975bee8481d33f74f24400baef73584369ce7633b60173e09d1904; 0xd9378eb53ce7f815554ada63d3184b910e7fd21ff7e04c0b1502c42abbefe2f; 0x6b538aefb1f6364c9d9bd4fd16223404361fdfc9416898c893dc8bc70e6da9; 0x6eef4b14919c2e7011e23d531beca6bc9590013e71e3304138e69b62758017af; 0x352ad77029c7d9939c40f9cdc0d04e642420e5bf1e5c1b34611587b465c898d; 0x3f8bfd565a71329dd35e9a1ae3d03b5436d514efec62d00a7425ac942ee10a06; 0xa6ccc6d9393fa3d7b8f1bdf6167aeb5430b298757de8e7b98b915e939d2453; 0x87abbcabc7fdde2a5e3054af634770b7358bfd75e61676b2574ee396511f3; 0x14f8c8a778fe12d38c00f464361032f15f670355a848daa059f0ecec5d3596fd; 0x7787207e8d13eb3e119ce7004492b1f7e3e650c98d8077ab73a47b74558c6e; 0xab65465423952f0813a8d7c528bd823edf417b05e910784747775c8191e3749; 0x6ec90b9f6f2eee676a4544c929ff40573a0886971feb147fea118afb86590a1; 0x559e64e48dec1f6adf4e4c452cad2ba4394d15b13251307d22bbce102250db5e; 0x67f0fb2335b706a7c11c9a1ce7c3ea5df0731714d55b59a5da2489fa6c2db0; 0xcc4fc2b8ecd6ede8bb53e0e819a5475956b8e387536e5a2346e7b5c5718b475; 0x79606bceaede091934516a7302d037cd56ee03efe21d1f2294360f0c36ce27; 0x2d35795701751e086ec973c75f306939c38e1b44bcdeea33f7bddf9fd4e67b; 0x40de18fad79337298ed4ea8dbfd0f4f6b4f8284fba2a4c6b9120e7868e6f2b; 0x3b4841fb3a26140e4e73326552fded88ea33bbd171911644df09744315c07; 0x70743eab2bddd34a083ae83c3bfe21dd8f6ebaa757477df3a777a3643b812c; 0x278483090dd09a061e46c13bb5a8e4cfd8822d37708c7cff75dab76d7743daad; 0xb315d6478eceae75e077d7fc64de0444e9591300bb7960ad41af254a38509a; 0x455ddefff89ad6519bbfa784a0b86d9be8b8eabf69b7284a70ab166ab852a70; 0xb50efa3ded7cfa5a5d2c717cbfdca82652d2d5ccf3874b31bfc3a711e8e32a; 0x6b1491fdabd87b0309f106341fd33ef6af793ac7207c092f255e437df5275cf9; 0x3fb5a3718aaba44a4bafb4b6d21793bef47d368eaae566f95d0a4601ca7f17aa; 0x2b06c208f8d71460e5f535336d7bcd481c9bd25a76a9b03f96613be57c547d; 0x3aa94a5e5e4cfa3faba5a131a82f82283beb6d705b25d34a64070e1ff05c85ac; 0x1bd0e5bbb846480f65b5d8d36a00edbdac035acc72a1287a6b953e6a679fe1a; 0x5d5e38b340c1d4fac9682c4c3458269b018957382287d3799f3ebd96997c30a9; 0x1054fe136357388b29ee448821266005b5734aa4a15cef1d6c56901a22d51080; 0x7a920d1fa0674d9c3832c3d32074f739cdb43cbe646e65bf002ca33deba256c2; 0x71a7a5a8f7be494b7d865f8e1e9297f4483095dbd549e8b9dc35560f6ec2f2; 0x2a1e4413ad1fb6b5d16ab30a243e64391baa2de5a333036b60e54b100d699dc3; 0x4640351020a93bcc9d8e27294cda857320e010a199253f5e52ded75224635; 0x9d85852f43922913c50365e6346ec1999b0ec84dea8e6a1f5d9246dc758bd1; 0xbbaab3f0e8a55a29a4059366dc6570134dea68de128c0a991fc810f3f9dec4; 0x7b3c6d2a7208c26c7c6f1e8e18e72ebbc565023b6fe6f8b36ac89278243ad492; 0x3f64aa73dc463df74317f2d8d3ec32bc6d16cdf5a8a82ff34ee2b68babd2e4; 0x844e614a06614bc512f35c07bd99c544a9d9350216223e51178cd9631671cdb; 0x2a78fa7683feacc5d7d68fd626e99508a23527964222f6d14b90025e3b54ee8; 0x288688bfa29ee62ad4aa6ee0477544460594fc6adbd9a2326fe20ce1957923b; 0x32f6b0e8a4b5689c3fa56e63d8bcc71f208c38bdd31d45d4b0b3739a05c73f; 0x7c94a9037291345fed6c2350ed2597f188866cc71a211eca0a476a980a2f1503; 0x229593cde8f836918d373a669ede424e02befaae458a02646dcaf988591bd0; 0x208c4a244edbf0a0d4e78dc40d79dca7c537cf4d773b6694c1c33290d83ca584; 0x2381aa1e245add7cf393636e3d7e27b645926a5b950a646ce5a958c471165ecd; 0x651caa4b037675f83efce6be28e67615b961087d8e2b8e8c10c76a789f936c09; 0x524a0d3b499b68d195980914f3576e8fbe5ea0fc46c875c02e9776d93dede8; 0x54c01d1c8482682eff39dbb4334aa707d70d704bdea5b8c1e9c287e2f965751c; 0x3e9e994bb02b508d69cd4558d81dee9b6a59f8161989667d42bc2b5af56f0430; 0x3aa54b6737949e4b6166d60f4c15378dcfd3af3e443711c441a68edd1df443; 0x42a12d651ee12f9adc84f6e410321963ac3b6af30f7c8d81206061c2e307d9db; 0x108e82ad3801aca4ac6c30f3d4a999d09c4b48df8b6fa769e9612fe6dd0aa4; 0x586804e8e69a59fa8d471272fc3d998ab45bae58b49ab34127737ad3ee05d2c3; 0xc193b17c5b9e2c0d3e73449d2a44e17851ecff7cf2300453392be9c26109dc; 0x73826664b041045d17a047a47afb139aef65a9e4ccc31b78fe06df43117357b; 0x13523ceafcda6d5bf810766a4c07e3242506048c68367a04f82b442034538360; 0xcb34a52986f4ef9926d281418539e3bb710b415c10c77ef1cc2b5d1095bf37c; 0x154df99fa9a093e7864aadea3d22455be80f7d36bc6c48d3328e44dd59ce46; 0x1495b162c821d236a3dc6d70c684334c4da953096ae56d49b26e541c85c6e62d; 0x336066437c83521ccc97c5e77942adae813d107ddeef1e3e8c31bab10151f626; 0x3aade83e8d3912d58ba3e7804bb991cf8339196bd5ca627c197f96c6782a54; 0x70d872fbbae564ccc23742a85c532378d8438bd1a9af8f0588c1c6758331063c; 0x9bb6a78d00107a485b7a3febf6e24dcc8b5f9c631225d47532e8ab38fc454c; 0x31cc8316513131a86ec25b3c3ffd41b03ea9c0101f87b91d280d842e14c8a376; 0x9dd1312aa2993ee49e3fd4312b1bec0e9ee0182f129ba9de0e4b99671107e1; 0x1a90a4163dad38d7179487911a668b522dc388ec086fa2ff85a02242edc086fd; 0x8d35bfd1be79bb2e05f92221e3183e4f63b946d384239abb282e8c6fcb781f; 0x2bf7744410fd01295fb93603efc44f0854da8f904f7eb5bf3fc7931a280ff68e; 0xc38303ff649ee012372e8509b09798fe864107fccbb2209c89f01f6b8120b6; 0x880eba703adc9d46198053d2b0e254c4defa1492fbcb26a1dd5935223a77d93; 0x24231023d68c70b9f89cff00457a45a715708260a9fa8e2aeb8d60729f7a97df; 0x66d40fe3d3972c97d86d0a384a2b4985fc7923194961d544570919fb6e486316; 0x4fe9e844f479d8ecf8ab02a415de87ae0e54572fc4a579b714675c62662df0; 0x198ea00e9351380bc86fc338e97a74f46f62f63ef5d6c7e006cd2c6a53e94c82; 0xa816fb38efef2dbbb6f850313e3c659164f96b920864403e992f92fde6a77e1; 0xd5bff890ec55a8b5be1ae3134a8ab88a457a18c82787a7b6710e90f75cd39e; 0x35896ff555f89a837d46215d1dd9476e6a3e59453a602b34e52b12d6b8a6f5a; 0x11fb376db36423b576416ba52b42ba4c8605ecbf3e13a605cffe5edbc3be2490; 0x91797269e7c6c103fa140e2685edb49c0b9bbc4ab971a19958a70e56ba2f71; 0x69d832da315e26a552d5fb6184fcc1b98373414918c0012a58ec3db751bdefd; 0x2e2f2a279cfa5cae591ecbae2fc8f5d2972bcd188da0b416507c116abaa19c71; 0x16478b77c637252ae87f1d08b0436ac75b823052ae97ae0b2fc25cdfb4af0e; 0x1a15ee2e58b43bf02a2620b194c1f81672c36e1604eda163697bd332cfcf8c9; 0x56c53c640d780e82603fe8eb5cce048a76278da67a05f4f6215ef1040b1aa6; 0x2a0fe880d9725f14861987037ee1422fc14e5e9eeb51715856043ce481d64db; 0x83ecb5be20e077110affc5a66af54a447275d9fe9deef9a16eda4038514b64; 0xc2d460e2ebf1724f926fb0415f7bd8a420a038a7cd11b32decc2761c3e2ef80; 0x27d36a5e98d8d5a27405155a6b13d211b3961416b65696912c2e2f14a3ae1d4e; 0xde15e79f2d7a123ae886b263537ed3bdff4c4bc81d2bcfe269d4c56904c715; 0x567ff491deb21e5efcd5e9e30e74780e1a7d5d8057d4ce42783f13d9dcbf13bf; 0xb1db799db49687ab78028af9c2e31b1a7259686a3e05e2e224a37645bbd42; 0x4082d4ac5f4237d1f23da369d113e0650afd88844083ce6624bd980a60551c; 0x3a52022ee41a9cf07af46c0e68c3c11625e7d1f8955c6984235e5ab5c45740c6; 0x1661e4a9f4135d41c19689e48f47e76d3e60214abd16057ac6328b23346aa59; 0x4e83aa5c65af28bcce28686f461a7ce99685b57383ed965c5b1130cbf31f91; 0x3535238d1e73d92e87eb34b3969a3ada77eef117f99b56e5e6c800bb828b3236; 0x8ae656fae2aab2bb850874071488f873f926d23bf633a9ab5b77f7d2629320; 0x6a81a8c4e4e839a8975853c12c081acdb1e66d364e1bd7bd5df5be25561d1de1; 0x93a0eb09f3a325bc51eb59c84a9f2edd7f2cb9b8da722ef330e06836792d3e; 0xa3e0c799e6ad5a4e6465d9360f8d06b1a88bd60a46f204a207d98da83c0dab4; 0x1bf677d1a133a7a19daa22bee3a00ca73f437ec98374f261c4d82b9c9618513; 0xb627fde6ccc79f802786cacb25bb36590eb3c04f100dddf5c2d80d32915541; 0x6260fe8d22db60b4853e9834e1dcceb689a0bf278068bf13309f055f97a04468; 0x1fc1990578ee8b714a42aa3772254b9549a7a1721a013cccf224f2b231410980; 0x6d9a1cc22496c4142ffce22a1b2eacc1e639ba989a2a7b41950dbc555ff965; 0x22a54182e9a232268fd82616f7b1b115e4650f2a3670a4b50eda61aa56c43615; 0x5af7775df10c4051a3fc26edb72d87ce2155bc91ff866a1cba403eccf8a2f; 0x138936c0362d8409ea5feb8c8d161d9aae586aa302e5e8a5a4ecf7a66e55f8; 0x2edc61df6053a203d0a96383e681d0d4ca3864a07a1b78135e592cda0e90a4c6; 0x3268af5d0ab635f0aec7c35018a568159e563fa727762b50d43039bef67ba1f; 0x868ca2a087c3ecf8d6ebdb54e7ac23fd9241ae68029a85cd482fab0dfa8e90; 0x1fb8262bf9581f6dcd5162f321c4569147ee96ea6d23c2cb1abae7de0621e99c; 0x1ed4265254225330ed032d0ba1383d26f1e221a08cafa10ddceaf5c0ff833a2b; 0x5acadd72feb4aa82a882a4868198813aed41199eab8f9aa1e62297d50254d36e; 0x4e4bac1b09e9a2010ee87439c8dcb88886b86f66687a7ce3758e5e1189e372; 0xc4e4901042fb7127d4db4de7e5fa85449a788ddd6f9e8f3f7f384a9a2b5816; 0xe7cf6e0ae5de5a637e918da24eaacb03ed0b7efc2dc69f42eb1185eae4118; 0x760c1e822447b3e432a0359a33abb11b012ab6e6776bd75393df04bb591f56f6; 0xb2c38c454492fba06a916b97e29dad74ae1cbe1125fb6b2eb57824be834085; 0x296117f7efe60c6e1bbac411ebf44a782898aec5476e5a53a6d749e3dc8604; 0x1a34ad192308f7b784612d7d444676d022a8430ee70af9020717e92ba8ed0aa; 0x9ec4fd387d909e496e23dfbecf7284542e560ddc9cc1c694ea5efea1e9401a; 0x77e510b4456934182a5e514ea4e9eee421a9bf1668a1f3363cbf4aa8384d4660; 0x3ad8b3600949b10409e85b5449071de1a5093cf6d5d508b48a4acf1002115d4b; 0xd66dd0d729ab4fcc2208bfd264904bbf174b347d70f8d92ba48627ce692556; 0x654ca68d95a140f9eaebfe8596692249280e9a2b6d9b17c6c5fe83d755fc5274; 0x36e4f7349e2ee7f07344d5b80d735beb535c5d70bf1ee145529d866582f990; 0x4514dbef7f195ecf665fd0433411c856c8867dba7e2632ed6682d8af901e6e6d; 0x8dfb0f849412a9956018af4a6261b30dcc5320cedae81f8fc970dda262c986; 0x1ed735a4235c7814ee1b210e800d61510969532c8ad7d3acf4195ad3eef5da92; 0x60986279ba55c9898f6127052deb3fe270d06609881d3d47705a126ac8f236; 0x1b430e80403685c71c033252d16397952abbe9ca48f477841beea1f3a3b4f1; 0xc209dfe295f8deda9ff55befea1bb038f9d791a62ef65e43641ec5a987ba; 0x102adfdcbbf787cf4bad2f15c3b92e627d9a5dffa18d4cc3c2d35bfa6608ab7e; 0xbd26701458df2c705149dc8d96835a3c930c5b5389f33627b7e2b7bdb1e767d; 0x3729f7875cb58b8d3482668701832911fdcb1840fb4ec0711a2a148851f1c3; 0x702326b22c897d5f613170d6202d2432f8a98cf778c8debf25197ac5b1d9002; 0x456589a490d00d6bbcb5cdf94128d36926ca4e78529bb4529369cd7ca12d7a; 0x171bd1207022ddb2f0b61c256e7f40855214a11739db9b2d50c7be1e367cc2c4; 0x33cc0517306b8954708e5bf074d62c45435b5f4a544b83ed904188e74e75565e; 0x7fc90e9b888f90a00b8babc2c8006eea74e5e89227323f40fb22884df9b7a51; 0x708111cae0eb13d21fe11b9dba80b1fb08350746afa23fde1c06bd12d3632; 0x15a8cf63f30d60c04940e5ca004193e2ef24f7a766773a4f489bc32a595ff7; 0x1de2eab5f574611f7b9c65004014bf4725c9936e491187440ee18c8d7ab911; 0x1f1e447ac60cad11cd051725b8d381e1c3034924bd3d85e4002adb3057fcc8bc; 0x352851b460feab33f1513f369a1da59d6e1328898bc4b64a913da29156a247d3; 0xc145e2d54ce1c771979f068189ad403c4c85e273e2a103fd00049bf2d28be4; 0x501755dd50f02510c21b9c2979cec87dc27f779281a36c8523be331ec597216e; 0x4f04d91ad5ff9551ca6dec89ec89d1f0079b1b565da314fcd79b245a24cb98; 0x48dc3d1ce6a6c231840a4e2e88c5b3527d0a95963dd077fa22afc7c6f1975283; 0x40b73a743844280f752ad59f0e736ced6642fcfddf19c0040254932707d2f3f5; 0x1f907e9d4a2f29de9ce7623ef39f99a07844eba223744847c35ed5c8bdfefa0; 0x605fdc1d1ff4541cb778ca5c8a5d3ef68367ca5e4cf55bd24576d3c84b6a8a; 0xf38b2244ac690ff563c035eb17bfa021923907dc958f53acc8816bdd984f8; 0xe954948d941e57f5f5b7942895d6501dcd29073a6ad60611f623cc25915b52; 0x17f0ed8cb3e34e4c3c8db993e0a8fd7deb8c202449a9a8230e95a77c42b2d536; 0x2aa7a6f866423d076fe44b690648fcfaa744035062c2103d891bb52b49df0ad3; 0x2e0b23b3628d995e1994de1c5a1c0a5c38892fd3b38b6b6af6927f63e86e598c; 0xe1342bf7cfc2eb14b62fbe0e7112521e9dc12094f5f131d1b8368fb7e07be5; 0x43212b94e9666d4e0bb4a1bc87487f093f940ec458f99c8c7e10f62bdaf7fed3; 0x1a5da7ccdd4ace4477d9f3efdbc3670d0d4abae5c3d81cbb58cd211bf6f361d4; 0x1458341b4f2cc7666b1e72b16b5eba962a36fef6b0f2223e970ae058fef7942c; 0x6fd8384f9b494046dd5cb229b98bcf267570074272ea14d471c05a6718aecfdd; 0xab56e56339261572534232e80516a7d34af5e6f233de6ca58465a47ca61391; 0x3c96de95a4365973e3586a0d680aa0a924f0fc32404d80c1c1f67d6637985a3b; 0x16e2e83e7dbe1b9f6abea97c5ab2a3a8ed9e4e334f0ed98e15357d202f76a25; 0xa7d2ec163b26aac191fa6a1539c9cf5e51ad0ecfac5573b52f8b792131893e; 0x10cacae33a80650f9cca5a450e87149373975e07e572865f59e0d2d16404deb; 0x64f1e855161ed429f36906fadb9013a7600cc1d58cbd00c06231178b5d36a6d4; 0x58e33752ffeaf266094b1de5815a48999dcf11167d8ceb5beb93703eb2682a40; 0x6e6a2051ea740860b9dbabd9ce1a442ada7dfa728722bcb98787a69ff90d2aa; 0x15450486639b66ad15eeeef8106c9186e859e217730d780e91aa947e868af5; 0x486ec3dda0d457d17281a56c01a28564ef125990d948201cdd780a560de09949; 0x2330b2f2aa753d41fec0f9d6318869eaf65350ebefe8265586e2a337df1efbd2; 0x67dc395dbe9dea19a94893174640aa291d34c81493f4757aec1177fd280ed15d; 0x5816be0cb9e51d58c3fd786cdfe6d92df50300634b609ac06e86b00b550d1c0b; 0x6391fecf9a55cb4887e3e0b7343f9519d7197a0847701bae3403d06e51f86e; 0x33f225be5e3d8906f4a7de9e828b22696fe107b3e051fed4e2c1967f856df1dd; 0xdc81d37676cd9a4091483e9da39bd7aae4598064623c8ec52f256cb67f66a; 0x6e452734a91032e1f545ba00a0565aeacea32718c9147b6d6b0dd99daa1abe8; 0x6512c6bb96f6b2d537dc4905dddafa267c0cf6e25d89fac846e56800dcfcb1; 0x6fb6b549a4651f35d08074c355b2d7a5a2cdf74554bf558bb1a04f835d76035c; 0xe6c404d08f5589145d3efa50407a00680a2517fd481bfe9d7cc38a5305bda; 0x7e429c7aea8b61eba9c798d6177bc1417ee89399446c830363232fc6b4853841; 0x47ab3ca2fc7c2d30301b61f964b718692304a58d4545551d4b5d93e7786695; 0x1ce94e84a99fadd01d35fe0ec55bfe5cb6606caa5ee694843fb05ab5bb5bd647; 0x40048ba00315accd998c6d82d145f02236ee4129d835bd7b06d1fb3de8a5cb; 0x3a4759c62637fb255a5074ebf70331afd2230b3cc0c9e4a3e1be634ec868; 0x212bc462a77f06c93cee956f40274a6bdf08c4a623a64da49227598ddf36a4; 0x474eb520d55ab43423c86b7f76d4c4caf81f39af7b9e3c7e100c4cdd8e5c1265; 0x6b41aa9596219dc0df8dfa56e39d82c15ee715acab2aef37d3a794c915d1710; 0x2074ff6d11495d0dc1ca6e49a42ad25b3157f54cd88fbc2b541c3df9c2d9a476; 0x9087c8c3e8bb69836286a2ad34e5b8f26d13eda22ab2056fc861ae09179b35; 0x36035037777f2bd123335a7d4a59263e19cce0373bf8ffc0cf60bc9d7943af83; 0xdc79453c38e0672875a91f9e2a25ca09a6a2ab0ed682657b92b4ff0c6d8f13; 0x489151e322f949c97fdcc0de38d3ba27a2c8fd8ea8d904743d0fa208077ab58c; 0x64be515309a0f5eb929986a299fcec80dfeb8c4369c98b5d383c8e98c70b55; 0x51e21dd501cef9f6a73c3dfe2dbcac528cb573f1687639be3be6c102538643; 0x4334500e9f7aa7d77fd89e2cfea68f94c2d63a35cd709fb42341db33d90116f9; 0xe0660c935be1e97092edb451e1a2c12a036c7f76f4fdb6d86584b94c7dd84a9; 0x4e5de765d32c43e800e208490f302f8ab115db4fd1574dbecbd36e22566c75ab; 0x14c7f19d9f7409392758b4abb3e0b5e355546da2c35c1b7dae9dbfb97c40addd; 0x45beffc1a270e653235b875d890d558ee0ed268016c59bc0f78472b316c949; 0x52e29a7bcd478fd6f4a06b7262d1b468c15be47bf5bc814723cc56b4db6717; 0x5b38ce251b6e6495afeb2022c90a63e7346eacb53cdc05459ff34e5d3a8b6311; 0x301ac4b1d5caa2a83d7e6fba6c2a547ddd8940f0e3ab2c0f1de9e71e20bf90; 0x5484b9386af13cba75dff97083d176e001a33f49f49524cec192106c00229e9a; 0x281ef0cdcc7b6d99ea590fd1d8127bd3967ea7cb5502e4eb5bc8de4277d27c38; 0x440a872846755d536c744af994cf70ad1ab95a952110bfe687f62ef2d3691f; 0xdcf1127a455a8e4383f3de24ba6d9c535bddf026e35c171c262fb68f084b5; 0xca22073df7da824afc8608727b7548651952888e976fe1befc894807af674cb; 0x263c9297aff7eab2eed0b18e7ad98bc68e09c39548c73d978023e7208b818f; 0x4f17b4dd5fd6aa6aff88ae17eadc503a8512b981bfa42e4ad447779eb7fcf217; 0xd4381a81c49aa464525d7a025b5a9d8e020aaa023f34b7eb4ca3a8cdc4373a; 0x1fe43935167ff5876464d1599ef37beff328bb3f153e1e1297963c90d400a6ff; 0x1dc09c22777eebf3a87a4da2ebe698783c9f0878e700c2ab0b54963e821004d6; 0x2a6808203d062fc6e6faffcce3a116229343509f883c63a1269b26294ece3b; 0x48607c8f07d971f3155e3544a8ae116e2135e593db4c9ccb13fc4cc7f3d8c5e; 0x157af6f4230485abbb1f1742a8c11c618fc0a4acb91a28fe156dcdfab7c8d8; 0x48b7e4c3994b0fca1ddfe2add04dd077e16cd621719fb692e6d27f737fa5db7; 0x86eae4580299e978354fe1704a985c0ffe795b46eb5a06d41cd56f7143a693; 0x300dc0fb0b00494a0493486f43e178b14beb5160b80718c7971d925e43853e5b; 0x25357ecb5d89cc0ea5da087fc70125884a5bbfef8d25f855eb3b3af29451d2; 0x1183e74cf478964587e37f90a10e5ff2e09d356f46051d7a5d30a8a05b623931; 0x7a98cb23852bdafcb21526204a97276b82a4cc5275cfacab200275e0582817; 0x700d04344f584fdc21f7b8e828f684a094f5a13fa539ada0045bad628b88d450; 0xefed9760369e82a5bc424a8c899516fa39e9a8bb4356ffea709963f2b25b99; 0x195c25ebf19efb0905cf878881ba42939acf0d423f011ee9fd276a56ee6ed014; 0x305bba9421c3f6eb0e3958de6237b1aef9ce367f78d4fa10a4d8fb157617366; 0x689279b0b3fa04f0462669ca1cd740f61a3dbbfbad95e065a0f3a42bea073b; 0x88bf34c48ec498c50bb14e98aa82387cbb6ec0a7696dd6bee02fc9f24fe25; 0x59dae1a1b3cebb521359764fe4fbd38205d9a799fa5f89690ee29d0fb7db838; 0x301defceb827b40dca616075c2cabde8c03bfc0cf23e8c102ac51b02eac986f; 0x30223aa1283ef78dd64a92c2e0fc20b45e629cd3cac5d0777d183c12dea6f3f; 0xde07f833b2c1e57ca1a85359bd1e3ce3ce3421cd7704b46dbb7ad70797f5ed9; 0x4b5c521637524021f8712ad28ea22e90b8e776a8405b6ff1dfdcf480d1d33027; 0x6d9b804eb248aa2bd80957f367b9e3f3ca17e84b74a519c251391d4a0f2b2a; 0x451a87f37dd4671564fda68ab6821994430f1ed2a559a7a14d350608c6b1cabc; 0x208ab2a1e570683437c1c7d1f24d3d79c840f391cab70b02923cdaca0dcf6bc; 0x17b63fb5a4edf41a350062876ae4a0fc138305e49cac2e2e2217b23a8f264fe7; 0x91d9f8e5ae76f56b9e92f48371f4e6b015e92982afd189281f41263599d437; 0x36db5fa36bfc0769cac09aeeaa159dad9743fc021752588c1449ea829b4fee6e; 0x984b42d9ffe8bb7d61014a195803febd99c2becdb5e05b64eddac4f6edad7a1; 0x1253a1a8047be8f0f31679c68421cc6bb84fcdd41fed6b545aac53a01863ef5; 0x77a87ed85055c10f1d43a832a91474ce6c9cd3dcc44082a5e66376778ca1e55; 0xc73283542e63bfa88c8da0f1549dd7ae73d19d950c9d3fc70adadf5cbf9de9; 0x251af6f3ae901f1bdd6bcbcba508723c70fe82c68e984a0f9161bc4e79214dc; 0x32e744292278d1dcbd54cfd592e54d59bafa35a4f3ff309120f7ff7d3837a7cc; 0x7070b223e6091ff734c50e6f8fdf5d3654522f0c163027228e29394eff78b9; 0xe9221c15ac1af8c29d6ed96223f6dc7e530426b134c8566f84d2d0d7d6c59d; 0x663b2266587ae4104bb9561097448517c403f36ecb142e93be524ea0eceb5d5e; 0x55962dc3de03f4727bded3b5493b179592c0ba90aaa08024ad2ceae8a290d; 0x164007a0147e70b37a7821bb93df55845bb931db8844789e5b44bf8b4de8e533; 0x16d02b3fdb587b2d25a641cbc3ccb32bdb7ae854b432fda732ec2cb105fe384; 0x3f1bbb2e0ab81d0c73f0d5bc7a7a72b449c4dc767a9f0c78ad09f077b990cf17; 0x239e585aeee44ad00b210f2a78539838f73730c96653cb1d4a0bcdc03e0bb4bd; 0x7bc3ae73e453b4e78b1cb3becae8f56c844ba61ccfac8d7c3b8093dec4e66d; 0x311c09122b396ccedf7d732c62d1a545d9c66d979f992918fbc3adcdd364d0a; 0x472052c212f3b5cb7329098e59630e805e81f63721ff5f14118855b1a0f8e0; 0x1b1a0bfcc1dec4eed36124f7a7a140c272be09b020c8646b9fc9702e8b505302; 0x95553cde22190bb11a662395e7d5a7baa021172f33e6a7ca13e06877ab8264; 0x62e8e90be23f2e359408c27bbbed1da69e49533aef862d428d5d8c0d633a4c9f; 0x48c53f9e0df65643eec3c02ff764845e1925a93e968f283197aa100e1c02b4; 0x71ca74b94d48be7a2fb3ab0b42fcdd32a2ae9a4aa3e9b270676713ae44bc116; 0xb99c7e6ad5203c3b5da063660c56965ad231b13325ead9cb3bb537b23134d8; 0x463148782304c03e9613144e2f98c955afcc015703410d1e121454d9bdcaf9e2; 0x4c9cf5daf09065132e97ccf13fde3554f895f3d7ff9b13a9c13df6a9d765cb2a; 0x1d45b3876d7cc44cabb2e446593c5fbfc2bd8b1ef2d91c3cd4e57adf3c811e; 0x42151211e6526382c43269be8408257b5a37d241da67c1e34caeb843a160b8c7; 0x2c090a561e203ba3726c336299e996a905abfa9bf640bf8d1b5d21b5fc2376; 0x6fbd5bff6502b44451560a403f53df2399fad63be94bb318afe1e9251f0ee6bf; 0x46f93faa914af91b77808c24efe79dd0238aa1f9eb9eeea4bc22b8d93a970904; 0xdab749f595d43683875ca9bdfe7ef51b87a39d128a53c5aedca6f35b1337d56; 0x487fc69b0b55a42a2e1e2d4f061e62d8bd2c8193dc7aba340e6f72d5a03575; 0x5afce1e7e16ba84e3c5f1a1e6a954db18b94004d254362ca682712f44ae7352d; 0x18f2e40f996637a8ca6e6f68b29aa468e5874655da14f2df6244b15c8cbd9941; 0x5b000eac3f02558f1ca5e032e50cec435b82356bc7bd643f4249f0a0f0d80031; 0x2e289ff01fd1f6e1a06c73873baf5b6b4627eb2cee8e6f1a973ba5c9ea6be7e4; 0x5bb25268bb0142ece351e905e3d663f92bab8dd043d50a7ec3402e18639c781; 0x6d83e6a4d9502dce3328fadcfee40194f3f11eca8bfe6c87c8f7c06d017af8af; 0x13cdb13b2bc8489ea3de012bf32644c9e2d649d92097c8540356193de20534c2; 0x6bc29f187aef4ca7a7677a6cfe35694dcc4ef59dbc5e918af765eb37a642bc; 0xe6684739eb3be94bf97652291113d8e19f8e4482f8ca2fbee028f061310f466; 0x469cc7ee23c1856c6dbf31f963dde355c61a7a48fc712161c87062d76bc936ad; 0x276276acf037c4921d7d495a2509898ba8adda5de37166dca1c0ba3f5abd98b7; 0xc0f0484af86a68740fce4b07b62b482392210bc0fe49972670186442c70791a; 0x5838b5955aca247f0122a931e0d1209b28cff8c37e5298a020384a12b6c8c202; 0x28146411ce872fcb9a2769abef0b7190121e554d12e573c6f093ee7ffd75c; 0xd791513137b918b4eb82879186986a0f401b491c271796499c2075771485d7a; 0x44db21c871948641b65c833fa58bca2777c8826026b01f5b2061b2771107b5a; 0x969869f993c1fb96e92ddb7b4add972f8a11695ed8b5851761648fa7607562; 0x41f2c5bc3110dd4e0157de04b753e788fd1fade1089f2c5a8c88ae1ebe036fa0; 0x2cb888d435b88c088a2ae26e0ace66f949ac8561956bc8043cecbf4633353; 0xa851e06ffdb0f2cf33ea6279277ba540203c3f1203705a71b068bed0f6f0f0; 0x174e4375c158ccc331e238c2a42252f9a182781e8cf59eb9d4241de38f7fe235; 0x8b57252426f576dde5efb0c5818890360028b385a275bf42d2cbbfafe21352])]).
  - intros q. rewrite ?Z.shiftl_mul_pow2 by (apply Z.leb_le; reflexivity). ring.
  - cbn [map pc_q]. apply Forall_cons; [exact prime_236_340907|]. apply Forall_nil.
  - vm_compute. reflexivity.
Qed.
Lemma prime_9749 : prime 9749. Proof. apply small_prime. vm_compute. reflexivity. Qed.
Lemma prime_116989 : prime 116989.
Proof.
  apply (pocklington _ (fun q => q * 116989) [(9749%positive, 0x1000, 0x5ef8, 0x353, [0x8f; 0x4c41; 0x476d; 0xe2c; 0xa021; 0xef7; 0x1a6d; 0x2925; 0x45ab; 0xae2e; 0x6718; 0xe9; 0x6040; 0x1b5e9; 0x109; 0x19c5e; 0x3133; 0xbab])]).
  - intros q. reflexivity.
  - cbn [map pc_q]. apply Forall_cons; [exact prime_9749|]. apply Forall_nil.
  - vm_compute. reflexivity.
Qed.
Lemma prime_1255525949 : prime 1255525949.
Proof.
  apply (pocklington _ (fun q => q * 1255525949) [(116989%positive, 0x3014e086, 0x2c5bf775, 0x1c803368, [0x1ee471f2; 0x194cf6cb; 0x2cad8d4; 0x14bee924; 0x3b30c; 0x5f3d196; 0x797991; 0x15d398cc; 0x3b8b2338; 0x12be7b73; 0x11120554; 0x2eb7ff38; 0x917337a; 0x110c2b44; 0x29578a71; 0x418470de; 0x1581a9eb; 0x4855f7; 0x5d546ef; 0x4abd977a; 0x238eb2da; 0xe1541a9; 0x1dc8faf; 0x11044105; 0x61948eb; 0x111ad9e9])]).
  - intros q. reflexivity.
  - cbn [map pc_q]. apply Forall_cons; [exact prime_116989|]. apply Forall_nil.
  - vm_compute. reflexivity.
Qed.
Lemma prime_443 : prime 443. Proof. apply small_prime. vm_compute. reflexivity. Qed.
Lemma prime_36753053 : prime 36753053.
Proof.
  apply (pocklington _ (fun q => q * 36753053) [(443%positive, 0x9395c6, 0x1bf16f3, 0x75a896, [0x26d6db; 0x53b5c8; 0x1dc544; 0x191a0f1; 0x88da7a; 0x1f6f3b2; 0x871f7a; 0xea8d7; 0x4d0911; 0x1486be3; 0x14e9540; 0x492d45; 0x173bf0c; 0x5457a1]);
    (7%positive, 0x1c7b839, 0x24d294, 0x1dec2b, [0x17252f7; 0xd04ff5; 0x25fdc; 0x1194a54]);
    (2%positive, 0x230ce9c, 0x118674e, 0x118674d, [0x230ce9b])]).
  - intros q. reflexivity.
  - cbn [map pc_q]. apply Forall_cons; [exact prime_443|]. apply Forall_cons; [exact prime_7|]. apply Forall_cons; [exact prime_2|]. apply Forall_nil.
  - vm_compute. reflexivity.
Qed.
Lemma prime_115_323969 : prime 37414057161322375957408148834323969.
Proof.
  apply (pocklington _ (fun q => q * 37414057161322375957408148834323969) [(1255525949%positive, 0x6339800ea4ebc50c9a40f2093775a, 0x44bc3c7c5ef101bacc3a4316c6653, 0x3b281d906da76052fff758d3c3bda, [0x5565ad96e2c56e3c83b69f414b3d9; 0x23297ded644fe1597b6f4872e1874; 0xe86ff2b719056d3d3ee243576fc8; 0x2533f9bc113bc15d32452cc36c848; 0x1264de56681c41bfc81e9f06a7aa6; 0x4dc78c566ce7bb1b22241c8114aab; 0x43e14eeb15df2aebba3132cee5b7a; 0x2019a2958a91d12ed5b03c7e4e37; 0x705dee6b7f1dafcadee7a86d78e0; 0x4aefdbbd999de0d7b397bacbae3b9; 0x5f7980efaa97cc30ce43d7ce21d9e; 0x1677965f970443f099bb371512b24; 0x26e94d391cc0aa85e396d608180; 0x436d4f16fc7d3df7b57deaf0655cf; 0x5d27171b02fe502bdd4ceb9bd6e87; 0x4f63c4a72001d5a509dc4c28fdd62; 0x4a881300de1f57922fe9a5877304f; 0x57501c75663d82752d28da66817fc; 0x15792c304933d8b96d08ec1a3e00; 0x2e62337027e2f8d7c23a027d9a11; 0x42f6b135eccb8fb0c2bc6eee389dc; 0x48448a4d0b304a0bcb13382c36b1c; 0x4de2b3b22c5e5aa22d79dcab91b7d; 0xeabe13a16903b85e56e6d9f46dcb; 0x11217e024e11b857716c29b84279d; 0x4b02b593d0d48f98d37c05c755840; 0x6f76b9c0613f1f60acf08c1e14417; 0x7328d2eafcc89fe339e8b0ed5d432; 0x93a60d6fda1fbcc72a6ac917facf; 0x1f4b3015955056255485c5ebe059d; 0x38973f34347619152cdc8b6621c7b; 0x63850626db1ac9d499f8b1231692; 0x206cd7a1c1d78caa025debaa3e637; 0x1848ed96c2c22bf6112ccc4928b2; 0x3ebf10f221acf71ee3b3cacb7df; 0x513759f30aca17589ea44d553a91f; 0x6330941640b77a5d1984a40e7662a; 0x45cb86692174bf8196182bcab2e96; 0x669ff9c06572b7f1c5a97a8942e12; 0x3cf7c72e6a78f75277ef20262d40e; 0x23bcb805ec1ddf3e41af8f539ce; 0x45003960951be4ac95a679d37b433; 0x1901f5e2aed08241f56dca26d1ce1; 0x3de7f967cc95f3ed60fb324dcba22; 0x374c18276f15502137fd212a59bb; 0x6283199608af7401aa2f9793cf44; 0x48b2dac88e1c214d6831215005c91]);
    (36753053%positive, 0x23f6bbbdcd87407d1aee103bdd0f2, 0x1411620488cf3ee4e561729fd3ca4, 0x6428d6f6efe0bc97fcc1170d6c63, [0xb37f1899026641e041a0128422cb; 0x10dda35a55932094f6ec07b5b6f02; 0x730ac204b02c30ed0a61db091a726; 0x5a4a442335e1e6f0c4043324f7290; 0x23ba0d5745346473817f1fe6af659; 0x3bbdfaeb5cfb0a39d5aa18aa080b4; 0x118b0cea46387786596347c950988; 0xaa66b8eb5c29204109b37f53f59a; 0x21eb735c4653df8afcd155f460115; 0x28979aef44902f739b924e663822; 0x8d44afe1eb97525a542b5b26a39f; 0x69f334ed316cbcdaa5bddafa3cbb0; 0x21b5463c732412155047c1ccad240; 0x51ff79a642dabaf946bfa68e391b6; 0x123d624eeaae1dc984652d28cbdb4; 0x4401bb716e6cee201f021f1fe257; 0x84e4a430395985428890efa5a956; 0xdc97b02e88305ed295e1a10948ec; 0x1620d05cee8ec0186a9cc0d2743c; 0x20afb503073a4cd5ffbb5bdf37a5c; 0x1bb5f36e5039b4125505f493a984; 0x6f3e832b304e4a4aaa4676a4be82c; 0x1ac37134698c53f4fe903ecb19840; 0x184ff9d1a1447457e3c2a97ef90a; 0x234ddcb13f57f9bcc5e0a98f37b5e; 0x1351c6de0efd2b42a0e2a47894f4; 0x4a2bdda2a046d677c5e4f3bbd2963; 0x3b5aa67d9009825ed8059b0b03597; 0x1861b69ee3744184b00b44a2; 0x11d43a72594c9b911f11cd3ce1f4f; 0xcd701b35a233c5c321535663b06b; 0x28a6f4128bfcfb8277ccad4c5d1a; 0x164255f01671c6eb9049df2345003; 0x1071fff4b54b03f1d7b8a5bb54b6a; 0x2908cb81e7e9a66905ab29363af69; 0x4db978f62fbe425a2dbe2e561e55; 0x1cc72658a7195cd6ecf5971396eb7]);
    (7%positive, 0x734a6cac0cbf040a7f1f72a118e01, 0x39dcb5e8297b5b1acb8a6b2f68a2e, 0x39dcade076e0127c693ace9c911ff, [0x734a5cac0ef774b0940a57d252b29; 0x20bd4ba78ae5a04cdf98ecc1832d8; 0x2387; 0x4acbae114cc89e46fec021a18878])]).
  - intros q. reflexivity.
  - cbn [map pc_q]. apply Forall_cons; [exact prime_1255525949|]. apply Forall_cons; [exact prime_36753053|]. apply Forall_cons; [exact prime_7|]. apply Forall_nil.
  - vm_compute. reflexivity.
Qed.
Lemma prime_59 : prime 59. Proof. apply small_prime. vm_compute. reflexivity. Qed.
Lemma prime_23 : prime 23. Proof. apply small_prime. vm_compute. reflexivity. Qed.
Lemma prime_1609403 : prime 1609403.
Proof.
  apply (pocklington _ (fun q => q * 1609403) [(59%positive, 0xd2049, 0x774c2, 0x3fc3d, [0x70416; 0x45a4e; 0x2afd7; 0x42c77; 0x203e7; 0x153750; 0x8ab0f; 0x1142d2; 0x490de]);
    (23%positive, 0x10acb8, 0x10014b, 0xade14, [0xb527a; 0xe7757; 0x4e822; 0x5195d; 0x83ad6; 0x2585e; 0xee59d])]).
  - intros q. reflexivity.
  - cbn [map pc_q]. apply Forall_cons; [exact prime_59|]. apply Forall_cons; [exact prime_23|]. apply Forall_nil.
  - vm_compute. reflexivity.
Qed.
Lemma prime_3402277943 : prime 3402277943.
Proof.
  apply (pocklington _ (fun q => q * 3402277943) [(1609403%positive, 0x5aade23c, 0x1b710d9e, 0xc45495f, [0x288c3361; 0xef4e74d; 0x6b930a0a; 0x13d773; 0xb56d9feb; 0x8326eef; 0x2483a095; 0xa2a9062; 0x26e1994e; 0x6d15ddd9; 0x31e84a4; 0x1925d842; 0x1b6cb6e0; 0x4937bc2d; 0x9f55131b; 0x1cb866a2; 0x20b4063; 0x35a8a2f5; 0x53e5f8db; 0x217fe9ab; 0xbcdc7f5; 0x157f9849; 0x8d6ce2f; 0x4e4b2330; 0x2773fd6b; 0x1970b430; 0x359fbd3b; 0x5b7be; 0x396e84c7; 0x43cf0; 0x21018ffd])]).
  - intros q. reflexivity.
  - cbn [map pc_q]. apply Forall_cons; [exact prime_1609403|]. apply Forall_nil.
  - vm_compute. reflexivity.
Qed.
Lemma prime_71_123809 : prime 1469495262398780123809.
Proof.
  apply (pocklington _ (fun q => q * 1469495262398780123809) [(3402277943%positive, 0x2955325cbd68c756de, 0x2c888ee61b1ef5be62, 0x171b3dcb82b8ff50f9, [0x15721c7ac3ccf3e0b2; 0xa9df9817204769989; 0x3e285bfb2af2832a1; 0x526262d76c3bc9714; 0x466ebd383e71fb72ad; 0xcc6d1977ec9aeeb13; 0x7e4c3cc3cded6130; 0x1e4efbe17480ccefbd; 0x1ce022c7163b1962bf; 0x252a339785d874df94; 0x2d6a07a9a9358d1926; 0x78d9774058432390f; 0x14555b8779ad9b0205; 0x992f4c4495bfa483; 0x16ebdef47b1f28ccd7; 0x166acfdacee837ef90; 0xfbc8419d6a074e8bc; 0x2128d76c4dbe68bb96; 0x63bf2ceedc4220296; 0xcf5aee45dff666bbd; 0x1793571f87da3241ac; 0x3e422cdf1b619ea64; 0x16964f26ef345e42b5; 0x2145ad256273c5ae77; 0x233f1060f1363f3830; 0x28339a4218ae71117d; 0x204ea8af2e25459ef0; 0x16cfc1625ace5f425; 0x428d23e2bf80b2192b; 0xb2f00e3f5e3deef4; 0x989dc09407ad99b7c; 0x42832bdd28b0a6f583; 0x50e666b223837c7e; 0x134ffed0b6c7174e89; 0x112cf96f17b7e547f9; 0x1d381f081445561e39; 0x1dc231b8070063dcd; 0x111f51784c3dd867f5; 0x9f6598e26c686d878; 0x4b797e0bceab36beac; 0x572718df2ae323e1; 0x20979c5c0968fe2415; 0x1ba85279ad318934b; 0xca7b95681a98b4bed; 0x407c3a1f1537b4e2f6; 0x1c4c68dbf949265bc9]);
    (7%positive, 0x350ec17ffed35c11ea, 0xe5018296f2e8e1546, 0x9886dbb84fe30d395, [0x2356a4182e243a8472; 0x2007dac29e72f68723; 0x2d20d713563e2f53bc; 0x15917e4323cc51a831]);
    (3%positive, 0x2077c8396829d629cd, 0xfbb2fe60226f68046, 0x6695fb8575f436767, [0xd3ba910620c0bf396; 0x133c1f29061dca3636])]).
  - intros q. reflexivity.
  - cbn [map pc_q]. apply Forall_cons; [exact prime_3402277943|]. apply Forall_cons; [exact prime_7|]. apply Forall_cons; [exact prime_3|]. apply Forall_nil.
  - vm_compute. reflexivity.
Qed.
Lemma prime_223 : prime 223. Proof. apply small_prime. vm_compute. reflexivity. Qed.
Lemma prime_5 : prime 5. Proof. apply small_prime. vm_compute. reflexivity. Qed.
Lemma prime_2916841 : prime 2916841.
Proof.
  apply (pocklington _ (fun q => q * 2916841) [(223%positive, 0x19634, 0x263498, 0x15caf, [0xe7b; 0x6bdd; 0x12f0b4; 0x10089a; 0xe443; 0xad4d9; 0x1; 0xe1f8; 0x17590; 0x0; 0x0; 0xe7b43; 0x18e0b]);
    (5%positive, 0xafd39, 0x129b52, 0x49817, [0x2b699; 0x212bdc; 0x4eaab]);
    (3%positive, 0xcd107, 0x196643, 0x75069, [0x3b0d0; 0x92036])]).
  - intros q. reflexivity.
  - cbn [map pc_q]. apply Forall_cons; [exact prime_223|]. apply Forall_cons; [exact prime_5|]. apply Forall_cons; [exact prime_3|]. apply Forall_nil.
  - vm_compute. reflexivity.
Qed.
Lemma prime_196687 : prime 196687.
Proof.
  apply (pocklington _ (fun q => q * 196687) [(223%positive, 0xfcda, 0x7167, 0x2552, [0x5336; 0xbc3d; 0x86; 0x1540; 0x2972; 0xf414; 0xbfaa; 0x81b7; 0xd2b8; 0x166dc; 0x2a20; 0x0; 0x151]);
    (3%positive, 0x2ee0e, 0x615, 0x5f0, [0x2dc3c; 0x11d1])]).
  - intros q. reflexivity.
  - cbn [map pc_q]. apply Forall_cons; [exact prime_223|]. apply Forall_cons; [exact prime_3|]. apply Forall_nil.
  - vm_compute. reflexivity.
Qed.
Lemma prime_448_365439 : prime (2 ^ 448 - 2 ^ 224 - 1).
Proof.
  apply (pocklington _ (fun q => Z.shiftl q 448 - Z.shiftl q 224 - q) [(37414057161322375957408148834323969%positive, 0xbe52966c5d04786bc0a8384d8616d1e96223bb451c05a3dca5f1bf29726f3cbeed336bc9b2baf4ccc535d5edc8f667eef43827f8f1712a03, 0xb6fac452dd76997fafd6f6ff928d98d19b7fa22682f59ac818eee3d51837318b1f2bd8b3fd50b403d9678d8968eacaef0c5e31d1694e77c9, 0x8809258cc638a1f297ac33302222df061e524b434fb3de81266eda6bba4e45574470649ed471d5bbb60e4f5b9b65d68391493cf73503166f, [0x8d7eb1ed8fe1647cf1b13f991a9b90e330abcb871334d93bdbbcf97532d6f520465315d60a137942f337a14bf6f682cfa4b36e7fb0b94a71; 0x633e8a5476a9ea1631b6d9b2e645791ea026e3d926a9bdfa89a0db22a7618ff1f70e883da4b3ebbf0383b192f2d4bec0958ae4fd7e245551; 0x253460726b21fe8ee6e83ff35af5515f26bb30cb3f010a09429be7da882d6542048d11613b49d103163f821c95afdb32ccd32dc35493635d; 0x793b8bb668b48aabf9dc267e86e47579e223fc9092bf374fcdd9745834d883fdcd4cc04c4a2d021a6baa4c6062fd3e828d00ee2bdd25f6e9; 0x2a0ddf97817de24d9a5625ac4221152c0c86517b34dddeddb0c6e8762d0af4991e4e73d35de593145fae1a09d1b6651da826258029e85798; 0x5e8ccdb5adbf7140f6a5e3c0c2da7c3b2a6cadc6d599aae8efd735e9363bf1d800da5a5dbb3c7bbbc618eddca23011dd0067b0e083962fd4; 0x242975c77335c012dee1ae09dc7ecfcce01173a7f60a2594cc70b9961cd52772d346f033088b79b74961d70ac013c2a992d2ad08f100f41f; 0x8927ef98dc2cdec5599020d74d78e7744cd884a1d8efc8065f5222892c2ff4d09e82fd8daa2846c2983427a6df05ef0eba22654b07e105c7; 0x25c8d4d0bbf48574b24bbf6bed58eeee2435bade46eced782f783bc8699722a326e21e9f161f3386bbe453588be2dba8b5eb6b42dba3d6e6; 0x3d9ff729cc4d9c9dcca7723d3833b6cc08a16835d8953d51028085bb117f7964a41154ba62b409b827d00f0c91ab77752cac39f39fcf3fdd; 0x17e639e6367323847b2c18cec701202612e08c13430995be8fe28cc17bc7f308220bb33c793803d7478db1c5c5e3b5f0a628c276425fccc8; 0xfab0063a45decb8de4e0b2f57c86d361ddc4667e0859f9fcfcc76f905ea602bc3a22618131eab9be5d5833f1360f525e53e50bb028f66b2f; 0x384b470b6072d1f56e9048da1906eb5a2e110058702337e8cc9f97c403a9542fb6571550c16275000f333f3d8ac09a21f14771076ba580c5; 0x15e22989f8e0cf57fd7bbc282278d6dd463ac462bfa315d481bfa05288b1e3adf937684b55a264bc941779946196a374e9c66341605f86a2; 0x163246da65cb850b611d08007931c9c1b03d7cb18cf2c872d5ca36a1d9860a42468dbffd26e6e83b19950cf2b6b68a0bdcb9e9182eedf518; 0x2cfb10ddedc98daac69b0e15d9afa1fe3aef23f3d832c3a6cede9fecf1f69c0b3c67bfd95dbf10cf966964f84f2a0cac187e102ebc42c7; 0x5c042187bdfec925c15350f420c48c09bc7a680722d737a9054d89a742955dfd42deb3f7e147d41720e5734f19787d7332a6581f380c64c6; 0x2868e7706ba23f25419591147bce74997203b01430847032585dd61a132ec3517ceb06a4211501ed8c66733200d791cb508730ce9cb245b4; 0x398943042e38ee182f9667d67968ec094d4e16be208bb631a8e30b36b7d65b8b5d5a32fd7e03d43ded9f6cd1eee6380e7b6a1b1ec6cbf1; 0x9333872a7d1eb0883a4686c0742e314723724c334b6e1f83085dc216904a2f9b0a55ba0a2444e904940b813e299c96007e4742d6c373a16; 0x3ad957beb0cb5d3d72616b9754f0cc04d2de615ecb7304ff47e221c26f913dc6b82d201e3a5290b441f015d0cb0ff9de343b1972a5717fd; 0x85fb0b844871bbf82f10d9cfaf0b659341e43bb032a65beeadffae061f5346936e4be045e1be22f82ec7c2ba73437ee5403c5318cd9ac498; 0xa60bea35b8f1ecdd50b02ff79c0b4b5e14c0eced52bd9b551925a006ec87df0b74e74bd310d50ff2916dd4ed754c1c3d7e73eb526a32296c; 0x5a7ccb19d5f86f160bda1e61e7db8c23c74fe929e5271a86dc5e9c97da2684a9e7c317fe0c0dca726791464fde274b9d464ed5f6b109257e; 0x417161b3c01762427750da1362c9524902701c586aac1c9f4ed279bf5fd894eff9bd699715e1e7b9369b02ed3a1d8912b38c728c12c04913; 0x6faa2b933dd464bc84965c67880e868623e63f1f30d8611909282c5f23178bba47aa019eae6bd49253650501767ab5bbd105445f525e4ff2; 0xf982d8d60c7f5b69fee5ab9f7c257a92c4c6fa25e61a0b1f64f99ac9701d057dacd2f2da8fa5021c576f0a1db8d9b3e14e38131cc9d942c7; 0x38b1639aa76dc7eab38250c56993a060cd02dfb1c244b6161a7df4b7aa74cebaa97fb4fefb792663960c99d329779d58bd6e286045ea223b; 0x5a5d57aa81b688340a31e11331956f37d389cccaac9692962df268d3858533db0ed0341d3f800a491ef619a00fab1f2dc1f28759aaaf1290; 0x9d4f5b4b43be538cc3d9812570b1337432ef63e8786dbad7369402f1da54665f719793758b15892528ab373221c4f963705cceb9322b95a; 0x545c7476f7a0f776610d3c3d45d78acafc9bd5a73b796b58cb5dec9468e7caa9ba3704c4047fba7a8585704c17d1b7e38377c20e9da89a12; 0x5320957ff47b5007a8096d38907065e3973c7f930d6125b7bbec3b99bdbc4db5e0290e6304faec3687d9916f386272476329f888eca95c8a; 0x7e6020d964744b8e158e1e2d8076d87f7d1db83e4041a61f335853cbfb95cb2952ae08a3e4b30e6cb9552828127286c99e1b4a607ab049ea; 0x390205a61e480e3e6f05fdc404551dfe82ab4aee63706bb2b0d10e5d7cd1122698b06e1a2c8c675e94eb546f1c7888374e62d78f5f037629; 0x724c00759116dee6357ee7b56072858682aaa7f430c1963b98ca61c14b178eb30449945b29552e043108b5b770237a35dfd448f7f605df1a; 0x7cf6837923fd9ca9febfa6ebaea9e1e6aae0dc28aff84db73d6233ba8e046fbe00382280b96aa473ec65c2afff9eb5b2d52da34c80201722; 0x1234a99e211e5d30854c47fc60aa503516aa73884ba86a75364eb1eafb47c2cd66519a95a3f03de1a03a13bd99b5ec16f76ae476a8f6c9aa; 0x70f7407c85eebac7858cf5f929d7fabb98a298b9e9c0082e387465fb72de17cfb742fe0eb83a99d5eef3ec57dfadee23e829f88ffdc97219; 0x362397d47ab56d4d622d2e617dad8dab2ea580e9bce7e8ed5602638c29e3a7237b7a28f269e07b6221a375374f9567a81efe8c908d7cea6f; 0x242ae66768fb85e6edfeb760d0be55d285434fa7e30144755155b0655e2f40a30211f59a80413cbfa0490cfb9cff203303249c12c920c0d6; 0x2ee3afe72bba6e171113245646f794f3e783c0a579996f5d630f9c6d126017da88c4617472a74f96ee0c41fc69effce66a429ed7fa9f6c2d; 0x29c979d831d21bfdd4f24515734b8cfd8f0cb57d31b576eac7c6ce5229b4f475778a6e46c293e3c9e7457c8a18d7777caf63264a6844f095; 0x20bdda3a679b1bfb6c44376132927bc796197b358b30ba4ce157260bace18c4d2840f7a21febae199bf4f182ca8def682477ed722e09d7f; 0x742be116bc7bea6c2f4b849e784e7baf20ddb01d0306db6edc029a32ae1d267c01fae44fcad879b5f6d1a6239e9b6ec086e22a81fc87e271; 0x72b1e5b4ef58df6b44a17ba325f5e6db5c1d6307ef7e56a22dc1d2e1c29b676d7ae5ea543eda0860d3f133ae17146887723cc5ded008ba2; 0x47ff650e93242338b804e417bf529065d600bf3d660ded00243580a0bdaa0a0448814f035a5343bc507c31bcb9a06b69663d24346ad4015c; 0xe5607c90b685bfe4069e021e8c537bc7de20b077446778a5f9eb6d2032ce476c7c6b7faefab46eeb06f6ff1cc5e8189682d80e22034b8e5f; 0x7b0199bd4cf0726a6900c8c7fff25d5fae985dc2aa270dc57681b3c5012f398782ecd48ecbdf58ecd76100cb86c55280cb2e917811e6b77c; 0x92ab2c5c761621d121a0b24f6eebda4a59bf4a2c87fa81b49623c028e6ee9b34a9aa5f52b1e7f56268043a806a7257f2bf8d5e50aec9f994; 0x95c72385dcbaefb097eb3d8d484f974f4b3520ada49d1aaa52c88edbd3bfbeb5f4c24458e9117f439bb67de211410a8c1469dbda7fc59fe4; 0x4f27b51ccf473a077943013d7eed39754db49e661cbccfaa113e8f7b0fb873cc75dc535e92e88099e15a561f2ab2e78725976846e9e23190; 0x9bf023fc48e4ec64d1ebff662bbcd6c0b2b17b4e5097fa9fcfec983618afcf32d991d72347fdf463245a289439ace9ce7168fac1aaa2b248; 0x74534ddd246194e54ccbd7794c97bd3ed8ae9402a7e0df5e15c7880381feae574c581227d4b49952423d7163f6e8ab164f17298b951cee2; 0x6351383b9a301c3772d3f25280bbee9f75b9787fa5ff6b62687ccc1fdd6f7fb9cbd430c8b4462cb1d2ba545583b17003ccca5a71bb36f70d; 0x87240507b55541dd2a14bb416bc53535aac6226a535bc028a33599e3aed6892f8ef7479b492fc80d1b93c6ff68586f20bd98808d10737dfe; 0xf5dd57eec40a952c92b2dd3233c001055984e03d132c0895ee28d07dc67b81b6b1d2186d5e032f3b861ab865e1effb9221f4e4fd888c2cdb; 0xa8c410053cdb6901095840ec288e17c5e4148987036e5a2ccffafa317a263228160c372dfb541d27a8d185744d56b71449330fb1d28fb9a; 0x13939c8a5eb04fdab3b59218bba133cdad9c9161cd07dbf88ddfbc922d0d576df3685629dcb3c5f3dc29bab01f57b1208361d125f43107a9; 0x703e22d856a3a3ef4f7f5228205c43ffd8ef6efbbfe78d8adbe59f1a0619345f6aa0e566de1845324e8df9e88aa921e3ad5838704ac55a89; 0xc16a90c495e08d155f2c87eeda74a5ed3032afddf088d62325383f651f81ac8c51e1e45ec810ed49520f496d32d60d8d2916fa28c571b0; 0x661eef16b8f284a551605086a6b3229bc5b2e4571efd8b7f65e4a990b602a0119c21388ca5645080913bbc6f0c03e9d651a92eaa06d13005; 0x77a0adc1258249168f6a1d3f6be892680e8c8ec58e2999d87ab875a6265ae5b92eae914ab581d9e0ca23e1f8ccc7d6ee4b473e4a51780e7c; 0x8dd9de5371e724cd92fa82377026e3e2050a75f9c3660c2b56035bd3134a7b49c7df3b5c2593db66b21b2186fe62b6be2e1c844db585a45f; 0x5c84ee5e9905048979e2f7e6c38fec058d68571a83a3cbf3b49620c958ee09430eb8389437e328fb6d2b3333a85b765fddf3a23a27ef4de1; 0x7d6f3b1e5e3d1178d36366785283538c24d4440f07f1ffa4edc14232b232f2422bbaa57ac0c3ab4c8c857a9bd9e5ec1f96f3917cc2f1309; 0x6684a0feb87eae993e320b36bbd69940db09b9058312eb85664c8feedd17a04e4a413822244461adc9eda84762518b36fd42723c0dd0160e; 0x2e43284cb9b4ee51d3d2d77eab96bd50a82790d94fd736fc2810215ebdcbeee0d7753bdf9d362ece6e718e8ef219dd7f9c36c3ccb76d00e4; 0x32225aba56b1c46e126b587e2b074b3a3ee629764f70784bb7bb8f97443c74044693fac3aeeca1929c2a6d6ffa6e5686b80c1cf3eea6bbe5; 0x820db161f666c9de2824a58f27edca5d6fe583a77cf6ffd58f924d09d4d94d98419e313a5f3c725b3cabc3fcc789d8f96ce4c3a6a8beee0e; 0xc50925d89f97d25a8723655873494df3e5e5f9f7d2e4f3796625b72a292e97bb4bd9db60d6c2d759f7b097a0389003ecbce97d2bc6a59e29; 0x1c02447395951ed1d679192888de176f59ec2efee0ff650959d3e611a7e690a107e0dfba0fc3371be3a32627f1676a7668390e69b090d695; 0x4c6393cf243d1d1a947142b76148915513bc05e852813207aed3d5bd643e64b76548bb66efeb96c32d170a5e7e67d6cf6d28d4f097d203dc; 0x1a4b17efcc676e219ad322876a01477e39c46b3947fd5da36a7880acad4dbbc11c24c611faf06590644df35984e84473c9725f55175bc44; 0x252c9e1f3692b2724f8e932fa80d557cf219e5552050f61f44f979a2aad69afccdcf808bdf7f2762a0c40298575230aa22e04d37fd611f36; 0xf2cdbfe7dfd02cf7f5a75d91a75e73a805574dbef9e1e317ceb65d5c9901815f914c62d375174e9057a3b8668f22a657287317c1ec388546; 0x1cd1f01db0583aa3234f511d1933a44c32e61a3469934eac981e8a2730ac5f1a9a99c36bc93674f6a5d457d7adb5359f812404b337056c97; 0xbddef9aae47983ad5b8ded7bb0732df13697249bf6584f0c8facfdb12e71495c6b22031c03a66998673a9b243ca69ae95d929378cdd10fd; 0xac358ca405dfd83f9fbd56f262295ea09a85887974ddec10cfae69adc5911ca3fb1b9ec803498bb323097295bd1e161faba0cfe3779db602; 0x185f8cc7f4b7b7f57c036f324a8ba0d043712b224c34e43669335c5c731268366df11ef05ac227c3590d487615580c5d07e1a8021126ee71; 0xe59bb3e288e29f1828c09249acbcaa448fe411e7a6c922b11624d19f6e94cb6338b1a7f2c4dfb23dbed5ab63919850dab1f1017afc0da7e2; 0xebeeedc12e786ec1efc1e2c577fac5ff44e0a26917866634c7e733a58da7de65461401afca08088a36de91200955f9b1c9e41b3f7ef28df8; 0x413ce5bf56548aca096d7c9eee58f47ce95a6243a0e1ec7d3065fec527492ec8c857a85b2beaa0d34bea802cfedcd5779d4b66b47e246f; 0x3f34af21e25df8f54a4a4bb04e4d6b83a123bfc7aeec0071519ea6b0d5ec481dd31b79a8e3360b0af88445322ab11cc1a1d4501233458e7; 0x69ea3a37f501c59984a195f2601fe8f9a547750b49e80dbc1cc2c4b323d8605b0d20c8b1fafaf3df461859bca97e6861744255f30136cd13; 0x4285e5660cd9dd5f6a5d8c9905b1d3c5570ead0cd5b561fbf6cf31e4b99da1e0e4b1dca587ea00cd3a97850be13ce92f67f046dd422615d; 0x76b6482d5220256cfbb59b3460be140c1134d287f4befb04482692631e232a96ab13f7b668e091745bdfcb3c29eb4ffd11e6411645a7c740; 0xba4ecab94654e78595825f5bd42a0f5f185d803cdf04725ca5488d420de9518f2b5810d4ac731ff9c786a50e41da7a40e14370e126c8aaab; 0x4682a1079d6c6c8b2480dce92fcd50b4b2e0b6f7b49b2487b178cf9a31835a272bc7b51ea19c241f7c69d45f069714cea1b70ae186c1e6fc; 0xa2a51e70780305e6e869605081595498822a4ace8e0a4d5ef8590a766e3865ae1c8367f4bbe8304266f94c17ceef804c9cbd65799f1d0b33; 0x1aebe253215554ca4f1ee56d60e89e7d2b5d90105b94c23e2892da8f210a8ac01266546e5d79a27fe33ec31e143d95b55ad9595cb4f3ee; 0x2d4d9d8f0520e4df25aff4f4f3def21027a9a393185f955ebda32ea62ffc4297c0edd52d28a5d5db276bda20dff2a579149912459bedafcf; 0x2b758d77d6e7a4804df3047f21a83a75a6409b1955bf7d758cc48fe977a9a8c0eb9878c2fc0334835f5e1e989f427936038e701f89c6a48a; 0x7bf6e67940de59e0e313f82ea3190aa5ba1603647d176cb3f06113bc727f7244097c567932bd56f964b2f6afe540a41debdb708a66ec67ca; 0x14d02d4714163d7bda290fef41c700ed446d027287ab2aca449fb2d0673fabeca68b1a3a74625018af30b00dab7ccf346dff3c7cc9ee9; 0x4613a33079af07d66515ea4483a6e17abdaf5b31a90cfa1be7465d4e81c849944fb87a85410472c428414ae1d14d5036a9443e56273efe71; 0xe84e679ece549132f11120e313f648099ab4acb959c3f2f0aa02c17a02959e7900e98824540c998edf07914e927031589a5d5455522499ec; 0x1a7e6681a2d56ff40fa3f668dc060d9ac182ddd46362abc686522df23ed70aec49c83698d25dd2084f1d688db08301e18782db85aaf21c17; 0xbe3061f29ae98238f5f37dd22b3a95849a0c68fe27c005527aedce1ecd7e415742cbd3e31d4a26950b66b52117cf3991e233afd95e89b619; 0x558c4130f005c3f5f09ec4d83c7218273eeef7511422bad499b5aec2a3fb7d01d710e5275338b829a368776370ca6a14266cf4e8bd646a4c; 0xcbd15387d80d756cc76105ee5f3562ca3d0fc74216a112f52008dbfb0bebc530329d6b82fd07490d74ea89957aefeca195c2de023a3685ec; 0x272a804c422284852b050ff01e2e1da9e366b74780ac30d915ca5eb5efeaa3c2da87ab13e8c621b8bb8ed622d9df566a551abdf8818062f; 0x6547cb499f8e0ec94853186d225f63e2605ed8da1fee68555bfd0cfe19c38be0bb8874022a008ff4bc83e76894faf9aef8ebfae0f9bc188; 0x928acc709e7d1bfccd884e6072ff0f1c9b7b33010ac078b8c7c40cf875014565f408276505e4ccf30046526e2b2b966b2b3c5815248b3112; 0x82a53e76a616c6ec72137c485ea4eedc0310153f810072e9d611780f93cc045c08246ce3f437eaa9ce306564c7b460990449e1e9d43c89cc; 0x554277f52565b7553ff0e9f69c69237dbb1fd19c191b379cbbab187f022df341e84905ff7b71085ae7c30ca6d4631eaa9515f999b5e18a6d; 0x33d0b35011e8cf241827e3381d011fafe6c01389b5ead9426c7d53ca158335b06ffb5b628cdae3893fe8ce70edd4d4c20edfeb863910952f; 0x4a31b283861fc369aabf59df45f0dd014965fe9023046285c709a7a49a0d80d1b432e2ae6fd963619395ee56022e9425b3c8b3f38c953d79; 0xead5271243200d994639d87ba02ebe6343bffffc92cac196d16b02aaa04213ca4e04bbd7ec551fda86c88b08f232c653a9226404c0d620; 0x6bd7125855f28c84c0e2e2aa203dd417dcec4ac1d5eb532178f4343e5f6ec069411396d1af6943e003d6911980b1998e7b861b9eb5f4ab15; 0x7bbb88e8975f3687a5b17aa7a1d392a993b765564925736a89ca8c2c238d24a3daf1966432f71c379ffd7425578b0e29a90d85349f1695b6; 0x99995f00541b756de4841ff647de349df14733c7dcd0d5f3ea4d7f4e92bf535753eb1b66f02a10df8a0412a21f52d265796d26161996f6d7; 0x94aca230030360692d60893f3db26f8956ab87458b5d031e0b7acd3d2f44bfd4582f3e3af078ba99a1b13bbf5602758f2b10c70a6aecab71; 0x33b2b76c1daaf5a5034d9bae9ec0978dc6c96046b3fa34fd03b60247fee482d3fbbd7dab6658c8595005ad3c70a6c14f08d32cf99db35; 0x7ff2e93a23bcf236e53ad96406bc94fc12f7296e3192ab1749e8423b2f590f4c99b973edec1f3e5e4a2ffd99e6d4b241959ec35616b78863; 0xb466c475f95f89e3eec2d0c460027e9c231407365b452383053667ffb4b53a7fc391ab18862764b4b3c90099c5bd1b6137663dba716a526c; 0x6d798d5b854ae01810435861b06d90fba48eafb8dedec3d64455b23e90ea895a2d894cd086021e68665ff389c74196e2e2ad964affbb202c; 0x50b39d9775babe0a89a835c0f8483e0763c069b47b1eee6aa79323e912cf5cdfbc4c338e1a3ae761a07274ea69f3ef7015b2531eae09c9; 0x82f8883b98218f9b20996e8601a4cb0bd96f35af6e0cc8f0c7b55afca504b1630c5e52ce9e2bf06a9cd0da47bd56e956fb908fecd78da47e; 0x54865b095af3ebaba831d4d9db653fc2a31da9cd7dc92f366533643122621121e29ef92cc10a50131cdb2a0465cdcf3a740a638bd9afa640; 0xec04fd84c64056156861b6cdf4c51a13a7c1cd8f5a1f8cdf9e0a5a2f0c4f336656159a6e28175218e372d6f01f99caa4678f07710958151; 0xdf9069e3439b02d32bda5f35f67b24a62b17fd182dc013802ae6b13294b8dadc4bed8a923990f28ce0fed21ab2c889ce858f4ef870b4a8e; 0x6e9c01c402d58cc9ae6a2476a249c263aa570873055c205168ffc905d89697a5a07a4f518b84c65479f228e8556cd8d0f796ef2cf613b4be; 0x175110142760d442e0a091b0fa51ac736092c52f534d85351d9086d3ca3b90e0da282b6d87ddb8c56b484ddf0059cbe71e7c263c954a2644; 0xc71534b0bb80c65b89df612c1e81ed6d0079459b2416c2f32837519122d5eb050e1d03be9814c82185cead45b122a57ff4064b06b7355fe2; 0xcd344c978f9eb3b296d9150197b16cf87ddf96b62d1eff5085cf62ceac40f6057a292b935d8434d4486cdd06cdca00725ff4d2bae0d7614; 0xaa9a418f9b3d0cc7679b003c02f025e498e345fe457bab7094920777d2102a2e91b029a19f613d12432b3ab08c399822b70ae6606427ad6e; 0xab0862c32623783616089aff860bcc9198189ee28117ca394b3ed185c53cf92ad6087289f0003e3ffada1e43fb0b971762ac9ce5ee3ddf; 0x58ea3ed37021be7f2ce9dc0b65cd7e8837683d33094a387c3569e710cc7b4cb8369503048411981983b45b3c502053ec3d6d69abf07eccc; 0xa1dfca9118afec9e6722039c7b59333f24604a638ffa0e42253a1d3ee49745e68d5053ce4f5c03d7343b2d08199c6959e699fac84a3a4384; 0xd4820e1aa699e4d0e56d777ac1311a19ddcc07f813e420766c04c2fa0eda49b9e32a62d53ff084915e975e5865b78702af769d3745b101a2; 0x2353df2555b69d3b0be1488c83bca2bf1b5a95de665bd6d0d45eb035cade3e096aa1f00e45a75ef1ae26eecb67f0e47cdd6c9450aeff5ddf; 0x7e7829d22e01709dee9a0eae2f704d42eef3d89cc6d4671cb4e17e50a485987c880dc4f50e8abc2ef6098af5f2184121429e29c111378243; 0x286462b8efad2908cf9a5c336c78f3f30d1323e9f8d6fe877fd28bb7ad6684eb021e0cc11c47f6db2beb28f1c4409ec0a9b7a7f44c19abd5; 0xa1c198007ff651c411075974698bf4c91b1ae6933c4f955899a9dc93b23b6e544266dfd354f4130efb084ef13c35977f2d823dc268d28393; 0x8a8aff0821246c781ba45cca35b884707b1602167a099f9529fe58eebaf07d5d5f318c2ee0e27fbee05f026151c27156dc865c3c166582c7; 0x8a1479df41fe4c3fab70015808a62cb62467adf3b20154c0cba9eca014a65a5615973a78cdbd723c3c5b615b958a5fcc036b9ead46234eff; 0x8e1331eef6ae3d6ecfea275cf2f3b976c346e4ac47176c0f7e4a1e38a6ccc6ef50c764649bbf832f95e90f5967e5e0f89d71af7c1ad6dc; 0xc887add0a1ed37948226addd0766503e4859a73ceafd37f787ab984ca61960ad264a38c6e09915462ef064df96b9e4b77a5c8a81077a63; 0x10c2cfe29fbbab573cc650aa0d65a257bd03fc9ff6674272185e3666b01afa57b72a813bb974940b4ea63c84ccf1eaa3efc081419c7e7; 0x1edde1b1e393416a46bde64841cfd5a24bc33a650e0715d480509da8f1c4e77b2232c8ca8b382f287bde6bb7bdc4471c05ef52d772c00cd6; 0xb63129c8828ae1e6dc22738fd73f9cf66fa301e7fcb1de75c0d22b21767b71d18622d42307e161399344ddf1da65cc151d8224aeee3b22b1; 0x569be5895c82383a2c8343c762f6fd70941caf138c5b69be9ff4d94c5392278dffb558d2600bd2cb9e949f41029eed09156d227292fc243b; 0x73f0f06dcad1a55e6d6c481794496026279fb1a63384aa90cb2801268d9209c45a575e7b8562c582d92c0de5a73e98987e75565fe841eff; 0x86456dbb6ef70a422e7b6728e79cc8ee870ceb6d5004f3832d1fb572a77044789b37bbaa20521a0c63c3bf6957fe7a53007f5b27502ce636; 0x34a55add2ae9c0a66597f53d8955ae37d5030ed6da1ce5091822146aa76727942c9ab75a71290e7889490a36f44655e9bf8adcd6a0ec80c0; 0x55b5d1e7d599b5c7b794b5a7a0487d2bc4ac49bdbd53b11848eede959ebf19addf375fe5ccfd0e0aac12398185c36dbed59fe30b930e2582; 0x2630264342b5e20487a66a4f676562e8088a3b5071c23fe70e0df3b93438e7349534c84740682014c39c61e2897eee249a322b5f6d3b345; 0xc530db4f56a0b1c5c31850e022a30e8ce3c8eeef556b2fc2adfdfae0098190f84d59168190f7f744253a118241edede6a79cdfc08ad0a4b; 0x74280f5bfdf2af86dec1ca830b1dd6a0e1a995613548a547e5fd44b7084867d6c197e246e2faf1896cce2675cb5202a0228be75dc26a14a4; 0x49f80c1fa2dd50575f71095dff80f8120ac44762c4748e03dc8c9308f6b0a9f0039167b4026d41bd248c5c88eb553af4a7f5f68c5f61cb56; 0x94cb461b0a514f0b5c53d8f795cb560455e3aee5f1416a734f4914c3759677c3230969691aef3b51207ffdd690ba9cd8199460ac0e850ca0; 0xb933eb8bd70da7dc362c543ffefaf38e78f1db54a92bfeed75c738655c906d73bacb41ed04beebd360ed96c22a5e1c48abac73e36e645d; 0x72c09cd51d6617b1d6c94a9f6dd41a1710ecf1cbe0bf93e0c5d9510206eb70891cbfd3acb8d06d7d4fb94b54387dff793a6ce670b682b530; 0x4079abedf9786b2d2ddba50110155306c24c3e1e755e8f9571326bcd74fcaf73bd46dcf53ec3d47e4dd142f1cd76b8e8ed1c6d583d9ce41c; 0x2b9c7e3d8565b076fcac72911273f4b60b5b221d20b4d109613addea4be659a140850e61e71030fa0d92e86d97d7431a3d844d4baee0b870; 0x17aa85dca9f4642534d919e6aba8fb302f90d743125619652d2464b0035d8ba983f625278828ee6b715ac6f923741eaee789b771421299a4; 0x6c70cf511f77f41e6fb0568db18d044b3db5615bcf6eee6734228fd799819792d2f9fcd48f6acac6a04499ba4ee820aef8826f08737d6407; 0x4ff6056500595efaea96ce9c47df0586db9b7588871b15348dc141c4eae829da573745d03da1a8ed3eaf4be07287e1533acd37a50c5ecbb2; 0xfd7d692b75a84589f5899cd7796baf21c922dda3c294f12c18931578365208189df755da6fea664c88de39a56e0222d97b0be1a401ddc45a; 0x271568ab6a149f202e49ae3398af8060fcb042bd01b57aa7e34248f6c37ff5e821a9ce72438e80b0b722d8ecad86f8faf8bbf1443ca45288; 0x41d4770a917b0bf24938a5c52aa94c52dc151b96f942b42103196034aff21cc8acb3f46d1c4acb9506a84d37f78f1bf1c12f123cd072ffe6; 0x142079c9ba23a6fe88316f22607667bb57ba8edd3ffc28402720fd7c18d2caaa9f2ba3ea730a8022b83787c24103fc09a025ef5a4f6c12b0; 0xcf10e7c529b080fe3fb59459150f852f568d69acf3ae07a22ad1de2bd0e568dd1a4dff2e77815ec0c830bc6ae21eac9890376802e9e72816; 0x2bc49970b04c0330a8bc05e003cdd16f1ea4ac453112a37201cca37d0d688a6873b41e448bb48d94ec4756070e5f9504a053a4d85cedf90f; 0x1649e449e11d34d168ace7000a5ed824353886a8b6cd0b5367593aa6534a442ef47cb254c064e491eabb885ee9498493899341046c7104c4; 0x1f7bd3af8f07686e6e1901f17c40fc6a5704742a3918ec78ef0660040fbf91492f1fcd29695922064a911c42c7dcd9fa0d5304ad2a1dbf59; 0xa9c9d053463b697869d6b355613767ae15562d1cbcfe75866d998aca60810424afe3c548a19fe19ad5710396f909f733056af00645280dbb]);
    (1469495262398780123809%positive, 0x1cb49d58c41f810337691f1acd826f7df1e62a285ed9618c4e35bfcbcccf09502a4a1938b3658919ccb7ff5259bfd0d6177b1a94ee980a20, 0xc82ca8d39e40654104174a4fb5db3b2df6dc099a0b0f4cfd9d6a0330d6a63deccc41db2b9e4dd7b6a4dff5e3dd6f0d4c48954d6a49486ecb, 0x16721ce6a658f4b1ae1af9d113c4d1f5d1450dc1abb7f5c6ab8bf1f99e0e255cf0341fa8e00a951ba03b4151d067aff767fef3e5c95ea76c, [0x33801d91070afdc30cbd03c0fb66b48796f3ac4e7de21a4ec230c97b6ae639661007b16ff50a04b8ad530c42cfeafb1ea8d61f2f5a81b34; 0x3881ae355a905228d8e3673318240a99c59a858a69cf592423525340c0c4f3e1cd68c72e4203300b69fffa955737cd3b4f37c1791b69ec23; 0x45b2e301d7af70aab829047ffe738d29e0ae4bbd31ed0e64fcf5365d9742dd0a39780a0d8247e9f2bdc3cf44247c1a8aa2a5a5075820b02f; 0x1c09234554bff0427f06ddaba61e3b3828fc13ff55c4dbb0020336c3f682cd16c49ffabc765d9985225690ecfd228bffaa36790df4b1d135; 0xa266cd049718f1a52b936bd164594c9731594c7330d46345256e83728489ed3f5ba8134e0534414d1eaccb59452413d1483c940f1a50a849; 0x121037fbaa1fb763336e23d26cf6a0405dd8db6de9ec531b34f7ba6e797f7b72caa007a682f468f105b93ff0ccd1ac6c29db58e3c8eea3f8; 0x643e39846f01813599e2f652b417e2955fb09032d38b20b19d2c002335faa17e895b39f3b02f786d57f0eacfd53098f1ace2d11912d75a; 0x18f22dd3d28a199ea4f5a505523caf5e2a74973dcda5be9b106e457fc7c83614c53de01cae70eb0bfb888a2d38c423d0a7af0386f76ab82a; 0x1a2834e976265eb9674168a6d1a9340087d6b1e76ddc98ed42cac8e984ca7b09664754a088dd2e8433e9079102d81f0dc712e0fcc0689cee; 0x1653ede0a46654abcf5eae59374d9cf49930fd1eef40b45393b57ea676a1e2b6eb60f37215128bd3801cef145c173b07726dd3fd81d6ff7c; 0x2cf7335ace175c0d385a4e7ecb3ef7ddcec366ca1cffb9027be3ebae52e5ee89c3f11fe57d360eb481d5b74110a73ecef064097941c5e9f; 0x1114cbf9b5dcd687316a1ab37aca0917e1735de4ed4a40f761b76fb4b4893880fbce689b2ab28ba31d7f9a8c80f235e3d2cb47f1a957543e; 0x3541c7a5abcfe4de529648a4d5165a2297ef00580c6b611f2bb90462baeb9ff585cf283f4254cd4d5f432b07259e399c48f15438dc31eb4a; 0x665d4a20d1f6af11559aa3091ea6be2db2d4b2dec8722fb6c3b7186bcd75a9ebb3fc05b47c7b5d61100e0dba07c0db06202bb30febda199c; 0x5e726213650a27af872170eb49f75da8cce1125b8002a2838466c95fe3522685c4c2de7717e2792a0716680bfb05d8db7cd3b92c26c6659; 0x13aa89c4225a3fd60c41301f627eaf018d40bd15363408dfa6e988d943ff4928bd205d150dc76af515c7a848c42070e13446309a810480d; 0x43fd1f5aae468d046c5290fabf97fcc04565b68ff0e695757b7f092ec8f6f827cc922a52d214b6b506700c6b6ad4930e1abd08c718ed7be6; 0x10be44e9766476dfbdc0635315025f29befc8de11b64baf821b31e5409f092ebf645915b824d74203093f3715887a80cb5141ab2c01b94b9; 0x5726bc64810537d7a46031ea903d6d07de349c1f1df5e43c2efadd5c4746a896a298d95fff6e5e280fae10db0d890b4d4ed86c58e1653a47; 0x32c2dbbe20f8626784d2ecd9b812b459d2f281f75876cc3741abb0b5776b2dc0022227c8028e5c83c134fd00872d430d1854649e059977ce; 0xe679efba8ea3298c8ca23cd6eb7738b4db1e1494fc96bcee85f7b199137d521a45ff695020f68f53197874669759a7d14d00520362b2637c; 0xc0d26527d4633b27bfd5580562b230b865f797c6e9d924992e967492d5b8f2515f24e8aff957d7ab262ba2f9efc39942bd316481d94fb17; 0xe90e8d4da1402ad897ba022a3305126673c204f8ad4e9f227e24e720d64a04ba4c38174eb378b15e27c3cbf2cbbfcd090e0eaeaed4eb8384; 0xd2d7abacc0a9dccb489045abe1b31d1bd7bfdbb1cd688d6dbc9e6fedf5a5058e9d3c430bcc2f7537096bc4e946506af6fc4aa24926730cfb; 0x148d6340c7cdb9ce97fcd02449319f7fda90c9b19b0eb468c5a8d6c8b5f93473038399af33adc871c2847801cb76b336b677c63e99d4745; 0x7bf4275591a18a879987e4abc911a77636cd4b1551ea56ab2e48a2bcbb293487e25dcc41f375a31846ed96b4424bfdbb39625019ee1b1da; 0x6c814b19bd727c7bc5f695777ecda36894bfa521cd2116497b599c3abe3290539831b6451dd1ee87b664d58e2298d2ae3744dd77fade359d; 0x16cfe90242627572c2068d092d4e090aff7ce1191862ec67e8ff20d9844afc029accd26f779935ba57fd076517902cfa34e722d9a1fcdf09; 0xad7d2f523be191bc0b2d447cdb93a0a88cfcc7c6e419ad6f8a6342d2ecaab2bf18cb7abe42f8ea0bbd415fd07ba87b54d3ac5287aaee9385; 0x1aef98f491722f3c13a7c871d2f044c06541eefecf1bbb2857cbc66e9c669b1a3cafe2625d0b2507dbc6ff3941c129480c5f374699f27a84; 0x29ce21234493cf10d7c655e34d5082f86e017657771a2e8bf3b68cfc300b26cbf4db697829c7d6fec0dcab487ac5cc5e468f39b95a1d81b; 0xce30b6ea5c9dafb7e51468330b648a54cc9cbec046f86e16fbcf5be16277be204d60504ab8360c00e171a4dce98159875400cb048e067ef2; 0x85e35a6d9b49b2a8e27e0cd604871baa027caf40fb06b6e153cc5d1b89d7cd4cdd827bfab0fed22eae6c76344a6e4f7644c6b5107d095ab; 0x6d2bc3e7074f66c7e2d638aa885f43e39cf6ecb6fbb03ca6760ecc37c991a824902f9edd2c0a65ec53b1b88f1dda590c416bc4e84ef32e2d; 0xfaa17eb095f14296eff7b2c42b974e7f63a463045af6226a6df7c055dec6d7c0741cd1793e392346a394ccd46920b0f32394e3e563c5da7; 0x1de12edfebcd858ab4e5f2f7226a353c93c958986600741ec15b92343a48b94022cac38664e955a3ad646e8e28f42c6314de5ca9a0c76596; 0x188e6e5f73890e500c7cbd3ef1f3b36f97947867645dec68d6551c5f640117543352a0cb4516294d8a6dd3f138161aa674392e5014970976; 0x1dee2bff972b2e550e2ce6202e6031b93ef177e9474420fb046821a99a28599d6bedc4bd8f98d512dd77902a345a6aed4f457c0207c89dac; 0x7772f4f7bab8ee44d2a549cb6a702956952b7980e79fbd4aec042d875c4c3b179fe2d73b7db9b2ceff17ef5999b0101edba3de8bdbf2dde; 0x581c14daca26e4e8d7a8098e5842de6c887b1e322746d240eabc26354e676be3e6389a5d63e177b1017f238551a7c2f4b577147da6765b34; 0x73a12e3336d1ee29b337c826cd42396036158f55da10960521c31900fcd9b9ca281ad5ceaa4c3209f6a1deb70775df30a58719329f5e6f8; 0xb518cd9d2f6a895c8d657e7354c5e261eea28fcd0e56d604cf23d4be963d2ac4fb9ac541c5d6da8e80e8c73f5564d728340822adbb8150ca; 0xf8e9eaa0d932cd93ff6ffe038196e4a1082e80f9df6aac160936b06e1d8e57fbad46406ec6c6ab35f0d15b5142f06ed82a6db8c1e531d411; 0x122753a7ec36a5dfe0e71218ec6abd281750e03c6d137904aa1171056acb52dab6328c6ca5eee6fd18f76eebe83df0a2fc8ab2583ef82e75; 0x1ff5164db2cc530f5ef8c06a4068d627944c5af02a0a89691879b3f095b8f688b020c985a1f73d363e307c9c3c6ebefc27d0dd85b9dd8914; 0x12454f951bd4f71813f8602300132af0a99c190653539710b6bdb89f5f6b5378685abe5f1f50954fe341df8a7fd71747af99e9e670380144; 0x1684ef9c077112284612070cff9e63e295e2ee3b4454f90d0508627bce841b4a88b300b8f3640d75af5a7e8d1eb8a7485c2b61977435461; 0xe089e7062528adf11ad35f414ddb5faba055daecba24d37ee38dd87469a05b683d67438d4229741d89a4f377560b81dcb26231c3ed8d8b52; 0x1bd616e2f971922db44682161f4a78381bbe50037c369b6e4c8aa55bacfc37d33268042d28db4bf8454da1bfa4fe54440c991fc083c73848; 0x951bb6a21ef4ae0ee36142e9e1ef40d006bd80081ceb2c467c42ed47238a319e48c1d94610eae7d69879f706d06b934cafaf6106d02304e5; 0x84ef36121266b7e459e2f73a6bee44fcb7331eda15b83f67c449b2b4533d09b6281ade55b6958e5bf22bb1fcec19b6ec263e58ecfc15df6; 0x891eb05dd66c4760ac8bdf79aaef660a58cb680f2d77d1e9564436456dbad26b8eda606d52c6c17392df71567b00fb7a8edbea5c7686902; 0x2bc00db98e5384a07183bbcacf4ab0748b0d14ad55f2042ccc6daa4164a5334a2bbadeb29e8f213c6b41633d84d91a63138dfa9e7d6271a1; 0x660f71679f2ef29fcb4341b020ddf71df41e4cf5c7c8f9a6dda2f746cc3988d0f97d0e8c71877e45e1ec79d60dd2b91927205333c7962f0; 0x1b187447c60feb4898af4f522a0883491363897268b163a794322fd95b092c1e3b2e916d707723dfeba371bc4a819cc177d5eb03ca58c4d; 0xc9d8701f8a8e0d834bab9279b6e477dc702cc0d67b923eb751633bd38f5d6c548825c6d82a71cf9e17d9152a97417b204d813a25f0409096; 0x8d70711b11a88d52b6904c08c18c8e0c5eeecb6bf8c3c8dd0c77b9bceffb77e8302bc1edbfe6b487c94a1765dd09ae089ae548055c848be; 0x3a6f12d01b7f27f4f7c6585cef2760fb1a3278e69acd4323908e646f066f0d16280b1e61f1b89da7b3f0b47092ba2de46989f08fe9c58f9; 0x5ce89f070f652e929c688e3124e86abacfd72ead87bb3ef625f5712500cc81dc7faf36b2c7029e5e6942de3826851619715c9204111193e; 0xa8f03f8e1f70d5d727b0781d29660284103b4d4c7fb3a1ae19ba1e219e329e33e9d5f8cde214e7e7b3b94d94953183c2177dc57f1f91a08c; 0x1c69bfe9f7e6801b6a99bc0fbf4036b1caeedf8d55210656892e1a64ccf07104c14fd8ba8bac938d1e1d98898a9d6758c555ca10236bfbbd; 0x7ba1410a9d6d16676cce914a4f08455799e7066b25cdd599e4542a1ec315fedd453f092bfc472ae4263b8586854bde2e3823a05de85434d; 0x193704e39304beedca0508f9ae5f73a73e71f57eee0faed593372bd602af8e8687dfac4a768058364af29def741ef2403bf783d84461fee9; 0xad4e99f66d96a0ea07e7e7de8c3f944ae13e49b53f0abd80eb4051f9d7abe86283d5b0cf4e27c131e7ffac095c767e4ba485884fc497d1; 0xf248edeeba6c2829f70289e443415d8d488e6de9a69acc01c89be90f51b7fe69cfec178670457bb6978b5328e7882e4afdc92317b773fca1; 0x1b2b512256b2a43d884c1f3b9acc7535851f3100e8cce051852393efb1d40855b8f40f7b65f402905c1046277c95bff108e1e77a70b9288d; 0xd420eddc80ee68f6008387a7bc7cada2f433525d8e37069819bfcfd331abd8c77eaf3b74910843c87101a6f9299abeaa0e98195138b10af8; 0x4683d47ffc869c5ed997dad48642eff561ba030f048387d5b51c6e920d54dae832a42699c049141559b9e0059f8141900ede6efdf5208a2; 0xaefdc45dda0a17b0467861d73919299cf493dd59098373ffdb4f20ca8df4802e9d499dd54ed71eec81a795914129bc2ffcb1be496f78f7f; 0xa3d8041476b27368fb39ea0d42603972c58291d15c0a94f90e7400aaa3fd59daec335dae76ceab28afaf0779213f93269faff70a2086b1a; 0x147ff915142a83d7e075a8c6bb0d9c241144359ae7c82ebc3791c7f68e1151f41aafee87f04688622c92e4e0e7f1566e8c529f59a713c49a; 0xa1990e2d7a2c095cfccd72a11c584b83c10d425afe9e769c1a22474503731d9a5c5a53e28cf13466be0c20af713d9aea98edb692c3ca63d; 0x5a1ab4282806670e11f83fff8fcabd5cb97e3de03bf46346f7805b75aebf9b03f278ad201915b34a1a4e0afd5fb248ba48b795b30baaf9a; 0x114d27d541ce217272c99031f7980cc023a62de37cc18216a77e63e8163577c40e6d1c87ee06488f4461e8391f434e14cf8350bdc18381f6; 0x11bf9a369fd00cf94ac43566be4825e37e8c38df48ca663b0a5a31cb9bd46225436bb2b099abeaf56ad5568d326e519e4bbac7d318d57dc5; 0xfe594bbed18dd846a6c94b02487d4241dbfed30397865c5ab8d08b5a68231f6ee41c4950ac66ce045a0e73c004e6e595df2465f6685972be; 0x8f9de1257e887b7c1a9cc7f998c20ad79c5844acc511d8903cb687726ca8956c0ec8b913bd738931c936ccc5f735fad054bc0eeeaf452ca; 0xb302731edf3c3b813a23b2cd1847d4032746bea1974e9baa9d52a948d1c733251f3d7cce8c0ff6ec273458080323c34f65a715a69cf6122; 0x29040e618930db00d09504e3ef0d7f8713dd79a88baff698308e0bb4a05a2d85ac07fdc91727bdb08d4fcb2fc94d52af04f92a8c7cbedb2c; 0xf6a07fba45240705e185c1166c4539e00d709c3e111f8c188a1ea695cc92fe7ff5adeb3b011f168a44b99f38b86a86bd2fa23d1f3bfcaa7; 0x5f39b1ae044c442a648a60d4c0b9e3c03271915b44aebe53aef07fbcad2ab99921c4c0bfe7969dec5e5ff5581255914ed83a94253082587e; 0x164924064f31e8685e8cb0b39956104aeae1665d96763df78a8fcc00fedf2905d09ad655e258b9110e09b75eca8e66309fe058cebc68aa5b; 0x43209654420badb1699734d3f2ea76dd4955f38fcb6014eb90ff6a8c0973995a6031dd2fdb57d93dc765ce8351106e8f35cbbbccd03060; 0x1bd635b97350d070c6a6f3e1d69bc3de851dcb2ac6da679b1351b1450e2a0e661aef9d9d22a6ea44bb8301afa6ab941d656d66525cad7eca; 0xc72463eada61c85563116167b34d9c98ebbabe6eaedf5021009505c8f630df19deef23ace9499806a8511024bb10377b94df664943f8cb1b; 0xc5c273d2a64212719c0aa6977b0a24a373c2120f8462b1961fd2842fc3f06f8255d4d919db9611da6f81cef4a5853c0ff3675cdefca67f68; 0xfe74858b3b6c15fb499365d1b75195255f93345057c2045f7d66ebbca73627fadbe234e3f77857e4648ac423d4385ecd0dd7a8287b86f78; 0x4fde854ea643d3056a976c372dbaf6161431b11327786900e0cd2227a088f61b5f9b1f5b6b15d4bf3421d9bb3774c0d00390d80c33a532d; 0xc58d91a0e157276c6efa3de32015e08b1b1fe656984bb21f67c312eb54f119a348d090468f66bb46a494c255c290ce7a09b75ba3f7b2c2af; 0x1106a27825c250262c78d5284adc64059fd3525d2bba3b0abb95589983a87e6ce2234ca65f755eacecee70730524aaf63713a4f1c8f39d65; 0x157721908585d3a25362b02b18ecb0906a31b6cdc14d4dd560692830bdb493aaf0078dbfef855f4bc1fde40533361341f004294af39f55; 0xa2a9b8cf9cc20b43b28d4c1b06f961a57026ce859a5f3053cd94c1d1c79fc3a4e80e0cdc2576c0a4c8f6457cbc6ec1f9fc31de7726b0fc36; 0x7606c68effd48242ab9f8d43b501ae001930a434ae3482199b28df970a4f39469a9a47ecc88bbf09f1a7a3e73dbdcecf388807db840352e; 0x418c96557525dae2b7286578f3b2b253b5afb89a5c85ec9a7273220eefba3fd78392025018152359ea7716e88525d7259dbe13b64495b6a; 0x2d5689fd0b269d50efd3e6123c3db8b2a712a18cd112584fc1c7df81409674f7e53c08a13fdcfb8035174df83862a887645564d5fce1fd1; 0x265b94ceee2090d87a5244fc6c07a7afb0eaf80eca51298d5b1d03b336a8e3f66b00be7ed0a3a4240646b5cde9edb32e64fc98a1f4343ce; 0xc20238ffa506de7df3254e573c5e471ffcaa4e2aecd2dabf5a7e50153f9417848cb68261e1fd6e1af847655b5081ee9c010b39642ac7bc1; 0x67d059b0175c789bdae45c13a883768065442401e85303386a2f3671e426fb19731afb8c38bf6da6cb90bc826bdb1e2733a1c9bfd7c8c54a; 0x72063370c89674a71e4fa03b6d8afc7fbc3d249a252ef86faae57956b44aaf992ffbacee0e5853302407972f57e7bcdef022ccf042e40c0; 0x19979e1f941db5b7917a2f38ccaf0bbdda59c4fcd10434f08391a105b9354be95ea8cacef88ebab4b8babf47b2b20c99fe4a36a2ed68c4; 0x8ef073b9146d374d67a33c268b9744b5b087073ee8120448f67a1cd793596d72ad5d933bc012b21aab41522c3c40a03fce6063a7cf7187e; 0x736a2f68ec79032f4e3d72bdc6ff989dd2277ecaf40a150cd78db1db92e93612326d61efc656b7399402afac356229b63b3ca69f5453fc6; 0x413ec7d7ce9390eb08e0649b998a259960b090992da467791a7e9a69dc2c06e24fff99aeb84e0fbca2f8eee3fc62642d19af92a3eb510d9; 0xaa1771622d4c6fa45c18164f22c8c7c8a9c5a551c9a0665f328612a9e9680e90756f0d65fe42e71d2a053e6c22217ba5a8f9ac472e309b36; 0x1bdf4e7881e4fd678d6550f9acc26ce36bfd593a6b6cfcf4783c17947a536cad301beb35830d3600882c95715a8d19621dfecd076003cbc1; 0x47b329c8f9b74479afc7d8cfb48d98e88d5d550e09b242a96c056e4fbe1f898155b89015d67b9594b7b5d2f4c2564f4d905794f9d982581c; 0x548073d3aef7d1133ac564913a86526f1139b0a860bc44dfdb9d23a7c93dea407a61263f6a6d621ee8afffd15d3c30e2765393e3bd252f; 0x84b006649a323bb6265bdca680a9b42a17b8a20213be4f7d6e17ce547b11186d6249dc278166fbccb1d322b79a0b9530291b103f38fed92; 0x32bc590c32ea7df61416810d21feb23ee6b9d86a3c347c14cc67a2d6bf1d9e5cabb8d82938f7bf6763e9df1b32ee0fddfb24856aa5de9a5b; 0x27dbc18feb55d8375558a8b1a89d0a26feb7adc304e532a4c2339caafdd49a755d9d9ede17d02778dcece926eecac9afe730eae6354ae116; 0x9844c0ad4b2219d606907d52d607860f609a39b8c083ddb9e7c412762a8049dc5f88b98ea26670a3098540b0cf682d0503f176c31b79f21]);
    (2916841%positive, 0x629557dc2a647e02cc8e6bfd10d48b8412d206d459e21b3e9ab665b381c871d4109824534a347c157ea2be69d10df63bfcfe8fab2942352a, 0x4f26c347974b82935203212a2587ca032e938e7d156e21647ec583ffa0f4054919d52917a133e0a15a82b66d9f1898e9901a393c233d7ece, 0x1e7b037b4f5e8b040bdb6270511fdfe339d9106907a42ee8b3e1c3ccb6503710c29476332f70ed13118edbf1dfc74da99e80ad4ef0ca0b03, [0x25f6ae63f4e5ab9e0542c51b72fd3ab8597f4132c0c48f6d1437b4e651bbff28762c34114a0754d339fa5e24352db76437aa23a6780d1f14; 0xf74c0e254628b689ee7148d7811b21c5b24433cf71b7142763dcb627eda576fffcd7cf75ea03a52f5d85b04fd58e288f6ef17df3196b5db7; 0x4fe6ddaff472d6832769e4f20eec12b8989ebb694e86eb0aaefe4f627af7070f23be80bf281116a2af8881b20fa69e76083fa4d72c303f0e; 0x2aa3432d64518df1f2c46c8b870658240ab1572a0989f5962c3ebc8bcc9ed124336b49c24f81dc01801ecb4f78809c036d81acb5d3aab673; 0x5b11404e9655c6044d1597da40eea8782939f364c07a0384a48e42ee43d4d7219152df1c60f4cc66318e68da1997c6a38aa76991bc50a5b9; 0x396b9c0298beb72601ea930d890a6f6b25885f48e922af0b1cadae23eae2005252f2b586fb0751cf927c64963b34cf2faa4b0b0b36d8bd80; 0x36f70cab606adaff1bd1859ef710e7ef3a0714c49bbc342cb43db3153ea798f470d6c198856b2e8d55ba52ce83ad4b8c5c9586453845d11; 0x29c82b1733cf5b10c51f1b93974dcb5cc1a20ae7c8bc225f0bd70b95033268d1066d925a577b492d91c500594d72c1e7aa630562fd4263b1; 0x23f4cd985120f356053951b3345e3aefa4b179a79864cc6f24a7249bd948efa0cfbb871854ac428238d95b0ef28619e28ed85417a38efee7; 0x707cad5beb01eefab991c9e1634e83eb7ca3b472b6baf8d7d11c486db8aed7b868c5dfda6b2a3ceba73eeb599a84e51bb18df00b5f6b39e; 0xbc7947b448816d799146dccff7f93ad6cf62864b32f1fcc7d0dc6029da748ecfad0379a8b93750946a01accc1576bc7a7e949b215abea487; 0x9a3462d0e64c7bdecd8894494f34b93f9af4222cd0863f8841ca7ca7004cef261725403950678a143bc84d4ed16c7c60f084cbead89bfd74; 0x837aaa38ef2af1276ea0c3faaeae325c81a206c565b5ab5a0a9cb59807f34ccfc9a910ac2b5e9262e56bb6e428c4301867f4441138a95a08; 0x120d5aecc46bca96d3815af9df1a2a5b3ee4ff6aa451e160ab2f0bb2fc38ee425ed3a0a31b58091cf87326a3290c6cd33e977ba6e1f4bc85; 0x9a08791fefc7e9a3485c21ee8290d28dd456224c7a1d43f2c94583756c82cb69a882e535abfd576abd7bd8cc0a8c69f6fbc3fab6855d555; 0x46024e1d98800d04397c7463a487307a0e9bec8465ca607d658f7f13aae37c1f951480a035a00f95e615019051608055728c9704feb31f4d; 0x1be6a20974702ca77f431047a794b386d10b6d4f02e572020089e284e3989901087752a737a655671053b0cc5cffb0a6d26d06f826fb5a8e; 0xa9c542a5aabc96c26f4e2203269cd50b57e06a19a287444b06814cdedd5eb3cd2bb96a8ee5fcfce14afcb12781a28f233136e41443106523; 0x42e4a6890fdb15809d48cd0569d67a189ad7d0ab5239fc5bbb54d72c8bf24e3b29cdbf2270eb3651fc685ee897b2c8d0671a3f4c9ce1c874; 0x1e2542980635f849888a681c371fc9f8001fc38145ed001cf9ac7180e77f66b6e2831c3c37a7274ba158a06ae035e4183f2d195a2988e6c9; 0x5bc0eb4dcbf5f7dd5c03fb9e7ce5eeab0c4d3b487d6afcb54d1461c8b0ddc41150247521f8164d072ce4498308cefd68cf90d584e539e07c; 0x155615b59d6cb46406ac023a8f85c8f31fefdee07b2a7c4f22da2bfccc24dd942592f2a0cc087a0c43a8d3f3daa6de9df7b2b247380916e; 0x5551088117e05fd202395f18b7473856f90dced8b4f797a0f873c910742fccd2921ec4998b517c5a73c333519aa1aff862ce010a0c9af5bc; 0x7d8081fd09a7189e7b8e8b6d0eeed4655283ac198a32fb3c142526918d9f9209dd2ef61633a4d61b7c0847ee2cea43e50b1bfb44963ef1ef; 0x6070d75da3db63c14881a201c9f01a487ef458dd076c307f464100f7a12c0a776b0d4771cd29bc6635d6e4e214489ccd2f0d90bb400a1c5c; 0x2b905128604a4f27d92dc07a68a9fb01b205b8c3e9c95d723221aa45709a8506f2adc44a92f636b090f491286f2b9c7f04379a8f01983bb5; 0xc2111963eb64741a4a33bfdad7d4b9a26cd936c913d4ea6c138914cf6bca3561a521ebf93234e81cba64bf5581b051752618a39d13e25638; 0x1902f89813a5e4716fe158338b4010b6ef621ba3c9611170fd241476daec6b9557aec1ce1b00cc81f111078926cb15ef06b13e2e426782b8; 0x5a1ef7f36ac0eeb460f8ca8cf24ffae5f47bc5e7a9695bb8514aa2915acd1f691d71f33a7068d3a5d1f5f9013fb0cccf42edbe680dc4b5; 0x4c7987540adc26438b024b056aeeed1d62704dcf6c047825c5653c034a14c9e7f0a413bdd341fc1b028c95d415d21eef43862bd0e7f3f305]);
    (196687%positive, 0x6263350521fad4e0f5770065f538e25f39217090d24522ec240acb8ace8bb37ea6a1b82174b80b12f5f4bae241bd3fc0d98b02043b321a03, 0x2b291f523d0bce75998a6856feb86bc771780ae84e949b6077e0bea0f3c131eda19fd693deff3527691d4dfd5ed62ecbbbc9deae58aaba9, 0x109677d4f9305aeeaab6ce5dbb9df455c7020d76a9275f82ce5fd6d8b5babf301c9254924eda74552d0a51a26483ad544701d90a5797eaf, [0x25d01b09faf7732916610d6bb318e997c3fa3b8a9443034f55144fae4e058bbb47de53941ae9a84df39d5c6939612f941f095bf1e54997de; 0xe2d6068a59fbde0c3ecea6054871196079af6f665db3d4195c2992d1a23514b2a16775367909c7baede222b9e689ac30a4004ac1fa30080; 0x465a2bf692df52fcfad2aa430f473af17ef9e5d8d8db394b7e5767bce04a63952e0b0b04c566d93bf14f823b390102a84c79f6fd56ba0; 0x8109e1577aed713d6a5888ab2e81dfbe0f02568d4c205ee7c2c520bde14ac587f2a365dbe2a085667ea4d1daef3202444567c514b37bf012; 0xb5d19d47132dd7e40b5f3fcfb92b4029cb1a9b83eb207edb9fdad908d674d1f8b460acd24907054df2f5b83a8dc3cb9c26b4158b2c299f5; 0xa860168c99af0edd48eddb6180cbb98953aa950686f35dc5cc78fd3b7b82ebb148786593b2a710eb0c4d60699a919cce7a7b17743321820; 0x17c4e695502284326a8eff64350773c23460c1fa825cca887f2a328ecf03fcac9d006a3fb2ee3b3014e92c2183573991129c6678a0d8d5d2; 0x4861ec1612e44ce2ce7dc3b1fb6eefcb346859dab6f51092acf29d9e223f7f0b5d4d3ef3fd930e46edb98f52a343ef90a53275b89399c6e; 0xbff2bb5bd668bda53bb06564135953e78ff6a680107dcff68e034a05e05caf6f5f789f501d3b3fa103432932e0a9e0d9361c3157fd029; 0x3709e2909979e45e4d5decb7f63019c6e26487a14779b80f47b4dd4adcc086ea20392b5feb58eba0f300a76e7be12ff8f0a3db0c56889d85; 0xebd9cce245561756be7fe03149df634c198968db0354c0d088e42312ec08d2f1725ae78ae893624aa40edfb897caf932d26bc718a95a1565; 0xfae4d04c887141201a9718c7cac132fd207607acc63ce6156954b061533fe573b49bbbbf2bac1b731631aef158765185cdc71a1bb4a83005; 0x356c3b455bf269fbd6462a3d0eaaa4bad6deeb2077e9deda4d7517df6a5f2689fe63df314f71cec7eb093abdf5ce629ff1adf60130398b95; 0xb14575225703dedb0fcd70b267aa03cd579a90ce69d365062a91d512644eccce95f94b3d98aafe7a594ae364f25cffa7ba9754c4e2c4ba35; 0x73fda71b41c5aa85d58aff7220a0e6051121fd7212794aac53a7ea49a3c5ac389b8903fd9eab91788bd0a026a9ef213309f8a056217334fb; 0x1628a8bfe97846a86d9b69e6ef9a1f27c216689f887f035bc24f3fe9355e4e6010554ca029da4adef4688fe4202946f7d1f710e02964591c; 0x512169cf7dc40fe424797c4b58f3c4dde33353c29260e38289b1586954f1ddd56abac5ef7754d902ea82fb1044fa65610f7548f5c9399386; 0x3ce7e2bf7cc989713850f4a0c075864cec206d0b7ed79e23ae04cb28fb4b88783484d8e351d7d18d35bc523813c5977047ea263dee205b5d; 0x5fee71fc2de36d11b22a82cb2b2de7b25fc6e60e1d8b82700e2b99f15f796066ff35516f2834f3d1c534d41a6838023d33603daae53390d6; 0x9c73ca24699390e571498cfaa2e3b4391aa86b6d1aaac20feff360715f0499cc54881ff59a502b5677ebd83ced1c01b6565254658e789ab; 0x2c7017bbe449b11ba3d9b862298c19ebafe185b34847bc70276f2648a8149d36ea569ccb24dc1d165db3aa4e3cd023b548812ec0a243d6d0; 0x1d13a23163301d8545894417db7f3c781a9646bec214df5783672c8f4f21d6182edea2f0149ec869b62a844117e0da7805e9633b7dd3a92; 0x213054a390b626661924994556822d219cdf9cf837be37b2589e4bcd39661d0df44d084cb8896e22747d9cb725a70abf555314818af507e8])]).
  - intros q. rewrite ?Z.shiftl_mul_pow2 by (apply Z.leb_le; reflexivity). ring.
  - cbn [map pc_q]. apply Forall_cons; [exact prime_115_323969|]. apply Forall_cons; [exact prime_71_123809|]. apply Forall_cons; [exact prime_2916841|]. apply Forall_cons; [exact prime_196687|]. apply Forall_nil.
  - vm_compute. reflexivity.
Qed.
Lemma prime_3677 : prime 3677. Proof. apply small_prime. vm_compute. reflexivity. Qed.
Lemma prime_197 : prime 197. Proof. apply small_prime. vm_compute. reflexivity. Qed.
Lemma prime_66417393611 : prime 66417393611.
Proof.
  apply (pocklington _ (fun q => q * 66417393611) [(3677%positive, 0xf6b013cde, 0xb8335656d, 0xb7a703e48, [0xf5f427351; 0x2f21d7f32; 0xb67910757; 0x403afbb96; 0x383a8c3fd; 0xc8a6f281a; 0xe70d28273; 0x708374700; 0x6f0c6af38; 0x5552bf69; 0xa0d77805f; 0x41487e2d5; 0xa9bd1968d; 0x6cfc8c61; 0xd2e6e6a7; 0x24ef2d3c; 0x204796d11; 0x9bb986109]);
    (197%positive, 0x812e0a1b9, 0xbecb15555, 0x639cebd65, [0x4371d4ff5; 0x7e669b641; 0x1068be0d8; 0x88be15c7e; 0x2d0a186f; 0x158f70c7f; 0x2067f7d3b; 0x2d144529a; 0x7322a1872; 0x7a9266747])]).
  - intros q. reflexivity.
  - cbn [map pc_q]. apply Forall_cons; [exact prime_3677|]. apply Forall_cons; [exact prime_197|]. apply Forall_nil.
  - vm_compute. reflexivity.
Qed.
Lemma prime_11290956913871 : prime 11290956913871.
Proof.
  apply (pocklington _ (fun q => q * 11290956913871) [(66417393611%positive, 0xa027eda446c, 0x3dcf4686688, 0x3c3fb39d379, [0x9c1c961dc7d; 0x500b8b58055; 0x1c6dd62ae54; 0x6b305e1c307; 0x13ec07e5517; 0x503b889ca4b; 0x7f9d9c17b36; 0x3632d4b0336; 0x35d678bfbb8; 0xb47644645c; 0x60ebc500fff; 0x32bcc39ae89; 0x59515f30d14; 0x18036365e9c; 0x8616192f48f; 0x7134661cdd6; 0x3312f797aec; 0x406ccfdf0ff; 0x8876ff73b00; 0x836a2eb6832; 0x3fa90ec0321; 0x1f921d428cb; 0x8f90201c4d2; 0x19ab8b5e2d0; 0xc2d6ba4a19; 0x1fde2b79de4; 0x3e9265f45b9; 0x286a6378e4f; 0x3f2b66a9841; 0x25bb7bcc213; 0x27faf79e033; 0x9c3724ed118; 0x9059b4111f; 0x3feeda220f; 0x70df5dc63c7; 0x84c7f63b8a2; 0x2625bfaf6a; 0x6f6ca21ef9d; 0x144c7c46ef; 0x3801e2fd0c4; 0x28b9aa900; 0x4aad0a8c47d; 0x9e11c4178; 0x9d70918d39b; 0x70bc8d5c7c5; 0x23121a9a6df; 0x3aa018ae858; 0x9c09602c43e; 0xcc8d32b639; 0x9d0d1f70719; 0x3f1c764f3e0; 0x38be281a596; 0x6ee614cd5e6; 0x42a51d3eebb; 0x5731744249f; 0x59abe10b881; 0x2f067afc5f7; 0x950b0fa3ad5; 0x563f0571ae9])]).
  - intros q. reflexivity.
  - cbn [map pc_q]. apply Forall_cons; [exact prime_66417393611|]. apply Forall_nil.
  - vm_compute. reflexivity.
Qed.
Lemma prime_3769 : prime 3769. Proof. apply small_prime. vm_compute. reflexivity. Qed.
Lemma prime_11 : prime 11. Proof. apply small_prime. vm_compute. reflexivity. Qed.
Lemma prime_204061199 : prime 204061199.
Proof.
  apply (pocklington _ (fun q => q * 204061199) [(3769%positive, 0x37bdd17, 0x67c75d5, 0x1db9ae3, [0xff74c7; 0x340bbf4; 0x69ec0e7; 0xb5052c; 0x1c9de2; 0x2b4b7ad; 0x308a626; 0x5947af; 0x24baac6; 0x19fafbe; 0x284e6f; 0x1da6ed4; 0x3a3a341; 0x26e42a1; 0x379e05e; 0x35e57e1; 0x3f0eaaa; 0xaa3bc]);
    (11%positive, 0x356bcd9, 0xac8bb87, 0x2f5d6a9, [0xeaa182; 0x3275a54; 0x152bf49; 0x9c34274; 0x287eed9])]).
  - intros q. reflexivity.
  - cbn [map pc_q]. apply Forall_cons; [exact prime_3769|]. apply Forall_cons; [exact prime_11|]. apply Forall_nil.
  - vm_compute. reflexivity.
Qed.
Lemma prime_34282281433 : prime 34282281433.
Proof.
  apply (pocklington _ (fun q => q * 34282281433) [(204061199%positive, 0x6f58fce4b, 0x1534f87ca, 0x127d5969b, [0x61149ae50; 0x4ee65ff3d; 0x163b73f35; 0x2f80b8cd; 0x2496f5fc9; 0xf8209a77; 0x1c22925; 0x397d749be; 0x9df8bc56; 0x7968fcb5a; 0x3ce7e1494; 0x63465d2fb; 0x1fcc376; 0x495f79b8d; 0x2ff55184a; 0x171cdd65c; 0x99afad9; 0xac0215e0; 0x5a1378fb5; 0x353fe466e; 0x41967b79; 0x5fade90b8; 0x1239e8778; 0xb69d09fb; 0x3ed152549; 0x799fd0c9c; 0x202f1d64e; 0x341e2923; 0x585dd676; 0x356bd466a; 0x43f0572c0; 0x110dd3ca9; 0x18f352b3; 0x675904334; 0x2f2f5a494; 0x24e8bf315; 0x1cdc3afec; 0x40158cde9; 0x324a97c07; 0x2a50dc0dd])]).
  - intros q. reflexivity.
  - cbn [map pc_q]. apply Forall_cons; [exact prime_204061199|]. apply Forall_nil.
  - vm_compute. reflexivity.
Qed.
Lemma prime_150_145303 : prime 774023187263532362759620327192479577272145303.
Proof.
  apply (pocklington _ (fun q => q * 774023187263532362759620327192479577272145303) [(11290956913871%positive, 0x2cbe55ea53ac8f31a83a9d88b34f81060f414, 0xe62dfc289b94889baf37a7ecd87a1cba8a4a8, 0x128bb03d7bb2a1c56a8b803543011de45b021, [0x39ae14bca33db6ec5f6cce5ff51df229649d; 0x40fbec691545dc07c27f2a528d8dd21ed8c7b; 0x15127703f3e9cb1f06c0bc3c05ad5692a1e9d; 0x19a5e6ac40f84a6926c15387e04b4cd7b4cdc5; 0xd25fc661683721f78c599b65419e68ef73717; 0x1549a79f897732a55d2588be506c6fd32bd871; 0x13c1f7abae444b73d96afcab9cfcd9db31887; 0x102b83247f1d0d4202ae5decaa8c39e00a8906; 0x16610ece2f091558ea3d42bdd40de70e572758; 0x23d1332a71bbebe24654dbd94978fa308668; 0x1ef867055f9bb164630955b3d5f3a99477751e; 0x1e858b194a9be1890b5435875d423dae8d804; 0x441d443a90b350a5ec0bd06aa29f7918a8e1; 0x15b89b73369fc57adfd1f4359af42e02404a; 0x1ac5cd357a2c2031f138a3c10ec163b0845d40; 0x142ed2529542eb197a0cfd0dfcc39e1e4efc4; 0x21968994585eace3a8ce3fbd1c3530bb1324d2; 0x105ef5b151c439e48c82d28b2278704a709; 0x19f3e930f2536681e0ac088d0f56ef6e097aa5; 0x5feea50a58b9c74010fcdbdd5881b8244c2f; 0x3eb7d9d8537b44d2c7c100bd77ecdba071060; 0x55e49cb82f2447e4fb660746550064933f2f3; 0x1a8c3c81fdc31931a53455b62b14976a0460d; 0x7a518ac76a922b467b31eaf59b018b54ec8b; 0x8433c2dc39ac34c6ce6e2ae2f84976f511b3a; 0x19b8dd0852db620c9b43217cbc1fdb7832353; 0x130ab2ddee98687683a0e0801cbe80d8a9e297; 0x95d9a602d13fec17161fd0bcdeb9709c09efe; 0x9b6bbd752a3c152b3ca4070e7d57b3b471fc; 0x1fef699a65a9e4eee73b18453e13ecc9b676b6; 0x12df06e60dc1f39ab169dc5fdc360f0f931ac; 0x72cc3577a68872af41639db2d41e0d7201486; 0x2969e8b3293ac5fc8a8d6a26d30ee84778ddf; 0x15b4027c2d6dbfb04bb0ec9c538ee254b78b43; 0x6164a5e7ecdd45f3c4738bb629276fc68ff4; 0x36b15aa99f55549751bf517d8ac05025600af; 0xbc34a22e791f98751a3ed04e289ce287ce90e; 0x74941ca9ed882947158ebe1e3c2fc2ab264f1; 0xa7025c39386cd081bea74406f27a0a569074; 0x159ba438699f72b5c7b82f271c49565024b348; 0xba7ce988933ce9055cf12acd4f4f7d3c5077; 0xa85a0f464310dd07b5fedb2949ee5c5376b4; 0x9e554364741f14eb76cd9954ac237bc71eb8; 0x1440ee74087ac3c69b370b813420384114bcaf; 0x423b3d1778e6868fb75986d863e530b8adfbb; 0x2c48e26ad1ee93179239aeb9a56abbb3f7cb; 0x2697ae10feaac0e0af0b4612232d09416545; 0x1938302474326b8c7b8813c48abd027c36656; 0xe852e81742510979e051f916e8eeb573bac2a; 0x1d8f77893158062c9e9f2ff578c1c058a5bc; 0x210a724b8dc1239a676f272ee2bd1350050cb; 0xbaa6bc1f9d085547274138f86e0e43c9b48b; 0x1ba229b8a3b64fed35d7cfd4b9e970a972fb2c; 0xb3929cc48773e08c5c25d681835ec87db4d1; 0x10c3cdc0aa39927784c096c3b1bdbbe163dee6; 0x1328e9a881418d7ff72b985e272b7048f8c3e; 0x1e8ccbf74ab705eeed66b5e7050f715f226dbd; 0x2cbad5e4b254dbb60a4548166d7ed888fef9; 0x1902bf0add9755421a86db9c74cc1cf8938561; 0xc2e0a49d2e2a0e1c5bdcb48c8ae1ce872651; 0xa194220c830edcd95936a99c5fdccfd629182; 0x29839ce9b6ba73da3579707698561b271b6e7; 0x946178a22844639e64fc82be71d71698a3f95; 0xcfe86523b4ced7d81da8c1485c3c6e91aac5; 0xb71c9563a3ea43f3d861b865fdf0cf422c0b7; 0x1ce19543ccc57228c0dfffb8eba78153c9bb9]);
    (34282281433%positive, 0x1f4cfb5c1753681057167b61d5b00d91760efc, 0x1abeb8e5da6ec819af61ce1a5b9f326e02c801, 0x181e81e0426aed03ea56a9ef3be1a8cd661416, [0x1c3a434ff7f8aef5a99d63e0c3f83ea013ec91; 0x176f863b3644379c4d69a7f1a87be0cb629db1; 0x14abec9c1de4fc0ac47870feb58ef8f9264634; 0x1c8e2e2fdb0106001fc542ac36f657dd4bb831; 0x6a5c5116cd0c449b3ede95a8fc41049825a85; 0x14e5257f0fdd69afd3f8b853c1d465c0f99ff9; 0x50157d5e02c0e65cb7ec2a5c1b6a186919771; 0x1f184006ae112fe63884f59afe0b0f4e0a290d; 0xd5844cd400d679d21177c2245b87fc0b98fe1; 0x1f4425ad25bdbedea4cfd36f832b947b042b0c; 0xf9d07222c5c332ad14b600256992f65530dd2; 0xb8565a2acfa0d6485fbebe226600065b5deed; 0xb3e5326ea0ce938c25c2017e781c45c3f3963; 0x8d40ebbe9f39cf9f6baabfd31fbad1510237b; 0xa78fe9d05561d96ecf2745bd2d46dafa30dfe; 0x15e170e20d6fe2b50016fc4eb5db567cc6ada; 0x346c16cd3832399d48ed6ecad9d7ca931fd63; 0xba6aaf8e0d3949fde25dccf05db3fda41830a; 0x11bf6bc13ed7e44993d2c7a4e469f48c7f7685; 0x8b9f8e13cefd7ed02c0625c2a7019436b11cc; 0x1782f51de767574847b2d62885b5b567cf8b91; 0x1e8d0b946bdfc11881c256573fab7c472e96b2; 0x42b553e1eccc8d62f9d6f17b1707f36ffb56; 0x41d1853910fb206b57e8a36c78c34a8dd6895; 0x1c02db128b2fdf1c8deae81cfc214ab919726c; 0x13c96978ea1f84ae4211f1628a0ea8330b8913; 0x1d46b00d4d033cc31ff9fd380044ccdc8c4095; 0x475d71981afa8c07b3fe92b169155efea5b1a; 0x1ec45fdf40be67a4e91de852d0b2d51de93b20; 0x130902e8c2c248e96412930cbf049228551de2; 0x249cd80195f98cca6a8b69cf24440451f2d96; 0x138c17498050c8b0a327bd4727bfa6dd069c7; 0x1457f3971e8cbf8a91948178e27ad7ce33ba0c; 0xf9ba6fe9ce1262a72a7748e541647ab506153; 0x1f30046b0ede1b9da6e3fd3bfd2c5017c3beb7; 0x69f5aedbb803dc5debea49f15640771188076; 0xdadb4d8ff73f692410b354d8f0275b790389; 0x17778a794bf176e66fc33811ff0f6502143457; 0x100a2be7c411eabe2e6884873206c99a54db4c; 0xf323b45296024d5d1f059769300f079221f90; 0xd0931d09bbabdbbd8844799703a39dd803a6c; 0xdb1770c8afcf557267fd790f901da6a5aef00; 0x1aaab7c544a3812b86a113896411fdb672c7ce; 0x16409b1ae3666ecd21e03d6c2bbc2316e72f8; 0x6e629ef6d339523b9509839a3c7c4d0a7f0dd; 0x22aa25442490bcdb9dac536db250d8b7af2198; 0x10a347d3365c4aeaa0dae2910631a43020ed97; 0x2e3ae5fc9e503ffea997dded941cb1630f23a; 0xb366f074e8d3683816d581824caf1f49785f; 0xb9f198130b15f8bdd4a7b21896f988dde4a94; 0x7f32f8c332146631633e644f975cf9dd01238; 0x1a4916e958b65c98650b61019fe2b110f1f977; 0x47ed8bdf5ade8877e45ffc67adc10551856cb; 0x284c7058288accf3ed2e5daafcbf041f193e9])]).
  - intros q. reflexivity.
  - cbn [map pc_q]. apply Forall_cons; [exact prime_11290956913871|]. apply Forall_cons; [exact prime_34282281433|]. apply Forall_nil.
  - vm_compute. reflexivity.
Qed.
Lemma prime_160_927241 : prime 835945042244614951780389953367877943453916927241.
Proof.
  apply (pocklington _ (fun q => q * 835945042244614951780389953367877943453916927241) [(774023187263532362759620327192479577272145303%positive, 0x84f6174410b13b7c641bfb1c0429a24ea8e8db82, 0x915a3c97e1f064769fa3c1c13714e947fde75b95, 0x83fc873b067687e40e33c93e9edf628ae4e9ad74, [0x78bc14a2c651318eab04e3530c54ea14d6cfcea0; 0x57ce071634e61f945ade563176736e7b08f643e5; 0x4dc06609e8fbd756c25af536be8a67b99b6baca7; 0x27f88754752aed654b9df28e0dd6753c460adcb8; 0x5ede14315f05143eb7e54c1ffb6e58e4b06c0b5a; 0x14edeaf8abcb1a803f3888b4ae2537d28ad2ac96; 0xfea0f9e91b59bcde0845ca1dc5139ee877afbe9; 0x29f88696f02e5881bd55904c37a24e83123d8e73; 0x7391faca8059141a045018e6bf5b9c3d9e471b5; 0x56199f5a2348b92e0247ea8614dfb0db297905d6; 0x5a3bafb304ba18a48cd58685c02d8e80c25e3134; 0x69899fe4c316ecbf674ac68a008d581e8ab993e; 0x537464c720082cb1412309f7fded9c1875948880; 0x5cda24036ce06b76518921302e20843f5a2f6897; 0x9abdfd21487d480c5d980ad2e752850d3101ee8; 0x3d0f6618c37f728b241e6c922f3d63f661a1ee4b; 0xad769d86939d961a5eca7e003884698788299d0; 0xf3cc95121ba4b8547b690b2cd6ac5720d9a172; 0x361067959a4ff3441b3460ab8ba21e1f5f7ed5c3; 0x13a6db1bedd9ad7b74c82078c93fe06b7e6d3054; 0x943eea28236e38fb320f294c9c1d10735f2e57; 0x50cc654724eec5c3b6f717637d86437acf3389e3; 0xa1bb40c42ad6ab8e511608fa52fb8b4d9c43; 0xd260133fa24396a30b3859580f77738abc33b58; 0x191e2845f42d6d2c97ac21f8df5dc3159b773f00; 0x1a18b436cd4a83859a24299a1414d3260ea36598; 0x1a178206ea27c9e7098f5a729d0ef3382e563374; 0x1a886a3512ff5acf00565ac322283ccc38bd7ce0; 0x7ba3e69997df113d84083f446f4cec958709e0c2; 0x104eedb7d30aa5b5c7dcf52bdf86c693e17e86c3; 0x8f6dab40c162790228fb8c1aa11bcb2591c15a4; 0x42c29dfba759729a7943c97bedcd83f4ce538041; 0x6c0158454f603b544d5bc86c6242990ea4dd0fbe; 0x9227e5c43eeed00cf413f266497987f9dab6b78a; 0x83869c99a64c5a08fc3ced37a1720e67da7d2280; 0x6bcf2f7ecaa26d394cc6bc7843e80e945fc06e1d; 0x75014dd951fbe23a1339b48b6b6d4bd34b501dd0; 0x1baf4fe57c9a42056c8eff336fdcead1185f2da4; 0x145b39933095a34983ae805cff8044aacc987537; 0xfb43484c692ab196cd036ff938232025076ed8b; 0x61cd411dc9fc1aa1222deb6dbeabcd66914c46f3; 0x8f9bf1bbf4cbf95a8ec3cd240cbd32d4c2fbe420; 0x4e29c58b7a197396e0dcf2a261b8e1fcde226f0e; 0x4ecf7eb795fb96163f77964ae86cd4151911e05f; 0x44fe98a17cde2cf6f7327fdc8c0b0d45739390d5; 0x2e0e6c40dbfb6f3fd1d01736da5b6445ed58be13; 0x71ddc3ae3d69f5690a46e98f81dfed1dd83bf29e; 0x5aafbed2b101e94b57faecf8556a529f02e812d5; 0x758bf3998e486e3263bcf151f78cff91314c8b2e; 0x2d5b9e5711a1057fd40c26e07383544bc87d5915; 0xbc4a49df85fd9a8719de39d238960b141c57e0b; 0x3d225f3b52f92aaaa5247dd3b2fa9d948bd4cdf6; 0x7d02ee07b4f29d85362d0df6c1712110b3f4985; 0x245f81d4a7a4523f07dc37c6980cef41464c601; 0x670b046bbae0c77266d46791c0c5f3403f88656; 0xec9c53bf28bcd8917a1319a3164b91dd105bec4; 0x739c03e5192f9cba085ed20abdb0ede38558fe19; 0x51c2d9ea4ac8ec1d822ff74d7111d562aaadfb14; 0x23869b98f06cfd05f992845845d0c38fcd565460; 0x4c1f6e778e6b21e69ff6acea0acdb034c64c7c7b; 0xc02b990057a18e1551b88c9f39ee2955505c478; 0x6a622dd387516156e7fcf8c83fe03f5a4ed1; 0x3644e33027ba9ea479349e220f64b47d08f5e578; 0x20fec80d9dc5acbd7761df2d87e9f28af1a33df3; 0x1e5ed6f312f3303c7c47d5d4f41ddd02885002c6; 0x47d1d11072e09091cb58df41185b1f79fc5a1f4f; 0x370c51c2d4a13535d157eefac38f89eda18c96; 0xc30fa2633ca34666daac04be422c4e6366546bf; 0x6e2adbd0f8e9981453f4e7ac6889d377878ddf5; 0x5eb2a7ad3d97b44d0606430d442339144c7f8a6a; 0x92fd7f48e5e446459c6fba7194bf83fb55c2c1d; 0x3735686c6c198df150f2f0c6e1e089792ed9cd68; 0x5b563ee77a27617e5b41656fa54bf1b6bf854fcf; 0x2ad4c8ccb0d7aa92167451f993f41803fc7f5a66; 0x35957e52da56a7d30dbee9816e9849c4ad9d6431; 0x7372b34a5b4ce2486d20a242d7f0487e806708f; 0x24d580d70d8f1f40ea30d65b455694bbb940ab2a; 0x2fa127ebc3a2c6c9a0f1d2d6e4b2187f534fc948; 0x33d5ae6b1b3de6914c7ac4502ef35ae81c9eeac1; 0x670ed73475ca40c3c1717611347e6d56dd2a728e; 0x5371d1b7e506ba60b652108f5d4df480a230dd9c; 0x8558e148ee4fb3d866cce6a30ad632ba9aa8c85; 0x192f9cc89bef35484ebff63116198fae709168bd; 0x6f2fa2c39c376aad3ac21a6c00684ade0a1cf652; 0x184ea2fbb4b918ba5d13d4cce10267d51ab866f8; 0x7f853ff0099c6d5b6496c66e96cde2c4d4149e5; 0x2ceaff193861899320ed0b9b0a4d53590f4b4e0f; 0x8a49d8196a7bd40632ad29980abed2badd31ed6; 0xc1ad31c17c5a43c1db5920c45402757fc7b345b; 0x2498da8ed89e69178621080c97e400577a4f64f2; 0x1d34dd688c2f9e16d3c2edd9948421e8f4b0287f; 0x1b87520e00b84c791279e8fd467e5c966dabd19; 0x7af54ab0f5ed90393e5881ffbf5378411e71172d; 0x86bf67d064ed6f49573b16888a5dd471aeb9544b; 0x5ada99eb10684b4e766611f5ad9e6968cfd4b07; 0x29231e3be29717a048b4a2b8056094f11d1aabf1; 0x3c0d751b846d21520162bb2225a4eafdcb13f594; 0x37e103b5110ade7ada76138a1511771325e3fe42; 0x5e4f67fd469f6db9f564bd5fab321c00dc428e90; 0x29be8d8c4b5680d11a31fb0c261fe22a3ac43a6d; 0x19880d686938cdfb532839218ac5b304f0b485; 0x1ecb2433ae3893943c1b934f5af29b5dff166743; 0xb66ce4bdac1898eea16334b0f41638fae96581; 0x2d31b91161e14bc7fca71335ce712a39ffd734c7; 0x8e8b65ac6dc156fe6146fa89c493e5f182d47813; 0xb40db1f130167b2d215f43cc0334eb41e2d5fad; 0x71d1e5283a8a1beba9b3afaf515df685aa3cc4c9; 0x519c5c6c36d04f06cd6f3020422da66334fa8fdc; 0x20f860f67962988223d35ab1a79290df49f94ca6; 0x3e01d26216ff8f7b6e9297b754fc4b202465097c; 0x2d97bdbf2a97df74dc4caf20a7a21b758b4ac3fe; 0x37a7838b05bc956a76adcc37675465dd084e884b; 0x33d343924e7a0cf71f721dbbd2f6e8eab98d71d7; 0x7fcaaf0e3c97a576edfb9e4accddf363ef31ff46; 0x3b3d7a985f293075f1b49c31ee8bff98d3867573; 0x19b6ceb3af7a777fb1ec870e4a85480c76815f5; 0x148fb4e079793b4c3327e0fe6787cb7dfb3ce80; 0x7ae437f2d1a1c2a78717ab16d94569d7f12154b3; 0x4c8f75cc481f2b6d6a07d7c9b6db95e9489b14cd; 0xe328e08dd6dc0df61195033750a8b192a7635dd; 0x913644d425d6567469ac58e1941146cc45e51c4; 0xc35c4b7c02941d8191b36052d44f1a371a3a1b4; 0xbc1d3a96c204bafa818f68c0451a72b65f57827; 0x519ac7cc3e1eaa22e03377b832579be055bacc59; 0x2684045a3defcb6e658e75423ebf6185418c9848; 0x4616365dbe6c8d8f359da26ace6916a22c099b28; 0x7c4541dd508773363fbf909f3d263efb6bb32c03; 0xa0dee305e4a788279cc6b73be794981a4c5e6df; 0x5c042284255cf43c3d44abea1888b46de75131c; 0x28d906a1c8d2c79c036437e8e750c0acf89cd7e3; 0x476aef8f9f505dd6709b675889714a3a0f590ceb; 0x1a03861237ad6d63b1b0056b3cd17d23ec613c7c; 0x41f16aef64b9521fbd2625295508ca3f9a52562; 0x69502af31f7c081d420b1856088c4f1e3d37be88; 0x262b6a323d67528de2076f328869fe8de8227dcc; 0x4cca0d3228c1cf612a611a785c15fe074e37c89; 0x25781ba700a965b21e1774358b542a082f6d432c; 0x7b1b8ca4380102d9e213788f0354a6e07c621b55; 0x1412c0f298aff8becfcc938b2a46c53d8e6a2df4; 0x206cf5687deb98f159d0133271124fc4494a3d9; 0x4be68877c39618f479f154c0a51b34695a1bcefc; 0x2911f6ed7898e9311cc4415fb63e888abdecdf4e; 0x3539ea10e559333863654f30e97e72ff9a8a428d; 0x4dccb68670dd9ca127c8fe2c8d9804259e94450c; 0x8a01e89cb54db88d86b05d919255f969866f7b2c; 0x3e9602f4fa4a973164ee29d224e4e65322e241e3; 0x1d83c246d0e66d0e2eea36462a46ae78ed17ce55; 0x35878824acf5f2c79ebf20798145aaf324dbff68; 0x330c3f7f64af8c0ec8ae4170c316cc958be561f2; 0x82fb5b0c2eef04b784ca8ab57c6e396fc94facfb; 0x12925e8e3ff6a5c7838be15585687255c5eb2257; 0x6bb90d22e10f4c21ede9d82ecac7bd0af6f6647; 0x6727479444a61f90b2dbc4549bb5b3657744832e; 0xe88613dcb2b9e4d27b052f20ed92b4353334bd2; 0x144c8d35a19afcdf7642ad63deef62a174d582c7; 0x214cc9c3f2b9faf2e60941641293851c5b285ca9; 0x34218230686e87076d920dd9d8f3f3442930c040; 0x43ea38dd08f8512032e58ab242b0915d8112e409; 0x1af2397d44963a4937e12b8302c50801a9219b9; 0x82f947855a3ecac01c8af210924a2b76ccbf587; 0x51a7c2968b6c33c5070a39f8f284b2e3d0d1c959; 0x6ceda236e5a7186732b98a31de375f910397756e; 0x7cb67622e2226874683449ab0482c70d072c33c9; 0x3ba28168a4fbf628b8f2076d48324d2bb12b029; 0x3592a8b188ae9359e29ffee2b9a0eff9263521c1; 0x1d55ab0ef6f49d59050b17586e0b490d73357f64; 0x435d915f0768e390d8b41cbee048ef67c9b6d04; 0x2d2571ef6678801ce71f1b60a9231fed6c7c8510; 0x3b659b9b49594bea2f7570bd836d7cd68e88cbf1; 0x450b72103ee944d674eb84c540039923335bd500; 0x20242ab5923f4a4bd95db4ce65983cff9fd9cfb; 0x5d3a6afd81c8167b796e203d82056bc90f886635; 0x17b6594bbe519c84bd5ada72031f909e608ba36f; 0x2f92b807cb21ae7ace3a85762a5e7f27285cdc76; 0x725f4fd2c421b81bdd81d06beca2b2974d15ab3c; 0x267122f10ca228da3ba49bbb2c4bbd3f7478911b; 0x1e6f8c87069afdd596f11bb35f45fdb824fc2de8; 0x47276d327083c09f9fb1bce278e19d8968a9c643; 0x211e131abbcf3bb6672653cf9c51bef01e9c2d52; 0xbb20eeae106b9b2b93e5dcf78f891eadd268295; 0x2f9df022a2d8700a3d46d8bbbdccc1c3b19eb980; 0x1921653ccfd4b232b4fe8b03d820af4696d87c24; 0xb6a2c2a5c53cb40c74d322c46a3ce23d5415355; 0x556fc5ae2d23a40462809b5f38e11d44334fa656; 0x3a30b5139c564081a35f583753e0cc9cd90fa39a; 0x2ddea9a6e597677fef4891dc99c4daa023fbc4a4; 0x710f87855f604ddc6067d4f45c4537161279a1; 0x22f2bfdc6de0488f8546257a0646d371fc054ba6; 0x4c83939d9e92c3b32155788bd83989e6eab3afce; 0xb64bb35c2c3e0866e25fb9916c6b18b72951185; 0x58b643b23770661e2db277ef6e378bfa8efe42d8; 0x703ddec1896283359c9bdf2acf2a0ed3efebfde; 0x25d9db1a3434e1354910ad106b74455b865ea99b; 0x4ce9bc6bc5951b03329ed923a74ec2207fe2a040; 0x566ae24a9bbc3834d1cced3f77d49c8355d855; 0x165cf4eaaaf79eaf2c8b70d74d4c574bd5540f1d; 0x3be79552d28ea43b6c4bfb2770f20b7cf4a2fa5f; 0xe158811df4c4eb6c6f5b52c4850527d37ef620a; 0x67d429c1df22b9347d5f72e9c284ebb25c4a3680; 0x1a76230558e0ae10196b2a81215747aba52041f; 0x758b6c9fbcdf2e0c085c4ea7bcd308d30945106b; 0x685e599945f756abc3f2970863d0cd5e5ff7c35; 0x23feea2d17b975da066307f859c33a4f58f515f3; 0x2763f35409bc1ca38f156c9c60d863a5bee27f81; 0x1322b80d198ccda4badde7cafd037fdba0c3cff1; 0x1a3929579e89a53cf41d932e3b84561901908; 0x6e3c92ce8addf3b35788b47e9a5ccf02d8422a76; 0x3cea3967270adbae08685cdb4e0ee79de73ea89f; 0x788843537d7502e9e8f3079413c91bb96e7cc1cf; 0x47cd2d621dd34f75936a9c221f9050a1e8babfa7; 0x330d02d034e29c4a4f73583a04c11569ca90f1d; 0xbe3c37c09468036a8eac05125d8b213d85bd1f; 0x7dff6de65df0f723ea0a7327a81e0f6c3b5d6afa; 0x13c555f55f95c89c8a67ec45cfe15111ad07bede; 0x7aa385324c7f8e2f069a9e84469101717ebe58cc; 0x81ca9fac13b6a6d6fa25d0b317510f07265b61b4; 0x853cf5be90b4de5dcac2441c5d760a3cd845b58; 0x668efdcb24f0e8e869935cb309c8a5ac9b2a76b2; 0x4cee5e169c5cdc752c46ba90a228611809f23440; 0x4efd7bb3b1731d1498f5d614acc9b5ee6f3468f])]).
  - intros q. reflexivity.
  - cbn [map pc_q]. apply Forall_cons; [exact prime_150_145303|]. apply Forall_nil.
  - vm_compute. reflexivity.
Qed.
Lemma prime_256_853951 : prime (2 ^ 256 - 2 ^ 224 + 2 ^ 192 + 2 ^ 96 - 1).
Proof.
  apply (pocklington _ (fun q => Z.shiftl q 256 - Z.shiftl q 224 + Z.shiftl q 192 + Z.shiftl q 96 - q) [(835945042244614951780389953367877943453916927241%positive, 0x6e2de1e253b630ab90fb6c14c9913e3f79353ced1be9c68ed42e7ee18b96074e, 0x4f5b418eca523fb75369a24772ba6e620c00261d7f768df08143595c559af3ce, 0x22276f3b6051c72a50251baf7be7d0e405575a296daf2bd8e083a1a94f06090b, [0x2f6b7657e03d15766855d162d1bdc06c7e8890002f3275d2fcbada906a78c38f; 0xa58a978829c10ad340589b2f0bcdc85a2a8151ab47c48abb8f47d046a6ff34fc; 0xef85e3508b2f19088d059a9693e05f77a932fb61213d936da095c7a018306358; 0x500d52f38701cf683bf0692edc452fe1fd772d14e4a85dc5fcc67f8fa13c331f; 0x51a268f79c4cdc472e23335965bb1e0f2a45268eb22d8bd8b12855b2f6333d7; 0x47d599e6d4d8b57164d90447d8c13bd2833321b7d7f521b6535896987e9fb5e3; 0xbd939ae9e219d5aa8ddcdfc5599fc46b5abe89e87e243ac22bd3b6a1df833417; 0x642afb8e8ed07add914b8a281905217eea7aa264be2b19d629fb7425b19eb7de; 0xa393cfb0602016dd366bf1a6e4f1089e58763a3ec46ce9c4b1e6859aaca977a5; 0x14f90a0da1123769aa569352ccd040035a2c19d7f36ac863b455aa1ee9508f8a; 0x5be3d7db5f71860a4f06ffe6604b03e7b2bb28f3d82262d711fb991ddf3ae954; 0xe02e03af793ed28907c9772fe390fb2c0a439ef5329d838c50e087fd2ea1b9d; 0xbdd6c5345ca798d5b558b6eb46b00979f0fc474bd2d4ca9cc61eb59a43438479; 0x1e85d4b18581250078367f58c5c723f2e13e0ba387242990561641202e5c3a0c; 0x15a980ba8526249b49b5e9e1d8a9fbeeaf07d77e9e94f02e4fa449e8dc0fb7f7; 0x9b384174a0a90c1b7d8eeca6c60f2ba07b13f3c45baf9f63a3c1e7bc800609d0; 0x659106210ecad21a7430b159789f9b596358aa982ea45df2570d80850a505237; 0x6762591b051a0cc75d1b10e56853d4143983188bf20e93e5da37c6d83596b773; 0x13f48cc70586c0246a1dd91c5f86914fe360693a30ca3ff74265ecdd5c69498c; 0x74cc6656f928b164da6b4da1ac2d7fe5737ec8fca63fe7a3cd8ec45981faaeba; 0x4f52468ec98210a20613bc2eb057dd1399a1baf60b5291ca5d8fa8ba2e1d60c6; 0x10feffe3e35bf2242f98876d642ecc8b2b5924d3349c891e3bb645ac3b6e6c8; 0x527f6bd2cc2185e33ad9afb7f08f1d6648c5006a2c9237bcf8c195f83f412a08; 0x496352378588bcba705ff7dcb39586dd8ac94d78118099b45d451798f0895fb5; 0x224999a3c242e85acaea9fa39006d927830f37cc99e8503a3b5b0115d29e71a; 0x16e57724f4e7bdd670c660d69e4524f7341d31b7e97537edde6c8f9408ee5a5e; 0x4b638146ab216ad3b844f952aafe14b010c78c137d5d92d1d6beb38c6f4f5e59; 0x765130fbfadb36d88310a5b1d636ccbc7a4754ed011519944e505b9ad12f1e75; 0xaa2af91e9f7527665353e5cd52e1417adb86173943108ae5a2cc90f348300b37; 0x8e00020381252fbbb4422fd399abe2cf63778d2c568bcb5772d0c71fbfa5949e; 0x17f3d2e3f96fad7f5c678fd66bacc69400f8bafe1200c1209f5bbd7184399d42; 0x4452a2bfdda9bd86f509089e831d1c1d92a9caf836e5837139f4a244a107e3f4; 0x18bd1d246c2c8e2538b561052e50956ceaf7739cddc847389a7fa979d53ab868; 0x8ad1212cef01f5f1681b1ca6df3a4dcce248e17cccf23d3aaef70ab48b8a26b3; 0x2b0aac22bfe7876cc81b7ba26f4859284088643818e8606d97209002a3d8208d; 0x1651b1a98d9962b29b44eaa261b02826cd77a1c053d5b11886d107b6cb398fc; 0xbeb155c64d9c0aeccb9a1849b6499e443046585adac5768818a0306382dc7a2; 0x2d0a6e08a521f98a35a919c2632b10cd558e6f4b81046bcb41090e67349ee17; 0x28594abfb086529cf9aab587014aed5c45b157fc8c39d57ae31304573501c745; 0x37728e4603f7f391bec7c386e893bf768923199d26e4fc4c257b97c56f07852e; 0x46bdf23ae1cf5704260b9506a52d1fc49028814378341bbbe01d0147d97c691; 0x5bc6bc4ff3bc67e20a44c94ec92e8f2fcfdc011c623c99b784aab8450e758e4a; 0xa02bb1c65d09424f45f6e1d05211a0459bf4e49968439e3de95059a8df6f2be3; 0x4a3798c41725f9cfe59c528fae3a8d804ba208a233ffbbfbc636cb9111ccf353; 0xb809191859d7f7afe132f58b2bbbab9c4cea11bfed00fd367c8ce506f67b8fc; 0x1cea961ccfdd0e592c403a6b6af9c9a815f6e50e0b37f1415c6ede364f4977f; 0x59d2d1606b4222564046d4ead6ea5b40f193b71ab51d99e9a93a9829d1e5dbb6; 0x6a7b6bb9f1b805158d5a75fef010231990d2773b28ef744f4e364e0887e2703a; 0x25031b0538cf129bf29e3962e171f375719aafc9016fdb146c267df452cffdea; 0x5691fc3dc72a2c09e5340136bf2c71cbf8d856be40b0f3c948fe1d1a9e8b9dfd; 0x6af522ba8d0195498314feaf16ae63bc7cd0ffe20a8c2631c4432f087b1270f5; 0x403359c0ae1d18537094ef63cd60698327e8785de3fd37490940a9767201fe0c; 0x796e49fe29b601a5bb17a3e2414b07841d5e96498c5f5d521ae0f8eeefc27369; 0xc3591d0a7034050c7cf371978fcfe104eaee23a76cf25ff903f7ab280850b92; 0x3659123654cd3cce851f768094dfe00219b8a104a07e894a37574a6c065b370f; 0x41fab174e6b59afcae85d52939110bdd6b78d888c07a5b3b01280c573ed039e; 0x276ccd1dcb127c56176bdd4b0ed950e37e69561f229c3795725fbcd24dd3eee6; 0xc93bd58fd639c53411c552ad72bf847275587a0b42519a6b41cff921d20f16; 0xf230064adcf070cb9dfdba6263ac123c8503c3e22e240aa2a91465254e1bad7; 0x7f1e667cfa8ef7ab7c3b64e626aa7b9a85f200e4d283fea533077f2871dc13b0; 0xa033003faab7d6cd849bf87c3f8948ef6db0505f1eec3d32f811ab1564b1158; 0x8f40cf0c662f79c1a8b2a0a63ad70a765062077f63a373760792f7a0a40cc3f; 0x3f2adf57a64f5e9f5835de4dadbeca63c511841ab0d24196fc31eeaffa313f7f; 0x3fd70a681e83dc2a93da91bf78a08f3dbc13d12fec1a1958dff08764dcb957f6; 0xb9711df32c038611bb34f68191fdde9476ad957111edd93aaf88526f865423; 0x2e94090a52395febf217799d838ca5c74ec4ef64ed012b940962bec268efccb; 0x5476e680597944b03998a1d6e6afed103a6f7fbfbb2f523369a71b0f6becf195; 0x310096470dd5601889c34a227617fdb23bfe5138a9515cc336faf8cec2be9954; 0x1bf091ffa5754f7cc070240925f3e1075efed4ba9dfc19ff5d658aaf770a43d; 0x57bcd78012b096ed515338ab474108aa93d3e25c308e407891f3b94ee97de229; 0x72243228d167324d3492e960b0e320705776ddf0adf122a1dcce01b8b7a67a2b; 0x641f3e31f1e2752fb0e767e0297233db400f54b806688f7bb3a9bccffcbef579; 0x60ca9b786cb0180089ba4dd34398f951c2d2ab6dca3a3ce4be0157faf4139ac0; 0xc81289972ac4dde782041e2c08da6f0fb2f9bf6b4210c7442064ecf612104cb; 0x982c5a5a42cbcae2e1a261ce08c8af598473d2a4761fc347c570da19fd9bf77; 0xd5f0141dde0642dfc27074363b272085e349c9ca47ff07a2f959ac35b84597d0; 0x8d67ae7f3c2c51515ba7e30ddf41eaf757230ba4ac573c53968f2262c1124045; 0x2c3b00a6bc5b0924dabc6232bd68849b52534f82acf6ebae1bb916446c607635; 0x1c7c9051b7b3abd57a2d5c90290e6f0da865c90d057ea94dc3dc53aee82eeac; 0x3d65317446f22e7187f7d5f9f9223877e1997f0768de008c77262a09fd431558; 0xc5b17affb042cc7f8485db59d93103f96aa28b41a2d81958a054fa915185f7eb; 0x67225941b8d7c61173d946182cca43056566b5ce1edc34f3f5a0938f0a7e877c; 0x5a5ec6cf4ca8e7f1ab50c1ef27ae76c2a1dd5f9ee5b216f1487ed3b026d7deb; 0x36c14c02b991395462659fa952f0dd8495ca50837fa33e32ad653200eec14bac; 0x1c5a5d58c57d5902f313a764a676dd61aaeecfe0c0dd55dce6c489a4b579c6dc; 0x206c9913e2deae556c6cf1e5ed446ea60360d8be0562fec21522bb2879d7cc67; 0x6e1d9b5afea1ec4ba9da5ba93828fdbec3efaa78770024356d17f71f40f0edce; 0x3a09b9b74842ab20fb33a9fa8f7ab3849b354acfbb0dc243a6e82ca3314f7a02; 0x428668cd73b327685d959cc7d7e4c6846e02350f7cfd9616b74ee7dc9b0fad1d; 0xd1b72dd5e725cbf528edd9bb8229b1ab735beab15135b4c2c531eac9f60c57c4; 0x9ca21b877e3cb3d548bbbaa7b465a6845c38393d696c5af694388d0afa0dd9f3; 0x1f4f5f5b915adc63af0db9136f57bfa8c25b0f524eafeeb349f6b1a7785a79ec; 0x50ff9b57ba9d6b5e6e378db851f815c41aa7777343746ccf079daf28e00986b9; 0x2e4008f37565aded35f336c74a2654ff17eda27edb102625ae1895e3ed728c4e; 0x2ae9af2d7825e569394b2c6fdb533b23d4244e4dc7c15fc76cab0210a8e924e; 0x4aa2dc39fe7f512d321e31cb2ca662a83ec3969875fa578b581d2a2410638093; 0x8aab25d980483500df632d03a3211598731442dbf59ad143463c6086e561474; 0x6a1b753e1edd3fa7955bd13c14f8a6c1c5267d313b70e9ec590d3409d0bda383; 0x64ec0faebf431825132267d54a0955f634f8bd817d0eb3f95b7b4bf8a91d9e44; 0x14ef0df5578ed93c984c1a844e04e564f6f0a61f68c61181b215802fbbb6f0f9; 0x2fd3955143e6ed27b0f1df28199cf139ae7e237a88d6da64db46e04d0c6495; 0x6235f798adf962440ac834d1c2f71181131a55757fb9488dffacb139f32286bd; 0xa966bad5dad615276237630afda8bf951ddbd94abb307955ab2fae2f698e408; 0x11c52e60314fd7b3323f69d26cd50925ad25f7cd23bccecdc61488383e8ace86; 0xe22032077b6989a402dd9ffc7922a74b206ac1e45389d41ddeb5fb9d110b74c; 0x46027e283b93b9cde396106503d0226de16992a7c353316210a1762f59f713a0; 0x1746d2f8cc43df6d21eea8ad6052456060e65b2ee10561d91cbbd33cef4e58d4; 0x12318f305800bc5a211de233dcaf64cac70608561c4ce2bae4162a91be79dc9; 0x6c0a5c3c752c5ff0ef5faaa53cf979cd18406bc4edb9cbc0c2018fc2a70d8b7b; 0x7e97438fbf50ba1803759973404405ab7739e1a592521f659eec1e103584c29; 0x68694e813c1bda11323bff93f7bc79663f2f8490abf9720f6bb74cd1ad7e98e; 0x74a7b56730ef122c288ae04f710d368c0289005b4e4b864950b58f7d4e8a0a0c; 0x87dfc2f451e3aa2a30cc65b4bb825fafcdab1ecb25e8d3c41bbf1c1f6660375; 0x27dd2bd22c4e872e1d6d6cc8395afbd01569cd89ebb7692ca016a76a554c51d3; 0xe7cb677dfd31386f328a075508dec48df01dfd599e412d7d4866915369b43cb; 0x7797afc1d637d184c6e36af8998b6dd3fded628c03629d51455053cffb16aa5; 0x38a0e7e16c7fc43e249f379837309fd77157c5887467aa7ad1a5487ed3d25245; 0x6715a561ff05358a761f3ffa1bf9fdee09a23dbd20d6b1d311cfa43f5b84cd28; 0x499139c66bd1d2d8e95bf0aef4fd380a3fb4b94da0b4180e41f9a36588aa3e0b; 0x38ee1919a54c1f416dcd6ebee83831fc3a21cdd957ffb8992ba197fd7637af04; 0x429b9861c96a17fe8a0647fb93b2c03fd43cd86462330a5eec40d5ec13f828e0; 0xedf7b4797c4a823e7d73c09a6ffd7383100c7795f1e9a791372ecb698da46b3d; 0xd526d096b38a35cdbf4ad53da7b2bfb8a6deb1dffbde795d6d77936410dbdc58; 0x74e232ec065530701de7083c7d3d129d6993f7f862df211de13bee722f2e3f26; 0x6203ba919d142ad04dc4903821c3f3e8828f4711bdd1e81a35ca99eab78d0129; 0x90ea580ff0a2fa6a3f528de1d6cc4da29332caa9c3199c6a73c9c22e1c3adff5; 0x33f8cf42971c2a20deb6dd9135bb42c6915f02f37ba0157896750f41ceb6513b; 0x1b0ff38f8fef69b1930c77285343266eb33e864ff7b575813fa92dcc7bc67aca; 0x5e7666b6be927499380a3bb26a1e2c203d184bfcbac7b38fc3f732fe27d73cb; 0x297aa48b8977b1cc4e63e8709e18921553f79adbe18903fbe08b6bf675ed7dd0; 0x4ddb59eceaa3f7ad8e870cb77e25b5ae13ab649bca8b2094b12a80f7501cf76a; 0x2b4a346b7f5af9c59d78a60da042c5ccf3ae274026cc126d4f769d6a8cef5106; 0x7e817fcd49c6b9a3f5315d18eecb6a483b9d643e1f337dc47c9c5e31a9ef249f; 0x53e7603ecf111f5f7e2b207b07ab69069ae34311a1cd4b1fcb1dc4b029a8f4dc; 0x8a9c66c4674ecd2d7c83d09e34d1a43e8e293e6b5d471d768a4dd37c06252303; 0x7b37039d6dd256a0831d6be11ca289abc463cf7962374ea56f84a4e4337f4d3; 0xeedd5f7212ce9075bdb54e2663a3cde1ff6ad4663c9e7592d2bbcf7eed6fbc46; 0x85af0c946b9b017f51264532f47c70fa76df85e1a53124943365077e65d9a56; 0x4f81ef99d838bf6213c26457eef3319ef6ccea45506b1637198387bd783dc78e; 0x74f462f0516bb911b94e26a591ed40510853b54537a93ac9172fad13834d64f6; 0x2cffff58968cf3d3dc8489f8f99b41c97b581de0c1a88e5c4520c2e8817d91fa; 0xa92dd113017a0b374f58254270ee6ca126158d6e5b403a3ee9269d81d4c8e4eb; 0x43aa3d67c4292fc5973782495dd88ae987c346a8486257271f062807689808e1; 0x75e4c9471f204f58d0a79eecff47e6db9fb2bd3562713fc50e54269357b2efa3; 0x27b2eed7feb839b1f047d148bb94231b8dc4457316b51b121489f9fadbb8fa24; 0x39745379c8c4984d1451590efa83977f2afa8d3ca802d079daa40e59d9fabcb9; 0x35941e49251dc61fd13e3dd590246a4a134bf375291b5dc91bb561450773c40; 0x190c9ef7ad2289b7ef303de7da67af79afe624245ae6e6914f9b6c7dac97ba5f; 0xb920b2c167e5382bdc0ddcd254fd7f0a0166a72464887babfe6d004fb07d886e; 0x231d911ef404ce5201e500ce4f7d58d9913e608919e71d069972d5a6cbe6b6a3; 0x1d2820164b3040cde27a48e140e9145c0198a91099d423fa12bd59e641560518; 0x9d6b00464fcedfdf9d4a913c93b619597ea923adce09995886075cc7e72f5a2; 0xb4c7947ea999f13113acc464e8c39378d0212482892f9e0e2876ed9d8b35977f; 0x2f2f96a86954d1c47bb36c53e22f4c4cce59ac1a8dcd715fe8ba805c7ed11077; 0x93f306d16f129797b2802c3075205dda797e02bc46e22414edd89cb06be7867d; 0x4cf9175b16a7d22eb084ba041602c263506bab3469f58f4e3d8b24b24dc0cf8c; 0x138aa7c26747aaa22289a8649b9f32f9c32bea42b7d3c4e84e1940e9d9ceae08; 0x6294ad7dd8eec2625c3fe62fe6e639b059ce860e39c2687f2826a72de9eb4373; 0xafea785bbf956aae0cefd90a427f8400c7c62207d10a9bd96414f2295e37211; 0xbf8b4f15f8acab81e74668577895a47b0a7ded3eb0250092bc148065655f46ec; 0x5a5f469ce5ade3ab5caf05712f9589d9f73720978759394baabc9735aa9437eb; 0x366bd4d8b2e679088e867516f4e67bc0d767386893cf5ce0e41d152a5b4bfb2e; 0x2da9784f1f00ba9fe5f67109130f4fc96074ab2c56531568b569015fa5f47f; 0x2ca612c4d35624c082bf88fb292bd5ac037ac6f4d3b0bad1816cfdc3a932da34; 0x20d41397eba8dcdb2682aad8570c92b8791d3c79e3d576a8e207abacdc443bd8; 0x1e738de61215b4d88008b3cdfadf495e62439277663af9b58d6f35cb1b6a7d68; 0x55fb581a2def8225bc09376762dffc93c9e8fad7466153284d91351990c69bed; 0xfa4c7448fa7c2121c8138503086efba9dd51409ad9ffec5793ec822c4d5b6a0d; 0x36f052682228c3a5ca58a38ee59c978bb3462dd10605aed55479e258258b5d29; 0xc33a80b27e8ab5781b755797cdb6d77945fd56207e49e2af0f53dc44cecd7cdc; 0xbb1a4dc12f05aace8834e20e399c4b5d83af313afea37b473a6eb267a2a98dc6; 0x46dfc70ba1ea3e1c8b7fd5b227955ffad61c731ef84984d193a7b1fde17b0e94; 0x8afc18229ce177cdbba2861fdd69fcd31d95326886b42a97e3971ec407c401ce; 0x1725b20930b2849fedcd2af5994d83e743fc450af9ff480cfc37aeca227ff798; 0x9ae9df7c17275ef646c3fddf83f33a5e71eddd7a282789784285487a7f219ac1; 0x3ddc62466788b77d228157ff30f4fc2c2e124df567da7c02a8ab6ef5ee27b3d0; 0x213cd2f0a76beeac13d6f14ac39ddc3ccd86b5b345e66ec97b0f0743aa98b320; 0x3b4dfbe2f56447f8604ed3c0100c9bdd8ffe5ea49a347b659965c7f2175997fb; 0x1f9e023cfc8b41990aec693e86b8c3882264e87f5448dc1663699d0d891d8171; 0xb529e496924717456baf432a9ead93b3e417377536760b1020ecf4e8678bb8c6; 0x966b67bc7109dd1acfac5bf133595e400bf9252553ad795b76948c28b23a8af4; 0xc5bd5f1d27461a557efa8a4bc2edd7e7f1de9fa90f28e9ddfd95aec6b7aaf4f0; 0x6022c8116cffba75ffdbc0527e9dda8bc316fe329f9fc5e56e4ed3535b18579c; 0x81031ba7f70307571faa3f98ce4cbb008ff71facc03cd907ebc916205dc45b9; 0xe924cf8671770c7c27b5d607b150a3583ee13efa151b5700b34a2dbb8e15cd0f; 0x9f938f4b5163c9c267c27b702dd8e3ba9d7c8b0b24085963c29d5f9b73929ad0; 0x54993db3b4c02f2980044d1cb3af3caa4311d8eb26b771cfa996e39e3c2ff8e; 0xb08b6e813c93384f30d289e090da4a15d3b4d37342c0c25f75c6a7194bf8ad23; 0x2d802ff86ce0c613fadaf4e7737c041456575bee20d1616a5b2b67eb428516f1; 0xad170fb0ab2ef9e108c5714cbb5820b8a84f3734dfdd169ef1c1244534535b39; 0x2a5c5491f9e9159e56fcbd5d639b1b100420edfe068d26d5aae46f9f3affde40; 0x5f3170cddec26a245e8ccc31e8f503887be62320d56dd2034aa51fe863931fe7; 0x1ef31d0ddc6c9a2a740b4b75dad3c82a9133fb98e85e69bf70a1d31ac9a53664; 0x8d35633d728dd75d0cbc6d5a3236b1d5563927286242063c2f926eafc6bf2369; 0x6d4cdbdce1f3008c7b3c5918edb7ac855f91c3987a7ad8a1699bb53376ba4bbb; 0x3661656531274682e1cb2c2e8fd8926ed898fcbb95c97d06155dd0075cf323fc; 0x4aa7bfb9de1037889e09762e4c39a08aa1367c2e92786c029db5cd7188afc2b; 0x372674bc0aea00cd1f6fce8d9e8fc56f5bcc467919cfcc6a27aa55f6838f7578; 0x313c144ddae1fcb860c5678058a0113844a8da9cc94d012f88b8151b233433c0; 0x62a9b35b1bcc3988263d1d72c8c5b164f70d9471404ab784622c699d23c52aa6; 0x663201378bf56f808428e53bb202a7dcb6358587e5460057bcdded75f5cd76af; 0xad97f2a4124d2462a5c1a6cc97911ef99e7e023f191421801ba357a2c357e4a8; 0x51e82f3c6692266cbc40569c2747f47028fb6cc852243ed24b8131f7187635eb; 0xf21b8b1c02650b4c48a91286ae4839924a42ec61248e71a2b4a5ca6080019f6; 0xdec8697925cd56e77e305746542b2a5b20911a261a178aceedc33abf48bd3fe; 0x54b4e043cfc023ac3bb0117fff93a0a5c34a48150c56430ddcb44f7f31c30a51; 0x5d07e504289a8892912984abaa5ffae38c1fa6e904c2fd0c9d265e69d5cc70; 0x46b98482eacfaedbf4d16ed384e0ae1bc967fa9f409a511005af9c9c8691911c; 0x5b5fb95092e0031c45e26bbc7a7f59fda6b5e449fb34df5c2ed1b080d8450d11; 0x3d84f5ce25863f81eedc94115c0d539faf195842cc4e9de743392a4c955ac2aa; 0x61478ee31594e323ec06017c1822f5d416f41e5490aceceeba4cce77d41bd365; 0x96cf357f61c3e8eb134ba90fa8efd820939a656d6bb813079ab2c9a8aa8b46b7; 0x31a5243af6debc6553a0e6fb8f4c8a7c3730031dde62cf552267b2402063e3da; 0x394a646b7206c7a5287c7f2ac7cd7af796d99aafa6327fac8b5564b6f123b176; 0x47f27323bf7e549dfd5015f8cb8b90455723d351453c556dea4c87f26c28949b; 0x1170950aaa64ce7b887377ab73212e581851331e5fa06e19ec933d4b250de806; 0x58e8a8d4c46d2ed17b4116d5a0f454ba74c3979b6544b20db947aa97de27ee; 0x1fd5e85d8fcbb89abbd48dc3388c5adddca84fae89ba74882691b9ea34ee121e; 0x23f56f636badb10ec1a70d0e1df8441023227885790120fafbae3cfe13124591; 0x83c033c84b31ab72adb3c21deddbd4a2b854901048321c5278fff6650176532e; 0x16d7632c127cd4021e5eba19ebe26d8c26eac41e139d6d5b1faf8641b4206b7e; 0xf1fb64a1652a4902ff25df87e9c8f1a67578af1ce74bcc5feb3146782b076411; 0x12b95e524270b202ee3719959c8cb39675e19da539edab636bc14160a93999e5; 0x2d9db34d6c93f55f27849c433d7b3f225a4c67641e982533984a20df223f19; 0xfae130ef9e20b1735161fce9f7bcef4d57cbb8206357bb49425ac6c2999310; 0x1db23b24b9711ea599f263c68189319a21d32d05aad71f82df47a0662b2472ec; 0x896fc952862a6c6133a370c4cee308d56a5e15cb179e63e6fbdc6afb30d71e1f; 0x5a72decb27893764bfa6d6670b8dc669c784113ffc0e8037e1ae2d43e9a8d98; 0x440aed96d7d0b9fe41f8e8ea4b5dac87747a5a418cc6e4baad3800bd33206c2; 0x390abf8e2c5472fa205e6616526013bd7b14281ddb7ba8d6c86afc02912e711c; 0x32a33d58d94e1f9376ba8c4748c57ab7ceb187e312e0a288daa6a3d7ab1ab0da; 0x4696d3572cef5aa8990312b1b3f4f82daa1847045a8ae64f5e3ba247f4033371; 0x794b95ba5676416856bb3b91e245d16de438220a5dd517389721e9b3e26af16; 0x3008e755e8e7da436003ecaec41b4a7ffd0fcd6c13deddf74df2d92979a44a0; 0xb94b89763a1484780433658e53fff4f8cd55a65e723da58a7d3f9eff99f8bc2c; 0x71bda0252fc0f66e7a235e1263795dcd8b8d4245b6c9138dd63d6c3689b5079e; 0xbc938dc71fd9de78ae453dc1b741d6877b3780d28cbb811ec0d4c834c3058114; 0x17fb28ce05f99d93358e2f1d141bf0a774c7ee74e2c5959a48ef3958697656d6; 0x19aa3b3eac182f24faacd71cb8ef4562976ad35f62ceb42dda47f292e7fe53ef; 0x4125b7e3ae66bb1a644102abeeece581d8b31fc94772646700eca0f560fdfa; 0x6cd1bb8a4a44fa748c0f5481e98e513741b9335737d7ce6ab52b4e5c06b8d930; 0x4109e16385057b44ebbb3a7f79578b0bee4062a5a5dcd6fcfa40e91c67f31cc3])]).
  - intros q. rewrite ?Z.shiftl_mul_pow2 by (apply Z.leb_le; reflexivity). ring.
  - cbn [map pc_q]. apply Forall_cons; [exact prime_160_927241|]. apply Forall_nil.
  - vm_compute. reflexivity.
Qed.
Lemma prime_21407 : prime 21407.
Proof.
  apply (pocklington _ (fun q => q * 21407) [(11%positive, 0x3cd0, 0x3d9d, 0x2cce, [0x2c39; 0x23a5; 0x3226; 0x25de; 0x2601]);
    (7%positive, 0x4ba7, 0x3ab6, 0x351d, [0x4471; 0x1e8a; 0x1120; 0x2001]);
    (2%positive, 0x539e, 0x29cf, 0x29ce, [0x539d])]).
  - intros q. reflexivity.
  - cbn [map pc_q]. apply Forall_cons; [exact prime_11|]. apply Forall_cons; [exact prime_7|]. apply Forall_cons; [exact prime_2|]. apply Forall_nil.
  - vm_compute. reflexivity.
Qed.
Lemma prime_246608641 : prime 246608641.
Proof.
  apply (pocklington _ (fun q => q * 246608641) [(21407%positive, 0xa2ae695, 0x5be2c47, 0x3f8f20b, [0x7087955; 0x39947aa; 0x3eeab86; 0x1107de; 0x2660d02; 0x1dd8ac4; 0x1cd2b30; 0x2fdd1; 0x261ec4e; 0x6596886; 0x4f9d4fc; 0x28c85b1; 0x2e08b6; 0xc9aa45; 0x69a3fc0; 0x3cf0f41; 0x365311e; 0x7a1c94c; 0x2a4e875; 0x6a4e317; 0x91131b9; 0x3ac29e6; 0x4e84df6])]).
  - intros q. reflexivity.
  - cbn [map pc_q]. apply Forall_cons; [exact prime_21407|]. apply Forall_nil.
  - vm_compute. reflexivity.
Qed.
Lemma prime_181 : prime 181. Proof. apply small_prime. vm_compute. reflexivity. Qed.
Lemma prime_69_440593 : prime 529709925838459440593.
Proof.
  apply (pocklington _ (fun q => q * 529709925838459440593) [(246608641%positive, 0xeb6e985fde3701a93, 0x7395d39b7f88fce94, 0x3b3a74d45c01678b7, [0x78a3ef439c69031d2; 0x860966f6430abe680; 0xdca05a6e165c6069a; 0x388709925588e3842; 0x1574216544b0eeb4e; 0xcb43e2817919e9cd8; 0xd233763f336543739; 0x18c9db881fed4ec66e; 0x179dc4ec207ad6b831; 0x93c21168c56d829b0; 0xd62f3d4fc6b3ad34; 0x48d5f90d0a73f5312; 0xf935fcbd4083fcf32; 0x5f58124b3448c59c; 0x636a026369bc915dd; 0xa267ea3658b909523; 0xa91bf432e500e1492; 0x1acdc62be6f2a107a9; 0xa9ae3fcd44ef6f084; 0x1180b18122c5e9a705; 0xa3fd509d22a368374; 0x3abc0170230c9023d; 0x70027ab56bf5321d5; 0xb4aa6d434f13a5bfd; 0x70e049319aac4d340; 0x501cf9f54f69c9ff4; 0x43986c4be1147f81d; 0x70820e8f3eabfcbb0; 0x30efa9d8768d07c67; 0xd0b0b10ee730be14a; 0x29f0a89ae92ac505b; 0xb8e186a41da7557f4; 0x152ef47df056d9e0aa; 0xd0c944b301c21173; 0x12c0bd7d7bf9fe04e4; 0xb3e3a280117b61e46; 0x43c4bf87baef71b9b; 0xd4517912aaa9745b4; 0x37d71a526b7b06c86; 0x7f6676585bd0b4f18]);
    (181%positive, 0x10edb92f5a73424219, 0x2b6d21cf6195753ea, 0x1999d6206326a73bf, [0x9fad782e2a0f455c8; 0x3ff2eec7c82392e0; 0x3ecbd6cb4bd7af101; 0x2f6eaf5e68d7ada5e; 0xbb1bfd286ea4fdc61; 0x1d20a9c28caa18d02; 0x33817adf4de83386; 0xd7306ad2da47dde29; 0x8fb40ae50c7f6651; 0x8ca9824ee5df9ca28; 0x5ff7ea77555b33778])]).
  - intros q. reflexivity.
  - cbn [map pc_q]. apply Forall_cons; [exact prime_246608641|]. apply Forall_cons; [exact prime_181|]. apply Forall_nil.
  - vm_compute. reflexivity.
Qed.
Lemma prime_661 : prime 661. Proof. apply small_prime. vm_compute. reflexivity. Qed.
Lemma prime_513928823 : prime 513928823.
Proof.
  apply (pocklington _ (fun q => q * 513928823) [(661%positive, 0x1b32cde, 0x3e2c40b, 0x3733f2, [0x18263b; 0x6cf5484; 0x20a5ac; 0x111a24ae; 0x6e8552; 0x1595336c; 0xf191ad; 0x48e495c; 0x849266e; 0x56618c; 0x4b1ae; 0x886d35c; 0x165ae39]);
    (59%positive, 0xe454ffd, 0x80fe706, 0x3c18211, [0x6a5f701; 0x51b676e; 0x10a00639; 0x34083c0; 0xd17604a; 0x8fb9361; 0x1eca24f; 0x14aaf4f6; 0xb2514e6])]).
  - intros q. reflexivity.
  - cbn [map pc_q]. apply Forall_cons; [exact prime_661|]. apply Forall_cons; [exact prime_59|]. apply Forall_nil.
  - vm_compute. reflexivity.
Qed.
Lemma prime_53448597593 : prime 53448597593.
Proof.
  apply (pocklington _ (fun q => q * 53448597593) [(513928823%positive, 0xa7bc19821, 0xaa6cfefe4, 0x8f91c4897, [0x8d4d6e280; 0xd1fca468; 0xa9b72064; 0x6d582723a; 0x9676f8ce; 0x5924c8ad; 0x1bf96f490; 0x335c04c06; 0x5c3c73488; 0x235de0c6; 0x535a8aca; 0xa19833cfb; 0x63077096e; 0x1d206712; 0x5398d8cf; 0x2f83b216; 0x86fbc0500; 0x4996f448c; 0xc5fcc1dfe; 0x244f4961e; 0x5b2b6fada; 0x7755506cc; 0x5e575a1a6; 0xdeb508f8; 0x98454bb6f; 0x2bcda0a5d; 0x2305a1df0; 0x189477c04; 0x555905e41; 0x69f2c6d4a; 0xa2927745d; 0x7ad27897f; 0x22fd9716; 0x5a1e5da78; 0x95f185daa; 0x24f50fd79; 0x1f2910edb; 0x3939e2620; 0x4e5e085e1; 0x9650dc096; 0x46b79e796; 0x2ed205c9; 0xc59ee5f9e; 0x324da6f1; 0x2f0147029; 0x1c8f4f3b2])]).
  - intros q. reflexivity.
  - cbn [map pc_q]. apply Forall_cons; [exact prime_513928823|]. apply Forall_nil.
  - vm_compute. reflexivity.
Qed.
Lemma prime_1357291859799823621 : prime 1357291859799823621.
Proof.
  apply (pocklington _ (fun q => q * 1357291859799823621) [(53448597593%positive, 0xf22700384320ac2, 0x52b83369528e221, 0x4276a8ceb77c760, [0xc2908bb05cc07b3; 0xb5111f107bdb0c2; 0x67b7953c08cf445; 0x6d9434b7bb248f; 0x135df4d0a916d94; 0x8b96d1ad8e6c123; 0x59b058566f295e3; 0x107c3e6caa6d198b; 0x9189de17857be2a; 0xa15c3f574e0b7ea; 0x9f5a26e771adc7c; 0x66d39cf9d9455a5; 0x206407e045b2ffd; 0x17d04e8fdbba7; 0x4b9a5e1dc2c4d2e; 0xc9954ad0451499b; 0x381d6fd3704a40a; 0xda48d335ac31cfd; 0x3d8685a712c01a1; 0x1fdec687ef67345; 0xb0c4d51b4289a96; 0x135718e02c1f8fb; 0x26dd9fa2a4869e; 0x48b27673cad9394; 0x7129df7d4bb8790; 0x48d2158a3d3f691; 0xb12fa2fb7348; 0x87a4a92e37a8465; 0x1245d7e8f15d151; 0x12141f193ae8a427; 0x20606774755f1e8; 0x42452d9294c02b5; 0x76eec5aec59618a; 0x434d9a1f6561df; 0x3fb0ffa45430b7c; 0xe2e98a8525ead87; 0x2cab65eea100193; 0x764c1af6c9e4bb3; 0x7c39566260ed2fe; 0x583c7b95ef8f60; 0x76a1380e40baa54; 0x8ba0c1658aba48c; 0x29209e34f60a910; 0x1732e0250e36d53; 0xe56cf35a7d10260; 0x4f05e1f97617451; 0x389444456e96362; 0x1d33032af6757af; 0x1b049696a2d4675; 0xa726846ec4ec3b1])]).
  - intros q. reflexivity.
  - cbn [map pc_q]. apply Forall_cons; [exact prime_53448597593|]. apply Forall_nil.
  - vm_compute. reflexivity.
Qed.
Lemma prime_3253 : prime 3253. Proof. apply small_prime. vm_compute. reflexivity. Qed.
Lemma prime_312289 : prime 312289.
Proof.
  apply (pocklington _ (fun q => q * 312289) [(3253%positive, 0x3ece9, 0x5e57, 0x4db7, [0x33bd2; 0x3333e; 0x1d71f; 0x651b; 0x9eba; 0x31784; 0x44128; 0x4a869; 0x25c3; 0x3927e; 0x2ef79; 0x36494; 0x442d9; 0x39efa; 0x2892c; 0x4d59; 0x1cd0f])]).
  - intros q. reflexivity.
  - cbn [map pc_q]. apply Forall_cons; [exact prime_3253|]. apply Forall_nil.
  - vm_compute. reflexivity.
Qed.
Lemma prime_17 : prime 17. Proof. apply small_prime. vm_compute. reflexivity. Qed.
Lemma prime_38557 : prime 38557.
Proof.
  apply (pocklington _ (fun q => q * 38557) [(17%positive, 0x4ab4, 0x4069, 0x1ff2, [0x250d; 0x1484; 0x2883; 0x2e9; 0x3287]);
    (7%positive, 0x326c, 0x46b7, 0x17ac, [0x10e1; 0xf41; 0x6b58; 0x1bc7]);
    (3%positive, 0x1db7, 0x284c, 0x7f3, [0x5dc; 0x17da])]).
  - intros q. reflexivity.
  - cbn [map pc_q]. apply Forall_cons; [exact prime_17|]. apply Forall_cons; [exact prime_7|]. apply Forall_cons; [exact prime_3|]. apply Forall_nil.
  - vm_compute. reflexivity.
Qed.
Lemma prime_8389 : prime 8389. Proof. apply small_prime. vm_compute. reflexivity. Qed.
Lemma prime_334_526097 : prime 19173790298027098165721053155794528970226934547887232785722672956982046098136719667167519737147526097.
Proof.
  apply (pocklington _ (fun q => q * 19173790298027098165721053155794528970226934547887232785722672956982046098136719667167519737147526097) [(529709925838459440593%positive, 0x221d8987b928e795077e1a07f607203de4a4543d28da162105c4411c3bc5adc9110b6b1b4895b9846510, 0x1c7c14f4ae35eefd4031fcd9c12e6b99084b36d3195812f082d0101e75a14eca5b7a721d90a85c9e2276, 0x1bb6ac267bf575644612d238c60da1523760d1a5cb2c502084c874a36f31170a7c539dfc14245ca99399, [0x21311ae8dbd03c8e7089f0296a82254bcf961af2890596d0419709f39270ad85cbd01a9f55b6ac9de14c; 0x3e3a010121f194443b2441a81df64d27ad9d1011fa5d33f82cf9ded42a639399ba0f837b7a284319690; 0x9a5c5d0e27538ebb00e62f828515f9ed9d4e2cf19514c062a0ab071ccc78c844e8203c906f8f0cff8b4; 0x62e17339a9521d555fea6e2dfd643156ec1b0295d5fbdb8ec7d842ef71e27b2887c3e77516baf063398; 0x1f38bc48d6082d145df1f278bdd2d6dc00f1b9d31ee241a6b71ad6d19a2801b227af3cbcdde3197f3f; 0x89056964adbb551d9d27c08e3f97c149bbc92fa5552cd11087ff368e3b8d539791a4d665ef8b4eed878; 0x1eacb5bf8917da456d338f7ff53b9ec181736a297ec7e21eed720d29c1b24d5be2c6d4c8ba5c0662f081; 0x1906093af8957c54db02c1dd3cd21c4a2a966468e5cc0cdcf06b335f13cde55da1e225e74877e5df037b; 0xa98b9bfb285f7e35d5ceff11181130ecc2abd5fe1fb31e20ec0b6684cf62af9675f153af661c20a0; 0x119cf57877eec3304a190b7f32eda37690b929ba98d3c3c0dbee0af229a167de5f6fc255cfdc451e5b8c; 0x14bdad13730221c1d50919168e568e6640ed3b6408f331ddcaba4e99a12fdb3d9044b81a0fec29570a58; 0x1fa79dc2c7833a7f6c83e86d7ecf6e36e951d4708bfba3459b0465892f8527ad8f35b1ff9af552a0edf0; 0x1478cc7875f6dc4fc8aa48a4315fabd7c599f3e2971da5ac4b4521aece362c4074259c8e9c238dd118fe; 0x67c12c9be4910e0c35a872be54f1f185ae41c523786c4ba046d3d744227188bcffbf32afb184a452584; 0x3a469c1f76a878f2dacf87d18a1e84593dc8208f93075cb5ddbede8084fc5865699e966b4676b931a91; 0x86ffbf3eaee4a9f3e33760d8a7a559c587398ab39b0bec034426847c320cf9fc8c47a19e69f9a030a3; 0x583742abcdc7b6cbf57151b688d2c81cfc4ce8c75ed28928e4cecc6cfe3739beaa01b0a868ae6da8e6; 0x1d6465a2ea161e73a5f2664168d7c4ed3e53ed4ceec590e4059e48b6f6b09e1d5a46bc5c2f9f6efbcdc7; 0x4bca33c1db6ce9c7c40c6b57ee1d20c9dcc424b24ec4aa235171637d9c413b07393c7dd3526cf00f2a8; 0x15f47d40d597acc773e9d707cfe4b857f045d2a0e133f28841f02ca706c31f7fa42c0832cee58505cb9d; 0xcf7ce25bba689e0573b694e5b69c7f57fa0a3319289747c896a4a19b4a4c6f18f317d74f8e7eeeb9d91; 0xccdbbde31d70c16289bcdc7c7b960d032c3f2e465f853928deab827e2293de3f2ab37aee77f521566a9; 0xb12645510e5c74484cd4881217cfa258482981b944b0a3cc647d38ec5e0c0631042188480e75c0fef6; 0x287a7dafb4dafd88584cd90bff78dbbf8946ef979f471873469681c9e5b739cb9f4753af85965a4404b; 0x7680f4f22ab85b1ac05ca135599a7ccc0619f3808c811d0358c64b2ce5b089866886973fe745eb208f; 0x47af1a3fadb685576b8c25632a8ad03bf4210012b97900a9374a695b3ce3433fbbed05151949c264945; 0x4dde57d27842e1ca14565bfb204339521c9e0ef937d75d96e309e730a8b5451e1ddf843bc147e0f63; 0x20b0b6f91654d4b03e4c26652a3dc0b7d2c2e7c8f3355053fb53976050a7fdae65195b3b1e82d68dc44c; 0x16eca8fe88dde96f7d3d3618dfd17c97f90d0c0c3dec43035e84eaad5948d73af8c48d094f27588b8b9; 0x178f848dfeeb64e1a28fbf4b9f2d34e4fc03603b46f7fc4568f53ddbc46b11b5b9aa4ba4bccac0aa6474; 0x7940c5399f20aaec7de67571239d8e77edb5ae7dfd4da06484c1daf6f3bcc65c7e0091559dbfecdbc1; 0x129c847335cf4f107ea1319f95d6c15581f553e5ddc2123d533baee48d8023897bcb390edf22764f8a6c; 0xf7e28ba6495601918684fa430602e6a334556bec125a0b4e3e560c647c8488d78cf3a8bce5ed74ada4b; 0x1ba24cf612d496bbb86927ca94028616e2ed025abe3608d35b53b86a2eb9265e50320d3838d6c80ed385; 0x16c16622f96d43e25db957257e0cf89b83536dc1ac5547b8e9f9114c355851e0bbcced19eb16feafa9c9; 0x898098107f795203e22ee1efe4ab81dcc4640f9721d5d4c51b1efb1f25e382727c3685f31a502578962; 0x208f4d8a71d0357944fd69a543d9f4a8e07e15c33876dd7b502496055ddb0575af91757adb88a47bcfe4; 0xd21f75af820dabdfff92e117175523a20a55550d3aeab23933287bf79664c5f0c8421a0053673d241b; 0x1cca094ecb2ac6b2a2ebc6d7d704f4b9fd1fe705ef59dbc6f26f6cd4f9188ade9b9f2c0519a572db8126; 0xfd52fea6f4fa5699c01fa53163e6b941aa0ffcea6073d612c46a607ec4517f0ceee9b8fb1b3e9c1f6df; 0x11344cf36c7997fe721c9bf8db68fb7936a18a9c5b0202692f816093acc26ad3545c4a03014c0ff110f; 0x149d48ab7c81799dda0f6b3a9c0111f98285184fe2d132abadcf81e9674bb0e886d6a28a3a92208697f7; 0x11c2bfabb04ec0b4a134e8b84519e98051d1c5eb745318460262c7c5735709c9e756eb605e9593d2a55a; 0x916bdb1550d2764281f4d4db3f3c12559edfd95ceb13cf344ca6fa16906359f8d460f45884a0f9a2013; 0x7608808b3a9d64a330386dd8eee51d86e9865cd54ff33123394fe5da14bf7dd3d03f885178220c5e24c; 0x5390f1be1c73681c3bb922bd4848d5ff1e654b2e8cba96bfcbee450a6501da3b5e5a444ff4f438552b; 0x365c249f912559202f08a5973e5b8d525a6d7cc29679c9df44ad9e96d07debd947a79c3db5ebd13b52d; 0x99f0bf31d84d6eca73e0dc4c671c33aa448006631bd5f1dbbe97b175eb5f0f94dc99bcce008f039d4e3; 0x179924f11649127f952ebdaed7caac4dae9a41eb5464c45039a930f01b67ba1f6c90e6f0ffdba553ddf5; 0x1b4f2bf61b8b0d68c22c45669191b1402cf5eb8946ad8f3a75c9d30ed9104eedd949959c1056882b1180; 0x21af9451a1457331173f8d9564879ec31b46e1ec7835e1a11f4eb54f9db8225c279e5dac88cabdd2fe70; 0x942e0bb8750308ca2922a0e9f4caa5cd1a754ce3fa7dc7715bbe45e61b8c3e62eba68fe69fa8ab615e; 0x1481c1012c06b307ccbe7a6f872b4c1cc77660b36024b37bbb783df9cca3e02ca68999fe14ae4eeabd7b; 0x1eab59e390d55f9ee4e70291b68474497be5a750b503e171eeb65fb7803323f68fdb1fec8f5c97915d77; 0x1dc27bf9599aba4ccb052bd72a768b638991551db40cff0e8a2d05041b63971c705a3ea5914cc6b2a; 0x34ffedcecd3253b395fdcbfddd165043b4e4b433afd3401034ed9332dcc70cd7fd1172e4e2689353c38; 0x207765f867e6c2a0ac498450c8e95e40e2567aee0cbfbff08067f59085b175cb4f8e59b239475cc35790; 0x17a094efe378b8a6f5a808103d7a0f4bf17d9db50b3f852ee5de23f31f4f5d7e7cc5844ce316539181c4; 0x12a82d3c4fe64be41e4c3b0ccdfbab08a7bff6ecebe6973e9bea15df36424b1c157b6bead5a5f9bd43d4; 0x22c760cc9bcda607e85d6f5953203ba773a6a023766aed9e8bcdd5025d20f9c64b736d4633500a7f3550; 0x345325c2cf6b69a298014f5bc023a051381cf487916ca8881603da4ce5bcacb03c96e82633b9a0718a; 0x724ebcea04c2885964f21e8324074f4840003deabe5b7a815aff0eb6202e4485b26d83ad9e535a51926; 0x6a0678b3890510cc21b07b83150c30624dacc894f2e15c4cd99ae9655a64aa07a510ad44de6559cd355; 0x16683881eddb5f6c4d4038fe69998741b5ceac5216222ecfaebe1e423f38b1f5332f4ec91c3b9c3b124c; 0x12c0c253f50b166a4efeb00e5d52506f9498fef48753e6417a914248929363d3411f8ab331df3edc3ef2; 0x10c226a88623e03cfc1e510ee166923c34317647f12484f0e8401793b1e48b0eddde7dd6f1963faa99f9; 0x62c8d77cf7e0cdd67c2176cb11f2c73d82979f5356992bddf6dc7b325c5666d03019230d9546cfb3525; 0xb5cb1e1c55ec8fba021c525e2972a119a40509efa580d0252cee3267ed96a99c80361f97747e2e35942; 0x2025a6dae031ef5c5e4ffca1a19b1974f8fa3debf7c51eb726f1a4112aafd7f4b2089083f3651d5d523f; 0xbb7c973fbdf6885e1d2fef350abef0b43255049d9e56bf49d108913dc66e0984aa4d1182bcdd008f660; 0x87b017c2b8383445519690153b1706ccb6d5f22b66f6389ae8571c3d7c165b712741042fcc88e185d5f; 0x45b0abea873825744fbf22fc34f889ce3f0b7ddc24db454870643fa72813c052e35c8c03623b9aa1bd; 0x1652fe1be2f6b459ea8e1d27780feee589fb225450a46eac916511eaa3c9d197fd0099b26911ee07a471; 0x572a69916335225ff95af543f904e9c760cd0bba8534de2cfd2d90b946bb963c66874e1402da0ed616d; 0xc4e13ab2ffaf474d678b136493d083ede6a79ca2c5fd2c093a69721df6c1239b2ca5a9d14b9dc7a0510; 0x193c76b65ea159e935ee1b9ab7f268f6adad69dae62b48f3a769054ef6dc1cd365daff414b4c6e3a0cca; 0x12360e62eb1f16f32c36847bfae91e1300e6859f71b67f7509b2a9db0e73dfe66ed7b46515d41c0b1716; 0x1d82306afee56cb5f19e109c62d0e7fd9912650833852a4fd7051294a9ec656cdb0190841e8e04418096; 0x1862f6709b496ec2e714a8833c069c502fdc95163b0991c017c1d9e74be52d1bd110f755e91b6b622382; 0x19e03d7ee36f75d545937f4fd6604c3cf687f62d679d6740a7ccce1a8e77df8dbfe8bb0a56baf2ea343c; 0x136da52f6b2440415addd2526e6963d3d6fd01664511b603b37ed6c02a412fab4a94241297731c9e3; 0xcca4294eb0b22fb2a03164d2b9f8969546311d1c64075ca714b30dec41cc0c428a9a148a3cd90cce39c; 0x210d5cd4f85ffb2df2dcd99124618a50d1651ebce6036da763a413992b4a710a73404aa849eaf157633; 0x2124e012defc52712c8a5efabef00505017d342aecea8fd9e58277f08ce2b9279ca1605657cd9c489060; 0x182a83b4966f0413c181ab8dc40a2265e7a8f1718808c136954aa9c182af5754e005029e8ab00d850d6; 0xe9c42a3d25803040ebb1c91359edcb5b2bb4d75bb3c9a77eb1e8b04e7725737a7e3ce646f758594ddf3; 0x2b8eae7cdf1fb3280aad05a4e4e419276ea3a54e0ae995ffca01627adb50f992828835116667b129ca; 0xaa2f31344f49f1911b7c65266c9311821528ed4463a0aa2e7355363d9ecdf6f7da7297184484b2227d0; 0xd599c57c37f50eb7d41b8da75c56f1499dbb1daf268af16460a1cec520ca0f116e283fc5aef397feb39; 0xd3338bc43b9642c293e5f9e604418e23cd49b0a6f575a58072ef4f4886038a6d6b4e14851d0832712e; 0x85da2ad299d642a955bcc74f867a6aadbcf184dfad92cad54f75961946c5459d1784c295e568714e51f; 0x1d46f83c1b1d78345e5ec960a02db95c327d55005b1fde74d1e82a8288929bb5c90424b03dde78c2e250; 0x21ddf7dc82003057ce9eef75b9d14ec86cf961d705e58bd2484776c446c9db2eeb3d3667928cedede214; 0x1aeb1d83e7015edb68e6b91b9df7bcb6d20e552f25fdad91f89e056b84e21d2c4251295b57696d9ac09b; 0x9dad1f303d98c82eb153d34382b4b9fdeb77fc05e81b0b183cbefe712e64b46ba3f4e08cc1e0a701d1c; 0x223a2c465a569848ecbc0ad5de0ea7dfea7f7c132f14fc7977d2d249cf77866eba38e260e14436ac6fbf; 0xb64f89946d9cbfa4cd9cd2272d038b8295bd501c146cad7ffdb42b8ef4beaf10b4c14233490e0c04a2a; 0x263df05bf8ea5989e705f4d492dc68292830430b0b6c1b90fc7d972cb183c1224363accd1f2bf850e60; 0x1f33da08370e9bee536c99438df3679751e494d60400ab2791d3d838d56e94bfd62c0930eaf981213f27; 0x16009b95c854ab89dd5ee9cef26598965f1512466e007c0205f6ccee5750099c83691bb5917505684fde; 0x103429c97d582dd36893e20f0d6bf8080153e0d169af899d0fa84b536208c01036886653835c520bf17a; 0x20e962877996829519f48596cf2ab1c7fd8e1e7b80376044f4b5536da076118fd5765ed1a6b0c5c40365; 0x1f44ef384f24f5a10eaff511d0c9e913d82b071fde8965e0722f52e49312517cbc3822b107e39b9c90c7; 0x22852807b0024e4f736d61ce1242f135d1d92a4176e9deb36390ea9544dc836b59a6a22c9d64b8346859; 0x91e1f3d6855892692420d48c21307990942f99841cf96a506da920282336addea73ead3a6ef78aa5e7f]);
    (1357291859799823621%positive, 0x13885d5728aaac1ab7fffd723f8cc350f1d73c07836b83ae803837d67fc681e0ebc5fcb62fdb357950cb, 0x2233493ff743397c2335e4d7b4c686f9c6e1e12e34eaa2978c4aadc6a2611d7dd0a27ff8e55161f74094, 0x130d1c764f2a0f2cc08338412ccdea174689b90b96d4b1c329c8d58bf8f6f5b33693ad626a39808d9517, [0xae170ee4a6e35faceb277290cf5eb9274c15790b6cf02fdc25fdada28f73de19c9991d23d7c6eed67c8; 0x1205519d575a67fe318c97ae2f61ea606ebc9a1f7f202d501f68a00bca0c3e92de4f3c9f24753e60d9ea; 0x1d3c949f7b28c38613fa8f6cdfc29a9df9583ef1b0fa5c0796a1d7e849b95b53029cb86902f965dbb35e; 0xa2d609acde690b1392274bc5fe5e3c094a82132e377147254b216afe5df93dd089669aa060db48de25d; 0x42edd3eaf7dd2dffa4eff6fd8f1d554bf759f314b6588e50f691df2572a2b645c48aef4e5ee3b30d495; 0xc37efb3b6d4d02c663e6810c47555fbc9624880c4569ce0e49e4962045ee3de9096c5d910cb47fb6387; 0x2bede8ad0817fb7767692cc70d8b6831bb92ca98e3f1e1184d72c73d4aed2b9879c35a3ae048549b235; 0x241a1d36402936e4c5cb28533279b5b615097e253634454c74d860980146c8afe627ec3982f0431db33; 0x8adf7a53954a5e55720a6b98bc3b2a9c7371c73e91b505e9cc1673bd4a68c42eb3efb9618cfa46f987f; 0x3d33da0d525143464e88bbdffe660a0b0f8804b7261e03425e99659991f57c6532e8f48b9755ca19fe; 0x640f2b666b151d584533750dda6214b73e049f2a23ceb1d426de8ebfb0933646a7606f4e22aeb9ccd4; 0xc888fe74fcabc5a21225143409ff420b0908b10eeb692557c18eae565b962bc7f4f7c6861aeb3659e55; 0x95ef67be80ed3ebd9901941cc61e74ce152bb4a559a21c2f9298482a01da0b358f6f649889642d468e9; 0x14cad2aaef92961a7dd3a104481a753e906e5e61ffe612d7ab3049c6a328eb786e1c2e1752be84e7b73; 0x97627b3e51a0e2eda29994f481d2b738734ad72a8a00f1d1c96e61e99acc7e07fc125039b97f05938dd; 0x1fbe942a7f31e252b9e7ea1d57266f28a4ce2efdaa99bc6573c50b6de5ded730f34e5cf5b988b5cf5c; 0x8da607ea1cfbc03487fb5e0c21d1f222a8ecfff0dc58b4a6c63c94697fdd5c41fb01f3d6c6881022427; 0x18bc0136ff9a0ee3aff477c9596638a5ca30b86bfc1e23c59eb26237eba12bc0811ce55a0689798158a8; 0x8f082d774e5698ffb9fbfde976431b7b77c774a5884c1fdb379c9106286430e8fc9534866d96d8f3dde; 0x19a4d2ccaafb49faf590defacd05cce07659fcbfc746f906523e3f0b93df130cab3f07ac28e6e42e5a33; 0x75b6d60a79c2c5872d1012b1eab599ca9e08f6aa454ca62956b3cfe3e450a0d1d41673df76c4d8ec9c8; 0x458580b05e46d95872ecc2c8022754b6ccb3b57e039c9cc058f81d6dfde6e4adb6e60797c8772c6a187; 0xd2c6787197157631844d8639aa51db5030fecfdbe01a6462c530d3126cd94862f78b6daa7113548443c; 0x15bb5621548e9a990d154d202f47f5f6707079c2c01647971bf537f0dcc81c7424bf9f853520eda1de99; 0x16e4276c94039d83503623d0bd41c9ae64a65b353611524c93877e0aedfa2f5ef5d8d8925817429a51ae; 0x8a55e112c2443bf4abf82a438efd9784fe5bad5168e3951b22e1e2c1b15793eb365f6feb613ea3ba337; 0x37e92c66f8a0472068be689f39ceefd0daa468b9b74557cf98a367dfc0c159f8d020ff8aef66dfec45f; 0x46c243d0986da51c4318f7f7c254877adc831d8c4e46de45b576cce1b471517929b2348e7dbd5ce1264; 0x13a968952dad1a45b5a94d8d5fed7b6a492e18773344c23ab5c3d7dd4afa8c4da5d13afa68abdb9188a; 0x5a9b10b0720f0a19eb6df9e74d9a468862e67e73e7eca921d675a4dd9158cb124e43d3ea58aca0b5575; 0x14f4e2d8bca7399166954e8a8d73bcd7d406ea9095fb0ca25e0e762b23039bebf2d2f3d354c8c61e049f; 0x52283523fe76e73cf892c6bb84b92d1c05f8cb7e7806d784dc10abd68ab2d4199fed09e8c61afa3ae0; 0x6c5020f81fd6c18e27fb873ec1bfa0abd7ed1b95ec482d8d1e864465e9d9bea7939e08ade939f417f6b; 0x1bdbedd69f3d4daa634e7c1a01513b7a19fdbaaa62c8e0b07706e9672767790ca4ef492380e6a876f593; 0x1a89cf108e7e2f180a1e0ee460353fab8c52afffb1ca18ea08e31c874f3ac530e86527f6bba2a39b1581; 0x5d0fbf2a4b65ff357647be4a6fe5acb03aab80c892bb47802cec4e0f39c5cf29f86b95dc59a1974b001; 0xb3bf57b31542806205a4586f6f6ed94db9cbe0305d7eb7674b28e7eb54f5d390b85e735aacbb2e3b5f0; 0x5fa37f216fefce738695b5c28c31dcf30e17cab4f3aea0a3a78ed1c24d85a998af7e0373b50017d8dd1; 0x49aa87004428bebdd3a618447122eccaddd9951696a15ff5f521618375ffcc53556c8fb3367bd98be6; 0xb377d879396e6ea9338b2dcd13d67c8b46703cbeba5d5c340a4c1bdbfd61edd5b328640fd699af1949f; 0x11f111eec4b1d79f0eaa795b663f59eb8f4d98cf0cd5d0119233482cc7d564a84e35cba3181f02855ed; 0xfb6e4847311ed9f061a3c7ec1930f5ae9dee401745d6effc19a25504a26c43fc967dc1f712409679baa; 0x2263d2476b0ddb73d4c1ca006ce80e1e930501afce25591361cb72896d7b933405bce2cccac9be03cc7f; 0x13859d6ac4de1cc1c775a25ff180506e47fea17fe8bdb1344a4d8fb4a58e49b7550d3759b851406e6888; 0xf12335cdc9a77c732c593effbf0cb23b12c3d906ff94eb9e313d67e06070fc7d7098a9794e8c66a0d0; 0x42c39b36c9e9ce376bf745680ab311dede44f2cc24fc590f13616e2651a324b92023a565e3a5c8e4e0; 0x1301388d148b3bd4d869076dfe8bd460facdedbe7b7077c0073f88764435b9218c0673b2ad509926b55a; 0x77362bc491f8cc9d425c8bf4b1254704103328440aa31f6c007a9261d5030afff051da339a0e8382ac0; 0x3a23ebaf9b442ad6d7fd9b69b03555162b7678b75a6073ccfad4a274f1199f7d85c1393e4067acfcb0b; 0x7cbf7d26fe62853e129f05c2f826602ffbf3ccf9e15378e7717216e443cdf5a25fb372066236190624; 0x47047c8f3be77666578cedc85d35bd0389b2420dc298fb9cf7679dbb55f6af2aa9853113eb602ea779e; 0x1209973d9d913ec54732cd8fbd31f11b69364cda638def3c0d544a59b84b3c3fe028c0b6f1cd1346431a; 0x4f6a886cc5f9509fd85acf95a1add18640a75c72f110c0512fcba12dbdb653b49074538f396b645a754; 0xeeed74cd4a32d8c527e160ecc11e612106072eaa46d40d93ed637b7f38d8a5a31bc79692e7202ce43b0; 0x6f580ddf7762e5a12d5d419c6715070609b91edf756158f0af737459200abadd752b323e3a164d79d6a; 0xd196790f5018fba31f0bb9905cfc60a3122296dc916308d197e68b1b2a92f50fe2271e297a55bcf9ed9; 0x34306008520b306e7de993c656d3c7aa0351e970ca01e472e797c23ddc4b240b5b3faf0c55fd7f42f7a; 0xb208a0e598c5521cecba1bb99ce5edecde44c19d69d572caf255e7b9047da1bcdec9314a363fcc24990; 0x1b5306251d1baa48fdcf94e75a44060f773ac36e78ffa3ceacda40e868943eb56941e6064e5f4294b34; 0xd3838a5d3843a6b957fb4fec6a2490f9639dcf340cec20c540c189044d97c1a4416f5c2d4181fa8d925; 0x8d13dfc0160b0b36ec0d66097e82b3e88cc6681bb7d90b14e8e2ec425ff4c7dec4cf4d3aaaaad568b5b; 0x443952bc313858da508479ada5b7b2c9ebeba9e772a2648dd163ef5ccb3c96eeac759f7087c58e95b5c; 0x905089f052f8d06622d58b9832c26ab91aed4b7f414a31635fc217ff309238cc502f85e4c6a692eb99; 0xbc4a8c8a4094ae063d62d4a2f1d47e72a82d8e8fb7737c53b070ca4bcbc77eb2d5a31eb0d2c7d5a8ee3; 0xa1187b3ca7af071e487a10bfda473003bb82342349b36a1bed40e935c019b5caee7683db3a3fe333e0c; 0x6a0fd5847b2b241dcbc90f52a6e2a2067406f939e76ee8fe1af66820298794857e66eb2c2fd92e879f7; 0xc4341415720c6120685d6ac520b0133bb2ee29acab077793017b8005aec29aa0d74eba82a20bdf26271; 0xb27ae6c32fa27526232db35de7100e0ba6dae11d883c18f714b2c7f01b67be327606d40324a1ef2f94e; 0x3c56a9c651b733bf2c8c534ce2dfaa9b1188ef04af16258780c9bd6a481c667373a6cdb16b61211c715; 0x51a6ab8f2418708e56f823484d1249571babe98cc6b256167565232cd13e7d69c45ef9ba62df6b44d1e; 0x8589c7b5c943cb60a92b111f96ce4489a8c816bd0b61e4f9c7fd5fa460e16beae51eaa8543a4a054c2; 0xa34b48cfa2008b6d1ce6fe520755398cab4fee6500552aba8e7c077e70fc812dff9feccbf78c3092481; 0xa7e20329699a5da5c325faa07f024ff05b399fbd8a7f3e2395c775c8de04159e5f066078e4670f5f968; 0xb8101e27dbbbeb546b59f1bffe5505f05bc1fa6d403dbe395136b754580484e71a7c4f934c59b4da0f0; 0x9dc41c211d3eea7f94c7336c4d1231c3803155b274ddd12cb4cc94dcd9a9495e156c49de3b31d729c1a; 0xe400db0a51fdb162c2b3a3839eed37da3afcff21fb410c87ffef7c2fcfc4d7be939c0259b7f10e94556; 0xe5f9be306e9acf8d15a669909453d6773535ebee4c2790b974631a21b6e8cbe342f03b191a571e429db; 0x65f5dbbce7ec138aa058c889e57e329f278433d04e58b212812abd60bbf344fafda7c5f951b2f40984e; 0x4835aa9a34db9b83e0df1bccd8ee5958ee7c6d9695e768b5d4b8d1d57e4540bf1903331531d7a2de5d1; 0x110c2e72008dd2b990f5a16c4c511f656ed9b4c457e8732a8aa0e3a2c1fb4710fe673d716ab0e2a5a97; 0x2a3e11353e274c60da10b2c24e5f804e01395993563859b169575796197b68d140f6180dd206e48871; 0x2c2c44a1377a38be13251694f6f58263ed60db98926665e4baf69a5b0221af220582b45ac3d3f9d334; 0xcbb8345941071b1fd81c8b889f755d6721618237ba8fe9c694338916478700c495dbdfd230588b8fb6d; 0x9d588f871902b46a50c21c1b1da82f72d433d9e3013558e42958674c6b4d51ef627c5df6f64daaa79d1; 0x3c9ce018ab0abac804cb43ec08a151f6064a9a79b166ac52623701f4212e511b3f3d42b2df6537948b3; 0x1285cc7939393e39353ee8849bb971ef209dff60fcd9c2d5645c774d5566396baeef034694003f787c25; 0xcb682d4593bc1002e71b68392929e23c9e7932732b5486d5d316134769a58892ed993f084cb3f149c9f; 0xb8d68299c9938f32c65e4e27057267e6598e467f0ef4f67e70f39b3700f02959c2841f57e2e777114b5]);
    (312289%positive, 0x8c4b143ffa7696db840bfe9c8cea5e54973905c4db20462ebeff1981723afdc7c0f181ee1a374427651, 0x201a6389fee4c9a281e1ba85734371f0859a37f04e5eea4869b73e24562388c3e12b9a43051d6b347b18, 0x8071b10964d2025468aad8cd112bd0b2fe323be33084201e26c7acbaffdd52137946a4ff0187c8bc24f, [0x2314fdf5eb5dd7cb80f428068998d20fc83530869d67564904d47f6b3b9b8e9c09f04acf3119b4844a9; 0x162525ba26d18daa4caa2d8973f6dd47fc132109f521e1c61187ce9a8e36883db2f035aec8fcb7156fed; 0x1bd4e49ec8143d93ee19d12b7177ea44be3cefe483fcfd07a7fe683feaade31e1f3214fd29be2b1edaf8; 0x58e4d9347a5a6630671638114a0b6b061344830c1649031b65822376a3d091d061c34773a93c62d884e; 0x2c51606b236f4594c3d4b62e7d4cefbcbfddf6bcc096d6b20e4757a7d245faed1fb7db15a714e810e46; 0x552ebff338628e58fc7466f8344194b7b73c4af721c304ae7d4904f86f7ab80cfecddb988a340a275d9; 0x1d862850226505a4aa984e4670bb2eb15655826078cc314b331350540155d4464be0eebccadf5bdcbadf; 0x1852d8e32deb86d0e43ad60cbd1d3fff434d4b5d69da5a699d13b2bd44aa85bd18cddb28ad0044570a59; 0x85f6a9a16d43a3f8201a3c8a866c16c5973654771b6f8aacd5a61b410ae5e3a8922175578ae6fd3; 0xf995d183664a6c192d68c579e5dedd26a59e925a5e56d20eee0fcc278be66f4dba7da088db6876c4f0d; 0x8f7f81e54a879c8a6230c6bd08445b8947fd876278abb468f787e5981f58cd2d75aa69361a15d69f448; 0x8bef702d934fb58fa87f3f0fe27c77c1566caefcb932fb5602b332a09a0787f1ba229bd11b2f123f64d; 0x4ffa20c9ef9930c1f0363267c4e5cb2beb7bbeaeb8367ab3a3d0f38c9f934434802e93ba2d9a7fbfe25; 0x4cb2c6cc027447f02a526b8f9d2fa895a9d28314168eac94611a07fa935c028b86adcacb382408c61c0; 0x8c2217cf0665095ca93b937dc326d48a04b4d12dc17e6e56b6d1f05e27a7ade14b17ef337e2560e29c6; 0x3da08fd82e3e0a1a36594278a0a85b31268567ae243575556d977171b74809cba6db0ce9f6cb931cf8c; 0x3928018791bcd1f5631c7feb592e8d94e5154251d9a00a894f95501cc43f568d7c5010afcfdb7c756b9; 0xf8e12618a1b122ce6d608eca9561ebdaf68cd59e2a8ddfab4f9304ce396bfe074243bff4f81d2571b1; 0x109e2997b2b602d7dfbf972518a3ed69678191a9332736e7d0b9e37c55bc360c04c3cc32bb3d7cebcb79; 0x299a9fe0bef59cd324c6385526b03abcc38c7bc98da1925760cecc13c69f306154f81f9855da90ef070; 0x228af0c22b850aadab4d41e132431a20aec1f521627806bb8133bbdbab01f3937b4fff8545839743744f; 0x953d018de40b04c1e65802c0cab5a3cd44c8c340f0743a3492cac6889ded36fd31b99b32c6fa65087c; 0x3e60cef32376059d4c28e0828e37ded50324db7f2d1517e9c07a81cce6bf6aa035222756b5f8f1c8810; 0x25a9c332f2ca3480570ead50d7d2bc9b5f76e90816fcb32eb042f3886dd3cee4446f98ccded211282; 0x410bdab4720a30b96710ab02797c445e5fbc067e49f3c51325d6600506baf5bcf0b0164c94b18892cf5; 0x1ea5f043f379d07ccc8ca97a8a3b7a4a4518074554644cfbcf607c64398666fb8bfcf383d9bdf685dce]);
    (38557%positive, 0x21836f290832d9d1b638da80ec9a5a0666682d76f9c05799a80f639c477afcbed174360207d65992aee5, 0x12e8a86c0eef7c7c3cec3dd6c56e40a471f91ad03f40cac491dc1af1eb7c537a8772720aa81cfaf2f7ac, 0x12128308c0b00e721133530f79585b57afaad0144ad0ee14929976ea971b9d58bba9d33e11c54c71b8ff, [0x2007e3681b01b0ea16de3ea06d7ab707daab5980f771e7ac582c60d1b933dee80ccc1208aa2adbb0451c; 0xec4b76a3b538d15dff0e33512d1b21f74ba796969189559d7afe947bc7aa88325dd76170dbceb16a57a; 0x2df48a44a71b7081978c4456aeb849b455353ba40560edab13c60d768656aac09de66d71ff0d72888ed; 0x4bd666d27ada0e8ce9116831f96681ba21ec10392269378019ec204acca3cc9d0798b689f5ee12fc6fe; 0x19326562c02c386aecf5ac0240594f5ad08e7d7267ec264b68cd7517ef1220c89294f31c9dcb7f56f960; 0x2fe2a46dd87a1edbad6dc86ad7917d5f7cf4df8e35994c5c3c5fafbca3b1f8a82387a73599169149da0; 0x879ea354a55158d70f530d226afb3182902017c65a04a408790bff62b4065b60456bec493ab3f908786; 0x20858fd849646864b97b07fe6a19afe4b9a93045c2097543df3b206e8b26a3da0d6f2211e8f764a0faee; 0x1bb694ccb6d1255782cc427db127303ac523f2d4707e8a425cbb7d5e353120092bf50fb58c036eee6561; 0x769af76cd4250ba0e445a12eb388301f7ce3215c316015f41fc3370574afc73b2c0d47f88c649c67066; 0x81cb6b4a17f2195a1ff7dd4d0278f14614bf5408640c1a6a5da0e1dcf6790d77f589d79d6ac5391fb3a; 0x14e10a06e07a3b3a84ef3f3535ebb7a6b37a520958c9522cfe209399f5302a9c67fbbfa21504539eccc6; 0xa48e55942481401a59dfd39e8c5a13820651ce29c9bcfd8879fddae46c44b10c556758af7ef5b7f437; 0x4915cbdfadf680fea34b382f5ee26316c93896f35eb8db7bd398510fcee30090c78d40909fbba3847ba; 0x86b6179cb36440d68bc3a2b68106cc029d56c97873b8855614335b9b4d0358b7939019eb0030f0c20fe; 0x3e8ef9b9971914b1c02cdafb358a03309313a92458a115d19dd28c2ce1986ee0f24b9b5baaf865d615a; 0x1c7f2db255644c5f9dbe85b7f76d9648c661833d9b9a5872c6facbc7aed1a9e91c498837e2da0115e2fb; 0xe72625dffa4d66d63b2356f98380f90ee00ab1e256b7580b907c4d9377d66e523b6ca413bb6396e5f42; 0x70a9683720c4c20f832811ec06a3c9e109deedf5aeea2c7d3525f34105ff6be247f316b2524eff1e7d2; 0x1446b539d3b68d04e8a4b534bac2fec304502660c5ccba9af52b37c6b4232881bdc6f49dd5248a497415; 0xbffd4767e89babb6a69374b1b31a6ca1dc6861743a4e816a0225d9a63c0bc0efb5b997a839711e3d32e; 0xef199d9405b87aa10ee6719f50884932b4560dca4ee2aea8bd840bb58c8ba85f523e0ae91d84c2ba351; 0xcb24042ac7ce022c7e74b9ccdbfca8baa686689ae0c7fa166d51c5d7505fbba5edec98f2867dc00f0e]);
    (8389%positive, 0x222fa3970ccdc5421d5d0bdcef1b15c529b6d360ca7337b3152e2837b5f1ae2023a8b9c11d3e42583983, 0x21f03ce509f69662c369b3402e7d4dd1164a7fb6103f6af838ff7d1033acd67ad786bedc9fac9ac56797, 0x21168d700d2b17adab997df09fc3c8235f481466fcaccaf744df7cdcac73d5f8e3cb23c9b45fefe5f31d, [0x21545d78543448df61c216ee9ffbca8be3c0adc75e5c140d895d674a8d5777dbc8229cd640c539bc841c; 0x867e7646889df068f3f67e02e76be0f600601701e6eb4d72ae01457d05be906e954801c0457fc1d5c06; 0x4e9828d532476882f9c57e74728f45a0bb25c51314d0c00c243bd95ade589e32db28699447ad98f18f9; 0x6480add61fa1643d046eec7b05caf98b08c2433334134d21d87b4b773ca6e36762b913145035ba49866; 0x1e981d9b82bc9caf09c2562a43f7e9b5ef75cbca802cc1e7e1ac2f457452d4451afa5c3607717618286e; 0x1b76634eee3f1c188fe7fa14a46c9af5c131b0456bf0989f00a02ac1817ebdc66fc25dec5c3fecb59cca; 0x16069881ca386390f578b2cfbdc36b5985013781c391bb2e61d9aa0ccbf92f7498a2171cfca40be65555; 0xf924c2111af1156a44785c93ea0efc8a753e9f30deb09e632bae18f4d3bcc8e8ca7c4ba7d3ed5e78a71; 0x1dc4ee34dfb680c296106242b7d09f35071a56d6df99eb377bb93d9eb77a4da4b3caa5a769a441731cd0; 0x597d7f767a743314ba7e1f32b6868627ba178bb751cb51f8cc784ab6ace08d910e77be0f7633a549a9; 0x838f34a088de7475217fbaf3695033c26bc6b8f493792175e5b8b4748e80ad207d5be0da5f3ce7e9a11; 0x4c205eb6d6b844eb7a032b15b8d7e006512c40c069c0c8477fb6fc8138b428592047d0bf879cea6b3d9; 0x1b57dfc2c3ef74a4caabbe9bef84d7e34410a411467e10c39784cfac378c4f18315e0f3f52b96994760; 0x172326e5a76a6f231b9387c1f28af74064951ed60d0810677a36a10bef12e8078784163a7ae8ecdf9038; 0x36b6f5b7123a56052fd3ad107731155df973b491d647561dc3760cd3b8d7970adaf48f5c18031a78ea2; 0x1482bc366d5fa588a7e0adbc22550f32af713dbf72c13a2f5d86c71e54cbe44580f1c0c43d750cceaabb; 0x1a2923ddc1f3ace58f88e228ed3c541136b824423b65328ef5d111004b8fe9fa68d70672357d75761661])]).
  - intros q. reflexivity.
  - cbn [map pc_q]. apply Forall_cons; [exact prime_69_440593|]. apply Forall_cons; [exact prime_1357291859799823621|]. apply Forall_cons; [exact prime_312289|]. apply Forall_cons; [exact prime_38557|]. apply Forall_cons; [exact prime_8389|]. apply Forall_nil.
  - vm_compute. reflexivity.
Qed.
Lemma prime_384_112319 : prime (2 ^ 384 - 2 ^ 128 - 2 ^ 96 + 2 ^ 32 - 1).
Proof.
  apply (pocklington _ (fun q => Z.shiftl q 384 - Z.shiftl q 128 - Z.shiftl q 96 + Z.shiftl q 32 - q) [(19173790298027098165721053155794528970226934547887232785722672956982046098136719667167519737147526097%positive, 0x85c53119b9b248f2347795dd822483d348932e7b61d2aae93e5394fdcec98fc38fa82227982ea38e458ad625d2706fcd, 0xbee9087bb8daf2a63d4170ccd09fbb036323d186069ddc422019a92579f90d5d9abf2cd7419800e75fc95c24019c068d, 0x63c21f59981bde9385fdbd43ca471140c80851288616217359faee5bfc695b5e2b25fbdcce473904da9f193d8923a4a5, [0x45e67ce955f5e7dbfabb22c06c4d3dd2e175bfea3282ea28f84129395367f960a9de8d34ce5496b867188be7fa46c011; 0x6b972e310b4301a8729b1bc1b7244fe3187ec2fecee1785911fe6b925bbeab7da2413c3a09a61459891554dcd88ff6ab; 0x6af92cef1f6bc2e1f5d04e06113a5ab2214d1e4204b9c04a6b5980c460620aa412e587ce8fc969d7fc91e494e4afafda; 0xb45ff1ce6b80f620cf1950592e109c3bbe61993b97c65cb06b56ddeb69371aac4a44bbb4c10dac22832b75c69d8cb43b; 0x3fc5a28d386405318da3ae224f8014556d55cdf500e463cc8dca371387de9a08cad547becf8bf90d2aaa27425a85898d; 0xe20b4b9b3afef91e2fbfc047c4e94c538fb6ddd1133c1f9558a928ffbff0dd9d9b6801f7cc23c9547d379141cd758ba; 0x51c39c4a5f9d60773f2dcab0d891e63affbdd9d3721db7ee48e1c0938a5ead7ab1a6f807a8fe132aaf010f51b282b443; 0x2330b720d3ea2687d2a2c5e48255afaf8f6c2840b21c874437141e70cc73bd914e2c1f1594223481686d48f2efacfa76; 0x2b869bca70dbb620fa96b1e1a14f9f914b28ba91d8ce8586986221f1fd79026ed4a9baf6deeb281231899ec62108c89a; 0x25dc9c7bb9c45656e13b09a755c53a5c3427b2285825d27ca7b56c8204185871102de98c8d47e7607c20b594dc84f451; 0x4ce01bf04152b27f81c292c2ec38666a0865894dd4f067f55c6c4cb17de6bfb5ecc3372a6df081fef5a0a826a5b31481; 0x66882bafab4b11fd95a0e6f2e3fae1049e801e37c23671306fdaacfa15cd1ee413b6bd9aa7e922eddf3ffa24efffb267; 0x18e2cb9a3da041be09bb410a71b57f9325e5faf6fc9d8c82b53828d510ea2bb9e1dcebe05ba5752d1f0b3995fc8d2ee9; 0xa43b84c6774e89b17df16a9e668ecea230547b84d650f0c5f1817cc21e071280b7126059bcd8d7bb2c963c40139cecb; 0xbc435857b6c0da3d7c10cd5abfb96f58ca0532194bdc9bc18bf385cdfa20797f2b996c3d9cbdb03a2d72b5efe0aa3e4a; 0x62bec01b5cf2a84f1dc0f23597ffeaaf6c41e3d937fcb65366bd917fa9c0bb138e5e3c6df57fbb7959b776fdf59a38a; 0x961ba3b49307f3e8328a85a3be2205d55bff9723abc910e60cb0680aed903d97b17584327a8bd3b664019ebc73210378; 0x27cb2a47015c8437de46e8bbafe06beb8ce0ddc47e3e3412862e9c664cae6a6e39a190a16adb28c8e61e4b781846e5f; 0x1736f921b691e6930e79462d4335a7ec01d39186196c12e8945521ffc90924b3747ff1d82a141c31a9516dcda9762d0; 0x9cc6aa6151409bc76f9a32a6d96fba032d016581436fbf807866f622a14d711c427eee9ffe5da056c3ab703e48080a80; 0x3aee5713d4731ea13aa9e76a7f306ea1cd56bc99d60dafe0e6da326235a94cf77de786387b6291661e5b670d44cd5b31; 0x3378ff736fece25432ec89e08fd50150705d2a401da8d2c7c096ec21bc9bb5e5f936f060bcc9f785645de34b6b8adb5; 0x4e709e815fac222308085ef21ea6ba1c5d284e147d6a05b05acb47a93141e43830e9718727a940e09a479cbbdcb7563; 0xbbd11dfd5a29450844c454a7819e001abce609d2dacc2f96eff27bbfa9bef65d4a366ecf52d8031217563702f0f1390f; 0x6a016b48d9c25bdfbb73baf60fbe61f6495aacabd754e1961743b5106205c2d1561f32c78e0594ddda77b07ea52ee218; 0x9b73927c0425464f98213fe13565c40717287dda7b1fbfcc08fc0ee01b7614949c0eb545ecc5f97dde100428d044caa; 0x184002d50575357999cb0de0d5af62d811a0fd6eba6c6ac299844527a6c0a51fc0c2f391f01faa102b3b0c7cadd19a6; 0x65cd71805d22581c78dd19e84fb04209742673c0bc7a2fd59d50ea71b16d10bffc66909bf83aaecbfa5674c1d458f9ff; 0x17ed35b7ff260c383b9d46f7c6cde222e68ea4c995f035121154e3113b6bfd97c2c189c54b61e3260037c39da54bab7b; 0x37fbf5967720002d9183ff2235513ae299c7133f42e503fe5e7c2715a29d2f15c9a4c4b009be665b1e257ed8e3d9dac; 0x1f52c9df14228bcfca900c1cf7ab3f6bb9c46d2450cd8d7cae01e6bed4fa9b7b9a244d841257d0d1b359b40abdda62af; 0xf025fa11ba6356ebbc343e6f92e8df44a16be53561100b761c2beaac966e8f2610facbc607c072a186c119cb0f59fd1b; 0x3c502a5f89eda76c485b2ec2e56c583a3700209a80bfb7d5bd902a67f24fb3be75f237a0b8c4e000a015a45a730321; 0xfd3952ddde913006300c6120302731258dc8c733c48f98e8e951d391efa24610e92c1ad2eaa96f599c94f2280351dec; 0x599f02bd7be0c0851d2cfc2e917f7e01bcf9995d2128ec559b982da975734cf3073af6278a5b799959443bf4ccca0848; 0x823d6975f6c9ba30499fdd7d62d46178d088af068a20326b97fabdbcd765ea30472012472a0c5ca35987287de3506f24; 0x2d890ed92e784e31fe136efa7650ac04adade60e44ea3b597362b0cd6b6690bb57adef4d6449ad7d4c52180ec36122e7; 0x5a13dbcb32875eb469cf8eae18e5508012e3950931288f12659cf7788d18d53b324ddb46b8279a3f91beab14175973b2; 0xa4f5f5342e155a50efbe5c2b93a4a2523413664337f531b666f6aab3c3201be13a6b6d7fd96f9e3fb4d0f3e285beb704; 0xb0cb2506f21de0a0098b1127467f1b0bfcd515d5586ce314e0dfa04a850d3d34b6a0f6a9d35cf46fdf996bcab1de568; 0x306bd8841242b70d71a645cda6c6c3407ee3d4bbb195853a1c6edfa21cd690ceb42974c352132c93de7f63e44731dd; 0xbffd6dc462aedad7c118a9c7a372db607a8b7f7a434dc4e44506e33d789128a46319bafa6c797f054caa7c8c5f090aae; 0xb432cc1d1f313af9d1ef0b8e12248afefdbd910d404e3cb5d02fec40eb33755c2ceab670b8bbab98f989124d90bfd2; 0x6e017151b3a2865f004cfcf832972ae25efa498b2d6baf7e5c53d3a1e69759bc9a92eac3d52b0e985e93e00e6d0342a5; 0x90f6dcb84f99a12819a22481c097b59c0bb45c6b5a65f184aeaed3f7b7b26e3f0a1dc39e2c901372bf1694300febd9b; 0x696b78b63d59eb8f005a888ad80e3415065d76e93e83a595e781ab2facf0ace314f8173503155aa31116616b713a43a5; 0x7782f2c034181a11b3dd330acb829905a0f9899b53908db3b6da39a146745e4909e9060426ba7508e2eb39ed3fa588c1; 0x1b9aa33ade62d28ff4ec2a7cde1a48c2248a46d38c9d780a16404977f202dbf51ee1aadf7bd5feb29ebb8b8f7a96f3ed; 0x7863e60dfa0b9232d3e0a19a8096ec31aa1804b5172c21e6a85dc216d97c56bda87a57f8f03567e6f15d0014b94d3f00; 0x13b66db7029ebad06affcd69ae172132d55caf11578e269b83ed6eed3ce7d8452dc322e3d1517ccd70e97ecc9aaf2a7c; 0x15a665ecbf7fe0195d28522ad4202b577f7b515d61a0db84bfeac20b01acf0ab058a451e9ae4a29cbbe714c23577ac3d; 0x927db62b9d19dfebea6969ad7203ccbc38ba787b558fb26d4d8aa1f8c11b8ca6f3e2c8d48117ad427d60b99e3ed0fd7; 0xd051b7e30c454fb8406d24065d4148b1cf2fa0fca8597a91fdfd97f5138a9bc6980578f8f2fcf6db36e0fba8c11f7048; 0x1a7475327920fd5331007149e021f8c13cd9459bee1a0b4cc8c2762e1dc7a8bfa54a417b4232d8b89eaf684747e25ede; 0x6d469ca578a5c3e1efba336fa333702e840a1d94f494362596cbdc12312c9c1d01fc732164f9df33415f168da03a5773; 0xf7ab3fa84b812192f035ff6b18efa99d8ce9f98508a98838f1c2a2528bd83a26a9c7147a106e5b565bc2473415be6009; 0x894fab5f48feb5dd68bc7a5812596c4502e8b2e40c4288e061c952436f061c4b85b569cbe59aa2e413f0f0345f28e100; 0x8aced725cc85eb038fe6c2236bcc8b3b472e36c5f29f54a73eacf67339760217602364b46bc2c93af5c07912f46be0f3; 0x26394098a1d514476a9a165b94afab76d60bb839aa44285a0bc93f8970b00f6b599d5692a219709d7b10b0f5d3af338d; 0x1dd8afb8a73bd05ef2a019f6059fd1345c83dbbeca7c6867930bbe4ae6094c23929202841f69fba71835e3deef48bfc0; 0x27d7d469b4e2790c908b2b6bf850cb5c804b04da33d79c6d6b73cfe2d988ccd09824d0c243ea1ac832e435ce66db9590; 0x66401e893da14e1eef65be4c07ee5c20d4c0eb5b12be6d60053fc761ff0c792ca3392199206e2c179fbbbc0b5c47dde0; 0x4cb49ec116307bee2e90ce9450be337098c6bc799efa51a8ba90806007aed32c7b17da787118b6fe63fa308895012da7; 0x72f36af6d69d00bd2840a4f05bd0a19c720ebdd6530a13e6431aec9707c82dc0d99709cc1588bdf830ed56f59f65a5a; 0xdeaea64fdf1cc8498723213f978f8d1671f556ea4dc6c7e99aa4f0439e6c6e38a81fdf887f35ecba9a0309183210baf7; 0x67360edc4b3afc89e23666d68d9cf0571649554c8a18ce2ef032f1d597a6823dbd6052a5e9c9407b76555f4ba96afa5; 0xc07dc332aa921e7dc59dad47accb6837ec54e1886e9c7caf4cb5fc0be0ddd120461afb9cd70c6d716c12188a4f87262; 0x693828748091840abed930a379e7639a6c866dcf60785de6ea7376c137ad6daf3a57ec1ea20f448ae74667fecd69da4f; 0x7651cc10f53271d533ba8719034dd0b1cdec99582359742c6945f0e1378c8723d284e22a0d79f08385f4e46732c2b11d; 0x25e8c12944d80cfc4db899585747a2c5d257f331299f7f046e54bc2a786405dfd78ef52ffe24b6f30c612c92952b8483; 0x2c8037be8b4886b3d8ef0410cbbb4c8d0d38011fb1347e542b3e54616d48a3daa1c63de9dd7caece9689871c1efff01c; 0x72c6dd90e040023b5858fee45972e4cffcaf23b7fdf91d599e71ae7ba8dca4bfbc049f3a099e6b06c4b5670c7b0bd165; 0x721241ceaf4ce36786dec65b7e45fb324d0dcd0fcc5a98e779555a8aeee79c89642f029261a4b52cb750b9c93c135f; 0x819f011c5bc68eb4a09bbb99e7c39030419ef72a92daffd377157e61fa8ab2a8fb466a4b739c7b43194fc8697133f36; 0x67fd6c1dd846d8369dd8dc8b97fbaf60ce048d0c53c898a3869f32f7d9aa6f2ea216447e8b32dd5db9682f51d846efb6; 0x33e181fec52699a5425daa5649e6df9870b6215acafb57dfe474dde3cf3bde31eb2345f44f7ffd35bd6ee1210d46083; 0x38d8e6bc889081f145a68354e4e33ad88e1d757f2fe4abfcdf7a6974dc933a87239a689838124fdab4c074a6d9c9eaee; 0x8278223fc0def8fd7688e7bc19163bc96814de69f0b81d1bd2cebc72098f6f1c00de21c757265098fef4559dd6e37e30; 0x40a241a4a13153818f2c63c337bbe55d3ff2ecf1eb5474171e7147cfb1ee10467b0c79300b5bc2c47948b6d2323f56ef; 0xc88aecd3905492452901b31d2771614485a6d3b0840939cef4d92e64d0f7888e7c7d795a205a1cf9e27c1f6bb023cd62; 0x128b0586674bdc06eb2b6804204c42f24c21ce388175c97d07283c859a3843215ce65add877149a20a4372bd493712fa; 0xe744f8c9b4dcb0e30004538f5126569a1dda7399a9747cae29cf2465a3b3e19088100cf58412163d0f5f69e0789edccc; 0x3e75a5071b4e9c668081d8cb7167c4e65180796b90404ded4dd461c7583f6908d9f92f28bde41d3426d5bbcdd5078bd; 0xb92cba7a9d92f8509e978191fbc6c2bc2e2fa973d6771033c79ab3f15c6a08bf3f8ce1a6dd52a9434dbd607eeb9e417b; 0xa79f43a8e0c433e467c85667e13be042c2b18dade3407b49d96ce612e376128f5865dc89582887598bf6bbc652ed668b; 0xbef1cc4f9d1b5bf5c04e34b03b131241a6e1e53757f32c720be74e4d1d229849841bdfc5a3393e692e1ee3cb7901ac45; 0x89d9f4798e661069de16c6b2e6149bb4c850cdd6b69818de03069437f95286cf6f11c1212a2945247d554749bdb0096f; 0xe9956ffe57712704537e66f1ef58ab750812a28a13a1cb1a961e72ede12b548616151a2a24ea3730a419136fb922dbd8; 0x4ee9e4af5f29bed8b40a33570a48be93b1aad1c9ce2d4d5d1ca315fd1f2bcdd4791c9d1ff4831d94fd72d78e9490b54d; 0x139ae785c9b2464bf7f18909a85b345f5539ed92f463852446e4ec4cf6d00ae172293bf161b3e9112f541ba5f9140319; 0x6c0eb1d061f0e77ff4eb725f8cddef9ac0024c54af63f14d59d97752e210d02920dd33ae5ed9a130ea1d0bf419050e8; 0x1a8e9e98a504229bbbbd99d1fd7677ff0dbabc637ae0fba0887721da71ce82e62edf515912511c6e56653168ea1d6ce1; 0x8c5957faec3eecd84774c51af858901a9e07ab9b5208ef56966aab25fea3246a48f5c581d1c0ecd9c48a7dec6e230d10; 0x69b99295b94c5a1eb4a80e09021da4e5b599a43ef661312396b74bd244a334d17467ec806c35a79bf3e51a57cc180de1; 0x6ad7133da61afcbbdaca019145d0f71f23a1a321355e1b75e4674be1e555f877fa5cac0895ab50302eca39491c405a32; 0xea58b840816a69aca2f105991443c4ea2f3c6db931490c7bf172857d1185fcede3053740488d39f5a973d3115a30f45; 0x2e2a0431b44feb3cb4bfe5964dc63081e32140097aa1dca912f4071828b9549490a5d96009663feed3aa18d76cb92eab; 0xf830c603bb1f9bebc925f735c1dabe9cbb808bc0009e20a16bdda67b8fd05d6958d20dcfe008e69a5d5e3b109daf0212; 0x529b27fc6e0ecf74082709f41b3ab5d23d1bd15bce894c110e40455c168dbb0d800ccb16264c9d2d9fa290000268697; 0x130dd9f4bd7c7fa93e85d0bccb3f7f3ffa84deec26e55fea767d5bfbb46cef12a88ff9036789b1c4aad3185ef846c080; 0xbf63d42cb53c74f343b1883d725cca7e3a38549a1cee7c0f521e76c39aac3114c7b1e1d83e4c05479e766f6313a792eb; 0x2b4bf7147c21e8a10b041a85cac6db3aa6b0b6fec7a88e10bb47b01cb9544912ee9a29e7bc59b42bc6934f04c31c950c; 0x13949d2f53b03686d931d1f284b0000d5ecdc33824f24b839222c31862d2b961c7d780ebfd0a03d322bda247d1d57f9a; 0x42a6f3a855fe2e023ed3acf72952b4a814eff703b050f5ef89f2435bcbea33dc60b5c9353312e9b3d952209cf2976462; 0x5557f978a796bc10aa0bd1c1efc7b51e892088253886338a75912be7a33e2c9e0a5ae3252659693b9f0e07c19dabc70d; 0x6b6c05fb7ed8bb3dd652fa2f285e53b7558b75418ce7846f75daaf74033500ed55c5dbe25860ee32991c0c764091c42e; 0x4fe329b19c5e9dbc7289587439761b299fb2afc9457400b53fc5b1aacffa0cd34220fb8d714503cb9a815359dfacf6f5; 0x5adb48446bd732ef8311ef749d4da26bf9f2b216916edc716f1bd93f077ab2983832354f1029f109768fcfa3b9c707f; 0x10e618aa455bfc4dedf993a2c9f2c605c1b8c3f6c02bd80c4dfcfc055d8078107b027f34bba99b1a92def604a0fe999f; 0xc41abef518c2fc67252eeaf4bea2721ccbd518c059f1ae346b936902aca9a2126fc667182c5b686d61aa823bec0346a; 0x7242d855f4512dd44a52c1a08e9efd0484cf3bb56e2d1ef3eee72f01b6bcbf3b01a89fcbacd87b97c26422378df9ec30; 0x4cb70301b8cf8bcb0d8e696124620fe47bc49fe8a5e3254ff122457e4a89343d1372a26fafb8daa834163729128d9f03; 0x11475ec4c71582b34addf5aed24cd36d8e61223c9c385ef5c450ac9f87061ac19f9084dea70d8bec244b53fdf9758487; 0x247b3007d9c678906792ff48374e757c6c87ab2317e7bcc672336c655037ce9bcf1f2c08e175ec4bfc34d4751ff6015e; 0x3255155b5782ce781c00fe9470434f7a0f9e0adcb3a6055164f2613fdedc8eccc9cfed9ea016326aca2bb1e6af598787; 0x41da07a26e203ff8eb00bd7e24e78898a9992b9afa89c937c2dd693920d01c397550425694c1d47df314dea99b901e1d; 0x48f02e9cf743473be0b53831592fb10ee9b4b4057432929500342773dd97ce2611ff322166af27489ef0dc03a6160de4; 0x979972bdffc2efe28451feae01dabffc4246968c352b9d4b8dc38e988d813751f398b0e514ee568184022b39bcdbe472; 0xb94583cfd51d48fbd48dcf04a81578e402a748da87f752600e5d94fdda924b9aa6469aa4ddc922a0b7325bddcfc88b44; 0x9f3a0593d2c90442965f57fff13e3bdf99fd98b8f0f09430388eeed46677c00173729d61a0379e335c52a85b0dc3b539; 0x696c40171cbcbaed84d5dce2ae072c7b556816bd8b5fefaeb3795eaf6faf0b1bcf421fea5191c555e309bc63d2bf9c4; 0x5480d6e7d6fbf652d64df4b4b1c8526aa7f2a412520b9a9c8a86608fe53a67aed9fae846948694fc3b68459e9c654033; 0x59bd8f75d889bac27c31cb108456891ba75d4759408327f0e57500145b209dd4d1ce676ab0a985f37edc125058c8580c; 0x139f693081f4ab542493bcb89bf5410877dda08618560501e5e7248f62b1c44204e6004c77cb4bcd01358afb9b28362c; 0x527a3be4a1c5762b0bbaa0e7150b891a71f4c5760024923066a7f2bbfad2cd7865303902af229fc92351d0cab4a08fcc; 0x6c3acc86b51eb18deff41b06e724872ca8fcf493371c7084f62c7ccb23567f65dc68ca9858bd16fed48121518134f4da; 0x25611f5ad61c1fc0779fae92860abae2dccf54e7fb26817ccac98ff9dfe0372f21bc91776cf02611cda97d564bceb370; 0xcd60395319680879486d0df12efd12f7da3f1bf25d7591c71ffb38a55f3fa7ac73920c9135cda9bd74f429cf4c9d9b43; 0x44f5bd755355df07c5bb5d52213a30ed6f9f17e7d86b8b7e9661c3fb0bca09cce91b0a41324ffda13875ef70337cce85; 0x6d662b5d74d4b5620871bf883da84270b64ea12260d4b31e9f9e28f940e24b99f53873445ec6b1c8ab19f34f87e3b5ce; 0x7555ea5fe074a1992659048288159c11b21e11d04273124fa4113db439f9d6a0e3c09e09e68aa1e4d5e35bcce7e9d2f7; 0x1f9f0e3794c01c6be13d442649ce29555c8456a84bb8d0e2cf269fb1396a49e4f1aa4f813f2753b8ca2c741950286c1d; 0x7ba21ed7e93f4afa2b6fca1c6ec5afd0951c5d10a61192967eb33b9edb37abd0adbb9d0f32a49374fe1acff2a7ce0688; 0xc31ff637d2b460285b0ecb80859dfa1f6d23d1cdaca1c51f71ce351341a9c898ec654921fe78e01c074edb962e311067; 0xe32cbd47a365f6604bcf35a8748cde484dd99e5313b1b7ec14932c3c029281ee18d5527435315f06572054debe5a62; 0xb82f70fb6973947037b60214e5d714f922658041ab3ca7814ccc457398074da72949f60ca43a61061e1c08a4c36735b6; 0xa1cc5bcbe5c8d32db35ab8d7cba35769153395934747d5511f2ebfb04bd1f4db3111c041ab9c2e5437beee520257d31; 0x142416c50ddc4376c1ba0f4bb64a054d47b5281fbab37d1ac81f1d147ee9a86f363e8e820c14f783e13b8e0ff29a8e1a; 0x62a6a1e37edfeebca676cc9ca9d78c7d6044c46faa3a8ab70c43f8a8de68b8726426d98e69360348c7ed67bd2db9769; 0x2a15224e8e7fa951a2a6f2adc5595fa2e53008cc53ab13150ff2364452030679a52ba377b0b8cb10f1ca57ec24237; 0x836ab7e734f7a387277a047e0232d1c8150c10ea2da6748003e1ed2185fcf354b1bf4a9a3324f83653a4521c1d400373; 0x8328ca3b8aaa157a92c6540ca3966b2e30f8397942b46f54780f09ac185a4376706f0bd7923d5b2bd5dc3c48cf4d8e1; 0x340d6ef2965e65661bb6c21a0acb2444ab81e714f959e9903c7ec20a0a9ea11d5163f3425781c448dab436ae7222ee31; 0x194ead81734962d3b140841a9beca41361d4a887caf5540853cb873a912e600724ff666875a00621c31a9ed616da5ef6; 0x83eae2b08d7a04c2c06438a0314057f7c14a710b31dd0d7066f03f7eb624dcd47ce0e8d421f71bd42a78dc6b1414971e; 0x6d3e9eb904912210d18237b661c76ac8719bfec74c5c2c2ecf5b896316acedc980ad844b9ff6f1901d3115391c5c78b1; 0x1f57c1efab99814815946345b380d286fa2e02632092b4e526b0da76f6baafc62276ef3b4b6c805f457bf2231e2cf47; 0xd9db25831c6f438e89f39a9b5bcb3283113f614b73234911538a5a496068524bb1509595226f1709211382052e53bef; 0x8d2033740bece6dc09b0dbcaf76c777bcd9fba49aa7b963df2b2ac4a33069c4df2f7b6312cc2b447260d84bc7ce22dce; 0x7fcfa6dbfb26ddc8613bc191b9458b5019b802ef3e3d8bca8f6e337441c56531a41dd45285617f93aa27b2d589c59b50; 0x789466aa5ac354dd92e7211a66b711c7633c7e6bd5a695920e0332c3aadee3d0211fed396fb0e0cad363c8131e1aa230; 0x1ab28fc85e8d489bfc7fe5cbe2f13374af14bc19b628bcb94fc8c8f31b4ea7e8dbc62d6d5853b9a4cc2369a6a06e60ce; 0xea533d8fdc3acbab61fe981034e84e5598c5dae1b779b401134c3ac4b69eec9a38c1b20d7808f08deeaf10f6b1a170a4; 0x59b67f33e70d2ecbf5aa63f82b1133fe99ed4ea40a4ef58b83284149a384f58dc501f24e5d2dc931f298a4eb41bc41; 0x41b726bcc524dc8ea86210030ee58dc7b60b886282baf5c47c60153a38fc27b2a8b9868f6e3e9a0532ff32956a9c5797; 0xb45386c6fe27ed6a9ecea7d800d484cd597d33356a721ce1eb85a62a09a3754ec7b44ad0ed397fad9fda909ab6f14fa; 0x7ee95d65a79588f160cb4d6a24746cad16991954dfdce375e053cf0b90562f9a25eb8c7d0851f48a768eb102eded6fc4; 0x67583e578bb871d4176e86d2aee3f6df16bf043cde01bc18400f65a89c7bd34985e471a0f521a76b1d858683e0fac750; 0x7afd82ddec579b9ed42f958b5a3187a4f540b9ae741f363894852d18d57e3a541389b98e8e67ea8debf5b231269a73ba; 0xfd2961e089ad8caaf78b6cc2aa887a4c8819a8c4c115eabdd2037a56b2d4378c6a02ed23fc1f6afd090238d51064ef; 0xb1198acb1850d91e74c29e6576dec9f75ca8579f503488ddfbd906b953f1cfe6fff755373707fdb853f0b8ac47a5619b; 0x466ccee3e16457e73e8fe0dd34c13704fb55e5f2a1ebea75cfeb25633ffcf348405e5d8ecb697211b07f58c69b44bbc6; 0x73df2ce1f514e0ccb9ec61347eb102862944f8231531e8879ad2ed9a8c0e5d39221c7b99594b5e1b169daaa7449eb175; 0x55a3224ebeaa39341f6b61b9f89cd1a8bc84808bb0da14b025a3689372ae7f55b60f8ac68adcb24b2b3d6b7b7a0888fe; 0x2ce1087a1e9bea04501bf539a0d176188b5feb520d270030c5b6180cc2686c7adc0fb92345d8b1f36ef1dbc75b6840d6; 0x18199a30e8d6a70fae4f0d28a9415ca9d692d0ff8a4a105a697d328549ce4f9bb90923af8f12a1070fe2736ceb61b669; 0x20210634ddfc4477fdd90e67832e57fb4e8507359617d0dd3750ff30e6fced3f6f6fa3d896c0ecb694de47332ae58c6c; 0x276dc221052d92bcb6f215339d7a52da98e4cfe1d7869ce1f58d7a53d66ec3086ec423cfd90c3e89da1f5aacb2709e83; 0x2b7b59a7d18c9bbf562bc623d7ef199d8a28ebef662ebb92ed996b21271d6725ceb703c21a61a5b817a25f039df3ecfd; 0x1c8607730e53e941855b4833dbc6d33e62d99a9d7f2df137111299c7c96b705f6efe251f1c768826dbd34a89a6282701; 0x5d8454be89e65c213faedda05d6fe811f9af2fb95d01e0705255dd91a14c330428362791310cfaac0964c739729be30d; 0x19aba17e694ff4c493c68a4504a41493618b8ee8f2c0f26042356891808f72c9fb3a1010a764b602b021890c9014e369; 0x6bcf1f02c3e1aee105ae0e38950cb147f5308ae0d696689aefeba5f1cd00e93a37d2f7a417cbf9caa78496be0b7deb68; 0xc0d3eac2d47db39a65a0fb9504ce8bdfc3b4f369a1500792911e402527e95bfa7a3dce11b6708d98901ff65607b21723; 0x2087a2526a9326d5a9580eb853fb5cd525b011be92b5b65abaaed4c9ee39de51f00e448061136ea01e8a5931493af81c; 0x4e8f008223b577fc02d52e019700f3d371cdb2950bafc725e48ad264a10541cf0abaa72cedd9dd6665623928841a6ba; 0x3e580606861115fc774cd80cddf72a816e3392ea5bb7e8c72b8a8d1aacc9dc3056f0820486a47fd7921e36134077c349; 0x1626bd72c7c891327686224452f9fead135c95cdbd8d2bf09f073b3180dd8f40de44ef8ecc520546fb9fb2745cd3ef3f; 0x7314c79d8f5fbf02d8d4e149ba2bfbad95b51ddcdaafe4f95167628423e72fe15f72f7a854dc0e4b8bc0d95a0aa570f3; 0x7e180808f2ae1c106b9c269a811eb8c672d8df63eecb8578ae28629d619ad9071f89c23b86b94969905b48f4b5f84816; 0x4192e5df9687d5ac5411af42d597ce40a20dc3df3e6e738897286c506229a93adcd40e7b16c74eeff842921a51ca7da2; 0x853bf94d5da8e128bc101cec975406aa2ae342e3b563b6e52fcc070f621cd1969ed183cecac1603deab46d6df6239744; 0x49cc38b8660aca605fb630c64471f233127ef9b744b058a14d526900d37f1426774562ea27d319ebc655acd06c6a0cd4; 0x20e0843ed23b8c53e9262d7ac98147888c82d3fe6efec7a0ef55c60d113f6276762194bab20912d1d7e7c55c76e4cd72; 0xd79c2908022265b73609bdd64fac0d0d37290489b766bae0ee8ce81310b89226a8e22d116d2d449c12d05a98f78c69e; 0x260060511aed19d98d816cdfa4559c7a60b6182ceaf9174bed3651e0d0288d8d8c7d5f43678c3d695bbb441d8d0f64c; 0x19304229beaa0a4c1fd1e04159d8fac08fff706971592ff5e1453caaf5beb989060cfc2a80f5e8c76201ad59127db0d6; 0x2421be452ac8307a3f3e2878f1c6d7e27d33b04d70391a4abe4716aa1e09519dca2a8a50cd67423963c356697233715; 0x92893374567d74fef4fa0ef7871bb1cc99af57bbbf308cf65328bd83f4fa81704b46e7a06a90257c0026df544bae500f; 0x1b438efcaa0561cc91b04341574476b7607cc91bbae6fbc0808af05384934c78a9c753b9c3dd86a18f8899808b4d8ea5; 0x4b036cb5f99748b8073141e669ab03e1c431859a9d38a6b45056313807c99e58a85c9cdfd4e1db8e04f463749539b5f0; 0x289e80b72bd594143f8a42f35b57ffa28e0253fe17abf1ceb77cd249e7d9d9d791989a27b838f60d6b2b7c933662ba6; 0x5ddb80a01090c3af054fb1cdfcfd6e352743ac84c800bc34b221049b21516a2481549d59ace7941f7033efe9b95a08e; 0x18824850c5011c965b1746a9e594db4709ee96e98b1723a7fd8ba016ee63d69d81ff5dcadc303fa81f0bd303eeb5823f; 0x19a2c05fc2316a118a973d6c5b889ca1bb18ce81c9b484a44db950dadfa95ac2c2a5382971a6eeee3613271ba131; 0x7cbe2f18055227ce604feec4eb7ab989ebf718e0ce7e0e7ec4bcebb906fbc691b7571062f011778b0f14013e36aec67b; 0xdca710e7137dd54ee558966caa8611651e3c0ebb6a8d0fde21b3fa364feff46118bde56e234b51006d6a789db5410a24; 0x5f3c35934ac93eb53a4a88ae959f6cc1d70480e34f04e4d17ebe1430a9528f5ff9067b12d8e7cc23ff1e5636093eca7; 0x162fb510e4aa0b9c5bf749f08e89bf6413bab8ae439862f6bbf7a8e8f5d6b56d0eeb72c2d88e1befb74d767fbc5eaba; 0x8196539a5340c856a7039a387e4d053a146e2bee7b95cfa6ce64bb0f96a08690cc7ea10eeee7507dbae344808a62d30d; 0xa20e8ebda5e436ffa0d9b06eea65ccc46c16d8701c2513d226f8b1ac4c65c36ede54de1406e4c07f23132d46c01c94bd; 0x94403cf2998d08f08887e5fde41004cf7290776ed2d0b66498eb4476aada36335c803c83548cc61223f1dde5e90017b6; 0x7ccd9ff57e6f5ac31b8b813ef7e985847b275a40843484a13daff5b71af6762bd6f0f863357597495e7574087f7e4ec0; 0x5a92b526a15e19958ae901b625d7f25a30eb955b1e17ed1c4ae7292d984f38434d105aea09ad123ec997036aba20d339; 0x7664e55ad3feff61dd81080c26dfaaf8e36d32377c5701ea346a542ace742664a53f265846a81b7b48ae404a2082be9c; 0x447b007762dfbe3dd47deabaa4c84e79a6684d58b114d8e8f92332e752b06090ffca6509a703f8e4594b04edf6814186; 0x3bfe95f327e3fb9bd30224b8b39a79ad0e53302a680674bbdfb565422fab7e9c6e12d5b4fc6f8829c72badb85f6ef013; 0xe02d81c6c1896e8828fb084f9c9ddfdfe6f823215d07f42d35aae0fc33a0356de7d61cf8274c2d7fbb335daa749f49c3; 0x1f51b8678dcde3a3601b4129e9d9f239c5bed232f8da37388f519a062b14305625e204922c1570b4821f44e3d60fd69; 0x1f110dfcb7b1668fe02cde919929e5cfc69f300e50887651878f65c057f01df29010eaf106fce711752168c016f1c7ae; 0xbcc79e4c0068a47e5569743cf8832241a034adc29b17e0245bcf8b775962e0d646678441b72509f9ce72cb8ed5c6cb90; 0x28704379dc6447777373c3bee4fa5deb2a372f0ac4d01b3117552c119977036efe7982d30d2ec38cb15a970048b43727; 0x3a07ff0bae54da5fd5349bc4b1fbd6aad5c1b6fa224b6284949a487ab529bcd709e495e2d05ac7c8b9ea30ce681ca709; 0x7cf55493439fb2066611ae210b3a2972cdfc38ea64b3ec3245dbd333a63192e34bcf86c44c608bcb8d060951507d90e1; 0x23786157dd1f0787f47f6e97e528d9617a5359879e813cb082ec9c9be62492214bfba96b5801ee1d1d02f7e3619f1959; 0x1e383b7bc247933325d7bb22302c8f4967cf32d9eb38bb92f8b850782efe439eba1aaab1f0cd107816420d50aa1c8e40; 0xc7d1bb9b5fb6ad24f613998530065288fff0b262d58e0ca8d09a856ef686044680d1a2431d284db284a198086ba54bc9; 0x830a8e0c3f36c8e67a9c1ff9ab27a2e07416b32d37ace694705b2a969a0bcc9efa66cf55b2a98e96ff8b11c95d09fc0c; 0x1360c745d4e9336ca9e862dbdd70c9ef581a44b0ffe02cebaa01d6e640d16901970848e005f6930ba8432055820da4e6; 0x3bacdbc0d83a49fd687ce0193318478f4d5b031546fcc79a759533df4776e2812f89181d5114a9983e279df0f8b71aba; 0x5a4788d7998b3699d401af310902fe818616d0756bdcc049cf342da06e28ce317fb37e5271045ffa2e121831e0374d27; 0x3e1f7a42aeb078a3bb88c1544cd4e02cdbdd44ee9e70117f4845f7a7323438315a0e13cdd3cf53d0f502b09f9df45905; 0x7947bfb3ff580a7dc3f14aaff09b717d804ad28b31c70b8159487ce1e19933647b9797f888be6d68d041debba6834bd0; 0x249f1d889edf30a392eff9341304126b629b892253b5fff319468a5e498de88761c15d86e164ea31cc8b807ebb5e6aa; 0x160bb19f9a08d6c6bb979566dd5c19f0dd4634b86ca5efbbc93ae1289562e93bd620da61df8808e6965d1b7eae658b8b; 0xc39045312dd233928e74743d97b295035588d03ae3b9f9d2dc659b4242b0e21503a061b603b9d21f22aa1ea625989ac; 0x132546ed36fc9f6c496bbc4be3cd0d68b80fd58e3e47af61f118b1b152b1ac703e104967db06f30746eab8c62e08fea7; 0xb3910c037312a0da9f7ed7eff941e2d2a1b663eaf19aa56ce3868ed11770e8bd04d65f58202ec284f411ab8601104ae9; 0x49a4af9c4f29de03f20d4963c141c20a04fe6b169b3c8794d9d29dc2ab594ac2842497227c010f478f1a697f954b2b1; 0x12594c04c87b4a86d787a47fddf75fa0fb2f6fe6f56eb94c7d808f91732e967f287fe0460223f116eff19a9c5c60c307; 0x8177ca9ca5f65d6c6f0df7a95b8dbbfd926c6493877dbdbd1a0d9031fe2b30924567a84b18f5161aac30c3a9e330df02; 0x659a713d78596f024bf570976820bd3790960d8646bb472fa2ce40ae140bdbcd546348f5c5a6069dc1d509e27ff2359; 0x2a34ac9f4f052a7f6640f7bbb39f7b0c3e2c635d709847559113db03af0053a91a44dd892653c7a8710a957ab32bd0ed; 0x4fc71f8b04e4fb2a3258fb2fe0527f204062394dca4127068301bf7d2d59a2e96b3bf29dd4adcfed49f52e2f37aee6; 0x77e09fc4e1bab8b4a06c31b0a418d5e261bab544036210e9a41bed6596b4a9105b4f671604523cf468edbd7451688aed; 0xc735be8e53f72928e4351ca5a18806bf92400aff110867c02d4c865be5335ce3ded0e2c798b53518abff851d2a6fcfe9; 0x3ecbdf17f6fa7074de017563c620e95221bf250829d9df1746d3b909ba31eac4c5ed12ff894f24c42b503a6c66f5496; 0x8bfd0f5d03626a55d9173e709715e8b232db7c3df06b6e42e09dcec9e537d11fe0d1ea8e42717c431d03baa9ce424f0d; 0x60a729cc02bf15ce35f93d11c1289c0c3a629743b93cf58ee0a6a1630156cc91d193aabcc41868de0001a93063fb8149; 0xee5332ee150e5294dfa011ebf041d03773287e66671c4f7f5e822f777aa0aadee5a442e146f649ea3ed1d15d3b26e863; 0x37ec894234f0ce9738aa3546d6844ca881415d8cf1a2b5605be86b0d157adaed13becff2d5acd1f0bf586878adfd7262; 0x2f5177aa9e7ce9eb3ba38f64977fcd957c05de105eb28574d57154b61ccb7ea3de957302cb12389439f055190f6c3233; 0x8dfde508f1cb2cff42201d00b8c6bcfd3be307e293ffda53ef848da7451be39051d5943e2ef895c61fce516870668d5; 0x654b785694da2f87a8955d6ff8b56a8f76ba4831adaec2e1a810442947fb6b0aa8810ff813db2d1a81c38c520556c52f; 0xc1d0053dce5eab09669d491460f0dc5fe55cf06f5ceefb1047a723f88ac2a75142c5e73a21ccacb4aaf216604c325966; 0x4528bc09b1b137ffc7f4bc95c18dabdd68868f7d6b6c1367a1dee83e9f2a0afa7bdf01fcc85e4d52c6b8dfd4f437dec0; 0x9aa3f35f6aae4770d68042c9227a0ad8067eb12ace7a4bead235d7e2b0cd9efe24f7e4353b770c87aed9fdf94f9fcfc1; 0x24cdfd314f3e565a9bf5fe2bd899e1fa9742675569def0f38e79dbbe6a4ffcb0b9d1a6773c7775f281990033fae8288a; 0x17af48da5100ce9196b8a7c94cbb9c35cd82a9a33979c6568d0fbded2f23d4015e42a737871766344954bad2ecd38ef2; 0x5d13c5a0a5eef405ed4e8813871b050eaa5bc2798c103182c5f567943d18fb4fd1ded056bafc6df204c0d13966daad4c; 0x5d8c8022a08a11576539828d84320736e959e7698b0d918931f92c50a4fe4f2336391797e39fab6c517f532a817727; 0x40140c8bc8466e52aab49a6423ff4a91207f9f6c46a43fb3ec3c914d34726ceb33121c773d287af575b1d47f214ddaea; 0x77bfc35bb58d91ee6fdc8c59a10add8b6ea1a4450b50e7ae3e3b406aa3ff82113e36fbe73757c3b57aa1839a8e72c3f6; 0x11e6997587ac7da8aafb381b454e20deb9d16c1b36369ad571410901297771ba8771c24e28357a367ab4c0e0a5a48e97; 0x150294e2d1b03c056ab6249b5f201779dab40199e8860b486f628cbd5867336f6b53470629c02ee9e80546c650958d; 0x6f8189d45cd187241897272a0fe00ef9a42b716ba6f761a8024b6e225270f00d0ee44dd68846dcf3d502020ed15f8c99; 0x3319191e4d8a8d354044ab660cf223f5e77e8466b93772d900864828337526efb8e32b98aa81a4c51a65f51c0fe8d4c; 0x7102cc8875515e028371cb3d8788c2094e8cb7af2068e8cb0c69e3d2a42431d670282534ccfc5056e90afa71fee27d21; 0x1272eb0674c74fe3f326166cc3667837d56c724bc91dc003e33f959c99f9227762cd12228ce3671eeb15a97f30751edf; 0x70759dfdc6aa4d19953d2788a222f325a40d41432a25c70c99f0cd27c3d4309d7b9bb4fc5b746baa8479904d422b3324; 0x9fb095b5350623d9692a5d3c77fa8190643a4d6275bb801a6091a7024942b6022ddbf8a95326c82540080c941c8c4510; 0x7c4f97113d79ff3f7e9f86d28b7e79d8622b0aa2ccec6de9ad0eba854fd12ace9d481526c1e1f62cf6190bb392bc3271; 0xcbdcef3651954c858ec7a86e0c414b08b4ff179ac185cbf6223a635b1cc9705f91997ce9f481800a9120c479d141f6c1; 0x21c5a95be14130e1c54e20d734d3d40c71f53f85d8619fa646c6f6519aa0ff9cb1ba59bc682d9dbfae3582c440e4bda8; 0xe496269bfd073f0e26d4f45d19fb6ee7016d4b91c3733bf24bb7ff4197b32b512c268274479a7dc2f3c0937208628e6f; 0x27a25791b04c111f225003bb40b9a2bc66211376a9aa1c6baaf9c5a960c6a77a50bae1aec1b5c2ee29c616210cba2fac; 0x97fa1018403676c88a12886a76e33a3ef078a911caee217e711ee5b14d674b82cc1f9e3d801a7c0e27814c93034730bf; 0x2293f775f863186de19f509c27d0d1b2d7785709d403490d26652cf91fc3dc3ccc10e93e97f78ae8503ba778500a9a42; 0x4a3d724967c03b1c47d7f92933237915c33a92a45f133ce2f35ed8897b19e03c2587f6e8e2b2fae30931e94ddd737768; 0x27e72c5ce73d0b994d0324837abf97b124a45a3a859ab50c59179d2e75afcf2f94cd4e9befcdab4af8f6b3cf05db1c1b; 0x31562f3b12d85a66a4450bf11f9573330507812ca5450dd9a245202e7c3ab7c6608647c31fdbb34b971e5c357033a709; 0xd6c230e87a94b870434971494b47db5f397198d92a8e61aef587e21fa442c6adc17d52c4126598297c54fced03841c0; 0x3b898ba3f9af1e9c45986759b1872911aa548698c773aceb44d94e7b9676c8cc9b92ed099473f3c7155696ed92ed01ca; 0x3f2ee070894d061ea9ecbcb73ec11b0fef8e8fce48144527fb8b90a4d5ba5ad6956f05396bac1c4fd10a415b648c24b; 0x1667a24dd3b83918562171567bc1e885fe21e0bf838a68747f5b63a8ac84ec8d2771d729f4d738bbec5a92459940b16; 0x2056676951d28a5d08883b3f3fb7a0eb5451dff711aae49288b86ab20b63862c7f9208eef12e29eae047e31163a7ba3d; 0x2aa6cfcd227ddd4d984a388ced3ebde9a65e705ee3848d3b709268bae41e6eb3856d72c54b49e229a4f3addd9b736552; 0x66819f88ff7626cbb0a2c077d3269e25ba7c4e7bfc01c6cffa87151a60be543cf07a872bef5b10e5dcb75fe871005087; 0x3ea3531486cb9e2288a03717ae72d600a7153dae6452e877cab864ebfbbf46dad16ea788258b536d8c391bb6a66f09; 0x34492d1643094a7a4f5b8dd0ce3009581551779419660073bbf89e22975cd3df60a28283010c8777411ecbc5dfac0f; 0x9c0818d8c701c34d446ea6ecde542140651157e9fc58cd0f728540bbff6e6ac94410c8fbeb59fd1bd346d1e2ff674794; 0x75714b910beaebcf7993a0c388ef6896c718f5ef46763801e253b3cf34d02d3ec4ffce0d14a004b7bacf34c61131fc09; 0x60d7ddb3d97ef4fc70ad6f5270811379f0dd97d4777fb86d5ff9a03929a206db3328e9c67ae5a2713388f954468dfc8e; 0x1ba30a8afe6893150fafe174b444d4b4167317964d189baf7dbed3dee31864d04c30844215c7efcd333a019749dbe746; 0xe39c1f070db7bfab161ecc0f816a2ee6414d752f4c1db3124cc35872219f0944e207bb22f6812dba1b3a68b28533a49; 0xe60b508747635c8710cfa32b598c78657f9f9e15360de1e9ab95a48ea29a657262c6e007e32700af8dd4b16125447695; 0x3eddd14d773e5315b082132cefeed388b2bb10ef5a8cf71d635ccff01c41d3654ecb5bb62e503b929b91a8beab3fd6e8; 0x2254260ebe5f20f1be910cbb7fd9bce98d717bc613474e2f5c8230dab64f03928466053b08ee0d7295d11ebb32d8d339; 0xb1d54c79f1fe71870d96fbf0a12ec2c3293ff061ab738a95446c0a7a3faff145986a15b866f319ed717b6fdc7ae6502; 0xa05486651e142ff982c598a48b1d5d46c3d24279d53089a98be378f4f100af7436ca8842f331db58dba5f7dbe496; 0x1ae41ac6fa0849825dbfa9410823192ff6eccf64bcaa7c47d04cab75837a1768c0cd02b7a09d89ffd0425ea859d0991b; 0x242ac9af05949520ee76a161a87aa09ec5e76f6e388a7b15e74bbe497e0a6a92d8020a79fa12f45f0661167691028a; 0x1f2ed6fc43552caf5f084a251926cd4e6a8e03e595e4e13836b8a2d62afaae92e8393e359c8ffcc96dc23f2de9443c38; 0x35d08ef85c3e771358f683b9894b065eb7b35684a3a3df59bd6e22c4a7541c3e77f765712e616a6aecc0ba11931d4e6c; 0x615f989c20fce912f6ee6a7666cca05673df7bf8b5d37e8267ab42873925358aca2c95ecd6a3cfabdd639bba48501475; 0x27fd83d683961dd5c7c11276221ed8be048ad6dd6594bbf600c19af2f5ff5f308c8f22d3b566101c928eac582b2e1e82; 0x2621f4c76b10cf8a1af1fcddfa24577bbd6258ccb5e1fdbb17339cebfc79bd03b87f43be7d17669003d002a62c66b91a; 0xc76db97b88b9d4a12b2a263b23366445d2b77e6d74a1fe7918b81c9ab7a548fce766db4f9ab67972aeb1fda8eb4d92ef; 0x4cdc7a3f78ab5340013813eccf6e12dbad40d6c3b76bf977667b93531aa294646fc161fb4b875611ca45ee3fbacc4c1a; 0x107d7f8524e51ef0a04e899964a25a92adbf1c62d5286f5324232131c4e64329681a0dea4da2cd803216adb9e4b2bec3; 0x2a9f81106d4cce74bce7950a77625eda294a32a50413b47fc4bf323adc2295cd182e1f981863ee59174ce5ffa9fae1ae; 0x4f684154d4f5e197ff40b31d40e47aa8a7231665b030011527e4945092b9ce5bb02213dbf49347808395e1959b9795b0; 0x3c91388f327b208215794d47ba1baa45f9307765f6931736447627e1bd9983d66913314660ebcaf608abb33a6e36b4da; 0xa098aa81386ff699b5c00736854cb9d9477fa05a8b3531d1a11fc56cc04dc56353c3292afea728634de2ddf576a362a; 0x37c46aee32aebd5c2f256df60438696789eb0e70ee388f559341c138f00f9a4e84d871d5b62a297ef033b1d14d3d174; 0x67a53b9dad82d39a55d7cbac1b692ceeb3db4c50a8bdebb0f50522115a2df269973bbc1d41d2ab99a9994356cc14a151; 0x5c02f385daceee0ae6804e5f40689e253c9a69cd039f85135314fb67a5b3de8eb0ba6f7637230f0135cb2354262bee14; 0x5266749612b665b971ee0939e9fe6e14e092f23db90914dcf289cb873ae957b2ad601412b2c77ae13c911835ece6748; 0xd69e6a486e9965d416917e43c5339535ffa4c93811537e77f78f488fdc035e7d8c79c5224ac8672b032f9dd216fdf52; 0x6b8d18a79904d1199a365bf969511f88860d13681a4f38b5c0dda261f933f2e9d586ee2eb34ca911f4baa010109e1df2; 0x718827c6c0beb270e87171e2345a1eb5f593187390d1674d6239181924620f81e2c2267680b459bcca098cc6fc62fa3d; 0x350159ed19a002160a430a464545784e2907a8535b3ccbd14c21e543b999d29b69b195bf0b9e06c78656ec75f1389fb; 0x2d56000ae3bcbcf28849013ef136011b1be9700f1786ad89170b9a7a14c5c05f35a2c61666d23154e96518fc65d8e0a7; 0x1ed97d45de837adae288d70b2fa12db7cb5e50b641be01a50523f273af78755913ba78a990c3065bce431e124bed19f5; 0x6d083323108c93b8c83c754b522e3c3b2b216163b08236cc29266765f70908ddbb28dc82f2d4f592fbc750cc80ff4d1e; 0x514e07fb9ec6d94f0bb86d0d258a6b4e7e1b44b74f80af5cc1c9184cd451b397d83952ab7084f8f0c88017dff6b2c5fd; 0x3e2afa4bb93349b6aa73a263290c1bea803e5951ef45a58b18f3bbf34d2390bfe2ac1221271b45f8c32de87f543ea756; 0x65865f0eec5bc63eaa2f667f048ebb935cccbf03d65042374eb0242d6e6ba9bd0be7210f1bb12ef1d15e65a3f0da51a; 0x71306bb9205f65f78a3cd1dce4bd0fd7796462d731082947e589b251f806865de28e7d642a265c05c2744f102038bf00; 0xccf4cbbdf16998107fbf52e0e2beeaf7394482e059d0685d4f0f902e3c3a80b302bf5a8faaab657340c656edc6f0b864; 0xca02f1341a78a3a282534a36a81eb475ff927945ee8620bc00bef59fc849ccc4184ca3582c5a4f0685b651482cc5799; 0x25a6ad325adaef2d877852b02689c6515fbcdc496ec8918e8d5c0dcedf385afefdbcb32fbcd6676bbc04d63dc0521621; 0x39137d4f5bbde6e2ebadd9420582bf7f502ac94934f4e1a27ce861a1e93c6c3007edfa444e0fd5ac9ff617338bb0c9e8; 0x60be985733a68ef24acffcde1b0ffc1d28e18a1a8aad40de337156c28f1b178b265ba56e05763690743485ec0140263e; 0x88be7ea60932fc9834e1c63d14173709cc77b7070f7e746f895cd09d032f1b9dd95ffa24bc8eb7c039a23e7c4b3895d1; 0x4ae949aa8e74014c29fc25a9f1036fd332411f1e95bb9500c6c61179d90e963a46103591d9bc4063f0b2d6a7423b38a5; 0x5b04c13c775cbd357390a0c6741a0ed56c0e37c070a15c3969e3a736fd221aaf2beb7831138fd52eab584902b7f7412b; 0x24a86902188af2a128580d4f4e00437eb0b4bf6a24f4e6afe2aef42355e5c8083d78d9a934fe16be2da1bf54bad995e8; 0xcde953be9bc81eb956a04c6ff8b154aea3907e2d960c31a918fcc645cc67a735e8014a354151d9a406929cda53e4a934; 0x2428b25dcc1668c797d386b960980e304113f686a9804b282a7e869c119b10a76a3745561a836074a895479f1c40b855; 0x1d79db3f8145f5592adccf52cc500feb3fdb0d534b542d650f537e1813ce4d8995c1c5765de7305184bb8dd4072a4e4; 0x45766d327686730f0dc880450249f107d4feb126e067ad9a0f90975292ef8fcaa8935c4de1c7e792fbcd9ff9e4fd3d06; 0xc84a14445bbfebb6e27e4c0ebca7a107c66fd7f6403815fb6c64cfd4a949cb337fcc8fea21c8e0fa58603eea894d554; 0x5c4fee088fab035c8ce8e8d8f3bf26661285a8728f6fbceb3d3cd78750175537c961026912b6dafc10858d12ab4aef; 0x25b0ea1034d841c7722e4e79448262b8d27a9d831bd7d6d69e5110d9d96477ffd414e513ce7a825b55aef391632bc6fb; 0x94a7a93ddab05a901db4bf8a1252c95ebbcf782c88edf1440768c274339888e3de06ba096b6cafd6798c884ca151154b; 0x7d8dd55b5a83bb3782462dd3d7f62f68fe04453a7ed66e373b6953cb4156a9649aa65f25ee65520e62d156022d1267f; 0x30cfc8c02031c074773614a30222d59e614b90c746494d38b008f9b39235cfdcff2d95548e3569920c63c6666f18ae62; 0x230f2909dc00af84d34beec790e8a1511d23f0347da79700572843754940ddff8e02c658b510561a26faf0174208c280; 0xbc6756d749980c5630cfd910d11f8da49534f40fadb6f0e1fa17a34af8c74b895b1b8ac85e912298122f06f5f30731; 0x9c9716eae51280441eb75d946b6b0fab337710fb0ff5ed786bf54f1fb4edaa2ed50746c7f60005e0d6ad73a801b39bb0; 0xfc01a67d934ad9bc98cb664d5d3cc9140c24860ca62e1bfbb49ce926e69fbf37315a1237d17f25c0587e6bc2ac0dca; 0x4a263cad5c4905a72a53876dbbf450ab5e7a943424452fa7c08e400bdc3d93ef08c087a666929db78b92cd10b205c12b; 0x31ac3c7a51cc5cff36020f8509be5fb09748373b148ae25c28beca49e6ea1345959e4a01ae8428c17bddd08ff6f31791; 0xcc545d66b6ac7780fe0cfc25fefd5e1db73c1d73730ee6b24172083371ef922c7d26aa14c684a56b0104dccd3b22d202; 0x312f845e6f8cea882aea090509229dac02409fc7a8a29ad453067227733fbf9933aa5e93aacb392e8eb93cb01e24ff93; 0x603dff18ea01f67ab000211055e39c86043aa58e32ad33e06aac14cd9009242f78373a3a75be742a97abf015f79b3aa0; 0xe8f21b67dd30d5ea5e1155416ec673934a34aabb5c765f5f771b211aa590c120dbfa53d26291f0887f31f4bbbbc3e604; 0x223344e9ec53c8328294e7e355be040b3416e991a55cf2a04645fca59b14f9b7c0c9f1a0054dc4ba804cd7720aa385e3; 0x1387c9e6208f786d54255d7c93b865fe0a3cc2ae73e18cc7c79f66be758228cd86e37378f1d7ab020291276efed1928a; 0x7b3b6917183bbb612dd441333eb0ea0145c51dd05e17619cdfa6b107075eae9f4ff9a09190ff82dc06fa64e0a619318d; 0x86233ed60fb580ff5fb9dc70b38bf3ff3e0ebd0541b840d5a8a5adfb03cefbfba0af7068653d7c4a09c0c85eb633fc01; 0xf9f3c2cffaecd06dc5caec222b6a231f83c9a65af1d361d7bc104347a3785f104b96b3554f4731877e25d19ca5f18cbd; 0x3c171164dc509aa05fe2d2ba329918da12a66bba5a47b0b8fd0003eb3eecfc7e31ab7ba74173e234aff88a82f98e3c70; 0x6e9b668bba16cafbb26d2e7d3480fcd323241981e710f73f4d22ecf6111930ea0647af9d390d77b936ad29cdef6e7076; 0x817b0c3a6a6902d1e2e4d11048fc678b4482527dbacbe37f094476c54c0886142f1f4f4d7a1b4cbc82359d72924293f4; 0x1493e227d1a5c901c351f3bc294d37f9353e8c4928d8d5f2f5996f650bf024ca2a1aff04230b41561f1b37854f575e90; 0xd1bb8f203ce46b0738751484d2e336e91e72540f5b6c9c6be71a1f873d038104e260e17d334db102983d4d522f53; 0x3f64358feaac1755ecdea0d3bc467c43f447dd80b8e38aa0558172214fdaa8dbe958ea41d44bf39644b3c5f08080f55b; 0x2d229ed536095f32cf44fe265b7e0f3401fdf481aa206ed075cc4dcd2f14334b26649e748a12674345f2322578513cea; 0x72387c8f3e41b5003091d5e1437bfd778055fb33dd6076d03045bb484c20380ecde32b9092bb6b728247bca93e9569b; 0x576e90cd458a0c9f4f059f88a11efd7cbbc0e590de6f0db2a9753e8eef4a1494761a0eb007e44e4ac6865df086d35319; 0x1b38aabec101a5dcc04636991f894f114be6bc4482adaf0e70a802f2b6aecbb8c7a0145857817d6d7be293da5d5f4576; 0x9760c9ababb39ced32792f1f6d08f6d7446b2f790730e918a099400f98551ed43fa293ec085c94c008622f712996fcd; 0x601067074a9f56c5c357aa5f50c4c4ba6ab68a612cc08c3d2082d058ac6185664e2615c91b62e3b0dad0b8f048864aa8; 0xb48029f46a25eaa5f21e850d87e707902bf29431317e19f173d8a1ae3efe6f0a531c781c72cb55629dc08b99fc54b39e; 0x14371e4126ea000482f4e2bad84765ad42a15688e3885ed660b8de6dde251f4a09a2ac3c28ce3e90bd2513d84bd8963b; 0x5f72bc35b91d0ced8a3b6f1305faccf05c7eed56359940af08fd0fe27121697cdf0534f16cba45fd526a949dc14eb640; 0x78e8b79fe1a58413138819c1ba3807bf2bf188cbbfe78cf765c4779a742fc96365d7f45b61e3232b83c7896f9e5bd56a; 0x6639060cace1842810d4a0ddc2a44dc2edd8519f49dd50cdd327c00a0cecb56042c597fa3f56d984b45521782f64b67; 0x8791d0eaea6feb58237e359b5cbc2622f9a391c03a2fcba9a1491fde14bb24e99ae1e6141d5c8d9ebcf26604ee4a6a5; 0xc4e9887885e1ab8ad4d5e61103e26f4c78640179155463c420cec37acd5122cd04d7f34e3c91f87039942f6906e7448d; 0x5468f08654981a0dcd81798855860c4b8599af555758a53eb0e260a907441245f506db036719f13df7b925655cab8c; 0x91c951559ac803854ac5f22489929431295542e5d8058a06e35569d0ce4ea6f1451c0378ee8d55b9675cc8b816ff2520; 0x29c5b706f16e4daf9f6f4f9605028be8cf85e38bd8075a00ac8952af84dc6ecb42997e455e5ae0b7709a4cabe2951b65; 0xe34c727cf73db8a1ca1f82e86e03f53bfb5f195d1bc4206a5f4ba23ff8ec98a63acc96c7c2691479a41eaccae05ed412; 0x3181ecad8ad3e3bc71c3ca8a49c1d8ae83c5d3c7fa12e81c510ed7778aa3008e9cd83ef81334933c7a17e4a569d1f896; 0x9a36c78bfc62f51a04be1ff1b3491d7d52960dc2a8209784a11cfaad8b47df43be034ec8dd9296e9dfa6f3fd712376e6; 0x57a1451b1f8b68e48e07f20ab7c41ce79b2e2160fc285862b73472c51a80e498721cee23afd7865e1764ab3d8d03b88d; 0xf1927b86f077fdbf8c3099ef58114ab39143c429f46815ccd4581ac4d1a7cd35afd9f39a068f89586481ff01f0769b14; 0xf8bbaba2e488c18d0f48e3f8effeca9113d24147b1730610800fca938b875e1937ca286e38f80c1bd786af5758af4a21; 0x1cb26666f0f66fc1a2bf3bf4ff603bafdf7e810085669124cc1412f22f48aaab13aa6c19cf6c850f484ba31c314756c0; 0x35becad082be4845dc2c3ba0fdff4c57ca4f09983c7516c11c53d8b73b71202ca67bcd9817191efe68191c556f0c6; 0x2ed039d36cf4eec4444f6e9f04c166a9047ea6197ae5e0716f728ec81a813f71f74985dd63ec62792eb51d2609fbbf93; 0x338dd4531996047193504f911a840b85f0f11c2c449657ae8c2aad1fd96367ed2e84a374a3aa1cc65ca51396b900b00e; 0x5a4f04d21f0bfafbf892e30bb975ff4b8a26543e091174c5a8675f3993e10b40370d15e798ba2e6d72c331a038e367e6; 0x595afa87756841def9495386033e5ec8307ad41d9fb813e5c494b8ce31597100fb83d573a627dabcfa892a7c24ac601c; 0x79f977b7eb440941047129efb54f85d3c96595b36c68c2d5a486a62a6d0eb7a2ad72e9281a988c6c1ff38141d1efcb62; 0xbaf7342b00872786bb79bd94495542defb7788288e2a8972725d4814ad218fdd5c77d04d068bac2a752de1e139b820b8; 0x895b7fed6ec8b4c9572e1f060be293f0ed5a5b34346b152f0797d0cd84177d8ce1345d5a02d19bb3043152a2ec2d2e0; 0x60aff968c95acad6ba9b37851de2469cb9f62eea065a69598ef34cd92c5e1443473c2383de98318e7a1bad91839d2c3d; 0x3c6022115b3cddd0b0e82bc3e43abca419fad180c3a2f8febaff044eb9a076e37a0c60af4a2f7787da18472ac507f211; 0x6d75accfc63074b39e80916d52d8f0a0ee2f73f2de43b6a888efea8d4d30043c92e2bdbdf77775161315a53e78556267; 0x5379a7c6d52d36caf2360bc5d8bda97622f0ff3d710d99b8e0bf26a1f7a76360e165eba30a799e2817d146b26afff4f9; 0x55bd6bdd015b2117dccd4d6615c8507aaffae4bb8af0209012ebe193c58a875f840004e89c117ad21550990333c62744; 0x6dbf8bc0bf71860795a059e187791172b44d146e1aa23976dfac5e4e662280d003c5111c21c66978dddd178573204b9f; 0x427025f71003068ebdcd3b1bfad91040aad836ed19d48c355707d73557802059ddb0893ff146f387442d76119fc73681; 0x17338007555ebd262fc0c0b5c6894bc889c84546f0ac275814e2d4dcdb38ab1b116635178d68aab8ece22e95ff1634c5; 0x358434a86d28a5dab87b23ad197540684fe221c66b70c9bb6dd6e9a49ddb0dae58540eb6b0dab390520909766f40739a; 0x2e327d89916b243114eb6afe4e5da3e5ac77a0a8e2aef478a432c9059be3cc2e57b685257cc414cd2a7053a2248327a3; 0x118828af6be2a82ae6a906d03dee3f9f7c4e2196b0e7c7251fa96c8596c65956b5a7279fa6a07ebb7c3194e6ab2e1757; 0x3ea568b62cfa07f8415efc3c5fb97701d29a60bf658e3440d28759e3d485d92245408b0ad158df499cbe3e552925695d; 0x5a85d03ad3364b4473646dddeaba1d42591c949775484af1cd942556cf633b067509f7cca3f64e8c53450a8c3abbb162; 0xc4104b053fe74dd9aef1ada60d42ddb3f0904bde53746877fb347fdb77119114aaad003e3faac4f5597d89682d102230; 0x2cb14d852aade243a8dc66eef901acf120940c654e59ad22c1f577683d04147eced5bd14b319a7624b601f046b13ade7; 0x3dc505705787b71cdf0b76bf103078fb4de3d68546fe7a1b70530a772e0a32e8367ae38a2e4643cb23d671a387a6737e; 0x7cf2971c9f318970cd3903581f00d63a50c68d3d2d2c8222411a8e72bc9a244f9a5d0f430b464a9494737da5bb1107e5; 0x1e2f924306117b8430a3fd3d1d46a56501d2150aa5448da09291a77773fd41bcaa5a76a6c2ab4cf0babc5b7c1fc4d0c3; 0x829fc15bc9308f679072e875ab75d31a676c41b2162501966422b64eb3917b85f91e27ac17a47d087c70c9ab48a0097; 0x4c3f92337783f6d0da0329707f2f72e313b665c2b569ec10470d9cce9ba563826675d02244ec950c4ed869b0cde5a915; 0x2cabc542eee62960651a92edfb04ca7e8fb02495df817160b86c4b08e41d45481228784a3b64badd9e96655036c7484; 0x5c54eaeceb80b55354a1c8823139028b314aee71a5d94cff5f86526044e91479e5152a53ad3f3096690ae005551b4d2c; 0x29dbeabb9cdb0d26ef2da4ae291ed21cf30a1878c2c6ad55054c4d360a4cb434ae7ec3333d890880c96648d17b92cd39; 0xbd6c16093c7228ee062bab6de525acb57d1c9503a0f842bbcd1659bfe18eff43f79dfdb3045c2796f10c99555fb53249; 0x5601d6dc47974e8a5437d99a68845947f8b01e46225588fec836b3be39d6bcd50755139678fbd91931e78b364988941; 0x3b24186562a1552b60e2719d9bf23b082eba25311276c4104f32919b188ecd0cd9709d5104b008faaa316ab9b7d15455; 0xd3475e58d887ed1d61eb554395e994854ce950e14543a29567414ee2071c382e4952ddb53a904a5912b1aeef25f074d7; 0x46741abe12fd840eeb36bb3c98594e74a02691ec4e8b053b1665a9b46ea6a6a24b06a2904c59f40e08d9f121dd53ab44; 0x6d7be2eb9f937cc239c6998a30ea49a0d2215e62b26c9bf35cfa341ca48e68e36b8cf73102dd96b4cc9065cc0db8d970; 0x7d633f20e6925de1bfaba57fd7144232d4d8e9479b9d0d5d2a619e5c258521686c268d54abc9bec8cc90a6188817a584; 0x297791c80311e3c1b8d66b82a6644f38d4c1620ef9a1b05e1dd23917bd7f2c0a77e53ed8c35524e4cd27df30302c8; 0xb52b3f08fdf3712462a004e0c7785d2ae08ca7003735941e0c59866dfc38bd4338e271f04d2395ed27cf4daff72eb874; 0xadaf91c6b639c0f40aa41371284ae7fbf53d56ea39c865dcc7eb807afad6c823741be084cdd1e8d9e228ec2514edec50; 0x3379a3c247d650f76ab6253fe57916be48453964e33d3406bb7cc3a89837e4ee17576942a56191381b5b8fd709e985b8; 0x12d8713a007420d0210a96914fa7bdb002f9362ad25ffc56aa1a45d6a3f89d5e69e1d13c2dc874c35831bd9de85b83df; 0xaa5b98c951420ddcb757b5bbab82db062239d545d44ad5da526d43e324c0945bb0118d42543028744b50ab2b6777f15; 0x57b3a7e64cb8987bd3b079a84c23c055cdca873a815b71105f45dc820328fe7a8d50744795379977f977fcbfef716903; 0xa1991f4a169b8e7387c01ae38531a1ade06191309d62b5eba13917d96ee0920d1d08227afc8acde002fa1d901398320c; 0x777718a00b57ed06d78a40cab1bf812915f3671ad8ef87ceafb09ec75ae83b1f60af5945fdd6874e7e6db9264a500a56; 0x6ca532c64a3fd47b83f83a620d8232c9b8b1bf99eb0b773579186d036c3389a484a119727759b05285dde4efeb741b5b; 0x273af1f9537789fa33b96a32a3c77bb4c45101b78931978724bb33fee486cc5137d6adc11ef599e9816bbc4b35960472; 0xbfaab2bd617d53d3e2b123b91601e303806b764d1f807bc68ce1d24d8b27a9f320add97ff134cd77a67d7545496fa0; 0x211e9b381e06089de790880ba6c86e0e0201d4040def2edb7b32bfbbe92c84a63301ed781ff663b92db41c6b7725728; 0x46bc39ad149d036c60f6c75b803d5a6fecf66ac4c77d663a5eab30db678fe2e7ae11eda2b032d9212a89e793bfdc1872; 0x5b093e2f755d71a59ac90de499fa8e20ade633c374d4415466c6d7308548bc55eea0760c844260c47faa292e78af70ed; 0x771ef526cd64f14eed60d7fdac1392c5280e35c7fc1e70cf6a60b9e7f4406a0e862c06c1456171bf15214f9bf7eff69b; 0xc0ef53b4d584aa8c00c13d14ce4cf2d7f06c17dd0390a81a81783f1ef8e90258e1dac961714fd5b6f390209ff4cf8d56; 0x2e2435825c037d039f3a87b7d64f3f55302697c24db9c62518023e4d5fd85b082c6c5696e69748eed39336cf5dd1693c; 0xe8f7c79b7b8dd2ff9733bc168bc8e6a6b2bcc4d90b967dfd1755165287e628cff605d88655d76d6ae02e20195097f901; 0x5401f97371d5b9e756f6ac50e0c21897709e0e8143ae756c9d5ce5dd55a5731a947b809fbcaf6b48932af32d5b365c38; 0x563ec41b57a6746894b814560cf9053d29efdbae8a9c473a39bb17be806bcb7c94e78332ce4b670c64d1c01d450741ed; 0x55f2c06eb2fe0662ea3daf9631524834bb152c17e6a3db9176f66e06a245b6bc6fcc5765a380e8bce2b97e66b231585d; 0x62ab51aa8ca1f875dade471bddfe831b92ca0b5c0f449e8c930900f7b14f96bb130499feae1a846c68f95bf4073ad81; 0x9bd5db952d2cc1e92c96ca7607bd32b0ce7f0be1a2304e1c999b1f71552bcff3b2a1923eb85e1cd208e5c302f0f80e3f; 0x23475289e1a94fbda03341650fb549e444390975696e7bf4ed8d558f0e03d4dfd16c3c393a92f00a008df6ddc967e1da; 0xeceae93bf8dbfb380ff420302b18df931282821fda32eb4ff76d60110e2c7c339d03ce8e419da56155f06e6c32c46b05; 0x56f811d91d9ad8341f292bf11c72cd398a8bc141ecc55fd60c74f8c3581dcf1ed959bddd4ada3c623c391ca1a96b22e9; 0x33d120326eef45466aa703716cd5877c7419c561be3b34e18d42979e819f5a66f62106f511c6f77e126da9ea55427443; 0x529723e0d5788df176b38b293dfcc241a1f572207df6700e851ef2d09757a77de56ccf7ded86461039fd6e8e45e9c66d; 0x613910e4964e6f0deb1885a799fa0ce4a2833976915636a10f87796e873e3f3d86ec0d70321536bb2d3752a01b3fdea4; 0x27e37d45e1b13b2e8a32be55f8a269ed3fb5b499723e9e02f2da24927c2a8b7073a7c60a22dae3aa5b8b76a1160edcf4; 0xc9a5c83c4e3f3770430e594108fabac6d5a847e5ea40277bd21ae3889d41ee49c614c57f966ca263fd611928a7a118; 0x89be7ae9f8b58be87121a8e066e9fade733e4648596c4a5a074a1ee10ac8eb3999014b9d348c4ab68218e53df63d87c; 0x6e53f9da62f15b2cfa98596c454790ea0dc517d9fb460fa17b8fd12f9260477241a43082e2b9dcff03940e5f6edcb8db; 0x668f87c2fb8882f3f332d46f20ddc398f80aa56fe98e8e38f204a81b5c6fe5d8a84e3cfbc2c757e3c1cd1242850c0164; 0x3439f5d5044382a52310cb7a305815582bf45fb80afc947adb2d5b7482d2104ce9352ae8ea2ff027688917f2f82a656c; 0xbda1f3b9e679c172bbdcd30d23f2330a4a6f43d4e95236dc3af1854fc482d23c66f8cfecb58f9432147ad2fcb2b5de7a; 0x4917b8aaabf1ccfae56cb3388c432027097bde3e4995e91404597c45915d8a3f5aab413aaf3ad5d202d29efb534dbdcc; 0x4f88ed5c6fa3436d4ed6c395fd4f79c249844e265e5e7e4b91ae5b9ff7bc005db2d88f9d66126b76ee697848ee06e4b; 0xc17e0a23738dad37ffb662351e25e191dc04b65d61692e304f5f7993ff317a6cdf480a41200487ff0c52e8aefc6323b; 0x6b220c39340d00b26b818c6731c78f48cbdfad8a2a8c02ec4e1a8d52ff6fde5a1789f0fcfc82e3b7c81cf67a1ba6a432; 0x3a4b7f8842ca19bd6c1e7bbf11924338b338119b54c97126e394a823d1c6c6d74d6d445f9796b6e1d29decea75f6d06c; 0x42485131e6ba883af344d881b34d4bf1addb397fa32244d16119053d212c821090fd088cc6ded868de7a0b170d2ae904; 0xfe5d5025909888ddbbc988875cda459d41c9db3e6e769c766859c5b1205736d5c8be414c3a489aacee2d5feba620ffbb; 0x53ba8399a7037f1f3df3e333a5e611b45abdb6919deb8e06a27a84a8bdd47002c9bb8a5d06ef9876ca44d915f2b59311; 0x2d034c42ec50fbf025f5e47bae88dfb98825500df00f6c0eb7fb76cf10ddee5c0a06cc78f2c60d9b5d0756f8015d5c42; 0x3060066211664fc34ff3ecb7f615e432f12775db9316834da1919fc13199634b9043e710b8564012495360afb0b0d2d4; 0x1b1e802b2de5872fa357a77a60ee64189192327149b6644f53b3226d4a33b3a830ebb2c7cc1d146ba050bb2a72513a8; 0x9c033267e653a5d8dbb24e5ef26d382244a924203b876b1334e947c22c6995414c57213407404711ff47a3e3d0915d2b; 0x1607841197b4ae10a497a35f8f00819f10d76fe38dbcc16775684423d9c2319757c401f87ff0db04f80eccc8d1811d4c; 0x2fce0c70bdbf6569e4810c901e3c869cd0d7feb03d667191cbe44e1e5696f83b2dbda066d4789fa0cedceced6c471efd; 0x6b9099b132e6ec4593fc4863e2028100cf67ec5972e2b7d3b152aceedb40c7c42b6948989352e19e28b173046b426e5f; 0x8771d90c19e6404cf8687c4e339ecfd42ae9b0b16372a87661a17d2cf1cc8cb650b00705ccf70c501dea786962a97b85; 0x1b3324dcd3db834b5feff1ba0385f1b62181ea63b7dbb951b2b4540686d1cccfea58f2f17d33fa8c5be911478a982ca9; 0x1b66fef8922feed9bd2f9b486fc4255433443ce022d478bd38522c68c204c49e188eb8bbf75a9a18cbf3ecd494c3c5d; 0xb4be6fe190010d47b04fda79eb414caa0fc1b235c9aa22db318ce5145042e98782af6b11616b0b6c45eb9f936a9a914a; 0x2730af80a33a6a90c9e88597f3edff79340567346cd2d9e7e75707b14b7b0c9ce5766dda2a50bfd958f56cc1b54e66e2; 0x21de699e73a0f7d95a833c61e9ff7bd9d98e5bfa3b7ef896851d6687a5ea2adb92dd21718e69fc9a104cc99062ef32; 0x13e104aa705d68bc6758dde02694bdc17aaca7ef1c3faadbd601fd99230fd7c2c0d7e3edef9438a851ccd5415bb1a2aa; 0x484ecc7d5c0f41254a14ea908c0d84500b8a27ae1200729fe24dbc6247e011cedad0b33526843ab108ecf9a6bbf83ae; 0x14bde2c5585925fed93c3de58a5a878da6794e0849b175c383d8a6ddea0e730f25f2b47172d8e08225be55034871596e; 0x1a207dd99e560bb5f0f256e7a2c14fbd5c0da5e96fad2f8f3afe118aa13f1c9ea8a1cdb248cf115522bc71d219f12670; 0x1d83599451dcf44c19e06cf6626fbcc44b1ba16d834942bf52a1020fcfb93fed5ef0e19359ad668840cb3dae0343a9ff; 0x6c708d9760ab14727b9b9dc4177fe98bf847e83f40069287e588087e4ef8b37067c026c4b496796c22cf6e7692895f4c; 0xb0107975a42d0996f232b7da3e060142ea3256be57f9ed0d03365e4e795ac0abdd32a412feae31c7322013d3458b74d3; 0x175c0424616d1bea630b693f3fe02b073d3ea26263581201b32d83ea70c21d5e30b3f4f54b8623824b758f4927f4c674; 0xa20f508c9c9428ddeb93e81aaa2e76e54c1f4fbd8e2e5737654b440b5ad3d628ee7b1d3c905dde2dc3d3c469dd239ce8; 0x11ace3e69765ac4e5109264656ae61baeb706cb84db0464167ffcba1f58fb38fe60c64021910870182e9026fda099403; 0x4ee2c47ee287b898ae83e6c3c482f77a9f2395581c28d430ab63b4d7fc43c7062c3231c232538d80f7b0da833c64c95a])]).
  - intros q. rewrite ?Z.shiftl_mul_pow2 by (apply Z.leb_le; reflexivity). ring.
  - cbn [map pc_q]. apply Forall_cons; [exact prime_334_526097|]. apply Forall_nil.
  - vm_compute. reflexivity.
Qed.
Lemma prime_97 : prime 97. Proof. apply small_prime. vm_compute. reflexivity. Qed.
Lemma prime_79 : prime 79. Proof. apply small_prime. vm_compute. reflexivity. Qed.
Lemma prime_8214737 : prime 8214737.
Proof.
  apply (pocklington _ (fun q => q * 8214737) [(97%positive, 0x1c7ebe, 0x15d926, 0x4f77d, [0x67a4f; 0x178b89; 0x69dd67; 0x64684f; 0x1c4544; 0x12524a; 0x12b59; 0x675f]);
    (79%positive, 0x1f86fd, 0x60858, 0x1846f, [0x7ee04; 0x16880b; 0x35d735; 0xeeeeb; 0x4b31c; 0xf6ffc; 0x30cfc; 0x1bc519; 0x101186; 0x281e6])]).
  - intros q. reflexivity.
  - cbn [map pc_q]. apply Forall_cons; [exact prime_97|]. apply Forall_cons; [exact prime_79|]. apply Forall_nil.
  - vm_compute. reflexivity.
Qed.
Lemma prime_417514796639753 : prime 417514796639753.
Proof.
  apply (pocklington _ (fun q => q * 417514796639753) [(8214737%positive, 0x127d0402fc3c7, 0x3aba25938542, 0x2dbfd412b973, [0xe67174c3c1e5; 0x119a755fa27e2; 0x83cc96d1bb6b; 0x1029222ad6a7b; 0x746de79e2f51; 0x73183a36ccd3; 0x8790a1383978; 0x928e4d64b71d; 0x625759cb9eec; 0x2323aba; 0x1222b8c3bbd0c; 0x5bfacc62dfbd; 0x9fdb35f541d7; 0x11c95ea796bb6; 0x21892d87b567; 0x1017ef9278766; 0xeb0af9fe2b8d; 0xef3fd1fa647; 0x100bf1b73e296; 0x113f74799bc0; 0x180093c807ed; 0x46703261fa0c; 0x4016ddf46; 0x2087ff91db03; 0x1135fd2790c3c; 0xa48a6f034ac7; 0x13c87a20030b9; 0x2b5edc1adbb; 0x620cf2d53e52; 0xc6b5c42466b8; 0x7d81653e7628; 0x1729d5c8ea990; 0x11bcb3abc042c; 0x59f2befc5162]);
    (7%positive, 0x132124c364be9, 0xb4f3bd1afb79, 0x91da4a09f52f, [0xf6b3db75ae86; 0x71ba15600e64; 0xcf9515337c5d; 0x12f24ee9c6963])]).
  - intros q. reflexivity.
  - cbn [map pc_q]. apply Forall_cons; [exact prime_8214737|]. apply Forall_cons; [exact prime_7|]. apply Forall_nil.
  - vm_compute. reflexivity.
Qed.
Lemma prime_5711 : prime 5711. Proof. apply small_prime. vm_compute. reflexivity. Qed.
Lemma prime_3017783777 : prime 3017783777.
Proof.
  apply (pocklington _ (fun q => q * 3017783777) [(5711%positive, 0x4238d306, 0x43e9bf8e, 0x1900b265, [0x18615005; 0x78dfe46; 0xd98c863; 0x72181f5f; 0x209b95e1; 0x1a72775; 0x53e56d4; 0x27955499; 0x1a3d14bb; 0x164765e2; 0xac1feeea; 0x61bf5fc9; 0x3b911641; 0x2f38f4; 0x2369bd36; 0x3e387f9d; 0x196002ac; 0x7dd58ef2; 0x2e4f990b]);
    (7%positive, 0x59edd560, 0x838b19e4, 0x41c410fb, [0x2cf5e6ed; 0x37111633; 0x50825f0c; 0x2d882dbf]);
    (2%positive, 0xb3dfb9e0, 0x59efdcf0, 0x59efdcef, [0xb3dfb9df])]).
  - intros q. reflexivity.
  - cbn [map pc_q]. apply Forall_cons; [exact prime_5711|]. apply Forall_cons; [exact prime_7|]. apply Forall_cons; [exact prime_2|]. apply Forall_nil.
  - vm_compute. reflexivity.
Qed.
Lemma prime_4641351449027 : prime 4641351449027.
Proof.
  apply (pocklington _ (fun q => q * 4641351449027) [(3017783777%positive, 0x239c9bd74f9, 0x82d167e336, 0x44f9c88685, [0x12c6ddd0de0; 0x86adaad1; 0xa36cd044ea; 0x25a1f051a93; 0x3feb4608e1; 0x18b65af8607; 0x3085f636673; 0x422b1cdf3e1; 0x106cc5dfea; 0x62bf8ed6aa; 0x108d119628f; 0x30c0f57d8ba; 0x1e820bce6e8; 0x1c18e5d4493; 0x1633488b401; 0x367cb6636ce; 0x159bc1581f2; 0xf69292041f; 0x1c608dc017; 0x852121a55f; 0x2436bf65241; 0x1e35a060f3c; 0xce0110884; 0x57f67c81f7; 0x3f2d7a1746d; 0xbb3270fdd7; 0x52ab2f4b29; 0x1fd86fef7ab; 0x135d8d7eb74; 0x2ec3cc8bb61; 0x1d0c49fb4c2; 0x3d50f7636b; 0xc9fcf5df; 0x33036f46d43; 0x1dd7bb4b303; 0x17b125011a; 0xe154ca86b; 0x9ae849fafe; 0x21de03b4ccf; 0x12a67364948; 0x1bb76500493; 0xdb51d642ba; 0x182037c4aa4; 0x15e987609a8; 0x1601413ffc3; 0x152c0f110ff; 0x29e846ef391; 0x143f56cdcda; 0xead1b2f66; 0x33b64318a91; 0x6f89e72198])]).
  - intros q. reflexivity.
  - cbn [map pc_q]. apply Forall_cons; [exact prime_3017783777|]. apply Forall_nil.
  - vm_compute. reflexivity.
Qed.
Lemma prime_5303 : prime 5303. Proof. apply small_prime. vm_compute. reflexivity. Qed.
Lemma prime_61 : prime 61. Proof. apply small_prime. vm_compute. reflexivity. Qed.
Lemma prime_348253387243 : prime 348253387243.
Proof.
  apply (pocklington _ (fun q => q * 348253387243) [(5303%positive, 0x25df7fb5c, 0x3d5636a4ea, 0x1ca63f747, [0x11b09c03; 0x20426e56a6; 0x1d2b88652; 0x4b3debf382; 0xcb6eed9d9; 0x3c9771a8b7; 0x25339a6a9; 0x1c9f5d1d4; 0x2127440f92; 0x1e84d56b7; 0x48057525; 0x79f7785f; 0x4d2d6e6df0; 0x29da6bb2f8; 0xc3ade3af; 0xc95e4d24e; 0x16fa227ad; 0x34e41e5076; 0x16367c549]);
    (61%positive, 0x47f503d6c4, 0x476cdc12e, 0x3f62aeadb, [0x3fdb8303cc; 0x46578e8c2e; 0xc2b00f052; 0x34e5819f9e; 0xa719bf5b3; 0x1716f1d1bc; 0x426346b51; 0x44f59f908; 0x2938cc0e89]);
    (3%positive, 0x376f6d95de, 0x3e9b0b1d4b, 0x2acd5014ba, [0x25e6588368; 0x1189151275])]).
  - intros q. reflexivity.
  - cbn [map pc_q]. apply Forall_cons; [exact prime_5303|]. apply Forall_cons; [exact prime_61|]. apply Forall_cons; [exact prime_3|]. apply Forall_nil.
  - vm_compute. reflexivity.
Qed.
Lemma prime_256_991999 : prime (2 ^ 256 - 2 ^ 224 - 2 ^ 96 + 2 ^ 64 - 1).
Proof.
  apply (pocklington _ (fun q => Z.shiftl q 256 - Z.shiftl q 224 - Z.shiftl q 96 + Z.shiftl q 64 - q) [(417514796639753%positive, 0x3e28642a95bf37c9f12cb4e7a2292fabe6339e28b532b5174502a570c6573014, 0x62093e7b71c85ff66fe7ea285b02bacb6332112a5a7a52a9cee30bed0187eb0a, 0x17cdb4efabeb17d01340ac4ff5c37d72fc05249aac83fb7ee826c1c4ca71ae43, [0xf1796e424204dbe41f98bca6b24ceab5cac6a70cf2b0b54e44db360961609f7; 0xc1c0071dd833e1f5d0ce19c05fb5dac14fb71f839b5115a687a6b8a7dbba6a4; 0x1f44da5de4fa2318df7f904d368310b86e7811b315de2cb7fadcf1da77a34bf8; 0xb0378c6c02513b60ab1809626a20901c47511803215083d83eff3896ecc226f; 0x1521acae820871ada7c5a6991aca3d08d160c7b41420b49c70aaadae2b907421; 0x3d122f6f95eb6c84dd598767bc4b3f29fcfb7322deafd65ad06bc224871d172b; 0x32ecf52e68ec575dc98c7875833ce3bf50664e49ae00b40852f4af33472d28b0; 0x363db1480f35fbdd92ae4913e5cb7630b109ff63554debf49ee4a28d0fa57162; 0x492780140d42f7ee562b5995bbf7fa290eb595761a04239ad8fe46ac0b1975; 0x765303166b860401a96c52bd6882e8ba98bb261cc205763737a94f833a81d21; 0xa3c4e9c7f39ec0cda1b598fe1bd424ae861e3a246436f7c15e052f950ea72f78; 0x393d3e588f6415934e89e68f13c581a4d5c98a756ed34b4b5a022f8e57deeb0; 0x59730505ff63371fdc5b3cd371d30d231148e0a81246cf08bd3cf48a8e5fec77; 0x3740f8c8cbb994642c4ea8dbd21005139c4e2702269fcf3c86479323c5b7e239; 0x898731d51ee21124def9aa8fc3a20e98ba7d6ea051990cd7f91ff4e3ef1da06d; 0x2bd4154b29f56ecc015593909e4a6eeda33afa101d4c1b516548b05157ea489c; 0x2bb2cd2bd6488ad8048ae3a20c23343f7561afce53e20660cf99dcf82a1e08f2; 0x6559298dbd61eb4e2efdfe1e1db94bf5c15a91c158a883ab3da40777d96730d0; 0x52719f9cfd72613f14d78498310e546fbd8118b9c4cb12692eb78216f04d1b9; 0x7a9c44058505313470930f8094569d9be26238f27b6f11f958ad3ccb484fa1b0; 0x239d5ceef0b4a69bad5f6fafcb6a6162cfd1927f47b62c64c06eb3963e49993f; 0x3dc844e462976b3d48d51a212427d84898f85748033cbd6743b5638ea106cc0e; 0x3738a70795392fccdfeb220112effcf123d6649a63aaf99a16a042200eb920f9; 0xbb333aa4fafe911b05240f148ae68583cabf11d324e10f1856c6548729f372c3; 0x4cde6611b15ec0cd73f59d6c4db596fb2d2277bcffb434a56f3b5e422f463c7e; 0x2a435268a76721389596352931f5846bf7745d63d6aebf4bd0d410c6d2fa07fb; 0xa47b9e916eaf0a53fcd889201fdce90e04f03add9b5360f1e8cfb0d4784f58e; 0x1618d59100f2a4bda119f6d421d998578947195846a3a178480edb5fb83a4159; 0x14a85c1fe276a83b20d539219b57cae5fb14fe23865338a6a456fe97edf2717f; 0x2af3b8875c6f6657a00435a7ccaa486aeeb1e75b385ea6634338bbf16518ead6; 0x1bc15575eaf27fe87d1045fb7a3f4627bbe5306a894adc046ffa83d695aa7bf; 0x3ca47965ef4d6c61e2c0fba11880f545b97ea8accf139fe5b4850ce4f2e4e525; 0x363d965a3634a14a90fa73f0ab3d98822be68f9a636998561e21cf883fd384a4; 0x1bddadb828b1bdf0252f86dacf83346e0de0a8a30cd2bd5cba07dd87fc739624; 0xc7a67f6f01518373c9a8997369e06584547e5190f787917b08639dfce9a700b; 0x3c71985ba37666859cee780fe3083e3a79378620dcfd036b75dc2c67de86c49; 0x373275fedbdd13976f3ce0c74b8bc4455dfbbda01096da73223b31fd3e8a025a; 0x862ecaa1b8f6fc313bd82bbf1781cdc21998c4db1f95ae5e3fde7c637b822be2; 0x74e636aa6e15e144b276bd84cc933f0926a095ccbff1f6340c234fa5bd52df91; 0x2bd89518193d1bcb88e6295f5683f5b3a9e97e8648b08fdb4b0c4bc92247abce; 0x5dfe96657bb4b37c3fb67b19bc808e4931d06d9fea65db223f40a740ee1f929; 0xb69bbede649270982d1376216019e05ab2f6f93624f6f5f0afdb0218d8434b8c; 0x594d9f8c5b67b041d799e317f031f006fc2a59434d600a5ba094a8b887b1a11e; 0xe1987ce6f00516d485423e6d7cdc679a25235c44872554d836858dfcd74a6cd; 0x10523335c71fc6a25365f87490f8fa50431cdab0ee2cfd5b269df956d94095f9; 0x40280552d2e5af93c0982559510c795cdb986dca4e79dbf4c388f8bc1a5e3a7c; 0x480abe5d1f43ea5b1e34774b02e81832e85dd45af917e55f1827f9e48d0bc46d; 0xb81f2b18379f735121e84cb52d8336286224f9aafd66a85404b847b01687afe; 0x4ace074fbd7a38fc5b35756eb8f5aed619e957d4a135d6f4db6dce89a93eae42; 0xb7f0e0b8d4e184e25c4cd5559e9713e383af990a4fcfa4f8fced4968f2e1c7e0; 0xc8ea985daf5b178938bafd391367a0c5e048f50f5fb0f49eff2a5b784cfe5aa; 0x1f73c31bbc5bad601b4153a42c3b7f8b70e35453b06a41fbcb4e86e7141c48ed; 0x19830371746b14e3978c6820fa364284b66fed0d6baacb3e63d946748c36c603; 0x37bfbb65897afbda99bae2c26e15be2af6c3c789e2a046706846c39151b333cb; 0x3ac4f46aa9d6c4814c2b826ad7de5430c36e2cd545537035417bc1ddfeb1b722; 0xe97d4f657b2e1bc68db38a208c43c815307958812a0550a39511a7d37c6a3; 0x2adfb40f0ffc1c15280459ad318547afe29cd3a19380a7f8d98b58093b8399e7; 0x4f3244a7ec79ced1f21641f2e060255a0e3e8ab58dacd7ea20c812f1a0b5a37a; 0x3a91b924fc1fdc396a49f334d7dd54e0063d8f6a7891962e8c9a00b7d3e99bd9; 0xc52c9c8eb395937a35a5bdf1437915d20ed377a046b83347613b0d50b793044; 0x2bfcd76f874c141fb3813e96e157e60fe667a52a9f6c2b049bdd5c1cb9c62081; 0x61aeb9820aa5e684771c79fe46f8472edb343f5c63ec6ffbe17b4256b944fb29; 0xa9ff4c15e484ed828711cf20500802daa4b2b811935d1a630f570f9773e7f9c3; 0x6ca7aa1b5255596103ff9f765dc1ba7b2fc80252e4feda95d0c372aac4d41b8; 0xa233bffd1864a9163ae4de1be26c1da1020f882a1d9f990b13d1b077928cf4a8; 0x1953904246ecb939cc3693d1b07dd2215a979864d8fb1f872ec06f86ac946776; 0xd24974cc323650b1913ea2fc331506ca7afc6a3776ffcf92c943bf4e24cf76cc; 0x2fdf3f735099a460fed857e749e02e6d6e094f727d0ac5dd9af6fcd8d4a41dad; 0x135c6b93dfd8e904cc6f7aeb28c0f725241c6c2cc1ef1a7cf34ff1a88b2f8cd8; 0xbbac3d6fe5646d1a0969b3a3fcc1b4811d74befc143a5a10981c1a694f1a5554; 0xe2d22e6e6615a32b5b0c037819761764409c793fe8f18be0a7b3131d1c939c62; 0x3a701108faa980c8fb0aee4766cd6d0d9ba87c34d7285225c7bce54def583e65]);
    (4641351449027%positive, 0xbfcbe0742d672add6c119c51e7ab2d175279263d6182a58ddc397152a56199c5, 0x8a07f441952cff0e86deb9c2ecbd1c15e8da0ae3fbfd63cbd0225dd8a8e029a6, 0x6769dc919f86d00a2d0d9ebb2484c45278bce309f228cde3ef83943cf595e6e9, [0x8fb1db4ba87d530dc378c2ac03ed272df6b0a3f965d9bf5cf15d8a0a95ac3c2c; 0xc1ab02ce903554af6f3788135b3164dc62e582e2f8d996c27f6c49e124cc575; 0xe097aee765e65726b61c27f82fe4c6efb198930b43c354edfb0556f4e1e20eb2; 0x6c1a0d03e0ab06af5ed3ae1858488337cfa2bbfb937d2a966e2bb64a99c04e7; 0x5c05e56ebb95b161d6f0ba44c1d86e21b66b461f0786441381dfe878c1990420; 0xa315a1b31903f076b931dcd22c0c156873e15f5b9819f450ce18544f5965a8c1; 0xc3f5025e54f03df96f75c01b3e1d4b14c86dbbdd33dba5b93e0d77abdd1e9fa9; 0x487e43f30a1351650cd1a40f9c9adcde898195c740eefbb437deb99f96879b77; 0xaee515c4a8daef3186820f2d77c4a6453dc35e89758b34689608c7ffcf677d34; 0x26bb0be8253ff469edba13049429a79cf75e69237d99a4047143795c0a8bb40b; 0x8d5b04288b8d52e7398c3187085f5ebdd4132f80f3e79d7a304f43438a9ec8; 0x45a173a6c42587293ac3f6363e154ade20cecb8fe715d98358c92f1d2810d67; 0x63b88f0bcbb5e39e6d6cc0d1f94fab7f65f1864a506404aee99b75d3f69f69f3; 0x6ac4aae2dbd0f28e0796ca16d1603eea782965d19ea1fce49f774eecc190e48b; 0xa3c944c606761aa2598ab89aec394ec594290eb2265c8e16885f1626a8ad77c8; 0xb0a7a2a8dcb81d883438601071f1cd50c174cc5894fbb9ae4bb1bbba28a4c1a7; 0x7a6fe499181ead377d36c590823792fd46bb708e40e4e3deb24d976d991c9349; 0x8b42d7cab957d81f5e3d2e4ba73a58a2d52b0f9444c50e14d476ae7779f8719d; 0xe60d7f2ad039ff13210ea5b06528384cffbb156b9d5ccfa9c1685498e5fa4f63; 0x239e03a03d0ccc423d346b8f11580d9f733de4bf2b9c5ddf0956fe475eeb8e35; 0x2d71bb996440b24746ed78e873b8b5baeb93a5135ed82840bc58fbc5c55b1b4b; 0x4dec6403c8bee546ad6f3050abe6ff5d9a037e52d2feb924494116845d72ebfd; 0x522fdd6bf09aeab29769067c685ebfef15a87eebb2f555fce678d2d1d266c444; 0xcc0c81fb29c0fc716a49a55eb89d1769e745dfb48dfe69c00a1aeebd181523c; 0xe7d3d73a542f37325ed3e8dbaa6d52e3e71db090106bfc3b4a0ed43211c7297a; 0x1e7f88f6b36363502c6bc80240572da328c898bc110c75b6d945f40c94bea36c; 0xb0f049ed230e31e2330211dcd62d63fca5e2b1ec9d379f8c8c1c05c3bc14d4cb; 0x1d726a5bc38c090691a8f75e9db90a24e1d1bae42db038e37b342cc6ab31c982; 0xc9391c6a1301ac9ea790d1f32affd6b3872910cea8f2f0e0ca6fa0c9ac132d3d; 0x7466723c26ec580ee764d0b26fc0db40d319844745815d5d4fddc69511fe769f; 0x35f3063fc25a2b3a848bb1ea1abe87b73b3c73c862c3671855b9368dcc75bef6; 0x73f13353b1626baae31853821f7826a3daa86e0aaaafcac74bbe39ea5c06d850; 0x64f89fa6bdba625c33e07fb83fac5d24137ea09f6590625abb3ad14e010baf6; 0x43e51f09480d0d725c239932b780d3cef6cb634717c8b4e0fef0b7778a15d50e; 0x11004fb919539b9ed6a49d944e0e552ca4a201b969d6f1af89b08ad0bf71e8f7; 0xbe694a414860ab2d5905effc0b20e9fe1fa152be4113de57d59f38f30ee97795; 0xf1eb410f1366ae6c5d715aa24f1368fd79be89685443e44d1f0a67085188bf08; 0xb6bd77126ca75210e2af61c51e766348f47825b799bc30995b8cadc18f03cfa; 0xb736eccfcf4047624cd2b3904fabf130b4d6c221bff70f3c7b82b42928aad45a; 0x3e514803a9a86436b58754038ac17b8b3f4cae7b57871921eb10ef585d18af; 0x25645544781357699ecb8bf77804ca41c9da9950a16bd074b104f82a20ec7dfb; 0x1be9765f12fd3dee18252dc70044ff5027f8a957e1c30ccd277898d526ee1cc; 0x1e015bc27fed16fe7a366c99cb638fd378734943eb83e043b874fd2d4ce839b5; 0x17a6fb1cac837596e81f72cb267c1281752e76cfcb7f62ec73e85aa029e7ace9; 0x14703807d4eb64c3d58f6b7799a52ab1ff9ad541b8ed380737fa5b965fad54e3; 0xcc62e3381ea91c4ae1fa35581f34b6a5c248b73aec4cef610f4bd060ac8ed183; 0x34156ba4d8405b03dd94598854bd998dc8bac0e7bc8f45ba3875d4eae506075f; 0x3ec06d98cacaf6147f5e86f39d96e9ef216c8276e7c861baf87fa74f3a836968; 0x556dddf6c1b3704365007571f4759d190643e764497a8469d52f3df9a5e6d09f; 0x23ab993c02deae7b36f55ba821d4993acca20eeb65d42b74102144a738658e4e; 0x3f0d76787f0a1e0be22ed3f014271caca16130cb4858e74ab20a3823c2343022; 0x4de1070daadc23709766d19b306416dc9cca0e3b58a122245521e7bef394fb06; 0x708b11b796c5f1eb3bb2ebe07abd9eaa0836b0eb83f37972ec9662c262883424; 0x2668b1426eafabde7e0b465a84d51476307cd28c7e302735db303b7c6ecb842; 0x3ac36020087167433377ceb6f353d04500df55a50f143b3e6f139fa39f731ef6; 0x321d970f238d7f41527f139a6e33a43bbedb341250f55890fa1a0d6c2c4cbd7f; 0x7bfca940898db27af5f699dce02ae5e00928a4953d952a9deb5f1d0008866b; 0x4de2bbe4378f2fe8fabbd69c3ccc7e84f0da450a16677222c31ee145aaa71c7c; 0x5985b2a8da692388e0091de874d8cc637cbb88e93a803d146b4efec78155b103; 0xe0fafb3c53d24308bdfc924a2d292e2ea898970940b229970d699622712c8e2; 0x5f625400a8e2f32757670c761016152c7c0f40406fc750029481303bd06dad2]);
    (348253387243%positive, 0xf0da3e2b32f066af1c53b60984dc307cf05fb63035e5cf3f2c6d69d4bb9940a5, 0x86d607285ba4f361c2b73e6952e61317b904d45d238a1f4317f47243d06db0ac, 0x7edb99b703a7ae755cea72ece1546bbd36b1e05eca298c3d55854c66d2c3d1d1, [0xe299ee9fd2c8648da2c3b2daacf86ac04a4e13a56cfd0c31021c8c39d5f48b39; 0x9843147c0302a4896891f3e194c1a489cefce65d6d56f7057c4e0f8c5a5172c; 0x9afabede9197c9faac4833c270d9c1ee1f7e1dbfd10f4cebfbf92146c0c8b704; 0xb2243e2aa07d0bbc861b52e0c3f0c86f32696c3bf3519ed1c8a2d211a36aa59; 0x3c486ff85e956881d0482e0a610e7fac5b1be4fd0c3bb220f120b273736ca36; 0x18798687570ca31bf22b91de30256157af20ed3e9373b0efc12c0813e538dd4; 0x22e938fbd8f06a9a3cdafb72ca2b2bc6ba5a964da6abb14a78c9f4464355a02b; 0x21c6066f95f28c0a230080215aca522029c64cf72ddab49dfbf261baa84b9a4; 0x61a40bfaa912cef2a901a0be665d7f9fd8a1b879703cbe1f1d2ca66d880c723; 0xe07237c8327ff26894f7e669e2dbf868e58f955e1cacb2333af97079c51bf9f; 0x6909411980baa868d583f6655a7a000d75eaf0c9b2838eb2fff51fc696862062; 0x52699b7d96989dd95dc53ad15f04c1b4cec2405b742c7ecbf279ebd7690d9242; 0x3b73e23a165e20b23d56070566bd0d633fffcec360d1e007eec46d475b893a5; 0xebe61bef6eb7ddf3232852de8bc6aec6597c4bbabcd263fc1aacb7d0c988ee31; 0x5457b3177060442358702d49d5326211b1e8ddb67343b0de613016935e36104; 0xbc8f3d4c5fa1246f22e6a2fd9cd927e2ea80ccb217da4ce72af0dcdc4bee3a57; 0x18ccb06b56c04cf8ed075151f4c173a0eb6e3e2d127cdcf822f2602f2685f25; 0x5c0de153495b87c0bc72f0282c7ba8619b479cd8f0fcf90d64739a1a43adb5ea; 0xba600efed37d2a847d73c768b13a945e2126e97094576db1812b9aa42d7c0552; 0xc5e4b46ad58f1a9d7b6325007c755dc321ca9f86434da367f8d68aa4ca5b7305; 0xb4c3a5cc4559f0e7de74886d955534e348b63a91ce6bdee9ca42b474f83ac8c7; 0x82a0f7c4f84d1b4bbb4e2b890a833d0e432127973a0f0ac462f694892df4c3; 0x71ac2f24ddefb2f378ec34405474c2df5254d3eee96d5a21da06d004c9af635; 0xbbfae960e1970996340d3de83c9202cc0a4f4361d29182864e905889d6a2041a; 0x1266c0db2bfb1b2ed686d3ed78c2d9dfa5bda60501e4c0fdbc144ba0b1ce2e9f; 0xebbee184a006e7d05d5fddee4ebf9497ac5a73366f01bfa24a92739f780738b; 0xc96bccee724277ca07c0bb2b6cf94e42dbd17a4517927095e04a5a51bb75a4da; 0x42cd6b6be69555f33c78dd2dee0dda2cdb0457019a9eb8e3f3492cad727c3fa0; 0x6738e378009d7b642a30a42c6aab86d93a3c96b6d144796fd9828b6d181e4108; 0x5e0156cb28e36447edff446446859d7d395bad81ea8e0396607729cfa403640; 0x4d845c3ff480893db690e1ebec03bebcb050459018485452dc3c72188bfa7002; 0x48f2190001226a149ce8cf0a7531274d2ecdbb968977f8696348a9162619578; 0x91d3a49713a02e1dcec161bcae32cb414a6a48a51aa249f8d38b28a00578a2dd; 0xf94bfbab8a354c847c5f2c010bbd54058e67ea5faf1b3239a1c58f9da2b15da; 0x6bfb388528f99573f3e4bf22f702194c57681baf6526b89634ef3e44194f2113; 0x84db39126a1016d6406a591c8177d4643e1cd77ab7784b48641cbe911063b2; 0xd9bb829730aeef3d42cf76af52db1af077f827c294a6fd5984010e36f13492a2; 0x8f575b33174ca0281c7b52d4453e462bbaa5911e0c984c752adbfb39310b58b5; 0x6a607682857368b6f7e847752728be9a7ebcc11238b99c678b2bcdc5898d50d2; 0x5cf687621ec753d6e85112919980cd6caa35a7822eacbab1ef2e0591ede0d391; 0xaf3da171fc725226036975634c5d03f86ccb7878bef186d579fc520ee068ad09; 0x12e20f5086f2563d5e11012155735ef120f7a1e428fc417441e671ec34ecb8ad; 0x278e2a5a1605959c85fe89d9a8b5ec99d41b0428ecdb912921b4f504ccddaa3d; 0x26452cb568975abfdf109571b043fe0fd67cf1e53bc7aef46a50bb34119f63; 0xee99a7b0b206c0307fd97af15f580dc8ab2772d43417078a5d1221be349074c9; 0x6fe8b05061e7173d73001eb7f5c6ac9deefce59ec3d94af27a0b12e30023de5a; 0xc3f5fbe17ce156078247c9c528cdd1f294cc2c529d606e4e48876bb97277e670; 0x7b2000ff4ef71b4149447e1d2b6ef12df2d6a95f41432afd2792b32d428b936; 0x29b50ca86424fae94b6aedda9e9b3001f746c545895d4887f95666eb90db120; 0xc9aa59214e7dc42203ededb612b7a230bc3cdfdf02d9498bf8b44434850bf15; 0xa1d81b534e2023b5408d458df4e41062c05b32fb8d470ee7f5347c855db1c13d; 0x2ab68c7f1d5eab5a89c4c858ea39a02163fed97802f5719024279ceaf92c9af0; 0x161c633d1bbbafe81e7dd239648c3ba8a05212bfc4f69f7ae27d14e2f8871f9; 0x1b0b18d07973e7dee3bb213d5b02a339315555482e072ad8a19308f6c4dd87a1; 0xa1ebb4dfb8c66cb6e550b9807c40a8a8ab840ce33e93f3203770c06d52fab86e; 0x63b34078720a517ec5edf9ba0def73275dfa229c3407af24b9dfd6999a63ba99; 0x94c2c94d60d9e5ab7a265e429aa0ab67168e5c4755e9cc5bbb8a554ccce45ccf])]).
  - intros q. rewrite ?Z.shiftl_mul_pow2 by (apply Z.leb_le; reflexivity). ring.
  - cbn [map pc_q]. apply Forall_cons; [exact prime_417514796639753|]. apply Forall_cons; [exact prime_4641351449027|]. apply Forall_cons; [exact prime_348253387243|]. apply Forall_nil.
  - vm_compute. reflexivity.
Qed.
Definition prime_p25519 : prime (2 ^ 255 - 19) := prime_255_819949.
Definition prime_p448 : prime (2 ^ 448 - 2 ^ 224 - 1) := prime_448_365439.
Definition prime_p256 : prime (2 ^ 256 - 2 ^ 224 + 2 ^ 192 + 2 ^ 96 - 1) := prime_256_853951.
Definition prime_p384 : prime (2 ^ 384 - 2 ^ 128 - 2 ^ 96 + 2 ^ 32 - 1) := prime_384_112319.
Definition prime_psm2 : prime (2 ^ 256 - 2 ^ 224 - 2 ^ 96 + 2 ^ 64 - 1) := prime_256_991999.
