(** Certificates for the primality of the group orders (generated: tools/pk/gencoq2.py). *)
From Coq Require Import ZArith Znumtheory List Lia.
From Verif Require Import Pocklington.
Import ListNotations.
Open Scope Z_scope.

Lemma prime_3797 : prime 3797. Proof. apply small_prime. vm_compute. reflexivity. Qed.
Lemma prime_531581 : prime 531581.
Proof.
  apply (pocklington _ (fun q => q * 531581) [(3797%positive, 0x7e2d, 0xc5f1, 0xc07, [0x7aa; 0x5d34; 0x4a1dd; 0x3e85; 0x7b39; 0x18cd0; 0x50b9; 0x2ee44; 0x558e; 0x2ace2; 0x71e10; 0x482f; 0x22b2; 0x5b1e; 0xd08; 0x279d7; 0x19fa8; 0xf64])]).
  - intros q. reflexivity.
  - cbn [map pc_q]. apply Forall_cons; [exact prime_3797|]. apply Forall_nil.
  - vm_compute. reflexivity.
Qed.
Lemma prime_23 : prime 23. Proof. apply small_prime. vm_compute. reflexivity. Qed.
Lemma prime_3 : prime 3. Proof. apply small_prime. vm_compute. reflexivity. Qed.
Lemma prime_1257559732178653 : prime 1257559732178653.
Proof.
  apply (pocklington _ (fun q => q * 1257559732178653) [(531581%positive, 0x40cae279246b8, 0xc1a8109e02f6, 0xaf8758c8492d, [0x3aba380d44c07; 0x3abdcca57b0bd; 0x1ac55666fc61; 0x1392e308aca7b; 0xd5575353e9c0; 0x331904325fa09; 0x46de79d21a219; 0x1e37cce7d3f68; 0x42e777b2e7010; 0x1b889908697f3; 0x3313f8f92d89a; 0x265d19cc1ee5b; 0x3e815c106f96; 0x20cf508679c6f; 0x1992bd44db26e; 0x7724a724e9d0; 0x3ad7254eeeec5; 0x309ba010f90e; 0x2b7c6c630c9ba; 0x13abcb5b367b2; 0x4ecbf6569e50; 0x1a589c6bfc46; 0x2b56848daaae1; 0x371875a249c4c; 0x1169ce92f50bf; 0xbb3fdd45e8; 0x239f7e7b6138a; 0x159529cc86a73]);
    (23%positive, 0x61a11bb79f52, 0x3324a2badcc13, 0x45d9475f5dea, [0x85565c1ea86; 0xe55599b646a7; 0xe838d7cd07c; 0x7644bcba22a0; 0x38e85c4ca532; 0x3305322afe962; 0x414e2cb7900f]);
    (3%positive, 0x57442f1127f3, 0x2dd683bb97c97, 0x37f547759e61, [0x6a887c174c0; 0x509ba74fb332])]).
  - intros q. reflexivity.
  - cbn [map pc_q]. apply Forall_cons; [exact prime_531581|]. apply Forall_cons; [exact prime_23|]. apply Forall_cons; [exact prime_3|]. apply Forall_nil.
  - vm_compute. reflexivity.
Qed.
Lemma prime_4434155615661930479 : prime 4434155615661930479.
Proof.
  apply (pocklington _ (fun q => q * 4434155615661930479) [(1257559732178653%positive, 0x5c52cd00a1f4ba7, 0xe0605543c5b9ae3, 0x150a24461ac39df, [0x8a83830e0d6502; 0x1e18a132a030104c; 0x9d755051e83f5bf; 0x41b5a6bc93a8250; 0x4a134eba1175dec; 0x1d57c301007087; 0x1a52070730b6735; 0x2455be330b1358ef; 0x47296142f5dfcd7; 0x24ba257fc66f6a; 0x193594be5651fef1; 0x29e32498b8e98a7; 0x167581843d12ae9c; 0x55353448d71fd96; 0x6812779fd4d60c4; 0x42e165a145710a5; 0x8cdeeb2616054cd; 0x37f489c0229995c; 0xcd6d5437e5f708b; 0x26c32da99ae270d3; 0x414a7a0fb64a315; 0xbd06c76171bf9; 0x1ad7ce644bf9444; 0x36267ba75aff0537; 0x3efc3822df0921a; 0x1e49e2911b420e1c; 0x21bf85cef525d80; 0x256af0ff9dc84ab; 0x5018143c87f55d; 0x15d97e369546c90; 0x18ab689ba56846a; 0xe5c2ff60e56a46; 0x435cd4fd66dda32; 0x14e882bda631fd; 0x4d97d2c9340f811; 0x145f78fc6bf30ee; 0x278bd3d6ef6882d; 0x139459ebfec4642a; 0x39eb60bd312f139; 0xf301a2c0a16dcfa; 0xf3ec0688cb94a1; 0x5c2018e22997d10; 0x9a557a1a4ba12cd; 0x343c3a42b831887f; 0x3384ab1b574e6705; 0x28a46a6ca60bf3ca; 0x4173810062f0697; 0x273998be34256bc7; 0x34b4d84faa36d77; 0x760fa40ce05fdff; 0x43f1437efd097ad; 0x23dc2580822f39f; 0x27c593355cb4d3e; 0x2fb550b431053b2c; 0xa8a9614352abb8; 0x4d5d3617f54aa4; 0x4d43475e662c4b6; 0x4a79cf36e841283; 0x27f32390aff9579f; 0xb0badc9ee16315a; 0xf78b6ca9971839d; 0x2fd45e12ac10600; 0x2436e4f39a029f4; 0x12a40172e255e46; 0x40f5834414c204a; 0x41a6eec9d49dd59; 0x3c58904d8f31f6b4; 0x39a16123eea5a4b; 0x5a26150376aa82; 0x4a3074efa5595d; 0x5785142b8fc8b80; 0x3d1426da38b41c71; 0x1d0aadaa1f96c346; 0x49c8248a4cec225; 0x383f1ccd9c5132f; 0x416975f135c3162; 0xa9cdbdaebb1b599; 0x2a22916a13f1005; 0x13f80b178a69bcf4; 0x2d68e714409652d0; 0x11e88de2233651])]).
  - intros q. reflexivity.
  - cbn [map pc_q]. apply Forall_cons; [exact prime_1257559732178653|]. apply Forall_nil.
  - vm_compute. reflexivity.
Qed.
Lemma prime_88_510691 : prime 172054593956031949258510691.
Proof.
  apply (pocklington _ (fun q => q * 172054593956031949258510691) [(4434155615661930479%positive, 0x43d06a01b28fc1632b40eb, 0x7f9d1382843bc75f2bbbb0, 0x3cce7a3e9f20aa73ac2355, [0x20500edde37225b6fae378; 0x17940b5f2a0a140f6af2c0; 0x71656f32986dd606610428; 0x189ecd17c6c7d27615fc2e; 0x8764724a449b650e7b9497; 0x2f932d696d89665aabec07; 0xb35ee7006a17b21c9914f; 0x11307d84e2c876709d5a86; 0xafcab2704bc882bbc610f; 0x727275e721f2da022591f6; 0xcec999f518c31ecce8c2e; 0x64d6b4672be228e8772dfb; 0x7997b1d83c2a88c8de6479; 0x1e86be630cc9905cce630a; 0x79c2e67e5275d36e932848; 0x24a4d18694587be2b1391b; 0xd44e5bbf17ced6701c508; 0x50dce6c4c4cb7e05e8a7; 0x5f35bd3e9ececa0c36a655; 0x2f832a5c9f5727623fa4bb; 0x321c186543375fc21f362b; 0x2a16aefc8be85e3693b7e0; 0x383f60875449d28b8de368; 0x6dc24f5fb221a81b0fcb54; 0x8c27d36874456993812563; 0x8240a6040331c1d77cac3f; 0x1f9a8de7c1e8a552e3535a; 0x4e3ac766d2a88f3cb1202c; 0x1984c1b0ccc8326d6cb3aa; 0x6deebda8c4ba4fa75f9ba1; 0x9c2be2c0a62e9c42e389d; 0xab797392855faa5f4aa13; 0x6c8094a8e285b32e9e81b3; 0x181ddce11b73facff03574; 0xf51fe8f6746a11bcd2f4a; 0x53e1e51063ebebdb51e61; 0x196bf1e5e5798cbc3bc6e1; 0x105f4b2e4f858b312d21f; 0xfec9690b41842d2d347fa; 0x2cd0644590bfca1e177900; 0x422ac0376181a1bff921a; 0x80e4384f5e3df82179e3a; 0x593de714f0cd9ee459d3cf; 0x214697025251891f6d3872; 0x6ef50cb5924f2488cff469; 0x3e816c7fdbe42a14e9a7b5; 0x1eeb37b1f4f054c3370242; 0x3c873d6b8f661c7d0484d3; 0x19aa5282abe3d9de3759e2; 0x24ce22ca11534eb8845967; 0x41913b085122b8f0a9b9b5; 0x46ddd5cb3ebbaa8a40873a; 0x1c0d67d3fd6bf18b73f6f; 0x10ff215f56f93c73d8e4cb; 0x28b009697032af24e2d657; 0x20efd85524a05bcc86b820; 0xb0d23f07122756dbbaa; 0x34bf7315bf88ed87d41d6; 0x109fb36e2ee260678c1793; 0x61ca231452a6edd9f64222; 0x3eb701c75c9b94024baf96; 0x75ac90bdb13b03755d39bf; 0x1da35a4e628a25de6ff19; 0x325e71adeb26466d637173; 0x3707b52802b8d26fa63ea4; 0xd8922bb4e97c0e6ccc85; 0x16304f34093aa8a6c1d5a3; 0x340d4cb88efc2a5c13422b; 0x1bb179480baa405bc5318c; 0x1a634b7200ee5610429433; 0x39e3891a805dc2d5f681f8; 0x500591974e6ec52daf4923; 0x109570759a40c091ed3c84; 0x196375097657e3667487b4; 0x2b3c50599d94346f26d7e; 0x2706beff8fc6bac20b7cf1; 0x336a5bafba2cd81fa425ac; 0x6e8afe36d5fc47d6040; 0x363496ab81ca5a518d8c60; 0x714c5404d17d854b879f8; 0xa8e1437399b23842191f7; 0x1a1f68fbc6cf091aeacb8; 0x20cb4888ec8a3232bc05fc; 0x3b9ff4fe6ddfc6c98c30c5; 0x2dc19abed8ef824fb87f37; 0x34ebe3c8e8a4de4414f460; 0x3549739df4ba0d0368803; 0x1c5b7deda38dc9f970f8ab; 0x8495876870ec2cf3905c2; 0x190d5a4a800b18c029f4ce; 0x16a52545d6bed22a9e96e8; 0x7ec96ac1db24d5e37b1d6])]).
  - intros q. reflexivity.
  - cbn [map pc_q]. apply Forall_cons; [exact prime_4434155615661930479|]. apply Forall_nil.
  - vm_compute. reflexivity.
Qed.
Lemma prime_134_476339 : prime 19757330305831588566944191468367130476339.
Proof.
  apply (pocklington _ (fun q => q * 19757330305831588566944191468367130476339) [(172054593956031949258510691%positive, 0x1ae2c2ca6b6676caa5c3933f166ac4090c, 0x301ca9f38446aff6c3063f39e6ef47be52, 0x16474f67d1bef0409bb78968377afbd667, [0xc731b47eb98f618b8d92e57c9c338dc76; 0x2d4e97aa1471fb087d5eabcd9a24be5998; 0x229ed491d5c1a871731b6d05a0c0e57b3c; 0x7ae8a6102351bbb4edede90428c7713ec; 0x8360a87880db186382b705f7434a7a6ad; 0xece0b0a920a2d3d2c23e97e25e9556e9; 0xe601791ffaa4b188e318b6b45b2ee16ee; 0xad1823098c9f63f182a64904e8add5ed; 0x4800f650dd403d8434d6c34d625d9e829; 0x1602aaab5dc0fc5eed73f40f83e678e5e; 0x2694c7d511a0e0c8f620bf3c9f6d7e359; 0xf8c3b845877002dbf2b20720deb8d6b60; 0xf510d03afd5e86c2e8bd780f7c8fb266f; 0xced9dcb3623eb2e20110a78d745e290cd; 0x31006fede3003aca468035ee6e979a7a44; 0xcbf391ebb1d9e43f89d8eee8bc9231a7c; 0x31b450774effb3e98f8b51118fba4e5c6; 0x16e8b5797e298b721efb3d5930e4ff4b09; 0x251861bfd9a0cf86955d1956c2b271c392; 0x2b81385a03d0a24bd2862aa8179c399962; 0x180186c97c9a519eac1bd99bd358578c21; 0x66fd38246a7aa92da5e4827e5aa519ff9; 0x12e25970e9446db54eaddb699b6cd65a7a; 0xff892b0258c0473e99c5f807b0ff3d142; 0x15609d3a0cf2857ffe3d8c7608f27548fd; 0x23f6d5de89f921cea0bf634469e5d6c6e1; 0x26766471ba31ad7b5d9999ba01b09bca5; 0x34cf119688739fa91845377112e2238a7; 0xfcd59f68e4721b4f87f80eea805f0524f; 0x1e72174ec989d1f03052c1ca0d496ef548; 0x131711c6ebb6014c230b756943dc91ae3f; 0x159cdcea59c880bc10d100f2897dda25f5; 0x7ac845afe2a28a2412b0dd101638; 0x18591b8d93c7962bc8b51ce2746e58ebd6; 0xe7e6a8a95ef2fecb213c171197008c146; 0x29c5bb98bb9c71a28155477b4501b0610b; 0x16b044d1e96df61aac67974194ed69445; 0x642e54cbafb89e61f0a3155b9f9c62b5d; 0x11ef74f283a0e94654a88ec0176b2f4440; 0xf40f3773d90c9f43daf5f3d456267b48; 0x18da809d3edfae3d8aca06046aac3db10; 0xe3b41d5b2d381987cc5614d5b736e937; 0xb78275dac3fc275256cad34ed963f530b; 0xeac7eb09391fef4df8e46370840aeff5f; 0xbd49b571ada63b580f836003bc08b7803; 0x912d186743d43031362550d65ba28394; 0xeba8c19c11917bdb6c91d774c0f0d8825; 0x3455b71e4c6d7297ba26eaeb6d2f500e51; 0x348d4cb59f718f120c88a0d7580c946b; 0xfe9eaed1954671bcf65f322055f7a84e0; 0xa9cf97e099a4959eadeaa44fecdaba0c7; 0x36ec1b37990c32952dcc8a95237826768e; 0x48ab6a0bf7d714614403fb9d3d5c1231e; 0xd45d33b0c39a8ff84ea418801419f873c; 0x1ef0c267ea9e33eebd375187a878848e4; 0x281a3198538058b01782e4062ce60ce474; 0x1a567ff07d702c3d8e159cee269d1fec3f; 0xa644f4dc2fc15707bedee98e02defc799; 0x18aabe819da8f23cd3d2d0049e79f5ed0; 0x261a9ff8685d343e09a29a4c063a527688; 0x2b938840adeed529e401ec200afd55ff04; 0x1a2593763fea2c1c41bbc302e530dc4daf; 0x1629bb78efe0ca91465ae86eff5569ad04; 0x16228db3d6869cc0e1918550ef7e1f4d25; 0xb6e0970772bb2fe1484746373210beaf; 0x2989bc12b142afeb51beb0ca5e196c9c52; 0x1792f85e9e0f35e125aeb41bf0013570ac; 0x655146b8f467b033ea16435d175ca0d4; 0x135726b26be34e7b53e7cd692770079cd; 0x1b5a4561f061ea00275aeb177ce7d4aa87; 0x1468652af18114b78db5df7e39b4398d59; 0xb3059f7f915c1c6d95d06879b6a6c3dc; 0x373d0bb3f707d6d3b55dea9caeb89e40; 0x6eb4a286a771e22c8ee2b5178116965c5; 0xb2580b570481b9f666286523ae8155dff; 0xe9c7c68d977f1b07f4826164c656c475f; 0x2d20227cb46bcf80876281680e2119e481; 0xb16330faef021aea196d338a8fc20748; 0x722b694a7c6c4d1067d6775062b9b513e; 0x1431ba3ed7e4424e2a01e26ea9253ee21e; 0xa2af03c1ada23f1994c1b6165e8d1d580; 0x127b32aabf89779110cd3ac0fdb3c69988; 0x2283cef17ee0ddd4d7320d9f68207f0f8a; 0x5fe7e6e3936b4fd7042edbc94262d7bb4; 0x2dfe3ce180ab617f4543928b722276cf0c; 0x3b6d75f80d01d7973d9232ec8a56d115f; 0x19713f7c20b07ebe1b6912e8785c3cfeb3; 0x171ac9df13dbe7fa0f9e2e423b8f30458c; 0x94d1d50d48ab81ff7245859f1b7ad6563; 0x1a4b7185dbe4015038ba6f055f9d130a37; 0x380e769403daa5ae041cda74a83502a495; 0x2d3e47c8fad09e0fe6353e159c02352a10; 0x2640bf0cc89da388690dacb9e2384826ec; 0x1e21a337acb4d262567789fe9542b8930; 0x206a567b5a045e731a3e79f5abc9dfb53; 0x13b012b9870c953f6c04190e8610f1623c; 0xa1efde3b9f8035d90ecf9224888c6b955; 0x7635e34d7c92ae6d0d4cf1ad72013a27; 0x87b764d1dfc4da55a4647124b984c0a69; 0x852ba1556379960e4cf63ce5f005ae62e; 0x11fcda85f741978eaa1be4e4ac0b6f85e2; 0x13ec8a68ed373a8d064567330adbdc51b1; 0xbc601538dd1dedfbc7b01a495a049f897; 0x2a1bc6719b84cd747490db52d1f7a07d0a; 0xd80b861e79f0cfb8ca457fde9847cd8c0; 0x1004727fbadbe688c74e07b1d938933f1a; 0xe3fe8d20c36896e189ed505b4b5da8842; 0x18ceef7e1d219ca987f238c9d462866de4; 0xb8690d9f608271ee256de4a4721fc32e6; 0x21abc29a078f4033149ab8b1d323a604c7; 0x14c6754d72c8e3d7cb21e652d5c69d46dc; 0xb03fe4945206c1bdb57f127e865838269; 0x2dbfe7162683e41e78f7c5468995fe523f; 0x17831f9a1fe5c218557fb5a251937d1b9a; 0x37f880303b909584eb5dd1ba31efa46ff7; 0x35b16dadca818818c7623b69600cf91bfa; 0x1d827c3cd25c9d49cce32590c62d75a27e; 0x4481fb8c92497efdade043c5ebfc8001; 0x1a39c662603249e2dff2ef997b80da67c9; 0x1e84f3253dd823e1ad4617a5ccc672cb7; 0x650f77ffed0d7cb03c96f636156b062a8; 0x158296a77a28484d5e06a94252df00fbc7; 0x116ecfae9d6a0ca6f3aa222f9f7531a5e8; 0x13d93d058121b1665b0ae2945a4e131078; 0x347b9baf4aea13189eff011eccd39088a; 0x39ef54fa7b13ec95d9aa986697115885b1; 0x22a2573f921e606f4183046ade91ceac33; 0x27ca18b76b9717e221a1192fcf7dea6e43; 0x5468df5ba98cb526d3c83a11ac94eaec3; 0x35f8aea6412f6675572443d6090fa2856a; 0x1aa953ce3568645c36b628378738a7f631])]).
  - intros q. reflexivity.
  - cbn [map pc_q]. apply Forall_cons; [exact prime_88_510691|]. apply Forall_nil.
  - vm_compute. reflexivity.
Qed.
Lemma prime_138_668747 : prime 276602624281642239937218680557139826668747.
Proof.
  apply (pocklington _ (fun q => q * 276602624281642239937218680557139826668747) [(19757330305831588566944191468367130476339%positive, 0x4000, 0x114761f57a17276184231256cbd81b2ad93, 0x15c4, [0x0; 0x0; 0x0; 0x0; 0x509faf1d7c73cc7; 0xae32186d37a5387746eacdfef9f7ae5b36; 0xa78; 0x1e15e9f94f6352c261dd79f0e34b0f5f9ee; 0x1047daa62344ca03332538c8f25a3d5617e; 0xf5fe0ab2c9a00b22826c82d1510e61d66; 0x22e2763dee5583876ef499cf062f744f671; 0x13417447b8a1f7561b23742a702900bb958; 0x13dd258f1b7db2e436505275d7ca79dea97; 0x1dd9; 0x3de0a9f69a14938a165b31846e9ab3808; 0xf0d; 0x4956e8fbbf7d2c3100eb7c00c838161de; 0x24f7; 0x1c7403e92b72a0a102c61266b93e8359079; 0x2a6; 0x99f52c08649238d8bd9a6078b4445fc45c; 0x799; 0x252b6f8d1f213f51c7b7d1111dd7d976ef1; 0x338c; 0x16e1792cc828119662570ffceafcfdf8647; 0x5bcff164840aaa92169618c358653dc2e; 0x170b29059969a3da6c471a3e0e6d4bf64ca; 0x81f619d9263c312644ec271e8a9f649f77; 0x1db369c7ac71025f46e6f2a73158097b1d4; 0x3404; 0x2d400bc9a18eb7b5195d2daf3e8e4f41db; 0x1ece; 0xd8907c1d5f8513acc0e862c93a4850a13d; 0x35b4530bae81836c229c05f5e85a70a988; 0x37c4; 0x2f3680a666bb52d31b2299450634e23a51f; 0x1149; 0x11cf109f7c98e46194fb832e0ba85c0c0a5; 0x1987a23662fa8d665d6f85ef24604476301; 0x305d765e2788d2be42f99528bab93fa062f; 0x282e; 0x10a2f2d5856eb97b2e070734babad25f9bd; 0x2f81; 0x2ff6aad47b508e37258fe2ed6a5f1cdd3a; 0xdc0; 0x170f8b97ff4a49f63642c2b52603b138656; 0x265; 0x131ac198a438f618b7996aede63396d307b; 0x148a; 0xf625069498d151ba15fdd3f8932f22f5f; 0x12860dad937794c67287b5b449316d9388e; 0x372d; 0x5772c898726b2c88aeb2a19dcc6a3c657a; 0x29e4; 0x1e02dfccd5068782a4d939d7018a804b29; 0xcfc; 0xfae2495ebf1efb0ec24433a52e0ca029da; 0x19a5591465ab582b9e15808571e282faf65; 0x231738c47cec591950675e94226539710c3; 0x2e07; 0x210bd10b70b31b204dc4c4e547e36da6fe8; 0x2d8a; 0x185237f23dceadaf640787e9fccfb4f374d; 0x1dce; 0x11322cc74cfe3f5c16ea64c24b7b5616e7; 0x641; 0x365b3f9462ba4b6e925ea422cbe3a873e3; 0x14d9db91a15f3202bd8c02b243bc7f343cc; 0x5fcb6965ba5006e13221402c3eb251dd2a; 0x126045a04cd7522b520151ed3f8f9b06ebf; 0x15fabaa083ac177541543a23a30be95b35d; 0x1c6e; 0x44ea954ae66cc2727ed045d0e39e3793a1; 0xf27; 0x18826b1a8e99f91132631d84955185490e; 0x1008; 0x5bda2d5cba5705e3cfd8a3cb10ed95eb76; 0x897; 0x818859952eeea1a980f618a2d1ee3b52ee; 0xef3; 0x1a2a4f0adcde4f4922aa2541e6a77d4428; 0x312e; 0xc0d8c5e2e97f145dea4253864f2daa4e28; 0x26f4; 0x21d3502b1b2f6c51f772f4c00d4e5b4395; 0x752; 0xed52d1d52d80e34503ff464ab6f5fd4b9d; 0x2aefe825cb80b549af1a2759a1f6da33065; 0xed4be125edf54b8298b26ca517c74f4edb; 0x3041cc8b2c93db5935e23390b41f14b6326; 0x2fdaa699b38c4dad19c98649b1ce5ea0f36; 0x2d0e; 0x42c0b0656e5e67a6a81cb3df2bd28a465; 0x1551b3f7f5f48888b2ec2016e7f2667589d; 0x336; 0x4825c754da1ebf95be44fe9b45fb4cfda6; 0x62a3a598c48dfa194c0ac67d87e59ff78e; 0x147916050d377984d05e71e53e9bca56312; 0x1aa0; 0x2685383a0c26b0e223a1f28ed832d643418; 0xb24e42ca4545b41b35f775c1ac1dca98d2; 0x13c9; 0xd819e0196707c2962b46a6b75a808dcfc; 0x1808; 0x18419e5555f12f5edea12a96f2f3a9ccaae; 0x1852e9bbddb5c141c507564fd5bce63f851; 0x45f; 0x13153d74074cfe46421aeeb8c93fc79e7e; 0x2e07d3326878d17275ede1a3db9666cc597; 0x16cc0ea6ec4bd2668be2a1f93e0fd575409; 0x19b908259e5e65f9bce738560144fdd66e1; 0x288ef65e86288edef830c51b59330402609; 0x2b02; 0x2ae8c35d3180c279c3c075c1cae6a20ca4; 0x22c3; 0xf1f7d30444a14f584fdbb212f8c095984f; 0x25a1; 0x9c2d321e7cf8c637be302396e1d86e46dc; 0x2a1bfdbc9848a3eb0257443880766529606; 0x98b; 0xd9868f5ee45cb0bf3fcd26429d182992e8; 0x3116; 0x1fee5f8c27a4d71cacbba8357e864d9818; 0x9d186235bcd439361bcdfa00adbb3f1633; 0x24c3; 0x6c2a247b0574f2de8c9a2042f792289577; 0x3ba2; 0xd1f3e0f8b7be6c9bb020a75fc76c35aadc; 0x55ab0a4c64fdeab109c9c55e71b93c946b; 0x13dcc0c649a2471221636976e6ff8578788; 0x30624c8e8ec1895156c775aa246f0dfed3f; 0x80b564f36c68aa8a6523797d6373e8154; 0x3ebb; 0xe76697c2e121af7bc3c4c07461ebd1eb87; 0xc22978c540ebfdf67a4ad5b1f5950f5a6b; 0x1c59; 0xfebde960116a2755894792a341121e62f1; 0x1c3b; 0xc5b36f8b40abf68e111fbc2e0e1bff8d9d; 0x38715bb4deb7fc715c1ecdbc5147d2013c; 0x42d94c9a6884db5d0b6a811a5f1871b729; 0x8f07be5c9a08a5d296ead028d88b293c2d; 0x516; 0x6968d8f32c2449b47827b03281a237a521; 0x2b2e; 0x8cf0d40cc6d174dcffbdb3d98b1a8794bd; 0x294d85c9dfc5cc9b31381531de964977af7; 0x2080; 0x8949794d125a7d448d1361d5550b72d5e2; 0x28bd; 0x179fd6d89fdb48206a07bc3e2203ff; 0xb802e9132c071791280bcd1fdbf6e0e; 0x1c92; 0x44d9a13002c2471b3d8574f8dc72bfccd; 0x36bf; 0x162b0acbe4a41f0c56e5c118138cefb9d61; 0x34ee; 0x21b5b2362359eaa9171a633923f3fd39c35; 0x2824; 0x10053223b52aaef69c8e5e8e8ac792663e4; 0x22e9; 0x1645759fc039b30017d10d07c42d091c482; 0x123178e548ac1bcdd0ad011b78846ed83; 0x9c62564bea39568b091877ec64cfcec93d; 0x6d8ab2692df8533a80b6882da3476930e5; 0x10d0c80c882e2804421ff921beee90ec54f; 0x38bc; 0x297cb97b6654f65e5739e33e97b00380fa3; 0x36dd; 0x27313b35ada938287ea974909cfc23f428; 0x328f32ef5fdafe587e2985084fd401d255; 0x55088bdb7d3f547810a9d27cb9a9b4071e; 0x7ae353b97a7d67994733a44230b5b775e0; 0x31c216b2ef3a8e507422ea929a3c28534f2; 0xfe0; 0x2064e7daa3bce0aa0629c332dbac7f47a0c; 0x29f1e1eaa2f654d40de208d82b1ff7faf2f; 0x248560cd7b2be8bfdba0118c1c8248f0d5a; 0x2454; 0x28cbcac9898afc0196951d7956b23b89424; 0xc32fd0c4130434525a1922e6324d152995; 0x4bf0815965d192c2d1b88ced81ecef6377; 0x3b55; 0x2b8d9c99bcb494899cc0903fb736f520d; 0x3b1; 0x1110560467ce0b08dcca5340694c2145e4b; 0x3cf7; 0x21c0f48061efe61eae301228fce434a6687; 0x99d; 0xfc7cde097f69630182f954bb96fb1abad7; 0x69; 0x896a90853253991833e804d284ee074a3d; 0xb7d; 0xd3bb163d71e2d6a0e32ac6588c73a00cfd; 0x49e9fad04900d723eb704ffc4af102bac; 0xe786a3138f8b8e8a3f59220d733ea2ef0b; 0x1bb6; 0x1cb2bf5e825766071ee8b0f6ddba6c906a8; 0x3c2c; 0x1c9de25be751d2591054e68f5d83c918ed6; 0x2f4f84e850e3d2ac1c1216173461a23432e; 0x1fbd7f6e5600c04269e905432af11cb7f27; 0x4a1; 0x1e6423407bf23706eba65d6e2dd73af5901; 0x2f1d])]).
  - intros q. reflexivity.
  - cbn [map pc_q]. apply Forall_cons; [exact prime_134_476339|]. apply Forall_nil.
  - vm_compute. reflexivity.
Qed.
Lemma prime_253_250989 : prime (2 ^ 252 + 27742317777372353535851937790883648493).
Proof.
  apply (pocklington _ (fun q => Z.shiftl q 252 + 27742317777372353535851937790883648493 * q) [(276602624281642239937218680557139826668747%positive, 0x6941747825185c74c21c65c0572a638494435ae0b3ba38e09b97aa8d26faec1, 0x4f00a20dc254447a5cb50de6926ccd209ebc28f00f1664a7d2f3930fbe411ae, 0x207b7592275fb6004a6d5c2ecc8309eb91af8f6c5d2c999f10313442f424e9b, [0x2b46c246e86dec379a86684e616777fac7bc8bfb4af0a0aec8ff3cb03204d27; 0x685ff6c0b770a042cfeed904ce9b787cada37ae18cf9d2c6ad3d65e33eea293; 0x41a9ee7f2475a065ede02ca9d4eb7910c129aad7bc4ce3d1a31b97e003514b9; 0x277f0a80840c51f154c7c4f5e06daa8fd0a011a78de030615ede62ca3177625; 0x817892c17db34bcdceb31d68506c516efe7a9010077ac323975c27385931ca4; 0x338097b31297210c025f63795d75ba5aaacbbaba19ebc1160a2bc0570ed39d7; 0xac3d5621d4cc364bec3b45495f28777df5dc845f86bf2160698bd31291efebf; 0xfbb2a8c275ff4b6b634fb836cf1e7e34e489c4547d72fa7629c61186a651b4b; 0x4537cb7ef6b7526ac012d49b78101d905f9dab723fadec7518268e443326319; 0x2af1f2b399d3b401d656509f0a92332c5fc73461250e0df75da7a85a0187aed; 0xfba7b8c43d12a081ef37b7846eb9bb0d050556dd6bdba3cf543ec0deb6a6a1; 0xe703f2dcf890d87b8339337f4601a0f8e6fb10b4c4a8be3a306a310aab92d64; 0xedc10d3aca13154c4dad998105d8b65dfe75095849e56e70fcd7bdb37311e58; 0xbc58f53fb4c2c0e32181cae2132f6b126c69b3a0049028bda3c5350d469b85c; 0x5fcbd17d1806f0ade0e74cc8a87af61671350cfdcc54be671c665a28825e3c; 0x7e9892ff77342718be5a0a4156274bc2578c4e131c7dce665ee344ce72d85ee; 0xf54c2536585f03ddf1604f8b8374da7f68739b5858dfeb99a7dcfa7b1bad53; 0x43f975e39c1c465110c3bd5c01758528cfb27a92d4b7e4c595403a23425abc5; 0xf901f4caf7e52eef11a916b9e9071c87327f8e272b0d468430cff14d2abf428; 0x2c3162eaa0745990514958a33d1e3224d00b87f9409146f13e1ccfd2a66c487; 0x1b86d0d614880e2ae1d30e4e17bf7133a6aa07e36f89a91f010a432d9f958fc; 0xa5fb00128ad8ead7feb17e7b58c15a440f6a6201d30f16e95e5a165f32e757; 0xc891d302a7aaa96fdc768b841b873637326a68544358ad1fe3c8bd2c200681c; 0x2526eb4269e4c291a3b279c5c8f73d3e21b86372c0c0b91582f5f83a2b22f0e; 0x21c90fb67dac8f2b2b8a8d45a55ce31930866d97129527242bc90282cf8ad; 0x2973c9926a8c18c00650bd37ede80add4319bcf96afc1d743b819e1157c740f; 0x48144f2ddfb4c34eb4e16579e2566c2654a098dc73b7c9b6f8eda7622e07f1; 0x5932a460675bcac93c29f88c0672bc3f063498affb1db45f836ff7c1158de37; 0x2b2f2295ee84c0dceafa1ebdd475a450c96f6569fa1778b5627687100d6644c; 0xbbbc69706d764c4339527fbd74f7a65a7fb2489e0831251875e669f4eb0464; 0x3e714bcbdb855fe80d6dcecb232be7a31f93683c9e8575180d46cea3b2e9c03; 0x6551d34291141f8ec8cd8536667baa3c609713ae4d9e540b76a040a9c83cf44; 0x134157d34b36997c658be81e54bc7602a25aa0266d978ed3ddbb7a2c1968; 0x3f91673b5e64f72b1404e617124fc51aa21c781f2638590b5ac8b343255d914; 0x1b6f82fe710408ea533b4584d5ce2d91d6c11b6b12367a908d142551e684125; 0x1e19a4da460cdc53d1d48328ce9e7e06bf07788f03fe2171fe7535f0595a847; 0x2dc2e722a791094b771311d11b6f1b1456040b965ba55bfb4b2a687911e11cf; 0x3e729ab629841c6d758adbb0370203a39baf278ede058a4650ad614882cde89; 0xe382bf63e81cb61f2ac2d3200e0a0351b8671f592cebf02cf34d72f27fbdaf6; 0x5ab48abb30d01fbec62ad41ffba5dc8d051b07b4fccec12b29dfce167ac7dcf; 0x25421bfd7a6fe222cbca722474262a3154076f7b5f4ae63b0a64c02750d6324; 0x1a461ff34447fea6a7393763044851b4aa3e2c0dd102ee7917810bf08f6e6ac; 0x1abd7e289db6a6bbffffcf5c3c4febbc3a11b2ac5dfb0dbb6a57720e495b0f8; 0x33a63e46eb545646da46b082ab1e7ac0206d742907e300169d3cd25e876710c; 0x2479973bbb626a17690e916a89726e62554ef5c0e60080cb6fc6bb403726c73; 0x4a6268ef71d5fc0309f90b1434c1fa3df902e30af7c719b64538979edc22ae; 0xffa637e108b1f252a477fba4de08b882c8f1299f41297ff0133204a65011506; 0x43edae9626d22e05686b8f6167ed2e95e49f1535d945677af81f72270bfad38; 0x8c64946ba8f54d60c8417d651dfd9d9f2dc134d1dd3baa93309f86f9627c70; 0x21c7196aadb88e68ca7d62b04f7b524c41d77d6409b69d31d1e3a1a7274c539; 0x484c746f2cbfce08292e9ceee6ef3d4990f15174702b3e9b44250e89ad13d95; 0x38b46943821938aef05b1aa8993a99c5253de3c6cd5b40c0e224a09309897f7; 0x6f9cf67665ee68fc083197cdfaccceb0a5fd2f985f2db607e0a3b8c10d4f1f4; 0x9247ef51a11bf6c0271172215986495fd9f3c313496318ea372057a3d59efe4; 0x480708d4b00f4c8e861ee168422db7d772e802976a5e0956972ed3dab351310; 0xde39952f153817ff4d3d9078e0a887c23d60b4f77ed90fc983a1548c6c631b; 0x9d04ff728bd27778f8a854baf0190aee51c425986673e68e4ef5b259c95043; 0x3e1d6de5cadf7a620762e67bee5bab2672278a09fce045019fa59b127a1951d; 0x195b3991a70e4b56376acbb3534258cff97c4ed5f8aceb019b68a0f50db8641; 0xf7b694907c75d6507272398f753c961904ee2767c6570e13099cfeab192b67c; 0x67ac4c5f8ec9e7260fb8303a009203cbdab08e4b9a16e9f269cc5287d8d2e02; 0xb7f28c5ead91c9c8593f39c9f8ade796332fddb48b18e73176a301de1293069; 0x8ac4ef75218ab23066dabf945a08d275ef4a8b3d42ddb1766bd19e33d4cacc4; 0x5c8f30ff843981ed3b294e1f3134bc808e3c502355afc0dc8a36a1d3336de3b; 0x7d8ca74f7a30a9647696650977cf7f8823814bca0745bcbeab5c017387100d0; 0xe6f60bbba9017d2b90f07a48fb30d0f4cd1acfd19d54dd6a4c78573bb96aad; 0xe7e042cdde9a586276084a9d4cdf2124e08488875d4eb841f586f8084e01b4c; 0x5443ad1139e82953ee6dfd7b432492a8fab8f7bc2beb437cbe9ccdd742dc7f0; 0x9542d12dd14ffa0841ee3f4fd0df1ecffe4639fe3b90a5c7c9f001c77acc3de; 0x7ad1f330045efbbcc6a9a044204cd0cf581971d40d2228b65107b096ecd5b; 0x548e2ce31c50c0a16ecd8a6f34d206df08ea15ea473ee1fc04847de8da1e97f; 0x4f72b3755bf032df5c62a6262a732a57d262b40f8afb2136a8ce80d2a8ebde8; 0x332882cdf95113f22cdb3ca7f56374ca1f65079dfb0b90fe738895329107929; 0xdf234e26d48b52b14a86ec6816992ae0f15bd45866e6a9fe1b0c840ebc4cd7e; 0x22620b192809586e157b4f906fafda5694771715f9fe6e1a03125db42debd91; 0x4a2edef91f63268b609ba7a986e254a9a30ce4e7e8f895ae31163cc4ac22e15; 0x10ba2843c90f091cb521f008515ea47237fc36ef7d9e3098c7765866cd9fd7; 0x5114195917eef5d0a8213533080e7f589cd594f51d99fc80b81deb8b37cf862; 0x5d4785f794aae3467592ae00dbdba9090f5f2ebbf93d7de857eeba38d1c4e4; 0x7181f866c3391c1cbae58a2b3658e8584a7be4e0e7a8d5e687c638b208e545; 0x8fabdffc409bedd5e557cd28984307fe0e8c5c00be6321e7c13802d2c705306; 0x2fb735105f8ff2ced7f9a36f53b3d1ed4563aad1381958d88def6ca075043a9; 0x33c8ced5e988444534e492c8ab1c6dfb67ebd958cb0564a9e0b3103c807858a; 0x75a725379b3ceea3c6d0b5d665b69a2100a5a7997cb89b9b6fe0bbf028e56; 0x83770a0acbfdeca0a81874e66bc2b5327a964347f557b24d175f9a464c9581; 0x74f58071d07cfd266db7387c74028caea30c5cfa5e97c96abddd7f31644fa71; 0x5aa683459a5d0c459d424a1371a632a567a527826c8e4e0e7f904e927f08ffa; 0x918804a4e6cb0d574609b57bfbd6b18125a1ac78c2c47975626831ad043a39; 0x1fe80022400db4a4dcea3a61640ae0ec9673aacda52314b45e220ecbe333261; 0x89ee4e5ee3446b9e230cd7d7dea46678fb43bb658749777e8adc2ed411b990; 0x2d1f61c3e3e3310c0a245c1d1a03fbf5fb18d52335c54b02c3aad76d0cc5468; 0xf8ca54dff7f4ae6bc368ee198158bceccd243c2f3fd2cdb1077bdbf65cb7f96; 0x2c7905b75cba6003f24c03f0610a98203ef44344f9b0e5a48585249dcd529; 0xad192f1dddddb910c75bbc71d2decd58f7bb3665225c75acbffbff0814303c3; 0x2a690e840faad29543156191bac7077a987848962ad8279cb07acb21b58cca4; 0xd438903081c70ad0bf3b5751b1c9f7a074a064812f5e9c3b94a5736448095; 0xf79e9993dfe23e8cbbec94e5608da9091d9819b7b7c9649c1063f7de4559b00; 0x4dd08b5022ee53dc8ea0fe2e3fc4269960e4a7850c62045dbb769b84aaa863f; 0x3b8c3bc8eca4b1f72a854fa0b511224fe143a2e674957c122b022ddb8b7d1b5; 0xa3836e166a5d59d599d514e6a1080c48728d7dc343423dbb045c09b5b78e613; 0x31e8af21f06f9c6ea5697d289da25e975512c0d83a729c1b0f7ca504b477cb3; 0xa7c8a01c1e13250043814e274aadd3caebbeab712789a1dffee05b33179acb4; 0x7ec93fb78699efa93d0412a88c7ce4d0d05a6349f4d60f73d38b2c0428c97b; 0x406634f671e1a202a43526595e4c401894f4052a2caa1ab3abf506e1ed06af; 0x537fae3f09c4658b475d8814cccb4f2d4532b241682583547ecd2eb2ddd4d9f; 0x17870e634ec8c8a97871c44419f871c26a96da4e88f3d6c6f6ac364881e3; 0xd65ec552980b13b9f24fe1a58b06a45348c33e108d8803f55008577ae862e4; 0x344320b6f5206fa1ecdcfdfb3cf2e8dab332cc707a143dee9d94adf2054a164; 0x3bcc0b535ee67ce86182218fe9e95c15f2e0af419feb8fc31d00ea40e278657; 0x629e216358df7384dfa1d0db0c5f7666016bbec39286caac9f4dc28623046b0; 0x2c68a40ad8e9695be718016b6324ba969e2d77f41d753b38e28dd6f2d67206; 0x31a7d2cc273fd7e819760a5c3345cba32d4b74f0deb0200bab4b47d0b3e299c; 0x503fb5952da8f082c32c9bfbacdfaf532d303a2bb540f5c04512578af1d4a1e; 0x714c4fa921aba16923fb8df4690ef71fdc6e3039021ad46928467fa7007e7e0; 0x5011e9a94f1883a71cb35e4c8af398d86701f4085c2399d7fd22618cd60e899; 0x5c07a718773b5015b6f297fe9239f65b0403e67f10e3eacdb4d714a636adeb3; 0xaa04989336fae0fcfcfd5de4be836abcb3da5ec6c909aa9134686e51b580b6c; 0x2cdd32c2c9927f57fe280eeed6d8b7185a82d0bbfa3f2e6f37aa10510d543e8; 0xaa537812eac4e34f5954d8e24ec2362393dfdf56b2781148870093d7d37c46; 0x1a84a4067c55742358a1500d36902ed0f94e8731cc973706fe94d3a802635; 0x1d8c262984d761c298f48901104f529447c0f050c2b4e6d89dbf0d8f342520b; 0x2f1fcffb220d248a5c59373a7415e15897811d30d85ca76afd3c7689c503b3; 0x4a1c27c7e02ca235b6bb4dd39690b18c046a5f071175ef44061d08cdabafdf6; 0xc47819ed0ef70152add801bc624a3d5aaed9b9a52dcd6a3f5825ca1c95dd8e1; 0x2c9bd8c802773225c891ac2614c9444fa0560c48914871c41da3b31e194ae79; 0xaba6e618cf58c5de914ef2ceb904e50d375ce046ee701c48ec7567a54470d3d; 0x4bebbb79098ca186a4163d56cbba4b4f41722df89ec55f283db4edaaf9d53d4; 0xd0ffbc0c7611015b06b2d6886413bfe71b73c4e7b04dbeadcdb2dfe413abe4; 0x4240fee7a2db3e57824cffd44af8fb095651591aadc346ef996f6292aa0e7c2; 0x80f0d762e9f0231fcf664558a09b3f2813d58dd5cdf951daa6633490c7b0d5; 0x7675f28e71f02cb239e1d420ce026a96f3476306afcd6ec70ae942a2cdcbe28; 0x19fd3eabe7f8ddede864f4d63fa5f82cb0c7d6a55d538e205d0e2f5ef90a606; 0x277946e114de30c8ba9031f6b841ba8b9d93e0ce6ac03aab72ee77448ad13e6; 0xb0a4162ca01621052e66dfb5eba414ff00e57b6edd8f2b7625631d43f36f53c; 0x65e32e1f151b446cddd296317f8fb08829e310845919525c4c95e0834f8960b; 0x18e55ec0bcc015b5c68852b5f11808264b0358cdd9a12b2a856fc400129647; 0x177a635464288bddf97704ee745f6609cfd1e920ae8ea7b7df0a305191b5ae3; 0xfe8b5790b85718a49e71a9ecb6af07ff5a7b4f588a3a63c3cb37ced08442; 0x399b1299dd598466a9117042fe9f238ba0b2d9be63e36cc57674727482e35a9; 0xc92500fe41ee21441e105999fe3bc4747d22b27a0cfab0c6f0edb71bbbee2; 0xf75bea0c955d71a146a8d628cea060cf0d3a7a45b6e7005296c4b699c0a8c; 0x81c42b487b6706b4db48d4c4c1d2df7d26f745f24f451a27130a045d247d6d7; 0x645b6570758d9f211487c54a69f6a559b5dd098d213c0bebb29cb4605619a1e; 0x40f17d489fecf1467e935d4154713d1ab5b8fdd32b61351e89467ccb15d6504; 0x95a998113e2b9a93a24139972ca0a9ce9a35968097f8ea22d5ce859e5e8f6fe; 0x472712472fdf95d414ccd52c9e06a6008bd3d91311267bb55ea653e4418f16f; 0xe8e17a255a5adad9983efb4daf53938f7c19a8616feaac17fbb1c1f8473ccc6; 0x7374239c9f788a615288e287d78b4d6742e89b7c86d698a26bbfe7586c1942; 0x47a4e21cbf86594c20f3bbe5e87c2eddbdfacd9baa0514e447683dd7c70583a; 0x78dfb45baf7dc3b3c1dbd9aed5d7f7c60e0b9aabc03a2416c0ab8c9fce008d; 0xc81cac4576965c44b603124ac61b2c373445e0fc775926191ac6437ea11a99; 0x2a8479b21cce03d86f5720d4202a013ac26c43fa25e0a2efa9df90977d2e74b; 0x756e17440ab7a199f889807833b42f60bf8e330c70369eef4aa01bb0ca2b063; 0x5a707315603b1b08ae0f4e866e0e99c7c9cc217c303d4cfee9ea1d3fa114; 0x72c35ef7f548dba995d49ca4cf9ce7916a0f8cb1cd7278e18d939d181f2dee9; 0x2d35ccd89bb371d86863d5945928d9dd1a963e1792f4db25b35699b2462014e; 0x11d09d7b94c53b416f0afeef9b0da68b1318b3adab82bf59bed5f7f5accaf25; 0x27505623129fd45922a87eea2ae96cd29f8f8c9333f186c66cc01c189401f7a; 0x6773eac64609069eae32c4d027743f21df62169e034a44442eb7bb404d87d27; 0x31a68ee2d6129e1545921205a9ff92ab6c982ca46425b6561bb571023691e21; 0xd37809119f006e8af16bef6451876f06a15d701a9dcab117d2c7b4fdd6bd388; 0x1c2efb35913b0cb8e528d299fe8b52a346706eb17536ae5f0057776eeb74c5c; 0x3f181d59a935cae8f428ff886214b3c4204856883900234b56d205ebcc737b8; 0xb921ff3164d2ce354cae2e66af8e442c2a868f29a1f8416ddfddedb66139a6b; 0x7376aaa85381bc02346a6bbdfda74b0004012259fdd1965b4f562b935ff518; 0x132ee7abbb9adf626fc97a72d79b125fecc1ceb80253cf45e7801aba3997f23; 0x57654ac22adbea185f360a3d072f171de6e959975dcfe377bcd5df49b6df2e8; 0xbcd44e9465e357b430058958c6986967d67a37cc8aca446db769ee03c7d90f; 0x25feae65a8cd2d46363b47575a091e7bc664a8ee92b96b57af0fb52c8aad5b9; 0x12dd1ea035452b746bc91d12ed400199336d7d40314bbf6a2a8ce3605ecffd2; 0x124c806934313f87106928fbbd5f0b734dfbf49cd0d98c1b0a61a6fa0041885; 0x4b54f68a61c64fb3b5ac2900a9c7578098077459b616819242cea8ec155d873; 0x8ebdd238ca336d6f16996b5a56b22a77cedd4e005b95f38db6170645cf5d579; 0xb7c28eba2da7f169467ef03e43905a78eb55537277edef3cd5a5aa6ead1a6b1; 0x350a1e7e6c4cb93202a7148e617afaf2d6c9ea2fcfc4e6ee4f35f3a3ff0de77; 0x289ad85a054f674ee41e8024c6a69740b227378d4830f1075b5e0763c332a45; 0x88e655203c27638d45ee4c0b1a2f07a244d5d63cfbeea05e92281c067044; 0x239824e96e382e19e09bb0b7a34441f6bdfdc73191aef55f88a0c5bb34d0283; 0x46eef418e74ecad8809183387971734bcf8770ef946b128ca62611d2d2c4e43; 0xb0a656253a48da9dcccfdb248bf66319a7178f0f467bccbf07f7c4b5311b603; 0x2f5d224c026f3c1ebbd864fae9c654ebd6a7e4233db64772a90d21b6aee44c3; 0x7f9449783ab5df7478add4673efcdc146c3c1e4488df6708af25280914e94f1; 0x5de89effe8141b185001661cef5a2458996fd273771e698df3487859c60fa46; 0x507adb8f66f28a2ef42e55a15256f78a250ebe208d565421ff54f28ef3de24d; 0x10886ee903d5701954dd78539bd73dad1177eb7720b26728fc6eded9c53c555; 0x2107e1182def7c3e46a96623f70ea8f97cbffc64dc511d4440271b427a574f3; 0x1b167871be20bdf3f02dcae7a7ffbca522985c00a3f1c950d9b0be443b23b6a; 0x5b6ce383299720ff8c31f4cec72db9c7023fec352d11538fe7c0ea20f5868b0; 0x76519230f395adde520b36ebfdb0ffdcf6b2dd30d791b3c8ae35c2513055c2b; 0x32b30275a8180f397e2b099443d913a8b28ad8ee755ecc8072f46bc6ac6974d; 0xf46b869e1d2e320876bd5c5e6b6a14023e000e49c1a1b4cc57167585482bc8d; 0xf1c839c9a5fb8ab996b79a31626442a8b27b4cd7d2369d770203594146ac581; 0x212840206ea006ef8c556e5eceef311c5532cd17b62c5c22b7fa4a08d39ef5e; 0x2cbe653b85b8875c9ed4a964745e8aeed5de1942ccb204bd47659af466b11a; 0xe328a73504d2c495332a0dc792ba9388d8afd11804264712bc1c647d9b7eb1f; 0x196262c84f01492d3093c22212f5c26b174a28312894b873584fcedd2f3d5d; 0x4db63bd35ec53c1586c9b6f24fc3ac287e1f214a3635b89fd13e30a0c3fbf1f; 0x9abbc22673a2bf8bd274537f50f98c6ac52ff0a2f2b3514f9980eb0ccee73f6; 0x4f4bc5fb018fdee3ef39b11599d67a140c5c97b887e4ad8bf38c8733fb40e07; 0x44e95a29b7b352004f72715089c4ed0fe23013d10b6a08cc7641dcf270774d9; 0x1aeac536d91a782585189e516ebfaf94f5bdabd96d68f2a2f76f3561acba767; 0xf86f394f060983446d6ed54e8e6ec9f0e844cbe2777a739dc15591dd262a44f; 0x1db40827a471ba7198e7ec08d3334e1ea1bbc35b6e84d23b121e6c08b1146cf; 0x9a5f5460c2e684eaba2d082fd73fda47bb4ec0533514d95ca0b05c11c95; 0xbf33f549e78f6512b3188be4006a391801dbbae48d1bb30c06ce04ac2381a94; 0x3208c9f663f305f299f948e12d3ce554e818eb5ab62a0f12573eb3ba8fcc8bd; 0x8ba9b64db353eadb123f38132b73ea3fe59788ec712a5c388f95d1e5d60df6d; 0x3d3409b433add184851108ff87f262d1f63947b940ad5f1eccd40e23303573b])]).
  - intros q. rewrite ?Z.shiftl_mul_pow2 by (apply Z.leb_le; reflexivity). ring.
  - cbn [map pc_q]. apply Forall_cons; [exact prime_138_668747|]. apply Forall_nil.
  - vm_compute. reflexivity.
Qed.
Definition prime_L25519 : prime (2 ^ 252 + 27742317777372353535851937790883648493) := prime_253_250989.
