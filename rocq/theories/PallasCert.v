(** Generated by tools/gen_pallascert.py: slopes, points and quotients, checked step by step by [run] of GenChain.v. *)
From Coq Require Import ZArith List.
From Verif Require Import GenChain.
Import ListNotations.
Local Open Scope Z_scope.

Definition pallas_gx : Z := 0x1.
Definition pallas_gy : Z := 0x1b74b5a30a12937c53dfa9f06378ee548f655bd4333d477119cf7a23caed2abb.
Definition pallas_chain : list (chain_step Z) := [
  Step false 0x16dd2d68c284a4df14f7ea7c18de3b952c6afd340f2290232cbf2ac432bb4aaf 0x28000000000000000000000000000000156c1f9d85d01bb13fbc3e941fffffff 0x88fe18ff4899d4d432b1d955dce6e12f8590375f1009580e23563c65a3e7950 0x139e01dc868b49ca1fe05da55bab0353121dea270307d10aad97ae2b062687a7 (-0x82b0b95c1729271093a0653b1acef4fad5e7c91e4299e2a20e2c0766d73a3a0) 0xe4a3c617992e70b6d1af28d8f8ae53d3bc2de4089759a15fbf77aba9fb50ead;
  Step false 0x1d151b8584adef13c03eb1829b1f07acfa5266519e330ecdc9de20b118fcdf1 0x1e3b3d5af9a723f789854a0cb1b810ed059cb843bf5e57c922bc49f42e9c8ff8 0x2be437cf8a08a5edd4271b71e93947265aa4c194b0827eb8b309bb0f5a32e074 (-0x4a837f5cc6417ce391f3b06c001ada44e8e00e6bfa02949682371f1a20b57763) (-0xd3727e71bb2714e12e0a1343d835e1fbb2ccdd5f3fd588047942c4c4d4ceb) (-0x47060f60848d44b03c1a2a19ef315563cafe1ff5de612fca22f0fb35c9b7d3);
  Step false 0x2d9e6076a2bfd29ad6f08c0632661f3d4157eb36a3e0752ea084795866c3ecd0 0x1a9f4573921cf6ce919f9d26e8f5d2dcde5f6030be1b06d1e70855a2b8fae987 0x120cab91d9a1a00da6e4667df3dc1b870a900c5e73d939462d3e73f390e99109 0x13bae88edd3bd3b5adc0d0aa903cb683c5d9c80b721088ab3d6b75e80b959bc0 (-0x20843f93b0061772d3ce0185f1edabff79bfa366e158f9fb1aa75a4849bc1f89) (-0x29298cb5cae8fb08b7bdce7eb67486b079eeb97ff8a15df4af173117bbdf653);
  Step false 0xfdf3ff22cb141f333a88da4e05b8ce1a050236c183566de992ee5cee8e170f1 0x2e0e0e047cc5f828080c5a8c8f9718efb76f4a2c3b580937cff013cfb5e09bbc 0x2f5bffd194fa593436a15c039f43208a91107a571f793f8c4c5d1d3afab5d28c (-0x184501984fc4389ac511b9d23d7c2888907435e19337613d7591d913899c1ca1) (-0x3efb0bb647ee68cac96338a53e54cc974e86d08d46eb053360568b8619f5417) 0x4d1c06f65d8487405fca0aa8c084cfae32f8e7067877d572c06ab42c668577a;
  Step false 0x16ccde1e3caffe5ceda3212a5a8393f1ec11825d40eaf762f0115d2e564bdd58 0x2b0c4f1098ca60d7bd027286eb1b57abe3e30dd4294eadd9462f2e5163d19c08 0x350b983641025812ad5fd1feb2a8e3219acef70f343fb8d4cfef2f0164008b8e (-0x41ae329bdbdec82b08befc92434a5d1c91bee7e25409acdd426f530886a91df0) (-0x81f687fcd5db42386fa1f6047f7ffa569df671b2f8dbdd6fbccd121c15e3ac0) (-0x11239a3f9ce96d790abdb96ad59d5b3e306ad11632c43239bd1a85c2aebebc6);
  Step false 0x223ab6a5bb73dc311fddfe9e5b13bf3366126fb1c49078a5bb99699f31f3254e 0x2500f167600b873a3c91124703fcc6aa6223451d492e155f47d88d9539747c7e 0x3971b0628073cd199a8686e24c1e7e7b17cd0ec13381d5801b58d6cdce743b3f (-0x1e200052cc01271dc0c7f1e286aa19faf37d310bc08d171b1830afa8983d2a38) (-0x124e97ed2ccf2342f1ae43ee00ed43fa8cb434d61a0270d88421cee5b26bef36) (-0x33b954ec0dba9185d650d42e762e3cf2d90d518cb50d7f225fe1a768577c73f);
  Step false 0x39af95d238895031955e85d71852ff918ed430ca8cac471b99c9fdd843b2adef 0x26fd4eee9453fbb7111de67635f79f3d6fd1bc30631bc051ce39d260fcd9e4e8 0x3aaa50a823905949471588e921e75c867ac0e8e261a32dcf71f5317118932f48 0x275e6f758b84ca7e92c94835e43e31bd3cbb6afd37b0026cd27de3107286db96 (-0x33fea49729134f8975afd329ed49bcaeb4a614e87dcfa8975930dc0d00c6073d) 0x1ca360237d63bc57181dcf3f7237935ebca62730044989b20de591331f7877d;
  Step false 0x26eceeda7bfea78fc9b8ae1c5a1c645373108295f39c85b54c5907b80fc5bee9 0x1c34d5eae586a8bb1a3535af4f367634c00aa276acae4ab8fe1245d4f8d0fe89 0x20a1484ed1f83ef7f69ab60262d2072aec8d59a43e5214c10c147775c50e4868 0x1a74ce8676d4260a7859214cfc22738d6f907b27b8212ba4f5577e90f0ba50 (-0x17acc8c879fcc1222948b9f5f091f6cab422ef631ffb812e1310021fbc73e7b8) (-0x68ef356bf24956d43f55fed89be795584ad3b1eecbc0600c98774ed418db6c7);
  Step false 0x3c4a216c73bfa29c19e2a0f02b45b33dfcb6fa9b59249295322e661df4d1af36 0x3b81aa5a91de9626a64a20a266de2fb0d883088f59b182eb612cc00c814e9973 0x2b9e4b6611696b956b39ed8be5a59ef34997d9226360c10cbb64336007359aab 0x182eca3c143a3de2287b2476f659ecd96b75dc4d4c38f47def50e387ffb84bed (-0x38cb5488b5478b31d1518190bd464b4dc5e7121707000477950989d10b2648df) 0x1d7c4856fa7d8c18fb1758a281b175a94bf155cf40986dd88f0a12cbf4b2866f;
  Step false 0x3ce586432a1fd3932f6d0bb747f11544b22c9c0e497d92e05997b522e670d41e 0x37e9fa3e97ddf7d9230bf1f3e8cdc67457bc189958ed9e11f1db02c92c6754c 0x1b7fa1b6bb5e1fc50315e261aa2f9bd90c21687f9d1967b56d95e07d15bbec53 (-0x52faa13522d9904877742e243af44918b514663ba945420e065da02339d084e7) (-0x39f192e3d94aa757a28d029c4c23c659f9c7f9cbca057354276ca7a89c9e0b52) (-0x354bba6eb9e8a6bac24e72006582c1bbf1cccacf22bcae2003c3101e70030194);
  Step false 0x9751e2843b5964c4d5868352027930219ca9e30d447ace189f95ee37cf6d6a5 0x3dbfc18e2b851ac1b26238d19b2d8e2cceee4352556182f684654a936aecc7f8 0x104ebd721ba8b8b4100a54fde687e8165244b3b296abed468c0f4c2aebbed5af 0x78dfd9465a6813187426584ad1698e6295c66bf92e25ec77001fe5dc4f1bb4e (-0x165c6cda4787b0224414656c5f95e5a8133dd41408655585e95b68d809a93c9) 0x89bc34a1fc6336dd83d3ddfd4c952563edbfd42106ade19f3768d7e1c91d2de;
  Step false 0x3d26942d56070ba938262deb73999d3cb6f8ce050e025d0cd8d7ca2347fe7efb 0xe0c95dfe7ac266485f345bc6ab07199804c41ebad1370fc959bd70dbdc225ea 0x2e975362a3ea41e970d5ca407851a156debf739e560ae10819ecac82e7996ac5 (-0x9391945bfbbcba2ba894dcb7970efa1211487d4464e17fc28e6b7116cc873796) (-0x3a6da1b7b8e564966f756ea43c12726409b344d8f133e6de7adcc189df74543f) (-0x2d938674273ec8232c04e4949954ab3ac6f1d5215cdccf9c535a91f89d1b8746);
  Step false 0x30c666cddf994b348a78d552186a4ebc7406de1ae7044b6f1106ab939c73047f 0x171d7262c01fd60db32695ad282c44c08d55562c63c9aa7a05636f826c61a20b 0xbed158dbb76ac7dc306b0a161b5052f4c745d6c093de431e19ddea1e4fd3723 0x3dc34ef36818869af13e3c55fb795b2bbc41175e98aa9cf2f8d09c5999bba9ca (-0x252c01418e6044483fc100dd5f323b9e7ac78acc0f032e4ef77202e9ea484922) 0x6e8c01c6043bd0a4e89228a9f7553aba3461787256905dcc9dc2f42ca78ba47;
  Step false 0x26ca52c6ca606c501fc62af97e7b11e651e0765bdf60226c738ba07a3cdce54d 0x29d0e443208440d9efe2bcecf2bd03f214ad73e607672baa727849beaaa67154 0x220964ded7b5f335571a00da55d726770a0d8b0522420668938856f88109d78c (-0xa96b6405526cb900e58a705dd0b53961279612468019ef9aeb4b3cf7f97fc5d) (-0x1782c1e7023fd158a9a0a42765aadb5095051e32f7ba88b24a9d06e47e5123bf) 0xb55aa2ca59e324272bed48d247df41471f2eee7132a795e3855ce19ece1b4a4;
  Step false 0x1d0f90b0e0c7956d6dc67fc09bf8d72c433034ea3e183e0a329a1a5ca7fde3a8 0x1e79ac0d9ff6908ce303b6171fb0b12162fde9a81d951c6cbae7dfd8e2b8e403 0x568c36f04d09214d1ce4554f9de6a0c0027405b4026c0f6dc359e2d78b5d848 (-0x330dd91707b474feccfd812dc0f350c44a4152afc61a66334dce45c2ad6c9af0) (-0xd321ee965bc1952b661251010166bcc385700602c77b96ce65c4349bc7d9795) (-0x526478d00f1ebe1095de87298245c5494be459af000d1d626c06c395e80e054);
  Step false 0x20df967e0de4c061eab5662a13f5d86c7046611813e09f09f83be026a57faee8 0x2dc1bbb3d00c6ddeefb5ae9ff7273b720d7d7a1c8308bf4235af557955fb2bd 0xaf2ac553c93a64b984779e16aec2f0c1126a528cd2ff91fcc218d477e22a562 (-0x25fa5ae622a2820153c8a4fa043fbb5947eff346395b0a7625251fef2f26259b) (-0x10e2a39c2e356be59295a3cd45a688efd4eef9c1da2c29ba8030c043b6deb77d) (-0xe2f421bbeffa50aeedc52cc52c3bd3f97a731d65331d05042f3d8635133bdc6);
  Step false 0x28f58767bea76410225ed628228623bd51a351adb10268d13e5442c98bb59b9a 0x145b232b49897ab6f981241a8e75b180fa0ed0414a0467886433165a89429a96 0x151fc2d4fe795b1567bfadccd4591557c405ef35528dcbd9da955dacb91bf414 0xda133860866150f8c704e2b1b014fb558b3b9d159fb50a5caa5ba0e8953874d (-0x1a3697337f174328575f6ea723e38878cd936fde32535c9219b63594ee55d894) 0xb3283f2d1049f639b2c0cb034aaefe12f0d113cbf2c9168f950de170f8b7500;
  Step false 0x3e611710e822c3fa892cda9f0b24896242feaea819920fbcd6a396703524e24 0xca566fd60a0a9c25c0624bbdad50a1b1bf60f5c255f7b6e034ed1da3f39dbf9 0x2587d9e89d9dedee3077269a997e5368e3495242d92df37fc05b9c57f9e5071c (-0x10d98d39992a2080645a7933d7e1417843e2052c58496963f672788beea99a0c) (-0x3cccaffab5533067d170e722a015a9ca0a8a11acee9e5f066ce224ad2ae3eb) (-0x783c085083d10c5dd130fc91af2da2d74501a2bfbc868294cf1ab44597a8e4);
  Step false 0x32d570b13a4595e81e0857c5a1991cdc7160b9d2c7dc92c2efd05e1839557b6f 0x2f05f05f509926b38fd8c2686c7cf8a731866ccfebdd2b90da4d1ed30f118e88 0x2dd6fcad5689f59db451a87b181656acef6ba9fac042227d1f857dc6c79c614b 0x341f82a523bd13622fc68dc63e0e5f3b27aafc8b0474f32f91852e183a5729b5 (-0x286047e7cd26d0229294f10dab6409c24d13a9686cfae2c8abc2123013b493a7) 0x1b4e1125e020fc8516185459a4a2cf952ac65b15cd75a8e77929995da34d8968;
  Step false 0x185c3fda293a8cc81a74d8d51204d1ca0c4dd2495062b33b4a631098fe3f9efd 0x3d594cb0869455c60c5fc600fd770545480fa3e2a9e215d0eb7779a5e9ec5eaf 0x37895be602668cce753a16ddb3b07c778b2ddff4aa5c09f24100621d2a4a5b8e (-0x44c0c9bb03d4a27965279f44d59ee77a203527d19c5bae2e696c838a3e269682) (-0x945b4db71d6dabf11bbf3ca3b43a13582277132f4f483fb2da8ddefa733ca4a) 0x573e8be0d08b2b08fc02bc577b93a652862a9e821311f3d777e854d34378564;
  Step false 0x1f0efdd594ab2f3b22a661b10bbbc0e93c93d563d9fc4d087580c59aa375ad40 0x3a68457cfc798b2d3b15b6c21d0e7be233cfda258ed670ff2844dc36c3ac4802 0x2c796e768bbe34313de76cdd3cb7a6f9fc9a706bba6b6e7ee7bff9f8fc442c52 (-0x7a850eb6c45ba77d668e992452c9459d2107f49a2062ff4edf029442a24f3fe3) (-0xf128969e43648d24da7c7525fcacab60cf5050aa37280458f13dc14ba3a8aa0) (-0x16d6fe12ba4244a07032a084c1100d48911ebf49f815eb856f6b6793cdb0c60);
  Step false 0x3d1fdffbfd80a0fd499a515a4885c9f46670f4706eb7e9b793beaf8e0d4be622 0x1228c47df79c8a54c2b1c4f8614c7852fbc71cefef5cd78063ca272e35099e54 0x29ff1e36532b50feb6c491478a8cd4b6a68114033160bcdf995569c79d307a77 (-0x4af52ffc91f889078874d5c547da41cd54aca9e86c7856f9749147a7db084244) (-0x3a60d2d8673eb643809f4f8fbb196707a78deec8adc936fed847f7405e6aee2c) (-0x267092914a1b6b24065f800d611af4ccf5e76cdbe35e967ef6d5997b08923653);
  Step false 0x146e5f92fd8e0ff56cfe7b5b1d9e6f540e6ad216cd6cb2ba2ce02e45e58795a5 0x32c47ff88e2a2337edb387b92a8c0c07fb08f1c19a125ef2f00258d3f7783a2c 0x1fee099a14500e51a0b4e6cefad73eddec9f8bc5cd6f6e8c7179e67feee214e8 0xb5b33cb9d214c0fcc4e25dc02c872ffa61b8d1b0230af9966ebcddb3b1300b6 (-0x685ba14f67a14a6c3d78cb8fdcc86a2fa259b0c97ad92b1ac801d28fbf40585) 0xa68e6f2987cad1184a11e5b1caf0532c654eb6a8933c524ed8bf471a4f9b997;
  Step false 0x2518152c964b45d74ad60e7ae76e507fc61373d1030ebc11bc5621f01fb13d61 0x1d0132deb462e9031e74c914642e11431efab787c9e0a286f716f750fc88afca 0x2587890051e171fe153c105286b6e5762c58b424729ac930b5105136dbca7626 (-0x53cce70d82a3718d9ac4b310b7c810dbb9f7aeaafa96fd33ae35e4e29d4d7ee0) (-0x157fe18b763922e6be462255833387d96fa98d31f47636eada1bc14781603a9f) (-0xc9d19031a45aaea290ef8b067e9db804dfec0b7e19bdd505e5d9771e9d23e14);
  Step false 0x48b6f85c715327b9b18e21aedc35d9630d168047a36f9423f952ba192900fe5 0x3182c365664cce2d66987ba5051d5d5ed941fd2ba527ce0d832350e22e537be6 0x3da6e92d49a2052e2627e823cf9c39b8f860a5dc3da0521f9c3a8ff63c9f023e (-0x221ac9b88cf4be34561c12ea2cad3ae0d675e1d8fa5020f673c2394799318e30) (-0x529db9e8508c961ecb3d0a67dcf47783fe9f569d29a8a018fbecc5ef37c75f) 0x174c629e35ca2ded0dedfe6935c765d6dbb8c52d28714da2732f9604c87b170;
  Step false 0x390892da949d268e6beb8a12aee1e36238c4c178d84fdd92e7e52c60bffba1c7 0x26ac0fff7c631d93245c120671bd4747ab3114ed802bfeac72169eff5d886de7 0x16df9aa21cecbf9e8d38f61dd9f9277aeb11bf95f8ec9b578949060222deea1c (-0x505ff1c91aa517d987b21417f16bb49a32a791d776ba799be911be787b4ff88) (-0x32d346bb6055448a1b6f53a99bdd29f8d66626d4fbef1021037b0a13da4682fe) (-0x9a8ab7bfed00b54b13f2880cadce97f2f9a77c346fd1e0fa1162b5c9c2c53df);
  Step false 0x377f50325270c0025f6669883c23e952e2db85af5dbb7b1e591f3c10ad943c2d 0x304765fb58e8a2a3162107822706bc0ce27173ddcd9fcb3d6f4c50fd6d36b72f 0x3f92463dcc2d4c4252c055b51b7ae56cccfea7c08f67adaddbdb6063c401f7c2 (-0x1e6f1238ded7e386ea18d175d6d2fda220eb57bafaa8246e60db9ea21760257b) (-0x301fcf1929e6ef2937c648b270b8741f913ea3ec10d657450e6f07524be58cec) 0x8549a2cca824a8c767a1d1773f55245a9ffaf5c4c4e968997b105758750a386;
  Step false 0x38a151433df7bd7e7cf37895a0c46cb0fb433566646521e18f6c6c1474dcb120 0x1858a506966b93bd8279285cd3fe2f7a1a6163038c49356270d03bef887fa7a7 0x2dfb25deaecd8788321aebc14a570c5b27c5f5740d172cd83ae4f5042be19301 0x33e3a6d9ac2db6c4dce8560a5e047fe4f46fcd0d5517043cc49a71aebcf849d (-0x321be4d2edefcd8fd16ba95068bc73d535ec35d403e49013cdd5ec7c86a02dfb) (-0x152d3bd6e33aaa3a95169b4c099199ab89457911505ee0589dd57ff9319b6e3d);
  Step false 0x3b57d34b743c72ead6aa9c134fa16a5fed7f289942eaddb1d50e433d6fa36fdf 0x1026a62861f38bcd62d24bed4fb78f0face388b0eb614a04c486eb170c805b7a 0xde829d5e931ada0e3709ef08544120cd6a22924194cabd100193ff7da43c798 0x397c5c98afb39bb8c99ec5aca0d246e0dcb078a87127c38a2068d82781470ceb (-0x370666184d09579d40c7572395242d6bed712657e273344485c8a5a5eb5d7979) (-0x79955f9cc2b97662e1d3d9a4f4426346d5c1c4325d0f2e8c90df317b2ec839a);
  Step false 0x3ac491ac3637b376c74b3ab6915708b07faf0873581f76df5f97e6134e29cd97 0x96ae35dfae009bab58cc0e953dc64f86031a8e4075c92eccb9f0849d4ceb2e1 0x3534f1cc817690727b93500b5f945ed55e7b22032c90fd8d648265aa973e997e 0xd4ff9e138f176e362b9b7c874fae42de2b7dadfc69015ea2fadd635783f02e4 (-0x35f6a3c5aca32f827f420c0177c19053b83dd0e68b6467d62a3fa18195a9c53c) (-0x62ed6df7ce7b3b44e379197b3c5908aebad7ed1fbae78769eb0c93b4acb9629);
  Step false 0xd967de2d3e19364fd0b44158cea6076a4447b248b3093b4652c712354dc3825 0x3ebd25c4346ee4a551e20203f6c21cf9708939ed39130ca0bad2fdbcc574e881 0x8e4d20b9ad75edd8c86e52b5bca88839501dc918d81f79f05f5671ad920e1cc 0x126f7454411e04a7f1c1b3838959eb706ab3108f568f591959f2c4db86828129 (-0x2e2850334f204d83e88ad1a9dd2d2665a901842d77bc9b3ac5728b864d5e716) 0xb52172a07f92f968aa970169a06370c815c527d50660fd53c30d73329a03b6a;
  Step false 0x26624b052213050213bd5a20745d7cff9434c962082a07c276333468fec3dd1d 0x6337433889bebbb4779da0de9764e1c1858f5225c8cc446627c3a166b76db97 0x1729589f1df036eff18f3b4bc38bc537e2fc3f903617a1129e9b6a09ebf07b6 (-0xadd6ed831b32dee8e779611a3181543f4aa242c23efe1c295fec85467220d2cb) (-0x1705500c301ef877c6a7307a9cfec3e264dca2fe732c73a011d28fb02ec868b0) (-0x21e8968bb07dbb22ee939577dc43c138faf71ba9a77b331ec98ba9310d4b8f00);
  Step false 0xc5546d955e32af4178491048ecc698320ce7924c0e698c8497dc1b9551f750c 0x31b572e058107a32db3a049367f0499a4c432b4e1e42c00cda08bbc9683ec8af 0x3815d2e055b4c7650e28750673c38514f6fae8786974a8bbd753975baf030075 (-0x13e99d19f093a053d1fa3a99520ddffc462b0afe45acf223aba031af7a60423) (-0x2606c31ffefa1716ee3f9a190ac4d3b1dc11d8b1bfac5410a1cad42473f78b3) 0x8625890921cfade94b9ea112e7a8698e6a619866c1239b0885d6dbf34651d4b;
  Step false 0xd84d2132da67eb2671193405363fa3f7deedf434dd5a8bcef72609d880e293c 0x3aabddb4455c9cf836ccf19e19c2a2127a6923737901ce9fd502059a25b6eed2 0x32d214c9edc25ad57e76f0eaac6c4a383f55a462a13e9a279f41f70f6fcb6f28 (-0x5c21e72078ee0b313e7f9e0cd4def58eb0ff8ae33962d5e5a1c0003ba9e8060b) (-0x2db08fd0b35d396f4a61def2d35f4e52ba86482869fb25f8cb2f2a352ffc5e0) 0x1e4a75a9f6091a448fb06c7a1bdc352bdebcad3ce618f382a819a7e72fcfad1;
  Step false 0x3f9c1ff6f80a30c91b0f01fb47b90e74742c81691e3ba0cf832951c3e62918a9 0x32f021ad8ed45b662f92a91fa5c74fd8b23ded8aa3c3fce2fb86ac4d926f53aa 0x6d72deb7a1087ec6c0f90b6ae92625f4279bbea356742612ece4c95878ac838 (-0x3c566244c99b056f226a360278a1f46beffe69ff8af89896766d8dc235e929fc) (-0x3f38dbca1c443b0a30924cfce139885ece409a6e5380fd92b99786d5b6a4ee43) (-0x7afaa8db2b1bab7acced724f3ecd79da43b9f9f735686ca95b65ba4c2e2f608);
  Step false 0x1696ebf34d1a3031411a6b50b854c5b062bf8701f86065f2d6e0b2d09aae5b03 0x27aa726e37ef0ba47fcf2d1ad3f05c612f61eceedc865298a38664b5dc309203 0xa8202339d3b5ffd38b9b4f083e406aa1fe24dd29b5bfca3edcc7fbd671f7d7c (-0x74cbfa2a244aa53379cccb2b1e1f0111492b9755317868e033fa8bbd4e92855c) (-0x7f9261caf5dc709f14e106cbec88b2f3abaccf4dfda6e36c950c304735fe8b2) (-0x3fa891f3bf8e811c86d758fa91fa1c1dcc6a06670911b36972b74e5986a5c41);
  Step false 0xfcbd9c2d6a2af6baf8ad8f3fc1844d293980f18533edd7e273d26edd2808b15 0x370fa6957d4b3d9f0e0b6b486c82d70d20d4d7eab9fa3a1cb8a11df4ff866b71 0x2a0a00ed240d19da0ee1948c2caaa52f1d3860cd8bce85ffac7ff806f72d1927 (-0x4490a2ed5c32284d0c36621f37ad0027f6c55ab310b3dc55d5ba83b3abc705c3) (-0x3e6175fa58d6aea8d15fc6a8ad73dde560d010ffbcdcc76754d21211ca84042) 0x3ccc19ca40e631e0e5adc3bc5b007a0aaf0feeb542f9442b2112dcbd46626a9;
  Step false 0x1ed8eee57de1f697b2c29738edc592964748a24e3c3599856931e15144a49dd3 0x31704fd891d7ae19ef27ca3e6f7dce820d38690a3e6975e2aa84fea233bbe848 0x1a3d20f1427a2485428f7cbbfc4f5f9975d55caab19d03fec3d2546b93766db7 (-0x65966031aeb4c13364b3624aa3dad7c78a98bc49979a6465fbe296369901ab59) (-0xede3f472ed39b99223bc76ec77863945e7d0aeb388648be259adbd97cdbbcbf) (-0x2b5bf69ffb8c81ab40c0dc6c6c54c12cc6dea1ce9701d58fcfe89e989fab8ed);
  Step false 0x116351d994868b4375750431f11ccb4a6424ff1cb121327e64476d6474793b4f 0x17755c6090145bb01cf010bdc729d253459e5bc6088807049b917a01390525ae 0x397e39dc4c56402ab0f1031424e7a263aa6ae8cff80f7af05a94aadc737affd6 (-0x64505457316102ff6b712a7cd0bea5e44ca8b3cc2b90f35c364d26606b2fabce) (-0x4b95d9d38b89de3c8ac0df48f7e74c7f9b9e227aaf6d8738826ef3415ee8c23) (-0x70efa166d6af224789e82e42e727c04d40deeab3dd7ac2aaa3f7f6039181df9);
  Step false 0xe470b6bf6dca09fb9d66af489ab73a0f9e4205a55f72fa7c301af84cd0108b5 0x2903ab64a4110a7f205bc2399f8b4f06123884fd416640eae6c731b95947ccc1 0xd2ee083f4dfa2ca2fa3c58a991c64d2202b0321ff3ce7b8074e7cfada7056e5 (-0x24b6ecea2fc5462ae3081ec8070e08bdb0740da307709345c3f3f437702230) (-0x32f63dc959612c744d52bdd26645027052493b13ec7e016442c7c332863b7dc) 0x3ea9e4aa01dc5c6efcfd330f769d2e1291381e08465a51480fd86ff10570f2a;
  Step false 0x281f1fea5f938679886185d7b464eec38e4ae0ab543e8f76bc18be5d831b6186 0x1f198aaa9cacbfcc5fa398710a1d7dd7623e0168a76ae8065b577f5d43e19b05 0x2a4e2e2e0b3db12daeb8fd68b61733afa56032e38e19987d2dd7683908aaaee1 (-0x3e52b0380254968ca2bd654aa164b93092947f38dbdcd5ba3b85eef6b8b3fac7) (-0x1926f707f26f65e48ffe65e2b2fa738d057f24348de1dc27c7c98eefe4f99d9d) (-0x63726cdd56a6a2fd875ffc92eed6e134f7856af8d9a43e2d6e425a77c0f3ea2);
  Step false 0x336d30c68cb27290d39a2320bfb57e835bb2077eed6c92c85cff2a6866c88aa9 0x98a8d47112ec29a6465c1db5dba000ab2abcd7860ddfa7ec2f62befbb094acf 0x1d086429e18a3268c0c6d972d69a394a80145284afba2e533549df12caa8d479 0x16a69ace153b7ceac8c1f2940c54279568e74d20cc6aa45c5cbef27d917a4ec7 (-0x2952c006b9b7e1707fdb315007f15aad5f7b519e1dddb9a378bcb9e55c5e22b8) (-0x1152b9e10081737f135c536355adca99126c75e0a697b3665fea40504ce68c4c);
  Step false 0xdd98e73f9394d2816b9458f316d575878ed0859194737c0506d061ae424e744 0x200006d72df4e18d1b91063cd20dad09ee00627ce139a51584daad83743be7cf 0x115918d82751a4447429d947fcd59a61a3621a1a5ecf1d442c3008fa1f1e6bb0 0x84c5fcb4eda94488f0f1b24efa876c8a278cc4df8c1ff48cc7e8f965bec4425 (-0x2ff456a5cc4c80137e69d376ad7adf372b7ba967e1f18ab748362c911bd4ca3) 0x4dc34fecabd257de0c72e72d6bfecde9304a7ca49c04b48e59bf663dae3f429;
  Step false 0x207260ae4666d5f5df3a62b7451be45ad5741392fecb44b677f3a32e7eb5a6d1 0xcb721bb334604e3283af616f055af28d7124b31dbff74ab9d26ea5a5611e6b9 0x32b8b33098297bc0d86981c861a9f6e5b69da500183975a8f945e9964e771205 (-0x1e68f9db1d883e2d0429157b295120ac414d6fdc2c71a9f21f4e2247ffbf96c3) (-0x10732d17454e5213b9a4429a8af4341017036ae7a322634dfba30053cdb4004a) (-0x9c6e987f23d89224e63dffd82407d4a1b8d7daf74bb5462d0725e9307f7a941);
  Step false 0x2b8bbf111488032e94cd895cb234f7d25abd1ec9f29271bad11a9e1678d5948b 0x2fe7f61f32f614aa5484c9b9ba3bd618bdd21e7703e5c7a24a0114ee87765c8a 0x9d3125688de44705e205d476a2283e742a4ea35fe322644840205b317e8b997 0x3d7187eba514f674d0a8b9ef86ff0f40d3581b638359671eebecf08e4cec845b (-0x1da0f9e32031ea2f2c206955b650e33e26c319e8d934a148856956faa1e4d97d) 0x17f1a5cf9716827feb76059ff7337a387208c9abe7c6ac3ecedceac94aed9817;
  Step false 0xf2f70f365922c1a3d3cae2df60a7bf87c37daad16842ccc31621666419d75b1 0x393254c8ed462d543e791f56c9f11fa7e0d87e87e3d94c8b84be7af338137352 0x320312be897bdd8db017ad183d003aeff22e50dc741fef6259730ff23f70d8e5 (-0x66ea6d59aa41380853c51166b6d42d33bdcb00e51ece79e49d21d232db57c65e) (-0x39a601cc47134849ccbc966eca4dd3ccc6e020c1fce627b1383a37a2c3517fb) 0x2345132c716a088404a55fa1cf27a86aadd2aeee2b49c67383c92f70007bac4;
  Step false 0x8cccea960c0a536bac08850f94b8c27313bfe7a62a9e592742fe31a982d124e 0x221162d5af9a9e770b666111b085361010ab631ded26400f5a6d1f8ab66f04b1 0xea00ed494df9ce4a5604dbaf11c44a06ce7891a3ff357636935a918250601b (-0x8b98908cd1959ee5bf7585f8f2cd6361fdc364c196cc463b03545643de95f340) (-0x135c3126b4d14869ed3bc401c01d305092ec809f1d584b2bd12f94fea25246f) (-0x32e21f0dfc6e2f9819d4c7d1501ecf91f05f9d8f5f1519b8e10d06c586cce0e);
  Step false 0x2ec5588e4dbdba1352d4196ef35aa226521c5db0e67fc897eaccbbc22ae119a6 0x272344ffcb4a52efcb087c90189054631b5e5df0064d139d50ac60fe55ed60ea 0x2c090a6d4bd644861fbcbf955909884cf7536b16f2a036f2cea1ba18d3b0623d (-0x351174c20cdbcdf9889c8493ff3901d8ad12ef5d5ea72ee596f2c854ba441e1f) (-0x222e0fd23657e5b066146202826e51cdfd92aa9a862dcc699d53ab64cd926d58) 0x3b47c9e4a53c1b5623b3a278e7999476a1f29edfe71d0c747e1b763810b204e;
  Step false 0x24d18865315376cae539009602cf1cb3edb4cabe9a4b23e8ff6ff3d8279ab9ee 0x9ce8c44d939db12382fb6ded62ee1ca718cb2c69dd0d381453237877e115a67 0x972b035e0d885b82fcb996211ddec4ee7e4fd6ba1de7853204b2446a08dc55 (-0x1522ac1dc9e2fb76ca1d6332e2a3b623909174bf8060087cc1cd2ffc9c862e40) (-0x152e6771cf16c066ad5ab649ff1343a28748981bfc009f00df066cf19375bd09) (-0x10dfaf16d383a85cf7b5070357a48cb8ec05a58911bc1680a225932751577a38);
  Step false 0x335372d840ca492633af8ac82c9f481d7019645fd4d71e4042ce06f1912cf85b 0xfbb454c0292038bae564c5398dc92e4f2711b04e41279f71623ede80c2d80ab 0x161e442d608840a4f7f420bfb73936a8ed30b103ce449bb94f1be379ad75b43c (-0x38f9f5f2dc293a0981e08de9335749f79d3f6a783202c59dee9a4a1fc666be5) (-0x29296bd7563fb2c8d912c027b9c41498ecaacec500a90d950e26fa3c5de83ae0) 0x4c05d1358c08b5a8da27f3d4667cc2c41dac4e9e08d2423ad8d8f49f8420abd;
  Step false 0x336ac3c5c9acaaee0c22d81eb8ab0e012a5bfbfe4b25f34cc862eb648954eaf6 0x1f00a3947116cc92cd7ff73fc4f3f707c742c96dced608a30ccef312b5356032 0xf459a79d9207a5c2934b1069959d0209b6109452725a04cc1d87946509d01fa 0x17f042dcac1376c8fec21ffdd4d79500faf13eea96aef723822270f67cb7bca5 (-0x294eda1e0f72e495d3f902cbabd23611624f8bb19f0900dba6233f47878642dc) 0xc44c0bc6cf2d32152ebaf519e1afcd3e963411d89bf39a78fa784003540e7f0;
  Step false 0x671333fc6cbd1811dfdf0e210d7505d1ec685594f82da23926d8bee87106113 0x60900b88dbf30512d60ef1477996bd613e638f5a2c9a12554491c3d44161e77 0x2da2d30debf9a432a9e055c956eb6a807f6dc81546124a7d51b7bca369774863 (-0x29fac83699df96a7cacef73de5c8984b42ae720e5ee8b4e80e38180a287ede30) (-0xa601d517861b66a63b6d4b67c83513f39054ada13a664ce7435ae9a2ae888e) (-0x283607e60a6c9ff8d1d7d64172cc22d676c5bb839fc84a6d50bf70e3bd57184);
  Step false 0x3bcb054697869e78d882db8d5b25379167c96929ec40e278d0d55ae1baca0282 0x3e9a372aeab8e63cb62120a958f324ce2a975810c1b70f397e8f6e08a63f072f 0x152b67eaf63f3678106c2250224a6d71ae9677e9435532943292221069da2f5 0x5390a95e3d2c0868c5c222aedbfdb6ee28b414ffd77434414957b300aa46be99 (-0x37dcd5bf9fa0c7b603cca40ed96edf30f72df8f846156c1aba158e32aec305e7) 0x34d94f73dd7730ac7d5a5068ec0ffff5e8ba986410d97a1d69ec44bdebdc88c8;
  Step false 0x29a86597c895f3558173667e9c7686e51308765adc0f61864ee9858d18b0edb5 0x3821b7a1364ad61c7fb186f1882d4940da94363116f040f98f6a2b4785ea30d4 0x35b4746cd0b1dceb3ab9dc7d77f542ed0060ec9246c925c1d4b1f395b11800d2 (-0xb5fbcb32be302499e35c838f944b17f26dff991031341c9795b05b903c7ebf71) (-0x1b1d7d407721ac154f082566719a518fcfadca2d1bcd10e79ceac8a7d33062c7) (-0x436384882ea1493c65e0fe122191076c946200df941ff7e1718f2fe95482990);
  Step false 0x2d3fc364958d3e3534592603848ae49b21797a42da30cae0548fe5a1a5bca61c 0x256a33fad5a6907a230dfdcb70308fea8986a6ef2f2b1fcad48bb5504487c488 0x11694717d380e87e11112a447e71fb10de97d516989c0be298b660dd2426977d (-0x47c0726df452370f9c64984a39dc9261fa471e443aade36c4ab92316f7e008c0) (-0x1ffdea4c74de9af6b449eb98b2318110333c2237709a0e291a1c291d2c8c2ce0) (-0xd3bae5b2353d214f42a6a13a40f63c591ed928bc8cbbb7780bc59f1a78e8801);
  Step false 0x3c07b103ee4186420047e6b34c9bd344affcb0093627bd3cd6bbcc96033ef4cb 0x11771506246a0956671e38f4a78a64a953816da047b2ef634c73e3a8ae821f87 0x7655f2cc3e4311292e67a5a5c2213cd24bd9790d59e7df9a91a1040604a97b6 (-0x20f4e05e71e6ab4d1f9148ef5311e10e3c533a40365023075031ab86266b1082) (-0x384e6cd40130b8295ab021a9137649e3ca5dc23bf0e8b770ee9fb61906d5f062) (-0x12b652ca6432d6d6fbea414666558174e7c5435f65b75c9ef570f1eecc8b9c98);
  Step false 0x38f9757137329b28569c5e04c925c9fae3c51c949726a25ea96b43dfe45df045 0x35af989852fb86339eaa5eaa73e9d2637d7a73e1fe4e64e6b14691c137e6ec72 0x2b9955621bbf53d09e04b78f2617d3a0597d376bbff6bfa7221747cebcfa6b71 (-0x12153b8b16e09acf3439a81b2df555ab42e4a4ba94b15c707760ca17812e377) (-0x32b859dcd110cb660b0e1b12c13862b854dfa11f491fc8fc86505171c6b84719) 0x203ea17731093b8faba1bb4409ee04b9b9694bdfb3ec3ff755316ca962eb8e7e;
  Step false 0x335156c13060c15e0dc6e0e849dff023c0294a225fa85301217780afa1d01fd8 0x9f3debf53134046a53b87d14ec9a3de98e189c185a98fbe38850ae3443fe2f9 0x206480f29dd3a2246f8007bff9c58a656c2b0dcd13e2acfdd2a8268b80693e3a (-0x412ef124da266fcfc76f12c28c47dc86ae8908a758d84e3d5e2330bfd3747b9c) (-0x292609a3f3b622434fd48e788cb4186742096ef117993cbae7025e84bee84a63) (-0x23112cf86777ed11141cc4cbd6b22b7234d4ea0e78669d55cb7907e75d01fb6d);
  Step false 0x3a71602d7daa6fe412d27595111aa080f0f8e50159f1ffc48e1df2fcb9302823 0x2eb16333fa43f633f421569decb6fb9e531d99a2cd9c0b3da268737b48b82b87 0x35d4324183e699ebabd4bb013048df20bdf92ed7cb7f76723de6be5f139125d4 0x36844641abb5c51a4fdc9c9642640c244fed23e75f7356055efce0f4d2996149 (-0x355e472aa4f145fd7d99087556e19d4f6a1c71cd0337ad9ae43a39a7d8330350) 0x218cd5ddf98f720631baff3d0ca9ec76dc4f3e4f37118b418a9edb1234627f78;
  Step false 0x2cb7cc52c8810b83fa546dc482879e062794e67c69527e5ca8b35434f4b8ae22 0x17c2013faf0cdfc0d8f6f88f2f25a7c2785d258d0826e11bd88ac234343235d6 0x3102e73c7b780dc80d36baac8722b804ec42fcd170f90f7edba7299a8d1d1c3b (-0x1af9cc7e9da3b6e0ed22d368e9e901a68c381fd13e16192313c5285999a9a743) (-0x1f3ec8c8d96c3b1a3b3213f8ee0e3923764e3325f0f7407afdba5eb0d1afafa0) (-0x1006710cbd07727095ee0e32453f24bad7a04171b7619796ff583a5c7152ad73);
  Step false 0x1da51b2a02947745441c4ad30a846cf570d055647d6644c6ca415d3da7f2eb5c 0x3334c9456e4fce58832af580772fa126fd80dd146874b5381f4af5b05228de17 0x1b6e4948f529282c214928ee31dae0f8cf90bb69293c83cfda8d71fef8f616e4 0x12f24b29e2d9567fc9febd7953b5d9a71134882e3942648489f3d9212f8dafbc (-0xdbb4a8e2e7b675e6a7a71ef28dd2b355ea5309beffd762ae8bed30a1fc4bf4d) 0xcb6d234ba4c5ff774dbbadf0f4c192a7dccd463af660d968c82c8412b9d557b;
  Step false 0x4b9e141081f3d2871af8102c014fcec672d7fb1f6ee504e48cf34c7df18b1ab 0xc347065bb3b7b5e9487b5ac5de74bd9c7e61739895ed5fa06a39e43fd387b02 0x3c2f97310bccd91bda21ab3165ef60f000535ae27902c59039784b551c1c3be9 (-0x76dbc518961de3c5854be1453dcc11168f9ec787383b6cfcf8d37f654469d59b) (-0x59580579c85f6ec687a6ccb58db1a89e59c159b6fd9b94548c98ca13d3b109) (-0x2e14bd3bb92b540caac8fe1239f385094fc0daf527cd0e56e05523c70f9613a);
  Step false 0x23deb6ba50cb7af29eb31151fb4be0171ed7ef4cc57ed9d2b1c5d5eb97765c2 0x258a53d5a9b6565fd1c31ae0e4c9df4490ec3a7543619382d62e1066bb45d1a4 0x1d05c36d13c0707cd136c7349b738936492dc3e6d6649f3456ca724c0a962aa1 (-0x2c4106578a76a350cf9b85559f9171b6776f3a9b39f4094801ace04a9421ce8) (-0x141a9ee17ea4dc09a0be985e23004d4f4cf95a2a51bbe398cf221f7117df5c) 0xe3322a4230d9ecbe3e72cf28148fdbacd07ba6ffa64f807c3b0304c749f74e;
  Step false 0x3d1b039c1b76e43901e4f8ec33936db077af348c659971838e2d055f680ef6e9 0x10a0625b6e28022cfe77f62c0b65996eeef70c8266b311633184a46df334a3d5 0xb086f627998a3d045b2baef5738005041aae6e919e357349319cb1c569b9208 (-0xaa3d7101963ef92426e9769674442fd4eaf33d1e355e947c7e768e9795c8e1e) (-0x3a578a48a045eeb6507d2f37d6d6c07212caa634c5939634ded1a54bd5e058f4) (-0x13f7ce085adca8d0a56f39fd1193a76385bcb115688b65f8c96738bdd1c7debe);
  Step false 0x823338da392ab532e983e9a67f8daa17df0284a4d778c0648c944defa44ef06 0x2f56684c8bdfeb8833b7ecc2477bca9dcbee01efec22721f93248434b465c540 0x116fcd424d36033be9f817fe3d8593777d0fdf183ed0f5bbceac4e84d11e1a12 (-0xa270a758cf97ac7da071b2013a6c52e4d95453f04b441029f19687b41ed054b) (-0x108e03ff55689685000e7c230f6df80e9f25f030f4307753038760cf78d273a) 0x3e7a50667d27138f3b3edc6547054f5f5054bb1765a6b887f4463b3eb7f599c;
  Step false 0x3b9c85589ba9635719a0304c5a1b3091efd4eef1ea508f3d1028eea4094d4331 0x678578fcc4bd7fb2c5e687acdbb102e5f3ac5110b5814d035be84052b16b302 0x7eb1f6d0fdd3fbd8f82a0496bd93dbd140a93fa408f2e1c8c525f013d05f13c (-0x488ead68586fee48f4758bc7d2503466cc9fa6cd7957cb2c5df3eb4af373491c) (-0x378614a684cbea927129b17f9decbc54bb6b3a450d8193d7a1e3f0f15b3a71df) (-0x2610a9dcdc34b6f94148a929feadaaa69d9202ffb6ab327d7e947357966aac90);
  Step false 0x196358878bc39b8c3b240ac9ddc6a33a20b345e2b102a71852dec54ac31d338a 0x1b280f10c153d2987c0cdbe42d3ee8dbe6231e6fc507144097a49995756864c0 0xa4dcf000b3c99bf8c28a781aff103449fdfb256501ffa040b4c92e284fcfe77 0x451edc332b2837f4ed2319e83ace89a8dafa3ae453a904d27627aae6f9298a4 (-0xa12376042ff161b863cfbae2cfb57c860eab4018c44c385f3699ae1280e7ba0) 0x834c01ba757676308e79ff70667165722d2887b25fd79384dc90e57f4fb9a1f;
  Step false 0x3af449abe6135d14ecd5edc90a9472b07ca6b1e44828e267e5da65a5ae8c601 0x2a8b6cd1e9a98faff4b3c2dcd6ce30d37c80fa6eba95e57a6a186336740d7885 0xb204ea8f95c4327bc18146ca11b1ed5a771e45a6ce2906626ad02f4bd344050 (-0x2161f657bde81044cd670d1422da1b22aefbeddc28342b94e91ebe3143a99f12) (-0x364e69f9a48b5eec8bbdf52d4fce197cce112eaf75b88c8b5aaee6d01749fc) 0xe2cc98328b80d272a1f2b88f2993a2c18374e44fd442aa9756b29f1aa8b08c;
  Step false 0x612542a15c39ade5ca245298e46b75e35fb0b5d1a9d62199bba8ad9efd929a6 0x5b911dded650e374d362b707c23f90ab789e049131ead29343189dcdb991155 0x74827a76ca6fa7e31bb7f38e7eba14039f3a976c14dea1a206e882fc96b2b93 (-0x52bc1d83644c6b7ca9af95c81d69e03f8e00d03fc216fd121d34542476bfd78b) (-0x937507aa6f7fdedd1c32b95b2542c6003bc6659fda31e80b4e563cd27e9545) (-0x37e441cc236da7e7883a4151ec7c246aa3120b2ead7de5c7bceab9741122d3d);
  Step false 0x4f1fc0ac5cf90cb2d4342701755b1515d7dfccc558993c7929d43f0cf7c7775 0x42d822e0c0c18a7ffbe4a73bd007c773e630ccded335d4ab1760e6aa5e4d9c9 0x35c6eff81d58b649a3d949828b6611d5cfa3eddc53ccfea2f44de32a04765a0b (-0x68f027b8f5f1b9059bd0f783565809af7f3abba08d933dfe61afacc572b44d) (-0x61d2736a708ce6a857035ae7d99b1d79d2dc8c0bd10cfb7cc96460c9feff06) (-0x1e9099d8bbb64c2ad3c222207cb5def3707101dec2e445daed763e9f1df15e);
  Step false 0x206408e5a97c1fea49347ca43aebdb58daa0a2dfbee1738f2cc6bc2581b5c31f 0x1d72dfa1e852e1345461283a7429193b0c9ae5cfafeb2194bde45a8f5ec60450 0x1962b5347c68868bd7776af2756304d30c635531dea2a8f599415af3c4bb4ae4 0x359d9ab4240203c7bcede3355ee3538fb9c5ddc11568bab1f996410587797137 (-0x1064a541786a664fae6cb0dbc94c309fb610981709c89983e10d67d111fe85df) 0xcca2e9f4df89ebda9dc27433357cef739b9393ce99d2d9263a803dfc84da048;
  Step false 0x1bc2435244943eb26a521259b328caf7f9210ff70a3299b015eef9a344920304 0x1d31714cf81d59b3fe0317a4322ce8ae835ced14315fed8d84fed91e705ac062 0x365dd6665a4654372bf47e9f5e1013e15840a881a1dd325b08a86fd310b6955a (-0x12a155d8a465f658a71f3812681f02d96f8f89ec2fb9cccfa11818c32dcc1be0) (-0xc0a3675d36d80f90bfc65749039297accde462878f42a0d9f7825c662b24f0e) (-0x1c61271a6b1c822cd3a6513f4abb41a3bff26c538f3f328dd5ed981bc2f97a);
  Step false 0x15b7c23dfa86fe9fd30be8a54b6d44c8c51407e8f36b501c772c642e114946 0x3ac962c5c2629bd8eedc401b7bcbf7777f531f6f08f769ec15b619376328c695 0x28b0bfe57c9b63f2afccf120241e7588d93884dac9dac4cfddc01a602a43309b (-0x27cdf8d8be6b2acb0c724ad8108ab9fec18b476de60031d00cba7e774d766f54) (-0x75ea715cc6145f0d22ccee83efb981ac6061682e8365f1e83ccb466b7cb) 0xa0ad3835461571e539abb85cd2e711431d87c3da986b5d400831ef27702e7;
  Step false 0x23d47fff40919831ad08723a099c09868315a4064a16f597558daf5697ce3be0 0x9b98464638303fac25e9e318061c70246472946d3dcf960ed816232ff8840ac 0x34899ce20a4b79a5cef5f04ef1b7ca3f04c04a87eb6d21b995534a135f0bf7a3 (-0x746eee89fc012476c4972ef411e4fa47eea4db2d019d310b5cf9fd62b25ff6eb) (-0x140f2d9029a8054f3bba031300bbf7fa9a878969bd9cd54f41ecd1c2e4a7362a) (-0x1b77944d0c6f4aef3cf37b348ca3c4b32b28743ee62690df1f716bcdd280b6a2);
  Step false 0x2398367b817b703d715f77d7360c3c6f0cf8c16abe1af98677ce9fd3c560dae5 0x230188259ce2ff96098929e6725c8ce8184f797459ee19a7f4c8d03e3d2fcc4d 0x152e9dbc167685710592392ec94ee727a1d649e52a64c49a687cadf656d7758b 0x360195b75488b7ea3a6da4145fb53544b5f39a3d58763c3165f1e55cb8274aee (-0x13cbe59a0ea765ef5db096956499d4801f73a93c5e580963fde6b53f1caa8334) 0xe0f829c2300eba0b7752cf845c336b1c7381673dffd23f78b2a875bcb0a6e33;
  Step false 0x400d44c91dd9006caf271205ddfc2d4a3f3222b1cd2dc68d0688c831e6e8f8e 0x3f617de08f35557300bbf485089c56cd0015dd068e57940e75b5ada23ffeba3c 0x12cca73da2c8b6a1fe0f797f73390540ec8a402b6b3dfac3c4c8c17b7ed01ae2 (-0x36caa6988c1df652a158ea8e318f1766075f3f511c776c565bac7ec06826bd47) (-0x401a8c527753f86e345272f3a1d01771869fd6ee14961a3e8557443c299fee) 0x1c65d7b7fbfda0150126c17cc0f8f7a1a332adcb425a2f52c5b19833a0a0bff;
  Step false 0x17739d6e2ea4ce34964ec3cbb7761983c6b8b598ac415f1655a31c7b9947a5a 0x251ce12a724bec5f8d83e7909e630f69b34f379faf3b274dc4a0f2c071922b44 0x62e10f8ea4254c434ea3b2116ca214d066a1b0ea5afc8dbff38742470802322 (-0xbb711cbb44873e943a7875815f8fdd95e060608258ac9569385332fd9e5f6b48) (-0x897ea0278bf6703e53a2ed02d4efb1570282800e10d08d8783b12d4fa47e8) (-0x9a01c389320e230f897fb63261bb665003f9bc2915b7fa45ef05423e5c352c);
  Step false 0x382534c6f7c58a4b58fe76e87aa0b3b54bf28196c0f796934ee60bf682b3770d 0x3cbc2aa409f99837c0897702ec7ee1f31e8fa9e2c98ba81dbca3df8f1b4b8183 0x286ef9383f4735d35aaf679fd542c5d6f7460fa6f606d82d76c2915fa53696d5 (-0x35b886fb1234e77038762d5ecf2e93322b700f8807fc6e8c3fdea868036690bc) (-0x314131fd632deb9d99197e529cbdd6e5c5321da9b81593621798505ee91b3e9e) 0x14b91bdbbaf56b1998280b7b2dea7e15dc2c9279953d9c3fcbd2e1f32744642a;
  Step false 0x3512d1b1930744a6ef8eaaa17981d13ea36d1f2ab433e410116c2b8b4ce7d926 0x36bea5dbc6cd826cf566bba97f5c4141b097051ff091c90584e2f4b9214509cd 0xb7a6e5c0e5125a702bc6a1c976e1d0de1c16d6a41aa578e664c567fb25bb49e (-0x69d9576414c43e7985ba821017323d32038ad63a95cdc8fbd27b6c830e85f9df) (-0x2c0330d6be7472c5250677066e4201ddc7dee6192c1882eb1d01d4d7d2e964d1) (-0x4f7b4e3b47796cb4b9a492232aaa18076eb2cce5b810d48e7e0e4c84e16bf91);
  Step false 0xdcc29dbbb6844393ef4d52dc5f88c18abb088015872ffc8cf93116a310c3b70 0x890e7cc3cab9b9775aef0cffdfe343e58df1a1dd1afe5d541571a87009bf0d3 0x3481dbeef64125b99fcb5cda3ca38c47ff26e57a44d4e5633f2cf9690996d19e (-0x8788d70f6383c40b8941711cf2cddace5ba3787555637ab4db70e326a8574c3b) (-0x2f97c4c384d8ef07c470866b39dd2c56a9fadc54e3aaa06aad0d0063d26cc93) (-0x9f49a9cd3186381b3515dec6e9ee1ae43efcc328a06d766532b08718c820524);
  Step false 0xd995fbcb027c3665004bab012aee9cb1bb3fc99e895507681793f62ce575b11 0x35cf884d3977565827979d2cc1d71c8310c67a113a88e2f7c4ff50fea74006 0x1168bcd4fb5cf6db84789cdcdcfb3f641c431a950f77074c8aecf61b480a49e6 0x12dfe5377a2a77ba0535095fa5d188cedfed994b07f283594e1505d5ba474141 (-0x2e3be72f4f0bcc2ac3f047f78d388e5909a8ab2d3c2f716c09269b26213f575) (-0x1c68733a9a76ef938353047ee4290c865f533c3c9e3469639bb8f85d6228119);
  Step false 0x1f90e07738fb205b8facb34c70fae5f205e350b2fddf00d680bf17e6c7b1b679 0x1efc5f88f16204a16046b2c99ca8d72d8476635e66137f863ac376ce866807b7 0x82b18b998babc1b5e9fc41d67fcc0066ccae1b7bed2c2134aabdb25101b866c 0x112bc0a30819fb9f94074049ec9d1dd7cbfc9b3fde13732faeab2b6cff53e300 (-0xf91a168aaf71e604a526b1230ba91fc4b5e9818f7763804dc4af0336fabbd6e) 0xf2dd8749d917fba0c41be5caa33ed5fb4618ecb57478164ef283144389d08fb;
  Step false 0x125060a92260271572bb3fe38104e2722503a864487341a09d88629d0e3ca225 0x21f029ce67f9dc1bbccbfcb028fa7234d05fd7e4b1cf36415fb7329974ab9001 0x2e3414fdd4f384f8a7ab4c6ff4e27654442ef5a1b1ac22c352adca4d700a0783 (-0x2854b3f12988dd06b287b0ad09bc381bb4aacd52333b00747d0e23ce3a0d033b) (-0x53d9b515c292c77d9ada383800688cc0a87188f1b9ec0a045c947a1f28f39ea) 0xd84615dcef36aa8ae3d2265840949625cc4078b723d81d79175e2aa97f14a1;
  Step false 0x3ddfbfd03da7b55c93fbc0e2cd1ce75a8534066e1be214576bb40183ad6bcc57 0x40d7307308d359720f41437914d2413ee13ca7104b56411a60643e4e349ffbc 0x229863be0e83af9a3172061aa494b088d1fd71815a10f9a9d957ab57414251ed 0x2358c6e627ef81a3575539e30eae11a6e7f371ce1cecbaf1b365e24ca9468307 (-0x3bd193e3e796f0025740005206605164290d7bed1c1ed73fdf4af12d3d33a5d3) (-0x1ce491bc960fa4a2353e5e541b39a643d0f0ad3c5bb0f6ad0592636063a9aa03);
  Step false 0x34321c5409890e2d78d5f657bb2679283a9166ac124cf04bedb0873cd24d65e8 0x351aa7bb8edc1ec936403f403c4d9a07fbe4e2866baa585cdbf9a7394f01abb0 0x3048224732049bca16a2a3ff27627af316867d6808e13cc0e2be14bac22c7e69 0x37a8bb3392f62c71e1747a3af7afa159aa684cbdddc27d14690827c8f75b4960 (-0x2a919544df5793e1010131356233e1874746bdba33fc69d7c710d71c008b3718) 0x280122d9e93cc7a91ad0be43564c4d9b9beaeebcc4c3b44231dddb51f91de976;
  Step false 0x16e17eb80c1a536d34d205f43fe0d2a5ce9f94afc46d8073b6fcc60f0475f1a2 0x7a2315149dd267dd34128a9eddfff2e9e04d14579480423d662627b43e8948a 0x461abb25412925b4d752d1f4e6b549f8e2ee44cc53b7dda79b2641bc6b67fa3 (-0x61aac0c63ed1c7f6d25440e3deaeba040470a19a934e44340041143de5421c1c) (-0x82e219e814df362ee5366d9a1a955c8e67f159600d51b2fcf51095ff03a7e9a) (-0x10419e3cc1612981014c6882e952927c304561bb32eb9b327d9b4fed48266e00);
  Step false 0x3d4e4079bcb8942c727bb671439b84c6578392c64516adbbec2f0e4ec0685e6 0x50d26cae778cb06ce338039c8d52e22b41dc2c4f707531ecb8dd97a66b8304d 0x35494f113c5e3e1fc63b9e6707f8c71d38fe7e7e068fd02817465ffd4d8efe7f (-0x234f317a5b5bc33d03f8ae71ad7448f7b645b0bbc8fcc6f1318a1b830bed848) (-0x3ab98a9579703d5ed55a893764d86b3923964c5e9ca049af67bf42ae477143) (-0x2793646dd7b1b56c1e144efb11db7443199b60a4099696fe1afb3a5eb641ac);
  Step false 0x3d8d48c28fa28dfaf5631c0eb4077eb27cfffd34ad621c25e96a65a609cce9f4 0x1a32cace6e828cdf3c4cc5e01f9007df897ba1bd0712c0ae297c69d4a1ab8a31 0x33481620f7264b623f7d40d41719db3e565af22cc285d483cdb781684e066c5f 0x654cd09b8234f208487eda782158371a0ca8757a72a77bf61d2c3ffb30d96a9d (-0x3b328a97cdced58dc8db9b17c9f9852be1449816734552192e2ef8be6b9225c5) 0x14568f4b568dc1868d86a271f0fc9cd5971e1f3c005bf09cfdfc2663ee079c2e;
  Step false 0x3ff73d0e51739ecb999040c836aa7fb8732b29f4fe99105f300126d956321cae 0x159dda20c47b32e076627ac88513c58692c0d0a43142874062d69b97d0e72127 0x75dd06d9809f8b2ed926c8bd1caab3caf7de389133d7cb9f0f690f77263e7b0 0x4655da8eb44605745da5b34c58123cf7a9bbbf19dfdd45e46bd4f78c035f8101 (-0x3fee7b4fb11fa38afad0619ff2046f993b9abbc30b3c4a88be8dbfb00af050bb) (-0x494501acd6a649cda4e53593b03d647aacd71ae3ac7c40343a3e1f2808628bd);
  Step false 0x719995956ad3d2e5f20b1ec978e5278b5280b4ec2dd2bacc912117d76555e29 0x2a4707d9df82c6ba69f0826e310c2e9935029f0647149545fa5ca42d70635a7 0x3fded0e488ead3b8406ec134762c3a6859e024e45a58cbbe398c960d36022b74 (-0x1444eb3fdf1fbc0e501ed78f1f08a824df1e67d0b3d9d0daf14401218d01c573) (-0xc9a3c8c8313fdbc4c4c19f447645be319a8b2f3afa3f84ad810170fd07aa9c) (-0x21ade71d904d11e56ea4718857ecc2d044cb1465705846392b94be72498a45c);
  Step false 0x102c4eb93e33454b3614fbd615ae703ceba061a2a3b1e4161ee9ed591b317bfe 0x104aa83e77f87cfa038b6788dc25aef50b4dca5d069a46b067b47829794254fc 0x85597ed0f974462ee309244b2717acfb87ba4c9f9d1b8ad694635bc05dd68a0 0x1ff40f56ee073f80b683f256900b03cefe6d343f4b18af0354265c88293ff95d (-0x41646093ea4c8edb03848bd940c28dfa68d08609a77b5cab7ee40731ffb4fba) 0x3730100a0c61cc0037d57225b1969f77ec4b579e53faac10e3571cc0cd9816a;
  Step false 0x10802119f88cc66828bd7f00d3614f5779b5fff221637dc9895fdd56e02d27c5 0x2cc328a69614d0dc7dd1ae2edc2bb94c630dd837ae54d8cff9f21bea5b26b71a 0x3c7be6c57d87717144d8c7a69069271b674689eaf7ef61d933988165ddc471d0 (-0x824d6accfdc73b1e0db6683e12c6107f18d70d1428b8c4618129ff12d8f41f0) (-0x441111175476928d4dc582d56863a75a3c2a67aaadf4907a36a82b373c43c87) 0x7571fd4879cb7423d79afb439cd526e8d975a3d4e76081e7fc67eff0299ed86;
  Step false 0x2c64443fa6eecfae5ce660d5c56404bb8a19c20f989836a9c1df6ec344b75e12 0x224d0fa1d6b5f4c255628f4e790947df4073dd76e8d7d85c464751da6a7ff945 0x3406976d4cc7ee627215facf6833e4871ef94179f1111383dca029105b642bec (-0xa041f824e58afbc7e65a05cd64bcf8a1c8f2e9eac0c5b0bab5eda116575caac) (-0x1eca7aed153989e29384ca38c3731322d23f2d037d8cfe279f78e21f0f7fd1cb) (-0x74194e23d1b418ee31c874aa7e353b01e1074c54288c6d7336fdf7d3387f13e);
  Step false 0x3b3925bb45be919451024464441b99b1a547de15438529c396e612b3336806d9 0x17a7e90128e7cdb280c3aa3c6e6a7e701ddf6baa1b175d50fd8d4bf97de781d9 0x394ef544df736dc174398b1e5a7d4c91af7f797f42bfe252e9acc842c8d69323 0x29225816972266245dfae63e19782a04a1e4c2275c7a4e234e5507e71e19a04d (-0x36cd9098946a447cfb83d3e02ef314eeb7ed16de8796c1967c7fde51b3976f8e) (-0x9d9c0f927d059bb265822c47f6dcadf17ade1931f1bcb359c6a3b6703af037d);
  Step false 0x28816a7c3fb8ae59353df5c9fb0b2c7ae5fdfc7075eca53ec4e52654d3939add 0x3d03c15ec345046154a8c74ff7697248d455eb7cacb87779ee816089c05dd4bb 0x3b24956b2d8a3f9c104cd93fa116dc74eaf1d31e3d428aeef1776c867db6c004 0x2e4f3f967a3c3c668ad5a1cf39ff174af2e911b835f024798d2518801342e89b (-0x19a2cacd45b43eb946c8db3adb0928eac88f9023c2669152047e53c2c94fca5c) 0x17a4f28342a5d9e4ec18f38376e326e8b078620a9c35156dca5f7b8ab254d441;
  Step false 0x24d4506c622d0dfa0f885bc45405d93d22aab9eee7acc6bf62523e447510a3e 0x514adac13c738a2e0a421c4e1f75c73a08cc094586c36b64891a2a3f372d634 0x6562ff1bf1cbc2d13728470d9c8d495737c5ff231978521e9e0fcdf844251d2 (-0xaa40618d841dd22fef62dc1a55607b9e5bf5f897778c7cea9f4ab8ea5bdf6fdb) (-0x15319acf218cc7327bbabbeb9f189bf13343d515d56aac988c4dbc6b76675a) (-0x2030094f547a22adfced45d966575e308071c1605a3afe48a71b2c4c698d8dc);
  Step false 0x1228f0567b60e51cf58aa43771e015ca89f5b7bcf6516b939f79d43926e0926b 0x2220a4e36ecb6549037a04c5fcb906b71e92e47ed15387b4b7596e8c07d80b3f 0x3fa040a80a129fb2d0008dd6a3aa7d841bf4f33b4ae3d49fb0bd36ae77a79593 0x262d0d79f90b4289ac061e9d9f2df20bbedd278391ad6251c0e0fbf27a2fddc (-0x52721609809cc31e6eadc6a047660d4483fddbe06e29a68f8fe4aa064408112) 0x83df2163354cfe9c1e07010e3df0a2ac85f79c132f3faff43398feb461758fe;
  Step false 0x2f86b6f7a93fa7c47e4f9ef5ab7ca2256637fe692e60564b53e8f129d67abc76 0x19e0c575c1652644b339a9c9f61ff90fc365b21fb61eefa631a259ae37936b86 0x122d6d34a23555f5970afb3fd44c4eedda0da0a3fbabf78b2ba22461758485b5 0x27e6fa48d5c24448e92771c2a9fbcb09270cd45d48571a8327f086007fde5f01 (-0x234af84bf8be89f14d6ecf4c04fa5a5ee7ed3e41260d5522c2a2b4132bf20460) (-0x6204565e8ad333ca285e508a4535ff7e15e5384f75d3dedfe9b05d43beb5ffe);
  Step false 0xa5a5850c4ccfea0f62c3b299c1668a50f68f2f8ecda82ab31783b9ce9a67688 0x3ddc0e9375c203e0efaf1e1ab19409c826a8d1b40fc96aedd7fa9c852adb03f2 0x58d7e83cef9739fd751cd4f5ef0d2d3420fa042d4df545149a353a24678f5e9 (-0x19828af7656a61efa1b610f43cc3c7bfcdd81ff94a97a01baefe2018ce5af21c) (-0x1acbb221a8813408b838e799213d02766e499f681971dba8ddcdfc5e53fcd42) 0x5d20e72633d326501c9f199123cee063b30b56aef21cbe193c9a7291c503cfe;
  Step false 0x3ba6d971cdfede6b57ddefe668ec76456d8e79d24256eca9ef7ffea52592e1a2 0x39b12195b14a3f616410e3b589963d1fe3db61fde22b7d1b3d6964c354caacc0 0x250bc98b7249cb16bf2308e5071c8ad3a228fbab4e98e06722a5c065893823f9 (-0xa9057c49620ef12c8d8709d8a64cf7fcdcc264aa975da86e7704386bcf33e568) (-0x379953e4b4f30b7e0e2b105cbb2681f5ad7f6169e0ce86664fcd5e254d2575e0) (-0x3e26ff99814f5f585400b56a955672a4e72aabb9e0d10d625f71e51f7cd05c2);
  Step false 0x3bdf4d15b4f07b604498cc3ddd0f2716e22429c10f0a9bdff6f89d25c6b1a9f2 0x1aed4157a2db32491a5058e501742d868302f9f47231d78454e8758625d7d62b 0x12713f1c4029b758169e41569d5ad95e55578424d2762a9a23558ba32cfbc193 (-0x56b40b364f90dd759f2f03a32aad93552b1933e1e57ecb5e34f72e08c2c2eb3c) (-0x3802c13d91b89214ab949b39d01fe58132d3e03aa16593d2827376f0fa083919) (-0x1cc7ea48a693694487dfa74cdefe11bee76865664d0abe8bf206f3fc9608504e);
  Step false 0x1f77c8010afea69f98b61324683153f2304fec74a47376cee6597bc420b56fbe 0x11cc8b7e70a5754f7e471051672ba8fab1b9b98fffc2c6a78bfea8d91372917d 0x38de6a9d8094b73bb0d6bd4931ab31781fc43263e80bb9bfa1799aad8be91353 (-0xfd9e053c4bc7bf542caf1f4a0ff636fc69bfec4c277e92c2d4afcd106c2f177) (-0xf78e9ef378e192228ae805f55f9e67a5b45625fba1134c19d56033454501331) (-0x47ced6db28665c03fa41032e2f363bd9488441571cbf65101ccef1e2611963e);
  Step false 0x11b6fae01cdd1b310556cd72f8818dc09ee2b1edaf8204de08d0547e93f61b71 0x3a90df88ac0e93f674f916f2549679df67a5028db993b963c57dde540563d6a0 0x200db9021267edda34051aa7d920b1c5b9b69b614fdaf2fd8e4ed4e08f77d2ec 0x10a1aff90f6dff3952afd927f851174b24750b3f7bb9d654ed442266c7520c2b (-0x4e7406dc16392462ed63f5bd160e3b11dcc2cee39912f5a6a75039759d40e47) 0xb48b46f5eb1b6fece7abe98ff28d34d4c6e768780c352d4bc268a52e1cd1bb2;
  Step false 0xd52e3a6f0bb7649cf2e96c4f277a461b00add3beb56b5c2926d278f99375c56 0x3add68487be2a519012f5202130329e108f3ac94ce91033053f9e23dd407194e 0xaaf3ba2d1bf0015fe5a1844fd6a3f53b517aff777865eb6aa125364adef47a2 (-0x936efcee85583f8170366aef8167445b58996c32e55b1142bdb141049d8c5570) (-0x2c617d6575af7933e5f25794631c728a16ed9ebe60e7d2afc0c57e7bb732656) 0xfeee668a442d483c588458b4cf7a2798805b511ae91a890d38158a5980902;
  Step false 0x26fc750dcc1fe02665728ad372c52aa0fb51cdb66a47a36f74f4c19ac0df17bb 0x11abdba88b6fe7185e6a7531646def3423fd3bc9cb3731d3a5f0d6f030b978e5 0x1b88495ab57ee155bbb920c83385266f5a7dd1c607cd3cff6b7c446288e697eb (-0x95687f0c7480f5a3dc0dcf1a49b4492d82777cce46aa74c2ac4cde25d79f38a0) (-0x17bfaedb0523ca80ca61a2395888cdfbb28599e08fa3f683fa078c5b01357718) (-0x1917e9f0230e4d2f2c9af53a9214c9b12cad9af7a7784adef158758487bebc26);
  Step false 0x11a0c77a5f72857b2681afee9736f3a8ca433bbb855cccf30941fcee56bc0c72 0x21a2cbb2c875888829082d4f8a4f0866b4d24384e3c6455e7bc4fff4a1f8ebf9 0x216d9839d9c4cd81b9bfee5bdb1ab937f2c859811a681936b5c78e8e835ab19c 0x876d7cedee72177198fb071916c17467df67412781f8087493065e1490dec1 (-0x4dafde0d44fff117540f411ed3ab3846154b3a45e5263919f72f6b4dc9f0501) 0x465b2dd2ab693adc5d6669c12041e72e45123d55cabf4a707ff2550ae97786f;
  Step false 0x69a83968154d4272526a62366e6e841eddea4f3d9c0d78ace93445a284d1532 0x430cb00856c54c909d231083d3d293a74fa7545087ba908199727eb6f2fe663 0xb85d8ef9bc7f7432acf73a136e9cf5e78b1d3c0245294be4d0e97ec7699d3c7 (-0x2e228b11112eb16c9ca74217088a79322969c66615149737632749a4f1704fa3) (-0xae6db68b1bd366dad72867febef741f7ca7142a0a4739eec83b365aeb37f6f) (-0x309c6ecfb597ea64041c8f950928c66fd02e24a38a869071cc74fd88ce1dfe9);
  Step false 0x1a4de1742dfc3124438d6d7df3f3a3fc8efb9fc04ab88cdfc6fe182c35b3b4c3 0x831ec81c8ee8e8fd2cfde259b3e4e40873d16b4a341fd251f05ed2a943cfe96 0x261ea82f442854a5f97f054b35bc0edc15757ffd9fd7628d336510dc665d7835 0x8a60fca62208c49bc88552291bf53aa539a1134432fdb0ee39d1391c9625a4f (-0xacfa5f3ff2144ffc2e91a933a21f3116755a152474f1e3edc33d65c93b8012d) 0x1a5551411a9dedc66edaca4396f3b00b600983141d73fa841d849acc59d96d5;
  Step false 0x211264bdc1d217ab59d923aaf1f26779f89c235643042e64c71b7982ec99cb2f 0x10fab1b75fe64219bbb18bb21d7022033ae8812960cff772576fd7084b121057 0x36511355cba5b443cbdf2a54fdb0e924ebc895a031c7a344163e917f5c95e72f 0x243fa07b29879fe80fd73e0b57627b7baa7b20b38fca7f4f855b1619efd631ca (-0x1116fd2cf930dee59ad78c2a66bf243c3c14273da3fbc3fbf8a7269bb3e5851e) 0x48a0bfad88e951ed5a10f9b6f6b1c0723cfae8250ea5f6310c4c16bd17eacd3;
  Step false 0x3f177cf47f701a320b6b5bfd408ea141f29030ed4cd3ac243485a5fdab8f1167 0x36ad5168280620a2bb2bd02f05a129ea682f5e72bf0ee3772a0f38aaedd26d8c 0x989ebefa4ab7ea4183335d166fc42bd78b122789d71bd1d9beb521a6d0f721d 0x5d93efe1e9e27ae54f6caab99a4b9746bab90eb78d3729860591c970a4014d1f (-0x3e3246a01e976004747ee86e2364d672af2f28a2095633c8341b9e23884a4937) 0x2529aafd81ff1d23db05fdb193776216da669c53fa1e2e743be73dbc82d65e9f;
  Step false 0x116ac109dc8bafcc7c46f01f1d67120664d931771f7e371e008897bccae76cf0 0x2eb722ebcc79194ee053812d10d981a38a9bf3e6ecd44dcfef07b8053a5ac9cf 0xe06bb6f13ae62781f43750722a0cc256d07b59e9300681ca1d822eeb52b8cc4 (-0x86f1d47531baf393456d2ee977ff29484cc975f5ee32217655e9e008281d1f50) (-0x4bd689ef4143fca72f5a31a1467b50b19efad94c7ee81dedee02d20717bbc19) (-0x22aac19a486456f9b037666e785946647a44f1d75da1b6e3130a0d6788d3e4f);
  Step false 0x3f82ff3f6ed025490fc87a8754c528af02076682ab8ad522b7fe0a5d49912da5 0x2999a7a798dd2041edcd0288254cd238c4f62650587efc9f1d0c08b5601457e 0x1dbd04cc921058ce2b934c0396eff3553f3f875ece8bffafa94999f0ae604b9e (-0x4a753e7ea2f03693f2df1412023a2d4d01d568cd752609d15d4b7ce3da3fc37b) (-0x3f06f2a5cdd9b0e8e2a892666ea4b8f5278572fc05fb9d0e8b413c300c56933d) (-0x2bc75e3e18e81a371c35f8e0b72295c58a646ed64d2643fb564ebb599149acd3);
  Step false 0x250931796f364fd76b5884fbcd927002653e9dcaa9f56a6b1050920387d232bd 0x116bebefeeb2b17e62241366a6f3fae44953a31370a70e8c6d0305487590a8ac 0x2afdf578f2b7c16e3f854e9bea4611bb6b043a8011db5a1f1d5580714fed39e6 0x2219f9c109b4669b87f2b98c350ed06aed6162d0ffdbd62a7d41781cf965e140 (-0x156ea28678fcec4bf994e0a05a56665e18941b9dd79b40f3e604ccdc7c8f2be1) 0x893b82081ff135dc320559f4581f22147fcdcf7a2088b4738862db0ea44ba7a;
  Step false 0x26ecafad365239e4b6aab47e354528bdd8b65aa4654fc00659fd017d8240f3b7 0x3cf7422235b5d2eea7befe81954939e98d436a4455fd7b117aac4a4e831efbf8 0x34cc2e0561b9c59f579397352d4dbe05667d44daaa2516deb98875c840d6b8b0 0x26116e7c33fc0439d6295f32265f43ed39f7a31f8616dd7de1db1c6cf22cd024 (-0x17ac7bef302b590616ecd0109aafb8cb29ec3ae13a212c41fb82476a31449f81) 0x1a7bc4828cdbb41f0cffe549ba70b6823763ff9b97d86d8ecf78e8c6c592a1ea;
  Step false 0x247cc89ccb2a785af5943aef37dfc87dff4f0cee3c29a679c94ac63e7be9b5cd 0x21bf977eb3614b2eaf2e273657802bfcb42dfdb3da802348cbd7941f09a5c3a3 0x1778f19f2cd52eda44bb1042d86d5a0308b2008235cda25c82b439577e9e86fe (-0x72066fd16e4b5e52c6145784592d3abee604199661bfd29893dde0e2b8f416e0) (-0x14cd54fc38f881e318f322ad0066f2bac4ff1dc75c33e31810d8bfc15e61ca96) (-0xf846127397196ee816231ce717f7d8ae16e03c14e1cf708c6e5391b57cdf563);
  Step false 0xa591ac013da5e8d26b398dce4e4021a212fe69d2ff63a8692fb74e43041c6e 0x34efc55d43ade7dd4f7c9fb0a3dd5681ae8acdc2b0e51cfb85f9fb9b72cdee27 0x7820f1cd8770c2ccc5a40938aeece286d6640a806025f86c807f575a3c852b9 (-0x34ea02e0d4ed6cdc4a4ec9ffd2feb2d219f145ff3d704625026ce3d4092b9b13) (-0x1ac546a7799c57ba5de52d8cbeea56754701572c4c5a13e686e15f47ec9d7) 0x31a3e2fb92c6f689770d6848306381b7933c6daedc9fc7c97c0cf8ec5f8e6f;
  Step false 0x1cc920f0b81f2cd9b4da338142616df20ae3ab3bbbc06aeed99893fdc481a587 0x2edd2ddc239033a3595648d13b232b40fe4e09cefac5290967e6b2a142fdaf99 0x116093a61d684d68ecde934107c80866039da0a2951bfecd863cc49968acd16 (-0x7c9a6b1d49331df438698104eee60baedd00b308d042bbe7fe88c7f76dabe4b5) (-0xcf274e59a140c965e144e5e983dd8c7340cf7e0ff728b1726d4829acc7bc14a) (-0x2bb37cc7286f940ba77159a5db5d89e04fe99f311200e182b209694725d6313);
  Step false 0x2dbe8ebf888838a825643167cc2bdb6d15c5508ceddcb8756d3b44dc93315e72 0x222387c6a8da719f0756a39969e5658313313149654f27a527ca852d29cf299 0x1f3fc90052f8ad335001d98a65ddbf0016db097f6ce15ef0ad60fb06f4d55b52 (-0x6565563eb79d46166f44bbc81ef6d5b1f68bd3acffc4ce31933d797389eeccbb) (-0x20b2301e279e638d66b34ca6b45e258447756118c0b6417e38c243d1dde398f9) (-0x1ff8a354701034d991424c984f55befd6a43b0825378c0af69061e34321a0198);
  Step false 0x28ff2d835523ba64997d6a6266f514c9afe4d98644a6222adf33267d2d11f265 0x16b5a3fee1097df5bda164f8aecb60a7a0d3e671af551f46eaaa6b93e777a62e 0x2a43f3df4de2057fae54ef5efacb561fe52717ad25e18b0f6ce8108ff009db8d 0x27d24a801f196dfd74cf43644c13d08ae4d726b00c896c33ad3c9c59c8cc3861 (-0x1a42f252f958daee4b27631cac730ca3a5088777105bee6e2585d6dd0c3b9079) 0xd2e2d33c6948d63e5687689846b20bd37645133295c934e30047e4afacfeaa8;
  Step false 0x2a12f7223630b817b1c2c14268795d5ec58213531ad1be97c617cdaa0348f954 0x2dd2473a27fac763fb6ad798e2b1c44f5f8bc45de329347816f3408fff9e59e4 0x1537f45a6f957f3ab921c2c415626fcb263a352ef2744803d77b1890ef4c80b1 0x1f658fea8c31488571c9fa69b03a4f40d156d4303bc818a6cf51fa5cb4f54dbc (-0x1ba8e9fba4aa919875407436322b8cf0203e1e404562f33750ac7b6d5b86dd50) 0xf31a46baffb8b053b397520048c6b525a566921edbc79e7cd872a721e0559f6;
  Step false 0x2724735642f4d5d2d535ea0fdb5c173f3578db66e4d8fd7640813e83e229c2ee 0x1fac5898148ba73d430f379093de9296893da6aec2b2271d039cf0006f72817a 0xc119f9a9d08065d18edd146b004376739223747ecbee71facaad16f03e9293a (-0x4876d7ed28c59b546d535bc3f29656b16baaee24fb050ed51dca7fad45036c14) (-0x17f08153b2802ced9982886570f80a71e1ea161f95aded7d0629d795cdfa6002) (-0x8a72c403993c8c940f99706c98b552e24e9ffa63231c0c3e13b8bfd8c87dca1);
  Step false 0x239225de349788fb6bb007475c14c00ef5545d47d8f5d5f8f6428013665ada09 0x3506b99acf26163c03622c2b5948050faf53600dee7f8d67d95eae6ab8cfee07 0x3ce871a35d81af0040a363150a260ce1b2207d8022e52f0113db6c2e0d9d521b (-0x219bec8e841b03a41f558e8bda8e2621d09ad0d9aa6802003c50c9278508dc58) (-0x13c52727e5bda18035c48539f67a6a173339d44141d90a2205793e499c526356) 0xbde2fdd2f68381c20c63ccfa21fe5dff0ccd2ba10a3c145ae20d9e08bd15e4a;
  Step false 0x3614cc3a5e994d96caf2b76c19fa6009905e370222b4ddac666e307c8fd79d67 0x1b972bdcff20ea31ecfc490de52f3914dadcc1d6dd19a1aa1bf981c96e7a472b 0x260d645de9499942afba899401e62889512543661ee0a9fa32cb7df4fa81b23d (-0x1cdd96944973d29a4484f43e02675a4c24b830b6624b8170403799c19741dcd9) (-0x2db31f64afd2230c450a1f7683d7e703b2fe065a250975e00c0bf4c3f5af5c38) (-0x157e639f39539f8f0f0f0e47bfb35f5003a6d40ffcf061fda358a3506e700a2c);
  Step false 0x185dc4cd13e0445fcbc4949427f7be05630baf51e93f008ef5654cb9cd88d773 0x2f4107b2fc228d00061e51d9e01d91784b80a3f316b126b7385cb8c1d8a54114 0x228cd69b7c11c4ea6060b1b044cf911addc86909877b14f211ee4ce18d5b4f7d (-0x6b54a08ac64ce9ae9aa2deb378bb48f090fbb4334b973f9dc1a5a5f99960add) (-0x946dcfc2014a1ef8ce8a2fc268c791ef4df43ae4564af133e1be1c217e88e3f) 0x77c81bae54318782520cd889df874ee24b37097cd494f04def8826ca9d5f465;
  Step false 0x110ddacf0f951b7ea504d71cdecb37b774e9413ff2ba1cbce5068c07ed7e2268 0xea4d84bbaee65be9d7878bbb271f5690c35908b664d35b60ef007ed279e1cca 0x3dd6d57b3582e64f203647c78a10903f6975088200a8b931d4323bed581c1789 (-0x564188aec579ae0d495da62a31cd4183e95066dfaec819a609a9fc9f509fb320) (-0x48b5f3dd07ac33f0ec17bf299b521e85d3f8a4499ecad4bc1c93ae39a172b4e) (-0x8b08bce90dcb5d2deb91e5d29eebc4f921dcee4de13128ed7b808fc56ad2b0a);
  Step false 0x2037d8dc8fe271b710b7e1a6d33fcc60130e699689f2abbd100c74bf92396326 0x1960b4f937bacbeb2b6fc2a0eb9ccb94fad00612dd7ebe868857a7366208efb9 0x3dae0c9db990510ab095e29578636639dde506ae5598502974e95793fe78d008 0x34356c24fa9e4d7a52daa7213e39188adbc9529a6d54446d6c61869157ce8480 (-0x1038099829cd82417b39267cc6f8989a68a3af5f178e111931ba4d0cf40d4057) 0x5674c276a2f47d639cfc26d9e332aac75dbdc429034fa173423362e9739a40b;
  Step false 0x7f963a8115cb1f83ccf211ae94d388d59b49f09d2ba263e03116404ae9b6e23 0x15007aeb5ff46b01e5b3d01f160442f2f14c4f90775e4de2bb67acfbde8b0adb 0xf983a72ec01cf97b35628b236aa6f58938d0d51862dc1d46aeeff24afffb60e (-0xed1995fc6a779f54377d16e72d143a368d4508be0a926bc112e2b0b4ea118e3) (-0xfe5998d2c10f4912da9325032b04955acbaf2fcf37bd2ba8c42cf97f272e7c) (-0x8b938bb90ae67210a99731bb9e2b5b3ed9bc8530e181fcba2c7713da7f2844);
  Step false 0x100ab1117a8e871e5d2fe9719e3c48961397ab17c2f8d217a87e3fabb9de4f92 0x7b333f594932f9713f99a2ea3abe0ca10cc3e4172989cd2c326ac6692030894 0x34dddeb3629fe6dfee395975ef4bf6ffce1d91840114b5546fd3f5d666e2d3f7 (-0xcdb9eebe7583e1051d0ee337ff769c91fe86568282b2003a7471dfc4c873a13) (-0x4055a51fca242c3c9dd6fd0be9864e250f4ea391d6f3d68e59f5b4aceda50fa) (-0x3558a9de37fa49e39991c955c36d5c4e0f22afac135ff7fa2b0a9c7cff4ab79);
  Step false 0x2c561cd0a97ea9b140a98123c46490adc9d34a873b881ca7d9908288437e1554 0x2192e56bbca20d30e3b9cf051e1af68f7a31453c12491fc171372c3710a3cb58 0x11648bab33cda2e969575a33e508bbd9481164018d51125a2f6fb9bd15b9331b 0x4677daaa6d8b5b0014c6e270ac7d2080378f6c1fba7f6420db88bfb2a180df68 (-0x1eb6db7c66ceea5a11f2dcb2e64c9f62c356c0d5104070d0c07427aec3cd0710) 0x11ec9a3deb7a6377f293f0ba515798777ce33cf1ec791e95d4e59edf61ce0362;
  Step true 0x362361d5c0eb2b9189791b0fddd355ece9c4986a606bf8df1939a6f662abe731 0x3315f948a3593d6237a197b694ec2f69f5536778bf2f79582c0226c9bdeb8243 0xa2cacc275efa4dd94acc5d829371f85085e037f96886301713d795bec86b8c0 0x1c66813b23e2c6b686c4409b1221299321fd0c94ae02d9f324c76213d2266447 (-0x2dcbc8a84ce695707e1c491fd31c899790231d60dfc174ff1448003a61b029c5) 0xed04736669b3a84ffb079e2d474d13e58c91e8b26dd605efe0a99290800fbd6;
  Step false 0x1cde735fb774063730db8dcaabcf5f54cecfe01e652ef1985141867789cffbd6 0x2e6ea59a392e7e86da655d4f7e3383007198b56dd2d17e2591de3259f4c47261 0x28a700a590ade56fa532df265c7d4e340bbb29420bf35e5b35d4c97007894e0a (-0x712754bdccdce9dbe615d6c16090ba2ff34e74447c425ccc350c30851fd8f79b) (-0xd05aa24f88ac4cb0e4830893dcde4b12709c4dc58827e389ea12051d735dffd) (-0x219616a338778727eff9c4f421f34ce421b55f32519c8417dc84b8948e7d622);
  Step false 0x2d6f07c34f1453ed12a7c883a120b3513bab06a5408cf8ee1617cc111b0cc661 0x1d56908def4c5d18e038219c4b3985ff4ad738a44afe21364cf597ec3293ec0a 0x2c8fc26a01ef9cbd7358c165c2c36f19ef8b9668ba07f8c31c4c54395a9bd934 (-0x2b5781fa2a7f858fb5e6c478757d36ad1b56ab1c04aac1a83d85f1743732feaf) (-0x2040e389959ff1db3886265d2dbfc968db1fea4b143cde0d467be0ec8cb55ff5) (-0xc2296a3f20fc52573cb467299dd4ef5bde8cef1f5fe010c3a041212333909b9);
  Step false 0x3a5b9b69198cea8d2c19606b4ba695e5a48ebb9bc7aa7584d077cce3b9c6f84a 0x10f94e8dd9f8259ab0bd7ca3b8f5b85ccecb6ccd862609cc2555867b7e89757c 0xa61090e3b46de06f61673103c813486bca6cda169cad6f42fbb5677e49a6780 0x28eb69588382fa86726a6a27ba48229ff5971ef4d5d3eb450fe96484fc0300e4 (-0x35368ccdea91d23552142144183774232b44a962cbafae9171301b24139627d4) (-0xb463670153ac8ecded19666cdfba481f740c81ddc64b0578ea0d0833e7d9458);
  Step false 0x39091f69db809c323a9af369d49b486e2a00b38778b68e3ca06f1ab6c5985dea 0x1f9f42d14e267f0cb9a068a00fe6982e6339d2ebb15c508d7d4f069d4244adbc 0x35fa094d48a3f934a5c637588bfda13983422248bc92a3f3b4c77985199da59 0x4fe76509466ca1e8ae6761654b3ee29c9db68e27cb56731a202c284f39079d0 (-0x32d44141742e0e212caada2967e980b1a30854cf9a3083f8b1fd7eed8cfc4130) 0xd0de41309c8589e8e3d688a7c31f16d04ea24a06b221d478f9a7995c8c4ec59;
  Step true 0x3d7e82000c26f6122a7d4b0bc02e12b639543d538b7ee36f554c6c921655f315 0x2720d9cd4e257ccb12bfe1c507b5911522b0cbd5c44604e58a062b00bbde3015 0xc86c7043db84115ac5f5cadd8313e34de1cf452fe282f73531090f2742873e 0x1e624d769048d04c81978a80710c5d8edf1cdd3d67986001f76f9b75daf511b9 (-0x3b1621e0ff6a4fd9d27ea5019d196288d0c91b8edfd286f717209a1df0a001e7) 0x7365a48ac3bc5f81282bd49a5c0d5b8ebac3b3661c8d375e52d411716bb8de4;
  Step false 0x2d7141563e8b4af1d436d851bef4a388c7fed0c8c489f54e225afac35a24d219 0x3292fb066d94799cedcacf167be9e6a2189740997ec4c8fda7b8279eb731b74 0x2c2ca96fe203e6b399bfff79a6f9c602826851af35176096c71b888750fd2266 (-0x46a7b116b8fc635d87973a577785e7d725c78616af48f9344bc082bee00b830f) (-0x20440c4c43346087fc163336fd5c9b49b6a35604b9bb37ec1cbae148f4458ad3) (-0x1989c99cae621e847e8e84cf7bc7fcfc81d24ee8d7e258a1e84d600d39c56c15);
  Step false 0x2ac756061c35a411f58507e5aaa98d6e9b747fbaa8ea589005eda55775ebd9ea 0x2ff19bbe2a07497f5a5a54d9cc5a85bf796417cda4c86ac6189ff5359e893192 0x39a8d0bcf3d5434f2719e99a7802828988d7fab890b80ca31016ae1408e6922 0x3a95e5f3a984d50cabb21c319aabfafa2b7b6206658446daec05a995a6dac8c8 (-0x1c980dc36ea64151615b915f3395a8523f2ef2e2cbce791da7e0663a3bab216a) 0x1def024a9a9aebea4edae0441e5f3e2cda80040bdc00617f817e3378000530f4;
  Step false 0x19324b6f729825e8a62b9d45f9ec5febc6f0884a3362b4441641a3ffad6b9b31 0x230bd203503d61da5d2e5b6bc04876d0ee46f0f5bd720b97973e9cc87769cda2 0x378e9c4475452d933d14cf6594a02f8b62e087f31f9ef9065cf7802b0f388ff3 (-0x68e8de60c6c3412c1932612b6991a7eac63c9b0d47218f8f48720f0fef583ac8) (-0x9eb72754893e1ffe321ec3c0001b6102b7ccac3acf367fa254071e69e8e2e9b) (-0x513e5865515d43b6c3b0f54b74c49dba65ab61a2d917965f8a8ff81240d77db);
  Step true 0x22d1590d0cf4a4b4509266b11ef572c6d2f7650e33174994a9d5feb5db6a782 0x1701e958564a9734b4a58b4b38d8db845972b86d06255400c15196e50c68b52f 0x29266327341bb1465aae023ae76e9c9945653e7a53b75c622c51c7d76e54a422 0x1310eaef2afe17538a57fae738275dc7c2eb5b71084929af3cecba012090d8a (-0x12f11b67f6e8db84ff61978ff3c8aedd70e8285238d10ab3843bbb8aa05b32) (-0x68ca4b6df221f389795771fd3382f4c2746dc12da99fcc62028d84b8b63b51);
  Step false 0x3977fe786a42fb23af7676ef8fce3c46e1795737915724181835d9a6d9206033 0x11011e117ab801edc299be550c2a72205340000d7e06ee2e0a80c75cda8eb988 0x3e4595515259d8884cb086ee2940746c7442f97cd0d01cce05cda360754f3f68 0x31168f47c78b6e32b328c6c12ab067e863be3cd01e14a24e7cc4a2f0c21069a9 (-0x339a9e40c0df26705246b0f3579ff49c6b61d249a9af8481ea102e24b3862643) (-0x563f6638584c6d7a5a194dfe7094712369cbc439c7ef34991e67b56cd07debb);
  Step false 0x2ae052b1bced2ea485fda6ac36733ae558101b561efa95aee5dac6165c3c085c 0x195e79abb234ea13194e8167570ebaa309ee0e95ae5b1395dea50495317dc3ca 0x2ce519d4ed75d9a0937345a86cb1d3e9a05357b054c0ff69de5b3151fbe29736 0x45e214014ce50d8537a05dcf53fc0e772c4e3db0da87b454ccc2e357d1aa8a00 (-0x1cb97ecc8efb2b3964ab50b402c051584550fa433c550938787cac9924caaa36) 0x59a95aca86c5803572117c6b77b94d913e07bd94f1e2df1dc387f6d46e39656;
  Step false 0x195fc0209ebcc5568a75d7680af8d1f17811e0d71dadfb51162a887dc1be11cf 0x18c298acd9b271412d372696ed1a8be8b459c5015a852872e4c8d286062dfea1 0x27226f7bc66e0e802aff52f14f5ec66b60e00968296c2ec02a1396aa7f5faebe 0x56e42520fc4e9a48417bc71d13963ab46a4090c7bff540ab714dd74f9a9a328 (-0xa0f5d5a1d9e83a25b99ee93504725e1c18763aadc2068543c5000b225579f2c) (-0x3dcd19794c010bb9fbddf77f949a10c3d6a1c9955ea799df1ed7ce13c3df33);
  Step false 0x37909687c47af7527dd038dad3ce10ce2105fef9336a1ad1767537f3db53c3e 0x664b0e87597991eca7b2eaf09413b86aa0c2e8bb039115894934617e74b0a3b 0x3659f67a90d112acea92e9762688036346ba654e75ee95261a5979cd3acb65a6 (-0x187d8667584a945b099843c95dfb9e159aa964060956af3c4ecc7cbbf8abefbb) (-0x303dc9601eb50b7264bc3396ae9113b8f1f26f738e64268afcd568d6321787) (-0xff231a94d945acb453f4924d8c720f3e21da5120193f37665dfeae0c320450);
  Step true 0x3e34f8a976a45ffac7e7521f60cfc2eec5f17b28b2206974e4a270e81259044c 0x39ce502344f7872972e859afdf697459f5b04b4707e41335377a26892d40d1f8 0x3d506ea344ecb91ce0b8e44497716b335bcbe185e390b6323b25fd8caa0908af 0x636d6080a0c66cca334a2527ed53059b6def0685086478dad894e2208bbb64d (-0x3c76cda02f625d4332b740cbef0297c8344e8152952682f03fdb5981985e9a5c) 0x31f8dfd3c3e890c1c22047b7bafce41eb53a88ce36f00c819d2b7d3b3b9fae71;
  Step false 0xda8205972b72368764dd1bee85a89db95c4abdb7cf61e2559557e982d097d98 0x369b8f7ab848124512f2d1a70ea785c15a2426e389d2347a9eb40ac73bb2f24 0x3afd26d7e5fc0ea75502fc6e73c4bc14d1142b51ffe5aa8725c25026666735c5 (-0x827776464f68f33cf4a862f10412324668584ce5292b5c703e357639a9216af0) (-0x2ea06ce3c8e979752de20cc49479acbc64ac3d08405e0d9381a7986b410f72c) (-0xb9b523ffe95038173f5d3867c98dde45bd6ab412e6130a58052622754ddf36c);
  Step true 0xd2e5367cd59b32f1e0d30976ccd71d968fc0f67d37e2526d9b92f37d247966d 0xdd5875c335a49c0c800e7e3f6b680b747523c3ae1c0a7822b820b93ffe918bf 0x1aef3c2d3f7f58ea9838e0e5f8156ab92ef5608ce4d54373ec2c2592fc7a74ae 0xb3f201e5d47f8cd1b49d1722148f0dfb359e0c9958d0a9f56ccdbb218c88dd (-0x2b6f36a7d5586b8ec4ea5ec7798cdf23dc100d04cbeb9066b537e442935a285) 0x22570fd7a73848e0d08dec2cb03100af78bd1d7359fb2276afff592e94bf372;
  Step false 0x835b8ea87dbb8fbff04fe8a7e42ea77fc09b770c579a12b25e8dcee1c9c316b 0x12d1c77db2378bdff61a04fb6f6cb711a91d353693b36478703e4d34e27f092 0x35f3b601af3be8ae3c0065405871e15ad836b9f4af00fc5392f53a03f4e845f6 (-0x20f8f4ab5fc8544e5540df3a439460eeb4121ffc7653976d82f4ef87d1ef60f) (-0x10d9b52fcafdacb5fe733bcf036bac9aa1f08d5d3aa09b5af090c9f5df800a9) (-0x19fad67a615ee630a6b7832319857a0bb5efb771ea30c266ecacc19ba75ad2b);
  Step false 0x2068ea4ab66f2fa2edd83184882f23bc5a42607e38dcf212f2df77638b14758b 0xe6e882758aab4f582de5c97ac8f001d5677eb37ee8a6aee44cbdae40765c183 0x1d698cb9136d94a0b7655c48ea9ecbf4910e21d9611038ea3a7b09ff1da0fcf1 0x3693ff05d29f1ff175b0aeecfeda2e6049100714ce66d2ef7c36a5b7e2f49b58 (-0x1069964782f2c642b4dbe4406e50eeeeb5535c0602b4150047b317d4e1fab6d2) 0x6b670ad6716d14ccfc369c83bcda569d0b4e482b8c1fe51495a7ba1156bdac2;
  Step true 0x27bfc9a9342737fd0dad809d6d5de50e9cb8a1361ba74f8187433844ca73872e 0x225b94ba2e8964cf89ebe58b6d63d9766121a05f029b6293f6c9ac552e997f 0x1657468db14431a0ea6d7884ea7ac4068fcdc195f5d7d08d9468fdae4bce37d 0x8f69a4f9ab264b2e89951943e8a333caa6f7441ac9ce1280720c8c52c068126 (-0x18affc805ceba540886219b538b8c27f3cf6d85144dfa4058e8c0829f6213141) (-0x8e1438b66ed792af26e088abbd9c206357250ad2dbf7f072a62d20b3b716c4a);
  Step false 0x193e4e48bd0a0b2c02f8e40f4a0cb52bb4e06813f7deb46123dfa2b2557cfe30 0xdae425208e1f460079c3a9c252877cdbba78c62f41a64ef6657225c7f03445a 0xebfa727a1118bd558805b224263ddb00fbd3440e16ed145948fba956a13375f 0x119c3987b5f1fc89566e15d0a0b4d033b4651aef7ad6fc407546f0f6a5233dd (-0x9f4e9d0e05fbba407cbf23a9ca1fd19f1bf36182baf5b7f397a2a55f182d1a8) 0x557d63b60bfe61d6ff65cae2e8c2a2c01fbae657c162a4ae6ccf380a1496dec;
  Step false 0xf7841d8e099b87a772fcaa9d2ae7dc9eb0cf7010cd6f95a2c5b9aad0d492149 0x1fee64d3b612c71cd5a4312275b27fef4d8c1c50855ef8613e0e6fa5ef21cb8b 0x5b99d252d4f9138743cd0747e9ac0e1921df6ddd1fa01edecce7f153503d25a (-0x1a4acd7fa5fa8ab80d8155f738152ea09ea1b18aafa126c12f5f4333ba9bcbe) (-0x3bd40d4da51b61493a8d3868d72465eb2e9d57098ab820f8d468d667ccd9292) 0x469531e1348a53128bb8fa596fb52299c4dfbe11e6b696523ad36f49131e7b2;
  Step false 0x558771184209b5ed458de92dc2c080cb7f18845fb49ff09f3cea8b83634e959 0x3405b20de87bf1053e7f92148305af9253bce138fe70145306ebe9bac3f5559 0xc4c9bf2cc558d299cd5177371d82b17baac4333678a48028b605fde92015418 (-0x2ed668b7818bd23794207cccbc39fff4f1a17612d3cfb1fbb33ada1eb2e321d7) (-0x724ce30a559a1699d798ba551f8b2e2f92266c449ebf917c24030fa2583482) (-0x2653d6ac237e8b98378b5b3e60e5f084e58d7cbf82ad39b6b76bb2c257172f0);
  Step true 0x10357bd0e87814460ace9fab8d660de9e6fa1fc097909419664f46cf45d3687c 0xa181a9c3dcf1c283eedfc80b58391c148136a81cef376c91a497957dc79a6a 0x1ea2415e546d55a168b7139d2a769ac9807642d628badbc4927c75a68b4039a5 0xd2ce5dfaf4f2b81a97a2d3735f675129126fe093aebd6188f790fb71cced43 (-0x41aea9a75c6b87c8041ab268b0d1a6ea7981aa501e8cfabf84374e315060c4c) (-0xa9e6fbb5053218683ccc1bc02fb6a0288b9ab280503a302b75f33186ab1607);
  Step false 0x2487bec95b6a3c55e3bcbcd654c4386f912ae7c5a53851cc83faa5c856bd17e3 0xe582f4cb7eaab80918de326d9390248310ea83c289102e3c3521b77f1a273ab 0x3dec0e9927f6babcb87b0a2e0c6ee739a9dd3daeb7d50fd2e065ff32f9f7eef2 0x22f3b5fddd4249f6377e7b6dfa0d62b0a330cf2c2625fbaa3f326a43a214c4f2 (-0x14d9d68da10f3458a6a8d8493751ad560f3a2d42a1a28420740500c3de36eaca) 0x7d3d7e365ce201ee2313ba4bb0cf1f4158ef132db161e26507082b324c8a43a;
  Step true 0x6e2ed9809f5adc7fbdb13d40eafda9cf4e40c95922cd76c9fea00f9cd5e2ece 0x22f54a3867ba13e8d72e54124fbe91ec77201fda9294bea70f86ef23d0472715 0x3ad4c239318a31617c362ce4538e268415c917c454ea27558dff288b43d096b8 0x18b2116dafb5b368a252c8e26e18f58a505992fc411b8c5af2a278f0ce2da95 (-0xbdb12df5afdaa3b3332e2741b6ec6380d48c4c7e3b73491923d1f591ed1303) 0x237d1d3e8c6362d5b50b4ed5f03f7b74d19c4530b1029f1a01c508ec179f0f6;
  Step false 0x38f908d2911a2d1ad47100325627695ec08240332f2e65f45dd551067f5a8db6 0x39549e85847ae4b2affc58388aad2e3c0c1453a7a6cb974dbf65541ae367303b 0x3fd03b8dbc222ca39768fde9d0483699a7f3fceef70ddf4c309eaf258d540b1b 0x2f754aba26e0e7230d5a96df3490adaeff538bbc1ec23f6cc897be274124c675 (-0x32b79879259e3badfc942be65c47a5a3608c891cb0c9486cdc3334b502747eff) 0x13ea77bcfb3bf6f8be865d1dff233df667dd6e354cb7702ac2f2a887205110d7;
  Step false 0x10f75c2f95ca7bb872a91eec24cb83ecd1188eaade6f63abd8ddc18faf1ca110 0x3a3d3c71c629f94bf66a501eb740eefd8c30b2afd19d5e42c5773f82d29169ad 0x1fe127313357db932a52742603d0c2a0b73af9d8ab06c15daf2595515e703ca9 (-0x783c19d655776a3e43a6335662395b7a99841fcf0b3c2bfcdeaa0115b74f2f6b) (-0x47f6a23defa62ceb4b6ea1c23d06954bef9cea6cf314a82743874f5e77556dd) 0x3daa8b9c314c63e3da8635807625528eea5f1fd958fe8bc85583dca30090e4;
  Step false 0xadd57d32c1dd00aa0aefe3312182eaa7019736131a39b8f60cfd81e616e577d 0x25045972528c848aee006ed8c6bac1cab0bc26b4fa8e12ba3ca0a0130da57db4 0x2ae6297b47363e304e5892b0140835d232fd2055883bc4b09f1c0fd39cf0aa60 (-0x942ac9bc6c7a507437bd894e7aad9795fafb94da21b2e0a11be79a7a6aba01b1) (-0x1d828f500b6d7a02c361edc962ad1da6f063af4f489249dc906dab05489e1fb) (-0x39a49071eec78236cdb7e62637a335263f0e02c11e34faf31deffb51700f08c);
  Step false 0x2581c8f5cf6079c90585e1a3c9242674225e33914e33efa5859682f645ea82d5 0x1baa4921382b43876607ff8ed5563f1cc4e02b3bfbe6154403d5cb9a0e2c1e40 0x110841ac27436994241637a028723d00ee244382520e9d271ef70c3e2b699abb (-0xdf2f9f1c17e9447130763664401d347275a6f290298586d3da5505fe23ecff0) (-0x15fb178ccdb789f0b482836ca6a50ed88459f9818b7eecf3e499b5b918c9eb91) (-0x57b085524cab4306eaee9ac67955a53c013039bc1dbc831567ff444ee230e69);
  Step true 0x3d507298530bbc6954ae9d865b6eb255429c1995c3ceb6d97c003b001258b9db 0xb8a104cec6eaee8d5f9a78c380067465725fbbc99a62a3cc1cff7213e8bad0e 0x1123989eee23d5261130c81fff66f2d18f0a64f7c34e485bd1562045d1441b47 0x1a8114183da636f152e30670d484c133094a8a1e9c2a7bcdf7e7eb3774c4f6e5 (-0x3abdbf91a84e0ee4837935aa5f500013b39650209c3962a5c5b6a0e5ccc6760a) (-0xf72fb51283c4732f7f5e0cf9e980a91b508eb2bda84bb24361c6f89009041c4);
  Step false 0x2a291fcbd449e6dbe000f09ef16bc1b90549f0f0d93a19a50059af73f640337e 0x340fd73ce268f5d24e76ea04536794cc98f28cd0236b4fd5026060ad057c4514 0x2cb44bcc8bd4fe6416a62c9baf850428590c9b5a4590744781c0491d680e8a2d 0x1056e0a18814402f51a3def4eee07931a6f55c046fdbd856b275c9babad95d98 (-0x1bc614285394fc816c57afa169efb42ba64c7ca54562dc7b6ec5bd106ec7d2d4) 0x1ab1d462c63efce1d7deecddcf2b3fa1f264a93565de17575f7d4576d786aa68;
  Step true 0x2fe3a7da7f331eb32c55c83d4a2fb1d314ef813685d43d9fc023d8a3be0c884a 0x14f2b05ad4e5f0d25b293115d9dc785212391d9c415aab054ce0997137e9d0c4 0x110f0cf0e98992291ec79b78e4a79e5bba5be87f4c2dc359ac85ec9216e0fbaa 0x26f4d2cb35492bb0f193a27d80f24c456dfbb80adffd56a61ad553085460b00c (-0x23d588555904997f4167bd48415d56cc9c3fccd5f32bdc2076df4b59aa189f8b) (-0x1748158e364d24f1ee1829e1a8d3ea8b8baa34c43c368bff3ce4725b8ef09949);
  Step false 0x2d21c2d1267481f2126d55c60535286538adee546e7f732bf559809500501217 0x1c9cd6ff55dee6e69f785eb856e47e8d4018b79067dd9c1d92562442238e88b7 0x2d5347c8b629f8fa8a99ceddce3c0ed9fb8583cf42a7e1cab810b956394f6855 0x37d5611d051d401df0a112cf9c7690ef82dc155d5fd64cce3db8bef54fbde5c (-0x1fd38bc556ca2383ff643485a8dce49a6d1033bfff4dd6af9f9e1742bc4513d2) 0x567ae3c68e56074a3a4286e2e1135484da19ea782aaebe2cb6d7ee38cdc00d4;
  Step true 0x7e41b26c1fe5c556e957cdfdd51143dbbdbe3456360a13721ee7abb7dd6b0b8 0x36dd4aeaeb76c7ccf56651b68cc2e6e4b772020b5904a56558338458b88c8d8e 0x22c90c0fc5f12f45771b8368b66786f76f98267779d4022d94f642b3756a245 0x387226559945b43bfe9a564c1d356ae5e6ffe7365c84448afbda0a444312536 (-0xf912f1fa1aa3abd8e066fcd49d365e94b192685900c4d378369062c1826dfa) 0x33c9d6dd26073e57ab744b48b21a4fae9fe04886c8b751b26f1177331475522;
  Step false 0x2dbc7b62790761e3ae8398bf42498a7f43bc427b14087f633f9d6e39aba83b64 0x5f58462faf6d85f4477b3db8008d62d00e71037b070ca0551eb552bc579f074 0xd7f0fb7cebdcec04b743fb996220a0b650cb34039faa85107f57e2fab06634a (-0x89fdc8feb49536dfa9d2299a8a35ad2a8cfe886df35ef15bac36abc571b69c64) (-0x20af38984a9885bf32c92efd8a68e4ad93df5c626978164908a8851062743380) (-0x22f2feb7755d8606949208284e4f889972cbcbae86c38ed051272585d22d5699);
  Step true 0x3b4287bc92f08ed7c73d422f0007acb93653d12daf983643fb684587f7ee930a 0x18b0bfcdccec3333e7447405981ff2876d4f1bc4c2af7835b455bb8f70549536 0xe0fb3782b46ba132a5c0c9da992a57c073a2dd778387ad831e8d966dee4b48e 0x58487df37928627efa331f075ae5708bfe2bb435d5458ac1a33aacd5ba634ef (-0x36deef6cc3bc4f0be5a678852e477791e0b56568a8b909ecd2ba8c9ed13df6b9) 0x11581395e20c18e5105bc2e21c64fc70c1cfecff204975b4bf807e251d6ced6c;
  Step false 0xb4312e3bb48969ff3317707972e6570f5b4a2be2f6cda1a1348c3193ed9cb14 0xac69dce2e164ed345907a7346b9154bcccfae3c513e48edf0e98bbd3e014f8b 0x1edc6d30ca5c8ff95883d8245cb9cb4f3458a4c84e518b456f2eff32823d0381 (-0x17a089149426441c3f05291c2d3f4ee58864087fdb328fd1558229b81c664bfc) (-0x1fb54c9dac45771de312a77cd40b17dc67a0aabcc3997f4ee58c60e7a563f99) (-0x272d30ee39f69fbe1bc60ff58061f0dc18bd8ef5136918b346ed29a0d91524d);
  Step true 0x3b6b1315f69b50e89c5766550a0b8605a06adb1c082aeb083b6f794827be537c 0x3552535af8e45bdc39ef34d2d367557c7120574a5304dae928b22ceb1964b8bc 0x101da279d8161c7485475bb0605cb0dfb40a488721bbfd7b5d75476d8deb4603 0xa0120c090bc30826c200e4e95bd186310a47ece5bd92f4d4907e9f2cc886c12 (-0x372a1e5455d006792e3e954df3da79b6b4b3c4294825b5c72afd47df77e39bc8) 0x277ff9a16606a4e3e58ebf27df5caee39c358bcf687ed74dafe4134e18c82040;
  Step false 0x36fa06127d8194c7aabc9ccd63a50c93f2d50c4470dbb64a971f9d84f80cc987 0x2816feddcf0dd97d1d4722c96747e44e162ee788ad8013c8b720c702031b12d7 0x3fd90b25a2d04fe0d2cc90cc8afb73342e224e0eaa56a783c7373e379f09100 (-0x69965f1c42d4a9af883232211d19f8371d415ee4d41a8f7f874bced72e2fd106) (-0x2f39bafea4d2ac4b22ec7e0015f6a6511e6053fe78a9b859dd061e3edd68c0e2) (-0xb5dc04d06c6966aa16b5d3ca4887cacb7c3a87bd28420f3ee9615972af771c0);
  Step true 0x229eb147f49734171c72dcf451c79d697cb416a8875544f1fd3ecb1c753ec730 0x1bc377b7bc55baf6d1929b04a6d879c00391b048b90f57c1f2acc831a627bac3 0x2da53114f163a3e79fb5e142941b718d7e4523ea2ed7861fe585dc29a9217d8e 0x15af9f37b52d16ff872c8289006406ef8bc518febaed4d54c7c30ede4f887bdb (-0x12ba25d9b23aa3b46eb43cf332992ca38b995ac9071beab9437f88424cf8db65) (-0x6aaf026bd7ad32102f05e4ee2f42f5f824c9e1e7f6b1db7088f2c5becde0132);
  Step false 0x26984a2ef237c2962d49c49025b0215b1adc7dffaf7a4911c6196620a424b2a7 0x12949b8d191b4f7a33f54f3c17401b392fc32c59de6b2bb2ef452c938a0f81dc 0x20720716ad003ead8f5a2addfb0dfc9c7f062ed11e93c0eac0560dd844685d79 0x12eb9ebeaf20b8d8b434f787cf07ffac04b674923c86def0fb0664d1813d75a9 (-0x17464278749d727f55f7989102479ad7a4c52ad7a4b6673f7cd4d98edd45b18f) (-0x589aca9212f16a4295f0a32c09756b960bd94c02db82a70f0465e053a4fe1aa);
  Step false 0x30adc09254861261b4e35a35bc2d92c620233a0f55269ca73ad436d70652d3fc 0x347862aa99c527942d3d7c897061e6ef256cbb65dad735acca489a21a745fba0 0xd516e2cd58fe771af6d1a621f6455b6b806fe5e3ea18dc9f66b3153ed701b37 0x212c64a81046e47093ef729263a8eca78284c47ab4b357317fb0b3d1481b1d08 (-0x25067892d9515a1c712e18ab309580879e3606993bf73a74a06b6063919460b8) 0x19c6d7052df7de7618964800fb0ad26268010a291b02d86003b695ee729ce1a0;
  Step false 0x110b95cf35f5bf4d6a557cb298bc452bb8ef904a8f8d9dad6386034bb03f8bc6 0x17801dd6e50e409114d234dba9bbdbbaec0dc5efc554312c928e62e402982cc1 0x7d0ff6fb3d475092b240b3bcb84c072e441ff4c3d648d73ad6ef274c4c47f1e (-0x79f573785e234d967e17b1358385c1b8ea20251f8c89cab74870bf0b06af98ec) (-0x48a29aef2908c3c61069ffec0cce54cf5ce577979c5fbad1c94ad6c06a07923) (-0x7b730c3dc0bf8419cbeda054f838f3a1096708f6503131bb6ad5a62446d7b25);
  Step false 0x3a782bb03d18ee2c34184722637086d2ded36fc9f3b9c850153c3afb3bb8044b 0x2ed9ddce1934fce0ac470062b48fee74c9805f220573511903339b527a9f612f 0x92d33f390fe6b86439e54fb07e0a458a7d67782dd99b836f5ebd11dabe74d0 (-0xb9b18595de52af7a1e060cb4c848a088adc093b58e68b499a00e71994cd50ef) (-0x356ab0d36175049707ac44d2951c88e5124a4177bc3c55cd2efae2903e12b348) 0x15552e3090d985a82486ad8e4e0fa0e4690e1cd91232071b14dc26d8ef810828;
  Step false 0x29f8b7eef050042c3eed568714f328c1ea02221b2472d47df8e22a04d746d3c9 0x1458f5f20b596b9b4d5f91329500b9943768f5818a326f561ca2a42d0e5e476c 0x3f819345aa4bf4590fe0397b8206f3c45a9caa801a0d25e778e826cf71da0a5a (-0x6623a9a40c2d42f90b77e532b717a7c345d446a10858ac7d2e9d15604671a543) (-0x1b86723db04adbd178dc5a833c98f5f08359cce4c77147af615aca4f1b83ea07) (-0x11619436f772562c21b79e8e485d9d4224623c6710726881e29a26192b1273f1);
  Step false 0x18addc4e5ec1997d10d59d13cd63f8c99c8f185c0b3aeec40ea2183015d48336 0x8db7cc328ecc07dda12291719c6e04b8b3091b518403a8974e9ed84a6b74b26 0x213261d02423c90c7ece5f970d3341e8c545046e727658ef5a9b5a52c46d6150 0x1d91f810d728eadb5de1949a317855568a057a84c510886aa812737411ed3948 (-0x9843d88c51ca52e1c3029c0398c560ccd07c03c97afc91b0466dce3ad3c7566) (-0x46e442a8a24b54fcf3b64820439bb2ae069b50ff76e1f38a59e4876c2019d1a);
  Step false 0x143448e64c398a9fdef81ff8dd9c76cbc1ed611100f6258180f3992eaa746eea 0x248e5692cd5a48b320d55427d61f3b6587e3e478af70009932783c7d1ba84051 0x135095019db5a8b3e2e2b50b05f0a338fc5eea16cff39d392b0ff22e2de38a49 0x11484ade8ee248b749611efbe8e44b0f1d9810d19599f3045a91c2d21cecc954 (-0x660d846b8e93c5adf6a56e828d51eaa35f0e00cd4aa5602db71741a13071747) 0x8be84eebcdd78b0daf10f39f5054ad9f0c27e8ddd2df2018f3232b805657ee7;
  Step true 0x2bd9fc875a8a36590a41c410bedd08032b137dace180b43e7f6926df039fbd36 0x39b98d8f1cb76bea093b3fbb7b35f036378aa0d79ac2b565637b17757b12c087 0x3eca367bbc82a1f4122b61e188b89e474e2329c5e406b167523328077900d87b 0x190c2505f090b0e794472364168319d35b80dd09999216e74607dacb8bb24152 (-0x1e0bd1ce3bf2b98b14be492e3a7a43907f48c2ab7611191a5a1f9b8e4231c68b) 0xe8122fee26b9ca5b6f6e440b98404c671eb3e140b0ecb088abcddb3ab8d4c28;
  Step false 0x17fd336aeb0302c7a3556e3cefd8732242c725a6069317dca3df2d8a33637909 0x2e8b888b59798af2db73965dcb1fe387abfe342a1c3bdd8a4e8b208b17309ec6 0x25e41398f7917d87f1181478084e37238a13020abebb6e9ffcb213344a6a5c79 (-0x6d1faf8fd34cd57955933f73063ccf2a2fe9f9b93d999560e1c4f17f597ed6ed) (-0x8fde6af878b52f81d2a40d6eb2bbcaee09f470b04713a5a119883655ed9627d) (-0x430c4b4864edc5530327feb46536cdbf6153293455ba9e10fb21c3d221f33d5);
  Step false 0x307712105321d1b1d5ebbc1d723d9ca1750727c29f4d7e6408586eda3344519d 0x2d20c2239fb5c2c4f47a566522038e026dfcb77964e474a1a0cac7049419e48c 0x24f56abe4c4dddc9eea5ec440e50ca85a8e528fee4813b6abc4c906b45dc8264 (-0x2c2a3289c0040ab19494cea2a7bebc95e95da7f932ac5d0dd50106d496e90502) (-0x24b3789fae81133b910dc9d379db556469762ff1063938d0490118ac40f19831) (-0x112b7bd18863d59962d12792cb753b231254f706996573084a4264f0afdb0b5);
  Step false 0x391e377d538a42306ce906bf163180f6917a77c9fad13df5a22129bb33cb7f34 0x2a4e8a8c34403184221c0e02c28623f684a60dbc60627cbf25cc4161703c0a2d 0x1bdfd331455611d75e904e99c19f35e9d4525356ade1e189caf3b32e564e971c (-0x1d7e5906026f90f22c4467d33ef62a94b9ce79d6067927adb6edb5492098d510) (-0x32f9e11b7268f484b246bd2ff44de065346f3a40f787ca7437326c901b3ccf4b) (-0x2848e7f18b880dbe5d905be963a330117686c7fbd1d329e1567774ad28f62cc);
  Step true 0x209cf39b19b404c1eddf6ddf6b79788f3feb209e7102c4f7014ef509ad86313c 0x35a623892c2147c2ba97170a4c41742f5e529ddbe948b4a7d84a9fd03109cec5 0x3b4d8a0908d20534d2ba0695a71a187059c76635f46c63756ccf168e7382cbfc 0x158f05c08d2105569417ee388573078feefb3af2bee21cf9104f0fdd4fab61ef (-0x109e74824d109568adb15eda2e45530c9357d754b27c36b82131de100b022d1d) 0x5c79d2f7a21e0916a96f6496f78e2c6c0aedd67d042619bc93ed928fc3c8eb8;
  Step false 0x2bd73f1a8e9e5ff9bd7a626c3ace85211f12a378a166db69770ae36c8b1c0fe6 0x3d886f8c0112fcf1546a9c4532b8759f6510c6149646a86e58c4c35bc0a1b5d 0x37cf79fc6fba3840d614614825147131a9d7b6c725099d9c55e72924ba9e7886 (-0x35ab77056598ad476cc970b389296038ae4312f7c39e69d13310fd56a684d9fb) (-0x1e0810b7e84b5cd957ff7c484539843b66e77a0702e97972b5b4ca98212f09bd) (-0x221da5060e670cde67cb63607c041a9d55e771bde8c08ca46f811dd8027d02ee);
  Step true 0x66dcdbb85ede909211391b0cb8d1715e00a9af960cc66facb3e88b1bc2b3c0f 0x32cdc1b62e3d2e74a3aaa6d063dc1b540d44332f2a14da30209327eae23ea323 0x1652adee9c7bf93ee55e7d8d5631b936c067623185de422d3b375746d175b4f9 0x62e5ca06b4241aae263d568a50cb6be2f812a21ffa24552c5442f89bc3dc99 (-0xa552f68534458358bce42b3dac8ea9c75e0ecb816023bfebfe3540a4d84a60) 0x4b78e1ce3e6565ab69057ab8ce8138e0f65c45daea8d090db915a464f3c8a19;
  Step false 0x178557cf07a4d1b718af988d512c19b6019d16f37431d45a0c6955c05019a49f 0x1c686fad7c431c8e1e3494cef11f2cd0db2ea1aee60cd69647ec235214d92ffb 0x1a2843e482ebd8f6d30bae84644981d6b4b311a69fe7e6009fb5dccd2a824b50 (-0x6893ca9c1fbb728e2485c606e869ce3e54945bc734c296bb45177912b204ef0d) (-0x8a4ecee3a6fb640c7fce9523b4aeaf3743e3a5df3916767c32cd04d1793a480) (-0x83b12c3c7eda229bc28dce06262e9544c0045769db2407190ee5dea52b8258f);
  Step false 0x1fa54778642cf2a32d9993fe77f105865f233922508b7093fbb9518a7779fb06 0x1d9444b5dcfbf8ac12de3034eec6799cfb876a97b8c43fb28cff7c8e2d5ae666 0x20caa270e474680e8c1d00129e8812942e94a76c2e7e7f728da474d46ef0b34d (-0xbf6089b59aed9aaa441a52e4bf1869b0282411a9a2e973449fe1c90ba21f88b) (-0xfa5c81175a0138d2d446e288355cf0bb76bfb83452641c8073a5a9c7ec37dc8) 0x9441801cccf1a8b56e1780ebba6f5c1ef58fb4170b9318263ce4274feb2e1f;
  Step false 0x4f04eae6e0751c9c55fe580a6a5607258c3c227f307e04e8f03b596a96dcd7f 0x8ac5a947100de67b43e597baa103fb815bd08f093a8b393dc76edde7f783c5a 0x3dab3b38cda07854e42ff17ea8e0386e91efdbfd0296de9926f3c67d0e978c94 (-0x23f38c9793ae2c03bf6155904c072400b351a9b7c46baa37502b4fda15ad1986) (-0x6190244ab528b77e46002035b20fbc33c82c92e9a5040d3f244e8476ec9bdb) (-0x19cfe03b3e2e43cdb65c4286d4956e91a706fa6ce38d210154d0d499b31b813);
  Step true 0x169e337e3264d4526e450a2f4a9aaad5e0855c165cea42916222844c874cdf19 0xf93c01e4aba17566e1ecc2c07c4440b770fb02e8819b8a690874bfe63738605 0x3ebebec57f26eff947b4dfa829c6f792b4805af861838a1d3c914c2df10a2164 0x310af9d17a435bb78f582fe47983ebbc6ec42093be4e15c7dff3063c51109d8 (-0x7fe4a752b2c3cf849e57ace132526993219b423f726a97fde07399fb458ce11) 0x2709bb811129584997b247431b27b1bd95f0ad34349feb172665648341bd4ab;
  Step false 0x2fd6e30c28ce4e39586f25b2a2027460f7090b18f4186ade669e741cc52fe2be 0x3f2b1ca9b29aa8c9b357f679db809dac99efcef7099a12207b6903109a9222d0 0x12f92a89584890b1da0a06b0d6dcbff50c535dac05613003aae62f248e1c8e47 0x526dbb89cfaa0f2f329acacbc2f7ddad8649f198469110b842fbe16232c06c25 (-0x23c26efb62ba2a563bab424fb4f89129af250f812a289e7cb8d2c58e151ed62a) 0x2392f2e9b964137f1d435fa54b9ebd758d6fe5f4c2ebd309a5aa0c4a6e8f4455;
  Step false 0x15b307ca3803054b6ac8c6ad3daa14fccbf3609c6df732fee120fcf4c6b5e06b 0x26cd8afb6d367974da1dbd299f4b503b8c7e750d7a0dccfda6d0e2ae9712046c 0xba43a2618a79b8c3b0db9d347fab7dc530011993a299a0968784124b8739a55 (-0xae2d4e1b7fe656fa0c1c1c2155168cd9d05e1a04370ce0d608b8342c24b28ba6) (-0x75b71ec48de079189304a4f82c6184de2275360ee18977adb80d95bd3d322ad) (-0x842dc77dac4d73d888bfe4b8bfc70360cdce35453387efb9dda78b51f480b30);
  Step true 0xe01e944d07ebdd512319e351a8e6eb7f82c12399f340e928866bcf760e1056e 0x14c027e0495fd281a627e2cd468898ead7614ac357ede442a9d3f8f8186571af 0x6f25bc79d14d49385162c7fe12897ffe50500e146132eef65b80bebee818ea6 0x87e1f0b32997f9cc1115dbc0f4f72913b87fc899d90bab6218586d258588d60 (-0x310d61cb7974f1bb161e4eabef55fa3c116aa13f471dcdc1b0072725c020528) (-0x3f377afa21ae12e4f4d4f45ae3dd8665683c51432c97eed59e4e542fe2c953b);
  Step false 0x2fe460c1c6b92ac4bf27a666b0adc05cfaf885ca4ef0f019e76ad8eb05b56e4a 0x2c9b34c804010d05445f3ea12732d16effd77354fb6266a7c68c53a60d761b24 0x286fb96b35b9f5ec99e386fbd90d4155a4ef71edb8a53c48b81113bd35effd11 (-0x9c982f6581bafb0b93fe8348b36c589e680ae9848ac616cf439db44b77cc0eb) (-0x23d69d0e92cf7d0228b8375d064cc0746c02067a4ff3bf34715565efc9e6aee2) 0x11d9fde8f4987d2910d890227535f47506428fef23b50c15663dfbe83ccbcd89;
  Step false 0x674eb878e47970d9a42bbad30626e6b3a7ed7b4fc573b4090f7768f74239a87 0x2ea8a6fe6e49e91b1ddcf112ff38bfb2935965cc398938c79c73fa9f3e260302 0x2be4ab8995ad84319f348d9ec95f4acd273f9114b286f73a10837fb939cc7a4 (-0x551bf1808a137f2b75e5741eb3a954d4a12cb49911738028550fab49d5f67b42) (-0xa6c1c298d9cbd155dad9b68fe40f2b4cf6db23e298e479053393099d1e79e7) 0x3502a1d4e452e847241aea1b4cd788e94f27521af0b6d9671d904f932596c7;
  Step false 0x33e9c6f64f43d4770fd8db91f6a9d73e45dfef1d762214e506bd6a9c37f757f1 0x2a887eb4cdda4bd1e596adeccb54379210978903de69506a7f07f0cfe8e624d 0x3f0ea9a0eef3bf9505d80faa7350916d4060889a2123f4ea82b596c7402842b7 (-0x619933bfad9598f5622ed11660b91b99abdcec2dcc401fe7bab46a9b6289c944) (-0x2a1beb07aa4cfee6326ac2b08b57fe9d37483049d55a8c81572156e0e4694890) (-0x23b0d1fe17615e21a0d3883db9319dfc60d5fc0d10ebf36d399198648339c30a);
  Step true 0x29c928f9b5de0499b3eeea0fcc40257e13929c11d75a64e23fcef37f6782a77 0xd61b224249c9dcd7a5e1bf6a793e7b90cfc7033e4738800dcc6f17e036cc252 0x8dd0fa6eded698ccd648cb874f56c12194b03f704fd64057ed2f1959350b5c2 0x1bc5211506d1e51f7221eb0a27faa34c236569edc867600f43bd3956b51158 (-0x1b4834c56bbec214861f09b27cf27a33cab8796f91e3f223ad90be88a01eb1) 0x7005372960095cbfbc61b6df7f5f2fddb6afb977fc3c042226916b62f06ccc;
  Step false 0x20cc132eb324c1ccff8559d5b2e92180b68bda7cb5c1b0f0f5b0b545e0b72d61 0x248ab66e4379a64a2e623a6db4346ef2952c1e208ee74d2e46a949dd90709afb 0x3fc5a41f2b0eea9fd7e1339abd369f5290d3dd8e3f3758c04bc3e2b222b6b4e7 0xb0c5b911f35d774da7ff6893cff34616a6dacdb2d092fed271e6e8005aca38 (-0x10ce9de9029aa891c7bc4b87e9120f6782668232b2731ba738a35372116f1f22) 0xbde5bd3cf46006ccd0b6bac55c6409ee9be82872098424ffb413a5c926137b2;
  Step false 0x14e006f7601a887a1b0edcd0f928b97bc6b38acf0b13cb00a48d6b7ef4bad33e 0x3745ca2251fc0b8e683e27fffb732fa207fe5ef01c6807b0311bab43658d6675 0x3b33fa00eef9e6a3feeb8176e86ea6d122313ff02271f4000415b7d6576af02c (-0x14fdb1b00d61efa2751bd4e05602fa95008a1c5755a296d3698ccb28d5f86c67) (-0x6cf148b60736d36fe5aaa0e4e139b3743efad763f04207ed9fc456a4df8a699) 0x61c06f72ab4d5cb56ed6585ddb7e7f3cc27f51303c949956394378df1747a9f;
  Step true 0x23b2d3495da8fdf343c56575fe00263906bad762de15f005aeb2f47da5e67f98 0x1c12abf74afadbd88490d025d299f980bc811a3d9212366b3ddd2d5ead549731 0x275e097e58f55dce20d24882a19bb17aa9cb2b5925bfd932fd425da09994bee6 0x1ed49b1e6730ed00f276bfba259bb4bd423e92639d1beca686e722a6b5829b6f (-0x13e98ac24011e77328591b11c73aea4a88d7edee361b3ddc6eb3782c61d62c99) (-0xf2bf47725127f833e5043cc62a65dda133e99601201f2b87b058559aaa61d4e);
  Step false 0x3ad920103a4850d2d1ebc1145fb84325dba996180f72073f4615db4331ad9730 0x3cb6c99cbde3d024baff83a8213da08c3b0a892b0827fe85d9a4e34651b11ddf 0x3b7c3f59c5782fbd77dc71ee9a07a6af287877f65db08d9adcc3fb4affe5ee57 0x23747a96a1e9d53e2c2a7456d459192d3a0049e6df05780c92d25038bd7e641d (-0x361c6abae7be8b47dc297433538160cd02e0224e06f4d48206be41df63cf5cbf) 0x1e0377accab07aca8d04b82e4b9bdcf982c8f33e23007e58a44e588c4fda8fdd;
  Step false 0x8966f4ea6d9c32ab5d7a42088adfa0c104deb570a4c8e4968cf70871af3ea55 0x1da8056ec45e8d7a5c59170244f7d88d8030a95fcf65d9c835c5f760b5cb3121 0x1356d791f5888ec9e7837adbac1c226620e7d41637cb2fc6b21e6e843cb33b22 (-0x9cd3971088f4b6a575d74c8ec37e9c83125aa3573319ffe3b2b9b7aae3fd86fd) (-0x126fd6e2bf9c0f9486eb41815b539c440ead96c406d6e9edc1371669eb0135a) (-0x42ad92552284712e7ea46afc5cf4fbd6101f09166ff3ea491173d11b57e1d9d);
  Step true 0x182ea6792df1d66a3f30b484a60c72ff96a8f4c4735010924502fe4ff6eae8be 0x90345d453c40fc0036e66abd960edec8ead250debc8bebc870f4af7c532b981 0x1db1c98a6d0d1ee33171f5521aafefb54376799d4eef8d2a3f6426b41f123e0f 0xb349ff1664c5fa57935ea22621e6b708e382db4996ae81f6bcb1c9146cd6559 (-0x9231edbe1acf03c4bd4ee4d9b3256bac6986794164b4d3f96a755f9fbf30261) (-0x7ccd3f6087f8a8118213e9d66f80c69823ce73b4318fe868af91c027a0c4f8f);
  Step false 0x2a38317860f46e05cfe2d0cfdd84f99d3b08ac03540bc4f768dc0fa467dcfa3b 0x2f54a068ac77dd538539b055f8cb2170392aebfb1ebadc2b3b09d8f389b9dbb7 0x75936cec1b9c0745a101410074a79db558e9f4ff6022d8c37cccc472cafae9 0x235eba22a3b14060feb4aed3c69bb8fb987cedad7a110292dea11beb1af6cde7 (-0x1bd9f244b827b30a9afbeab639ed1610089e869bfe8eef015411656f6fdffae0) 0x1947083ef7f36633d1e639589c5d53db3c484267ee9b31833d7a94c5f4d2d76a;
  Step false 0x27ee2eb950713264b99f928b3bd4d620a79898fdfc3106d8168979f6b439a0a0 0x1236a89660c55eaa8388039d9f0abdd9eee1c5bfd8ddb8ff7dca4a74d1a5a7f7 0xdda8ea65492f5eddceec11c8ca525bbace6df9b98f49938ed8e530da223efa9 (-0x686f7bb03fb44eabdd6f3dbb5023d86490a88d2dc12b25ea7210e03de012f333) (-0x18e9bf5d7e6cbb89bb56f4c40d14294d3f50a2cb29d8440d2077ba7f06ef049b) (-0x122a9fb79582bcdec755ae6b234440ad180753ebeec72a6072acdefa1dc96d6e);
  Step false 0x35f13c169d686e368a1a298cc15d9d154d6eec10d9fd2b828c0b22ad2e1bd3e1 0x3bde378be78ec0fa2821b1aa48947e31c2a73d28bb29b9b0b63ad771605b50f7 0x7e37aebc2f41826316316309fcdd7191276314b58fbdef19855ae8e31e6137a 0x7cda3c0f5c43ddc434ceff4c2158aa7b73e76f24e96dc3bd84158c8c8134c1f (-0x2d7718ce3770e029e912796c90d4aa9c725bf51c6bb0029ac53d6b3e392c0adc) 0x231bc4757640a93964358b23fa85ba29de5c79a483bae0fd106baf54cefe8c23;
  Step false 0xb9cab31d8406639ab1f260af7679e7fbb7f46741b9b0925caf94a4f09a24206 0xdba59bbf5a1043692cd426ae0d51621a76a969053165bd4ac8948a4b058f546 0x3b91c4b7f5a380f3afeb4c36df6f1fb0020fb8ee3f881f60aaef4485ee6c4013 (-0xa5255c864e581f01186a4cec55925b9e5da9012aff78b23d3c8c1e2e8864193b) (-0x21b5a5d7f42df804b88927c0f2f16fd21ddaef28c8f3ae88922b1789b8f80f0) (-0x85f1cf82c7777b8860d24b5753621f52b5a2309b8c27036c3d675c9da617499);
  Step true 0x1678055de4cc43204f4806f237eb028f24678936ebd4851edb472cbe9c8df80f 0x2eb94111f31ea99e012a6a2d2f73a708d84ff4a832994bded3a9373429c676a1 0x2a20d1d6d09bc1b4fbdd6a202865450dfd1b2567d4b6264dda0558c7191a62c7 0x4d1cd678fbcabbdd163dfbc3eb0a5e0af52b1ae8e1b2d2afc087b0e825321b3 (-0x7e364c4add9a1a1fdbcdf5ca66f9eb3c853251e3f31be28d70ac8f39ec3a4f9) 0xb95803ba2cec4731708794624accbfa91cb1def9ab6ff9c965de881ed605f2f;
  Step false 0x124ff150f5b32b3a0e94e06bad1a590cde3e434bd0799c4c5a5b55833fca2958 0x177532964a1b9a249a26c3257bf6cf6a40c8d1a345c59e4752b95babaea0588d 0x3ed46ebf4ee48b9a8e7f7d140648d8e990021efe998c941f3c7cfed33b22bfdb (-0x4e397c921cb61736c26299ecacf2d12dc72431d0d085d0fb95a2adfb543accf3) (-0x53d5b98d7f97b7aac42c546b325c74480dccea77ebc13916c6a155d93600871) (-0x6a833ce5d1ae8a4c27e52b3feee3908c253a6acc00d94fa52a36f59c376683e);
  Step true 0xbc04b39f369d8d4286b6c786eb4a92eb7323de8de0df85b86732c6826ce76f0 0x8f1713a5fef0acc6e331ead9526f434b558e99320318d7ca57480c25508f 0x17133be952c0195ef71df7722a296f3e924e371b12010919de98048d96e31758 0x44e9fdc2c7c05d1ff3b18e1853f84b15e185b86de8dfef0b3110e2e3795f620 (-0x2285b9f9fcce4972d5b601167e9006b35a923e2f0078e8086c4d4b826bc77e3) (-0x44e859647aff03783aac2e8693898cc12a702fe6c2fc17d2fce72e35964baed);
  Step false 0xac0c175b6ab24814a55a3808814ba9667080d6e4b41e6abcc4066b1cf924add 0x37b2eee76a13bee17e802e408d58418c401ba80ffaf08761bb70b5f4fb3f6280 0x26dc1fad30714c0920e116875301d0df098fb79f7401ac98b7c51237ebaddfc6 0x7c1019d856e262d489599d44364758e3b71e182ccb35e52eb01e6965de61e4d (-0x1ce80ffd4284c7d8e412f3ff772bdba2b199d07507121d178095af0cc6e7f2b) 0x95b9e7458840d93bb3d59e58b3b4d0e811d8d0184cea3da74c6b05f8fb41e2b;
  Step false 0x2c15b1dac7a35369c728ebc7ae063f2ed07e422a253d0ce89bcf5dcc56eea084 0x4396e8c40a0dfd5fa0e69d50cbf1b491b183850dc40bc29148edec3f07ad698 0x3165e6a8ff27b36242991dc5d3dd7d2752cdde7f5fce1deb81805cf4ec1a908d (-0x5be378a83a94a89efbf6b179611eee6b28967167a94ce93b396e838063847bd0) (-0x1e5ddbe77854a2020c099ccb874d83f6ae17e1a62b77793167332ae1a31ba878) (-0x2374fb28c7d30fd4fe0387fb683a11b29ccda01f7c0f4f7b522f8d288eb0b34d);
  Step true 0x3e91f860fb531e57f828bcc51da2e3bd2ce33a5057f602546afeeb9824c6fbb3 0x1a399b628a6eff3677f343050e159241d0bbbb0c61cc18a3c85583632ce171ee 0x83c76cf2072126039fd1adf36825ee783b2e8b5a0cc949862cfa09c53aa88ab 0x421459b477a4c2ce555694822208e2fe5ed2b2e257056845e5b3a48a9e6b2c3 (-0x3d2c1e2922540a25eee0936e3cd5fc4206be6cecaa9d8769b412c1e38b0036a2) 0x158259373165c752e1441478ef13acf644aa26c2a03206f17000f0135255085a;
  Step false 0x3ecad84be23bb302e1ea24afd73843bf26a442cab1eff6bb8c3d7d4849ffd617 0x3eabab632a99fd7838ab950503d8f298d3c64ea9f9d23facdc267ae202d7a0be 0x16d520e844205a0379b0fe48dd0c4a5faef3b9ec6253bdb6406846c82534f768 (-0x1013aac3ff873937895e89d5644cde5dd07af0ca9b97d4ac30d56bd5e5637912) (-0x3d9b85fb405854bbebdc98be98eec9ee932e663d7f85499665456de1f641f177) 0x23c202af49a4d2e89ddec457892966f3fbbdf0b9836c36c6590cf0306e4f94c3;
  Step true 0x44f54d647df440688143f0b336dc6f5ce4e172cc5921c78da624c497e3cb54 0x10e67a74b6fc4dde41fdc4bad667730e5af5a829523d9622feee7f549142c297 0x3f3d2ec779514b4afe1e5d40787cdeb7f5989226e1491777e8fe1d9e1b4c50d1 0x43869b0e66a8454efc3555f5b5a64ef55d7be521c398d06a90e6f19385d057 (-0x4a4cf0aa72a1cbc980f48d0ab6cc97dc22ba67e6ed37db9e3d46bc5bf03a) (-0x3150f235c8b94b5261dd647df7f67533284b6eb368e49b9dca79e30e158993);
  Step false 0x2fd00d874afcda28b18c563712ad653cc788675a76a90bbc8c5879834fe67b65 0x5b47e65c5d2721e78a3af3414493783d058052007c60f22694affbf3d3757d9 0x34e448bd77d81fc0a4fad64f26ac81e182b8d9fdffff8093320e9833caebd2 0x5119936efe0606610847e97ee9237a5323dfbdb1d281d47d4bb2beaa2e1cfbb7 (-0x23b83836a866e06d387db216572a37a2add84771d14dd9e802173a35eb3958d2) (-0x85d19ebfb6b44575ea83d41c625dae9c78c13bc965c1a5188499faade672a53);
  Step true 0x2b5e4231b276e078e3e9a1ebfae10995fc1629e01de57c90faacf444c5484e 0x3bb769011810ac3b6fc000daba45a7ad082d825eef5592ef62fedf5452d62128 0xd4a98da7e200bdac1a5bc8a736bf6ea89093650e90eae2d910fce2370bed736 0x3ddabec96d644072b9636545915017c17039a12a35e2c093bd48ec7ebc2b9 (-0x1d6333c57e42a1823c069c7edee122a8eed5ce7347c34f4c72743c6a7ec2) 0x249981c5e22ad57cba30104980b6180b939d2911632238cb52b920c954511a;
  Step false 0x12313a05e146a6e7760af5d6af27fe9262c6a145e12d51b8db43f9d2c8357835 0x18de3e9c26d8d4b0e797140607ce62d9d97de6b0de6744c905a6c15cd6647efc 0xea35cdc6d52b30201e8534d2cdc386cf7a378d70e0d9fd992fcf5b230f0c3c0 (-0x9f9a3d56f0eef1e95a5439e6bf988201de1ab4adc3663ea776b078f6245e4664) (-0x52bd6805c535aec1f5598b9c6217d6d19ec32bc9e1981e4d832d2c35252f9ad) (-0x9e7e1c8db2d1f4ffc8f7ef41a03f1835e523de8047216907dbdd5df58f79826);
  Step false 0x34b34fd11ac12cddc19e80b33a21c790da3a6a063893bcd95e45306c45c3b92b 0x226788d13e086a4f4516cad022e416976d58fbb31962af7ec4b47b3cce9d6c0b 0x272fcedb4809329c80aadbe21decaccb2c61c54e4643754ad2837abcd4858271 (-0x4e19aee89f2c7d169ecc91e2eba69cf2005d8de45a710944ad6cfca2949d5b0) (-0x2b655816a8b276bb02b459a1f0339279f085c6db6608a79135b49cc8500ac336) 0x7da442b4f3fef7e5e70fbbb52bf1201c3d729c9533f5259feeda28677c2eeb6;
  Step true 0x18c2eeed449d6084fd34b9923cd75a87f8b9f654026aeac274b12456752cd62d 0xa1764cb906fb0e59864592fca73dba1efe04e333a37a5fa13ac2b447e17c63a 0xd6640c52aa11095b950344c2586e7b348aace80a1cce89b4897f5e4768c39b2 0xd4f9d95c29a9225bac93a8f3ae9ab620e07414190f23a38e37d817e041c020c (-0x99484ededde206fd9267f16defac60ae0c50a71544a0c99c2c8077327f211a3) (-0x9681b337b1aee999609c2d4d751b5a123bbe74f0a1b6c254d7a13b999f51f9a);
  Step false 0x11f80076fd819b4deb29a0540c716c9f2d1c83f9df4e953f8c1ab959048fef7d 0x1e26f1145865d541afc7e45c072d541bc4ff437549b61e97c064d10a4fb44f5 0x1647d5cef68921e88a8936c6e3bd00d31899e62981f8166b1bbeda27a64ce574 0x2c022ea7f515640bafca197a57fbcdb8b40c4fdf7c1ef89f328d9f4adc96468 (-0x50b8142d0da642fbadf0971f1b6cc01f32b3fc9c558828e3e004a99b485d1a0) (-0x24dde8cefef4bde93e797d11cfc58498161415f7bb780641da1eb35cc4c6a8b);
  Step true 0x23592218f1555f6686d21842049e2ca85dbad93df221f8d86a74e985d72471ac 0x35a87ad19d43a828165d403683b0aadbca8018ef2b1b687b0e7f04b23415d16e 0x2af1f2d2df9e25f46f5bfae57d7836e353b351b7baba888ebaeea31858dadde 0x10a74a0ed102b14ea2486ec5f8c55162be59437cf28a3a66a5d151585324d37 (-0x1385f96e2f7f1fecbc08a75e21eb98700a400550f73a817ed3e4a55839c8352c) 0x1c98696aeb32f35a42fd59ae6cfee56ff9a8a74c3d46c5088ccfb15c69b65d9e;
  Step false 0x2230ad472979356b14051c5caa1072632e35890953eaba75bc3d8b58eb397048 0x2cd99c70102216d87015c585bdc9d55f546f4f077f4ef09039edb3ad3b6c5a7f 0x1fd524a3b509c4ecd2de64f830f9bef11b1b87df795c9d5dc4a8885763f84129 (-0x84182e7b30b828aedd91aff7e2178f3de1469b4cec086cefa70c819a0d7254ec) (-0x1243dd215bf405e94e7d119c677cc33091979ed09e6aa13b00e60374bdb716e5) (-0x4b499239877490395b972b43c05b25ecc907965e6fe06aa9800375b0a631431);
  Step false 0x132f9e86435bab5efefe326ffe5e80e1bb84c846d2a3281841171396df8436c7 0x280c6673745fbf9aa9dafce218566cb5f8efdab4a87c29fde0964e8137c53b84 0xcb10ad6f37b325ac355501b05454ea60be5fd4891d81ece9cf6d71dc86737a7 (-0x4b34648c4d1b285cf3588d979a136abade95ec7befc96484c3078f2b47b60745) (-0x5c0698e15d962a30fd48e3b7beb705863256d9f4a6d356a98215f8c8c529e2f) (-0x1707e9f53be7334f182d8c65b7a6795d8e125d2d6cb2d5103ec9f78897e8e4d);
  Step false 0x34181ce4b3f9755551d959563401175fae69bef9d1491c6ab2f15f600f1bf7e0 0x31ed36242f1fcc3ce2321f7618eec7955050b56ab5fc93cc855f5301fafd7c09 0x347032032200d1bc919330901cf83ec53b44f370636f6f9e7e4c32ca9a35642c (-0x3685458b172310508a07d7218cc43823f5273b11055f984c8204461cebbaadf0) (-0x2a6738095d07a8813728705f88c9ce7a43039695bc110f25ae9904d30eba10ef) 0x80a6183218a8f3c591c9cdfd6ec20db741d9b4f55c5bccba0ea404e131c6333;
  Step false 0x36f2340f8a9beac5585f9395fe1161d88c573ffeeef470876abe448666c9e331 0x38d08b82a5183d5d6c107f93cb60e7a814566ff0b7adb71582925cb13f87d8e1 0x1894e129fa6345ed11d92bb6b8030f4f254dcf6353e543773856cc0a28386b18 (-0x1acdc4266bc61ff8d53fa33b95ffce79ff690e14802ba370ecca9c32d879c81b) (-0x2f2c4c7419c89c4ffc5638418de555e5c43123906d77b7c1a6b29102630f1e6e) 0x5e9e13ce2476cc7960e5408069ed18947c0906b3a5961b9cc3b716c86d51c9c;
  Step true 0x21765e362c68fdff41eb6e5274bf8d639982a88dc2f1928ead316fc6ad93c4af 0x383e981ea01f464b571b29240de26daf81b4c3379217a9fe95ec3d8c7ed5140d 0x20bf641848d65f9721db562ca3695474ffbaafc7f797feb4c008a0793030a037 0x1db49c12fa4b1153bd4acde0fdf092b2c534ea9ce8c7cf11d3d32131fb3d80c3 (-0x117eec13d03f5967535957cb12147e569b84b7cb3006f1a4b0cb14cc3fb982b2) (-0x4c4f6f2bff14e23b4ee3a3ccd3617348dca1b26fd3c5abb71e206e8a39d19d);
  Step false 0x382c507ce2fdf493a69896506987123445698743bba611d24bbb6356a5947ddb 0x13c51154840995493c2616d0cc92ade2f1eafaa06142db164872c52650f48709 0x311d14c502398bd65317b7cde7bea6d3c6ed0cbf61bd7a9e48833f2080b09cba (-0x5acd0d96ce5403e562a7017e690bd4e6cd4baf967f8aba8e718454846c5c45e1) (-0x314dab899e2db4604f2a74868ce6efe9cda692063edbe23f18827d44c278ea36) (-0x2003975c98d5f443126c7c4d651e53ab619707ad934908a4203d49644d62597b);
  Step true 0xde0dee18c771e2ee478cfbcd2ae7d618170aa71e1c9ff0168888901d5874fab 0xbd0b7f49785e78e8febb9081d22b4b551265aca56f5f89ded0c414c21a3302f 0x3dc36b4484409af382633b3ecb656e4d0587753623af0a5137a47c6f6390eb50 0x4497e1b12f20ca6c6630a7c52e1926e0fee5c7dffc7f144022cd886b0763859 (-0x30270a6d4177f71904bee90e62a8c4ca62d7253ef91b60dbde62ffb3a8d4500) (-0x1b99513ea4acf669b8b781323efb6e99e626d719c8343a012eb57c5ffd6c194);
  Step false 0x3a2b59bb88cbe6bb00f6324c16cc44cb48fdf3be1568d834c8d7a67c887685e9 0x3002c8cfd6340c526fdd96230f44e5e118c74cac111f12481d6aefbc34ac13f 0x34eb1d25112c136d86213f4df1a3d78cd045f0ed1eeedb5bab4e62bed8addbac 0x69baa6783c1846fd5346c0f34b1b7419b56ae710258d0f737fcd044d374a7dbd (-0x34deb000f9c11e2ca2b113b19061141fbdfe6e536451cfc1ec63d1e74246cc74) (-0x802f6cf635598faae3592672bf1274695496e6074304bf1ca58688a3680e174);
  Step false 0x1bd9add48bd7f25e92991ff08f68b497f0cd2f7d164d63913992920579f437f8 0x138c60d139628b9e8e6e6c42a795a27141e495326d0f65ff43a5f7399a537f82 0x2d3a285bb430433afc6671dc677943d23a7d137638111bbf1dfc0c23d89e73e5 0x2da24de378005d8923926b2adc9a485bcd73cd9e781734dcecfb886410395cbd (-0xc1e8f0bf7765aca7b8929d9697acf5e7361c8bdd557fdf2460e9f220c137e40) 0x7336e5ff2890c90b5c00d5b6e2ec39b41fda02d4fbbcb2fd457f68ae5810579;
  Step false 0x42a01c9f15548805035c7c78f5c0da16ffa31773347b27911559b1fa863540c 0x329da64a2e238ae5817ff7fc25c7d824f23fc07fdf9596cf982e827a11e3ee9c 0x1d8b34b9e0932d075828e1628523b936ada01256621e7fb0b90e2d1b996607db (-0xc07044575225037d8e9aa9c4225a4aebbc809189023689aa00cc4f083639494) (-0x455bcb974435bd4a6a23b3eaf091a94348976d7550717c88b30ea49654f2f0) 0x205788b7327320d1dcdfbdb170a445ec157f40114bcdff16a13e1d2784c38f8;
  Step false 0x15096d922b86a6ee14010d4b94cc4bb3521709a47d21307c7c0e23c2a7f4e9a0 0x3df7a049943ee3b8a43911f4f2a6feaf46fcde6fdd4d99c2d0c2aef4de6c7cf9 0x942f80bfd970e6bc68ecc74830922e0449e63b1431229ccea8ce16d7b9eac8b (-0x64ab79926dc05255e0c218ad1154883dab7f77365181bfbf93393cdf0fdcd570) (-0x6ea314b7943cd848ca4ef00d439b2813a0b97464ea159c147277110ec0049cf) 0x3bb321e202cf37be8ac6cc5a0b353524bdea822e7934d055caacce38f945386;
  Step true 0x1ad1c918c16464b39b0e27e878b7ac520100a2778272f3d223c1ac9e23cd245c 0x2ed77096921c46f3762e9c1bda19c0db7417d00ba2995ac65b1b71b73cc91e26 0x48fca328891fe29eae9683ab00fe1c7c0b42ddaa97b54cbdf04d4f3e8c23a50 0x19f7b87b0004ced8eba2be15bb0f24db6a3187a83c09797e8e4795f37a764750 (-0xb3d230bfeb031d58f3dfe5d4c98f9c028a1d2f2b509639c6fe8be084d4c65f0) (-0x656a8036d05e87ca74ac7695043a7af40f7fed1a5f54430fcec77fe73a1d8f9);
  Step false 0xba199dc3b1b6cd8e2d65d8f978da690861537decaad43f0aaf9aacc82427cb7 0x678731cdf50027a7a23a5e2cf649961fe3dacf61dcd48dcf28528a66e8ec40b 0x1177c3c6e5ae2c00b728a6ff68d1f0937a7a0328912e6585821d2ba47808d469 (-0x65311e53724e14e56dec9ba03c640c6be65a58d9849bd0ce29e706b4423dea8c) (-0x21d24ef423ebfd7e4bee2c8f9fe77b05da22e3c4ec75517b1b3088f7efcca7a) (-0x756439492a805d0391fc5cc4a785e5f459942a2c9a175654d23c79c3f866e94);
  Step false 0x32d5bef8db0485d822a8bae9b5a2f076875efadf5c2a86e35ad175c782da0bd8 0x351af840e9a8f7ee3ea56dc6747f5dfe1587788f08719f6a6d607f72d6adfcee 0x13c9ff1a554411aaa0923d3da143675542e717294a8214a3189269c14e67dfd3 0x19c966832d6094fae6e932e92552dfaa5680ccc7a995b6678c31496a24fcedc5 (-0x2860c4423882434bc811e450c104143ef438b9e183525ade605f1243d8a0c13c) 0x250ab80f14a6457a6850ca3863fc627c9d68bcd5c704d0721a573dd1af8874c4;
  Step false 0x1728bce78ffe3c608e0ff4d005c6bfdcf4751333034b0ede9abd3373b2ae71ff 0x3525e2409409f3f5c9a302e46ee385a98064d0bd226ca221ea242ba720ac6c84 0x11835d72d668927703186efc807e91fffdb289a2f6fedac09445e6574df5273f (-0x75dfc2ef33fb78636f5be6997f8a7545400584a77f1c0e2497a7f25d9d581b72) (-0x86161b4be866cfb38c03745bbd7faa21c8d2d17ca49b60df57491e5f75eb5a1) 0x3f30a57e180aa5041a0c1f9d16c5d48af0eddedebaaaf926fc9f3c403637c;
  Step false 0x316f204f18943e52d29e482092f2832748bb9d718e30b287b122eb614d3d9da2 0x351fe597f08a16aa205508dc98b396b7e8b2df3fbcc7bb1a757de09226fc972e 0x35960e862f16194a6769ca8fa8f59bf85b16f7ca83d5c3b51aa96e38b832f6b8 (-0x695a8704693eee14434d682ce9196063f1d15eda07369b6058cb30c107affa74) (-0x262eea6d404fbbfbf78a28b0ea996acf68614f6ba1c9fa3a7f107e558beeaa4e) (-0x49fd65763f5b8d52129b0ef9b4efddd0b4c4c1a339b484567b92c8470a075);
  Step true 0xcb5a0ba9ec7a1b9735b41dcc2f341c23a97a03696693edec0b6c1746fa5ede7 0x23dbcfb5ba05fad00d93116fd5a0f28463fccabfad1a737098f262df652e2b2d 0x1540af95ac9cdeae24ad161fe93ac7009b1b6ab591037be1a6a8e200eeaaa1e7 0xa8cbeac7549b9ef74fa5b9d3faf05b7f20c2078b7d759c11778115c0b9c469e (-0x2861fb8aec42fe2e71e18cd190ba4f8a840f76be368019b42b07c504eb0c415) (-0x36dc404dd6605ec2ec67c18c33c543af3115438bbcceb951d3ade2b6007c948);
  Step false 0x33e030c25c3ad89d3a0485fc7949a888a60307beb3e59c2b14d8d749887edf83 0x1c1de3a7bd11e4a3cc29251727f058de44d50e659b269ab3d306653cefeea8a1 0x2cb0acad0e59282b82c9f11bd01d3826759a1c7b4e8398a4582bbc990e307e5b (-0x19d21d62fc333e9373e360cedb4ac5dffd18f4a20860e95641b423e7d0464d51) (-0x2a0c5f0b38a93dbecfa3ca4a4df25c0b537609124c89e74a667211203dce7e0e) (-0x64676bb4a6e01bcbd70d1644a06681837b9b4c5340726770ef82878f644a162);
  Step true 0x1fd2ca697976c4daced0984aa1626803245788e95e3dbe1f7a07ee05316fa895 0xa3b21c26b0d3048a1a93f546096826534db1379926571206e643357eb7d0cea 0xe88b5456b4546729debdb8f87514772152236812ec04e97e3c74b4db7c9a716 0xdfb1544eae8a968c3f15a8b58e82620dee742dd9592d0f0514075d8beadd180 (-0xfd2ea590202a6b1032868aeb643ba09466a331add585d99e81401d0cece312d) (-0x8e4be887a23359402901440049386220c0eb5576243312690c9b148e9ae9412);
  Step false 0x1b493985a4b3c38a32f81264199dfa60134d4278c4233fbfdba8392159fe00c 0x3833dde0233f00a7f5eda53e7400a6d6f310ff4e8832b994fbcb8eec5bcda735 0x1abfc27b08ab2eec2fc81a8a3ef52747a6b9f53cdec07e27c9732bb5d658b6a7 (-0x421c9de303cbd3b4bc3a7ca8cf813cf784ae947a7e35081a7110a3062de279c) (-0xba21c502f8a8b851593b9ac897a443b9d7f9ed004bbacbd675eb2d8353f87) 0x13998864a25b04b8769e68c513f78080cd481586b7675492429319054803941;
  Step false 0x24b052e110be4dd2a5da957d66577cd85234700e618831946481f38e9eb139d 0xf2faa47b6c33218ce7677e522f222617834180b51d4b59213970a87c2b853d 0x2d595292a6a44df0f939f3bdaede0e03695aae30d930f8bc56fc75e18b107caa (-0x922619069b1ab6eb56c827805d53bcb690917b9eca8bd1763f1912b049c1c015) (-0x150843057406009a6706714951195e9819bfd3a4218449a2e805c599f7daa2) (-0x1facb9cfe42be8b255af65c64cb05440bab79f488f98d143188eb66b43309c7);
  Step true 0x3182352d9203ebbfbafae7284746d4b9f5111eb72b5e2256577bb967fd695a7e 0x39a24513490c08cb4c9ce21677f7841571d788d0ec89c15c0877e28484e2ea4 0x1ab01f2cff6992786a940e0a726696291927cbea387ad44cb0c252dc0bc69987 0xbbf63cf12c5773eff59454e86031b7b639fdd482fe21e45900f7db9bbb5999 (-0x264c6a55fce6cb347252c46783ee55e09885aca5367bc724f0ca6d51a2df2222) 0x20d61a936b1e5f7791d66207ec12c4a95079d32ef6e6ed3c443505485b3ace3;
  Step false 0x17301d41cd693fec65f715a5b13aac61f8cad71cb35fa34d829443813b4bce50 0x27c4552724c2fb8d36030741595546ee86669c1cffa7e325bb80f63c84eb6941 0x145277d11c84e154e6539eb8d0692412ab4f4bcb8cc0c45fc85bf77fabd758d5 0x12bb030a2f6042e778ba55a3afbfeff9961cd26eb9c58e9f4491ac250d012d30 (-0x866b9333bb7a9a0fee18d5f062c6c71b70cee8392aa00a0d4447973539d1277) 0xd1a59b9cfd35ac3a6357b62a6984aa185a25eea65988dfcbaec6f2888e9996c;
  Step true 0x1a43a9382de5ed5cb5a1373a0e004a3022ad4c98523e8037165299477b6df6f8 0x1875a0550c6c9e0ac9324aaa4f22bf5d7f253c939718ae5446241fb2c497f936 0x1f99fdefbf8e175b92c5cdec8d0bdc92baebb8fc10cf866ff8fdede21a1046b4 0x1051cd4665147b809cf630495fd0d7d1c58265a2518e98923e2ca99eaa8747e6 (-0xac74105b257cdfb0e8ad7b881ea7347829e85b1a676f1b0d8b3500743ee2dc8) (-0x6482853eb27e6089647d618dfefc3526bd6806b57de00363d434996b6467d1f);
  Step false 0x16100fffc2836d424ab4d913b0b58ddfdb5235af5673bc5c608e962ba0001a15 0x3b9d37aef31c5e80b50f821af1252068c5329a0a1940a7d8f023e639de5f1640 0x5d195047e527756dfbf77d89b7ee48607269361419e921e2a0de9217f077650 (-0x64175ee2800f33b5d5a71487065c0b0877b9944a0b372d03276d7af4be21ca4) (-0x79b0f07d99b7e1626353f38110887908b6dfbd1174a24f4636064ffdb193d0d) 0xc1e6eb681d6663322d8b9cf7d2fa4ac8e6f99c4b57a12417228a76d2f6022d6;
  Step true 0x67bf20c33698731044ff4c8d3447ed26aafb3b868133e94c947c6abc6485bc1 0x505d091763ecf4a6358e58b531f21cb6adeac4e08d7cb1fafb924148badba8b 0x2e514a98fe1177c2958c1597d716e425339d99d28812a4601b3d5c580773070 0x60a30d542f16fae999740eedd4b741e0031112d3d192ed370512214ba35deea (-0xa82d6c3bf5ae1a5479d1afa9fbf44b544a9d49f7c108c248e5c258df65f6b5) (-0x587eb1bd6863ecb5c1aa28305b0b1cad7bbcc9389532131532ca3c72cb8d3b5);
  Step false 0x7a927e4aaab312eed56edd601dd5274bdfd4d2d70b2f7f8115ba651f2548e62 0x1e7bf4e77fb8f9d7dab8d719a31e499ff1066d34883a135bf74bc37448e28bd7 0x39761e35afc2a0cf0b665765f6acb4bac289ee5c0819f68796d8e6eb50eb46ea (-0x7d5163d2e9cc79e2c94be5252ef71988220a8b1797770a157593dcaee780ab) (-0xeabfd0cdd8abe0728f55f0254bbfd599d673e414143d1e66ad97baa742dc97) 0x30c37d053262f46c9f968f50a0a3ec555e077e29f876fa02862aefb10a2be72;
  Step false 0x2d4f1a153cc3e776513cbf65783dc946830b3649df9bff33f2a3630d8f659da1 0x32c8aacf0654203ace2a581128590b39169c42713bb61b4a47ce9e2e20159a16 0x2e692abfe8942caf0721e4ca400093952af73f6619a2484fc16742de94f0947 0x25ccb3e20eb5e7431bd1d3be2188ed44dabc36b499f5c2b5af6d5cde5190aaa1 (-0x20139e724c82c98d14a7ac6d7563ae1429cfaca82b981dd5751e84f9ee3e2d7d) 0xe5f06dd3ac70ad5db34166dcca8bb012da0fb1df90a5ca437a5dcb0b0ede8d0;
  Step true 0x3d82c2deaf3a4270ecbf4fbbe991da78030adc5ecb3b7ea25e61861262662c89 0x20b30315bb18b8755f30b76d2b7774fd1a561a8ec25e138ce9a357fe8d73d052 0x11a19f740ad46f4a39ab70b2757a419a27e6d0031399e2d351dddf1551124bfe 0x30cf05093f6c0087e58d200c884e008cf6f121d910d6e61808fd5d5d320732b1 (-0x3b1e4ea27807f877e4cad446a39c4efb95bfb9728e751b70366b072fbb61f6e8) (-0x116196e9dd209360e6d2e67ab305c1da0c0e88a05b5dfe6e78f765ae78f9549f);
  Step false 0xd576ed95fd67955cb98cf87bc821e3e1e86758952ac1d0ff660e93ea3b8d209 0x1015259e521d68a532c81e51c217314ba83120ebc8ef95c96e823d6b75218505 0x33cddbc21cb10693d58623696b831e447cdd7b50d8738ad8e7dbdee1fbd43090 (-0x2ac5121cf59626fb9baa08cbe911c1cce7cd174f72aca78a0a2c04f90c7dfef0) (-0x2c7fc7a6de9cc2472f8dc605377596507cd2ea64e8d89d2d3e6b0517f399ea8) (-0x376c45d146feb4131a2669911f9b8a710e27dca66e99785e60bc2cb361b5327);
  Step false 0x33ba65e05707e2be24deabd6bd94cb5f29348c1d4c3c57ac61714158c0e67348 0xaf9776be50904b2554a3dd7d64f272ebe3a42cb0fe3d61f4f49f7d68836372d 0x34eca0ebdf6507834ae04acd479a981214d0ee69c760283a6284d5c69f36a406 0x479e0a53d450c7b589ed6a9d53bd1ddb6fc8c2551a66ab2a8906567426841ab5 (-0x29cf313e54d994478d2df8f3a48a47bf673773a6eacf3be32e65dbdce6d08309) (-0x420ef640834c9767d7950fc07910ffb5a7d71354114bb93796174cfab2b182a);
  Step true 0x6c6bc677245ffc8671aadffae2ba53a6ad360d357a0b71f3e6a5d951e25ad8c 0x13e68188b502b616b5eeb769ba0b3dc46f2939dd3c80ed7690cb217404ef1dbb 0x13a9573899355f0af3eb32685eac9e0a50e7e86d08bfe32db7f31891a255561e 0x129774a1f26ec4f9d666039a326299d16f56f43533c13ee2e49ce446e016ec5 (-0xb7ac73502097a417654c46a07cd1ca077f2f4e7122e9911a60104ae2f92fa7) 0xf1f090b7c3bba9077b5a623074e618ccd03a76c4ea24bfefa8f84960fe05cc;
  Step false 0x1f0276df9357c03b6c81aad9e7ceefae4a8a5702dcf5aa48d468780d23599a87 0x3a94b35abe7a63aa7d3ff175083c4717a563dacee0cf0b28b253d1e0c572d89b 0x212cbb50d9aabfa52d6ac553bfca80a21c72b2b58b341f9afc40b8b269c82960 0x7d3ec66f850a054cf4b09f8aec1fdd73b5ea9d27a272c2d84551b5da9f37d9 (-0xf066340e181b411486ab739f138860a92699e5bae188368af3f7beae9d39f20) 0x12bddd6b970440874d16f6e7f46bd45742d7f8c74072b09269b192df67dfcb9e;
  Step true 0x28c2b534b376bf19d03a71e51fd329ae16e3561195d56f71cb3c390f1dc77813 0x1b5c73803fd2a2b2081c5da8e67cdd7d50bf43a2241c0d134ec1a7d0e4ecf37 0x3bf4b2dcc484e8396d7eab6ba737f6dbef95bd265b40831e003a4d268e827f99 0x254f28b52a70d46d7461ebb5a7c8fa3f9083b780e33a3765761dcd6eafe944c9 (-0x19f5b2de70e2b14411e515b9269ed6802ae366d08b6e7bf80294c89e601a2996) (-0x24385856c63ea46c4ad549f6c15dad42b2b397baaa023e298c0be7df2484e973);
  Step false 0x3434d9afc349e30fe571d6f0d3f1666b3cbde03d97aff09ea54bd49fd056b92e 0x2451ea8aa9e77c0e08abcac0c49bb43d091d8c5f26dfe5b156e67d26193f94f1 0xeaa0a51b98d699e1f259bffc5d13babeed4490b831e0990ad26ae18cc45cacc 0x61ad90910fd3158dfbff09ead638bd84bfef42ec6854b9661ad7792a5a630389 (-0x2a960d623f63300a2a69f6155fe72a08da6efa197f225ee28253bb4e7afe50e5) 0x1c3b71484e45b1f9911ce4ad7bfa815a83bbd73957f1fa82b1e47219dd6b3bd1;
  Step false 0x1a9b136a610e979caf1ba79852b3620735a8acdc0d8f091bad12732db3efef87 0x4d27e755ed07bfb7d17ea103acd01a20348fab6f90c6696ee09c52fc3f7473 0x567b13364eb3a4bfe6c91b91ce267dc839273ecac384e19f3b580b56fc498e (-0x31a4793504826e45eed65603b13272b1f4afc377692f23af3502ef3672a3d57b) (-0xb0f77888005d4506ac22402b2a138362f188f48f11981fd35431502b970badc) (-0xef9358705f76aa0783eb52e9844667b373467dd49ee1a3fce489507b5c6b018);
  Step false 0x96e6659637b6b0c08080fa1c25159f0507ef024d362a162dd82d016927008b4 0x331553a37eff861fbdf8b047aac454792adb292286c594d035b88f093cf301f 0x36fa7f5ca59f2ad1d5e4bfffb5e7411bbe9713adadb32eaf67cea15096698b3e 0x1865ecba99501ace22d3cd23872b121ab3ac90f1ecb39deb20dae4a2e90cb5 (-0x163cb399aee184e0ab8b458a515faaf00255aaf6840bcef4e11e69f617da58b) 0x6d132d404687d4bbe30e2de2fa880ab378007e888b4836ed508a8d2f9329bc;
  Step true 0x3143acad07693d56e73c6aac351e69afac7d0dd246490a37609ffc552d807dfc 0x3a64a804897ce673dbcce30787fabea653072b5318851bb7f626cb346e01c17d 0x1ba2f95b44c4feb99a0a40f0901751af87b3deb8c2c67ceb7fc42402f1b3fc59 0x2752583028bc668b84eadd504db666e25a1848373ee9850d02f173333f5a305 (-0x25ebe7f84f8485e73b8b1506686a2e6469f95a0220984daf166c2184d02f1e73) 0x2a7daa0cbddd2e07ef165bc37a79d98898a5989c669941e53c07f00237df861f;
  Step false 0x29bac2bc6b98201f1f0c55423ea5e7747723bf1d2fb6cdd50a260ca9af7dc0c4 0x354c670ed0ab4155e49020981485604e5e70b7c7973dee9e4a03fb978bd31467 0xc12308ab1007c34855e1140a9022af566cef79b6314f390b18d891c53a69e5f (-0x7bcb118fecacd240808fffac8167409c17226b8a2a21407e2f660088509d3cd3) (-0x1b356a7fa194c465aa07bcfe526b1bb54d52e4e2a1a3678de46be41660b7feaf) (-0x352679ab93fc1dd2919d2cc3239b4748af9e520bcbef6da565c55a375f06a20);
  Step false 0x37af12a3346842739e6ae63fa91c6d6a18a4bc9eca527e52deb9faed173f885c 0x2b61f74fed45fc8c014ecedaaff401516603562327bf5aab5b61748d1c20ecd7 0x389073c11678bc75f3b4c9b75f13c6e3b9f2db38a863bfb93af4e878df4116fe (-0x702763c235d1d0dc2bfcb926835679fa9522991529a7f51a72b531544b76000b) (-0x3072c6f274073a0be3efb037c7062c1917db938379f42c4d4c77d6d1ba22cb6b) (-0x8a097f4d201bc31949648bcfb5da0b55564ac4387db931769ec9a9042930263);
  Step false 0x17ed09fa39db6936c4d21d6434fcd64f822890564a19070c35ea33555156b9ea 0x326416277071c4d17272d1847a3132bd1918915d83d77dc451de3afc340bbcb0 0x5d605aba4185cd7094d5bbcb287e7c974434e3b1d0e7a848c6a23982dccd69d (-0x2deddc2b60ced31839db922876403aea0f4f95200d99927dcaebc4cbe5b6315b) (-0x8f1cd19c060673c8723e024c0691f6505a88805d478e4ce24b1794717ee7386) 0x29eb8075c2a2ca41538ef54b2530fe6204c8a3cce4d4ff1698e43c715c9baf5;
  Step false 0x2afd8a3fc16fed583b27c1e2f9bf04590403398cfcc19485dbb3c23388772db0 0x3c8b914783e11820e8895a9f9f63c4a7ed87649598bd4aa43df07f0913c519ee 0x20524810876813d3cad831f4970f09b58e7364826dc8132cfd38f01f0290db77 (-0x6f2fd8a3f25522129785b3c0a94abbea123c6740e2cdfad7b9f2b4167388a120) (-0x1ce0b1dde09776261bc778d99bc0badd6dfb2d28a28b3e29ca38715b05eac5b2) 0x6d222cf069911ab22b3289f68d933c342a745d020084682805cf74ddd03b2b4;
  Step false 0x12a2ee4691de60e3e9b8f3aaed6b019989957a752476239264b2f8f131844592 0x1b88fff7c407eba23610595f00d47b5559b4e24f767c6e6386ca4ac6dd5d8124 0x1ce13aec18a06e8bb3e98e0ca9df20cb7d53f282cc22534d888094c2db7a39ba (-0x9901c885eff3bceebcc7bd42a912c51dd6d84b70d1d0e10dc65fbdfdd8849210) (-0x56d44d16e6cb70108d0f9fa0a9cd656c7e406c86cd13211b8c99210b0905244) (-0x99cc244323eb6ffd8cee3c42ac41d25343fde662ac5b3ffd8d4769787608003);
  Step true 0x2631ffc9c6e4badf411a4f0ef844f21effcbcdd4d0c4b1706b050ff6c25e571 0x6d0abfa1aee3ed84a20f11e29a4d40c6f57e4707a4b9a193db6a49cda85bbff 0x1599a52b527a8344c3d71fb85336036b5ce70050e9438ffd0d43de71f19349cb 0x106edaebc1cc21888e6eba4e4ab3b2f708ae02f51a198f0791c62a4b84c4074 (-0x16cb86cf4776913dab1e3d006425435725673d06ca1f7eef39e1f4c06a1ebd) (-0xc5da1ceac8f7dad86096a8564bfbf5a0e95090f6e41f7f637c878791e39ad0);
  Step false 0x2e923ca0181a995407e18e0c4366315c7ea4263cbc732455f72b9f90d98eaa70 0x309300a009ada74a620d4230756a055345549ef6348ae0edb25d8d9b6c004296 0x22a4b603392a65a01de576ad977df4626ed81db1bbabf825b3134250950b4c93 0x1d4239805bd4921c10aa07033d7f5b41ee16e0e81cafdcc39ad444987b08959d (-0x21e3854af681f36ec848624514796ab672271ba504c89aceb96391a244ad366c) 0x1e6317b7030ba11c99697ba284ed071892aa19dadffcf8e5b1823ce4305bbe6e;
  Step false 0x23fc90eda450989d6bab9afeb1919d0c70cde774f05ee33d3e9a79f67e0e6fe 0x2ac96eb47b89f90aaa676cd49a62bf2fee464d009fcaaec04010a1e0c543ecb 0x73608840e2ee805514e1b3909ff9fb16e2a0164b52bebe58e9268bf5503e65f (-0x6c2a1e73938b9aca04510cc2776445e98a43c441acefa46daddaf92988b0f7f8) (-0x143c233a8356f76f4effbefa8da595dd95c26de51ce928b7ed519b8c98a00d) (-0x19cf24ffeebc172500c8120a8da47349b4b37e2389de90849492a508ca4f278);
  Step false 0xf2a7ac9651a23322ca11d4a1abf50de9bae1c835ba078e779f5405b739a340d 0x2ebef43352d695e5455a22420e5235cd4a33cd30b9e405913ceb50d887456ebd 0x3d9009b9c7bf635b5be2740df7ed959e07bcc66050a1fa5ec00b72872425fdf6 0x31516029ba01a2fa2ed03c0fd89990a3b86f9aa4d61c9d658802c7cd66b1ebb (-0x39805c07b4b3e0108d90042ca7317f3a4c56159938a0dcac39d6831b84b5c56) 0xa718e77caff97c1b25a307a7143d49072d3a7a0fc59e3cdded6ea2b42ba7b9f;
  Step false 0x348e0159aa9ffae34d17f0eedff6c3318c8bc5dd349a4de4708b35348283733a 0x15f59635c68238aabce0da369f565849aa07ade731bb2f9786d58042d118a80 0x86af94158adbc6800e442a8ec8e6159332319c3a2dd2bfeaa125159cbf1388b (-0x152e8c404a03f6bf70a2491038d19805987d88127db5c992bd4a5d36234cf23) (-0x2b27fd47b3306890019959167489940da7431a85e1010235d7a5ea7ecd9cc12a) (-0x25425add85fa699f5ee1fdc2521d624e57cc8fb7e3f6fddb940d179c9468e651);
  Step false 0x10418d1bfce7c75e3461142917ea5ce418c721041fe978eac116074057619b68 0x3184578cba6225e8ecb5f0eb6ca43d9f431c02b7bf0552182ff0577bc4e50e2 0x2d4c682c0e43726456cfa03c5179801e86a16a00abad73dc8aac12d84efdd6f8 0x430207ecc0103e95216e0ac6432b8a4336d374c646ebe0dc9697ec9120182f0 (-0x42109b1d66cf916a2f6c6f8ebc0d27e72ee903e11467d638e979051bcb5b45e) 0x6ffea14a85ab3155fc1043b8258331d198bb56e0111c4708ebf0f990defd53;
  Step false 0x246aa9a6d75bd90e3dee832c5724500f62013a208728374cf944b6b4eb9669a8 0x3ac17941a7d634e694d705d191a8f9d400aaa341aa97c849a7a37e0d2f714774 0x1bb7f42d5e09f74fd42af0dde5cb1d89f009fb08006725756f0a9e467caec074 0x331a034b2a0e8f9f486230403a7da020e86bc0e91ea72e97a9bffd1b284f7ef4 (-0x14b8b09f6ca788bc185048c11fb35b51f6ad97e6791ab6fd329a3135c46d5508) 0x1fabf0eaa770bbc7be0f77a7a268d209b330859f9311750cf71fcc5c314c493c;
  Step false 0x289a87a16436f7f9dfaa601c247c9e17d9b0658ffd0e0a99e6e87d4997dbe400 0x27b00a8f7927da7a0ba9bf28903b1f865b6cb706aa9d1e59c4f4356a46350c49 0x2f6076e2e74a3adae16483487f6f240e34403f627ce30bc89558916f6994962b (-0x7ea711fa0373b70d781107a89eb7391a56043bb9a5c306956c425e38dbc605b0) (-0x19c29ea79565744671bb1af8dd2406b48dc97fc8564b0a3e7caad6b03df864cf) (-0xc18ef8a95233c50293475f2103daa8e683b0b1f1858222d6d6978e6b937f561);
  Step false 0x2623f2e69816e99e9cbd9395b7c78ac1382491fbacbf91db305c1230b87c2e86 0x1de154764747cd2fe6b79d775b99cdfb050f69823abbfc534c5285fcba1fb565 0x14796a73139ebd6cc5a24feaee7427a8db5740714b4009625e819319b07daf1c (-0x115d8cfc73175ae29946f5405a631e3263c9bf0fbb551246f8e8c637d1461d6f) (-0x16bac4a31ab4ab7fb47811e0cf07a6ab7fc2724c348c309ad56c5ee373baa02d) (-0x5d83e63822070e506538bdc5c1b153be57cf9be81b49b7283200bc705262e11);
  Step false 0x30beb042319ac85febda6f7b27ef252002d917c5dab51cff263f14c0063fed2e 0x13866e05f9c2c55fc68de220465068b406343ec9bc5ccd35164ad0ce187c2205 0x381bd5ebca2ca89ccaa98d1812d86d8c9b8653be530b606d377777426f807456 (-0xaa9c849b2ccc2172df5de16a469a00549943b74c673b0256952a21ff5cd277b) (-0x2520408bb8db08df5f0f586020ecb507ec1f332fbb7a8fc9a58e2ffc33a6a775) (-0x7e307350703055d1f75b0513806817a8b1c6b48b470ab0a7f1d0aa8df7637ce);
  Step false 0x2932615d6b551654223e92bb42606514e1c14bd79018853d2d09cde22bf636f5 0x1ea86b0c7154c1a4aabcc833a3d379f26b51e6e87f95ecb77ed5645ff97670d3 0x9237b7563a5d3609a4ffb0425441ee96e033e3ebead76031be045432e971777 0x365d3d39819da497686797311011b594a3c3af5f87c28074103da7295a22f851 (-0x1a84b468679c6f453e4e8ddf0e0bc08aa108fc23bba254b6c313fa6fce39919c) 0x72a899595340a5568857016d11037b8612f9715eb0c887e2d62ed400e386af3;
  Step false 0x1efee48fd466c0ed6d3d9afe552559e9d29095f4c8b839413378b1561cfef06f 0x1aefd94867458cd3d2690137900a5a0c0bac1266c20e73a94589c761449b909b 0x27cd41b7473f8b0a45c3f0fa3c5e990f281e97457765e5332ccaf4c0634d5ed6 (-0x2334d00337d1408df5f6d4775e40bffa7b1caaf7c37af5112c57df46b38e7089) (-0xf02ed703d085111fdb00cc1fc4ff36de8576caf23846101d470d28d0e8bdde0) (-0x1cd56204ac87f315d4813944228da1d4c3172b11a596cebc0a3e91ba2c741fb);
  Step false 0x3e5a0ed6d62bfcd37f55a974dad71c499e7806cdb769bc92acdee4d4f7eb16a1 0x2f31fa31d732b0e56e7ae95cb8baef20b8cbfabe60c1dfb620a6869242b46e57 0x1ea9ad71e24bf00a2af9ac554a4ce6370bbc58d7bc7447d53d409ec17ffb29f6 0x2b8a88d7523d266afc89e21cb682b8ffb3efa798307a397613fa420bf45fd7a1 (-0x3cbefb79fea0646f2b09b05a0e2cdf0c09a5c804443f8b287f75d73c6faa81b4) 0x13bc9192e4cf47f7e7cb6c20a40a4723730040ab7eaee77dd30b7a33c38e2408;
  Step false 0x6671235c9e77451364597092358de14e2fbdbaf1736d60dac8b7560f8ccfb36 0x125b962e3e22c4f658e2ab8ab08628e8ab56e17149323b570358a308891514d8 0x9fa61baa3d8fd543c1805867d875f0ecbe3315119e258057601c96445f94258 (-0x62461761ca5efd5853115d759705184ea364582e2cbdefe9791c87a59f668ceb) (-0xa3f968b82bb594b54f29037ecd6988c7381b059c77c98dc21938a6e614fdde) (-0x2e28a9dd4c9461ad11b76e1b7debc8fadb1c33e77c8dad0817a4c68f79bf97c);
  Step false 0x10bb6666eb6be4a43a81517d5ed26ca2f8a2a41d929e280566f64f55bee476f7 0x74116a81891bca4ef6f17fbc8dd77d4b066cb7ce9ee75a16b80e93c414dd767 0x2d9a57f6dbc5dce2a9405365f6485aa679efbb39fd18b70fbad8ddca373c7c97 (-0xa9476a8c8faa8f0a1cf6c1ef80091a6690fed14768b98130dc853893a803cf0) (-0x45fd7ee82fe64bbefa7df63579bc6f7e7c0f7067ead0d393bd30c816fc8a13a) (-0x2e723123bab13bc57367e1ed1776ff9c4382804e6edda9031eb0f5a30fc9f18);
  Step false 0xc0a8277d91112743d18b5cba309ea747adb3d363364b196d1af80d2c10ce1e3 0xeb1ca3d86fc7b5a48c499e77237d2c545ddbd3922d341f18013fb9520f0e044 0x114573397e89e0f37ac964a9c1baa74b5fe89aff0d3f31aab326a201b64f994 0xeb15db167b2993ae209d5878ab849954fb070e0e3f896409b2021cdded1df77 (-0x243f2a6c0d1fe84cde8fe0ed4983a0c9e8da43c45ee5cbf04d174b1970c4037) 0x1665a72ef9ed38d82e607d0273d8aed2e64f8bef38376a9c6caf169f2588f22;
  Step false 0xf395363b27b3a3dbf53fc04742e15fb602e5b45ac90bc68f29f8430a98a39a6 0x39e17cca0b00d3a3fc1314ec1809e2a5eb3f6559f34a8553e803c3d38ff05d6c 0x1f727501cd01b698d7d6e520a969536bcf5c624f259e7cdf4361c6d1d2fcce77 (-0x99bab348924a5feee3dd65bac13e711b36a24af6c5886a6804050a1d23da240) (-0x39f126fb1e6e10a6db6e4404a7e828896b9ad0160210ea8f81576118e2139b0) 0xa45dc9915dcd4b09a7c9583f11139372cb46d8e70e1e08f2284839eaa7ad7fb;
  Step false 0x47289a6c6900dff70fd58594b2a8e6ce7f15709ec7ec26587dc85a252171687 0x1b6a2ddb9e52bd825602ea347f67435df61804f2a9840a9da936e1aae715f62b 0xbfd9be95cdc00f599bb68c71e80dc7dd87c6e84dbd66fd8eb1ad813da469684 (-0x98ab6487d0bdbd0efa6114d8129699f6d4a19cd4f92cba55a93058ce8e46bb2e) (-0x4f1e30630517a2fb65054837a57a934873ac3e75ed9186c7355f778346ca2e) (-0x21dfafa486d41d51f19aa4300787965ea5eeea5237fcf26c87c05863b9fa44c);
  Step false 0x19662d881f9bbdfca1b4b09c4da5e8505dcaf80a91cbd0d1147b96b179a41b40 0x1c05b54dadc084c683b6556d1a2f6bfc51f40ad56cc1d13a12b4c5242dbfd0db 0x135ef8d24f5437a4d0fbde3fd1a921205d95e95f4a79b05bc6d3f683266f006 (-0x19b6694d14776bb49beb1780559d97ca0a5c868f699fb58e2f7087371522e7ab) (-0xa1476b39afafad45c47aa0d977dd26baec5c989a048ec9b23e7b75870fad2cf) 0x3db93711d84e1b2987f5bde3381e7b8e65c185e0d3db2b65e5a75ce9f4c28a;
  Step false 0x1b99e11c80d0a5684da519e5625c1fa94aaddecb1a27d90a17224f2b00301d86 0x3e8651b89f82aba5516610f7937e3c9980ce8cef19f17b60316e2722a968f36e 0x1f423ffc737eceb76e472e47501c8fc893ee029c4a3cb91eb83ed145a68862dc (-0x23c3a8ee26e4b5f78f343f47772720588bb81feb6fa9db3723f85f95d5272fc3) (-0xbe747eb74c46793a111e64832531a91e2077f3bb8b85caebad3eda410bf0d00) 0xee136ce9145f9414e35cf59ba8293e83c8191de58a5ab4a7b395d0837f212d4;
  Step false 0x13320be84d9e9fdcdc2d0e70704563036b1593ea8187ca08f4c791046d9adcb6 0x11b5903627bbe238e0bd618399d1a0b2004d75e4043d82b1d88d9bdb98c4606b 0x3d4911deb1116536c6ca52a86f0aada347b23dd5f4c8d6c9dd2540499ecd0aae (-0xa47fcf91665ecc348cbd9303caa944223268bbc2083a129f3161073c4a0758fc) (-0x5c1de348b469ca68ef0edb76993de5cef36f1fb24037dcfaffd985759ab0a1d) (-0xd7104e075d6b8c1e41c398f2719c45e0097653b50fdf8ff10fcab30b4cfaa98);
  Step false 0x185b838000a29821e68df5852ef8cb513d70549f9f4957c7dec15e28b2932f49 0x399eb9643e2e696fcc3184f238ba4601c9b56deb426921dd660cb1238de7737e 0xc5bfb0970e1e3d5d84e4845cc2a0e1c44bdb153526c63a5da5bad099e8222ff 0x1ff2a9f4e799cbb7a375f0ee2b2852af9147a065edf90da847998ba48e36b511 (-0x945257b02acc316367f08590827c0c7bd0f05392a7b28dd6254829d1b21ae7d) 0xf3080f8e8f4f4bb4eab23f64e9068a122133b5dc69bdce64e8ebb00beb91b18;
  Step false 0x2ec290747ea7315505252e8ee58bd209bc9069fad4de5b2bf42a5d90caf90428 0x1d7b4799bff510e43fdbd9e29fe1d08c9c941c1e4676b2fffafd524558584ad9 0x1e09f58e556295488abdd25349f933f99ab8e85fac7e8ad97d82019e9aef765 (-0x89916d55b0b531b0803e36d892b4b0bc25244a7f628f8e4e4d539c672eaa6e5c) (-0x2229ff247e5d3a81c18a16b602904ebccfdcd53259007bbff538fe2cc1ba146b) (-0x148f04bd707cfab29c60fab415f31664f6ceb571657fb1d8cf19e6f7cd4cd364);
  Step false 0x356765ac9ab5af6ffcce44b2d529a0bfd4c901e9d79b7f2083ceb5c70483cc3d 0x3cdddc2451070ee175a494eba182d867910d0f03b61914faa10026cf87e650c6 0x1de0793a01e4747ab17ea312e3a3e8fe26144df7b48158dfda5be14df10ee550 (-0x259bda2d5dc9e684ec81a14fa6dd6a6b06c6db7bf0c732b5c0054d30a02da5b1) (-0x2c8fe771c5557d2ca37029a051288e0e3c4afee71862e4be1d7a3ffb58c86011) 0x1a305786065c8ee2b74e623e5b777e472f1d6209934e944c627139a41895222e;
  Step false 0x15f8df0cb906465117f5f2434ba39cef2c08a8642b71e014ed0ffc919c3a2e76 0x1a1f63202c283ef0a9525fb84fb9afdc948bb082262a797f94e607943b045d1e 0x22e56af67d7d66a9222bdbb29352b214aab7d86acf477e154aa6be706f3cbeca (-0x99254e18775de077f129e7b91455c603ea3dc0b586d15d0680dd243d3768e5ac) (-0x78b1a240562bab15f7add96eea98d32e4cf472017e5d3001cfbd31f9b159fba) (-0xbed9ae0e1fb1ab7bbdbeccb2c46a8aba02e9b678afcc35a81c6bc9d3db2db56);
  Step false 0x86e05fe0965801ebeb12bca52a1fb9c94b485aa97320e7ff82057eae0a9e73e 0x387fcd8b5926e7f7e2a62eba1e461f64c4c08833b19ad6f8bea418ec001c0ac8 0x25301b176ded821b4060822ca27d2a1f152b1800c043956cfa98deb75199e9eb (-0x16cb59e61f13c1faeaeef6b88cd0dcd0d1c5e2af6084e8340c140dd5b3fb78b4) (-0x11c3ea41c294ec28c6abad0706e7b9e0f2449eebd68f427f07de8b32a982e00) 0x40045dc69419fa05379c8518f9ef6f45af21595cabd233a018d81ef3f811de1;
  Step false 0x16d6c4ce421df18c9f7849385477e6ef58768c4201732d290dbf9afc7e0a2ee5 0x32ed71e4ed3b2ca1867673652be04f9616d1bb2c797bf5fe00fbb7471f4be17 0x1fff1d27d3ce67c2085c5a14522e5ddf05ed0e8ed42673ccc744827c632d4080 (-0x7b174bb2f2d9069066da29d1939141a2e446f1e3ae7bca6b33bc6b502cd3c252) (-0x82678044e00ac01569b40f83998929ebfbb47f836ab33ef43aa80d2ac4e4532) (-0x1306bf613e82af23bf46bc3b1fb685535bf7fd19dbe039990288622ba1123dea);
  Step false 0x73cf9cc28b8da9d4158cbb429aed1f6dd19fd5136ac99d4fc0f7bc40ee69c31 0x372d0a31e55158ea01fc0c0ea76c60ff1da2b3f3445fb89a3332693da1b40def 0x2a656a3cc687f80b9dd10857417433701745dd3464e484a6e11750780cdd692d 0x6c33323ece33e84396d7ecfb98cc23cc90088d0aeb889d7d82b5b285ef43ecd (-0xd190bcd6aff28e6698693966b87360053546d0efd44faab3ca7fbfddba3744) 0x5e156d4e0e2e4407b52707e8da36d285836db63bb8bf8cfde17d68db4609205;
  Step false 0x22e228a06d3655d8f30ccc1d81dcd66f3e9d195d9426f5ce9ebb8e55c564ee22 0x30289d43e9395e552063e9e96872321fbeaf42101ba1a6d45a8bd04bcbee5da9 0x1852802411a40b5ba97830d3ca1dcb565dcd63a40ce7e5516a41dd32104f52f3 (-0x607d38b61d0eeeb7245041bff99cf8a09d2656ae86604927b0e143e31d06d36f) (-0x13036a597ad7259b83cbd25c76a6234119f649084909ce67775ac1df2cbcc2fd) (-0x3d325f3716d80fc128c6a6073783709b872190962dedc4faf8cde92ca4dc12c);
  Step false 0x3493455c8da50361de653d5aab6367669a5faa26c6c3d6001d72a7bcb18634cc 0x23e534ff664133ec884c8c726423bce8cdf5234ef99bd5dd271458b9b622b793 0x2a952933e1db04388b05b3aee94e9f9e2a9e01ce4d615cba7264ea90252f12fa (-0x44c111145ffe6e38c40f4e43c2a5aeea5364ced278d67c522e949566d6fdc16b) (-0x2b30a3995282eacad62ba60b8b1f51c33bf0d151bf71adb57e2d045d1a740fab) (-0xa12fcd5903a544be11ce6f4eb7fa992566ce2c4b9fae16c8a00072bac0a6b9b);
  Step false 0x300c987f07d7468ba012f89fd8a153868fe10cdb16849d63f048df8d95db171b 0x223593854c5b0a4e4b5c521e0dc04e16bc32fa3f1fbf800c1cdce639d54120c6 0x148ccc23afff672954088cc9230c5e0e18d9ef83b6e6c3d116fcc12ab792bac7 0x38acc267e1409f430c2e1efdf93112c0c3d4cb4ca70faaae700ae1de9047181 (-0x2412e73926c23bed92e59a173c077dcaeff7a28a9c2f3223b772030db6c14ced) (-0x1440e0e528cc7b41a3e026e3657477f5449430e3610b2447dff931a71f484de);
  Step false 0x3530d444210a8777a95c6a40ef1242879012074ffb967d284c225ed5301ac069 0x26347f0a2b1c02095168504e2c2accdc0066fd86dff40417e8ea6ce7ef11bb65 0x2f2bd23fd58ea06cd75a39fbae2f0af1938c32b86cb41a2413fbe5171faca6b7 (-0x14b2bf2803f4a913e226261fbb38254aeeb5d9d5c9c2e35f328bd9da2f46942e) (-0x2c3504d1fceea3956ce69855ec76c016d4c7b66ff5f0595a6d1ae8b16c5dae20) 0x352277b593156a70fe49c0cb0d92ee6b04e7b0dd95e59421dc787ee65ec0cb5;
  Step false 0x22f439be225c156008a14199a43dc782e3d4b63d24ca411070a0d867000ed27e 0x1 0x248b4a5cf5ed6c83ac20560f9c8711ab92e13d27d60fb1aa7f5db6c93512d546 (-0x10e4f31d30aebfa1cd233c45e1eaaed8c35a263a2e2276da905ceafb5c47c967) (-0x131721528260b6e920b1780d70bce2ed1848faea705bc678d70cb0aad4b77f39) (-0x14ddae19ff2c4c2836d5b25de58f1632b46bc76564e91585547796f9212ac73b)].
