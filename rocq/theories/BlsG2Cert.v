(** Generated by tools/gen_blscert.py: slopes, points and quotients, checked step by step by [run] of GenChain.v. *)
From Coq Require Import ZArith List.
From Verif Require Import GenChain.
Import ListNotations.
Local Open Scope Z_scope.

Definition g2_gx : Z * Z := (0x24aa2b2f08f0a91260805272dc51051c6e47ad4fa403b02b4510b647ae3d1770bac0326a805bbefd48056c8c121bdb8,0x13e02b6052719f607dacd3a088274f65596bd0d09920b61ab5da61bbdc7f5049334cf11213945d57e5ac7d055d042b7e).
Definition g2_gy : Z * Z := (0xce5d527727d6e118cc9cdc6da2e351aadfd9baa8cbdd3a76d429a695160d12c923ac9cc3baca289e193548608b82801,0x606c4a02ea734cc32acd2b02bc28b99cb3e287e85a763af267492ab572e99ab3f370d275cec1da1aaa9075ff05f79be).
Definition g2_xx : Z * Z := (0x149ee6d25a1c8648c86f8673946935a6c41c801f2eb23fd9171fd41f31b7ec5c4a85f5b285f02508d928c716f9c1bc67,0x6e63a1561fa8259ba6f6e15257a5cd4ab79697e45abf5042aa7cf28b80aa054b18d535b71cf70dafd2b694040d19479).
Definition g2_xy : Z * Z := (0xfcf61319e51e41eed89a6b0ff12b4da6f664b92422160a52083df7086215506947457947cd8917791ac308465a849c6,0x14c164377443f5accb1eb0dfbb4910e98a49e53d8ef016c76df99c2649d3f49b1a3d8b6a55e5881f8ea0ecfdc3de9b2f).
Definition g2_chain : list (chain_step (Z * Z)) := [
  Step false (0x15a76ee3d8d1c3451005d56067cd27cf7598a85f81c23cd926ad0ec05ad6440f1df034cf36701a5831c9fb39250e2ea9,0x16d96e785c797fb5d6afcb1400d7656829a6a71c42deb7ddce5cd2ccda4704dc0e4b92b69009367bbf6e6aa19488df66) (0x1638533957d540a9d2370f17cc7ed5863bc0b995b8825e0ee1ea1e1e4d00dbae81f14b0bf3611b78c952aacab827a053,0xa4edef9c1ed7f729f520e47730a124fd70662a904ba1074728114d1031e1572c6c886f6b57ec72a6178288c47c33577) (0x468fb440d82b0630aeb8dca2b5256789a66da69bf91009cbfe6bd221e47aa8ae88dece9764bf3bd999d95d71e4c9899,0xf6d4552fa65dd2638b361543f887136a43253d9c66c411697003f7a13c308f5422e1aa0a59c8967acdefd8b6e36ccf3) (0x37dbbbbcd51148391c5e381d1681a025fcb015ddcbf8882639b3ad93880c3c1309f57276097394ddcdcf1cb65ff8bda2,0x163197247fb11c5cbd02053bf8f7a0ed97205844b5989c62056bfd395e8c3f2105eddd094e98faee3ec7f5094edad0d8) (0x20baefbd896701789e158da5594f8ec691f41860193bb0a639509bc225f59845a3a336d458ca193e66b84994cc46682,-0x260dcd9c3b4191a48e9de658b15cff8d183dca05ddcd4d1865f530fa01dd8f6e81d8d4b450a73c8cd04de907d3bf30ab) (0x19006529f193c10f2f89b2f0240524d2330398a1ae993882df0f46f8bab01592a843cc8371c8c9f5a6f9f9cc9e2ef825,0x98b2faa8f21338c87a02678b96b109540f6cd4ae93c316ced6e88d89718ad272fafdf3570f5b1601f6f6549f511ba7c);
  Step true (0x14b92565b748c30f253912c6cf3aaa45c2b370e810ea9361db7b84172cb1e68ddd09eb1296e0f84058018a4538d64e8b,0x3c50d0829bdc305ff694cc9bf914addbdcbe307142bf7cc7b8d9115b96656327dd7978009cdcddf4728a38086aebcd7) (0x122915c824a0857e2ee414a3dccb23ae691ae54329781315a0c75df1c04d6d7a50a030fc866f09d516020ef82324afae,0x9380275bbc8e5dcea7dc4dd7e0550ff2ac480905396eda55062650f8d251c96eb480673937cc6d9d6a44aaa56ca66dc) (0xb21da7955969e61010c7a1abc1a6f0136961d1e3b20b1a7326ac738fef5c721479dfd948b52fdf2455e44813ecfd892,0x8f239ba329b3967fe48d718a36cfe5f62a7e42e0bf1c1ed714150a166bfbd6bcf6b3b58b975b9edea56d53f23a0e849) (0x1144b3134216f58a33042428be2c5b56149ee456327ce1f8849ba3400c63fed6d8456595000d93e3704b130a9affc656,-0x4bc51cc441cea5ddde5e53b907478290039af0123345f80a910d68582478a3d3b62b92c27f14557fb3c64d4f426b47f) (-0xff7df4c8621c37b2226de2ff9e90ef845403ee8733e4471ffb0986e2f5c2c855634961947826a161cb4ef9939085f8d,-0x602228cb95c275dc11083e3c7e9ed17cbbca38880a29fdb97fe9bfc6d903432c946c7fa3b80fdd7f200f54f831de8fb) (-0x313c3c2482c446c4fc518061e8280860e638317e29b4906a4faa4a5dd6f6d4109da897270605825eb6a805092d672bd,-0x174e27f6a8ede57b79487927c05b756509812d984da733834f6a56ace7c86be710f864a9ea21cc7a7c1a6e2b6d6ec80);
  Step false (0x56ceab5d5d994dee0ca07fc0d41aa908b1a833b94e768d2dec05cffe4a869aed2a64ee86a72f085ee4e78bd4c2aef8e,0x39b596a976f556e5ea4016a3111e14b674a67295a242cf3b343a6878db6ec20bcac1275d23aad6cd3e84e398a4e7bc8) (0x19e384121b7d70927c49e6d044fd8517c36bc6ed2813a8956dd64f049869e8a77f7e46930240e6984abe26fa6a89658f,0x3f4b4e761936d90fd5f55f99087138a07a69755ad4a46e4dd1c2cfe6d11371e1cc033111a0595e3bba98d0f538db451) (0x17a31a4fccfb5f768a2157517c77a4f8aaf0dee8f260d96e02e1175a8754d09600923beae02a019afc327b65a2fdbbfc,0x88bb5832f4a4a452edda646ebaa2853a54205d56329960b44b2450070734724a74daaa401879bad142132316e9b3401) (-0x1a1481ebdc3b158a31d5e6cd7f49e0eaee79e0a09d8f883d341c0c184a3dd347bcdde7940b66b0bd6c815525e8b2651c,-0x1fceb72d183b5d60cd30fc22296920b3f365c451b805cdec875c5d34fa17247f7b1f2cd75c75c9b233d632f924f7663c) (-0xa1b5cf51760d5e790ae15e0960d632974ba08a3e60df9471b6183cfa0fcfb80951ecbc3643768885184046156ca4cb,-0x1814a8e89bec425641194935a30611382c356a8453d46e9dc8fb3dc8c1e5817708d89001a06034137c3c64dc38fbf85) (0x257a635e670f7f3827a47d87ecd0c6917bb2156cbaca68f5123a86e66f813852ea9a1889cbfd04a8e52cc0fe1ab63dc,-0x6af9cd3d3aca626c2a266384a201d83e3db5cab8132955c33308e797940e6c2d7b6ec5cebd033bd678ab93a007d18);
  Step false (0x6e3ef02d1a04e74ab468f6e04f007b067140de16796e93717f97204641356999f8abc87a7d6c3a51d2dc5c2080aa3d,0x1bd56d5682c8e27f4e58d1fe16609b948cecacbf47561314d3adbfd218516e28b5be780d59a6e961956b585b6151749) (0x173ed58056bec9874464d3f23c3e7d3d429d6c8a167fc7f39368830eca839d0eb8260d64ca823f6c785c71f85893d84,0x123372d7d4c91a249df8f3e4f8e669087b252ab5d8cf2529a87e4ed3622e4158cf17dc44b473d5debd273261383e8a0f) (0xc500eb55ab86381a1725f339f686c7e38ce9113493736f57e999badc661b5b8494d220ded0711e841228a389abdb82,0x10a4025d823c4262367c53f50e67cffa046e4a1e7c69ff30373772e49ecb310de3b313d83cc41f40a00205722f233e27) (-0x4be06315fa9af097f8b077bfda895d1f3b293bb961eaf3dfc83d25789d0ff909a04159e9da6efa1f886e63ce71f9f7ae,-0x142f337455d1de92a19eea0aa65b8f401a8f31d82d8193b42bc76316a01b11161dc6fb054b2885e484299fe123d671d8) (0x1bf757e3e42fbc77ec623f78006c32869e32dc91895f880d15e31c3cb6bdf246b92cb54b5a2b1aabf4425aa03b7abe,-0xec011e01a710bda84f6241a5bbe41ea38f1237f3fff5e2658f8b9d1810b19f5f2fbc3cffcd2b1a6a9b576a62b4e4b) (-0x15b8dc489b8c32d906c456e1a37302e06c76466bd591ab02136d127ce4a656a6019703669f37bcb35387be0a2f7d2ed,-0x16616acb5827eb0e0cbaf24d0f61b3e4662db6c11d8c7f734f46611118b92799c554a5b93cb84e511142d905b4c931f);
  Step true (0x8ecc09a9c1f157a41ff8574dbd225e6d360104b08b70bcde984dbdeecb87e54d15afa1ad4d82ecc86926478060abf07,0x1459dcc20ccec09d6ac723641fbd91572a9f1c1cccb841f8f081b995baf77ded82e6c1ee979b5618adb99987cc3e887f) (0x152110e866f1a6e8c5348f6e005dbd93de671b7d0fbfa04d6614bcdd27a3cb2a70f0deacb3608ba95226268481a0be7c,0xbf78a97086750eb166986ed8e428ca1d23ae3bbf8b2ee67451d7dd84445311e8bc8ab558b0bc008199f577195fc39b7) (0x845be51ad0d708657bfb0da8eec64cd7779c50d90b59a3ac6a2045cad0561d654af9a84dd105cea5409d2adf286b561,0xa298f69fd652551e12219252baacab101768fc6651309450e49c7d3bb52b7547f218d12de64961aa7f059025b8e0cb5) (0x105d47e07ff18d1532c1d05ed2a78ee2561d6225f8db8ad973747bdd7fe6645f4bb074808da87f14bb360761612276c,-0x13b2c09ef94a6fc8688cc6d8131754b02ea2bdc3e4ba936f29c83739b2b65d38bd620b747cae67ddcd7f3a1b3a4abba) (0xcdd20550a96f877a24032bb11a14ec05a02a95b19dc4f52d5a2b77b549704c1e33b1a8ad61e0595c98fcdbdba166398,-0xdf81f15232c4225ce4cc69ac94f2535b1d91a507b3c53d5d4c29c5638a390ee59999f10e8d19262d3e12174e65c1d0a) (0xba1bf4df927d22b116a2008e67b01adaec0b653846ef3875cc8b74eb28d481afc5bc280d431fe6b9f8976ae69e731f9,0xd425e4af84ccd8b7b0522c975130938d42a17aa99f20202b4f3efe5a6ed955b29b6532bc0a5cc51ed30f6d103a88274);
  Step false (0x75707a467e7543c28370330bea9b6e4adf41fa1060713eedb760c98b7aad959e5dfc28db5abe92a46d0ff04a4205803,0x14061839f139644bb20e864718cfc9c1ee8960c06ff2c240598a8a6da7ed2bcc091f594d8b0715d2f6a16be8d5828197) (0x29ea93c2f1eb48b195815571ea0148198ff1b19462618cab08d037646b592ecab5a66b4bc660ffd02d1b996ca377da,0xbb319a4550c981ee89e3c7e6dcc434283454847792807940f72fd2dbf3625b092e0a0c03e581fd9bd9cf74f95ccef15) (0xabb072b8d9011e81c9f5b23ba86fdb6399c878aa4eadee45fb2486afe594dffc53be643598a23e5428894a36f5ac3ce,0x5d04aa0b644faae17d4c76a14aa680c69fdfc6b59fee3ef45641f566165fced60cbbda4ca096e132bb6f58ab4516686) (-0x2df69ea492b5b2332e61039474d85d4a88c3865736f6bcc51947748ce95e7200fcc266d413c759ddcfb843ea6c420af7,-0x27dd3fe2a7d2fff2c48ed8bab3042b271868218eaceccf2580ca9848215011a68e57ffd671fac976227831b9d9c49384) (0xd58d51e36ecb9c66ea60f42b95913e44b8af3a0d2f6cc53251808d2f93f6e3ce4b06d437b84a026151e67c01d17438e,-0xb4dca83d242629b432f4c87b0cd8c9fdef9a6c471f434d106d816c1655acfb5a7986e824b76acd05e8323c2e7796515) (-0x5b63c12dceabd650f669c5265f9f28028c81d1398063ae3da58427c951e68dbc6e3c2c3f1d005f21e8baa15e407297b,-0x10382525317c82829b4265d7843b31ad5a077f604f93932c8bbf3026b1cba446e8e4b24a98773cb5c0ff41fc232e38ab);
  Step false (0x1deabfaeb3374b50119ecb98148910d6004895792caa88dad948685eedfe9d3ac7315ff9bd8fa7a943e0e3a924e7492,0x7c9b05e8adef4de506459f7be98bf07cbd25fe6f4ac154f7c01f5d8a4b9368fc9cbb8ebfedf28954ae85d6e9f58c709) (0x76147fc1a30a666d36b43fa11419b6fa517b642c143cc2ad863426f2c7832c9c9fb62fd3c6f9dc94801523782f9b37b,0x12f4b28115b81c38e3bbf17cf69059247c386ecccbaed914cbf1417f24431096f49191365acd1aafeffe8c4489a89415) (0x164aaf1243752293eb1376a3448bc1941c8b25df7cfd0bcb708514d7f477439817f367d8ffbf02b95629d336e7da1574,0xe46ddd6615bd3583b69fe7156087f35ed4b8896375ccd7f52459f56836fa38e0b596d289800df74c3a361e813b24550) (0xdd96a2295c1fd8335e58cac0174357f04f0edc6eaa73526ba68b42385ee5ffb7322bbeb8a855139fb7801e03074db61,0x6d242e4786769976996191924b7fea0553797ffd5a3aacd9880861a3a1cac510bf4ab3b699ad176c4db9039053ad818) (0x232a9089cfe451836278b0b1452271dc3b7c7549f0345d6d8ef59a5173142772f9d43903e0cae0a46a30c269a1cfab4,-0x11eb5a31c7075855a37b6a4dd758915b928c4a28710b0b7893be59658772e734e30efbeaa5249dd409000575da5340f) (-0x1a77ceebc0f3ff2a18b4988e3b676e90d9a6556b19e413af39ac0108800843e82816540d46ef035ea868f21a455f9c4,0x2aed383c33565780022462dc056613ce3acbe33fc7a18d03c3b1cd4c043e9604ebe8a093a98dc675ee02527f7cf107d);
  Step false (0xee6eb50b6c77d09551c6a60826f728738a490c04918351790b28f2aca89efec977f5d8be5ab1530cd829c00c02bb5ad,0xfe2b8fdab71a2b128d2ad1b08e43b756d77e33ad8d6a444a32fb2ef9c6d1098adde218e3fb06d66bf9f7d4b7015a6b4) (0x865fc18a86549facdc17a997f52a2eb0382ed3d4c1ee32458aa78b940604912e1f0bb8001530b76723da4c169709102,0xe8d41cb551925c23c5a7c2d0a3aba3353bea7b9d1d12dc5e549f2c1e7e929b596e72ea6b0983d4576189c2378bb9660) (0xfeb260fc5e14dfeae3422c97ccd06fcc4e87f8fbd69b96ff50e54d232b653917d106bda6469019ebfd885d4a504bb90,0x50f49de6c87f8663fd03f5593c0b61f0cb688a3e7801f0d9096c2294f475088375f1f4f1a996d06a25490a7192976ff) (0x2b46ca46b707bc2388d9d09e8ea802628ed054a7154bb9bd604b0c80f736fb476060952ffb3a7354645f5abd6a8adc78,0xb52077f551d1ddd22c396443ca050230eb2953079003b96db642809198f9e0904e74f5ba823becc4eae84b818df4022) (0x12a1f701412b6cabb4e584676921cf1de3fe413bb1832fedb39cc400c57e50ec44bea9075d5ca6ea0f23b4874266edd,-0x1234f9964ddefc717a7b9c538007cfaf6258b42948db4179f9f2cdacbb2213a4014add7afd7ca66616c36bc7f8754a3a) (0x346239494b60e0e88c805fbb6ee80ed4a22283d64af2fc190496fd4a5e25af17398e155e4ef86623c55b7f748052c89,-0x1e6d55e4994d5a2278a17702ace043f9b930e186fe704c258dc96d1c6ae334f0527ae9d5673fa1fc82ae03fa7982942);
  Step true (0x14bf838fa391c4a090ebbbe743ae2a27fa167025d88ff625b3bef3953ab3e70c52b7f1fa0e81fa12d05c20409b6ab80d,0xf45e1251275798ebc25a384129e9223de8b300c58513dc4d4e26bb101a87dc37eb1f2ad58f5ce986c824b89b843b64e) (0xaf0261122b00e0bcdf92abd017ebb88081e5f03a4ee341a7b8f83a477f4ea583120dc86581ac8840d62fe3656a40bb1,0x27de5d84ad260920c5f5fd76984bb130ab5e8888e4a160006963bf8f04b68f9f24beedeb0c639e03e0d750156cec39b) (0x149b6995264f99ceb9de432858c42c3f94f29d6c9d5374eac96356c3ee2d285e6e3caffcfaac95248bca5dd6f06afb68,0xb1c3f52559bc63efb1115935d6221f82f5528c604d41630f7bcdd8d554f89331cdaa11fbc73c9e36829bc9ff2da5fb8) (0x7ffd582850909a73c04cdc97d6eaa21b773775607789a96b2e9025dea11a6156c28240f412bc12d9357fcb632954f05,-0xa93ca036a7ce47ab32d4c499483ba3d06af0bab3b18e5a3d6f428b8f2e09d5c11c5d097013c0cac293f0947a1f69b1) (-0x7958c59c7a8de72317f808a1c84c7b93f22465c8ac6985763ea88dd99e2ce8e44866f1d909a25a06cbec50f5b1a036e,-0x185f31f2220ee24562cd078d33f37c206d5413f8c490d5ffedae49e43bcc7e14829f5c766063f32cfbf33fe342475b59) (0x91c0a61538e4de8fa056ca00e78ecbc585fbeabdf91b7059bac17279a90fe38d85d314116ee16edceef20f68862ffa3,-0x82178354ba420b89fb49651071bc79794a5a196f56cd8536945007557a1ba5106a6e692d448fb3d89b3c8990900fde8);
  Step false (0x15f5f0afe4eeb7545fb13eb055c6ad903c2a3e4b9f14a8dae81217db1696daa3753ccd844396189ffbd89d01fe27fa5b,0x1040f087e9a0b6633fa13692b8f5f46e2bd5fc15d81b368ac9d2464eda778b0051c1027ed3da9931ffbf361f326b7282) (0xfa9059e169bc3ce7e7dde448b6e61a1a1c793b2a6cbfed8e35adbe898cd2d7be4c718bbf13762b6ef7d8dfb50ee9482,0x184b55b82e1e23b5dd5e165fbf4b3df89f1daa4cbec363cae7f7c9cc1063b66cb6e8d12e137c3951951bd62b206fe50c) (0x1765060a7f82f404870368ede020ffce1fea8f121a7e30ac7a3e1ec6fae5f1e1d716950d1fa4a89c2a066d2a0e1e0475,0xbf38fcf45501f56dd3afe424e91c941b81a8861b6dde98bb0e57befc9a81b02c8c64c221e41ceea561a68e6dc159ec6) (0x7d49d97800dfba1a424388f8f7e9944ca00402b20bab0943a74e46f2ffa0ea7917aceab5e75076f2fe6dcafac8d9a68,0x263cc2e42e0ba959b62e864b3f8dfd5676e67fe17cfe1a94273c09b049c213ad840f0c9f02c09149308615e9dfb3e64a) (-0x8630276837d6bf0421c9abe06d108d44da07bb53eb96646c96b90b626e28ca8671157dfd183d0399b14cccdceb27353,-0x1b73e1f70c7333bb4f2ce4507130a11b769bea294d81c78276c9aeaaba5b9e60cae9d9d07764e59aeb14b1a3f145ac7e) (-0x9a3b941747f30c3cd2af576faa219d201744d18c54aafb1166e532127b937722b72df9c5240e9737af9f8b16314b3ae,0x155d27e8cf95d9168032699190e4f8e11f5824edea8b774bc20c427746fd347d12f2212cf0f3d38b7eab906660085761);
  Step false (0xf10733fed03fc5b7ae27fc457630dce3b4db45cbad696a6351c7771105a0a1096dd87f04527a34a70ec377ccd63a5b2,0x855b8b1eedbf578f7498f370324634590aee6093dd239d9306991a8af53fac94e1e9b5253a208df401e3d6bf657857c) (0xe91625261818ae56dd16974d2fe280c97dd41a513c387f786b50132109e3b297835a538a3293a135c2933e8451480fe,0xb60e2b005d1a29934cc3e80960f09492572be9a2210235bbfc450f378a569c49c2b1401071cc2211fd92cca3b8cc00a) (0x36aed549f05181ace45f5a2fbc64ddf604629c86510a9e49a63e7fe90d68ebbf801191d36d083270dbff906d3f6f711,0x7020c2e5a635cefbfb7aef6847c43ee8a6b137608d219147eedbf9f50f2dddcf47870907613770885e7010e9b8bd759) (0x3b3dcecdf510b4f4b931898325eddd5e6786600703bfaa6681b36ae05dc6abf897f7d3f649c52f77f6a29c6603418598,-0x3af07020b955ab010d7fb70d6f937f9da3ae207269550b792cf11774b00ffbc35e693bc6dadb5f41a61bfc98576ac1a0) (-0x60e25c6b87982cd9bf9a3431e89962a996307f9c4492dccb04e04c386b629b797f21953d235f1cccc75312de55b9516,-0x9a822c4b9b69ee3975b3aac21a7c6e04470cbdcf472bb4b1c2fb7fc14572371f4f649718b09938bd5d01b2d02b2caea) (0x381c987c44b2d48489778f53484f01d3ac4226349073bb7ef3a6bd55890339e9dc84079fb4a7cb2d5e814f18765e622,-0x7d50f6dfdaddb299f06b120fa4fcf78f3cd05a7f8b1b564e4dcbd8b8067f5f791677bd05de511de02342db64d4dc59f);
  Step false (0x17900cb270764782b3eca3d2ec46a86181ef1ff2f83172010bc299acce5e8da96b6b932d6c92af226aa27e2cbe8fae21,0x1be7df7094ce56532653ce2da33c37fe337917d32826e1bd09104615d27b1dba405157c82358801a5440afa7826f03e) (0x109255b49ca7d0d8b665db8c92eef67769336419460e7ef376aa7d3217d6789ff11d11ccce374c41f9fe8a3621221ce0,0xb09d8f782af987133698abc854851b02f8e9ea77a9b67d10998b6efc4a8764c5a3c36c7eea97e17742dea3dd900a700) (0x16127d9ac9e57a5255596e16d517ecbb5ee1a79ae616d7ddc095db7a910e468ba9f9260afd080451621dec28ed123cd,0xfcecbac0b18a0649d7938866904085d89417b796db5957a751a575a4050b04adf5dc3caa35dbcaaba1350f69eb72ea5) (-0x44b2424f0cc2f725d106844c03443024a138a6907df0f98cde81817dcd302a7855988675f08a690fedbedbfe83cface,-0x1916751b6478029cc176378ec80462b415b7ed986ba38953513dde9c7ff6244cbaec75691dd117fca4632576aac18b0e) (-0x153bc3cf23ad691378894f11c9bbdf1aab90f71b702d4255163305aff982d4abae91b8a5692d9d33456978294b995723,-0x32924b75c28062a41f8bbe2a67eed532846390e5c1694ff6e4f107a6cc2070e035c74b7982ee035580e5896441032b8) (0x1d6a0dc40b4ba6d7f6e71b19d19ffdc6a6aa0297dfb8449c953364b72c82e7e2f570589498794ecfd686ec5041ebe44,-0x2c765c4335669cde1ff9d6c9ba132ba122692abddf5c52f37aedd33f2605d939213e772d3133a90fc9d9f30df21eb0);
  Step false (0x15ed1256df8e5e5ca95b56c878630a1ca624fae6d5770503fc7cd3706f331af3de61fabf6cf96397e7b79f2fc8c8275d,0xf5886abb33616f07cfac605cd5194bd83d804f9da8e5cdaffa3eb442aaeb1342a8a3887ee76aa06cc2a711c9ed0f30e) (0x17167f5caa4ce8e9ce5329fc20aee61487ac671589192d2335512fbb50cdc315ee307412fd2a75416c85533039612006,0x168d49f9b38eec6cc427802abf926e1f0f1fa198a141b5fcbf2cc4918fc6d9d38e9c058b4b47c4f66e60f970f3329a6c) (0xe2493b8c2a3b497dced0aac2bbab32a3ae97548f0d5711078079e699031bc1b4fd81ec9d0c08f309d86a8be4e02e728,0xbe163d15c119d40821bf7f10a0fab8fc7390a92a0fd3662dcd3ed092ea49e286fc847b07f6215d0d9b4bc8ca4404030) (-0x21f49ad37189ed2de88c96ec1b26744265447c9f50d4d8971ad9884c1635f2b3adca79145da18c04cf4e9ae21e42814e,-0xdebcd42cd167eb35ba38399fc9018cfedf4f653c161a20ba8921660a645ebc45c91733655f1c04ab119fdada8e47916) (-0x96e76ccd07ba80ef1d43e0c3fc870eea13eeb76112aa8bddf7f2d0c4c6a9b0ef50bba14842e7e43af07ab103e5a9bbd,-0x19e0ddb05658014e5b9c8f6066151a65d74f403a5638c952b55bbfc12fc111250c4caa841be2ad8a40df22d906e0db40) (-0x14cd10f22150c92a7293a25a0a3812a05578e0b2dd0dd477298f2c6d394c957534c35bf9fd4dba9e5466c2227668e6f,0xd8da33d4324329497f185736ddb4459252ef49cecd63a4cd957092f4c3e1424c3af73bfff93aeb587e31152ef13ad6f);
  Step false (0x249a870907df1494e56fc219e01fde22386755f816c125f4c2cdefe8611811647fac337765ce308dd13ea9ec917f81d,0xa59546d0d9d0d18614e98790bdde01f23d77cc2219a64e16678659f6f9ca9e64f594e30c3cd52b28123518842661348) (0xd3d633b73d062956d9d9c397cfe6e7e536c91bf7f865db4ac7e8f06097a817ab8c9ac0e63762e5cfc80489969c521af,0x1725c9cc4d634fd8992ef537b46240c96bd0f579805a74ef1a87955d8bb34ed2d749ee89cae1f480e4ab82b465536129) (0x89bf3cb854ba6aaf9fae282339707e91521756865595136279d52bc46475e5cc9220cf2487d16c8d2c027232c7d3efd,0x3595e4c952b1cd8aef9767247f6e91d49c90a0532cae4f7f96bc2c9aa53bbdd6bb06b491cad2025280428d649704cf6) (-0x9ca2d543776abf49365a18b2ebad2ba1fd4312a7d0ae9338888719268e16036f6103a1e00d940cee47da6c73c968b04,-0x6aca11355ec107ef91b51da3239c4636c7e8c47bc63461fefbc76fc5770a5ada3d3a8235e91acb4525fe2d24e4bba170) (0x3ead627fb71a234cb48c89eedadbef625c7ae131577a7fdff33576e69c07ea13ed1deeb5ef3df6dcdc5447fbb1cd816,-0x1d226bf474cd296e9e525b093639376c8aad6830c2e53773f1780d15234f7b81166455ab583d826cec4f84dfc06d8ed) (-0x11a7c6a43e76751e26eadea827e1ff7c0af5eb0928a314ee42b408e5842823c0d93110bb564457193b3f92de18e999a,-0x3ddea750936c205ad1edb900a3582e59b9a49e39f33e9e68e95f20b562ddb27d97704088f4fcb55cd12d1e1203d7ebb);
  Step false (0x3ca74026cf32fba56ec4ffaf56bfc4d589fd5479b90e9a3832640fbf5ff16fd5c8661358f86bbd730aa1df76e95257,0x16f491b5bd383da7e70c0012e06dce324741a7e96cd8fccf402fb94e1c54fc0073a49b0577775e0ba37cd47da598900) (0xf364fb4cd13dadaac06acc95f649b4e831d9f4e5b633c891f7ab516593df35e6b8a56984d5166f731cbb50a826ed243,0x43e0e1cb385216f05832aa48c1d171cb80475eb65bbc5d36bf292449e71fe95860bd34f31b465ae8fa4859f90389d90) (0x1962895679856f799781954b0cffc1a1bd1d2927101fa92e8719eb26b713d973866cebfcd80f12fe8c99f5ffecfa6b6c,0x18609da135918fc3d95a461268f901218a3e0489fc9bbf66464d2d8f7b84e3db4b28d12d419c4d5cd50d5c52c29ffe3c) (0x29610a50eb1a087c675ffc06f6e3cae1e2569a4cf3a60cca9264ce540c0a8149d1ed289601ebfa64e3964c3c375c6252,-0x45b38e2916fc3456f6091e5f32658bed5c4d4ca103d6bbecbc64f037e169d44ad3e45e7df6bbb654595a5d2eedea94e2) (0x13b61b561ca46d18a5fa724d64ab0bb95d5b3843ef6b5f7b6c4059e15f4da5b0171f72e3507225f064fdc2c580b430,-0x6b158cf20d877f57ffd516ca065c2468f53d7e24c8c2d9fb0b946d2440b7a9cd3397132e69afa1015b67d9d993a5a) (0x10f9e921e842185b7794be79c3d979d8bfb6ce8062c12ec631e02c2aae5019e4d6f6d8114a525ea7540a7a504eae11f,-0x103cd1ef7129c1e4c6524d2cd1f322ca35e02ce51762a8c3746c9f2ddd49e82edfb3e97834809d1b6dab78bf5df367);
  Step false (0x9a76bae205af60fb63330d38d4d0d00c4d2739ae3a0b1763a9bcdec2fe60921bf629abd453bf5d35812bbf0123c972a,0x79042a88c84c694ffd3fa1257cfc1f1da9301aff5ef309c649bf53444907381a7d0f976a5e2fc320bd337a5e6bf6e59) (0xdb330cd2791265565e96f7cf7a9e40b02bcab1ef2a99b024359280cce9a48c19a1a78f9f0166aaaee6d52c66a12beb9,0x46957563297e1e95141fbb5d861f5b35d2c658230fc1704f8d1615cee3c2717a965652b11378a8c5bb2abfa8c912438) (0x1780ee02c563ba548ce678b53eaa3fd3dcfe245e684a636b4c8175c264ef2cab9c509bdfb95d48dd17848c8d61de4d9,0x4ffeb54b8fad7660a216a3c08de052cec3c806d3a6b66ad31d9c02b9ffbe2a4ea3a57dd5460e6d9e213409160fbcc1a) (-0x13f3f86273968379a68156339aed16c4278c4f9857c3a23819bef0867f35f2bd72837b1992f028639ecb6e073f8e7ba9,0x11f9f1e81471a5942edc41531d3265da6b5eff781a01f52bf5f02a42d1754163d603e1e1385d0e7ac9cc6761f76499f8) (-0x1625518a8db5abdc715bfdfb1970dc3d6f5a53b46e0f9608c72cc7bf6be474086215ee324ecd9cfe3a14d087b06be1c,-0x59da9e6b0dc8847357a9c61413ec9ba8761e6ef94b4999c0d417ae814e59dba78a21e73c96990dc7c959950ceac7b94) (-0x9c4ec42acb4d862e6e314c754565d76e4c47fbce12bc9d7ef29e6ce1fbcffe6a04c7b3b1867806a5b04948dfe9e055,-0x6086f883eef5e3d75a527c80f80d19ade36dc571e37d450a080245de215b07b1d14c5cd30c7f8ec93bbb69bd89573c);
  Step false (0x135ff64b4d73a3a2d0f886b2eb84e8fad6b7625c837aa2728eeaf2f380047dfe3a21b11ba36890bfc74afe64e9f3840c,0xcc7efdc19164223dbcb0b43e4ee3c4f4c650fbfe5a0a3700cd16a519987e4aabf6bd8d16fa3e40ac2853a97b01176dd) (0x167fd1513292cb9b34abad277a7139421fbc045d6ccc8e4a1e4949b069df5fd6f649678204d5bd8b1f2d9c19d9bf9e31,0xf4c5aa925063b8bc2f594743e3cce764ffd981254b37f53d497be2e972b7b45f8a53dfbd9de00168703aede73a106bf) (0x17ae4d554ef09e409ef09394257d870114c6a69cbfa45199b5faaf2dfb2dd6ef146f8c6431de0c63ad4b6978f82e21b0,0x102feaa67b0e96adc2c21a1f9dd6f5605a08a5385b3d512384ae6a22d4fa8c61eb9ef4de6e5a3ee7c3d89bc3cccb85e5) (-0x16222b5ef0dc2d5538df10854e50a209a21e7c8a9cf2c3ad5ee1f79400772086c5ba39e02bf5fcd9ebb5e52c1b48629d,-0x50cf5283f3592cb43a788d6f761d8482c4b86a7f48144de4dc3e5a27b5c51c2e6cc1ef6d2332ae77b3876b3df4be922) (-0x8275a457629c2ab478ba4af3fd97f6e811f0bb3e60470715504245739a1f8240e98765e465ac627379da0f713ca5e6c,-0x130b9f9a08454bd6a8ccd52d77dd319ce87a6d5f8887a39dd42dc007021758f45531e5b9e3b092a18fa0ff0ef3a0389b) (0x1348bd577a5d5d781429fd83ee78bc58f1a34193623c17a4d5be761bd8c444320ddae1ce9ec582914e3eb7e622bc6da,0xc6fac397faf66cd9928a4f238908d26cf13272d7166773ea0c9779b0f85a5cd530a615dddff7748bc582a6fe8cd54c1);
  Step false (0x148a5374166cf336bdfb590ab3e98a0f2d52eb1fc8addbd73d021e6c59ff8b91a8fb6bd02a0d320eaaf52d68933508fe,0xfbfa5d5aa28b0148c5da91a16d59eff4dc469e9a00aa1e6c9128ca3eaf8fb765006eba3df1bbeb0847972fc9cc9f5ae) (0x88d01b3dc5c292034437231c984970c208a36019c52beb9b47f8db3b8ef7142a7c846130fd3e5b23bf22ec7e26fc1f,0xb251c7a21cca030801c49f81c693323a84a26a54b64cc9f048593bfa41fde459577136a29891e59594a42b51db99c5b) (0x140f5a8e22bb8b0f917ec66a07685e73ef98f5a4d74a9dce40378ced6f29688ca6afe3ea1e58da755ec2077d6968205a,0x1082feac44093ff95ee6a8d909dddeaca488e7c186d1c8e9b5f1f061e676cb9c225119e77751e6e8d9ee7df48206d850) (-0xd98bcc006579f23d9b9c6d1bdab6d18a3f74d7e9fc17f787ae1cc5056afd977208544e73b7814aa0cb50b88e0228e04,-0x1929abab3199d6898c86223be73b50aab963555647a9c4d11709c3c69beb3957ad7c5654457155301f28876b61fb190a) (-0x6afd5df3eb9607d2a03e1e12b401e217758457fbe57d0313be9cf1df4ca5d90313f70e0066b5b4ec5521dfac23963bd,-0x18e1157586f13429db60c1f30463980d8afdfaa31efa593e9d707be424373897fc2336430a90cbe75134012f0dd9324d) (-0xed59cc14e37b4706296f59c42809270118a2b79155a47e1b80eb5c48d9237c740e3e07c3ac674f721e3d16dc39d478e,-0x10953d2827ca0d3a858f75d176b5a2a1d192ad0f924e59c35ca0ea6d8b6f884e998ab5557e34c5e04a77405e912019bd);
  Step true (0xd75df1478e683d022e71dda20b2ee156e2703ab722d3d6699c526b1363aa3d7edf86279a9db8b55b3ee3937fc331282,0xf657335d9eabb7551b40995f1aed0135a3006438f62b0aa29f3faebba16ed6dc4cf9025d255e0b22ef5ea34500caaa1) (0x14f5d425a22cdd2abb1980973a1caa2d4479bbf0952933a9a23bb7b772c9f0cc5afb057be2b36ccc3c8ff6f1df84b175,0xadc77d1570f5459a698ecb690ffc5aaef0a605b476c71962c38298d14278bde3eda89b44b6547f908f8170fc766f49e) (0x1931867de771cd33a0da452362647938e6057f154e8aaae07c44c3e0591bbeafd33b820e5cfb0b28754b1472b0d9e551,0x84e111f94761e1fe48b9eed80de9e458081efdb49d7b1ab0068eaf580e60fd16dd8be7830f06c4569a9aaa72b3c2aec) (0x442787b49c90f411c4d218a562dd6c1e8a35abb7610ab8fc7674e0ed1378eaf23df9535872cc2cf645dc204f54daae8,-0x58f4010c92e210cd2c37e62c0d933ffd453a238ebf4d3f4984c9058dd2088cb524d37293758ae95436671d3f7a99eb3) (0x225f1026f6b0e86aae5f7d6955e15ac2210ef2646a70bd4f30fd59aea062fe7faed582852b32ea72694a399eb124f9b,-0xff0648a4e2580a6dfb918e434f06b8adf0759308b73433509b482e954f5281618f43509e0b5bbd1a4679afdedbe9927) (0xabdaefa2fdd449031c53ae77526d80989630e03f9077be5ac4d0d44a74ea553752b222ca962ccd6fd0d12f0847b759c,0xbf2571d58622a6d8381a52d93e64e662209258ffecd1c6d8e1344169c5ddbc1b318bc2f5b36d6026b94fb954cb51708);
  Step false (0x1137f470c8f7d00baa56e5c03e76ea8acb143c96671cbc65033e67ed9f2b5e180252357114e4f467f4709129c1d6d6d7,0xf23701cea5719c6d8b0d3f3bc8572953d8f42a55fe9970085a5304db0b3422f71d7ac93a2a95cfa92d0088ab1308e85) (0xdb0c9b699294226c2ffa2b8f27a00c7a64bfd4e58d4877006d3b5a01861cad7d5f3fcff20807b8845ea6065440be4c3,0xf9f5052f63cc4b3c8fd1da54e8da7c3c8f49863cdc63b53f98a303e01c63ff1e91b91c8c7fdd29caed6c02a8102a8b5) (0x174300c94644a9eb0dd519e7d5ba754de49efa44a4ca8314b7a687010320296fa976bf96522b65ab657d9c93b82f0f1c,0xa13e54e59dab06929e5f0fc1dc8bb545a8ac8058cf64eb3b339576199288af7c69670a9e8405e8d5c1c0fc320314025) (-0xd617ffbf6d54a7d9610bb3ceb5d5f73fd40c32e9ba89825dc8aa7352703196775c42c40871f61ab94d9ddeb8ac74b1b,-0xc3227c7c72170ebf752605b2b32b50b12c0eb6ffda99cba4080874f0b6e2c15e96015f334f409e3bd9c1b8ae0225816) (-0x2969c5f9481a8d29e0dc8b4f190ff31962a96bd6d7fc5f6a3112dd3d9ad9fcbfcd308a69496a872f958072459ba2f61,-0x140c36e7c328385776ce03092b207fd847dc5d6791b6df38fff8ce837f573837c5192fb7145b483e117162433382885f) (-0x795d643ad3a2dd84df5ceb5cbde3a7ed64fc2176516953ce49cff48d626169dff790a098798c82e082b8badf853390c,-0x1145b833dd62b29266d7e87345cd34c6e351085d01e651a4d3bf6a8b71098a8a3dce61bb1f5de98b70172c8986a9048);
  Step false (0x373d7203575fda92e7b4b0239b7c7695d2524211d5341f332c9317a9c538a1808d10350e8ab375f9e79671f77c33b38,0x7b03ee28e327f04166f5075f657d148ed56fbf731787b28e9d5746328bce07da2a04f4154a74ef22bb2c45a0f0992be) (0x293811ca74920fac3dc3f8512a6a50fd2d375089ef6e674bf86baa020746b5e8ce1ed1aac187e9d8257fbe22f883e4e,0x15f224f9151c202d06347b9db308f988e792860b7b65ef9b1f9073ae6b42e1ec3205adb6ffb2641f980190baa699edc) (0xc9a7264bca4da2842172c123e39e2c3c19c6bc2f8beddbd9b1b05af2625d05d7473714cd1bd333ab5a923ef9b745267,0x1767f44ad8064fdca0fb0bc3e69b563e86e97c745f0858ddd495164b8a379fb0b2b653670bfa008121cd44171e49ccfb) (0x6c00bc5200e834999ed7f46f4819693371e14527f02bd1d16ac05c24736f958c3d3ccdaf05e4ebacaec37e6fa638aec,-0x20eadd750ac55cc47e1a2ed01b59397bb57a44ac7ee658230a01b922de6f1b12dc1d8ab7a25d925ee079af06bdda566e) (0x1d0976333bebdb9963aa438cbbbc26db7d54a3104fb5d8153152f4ee052e73386b748dac016b242f2c2aaff360b51c8,-0x20aa3059b12969cacc0d7924f3d6d66c46cc5dc1c9ca752a79587dbef8f118109df5f9a4541a2b922e037080d18848e) (0x2bcde9929ad5a2d1c1212a21dc3ae22ecd6961b227834d69c42ebb806d56df0cc9691bebf085bdd2c43b6e5007835eb,-0x52d9a1e64876403844e55da9c9d4ca8ca382d0b6b9aa156ac580b2b38adb59a66dad0997db5d121661e3551387b268a);
  Step false (0x18b70eb629a79ff3f983498518b16faf0521c1c5a11c352341629374ff0d1ac17362c7944d2b6e4cdcfd83a0692003b0,0x11fa0abe9f21dc673b14d9174289133e7279c670978cd5690526f609b923d7ba3b37b63cf6dd615a649c30b33d8b88ac) (0x5edc5a8af40b59098f58c0f02fef2b7f82b4626e4c1870c26e498f323ae330d9c1573c24488b511a22428dc6059f4ee,0x46e3c92bbcf5141e903ab25679cd5c3ba25eae5753a1647f6556afc37638c57affb61f5632958b2591bfcfe92e3bcb4) (0x1907b4c7d0e8a6af75945be51917dd28840b0a63464798f7b08e3f26c95fbab1f5bbfae52252803ce82869912d270f16,0x16cb06643b7091c21783de33d8ae41ceba9894e2fb2c2e2ea128c5c742a0e2b7ce859a1ca9c00bc21e7de452c2c14a10) (-0x8f3ef6d274a212cd4c30504e2d38fecce16c5dc5da2899890d53821c52b841482fb76b92dfa14b887141953c5ef654c,0x3d1a012c283a80a74a2c28c625c8309724180d6e9c26b671fa1f8ce1b98206867bbe38ee7bfaf393da0c2bc6eeb76208) (-0xb1001ae3dee846bbfe16e41695a4f8ea77e435961bdc2b5915404221dc0693b9b8c312a63830d28b91de26a7e5ddbb2,-0x222bcec573337a5f5259d4d6adae0b927e924558d16e4f0e9cb85d8e8f924a714caeaf3ad62c589d0675c7b4af46ee3c) (0x1125c57c78f86595076ca408a3c59ab1e90d677852ae4c9095b58e205a02e67cbdb9beec3cece461684847392510717,0x5399a7763f687e7ece96da688a526d9150992194e172a610a1e92446b1a46312017c52253ca37a7f24b755c648f8521);
  Step false (0x2fc21e36ad4d0da0a00add9bd428c9c44f9a83980265ddd5cac54906e73bae3b43599982d6310ed50636162786d1b75,0x2b70c4ecc512e5b7a263f208e2d6c8495568d22744ab3f376045a0b6f715c18ef69c37a80e8a4f63bb295c1f909c9f8) (0xc8e87bde455295352c139ce1a1ed2cc224939dacfa893ac2536c18f92db0d7e6165a434a93ad219262181f3801d683,0x5b28af0e53bf5de2dc971ebc6c7c1d173cb570405611cc1a2eb260f9cff9a837eae58cd4216bdc8b5dcf27607485b38) (0xd33979a0cc4135d085eb20e67820b54638c1e9e4497f7b81edb771d0ea387dad015dc9c3d14ce62ce1a4a3fd6e54746,0x1e433e57ccfae56caa7ec256ec2f6087440425dd143dc375d5841b2845c57c9481cd3cb04668c261dcc3225cc1f6efa) (-0xcdcb8e95ce020326a53314abf0837959eb43c4193c089806075ecac1e03dff20687372b91adedf2bc2fc173b79b700,0x465fa602a7c81a52409209414a8f791a424cde5e85732cf355208bf0ff8500b5b4fee6687a55082ef17611c1b329790) (-0xf248c5ea486ada76effe4d4b1b831c9f67d1ee9808cfd386adaed95c7b5ac18de93a184cc81c46d3f4423d3d2488e,-0x9f8ff3b0222b7e79d73dfad3393e679161590264aa7f057edcd1bfde1c92e9ea3633245ab92c4e29e26c0a53374830) (-0xb9042f04c6b79bfbeb4d4a937eba11556bbc27b8bf238baa27726f6b5e5c1e640269673cb78e7dad6523ddcaf42841,-0x6443d56d28babcc3994b2887b90877eeda367bd8a327c9b20eb6207668f0af78d0d213073aca2e27608a4f348a29de);
  Step false (0x10b916005fc2476498beed417afa88358fa085d4db1d9e6f864b49b4b96dc11dcb31a6b2f313b674fee5c83040549617,0x185827ff9e3c833ac46e1e1674a0ba0ae49290dd243bdc6145d1d4d76b0b03b8d7da125b0a5f1bacd2bc2f38d4e1a34d) (0x94dabbd9b9e826d7aea54835d3464c8ae82c318cfb19a5048273487af65402b888703a65547a63f16b45139e4c7c598,0xf2141ac7e2f7e0c8e670e66d54bcbdf0b77780d84089982edfe59823a0d108cf5fb06a38fb8c6b64ecfc009b3a6dd3d) (0x1132e4cf2c69416c77ad766ecfff48506973bd565a8a592312141923f097794aa1c13e6e39ff895b0afea21216666047,0x3c75726d41e6997806dfe79050487684d8f5370ab77a95f9d2b9045f54047184ad18e71ad8c6613fb320a850221d8ec) (0x111ca854426785a15d451835c3f19cbd42b4aa6e5003de93bfbb292e70d63e17411bdecb57a41bcfb6d1666e0784677f,0x1a1e69d010124275fdc44389a8c8c797dec14fcbd57192ab6838357974eff2c22c9a0801c0c77ca7e8494e9ea4cdf148) (0xc093f24aee5f5a5eb1a993e6da8fe75c9c12d2d6eefe56ce0797a02442b76399dee0b75fde4b8c967031b74d6cee522,-0x1f4fa8529d3d719f79ae95f870f5ba747ccde89d6774a86880a4064dc089c9236ccd7f29f25aeef26c364720bd29007b) (-0x35a2957022202e8ab381d132370270304f352e9a2dcf1934b05bed23d3287f02a58472f23a579e125f027067cd98e33,0xe0a7120dec72f71d7f98d51d49949671d7a34b1a97be896b0a6152493a3d7eb57f01c504caea065e7a82b41d05c85fe);
  Step false (0x1274aa625858db0bb675b3bfaf508b2248a1fe6ffc5d18d0da3e0d01e0bbb52a301585cf3ce32e18da41a2016fbf41b1,0xcd9b76612194b440cbd9c67af3784151a3a1a7585c177cf0df8603dfa938bc22d0aa98e4cbc0be362614fff6f6d4898) (0x15c66c7902935de8c9cdc737e79868cc4bad7e120e4cb1b78b7de4f7c77e91d13a752505a19b2386d05701a8512022e1,0x1636b7c76e828f28f97475ecfe596dd4b50be90e6c2af76ffb11b9719a38a0f78442fa6553e12af58606f8ea9ac065c3) (0xac8bdffeac5c49dd5c87bbf66b463d56ca78595ddb14d85997c33d6fde74757e78b8efb3d2aec03f0aa4e54c55ddb93,0x136736a99079e25218cd3c4ee86cacac9fecf6bc9c1905ca745c9d28d895c5fc3568f14e546ac2ad7def1aa2a9cf1f10) (0x251a0ac0597a5b3114f98da1f6724831bc2b950efdbad787b7760af24405baeb9314536a63bf0f6d4b133049e759505b,-0xa1dada3b6b466cffd5bbbf0bd10533b656df1f74464a1b5b8951b6054d4b9f9edfb1665e43c2fba7445b695696f35f8) (-0x6bf8578cde5c639d6be4b6aaece0bcfe658412f59f06f7ffdd95929739548ebb9864ce65849808c2bb4891cc8fb7c30,-0x123d909619d38f2c4189e326b0f449a9376fe0dfb05042060b1f2044d8017c7714938346b7bda3be5d66fc22741155d9) (0x559cf2a1c5749b1cc5b0b6392a8ed90c8300a8e956fa66ee71b0f72a65c912a72c23f823dbba180ad448d040b7c8e49,0xb30cfb689e1ac007c0c006a5cab9e4fde941ef4c0646af89923929e9c9444028f4e5a67648c0255516696c345fde9ee);
  Step false (0x232f7c41bf2d0ca9a4a656040864a9ec51fc3fceddf7498e96b0c22d39fbbbe7f55d6bc35a50965750c7716c237772d,0x126b7366a9ba4cdc1648b905eb2d53ffa24eaa0527809305911e6efcf7cc8f0983f3a122ebd5d6880bc93e525c5283bd) (0xe93cdde311aa77dea025f11f0b4e468c3f842d0250c46e34e13e7c7b2ab14e92c7cfae008613de0284fe7967ab385de,0x180bd71d0bb91936481df765dd5b3fe82053f392876ae0b5d0ae76f88385735c9020d165318d807c3c4e0be81a53ad73) (0x60be112f606624dad4e33a1e6687e48e5d2090504c530b4fc32eba2d1ca7036ea40d7cb831d3b1dbd3101223b91282,0x55355df303de0cc2ebcda267892ade7841da3140caaa7b1abecfc3c745815ddd88643a9a49d5ff47cff4ba7315eb139) (-0x17701e15e0d3ff1a04d342681597579e490603f0789312c842449fa20fb8bc9a91c8c342ca169bcd032e33cb51faf6ce,-0x5d0c16cc8183134c2c3406ce2ca4a04700a7fb78b90d2cacdaf105e69d92ba51ba987cbe77583bd36afc5a777496b4ec) (0xcdc85665046b25e45ccf0f805f372ea0e661a174ad91df5d938fb8e794ae0b6436a3190dd4cc288c23f316eacc5b5c0,-0x31d8acdbdc717e83a3b68043da70572edf9d84945d8a72cb2fed645cada514aeea534e322cb113ca04a20f86903a86b) (-0x1e81f1c10dbffcdd2733072e69280e3a834dbc6afc98c46d3b3fd74a5f34605d5916910dfedfeb585f2f2a1476d2826,-0x4f1861c81bda6b22da6728b24606335aa34ed69469bc4aeeadfab6cef16c13d2fbe4263ec1e7a52c0f88353e2d8adfa);
  Step false (0x3c52126f27d2dd758ab077088f758a89df448c1dd45282d9c2237332a12d63f617991e090b1d3aaedd7ae3ae5ef62ec,0x19ee364564c01cbdf0bd4257877b0d7e053d12f91fa49c91b79fc38b4398e2af5a4ac3f48bf85f2a28b11ffbcc48f29d) (0x170788f3ca420877e215a0955c78ad1af4d8c98a25bd1c502a230e0e291e816c0db7a5d28d0a1eabaa86889c53c12950,0x330bd3b43fc41c4fc7a33aa64158d43d03a3d9403bf6230f0476340a69297400b522b9eb9082dcc27ab76088c724c4) (0xa520c84827eea60ecee36c55ce365c7e4d5cdb64f2dacbb45a115a7394fc2c8274fedae3b69bf8b7e46b6f8e3e3c22b,0x1915337a7c5b970bed41146bea63f4efe840cf56fcded11bb7d991aa1d3f3c51b8fbe5dfc33904a857392c8ef1742663) (0x1fae417c9e3ee7404588fd6aeadcc816bfd32784c1b7ec0d8c02e7033eee4a3b844342a282a5b799268eeac31ce8699f,-0x4e94b63b352977fcefddd2d20aeb54f490f974f6d4fb1fa7ccd620907f7abf2637684d898165f0aaed259c6a05863b70) (0x194f7c19f25430d89aea08b668d2f204364ae39a2e4a713c22e2ac9c7e9d6a063aceca467e96b2815c6406df04da9f4f,-0x784ca7fb110c68c1d3def9982d4f4391b87795ac2849f0a66f9897d0a74fad95df6f8d5ef97be098caabfe8034f116a) (0x190131b75cb7f25289ded650eba1488abe88cb0d9d4827b0a757b8e92f346663725d1624381d210d6b7fc8d3f8ad3548,0x4f88a33ff0bd03ffb5206e90643e59fcdf4527652712f908907e9f4de2599cbab1bdff073bd88fd7d8a352709158b96);
  Step false (0x287b1e39767a3c2d102a8257d4c97a8e9d64c41cf2dffa1ce9896e5addb637375420be149369971c3fc33245bb7b9cb,0xdccc3a8b263abdc2c1112a2ba4e1537236425a49e10a76b09b6128f5e000427659557e16f6e6c10c2da68b535025ac5) (0x8531a149f0da685ae9cc5132325762e65247f43f4096ce25d89c04163310e6231593d0d7deb2422dafd08085ee9028a,0x194d3940b0848bd8aa004105d99f73e8bafa2de6753ef80bc0b46d455ef748eebb715014c15559a6a2cc8826c96856ad) (0x36897655af8cdf39cce47b0629f3f446e556d531fc36ebf369aa3d0c701c149ea814428f2d5faea33cd025f68c55998,0x17856d2e1b654f3fb3d8a09341a6a589bb67ae280c50f5075910e62b7a0c566bf82a14c734cd611889123f9c0c1a3364) (-0x55cb3f6d7cbc40ae76e703a6dbc68928bc710aa2bafa774f1aa96d2dc535f9539771fd793f60a39252be98e61486e8f4,0xec668bc36740940d1b60f818215abb788dfa480b0e73c4425414cd10531e34928556ff04705a31832448e8e63fb4510) (0x713bec87a3a8434f8f1b673f31d40aa7c0b39f095f203597f8dd186dda8e995092706e27b1fecb30cade6643d363d5e,-0x2af6f81610dcd6f543501d471e16e7a602ecbb2d1a843e9f691d7bccec6c558662931aef0099bade6daeeaf7f7f2aab) (-0xec07e0e8fddc67eacb8f8686b6c443baf883bf9874d3e85ba636e74e567d3e4b3c0f16f164474bd8ba8fbcab4c622a4,-0x55c793bc70da6bcc6c1fdbd3fdab25ab06f4abafaf94901f91aaa7758197259266ffa23e7b5fbdf7ff6b87cd5026b7c);
  Step false (0xeba32ca0fdf04b16e700d02d09be055097f3f4285b74b299e633711f24267eeff96b84c9658e94dff575b044fd12535,0x1853f7c388088cef95618ee7fc016b0e19f5a9dafe6150af099ff3b68fe53867aeee330edac31a776bf2f2a7eb8d07b1) (0x1053e872db1c057035a40767ee586f884c107dc88d258b50218f26cd403e69879d7f1dd1a2f3b6d5993407eb22b4a12a,0x8ff738239c5825cb9b862bf75817ec68d702039c78327cf3960cc98adc554027cf365d311c8c1fa6a1358cef8641d22) (0x7a3c79e7e75b224b305718632d5d678832dbfb3b841288991c83b96bcb345cf206cc9e0fe55683a448d00dd20e9e4fc,0x95e770ee35ecebfe60db421e394f0785eab9be52791b0b64d93041a8f35d0c733a3dfb4a13896713b00203b5eec8a7b) (0x19b5d37e005876cf4bd99dcd5fa99c41a38c1704ddc357136b9006dbb8ee1b23ec73297be90132a5d62285305094b4a5,-0xf9411a241d2edcd2e4997c4cb676ee349eeef71dde4dfaf135b4aa83b4639d8410e1ab5d3692ab305d1c177a2062fdc) (0xe6b4aae55b57f7710a70f7ac8f637190b0206d45627fc48cdadf300023b288e4f28e012232cd0c3e8780607d04e54f2,-0x1b8e5b685dd7ac4594b38ca2614a8ed096e1072006fea4c11fe03a52da37e494a4bd40cd3a93df8afc8456db57acac6a) (0x13c911f13f0a1688aa9bcb8f701c2c51cc31e1a8ba027e785b181cdbffca4cc32bedc9845c89c3f22455ea0a4bc2636d,-0x1bf0d1f4bc7f028ae4b1982cd90699dc365b87faeae29123a779dd11bf2f27cd997ebb5f8ed25f2daa766fd190aa2d8);
  Step false (0x10e5f821e745ef290f77339938e8c939bcfc597914fa0bc4ea7d0b2339e762ea1d7417bc1393c1940f25665663934fc8,0x14df29fafe098da44c7fd336e97eb8687dab2a2a640c57f41257c93b17f3e38108e6f373fb68057499c7406aa1ace48) (0xe9674170eb5468ca77b6d9fe253935febd2cff6eba81ccb90f6b82b8f5b93d0263e58aa581e29c5665faf9381713903,0x17ed3d69702f01d32330f4b5b6b35b03083cbd0bb191cffa4d06610b75697e38e108bcb56476e5f21b95e36f2c0a241a) (0x7f81ab1b421fc24789c64f10f442edad6639168152f20586ff9a15b54ed85119839fa93a0117e68297fe5e3db6ab4c5,0x5d83e93abb1bbd106aeff847868f89a5f7038b39f2275142b1940089705246cb2a3e0da5d786b70de099af0d53e7450) (-0xc6d42782dbd77e2143eeabde67aa9a3a749b9abf41d80b2ea1a32d93d812b9c2892d78c1995a8284dd388395fa1cbb0,-0x14f478766747c0bacc0b44d66ecd1db86daf1c52f4e3ec578e5c5a7832ca70fb579db0672cebdfbb9081d87df38ef498) (-0xaea6559267631022e96ddc1f592adf360ef5263bcc4529f7db536254874e39a4c9fc6650774a17e045a1a67348ad5fb,-0x1b204e288dddacb7e689adf98c4d81510c4221197fe0461ed22a9f9da0b22ea3a20675941fee8149e3536c093972666) (-0x1e1300e5555f08a3f5a0ba24e14fef135e33ed587b33fad951639e77d9b258b91486c8ddd855d832dce7ce59d76fa65,0x99d2b8e52e81d8f3b6544af0c8745c826ae9e17cea5a502dd75a94db3db2484f452db45778d4102074d5fa9c1d5e2b9);
  Step false (0x10ff70c91cbb8869a0659bf2337805ebca15d19f40277942937c0d4560eae2eee4b7ce1e54863ab6d50bc9ff4874b6e6,0x1951ff3142b9a208e5e69e5942f145b0f85554ee195ae299cddbe3decddda92adfd9039a7b3cfe640c29faece9a85e53) (0xd9c5ea295de9a3f5ea0595df0ebd7887de889db875b4a034edcf164dec2178134db4d9654eb92f9d815fdc91743f908,0x956a31e49f95459cc773cd006e766355b218aff0b6bdf8ffc7e928e30b3ad58bc412264f511b89803e8da0b579f65ce) (0xcbe6d57a346b10667f189dd98b10a4e0a624bc3e6a84fb932fc232bcea1100798e47c8877206587ee33b6bdece80fdf,0x6a06971d844eb83f12e9e3794b801a8ace49f5641bbdef466a8d0d6518cf36b8aadafd3f33a5942591d80aa879ffeea) (0x288825ecefa68be4ddafa4ad718c9ec1cec03d343905cc59fc97db26c032cd40068e396fd8c771f808ebc73f1cee27c7,-0x395fb18e06704384abc24fe5a2f0b27ba673db4edfeea99e968bb4c702848b5e7217c339ac02efdddca89397d893e702) (0xd8b2da02eb23c4771210a7fffb6ad3231ebf07ba7c0ef9a3d2ca21aae3b76728791399a2c22d6d6f871127e602be9f9,-0x211a016ce7473cf7153847fe2d73495ae7274311e1348a1d6a3ec640886e84ff07337cf515d933a27dfc23f4ade97966) (0xd90eb01ef192322bd84787a0fcbad84d1a5064466e5f4fcb8cc3f001ab48c46bc7197e7e9f808220dba4a1597bd5552,-0xa7ca7fcb48a8789c93d864f2bd86a9146efe0e5c029b9fc61877f102165494410939fc39c09af9b6207e818b83a604d);
  Step false (0x15d2f6b35415870ddc7054f2e32a1465866e01898f1f3b142c02b4ccd505fbbb8d8bd06421805f763874894483dc214c,0x183abed5b2d1d128fa596426b89ca852d2ba8b3590cd530181c4e72fdd8802ef73ab15eff6749d4bc9865ee9e261110a) (0x87516fbb1af065f27ac50de4585faeaafd27f1f16c9a4c59c76370e5df9caf98a46855d2e873038db314a2476bd4358,0x1bf3592620da2234185b7d2babe80a7968495dc1c74567ce380bc497660a5ce86718be11cd96bb52fb3f6000b6c110e) (0xfff368c33e6d5cb983e92b1c853124ecaacbdd02a9147a84b74541d1d8e5a0ff868d767c6cabcdc7004df9258cda57b,0x17c4824b7500bf9e3094f29b2b9c0eec1fc3da37b4aa08af9734348bc5c0e6cdddc5fd1061fc28ad4ddc783d3af35a2c) (-0x244fff24a51b6f12e48a36a68c0fa78660182de5089d34172cd297f397c4e6b091488b51c1249dced563ca504218dfc,0x58b4e04736d780871a06bf0040422b760d916b322051004c46f5194a02595a3ea26ed6a526987d36310e152791dbf34) (0x4428d9500fa07dfef1a131ba1831028fcfad717e84329cfd93d8d6e65cc0d026cadb91418c742bc72a36ffc24c891b4,-0x28ab5759439891156348fe7ea94cdb435093aef3d75b2713f8cb369be8120c2bd9279b247184782520e9b5a42f757fd2) (0x2bf95f64c49cb7ef3abb334ee1ecfb7f8a7bd24f6ba43cf97eb9f3f1df75807fe4ca4c161e4ed05c47e1f6d93186dce,-0xb2c4528175fa73607720f20b1311c32d42e65f470a0c35377e990ec9d750a0502a3d046a71af992fd53ad95062d0a5e);
  Step false (0xab36c91eeeaabb24820b390406d92af351a91a43b294110a69e73a9a0f2894ad32c28d81f078a90be515d55a39025dd,0x1029fa62305109a4d20176b9533e34319846e866ad7ddd36f64973cbec18695bfc945495873b5a72e8ea0e7d255b970a) (0xf92a1c58d202c57526e6d719a33ecabcb8d9cc83cbef351ff6f3e96d0840a0a29580ca0190b8c643950e852544695db,0xe9e7d71d40acdeda49f7cd1d87a405a7e70f6ebfec6b543de474ed193b693fa1ce30c15b2904e768cd211c8d9adfc74) (0x117aa09054e7eb803125d4cbd6a432501c28ffd1df7ff03d4cc83646afd684e90b14e87ab9c995a2e2d5c66498e97beb,0x15a14d95df9dd2c8c03e7e4229ee5062ce4dba9a15907e4d47a00672a2f5f7a56823480e2b96c623ebd257241cf028a1) (-0x18481677cc6315e57ce35730f8744b10860089c631625d6976f69303c94a018182fc9c395db2ea3d69c474ef0d19ea92,0x240a0b11c8140d848a7538a207c761a43c64b1d301803bf715aea59a83cd0c605a66d13f2677f4efcbf6d610466bd41c) (0x5a4d7b1e8a995c3003cf319593afe585948e80f74ea8330cb76975dbe88107ca2d2af568bb23f17747097ad53b2d872,-0xd4d9afd61203015d1aa15bcbf43d9f524e18ee9e1c19ab0a79539314c58bec7ea8cab9a963c2060dd4afefcb7aca61c) (-0x512be35028045d58ba85f3499470bc8fe84b62a4ed5ee91f425836acae22d9be5fb3b3f52ba221c3895c2a0ade7317d,0x9b84867a6373e68cab39be5838ace724b31589aa918b615e06597c362252c742507760b965aa9d20a1c68ea7d4be1eb);
  Step false (0x8bda1d762c986632aeaca1e09c08bb4fe0abcaefc921a404b66f01a40c86e83fded68478deb02d48f2ee3be7ae899ed,0x6d4fe75b0153bdec12dba827c67f5884f061f219cb8ff55faddee2a55b5154b35e2696672be08cacb4795f5ddd8497f) (0x27fa51406fb44dd5bfd5034ef3cae831267e470f42dcba7329c6f93df420fabc0ecf85953fa5418eecac593edb7d55d,0x1134cc87b74ebbfe0aadaa68eaaccbeeba46a205c978cb43ef942c4c9f3f4aa429608a1c1be6637f60e7c83810d69c4) (0x91fde46ec27934e4ccaab0329566a9f8b11241238e8a98d8b2e037da11a02ea7488c63ab85c9640ca6ebd28d59c46c6,0xd56a80415b5e3f7114b2b05af85858583cf89e677aaefdec99db01608a669c720772492bed03019615bfaf53280dc55) (-0x2efe01c1c74e603baa3e26efca34c7ac24ee6f849bf5ad296c16027f02accda872de96a1ec7cfa4a4d4a4d0f7031af1,-0x1ccd969e8283eb084b53d32e1deccbd40858bb620da5ae3a36e158374b5bdac0c02a44d1c67b3e16bcec1d50b17eba6c) (-0x1249fb8dc1c04babd181fc1979103c1203e78df278635db25aa9fbf438e5e86e758008231629e9778526c06394a65ff,-0x497c62b9b6afbabe15cd8f9ba125ec20617fa558c044da42890a5e1cc3b5f49a2809f3a0fc4a26a5d61007689b7816e) (-0xd617c8a16b304401e3df9216b0ff9a3b7250de9864406ca19bd78cfa9d2c14336d7a3f25cce3987547d9c5f6915fef,-0x7fcc4544d67483d7e990bbbf2b156de4a403786c0544bcc937af566e36d151f85679b31bc8f8ea3dcf9e2c00caa2d74);
  Step false (0x5a79df85b0a96adf6e2dab8a322ce58631513aed92ce0df838145c7842da8419fcaba0e89eec90cedffb5559d9f7cd6,0x11b7c924610a8268c34b8259fb3d98acbbe375c161f9d2a8712f911d31ea73387b467687f36133a552f9211634fe2feb) (0x158a4645517617f5d2a20aa9a57f276c33e1bbdd04c93791697fce98e13f565984372d22ea054106580d8caecd8ac688,0xc098f66c1558c26e74700f1c2afa37183347cde41ab90ccee542aea809f9c6a6e756c135d3ce76c3738e3052a79e1ca) (0x8d3c2793df6ebc9d0ce1ade71f9c847c416acf9cd57ef3e6cf5312bb462fee2369558bc65af222c0133e3aade12ad1a,0x20f3a5ed9bce236c7cc5270b4b83afc619f15b738a0461c0d1fb5110bc432b5c8340545854e03046da2554af232bf95) (-0xecb7957dfce4ab9e0ea25ad75d06f142f536e49587921dbe1a8879b27353307ad053e3bd45c050a628212ee5a577893,0x119d70bdd41aac617499228930a59993c6a5393de79b41bbecc6dd15b9d5891d8949e442f01101fc9eda24902e5f0938) (0xad7a8ba701416f66d6fddf441a0f74a5ee99d597459c5111f1a8bc1624989045b1ec6554e0cc9251e3a017810fcb045,-0x7b4a9f58f2931358c9f34bea483e09cb3f847c44898fc1e2f5f88e764f3e990be32eaeb93dba1efd59893dc7ae12eb6) (-0x35406b40643740fb84819e8f2f9d5e515375910280886d2124ab08645bef306f20e41480f10e37e7e1e0b5a821eb110,0xf5b8f31f1a6b675cce2e82b15c88ce33c2387b71c966244d83c355c2034186eade9c193cd9480bf0fb842e59da86135);
  Step false (0x1971f0b4a71e609b35922e78337b308d7d37a5e715e2c6a7544aef13d7757e76ac4a6a2ca05df784a5a683833d2e1464,0x503aa962b29d72a5d9f6cf2771a45a92c45f43bb070b7fd3fe5162dcc95efeedb645acb9afd8643829c2749745e919d) (0x185de9b993ab19c2b4561d61e9647770138b4839a8ac0f0f860bfa9ad2ed8480d08560481381f87f2e22332b4dd332ac,0x14a0f738c1a19040116fc927c23a180aafc5d404d172065afa31bb647d85e906e57c919e2f7f33416b5e00cc34f5a9fb) (0xe2c55e96b89000aef70d32cc3c2db8496adebfd97f2e4d87611e604148c69adaaab92ec6bd91164e1a0a74f0f31de16,0xec26cfb52f34a0cbb3973c43d0aa47d28c70eae5fe25df393874b96dd36f2cd507e8867085b7d1f0a3c67de4e18e5d6) (-0x145497194cef0c66248529147fee3b3ddf8231693bc32c1448168022c517b6b07fe509113cfdd9002e92979f74a30b12,-0x346415f1c5a35643bb9b8288db68ba20616c6377f3f5ce15403d3786040828aac0942404a420c0963076c04cf40124bc) (-0x17ee5c965e5b023961f57c87c4f8f89ef55a2f4031280fb730545f04521a7f3e60db64dbec1fffaae0ed94e006b86721,-0x9d0224e36559e9b875044aec31fb55a6aea667092ac16c157b28470d31aa4e7e320e243e2104b4d35c475187eb9974b) (0x11bf95a34e47b1c29576696bacb98c4529e33ee7a8378b063fdfc980f801a21ac1d61fef5c883ec0867383793233699,0x8f3a7a46f4bd6c6317d4e4b8e80bde93429c0902cd57e025d84b3ae727fb0f7bb2ddeb84b8dd5aec19953b64ad827e9);
  Step false (0x1657a4b33e1400ef6e296282ea313e60d4b8240679b0175efcbc9d2df3136cbd1a372ac4bb42fc51b2f0d50a3d7a6796,0x10992497f5f8bf44511213229f6a20404576105e15a4930cab44b72c1fc2f89b5eaa0345af91b402ecc6cf1a742796cf) (0x1556ee82a9a1e6c50fa3381519022c32e458747da7dd9afe53b56e8ef18e6f8bde755859d3ca3aecbfe36cac247c44f,0x8a9468f18b5858f52b21ff26c97d6ed69ab563e3bdef566c433f769ed5a5df526c765029c030e773ef2b796c669db7f) (0x31be86fecd7a2f2382af667df4a388726896349bbda2bea5a5fe0342dae82cc6b842c8646b9a28d619697c847af159d,0x7bc7b6b60b570b15027596d3fb4aeb5802a772d372d7e59ea520a8a1eee54cf7f6dba40b136bf6e382aa7ac91cf47f3) (-0xde422f200752ac53be8b578b17d5590e11e64d9f1ebda9074f75e4bc94a64ff2a6b0153aaaa5ec55e909acc8c8b0a13,-0x48862412f39081a4485acd47f5314f56c91e330cb8d9b82797a2fca09768095f5c8e4174d79086d04ec71f9fedc4b074) (-0x89a0916669b77042951a904c4232a58fc5cb00f66214b50a381d8798a9b476e778c74c30c164ce802ee64a051b3f494,-0x1c8595d7972e73ddc9061763365c00884eeff55ce977179bcbcf2fb186049ae87656504e7f2e296444d71cacdd7f575d) (-0xc26a225f682479480fa8b9f218252f57441e25aec41fd526921142d0a25ab8f127446dad6ca37a2bb73692488708a95,-0x18fbefdd9275b7c4335b4a2567bae406db0a46fa7418161ce6acc207d527a046035cf85662921f7848df33cf0b7d4a36);
  Step false (0x16691c1bdf57ba041abb3d97c8d34c6b4580edfc55e023b1234a9695204bd44f55ea4de60e51e461db9c85f42519fea6,0xcfbf5ccb325675b1a3becefdee4fe1d3c64b3fedec5632647f7df16fff0877b21676607a81022cb0b3b0c523ae71819) (0xe3d16f15a8680dc2a565ed7dbd32299fa5544cce40dc839f600b61a45d1df111411152950afca9e6b6cbd5c87371ff8,0x663fdee9650955745f6d7a1683fd47f10985874a054dffc9537a583d98b2b7b1901ceb3f6c1aeae17a78cedebb8e21a) (0x61d089c02657322ee49c00c1ab25355bd745170fa125335278e823ae9a87c82cc8076f9504796fd6d30401272841202,0x12169585fc2b4e62240a84acafc13f0d5deb8af64134d693ace0b4d79996df2a823c7a031bba6039f034cecd2ffe3757) (0x61512802ad5789610f17aba36431475aa56cb172f3096b05513f2787d0aa281899a90e6a1337cee3c7ea3d384912012,0xdc6127ffe85fae3e451eefa3c5f04e7602cfc8d27be7db909e23db6a11981b09f4531b9ec8010525ca1605c08f00ff8) (-0xcd495f93140c9d6df0e4138652da501b89578baddbc6113a1162b6fbcc28730489bd6b1ce17e1629ac6ca1ded8869d7,-0x1661397c1481c1de05a54eb6b59cabdf6edaa7a88857c7f4eb49b0684dcef9d76cbfc4e619e33dbaf4d03d13138ac9fc) (0xc415b52aff087496e974e009d17acf542b4f45d464d64ac84ceff9f984e540009709f5e35ea3e8941c91437c52e4836,0x47c9a7e2f038d0ef148646d36eba67af4b703cbe0482e99038e69211fb4d24b21f8052c044269eb22d9d878518117e7);
  Step false (0xe743528ce0c94e1a76f2f6006448cecfde912a7d2029dbcc74774ca1af660eaed4d832930d36077b6d0262e218111c1,0x133d21c52017365921207d63c8fb346621601764fa91b40acd681358d077b827cc148be2e1f8a574cee0dad622d6fead) (0xa8be7bc77154f26d9bf95af52c92fc4865755edf8d9e5319ce292e055f9c1f0a49a4c37b80123cdd589d5665c0c11,0x127c0657edabe82919c403c345fff77739ca174bea6aacb1da79d4b1bf5ddace0d339a70b0fabe106ad642e178ac6a8c) (0x5686a38d8baed947e365b5d131110ec339b1403218227d449ca8d17dc23a9517541b9b41346cb51c8bf31aafe01f21a,0x762f3e7b78634104f534897f1d68f74c849c57253b3b08f2adcd8eab52ba2a7eaa3c5e475730071bee0cce6d59f6dd8) (-0x26a56c05499d9c9273ab1cd470a590140a6c64eb99dd7ed2f8bb8e300bd78bfa70f880952b0d157a715d91d0137ed032,0x828a3999466c60fd061353c392fe19168615653f1eacc6f42eb1d9ce37716ff91281f06bb8bd51c70f6a4a57cc09846) (0x63317c050924287ecb07fd352ca65750cb6507255f09257d1020568c8d2e69ece7183fe6452e396ebe94a1f23298c3b,-0x156315ab1ae2f63de92c687cf8bee8367f823db0bc86cd035d6493ec3ab3926a7ab7d7492529d9af73f2e8cd82fe644e) (-0x10d6bed95a88332e0fadf9b3e731aad201cad5e6c7817579e5368aed8ebfb793715b50bfe62473ab21b619bf3d17ef3f,-0x3c816ec1a7e63dffc282088d82bec35ca44744cf25ebebbb48e1ffa310cb122443c7e77da491a6190fa966f9e73afee);
  Step false (0x1902b1e10713c8d95829b014d6b5d3a93563b2103c29cec1e7983befc104f7bd4886ad3a08f8bf2310745715d8e60675,0x142c2105c569b0e7aee457f14605027ef09f9b7d03fcc1c2c81c0dc22eff61dca36ea27f392c934ad398e9471a2a3e6f) (0x419fb0937bbd636c25e2e59f10f12a38811e847d1a169ecef0b231b2a9064cd2152a20a644ab031921df27f4bccc35a,0x6bf23d9bd71e3237ac47e53efae0b77165c9122387dd77c22ad2d912fb72bf9886e7f9c667a79c002ed47263a809ec4) (0x51c8c231c61476517bc208ce0273be4e4cb4184e44362e9501c41b421b8cf78f0dc2c54b1a00b0d006f8534ac1a6f81,0xc5f9e83d4e6d943c6678f66e742e418f0827b1546329e493a410593ee2a0f6d96ee804ab60e1d538fab5f7c08beb65f) (0x265c2bd0f0fee929a0dddf996da62b2941cf77404ed9eb0274eef3a35f1a9df8451fde27b61662a3546ef32259eea643,0x166c4b715cc245ad528ce84cecf44295ca3febd2aebb70680cce212c47f2e6d8fe3a1ff79905460ec9ee02785e75ba9c) (-0x86809ef4d0df469eda6146151a2c4fbea93ca1f7b6d11129237246b77ede6aef3302b5691308ddb7ee5ec703444a594,-0x26cd9a21311221847521bdd1082633b02249049fcc94e70a5fd32376dd522c221218abe1c8aff3b0caef6295203c74ce) (0xd02b69d593c4aed5f935560f89eca0a1033e6830a871a10ff8245bd6ec4247150cd86311a894c9e4d511e3e300cf710,-0x823bcdf05b484adb106405cefc8f4e7d986d52c7b54c2f368bafffa91258c09eeda37ae0d8bd703f9489b80023c969e);
  Step false (0x27b1b3c904791e3fa942dcd803b24ff12a9cd7524a26b87c8dd9dfb56ea54ca5c9d26e68acd42eff277e12a1c665cd8,0x162f5c264c2d2728aaa1f652ee6cbf6da2000115b0cca0d89754d630e027f9217dd0fba67a880435688221e820d4164e) (0x74fb149a1e9e3128a2237c95374190d9fe89ccaafaaf2dcd78bd852c6e34cf684efd504c3e70d90c8fb49a748a774ba,0xd6d0e044ed0a8efed41055f34881ba096a6b47ac3a199afa5ebadeca8dff1422198af551082a34a962abcf26aaba50f) (0x3846aadf2ea94ebb45868617a7dc1cf8bcf20e32c7b26fd081dcf585a20b7d986b39835392b3c4d217412683d3b1543,0x113a2dc85512506e8df13898bb7a2ef96c65e4a1ee7b9c00b18512867e8bba3e31f20e9bf42430209c73c38dc9f8479f) (-0x10d3a58bfd3f68c94416741bc96f7fcafb080238432e87e22e6771b791d3f461fc1dfe54c7e4fbf26fa1e9819d491ed0,0x4b2a8fe165f9f4aea3b6ad3e66a6f62013c9dee40d1855654ada6c1a57ff5e0b732a28769ba4fdf503133e6aef26c74) (0x12b0a726bb9ccce76374b229e6eea536b19b9b728cd0babae2d80fa915d674634d070355eeb1d76169d49b2c6f998ed6,-0x43ba8c6507350aa7a697f0c8ab2cdfcf4b63af4789e175bb65c25fdf5a7bf733dd9e38d3d6155402e8d16f8d855731b) (-0x564639a41bc34da71bdfac7636852ffc4d57d002a84302675439e9c22924cb250719e221cc1f25ed0232aacdcfc0d42,0x3602908f3e902e4d6265da3b5468879abb595780031644cbbcd62f4b955493cbb9d7b35f3d96c4a204e890ebb2ea592);
  Step false (0x13a3cf500109646aac4d69e33e86b7943ceda2cc678e671964192efc9a09299ad173b34e4a074239eac7dc93b8113ddd,0x12f734fc3463dc7adb90dccbbaeda04445ec73fe1fd859d6076071bd0d45623a4cfe964789c20af4b5a694d4d6d9d45d) (0x3320e9002deb089991754c3a41b7f6d058ab7c0a2c40983f0377d9acdb063db49ffb43663cabfb47f946a00851e5918,0x165a15eb901742ee9deae4c9639b68161556eee7edfe959e2c791df78becb1a744ccbcc115444bfd45e90b164301bebc) (0x143d4cd6fa17151e20b386b5ddfabd3f0f1e9e3cc4195232805563bbc3c4eeb922ac92a0f6527003faad18d3e810f174,0x88e28815a7ce2e8eac4b1a05a284a1284af58c832fcfe6a963b28e00c615947be9a0b7f24e1a7fa829e86a424d9aca5) (-0x52fec4d9b84107a47a2701eb9538965e706b42c46d071dc63acfaa8f9aa896becc72e95b69fd4d33674aa02935bfbe3,0x880e8f0b97c44c2d5733d4e3148d4aa3824dc07fd6efaf38f96ca510812a7668cb3f10cf68afda184de51d7f9328b70) (-0x1003e8fc2682b7a1d92cda78d2ae134b7e5258d7710c5a66eedac396b8913a60026d370c7b4e5f0c9da89f8f77eed5c,-0x1ca5dfd322eacc6e83aa1995ca6638fc57202a10b73b7968342ff5df83a85a4d349ec034e7cccb8175b654c28311d528) (-0x99e4fa5ca09a3fb41fc44aeefceb7623ba16abc2ed425dddc0cad1a68ca0e18f7bd3170949e3851ff5c9354b0bc11f4,0x3bd571f52f331e1916c45ddeac0ef71fc8edeba010e83b1864b98e9f0466d341c4c4757feca109120a20f27f2837149);
  Step false (0x65c82633f9d4d20c07f6ad4f79c2172e21b91ba79a5ea2dd1453a4587d6c2ca2341043e1ed40e3c2cfcc055cd4958d6,0x18a18bd0be954bbff600c7c1403276e7635ed1cd34473d3d086bc2e62775af5eae61d9aac8398341fc07277f183c17d5) (0x8aa114bd51c6e9202395bdb1c8f7c36d87c3292e8ca034eb9d65508854a85b6a671e1080c6718bab2bdebfc4104c20f,0x12e02eff69590e2de76cc72c55b210526abfd84665ed44fb7d984d083d291588acbb70dcbb6caea2d62857fee94a0ec4) (0xeef033cbf40fc0ced9776695de0286826e8ac042a75e25ed63009382f5ef328e96ad8fb11d77786f8a10776922b1f48,0xa7684143935315e1b960b0763d60dc567f3ecdb861983deda974d58763a84df3f28ebe77d91fde155b474a5a43a0768) (0x3227a63bd7fcb93a276da615fc24a1cd95d6f65c9b64a1ca4fef591cafdfd23daeba428ed1549973b7180086ae989e6a,0x1a0bfe085ca1d0c3888a1e97b7ffad8270d7ae16f2c786cf8879440f4339b494bbba04ebaba88262260ee3f5c65bcf6c) (0x15c6345c62c131a3a6daa4f93b7d576852cf4d6fb37388bda2c396019f53522402d2bbde0455641d0c46ae907710c9bc,-0xc0d087b49c2811ac7408675ee3db11c616ed43fe0e971b892a0a12fd6fd6fff59ee160f17a461228e76ad4b90b433a0) (0x4a164c9c2036a6da20fa0d4f575517a2fe6c5d9711cc7faee5b26ba957b2e2963b548c52cf1757809776a80970b39aa,0x4546364a4e861be20352e5291400874e4e8997cf36ad21a69965287d7913002572e636aa9f8a9f3f2ef65cca5caa3c0);
  Step false (0x31ae02e34d7d21957899dbef96a7955cf8a3345e89477c101ffc8c27a2046327376e250e6882416d7bc0be138e4eeb2,0x1900bee131450e7d7a914ea489fb49e1a36591a6b189f964d0a0095db108dfd24e92848f148232d34a8da37b7adc99a7) (0x11b33ce1ee68743fc4cf142cb4b8732a61f654f398e1f18d921babd209c11d436621b51d93fde2b8cfc3baec2529b5e8,0x9a51ac2b4dc7a8f9dde2cb5a11754b7aa294bfc81d2976ed2bf3c50db2a54184fdeef7f5a7fa8ef630a61b4fa7b0369) (0x151e7d2e50567453d4ce4e50010f99c0f4f36d2963a56760dbc55ba6fce67245c073850c843797f78056d40737e50721,0xaf348973c4f4d70b4f1124006ac6d55970c490d9c589c0231889ac7bd2de8d658066bd3cd676fc58dd006c17d61006f) (0xfe3baf16772acd47ca4ecee9dc415e48616f08e95ca17737eb70fdb303b0cb23192cf90b2905a48029d59e7e87cc5f7,-0x684ef7ede3014cf17c1e6b2376f19ce4f611518fbd666bcb0188f06ae66b2fafc5be872faea30f8bdce419ad8517d08) (0x17ab614c2a24754cce2c4277daa2bfb80810a86cba3b1d86ba7972b4af7b6179d85b3f7a6a6c019050eaadb284177399,-0x5f88a1c4c0a271a4def32e56867586c5840489432624acc9e5398d77bff9d7f47df9334ac25fbef3357291124842de1) (0x9f44a774ac78da1baaf150f1144c6c6862103be8b022b1dc8df0c3490b42bfe2990d2cbfa12fb3cd2eb6b76ee4db5f8,0x795f1c949e40bf8b7e688efbfa0a4c07638e4a50dd33651859e58260a12551a5fef454df951a062aad44509477ae460);
  Step false (0x141accc8970ace156fe95a366883383b5a445ca79fc407ee3f3bd12ca9ef48ef6199a7f46231a3597b09b6d5fda5c712,0x18b35a8fd65ba4cbd734a0eea368fc9a21efabd91ace37d98ff3e0c3028ea8f24ee6fb30e0c805067330b20430c585c8) (0x160f34cc50ff69afc0209b22f451441cb2b634fc17e30a112c290e1d10583cfb23d41ae3e030e85e678e249121bdb0ab,0x33e4ffde045cf9a648d650b49111d79c6e68b5bb1cd1a8008cef569e23cf1e429819ef584189dceb6b63ca1e3a5838e) (0x1380205308066fc2fcacceb5ff29c3b4cf5830c248c0478ed03e7c56ee46a14def264cd75157368eb1031c7c9125c702,0x16a91948def9ae3b2d0e9f49e3c582d18d63f1729832cedb636160a514afc0c75b4aadf6366bc1620dda6f5e948c7545) (-0xd8f0b895eb27d4a7e7b02185a4167b0e5c3a7fed17522ad0abd65c3834649c40c235ae195fba96da203972fa7be690b,0x11a9be6b6125259aa27441ac00feb2b69cd0e1fc4bbcd83d37d34d316dd5a871f353a9cab719b999c0cb6562ec5042b4) (0x7eb34c5d06e68d7f9cfe819f7b7dd92f699e2cc8b6e2e301b667688123a45476efc9d3669a76816cc8fe71d05c1a265,-0x263195fc0f9630a0f92bc3ab41c2657d0b32ebedfcb0faa39afed54596b7c1b62bc9311c47406c6c6f5ab4d63828a140) (0x9736e97ca38ce375eae6ffb137dff0208876279c9d0c19fc167c1aada8c684d5102b889d661464939617d596c3f0cd3,-0xcefa8d216375539c2168b2e11f4b9adc01f4415d5020ada631830be443ddaf1e61d9fe99254c0ce0522d5a7516a80e);
  Step false (0xaaafef3c4298542248b3a58135c684f9ac0e0a34315e044a7d66db543d3c6a626f79dea7ee6a5f3ce669de80b52ba42,0x13d96385b510deff2f4d1d32ee0060a937926e9b6d6adb90abac56946f0699334fa765e60e0b267ea1f8e8dc2b83d62e) (0xaebbcddade83930c914f62740e8c8f8217af03cfeca20fe9e6106e4e78309ae6882d668a74f556c2d52a7a6519fc2d0,0x5cc1b286467f1e3bb77842d8794e93969054e1ddb3ca9a4afca6f1570a3cb3d89017c1ff1a925d50db14378dc7a80ab) (0xe951ee431e6d9bd3079d65144c72f2c9604e06032d65ac759279a623e08158061b98f174bd6a923e86e9d7557bd045c,0xae30fd625fb8ea1877bcca797a135f462384667d23d21675610d964f172ed58067ffffbf424ae848166ce7b410d103d) (-0x49850674dc66638c0274a7f129f2e0108f843be48150301de3579bab49e5f00b531ef9a3e80bcbd788c421ed25e55e69,0x1fda99ccefb0e90109a33892fb1e9285c65200073ee5232d4bf05a08db89e801af3911faa75e5b26d184beeb0099cb90) (0xac64be9dec920a33645d60bad4298e3b9efa94c8a1b571e15c2bcb2353715cb5a001029f2b12661184240e88eee5232,-0x10492d57530d8bd0f1f25c8b88afd0c3dab8f3048e91df83b7bc304e5d7d3cc4cf875a804874c7774ee72351da8a3fd3) (-0x684d4df58f794feba5e1e6173f8c511dd54cae06092d43436bf80b4b79071d284dd4b2bfde60c428c2b0ad1d3651aea,-0x7745579701dce3d8a79a5bafa73a779cf3e88ab70046f52e9adadb8cd55144da4ae7025c3dbf9fae8ca346575d2e31a);
  Step false (0xfc955cb99bde258d876019716b9fdec9340c8f3aefa561ca412df73ae5febbec296a5fb95db0469c00d953ee476c048,0x8fd02881a5331dfb0922a3b31368cfad1bcb8ef19b9d382fb88180286d20648b40806c083c7d7a804031b10c844d0cb) (0x18c6792daa5db1832b615c80ca7cb6602946ddd0e832a9b9c2dbf5edb806b2d248fafb7c154757f2c59c96fe2d11aa5a,0x132f39bcbd8574c13e2d8dfcc6704e3f3151b18ab2a00e1c472bb166245a189ced52b8ac2e2027d08cb1a2473c56e0f3) (0x76629746a2e182aa97a6a6580dcb949c6d324ad0e850b8623618f85e94048dc5120c9f962600c5d35615d52e8a1c0c1,0xd3ae2be83b3f6f4e349a1635a511c1b68d2efb77931320b9dcd8fd35d85c1d12168a0715bcd596b71eb41aa314bc1cc) (0x4c1e9d91ed7f0594a41734c7cb2b5f5b6d41ecf374b75cf3e17b3ab0485cf9f70377084372e764785d17253dc78c07,0x8b0f7d8ffe5f868e197eda4577bdecfded3724d84ac8300ac0ac3ec5ba56dd59d670bc86d0af1a4da3e1f837c58d3c8) (-0x67a0c59ad7196f5d17ce0d5b3b57a92bdc0a9ef352d1b8ec68bb4b9a6e76d76fac09025a0a4e1598379711b9ef029e7,-0xae9c46bebcfdf3741ad94d436019d08c3bbde6ec12bc2ba07d5e9f5285ae523a070ff5bcf2215859559c9d628ef2fb5) (0x3c88d0ae8d95eb3ba851eaaf9d8e3756aa1a783a161beff3bf2dbf72d181ff3250d95658d9fac309cc345750830a07f,0xcea71011bcccb5fc4d2720f60384e99e55c5ce42b7952495226c36232544b384f37c0c6a236271380391a6817a2e225);
  Step false (0x5b8f08ef767ca4cf5f36622b89e509fc5decaef9cb221f15b64b681867d0f5505b9f13931f476324f857ca9daa71d3f,0xa3b4aea7c32a8fc4d9a662b03710c6daa7cac50a8ca6de8554f99004f5b1f2a21b026098f44b24a23750c8f0fa6270d) (0xbccbf91993c2c2aef0cb7376af8dd9a6bba4cf1dba188fef29de4834287855f6aca7c1bd6c033da218043dc8928e577,0x121de545d88ea623ea7d04eae99bf3f0d07c8ae9d72bfbd666e8a781d34bd2e312eab50e6428a3aef26092ca5095d9b0) (0xd989e0473474897f5f5e932ccc71c25d3934e64df718bee1dbdbe1db9c4d5339e03421a18cbf07722d6387a88db823f,0x8f5e8cc95bb36a2e0a5fa0ce86c77436926a62212d7abcd1467825fe8ad0bfdb4c706a696a6b20c2bd5591705c6ef5c) (-0x23821548fd07e4cc94f9979d4adfd59d5bbc8308710b7a64db2b1f3c0c3558a461678af7e6217654c737b07b44144201,-0x62059f98838c6fd2b404deb8ae4d90bcab30b897a6c76bd9f4f487834b22ec1edfa0216f9861676d3ce4b878946229b6) (0x2c437615d09f57210544e6148d64eb0cb740fbb55ee9c4b7536c4efb61f4c01f0bf5bf12a82f4cf12b6e3d267b491f9,-0x480ca89bd456d2b80e1fe2692588f77031df02a84fe0030ce0480be73fd6c88f672a8f29e552938f80386969f67ac70) (-0x26f6d41a2ebf4124fbc3cafaa1d4b37a13e8246a12a07eac55bf67974f50e07fa8929da847dbc6ff722a43ef6dbfd62,-0x5571d8051e7cdba8483959de4d9371704bdcfeae01adc056d8bb44e71ee2068c7e3798ad4436b9214976e6e707ccb94);
  Step false (0x9a64184b516425353d3342b7f1e2595a7bf3cb9644dc3a23ae401e3a2c43950dd3e14a5813cf8d46ec722731cb2e790,0xaf426e78303a8cf5a43520e362a12402d4cd3c50c5a5bc14b9c5ee3da9ae172d5612c391be4ad4c913b7f23ef8afc45) (0xb9bb19f31d1c2952edeccc28988e00452404c43f07e81116afb07d5ad863f708a3c7706d57411d60ee13c825d8908ba,0x7c09b3362c4be2b785eabd131444dfa86284f59c58b3a2d866368da4cd74b3222950bd257c224f3bab823898b1d1570) (0x119d9db332a2b72dc55f77710c7273b965d5796fda64ca14ce3e70a46f5c1316fb569b9d3bb0dc82c5d306bf0471fef,0x1805b045b829f1562414235b2a91080ca423a49445abddc233647df0c95974d49149f79973001910f2f7d013da92ea6c) (0x1857f44869c860f9ad585ad9fe2870933e709d9df7a916d07c24217368cd588b9450ec258ead5226439485193ce0ccff,-0x1f3869784b7f6a1bc34195b87681b5cc7710be3d36985772417e1bdc7cd0f965aa594c025f44ba53d3a8389de908a63e) (0x1088be0f2b4a159a230dc9a7b14a6a2934571f3715405fa0224a569a96121264863bb9fd4930da26c6f9ac25127a7c3,-0x821166fbfeb44f2290542214e257de48e1bcdc12831bf0d676da838d27992f4203a69d2ce55a65017200a82c252a070) (0x44b70a7cd0ef5b74a5b412ad202d73b138f114cf0e1adcb6c67629fd49b0fb41da8eaa797dcd43e5ec10c7cfce7765a,-0x3ed39dc66cdd7215f1f4bd3cc5ed42365833184e8b5af0ec40e7ab318a29465b2aa3a008b64ccbce04e87b313c17f7b);
  Step false (0xdd9144f8c45e6091a6714d772bf4739ae7b1a8652c823a2aca6cfb5457ca1adc99138fe3c31209a4897e0f66a542078,0xda6ef8b0ede3a09d1a5c00b21acf101ca7ff6cd9129e67a30ff4bdf679bd4a2b87fa34cc8942e9d5abaeec4938f2308) (0x5012490533403f64a7c18f0e0926324c229a426977e4f18b60dc8a849aab251cd54ffe9abc46d4a24d9c319fbc25c4d,0xf9ebed66d9ef246816812fac5f035b6d6f0326ea0fab67b6bba3386507a171d34a928897153839582c78262077c737a) (0x15e27c81e3028cff8d09679e4ff164cf8b7e4622053cadd8be81da63abe09c831f67a212b5b970e6a8e67b63260db809,0xf710e553b637cb936dd2c40636e965865a66e64fb45821fe46882fd83a2af75b26ad13e7b71848832aca888da2568f2) (-0x20a9a5b23de165748a90383b3f5f2acba7dc5931d20e078563e8515dfdd9758555eb2e2ff7d749a863ba6bce3678c354,0x5fa2e24b8349857dba4db823f43a963d63adc2adf56dac9505b727faa5b72d2363a0f88f2b7ada91e780d4d04b6fdd0) (-0x35073271837e87d4e9693b4084c8878ae90b9d4f96d4cdc93d4cf4de8b17946226815209a33f2f5f52eb3cbba8cebd,-0xe8a4e3b0f6ab8acf035a35171f5d9f479282be0d24f5ffc7dcd5331a3e5f45e8afc6d92dbfccdf660a2390686e6ab72) (-0x7a5ae880f807a5e9662ae32da2b31860e81ba9bdd0bde7404b6ac5d6adda9c9f51b15fa022d93518e26910631edbc50,0xb90dc6bf98d47a911898f5b16a089d1e72468d9e581e13623c09f6cf35640d0037bf023951ca98f5e05e887f5118f2);
  Step false (0xea4a92fd6a7fada6c37e836f596f65d4b4a37bb57a0834973113079387e96d6d637efa84423b0a3a6bf47efd924c3dd,0x5b7be247f2850b9608773bab9b9db45ba9d0959b3bd8de5770a36eaa83f3dcc1d95b34760a0823f91354f28328297ee) (0xbdceb5864401a731784a60d7affedba3b0c297efbd9658e83cc6315ad1a0a41ed8631e16af1b77ae06a66f8ef7cb44f,0x17080adb0c2c1b3a3824d698384b3f6d0aecae8ffe50b2b83a55f260bf6874d6b9f31397a7594804e0bc270c30a70d44) (0x4bc84b52b3ad769531ebca22f45bef128566833d872d338f1c729ff90317e9e0a1858ac6cf7877c1e7841be5bca8ff8,0x11656bdbbf7d701d0c578c74597fbc033c8e815a017c417256979ea636bda31a31e94426ea12802e862b2d10680e61a7) (0x2b1d71ec03fa9e978821f28ac1154e6d27455af7f2343cac5133bea7d102de68c8ac8c2b76b31cf650d87453f6822589,0x8fa6ba362c708a7acec8d859938e7583cda4dbbfc2a49627937ba55d9f6b5cae045498dbfd7acc6be4594482117a32c) (-0x6fd100d5aaa270c73b0d269ef09906fd9bece281c6e1edd72a7eb708947fdefa9c0ea26ca05b854fe2ac690892f1bd4,-0x6707edd6e5f37872d31de50f302dc66b2cc7b38025845380cba99ae6f488a02a66bcda06a9e646c62734e8732d8d21c) (0x23b856761f8184f4ebf5a4c1eecce29aa31a94bc0e94189e003a82d0d97b5b7e49bea05636ee7270807b3d9e634f7cd,0x5ae715fba56408cb5205bd453a4b8ff87ee22adf204fe36a5b56dd6e2f0050fae7ae118c859c5f6813ac97a529c4385);
  Step true (0x1142615b871d4c4963ef8ed842f9a579c71af04bbc4b9297c161b22f8b6c5a58a8fb3af7ec52a6b7026c9e97f3d6b0f8,0x78e5e678d7c7e2754875c536346f6c41cfb8f5fdb95af2c9163b27340c90d31ae05f3aaa202c3156a09893b72234b5e) (0x119649d711eb53cfc9be953ffb7829ab5315acf011bb3e6c03c1de0ee4e9969de206669c3a94b3d39682c30586e2b37e,0x12e2cf718ee272e43f7783297ca2d07d9452d4f3cf3777d24601ced80243ed8c596fbfae85869b227bc3d5ebe72485eb) (0x11c5c35b9ed3e8c7f279bb6d4928889d1e69514e5fec0e3e0109c1c1a4c529214191149d8ed29f89f43e5c15311e8d59,0x1cabc0b251c593b8ea28143d6e177aa80b45c255c728466653689338891e796e8b6949feed1df8f6e77ec98c9abb11a) (0x56f898decd9acee58718c6ac025ea3e565f714988ab99253910d6cbd196ed56c0c24bcc0bb9597a3c95aad47e3024d7,0x4e02ee13d7a3f087df7aa39406660ae5c286d506cdb35be7eecf60d99e13b8524e0159309b3fdbd7f58ca6fae70290b) (-0x9427523bafac5f88b67992cc44a225df899cc869dbfce49f4fa9e67c34981191fad34d1bc4ed1eeb6c8eec65356bca5,-0xa07bab4362164a5d6aa280d180bb8bf6a1fe3da7afb27095fcfc63f84816ab997f3694a523acd64b8ea5cbb9b6b9659) (0x500f323fca24116ab894150e4623e2094b51fbfd41ae23929054adb7bce0551139c272e8487a682211def33262c3995,-0x1168e2d53cfbe86ea5092dc3f81d2db1a359443e20f70a41966a9905a3b1b74bf6a77aba111aa5f7fe83dc48d39499f);
  Step false (0xa0bad126c265d46d51689b72d7dd2e4d3d0945ac3d9cb888b9250b2bed82359a757e1269c4a4d3c7bb2576aeac0337b,0x133a4335f59c0259f1a3ff195a51b1c4671888accdca74afa50259b7484098611c2cb9fdf65a98dff64d2a0fc947454f) (0x3bdbda22d368a0f92c136035c481d78e1a8938bcbf6dd0090d0d00c5459877fe6521ef5efe971358bf89064eed5e533,0x460e68eba44734a9cff07175bb9893e02b8d5a5e80b474f22d0d00f0bf09101d4b81a80ee2d93bc76336c9e584c9c9) (0x272106f1762d5212a6e008dc77074b930f1c84067c419f0bf005083f14df8d15ddb8d350c49a0791fe5311e8c856889,0x19aa71c276d0865708cd8299328b157de70d49409b43908197797eb6d03824743d156ac11195599f926b40fef26ab651) (0x108c012ee01686a37da034634d15211bfa8cf2d5e6643ef5f36a48807e54dcd58d22ceb3fc40e362d09f3c68aa3a17cb,-0x30f8884a1def61b5f947d44a6a3a91e4ca3ec14300b0e0451b01ae4c52c3d3fb816bb4ec5a1f99ff218375cf7ea8da36) (0xa5614e7784783bd464d169da11f60ba3ab5246b5966c7d8be2967b5f2ee6ff0b845eb60a80cf87d71136bb589693865,-0xedb038d5684576192326eaac8986addcb1fedc4b897d9fbf4d72f1dea833f72313a7dc343bc0885821396933745bae1) (0x869caab28e99b031afbc65b0557e68f52e51584f6910f32b2c483c3869d1c8b8892de71343720bc85c935213abb5e05,-0x116d8318319219a1f2a6d018188b3940d617fa8b519fe162d0e1adf59be21a2b0e2e6c41bfac5eb9fdcb3f4a782be930);
  Step false (0xfb69c6a2cbfc9dfb9b0142745ea7f0421cb2dd4e5b4ed7b1142cd575c788d8d19a24ba9dd3830612c58d544327ca0f0,0x10635d3a601f92ab21801ab8e85be88d689d67e6e9835268f7cee1313a095fe9e31b7072875ab3c75d3a4e43d10b2503) (0x3fce42c5a9237a64a64247b6ee4197fd1698c720dc4bc87b93c6ea9d510eafd0f3aad21b367b59ae89f8faa54711c57,0x1002a92a243f1b5b8bd8ac463e366da4dcb8aac45c3f13cad233b553bf6a25a07a51637454416d9321e0bdf599fcc59c) (0x427196d90d6eb0fab62e5e8c4e132fde880b807e3beddd4f288547e6592a89dc231cb64bb840073a58d4e90695c530b,0x14585a9c76330c2d8ad00b6a74ceda0edaa473bacfe2fd5d9ea41349f6482a430079a0077f06d76b12c5f7517ec7b5c3) (-0x1f001583a588952811247a587fede4b5ede1cbd3a238d8da97019c1542fa4dd31628662686876e1e5f2c9f2a59b6982a,0x21dd2a738a013bbf894dcdac39f610909062170b28ac2e574fd299d449e9381269a939b40738c5781d4a72f0c9ab6e7c) (0xd54259f0d4deb322869eb2fd24d8b8e2aaaba4c8f5f40e73b4646727e6205c1a2877a8aab606e9df3d492b6575ab52,-0x13ce31a83b5704dac245ea287bad50609f5fb5943573f4a6451211295b0e4111448b11b58e72a24c6e128dc6f4766556) (-0x9c4b6f8707e1dfc1e97bed12442e4720549392ded1f7a5ec5456c0fd14858a42baa13bdea7075af97d8bd8f47268f6f,0x9aa20f6d56452f7ce7a28e9de62dba06b02f433fac19c0e7b0c73fab07cef38e4b15febd6d1f959f4e376e046c4b1f0);
  Step false (0x28a36f542a28f6997a811fc2ce6cbed2508c5d828082677745110cbba12e028cd54150ccc1f58585e1d7b5bd45c4c1f,0xac2c40f46751f043fe2833bd583e9bfd967becef21bf75f65d407bf06f076619981fe2e541d567dcc7fbea97520cd94) (0x6ae247a730eb65942d76b09ae42c078222e7bcee9bf7639dafb436181748acf17e7c978843feb684bc781dab1909f0e,0x133f8b70acc151291dd409613b4266f80c0d38633014274f5184eb47f2b0079aa06a40eda2c8c3603b799788e4e3cc3a) (0x622c66b7a7c9aaa818bc4e375ae67067d22b3c34d9d9c68c95c39af9a6e737ba6081e3a21b60c785e2e2eb9668f409a,0x16167f50c4fa1c7e0826990fbc8530192498289f35fa792480e3067d71b87726f1c48ff594dda58b6f5877bc5c27a72d) (0xbb5e904d3d9cacae8f01e0a65eff0e9853c3aea997f8dde1f5cc5e01b94ac148ecce0b0b22e33cf0f3a22a39af2650d,-0x75203c44d9000aa2700e7a3d114f19b33d31bf4cffd82f6f7cd45f783b014a85bbe6f9acfd7ab3e357437ba8061a072) (0x4347162c27e490bfb99b9a1e88066b07544f1763ff19c5262ad803fca8364ca8cb6b5d51f26066b0d3f796ef37d5ca1,-0x21a21a38e40a5a1e21c3b3c1caebec6e3d18f2f6cc1fa2b29cc6c868168feda0617ff4e67bbc2567de4aafedbbef732) (-0x113ae08185f83c1bb57e05b2434a58819fd8c21cb2fb45ef9e1564e066a5e969525dbf271fbab3a7e318c4ef986d89e,0x16e2dc80f8040d2b510f71ee069950e4c7df7eb7d076487832e7921a7b382498dedb6c848a2a34ae7fe9d50e2de8c9a);
  Step false (0x125e8f976f7536a2e85ea3cfefd8d2d0063990aea5570748e35370c03766b0439ba9bc0cf8c9e8b4405badfa94226735,0xc0299d504b8b7bb5ff23b7fce15918bb8dbd901b96858640d5946aef2f36a4cb42aee9b8f2d3d1bd687824c71ce27fa) (0x12b5321b07347891b57bb5f2171949ffa4b5ed6ad5c4f7a47555e59e7cb006d331cd9894f005f816d12fc7b04e99610d,0x7743da3880ef78376a560b38cd40cbbd0f78094f7b8bd83b15d5042ab1a26d78d9a949ddb5e30f44b87fd2078267422) (0x533ef2cbf53c08fdc2a54517dd5b71b8409105bf8ef13aea65a9ab2878e0320ea8c21084a74a3e1e2f9d82f81f65ca9,0x119ba9b62035ea60c72e963c9060102265689046d979365956818e281b8b14c3c66bae7495e7b62dc1fca23455c28515) (0x19dc2e8b971462e6cfd3d119919b79e920a8cffbb7e2a4a1a9313b36d3a74f779bee626fe46294a3bec22de0961a3100,0x73491c5967183cd3325643814e43a6e50046a3f5fd446d222f1f014a909e7ef951eab4b0cacf363408d8f05a31c2126) (-0x76ddfbe98bd2ea34140fb9754ecac673fb8e324d0be246445fdb4e7e3efdc86fd41baf3a737a4c5b55be61d2120d504,-0x10f7cd65014f341dcfe0955641f95740e026df09f8ec751a975a0ee77d6b25ffb41f7b9dc30c3d6f066cebb456cf06ca) (0xdf186de39a79a78404f87597a66917e2083be78293876097a5c6ad8f36f6d57d3d35c66829864757978d8e120292e7a,-0x2c6c3642a75ca557980f59f395c1b92b449ccda36c4f82ac88536fd77245228cad77f9768d5deb65bf3e100efe84610);
  Step false (0x182115eb42220d34f08e487de33ed175b6d1a029dda7c9aa05a1ef8d1d2c315dd8bc62125863cf017f4f31c0054a3612,0xfc2db9cb25d08faf7c8327f5daebc21a409de8913242d73b8d9e10bc6022a0994e39a0b90bfad204b39a3cbcac7b4) (0x96503c6988f51ac95d9dc6f731f0ab02f6be32974084b622c148d84d51bdeebba33b7e6f29cb172f03a7ec94a9e68d6,0x9a52cf21cb5fa11df46a6c3f40f0b002282581be7065dd3641f8bcec6d3701c4ecf0cb4dae9740e060ae1e41306c845) (0xe76378c4ba4bea33ca5b588c60f06fc663ef976cbdb0b00976cee4016f3ef19cc08194a730af1f08df59e56dcbf7417,0x7bc599e009d63ce0bb2f579e838a928225a745b33545f52b39cfcdb65958df1c5eb3509d4d2be216e8a6c3d2123bd4a) (-0x1864d1407c94f464e34d410fcbca13b09669b130df92119d25163256c98fe922c3dc4a1a25680c110d7960d021079e99,0x86b68905e4887dd88ee60f722156a42b0831ded3dc45af0adb84dedd31287dec9be6aac8b6bad650d87f59a64fd0c0) (-0x1663abe82b7e4ef85760815110a98193e027a50e4678c1cfe283798c76449d145dee1d380b7237d960b2957be1c7474c,-0x1d3fe0a7ee9102b0fa55d023e8509a9a078e63d5d77c5a4fffa6b01c4fd3c83b0c10a8aec34d9d03ffaa8706d5fe55) (-0x8a59b2c3f50f0a2a94e737986f05e94adae625d3aa61a61671b04fd0f6c39e2b8c8f945c7b12b03d842926f1802d02e,0x202d888e126100f4ef5282eedbd4bb49fcb32c1ab5c7a9bd1c71fa1064cb3ac4a4368659409f0dc928e0443caa9d57b);
  Step false (0x159ff2806d40ff15099d52045de59d8956f5a84da299063ef6c216059e7a2a6b1a09d23cd53473f5ac7b5e99de412ea4,0x69a7d5ac5a38cce584e0b0f05b60b25f325eb68e4cbd45d0014e4ca22ebdbc559a20177fdccb0d7c9716c23df3ced8f) (0x454f597e4b2859f6c8980f81b6e9e6ffae802cfba559eb56fc40d40107815cb3a6a551d05a4fdab38d028014f10184a,0x10d9834ff39ea4eaabe580feea7d539f9f767bfaaba0d8b12b3a0dba4d3c9abdd416738f91335650900d85a851c9ddf6) (0x1611b10aaf2dd0ba326609261513f7bc981a01a34cfef02cc142406ae22cbddb1cc586dcd708375592c981e1f7f86b0c,0x661e4d3563a99eda2938ad26371141598b94515000a1bb33feb6820b16e1b0babe45b7c5df60092f4a090b107d10988) (0x14ac9a67dfd46a348b5619d131c0a905a48b9036e9d18bcd38f3bc42c444abdee86d11b3dbdcc4c6170731f1c9ec5bc1,-0xb2516bf1fd603029c26ddf3c608abf805bfd2880aec2926cab34d9db6e53c543e65b4f353606e32b5aa6a978bdcab6) (-0x104e5a3f255691ea11270ca550bf279acb64b62698eb5aa5426895e7977cbdd56ea73d1e41709acbe662cd13c9ac0bab,-0xafb95f5e2043ad423af636d91e8c1ac570a6b6cb7ac0942f5a22ae4367f12330332a7cec5d26a23c995ccb14ccafe28) (-0x60a2282d4379324979967d3c7a3a2c2e2453259d08924388c2498a6a372e0a2a760e630cb4de5f40774ad2ca54c9844,0x4b49ca9ea4d4e79ca17653e6f11dca7352f027180bc0db1221658a2f197f914508101844b4f5ea8bcae6c1c95b4a006);
  Step false (0x142182d337d4bdd0a9dc0152289c80bcf75761bc030bda9dcfd112580006deba5077fd8a5edf9450f71e9104f1c374e9,0x113f465ca312058e0cd541d6b90435a9e7260873c34a0cd455f40359611c687f96c91dbee3f1affdcbbd3809a6881f8e) (0x1650ea07cc2d636b17211cb9c7b67b0be6de49cafae79cd93d470a00dc3e7bbb2b2911fb334ddbe4ec4492cac5bba757,0x31b7be1fd13b66c679e3a31afcac6250ebb3a672b2faf5dfe3ccc9a5ee39f17852a1a3b36a133ae3bd87798bf0236fd) (0x60f2056dd64ee88498bdbfea23ec2c7d1747b009cd99dfa06207fac8fad20dd7d3247db53d7a5bf838a770336465606,0x3b4009df1ed809b6150d25d0270f42b677bd694511b74028f909252a691ca79780ef50d7b8f864287e7e93984969eb5) (0x384ab67dccfe0cab8fa524d22b72d4bbd260ea6ada5e21fb21bcf79c8968d8c985541cb5b817cb37cc77debb68f6f5e8,0x1650a21b42493466a12af7ce67fef07f74e7c4f0ca510ffa4b6a59709871ce226b8eed722311581fe60f38b4d2d0c4a8) (-0x425218faf152271ac1d07d8566a754139e50b43e2ca0bccb234283deb3cf536aac1e2852b29b78dc60184f617555426,-0x1ab417438245c74b8bced631fa0cf32681ba5ef9fc450e996a69265c6e3d9493b4b1b0e72f7e9745d2116b7f2d1988b9) (0x17096dce74a025c6b6a3862cfc3c0ad5c76976bcf4bb4ac9d129ff3e07b9c258bdd72e403d1290c1dbacbf638121d70f,0x14a1a9798f91525d208e5e9ed713794b43d9fe5dd79935038b2d2f21436e2951c261a6b8c468df48cd81f5f17b85776);
  Step false (0x10933118bcf1940615957a6c1c7bca0054ff60c0db1566767322d2c5cd33e33d6fd2e0ca2639eca99f5b1f6e6d095faa,0x14ef91f0b47d2bf1313ba159c090bf9a071c2af83528b3613d49af8c8914a7628366761443e0d74cf14359d83cc60326) (0xe00a2a0d242269ba52ec8c90458afb51443ce3e44b0fffd1d78f47fd8420c1c5758de5cc72068d048cd5b968fbb6f8d,0x118e5a1d9b9f4e3203f36f92eef96f79e55a2287645508d37213eb357ee6cb6caacc496e76f9589e41135d61d182748) (0xb1593251c906b9ca93ef0b7d6df1a73c66bf67b7c46ad707f354fe2331340e8f9dee55732a76c0f1f93304ad3d01cc5,0x32e736dd4838d041aeabc6259357086b9378d87cf80c662508c4218f2a56f91e656a8efc1e8f86c8c1ba3426023dd5a) (-0x3693ed704e5356f991959a9f69fbef79f55cb44b9ba4850ceef25f846b200f1be8a73e45bf8b2d5cfb8ecc15e1ca2d14,-0x185dc8dcbeb2ee9a5af3baab3b0d48c9234a6b3ff33f67df17c86a4a0d8dedbbdb6073913c053a6a767f77434b4c122) (0x64a5d8878c23920ec6ca30323bd41d8d160914aca0cf9e0a8dd271c1ff415fbedac2766ccbe62e0633577fc99e420f1,-0x1ab0571d54be275a611ea83f0b0c7b634c1e44f98a2f61bae0fc7cbc430075c28ef8e9d4b60a036e4a94c5db5c4767a2) (-0x3ae441b2ec047334382810830604edd7ceb0df8016be65dbb098ef329fd895a2e8e2efa5e7bfd0d926b607fe4445271,-0x7f9761a09c7da62a4bb821f3af5a39dc714e3179014d78c6b9cf08af2e0059ba004255426840858e91cff9f22cf495d);
  Step false (0x5cf357e8473bba00386d2380ef2bbb3e118498031e2471fae5017af4c09ed67c5c2e5257a3deb7872768f839060087e,0x82938f41814229b1224b32b425aed5972aa5f4b4d21ffc7a3913baa2c3f8f7499ac76a63b373a0d0a649113f5c7b2fe) (0x7c73bdabd4b9efb5d6b48b117e4d051f618e35f211f920eac4d62ca5a447447a38384db8e7bcdf70e17836170de3daf,0x4ec78d2a618fc2c194047a9f9e1e22571312098284d5f8d804ba09b3676f5a727c60cf42bee6f3bb626780492c9ca0f) (0x437003f097af51148c498ec1200064139bfde0e1b112a91425b9b180a8f101151bba964c102ab56ace64c2e6821cdc5,0x127d86b4918c2ec081a6d38b2cf5d4b009d154c2e610397a01470c2017a6e8fdd7c352735923c2779c89eeb759897857) (-0x138676d177f023a70433d66f944a6e3d7fbbb2c28908e7efd9138cd1885bd52d25196932684c437df07401702fdb58b5,0x4d56f36c60e93b15dbf94722efb0cf2fd5f6bd977816a084d53e7689b8d1c85ae922f4f8692362e2892cac7ebb04ebc) (0x1436cb12d2150601c09dd1cae19cb8d9eb1fac68ff76244859df991de214ababaa63c4c1ee2d315f600f775bd20985b,-0x3a57a136ca54232097aec5791e40549c498a3161d60d5142ddf76de84bdf2b86ca58859fe1366bfc14a1f55c418ec3b) (-0x29765464c93fdac5af2090a38dc873e58f87cb634e2d318661c57d6c743ba82f5afb242c4bbe8fc1b478e7c75135084,-0x11939b6db432459fbb85b2169e42753ebb1824a230c01a383360ead2874a3d204a1b1645686a0002a674ee8e48f7fe3);
  Step false (0x13847679c97ef8978b3f64c9ba622ef466154b88c6206dc00a65c7c83d9e863106be2e6e6acbdd11b2e3bf3c4e9a8fc7,0x5c65be3c6a8b37e95aaa4725d46595304e94133e1524dc41b86d1ea5e2cb0e5656952930a29270a27fe8eff7ff52747) (0x3b54715d357062aecf14e25db0e9195e76693d2a65e3e5eeb5a51a076b7d08a4ad6e70b5e3e16f0f801621479f86172,0xf7fcef9eda1864463765e50f77d15d133505d97eba502ac638426914d5aaee8784121aa094020c98af06a465a7c0631) (0x114ba6683b900535167aea53471ce44db044ad1a49dadfb4dad81d7ce05467bdc56c240b7f3e13386cf1b72e0e1199a5,0xa96ffc56e03cc4de1ac5bed63dcdd750f5dd62f0fdba888721236ac4a57046ec3ecebe896ca9a2ed5e92c2f5513c4a0) (-0x6118904d640ba1368bf05d5e1754c8d6ba1a29720824f3e9e5c370956a6b00165cbcad40349a7ac20f8d04690bc82b4,0x14ca9181140759a1717424eb8dc972048e91b20c4a2ef07dcfe74bc9f2d7cefaa4626d83793b25d184ee0a50cf58bd06) (-0xd5dca3b9c1901205fa4ff8ac7e75cec2e612c2ce0760d38e8498eba2b168c865732d5d38d651688798faac0ba2f0e90,-0x8ab2a0498784e7fa7ae4591943f1baf1fa74cef2b5602fd74d286d1bf64a96cdb68033f84d3ac3b89602972db5b5839) (-0x567448b5841e075295c5a7556d04907164fa27cd28498460e7f2f65d85dc724db7a5d1fe1ed1e065631064ad94b2f4d,0x70899a293b33934590f91b02c0437752145443dd167b930666bc28a5b18683687a528777e8d51ebbc8def663c01cc6e);
  Step false (0x78af2f8549231aa92bba1b374d54bf4748e38d3b2c782b3c9d8a7b7d87389e25b856b97ee48f089c7a4594a201092eb,0x157a7e87571314c4eeffcc641151b627d67176b268c6b18bf425406455688e07fe496eb261acc46ca422be84be4fee75) (0xd46c2a4a6622e16420a7d6043a0a4ef3e8463d86c04bfb607437bf1e42afa15f78012129f751befe7b7c79030aa4cd7,0x785adf6f6274eb3f6a05a02c270f8d7e494f0e68cbba7e33379b5b387ef274d20585428f541792002e49eb69aee1cc8) (0x65634dfe26d6e8d807881bd6015eeb974aed9be65e0f2c353beb94b95526db8fdd1bfc3878cc2189dd1b9e7992e6b99,0x13db32ccef98fc0ec578a65c68f56d397a3400a20e06b5d05c14ef80fc4ac2afe79457ef4f0af2324abd95638091a13a) (0x12aae5093abd8e41da0d65de98b84e9d1ce4cc112ac942e2fc22d6295b1f9b6e284909765cd92b67cfa000d97dbadf8f,0x157412669290c731caa34904de7814576d6e038abca9a5ae233264de4cd4a01fca3715c7bdcb4f467487d99650ac5cf2) (0xf8d7667a5588142ecf966fa7ba9b21cd301c9e46c847389409d425766aade542c537434120eb9e1dfe22f12042ac871,-0xc75c9145dc3e86fc2e4c846c20d0269fdae8c26ebe676e234003ff69421e7260365b4db307e30fd6da25f9e355140ec) (0x95d384b43e50529e14e545e1a2d158f4a386dde5aa9165202da19096e54683b5db493e510ef16aa2e87ea9ed204ffd6,0x596d7b371140faef4f7dd590335e2fbb42aa87511f379bd4cb0ab984fb061de8fcbee404a3d1d7e9ddaed1ac3f132e0);
  Step false (0x8f022244af0b719146e8cfb7409e84a31ef57e217e3d45daa059fc26f53a4b15d861e5d1b9ff207335fcb7b28f48654,0x72c117c18b8dfa89321c27cec88b9f86c99799b380ebac98fde2d5c9ef41c16128658961fa9d79eb0320e586c2d096a) (0x17f20ad850460c8ed4b2a849728644602b07181d834a913dc5ebdcd2115269d867ac9e3537b7b1a8c5de2ac6c40a4ac5,0x44c2797ee7d17813c3f920ab8b5f93d6879394d9c5d6226c422cad6f985211d753b9477768edfc713742d16aaa5b4bd) (0xa0d112fef350f48ff791d1af4cdb20812bf58275748bafcbce32d01ec47ee88d5db1570acc9215175b0864b78a1da10,0x40fbfa3063a38c68a335f989562b6d3a8fc08397a81319fae10b996221a2e6cdd782a04454d89ef02e40f2dea9b3043) (-0x14676665a93c07bf919e57ba4db156caf4445730dc4f3886c33a78dbb710b077c153f99b95275ace4ce486a1d7eb71b9,-0x5e5bfb304a64700d95dee65ef73771eaaefcd485ed6f13cfd66eae5812bb122eac4a6bee153276243f1b04e3d04af24) (-0x11810748cb7b57a7838eb9d16c0a3b3e80a50e93355159aadc652909f132141769acf1753cef7d7afe01365aa8c95ab,-0x4ee2aea302a49e64292762ca2ac95a5f75b025420e14d2bcab1d262c68ec54b660f58d39060add401dfa8eaa4aea5c9) (0x48e77c06e975b55cf94c6870a827d78c0e88133e26169a054fbda822af9b191e5c4f624c798e4dfee19a56279dae9ed,0x1d58ff53abe7b7823ab333a3ee919c6b4095c4fd0083c8c61e9238c8f7a10df981213d3ce09e402935ee447fc394b47);
  Step false (0x86675ec3781ecc255b9b8f657bd72dc32622552c01c3a14efa70797ab04d5777f18cae0d8934218abbe5eda42e0374,0x99b7b955ea60c02306dd0199067fb6cb2810aa19e5e838d4d7d18f24dc5139d8829c6be0db3cdd784259d6f00a05188) (0xd33d99164889d2721f440890bb0ea1b3126308ac4d1c3f4be821250f421a13e34cd6f10a557e675358d52ba55d5cbd9,0xcaa05a93a8cc7cde0030bd9a1bdaa1a51b46fb445dbfda7da2a7c69df09e50984a0d031b24d2b0f06a604949dc5c912) (0x15a260842cdba76429ddaaa7dc445e34703c25b347e3828c05bf6d235c31eacaddc52e400ec2b972e3aaa01086339871,0xb4885182773217842e4660eacade40c96a736f7279a1a3d655129ad43e891769ffe8dda64cf24b0fc754436f93a20d) (-0x429d28644dac92fd427a5c5dce733201df0889542edfabdedd7dc729f3faeebd387dfcf30f7dd1a774f8daeeaf7a74a0,-0x1027197ea722b2ea2687218d4d36262d39f0fe505934654a84eb696415d160d853aade2e9efb5c73ed8c4fe55bf186ca) (0x389f3e8eebe182dd3a7f45bcb1d2f413f64a45dec8f9d2eb582e282fe7427608fe64d8747ca7ffa293d691673aa6739,-0x634fe5d4b610d8c7bf61e80c6bee52bc0a8f0e0c4ee23d94fe52af8fb8c7af7e9bc1622a22e889a59bd85b6921a21c) (-0x34ed8ee8dd9a1a5a472ebaabd4e272a4ad98a1ba0e0969c4422068b8cb36d5876ddeb71dc841b56b6a7c7b6481c93c5,-0x3ccd3a718ecd18022a1d8ec20a8f1673c8e70cc16e2c3e75d3a8b600f258bfa4ee1aa57ca20c1bbc6c1e5e4a69734a4);
  Step false (0xf16056dd2e8b5f8240d4ac75aac0cfc9b43343826136afbd4f0931c31459109811008d17464425eeb75a1d3a3486fba,0x134957b7abe963c5d074abc911c5cbb3ae17332e06f5b415438805278ea9e18b001cf7daee0993ef125a22747400b5ea) (0xf1702bbebac70eb9f200722f314b7903214ea9d732d0f3a9a2922c94794bba06f39362d24a4ecd4f86c9c06d67aee83,0x5a3b3ed18e3093ed4762bbec58ca2a87a76bf49aeb1067e5336fd122e9768cb7f82644bccb0544ff5a220d8faf984f6) (0xe05c3fdbbac7fe288a98026a49a393a9dfa84f200f9b691c8c5385fb2b4afe86d9952545a0e609b9b8b21a9fa20d637,0xf910d4f4a56c4e2fc09977939078750d36943a5a346401802fd9730b0da8f3db7b01b95e7bfb74ec8828911f8cd8565) (0x1672f61cac59dd7ac5897e9f814d38100ebabc53d5c7facc75b5ad6daf8234a362aa531c8cd575b42692e586be2e433b,-0x5ab41b7e56e2511f31afd94e7144965c53c6e418038c19f8a17bba3390c6a046c6707f28eebe39a2e3ffb34b0c9243c) (0x58d5e251b1f3a62517906d47c805f6c486d13a1f5d239cdea3087a9151896716033a96041a8f2f94720360ad0f846df,-0x1660aedce762e709eb002f2d5c14523a9b10f1fd6d56287fa6ae3a7798c0f7ccc7b71abb163c001ce8b61d425e7686ca) (0x64e0ecc0c72d186d4ba8ee4b205fcfc5fadaa1261a30c524d033d408d2eecafd3944894666eaf4aaf087806965c254c,-0x2acedb002b6a8b91a3bf853403ad9329a6cb6752fea0580cd1eeeb70266d47738feb19c84e15306bf7df80ced7bc686);
  Step false (0x2d6c8112234d7f18ea478ea7df5eabb84672fab4d4a6e1014e0585cd696c72e9adb4736ed72eccb4e30eeaf3b992446,0x444323d14c7a3549b9f6b2738ce286aeea4511ddcb23d59ff0488c63a739029f85aec2295586dac212579b39f39df97) (0x18b7d0e21c43e201107b3727eceb73c52eae48e27132491dcd776c98c356d47019da2a139625cd4d3e31ede7563b1f9b,0x4edd6d5ffc5e1c1778c566e28705e775661b4f5a090be40f95f46f7e2874e43386325430a98019114229dab84da1c26) (0xe8c6ff008deb899cd39cdec3a387ae4d01ef457c7a06b69a7add16143dacc5f10985d07e6921ea3aba021c2c151cd47,0x7c10c0572aee1e97ccbe895e7570084c2a02b64fe86a2bc724281b6535c13939349326a7f6bbfa876cbd795130d9252) (-0x18a57c5881a8a67c7928cc4ce1d0bc3916191b1bb334b7d2aa142b66a7b4dbe322e8b8dfdf8962bd9d0a6f129de82f03,-0xba286a441bff1dacdf44a44f93f685a4854f29b68a9a68b2f11c856c57829de14f6959ce0ee7eefe1eb265375dfb38a) (0x63d88e28b580caa534fe255e732b3980ad9619a4a76fbdab3b5c749706a6615de4f429c92524e24e562c1cbc60edaa,-0xee7acdd87b41707c7faef3b629e7914e36298629b9bc62c7f313be84400af07326f629004b1a0d8a79f730fe32c986) (0x12aee60c218f7a7a7bb6810e438b8e97181042adc75b8dff5103dd41710d4c9e78e83bb8a36e44863ce1532b664583a,0x18088f11d89e8494131d471ca1b64a9f18e7f85d881114457dab6e0deba17c1740224f7845b1f018c27ffd7370d23fd);
  Step false (0x65fb0c0d47de8795557bd2f9f4eb741ac78b510ccf452abbc66726ddee31b37d058d7e5bdda2d3c31051f4071ae2945,0x7f9fda3fa03c5295720441d73a813ffff40ee810a12214b0d4ee64da91ea67b8a4525b4b9c37518dd4a05df7a4d6dc1) (0x149ee6d25a1c8648c86f8673946935a6c41c801f2eb23fd9171fd41f31b7ec5c4a85f5b285f02508d928c716f9c1bc67,0x6e63a1561fa8259ba6f6e15257a5cd4ab79697e45abf5042aa7cf28b80aa054b18d535b71cf70dafd2b694040d19479) (0xfcf61319e51e41eed89a6b0ff12b4da6f664b92422160a52083df7086215506947457947cd8917791ac308465a849c6,0x14c164377443f5accb1eb0dfbb4910e98a49e53d8ef016c76df99c2649d3f49b1a3d8b6a55e5881f8ea0ecfdc3de9b2f) (-0x414f052b3ec899e049ff3f43147e4cdb38c8bd237177d05e55d9fdaca51249ecdec083bfbdf63e02336346c583d94bf7,-0xf629cd65822dd0730ff0396d0b1cbe35ff19913feda8b1b09aceb163495afe58625bcda56de91357a9d3a356ae23c5e) (0xe26c3eeec377f0a9b413d8bc582ccd3a7318cfee7da74cfe3a852a62b2296b817852acce52df7acbb7a5947e552f8f,-0x3e9029007f40688b389613af6a6d6d9d238d12f0df2986c2799c78c6336fbfc41a8a6b706e3ae98ad579d199c008dcf) (-0x19bcfc32308bed39dfe14a9915842557dd0904ce0a1d79bc62ce81ac758c788a5d29e5ffc69dacfb2949d8456d5169e,-0xc61d91a7cbe7212c9c279555d4d5adda1102c50da98c7393057be7bdb7bdd3a6e27b2324c2bd022264f1617b3e15fc)].
