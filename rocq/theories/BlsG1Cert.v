(** Generated by tools/gen_blscert.py: slopes, points and quotients, checked step by step by [run] of GenChain.v. *)
From Coq Require Import ZArith List.
From Verif Require Import GenChain.
Import ListNotations.
Local Open Scope Z_scope.

Definition g1_gx : Z := 0x17f1d3a73197d7942695638c4fa9ac0fc3688c4f9774b905a14e3a3f171bac586c55e83ff97a1aeffb3af00adb22c6bb.
Definition g1_gy : Z := 0x8b3f481e3aaa0f1a09e30ed741d8ae4fcf5e095d5d00af600db18cb2c04b3edd03cc744a2888ae40caa232946c5e7e1.
Definition g1_mx : Z := 0xd3aff0f3b2e6f4878f15a81eabab5d8c9f765bc93ae0a2f0da5ed1941b4924bca4516661600c41a74beeb243695b52d.
Definition g1_my : Z := 0x332c926f3b2fecd11c514e777933c8b994de733bdbc6688fae276601803ba0296976fb0b97f36d2fe6456a9444dcc00.
Definition g1_ex : Z := 0x1333c91030ee7a4649e404c01b2e0d26a8728dd7cb4edb636ed984de104bb92674f1161d8c99bcf024e473fe0a1d7620.
Definition g1_ey : Z := 0x114d1d6855d545a8aa7d76c8cf2e21f267816aef1db507c96655b9d5caac42364e6f38ba0ecb751bad54dcd6b939c2ca.
Definition g1_chain1 : list (chain_step Z) := [
  Step false (0x256addd10de5f1125dc01df7d60354f49e4cdf6d84cbf619723a3ca979025d49cc7536b86e8558e23d63cf91e1aeda5) (0x572cbea904d67468808c8eb50a9450c9721db309128012543902d0ac358a62ae28f75bb8f1c7c42c39a8c5529bf0f4e) (0x166a9d8cabc673a322fda673779d8e3822ba3ecb8670e461f73bb9021d5fd76a4c56d9d4cd16bd1bba86881979749d28) (-0x40944c6b48b6f70ec7967519118ae2a085108777be6c6c7d263f6377b43a67533986ba215e13a62bd5e00af8304cab43) (-0x35d70b0cb03cd51102f5779f067c21ce2c08c0509b0c71fd2ce861670643431d72b70f9acbe54083e85452b90deebf) (-0x1a9d3db3343aa29d5bbefca44fe489e420f04afa41880e82bf6b213a020f4685882305ce167d82ad9092290be6dd7a8);
  Step true (0xca01508e09da63bddd07d68f0f5ab0663574e3f1943434405546e7593972a28bb131f34db86678cd2a6b7c494c00bc) (0x9ece308f9d1f0131765212deca99697b112d61f9be9a5f1f3780a51335b3ff981747a0b2ca2179b96d2c0c9024e5224) (0x32b80d3a6f5b09f8a84623389c5f80ca69a0cddabc3097f9d9c27310fd43be6e745256c634af45ca3473b0590ae30d1) (-0x8fae9095ca96a1952ae1d87a291c33840da8e21631e8a1353d3f5eba73452da2e179ab6d9fe56c56fc9d023fc93bf9) (-0x621364fd107c3673797b3c8ab70960e058f1927017c79d54a66b678967bef67211791943c9ae9279336d206fa25a9) (0x22c709066d99ec468e27358c31f1ff09b79def5e93c625bcbe4bb9d332e3765200c9ab53762c62fe7a37557c02a963);
  Step false (0x19c6a9e3932cbf51d588fbcc9a29514243c18224f628796847f8d37c73774c9b12981e8adbe51f8de63a11800e3cd6f0) (0x6e82f6da4520f85c5d27d8f329eccfa05944fd1096b20734c894966d12a9e2a9a9744529d7212d33883113a0cadb909) (0x17d81038f7d60bee9110d9c0d6d1102fe2d998c957f28e31ec284cc04134df8e47e8f82ff3af2e60a6d9688a4563477c) (-0x514ab41920034ace2e588842f9b98efd0055eb9a1355d79c36fb1ba4f81978a1c33f5e6c86a27d322451f0ca200e1f0) (-0x198cc50bbad7f15904a1e51611caf8e9843389eaae4ade1a0356aca69dd1c4e7a35a728957e34afc4d090f9336104b0d) (-0x2fdec1721b2b041cbb030fc7cabd5d390ea45b815d4123761edcac968367c8e64e7580a959c6e0d020b825f0f74e909);
  Step false (0x33cbca6150a93a0100254e1ddaffcadfd37794d582faa8289befc1f4cdf04e0b0571822cda9bfcd335196effcd2a9df) (0x345dd80ffef0eaec8920e39ebb7f5e9ae9c1d6179e9129b705923df7830c67f3690cbc48649d4079eadf5397339580c) (0x83d3baf25e42f2845d8fa594dda2e0f40a4d670dda40f30da0aff0d81c87ac3d687fe84eca72f34c7c755a045668cf1) (0x6ed7bd20e43053e14defbad5e4d33a7d65d72c66fe7802a569b5ed25ccfa44a0457cc3e294514094b4f791ba6fb13f) (-0x672b5373d59e3befff7dfb25e82b955b100f7eff06751debba30856f4d254f62d68ea91dfd555ee3a98fe30c673269) (-0x73d0b74a7e15eb1f1702b08932cddc1f21e6517c4dd979afc8b732b165a9e3961cc26fd42c73941d1e8ebeba5906e2);
  Step true (0x1757f7c604379396fb0acbdb38f81318b6b2f0d280f3f116014f40c0c7067583b31699bc705732fdd22f079db7a68bd4) (0x51f8a0b82a6d86202a61cbc3b0f3db7d19650b914587bde4715ccd372e1e40cab95517779d840416e1679c84a6db24e) (0xb6a63ac48b7d7666ccfcf1e7de0097c5e6e1aacd03507d23fb975d8daec42857b3a471bf3fc471425b63864e045f4df) (-0x128e86f657b4f03517ad7fcb4dc3c2af31188ebab2489236b2afcdf636e7bda651dd61956abc85644ffb84d3f57df8f4) (-0x14f48d13536d173af545b5b348ef9ae56b66e8b85ef11277b9829d8eee41525fb561db8a6431b2b8f5a074bdab034371) (0x1a9360f6c2bf08d9c00dc645a82860f33f701c86f4103020017472d67815c1e16210c778bc804f6c6f2cc36bfe74368);
  Step false (0x7f829df13d55ff12bc219762729cd19d869500195751f270aa2e71e5474ab95f1e741bc154133077291ee77a4671cfd) (0x1ccc19e3b938ec2405099e90022a4218baa5082a3ca0974b24be0bc8b07e5fffaed64bef0d02c4dbfb6a307829afc5c) (0x5dae2621ab5a60fbb7366b306e447688fbed6d634c24227731cdc57d2e971b49f4fd4ea4867fa2e146d50f6eb3379a5) (0x3f80c25d1474ef208d87012f7c8961fd001bebdc18d71075cd25c2b42b35e1518a08c6ff8116cd924c9f8859ec74c6e) (-0x2713d79ac9cd90b3add90f6837340827d7c84ace5d6d030d495d454fd545c2a036d92dfe671484c250d374a096ad333) (-0x104bc5bcd4c5acaac5b8036d269369178fcf3c0ac3e1b1b1bd8e3580686c38039563acd07b9871317dca597750c8cf2);
  Step false (0xdea35443dcef6a3eec20b9f4133604c3cfdccf0fe60fb2c235c086feb4e1d2b534c2be180b4fab16d0df0f1af82c751) (0xfbdab59d6171f31107ff330af9f2c1a8078bb630abe379868670c61f8fa5f05a27c78f6a1fd80cde658417ef5d6a951) (0x40f49cbb35f535d2cdab3704eba01a25a3c7d8a60c4f886d8442c4dbf4a692a66f96feb03b44868c3ec8323cf649e7d) (0x5e4707a36d67f4cd3b480c94af1c675db48a2c682beeaf3d44388dafd16b6f190c8286a48107c50f858b368f25f37ae) (-0x7722491e38bd5b4b5ec38bdbcca55841da7c34e7fa0147586727f0ac22ffc4e8f568b4db5f395de2151a0c695fb30c8) (0x775bb0db44e9bbedde5ce3890268ef405313504e107baf598210979cf9aeddcadfe860012577a9cda6a65ef77f7cdf5);
  Step false (0x13f59bdb654c9992fa52cf8f371cde5ba32f2d5cafa39e8b2ce445553032d21d150e8d517ac52e3144f5ed93270244dd) (0xb23c89f138f4252fc3922e24b7254743af1259fa1aeae90e98315c664c50800cecfc72a4d45ee772f73c4bb22b8646f) (0xf35d09ee3bc24ca4215d430bf5cf5b3d19b5aab82a04b8f8887c096f24c9e178c6be2a371494f091a014025c2a87652) (-0x165a560bf30328282bb0b27829588c58b8f079a7899fe0fb331e345d5675619d408d0ef390231fc12d4bfe4bf63b4533) (-0xf51dc61e826ca7b46f7d4cd16119c424c1b2081d32cb8bae18d559cb243eb312225782e438694cc2b60ab2597e54f28) (-0x38814e8845139e2dd6a7f97442dbff0683fec9a0fa331bf5cd422a2ab167d7aa99708103a786ee0cec35358524e3ee1);
  Step true (0x18fcb13c63fe78a67824a2b242013a8236078ec6d01844a5d5251698db6ddc7c6aea5b247b58e591e3ba50d02bde175d) (0x18357a39c42f80953e8bc9908cb6b79c1a5c50ed3bbc0e330577a215ac850e601909fa5b53bed90c744e0355863eaa6e) (0x12e449d972d80546cdcc19dbbb96c810a0dd4a0a03534e0d86b5ffb5634975327a0c566516df3594993d175f2ab84e9b) (-0xc4dd4436705e688bb67cb450c07dae5ff05957b7afcc09dbe851a679e79f969371369d09e984f7df4b7ab0e69f64827) (-0x18027fb23ff3fd0c54ede9dc5f1d0c99d33f4a05ca61bc222166221d2b13dd3cd01c59d05ca584bfca69fd2dca8f0693) (0xc8ed574926a58367c0ade9a2631990e440dc5b8b0a9c59286536e53bfeeecd592677a56c0670495d5467b385b6c52b0);
  Step false (0x18899bb791f365d64d4b46878133a8a9f14c24771aeac751cc43b8bc73049acb4edc7170afd68333253da4a838708b11) (0x112d0c357016caa5c0ec0a6bdc07e60c2af4631c477366eeb6ab4fffbd0ca40ab9ec195091478a2698bf26349b785ae8) (0x1267d0513cbfa64d3402bd8bb17890ae1a50a4d3fb7e4e5e17ca065e27d5ea867d016150462d7d6cb5ed938801bf9a2b) (-0x1ff5cdc7bd94a63a03183bcfcf3de1a849b0dc71778658ef61e5a1fc934fa36194247610d596b0f91f366ccc59ee39a2) (-0x172752a0db964ee0988312dc488492b83056e709f66554401f7655dacdcf946c8332fa98bc4aa4ea30404cbd9d785617) (-0x6a2e27c9cfb9c5fd02e66068308d9ef3a22de6798b4a6eb63f951136648becd4761b225d963ad9d960d0671fae36360);
  Step false (0x544fda98f88601ad5204107a08cbafc4033d4608c584a7dea06bece853191cffe6a8d806d317e8dbab5d7c7197f4945) (0x6829b2a5d128ba12c5b2038c3c1ed87b193b744ceb2169a5308de58b4fbb8a9df95d456be1b6dd8381aea5a09e982ae) (0x167547cbc8bc470e47aea8beb94db169909e42db1e2ff7fc573f3b09a0df12b5e0f4962457f040a6ed8f81eab469ce44) (-0x1a933f7a403b7f23a70175d1fedeffb3b65975bc2ccfa2d773430c7621af06e080e851281b40c3292654ed367d1ea0b6) (-0x1115c2623fea6232dd0e4ba2616d22e949bf0b3286c40639fde45b303d725954fd40e1a09d6461ebdbeba619e0d9c51) (-0x2294c2e9e1368283d567b662cb607ed2adc4f4a19471fc99bed92fe4cf7d23e8dfba4c30cdde0313a36c704cae93b99);
  Step false (0x18823872c774aa94e1134f53e5c2e660d357c9c3f8fbb7f769e66e0b6a5e1c4361d427e80c5ee471a5f2f9d7c64e4eee) (0xf8823ac2172b6e84abb34f39f0bd3b92fddf64e1bc10a94af86190ef69474f9716a9c9272cefa80b0706cbd7f406342) (0x19475fabf376ee08b7ae3a66aa17d9b2722c4f75f5cec4298995145dbe95396b77e1634662147e0d0696c74b2af0926e) (0x257190b4fc4b3787972aa0e676e2dc64ac047ddc06d0782af6a9bf90faa99d2468a41122c75d62e861711916578842ec) (-0x17196386cda6cfd34fd3605e67bded325da98617171f1ec73a346f1019aed4c9877a3fe3c00a8b0e0bcb61edc8d175f2) (0x880b62474cf47fd40df9d2bd9992392840fa3e23c70f33ee1221dcd4c7f08b582734a7b397cd20ff649b777c1cac6de);
  Step false (0x113aa496d39c2c8840afae13c96a68f4ab8c5016083f57744e8cf44f7d61735c0fbf0ffea95f028064a0198f9b7fb2f3) (0x5b13aaaac8225921b7e5eafcc7dbed5d91fc5cda0c7aa5ccee3271dcfaa8776f8c01a502fd70a1764bd9ae8682f438) (0x139007b04de5158b06bdd9c9fa854a93ede377c1d99142cf03576c6d70dd872aa9169fd7917d53594609f3449ff90fb8) (0x5aa9b1dc7c6aa38f3e0b021c53f5a87344255805d8b00e041fa3f37a920baed02491bd36f4b339fbb48fd32226bd958) (-0xb6a45b3b3850463e2c7837ee15eb6c1533f5a22ae1650041462ba1444d706ab8a6eb63866782aa88eb24f6f9d4e47c7) (-0xa0e0c8375da13f938c233029bd522c73cb19d170b5c6392a9ace4fb5ce936ccc3a826a74a120f53195dc86cad3d2908);
  Step false (0x16a05966f6db725447ba1112187a15a9af80f363c9724213fefa09fd9f1d61a0eed27996ec59a2507aa56a73d13c55eb) (0x845aae800e1c9e822784c522e6967c2579e0525830525a0b9c575848c07e9c1f3062b9b5758547c2ba3ed473016a3c5) (0x153bea8d4bb8ebf1513aab067e89081070d2ead8dff456a9443329220528efdd5cff165b24bd83992d5039fbc5c507c2) (0x220748eb9db7f70b009daaf65230667a837d9eca5fccd77d696492522f78ef74ba4bc0ea02c7b9004e6b172c8657f530) (-0x13aff392efcbc24175890c215abd562e3224fd75d93e1a78eaa64dd38e40c1b6c08230b155f9b049a408dd2fa0300c8c) (0x6e358b90465ea6582d0eaef2fb99dbb21acb4f470d02c6b7113ade5399fe3cd3bea24f1d71dd4db99507d963fad2cbb);
  Step false (0x9e4114d007654ef420f3b93e53dcb28fbe808247e1f6a2f5b140888dc793cfdc2963db7408ab38934307fe4a82e9aee) (0x4ce495fe03d1238ab91378b30b3d95a024465af46f49370355546a6751ee88b55ac8270fe3f333757481d87656b39e1) (0x9c53bfe15e846b40e1d8de37c9f3bbba7a2ea9083e677d8f94fe92f069f6b174b5916fc141b06da839c638966cb787b) (0x8423e4f252c9cb68d9e929e425205f0390c16de047c1f9627ecc9aae457b077a559c52c2a0bbee90f5f4c0d0c5a5bc7) (-0x3c3175ff8bf54bcf1f6635e8e09952e857c7cd1789e3c9334357ecaeb74fe91195b99de20d4cec17a0c13af0ca31b8b) (-0x15185ac17c821630f6386ca6e309de1e227d25ad3522ec86c6f9602fcdbaaddccda10d22ce4e64ab8ca05c357964d31);
  Step false (0x1141d0042ea7399a8ac8ef3c4a52fc02784dd0c0b1674cb4fd79291f2dad7ba07dbbb5482b285a91749a3f3fce17576f) (0x1483794949e5e09c8d3822a719dddc4cda2e978e538d2354e8c48b8b118d9b2cfba09f7debe096813fe537eb6fbd2e8f) (0xaa79fae84048ff7d73a14d76748d93b91cf3cbce468197abcf1cc37ecb14bcd38c52a5f0622b02c3874e47547eeaddf) (0xa4dab82ce084e3556137f9b88f15504e88d515caa90669d3238b4118ea22350d7a4496df68afb5ddaa7160de4f98835) (-0xb73c7cdcd80ebb9417cea5be749980fe092c0d84b5b1fc0a6a5b6cfd12ed30a1ce228b9ded67cd03d80169eb720ff70) (0xa6c91af75cac2257823682a031b5b4cec205f5125b2bbe4eeb6af9f50186c617c4e5c9707536c843e130b6525891f64);
  Step false (0x176747f2e861241460a95fcc87b4d17301e8e1ebbed5e233e3a8c1c8c2a6926f218133c4f5c17ab569146286f1c59298) (0xf4be4c2d2b061045faa6a07daa5deef154d1de7212b5fe3470b2b461c5cad6838683274a26b11691444c54702ec59ac) (0x12088bf324bd52ebbfdd261cb414918a1da46c48203ec510f4ab9a20347ee7857de23ee93910b2cf5fba386f691ff851) (-0x1d5e52f538ecf4bb45b1401628f51fb7c731ec7a0ca5ebf5a11170f0396300770bd11938b98596402b868224881fd479) (-0x15101446f02568b4a550e0083cebe4f43b4be919b89385f375b632903249234649016b8142f25d60cabf7250c8d30a62) (-0x4b20176f5b77f417b58d13b178324e496b0a8fd8e3c1d77dfa796ae8a4f402bc8cc55b13e6065cbd054701041e0a3c8);
  Step false (0xc39591f5868cf1984034dacab63af2b62263ea9729ad243ca2371c54662b7d02cbca18310bdf432f72d23da8d89ad13) (0xff0eee8d57cda3ff8dd8b60ad56f3937542c9c641023c49472953d95d83e53d1d46bcb5d90bbe369734bc735f6ebb5d) (0x15a8e3880b3e4df5811b7ad5a46a400c2b5c5363bbdb1f185a60bd673bb91731202ab318fd8c28d603f16b0cc016addf) (-0xa0a10b74484f26408404c3dd17bb04a707c6e224e6a195101b0911d55f09ea2d567bd1c1a5c0ee25d1803ce3ba465fe) (-0x5bf0a60207241afef7e4a76573a013d5d126c05ad2441e76562166e79af7c9a40288e6285835417e9c45c74764fc21c) (0x4d94e7408ed5b496e5896921ce112a0161a16a29638634ba226001411b771aecd6e6869980d1d0bdb443ab40dd89f9);
  Step true (0xc395aae351f035dd397aeecd57ec365c806f2138523201c5f1e082b5548b8eb63ec23c5b6da1e728eb5079b0ea336) (0xf96150e7d344a8c404746f2494ecdccc8b8d12d398b5d94f9f9e7276e3d0acbab619f7594033849fac34b49596f08bf) (0x10b6f7920b6f840438c255f2f4a6a26f6b58b7dbdaf329503b7cf3243d2a5a6a5432ad7323dfd38424a44d19112ba3b6) (-0x3c324bbc4e43d7b210767472f8a6d1c7b99918b5e2b2f0dde66dace82c9e0b7c176aad6cb5e14f9bbc8314a7a1176) (-0x5bf0bd71ed76b71d71390d735937c3d4345bba6e4c98e9d094e5651f5d459ab6f2fd7c38242001326790386cda7) (-0x2ab50c13ea2c7e24f62b2aa5ce0e28f5aefa5c567f56e253e41f342692bfe06a8cb413950d34d6cce356f160e13d);
  Step false (0x14aff8b954a6ab33cc025b433be76057c89a9c5da456de6434e2a674d7ae16d1a1f2870d3f8928c90bc59f06c161a9a7) (0x65482f1c01eaedc188fdd8075797a83649423c24f7edc89558cdb7d2ef27fb45d232426e49aab2ef685ec8c2e2b5614) (0x188d7060dec0ebc78cb138ef18d76af5f4f87758398708a871cc0acb38f660f141b105ef1a39fb52032ea0274b597eb) (-0x16e7b451b34898525547a9b2e938b0041d59b998f024ec0800e0d089637cdeac0041e1305eea6543c7aad98c889c82d) (-0x1075297f8c012e81544f8fbd35c878459b482df96febafbff46af6048630952dd12fdec2ef29552c0eb8314353f48a1d) (-0x75d172abaaef06f99e4c97453c4bfcab6a4762ce3b8b7909cdb2f240467fe74a0c1ea82552517b66f4f867ba4d69ec4);
  Step false (0x1ba45b66f448c315f6e638e442462cb9b16d777c0835981e6ed1352986d01592ca3adebf9df22845cc712ecb0e5658c) (0x137c931152bcd481c3c4ef1ff4082ece91c63a43492f6664bf5bbf3efa67cef4f371adccc999df98ebb2d35807ef2ace) (0x1053bfc96f3e1b62221a5a2203a9fc393758591d826a0e0e7b274ccbe33282572935e68dfc17c8400d90ec8eb159807a) (-0x46b3b4c13083a79a7eca7da7bd20e0d06382a7552a3811371059409bd64aa8612df593832cc2927da9eacfd9d2a38f8) (-0x1d620d6771c122670e9e48756e0d68159552cba95a9271e505024f2dbdf0b4e93cdc537cd30111f463fed89a3bc8ce) (0xdfc3235ae92ac7c766fce043fdcfa753b69c1b1e47738cc0760517d3e23e3eb83abdca4bc3001851dfba4e6fbb7057);
  Step false (0x3b81e530437bbeb17ba6b20b7483707846dca85c9e36fce5a62488af6161d5d5ee859047348e4ba48fce4da982f86c2) (0x1239959b90ddeeb1c16e7f245ece63282115f0f9af4c46eecfafca2dd5fb37d00d053f8ca7110c5a8b33f59f5f3f1d2) (0x148b10ed78b2184b4d7af6e3cc291c86c28d234f6dedc889c0d2caf9ff8cd4a17b3cc09a7c6ae5442fe46be4ad6ccb80) (-0x27232e819522615615c748d6cc949cf680244cb75ef644a017c455deacb16214611991ac7c8c31172d4c7bbf2e82d92c) (-0x882ceaca30506b1ca28df093893c92a635014cacc94fa954a67f4563e7c8fbd2b1b2b340d5253877996f737fce2ac2) (-0x29fc750f60978c458fc3ad4c82383f026ccdba63b559ce1db7d8766ec59fda848a553442fd33fe0e06a9338e81260fa);
  Step false (0xfdfd18f627846b060b6bca27ca908a5117057768cc87e4a684ab683340bf8f36cec91548b4b134a15a9ff771cc8e186) (0xfeb741252001303dcf37fd0fe5d79990ad1e2dced5fd8cdf219aa76b6c315807e3b0256b5f745725ddb46a9708a908f) (0x15c01a10f41e509529392dc127960e966dfde4281a5dea6edd245124fe17aff5e43fad994e5d0e17c0923553c6d9bc27) (0x18ee7dc7bf3921162fa53440f6d811aeceb24ef304f15973ca865b2d43044ed6db61eba3c26a401b57eb2bd4808e8b9c) (-0x9b0c3a95384949fbb79cf4feb494c13b5b6a6b38e2f71bb36a8c7e00e54c645ececd5b8317062f41d76a5296ca219d3) (0x905dc1671e0d3d1a51d8ce82df245bc9d45771ae69991e4b230677079999803babdf3a25ce238fd57f315fa439c32bf);
  Step false (0x11db330f2c0ba0f3570ff2753f785856fbd34bb4546edbda2d55c89ff64bc5eaaeb23102c97b6a4fa55229a202df02ff) (0xfe3468a0a947141a4080c4890b368646ad49da4691c1f1282a505cd95bf72e9d3a78e372909d1e50d06e9078a8231ec) (0x131dc931a29fabbc5d5fbb0f8acc4315f6bff46fa9857eeefe99b8657e384f58ed245c4dd145bdcfd6a9ba7b5cb814a) (0xa1e8f9caef81aef6eb90174999be316a2d236a43de81eb4c0f6494bcb874fc3c7c8fc80f8ba02f476a7232d9eca62d) (-0xc42e5eae182e39340059ace6e6be3659140ada6ef003e5598badb9afe4d62620afe54bbeca23994875f111b4efff4e5) (-0x59d8ffd377cfb31e5f7b9480ad0f52bcb773349513ab99537b19b7858cb70bdb6c604b5908812bb68a1cd2c05e6c4);
  Step false (0xe6dd8c770bc9d26724eb2b880f42a159bbcdbcb4506ad74377bb1dd6d9c5a8ebaba727f7f50301fd7a673f53c40dc4e) (0x13bb20259c903a2eb364fec57072a30846bb3a61e80ff5699ceea2b3b364576744a9c286ce914db3667242fee5f23f9d) (0x13c76804d7a6c7366449e7a4825ed9199673fd0e3535cea8c4a8cd8646770785142905244a24b6490457f664a302bcd7) (-0x1bcb879a1030c723b5a6d849d670076ecb4abf32923f9ffe6d6a06f8163acd021edcff274866d1ddb913426ac1e7d2c8) (-0x801a045a2cb8e685b4d7388ea0ae78cf23ef60e0a038f8f68bee03e061582c046c326613811fbfc1925659ff9cb8ced) (0x221ea1f1f257493d92996ea2e9743f13284a37e6071a7a0febe08a21ef7b8e2d78739331b0ca6bb5912ace5cd10922d);
  Step false (0x11bb83fd1d3de266fe9b09b986471fc67c550af0998343aecaac634f82c73a09c267d77e88e65cb4ca1d7ba34b895861) (0x16cc50c22559871fdea2b21540112dd146d7cd2334af1a050b6b5828ec2844e76a9c463728289852641462761c4cc37e) (0x386a00519d40903ee2976393d07311c11c30eb8501bca6758d3797fbcba355064e117deeaeb1a6584b8354cfdeffa6) (-0x11f03a6f3a4212eb466636b5255f580c733ec27d17f754325e68cd7db18e56df6b844f3b9fb95265ed1e9da67d7017c7) (-0xc17894a4f9324e0ee290fa3c68d5f68a41dacf10531a76392eb0a857cd67c87e630d41cc3c2ccd541d27825a285b61b) (0x2176d9212ce109d9e5b5cd800e393e89e39f285a96d0391abf50b8982abd8884c5d02a8194cd6abe9b147be1afe263a);
  Step false (0xc26ef9f4d20abd0631747e3fde8c0a9988f1e6fbf788a81c5e1410026c9647b4863243fd011147423215558fd3cc75f) (0x1471d0bd491294711299138a95ffd4df6f833fb9f677aad6da83f43a3bcaf687ec494f7b54b91764ecff6c636e958d1d) (0x6d82d931890e12d4e536a1450363a709dc6ab89de59e8fbcd68d98fc86f6d6a9e116e352ab766f45119203f132724b9) (-0x3bc187e611f39ff034061130e0218827cb45579130c0904e57223e41916551f9d59d88cf60bcad78fb06104c87194e88) (-0x5adc7fa66bf68c3d9e060bee6dc97d950cd20591450342b0b865895826b9a12ea305343865b009ad14942d1cf514378) (-0x1198e61bb760388a24240991ed09d6070d841d444d663538f3d0f71eb855727fa7bdd69d8f398dacc74c40922c951e0);
  Step false (0x128b73bc076d4678dd91502a86588690b232dadc54167131e8903db8775b26b0506dc5d09066d4f9a8b925c6127a8427) (0xd29eb12c5547153f432932f964050f94a3c0ca616fb5fbaafaf4df9ebc23d8d6e44d100ef310d5976f4f6540096e327) (0xbd5d7ce8108d3afe7d4a8ce1e7f59845642a32fb42a9d927d13862238c9d3bb12f000053c4f1620e9b474b8c4231667) (-0x26756dc1d9ab9173a9e3a2b686e775928a2c94de321f5532240b1bfda1e74d1a2fbcc5e06142a4ac03c6fcb677f9b677) (-0xd399e6a2735cc358c28a103143fe485fd4601d3dc05523fde7bcc993d1c3492e7f676773ada8390985f51e94896c1b0) (-0x5313a4fa43f7fbaa2797f1173fe535b9219f9681f3f33934e62d2674f00e2ccb91890303e20b2e91a8e2938142f840e);
  Step false (0xaf46bd160b9efc786edb6d7b1581773783e3471781eb4c1cbdf6ae576e7cadfcd55a0b7ce78a50a9a6a5ca90b0fd3b3) (0x7be0eca0003d7381d9741da075167989fb956d77c17ea7cd01f861211cee39c0eb6376fa1f69371710c16ba03f36ff8) (0x1024c787566e72795f65a5d9adc0bbc05b480c1beea93a0e8e379f8f80f984e8285cf76558d18097dfb51a2d247b0264) (-0xa04f66cc41f3d5a972524eef153c16b77ea45313a731de7a50e8d0a53fea70279a1b51bf70e6d389a6972075c7b555b) (-0x49d6ad850ff150749d7357f5508ffd878af0948d86dba9477f89cb694369dab02ae8b73117bb0c4c42b27c49b650aa9) (-0x248a9d60bcf1f6b66f935dd51b7dbbfaa60feff504ace77ab9bb6dc7d72c6817e49664c33fa918dffa39cf5394a8a36);
  Step false (0x1d85c2a0200358032626ce9266fe0d9e33d8eab1d24e630934cdde25c84a6bf8fa866c87be6e0f351f85c25b37b2c64) (0x88e0fcb490e7cda18937184979ead10a5512c7a98db5268a3d537019f29dba48d9094c85328df69c7dbaa414a5a3dd5) (0x6b26d1f9dff1b60564be14ee2ab0d1d71eff126c45241f3e28e7a08bbf047aa37b9e180ca9bb635234f2b428e139ca) (-0x49fe7b8b1324566de66167b5e3efaf465c9de75a957388999a18002e561d0c761aec2775abea36475234085a0e447e0) (-0x21844ff94d3a784f5e7c776e32a943f42209fc8f996b9d7a3211884664726c372a044f62ba3e45c12be61bdc7d3be1) (0xec25814c54489dedf09922911abfd6b86160fe6d5944598f504dc83244df9e866098c8336a6e6e52f1314a2c6e786);
  Step false (0x701988f2901197d2e16a8bb830a0f386c71546e5da5c5f9dace332a70ae5d2bc79330411e621db0c03e89603979e236) (0x82cee8b91a2deee166d04419b6db86f670af4fc38faa1af9afee060c26fba8d6193b3cb9c74cc77a980ab3e783df00f) (0x5cfb167c4eba23932e472b92cb53d0b6ae707c42beedee07797d53e0a37f1b4047df6a16dabcb4ed8a57af0675bd89a) (-0x837bd29b54f83082c0da4d9ae41b4bbb4fea2f5b43c0bead7aa9210d7882c65e981ceadddf8b581cdf7a42649a2b159) (-0x1e33e5bb7836f41329c28478ad3c82b74675118c6b0c862717118a0bb7833e0bdeb1e11a6ac3c03089fa17fc0f7e701) (-0x1a2b600b107ca017abb918e17b0eb2791019e3ab9054f1a212385a82c1e59d928fd83155d694865de6ef36290e6420);
  Step false (0x1891bc2a5c7a488c0eac97ede873db6bdef07f6fb588110b46482bf42a8b4ce9004d617016b60d3ca73297be4c33c7c4) (0x940fc440fbc4ded8e039b40b3f38d4624bf63a91f7abc1861ff38451e85f21c5d138f34aede526627effc784616d384) (0xc3e3bcffa3bdf9f4b542f2a3492da91afc3d53b50d5c8fccc7b8efd5f32b562d47390d438a187e049ff2e716b947c49) (0x345332f9aebf1f85071aa0d64bd718d85ea590a58871b58a11e8514860df0bf661113dde1c8090abf8629806b711f87) (-0x1736ab6372fa963072d73d84129f350249474788283a10a2f4f071586deaecd961c5bdd0ca7eb1d8550986b1e780cf4a) (0x104d2303df746ce5cbd58b38603b01af3073e5b01743d395fb8332f83b1faafc401608cce1a3a95067785687ebd4865);
  Step false (0x14c829d316fb5cf9922a74350af5cb566a56813a2c2002f48c6f4ea5eeab047438d2c7b4f1b3ef6b4d62fa92c18593be) (0x15d606752401cb01394a8961ac0b9d1f658dae7c9b1c473940934438908b36f35dad79184c2ae117769cb3dd6c57722) (0x11b05e2a040e77b613f95cd5d2411fda552e8695d89be7cf0599aca2d1280bbfaa14d646bbb905a857901612f5bae759) (0x9b08516ab2f526b5a8a47eb479e92f227ab9e6c1414f8afdb1d0e3ea7107e9f45e348e1a78f197712b225e87c753a84) (-0x109bbdbbe0cc07a4b1dd3607d6ce000f0f1370669014a49b08eac344ec81f8d24cf5bb4df8d43e50089e52c6bdc3e88e) (-0x64e054ec63fd4a0236309c0e7f7a791bb142235d1da0add2aae4f0077b8cf267de93cafa3482912983c0328db6a594e);
  Step false (0x1057aea72e387b0998522fb465070ea9e7b894cf415eb604469c95402725dc748cb51b4bff69fa8303dd5f263197f2a6) (0xbc9769ad9569772642c5257f41f0ebdfbc69b3e5892b58fc5ff8620993617ee1ebb0f5fd3fe1670463e98d84331d1f4) (0x1640f54b544b8b69c7bfd13b57aa6636ed5743a70af14a98101465e627444c694828e8a622dddfe399e443b4018dcd82) (0x1604c2cddd51ea423e84db97a7528ba919ba294408b26a946c41fd96258e5a69b028b57d09afe328053ab2bba0093da0) (-0xa4543af6024a01d1ad6969c859aa63d625f256fbefaf0113cc986f99cbeff07080ca274f7258bfc6c71869bcd848a44) (0x68cc71cba9680bb9617129271128018eabe80ddb9673faed1240f29d136fd07d30b7ac574bc81e5ebe5ff7fbce15715);
  Step false (0x14fda3e9c2c22e4c867bf338b4fa7ef31ecaf2f3fabaa49d1139874b699369a04843ebebf76d02e2380d5ba7653240e0) (0xcfdfa0b9a7ff1fdbccc3a3bb08658befcfdcaeac3528f519a7970596bf93ae93117d691f9a500a7488305e5d7a7c3cb) (0x13d0206ec6a2c22e28775b93f2a20afe559d6ba6b4aa604b1db7425f41f2301a0d5310a9150bedac42e1ebdb867dd49d) (0x13e610e39795d1b345c61744ba1a8b0b0f612d53910a0717881553ce31f47250bad7176f0d7a904fa1cac2e8a2271570) (-0x10f1a5423639d0fbe6a5cf1ce944af0771d9a54721193f5d39e6a7f70024dd54df3152c565f444424ac48bbe729714e7) (0xf908d67c8ef536f89bb53d89590f32ef3bc3e3ec0c55f9b5ceeb92670fbb3424a19d2b9022acd823b7139eead5fabd);
  Step false (0xe1da6afa6d35a1f69b2e16037736f941e7c5b00e553003816c2ca5ebd25211787a1c94b684012182e44529e666f08ff) (0x17139ede8dc619f865a5bc96f566e2f80676ab3da1919cd52355d284a86bdd99caeb356943c10b4affc36c577c7fc2be) (0x1e14dc23e477f3f5295262b800be05738c17e39263f99734dfcef2efc444f8312189148b1c6cc0772cc38278b9a3147) (0x2097707d1630be82ea332210263b10fa5bc9b5bd52b383c73d9ed45d2425fe53203e6fd91abf888867d84dae8892791) (-0x7a9984a2ba06fbf6092922d67e03c97b4101881ccb5c7f768e8a24785630ca075fc3b6362cb6a31ac5e69d06bf1eb07) (0x579642e4918d50863849f0d246d681902a4ade8b4df8e1e3754c2d5f183756b8eefe4e3c7926a8b43453e47dd8db5d3);
  Step false (0x20121313904c7c041ffde2cb67fbfb7aae3637b034042249b5352fd10f11f53e89599a24dc7b98083a90bf989d317d0) (0x17407c880f75febc1ca6c5c2d897955c2b535ef4330e49866cb3caeab9c40dea800c5329833b5e68572c92477f00c3be) (0x5954c0cbc7dbd4323c63c7c269acb6a3a13dbb9d4e214a7042d72e5af7a030a3be666242fcfdd509a7babaa6984674e) (-0x3d256ee7f0d7753436dd97efdc9e097fcd5684c31f115bf33ff7bf88c886d4599379d394d504b645ca68647295922d04) (-0x278d5fc1452bda3cd7a4e1af706344f96e0f84d51b4a693586dd1d8afe4103961f9345a8f62bd740a0b03980963f52) (0x37551cad7c3f721ed3a7d84473d3c7c7ef10da76f02b81dcdad866767147c3762b4138995d2bf77367f9171d239bf);
  Step false (0x2e86ef910eafa5b0a06b6e2cb986bdfea9da3717e354e958d115a96e29b1d131b1a1199506b44536a16b287b0959a52) (0x4a74791ecbd3ad0e42a709d3269a27dbc4692b66fe8ae7d3d6be4374f1a058b5bba56483151ab798057f898c715574d) (0xcf84ecf0e9f40dabf8f900cdec3aa7d0f05208d9df1365cdfe2d716355f3b5eec1a62681462ecb94473719b310b03fc) (-0x3d1fc343725f02e8455ced7cc4a8123644d8df525a636050e0240cf249a4a75d0a72ed1503bdcdc949573b4fac86f73c) (-0x533f3c81f91487bb536ce0a0be2d8bde402461fb6d0f55be17c6a8f7efadb065d63bb900d926d37d8cc7729c9caa71) (-0x2146d3ca47d4b792f54e160ad768c9e5394ae687dbba202c818d7cabbb229d248a67694382464c8d7f6b2c61446e0b8);
  Step false (0x34756dd84f5a379b0167726839f613ece4695246b8c4a410529cf49fbafd391e1b8ada011e4002b0cd1c0f6c5e9786a) (0xc0094a16ae958e05d795e243106343252ec9d211006b85656586870be47ff53ec971ab30c87cd38cf61bff0cb6d5a57) (0x1bb256ea05622fb49f30a25cc35138eeb079541f017a688dd8876bea2ec158d6a8411b3bf1c277ddf8cd3c2dd75a7bf) (0xc5ba5aef6d57a9539f4d8e6f6dbd872a17be96d163a524eaac806674eabf8f66e08a99e24638a985608f3692b6cf9f) (-0x69d36eda43631ed8920b3d4bb7114db8af59188c2ab2c2a3788842b5699663f5e02b70f168aebc1fe3cd5724d788d9) (0xed32ed6eaa6fc16c4c1ab4f669155d0dd59e43131da9ffc47969dd773d289f9cd174aab582d0ebab7414ba9106d99d);
  Step false (0x181f368c4eec54de33ed1c3d7d5002079c7368eb16786139758a8f167ab8d3e7f2519a175cf7e8f985d13e82a0960e4) (0xb1e66e20c0c91921e89506d9a59a016a7df84a853d962be159313cd0d9d084504333d4b66d9aef7bdb5112c4eaea867) (0x1705ce83bf2774f2bdd097a76166c96f7a6fb57e3620bccd906f8b2116d8a2c4804f23c0eccfc50f9b8a5ef1b6dbe4fe) (-0x106b142679cc5cb5a8be2965ac5b3f0ca2c9e916d5370dc7d2100367129fb5dead2a174e3c7ac16fb2d0c6952cb27171) (-0x16603bfabf80df3e4e1697c11634a96eff1b4213f7c6eb0d5f41a92b11751ecad0e9bf14e1778890a9d06ee77049f1) (-0xd1cea93488343a5721fd448baab098af0ba95b28d58bc109364f1c1ab77a191e77d61b196b4db5613657cc415c709);
  Step false (0x8ba46c5263a6924aa167affe393e4455e6967575438d32a93fc819c494cf96ec8ccc468f89dc30aa75addf76906e3d1) (0x66b94fb4a26cc70e63a236791821f88f3bbd910f95f32942f072244be1c480a4fd9c088c0c44e9c4272fdd440c84795) (0x14d31d1c00c96ef81d1ef06f95502ad3c73bccb7c9772820c8ebc9131fff3770864bbe5306cee6c7610ef6d20bc9e958) (0x1310e35b90af4667987ffd8ac268f5634bc1a7bdf1413aca2d2e5b7761e51e33a8b8388a1118303fbb1c853bf3feb3b) (-0x2ede0cd99b599eba4b32a5ad7e2fa8964ab264ebd3089c3c8f60cab37e5410488f7f128c00bb90be71648784de228ba) (-0x193b22a31ea150e46cb4ce342822ebec79042e424ae0bf2fa120a70c8b5519b53ac8ee5a89baf48aa54567c28f45954);
  Step false (0x182a13207b381227c66ef8f7e33069c5902af868b594c8218b53484399bb0a2606b510a7b812866b5b53e0270ad6182c) (0x9801f92586f73a75a82f769da6335d5d20154b89c6b36ebc8a9ae77c28486c6cb52a74d5f8f2593410d341ff2d11768) (0x14339160a762dfe7b6bd08b8b41ba1d8b5d9f534f9bf1c1452ed0e72336138f82efa081db2427456c43bcdc7df324952) (0x21f27f6068d19c9276bc4a37fb02c639e74488e49ed50061773b3fbb7b5b3c35769245519a1c747084cf376425a5403f) (-0x16746724600f85c5423417fed63bb0cb07aa74ccb3f8b2c5ecbd158b5b6b07d653852695d88eaebb19b1e90c195de2fa) (0x2dcc04ca70b2e8dc4f83df10f524f18ed6c7e69dcd1360746143897efa9ef943ab3328d30851e50c332feae09e318ca);
  Step false (0xe4c40a343d424bdd3a160b709327b520ecf91273e455af0464b35da0173cf84ca520560b8f62eaa52a2e7231fdf68d3) (0x1032cbadcf713ad5a585c1a861e23a223f3916ff629975b518ed58463ab84b5a5db0fbd2c96f2f39cbaa602da65dac86) (0xb12f1a0a226b6127ef5e8f20e94476fb0da796a6b29d695536a6aceeb580db4cbc32fa309380080bcf1f8443ef959d6) (0xbcd458aebc1e1ef1739a3898fc00c9763e6adb35c45e1e30e9a3924ab2d4bd019e53dfe1f63494715d5338a45abcb44) (-0x7dc83a6e201d55ae07cfcd3739cd83a1522fc0b8ab3612f849ed2a9a802722c3c84294031b2cfe4e1dc6e29d14bc7b9) (0x3aec6f404b4bd6fec7c6c3801016805140dd3f9fe7902a351641324326e22c7f436999190ab71f6ceba079c6ce830a6);
  Step false (0x1a0034285bc1cc5ce681685a2522d4b4aac33269f7154b49ddc03dcbd500d543e9b0aa8f83153dfd00a5bc5cdb1c8a9e) (0x1056b5167a2a65551f8f3bb6c64bba6ae1db2f319e014a031701966e8cff1bdc7dcbd3a250cffc00920dc57976398f21) (0xcada49bb8d20da3e8037457132f1b65b35a319956771e82d89efd2794a671324362add7ccaa5c5a3bdedf2a0b95986e) (-0x8202a9f9d7294ab0c0f3e8ccf3893aad3fdfde493a09aea38d50d21b382193783215d0207f0e80a368d609c630e32cc) (-0x19ff566de11b3e46a226ab21611aa033e2d69dfab273906bba0b536feb3d5eac3ff0b016398f2fb6801b0c3f00027405) (0x23e8366b94351ddb1173dbd5865a91fac2ae08a6a00c60723a3c67744cddb2ae58840799632af4f88d8d8c8eeb13ca);
  Step false (0x16048758dc3c64465936cdfd631fdfa2a6a04b78fcc3599c5252b3c5e3d3171dd94590ef2f78ae3bc4f92a31d9e5ebea) (0x15f044d79df07c982c9c0a9b57f88351e393d9ebac87b87232935c1d25c50495a5454a3339e59bec2c6b4e2e40b747fd) (0x1307423a6f5c39772e7702da1e781c05945acfa38140bf3ca80900ae691002307f42d73c8e5a6543a68911157b4d8395) (-0x953f53b41285a5e2bf322cff06ab9095bd6f8a3237fa0ffc0a9cdcebcd3dbb12d20dd38e834264a27f04cf64f161d01) (-0x12a47034d8f8a96df1ff174b3bfee083b42c9bdee1656066de668afb12442e2588dc5f1755650416f5c4fa42759222ef) (0x4bdcb3b64b5383e8984a6308801a92164739ffd8eb8affa298385ad268b9d026b5a2aacd9639e43a085d629b9351b51);
  Step false (0x2abb1d546549fe64ca1e322c65c7654a0317b1b576452c81104bf7e922997b2e28eaea78488991925a81d4a338fdee) (0x6e0eb8c6c4b62899469eb0cd8d437ea485320cdacb86cc56004cb876ebee8867312e4ee9ba292de800cc20db8108256) (0x30ac89c3b84fcdc0eaa32a0b964531faf7a3e43d69e6bd0d9278d7872a5f5204c7a6e0a87027e2d012e2ddfbc1a2e4f) (-0x37480a537d41b60327e88354a84d8020201434dae3badab20224714e6aeca5f5e84c69f8e2e89c6bdf75480d72944f2d) (-0x4637828af7d3ee109c0771d2dbbde8995d96b26f4e748bba0f75811bbe55895638dde090ca71f0ea7fd8705fa4dc) (-0x18bf3c245588fdaf14d0f28c852532b3b338d233bad13da6505cda58b5d6aff4df0ee95071690a7b763a85f2a04f1a);
  Step false (0x1de5213de08a9bf13ad567f6a063df27c4b872054d2f1e31a3f784837b15d1662114253c426d073d9f606e5cf667ff5) (0x8d35f665f4ea7cddeb12a95e304f4c6d848eddaa1e4372a6c35a8e11e9dba83ca5cc01fe9e9e502977a30a6542ee0f7) (0x1505567689ab2c6863ece9ac663e2039074f69915e74d593ae078e34fa42892d3516933712d6d6156deb366478218cf0) (-0x50579ce42dca15368af5cda5bde51e62759bfabcfc74051751e75bc4f33e28096012417400e1b25e9e5b9d59b500c62) (-0x225e397bdfefa3a1eac5d60e8a24423e21e4d852573789e76d24e59f5785a92ad1edec98bec6bc515429bf4b255082) (0x23d087f22fc0f8d16df0a798050d32c7a0e2491671ec0fc28f9f36518757cf1ae8fccae7bb847febd2945f33287efc);
  Step false (0xe465642a731e18536496e87951662acb1d83a06447744b7456b072e4bb10c7645da8e88caf9faa1763d9c4b3bee8e8d) (0x175d9d7989a9413e34a6d5dffad173f613d7a3615cd9339eb4f0af93931e0f9182cfb5588d967d2f16a59883490503b6) (0xdb111bd6f754ade7722aa2100f419c15afc04579fb66bda15a5aa8b5d28232087ef88d18c45f86f4572d5dd9f8abd25) (0xe179d8ce8b46cf1616eed6d43d47be2fe5885da07a392a291c472a34edde74d5c84ea8b599697f0d46c75ac28d6e047) (-0x7d603b304b01d029495bb624634bbbaf77e3851306038c4d3668a8b0ac259469b555cb0229335f35494c4fe1a8cdc0f) (0x7fb4a6224c8dff38e14403c184bd268eb0b8e2f2af5d14f4a414714453473b4533d7a14ce12409f62a353a540381dd8);
  Step false (0x1366e090a7d55323be211367075e3beeb5f6bcefe29776bd9e188f2ad766c3839a76f6bc576aac72413141f7e8a39f0a) (0x52547d3a5f801028cbea1e63339ae4beb4132eeb2f6f09c21b72c7b56eb826df9cfd1d0fe4e0cc7be5aa01635d7b541) (0xc2f538d9208244bf2a37ac13613398c7fdb21fd93a73af9fbf7c9b59d111ac2a36bd45106e316ea22cdda0126290e4a) (-0x2a8dc7e41aa60be9d20e65e8ea9cd0e227a235fde6ebc15c846893b72fee914a90c9e8ee2a047732cb26d0ba0395b9d8) (-0xe79d09df734eacdb221ef76530f914eb3fcadbaecd7bd900b7f3fd973efa57122b06cd1eca2f5ba5ee0372bd41c0f25) (-0xd98160dce999e098601e86b4e4fbf4c8c692675e7357b3adb4b16e3b5bb0d72f7c274877ba15fd9196b6fb31f49d069);
  Step false (0x19a69c9e1cbde5e39b1a7e593e75904ea3bb3efaebab611713b9c8e7ff054f2893e40ce9007eca8a1401e89cc3a3f073) (0xd6348a6cfbe07798b3a217d7952f2bfa6be26de6af5035ce1310c69100d28106720b7ae81b65e7baf3f5e57c61e1f9f) (0x55ab6e60f6413e4b397ca67a045327accab267a359b83a6afe9298b5420ada09f50cbf0d3f4ae1d23be22549a1058f9) (0x14fbe6de5d77440257b94f9745b17e2a0c608d2e2b42f374eb08640ddd78f229dde6953dfd4a933579ddfbb1c10cf4eb) (-0x194d61fd059f54875fa77e98392282ef97c7d3183af6984763d002202731493ce8411bfd7f22881bf6d82eda1a0cdc98) (0x82154f69b976c0b6bf588147a41e88db44b194a445f82e5018772716866b01ad0fc355203a08c29d8a2e94ba4beee77);
  Step false (0xb486fb35b080868ca5454ed2eff9f47b5270392354195b3031e344b3536d59efe3347509dd52ae5908e475ca61f3e97) (0xae3497fb9897541cc53c72ec3a40bebab66646dbb9b64efd3f6783df90ce67ba47b29d8a200af310cf840a176520bed) (0x1574dc7dd6266c1c9d0161f65e651207972507f73146ddc59035e6b632252d6b0ba65039361f5b36d120457f5b2090db) (-0x1007f6f2ce7eee5475b2ce903cb1df10847722631b9a45cad9b14bc11d811379a76a42324c53fa9e7513fe93580b558f) (-0x4e543849b6f41e6f4a2d3e67eb0f3f28228e41fd89123dbe336b1e1b760b143f7ba09011124925e7667903eb1a595b2) (-0x115b02d003b7ab674a8575042a3be337c10d61dbfb778ca59e1d492d219d7d680a936bb72c1d43ea9d79a787703707e);
  Step true (0x13ec4a4dc4b7484a3da96a268269d7b2bfaf8e8f5e4be94123545a9a399097b8b97b2f41a9a3f9009c06bd127e43fef9) (0xd830bd5735c35a3be40fdebcd40ae07562e13a21274f645abf039895a297604f351fffb6f85cc378f873172725cec2) (0x3c7d735b2440a9b01119b5977331fdc27dd1554ee172ab5713f6ddcc6164a0d3f80b67402bff7485193f2627182f297) (-0xa00dfeffddc4aca798eaa159d7acc77752314ead59314e6f3638d8e0d07a1f8bfe7fc9492d71ad9bdc9c6bbcbf03e08) (-0xf4391ad54c7b5baa7a68b67644972477ccdcafd3683aec2970f5cb26dac68f18f9f482d23425405b3bf34478d604655) (-0x7b1d625a7f48fda30cd3e71ec322735a6dbfbe66e4e04b443453b9e51d53fb464f362c106cac4b6c3b82ddcc323f023);
  Step false (0x11f7d3c17d3039b0b55b03d34fbcef22cb93da970c97cd83adc4ddbc0bd6f670b29c8af989687ebae9c3c3906a3f4c5a) (0x17ab9575386165846c3e67fb1bfe3e1b67e675ee800e6c3f607f415c5654a6398ba365ac63693856f75c582c7b29d1d7) (0x17acf8b13b5cc5893afec26914ebff1365660b6f13a5136f26d6058e49198eac47c025c3ff19cfa0fe834bb23edfc56c) (0x5246ec663899e54189338fe2a90294d651eb9af7ce6ca877577ff8a79907c18b6d5a9402b9fc7773bfd55a0d3138b60) (-0xc6a5633a9cc3045676109cc8b98f5abbd56770028ff1b524d41a6c00d05f682fa9889f1704ef35937de57029daf60db) (0xfc59a24a1346d408d3eed8e9c0db5a6ec13490440347f76ce3278249a118fac26a6ab8d1f227bd34cbb419cb8d21c2f);
  Step false (0x37405537f5c0769b931dbd8e062800fbb78c6187c22c0037254e77025e6d371e117c6064531e14e905bed81215499ec) (0x49b4a89b3024cf3cff327c70f3a58177809c34ece0acb3b20eb2ce87012ce320739b1828b061debf1cde9a880e03a76) (0x475248be4699daac5b1242f2685415d3f27f8ca7995e2beed3df0b86d3b8102b2b91c894165ff79785605c81129748a) (-0x3a5971fd1e7ab5450aea2e00ed9c9d20a4307bd3cb9754fcc7b9b8d9d8ed69e08e82f77846fa764803c971858d4091b9) (-0x7564956d3de8eaa6b1de14bdc881b8d884a2eb11d39a542f17e0a59efc5ee1bffcee105128386317b7b75c7aec3a44) (-0x288132f6d55a68897aef0cdc74c64b4b1cb120b80ef500dc79b96d915bdbb8257f4466fef458a3c292408a5a1b3e562);
  Step false (0xe209a948bddd9b8001995ca0ab2668ffd5f0a92d42039adb905660942a281011fb9d77ebe464cbdd71beb605e48a9f9) (0x8ba13417133e24b749a13f90d4a4795a38a1dc4e63a4585883fe5b20befae903829de75b87cc896303bb7bf7ca7dcaf) (0x16e00bc8311cddc958f2be2f9d440f059891702294ed3c4d7bb36166890abfea86e3d03c11e90893171fb497b93aa42) (0x2652c716968e42531e256dd276aa1cbdc8751a2addfb478601e4428dbb7f4877f83addc57a5141ebddf7cbd699997d8) (-0x7accd4481f90b9ee56d755d1386080fa639d08be444f9b7425fc8d3ce8add67c9e36a4ca35810a369d9fcb0674927c2) (0x23d0908f8744ae7f7f33c1e90515dd66e1bea5d2eca030351287874130710aeec630dd1b40245db6d2ab100f9d39bb7);
  Step false (0x10c5d7f9ace23b825875324fa06b535bcd32666a5991d0370ebaa1cc6d4ff468dc6d39ef0e507eb588bf63356b704b33) (0xade979b1e1de7f9b78018ad3053ddd9786dc1346f4bf896c423605125e4aa84d0c4e1c6ef5a8d96e46f4e3e7409d39a) (0x62fe80ae324220a922a9229b574cd4228d02a8acc3ec2e82b42a5e7ca37de2708d42d5b711660d52ba1838fc578d9c3) (-0x6f114f18920c2f159960099a2cd8d13af4dffbc8504090bca975ff179e1f9a7914ea04eab5b2827b5d4c707c3c4b5c5) (-0xad18cff913d1314e508f6f7e0aefc0a903771131dc0ea278b175f6cb874d1fdd1165835fcb9bc2cf7ba1a2863ab1d93) (0x161cbd539bb0931eca87ad79bb3515cf465e7d988f53d14501963bf021d6fbb6c1076357e151f1fa9a8aba91fa8a982);
  Step false (0x1247dfb1f5585ed09efbe48d21b0fc4fbd48511afa36b42120f37438ac731f054bad2b2288ecdb5b03a1fac78c1f47b6) (0x15297d5ad4510736258d80b26917f4f47cd0c89c67ed85daeed3eb58b35e39e39ab03cc979b5abc62d4fc0009ea203dc) (0x177b0eafdd389792ca53036b40c370e03193d16b9a4a22c652e53d17ec773f170977df77073c281d1f42f15e8cbf570b) (-0x4ee575b0a2bb1e40ce0cca51d7dfb73c84d00fe8429baa27a91c44136600781937a6e8338aaba891fb9bce737ff9bf8) (-0xcd9eb2e7e0f365949465c61179194ea813875c087c9720fb6cc5e6fc08e5606d4c2356c2020b4ded8d8c982515a5efc) (0x73c50867777bef074284c320766893835e877bc8e9d9ac6cbbfb321ff2ed44a8a16030727874054bb144348a88e692e);
  Step false (0x104c4207cf2c0055bae118abcb061b8803f1890b46b67129092e74e0e22e0dbdc3a529224081e6f4dbcf2a0cd5218ab) (0x196d36fe1a973f9449e63255a44523b54399982af44fa6b1c147b686042497aa23cfa8f7771af3f1911eb5cd475d6488) (0xe272489bb9cbebcd5985b12569b16f0baa3170f62d16be6c5688c4b57e378c1913d2bd375043b79c0cd94bb1e85ad04) (-0x31d3412f24aca6cf17f8112f38bd91d8f861b30993d6910aa379d9db09287dddb840be5bd715cee540e57f5d2efb037a) (-0xa36ecb47c79c87466fb700cc5e38b8471b16d81fcbe7c988ba64c61549fe271c8a5efe5b7409adcec4321bdcc41eb) (0x2ac3a91acb4ac23b8351ed11dee46d9cede64e3c650259ad1387e91dd19aa95fd0481119b1b3952d531749129d24d9);
  Step false (0x13fe08b3dde5ae4f57a7e5dfe7f76418f585b16d7ec994269053274e5e65953273e038ad95771a43c06c9d731f196e98) (0x15a7d71c42ee655a7c4d7fb074ac8626c8b020175246bd96fd60d19c55139f60f0659148871d0b04467c02b84a4a1991) (0xee124a6dc50afb8addd7848ffd84e3c41efe298badefbd323ca5806f8f6492c065817ae46cf65419703515440f5844e) (-0x34d2e69d7ee0280df973829f4f23f9df6f256d507398658337d28c2ca609fabd3c6585e7bac34576f18124b52a001c00) (-0xf5ece11c7cf391bf1f9313323fa39ab9066897c8e143d3d081982e4153e235483c7ba07943ae9586cd924d9883346dd) (-0x2e630fbe30cb3305db7f2b0b3b5d78f3a7be8ed42cfd8dda3bca49ff9b6378702b848ea872847ed2af88e1e95ed5a02);
  Step false (0x17c572c344e651ef863b0d27052e5ead3e0172495a196af26db86ed98843ab398e57160d8744495ba1b35a1f2f846a4) (0x18df4e8aca7601a712ff283d8a0e9265b304806b6db7c77a2998cbbfe45f2d1d9ea174c5e2d719c247bda64acdbfce61) (0x8bda83f8ea2e8f996e581f950cadc061ce312688fc1a4e5b1604b9a60269f01aa4a3868db5c616f3e2fd15c598c897c) (-0x34670dc68dd5274d828dd59ad57581702a2834e40b7346388d38166755c45459c7521d203c7ddf8594744866e8a34159) (-0x15bae8f350d90715b54afe3b270e58ec3ddc76dc35ccaffee70d9fe6b75600c7a95a1a0b4dc5cc52156a10236546a7) (0x2f0c20f4d5dc267cf59d3ab7a00411433df3c8182dbd90944c39147c3f4a4076fe6cc69ecf291ca48dd076a9ae491e);
  Step false (0x2dccf3e43506f97f997a55ee6bc7b33516052626edf4315823f1882c992a1b39ab6b1d46bcd51f0472d22b4e1990cb4) (0x2d0b363c54f2293109d83392df397caf73089b299a6178fcd728c050054e2a095b5b3a223e84933cfd02a8642ae4d3d) (0xc72493193681e0c4742f4084edba583e44761a114f2b285a7961d6980d6be6b93a98fd3881dea431e830b9148647621) (-0x4571d391bdfbbdeefd036b2bfe95b5d01867d42a39fb0d8ebc01f9d86cb8f653463dbb3349b674614b564178c78263a9) (-0x50aae787abef858debbc9c381fb6d18370bae62dfabf3e10887741036e881427153f1547db1dd91f56580f8a855db3) (-0x26d93e9ba542e8270a140d12ac661cda1ef9b484f09045e82ce55276e7acc6ecf709d0ff21a527bf3133916d9e77919);
  Step false (0x122daf549a23e2ed73a63c743e294e5d3fb4575dae6d86696091ab98d0e34f7a2d85b95375beb66e588e295cc0e2d967) (0x142adc5ddf6372235931a123eeb48a19dfec3e820c034bec799cae56634dfcb0930989eabeaea31d9f10ac1473bb9bf1) (0x180e338ab1a30bb87e52de7a87050363fe741c77afa56a3202b2fb2f64251c16a01ff8a65d48e7986841573afecde56e) (0x107cbb8dd61331636775fc2778035cbd18d88a64d6a96cb1818889dbda7d550de718de555ccb3af0ddaa29734aee3cd9) (-0xcb533503426405dc02970aebb5364dec33af4fd5e5dfe04492f1d944fb7dd76700ddbaf5ff6fa6d9f4ae94eff3cb312) (0xc21550509ac94afff413ec49dc782cd5ec7d4c09ae5c6ccba06c2185abb184abe2be67a7925ea5a3eb0709a2073cdf1);
  Step false (0x52a3ac83c99552c125c7843901e679d5aabe279db9f7285877cb1395bcd1cda87c223090285f8d32724868e4a36f52f) (0x19efe26cd5337b6ce095979e5b86014f3cf610396b8067b0ded5fa931a0d9bb0b52f14d12d1f548646eafe1e0cac23ae) (0x33d2ca40fa6329e3850dfb264d708abd7e9bb74afbbd861df0836c118e7ddc2834b695a6b9843e5c016efc91e3b8d13) (-0x255dcffb4d9b64bfcd4b20dff93c6acc78ea54588f513f46f7f0d69d7fb28b7323f7c4767cd302d6c363ab7f6efa20bd) (-0x1069f28fb9df8f401ca3662ad13cd1c65f7ff61c80b87402a481d995ddffdc1a415efd4cca69711608eaef7a0bde933) (0x1255df1a0b83b7c5d479fac917b0ae7f9507f1038e4586c0718e41494bef82c447b31953f0e804952e04d62b284bd9c);
  Step false (0x5546c8907e29f4e8867f4dc8f6c0b9c5d2007e7dfd433ba16207cd88ef0ced0c2f2cccaad7c6b4383a8143933ec2306) (0x48e86cde38f4ff8ed9626a1e2747eed30a0bb8493887ef9113487af643af30c9dc3a80ecdabe4674f62c6bf9a64073a) (0x5adc18780ef5377f6c5b77b81059ac083ed29ed89627e4805cecf76623d29d3ab158e9e5a4fc34d3ac6ee2a18b5f8b6) (-0x4c48564c1832aa54a143828c7c5c96e20a0591470be389a4e57e1a33dcf3ef3106d097a1adf8d40682f7ebfe4b97efb8) (-0x117a6854ce016eaa18d4ead5bd98a9ef2bd94add4daa88180e2ff7ad093bba2e3a616a8d421cd7e58d1f964d90500aa) (-0x461cfdc3d5bf5f17d66ebf9e8f4fe456f5d220484887510f1c83578b238c305ff2064aa3e9dd84dd1ea611bff8602cd);
  Step false (0x187f4bddf504a2276f0bbafe1bd6f3a9ae555f6a5948fc376f36b911bc8b30e374137f492c64724f82d1b632274a170) (0x35ade346945f7fe4f2db001c93c95c8ee0a956043452abc3f6704ceb4d0f177a345ea204f0514ea755f6b3c5e2cceda) (0x1782e1b432e51e5e51850a8960f9ecadbb2e7e873408aa20d3c76efa45e47f149c46e3cc202107558f5fe1cc1fa58637) (-0x1ba0bf5f637764b39d50dee80a4a05eaebc73bfa60a54a2fc475b487c0105fe02e6aafe313d8055ffb305247d2e6084) (-0x1713e0cb7bc85ba2f049101feb7a5b10794eb508a894ac267fe7e8f5459258518084231b5cbec80b8057dc3c219b16) (-0x121d477139fc4e538c09e186f62bdda5f9bef1cc778dbcacf68e9817cd7d10929ea26a5032905d7d8efc5d127da139);
  Step false (0x11c8504a9b7b4759a084ecbc660b4c94096d4786af50218cc56c34ab6556bc53a725385ffa2dd53c687507286057966a) (0x551a0f244e58e4971ddab6460585002350188352c97594083044aafc832a12641e5e2af07b100e7da5de8eab394ef6) (0x2cb27e46598eb401a31c7a986ceca39456c5499bf198b797f912abc68e4501c25d9ad844833cbcc4b4c0c0b10bd747f) (0x1edb60bdab8442e40b903e0c76d37ce27b236eb317ab14ab40db0faf048328aa60107c33838084d826452e69fa68ade0) (-0xc2903de8093be9d4114661e26a9f529263bf3f4c10b3af9d8810dc8f73d83d6bc569443eea95a28c8f120d96c3a65ae) (-0x2112029c5af82006232920ccfd77bd79387e973ad22ba2e11b7977b32b1ccff1de11967436d648b1524ac7958a8b516);
  Step false (0xfa7349332cb7f978a690c77081e55966e11cdb8ed2a6e52f1677129faf62e142cdd0132aec40c4513daeced88cbd244) (0x10f01e61a74a1d626cdbf574f1d7c5539113cb1ef605b5e010cc365acbaa7d4857a35bf3797a6ee5c312e8855ac99f40) (0xe04cff76c814db6cb40368cb0cb59919f182c76aff6c8a05ba8edd27a30fd0eeaae722b6c74573dbc8637586ccd5713) (0x359b5614714f32132212f7ec53d6f1a8f363a9c1a8fe3a0b3694c21274240b3a2ea4c930662108181e968896d5746e4) (-0x96c20620cef4e7b5f6abb14039dd3e644239e304b2a04ed4e34c1d98f52aac50083e0e0b3161939214e0278489a2eac) (0x9fee35fce9f2f21880e6d83ffdb50aa8817981a1a81d6d8d6317bd051b028d6ead709b658fc1e721dfc0984eeee79ae);
  Step false (0x361274527e437fa322293550f920c96fd79c0e09412e8f550437402fd28c27ceba223bce1536bf7ae386016696d0496) (0xd3aff0f3b2e6f4878f15a81eabab5d8c9f765bc93ae0a2f0da5ed1941b4924bca4516661600c41a74beeb243695b52d) (0x332c926f3b2fecd11c514e777933c8b994de733bdbc6688fae276601803ba0296976fb0b97f36d2fe6456a9444dcc00) (-0x1d7442331d8a743fbea27d0ed315ec018e90f4f7865149967830ae8148a9dc6818510abd91556aee488f3e5c54af2934) (-0x706f7723b6774eed302d229a128a54aa082439c0634cd0b31f4cf8c88125a2b05df40db92d0803d5e0d0f8539d3ca5) (-0x7b59181b8d1fc77b3f22b3ec5ff758290bf51c9ff4617e82d73a03daf4b64c91069e597bea7440de216f054e5af02d)].
Definition g1_chain2 : list (chain_step Z) := [
  Step false (0x147602b1b624322b37da3a2ba54bab07cc2a2eb08b403fafa0a497699bf2fb1bb519e62d62835aef5cab2d91a5b5fe94) (0x16d4a6e23c054ef1f42a16b29211ddefbb20e168efa3044931c70b3be7082e07f667cdc3a37687033245050d5957a6a7) (0x690e3da9299a7350e2445dff195329b0306b1bf83567c847d65a2e489381ebd44eb2394ca6eb3600bed46bd157c3b70) (-0xf293ab88e9c70a3fbc8ef41f71c4497f64aae2eadaeb3a565e7eca5e6b51e31d96101217fec8de305c2d56058555931) (-0x1019722b2e2e63fa7cb830f2ff4f764bc1a6f9bf41998f6a2f888e0db128daa7b7f5212aa3c36c20cec8d516d179ddad) (0x78dc47c30282beb9e79217c4df3dddfe20833ba5d5e7f96f52feda52d49778eed3a4279ed520405cb3eddc8c03009e8);
  Step true (0x16939dfc5f648387c11d726ba71ad3f82a9c8bd891a1ae66e9ad1500acd410af12ba771eabed09b6a24ecb87b01a9f8b) (0xc6e6fdd835cefa21257534f39a0baf5e131a04aaca3e369258729506487823c66f8c9c6a618635fd2e4e2d5edf89158) (0x1757d560bc51ad2ce55a17649564a36c33d4f0e715d59d0c555dc20fe82749b74355c450abb5e098481ade08f1f7ae74) (0x855b7bcaf892bdb0f4363d72401f62c13009e761761e59f1ed90321db324bfa649209efbf3f822f9d31bb5417e55b6a) (-0x1399d1bd4f55ca2b5428f72ede479d52aa32eb5c8406e720a3b1328c9432abb52513711762a951b4fb2ae756623318e7) (-0x90750889fb272005bc555e586033429c50eccc9c91218d5e89f9f41a44685ab5d8fb17d14ee7221502d9c39934f2b03);
  Step false (0xc75cda15194fa8de874c2f991377caca356f90fac162c8b8c3dbb133387cc249b61a65864e4233c7399393963b6dea7) (0x7b399295acdc043d67059a57db8ac6db79d447ef6515ff7cee8b4eda741cc3c1358ef14e4d0e32e25142bb06c1ba13d) (0x197ab7fb33d495fe92990b8bf7b7d9c6423f1bb306b7561d1aed2c2a0e1ad7985695a2051a59af30169c8f16e30ac95f) (0x48aa2e1bb918bc6687bc6a4d7d7287d4739172c93aff469a16a53bf75f06574e1777673930d81f7d2102cb8769121c8) (-0x5f86d48480a1ed79b162aef73770e5decf0a598669be99faeaefaf3d413d2e7d703bba52bbb7e47d16623bc9233e70c) (-0x2442f8d99f27fa14525a7154e635ea3217bd13afc12abd370cdc4e4a1a16cb5576e689972666951b68f06a596f4bb5e);
  Step false (0x3e05de438f6498a73269fc708e8409fb20ddc62fe4850cdc34f6be87d7ad2dec3bf94bf2e8389bc80fcfb732f4f3b4a) (0xb704f04fa093bf346d2052ce10c5a100c6fbfd16cf7b3d68ac400eb61a423223cc1761f10efe0d00df4c28e3adba5c) (0x3f057ff30abee5400a992348d4fe82de200e0d48b9dcf02d5c2b68ef66f189903ea003f690d26eff104ad695b0a3776) (0xc0eaa38dc830705a9105ca0545b408f2a15ba31b1a900b10187c86e0c013bcacf2613efc87eba8270ce89bdf3991f3) (-0x93ee850475dab58dbe2336f9c815372fd3f156b8704249de5d886b1e968d21a5efc159bc3b55caf770a5e7de309daa) (-0x10a9f6cfa81de7bf0b2eb9a1969351b49b0c785220a083e08c37704b10eb825320cb721e37431b249c3a61a029cc59f);
  Step true (0x19665cf66e278aaba9ed88bbf5f1864239e5c8f97b89174dc4c206724220ba4c92ef9e39d6542f3077b0f3e3678d46f4) (0xe3ac205bfdbaec54caf1574916279bd4a61ad6cb59f3d2e91ab4ea97a20c20fe5e7668078c599b3d86f1c5e0ff74013) (0x3be2082f267f96ff3b655025d92a392d4a7167ee078f8870dd7bc88da608ef057aab48a10a23b32a8633aa72e2287b1) (-0xc3984ad99ac3b710c7a06da90ea276263f0256bf534106b2a6c72fef6235ffa63232414cad26dd8eaf45885359ae1fe) (-0x18cf4068a6dde139019a7a5c599daaa3e8fa2b1c055fc43bc83c9facd22255ecb7524dc8bfde6fd81a2a5bd83982fadc) (0xd3356097856d14fb6eca2dc6d8de9f31874898fbf55024143290fd9d9761233c037e9458650e762e04d81cc148ab2b9);
  Step false (0xa64eaa44335b66cfb89d208c1375e8108b8f57cc498bd68aad1000714d6bbd811ff63e7dff1dc751610ee6f274d32f7) (0x16029b1b54845bd178747d8547385a24cc73b8940e9f00fe755c5273e2f8485afc3d7fc2d089a3f1a7c1f3e5d7a4b7de) (0x3e0eae86b7fc00985afec02758e2c6dbb295d2591e3d13e711ce32d889b715b76d39fa7cf05522f93a2807f4e17981c) (-0x145e03dd1dff942e20682425c28b3a929e1f14043085415fbb0b43e61b7864af5798c9485ea88818352139a5c7ff9a07) (-0x4279a44762c465bbe668d214a619da57dd13085cd22e6f63754fce2aea9ef5a327a82b8e805ef97e42b417c8e5f96e7) (0x31c2ad2f270e69e3dba80a5b914e05214f1d8efe51de29de07b102bb21b7a4d6c95b25429d5604ddbab13f401260ffe);
  Step false (0x24f2654cfb7ce99f3b5e0c43b4ffaa06156a335d89a0cd1c39eaefbc20875fa9098725fc3afb997b1781d445b20fc82) (0x131d0fe35bf833fcf931fc537194ba64bd6ee174f519fbbae4d77e42f851f48e6b451a38dd2b52dd476ecc0f6f182ad1) (0x95105aba595b6144cbbd076116ab2ef5c2b1a3b4af7fe3cf89877e67ce29454ae2f8e44a768ee061f177aab28b3fd90) (-0x373334a17335cf530de7bc6a711c4a1359e3f629a9b34015d6de46171f1ae4a17909d73d528528a70ffbe89f3c837354) (-0x347e883ead7ca5134bba714d5b31560d24b8e18ddaea206ba9cf26208223ac640b706246f3c5b6fe5812dcfbf0c665) (-0x41d96c0e2e68885fecd0912b5901d3742d52111bc3807d05f2447f1276070ae724dffc162829d582f00d4f38f084ca);
  Step false (0x13a50eae1c2a3da3d0d567e31c85aaa85d560a895395e1201e5f6afb4b676596ea3122ae5629dd40858b9ca25c6e22b3) (0x1744fb20d53b2e869a60fbb2017aea84c7473bc3b1e9d560443fb31b824e7c48d758398d3f4ae44738dccfaa1225f98b) (0xfd601a7faa27b3900ecd8d220aa5e0e53f88fdab4ada5932b2b0112e53e54d6b052fe9f9364d41362c7ffbed99f47b7) (-0x1c11f212d7fffb5933905d761fc61e16e15dcbfe273d568517f6beea07b73ddb74980c247f94d16bc3115758f43fad89) (-0xed72e7d43908a994c56f922880ef90e3a41b64a972f96386b13614359affc189cfd5872efd0366246c4e1c9d8892df4) (0x323bbbd2c5457c07c4ca4c050272b785cccbdfd65eb439df8c6e4311c3a24e58979df0e802a5417c17e4e7023118fff);
  Step true (0x196bdda486e9e384fb15e90f888880d6ebba35e8a9268acfc370d3c78e7ff5f776740ea291f3490838d2fb230ac59bad) (0xf236527d3f7f70e9ad7004b3b17d928f699699db1bcd079b2459120585779af53ea94a823ad23a3704215e3e0d5a8a9) (0x456603df982506407e71476aaa480409a4eeb558a17d8a51d58e1d3a2fc661c6ba0867db1474d7f7fb61a6abb57a535) (0x9d0624464a3ef185871867d2883cb6dffeddfb59d8e1f960d2e2b6a4e675e1149637ffcc8ef91ee5bd9f2b32c23e56d) (-0x18da0175975b12753bf287e722d517737c4ee77dd70deda9a7729547272fa31e8203edd229ed1b574785dc95c6aad298) (-0x7f2ee750352017323aff8a890489b73185d73a99c36240df2c2655d1a919ea97bcf7aaee7a1307ea3b98b7d0901b56a);
  Step false (0xbb617fb7812db6b2f04691dae9fba21358c4a799d7a11339fbbf96b0402aab59725d4a79a5d9a549dae361a852c727c) (0x10db642882ea57eb2c7e27321377b4ee80b7dca9bc11ed63109eda248f6f576fc5ab2f5bcd8a5ba5bd31731de12bdee9) (0xbd9ddd054c6c4e27a64dfb80f4a4573facbe7daf17648ef0e594a77ed02948bbddf6ca8880fea6026f881d3b40cc3c7) (-0x168802547f5a6b83a0f830fdfb51eacbd0e3966aa7230b47c4c47c5f8ba484111c177eaafd7db8082703aea7e0617e11) (-0x5463a80038c399a6b7406ea6b182e8d6a791f565cf5ab113d9543fcb9ee9b3d4a7c06188a53d8f048323755bc71737f) (0xc6285daeff680ce53dd5b74e0e3e230abc26e94ee47ff54264ce9c33b19bda1e30110545ac71587aa89cda40e18ff4);
  Step false (0x1962d8b6e864762d5f8e593f288a52acb5d12cc9c6c43b01badd741396f2abe879974fffed5b291d3722989cd52a4dd0) (0x14c72a2c9f34205a0896210002338d775eccf92b1a8eadfdb501c545d640488d7a0edbbf5293fd02c33736d08c3c7e9c) (0xcc3edf25668a0d7a6836aa16f9222649296667d0eda858c104b7fe3dcf03c12bb25e48146bfecd15bfedfd800bdb1d) (-0x9a4bc1523806f45e7935912761ee3a4c50abacf0e634f30d094a62e740d4b2a6bd2a200408e4624bbff0d24dc5fe479) (-0x18c8623b0dce4a37d38b02627fb25291e01adc8fc3a7e03024eb24a94de3620147091550cbe87dff3ae96875f9ada5b6) (0x3d3ea846baf65660ebed272744e4aa1324e744eeaa5f8d92a6eef747c39be2888248afb4f31ac1e8d36a95aa1ffa5fc);
  Step false (0x742d3cf690e5ed97f87be17786330b25db104b1ab7e183aadcbd89a322f5fd49a81d335ed63b959d8fd24323dc3aa87) (0xf36836459e354156d12707680b999c30021a9ae8901103cf2949bc19da4d97babef8fa77e7401d474508dabaa2034bc) (0x121ef08eacc6f1ad2e4fab73095b8912f06ca83b4509764421807d95fcfb89576ce431d6dc6a80895d2c44c4da8ee75b) (-0x315c5fbf5150731474da9132874c9c69fe635e399172885c38a452a5989ebcdc0b7f1fd66119ecc18ccec729446691ce) (-0x20708750a351b1b86173433f676ba09ebd72de7aaf62f2833848ca6131911a90d5bd6e3835c4d61b5beda728fb023b7) (-0x18dccc0b08677a4a2ca0ac06d973d03b7cd5942355b3e5f76bae6cbc948773a927f4452395327f445fcf92fcaf4d7f8);
  Step false (0x12b7f0bedc03c1065048d2920d5ccd1eb6e07731f26e43f198ca6ba7269e23594e3ccf70f8302041d2e9be093d67094e) (0xa455937a638913f651861ae5bed18172d3261be0bdeee4f8d6ec77efae26309fc566b536fadc47ecdc66e15e44671ac) (0x13a7173f0836d5a7bb61c2ebfe7652821cb1deff9793ac97794e47c64db15f798f96b58b28e41c2cd5129cce9fa1730) (-0x9c9faee1d1f77289fe0d52b3b2533fac8be00db964aa0154dc593cac99d520a1fb8cab6c65848196bdcd8a013e1634) (-0xd795e8b669a3c085886c68ac04752e3697e3fd6865e839614a4f1b3295d9ac00cef225d8ad969a5c135f97e7b9b29e0) (-0x38eb3378017d818692d173643012fc20099a4a893779dfa35f434fb4b6ae77d1a60511424c837d5d6a5725b665300ff);
  Step false (0x228ce37ff8d9b6a9b21195a004d4243ee6743bcb5af1bf6843293f198d838ba51e6782af0634b41aa9cea87099e6a6b) (0x12968b35eb26951bc98d9f29ee9805e186d4087f22059ff517f94070e3a91440dcab1c7f31b669b910c4f3bdd4822e57) (0xb8ffe60cede18a9c63f2b1f6acb9ad462d15a1fbb98123dc457297bf24b5b0dccfc30021052825d09fdb6e5fc9143fb) (-0xbf7533285ffc3eb7a6a0c3bc1e7139ff4a7a937d2773ca0a1ee47262fce1d2267aba48fb9eb93abade938a6cdfa41b0) (-0x2de7b99895aa823dc8ab93b9cf03237ac15e14639bfe1c5a180c7c9a8ca679d20afbd795e3bb72d5cf243d78e3251e) (0xb0cf25232f3aaa0e309a94f8b4a533e57a05065228f11859f580c79f71bf7acc55bf76380e72b2f72fe48f8e700dec);
  Step false (0xc274d842b3ed93c9be8097070913d0545c3da02be47e6df7e48ad69f28d410ab9983ba33ae865f3f6c5d6df7aa4bdec) (0xe183d616d637ae94e3f753b2f373b2f116d3d6cc7b13ce5826358c8010b0c117ca137a1812220f57e6fb4c7702ee4a0) (0x13318a527957f59ac7cf150af797b2ddade47dc2870d7170125ae7d222c1473664ef460ab0027850152d79dac7c6212d) (-0x1d0d8ed747f27a1aef7df106f4a60102a18f5c9951916eb763f82fd8cf8f2b595222f226d2c453b59b04143ec7118fc1) (-0x5ae1fbd3649524c5abdf691a06c6dc8af369fd7630ea7a2b945b0472f786d8be40a2e4b39750aa7dab62ac85eff30c6) (-0x2199d9299fb891859d25f37ef1ec8c5b8c153921541f9660307395f30baddd04bb23a0809cda9446393aafdeeedffa4);
  Step false (0x12833aee675a17f6aed588cc627b206f1ef0be81df0035891a948186e230db5791a18459d3507c7e421951f4501226bf) (0x14ccbb88d938bde78e1104989667729cc2499cd8e32422210a13f48a6daf76452bb51f038cf27f3f8bbdd30def4593c0) (0xbbfa9039f26f8ed773aa21059dd325323f2a0bf8216931d31c7bf1b148c23430ad9bb29718a5c1ce4061121b150a98b) (0x468d1300a2d703a2da8d7d23ff5d75dd3e346d2d9140f61503d7a7078922014378f5602e8c475e2d8a249c891d21372) (-0xd2de6f4fed05575ef8cf1ed48dd6099c25e9402fcd2e92f094ee25540384fa3bb8a1d07a14e95870ed250b8cbc4b083) (0x4c5fcbab411a053e52222bd6ca12abafa269eceb306364525f2250306d015d2b8294e4347e2ca235521825d868e9ac8);
  Step false (0x64bf91f39c4139dc36d261033028933fd09453d228d1823e9e3b807a1f45e540d72c6a661bc59689a43a954a1b1b9cf) (0x6b95a056509b68995cd9967f6d3b86bfb1904336b169151eb00c82268edb9105a5d6288810370f9688a38c5e1c97d0f) (0x25308707d3bf474a17871e0553cbcdc1c00cbaf3e82c1ddb4768a4698b8999b7721e1f4a2093c0d0dff282550e6d12) (-0x2c3890b850e170b56e19683348196c953643a2a7342aca81ea8bce5cde443fa4199a147d98b74fc50549b5c0c97f51a2) (-0x186549aed195f53c025e836cf3bb95c312fd8beb19fac3ddd2f66525cf9707e9fd87562890bbe5e6f9702f5d0c89276) (-0x36889fc3c6a74cd82c642f7e9eb25b8646e81e9772da6ab7f075aae4f3ce26cbba5dd81faef77cd65c492482ec08286);
  Step false (0xe223043f85303703d96d88dfc65fbb5671b168959ab4a64883a044e4ecffa0109a9f43fec0738683f0eb6340339d907) (0x10b4377475f2d1550905ac33b6ec8a925f4e7baf20c8b03a38b52fab75176703134db76d1b68110df98364ba487442d) (0xc6f7630d21797da461133f6df0fe83a0afeccef430cf096e6f20af6e9252bb21fa837836f9bbfde13d7f304104c7c14) (-0x50ede9687de6fc1ac84320b83cc4fbc5f205ae03391c8677afb46b61851d6a1e551f34d2e0139fbd159824a01a46cf5) (-0x7ae8628d890e1df8fd648c37411e04c152ea42e2e05cc14c442ffecee11360105ebec5b0c3b6a73a7ecda2f3cb3dfb2) (-0x3164ff917e30e88777162bb2eed473d3ef1a32f7f85a4c43b0ad4915c74e0aa8ace9eea679e00626b181d41d312a518);
  Step true (0xd74cdf3b4194b3944aaf6229263d383ebe842b80020af00fc1ebfec4f4bcaf94b7cc646419ec759f66c8ae0d9e2ffa6) (0x51a293c2e856ef51aa9bf01181469da531ea4678194a7a86394d0c516baf1907d8c40bde821f28e3bd512c2db397dee) (0x17544e8ba7c6f5e6a8bac300fc858739b45fb38ef689cd5d489fc858f60758e1bcc7dc4ddbc488623cad9f208510ffb7) (-0x64e5ab35e4c23c84db3eac891ea1647fb7929b7ed40cee4b04437858ac29519828d13c327a084fa32d2ce68d3fce23c) (-0x6f69155f53c1d1a4dbe985e722a180f9ea08718987ec5f23501b5f699e5924ce4fbacee1af018f3a80e8a343b3cf914) (0x21997fcf63041f59294ce1483dd308333255e376d212c4088274c28ba03512088cb37cdb5153e2cef39a9a7075b89d3);
  Step false (0x26432218a824a5da6621e4670c52e0655ddfb8b824b60fd7dd5103d645321d6bd8149e54b8cc5e8f11dc5b03a996dcf) (0x861286cc35cdda7fa391da7ef5204cbddd47d3eac1830ead44677467a85f6b0e874c3659bb4337996c1c4e5ee673dd2) (0x2a0b43529301d5735493e9ab01dec73f5e18cd6df4b5f07b93bc539a4b71943b079fb43a7585996522a885ae42b5bec) (0x1499d866a167acd07cf0d4c204b4ee0d38230e8c1940f42aded245c23f3c11b4e19e2bb1cae6207bdab026797098c72) (-0x384c711f15cc586105874085ccefbf9d3f19367a691f4ddf7e80abafccb2ef70b9abb4d9190e384ebf7fe1e2221b19) (0x4d27d6af8e62f662c432d730e65b1f6bf2a6d027c951baa7ddf9a15ce32d9822c8fd13e6c2f7f80d4a03500294cafd);
  Step false (0x15ad758be51d2f4df642818c58822d7b2d5935061669a2ae7bff9d399236a16968408a78f2b798a9b777d7a0544d5a02) (0xdc76d86e6be5cbf713c39bad58f80c925c437d6fb488bb30084460b0d0e79599733f32f76b3157938653e7329e73df0) (0x62d812916fb5af4be0875d322697062872bd3aa4f0636fcfa299c67be247e8522e158a2969efa6b88da402151badfc8) (-0x3b831a2661a6fc9bfa537837c577e1612f881f6bfd0e5a33fa5a4971250eeb940c7d31df2c9eca066d7db826cb5a354) (-0x12122246847666f3eed9206f05efd8346a5d6f423ef085bd0bca814a13817c1d994b82d1981dab74f28187cfb5bb0b50) (0x480494aed1160136edc8afc2fcb87b2ab6f6a6fd761f2772cb9fa3c207f780ae254b2e195bdde7259c1a81701b457d0);
  Step false (0x428d3610a575c3af324833e0fc881ed9844f0f49be66bdc23dfcf9ba67a7e1b74ee39726cc8ec26cc22dbb9e0a63b5) (0xcf4ffef0b453a8ab2971294bf298a1a1d94ec251a01a7adb7450cf5e6a75407233e4b5e248870359531904d180ea6fd) (0x84c6450a9d55cac82e5d6487a0b5aff969a88ba3ffa7ac38c157f854803fdae0fd29e6cab73cfa15d2bd2191fda9b2a) (-0x15c7afdb68e5a607be73ae61c1677918c1e15d98645fe677f1509f7ffa8fbfa7d9a28c401ab371bc11c8afbae8aee690) (-0xaa52c045ed9f3a1ac04dc69a6782684dcdd107ebcfba07ec169e531c09a7306eaffb417b19c46d3f1cd6e4a91154) (-0x21a8a9ad38256436e3aa4935276226ad03f81bb6f272c324290e97a38bb210664055cf2140372ab8b780012d8a797);
  Step false (0x61f57c88821c7bf0b2c134e263b1958d3b1b2ca48aec143baeed80c5b695c6a14ab7860341620d4498b6f361f46f72f) (0x586df7cc94dd476550dfd5a1f6cd5f474d6e88a6bd7fa5b53a41952dae42247e4ed04ef21d2d92290c3ee1e1ce0db1b) (0xb7eb2227c1d44ac07d0dcb33151df56fcd0d76e21924965e04c46f2ae8fa2f84a6f08bc33276c52743c8a125e0b2cfa) (-0xf75ebebd9800b6b166d728c755589f405e0651b16d8a1beacf5a4441c94affbb98aab21ce85f474bc1c01f02976b60d) (-0x17104093c3b82207b75743ebbc3d6e152cd2cb93581d85cf11e784b2a32e4d42287eb15409d6dda6aa504b848c8b4a4) (-0x1bfd65f455bb88302d9016535dcf6e8b864a3f7b0fd45d6383d70718f2de356fef61dc26a53927d060fce2ee41f1d0e);
  Step false (0x3dc16035a72b9b3f247102b9521656d0a2bf08dcd5c044742bb877cf691509a4cc8b2ad3b98d4b73b6659fce76e6884) (0x16ecb72af7de04fb54a6df863cca7e21e9984c33e36957c6f41a9c1c0d90f3a6b47bffbd63cf6c71db8f86ab18d4dc9f) (0x4d4239baa8327e60b7e5b5f2fa0af0054622a3e28360a258c32df17ab6ce0a271cac07abe0a5ad9e99d66b609dbaea7) (-0x1c96f7aef8473c7424db79911372217ee92abd3a89b761572d365fff76481e36783286dc06efd5f67ef35856755631) (-0x92a87fff0c79a4aaaeb343517b9916daa9f8b7f834d60e727126300e9e22ca4aaa73751572fa2d030143de783fd3b1) (0x295118a40a5f46ee364cf9f8c2cb3749badbd97e7d796f0e2603c0444ca569dab57fb69ab35c8784f8b802f6a3acb13);
  Step false (0x1910f2f0e5a70596fc4e3c90600213e27e7789b69de9ff4f625c26e415f421fba292e9b69c119dd62a464745f9f2186) (0x105655fd9ef91114f588f6da9a2d6106545b84e7235d4d08893a0033a2ca4552f4ed9bc05658e9e94d22528a6c59a5a0) (0x11526acdddc028aeb6f3fcfcaec1df87ae437a6b78fdc877bfd34b212ee61464b929a62eb00b07d3f39e66b9a6b0932) (-0x3c0c37f30069eb1bb91f4efdbd5dc0d173da57917ad913f4fe744dc35eff5f6d3e7fc887c3bd4819e4ee08466438524d) (-0x18297d3ac1299cb500600f0a99d770419a2431c5fb06e7346fdf9fb5cd19c8ca585ed071d08c42a67f6461d64f59d2) (-0x6598d4079a4a360a810f2d4bfb468fc66daaaab932133ca0077c3e3f61c788ca6ab5405e58cfa778b77c03c0f2d1e3);
  Step false (0xa8b9a359f5ef4de9fb266bf924926eb0c4832028979aba07e8283222eef86f1954188f33648f340c34e9fdd68a26e9e) (0x75f1236335422ca4c2004bfa61512e0ad0641e42cb49aa66c657b2ad115120f74224ec27591cbbb0d1556fecdfa0fc3) (0xc5fa1a5a60bc6bfc8ffb510702e07fb34d7edc623aa52515da3a2fd6391005236516960ad7ded940a3a358d6278494) (-0x1de9ef366d9eb8a0ba088bcf1da6d075a53e02102d33f4f646edf3e51f8e5ffc2d89bb2e2d929a2d0ffd0af17491ced8) (-0x446c0fc8b3589e71c764ce40a93af5f30ce24283e3668d6f59bde9ac4fe1ba0b297fd3685ceeab9f8f417c226c76b83) (-0x3a2c902e308f47788ccefbf27c4295017ff08eb4cb9474d2e916b49a0b4b7546da3cae6c954afc286e6ddb4afe0b3e0);
  Step false (0xf60cc6e4556f571f8c9ca6f667dfa22406c06cd63e13bf29eecc8f3e69fac2c911b527d099e6592581a9fa64e43bd83) (0x840fe2b5ea6e7192c531bf6726f61665f1606792866a235d98d3ab97f03c3f021ffa6b849209a13ea66cdd138a4162) (0x17886a80c80e4bd0d5abaeb371ce020756f60665cf9eb400063cf7fe2c5ff20cd83e116c9e93f8be7e7ed9d75e5414a1) (-0x55a9f0a748df0a51ded89c37441adea1c5a4ef6e0609ed2a65735d7bf202b8cd8e0cf761f85a77d9b517458bfdc3c69) (-0x9181bd72a6f5fa03cc097250662a552258c7198ac279412c56e74e6f0cfb57615e2c3bdcb19f380b5ecd5d39a7df063) (-0x40ddc9137e7a56379eb888d9aa0b64de041ec3572315a903ec72d064c6a148641b557a2c36a2f5b76cb4100ccbcde4a);
  Step false (0x13dcdd5f2c2b5a4f20bb108d17db945b784b1e63ea65249e1cfaa68a697312e8ac9dad56e6b64bdd4cba4773b94cb6c5) (0x4bdca8ff7f1f700a04a34da79a6a9ea0054cceafa3218ac0390efd6dd840acdcbb32fedb2b910f70002ea54661e9e7e) (0x4193f2c78a077315192220dcf56e5437d294ef944a2f60396e95e9b04c72037e2e35e82de2e9f7b14f57758a28d6e42) (0x23eb640b58e70725f8f2b4658e222a7339f57542880a7532191dc95ee6d7ebb63710242f17c4b98ff0b0ff46e585cdba) (-0xf2bf7e840ede5e4cb6c146906739373623cc7524db44166c0a27c18ddd13856122b027b34651bbb7b3d5e0953c9b705) (0x33a41a394f3c8be39c999e75cb8bd25c75083d1250cb260998b9f616298b829d2c2a7451136c99a31fdfbdceafa344d);
  Step false (0x15d9cca36eb26634548a3a374199359fa364f59685bde9f1b15baaeff364b8e58c7f52fae5f33462fff24bcf8051e4d1) (0x1105e63f15aeb911a0b9ae84c17fbab17a3ed23967f1e877f7e11041273cbed50de8c42a3bd563291cb475d233d76752) (0x4e852785fc4a62a3b9e4c76ec1161a4bfb78d75947164091b4506f13c77828875a63929690a8f8c8ee1ffd9965b4b8f) (0x44b629c5f9f5170b0ef03033d5c23a1547890fc78388763fafc7b6d070d52eb18e2bf96c3a373686ef9e5fcbb88d128) (-0x125c5ad983cf8000404898fef9f4755ceb42384b7424824f0c45fa1b0b9d948a86f493ad81220e292d4952a3b50feaf9) (0xa51edf950860d766ba1f10152118b958712ee040b5d308bd30d9944a826c2d2f1d32010e648a8c6ae307b175ccf7caf);
  Step false (0x1775cb0cb651f9318b7eff042ba0d287e808c460270409f2d4048a790c4a840bfad7c1e4a2ee2721c3521d1b92027d99) (0x165336c4f98a587ef4acf92ca060877435ede552533d5f512aacb24f4510b4d3112cadea8c4f99b3ceb41c3274a74c9e) (0x17f4e9e9786df17210223dab1db3eb22fc41ee6a30e18f9876462134f153eb8a6108874ec5d40b513ec0e7c060ed6f38) (-0x1893929af38056ecb2487a3a167e79791a3bf62c4ae81cfd4045b84af19ec49b05f1aac6ac16363d58796378cf0fe39a) (-0x152a3b7741940cae5ce5960c85c3e700939040c7d89c4aad0cdad239067122b6f5286496bde5a79dbadc78ba9192fe8d) (0x4c88677f7a3630d59c43ea8c354b6202bc23bf67eb2cd2dc4159b12edb78d14344ba9ae04e4d72e84174b6baedda399);
  Step false (0x2e47df171fa2304a1a143d955b8e5433ae906efa93fe62ca1a4a0bec42406711f0acd27142f1a837347c05fcb76aa86) (0x14f1e54aec6d92e51d736bb335d2ada67a69227be9a3a16e71ca3fade8a66cc99c3611c737d9ea17a69f33d534bc322f) (0xc888db1d63badd669878e4e7c7dd13a49658ffe561cecb541bf0942d6bb8e13e1e63e05b317b1845e21f723cd954b12) (-0x342b7704e25cd02d446a8d6637f291fee7db96509821c3be06334018983e7e21268252d2cab26b322ace132effb351c4) (-0x525e298a387c73fd12ff181c20c99ebb7038856e16fa651d7a5c96ca451842ca0ea6827796d3297b831f697965582b) (-0x274d0cae386749ed16aecb515ffa270d40002eac144287d5565231d1582e3252b336603ffccd730ade29e6443e7570);
  Step false (0x6ab733d6efdeb9c7e8b5ad43fbec18abb00f3cbad8b8ffa323edb6f8f7f03970e9ff973853708e9c462b6ba6d4b9637) (0x11c1641e8365ba7ae62417df31153266498d6f82a865bd9091cd46cafba564ddcf00272e5407ff1bcb841e18ff0ba2e1) (0xaca2769367bfa81df43e146c93070f256ad063055d09b21e9ac629bbfdea0a8e32a6b2dfc93d914ae31d078b5fe3bab) (-0x2c2e36c155cfb65eace5b571742493e742f38b0aca1a85794d0c9a3a31db8846d5be8cadfbf2b739512109383a447c75) (-0x1b5f035aa5b4c0630f189448a59b1a2fe598c6f9927022d812089dd146b893b30ba946bd1e9e40d61e40673c74569b6) (-0xd16c2f46111b9a716ae1a250a525c90a3c817a9343ec85398b02565da197f9722966c99cd053275b99d7ade695e50f);
  Step false (0xb3601f0820b400e08c3c9949724d81e1cb351f088d09ef5b412b9898b85bf33c0a4319dde831f36059eabd3090909df) (0xd3475c16e7848c7eeed9ed36ac21c8977ed86dc8b0e7946892cf2d4033d43aeb903b72831cc257975015a39dd8a683e) (0x2d2569601a2e472de847705c426c8d7df1ee77800b71a28c5d8603803a8cfed3314d3e15adbbbcdfaa03deaed595001) (-0x1b1103bbc37edb0dbf8a154f207d3498ebe8c3cf2b58532f0b7b227c8cabb292a4dac320f03f25016fa2defc3b52ea0b) (-0x4d552995d7c56555637fee2f85395a5daeff34bfba6b59e83a73332ebdcf6c72ea224369b06c7e8c7d088a0d40c46c3) (-0x1f63a24bee33689d87fabd27b9f45ad0772aabccc8b05ac2dbfddee0842b334dc570d8361d830982c0575567002c9f3);
  Step false (0xa17257aa491e9703115d991d41b4a9baff241b10122b9f718878dc1e8c7034336f2c9ee98a66185f66349699d8c4fc8) (0x156e185eec7980a856167259637cdabddb139918e8c6bfdad54e891d18509033cd9ea28bc0b8096202678ffdbc278baa) (0xc790ff2f7edb93f218b97af47e1d8449de723f4a4437c20a32abfdd9cad8c55439301d046b514df7bf03e48c8aa1493) (-0x11ed36c4491a1231317906874ff11b44c69ab2344af1f6734a9ca8bc00d90bfdb1ea5034032488122fc281314a010874) (-0x3ea56f4b6d94e69f37d47c6de818b92d92ac0896dce47420a4c237fd0a3507460ca497c7caf46f12afb9a93ad70104e) (0x3310cfe12eb5256db7e47686d447e68b7f64c94d5dfc98f35eb6626d65f3dae30538f4011c37c07454878ce5c2c2edc);
  Step false (0x6ec069e3e067848d101e3ab82093e08444021dead8daf517532b3159c5fd5866c3601a407d6d75ad9d40e092e7429a0) (0x3445f5af6c789489c69a35ac0d5b0048de16e6ad74675ad14b4f93b0a653fe5a8f554f98603624297777303b53089cb) (0x329d42a4ad9418f4069129641eec072f16ec4abf7327b12e33a582cb167ab1e9d7e26d84cc68f1a6103af6ae3de1f97) (-0x2e5761010f0c60ce8010253c9bc986f403f9e2fc63c06a2b2e6567c66d3d22921ca45948c834d2acb73949698b780ac4) (-0x1d7b0ba4cdb9dcaed24b0b012ab1970c3446d9462ff7d08e55be7de79ec49bf735b29cc6f0cd3b43abea9363f7208a3) (-0x4d5b22cc992abc6cc088a81cbe12c99a81070e69f56b2b8299b8304b1fff78600162d85d5d26a9f0dbe978f83370aa2);
  Step false (0x788c3fff30fabb96f991851423c4cfc54c3abfcfb78d739c8aa1ae3d9680330d025a4a5dbaac81c4878f8f8cbcd01af) (0x1254b6b8dbde6e51faea95c0cc34662ecde41e7493dd0df2b09bc4cbde6fde994e0ceefabf6d17232d7079dddb6972b4) (0x10f28138c01e9c21269660bed7726bc56e4134fc8cac655bf0015945ceb1807f33813636d2fc8cd5ccefd9c7fa5689fd) (0x9a077811de6d5832bd9289a4bb6a990ae9ef437b5b87e84440f1e02a2e0fd95559b74596e27bd19fe940f2dd3ffc95) (-0x22ed33042ec67ab86e6baf91a6998aab359e0af961535b03a1d54f13d1b8082eb94bdd77bb143caecc5f985d17fee05) (0x45d4e1d7d18ac15b4fe4533b2e1067d2034715a0ae599fa2767a3f01a53729cb927b5a998dc1aa564024fbbd65e5d91);
  Step false (0x18924bcf121e4b54b48b1e44220dc58c7b484298a966d914d9723a98d55bc32e3d4d633b53e67847dd4b081d2a651486) (0x309c167d1db8388cdd9e31e44bb47ea428ddc6a42f352d2dece30ea44789c4c414c8550c32bcafe0ca73e87182beb75) (0x578b3e48b2a06cb7be698b4169647c083121d6544905a8deb249e2961d6b6f47f71cc0498d6e85e626913a7c7f0e6b9) (-0x6bd0ad81411a857b82ac17e9762357f74a0f5bea53650dbbdbd429b7acc6ff84c702f5bd4b973724dfb82b62e914c7c) (-0x1737bad5c15e7676754dd437cd17df08ec81d38b86769814a3d677a5848773db2db4c74c7ff32e8dcd46b93744fc2fd5) (-0xe73431a8f54e66ddb3488a04513d5b3053e89ed15a982c62263805119f6763768f7d51f24b9af189a569c56a3d7d2cc);
  Step false (0x13e6715769e2b804a60bc77a1cd23953e87c1206345125dc4b93a877475857953f8499a54ae8a9d84e7bf3595b3a5f27) (0x18ffc638ade3b112d12b755dd6f50884d02fdbdf7c3186cc8c8d01cbed05d541c57b3c76750fd655caeabad2cf62c8e3) (0x630b637e3fa84a60ae00142ef0e72a1761cf220c57c27202f074a16666cb9dd6690407a7fc166a5248743cfc27190ed) (0x74f3a18692f2f7ca86290ac66811e4f67a31c3af239a0fb30a97f3cea8d35aff4b485ac3fe31f132cbab4b71871afd9) (-0xf3a9d3516e4bde3be9fef885f882b4f811e763ff93f2f90d71c157686f28abead030088017100fb512c92effa5a086c) (0x10ce59e74a2091a332a1c52e07162682958fa4a4d866d9e8a18887e274da61d71e596ca0a8cf2e34b7b8a7da4eba1038);
  Step false (0x1295acc0de033859f287cb637e15aa21234e6e612cf85b9ef50a0a5460238e2e9451885a70fc999b47dc8e6c4bbe7576) (0xfd19ab7520c855fc48db31dbb3537552a0f8534f7b47a15c408d82e781aed8923f8843e429474418555e7cbbc88047d) (0x119b436eef3440d8e22c2c85aef806c432039dc55ea297d8dff2db373bd6174786c19e16709a6784a4e681ca47b7d5bb) (-0x3f4025482d9c89581dc5d5ebf40c38fa45e9e9fe578050fcfd2672b3dc72291998ed3fdd0b94188ea6e9cab018258e1d) (-0xd48370ede872116e6156ecbeaa1a5cf49b40e663cdea8f5d1c955e840d5eb1bbe4a3b323dd6eb3309e6e78e81a17463) (-0x68f9e959a98e4da279347a352dff0c685cc208be1e6d632a49e81886824e4da18f4275da32477f60833d422137f3b14);
  Step false (0x85662c0fb6cf416025d23db6898cba422b1c0a7416f24c240cdeb71d4c4388b6e6ed224f093da5c9c722e34c14d2227) (0x183bcc07dae34515105f06ec6e345496f1af315984a7d482ca8cb3419f59dcebfb1ee5d782bc7f9eb84874d6f129acdc) (0x10ac8600df4e073b35eb5f888b275a5bc96ee497cda12ec38bae9097d8de8077b4143037f69ffeaf732d6e5920e2ecef) (-0x119416d61e62e428f2b1dc1e17cc3e77c4ce4a14cac81f1510c4d50cc973472f80e3dd8450f4f0454c727bfd8a93ec63) (-0x2ac53522c4a729d0987130daa01899a99103f3ece798b8be24c1997ef1ee7841735fc80dcd1736b6f20ec22dfb10451) (0x2b2ad0a867cbf8cd748df2056f5641a2c608fcb5670ad37616585119631dfb9d6b1d3d326551ce842d73bfd90ea1569);
  Step false (0x654a5d8e47c18bfc31f8248f1793674ce496b119fe594aa14889f169d2bfc04e332ad21af09caac682693d45bfdba8c) (0xbeb44bcd277976c2958cb328c5d3eefb3c4e616b39ae6308dcd62bc054f70fc6541fd44d975aaf0fbc76c9b9f78f03a) (0x176f7aecc8b13d8c6dcbfa26320c1fb55582c448dcf4be68fe7b81472528585365720c7ec8bddaf08da60d2d87dc310e) (-0x3ba1d641dbeebb859fef5c55f0f1b1a766f751fd5e33f89841eb91983a0f22e6e9936fceb4a9e274c78ffb9d7d5df158) (-0x18a8af8d1c5ae2a00255b4d00039db92805cc82deb32cd244b579f62b214c115eb49a815d16788e234a837d2c6c57da) (-0x2ff79be130b29b35d2dc8797cf63cae5bf0bbd6e95b5676b897db1e1718fdba9b348ea68c2ce2de6d31446d89003bd1);
  Step false (0x18ff49ef1f27756f955f2b72b0ada16b5adfa64ca1e7ddba138795dcfeda34f83a7d4986b3f345625e054e8e25082a38) (0x4e06f05928df2a2613740a4c6b6e9dabf9d0b25e5414da6550c9bcb894040b0839a20486246b8beb06cea9975daf019) (0x1088983944be0a069d8ae0711b2a999806a104d6ee10ab0fcbefc94e5a8729710deef1f0cf1d5b6a7dce3fe82852bbdc) (0x1caaad9cb2286d5c90d30d05869e3559afd2856e08fdcc5416cc366b1ea584729a72029869bc220491a1e5c619d2f41c) (-0x18077d5af2abfbae39499e976ada026ef69931c46b724b7568dbf79a72e0f117951adc396dc0af5982bcf0684415d319) (-0x6c50617e5b58c3c367edd481540c49f20863d217d8d2fcea41a4d65ac8850c356d722567d965caac7a026a3e2358cea);
  Step false (0x17e75be22c545bd5af2f82e5518ed6fb9c35a2dbd273b2b246c85542970af7054473f714dc0729fa80b432315fd69ad2) (0x8756d869bc35dcb15cfcee178a2a22ed83d2cc257fdcfb333b401735c7f4d6728e6dfb6e395e5478ace969fabd1a81) (0x17c62204b98f9e935481a907605a08a95ce33ae9544df9ad66726c77a869766f2ebd56e0b35767cb51543dc482d1f0d) (0x1ba70e57ee17f357fbe911e4a09e839e7036b4c71671d8eef8949e7d116a091bd7bc7d95ae46b6ea6a799c7b0dafb8d7) (-0x15f914925e3539f347103754011505a8607588ac40b22250163100748314dfc9b82c81d175bfeaf7b44425488b860cb3) (-0x3ff2fc0efa37e1352f7831a55809163a67ddc593f2feae3c43c73a880ab13b67bdde2d0455cdbf2108f8188c3e96355);
  Step false (0x17c5ac2f2f144ca4ad25df844ef61c0282883a33759cc818f2e872d573b32a52b2db94978bb1062b9eefed9d154ec99f) (0x57c7aede791b4c2ac51b35c533ff5b893c92f9072b05e3b288fdfceffcee77b0dfc42dc12ad7e50b72639c7155e4dbb) (0x17b56d1901fc587091323d6b30f0c67bb1fc7319432a23cec86169387dbc7d0d848ffebf95a20f39d0b2acd23fed4120) (0x2af369478d599a5a12392e5bd9f16000c6e84f805031d8a089613e520ad59900c777066c9be637b75b3d7aba69dd769) (-0x15bb51ef2b6ca083296707b291ef373ce80f265c81ecfb973a98b8491f4dab3ef88ba333478f9e3b604241cb3e8faa0c) (0x48834e1a84ddb464b869b25319254a57575c762985dfae7a3cb7cb44a62a29ee3b15580d0c820982b4a6adc34f23199);
  Step false (0x1779b52609bf45509a181b913d099c505117cab2d2495567fbe90dbbb77c3b15d14a4c0c3027c45ec16dbd3902debaef) (0x6d1d982397c64d7c21ced0e04ec09b0a75c758dac5ca18488396420a2855dfea3b88789abc51f4401acb616585f2f0e) (0x10a5ce1af21a09649d0ded147ca937bc696857b338ebf1d3eab29f9b541e009f6f84d922029e66b04d26e2aeb1f874c7) (0x27557be4c6ef954c745da3ad3730ff5644b99c0d51bbdf4ec17708036f11c3366052715f65084fe174e2ab9d18e711df) (-0x15314c2d74872142bd9a82ad7f7a32ddd15eb7181383113889e1d574df47103b57100efb4aab8c9d41eab00a099021d7) (0x1342c571bb1e317c55258b3f3e8d2b7227aae2082c1798ec96af026274826af58e05e24eca7b3612c15f8f5af65212c);
  Step false (0xfb7e03b1696d63cfe7e28e408bed81237009877824f64e8849ea5cdcf9445265690b476b1045eaa512872405c2a7363) (0x3f385e203dba16e3f83ab059ecbe82b958563c9bfbf56b644a3fbfc5d985e23084f595c7a4a26cf46b1bf1f44394c02) (0x117a2f22fe546c99e2a3278ccf389923b4170071412010c933d3fac466fab535a84090692441baf62fb36391c2aa4298) (0xec2892532d44d4a4b720933435fe2c8122b6aa7459f2e19eca61d1f4761c5696fd7042c38035133b6b2f13874a208da) (-0x9803ce0bd9bc0a9b435874b7944e4b5083c1786c539ca6961dd822e55ec68afc8850be0ad507fc1cb52c99c15144a81) (-0x1bbdd66c6170831778a9099b9961cdcbea977013e4794de3557319341af97a082b686b14bc4fd8b32c3f0392fbe6ecf);
  Step false (0x455514469620b8693c72e710907fb1e158d3e902df66a2c30b0bddf9a40b213c0b382c3cc3b70e75a7d2bf2d4859c7f) (0x13369f4ec3595a4904e1b284020ee8abf4e5abdd8eaefab4f2d33eb145542154e1a756489c5467633f87a75b3f2a97c3) (0xde797248897916db0ca95c4d8f83ce6e9d02412f6cb41ef7f40ae3a4c7fb2c62bb43a59550b23e0f6735ee593c7dce) (0x4060a1ac09cd091d3a94791b8c8892b4cf5544b00148fe26f0a5ab1ce4fdd9646a875dae8adaa5aa7e2256e1543484c) (-0xb8da97c7b3697a7d145a36c9bd377d44d5896e14de0fa369ab68aa1db52d78550fb23f9fdb875e6f3a0a0b29b985ae) (0x28b11b94b6cb00306fcfa7543cfd2377df24aac8f9e3e96244a92c0e155ea470f501171199452de74520db14c8cd36f);
  Step false (0xa3eb89469ef08ff39879c028a329277d88adaba6773208eeb8a496ec4099de561cb4cd1c7b90be3c9f9ccc73f67edd3) (0x3bde9ffc5c852a15ff33ea32f562f1269fb61e7e8b3edc16423d8827de3e532a056624dcd05b4f150ab5af6feceeedd) (0x1c48f572ac33aa0cbd17fa1e3923a8aa40589627cf0f8ec5149920a598cdb718a9349f48393d3803263628582ebcc7b) (-0x29e72cfa57102a69a6eb2bfde403c76c1ca42a6870975b1cbdffa59bacfc62fad994847bae909906ec37b1271a652a15) (-0x409498917f7d1e85fab4e848e79005a09d7709df322b018d8421277824fbd5111d1ba35b43d211ecf008e278554b892) (-0x6186bcfcd89c6e1c7d8350db0087a4589d59c498935bbab774b712729e414f280f618eede7756daf5f6f3b457bb8bdb);
  Step false (0x26719b12ac23e681280e30988400cf10a12483a4639a5abae24783de6dff15d1c982ec8cc9100426db65b2c4b3d0f3d) (0xb0534295d1da6d2d73cd8a886ab7a8cc15f942f433d0a92ac27440bad9cf14bdfbf125ebf97940318d55aeb4a833624) (0x51c0f78a3ee0f8843535c398154569d728b668ac29bdc2322d7b74e77b92b6bed6d74323075819653895e4f7dde0ac2) (-0x149e2365b9fe86bf14457c2f61b9e9da1a695ba14a7c0e0d44d62f1853e0687ba1502c18d77d36ab18858f455446b37) (-0x38d5864fd23f24ce5552bdbf7c0813b5d028b4b4890cecabf65a3739c2649bf8c6548be0c74e7161e3ae628f8c6201) (0xac2a1333f14684981b1444556c8ee40816a636b655b058327424f38d0844856de79084f38b2b1e5850538d1ffcf478);
  Step false (0xec2b7ac8f038f8e4900e7171116ed6320906f891ab39645508cea4cbccefb68d37272eb546c2bb25a4777aa9bc8afdf) (0x86d9abe1a763833c4cf9a560ec434f0cd1e6a7a87ddca11a22912e33011133cd533fb36379f81a75825f431384280ce) (0x9afa009d50c2c9576201b55f848514f0f938c81c4c24843dfffe1c62ba7edfa197b7ab28f65e8199dc103c242e4f3f2) (-0x835d2f983f3fb0d4fbb533656182a38ab07b0ce7f2d9378555a89d63dd2d40ccec2e7026638d8215b1e8174923cef9c) (-0x860e4b8de83458fcdac840a4c42a9d395ee551135528266bd13dba9ad378521a07b28bc1200124a836a46bcab6e2581) (-0x178ace488ccb24a421e70c93a69ed57e766f41121597f1d7e1aa93139cca3e6b69aedf9ff0571c10e6a05bd9fe443a2);
  Step false (0xb5d8e02655ba8370d2103ff6513e1fd19b109ce81d2e49d894da5c773a6203e5a2d813c56761b0a123125b7d6dcccf9) (0x176605152a84026d48f4001aef8bf2c63c0b5f581ee012960e8df42f8b00dc363e88635410c467e41231100fc6a7945e) (0x17e24a610efd6c78872adc50cb1c91587d9156f9eb946221dcd2b579022698bbce1d2bbd676e2e4a0bde8b1b33bb44d5) (0x459db70cd08fb714e73a05b34d68b05a44e2a7a8d45fa2c63550a02de2df37d44395f5b6f77b6726ce30ae7180e268) (-0x4f7a827d2dc5d4d467783d3580fea4d200f26d832de235c47626eaba097f1748111e9ccef538172039e8367ab609ca5) (0x68b0128354290ed0c9364a0273311b7fd7df42abea8cfedb8c333d41eab019d641bf6ad109577e368821d3b1659ff85);
  Step true (0x4e3150bcf1a2eb39eadbf5f5154daaad6393b7409ede6d183b634fa7e8f7be2d827fd9c82bfd31b701b3ac6aa1f2826) (0xb41d3b443ff89fa8fa97fe334c38b7e1e6a4d33bac6967a6c5613044b28f73284a8c87262070ad394255fb2b47b525c) (0x10210ecea86ddca972ce9ed4b644521ce4e0b2c378603cb1982b1e867a1a752fa09db6679500cc2fdc6d14f288fad4dd) (0x1e93193bc3ef578d1f9b3075d1f568d6cc65239214d3bad43324d6a15a979b637ad16dec9e18f512c48bc585e6bf153) (-0xeb1e94f05d069ef8e1e7b4c7aedf0d923dd4f3bc69a7f0955f39fd8b02ed86fafffb2f30c40fdf384b85886e8cdd37) (-0x24821af7213576b5d4040d53970c84c828f47d4091508e6e497ea9f01f192106d6b1caf4f05996467ad33119f0c07ce);
  Step false (0x198844ed2a7c593d8ef2a6883f94b13fcd4be7ae51e8d31c89d679f5e5f817028c5c207910e00d27f8ca79c90424f948) (0x1508cb7f2267070b12a49f64b6ac04ae3a7a3c9135dad95593a5dbc99eb5b2f97f864d49818abc7dbda6907592b56c04) (0x10f272a3259cc2697280b570e4fdd916727f00c6493dd930fc2fda1316cf5558e2386b3787b7e127d14a8f341ed1b10a) (0x110da8520708004cbaa6e49f9c0ae36964a26ee06d84daf178f52265e967181a05c52fe8b0d3a0a353a3463013415960) (-0x1911a91c24bd61d7ca0dd5e438dc401c43488c7866e0bf06b6378be109c29b40c1226ee16c0401b23d865582347f3a8c) (0x9998c6aa643adb10007f19a0ba4ec47d3eee712ad33590a798f7c0080cd0ea64489d46b6222c67fc8baf35f239d6f75);
  Step false (0x7af5f75843938e54c130cd30a1ba414f0863ff6d58181f5f3770143d93c3591579a5068615ffe24cd5719c6a122d3a2) (0xbb5d202e423a6bea687be2a26aca4e25d5a89a58da9a82356433e7918fd3e3b01bb0986cb9bd529db4fd54b1ea05e49) (0xc1c6f34c2cb86131febac3c1e5d221f5297792b28a63f0e7d8afe4498d1fefb7a38a6d5eb49e643df886e1081e869f5) (-0x2906b8fdb24ba3fd629be1f6c629ea67b800d368f2545add2809c05cf8883267d9f78c5ea4d0d224fe038b0e3e06ba98) (-0x2456b9d38cbf334ff6f63edd99ffb84a0dbb6e181ba020fe798f9f71a3966a59f1763492a3b66d2628b845de66cb499) (-0x2c16d0234098569f926b989c7b4df2c0d459bd3be4e740702d0df0ff9d8442a38834322e805dc7bedc5eb47f9442305);
  Step false (0xa97768bb6d01edbb9410ca4ab6ac46bfce9cb3d6f146ee9722b0b06cfcd51616fc905723960883ba837117c483a7750) (0x1289363ff281e80d0a11a125a6eb8fe0eb679d33c67c2f8cae492ec91876ad8f471cfb4549bafdadeed4f40c0518d619) (0xad99bef9e867a96fbb9e5ce1e60d97612bd7bee170b9a03ab17e9b487248608f3910744627c4017c9232a61e1621168) (-0x5f44c1d271d552471651a550d031bd09e0aa0f94e4a1d2f0628a893a7538f7d6b9bbec8abeff64409916b5adf6839f9) (-0x4506502ea8efc89c13090b6ebb6534d58bd6ae320c93ae83d1366af14b9cc10ec6dd3778035a4caefda5983c384b2ff) (0x2c7b9016be34150223263ea5ee14d2d325f115336f99e50d07d131f5da585018629fa6e2b54b5ac04b07329fe5bd517);
  Step false (0x8e24e11478a56f11ba8d047d3c895b24fffa27453b028d1644487aa13250f9daeb77940f5979f76514438a80b231885) (0xf0deb8b8cb2e78c6ef6ec16c6b7fc2b61bff051c00448699f48de4d87898c5f3c88353e310a94fd4fe9dae67fdee93a) (0x14b8b69a05caae09b752a1887f5ecdd2a62956b90755c91081bbf7c6eff9d2a1576e4efc70170e9b20ab73e73e0c6a1c) (-0x203966f87c6dcae272823e3e68c2e123998087f94960ed64ed9d178c2f20e85a832fe11f8f7011f87ac80c620ea87fc9) (-0x308fce8da71153ad99c43e504e6c63114dba81d3e03211f86e0fd368f92868e1aac56a33073bf47ec959c70aefadf07) (-0x1307fad19add829f6b1c5ef664c88504a137323dc1e8142a0f7fa364423a9490818a1795d55cee00a649c81ed177505);
  Step false (0xc9307b77bf9dcc5505a346ee17c5fe32541ff82d0367359fe7d9ebecf1a1f9b847a8b08374018d35881b629db840fc8) (0x1169f2982a2213bdb051f8755bd2dfb80bc0cf7145bc9902c15ad20496db9c84690174e3f9d840343568f2a7a6085879) (0x27c8b6f3a0611eb628d069de3bbe04e77a88b715d0df50bc1ec9835ddcc9a7002c10c865f0c02899fef129bbeb40320) (-0x61b27d757bb559dc69061bf76d55b14ae01556fc928518973326046bdce66aca2e921c3283c16bd1cb48c55228c6f04) (-0x614905e3f96504efcaae8dfb34728acb235f1fc78320583d7a80a70fbe1683f7c15e93602cbad0a6c540e851851a3f9) (0x12413ef8c5115b18c8dbfb52a0fdd3c013345a8db8be7a3551ac2d7cd6d22c15d164a6072d63c7a6f9aee898abc165c);
  Step false (0x626f2df19eab343bc993df82c6f0aa61bc403e866559590c3debdc7f0f97a1ce0660b868667bcef8c3bfcb9fde153e1) (0x12e1344af489514508c943331a818236b986d89cf2e861d2edd654c5a845dbbae66fc96e5d5938047112fe59ab6b8c15) (0xcec3aa09dae08a3c84ea8590c6e9ed810b95929e62f4bc1e353f152cc8302cfbd1ffe3ff09a9aa24f6dea696432fe5a) (-0x21ceaf40cb99640e86a3cc624e0e447deb8b3fca5692d9eff5b5d4286b3051de927aca7405b7bc3f5f277a26091af7f9) (-0x1749b1b5dfc19573628529b2c742c0ac247cc6fbcfdcc7b7551c03a8de691ef54ab78f7d12b18be87689bab3ab24c2e) (0x58c77fa1ef32e2d53619152bffc0f244d0676837520d33ecba9decdf4a9bf9dff479f0a9fc3eb56ed56208878ed4c2);
  Step false (0x85bc819c79d65c15d7e30f5bcc6c2bef027e124bef12b713378e36098b47d3dc06258e0f8b8b0a501dd25cd36e75e0f) (0x102fad1de763b03a763dfc0bf2aa4be7723969455fe6a36e5d1bf83a50cb40aa829d0bf9c38b9cb7afc541e05863355d) (0x9786fdee499ea26aef8b296f118cf5193f7036010ca2d89d8db5d676dbc15e1b6726db31dbdf3271a00b97b3b065aae) (-0x20d05d5732f0b4dba685a577e5b6db5b01ac4db70efb912b4200eadeb57b8e8ce11ca2911fb41cbe860830419c2a13dd) (-0x2afca36bddc05dfae07590719d891ab24a5dd261215395bd5b9c151293f0deb5c1be0acb0cf2114889931f4b942260e) (-0xdda28c970fe823a4bf75c0e0ed25ac4dff7d298fc767133971054d8d3c3b97e48ebe8831b00d2a5b210141fda9e340);
  Step false (0x64cd33ec2daf33102e75cae9b5df4c30be9c9fe9295ac4b672631667db05563e9b1c1bea2361ea257cc27e354fd5fc1) (0xa14ccd63ec2491c00684b6da269cda04f45819fc9bb98087b607456411d309748cd46d3c4b934e7142d8f7788720919) (0x8a46d70afedc75e3333f185584ea8441c71d1bd7e238b21ae2adbfdff009dabf5fcbc4e40c12ebe99a9cc9058a0ab44) (-0x19a2e9c5699d5fbab1b7b4fb10852e18d43e0109c3a046d0d2ffefd934a8b9468183d49a74df6be58ca35a39080e26fd) (-0x186be448cd5993f58bafd9d467c62c97c31b3966a18d16ee27234861dec64d3b5eca33552c7c95d8432fb419541130a) (-0x17aa4565e0e480151e2f14e7009948a3c6ab7e443d6803ed823c1a0f9d5d8c35ceab913936fbc91c4ad6047ff5bbff6);
  Step false (0x8ce9bb3be6fee32fb3cd7b85f7d5ddce0776cf7daca146c37b1ff03382f69c0a6649159af32eda1fc02d50304b20353) (0xb7cda41468a1710f1f2466297a478ed38870be788d65cc3cc68de87c42038480ece1c376ad38cbd6d061f1c0b1a4777) (0x1769c1e298000440f87899e50d64c4e629b0722a1b428a7346ffc4e7d1c0fd9c6efa6fbbbe1dce0bebc1a05799cf8503) (-0x5def45e8467dc7d8c82caea5d725ff6944a8b0b7024e339b8225e89ff98519ce647ee38188ed9bac18db5e760b5f5b1) (-0x2fb96819af980eaf23fd97b95777b072b4574ceb785063143ecd61a0a006a2130f09829792a069ad9e76b886c2a19c0) (0x79f12dd3fe36c9e7758bb2c6067645fd44cabe69d8bbdb9de4f5e013287485edee70f4146954e1fecbe6fcdf7d8843);
  Step false (0x30f9301aaae5abb30b066fe19d4c911aec8d001918aa28bb20c3caccac3676654505735dd7370c6166defa9e0ae56d8) (0x163618d3595f0740161208296a6220fc77842f717f9e977658ca105dd949815f204bd0cef558f80ebdd92378c25fa0a9) (0x33c0bd901a0d41dfc2119a93d0c82fe28ca86be3d1e5e0dbfcd4a099663407edeb3430bd964b2e5dc058a9803a0483f) (-0x9b67d452e68d2dffccef1565041e6c4343f3bc3bb55cfacbcc6c111e02c6b3b039856a5503b137bc9d6a6b2d8da98a9) (-0x5c3b268177b1f6a34c523993f54ea8d7b4f58485f6452f21e71f74e8d595e5288f1894949db81168c15e19eb7ff3fb) (0x143216d0cb74cf09b3ab8aabdd8c64129d2c0780097fb89994a549b63d1da4ae7b680981d2bd453e4d5bfcb56079256);
  Step false (0x19146322d6f0387d034f8c31a5efaaf9a90c4b5c11160da9200579d957a873a2c7e8e898e9cabb5e3b9c4cca8840959b) (0x13544e73f497911c8e46d7430a0c055fcd42238f34ce9325d1128abb5cf85b6ad160a74f8bfce506d377bf194b1b5642) (0x2405c68741f3c7b3e61571a23bf7b82f6979258b72ce6a0f7bebfc2bdf4f39c7c029765ca3288959be666a1b7315d0c) (-0x32ad069d66b301065bd2f9af7631f61fce87a8874a9d8d114215f9e6b40b99cb3fe8318c3f4e55de02afc9869677b53b) (-0x18301e93af29a070f846931f11c9f7c047022aad00ca751eed4e5a40b5717f661f304e7434baae240af1097bac089ccf) (-0x2c78f35f8341bf649273eee528dc639fb8eeb875ef13b4b072a5b0e58d9962aaba525c39f84e22daf7d088eb3f60e36);
  Step false (0x5cc899305eaf25704854bb4b44b817c9fb0bce854297f8e32454bce20a3912a455371b488833a47d78644472f7451ef) (0xcdeb3578eb0765a808c96310c576a5b4233684fa9299f9f29f4b0c09066915d60496cba932038b7b3ab5b45351d8fff) (0x1900ab7cf47e0b5171b48e79d3391b9d2788e088b33d546e85780db0987955ac23d622ed99b6f79436c8e85c519e9928) (-0x2a196826b7ad395a0b67515058274affb48286891ad43c4b5d718d55e94922720ffa93edf5e5a14adf9e67dd7503b3ec) (-0x14b0de325316b5db6b90442bcd48ad680181fb27266b98d1e69c47251883e6bc42bc9c6c26ac9a1d1520a6f9650a1da) (-0x170c1bd793d658c39c59697c85537c9ce7c2dd18f519e85d1eb60edee62f4b42204fa4f20f5d4619b84cc77caa5000b);
  Step false (0x63d836b20a4045aedd12144f92775dde164ff9d2712fbc684ba063f6be6c9a563dcc2c87c38ef197ba32ad11dd9b354) (0x164ddad2155118e1a0214eea4f111724061747031b121364f9c002442588716c625b81989f1af83ecb198190a5c35db5) (0xced3f17ac29e6ac63d2f066f8882665f66a89a95604acd090b785e9c828e5299143d3080a97172769fbdc17e0fa6c63) (-0x71bd8a5d96e94f3b4368129c6e8c6c6ae33fb4e691667701f86bcd3d695fb8c824f2d9c6d272a8e2d9c4da515fd8949) (-0x17f5bf3788298ff3ef452d2bd54589424b38b5a445e04b35a3ee526a036201e6d23862cdcdfcd5e21d6481dafaf4197) (0x24392099f943f709df65fa03e3d5f570223393c1624fa2798de05fedf9a4a50a921a8a3ff9362d0bcdf0b57951f55c9);
  Step false (0x97e4bf38cbe59076deb50d279d6c5b2db9a460eb1ea847d0dfc540eb34cc1e77ee7e484c0ad7ac6b3fefc7e45e80aed) (0xe7b55cca9e5267099c24a79fe9db732510ca391952b255ccf26f49020a37a0ae3f80d6a3e75b83e275f5e99ee56923d) (0x182b72cc65458dd4be69a98c65329a42316421628511d9104a1f4412423d68e8f4efc0094c4a60519c9492578743fa49) (-0x2ff408eb92db24388191fb068a6ae69f954bd41b46ec848bdc03219cf819ac2a5fcadaf91c790f6ef8d2f069e17ccfd7) (-0x3773a7ca7cd72738fe7c024179a9de956a4f91c619f606e6338c523b6d0793f0f3dd87e3f0a59be2a28d71d37c43546) (-0x2db0f5448175c968151bb2be66de60dd93b62553ab71e3602c08c5ce08ee47f27fc906b8265b6f07ca253b122c9f644);
  Step false (0x3b0bcff1c167e6a9ef1f2ecfdffbd9d1f7d168456c208e16326e7d82751dff6a06a0a2cb8fb30cb923a137d63218481) (0x5d6a95b50703885bc73b027a58d045e5db71e43bc622339827631bad5020db50cfe38f1c681ded2d11278153b80d085) (0x8db0c15bfd77df7fe66284c3b04e6043eaba99ef6a845d4f7255fd0da95f2fb8e474df2e7f8e1a38829f7a9612a9b87) (-0x1155aebade65da76670706d5906f839a3726f6d60e778ecab1db6965e43e6c464ce9e97df330a0397276b11cee7f261b) (-0x861293187ecb89b172d00a94dbcd7af241f1e39b285c05226708f1b14da4dfe37b14514c3c2cfcfe0925b24f01fc06) (-0x13a02fa81201bea28ad3a946f6feebf4b98ba4fdb3e6bc30d906a59dabb9b961b9b52847efb74f69c69658b6160b7b8);
  Step false (0xbf0bd6843e94babd3c977f0848a46a2b9c529eaa2c53d1212bfebddab96fddc47ac58ad9e5e2fbc1a870198d8df5d7c) (0x1333c91030ee7a4649e404c01b2e0d26a8728dd7cb4edb636ed984de104bb92674f1161d8c99bcf024e473fe0a1d7620) (0x114d1d6855d545a8aa7d76c8cf2e21f267816aef1db507c96655b9d5caac42364e6f38ba0ecb751bad54dcd6b939c2ca) (0x4332c8327f87d20e11919e3917b4f94dcf720e021a0fc717cf03013aee0c15a1b1d723d4fcc0a3ea419e38ae345b477) (-0x57b91b9a6459d50bdfa477ad809dd494bca3a00769c38ddf5cf1b954b7855d8ab5dfe30a154fe0bf779cb0cf3d6b6b2) (0x622e25766130466809702ca9c584c912c338cc821051441cc3f3d521f6b170a61ec668bafd3278c1f6b93260e87ad2f)].
