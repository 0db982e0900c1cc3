(** src/r1cs/gadgets/poseidon_constants.rs: the tables of Poseidon round constants
    and matrices of the feature ed25519. Generated from the source text. *)
From Coq Require Import String List.
Import ListNotations.
Local Open Scope string_scope.

(** poseidon_constants.rs 2896-2912 *)
Definition ED25519_MDS_ENTRIES_W_3 : list (list string) := [
  ["0x0aaaaaaaaaaaaaaaaaaaaaaaaaaaaaaab894a6946ca51339900c4211934e8d49";
   "0x0c0000000000000000000000000000000fa73b66fa39b5a0c20dca53c5b85ef2";
   "0x03333333333333333333333333333333375fcb92ed64b8f7ab36e09edf645d96"];
  ["0x0c0000000000000000000000000000000fa73b66fa39b5a0c20dca53c5b85ef2";
   "0x03333333333333333333333333333333375fcb92ed64b8f7ab36e09edf645d96";
   "0x0d55555555555555555555555555555566b9d03987ce5807f40f5295f822309b"];
  ["0x03333333333333333333333333333333375fcb92ed64b8f7ab36e09edf645d96";
   "0x0d55555555555555555555555555555566b9d03987ce5807f40f5295f822309b";
   "0x024924924924924924924924924924924c1fda8d84fecd43312732ba9f90d522"]
].

(** poseidon_constants.rs 2914-3104 *)
Definition ED25519_ROUND_CONSTS_W_3 : list string := [
  "0x02bfd8f9851d1f9a4dcaa89e020674783e6d46975628e8fdbebd0d9fc65a6bb7";
  "0x0606ddfccd8f40410b7b00e081b3332e0fb550604c35a4ac0878f377a079f7e0";
  "0x0a684320db7bcd61a20fc37eb5727a3634f4e91020290b6f256159525e4677bc";
  "0x0f61194e615a23d9eea116fb57862edac47d0ca825db657fd7190f87e638746d";
  "0x0151044ea56f8049f6234c98ca402a913923b5b44d5e78aa1c42dc5933020bd1";
  "0x09587d54ffe159a876f31c5c21b61732c6bba5860fc89601f0de43527bb1b8fc";
  "0x05915d9009d072c98c26ab9141d0d75d7ce85ef748b711b881c3d0f0fe0476ed";
  "0x015c0386a816cc429751a36fb04c2d0faa7e308c44b5fe06ac6814322e25cc96";
  "0x08628ea953d9417500115041717416599cdb4cb996f2880fa714fc5c035092b4";
  "0x0d0ad0f0dcbbdae016c2888cbeaa7746ca9f9d740494445524ac22cb6746586e";
  "0x0ec17410a87ef7f117c833e9245793cbbdd0c43c056e7256525cdfdbdab7b612";
  "0x05fa0ee2b7e468d63326b8b34c0b3ea15bd81b2bb088387b4c462662952be961";
  "0x01287d1a6f4bfca8ce2c400e553c0616e95d7a58a2fbdbb2fd3d2fdacbb98e57";
  "0x033d3feec5a4074e731827b1668904c4f18aad29eea4c93ee7740f64e8db3126";
  "0x0f92349a75320e636fcc6e8898de20136dcc7a2fdae9700d19a0b29e3be0a370";
  "0x0ef1dfc3cba7d96bb32fe92eabc0f78841e4bb2f550cf377787edfaeb80d10e1";
  "0x05569f32b037625fc1dc26966d9b145f8bd101e65061bfbe145a99e20fd19aaa";
  "0x04e75cf05535a347c393e5bc272953ae210527df1cfe765f1836947d9fc99389";
  "0x04977bc616df96e25a662ca0b12359f7a74284f001248a728a4e46b9f0dbbc2f";
  "0x0fce502e54a9f9b3f6276da8f197d839006894d0f38b2a9ea36564a3d9aebc79";
  "0x00ff9e673e34d84d93335b1fbd729e965a57be49627e11ddec8d5720df46533a";
  "0x09f0a449778dc1dc3cac6dbc295bfb11ce7c582939ebc5dc93045f9b33718112";
  "0x01958cc08af22930b784587498137ab695c9b0c4e948cde9a6a136e62f72cac4";
  "0x0c9dd7972b98ad5ba266058cc90e734266f816b296d4ff00434ab070a88c755b";
  "0x083fc09e539863776daf8f6c51640dcb9f84e0ec24f0f95919849be466b15e45";
  "0x05fad39c6824b916517e9d639ca0c0f0977226b0c6eeb17cfb3fe8cc8a22eac6";
  "0x043004129177fb9984c0cf1b59a84584041c4622510c965ad4a9a46a705d26a7";
  "0x0223669a7bc6fefc1f263c9322b6adf8b2abc4f92255eaa231d5845f665ca130";
  "0x079ad561e3f946168c35bac7c8f3f5312f4d8d8b692158f8b47fb624791e5ddf";
  "0x0321adf640e90b42867301427cf2fceaf7dbe0cd8ea6d3822cfeea25989a2c67";
  "0x0acaefbbff0fe974f31ee065131566dd73a4d54bcb8c38bbefc8558907dbc44a";
  "0x0db749ce9d71e885c949e99883c59c2b5224fc7ba7ed31dcae6d5d0df69d3351";
  "0x04a709d41a3d198ad5a659e9212a671bde3e7fb695368d6c8bbe1fd29b23d7df";
  "0x0d46c6a763f2169e9a1278eb922c50b1f0eff4a46eb0b4073ee8f0dea1946750";
  "0x0daeae4f46d5e47315630f2940c4e4eb2e286c0942262eebe26fe4143a261567";
  "0x0c5d7e083a4648c4ca6a21d0ac4f98080b7318eb5e265cd869d589409b4c3ddd";
  "0x04b99f23c63a16e2dea1ac6f527c2e42d9d201e3d79b05fbe8fe5ae9b0ca92c3";
  "0x0bc8da222eb6e0c404b57ef53c096376462f9b8cd0b362b468fdccc7e4d9809a";
  "0x0b44b34b541f20dcd164f25cadfdcef8ffa7b03aaa5c6159bc20c6f52480fbc9";
  "0x0624c9029a029b2d046cfbf901f759383881a987b93a848500c1db350c53ea12";
  "0x0c3866b18be1a8e607ab0347bc21a34cc1eb6d33f3ffcc2270271e3dbb8c6d66";
  "0x0211ba7c253a7e5b65b3023c1ead95aab7c40d65d17b6cd69bb9ef0c4d851f6a";
  "0x00eacd434839fa36804cebe4a0732ecebba4a0bbc72220aa34a7548731680cb3";
  "0x08b6fa3c9e81d9b8a13157d8a5874d3e6c788cabc48d918d39203e235e1f9793";
  "0x0344eb5c9de6a7acce99297ae084cc8be66089c661b5905b5e1089fca5fb00ec";
  "0x02385a4e70d3fa11af76e74f2a27740f046c03cfc464618a26a2bbf0f5038b5d";
  "0x064e58f143952b74b137d0e000fc0d649ef7b3a5c0d1834b653a0c6b90ee405d";
  "0x08c4792e5cc97d6982b7fd4f2282947536075e271d4cddebbc82f37a47beebe6";
  "0x026da130036fbc5b036789430da4733562257343ae8caa1ac4e246547e233eba";
  "0x0e31fe9c9750c7fb6f8824fd1482eec2fe329f67d740e4df2ebf4f623beb21c6";
  "0x0c6f3c2e56a02a97e83241e33634999f16c24da5082d33f5fa642b65a2d2597b";
  "0x0cdac02ebbc0d7a83fdc24a24fb11f642bf22b90f099bf5dfdb7c27ff5515797";
  "0x043562646b45ff8d07000e757a9e6df2ed5481e03d6eee08f2cbe4fc91b40d03";
  "0x0350040e99c46c82a028798c6950c0f984c2410225deaff968d9ca9656f50430";
  "0x0644164e4b60cdbf74c4dc86802aa5947d200b40c74285b1cd6cdc7a19b8f6a6";
  "0x0b14b0e2ec09426392a714be98eeb679762fabd1c428619cac745897826b3264";
  "0x079979a3e9b86ea2a5214542eb7007bcb9b3d88b9d127a3fcafe5e08d4f2df3a";
  "0x012e5873f084a893ff4d8465af08a4bdc9fdd3cf0ce2c18d9625d9b5d004e6a8";
  "0x05edca55011191c507862be8ffe232391e23bacddbb3418bf96bfbd300fe4822";
  "0x0d38126fea95a661782c80948d7157a9188c757ec6c9c636c75ca18bb1b9a2a2";
  "0x0e2545edc84af20137946fe0ae26795cf7a8d4acd5b59c54c014cdae6d24cf78";
  "0x07c181ef8762247302975909b14c064b78e058d6e19b224cac0fa2ec9f947e1c";
  "0x0ba7ad3bef4ef439dc5921b0fa7ffbbd5b94906eedde737b0ea2d476b986764b";
  "0x051a6386a996b22b0e3b4ec9b5c7b52eac46333d9e57bbd8fbc070cef542eb09";
  "0x018c4c2e4e9eded83275a7a195f9c8ddc082a5b4c182a91638e23fc9e4e50b6f";
  "0x05ac9431f4fc36c716a8bc79bf7fef14b43c86e32892e1dbf0736954c4a2a92d";
  "0x00575cac382a36fa0d3445bd73dfcedf87b3381c6ec32791c9e99bf2c4f0666a";
  "0x0c4fa23dd5847a23d8402702e0a4d9b75bfccb466129284c644d08c0e9edcbd9";
  "0x09820d212e83e9b2dbb6d1aa1fa7df6bb6436021c1943b5161eeb4068d43a831";
  "0x0b00a9e055bb766e6842fc2f736f26d72124c76117e5c50fa4598fb81fd88807";
  "0x0f085ed1775fede439326321f497415d88f9ae1fa223190f85173d2318ab2dcd";
  "0x07eb9a5b89d458879cd5b7f3ace2ee94aaa6768b526629c96edf8a749c027805";
  "0x06a391e0fcfe46cd63b0c688ca8cfcb1fe0b27fe7b00bece4c06d7c116d0a583";
  "0x0f4c23133fe07ea97b37b918228eceb1d4e8f52da16327054053e75cf1bd822f";
  "0x02510c5d1a64784e5cf9b2fb9c0bad507e7b9baeee20d6d8d3aa18abc3072557";
  "0x0b5f1fea840ca37472a36e5777901d17903900bd91a36b2b869f62a740d2748b";
  "0x09db50948ecb706f301bc06e9e861a08b3de58c996dd3f3c15aa69166041c488";
  "0x002c86619ab3407de5f8a39d8da8748ba5989bb980704493cea1317890f9e804";
  "0x07c1d068b858fdf4e0708f9f8634b99f7e95ec11ed5d1e087164c177852b91d5";
  "0x0dc7d7003295df0201de3df34ecc01484c68c1e215c1c7dc76ab954342c24a5d";
  "0x0363bd67285973968b7bed056fe4b1d9d7d0979277d8f3593ee0ee70a3d9eec9";
  "0x00f12521c4f5dba6ba6d841d1a3dec39af5b6e01efb6b186ee8c27df58dfd6f8";
  "0x0f30a8a5041db65a7eb4a98345e8b1fc25fb373554adde824527a0c009fbec0e";
  "0x06889d57ba5a0287551dc8ca3f0067aff22327e835ca1048dbd4cc19db82e106";
  "0x08262c54bf90ca518c358cc50681b5c56537d7bd4c692bd2dda9d2f48b7abed9";
  "0x0ecbffc432bc5d0caa1e11415350a280f02007c74f8182185bd3290a7b0d3108";
  "0x0c709f9deb1b4be81df39c5a2cdbbcb3445aa849aca442bbfa5e4983cbb706bd";
  "0x022060eca2a543e27253d25d45d10d5bb07809aa3b4c9e24654cb5f734e32d17";
  "0x013fb58b1a8b832479c6d2d00fc2e98ae69b8db06177b1c85f0b3baa04216ceb";
  "0x08c1162df4a85caba6df429b04ee82584aef89e318eb0833a34ea04510b8f11f";
  "0x072d96c34887d754373c61848f53739ae4b7d1e7c27164ca076f724d1a7aec11";
  "0x03eb21bb4d80b67da366df7b6646459590aeaa7800111cd053d63b1305dc5467";
  "0x034d422bb875b18cffca4aef77f9ec0665a0dab795c3bf13dfd2028a6c9eb80f";
  "0x018079ca2ccfcb54ae2c4bba17a096c6834742fe17b43391f211f85f2e00652d";
  "0x03c4f80ce36ef2ec1b03b838c520b5279517c66f3137617c37c4ee48119516d7";
  "0x00dfeaf82aa8e3e516e1e1c2a010b2a4c7293333a85d7b9bccb8ed00c9348744";
  "0x077bb24cda14f59f201f2040a01f51d04b728faff5e8d3ac0165c46a88b069f7";
  "0x0f0a99a631edcdcf2cecef040cb26859b02a099da1a9119c5a73154703796c2e";
  "0x003cbc1be60ba09587f0ba25b6a82684706f0d6c93d4058b83333df24ac1ced2";
  "0x0a75373165421852bb1e48adc821407d4af62bdf8da32dbaa901c119dd7f657d";
  "0x07d0a7f1ce645ad34a08fdde801e90c4de3000a20c7be26485ad8798ad8f08e1";
  "0x0ace545bcb159e24fb6424c8a2cff9923de56cc1150921e4423cc4b65a953567";
  "0x0b74e6349481db679febfd6028fcc7bccabd17f5704e7ffdbc9335f380b2c189";
  "0x00a19131e568b1f1092c83c9d0abe8459a159b32de0a3b478f093571836cbeb1";
  "0x063700d8eddbba94b0191ff2f1306455daa407005eae81e4aa7a4ead5722a811";
  "0x0546013d18f67a7ec1505f4f3b97bd6595aba0c3d27294fb864a903063ec6fe5";
  "0x0e2362d021b9400fc5535fccae98c308b3a2d71854b74ba38fdc961e4ca54b86";
  "0x0b35299dcf6949b233494a10c6c2986e5cc8399b431d8cf6287f6a4de06ce674";
  "0x0a4f05a623e48a4d52b1cd24f8ce346a6fb8c50e9a6f5bdbfbbaea19ff1b4c3e";
  "0x07549141f6739d5987a22dba99f57070d3c1eefa6ccb50591c3707a9514765bb";
  "0x02fc6b20ea61a9461ca4356d95423de66ff9ce8ba633b9e80f5039a2a52f292c";
  "0x0eb872d59fac0d8870a1045fd921d319c0291aacfc8a25ba44b166f6f553ed1d";
  "0x018a15ddca1c374f28fdb061969e718148c54688dbe57f0dbd4b6bf6de4fcf46";
  "0x02ea9e2eb945f43bd13f183c8fe7241ee7926df17b0a4966f52d0eaaaef493cd";
  "0x0dc166a8dc018b001f57c4e82dc2999ba9cdecba241895cd695ba3d2e66d5f2a";
  "0x04ec49777e8969b66c3705d75cb6d7fc1a3182df9ca5b0fd10d6b6ba1d2fefe6";
  "0x002f842817ac47af6414001c82313a4533923c96b8be46eea9a05aba881c4302";
  "0x0b79b3562e81d39262a6d08e7d4d0317d369a4fcf88688243715d4b4d3a6bfcf";
  "0x07f7f85e2f81c2784ea295a0a3b45746b970ac8d2535128801a448825bf159b7";
  "0x0c3e6f3b2a1f9183bb97371a6eeb89122443edc28bb8dd2bd89b41af5aac3c67";
  "0x00ec67553f2952a878b34465dc98a1a0868512f4bb5677bfd85e7881a5343fd9";
  "0x03819bedcb8c8cac9c9095c5fb2a64d87135e700ccedb50fd0522c36dd27d7eb";
  "0x05df018dce43213cfd108e7ff96c74231a093ec3fd6db90542da6f45b651a790";
  "0x062ad56b945bbc155bb1c84f3676f24cb32cc8985986e5a3c4e8ef7073f78cab";
  "0x0dfde6f891cab27bb216022d48e0871ebf19d689dcc6becb1c787092b5c7f33c";
  "0x073fd0207063d27b93ebce8b1cdd344fdc9f5ad1dd48514a0ed9ba4863e580dd";
  "0x072460952ada82315083d61cb247abebb5aeda30d312185e1370b2fdb132b7fe";
  "0x0acacbf7bacb7499bd771249a43a3e528e0177ca6bae4feefa0c0cd9d4cec871";
  "0x0a13de7d5c8e6b833cd9f37d9e6590196460c528533e762bc96b564d0233a8f4";
  "0x096846982c9482928f7ba229b6c980a88eb98cd1a3c932cdda2ba9b9f7099135";
  "0x0e92e5c74df42537072d85e21d0da734df53d4ffc64d7237eade819eec3583c5";
  "0x0dcee124ffc829c1ea85ebde4aa183919a988213a01f323f1b120a7448babfaa";
  "0x0aea8ec45d9626165d01e08b40dbe2cbef40a049c0e98cdfb80713f433597fbe";
  "0x077bbce7e763f0faa96878493f0dbfac75c71e09ed1cb1d73eb3f5ae80ccd500";
  "0x08241f30cb3436b1a233c77ae849226c48c5917ed599e94057c144208d0e0277";
  "0x0912e27ffe1989e19e444905acfe3baf19139e974aa254054783495a13ab6937";
  "0x0f79c64ad5c11e26a10f3ce4e678b80202620fa298bd6cc83f57a7ca67e3fb45";
  "0x0154bcb985ae4af7798dd83ad2a7871f2fa271505646e5e51ef9fd943297dca0";
  "0x0dcc29379bb758f36058ac1084d5413f36705c1843e9d3d52ab7a3acbaabdca2";
  "0x0214ca92f875b99e5c53b0decaab2cb1fb41204839d23a948b113be2a76cd450";
  "0x07b6f2d9b2bbff1fa97e95a056bd881fa7897e658cf72e9ea3a1e23be9bf21cd";
  "0x0e673ab6e86c398b01c1ae767e59640e1cf94d1cebadde98335c275a5c95a750";
  "0x0a580644bbd321c130fa0347a5b64fb334f7ab0b827e59dcc36874ecb08dda88";
  "0x0cb6b164077cc577604663f98a37fc4ffcda37e8a170ea24d8045b0e4741cb32";
  "0x0fe22523dfcd14c644ee7caf25b73fdfc45277480af4a84ffd1b2124fc50962d";
  "0x059d0c133ed67ae665acad6b071fd63aab1614ed557b438ddd4724baa02861a6";
  "0x0b5de37ba7d86c618383cc779b77307c41d3fd31e3fb69e0a02062fe6f50f989";
  "0x0b2c425ea36e3c68fbf63433480c0d03f9a0515079cadf5c53b22059a60b4f45";
  "0x00beab46a74e6463cd662fce4d6d4709a2253723c9a37d97680828f21677a946";
  "0x0d53a6da660ba25d8019ec11c2d66adda2c7efd77b35e3d2eaebbf020ec576fc";
  "0x0099eac13af298440f19ea563d6948ba1f6bcb5579f0d316ef138b80bb343e74";
  "0x038095391f57ca1801b4318573de645a8bee0ae1ee414e7ad35b66984761f8a6";
  "0x0a9d9aef97212c6d6a71095061133585db5f0e91cf478146068abddc1995c141";
  "0x049d4473867706fe556d865a183e88e5bce91c27e8a2b570ab4b588476829748";
  "0x0a4b5806213fce349b922121a5d55401b1c8179db0a64495d4bd865487fba38a";
  "0x038bd6ec56d4a2d07f5470759d6ad5e8a3deafff21bae56b4bda8d59ea6a88c8";
  "0x09f1e99f831baaa1f8e7b9cf0db48c9cdb4f6434c717193bcc7e7e9abd12b958";
  "0x04b3c3f5eed2b245d38d17d7d68debc73119617ed3f3b6c383b0ad0e2e029c1d";
  "0x07c13f68e1fb071f838ad74cff71a8e5227c5996a38ab95343e48949f6547bf8";
  "0x0b5cbacde0eaf637b6883b7c7b468314196b19b2a670f77cd26d2e4f6155102a";
  "0x0a00ee1e0165ee1f728e38fb128dcaf90505072b04d68197006fd7ff62a7c3a6";
  "0x011272356618b4a01f38300b10958304e1c1fb2350d028200342aed51b87b4d4";
  "0x098b467db1c619ec5743a5e03795818c85343f8f60b1f941bd1e0553f1a93614";
  "0x0b5ab8f18d721dfea921b71cbc6ede86d9c1e3383f06f114a43b66fe674fc5ae";
  "0x03fdc69d53220ee4b0fc06fcf995792c78af960f3541858b5eb86afdfc58a0a9";
  "0x08f6e652ea811d698d86f7f8f46c14f3ddae5efffd9333c6ac1f6d8b4866c312";
  "0x0f9595bd1cb4071e23bf8fd0ecb657bb71820f38fe4cce945621a316b7b70bd3";
  "0x02483c77bbebe5ee5cb9f1567cf53bb96081c1e8dfab3c0fbf43cb638b5b4148";
  "0x036a701fffbe6bfc0522ac4bfae356905d2287ea15606ba358178c9b37aa8a98";
  "0x001ced362de764ce98ceb4130fc9cb3617d63525d2b4f1641ebd24c46854b53d";
  "0x0e931a1ffb0f7147d64690696e15cb689243d94d73b987e0ef12eef141d765e6";
  "0x09bce6f1476deecb48d8254186b7ab4bdc7fe454e3f73ecda587479f9793fedc";
  "0x0595a32c4209ae9cca10eac80d1df9caa0cd89441139db0499303d0f04ce6cdf";
  "0x0e910b4fc8d66d3846ad32f328db02951bc5ed4aaa2d17f1459f8d8b0e22fefc";
  "0x01bda0ec5e0b2a16427f13defd05b1fba823af66bc60a5bb2756a8719cefe4af";
  "0x0fb1038fc7fcd835935ecbbd8a42ab69de567f36caeb43a4b4842cc27027cba2";
  "0x0d49339a2257103af7dfc01ea6c8580d0bfeee722a1245d8c81b46910254fae7";
  "0x04cfcc66772f41add6cc25026d03f40b9a4706fe07af0f9a93017f2defb4a53b";
  "0x0d6041118b7f38416fe01c1ffbbffb31d570dbf978e66d622088117d4b030016";
  "0x09c8dfa6b5ee4a8f3f3e574574af07d56fab2d95000566c5b0355dbe7e24498b";
  "0x0633a773522be37790c63f52031e3e5769fa4c5145a924335ec5df040fca4bc3";
  "0x024cf05ddd33f1db77917c12de307d5fe8b0b67a0f725830fd7e0c9cff437964";
  "0x04fa578394a5d106a7bd9f905f5d52c0d5c96407a76fe078a706c7b3b6b39d37";
  "0x0d436b31a2f38f30440bdcbc4c3f7d7816b16265d55dcfe36dc878748d880fd4";
  "0x0856d2206595b8134516cfad2b0967780b2e02c3e3830c47108afbe160ed3499";
  "0x066f4bf44f2efaa93811850c8e4f571d947d9c8a7166cbd38c426af08eda78c8";
  "0x09bf5342eb5a439151eeb3118658e0a9f7b68fad52e234d54f1b182e64b503b0";
  "0x060410a750fbfbbe37bbafee9f18c525a7c79382e8db5f2fe5196c1042126b9c";
  "0x0de36eba02265704f870c88a4d3a1dad4efc4150de42afc7e36cdf0770f30bb6"
].

(** poseidon_constants.rs 3107-3143 *)
Definition ED25519_MDS_ENTRIES_W_5 : list (list string) := [
  ["0x03333333333333333333333333333333375fcb92ed64b8f7ab36e09edf645d96";
   "0x0d55555555555555555555555555555566b9d03987ce5807f40f5295f822309b";
   "0x024924924924924924924924924924924c1fda8d84fecd43312732ba9f90d522";
   "0x0600000000000000000000000000000007d39db37d1cdad06106e529e2dc2f79";
   "0x038e38e38e38e38e38e38e38e38e38e392dc3786cee1b11330041605dbc4d9c3"];
  ["0x0d55555555555555555555555555555566b9d03987ce5807f40f5295f822309b";
   "0x024924924924924924924924924924924c1fda8d84fecd43312732ba9f90d522";
   "0x0600000000000000000000000000000007d39db37d1cdad06106e529e2dc2f79";
   "0x038e38e38e38e38e38e38e38e38e38e392dc3786cee1b11330041605dbc4d9c3";
   "0x019999999999999999999999999999999bafe5c976b25c7bd59b704f6fb22ecb"];
  ["0x024924924924924924924924924924924c1fda8d84fecd43312732ba9f90d522";
   "0x0600000000000000000000000000000007d39db37d1cdad06106e529e2dc2f79";
   "0x038e38e38e38e38e38e38e38e38e38e392dc3786cee1b11330041605dbc4d9c3";
   "0x019999999999999999999999999999999bafe5c976b25c7bd59b704f6fb22ecb";
   "0x0e8ba2e8ba2e8ba2e8ba2e8ba2e8ba2e9e9c28f8f13e317d0a3f42d225f6c0a9"];
  ["0x0600000000000000000000000000000007d39db37d1cdad06106e529e2dc2f79";
   "0x038e38e38e38e38e38e38e38e38e38e392dc3786cee1b11330041605dbc4d9c3";
   "0x019999999999999999999999999999999bafe5c976b25c7bd59b704f6fb22ecb";
   "0x0e8ba2e8ba2e8ba2e8ba2e8ba2e8ba2e9e9c28f8f13e317d0a3f42d225f6c0a9";
   "0x0eaaaaaaaaaaaaaaaaaaaaaaaaaaaaaabdcc650c1562fa6f2610dad82a8c0244"];
  ["0x038e38e38e38e38e38e38e38e38e38e392dc3786cee1b11330041605dbc4d9c3";
   "0x019999999999999999999999999999999bafe5c976b25c7bd59b704f6fb22ecb";
   "0x0e8ba2e8ba2e8ba2e8ba2e8ba2e8ba2e9e9c28f8f13e317d0a3f42d225f6c0a9";
   "0x0eaaaaaaaaaaaaaaaaaaaaaaaaaaaaaabdcc650c1562fa6f2610dad82a8c0244";
   "0x076276276276276276276276276276276c18248e23d4be8a50087c82524a130b"]
].

(** poseidon_constants.rs 3145-3466 *)
Definition ED25519_ROUND_CONSTS_W_5 : list string := [
  "0x085d902f451eee85cdee2403ac5402cef4cd95e24ad12e23a9ddc318888da06e";
  "0x0f9bb49d7a7a24a3e417d4e185ac534781ed82dff01ccc7e66bcc3146ad0e089";
  "0x0debcc8bc4b514a908ae70076e0298276096a45e9b6c21a0cb22da5527a71df5";
  "0x0d4bdf45f089caec15bfe123948bdab669d782c6c03ea89dca710054b3d65699";
  "0x043618e0e1541407a948a27a4845e94bbf526d82d9d82e9a97a56eeeb0d8499e";
  "0x0db55a794754b3a0f3dca794b1ae4f30e4a74c18d175232da542c0162bba2896";
  "0x02112bfdd9128c6f015eb92ca16749c96b8ae5f8235ad8c1c5ee75ea8fa56cc6";
  "0x084c591f5a629480e762056bba319e52228f0846463851ff3c5bef14e82b4a22";
  "0x0a1ff1ea37bf13f06f44e7df17c68090fe971ddc242833281696314f299a501a";
  "0x017951ed32a919ed4d9c186fe5ec93a4c1fa51c7cec7632dc36662974e115912";
  "0x0b8eaed471374cdb346f334834fe0bed223f99c1760f12b986141edaad9328b2";
  "0x0c966903ebbcd28abcd35c394063fd058cd85cf1d5c81664555b326dd97f8348";
  "0x0ac2f739e165af70f3ade383ee3fb947e7ef5b35969cece8d74dbbc1ea186b70";
  "0x099186e2ca907e7ee40cde117d9392f57a39fe4976f000a8fea9f3daa33e5cea";
  "0x0c390cf8ce055a9283f230660f9e64f81cef7f5f2754403f4dbbd2479abc8584";
  "0x0d14b2fc0fc33f928fa4948401c3d5507ac2a03192261cbf9671640af1f991c6";
  "0x068d2c0843b73e55014be0ec13401563dbdd6d7a6486ee81c492edefc67f819d";
  "0x0e7af19ccb035dacfc23b263d3f43e4790c0475cfd154b2961d89beb9a20a896";
  "0x0f96b0e8748b993394906c0accf05895e9b3d6f9c5ba8e4d3976d590013388d9";
  "0x079a184d1a1840b80d143d406a73fb5fbb6d0696db0b65c4354c4d1aa24274f8";
  "0x0560361ebc26f2c1a436cc9e55a40022a0aae4f2e630e70a766a9e2ae14c63a4";
  "0x09db639419ac0878ab2cebf73cd6b86d26e202456701c2abf6473881efd45d8a";
  "0x0f6bc0a08ce36def65e4e4b2819df667db26844042321e9076550f4275a5c522";
  "0x021e9459737c9b72979745c84fb4d534eed5516998f2afaeaf694b1942d4317a";
  "0x05cd1e9acf732a93f5fdeee59e8a38cd3d5fd8262da93c4e2ea621c248053a69";
  "0x05ca6edff3163e60a54e6aab0cc70ddda3083e984f101094969ad5aab3cfc193";
  "0x0cc63422fb81ab22727a7d124ccbc5ced0532a04ec5768d820da77c4ec029b74";
  "0x03c75d483c6a48adc7f87a3f2e6a5b93379babc78c394006b4b8fa170d061c1b";
  "0x07b23a371baf483df997bc726199b21ab0f40e0812830fbd7b9a3dd5fb164165";
  "0x0d855149f8204843a9f16b8ba62b27dbae8d8990191812feba20bbeb75816ac3";
  "0x0888afa89fba97335e43b0aea3f82c23411f855a17e752e89a498923ac781f3a";
  "0x02ffc4f4a971ad354ea81a9394e9fd09d1669e9e30400ec31db123e5973c03f8";
  "0x037d9c516c33d053127c295e08d5daa08560d4802344189ea329db8c2a4f5134";
  "0x09d65a01d7873645a6e12f6feb958e9672243e5af88d9f95bf5860e30e945cf8";
  "0x0166c3d85e3a4b51c20434e46f639a43308680c682879de5755ded5f9f220a8e";
  "0x04782478be0dd50f34f9bb41c294d4bf2269517a84736c5e9f1e423e8f27ad00";
  "0x05c91e618f1eac4dde7dbf34dc40d3a70e94f00112ab3e49cb19c526d8a4e636";
  "0x0994b3a5d0e85e5f690005a0f241b5d1be5d11f9e2fcbf16d8f446964f0c5630";
  "0x087ea0d0d2bb2c5ca32aec2e918d2d2577c017d0d529a4d3abdeaa27b3c5ec30";
  "0x0e8f7a9d01a7151a0e933350da9d408ea64e4e10d87a7638d0b54318674ad7dd";
  "0x062da5cd842b3e445fb33cf8045cba4c23aa4dbf94d7ff2838e7f8f60d2cf139";
  "0x0d3285b6b7553e7f14a1994a7911a748aad9addb65ccaae754e503a8bbd4566a";
  "0x00f02d8fd63b35f7a7bbb2440bb013777233537d47f3a2a03d242cf24f688b6a";
  "0x057f0193e5037a9f6bfddc5bd5ad372e7e4122231ae6a8d16b0018e5e8a4e67a";
  "0x08f2dbebf82f9c2ad7ab786ed7eb4fdf71607478a9d461026c64e85c68e9a758";
  "0x09d9be31dad19978c2674ae057fea9656732255157442a314a0cff3b604c28b9";
  "0x0eec0e47e0f2d874ee68183ce096f47ffe46b0618540f5f3084a84ecc593a00b";
  "0x02b278484209c8fb1ea980507a5e93b34d97de5aa6ebe34a5962d732138c74ef";
  "0x0bd5a23b45f2ca214ccf694e1ecda29c72d7164ea6a29c54d6cc9347d4dea098";
  "0x023343ed5ead9f770f11d81dcfe9776c56010c4f678d47d99cbd56703db270b6";
  "0x0bcd909ac3a42637798353186cdd3904f9f42e3b01976e019646f01f334a7fc7";
  "0x0c80ce5e57ef6f9f906d36774028a69286c8cc5145290a615bfc9050d6e895fa";
  "0x056dbe8bfd979fb65e087bb194224608578bddd90bc1b10c39eacfcac4016edf";
  "0x02d6238889b035eee88ae161c4ffeba555a1df9d13613460ffd7b79ea4021093";
  "0x00dad2ff1021bcbe406ceb20aed1d286032976e45a1540af2ba4242ba71f46d6";
  "0x056a1d9601102ba910e3998598029583d7c58322354d00757dbfe165e44db2d8";
  "0x020ccf5d1ada831698addda66b51d4b1c54ad12d01f9716df461a85a9db6597b";
  "0x0abc43796141b54623ab78024c2a1bef6c54fc09581d7351ce623c1bee9b0388";
  "0x03694edefae8c01e5010bcde2b11d8dfe900a05dc8e648ea152625d1162cbbea";
  "0x0c5786dc9a3a20dcde46d2e33325b2fffa2d86931f3a3e3a7dfc51b13d769309";
  "0x0754265fbc004f561a9c6c9573875b72cf5283dd530923789d85b8d81baaed17";
  "0x01021ac29f2d0841d04e5e6a5bec5e3eb296d43e1dfe817903e937156a67c976";
  "0x060af2b209c6db7b650dd2cb5b1a35e567fe3551f4cedc7474eaf3859ca6c40e";
  "0x0c7023e850f3150675cd9990ed25ed4139b0a557e794097b0d5da3e77fb4b215";
  "0x010c0d1ab592b68196c43f83edbb501b02032ec98152f80e7805cc1418c675d0";
  "0x0832366c583aca77d2354da12e55a26e91e188f7a23be85910b65534b09e46a6";
  "0x0e9c3f0bde553101400720359308f23042a5ddc45dafc7c158f23816061e8979";
  "0x0a838bea4eb2efe7e9ced4ec57aa999bf0ba1c31cadf8a49e0a9aae9160cd6b9";
  "0x0a9960335b531baaee1517ce338399e99734a60e8f47ff2afc30da8770169b93";
  "0x0c8822e45a9c88b9d6a23822b27806e8a0194086e787d67e100e7abfd827ca39";
  "0x030de6331871e7674d5e8c098dd0eb37ba8eba71f10b3fabaec209f6d101bd42";
  "0x0d8a34e4b61f272d13d1c60e87ddcec4ce090a16eb879dc1887e727971bd0440";
  "0x08e9f1699a08ab8fddedfc7cde4e941c989c71f8b2255d2eaf5f37bfdc19a1c1";
  "0x09054db1bfc51e3032689521741e60d1695689d781b197c5c53e9bc8cbe1c948";
  "0x078b6bc3edb5698b0f86edd82b7d0abfca697d48a1520a82cf210b5e96f15d59";
  "0x02cfa4db573bd037e64a1baba01e1c3a969668b30cc913ac7c8a7d734723ab87";
  "0x0bbb2ce945ced7e6a60c6b304b908b77b4313cc2e8c117910a36172b9d9f70e4";
  "0x0f22b4442b4fea8b405cd947dd479f8f175a09a794abc7b5a4cd0feda2bd4a53";
  "0x02474e5d436a6f31a994f1799715756f136e3e44fc5fc96143b714bcdff66137";
  "0x04a1974362c96f29431bf05333233086e47866075d483365cdb110165f0887e7";
  "0x01a6027e7d0f3b2d9bad71e9196e158e3d7eeedfe62a9c8920424710d0189f90";
  "0x03b486791db8de743cb5435aed838fdf786ea10db1157e31ee75bb917c6e582a";
  "0x00f4f36d36527b4e9aba12853cbb7da2843a49848e198be68603a2117d8b4603";
  "0x006eb4176f5ce048dc9f975a7862155660bb5388876505c388997f049e5ca31b";
  "0x05e5bb46bcc19971194e80a6915fa125fd0a661812d26cbe80022fdc05083d80";
  "0x00e034447d849a8f3b3682100cba5202946a844bb6b684a80a1273785edf43c2";
  "0x020cc8c995b6ad8e31340eed1db0195d6cf15cbc39e72621747b1cba4bab8100";
  "0x09e7945171c02dfe2d99aa18298e60dcc40b15496959028452ee70d715b9a130";
  "0x0fce92ffdd872bab8ef2df199a3337b961a5fc0632b67049ff0851a4b0a8c987";
  "0x09a8b26e26108c45ac9f48e8635593293541baf38e41dbe872aacf9334e16f96";
  "0x06d6c46f8733539101993a4aabe489d77b9f6fcfcddfc162371fdde0dc1a0dec";
  "0x0e188f4fac20f9e837b332fdb10ed78902640dfe62c18b257ba8b9f57c4dce3e";
  "0x00938ac6fae83de39d7b691fbb23981ebca4bb543a93fcb7d851aa4f8f817032";
  "0x04efe6bbea4b57ee8a68bf82245f92a8735bad2404a6bf3b00130bdb507bb3e7";
  "0x09642182ac5325611feee862374b10521393637937b6d3bdad0bbc22096993d6";
  "0x057e5c6cd121f9f40f870cd6622b9c4c5d2104edfe1759f97f5a60abff5d37a8";
  "0x0cac17dcb19241982c3d1a4a72137ef7cbddf96ec20f74a25f114b60e4a25680";
  "0x0b6ee63681937d6693e46b58cc557e3c4890fd57e928829afe3060f57911c111";
  "0x0f09d1c079c52dbf8e2f9675384e672fd3b411969c8d0c969965de758cbb27a0";
  "0x02c865fe1435ff10b7c913de7aae579ad0be2a208e3904ce9ae1fc55bd644a4f";
  "0x097717cab92dfc45ac8147fa54d9051e88e5b6898754a9f0b5bc6ba48667e4ac";
  "0x03f9fb3ecf9d5e2ab1cbf99c9efb33363186c3603df99a3265f78b1c5ff9baa1";
  "0x0edcc01b2d54012f8b16fbf8e20777c11405ab30c029d7aea1159c696d3b2bc1";
  "0x0bc94afe508dd9737526b40e9fd31917609fc9aa84a17b0becc75fe9482788dd";
  "0x02d88236b4e46219792f35b7a54350a80f4fe8e52d59058a508014cb0a1e262a";
  "0x029cd74c75e28c46e2ab44a12a4c92689c2db8b57ddc973c1544cb5b3d6eefc4";
  "0x0a9ac8bbe40d2a702ec58c5b115c83975306cade1f5d408f6e856298d4026b6c";
  "0x0f1eeecf635c10a0cbb5a7d46439211ebe538e8a7f7959f5d766f2d285623bfd";
  "0x0fd39429a3eae830bcd06864a9ee0702dc8acebe16482daffb18f3fbd9aea734";
  "0x0e6ad93548bee287ba3b1c70ca28394229879b62ceb1f499c9c3c71f463384fd";
  "0x06a30f8ee13e1e2893bfe47023eec8082842ff8d1b10dd9e3905f677948bba4c";
  "0x076865651f0a8686cb8b195e73cca062c890e21161a6e29e492d9aa38b8edcfc";
  "0x0cdf954cb2ca77ba2c77b676c7fc04dc9ff4f41bcb5974a71bb218772680d831";
  "0x024f3544c05c433f255190d83e3ec4f2ec0da46f30920d780ea4339c22684f76";
  "0x05980fccbdaf081c9012e0f3e3322bcbf0585f20612279a927fd6f36dbe38cad";
  "0x0fb986ff9dd6f968bb3e82d14a91a7230cbd310aca9cbe6d4f0a8a3ed853d454";
  "0x09de71a866ad274d5cc25b534a64ae310da4337654ace1d09f405146ac695f1d";
  "0x0a9c4447ca99f7023b89983a2f46e053e85425c323536647368b706163363de3";
  "0x046b26f385e1e5980c1bf6ba252fb9bbc8bbf7178a5a44ef356ef958031f7e25";
  "0x0e563ad26d5f108b25397d6f2e1ff8ea335c76e961c5f3bef91f89e94840ba95";
  "0x0913929219bd8eb4e541fdcd4118e3f8b04e0a73718812837701f76d6d570308";
  "0x0130bdef65285b9f309fc821ed23173f64e0ff1930413e0383252c8f8a82818d";
  "0x08210f0682b39453a31ec42ff3986185cd8b2ce7b1d17a12f913ae3649eb83a2";
  "0x02be5aa510ba7ca0076bac172c17cee76dd7c63edc72732e99e488c12ab98f67";
  "0x0b556e94044807ad732457b4ad6315ec4719566767c5c7fda544f036dee64f01";
  "0x05d8ad52f5ebb45e53ad69d11f898b692ad39fbf7245abe2824940b009695136";
  "0x0ce8291b7163af3562c173db7e71facb602654dbff3adb683e4fbe82c95af0b0";
  "0x08792f6f5342374ceab49ef93c528f85478a37bfb649c54b5bf01f589ed1b25a";
  "0x030f2b2e404767d6c5874fd001355dabbfaa15d6523e4287a750115c982feed5";
  "0x09978cb95e2820f12b01508a56b253cd8325c939ded456d843ccad8e4caa0366";
  "0x0bd93ef3ded420a0b8064810f7c63574850bd8df0efdc669c84ba540956d7f6b";
  "0x05a00675ec2852613da2ee37e240f60fce5d77c6ad28cb9cdfc38963de2ccccb";
  "0x028b75260cb521f0ef5b86695382f4caa4cd07934bc95e9ec88959fc16cf1b7b";
  "0x0d673e7f16f27bd2ece800ae9a02e9447533cb01b259df49b087a37a91d79679";
  "0x0a8cfc7331aa3120fb8ac9c133982a1986825dea2e52cb5fe35f79f38c125ffe";
  "0x0cf078f34b2e754f47bd24a62510348cc3ba546fe6dca2a4b8de6b8cd068e047";
  "0x0cf425a45833d7ab15d0f5445449ff575531bab777e8c8c4aaff408a8e7e3754";
  "0x08328ebcfd67542a35182c81c9e1aee778712f6ffd07f07b54ee34a76268a6b2";
  "0x048029efefa010a9557ab91df40139143b4f97ef6d2d0431efca62963d4d3c11";
  "0x05813ef55925f6365dfb41637dca1727b99361b330ae862cdad66a6cee9a765e";
  "0x0e2db0dab034d9ae0ca4e9f3a167aa36bc1189f3833c4d52abee57ee61bdfc51";
  "0x07f593f797f7b4e7b162982224b80297d855dbffce8cf6ef22beb2b9b84813cf";
  "0x0a139c4450157a0de15d677acb8197e1bfe248390877599f7cb670c4139c3512";
  "0x09d1c46c87b1e029477408c0e68cd5c494442fe0cbaa6d924dae19852220b15c";
  "0x0ff4032d760525e23eb0d2ae5ddfeabfe5395e0196a348609d4a58ddb766bc76";
  "0x0e9e8aad81d5a6bbdbea54031d0a6ad044666d1f73fd0fa07ecb393e3692faa9";
  "0x0a5da8174c0e9569ae4a7b6cb2c13c852ba28b1809ea386a80ca3cd4c7569235";
  "0x09b375a6451be3a6b11fa106527d961a0c3924316a50c397eae36ddb6a52b470";
  "0x0eb12ec37f13c792e7a2562645bacd4717535b4da53b47cc629b2db4576afee7";
  "0x071576df5409e115f73b332a93eed952e29bf475f5cd92265497d9eebdd3bbe9";
  "0x0ffac6ba2df323044c827d3d6e809ec139f69e7f1a9348a2e87f0f7fb2903dd9";
  "0x0bf12fdff93afb383a0f0a000604e4d32a0655bbbf73baaf785cd22af46fa283";
  "0x01b350d7a0197bdf57c22dea8080a68b03eb91dad5e9ca28cf55bbeb0d3eaffb";
  "0x0df43a56f24a8320c4930894b183f6c943a2815d996ea48aadc85384d2af74cd";
  "0x06ea095d18a04270706e031a364220680d4a578b114bd851e5422f74b37c20f9";
  "0x0033d2124681addb4b101418485a993ccf8edf50e8c82de07035f9ebb4d4e2f1";
  "0x0297a5b5d0ca4defb6769623513de25c679e3ac8bc19f02e46bae6105ab9a1e0";
  "0x0a2c7969848f561703979245fa0b6b6da6cda6a9a810acf21bf0950bba078bae";
  "0x04c7342c2a6b74eaccd1ad06f260aa6181e39827abe8bffc087af5abddebbc81";
  "0x0312e786a1df9d881083bbd950fc2406dc71b7edfd4263ea0a4dab1d3030387b";
  "0x0799c1aa81eb9a3c0a53dce0fdc61cc35fab5e85c42e84f73c9f8f176cdf2c0d";
  "0x0b12789388cb1a376739e2055a27b88d4abb82df8b42d445e9863b3908c63915";
  "0x03abe34e5774d6ecb99d30482d1053df64f8f6141744a071dbe618bae125cea6";
  "0x08ce99fc790521aa99417d259969125d69af4f35f660c841485f16aaac2bc8fb";
  "0x09399c0eb84272e8658328c39c5ffed5bc0e9993eb197872090869fcc215bee8";
  "0x0060ca1ea448fb22cfe9f54cf2b25b9acec91603146fccc1a293ded6e91d9156";
  "0x08e7b1297cea451f1d45d1a3a2967297317065b037e402871d8fa4d5cf2b24f5";
  "0x030e9fb811befa8613fe4eff4d7681728619fc3780131ba3243f0befa1de6ec6";
  "0x0cc56821ff31338adcc9baa6e7cd2cea535a2c8158f258df7b0ed2bdaeb19e91";
  "0x002492caa602d0f5effbcdfc51827818f45f08489ea75789eebe438e9920e6ed";
  "0x09ab40971149877c767519faf7547ff7720a0a10c782e4e684d9b4cf22e04a29";
  "0x07fe16697dc7b862ef56240480d474cb663f7b52e814a9ea8164a62adcda9b7e";
  "0x084999bd3ef74afb8f7017902b4223792abd9752d622240011d85ecd32c197eb";
  "0x0e2d2bfec7b5ecb08f1839a729cbcf46385c57373aaa4df0650a5eae838887ff";
  "0x0e73ebb075e9b75d37d6244333f0588a79edf4e32517e96749034e44f21124bc";
  "0x0e8d39dbb5dbe7da8e8c18ae99bc4886dd8cc3ecb7c2bcaeedba0576b186044e";
  "0x07379c96a4ad13b2b59d5860d0b9faf56e231bcb9c73ab1b04f11369a1b2786e";
  "0x004fee4b640bfa95351ae4e9459734077fc7e450c88a5092b51f2619d6328905";
  "0x023351ff2a8b93661e2ae91bfc651771878cf0f8e09caf788edb0b67e19bf77d";
  "0x0411dac532ef73fe0576270c72b58a47515b28820ed22cc083fdaa6c1ec605b4";
  "0x01abbb0f6ede053b0162ebccf3d5c00e7e0c8402f0207a0cb7fcfd6a9ac7442c";
  "0x02a0322178c179f76c92fef23d0c8244402cc734ff1cf9879a8e8b40fbcf7ebb";
  "0x0b31c3a61ff791806aa01155f87ee61bbe0070e99c450aaa292e771089c1760e";
  "0x05407074acf7f865ed866ee7b6c9ca6c89bc3b67d748c6d5d0bf74d3767bc69d";
  "0x096a8b4a95a07456c44ed5ac50abb8bf2dde69fcc4588fe10be34251627d101a";
  "0x015a98da21fde8d47159d5e3ef0d524498406f5e0255e267e59ee4d6f21bfba2";
  "0x0cbe3fb7a3471dff9998c2c9f9531559bd8c782fb839d12b6e161a81ef42141b";
  "0x087d286eab269e29cf73145f49c3979fd80301581ec6b162b1db9e2de389dc6a";
  "0x04688d77f423d5180dd6862d1b0aaee08dee71cedfe413b5e47005a8303310aa";
  "0x062efc8d9a7467cc5bcd03f56c1a079f421f36e9afb2e5fddd4bd55b224a20d5";
  "0x052afe02d2d261c65e6ccf63ec896f5bfd1add71e48f94f166ce86ed6ada9e2d";
  "0x0118bb6141510e13e0ec34e16c1a847e655e12c906c6cab7d8053a74a6a69139";
  "0x0ebad88d8ce59d48b2db048069ff14c4ee26371a7f2311cf2bc1d1d553fe9124";
  "0x08441bbf63c8ed135ab9f33aa999fa254f3a5de2f35e1b56f01c14607f1e2239";
  "0x0f045c1410617941d7d22fcf6bff08c97660103ab1dfd1a09a95e69e58ccc0b7";
  "0x04a33d2ba5d9ef389be65b76cea2325e33abc1146eaaa0bd3a75dbd9fbf13a6e";
  "0x00d6a9361819e21606b3d2505a55bc906c5cdfc173fc9dc40b7219ab4ae740fd";
  "0x0b4f6024740c7ecd65d6564e8a7650767d51d1ed710e95abc46ef361156e55a2";
  "0x0c71122a9f698dc812354922f7f0cbd2012a12dcc2e23e02f3e6f65f173b681c";
  "0x0dc837c62435c25e9cb04e93439f0d286657e57e1987c89c14def42daf242101";
  "0x0118b566221168d87f81dddc21bd076b5802a27839660e76fdd75e75290ed8aa";
  "0x0e71f2846c956714acec5bc0af563055cb16a5c036da96ce01623254c43554b2";
  "0x0d5720cceec083c149c1432e38442607e0cbad4747278db62c79fbccb4476108";
  "0x0bbd620d907aa0e9b1a8c836c03795c4dd3a0de925fe9637f05376c8b278d2e7";
  "0x073774258e870ace093310c639c9e9fb25f2abf64daf43b2d577db18c28b2a7f";
  "0x07cbad2f85205eba829469d8c039947ca1ecedb2b8659a8ff34a95b221c29578";
  "0x067a8cc31107c0d014ad14269bc2d6fffa3b17fb005a66bd85f1a4c3f31ebda4";
  "0x0a8ec6c303c6012902c6ce6f91ed4298811cc992e58cd45630a2f230ce2fdbf6";
  "0x0893f67c17df8cf35f77f6dd2abbc954fcd012098424754ac0bd301004e1835d";
  "0x0c8ce07b765fd21fb181b61f9cc4f48241806603aeb805e1a175458c5f779421";
  "0x0d6cfbc83e5ef062157a9b1649483372056b530dd554d7aabb4a5534ed3c7a06";
  "0x05341e0b88a367e45f375be5209ff0bb9ac8616a88d129591a01005517d7581b";
  "0x07709a42bee42a5b29b94e77bec63a93bc1f24fcb5a4a8e10f20f754e34e286a";
  "0x0c993341718749b188fee165905d0e10c478e7b2cee4825dc89c9c30c5ae3c95";
  "0x021913f09b7f2bc281cf2cb2d21302cbfa1920f572e3e705aea263e9f8022ce3";
  "0x0fa896977172d4ebf9ba0add17571bdfdabc894d27b4e3ddc19656ea14b67d48";
  "0x03b02003d7cd730756285e2069b6e8da46eb9d34e23d57284070599f217f8c1a";
  "0x0ad1ab92076b1180ee9c59a7125e235587e0bf6611007be16be651d094f9e965";
  "0x0c4ded1c8a40445fd01984025ce868e3ad4616c73b7232b281ca4cc6140bde54";
  "0x0387a72af7936f8efa3d82ae9513883b45a3c46c9b99b8b5486bb488d1e76497";
  "0x0f8863fefd51c28b20c562b0ab3e86db06671420b1fa9a58f8966efc504d9e2d";
  "0x00b38cddbdcff40890eda7d80ee892775b2176d2999615d30037a1581ffa728c";
  "0x0df7cb50be9e9e068c7c8b6859d6b30a8f3227d4baf6a00ed3351626d5de9019";
  "0x05bc71c672d80d3d44d25aee20a2a02efeaa05804e4feab5a8c59c548f208f45";
  "0x0f91e3fa45427869b086244364f4999376a5dc471dffd692cc1d498330a964bd";
  "0x0e206b60c3ddbb510013789e38bbcc309687802ec35834254b363a95c3777103";
  "0x0fd0426eca4a1f92edcfbc2483baa19077826155bccbf17c77680adc457dcce1";
  "0x098d8b53bb4f419b1afab3c72160d830d7a4bb1f4eec9adbea39c7c813a8ed33";
  "0x0f727ed3ad27811fe72b1b59ac3f99a4cccd9e2870f8e2931320095c384135c3";
  "0x0dd70df4624a53e3671e8621d5dfe421772f8b7f9580c02590712ebe6bb0bd83";
  "0x0985341e48770bd872b1141d99d7284e22d2e0db429ffb474d8b1097fd38f75b";
  "0x05ca2355ef4b09504f0f8c684afe486db9ec05beb3ec39751e05ac7891315b7c";
  "0x0a87e191c0d8e7d48caf2565d4bd5a39005a605abe9992c58c804dc60dd511e0";
  "0x0417c71e06a5d160f4e69a145a2311c9f1cc5d67bafd1a73b887d1f732c173fa";
  "0x0ea94972007baed7a0df38c20b95ecbcd209994114a6d23b84f4f0e788f1b5d9";
  "0x01d9b0a0607a60c7664a67e618e0df32ea7617b564382c6154ca727099928ae4";
  "0x062cf0234faa301cefad262361f5465f7f8c3ed80b451382863669a196266f4c";
  "0x00901cafafeb1bf508d92e8bb4a05999bb8aa81c9c9f8efe7f4b5bc3ce395d42";
  "0x00295d482a5497b0bdd2b1255bc4ce8e3a9a507c8ba9fd142fdae81f8e17fb83";
  "0x0aa3d96f44f6e3e7c082b440fe7a19cd2e82aa079fbdd4f283af261444bf266b";
  "0x0c311be2d061cd35aee8761b01ed4ce5032c6e2ab3bf26000c91b41d74fc49a7";
  "0x0bf25aa8d5ed44d81303369db87023a09aecfe508556f8bf192a73490941ef05";
  "0x00b15c3fecdd608a3f4c86d56752d212757faa453fd3c7050b42693690e58962";
  "0x047b8e56bb12aec6a114dba81b21c6c1040b266369b9c4a70106ba6d6ecbf450";
  "0x0ccd14476a97fd82b552bd5671eedbfc2362bbfb34fad7f3281f53e6309a9104";
  "0x0e8a8193f7effb2a5cdc9567514d73f9552b81d33bb5c72a64685990f7e385c0";
  "0x0ca6750ab74e9129d2a2abfc49c9a7d5df83ef85c08743a6bdc8f3c96f605e42";
  "0x040fb59f7de1c28d4975a9d2654b09989f8674c75d0d080e80e7dfff347eed8a";
  "0x0d9657563eb039ce785d6eda27af7200f2eac33d71e4cc02062c94d4a93411e4";
  "0x068ffb357e7cc7e7a2caa2495d766252d1c15ecaaf1aed36a42ec86290e2acb8";
  "0x063b92fc6e5609fabd6b87814177a424c79cc3538e4f6eaeb37a6776221d8f91";
  "0x01a78c2de0465f386d0b34cd11d432bf228478fe762574635a693ffcda2dc18c";
  "0x0a6caa380ba21d8830735fc25e6aab2412ffa0d7aac40a2d1df9c58da3f818e3";
  "0x0a4a67d4d93b4e29077be42f0ca79aa9be0d087eb1cccbaed37ba39da91baceb";
  "0x0c0d3f861abf393389d6246a931ba743ef8c7eba472ca9607f48cc9fea94d7e7";
  "0x0dabf6b35ba6727ca32b9d43e55fc8bed8ce766147be9d991cd73a070eee23c3";
  "0x0324d146b9f204c47d676c176d1cfb827f893e567d067133c1796e2c0864aba5";
  "0x0e0bbbb3a0d2be14682a9aafd899fb2d81decc46605ba0336caab4ef157d62c5";
  "0x03908e7ef5fc029d1e5f16c8d259c624647f2a196c289d685c6a131519356465";
  "0x01abea4ff646e6de1bf09142c10efd97f9238abb40dcd74fd91cc927052581b8";
  "0x0798b59849a00e5479afcd60c226727f39e69ce2ecd096afc13cef952dc587fa";
  "0x0bdb8c6ae9e98dc871cb093c592d22b3ae969fad3b207cc84157961c2f0623de";
  "0x057d205df397ec5f52babedd62aa866495658dbdb479be19f86c6ea5201f41a7";
  "0x04332f2a0c5419cee57677f1625414fb54e6598d3cefc98f21a674a4ed09dec4";
  "0x0f673d012a55eac18c437ed681be94632303e72902356804b03ad547e1a5070a";
  "0x07628fda187072fbff9220041ecd73274d5da1202f6d9986e68ce75f58b6b1af";
  "0x087244d4b05b3a5ab31623a58cb7b5447bc85106e29a2f9c3a2fb9d155e3a40a";
  "0x00bd3f5074643cc2563f2dc297db13ba5f52b4dcbd3ce80a867a1709cf164dfb";
  "0x0cd799c2618581b2214cedd1545e88b1eb75eae328c5d7342a3b342dc7fb9e2b";
  "0x01a85c6c5c45597d8ae1051d3bee2e621b0c35f8c5e491d7f74ae7ece9a9f6c0";
  "0x0129862ca8de2365e12ba4badefaf73559cd46c604f6d8a5772279ff3c8851c1";
  "0x0ff5b465684f388df0b6f7cb78a089e74e7567dac268b6a40ed928092b7e2640";
  "0x02abcdcb7cae2d58791663a2108613e4abb845f32cbac424ac563606b13e6a8f";
  "0x0de3545230d033c8ccc02f210c98898b78dadb7001d92e459cf690fc3c13748a";
  "0x0ce8435e9441d85fdf1d0bcc6485353330589b0f3139233eee66a5ef3b70693f";
  "0x0fde854d34d718f4eb8c64487d4bc2241d805e8db5919bb575f7fb8696254da6";
  "0x05fff9ae602e423233368b8f4d49f6039e015ab4788d09b5fa60ba5768927896";
  "0x027e13c47fdc109df54bcf2548f8fbc1f1525c1e81274bba3017f158692c8ac2";
  "0x00a226429cc6bbb26958ce952ccd80e724662b51b4cd9baf8ea7bb0479f95e73";
  "0x0cf3b4887ff510c044a4320877ea30879f89f1db61a15e387546ffbe86898364";
  "0x047e278ffb8813e420233f4e417ee2c2d2a58d2b55dcfb6357998eaf3eb169c3";
  "0x066a1d2e1b294be2b468f2c0daba6edc3d161141e4c090eb34819c042f53f5a0";
  "0x050bc8e99a92a6168ae7dc87751bbbfe745836bcf21284799873d8dcdb29b592";
  "0x0c239c537f3812b9444c956d25c9a7dac877b9e92eb9406b5673ce2f8996c5d7";
  "0x05629916dadd8c575bd1fbcaa19e459068375ac302bc2499bbc2b09ff883f026";
  "0x081ec3752fe8f0936c22b89fb47625571ea5db047d4e02fc7fce55fd8f36957c";
  "0x045f2f620be96c0660e607bf62fde4add3381017e916af5b93c1e45912e822e1";
  "0x04fc74524ece5318caa7cee944a4e343e051cfd912765c2aae625e7bce827aaf";
  "0x022181cce443e755fa2e738a0fbb992c48978a6db0539f5fbdd3d0ce3f4ae3d7";
  "0x0cdab37e9468db2e01185f41d24e19385b85f7f0eeba9293a8b7895be1193b5d";
  "0x026f26b3639ea9878d889c4cde810feea57e6548a9fdab60c3123601a370d546";
  "0x075825da2498f953ffee65812a057e7789f9d00cfaf6984d6427144a1305f9e2";
  "0x02ea01991dc5d1aa253e15bf0f2eb59ac621e60506f65d30141f4f7b48a41612";
  "0x01557c11b247613be642e632ebde2bf04e9d787b5230193e3c9d382c15c6fcaa";
  "0x0c4977ec0cb47029c0230ebce62a200dc1ffac52edbec1a900256d704acc6271";
  "0x05b3d7d4b5d52838beab15cd02a9db5be3a71229ba143c1efde9cd25cdda63b1";
  "0x065b0202bf082ec6fe24aab233e8d087b1f8804a5fe6c4931845a5c6a259f766";
  "0x09b1087b16abe082f5b05f2f618ee9834b41512eb613a98d0e93f8efcb5d5d67";
  "0x092ec7c90c9620548d78b7fd25433736347e6345d82cef9c9ed7d5c3415b72a3";
  "0x067eb10cd868ee248c42abab431a6cad8eebfad57e8637d8fe51853d79aa4c32";
  "0x0678bd87a54fc0b2dbc88e45286a1f2f5076873ba62b47acd337f7ea0687bcdd";
  "0x0ab83a8853f157d0e0311c6cc56c6575540cab7c814e9e7f7b004d573d189480";
  "0x0f278597dd39a44f838a9fc1a2381adb6f945eadaf82deaad2491a93a3952bad";
  "0x0aa8ca5b02b81572a848c6f3010a3196c3bfd0d736f6a5698a2bf70b7ef42f89";
  "0x019d28aeefe63c7b6b93c04282e9b39dc8a5e43837faeece6e62aac47278d37a";
  "0x01681b3ae80e91f8a37b53ed844eb3e5dd786bbd51cf6a725f412d84c1535537";
  "0x024ffce4995453ab073a34918369983c81bf3050e0ef39976ed07f4bd37a127e";
  "0x072c152b85ea7a7046a553bc44b4de7dcc68ca67222a525c5fbf8365a79aa123";
  "0x057dff83889875fe4231fb09ab16870e55f5abd19a2f9123dc7857621425add6";
  "0x01d349ab4cf42425069e7224a1d3e6122ab4c02f1c1ad4d5d5debea641f64b6c";
  "0x0448759404e9f46725d468e3b410a81749876bbad772b2420ed88328e51653d2";
  "0x06ec7e03dace03cfdd3ab4161a6d339c5aece509a2173ba7ad20c0c846d46e16";
  "0x0a9bb600d07a5967508b8890a793e36eb29bd5657892a28ba67d8941d260ae7b";
  "0x0c8bec50eb171d1c12552697a8d3cfd5f52ef7ccdbab2d10a7077f4341a450b2";
  "0x044df6081481020919f5a9bc74d0cd39953f87df55384fb8ddf867d5b43ac2d6";
  "0x0c72927783786aa3954f1370684979ba8af5186a830cb572c98478061e1a1004";
  "0x00b3c892fae00d2a2a24e390e99c1e8288479d82ee5368b2fe6858f228d00427";
  "0x03e82912631bb25a52ac6fb18ec4c3dd711b8edf18649fa0a864e06ab16d93cf";
  "0x0d278ae1b203314080ab1cbc00e1e50a13b430ea44428594f3befd7f8fc5bccf";
  "0x02189bda151f1db26699c2b8044f40c7742d3dbf32506ef78fdf507df959eaf6"
].

(** poseidon_constants.rs 3469-3569 *)
Definition ED25519_MDS_ENTRIES_W_9 : list (list string) := [
  ["0x038e38e38e38e38e38e38e38e38e38e392dc3786cee1b11330041605dbc4d9c3";
   "0x019999999999999999999999999999999bafe5c976b25c7bd59b704f6fb22ecb";
   "0x0e8ba2e8ba2e8ba2e8ba2e8ba2e8ba2e9e9c28f8f13e317d0a3f42d225f6c0a9";
   "0x0eaaaaaaaaaaaaaaaaaaaaaaaaaaaaaabdcc650c1562fa6f2610dad82a8c0244";
   "0x076276276276276276276276276276276c18248e23d4be8a50087c82524a130b";
   "0x01249249249249249249249249249249260fed46c27f66a19893995d4fc86a91";
   "0x0bbbbbbbbbbbbbbbbbbbbbbbbbbbbbbbcb09ea70111bfb8c1e73e246887001d0";
   "0x0b0000000000000000000000000000000e594bc9100a3bd35c8ca4221fe901b3";
   "0x01e1e1e1e1e1e1e1e1e1e1e1e1e1e1e1e45677bfd6eff45573c5ed8aa186552b"];
  ["0x019999999999999999999999999999999bafe5c976b25c7bd59b704f6fb22ecb";
   "0x0e8ba2e8ba2e8ba2e8ba2e8ba2e8ba2e9e9c28f8f13e317d0a3f42d225f6c0a9";
   "0x0eaaaaaaaaaaaaaaaaaaaaaaaaaaaaaabdcc650c1562fa6f2610dad82a8c0244";
   "0x076276276276276276276276276276276c18248e23d4be8a50087c82524a130b";
   "0x01249249249249249249249249249249260fed46c27f66a19893995d4fc86a91";
   "0x0bbbbbbbbbbbbbbbbbbbbbbbbbbbbbbbcb09ea70111bfb8c1e73e246887001d0";
   "0x0b0000000000000000000000000000000e594bc9100a3bd35c8ca4221fe901b3";
   "0x01e1e1e1e1e1e1e1e1e1e1e1e1e1e1e1e45677bfd6eff45573c5ed8aa186552b";
   "0x09c71c71c71c71c71c71c71c71c71c71d3dd98b2b8eca6f4c40b3c901c5d56d8"];
  ["0x0e8ba2e8ba2e8ba2e8ba2e8ba2e8ba2e9e9c28f8f13e317d0a3f42d225f6c0a9";
   "0x0eaaaaaaaaaaaaaaaaaaaaaaaaaaaaaabdcc650c1562fa6f2610dad82a8c0244";
   "0x076276276276276276276276276276276c18248e23d4be8a50087c82524a130b";
   "0x01249249249249249249249249249249260fed46c27f66a19893995d4fc86a91";
   "0x0bbbbbbbbbbbbbbbbbbbbbbbbbbbbbbbcb09ea70111bfb8c1e73e246887001d0";
   "0x0b0000000000000000000000000000000e594bc9100a3bd35c8ca4221fe901b3";
   "0x01e1e1e1e1e1e1e1e1e1e1e1e1e1e1e1e45677bfd6eff45573c5ed8aa186552b";
   "0x09c71c71c71c71c71c71c71c71c71c71d3dd98b2b8eca6f4c40b3c901c5d56d8";
   "0x09435e50d79435e50d79435e50d79435f122c68e5e5975bf765b7cbe6bb6be10"];
  ["0x0eaaaaaaaaaaaaaaaaaaaaaaaaaaaaaabdcc650c1562fa6f2610dad82a8c0244";
   "0x076276276276276276276276276276276c18248e23d4be8a50087c82524a130b";
   "0x01249249249249249249249249249249260fed46c27f66a19893995d4fc86a91";
   "0x0bbbbbbbbbbbbbbbbbbbbbbbbbbbbbbbcb09ea70111bfb8c1e73e246887001d0";
   "0x0b0000000000000000000000000000000e594bc9100a3bd35c8ca4221fe901b3";
   "0x01e1e1e1e1e1e1e1e1e1e1e1e1e1e1e1e45677bfd6eff45573c5ed8aa186552b";
   "0x09c71c71c71c71c71c71c71c71c71c71d3dd98b2b8eca6f4c40b3c901c5d56d8";
   "0x09435e50d79435e50d79435e50d79435f122c68e5e5975bf765b7cbe6bb6be10";
   "0x08ccccccccccccccccccccccccccccccd8476fd40cd4fca916d6e9b4e654015c"];
  ["0x076276276276276276276276276276276c18248e23d4be8a50087c82524a130b";
   "0x01249249249249249249249249249249260fed46c27f66a19893995d4fc86a91";
   "0x0bbbbbbbbbbbbbbbbbbbbbbbbbbbbbbbcb09ea70111bfb8c1e73e246887001d0";
   "0x0b0000000000000000000000000000000e594bc9100a3bd35c8ca4221fe901b3";
   "0x01e1e1e1e1e1e1e1e1e1e1e1e1e1e1e1e45677bfd6eff45573c5ed8aa186552b";
   "0x09c71c71c71c71c71c71c71c71c71c71d3dd98b2b8eca6f4c40b3c901c5d56d8";
   "0x09435e50d79435e50d79435e50d79435f122c68e5e5975bf765b7cbe6bb6be10";
   "0x08ccccccccccccccccccccccccccccccd8476fd40cd4fca916d6e9b4e654015c";
   "0x061861861861861861861861861861862054f17962a778b32dbddc9c542ce305"];
  ["0x01249249249249249249249249249249260fed46c27f66a19893995d4fc86a91";
   "0x0bbbbbbbbbbbbbbbbbbbbbbbbbbbbbbbcb09ea70111bfb8c1e73e246887001d0";
   "0x0b0000000000000000000000000000000e594bc9100a3bd35c8ca4221fe901b3";
   "0x01e1e1e1e1e1e1e1e1e1e1e1e1e1e1e1e45677bfd6eff45573c5ed8aa186552b";
   "0x09c71c71c71c71c71c71c71c71c71c71d3dd98b2b8eca6f4c40b3c901c5d56d8";
   "0x09435e50d79435e50d79435e50d79435f122c68e5e5975bf765b7cbe6bb6be10";
   "0x08ccccccccccccccccccccccccccccccd8476fd40cd4fca916d6e9b4e654015c";
   "0x061861861861861861861861861861862054f17962a778b32dbddc9c542ce305";
   "0x0f45d1745d1745d1745d1745d1745d1759bd916bca1ae729b128d2f641764a4b"];
  ["0x0bbbbbbbbbbbbbbbbbbbbbbbbbbbbbbbcb09ea70111bfb8c1e73e246887001d0";
   "0x0b0000000000000000000000000000000e594bc9100a3bd35c8ca4221fe901b3";
   "0x01e1e1e1e1e1e1e1e1e1e1e1e1e1e1e1e45677bfd6eff45573c5ed8aa186552b";
   "0x09c71c71c71c71c71c71c71c71c71c71d3dd98b2b8eca6f4c40b3c901c5d56d8";
   "0x09435e50d79435e50d79435e50d79435f122c68e5e5975bf765b7cbe6bb6be10";
   "0x08ccccccccccccccccccccccccccccccd8476fd40cd4fca916d6e9b4e654015c";
   "0x061861861861861861861861861861862054f17962a778b32dbddc9c542ce305";
   "0x0f45d1745d1745d1745d1745d1745d1759bd916bca1ae729b128d2f641764a4b";
   "0x0642c8590b21642c8590b21642c8590b298ee7571e60e453dfae26c7888cb71a"];
  ["0x0b0000000000000000000000000000000e594bc9100a3bd35c8ca4221fe901b3";
   "0x01e1e1e1e1e1e1e1e1e1e1e1e1e1e1e1e45677bfd6eff45573c5ed8aa186552b";
   "0x09c71c71c71c71c71c71c71c71c71c71d3dd98b2b8eca6f4c40b3c901c5d56d8";
   "0x09435e50d79435e50d79435e50d79435f122c68e5e5975bf765b7cbe6bb6be10";
   "0x08ccccccccccccccccccccccccccccccd8476fd40cd4fca916d6e9b4e654015c";
   "0x061861861861861861861861861861862054f17962a778b32dbddc9c542ce305";
   "0x0f45d1745d1745d1745d1745d1745d1759bd916bca1ae729b128d2f641764a4b";
   "0x0642c8590b21642c8590b21642c8590b298ee7571e60e453dfae26c7888cb71a";
   "0x075555555555555555555555555555555ee632860ab17d3793086d6c15460122"];
  ["0x01e1e1e1e1e1e1e1e1e1e1e1e1e1e1e1e45677bfd6eff45573c5ed8aa186552b";
   "0x09c71c71c71c71c71c71c71c71c71c71d3dd98b2b8eca6f4c40b3c901c5d56d8";
   "0x09435e50d79435e50d79435e50d79435f122c68e5e5975bf765b7cbe6bb6be10";
   "0x08ccccccccccccccccccccccccccccccd8476fd40cd4fca916d6e9b4e654015c";
   "0x061861861861861861861861861861862054f17962a778b32dbddc9c542ce305";
   "0x0f45d1745d1745d1745d1745d1745d1759bd916bca1ae729b128d2f641764a4b";
   "0x0642c8590b21642c8590b21642c8590b298ee7571e60e453dfae26c7888cb71a";
   "0x075555555555555555555555555555555ee632860ab17d3793086d6c15460122";
   "0x0a3d70a3d70a3d70a3d70a3d70a3d70a4acc25095e0f1cb223e2cec931412b79"]
].

(** poseidon_constants.rs 3571-4157 *)
Definition ED25519_ROUND_CONSTS_W_9 : list string := [
  "0x05010f7ccbb2213b6ae13a438a282d4b8ccbf13c07992e9213e272391c9d4522";
  "0x030f230785085af485805a62e3a4c13ed9f29f251e1005071acd05b3c42d5e99";
  "0x03709f980e67339c1dc93615ea3a3786c987938fb3f859801be892a10aa36185";
  "0x0d63fde58ddb76d47ab623a64aff5b94e7cb314a78ac580a53f975b25f0990ba";
  "0x00d6998a4544e566caafcd9993c3a8bc4f072ebc487890687a14d25b32d31b9c";
  "0x051e24d0a17cd6e4bdfda1c53b1452db6742dab6b64f8ac3deffa754abbcd134";
  "0x026c02183905d4456d419b2837cd9ef5a0730eb0d8693c62b14fe7dfcd5fb225";
  "0x080e701e72a668eeda99099155e32a2038291d44c52e0fc1b2e348273ce0da54";
  "0x09030a13e37ac325dabaa30d764b19c2a9e84a3f77b39c80d166a7bada9475e0";
  "0x0496b195873ffeced1cef6127e9188cc3b2d620588966c8d3dbb808745f12f8c";
  "0x08b1e7c5a6a6876d8db9cce7a79bfff5f38a5832e00d962917402e635400fe27";
  "0x00ddc1737ac108f89682107b7f354ae717ea4339211db8a06e731c7f18f7d9b6";
  "0x0143449b8039f9fa042711964ba1fc6af65b7812683fb33dd97894bd5d1fe98e";
  "0x01678de903aa7809326a239eb528739e8524f6fe89e789d019f229ce105ec9f2";
  "0x086d06499742dee4e54dedbc9dfdea2176457751be5314a555a15d909fef77ab";
  "0x01d08149935128a874eec9bee5839eddd1b616ba662edf747e0e500fddd06918";
  "0x051e30444b400cb1b05917a49c79dd2d4c4f46c754a6c2eeb0c5795ae3f6f525";
  "0x0cc42ae6454ab91c735414cf7dacd06b1f6224a6f6bd8005574afffa9c8ff1e7";
  "0x0e1cd731c9c942a7edc897f3e9a632891dc5ad639a2440c3d29a1713092701a5";
  "0x0df321d5e5d3c50556478897e6433194173fb4a2d870c9f5f7ec4127c85de743";
  "0x0c8a1d5430bf2f0d6ef2192bb4480d050e0919c5eda9b969c5a468ca59617938";
  "0x0094e2bb30afc9a5d33767922217ee2c5e38260e4de975eaaad402bff42b0bdd";
  "0x0920fb95576fd057b12cfcd649aee6ca8155678a042f328c9d3371fc4948a62e";
  "0x0a8389cb43c3fb76ea36b7b5e4d42da98b96658a40c691a6041a30e6de9ea143";
  "0x00eea8d00d2671893ecc5e4d807b6199dcf1afffd3667000eec27d79cb7fe14d";
  "0x049a77257282b6f987d2fd3cf4cc57da30bfa7e0741c60e9dd962bb31fa7b1e2";
  "0x0a7ad22d8c6a4bf153b139ebffc39c0e7c9679ad4c448c84bdd5751b707a6aa5";
  "0x055af7fbf14293169e1cf2b7df6a31562cad6dd746c205c043f9c5cbe8c33485";
  "0x02cae3b4ede518d52dcca003719d2150edbcc743467848c28c52d5c385f9813c";
  "0x0ee74a28144f71e5eed21aa586a8fdda71f7d4b4942f668b45b968a878523b96";
  "0x0994597faf2dd9937fead2ad24a37f0a3fe0b60df0c962e57aeccddd2ac7911e";
  "0x0cb139b872af6b3b510308f427b5fb752f2b5c0d22cfe93606b7eba35881e843";
  "0x0558cdc7622d04de0aea572aced9ae2865c3804baf1fdc6e974be806881bbf18";
  "0x067a4cdad4f7493686b2e0ec0c1ecdce64a9c5ad690324f34ab6b85a5d5b9eac";
  "0x014f30f3c0cf145ffa35ace30a34d5bd55a6440d28a2cd216890eb4a31a9a5ec";
  "0x0c4d29fc573ad70cc0d51a6d11e7117284fb8e9c8f4ce0c6a68b0fabb3c66638";
  "0x02a543f5763447ee01b1ce38fe6d79798f868072fd10eceeb3a66510cc26e234";
  "0x07595bfc6b1f80acbce3b5be8b4f43c503af9eb3d697a2225cee064851c8020f";
  "0x05a88c38e4df289bdfbc4df6024ac67c82c6f59c7259f22f795798d2f27c3666";
  "0x048360a2321888af09067c39ca03d5411424ed47410ddb5dd251552e86f63f86";
  "0x0ecf2c2b807f8e82942840880d9a57db3fdbd09eefafd860ebaca4589284ab76";
  "0x0a74b5e84fdeb42eb7e8799bdb4717be1d9388688483034ccb4115389a6fd782";
  "0x0a736b1752f64bd8b2cad0778a91a71e945fcd101679ac2376d38d5bd4e9a1e2";
  "0x02b893dae9403121bb260264849d408045a659ea25e4d56a1b49d65dae533b2e";
  "0x0a99239b287f5ab37810f81da15f5e0a0e14aaf81628ceb7bd52ef9cc88f39d0";
  "0x08c1f5719879fa8815354f15e32a601fb4205d4d77101faf1e4d32b2ddd76329";
  "0x0e958d23054873dc3cfa382c89276077c6d40a0d6cec682dadecc9232af11f5a";
  "0x029ab7fbe56490ecf21d39a7fccf08b678aa8f8f05e19d39f8080c9a7b52c3a6";
  "0x0d8ccc5fcc11b573f56b58905e58c124ef18d13541eed24b2985f9bf592f1afb";
  "0x0cabc54ff10adf72aeda5dfac643fad21c505026e94b1b7e8745c1801ef45f5f";
  "0x0cfd487c10291e81b87f12d7493630e65f26e456243eeb225e2c07ba2ed860b5";
  "0x01c7881ca45e306d5e2cec68ea4682dba6f9ae271c9052f020bb8e9ed96454a9";
  "0x0ac7b1b99393c0f38210bec6862cec6216bf74db6eeefeca4843cc5e8a760330";
  "0x0421bbff61dafb124498b0ebe0de2ecc7e4b29e6c5a2905d21d4f5eca1453623";
  "0x01c8fda220515cd4ef029eb9e87e4a52c3e67f04fce806fdb620d81e5bf483f0";
  "0x0dea62635ff2df6d0e6400afd6238cfd1a9944553fd63b2b298965bee46e43ed";
  "0x06f0235fbc2323d1ad000a684ff80aeff29bdfd1023b6948b4e5909be73ce468";
  "0x0a762f66a157fe922c7ebb5ae053706c2dcc35bcc42b349a6340fba4d1089059";
  "0x00b10ebfbdc75ff15b746a217869142c5aafe1f8354a6be1114e37431c711013";
  "0x04ada3263230f01586c6d61b4ae4c39caa1e92501a3b4bca8c6196e0814c1625";
  "0x05ffb13072997f176f8b04359ea0168f1238d9d8c1c2f961dafdcc5e9a11511d";
  "0x02a59c98f4361cabde8c3a4ed061a015d53dc117f6b8c5fa57ae11dbfa4ce163";
  "0x0fca8c9e8aaed4a165ca56c8343b126efca912f9fa322974688c5c63061d61ce";
  "0x00bcdce152620d46ac08e2ce21fc5f31bf4c1957ada49c41fcab531c2112aa37";
  "0x028f224336c33acd84e412b7da65dde45ba5ab11b6ce8e8f1d4f24f896fd074b";
  "0x09988fa1d6dabdc8b39c1d9e61ac31ba421952ddcf2a49bef6547af022d788b1";
  "0x0cbc1eefcc4f15944a415da702f8294763637c70834bb75ede26259467389d2c";
  "0x0edb6b66905d99ecf2c452695d7fdeec4972e5134b74980bced66a785e57f412";
  "0x037d313abb8f78c4bdb2982e26fc26f9928001c1bfafadd6acccd5b752a2215d";
  "0x0a778ab8ce1ad8222d6c31ba7be9dc70e5b4ac39a6273e1b1d1b436d401f9083";
  "0x0ed19b6d591aff70e12ec7401f1c1a2f9a78ce68bcbdc35da49f9b22c356fe07";
  "0x062c8a06140f7e9c90abc9284ad4503eeeb881dd1e757633d16755b28dd5bed0";
  "0x0412388d2a0b5b9fe41b47cb4754e3c534e90db46fdceb48ae7ff444bfd25c3f";
  "0x00195f5966560a9a456bfae6606f9a1e3c3bdf2ea6f092dbe6888c74d33d6a92";
  "0x0e30377610208565949d512c96b363881c80bb6bb1be203a423455ed02430c5d";
  "0x005d6d939fa390b06b38f2de21ef4af76f5e85d00bfa515e6f39fa6df0103eb5";
  "0x0a90cbfc42e2db4adea6f59ecced7c240eb0cb9d026335e8720a29378ce806ac";
  "0x06975c74fde7acd9e3a9137e291d137f0d3ba15aeb2d6491cc10bc06621467c1";
  "0x0a7e1a3b8dd58e08d166f293cf194ea75325fab3a61e9b00991dfb1ce052e1e7";
  "0x0b2db3085c8dfababa376888dce8aea7579c2530f4e9af941706cf0e1dae51af";
  "0x005794a5ece2351388594c6d98649db398e88abc45fee24a10706e03f7adf054";
  "0x058c6a3de18bc12952175c5d033f080665a285261c547f556841c7b3a3d0011f";
  "0x0503d7a19cb92c87179dc862a05954789134db80676d6d92a43aa01850adcab9";
  "0x0e9cd99a5c04b95ca3e073efa8d095139c89ed119cab05c700d5844727241ec5";
  "0x0b8833b790197fd1ca002b8e2c3c8b070f3711aba847be1ebb3869072de755cd";
  "0x01f2059d9374aff00f30d01b681a5f2b30b53e367db8b620ce846576771a08c5";
  "0x01843e8b1f351b0144e7217abbac51f21e55054e171c5222476b3e1ce286c3f4";
  "0x0c364f6ec06d48939414cee4d089a2d9f17a7d5201ae70e8d3ae23ec1ddbc57e";
  "0x073c314a8a775602d09f7ce86f693ff3a637090d2ce95ad3040786d125af36b1";
  "0x02504767deb2fe668190edb91b38ddaddc49709838a3717c4212dd0f52dde420";
  "0x0ade0d088cf43aed611eda9901edaa458794ff8f22ebdf91837ed2f6a62b662a";
  "0x05509208c2e73eaeed312936ce9dce6f32387636f0714e52db1e5cd56892bcaa";
  "0x0e40c5038ae750b5e4e5a8f43477df4a5863e1427e1c35a8fccb744576413e9c";
  "0x0a0de7b8843bd1345ec2777e898fb6054beeea1cd3354efd0237c2f9284304e8";
  "0x048e0dcb8fd19e3e4223217243810b9dd6966c67f014abc20d345c2631480fb4";
  "0x0254b31fc34056f4a585d4beeb98e654adb304ff24d475330c00395c29e1cb8b";
  "0x0c86681d9f74e80e0cf1e104eccc2840a47c5f899dbc65877f049f7478f0ae1b";
  "0x0816fd0354102c3da35b229e1c9608d1105feb27e4e6989879533043b5a0c22c";
  "0x018ddc30b7e684824474a919646180c0df3f1e19ccbcf67352dcaf2f6c3e4409";
  "0x0bec4f8d747f77919b7584530b7056718ee3078e16935fec7fad9cb101c2ac5a";
  "0x06722d3ffbf434d9c0752d4ed55935b58fc9fe9faca029e257b37dcd9e1c2505";
  "0x005216384f9fca005a7c2ccbe0118e98199f4570d55df52cdd82fde75f9c90e3";
  "0x05b34cd84b06763a826e575e7fb96ae6b0ef1f4d8b9942afbc305a0fc8d3d0ec";
  "0x05fcbe6d164f6b041974125fa76e0e75d1b6246061f4a471592e1316b6cd501c";
  "0x04d411306b34079ac4d507218f0cae5939e887e7f5737d2e2d14b28669881f78";
  "0x0d5481821b1ef4591545675c037e3bbe4cc03f0cdfd70d450983d96560075105";
  "0x030bb01b91fb58218de80e3e88403108fade992f880eb3a92f05283b6213580c";
  "0x0514a338194ff4938b0bff30400477d60127a546b6ec2362f399acfe6930c516";
  "0x028b5cadbea5fbdcef3862a3f825bc3942bab0ea70af943c95c96d8069c38835";
  "0x0f4b2f70e7f84321609852fe359471660fa9af31971ecb87c2e6415e6d02a314";
  "0x0b8eafde102ffeec1cc1bea49187f4fe4a4b02f06f47551f2037f3aa93befa36";
  "0x0a19f54962d0083ada23a37ad48b5d79cd7e2781c0f18b035687d730c9d4b2df";
  "0x0211c25d57d09bf933c5dcff2f22ba0a2abba454899ed4aa1e69edb08c2e5e80";
  "0x0a4ee7481d46155b02e0a5ec20ecb79ae7407470e2e064e7af16179fa3cf1201";
  "0x0a3933c237ea6411515c42b4918bc00b70528bf4245ed3fe337f1b00a678aeec";
  "0x06019950a821c0757b97623dd54cd72b7ce1c1d57d5738a81e3cd87b4097f6f4";
  "0x08e38e3a2c5e54bb69b818272103e7dfd81966f9c840a0375e45930a16926093";
  "0x0da12a895e6c685a1aff24499cf54e0a56e1561a798ec451a03cff9dc18b7b22";
  "0x09cdd10136c7bc9d2ae1f6bb1c3257ba9d2896dcfa39afdd0ca8cae403342914";
  "0x0f915d70a527638ead7360881cbd435a39e104a5faf410ee5a4b702cc0727da5";
  "0x07996889e2a54d364a8de7ff9d6e165a04fdc4acc56a046d3d157f8b9571aae7";
  "0x07eeec7606ba8515345e628d7a0259c18c82e6d7b6e4ea9d49df03e8bc90389b";
  "0x0d75f412355e4e31ff8de8d191517040f60fe38ed13d14008f0766bd76b32f17";
  "0x0e3ed29c978760382e73049a48c616f8f0ec8ca9e5280a3528c0271d823de5f8";
  "0x095995c34447fc61f4839fa1750864212b0522ae4872a352797f0acfa8cd8496";
  "0x0dd78d7c0cf1f2480f47f69e2359760f06566b304497905ae07524009a6e97b1";
  "0x01076210402d024240dbbcac2a689efa377ce1518361b435a6579944b062d0d4";
  "0x04b61d44e356a796c7f2a7e9fc303665a3bbdeffbd53cbb97963451046d9fbaf";
  "0x057bd9fd16528b597b5d65781d2685abb87f0dcde9446c4aab99b1f7baeac7d1";
  "0x070414b2e44fe61a84f349e8d5916cd55be869fd71f21e9771b062bab76c9ca8";
  "0x076a89c01606f2be81808d6be439c0ad1aa5a897a8ba9f5fee71f1dfa330680c";
  "0x0b63b8a2dde148cc165878b3be27b00efe8e725c2c62ae91434060c00c5d267c";
  "0x03a50d6b9b6249b8ed9e69e71c0f46236000faa271dcf2ecbcc2b3e1c1b7ff5f";
  "0x0b811217a1a59ad0662dd1ed10abb2b7e15f3c833238a006e1c197eb96151bd9";
  "0x0266663b37f3741f19e465949ea43ee68f8b1fca1cd9571e8599250ec9cbe290";
  "0x0f65af3a5020dec0cc5317f428c2541dbee16f350a486ae6226abc8de299444f";
  "0x0ac24ddea87893eafe76950c4aeddf24513ea25831d736625469c77d1923c9cb";
  "0x0c08960953b921b1875d01d0e88c308a4f724b0c76130c0272524af7fa18e01f";
  "0x0575e65a772d9604eb3871c800fa3d96e3b4779922a59e1398ac45fd4cbb72be";
  "0x0782361ff9b329873206c2755fc01575e66ecfa45d791f960be14dd95a11df36";
  "0x0dd0779b94baba774e02efe15883c5f532ded49ffb72070977aaa319cec9ceac";
  "0x05d5fdbbad4269b0b22b7c5eaff7c58f663230caec455b76735cbaad9e176d40";
  "0x0e3e239a73d1e763093d97470bc56351a8329a60c7489638f532129e19481b7f";
  "0x0c5e82f4d895e678d779c499f0a452bb0efbab102c367798f0566967c0fae3d4";
  "0x0f219e50fb24037154f1cbac9a0b15026f49a0e653f62ccf8d2c2f5696a3fc50";
  "0x06d5b277cf620a6e87bf0ca936a75f511e2ebb809611eb4e931ceaf0762f9d1c";
  "0x08d02ab66fb7309fc3c58a27f9a2161e8cd155b6bc6b2ca45f18f36dafdf64cf";
  "0x0b7c78bcb0b20f598428c637d73459a54f502f5666426d5736819b6916078ed1";
  "0x00bbd030b0bd9080b303e9d292cb13e2288664a262c6ab3eb89668ffb98e780e";
  "0x0ec14419f8a2636ee6c094cf66445bd936652d69eb9a5eef82b034880263384a";
  "0x099c5d03bef499eaa5b93e7b963300614f606b47d70fcfbbbc3ffdd08b8c1ae2";
  "0x0982309354156d475885d55d20bf9375a2423126c8337e5d896e05cfd61e72a3";
  "0x0d1453768ca1956d9be32de972bc5202b7420591c9633cd67b90936105398f7d";
  "0x05ff93cdd7cda36664182147647effa579dcd2a830e16d86d53de8b26fc817cb";
  "0x0447b54dd42357b5a480e47324eb7ddc6e01b71050334ff9b157622d072979c5";
  "0x048fd889496a2741d853ec42516122a4616fcd44b9eed47a8eb7f3b88f3670ef";
  "0x091f717c6e2dbc4ed588423447f1781aedab97a74a7efaaed3737e24f17a2deb";
  "0x0253af6d8305aa1296f51f923a0aefad928c5521e3b548885e4f869ec103910f";
  "0x0ce4ee9e1567527b0de136b06b5d6b16bb1504dd01c4829aeff54dd958afe284";
  "0x07e4664988d5f5c69abbeb10271514e5bfd4dbaf3964a77539b424fe6000b55f";
  "0x09a5a7e62536e6d60c7f2c0e366205b4e2ca58abfc2097c9a730a981b11bee37";
  "0x0108d4bced51978e674b9e00dd857738675d00847844cb62c06888e343328e58";
  "0x00526c9a331e505cec3174d54ee13f46f267f7d7a9a075f472400ffaa7303a41";
  "0x0433e159a6a41e751ef5a5e202cea22fa74f661bcbf1763daec704601a9eb180";
  "0x0115e689349f44cacdcef47fd8ecd6a9c11484fde91f6d7a4ec625472257e674";
  "0x08abc466145389e4f3866a753946c597820a6e82fd4a6d8e0ba95ebdedc339ec";
  "0x098dd495265ecbdd26ef73020c89d5d0463e25c6bd9b4137e6379541d6353bdf";
  "0x0df604924ab6a06a758b674d7eca07864d8b6b893ea7ee0679cd0cd7d3e26fb5";
  "0x07499d08a00da17c017c6517b62909d2c87ab5186a5c22d86fe6ed19016b9ea7";
  "0x0b1311eca530e3d26b27e2aa31f30342560494f1874478a85eb52d018874339e";
  "0x0303ba25591eebf9019a4cc1ec5422e350f0934dad20d154e70af330660b33ee";
  "0x0c64b3adeed70244ca0dd475cdd5b5ef7ec868d8b0cd2eb5dbf20180aeef6393";
  "0x0d0d71eec77f0e6dac88f9b42855f0290bc709b12f7e9c75f838564623c8a981";
  "0x0d095565d38095ee0c2952705b1af42b927ab84d5bd7e0c79cada5b6a49f274c";
  "0x04fcbb7db40bb13f1cf401e89aa01ccb0a33848b8a2cd29f833a1e46b60e97fa";
  "0x0052e63024a62a9b6203358086edd8b758aff1b23f6aa302bc6ae018209b9275";
  "0x0b2106aa171e21980a21ea8ffe21f4eb907ea368b8eaca2b105a2087a7f5c206";
  "0x0663f4816e90415dbb1cd70062f0e429dd7ea5bb0952db8c18788ef5ff94bc5c";
  "0x0fa292a183bc4f9223f6e6b2b17e8a66a52edcaca60b4bb4c8deaaa7c1658ace";
  "0x067bd8bdc8590df1eb6274740ba3fc74638bbadc4758e2eb86d522a6e4cd8122";
  "0x08dfe1505468bfdbb909f03c5d53ccb858d582567d17bd201ba7b700b6ea8bca";
  "0x070de31624d276db464bb1b345974a809e521dd8b275ae86995f699c3dd06ee9";
  "0x0d6e1c8bc7b1924e48a52ca61b9952da6dec6d6961ec3eec4e4207efa78e719e";
  "0x0000d46ff6d5349b9b52c13c63393d930363ad1ecf621446f9fb08848501de60";
  "0x0ce173eaa48f9bcc7b85731d16ae37c39efa57755686e4cf1b8869b52711873b";
  "0x0c69e23755321c06a607655aac6ed6f974c4a0d77c23092c7c7be07ee4407f2a";
  "0x078abfe6218aa30aa383afe31397455eda957b3ba1f85f313fdfa61ea8addaa1";
  "0x0e805087bbf220b3f8cd79cc9129bf3a7337bf5f58b02e42b9b5f11a7a4b0bd4";
  "0x0ac06847be007653a58f794d6e61deb5cdf556a9eb393e4b224693f28cc4d4ec";
  "0x0767fdf718a6b90dd6cf75ccabc73b86eb4a6549295c51f21b6cdfee706212b6";
  "0x05f59e30b42a978340eb65137085926df8757f91880f9cc3d0aa7f7aeafa3521";
  "0x0fc785bf2d576a9352c69f8238177bd61c8a4799768018d0decb88a4665e9322";
  "0x0570d292390003abe3e2ff8fd51b2e22bc2442d4a47f322bbdce0ee1ba2ef684";
  "0x090368ff1ca62f73f73450f78ffce55ae73ec692cb0476bdbc3a5733607de623";
  "0x05533f290bdcef84299998fdd8c951181db79d724cde179dda10db9d9113e355";
  "0x0531c00dde65bb8a57a083c0cb3806d1fd8226b29b314c1e717c6755c57f0b99";
  "0x06adab494a58a7ce9ced5b79425777e77a01db933208e135b2edea1842f2fafa";
  "0x07a6ca69762cd05f7b7fbdeeedac68e6b753e100cdbc88f5fe90e6039ace2e34";
  "0x031a4fd9e9a4c119c124b180eabe575d6534d5acf87c5b28ad0a908078a64284";
  "0x0c3998a568a3a18b58f002a85de5184af9224eebe73e11ad1c6ca14e05d73373";
  "0x00a90e967467b1bebbea2d57423d287a7d19ec43c5be0d42b7fca2c94074d9c3";
  "0x0ee0a89ec16b00c8fbadece11188a436647f3e4f899fe3f2c3e593349c58fad8";
  "0x00b74c0823249a47fb5c1ca19500542a704ad223deb53c910d59316107e46fb1";
  "0x04bef21e731c51c0aae3083d9d477206b34f644b3db8f15c453670c2ac598ea8";
  "0x0f3078fbb3aa0e80047f7117036d6a35f834e80dc4f1c1f886abfce1f6ee8f9a";
  "0x0b12ed348d30cebc1ae89cd251300c9717227b6de23e8be9d9d0f44a2d1d1a53";
  "0x03a182146f25608070d89eda204c8f1c8dc4797a3b8e9b853936b455f0698b97";
  "0x0d08d474b722761a7b5831060ce088fb71ffe185dd6fea7c3443d54b6c5ff4b9";
  "0x013b2173a17f7d0c27dcf2cece2a5f9d9cefbe205d14740d1e36624676393f2c";
  "0x08df682373d74bbf39de77194df83f111fbb523a7a2855d684e750e94919a16f";
  "0x0f85c6af2b29e885faf9d20ff9cec9604b7b0022b39afe4d29507637deb87b9c";
  "0x0c1e21b1448f90b010f579c08439bccb9491f0db2ca28659fb6922e4f6ebb1ac";
  "0x006b7185f64bc7b99124dec92a108aabb471345c959bbb7f396b774bce608860";
  "0x0e0105f03636086d1e1a6bca0efdb17dbc875a46dbfe94bfc8d36e6ab41d8a84";
  "0x032f4fd96a3b705a6e37ae8419e0df74e46dbe3c616c2422191a88e98cdba0bb";
  "0x0339cb4d8af060ef6633f80b7d99539ee2aaa0dac3c65876a43b5eafa80684de";
  "0x002ef917c525f68f87a2ce20ac0edbc74eff686009bdf4794a81068f1b34fe52";
  "0x0b896ce4a89c66bda91019c0156659385c04ad567775b9efa99f3e89a32dbf38";
  "0x0dd7c5ae0753af5597a1be6c5e9334c612b633397ee0dba4f8e94bfda57159b6";
  "0x09afcccc9f3a52840ac634c59e3e48e2e9176b2abb681fb786b9e6e339ff7c71";
  "0x0481b66798fd5e01a3f0b84854f0d8646e4d7a999dd9c2c3caede0d45c7aa159";
  "0x0c700b120d291c20e3d3d7c803a387ec0c039f130b7e72ba74933a0d715140e1";
  "0x0d8ff25aab3584b43043d351d5f0eb0939c00705b60f41778fd799e90c5f4845";
  "0x0da0d6538d2753f5230b4ec8af3c46fe6a721b73f3fe45a2bce1ccf407bdcc63";
  "0x096a6833532bb7fe6bf2baf7ce834562724f8c547ccaa9e38032c12619008245";
  "0x00314663c4e68285f9eb2ebe066feb051e161ae09b31cc3f81cb932243795e0e";
  "0x0d931ad5990a181a658a71384396302cd8bde0b2ce1c7d71cb4ca7314fab6dd6";
  "0x0e70977883b43513e6442b9e8f99e3c6861b746b73d6d265526c3d55985829d0";
  "0x0e307c0ba2a5de1ae86fe36eee8fddaf10083b1de11c0eefafcc55133c21645f";
  "0x0ba25ad1f2dc862875e8b3d3303f56d4bce391d2a871746dd6df27d39b589617";
  "0x08cc4cac7d1a57c7ab70a284c1b8d11725c1e876748786e1f2ed0d266e042ddd";
  "0x0210e3535591c87845fe403bfba32316b32bba9d5982f11aa2d42d2fb62d7954";
  "0x097fcf85ae6d8c68a35370a856c807bdef0f9ad9ad8a591dfd2ab3bca66004f2";
  "0x0e7f7b45946465a9ee98872533a792081a5e41fced2a2eedc59dabe3b6274de4";
  "0x0d4bb3ee76c8fb8c8472e7aa6a985f57dcfafafa3965c0e72a66e4309358e94a";
  "0x0ec5c787f3ea62f372974eaac3c455c93dd38326b01455db5bfd9cf395235e4f";
  "0x0fbd0a3af8b32b0db89d58d6edd93a5d7ea4aa6c89202edef662fe24ee8d8b4e";
  "0x081f056d9bd7ce2ea4a0c91631db14b343ef7b0e2a583ddd8d234f0e62311ed6";
  "0x0f68fd7ce066b2156bb78f426e1f890f73053a4b29b26a4df929fd8f5aea51a0";
  "0x0a93101af498e0dd08d10b6c5a8ab7cb94190329962bec6f0ba9403d07318aaf";
  "0x013473f3a6282af2935703bb4c1ac02c08b7f1b199abb30bc64fa17f5555dbad";
  "0x0310ba340e017ae0472529b52452c37d99d03462f5eba491900ee1c6e7bb55b2";
  "0x02aa49e58d6ad6f619d3dcc1dace060e7de028c9fbd3048c148d96e5e23e1793";
  "0x0b3160bf66c8c79499353d53f6f2edbb0d4f4d80f5f746ddb5e9e7a001b71139";
  "0x05bca8479d499fbb5575a78e45ac817d612a284e9e9289d925b10c5aa439d8eb";
  "0x04f259f57138b35d230b6127d98247abfc99db896a9d606a7e2c48ec6511d7f6";
  "0x00202ece07ff5e0ef4523a97ec2ec51c244ec2dfdce842c0f28a950d7fefc32e";
  "0x0abbefb766898076dec1fa92c9cd470cca611806013cbbfc1a5afb6f637b886a";
  "0x06615887e7d8f8a1a2cb8717102b376c79fb0d9a27cce7855b988d59e98f6898";
  "0x02a3157e2806c9dff9e80de78a98b40144bbc63040aad444fb44371218bc4f92";
  "0x0b85343d87d677ead8f6e9dd32663e4d6d535847b37e5871bb63fbe9d47e1cc8";
  "0x08d8837a83dc0d9bbcd9485b8d0d9bad86c6c88aa798f5774d97aa44637ae090";
  "0x06b77142079264a8506810412e058f2985d9c168073509be242a8ea29ba15aad";
  "0x0afa98eaa0e300fd624bd1e66c3c8cb0192d33308440c974ab746fc915c30b28";
  "0x0467e18b9cc7eaa6e4ce05f2c145b2aebd6e49f0f7288f8aa2164402fa4191b1";
  "0x040f5ba99a874c19cb44cbd80bc2946adc36a7da5bf67594fabf3fe90817ff6a";
  "0x046ed44ccfea1ecfa329c5226bb8f1256d612a1e93041e9e067b7fa8bddb3494";
  "0x0c4fc57a4076fbb259bb6aa7698b95ca416972c44eb50a049319ded359d6c4f4";
  "0x0ea6bf2512070b8392c8d1d00ff906148a9a3684a1d02c3e57f693a363c3ca09";
  "0x0f9c5e16237fbf6564a4ae9eda18671b5156fca206e5130a5c394e4cdaf6a51b";
  "0x003a4058dd991ba648c95b08c205dbf2e15ed283bdbe99581ae7f3c462dbfc6b";
  "0x05517fbd47a5bc202bf5755fe9b14b52ba25fa1f7e623cc299cdd1770092fa27";
  "0x01a47fdd64f93c8e747d5c06a1abdb9ac5061702a4b0c637263a2c9c8c7af03e";
  "0x0a9a17115479af6b604d6b55be1b053e9cbde6638cc69308b524cdb03618b86a";
  "0x0054249f1edbd0f640963cc136199a9ad86f00e14c6df5333192191640d317d6";
  "0x02e72ef9759456ab7ad793da4acee980bdb6ad1cefa1997ed687a3cb3598317c";
  "0x0c0004b1319a8b828ae8b5f4fca6245ded5fcf16747ea1073e326cffcf5a2231";
  "0x023f029edf2b6be5eb7a28721dbd453d1ef3a1f5a3cff2cef9a38fd94e912833";
  "0x0511434c6383f4278ac3e94f0b25feba7ec3b0a457f62bec92c5e222f6aa13a2";
  "0x0450a8209537b4fb006cdceb80ecd19557a71d0f222eb2f4538dd702d7af7a77";
  "0x0f12ce9e86c66f25f6532f8c309f8fee5a5e243108a23b638995c6005090cc86";
  "0x0febb949d82f1afb6912c525c158aa389ea6e68220ec30f634f1e0f9fcdaf36d";
  "0x04aab96b9706242bf6fd94878c06f25da31021cefe8c62ae5d065b37344e21ad";
  "0x01e89cd39895e83c7fbc7055a99924f825925ab864130060424d8e9c70a0d106";
  "0x02fca4bebecb0e42d92077045644757ac4e2aa1372d769e78ca0152f060f6275";
  "0x0fbcea4e4b4c4639bbf644bf0ceba7a004f9812d5bf2c0b6044e21cefbb5a22d";
  "0x017a611337b742c4b9d4a8816d81f37a0167aa2a0d89c1b213746e82ccc2f1ae";
  "0x0451e9bd73ebfe69ee3aff09fbc804063af3f159fd145ec3bbdaae1bc77e6346";
  "0x0b735ad820907dcb48dfcdcfc446b891e2714e036ae3b661dbfdcd604b787127";
  "0x09cb9018e008a3950b6ec5c4c456f6bd62b4a7465a22456f576fa91f6f5ba525";
  "0x08c4709a2de4394437d8754df564e30cf57928bae37e28bf9f3ad2184f9db02b";
  "0x016203eac5e55511f7a7aa82adb7477af35843571c77fd8a80f55d6d2d3002e6";
  "0x0d48ec51270e4ce6c93099ec97302ae20901123a1cc71469bfb7f0e81e7407fe";
  "0x0a7d05e703fc9edec3757fc15803febecd10fb6bda80ba6e5ca59a578ac80549";
  "0x0e21057104f648a9cb90ec1fe2e0a71d1914385b4c1e39f6d96b7bc6850931d5";
  "0x00ef857f4471f691cd7364ca1fffaddfdeff56ce6da5a897afacea1ae34b2e51";
  "0x09e6f688c77d44070aac1ea6e625880872b9c16b4779eb5528bd5f3f363b9fb8";
  "0x01bc6db9a6e5cdd30fdbcee51e87330e6d808df10859caae165a6c64821fafc5";
  "0x0fd6268b94d686be2d2b3c4a6f32040cf68231ce3dc806b193c0e0d49ac089d6";
  "0x0f084cab35fcd5b5624d0bc49f86de7b7f974bd2467115017f9a76b56ae02371";
  "0x0793f77d8ce2fb94149a4b7758b4f3a908fc2b5876a4e73b2e0dffe306033e5a";
  "0x017efa4c888159a42d62bc7f564dc5bfe672eedb8db1a6dd6271875c0fb984d6";
  "0x01138a1af100014b0d062c702eef94384320a16d16fd09bc48ed404c36305be0";
  "0x02ce3e59b07ca34ea6b85f70783556a9a8d3f721f4b1c7a90b0e4253e3fe42ba";
  "0x0e75ac0bb6b981cf183a84be44bd157a6def65708e61864fba68fc740906e3af";
  "0x023c98d6845c5afeb4edac4274cd128c4b682031dfa8f68a7296063660bde53a";
  "0x0288cb3a0a3d489115abb492e42afce0ef89a101ffe3460dc956b27b36ede99a";
  "0x0ea6c76b0bfd018bd71cfdbcb561e5c18c37c8a27331877de6c3e10cf700ee77";
  "0x0b9d08a56cf8a403795781f355b0a429fd1b53bb7283f576b5b93ad6ff3f7a87";
  "0x0c08109fb07db57ef93b91c413aa85d2de9b07af924b6bd88bf14cdada8b461e";
  "0x04aa50d98d3799d9bee4f6617c76acb7633418bc05348bb8ffa94fb3d2d5f82a";
  "0x087296c375f6a9008bd46149414e01d61fe1de9a1caa765386f9edce5e3feadb";
  "0x0924ce6efad98e32b04bfffdf7394bd224b35904a2ee283c1dbde91c92749005";
  "0x0b87371675752f18bd4655997927a9ba54196b33177c1a9320478573d55550fc";
  "0x001e7b96203751648b40c9da1ebc51244010aa0fc0bdebad4294661fd638b59f";
  "0x02322591b518942abcf25fa255db09612a4c9ca6864ef6c2b2d385f1e7dfc62f";
  "0x0de2c5dd8521072ce4c7f71191190984440c109ae91a181043a4b9d3e61b8c4a";
  "0x0e2400a2464b748ebf2d86eddf406fde20aa69fc7e46985577f0becbc2e50b48";
  "0x07514eb8262f516ba21cc191841fd7af9dbc19d3d42ac2c8b762abd1678d926f";
  "0x0b37d0bfe33590d0e8b0c43903dc20ab19d1ca0fed974de75e66b5f5a67708f5";
  "0x0d91f2f144455b0d0ed0c8c15162d138579c2ca57956384724aee9e27f8ad312";
  "0x00591491dade90dfcbb631f32f7c8fddfe15b1f57e6c753414887699ed266636";
  "0x03f0d16234064a95dcea466a017c667fa6687a9e4942bca07a1f85e1c1103209";
  "0x098db71e4a25dede0f3db109ab7a5d7183de0e507c604e8f25d6a201a5f1d9f4";
  "0x06a6a253521587d011a82c5ba13b2de8a11b5c3e8323c2e95b29b840c278005d";
  "0x0e8b599995783285a81031cd424d3f8cd16479d6a5bf3045b6e57e303de97c17";
  "0x04c36ed046290c9c43ec6b7eae8ec43c571bef466b94fb0881dfb3a578bbfbc7";
  "0x09c8f937f63b90182efc52a066ed733b3662cc820a334a4aa4f7d7265c1eb769";
  "0x0b7feb66f49876486f6c27549fc0a0d5f8106b6b3f4dbb91704f60bd8dca05d4";
  "0x0834e6cca992d0051f36b22979f0fbae31f572de32d0d503b37e78857b42c112";
  "0x0e38c7c11e09e22641bdb990936d0d578409ff35484493e12fbfdb76da92163a";
  "0x0cece2b44dd36748d6592418663a7f38b0c76e8a8bc161f6d892f2b4822eabab";
  "0x07b9946c7115580d2893f0a18e5ed2e65ca95760bf57cbdefc1d0f457ace009a";
  "0x0c4303f6fab60129b192fe8133bdca771075c815e1764ccba0798aae07e9fc6f";
  "0x08c38f223c990e6f22ad57e6d65c393d4c57ba266c85c8724435b9f4bf75f539";
  "0x08eb2261a05ab0b98e7aac308f5aefe7ae8d75f71350adca2a007682b1af15ba";
  "0x06ab15fe953d84a0e42735c83b66be7790472e2710f8792cee09a753b7eaef8c";
  "0x0ffe11ee7b26158dcf4767dc3d2c1e0b35631245da45765e20e0c9705d0045c0";
  "0x0a81a04c100945e584040816357ca423d009da7c33eec6980f3491ea11e9537c";
  "0x0ce693e2c07a19668a3df33b3d82f09fa713b48905f5f7b81b897b1f8ca1f254";
  "0x04576abf65f04221166585153f131f8b7a17e0e9f2ec2afa48ec1d7c675d26e4";
  "0x05f9acafdc15416839353157756151240da89abb4b7cf9f8e6334e34c174eec2";
  "0x0d500f70486ac3012716be5c5c111c3f46830f149216fe909901646ca5311388";
  "0x01e23296a26d3582cb2d9ea834a9242b9f65da4a040091636ac8af9452bbc513";
  "0x0a480f4fa874c09ddd2afd628f0263f9fbe7778ccc60cd272ea313a06c853d5f";
  "0x089d143808da4a5e0c763d60516a8dbadd8742d0c84a9e0bcff676a76d59d67d";
  "0x0a55190fe0da275c69555bea90a45da2f6038f8c4e6d27e164a921765b13e2df";
  "0x0ee307f989c10e7274af42f783cfbe0b3b5cede674992c6c2246015c57e6e813";
  "0x058badb591b1b16668da17f64eb0f9c4b441237c574ad5b49dfbde5d6e39a4e2";
  "0x0a437e2adb60271ae2111ea0f2fe0d797c0708e77da78cc869e7353710b18866";
  "0x05efa36050edc5fb4b793f2ed50326e0c8f0da22354856876d0fa844cdb9b8b1";
  "0x040a3f31c074fc28806443c7da385b9c2f082099369dda16582f1531e2a9b1c8";
  "0x05f0ee53b5e330ae53a8ba82fdaa4b245e436709bcf85ac5d3289c63ac511846";
  "0x0a8b025e8c867a3dc150079bd208bb25865ccce7105a5e93cbcbdbfe6e738c02";
  "0x06a383220c4ac53344af9ddeb4d7adb170886741d76c9838aa41c649c52f5ed9";
  "0x01008d503f25fc6e831929c503ffebe9a7f74444e9c54f86d66b7d5eeb285f07";
  "0x03868319d959ac5ab446f1daa57aa201ce03b9dfcd3f4030fb50d4bd1bd7cd63";
  "0x0e0d1623790bfa15e0390b6905650e67d1fa56c09959f44fa5ae0f32cf1798e1";
  "0x0279b3e3d6a3cdadd1e6dd01dff1c505550f98a1224b4e6d09e1992730f89498";
  "0x0a25ffa1ca315756dcc46038544833e6ebe29e866162fa92c06bcc11b6f4c86c";
  "0x01dee90b4eaecc9646c2e12d6370dba8143beee4f844bc500f0decc4793c96ea";
  "0x0b182dcaa71d52c7b132290d9928ac0cd82d92dd0298771fa37c0792a275d0be";
  "0x0f3790540dade529176a703d1f601cd281a4ac14d73a5fabb6f903e87aa4c0eb";
  "0x0e95041dab151923c682abac70612ca91deaaf1e61fc3226d36c9eebfbf357b4";
  "0x0dc83fcb0eaca049efdf56130645cf18cf464fab2e4493d9630d05a7a1f14738";
  "0x0a1c5651f85416a36a745ceaa497a85ac57b4533d8f69434229a43d353b66893";
  "0x0454472f040b4c6019c09a6e623a42f9807c438c2c6348c2dd385a40b120ff34";
  "0x0f71b6e9445a2f4be927710bba9c725dcb683c0e61f0e7ddb1019b1063429681";
  "0x0f688c8ae8006c80fee98710486dd1f07a8b0daf07730aea13ef5663c2dd5af6";
  "0x0a3cc81871f8c45424963203afc35a2991506f4628cf837df4a1c979f440bfc4";
  "0x0bdcaa02bdffcbb6feb5f113a448861f128b711fe10ed3b9f922e06c2e24a808";
  "0x05a924aa0fb8fb1ab5b1a2beea52ea1e38b6b58f83f44a7bea54a660a4d3b725";
  "0x040f41dbe3c569ea31063f24bd3b33a2cab9c16e492bdc97d5b8ac3d6d5dee63";
  "0x0d9537ae64e5fbf3f88b4500279f5a7be9cd40a9a656b8221e47afbdbe0aee18";
  "0x0cf4f71d9ed2bc8989cc9b7fe507f7a44c5261c100e231d607b8eb650364aac4";
  "0x04438535796bb6859182957d6808579b98a6100715181e5ffac6c3b53e8879c2";
  "0x063a9e8ded32743640199ca92b3b98e24fe7a00977be5ba593eec8d4d7c724f9";
  "0x0c1e8c4ea2d5960f36ade9587915ba5b101fcd7204325b9984e4e28315d955ec";
  "0x0b8be14a29eb9b8aa72a01cf9023d07f260992de797bce0369ea07a4b87ab39a";
  "0x0c942a456e9ecc8de82274ee254587746343f4414e68b6db43825d00d3920ec1";
  "0x043d3e9c8c8a1cd229c100e528fee7d6421497f42290387f9f5fb1a8dbc27144";
  "0x01bc69b964fbc68e2b494dddbdc26f505358f593122badeb6897e4a3b59d0944";
  "0x0f16242fd5dd11ade3656930e5a795c03f1070cec248bb39a217a744a98d4582";
  "0x09b232add8fdacfa4207f99b63f6a322132d3dede383c5320e7814f8342077c5";
  "0x088b84cc84fca53da2c7e62e283e7e71a588f32faea405bafe8d5e2827fbc4ff";
  "0x0554fdec885716d03e5633c3ddb2050b9966fc3653563a957a34e68734136624";
  "0x0951b27a6316169c025f0a06bb9979605e3baf20c1512871cde4016b108e1dbb";
  "0x034e0a84b5e639ab2b8e7ea2b67fc89db45bf4d43cb49da14c7a7daf5bcdfd09";
  "0x038efbeb8c66a1f5f4f8e4dd51bb1005cce86049fa81ff059bcda1f6a3641a24";
  "0x09d4f48a5c5866960360ac6a5c85c1b53ca522a42f80bd1c90198ccee22699d1";
  "0x0aa32053b9075b9fcc5211c592c65865b8f78d83ee959eca0015370484c4c13a";
  "0x0bbe26a0b48de00b3a27c29937759c47c2e558fb2c285c058ad17b2adf3f36d8";
  "0x0ee26c9f46880966365965e94a6475f64f4042a21f071145b873cac1d0d5f065";
  "0x01864754dac64f930af5a59c327e846a0037fd2341c4d07567c402d7f90c3a94";
  "0x0f1066ff3998365b50ff585bbed6cd72b2d9f3d3f850fb0c16ba0c35aba71ae9";
  "0x070323727ce022a5a4e7298a4957367d0782b271ea49047e3891247ea4e7ab93";
  "0x07a02fd36e442661b2ec3ada8d6553389ad44e1c45aafdb818b6c282d7a90c38";
  "0x0a588574cb3e07a51be38f0e6fb03939be52a91eb263846f2fe950fc18d53722";
  "0x00750533d66a96af9e2425a1bd308f617308a2ffe31c561dcf41d83d97074337";
  "0x06d47c63c6f372a586780d82e379cffb7af09713fdaca142c1fe8fb7ae3a4e09";
  "0x009610c1e04552d9d9b55e60249aa8d93792b36728b9e4e3657061a7d7b17bc6";
  "0x03b64bdfdc7808ad9c96f62aa6ca33bbb38ee640993858686570a1c23f24282c";
  "0x0ce1c75955cddc2bd2c9059172704aecc9e768149afff3debd08b37f5b1f0ace";
  "0x00d48ecab7ab5d90d1daf96593d772b57abfde1e9d292171bcb45be084c4bf98";
  "0x04167fc56a5c69fb33034503966eea8e31fba379b7f72ec6956b8502067a4c17";
  "0x016e0091497c03ffdb9433dd091f12ee3a54cd85abf79d2ae5d4274928608165";
  "0x0ac24bcbb1c5cf4ffddf675e473ecba5d18c71ec237c987f61c3e949ba0d9453";
  "0x0a33824e73ce694ced56b7014ce8895f4d37dbaf37b1dbc3e140b3b122ea9e2f";
  "0x09b0ddbdb2d0556af44ecbbcb4bfb0b0522237d672d79f14513bf7d64223a67b";
  "0x009b7812a056eaf9aac9f9b603e91b2f5c267971ec8c119452d1f8f7ab1bcbe6";
  "0x0636c628ee69fe505d6b2241c07da68c30abdb415bed93a4aa9e5a0867d9b527";
  "0x06811c95ff60f295942231ef8f36fd40699f3765087f529eb66de6af23c367cd";
  "0x08f0ab7de9abf232fbb00c5ae6c4ef23ec49080351675e52e0a6566fb8b1b1e0";
  "0x0fab91a09d6dad148ff099d2f4ef26968dd9453d6510127daca33db7c2e4900c";
  "0x050a9ef4005c754acf25001a6c33dbdd2083f560f42304775afa52bb38af3cde";
  "0x0b47cadb0b6123c4f8e382733eca08bc9af10913ad4efded19c82605eb441eeb";
  "0x0ffbc800d140646dceedf68b6427796bab5f3124df7a5d559a77e6be3b158454";
  "0x0da381eea88c81943d65a3f9715a4eecda67432aeed8814b6b7bfb9f7940d751";
  "0x01ce27da331ea8a31cce3384f18ff5d92d7f1f92eee2d973ad88af52c3b11af6";
  "0x069428937541decf7be262202244eab59f6e3ddc0126116a7ff26120b3ab23d5";
  "0x09bde9c84f7be2869f6a00e912269a3d686de76f372f532789a601d45cd83127";
  "0x05c66ab3a3154e3ea375a98eb908bc4fb0d49e86f8f74fcaf497516c2c427ff6";
  "0x0c51f991812eaa6607861cb1c829967e11b58b7f5bd6c97bd6f7e1b47f62d9b7";
  "0x0f5445ee7042893557eb997f333c2b9ebb3edf5ae48edb198964d76bd81e92f2";
  "0x006b2f18e49cd9b3c618f15ef8a944f1427e22b92ffd940b1e2bd4dbf7928308";
  "0x068c9e5873337059173196b9399d7800834075a64622e706f5cb71c8ae35dd02";
  "0x0770c1ee9bde2a1f78efe1b52435867b57d469d11fc039ef893233bfdc2b03c7";
  "0x0be5b26e4360814c4de82388458808a8bcd2e9e790792e154e353b1afac7bbaf";
  "0x0743340796e3574dcbd405d5aff9e8133a3c5aab462f11972b3d71352ae0fa3a";
  "0x0e75c15cf98696cd64e21b69f8968d6c29fc2acf98fbad45f92ecffde3b0d186";
  "0x00137d7c1ad81fc7b19f78d7119e47a409799a7ec6cd8526958dee3427e43e7b";
  "0x03a93bed193b6b72aee539c0a1067c0a6e9cfd2b280a9869b66c78896c099c75";
  "0x0ccacf14d0012e57d47eccedca351ccefd3bea5cb27b3367cc843978088eff5b";
  "0x02d18eb8b3635b16950530fc96652b61022ff961091a6f379f1d0a129203b7f1";
  "0x012d3bcea2feaa97d9a38a75bec5fcc66799b313e40606820041013bc8a221c0";
  "0x07ae30983d536273d6538705e7772095fe5f802b08bc18489db7f89508e814db";
  "0x0246ab73f6b2388a52f8aa7cdf496ce44b091f2bb26a5b301e39cd5f8cab215d";
  "0x001116d61548216583cfe865afc36890c091ceb2e6f9ae460f0e8ec5852a3cc6";
  "0x04e335d032b86a97d088f821f2682239e6ff4275b4746daad45a916bb6994b21";
  "0x01fd0b50b17cd625d3c7316847b2c10124a69a73f95c8a126e20e72ebeb65cff";
  "0x0a33e7f0c55e1ab5266311dc0e6b44f84e006f55b6abd14df6663520b7f00fb4";
  "0x00352a2fe925febe9b1a580d92e9538115e12ccb1d0b176935b48cb9b8328a25";
  "0x00fa788ab8541adcf65a6a00b24a7cb45aed29b1f9c03b929ee534c4e49c97b2";
  "0x0dfd476280a8fa606eb04e987ba0cc8018ab580fae5773f3137164c3bf5dd825";
  "0x0e95cf07435b13b5886d1a654a48b63dfd0311db6044776c0dbf9eb9aba3bc6a";
  "0x0265e6643900117f97823588f779d210688338f71663dbdc1f7cdda19e27ecab";
  "0x0dd0e55f4450ac22f06e9831d4ad78643d735152eebc5994a524aef590c9ec96";
  "0x09beb7d7fefe8f439dca7727877d938e3982f646054519eafa44f2a59abcb543";
  "0x097066318c8a3235a2dd21b943956e507372d806457d4f7deb535391844b9b6f";
  "0x07c7a89dd665f25adb8e40ab0367c0e7db871cede4ac9dd32f8e2ac7148bb9d6";
  "0x0d23eb9b4265f576dd611647e8b5742c4c26ae0b9b7bd4a5b4db765cac71090c";
  "0x0c805552ee6c26b1924c59bfa73d970a9ac7fc3e2fa30832044e730182745654";
  "0x075cd231e726f16bd8dd294d3983c568c4aa5794cbddac4f79783a593ef94b92";
  "0x0aefda6dc4f8ac2726d5cfe6727ed122543543f954d293feb94af3281a3c33e5";
  "0x03dcb8d482aa1cff98381615c3f60008cd5b1b7cac0f680f99308f7ea462b048";
  "0x0a9fda85a4cd0114210b5a6083e5d930fc8335285831272a7b4f93e7f4bbf8d9";
  "0x00b74af4b55f6cc3a2d990c36ceeea82f6545092604ed133798eb5e614a16373";
  "0x0ef84005646050256e688c1b4e5d96664a31eb5266304450dda77a5a3364345d";
  "0x041043789be8e826e8abd373955692f21de92304dc5b9f318651ce84921bad75";
  "0x0b776fe65ce0beb2b4c0ea527f9a04ca1241ca86089248a771dddaa6de3cfbcd";
  "0x0b944aa00062f4f7f9e88b2fe97bba6eeb9c0d12a9fb5f6b180cd1274f9a5b23";
  "0x093f0c36cdbb94f4891a81c9525f0358e4a9acb2c46eef71b4089afa6e6f251d";
  "0x0fc68bd13d74d0deef74806fd061f5e714776e2eff2bc2477f982f03cc20605f";
  "0x06ec0c68826d54415c6174509fecebec4cb41c5fbbddb953c6b6ca5ff6765d29";
  "0x0161622da8e22eb559c401439c6db0eec5b7731d2af7edb1a7241e33c82b620c";
  "0x09d49a9648b647a49c082274241932677c254bd1fea030053d833805bfc5e8e1";
  "0x0209b8360199c834a01030f168f49e7c35aed06a5f952cab2ddf6a90ba688e43";
  "0x0216116fe3fb09d5c7f84dd7e7ee4e35ff93ef0781ccec4859db7e03e032714c";
  "0x075836d43c4b773c363b740ab8bcb2fe000d85046dbbddeb904e01b08f6c5aff";
  "0x08339a844217773825ce6887d8e6695e3f5b1d75c7e8caa0e215c53578e01d87";
  "0x0a7f3248390cb9c0e7b91e9e3eb817cc7bebe2a84c2e96ba431d7c6872d9a13e";
  "0x02a90797faec4623c8a3306a9d639f7ea737df615027a61a00eb0f256144a47f";
  "0x006dd246875afa21daa3e05368f54533192a5accfbd81b9b713598587c94bf1d";
  "0x0ce30f313c0c532b5d8b1a0919099146fb494305f138fad165a60a0e97be4622";
  "0x0d79533124e65d7b74f8f05fea03d1dbdca6c9b8cd76099aa10b6ac572d5f7b6";
  "0x0a47abcb9b91ff09634da79f967eed78b9e13780894b535ae4039ac7d5f51def";
  "0x01d3c88e17ed547efa3bd63891ec6d9448c66f2c1d3bc352121710a688e8b05f";
  "0x0d8c9c213e6b0a6784bfe747ee6c08b8d3349930982d751179062d308c119d6f";
  "0x06b6596e4a5af0354d926e0a605f7d8c9c6f6f3ad51a402926fb69ab691aae7b";
  "0x0c9a579f5ba771b702d541998c92387414bf24808068815b98ac6bb112ed4981";
  "0x013a2bff789a02d8fa6c10e82cd8eda33c4cc48ec4b6af51f57d98bebcbbe26d";
  "0x061ed1dc1d02b8cf84ea081799656c09f8d790cdfb916b60f6770d3ad693a9ed";
  "0x0885efb4d3c51f966fb479bb05c02c67ec5e526f5f5ff04c0bd3783f4ffa7e00";
  "0x0145d86e790e31ec2868784e6ad04c36f3ce41e8d9b640970c191dcdd6d6d178";
  "0x0f515f006c33dc682a36298ba519482a33b1741a726b7ba0d4511bdf2476b104";
  "0x0fb29517761177568919ce4ba878fc5fdfd284a749f38b5cb39bd289501743a0";
  "0x0281b9c97f3ac767c4dbc01e72bb88b591d27d612a5a5ba5a5008a2241e91b12";
  "0x0fca5646c2600a73faffeff05767f6fe4e6503d2e00260a90055fa41041577df";
  "0x02d04ddea70afc01dd5cb8a88e15b91e8d192461e209cf26fba26b81a6823ce0";
  "0x01fe40e1e02c8a6429b7f95cc7e9f25dddea80fa098a649ab8fec0ffe49f9295";
  "0x0b2db536838b7dc46fcd66ecf32195baa96256061eb0f107896d5ebccc38da63";
  "0x06d69b881e373e497f3394fd1e0ff5a2b298cfd5b20bd2c27e8c795b2a275382";
  "0x04818ccc8659a49ee7b25d347bceea86e684853af35912ff9ae741b249cb73c1";
  "0x0501e013fef0a3e8d2d92103d70baa6a82226ee6b3321ee8fb2ba8b14c97bb1c";
  "0x0597b682ca230f2880d68c31125bbf46c40ce013618880150ba75f7c64e966a5";
  "0x073568614f59dd9e58c9b41d7fe16af6429e26f7e088142488e2f949bdc6d58b";
  "0x0c02b127db85ae2c3bd2f4b340b1fdbbf40d487ec88d4b5dade0da1204c925ca";
  "0x0bc46fa81be92b10f6a95d7ebc3ae2ac3a687aec2bc9cd3c1447efb84ef0ca7a";
  "0x07ee6c905339f1f53a7a0e33bd643060053e94bb39eb1bfbd10ec8892646d0a7";
  "0x03c7e4221f2f7c88166dce2eb9802595a38df84e269c62b5c7de0be28434f898";
  "0x02ae2f6a543eb2571748ca114f71356b890c3ddf94f3630a13140dc2b5abdc45";
  "0x074c073fedc06dc78adcd72efcd59ddd4f9096a20a8455948ea20c96eb1a68a3";
  "0x06ee0c9d22a304833ebbb3c2e64b09c11c472c15cd16c4a138616466b98e495b";
  "0x0981e24d82a21e6271caf7115126c9e568c9eafb47a85df0f50838eea5bbd55f";
  "0x036ab88ad0a812ad99d811d74ac0a3499409d5bf95b08ec69e74996cf1095d93";
  "0x0550a87762caaa8d9766fbeb7f9950fa077fb5d4fcd74795deeaef5a7e716989";
  "0x028b2c4519eacc0f6fd446c3ed98b9438be449d9f9d736f4682ff3b6cb1040c5";
  "0x04c50274c2650892b6a000df5784746f70c4d45147833c22e0875dbb53436ebf";
  "0x00067199211a12b74cff6bc9a2993ead2dfd823d8a72c1eb382cad4f6ce567f8";
  "0x01908ea2df9822ddf8f6d5a4117cbeb4e441e5de64ac9ecef7d65d84fd242205";
  "0x0073ec774e66f0c4f25011df5a4089f568f2f855fce1b4193b8b91cbe23c31a3";
  "0x0fc7c9c82a968aec6c0a548de354e1e5a4a331bd266bf56c3958ab5904c2b1d3";
  "0x01ad0cf1b5f8a7e3569a4f2f06c7765d0faafb05dc651e883930f5257979c064";
  "0x0f6034500374d7d1d35cad96552516a9396bc832f06469c5cf6db263b98a22b5";
  "0x01d6b859a852ca9c8b41b63c9f3d2b327a74f234572ecb50c737d3f29b280db9";
  "0x008835d9f02b7ea3182eb17764feb5d97c7fdddad8c24cbc94a9e64b93664ad0";
  "0x02aee505eb5dbdc4b5a5a2addbe2cf56f2fe6920073c50e35303d72ec22def51";
  "0x089b27b8fffc04e0a4d73099f02990d3f7c013b001d3f7b48930fb0544d0a2a2";
  "0x038c182bd7212bc6533a7e4d6e8eb867c042b6f7f028962c1f0a86c120fe427b";
  "0x0eccb6d9069046bdbc816186fd16cbda5fb8edc94d01e59d30abdb858abc8185";
  "0x0b4b00d9f679b6d91e7bb24ac81827f50b7c6358a363d2fda55e4fc1e820ac29";
  "0x0de8957b6709e765a0c3a5eb428e7408021c19ca0410f1f67ef04aa7441d5078";
  "0x0d02444a25b4eaf1d0e1513eaea38aa979583cff0b60b9ea62ab45ed65b0f1da";
  "0x0ac7e997e9deb779aab5627e45a62bb28110e21a068dafa6b84f70cd41a6167f";
  "0x0fca97671133908a93f0aba5c320649834f32a84149cfef00c63cca052491643";
  "0x0f56cd9f8ee1a59d3cd1ed50f4936f26f13291d3dfaeb0190aa180c9c417db16";
  "0x00e760b2a2b348ef7a59f9000e37e147973eb0e3061b15d97ccfd3370e4fd18b";
  "0x084b04cc8664ff30d66de5d5c85ee694262f80987cf6d1560f1c0be5363a4efa";
  "0x09fb0580aa484b8c2cfdf35edb047020d882ec24c35e69058e2c7ebe15df64ed";
  "0x0982ad225250ef97d4033bc47bef2c7735b612fa1a781b1a02f9a673e1dfaafb";
  "0x02d469dfbc0fb99c674f6880123f651ba7c3a5d0e72adbad741677341b8b30e9";
  "0x00cbf04b7ef3d34897dcdb07a1d11ced8056eac3cb01c21422a2d0c69082b3f7";
  "0x0521e89e095abd4d5a2bfac75aa9e919c5ffbe92ec830c7168c585add1fb5604";
  "0x04d45a0a794930a67183f40cf4c66a559b4ca6b5baf59af1731aba9b00ffb867";
  "0x07f85ec6ccc81659370f30b890c908e6e44d7037f6934db7618a4942a4fc061c";
  "0x01752a14e91a2de45f6cfbba77836747fc765c172a823f196470dca6a446e976";
  "0x0899cdf812b522ac944da5b59ca5b28e4bf2b6b8b92642932059dc17b7384718";
  "0x03ed7244072905ddb215609f8fcfeb693e4f8fc844d06bdc032075496cf0f1cc";
  "0x0086d873e19543a2e779e4c39e30dd234ad0f6f4026b0ee9b39287e971d29c0e";
  "0x0eff4fd48b7df7bcc4ac56b0ae0d7045a6acde742efa6dd347e5103905afd20f";
  "0x011b61fc6c30a69a3ab2dad603357854dcfd619ffcbfcb48c81e76708a12ee53";
  "0x0117ff2dbc304e6314e9473f5f73b99b30fb23275f6c15c6b364f0a2c7c35118";
  "0x0932770e5f87989467639e8393e0a0ae23ad2a53a7ef80c9d7382c130e4b9fc0";
  "0x0c8c76a3cf9d52b049347353c299156318e4c463f432252ce8c5dacc22daa8bd";
  "0x08bf369ef38cd7d635731573ed11f61dc1ffd217355edcbf96c1f4ba760a0449";
  "0x03a61257aff9cd8a089c4c54f90dd9b1a42f20e2cbf8e83a0f7b49add910c434";
  "0x0e1fa2323176cbcc3818fb17bba609f686c08cc16a3277af5ebf395e49f891a4";
  "0x06c90adb8ec5cd0476d0d8f998bb09f27a4a7400fb82649d6e9efa78a1d5ef14";
  "0x03f8195ab171b27e5ae02da1b4fd759803be5a2cb1cca0212f311928d0a0277c";
  "0x0a4f11b46bc3401291ef5f5ba22a85c5bd11d46198a2c6008fe73f5d11094a6b";
  "0x0abd49cbc72303aa16b06460912e1f6b4f6871e662b0ae8d8bf8e167fbd84ff3";
  "0x09e307f47e359210d78c1a8554a8b0c099bf27e0928bc61d271f9d86efb2fc73";
  "0x0c173615e2a99b97c06dcb2f04b8bac1f4e6c55fe43e666d1a68acbe5bea75c7";
  "0x0f7abd3f3f51d86015e57accd586d26654b5656ae023b324e1b9b3d3a517ab2f";
  "0x03b0549b9eb7cf0dd7c7bc9eea7c2a55acdc7f3467082e5d59a222f17b9a8fa2";
  "0x0faf30b5122c5b288a8eb6cabb080e23f4e3135324f3820c60d8f93d22d188eb";
  "0x0524b6f5feb798ec049a2ff9993c01b9e281d63538503583baccab76bf8350fc";
  "0x06aa0593017dd55abc825bb584f825bcee52be02c2f5a13ad81aea0b0db86298";
  "0x03e377a386026fa149a60b0527a86b41d5dc0ce3788635e5f91668be0ff58d93";
  "0x0f0643a02b1bb010ca77cd3c6703cc6876c510a3f7b770b814b0e124dc1ad8b1";
  "0x0b17dc505d0ee7772318ec95fc9d06decdd922d42dac9b77ddfa61e3a8866a5e";
  "0x0dd3540f63413c21bd6427b7ebaf217ef50008fa37edbd45c6168ce8fe1ed526";
  "0x04582d8f324cd380b1f13b4a134c88feea0621e2a79174cc356da8ad6a576d2b";
  "0x02bdd9725f5362cc5f633b960861bf6e3a45b5026958f73e31345f6396c18a2e";
  "0x0739e399d1ccb3cd3abeb5391a57508922051977a7aa7d5d697ac06a78fd1951";
  "0x0a486ddf7638a380e6f5e5461184edb5020373d1d87b883d66c74c825fb0cfa5";
  "0x07b2976d439cc9b7b7112fe4455d92f61c94029ac342e494b4fd10938885eca5";
  "0x0e350424c876a22f1c5fce1db06decb678bf344980c3a096a0e2264e12bd8f27";
  "0x0c45cbbfdb6a5a2d371decc1e7170383d4d3274e664e4036e3825d18522de226";
  "0x02b9778722744816089456f29d779a03519825f5af92f299fe1b5783805e0628";
  "0x08682f817095055fb0727cdb062d1f5c62a1dcb327ad0b0d9232df46533830f0";
  "0x03a458d3db830ed248420d922d1b9ef0df55ad499a9124c2d2227b09a5d3cb4d";
  "0x0fa80d490bdb8e5a241ade855d4f98543d8ebaddc5d133c888e7df5094913fb3";
  "0x03c1efe731696b15c209ea486e37891f41a7ef0bbf5ea07fd95874efb4156cbc";
  "0x088b34bd1015c1077be0286f96bffd74b534eb207d377d1b0908a649a714f060";
  "0x00051f7646a5218878e7a4eedfb080f51105c12dfc45530acb6a5a1c68600ee1";
  "0x000ee219ba51d9b2c2c7e1a26cd1f001f0e945fc33fe12d838c5a50a98960faf";
  "0x082e53ce57bf01fb94f8820ae9079efd87584aefeb72a71daadbdc336e28289f";
  "0x05b6eb41ca86292c89a96f46b53d477dd3077270312ed6aec01e2d8d8544e41b";
  "0x0ec8a64f8eebc9826c9c0424c8797814536232152d77b216fbd4aeab2cfb1882";
  "0x09fa2b857ce083c7aa73b21e5320a107bdcde8f96c197a5465ceba1d8c48e562";
  "0x0f0ddfabea39ee1d0c9656437479210ace3c3f7edc801eb5580907644ba79951";
  "0x00cba50b2d64e6cf2ef8f8b3939151da6817ce496e0c7367a32ec9173a7e08be";
  "0x0e39e326030ba7788fb6767a619151c61f85af8244aba19843a2af2b6eda20ba";
  "0x0be95cce04b0c1a4f447de1c820f680602e9ea7834633c5ef91471bbfea5af15";
  "0x0fde51b66a6d2ba0bdef4201e56d72e4be0bb800f8553792b360578ff35b3950";
  "0x08aefdc7d3563b18e6069e96ed5361b9362725fb0d57cbdd18d7b9bab7240df2";
  "0x060eeb0a3cbf18dcdf5e8422353be577f2992b744ad0383da9ed53f51d480691";
  "0x02958e62418dee71888dab0265c481a22bf4dd40a6db0ff6e05bfc9f17bdab99";
  "0x0599148f5e2e41d68c43054cb7b8f4d82684f8ba174ba5757ff86ea5609780fc";
  "0x0536dcda6fbe0da29b19eb077d66b31d2875c99ef1489c0ebaedd031b3f804b9";
  "0x0ceb71f511bb83962a82659a3c3e2a570bb120e44510f9619962d7f164e0f561";
  "0x02cc9192d741a0be87e411c18961e6c73f98bfcba79359f584f053de510d75de";
  "0x0065fd44faab87208015c3cba2fb96c9d46840ccafbbc09d286dc9a40cbab73f";
  "0x0f6b7789ece6a8431785fd02cc22e44bc5dce9615233112166eea0e26615aef4"
].
