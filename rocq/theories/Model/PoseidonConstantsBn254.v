(** src/r1cs/gadgets/poseidon_constants.rs: the tables of Poseidon round constants
    and matrices of the feature bn254. Generated from the source text. *)
From Coq Require Import String List.
Import ListNotations.
Local Open Scope string_scope.

(** poseidon_constants.rs 1270-1286 *)
Definition BN254_MDS_ENTRIES_W_3 : list (list string) := [
  ["0x2042def740cbc01bd03583cf0100e59370229adafbd0f5b62d414e62a0000001";
   "0x244b3ad628e5381f4a3c3448e1210245de26ee365b4b146cf2e9782ef4000001";
   "0x135b52945a13d9aa49b9b57c33cd568ba9ae5ce9ca4a2d06e7f3fbd4c6666667"];
  ["0x244b3ad628e5381f4a3c3448e1210245de26ee365b4b146cf2e9782ef4000001";
   "0x135b52945a13d9aa49b9b57c33cd568ba9ae5ce9ca4a2d06e7f3fbd4c6666667";
   "0x285396b510feb022c442e4c2c1411ef84c2b4191bac53323b891a1fb48000001"];
  ["0x135b52945a13d9aa49b9b57c33cd568ba9ae5ce9ca4a2d06e7f3fbd4c6666667";
   "0x285396b510feb022c442e4c2c1411ef84c2b4191bac53323b891a1fb48000001";
   "0x06e9c21069503b73ac9dc0d0edede80d4ee2d80a5a8834a709b290cbfdb6db6e"]
].

(** poseidon_constants.rs 1288-1478 *)
Definition BN254_ROUND_CONSTS_W_3 : list string := [
  "0x1051abd795bb781c5bcb3d4c7320b88f033cb1904c5b8559bf08995be4d6305d";
  "0x2680c4e5e102394a8c53c7ca99003cbeb3422caedbfa62c2373862e367a3dd00";
  "0x132e8252ba372e32578a441ca6b0865f73d890c968dd8b7642f5b483676160b6";
  "0x0dff6973df3b1f559d2e21ede06b857c63e4da1bd50a03e4d500e226dd108be7";
  "0x05e9463e0290d75eb2948587b1f9a7ca52ea91c9e57b322cdfab3c4822f1abbd";
  "0x2365c6a8b9928e31609cb8190336a6a2eebf69b015bc7958840576fd4e42da38";
  "0x16aa8ba01611f750811cbb3d4257f53a969fccaec3130b7a6441c39c9bae8458";
  "0x2717b1a58bf1978c6af4069069429e64ea024efd3b9be8fe8aa2bf1d8c28f42d";
  "0x2d26bd604c702d7c74850099492efb38bc836c3cb88602e1679ddb53557292bf";
  "0x174a4de6c44cab3c9781597fa27c024f7c7a114632a541ed7fed2deb245a85e1";
  "0x1d3e5ecbb083875c59541464dc6e7d1a59b4f68d985a213b28314a3004ec6809";
  "0x014edb6e589987b69e282db5f52c1b0bbe8704e601154c6a0afe84b52f9a4aae";
  "0x0e0d8d1e063d74b601a548eae7d368fd8ac907dd9145beaf63f2e2a6a28fccd5";
  "0x0602ae8ffb9d13f3cce1e3ae3c2f494b03d3fc2fc6426d5fe6cc1c312d068da2";
  "0x23868f037d108e9346a8d63130d6d9aab87e701c1828c574fa67cc8c1177a6b3";
  "0x1073b5a9ce850e2d6f16e5776b4ee254146ed65bbd8f50d36e17747778af00d2";
  "0x073da226b5a2639fe26496cdc3dbd5fd769984dc39e44003781d9140596543c4";
  "0x2cfbfacaaab3b3526fd0dc6d369646f3fe3948da0fa8a132f0dbde96b5ddc9e6";
  "0x0fc0855a69b277b726ac164b86ffba19954c0d59802838c4f032df5ca38ae88e";
  "0x2649f096f1e407adbe09b44a07c54ec03f23cdef4b1e4c96d81f632df917e0e0";
  "0x0f9c0aa8c10f48a205c7ed49d1cffa12829b53ac76840f3a0aff6cb10418ca40";
  "0x11547a7f704f1eb0394663d4afc2fe19823910bebe3147b6f0ffb7f8433838e1";
  "0x16aff7c7076d3487c8d10e640da7652a5f3a007967eaa7282ced25e89b61787d";
  "0x011a06492822359dbd9406c3afba3bfa469147f483f0ae78c80f9077de480b86";
  "0x0d7f084fe4f168dd3b06a36866399b1c4c3c6a7f247f317d8463d9e447608134";
  "0x078b6029f46dc32407770079ff46c9b20accea7cd0120ef5fdca18a7cb65b127";
  "0x2dea4e22de864b493684aebb0a692f939ce841aebf83330c13f2ee57071793ae";
  "0x08cbcba0c91b3981c0207f75e4b0f032feaf5480e4aa243c946d938a2a57645f";
  "0x02d8f99ea79dbde1025ea741c56c3e6978e7eb7b820eb30148d6c059bb8c365e";
  "0x109b2d0bcdbd121d2764beeec0284a1b13cdb171ab316e729f6980adb7e219a3";
  "0x06a25826dc6271bf8c924962da4cda44dc320d0c66f31fd2efef0bd9b9f8fe35";
  "0x1a63e4e11c99ecbb52b14e202fd651a9872e560e9403fa2d9f33d20bcc32bca4";
  "0x03fb5deb4cdadf1ce955fa3c091f2dfb8c58951760769d1484f06ccf3a687d5b";
  "0x0bdac171754f43976c5cafd607771b9c7704e9d1c5576b87fe2aa0d80ab0fe01";
  "0x253a502bcfb721c80a2774434713ef20fad993dc5751c0673f44ef976d5ce751";
  "0x0e21300aec534829255add130d31da0dc54282656e893cba45b81b123671c2c5";
  "0x0d9d748361f6bbb3782751508fd274913d9153eff951dba21f3b20e69f229a36";
  "0x1eafe91d860ad0794059d7abe25ffa38d1e0229f64f81d34eeffadb1575edfc8";
  "0x1208792af32377cd04bf0b77947ef589d4069b8743bc8b4878d09daa669b6b9b";
  "0x0c8593f0fd900eba22c520adca2fac43ef1e22676c396804a421cb9b10ec78a4";
  "0x1bd21887ff52ef7fc2535b98dc27cf269baa0905b006bc8c347518da237c0eba";
  "0x1f286d70c425a4f9c587777c055274940a860def2ee096dd382b3098b526a211";
  "0x12f295cba6747661e15782c98dfc37986ff39910b5ade0af270359a0240ac15c";
  "0x27b574790203bde222f06ec565eeb97b5cb638d48b91d696406ad922c5cef4aa";
  "0x0b48c200ed9b9c2e06ccf0b4bf7879aa04a4f3c96a123c76b141014cf1cf3db7";
  "0x102542507dd3efd2985a8c1f32b693db8bbdb68915ddfcde0495319274cb805e";
  "0x179ecf51290f06d865c9a5f2b0e0c0d8538f1e0cd827aeebc17a52243892961a";
  "0x095495252df2a4b0436c4ed7475418d3ddbceeedefa21c93f869d2ef7af8d0e7";
  "0x0199f70bfee188c09adc670d87ab0faf853a05009f4bf5f02ccc1118ebddfd04";
  "0x2c4424651e6612ac440f1a0337c11ab8de4e454b02e541f0d9fd94c71fe8894e";
  "0x1026a6b199faf95f5d25039aa4ac197858efccc396d022ef2a91b6e8daefd401";
  "0x1592410f12e9ed7cb9a4e179545bb25e1ccd1fe651a357384c25c4069c91f447";
  "0x2eb2a6361decccd18af7220bf07acaba1aa2f72df3c8987f2de50550e2958ec1";
  "0x004e18672f832f967bc48680deea67cfaa5239523c8300431b3a5d6841c6c83a";
  "0x15d58a38461f1a3ff4fa48c05893549ccc347de223c3defa6b62ad235f8f273c";
  "0x2f8b363cb00ed6b4c59cdccdd8bc00c2b74a20692f50684554d26aded7e536fe";
  "0x29723a5dce93cca5d1b5fa130caa23df1a0dc60d1b04a5af92cee4f9725c35c7";
  "0x2c54d95a6a6f7e09e4c3562ecf6d09641e29a72cc7a46e97555232044a6a8aaa";
  "0x2a62c847a7404e47d198158bc9783f57a7e9e936a512ebdb6ed07ed81040f9d1";
  "0x1276cfc056c55b3a9feb8734289c38bb99f2d4adb5df85b9c6baff7f42489ddc";
  "0x27074fb9a068da4dc423e47f968c2967012a8238c74008a2d3cfae739a454417";
  "0x13b3cc235d66d3f0db7862ee5b3e78a7ae3fbcb379571af077693fa3a318baf6";
  "0x1d4f5cbb8ed933063b61afb45c92a6e42cb80baac351ddd75efd8ada23535e31";
  "0x2d4a0453f7e3632194d15444457f033b28822ac9e46aa9e8141ec98968666229";
  "0x0996408db77890304cec004cff24e7031f20d91245bf698b8d85185ba4c6ca3c";
  "0x154c4433d7bc73b4bcbd880f933fd7ae87e618b381b3529bcffc2281cbb1ba7f";
  "0x0dfe738c2dfa783eeb594adf67c5e2b5581de47f8c9cfa8a37fffde204eeb4fd";
  "0x009517fcab532346f0c8b3dbce4a6b24e901772bd3bfb55dd4f4cc1886be22cb";
  "0x0e87f69b7ba84abd34fb9822c91cc4053914904860eb136b5f24dc56c7ea4ef2";
  "0x20f6ebe7f3b318d178af7fb4ebfe5e71b5d3380ee0ce07f275051f52fbce3d50";
  "0x1f93934dc4dd378c4ef0c106dd721e55d59db5910d92cc721dbd1b71e8b16ac9";
  "0x1c9601af9f45092f62ed342e62ce154a3ee2583025f089235ced1ae2f1f84f9d";
  "0x04dd1e6797a385c12d4b7f911a28ac12149e3ebbe1ad536870725a7b494b13b0";
  "0x23e7a5d59830db614d16a0ed4eeaeaee5b793aa39af8ff56aa7ca3bfefcdefba";
  "0x12f8f2d6c41e9d384e01d138695acff6a73b557f5d2606e598cb0ffec69f091d";
  "0x01376653f8bcf8fcec5ed8c851453e6bdc678f31fc9c8b94453230e99068d2b7";
  "0x26b0bf23169407407b4c3b437d920b74c7ba13058818edcbe4eed125540eea78";
  "0x03a8a2797f6d8244e383f51fdc0edc69873d81d75b6ac0b92643e4b02f67113d";
  "0x0758e495264cace99acef218843149d62c2de064a62936ad4161a862198b697f";
  "0x1973c04a42a8996d5f38671e71d3be5778de8bd4854259e8bb461ffc56399278";
  "0x2ff27debeb99ece34cb68ad054c3725eb8ee3857dc97961896e1691a1e76a6e5";
  "0x1b2316eab766bda304543e47474aef9ce91830a717686d5f74891d25eda9e3d2";
  "0x29186c9e4543d1e838518a836cd160fea11d0399d40d4a44248b5b86773454d3";
  "0x2fb5e09aaf4fb0f3e29d8037046242dfcfc25e0acb6942d709f339c80d62156f";
  "0x2d026814a08dc4497c6e249debdf0be4584d75fc1565dccb36549687fcdce5f7";
  "0x1f530540f99193b2535359650505dcdbabd5dae0e7a25029eb427da77dfd29d5";
  "0x059f1ad84cfaf236838c5dd78cf530e0f008631d7b911b108f9e9e35927a6a0c";
  "0x0f0cb8516e7358e13f8d29e3d7ca3b8772da3f34c38dd54b79f32a64d3a173a9";
  "0x0a7b0e2f1fa2d3b05d30ba4010d38a04a413e0b31aefd44a62cfd75bdefaacb9";
  "0x29785cee4a463f7c6a9d0faf92b5d7835e2cf7ed758ece279a896d3165f06e2a";
  "0x0550c951520a57c7ea1253ce4198f5151aaa801da0c49b6b1599e1c4e9cd4a41";
  "0x0e4f3013a99a670d3b60456f721932b60627daa3be8aedfe7e4d84d5528d5a94";
  "0x116159f5f5be7755a0d02232fed8d99f2bcf672536c1373bcbddc83cfe7fa461";
  "0x05f3b1526b9d0dcaec2d707ac31e87e8699a46c852ac9ef94abd5767de5cff47";
  "0x095e04894544e210764ff538802121e800b39970585063fe611136276aa16fe5";
  "0x2ade487b239c12bb48ff17f278758dca8dd1278972daef778f4c118dec3dcf39";
  "0x053e3aa1aba2476edb26d2463332a0e186ed428adeee869d822401930f9e4128";
  "0x2df9eb23269d857b49c76080928a62e518402ec26aeace0c0d88790830e5e23f";
  "0x224883469ecba978372e4e9412c3a434b7058d9d76f1d1869ca187ba7c1590d5";
  "0x0e0dba4c312b41bb89edcff913835681a106d97ea723735220c2cd806f16968b";
  "0x2d9ce08f05ffc1eced293bd9f8fb89d7bef456b2b0fec016e795c4159325337b";
  "0x162b649549c5adc5f781e37b7df61e7ce65f084b9825a23d9b6aa4bdc248e998";
  "0x2323a160c2346980dabf302e69e2cd88f307c1741dd583d36a06733f0a0936c8";
  "0x047d629034c42906bff290342b2bafa612f08b0f888fd5c5ea02384c639adb87";
  "0x16749375afac68bb87291b6167aa55e389e69932dacacbf3762fea925d7ee5c1";
  "0x14f633ba5f21231117f4d938bdba1ad6587f37312dd852ae22e508b2557524f9";
  "0x2d02f2b341f65ad9d99e89cba23a797806168efeb2da8169f7893783c9acb782";
  "0x25f565e2ea7cb2faff221c35deec04b825960e1b26edd936b39fd2c55a48bffa";
  "0x0febd4fef89c49b6b12c353e3efb358203aef5f13e2e25cdc88a9fae17a48ba9";
  "0x11d001a9456099cd86c95cdef6bfda0434d6f52394944335cd6513bb41add7c3";
  "0x1cc2b66fcd7d66e5ff81955bed3ce8d976aae481f100e40a5078171cfad690b4";
  "0x16a755dc1ad34b4562a9d57dd375ba68bbe5424df505a5df3d1d1c16fc6f516e";
  "0x1c6d0e7f77d871f89f0324dad2cf370292f81cd8d567129b56384ebe8f14b078";
  "0x278006a7fd3b154b9f25be54a013734b0a5372ff88377c26eb219039558a281d";
  "0x22eb2867a539a9b6ff51d4a48b4cd8419252d07c0665d0baf82acf8aef7de8ad";
  "0x1a128b7188d4e3f1c22aa4bc4525bb26b50ebd80f50f267988bfe2e466e56a94";
  "0x1d2faa5c28aa1d533513cba89750b93ce71b4510c4c215eb1974a59051c5b093";
  "0x28eb1c41a050dc8aa3f9a8037cb81f575e5b1acadc49e886e90bee7f1a485149";
  "0x1e2586cbca2364027ac96ad1490271b866e723385e96c9f720a72b1f67078e6e";
  "0x13c7e5c7724e33d7acec9e42ff8a4ee4f1ac8b6d0038f0faf4908e74ed06c9ba";
  "0x09bf059ab4925c39c6df84371572785d35e40be573fdf1be914ff6a87066923e";
  "0x1b7375f3920e121871cbc71e92a2f47518d26a20f236f9194a5c48f86dfabd38";
  "0x1494848f10672e535de527d6d0591019987f6e11ba33b6f6eb73dc59289c2e36";
  "0x195378dcafdea646a00ae78d9e30487a41aa8b8864ef4035a751c3b8ece36b0c";
  "0x0b6a5c76a2a2a0db3843ef11176411388025f380e7a2d7ef1a6acafda5899b0e";
  "0x0823e1d157f7c4712b4988af4a0396edb0950b1ccd001692e4eff681e14c2fef";
  "0x1633b048d2f14628309dbdf5a52736c0c5de9bf96d7fb9d13a2cb4562074b222";
  "0x1f77ddd90f1eab23737895ec06a295467086513dec30b69738d226c82ed5e430";
  "0x09c71939b3672bf6aaaebcf3717dab67765d8b94726c19d76d57e7aec751b94f";
  "0x048139270f0ef8f68d0b07c5d0005d7ad91d41fe306c8587bcf32d742ca1937d";
  "0x003adfb1444cbf59321984d74e4434f3ed8a2f2376a41f5b9f52b1a6172c03e5";
  "0x2eec4a7de823bf9531d3f842e9a9c74b0d0c4f8b56a5a25ede19b11f868b89ce";
  "0x0ea574b644b9f4cba43338122827d08f07484a4ceb24ac9d00c4a668838900af";
  "0x054da055cd915cca9a0da4dd2cc86d99f08b287bba925305ecc28ed0bdd28990";
  "0x02965a1d1f26fcd147af96711976f84bc3f08a50e8b8c38f7e83e8638b8f4706";
  "0x1f97b34b9622f33893182c89f86ef052ce8e46a3bfe2e33fa2a34c5e051d91b8";
  "0x09a063b0b5ea468d93edeecfc089699f815eddbeb5e9369046740c7fea6d1cb5";
  "0x1242820c24afd7cc595f7a3dd0534c6cf1f00c6a84291c65417397c07d46b778";
  "0x2983c402aec15b1d15f86a8d0378769832f0d5ed57aab1d11cc08b4509512da6";
  "0x136371a4b44febffc233bd009ba8673764d2a73512e0eab44024cb97134a3dd8";
  "0x2970729690bd8c8362bf5d0a76c215a03c26ef8a3e01eb91cb0e0c70ee25525e";
  "0x1c395ca2c5db9b254b9b0ef75ba5c0961750f646f9a6a68d60e33ca2ce84427d";
  "0x02356c76528c4b9ae14f13f529206cce462782256984db7e1c3aad5d6f367f68";
  "0x0c5a67378876463bdb3ff94d63e062ecef7bd040316eae92c8b035f693ec388e";
  "0x1b2aafe5f720bfc99ef31b5e48b35df72fcc920e66c3d90d86537ae35ce6bff5";
  "0x067987b7638b9b082848f8eba41ee203d3e90fc591407a4d87f81f088f9612a5";
  "0x148d4b0218744bcaccceb62b6313a57272a1545fd75d1a8ebbd736e4276d5e6d";
  "0x043f8986cc56fcf8e88680a1e8f1c247165bcdb9a6ca2d94c7418d10ad8ef847";
  "0x1ef035d9ff4391c8001fbec565a65ca3cd3b7d0823bb062a9141503a79731f81";
  "0x0a5162e6b35a320dec11ba8639a1192f6a0a464f84dd3899c4dab9d4ebbfe024";
  "0x2b5c89e9872aed76baa36b83f87eb830fe16d34169f9eb1628e6fbeaa940cf3b";
  "0x0625c126499750374f2d3fd08940d1c0238fbd8da85bdf47928188e3f9010627";
  "0x116bb85cfe6730c6448192438af1748221d2bb302b3258350cbebb1c5eccd965";
  "0x11aa65a2b09da598bb66377e54458c1dc4a7a3775f9c9cf51b2ebea5c871abfb";
  "0x280fbd8eb1ccc50603dbc78eb0bf9cb903cd9df30f0f25f215ad4c3e1fb6baf5";
  "0x0761a3e812087679e2748d24993af14664667aa3d713796c79507f2a63f8ed76";
  "0x2ba668f10abf878c8010155d539eb3cc30bb698f0062b1ed338c526fd12ac96d";
  "0x2f4e05914ef7c1b2edf41c51266d3dc3e75c91b4c8dcefef873287120021ce0c";
  "0x29274bd37d7863d5ec7a82f28bce6cf183fffd4f8176ad07b158f1df83c64804";
  "0x0c48fad80901003d9b0da5451971f8eee03e4c394ec29da5bf20a7bfad98e41b";
  "0x16cf2cf2b9da985924e713d6559192ca6128ccf71b4fc7c7ee0142d1c32f20d9";
  "0x00b7d9233273de8b110605a3a7820c13cf7019bacf7e5882a85d5689f15c8cc1";
  "0x0f291f5ae7e99aabc73894608962de3b6b76490754c0861de32a58b1cdb86e18";
  "0x253406b596a33f5cf4b7e83f26116eb40d9707911b4290b2af400d58d92cf210";
  "0x0812a4144d0d74bead1c5710d5239b640ccfc39fb66dab8eaf7cb3160fe35861";
  "0x2d81a6da9eebc5d5d239d13b961bdeebadcce19f0625de11a866bbcd0ef6f174";
  "0x1a22dafad979cab2f645899290eb4daccd04feef3155d88567324d23646f5064";
  "0x1bff73ae8dcaec7d09db8cdaf9ca7a9a5d685a1665855b0fd4ab9c15289f181a";
  "0x0a16f8b0834ada0c92b57e0f3e79e31f4bc6c4fbfe1e1c8a22cce904c33ee709";
  "0x0ce7964c214c6389d581357e69009a141e16451def5e801d313bad966d99548e";
  "0x2825c06bf975dfd5e8466bee81947fc45b6a3e704dfe0350a04a9ed19293b3e0";
  "0x265917cf756c617609b958a33522fbaad9bdef1dfde2da8fc4d33b067058283f";
  "0x305a6987d779fbb9c92aad8c64fd4398a501b347cf24d3ac0374379c3b988e0c";
  "0x19ba5a328c09be61df3216db8ccfca1392a45d45ef73c6d0bbdf798f52b0caea";
  "0x0569057f32180f19cf467121a3ff492228542300b440840ead6ed63ff96fc92e";
  "0x300ade0e02d409aa9cbd650c5018bf52c8aa6b46c3523664404942451cdfd7f3";
  "0x13e7afc3e5b8ae05421d3101c6dcd069e9730f8b9a4d28b707919627d82ed576";
  "0x302cebb80f47bc0d048b047e3ec4370a824d7741209189d6fafb2e923c95f674";
  "0x0fec1e8606f9c19f09f3f6cbca8690f2a82c728121731c10b70a0a27425b7617";
  "0x01b36c8b38abe36f31c85dfa0a4223c2127f9e70d6cb00acca7b4b820c42b4f8";
  "0x1ae800dfd62a6f893226eaf46ed30630be2e658ca33bb2f8cb64a0ef6936167e";
  "0x043f80240127ebfdfe64478e6b490c262943c0891c090e4f9e5da3a777397962";
  "0x284cc004329f4e38c3ca0e7b3148a180f6769757d97698a510f153ed07c0618b";
  "0x0a18cfea20c4b70b9cfafbd495e4fb978527dd3adcbb2a1b51338f37b58eef02";
  "0x1bc11b2f6acc89e45bfc09641d1f50fe735abfd0fe6b4485e134afe45ad302a4";
  "0x27af048a94639f26777e999118a6a53c031cc694291d09c52dc41cfbf548c07f";
  "0x226ab5b34d54c58d1b8fdfa18c3718e0adb3382accc596eaaa90c06d43d6e8fd";
  "0x2434cc868807d7dc6385a67ab520f6908cd692288595b76156d7b1191d024617";
  "0x05f662504bc7e177ef21ed6b4d8ef9a3dce1e82b88b2d48c35c0e23b405a15cf"
].

(** poseidon_constants.rs 1481-1517 *)
Definition BN254_MDS_ENTRIES_W_5 : list (list string) := [
  ["0x135b52945a13d9aa49b9b57c33cd568ba9ae5ce9ca4a2d06e7f3fbd4c6666667";
   "0x285396b510feb022c442e4c2c1411ef84c2b4191bac53323b891a1fb48000001";
   "0x06e9c21069503b73ac9dc0d0edede80d4ee2d80a5a8834a709b290cbfdb6db6e";
   "0x2a57c4a4850b6c2481463cffb1512d51832d6b3f6a82427f1b65b6e172000001";
   "0x2b03d3f456650025159cafbeac013219ead8ce794fc1479d91ac688380000001"];
  ["0x285396b510feb022c442e4c2c1411ef84c2b4191bac53323b891a1fb48000001";
   "0x06e9c21069503b73ac9dc0d0edede80d4ee2d80a5a8834a709b290cbfdb6db6e";
   "0x2a57c4a4850b6c2481463cffb1512d51832d6b3f6a82427f1b65b6e172000001";
   "0x2b03d3f456650025159cafbeac013219ead8ce794fc1479d91ac688380000001";
   "0x21dfd0839da2bcea0104fd995aa7577468f122992201cecc15eaf8b45b333334"];
  ["0x06e9c21069503b73ac9dc0d0edede80d4ee2d80a5a8834a709b290cbfdb6db6e";
   "0x2a57c4a4850b6c2481463cffb1512d51832d6b3f6a82427f1b65b6e172000001";
   "0x2b03d3f456650025159cafbeac013219ead8ce794fc1479d91ac688380000001";
   "0x21dfd0839da2bcea0104fd995aa7577468f122992201cecc15eaf8b45b333334";
   "0x1198d6b56929518388d75f2b17d1f1963d2a25ebcf2c28ef01697092e2e8ba2f"];
  ["0x2a57c4a4850b6c2481463cffb1512d51832d6b3f6a82427f1b65b6e172000001";
   "0x2b03d3f456650025159cafbeac013219ead8ce794fc1479d91ac688380000001";
   "0x21dfd0839da2bcea0104fd995aa7577468f122992201cecc15eaf8b45b333334";
   "0x1198d6b56929518388d75f2b17d1f1963d2a25ebcf2c28ef01697092e2e8ba2f";
   "0x2c5bf293f91828263e49953ca1613baaba2f94ed1a3f51da7e39cbc79c000001"];
  ["0x2b03d3f456650025159cafbeac013219ead8ce794fc1479d91ac688380000001";
   "0x21dfd0839da2bcea0104fd995aa7577468f122992201cecc15eaf8b45b333334";
   "0x1198d6b56929518388d75f2b17d1f1963d2a25ebcf2c28ef01697092e2e8ba2f";
   "0x2c5bf293f91828263e49953ca1613baaba2f94ed1a3f51da7e39cbc79c000001";
   "0x2cab5c1b46066c7547ac8f1e9eed8ca4c2a6117dfa350572660ba79c40000001"]
].

(** poseidon_constants.rs 1519-1840 *)
Definition BN254_ROUND_CONSTS_W_5 : list string := [
  "0x169e0b2aacfa56f4fd84ea67de23ed61558806a0b86ab411a28baa592a9bc8be";
  "0x24c4554f0c2a3255e1f27b4c7997366522f222c2469c36eec41b375637fe56e1";
  "0x1ee762d4fa1d3d2b4d39154b36a508af77a824e7cc05a1e922480a530c723356";
  "0x07156e951beb076f80c43235ae5bda7314d6b61e53c9a2132fc9d26cbf1e3ab5";
  "0x2b7ecda7629b337dbbe9f7992d441d568485c9ca616305d90acb57233068a16b";
  "0x294c5392996d576ef5f73e0e80422357f6dbb25c4487547b4336ec7463ce38c9";
  "0x1a4eaade9d0b19744b943e3c48e797a13f27edfcfc29b6c42c86cc9fb58be221";
  "0x1c701dfe7237c06692ea2e87bf4d4d81915ba34596f0bb3eaeda0db7243b34e5";
  "0x21f6a92c5896f6b7c54dffb673e31be9348a614c44d7949e2f9cfc030e8e3b37";
  "0x1aa56484d24dc9829be011e7b5433fa837aad9d5d4a9e807f8983478dfb4a1e6";
  "0x2689e70aef4a11ed4725f4ee44fb8d09adaf4b561af623a4a8bd658e1c527059";
  "0x1937a3e7685e7533f92809429add3f668b1c7056c3de197187f99ab002fe0048";
  "0x26b9ae43bdc17ed83891a94828179283668641cd946a70374b10e555d2ef21c6";
  "0x110fbf7bb66f43181c11d0a35578a61fb4bdb63d9efe22722add05bbad074dec";
  "0x127aa1d80ddd8ace44f62f20f2403574cc98b9ab347d57046660610cdee2c9a8";
  "0x0bd9e9adf2fd980111b3d1b69ffcc9e52ef5effb048df9e7b4f96e905f64df1a";
  "0x11baa428b39950053c58737d1e78f95bebc18591610f972acdac1024b38bb2e7";
  "0x112596a6060c02811747d9411310ecf658165abf9ee6529e9c7efaf7c9df5e1d";
  "0x25096c1ac29720bd24f0be1f63ce094adadc8c8f18d935fa3f022d9014954f02";
  "0x1312bbcf6683da8b108b8df122204aa6cbde76ea983dc31fb6736cad955b967c";
  "0x2ae617b3d189e6a115b59d630d825c2ff75bd4af30751722d449a9acf4084cdf";
  "0x0e6dc87d696c050f99a5934c26d34ff68881414ca166c738218a6c37c3b1a704";
  "0x1981a20d330df44d4938ae4ac068cc046d8179080c3ebfcb4e77f0526d9822d3";
  "0x293bdf0829b1d1bfb0b0c9f483ffa27518fec4b40f796aa91c7da8dda044bea1";
  "0x2781f81dd539df45f4f286498cb8432cf93fdcb4c89335c7dcbf605cac70e61c";
  "0x141bdc09bcf19aa1d6af5e149b8be3d70bea9ac947c3e00ee57c084dc1c0ee37";
  "0x125185209550797088f3a092df271f99e264f304aa8e2a328e36184236ae9254";
  "0x2b0eee03868a7854e553de5d6e95ddd6238c72669a412a9415ada25e1e8e520e";
  "0x14bb77c46ad0a725062df2c8da1de33a4fd3b1db3f57bb5dcc0a6b4926043587";
  "0x057f71d85edd010129e6102ff5234349f4d86645d188e3092342ae1cb9eb39b4";
  "0x17fe856386abca97c32603cc05575c1d6ce0b87b03818cc71232da324ea0cd4a";
  "0x28b473feb37ee118423113d14cf07a7e88689539a1d5745af679ad5a19e3f364";
  "0x07b117e1397237302a460916df3773c00f8b030cd0da464317b9b8aa71a58110";
  "0x2ebbd0ddf22442afd195548502e9012d814e29a5160bb143f1e11e29abd968ac";
  "0x215c3835a5a82ba55bf09131d3123fb20e649e483f7841731108b6fd0e502c8b";
  "0x016150168bb9b8e124a99b391ecdd68e476da7acacae5e34c3eee45d0b1cc002";
  "0x28e9303160b96eb1849d4e6e68d1ed1830b84468225bc2d65ba108b1da005374";
  "0x1092c0b12b960ae50be8d00497009fb206a6767254f08cf956574b0fcfe39f9b";
  "0x2c6fcc4d9e8c7488d38eb9894683e6528b35ae8ed476b151a7f84161ec78b770";
  "0x2233db47bb2f2c59d8dfd4875927e15054024e43c6a21cdd53168e983061852e";
  "0x06b4fd740021153e514839ad5ccc2797bfd5ec656dc917f41195c74728e52f8f";
  "0x0dfbc6cda9f9363092e20540eabed0947cc5a99af287c0026a3e34963d7a64e7";
  "0x29a47b624c3958b02c42967f72b1391bc03ba2b67954aec86b34a6f36f6d6e1e";
  "0x07449f23de79ca338d8c951ad4c4a0533ed4ebd2b9fe85f57d431df8c295768b";
  "0x28b64df95a334e8bf131e846b38396d789254d6a4cbd95a56eb5071946682f80";
  "0x2b62b8ca69c7b9ff4cfff7a8c672a0b2ce8c59b795cca61cd885db44aa79f883";
  "0x0d6e196ab314f5a7f2a08b1c9a7416908629c17dcc702af71016153d641a875b";
  "0x26783c6f043fea3115c77e68b266ac1f445e972d55110eefd2270d5ba519ff78";
  "0x170937d45f7cffc0c58608fa6e9b89b378507ed4f2c0ff413d0cb17abe6335e1";
  "0x20f741a5b0f3825dc35f50d76b201c9a60dcf20aaab24fe08c5d233e4a7b840a";
  "0x249d6949e80c4d3ca25dacb2242be184f6fc66a808f66b7c3aecafbfc4618f52";
  "0x19216930903e48a9bc5d88d4a7e748104de08a67e1ef166daf3af5e306d2e68d";
  "0x0f1122c6dd0a938d556d20c258df9493a7e0f2f88292ea267db4a81f936d5943";
  "0x2010f9196535e5c0f79887bf874c78a25884489f9e6d7712f98c0414e0ef790d";
  "0x12ada3a5de079f1f1398519d194fa0c23823fa692d4be30b0479f69f68126ab0";
  "0x0ba83bc455d81f3a165a22847874ee6253171ffd697f719ec38b21cf2673c93d";
  "0x190c59d8d29db65007cc4153a0934a2d7558540477c7b04dec1421b8a3a4da78";
  "0x15318a5ae2442ba588c87915a4319d6ec4af14f9957e959faf41a94361fb6d60";
  "0x1c07d2f4462c9e6fd5ad22bd4a98b8b1a8ee8ee4d5c006a88932307e83931e66";
  "0x07769e73d0d01190e8401661c16eb76c3d41929acaeb7aec8fc43756ffe78ba8";
  "0x2bc463d8116b490e6a99f45625ff3b89eb59af7d2d08f61a897fbc48b724dbd7";
  "0x081cafb6d9c9d1811b9ab25ce76202864dddea3dd6c5de03a2737c6c6744ca2f";
  "0x0fe37888822242a0c0c3eec4dceac8bc73d9a93ef81ef26bb09dfda4fa104ce3";
  "0x1074dde4c3d150fbca1bd12f8b42773b6e1eb645a64d69459cc88c808c9a2baa";
  "0x1edffdfd62173ff3ad153c8f931543b3ebf3bb3d5d318cccf8d6cc2785bee7da";
  "0x213676d37a012d74a5870ee2305e6a28bd56403a1e5f8256a8996edf4356bad7";
  "0x2fc25327ab1308e55a341553708134f907e4ac2de6738720227ce3ab72298b21";
  "0x198084fd84f6b12b300ed8a33561189a4587011c88344e3efa7a7f2690adb063";
  "0x0f4869a358d2d5febec1e97a040fa9c9a02b1ab1f7e7237a8630792ad1de9e58";
  "0x1428450f2b955f682c42215133fe3fae8771a1207dd65086df64d7f8065376b0";
  "0x1e3318733e0ad2067115565ccb1d20c253187cacbfa6f1d2a7c8b9e601738aa9";
  "0x04b3acae3c68c59e9642c792bfab6a1a7c9107652072f34132a34455f0390b97";
  "0x02d6b10a12e71b8a8bb058020a0736b73655ba3016f6ae588b2d2e711bf8b552";
  "0x122c47f8cfff2f768c10be160625512416da0b7f7b0b89c63982f4464e3d6783";
  "0x1c045821139f0b05c8ec0aa6594f8db66ae46d664ee74d3ff16583d7583afd7a";
  "0x2fcfe31563d4531b9eaca70beed62e7494f9c591ecebac48d88af5b795bf26c4";
  "0x01c0aaab55402c02b9033e3e2e765c8e5180bddb810b479a3e5f2939ff6e713b";
  "0x23576bc2c321249ba2ef2b42491dc416dcb2e828c052c2770f8e24046844261c";
  "0x2e8ce3a6f7d8cf0c44ab937f1860f667f9e7f30eb7615574630f3a30af1575d5";
  "0x2ae261a7244a4a6bc54470db50cb6eb72a4dade704224189c54adcc58f7a3c36";
  "0x16d97046c3dbf70a9c2b4984fcfa313536615dab244c1fc49cb89f7d1870d1c2";
  "0x0e8c836523f5b621f18cbc4b0bf3d9500162575dcaac76c52986d91b860e555a";
  "0x06f9144647d2b8712c2fedd1b91dec4d21b001f9dfed5a8b18279ed7f51d74e2";
  "0x21c73f4e29ce40df37551023289959906e0068dacd754fea3d10a558a3552085";
  "0x29637b3fbe0a239f854c7e2838e3f5a8b3de3d8b1a7795bb53170f8041c85822";
  "0x0765d4571c1f7ed6a8212bd6aa2d5349dbe4d837e9ec6ac73f56cee6e954ca6d";
  "0x14c0432919f3a66b421eb603604921262f41e303a956bf2a8e40dd9e45afe259";
  "0x2f01f170aab9ed36163471e9cab5915a065609ad4153306c1605984a47b50f8b";
  "0x018bc5d39b6be5a61b0f166be7949ac35ac1db645952f83838db257afdf37895";
  "0x27525eb67b8a7d0a94b3e0d5f951eb667a1c8fc0a147e0da4968eb7706b231b1";
  "0x063e5620fe15a9e95703a1dd1fa762f206e9f7886bbdf6e16975a0942bdc0efa";
  "0x2ff9c6749e3ad37183cdf7446b4fa8ad858faf7988f95c6b3e1ab784653aaf52";
  "0x2338b0a847254b585b9362ba4616ce7f1fb3d64a5ef638758270e6fdcffff458";
  "0x296f2979099690adaf52eb7b7a0a7c81870b3586e471ec5111fe463c4e1f1d06";
  "0x14b4a5b8297e1f7227593fdeab3ca21f8c2cb036dab9d42d3f2e2e9e6c095fe0";
  "0x2ac8fd0c305e808e615a71b35f0e0885ba54668eaaa8143aeb92c613007b46d7";
  "0x01e30bba67852d46e1dcbe52a5aa523b133b8b80c9c604ae3f3a83869ad0536b";
  "0x1749f848df2734ec416fee606700e30fb66b1c2c91d30020f65a0a18f2dd88f6";
  "0x2bbce44f1db7a05d748d85fd35f52e91d33555e181d96dec4b20b124248d24f3";
  "0x1c8b45b40fa8a2ffd3d0f645e29cc33ac57db56f851e7be1219aa3b1dfdfafd1";
  "0x30389cfbab40f06201c704501424c90200a391d2df2a5241c2672eabe84a25db";
  "0x01df941a90a97e40f8f4d77f3969f86b07cea51ff02c2344a438c80bfc97fcd2";
  "0x15569e3a4742e6842e3f4d342a1bb5dacb326f88767e98043c3aa081acb194cd";
  "0x293b84b23e4090172720aed6bd8457a9184921e42ab5e46cdd74fe303a1d515d";
  "0x2729bb7942b8f51d6dfeb944fcd6abfac3a99f5327fb47e600aa3e577e94eb05";
  "0x12d27c6cf1defd3cc24d8005de3a220a0837277cc39b32c96f80d81728c3b568";
  "0x18e277158e12892a93a8b3a44b3c8766665932382d72079823ebd406701e1e3f";
  "0x051cc980e75b6cdd4020ab017567f16ce008a7aa69c8052b4ac220bea56a6b8c";
  "0x2876b8674ff43f7ad980a4585724829d12921639ecc727ccbc2ab3773f405c38";
  "0x1f93d4da1f1dfaed699d6c3b951acd242706e1376e801abcdaac9288c4654115";
  "0x02affc28df82badbd5b88cd8f7b9559e162f195849ef2b040c36115298be4dcd";
  "0x045df577d81c5aa07484a1399f19f71c38cdce3c20cd3ab18659139f295f8e98";
  "0x0052a695d6ed00aaebd2d7f5026fba20c0317c01d52047a39ebeefa41503d28b";
  "0x2e0cfd16fa9b4659b1ea76a63ad446ccb68098df459480ef45ad5e09192e2269";
  "0x0a5ffa7c650d9943682af980571b905a2171b357de832d5789d5dd66d989fbae";
  "0x0865973303c34970709aef6802f3a7111c52e7ab2c6f49addb97df16da8074ce";
  "0x2a146ad8b7d155e2bae227fa5903100dc00aa91accfb59bbb296a7ab2af43723";
  "0x0701fa422fec5b73a1ee4b40e8e2343cf6eaf17f5320c42fe7e314a05b0e22e0";
  "0x020531d8b1dc5f9699ff771c5cfae4366d402189732b8f8737dcabeb111ce8c7";
  "0x03867fdd2a6673e1b50abc5975d7316950d7353b8015352a423c21dc6990ae72";
  "0x22290eea63dc7d64cb68d612f81b8cc086acad4e1770f2ac39f772a04b78eb35";
  "0x25f7d80c5b1a7983db95a9bb1ca87fe5ae512cc2c11f1bb71422fd5ecf00c225";
  "0x1e87f2b4c62187191aab472d5d0a8d9e9a09c99de333e8b5598fec555c6124c3";
  "0x0d08367a654f496ef7922a0c29df53c483795a40fb8c9e4c8c1b808b58745706";
  "0x02b740aec51ac3b4f72f68c9ce980c6a742afd263923d9140babc4420735983e";
  "0x2395fafccb44dae94b745704245dcdc3a40deb42140d65dac5ee1ddf518da0cd";
  "0x0d030aadb6b1724255e5d0de79d5b821bda23aef00839e3734a8107706dcf527";
  "0x261a1c9653f7b0864b96482423b9028826f8b023a7c8be80c71685870dc048a8";
  "0x269b620c6a110d0d6454428e6dcec6c38fef4bff8c824e7e10f9cd816447a789";
  "0x20a8d439d69e8c09bc7e2089227e4bc607daf1b398b7622d447eb7b22e9c4028";
  "0x2cfae1f6f8146f4647891fe70599be52f3e8e36056acdb699aa85c7e3a178dda";
  "0x2531be82efb0f032b83574f6d79cfa492d8475ef3b823a60c44684882e1bee47";
  "0x1caa6b56db0f92c8170b6cfb7df29177efc297ae771aabf3049b5741320b614c";
  "0x05efbf306b5702832578594e04e8406338fb04907726a0c075ac9098e6803e60";
  "0x054beceb211f563e3cac740762d3ad69155d2bd318239fa5eaae4f32b6161f86";
  "0x20f1080e0faf42dbd458da33bea67f1005eb3cfe7f1add3498750513e2582df5";
  "0x1fc913984207e4b8e21dade742ddbf5296878f1c680b17577eed2e7ea0d3b1e3";
  "0x2c3457d4cad0ae6a4883dff3811ddf0700e30fe22594650365afe4c3d0e249a0";
  "0x2192b63e7c770d06c59b2c81c928ba9356f67f6b53b53d73445b37efa19466c6";
  "0x2c79b01810a81e835cd6abdffcbdfa8a6f55a8a9b81a471ba53ba9c34c47b408";
  "0x0f6b85a6ae3552313f838aa4db3e2f15bb0261d02d887ea81b1fb4d78fa7c681";
  "0x215a51aecd7842b318c3a4e51a71fd40fd3a706005c0062113a2b082e57d9b68";
  "0x250fc765d8a0bddea524d57205266db04f695f992acc1b1ee3015be38c7fb9ab";
  "0x2574ad69c3a7474490b9a51c2ea6c60d6a8832551f9a016e6e4b23dafc9b368b";
  "0x0b1102260886e6a8e30c158c651cdb66bd65aa463e42a054ef291aef8826da39";
  "0x1dac46b2125050e63eb3d8c3f8477e68c3d05c5119a038ec13d3a12f819fc931";
  "0x26d7459e89e2cb173b2bf9bdc2d125d993d18d84e1f4b3235ecf36004c1d0161";
  "0x00eb89d6f592494c9ab4483dd34e56363c361e27b89f4a1787ea50e551ff1482";
  "0x0208dd71381f0aff1b67ed86e14e3f67846d7e9e0a68ed47216124cece5cc1ba";
  "0x26c771e9bf45c944cd77cabb7d4c9781a9ff6c9f8f2c0715aa0f2c66a5018ceb";
  "0x0877be318908d2a7259e0f82721855b6c04cec8eb5e814f295a8d2852b7086fe";
  "0x1a92f613c92e683c09b46afe45207e4d9e371d53a598101ec418c04bff06acf4";
  "0x1d7773fa877b2ba4f7cb59b13bf017c049c8f4d9ac49d55ef440829e1047f9af";
  "0x0a12264ece5228741371e25a99c4a8311966c3b0721c16a84093eef528444f95";
  "0x16aff0c83cf0a3468830e2b6b54865df9c8e7873966ed26997f4ee024a707af3";
  "0x2faa26a4c65fc961e0b300e09fadd66ed11becb8617c87ae3bbab65f6f01dda1";
  "0x2aa05432c943293b075212c57e3ee8ec3d767bae5f11173b50e1abaacdff8cfb";
  "0x1df4332c22abe87afdb15b274d2b4c0c4264d65f89b779c98988a9d9f974c4b8";
  "0x14d295e044b969d03686621272dd0b77280b180be4b27bd485ff1423e3355456";
  "0x074beaff8e07450d2304f71370b9ec6f705730258cd61e790ebc1cddea0b245e";
  "0x29f028763e86761f9b1c96ddb2f16c5c151ed733e61cca30a6dc62e14f384704";
  "0x2a5d5b0e8a4eb2bcb07996b4d69fd979a9ac29b9720354dea621cd2fab2afbab";
  "0x23f996c26a55fb1fb4ef8d52b0aaa745ccb11dd26641c4ab889a4712b513cbb3";
  "0x14de7f00121b3fece59f5a96bc310853a99a19f6b4918cb7ef9ad711488f0c3f";
  "0x132f8c03f7481acff7f256279c91ac760ea4f6330ed15e09458c4a2683946491";
  "0x04ea68c782e1258365d426fa8f22440d3f09851ef805f7bccb1aaf2b402dae6a";
  "0x0dc3261b30da672017e762c09cc38a88c279e88f47d9e3e5d500acd69d190d81";
  "0x19019aa1b7aa0b91fd3f7d23246f51e92edd3c36a5de747b99a302d853bce08c";
  "0x2da30244646f4252de0ab59c929a82cf7d5af2ca6bfca856be710edc921e4536";
  "0x2da95e97aac1dc791e1ac6c1bcbb0f906dec5512e1519e984e1ac94f286e6209";
  "0x0b80f5bf9a4fafdcbaae88788b8876868fd3d552086c9d31fbf6d3853550a638";
  "0x1431f816a86574d93bf26cdff68c51865e7bd5528c44ff682a98ad27acdf5a79";
  "0x175838b7eb892dc23f32c28179ab684a6018d941016bc8b08c527b3af5992c6f";
  "0x10d176e0ec5b415285fa74a03cd2406ac9c2eb50ac6a73ccb04e8c13f4215cbf";
  "0x2806ed1c819835769591240027f92b3555d0a23e3c1c0272494a7672634bae7b";
  "0x07730db50954f411513c549a6f0e32eb138f8877c27216386f2940194448e2f3";
  "0x2a3668507e52167d9097a3583891ed25f6cc4a3007776310bb607eb444b41203";
  "0x0a81134fa2e0b904858892b9e19bee5703de023ceb402980731bbcb193bb65f2";
  "0x025408792a8e7bcc0441b372e95e5f0ec96768a7ee6b20ec8ab1419e34de4df2";
  "0x296581f50a9d58b5fe68ec3cc08aa89dc08055927b388a6e5413874403fd2105";
  "0x089abb4233db666b4f37b2536551f44a9ca03e168d16250aef246cf08248b4ea";
  "0x2e8d689758111d9978b056f9f0ea29f1bc49829a28f0ddeda2fff116628c9fba";
  "0x285c243b3fe4ad30b217b5d234cc4f1e7e8a0a05cc2c6335eecb73fcbb93d1f2";
  "0x151d91bb720a1099afb35ee32acb9252c083b2e2a6e1172814a059156845acbc";
  "0x128381be4d7dc0b70b87a732260d22bc6ce2c247d7f300abcfaa6726bf3d462f";
  "0x00cf8a400267791c997a72b6d760a4a3e0afa01791fc0f6702e899bce4d3a757";
  "0x1687f96f6aa78c94e10f8a0e296c868705d0fc16b80e7b1dd08ffae4a15c3e25";
  "0x0620d94e68e026d350ae4e18797b77373ff0cf580bd2eac0712c87cf24280185";
  "0x03ec9f5bc08fbb9928dbfd8065652183dac82dd6a050b520dd8e360020a39df1";
  "0x115ebf06dfe6f322d37f01e38770f1718538f3e08a5b49e6efe803b674662378";
  "0x02bb7e4a21acb9098cda57fa733a2e8933d84af1e68664e05de7cb608b678c40";
  "0x117879f5b19c12a46ee187af023545f3e11a5f77962fec55a1f3959773096407";
  "0x24b34021978474d2c50e12d75680cbf9d98620e7717daa4648fea22b200888f2";
  "0x01f90d8356edd94c37b04ebd7340b2cf08fd7cc64a1f1f8474eafd36a7af3d36";
  "0x090235ff9bda4eb36df4fd00757031e4d7cd9a9f9a9d724f5c5b49fdf68665e6";
  "0x20f0ec689c535663e985d8d44cca83251d327106e0683caeb21ece6eeacc3326";
  "0x093aee6ff4e0210af4cd4cd3a69836f168b627d1fdfe8aa5fa7532c208a4025d";
  "0x1f8067d05b15e5a183d4fa36519c6091afb8dbaa9ddffe4e8f42d1891b7bb942";
  "0x19f02d3e42724e4b5a81c0ea9b3e673f9267d1230010cb5a8db653467892c8f1";
  "0x2ad57a1269dc6d2f3f6fb7357b583f1afadc3c43faa2dcf6140985eb90e113ed";
  "0x0f953c207f5f00dc8524025672fd965c9122eb7200ac449192788a58af1cbf84";
  "0x224ae3951afb60fd5f69add430b6d05483a0963e3aaed645f2de0e37fe24406d";
  "0x151632cea16a35d5fe8b25039c594f232bcdf56675e89796a17187da378d16be";
  "0x0ad8d1bf7d94454b593c918d340d1cc0fac21646f94ef46ca89ebab277173316";
  "0x1db7e1b349130b2c6e07aadf8ae1ee2c10ea3887f14c541ae76ce89e92669085";
  "0x09839811c8861e29ed900454a7d2ccbc89df3eb6a10cee25285e081c2197cf67";
  "0x2494559f57e1563d6a8c84fb67d9cd1610751a48c1de519a6366ddbc4b829378";
  "0x2a82d2a122cbb235ce3d4ff5abfe419869471239006dbb99654ae150dc0b23dd";
  "0x2baf1131ea6d1539ffae332e073909c3204fbb5ecf923c330cee3fa5912231c6";
  "0x2ccd34c478ef034f842370d72450d76997aac2b1215e94f7329af7d00049b74c";
  "0x2ea5e34e3ef25984a98b2659c83dc58ac8a68e151c36b7c1c6436ad0adda8c4b";
  "0x0af21cd8feda203f5475f213af092e7821c22ac2c6a58d26b7c8e63e00ce513b";
  "0x0bb21d93c1b36f11b313a56424a2c753b322b82f3027ac5329e1c9be0cd703db";
  "0x0a580bb0553e6795d78bfe4c31fa7cc5266d99903d2e930809356e9371bd3593";
  "0x036aa6600d9e2d4661f462350b5e4e003abbad048e5c30c9590ffb78ae219422";
  "0x0867c84c5fde72445a465ea45e59f937b76a3f74a7596fae34adc7ef6d0ba585";
  "0x072d7b525faebf1ed751f1e692b1735d6ad3547b8c535d0b97f360b69762fff1";
  "0x205f64201a4369951dc0bc527c6d1053e95491b3cfd1ae4564bc4d9961e0c52d";
  "0x191714cb28d34b69be150bee7402dabb37ab094d7ddfc555fff51f7f694c0575";
  "0x21da8ec3a4d6a085ae8386c82cf16fb2a4dc5ad2b1397cd1b4d05e2d16e2befb";
  "0x1dbf09a6511670e2428ea680e2fce58104a1cefd2555e49abeee89c39a71fccc";
  "0x25f3b9e4044af092327d2408795a59b292bd1b5b2405369f2c21d119b19705de";
  "0x13a8d3183cd22e6e88a9e9fe0204ec9be11c3ce49c0c369ec8ff6386b4dffa17";
  "0x24e80512db55ed3e7c4b41fdec6a85c126903d806e919bb2e8011628ea1b7a9a";
  "0x22fb902ed515628308f797c69e893ac2612cc75647cde00ff7cd1b1f647533c8";
  "0x2a4dcda410a768479498a85e5a37213c8dace5cdf1dbde2494c29527fe3a69b5";
  "0x0eeadc5b44e93ca94087fbb13e95f420144548fca701a1eca02bf6e62b6b73ed";
  "0x080362806089f6fc55c82701ae85280fedcd4cf32fbeda8c53741fdcb9ac42f5";
  "0x12485b6f6f91307dcb18500373bbfca93828f291d109b484dda10245729346fb";
  "0x0af9ad70995828743ac4e6f7fa7995f2646a193033378aa5db40b5610e393b6f";
  "0x278cf0545002577eb9fb52f3c3351fe85c09b7f563b4f98a13a9c4e41c75f318";
  "0x02352746b3c30c8666304d150964c18ef6d60f4fe784caf979d9c171caa5de0a";
  "0x2d31d6200c8681e52f82f0499aac6f71f0a4b689a824581b1292d06dbfcbb7bb";
  "0x23c231840f5161283517dc3b5dcfa10c955ba1fe274fb016abef8cee96de7b9d";
  "0x2c68b0797f56ec466902e461ea0c815844fefa8ba151901cf67357d9e0c05b66";
  "0x04a3cec562ee2cac345e4d6473ac9f08275846e6c299dd4b38cd27b11dedc014";
  "0x0813392d7dcff823fbb6c6c775074f6fb1992e6bce85bf59558cc1765c59c4d9";
  "0x04e2da4a2e35256ec592b0f31d9279a258383a14270d75c9d5e177e6020060c4";
  "0x123c532258f1bc2159dbbee2d0c7604d97acb8395075b71e5e72185938be9840";
  "0x117d31d6a57ae6456495c47ed54b664b6b1cc99a0767de34eb2133db7cadfcc6";
  "0x1abc5b90058af2fe8d76231a70c565f5e8335ab3f91187bd929b94c83b2060bd";
  "0x13e240d340fd182e231d43b3fef87f9d34580e82cee049a6faaee28301e5b683";
  "0x1efd9a3e27518e6d789dd0394b5fb77e5096d553d6b5cc58f3a9b188ae6edde4";
  "0x0b161998a526efd5ed0a1ab3b40564a1c8f00979f5dc7ca6f67148d4bdd9051d";
  "0x092f7a3cafc92fdb4160059244e53629008de4790cee79ba746ac5e24e9cdfee";
  "0x240630df8ff3478c02ddf52a4b737bf6342c909d998167ae9c89b26aaea37a4c";
  "0x0f1d0493a05f1fe257bd798cd130b72600905d4c55a9021ebc8ca2d1ef29c522";
  "0x010c457133470ad74e675860e89d5128f5016c3edfd46fc086c6bd870f681e13";
  "0x2868eb408d1ea218e2ce83db5e09283539eb53777ac740951d12f2ccb5a7e973";
  "0x032c5fe9c8ed99063972838d8d30119c14075f97f4543b5e408496abe3616798";
  "0x0c80e7152cb910aaff64ada21f726c91e44f17fc7de67adb14039042237abe13";
  "0x01826ed6983979d7e538a49b5bd5d5ea206d3e4c48029e594137709a18c68183";
  "0x0362c328f063d6b1fa5632dc628039e6882e3d3adea7e258640a7b4b288bbda6";
  "0x062622918cd0990fc3cea3a16ee3c7a1796a5a352624e1c068fc9fc9cde898d3";
  "0x21fbb7aad03d1ed19e11e95904ce497ce63835916ba5705fdf333ba80627cd04";
  "0x1cf46ec86a723624b5383ec1bb83e40430abdb237233bc171e8114a131e5f329";
  "0x1ed36ac0a4fcf536e23266d37da5ad1e2dd44c0a4f3c162005e3bf050ba286ce";
  "0x0c5967714fbc06ceaa506af67145b87b1a894b9cabddda513ee86c640c06e4c6";
  "0x1136503a80bf203b8dbe60abffa5985095607ac834c781798f9610e134fe7802";
  "0x2cd0a19181a4f3d67a969deeff41db03398be5ae10e08fe86443f14256bec9fd";
  "0x17725136cc13ab9a72bd7d54aed13df865daa98721835504a4807923ca5b5e1d";
  "0x0d721cba0aa72783f9776a28724088794b61ee5c1d23b34ddd63389fa5906104";
  "0x1cb85825a78d85b4962cdbd1e68af07dfa44820e8bc3100f9fa59003fd709f45";
  "0x24fdc5d265a097d31455ebfaa1e00e30442be6e688621f9ee7667f9af5bb2ed3";
  "0x1547328347f0954633649e4240f5e2fa9159e1306fe059ca1480aba22ce071e8";
  "0x0160da3283d1d4f5c80431c6cba131312340c9e486d768381ff4e029063dbbf6";
  "0x24169ddbd6e1b3a6a11713cf8a7a0b36ee5ef709527ee3943b3d0e9c6e82d39a";
  "0x136818ec48f000fcc95c3628c6206ac33a32c4a82fcd92aab31fe626c86e3412";
  "0x0bdd31f2e58eeb82ea91840cefea4cdfe49de207d98596d0ad3b5b01a8bf1194";
  "0x06b3978b23abafa1ebc2eb51b25b8c10e5f0606358905d7736e9742095f7af00";
  "0x08ca53fdc57ef525c635c6a58af7423525c94d0d94193d6bf281352463a5db6f";
  "0x161cf939ab55c7bc3b9457ccde010e45c11ae3533aaa38a9a49deac713b00780";
  "0x17764c3d5db746fe1134d728c7cbbf964c3a34539046bf1da3d6773a73968fe0";
  "0x06498ce93442b0bd2b62958a528e1b9a18aa7faf6c94ab2ffc230e8fccf9e196";
  "0x290e16e51a2fc4a13bb1f1b6bc43db8cce5333489f986b86dde668212f20bc1d";
  "0x025e15e816136070ac725810d7551c207d6bd50db49d83f39477aca9790bec68";
  "0x061b396485c93c38ec7c2a1d943101dcace5254161d9bbd20c71e84e5476e419";
  "0x0bcf0e1e7e7d92b56c0903620107e169a4c3101e6acf9e12b4edea46fcbe53c9";
  "0x28852df83d00df67ab97770f6875fac7f7bac47980fe30c6b65888f9fd0ed651";
  "0x2f26cf21881efe6eb8a5a16e201b26d90138228e61128649e2a43976f7ce3d40";
  "0x28185d949b0d344fd8527cf4610ff37bdfa665156499ce205ea571bb6a2bbc3f";
  "0x174b975bec6c20daadd717cfcd7f75c3983395d4dd43883190f4687ba1ed1854";
  "0x2ef2e0f3f99b80f0b2cf3ac256e6f8d70653f4a4183573545e8c0df21132d52a";
  "0x238ef54897b1dc3e0a90e2100c1505531f7bba765808f2f4543bad0b2d8551d3";
  "0x0b95476d0cc32118f402032bd0cfb682246516b910611c57deb8a1b8d53ca49a";
  "0x0592618796afed0dd23dc83e938219f522ccaa4dcc220d285b40bcf90f3f58f3";
  "0x2ae2488a022c67ed1de6d2e18819ef1cf4c844b91d8482f719ed7b298670743c";
  "0x1437b10b23ae2f8b252502a5a74b69652bf92ffc85c12107a79cd41be17b8374";
  "0x295058eb846d456234537e5172134546916a1538abf5f8ad872c8d8e8546b833";
  "0x2a5cbd617dbfbbb4bc6b8b0c1aec6fde7e90b414d53b7cc068ce2f7823e5c46d";
  "0x11d4da4b15cced5af7007206903212b1bcd4d8a5789dfe73754d87c885c12a38";
  "0x13c32f072d91991c49c5767f4c56d18cb85626eafba62e72250f63ced503cdee";
  "0x0a208771be2a247a78e7f5ca9ddcc16bde1c0fca5e7a3a86e5feaec1055f31b3";
  "0x18bda04fc1d53ba5596f6aa1141bc62ff605bbe098f67c0b93be8ede86155ee6";
  "0x036d0cb4163b7ac700426d18c2c3fa30e9674826e2a9923fb83e0577755e57f0";
  "0x173eb5863e7b7b9a8f36c3fd04cfc6742008c5292af28d860fef4ee1c58967dc";
  "0x0b08f05e562f5782b2eeef3a6873fdd78763e0f2b6cda7ad24b9a46e6510d894";
  "0x0aa103cd7a5ba5ac5eaa260f6938349a5f9e0347b228994812a7fa668d63f181";
  "0x24b9877256ddfba151d4f63522f81b887dd1c2dca09a6da5651e9e2756296467";
  "0x1a2cba623482e75bee2c81bacb86570ee6a10ccc041a3e796a9b13c8480524d7";
  "0x0c335f0ba1941e69657008db26898b7abb560f343628401ef09999862796cbbb";
  "0x2b18793f3b5ef5fe81583014a4496ff83778c2db71bdba3da0d91914fe47b2d0";
  "0x2877bf20e78cab69ca2bc52a502205d3ebc58a887baf9d642f91d86116bf3c08";
  "0x040947afe30ee20dc10e7a65fd652c36f3126e3bf528350b2916a0b162d14dd9";
  "0x01d8c2ff271f078ca16ca82daa9a26c5bd0092646f7acf01333b1e83b63ca3d5";
  "0x03c4008b7af55877190f05e13f9c1bd9a5f920b807d230d1b7ce2981fe5c2aa9";
  "0x2996a61c647f05b8c97f7e47936607dbde5740ac9a710adc44a7915cc819a163";
  "0x07f845097d3365b26ce4b635310957887d1dc0c88d43fe1da589ddf753846324";
  "0x29e5289132bf5040d654050902e59731ea00a7654311e29e91467a5b462a093e";
  "0x19a91ce5717b54d341f16a477c7f567285d51c16544743da3450128ea37da547";
  "0x247be82f575e27c7c30eade2a7ba803c443100f2beb72fd781709521c373aba0";
  "0x2b045e0e2cc760e04d86b9829c723ceda7c273d102bff4ffddfcb1a35edc7168";
  "0x1b1f4d790a3de5ba02f0c2dd06bbdfb92094872e0ae6bd82aa2e40a00e7c639e";
  "0x2e8924b94043e77353ad898ac61104e47981711a508f4af46b108040e2c7a872";
  "0x17e42ccb2c96833403b1881e8557d238271e1b3ce71a6f8004345de1c4302c4c";
  "0x1b697d59893ac82bc0adc62e2771bfc92a8e5132dab81fb8789d60ae8f829995";
  "0x06bdbac1ef26df9668e471a3f0d0712b952b8ac9cd1012a4ae00bd2fb07be592";
  "0x29c474fb52745ab3530c2613d86ae854b6cec9b8c224a4cbbfdb96fd79050896";
  "0x149279eb70575f4aac70861f98609e0370ec8a10fad3c3d24b742ef07bd7e128";
  "0x0eada110dccdd1af034646cb89f743ecb437dc4fd5d1a96c694ddd438e3b6e92"
].

(** poseidon_constants.rs 1843-1943 *)
Definition BN254_MDS_ENTRIES_W_9 : list (list string) := [
  ["0x2b03d3f456650025159cafbeac013219ead8ce794fc1479d91ac688380000001";
   "0x21dfd0839da2bcea0104fd995aa7577468f122992201cecc15eaf8b45b333334";
   "0x1198d6b56929518388d75f2b17d1f1963d2a25ebcf2c28ef01697092e2e8ba2f";
   "0x2c5bf293f91828263e49953ca1613baaba2f94ed1a3f51da7e39cbc79c000001";
   "0x2cab5c1b46066c7547ac8f1e9eed8ca4c2a6117dfa350572660ba79c40000001";
   "0x0374e10834a81db9d64ee06876f6f406a7716c052d441a5384d94865fedb6db7";
   "0x0673c631735bf338c33de7296699c783e33a1ef898c36457a2a6a946eccccccd";
   "0x2d5e098bb31e86271ccb415b196942d755b0a9c3f21dd9882fa3d63ab1000001";
   "0x111457ec4f7aed3be6b2eb6d971e97a8688aca73eeb9eb7e906dde3436969697"];
  ["0x21dfd0839da2bcea0104fd995aa7577468f122992201cecc15eaf8b45b333334";
   "0x1198d6b56929518388d75f2b17d1f1963d2a25ebcf2c28ef01697092e2e8ba2f";
   "0x2c5bf293f91828263e49953ca1613baaba2f94ed1a3f51da7e39cbc79c000001";
   "0x2cab5c1b46066c7547ac8f1e9eed8ca4c2a6117dfa350572660ba79c40000001";
   "0x0374e10834a81db9d64ee06876f6f406a7716c052d441a5384d94865fedb6db7";
   "0x0673c631735bf338c33de7296699c783e33a1ef898c36457a2a6a946eccccccd";
   "0x2d5e098bb31e86271ccb415b196942d755b0a9c3f21dd9882fa3d63ab1000001";
   "0x111457ec4f7aed3be6b2eb6d971e97a8688aca73eeb9eb7e906dde3436969697";
   "0x2db411339bcb502766f67aba96c1453b89865b60e4bd5c176ac72f0bb8000001"];
  ["0x1198d6b56929518388d75f2b17d1f1963d2a25ebcf2c28ef01697092e2e8ba2f";
   "0x2c5bf293f91828263e49953ca1613baaba2f94ed1a3f51da7e39cbc79c000001";
   "0x2cab5c1b46066c7547ac8f1e9eed8ca4c2a6117dfa350572660ba79c40000001";
   "0x0374e10834a81db9d64ee06876f6f406a7716c052d441a5384d94865fedb6db7";
   "0x0673c631735bf338c33de7296699c783e33a1ef898c36457a2a6a946eccccccd";
   "0x2d5e098bb31e86271ccb415b196942d755b0a9c3f21dd9882fa3d63ab1000001";
   "0x111457ec4f7aed3be6b2eb6d971e97a8688aca73eeb9eb7e906dde3436969697";
   "0x2db411339bcb502766f67aba96c1453b89865b60e4bd5c176ac72f0bb8000001";
   "0x028c0420fe60ed7b757d7ceea880121fd9b1e3cdeb758ca9546a3558a0d79436"];
  ["0x2c5bf293f91828263e49953ca1613baaba2f94ed1a3f51da7e39cbc79c000001";
   "0x2cab5c1b46066c7547ac8f1e9eed8ca4c2a6117dfa350572660ba79c40000001";
   "0x0374e10834a81db9d64ee06876f6f406a7716c052d441a5384d94865fedb6db7";
   "0x0673c631735bf338c33de7296699c783e33a1ef898c36457a2a6a946eccccccd";
   "0x2d5e098bb31e86271ccb415b196942d755b0a9c3f21dd9882fa3d63ab1000001";
   "0x111457ec4f7aed3be6b2eb6d971e97a8688aca73eeb9eb7e906dde3436969697";
   "0x2db411339bcb502766f67aba96c1453b89865b60e4bd5c176ac72f0bb8000001";
   "0x028c0420fe60ed7b757d7ceea880121fd9b1e3cdeb758ca9546a3558a0d79436";
   "0x10efe841ced15e7500827eccad53abba3478914c9100e7660af57c5a2d99999a"];
  ["0x2cab5c1b46066c7547ac8f1e9eed8ca4c2a6117dfa350572660ba79c40000001";
   "0x0374e10834a81db9d64ee06876f6f406a7716c052d441a5384d94865fedb6db7";
   "0x0673c631735bf338c33de7296699c783e33a1ef898c36457a2a6a946eccccccd";
   "0x2d5e098bb31e86271ccb415b196942d755b0a9c3f21dd9882fa3d63ab1000001";
   "0x111457ec4f7aed3be6b2eb6d971e97a8688aca73eeb9eb7e906dde3436969697";
   "0x2db411339bcb502766f67aba96c1453b89865b60e4bd5c176ac72f0bb8000001";
   "0x028c0420fe60ed7b757d7ceea880121fd9b1e3cdeb758ca9546a3558a0d79436";
   "0x10efe841ced15e7500827eccad53abba3478914c9100e7660af57c5a2d99999a";
   "0x126f5ad66e2b493476fa022d25251578d25ceac646c08c6819dc2ccaa4924925"];
  ["0x0374e10834a81db9d64ee06876f6f406a7716c052d441a5384d94865fedb6db7";
   "0x0673c631735bf338c33de7296699c783e33a1ef898c36457a2a6a946eccccccd";
   "0x2d5e098bb31e86271ccb415b196942d755b0a9c3f21dd9882fa3d63ab1000001";
   "0x111457ec4f7aed3be6b2eb6d971e97a8688aca73eeb9eb7e906dde3436969697";
   "0x2db411339bcb502766f67aba96c1453b89865b60e4bd5c176ac72f0bb8000001";
   "0x028c0420fe60ed7b757d7ceea880121fd9b1e3cdeb758ca9546a3558a0d79436";
   "0x10efe841ced15e7500827eccad53abba3478914c9100e7660af57c5a2d99999a";
   "0x126f5ad66e2b493476fa022d25251578d25ceac646c08c6819dc2ccaa4924925";
   "0x20fe9294252d78d6a093d270cca9a4f9b2af071a2472ccc022a5b31369745d18"];
  ["0x0673c631735bf338c33de7296699c783e33a1ef898c36457a2a6a946eccccccd";
   "0x2d5e098bb31e86271ccb415b196942d755b0a9c3f21dd9882fa3d63ab1000001";
   "0x111457ec4f7aed3be6b2eb6d971e97a8688aca73eeb9eb7e906dde3436969697";
   "0x2db411339bcb502766f67aba96c1453b89865b60e4bd5c176ac72f0bb8000001";
   "0x028c0420fe60ed7b757d7ceea880121fd9b1e3cdeb758ca9546a3558a0d79436";
   "0x10efe841ced15e7500827eccad53abba3478914c9100e7660af57c5a2d99999a";
   "0x126f5ad66e2b493476fa022d25251578d25ceac646c08c6819dc2ccaa4924925";
   "0x20fe9294252d78d6a093d270cca9a4f9b2af071a2472ccc022a5b31369745d18";
   "0x12ef9921d28dda7fa12a8a95541138d68a2a928baa10e943f92be5a931642c86"];
  ["0x2d5e098bb31e86271ccb415b196942d755b0a9c3f21dd9882fa3d63ab1000001";
   "0x111457ec4f7aed3be6b2eb6d971e97a8688aca73eeb9eb7e906dde3436969697";
   "0x2db411339bcb502766f67aba96c1453b89865b60e4bd5c176ac72f0bb8000001";
   "0x028c0420fe60ed7b757d7ceea880121fd9b1e3cdeb758ca9546a3558a0d79436";
   "0x10efe841ced15e7500827eccad53abba3478914c9100e7660af57c5a2d99999a";
   "0x126f5ad66e2b493476fa022d25251578d25ceac646c08c6819dc2ccaa4924925";
   "0x20fe9294252d78d6a093d270cca9a4f9b2af071a2472ccc022a5b31369745d18";
   "0x12ef9921d28dda7fa12a8a95541138d68a2a928baa10e943f92be5a931642c86";
   "0x2e6020836d24e427fb4ced7991714a03f131be9ac9fc6135e10de0adc6000001"];
  ["0x111457ec4f7aed3be6b2eb6d971e97a8688aca73eeb9eb7e906dde3436969697";
   "0x2db411339bcb502766f67aba96c1453b89865b60e4bd5c176ac72f0bb8000001";
   "0x028c0420fe60ed7b757d7ceea880121fd9b1e3cdeb758ca9546a3558a0d79436";
   "0x10efe841ced15e7500827eccad53abba3478914c9100e7660af57c5a2d99999a";
   "0x126f5ad66e2b493476fa022d25251578d25ceac646c08c6819dc2ccaa4924925";
   "0x20fe9294252d78d6a093d270cca9a4f9b2af071a2472ccc022a5b31369745d18";
   "0x12ef9921d28dda7fa12a8a95541138d68a2a928baa10e943f92be5a931642c86";
   "0x2e6020836d24e427fb4ced7991714a03f131be9ac9fc6135e10de0adc6000001";
   "0x2a95b5acc62baba9d5655c113ec3be66754c660256a32fdbfe4bf6d41ae147af"]
].

(** poseidon_constants.rs 1945-2531 *)
Definition BN254_ROUND_CONSTS_W_9 : list string := [
  "0x20b8e1be8ea94ea6d605717a3c3cca8a0c58c744bc5fb8b6c80d65f2e2e3039c";
  "0x21b877d25aed648de30ab32cc340394e560ff72bd4d74c93213f503fe631cfeb";
  "0x09905305368399435ff4067410a79606ba5675d2cd073bc25d308988a6f498d9";
  "0x1878085d07a58a7716960d488f845628131c9ece9e8c75653daaff953eda1356";
  "0x2633012c14625cb65f6cd48f06a3a905a01040aaa466dafafa2f42cb1b71720c";
  "0x1fd85c04bcac8137002cd1ea0818e57160d623e61dc0a10492c1f0a1a5a67c96";
  "0x2bb695e7cbc75a3cfa836765d5a262817928c3a4a503267bc76804b48c536a67";
  "0x022e58c5236b531a74e56f5e25ba4f7e1b68e1d9ab31d73b4d3d4defa837f591";
  "0x24bc3e823ae7574d70af0c3f646a6761159a7649ca4b2766c5c1795d56d03758";
  "0x09bec99e058dad5bbfc67c1c4df859f03a62e5e59fa289dc64522d47c8f71126";
  "0x0e22363eae6ee25f718d559b7b0e6cea0afc688c0083b1c0d46cbda42987abf6";
  "0x1fa6acfa869345d6353299cb7561d13336c792e29d14b1eddc01ba7dba17130d";
  "0x0bb88f2cbcc14be6018a3fb417cba60408c03b1d45ff682f2f8f39deb22966b7";
  "0x0be01f289a4ce85b38e618e48d1d1f8d7beffe02ef354b19e808cac1379bdfc7";
  "0x097abbb44ee9c6c4fa5ae3a875dc3440912f9b5b32dd4421c2b3fc4fc29f49e2";
  "0x0098083c10d9ac9b4505f416fb973e74039b121aa2da8afd743a61ea95c92167";
  "0x1d11e456394ba2dee301d2a7dacb97528118a10e1ff771d13115b7d82727bb76";
  "0x097dc0b157d128c18694d7126b433315784ff7781bd628fdedb27b579cdc081d";
  "0x23b62dd7239c21d0812052b8f62d5f9c28aa030db4ad4aaaeaa203e695c28b01";
  "0x20819749d24457f1c8934acb7a7265cb1ff0454078e3984cf1e709e729528f1d";
  "0x0333511a85681213ad21ef139f020fd6150277d364204b8d92715d1db92e2c14";
  "0x0c62479dd3df7e072dbcf534442c8991891c0a693cb333f32c8123bc1c1d5247";
  "0x131784fb1daa7e57f9217040f47469bd4a88a79ab47bc0fb349cf8dffb459d76";
  "0x2be7cf57b64c4997690648977e6cc601d8c8c331e21207c5d481d1e34752ed2c";
  "0x280cdeb2318c8d4e22d5350825833145043f3655a41cd5cc8f0b5bd1bb498610";
  "0x260ba0d3614ebc857b41945f490a71fbe638960a7660d440c48a67e9aff44057";
  "0x003d8c425351dbeb14e6bc2c3542369dadfd13dfd74c6d78a86f429a20fdf754";
  "0x23077a54ac4686d44eccb91a8f39fe5f184c4ba80bad88f827a83c394991462f";
  "0x2105c7b7f506ee5ea399dd1799e5533455260ee174915915944d8c9bba0a3350";
  "0x1347a128ca310821486b58943f02e9a2022768ce6db10be02b2aeed0613f3d82";
  "0x02983faf71c14c03dbee3905666f8a90d5dad068a90c10fb1f8f62c646609afc";
  "0x0a74ec65e38aaf6bd997f7ac0f256a3761e25ab625968361636c61ed544782ef";
  "0x00215dba15057ad6705bf98c2463bb105622ab734d0a96bac058dfdaff74ef51";
  "0x09802dc9874517aada5d60d6f21a67ef41f4fc90af99f5da6abd362df4b265ca";
  "0x0a37cb4170db11a607cb93634f01e67811f9fb889860b3d5e56d214369c00b99";
  "0x2bee6c97597aa7025a105cb50cea6b074384730094643e247ad7771de678e99a";
  "0x0e96c8fc6aeac3fa7684620d251ecd7002fc0ba3a9ca9cf8c430219820245c26";
  "0x0ecb35e17ae4fb7d50ad1b4e77994ff66ddc12729e2ac1b69ea124628d32a823";
  "0x1bddca75c245cdb53be89d79349108df2026325472bee6a90a1322b6b099042c";
  "0x2fe6b62022408137f2b4265d713766ee1a044ffa80eacb0fb6d138c1c4973e14";
  "0x2960a089357e99f5903bdd3d99a5a5952293e5ad762297c9d50b202c232d829f";
  "0x1c76167f1ba1eea3b5639b3dbed205bba67d1fefaaf22e1e738efbd91a189d45";
  "0x012fda29df899e8b4fdb9effd00530112d9284502ac73069abb2b4e2a95120ca";
  "0x1ed190c6e7a82a098b3a92b936c2b859e2231151e63bae8a6e4b98b8b9f3eb14";
  "0x10070ce947d6449e6fe407be4b0a016fdfe9acec1cbac18fd84e4b1321eb5392";
  "0x08c58d5a8bfde48defa519acf58409cf526faec422e9c00e3e4a65a6576708a6";
  "0x0f705bec60e611787deb9db7dadc2c4e1fb3f7cca86e8d9360c0baab822d91d6";
  "0x2ce1eba4c1ee617bd842920ee1e342507985404473b010c740a1981e9082c805";
  "0x1e675803f728d48a0e2f441bd792eaf8411a0fe40010bb33bc13ce89b04e6e10";
  "0x131717bad13da03ddf2403a6fc7f87d3355bea0935c900911871d3b23e3d563d";
  "0x0e1bb2796ec7d51abae5074e59e353cf01bdcc20fb600faab18f2abf3057d665";
  "0x1b9ebf164f2776b6d0345bbefec9ad051e7a5936055e34df01ef028f504eb726";
  "0x041a031478ab521c1869d3d237280fdd4cda41d423f9463751d10e9548cbdc4d";
  "0x235778d8f71e1fff45400430d9f82a6534549986f9b6d235593a21dfb4af48f4";
  "0x138e665fabc0b7ef3e1f528695cb010859622039c410b695c87eba380c4294b4";
  "0x1197eded032e2b712f92b0cd6b74ae96952615a058252647c61c9f9fe0bb6977";
  "0x301404c2f276057f210ac6d850cbe553f8dc54c99d85fe9e19dba3336bb6634c";
  "0x14b480e5fb93acb5f8eeee35c2592dfbea6f924bf83256349596f64c3f3a28a0";
  "0x029138c0fefa9284165b7b5289eedc7d39c7ce2629dc426a8cb36d11c8ebe74e";
  "0x062a0fe07d197713101d685ce3c8ff3e711d8666901857b72dc46539510affe2";
  "0x04a7db4c8d7b685aacd64ca85fe1f26452461d777dc409742a462d8dd886945f";
  "0x15d656070bea2d4c9e380538dd85414970972248860c5024782dc31f71d8b868";
  "0x03c8aa7e2c52e80ff4a6720819de477feebe0ce1f596de26876517068d77cc6f";
  "0x06b69b611a8aaa3d01a2d185bb12c94d71bc0badccabcfb28698a36df75c68d7";
  "0x2fca00ddc760df1c303ad28320f1f3d07020286f58a19637f778128c46f5470e";
  "0x000433ecb5e394d05f1a48d46ce7c300bfe241f86c09f34a3e098852d858cf5c";
  "0x0a3026bac11a0960d73026bdd0e7ab5ba57bb8a1c529099e71bcc5310d169b05";
  "0x11ea3a7a38dd167e24cba122cf49b79dd24026840aa75e490cc7cd524241526b";
  "0x03c340475f70a712caee164496e401ee10b7791e45e5b61f5d461d8bc52d701b";
  "0x1ca1a03334672ae2fe62c46187dd66a82b1007376c453631d3dd9aa30dbcf2ba";
  "0x14b5b700fa4688ea669fc44071d55860ebc5c466a05e7f14d87e800c426bd9f6";
  "0x22bd965ac91eb6e8c7e163873e839acb063efab94be37f24f381b5d6a8c30d66";
  "0x2140ae36de69f0bfcb995a816959ccb33c53d43c720c89fc02f1c5d539c8c605";
  "0x0d98a9058c09b58bcf54a70d0db69719014eb095c7f347b751d7c9e7ebe472d9";
  "0x12775fa9754d8ba361616c7cea56c9ccc27bf8ecb8173a900543bf438725056e";
  "0x15049b395c8d79dbe42a7a3201b318f3b06d686a7d460f3b08bcea47fc51bdf7";
  "0x1d0edc726b55c61b72ea52f1ec0026c6584581afbc31da0a0fd96e983bd587cb";
  "0x00402c32b0474be970f6433882b8ded1018690fc2b5bc8e252f1bee66571b176";
  "0x263e4988236c3c042be93b8736752cc675ae25b6df955b94a4d0b29672e0e476";
  "0x0304681c5d7c86e5ed5ebf54cbf6cd2df250b2b4c3d2d457fe6f98f53ff112c9";
  "0x09a33549ee7e53af32e78b562aefa407c4b89ac1be40d091c57eeb2cad259786";
  "0x023fc39e4f1a0898d2d7f0d2a2d0eececf8faf6a2ca76081c8b3510664909664";
  "0x0cd0494535f902b27042c5684f23ebe33046d38cdc96c2a09b0d4e48d74aadce";
  "0x0ca05b0ff6e4843b5a6bd2d53ba70dd190a19efd39c6ad3274ae019909122421";
  "0x21c3b9720552e96ccdec859c6838fb028260deb56b0b6e6a25a8e05b04809252";
  "0x0f51566325b7f4f8da9d99c0a17f25dd8c92967ed8b4a38863692a08a5c052c0";
  "0x07a2f22fa60c5f6206dcb301d5fd909af58d76c069cca719a58d0e9c3dcafb77";
  "0x298b87d97332b4f8e8d64227e8aa21dc93cda861e6d6827aa8a05dc64bec25d8";
  "0x135e20aff318920789535ada62231245b28d33bb966f475f3d6ea2455ff3b222";
  "0x099101eb6fd80432773de1e24b853798b4c334d29bf7a9dbf331f27e37069f64";
  "0x0393acea15327b844da6ca5569f31a9339c04bcce616e7a4f19ea6ea676cee18";
  "0x01fc314d6260fd865a657c32281ccc2c03d7b72363b890c32bad7dce1d57ed96";
  "0x1b38e5187bfee59fbcf35e8f6860087aba944b8832a047048d47757a10735f03";
  "0x28359a00e6dfa72f86581b923dc02efef6a88ebb8d073736bb8e5c6d7620d7de";
  "0x18c653b385447736c60d4dfb4f507c74ea3246958853b423a2b2ef59b9ba3397";
  "0x0c905156b6f914e0e49c279bcaecb95cbc0af91aa2c8da3aa022742d3d263e6e";
  "0x0e560559972cf8ea3aa85d6430f35566f4c0a016947446243b4c29eaf1943cca";
  "0x0206d0e27ef5570f3557c8f1fce0dd7851d6a9acab33ca479e8690d740fc4018";
  "0x09ec2ac8c3b26b06bd58cb82fe2e96dc4f8991b1f7af19762566d9a3bbbf682d";
  "0x2a7df654f70b5ba881e9f56a651b53bff6e671e46bf98b649448d597a865dd0e";
  "0x0928f2c4c24513a1aa8b1d81c2a596a6f06d6cb1adc93e65988fa395f8755d80";
  "0x108590b671408cfc2741d7e8ffe574bb3663c92b743ea36fb79e92c37fe88d4a";
  "0x008afeb167e1b684969f4c3842884d0d6ae57a14f0cb59cf6d7e2c3a573f0832";
  "0x23a4092f6068217af1323541760a8cccb0f0ef685168181f05c1082814b0b3d8";
  "0x22e52e052d5febfef509b792d61834878ebbf3b18e636fa2a5c103b6b44c6e5f";
  "0x2c0fbb287e05649152f6d237a67fda0f3a9b02640875e64cc70509e68698abfa";
  "0x0e7bf07d67d1f962479278e7a2fd02c78f10dbc291c2939d35e1a8107677ebeb";
  "0x2ff5bb1668df735cd7ea83ae968cbc6fd54d2786d0b72fbe7a75e128744f630e";
  "0x09753123470efdbb7cc973c5cb0c87a5190ca1e30869b29a0f88d72bf7cbf8f6";
  "0x189bf5a43c839ad276b2d5e330b33ed7a3419b6071b475614b2fb9de0493ff3f";
  "0x21ca5017b524f109113af71cdb17e4334f5fd2ea888885fc14d97a43427f50b8";
  "0x16c016fe8de5351113bb241389bb990f5f14366cbde6a69367e9008c84e18bc3";
  "0x2bb5b66e19b1d516cae49fc2d8cd1224873ec7dd1d6d84611133d04f1b10864a";
  "0x12c44aff89b469e709e65cc397002e50812d0250fbfbbabe16df141be309f8f9";
  "0x1222da8dd58b698bd37bb2455a3a1cf985db9d3dea01b46ce2fff30e4bb85fdb";
  "0x226ef6b091d2393edab12015674f4d87cb0822c5391f6b1d1f4f3a8429655fcd";
  "0x14806c621438077c948e7b41a71e49c5e6b2eba8443338e18a622bccfd714181";
  "0x24a26ec575440bb6da4ee3ae261650eee5e0df49cdac3dcf08253c513ccf5a63";
  "0x1f022927e60f8e0030c6f1b70000c235f9d635dd3bc9ab53ffa85982cd7fa5f2";
  "0x162327bd46461a00c81a37e04934d2927638e7afc83963f9b1331222dcfcfbea";
  "0x15afe52784ff1eb493b7e2d87470ec39cb9ba870461da04d46a2f8246d953585";
  "0x28aa3d309234d5fdf4dff3af6bf6972363f0ae9feda9524992c8b6d8bb9e2104";
  "0x0f0ce556d90bb9bf2bb512c497f14661de2bcd3cdb3330662660f7d3d045983e";
  "0x05b7ebf5781a0ec13767168a13fa70ede57168b4f1b6ad9a0d101e7b407d96dc";
  "0x15303ad6cf101d783a8f2f83bda078140fab92295bbcf1ca7efbe1b6a11f6195";
  "0x131e8d72687e1117c57889903a6a124569d5704c4b4bd9794715c22a697dd752";
  "0x0157000f6669f0083e3d590554624dece5b14860193de37782f602a35c7bbe9c";
  "0x2214418f731b6ad7aa8f2814eddf1c10f4a1198433c6fb6032dc135fa8c21816";
  "0x2d68fc0670f1b07ccc79ef3291b54e6b7282c97b72f4a9398d1ea3f314521645";
  "0x1d4a3b8e74aa0463f09e0d161dc504fb44fb719b4a090c99522b524c2072f0e7";
  "0x0a31462b0fd0a250cd00197c44673306c1d0b9d26444a7481b2f436f09ce52fe";
  "0x164b176d21897185f1936590e2cf9ada9378cee8f2c49f52d1874f943c8749fe";
  "0x18c6da962ebb058385a8d6b118db0f52551de6397f050d8d9f3d044232506a2a";
  "0x2ed2714d1d889ca82f4a28f22198d4fd349fb1de0a0863399cbbc1422cc037b0";
  "0x11e1adacb76b6dea760c9c66a1050abb038e67ea69b3ad21dacad940ff6427a8";
  "0x09b04d0e7904d6efe611ab4f82d49241fdd8c6bedef70fd00769888cc390e8d3";
  "0x04389c70002349c036de59c06466c2b0a76c0cba03d10e81bf43c64b0de6eec5";
  "0x2941438cc983e8b4045d9cb2211104936cfbf64a8d2863c1e0b9f943e0c76800";
  "0x0d825182e641e5edeb7172657f9e56fbd5f01c61cbe609479d5f9a09ef96a89e";
  "0x2ec8a29141244e2322b4475d03556c0078d6151277eeef9fefa1e0de9fe24527";
  "0x14050fd30ac018c1065051c3af98af7cd65d24d721f3642140851a1d2b03ec73";
  "0x2ab40aee351fad32b20a2e27dfedf49feaa3222f14455395ee7751b0c38eaddd";
  "0x21e3960c1f9f9e3b9ae30ce0996adcf6a4b8aeae600324e7940bfb58a72ebe3f";
  "0x12140a21ab482e60a275438f2b12ff78f3b9f8337826c1e244c0d81a0bd2d4f3";
  "0x2eb2c5254bf8a7af10ec4e6a034a48a1ae30ddc650aca0c0cce38eb98e9ffc04";
  "0x1b67f78ddc14574cd61ba1205de58d1e59e4aa19d45b7edec79a58b7f91bbfd3";
  "0x1932e8b715887d35355d737277a00d8944b3f08d66663c12fd0f3701669ffe58";
  "0x14cfb5d022ed50f016a9a80b77fa680256c54fa6925a9d2ec39cca0d5abd65be";
  "0x22148d6fed19767995ef6babd88ae7e6ab31ae807ed1d0e076ecb023515f1550";
  "0x22aa6b22eea0d8dd00e3274e1eab3c7a244dc9c2f32e2a2347f19f2d4e26b5c3";
  "0x28329722207611066a277c77e2cee1aa3eef4454fe60f13e4f5fb0435ab52946";
  "0x26a743ac10ed17e47f9c1b07571189e4f96fd4395dc4a440b826b6395aca284e";
  "0x14043364eeb9172647a632287b4c1c4cb1d7523ccd1eca45bc0f34ca14e7d394";
  "0x1df41f4c9dcb949d756cbc5099dbf82a9068deecb5918003289bf034cd708c83";
  "0x20b62775c9f7f767e1618f017b1a696dec5ef6322e1b1089822be35a2c9a1e3c";
  "0x1edd715ce8c160cba76d78c65265bc0a4f84b56c6d340738d75b9d61ce4ca0c3";
  "0x064541e98e6e84eae80d236587827e84b9c807c7c124d12b19ddc36af289ef72";
  "0x245a010fd3273f19787c24e7e645a6dcc4920152dc80e5310f1d6f847df52cd7";
  "0x02fec1e8303a3429e396ac369b598fee6ad038d54d0af54467bf53eccb3d6f69";
  "0x13c5b8b93a8fe99327e65fcaebde853d460c533719ab3900b213f48b8fb00840";
  "0x06bf5abc162e6d47087e73927eeff1f41bd903dbe1402678d0b4b05bcb5418c9";
  "0x056b624ae8f640839df661bb0c678977eefc2010a744154dd70cbf68a9ee2a87";
  "0x1ec05946855a47caf9889f75000c10164110d95f0055f0ef0b4834c3f7f0044e";
  "0x15433210bb94a7b2ed54938298ccf126d93bfb2fe7271de0db4f1fc2b18f818a";
  "0x1253e4b5a7fd0526d7e7d4fb5af0a7aaf2a4f1ef0ef2f71e8c407c456ae0875d";
  "0x1c66c2121a722b5a561086ecb2008d7a69923e773657c3a373dfd9b8f9cef8bc";
  "0x27243919423d2e6a379c1c5496ff705ad3d3be2ebdf098d24f20f661d83bf141";
  "0x010531c36e10c4ab33d2477bda438ec9bdc03759f71ab2a905d62516760a04cd";
  "0x17610c384ae5fed16cb1ecd03142050f7c2b9b8a438a29c6c01bde46ecd6a0a1";
  "0x11d3e66e1864eba6f287faca9d6ec912ff60059550ec47e252af053fab302eec";
  "0x17f00deb9b606a11584df418193f96df93a9e670d561dccc6236dba1e58de4d1";
  "0x00b13be393b202c79b72bba12b9127e5638d7316dbe402a2bea2fdf45696f16a";
  "0x20e289954f8fdcf92ab74edc3af5780e65a4e38d79f0f264012365c44062dfad";
  "0x04acf3ec2d1b7bb6c7d2ead971e894d4648d3a709171259234e067861658e6bd";
  "0x0c0972ee956f13fd81b2c19eaf3c729fb868b67cef9658a6aef6c6738b224bd7";
  "0x04afc7fa7f968a3e79a37e6a685521aa14045acfc225c7da2e44c33a797442e7";
  "0x1aaf13c94091ad34036c906cb873e836682633e7d13aeb3dab1d322f301c7983";
  "0x0c0f4ac864e0767bd970f1835d6ca8b6e6cdccdc0c5905f8d8e9b7212aa9b129";
  "0x1a193ee516db5abe6f62fa6d065ced54688329b2c2ba983fd331a601c8e34a64";
  "0x13a855827aa5867e1f65522ed58a8c16a7e2ba32a70bb3676ac290e6c528bffb";
  "0x14ce33df16294744e314d1bef5320c2b4c9bb75f0e3e2011b97e6c260463be34";
  "0x2356e14b0423898613798661a663b3d63a10e057f1e4ccc787ab1126d2f099a8";
  "0x20bdbe0373dede396f616328aec36161f25f659b1b5a2fa622679ebd4ae08cb9";
  "0x3008a96cfccc40bf1156fd2427104530fff4c1ea24dfdc59abd1ee26509bda1f";
  "0x2bc2286ecbdde9f767e233186626114cbe69b1c92bd7185f2be7b722c2f2ddd5";
  "0x027ab950e8027d22ee827cab4bd3c4830349feb7de7cdbee553c516b24692584";
  "0x1928ab62d01dadf36c37e60c633ec1b65dd43b67ec3f350e30fcc6e343747cd3";
  "0x1936ca610ff48f52e07659b2844fe59538f4c6e27d919a484bdd802595e29e89";
  "0x23e5baf5128ff2259e5b1ccc5c284f609e6ac9a17b2361ff6b395afb0b866440";
  "0x2a979d3f37a6cc2fd839b10146f2495a2cc8900903fa10265df4d0542506a563";
  "0x23a4ad05293c8bee6e7790a2ed59e1852e8674218b76545b4c19d8948e4d451a";
  "0x2f15e76750ce50c98c1e95418e8a8b25510a4fc143549c462fa85a19e6f2df72";
  "0x16a4400954d0eb3edab858dc48bab78c5d0896e36db390239ac1d63f14b452f6";
  "0x10c11e99a8b77959e0590f75a2638e693d895bb23f3e0fd51ebd9e6a95f4a373";
  "0x2d550cc537eded9210df910811e50b4fc718615997f93b33764e3e62c4c53a10";
  "0x1e8a6c3df619d44ed787da7d2f25a95e282b08cb2a1d3d8cdc8d9ec7c4875c3b";
  "0x1acb2396fa03431319f2ac5dd5545b4207c3d56b3e6209504cce5aa8a9916a71";
  "0x3053ef547401a6790d4a2c8f5ef81251113b726a65f8de0f97924f018231ba02";
  "0x0ef45f9048032e0f4058627c4289bab84d8e3055e2cb110e893ef2e48e715dfa";
  "0x26b4e41162b9cc4dc5ef8935f5d6374267e1c43d6579012b868d14a88e380781";
  "0x0d88fd149c80ae28e319ace4d7ce968b50e1b6f2c22ec0387a45e7333afaac91";
  "0x29e217388db68cd0a7902aadaf916c91bceb0e7e1d1e61e0dba442e0f318ae76";
  "0x19c4004832a2798684168c995663dd3d7a6c0ff1cbe0d42e80971c0fa86575ec";
  "0x1308a1b4a962e6fc55a57ac03b08582448ccc9d632c32ab8d304ec510c000af9";
  "0x1ba913b4b8efd3de19d8c27b716762b951b30a0e84dd0b46cd4db0076204eb1d";
  "0x18494fd8d6974f52087f83c3e78edaf66d66205993de0384be7c56f0a919e0a1";
  "0x10fc3f1493b213ddbb805791277f5b28dcc791e489d127f7182180c23924637d";
  "0x09e9be34f6f292fb2c00951a43883e3fa4d9325d2fb900a47672ac7b33cc8e80";
  "0x06874becd266cebb54cf324669a377a163b5e06dba3e7905ac26ba375e819910";
  "0x0527e33434aaa329445760fdaaddf4839bb773f610a5769b807eb827c56e458e";
  "0x1fed624a1c6c305179c0f6ee2c15258f34ac896f09590ccfe212d9521ba802b0";
  "0x1b4e96b21775c344f8d9947bbfca9c308d31c5146eda92bdda9077a73d9f525f";
  "0x2831606e566959b8e22807e7abf0ec3bf986a0b4437707307576fe3d3bef665c";
  "0x07bf8739feb9aee9ef756e446eb669ec56f5c14610da030ece154f36e79127b4";
  "0x192a8d68d4ec80625ae395524a8c1a69402af399e13c05ea729cfd4f337d64e7";
  "0x0e27a071e05783f7cdc3b92fc8a927eda8f57d6404ff15680b9b1529a8de4def";
  "0x062c413ff020f9981d0e8de124b8baa3ad95cf716f3249d76a2a8a06b5cd94a5";
  "0x0b19fb81d413b4dcbf49d3824bfc04a1b8921a574b6bbea25ee6df697018c208";
  "0x2187fcedaec5058845578b71bda798fd96de498df1951c71f616cc302b625616";
  "0x28bea4e6242ca677a0ee98d27fa95c8cf75ef1c8b5efd5c593e3b0c81f97ae85";
  "0x20e0585fbb74d9af65a11be090608ce448824a93199cdc2a837e314921de5890";
  "0x101e2d93c497750655de2e5d93d23345d1500c79355dbe7bce8c87139359bad4";
  "0x20be502a8aef981acc285da5038b99c02a81395749385882352bd0f6a7d6e813";
  "0x0068a2f177631060a7a2bb9990c91ca92a60bda50aa1377a654119aad4e71a5d";
  "0x06dd2b9250404d123e5ae2e7bc5a6c68190b2fa2d72e9c0a3df63e8b4ca2c8ad";
  "0x2d1504c2ef382505ec2b54d49b8ca34e4a2818067d6466ab197662629e85a37e";
  "0x0051aa182ee227ab71729cea857e78e568ac3521cc5cbdeafb90d7fe9cd4d659";
  "0x2f6a2944646f72b944a7769919bddd609c98263a1270225e26a9d8a2b8b3d31d";
  "0x22e72f2cfffda8ea5e96dc35930f9e6fae466501aad2745a3c8b5a48e6cdac67";
  "0x22409ce8f01e2beb0c218bac863429624f18f78eb80ba08cb1678b9caca31f7c";
  "0x2417f47e9a6cb7b93f3a91a703d7e55689a355b2f40b3c2495df3dae674f6c5c";
  "0x02d700b16cbb4c6b2afcd306d7656a301af3ee82eb61e76dd46f046d87b521bb";
  "0x0447a82e20ff3547627e72cc9f6473f7655346cddb940bf03e6393b45965a5c7";
  "0x0b31a5da2fa4a0254a644ab26f47063b830f7ecc92380aae0f5491fd3d23cedc";
  "0x09250f4e00055c711cb07cb9eb27e98b7e1be6ba84245769fb43e64afd67546c";
  "0x23051af0630566342a219d264a51c92f43bda3b36abd0f3dbcbc516ea27b64af";
  "0x15a83d0b3c08dde994664df4a0ef4a71ad0115b97e891ab09ab0673001b5a14b";
  "0x20abcb5644f92eb598bb12da978aa8e5eb2ba682690244dd22986e7b4bcf140d";
  "0x14008452215827725440319b09469363088bc4e2a22e3f9ab4af6e8617e9bdb4";
  "0x1b100ad82bd84a5c9e08392c74b65ba8ea86256bec5bc251275a925001af7f8c";
  "0x046106d4001522b4883141a6a639f48c58b0382e5cfa7565d49fabdda0a97337";
  "0x1ee662f3ec46b775aa89772e61fc61779d1df20ad348d8c3c84b1674ac56360a";
  "0x2c6001e8fc79c3dca835fd1934d8a168c12977c7fd0ee9f8f0e77cfcdc344892";
  "0x284409547a9f3580b4e5e5a3b0fc505d45aa660fa9a5082a9e9bb3a82cde425f";
  "0x222e4db0326fd7bba5c09cb22c1c1bdd5afca6baa6ad06dedbe109890fdb5951";
  "0x1cf3c0218955e48bfabb99adf746b1702c73c268bd22eb2f8516b34071f349fe";
  "0x0ba05ebbde0029d6cce048047484efc5a031159fa058062c90aacc23763ca3b6";
  "0x23090bdbe18dae43c1a97e74b7992d694541955d87752704fb012f514843fe0f";
  "0x2c2dcf6efbf97668ee6792829b5e9b7e8509724326e6459fea58868d88b3fc0c";
  "0x056ce2d1e7395c9fa36da2cb80f12ecc5da86a72abdbf52173d372c21d2c0a02";
  "0x2aef351c66ceb1bda76d50e07b447127227b1caac9d73c42b52b05a40b902ed0";
  "0x17b4f8c3c83b0714c2b650814a2e0a84f6f9480e2835943db8df1d86f8c7e46c";
  "0x0fe4bf5d1c3e1aa64a8098053e2a86c05a4aabd4512923b9fc0c2ebc636abef1";
  "0x00b92df155603652830ac64663a936a312c81dfc1b489110d064cc3610aa0aad";
  "0x0a36d554111927a06325ec37150a2e34ddfb9c27a02ba4a103a3fe6651f1b094";
  "0x28273d4029664bca8734875c814a934c8ad898ddae2c9c3c0ff693ece5186df5";
  "0x2c8237959dafda3df24f027e994941a0e52060b1f26fa41d8e02dbab462b1610";
  "0x220eed905e7839f428b26630c905b9f426e82ff4b334c0230ba9414cc0131f81";
  "0x2688f3f921681f82ae8c3e3f999c74d0186def6f6c9fdba0a90dfe6c07f77eb0";
  "0x2e8720ba4e17e16a377a92a23bcd33714bc258242cc28a9fc2017a50259060a0";
  "0x040a970dd2a1912abaf0d5df9dec93671a86edbe55024042acc3f87cfe6a5ba0";
  "0x02a35ae7f1c8c01c63f425e249fda72fd4dd0c06fe19cafc3d460595dc7656db";
  "0x0b9416dd79a53fa3626ddf458d72e0116e7357a0cb6501310d62bd05ad5f88cf";
  "0x108671dd4a180775e033aba4ab1328fa587d4dc4b0326d4f6d44782fb2f8784d";
  "0x07732cd4e55fc9ed01cdc8f4d96ea3fd9f04373759dec6c4ce9cfa1865b3a6ad";
  "0x2ae84665cf041234bdfaa207dc11cbb3042a691490aed4b7072c747c5fac786d";
  "0x215a3bb4a085b18ac48a3ad933f6d15c348f3af6d0cb410c3446ef271c9383c7";
  "0x0e8d33c2ab084f4d01da12c0d322e61bf7b7e446bdd23639b52ad9685928df3a";
  "0x0f53880f28deeffb72282c49c71e7b08c7a5c1a8ff5b561b554be01380fdd1bd";
  "0x16d16e620b2611ae8aa745ecdc6717d51ba55ed133dfacccef9425924e5db2e5";
  "0x0a76dbc1458e5323b7700d855950f901904b686a085e37253fc5ea33756df579";
  "0x08887b7c5f30cdb0cf0deb8ee19d40f959f7685a56893a8137f69c7d63c5893d";
  "0x2169dbcb443b09389bbd3fd05fbae663e155cd1d96f549fe984ba53214ec53bb";
  "0x3043e0e3a33129e13e378fc3d58667ced0a543443e31fcea9a37e9f991a756eb";
  "0x1ed8e951895c4b81500d30bedfa89a8cfce922cc902a687d108b3e679b38213c";
  "0x2e0b42cc6b814ee4aeb1ae8b6833fa143ac6db4371bc286b3bca19c9fb65a215";
  "0x24ab2d797794bf1ecc268523db21841af3c7fad336c2f3c463a8735f7679605d";
  "0x1e5d3724d4f057e117024bee1cfc05d2eafc4ae44a3e49d684d12455b9d0ad66";
  "0x16a725005f1e36c39a7f4668e30269d9071c04da8478d2943dde590c51cafa8b";
  "0x2bb4fec2d739fff7fe01c487dff584917d876465f6ce099e07550279b82aff4a";
  "0x04735e14b328992c962e90f693fe41a8fa3ef8ece82eca6d6a1728e848a80454";
  "0x0ac875e01f383327e8847d8d02cafb502192164955595de3ec9b4cfdd5022831";
  "0x1d4accddfb793eea6dc75d75df7aa6ead646006491157e50260f1804216db238";
  "0x282ccba8434ddae6da87a13f043f836d81d85d25e5d1a6fd52c6ea479f73241d";
  "0x277a07253fe6b96f570fb7f691314699d583e448bdefca505d14bc62acf39bf7";
  "0x224114ee73b95bed487637d3b605f1f6c23b3973721b21fa671b59c7f309e57b";
  "0x022b887f5c70bcce2d1052dfc4464357ac2e575fc76787d0804a5b381a937a11";
  "0x0bb53eddce1b649d8100f955130554e7da63d91ae1dabde7fab666c917bb5f1c";
  "0x091e8a0e157f517b8455783f5da7feecdf957d2ce4c75417cf707d537be28598";
  "0x0ec7e7c27ab42f2afc1cb6302e7397793e5453dbc8efeb28f5dcc755c1a3eed7";
  "0x2855bba52ac64f7c9a0f8696c3a1fa0126e2e375b21397dcbbd71863c98b9465";
  "0x037726e306cc92bb3188cd7ad4e0dad49c63b47e05d63cd3555d4072cde23aa0";
  "0x1c35ea7e2ca7aea8ebb6f1b2e04fc3ba4ffdb3c1c4fe79dd5911f728aa730432";
  "0x17f5c7b5095edad383ba59520c4e670bec60554b108eb17e6370024397777b69";
  "0x1d041cfb687c3d7148681291144693647be0b41a7be830ff303ab5b410b20102";
  "0x295979fdf1b29e5756b3755d2ec764b1b451f42813303a8f5b43e1bed1e0e642";
  "0x257073392fbc24f9e28e072bc2744a780438505ad28eeae9354198556d629411";
  "0x211a3709638ac8538ce75ba06cb4e0cdab95d8330f7b64b6bbbf75ab7ed43c8b";
  "0x0492351d893dc5123b1f46a30d085d145f962019e1f724ae34cffac3d8f8ee20";
  "0x1a5a45971b36d009714222187c9530edef7b84034f2de2f8faa80a6028de6f0a";
  "0x27e6f704be35a3f303deaca94e1316df84cccd065cd291b012ec2e3d67cc8821";
  "0x037b3fac46edb6469e3576ba3162e98308334467a12191ad1bb144a030994f4c";
  "0x1d43c29e3d813c1c5f942162d13f787eb2b29b0b78bd6607796c0e1a2e67888a";
  "0x29e38336f31ca6e3cfe722e1320645e7448876a6bd2a80492a03b4cbd7ab54c3";
  "0x1f129ccf8793039f1fe21b89df7d6241960cbfc59d50450dcb466ee5196b64c8";
  "0x0a8fbe0d4697f5c031b2c88e5ed87212b568505f4165e57cb4999c941e881da7";
  "0x27f1ed8355498a7ec0050cea8e06b62b895f2049f851c4c8c9a436c60d61cd47";
  "0x244658424778d2aaeb862b4c0b34d52032058b253c336a1a19b870806bba534c";
  "0x0f9e1b109a375e3d18681a162ffaa2b81b7e82a9aa24bf8b2e40b5f04ce0b2d1";
  "0x234c836b60b701fe7f5db55b528b7f988279a72a0dae39f83e6d453c929463bc";
  "0x024b9b21bd693ca02fd2a42ec09407fcb87b6022cfbdea40b4077efe6776d3d3";
  "0x236c710bd5941a8032ad4e85dac256655b35dc1641559803120f7b2bd69276b4";
  "0x0699ce61cc74660227b5ec88b5f8af16f42783018f94d0131a6599074e03c542";
  "0x2bde19ff93f4834b3be07124b1671403b5265d6706f8fc9aeb1d6b3b04815092";
  "0x28b5beffad20eefb89f985ef292cc35cc637b77e959f92179f417b1a152cfbf5";
  "0x1a4265405772105c93c3fab1fc717a6b32461557477dfa77da5109e3722eebf7";
  "0x116f327777342fc3a7b9767b58ffb784bdc28d4911e8544c9529e4a1f9ed1c19";
  "0x2acdd57ddb77e6c60a67e94f9925e9d4187e9070cc370a608be1de52f2b75516";
  "0x29cc79831a3955595a64fba6b72f62a18ea58002c994fae7089981ac1fff09e7";
  "0x1af8c18b9cfb3bd70f3db66ace4448f8dbb75e1182988f1d7210864580964fec";
  "0x1615e204bbd674935c0defbaefce559b8d0d965e1ed51d7e8f9496419ae9ddb9";
  "0x2bcb0a8a84bf3fc48f5015ca329cb825ce51b2f38a06464d0f6ec470fd461a32";
  "0x23a393ad11a0c821d50a80d0f87f3b1cae54bc7daa2d24e3d70e83b1075cb891";
  "0x0b521678680dd93013bfcad301f6012e70aec50eaaa0601b5940f6e33ecee18c";
  "0x0ac7e4bb73fe25da9e20ec3afddfe3a459dc411266a0d853a36e62b0e585a819";
  "0x03b51e493d5df85e328c2db853b63e6e3619fa667670666b256aae37ede5f107";
  "0x2ed9b5890b1567aeac724e4743596159023f126175c0be4cdda9394026d961fd";
  "0x03175002f34b1e3558f8cf845aa1777d4760ea3aa22ff6d67abcfbfe839a3b6c";
  "0x02a1d500b7467566ca02abae0e307ba38a5fe6d89c1a4d8f4fa69b468054dfe0";
  "0x017216c9b279337730d2247758d19f0c26bf94e23f225d2d026fe4b536355982";
  "0x0b867cc7470c9eaef7b04026b7090a75df7d868c7f7c2a5c7d054487f676bdd3";
  "0x1cd154275193c3bf0e05833b832c42287278092d96b3e229c508652bcdea7d4f";
  "0x081fb10fdaaabcc98079528cd0336d8ea6d68054b5979fa539da86d57b2dac8d";
  "0x1a0ffaac4d28f4a5b89daec66a280839303490722a664ac73dcd54227d5493ca";
  "0x159b45dcf37a8abcaa6f39ba94defdab3da0a2dcbed756047224e523ed4b329e";
  "0x0c4250afc47b590883f1df916caea9338bf7865863de0f52e80e76cef01d833a";
  "0x17626ea601a8b031a71f8104e01ae1f343b142765efdde018d113e2910d7dab7";
  "0x1b44df98c0304164595a412e5068e8df9337c804966f530118417c9a7f5b23ff";
  "0x0a9481a4beedeadc7b013bf38d1035769c48b794b3220c7a5dfa43d208c43905";
  "0x1d2982a2663f630c871101caf1d0bde7c0c40120cadc58599f1484f99c1df95e";
  "0x1f2b420ee747bf1a02c3f8f4d185e55678ecf3a029251bfa79ce93d7aebe58ee";
  "0x0419db3d0d78a112eadd3a33b2a60c8e4e3e89102313a289789df2a578dd52dd";
  "0x2b754711d69c393fbdb36bd14a3078a762ca2a00897fed44937efe9548c7533e";
  "0x098b4a1ef20bee608b9e8d7b7dc4e4cd8510492fcb6f69a1200b5d0cf472144d";
  "0x1b64accdb073a3e621aeeefd0dadd180ef5fdf6644409201da3119171c7a6378";
  "0x08ad1197bd29a0c774cfda946a9c6169b8a6e28f0dd8fe41226f4ff0aabae610";
  "0x2368d131d089546b4c97c689f56a938cb84cb0c8da1e54ebfe123223c18f8944";
  "0x20227c25dc864f42d5945067490113136b045798c7fc57f1794f5491c72294f3";
  "0x090cf52ae1ea0b8528c6b5756d4c85d8ef462a8ed377405c370f414268e8d164";
  "0x08157c8c71f86659fc29f5136122807e749afc9870c1711753e77453a2804f7b";
  "0x0a29b8cb83fa6fdfeea87ac1dd9055568f13b8c7f2adc44a37c2d61dbef3630e";
  "0x009e15893fabf4439fc095e13a8b718f805e5d4fed7bfb3551799754d2487333";
  "0x0e84328d7bac587ad31394230e967484fe9fb07bd279369367492e3baeb89820";
  "0x2bd1d4c22aba4036b7f1352637697dbbe4adf9f375ab521a33ef4d1da122ed86";
  "0x1d56eeaf4b5bd2dd9aae4860c32f2267487f299fdde4e70122f7179df0785e74";
  "0x0d57e0cab06cc9fde274732731edc96fbf069720e11ffa993cad543e335704e9";
  "0x0a8fa8534399271c3b9d0bfec90f4ae7d5eb412eec177dfb9cb93ecaf78c6cbd";
  "0x2b03a58371ab3f973e840a82e0c9b2b82223c8355552e78aab10c98c98456f5c";
  "0x1ec754248b40b8a7e738a44102c99eedb88b119d9b30b8ae0e07601c83dcc51e";
  "0x040c21802af4e36af46ad76242b204c94afbf8275819b6374c8ce83888598db6";
  "0x1b18cafbf9cd098708a342d01d24020492649bab0b7e5de9149acdd966bd5655";
  "0x03b638942d7e91f7f6f4495531c0370d07f3cd2f5cc52a34487d4495cc22f2f6";
  "0x1d3bba127c3a7d18d79302aee11a460cecc6dc182cef4ac19736c940a723840b";
  "0x184d976415038a76b34a1b001b94aaf3131dc84573e1868d55211eda6b0f061d";
  "0x0ef74a616133fb2c025c8d7e80cce59b40d62b4013ac0acba91502651c1a8e99";
  "0x0d24b96bbc0e71541adeb3a899466d8719727d4e26c3675565829a617c37d861";
  "0x0b7fb40953ec1645b5b0df1137b781d2c3065133db20ba9b20a0fa87b2cfb944";
  "0x29859cec3b1efe81ec618959929bf8211f27868703cb97a19bea85ebea409421";
  "0x2b373c2869a41bb7de176abdf62a4f1a2c78d1cbfa2f89d5b5844960d44be960";
  "0x0051d4a9a2a184636500098cf9133ac167ac00802c6dc6aeddca161876e1406f";
  "0x153812779489bcfb34ac44667cbb539c9a58f163b9a7f899890315fc71e9ddb0";
  "0x11c78c94d2fea3c3501b14d559d99124625fe2a8be32e41b103461e3f9b79de6";
  "0x01f8fd6c159642ea059873d16a6e58b26ded9e2645a8f69044f5e1f8044de386";
  "0x2a350944705d0614de889b3109cc5aada389d63af5232a3a310b9ba92ff7b197";
  "0x278c32025794546de91e06af818981bb4d30f944f717cb631df4d0e729b9e836";
  "0x2bc5586505a57640ec9783eddb2a2ed1e65ba80fd197003c861f1a658a7d9fb1";
  "0x09288a1d52190c8e08ee19d56fd0c2b53ccc5e27bb557a8e58837035420eaa68";
  "0x0ea0697fc72694647a12ff5a9af281ea2ce024653ac611ffddc9914837e66ba4";
  "0x10ed4d000f5bda5ec41014f23eb6213f0ab3816d87750fb6bfb3f784ee4529bd";
  "0x2838444952ddde179a2c790ee96442a194b049611991aed919497b8c8daa6b8b";
  "0x09325a7a1695e8b5e3be2077333e76fac185939888880ccbbf47fe85bc05ec7a";
  "0x251bfaf9585e2881c4d3f10bbef70fe6da3bfbbf819168030815f27c3337409b";
  "0x11cc7335783696cecad303c4d12edcaf945db4d0491682cd9451e3600ed387ae";
  "0x099ca349bcbad76122c6347a8839bcd76bd4cad1fc31fbe7f9c8601a55a99399";
  "0x0f65d6e60e15c168ba09f08b60b60de2d54bf84d32a862d7ff3747b464a1fe5b";
  "0x0bd7136ceb952f0a2e5a5e685ff04f04d28c378bba697ea684d505f9c08a2a3f";
  "0x25ded571d49dccfc64d30879575140659db815924e4aab48d64cf0b8de356303";
  "0x2fe5f05becff1dac6c722a087e2e53afaa00abc8df22de33d3c7fa4df7d52465";
  "0x2ecd267dd56abf63a2c0451d82491670a8a629cc398f19926a1bbbbe2fc776bc";
  "0x05d8414ae818ccd0d363cf8f9b297405cc36c7f51c156f32b5a9ed731376b338";
  "0x0761690a44340b2db23b8389b6b3828b5360a28c452bc4193f0424f3b66597c4";
  "0x056d3a786c7d8e9b34f523f5f4be7c0a10a71adb4412fd708a64b863aa4e4633";
  "0x1b0136ae2e56c52569c92c2c6303fb3331c17d8bc5093fcb942d79e560f695ba";
  "0x0669b40aeef051b7e98ad64847db2607a567ab24ebb250216d9cf6b1c3c7ee93";
  "0x30131d534bb17a42abf3c82da726284a870c8541822b9706032fc170d26c746b";
  "0x146d1c48cff2a00da35adb43a4a24c3e711c1b0f7c34af4eb7a4128a33d6e2ba";
  "0x2db1a60683af7b14078a92cbc0c706600a31a634c12b5137b0d0036add76a6b4";
  "0x1dbeecd1e73244634a64e974474ece84e529ca95c1c3d140e5de65467d2aa11f";
  "0x0b3ba64cc5bb11c7bb9495bdf6a78f9a4d59fd79c63726d1c343c546c9b98b29";
  "0x151e911cab9403dec814396d37e9818fb9dbbe4751f8c5cac0593bedd31ebf73";
  "0x05defa7bc45c481344771732f285529a3720ac6bbc0bb39d30385eacff7e9c29";
  "0x058b2ee7067a9a23fee9818850d9e159b50e3f18de46278c1b232f5290d2e521";
  "0x0660b3455f3e8f207d0dd2762f30f3739127e1c405bc7b8278ea9997536993ed";
  "0x00a23180ede65663f4f58dec17b8af902e270d90205ca700282a22af9e71ca2c";
  "0x13de48170f9599c8b342480535516f6fc121efb6d5428af1a8ff17eee3fd7f2c";
  "0x2fe85c84bee15ff27211e483865dc34284aea400d78fece8b4bb910c45ebef25";
  "0x198dc322b0d219f28af3111efb11a299a63b295d4691132c859866db160d9faf";
  "0x19ed0156c20031ef35164ccb902d3d74f9ec62e803931e500939cc06bc7855ba";
  "0x1f2dd3e3fce828abd5b7f49c725e4d5797fa6847c5624322b707f03ec43f3966";
  "0x16d21530c34e5626850c0013fe0d5ff094657ec719d4e6091c514c2abe031f63";
  "0x2e382fb2375e976ab5393618c799b78a87b07719343ad27619e5226855cd1c9c";
  "0x2626b45ce9d069558cf8356d2dfc2bdd00737a561e7aebab9dbf2da71d37da7a";
  "0x12675dfc19e388db6324f2d129f7e8e3189e0ecf29d4ca461c4f9618f0c3a9fd";
  "0x1dbc4239b06b2921811e99b5f2df5d4ca99f2281b956fa2bc6bc0d92ac2ef76e";
  "0x23c11b8e0658f3baa0f23fff69c4e4067411904c8201f59fe04468bba201df28";
  "0x30175441218f51a6e0250e942ff111a5ca2d8d958db8224c15249f2adc2cabbc";
  "0x04ef7480e4fe4baa3f3193c411bfb705d52dd54e5b81bcc25f061cf91963b36b";
  "0x2c266a9877962c9dca52f5d60f173a752e78d45942f8753d99335348377caf7b";
  "0x05c467a9d65d3030868b1b426bfdda0330df8ad58fa62dd192c8610568b389c9";
  "0x175623e071851422eeb1d6657813068bb268946627dc088fb1b6ae080e0e9a66";
  "0x20874924779beca46d46d2d6726d8dec50e184bce2c74299def14efc267f7e2e";
  "0x0fe7ff8c7ca0172818b8fe7d58d13fdd16d1e453ebc4ed6c3b396dcfe08fd75d";
  "0x08a1909305949094fdb8bfb6c2fff7e1fb1608efbe221c8972dad5d42eb99467";
  "0x1e88a1b2dde945c9ab7f97326119706c3ec3146f0929243c1445eeff67d852cb";
  "0x3030d36d194e42e65eeec90cf5a6fab424c6f52d4ad53c780931e418ec237f30";
  "0x280cde4041aa602dea9f791883ee5f2e8015d5c28a0a83502c635b1c53010abb";
  "0x2ff03187ebb230e56af3045581eca89283a6890eedbf6b55b18136a403db390c";
  "0x03269e60d318a0fc2c8ef31f5167353830a7e4ba87f8c4741f28015243463abc";
  "0x2ec4e3ad2e6fd3be4127db0789b5ac4b303c5383fa5560053829b4c92674f5c0";
  "0x128c19e5df934241fda1d5a19b58bb60314df98cfccb0ecc82609ba339ae3d2f";
  "0x1b0301096511447d96bf98b1a7fd06ccaf5bd28f8a17fed34c4db32ff47f86ae";
  "0x1531a098a24be30a6c3083d668f7ba9398758c4ee673f935eee6d4c490bd561e";
  "0x1e6fa9aca41a4103b9e002d45b43886e69fe42a1296f5a9553d31a91397de33c";
  "0x2932ff85817def125f28a5ab96c5d8463eda4877cf70784afdeafe538a30c2e0";
  "0x24f719d1bdce3f4f0e2d69a30637d1bfc06cba15ad81286444c652916cfedaf7";
  "0x0ab9caaa7d2dc0ced11ec1526287788c633b9b7e50228e593324625288667176";
  "0x07dbbb3caf9b3d52278e63c727189929040c0328f0262ec23ce2fa8750e37904";
  "0x2b2e0a29b77de13dbec3bf727d361aeccf9191e2abd179c343569200dc145eb2";
  "0x185f5417a6b50764a897c54ebab047f0f8edbfbe41c3ba408f1f0d69dc2ebe71";
  "0x045c5321f9c20c935187413f9ca85c052bbae327c2f36193ddbeb80a8523a7e4";
  "0x290568b1d21ab4faaad4c3d19ea65d5e78249c91ef9947dc48536ecaf4a67225";
  "0x11d02e16614b134438856517c5c055a323af67c0dfbcccb286f655d44a8e188d";
  "0x2bf6072f3480cfe752f3642bc4b4bb9c4e9618d6df6d9366fcb54dbd5b9c438b";
  "0x12bd8bca247557c1346e2db1a1209fad6be02a2eeee6215407781c0336665561";
  "0x1702404abcaef66add94222f1a6817d902a9cd7330e1cdd86ef5df92d512443b";
  "0x05b7e855dd0d4557e67e9921be299be685b5f74e7f1c1ff8a9a9f6addb796519";
  "0x1e8e308d8db1a204726c30e5f474714a334208838501370e9e0170d9c30738c9";
  "0x02325973dbf87fe73621040f102f5cdba71ac04624592d606e17cf993975663f";
  "0x2080899ef9d1dbbcea04273e97238231ba11f08c7604dd07556e6a8c37c382f5";
  "0x160682139929afb16ccd64f5a938996dc43927797e1cce30a24de1480143513d";
  "0x24bcbee0190f05bcd7bd863db762f29232749ca465fe4aa2785cdd1b425ca2bc";
  "0x16e8896ec60362afbcf557d47ec26f30b053ad6f2f415fc5a76d915b94f76898";
  "0x0b7cf289fdc0721c07b05fa901fb122c9ad4be35aa259a1ef45a5d13113df8dd";
  "0x0d0b98782b054a3c7031b2496f61e8919504d51dea567d4007d9e9007d1c07fa";
  "0x1c8e21826142eb3a5906bcba4c0c6296526ba70797b747eb3de14c893f5f6f7f";
  "0x1e13317118c3e36ee21060d508bdef17804341d2d5d9f0f75d65474f74ba83df";
  "0x04ef3dd159dc0df5883f02126beb9a7f645dd4bd383236d1ddcbd1ac647a6320";
  "0x2468ce1f444a9c3e06e999e3f98859e901dc2c7ce91da6e6b62a50a1eab27e10";
  "0x1309466b2f8a18e8a67f037948fab25b43bbe2f2aa6647fdfd466bfe28cba147";
  "0x152ceb286a525881d030d09e9937f126f8c1854b6a2e858c2f7a2ff00052fd5d";
  "0x2508e9f7a52e7ec56a694c58774bafefa3e1cb9aa9132c386a75c68540866d06";
  "0x28e72a2cf024409cfc9c4b779b5ecf704dafd217e09785260a0cbc13da98a94e";
  "0x23a4a079c6ef8fcab2b348d329e2dbed0528abe60629bdd0aa966599bbbf8c84";
  "0x2e2db6f0e2ea618221b290dc0c90e4d447fa021efc3656633725ece60aae6985";
  "0x184dc659925503c7274e628e39a4d3683e6536c060803ffc212196f0ff2c67e4";
  "0x0ee9cf22df83ea65498f9a21c7fd1bc8146230a8afc35d4b113496b054628483";
  "0x080ed9d2cd06f594c5b9d4173c171d45589555471b447d0388770279c88c5f66";
  "0x0d5eab16b7f6a1ca4b3d11bbe71a411c1a5af9fe266908cefc1f11f05222cc73";
  "0x18c10114385e685662a66aa4f00056208b299d3666ec6d59a75b3ccd97940a5f";
  "0x226b931af7aa4f0b427594f085793d35c0093878ac2eb9cc17f934756c78f883";
  "0x1f0763a58cd8d1c5a4bfdbd85dc64e6f313cf743be788afcc82a103b4e5f8d52";
  "0x185d223a098c064ed1f00d9038348d32647c3aa0406cc0c25385007b8cc07b3a";
  "0x1fe79a06864fa291d168c02941b8d6c17bde9634d30dec4c9d2efdb5d0ef96a1";
  "0x167b0bee9844f267deaeec669d09f340bb4a98db8ad6ab30b1e976f8395192d4";
  "0x2ec0926f0846b6b42acd0ec248b08ed426f9a058e8aa11d6a898dc9894d4b5ee";
  "0x1f28a35e6593c89c03a17ccfe34ecd8ce5b46338bc79503100c77a9e860418e2";
  "0x221a992cc22d1efcefeb79b79746be182b9bf34f1817f5e153979009936f01aa";
  "0x007ce77af0587be79e06d5e9ef477aa8aa1f88e9392321ceb9bc670cb37d6eb8";
  "0x1feebf1f4732b3637854bbd35695e241bd4d60f8f1342090bf8824f58d437375";
  "0x2842a4b90bf492d36d701b29985907bbb53add82553f45d03e3d306f8a03d543";
  "0x256809b2f9f3d3c4d8045f35e95f1b9476364bf8cccb91a921f4c57e7b829e3e";
  "0x07525dc84bc5ae49c154a249f85068f817923f691c1b094dfccf28149a9aef9b";
  "0x0231b93b1efc6ad6894022a9411df3eee98e21c78680c70896f36bacd74427ec";
  "0x20f402f48089d73e24bcb205b2f9a4d0cbfb83b718186c95c1a6905f509f2b8d";
  "0x3024c8a765af4b944b8e57b25b9be1ad761263d77b404c23f482445769f2b6e9";
  "0x24f87b26ff0137138ced83149d5de82c06926ffaaa628c0e8884067ff05569a9";
  "0x03b7ea406b7257952cca18e2e998ae164b1df9c2d43ec9243b9e7e8ede9f94b6";
  "0x2f00037ca863fb6b50e0a9a0696506e4287a0307b26a8dc554f3e7197e0b3dd3";
  "0x28126796027578f44fd2c3135eb454b797087fd970d576ddf335f54b9998572a";
  "0x1670e4fc8f8df364b43ea85ede2a0cfeced43dc33a7befe8dccdd65d4799c43d";
  "0x1424f710c8c88560b653c233e18151659d1ade52649bf8d5a1d7ee2b2c7090e5";
  "0x2b4db5da7aaeddd192b6c6ba4da325ca171af1a9bf0d01249c5cbf55d23e1e9e";
  "0x0065ed5c44f587dd8295232fe97bc97b31e877a781653a556b52bfbfaab56cec";
  "0x05bb8b7b9a933df480da5a5d2e1cab060c4190d95e11770ea1a92fceef22f6e9";
  "0x27bcfcad647ca794db60ce42b1e2401b02f33b050951f5f8b3e900f83672f240";
  "0x07519003b29faedbf0f0d3275899aadf83da9de12ad659ee6774f2573daa37b9";
  "0x1ff1338e0f6a2bc60e1dbde7e402805df76164b037e08bec3e43035deaf4b27b";
  "0x2881d16b82a369b1d807716be0b5d77153522b454553f072f6d07b5d53127ecd";
  "0x0d03403f0609f0f136ad2c73cb01209ef970af8b7687acb3f69a1217c6eb357c";
  "0x027f61dacd335aa768444a921f7eb7a151e423e89cccf5ccc1f5bd98445e10d5";
  "0x1df102356c48fb1d4317cd76b41a618e7d3a90b6068c6714877273ee38ca10a9";
  "0x071f1d247593bc6290d2440c0d7910c2a080ca350165ab4a4b8cc5bc5c07607a";
  "0x0f161eeee4ded95da8a6e1a20bb80f5138bb19d20b0f3521db1550d3e7d355da";
  "0x14cb86a08460d48be81bab8d0cff646110855d89f0456bd7eca7c7a77d3f5e63";
  "0x2c1444082148903bb14cc0197096a1168fe70eff648c01019244ab4d5e862e80";
  "0x2d4e31537da2920d03dbd81829c107535503ef3df089b3e717060e6f95425f84";
  "0x142d85a93f44913c756f30a93eb8184d4531d6808858c8339dc3da25fb33043c";
  "0x08b5e12b7d6f1d8828805acf03dc91b8aebbbc8b73735593227b940857bc4809";
  "0x16e73781668ebdb7362a35d8b7a18b90e08ab20e075584119b1371da6eee5c9a";
  "0x2a91dc50d769fa81d67cfc88b6ef47fb9d763df560d1c1b1523574079677321d";
  "0x0cfe19f42d404dc8110c939e7e5174d659c59d257265ff1465436f3ac8090c02";
  "0x069989f8c7991706a721ef1f37c1c9e528569a9eafc5c2e5223f935d7b5c6dd9";
  "0x040bf9985e0c4ade21012afe4c162daf99272ae48939d95ef2a4d4c5621d536e";
  "0x26a4341f313df9c3a023ff96a4dc19f66a5ff91055c0e340165ac4d1a5542ec6";
  "0x001c63e5d5f08afb9c2e40b5ca83c0ad1a3ff22a2617add37871acde0ab258fe";
  "0x17781a1f936cacf95c581a1569876b0462778c716ec56695ec9c6f9a6eb498a7";
  "0x08759b719c1505b40c2ee023fa2d6e29d3f07b5b5fd58355e5d78d60e35dc637";
  "0x132271d001d80aaf9042cb9192e1147e9d23fa18ef102551cce3993bfa583d27";
  "0x1c709174f807de4865f0d76748fcde83e5ed6a654bb96706139e4d3a8bfcc941";
  "0x23423bfde02004ea14ce32a0b2c14c568deb7ef61da9ee8b780d2eb62ee4a782";
  "0x195bf8bbc98db6ed28e001ab599af96a594449c9e98b4ca92a42a3c9b66b6028";
  "0x2c0b31a98c2fe19228fa7407eae6feb05cf7ce1f15696df3a2650df42db5074f";
  "0x25faaa13140c45e258c820ab71cb48bc19a10a574bcc0c17d74af0c903990da3";
  "0x2282ce13de71f15b82f8ccf085cba6d347e54e1d9bfc4e3c3fa86bfd4d02b482";
  "0x17cb1fde9d640f3da22f12b47bb7cf7e950df5e4216cdca86e4cc355188f12c4";
  "0x00e1f33412f77f6a9eef66def9ce85c3679904a76c8eed891c61edf15e7a0f79";
  "0x115877bb743ef46097d9714e0f6d97ec953d7b4171a78e945617a57454f0b938";
  "0x22433e623ceb5f37732f85348abb85e13b58554a0b6eee6b5e2eeac10cbd5a74";
  "0x18acf20210e490b3b7662834e791f35eec92c80cda30686b339c698786ffc0cd";
  "0x2164e79882f082ae20ebe09dfdff6f3649ce588796b1bbb0220b50047894d8b7";
  "0x13f890d0d86fb086608faacc220365924bc5f3124c23e7ebffd2061bc539e81a";
  "0x151c3049b7f4769e88404f562acf36dd01684b6d4d92365457958e77780650fa";
  "0x21db3f7519441ec6bf4522ae1aa648455a77b20d4ffb6b6f82369c0f9f12eeec";
  "0x0f7159f65d1d2c673df6f7ff31a93d014d9515625e40599d8f745050a63a2a11";
  "0x06677a075f09eeae457ef6cea8bdb1564a4aba713bff944692237f043b09626a";
  "0x0a80bffb9f7332bc87ae45e3daadd9f25a377ecc98be462b8b03054ced8fad74";
  "0x1dfc460fb9a88fca0a5025832eae1684b2d340fe9bfc4412dfa51a11a4f819c7";
  "0x0e4d23fb5923fc509164d95d9547dbd68bebfa8a4cd168a7582157f46acc930c";
  "0x12a49e78ff7d784572f00feb5f7b5b6188bae8ab9214bae64407ada83d023193";
  "0x1ec3f491f63d1c27cbbf437f2e4ecaf06f82130f0dc24aca38a17abc00b4f89d";
  "0x20d4160f1ab4298baa957d7d8453ce1851b40e429abca95f8c52367cd4a2c55f";
  "0x28256caec30dc6d49c0f62bbc9626fc5a17fa692e206d74468735a3986ff9b1c";
  "0x2c554239e5185cb31727030d9aa6974a054c018a6e1ab71f89227b85f68f0ec8";
  "0x1e798b000628cfaa54f6b6db53df1b5d8dec1fbec5a8ba6956d57a1aa9ecdee3";
  "0x2bd211e00f6dfcbc11cf02c08b29a7dbb3b602d9b2ab09ee0d6243704691c983";
  "0x10c0f67b247eeffecfac5c16d251e0652d5b1828f7353cf9fd07647792640079";
  "0x2aa5ce3333a1767062d584f100d62e03b6de9f2d6dd1242a434286ca8912951d";
  "0x0a5852cf3a6a50487659ff7a516bc29e4d6be89e4389f6c53c577a42698930d7";
  "0x0cfbd657ebc944cdc11400211dc2567bfbf14e7114b9d4d520b9f7db45ef72ae";
  "0x220e712922b397ada88e4c37c82ad0e6b2cdfa8dafa615c4d39d4a2eafedbcd6";
  "0x28a9bd1ae9fdffeb3677058f424559313b32a2720263de70f81d105b0b877f5c";
  "0x0b592054b87b0ad768cfd86bc1cc1aeba9d49f55405d9624d2d6e52b1d7c2ca2";
  "0x0a81a40c49461adc4f72731eaef0b53bdda96bd653fe79e249c165864a5c9a5f";
  "0x19fdeef9864f02afbb4a056ffc36769e331c58a75727f7b69291275cc8574d9d";
  "0x05ac8073df5f25d1659daf20fad51acc95342b9f3c8644074582a2dd9f08f0ae";
  "0x2711454899dea12e8ba1ffcded5a14dabc9c18add93023f0432be689e2de77ea";
  "0x1ff4c7e0c57efd39199d8332cc1253ddcf434e2a1bffa8ea0b8baac64dc4925d";
  "0x18b8b4559b8ed876b88697cf9a7cc4ca873cff7f4cdb8e074459b631492de854";
  "0x1ba8af43c68587af1875469f286393de0ca0867d7217982374b0323edf691185";
  "0x136c08d4b03d2fae2e098b93ec24f3433be488bd85451180f23fcc4561923657";
  "0x02fba9585198372c96fdc4afd17062a99da7a52a3722f700ea2989f302e15dd9";
  "0x2d2ab813664f5dd34c4bd9cc4876c25bae0cc8e9194d04a9d58b706114887053";
  "0x24e8ad0ea1aa365d38acbfed67d8b29a8a2aa12290e7c11261c62c7ba3e9cc0f";
  "0x0c713507c56b65853be64008d65f60c671d779a39080003acefbfbf808ac45b7";
  "0x077f5ff391be46286c74fe2ecb96b2dbd05af2d92e96804899eeb5f8acf56e61";
  "0x206cfcfa0bb0bf82d6fa7dd0c92f69c577a3d69ae3f9f84fdea960d7076c7f25";
  "0x07651c0872e4413f38ede150326ea180453f72c10c0619ffb86f11ed7e196b7a";
  "0x17bdfcbf0ac0a35926b7db1807fe3d7c28d50036e245ab72b6aa5328c53454c1";
  "0x0e3a46cfbf1d6aed47489e4de5ef30ae3926cc0b995cf2ac82a01630ad6ab111";
  "0x0b939af76997133e8318968b0a1bc24da479de0dd1a0cf123243d3e97783e9ed";
  "0x05c763c230888d09250285627ff353ad959becc1e3c3a0e955a0b6379679b1fa";
  "0x1b974cb31e7b6df7c2f2b4874d0ddeb5f2f1cff28ce40585042d68c22d194fc1";
  "0x0049c19694a1ea5dbccdcb953a9c3281515c1dd0d692d73f70041fc23d5de4a5";
  "0x0de300974fe2c6c0fa4a887fb0a6af4db30fcfab432c9bcf0033dd04499db448";
  "0x273a9b6a8876bb0223a5d2e65e01c4fd90a4f7a197b0bd4b596a9c92d53e3b91";
  "0x168466d88bb947d672c98377f0c8e5a6e9b0c709427b703b94af56b34f6154c6";
  "0x2b1431eb56ee8afd7ee8153d6bebfcd4029f031e137186ce1efccbcdc3ceba1a";
  "0x0014f59606882e3c824932dbb3d314abc99890293bad2639afb4e91a357ea608";
  "0x062487943a1f6fee80e4e230c941d46564ad41de1515770605c3793af173f812";
  "0x05b85d8ae496d19353849cb28d15aea0d2a7bce39c7cfeda40690a87f682edd8";
  "0x15e91807106ea973d4de718af55b731d29aa249600bbb635ea1b0117ef5225b4";
  "0x225cc56c20ddcd921d30a6d1174b9482c052e9e1c6f6115f60861af58f06c7ab";
  "0x1f72d4c7e5ec731ef184efc57f64c77e579ddb838575ebc3ed66b162279b9131";
  "0x0aa3cfa73b52dcbbe87e1282c62fee52bad4851840c5b2802e2a88c6fb0ea5cb";
  "0x1dfb008a11e5157c1d142d81948c8178bf2ed42ad16d0a7ddaaa9ea212994530"
].
