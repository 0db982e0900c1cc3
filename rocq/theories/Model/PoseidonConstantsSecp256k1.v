(** src/r1cs/gadgets/poseidon_constants.rs: the tables of Poseidon round constants
    and matrices of the feature secp256k1. Generated from the source text.
    There are none for the widths 3 and 9. *)
From Coq Require Import String List.
Import ListNotations.
Local Open Scope string_scope.

(** poseidon_constants.rs 2534-2570 *)
Definition SECP256K1_MDS_ENTRIES_W_5 : list (list string) := [
  ["0x66666666666666666666666666666665e445f1f5dfb6a67e4cba8c385348e6e7";
   "0xd5555555555555555555555555555554463c62c03cbc85871fd9f975582d3661";
   "0x49249249249249249249249249249248c79facd43214c011123c1b03a93412a5";
   "0xdffffffffffffffffffffffffffffffee3590149d95f8c3447d812bb362f7919";
   "0x8e38e38e38e38e38e38e38e38e38e38d842841d57dd303af6a9150f8e5737996"];
  ["0xd5555555555555555555555555555554463c62c03cbc85871fd9f975582d3661";
   "0x49249249249249249249249249249248c79facd43214c011123c1b03a93412a5";
   "0xdffffffffffffffffffffffffffffffee3590149d95f8c3447d812bb362f7919";
   "0x8e38e38e38e38e38e38e38e38e38e38d842841d57dd303af6a9150f8e5737996";
   "0xb33333333333333333333333333333324f7a676e477fa35d0646756291bf9414"];
  ["0x49249249249249249249249249249248c79facd43214c011123c1b03a93412a5";
   "0xdffffffffffffffffffffffffffffffee3590149d95f8c3447d812bb362f7919";
   "0x8e38e38e38e38e38e38e38e38e38e38d842841d57dd303af6a9150f8e5737996";
   "0xb33333333333333333333333333333324f7a676e477fa35d0646756291bf9414";
   "0xa2e8ba2e8ba2e8ba2e8ba2e8ba2e8ba219b51835b55cc30ebfe2f6599bc56f58"];
  ["0xdffffffffffffffffffffffffffffffee3590149d95f8c3447d812bb362f7919";
   "0x8e38e38e38e38e38e38e38e38e38e38d842841d57dd303af6a9150f8e5737996";
   "0xb33333333333333333333333333333324f7a676e477fa35d0646756291bf9414";
   "0xa2e8ba2e8ba2e8ba2e8ba2e8ba2e8ba219b51835b55cc30ebfe2f6599bc56f58";
   "0xeaaaaaaaaaaaaaaaaaaaaaaaaaaaaaa980759fd3760292e16fd62c011431bbd1"];
  ["0x8e38e38e38e38e38e38e38e38e38e38d842841d57dd303af6a9150f8e5737996";
   "0xb33333333333333333333333333333324f7a676e477fa35d0646756291bf9414";
   "0xa2e8ba2e8ba2e8ba2e8ba2e8ba2e8ba219b51835b55cc30ebfe2f6599bc56f58";
   "0xeaaaaaaaaaaaaaaaaaaaaaaaaaaaaaa980759fd3760292e16fd62c011431bbd1";
   "0x13b13b13b13b13b13b13b13b13b13b139834d5ea5c40a9dd3623dfe3727a53ca"]
].

(** poseidon_constants.rs 2572-2893 *)
Definition SECP256K1_ROUND_CONSTS_W_5 : list string := [
  "0xb0835506f78ecd84d49ebfb8feba7bb3b899de3caed6159b8d46adc1ce3e2dab";
  "0x9cf23894ce9dff82fb8a9b46121429bb1736c7c3cc5cead0f5b2e4f0254155d3";
  "0xb7521c203913afcb31d87626340dec9ef9c51701447059192640094a57fc5209";
  "0xa6bfa7161b9a55167cdc41a8ce4db419132c8026f93a4c8eb6a66a6668f5a190";
  "0xb95d0c0927f9d5df17f33f10db79162eb59383ab8c378ed7b95fb83812906f85";
  "0xc3f2bad9bd99c9f174a5c1e26f8233e387cbd89d14de744ae751f0731132f393";
  "0xd6611ad3289379d84f39bd9cbbf59754246049ecd367709061beb4f7f8e0d700";
  "0x94d361be149fa653a3508d1d204c43c16749ebad46a2d7e9526b12a34d5ecd4d";
  "0x116f5680b4d90d21df0a49af2bc8f2f4a1d67041a440ac9b49fd01206b23f924";
  "0xb6dcc7186f70f493a135c38d65361c9171524bb486b80ebc01068959add622e5";
  "0xbb2e9a9693b9bde47049d4aec94bfa06d0985d57ba36ef0cff546a96cdc2b309";
  "0x200bc1b404ec8ed7955f4b2b76420d5ba1b1905760f0b5f013c854ba74822acc";
  "0x216a928343381c08768d5959d28630e129ddcc88c59f2a36f93d2fbe5b5b1391";
  "0x31bc8477d78d655f8f638fa0fc84990f81417dd7b302151c49e3565043bec800";
  "0x40f67d25876999f4e2b0a9dcbc119d958212bd5d2e2ab1aa57270697660ed258";
  "0xcefc2fa783f1a04374296fdf67ad1b05a131346ea4b85f5ed421115e1fe95323";
  "0x4cff38a5983c45e02a7b39b02f623e6ceba83a7decf6530db85da8d560bcc47a";
  "0x6925caf314d5e72ec389ca147f3e91f490a2c9686d22ce205e6f2955bec7a33a";
  "0xb144981cd83c5a634ea589dbfd6cd7eb41de45b0e1ef5167ae3b77fabf29420e";
  "0xc9413ba6d815343cc389749c0cc5120775f98c0b3d6ed15f6b03b13b847011ab";
  "0x92fc38cb3eaf3c51ddb89d02f0c4dfc32cdfbf5640772550a3d013c3f8945305";
  "0xfcf822a7e7a4e116a9a14164720078ee167e82178810f822faa97f04df3fa92a";
  "0x7526782fd22c54d40714e86e7384a02e058a4e8f04c0211ebab2546cedaeb045";
  "0x4eab238efaa16ee9c86b78ca6bc59072c82427a89b93319b28503fa86514349a";
  "0xa2458b74c5f24f42b5d2d4e99e0ee416b107f51d2b7e16989602158c45c06e33";
  "0x69d932d8f9a8a1b81d12a107df1195965f3198733d239812c74ca83841162492";
  "0x9168214b1434ab332b4b45cc34187d5d31585ac5f5eccf6a3c3f3436c3b48f8c";
  "0xeadc978604684e4933a87fae901128d26983f221c700d56ce94e5a9a30fdf1fa";
  "0x2b4bb4ecbb601b72919233624d01be77a564bf0345c553486cbd45330992d959";
  "0xb6086b3856802d36e1ca62c9c8206ee2718796c7407f24ecdfa4eb269a6d99d4";
  "0xe4f6e595080e8b4baa9857f7da81e439c09b8591169fe91ac959944b15d10b2d";
  "0x169f751b7257aeeaf9a610611736df349d4463e5e1fb8854aae34988b28cbac2";
  "0xb1ec4ee82187942467109315d2deae358c364bfe5b63a7619fb061336d1d6d27";
  "0x44315318354feafea37f7901c5cc04f5cc44bfbb5ed244c3540588a22d1e21b1";
  "0x4b1fece2b1ae5a328d80399e47453a72d56300cdfd60d798cf180f8c437cd087";
  "0xb48308cd662f470320d3eea4ec82c6c4ad23458450ea5cdbc8d22d5e078f627d";
  "0x4c64e8c512c6f43c39410b76eb751828648286dbf26b4e358f9e7bfa20d8a992";
  "0x598e85c7e856e0c000371c472fb9bc30438b8e84fbb6e6e19b457bb9c01e4343";
  "0x69f1f45ee795d8299fb376242a58e0ab74d231af93a8609777bc0d0a2c2cee78";
  "0x5efc9a767eb2df2a0a1ae81563aea3361c457bbcee279143e7cc314c9311e5a4";
  "0x7daf1fb9852e1109cd77ea083980a0ff922105314e73a680ab529b5c88939ff4";
  "0x3e82c5291bab365a97a301287be17ef3322778643d630ca2349c464c114ef71a";
  "0xa6144db5200bd9b8411446a3a37de92563195717eacad8277a62e169dc94c45a";
  "0x49f93328165dcccfa6b0ceb77297ceb78acae69dc8292500ac6a7c7b8026ea74";
  "0x4195da3fce61213b9626f5abf4d3c918c90347fd00a229ee3c05c3e4ac665bfd";
  "0x3756c83c119b00075e00517978636cd29c36f16f118f6b8ecbd9462e3a70817c";
  "0x97c8b649ec46d0c6629dce4aae18d040b2acc8189dffea18e0d19c8a7445b98c";
  "0xdade1eefcf0fbe33024338b437ee9f73d4ed04bcde66bb16dca1731f0cbe39df";
  "0x1288a2c61c5779a6c2b66427148f71060963d3afd32ccc9db065cca0a067ffb0";
  "0x3b07e5262fcd2863156720065f64e7893ebb878eec09a9b42555a1f6b2f71dea";
  "0x61f7d8c7f3ca33154856e9017dcbb364c9ce44a5e718debe554687c5e370a595";
  "0xe746b944c0098501b97616376c268354e8a58b34a951bcc4861376b34f51d026";
  "0x44d4ece8e2d4e22c2581cbfa7729f777fd3b6e43ec86035b81e02ce25574adee";
  "0xdb7eec18243aed20eb741e4027cee15737d1f309e2f6eb81cfdc1d436c2affe4";
  "0x4a0766d720a9925c8a9bbbcdce80269d1e88ee610496c29c76fe49e46e0359c4";
  "0xb5b3cf02b4ddc8fceb3f48cbbf822c62181e5c12aa4dc528ec65d16ffa715202";
  "0xf9d201facef4b8c42cacfe88d4e0fd869e1ad35a0b2d9fdb64ae8da53dd7bae8";
  "0xcf1093ff69df88c47f43b7e499785fff7c9e1607d3ac57b1430cd48ee54c3601";
  "0x3e5132645a42592d5402ede8aaadf18d90b1855c0278532a87e4fadf73fd565d";
  "0x7fb6dc729915e37ceddc6000f573e1ff9216f058b55a855f1f43e70a362479bc";
  "0x86dc6ca262255b7298088fbb62e65c018cc75422df3aa91ba5a6f2158845e2a2";
  "0xb834a83be0b6f83ca847fd31829fa0f74c4456f8ecf08dc23e93f083a5727308";
  "0x6e71e143290f45dedf0b0d4f6ccfc42c154f20c048d22ad80b0b0e94488d3974";
  "0x10a849507e2f13519dbcc14bed3f34c7f896d1a491f9fc4df7eca4cb53921e76";
  "0x8fe322e400d2327f27ddb2ea31870d721fa1789aff985481d62fdd3dd83f97fa";
  "0xca3b8e0522fed6a97dff8483f3491a3371128782eb9b52cbbee31719b4bf7ead";
  "0x57ad6effd2446058a847f214ace6a11c612088bd20d780ed9dbd529d6ba1cd61";
  "0x2805845261cbcbfdd1b1ce81268253d58f2ad8c146f7d6f7e9c4c588971d06ab";
  "0xffdcadb4bbd1287c1cc255562b64803051134bffd23417af69bf1e29c3529694";
  "0x92a0793a5da88b4f1267601c6aacbc29b6ce31e7125e1fbf7a6b936294d06073";
  "0x6109dcb333a6db1f158b2c4bc8d2582c5b1fe536de23af610d7498038b23051f";
  "0x18a0a45bde899c6612a1eead00de50151b9db55e8de0696a5036533961faacc6";
  "0x68269b874d5cd8925273bb71d2a1af75902dcb7eed4c5d597d085d6f769e8b41";
  "0x8763e87227e9132969bdc195cb6bbcde543c1460b2cb42fbd8e8014901386b3e";
  "0xec79de5d9e2498cbc774782f853bf0cb8aff39150376cd191b83aaf0bbb6798d";
  "0x8f2acfd93870fe8497c647fa117ad3d6cb81647d46e5dbac6b485c466eb92f60";
  "0x114396651bf786c8d61cd1b1eaaffccf0dcc6d63198f2837147fee68e672d96d";
  "0xed22b03a2ccf076642fe45b5ba124fe58fbb1e26d955a6a4c9352ba748f12ea9";
  "0x15c45398942e7c438486c96ce11e3443935a84bc79f827f6ad96fc962ffdaea6";
  "0xd3af78fcc447a3bf6798ee152e44ed1381e750405d425bb7a0076d06b69bd4ef";
  "0xe5d5da9d446779be59118f932a162fb9469aed1ae1c64c5fd48bdbd087b6f98a";
  "0x245faf951e50f79fda1ca16ac0c3f418db642151d2c43e8335bab4de4fe80d24";
  "0x34ec7df2af58baba80ff9bf24508308ce26d7d1ff738e6d2e0744d93594916b4";
  "0x9226991a08885b3bce15b72aab01e2b0bcbf33ea1aefd315aaf5ff20915e8e3c";
  "0x28d6b056030b98dd46099be98c35e420b340d9cd8fa07aef6bca07fbb002d7cb";
  "0x1a81d74dc395272019b499cf6f3c4771c483c50345797733b296e04df66b50a5";
  "0xedebb22a4b5b57d9e94385524c358f0aedd0af0599a52f113ec51706006c1e41";
  "0xcea19cb623de08c37e9c68b39ee0d7614d52fecb666d165fb7e7b70f90875d96";
  "0xbfef2c3c7811745e7a737466a397feb3d0fbba633a37b871b331eee12993d6b4";
  "0xf818dd0d016ba7ebacdb0ac92f4f6070446dc2570e58e88550191bbf58d30d86";
  "0x5dd13832fc2de56d3974535b2ee97ca54ea162844a3f55a1b104401aa3c63bac";
  "0x18a96d6f49fc0d1d9eca0a5daca9f5c6d38aeefb903f2d417a8309e932ddb87b";
  "0x7eea703913290bad8ce1262817857218ff57a9ec9518bd99fc93438c3bcbaa1c";
  "0xda06acb9f9ea6d33bb7b3dae0326cde293f9d06d099228086ed13c8d1306be01";
  "0xec087c67d67c7667f86f82dd675dc356eadb74c1213ce8c515ef36e5ecf75db5";
  "0x2a1e5810973b699dee5d4889609877d6e4acf1e0c9d0ce564caefdd33c77a33a";
  "0x59ce732288fd0d8634b6746ac03affda85e093c55ccd7310b3bd04bc2a778398";
  "0x5b1015420d8e5ced057b74ef3cf383fccc94853cbf2c210c4916acee647bd348";
  "0x8ac03fa48410edcce05f47bf04222cbe840f8d3a0d6523852709fd9ada47534e";
  "0xf638cec3802e25c680e4287f059a2059b837ddc59a85911420e32ae4f1210576";
  "0x658d8d7b37a7ef0da294277f729108c1210b4678d6a255e2692df4acf5e7c04a";
  "0xb65073c062b18dd2c5789da84c741908933245954b723df13c304e14365011a5";
  "0x71935d002fb605d5c15d73bfea9d8f06404ca50b4f6e27115e5725527c0cb4ae";
  "0xb7ed1514213ce71fd58e00aafdb4b73e984c8696e7cd19c581c2f958e1098af8";
  "0xb8ffe5ad82def1d3e8ec2ba097ae04ca49d567042aea86eb8ee85959048ea665";
  "0xde0753947caf4b8592a44b0e5842b3b71d650463e9fd0de1405d17e3d0d30e0f";
  "0x577d9122ea7a7a9eb80cd695a8353f571bcb7afc71f7b7468d89c5c65801ea07";
  "0x5ebd477e4cf519921d3b8b85a56415ecab9263ecc274198693eb1e1266500df2";
  "0x27e84d35382d2135ed03a52b5581d2ecea4cf9fbb51e19c68a007db4d44f39a0";
  "0xa8bc3f829a0138a9f72707c7f4f23db000e38505b23e3db3ae6f0cf57675ecec";
  "0xd831cb9617e7232edcb3f968cc7d6f029abe6029fb5c9296007c7e7c2743410b";
  "0xec8450df30e7f9d402a4002b5a251819935ec84097f184f2291539ccbf3a1a9c";
  "0x6fd6bca9eb10142d59314f86e37421dd197531401843a07f89f94748cc137187";
  "0x66ec29dd315b24460f06010c2aee396b44b8d430447899c2efcc15e2f5447766";
  "0x9f7949ae5d515af71d05a7e98a334b3c2544decc080ff6caeb602d07b4656042";
  "0xf17d059755e4f546bac43a1bc2c46745e033c71f2057ebc36a1eddc8b56b0f16";
  "0xa7b03c62bd7ef76910efe347b845cc7cc8e0b38065a13ab2f36651a329b64d70";
  "0x058b3ee2cff2cc261b4910cf14a9c6ef991a635602fd6ad6541777db6a1cf7e9";
  "0x2174f91c995ea777fb1ffb7df4d33bde20fbe6c34a65b452c8addeeae8dedc4e";
  "0xec699194af6c253c13e7389b42a72cfe99ba389aa9a8b3a43e68d07d07028b2c";
  "0x454cff8c2133475baed4a4795b1102ca9ac748f47e8d616ba7aaaf4490f54471";
  "0xb131a68247df04fd76334804abb05526640de32c26c35420951102935e5b24df";
  "0x83141a4d24f301d40f1f6812e2be39b4deb56f02c6b2cee37ccd65e62351f78a";
  "0x9f6945f45851ba2e6bb9aba603d3ffcdc75bebee194c74f4beb833de981cebe4";
  "0xac3cfc950d5ab7f608d8de00756785ab95689391d89b26d5c3020b2af05e7e55";
  "0x7ee9cfb55efcbe9f26059b37c4d3c71088cb268a05789502facafbc9e5b7f0e6";
  "0xc9a083b192acd0e7548c6973eeb1fa99d1691556a93aab155667e031da628b09";
  "0x4e11be8cda39bf0c2a08c5bb4ced7d621da02abf81adc79a9b015105f0f11579";
  "0xc18629a2dbe99403852d3caed6165a02cc4c1c475268d8529b8c772fb45c0019";
  "0x8668b5cc6b6cae3dbbb7dd1ecfb480cd4994165eb763149fd76521bdca1a6bd8";
  "0xaabc8d65a8e88e7855d469be3c39f2279be11c7dfed3d7774fa0eb0bb63f77a5";
  "0x4badf4e38eaa82da5727e3793c950a13be34b5daab837844ad88bdcea42deaa4";
  "0x007b5ec53cce451e20e04516e717b45d68eee5174b1b18537f406bfe160219b2";
  "0x14863d25ebcc130c6bea9e3d5b2aab52bcfb716600600d49a751a2762f8550d5";
  "0x4ed5d002bcd635cfd4624590c46192836df47ec6ffa767c01ad6cf75273e791c";
  "0xfbb75c0d2b30ef477b7dbc4e561d428be5627d70b014e92110f5bb7e6aeeca49";
  "0x747eae56113544ffd602b5719ab677452e9b213edff1c1906d9110b79934fc62";
  "0x06c7ef27269a916670dc97768491ada11da09b7f71c97c0824ec7a3a3908ea22";
  "0xe19304237aa65ceb6d31c5508a6bfc05118c23c481debfd600f19d390c232644";
  "0x1102a9b7bc5bf2768a35f0bd4db8e13f167fbe4a30b22b1e36bc4e517555c63f";
  "0x2c4cfe28ca89512ca13f25defe24d6378f2183c35fb934377a761950af50445c";
  "0x0987d96cd038cd51f95c2aa0934445c5c2fb4d050024d15bd32bb5d479915522";
  "0xf5fb3ada08430914edeb37f764a06fd95b62f8e5b72b0e9875184184b1893c51";
  "0x38316197766f9a8baf3025d4a6b3e469440d762666ed912534909892bc2acd97";
  "0x706a319e8d22b14d17eaf316b092860a7b5ece7a47226256456d7a5916276ca6";
  "0x9875415c14ca10ac2afcedf2a063c6fe7b9a7a5c228355a951a1e8c2992c068f";
  "0x2be0d4b0020ff87857c149bed9b5141ed14abc5b8c29bec9781a34566b104510";
  "0x21dbb57d5c7292f10892b366890e1981b5bd1111936d3a0839168abd326af619";
  "0xdfa21dc4b355de640d24b2e930bd5d60f97dbe7232ec12a46c4835b47778c2ec";
  "0x17900e986c46e93a8f6e5a5e2e6871f3bfd2a5793508fdf6bcf4998f1c808c46";
  "0x1888cb9587eb5ffdc68f7df7b6be34e0ae656c259a87cac15f289b80af93fa25";
  "0xdf3d8cf81fa56a54a4a629e5b0b3788ebf8bacdcfd91bfeccc1c624b114c5855";
  "0xf5bfd937ab11faec4dad3ed1673ac6256de27aaf21c46a5e3950ba07710d00b1";
  "0x0d0dc9d8f38beb26da004414e210bd39b13fc31c2844b2de419c278c9ca98222";
  "0xd0313b6763cac3bfbcc434ab276f95934847ed70b337ba752d59a1f199ddf5f5";
  "0x0b6a432976923a5ed8010975a983bfb073d05a004c30126de7ba88fb26b33908";
  "0xfcefdedfb1dc8df10afea189739c9424953386670c7201c025aae9edb85da000";
  "0xf23a457d566d865a586eb21655a07857f33a0cf18764490e21d64e53e041a2e8";
  "0xd1a42a4a8ee436b42338b5668c66cdcd359b876fdac57e04b60932132c0d7ba4";
  "0x8c9e7c8f72ddb68015fcf63dc6c70855f4e08b024f2a5211cf16a4367a238e1c";
  "0xc6be2b4252ff1fbb4f608c8d2df1fa115d5a757c48aebbe9d68162bfeadb91a8";
  "0xef120a8f43fdcfed49b8f050eec3a7818751ef8000f8754067a95eddad831700";
  "0x5c073edb30d99feaa1ebe774fe0ae7a675708188206ba6c8a8fb54401976b2fb";
  "0xe233fc08aa80a5fa8a3f2670fe59c36f86726354db932b2347c63488565cc09b";
  "0x6f8ef7f77f049b8a1fbe8dc175acfdb295e15d089597ba7f61e909ec805af3b4";
  "0x71d20b9c8524f0cb128daf508d4940d3a96250729b57875359e0005b84b37ebe";
  "0xaf87711ff3a197121b8af53bd29492370b899b7a23baf43e03b10d7ee2a18309";
  "0xc7756ec53b323efbd5e84e450e2edebba32d079c865212676afbd8bb165e96c3";
  "0x5a4599169b6662b2df2c0ed2e569982cdd851812606da22b8b45c0aacbaebb1a";
  "0x0e1bdeb4a673442c01e9a56e8701255ae795e90c233d8a9ccdeea1222983e628";
  "0xb87a1b8274add16cb200ec508819569ea5adb0a4384c663cf27113b7088164a4";
  "0xd640ec5f93b6845d8b8f7ab0e0e6a0729a07aa0250b504e43769162510a66276";
  "0x6d1c9d15873ad75cc011bed6b691557454f1822ec2dc1baae67c43209fb35603";
  "0x1bd4bed740bdcec639569d4c748f447ca850f6f12795d0568ef18c430576306b";
  "0xe9583a2980e1243fa7744e44121df36fb2bc15e3dffdd8228067e90bb2557f1c";
  "0xd1e467f8143c01175da7f30c3525617cb7d2b0995765be35797f891a42255a42";
  "0x8393e546a09cdebc7ab003e3eb733d8cc1192d205091549b82d3a2d1044faa55";
  "0xe90722cd4574f555a285ffb5cee154e9aa0a1dde6832fde2a1a01af08b2503eb";
  "0xb57e2f405e1661233749712e6ce90f429dbbb067b931115ea520cca27691ef6e";
  "0xd666a08d31279f11cda04b3984dfe7d0157221958fb0676785872a4beb736186";
  "0x9596117d74e4d3ab44732a8ae48a3c8637d49a358c881a4e290692f752286a71";
  "0xe0bb27644955232f2eb3b9208de65176cfeecd875613c4b1102bbee6796c863c";
  "0x1bf79dc313562f7b1cb78de4736dbf88bac484b8fbad4abc5977692d6488bbff";
  "0x463cb4f932c81921da7d577bf624d35a0da0ee901b5791d457a1107f7978695d";
  "0xed4b8cf7814b5ef78cf07af0af46c83e16ed1ca98b9166a00a4a524382640387";
  "0x1a31d7e243be41cbda7db77be9bc35c87affc6e9461c32996193077b450a719b";
  "0xd1ead56a450dc67c38fd1dd3cc66af15d581bedb7f4fea5439ad88301ee43d16";
  "0xe52c2839f528c5dab692004d0717c782f46250700eb59640d0aae57d3517a4de";
  "0xf60b6d5b9d47446029279da0b1417964f72543d5ef995afaf913681745fdac62";
  "0x79343929c1576204c73b6ee82529aa8a14ae5726c8bc5c784bdcb027421b70c8";
  "0x95bcc4b08b0b3d387aab8a602a02f4b23d1e310690f7c080ccf3226838372693";
  "0x8cf1af29b107fc5a52e312fd1826e4a4c91e773cb55062a404f469b834d6cbe1";
  "0xe798dfee7ede61886bb668e2095f7f91a8e8fd050bb343e9c563bc77ffba3f27";
  "0xe0ecd519848d94327aa461857901af7854a2db678bde47967b7d15f0d050b1c8";
  "0x5d1b6ee196ec831fe9bac2f96e9d1cd863e572f269e35c543719782733edf53c";
  "0x5a1e8bf4e5b1472116c2ae1102f432ef150f02157d6c2fa77086d130a7448948";
  "0xa6193e9943c2e8b1b193904a4f871f5014e66e4aeb0a4a5e85f141feaf41a0cd";
  "0x1fb6895a2072300a8440a3a3906ba82e0a820e43b4cf79481c406d4783255b50";
  "0xee9e784c4e5d18479ebe6d51576c7f0f5f34c4a56ea8532515f698a2b9bf581f";
  "0x31c696fa0a16f53522b95c63ea407592960bb107396593d7610e17e5abbb3792";
  "0x8a7a03c459b0d1b4662723778aba0673b7c847edf258734b0d125d2096981fd3";
  "0x27a0a9056a50ae40eb987c8da2abb6f24e5894b1de7bcec5d730812e437268bb";
  "0xd00737cc58cddc1fd924167846475ae99378221d665356ff5de8237dd24e7541";
  "0xbc3a37d79b6244bd1cef8677114203581e4623d1ad3112fdfa43d7246f9a6086";
  "0x9b24d605661b4af907f24849db6cbc67c33dcc8b6cb938072a355c18702dd858";
  "0xa2707dda910c0cc08e9f12b6fbcc6757bc738c5ef2ceecbc082b855e665e0279";
  "0x661cfe077c283d7040bfa92036b18fc587446eaecd7fd0eb778e5283073bf067";
  "0x052c4a7e55cec86a5afc08a1aff4a64f1734a9ba550988d05437b7df809d5903";
  "0x0622901208c7ed3fcf199cd33f83e3fb98b250936433a5dcf06dae2243b2df51";
  "0x6a9e2864e9f7ef603f0b5ce4904f8feb8322dfb4eaf0b0f9a3784eb44b3ffaf0";
  "0x76350f509ce2edb29a38cd80f87221487c3ada6d18074fc245255470ffedf309";
  "0xeeaad5d523ffffe4badef984594b879ca8c8f34065cf5217f67550dfc58b4e44";
  "0xeca2b603eccd1c6233da0fec918823607cdc04b8a173872e531408c9819dc7c4";
  "0x697966a9a9ba3a1c40b6f52bd3d829416bb6855f4a18e3894958b098f7d1086c";
  "0x774992f85d670ea3251a1f07273ca0b1bd6ff9d30d4510006ebe8e2533578993";
  "0x81bbbef26104e5fe39f0efb6d953b1ffc78708904efa5fab0a782bcb376909ef";
  "0x2c3fbf05e0450f9ce58c04cb83b8bea738e48cb76eee7d917df1f258cd3670e2";
  "0x04e4fe65860f5d81a5a4a3c1cfa64d1920048d0f06527c4ed43c78b91dd1b569";
  "0xbc6cd3abdc8320619f9eb607607179e87c855f92d68aca052ea60d6149658b71";
  "0x1946c8f680ec598ba94e2cc1f2945828b6ed08b00001d4eea664de676a1b3295";
  "0x7df982e83f55f99228e98079405ca3c1bf92e1fb8a51ae6ae90d069f29efce37";
  "0x9d13c33dc9fa4e34b7ea98af48dbde01fbde125693432b8495a738315b14aa77";
  "0x2c3c56cdb50158e08fef04b11dafd5edd25c63103d42a36a0ea54b7cc377590d";
  "0xcdbc0a586caf36c87a43118c6a1956090592875f5bd4a1ed1796601b31f8a756";
  "0xe50f76b2d74cf325d5633722a798d2922a0bb8590d66aaa4aea6523643df503c";
  "0x9df9e4c9d36b0e1aae93f2ccf95052e26a030d4fd2c80f714c440bb2661c2c03";
  "0x1acb355307a7475afe8cb58689311c8183112fe222e810e3c6b9aa68ee753dc6";
  "0x313258eeaf606d935c072373fe632e99d1a7821f46611573b7e1f3ea3ba04064";
  "0x4f3e478e6bd71b475864ebf68a6834f8936bed7e9fa5f55ac4d2caec83a833c9";
  "0x99c402988d57a900e0cd62046541b18a4937e689bc975466fc470e9082ca3c95";
  "0x4f52a653985accef3c8e4cc1a263d5b88068544a294a7c98cd95fa77d42931cd";
  "0x3b0734c4fd3956670ef6dc567e467a208b8f4c6c1b41acc4a13f1474a25ce461";
  "0xe2cdc7f3b938d8f14eaa8be9c9d13604b9922d32999d6b164413d887c63e2679";
  "0x139d6b39d3218a5046b73978599c8c277add91dd4a218a72465dd3a596d0d51a";
  "0xede8805561ee710db3bea66905f55b981fbf08b114fa1771836f7a69c638608f";
  "0xee457bfed9c409dd1064d46b6973f5b34451ae4ea71dad4354b711b46f9943c2";
  "0x04c2e79b92bd564bde3204c5d97e9b4b3ca88395b450e7523ce23daa0f07e85d";
  "0x4aafd2e4cddd93e5a9bb778c11a20f13fcc1b13b1f92920b8f11fc6d1c3d0230";
  "0x41ea6d5af118a6e71709668e5b4272efdd969b1e4ef836bd109e411af7f8bb2e";
  "0x053a9bc9bb0fc611fed33ce19c073ed8c6fdf58f0391c2c1c9735ac7066a4d1c";
  "0xd2ecbda0d2156910a116d16470c8b02238928a42fd6d4964b6b2fe389d840d80";
  "0xbdf3d310479a766989155782536e10cfe52bbcc22f220caacdd60e06dc34136e";
  "0x79cee6d4d8e7d9f1d771b748ef158e271347a7b72bdb7162bbbc6fe3f677fe50";
  "0x7d2842ea35f42548054df67e35aa01f66ec886bfb244d1bbf37186bbef2597b8";
  "0xba6536899d8e7d1980b6602b29488709c705bcd570e45e8d01195d62fcb089c5";
  "0xd3098b6b2e1445802019f751d1c24358311bbd5668c18eb3092721dc97d75f50";
  "0xd302dd42712a999ddd1e7617db9bb7ff71646c913dff28c107f4325557a12bc9";
  "0x31eb30fa2df1fd346e274a73dbee262afa976f370da29a249875e16654fd6322";
  "0x4265c58a1f768ba42773c417dbdd14750e3273762ee510478b858b47bcef6701";
  "0x9f10e5e8f87003c5dd74e71d0dabe46c07d4db6ad5349b814136c87d1d1ae36f";
  "0x72bb2104d0b42db494f674c00ddd5abc2416ca766883857bddaf734002cbf1b5";
  "0x58f54bf1d122950eb801b290f967dbaa19b78512e8a533b1f17c71d97ee5840a";
  "0x3fd8177db53702106392d3f2ef141df2c38f2a25ac570bb785b7fb1337ee6301";
  "0xb0e0d9e7184da12bb6e9c804de54d38e54f4f6fe1703395c4b35264efb6268bd";
  "0x549ff1f482f69b97033a2a48556c6e193019a9c9b03268147f27b91c186843af";
  "0x5e18dfdf716305bb8a105ab9453a8d76c2897c609fafc0bd6e424d1e46a6a178";
  "0xd48c044ad809564c9616040c47c39147fa0a344b3c657b1e78869e83d93fc7ad";
  "0x8a27e88834b77f514a24faa49c9f832b2d83b6e57fd1506b8a6014000d830c96";
  "0x532a7194eb8034d0e5f5723f8b645532c2a1e3e88163ad5d9bbe11c7b94fb9ab";
  "0x0c9d9d30ce6f1c0c2364923911e74455e528e4351d61258a930a3fef0a3369df";
  "0xbd394fa71981e7da4d5053190f20f0fbb0f05febb710cf02d2956d4629d311f8";
  "0xae57557dc30077f5c81d51b26b9fc7c0b3a7067fe3481145aeca2149c971db2f";
  "0x6f14469c3bb8bbb11047079efc2fc05fcfa82ab2cf1fdbd388cb4ea93d287e5c";
  "0x957f020f1c5aa8d24ed4795ace7f189e0f90bb02ad09b301e0518c116c4e158f";
  "0xfcd494f13e731c0d17a5d59cb7aee642baf88e97a342123ec57e14fbe304a1e8";
  "0xb2664e6d9fc241c00bff90d195a7f8e4bce168b70dcacdf6a2a851e8254f5634";
  "0x3a4223cdb7641e5377e7cd5a6accf46213295d1c269fd3d6ae8ab16eb293621c";
  "0xec8cf2b68a29ef5025699c3d127751e799cd6ac0cbfa1a16b701fc02afc0854c";
  "0x4c6c4252e0469a8ac09dfa40c8027b5996d531edbee5d61ce87d2405059521cc";
  "0x9d6654b3b8fe98390351ed1588ac184259facc11df78499c2f10a8efb3b47e86";
  "0x87c651b195b3d149d9ab4a0b3565c5160859b560c3bc80799e16904934105ad1";
  "0xf0c226a6c4f0773a80c84b66c1b217db906c31c08249d991456a994c43936200";
  "0xe26f93cbab8f3aabd529682d24101f64584650e0258469c50463be0255b82fba";
  "0x674da58c37e152eb4990e057cb31023fc7bf2b389a4293119cd9f349502b13f0";
  "0x388a7a96a842ac721afcd78931e085d54e610ef174533c3277c7178ce7b2eae9";
  "0x9c61c723ed03748f97c3add507b8963b9f7e5563090300dc843f7993b0132871";
  "0x0ad83bac89f009c63daacd9f10aa5fe0aa5931991ab660bf99e7e5b70826774c";
  "0xd48ae1fcd067ba827cccbc6f507a12b886484d0dedbc90e2d45abff464e73334";
  "0x66abfb0a029ace07fc96afbba2ce7adb9dbca1fca4488e806e58661058e0f61f";
  "0x27ceed53c681185569112c8331e4a7710ec3d1957a15ab3ea252a26b37e0b851";
  "0x7b95ad7a928dcc4e578e312c413e2bd38ef386c9b94aefdd8643e92420ad3462";
  "0x0d97e3a05330417782cec4b90257a683c79a10cf6537040a119eb483bf91d2f9";
  "0x9601ecb0df6b5206669bbfcfed4840e0d72f5160be2e89fdb6ae64bdad05b0e6";
  "0x597cb9f2de9d7606513c75761a7ff1e0aad7f7674ab5e0c3e2d1c9a863811cd0";
  "0x197c4ee122c49cdb39a805e200a1f8c21bc0c2b439e02dd6291b0b7c5e300a0b";
  "0x68e676f2a7d9dc4c12ccbd45d2c1a12b724f5569612f90edecb048b76efc80e7";
  "0x144f329811f42170ca7b12814901fac2d55e5f0e419cea14c779d0646820dcd4";
  "0x41050d7b7dd183fe93f193104d206574410e56c027802bd6f10c8436b924c2a9";
  "0xc3fc9574f1e7fe8f42f1457d1069e2aa689c26c56ac7ff55d87c53ce28f29f2d";
  "0xc094ef8278e54e3b202f6bb5b945691abb85144adf1e384d24f114d393506bbf";
  "0x2edc7eb4e33b8ae46e9f34c51b6fa01fd934451a97c4b4cae65c44ab99df7999";
  "0x0f86937a9b1ab79b42a6e15d7336c4e757d23f43cbf8ad5893e0842f7299c40e";
  "0xa1b410d79aa2d27702c23fd2f5bcd2457be53f8d47e54b32690409817d33e72f";
  "0x44cbc0966186b0cb726576c8231751c90b74e74578b3e31148a9726231fcd82c";
  "0x3959925177fa9770753b7fab0beb79058fe153a29214b003b122a5a2a8ea7535";
  "0x1e887f26c2328a434d3abff793653f20591b8f873576386d017b6bfec1f1e629";
  "0x1480abfb95af0cec274af45b1a417277a4ec72b16ede64ff72929c1be8056626";
  "0xa8acec771c7ba623bc51d8a90839ee1ea7f3491c0ddd8bb783d3b961c3f5fc24";
  "0xf5ce213742f4af366d75f2643149325bc5baa2d5688107e76cf2d46c8f3802d8";
  "0x54775290311f2e227f3eaeb2e08332241696d7b0d654303d4376991ce7d13187";
  "0x6ef26d8d237ca8a61e5a714ab656f71b3f0783c2775f4274851455d5ef694873";
  "0x4a2b5891f6a2e970d06ffe244ed70867158ae9acd9110654ab73274a5f7175a7";
  "0xf07699ad687387ae12f26eba22dc7e39bb334244e720791619e08bdaf85284e5";
  "0x42d12322622706bd704214edd867e522286928d8c36140f6049b065073605872";
  "0x353295014cab2ab3d0910a9d9a499db376f122456e3fda538e4b85e365a36a11";
  "0xaed6dfec9106d26834a70ab1db04d7599b96a4653bb6d3c739cd0befa0d2a808";
  "0x9a59a07a61953bafee79cb3fc42f6cbe1f2a095d742ebb9e1da2a7f8a59155e8";
  "0xe5109f159f349857c2866a86c830b271f761bd06285fc63b484d1a90bef109b5";
  "0x9910ad49d56129e891f37bbc40a5f1000da5bff0322bb59364a127a94a592357";
  "0x7b2a7a449cbd00c8744c8ddd180bc4da125a406095d316c21e347e6aefc8e328";
  "0x8a128a28d4caa301f3378008d059989870c85d33ccb6cbb5f57f90309712111d";
  "0xbdb4e29d71b2a9cff14f33887dbaa0dfc3ca0155505cb33b618c15b5206338da";
  "0x3a5d012b8404260cfd38fe0d7ab84d79b4cc8a8bd1c89dce07e78d7665b61f53";
  "0xe26e5615223d69aa4323aec54755fdb703d1187728f4caeb90acf3425081ae8c";
  "0x3a23b5d7f5321bdbd69354a96ba5aa508fcf5a7e36d5cfb4e5125cdbd8db2068";
  "0xe4e00c77870142308059e45d1f9b339adb67a53b1f97a08342557d34890d7f94";
  "0x72ab5f7a8f737e2b7f5c8a4f9ec947e79d682b03962b787ec129fb558ac5fdaf";
  "0x894f5f024c056fb86e60fc7535bcdea835743c8594e5d33c3c4b5c0e5280fe5a";
  "0xc953391c9c387b8300e1a4f48d0ad1865341d79464ea426ace583b0186a2f534";
  "0x6e443c9e5ee6fff08863e98d802b6f798b6a83c5b7dd209611e478cc44b44465"
].
