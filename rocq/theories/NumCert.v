(** Quotients for the primality certificates of NumThy.v and the residue certificate of P_Curve.v (data only; every
    number is checked where it is used). *)
From Coq Require Import ZArith List.
Import ListNotations.
Open Scope Z_scope.

Definition qs_p133_0 : list Z := [
  0x0;
  0x0;
  0x0;
  0x0;
  0x0;
  0x0;
  0x0;
  0x0;
  0x0;
  0x19f;
  0x0;
  0x65c50fb3633b17b0c6a5b8ea8557a690a;
  0x1f735c69681fdef4239e9ddb6dba7b08c1;
  0x1;
  0x87784b3e89f40477d55c33bbbe5013227;
  0x70466a605b0e6c7c778b4fc81380f6c;
  0x159ea03599c782ed9559eed6400cd66760;
  0xa3eb488eb59a31dfe47632ed07224b961;
  0x0;
  0x194f04701566da0d7be67f21cc2ed047cd;
  0x2fba8d114685feb9d6981f35b51240db2;
  0xe8af7026b99a77fe433aa39a4732e9db8;
  0xa06c92f8a2d05abd3139392ffc57c8152;
  0x1;
  0xa13b7319563ea89b71d84c052db07f743;
  0x0;
  0x570b27efa728da7bfc54e557596b30a47;
  0x252454197f22484aa0ae0822fca42615;
  0x61ee2cdba6e994f1a11be10aa99210c6f;
  0x1;
  0x1c4252d798f8c49b81a87392e9821ca0;
  0x0;
  0x153abd236941807534d18b8ad68840d2cf;
  0x1eea2097a36734295bd993cf111f645fee;
  0x1;
  0xff5aa6ea0c54e45e7e69677a81e0b9936;
  0xa8fe401a25650c1c4563bb6fa67b375ef;
  0x144dc966ed033446d393911773a542a6;
  0x270df3e7fa5be9f0af662967fca3ab0bb6;
  0x1607b4874520b059e08c20c0d6ee9ed4e0;
  0x2252c413fcf8cf2ebaacb94d4361ed6210;
  0x0;
  0x7daa5c224e22cfd8e428388065524a96b;
  0x1c0cb999605972e44f0706f4004d7f63b1;
  0x0;
  0x7d0ee4f824daba858bcb6e755371d802f;
  0x0;
  0x2523df810f0acb2360991aab2734af4fad;
  0x112859dd797ade040186771a515d0cd267;
  0x17a3b1dee1c917a8bcbd30f458a24d3e4c;
  0x1;
  0x90d43e049278f26328cd07203c6cc5703;
  0x0;
  0xa4012f4029e1daac1caddad83b66661ec;
  0x0;
  0x8dfd5f697ea73f5c8841a9fd23715e36d;
  0x241dbcbd6eb7ab39c48bcf2934268653b7;
  0x15458a0645145d892e599eeac22451f92;
  0x0;
  0x50443f881c43c5496a6e0449c2f895aa1;
  0x241876f5f1f076485646b0dfd710a321da;
  0xe98d1821ebd915f7e165858fa2302528c;
  0x0;
  0x17b0496c17a26a477ae173d1441131cff;
  0x1;
  0xdbab46736a3023b01b54a1b675163b8dd;
  0x1;
  0xc7bbab0a5c77c8c98e6f1a09d01f1af33;
  0x1;
  0xaa823622c341b8239b2b8bfb23302b552;
  0xe12d5e53f4d80ac4e3e011978fc268c10;
  0x0;
  0xfa520944fca5266ab855e52b4e2e5c2cc;
  0xaecb5c1e60c59f56d61608685dec4f1a3;
  0x1;
  0x21aca818f01d51b0d6b9d101472bda286c;
  0xbd2501cfb4041d32b35d0e81e2cdc9039;
  0x1;
  0x16b01322f2be1165c5abe0e76f2a233ab;
  0x1;
  0x19b70d0c5b6b07b2d4f342146215399b;
  0xe1dcea82bc6803eea8c537a38a47da79;
  0x1749a47c1de6727fd452265de6034922;
  0x2166098bc5812c03efed9e3fb161b79200;
  0x5f4fb0bce2609fa316e32abf3b3de6edf;
  0x128a9c0ecaaadc83afdb1b522ff0ce59f0;
  0x1;
  0x1bc957c346eb871f8b35abda57590fb032;
  0x1;
  0x8a83d5ed28bd5b3f9f9536da9c778b2a9;
  0x46e1cb0b8aaaac24d113f92ac561b797b;
  0xe811c74643ebcb1d0f229675016010e81;
  0xb70a92e692529ba81c93c078cf9f4ebfb;
  0x1;
  0xba48aa725c3848d6f77ef2236cbbcaac5;
  0x0;
  0x8a6f6575a40439adad2b6a54cc6d491a0;
  0x0;
  0x291265e327dad894c4e9b74d4f275a11c;
  0x3040394ec2f88d1f928ff41e89f3e70d4;
  0x36dfdc9d7a5e2cb53620bdcf60371b29b;
  0x0;
  0x17ccdbe7367feb74d5d0d21cac9d4d0ce;
  0x3a996e86bf3d9dbe49cd3471230106c82;
  0x1;
  0x743df9974f2f3ed02a4503c488a9396a;
  0x0;
  0x80265647d6e67b968f89767a08963bb7;
  0x18c6369ac14d3d12cb5cff3f5f28a77bfa;
  0xc17f7c498f52eae62c0bc3fa4b19e49f5;
  0x0;
  0xc8c0fc73a2bc9d42e845177ff7ca85558;
  0x1;
  0x14b8bdbccacc20926084f14932746b35f;
  0x1;
  0x62c94aa5603866f5af649a795837f120d;
  0x245c331222334f104353fd2ea2dc5c70b6;
  0x8fce2890ada3449a8d989c1a6bffb49f0;
  0x2a78b0c72efdcb46ddeef3cd603a7846;
  0x1addd203f5befcc7ed7a06eb53b36eb681;
  0x6fbf1e779e278caf71730f58876ee821;
  0x6adde6f6c99e6c1f8198c736707009204;
  0x251fd177d6f6458e08b60e88c588acba;
  0x188bc7ee0c830fa2500bdc736003d87658;
  0x38231406bb3c93afeb6a5d81e3940edd;
  0x19bff0e5c4f50328954bd602e8c73a4adf;
  0x434421ff555fd998656139b03a2c5dcbe;
  0x1509edca1cbd662fc543e5ba6a586be5f;
  0x1f6aa2e649301af4328e38277270a97fab;
  0xc47403fa454496c334f6d3a6b1f0e84db;
  0x6e0b43a7cf028ad52b208f9243eaa608;
  0x24eda8623ea246414f7f49fd65bf944167;
  0x95f998abed7ad4a9c97fb5a99970b6e4;
  0x11bbd1977a8babc2dd9d8ecfbaa2b41319;
  0x1927d46a5b97d494921fb98ff50cdc998b;
  0x73b48e2f9b6d00f8e63b247eeeb4dcd8e;
  0x94eafc88400d496d841e0881067b48754;
  0x1818c9a7c0c7c7190e95936608f7083697;
  0x1a2c6305d1be8d0acbc7b4f8fbb375db10;
  0x26e465085cd7450219e9890724b72e3a10;
  0x1ce1c787fc1a7e18426ee6ffad046366f0;
  0x1ff0ea209ae25c3fd07fe80b007eeba2b4;
  0x37feb3caa7aa2b1150c956a6a8d627ef;
  0xeb02846c73d372f3652cda62ab2ab09f;
  0x128b47b2061c187de0c2f0a6362ab9f33b;
  0x2d3225b0244255fc046f84fe7af21d42;
  0xa821baf3fbe3e91479a126f2a271b81b;
  0x19730b3f3f3e48e264748b64b55ec627cd;
  0x18bae4ecef8331b5ee28b8d4a84b715a69;
  0x11fca27897e99375ba9399f6d4c29bc5;
  0xaff3eea900d4e9efcefa25c4ebb1c2b03;
  0x91ee5cbd03f42e9d350250b60b9de6d93;
  0x11be5101e16eb545c89c9fabfebce9aa72;
  0x161d9a8cbe41960c6940d4cf586fd12d44;
  0x53da6c85c42ba4c4cf50b26a029cfcbd;
  0x1ed01d11e53737140b065a4f3fa8cb7ecd;
  0x194ef96d8b810f17be46dd16ab8845737;
  0x5224f02bea5a8028a2af10523cd9d95;
  0x6d9190bf7215728284cebfde4076c5947;
  0x17414ab280f5dbfafdda660cad710756;
  0x15ce4f4d5962f7f998728af22dd9ab21b;
  0x1437430c321a45c4d8d543ba26922513c5;
  0x86976ad622c2da0cbb2769851d6b5feb0;
  0x366c1ec1d45f56eecdeef94548d20f2;
  0x1a7d9c99277520606981318c7ebebd298e;
  0x1bc92e5ceb03ca1c93f30c409574fc313e;
  0x4a143ec33c84d9b8fedab91c7479dc0cd;
  0x161804f47efbe5e92a038994b022586a56;
  0xe7f690c43b1f253b549a83a09acfd1cfb;
  0x26475f3a8ef0d46d3c1daf93a216d4ede2;
  0x13f998e9f4d0801a80ef763bc2970d251d;
  0x4ba7310c626b1d5d10cca1d334d727fc;
  0x3a61564d2518485d6308129ee1403a6a8;
  0x10f3cce20d8aaa2f3f25f3c30745db4b02;
  0x2cbdef9b4550945e2f26b7240b6d79cc9;
  0x48540cc532117fc881826073b99faee47;
  0x1c1c591fa2229f8305ecc37718e28de46a;
  0xc350529cc848905b92e8c18456d4b183f;
  0x108247547687a63cb774548aab86646d4a;
  0x3a2b7fe02e200cf659e02cda95310258b;
  0x170792d11d560b2e83497bd5a685c99ebc;
  0x2186f29b1af4a477ddbd1c8fc276b9a8ce;
  0x42d1283db04f67db15b41da5f312585f0;
  0x7894d3b2f6a5dac3861c8720f4e8ce584;
  0x1deeee4da367b2a59c19c891c28287bca3;
  0x231d1411fc29f9eecde40831e5f40425b9;
  0x1cf0309eff6135173c12c8c99a68f28992;
  0x1ea0629a156acda409fd15e2f827d00a62;
  0x207426d4e453245951d515312408c627de;
  0xf6b511300641714450c123afd33aefdb3;
  0x13a495985b1fbba050bcfffd4656af1b9e;
  0x7fd52b3a22061be3a8016f9b95f107ad;
  0x9f13a7b2dc4100ca1b1d3ccb16e553d1e;
  0x89d4139e78953fd5692c6d4f5b4752de;
  0x2745ef39319520c8cd56458dfc153f0cb5;
  0x16a2d2da51debdd6d95e4d555557ee4e9d].

Definition qs_p133_1 : list Z := [
  0x0;
  0x0;
  0x0;
  0x0;
  0x0;
  0x0;
  0x0;
  0x0;
  0x0;
  0x0;
  0x67ccd8f57802e9283b537630eed2;
  0xce92984628e5049f5e37211a8aa96ae4b;
  0x1;
  0x24640ab14beea076c67b3eeb36399b470b;
  0x267da11b5e6b3338c23734b4ac5c0c9e;
  0x1;
  0x594017ade4ec533a5ad9f648f05eccaef;
  0x187ce15fd3cfc5296d6e7dc4419987ccd4;
  0x0;
  0xb9e64d898d8e3804d867ee534f8d5a0b7;
  0x1;
  0x20318d25fdbedcd8d9780d74bb3f9c11e9;
  0xe7e048ea17fe346fa5dc8d8232cfe0c5;
  0x10677afe70d9870443cdf391ecd2f5af7;
  0x56c658472de69f962220a45c3e0e9af1b;
  0x0;
  0x24c2f6abad2ab98f6aaffd77366238a9d9;
  0x1b701c84900ea8cf51013cebc43a2001;
  0x1;
  0x131eea6c78c5ebd6fba6eccdd9fa69da;
  0x173d70704b530399d42de680979e192114;
  0x1;
  0x6785591ed255a78d6f6c1ce6b035163e9;
  0x0;
  0xc4b9f34f184724699254b2b8fd0cfcee7;
  0x1;
  0x100ea806bfb9c850e2cc3d115af769f33e;
  0x1;
  0x412fd17840a672b00c850d349a6730f25;
  0x12e0a0df502259312db2da8fb2a4aa92;
  0x1;
  0xba2dfafe0b7424739fb728b3b8baa0c00;
  0x0;
  0x116116049ff72ba9f27551f07e030512ce;
  0x5bacff757a32455443c0b51c77002c427;
  0x1b7fd02f9d603ee7e6b89ccd590a343e7;
  0x1;
  0x1f04d4b5569800aec4f2da33c119237f23;
  0x0;
  0x127400065dd21dab89c7ed467e730a610f;
  0x0;
  0x14ff7bbfad5f3cfe2cc106fd1c210a1b19;
  0x1cc8a4b4ef98f6180bc2a85c829e980db6;
  0xc8a0f5bc0b72bcc009cf0cee2711598de;
  0x0;
  0x10906ab548bdd798cfac420a97c47d2ef3;
  0x1;
  0x3f3b694474ecf44eead012168a91a518f;
  0x3b3d11ac3f3ec5183f8895b4b334cb597;
  0x1;
  0x3cce3b085ad94fb2f68d02c7f66ce6e7b;
  0x185d7deca57a1c80301ec8f0b45d60c42b;
  0x17c91ebcf8ce6537628e01b4b7b5ec734b;
  0x0;
  0x26030057ed2ff21bdd94905ea30aa510e0;
  0x1;
  0x543f1d9b9f0d10d06c2e6de4a265640f;
  0xce69954f01e8aee7b1d7bd7d78018e79a;
  0x1;
  0x25998790ac236f481084c7be903b7f9b58;
  0x1;
  0x1f5d178e257635bb1608925353804ffc67;
  0x165b1bfc012d9778b1255edfcc62282909;
  0x2676d9d37caec167378d6c12b75061a740;
  0x1;
  0x260d341ec367ca6009b418d33967e8582b;
  0x1;
  0x20115572fa8ce8935d80a77a30084c8cdc;
  0x0;
  0x8929ab4e98b3bb87486f82ad46177062d;
  0x193f797d3390a7f08e0fbae4a7694ec202;
  0x5053f3ff3e47adeeb8ca4f40cb450cbb7;
  0x1;
  0x37d401064113a1e26755cda3cba1532c0;
  0x0;
  0x187a299a2a44b5eb5a8b76d8737a59c33b;
  0x0;
  0xde6f8c8683925d36133b95f9270345884;
  0x1;
  0xa91a424230e9252c56294046fc36fc3;
  0x20e923b2aab7b992e9ddeb8b549e9b822b;
  0x1ca8a2993145a110fba815e445e45d8365;
  0xb8064077875969ad110ddbdb1142cd42f;
  0x1;
  0x3717e301821277695f5532a0b0909ceb;
  0x0;
  0xcd36dbdc3ff256b4039f8ec99e5096b18;
  0x817b4c62c01d83295de929c5164f021e4;
  0x0;
  0x5bfaa93e1fb56b12f3f36cc1f76e774;
  0x9f00cb0b4e4df70245fa6ea7df162f746;
  0x4a0985090303c96edc242973567329d12;
  0x1;
  0x865789b7bd5663d70925763a287d13f18;
  0x5e966e48b2976bfeeb9568bfb0737ef3d;
  0x2577548cc08d06d459e605fae3d5e7cecc;
  0x65c4a62a9c53da51e98f18adc9b54e039;
  0x1d38cc50b90bffaa05821b641f502a47c0;
  0x0;
  0x77c5bf97a4f327d2181fbba8d39abed92;
  0x12eeb58851f1202648d761a0e54f7f4c1;
  0x1;
  0x74f940b2ddce426ddee446dc4da0f3c2d;
  0x18493aefc6f41f7c29f7ddeab000ba88b;
  0x0;
  0x11dd9bf85fa72d08042c5ecc9bbece5f74;
  0x1;
  0x1488c433512abeef904a6fdf22d52ab91;
  0x1;
  0x54859203fd2f840f61824e6adf52686f;
  0x0;
  0x422e75f895dc2b48d8668251f3a1d9bb4;
  0x55cb4d6cd44236ac030b2e12cecc2d5a6;
  0x1;
  0x163a73e44740ef77d1a8c41628d8a6cfcf;
  0x2fbb2af5696184e2f77bfa249193876c;
  0x1;
  0x529b2817e2146f0860d4f7d143c1accb2;
  0x1;
  0x430b2d2c21591d4f28cf43c123ce5598;
  0x1;
  0x2534393e985ccd06960c1320c0a1a11cb;
  0x1ceed3514295fd08eedec312f2296e4a60;
  0x0;
  0x86cc888e2b73ceca74b12a61ef109b819;
  0x297d79620c71aa3fc9744cfd5d533191;
  0x1;
  0x10475fc64c10fa5cd290ba45150cc91a74;
  0x0;
  0x330868e6007801fa84159d03cc7a29f3b;
  0x148a0b0082ed6176cf19884f219fbd7c85;
  0x10936e4acf00920d45b8fd10806d255bd;
  0x0;
  0x1efc5ce5e36133a7bd662b7ead440607ad;
  0x0;
  0x3912304e2e468cfd98422566e5fdd50cb;
  0x0;
  0x797d269b3377439039e6477618f96e564;
  0x1;
  0x1747337efa9ad848c8d99b9610222f4d51;
  0x0;
  0x2586d6098a56124807cc327934ef0370;
  0x0;
  0x12e61aad4991cde524d52304e5193d927b;
  0x0;
  0x735ba571288107a984031b23d0bf37871;
  0x0;
  0x78767745beaace9d2eadd29276a7b5bb;
  0x0;
  0x8c6e5f95bc4d745c67377b82e86035f0;
  0x1;
  0x2f8869193042d745126cf874e4b8d826a;
  0x37aabd136275bab313de99004209d5975;
  0x3a767fe9abf3b10cdfd5ab9f8ca89f292;
  0xe81c5b01decfbb0e4733200439f15b99;
  0x14f54c9978ef6fa1ba60bb6f3f84754531;
  0x247d09998308a86b3af58530a5d3db7729;
  0x1a80c3bc482f773390005bbf4c46f22e0;
  0x84e5b3a5ed0a2e78cb0decea898b5e55;
  0x5776f8b04b82f63bbc590bc8586367a31;
  0x1fe2d1a42a5ae5db4b5c453d84a09dc779;
  0x1598c1299cdec2f05bd44b897fc22646a1;
  0x427df8a6b09e5c8722ea880b21cc8bcce;
  0x18f2796575d525d87ae57114fe04d7866;
  0xc85053c1eabddb066ac1f1f981f92beaf;
  0xfb44a9836ceb2456a2c1aace2ba8b1869;
  0x15b7e37479f14aef8961b00ad1a56fdc68;
  0x15145d778521424eeb716e0f393ce33b73;
  0x1500bee9c537864dfe784e833277026b93;
  0x147f44ffdf9e49249de42cc3baf951e7;
  0x103e4b53e28220dc0ef1aa7f4120df7e;
  0x1f522219200e34ba50bc4023a25bc5f75d;
  0xb4d0364569c473811a18771bc89cc3c64;
  0xc4e4eb3799ac964b81de2205597edebca;
  0x1388b4dfafc8cb7aa21346520d8a33f266;
  0x597e2f02054b6bbfb74e668ca30ffe0f;
  0x9971c432eccb55c21c99f2a28e8be03a9;
  0x1b05db6c3bd72bac65063ded70093dc39;
  0x656b2bced8f4dab297c34f903a441af51;
  0x16481251275b7a871c336ef79a9184797;
  0x1275aabffd5c290dedc05fa4aa99e187f0;
  0x928190554fb93a3518ced62f168225897;
  0x1009bce61ff610b37b61a3133e317d5863;
  0x99c503d313f9fe6b78bf8f774e7a5693e;
  0x13ebe1b1e6ad93b2e6d446916e15c1b05;
  0x1689d317254bac2ba6a320d3da296be774;
  0x9c319601d56e4c87e48db0e78e68880d1;
  0x190abc1fdd8e37b10ad4933f69aa717336;
  0x117771cabafc463e5dc57977eb5a3fc427;
  0xab013c5b50bb306ee2029093757f4977b;
  0xd3d4955d4b425aa51efa224e940f0f481;
  0x2878b5c62a76c0b0638707ba1f87720c7;
  0x39c499e17a26adb88139ac74e0cd3fc5;
  0x1af8178e6797e0265b6c04c906e4981d91;
  0x1436fa8fcda6c78523c3109c51b30ac9f].

Definition qs_r94_0 : list Z := [
  0x0;
  0x0;
  0x0;
  0x0;
  0x0;
  0x0;
  0x5;
  0x1;
  0x9bdb32c7e7bbcfd4b2e5144;
  0x0;
  0x2db874a90954f6ee77e2968;
  0x8484e1fad61f9bc6d51a12d;
  0x0;
  0x2270567660e517954c34a19;
  0x0;
  0x6fc4b407b92432690fb883a;
  0x17efeff9c33a356055be395;
  0xb9b929b76a97b3541559e;
  0x243d535182bfce115f908d7;
  0x1;
  0x1bb264b31a5d1c69f1b1586f;
  0x0;
  0x92c6f2405ca367b0949073;
  0xe6bbcb7fa24803616666b;
  0x1;
  0x30e40e4258e9b06eab001c8;
  0xb39acaaeb35dcbe7c6a642d;
  0xa7c8f0fd0a28ee04aa04d36;
  0x1;
  0xe4c0cc0e3ae56a28ed454ee;
  0x17b684d8fea9db05d810fa5a;
  0x0;
  0x368029776dae9573fafa2ab;
  0x1;
  0x1a316808d9e1472e4190eed4;
  0x0;
  0x3a2bd2047c5b7de8a6e4;
  0x2be8f46e997630b408483555;
  0x0;
  0x210d5aaca497ed41c904705c;
  0xa7c8d7aaa1a5e9be5bcbefa;
  0x0;
  0x135fc873a63ac250ebdaeb68;
  0xef13772a1cac9820b11a785;
  0x27fd13bbeb1f722cce131445;
  0x241a8c7fb78f3b510c4b68;
  0x0;
  0x1cb0f4ac41c9eb05ed450d;
  0x136643400d3b9b9cbf10b4e0;
  0x2af63dfa822b7b5cbe343303;
  0x16b18712943807c5f547a2d9;
  0x1ecb4dd758f5c9ad8b76b249;
  0xeb95dc3acfe0cedd41b7989;
  0x103682620bdba4072b7dd9b4;
  0x87cb87fe22068b2be04e23d;
  0x1425d90b4b97ba4f1b41ed33;
  0x2740f437802f2c02c04af08e;
  0x27b834fe311fa1cb501b0a8d;
  0xa6e14b1ee0060af782ff509;
  0x144ca2dd4bf1dee9d202bc86;
  0x2d7eb20695dc8c453c02ed5;
  0x71a0aae4f2113594133ae6d;
  0x12d0f717f813853e86abe4b1;
  0x27cde69b3318294579850bf5;
  0xb4616fd816a319ce96ed38;
  0x13698fd4dc80ded38acdfba;
  0x199187769c290e9db93f7db1;
  0x1f5e0781420700aa501b92fb;
  0x49c898254e9532b5b2d716b;
  0x10609f877266b0bdebe2c7e4;
  0x140f56a674967cc98fc9590f;
  0x195ae00fb0e0cd4483640667;
  0x1f26543c1c6f5f2b0fb6bde2;
  0xdacf97159337841db6e995b;
  0x3e8f486734e1b59dc488cac;
  0x998852132574b670e49e42b;
  0xeada051d4b7a2e2f1cf1;
  0x198e877e8fc940e15cd55e4;
  0x3bbd17d5e9a05a3aeb5a825;
  0x1802159772809790540873a9;
  0xc2a8ca4e1a15a346ff27a8b;
  0x10b9d1dd1f27e962858d6685;
  0x281ea3b9d927182ef0193c5;
  0xe2a475e02e3f63501896557;
  0x2272003f8c467cecb5252cbb;
  0x21f5764d8dfae646e98321;
  0x1503be7c54c0ea87bed24354;
  0x129bd2d324bceae385d6a0c9;
  0x18db36ea401f508f5670f2b8;
  0xed3c924d67e914b3612e22d;
  0x24da481cceab67f45754290;
  0x2470b15dedf147872cc24500;
  0x164740f46869cf3ec66e531f;
  0x13790ebced0e5b0ff5c7d3e;
  0x10a04d6fc92e3818b204898f;
  0x142aab16cb6ea7f1e9921e73;
  0xca1c75bce3883dad5d26dcf;
  0x1d8c0cf62babbe73c9b265c1;
  0xd507af86c9daba7da20ea1a;
  0x19c211dd1d318513ae08ebe3;
  0xe9b5065216be8c09a78f019;
  0xd337db1b021e02613e6f63;
  0xc2be90a03daa686d40ba726;
  0x106a8bb29c52c62247b72f8b;
  0x26ef58beea261bd81231b4c0;
  0xc283056879f7f767c4b623a;
  0x1a601a94ac44f9ff54d9b17a;
  0x185f4e14ecc2f3dee1f5acd;
  0x870f06d62e58ded92062;
  0x11c27fea2429dacaa3843d99;
  0x808d3947813a4653ddffb5a;
  0xd0ccf6bec175cfdadbe1fff;
  0x7a3d0c884a5784e80b94db0;
  0x144b03a5a428d46f87d00f84;
  0xb3d018c71beda944a4e84db;
  0x15a84d74db6748f6b2ee03a7;
  0x23940d241d3677ce0bbf999;
  0x1533f08d4fd7b88e4ab0d7ad;
  0x24847c71de0f200524d3a1e;
  0xcea55d3f038bce387397e4e;
  0x22fbe3c20a1d5cfa90e7f66;
  0x37bb63b437b6b3568684601;
  0x91f6fe17bf11d69eb010126;
  0xd9811d36b06ffb816ac8136;
  0x15c98e4a9d1b8ee3b67614ad;
  0x7bc6e9ddb1035464cb6be7a;
  0x8a12e9e24573f6f34d0c3e0;
  0x13ea4a46298fa82c4aadcce6;
  0x11ae8a5ff3bcfc257adf7b08;
  0xc2abc1f96be13fd96e0b179;
  0x14aed6908f00cd50e3d8540f].

Definition qs_fr_0 : list Z := [
  0x0;
  0x0;
  0x0;
  0x0;
  0x0;
  0x0;
  0x0;
  0x0;
  0x0;
  0x54a474;
  0x0;
  0x1c96c5ea66d33a16c90e252f8214a971abade4d22f61852643fb6bf98c161725;
  0x1c3121d930d4cb35b74ea3e4a927cde313ae0952d0efbae7762710325b50dd8;
  0x0;
  0xb88e8b36f2c18734269416ece1499ea51c2bbc46c12ec6926a937f35444f597;
  0x1;
  0x27f0553cb3d7900c02c8ce111f233ba4648d1e092c772899d5a78fd45e2ed309;
  0x0;
  0x112d6daa1e63c3a311b4ecf7d83021a726fe92371cbccdc475dbb3905d050b76;
  0xe1bb004c7772daea27c28ad8e92554ce3dfbcb93d246dccaff10b25ff05;
  0x0;
  0x219927c3a9ba106b6a08d1757b48aab53415b5050391dbe39ce51285db4a32a1;
  0x1b5fa6dd5e02470deedab9727daf9019440927567e1f170ff38b15cf986452d2;
  0x1806de25d8874ac80e7c64a8fc7ca8a059a86c7bf1f31fe8a8c2605f75fcd711;
  0x0;
  0x2441f5ec3932298a36bb458a52a9844aaa124bdfa5abfa3d021590a063da4dc8;
  0x0;
  0x14c9fe9f24421f71e4c3cf32a5124d13758191622d9d3b9d00ff6281917ab0be;
  0x1acb97ff5bcf5aa50779c107caaf1a71f2f154dae10b158c167f9613d44b205b;
  0x1;
  0x1f82b0f0e3aef795e75fe7e08a87df17330dcd8923ad51e9a298e896049d9bf;
  0x1;
  0x1448f23717f4187a796a4a2314ad5039f9dd3697a3cbe88ba2c5915dc2b2b208;
  0x0;
  0xdca4f39944d3c8e71a9b263ef67ce241a5a67e3cd1b32307e980a96ebfd924d;
  0x7d02021afaf1f076136eedb5ec1fa7eaf2bf772667626e54e4ac1e1c15b67c8;
  0x0;
  0x1cdc0c8c0bce178d7f100cb8fff5821ab70231e2ccbb3f9b8b53c3da378f84fd;
  0x1;
  0xf276f9d0673cac84d003c99b76811d0baa00ca83477a53413c3eaca0f4d30;
  0x1c1ebdb343757c1a51994d1350a209d30cc42d21283c0c9def45a4a9d225a28c;
  0x1;
  0x11216d63ceee09be2cbca8834da3baf90138ed79f9e4cc2d539b1335e72bedad;
  0x0;
  0x2aa2cd9cbec097b2a857708eb71dab0cdb73d0b95f128b4a98975937c4f2488;
  0xe1942fa6445b19f960ed5082e967b4af32e5dccdc2702ca90fadca72341853;
  0x23ae2ea81c23880f0ec922d9e6e876a966323c14adfa92e16a1f3c49f455565;
  0x1;
  0x3f11e4e76b6c80cd390650e3a8fb828fd4a6c1199788e0aba778837f57e7d45;
  0x0;
  0x16ebedc29ebb1c03a1b73e8c00ded0e3c60046c114c6c989557bbb73aedd32b7;
  0x19b141d6a8673792de9470e45c748eb4844e93548045a1e1e896bbbc8430b7b8;
  0x11b6686d2d2f416a3b3c0edaa80dd9e30347f236835b91cc0a7a2d4d09213da;
  0x1;
  0x52f9e91047b014942d566dd32be6a0e098f55033813185bb3dfd8a781da70b1;
  0x14cddfb6f493566ce27ca3df7acc255fb18c255a945da03ea76ba780b84caabb;
  0xc111732482d43ae2e461393eedc5cf7105361c929fea4eee876b217895fec66;
  0x41d7c9f64a828cf22d1e3ab83f58dc87c13ca249fff0c862b6fd0c782e812;
  0x1;
  0x1f937f7de67912ad9ca4ad3322f3d4d4dd05bb763bb7e8a97f6581a5883b10;
  0x1;
  0x30fa81e99b74f8f2bdbef5ca36cc8f4a625b2fb9e8a052ce80e56cf3f7d16b7;
  0x1add2236f13d43987257ce567f4022a552c84d40fcfc39f132bc0f70ce0d0955;
  0x1a58b6955ac3c741eddacbd25897df6a29af5d7311bc4a66e3b9357aa47f1b94;
  0x1;
  0x30065bd425500d7acb74bd33c2e8f726f32c0d7ce6cc6fdc6dc875c2cc48c95c;
  0x12bf712f69a6b9c440b949df62ba5ffad116ac7612cff07b59444b9b0e45e4f7;
  0xbf70bf71245bb9fb7e098e7b758ee71d3fe4c84a4e97b201b1c092b501dafb3;
  0x0;
  0x52cb616dd846933b514fa710344d31e032ed688c8f157ca62c0786e4acd2623;
  0x8d926ef54a8c73c59a0edd47c3ca95451961436770aa29e1f6f1338ea201757;
  0x0;
  0x262a27e32a4fbfb34422197ae54214e9f0564524901be381d2c2e1fb0fd38a;
  0x2fe9f542e017c7bf35e44c391cc494b958a0782600fdf318e383fdc5b7f22765;
  0x20a6233d6b89ccd6675ec1ffce75760b5679903a37d7874330abfaf4c05353b;
  0xe79edf8ce276f83be03915b1f4113066b8d978ce1aa273d4b8a56d2f5116;
  0x0;
  0x12ce787e8cd4a493e2b5ef8112538d697b5ab92b872660c553519589c6bc67bf;
  0x20515a37f5cd7adfce55beba58a7d648de2861fe11181718dffb6630be419b66;
  0x0;
  0x78ba0b3157109afe3e796959736284186062eb3da1f4a49d3128394aaad5083;
  0x2b414b118b82229bc95b7bfbbf50e729c82e5a23d6c74d73cfbb20fe2472aff;
  0x14047d4c2c6c2c06a4ed1a2267817f44a5c4b27aaf725f0e480968346ad3bb5;
  0x1;
  0x39a076eea9b9a486e7c0e6db3045abe802f18598f429d235180ab8be0c488;
  0x1;
  0xdda38f662e6d48d7050fe48fd64176ad7494cf9330066074b4c84870ecff227;
  0x1;
  0x93b7a9d7142832721341c0a25b475b16b86d6d76f996f2d215e8130039032aa;
  0x1;
  0x6229cbc71ea1956e2574c3d8a08f04563fa56b24b7c4c3303858fa686d0613b;
  0x0;
  0xe99e9ba800fbe6b1b8ad95b14bb038675ad02c4af5170a4d31f4c6db56bd658;
  0x8164cade72f9ae537e3ecf3479123a3141a1034e2d12a3c97b8cfdaf4dba0a;
  0x1;
  0x153cf53ab4aa216b09ad7b9867eca87d589ec86223937f5041b2efd131edc0d4;
  0x1;
  0x9675f6d49e4644160acded6f706676e670980e4e884f43f9d2f10b34e7fd48;
  0x15658986ec2ea30e5d509a9923790d6fbd891c5e511257e151016ab8b1daf51;
  0x171afec68d5f3ef6ef67f524be5170df4829c54aa631110b1bd6dfe62cd8e3de;
  0x1;
  0x197bee5fe0246fc61728a4da486b9f23717d3987c2311e2ef65d1bd65b5b4d0b;
  0x0;
  0x1008cca476b6af938bbb56457cdf61db6113424f42fbca90489ba67740e46d;
  0x0;
  0x2f3d3d79fcf4cd4a1b91a35d6c9e8be711c84d91a238a9bed32a159cd4da6d0a;
  0x1;
  0x86a6771d54bcdbd0319b866118ecdc0f32d27da05e2a04aba9da5d0bd44c8f2;
  0x638affac1dfbde1de2c27964406e7fae94a93146f9f1ce1c3971bcadfcf4f23;
  0x4e7b1a0f31aec5d58736b0d721d3ec78e71845489c1613079cf03f0c7c4d353;
  0x239a265a7e21ebec662b2566341bd6b718dc24ebc8a20f1a600dcfcd38733da;
  0x0;
  0xd6e5127fe4f21371c94d58b34461955670be3b2765029f8de732c247d793aa;
  0x27534dd9e730ed97e51abb357ddf616da8294122163cf1d2bafcc44adbca9e3c;
  0x1d1e302a5e6429d2db43fef474ea7eb094aaf06dd03aad3c0bf3b30a27098ed;
  0x1;
  0x4891798f58eb05219fa01edcca1f2e2ef2143fd5fce4501596e5f494de84b44;
  0x1;
  0xb8f51acd7598c7a7595344c8df46c17b3e34a734bb1789436ee9e509e8e978b;
  0x1;
  0x8508bf76cba3536d508d6435aaa9ff72d7c41397e2a64dcb02959b50f8ac9b;
  0x14caa42e334f2714800578be9a1ccb05541acf0c24e510f13015a9911d653f4e;
  0x581adfd13052d9f24e89062dbbcd3a34336e6dbfb1c24af9572bc4dd4dc1f1;
  0x4878a24606f9e59d54e20baf5f372d01ad1fe6d8108c2f97057345671cb148;
  0x0;
  0x15b0e763fec19ea9d16f36575d5493022b6ad17a2a1a9c4654d66f204d2e4607;
  0x0;
  0x2401696cbd064606d089421d9a725a2a7fd6c95a70c88e9669ef2cb3d4790d9;
  0x0;
  0x2d5ec96cf599f957b5ad6e99dc47d91e1794170f45528329a22ec182e07d759;
  0x1;
  0x8da77c66e480300511169adfef4da2d5b1f8df4b93fae7996544f37946976;
  0x0;
  0x1d3fa81aaf3c66e9cd2682f505d9d7ba4d59cd91e1b2405a0c2f26c24092e1f;
  0x2b14ee7145083487f6368627f20264b38ca3881a75c93672a5adfccedcf70fc6;
  0x0;
  0xe85c8d03bc31257a56c63ab1cf07a7bae268bc54ea6d8bf07e8722958bb3efa;
  0x19dcc376908c57266fa616558bb7539f45966d133252e25f02de33dbeed9b66c;
  0x3cd40dce7206e638b4e4eba055d2ec4afe6907b14342ef19598155f9bf8c571;
  0x0;
  0xf0388ef14c049a5a319723e0e175c04c9edbbfe5098a0676e2e6d8d65129b6;
  0x1;
  0x92ac6e59c425e54a20309220f94922f22447faefb05cdd6a478f88c3400c8b2;
  0x1;
  0xd1a5a4205ff628210f72b6ec965d6bd0836367a9d1f7a69c2401db81b91f5db;
  0x24d5d1a13063b45e858c788be3a1d1051f31e3d43dafba465ece1be3f9e88bf;
  0x820bc2af8378334979b07158f3a7345383d3b828f4cab80f5933c05efa27d3f;
  0x8cb6260e205ad4071eedcfb7cdae8231899a93324a3b3193178d30b787c0e6b;
  0x0;
  0x6d3e135861e4901639a3628899fc1b8b07ddbde49e0b35de7ffe140f406cb82;
  0x45774786f3b450e4edd1045cf9b39253328528f1e2224c51a3720b5d871fbaf;
  0x26044ed1b247ccca967141f34fced435fe72fc7a80d6f7f4a30a00703480ba0d;
  0x1c4fdf93e56649f2bdbabf210489a57c3baabbe7fefa7550aa7605612010bfc0;
  0x26ab0abb2aa3a704661e50eddbb76d3a640e8e4bc58d84becad3ebc39eed1a6;
  0xf685d2d1c3c47f09329aa8eef924002568559c2297a957f4721231d9ec9aa39;
  0x4b884882692e054ba72354c3a9a86baf192fe75753ee5b70b157ddd4b666228;
  0x1;
  0x7f85168de38637b172645a7ae371a916e79a295bd7715f73d850e8e281e2bff;
  0x10ab0f0b5766c41213b8d0d0207edf2d1d037c4026f76d7cea0808218945afe3;
  0x5da5ab967fc50a1db8eb6fc108a39cb87c667fff084c98d81ff0b1482d2a75e;
  0x1f68fd3dd61feee32bad1c0cb3e8391b33601dab9f84b8e66ca243a1b415516;
  0x1;
  0x1197bb3017ddda6d849433cf69f29c8c2025aceac71b393bdd608ff34591a641;
  0x0;
  0x15d2b3fa23dd149a3282a9867a46b08fad30a2ca1d50617e4fc7cf34cbd8c3e2;
  0x25bccbe7973afa3a80241cc18ac4b9beac22327e3041552bb527594a16a31c66;
  0x2ea07b3603b6e3d9416bd328103864a91c36ee0f2ae7aadc582441450cab442f;
  0x1;
  0x1329a315213281bf53dde1cdab3e0b5810b51a184ae42641dca3d37d2a6f5548;
  0x0;
  0x70e7664675e3a292b6db0e116961329e3e963bc632cf69f7ac1e00893239da2;
  0x22528cd4128cf1e05cac985c69398279a12f6cc6cb7ecbd8a0ce9b96aa27350e;
  0x6a075ff27d44ca4ed80b0a05c56a52a7ed902424ab53e0dc1a86e65b2ae23fb;
  0x7fbb086ed96182925ee16b1264649ff2bfda8cfa680cbc0a466084f173b3824;
  0x10ad94c70fd028366318b9067c7269111eceecbeeaad22a9fe81da8952f0da;
  0x0;
  0x8bb45d73757b774d746ff1cd20908d7770e23cf3496de0dec3fdcb8011e3f7f;
  0xcfe49eaf9869cd6c54b120dfd4b4e768edbe22b927d89ab567ce9b2614021c5;
  0xa133d8a5a089a6ae3d00ee66a78b1d2172ab09287e6a0e87afaaf34c022527f;
  0x0;
  0xd30498d31c20c38ac920d64701ac14ba5f6a9e3f501c4e7f37de6b43ee2b4c9;
  0x17b1dd497b07b0a31f9056dcc92af2c72e20dd571e0e194c10947b17f82b2037;
  0x1;
  0x3f7097eee43316e7ef399f24ac65def3ea74f0deb3677288b2c8451ca674411;
  0x5a3da0355ffd5b36b876012b93baf02ed2be6ac4a8de2f546e8fdd03391ead;
  0x61dae9b4daa6d8404f5205709019c2f4d82352c83625723d554e1d5a0f7ad5;
  0x1b4ac8ea55e353c9b7b0ffafbf39a7fa0250532841434be929294c6c65c330a2;
  0x0;
  0x2cc3940df9bf1a4be6ea306175e768c879cbb19bc90f1c91fa4351f511aa9166;
  0x0;
  0x17f55948cfa91a0b0c2839f3f41c13ac0031997d9bb12b61be1233ce9afd6172;
  0x1;
  0xdc9bd3c32495e1a48483338254d67a167b61a602b305035c291e81965c747c;
  0x1;
  0x9928880e63f92540123142ea74793a8b07cbade645e67795585bd12d796df7;
  0x0;
  0x9efe65bd59715cab7bf34a9c31645d3efbbe7f5a081edd62aebfb3fe0bc723d;
  0x736bb384bff4aeb596ed569ae4c45da6b63204d9301e2340d3e72d6fd1a2be3;
  0x247b2db125c95aee06606ed160da7ba2f5671bd6ceeb6a7fe332eac9ad9630d6;
  0x132e6365f4b016dc992b1c0ea174093de218b1091278e1eea7acc02b90eaabe8;
  0x523994ce7a9f4ba435768883eccd997018b86bbfa9f8edb8d5e28947f8537e7;
  0x2a6f0de60d07e9f8d97dd41da6f176764cf860aa00be55e825b1294cea718ff;
  0x13f2585242e7005ad53629e314e47ffc97bc1189d3a72aadd67fe113110f524;
  0x1a93463664052292446ff93f55be76ffd360dae8d6097779d1a5796ee77e2f;
  0xc404d656eb58ce69a6241caab62367b43e6c828c8786fa221dbd07870be1edd;
  0x12009c097c25dd7e36a2290903f08fc12b2e8d6938f0ec189afbc0752b291b1f;
  0x26c7cc88b1c629b37b4942aa8be90770d275f0847855870456c108d2d6a57a4d;
  0x113d9374221cbc8de7746d3fb944008d219938e98bcc1e0fd846c309e4a498ff;
  0x7d904702744faa2b3b07e0928263cc556cc20bc8136217cf9df6c29194d02a3;
  0xbfb37a57a6b4b35ec788e4ed5103db8a23fe3f615f5f075b89888abcd9c748d;
  0x10b802c8d1173e3bc34c37d12d257444d87ca9c41057cfb5d34d8ce5a8592f54;
  0x2f9ee9950ffa7c75483b4821c444c94822cdbf332b660fa9cf83fe87768e0079;
  0x17372ccc1f6735c900ba1b09f602a3d53b66bd14fd2495b13e99a42ba7d68d9c;
  0x3f2df976eb48979f2066b919793d2bc14b675f6f68096b8828e7bb1a22fcce7;
  0x27a0bdf3538da2e089c2b0a6855f5a10e95d936d7473b9a14ab58ff74cb08904;
  0x6358c3d0c70ff8a8f7f2d8391f1e3662973ff3eb4ac2de54d3e1992efaece7b;
  0x10dcfc26185121f6e50009468da76a37a9f12770d92af4b21a0e76b6590e4b4f;
  0x7348a4d80714e11071fc7967dadd93ccdc942719a65dfc1b4278f7638752c7f;
  0x160966ec37ca8932fa9f6a011839b39635d2f7e933ca591cec53264ff311f0a;
  0x2362f0b7c81e287774b9eb4144921402558f0f3eac531796ebe0628d32f3c85b;
  0x2b473ad7006ba8577f2799f3976973115ef1b5892c488fe13e61fedd9f623d54;
  0x21100515bd0f7d08790fbff81bec9e9977c76572a73091fc451e173c3ed0ba2e;
  0xa25ecff32c2f2f72c608ff5519a83e10058a4ca0617b3f1e0c25dbff4f50a51;
  0xdbac2dbf9460235a0445ec0ed29c05bc8a9cd2ac73d7ac3db57092ff5f8c078;
  0x23bd65edfea402f3cdb0acc99e970f289d6d84b2f3c6ea111206be8488c17c4e;
  0x85688afd2fd8c1e41cdb5d8d645d73c9886711990c631df9a6d6d2e2cd04f02;
  0x224fe6dc8ca25fcc6bd1049284114de0d4acb6ef6244abbe166ffe73d4623f10;
  0x203cd046c68f5a2ed3e43627bb5bead6ec37242b29eab0f603df0adb6ee02e8;
  0x71c82382c66099c2a9835c8ec1374eb1238053122625a888a6fac92557e7064;
  0x55d8b5f1b706dbf4159c8202f2861f2b7d3a43d9ef4d5280d247f294497de95;
  0x1adee30224f71befc55ad6a7706f7d37140c07bf0379c0c7f4f8eb93b0daea06;
  0x22e863972979459ad2a3710b7233d11b5c1759d6011c5cf8f023c109308bc687;
  0x12c1c8f825ca46b310b0979515ea514d7be0b87888ea349b1c50c3c1c9e06ae7;
  0x1499d57f83c1923672bca63ad60ae7136930bfc9edb6b9932f30f9cd4e73169;
  0x3021ed51e21bb02992aebcf30132a4fc9965fe86a4a0d94c3509f25803ff3a9a;
  0x225c321c38f0fca5561796fb705063f8926789c53e32933242177908d9f82359;
  0x822ddc75d97f617a19f50c060c0a8a703c1b2fb5c4a1201e8cefef73205a474;
  0xfb9d2c9d85ead7a6ca57cf7cd7d40cab4f9ec0b1f74e9a78c981132ed58f079;
  0x225fc1785054d949d398ba5417ba7d1e57eb9d0e23213d0261509689be111e07;
  0x1d68090378ef1e4f402e159f9e8fc633a38c171032969c55ddcf4bb99339e547;
  0x211bbc79358c360592c106d83754d72a683d87f15bd3245b51a987fe14d071d6;
  0xdbeb64a2faa37551971b0b60251d57dda8327bbf22c13b868f3ce74bbedd18e;
  0x2f6ac7e8f3dad71340d147db5e030ecc997156be7515258dfcd784019054e476;
  0xf57f4fe3c8c87280808832e84c221d003d9c8d07e36be9b4d0112ba6dc23a99;
  0x124108976094e13f6e06ea8b1bfde43ac2c49163ed45b19774a4bccff2dc2b6e;
  0x47dfc1ecc91a1d42267bbb12e9d143d96d23e09eb65468522528fa7d4be53b7;
  0x2429c9f9bf46f49e8afb97ba267db2a3e160b094b6557ea5e8df3395ed7c257a;
  0x1a0169adfec2efb976d6ab27da1c8d0bf7aa55f05cf47127a43d070ba227741a;
  0xa7bf74fb2065f85219a2e0958e20f6c7f82f8c144fe3263bde80e50b00341a;
  0xebd9f80c98d62f288ce1c41b1136fcde00d11ad81397ae4d899b73f0144f1b9;
  0x1313cadc747e2f174099c6853e5f126f01a9f02de199c116ebb9526ec942e485;
  0x8a1a0e8e83e86aab62b721144d92d9327301fc6c9d02f73268d80b9a34a9371;
  0x11de0258a363f2775ce977159317545e7e15aafd580e1a05323570b63be13dbb;
  0x19bfa2c44a0555a7778c18b9df2ec98df02ac39e64cb197c29d4a7dcfddd4a9d;
  0x24caff82016d647963272757ec50ca017019dbe43547a37ca15cd5fdc94e82ef;
  0xaed6b443470a945b95b07ce015aff44b3151bbdd61cc06379b2efe55c1b9327;
  0x59ff41a1d5a767017bd45d5d244cf7c626150bd2486d12c2a93c3c2e0b8a5f;
  0x27091626f75e6fcc7785702919f83f2de89d27ca46e307eb812e8722d7bdab47;
  0x11adef24f60f0bae56dc36af9eb13469e2b787c164f011bb85e454c9196e214c;
  0x1ec539d6990664bc44d39b06b47f4ef6c0ee29ee957c1c51d96a57a17dfdf871;
  0xd04cd35a507b597acc2635f34d0e00d8fad6feaa5238bba409a20af51a6439e;
  0x7fa6baf6553f1049b3506b643335d481969416bd96e6ef429edcb7bbc3bd532;
  0x126ba0e4ac0402f6f073afbbb2036c507fbc0a7c07765a000e6306010f9a254a;
  0x279f9dde1f3ca67a76605fcfa6e08fb9297ec6166957d2272f9195f967fc0272;
  0x2c4cd55e57de41f6c62790918650a222627c3ee6607cc4e5ca882f7e199cbeb;
  0x7d907e149b8dd9fd25859df214a161a46cd2febeaea1209f2658a83ee0cad;
  0x1af3a98684f6a0b831423a90714ed76cf6f1e65bdb8847837bdd8c6d9e6ed51;
  0x262178ed7821e3ac5a11c6ba02e2cca1c84118c3fd23a3daeb3568e099e41cde;
  0x18ce376cd81fcafa8d0cd3b9f8d491bb84be77ce3c9311f5eafeec990c67641e;
  0xefee1d46b618b035a3bfbe6a7d07ee58adff3a4a4f51ef45279a3706a41175f;
  0x627846ad414f8f973b1c8fe23e1c28287326facf5d8e4079564f57fa805e14d;
  0x18a8660cf8dc0b29dab206e23c9349897145905d91f5dd5bd5af458862db59f8;
  0x64152cdc1703c562280ac897d87f244f1104d2902d54836229681a239093a2c;
  0x1835e3b56f576e4077bab19db2681e9ce48371d613d023fc2a22f127a8cfe9a3;
  0x14a10b085f8653a7844eccddb90488e2a7d4cf80b8961392594f5a7170a0ca92;
  0x679c7a6a47606a4fbbdcf8a84f6755dc35210bded35de30efab0608fdb693e4;
  0x2bce5eef636189ac0a9b665bbe9aed762dc31bcf78dd375174eb6ca6d8b4cbc;
  0x100df1a266e4908b028db19fbfa187c30bdbff70da78377c50fb0a0f3501a9e2;
  0x144130236be36b825bcafd5f18c49c85a570f0149cde227dfdf020008cf19254;
  0x1c5dead7c6327e2bf2a122039c1ada3d02ed64a5f8249f55b91897fb6730fcc0;
  0x3064202bf1609860f8352df058278128b3d8e31431638894e99be513c12cdefe;
  0x42794d51fdd4b914b04917b7bdf9a8f695b3c9e8984facdc8197ced198966c3;
  0x250aafd4bde86f05967ebc6573ae441a06c2e3a3121ec56106690cd8aa6cdc39;
  0x19bd7a5b0f16b0c113fc263f1422a68c455292c458b0e8196bdd75da878b9195;
  0xd7a999d6b762655ac22c9c32043a0fa25bc78f8cb0150e92b29e34c8e745c79;
  0x2947940c9be29524c3e780080e57ec7de9823f34ad8965268a2f985a9d7e3be;
  0x131557a2fed44af2e864112015b11e245856d84caf93f32666523aa9672b27ba;
  0xe849e2a86757c7d3da87e7c6cb68c49b6520275429b3b6f090083cc332b3b9;
  0x22b9df7c0d897f3f7085af16be956c8937c20544b5c37f90d93fe22487b9c2;
  0x12916d9ab8f82b06ec63b8f01716727e0d186ff58e5906834c321bfd481f7f1;
  0x1879a35b67e20e0b70b9c3a08d1004abcbab6e28ec6ba2d35f7ea460c51457d4;
  0x19b1a3ff2d3f466235671e097bfd888b132dd8b61531dd595e925802ddba74a1;
  0x286ffac2b12b8cc46747b6e239113a4334a28af5998c7247bd964000416ca2c7;
  0x841c1810db59a0ab715da47aec3422b5b84e0a9426a43186d6af2abf697e16f;
  0x198bfa0e271d940a32bf904da3049f07a494b4257e1d4e839bb070124615e033;
  0xc133e88f35b53653a81f5bd3d0ed764837cf937afc68ea0b9e9112888fb43ba;
  0x197004f4c156f6c289d49071c3e196486af18b7b841704f7ad85551e5263aa37;
  0x7028cc631fa7ef392bb715c8843d68f636d9e7071598d17c2c4f6a2f2459f;
  0x2d43e5766dc4284ffdcb8cfa68c1b3db46b8d50fbdfec3f0be1af97d8c6a74e1;
  0x21b0b4842a69b9216f1cbfbddb0830a067b83b7ec8bb68075fd68edd5246cd7f;
  0x6ad19f6ce2ddb91cf2fe6d8e251423ffa60d10a43ece489796de7db9c5a26cd;
  0x2925272a78b30c9ae7865e3259984ee7edcc38862a90aa0d555b13a5336189f1;
  0x1003bbeb53e03e50ccd491220bb4a09bdf7b1cc2e0c80f27137d9973e4d55fcc;
  0x22fa1cc2837e644dd857fefa5575b7836401586ad39406dbb1a2cfbef9e307f5;
  0xc56dbe4565154daacad1e709829d9c3f985608dd8b6778214a117f431196451;
  0x8b3ab1e0a15386d4d3a39d5026dda43947e4d1d939906a55bfe3dab8def3374;
  0xe862cbb1f09238dcf45d828f7e5784182185c6e76978c9522c4938975f963fd;
  0x1bfb11584e4b92a4ab42aa24348abfde49bf26304cdc3d40d55ae379f22d28cd;
  0x9858001a8af69f7e48f783aef3f241351d6374d03977d474e4498ae9905707;
  0x686d39c57af1cdc9ce531a05d4d5c0338ad52cea11cd3d7f5ccd52f5b7f7cc1;
  0x23391b8fb02d596469df0fc3e2e988e6f76db5d1f44d4629f50e92b7285ca753;
  0x1e79b32cf7999e0682e1b2f87c2b1d01ab70a25bd97bf8589298f87a7b7a71a3;
  0x20fa547fb603e884fbe642112d4db8aa17b99e3b41d81e97c360d1223bad092c;
  0x10322b151eacc62ac72b803d7d3c55de3ac9ff9dd0b3d53f6bfb041d8b410557;
  0x598f5d6495f91df95c3594f63952d9ee8b2d2e145546971c8ed2f165b958124;
  0x2e9ac0d38693b245bea623ac703c751a6bab563ba9c2c972858dfb17d380570;
  0xc1ab2153bbec76120a44cb01c49489f9d987061b15954d89fdbc66381d097ce;
  0x23ca5a1b2483bd49962a64e6753ec65a39baa9763f502e666533b4a278a10ff8;
  0x1df7893b0addd0dbd21aa56c33bd3625d1195aec24bf52427e1396916fe8898b;
  0x2dc9a581ac5553e87adee159e0e400e4636c2461035771b8e4c30719fe950662;
  0x1322fcd6919dd603490da162b14e51aa7be0d87c8f0000d61641c0b8e461d8a2;
  0x22beb67778af78baf246aea994ca87200c46976e50bf1d046f238f77493c33;
  0x22a4c93cab47b1164bffec941fe20719c2b60fb68c416806a8a549b2e2130765;
  0x1a3414acf77e93c6f64735849bf33d2e1169347e13c789cb2877f425c8c8035;
  0x1a5779ce0a29096fdd496b4fdb476fce3aa47f2f139656a2f13b9b15d4a9001e;
  0x2b7b917c901a32ed76409083128ac6a750a7befb88748643247eaa109da22846;
  0xb4ebee0843e22c2b4e73686e3e81ccb67e5867fe812325270dc738435ef6bc3;
  0x2fff1cde9d9734f38727580523a0f35f6c805965c7926157e5bd2966fd2c84;
  0x22923c8a7e6a4f06dd792248c5072a56ec1b4a25551671859d1ed267df5ee1fb;
  0x2fd21b9e4de6e51b7d931c33300877d4a079d9fb6131e7a451a979ce4518c96a;
  0x3cb5fb4463bb683ec1ebcbdc94c1130f72582e5ac7ee3b141e7bbb182c6bfb0;
  0x28515c6862b25d9f2e450686a1689c523665b13becab67ca905bb83d42ecd3aa;
  0x291bfffa0b72790d020afdf2a641e68ce5d496d81aef04d4e2ffe90542514b5d;
  0xe79a59f0960f17a8ffaee0f89b395a9c058b4c85d2850ae8afb49975dfe6b;
  0x20842f0cffabdb9d345bc55518495ca1e5eb0f00cc16532dea3c338f71fd76cb;
  0x16bf665f343e1abe3a4db7469ebf61243f96dd9466c61316378ff4eaf88aa437;
  0x39194e77250e6c319fa7ede0e19821448d0d434a175e37fcf39b2a0bae01c54;
  0x26c081f4c1aa4c4340cc00451f421459b9b6af81896a9bf01b7198f1e0aa8900;
  0x19f23268424500363151576e730d8d25eb5e42d6192e886feb62047baf017548;
  0x85546b36070e5d5785ab357e88bb0cf518f6641b4fafd0478f00e954d38;
  0x1dcbfa4c58c7ce008ea6a74ece7f0639f5f2dd46aa77af1af6ed42d5463364bd;
  0x2363f3aba265071b1c8454a2f4a7159f6d7fd56ac340ce3eaa8a2fd662b7eeac;
  0x14c36a985c9f5d0e70b4e3237e7e0f4713d33d1f5ffabf35226f7c891b4b11e6;
  0x1045d702e4483de1fd96c9a46d3328b59997c5ffa57a864d0b7c9bc8fc698791;
  0x99f9bbcde2948f2373bdc76fddd4db0f62f98b105ac131df836db04a1c2f3e1;
  0x1ce71ffcf792bcb2a62fcea8950407629ee984217881ab4d42365556e0b265a4;
  0x16bac4895649995759e848ca88d46590634c5dd4f81311488785e8459eb84e0;
  0x658c710750b44dadb799aab44836219c4013af89ff4aa93c399409d9e13f5f1;
  0xa788b312e075803fd9ecbbc71c2d6735628ebfc6e1ae8b1ba7f36d809c147b2;
  0xd3a697b5d0d0ba5dcfd88a78fb17c52172c5b93e48477f10d9edb8cdad2aee7;
  0x518ace4e795836355596bc9a1933631c5d0a6b53c1a0e50729f4df2f6d24e4;
  0x1f261f61ca7747d6ea3f831cbdb80072b8888e1083f1ef0842d99cd81fa67890;
  0x147e5ef7569831559ebc0c5bcf51a9540b5e70cb57ae6cb5e800bbe46bd6181c;
  0x10b26745fcb3e737162fbdd0038d49542b5f0b9ba5945bef697d1bc0f388f3f4;
  0x16a69bcc7b3ff389ffa71f53166094fe709bd9178ef7f1458fc252fb20d5ec51;
  0xbd53c650b5b8aafd9eb35b67c5220ec7ba1baf19696392da95f0166076e6f46;
  0x1fc1d20d0799f5a17971cbd02eff260e999bb70af4ded1185eb7572a41fa8bad;
  0x6b5f637d1626fa9a31e92d1542aa66226645cc1595d7022c231a0efbef2f742;
  0x487527ee1b0b408b5a8b43b89221315dd688306be8c9a6c5314f1dc3f181f;
  0x17018ef6248be14f10a5ba550fb9855a9733a9ce164f09a96c8bfc6c79aec0cb;
  0x83adb4007358918a3a1645115e1a348a52472fc0b4b05edc60ad51684040dcd;
  0x385a035ba3b200fd407f988043f4daa16548c38c212f86b270c5b72b8093b20;
  0x462d01c0753a7250fbcf81b22ee6956fa7a41879f104a53038a4fe24b0e9365;
  0x4a6ba137fe52e0d661f90e7a49997324a831db27295029687ab12a6e1cae50;
  0x1d40b075f63e07cb778649fad8bab4ba2aad8c9f968008eda971cbed617d256b;
  0x118e9e5c17a07cbbc5b2e4573d1b08a4640ee32c78b21eafdc87837db8d5af].

Definition qs_fr_1 : list Z := [
  0x0;
  0x0;
  0x0;
  0x0;
  0x0;
  0x0;
  0x0;
  0x0;
  0x54;
  0x13f864828818f8989926fcd1f014ceb85f044e398f3989ff743b2968de92749b;
  0x0;
  0x84cd07a2daa6a8fd7bab9c86791bb22e8aec80d6990849cbb934f01d00ea91;
  0x0;
  0x27cb5a0a66f0811efa25b6dea48c04459a4e88569b93c3da044d8208bd1f4aba;
  0x2e8b2917d9d10b0595bbcafc8f76e3863411fe4638baff72c29b73cfdb0ab04;
  0x0;
  0xbd104947d71c9bb2c63af3a7858cdf2e8e7f820d859f6ab15edf23c7c1a26b1;
  0x0;
  0x2cb7701d92f11a93ba656a2e28272d371456f32f4635c5def2bc742cbf70f35a;
  0x1;
  0x21ca5699ddc1d8af58e8d2453c14bd6eb0c39b5301870ef26894a3598631a043;
  0x0;
  0x20c8056c05c31a582b712e0e9640899b509bbee800cc7d09dffd6a912d154a36;
  0x0;
  0x1d2cf79922bc377a9c952381c4dc46152013c067d54a4f7240e6dc52cd359327;
  0x13a365b45d65f7bfbe7c4006481bd13dd089eb9ba9f3943012bed74c87a215e0;
  0x1;
  0xa6c8c125b643707164b5459ca7fcda762ef4cdf991c86ae9d68411224b0384;
  0xf692b754949de8c8e8b72b5e62a8db7116c1299436d18c530a84b3240f7f242;
  0x1521386a8ea5c34957aac07fc793c41a69158b0bdd10e861b4f9c66a36e21e24;
  0x0;
  0xa8e46c86b189543b900dc9e05bf44b45be0441c5ab986263d1dcda0e42aed49;
  0x22ca6413bddb747ac89df29d8b178040a666de229196dd9a07ea570b11327b5d;
  0x42155a001e9f5ff01b1d1f2d0f7dc456c72d642780933065a8ad104743fdab;
  0x0;
  0x13b61a2af3d7947899bbebaaa0eff42cab97471778ac7f7eb45133de963b0b8;
  0xd02d6c607cc49c50e4e464ab60520a02b7284ddd3e759d1e98c2355fe316fb8;
  0x244bfe22482cd36186c518c3f823b3bae5e89332dba50985dc15c704e6b24cd;
  0x1149e1c241a849727536bc7ccc6784eaa47b62524400028e4e014142dfbf0651;
  0x1;
  0x14f6e714c28171a1c4c514f228c01b28063d4729ee2c27842f654e6c3700949f;
  0x1;
  0xa6d0eaf3f92be15c634cfb3edf0b91d56fc02e6b0a037ca5936a214f50d623d;
  0x1e738f35fae235b9944683b2c65c59dfde2ed6a6a8b7e4be4bdddedfd453ff7;
  0x1;
  0x10df71cc0b4f1338e461956448af8ad61f0a7b6cd80f7bb5458aa3393c399373;
  0xf5908463ec975c2bc853e1c6617332343c9acf9026125b87c3d00b991dbe2;
  0x54784689f0df6424a9662170eccbfb2d75d460dbad7ef8783b6ccc1f5ef1ac2;
  0x0;
  0x2f197d8b7f1d282d621571835d4a413a07d182bc6ef61752da737e004d8fc07;
  0x0;
  0x1db30fad8fe4b9795027dba3ec5d6d8990054445c5f27f916fb5fc6a33325c35;
  0x291f2672c8aba2a3d7288d2beab54a46de65a276716af1af39683f9b292a23a;
  0x2620bb64bf20f0a281ecfab79ec9ce88b12e9c7cee88a71e3a9c5c27b562b4c4;
  0x1;
  0xf30f660efe7a3a472b323c52cc7aed73dcc4e3d27886977c0650fd169c2c268;
  0x1;
  0x24a0bb277067be9b6759552360510d79b61278568b57d0aa6f51e598a312e0b;
  0x0;
  0x10cfb8d76b189a9cabb046ae590124b645da7e51918a88068f048cca7226f38c;
  0x1;
  0x1ec1789c32ee9ab8b68a079d653a27b1ae275ff6c886cece77123ca8906dffb4;
  0x1;
  0xc2485cd643fd5db267dbe5cefd6b7a925ff32454faad41f9f99c52f63ec2ea;
  0x1199537a3c991397125811d133068ec077f916f07524843526d11ef5cd8dde;
  0x0;
  0x1d61d5b9faadf13297750cc93f9dab83f55503bc9dd2b142ec0bb6d67b6c3c6;
  0x1;
  0x1b977bd2c69317d0ae1ff291d83604b0d9d1fc26baa036c807325f1239dc52e;
  0x1;
  0xf8e787f967a2bf3fc9a426cbcf9f96e7df3253fd89026b95b3f61a50079ab71;
  0xeec64d84ad66eaf5a0fd8849a72e451c3736e48aeac5bd736b8f676f3870156;
  0x0;
  0x25bc31717a1ff120ee39d244c25487585908a0af454d678d92bcced27beb984c;
  0x230bf352106313fd6cad7de6583505732ae4221d7940a39ad42e90af43807de;
  0x2c72c805afd8595b9d7245e7c26300fff205bba63a7d05384763152db5add40;
  0x565776d2d516891eff410c97edc452f05941d6bcd4ab97dac79df2762d6cc13;
  0xafe834d5a933689edc938697c32741d38f6ba1bfdcefb9949cef4cf00fb93c;
  0x1f020f6f1bbfc05851c00a1870302516ac61370469aa9f32d4f05c071f5e0ff;
  0x19a042bff77c3a6faf417e2895e6662cae79789e7c2758e6302d8efd9786011e;
  0x2686e933dd7fc7f89e7a2710451eba2e8c6ea43e5d88febc2733fc6b122761a;
  0x1a9a97767b81ac9ff6c3f88b0bd9ccb42aeecb8ce093a7458753de838ba816;
  0x30572f55ea706ce0f51beee5e908a5389e7088930f75d7b65a54ea3feac1ac0a;
  0x1a6eace0aea8ad2aceb1d74f03838bfcd6da49b694f07fd63c6af7d356270870;
  0x6309c7c2d5fd83b31e8398091b7c69d17de1734fee51ccce1d33bc09ca9a1a;
  0x450a895fea3ab32ac993e02cde95057ae639995957b47f1ba82e27272f492c0;
  0x1dc67d70e9a98edbfb75ca149d9f9d8d2e3f17161d999a0185a1d2c1ecbb012b;
  0x62a6f4d3ee13999b51b57fe4bd1c528e98aaa253282a156d3248f0d5de050c4;
  0x1;
  0x80bdff427964316709ab662fe5f3180c81aab9907e14b969497cba78d3dceb;
  0x641b6dfbc0e8c7573a72d8078cd744df77fdc29922fb0a1106e6840579dd12;
  0x1;
  0x10fdba795ab23140813ccc24f6646108501a97260198b620031ff589c2f5e380;
  0x1dfb84db1f504bff310b84df085bc816c4c4a49d0c67e050f9d585045dd9e38;
  0x1;
  0x686ed620361606559716d8fd354992103291fb7060a9199ebe6c9b50d080627;
  0x0;
  0x5a7d458079cb9917fe85ec38a3f26394ad9fdb1d7d3528a8945e01a5db9056b;
  0x15ac43fadda8f83f08d1cd10ac9064fefbbea1d879c531f9bb713a08f9e859b;
  0x3a2097c0c44bfa11bab15271d3cacd586a900fcfd4aac5fe722d6699dc86f9b;
  0x1;
  0x2910cb250477061bcc753722cad7fb02df9aa3d75d0acc4ac800c45619e558;
  0x239d206851b818d7841460b0f94fbc584d73ed7330c84b5097aa8ce220b769fd;
  0x1a0019e220a5f9ab06a71e12b900cde12d1124b721f7dbfefe559236531dff5a;
  0x0;
  0xa1247501d1876575b064aea5acee587d9d4f1697a95d874dbe4948dfc892c7e;
  0x147d36c4454b5cb8f1a7a639f2c8b0c52c8dd937dca4a68260bd704f17b358ff;
  0x0;
  0x2b05d5ee511682507524f512c7578a8187ee5d5136b3b725dedbaff306c0ebee;
  0x539c42dfe73705aee8651b7df305ea7afc0e4a7d5a4baf4e5702714fd464b10;
  0x17463db1157c90b1d2fa449cd5283b20c6e86096e2a7a8e75abf7ac7ce535e;
  0x151d502e18ae718e8a89f393389c8a638b22dd952e11ceda87a3943c1fff6ec;
  0x1;
  0x23006173d6b7dc2bae9f6b5c3e238e84536daa6b1ae0d689ab5cd5a6f4864881;
  0x6065465dcf471ed5a2058e219d77a1f108ef6d55ffe782584ba54a0740816b;
  0x1cc3237ae568825aed79a7b2e41a32b6c1edece01a813fd38aaae418658e5fe4;
  0x1;
  0x2f973ee78be7542514a024fb334b8936a8fb29b621ac6236c68e05df13d210d0;
  0x1;
  0x2abe87a3c32a5d0604a0b81d589ea80d0be8a51dee93c2d2b55c60ca08ae2fea;
  0x61cd52b2d51c273491a74e950f4b627e782a978791fb5e629d0e417657b607d;
  0x1;
  0x9efeaffd796d08994e4ea1b55621d81cab0bd8c5c4e9a6aaff9e546f9564b8;
  0xc56868c3fc59ab8066ae1dfd2a33cd14119bd7efe39cce01b2bf439183b0c92;
  0x0;
  0x30b4130183398396f4cb79e2ed654ee3d9730f795f041e52c6b5c12b6ae6e4f;
  0x1;
  0x879adef3c77d58a8d4eb237499b0bd6d00d99f51d390e7777192f6c630a1b3;
  0x0;
  0x148980fdecb02127af0a0581713dc09c39e4d9fd66296745ae7d1b4bbe302019;
  0xb66aec244be11fd820a807906533a145bf0de4e97048ef2b795734232eabe9;
  0x2e65ca1ed39f2f6757bcf20844d7584d276b6acea2079b4c24443604f3eb8251;
  0x0;
  0x116cf7d12176a144a26dcdd985409674de12a98f09be842ea1b2cef0995f0873;
  0x0;
  0x644502d695f4a6145c40972e2658cf09bed744ff9093a7d8c2c99c9153558;
  0x12620b967b29f82f221eec4f0472a0b47c752a7264bcefa6b112b2dadc911b82;
  0xa1695af7d54cc90530df5246b46fb911f2e3d857a5fc10c06ff34543c56b6d0;
  0x3f1bbfc90f54de39c6ba116f2938843e395726fa55a4e56b45a3313ccb5dea4;
  0x0;
  0x7908656289bb389039fefd4b19f8ebdc042509a49ca7b61569e1d484401a7e1;
  0x1;
  0x1d7445ac3e5c1f63d92475bade134a5f69f135d3c46820020116d7a6adaf8cd8;
  0x169bc1664b6a2d64e53a2cc76b948ffe195b2c9abdba9fadb5c801bb2404ca64;
  0x0;
  0x1029f2c022664352502576dbd94920d6d7c1e369e480b8d5a080ba21d6c3b5fe;
  0x1f882d20d3a1b33f6b5650e978fdab119da940fe8ff9f5c731af1452dcfe762;
  0x0;
  0xfd6889354525a10b6a815d65c1e295223437440555c55720f13ce885e721b37;
  0x1;
  0x26129920f40db93586114f2c03f8a0e19650b402e2dd057503d09c3d08e0eb84;
  0xe396558f985642ea4f3c4a3a3b5512aebf7c9e8ac7cbe5f9cda3452b527be39;
  0x230f7debf0fc390dbfedccabdd8c1da3295ba891b21245754cf615b6ba220882;
  0x2a1923b556f6b20e36f9eb007850f061c514e661985290bdbacf6d1624572ffe;
  0x0;
  0x153dd6d5e0b38cec98235b537d9d0f4fa25940a8d9ca3fcc333d6c80237003;
  0x0;
  0x221eb9e0007dce4bec671088da0c0c4e39b8bcafdcf5588bb5619afa93b6c0fb;
  0x0;
  0xa2aa5d00155506f2e65b11c8718c6fd8a7d7ad32b24a34f4e1d2d748b9a75ed;
  0x1;
  0x24a02edcc1bc00f8bdc24211971988d7960d0134886e8a199a55df932354f30e;
  0x1;
  0x24b48d1757b3072284e01ce9ad747fd05dd6644814bedc6175119c646563e933;
  0x1;
  0x2ef878ed258cecebecc273c1d82780539611a55f57b05e569f7cff68da8d863e;
  0x1;
  0x27e4d4bfddae6a078e3a6788898be337a11c7e9402f221f15d27b255c09d0ee4;
  0x7a2ac27755d630e63840448c7699a1f2135a00a52d39c89c5023c4a0cda86ca;
  0x7e095f19b61193a61746600f7f6ac76198257ede2bad5dbbc9a8a6dd9d2f2;
  0x1;
  0xf2168ec8b3298c9e9e84f8e3337d6278f7f0aaa82942d2b41805a02ecf17b6e;
  0x1b4b6214ffcebdd8bdb3d466945c0781e30dfdd2be6227a3704e44ccf3d9e74;
  0x0;
  0x1b3680f45e70b3bd0243ac25477380db5e58b8bfe23a406b550a10b5abcc64a6;
  0x1;
  0x1e9ec96da66acd2ab82470ebd9cac9099f4ddd37edc242bfa8857d84f5e1c391;
  0x3970fed3d750cc9b8179160c120d2b23c7cc0a80c9c8862771f976c4bf517bd;
  0x0;
  0x1124cbefa80e804c7ca4bd2f874401d7356ae6c56fefb7a1c4d17f67d2a58f8c;
  0x1;
  0x580a8ad094c9861f97199fad35de023931da3926dafc45624a592c088a90553;
  0x1;
  0x1c4d8d12aa8d8a4f8e1ba5c7b6f791d91127b7fb544d086e6c0f316fd76ae6c4;
  0x1eef8f06a2aa681fc133b0cb856af1c0e3ee14151be16171a2a45196ce539f12;
  0x1;
  0x10745b363ae12bde93542ecabb53bfc799a363327138d57abde0c8d9949814f6;
  0x265201b276b6f21bbaf210e9212d66269e1b442835251cd3f7e940de87880b3e;
  0x1;
  0x1af1c8230e2e31c27ee64c378535f1f1b399e8a321703a52732337bde5a52fc;
  0x0;
  0x9b0a76a36357f2789ab6646f858df3561498d43f002084e8c6dd025ed230e4;
  0x2725d9a7de3c43ffea1f7a6763a741fe2c8268c9a24455f1df0da26b3b34f8d8;
  0x1b0355c1fc3ab85b85b0d4e2684c1041dddac3c2f65d4c0146ee45d7898aa;
  0xf0ca9f0362f0c57b1b744c35399a527a433c06d447bfa5f7dbb7290bac39f66;
  0x1;
  0x12d64ba7bf706834576123b9fc86bec9d1b2dc6c54f1d863a7fb26d4985a53;
  0xd5fc1f8ffe81b27d370e4359b538b517689fdd6f53b1cd9326ab257ecfe054d;
  0xa9b5595ee908b0271959f0c405e4216acf62ba8fd6a5e9d3809ad32f5e69f;
  0x1;
  0x4bad16d061fe3679f42576b38c7c4ac63a6c8ab71a89eee1bc553a33b69b6e;
  0x0;
  0x58fbf3bca0ecd2b860a4b8a62320503f4f45f4a3148ad499c4361fc9e6149f0;
  0x15df6257d64ee458b3418b1b95a344376b79309653ee2850c0d0f4c249cc1f0d;
  0xf046c91047e2bb209712cce1f97a0310ee87e89725ed506b406d2ba197bc0d;
  0x9b944c73b8e7ebeb5dc6b54da1266ba178d723e68ec7af1bf02d681dcff1b41;
  0x1;
  0x1a0cfd54f8571e999086ff33fa8966c8f65b83ab1eaf9c26f957c09dde62047;
  0x7c3d405afac9db0fa16cf8c4e2783e7b150d5fcc40eb7ae8626d0b4ffccbd82;
  0x0;
  0x298fda53239a84855f00e4b40383f4d58b23e9e462811edd63dbe6bf19ba2943;
  0x0;
  0x18be81e995b5e01851c5486e3d2fc79609926c88f563ba74b254d04f872c19e4;
  0x0;
  0x2a0a435d1c18f6b4e6ca8260f2ec3a721f99f75658e0920ca0692e414bb39d23;
  0x1;
  0x211234c33f78a1cd7e839a79ee8323de28d4588204fd91b95a24202d32ff3e3d;
  0x1;
  0x281bddd4797ab1cabf964dcb9dda40f6e241c8c4a33e3675d7994863d427b91;
  0x1;
  0xbcbc37727c688ad15683538c30793c578f46820cfaab8d95bf780f31ddcb95e;
  0x3979896e270da4cebb03646d4ad612b58752ba403d51fa45ff4a6cba6852b79;
  0x618f42b0969b47ffc69fec5c3291e2319da88dd9b0cfac5a7479798e654f088;
  0x2a0ceae503c667f9abb593b98513a748a3bd1a8c4197ec62654f09423482b5;
  0x26d4d07d70d2b2b5c986718bb7494c3a3ffbd91b844c2c4b6101c05b8741566e;
  0x858168278b5c5673e59ecb0766423424a922434b3b929e5c6b2f6279337c3c3;
  0x1aa0e7ada7ded957a474c5a7e11f1efd05e5a62894d25d79d681d6beabea890;
  0x40e5a8d6ef09310a846037fb552c842d2e808716ad9bf45b4498b03194e3d28;
  0x1;
  0x20e8f3f8dd99935fb0df5a441637dac6c7ad6c70b04e0b54852e2d5b8167fdc9;
  0x1;
  0x4dc2abef2861077958e4cee3f09459c53f28a832084f01cebf3a97e2aa5643c;
  0x0;
  0xbeff372e2c103ecbe796bac6d6d48dd2d40abcb4162c5167066b753add4b9c8;
  0x0;
  0xa3940118d7fc1dfab661fe3f6d915552b2a85bc0b36262bea589ed8a261c7dc;
  0x5ff45f0c3237642b2e24e40190b52f748b5cb721e6d6927ff7f36f45cecdb80;
  0x5308751c45b28d0bed97edba55af8752d3e865982c1d482349c6aff9f27d39c;
  0xe35af79e0da686539a70535a4259f99b367f01e2d19bbffa24817d82d013593;
  0xe65bfa7bf3511e9ed76878ea0dc6cd8a3af578c8db294355ef9a946290d74e1;
  0x1;
  0x19ebe1e99f48feda482026dfc102367bb2c477f46d0b8af11c4af1e7830f18bd;
  0x1;
  0xbf3fd48093696ca231f7855f0a6cd8a017a00f0f47aecfb125e3044851bb4c8;
  0x290ec5ae3c003b004102d15632dfc0eb9c30857e82c9bf34e0c3ea2863380039;
  0x130235e3601f1a951d920c0fb373be208d1da518787ba07ba10bc66d9f24c1bb;
  0x0;
  0x1f68d47e946eeed8d5aa4d64fbba74ddf992a05186c413d6694da60b1db771a;
  0x59dcf4269235527b3b113d78ee9dabb12ad9ac03799ff45969baec7097d4d38;
  0x0;
  0x468092a6cbb5a6ce9d77c1cb33efc6f3e758ebe7a409e342a675dad1f7ee844;
  0x29b9376a979cd64ba28a6bba5fd36c7d48e7a96de4ee153e6287bc2ccec485b9;
  0x8f1f052cba0020bbed7185218d08184396d2aa91be98d4a0a16620ee57cc992;
  0x30c3cdf551a8a7b7400199f399ac79931835d3366fcc303386a8bf882773cea;
  0x0;
  0x2d31ee53700c5192ba27dc3027cf70795990096dabfb70d43df6512cb1d71fdd;
  0x1;
  0x69fc0f0151802382b7017dab52b69d525f813ae6dac8ae5159390bb869212e;
  0x9ad150629a2f6fb9e4b9b1ab827fa7662549a5b0934bc66f58fdf0a6ef52ec1;
  0xa4ff21ac5f8addf88c6c9bc671b1ea5bd026f9fb49b650bbb7055465db59704;
  0x2798181dc859802c13a421f3ff7d89840c657ea919e09246a03108d158f5434b;
  0x2b3c395a401b1c2664190d5470ba6795eb42b7e395c8e51e7ea12c1b49881e11;
  0x1eea7e02ed32f27240ff3c4582a2a75e8302ca6715f59bc7b1c075ff93d217cb;
  0xe531becce9f6d132c2bc06c18fc4bb65cff7d4f2e8971c938437df3f211d0e3;
  0x1cd3100b971d51d51b2bad92a3253a8f24c1b8bb578377e2f1e71cbe4460455d;
  0x155012d1ad602dba65c1abce2200d7dc5352d00235d9f095587a0fec1a7cd01a;
  0x2c7847d1671c77f69be55a13623ef8ce734861c31fccd742dc7c150a252a7e5c;
  0xc0646e41e371de1f0cff5d12da13a29c4fffe55384e8e0b6699acad60ca37dd;
  0xe96840d0538f65bfed523da14e6da13cbe1323020d95c442fef1550f678d2d5;
  0x2f2d2c5c053c94e5fa71520bbb59cfda57d3bbc76a7bd466793cfcbe8ef2e6fb;
  0x902a5d40ab76e38ddbc52d16f8f64489406067db4bfa222dd8e1b300c76ea8;
  0xd17eca473e97334174346acd905a2c66008b9eca696c4c6667d3d5b890fe1;
  0x62ca615910887cd4b469523727c81233a096e39750d700f23f7f4dbd8bd355f;
  0x22ccfc44e34951cec43b5706b79350df19f9b5d3cc33a4cf41b734a686eed40f;
  0x1bd48cb86b65d53411a48b843aa49109cfa8d57818c93206e690b40242a09e23;
  0x1c40bacf5eb87a58773d9bda928665d54f06af9f9d3b7a1bb508abee440d7c06;
  0x397ce114c83f42683e5ea293b960b87d48fe6489d97f903ba8e06f8d636b15;
  0x9300b6f7cfb6d996a0e1ec92ded73e3199f1f1f1c6e855b4184b765dbb732ed;
  0x1d8fb0762d8552112130adc12bdfaf53e816da17ee0e0f559859bb1b77f36753;
  0x18008490ce7c6af2d4b7413e5097649ad16bcd22020ffd2b5d591b7a4ec35ca1;
  0x1076a811923479508039deb7b65a08e21a403a74975e4563df1afa7c8dc0d87a;
  0x67549c760dc7dd0015d76b50d44a9185165e18ad23047efba09625805d18d83;
  0x247b4a21ae42d92efd1adba0b932ff9af75ee22b2874b11d8c0b6c75e87b6010;
  0x3b979a6eab76bee45eddfc624a832aa1af64711f7df725b4eff0080eeaf4574;
  0x2fae98e186e88c351095a46ff7b3490bfa0a2be4630c1fa5fd8065dbcb97576;
  0x17e3dd7b61223b55cc183e31e6f75607636bd5a8a595fd758374bf20a5c5ac69;
  0x25dc612d6caa5f8684d3c38056bbc2e100353105a552d3bb8e38bcab30895c53;
  0xcaaa16b3c7384d6271be4202a63b41dded6546d0fb5e8646d83435febbbf1a2;
  0x1d56653f981aed5b99e2abf1a23b44f14136eaf8f1bec6f3aedaec8f5de9f8f;
  0x11c27a78fd584821088499facf1f2610531e98ded3fc3374717a20c08905d9a6;
  0x1318db97b9389d3246e43fe4af9839bf6dd5e68ee80a45e196977eca1383cbd0;
  0x5dbc49fcbe6dfb7cf2a7ae8ed74cab878ad46ef9807bd2ffad7057b30519c64;
  0x6a52feda44730d2877780cf134b13f40421c023499504db89866fe20b968f77;
  0x21a12c7fb0b7a038eac125dd82ca603f701638e71784c5114471c6de6488247f;
  0x2e91f3143f37327f80761439a3f3b32bd344e8e276cb152b48202b4dc55f6536;
  0x10d8687f3c3c6f540c2a86139d04f1d0cddf89d08390438859f7c6e119ac7d9;
  0xc92c27040bcbbc33a25626564abc76d662dad63ffa1753b77893ed14d7d38b1;
  0x4360a42c0013d40f7cc19494125d4862e035fe64e6c881d50fd82c91b4adad;
  0x15f8f311c21fb7527c8f17e1fa34755fc3010185174822eb7e6d599748ee4cc5;
  0x17343d4cabc57a485de7083a78577d890aa5448ded7516e9ecd803113d83c0e2;
  0x1d24d7c952f9f3cb59a8850a157760e70d0fed0fd9cdde35800c930adaee4569;
  0x9515a4033d8a18489417e66b23eaeecccce121eea1da7c88a78ee15afa696ce;
  0x71581450abf0374c7936a22d90c39429e7fb24980877516ca581e50c702aa5f;
  0x1817ec6f6972721034cbee236405aacffc2e0aeb424ea8fe828b584a2a3520f6;
  0xeab07ad6396bc3aac6ca950f2e1fbba36e3fe54c8cfa28474e7af006a0a5a0d;
  0x1376e44a9750e8213fc0ebd4fd26e3ead15981ca61798402909231de6a1784fb;
  0x1d87399dbbf1aeda3e0c473c96bd1b3183be7df5b16b94854488e78521943ec;
  0x2c5c9df2ccc84be3d15c53c6dc705a8893f2d4f32f6a73233df188543c7d403;
  0x31a5f4d281d9ca7f3d7ee3076fe4e2fc21e3ff754c4d983ea1f6a287271980d;
  0x1110960449ae9b93ef8acb6b8313395995aef316d040a1238f4633206aa79224;
  0x15cf24bd1ac38798a4086aab550208031d6e41e8f752b750aee99aeb9ef9f380;
  0x2cd182b8b8e7499cb4fd50e81924012ffddee66ddcc07bdce84075c8f623957d;
  0xc76827da8efa0a031e8af4ebe268f544ec0f89f5bc976e9c9e88ce4e2232985;
  0xb31e12bd793c6539d200594ef658401ea102580dbea6af2d045636ce8e1c4e4;
  0xd2317f60d092961bac3126fa4d65d9151b252334b92b10b68982f8e05853b44;
  0x1e1ada661d8cf1304c3bba0a7fd6c85188debb39d16a418494abc8113d6e487e;
  0xf1180cb6698b538e4b8c89372fd3b71c8b3008af3afa64567480f280633d33;
  0x1f8371e566a7006893461de90aa21072b9676402ba840ba91c2ffb1aa1f8a0ff;
  0xa8a6eb9f0a649fe08b7f0a9f3216286f9545507fc6bcfb321e881304da468ce;
  0x178a866eabf29b342e67844e97f8d7e8fdc603c38923fe7a363a90aa07874ffa;
  0x142eaff17b585e0a8d951d53eb98c989f28fa0d30ced7f92eab254cc744d7022;
  0x1eef05702dfc93d9828f5729e8390e9ae79521eb8e594c04bc8449b14bf330f5;
  0xb1c23cf229327c8687e6d7c5b990a93a6f224d971d1ccdb8c2ec086098004a0;
  0x15d201ff359cb0c47f18feaf3b24b6f79e176decc4a679f9c5988e43a8de2d2c;
  0x35bca149ce567b96cfcff5c8639594683e54557450f39c6845fb8c8f65ead3d;
  0x4e04f48d1c9b780b67a1bbe9c92a32d71dff49ec5f2e1b14eb266d9ec06c9cd;
  0xfca27e20d2bbc14874fbf2a0f2376a27e64e63e3d327d2f616870662388d2a;
  0x9e94d3ef77eb2f6ed7ae08807a5193ca195efd168707140eeafbf837e3c612f;
  0x41f44b90330d10606de19c8a51d33ddee578dc829578b64690ec2791ad7e528;
  0xe1de579b769b3b6461317cc4214660f57384a4d8eccd047aef202eb5fed40e;
  0x669a7986f2dc943e1ddc195e3d9932b403dfb908be80ea88377cfbf6397040b;
  0xf064758a04c02e5c23b445700a3a5e5463940de699aba86bbada10d8375bfbd;
  0x68564b5e89b89f20681c54c8b2a41308923f0b751e2d6b11cd4deebac39726a;
  0x9f5ba3f2a77b73380b4cd348a58bac41ef0ba89988e0e6853c2be512d1d6a6e;
  0x19833adb430eca08543bd799ceacb7726ea3d0dda1e07ea69e6eaed550647e59;
  0x98067e87832f94ae0e11de2bca91ca48e5b7003022caddbb19a6eaece4a205;
  0x7adaa986a5859ed06a9caba9cfdc67a948ced3d796e240ceb5813ab5c2cd872;
  0x27d8e4e2cb04f0417f3dbc6f5814f89708f5a07c71be9fcd87da766b52fcf37;
  0x1bde1bf320b9611b8073f70a9cccf3b0d98a2dee33388a7ba9778cc1c6568a59;
  0x46628d1ba5cda0369bd9f63495e12d56f9d42d6f3af1b3d62d7610217f759;
  0x16e4325fde1059fd18e6379d737c00c88090affe738ec9358d3afb6910a0977c;
  0x2aa0c155ad870188b1366b795bd0683f518df841341d3090829008081dc371;
  0x12c337b53d8addf47deb658351a184d87dcb1052be8915627c0359865d590c40;
  0x130359427e6630548c74f407a4402e68c61958243b80b293d75f2715f701b700;
  0x26e55d7c6fe7bbc455dc96f67ba8117352dbb44950fcb5e0137028ef2ac3b03;
  0x733336543fb7e45461f3829127202663d42bb49403f55fa03f719e72b;
  0x11b370c141a272c2564425886f1914d7233a7da60b7abf1bc5b097cbc7f1435a;
  0xf3379fdcc41c801490d7342648f33064dd14c9b961e91fefba48958ea41bca8;
  0x5120233fba73e5a65075cc59c9f019dc397c54ee66b09381f838d1d72366602;
  0x1666f30ca06f295228b22ea5097094a72b319fc33f1798ee948d18f1ba3ba3e1;
  0x1bc849cc8e7bce0b7e41129fb70eff67c823d8167a0be6bd2f6d6b17f639234d;
  0x1521ed2693c418e77a54d7bac9c868ed6c24526c93d8df43f3dfef4520bff849;
  0x21420c38ee8a04e4e3cf57804bd84726e2964a3b26b7f359dcc5505008f49a19;
  0x86c04353576840b34559fc2978f0f77d97280e7cdc9fbecfc458ce9005c0ebd;
  0x181035360a97c43ee10ed3efbdc416ff15e31258f2608728a6344e35fd25e43a;
  0x1adb6a6c7e56fed35b501529258f32917bde9db1c9e58287210c35cc0b63e212;
  0x29e2aaaac910b7f2a352d7e72eede095d4b0173d258fdd8e5b2aee79e3878938;
  0x1d33faea1e3815160c4c9f517657bed0aeaa82ca77cd90795ee89e76fb22dcdc;
  0xf072eb4364ecd407f2fa3f9b40ebf4e0948874f3c17fc9193dd9d5aceffd8d3;
  0x5d5794d7ba16e7a1d705891233a1b6a5bc3286d60f8f0eb0cff4b6d96285d08;
  0x76fb7325a1ccef57edcebbc061c4d4919fb685ed42f155e486b30c5f60725;
  0x81c7af90c1f751c616d6ad1f30b3dece76d2d4bc72f1c80d4c6e249157de613;
  0x132830a7b59b738466eba7749230933cb1cb7af857715e1636b84151218fb904;
  0x1fde4fc7ebe6f99634462a80356b249e460660179d1c0d8d2de324a6f1930b78;
  0x25f49b88aba018239696c9fe885b86fd4ba14f92144ae43ad7e548a668f163ac;
  0x1e44028a44de41bf780d1f196e73bf869d6007e4810366417e8a9410b3442d6b].

Definition qs_fp_0 : list Z := [
  0x0;
  0x0;
  0x0;
  0x0;
  0x0;
  0x0;
  0x0;
  0x0;
  0x0;
  0x0;
  0x54a47462623a04a;
  0x0;
  0x2c75a6758153dc53282f0d8939f94b4a04c95dd090b4ae8b05643fc4d1d4f667;
  0x0;
  0x1f471fd31ce4d7f80bf16468b1766bafcc7ff5d9b92047cc5c179cbfdf7d1aaa;
  0x1;
  0x9e90e553fe8ca7da449b0cb6bc97aa536ae947eee9d4ea3f90d76b105f88bb2;
  0x0;
  0x2847ad78f9af9c9933f657e34fb36247080d72713c031aa5e785fff91218a662;
  0x0;
  0x42e090d289c12a36e8c10d0e7301e863e1e2857a5e72e496e0b241922b6a1;
  0x4402bc92c20079869a4114a4399a5ced1ac0ce2f30c00286e4c7c5c93790cc0;
  0x1b5b6fa1c87ee2a144cf473cec58c934f72bd1e0a211f6aeee8a413b7de7797;
  0x14fb3a66e5f413f5da09520bd70ecbfc02a61c708ef080050af28c9a355542dd;
  0x1;
  0x790eca504be8e36118f3b09c772f4dd1afe4cd4826fac31e52c63f3193d1508;
  0xa0d0503d2a6af2395c8e06d5e57dae0fcb5ae281ca96521042152d4645b1da;
  0x0;
  0x16f6dbb670707dc7b89e7922346ec720c92889086304da519e5891ea4640de6;
  0x16412d6132059d4252e4496edf6cd79d6835b6013f6e9860163ce66dc15c7a3f;
  0x2018b8212052108261c764be024d93fcfa911fb4a03d4eb45961a625d6179a66;
  0x0;
  0xc8df714d2b08fb0dfac7f121e9f795413a1bd4e426eef93f3808db56200a113;
  0x1d468e6830ed33767979d65ee05c443357b0f1e0cd82487668eacbda6e8a3d85;
  0x230b7316fdce5e4453ac25dbe74550d06a8b43e2c14113a5022f265a0dc5544;
  0x15993a2b85307df22b9e7a5a517ec487cac6daf5c5ef71818b799d244a4010b3;
  0x2b7a93af216e4ddaeae58e4a955157883fa942a7c02294147928aa106cfcc7a9;
  0xfa5ea81e3a4a162b3d5b7cef1158d328dda6f8646a6bd0cc5edf313994157de;
  0xb2c46a0441d9421a0cf3dff76c34dee9bd8d4fb03882cae9ec0b4c37d029085;
  0x1;
  0x138920d32a7108ce7c4af0f99a7314e4bbd2c37b8e9c7581f605e6a44439324c;
  0x0;
  0x2e4c6c6ac015180c0421f1f5c3ae349dd3d58fba20be2aa289629f182e70d3cc;
  0x1;
  0x14773987bc1adc482d4faf1415ebfd14b691336124101a8c8860aa62fa6ac3b6;
  0x17d74ea68d232a792204434f0cdb95333c3680a8621db6c8ac44932463ce25d2;
  0xba1c61373729e96fadaffce96dbc74c710a16456338db4fde1b4184845727ad;
  0x35f67915151e39ca7cd3b08838693b24df5231ad5ded31415dcef79c4d3bb0;
  0x0;
  0x3bcc613611c7d9d60c54dce408645b5e4e4e31f1f0a28d3a6f60431ce623017;
  0x154b69f861c5640e22427304343160c6c1001d48b3a6c8b3a0854fd4a81f6342;
  0x0;
  0x1dc008fe68f81f0795d0f2fbfbbecc0a6089fac5ec067a8c86a83b607e0bed92;
  0x2ef45086604540e2846310091b939ca6a74c0774d8f26112465854846f02e2a1;
  0x164cb42486ded1a27954f3eabe654b35e218d9c622839a45de3cdb068cae5;
  0x2e5f63a485ddaeb64c431adfab0ff712741d6829e784648e6bddac82b374bd;
  0x15cb865c660f4ed6ba890286e767b007bd09259b6deae8298030a8964ce4b57e;
  0x302b6f45fc76116468b1255976fbedb0bfafc9ecb1b11ee94a295c9ab6e203;
  0x1;
  0x76692b081633d450eab6fbcee0400830b1c219eb06d64e336c22b85aeb19a8f;
  0x16b4594d94d6dacf8be9c94a89135b60a7054fac985a634967daa0268ddf9995;
  0x1;
  0x4b524c409c5ab62c87f36a42465fa74c598514bb77d7620339b610c09f43521;
  0x0;
  0x1f75d51fb06ecbb6a4c9a2aa5b02ca99732d13152dece1f06db20478f0494d93;
  0x0;
  0x427798448f4f0506d61bcdeca97011e905bf6ca21c2bef63b2dd0644e39cf6d;
  0x1;
  0x816b3dab15aca35e8c625a224bf9d26ec11d9bf99b4c11c372258dce0e11112;
  0x1;
  0x9c03f16663cc0514bae2298e8bbd7f0d41733817e6fe0347df92a0774dd7e3d;
  0x1;
  0xa25e013035832345c413cdaf4e727260270cd39f60f7a1623bb79c17440038d;
  0x1;
  0xefc3213b23a3160c8fa81d2f1c2897125ee0c8d2ffd9c59d6d3ca4b8e6d808;
  0x0;
  0x1a4bb1bdbdb947a9d292d075eec053d28d19f7593fc4ebba8522edb784bdafe8;
  0xfb0360159df976add3636e75fee0ad439cda4ef9981ed1f9a4808c55f4fae30;
  0x1;
  0x68912dc4b4a102d3fb499f5df1488d2fd1962e2ec702fb16cd0146ac9b788cc;
  0xefdb7dab2260ff1ed4c126ad5a524c64f5546302ca966e97143c8cecb4f0b5d;
  0x2af316f1b3b80f93c7d9eadb75292b7e623e610b6fa0aa616d23363d52d134b2;
  0x0;
  0xe175889047f06c539e075b59cb505d904a1606b609652d8480f2031233fe42e;
  0x5232ca93cb5b64dcc7a08e28ce93e8afe5bb3b80ddc8672ca9305e4b840d795;
  0x2c8c0108fdf6b78235929051578f9c70ff478023cf31ac891adc939e2bc71f6;
  0xb3d87f491b6467c60ca0d75181b567aec5706a6ad93f7428dd097110fe449a8;
  0x0;
  0xae56de09203052c84ec7d799dff6881fc23e92116f98bf19612ea4dc7a85f06;
  0xa7c52238e718baf391c97a9b3f067651e71f644b8a19203c9d7f875a4f6f77a;
  0x2d6d93ad3ed5024b52ca68fe1a4af29f0959f41f6c05b8c126790da8b2c752c;
  0x1;
  0x28c1e2ad249008f5b48f98ffc172fff95acb8d0a573724cf165efc782a707f57;
  0x11dd2ae92d1eec383084bb41205635f962de750e0abd52bdf3ce6f27802a0c30;
  0x1;
  0x22b590e45f8a612916ab64042a98d5cd7ee8033b02f5bcc3ed59cabc44e4b06d;
  0x62a2f5b4901fc5cf1dc260bfe9ab509f7fb3f15994a7e5271326061a6c6b075;
  0x0;
  0xafcda9979f59d49cea63734d0082ad48a03820db575403280d9125d7752e02c;
  0x2f3e14de42422e489757b0c479c5725d5197fd6ce3e7d2262229da8f2ad7aebf;
  0x0;
  0x2661b2107eac7abee81b896ef9d5d7eb7a4c4e6a5e7b96af74510cf99cb3aed;
  0x1;
  0x162203a0f2f4c1c03dbcda670c1a83ca2bee03c7f5fa68f58c0f25303aa5122;
  0x11645afddddb731c387d0a3eaf562b24270445d24fd0c8acf3607fce241b4a9a;
  0x1f46e297c98bb0895c331bc7914aee8015e10684d81d5625107042d9f48d5d1;
  0x203d810144a00c9ec6a23f980d099858bea72d5a02537a1d3508beb777983333;
  0x1;
  0x1466a47e5799f1017fb509ef6161315a8138154c0539489dc78bb5d861bb87e1;
  0x1;
  0x39a27570e32d67e2fc8f0438ef63a889cd53aa57234285712610ba1a762c86f;
  0x0;
  0xe0a139beba4fe86cf5e00ce08d95efe23e58a84333104b62140be77dc8fde62;
  0x694521fc42e98fd9bb3d6cdb82e862555e8ec8203e526a5c18ac34375ad4cc4;
  0x0;
  0x247305f4878ce67d828123f3e09f622ebd82bed7f4c6de60b66a1306c360de40;
  0x1;
  0x44c0a30aee3514ab32c670bf77111ea99c36bf8474e157cba39ea2bbd8a9031;
  0x1914669a9a69c665eb195bb2fd14468e1a59e4a7bea27648c795565c6e9293;
  0x1abdc83ecaba9d899d458e5618db2e584b3c12278d05ffee54d500ea700a35c7;
  0x6f50483426670712da954e8eb35a06e87ab7f3819c2b9bae73d392444a2d601;
  0x1;
  0x1609ccf4704d435116ff5ae51b21884e0e7272526146ffde68dcfe98ccf6317e;
  0x11904dd3193523b12f7bb1ea51d81eca80de6f8e577d1ded1fbbeaf878b3f439;
  0x0;
  0x397f2906b0cc71fc78777ec0365f99c24979ba40014420dcfc1b17d8a425ccf;
  0x0;
  0x124d0ea67e4353d8a240031bf480b60c8a00d466e45a40e3b6249816f31ccf8d;
  0xb3fdcc09db789bf117cfdf5ded03fc6046e30d22fe71af4f6f75b0a4213a4cc;
  0x2a9fa9865a44dd83f2a6a8bec4043af039042f6a74d0a81c6722afa7291daa75;
  0x132829b000b4e5b8ad09b5783287ce570871151294f62821e42c2ab719cbe7a;
  0x0;
  0x3059bbd2ae102f5dc4fa23feb7bb84910d1ce49b4c52854de86629c0c4350d71;
  0x0;
  0x269c7b27984a81c99b1a5fa5f671b9de743b5e0b79bd718064b0a45350885468;
  0x6a20383638401498f045f7371e991028d9d0ab9a52c055cee6957bf06f6ee7e;
  0x0;
  0xac890cf9dcae2a558c067a9ba2fe38a1eba8b640ebaef796e2e2682e0a6ae9;
  0x851cf7e2b7cf348c0be62851f68a78804143c25e77eacce7532319c4daafe3;
  0x1;
  0x898ea0a5d851b8ad4ea0fb0a8449be821d0179b671110c9ead5e4f46f9448dd;
  0xd4268a72f36009c7e82e4c2b75c713c4788b1f6588475ba79a7a3eada139153;
  0x1;
  0x2543049fb5eaeef6842150385cf6ff3bece8db1848aefe82fc54f680419812e2;
  0x2d8cde6308fea3d6b7cda144a2af006332c8766f5ca74d4636451023b2bbcd8e;
  0x2262b7d35593afd963e514f891d35b8812ee50dc4c3513b10681f35be3c4ce7;
  0x0;
  0xd99ea5e7eb4f2b42d1f32db6ffecdcd86a9802b83dcb65ce5ca97b5352a93e5;
  0x0;
  0x175413e4c71819f91ff0fe341236fc2149996dac1969779c73eec13508107285;
  0x2e94af1078aed98329a3644df0cf9594f7382e07e5ccd2b1f04abfdca195f256;
  0x0;
  0x19fa64574e75778bc0753effc7253a81bc0f6178621c996f51647d58ca96f8af;
  0x1;
  0x121f4ff7dce6226d2342b6b51183006a5e0ee61bbcb0cef79e9bdbbf2327ad60;
  0x22eae8d8b5751532462a727abf0ecd8aebe64ffec5ada696009a9cfc83ff2edd;
  0x1934110ee25281cf23b35430970b62b2fdcfc1ac77ee16dc4e3f0edf0bca0aee;
  0xac63726eee413b88e09efa67d5d2f0be60d4be6534d4a6e82903e1d38067d84;
  0x0;
  0x1e7b2da177282a4356dc9190fecfa2266c294abed1b14446e36d437349690bdc;
  0x45f26becc2cc159d8bee5d39a3a022a1fc73cc9292b75872b6a2fc579de9c2;
  0x38335054092552e4b757a2fd4a4754028e7af47dd2589c5d730b03ff0abad58;
  0x0;
  0xb6c914c08e4e5a3c75c33416fed070585ec0b9258303dfe2f7273ce4582183d;
  0x52775fda29f34961441e5481533c3eb70f57eaea20031c23e296c9e9952abf;
  0x1;
  0x8b054e26ba1f54092c7d9275b8195ad6e0257904314ecda49789dd01c1b1c10;
  0x0;
  0x260bca5d6451eaaf7cf1327f9ca49ba36fff7c8426fbf21a127d97dc83941240;
  0x0;
  0x18ca1abc1aa4261b1135c8ba5c4dfcf87a202810f48a9b1e8e8e7979b9b26cec;
  0x104a6cea84a5c6e58ac30bb412b4e6cdf398957c1bcddfbbdd8926e1b0fcfc1c;
  0xd0a371477ced03613f9705b71510cb277d6cc9ff9753697e2df1b4d7cc3c53f;
  0x1;
  0x1b4f0a47ca8bbb845d3d6748cbf111194d7fd402fe031ea19a09258d53138867;
  0x1;
  0x2527a0ea2a349f7707a604ac4e3e0915ce0cd2f75eab43588f091b00b4576840;
  0x2a885d37a49e0e6b8b4b7b6edf7e80fb58015898497c80c54a02ec2785784024;
  0x234c0273af6a4a92bf026715fcc60defef64108c8af1ba14d22f3ea3aeda9c;
  0xec05ab33a2550427e539aeede2faa83d77ac94e3bf94a09c6bacfcecdaa352b;
  0x3954608052fb88e958d9b1b5c7cb9cc25ee8595c1ee251c22f47d3bc2a8ee27;
  0x61bad75a0e8ba00d5414580c7d138e96906f32cd544ced1f5211bfb95a96dd;
  0xdb186a6c5122981e66c72e1d0aeed3c6370c2b3c2ddb251028682308f4be451;
  0xc60eaff8aa895ea6cc347c7785a50bbe704602bc0bc8f63d4c9187ae6588ce;
  0x10808fef2a2fc36fbe22c42d071f0bf448474774aaf7612e4dd9f0bb6a50df54;
  0x2be56613835dd082e23107d6ad59fb440e36802dcacaf047bf9fa5152198d6fa;
  0x334a56d02aca1dc2b4f42cf6020f752993dac4b00c8dd2a0a34449783d8f3;
  0x2c23db2855f84eb9f91999ffc8e4d80bc8e19f5fbcfd5be76651c57cf952ca73;
  0x9e61e3be60966f73c2b1b2e685a1d588f552c2784075787b8636edce540688;
  0x27c3fd4d757d7c419f3e4e9c3cb030be9a5d24353af9b21812be198d50c620e7;
  0x1852c26054d7d59860fd7720a865aba8798738f8265286e88412beb7fcc06b8;
  0x91e11cbf089168e346e70e347c291d501d95942e364398069eead6b008583a2;
  0xd0a218ed3edd3c4cc5c4d9c4e402daf823ff473cd3f31b65f3a7b5717cf05b4;
  0xd818c79b240f4fa486d3d14a11018218101c31f202d5ca95718a7ba40180c88;
  0x1c80b195fbaca9eb048b5410848aaa1256846b6b5f5ea11621c6f68b9e8a85b1;
  0xdcb6598c31679851c16339ee3cf06b98d6802f309ae4c1f84030062c1338dad;
  0x16069b44f2b3049c28e506ef3699e7e0986633f8b40f77095d9c2cc39e138bee;
  0xed14c7f6fd82a134cb90ef8f3a9cc4b1b88de62ff6c37cb5ee16a5a882c6f05;
  0x7a549810a6b1e0109efe1592959f4a617011f2003da156ccf10a580a4e92dfc;
  0x133b9efe10c8c5af7e97e4026373dbde56ca1dc6f360c1dd06ec93ac7c0ab42a;
  0x2ab3f7ebe4a8c0025d211ee3e428efbe7ac3b82468c9b7b88b27dccefd58581e;
  0x226d630ee1771e7da71d076289ce7db3e59b2b04f427489bd8a2a076e4602ba6;
  0x2edb61cb1ea9bfa4219c934716e0ea4a9217c7bd03c0285430b0edd09d7a27d1;
  0x14379b7566d41cfd067beb5daa8bc6e3c6d9621abb2b49c72a335b10ca4d2921;
  0x4d24d9edbd511b70f1d65b8b40e5fb90d06fdd45ca18c54ebd164f23d8ddf65;
  0xaeb589887c862c0651cfe8e2d6341f45e8a4da96f49eba9fbd4e5355e2e2577;
  0x21c892c05106ed9e88c381b510e619c0487bc330da580fe6a36c3568bbc2a26a;
  0x10b4d1557b87c2eff8da50c298bb154fa3c610bce6bf29aad18787b6dc3de99a;
  0x298ae4ad1b12c34fbe73223ce138cbd0ce34478e2a48d95b8ea133d70eec0a88;
  0xae4137f44a506fe167277cd3176522ad33d4847476663e3310931d8cec6093f;
  0x33ffc3ff1b178fe1f44010f57cf97ff2abfbf9fa38851c2846e09d1eb6b0c00;
  0x152763f0d95f3ffe57d25ea2d3a65b5df7ba3626ff0f5d0095e9c944c04282ac;
  0x2e42edd5ac9de616d29e3f1d745f5cef84ede8d21161759c37a62f9591758955;
  0x13dedbd2e27884271627ffc5d3bb789d195e01242bbb5e1043371f70b39fd8f0;
  0xaf65e293895fa7b22abb00a6cbcd2945d1806da18409f333a2494c50f61b306;
  0x21637ff8e00d295ab81be9a753b6da6180f611fa49ed6e09b4f46bbcfa4a47d1;
  0xfeba74e67ac109e1ca535b2a8b6a55351b91e8337739cbff73f0e3f47a8623;
  0x22145dedfdc32e31b5e97e2c40da75bcfb5875c1b7e56b22f8cbc60095b6427;
  0xad13e11d564f6e842bf25efe6a6ec506548d81c60aebc9420ed8b01e5e17124;
  0x2b1c324795b2ec5730341a55838bb60c05b297cf9d89ea2f8943627f8e58b854;
  0xb57059f751ca53476a4229b0d472946955929c5ababb173485fafd70747d9b7;
  0x237246b9b1b47ce12078a72f0af754db22b2370e80b37f4697f5fda24977b683;
  0x201d4bb6232fe589617cb75f6f25827bbd4b231dfaadb9e2e23f0d0ca7a1ff6;
  0xedd937ae4d5d04667fab80755d987214bb6cfaa014198ec47d58c8aa64545e9;
  0x105e9437025c68ef659af22fe507f152f7d1ceba73c1fbe53f06ab7de5334662;
  0x143377264f9b597d1821d62c6e33e465cb4ed5cc985f0a25e7d7f959af26a18e;
  0x1962ff610b473d8df9436845ff90047c8a8fcc92cca18d7560c887b058f5f838;
  0x521ae193ac470035e0960fcc337ce4341f5b1d1c764eecced29b505e07338bb;
  0x1bfecd5ec509311a1c8dfa0b33e3b18bc4162f883a42b2eb87c23bc687a285f4;
  0xe9f3b41685066015560452bb71290b30404921b3053d9d9a5b618016afb816b;
  0x40b6251da350f0e470bcde36ea610538db0b7575546ccc2d515c5ef06ba245e;
  0x1b502f3fb22a4769ceb9a076ef0ccd31cc80b86fdbf5f4e45f7b7d7bc5926934;
  0x15987d07b9b7a3244211d98141bfe8ff3d4d83787fd8c2d9978d85e0c8004616;
  0xa6438e113d9e49efe55ef6d1c8618155d621f21f3a016826b4736f097c22906;
  0x9c3382586ea630d7fd1a629bdf46264b4819048795bb00d9a4c37c8a09eb1c8;
  0x1e20bc00da01db3fc319c7749a0fb75869647a4c6f1ff51943bfe2c627b6ea9;
  0x1641cf0d062b1b8794c62cf317c216f1b9463a00b5e35993dddbd73659f1fa60;
  0x290f71d651a8057cd4d1343e6e219d5f65fb1300dd09cd76caac1a2aa193275e;
  0x14c3e7f614aad02d00f4918103a85e5034e7a20568d985706ae39f6f5c257597;
  0x2680ce66cce9935f598f34688a64b05fe971c86fc22ca149493333b36824ab6a;
  0x2a263751965f2947c215167172e68b5f5df09e6ff72e7caff3f2b9fb49907d68;
  0x102474744cc0529c1e42fa881b2f1cbd86c500b99f33fd4e2e7cd15efe43c712;
  0xc09960e27eecdb1f24d5d69d940be449c1f4592832edb0849743af0bdf5d2bf;
  0x16ed6feb3820b3e6615d7ded6ce037c1c09c8e5353628f05d2d08dcd164d34;
  0x29b159d95ccee2f1c71a919167c976b7b8b6e4f32507492229db8d2fb8fc7fd0;
  0x21c9ba18afe3805f3ebaaabcc4a595d782a66780db34d67a995ad1f1e066dae;
  0x9a6d136c66a064046eee0669b3b389bda35008e05a5c8094cc8124165c62572;
  0x1137e46a74e1399b3c6ae93738cd417a9eab5452d90e3f77870dd1e976a041fb;
  0x2fab4e1386a97cd17c0d53cf19ff49bb1fb3e8de09be015001be0d80bd622345;
  0x2a917d6f64f996ea463e174f9e905242627eb2cb35214a7950de35191995d332;
  0xde454e28cf5143be4225eac3c7efea24681cde6abd118bc07d9fac0b79d2ebe;
  0x2209c6347ce27b5531d2651da6552714cad17215f505962d34f41bed352f242a;
  0x4175c602f646a10e6f7418caf65901961b1f42073ab2f8510aa7874fd3a5fed;
  0x198bc7f0338469221b88bae6c58c3c64498e5f6e6096a0e7772a65e5bb4ce52d;
  0x17f5523b3838328f3ccf46d21b3b6ecf284f124d0cadaade861358a0f26da81;
  0x1c42ec5223996ef237846a0f2d6e50ab8e7a79569fb6d56d50ba9fa5d229fbac;
  0x2b1c9fb3477d52d44c47e9f240a3fead4cb8e1a9eb4e6bb8cbbf53ca12677f;
  0x2ce313e52266e69a78947336c418a3eada6e63479190b20df2d6db30316eece8;
  0x12ab0f25068f4467e1914e219cb202f3a4888d0d10b63d88bd71740fbc32f8;
  0x70946f62dcacad8e65f6c3483b2ff44900b5b0081c522a439b02478720f8a71;
  0x561845a096a3b10a645672373bea97ddfa220178c442c9d7153a3d1a6737ded;
  0x3856c743abaef88dd53b84e4354820357f382299647018fc99376868129f8a9;
  0x24f110f07ef159ca2bbd921bba2b2dbacafa1a2fc114342158b270e896eef0f4;
  0x9b17e8d83e64c61f743e624b2698d8f06e799d6e50c60e9ebc62c7ed0e4ba44;
  0x2f8bf526a563fe704d9d995f95be7b69826981e1800242ad71359c59196b1c71;
  0x5ec20968a7cf4621a14780efd36f7b44e67c2314437d04f9b95d319bada0c80;
  0x179e25934269b05aeaec8cc12a4ebe4bb6efeae10340951f5a548f52a0677e6b;
  0x546a06bd33e560a6a86708927056639c5388e8d006acf8f13593b83631e511c;
  0x28e3e470e820bd4570fd0656d78d6662b9ce7d9cf2e07a7f63e9219b925d2b81;
  0x2dd5df5d7ec2254f81a6c67f97542b922291e86b3a9b68a5360fec55cc98e29;
  0x1a5acba6eb6cfc24df7c6899891be7a7095cc4759142b586d4acf0dd9eb976d;
  0x1b0fca932ef2d7ef091db2f0a28da7d548944a610a47fe12fc128d4b04841431;
  0xbc4aabc97c0a3f717bf50aa82557e6529bc9ae3f09bbf1c61d07d190ea1351e;
  0x11a3c0ccc4b7938d640aba202f464ec936fd518f62f73d8d86192feafd544eab;
  0x4cf0a46054ca2cd9793a461e67525d729a75f109d5dff6dc1c11b5ef68b5bff;
  0x1514ce78894a7595c5cecfd2971b61ad60ddc0173c6d3338d8d28e47d4383eb9;
  0x8171607da2376ab61f06c55eacee0b7e6e3305d2c4fd07f33d98f30168cef4d;
  0x1d2575a45c36ee0c69e01dbb6cef2122401261925a608d8b39cc8e2ba283407;
  0x221896c4a7a347fda83cdb6fcfdb0ff7de41e867e7742014a78914f17577675;
  0x2b187fa7591568b3e89ba818b8844148a1544da1ead30e7e64ccc8c48ddcc4c;
  0x20b01b33ea04f5da00a53d9e15d2b62f211ef60fec98ad2baeef645b1522a2ba;
  0x8a4afe2d22f214583669d713f2e365f28e990d3286cffc491da53d567d5b12b;
  0xc0d1ddb17833f59077684989f1bde90c4fb94faf6d6abb2957f8c012031a2f9;
  0x18fdc1188c1e3985171fb5a54840c159d0ed5db4727506df9b6c42e42be25aae;
  0xfbe2eb28912ed0f3b232428585bd79ae08548f0b1713b7829de7685fa2b613d;
  0x290106302474d1a6f2e071718a87bf913bbd820d7db4ab260eccc2657d278c6a;
  0x85f6bc1fe026c524f3f4cbecbeae059bada09638728379ca6854a3e78653ce1;
  0x24f4a51d16d6f9587cb4aebb88b342496fa5f491cab81953412ffedd87a69fd4;
  0x12e97ae159123354a55eb5d39bac69fb704d0572137aa71c483642d1d0884bd1;
  0x690ec26dea410e7f5d4b8ff1e233a2a801272a085ba3034ea17e7da9ef46d8;
  0x4c42f045dd729de6d6e5d3da3489d40b7043627b8895b8cbbcd17f42359c;
  0x12d850577c2e45f0ff56f7a440e065e22416b0b47438f338e4507752bc5ac27a;
  0xd0da3d76cf87774a15b8f4210c3d1f7e313fb9b4847ed1f79ce3f16a24da697;
  0x25be8b15a9cbc5e284be65dd7839b91f876648c76f1b7f4f5ccc62331cc2d28c;
  0x241c3c76118ebaed1074128e320c348b0f50ff817ef4ba366e3d4aa867853ec6;
  0x2a14bc1e76bc1bba9d446be41c30e3e357e731e5d159dfe86d59e7ae1fbaae6f;
  0xe6c027339255dd572743c958f5f1e333cd317397db74e3665b94dc827035a4c;
  0x4dcbf5384db46759cfe361b9f279eaa22e43abe47c76c18143d8f172555d035;
  0x78d83c856f4e2f208af4e9ccd417b541df40def428d7704fa896ab62f8c4a9d;
  0x19cbe27a9bb53c9bdec02e3c5620403a01a065ca8294a292c4a108207d65de0d;
  0xb863903fd21e643e6421d72259d4fa3857843bef62fd70bce476a55f94a0015;
  0xb18f57c9cc7687bc0e9c629ea3fbee40367693d1e33c2a9d9098e8fcb25a0d2;
  0x663c7d2cbf3c1f8e34ed24aac7fe65952ff990c7676a85517eb5d773f755fb3;
  0x23ee97b6ad4b0b1ff162f692522ae99dda3e5777a4b2a46a0a8f641f2cbb6c08;
  0x552e8281b7f4f1c92c6731bcbaadc98d206dbf53d759c8bf58e2b52493f392f;
  0x3ccc7f83c59c76ecd5d63593903187a04ec799e0d0a8b95ac4fc3890dbb6af5;
  0x17acfcf79042a35693fd8ec29c92f73ef19e984f61d0415705934d7fd8a53771;
  0x177b3a436dd002d0397bfbb722dcf1bd93bd2f966a2f770935cabf3902cb5cb1;
  0x1e30d6b282234db4214f5d882bac2053997c43b8203d663d6d6bfdc57ca81ce3;
  0xca8a54fc6b3dc3af1c16c243817edb9951ee427e9bcaa2271c6fd23d03b41be;
  0x7a358cce780f805256870dd3b673f9d90e92e2a95a41ad841e666b9cc7e2100;
  0x26aa941956a1022c123b9cc63e5fc559b722edb7e13646785c6aca5088557baf;
  0x5c9bc4f768f693ce00d0bd6a15addb932e708071c7349ad888d8a699f3578a8;
  0x2fe9acd35a78fdd99d04011dd53164d5aa212fa7dda59a915c29a6f79083afbc;
  0x185d475ed62d4c662296619b0673553e67c973fc01d84ac129a93456c2fc5d4;
  0xb094241fafeba6df0462170c609d63efd20a159a7e6a6af2f6b7973a3ca267;
  0xfb3dbc5fd934b12a4d185562ed2b2e95ee4aa5768d0aebbb720b4013f956e74;
  0x1d638b2b5c1f92c739463e81558cd1f2f224aad6c04c749b7385178131599df4;
  0x11b5b393f930a48b2fc82d4759ca58bb23341c681b6d86ab842449ae1c7f7367;
  0x13586f36ac995629e6a0f50a2d192239135530804cac2ae604ad38b63a4f;
  0x25bb5c94a78c367e0685dd9624fdd9df9c4635eff81fdecd8783566a9e4e54e;
  0x5f2b693204c16ebfe55c346ba3e14d2423361aa7b1cf71da1d1e4deec85cc4;
  0x1558ecbfe7197ddfbd611bd36222c2f5590b7aa11f9971e6463604cf0a84d83c;
  0x9112ee3eb5499d71a66cb02f2f3f193a8bcf0f384c435427cc4258e81b0b918;
  0x12e1f1971c7f68163ef6eec9327517c703c38af2183410e3c187a1f1586169c4;
  0x1eb32cd16dddde6c342c924b8d03e65f2c1fde9abff5cc5759c2fd2cac3635ef;
  0x3b9cdb24fef202f4260d2f7db23cd4cc8a9b0030c8004af7399a1cb7877e3e5;
  0x34c73fd70aa7d044d6470a0e5e221fd4f8c5bce9f389bbc149e1d6adf491e9;
  0x1506ed208417617a6c5eca68b8e351b6eabdf45efe31bba4c054168b62e397cc;
  0x69f065c4d5038386af4fbe797ed8c5cf0026951a8dbef2ddaff267779b09ee7;
  0x2c74825aeb70bec99cff0e81c44b823610c4570f5f5b1891d12e086178d7f5b7;
  0x13055bf095a551d3c41a4d8f4b9dd9142b08aa42805631d34ddf563c6207f8a9;
  0x28e6a130b20f01f0d927a690c497b70250471984c618138d3dcd8df1b3ad934e;
  0x132bb66ecaaddfd3b7e75e9f23cfcf4bcdc843b6db6a2745d96d7fa0537e40b3;
  0x2a49152e3c5f3c9a0b07794cbe30334030d9d4764dac628cffe3ba26cd5a8eff;
  0x1e1e69ed6e3fab96530a3bb8c1c917b7015362e9364f6ca865bcf0bd1c45d6;
  0x27a6d9ed646072424bda679e244519c6dfc3e6b1009a0030c1511fb36b4b7786;
  0x21be5d1a0722297441d7d67f1b61a82f65f864ae38177d3d6858eeb0402604fe;
  0x78dbe8311702ffdf509d29cfd6ecc1ce8700821920ad896598e129ac048b4db;
  0x21110a4e2ea058e6b9b63e7b96f81ba2c657d22809de3a5b3c3155d27d339bad;
  0x1abafb43eda3507603c0ef523e2fe2854c09e858aa7d45985ea8259c02b6c20;
  0x13d2f0b1f5b00820d3f81ebe06c39e5c96a710d8eb28575481cb3e41ee664b16;
  0xf89dc2536f8803798009bbd1587bfa7721dc4ea74e7bed59ab8a6d1abeebdf1;
  0x15c493e8918d315938f23e9b0bdb7965295c10839842b134a74c98f63b60f280;
  0xc7635bd943374428306e3d04ddc91f2e81b462b9982ecb3c5526e19a06b352;
  0x204d4c98c06650df34755e00eabaf6e7d29ba5e31e5b8148939e812d603ef1;
  0x1e192fe96346fe5a597c86432882946bb6ba6046a9cd19d36a11753a77319f66;
  0xed88f59ae36ca439b1de17469b44d8a66a406e2ad1ee47cbf44100e3bc06db;
  0x58715eceb3103e86a91669d2ac1bf3e67c16279f51bf1cfd52f7a3084f695d;
  0xbbac0035885cb56ee2766012e425eff7ca12ed9fd2b61d028c87a6be1f7538;
  0x65b8049d1273049e373299520559f37ae4b8e552023c0e0171665dfaf67035;
  0x1b642cf5b8a395e90c1b3d169e5a2fd2202d5cd9d9e26103f78c0888982e0133;
  0x18becb019f0716b9103a6996102c4b0c1178cd04eafd2bd8f6261c3dc7c0b02;
  0x21f7b4477e34e6c8a73c6f915c4fd048026d08e74b26eaf1d85698806bc3dc3d;
  0x2577d5d7bdd261c30301ec2091a130f8d4b0a1b609c142a3607b0c09a0617d4e;
  0xc7e9f029819a392f050163b8ecc610d646d042c8e1db5f5b7c079633a2604b4;
  0x195c7c3312510016f4179fc1f5bba487c13aa214082f674ecf7295dd9ecb5ac7;
  0xa198efb211892abe78ffc6eef37e6ddde4c78db411846e7dd376184be90790d;
  0x25ee60ff0fed414b3ba3b77e77358ab6b6e7338ccf64acaa36560cfe297102ff;
  0x2363a30d1deeb6564fcf242b70f0d60bf5cf7d24d1b473bfe9b09e314cef840e;
  0x1a460a0add6580f348e895d6c62b4b46206eb12b4f0620a4096bd357bf88b8e1;
  0x161cc93961ce2bfd139d36d6f2128137fbfefd93d0c9a4d83d2ecd23254596a0;
  0x103ced9a19727e6ba7b49a4b5192f902e4d96de6915185cf289dc8d0c1e8982;
  0xc1cdc0121baaaa43031c42eaee1d890566fe933d7321c7fef84c55c972c9233;
  0x1a14e1e5637d07ae415d0b4339a8afed578d4f45b5453720b05d41252f6b323c;
  0x82bff0876b601ab4266a26111c7bea88205bd1700ba1a28e367d9dfb58e7b3e;
  0x14364bb140589f85da5e00e99722005ff53c04def9ed4cb05f03b86b37e9555;
  0x11a20baad9013fbeb38abd1099bb8ca4c8cbcf21416773da2784be8a6637035e;
  0x2cdbb9945598b495d87d336429067b17f47f6fa69ecdcae6e5c81d8498e81b4;
  0x2da1e65673dfed409cdf5dec115073cbcceacecb3a9d7e2faea7e6df566ddac7;
  0x93134266b0055f362151c128ffb81843004b27edbe509d7a300dd766213c21d;
  0x1c92555971cc1339dff6447a08a5d710c93096bb1ac24fa4869562464ad839c;
  0x112bf972e26355f63e7e84d9ba59dd8b50d752265783a28aa956b1f44a94fe50;
  0x80cb05a6668c89531598d64ec71f4864361b0fba80814479c5a983824a8438b;
  0x9009e6b7822e71341e8f541fba9062b6742fc34d5ab545a625693ed99c4f115;
  0x163575273bc28745b98a3c8da54de15bf2204eee0c316f19eac57f5c5a520ab4].

Definition qs_cube : list Z := [
  0x0;
  0x0;
  0x0;
  0x0;
  0x0;
  0x0;
  0x0;
  0x0;
  0xa03074ebbb94b669a3982dfffacb20988f19b7e;
  0xbed8a58fa34214fa1edec6b8bea97a723d359b141ca22e45d9bcdbb19f1e37;
  0x99e92bf0e492fca9575e4006edfe925cd3b23a158ecf94697680a7d6e2c7424;
  0x103babd2aae604308fc589a24114de12ab9e0d3a6306f02c31d273f10543180b;
  0x208bd804783030d9d7223041f58eb1a2da25e3921729ebd53cc95e0bd8590293;
  0x2;
  0x752fba0de52edf5e7cfc6674f14df7378a8a419ad9e63da534dde89f14e75a7;
  0x1b0c335878efe365f940c01698c3270fa2241a4d48450d7a1b47cf77032a5b1e;
  0x0;
  0x92b1a46cbe8eca82b7125715a721fc1ce8c08c74fad173cbd6cde32b1d6f916;
  0x0;
  0x2a81c0c3bd61e263d273fde34dcf24183d6901a63b53f9f13be18e428f17a269;
  0x24f8568a52937f3cc43dbd087f3978ec4833c0c7c5fd2122c530afe872ec67f2;
  0x1;
  0x2cf431c66959c020fcbe72be4a93916b593c7f26efdd4dee1a65cdf8d133684c;
  0x1;
  0xf74eecb6517e8b2d8bd9c336f8eb044155dae1aac49fb93da44492bf418a0f0;
  0x2;
  0xdfdec6c015da8edbabc79a3914a22ded139723ea0b29f0f2a0affdc59985cf7;
  0x2;
  0x2e6130b380a5679ce7c28b1e199cd1d4a6751631a1a8bf8c405e31bbbecb89ef;
  0x5aec8ec166b8f6f22d7d4d15ccb007dab3641e00bad1761ee8cd0d62cdf86f3;
  0x0;
  0x614eac2b145ff0c65f8d10a2f154c1bb16eb1de6275ff296e4eecae57a96c62;
  0x2;
  0x19ecb1a4f5276456962baf16b2fdf0330d84124a5be8a3bbc7febd5e9d77f785;
  0x0;
  0x155e5fcdc69610eda73447922c509b086012456d30d183d9ac9eeffbf2a9ef9b;
  0x1;
  0x191c74690b767db1b5de7876e076b258e9e566def87cd892f3c948fc68c377f7;
  0x53b3be3435ac4678b4ecb7570370854d9819d86a5c784cb46937ddd2b3886d4;
  0x2;
  0x2713161ed1ea093e965aa4a600138551d50f56b4f79643ae98445843cce89d8d;
  0x2;
  0x2d4cfcdba5e983aa71556d8aabd747780ab59444785fd7c13a822fbcbdbf0656;
  0x0;
  0x12c6b6246afb1b046eb78b849ae8ccc184baddfb805f58b174243b66e592db5b;
  0xd11080d39d11776b0e8d51be713387c6d989319b769d88fafde3db89c87a598;
  0x2;
  0x2931aa2a520068aba3d17543ad077e755b5fb3351d4bc3ee46fd7de61e781af0;
  0x105fd5f7c14cf37ae56d5d15f1db0d69d16d006867bcfd4b4b51086eb4cf5c23;
  0x1332d680fe5d7d1691072fed44e93673156cc77dfda8dc2ede587a8ac574582e;
  0x1f09321b02017e20b91fc1719e4a489b461a88025bbce81e0f5eefa8c5fe37c;
  0x1a8187e212bd9daf6620c42a602ded65b255b3b22843267c5be794bfe30fac8f;
  0xb6e69f6815b56bb0099e79a8431d9f50dc29afb0ca3de426064721d27dd4c;
  0xf35fdc8fde4521de3e67f491005f52417a884f931e2fe7cc55b0911702978d4;
  0x1;
  0x368227156367832a5a440dabd1939bfd1004117105d6e8cdb272ef84d322305;
  0x1;
  0x14fa368c96d19b710e4849dc8874cfe4d9d7e94e58aac3fb7b61ce2005ea173a;
  0xc6b83b51c7974ee17b560fd2c872f78091768e9ffa478317305958d0db71fb;
  0x206d0e7345fdc6488434c88a8d9f3002c2dcefb5ebad87155b962b5e62e5818d;
  0x2;
  0x177eaed820ccb53f46ab1ce2292341be1a6d1c0677d8337e387780d05fef0d60;
  0x1c5afb2b8625bc2dda276e2efa1b48eaf2c74e5ea607b110812d846da5564765;
  0x1;
  0xf4cf87c97be9344194787379d7574bc0b28925d1668b7bba7cde51a80c19999;
  0x0;
  0x28f50d3d128b8664f24a3b27820c99a425f3ca2f4c9f6b1c0685276b229589cd;
  0x1;
  0x28a48e98de6141ba4c1d55f332795373db48fd8a948e51214ffc3f9bcab54447;
  0x2;
  0xe9c94d4774a2c2978cc585272b69a281cc52a67d792aad0d7b90bedff2a824f;
  0x3a96d3ad6b6198bad3a87e4454789d27a9ff633fef8608335830db0601c33ea;
  0x27fece4dab17704bc01e164b33d07b4d155962cb754223f8109f1473f66d92d;
  0x17880441f56ccb2df2ec77d89479238887c438d9ea1f07c12e6a4c9127d6863f;
  0x2bc6a5548cf5061878b1107cf7729b61141c5e732dcdf4fff53ff833bd924c;
  0xaae70a05488688ac33fdd86db0c5157edf2842ab3cee66a7f82ffe2020821c3;
  0x17a1e97d9b1aaa213861a83ad8b9cf6ef2afce0620a70a8f4f6a4e761b3e2a2e;
  0x231be12f75f8210a8aee986851872d4855a3e59eacfce6cb55efc6aa5bdc06ab;
  0x1ee251e9de2ceeeda57c708239c41a9fde1e257440ba2d7c8a39f1d35d26a0c;
  0x17ab7cde38bfbe9d21ac1fc906552a021461f4c45c899fe0a8d132957f4027fd;
  0x1;
  0x9724f2bbf9ffcde8feaa5b0f92e9d30707251823d49cac837bd7640af3a0589;
  0x0;
  0x7f836e11776bc29800897be896e4606c07e965a03df743d36eea5ded877ae9;
  0x4f6d824f3fc34879a6b07073b0f47643cfe523515ffcb3582c2fee844997c7d;
  0x1;
  0x1d10f1bf553e1cc22cd0a89b59f45716de2b55cfea1dcfb1021521119a8c9240;
  0x0;
  0xdedf1ff9411edf42b95b05835f7cd27926b029de2c4189c643b6777fa6d2f;
  0x2;
  0x1c16a6d789cf3650267a9eb4db3cf8032a79c2e3f6060fea041676fbbba36df0;
  0x2;
  0x2066df3585ca8d43e42cfbce53d8af836b6a1f663149f25e5e1f5e416495e70c;
  0x1e9641f71da61dedfc298f9415912a157aa42355c6a007390794483d0d72f642;
  0x0;
  0x2d8fa24e3d8d15d29b67e8c5bb955ce550034c2dc73eac427b8b8ac48e303f48;
  0x588df597cc921c3459681b694ab2c69804dc4c58c93ede7fca9f8f95fa63b28;
  0x1383d931e90fdc1a6c0698f6102167ea3b4c716d0351453e4dd179e8b04335d;
  0x769422911ccc7f9dc8e62f83d2901a524c13bc081df4042b0da11dbc0d04ccc;
  0x22370a212c2e137eaa61723d54ad63b453191659231321f4c610bfe3797248f7;
  0x256d41b70bf23b5f2cf8d246bb088f7d71b743b3c8b829f693176b5726c761bc;
  0xafe7d12cfbb3472a99f83af3b7c2f3fafc3e5fe27a5db2b9bc85c9dec39b57c;
  0x0;
  0x298d7fec780a154e30e268632974a2666a32a1988c1e91d25668048c46bb71d5;
  0x1;
  0xed040714cd45fab292ac269338850de6ae317bb8d469b24ba51332083f0cb03;
  0x1461ff6c8312b02d7e563c006a85d2d5221564f24be3969249fc972c6912f33;
  0x0;
  0x98a1627e41fc0725869a022af816a5965aa91f1ef1334af517ac599bfa17d66;
  0x1cd1678f7309d52a0c1dbcfae10d06dc32007bd261c3f11ba70cd9ee03edbafb;
  0x2;
  0x61cafaadfa65af3f46ef3a63ef8ba51034069fbd64cb42fa9882536a9bba30b;
  0x0;
  0xc614122df848daef0019bd3665b563227d58551310ade5069e87339c2fe4ce5;
  0x3c14639db4a3ff16cd33295099315811754b18389f3b205eff1e0436f846130;
  0x2d9c18914658ead5a24dcad831c4f3e56461308860e2a39355228a14f03f82ec;
  0x2907d9123cc51edde6dda2d8c7455df2ee568025e5510bf14f4c66a433158ce;
  0x1a7fdb212e3061a043706caf58b5b252d745fe99f756bca232482da274962282;
  0x16c64491f4efccda36dbb0183a6077503152b2e5a7572bc31dbc742c96036339;
  0x1;
  0x2b5bd00888dba90af87a2819967d12b12662be22e8acaf584162a7b2cc89a6c1;
  0x0;
  0xd50a5285b798a90bba81b8ad149875bec35cf5fb1ecb5fd97adffad74a3d825;
  0x0;
  0x72938393de0be857d30686faa0a763bdc57eb6f2bf220343060185fb95bf54a;
  0x2;
  0x2acece39d0bb4da7b628a17ebbc2856058ee38df46839e9572af173145979a14;
  0x2a6b5b7315c18a376e40549896c94064ec527c352bf12b61b6dc9376b86c7f9c;
  0xf9b48e4fae4fbfa2fcf2fb3b17518d2ce62bb04adca5ba3fbdd387bee79d9a9;
  0x1;
  0x26f32f42804048a91420924c3cc874dce9edbf7cf1e7921d2bc3d378a960346a;
  0x1;
  0x1c0508367f67dbb85885b3f22e80f75582ccc364d828cd044fd6a9e6b51ad978;
  0x2;
  0xffebd4cc851a36b0e8234c24777ce9eb33919f07b024cc76494e3f68eb6848;
  0x1;
  0x87e0942567896469d7efd72e49258385e2c862df2d682aa52ecb7190979efb9;
  0x76c34f2bb092e17c9d1c5f84c5b02cd4a426ac389ab9465ecb8b93e9625974a;
  0x503b18de8c3e73df1b7490988f58674833f061276286359cca17fd4388ffe10;
  0x236d9a65471f63213c65b4f9c6488e10683e546da357c7c25c7f2aa6b745fec1;
  0x1139f764da208af207e53d5fe8909c57e3479d415e10d5aeea2f6cefe1c0a425;
  0x48c99e58be9202be9f48fe68127140c338b2e057df4049a67bfcd85b2766dc2;
  0x7dddb1a488e7c383b7bcffd795f8b19be6f3670acc98e1047f6146c382650bb;
  0x27b6c44361e1e30881fa54f7342a06ba2eef84ab8cc71fe1e31ac1b09c88760;
  0x2;
  0x10957906ab9d330fe5c93158c925ed5b87edf9c587b1a523665bc344cb13f14c;
  0x9a24359cbd6f7ccd53262c2f38bfe64f3d032d72c293b9b945af6a575e2a444;
  0x1d1542643db1f7d19ccf2fd29c9961e11222d1c66f258795b236112ab5bd4191;
  0x1ab31ad484a147dffaca2f565ee916112bfb13bbb97305d139ba416d94b0210f;
  0x5a86a433b131ec491e325d1fc312e382589b91f25bd1385123ea7e92b2daa13;
  0x7c4f3893c0fa7d644f068e39ff4462fec609e201bd1975b87230151b05def8f;
  0x60bc86597de47480dfd66b3acc3ae1b871b8f0899a52e96d2ebbd5c083adfe5;
  0x55903c7273941be69328959cc394d46c9f1b606467a18f3f2b27d5dff4b0167;
  0x2ceb213da78792890c3c0cbb1d23e7298a6715f331bdb25f0de0a3dca160b04;
  0x0;
  0x1df558551bc711a6f8f02b3d09cfa1128bc3fe5bf8ec9daef8d2e48f129756f;
  0x0;
  0x48cf78571acf0b10ce1d4e623373a7c90c465d0021bde9677d6cf1557eab76;
  0x2;
  0x2694ef80d94191f53af8a08f9ba43f19b04e7b0b981bcfbefc865f9dfa107337;
  0x1677c8677556b5678466f8a31d4c293402026a155c690f0319f45f2aabcf7200;
  0x20c9a9977bebeac3b500c93ba637801b6ce8ffea186453ea42ab86cb03b46d52;
  0x1;
  0x126f5e94685f824d4a272c371440896d9aed66ade6aee332af09751f82c7b3fb;
  0x1d30a09fe7f408aa0a9f66e11a394e89bef3563080996be7cde2f5e484cfe33e;
  0x1;
  0x7ee217dd7bfb4523cf3fd2bbd5674d38151a7b7e8b906702ef7c65fbfbf3b72;
  0x2;
  0x1d5a2dfd392aaace5e5cf11fc4de0bf978e07a2220cb09f746ce08f7f97168;
  0xbe163b105eba5381241f93f8e8f5aee2c93338d614aa991f9e0ee671bee1c27;
  0x85a1c82ecfce9efcd9e944f38f910a085f716593c0e134e0cd70af62cb4dab1;
  0x0;
  0xab35be2e4450e71bc94338ba706a9abc1cee0252ccd836622197c9c52a9f7d4;
  0xe17765d6db3dcee4281569270395628e4e4ed21656c525c7a5bf03957134da5;
  0x1ba033bf0007b2e802140e839530c24e5ec1fdd6c3426efd10e2d47a1a6603ac;
  0x1;
  0x4861b4e7711ba856f8b03db41fe8dae913efb7a6865dac2ee00bc7396433c88;
  0x2;
  0x22fb323a0003f80cf145fe4efadc2f1224a1e35d3f93cbe8823b3dfdc1f98478;
  0x2;
  0x54976783d4b1b832c7d64838243ced2927228ea2c98fdde0bfac6eaeed99847;
  0x49d05f739462664605223b8a8ade2120d91347ce6ed44a225ff8996b29a170;
  0x2;
  0x292ab5feade4514445f784afd8e22595722ebb5df0cb4a094b582ffce7fcd323;
  0x1;
  0xe8983cb6d4a02fa2cf466bbb78c6c38a9e6916fbeab581aa35fcdfb727f2a7;
  0x0;
  0x642f988c8199fe20da6e4513e7d21ff90d8840d1fd6e0cbff77155f46064717;
  0x19e9c91749f99f9843577338494dd2483265b8f0c4983fac87ef2b88d0b197a4;
  0x0;
  0xda742db759a7d0c5fde73bd20a53c6000f20b8ffaab4b3fff09614f342b69fe;
  0x1e139b832901c1273e47bb45046b8628d8bf35983ce19ef70217ce04497f41f;
  0x24344a4cc7193a12a752497fe3587cba5e86df7e0b58760e59c6784bfc62cd0;
  0x1;
  0x6bc85e608d4216fed635332c798768a5b1e0322e6dda89b7c95aeab524f11d7;
  0x53f3c0c44dc926ba7168fe2f9a8e1c6ed30994b210fce73bf94339535e7f00d;
  0x2;
  0x21ade37a33f8c356ded2b89e1950f520159de8b7051494fd5a39d130daabf4b4;
  0x85a74da489849c125e36f8d1184cc27198888c89ee651e8852082394b684;
  0x1;
  0x2ff4a17e4950eb7ffd1849bd73c09d779e3fd99e9df51f479c05314ce8d68c4;
  0x1;
  0x2dc7842a40fff3f68a26145379b3266a27b62f87ec3f7aafae1246c40fedf1b;
  0x303d8104ec15c8ed1f0665e5f70949f012d7bb247240313904f32e2b1b4eefd4;
  0xce132458d48993e4e9a0d711552edfc8d970feb4159145a7b3e43fca9f371ea;
  0x1;
  0xdd94285560e3717d717fe2180a5c125e4690c00e8db3efd1084e4129ecfbb4b;
  0x5f24023c84aeafe08b8552395fcc63c0765f155910cdbf94d03a9746384a3;
  0x106ea5d74d973a1f658103ab5a09b887682a4d0dc9c88cfd54abbc869205b09;
  0xc1db2c3b79037bb1df0ee5bfcb7f466d5fde1e093ff61c4b7a18ff2967aa550;
  0x1;
  0x220f3493925d9bfb840c711e30042f89a2eef399c94b301a60536ae2b5e492de;
  0x1;
  0x4c0b9fbc8650b025db499c7fee1545861e00236fd43051a001db0faf39d64a6;
  0x2;
  0x7ace208251e84ddb2940eea676f3ec2092bec6590d5fb0439423cb42321641;
  0x288fa292515d6d3f27bff0f27af3ba697371d52ecc8fb2cdda5ef084a0bb4b07;
  0x2a1ae1ee7f60bd9d5184177b48e48642a75d4d39a84eccdcf49cfa6f11c05b13;
  0x37773e28d312e25255bd0dcdb989f7aabe563fdd37407962a09523c095aa7ec;
  0x23de99023fbe1453b7eda9eea4cf6f99ceaa802549e4ef791b5bdc237de1566b;
  0x2;
  0x1d2659b257665d99d244795f8b73407394968c575110de307a212dedc0263335;
  0x18f7ffd9ce8afd7db4968f0e4b7a9f3b619f0b72ddd36c7d9b0f39540291d4f;
  0x2;
  0x3a3aaf282198afb98a44d4aad5475e159125dbf1026bc583fa6d61e86b2d258;
  0x1;
  0xf7b7fbeab37e209ebfb735c831a703fa63ca2fd658f8459956eb57d59c6f6;
  0x2;
  0x9f7bf533a5a9f7c5ffa5f6f4eac2bf7080195ed118f3ea7de62bec62d2d9a9;
  0x84ed0b4da72f50ad6d033acf90837c33818c329bef222599eb673cd7903d01;
  0x1ed0d840867a69526d8f50cea59e364194dfd67b3c5333a15b6083e837dce023;
  0x0;
  0x217be0a8fce6eea196915f1095029b37dc9a41c914a7c207af5911da98760;
  0x0;
  0x1afe213315dab7771e3deafc5ed438483b6e03913acf2b088bba0bc11010cb09;
  0x1a83f8ca70422036f507a85bff70bedd55430988d37fa0d00931d9f0145def46;
  0x1;
  0x11f82fa2536dd40e6af0ba2122df3df2be59af80ade517093f936c715e7bdb6a;
  0x5fc9701318b37299db3383508a16fbd683282249c5a759db958a562db34dc6;
  0x0;
  0x6271908fb786356b495afe0bd713b958b012758532a8ca7e06a009502626825;
  0x1;
  0x1b18336bde8f0ca121bdb6ace6a9862b9955cce726041bf2fe16aba5e83bf6e2;
  0x2;
  0x19833bfc3be3f1c2144722994b8a547d8a1db02e0e44395b6fe0823d93714fa0;
  0x1;
  0x1a747a1017572357257a9167d1d7d609b2fc15aaa351e181777a9618895ae9;
  0x1ed854aad9eba56348b1641229b39dbfa0e0987c8091248f764d62c037d70515;
  0x0;
  0x260ff8cb710e05384b6049267ea6337b428640db962de2348f6604006c551bfc;
  0x2;
  0x12da6f57dcba44d50f0956013e2d01520db37bd17007047875396e5c7ede5455;
  0x2896e8fbfbda64484ddd91c8793d280618280a7f9682b8c38cfd639388b3998;
  0x2;
  0xf2c5e1c5b40d43f5d7e5f9b65dc064f54bb4315896ad00ef5ce87d58c28e7c8;
  0x1cb547114139ad66259cb7587c13ae5dcf172f913e670c4bfb0889e8a010dd44;
  0x212d1c0e20ff3b15fe06bfe1525a8787e6a7efe288450392c103ffa692b0fa57;
  0x3cd26276d2bd0a34350ec8d5a2af696358f78226f703e0a6c01228b4a4c3b5c;
  0x4156f33c176fe6a01f8806af9365f697eed0f589f5d22068560d9b91a20626f;
  0x0;
  0x11230ba72c9be117bc51511be2b0c13700f83fc8ca007345e0da9a23a015f653;
  0x2;
  0x2decdc67af31ea820d7932c1846c31271b5d8d2a1aab8e4aefcdb7c15594ce4;
  0x2;
  0x13e7a729b311dbd10dc51c9620383f6b2bb4213fb7e209b815f717cea56d908f;
  0x1bf8f2e03877cc001af4619392d8bdcfa6304182d4e175643f4c8618622eae71;
  0x81d002d4329194bd74406a81f166e27027eeb2d11b623a8362784bd390f5739;
  0xe3c4a04f6ab5ef18e65a71d5b7a77c2e195194160ae16f7dd0f5dd91fc54d80;
  0x33b23f6a9a5163e67bf60580d22f2778e5836852b47b3239d02782faae3f5d4;
  0x1;
  0x17c2e1abe435a20d000ea5fac82392f9cc321841df7bac8068e6a50903ad4885;
  0x63628fb1e5a295d3cd9c33d0a949f8cd83a8121112e6f1c0c50c180bc09d5a;
  0x9b6513aba954a32e1ead5d966fb6470a49e68703d7c11df628377c0c9295864;
  0x2bb494aafdd7e68270a41f2a7fac1823750ac09e6a4bd2a4ef9c9a56002dca75;
  0x1;
  0x23395521da000fdfa97f5e7bbf24884d7956b1e8f4cb9cb7289893671a49ba12;
  0x1;
  0x2568eb61b93c3ba6510d13dd0eba88bdbeafdebae2a185c3d4327d963b2a4a63;
  0xb7f14b7f4f7b2cb213517aa811f86df0ef3f0d1afa2d6ff40cb1dab05d5c47b;
  0x2;
  0x112861095eb9bc693efa4316959d78d2db235159486437b8361050569dbc9ce0;
  0x52087b1b3881aa0aa9e1c12a76e700d1f6b68c1c43b45e2002716951035faec;
  0x150aa41d3140d5035bed67f919524c8e2dc6dc43ee829a62b9c8fc1e79273341;
  0x1;
  0x36eaca6f403b020eea7757797b96a41352d60d300a8d4d3168c108c2392d63;
  0x180dff5239873ad2f38ad69ea8a06d8dedaec1a8a7110e434ec1607ffcfd3d81;
  0x1;
  0x1aac978561b202a7258fffeae2c45415b0adaa50df7fa0dc791275c78e0b7a2;
  0x2;
  0x1097098e8b176d7252d5819c9b9c465d23c04a9a06454ab06319d351541480c5;
  0x6a6778a8580477c3027a9ba30cd91f4d808b62597669ff248bd36841fc83b65;
  0x3fc903605aea57fa42a26cfa2da31e8a25fa68db0bed998eea6cd8f845844f;
  0x9213edc2d131ad8114541244779ac7ec87b439c0fbd17db1d6d0f1e77804ed5;
  0x8e3f1fec20454ab7de18c33d975e2a55703f188f12fe87e14e3617a3b3bba57;
  0xba3ebb33b7550026df1e784feafd5f116658adfb97dba24ea863db16535057;
  0x242b99f5204765da26bdef76145b4d96c07fffa4cd856d6330dc32825f25daf0;
  0x15c6a70940634643b9c706a63a7acb50d918602bd4c679ef8fa68ad0ae805be8;
  0x0;
  0xbf4bb0d6c126a46b0925159975b191d5410d599ae4b2be7a405e6365173208;
  0x70fd97518683dcdd8d4f5b5c36be9ba1476c764320947eb37a4a9b741f78;
  0x1;
  0xb5d0fb5af8ceafb3bc4831e3e78a3fd3ca3828a50fb079808f548d62860a63d;
  0x1;
  0x26f5235a7bb6afd428de7ba779bcfe0c6bf7a7fabae9c8573cf0bc08472e1fb9;
  0x1;
  0x4af2df8bc8ff4773f9fb5e610d3c2f41a7df5ec5f4c8b23c3fd21b3865b133;
  0x1ef1ccbcf2dbd835f40189e841e518b95995160d5cdbeb4629fb033dcca39db2;
  0x0;
  0x2469095fc7f7f00ff80a9a473a9118b2e2f6e9f82a9d69facbef8e118ce36f9;
  0x423494a3e7a5268429047b57a0f94a74293b2e60ecaadfb3955a7e9daf0fae;
  0x0;
  0x38fb522e260556d966c3e69e35756b4e8a7a683675187f5e66062e5ae334d;
  0x0;
  0x26b7c1a178d3962ded0b3978a9e17412d4686d8b8f53a8bbfeee1c3b6a1215a;
  0x2ff083d1e3719d27f0e78581f89427092a005489919bb15173ccd6b0254e3260;
  0x62138426df76727cc3ef8e2724b2039e1f8ad5b82c86d849514fae51e152da3;
  0x2;
  0x12a44e3d87aabb597b3cf4a507132eb26fd4ca2e77eaa568542f77d54abbfe6a;
  0x7f9af21e1a02c8327bec274cae2ec79f2ed7121bd0f0dd939aa36289e59fd67;
  0x2b0c0269924cb1d75072fed5adaa7831a9334c1c768fb3c421365d4c58fe61d;
  0x0;
  0xdf690148e03de85713a035650e5dcad718a6a34b74124fbee661a86f8182d2c;
  0x46ed6b41d371a09e71144ce67f414f6efa45fe7d3388c8ff6b6a5aec745e095;
  0x12e619ffd782ab1b8766bdd736b12b60b4e56b9d9b3c0114eaf815d1464ea292;
  0x2;
  0x380cc15ee4ae4db86d89c7389217e566b9a10e9c0854be7e7dd16b8b0e9f5;
  0x9de088a5e669bded7d690ac08aed821fea541117871454b3ae23f395edf0d04;
  0x2cc6e98ea32f93c6b21b35640444188610d325b3a29de986c2db0a2c1e3559f;
  0x2b7151659b1bfcbeca9979955ecd3248b5fe3b117c1560cd1b88a4b406f4b2cf;
  0x1aae4c25948c6982508fcee99b15f54f46e5b1f01539d55345a3020fd7c7f691;
  0x270035844a9336dbad243a9282abacb16b749943db31e68194a97552f6fee075;
  0x0;
  0x123a568457c71a949231600be9b70adb8522fe526e0862beb80be89b773d099f;
  0x9149810debf86ee33d1b28e15da37d8b36c297535a52ce358351ab5f21b967d;
  0x0;
  0x67dec3f199530fac7fa8651a881a8c78c5a6172b44e289b2e539721cf9ee178;
  0xb2a760c46a8beee79bc0b1fbd6c86f0eae65ace6fa6373b581425ee5c5e824;
  0x53edd6fcc927bcbfba6aafd6d200bb6681d2204c274635dbf8ac61b0b72e26;
  0x1;
  0x2bf67d0f7adc9d59570894486e794229892091464ccbd56295faf5a335d7d276;
  0x0;
  0xb833db6289e60f9cf1eb405f5c46288566595f3f462a3b90684e955928e9c2;
  0x537b3919a6acfb76a361ef88601f76f430762bb76c9f60d2798f2a2f023e4e;
  0x0;
  0x1374d023385d2905e25e59413f39f31585693c13460db4efb7efe2d4fe6dd364;
  0x1a48b9898ace88a1a5cc68b118727620c86121ff1da3da525d81bcd94406ce0;
  0x2;
  0x212f973cc17b43c01d69c19664c1b9e20018e3ab17f565286f0d54e50dd9d72;
  0xa83f4894bdc1c1912050069a5026fea3fa229d2bab73e40341479b26babda54;
  0x5eb291f979a919d09f7e9d34b6a4b88e3abcdfd289c99ba97ec15cdfb7e36bd;
  0x2;
  0x19a1c1c5f12f01460a4c6602aca2382a8659747cb4044e3649bb4a76d6de90;
  0x1;
  0x28e90f2b79da25fc5ddfc7ae7b28bfd0309fe6f493ee675bc3da7653a8847493;
  0x2;
  0x14bab11a808684b2787fa3f48922c8f0c94bc623fc5547002ffb592e2814f136;
  0x139b5867976eb48342a0cd3564b1b82a07b6aa0293f8470b1158d8ebf851712d;
  0xa30974bf47b1537c0211d3fa723da0b1e9e72241faf4e02cab0bd0c66ef332e;
  0x128ceb0c27c96454ee495674c67dded3;
  0x128ceb0c27c96454ee495674c67dded2;
  0x0;
  0x30644e72e131a029048b6e193fd841049490e61b74cf98eaedee07cee2e9d2af].
