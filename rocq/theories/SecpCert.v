(** Quotients for the primality certificates of P_SecpNum.v (data only; every number is checked where it is used). *)
From Coq Require Import ZArith List.
Import ListNotations.
Open Scope Z_scope.

Definition qs_s95_0 : list Z := [
  0x0;
  0x0;
  0x0;
  0x0;
  0x0;
  0x0;
  0x0;
  0x0;
  0x0;
  0x2ba3f3f5a7e3879a87a1;
  0x1;
  0x22cfd644d270e12decdfb8d6;
  0x0;
  0x2c610e8d9612855365348de4;
  0x1c05cfe158165fb6ac3f9f4;
  0x1;
  0x227e6bf83ae38a58a62ce3d0;
  0x58f45b0a5fbad5e31ee1c8d;
  0x2def100b3a5b7dfb2c9569;
  0x4c1877fa182e5fd3b6236e30;
  0x0;
  0x34402bf235d2fb2e188953b;
  0x1;
  0x3cfda1e93a9329e0f6c281cb;
  0x0;
  0x5c14ef755d552232b49cf97;
  0x1;
  0xee49dedd4c900685a003fc2;
  0x0;
  0x5cdd0da22902b8d1b20d2ad3;
  0x0;
  0xbfaeb8b589a1003aa7dc84c;
  0x0;
  0x69b00427b7d33e20b06037d;
  0x1;
  0x1750c5157353d8b8e4ed93d4;
  0x2141eb7442f3881cb1d89f18;
  0x0;
  0x2e403b046fea6a43cd34193e;
  0x548c16e9922fa5b4c1cd94df;
  0x1adaa24a1b70f6d0ee245823;
  0x3d15664d8ae1ec3d08e69064;
  0x24f8a022acf4e034a3a27862;
  0x0;
  0x354a52381a11d955663531e1;
  0x2627dd02bce7832b21607d;
  0x57e116d43b9868ca437115bc;
  0x0;
  0x4122894d6dc0251b6691ebac;
  0x249ee01a7dbe15777a61f2c9;
  0x380c547b33c36b3a35f8654b;
  0x1;
  0x147b641534902db23892d05;
  0x7a392317f5f6e746e13282e;
  0x0;
  0x9ab984fe45a3892a40361e;
  0x0;
  0x2ffb0826084a9bb1537470b4;
  0x0;
  0x1112a43a221fee49c6105440;
  0x1;
  0x18a732a92d8607afe2d46a5;
  0xced75c062c23eb0ffa39cae;
  0x31b20c108f662eb806646c9d;
  0x0;
  0x13089ff43d4f4bf11710d633;
  0x1;
  0x51ee6392d0d0be1787c27ef;
  0x4eb553fb2cb2eb057c7f2a2;
  0x25b7248f8fade057cd65074;
  0xa9f1a378b88dfd761180c7f;
  0x1;
  0x5db88d3fd4fbe8482e252d1f;
  0xef481442a7db71e315480b9;
  0x144a17244c314426db9ea72;
  0x333ca21654de4dacbea182;
  0x130cec7694d1cc092735919;
  0x0;
  0x2936764b2dae5ddf9e1c5359;
  0x1;
  0x208d4ac6efd53515224e06;
  0x4c1d18b59fa546b70c13971d;
  0x1;
  0x3d58661e60b46b09ba0525a2;
  0x1cb31175090e9ad9d8b1d322;
  0x15af835860e303f39de74a8f;
  0x36279c58cd6e2c1747234fe1;
  0x237a0193ef729cfea763d9e;
  0x38075ebf006b504c06d9fe6;
  0x254eda8dafa571f8746ccc9;
  0x2ca8a02e325832e469493e54;
  0xf55213794d53ae7596f53c5;
  0x117162caaf76d80ad0582d6b;
  0x7f4adb648924bfa7be9f836;
  0x4c3362ba056b7f6a9dbc8895;
  0x1cfa0eb5b642ce3cec915e78;
  0x458cbd2650137a3410e7;
  0x1904775ee3fa882745fba9c6;
  0x30ff6fd3cf574c6a04682192;
  0x1e22541b22366fb591cc8f75;
  0x2240326d76258e614d1d3161;
  0xb87f53e9a328e50a0d9b65;
  0x3b56a6ae5180bea306e5ff45;
  0x213c2a4e710d20adf443a716;
  0x61ed6405c0c4a065c12b0f8;
  0x2417374e083f028e0fe4d269;
  0xcb02ec1d32bb3073922636d;
  0x1ae40c0cf4191c4dc7ff62d3;
  0x10a9e6eeea72cd43fc2d72f8;
  0x19f7ce8f1ac356660012cece;
  0x4247ba4f977c6dd1b03269a8;
  0x2ec8f383663299ea25c0a7ee;
  0x3571c85100448adee330b863;
  0x2a02b27a59e5264850eec645;
  0xb4a79d2d5d1c1582e42e76;
  0x4df3a1e0cfefde3f6a55fff5;
  0x328876e611f883e03e0a153f;
  0x32f6a491da4379516f44104e;
  0xc1af1ff5d6d4dddccb24e14;
  0x9affc0cbfc6329228002129;
  0x2f485d39d3d73d72fe554f53;
  0x2f4faa045a16f9be1a9d5da;
  0x4cbb924b644209574fc1d198;
  0x25a9a69ba8366a24a15988d9;
  0x1f23ab762295ef147e873279;
  0xb2ba960871ec26c3d003633;
  0xa4a9f4522eaed6dea1e151a;
  0x2863e37be2a1e3fecfcfb93;
  0x1a53dfebb32199666e10551c;
  0x146e413f5e477247bee29b4f;
  0x1fbcab9b75c31d0db2a0f216;
  0x4f72ac04b2a750881d883ef3;
  0x14aced865ca357ceac391a7d;
  0x23bf788ade121ccb67f2d4e7].
Definition qs_s95_1 : list Z := [
  0x0;
  0x0;
  0x0;
  0x0;
  0x0;
  0x0;
  0x0;
  0x0;
  0x0;
  0x2ba3f3f5a7e3879a87a1cdf;
  0x6830e5cde8981328b2e7db0;
  0x1;
  0x2c189b99fc40c698e1a73dad;
  0x0;
  0x1d3e8b7222e17e40a477db9b;
  0xea33b00bbe56ec6e1c7893b;
  0x267c740b31c683d7d91ce9b4;
  0x1;
  0x2adb0673a8958debb7dfe058;
  0x1b85ae46ac8ede2c5b19cd53;
  0x0;
  0x388caf2ec14f97804ddf381b;
  0x0;
  0x2a186f41d7670367c6570878;
  0x1ba1ba6993af596167a43c63;
  0x0;
  0x1f87700d51b9dd8aa067b0cd;
  0x5c641d13e7747c8dbacc086b;
  0x1;
  0xaee1650ce617f5acf7b3f1c;
  0x29ea77d01aa416bc7621b5b9;
  0x47b65570667e48f66c5b29e1;
  0x1;
  0x1218d6429b9b62e35b5afa05;
  0x1;
  0x38821e1f404d26f0bbbfbcfc;
  0x79f355539fe5708ce663b5;
  0x0;
  0xf086b266b104eb70a0ce186;
  0x2531337a8ce403fd9cfa4d92;
  0x26f00a7c981f089d3d01aaa;
  0x47512ee5812c4a8e11043ca7;
  0x568a7638a5a8bf5c7893af08;
  0x0;
  0x74c3204c5015cc0dfc682ae;
  0x1;
  0x4b5b14335a85b1d88a445882;
  0x4e4ba212c759b2c6780376;
  0x15cbfb87eb6b6f544f54d27;
  0x428f0fe9c8512f9b3fd5af9;
  0x0;
  0x1bf29655f39f5bbb1647d1f4;
  0x0;
  0x524c549776a659664a276eca;
  0x5192d1e5a176666018fbba51;
  0x0;
  0x2896494d37d36c9667690219;
  0x5cf7404f0ec20a06bf9cc80;
  0x1;
  0x40360636a6d227a8e32deb;
  0x39c952508bb50f78dbdaece6;
  0xf3146684ea06e676f843261;
  0x0;
  0x72dcce59ebe05ea2d7d4772;
  0x4c4b473ed464b3409f92436f;
  0x0;
  0x35dc490eacded17cf3fb9f88;
  0x4b59693c7aef6fcb3f673d8;
  0x1;
  0x2c210f7ad78424ee48846c99;
  0x0;
  0x1067c35573f44bd0fc44f75d;
  0x0;
  0x1341cd81bafe06b9f8e3cb4b;
  0x51da8c10abe9b34752932;
  0x0;
  0x14351a52eda0ec7b4b28144a;
  0x0;
  0x2d45f81d2a1fd7cc7455f7c0;
  0x6eef9ac29e682dc0cd63a5c;
  0x1;
  0x3f8a452ed802a634e8aa5b4c;
  0x2ce9ee5e751301a75c674600;
  0x1;
  0xa62f6f5daa78611ec98421;
  0x265d20937c624b7eb56c637d;
  0x1010eb12d2b71777f6030bd;
  0x1;
  0x1dfa2a13e8c659ff31707d87;
  0x1;
  0x1c2d4725cd689d9aef43e300;
  0x1;
  0x12006a3b1ad2a8034a8fddd7;
  0x147553ef8e50358354230db6;
  0x13797a8d62ddd7b9be1d87bf;
  0x1;
  0x2e93a09e243e1cae56756bdf;
  0x444cf8444f48852509deff;
  0x17a863d4b70829cc6d24809;
  0x4ec7e8891c3939b552afd1c0;
  0x9e5ace89873950d463f41f;
  0x20079a61a137aeb28a381159;
  0xfed63989042940d736a557d;
  0xfdc361d286a419b63ef194;
  0x53e05a68de83d2172519542a;
  0x5a483f7eb1ad55c781c57958;
  0x44c04279485ca20542f55d;
  0x3f6ae898341ac86043345b33;
  0x4e4c87968d7ab4ea88709ff;
  0x191cf8f668a2be6030bc4084;
  0x471df5d205360867c2fa0e;
  0x5d8f029b195e062510684f;
  0x58f2449d43bf943e25f6af7;
  0xc571a057df8074c86777f2;
  0x93623efb3ac67a0fa0db414;
  0xf263d91ff735ca39ab1c3ac;
  0x88dadcfa167c16bdc02de86;
  0x3c53f935eb6f34616a0206d0;
  0x1eaf860e3db1c7cb22a59338;
  0x337bb2745c2827a8a10c1ff6;
  0x24eae4158b73555cd4fff41;
  0x71b13b85417031097435691;
  0x209add2f1b95d7f909074b;
  0x39310ebe13d6ecd990309f8d;
  0x5382c0c3dcd9baabc6c425d2;
  0x10ba72e5481f0db23a474c7;
  0x4cead4cfa913273c58ec8f;
  0x254791a8c57f64b508aedc5;
  0x20a3edfc217b8ba20636af48;
  0x313f9346d82b30171269075;
  0x288ce79f774fb4d5a9f03755;
  0x431768215f1a5c9751ce3a3;
  0xec10ac6abbd9f8e6c20a96c;
  0x4d00ad20d58bd87cf7a8a828;
  0x4103d8c90545c4b904f39453;
  0x132aac90b953c9a05d876d5].
Definition qs_s109_0 : list Z := [
  0x0;
  0x0;
  0x0;
  0x0;
  0x0;
  0x0;
  0x0;
  0x0;
  0x0;
  0x0;
  0x3cbcde47b82b2fb9c1b;
  0x1;
  0x168cca0843f910ce26a847b1cc8;
  0x0;
  0xe32f9672685d8323b7949d63a7c;
  0x1;
  0x5ac3bf49d31a495e5964451674;
  0x1;
  0xe87d14e25b9cd09b48915dd9b63;
  0x0;
  0x119b98c0e95950799b71cc8e1af;
  0x11d23ae07c0011b46d66413ad2a;
  0xc46877d47eedb4504bc9336dc1e;
  0x94196a7ce08f80274fa67099ba1;
  0x99aac446c7a9c701808353daa1a;
  0x6ddc24916a95148b5e57b8b78c0;
  0x43cd1b8d1bb2fbf18c067cc181d;
  0x423f464f6d7f5436404259cbfb0;
  0x442ab9441adfdb9988ea80db82f;
  0x6a1a592b637264f6b1ae8a372e6;
  0xb3c5af9a1839e27213ed29b0c8a;
  0xe0388419134e7c0b7d4d3fea2fa;
  0xb5a72e888467a7c2799f89b22f1;
  0x9b6e30d2ef972cfb58c5c8725db;
  0x5cee806dd210bf61c6927b8e43;
  0x4deee364b700253c96427cda3b9;
  0x581e22da188888a30f79af0f7da;
  0x9b7696bfdf87a16de4c2f26;
  0x1dd631150c1f51a0879a03c02a1;
  0xa479aaba965b6e8d431c1e6a9a7;
  0x1890df0e3f57f893f9c04fb69c4;
  0x370617067d8e8298cd52d4844a6;
  0x3ba14cbb59f4406b2d908d9db31;
  0x9382e0270b19ffbaba74215baa0;
  0x5ba8d042d0d47ec333356587476;
  0xd08285bdab3eefdeac10d4728ce;
  0x33cffbcf0166cf706260e2fb8db;
  0x3844dc220fb6e35df3d3f102a59;
  0xeef6657b836b60b22e6c48ef970;
  0xcc9090cbfc313985a088a34a4d5;
  0x45268618d3a198ae19c8daabfd1;
  0x3256016f50cde29f3e92cc5fad2;
  0x3a4d1199d240f27d2df2ec7f36c;
  0x6377928c1c141aa80804a606b8c;
  0xcbeb0061cf466a71d11fac29a5;
  0x23467c6420cb13ad230e7f16a06;
  0xd52d755d79701e4e64fcd530fe5;
  0xae00d3e7de20341c795ec01ff0;
  0x82f6fa58d959715fe722056c18;
  0x14e819ae27149cc142b4aafaa93;
  0xed5d513475c6e21b09bed63b709;
  0x11242c1d86e7f2dfad7a4efa;
  0x784ab9366d501d6cf0fd530bfe;
  0x64c65ff776b5f26905eae2402e9;
  0xbe44e9a754afb05409449ddc51f;
  0x317dddc46cc6240080e08676d91;
  0x8086357b81dc7fb0b18d98955cc;
  0x21b99e19c18286eb866040128d4;
  0x12b19756a9d66d4ba4b728e3bec;
  0x61856ab9d429e06ca75245635d5;
  0xa577b4cab2a1e92d8a29fd48b47;
  0x9f7b751678fed944c4612004efe;
  0x7e951c0c50a8749d880889088bb;
  0xbb27c41926f63df5d489e1cc9cf;
  0x1dc0582c341cbbec58c8ca69ff9;
  0xab14ccfe23e885b7171f6cbb5fb;
  0x1998285dedcccbc58ab71a7222a;
  0x2e28cd17656a931d90e18fc4f17;
  0xe10d26fbdc263b5f026f2642646;
  0x75a2ecd7e093ef3336362856656;
  0xb5ac261af2a6504e8c136f6f0b7;
  0xf7a429662ff96a45e7583ab5dc1;
  0x65ff149709b6cb03c9f9d15d8b4;
  0x5bf1ea22b38b61f5a4db75f3a52;
  0x186a5a82bbee5b34a4aed1a52b7;
  0x5532540f94c0a4987f97b5617aa;
  0x7345934ccc6a2aa3604dc8d74ef;
  0xabd301b2b1667b3242a7702c19d;
  0x8c4d3251c541cc00ed2eeef5e;
  0x413bd62b42e0aa7ef37711a7211;
  0x19e68b2447501513812b46f3f1;
  0xd50f2bb4b93dada0e006cd6f997;
  0x59841b9f9fd30c2c9551f557c;
  0xddec10e3736823cb66b1fa6d81f;
  0x8a1288dd8c7d6ecc580ecddf4a2;
  0x767db79e3a90af392ef9d696650;
  0x1e8bdc431f5293b278612f6c8de;
  0x445e943cc6d0fbe551075d13768;
  0xbbc4f3c68ef7cf6a017e46aa770;
  0x52895720500af251f0d73ad5cb3;
  0x5203bf8e704217a4799324ce666;
  0x1a28f118748dea014f74ae8f165;
  0x36230d4fb1858730fe661eb1a2b;
  0xe44b62afdf46aa02be3490f500b;
  0x4f6f788e157bfc1e43522b34f26;
  0xa9d9bb5094594298c3da9ba77e7;
  0x33b7f6d7532472429336ac90dd;
  0xc9f2faf26dba2e90e39f46b948a;
  0x53c01c69c846ce780a06e5fc835;
  0x1f31971a26fd1d3254f8c741bb1;
  0x8810303831b0a2bca595bcf6123;
  0x2b35b85ef4510af25b658f8959c;
  0xa57314c01e27ae1de7f99c0814;
  0x520b84f39b88db6dba6eea890ef;
  0xacb180239820d996a3637289574;
  0xf7094e2ade9c77e1c0919fe1c60;
  0x19e64a9781df3ef604e67b480ee;
  0x6c19a5b31dc917b74286aebb05e;
  0xb6ee78cac2923de8ae9aa55377b;
  0x7beeed8441163098c46199a69d9;
  0x28678aa5923db6081b121e0949e;
  0x1f7691da39811733574c947dad9;
  0x6f71007e64dd7714e3dfd8e2ac7;
  0x8a260fe7af6639bd8cf104bbb06;
  0xc3c84852334808ff54ffc9619be;
  0x4f8aa787008ca6dbb115d00140;
  0x6489d60186b8aea1d79e5d967e;
  0x2898169cd811875a206ea2b4603;
  0x2530a62c877c525f5269a71ed33;
  0x584c74bd29f696f86dddb7c1670;
  0xb86ccbfd15ee41b378f1a3336f6;
  0xb4863fbe1128ef7f3323df97c77;
  0xb3fe8f92450c25d5c2418c081ef;
  0x8bdbb65ee6e408967cfd9663788;
  0x8a6ff046613b88a503a3ad0568f;
  0x22e2ef96d6fb63793e36c6fc527;
  0xa742205acd951c1aff3fd7e923c;
  0x9cd0c135dc4280e4f50a30f3fc;
  0x2bbb95bd58f882386b4cd4cef66;
  0xbe3f17b432ce37fb4561fe42a8b;
  0x6be33ffb3dcf8565070ddf91a25;
  0xdf9e0b005ac1d9c9dd12c6b96e;
  0x41f6613f71869e8b6902a71097c;
  0x1b2d211329c6e171d034e199ed5;
  0x106860026b065d4a31b7329d0b83;
  0x70c73cdd1e135ea6dec2530d3;
  0x4f010b8f30b15683804e1850d24;
  0x106d18544141281afe93da51102b;
  0x5040205c348e950ffd2db85ba26;
  0xee6c83c7fbdb9e4bc6bde154628;
  0x5de93cf3a90c5456bcf715b722;
  0xf70477a5800214d485e31212638;
  0x264dc7c749a6e79a50a82b43f11;
  0xc35af7e11fb0f8b0d24fad7563c;
  0xffd8e4be07b095ed7855faf1e8c;
  0xe32cadad6814774e15294d25cb7;
  0x1c0859c7ab9866c554a4b753c8f;
  0x6924d2a95bef7c498d8815ab617;
  0x376ca7d08b13a392d9b8a85bc1a;
  0x2f22546f5a981571879084c4e48;
  0xcb328dc71cbeb97915e3912af81;
  0x18291fc9c747166c6620a3afe5d;
  0x72dd6f670189c64d9797b4257e;
  0x179b557d3d0b1d8749c073df198;
  0x8ee6de5f7456c304d24779dc3b;
  0x6ad160d142c2c55fd7cbb66bd5b;
  0x8e4b7be973a0d657bc4f3783355;
  0xe55fe017a8a9dbd5005dabe7e2a;
  0x5a5bb9d2ad9a601f37c31a54fa0].
Definition qs_s68_0 : list Z := [
  0x0;
  0x0;
  0x0;
  0x0;
  0x0;
  0x0;
  0x0;
  0x6c1c;
  0xdcba9594df2cdb77;
  0x0;
  0x487f6d56583e532db;
  0x1472d4d132930ffa;
  0x5f4a0eb5203322fe8;
  0x1;
  0x3e153415c7e8aed3;
  0x1;
  0x30043aaf58aa8704d;
  0x1e0c242e7eb03f60d;
  0x0;
  0x198a5069b72d78f5f;
  0x3a3782a163ce45dc;
  0x1;
  0x8a5e4f15f855cbc5;
  0x1;
  0x697f9e39470cebf97;
  0x1;
  0x6cefb04b27ec4ede4;
  0x1;
  0x95f5218d74f8dbcc7;
  0x1e7e4a7a4bd8525b6;
  0x1;
  0x2aa8ac1ee70625842;
  0x0;
  0x8fac0d89d8cf58339;
  0x1;
  0x42761433848ee48;
  0x57940c12168aec5b;
  0x4954098c9a79fc5fe;
  0x0;
  0x86996ffa5dddf5ec;
  0x0;
  0x5519d9ffa97f8dca4;
  0x3fd4b743e317d358d;
  0x0;
  0x13b0aa8f7f4a18be;
  0x0;
  0x120aa84b72d46e9;
  0x1;
  0x4b99e964ba90bca3a;
  0x38c2f8402b2effb1f;
  0x2b203bde55f254e9d;
  0x1;
  0x898f9a1b86717bc4d;
  0x5cd7f0f97a0129fae;
  0x4ce450a1153afd7;
  0x1;
  0x17d48ef276aa6e46;
  0x0;
  0x105389c6c0fb9e86f;
  0x5e5815b98bc6f5415;
  0x38758d6978333f867;
  0x7cb5d883eaf2017aa;
  0x22fa8f4fd5ce66335;
  0x0;
  0x6d5d556664b4d39de;
  0x0;
  0x150795638800d7a8c;
  0x1c77ce938af4f808c;
  0x1;
  0x71259e4aa66121f;
  0x0;
  0x1b9958f5774581ea0;
  0x0;
  0x147357848164f83dc;
  0x5ff6fefd05f163dce;
  0xd73db9b85dcc1fe0;
  0x2f77805a35035cb44;
  0x1ffeb1f61a04befe3;
  0x3afb8b57e5899c68;
  0x27274ffae76b39184;
  0x1fc3fd7705757353;
  0x802fdf3802ff7a0a8;
  0x4579fdc9b8e89573d;
  0x867de9966775fd7cd;
  0xd29e81c13fdd943;
  0x14a9a1cfc70269570;
  0xbba108f8dd759574;
  0x649af0732f2061ea3;
  0x290fdcacd3c56dac5;
  0x1cd9a0d77bac2ddf3;
  0x26a437e9d7d5926e6;
  0x902813754eb0063ac;
  0x8b105be3f5364d2c;
  0x3e951ebe9074d2b75;
  0x5e2ec9ee26e3ab8f;
  0x528697d1a16fb3f72;
  0x336ea01e9de9afac7;
  0x3da1106f047d8f59c;
  0x2859ba9ffcc0898a1;
  0xde20055218ea4818;
  0x1f854a7f6508dad7].
Definition qs_s68_1 : list Z := [
  0x0;
  0x0;
  0x0;
  0x0;
  0x0;
  0x0;
  0x0;
  0x1b0;
  0x1da2c6d67992cb692;
  0x1;
  0x1ef0e9a3c45ac649;
  0x8ec01c7e56203ddbd;
  0x26306fa425cd7d5c8;
  0x1;
  0x38ac924fc142bc23b;
  0x0;
  0x8f5ede2a3f7f788b2;
  0x1;
  0xe6a083407c296221;
  0x4b6e547dece00f56c;
  0x0;
  0x47d07c976075325ea;
  0x0;
  0x24d4545da4eaf0eb;
  0x10b2e23f3010ba03;
  0x0;
  0x159d63e28da943d4b;
  0x1;
  0x68712d2d8e64a0033;
  0x38defbb7cbcace40;
  0x2910a9d60878be61b;
  0x0;
  0x58453e872e253adf;
  0x0;
  0x1722226a7dd15392c;
  0x4dd68320d2530829b;
  0x34eca12bef8e252f8;
  0x0;
  0x39ebc07744624c108;
  0xd251d2330524b227;
  0x4c344480a2cc242cc;
  0x21e04026b21314ec5;
  0x1;
  0x1a58740c04ff9a62;
  0x1c7c604cb9a33608b;
  0x461f3c58ca0dbc0f;
  0x0;
  0x47651df11ba18dd5;
  0x0;
  0x5c223be2aaaeec981;
  0x4703d9abc7c8d887f;
  0x1;
  0x35ee1df52747f6ce4;
  0x1;
  0x11288f5485d8a7a83;
  0x0;
  0x6764adc35ebd14533;
  0x64b9891c4509fbd6c;
  0x0;
  0x40a360eb7c5ce769a;
  0x0;
  0x6068350a11a94f7e2;
  0x1;
  0x6ab6619dde87de239;
  0x0;
  0x8a77f8224cf40f4bf;
  0x110d97c6d3bb8d71e;
  0x0;
  0x431b6e8c8929cc345;
  0xce139b51df80e660;
  0x721733727b9685d04;
  0x6e69f0be4ff7fdeaf;
  0x1;
  0x8c2d2d2e48d31c951;
  0x25753b4780dc398;
  0x1;
  0x481b3dc076b784ee;
  0x548eb0e21fcbb35d4;
  0x0;
  0x69acd822dae398bf1;
  0x221003d8f4862f2d3;
  0x1d1a6edcd3b61a6e;
  0x55a294468b2b67538;
  0x1803a62f3b05f79a4;
  0x6a9fe6f718a685fa;
  0x53027785dbb62cc7b;
  0x66e358e8904405e;
  0x6473b4f435c299063;
  0x71791e12ec319fe10;
  0x101169684c1a04325;
  0x77d74898a8e01217;
  0x457a279b40b849f35;
  0x42decaac33b5cfe45;
  0x89d673bb9a00de;
  0x3493e605db701988b;
  0x3648857fe5acb2f78;
  0x3900710475a46e58;
  0x4d48a42c730bc432f;
  0x52208ceac3864e39d;
  0xafd5c60a6e8e25d7;
  0x4ea3b27a8ad91e983].
Definition qs_s68_2 : list Z := [
  0x0;
  0x0;
  0x0;
  0x0;
  0x0;
  0x0;
  0x0;
  0x6c1c;
  0xdcba9594df2cdb77;
  0x121fdb55960f94cb6;
  0x5a8b7ae45dbd61904;
  0x0;
  0x79cb73476df113d0;
  0x0;
  0x23ec985dd21cd072b;
  0x4292d3f81e1c6968b;
  0x3ea2fd8511f1fb13;
  0x0;
  0xbb44e07840af62ae;
  0x1e1ea7d4bae7f354;
  0x8d0505cd7c888815a;
  0x7a4989e3b4c5cbc02;
  0x1;
  0x802241d0d5701d728;
  0x7a3949086ed0f4441;
  0x7b3c1ce24ec7723a;
  0x68a11f8fd7ca6ab6;
  0x0;
  0x936fc20adda375481;
  0x3d74c1d09ed9b46fd;
  0x439bcb281b4ad0aca;
  0x1;
  0x745830aaa2429e1e1;
  0x24564bee0ad3eeabf;
  0x5b807bfea5f5786a;
  0x0;
  0x5370a55d8ee4be926;
  0x45645f9d73504730b;
  0xf09898d9aae1fa0b;
  0x614de5eb749282ba0;
  0x42f86a05b878ca788;
  0x1;
  0x6c57b3b15db0d64e8;
  0x9156b7fdd3fbc4bc7;
  0x20774ddf43a3e2722;
  0x6d67e931a5a7fc40d;
  0x615f575416848f45e;
  0x1;
  0x8bf8faa3eac0658e5;
  0x0;
  0x2f77937c319b2af;
  0x1a89a8998a8ee3cf4;
  0x1;
  0x2295238dfc08d4cfc;
  0x8b653b2d63e7760b;
  0x0;
  0x41e3a5d0084e6a02c;
  0x0;
  0x15bb7e7ddcaab0929;
  0x1;
  0x16cda50e3ce6dd80c;
  0x0;
  0x6473fe43add34d847;
  0x1;
  0x13fc3d297a04ee66a;
  0x1;
  0x4aa964bd5f86fed69;
  0x1677bca671aa68e61;
  0x1;
  0x1bb94eb57bc4be2f1;
  0x0;
  0x7ae9ca5594998a133;
  0x1;
  0x96a70d9241597c39;
  0x1;
  0xd922b0b4461d8c53;
  0x0;
  0x19e446ea83789806e;
  0x0;
  0x256cdfd45a9a853a;
  0x1;
  0x16a5ddd836343ab3b;
  0x0;
  0x44efd778e9e3179f4;
  0x3ee1b0165f49241d2;
  0x0;
  0xcfdd8c67811d7296;
  0x564c4d6e8528cf9b4;
  0x55395255a1b4300c7;
  0x1e46d493406b7c1fd;
  0xf38e3b4f4bb53941;
  0x1101627ef28ddd4ef;
  0x1d0fbb7f9fa25fc5b;
  0x6f735fa839d9d386a;
  0x923aa4eadc5e21bce;
  0xfdc2961fde790ef5;
  0x3cfa1afea6632a15;
  0x110f5faf3aa667136].
Definition qs_secp_n_0 : list Z := [
  0x0;
  0x0;
  0x0;
  0x0;
  0x0;
  0x0;
  0x0;
  0x0;
  0x0;
  0x0;
  0x0;
  0x1000000000000000000000000000000014551231950b75fc4402da1732;
  0x1;
  0xf29dae84d52841fa79d8c402fd123342c9408fb7dbd5564f62a683901632ca6b;
  0x1;
  0xb29600a420dc2ffee071549241f9aa7204f38ba934975c5b90094f9d78bb0f95;
  0x1;
  0xcea1b82e76a493ef705cbf74c742a1b1bb39e560f38c092c9e2cfab8e4e056ec;
  0x0;
  0x8c4e23915a8f2b8caa63265c6320f47b595d58e6080098028f20a562bbb697b6;
  0x3d34475db2e669b4504f51e450a816ddf9b9dd2ad3afde06fc96f967fc3c5f;
  0x324372139c47d9af60b2e5bd213d9c30fb4bec87dc535e75935de82b937bac2a;
  0x1;
  0x477c1c8e278d385b9cdc16d40f4c7eac301040b5b94e7b824b1626ac4aac8bf4;
  0x0;
  0x667b826c1759d0ddb8a11a3de7c1832bc8abf603064698ee91c5895387126fa6;
  0x59e3c55dd93b7210fd7d11fc0c84e6303272e6fb2c67d3e4e3d7ae9e38722c;
  0x0;
  0x3f7910759acd71880d0f7cc2b9ebc273772a1a32ddba22d0c88b7f2035e59b88;
  0x0;
  0x1f509ad978d2dc5de6a458995fd812260a84fda9bd3ee3bf39300f7fff2e5efd;
  0x0;
  0x6fe60702aa22e595dda242241191f55799cd34d606d52e14cbbb59674a51ce36;
  0x1;
  0x743e557c07bd9a7da26031ec6f28b5f58c22d72f127fa3d14457d4703171548d;
  0x5ca254d405347f75d3879e1a32b8da13b990f9ce8f8ac113c61dfffe029f9138;
  0xc3f8c9d1f8aec2c560ba3ec953cd20443a0eb985270dfc4077abd7e6076910e;
  0x1;
  0x72686fc2a2db461d3d9cc23ba2ab15074adcbc852482a4630aa66b87f57510cb;
  0x24e2b0d895e60ce0a44471b004d3d706c5049fc953935c0a321d812f6a16420f;
  0x74b7f2ff32722cc178533c6796d1abd47e14954a14050d9148aac2eff10a421c;
  0xdf53a456c2249d501e2d349d9d83820c93a8a1f8c0a5bf241d691a24543546;
  0x1;
  0x4e94da3ed65fee8cd8b18eea33f63f6a3bf20404212f02d694636e0779e37464;
  0x1;
  0x83cefa853dd5e87fbfff5b9444a4432f33d47aab9b03e309ab119bfe21835111;
  0x0;
  0xa63d11acef50b788df53a415a75e0994909a5c9f3bb66c0511af4f65943d4b08;
  0x0;
  0x26745df845b921c468af67c5e9ae4eefd61a94bdaaef9fcf801110c67caa49b7;
  0x1023897f7bd7e9c6cc0298b388456bf527bf6cae075cae2cb5694093f7bb5e3;
  0x1;
  0x305c13a977e9c3c7fe930928c92be28de31a8d1c7e18da40840f622939af2981;
  0x1;
  0x2d43c539c8f5f2b9b507ace49d3c76f24f04f65993349f0530787be1f823fe78;
  0x1;
  0x8af493c6d76c89496f9c50be567f7272a885e9bc2fb06d14f8b16265e4a1e0a9;
  0x811a867c5c591c02dc4b319a0265a28c4d47789b36cb4aa5077864ef27cde723;
  0xf0b57a3704a3bea82ef6ed3a3baecbe44c62fccc374632a9f2a2fa508d51321;
  0x35fa092a32f7343e32f8836b38d5cce1e8248f6cd2c152f6e765810e6650a981;
  0xbf971ec770cd17646da956d2b667e74c0239e9a71948125567b52faeabf5b573;
  0xf7a42c1b1a1239a5a1c5839de47589b03f4f3d687ea37b4b1764ee327df33d9;
  0x0;
  0xf26935d361f803581441ec466aa0253765af24ec6befa282a2406ca72ab58e31;
  0xa928d85c57d8fc98bfd6b4d03b2bbc6b2f1b4806ff6317b39b17959f2b047537;
  0x0;
  0x5a675f073ee348b90385892f891a85bc3c2971a2d122c37a281e7d2600903ada;
  0x7e05cb3566706a87164f112216bff16bfc4ad89ded2909775b3068f10488a7d5;
  0x1;
  0xd771c5766eb3590983d53f878bc486c4cf24053b27a81fc3f343a3a9baa5934b;
  0x1;
  0xc8ab4bf7ecb916b166eb67683acfd88015df5a06bcf00616e4682acacfdfe74c;
  0x21a2fc558395e731dc7996bdd5cb241af90661384b7f500036a3d88ba9825396;
  0x1301bafb920bc8af53c5ff099033451749617090913d931826a3c4a60f02d8;
  0x1;
  0x26938e54193adf749af2b1ca3e0c01d8dc3a3bf3eba5507e73c8be64dd60e8a8;
  0x1fa9045614df7496a6e2a6e7d54fa545a58c18d2a0811c4e4fc26052ee48f4d;
  0x0;
  0x2593b9ba788bb1d9c46f254c795a29288aeae2d261c8ca799883e56d6d856455;
  0x0;
  0xfdfa1908588ef24c5f507e5feda7901626548753790a4cf978db3712a87935d;
  0x1;
  0x884fbc7e859b75a69f134c836ed04d938339b57cb859dde611b6ea69df2bf590;
  0x1;
  0xad50c6e7578cd4fee1050beafaccb29ac470678eaa124e378e02623b2cee118e;
  0x1;
  0xaa306734ea20e6b6976fbc65d644099a31e27d49401b986b1d7877c5087b965;
  0xa8ed8d3416f55af033cf188995ab2c9f74a9cde7a3b7d77ff1c68a2b89a21b9;
  0x1;
  0xdf4f06e0dce5b9ce1a0bca61600e6154b16ee2a93cff921d9559aee877bf30f8;
  0x1;
  0x1cc51d00b0dc90fc461f35cccbcaa7c0a7c083ee070d3109bb3299d310de4a9;
  0x1;
  0x738dd58d17c43499d867f75d30ee63190785aee5332cacf39379f9e49bfc0172;
  0x88f239cffe436ef3c76555ed67e7ec8df5e8dff026c610f90ee41eaa435a088b;
  0xa5c2e9e34d8371f21b50f859836203746645bddfef1a872d5805c945b3fd3d1;
  0x0;
  0x3c39f091c3bd49bf3244ca5f87c5e5a31afb4b906cf0ba7c60c723a0b5a48da8;
  0x0;
  0x32017375d8c472c6e072eaf9669fa7328fb8716134f962402f85eba6d407f647;
  0x1;
  0xe06c2e7859d685daa1ee586e87e71c80c369caa1eb2d7b0d2fd05d041d04aa5;
  0x35288216b5788e9182ac906ea8310d0e36fc7aa481239113d6deeeefc017066b;
  0x96402a47f89d66a48ceb66f1fa7600ba266533782df820fe8767af5b8904eac;
  0x9b6ec1043769a40a42cd48a65fa64fc1ec48bd92704e8db6ef906b973045ba95;
  0xbaf44b61a2a43a4f1c99d1de6cf32bcd6434d4a3dd13e6ac43f33b19205f6e4c;
  0x51feb65a74d63fef715f0cc445fb9dad07b8d2869434cd29d9ee121051e71068;
  0x1;
  0xd3055f799f59785f9dc1174bac703c81c20227296a0deb10edbb9be249e1ab6e;
  0x1;
  0x26b3b4808f21279d095aa5ba272d77bcc41751305598288965e74d3b5bdfc807;
  0x4ac2c0a92219be6b47a1f3913212d6f396b931c07f2d22d8c9eec9e44717610;
  0x0;
  0xf548d08d34c732efeedaf4e2c68b61b07cb19965b845d4502ba9b5f33d6f5f8a;
  0x0;
  0x7b3b65b77ff599f66eae4313060e72a92e36ec31c601fec9bf5264af58c92c80;
  0x0;
  0xf258fbe4f28cf01e815e851d3b051d864b300060bd9a3d5790a0c0969438acc6;
  0x47bc7790aae719309000f15569d188977bb63aa34f1346a99d24fb896396dfff;
  0x0;
  0x1981063e302f62770d1744e9cbf2567eb0d897951417f0ee2a5bc741d7aa4221;
  0x2b69b25458a75439b3548904b85fe687e0d7ed325806a5b93fb35d0e38dd79ed;
  0x492c90c3f08a6e595a062fb5e03ec5c66e414621e4a85c1610c6b6a87eb0fbfc;
  0x1;
  0x242c8be1c6101ad042e490745dd445b793868188ff1b384feafef814d11a0d98;
  0x1747fbed1cc4b13fcdfc5474053f55c88ef50559d68197aded2b3a16f72e30ec;
  0x1;
  0x130436ce275eaf5d33ebc1e5a0dbdf77abac346a2e4f72d805502142445d95d6;
  0x24b0ba70f896703e246982ad0749ef825cd672746c8d05b805a9e94c459fd762;
  0x20fd5467241c7e49da3a18b88f4a7c1dd782f8fa408d65a8658839e3bf3ca135;
  0x952cb63226988c1e1759ba003a3059c8b6146211c549a85c7fe42909b73d027;
  0x3d1fb77feedb3f4e841780c542fb6a2be84e39f9d507aca776ba72a9f11ae05e;
  0xfd6f90a0b28b07ebc864ea84e0d0ad62aed4662dd48a64be316f696f64c1a9;
  0x6a623b2f078939ee51725afdf899a0eed2723394e6cc437e6be6ccebf3293dad;
  0x0;
  0x49c3d3c95220a32a2e21ba05eb3da38bbd0d795f6958113ab91da99950f5830e;
  0x362393639073733ad48213cf04ca049517b500e5e40313d75aa04f75b657790f;
  0x5f2466da84d82c055ced0b628c56e8bd87270cc112a6a71a19955c4b312dfb83;
  0x1b2736e340c2c3baedd008569b74f094c01206a91b752a7e5859f6f826155927;
  0x0;
  0x1d9070458a62f47cbc4e77a207d1e70b7cbb49dd5639d4faed1ac97ebe16f23e;
  0x0;
  0x191e41ee33130b36456d09489cd47c042292c352c30ebe4c7d5ef9acc3ac4c81;
  0xfb2006927a564ab3e7fae12bebda50cead3d7e4c33ccf80fed0e6dce0e521729;
  0x3bc70caccd751f2458e965e2ce71e0ad453d51068d7f46294efffb499e5494f;
  0x26f7398525ad51223036b86561b347f6e94515be6b0c4cb7f2adadbefc33015;
  0x1;
  0x6ea1a1c8898e023592634f7c05c623f713b4f52ea8d649f00298dcf6b5a0e30a;
  0xa117a24e0b03f14e1cd927e58a2e677070316a163187bb8d4e54766891646ebb;
  0x0;
  0xde0cd9b3a45cf498653302857c75247b206b8ca90be70f5b5b579b7b611fc1b;
  0x1;
  0xb7b4d89c5c071f32a3cc7faa06e48322d59bb2ee44c06aa704b4c5af47dd767e;
  0x0;
  0x1269135c7d380d6a2ca4ac48ca294b74d846eb503b7fed99d20bb4a82f5e8de6;
  0x1;
  0x97b21f4bf4a267bfb98333828b97ae3cfe100cffee88d65e124ebee16c420305;
  0x1;
  0x1fc9813889459bc5a9dac49dd15da8099c78e6a30a5bd1fc92c204636413f2;
  0x65066fb2896cf2bbfc403b2f5aee43a0251d5302248ff9e18ba82693b87fde2f;
  0xadf6e9bd4de31b6abab1f07845485e0ed6db46f5a7b5bcb5714d5084caf5ea83;
  0xa1a1075ace29dd0d047e2d30cd97cddb7cdcbf939ff9d019339dc624ac61b044;
  0x5bae4581e6c15ebfc6ed0d8184256706d9e67e42c6f6fbb8fb1b849f8e7270e6;
  0x0;
  0x6fdce4fe500d7a5ed48863acd45e0810883e4d96f297da21d16e0a5f582384fc;
  0x1;
  0x7165711251235bd293463346db22816a741e515c6bb116beb7759c02214d8636;
  0xd66b0eb93df59b885c9e3c89e64511d9432ac82e1f417034ba9c0ad8e882433c;
  0x83ddd9e6f39e72353435a0063c33d093a01e6ebd2619519b99219217971ac19d;
  0x1;
  0xb15bd28e3d0503783dbdeba0ca62445abb95cdf82c00ce327d346c8909f34ae4;
  0x1;
  0x16e7367891a4befae85bae41d158f54b5f73cb5f5d06676962cb973b62e5b782;
  0x0;
  0x1e540aa3fb53b55b2ba01a1455c1086e0a77a079c6aebfaae24ef28c3d80dbf3;
  0x0;
  0xa0b5657b4edc70247158d76db9bb19f636234528ca22c838b25c4d347d36c5bf;
  0x6eff8f607dfc5d1d43e2279c1de78813c4afaa494033325605bf6118667441a2;
  0x2bff97530aff161469f245f6782fd9c5608c2b9ba5e2d6f65f79eed757187f3;
  0x5bd084a313c877a9114d948a7bb0f28ce6723e047ff6b2b0afdfde0f44356786;
  0x1;
  0x4ce09f04460f581f10004bda1f30627e2b3e1f89b2f010acc237b190f892f47c;
  0xc7268ca4acf5571b238fcf5729b32fd99ddf470b1b518c4a85e26c9fd25e9cd2;
  0x6ba134d285b23a7e03c5606bba78d429e6555d0b8409ef5e4861e20a89b8e9b;
  0x0;
  0x1ee7c78ad1376e9d6cda8db1fd05f45008a82f021e3fdb2c86864e1b710d7907;
  0x1;
  0x8da35513c9b00800688217df8a740505b017a0bfd0854111383a0db0385640cc;
  0xa97f7fa17a614395d10da6b77da3bc9ede31de8d45448dbbd586fe49671032fe;
  0x1;
  0x73daa619acf178c67cc1ab00e2e04010eff61f43384e03d87169e6390040a076;
  0xb9b33ea0f1e8c5ad24fc6bef014c0f239382c20213db4e7a4cd66ff0221d0c21;
  0xb18486c88b5a1ef8ef493752dba4b61b4949fdfe61d95b18cdc8ca588e960c1;
  0xc3908f6fdd9a45bf9a5031356627d0ce742911344e93ca110d2de295c45838af;
  0x1;
  0xac8c75831364cbf5e3d919fece0a59db230ef2a4faff13ced11790195849e38f;
  0x1;
  0x2c2caf5e9162da08c8358f82c10bce58ed218b646c17d46ffdfc9ca52dbf78a4;
  0xf7380e9ba38430b12ab0592369ed80dbd21b631608430d53cf16f28d8b2eb7;
  0x1;
  0x4b4ffb01a9c7d5adff94fdf48fc587f92d999fa7992a4dfa604bed4969cf3027;
  0x10b0a0aa9a775646af2131ddafcdc57dc6871155ac3e9b6cb2b4562c30e5119e;
  0xffa4c0eaad50e5fcb7292a848090e04bce47941162c56ee3ac02cf4057c5fc92;
  0x1;
  0x44ccb7aadf9311328580128609093d8eab282aa6787dba157626fe1240a83a7a;
  0xc82a8ac029fb1312f8465115c5e5365c38180cb08e1abc01f818d97deae36b;
  0x0;
  0x9c7d7089cd4b89f5b5bfa4b7c309824ba1530bde451d24a9f8a6b8747daf30d9;
  0x6ac8d989d021a38b9faf0596791cbbb3303cc61a40d7ac80de962c497193c472;
  0xc5dff348549a06040cc07e27bc0dac1db2b60ba783fc251682bd481db0fe37e6;
  0xad298e4a1fbc4b79a3b5f2c7d229bc62dd0e3dcfa27a206d32ecb19332ed510f;
  0x1;
  0x36521aa6572ce62d23550787a299db570b7d35304c00e10b4630ff514d18d4f;
  0x543a68bba4689eab60041032fb79a83312822286279e57afba1e9ccdbdb33868;
  0x3dbc594cbb44ca572ac7b118a67ca7c67a90e8563d67a34db2c4e863bef40e9d;
  0xbbd1ad9ced3d39b789574b97a5827db7201f8c9f0a8eac77f7f854ac03c781b;
  0x7a87891d91a5537b22051933c44dc4b4c3b38881e2263f991b489b86992b87;
  0x483d4651c39e06e4ece7eaa0ed7912a3440650e442b2eb8078523c33cf319c67;
  0x8f569c2e6ae1a3ddff8e029dd73093bdfd3e420175ce9a208798dc0acfb8963f;
  0xecdfd485865295e64cb7878c06dc5c0bba9a954a792e4fd7b9379063bcb8be7c;
  0x2385562c14964b72467dd13c372d6827cdf697647fa050d80359e346d875fc44;
  0xdc8584f03de8bf8d8edd10d1abe328838605f68511b8488b1f5e5509e272e0ac;
  0x3d63c37a4eba28d9ee9e1e0f83b2e18ca33974b08caf9d196481ec44e418e9b4;
  0x7bba22bf98d6f8e58f341002e2da3bda38d3c3c77430d0ba454a0e6a408fae63;
  0x7e8c7a4d58d94fdb514e8ccec94c94593b1e8afd11d89c2d33940844732624b;
  0x21cdcc6811694ebc75594acac0c4e1ae7fe2ad711038a1b9688600d44cc5d8a8;
  0x2363962e6dff9d0bc83bba6818a52f18653526a34f4569693804e3314e5b3c80;
  0xc3aec361511992cc5b8c93bb62334f4a9e7cd4ea9e956106b70787cd01b3b8f3;
  0x265bb08d1a72a4b5152f1be3d254e96079accff164a7bfcfb62d1e81225e51e5;
  0x44e0367bd777747e58e422331d9a957ad196aed9b37d88975fe3ab423c238517;
  0x720557bf37b85a667e9c8e28c594c176ef23f5ae7d18c7186f37d90b9694517b;
  0x30dbc2c8860b9a475eca0618e1b01284986e8a72d1fda0848906b7318d26fa;
  0x18d2d4834a3573d94f4f7efa41bbfcaffd370950f980c4b255b972b2c45eb638;
  0x61dbd08939982661d8e199ce3ef8eec4107feb8d08f7bf797c028c8fa36b6f59;
  0x381480201d22a3d5194e15e135805dbb8d3142879d38095f5ca9bc6358ab4161;
  0xaab9334fe96485bdff60ff0fbf2877a9c9e03a436d3f155c333338c4dc5644dd;
  0xe0a4aa588a664b96688e3e5b9e72cd603791c309c45edbfeeb8bf47e9f26e35a;
  0x7274117e8a5742957c69403fd94b81cec990b1085f8d7f3300118ca5acd9f87d;
  0x42be53f0cf417a944905151eabd1c20b2d9b83955eb0e03aee319208bc8d1a76;
  0x6c785573fda36d1bbf4a8c70cac8e61290bc79d1d8cd8d0cc8d1a33820604e4d;
  0x605aa9a17b4873e174be79ebdb341646188befbeccc35c427009013944eb9b7;
  0x8893bb8479a828337a2e26520dfb9f9f3ed721d1d06a6ce683ab01a0449839ab;
  0x2cab55f6ed4223665f7ff20ca7009cbede78ebc59b09239dc8cc3b25d5e62ae5;
  0x4b73c6e4cfb05a4bf9e219a71d32baedd81218cbb2ccfbcd2e6b8fa0cdb1e7d1;
  0x1fe1c51114194a4269a58a509ecf9eb742c27fc40c4dceaf3ce06890284bee4f;
  0x3819a8338a1755e06183dcc22b27b334dd951f9cb5e64655b143063644a7a452;
  0xfe21ca311cd962bc4f2cb5cfa1ffee441ff0a9100a69f4be5f60052ae8f0871;
  0x32658ab6977ca5baa6c3a4c9d739103e10a866eb6bdd60fda757216b5ff16765;
  0x164c8c149b3bc4e139f750bed2efd8904d43c78ee374f17427ecd36e3cb21b9d;
  0x6f2ab4c2af374dfd41a0e65c1fdd7b9d23ec9320bed02651074df9f141277789;
  0xc2a979d104dd3df36f5579ae75535fc075cdda0f05ddecd640fef63c67d243e9;
  0x439e05ee2ebcb17b3f5a57d7361a4d10d8783dfe2b16a9496f2278df4681099;
  0x7ce1ae6a1c14a641ec36ae8c17ab7b397e0f8af4273d8c4861a24cd9bfa3c5d3;
  0xc74aa36410fa6993703e49a1ce08d39862b0802bc6a1d8f9441d9884ed6ebd73;
  0x2265143e2a4ff895bf496ca6a0d8a1da847742577fb882424e403173541d86d;
  0x88796f078ee2fcd2ef80f082ea746b365fe9fee17be77322089dcb785ea2e9dd;
  0x1c3c6f5922b5c340eb6da512c4275f7609293e1f1e99625602e63b8df4463442;
  0x771d3f621b8a2ca0eb5a4fa38e24cf67a74f4a9656d52813d26b29aa618080c;
  0x1a69f44775defd9747a35bba543c61dca650d4fc7081f51592b6964294a8a358;
  0x6723c31319219f633f0834951c70c4b9eadca82e494b4cb8979254dad06e9fb;
  0x68e5790ab1a61109257319502f052f62c5cbd2bb22a9f0b89e68faa712ea95d6;
  0x7a7ee1d91e3de8b2ce3e1fb2bccbb5eca9e34d6b6cde8daad7cbdac73b487f2c;
  0x171109bae7aef20fc5a5054c116fce36971a5fec93f2819f9ba24ab211467ca8;
  0x34c440639f45b1945729cca4cd201008a2bfad0d834da5b27bc109b5107d10ec;
  0xb94067b04c099ad8bbab1b405073d5388d9099a3d6679ff93a1ba0b867a858aa;
  0x318de6ae128707e047140883527840da294d805c9bba8c781d8765a984a56f49;
  0x76bbed2a28068c00bc7c780af6950ca1f42b7884976386da3c39e14e05d1f328;
  0x14870352c8ef66ce7661bb796595b21a06e76116fafa65af7227906978fe9b;
  0x87d5fca05f1635a9cf05816bcbe5c20d8e4414347178d6153c37c273351479c4;
  0x491bf60c6d7ed7f13cdee1e5e156f3ad04fc9717c825f805e3b8fb48b938c62c;
  0xdfbce6a41a138cc93446c487e03fca41c805710babcf7417b201f4123206e11;
  0x5221288f272ec962452da29cbc4c1da6adc05ac2caa47b5e209ba41fb72bd78a;
  0x76883a7143b0463c2cdfdbd3d6493eaea5609e78675d572e1b70a3efe899657f;
  0x89bfcbd2862b0a7ed6ab42f07515025b29cb8c41a44b05fb725ca684abe100fc;
  0x2d6ac8563558a4df29ad1a7f36446cd5defe4808760b948750e964bb3cc989f;
  0x1460461ce79e75cd8886f4efd32aa66fe4a35149615eb9661641544d437aa633;
  0x685c0cff09f3aa3a5980a3ea9138a7d83bb95a0e0fbff9b52b84eb8aeb48a69e;
  0x6b97812c46b1c1c3f8ee441e8bf3c54923260793231a8192f02bfe8db039aac3;
  0x34cac43f68ba3ee3236e406581abb2cc7fbd6fb29bf6f0b79169b38b88b9e3aa;
  0xbc45ea7fb5cb712a2176808f36ee93b1c63e6f5da66ae4bc292788053925995b;
  0x5f8edfd7c2a2c657f1ffd3b88f37a3123bfb6c3fea341016e2cc229868a3a5b8;
  0x91a4c240d4969c4ecc8d8039cb685feec61a664f4fe37690f9e2e69d1c9a88b;
  0x2d4720789d6fea0ad54df25e17f982b45185b5ba9ad450c6e46d21a7bf95beb;
  0x268cdae1c122193210f732422bb85f80eebf69ea17849c327548d90137622c02;
  0x9f81d4818ac0fe84a937386c9f05250014617c0be57adcf27f913791cada1d15;
  0xc72d6b6f2cf5a10b5a02351fc68c27b896b8b1ed86dd36e366c53e5eeea70bff;
  0x5ac40eb4b11fb071c1225e7e2c091f24cf70525112b1dcc8e495d8e58cbab0d6;
  0x51c2575985b0d26f896a08bafce9db3d8e1d7dd643dcda4604dfc2b3938be2d2;
  0x1f580152e4bdcc09cffd5ac8d54604f9b7d0b6a58e1416f34f0d318cbb6fa53;
  0x8018f964c0d3b400f08a1ac9e4fbd8327446162ee2930c9461fba5e57be24ebc;
  0x7a890f57694a09b02d7231bf5b0660e11ba7f9dcda1c49ae055f440be77fba85;
  0xad8390816ebfeea6af6930dd582a8c7216a961689941fcc50f1fa09045eb27d1;
  0xa99336eb2611f4e16459030f7e406bb19085ece8a1d27a901673ccde092da0ca;
  0x9e6c8e864f1f5103ba49f64eb5b1cae932c159f79ba46457af88c9b36671cca0;
  0x66e47b59abd527bcf16463926cdde2bdac0c6177d18919d93d695511c15513b3;
  0x61577a94a091ba4b796650d2b19f9dada709d99b8d26b591bf46fbdebc521af9;
  0xdb98e269a2eb96595bf2bfb6984c5314a6dcbe0c876dce3d4cf69b296e96f59;
  0x64427793cf1059ffd21ece5e03dbe91129abb3e8ce2d63d77b144987a3ccaa76;
  0xa3963e0d94aa35d6f4f19478fcff460c32d2c66d434c8360b4aab8dbe88c74f3;
  0xe5ddef5486860d11ec592f756f30fb58e44e30dad191289923634ae79bcd3d9;
  0x69c2e92e9a58fa30e0f8cc27fe6dbe63090925782e17ddfda63ae90260476e6e;
  0x2dd35ce5517b9f57efc62e1a333e0869b5c8369690e5a1bd0a6e8b09ae5bab88;
  0x146ba571133873e2caf43090bc5aeca796c4bdda34bfcd98eaa33d968f39fbac;
  0x9a423c8a4fd4d290fbc8250e42ab5ff02cbc8ad407c441ed51cd662a5305e428;
  0x98de07ed11f19b77ddaa5ea821c7ef12dccd7168e7eb4e243ce41488ec2772;
  0x9c41b4b8e8fcb5b3f640deca34ea63866ec2704b5f2209191391c55619ce699;
  0xa56886bbd0a669f956b251e86e0c276ed254f63130e9d01f3b0e75cfe3c74768;
  0x963ca9e8176d53eec886e265ff22ab80b55e19a3602d9a1ed7c4f911471559de;
  0x125df0d905d152b74f5904cc404bfa500542fe1b6abd7341e379636e7ec185b4;
  0x7557c61d336b07703551af169ad273a11130686eef2c8f31a3ec09051314e110;
  0xb1b957fe1bcff6f9203d9a29a29c53e12f9119bcb0ce2f834fe675c019c346b0;
  0xf9d2c8697122575b71676262d2a389550c20396cb85e2788d2b6beab1ceb805c;
  0x1c7a109574b4252d5538a04ef86c6a255357403c4cd8991c378a75c9ec7b6cbc;
  0xbb540a15e7c1ea2f6b4abffa15146913763a3a51fa30e7363ab2ceb96d0d692c;
  0xd46a3050866215ad81b7a040db23f04667f77551b7dc77e3883afa7353fb739c;
  0x2efedeef0de929399eaa5f1da9e8e24be59bc7bddb277c2b1f87017d256aa882;
  0xb93763950c27059a43554699546ab7b83f62a0a2ab0b6216f785435a721ac98b;
  0x63128bee81130ee7fab8f6be99813ceee0e25386bc7ec9fe31919ce19299d806;
  0x2f9459fa251acc363f509a2858756323c068a304b12d86b6c01d0eac1e7fb9;
  0x5d79f7989c01f1b52750e5b32483e77f41c95ceded4eb9b96c8867d2233f48da;
  0x31eadae7a26d9f5567808be62e279b02d1dae9bef278ecae18f9263f67f8d9ed;
  0x605f5654fb23070b8d64c83467b29d0f6d74188444d20a8a8b7ac3596b012ceb;
  0x3699f23d1b4dd033152c868def0873b22a397d710979c9aa9d6e420ccb1c291d;
  0xc25404291d445da8aa778d9598d379a99cddf6c250e6c3bd75c555189b4227d4;
  0xd4ee8ab6451de0a83ff416e148abe6aebaec4f937784996df07e189ea227569;
  0x1fbb59be0b6e673604fa6975454745e6a8e794ddb0aa5d4dfec9108b86385f6d;
  0x1a9d90bc3c5818c944f881f198d0244c4c860c6f51958a765f93b18dded6644;
  0x9dead3564651cd73a6fe8c15e52cc99e261b27274fef37eac491db2a3cb2ac3c;
  0x6d09995003c0bb8b07fdfe7c5d2b521496ceaf9a1331159ac54b834d4a15ef4c;
  0x1fe358c38ff069880601f19e2dee9030c38a529be202a122f7a68e9afba5bf9;
  0x177a63da6c9e51b3173194bb1609903d2d6b49bbf6eb5046ca00aa6f59322c26;
  0x17804fb4271cf08793598c2645d5afae61a9354118eb7010b2fccac76b3685b3;
  0xbc17a1633019b0b36cd699274bdfafb6c6d7b1c063780d5f28206ce4c9e508cc;
  0x971cbafcd7bb5fdc2139fa23ad8e6da7424ce8a138d27e2317b7780224958406;
  0x5eca298ec293a5c2deff31e31c168345d868db63079d6f9e0ebccfc2fce81ef0;
  0xda80cbb9aafbc617a1da2b7c1b309bf14d538b66f90c09ec40d4c4bdeb7c70d5;
  0x4ed6e6ffa0f1c4bae4aab648b5aa8c11f399772cf18aeb111219b59a9cd7e863;
  0x26f1503909f4451f3ecdb00f3833bfcd9c52193d96c41b22bc64c6c5b78532b4;
  0x83f55243ab2c9c62ed74373d50a1f3fe86d94cf1c8b03973c830751e11311202;
  0x3b724b6a4cc8e11c27deb9239486c6cf2bbab7d18bfdc3be9efd41c1b08e85eb;
  0x7f0d52690c66084304f971e29d4075fc14ac0f93ca77c082f2ebcef857df81c8;
  0x6388e691f162ba33b1721372f4e7e52ac8e0432b5ea68fe938548754ebb1fa78;
  0xbf322809a53841f596cadf7b5a90d0189bd416e8c9f08ab6b8bd0249621d525b;
  0x1c8fe7999f37295ba28b09672868929e4b018b14f7fb3a3d4c6bd6f1b4c18595;
  0xa5f768f068da29299441dc7073f0c9ef8af3364547b93c2ad61b690d5f88b5a2;
  0x7475ca96ff0e04ba88bc97fbb160f7ea1cea3304d2c8526aa8be416b5f6ba9fd;
  0xe6f1acb3b02c8f8c0c2fffd1811128d438611190c704703d43100f8a15973e63;
  0xafc4fb0c2a8eec42271c1a0ce6add749aed1e4a7d71bdd16efa0c15cdf5a532b;
  0x2b7309531cee94b15e23e7b08805f5541b564c4033243c90348dcf389b0452b6;
  0x880156886ab7d5104a9d5c1f4c9145efd8b12cc06f993e7530bfebdb1c48b24;
  0x7f0d3d121f1b864ba65e6f4bbb5857c91407992aef26e04e3b700de97c70838a;
  0x5fa47d12bee8a22dfc7d1b025f0e660995376aaa5984dbfeb798162b230eb6;
  0x1d87781bfaa948e079f04f26f3f1f2e2d8559d0a3d9b521f52e17b75eac587bf;
  0x184c73e411f54328cf16d876a39745a65480b9f30e2fd124e13d15b1c04a40b7;
  0xe7b0c458382e8a88b8a6d7b5c882b4d222b0155cc7d749f6a8339810572500ed;
  0xd82bb0182c95a2ff923c0e65772a968a67f4b742751089ff731048abf9999bd8;
  0x1ecdfc595b6f0e79757cb9a8514dc60c5d3655f2d196e7987740759d8edbd772;
  0xf86809c69e5195352fed009ad4dc69985e30748615cac1ea84d0711a6a4ba379;
  0x96aae7818cfb79074914c18ea7559db1f2b6229fc8b230c476d1157257f4aedb;
  0xa3d978fce3c86534b79c6df5e3c34f198e85fe9ec6cd1c293eac1ceb39ccab;
  0x3c2fafdf16562e5d2c54850e07823740e77a7bb73b7ee1055b40dd7e8aa6f989;
  0xbf7db95a6b974e5778fab4f4d8f184594fd7b57fe8c9329fbc59c86f2708e097;
  0x5272efa22f90c779df5bde37aff5037b196f59c0c0599135f7400d9b027dad6;
  0x1c02758f67dfc1df4ad8635c857bed08feb8d1961721737a1d782328d714fe6;
  0xd2b84dc0257b7ab70647baaacd9489598ddbe1d7c5a2ba84051c53aef36d417;
  0xc3ba580298d656cb3860357a4272f024018926265e1c2b96345ef444e7ac24f8;
  0x6bd2577d47b0e9f6869158ab694a5ba52fd543d1c1ff0d2a51161a0a6f9cda28;
  0x75b976c861e15d7d6062717c6fe17fe3f8dc010415883d09b24543aee3a3cc9;
  0x7415c49df79b0243874dbbd53a1a4d31971fd606125246d4ded34000515fccab;
  0xf289fec51ea118a7d51fae4a8f7338b86a26270e3fcfecc9c0184da003e07521;
  0xa07e63cbbd8978fd52b441537013ba4f52613fe17d7b2357588362626d51dede;
  0x8af44d89c1dca41df566c15e3226269124a60acb880eeb10704263531d35c5b9;
  0xd6e0346b2ca13f0086511a97e13d2facb97ab29f3737acf06e020c89f2188c68;
  0x1a9063c127f4cd429587e8648847bc556fa54f18e3c98b285b25d76b5f20cdc1;
  0x35ad3cf641c71880ff419d9ada0f9c715f14e49a8a9ed6b9b5ca3603410df70a;
  0x925c037f08136800c8d017ae7609c39ad0cc12794b762670fb761b28a155f806;
  0xab1917692c4b4918251181df275313722892461c0ead94ae3f1596408dcfdf5].
Definition qs_secp_n_1 : list Z := [
  0x0;
  0x0;
  0x0;
  0x0;
  0x0;
  0x0;
  0x0;
  0x0;
  0x0;
  0x0;
  0x1000000000000000000000000000000014551231950b7;
  0x23d33e1433c98eb4a8b4ce00a5d0dbfbc575c575810db016dc9eb1a176c9bb58;
  0xe46a9ae26050131276c1a9dda04e7800cc42e38042600f2e57b397bdef203a28;
  0x0;
  0x1e10e573b9af46d242ba9374661699fb56009d6298dc730fef635d81cdaa2fa;
  0x0;
  0xf8f6b2eddc91821cdd1f305b9c090a43ff92bfa47978d79c8ff96f3ed35016c7;
  0x1;
  0x2b57515d33a4629ebbe84972e29472731f38650fa08a988e0acffc6c0af532db;
  0x97c7abf0fd9f2eab567df83afe2f213147e6dfcec22c86fef455f41fd86faee9;
  0xee443c42407e3f31c701492ac98a7122fcba86dbfe69f481aaffbc9ee3722fd8;
  0x124967cf3293f9a215475633c25d5fa65148169925cf1896bae3695b324a8848;
  0x0;
  0x1d2fd4dba4c6d3b0f1c8361b802a2c44fae5a5b81ad9b2de7904d4d4c68329;
  0x1edcb7deef6b1eef5240fdc4ba950735eaac945c62aaaf1350e3b4ab1dfbac3;
  0xa3055fc45d19f21007e1b3486df1bfca714d04b4cd86381fb8d527751d2c94f6;
  0x0;
  0x2dd46980224b847df17d2ea648e8496f206c854d4b1db5085b565361da1b4b37;
  0x1;
  0xd055a4645bf64360b98268008584c66abbb4bcdf792b56b5ffb0ef9ec2845bd;
  0x1d1b17218f2c87b3940704f69d5e56768bba088bcf5b82d438e951e7922c7cdd;
  0x0;
  0x1fdd88b0b9eb6e94c8f950d8e96b30e1dd108ca867bd01ff0341909c42482f60;
  0x1a507897fe38d4e9a30cb415b33b5ae29297e70b7682df99acb413aa847ea3b4;
  0xbd9d37a27b064adca85e8c579f9b19e6a6df9fe339c6781f0efe6b4b6b64c671;
  0x0;
  0x83f5e1365e5e7d4d0ccca97ad2189bbe565584c2eb08e69dcec0b249aac75fbf;
  0x1;
  0x6d78c0d5f24ca6afd0d7f9f4f15f4d0d37e625baaaafb2ad9043d113dd302d70;
  0x1;
  0x1814827c84fb294f1d37976d64b7a9f1f0f093bfc94abbc946608320cac4449;
  0x1;
  0x12eec7c68f6d10cdd6abd734c2382dfe5ee32b988a9a7873dbd3da7f7d34d219;
  0x46fa7efa7ed31d17a6fc8876d4f1ab9a74f6f2253ebb185df898aabd05a8a51c;
  0x0;
  0x2436a8f4c0fe54d44a17cc97b6ce6d4236127d709f41fc12a7b3e4853aebf860;
  0xe32e4feedc7146ae5c5aff93a018bad6e880ab6033194cbe40b70daf62bbabb;
  0x1c147d304d2578e0c89d30b37e928f30d8efe50917e5f2bccf4ad5a6b81269ef;
  0xb247a1a71bd29205ea7b8ab70ab461875b43e551d5aa997493d7b7800a1acdca;
  0xfd34455a230de550895c496e5e15040b72b4311256445cad6e75e304e7acadd;
  0x1;
  0x8d546485c642a277376fcf110f08434bbf11ea7dace0d88a2aa91fb0a1b7efde;
  0xe40ea702669a0284566c98323a9cd01176b8728e1c87393473fe023af88118fb;
  0x1;
  0x2973b4d53d68253efec3ef86b7eafe47ba8e4cff2db1bd6b5be359dd7b25c025;
  0x1;
  0x45dadf8d2c22a71ee853cb3a432001f822055bad9f32252d081140aa4ed2aa54;
  0x1;
  0x5215adbb9f3e5e31bac0ae2b3f5f4191a3228e5fc9a0856a9d46b77fce19d85;
  0x3827dff477e4f093e6b4f2488d04373dc30dc11372db4bae8393894afa3de45d;
  0xe42fa6c9ec70d50ceb6664172d4e2bbbe4a68ca71bd77fb602eec6f81cb0fde;
  0x0;
  0x3964dbe973a3df23e232901ef9b8e1147f028f034c72d30b0918f0bca266ddd9;
  0x122ff165e8764acb5a85539a0fa57bce7df16f36e4d30bee4d7ad8a2e79c1513;
  0x0;
  0x664abb0a614730137b12c4ebb2cad1273396b2e2ba4228c8a1fc4300bb5d1e17;
  0x1;
  0x1a61dcd37247f61b9608574f6d9e2e2adce214b3e0cb050c1e460333e2bd2ee3;
  0x3bde431d1a3b65c4c828c314c54ce5e92ec3b098ab22c170ce29507ce33d55;
  0x2171e3ea668c40f12120d19b8ff7eda3a585116e9ccebb2191fc0121e2c859;
  0x1;
  0x19ee1ce0ebabcde61c9ef9f78bf6b2022230a1ac0c46afaf7c9e9c30cd058e;
  0x147afe0d67184d9dcb34c9e89bc5a113049a6c3d8a410674f3cbe1cd8cbfe8bb;
  0x1;
  0x7f758baa8adca9bdd27c590e80048af1286e5dd2c83142904c5a2098a9578583;
  0x1;
  0x1f72d8cacc1bc07ac15fe94bd42308fe6bdb38c62d079abd76f6e5c2009cde6d;
  0x1;
  0x3f63724a8d41ca4bcebc0f8bab6952c68baaebc4dcbb482e0f28cdbc656fa253;
  0x1;
  0x527ff00513091e4555ba5513bb06ed13af3e513abd1780722cc8caa9030d077;
  0x9afa4d09a7fed499af7e57170fa937b9c721d7686dad0a04abd8c962a067b32d;
  0x16ce6e83ef9de9559528eddc45e191df430e57d0f76cdcf709d990d60b0c85dd;
  0x0;
  0xb0fad7cba06be5516c974b45d812fbe9dc36c7d7f1420c07de6c043165625434;
  0x1;
  0x74abbc85311af63128755d1faaa45fecf859a9d30f988ce3fd1272a57d948e79;
  0x50315637e51df6f40ac26c20d429938cb4ed957f79226cc2861570f7c4055fd9;
  0x8539f3fdd0953f1aa756a44c2732eed1232501081eafcd2d1320cca45becb3a9;
  0x0;
  0x1fb8dae9cc0cc584e3af6e982b4aeb7e1f5473d15a9f070eb580b358dee552e5;
  0xe34ff4b4e307d45bf1e7debd8da87bdcec7726cb64faa75b830ec183887b6d46;
  0x0;
  0x66cb4ba67fc755c56d410a0980a1585bdea86e545b6014d53b77f5e4af15714e;
  0x2236ed160b37b4526a4f130e0ea501ee3cf7a8dc89e3e50cf976811536b36e34;
  0x3014a0bca5202162b3df5f95a55b58bbaa7106554e465fd147741427d8808abc;
  0x1;
  0x4b575dbe1f519d25074d5cd8abfb3373e7463e84892b9836c7e634ccc3ffa53b;
  0x2a66aef10dc1546d19e23a08068f08bab3659302fd7567c4438a7a076af1d32d;
  0x0;
  0x6db0f707be7f58b6899fe8d6fa65d89478a32cf5bfe0447b0fb6c8963a8a81b;
  0x7df33d4dd1541e4590485cd09a7e056e356fa357228cea823b135524ee416443;
  0x4f7ab34b8ed0d7a327e98c9c160a612f72913809977a8afc147d18159071837c;
  0xe839e34628f243f3b619a70927382a52d74a2310f3c8f95b14125efcacf9d906;
  0x1;
  0x4a5b703aedf3c2372a28c7f23d21f7633751ff706f732818ecc646a899bffa83;
  0x8af44c7770505e164ab945d159a1d5252f33c54fe0d6995de6bdf26959dade4e;
  0xed4040640e7acb170b3820577a97713fbf38996bc6614e2106bc529cc78756bd;
  0x0;
  0xbbf518cefa08be44d5af4768a0815c479764d8788419533d6aeeff245a5c9d6;
  0x9787d8e1206228766611d97759d9eb5a5bce9e57659c30d8f5a3eceba80d624;
  0x1;
  0x4fe6edc3b1af1d1ee0be56b97116540d8dad0c8c0351c396a4439747fcb3aa93;
  0x1;
  0x10a2882c24e9a83e666ac30ec9165601a368a4069c895bd823af4a4cb5fa22e;
  0xfc7372a25533ee2164bcd21d3fa83925ea36bd4b05719b59dd8c51ef0571acbd;
  0xc10861e9ca23f133388f839eb102504d4c299b132d6aac1f9296d06164a5420d;
  0x1;
  0x3501a87707a76b78d3220e91549478a5423a1eaf92f812ae8731123e6e2e9c62;
  0x99ce6bdfb150e069e3ae9c3f0ad2c20935aaf6fef089546fa827765257a619f;
  0xa05518b726299b7f39ac28abcac13f19b02f48bea1b7a27c892f27389551b414;
  0x0;
  0xd97b30de2ac9b239eea9f5f9f51db056cd7201b5ffc7b8978d36e91f838fe8;
  0xa8e07bd265ebff11ef9e729c6095a56fc79c4f304eb3b09391ecb3eb614ebbac;
  0x0;
  0xa8f282d1391e15f6bcaccf1c9ce3fb98cc656f89d50a7baa0753d03ce1b0cb9;
  0xc943ed0b0c29f6bc190e6b6cb76a31805c3bec2d17466145e46a156f7e5313b2;
  0x413b814683c031fb706c09b8316cf5ecc5376d30bc94c7dabddbb857a61d58ce;
  0x10ac342192dff04341a24e54feebae1dcfbf0a55444ca40c26e33c4f1ce1ce31;
  0x1;
  0xde3537f56ff3333372080278655b32c2dd553835e1ba02cc77b6b97fcd4a0bbe;
  0x1;
  0x8f26c9e575fbbdbae1e1a6ca5b82fc4c2a49c68c6263abcda5a2367e225ba151;
  0x1;
  0x17656a6bb3a47d2ce94321254a35f0057f0370c439792750294b3c01d215f880;
  0x643a0c31a15420b598e53a0e6c2406cd6974506a66d9db249bfa3be8585eedef;
  0xca302eb7ac7331328617ea26dfec8aa26e8c976d592bad83316d5222d190931;
  0x0;
  0x202a8a134049675dda7c28f11c4d720ff5f3fdb53993bc25ad12a07f36bedcfb;
  0x0;
  0xa13ff29ef3680d52c7fe5731cc9519c5f75b92af897ffb58dabca022167ed;
  0x1;
  0x8796ea1bddee10b3fc0e64632d64e37bd4560c8fbd748d0ef444fa2dce2262b1;
  0x72c22c943216e570b87c73e53df07958e2c39b8635e5340929d6ace09988b045;
  0x0;
  0x3bf74112afc5c96cf19bfb81fee0df564ae6af848f364c346c990e9cc23dc901;
  0xb21ef12449df02485ffbc275466170231558b02ddec0a62cb0c8d8313e1adc33;
  0x1;
  0x71ed253bbe3aa98af6e776c03dcb3ad5755ffd214affa12c6515a7256a498f88;
  0x1;
  0x7384f54505eac38634c8eb98c8537232238ef381cf2ca02a9f155148f2333497;
  0x91b4a54a53da8bb4dfcb475981447408498db7dd6ed353a1fdc2392cae5bc398;
  0x598f84d5265084c539a2648d089c977452e2ce582b3ca74ce80e6e2d2bb26;
  0xea22fc28a9082bd849863124df57fd7685f1eda0594c7d681d04287a219150a0;
  0x1;
  0xe6bd90f7275ec9de772a1ca8cd3f51e215c094efc5b4f521230f9ba26aab0a72;
  0x123aa421f2502c6de2bad69ecfcb764e4add8af2c2e3886bfceb5ccc6b83ecfc;
  0x2365ed1b88ae761469050d3f035c6cc3ea050eea17c5a7dcd7cc77f0ac6d2948;
  0x1581bd4bee6764205247bc3d7d0b6c14805eb56f12b3a18b1d1ffca6573032b1;
  0x1a3171145a354c6d6528b7dad3bf8ee3e028b48392172f9a2259286d2d44ae06;
  0x0;
  0xc2158398116f662b7c0b6233ae3d58b52b28cd5bc5ccbc3f90284a9af68a72f4;
  0x0;
  0x5fb876d1d3dff347965e4d0b2fbb1f91b4a0d88e5dc42a9696417b5741b1b92;
  0x0;
  0xa06568dcfc2483ed8721844086ec20962abf0b23e4a5ccdb828428fbb02c2b94;
  0x0;
  0x8f907f102bb7a27064c6824759057e329de0518d3b97e9f8292e547e50ab0f;
  0x1;
  0x993795dfa351504517000ac35416481fe56ac8b57b8bc1b9622de8d583f01e3f;
  0x0;
  0x586ffc6859ffd5f686de8d15f6931915f8b23d37bae73bb66a16d8d493bb74a4;
  0x0;
  0xd8e6845431eb8d0566370fd7a351642033e2227fa48fe6fc371c325d89a8d6e8;
  0x0;
  0xc379878eefd49abd67f53c31708ed43fdcd18adfad52bea2d6311378f30298d;
  0x0;
  0xbd8e8c65209b6bb929bec481994fc65caf188f0accc73a39c6a59ca1f970729e;
  0x12e65d8028934a97ddf520796634616a295bd9aeade34f57f95b109ef3a31a57;
  0x307fb6ae46421842b0edda172280601bf073793c78267d55988bf211380c6ae4;
  0x0;
  0x28ffb31aed73cc4a1c8b00942ccec2bfcfee182354709f47740d262f9c77782;
  0xc6c8ece911b3c92c372892a538dbf7ad2bf5d13a3134d9a23e12b80c3a43433f;
  0x0;
  0x2d846b548587986d4c46fe251ee55ffc52466ae6f528403bcef327dadf6c6a4;
  0x71ff4d84f4affeec9dc41942882e2d7b6cb1f4a6edcf0ac510effa479f850f10;
  0x649e57648dcaacb6befbb58a3a6543b65f952d26e6a11b8b7eb5403038f0193;
  0x0;
  0x1d594776feed2d7c3f5dc12722edaa021d12770c9a51b2cdb84c89cf5a0035c;
  0x223b8ad833c8348c73ab2b7d16558c231e1c9137cd016df6bbe30fc8637caba3;
  0x0;
  0x99cca47ba114aa89059c3e4cc05a81139d758f3f8ad68e9f7578bbb5681ffdb3;
  0x0;
  0xb297aee6ac53cb3862dfd7606b84d9a0ab995618de3868f3409d937a87584480;
  0x0;
  0xd616852b266aef1bcd5428b9b6ed388db2dbbee9f340db8b318e2e53c290d71a;
  0x0;
  0xcc34d193ef1727f898f873bffc2c0e9652de26fc179b0d5be57c3a3c09bbb927;
  0x5ea35c75471dcc0a57b564a7441716475e8a76f9ddfcdecc81e6caa151d5139a;
  0x1;
  0x8e99f258a4d29dc8773701e5e70d602c29de4a332d9a3b6626ae9be64df2b6ea;
  0x0;
  0xfabc0d73547a46c356e0de34b9fb3d98a5af24443db8c15588dd60ae2b0b1e98;
  0x1;
  0xfd035e720c3b909af6e5efc333ed3af27b2cd4324477a9f0a45cb8199420f95c;
  0x5a79aba7f81f73bff958c6cb0f7b3c07fd71669d4ef2a5be4112df50c2ad8ef9;
  0xdea284ed0c4f7785173f0a952e66d26c70af6810e1d215a380fec9a73b3fc8;
  0x59b451401c675b78ffc7bb0c3c2bcacd8eaac3b3242105439b7e013d52aca5cd;
  0x0;
  0x179b4d9b5a416736da48df89fb73b4f15f5c591b7e585a6839fd729795405d90;
  0x0;
  0x8e986067f459b6a992632a4e0962937dbd3ee52cff0fcf6f767bd4d85a99e35e;
  0x1b7d66624679624cd86e1fb2dac892ed4d3029328aea597245604749383dc021;
  0x0;
  0x8e8d56f345b15dbb6ea1a93e50769fd8328d66c9d39ca9feba6df4fb8e2b2705;
  0x0;
  0x2bf0ac01ba93cfc52654702cd82424dc58b0438a2b0598b5d41472efe77c5d50;
  0x0;
  0x4bc4751940b2ae5c94c9efd3237e5aaf781fdd218a9d2011428ca009913d6da8;
  0x20bcb547f78a770d6b9e0bf584c25f249f5bab644c3448e06b974347a825b6;
  0x6cb84f297478f55c210054d277603f2d49198dc8bd8433ca1930447854aabf5f;
  0x31a3b4033f71f1f76390ee79c18b54bb0ff5aa1b12271b43fafe060311eab749;
  0x15eb3addd9ab1dcc6cfec5de5a3d2971653c2beb9abc5463b924845edadef17c;
  0x182f924ab2292247426e013a95bc11cc0a5814c1899df62f12767473d2903470;
  0x1;
  0x42a26f67686270cae2e9133d1fe026d2b5535e3ce63886161954d3d7471b4876;
  0x1;
  0x29556af79659671d6baf1a0515a475bdb36eef3517e72a45af23c758eaa74ff;
  0x5b866695360ce27f2bdbd809d6e225c4657af9d5b911819f08a97f5f41e7;
  0x1;
  0x9813d53c6d3b85127e09aeb8c3d593df77498490449f1b5395858e1b897e0172;
  0x69ace88a4b6c8b0ccd0566ae9a3a58f40df76e83aa7efa445df897d1bcc1b616;
  0x1bef722e127f7a4a88d56b982bf5bdeabb033c40003725a0c4dc7c7c07322c59;
  0x0;
  0x49e36ec594a91410c308b34fad9809540403e7db957f6dd68e08778ecebe2aa9;
  0x1;
  0x6430f3a556566f034b800eb4cb8e00774051cd07db554beb810af41babc4b00d;
  0x1;
  0x1b35c3b86a835518d38eba1b433ec90ab4aeb203a43f36f87a92aa3f05a0e3d4;
  0x2c46a2af62474e38578497dc71e1c65ee6050d44c8087e1d1d853ce656b9788;
  0x1;
  0x7723e763e29f9c64f9372248e6fded3061e44954198f34df2700fbfc56efbe;
  0x1;
  0x576bfb594d5970559588abedba6b1bace72f28405f8b68075f4561e9c5c2adc6;
  0x1;
  0x67405ab8b34df8456c98a98eb17cc179723889004c7539f041b6d2f778cbe421;
  0x4720631bd09d20d1cf8c1620c5626dcc15e8ce6938d22d25c91642545a9a1c66;
  0x3c2085515dff73814c2cc41e7669d662a7cabca30cdcc1cf15e3c9b78a702dc6;
  0x0;
  0x7b17d071cded6b14b3d7ac7f79503ba6cf70e1c9b3a4ee55430b0c2fb6091dd2;
  0xc9b0d9d63a32e665f66a5720058fee83e61ac7b802be69f732c7c43d01e05911;
  0x0;
  0x88920c73b9889cf8f42741141ce30b4644a29b2bb28956f41f529823c448572c;
  0x0;
  0xf624ef917db2982b5207ebbfbb2032f852879589fa66ca48b2f3471cb01143a;
  0x12b8bf07964b40dec60b0dcd1a65ad37c5a929987c4f651192f3d7bde4c6ae93;
  0x1d06c3ee5789b1498a1151ab2b4fa02431892696e51d50a0048bab61733489a2;
  0x1;
  0x3e9edc82cf1e074169b24a41fea14e83b7e5e7bbf5097bec53e92daaf5b419;
  0x0;
  0x9b8833b838a8aa15e180b47b4202a0b2cc3859057d80143074f46fc58a0d46a4;
  0x1;
  0xc7a8291c9d93a1ba05cdacd028472ac973023920c80251eabf3ce793bebfb982;
  0x0;
  0x16f89500db6638c7d853799c2846c37953132fb7a1df9c7b178d64f4540170d6;
  0x1;
  0xdc658018ded6a651032b46e06a108fc6259e767415f8817544370c20628244fc;
  0x0;
  0x11f710d6ec31e224ba22188e83a463c2311d2fc2a875a461fdcb260e2b8262;
  0x1;
  0x14a431bf48618f9667ca16589a35d021bd73ea3f6bd3a2a5e8806cbecdd0adcf;
  0x8e5597d6d57732e2e23017a8a3e86ccd5fe732d553317d83f52feede9c9bb467;
  0x0;
  0x1e8a8b5b861f1f679563118f49aa9ac2a949591217b47835b5a235afcb2ef7c3;
  0x0;
  0x2e764c7111bf5bd28e950831ef2dfaf1fdf2fbcea71dd597c61b75d46b97b142;
  0xca4493861ce13d3ff1727deca4929da5fe0d7d2ce90e48a51ee21547ccc73ea4;
  0x0;
  0x8db22fd8d451191d01930bda3a8a8f0f50c2e8eef89519d445efa54d0c83f56b;
  0x76f0880645b26f4edc803f61b409b66d796efbc916fb9060547833edc242;
  0x29361f1d6649a725b683ae47690b474193bda36fb3c33e844eb96028dd8632bb;
  0xf6f4e8bf60564aee9ef844520306cec76e28e0fd84c8d400e4ff36f2ec02a8c8;
  0xa3b12fe50143a89f8de5d6723049e98be61766f167cf7b5631b3b44fa70e058a;
  0xeead0909d0c1aa3e2508fbcc17dee594947e3bd84c5911d1245a556b8a0459b4;
  0x40898ebc75b7733f7fcd7d2925c6a35c58764624e12190e953737c1585210567;
  0x1a30af33c0b9294ebda6f1fd20db533df5541ae10f7fc8f4a1ee55049d37474a;
  0x26284b87994a4094d8b996ea483cfa92fe6b214df1eb26f1d104d7c5ff7a657f;
  0x1622c2f20c3d1103d4df9e91236cba2c507a83ba779e1961d74752242e9617bf;
  0x384fb747d3b4d3ec4dff5d4b68d34c9e0d432882afbbe35a16ccfd40014981b5;
  0x3a7175ceb9c7d3b356b5123ae84aef3693dffe768fea321af412c21f210a7c31;
  0x91a573d62188fe95efd5460d26a9f512d3983cb7882679e4a2849273b139fd5;
  0x1628e793de5144e2f123d9b9dba1101949356e01eee45e9a24a33adc2d4251;
  0x2b6fb24388172497f74a789dd841cd1fb613b92c70e9fb632cff39684f57e662;
  0xf42f411ebd3d3010e82400f823a6ca8d10e9d47483bc5d472126cc4b1e8c5bb;
  0x429874394392734e3b32a3befa5aa4698eee8e50b85bbd5e66ab17f8c802386c;
  0x2fec30f5f8ef33e960d3d23c6e05116baf6c5239ad71c1b1efe7bdc56ee8158;
  0x31633ccba232110197dddac00f5d43bc005c511ea43875e9b488ec4e86d4c09b;
  0x715033900cdd1fc167ec839f5f8f4c9bbc3fcf0bf3ccfe200df7a8e4fad3c822;
  0xcbfe41120f4355ca147c3101cf7f74b3d8822bcd171ffea58b1d5154e854d34;
  0x5baddc5358245c3cbd4e082c7b42b5d4bee7520b5f35b48144d838f98b384fae;
  0xe3f75eb7a521810c95e023c811d379fa5eaeb312636351cd0c09b5f6fa0a1a9d;
  0x1cd91906ddeafaed5468556841ddb30253492e5bc49a0353e265503feed7c6e8;
  0x4bcd21c2d2e80582c51debb6a1a10df24217f9eb56686d29dcea47c7e0d176c;
  0x46c3ab490832cd63c7e8df034264b8a339369867638b8e3d2144a93d4ed19832;
  0xe6a8b8fa03864ac48eb85d76f727d10f2edd5a55b4546606f98bf392380cb670;
  0xabbe35fe06fd0e824bc72cce1cb05951cf2fb66593f9f6cb5969d26fb808df3f;
  0x76c2d04d5905084fe3e2c48f44cb967cbb14599a7b653590e279a60ca604d2df;
  0x62deb41dc59d9f4441e6ef44d4f24e044db1cdd87d3bdd3733061a16bd87558;
  0x658fa33b548d3901ea649729789fca9178159bdeeb132a09b929692f7a8057e8;
  0xa584e003f7aa46987078f9274766d5156fd116e232281626df23988822174be2;
  0x1192c35b0caa0f6b74ec589ac43dfef699e0c20de486b608420b0d8561ad0cd6;
  0x7d58c66f9f6e70dcb9764aded87c571e7558a08df3df020cd658fb9f06654fa2;
  0x1ffc42520036f134ed93dc97e84fac066ed0dfdb783c370da132e367dfd55426;
  0x47d605d048f6540eeebcd556c4e7e203dbf9308b736c6f3e7530d1a8c0bb3b00;
  0xf64b9c0cd70c13e0adbde17684a587023b86955c126a060b883c31eecc0944b;
  0x7a49ff1295a8df958b7ca2e2b10fe53c75e9091802a23f21f492c99f51c253e8;
  0x41674e7960c2688fbb5d6ef48df160a079b6e7042790f00e9fe77de264776671;
  0x1f4164ccf8f53e4b91d4a5146c4e0de3608b38032c0646a89c66b0dc0c36657b;
  0x974e530494ca5dedfcdd410a95486eff63dc71875f5d186595bf1c803edffd98;
  0x178d9814ef816158206e87103d0b78ec02fa798ba2afb2d6f922ce8315ccf095;
  0xebc2e0418da4e47041bbcdc5dd4cdc6039bdd6819bcadd29f3b223ef7e745ff;
  0x9bb303ab6408781687a6673812efaaed6daca33a55d571af068610e0e3e91e31;
  0x82c1738181d488086b6d5a9bcd1812336a53509cf8c12fcba308d532f269643e;
  0x47dff999581a1105a51fdfc5214fa7c236cd0704d4896ef582d846d175d8cc60;
  0x1398436dd6d4096af9d3010d8f703e80ca5403b4bfaff563d8bb2bbbecb46045;
  0x244bd4ab54116c61cae6486c461a82e9206e35e894d13516e5e37e51bab7c171;
  0xf4330ee8f5c39277d04b903646e204403dd68394f2fae60a95118fd4c13194ac;
  0x38cdba432131fec57e4b9d243c088059fa05b6c260ab012367a713b8f1b6d1df;
  0x20d1b5d5b710cdcd2bcf3d43ee206fabc29c8c699c2ebfc7076e46fe6f4fa69a;
  0xd41950dde661672e37b94e92cf34d751c7dd93cc99583ea7d32df113f5cad07;
  0x8597d7ee785d754d204f9846960b7f011561def8fb07c7d5992f10c72cf4b595;
  0x83525bc8c18cbe09df7415db28087f9c44110a353b50592f6833246109414a4;
  0x1328777323377d80fe1d2504a462efe9df9787a93d6a75bafee2c7c87d57d850;
  0x3628c44c9a920f2c40a788caa063a9f7883fde5cd5acc29fe9afb5d8fd438b7;
  0x429f675989dc741f8d81684ba5e129c7a6309dc1fb97bca83fb920e908b3fb3f;
  0x436179b82433fe7b9289835443221cb5e04a55adb173c756cbc44e538b7462f2;
  0x8c38da33585eb0f3603b66563f805e9d8fe327eb6a6d3518a0692d9545405ed5;
  0x20abf36c2cbe99150aa2332344151d80255339a489df444f6d2931b2d2ebfb7c;
  0x2ce0ccb81865c5373b1acff9fd3451c7e8bf5685f66fc7f4ef49675f3031459b;
  0x6f745f076f9661de0694f57e4e46e80a6b27f0b71982c56ffda29cb859405744;
  0xf9e7f678a4e0f93c7e492a65103701ab33db81ed7bfcd25ca8fb78e16636256;
  0x293c35535b76899fd8ae59ccb841bbaebc1a73f875ca73ddd0edbf8a63e2e6d3;
  0x940481b95640a954e30309ba7b4495ea9dcef4faa21ad17cd943f558df40b434;
  0x42c83c0ab62288375d506989637ca705d333c6af78162fbc1e13fbe64b1a0b5a;
  0x58759ce48e83c9c09baef7e31c6ab093608fbb6cd19dd00331a93abdb404a8f0;
  0x32692ae42a532a6e9b7b480798e760fe172292f1e6afa1193a3f6b105658f2bb;
  0xf4f50f0b9a5e90d35a028770a8c5a0db681d800a821e6e0036ab4c01eed5aef4;
  0x21fc7ec14f23cfa6c1de361a2541c836e8567326cac070149e403d59f35bc731;
  0xcf744eaab715f3aed379f09512620a828ffc922505f9d30584807589a570741d;
  0xb2936ddbc20897246c332b06b72f3310d0e05cf379b024b692a9c23abb9f3aa;
  0xe58829ad5b500a8a6ff0ebfe9b4359e561bc221204968622ac19b9a566a10ed;
  0x6746f9ef26ed496de2de094e51c73fb1b5871d4506097bcee908d078459ae6e;
  0xa931a185afe980b85363427d5759524c9a12d0ba62b1b12df4bbc9d1feed50b2;
  0xbb5ecfd6ae9a1ddb9dcf12bc89194daf966ab4342e4bf133e614cc7a6b66bb4;
  0xab1991f5f4f10b7718e65410339ffdc132ea4bc54358d527432f70a05f17503e;
  0x8e0f8a5bb90c7082fb1bf15ba17e880a57717b44fabc426e37da86b9051beece;
  0x1f3282ed14b8a90c8363e56196c7fa9e985a68b01c714beb8349726642e75fcb;
  0x444bd66c3d5a0cb1f9b41170dedc49191b1cdac1c7f2a9bd62e11d23dffcafdb;
  0x101509eb31cc6ee108f384fe70cf28d4ab6ecf01d41e1083bf145a25546c188a;
  0xb12021843bfb9f69b75ea90f94cf8f7ef9a14e6a1524ebdf658c95b4978cb918;
  0x5a3e7c025bb66f4ba7b1b0616cfff2d849e492a9507de96d9ad322935844f0e2;
  0x4f73cb366aa957184310a6ee155578aa7c275bf11ed39b47e130943bc82f1f7e;
  0xcdc5ac446d8c029941bd78b7c0194f12ea4e00ea499cae7002e69968bed63d35;
  0x29fd0d19ce6043fb1b44c3e457676c71fefd9f6f5d671d6b59b1c1ffca69b649;
  0x71616e9d6242263ed3349c08e0e2956e5cc25c33e33b06cd34b54b25697a35e;
  0x16577a2ec54a0ab45a15054bcb71bc3fa220a03f0997639cdaa8ae40478db71c;
  0x16c657e1b3ef15ae46412324d5f2dd341f08919cf75dca4fe5236cef80079a75;
  0x1fa2ea453a1f7c021fe1755f4c27810e49d85d0bb65bea0ae4e2d115d7a9f749;
  0xee6a88953f1de88eed79870f79d46809e84ce8a61a4534769cff6b50d3926e55;
  0x5d3e3ad6a3b9f7395a5cb7552dc7cc54d9b3941b9319ee1fcba749db5d4db18;
  0x420cfb86e8408d96dfc60a09e8d44d6a1aa061a27bb2c5aef3be85d296feac07;
  0x973b7e242649f0d9f2bd2c3ec8b11346a17d2f8562679878753a81bcd84e2bab;
  0xfee633069366b049a3e8c877e462ba0029b794c3876161440963e17c153784fc;
  0x13f951b1b7e87f5fb5e58ef8c8b3377639e2e88a91920977b6202a69af2787a9;
  0x42d65e6bea41f9e5c750ce1d8d877025d159299be52c6b62b3da76a598f15829;
  0x1ce7b6ab9cfd2086998c5bf16727f2931c3ee6b50c0e3c1a32a069620ceff87f;
  0x6fe30a9c79584874a5b69ab41cd60c99fc426e6fb13d332e8362af03bfe9a193;
  0x1a7c6d62994411d602896a5999354ba25dd7c1fddff3b5bb060622b4d00fb246;
  0x34005d2b31493a5a707154a062fdd44a513f0b175d3085158f1d2482284522e9;
  0x28261dfeffa76a8a64bc66574c8e6d256535f21a9e026fd945adf1ad228bb14d;
  0x5cc1530e345253f946aca10c571c969a2c2f5f68f9374ed2f27da713587dc0cb;
  0x3265068dbaeaaa7091e8433c79c9e3c11d060c827464497da70f23f6af1ee5;
  0x7fd66ae7708fe2ed0b0fa194d2d135ea5d0f894a2315474292ccf130eedf14c;
  0x194281c5ccdeba83a28eeefd27ec14d0923017425267aff74c7413a6dfd7181;
  0x6d2ea5d9cb811375eafed9b641b06f931ad7c3639fd1d661413515e1e470eecf].
Definition qs_s128_0 : list Z := [
  0x0;
  0x0;
  0x0;
  0x0;
  0x0;
  0x0;
  0x0;
  0x5;
  0x148d89d5e7aebe947c836a439bf36081;
  0x0;
  0x0;
  0x5546d;
  0x0;
  0x121d0783aa575071340037f7d119f6ff;
  0x0;
  0x22596ed7149825556d17fc3871670982;
  0x1;
  0x1599870bfdf2bb8191f827a4bdd660c;
  0x90c0e757984c9984a7878c838584246;
  0x9794d4bbc40906353c992a9ad384692;
  0xa9fb7253a852579f11327e1ae0875131;
  0x1;
  0xecea180bbf1b90498f7bb6be459aa2;
  0x48fafadb1b0b8c10303202101d1a6563;
  0x0;
  0x71b3129ae4478777dbff9dbf1f09b10;
  0x6d087e692c211a2f6237f4de46cf2d3;
  0x64db0d3978d2141ef685979beb3401ba;
  0x9e7d1b7b04c4e3a90d1c557585e3199;
  0x1b36925443ead5bb1d84660b7b6f7cc6;
  0x0;
  0x8fecc269b84f6c786c5bb4f803935fc;
  0x3b156e9fdb53f5ad78ac8c606424070;
  0x1;
  0x933153ad70a8c78554b1646431770c0b;
  0x5afadd36682a38e242b9dd3088b95f73;
  0xbdbfc405be385ec54441b117ac6be563;
  0x749937ad538e849bbf843ae65c7b120e;
  0x1;
  0x49b5be7221c094f1eadfa4f1c2c2b4d1;
  0x36e898b941f70ec33579992150c3657;
  0x33e63f2d91992c4e6fec210afeb2acb2;
  0x1;
  0xa12960db4a9943ad8e779fb25c7c44d;
  0x0;
  0x21cdb16da0999ef214beb58f28d08b53;
  0x1;
  0x63cf8226d42aebf081556769218e213b;
  0xb8feb52aaf12176652de6f9090a8e978;
  0x1;
  0x50cef0c3cb730b8331a19c31cc42f6b;
  0x19ed81aff91c19018297966a0a3e6262;
  0x7da7ea4eefeceac990a6c16390cd9a;
  0x728780c26f69803c6c1dc9c0c6f48539;
  0x1;
  0x442928d50b9174c516f287985ca18953;
  0x1;
  0x3d915fda8c4591ab326875706fdb5cf9;
  0x1268dad2700b972cd2351e431beee14d;
  0xb2892d1d68cf37aee03deb824544f72e;
  0x1ca4ce88a89f0898a030e1b5a516d523;
  0x1;
  0x5636a48ce8f45fb06f930b852659c597;
  0xc18150ec402b2fe9cd6a584e22d58de;
  0x6a7256bdcc2521d010b6a3d6ef40249d;
  0x20e6519ca7ffc8dc207c23134d957d89;
  0x1;
  0x2a53d293eac2a79088d47c91cf3f7554;
  0x1;
  0x2ca820a32b8640b262b96f1f0b1186c2;
  0x1;
  0x6de32cf05c13730f4bffe47181259d;
  0x1;
  0x4b1eaf8175abf63df6752ab30a58e17;
  0x20607a9be7f670304babaf5d2eae108f;
  0x0;
  0x6ea56fc05fb05b67aea34a41ed7c2f17;
  0x0;
  0x5af2f5b46dab52b40d2e2dfef0abc0a9;
  0x1849a8e07bfe92e5e408ff863b7e42fa;
  0x0;
  0x15311487be89999457a7c87ad9014a;
  0x7bbccc8dfc0847fd2afe9978f64f;
  0x69219414ed502525f5e24694770df5ff;
  0x0;
  0xac335e9208ab720254cd0732a3ad05c8;
  0x3f8bdcda518ab4e81754151294da6386;
  0x1f1ea01969107ba5ca25d6da9c03529f;
  0x1;
  0x2a4ab32103886013073d7a7f96e9e5c7;
  0x0;
  0x73cb71f8782c6d4873d56a59103712c0;
  0x1;
  0xa7e6cf86d7dcd5733a38eb40b234f436;
  0x0;
  0x370f37389b1b2eb53aa45cc1afd6c569;
  0x1;
  0x3d01aaae381697542ecbd6a974835691;
  0x1;
  0x48d0d7d22a5251b19d18378662e76f84;
  0x0;
  0x1c2b1f0bee218acd5cc7b3051404d84;
  0x470e4a8a60b4451711ca19b42cd8786e;
  0xc1dfd210f011782b10a715a8acd4fe;
  0x346d4d60ea269961f490a402bf07c836;
  0x1785f18a1a1a746ee8481fa9d4864e1e;
  0x0;
  0x95b0abf639e231a44f67da8fcf04b11;
  0x2c5f1a858d577c192e39259c9d528d7d;
  0x0;
  0xae0a3dca8cda9eed6f1129420e832bb7;
  0x43e246ab4dc44ed2e80cb954825de3ef;
  0x1;
  0x1c99c0a58b90bd3eb62fddd6d74eafbc;
  0x0;
  0x89dd5b243235b24d1f0159067a74ec7d;
  0xab537d957485b42b51320a1ccdc3362f;
  0x584f63df50ccfbb70a25beb6130e69ff;
  0x0;
  0x579bf8e4ae3d3e6d66d64c2ea4b333e7;
  0x9d330b548e682070fdf85b3c32b21bf;
  0x383fa7652e9553855c02e612c2709a44;
  0x7ab46cdfe34aa4702c63d8d0408c0bdd;
  0x0;
  0x37d2f4320b3b262d7b87c400872b1455;
  0x7c9024ac868057b4830de6adc8fe2dbd;
  0x4f77e3354c4d2547b119e405f99255c8;
  0x157c297aac8e114f441457cee0c99566;
  0x22bc044aa63d835c87f3fced69ffd813;
  0x1;
  0x491dcba879d669df03568d2e7b2fff46;
  0x1;
  0x1ffc1fc590ac9e90b3ab57e12bae2a;
  0x682b62302bf541b60482d5aac4e2c0e2;
  0x7b17ea7626a5df127d3454dfd14;
  0x1;
  0x35bfd3a6dad868491fee813530509b79;
  0x0;
  0x54a37cec79c441d432cb3dcc188f4bfb;
  0x59c2f261773bc5b997334c94da8ffa8a;
  0x1;
  0x529b940478bf7359bd57a431e63fd562;
  0x43ffee2cb89a87f35e0dfab5ceb88b2f;
  0x2779b08e43260c04c5a8f5d0912c7fc1;
  0x93696ab63cee7c9b67d9e4bb55bd4241;
  0x0;
  0xa0c77e405944b73d7cebbc84aaa94a7;
  0x0;
  0x550e2f51ba6f6ea6a8ce0b9cec1b6ed0;
  0x21443cbb2f1766212ffdeccadf3a7dc;
  0x1a3e85f4370425274907c5f63fb1bf42;
  0x11290c4df7dea006100bd75b1437e14d;
  0x6ae3114466d5a953966f36827f5c5ddc;
  0x0;
  0x3ee769d63131cec66d4a434eec4810c;
  0x300db9059997283c6d4ed7c00aaa2f9b;
  0x41594398792100669364624a35c602bd;
  0x69ec698296058c6ed8914bf66049908;
  0x967c6394c31e488017dd55a400488778;
  0x1af817f579790550ba7ab999b697c5c1;
  0x24dccf8489816e618204e2060c2a3769;
  0x177825daa1759a02fdb6868619041bcb;
  0x8a8f0b3096a05bdfdb6acafcbd2cd1c1;
  0x4dd8fa77fdebb40f9ed43e50f38f96d;
  0x35b33558838af45601c200dac8993b6;
  0xf62557ae9c20a586542cdd5c335bb13;
  0x4c426bf65f5f4bdd7e707712767d5ac5;
  0x11136a869ed2bc8478508b20736d00e4;
  0x66250c7613e1ea847bb5c55a0620288;
  0x1c09a0140c51f501a5675820e63a9f2f;
  0x8e43b44fe5304c9fe0b36e29a2cc9517;
  0xa0d4b35a1cb5f5cdb7a84c130bcca3e6;
  0x174c1d386ae643e926aedc4b3bb69ad2;
  0x17c61b4fa15635414ee669007a53dee5;
  0x5ed7948028d27f68e2169be6f199525;
  0x4daad47a6135fa65e072d363249794fb;
  0x1d9e2aaef9311e667e07cd9d86ce1b93;
  0xc768cbd309005d5de74496b683b7053;
  0xf5325f1991bc9000f9bae6f2f1aeb2d;
  0x8489b1783f0775270a8a7d19927cd99f;
  0x303050d1fa4519ade410acb14b9237;
  0x210157c0361fcfb67cabaf711876bdbb].
Definition qs_s128_1 : list Z := [
  0x0;
  0x0;
  0x0;
  0x0;
  0x0;
  0x0;
  0x0;
  0x0;
  0x154ed50;
  0xe5a33d24faaa939ed11c58dcc4c6100;
  0x0;
  0x554113117;
  0x1;
  0x697963cd433acf5b666572ecfabd768e;
  0x1;
  0x39b26eb6010f17a783d06a1340b8e19f;
  0x9f7a455b20fd79ea916a72aa388953a;
  0x10e792ec78b5130c62cd18cd36b8e6dc;
  0x857cb43eee99542b1e0c781b29c0dedd;
  0x1;
  0x85fb4b4491bf0d7357f13c25a7d97d;
  0x3a77640ff847b617012807852a6676b;
  0xbb91c1161fb7500118885c63677371cb;
  0xbd71b928cdf8d58a6683ce9a72b37bf7;
  0x0;
  0x18495b24c6da729f6539fd283e3a60d6;
  0x3e181f41e514b715da37fc80e456ad2a;
  0x1;
  0x8bf044e966f9631441f4f07cba4f6a15;
  0x0;
  0x631362b8e2c5b6fb96e56557d9003540;
  0x1;
  0xb46426dcd659096cf4c3d9abbfa80267;
  0x1;
  0x2f2ffa7d50c94ad36716e2e07e42630;
  0x51f95fd1402003183189ba172f1f6d7c;
  0xd00bf6c93d10ea073386798cf704e95;
  0x264fded4702c2144c52d00bee03dea20;
  0x1;
  0x334f988f0673304add31d12cbea77512;
  0x17dc11f9fc95c9f7005c7c9dde6bc472;
  0x2b4c5257bc499d613201afcafd4390b0;
  0xfd17d497ac7ec0dd21a9b9141d2e819;
  0x0;
  0x24e1e3b94744b9109076fb2e2410a59f;
  0x0;
  0x9d5532efe27b1ec2a60bce39105efddd;
  0x1;
  0xbedbe35014cddcab3b2ca94d82f8cf5d;
  0x154b7298db3b377739429b65c8ed40b5;
  0x5560a87d08ab608df14e92e93d48dc81;
  0x20992b33de15905998cc0f963552a584;
  0x406e2affeb986208f111949782023c9a;
  0x1;
  0x1733fda3241ae13a0f9778a9b9b2bc63;
  0x0;
  0x15d7ef182b0a3597269589d0b4a56b;
  0x0;
  0x6d1b92cd6817e5b19a7fbaa285d79d69;
  0x3e904924e8e23b957b5fd330b2eef8ce;
  0x143a624d7bb257cf95b3a0a6cf5f8ba5;
  0x0;
  0x3ae0200aa7d4db79e61a16f75a75dae1;
  0x147d3eabe978e00209579ff81937c186;
  0x316539dab02a352b8bb3e5c6c20d50a1;
  0x8ad8e8b3a63fac4f2b7a3340b0e1074;
  0x1e30b60b8527b2ab790976a948c24d7;
  0x67880f5482eff2bb9d387554a20d1b0e;
  0x60ab96affde3e12d9e7bf390d802aa06;
  0x59ea5d1e46c33ae796ec9babe4ae5b72;
  0x76c00ff9c1b9ff50c2481d7e197720d1;
  0x1;
  0xaf0a8984c354f773286b8f25eea27ccd;
  0x198e87884ed04add28beb70e348ca35c;
  0x0;
  0x5a0616e73d2b930ae5c94b24bb718e8;
  0x1;
  0x5310608c80087c4957c9d40a4b9730f7;
  0x0;
  0x4539fb3dcac0c92a6ec832ca937f1205;
  0x1;
  0x1d25d36e848f42a4f1ef8d182bccd1b9;
  0x1;
  0x3753cc8275dba2f46b2a7d9db143815c;
  0x33101245f7aa44a13238a858fa2a688f;
  0x0;
  0x9ac662dff3b5cef24591203a31cc4db;
  0xd80ea587bc556fcf6c5ffb29bf19846;
  0x1cfe01070c34646b540fdd5fde2382f1;
  0x25771003146bfff84f39f162d664aa3;
  0x0;
  0x8516b9046257732748fb30a82248d20c;
  0x1;
  0x1e3e8c2099e34ae912f2b76ea6f63362;
  0x0;
  0x14828ef364ad2735a456dc59b2ff2dcd;
  0x0;
  0x38db64d0808e15d4b865621eb3db4e32;
  0x1089b2cfcd846b20fb25f7387b7ce0f1;
  0x1;
  0x3ea43b2a12bf2bab5cad8dcb88c71925;
  0x0;
  0x3e4abf76608795780ccffb50c40c16d9;
  0x4134c785c8222a798d12c0ab7c116b1d;
  0x4b85102ce4e907fe72b0fab97f169d7a;
  0x8bb645a4777b567a63429532a144f4ae;
  0x1;
  0x78609f6c5d3b383d1a640fd4fae55426;
  0x1;
  0x14caf74d5b2d1aaee7d936ea20e0e57c;
  0xb3ee9abcdefd670ef37d551ff214cd0;
  0xac0f5f0b46f48adc04e14ec0c716def4;
  0x53b66f856556b154a0649aa7e4383b1a;
  0x0;
  0x2f4d7f3b1cd77b854ba7f5a9bd3761ab;
  0x4c66204119069024661e1d83dec5c23a;
  0x174e1e19faa6973e6fef9836500d1ceb;
  0x7965e29b4d97f934616e340827c945b6;
  0x1f13bd1382d6c701a7b5c540883f080d;
  0x1;
  0x384ffe5574bf5fe64c025e0d8e5a68df;
  0x0;
  0x1027e0ad20e2ce4561673c78be7b0db;
  0x126ac765911384903fddc8e6b170197b;
  0x0;
  0xad29e880bb5343deab2b6379ed6dedf4;
  0x3f2333ab33b024d1b57e5c28cbed7;
  0x7e9c1fae5e82fe9ad48894a8984b6b5;
  0x0;
  0x620cacaf205fbd185b76166d898818e7;
  0xa9a41f4395a546c96ccfeade58e9610b;
  0x17324986b3b01b082a5e35f369dc4aa0;
  0x1;
  0x8b71188bd78e8c657befe52a6f9be3;
  0x0;
  0x306abc6ade69ce8bf4716664eea65bad;
  0x1;
  0x64ce1b3909f5907cea2cae12193b91cc;
  0x1;
  0x72d524c77b0493629376cd4a33dd3282;
  0x1;
  0x17614e5185df09a4d2c7c22c20d8ece5;
  0x0;
  0x9214e1a079de9c69809684c6c13aa315;
  0x0;
  0xa17e8b2747fb9f868012779336bae17a;
  0x1;
  0x637bd32c485236b65006e58cdc88709b;
  0x7771d44da7020ad42608fa658ab9;
  0x1;
  0x45c4015df438cde093ca27711b2e4c;
  0x0;
  0x15e91b08f0162872f095cf64a968e669;
  0xec95e203be104a77c99a07a7a895ed4;
  0x0;
  0x54a091b45f61cafd30a2702970be0558;
  0x0;
  0xa505d44238fd5eb01fcc749855eb93a7;
  0x0;
  0xada41b1f054e9d6091229853d5d215b9;
  0x8b75454e02caf4c2ef6c7d608d556b;
  0x0;
  0xa365c413feb9dd91305612ad00d08e80;
  0x9c7d9909fae3a016a06ae1b376c46235;
  0x7754fb59f5fa184ae0e8859ffc3ab99;
  0xa76dfdd0640eaeb9302c9087822b8de;
  0x1c6b2e35b42c0baa4286482d91eab39a;
  0xede2763fd616e682784c603d6cfe3fb;
  0x2fd9e683e22bcfe5ff9532ff76ded134;
  0x54a6f1b349d8e45a1d169f9b0cbf4c0b;
  0xb87c358cf11940da5ce3e172aa0c05ec;
  0xc695d99312e20668827654c8c93bd49;
  0x1e700e16b0df540246498b566e7cceda;
  0x36090153fb7b5648ef1421e883658366;
  0x1c199d552bf8e88d8ea74e0b76eeddd9;
  0xa913b250a140e546b120c74b0a84133e;
  0x2ba8081bec51c32fe253907379dca545;
  0x510143c0cf93401c069b7afa87eec53;
  0x2a848a54114395e5e6149c8c29106ddc;
  0x4c385e4211da5656ebc9c879d813264c;
  0x25fa1707ba6557885becf29464f84025;
  0x9c603e9ba20e5e2e8989808a2169c482;
  0xac7a11d6e94a28f111642de8eae86f3d;
  0x4278fabccd9dd80a9d955e5e1d23cf98;
  0x10299db61604ad716ede20f91dd34758;
  0x28b43619ba36016ae8f9c799e93f6d67].
Definition qs_s128_2 : list Z := [
  0x0;
  0x0;
  0x0;
  0x0;
  0x0;
  0x0;
  0x0;
  0x0;
  0x0;
  0x553b54117cd8c;
  0x34aef269658481810cb330516fce5f25;
  0x128fd886bbc89785b570a80e2b3e4068;
  0x955c14e6bf1237c5edb31229869edc24;
  0x23d4994c431ea38a05225166b0cd685a;
  0x52d0bd1143090cc4bd43f5d7054b8d37;
  0xb4bb3ef6fb7d17232dd5b2db0b57b769;
  0x1;
  0x10ed013aa62bb3bfc189f68ec785716c;
  0x4d27ea7f8a1f843ffbad233004c6b45e;
  0x5796efe7f380226c891bc24b25ec1701;
  0x2c556bf4a7fa3c051da9e657bf1ba071;
  0x0;
  0x1b9c3209b719ed5d9179c7e464cdedf7;
  0x11c84155eff025c0dff6a8ab562d6e2;
  0x0;
  0x7fce22e3d41d0d6e38f8af559aa59c57;
  0x1;
  0x4aca68f263ddd5b877126ccf04b34afb;
  0x5f02d8fdf8569384ad5f6b4054788d1;
  0x1;
  0x95ee2abe6a8908fc2853e8eb3eefd520;
  0x0;
  0x81ae0a1b5314bd41ecd0bd2cc714114;
  0x0;
  0x14dc18a16eaeb90b1f6cc1968837ae;
  0x5a97daa2826ee02ad2a576f46c286187;
  0x1;
  0x3505c0bae9b51474d58e1d0fc3f6c67d;
  0x15d34b11fee2618b8415cfb989c1cd68;
  0x2e3ad36161629856b6bd01177a689310;
  0xa64827fdc514592ee2a8352cd1f6b593;
  0x0;
  0x58c8b72ca69f9b0fb500b140adaaee1c;
  0xbfb77aca97de5f1d55aac5c309041ad;
  0x23bac7bf1180694729ac49daef3efbf5;
  0xb885058fdedd232f806511afbd95ccd;
  0x320c50fd153ecec21a328efae73619f1;
  0x0;
  0x50d7c834a4ceabec1e02a4f964c522f1;
  0x189c3cbaad24e714cc5b16f03b25224c;
  0x108fcf5a5fd1a251e3b2d767fe9e5c06;
  0x0;
  0x42814dd334a93fe45e2d4c7a689053b1;
  0x0;
  0x8d93124ecc9910741634f7deae084b89;
  0x1c9f04d4111048ec710c91db3922f9fe;
  0x1;
  0x7608ad2cd6a54c268bb5b5d6615dbf3;
  0x0;
  0x4c0835a1c634f4dbac3b64caf5f2c080;
  0x1;
  0x75c4e82b70535d9104802e32786abe1c;
  0x0;
  0xed17ff34ab344eba489e5c36769c7f9;
  0x8ae7e1812e1003045498c1165b265296;
  0x9b55cbdffee0688be742ce5739d584c;
  0x6fb053b794e7e2790ff4e190b57ef048;
  0x49fbfcf66db7d3ccebc13052613785ca;
  0x1;
  0x1992dd7b839f48a28557b145768fd171;
  0xb8a6d220c929b8ea97bd2a8e657fb0a2;
  0x1;
  0x72b27b371dc29bb19e5f4e510351cf05;
  0x1;
  0x196df9b4a35387b6eab7305e167e937;
  0x8f729baae170e91eb5f657b86a824109;
  0x8eb31e19578fa49e01687c3405ef8374;
  0x7a31fa7ebf98a98465b90f05ac50b31a;
  0x0;
  0x7961eceb79dfc1c55ddbb3d3cd4e4ca5;
  0x134a3539f6397ef0543c8c0110955741;
  0xa19f022b04f6cfd3dd030002922931b3;
  0x548a5564b1ffbd0d5bf5c94d5aabe07;
  0x1;
  0x69508bc969acd1381f0697f5b220b2af;
  0x741f38ca2eacd1a472da535d8027f556;
  0x3d0a970f339e98471ddb357a8f3d0668;
  0x5b29c991bcfe8d3580e8d118f3fc0757;
  0x7f91a1c37c489097d08b4a72a84f59ef;
  0x4e727caae790a62e6cbe7a3743dc2d5;
  0x1;
  0x60f3f918db613c095af0b25ca48df6af;
  0x0;
  0x3edde2499ec41a441834f711c775802;
  0x1;
  0x76aeb4e495562aff976818061995d2ed;
  0x1;
  0x80b449347ce3ca0251d7983d25cc58e2;
  0x0;
  0x9e96de4be5abd3b9b453fde7dcf469b8;
  0x0;
  0x3a6b34860a4d74fc7e795150abaccc68;
  0x1;
  0x3b8093216e1c32464d66881bf564113b;
  0x0;
  0xa4cdd745073a7c7ac8783aa21478213e;
  0x2e125a2d280f8b44f2d37a7f76bef38;
  0x22e9e7b307e1c7e42d827ded50b84b38;
  0x14b5108fbcb1cfbdc35dc68c2e07cb37;
  0x1;
  0x2d04945b849efc0248b264a76e96318;
  0x137c0319078b6cfff333037d269e0f1b;
  0x0;
  0x43498584aaeb8fc7f744d8de0d92226a;
  0x0;
  0xae0c375cfc65168a1e5bcb867d26879e;
  0x293998bb9c46c1a48c7d9c7ccd954998;
  0x704288b4935b321711a5da7cf183d5c1;
  0xb2bbdca89e59b6e51d08d6d506085ad8;
  0x8725747e9a9c003009227ab224da21b0;
  0x0;
  0x6a854e20cd12748ebe4c76f8adaed1;
  0xa65abc3a2a95534c37fb248725ba50b9;
  0x1819130f98d9ac61208df73d34b48c24;
  0x73f78f259dbc11a2f455761ec4916;
  0x14c7b36358f1410b1c073abb25be095c;
  0x50950435d451cd8fbe1fd06fed7f06c4;
  0x1;
  0xb8cb02b4dd3b0e66f1b65f3acc49b73;
  0x62b6da563ae6c04b96e6db069788043b;
  0x5b5644c4deac1ddcd2a5ae6b754b3f81;
  0x5c5f6a1142e907c568cbb805bdec0c27;
  0x0;
  0x7aa993f2bcd41199a66de45e63395316;
  0x1;
  0x8a4ac010c4a04ac5912f850a0ecf7ec6;
  0x5db261423385b6ed63ae14763a8c210;
  0x939fda61def743092de453ef4d12d14;
  0x1;
  0x28f7144e5ac065714b4a13ce112bce1;
  0x1;
  0x402639f8eca37819755beadc2d4de0ae;
  0x538bd0b0b352900382d004d769a2f2f;
  0x48475edfc36dec48fd5cad644045bff;
  0x3516aa2ad58b259b0851c07de2073f61;
  0x1387d1e2c39294454a17e2c12eb1cceb;
  0x3e0194d01a5fb191e9abee2a60f6e0f0;
  0x8b54371a930b0d8a995b2db721fe1c79;
  0x2f208fbc0b4c6957cc5d33596f023908;
  0x3014358b34d4f3d66921b86a462e43a1;
  0x1;
  0x964d3d5e728da0fbcf53530b8d479a36;
  0x95540ebc681f634fb637cd3354ffedba;
  0x0;
  0x3e18d189d5b4efa8623b8daf8a76aba6;
  0x1;
  0x3d9a5044e946077bd5d47aba620aaa;
  0x28bfd5799ca65fa46ecd920663ff282;
  0x4f2a5ba5ab3e8c05208aed3c01e3960;
  0x41a8e95a59c722bb1efcece3ff29c0ee;
  0x2aa5a8375e542c0018cdbbc0b565da86;
  0xae11f2f70fb4f27bc0685dabb594cc95;
  0x123b5b1f304456fbf1e426fcad243457;
  0x264b0e9646bb89bcc590f21b353c54cd;
  0x28733c34ac17cb54f8d4adb2e2cc2470;
  0x4e3ac6bfa7ea49e30b3b3473033f739;
  0x5c7cfd677eef86e0b701ad9dfe9feefd;
  0x4b50b1692358f148bbd487dcb635e0b;
  0xe34dba836d9022578bfa7a7b6dd778a;
  0xad2decedc5ccc4aee751db76a1ddabd3;
  0x5a9982ee98972ce8b886be5a609529;
  0x178a826f256ddaaaee26fe0795599f53;
  0x8983c0b9095645db860d18c0241350ec;
  0x5b37ee1254fe9714421b6f98b6ab7304;
  0x10a1ede43e6214ddc59d88059d3ee7c4;
  0x31c21fae08cc5afc568d483b8a8fa563].
Definition qs_s128_3 : list Z := [
  0x0;
  0x0;
  0x0;
  0x0;
  0x0;
  0x0;
  0x0;
  0x0;
  0x154ed5;
  0xe5a33d24faaa939ed11c58dcc4c61;
  0x15504;
  0x111069e6d4dd9513c519af0478f7c9a7;
  0x1;
  0x8c173056b95d3d181b1a3e68fb6a723a;
  0x2ecdd958b33006596634683d02e2f90;
  0x1;
  0x34f202b89e926edb176a46dadb9d1990;
  0x660a6ac9bdb3763351abca9720125ddd;
  0x1;
  0x284d396673ecb7807777b458bd5b28c2;
  0x1;
  0x27cd0315878132649042702959272780;
  0x2af0ebc74ce971192f125130c76a114b;
  0x634399f741fe10ccf4bd6822d864841c;
  0x1;
  0x4c04d3405d80411b7d2a4688dd695186;
  0x0;
  0x434b79590b2d8ae4c84c3f7c10747009;
  0x0;
  0x57b9393ceba8d78bd6f5cb710ea58419;
  0x62513ed85f504b72abdfd76f97228101;
  0x1;
  0x96f7171a44692ffe81c3c48d474b6383;
  0x66456a6a603ba562b0cbc257976c4ca;
  0xff1e021e05c5ed543c740de0468fa36;
  0x243e7f9a8d52f9d937f5875e6ca79f4;
  0xa59b1b5699f667ff2b32f6b0189b6c;
  0x403112dc0edccf43245ca2512f85753;
  0x1;
  0x17376d53ec8f8aeef7c08d5cdc053604;
  0x1;
  0xa9d34eac81ad0d3763b3c3e70041d766;
  0x0;
  0x11c717b2c367c088048a2d18ce3ae179;
  0x0;
  0x65792626045b89c4c5950f2f4df9230d;
  0x1539437456798765a9180396af2f4cc6;
  0x3d1b6305082e026aca2c1f0e63562ff;
  0x39a0ada1c59e50c0d97ca5e2ed383a6f;
  0x0;
  0x25ecaf682ffd53cddd9166377cd05933;
  0x351fd74b04c43e1aad35683782bbccf9;
  0x1;
  0x3ed236c3d4ce13eb220e8ee8776e0e8;
  0x0;
  0x2adc74995554ff28934218d69a38421f;
  0x0;
  0x36f5666c944999fb58c473b15fd72d81;
  0x1331a9596352c743ed2783bcc7adc40;
  0xf337ce4ce8cfbe71eb6add755d224cd;
  0x0;
  0x211b22e4874c36b3275c91002dac8966;
  0x44e8eb09130e67c0ff6b035fc05f843f;
  0x85ed9eeb3aa202711ebd9102fe6ca65f;
  0x1;
  0x902ffbacc9efee449bc552d2d1fbb29;
  0x21f508a01ecb811fad168c341483345;
  0x466e875bc682ef41dd260c0a96f093c;
  0x0;
  0x3254627e413c5326e6e9464e5fc7e5f;
  0x30e95f8d1bd46ee710bbb180b82ddc33;
  0xf2809e80080ada54e9f194e6b390f87;
  0x3bff7728f8cbeea4a7d28c43e31dc02b;
  0x488fa269483daf3604c4213377cbb6c;
  0x0;
  0x9b0f20083aea219dbf1ff521bda9fca8;
  0x1;
  0x4e4ee40c2d84a6efb2b48430b3c7092;
  0x1;
  0xaa04eef9c1b16e0446718d341246e499;
  0xf05c7d5159a0e26ca7b2cd7b38d3498;
  0x1;
  0x1dd41992452ce67ad52726ade6f5cffc;
  0x8b8aa488d7d15655abbcdd32ca0378e6;
  0x0;
  0xfb1b5c088808df43e0624e07ad8784f;
  0x1;
  0x1137eef7c6110125dd2df0ffb8e43045;
  0x4dc66618e181d15e31a6932cbab3e35;
  0xa0dca491b3da689e1ab943ade5dd9b04;
  0x0;
  0x4548d012c6df5fab4b6e8aff8e5031ed;
  0x0;
  0x1f31f707772a080f20130f05c9b9845b;
  0x0;
  0x42c86e1a00c7755fefef80a24f2d43ec;
  0x1;
  0x138ed151af29a2f3ebf7a70c05b2dc6e;
  0x1;
  0x7364ff045607fe223c97ec4dfe1ecf7;
  0x0;
  0x20ab55157b680f247d1b58879662ace1;
  0x1;
  0x553fd1d92306596c59f8a19df9cbd8;
  0x991e0c3a13eca53d616eb60f2482796e;
  0x0;
  0x53022d915149b01735e065f0c13ffc3a;
  0x1;
  0x24886f1dbe3793034dafae4e1cc6908;
  0x1;
  0x835a407cea2beed81fb7a222a4e8ac7a;
  0x18d4b12ff52cafca2ab6971f06f9b54;
  0x91d0705ee3c2f3c7f1622fa8cf22521b;
  0xb03e1e930441bc04a4c716eca3790274;
  0x0;
  0x4a3f1e039c796323193afacfd223a08b;
  0x0;
  0xb37d67756467f4019a67e3660771ffdd;
  0x1914e013e53c34ed2a5e96f17bfd75;
  0x456f400b2ad5966479520a068da630ec;
  0x1;
  0xb11f8d14b74a7dcf5ade18edaada47ce;
  0x3a8fd483ebb08c7861c9d06b07e78361;
  0x89bd4b7ae35868070a70d1507ad95384;
  0x20e8c5b2bb68b561e8ce84a8813e15b6;
  0x404615f7a2b9f01aa6dbb485f387d620;
  0x0;
  0x1212ac37c12b222d7c7a299335792101;
  0x1;
  0x5db244473183dcbaba58f7907de82f5e;
  0x0;
  0x4cff8075060afbe2a90f02c1b6ba13a8;
  0x1;
  0x2008002fea915d8e930541cc08b228c5;
  0x6b9925da3dfc5945eb1c95249d122cd5;
  0x1;
  0xa72273938f924c372cc22a74445aa120;
  0x0;
  0xaf1ac905488b0ea982621798d5e5fe2c;
  0x1;
  0x3d8fda4038eef6cce398f5cba6b995c2;
  0x0;
  0x3831ffb871ea58e63a286360cb21f041;
  0x149c018cf0ac36f0e4469249938e5064;
  0x396e6b0e541deb8a9def3bcb533d5100;
  0x1;
  0x4659f59053eeb05de32c89d88376a61;
  0xa893bd4f1e3a0c75417fdadbc1e3b7cf;
  0x2bb28f339a02bcc37f7699992832f9e8;
  0x78bdb14dc917e2f2409aba153a34115a;
  0x0;
  0x17e3c114431657d7b56442f05e2b2755;
  0x0;
  0x9d8f8c6820c7e6d531e3ef20b9978d5b;
  0x105afd56f219c0fc8137e74f044f1f38;
  0x1;
  0x3334954e698b33c45a42795c9f35d254;
  0x1;
  0x3047671ec5264084c8d4c7d21a2b3ec;
  0x587aa0d0903c60ec496ef6b392880b18;
  0x49fe5600f83ed45a1c0424414f5b68a2;
  0x0;
  0x4b5176401840a4e11a7ee20262d1a344;
  0x407c7af3c91020d3b83e7235dbfd26b1;
  0x0;
  0x3c1b5b04b938f3e1910fa16d12e8e729;
  0x0;
  0xa1e64accce5ccb3151deec0b72657558;
  0xbb96ad8fb4e8cb172302cd026725cf49;
  0x1;
  0x12fd6ee42aa138d6eabf8f652f827b99;
  0x68aec570a9e36d8b439c0a475de820df;
  0x68a4ad6f5dfcdc17ff8353bd1050d2d;
  0x3d0436cd121d67383e230b79fb67640c;
  0xb23b42c42d4d0535c5c35314567eb02d;
  0x549d361e47b67d0bf0ca96d76cae767a;
  0x28ebd022a30feeb5285f95ce8e6a08;
  0x4ac6e288ac9df38a571c5a7c337ef479;
  0x1c083ff2bbd8ef17a2e549548fbce3fb;
  0x6bf441f535415571416c8e0ce1b4cb68;
  0xaa67185565a9d3a765401208967604dc;
  0x26e52228816ffbe4b3d9e15240c70598;
  0x7638e8ae90955ec858044398ee54f79;
  0x3c4a3a7ef8edfd28076b739fc0fc6cdf;
  0x431d26301ffda61b67ee8534540f332d;
  0x76d138b1a43f49ba36429d92229e184;
  0x47a59f95be366d5a4068687e14a4c07d;
  0x61349efe17caa05a048d641e43735d17].
Definition qs_s128_4 : list Z := [
  0x0;
  0x0;
  0x0;
  0x0;
  0x0;
  0x0;
  0x0;
  0x0;
  0x0;
  0x154ed5045f36321813d3723e44e61;
  0x0;
  0x7aaa91c9f25c79165b57277f7df93b;
  0x1;
  0xb0197f5d61a59b40d71285c727fe5d69;
  0x1;
  0x6984388155fca7acdd6e495cb1e3bb4b;
  0x0;
  0xb5b946751709e0fa0bedca07da70f4f0;
  0x1;
  0x31092cd9072ca4a295ce85d64eb16076;
  0x0;
  0xbb35d405ff417f9bd231d3ea42684e39;
  0x578e27f9d4f7e92229af74c895024e8b;
  0x6e3ec94eb160713ebc9abd542be563b2;
  0xe4ccdb88b17bcf3f4b787c70629c5;
  0x4cbc48f8b20c3dc1f0c268a1ecbfde31;
  0x8a6f8c888c2dd510fc2f38d2896cc146;
  0x0;
  0x95b2117ce67f0a0cdaff13a9c1bab2a;
  0x0;
  0x65d1d9def33f5b18a02afbd35598ff2;
  0x1;
  0x27f978e16af7ae9d30a86a72d453c75f;
  0x1;
  0x935d3a141009743f36788700386896b;
  0x67cb17e1b2152c51ece968a65d944a;
  0xb9099a431bae7cdf103e9ceefd9f5a9e;
  0x57f4962ab7991738a657a610589d6652;
  0x4ff03290d90160586bdce4c3e4206490;
  0x2ea97f69bf6a6a75327af4fde7a4d365;
  0x39d663de86ae29e3c50cdf55588bdcf4;
  0x0;
  0x39c754a8518eaccb340558bb161b31b2;
  0x2223ae23f4f10766a5db7aa4d7a4ab54;
  0x1;
  0xa2967d3d4304a23e174565d19ceee8a6;
  0x5aec9e43e50ef95a301e847a32e8ce;
  0x11f5b8c267dc94893bdfdfb546e80f91;
  0x0;
  0x25392383e2a0c4fb3bbd1aac1fb2f942;
  0x1;
  0x27f6709da34f39bf4025cdfe5c648811;
  0x1;
  0x3009506848e457feab4303528154eb50;
  0x0;
  0x5996ff8a291456892825f4be1c06940;
  0x4c6971ff28bf97da445f753e67a7216e;
  0x0;
  0xa303af6d2a40ce51b20728672177ea86;
  0x0;
  0x335cb3092ce7499a8b0135a7bf24dc7c;
  0x1;
  0x876a661c695f1045115a6fe9ed23589c;
  0x654f2c23b094171f53d53bf6ba1de8b;
  0x62e6e82af66b68f31df99a49be88563f;
  0xd76eec1cf94726321c4f7549f3566ad;
  0x1;
  0x2ab91b92de113cad553209dc5716997;
  0x2024654616412e9b4c463e769f045e4;
  0x1;
  0x74691d2e91caa66dbec5e83ac84e03e1;
  0x1;
  0x5dc41207cb52c91c874debc0490e2dff;
  0x1;
  0x367367333929c11786f11757c2409bc;
  0x0;
  0x5698912963d8e6d045e6a95203ff2fcb;
  0x1;
  0x55a61f6cc3f694809727acf52063b333;
  0x6d8a8eabe2cd49c2faa0f899b294d41;
  0x6ffa4045a7355ef5bdf0fdc15f6fb7f;
  0x0;
  0x20bb3e8d0593980a771570fe0c12202d;
  0x1;
  0x76881922b5ee23046ff8e0a52a22726f;
  0x94a74d76090d62ec648f9e3132cb4aaf;
  0x4ddf2bb1729468a5f96f9df0ab030e59;
  0x1;
  0x2e5871476ba1c77dce8e6b6015f5157b;
  0x30a554395779f92e3e3cae1028bf19eb;
  0x0;
  0x9b9fc08eb4567f09f52040a48faea389;
  0x27aafecbabc10379f995d20c50ac032;
  0xbba4f293c5c2f64e178c6025bcf4dcaa;
  0x0;
  0x92679beab09faf8053c284d73be7aeec;
  0x2ccb3755f93ff57d1c4c4f95bc45cd9e;
  0x53457c0c1da7b90e5d7c37b216051c76;
  0x0;
  0x42d925f646510bac30103c58a6c4d08a;
  0xda5adbc047e722acab1e87eb354757c;
  0x415a366a72b01546fad7a887337ee07;
  0x0;
  0x98aaf2812479e91dc7f7c97fdb08802;
  0x292d4c68a5bae70a6271a95593553bb0;
  0x0;
  0x12376abe8f130fe5cedd9522d26d08ab;
  0x1;
  0x300d661777affcce13ac92a80037ca8c;
  0x4794a73f3325529dc4be014031dcb71;
  0x14a2304a1c22cc64e3ea3de1b087099d;
  0x7f85ec3aef58c7dde212331069a1ff3a;
  0xe5531a4c967d5541c60da9ce6416316;
  0x0;
  0xb75c76f9d28189fe0e7cc38cb82043fa;
  0x2dfc99fc4ba5af4bc763111950cf4f9;
  0x4aaaffe411079c35980babe2b20045a7;
  0x0;
  0x10a258660158a4b779a1d8aa10a2fed4;
  0x1;
  0x21ca69cf804a531df99f0ef450762e4b;
  0x3a2a9f743d6a026f68e20c1cbcd1964;
  0x0;
  0x3ef6986ad92f7cec5882f6a6f5367f2;
  0x1;
  0x6b00fc02699629e21e966b868f0c92b4;
  0x1;
  0xe06e01dbc524fe346d8468dff5127b0;
  0xd1740f1648b8bab25d29f29a75baf58;
  0xa67be0cfae27cc4d4ea0141b3a9791d6;
  0x9210ce355849b13090d4a9747847a2ac;
  0xa00b79e939f74e79b540bad30e1d06e9;
  0x0;
  0x1c7c724a1ab4d140cc88a223bad5fc3;
  0x1e393e6a24d2fbc3c43dc62ef0f8e009;
  0x1;
  0x8eea2623b36ab568e586216d5646c74c;
  0x1245b37a60aca38b962638b608cc638;
  0x15ee1daa602fb2c580e7f8ae37c48fc1;
  0x50dba050b46b515bf3a5fa4f9f74be9;
  0x6df88266e98ac884eef797720c05df81;
  0xfc8a81a1743ce673322d7b844284055;
  0x8f8e04d77f2dac51eaa04580a4a1130;
  0x0;
  0x54de1f3ab2bd9d9763f1d18133e78eb6;
  0x0;
  0x8ee705853b7c6883641eb48e66c54b09;
  0x1;
  0x98f7f7d5968fd4d89ead708b3b46b4e0;
  0x1;
  0x6c19ae09195aa284d99e697dba11529f;
  0x0;
  0x3aa7927468e6b38945780ee4d3137962;
  0x7172f76f24d7e605e5409c1c5d2b6d34;
  0x1c8c7bf9c37d45bd5a1fbdfa0aa0d741;
  0x1;
  0x26918875770f0c0f831c6c54c842f1df;
  0x0;
  0x1834b5f1db95abf13a66ceb781a7f8ec;
  0x66b97fb21462db15edf54076e971a4ed;
  0x0;
  0x19d485801d4ce76b7dcf45750ad2967e;
  0x1;
  0xb7337f89b9331f0587e63a313d631d1;
  0xbb3a6d3f72e44252c8050eba83fe0a2d;
  0x0;
  0xe201f0013e845a4a4a9af2a6e37b130;
  0x0;
  0x3025f53a23b7b4a8bbde35712b09622a;
  0x1;
  0xbd1ac14bc3378999521ec351e2347d3;
  0x1ace30ce1b74460b686f2f02f94eb901;
  0x8b8513396f8cf5d9ead7442192d07b06;
  0x392bfd1adadbe9531c60b40afbc9791c;
  0x2c16d332108bbc6937df1d2cdb75abed;
  0x2e86726a229086939d46fbedfceb883;
  0x6bc577e1cdda8f3c78a1d7619d09caf9;
  0x1be0e9f9522f6e224d974af7dd487774;
  0x747cf768b7e154ada23a83e64f4ad78;
  0x3af8747de8c7cd9f41712b901e1b64e2;
  0x9ad0082d23d064b339566ce8f34fe67;
  0x2e7b28c79f0d1f49da6037a32e20094b;
  0x33da227af2d7bec13ef0fc2e19ac8ad2;
  0x619b9cfe259d43d98f95cd2552372972;
  0x5e7f6a39ddb2118ff0ac19d0c65bc3f0;
  0x858a2c8a33e08f54840ecaf2514f45dd;
  0x1070654c3490c21d9bf4a966447c4dc7;
  0x99d6f03a8a066aa29d4f4c6869c510;
  0x1f93064f3e3099f043b4509df3dc5e63].
Definition qs_s237_0 : list Z := [
  0x0;
  0x0;
  0x0;
  0x0;
  0x0;
  0x0;
  0x0;
  0x0;
  0x0;
  0x0;
  0x0;
  0x89d2a000000000000000;
  0x0;
  0x0;
  0x2274aa0e86b3093dbe7049113dc1cd95d9;
  0x51866664e9fe18e1b03c8050780f63f16c87f97329d6e7a0e306aebab0;
  0x1;
  0x110270a95d48ad55892e209ca2dd8a92931fc8077a5649a85dcbda955e0d;
  0xddad72a80a882e6b411754d6fc6ed82c1a6830243556f6a1075bffc906d;
  0x6c12fd50a9f239fd3f3786fa8909baae5f51b7a25f44c867a292d4f46a;
  0xd11bf29789396b6488d7722940d30dd1c7bc13d6972c495046871246f64;
  0xeb9f08a7d9353423b0b633db06e1909fd07dd2ae3397969e140370b7405;
  0xe5c3cb56b8fa0f9ad7183a2c4b7083928bbe87aa5e18ed6e900794c5799;
  0x1;
  0xc6c8f2fe4396b767d41e54c29d27c04539a47edd0919a362908b4964d3;
  0x0;
  0x1540ba8aedca149dfbc196019fc2bfd5577a131ff48053123607718c198e;
  0x1;
  0x2e57fb415de528bb6822eafcedcabde9528bcf1ffd4b376d668fc041e6;
  0x0;
  0x444c4ef2ac4f86370e115323b642850d0de916af3086c94ceb2fdb077e;
  0x1;
  0x59deb9e6743fc2a659a767f2610810abc8b6ed025e7097a447a790ab6c2;
  0x1c5747cf0ba34986cdb4e7bd98abcec82748e0933bb34e141e9d75abed74;
  0x0;
  0x18fa7a9c7d7adb1cc77b3dfb1248cc82e8e8ad29c3838ea0d57b8f80d065;
  0x664d2e0f2fd5294945fb96b5dcf3baad2676bbaafa71ee0137adb72b27;
  0x1;
  0x75027a31e4d1262b114a2d3298fbe8163686f53271440976417bf95371d;
  0x190119c74ab09646ee412cf6c1933ae35034951a461f7a6dde409551fb3;
  0x0;
  0xe6eb10d28e6775f8cfd552c6926ded8de28d2812940e8f830b11c99805e;
  0x1;
  0x13144f1b27b247f51db753b6dd478e7ec0c50396211818922990e3c5f17e;
  0x0;
  0x119919afbc07377b3a204a0b5e64ba6357b712893fbff2dc1356925d53;
  0x1;
  0x1bc79b52b7ebd492c0041d484d492eb718d761d372f26bf67b957103157c;
  0x1;
  0xe3cf6ac06be571ed4cd15ae96844bf63fcff61f04fafd4dc679df6dd8c0;
  0x1;
  0x710f675f4431eb2bb1f2e88b29668b347759808249c65657e1b09e35407;
  0x0;
  0x3c37a296c5c2ccae6c1b2ce26e958d218f1e8a46554d496596c8a5297cd;
  0x0;
  0x1b0121442cb32fe8467b7961a6ba6f51b47d2f19cd37c835210096615fdf;
  0x1461a9bf333c5c1fd5631695a7a57f5dfd3445bd2759b6cb96395c5f5df4;
  0x1;
  0x78d0fcd3afaff057ab302d7bc53d19639bf3faaf69fba15964154a3e426;
  0x1;
  0xa6abe2c2b6aec8bcb04a35195b2b3ef5afde6a064d298f103d8205166b0;
  0x2b52540effe0e661621920649accebfd909394cfaee8e814f06aef2764;
  0xb89d6fc9a9dfade90c6ea9736efe899c04a55c4a00ff48386b608258bc7;
  0x1;
  0x4b2c156395da3b42ac4ca62ca7ec1f110b1779da3a99405eb470ef554d8;
  0x0;
  0x7973b23e2c46a037f8bb25c5ab1bb517ed85b8ba96e6dda6894721f42;
  0x1;
  0xf3bd628116d05342fb900ecaca6d3a7e2c2a0e455f9700c420e96119f;
  0x1;
  0x67a2eb48a83943504cd7280241ff8c6ca78e49f707ca3935411d279ff3;
  0x20d88debaad7c52225f33908bd1beb31b62856d31c9bc03f95b67e1100d;
  0x120928cd6684c3cb61d5d496c72e5e94c94156eb109a45b71519d0ef87b2;
  0xfe7ae96fdeebda623bcae3d6a1222a6a8c745c8e3d8e3358f12e4e09e32;
  0x14b69108469ed3c1b6f55430e2547573d44918140199ea61be2deb248775;
  0x158b9b61d916c1450daa7048f5973b756215ff201f38eaff9c6b55482c30;
  0x1e847c77f3507a8e8fa36bca5ce16db9f4286399c22b2483bcc4cad2ec;
  0x2526ea64f905d8c11706c9809780e042caead8c573f2cf6881e0f4f0ae;
  0xd1953cb94e3e8ab9cd48e2d12e0f57ed50f6d16764224d378fb84109a;
  0x0;
  0xf1e76ec030ea1f983e13279dc82d7bd35bd2baea2f2719ca17376116858;
  0x0;
  0xf4b5bf852969fa6c958b94c022c35a697b19ea7d27ffa0c0af9d3a78ca;
  0x4e210f6539253d4068ff5fbae3e86c02aa2d555409e1e38b99b399c169;
  0x1;
  0x12ed409360d38f83c0ca879088ef9cb0aa9682787995bb0841557e7d75d;
  0x0;
  0x11042ef5deca645f26ad0f61d6641d3ab5fc3b6a82484c5d064eec57a5b7;
  0x0;
  0x501d33171f750976720d6eb314cd09083a4da7984352cbb27dd01a8aad9;
  0xfdca1bc29bac07ad780f817e487b57cc414bef09e7f1bd7489d6b844d89;
  0xd3a89416b20d1ac4934b461618f2bac32c9c6bf4f4592c6da60fc0eb57b;
  0x4da8038443e179f0f14d6797dfddb70a34c3a2b27dea3304d7245e79ae3;
  0x1;
  0x190a17a3dd12eb5d82ca9a9616219a7a50832d6f8ac468414aab74b689;
  0x0;
  0xe85282a04fb73be2b1b045fbc74c4ef5635cb404fdd31bdd42f09b89a5f;
  0x75c2fd756c67f437fb86320b85eaf4c91fde9dc1c16c14c6b20c3585a10;
  0xf4070b4ee8bb5697d87d4bd7049fe249ceb4a8a95521db991a1c30e77a6;
  0xdaa76fd238ff38b088d122671a6c526047c08da23f66b444a72e3a37ae5;
  0x15ae96fabcf203acc20e7caf62cd1946a9ec80cc036a91300cd0cae7f53d;
  0x2a431aad6d20a47660e745ac6cf82629ebb0d5f6636bef4a03960eb504c;
  0x734f64ee085a08c870ea6e5f025b20ad6af974066f464a1575a4450243f;
  0x1;
  0x187118b234c45399fac97e29b9b5b665042d0fa4969a5795ac7252428797;
  0x1;
  0x15c57006b8b7be948c795caa1926a540d149b22bf14665f60c9b35466abe;
  0x0;
  0x2a7521e1b12903546fddabdb5f9324ddf3425a121fadfe3b85b30655dd1;
  0x0;
  0x127d68f5441b690e0ac6d0d3855a07f1862a48f996e7bccd7ef8ad48ac18;
  0x0;
  0x18db4d7169e6f5173202bd98a0cec74a789a9501c5aed0cdeaf40994153e;
  0x1;
  0xa8df27aa7d6d1edb63207d69a01e17a69edd5454f46ae5ee1bd72158b76;
  0x0;
  0xacf18ad1f762d0bc5224b5d1fea20db32c55fc1528770cc1abdc08210cb;
  0x1ad4139a8c0c39b0bfec85e2358dacf5710833d136af98fdc799bb4b7026;
  0x516e73e8fbb271dcbb3c542363b65d5d4b21fccbe883d7d10b25cfe3987;
  0x10104efe001f47255701e77044909705b922929ea14305a5081f95bc6b48;
  0x4b5ed0c5f87e8619e300aeffe32236229c3541badc2e938c9f2242102d;
  0x201b49ed1edc1b9023fa53830c6c9d10e0d709843001c60573441707535;
  0x90b0f14305443b60fa05f285c7abbd4a108031c8166aa5421eaef9c4ded;
  0x118c2708034b78e1717b325cf6304c737b2129c7ccb9a8249f41b54bca0b;
  0x1;
  0xf2d3305f823aea24b16b92969cb75ea86b06ed5130cfc5769c9596f5cf7;
  0x0;
  0x17a7230b1b584f25a640a4fbe72efd8264dfcab3744fa57c1f1cd46ba3c3;
  0x0;
  0x1080fd76e31a437a68995e79c402fdaff88e60bef3edae9cdf9a30fd3eef;
  0x1;
  0x1c41844de86974dd8717239102a245a67f5b13614db104cf3d6f3a96e95;
  0x1;
  0xf88cde7d312db9f224affcc424020dc06775d0bcc24e5eaea5a9a2b398e;
  0x1;
  0x3dc69ab72aae28d72be21883b735488b7cf16f5242f33f15590e21d539b;
  0x0;
  0xf43157204f16105ddfbf047dcf02cc430c433ed43e5d840b5974f057343;
  0xa3d637c03ea08afa9c7cdcc05bb84f5b5b9d804cb7f547a57aa10d3ffa5;
  0x0;
  0x13bb28401644093dbbee2212d0251aeb7288220277b2993558d508e17e45;
  0x5ad716fb05d8bfa0be9bd7177704c15e204b12a10bd7f33fc855547756;
  0x0;
  0x343b887484af52d49c812b6882eb68752f363ba64e6679e488ba690033e;
  0x1b7568bf7db0f274dac7f3deebc6b177e9df7ec259f2dff8340ecfe83114;
  0x18e150d15f78f768f1bab31b155198460f6aadf32a13e969660fe61e39b;
  0x1;
  0x391df907f03959bebf8ed33342450ed0b24947d106745f534705e2b8f70;
  0x1;
  0xce5b1984c6ed934a31400c08e0d3dd007940bb019ccb646e932c2d016a2;
  0x2d0e1651e8ad8be09844c1d5dec1a47672d1f51c98200b15c80c9c7442;
  0x2681c5475329f619e43bab9798aa2e37b98d8e69008725ad37d7cd8fde1;
  0x0;
  0xa82e71277fef0c32184398ff6e3d623e8733fc2c9d25147a246927d5577;
  0x1;
  0x4cb16423f3426ab195490340562cd5994bd0ccc3743e06aa9ebe6b67d18;
  0x0;
  0x1d971e51beede5c17d48d657289c39e0e6ef1903df133f3cb1506248c7f3;
  0x1;
  0x9c8cd5623b25678a143e303b1511e790e4bf512f0d4c4632fd5957c75;
  0x0;
  0xd293642324d1abfbb9c19264c07f7f597f67627d119e5b959c61dad91a5;
  0x43286027282599892adc67a6a35eccf46500b51329276e0a87622f71913;
  0x1;
  0xab49300873a0e3c0c9aeb9c2cc715cecb278e2c0e2cfe88cee8a3c6d56;
  0xe1fae080c7cc7b0f90f2593aa30b03777184dd1d4f444a750224a3b34da;
  0x1;
  0x1d4a9c66ed1bfc3cf4fa372a7e1306712ff318eb2840053e12cd86596f15;
  0x1fd58e0a7fd6c26f42bf22950ab0f57f3f9c755bc850e654ad8b59733dd;
  0x3063dca866702ef0fe8a336150019c1117a50a331eee700298a3206ad04;
  0xee15bb1f2834df1af31cff9b14391bc2969c6c9785357e7bd902dc9df26;
  0x4fc5792283dccef3286a3f2f110d6de3644d51d673e2f28d2ca2f26fbf8;
  0x9944795939d6a8f23d4929d3bc1b2df7c6d9ade9e61438f944170cb92b3;
  0x54fb994590e988b1e987514ed898d002d69aa9eb2c6a8b4be39c94ab294;
  0xe922fd43e94b30990a539a037cbaf5465d5005b04ecebc6b5267df3d878;
  0x16ed92e0bfdcdd8e8a5576082240a8009186ac1252fec649594f39a0a7c;
  0x1185da22477e8c086c83f0ca83c8aa979a29f60bb48b2248fdd4801a4de2;
  0x9fd5b490b88f17c063300a7cd3c8abd343d055b82deed1f3fe69e25fc66;
  0x653216f683bc41cc76f3f0aad8cbae19dc6438eae26fc3e37a7d0413ca5;
  0x5eb8c9ebd7c60a053636aa3c021a88f4c34adfb8dc3a7e6ce9716949d5;
  0x4577b664974248a1c7f8b6a244ee5c7ad7d129e47c761c0ad05d0a9caf7;
  0x2ecf262ca8b074ad28f7d4e85fe13694a25468bc2c21a9af73b0e7cec56;
  0x79c79acdc0cfaba0e17fa7d6fa575cbb7ad5419286500fc531cf8bd3aa9;
  0x6e70edc85db1564b695da7ee780c4a03d499ea68f33f64ba7a281f1c279;
  0x11da57ea58b955e00c16a6253747ff327dd7938acd3f0f40ad97e7a5d9b;
  0xe2afe09df7f6349427f4db0e436d6af4b79db04444424f49c8a9e04b96a;
  0x257e8fb5dde1804b8f583270302a82b791279de59eb5c80aa7f755d2473;
  0x28a7c7aa0403c44e9070e1afef23f7b0035eb0322b527be67e490373e7b;
  0x5e84f5cdccfe65bed717999f8283740f73c26ac39454fa5d748f58d128f;
  0x58025aeb18f0d422ea0aab04241439e02e91ffacf9467ac87b74769b306;
  0x16052bb824e36e59f11547254c68107e68fed483026ea789bebbd7b5f73c;
  0x6b1bf965b5a535ca28a27c488f98261ac499954a247327bb3e7d8808439;
  0x9fa8007cc44a0d292c9353eb45b28a5beeb1192e22df83f3512356e1ea;
  0x4fe7edf8fb4f4a460f72fdb9f6fd7aba6992f2ca0d9169e0e887fb2df14;
  0x1703e3c4ea99cb25dc35892b957279354beb7c34ff0a2de2c7b8b0dc75f4;
  0x52d83b3e75199a83bf8bb47dae92818fb319968f069d68b657cc6934284;
  0x158258d9c9cb95cd2e3ddcbb9d6263d551fee6cfe8cf25f6f23592f10ea;
  0x2f58246dea4a487c2495c84bbb81dcb26ececfac9f123e43f8d9e92d5df;
  0x4239802bd3f2fb03ff6e1de4ad33117ffe19a5bd0ca30088a665f04;
  0x34e85abdc54ce8b3899646e1c4fad9abed9301a4c176be1ce033faa2d5d;
  0x2df12ea94d1aafb37a9cf1b043af4bb9d462810874e54072c00b1848137;
  0xbf8e4b7a68df7e1b16330b8c96693fda247057e72879835094fde749ab;
  0x541f5cee8144d50d48c40fa2af0f25656603694b00ac805ab0ab3b37fb;
  0x2324cf9a951399912f643c85b5cb8a40c409573500fee62131f834c4ff5;
  0x1c5727f39eeba1a1ab424ae930f72269d2e6f21ea731ef9af72cad6ec004;
  0x562064f0046bb0662251e60495b375ad91774157f81b9569c0c9f4614c3;
  0x4ec56ae48b4e9200b8c011f30981eac5a06e5383e6532aaffded8d1d08;
  0x3a1bcd66e46eb14b7a1a3ad12e08048728ac4a86aeb37e7770bee3fb45;
  0x3cfe9de87fe81f8358f561d4e6c894cfd35e13e4dfa8daad67cc8c2ef83;
  0x56faecab73161f45a51287ba76f47b9e60c736b35bb3de19f904481b949;
  0x11832457a3979035dda4d4124bf657440e881ed83af61ca57f3c9677d94e;
  0x4116b9f90999b29d4d08c22d994f96e19ebaf8d87b1f0e4c32e9e107ec5;
  0x65ac1cae4b2e4e857fa090b1735edea70ccd3f7b6d7b409577a4dc87f39;
  0x123fd693f2dd3450ae5211a522a8878022a75243a852d7e0333200a0b82e;
  0x62ee20af5ca9109957d1405de2e6e3cff1fc44d46406ecba97f45f63af3;
  0x96919ceec59662e4c365fc4f6127ab5eef1c58fe5fefd95d579911db5de;
  0x1a9b43b172717834f07064969e17921877f5ceb749a03a839865c4c6f241;
  0x30b8a6cba9ed928dead51f0375af02ff3a07d726165912a5c353ccf7bda;
  0x2e73c2d0a9d197f0bc9175f7304521b11d450b8d5bccfbb62b8edaad1db;
  0xe0b589cf35959db2476e710de2205929da8535cbe8d4d81baac8af24f05;
  0xc134bc91d6019cb92bcb13cfd0e48dfa21781baa319bec8994933d3cd8f;
  0x3125ac99c20dfcdcc4edeef5ed12d65f5f5e3d4f3ed0c53c0cc1b20f906;
  0x7fc2a4a92ae91bddc0bb4c2c5f8ac557c4b52a53e28f055477f7e836a35;
  0x2ef0f9d65acf5508f7a717c1f000524c487c90d511f6ea4ead06dda86ad;
  0x5f5aaf0d050ec6255469e072ed6598de9282667258cc58ecba63811fb05;
  0x670ae5e097ee49795d1fbf2a2488e99479dacc94bc3e346f26a9cdbe8de;
  0x14b140c29393a5dd9e24de152c8c20afc275ebb93b8e0ae7fc783fb662dc;
  0x23d6e0cc61e1a3288a1fbe133a6bd4e88e7c7ded4cb06967a2258bfbb43;
  0xa64151bbfbe96f745e5c4084b6d39180e0548c8f9635f0d52c1f4f389d0;
  0x161a97ac689f0ac19e5562aff5a8e6b9aa62a9ca7abbb23832dcfdc4c68;
  0x175c702549029aa04485292eab5ae68dfb2e93f6e099da2ee96875ca622f;
  0x57cf9da6cbf771ff4150ff061b30923489f3b35829aa8eca063c6f5e2f5;
  0x3715a8678142d271def9c2524c9ff4d56a9c21b7992be70e6ff1091a3bc;
  0x4276b94d8f0f6eacea5c816a377f2ef92f33904e0f10953ed1285b8917e;
  0x5545b6f6df6a3aa145e78006ab1dfcb8d322f7e241a5ea11b287a95c976;
  0x6c45534b5c022dc8265ec583519d97a667edba197d90e51f44e16e6ec85;
  0xaf239121fceca686669f77bf4c44bdcecd37e11ca6e3c28c666f30ad600;
  0xf3e71cb23c5f49a78c7b3c955b1491b950fdb3242ea987cf89e80cc;
  0x8556a94573ea2a3382e65afc800a0e3c3dacde2690b6290d0305ee6f81e;
  0x48f7e450a339e569d46323bd843ed9523d4379b5cf24f9aba192fd63f3;
  0x32b03733281c637de399c3a46ae013680d695b93b34ad902c1a31d7c92b;
  0x7a6cd9fe24413a2cb3ebd0fe2e1ead9c333c891568a194cd839eaf13dd3;
  0xbf1902f9f38146d689816e48564c69b68bcd201c0f9a61ef29603ba28c;
  0x2814377c8807a54a959c7042b7915966dec4a5317569e9e0c9c7d60b25;
  0x28511d95b4cf2e31c174526d997fee9d8e5e1fe21ebdd969a2afec95e83;
  0x388674b6c08ce513b68fc55114bd38083a45f8eaa6dbb54cd07dc8c9f5b;
  0x1b674bc721bf69a150bd9a5f3edb69e6bb6248d4fdd17471dd65d7bac96b;
  0x209500f397594a47ad6e772e6b6080a09ffe188c0a02f68ef8f0aead23;
  0xb8201816725e0289c80de090ff577f08fc9a17f63d1797475ebf492f8ad;
  0x230481673d210b59e481cc61908fdde4d9df8bba0b25fc9dc2b74050a19;
  0x12c6622fcc4f1ae72e332b639aaaadeb8c96b71c5bcc00708bc720d5765d;
  0x18e341bcfe6a7740b34808e7e29da7d33f9ea29decb6c0ca600ff621fa;
  0x81854e18d146ad3d5d4724544482a39fe3c82758273eb2a52b5dff6dad;
  0x406844a8739bcca4ac288bc6c9e9236cce7b102acf8f17fefb59923c26f;
  0xc1473013ab1cf9b13496a1358e1209e76d56a77e2ba9e616bae4adfca4e;
  0xf718d83031ec74d6eee4ff7753db1e8943fea1ac5d0e737d5c94243c85d;
  0xc678e7a6b053c35471fbeb03de4f972e3c3fa098508101be9aa168a6512;
  0x4dd8b911bb16096947f7f00520af04403e1101a8fbfe50c3d4b356347cd;
  0x1241f957ed2f71306e76865a16d7b27e65911474c35a6d528f772de30c8d;
  0x6f036678fb62600276f54b29b85d0791166f601a11fb1368f49cb384811;
  0x4aebddecb6baa78aa0b7faae95e6c7ab4031c7ba5d9838f8a8622501ebc;
  0x16548f5fa3d6897bf09bbd5c0854124ce8f6a9e95d0eee12caa2ad4e9a75;
  0xfb98c1c58f644b1566a3434d581257d74b1f4e61288643f9809c9581f7;
  0x86162d41f58b6292ca1d9b2c9acfc3e8fb845cc463be9f659f7829d069e;
  0x8801ba7e18dbef6981272a481a519bde9a46576c7229fba3358763eaf;
  0x5020167779672ddff87d0bbccfc71b2388108fb41b19808c0646e398b2b;
  0x76d029609f76f56207bfc640a92c851b8db352bac17636668d61975c22;
  0x3995bfaac329aadc7ee5acae2d6f150a719ff170acb904e38978e48c71f;
  0xcb850b5072d8a569e79e409c17f344e72a3453d86c5ee7f21a9877165d6;
  0x1c0b86b42cd12f35f97ffbe48ff3f5b183f27f2a46f5af4f30be6dbd70ec;
  0x18008bd8878d3cd26e2d2d105149bed84309bf1e1366c8ec0945c668775;
  0x123c50014f23b80d99d3ce4745049ae8015dc197603133eb3fb2bf16d31a;
  0x2664329f11e68d368e47e863323b992433d4fa52bd28b06c16e75c8d69e;
  0x656d5c8f266e75405f469b3394edfce31772d7c227d15828b3da3a49bd2;
  0xc40449259410f3e0f436a259abd57e3b2de8c52a08476f8d59b10ff6261;
  0x5e0bf2fa26866f4ef69e2b846bd32bd3853cf34c7e333621f6c9210b91a;
  0x703a795446860dd58d1c4a11d5ec95b5133402b96da339174b8bb18b714;
  0x51b3f8d4cfa9a7c55bd4dc27a1ee335b1219466d3416eeafae740d84bff;
  0xa64fbd3a0f613df441afd09d17fa89fcebb258589c23a6ce2b89f81c424;
  0x10b12d9cfe47b3484fd482accf12390244b341d79710ee67359062b43351;
  0x4e2f49cb20c113f46adf4bd4b24f7c2d6edd9d6d09770417eaf7ac5471c;
  0x4b33ef2605427d3c7a1d384dce735c55ec145cb773c1c54ed576bea028d;
  0x6dfc243baa88ba125f6b44e4baf586c6f8afc65a9e011667ef1d764e9d;
  0x4293cbf7e5a48fbfba9fdc94ef7a5b58531f90ee1e02ad70f8a31049396;
  0x9ce77c9f00f54cf83afd6aa17f4c6fc02fd2ff366a6a9e336e7b040174;
  0xc0944aa1dd1dab2cea6d945f0bd36b97d8659f3c85c744437cf2555b223;
  0x276b788fb11246e130087fac929d1a35e9852d0e66695b2176ef8d6a07f;
  0x77c39b4bf94402ffd274e97b71b77a19eda9b1b755a6f5afdfec97429f7;
  0x12f9dd41f2416d1fa7727c5441b629228a2b97ae9eb9410404aec04045c;
  0xd3a15f075deac0e17c6d3b16096d5c2c945a9f4a316a422065beaaa5334;
  0xbaf846c9bfc18ccb0037c01766b82497b111e95d6a071686d0274c32725;
  0x1873201e1c9b7256cbc4ec10e4674637041e0be85bc3fcebd090248c7ca5;
  0x485dfec6bccd6bac54e2ae363ee90b2e07cb3cff8531d90b3b5882dfa8;
  0x2bbeeab705e27ba5f897de5876247e56776984193eeb6fe3e83088a2973;
  0x2049df328f0ddd918661fc5054045471c4d1929c6ffc173a1c05ec6670d;
  0xfc5e64798f114d87cd41a392263525fdd706cdcac46a9c7f7e2b6092eb;
  0x196ad15277d737da0363294f0894628bb657d2123c2d3fe2ad92661717d0;
  0x1bb596d6aa29cb4c1df05b8adc27eede5787b4d4a4c1906fe12e48b596b2;
  0x402a217e29efa44614f2934a84fb2a59631845ccf35be491c1bad65b11a;
  0x332e5587ec1b73f3b9af188260c50d9335e1e347862503cf4c034e4eb39;
  0x1266d6b35d857e102618bfdaa38bcf2ae48f24f340bab116c2ebb9764346;
  0x2c42de32a726e32a2a42683212c6422c2d949933ad9cb2ca4fa2c3c7a2f;
  0x6077a8375c92af886a68ea6946d3be51db11a8c1f6da0b21b9e460bb7;
  0x65b5f56c2b04a08add3bcbcf1a4ec387c0cbd7f520f9754d7e5ea9481f;
  0x11b10b5fcccc25340a79dda4d8db7e325cab1d1ab5d210b216be54d16f8f;
  0x5b07c7724f058f0ea6fcaa0b958b498b9b53eec8212dafd282b47a973a;
  0xf911e04d0c0fb87111f4d77e50136e5c6608cbd91e2ba4b7b7c97b35a;
  0x1b68c9b2116e583acfbab1b2eaf1944b55d1cd390ea7ad6d056a219740db;
  0xecb2492b38cac5bcf9cf2559f49a82098edf74a440204a3ece4c628ee4;
  0x984e180b6757b092375b9c5cea7ea9600db1cf5786810b380beaa41ae6a;
  0x614980567578a5247bbe17d1cc31b704c019a4f84f9fc977a361528ada2;
  0xacaec6408310da67015b17de1e5454667e7a33fde00acd541602907703b;
  0x3feebfd079e88c221f78894486f1be5390883d52686d39e2a08e5cfb62d;
  0x1bc19c971cbb483678aa36eae76f48c40fc98a810cc7fbff32c75f956a1e;
  0x694de0bd504c32141f8edc8387dc06109041f452e5dd7dcc8caaaa6c8db;
  0x12abc1641487b071c907cf48189cdafc03278fb24471327043ca2b0584c;
  0x4e2c77a9b3dbb633dab0dced706fb57fab541218b32218b2adcddcadb06;
  0x13d3e297d854fc08466d08bc219075215fa5e55f5d41e5473b9f4ef51586;
  0x79b7cac616f8be2496d952cdcea025d74484e146002da96a2aa91539bb0;
  0x14d7cbeaba1edb3f64f383f286dac7f0c912132a7fc21274ff0da225db6e;
  0x2182e49956d8969dd530a5d0865ca37afa9f6ae94eb157a0cb8b7f8a9c4;
  0xbb4a91b52af984e488c66e4f32cacd45c777f49ab81cb499fc1fed80f1e;
  0xa521b7923f2a2de4821a68f6d2b9d64ec425108c399e3da8e566010a69;
  0xcc8a8d519dcc3ef55d7774fdafa2efe72c17595c58c6d410b5026578617;
  0x5edf2ac7adc93a519847af29c058f2c2d6fc620507a6d131ea96fd1925a;
  0x2b6ff5625174b4f5e72d4abfdfd09ffbafc24e86bc07be955e0ff2e088;
  0x20c99ea835e69d8a7fd450a864e0d493993802f45b79cb257b5d59f71fa;
  0x21cf2168680901a56941a33efc955dd65e057e3f771c9625f6e492b2cc5;
  0x4b2c11b94b9a8f3bd3fa50d1f3bddae39c8d20983b2a589ec9f9e1c1b69;
  0x824ad453ca09ab140324d13b9542494f89e0fde97ab4041915a484a8080;
  0x153629e5583d6f1ed9637bcff3c84217496cbac70aabedf26396f578291b;
  0x43892c1795cd9c2a68171486db5dafa089e5bddd4b9a1a834a64ec2eb3b;
  0x6a42d551ca5abf924fb1b68cb5da4b6d38535e6aaf601aa0494ccc1ba6e;
  0x1ab9124035e15c09933c773c4f14d22716a370841d3f3ba9c283d82a675f;
  0x385b9e1be303de5f436b7d54a86d0f919ad69263ab71eecbf6cb685f1bf;
  0x8183ac1ca3b5dc8b9a1c6f439440aae8f077bbd8f9e66fd17de377151cb;
  0x2aadae943849ed2cc9029caba113ffffc7518e96f330a193a5e0f9ade96;
  0xdf80f147cc932a8cd7ab8275dcd620318774a1321011c42061cdb51fc0f;
  0x84ce650c2545c5486005a61d0ac5dc4dc6603beea0a22c3aabe638be706;
  0x1725e5d4a92567845243d0b930c3a8d9af657b47f049904998a4ac46da3d;
  0x618ab5a7a120114f539995a0c40bc32e1674ed4f244c54608313e637e70;
  0x270c2acd3217bd58bd2ce5597465aeb8cb4509ac4598bfa1171d282134;
  0xae54c5aa521d19e6b62d4507326fc6c9cfc83900090fbfa1ee441214397;
  0x575aa897f92aab194dab8878d70a5b4a2be5cbc1f2c17d4773fb2ba83bd;
  0x19d2342414327fac3f60aaaf7a1e0ed79b70a39cfa0f8026a0bed1b4afc8;
  0x77d9f5a77debb93efdd320304cbf8ce3b328ce5fb67310358f44ca28317;
  0x201e584abd3223f2c3236f3130fb65d52fc1e2cf3ca75f9022d2ddbe021;
  0x6c8047394fe7844bbbf834866cefafdb9953fc921114694aed8d32e6b0c;
  0x6ce2837289ada071c75d67e5a5ecc16a5d0de4099a8976a0b6bc5260395;
  0x3ee4b0d24630537993d868aa7a97d8e84ac423fa68702cd759e714d9033;
  0x12eea5ccddc380ca6ce430d20c664ee571a9fabbba420441fa3286591cdc;
  0x250435fc2ffbfdd6b9283c70606a13de0d45d4adc8fa15ab81a61b4907e;
  0x3354ecfe776edf8081d20fe7111c326ed1de72c8605a91c4ef9bbfa0e71].
Definition qs_secp_p_0 : list Z := [
  0x0;
  0x0;
  0x0;
  0x0;
  0x0;
  0x0;
  0x0;
  0x0;
  0x0;
  0x40000;
  0x0;
  0x0;
  0x0;
  0x0;
  0x100001e880197d1a828ce22b9a8fb89a38868b5d;
  0x1;
  0xa518394b870494dfcc16772b86f107b16ce9f20941c6db46a07a0ca29a54cc1a;
  0xff31e233d71f1785815438131bb37755fbae5618ba535580721b6b284fd9bd95;
  0xafdfc4ec1f072ede1a612e84c8c50009ff4a4ede0b5addaa1efbde5f01975886;
  0x1;
  0x1ca31ed71ef6f603435d1c608fa1ef4225118e628760fee05f78c48128120049;
  0x4f41ac3674d33b1bb08e6a03d8457f58137803c97bc13f882cfaea86ad44dc3;
  0x1;
  0x2b3be701a81bd31c49e50b6fb4da2a5b7390725ed52f84a64d534f2a9ffe7d7e;
  0xb7b1b1a3b7ac4e70288299bf19881612e6b11c27b795c9b1c6efb2abd28b7f2f;
  0x0;
  0x2b95706e0b742cfea2e356c1004983ba2b09fbb4a4c701ef1bfd7b2ff257d10;
  0x115640679643239c2cbc495100608aff2875ee9b9186973c499ff0eadd9e195f;
  0x303d8617b1bf77338660ef4e6c4f55348d32619ef569fd4c7d093e56353d01a2;
  0x1e5f56f58f8a478fd888359961d5ebcce7ce54cb6edfa05e2f7867d7fa4f3089;
  0x208ede98a79d62288daa50c9f78a4af1cfddeae3ac34b8558db98f626efe8725;
  0x1ec3b13ce402afeadb826303c6ba827261fa5a48267512f570df33b1403d450c;
  0x985ff30479377c2a72b108c0478863dfc6f262f08c573832a44237787556b151;
  0x826a306a02cfd9fde2c4ccfd572c5b50e788e8c5997f879628b867b3f0e9dfe;
  0x3e68017ad2ce03391560a6ef9d56b5fbc68d3d958ca00a17c13554b9cf51c;
  0x240a4af8b8b085d31a29c8272b08e725c4d5bc595a302779ebe5c85a5c9e1f65;
  0x315b859b7ac6e414393ca5d91450d3ef0c6822af95f44f903fb4593abce95517;
  0xda81bf12551e2b19dcaadf37ce40aed8edeb5da18d6b6aa1fcc5449d6541cff;
  0x3e6fdba94292b3699faa7c7b20d602c4450319b9d13b99d663fc2db002acda64;
  0xddbebf2d23762f9a89ac736453de8a016313219f6efc137905e2213466eee576;
  0x23eec64af07dc1027eb65ca48a871efad41295ac155871ddd2212fa1777e8198;
  0x5210af34a946c11b77aff416155174445cecaa82574aab8e2adb52f823962a12;
  0x3fd9704c18e322bcae881fe09aea466a2301608156225090eae1acb69f685978;
  0x163702795854588380a2f71aa4e898b7d8d9f0972f303cf68ff5861d738c24d7;
  0x196d642eb47d749f1bd81de55dea041201c90349302fda45cc2d1d238d2925;
  0x4ddb650031417293aa1a2a829c1d0c3f4d71c65c6f8a711a2caf93ff1b68c9a2;
  0x2245a0efca3fa1f3c27f2a69a9af9d9c88604ed35086a6be119e0bcb3900408d;
  0xc8734a2d82162c44d80d789a6cebe27abbc78468e58895c76eafd2b4f8e45441;
  0x28b94e04716c05b1a1d8217fb7b55c5c70128f25ebbdacf8d39db2b5c96e41b7;
  0x2b8152814d89884ceb2eddc391607b0fcdfd62918299a27df69d58a75e598ea5;
  0x88ca437d69c71e49a1fe9ca27b7c4f6bc7dc9099de715b1202186b4052f9012;
  0x64a2c1495351b55d1f46ae2e4426bbd2653e6183539409fc87db9ece9e1b9a4c;
  0x242515035f5b80194ea98daddca1595d17256232ef6b058dc2c204bcb2570330;
  0x3a925f3a54c4fdb1f41efa43586e873b681938777d3b0c133742cf55e896abc1;
  0xb2a07cbdbb24f8f6dec194fb79ad4be2b6bd5730b0304aa6f97b2d8f663871b4;
  0x3b3a61c378a92bc7ca01cdf4ad37ff3b4c96b81c9f0376ad241ad3462c73253a;
  0x42089b174bc40af89a5b835570ff5438c953151e55249e8e8c83a764888f1f59;
  0xde85a28540fee39a2479283d6f189fab7658bc20654fc691e6196b978fd2a1e8;
  0x13f5cb7498dce99cb118a77a4986d832d0e6ff338a381c3f088d0d3317a07e3f;
  0x9d958105e418bf0a699f7554cdca92957c7a0b72bdeaff767039b8ced4995e62;
  0x702d24869aec3ac344b79467232ddb35984d6cf73d5f1bf2482998812026a461;
  0x3a8088ec4bdec4afbc23351865c09417b4cb779927e54bd452c4825ee7f7eed;
  0x3e4543efe43a0d73d82a1c20031b63579b7f77beea5de1a2c1139d2eda90700;
  0xd37cb164081929c2e9259976349d01bd249938685871e5575bdf749d430caa69;
  0x36450dd5af8f75ac5468657b823101a47172e637e6c5c2f22ac3807b91021ff5;
  0x134d509b1d570a11e52195da44894ed7b0e18d9b186045359d56822123d67c81;
  0x2c2bc4dd0896057e55294ca63aa83824d87869210d83c405cf42facaff20b5a4;
  0x5b7ed03b007ed82e11dd1866eb54e5d2e83a7da428c7213146a6015caeed4e26;
  0x2bc6537afa62717fb9200c9afbdcf2c32acabf52c1cb815bed15719c8fb223a2;
  0xb21d402b8d5e882aebe6b95e8ad4f895fab10435819c7fd8bc342383151388ed;
  0x3ed5cfe62d80b486db4a1af156f62c1864912e1819533e4d76be3f12ae1fbd0a;
  0x38b3e4154691d1f2552ffc1bcfab83b073c7bd0a28f6db7a32c1849fe9e4d25a;
  0x2a0cb017a141501ce99b6271ca760f00d32e9912fee762fe6d72666d366368b9;
  0x2f8c8f64dd2b6980d2e6771c8da8c736307d488f83b1d7ea6ce7d348aefe6269;
  0x1b4f3b2a35ad21016b4c033e8f5e88518981dde03634c38a7cfd3fa45145b6e;
  0x231a82f97a6e1872ca69bf1bcef0287cb729904e60b8c5e734fb0c0957422e;
  0x957a85c78fd7ed522e2e5e2d56078c2887ca9bbbbee432aca662d35d7d21a91f;
  0x2d6405580305a080196a28bf969952a99fd2094232b250ddeb6a642332247811;
  0xd509c4db92ae774fc175d3777db8e0f43fd6d2b829787005e1108b30644a2508;
  0x3325a6d5544796d443ec3bd113709ca7eae3854f0a281dcef4f2f772e5c4564b;
  0xa64c7bac69af6f87957deed088794b131ee61b825b64875f0b2c6864ed71ebe;
  0x562155f8cfeb8c1cdbb7614580e183a2255a8fa6df82a0d0161026745d4095;
  0x3d7cdaab17593ff4a8469f8096e81a837b393e796c8ed09d674e5e9a034b0cac;
  0x37e6507ecaad3860993b6efbeb26c08fd32047ea7550cf0b26a617ef10bc27a6;
  0x1325e44f451bcd0359d15c95ba3fb11c42c468b1990ce762489627cadd2d3140;
  0xb536f4c3102a66033a1a24e638bb4d200e3c83b2092df02c946c7780c8a6729a;
  0xdb8435161e3241473d65efb3ca72f486692a2da307e32adc16309e988a1d41d;
  0x9ecceb2c0c07c77d53ca5603ac2fbb42a55ea0f8b352d86815af6025cd0d2051;
  0x3dabf444d6dc73bcb51959dc4824bffcfd1e82ce2bf96b1cb7c0a264318286ea;
  0xc2baf2e418c16b98d15ef941030e8b1cc095d97048021a0003665cb0dc66866a;
  0x2493072921549c80f84bb65cb3afd8f2dd7713b9f371eb87e5a56fbb8950c84;
  0x24c35ff927b318e096227350dd07a8f6ec30a1022144f66fe43404976f48acf4;
  0x3020bb229c10e7e8e20ca90ddac86985c11d51264e60bbaedfc85b13e77d7d90;
  0x32183ce4ad774657017c1925cae3225826f8e053765555cfb68d14b10c51ef8c;
  0x23f961c8f03ae188470cf9d55a22356104ec58ab4ac67e8edc319ce03b559df;
  0x253cb477dbecc90efd33d7ca4288ec951c9f0dfb737d84d59486b2aa23fff2cb;
  0x32c37680e854d0f96cca6cdeaa8a64d417f8a53b4da5796d5f83692ef746ca50;
  0x529a7b40c8971902c20dda43ce527f25695e5703e57d6f42922941b756e56981;
  0x84c801cab82120faca56ecfbedba755156b3985bfad90d42d3856ea8abf1e218;
  0xa8c5c79107b8007077d7252944aaee19835c3ad8f1f2de7ca30c4636919c481;
  0x789e5aff7309db7cf3e1cde0ccbdc178633f3933b6c0efc929ee7012f0b58655;
  0x687590680f72c143b93b212d2701a037dc2bc597d73738c26f5ef83697bf381;
  0xf2611435e2e4d34ad66d167958da15505fb9d9b5ac498254f343adaa82133529;
  0xc203e7fe348faf59b1cfd3f83504f48e4aaaee88688bf4a1d4e1ff278916118;
  0xfef72cc7c97ef5f695e9e7df95b52a0a3b5e07debd6767b139b732a071fa1bed;
  0xbca2cc1aefd8cea5e812873ab60dcb21d5fbf600e18fed6d94adc5c5660dd2b7;
  0x769e7ebae368119f27542f56ea13796787c5eac79186c553a51e2c11a84d3db4;
  0x63156bf0625ae415e5607895c76b52c15afac9183ce6449b228da901fb3f5f07;
  0x2450cff79854fb15035f98839b6f1a86bfff6b54f353855dc8dd3b92d9e20300;
  0x5dd974eeba1268fa3deaef4cb0c9c8d6113cfde86a79f1a7b0b08749ca8d2b1d;
  0x1db720d9c8d42bcc42d244f394a698e80d1f62a54d15a904fbd7603edbab728c;
  0xa80e4940a9015531008a56404a575d10152c6ad0f804729b82778374de2e44;
  0x5282098f249dc091d726e5f00803b642049832fd992cb82d3098d3e816559e49;
  0x180daa143efb4bac798d7c2162469618530995fbbfce66a3b581d0b473ae4db2;
  0x7ea20d0668db853f7bcd50a7ffb0d7a096979f2332bb751b9e94febaa419545a;
  0x297723fab903a9cac6820ed66a9bd7efc9686b38ebcd9dc5e6a4e2b75977e5c2;
  0x314405b827724f4947b90b5517ea0d90cf422a3847f4be73f4616b4e0ab5401a;
  0x2806400a9e5d54153df57227b118c7bc1e51603c2dfdb3cf7d92c19a53a82d0f;
  0x65744ce1d048609937d003825664530cde92c1d2391f818c869b26e846318df4;
  0x1ab57e299d11998bb4489a810abd9ac18d2eb8ec4ffbb2a536d7a3b2640ca2;
  0xa5678e3c9e6dad108e64b72bf02645484e1ca073181e851d5e2e393dc4af3;
  0x7c367aef5988eb3a24ca686c99a932b9a972cfe83673af20c720a504115119dd;
  0x400a6ae6a737b8925741cdfaab57e0d91dcc5685ccbfca807d87f47067686df1;
  0x5cce1d5c45bdce9288ebfb8f68fbc46bd770224201a3f552d299c29039144ff5;
  0x38090d61de694a5182e02177fdc787112943b2cb71d873da7fc0339f79ef6bcf;
  0x141b67de94fa1a480c83bdd78587d7a8da8c9cbd09ea2c9178ffaab3e7042ae;
  0x44a282d17e40dd4456a85ad535dbabff4a412afb869fead6f1a8343fa47ed55;
  0x11e7777e1d5d2e30f935e1f3d0e17c7c960efd10f7738f41f2d319b44c2e18ec;
  0xbd2b0be3cde3d69085e942e0b5ad69c8026ce12e8159d1574f6e9e4e2292925c;
  0x98f1f09907d4c21f553413a925991b86cc85fd90db359daa317f28b97b86a03e;
  0x1a1952ce64c663f5c351096659950cff91daa20cd98f26fbc16a3b002afcddf3;
  0x1dca13f9acaf6b3e810e57565cdaf5e7ff899900138e55fbd4e6afcb11ffa36d;
  0x743f5aadbb3e4c82ee610cca64d8647c05f7b0fec911b5919d04583c890fa163;
  0x1a816f6139ea66bac6d3c298dd0dea96fedd7fb9f952f7d8940d2f9dc186f5d0;
  0x4b1a8163a55b927c02d9118992aa3ccfa9652deba5a2fe4c729d06c6c35c52fd;
  0xb110c13c91446fe865ec13e72aacee0785c4cc9a9c510654de672a9a59295610;
  0xd65e50e9570a56003765d14b80eed6e367ff12054dca3fba57575e74f01966c1;
  0x21ddbc89a3280617ed9939580e958b8862f61ef293e5f9129affa2a59c8837d5;
  0x141d2d552046e70d5aad9f2f8c10de9dd946089743ba5c28f4e364dcbd21fdc;
  0x4b8817ba382b809624d6a1cffb1995cdb8c51dda3e24bb002ed0a06233c95c16;
  0x5ad37d6c3e27cc9ef1ed65dc6c02d98f7c1e41f700bfbdef3324b5450c428df;
  0x3f97ab85e9cf0c100e6bd815be728eac2ad67df383fba4f5f04fc1f02a497b89;
  0xf720e938283f343931d0aee5bfefc818b768140a7ef35c6c027737ad2e9d2308;
  0xd0c9157dbcf58211498c7ceb1f7eb5c02e073093944407b0f600c81b68d5d5a3;
  0x4c34c8f6e47f9ff6fcd4ec1dea6f3b3be6279763faa49b3518d2d938981dfa6;
  0x1732a7acaec84220fe4a3627a562e83a816c541c3c004e870265bfa8447570c;
  0x1f2fb252b3b6843c06fd5ab186b7cf9095d345e626b03d7acd8e1cd6d8ab6a86;
  0x91641ca7fb2ccdcdd12d9dd62313d39f47041c9bd1fbd9e429b7ceccd02277a1;
  0x33b8c0f8bbdd845f1861e5246b4f464cf31cf499438318468a2d90e6c4133ab5;
  0x168bb54c582b23e8ceec4bbf56c8f43a3ccdfa2e71cac51766b1e617b14935ac;
  0x12231f4abf325cae595b689e2d90c980aba90cec3c5702a8c367afb41b52ddc6;
  0x1b7088ac101615efad71d0f15675c630a3769fb2c5b3725efeeab2f547052a5;
  0x136b1c48513240bec397418f2e9cf9eb3629f173f871b64900c408849d38d58;
  0x3bc40e1ea1986003a702d6c12bc091c87ec19ed080f942c05da0210449eef6de;
  0xe514cb7bded85d4f4cceb09a93c1bbfc6378726bffc5823b2d50b2c34a457157;
  0x364f83d53ec5b8ef2dbad265fbfd6b6601dbef8ff533eca5153cf746ae0ab13a;
  0x199f4b10a27bfa7194ffcdb29d09d065eaabccdec78a25e6291a320e192e5a0e;
  0xa6cdbf27db8c526dd684509e988ee1430c14a2453e758eb3d8f63090dab153c;
  0x7bf172dfc5fea5187b7914545cd1b8954f0844a5ce70630e120fa56841d2c4a5;
  0x311d4ea8bb243bcc6233f2f7fd871336df01b5bfed2545467745beee8db86a3b;
  0xca5d9a60473d8760741204a5f9a0ed6ca9dfc986bf5260e86afbb0550c35fbb2;
  0xb7c6c275d55c904bc63ff5fe50505712e2cf8871b1b9be0920791181f06498c;
  0xa29a06b91956ee189b432b48b8ef8e09fb2c274395f3ea43b6992ebe01347fbb;
  0xe28e7ac3f2f9d30eba620799c942115692f9014272e92a33e2d26949a311d522;
  0x555bb6cf2be36cab8ed6fc064fdab7bd284f7c66499fffebfae3ebd2a7759ab9;
  0x29f14fb62fc0770a9ab69196246518fb29f84a352076da7e7af0ce6c851c1b90;
  0xa45f03ce16412c58f5b0a92b68abd4367021c1db32a01479b02e82eda4874a48;
  0x17699e31c96448a5f78f0a96eb81cdfa6cdfcb1dc662e5611a80e41a584edd;
  0x7f191200ba1b37a3c60a6ed0c13eb6639bf65080c4a9605cc255b57e2de570c;
  0x1baea6f7bcb425160d241a5c9cd9f4783dbcba3767d4c6b54ea7550bf8221421;
  0x4d9d508105c99a669e37df22fe1977aec7cb6216f2050413772ab2913d76e71b;
  0x16fff618264df903daf6105d7496fe904ae27b9432f8635547118be1e136d9d2;
  0x36b6ad714b947a26fcbb068c8035a94514e59f5509790218a7e16a0a939a68;
  0x1b34687bf434154210e33d759e276eb9c9a62407cbfdef69957ebb7e3a399be8;
  0xa9f40f70ebf20dfa3cdb23ba6d08fa1f625f1da3b381a9f3ca543e8bdea5f9a4;
  0x3d3604c6cef4f1a0f323877fd0e439380a629309b5c2bf9dd8b22242d0806ad6;
  0x42b5880e6964102251bce91bcf2f2b3b03be341fc10fec0fe424667f36dcf1b;
  0x28331cfe60d9d0bdeb5ebfe62aa61ac93f98590c447c6c86656f13c09cf9cb45;
  0x6187d6c2a6abf89d710ed088b0b26fb32e75dad77883be9268b37a13e3f0275;
  0x3f4fbe411f9601044318c69df6cb9f0efc3e631f9126af5e10ad7bad5f06a45e;
  0x1e112ce59dedd7e8757859c133376d6770d228b1fec8092ed62017f13d6e1736;
  0x826e0efb5de0154528c3dfb12f181090911e8a8d09836e8818f5a621f2b06ad;
  0x2a57a6d083bb7724f5f06e7615d827198f017af466a9060fb1849222036bf9c8;
  0xebc954390e99e6b7f4fba854d85af4381d3c211b21560bb6fbd889356c96df3;
  0xeaacbc068deea8ffbe0a9a130839b8d777d10d3a417bf645ee6053a7c021bf3b;
  0x324ec4eea5f83d08e99607ea9fe40d878950b57b09f52b0bf24382fc01a950ab;
  0x621d8e2e240c186d56c50b7673ba0fefb6968ccd4bc557a19977386cfae009c;
  0x61b38f76cbb004c7167efcdad94ef599f6aba1abc3e3df6d8ed46e278a416fc0;
  0x1d2d07328d40c8aacc8523a8512ce4b71e4b99624e16aa6c45095f2d495c665a;
  0x359458a73378d144e69c9e1ede2e3536b062cf4e99e0f028704e840eb8631006;
  0x3a4a7f03e491e661b4dfb073f8c3ef897e3ee79a10d133fe23d997ea2a653b8;
  0x4f2bec2195ac058c937f1d1644233a79ba028715331e71e655cc31b4f9472c;
  0x1baad3bbcbbb8b0fbe726dac71c218feeb178ed5c3dc61d8922673815b6712b6;
  0x246ecdf8e3eb7ff9dc56ac34fc309edf849e77604bf939fb4b6dcfd85f137551;
  0x13e972d3826f9921522ac3fcbf7869d919ebb5b1fe75b3345b411bc5422ca892;
  0x115bf57c5688e25a845bb120fdbce0c7960ccec16ff6a9d7714e5bd36e04fff4;
  0xb818b7de540df978d48d74ff78736ef2403302987d8f917a5feb63c2300ef516;
  0x3a649ebb1bbb5cfa589a1abee8ce979003d92211c54306f10fc62031750a977b;
  0x2e235c6fd2890139c753cde5b1908470ddb7e87db11e1923ed7a0e628c834bb7;
  0x134073802a8e6c0afc8afc7c9a20a5228fc47e458088b0df265050e00eacf7e;
  0x19253141a3477ef63f024a5a5766a1c584867f4ca20fde56998871affaafce77;
  0xaf9bd50657dbdd0410f7189b6ff0bd24ba38086388f013e88179e3ad0f03;
  0x880fea18363ae8b219a104363a67cc370d8db0ba3d01fbe0b8bea372ae42f0ed;
  0x17478873d152cfb3c3276c87cb7ee48119dc2ea1004433cf887cdb0a85d6ab16;
  0x33eda2643ac18ce24c3c2a0ac49679bb60895ffd8a1bb0098f1dcd3649b51b9a;
  0x383b43bdab46c3da2a7242d6e5e90894a753337d945764f577d57190609be715;
  0x1f252662252708f91f7fbd8ed467192734b60501408173a6ee6a19371f571728;
  0x234625bfe20d07afaedeb38ea9ec5ae10c425038271a72df99cab4f13f76d94a;
  0x1a4c4afbe1f217be4b92d21ec5c36438c323723cbf34d3bd752a481680c8c54c;
  0x4054fca1b06aa47836b2227f4b3dde51d43d6dab95711a7bbaee81b0fa941b66;
  0xb5c4d8281642704067f06c1df4397b36afda04cd5f21d078b1397333688b4606;
  0x5beabfc49587739ed309b603ed52bc341243af5c3af2bead7aaf223755de1264;
  0x3b321beca0b059e8ccc5e5af1883138243885ce7127d4808a4df2267d65f12fb;
  0x10de244fb7b23c1d17ae0cbb15e6e87fcd15a31b92140a37b80aa5ce01d3b16b;
  0xef7ffe26a0e0bf89397825f07c2958824ba8a58e4706374d005430d1fb941e2b;
  0x963f4af8c5feb567235937d762174260952522046367d6036b3c399e5c3e025;
  0xaf380a90c581db162596579785e9ec6b0090ffdc12a9c04351e6703bf522e55b;
  0x10e7293bceebd4fe152b968007bc7d6df3c9d3eeaa76a4e01ff939ee9e3ec6d7;
  0x5d71d31cf2faa093716a7fc79d09186f801b36b5ac13d62b3b0441f0aa6adf55;
  0x468e0370095a9b19a2bcce5304c11c23bea979e980080ad88c44230a160f73c;
  0x160e03f173cbb61638770330b1480722d0738789e1d17f9b8a1d46e3566f3cd;
  0xefd3f7a7a3b67f2e3b405523f39e8bda93ce6646c3bb4aa8370313a9a79e824f;
  0x372f2a956c226647fdc9fd0d6a7b2a51ef99f8ef482f2dac8021489e6816a732;
  0xc308d843f0d3c873221a425d53ae9fb29ee2246a2f1eca7cce96a8aec246e464;
  0x2ee84f0ce45a23d0f02590d672e3b93aa9bb13bdf6e3f43fb984f4d5b4e0d873;
  0x228553dfe3381e2be139920ab92f6fa14d51b9bdd7edc334a0db3fcf2fb39363;
  0x16de0b83cdef8719e02ebbcad77137fd5496f7a18a5a80b26e030ea05dca95c0;
  0x18ee71fc474af3854e500884295c295bef8f91ee67d2055f4ae00c979381de4f;
  0x175ef7de7291626aa2004ed1c639ccbe5f0954546640d0820bed39b75b5eb6;
  0x2be17c2c81398dad895c07cfa2b95f2f9e42841eb3e45ab829c498f2f0f1bbf1;
  0x8f3c755465804842838381f9375d04e87c44ea02ef98d55d483805ee60fbe61d;
  0x3d3fc15cce9f40df2b87873fefc0fe563abf2e143bbbece9973578baacdce0b7;
  0x1eacb163f45815d6b2b914ad471be3446632f6a36299259dbd2a39147fc2cc01;
  0x25517a8d2af4a3861736aefc4f3e65f26600c2938386d169763c963b8fc835;
  0x6067c416323879688f1116ce4087037c50a153b3ee098e34cb2921ae1862b584;
  0x3ed011a85311b9e82e9a7469fec52a52d6fad0cd93b9579c722a9204d299d390;
  0xd36a1788de82275cc0b1503648a008464411a1a2614fccd8368f7660cf62288e;
  0x12cc7f43dc8577d22e7491de229c77d30e2832e26a8bce6db524902fc70e9f76;
  0xb3091c5606a8f84458acea8a6aa2274bc6265f9dbd1aaeca19f5a50476e8d52e;
  0x1636f733456606e320b502fb57ac54b7069edec10813b79098f3a2fec5fdcd7f;
  0x97c175f60c5fbcfdd3d4ad7a6e1f31eceb503effbc358e0d90d8ccaa18921515;
  0xcf0bf84c60273806e3734264f0db13abecc3295b0b25679efdfeecfd78b7a605;
  0x37807cf0b423e1fd0f85fe91b9c7af6a84e5be13c85b77289cf992516f5e01e6;
  0x1391299f70f86de79dd2d624017c9d43c043d71d6f5f6f699e35a66df706a96a;
  0x3f17f5341d5441698e151d18ddb0c4807bbb7f7bd1bb3440f2ba93f944d7be7a;
  0x2486754827fe320945e011d324806679ae3d9435de61882a630ae99e9149078c;
  0xb2f03b503fa6e9530840d8df8d75e40c436fc32fa1debba3a6c4c80f65496ca0;
  0x839bef1f0863b0d60b98c20d1f24fa228704210f60ea91d52c8d7735a9317d9;
  0x402cc358de392c9a32966d29bc90b7361aed5753fc74af0b29332b6e47424a7;
  0x2bfaab2548f372394729e56865aec40bf4cbedd43458ca215d17aad093ec8dd4;
  0x1d35767d6050fcdfddfd5af4119a650cb8f094412e22dffc1f80bd9dfcb1a3d5;
  0xd11ead0add2868fc190c1cdb1300a8b3ecac4fd44ba8faa06c3e442f2b875ac;
  0x18b66d8b199a3ebda4ad0af74758ec4e83e703b295f20ae04fb26e87fd6dd68a;
  0x9a45a11dd381f4a08c2055854d6ba4efd15898861cb910c643b27b366496549;
  0x9984cd906488940233bda32f17e3b9f6f866ade98ef8c67b313d53d7e382b3f;
  0x77f037e76841c8f4808ef7122ee3069609a59978677421141d785f56c4666310;
  0x3643ab4e0f48e1a5e70545ae2b0329039838985e4f31503fbe7646ac26231d;
  0x5ec8fde93e9fca3849d82c40d5a5be9125c7d863674896f22fbb4459600893aa;
  0xf5ecba7b7fbe3fb7768ccd1d87a98ebc160d4ce34f09982ad86de2195884cbb0;
  0x34651ae5c4fe11f821222d0ea662c134cbc6baede57f576136bf02729223b21e;
  0x5e7d5bc37b4a55ae87cbdece6eb5b686730be1d0dd1b610fbc5cc85489893af3;
  0x32ecf3e1ecf272ab87c5b703bbfeb51e2a173d2c70cbec4e82ec5328f3b07725;
  0x90ae10a957f1d300a51dfddd3df76cbba7c246d6026174e122da7acec98b14c;
  0x18e69c05521a28d1373f8fa13ea45796c6764f57b19b858526ae03a7b07edf73;
  0x32ce2881228c8e2d1849b28a6f5c7f5d3b66ce64868e2d75c4d2181a52ee51b8;
  0x2eed46fb9c61de4d4cd57741a7abd97299774ce89e36a235bb171382c9c53df3;
  0xae8dad302d4ef2bcda86ec3760917221021b3fa20fb1de53c4eebe56e075f0a;
  0x7d1c58c2e34dd92f07f0e01c15a11a7b826335a957bf3458f35a6beb452e0cd9;
  0x53d554a97295c70045c32e892510153b33d12b899f83200e125d1f91ebcd9b2;
  0x43113452c2dbe44f2797d55a8912bfe043b3e79bf34eb5862a4efa4c1030621;
  0xa3379262ad564799592d3ad842f7cfa198493616ae3100abc1491ecdee63da12;
  0x1a1841e1a5ba96eee4f1a99f1e877a875a7726522997468f9c29d1c8fad1959;
  0x373b003444d898683087c490b944eab01c1612e175d1aa777a8a78eb9fbc38cf;
  0xa50f7055e85f9359ecad68cf9836a06fc88f06afb051ba491ecdc214db461108;
  0x302cef4842c0f6808d01c53f42115799791d226d65ac1be0111ed22c839def8;
  0x1ef7c10d95290e2d6897d26e48d4c06d4c73879b3daeefd360a0d7ba62f4b5b3;
  0x30e29f160ff30d3d90ab5c53cc250fbf94d70d52c15c7a1ede15f5e0d7a4fcd0;
  0x252a64236c527b300c366755834a3e40032b6bca5de972e0ba20a0b887af154a;
  0xf8e9882f4b3b2399f08792f0ad49877bac71f36b10eed622084f86315f0ee035;
  0x33e83f736b7e751fd09b9812c2c5b142fb04c398572e821eb0fe3522d733c38f;
  0x193d95157402bc31f6a28834055b5faf0daf652a8e942a7265abcfb723314d04;
  0x388bf696bd3f45b51f946e16e3d68acdaa81957e2bbb0ae6ffdb34d69da8f347;
  0xad684814f9626056bb714166656942ab550434a7ea4e190a360a7773d83a088b;
  0x105858e4911431da7973c0602b0cae28a773dcfa99c3c5526e46610c23bc2bd2;
  0x5108c21e38b215a0d3b4af3d3c7b44895015977f0ad4011105940a67692eba4;
  0xcbfe36705c51cabadc983b53ffc494ca02e086a0c39ea555338f4a3adbee29d;
  0x2bd080c3fe4ab5e5bced9ac0872841b58ba90832542e7da0435937be734477c0;
  0x675f83283033b0d99345a0034f7fd9945f81b097acb6c4842fa3c9b763aac89f;
  0x15678f90540c19e995da559f662a910f1af552a71fe180a7fff108b2e0365a14;
  0xb49ffd7a17bb3db774d07cfe88b0ecdf50aa06e908e54c4da6cd1b82e2fc495;
  0x23892f62f632064efd550a676a13b3f12ccba5aaa56982731ef5f12d1ab6e212;
  0x2eccc046b06c3ed32c212c97d078712ddbfc86a4722c3f8a83be57dd06603953;
  0xdf9aebfc741c39a40f779d90464b90cff558ba73697377eb6f6691ecf900b48;
  0x10c601ed938ac5c5d54ee732f10e26d33142bb7867d05532655df717bc7502ba;
  0x5ebbb49b600d828fe1df732275a7261b584c66f7c1bb2ce8b8d8582fb86670fa;
  0x1b7f0d142fa6d20b6de84b7150e6fd028389634de5d6e49c2643fd5293786145;
  0x2f67644a64532ae2bf22f42afe84565ca536b87e1325bd8c268e7570f2a03083;
  0x9b2af834e586428c29faa0e8bdc70c2cddcb51e0b5ee101b578b00d285bdca;
  0xd294124476fd7041ed6edc5591f9f9102789164c4b877ac96c5245881c8cfbea;
  0x13e643ee58821927b9a475c887e24e2b506af229011ccf95a46d99009e2856e3;
  0x36341ed0ec97fc1bda77df563104f945fa9e1df1209836c72815740064992cec;
  0x45d91485f4acaf9154ae43102a92c76f0c2afaa56c3e7073cc82e3404e8d9f07;
  0xbbd09656c6f7aad09add4076c56b75a8bb83caab58003e495352688f81692cbc;
  0x32a3e6b79338e94342c60d1978b8ac167733afc70db1a55fe588a0f3eb085ad4;
  0xc1e16806318da5cb11d5d83e5d82d1d4aaf0501f8a5191ac60a4adba8eae12a3;
  0x3d45c5c0a0db2e7f7fcf3ae497c93c123e318cb3753134f092e1ac2a502a0206;
  0xb8dacb0beafe46fedfb8020631d9fde184ead903f463c85ad2814c159eb041f7;
  0x8c290d1296e2364f24563e23ab0d933794f1845090e841886a788755a636f7cf;
  0x217ce6313cd97549c33106f62b24cfe562d1e4104d025d5fd340dff685d326b;
  0x3102349cf7e71d48492e8f157b6a4d6c9b3da8a319b0e3fbd13cfde16d7cda84;
  0x189408d88f7c0a4f9a4f735c8504e79c2c3e88090a15b6e012ba817a84aa033;
  0xb241c2156111bb6c94db6c57c253bd09e9f45517ef320e3b5731221d45667ba1;
  0x30f254574166e106feb9ea138cedf5e11908f46e1ebed9a00834a6b5bb686bd;
  0x2a55f4f25b791c974c10a3d5d23e283ef1798f94a0d8d030509cbcad48365046;
  0x213b7b737d8674ae014a6e380c61978beec6be9446ea4acd6b6f46acb98710fd;
  0x3a3fcb209dfd2170400adc622515a97496624e62a44abe4e5772fa904b1d138b;
  0xfcc0421bd798dbc8093db59a1f2128d9b0331e73135f5a6ea21da1f5f8c1fa09;
  0x3bf54fb32346b0f9912b9e974aef241d4181f157a73394b61f78210fa30e800c;
  0x978b7089ca738b79a4818cc2ebf8d5087d73a66478ec0c815c88936dffae1a5;
  0x123756b264be3e4b4f121772514936254fdb76fb2256ccd09b4d58c675697a11;
  0x4770ad6ce8b882ef3741a73ca330b63c0da00416891a995e7626308a52f10f8;
  0x2a7301a7a3a94e5db5c20c2ccaf14ea4b7a8750310d509042d064591e45bed9d;
  0x28b26fc952c275e09714e7168b5ea72218b4a086fc3c94743a48b536f5a1604d;
  0x229b270e3bced68dd4b048e7ac216854eb017cc1af618c3e56d1682ce9424d6c;
  0xea2d9f8b7921b4a791a091e68b70076e58635a904778367e66cd441128a55617;
  0xac173dee59003f8b0b842116f399a511895d1ef5b72a9f80c3c509234b2764e1;
  0x20acfb02a4a3e409b285c5ed0ad5d7d28b8342ec1fbd77859e7885692b344;
  0x23d037f98c6f707825bf2e97c803eebcd114afd3bc7feaeb71c1f82a2c6ea3e8;
  0x6e08cf63b0d95845774b2e69eecb85daf0a03b546cd43aa2cff7020ed924dc86;
  0x13f8cb556b4082a3562e2e9e09f26d51b796af154d6489859cec523d166bded1;
  0xaa514517610950ff3415a5037368fb6e1fefc3fd2693fc7492c50ab1a0457dd;
  0x3860f61bdcb729d1cd39f9c35308727eda4a010c5a1d5d9747b83d13ab9d640;
  0xa51adc45a9e9bfdd153f43d0d52bfdc8972cb4cb07021e5437587438dabbb713;
  0x7662169fb20be5149e769665ae4807f50a0eca3009bed52952fe333e38d73fe;
  0xba0291ed345efdfb50d0b09ee8ba2fe3358d0b75f05cdeb91ae082c15a71156;
  0x35f6489ef87352b388fbdd9ff06261f4bd90f542a894b712d9be4c4e32b66517;
  0x2445e234c05433f3818a8e0af34ea2e7b4eee4b244d931d978997810f53fb75;
  0x300aac252775bc9efe28b14cf1e3c9aaa9c2c4b0128c6a184b0050cb5a265237;
  0xc98fd6ce61855bd975921f839c7c257edeade1f8dfe0ed93dad91323ec83742a;
  0x141b34addf80b0986ef2a528e6b54afa724d6a72f145e4236706542526899b;
  0x8f9d6e55250a8090d2cd36b750b0e00aeadb087448bede715e7eb4b17fd61c3f;
  0x3b045e451e73a976789943ac8a6f605256a33d1aed1ff994ad39d524ff5ee114;
  0x1c4bb5c07126af40e5fdec8510c4a56ffc7a9f049d8c5a970ef5409fdf6255ea;
  0x17014fb24d368a4aee7cf91cf63d3cbb36096d7f79c6c07741a2e9795613df3d;
  0x61bc521256364021c46bcf3b9d9acfebf5c2e148a313dc4f3f2202b2fc3b8d19;
  0x1ae971cc3a1c7579b1fa32c352984693f220d0ffe27028cfd6b5cab2a84c6346;
  0x1b94632d5ff0c5e2678aac1cc22ff004b054108aac5d3083042d5228f8d2b7c;
  0x5e47702d831e23d0c3c10abd693e675f60c141afaf8d435036f523bc274d9b6;
  0x5bc345d22837a5903af96227d63455aa8481e4105324dd3a8253cdd418fe31cf;
  0x1d6b9623ee9ba6549e8450d4c4eda5532b0dd2c195a342119e976fe2ecbe01cf;
  0x1b4f4d316ca8f35d61a290abb87108fbccced1a912aa7d8dfd8031a2fda93aab;
  0x1d2468ff43100267fca76c33609122d3322debc097486764188c01a79e7ec332;
  0xcaa45ecaca5ed41532f5b6e8b429f473b4d9a371fe1b830a5ad115613a74fd77;
  0x1c8964886dd29b22b4464edd4d2a916d42de9376cd06a438d2a71552877937be;
  0xa89c939ab70ab841db1bd6ae3d7755f91208272ead944c9173fc04aa36fe4b43;
  0x5a9315faefbda9f7a3fa4e0e053c5748e18578b503ba4b063c57786c367ecf41;
  0x41b1f75bfdac9fbdf42b14ff5a5bc482487dacdc87bfb7c368faa8299f36fe5d;
  0xebe9955d21310c91ba1898319a24dda5323abc046ec847c95cdee22c00f1d1ad;
  0xd62ac1f6082362c5d10780c475072e4ee991f9401a5d4725217f257523542a8f;
  0xe76da019f760500bbe8f4758c4c6b6baf9f8e2066a9c1a95952c0a7b563f40a;
  0x45973ffc0eca0af6e2d92d6a06e15f2562824b166ca26754b2f79123fa3369aa;
  0x32a7121b47913e8bc97518e3f13c77be88eb81efd6c8be4a3ca1550d8503f51;
  0xe16b0dcef08a225c38a8959e1f04939e341a43646a0d6291d0be4c851def706;
  0x29c4b7f36bc3d6fe84a02bd58581d13c430203491654cca92c2f85eb7c8b1647;
  0x62cd4e3938675bb8b3a6325a1c4a36fd9c65d80a9da1cffbe4c51be6c4af4a81;
  0x40c262afcdd915574f4fe1cc7e344e69c132f9ff2e489d52ecb2b81535b4556e;
  0x5feae789d765d55b9f2329554f5fe1ece3626b7545b52c8cf3ce43d1673f60c;
  0x116af746b9a22d1ba5f7c7ab79e2daa933d24dbbd2c8c2d162ad177a203f5fc8;
  0x316dd0be3c085f80801b0bf5d664075403288bec0fe6cb951dffd48f98a51deb;
  0x1c186f5307067ab573d4df085c2e35e95b09f5a926548430088c02739a507c0;
  0x2b8bef0bb193120156755947e8c35188062c15dd7c7e08ecd9e99092812b7386;
  0x21f242caff049371326e09433c7dff37f07c6a1e249d63901d9ddc9316a733;
  0x2ba83e2a90d20f68560aca9511a75745ae7572809318930d22083db9d355389d;
  0x9967ec9b35e4f05a9e44b6ea29c4dfb0dbc48e5caba7f1427700f5d530a91f4;
  0x98da6ee05203ebd367b3d97e82f087cf2a4e3d422889a3de7058715044d6148;
  0x1a905076ad11c55761e7b10569d69d9a965b9735bd5ded96774b045001e19e;
  0x3a41dfb9c08daac5fc907bf1ad5d3951564180461dcab49f40eb738f917c353e;
  0x5eae80890d1b3a906cb67b0de517360dbb3f338244c7a121138a942355382a59;
  0x2746ee1c7a196651d920ebe7ed9a53d0b12210f75a59576f5a48529c0e13cc7d;
  0x1b4aad13a3c4683c7d2e82674f928b48303aedb46366cb08650ac44fc3d26851;
  0x79596426a7416ed920602d87e8844215944e4659b70a86f2335579f707fe6d3c;
  0x160fe90e95345c1cbe80a312408337e8a2babed6e214df1cb9bd5270398a2c61].
