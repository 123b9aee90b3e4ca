(** No point of the curve has ordinate (p + r)/2; multiples of an opposite. *)
From Coq Require Import ZArith Zpow_facts Bool List Lia.
From Verif Require Import Params Curve NumThy NumPow FField FpField P_Fr P_Curve P_Group.
Import ListNotations.
Open Scope Z_scope.


(** ** No point of the curve has ordinate (p + r) / 2 *)
Definition mid : Z := (p_mod + r_mod) / 2.
Definition mid_c : Z := Eval vm_compute in (mid * mid - 3) mod p_mod.
Definition mid_qs : list Z := [
  0x30644e72e131a02850c6967bfe2f29ae9cbef1a40837dd3141ddf1c8842447d;
  0x30644e72e131a0510b5f701cde7e7bd1af22575d7480c2118d59fbf890b56c;
  0x1516e6d43eb611b3275937238f6a7b7b3a968f6b141eb2a89adb8eb0490b6da5;
  0x644d97a1fdf501cb5e446d4d5046a740f39e6c13fa3c52b44c7f34cb73a44f;
  0xc13125121dc82e1534445a659e75ba0b06820cc2425c8f36a2206acbdc355a3;
  0x276b877a166321cddffcbbfe1088b8d44742b5b77a53b1a123b2d6e42955ad;
  0x222051b9a9ee7074013bf3c511dc5e7c8550829fcf30a60cc86198279ecf3cd0;
  0x9fb44fdd4119a2edad52cab5f105c72304eaccd5550b0868d35b0e1ea5ed72c;
  0x1d93d9ae889da81132f5316fa45870d6a7e2ddd535fc98f5c36da1986218cbd;
  0x1559ad8900b58f9a4c7f6bee8c0e595d836e9a6c7f68f37a9523f97e891e0;
  0xc9d75230976d0611fd4f8e3e2e6f1eeb91578d0152a0a77d254f00bc07e85c;
  0x18a2653a652710367f494ac9f426ba124e59768b040e0e5e3a5c6fdc7bab070c;
  0x1d4945f8db7c3432b3d6867211af66ee359edb4f99154f309845266905751518;
  0x4be8d86144b2b935e188213c5555d730882a09b80eed3aa27ff76361f1d1be8;
  0x25e249c040b4eb354b7dc31ce20aeabd83dcd6fb7295ed551a9acff842c16fa2;
  0x28fdc4f3dbf8b4fc2918c4efcc46091b5e17d1ffa43ce4ecc7c1bfb79ef4d153;
  0x7e75c6652c6f205328aef8e9bee360802492f880c50d4aa91ea4e26896438f6;
  0x105ab363aaaa96b995f7dff58ca9682f9082e3d1b31e5f21f78afa58fd9ff4a7;
  0x9dee612cbb5fd2f0295a54f43b1f7f91fb6df7216773b34c04a5abb96b26657;
  0xcb70c88afaeedc1264b8f15d2155d5c3e26b422a3a4219020fb1de7b7178d90;
  0x636f7d4ed7a58204bf747541677353b9aa98e103ef674528ef21b57fcc67c47;
  0x358ff4a4db0c2e67e1635f92262a4f11874a1afc06bc2d25d35b208e7d91697;
  0xa5510dc560331507ebce62a0b21d072fff541b07369e2721897e70ab260cf99;
  0xb9b39e1d9fe4274aead6e97899fe83925745abd1f7e144876669565e36c2442;
  0x2cea612e7f82adfc03801a007f2a4f9ecd264c983e6ad2d216a64c87bee81f7e;
  0x48ef3430dfc878d6a6e510e439c361950fcb8c418f157410d859200ead667aa;
  0x45bb0513e1ea6c29a794f9a5e015b3660b78cc4ecf640014c2be13b413f2d3b;
  0x3eaaf93e2667ca6f0c2ee2439cdbe22d952323924b0e6c37b9fd197defe1cb;
  0x68c31ad59ee9934506aff64a70d1f2c30327336f84794c2697760c3d3b9474;
  0xfb6a93dd4406678bba65129530bf24973df751ef96d07dec2f11d598f281928;
  0x17042a6166f61bc2735b0512026d0972402f6502f03fb98ac33eea4099a4d7d;
  0x1b81ecdce91e4fd84db015881a1116202620ab615ff6aa8bdef91c3423370b4;
  0x9bea5f70d92b6caede9a1faef1459a7af0ac7edfb1e0de111c818f96bfea0da;
  0xc2cba65d9fb84e00c3f3d06883c57e8855cc7a79822e4b2c13bba78e3a2e283;
  0x639a02997585de5f46192b955374c29bb7a16170eccec7692a85a99cfe15d0;
  0x11f8e547e0cea89442f10108ce2f1d8bd8b25a58ab00fc20898a071576ad9;
  0x170116dc35bb0fec3aff3d135c9062f8fa30458f37e4fb13a34af48627d356d;
  0xb6e287def8c0e63e2b95ebebf6892f7403eb59923565b26ff9629295e0b304d;
  0x1564eb8c83fee606d1dea78eb94b58c5a2db61e50f46743edb18e4478a18811;
  0x3c5a03fbc06923c3562d3a0ebdf655a0ef3dbbe6b56e7130768d3afb91ea443;
  0x4728ef78b2ed8fc53765b2ac5ba651d1956f9e11b6421fddbc0b65aaf3cf26;
  0xb026ddaa2aaec857d672084f6ac2e3e8874d2efaf9fd032a18e80f4e026c90c;
  0x8fb094f9236f111216893e15f9460fec7752680eafa3599041548349c7ab5c3;
  0x8f90c124e3fedbceb8b6d149faebdd54d6e7a7b14fbfe09d029c56f00e23d1e;
  0x202fb2acabb780e60f8aceaf0e7e9d72d3e7d34453bf9dad3c4554092680a15a;
  0x426c472682771f202aad8022da35755bd86b15c553713749f3c98e8e21f87d6;
  0x6d8e0fbe0f966d0501eb1f78d81c1a5e6da86e250a1c7c164354c11939368a4;
  0xc2c821fc6c3b27a3ca555239a5a5a02e7e144be17cab4c267e2eece300c06ca;
  0x1a01e9ba62e9b3ee5c72009244c5b8bd150b07a531d04700e4c2e291333bb705;
  0x13401ee87a0e07370aeed989b2b49e181f9262e2151eb7489ef8e36331869740;
  0x51f5d55e95fadb3a14984055db684a76f75c83026299ada1ada3f282fc65a;
  0x1f27df1d1f2a7b91067709a9f617010cca576444d36e5a98a591b0c8d75ada17;
  0x215c77ec749dc28a2834e83670abb269902379af4de86279089af93e0bf9a4fb;
  0x18bf625d80f34e1667a79d8fc843337c96eeec37378c1ddd6b52d71425a63f2;
  0x51fe84fcb9e3e5f2b81ff623c1fbb4df896396b8609387a5e3e08be42d83786;
  0x13c9778552cbd6119ea520cbbc51abb22a22deb83d3e4cead19caf9e1c1804;
  0x39c712da8aa9fdf23c5d3af622dd8dbafc40d43060b532dbbe4e1533b5d47bb;
  0x13e641486f99cd518ebd5b0ec0a9c38c73088442e4723cc67a53ce2ee0d29bed;
  0x122e72e6a91412adf1c93c11e0578f762cd938bb72c137bcf14420cd0cdfb215;
  0x6506dc7f56194023d4990dc4322e36752c36e2bfb4786b0fce9210782a042a1;
  0x9dc850619078edba754bc315d83396b8939dc6a26b05231a8c6fa84a916de27;
  0x1cf9f413dac7f1be979f169e9331fd99bfc9647274444fd8014af416326f3b5;
  0x55c2cc614ec37c886fca2cc5b644cccb17342bcd9002c97f1d935c172e7a8f7;
  0x7f31e5c012618382641527b6a1ba9a8fbeef67e48dd1ca3aa626bfc62312464;
  0x1c153e5016506ed02a9c5846d8a6d181459a20590f174f3dc7e18a0ba5daad0d;
  0xbad5c3b87b3bd95ebd23a9bdb587f9475a3fc8b1bdebee2d7dbb951737f1e21;
  0xb2537a16b40dfd04a8829bda7f9fce89ed25c1ba027c9e065ac825aee2f3e3e;
  0xb77a9b83b15fcd1a617df509f5a09027234bd8258557d5608afc7568ad2e0e6;
  0x16f0d1334ecc17e969a1e8dab49afad6bf92e964cb29da5a85eafbdddc5edae9;
  0x751e3c9f0e5775ec7adb8ba23434b38ca52c8bef0a5e97a0ae26e59b04fff9b;
  0x16d89af2daa7a4954f95004ffed6d0c4fc0515a6fcdbded2e816a2537daa8b6f;
  0x2fc12a0ba8e867e2e625bc99c05c70d77529b45410da07f5abda25e988100071;
  0x29bbf01bd083805e294f8c444b5b82fd1aee12e75ab14187e3c5ee7ec37d95ca;
  0x7412d1f151b6b43ecf2da84793f66d1034e951c6af29228859e6819a3000e55;
  0x23684e7a1b3e525a5756b88ddfe829de8a91c7bc14c549aee9c0b16a5d1ff4;
  0x2b97fedb3778fd840539af8d7bf4162743dae21d170d517a823092f81f1b753;
  0xfaa8bf7c0bf16ae47e5af754486700e905c47355d86dae1f29da6f585cb7c28;
  0x245c8d9e457f03a3a321c7339374fd300e54122d5ed0128761145044429e3121;
  0x25556081fa3772ce3b6b25deef3c8737862c2d8d401333c194eac5c73ae59232;
  0x900f2071ad32ae562f3ed78bf67c2b34661d950788d4c4a5233f2c72bfaab72;
  0x5929df6a3b96431d1936a52f3029113dedf026f2cefafcff2c5dc900dad415f;
  0x2a97f646e71a1ea0309cbd52f96d132197d66cbe3c3031ab0dd43e4c0ab16cca;
  0x31acfc28afb1aa13b075a9f4b288c8523b28a391a1f22c68d72bcd1fdce5135;
  0x3f2e99dea443a7cb52dec2ddc0da08ea40ea598ea48149c072d18758ae9ebaa;
  0x24ed4bf3cc99a114bca8eaa019dcddb5206a10354d7ad1121aa10428376a1193;
  0x48b02340f70160ab15e08924afba775749b79604283f14b980d367a4ce969bc;
  0x6fc9291dab352fa083fefff51d0f7b0ce6ac2dc5fac68cf9bb89d6920efd23;
  0x117086daa68c2e5e1713dbbe49910f5f1d6a4ef5cd95b76ca1406f0cce370f7;
  0x67df9ffc64d4b0b009f5b455a7746d709d3681f9f3b67f33b8357c989487aeb;
  0x844c60e97e43eca1d4c4e97bb258d63c0107e431f5afcad7c79c7fcb3170fd2;
  0x93a38d56297204e14c9257283e43bdf006360c046e5feccbaa6d5d345dd59b1;
  0x4ad49fb89d023df54ba3277d9960665d4e247418fcd3d2ed7bfdac6ae98c12f;
  0x5c47fe9720e67ca7a3a4dff029adf7bec955b519fddfc37ae1ff43362f3537;
  0x4946a3a64136bfaf5234cfe36aa53e3778a7e233900fc01161d0128158c3baa;
  0x7883b516d514f67b812d933f387abe3a668597eb04d038ed31c1eec771c48f3;
  0x1d95a6a84c13dd4e92769f4a5193392646e035b37b66502df67249cebda74fbd;
  0x1ffe4b1620082b3b5680816e2e5d6c1c4fd2c3bf543055faa505564eb47d6930;
  0x31f441cc34747ed892460a8ac08bfa1e8e7504d0233c85d5e7b942e0e6151f7;
  0x823d08347491c73dce76e5df90e8caf494855c7c24737fa8f5fa95b10425fd9;
  0x1b326dba1f83f3f0fbb9234e712b82c967bd4a6f798b75634010b2b3a6ef4556;
  0xc2ef60a0042363f5e520bfabebbe27544fe2c28116a5b5ed02a7e13e9cea248;
  0x10cc2a4396c646a3db0b2750ae4908306a570e2139a482efc806fd72df63a3;
  0xb980aa29cb2809e52bce3a059a5630636dbdab0350f93a7aae574af9a6d2443;
  0x2b862ae5ee70e54cbc93229c789f998e445f76db5488315e8567c726f9d8dce1;
  0x99f7b0b6b0bbc773d395444cf24e80228eddd547776e66034392f2ff41cbbfc;
  0x4bda6471b85078138b4d292728edffff2bba6f32d8022434728125ac86154e4;
  0xdb682384e3a89053fbd90e6f61388247f4a19c2c38808367de8f3652b881a6e;
  0x89748f85752a71346b6610603937eb04cfda100ec7341379e9fe57c0ebc6d69;
  0x977d433222207d2671836af8c94f40fd9c38ce49df91cb5ec919f23498eeace;
  0x1d7954dfe6c3357b701a7f60c295c9e728b4ebd8fcfdb6df96d0cbcbce872082;
  0x853f314fa1baf717b41401153df92daffc4a134f2c0d99a794d04819c4e5723;
  0x836b30e5fa3e62076b84c36b0266b0fbc7db04df9cb8e73ce2b4311e880b05a;
  0x5c778c24cbb743b7c3aff1cc3449a544136ad72809c816cd6c2595b4cd4de4a;
  0x2705d3ad35d5e6abb67f43a2533655a076355095c893977b11721afcf3ddaf3e;
  0x1f22ad17145cb53ac838611b0af4eac9b2c3dad9615532230b5ddfdeacfea7c2;
  0x1d4d6cc48589160de468dbf4cb4119db7a7f54cfc29eab0d231db3825865aabd;
  0x18899cebdfb590ad7e8b03c3d16597d9f58b05c14ee9a5e3df56a3b3aaf0d7ac;
  0x19a6edd30448cb177319a413678c3ffe502eb4637d033880ac76d8641609231;
  0xed4caf8166cbf9ba8b5e4d87e205648b1a37ef866118e3feba4ce7bdfb0fc7d;
  0x4f1044e2bf180d6b28f590961e0e3177dd6d4b0e13292e01ed864a765388919;
  0x1169a799aea5b5ad3d7aa090f23d93bd3da0869e5a02a0d62f5f79c91c288386;
  0xacf4133148e6a8953fa428f20f63bd3c55a33400d4510a64a913fb2e0a97342;
  0xdb2f597fff51e42a19d957daf8b2fb598ff97cf100b72974632a14af20a01fe;
  0x42757687a5011ff80c4c4d4dfc34bcea4908394172cc9e4b0d8a2f327c4a4df;
  0x57093b7cc0d298ea3de9acc6cce85c40fcf7bcc102840b7d75f6c9b68285e0d;
  0x8d91cd9ae73ffd79aa32d8430e06808e7549a06c9c6f883d321d9878fa06f70;
  0x134dc783f5f7678f7a0719b7b3144bfa9c314fa287a1e93e75b73f8ddf62a7eb;
  0x57974ad7b9726bc566bc53b37bd3104fbba11cd29f4a91b5f914ded4baf3efd;
  0x45098d94a6096e5cb5955d3ef9b64f51c4f6a4953d0460e5018187c97e8a898;
  0x94384fb0e489f49c02a4c6a455a38f6ff6b0ed3468984ee1a26d80ce0956b7d;
  0x9006d6472f22149660cf9f97241d7d639a2298e88af0566d97c6d0d4188946b;
  0xb2fee63dfa49ee57a71bfede60764a2799aee52822fa3c76767d58ce3412e92;
  0x718be556def8e8b479fc63f55857eceffec58e5ec62fabcdbc8f98beebac543;
  0xb7dea0f04e7758fbbdd3331fb4622a3483ad27c1fed3b858a753e466747a46;
  0xfc08b21da471728110c12641c22e1fbf40c64a279279687d632664faace711e;
  0x8e82ad416d176fc73153433cda7a42b8842391f51775295541f3e1662e6afa7;
  0x130f30a29a83e70a8a6e16d7b8c3120734a85db8f6efdbadd384abb210a030af;
  0x62e491813c5efa11f2cc3ae819fccaea08d7719abd5949c2d86ee6de6570878;
  0x3e5af73dafabc5c1a8b06e31fcf72121a4f2d407f3c106e6e4c00a0a6c745b4;
  0x6fb64c6718e844cad1970722ca5f96c84d5c05c3881676a5a01b71517f86ed;
  0x1a1d9da16079b412a19b8377f5134fed9d23b32ded43f9c45d5fd1f0676423f7;
  0x21a644e363e9a829687d1b1a11df15f9790c1e11987d6584a8bfd0d5c6b60a1d;
  0x202dd40b9543b15523ef6731e347e30e1789ede5cada897c6a06cf5eb3a614f8;
  0x2fe4f255c3e03c0cd7161105e115b708325b2c1c9dcfc8fb36cd474145b55;
  0x87821de23f4a3869fdeaa033c3073806f2a1187e8dd81c32864e3031a11687e;
  0x1ffd385e836848d91f9139193f811144cfc2793c7a8c7d0abcc1cbf84ef0a29;
  0x13a3eee78070fe7fcdcacdfb053ca7566e1ce5941d9af60ca01f654d3f1f5d9e;
  0x2139facf847a793bae40dcb548809e2c54b011b7f5c999570be4d9a8025db85e;
  0xb1f1bb126f39394012a50b66198aeefb7e2bd0ac236fcdb0c14872b66264644;
  0x11928e6c569997de844b391ebe985ba0516ed35459031ff674abfd0a6cf3b108;
  0x1b743369a99687bfa5a779b8c21fab6237f349711db4e2b82da8369240716a0;
  0x17fae05b8341eaf4ff5bc9904f14e092d815d3b64d49eb1d003967ddb385ce55;
  0x7eea240c98ed01bc2924ad871e23dbfe485ef104b5e51ab184dc91b045497;
  0xb3dac574ee1d3c6497373b2649400ebcad99470e4cae63a3d41f82e25550f67;
  0x265f71f8a87026622da0a954bfb395ecd64909cfd414c41c474649acc4207b4;
  0x1e07f02bd3bde33b2d50e76174d45034a17fa4572c782cb69c6e67a22281f;
  0x79a8e03fb1513684bb8a69c65aa46c3a64a881869a01c07e9d399b2f46fbe35;
  0x18f84170e83c1b839bd94ec7e42a770e3bfe2a76aab0584d918b713f5bfb1f2a;
  0x2b9a735d4e1eb03fa13f6adde0c4eceefc45f0f23a9414125a8eb2d0cfa5382;
  0x21fba917e9a80c8f08c8f01b79ef56345402804f60a1dafc0a87be56f9b58b4f;
  0x14d6e08572a1a0b29df7bc1820cb1bdec789ce64df197ca9246c4c5afb69b06b;
  0x882dd8247b8e8ac7129f80b6a5e2f19f6e1467e8a6a793c171a5be84b861bbe;
  0x7b62b30be91bdb1a245430d516ce658022189e8fcd4340815f1742491ad3a6;
  0x519f4d8f389cf53b846108c2d5924da2c928be3035c67b5820582bc12bc0e39;
  0x8a0a2dc9ef800ae67a7aa92e2bf2fabcee5c531fc07047bf3f819acd9058ae;
  0x19fea72a8d8f6cf76f4a88623520d83a8e808f3bb0ff90d92d526b34d1b29d3;
  0x2a7b6256801e51229f13fe5be941843f5a5bbc23dc23ecaa21f69896ea1056bc;
  0x469504eafc2797121aa1fc81bda11dae9fcec91bb3ac9479dd565899a551d58;
  0x276936582423f461a86e6cd056737bf9ef60c8f7950936a66783ec7d00b93643;
  0x10553ecbd62e2aae37f23387f0f2dfd6082ceb54d2074ba2ce75b4431f3c5541;
  0x70543fecbd10c970a6ff3b05070c75ad878fb852f2832f9f9e29f86a5d0d8a0;
  0x1cbb6c4d0cb5b305d54fb43a2296b7928a8bec574bdbe8c7420c9e252f02cf6;
  0x18985fbb42461cede8c6b60a873a60b2e618714e2f3ad3cc2605b478d765644;
  0x297a8d10a77b2bfc17f07d2741cb902b913bd754ee5dadb7fa4375dde806de71;
  0x3d6ce46835aa3152f5211b8fb43d4158ee20b3f8dd9bf6ac6cbcddac65a54ae;
  0x524c453a1843d648eb9947d3ddc8fc72e86796c857a735d3d345bf69929797f;
  0x2754c3e0d7ce490c28646f580dbbf5b7cb14d7230eb7c4e7c092753d07539c6;
  0x5f6a5d80fc6b0f979d98091869dbe8020be379000b6dea3af613926613b867f;
  0x2f5716ec80d636c651235e3db282d79dc40bc6ce5d51f9899d434bd2a8717408;
  0x46a83388bed5fe9c312b44658752a447016d024ae97acff1b35a6c7553ee030;
  0x9a8bbbc3be873c654977d38e8f9d1b9eb7d24e70940ddbb6d56660a854fca57;
  0x8b0f095ef35b83722321add1017a336b4bb2b8f35ffa9840ff0567dd63e4dc2;
  0xba4629bf41bc595d758be567bd13fc3fc8698ccc3a0720d58ffaef125b17f2b;
  0xdc71829a8fb59d8af3077ade0cc4a98be95caf6f2a242de301057843ee079e6;
  0x82e5e8ee69e6feb4c6ef53cd5feb3e4b2ce9464c19992e50d87f7c22a13ed87;
  0x4ee4a1cbe21349a78d73f40dbca7ffff900eb20901ac99e10eb7404bd267a0;
  0x259539e00eef3b6c0fd9dfa85490faeeef851dccce1688ef70b96580b510512;
  0x95ca585768a245793f2961ff9840c7a62edc6dca07fad5322c1ce8f18a0af33;
  0x2ac738843ce95d3470d28235b024ab5fc4ea103d52f6f4456ff50077ed3614fb;
  0x7bdb51759e82bdf20ac83e857c38f24aa0b652e54e0fc76f9ec50db4493b7ac;
  0x895d82bda215d655ed30d68d4a0769c499d7e5b8844556a3b14bb7b68dfe980;
  0xff6a41016d61ddaf9c1d0c417fa515e4335f0889475a8bc1b227a5bdafd141d;
  0x2e8ad1d3d7b0c66fac00de92fed9e181a73bc8af921dfc6c58e5c4617a51932;
  0x8dd800ce2832949e59339d594873129e1873690b832a012504c9f595f4ce1b2;
  0x161ea3faa191b31a4465b3a010ce08d3ce0758655f0b36f2c43ab55baea7581c;
  0x3d8cb481121b41027ef5db6c228c2d1cccdb50f71cadf44f65f5a15be0de814;
  0xaee2016103d10e5624ac16202c00431cf4fb34d656333f1fd813cc0e7dfd433;
  0xaf87f2acb47fb4b26999ac6bdacd4df36718cf8ac2058f0a76f331e2d631e45;
  0x2442f33e1f4f062083d9e04ddddc79e6675b759716adc87d0fe24d718e90270b;
  0x2eedb69d0f05381e1c6bca5ae8d63e2fcd53d52c70b8504a89ed7a0fb4232ee;
  0x166f22d641bc07dcef81e21246d769a302cfe18d30bd1cae75fc03e29b143437;
  0x43b7f98c99d97181a40b759c1a8f1e1042077fa99fc9638efe6d91250424d42;
  0x422256877496b5d527055c652f3d7485e895a4ea523d720186eb18db3e2118;
  0x2bf9b1c61ea9e2b1400fe9ac44f5589d8c4d199599ac8db8ffc9b81bd310011;
  0x2931ace6a11b15504a95b5f121ccd78aff71c48eaaa24e54ff9194e5eced5fb8;
  0x5ea33ae21b5b5a9d0350fbd005c7ca75700d0c9dff6fa2e2165602f31284f55;
  0x20ae9c28e1ab67ce72c4d7022fca0e554509fc659ecc84dd97d81db650050363;
  0x89606a3a50b77a6462c97a56c9af54a8a2b7711776df40b95b4503eb1619cd8;
  0x1ac84b2a74eeca597d0e71d95b5e548030b9729acd6667b2f6e2ec731dfdf21a;
  0x967cd582f6669f9c2d157b4eb6cbb0c4bb763787cfc1ceae5c097d0bdedea19;
  0x30e6ada25a03b467e614268b30d6a9498579e970820ef50b35e2813197976a8;
  0x2505da86b65b4b5a9ff89a404c3ecd800e872b2db1709f58a18b470d4aaad0ec;
  0x41a9c5f09a6cc1c0601b313572a3af9921bc195d128da267b6cd146c7875d1b;
  0xe28237aae4fdc4e76be46fc1e79ab6545fefa966bd965d1f7a831003e4b620;
  0x898a584a5308c8ab0373ce705aef77091d3998000933bada72f5a7de9f1ea8a;
  0x37fd975895daa4a5a3fea8d7d9cb2e26f9818e0c97d19a38da8e8efeb378f3f;
  0xb03a7f15e253b33c47ce4856bc408e2ac91098c4e6a8cce17fadab4b106234b;
  0x18cb05d6f41edbeb705250402adc9973171c678ad268f216159dc58943667e;
  0x178bfecb3cb26dddf87cc93d3e4fe4ad8c4f498efe5a6502bddc18b1aa3c1b64;
  0x19ec6caba5f9e9f970f53e5a2b647558a0b2336d0478c41f5bed7652369c6cd;
  0x6c98501afccfa47afb6b01f79c0f82608b6895f913187781521967233577a35;
  0x85fbb2eb129c0501bffa2319dfd9195b7f7181e8536aab9d48272652cf95061;
  0x8d018449a3736edb8ba8533bb3fcda87fbe37b50a3f47783c9973fa29f5e7be;
  0x79a9d2b0808e768a3bb9894462aa9d2bd52d5bced68c9f17b633ea455843fce;
  0x83d79034b3bebf10739aa4b95236981cdca69395d17bfeb44cc25d8ace5139;
  0x9663d7461551a0fd874203702c033f8f5cdfd9d5574b6f57b6c8ddafd15825d;
  0x314437ee3d806261c97ab0fa61b06522aaa29259d894fa1ebc7870755da6612;
  0x5ed7a5c9b9ee9268e87087c27f846aea1d4d06c1303ea24d789883dcdf74706;
  0x1c927e50caf9effcf55a0b18cbbcdca94e77714122c591676d41c23986093878;
  0x1886429faec4fc9b02a5d5818a435cdd17aca04ead3b8092bb3d98117e8a090c;
  0x3bfcfccfdb1e90ad80abc3457c1509733b070d3a94a38b6e2c2d5ef91913fa;
  0x7b3195a260c2b47e0ff3be1a987951ab9115844bada4e9e6d3ffb7994aff3e4;
  0x1492102c62730c018df9fd3098f1ffd1473cc8680405c6d2f44ca893126f7b8;
  0xa105c91c31f0ac3ed08e39e59b2e0f58b48e77cd47f2bffe1e456287203ad52;
  0x170c2a153a2e84c88340263821e81debb120caf7eb6a3cea716c8f8cf5c03f7f;
  0x1075906ff042ed32dbe7285d1cbbc3b91a005b17bdd9e0cc35162df052c9fd1f;
  0xa7a6315c961c38551c12d3063839d5f3428439518f45b26f31e618a58f9e124;
  0x9aab9b22005ff1f97ce470c1a98ed0e97b5169feb85f20c118ae66d3a42fc51;
  0xefb2507b0a311e1b854fa261b1b1d18f2545d4c9bd1bee3573506dbb3f522c3;
  0x8156cd95db6c909657b4d28667a096f45de7d92c00be35673a32ae973ca6a5a;
  0x12011f0fc706bcb2e21ac9591a87c91bbc9cf8ae5ae0de835560bbbcf0298fa;
  0x7a883d8a569b9b5add646fe940e0e42e89e6ff0abf2b335872e8725c507e2af;
  0x8fc6b9f744abc8237d0bacc9d2adc79f215ad92bd334523bdc481d52ae39db;
  0xb027065966767b387717ae0cb73cf9ea344ed52616ffccd7d81212dbe5d8907;
  0x16e61cf840e4c8c7df3ffacdc6a24930ef07aa0bda94b61d5f6f17b91986b7d2;
  0xa812ffef6cbe8f9b1d66e6c6bbb37fc33744e57462ce046ee00144d750f9c7;
  0x1b6b80bc74758dc67ae52f5abeb005d8215742706c3016acf1b91b5b4ea94167;
  0x1739d2e4d010f403d47453066652a2fc62e64d2b9971c08c122428ee3cabbe9;
  0xa5fc2d7de70339dfd675a6028173ae96e60e28b88e66fdc354445ad16dafcda;
  0xa3eb93d4c760619ff54a614165967418ee4e516dc56626b62fd5ef476a765;
  0x95f68dafca7debdd45bd6bc9b91b4ddac3a259d775866dc8beff19a43e19f8c;
  0xe8e893add06b817c170e82ee56733a2a5e703446b917db99c0762d5b47c1192;
  0x11e8f4fcaca7f02ba50f5b99d47eb768c68a69f18e5358e9cb415dae4da3d109;
  0x3b980eda54a06fd6a185d61eb58173f758320941e82ee5edb00b87962eb0394;
  0xeff4dc9d2ff24c73791d57cc6ba1feb63e5b281b00b5ae764ac363be4961539;
  0x5785b25172006e199ee876aad9e22c06291d55a9e088876ddae7e1bcf61cefc;
  0x4f0da243d594494d5ec2018ca3ba3173718dd14a77b8c16c004389255327c8;
  0x19d3b20bf026aa7a85c8c7571290d48019a58c785e5116eb52f7ed205327234d;
  0x5f33e13d9211d2a38e9ac76daf43a2e85249e50ece445c9ea8ae80b465eb10;
  0x74305b47c3cc476956b2bf492dcadb31375194c91e37bbb19a1d38360a83a64;
  0x6c52aa3666f4fc0a2d948c45a34e99fcea53959f5466af4fc70a62bc11662e;
  0x252f71ee6715b36b58cb32cca5dbc0624278dbcf202b460db64f7ef8b69d222;
  0x2575368cb27b3a489619546d6e75a4c9e64b8990e015203d4423cf36fe29d841;
  0x1cf5b3d37f6eaac48a43144dee8959a68a8ee26315206ffd185691a3a72c3c;
  0xc5ab463598fef7c6c53aaa76df1a0426b2ea8e1e22be91a2370877b28566505;
  0x127657373f9e4fc1b29d8be41b5003421cf1a6197170d5fb18dc0ed3df75c918;
  0x350c2b1901d1314b0d3870a1c2792d96085fda1949a80d41cc9e5bfdfb14733;
  0x2570c4d32c448082a35b154abc264a4b64841a862727875967b1a4b61a880a53;
  0xac91a974fa843910d6aef73d2b01de07ff49fd1b7c3699c622cfd421200ddb4;
  0x230fa2c02c199252b81a552df4129489664902942df5e76455d94e6de2a27ae;
  0x85e24f2f29d99d871a83ec50b9b7d6f2cb0784a112ea116c855745d9a051f86;
  0x11a4887b0a209d17c4b31fa15d7674de075716d79c682fbfa2722f1714e54edd;
  0x1db9cbdc0e79891404f140c02905d49e922984479eb56f96f6c51b3f7f3427dd;
  0x1282ecaf74e7f7585ef115d5a7cd7786e8d4c013c3a643b3c1e761ccde38839d;
  0x93ab6674ad558ff4a8a669fae7ddad6c358c65069d78e8f1b18aa5b3bc928ad;
  0x4c6e3ab48794b47a4651635e3822ad90fcf836c8faafe18206463eadbf8a9db;
  0x1fcfbc3710ea7a749e40fba407d037a5d5e2ddaaf48fbe6104b66077f2ff070;
  0xfc50cbc93772c0ef2eeb50dae893116a3c16d94ac380156e87997fb5903750d;
  0x1b1794ef616001e9fb890669f30d887085b260af1f9784106ee602c850ac0e;
  0xa6670b96907effd9add12a0c44477d78635d426f63175c636339fc79b3a3fa9;
  0x2519f1105a8824d3721feb254bf3835e705c8050bc0ccc26ef708c87ff4568d;
  0xb21649327cf7f1e5e1616715c9124654cae0d27f5ed903922d21390d0f732e7;
  0x7c641476315b9da2c67e3fb7eed7b4f6a351032c759b57f1a6d4838d17d029;
  0xa846deb9208912ab8a56d57b1517e50ea7fd0058bbd2142c08bdab232635367;
  0x1639edf8492ca188c000c1606ab5651249608c014e2884399be902aea133b201;
  0xf5d7a03b78ddeeaa326d4b76764d7f783bb70dc811c71996046814d0ba41f25;
  0x1a8374a4cd4718fd38e6a4c42bd5415cd1db17fed4aa8de933a91e26cb061b4;
  0x313bcab89196a064d8cfb19a9bc981a4868795b898b441b9b6bd3ff2a4837;
  0x54197f54bddb5b03efc9817e67f3f4d6fd9f3a502271a1a09d1368a16bd0fc6;
  0x3336abd561e53b33dab5aed589412ed58dcfe4e46bf8a39e84bac9f1a77bfa2;
  0x244f71e16bca0d80d51a099a79b33ab6cf236e5538f61c3884d93bbf8895cba;
  0xa861334ab30062330213829f075026f38e0256b62e0562d63b9c52eb553293e;
  0xf8a664df080ca6bffee15d6517984737fbcff4b7d5807d7e87daa220bd8b911;
  0x1886d688f3640bb96711ee52d54381621b620fbd7a25f1d7f0d9c5bca2ca6604;
  0x2ed79619503b7b867e61cfd0786e11389d588487a0923594cd81e711e7a8c0e0;
  0x273011611d0c01f658291fcb502ec253a7e56ac62ae04d58e263b838b746e6c;
  0x1a0fb2724e48b9c11c79d86a9e389cd96ba4f9b5290bc557a1d400ffa0152f;
  0x6285f8486583d2596e95d8aa048568a06a3b3e1df3232461060a6bd18b8ba27;
  0xab0eb90653a7f20f968399e68e38f183abc61c6ad28f5f5348d97cbd65bcd4;
  0xe2a1aeb36beca0c651c5c2280aa5ef05adf67c9760885e0d22a7e079abbb04c;
  0x321f880af0a08ac778cea8b2e2981689ea93c09602b5fd76a1016ffa94c125d;
  0x27e23755cc4b933fb2c26eb3585f77ffdf48273b43dd38462fa75eca08a0364;
  0x5d6f363be6bc5fa0042483fd675a12f2bc45255e3638268ede2964f39fbb918;
  0xaae9863f0407cff7090687ee86476f9e644a3fd9432a11c0492893ad7f1f46;
  0x6ef48d3a3d8d9a65290517c091ee4522ce65e123a70ec6a3ecefd3ddc4ac355;
  0x1f9c19a577a307997254b4dba9b66fcfc8b1960ed8c767091bd47eb403cecadf;
  0x5a7d826ab4709b7e786503c671f3be3526fc4f56262d3dedd48d7b8a859a57a;
  0x809cf392a2fa656504a764928da926957ffc9b3694f20089259a16c3438338f;
  0xa351b0916f290d3880a0f6c1e333ff1959135baef41671f28d6eac1180c3125;
  0x2feaaa1d4234b523518c473fa49a3f6d42558e48ee7e9315a66d6fe2f232ddf2;
  0x1bf61cc511557f71f2936ff6a7b174967b049f9a22117a119b2782b69086f4a;
  0xb258ec4e53528c3b9173e5ac3c4bb72d294553b9bbcb6020401aca850ed687;
  0x9ab21eb137fa5e3626d8ae7230716a0b030e37b8f08cfb1f3717966a192b399;
  0x2fa269ba109ad3163a5c3a7e8f3f1da2c2842c41ed5079534937b5e57773c6dc;
  0x8034fc6f0ef896459d4b0a4edc3512ab308f2da15847b88430572dc7236698b;
  0x54f224d5b7c6f4d3d4cec814c433b8a2396ed5326a58daa9ea643f4bc5d6048;
  0x94874332eaa29afb10d1d8becb41b4533125400d455aa39a9b30e9b6b40ced8;
  0x8f4fdc7fee94f0bdf7a9ef8ae2e991ee6fc83d494d84b5643daa3f03c2c4ba;
  0x1568778f43a16f9769bb31af92c814ab08fba6cd1b1de68507ddb6c270fccca;
  0xa7a74b49a69e08a44f961a96099312f8b1e4c44c7b89a3ca4ce7c162a79af7f;
  0x9540850977dbf03bd244a082c1a2aaedc7e6cfe560070025ef9aa54ff5f3826;
  0x1c810b5019c86371756b4247367df93df336ec3ffcff199865623ab9c64c1ef;
  0x2fb7be13c558d5dc72ccde48cf645fb3dccd16ed67862a7c1cac21952ffca805;
  0x4f2da2a93163f4d9f66c546c79b01760f50ac4fdabb803cceb6c5d741c46ded;
  0x48601d23be4bb49888b3264e2f2adb13270f349f5850a04d31fc2f95d5a5c3;
  0x1745b26895568f65d1d70b6f5dcec2fb2080d0651ce1cc7b77cecc02cf921708;
  0x5ecceb5465fb546b44747830b97978b0e5f7b5858e1975d24b9f41674a1b008;
  0x23bec846f2309d49911fd34d1bbcf9ccc20ebd1622675ae09e4fa960d9ac0444;
  0x59d822c3f4637ce6af15698d6df524c55b7ba7713f6a9792bfb525ae5b09dae;
  0xa123fa71f3a38ddabf3c81912ab30330fbfd55b7e7ceb566f027617bdf65784;
  0x5e79d6fd2d92d017d29e15415422644324ad85d9271e62d252817cdcbb69d0;
  0x57622a668a8c29c0105a4c2e23acee949b8903737faa9bbb3ce54dd0fdce55a;
  0x703ef84e5df793882e861ac4b2a8e3795106495525e01155cd81ce7281f2745;
  0x7c20d3eb6e34e6a73d1684eba0f7a38f26081f80c84d25f298d72f9969884bb;
  0x1cacd1b78679e9a65a141e1fd9404aeb88f407f753552623f63da9d1dce28fe;
  0x459620cf662ef134656d6a1d5e234acf3aecd674288e30c6a88f9da699df8e;
  0x1155b90811c8f55c8ea0e43f83a73aee5f622c454301363e8327ed2210f2ea60;
  0x1945082277f7fe9d86feb15c8bfa69e1f6f4284f6b70e3b4b79734cd619893;
  0x9c729cb4a41259401860ebfe28e34afd4ef782ad39c4bea5156c41e3ca36d55;
  0x2dbf2b476062b381aae57b887a67aeacb20271c84d77848c9f4c685e0a857a88;
  0x2a4875f56dec6798d50fa2493feb8378aa679c021cb26241ba1365802abaf45;
  0x19c83f35225d537671e9af48b080d8ca861ab7bd56bbde7eb7bdf5a79c3cdf70;
  0x2e155479132c25f98bed1d37f319241183006ad39901ef07f6c3cdbe7064015e;
  0x7b4e49f2de9da1f016378f3f5e8442bc8ac768f58424c6effa609920951c2c9;
  0x18d5c0120492f7f6d3162c32b06f0856f9110cbc5c9d19f0d389f4a07f95a3dd;
  0x6bb89a2a5001c4a88d47179db75d94f006980627e3dce122f6e3b66b0728a01;
  0x232f5d1229914f4ebeee4be569cc09f1199572b5c4a17ec3d3f00a901f9b8c;
  0x215f5128839cd3548d467914910f6a7fbd8efe1cea474a2dbc4aa4ac2bfa01fc;
  0x7e75731bfdfdda1177ff76c3793cc10dea75515dc59456d5a56bd266a893fa1;
  0x2dc84855455efb8748ba726b8e5a2da09997117e6cdaa75251f42ddb4bdd7491;
  0x2b1851b7046fed22ccfb8316db03588953f31e01ad9b42503d0a09e57784deb;
  0x4e3067395f2a595264368ff125f2eb8427b7e2c06e5bf7eb4195b7d7eb9a78;
  0x5882c1915653031a80d10c8bd642b8a05b2d8c3734efb6c0d3f7fcecb85f843;
  0x163adf325082dd4d8f7e5cf63e8108899f1acaeeb4096062e3011291d70d410d;
  0x1c899c8fc2ec47bd999ef3abca0a15f7ce011d6abd4460a6288d077bf68d9e0;
  0x5865742b52af5e5e539985aeecffaa71a55314aae5979f37bd3550e61b8f936;
  0x3d608ec47ef90b27b2c3b97d38225b69c9cda1c3b49f313b768c2e21a51916f;
  0x221085db5ce94b634d7afab4757245494f6fcb58d5a1355cc2e94cbc804a1cfc;
  0x2210701010e960b58c209f59f02a736c9422386d475dca39078dc1d90429caf5;
  0x1b90746343a6b9a7cebb1c1ba763b51e36fdf50f135ef26bf18a589ed0fd970b;
  0x696d63ae1f8c9ec60b175067c2605b31476a2fdbacec621b930fd3db1c2316e;
  0x30644e72e131a029048b6e193fd841049490e61b74cf98eaedee07cee2e9d2ae].
Definition cube_e : positive := Eval vm_compute in match (p_mod - 1) / 3 with Zpos e => e | _ => xH end.
Definition mid_z : Z := 0x59e26bcea0d48bacd4f263f1acdb5c4f5763473177fffffe.
Lemma mid_pow : match powq mid_c cube_e p_mod mid_qs with Some (z, _) => z =? mid_z | None => false end = true.
Proof. vm_compute. reflexivity. Qed.
Lemma pow_final (c z : Z) (e : positive) (qs : list Z) x :
  match powq c e p_mod qs with Some (y, _) => y =? z | None => false end = true -> z <> 1 ->
  p_mod - 1 = 3 * Zpos e -> (x ^ 3) mod p_mod = c -> ~ (p_mod | x) -> False.
Proof.
  intros P Hz Em E3 Hx. pose proof (fermat_little p_mod x prime_p Hx) as F.
  rewrite Em, Z.pow_mul_r, Zpower_mod, E3 in F by (lia || exact p_pos).
  destruct (powq c e p_mod qs) as [[y t]|] eqn:E; [|discriminate].
  apply Z.eqb_eq in P. apply powq_mod in E; [|exact p_pos]. congruence.
Qed.
Lemma mid_none x : (mid * mid) mod p_mod <> (x * x * x + 3) mod p_mod.
Proof.
  intros H.
  assert (E3 : (x ^ 3) mod p_mod = mid_c).
  { replace (x ^ 3) with ((x * x * x + 3) - 3) by ring. rewrite Zminus_mod, <- H, <- Zminus_mod. vm_compute. reflexivity. }
  refine (pow_final mid_c mid_z cube_e mid_qs x mid_pow _ _ E3 _).
  - discriminate.
  - vm_compute. reflexivity.
  - intros D. apply Z.mod_divide in D; [|discriminate]. rewrite Zpower_mod, D in E3 by exact p_pos. vm_compute in E3. discriminate.
Qed.

(** ** An accepted multiplication has a canonical finite operand *)
Lemma pmul_pos_neg k P : valid_pt P = true -> pmul_pos k (pneg P) = pneg (pmul_pos k P).
Proof.
  intros V. induction k as [k IH|k IH|]; cbn [pmul_pos]; [| |reflexivity].
  - rewrite IH. pose proof (pmul_pos_valid k P V) as W. rewrite <- !pneg_padd by (try apply padd_valid; assumption). reflexivity.
  - rewrite IH. pose proof (pmul_pos_valid k P V) as W. rewrite <- pneg_padd by assumption. reflexivity.
Qed.
Lemma pmul_neg k P : valid_pt P = true -> pmul k (pneg P) = pneg (pmul k P).
Proof. intros V. unfold pmul. destruct (k mod r_mod); try reflexivity. apply pmul_pos_neg, V. Qed.
