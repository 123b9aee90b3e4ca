(** Certificate for the order of the generator (1,2): an addition chain for r - 1 in which every
    doubling and addition is checked by integer equalities with explicit quotients. *)
From Coq Require Import ZArith Bool List.
From Verif Require Import Params.
Import ListNotations.
Open Scope Z_scope.

(** slope, resulting coordinates, and the three quotients by p *)
Inductive ostep :=
| SDbl (l x y q1 q2 q3 : Z)
| SAdd (l x y q1 q2 q3 : Z)      (* add (1,2) *)
| SSub (l x y q1 q2 q3 : Z).     (* add (1,p-2) *)

Definition line_ok (p l x1 y1 x2 x3 y3 q2 q3 : Z) : bool :=
  (l * l =? x1 + x2 + x3 + q2 * p) && (l * (x1 - x3) =? y1 + y3 + q3 * p) &&
  (0 <=? x3) && (x3 <? p) && (0 <=? y3) && (y3 <? p).
Definition chord_ok (p l x1 y1 x2 y2 q1 : Z) : bool :=
  negb (x1 =? x2) && (l * (x2 - x1) =? y2 - y1 + q1 * p).

Definition ostep_chk (st : Z * Z * Z) (s : ostep) : option (Z * Z * Z) :=
  let '(k, x, y) := st in
  match s with
  | SDbl l x3 y3 q1 q2 q3 =>
      if (l * (2 * y) =? 3 * (x * x) + q1 * p_mod) && line_ok p_mod l x y x x3 y3 q2 q3
      then Some (2 * k, x3, y3) else None
  | SAdd l x3 y3 q1 q2 q3 =>
      if chord_ok p_mod l x y 1 2 q1 && line_ok p_mod l x y 1 x3 y3 q2 q3
      then Some (k + 1, x3, y3) else None
  | SSub l x3 y3 q1 q2 q3 =>
      if chord_ok p_mod l x y 1 (p_mod - 2) q1 && line_ok p_mod l x y 1 x3 y3 q2 q3
      then Some (k - 1, x3, y3) else None
  end.

Fixpoint ochain (st : Z * Z * Z) (l : list ostep) : option (Z * Z * Z) :=
  match l with
  | [] => Some st
  | s :: t => match ostep_chk st s with Some st' => ochain st' t | None => None end
  end.

Definition order_steps : list ostep := [
  SDbl 0x244b3ad628e5381f4a3c3448e121024631a10fed0e5557e9ed186911225dbdf6 0x30644e72e131a029b85045b68181585d97816a916871ca8d3c208c16d87cfd3 0x15ed738c0e0a7c92e7845f96b2ae9c0a68a6a449e3538fc7ff3ebf7a5a18a2c4 0x3 0x1b386c209eabea1777ad2736a8d8c1b4a538cbf1cac001ef71d24eccd9c64e79 (-0x244b3ad628e5381f4a3c3448e121024631a10fed0e5557e9ed186911225dbde);
  SDbl 0x2ebdfa51df55c085637c14ca7745a9b77dfa1863b93f5dd40e70e4678578ba64 0x6a7b64af8f414bcbeef455b1da5208c9b592b83ee6599824caa6d2ee9141a76 0x8e74e438cee31ac104ce59b94e45fe98a97d8f8a6e75664ce88ef5a41e72fbc 0x29cafdeed9c2219864ff820658929dc5316421daaba817a88561ed598c6bf1f3 0x2d260bf7cefe770c7a46658961c0610599aea9033ba8d7b876ad0b29cf77856c (-0x381c1e34cb09516b3a98a6b5aff81ec585c513c1c2572c66c0f03e9c0103c74);
  SSub 0x2b3790f34693a1033ea2fd36c1ae1186e727b7905466383f9fb15b18480d2993 0x769bf9ac56bea3ff40232bcb1b6bd159315d84715b8e679f2d355961915abf0 0x2ab799bee0489429554fdb7c8d086475319e63b40b9c5b57cdf1ff3dd9fe2261 (-0x5f186ad9f3a0e0b527f9af4a7874f91436d19363237f9a729c37723b3f56288) 0x26987c9a01ca1ba7abede7a806548476c2f30f45be8b53806db89278f78b74ee (-0xad49826abe43ada49527b06e3afdd8e763ccb657428f8d809fe89d328e3afd);
  SDbl 0xe961a40abfecd3902bb1c8e3868f2f06a8e6111bb6072b6104efcafca7fa6a0 0x9f4ca411a3f52f4e0792fd9e792779856719215d3b32a762afe3d5b8c684af9 0xd8ef3d795acd4b35d4366ab22e4ad335273aa59429e26929d0f64583474d9c8 0x16584f81c6a94ebf3e621b23debc3e22b0f1e6b56e419e6795212813ecd6cbc0 0x46589fae0e4426bc7950c3c4b13c383b03f13d5df84879c5948375b5aa10d21 (-0xc43ceb900cf7d0b0721ebda651440759f7aec0a9d252d2de2613be1b846a6f);
  SDbl 0xb98b758c06981308b79a1a019a4b04010da58f80b6f8222a5d89ee7855f6456 0x25d32c471c8cd1ab9ac9b4118d040166f75ad9e4f36526b09fc0b7d1002bc851 0x2db09ae9bc0cb9addf3404069078f0367ff42b63cb1c200bae5bf9095585b69c 0x5a5f2ea62651bcad88ffcb4837ccaa88e0b89ab3aa242b98a05c61d2aef44b 0x2c76b3fccc30b234c472b65235fd5d399619de2d0ea835d1b113216107808d7 (-0x6adac64761d5f13d53c4b0e48fdb441753de98cc48113f5cd3bc2355fb53e6c);
  SDbl 0xcff828bafb248c839cb800c24b8a47cc46daf2fd5c2f040278d01985527272c 0x2d3884ee594280d7510d2d0d5e732e53085668e1b6d8f91de3942f922ec35fb2 0x152fb4da392da5c238d1e65a12a41f89c9ab5f5e7a77107ad38e34a1b835ce5b (-0x4026c689ac6b4b9dfd5bad73f51fdbf952abe393aa7dc4c81411f93585b64c25) 0x37dc5a7195492c489bad8c96af8df1b085926e549c3c3fac990e1efadfcb4e4 (-0x1fc8df1e8820c30b72d3274a9bc710e0147c0063ab0d6559d87027f7db3cfc5);
  SDbl 0x2256e093565e4984ded667fc6496031dfe0fe653a6ec989265265b1fa025fae6 0x1774c9824d457fcdcdbbe9679bd152d351a7597b49c9f69bb2467a6328b7b406 0xaa49fb46445cf3aa565cef7d4040b4c60d3e4f866e8c90a876f9d7f4d0adfd9 (-0x60b456e57b9c8321a9dd442b91d38ba2402a68370830e94f32f8112f9c4585f8) 0x185e1a2fc52327e0b85a32070bfe4d7a9f2a70b7d3b1f18abb9059004caac7f6 0xf71c307164f3fef4cc5b27bcf5af09789e68b2d5aac2e72ab82f39021a8a10c;
  SDbl 0x251b3035663e7e72c895811a4c9a83698329e3065ade57e3b20c3cf2d1d28208 0x2947e347a1b83971790018d5fa3a3c691f0dc720e0cd494a6c5f860a58ccf953 0x1143f0155e0f21c29867070064ac3778983f0d47aba2ee9eb64dc3f0e22a2b67 (-0x11c967ab374c2ea6eb17dbeff2a78dec3468636be7c1858f732a905d75af1844) 0x1c73d9dd2d56a33c3b27f9a3d7ac89a46bdb09b4451f69c24bb8a5e69f1bd697 (-0xdaaecbf2e82fff534d6809e1ab2505492ef0d79dabf989823f805c0b70d6718);
  SAdd 0xf626240c40fc8463a704cb31518e8171e5cf0c69758bcf2f4b62b75475704dc 0xb302b5ded75747043c1ad07c98930f3c19ab9e7a5625a0ca958e78660f74fad 0x2f622e4d9eb1cb784b44b11de56db7da44c1564d1680e11b3a91b6812c01ab31 (-0xd1fa6e7a808a2d3c10dc217f2a5a4622fcdab4a00939db1c1d46903fddfc5d5) 0x4e40e9db735d232451c6ab609108ffd85d859c900f7615b2c88d5686a4436f9 0x99119919922463258453d22a75fe41225a3664bfa018e07109443929098db70;
  SDbl 0x23cdc5e86f628c58c5ed55b2ae280e669de5f9bf5dbd252c3f94fcf709177289 0x16cdc71085e72dbcf9d9f1802651051ee42daebcc92465b9c60515b43596542d 0x211e1d8c654090fcba6c6b41ff7c57a8a9d8951d0300d5245daa3a1c408e278a 0x3e5b00bd09831c94c2c05da7ae38273c8f5c43bfb47d547b850b1b7aee07c411 0x1a7d81fbcda2c283b9caf1cf35ec68bd9ee53c85c418b30dc11838f61fcbd4e6 (-0x89817a2a829e293c0879b31e9a424d2ae3e8092cd48284391162514329c7c6d);
  SDbl 0x273881704bbbdbf502fd4df746ce334a68bf3af7106904736fcc8637a0063a6a 0x1eacf8162f65a418b50f5fed83823366dc5f5ac1e66e8d44df6c350b713abaac 0xa2b9f54437c5744c9546b9fae7a5c590d580745d67878106c7f6d4b48a7f936 0x1571deaadada9781925b26e463ceb065beb2f904e37ef79007f2aa4b70dae78b 0x1fc9a7753b0fe3d5fc30491e9e6bd83422a9374feee3f72651ca0be3a7925f32 (-0x6614706b837a9d01232634a1a40b5d91e7e406fdcb9a75a88fa6469f33400fa);
  SSub 0x16e922420ef7726ebfe60f5f0c06a9dfb58032d299effcf6b16ca52c5a92f622 0x2b65f4e693d52d982315a229c7db569f8c79f93aa206b5353a3f8bb669cac132 0x29f24e9fac669034b4bcc9aded460e0a046a91eb0b9cceb2647fcec23979fcec (-0xe85eb278b2bf673322ba4b65e8f47212f993e1ae76f026a5eced87ffb5c4793) 0xad8cbac0067e2d4eedc9195afa9781ea1760fb83cc21793036b9d5d9a2af8b3 (-0x605fdeb701152f0e53211126eab1542fff3db1fb2af24d367ad7985944ea7a2);
  SDbl 0x18b5190dc47a8fc2388d2e7eb1be103087916a1bcd4bac52b9b99019d79be8b4 0x2ead2fce0edb7d5401c712891cf90a0c0c8e090f91fcba4c51dec8363d3f5d9a 0x2847329a18a4d1dd391b26024919bfc1fba4aba4e7e33b6eaa150b6361fcb9ec (-0x49ed3e7ad2a5c24926744b968080a7e83a122675f57ed70dd360bcdf2c9bbd34) 0xc9d67c49b79f878afdbcb7f44513a5433a9848f75346764e041ccc967996dde (-0x1ac7c588c662b50cecb822c70ea14cae1e94c7e478e57da9c05470fc068ac48);
  SDbl 0x2020edce0a784e6ac774151e3160c2382f646fc6c00d139446eece41741a97fe 0x14de9b29cdd83c5eed88899646f1cf9097e05b47aec57cfe936552fc10b6fd58 0x1e24a987e680be96594b56c724b83a47c937b070dbabf453a4f7fe3ef9a166f6 (-0x5195229e5287e884e62ef18b247e04e46a1d46ce59ddf58f077226da52ae2784) 0x1554c03c771e2c9f368bdca353c884e64ce0630d2ea24bbd5d606df2fd19b8c8 0x1122493cbb9d902229cfd06b5b93d24bb74480c5a8ce52eb6a7b86626e486196;
  SDbl 0x1a48faebb3190a6f38f62b206455d444378f35fd1d1681a4b72fd171b3a6a3be 0x3019fd738a37aad11ba41d67ff91919053e5244d4664d306469d903abbbc6f23 0x11f42edeb9250b22f7884e1609c9f2536012197a3085aca4c10efcd015f2377a 0x5bec2525739d5ff920e4b33461b34af2ddfb4b66297d6955d4c8edcdd0a3258 0xe46fe38bb413174b5f53e226f31d9a9d0f9014a81340e7018af8ed17e14a3c7 (-0xecaa8f45698802f0a1cdcfa1b74a0a85c62e77994b7e5b78d2c9a7a8e5cf016);
  SAdd 0x19185428ef39f8fc71c632d8bf590612fc846ea28669a43c8998439282f440df 0x1d08fea0d6494b1a2ed61046840f53cadca36b2258dd52a1cf6397221784d0f1 0x8fec6b661a1bda3262f068994c9eeb97636f6539847cdfd309d8b2ac82d8a80 (-0x18f1ca2cee9991306ce61791ff4297f7140ddbb23589378feff0fff14c20eaaa) 0xd03876075f8fb163f3d757a317e4e547f1c6ea4b3c8877f506f53829f20d274 0x9e32fd94b1f1c90450f6bfabd24f98c5b80b3dedb045086104ba484a40411cc;
  SDbl 0x16977aa83d87ad71978b57c89c3d6f10126be63485c6db94afb9eff33f49e493 0x157c16ec92ebeaa708ce9803d09b97f564b3d35fe34d46d48e8f5486252e3609 0xa12e3ac90116fd7c4098b37834bd4cf156e469512d086c0d274d2e55b85e575 (-0x2bdd4ee8e76875556ebb590f9dabc0bbc24c8cf0fc2b57aa9952dea5e4b2dec5) 0xa8c04344d3350ae95ceacf831d44e2c92865458bfc0e09b8d34ff9e5bde0e92 0x386606089a237defe4ee5950799554b2f1b84c461f83160f50d322c50e23825;
  SDbl 0x27451181e3f178a29d5f8e315b3e6720e921f458016ed9ee9bb7e66ad382e014 0x17711b568b0675e01bc70c255e5d03ac7a2499583d3e7a903d1964f138026d45 0x28687a50b3c052468273146cf2f2033581bebf586f15013fd4b4553a0439fcbf (-0xc442cdbfb61a2f9bd6c372b68ffbbc0514e0529cd7e5d478741e987e723697d) 0x1fde07daaa6a5f8a17e8efeebd65389947e4de23b36fd3f1cd51b95b19d26e7f (-0x19692e359d9e5c95934ccf0717a574cbb59a956d9491037eead60d9c4fa17fc);
  SDbl 0xbebc5e4a72832894dce797b023675d94ba4fb3a6a36dc63c5dfee849abad581 0x1e58559e3af408ab36cc76330c7dfb09d283ee44f03b2bcb3077b0355fd711b6 0x1d2bfc02d25554c536eb5a84f9aff6076e9e43cb4581188c9eb7dbfcf2e9f369 (-0xe2888fcc656f39be01a2a2d7dce3c89da6f116a2ef62122ff309a7e997328cb) 0x2efc874bb2edcccf798571c42234bde5cfade11c3e6d4cdf28c9062f48e07b7 (-0x1b3581f36b35397797a03ea45574d1220f92c8ac837b1becbb1b1bfb853e59f);
  SDbl 0x2fc6abf9f34d37080e5e40038ad78f066575d4dbe9f9c72e48ae6e350bf51275 0xc0ddb2e56f43ac699e79a186c8f1e9a445253a5739717a44cf361899fdbe93a 0x135d61f7edd7339701080b5b15ec9850f568afd5f803ecaebbe2c3286e876632 0x840cba8866fb61057b5820f45405eadb18a092f14501598179c38b714e66c2 0x2f2b0afe4b8e7cc7b2365218d80b6f1ed48f9f852d69f9fd4d308fd00cf87a15 0x120ee56dc9132a1a8d0784ed3608949de6cc12815e7d82beda36772ee9a30ce7;
  SAdd 0x2629f9ffea8f943cb4b4e71d3e7fcb2cd83d9efe6293ceebd8f3abfa603f17be 0x1f899934c2182b05f437119e66e1bbed41ed73e72717cc29733ac0dfe0f6301b 0xebc8a5e86219e336226ad25e79717f93ad87c1e196280b3b3bd64115c820014 (-0x981a52bd9ac1dff6f0d134a11e8523e20e0e8738cc311414505ce1743037cf2) 0x1e190b2d5aa836234123e1371e0c8d28b8a607f061f9639195325dc72e6589e2 (-0xf5d8eeaa2a100530e6dcfffb3514df82eb65d46dbdaeedc8d7854edb188979c);
  SDbl 0x457284b49335a1a09419ee3fc70f2f477fff8854cf020b9e98045a2acb51779 0x39247cce3ea935866213a0b654196c8378563096dddbab8585b02564f28df76 0x1573e71ce49759ed06f0223a979a2497f9d208d9b0fa855b3c586136fb65ae59 (-0x3b04372cf94588a8df86c6e80e0cdb7c5fc53c33aa2d55cc22567a3223887ac5) 0x63aa099d6639954b1b83e5968951c864bc5400f99bb364b176f97cf3045ad3 0x28225f2f1b132714696e5e2e6b2230b261b149b3b9f4436c6335ac3fadbb0f0;
  SDbl 0x15a8c261ed8e0f26105550369668c3035610ab4f4031396b3a2038d0fb0605e8 0x23110dfc6fb75366e6a61de00d90ffaf202cf270fcca64dad9e32d73b76073c0 0x19b6e0585c0f4cc00585e622a8cb5199ec923abb7bbfaf1903d71ba2d21f2d0e 0x1269b4aec676820540d39bc53e22a7cbacd2f855ff2a4a6087cb3dfe506404bc 0x9b1b94f5fcd19cbbc0c0aac5f41270864dd09ce034b0ad3b4e727498073cdcc (-0xe18bcb7fc71bae958217793cfee01312b003a2e263aafceb03fcde449758b51);
  SAdd 0x160ea2af73f16e0fc871a70f3e1f811e8a53eb1a9dde41e55f83b6d46c11971a 0x5717327207e4e09f677c013c9a76cb53f586755b8b642958024af96e7dedade 0x92d85cf6bc93e593f57366922bfe251919c34432483eb807f7109fead5f24c (-0xffbc63fc6f07d35debd66158b61e5213a8ce9ce3e7b957c0b41de19ece05cd6) 0xa0dc1d4fc251f3e68e91d90acf7f3f91e4502435b4fa929a9d0e5132f88ae53 0xd80a28742728a522611312797f7ba620e9aff40d79ed85620c36d1d8ecd4296;
  SDbl 0x1c01dd687e547afce8b54cf5a5d2d551778fe980f17c61fcf8d5d6c3b5a3fc97 0x1802bf5c6ab42edede9aae6cb578eeed42c1698eaf91a6a3cdf63257f74d3c93 0x2b1d34640f4de720352871cad09d4e002427ad0ec9b3ca2a5c59d5bd078b83a2 (-0x12c3bd40f68863ba15a00a1f01124bb50fcad4d45bc6120173998679c112efc) 0x1035a2d0a3aeaef9f37ba2e6588301f00c7daf13b8c4e9e028457b047249742e (-0xabf059a445debb3d096064f6b0e691ea1088403dbd91222a715d0265cce5347);
  SDbl 0x2afff5a01de9dbdadba6de71a929f3c1f9c6e5324a1b0a7d77ac9c642df1ed76 0xd7b32fe5dd580a0a90f49308fa7e22f0695443243f0bf21eba494c2d6b735fa 0x14bc33ac6ec66b32045693e0912f35341ae7cd15debf1b5d1f55c566e0cf0e89 0x28e13f43d3bd948fcf95a005fd7494a4228e983bc16d539c46623cfbe694617b 0x26356a59bdefb1f49855d08f29453d5ddb3eec44bb6fc268cb4ce1308c14f49c 0x95b338268887aa15e97d03bde6775a3e95c99f5d19a2a9b9ff589bd63fb194d;
  SDbl 0x21c06e8daa1cdc5f3bf223aedb63a7d520e761f362223a8dbf8631baea668da 0x26608ec304943858641fb418ee040d388e3f14b857de7917acbe35decf361cd1 0x1516fe323d333549fcd37400e29a71f5c01cba2683c0c8e97cf321ad871c346e (-0x97592940ecd1662814c31deff6b871f1e1be96c3635a70f71c2d898bf0b1c28) 0x178a69f784267efcc074b50775c88ef23960293ceb7447c2429ee175277ba9 (-0x115d34a40221723ba72ca66b3a20eb7eb067d0bc916f148f8d72bc6c535540b);
  SSub 0x26dc14c76241c6d5d2a7f47387aa9e963d68233f3640ab735f070054ab65cf87 0xd656198a4895dea5943bd3e6e39d1f4ce7a5e5c76612fba953b7bce17c14b72 0x3f7c42a464986266e8bb1fae49b2213637974c939a357cf2fb867f5343bdcf9 (-0x1ed155b53544672f9972ea33c6e4efd1b525570d8d4712a4ad77f8fc635708c1) 0x1f3486e128d719f4e84be99b055ab2d47bca7bd26a5f2ee7d6e0b2f27fd22a2b 0x140f77744e47b80412607d2528c249bffbad9faefdcf9bfc46918bfbd33062be;
  SDbl 0x2b6d2fa38bdae61a43e939fd275b5da1bd06f3823e74fed6562942fbd7cac6e2 0x1fe716a279860d779cd8981cc065027f923fb1112fc6b1cc4dcc60ed0f825f8 0xc02b1b9294ca834d6df557e24a91987b5780bdf3fab4c164f472211ea9a6d18 (-0x400ebe7bc154de01bb472cfdf8f27fa4b0061bbdb55f45263fd34d46954c618) 0x26f87dac03b6ff9cb8c81b484336d9d5a6fb5f6793bb96d45cd72878502afc18 0xa3b6faf9d995a2d2fa6cb5e123dd89bc0ab3d9e9f57cd69dbea3c3c65dfc0c5;
  SDbl 0x26200d5429d515598024bfe610e7878a494e590700cdaa4f6bd465b60019a277 0x151e37bcd860948a593b1d6583be7aef2304497f75e86b07a6670feba6b5fb56 0x15ece7625df7c298c7aa6e821c8947c8886e486f18a476a1839d648f301be90 0x12ada97f08c852b5715bfd5368f6e5e17372cf5e8a88db8b597709702cab3ff0 0x1e0965d6641d6531712659dadef6ebc4909e549e4de7d319fa8e5e835988cd1d (-0xf111b3c8cadebbcfa27d903b94ee5253fcbc70706bdce278b945bc493977bd6);
  SAdd 0x2ba38695d4dcf4db8bb856d565a10b77a0112173a52c31799acfb53f88bc8390 0x11878f4b08fdb2355c29db7efc1084f3b65e786759bc6c6bd028f9c68f440761 0x2f93eb73692f39442fd3730a01eee6134b7f0e6978d67ef1034c7175b2f0089d (-0x130b37edbc06606cd060ed4688ab860d89d47fad266213ab21307a05d26536ae) 0x275a41e08d28c25c98070dea72fe81ced9b38ceb86a83e0184c66799195ae378 0x33c6d63eacd6b81c98188c62f97909f54162cafe80a2276d3379e933e7ac6c5;
  SDbl 0x2e6082cbba07dc3394c6ca4adbdfea89fd1f1d4f95b21e7fb8bf574f86f93b36 0x1df4e1725c025a9c626a1e27d2e1a5320605bda577720c7397db7f3f7600227c 0x2acfe886b86bdaf3b8ed222f1c0a3a73c099686cf3b71b9ff8eae7525d3f7d9a 0x4824dbdc4e55b141791fe5b93c7c8afbb08d18963ec575e26429a34deea0d0bf 0x2c7230dea3923ca7fac07ce80048d4e17db69c061e213164b16f3c120ad08baa (-0xbe8dd4d867bd1b89dcda6d2dcdccdeec5e9fa3d23d00abcef1600c162f7424f);
  SDbl 0x16801b3c328958375ccf50fff9678ae775b03fb2d5f996e1f4c95edef220dd5 0x9e58ed649a5f28a86a1f7f6d4c3f5c3f66e77d543da8fbfd83c055fae292630 0x19f0f174a4b4c5ee5369cb041779c2452256dde27812cff2e4737a62976c21c4 (-0x352514b741594b8555e197c00ca4ce3124797d62a23d9656f6daae92bba0f8b4) 0xa763cc60aec25299dc6104940755e301c9b410cabaab7955c2eba86ee3be7 0x953bc6959bbf42451c6334cc5199ad8dd0b5a8e1a311f3f5ea14ff354fd032;
  SDbl 0x2d91113829d084b83f00bac0a4b0f7d6dc5164fc0054a3cc7253c667c801a0ae 0x16a16ae35e33bc11b2cfaa11058b7de6668c1a2894d4e519d55ba5105fa85cb4 0x1bbd66eb7f88d25d130903c4ef83277edba12246a6bfccaa679141b082911748 0x2ac80cc55d8e1ee94d0eb4825a6fcae77362daa3983ebebb394c8faf63499110 0x2ae80d263288f574d609cd026d9a6dffb8d4dd3381df2d1d78d204bfb04a2150 (-0xbfd8bdfa75062a7a77783ddff61cdeb31a73e2d3d27691d35cd90de65c5d51c);
  SSub 0x21f1bbd5436ab5c6a8438d35ec64160f48d75e3403588bf1aced2770304d61c1 0x19c2e7204167047148e9ae9601c3fa23c884245bc9e1a03e309ec8b3687e3b54 0x6ea177549e049616771e8f3e06be46fa16a9db2ac9b9d922277cee53c716418 (-0xfdfc5b0e86db4893ede35977166e2414a09c93282c3edf7e079d76b546ebc90) 0x17cf620ab211d1086bc30a6e9843a74438dc3bcbe5d4e82da12abc40ea11c4c8 (-0x23232f3b03b24066822c51553a816267b1a5b2c5301a7436f94f594e8e77e00);
  SDbl 0xae8014f6919e0274f0af2e3c37f022fb8f79c46508728d48adf96e03ea145b8 0x1ce7257b76631618ec3d3ca7ce6d66b5c01f2a2c7e500f3dee357328d9c4744b 0x6587155a14015641f19f2383dc17b16cb24a122c53027afad8d70dbd6cd8286 (-0x2606810fecd15d5c875ab276ce36206e5c2e959735f688661928091d6d016e50) 0x2753efb773d2719c696f438b64ed58a5dc2a913672ca0639d432e07c1ea7ecb (-0xb5417b05dc1b410fc006bdfba8fd47926e3f95ff7ef4701c9d2cae8541f6aa);
  SDbl 0x2f32de11a7f1beb19c3bd7a238726cef7e4b057511b48d9f6084b8148815312e 0xed0cdfceed465e34cc44573646288e1ae736a78c0d67304c2c3ac689df8e011 0xff2e53deab21ba9c98cdf2c02a6b145d245b2f2ee1df1b3a142a0d93f8747f3 (-0x27690cf6d290746bd7c86a6ddf73f80591ba518882ec9309c34a63e18c0311a5) 0x2e08f58e41bf0dde485a0d730be02711640a79b86c86d28a02b9ebbe3b12c1fb 0xdbd6d066044765670463f1287dc6ce089bd6fec9c7f52f457dc8756e55b8bf5;
  SAdd 0xdf0f69f01dc1997240ae11aa2730a0f07a58173ddd834fa8f95b0fd6023fb6e 0x231ab1efbdbd293148a19010f6ec2895252ea120d7f06b17b31e027715e11545 0x24788e407825291ed1e4dd7c7bcff241d2019f2406b494198d07119c58ac3412 (-0x444ac8dae947f398e0792bb36f2508c01806b77916c9863c5c0bc685159f519) 0x4042ff3a3e94dd31c88b12d21c1c69d449e6bd30b5d4f263576423195f6052b (-0x5d8508e13cc2c1873475978533a343ae78f32300668a69c82697eecf044e33b);
  SDbl 0x187c23cdafd85d01e1a55442b9d3dd9df943507ac411a87dadcebdc178132641 0x143a4758ed0d402929921b5173c9b4118e8d778c6d96e49504f6b98ee98c1670 0x194d4c3932fe0c8a59786fb828bdd9b03a41adc3c6bf73294dfa44f610268e5d (-0x277d3e052c2d644cd805ed59a0567344c5fc8e91c8344b53173cee35bca48da1) 0xc63814f5e02754861774401af22e201bd4d5959f9e686aa05bd9f797d9b0fc1 0x786f403246358f11d8c41bd224d913a9dfc4a6410b7405351d024fee5bdee2a;
  SDbl 0x27a9c7188fae1fc9cc1bd8ffcb7a5d5b63d8c2bd40b6983c2e8078af497aa97b 0x3ffeabb5ad0a6782f9cdb9e45c4e8ab814da573fa2c5db5c652c055723fd9f2 0x11800e0549a76bae6353be5fbba0e2be8dd11597aa1974ceb3e828c997cf0b3a 0x101c673fddb9942f548c53891eed834eb92e3f8b57b9740f2f9dbe4b2c6e0fb2 0x20824cc8ed8f8df77fc403488c28cf77ab83c50609f8a1713c5323202b8afb01 0xd4d05d7357bf2e0318e662026d3d3fe98644b520123c9ebea7b95ff3ad5c0f5;
  SSub 0x251997b19897c8cab3323671bdaab08b993d49b343ca1d1e47f56bd36c3f570 0x27e84163841b3c626db4f47cadaa73d3c997c06f5783635599ef090c350fd3b4 0x25f2c65e68295fd3b2de5a86974f88aa6c99321a071fcc5929128bfd3761050a (-0x310fe74258c07168b3a134f65fb09a1045d5b7edcfe9b7c484d54fb4c2bd2d) 0x1c71676dd945c6001775279df13c38c5e8298c8a2f790b5fa7d614c4edea5f (-0x1b8760ec0c4fb4dcdeb579a52b3589b25fdb156bbd43ac03348551b01b389bc);
  SDbl 0x1c8cb1b293150c9fbd4b2a012cbea591ad0da1a02a577c3fab113368f90f6f01 0x2d68154d0a2d2987d513bfc2b5ba267ea06b8e89e697b1ac4cfa70196cff9495 0x54976a667e4a3dd8c27905f5a269413b3865708046b7ee25e23f5880dc18b55 (-0x35f44c74f0ff3eb214301e43b7ff37d8f936d6dd73bf4e3819e1eff620bc8384) 0x10d7e3bde1b2690e387c5e69f45e2aa68f2a9b1173419efe5a81673ebcc9bfdc (-0x33e927a2f378abb29b3e36d10ac7d9f202acf2b4273e41caf4a9205995d3dc0);
  SDbl 0xa14b5738b9c9a320aba0fc41dc34a7eacf9995316b538a2e8f0afa10cd47829 0x137df2049e719cbcf6ea80b5a480700c9ccf0dfaac81578e76bc46343c16cd08 0x28fc7c2a0715b1bc2ef4481a243cc4d2e525702ff9fe9eba50f02ce5f9f38b46 (-0x7d9d1c53b7566c3f20e442466bb9226ff1793b38eba64ce4c1dd50106bfb7207) 0x2199bc191589a0aa68c984a79509e67b4a932155922a58087cf01954c649029 0x56602dbc141e229e26a53df2a6218de6fc98e6547a10b0fd35f2e9d1a3d2636;
  SDbl 0xa19e34504d31f5136d97d99ee02acafc84811e1495fd8576e9d3b119fec6b3f 0xfb77c442f4d82db89d54c7f31ca8f8a005d502904b45c40f829644a4d20d561 0x76ce3f08f55cc908a2a85ae615b4404e5f118b67060767ab6b069df4cbefb72 (-0x671731a6c4213695938bb23716689c660508a61b568957a28cbf898b7311354) 0x21bc4b1c03171a49453f33071d123527dded12fe1c2b32e87ca878572552d70 0xc9bc339b16d0e211e9f9aa9ecd10479f6cd2fb4aa41c51a14f4fdeb1a25117;
  SSub 0x7d529f33133011ee943d8b6beaf1cc7f64614574ebc9c509f8b416223c47cc 0xa6e386aaafdc48debc5e1022386e6c6ace9c87878489826c6cf1357b6af4dd0 0x25836d5350c6091707470961bbe2726754f2889552f293e912936307debaccf3 (-0x28b3d2b4718320f2f0c00e9202a17b4d407391d3360e2725eff2816497c095) 0x1448dfbcfe99190e6f77cf63015f3c08ea82e94f0b84773a16e48b53714b2 0xdb09e63984b4211fe4ec062b694183a6dd442bf34a33e606ce34082fab021;
  SDbl 0x17bb8c9e8957d37f901ef4e021c2d48c25514468863656d7bc971e63af5916d7 0x8b318ba0a2f254211949d247cec79f067d455cd541bb981a59e724af3e04c7b 0x24220185d812807b7050b987ed4c2f2dd3d38f16bfcb034e5321b6a2d4797daf 0x1e0ce57bfcb21e18956ce6fc36c696125b561e5e375dcc399ac4b71228e73a86 0xba39bb1c8479b3fa3a45791873465c0d2233da8562038607b36a285ccdf5eda 0xd951ca049a87ad583ca809d1b6c247f3f62259b635183d50b20c92e50a4cb7;
  SDbl 0x1dda5675ccc27bf681af2669823a2e82836679361947ae1669b1dc004e7a6e07 0x22269f0fa4e41e45e5ddf4e6f9d59b9fa76aa58dfd251704625103daa631eade 0x8f7dc58e7d02aff6b4a98ae6fc3c263aab934be27ef89de71a848d58820d2a5 0x27e3859529f977966ac075c28b6942c87bf2d20bf001bfba22a080469c6c1b01 0x126a8d8adbbeb2a52e3dd477d1d84bbc38bd8024f26ef4782c9696ffbace573b (-0xfb36c38aa10dcde290774eeca7d4ead986b4c4b607acf8cafc59a93b75e592f);
  SDbl 0x1442c245686c8b476cc84a5337dee66479a11777716e64f1963f27564cd51172 0x28e5cc04c1464726c67c6a1deaec49c480d400e8bbac17ddd605d69cff226642 0x509bc2ede457a1b5d76ecb6c2a645284cd845d17b1f901a9159e3d63f226931 (-0x40caf1604c7401f91c0375844dbe48e05d52e1b2a099d7d587f512208d4882a8) 0x87b9a0a6acc4d3911053eb544a01d2b5dafbb6a27422152b44a29a4b8a51a0a (-0x2d3231614fe7020d2669497b414c9caa59c43ed9196e0297a7d1cd241ca11b2);
  SDbl 0x150b05bc01631d37449a18ac375dcca7f6be692491ff0a5a18fd0c4c5861bb2d 0x2006739343c9a726e9879a9b948abd3d2bad01f984d4dd218285e5b54de6c8f9 0x1a7ec982b70141a8006171c47b30f4320a03a89b08e2414d6b81d6bc5d9ce663 (-0x634f838d960edadc2fdb679a17e6a540a80073c1edbeb9640ad72902556e289e) 0x92688514abfbe2219ff93f9c2c2788137f99ec72e2fc0567437de5d1a135234 0x3dbb047ca994ad2127738085bdd5e62df32565dcc89cc72a12426c2c4a34937;
  SDbl 0x26e99335e96fe973cad007b35e14e37b3685b24860f0336d8919996c73a98d2d 0x2e5efb7e927ac4ebc8340144e9dfa02dbec413eaab0930e96b0473f953c36cd7 0x108df32b9176436ee0bb49a583109cfb97a98cffbc21a14ab844311ae456b66b (-0x14f8b7ff432b003755ad905f64800601f08cfc61d8c96cd10274e17a6af02693) 0x1f4a369c5ee97f93e427dded282b8a1aa8b659aacc7a2dec80e933db3f249be0 (-0xb891f7bf07840b502ab53394ba8df42f2f70dfc4bd1ec6722577d5461e4628c);
  SAdd 0x6dc90c5a5be3eeb145e8f7c4101d2954e9e25b9cd6c4b3cb7805f660ac2c0de 0x17767667b3a84605e8ce962a872562b501357953b8604332e887a2f4bcbf0336 0x922c9f42a9b2aadb825d8ffc92556323e4e27004b72979407e44153c4d668c4 (-0x6933686818e0f140575b7f4b1dedb1762fb5d608e36377f67f172872b5744fd) 0xf9113c8e3fbc8f9a915debaaf3e43297c793110259de40d391244fad184eda 0x33f8b169b6870b7675decff12f2fe412e86cafb97f7357d6ca78c5202c4cd99;
  SDbl 0x1ee719cbfebcd3259f5a49d3c5099858aad98edf372816c163affc6054973019 0x164cd01801ab11312ac93ed5e1b4514c25a863812dd6de902fb7f730f3f93cb5 0x142de7bbef6e21a545154097a5936611b65523a65ba9f8a70611268d1ef690ce (-0x16759d532a723b22580da6d8d065cde8534dc6cac20c9fcc29dda5776f0e2afc) 0x13bbfbafa07b5e92b07f9655844c65ce0e96b83b8af9b9945d7c4504ce634e30 0xbe13cce9b752964369e510d1816e47f4462d8db98e8d8ce17c51a5e2746641;
  SDbl 0x6c143c5e6a1e24183de98f17fb81e13d8975f2befd0997ec872adef94fefac7 0x233a93ec978652ca99049ff297993f1829e3ca917ce6549986ad0755c3e29fd 0x18aa11f266d430ef8402a3769728ecfdaefa6cb6ca1fce2430e5b05a1f052134 (-0x19320cd56275204b7c090df2d331811bd9475b0b07c4de119a33748626bd8aa1) 0xf162aacaefacb48cbc7bce376f75e5d1e1c1e25be2571238fa45ffce8aff66 0x2ce343023ca5b3759288d4f5c5fe764115f6a2771dd523be9bea97982cf47ca;
  SAdd 0x12792a14b1acca23192e125d611f55f4a0286cc3b90e32d3de4cf8158d030d8b 0xc4730106c2a6527e4641d2057ff25e4472ab7d327c028471f852b75188897a5 0x6423866d813ffb3348810a9f376b3d2a767a7ffce046efb47fb3ee8b54e1e8a (-0xd72ca3ab184feef6213087aa242019d1a27c08a394c983b57a1c7a863add4e) 0x70d54c7535f8ec597f3f349d5fcb84a92fb7cfa86d5620abbe8a69b88f86c7a (-0x3d8b829850445a1c2404fe183a4f666eb7d29eeee049731fa4861eb38e8015a);
  SDbl 0x1d7b3235387f80a18d19b42ef1af620c5010ba88c5d68dc6f86358660e4bc906 0x27e2ffc9d239b3e76458358440e93de4feff7a4cfc542b23f388512fb0645747 0x14f2bf09964335e6e0c27258f5ea35d296743f279c61ed8d2e19a83b1c792b02 (-0x1b8482367aee3459f90aedf68d5bcbe2133a5bb0a7b407ee27f2270b3e15a55) 0x11f5e5e2fecc7f2f5ac3ddad1b714c4fb56d2d75e650840b6196f33746a34b55 (-0x10d1d8f94479a250a0784e05457547a715aa521a321a997a7932b87f21dc87e8);
  SDbl 0x135ad99ffbd7e76f30376e8fa0db3b38d1127a38968f882e5e272f947a6526e6 0x284cdd64f7357c2b65102d04b4614bec6e60cdd3f6e57d357e1d869e4eeb123e 0x20375adfbf567f8e98ed8596ebeef224c11a8404b37d893689a95488c97bdaf5 (-0x51df4e52c32731761b7be47b08aa4b5230763d8e4ec571ee1c8817684b2f842d) 0x7bdc045d3c482fe5155ee496a825c4736cb7c17649d9e436a8dc4e006d68768 (-0x2a579bd92cd1f0ebc00e199158cc92e62d35c19956df520f10e4680a591397);
  SSub 0x2a58f75b55e85667c5ce4f3c707184d4687b941b2127935d55b7bb678477b65b 0x1eaf194a99062020cc86913e0eb7b7a60f1606f9e5ece1adcf663fae0cb6ac91 0x2f237de4c78fda25b24736da17f309f655092d1fa34bc2dc4347527b1ea0fab6 (-0x23444126131b0130550ddb1e09416b167c4d9acc6eb8ca256349181aca998789) 0x250ee4d779ebd054ef1b9f8bc94db2bb3cce8954e123a8fae32ec754a6374eaf 0x86a488a16b5f09c755b15e4a1b05d1d816c87fc1404f03ea3032c1460b9e68c;
  SDbl 0x8df6f9e9074dc9b4821f9f4319deee252ff56908a024accf49963f4284d7ffa 0x2d00c18ebfd27c6a67dfabe2809cb7c4a4948a4d64c26f6e0bab59e1f5c7bd40 0xa56e317021ecdf40baa2651a6f4a4b500a1a65fe71362515420370fa319ed70 (-0x2914e80fc809e71c6b7078535d7cbbc7fc5143a00de06e40c42343f40278733d) 0x1a079a2433e0bfad44347eb58f02f273bad0e75a8332e41a2a019eabf28e12e (-0x2a01c300af1e7f20fece1a17b485b54618be4acbb100db1ac1c1c1bc8de3194);
  SDbl 0x29bc6d3376b3e4f403abdcae00f7fb5abccd2ba8ff6d54c8014474987c2d4d5b 0x5e2b0545325e8845898bb6746ea04669c5acbeb4f4f2e2fe36441f3b5b26d30 0x2ea5e44600027fd630c68954fc61d5c22bc7aea2feffdb1d2318c86c349df5bc (-0x6bb8355f7a5d71ac0549ec98611427e5ccf84679226a6dfcbf0ff40039ed1aa0) 0x23fee5b2bbce7c5ecef16a877974030068df2e26ba7d6b3246275a46302fa48f 0x21bcbd20cdeaceb0d8d0e65cf496d555289d3309336b6b07ea5b1ef20eda3b5c;
  SDbl 0x25f52c3ba81ddc7e1fac3cf0eb318176cb77d2e944925f5c15db595f86cf6e46 0x66e5b700dfa062649f64bc4445197e3a216dbfdf70cfdfae87e018437da2f79 0x4e988d26310bbea4f207a560e5cdf4f5723fbcc0adb6ba4f3410e8514016335 0x470849684b73465a7c47f0304e01ed3c990be5094484d7ae6cfdb1e893bab1b0 0x1dc5fb5b0a42c76b774570fc8231bca87d7aabf99f357475163d7b97e4f69ddd (-0x6d8dafe2749e88940d4a33d8676af99c5aac14aceeb77c70aa05120f87a961);
  SAdd 0x19fc3410a8f1049291b8c96a3621cc7666c317bd7a83c32c4059ed1c52267d8d 0x7472d3f761e3a11b2067b81f6ed6f7a8bab6c73eca891d370ca34fb73bcaee8 0x2767870fe39d94b82bf14ba836a60da5ace06c64028c7e8c3532cc3284e021e4 (-0x3740d3921b5503597cf146a3845dfbd63b4e5b47f42e693d37518e0f9c65573) 0xdf4101a0c814dda495446ed12c44b2abb1b252e21cc637ee5d3aa114d4dbc01 (-0x746d32ee24391da70a33790550cfd1e3053f1204ec96e507e0e19bb05883e4);
  SDbl 0x268f1f7d3a6a58f68c2ebeb7c3f07afbdf1ec6035f03f1cdbe1b0b22e1857206 0x213fed07dde3385bb4cf85c5de672ffd1056fec52012d9d96684d84da5fade88 0x1848c40fa2538c23018c8f4788389fc45d5b133e596b611a49b976decd52a12e 0x3b83069bd84bd811735c22725a025c8520b8631cfa7e288133d9e694e495a890 0x1eb9682237a5191e2299cf9326c2302dc6b75620ad06587b91cd87a3d4d03bd4 (-0x14b1c9b7bc8835060a3cdfc16ca383686a8a99702eb6469ad0057d0160ec399e);
  SDbl 0x109e284a33747db30a621365ecf8739fb36add5d6e295169dcc349ba8548b595 0x50e350891e3c5d9945458a8a353518598985050210b4b64383ad425af2c4018 0xaa77223121a01f81b984824b2052c6f56756f5ab9d0493ac88b9cf35607c7a4 (-0x33dbc802a7e15c83b7890fd451baf41ecbfeded5577b5a0fa2eea39fcaa2132c) 0x5b4e1d0ccf575f4ab5f4c91520728e4b7d98d059586fcb1a88e0c668750bc67 0x9ae92791a3562e10b74bcc487ed2870d6bfeb16f19af0447c14a024aa1985b2;
  SSub 0x1095120dc7ad73292706c053806bdfaeabf5f6ba067524a90c0c0fc4f550f7d5 0x6d4e3c398a233ecd52d8c38daec14a7fa30bf7d87b3ac4cd82807011f3b1bb 0x2725878c5b1155c9a103a243131449a065ad55738ad982c2d43f704612bdce86 (-0x1bb7b97f7d3772f2b52b08440831c2bb64c46a68f96b8b96da10efd7081ca1c) 0x5aea5dbb0cddc00e5f48c82caf467065e74256809e3a141328be2a13d164df3 0x19606fd661fb5154acc0860b5d200e96a12c0c95ba3a6634f103306f9b34591;
  SDbl 0x1f5c252e0c6d29fb807b56464c2b3ff32510ab753ea7e769e049f6d8335e46e4 0x4d441b8b40a032a0b52c5190828637cbd0c948f9d83a018a4c3b771ea58830 0x21117d1578a8bd1003570452c8e505a898ff708c566a061f414b9a9005cf38ad 0x32b9dac1eadb839d581ab07e58df2a3d87d5b3b02903d2538603acf4f010dc73 0x145293aa51c885e77e6b8016f7b54212d7dc0ab17e79803345eb6a79841d4246 0x14c353241a6d07b011c22db1f4a1bd485ee7473d44e47d067a85b076ddb91f;
  SDbl 0x2904d764ad868a63c312128d5cfac63b2d449bb1e010bc4001ff8423cf2b778 0x177f9c2c48b777c0b330364950e5a109c7581ff9850c147d192af71ed94c46ee 0xd730a5883765b8a9dcd15e76e911785b3d73248dc12b30a75d8b540abbf6916 0x37f843f9e3d90ca5a721206bc5700bc511be21f2812853812e035d18f859150 0x22c4f2a6e2e77aaf8b7325f0f6affce9b55f30145f79e766a1285131fcf87e (-0x13a99611d7b6ce6d7f3f4ea646588d8c21c870b06ff3eef7535a521631d3a15);
  SAdd 0x17b287e59f438bdc4b42cf5a2e8534fb9f9b5fad4db8d397775298d69139a11c 0x1e143cb9c98129fe2f22af0ea284f15382ad59bbe75232ec491724e3bee064f5 0x217ea5c180406e85652d6239a48a33b67d98c41d203b10a8fbcc02b5141b648f (-0xb81d54a230526ff41460a5e204de2e6cbd8a1e7b58f8427e3383f62e49ef768) 0xb9ac4dc10072cdb128f7f56900383ab1521da319a902067dea7c166c1a65d74 (-0x338f5750a7bc8c2bc71b248107eb5ffb6524be2d5b5429c14ff626ad45047cf);
  SDbl 0x1dbfb1889fcb8d70cf3aa88c606610534b771910aab8af44358f8136232b040d 0x12ecd235755e35a28298f925df137b8ea01508824b4517b42fc4eb3f69ae5bf6 0x53b6b6648a18cc8819a22f83d92155578506647cf9e092e69e7397930d56afd (-0xee8466bed000b0ad88eaa504aaae0aa02acead5e28ad274225b45e675406e73) 0x1249bc901825f031b40f533c82b0195fa67f68f8d17c79ac4fd93b08b55b876f 0x6db5ce7cbf1fa9e3a3acf9c56ddb62ecc63b697b434a41f64f9e736df32cae1;
  SDbl 0x7d0e4de599e89a0bc21bc4d2bd7832bce267b1e16c133d72a651cf3d0618c88 0x16c1dcf5078f49c49c69fa4ee4ebc2c30276f1ce7813c91ce7feafcf4991338b 0x2330a185aec2392a21e3a61e27677c6225ff52aaecebefafc1470eed5f19669b (-0x148377f5fdd5685d631e95d3ff214f5be9fc849f9dffe61c94dd2a1752a7cec4) 0x1432c8266faf38de8a57d415c6f59e2304bbdbafd4886e1bce3be319d99dd6f (-0x9e73e674a3dc339db87ae6004ec5d33028074c55ec7ad7dac4763b2e24e540);
  SDbl 0x2cf5a01d89d359a2ae7b4beaef0192270182845d1d56c4427dcaaeedac96b77d 0xb96656b328c5ceafe6295a1830698008a8218344c792ac4e6a02d4849ce87ae 0xa7ec0644b4fc57b4ace95fe3912c8a1e3d938eaba6acbb438beda972dbec2a9 0x21481f74158145a0bc452ba89ef2d636ee0fcf72895ecc3aa87267567d23a0f5 0x29c5448cbde715d968c9310533c7cf3dc7bcf222d88b3aa2abf364992c320813 0xa60a66264a651841c656f07711208546aed7728b3dbf69e9d2103c5394b3cb3;
  SDbl 0x1be7c36735c142edeed61917515c5e4373acb9307826dc2f53106b72b98150f2 0x2acec64f3ff33d5a79e6439b986f3ab29b39bf5f5f89f0d3d572392145c34c81 0xa5b4f305f1df4960908062c9744269f6000b1c7e383b6bb46b1691f7cc0c3ca 0x3c7ba74b18c2c3f41c6befd81ce03520c0a6f5b224344534302474a928dfd88 0x10177a5474ae0b96a0c8cd56be730cf9fef7887111a812af12f892bef5862761 (-0x1200d5c0f81eacb85a8a9e5fcde22a9e5be7a82fb6cc6b065fa321ed7e933b4f);
  SDbl 0x2a930c420be9d7752987279c1f1505f995771c2c31e9eab166989a2c7a815572 0x278a4d433a55f2cb0810143ee329f6d7635d48072359646422a45066e8817346 0x2c217a4ba655ce3e3a0d6299711c6ce143513f72529d7d73c7218ade97be0b7e (-0x5f6170aaf44bedf76ae2175d86d3a085f1ce9bb2c21071a68c4d45ff4a28c18d) 0x2574d201ae92b98157aac7ced2add174147b3c5ed5d8bda8565f847a35c51fa4 0x2dfea975d1cdc411ffef76beb4eed708ad3163634baebe236a0356e6f132312;
  SDbl 0x1237ec0a92764e29f1e2ad621601b8cbf79d5560527ead139762d2040107d2d8 0x136833e662a3f8598f3e88f3cac64a1d7aa4ece91eaf9dfd05118fd48114eca9 0x248b3ec4d81ef8b5876787824ead1cea00e8781ce119cb938fc2fe58fa9e592b (-0x3fb1d9b15cbc96bd96bd417c7a49321c8ee0e8bdfe5aa0edd4db03acc774a6d4) 0x6dbdcecc5845cf9e626d2b1cce4fbb8ccc0a68a1ec17e37c8daec8a6755de1d 0x794675c00da169712cf8038152f76592d9777a044813a1974617bd6ac394339;
  SDbl 0x15e26273249766945affbd32c2dd606877ea793e57a60d0a43ed85f8739bcca1 0x29e93343ca6076de9a610f2bfb7f12a378feb2fbbe4c056246f6eef7c376adf4 0x2da0b0c07b0409a033d48651787e5efa7fb270b614f6c4c36af1518d7cc5bdc9 0x9b423027b95b1806cb1b342edb78be47270993fd6a5129bd071c9c48d70a105 0x9e59364ca5e79ba3dc3f849570785665565ad9fe9051b8094b2d9e659a8cbad (-0xa2d4e38f3a454c4b5fb25b3831be59d0b1807d1246514cc57f74da7ead8af69);
  SDbl 0x1571e7c652b64f803cd992ba6229230a3941a5fe9e4c4b929a7638806c22f791 0xf94461ec566037f6a0af0784d459866cd439026e5eb8322a6a62366991a9c38 0x361dae585d64ea897b0df0e496edcc507d29a9cc4995020a328ddd9da1bde6b (-0x4474391293ca2c574c63d29bbeca11827fab0ee88463042e1957580b53e1e112) 0x980dd1b0efecef500c170421f5101ea92a797d8dfcaba7e57beb917615f3477 0xbab41a3ad2558cf72cd082b838c5dcabd8ceca112905e7868e815e2e0121678;
  SAdd 0x2018fc262cd5298575d3796c36a34bcaf4f2b2b440e3f8ef55a865ea082fb1d9 0xbb8206cc6373661fea600032cdb23e3b0e26bc414693afa0769e8a171102c8 0x131a0a11eb0ef9117c0ad48f2e670b3e17270477259f95c0a265a55a132b22fe (-0xa555d533186080ce8f3a8b2c84c45e19fb352d37c303f93f6b6889ccd0a561a) 0x154a3524a261712e8624b96675c2424e9db41caa99f1c39606712e550c1e3590 0x9d8fe45f07f5af088529cd8bf2668d02868b1fbd9ab2926fcd5c287d99214c1;
  SDbl 0x1f9fa64eefcf029fb9e8694bec446ce594875e2f64f066da77ed299ee5c2495f 0x2a53b6cf2b76d5be6f86d5bd27f87d2378b67aa1629261076daf2ac1e0ac58a7 0x2098ea12fca034a1ccd4b0b5df4483eb5e3ce89e7dc37ac89f53b15cb267493c 0x18eeae6e5d534b4495fecac3109bba221d675cba7257882ab8628e62db58b41c 0x14aa6fa1af9b46e9d6e750bdeb299843aa5b151fbac95609ef87a3349a7111a6 (-0x1b2e8266bae89c8669ecd0e7b3303c41f9bd6b5889b3f0bab639ae88206b88ad);
  SDbl 0x1510801c397503143ba34d09a7a21362685724d9e5e9a5b658a87edfa0160d31 0x183e3aff7d3e61ad88faeb897704d3fd391326bfceb923b490d5c787889bdbad 0x2168fbb589bfbe8ed0fa49699ac4837975d8b94359cd0ffa497e74effe5acb79 (-0x52b03417d062b44db7d57fde6880bb10e08326b446b473353645463f825b1ccd) 0x92b4c939939e7268c3c29eb7c5969e808c9dc6d0b8cf82ff64bdcc00ac6316a 0x7df2a776e5a02e9f5ae80c5e6d3579026f695393f4118eed11a915992454c33;
  SAdd 0x404c72b21c90840a957499653c28085d4f2776627ade19e07894002f80d0c51 0x278712b937598417863daf8104ff51ab420bf952408ea7018258ce2904eafcda 0xd468d7eeda8eb16cf97b6e408d23a77d53828f4860269011dd14e9af51d4556 (-0x20364569ecad3f00a4c8438d1e8e2feba0f3667c60ed0b753b0843ab26550e3) 0x556f231d03fafcf28a0429a93201f34576e6e282ce236672bf105ec3e7269f (-0x144f06fdfe4b364cd542aadc705cda4803af0aefac1e4dda157f50bdabb4994);
  SDbl 0x17879a7b61a17c327d14a24949623da0393bc6202eb3a8e355e66a65d1478f71 0x1204303c7fea2c0920dbbc488c64ede65dbae20146cf59982887f30a1c20c69 0x118df95c4b95b3e8c51e1c443a8e203925403ad401541be25dc505166340bf69 (-0x53f38bbca7a14b66aa153ac7a67e929f21bbafbf2b430c6ce85e3b012af97500) 0xb70dff27353275f5159f40d6e833c52abcce3635881e22816d511ad7dab9a1c 0x12ac109f6c34e28a16a04ca2bb4e936162c8887159db6a01e15594bc95a8abce;
  SDbl 0x4ce96142a13a74d4549dc4a88a1a52d15bf441a4220156a05855f16b2981b74 0x261dcaa02ed0ad50b46d2218c9877fe368304c1577c028f75cccb7f7a0016f41 0x1a6233f94357c0993bbe26583dbd0d902132f69447e067c00418f8cf78a38599 0x368b0d6d2b369c77886f41c8f33faa2436d3d272b622ec0ee29d077bb2012e3 0x7a3d5b189ea08ab29d8f1419338d3501e1e6bf1d575ca3c945bf8d97d6221b (-0x3aca6a8f4df651367c0c4bcbf00f48aa0af293f5f33825b1518b7a3e8169b0e);
  SAdd 0x1e612182f7409ec97d153181947f43b99fb407c1b8a5ad8950866d434a684c54 0x1803bf95dea50abb6a0060cf1b6a904fc6dfa5d109650d9c66365aff06ece1e7 0x1372ecf3766273a80667b609d3dfe6e397ca1d13453d8298bfa6f7ac30559c96 (-0x17edbf0b1ec577ff0c5a421fbd9a72e80ccc36292f8dfbd116dccb1c0516d9cf) 0x131253c1534017656a2c2859aedc89042fb9f97d87465653f542726d48a9f9e1 0x8da501657a9a24c7f75d1714d86a7c123b10d9a730d0f2361b59612be1b365f;
  SDbl 0x387bb97d0c50ccb8a835f3a3ed7365a057f165287f2787ee20629df7c108a96 0x23dd9bec44649677b1999c97674b7d2e5e3d1ba88bba6fda58fd6da4e1c57e0f 0x1c7e3cf4543d6ba076b37f1bd79cbd75086db764e4934657a3c8d24c61588187 (-0x20ea1b5b1eb6c108842e88a96b7f970a3d164ac38005ae7150bcd55e14dff99d) 0x41ed7fd878f7fa217d89df8d76ffa02b977f4346458a9e68b62137e7e50941 (-0xdd52521cc802905b04cdee1904586b0266b2f8ba945f732a1da39a1c7d188b);
  SDbl 0x13d0048871eedae06c3560a9c139cd7ed19941be2254885796ca2f98f0fb6a 0xfa742fe9fe99eb2d0f3f775f928265c24eb30693ace4436dda02cf1e5f06d66 0xe2ae5da051023f666262ac878434bbdb9453ad86bb242cc62a28e386890c4d2 (-0x4fa78d6c6596fe13a239f12bdb7a94fa84e47ebeea01e3e3454e02f0ae7797f1) 0x81c9599c667dcb2c56ecef2280b2d185aa2bf79da2b17ec6ceea9171ea0 0x8467aec50a4283d78bf52812cd73587363c7cef40539091a08eeae75c84d7;
  SDbl 0x1ad526c6a54058996d94ee70c87db6adc582b0263714f3523d083339c2741f84 0xb620dd10fe4616900e87eb87145ac47086ed79319fae1cff20feaf84b62f182 0x309eb133a299fbed7b004d64bf137927ff669d0a3d51f3b5809f3ccf6f0f1de 0x856e4dbcf2d6cd141812ad566cc8d7d15bd7d7856dc49af1fe686fbfff463c 0xee0da7208f33cda05f1c510d377eec7ac0df02108b6ab6c03f9c607e95b2b2e 0x25e2b4ede5d81891c67b6474411fda316d851767e531cfef0842eec5d9af220;
  SSub 0x254f800127f541922f88d09722a30c3abe04c8084c4a234619c62bc6536346c1 0x29cc2e37a2a5d8dfd27c3cd56f4c20b190261ea5a5bb3cd2565039f698366207 0x249d39710e2d91a245d390b7b5b8ad601d765e995da627cd6778b94ad44ce867 (-0x8c6c34977b9c154e4c2baa3ef318e72053956a688ea53f4a52817a071c0b318) 0x1cc44bb6e58808cde4321d0834147b09e915ae1028b4e5f2fdda22126a2565d1 (-0x17732d242258e1fcfd1f34995a9c26775f128828628f05f7a4bb23f832c2ec26);
  SDbl 0x1223101c4aaae50db202a023ee3aa297c89cd986414c050f1cebe29cd2dbb694 0x7903b1e0e8b2ecb924989f1bc8c79a032cbd89c168dd329cdc8efdcd08bb191 0x1183fedb00a81d3dcf6996a9c1a65dc277b95599b97f67eabe374fff73c4559a (-0x50dc37ea739e38f4ac8715c9adc1a8bb9f0c960c5478b2938a189a1c09087c2d) 0x6cc312f843ba07e55f20c03d3aac36119348f0a0d7d3edc15eec8d8419f0507 0xcd4acfcfb543d1a24967ac406aa67d74a7e3096569f253a601c029f18f5a391;
  SDbl 0x2160ae7a77ed4e047da900f1ae78efbb2dedfbd5fc9987b83cb90ac4636be8d2 0x151b79f0e86704034747baa6f69f9f65cd26f1e903410312bff992b4d8f36741 0x10a798b0a0e80d005a350cf6a25404db938675ac76e8fe8479bb1271eb10eb24 0x149db0f958a5ee2d64cf0a56a707f6a4ded27ad54717637b7b9f97e78ee07813 0x170596b54bc809aa0425827160dae48f4147c4b7d1ea093b352fbacc458c7b97 (-0x9577d603333d6aabe1a1a7c13c60570fa7c1cc0c81b6becb3ed7334d0bbb2f2);
  SDbl 0x24601888fbc51b48d172ee785c178b651742e283624a78fe4cca37d447dd76f4 0x12273aae7cebb02afa8114cd0f6b6e95dcc89c96ee56c4cc65a23acde8994e06 0x1bb41c4c570b915fd4bfc26611d69165197d6e3398cb29eac5c6c4c5b99a8475 (-0x294d5df99d6bd69126d4bb7934914247cba34fcd84aee009ad1f0a3f79a9f85) 0x1b57c1ac22c2d8279c338b8f6475f60807e354a2b68948d0b879498916bf47b8 0x2387587a3dd5ccf6de26b4794f807751cc812ac509b07a2e530e1b7a07261c5;
  SSub 0x2167a15b82d6aa5813037e3bbf9ca06f4dd44f1a691c78da1a32ee11cd58f599 0x279f02bd00a2273ce2663dc6d01e54a2814b2509703c79651c825ac6a30bf870 0xc91d0aaa619342f9b23e769cff3030e7848055203b41a69eb51349857317fd3 (-0xc87f9c8bc7ce97d8d0b14c150f893b7fb6c8d9dcb638baa2f3839faaa7f594b) 0x170f2da032f01f316451aea16020b0d91014d702fe0d3c7ce81c5abd7bd16e36 (-0xed1bae99d977f2924c888210c261ecabd58a99143da21b8a8db8119820abc4e);
  SDbl 0xb610e00597c96c1079176489bb7378a5c49024685c120b102e1efb6bea36d25 0x120cfaadc2927e79221070da34428ac7873ba9ab63f905edb738af214d1cb9d9 0x2b321e0bf681ba00ef0ae78a23207438c77c1008439826da5013f0bcf60d166a (-0x5b68ab322574bf30dd3fd77ee2a318c120b557c18d111219822d4397580bb6ee) 0x2acfde2fc5128606079e23725e4eacc66d029709a2574f30d0b56c51aff0e60 0x5127b1e86e69b4d2fb837f0ba6c55d578330ccaf7fe9208f4f1e9d7b57aedba;
  SDbl 0x1e1ac59502c903441e65e9b29d57e7ef8cae98bf55e2b3725a377cd1b58b246a 0x2131bede48a5a5f0e46bcca99b38351c9857361a15ea636c68e4b18f8a4c8357 0x1424e81cc7d0b54046c571950e8e6305403c37d33ed29826d2df0478983cb8e8 0x218b7cd1c421481f62a82596e8d577b565e165518e6c3411ccb8cb0d1d1e64e3 0x12ba62fee1267b1e29129debc70704d4ad341c234641a14ed20f9278eb96b5cd (-0x96bbd046dd35a5b7d83841537d3f3e945e6db5e59fedf00b0dad14ce136e592);
  SDbl 0x1e4f85c08fb05978e54a2c6270592522f79527c3996b14a788a7b174dd063287 0x2fea7c927621e26e0ed6076df4ffbdb5ac63e53485c63fad94ac5fee0787a66f 0x9d99014513203ead22770d2c957b4a9a06809731f545e046ac4cea2a6b2d4fa (-0x2b12e9a42573cbe46b871536e8664a10d832090c637f296dee3550e9a30e7365) 0x12fc3e666c8f615f48ec2656b28fd6f58965024aac78492bdd7368af7284334c (-0x938955a9b32fa1ef23e069f04409373cda952f1f6f265a82949b8a6e6fa2126);
  SDbl 0x979894e03205744b1603e68c1a98a80e4c94e2d008e0ff2d495d3681c41819 0x68cb95e882e0508249f2a9e7bb1895daa64dc668e0e268eb28af9ea4e8d3589 0x2ba180f56a7fdc38245ccb9bd5948070045a3938d5a2695df296115bdf75f511 (-0x8e17e196f57f500a32e424ddd8b19bd7d3d06a291beded4e9583ef8419a65b79) 0x1dae6cf5b971374ba3b753c13d9c91617c52b075f38f292825518f3a66ca6 0x819652548b5057bcdc1650cb67b4a1782b27c9fcc1ea185bc2debe6a4239bd;
  SDbl 0x195c5802e045cb7aef280e15a2c84df17a71e166d93733ad8fe39d0f5bbe7d94 0x2f76ac2bbfd4ce3c092fdcdecd057259e21404b1f59f1104dcf9518f952a38fe 0x1ce8b0bd1e2e66ec4dec6348b0268db8ff38d92f61ed27693ea8612373694455 0x2b1263fd86967b572bac5fb708e61950e2978ca654dd767dbb106ac3b897dd23 0xd4a71d9b2f9e77cf186b79118f2df507cb9abf891bdc700a84b7a4e5bf7ba80 (-0x157115e8392121769813e1ab4096347caed7f56bb9790503d54ca74863bef2a6);
  SAdd 0x1915e3020ad3da0547c24260c6190f5193dd2a8d1835e6a4ad8f779d3a8496ae 0x962ba09c26825836ced77ec4b19cc78d799afeaa6af3db744146a6a97d606e6 0x2b6f54efbc0f5d31a33c2c2270072a78fd14a309b9813730ce100704f1291444 (-0x189ab38e55c5586890bfeb773c2c10c8bbe8d9990fafda468d9f1dc9bc65c2c5) 0xd00ff1e0cc8a732f0c2761c0b781f432a16a7bb404cb0f2bb9a9948e2570229 0x13bd2b398eab4b675d263e78904ff96f5142d71ea79e26af5522e8790b347e11;
  SDbl 0x1f278a36a1a78529848782949af9aef8022a17ef838e20d96df589f656b640c1 0x1219fde300a30c8428be2cdb9626dfc30393955f6567d60f9c19dc84e6e7e022 0x7b39ea2e1bc516f30a0f4d83b6678c0d1a82d5f89f82be70097762ff90d14c5 0x32771fa1648b62f7122106a7e046f83d567e8d5f30aab9880561ecb7bb9e3e84 0x140e9e86b1da45fe26f116763e939028370d223dfac55df7cfd5bf36c5b81d55 (-0x59c7aa6577a274eb0f508088f30b44ddc66a98ec216b2bf8c4399429ab14513);
  SDbl 0x2a6a13f925fd12d91e07f8a654852b677b2788feca31a4f3979e58b7b2c5d60c 0x2ffecc6e0801e3fdf70f059c18a4060587e07ca9ea1cee0f8490d48ca3345115 0x277ea1a7c7714c988ce815a23669f15bf04ed31daa8682a858a4235f94f7c090 (-0x6d008eb1c0669518eef8ba34c48f78f1486d21fe6c4f565e1d1200ec8d8824c) 0x252cddd1967756d6da3ac62f882b0cf7499a70c799336bcd0683f33b0fb82691 (-0x1a33844c204c9cad0966783ca7fc906d7709c2fa7b09ea410b4f5266b614bfff);
  SAdd 0x4b258b07efba57d9e516f398d9caa5ea94169478fa74cc864101cb6976976eb 0x210301ad44cd6e3f5b5dfec6d0775a4bb06239c1af0a5df46bcd842caf914858 0x21a5df53132237b9167b07f52c472eaa061d3990a2fb1e1046804e620a69ed94 (-0x4a87e9e2228cd79b91b61de0cbf676928940f918da64d8813cdade33c0ce3c2) 0x74b1947e2ab625a4a7b548ca706f823f9280adccd81a30f4192d102e1ce4dd 0x17448582975e33563b26d7793e4dfc095a0140e1987a5285d863067a9d2014d;
  SDbl 0x112b81a89b1c57c0e16c4c90057f8d5409d5a2a63160973e841b331e8bd799a3 0x17fb78775403a8d098da16c8b11f8594bd7bb03c3304ef355b0586aba6f5aa59 0x18d74129f559e0728deeae52c07ef370af8105a9d633e82eaa81774668c3dd8a (-0x2baea1c868dac840164b6924404bbcf9558646557148d6491a0c0f619bef5978) 0x61792df8fddeaf9abd2a633ab603dda25a473dbec300b5be299e56102584740 0x33428812eb81d22e5c6238b88b67bec287b70c03b17d5c9c2a6f3fccbe42449;
  SDbl 0x9c5c687f1f3889e11dc89016d0c8d0a5527c09d63b2fee40825e8d30f6dc141 0x2edee0a2dbfabc305053e5c8852f3bc828bfb688ef9e3ddbe43ef9dff790200a 0x2dd7fff2def9ee911477b2673edb7c8e0f175151bbe85318bc5f7674e0301791 (-0x199f727c1f0726b0dc7a30ec679caa002ae9c8eee8f887642159a0e5040238c9) 0x1f9399224910d200f2e5f90e075f73dc04e2e91768ef0b9175a0d49dc416293 (-0x49f497251f70ea82b7f5cf647b1c2ac462a824327beb43c8c6f6fd052d9cd94);
  SDbl 0xc20952c118eb9187ccf1c8d33fa608ebef27f0a2334b99e0ab6c536289d2f64 0x2996df09039564a449133837afb21ef03d69d60ac36c1df5ffe0354e3e9bc9a 0x2e3c465110e6c8b2787abcaf325fb8dfd40983129b2fe97511cf3cc2c30ee3bb (-0x7136d96c26d1ea9edafd6f135b3fa543b8a0d3a071e1d0749b81c6dd122538fc) 0x30a06d8e8b38337c3ea42d162d4fdccadf1bb8a8568317f276834861cb3f38e 0xb183a9d394d3b327393778e2fa719ada6a225804bc3885ea1ee0f74d66419ec;
  SDbl 0x29c370ecda430fbf5cb240ac975f5b6716f3523eccbd169ddf2d12df6eb22f2a 0x403805ea3d8a32cadffd699fcb9aac47f87e0b1b60e7b9ede0b7cee86c37adc 0x2017d738cb627666353e703a2f8cef4384a83ea819b0c140736134579f3285e1 0x4f62d104ff67b0116d9315911694760e0d0d9c7302463363973cfb3d39b74f10 0x240b0032a09ba679e2203f186b5fc259856a992373dd45b8f62b3a4fcbaf248c (-0x1387a547d90de61d8fe7bdc93c352dfdbccf3cf79a2ceff74459df9f528c610);
  SDbl 0xcaadf0a15a58f18b77c537e6c98241a47c4d104d437c1bf39dabf2d43313c6c 0x2e82fd179f850dca69271f2cfb3310ca6677bbc9507aa2eec5e37f4ce2f914ad 0x609c0cfe660777bf19a3816c5e6871128a10db8d691454757f043fee5a510c9 0xfcda237cf9159cb10ac2f7ecc8e89890e77e6e62fcace9942f9c89497175818 0x350e1ddb2178b7c9535f8b502380349cf6660ea593461979e0ddbd5a4b1ecfd (-0xb1fe8d847a2150105d9c3b1a10a76c7854ffcda9f1b247e0d38ca57e335a57a);
  SDbl 0x19c1a075bc7593b7c8907a50e511976caaec45e8074f4cdb3f51ddb27012f384 0x19777e372f97008ed25848cd22971a346f04c1485a75b807bc1433637916521e 0x881328ca1d4d57fb2197bc693aeb7b8b6f83be014a197f7f0a0b50babf95b57 (-0x7fafac026797b6aac50921f2386d4033a7cda6818c8bb0498856735ad753b075) 0xdb56e7e9a51c092aa3cf4edecfaea88e57843b8851a5c6e5a17820213de86a8 0xb33791ce12f6da60684bd1be67c07426e3d2a0b3f7b01246d8c2cc38f4da684;
  SAdd 0xd1c4ef7baaecceaa58721427001cfdd0086dace0daf045f46e91632887b2259 0x64f3008c7f257ce3fdfd2332b475460481d9b078c20528b20d69afe3cfa8d75 0xa39a42ec34a18b3837a81a03bb3d6cb44b11e74e44820cc0dbd956948c7c8f7 (-0x6e64c0e5208cd8fd846ebe9a826b02a22442106b5ecc749fa5bda416eb1ff40) 0x38d4f44e21fe850e66a70e10985899b8a8f0001183f5488f4298167b85b5c3b 0x530b3977f4a7e6c976eddc78a891813604266c38f06cc131b2301f994523d75;
  SDbl 0x112f8842639ac7b70f58ea26773ac9996fccef0ac371e20d69891b6a2557669 0xc972238103951178be295eb8b24f9969ee2e2d0667f24c6d303b6e8860d1cb5 0x38346a1da4e12a14aa0a23e3d4c724e6f57dadf9aadb3d692417d4a0d95ef10 (-0x2038ff1fa86dc2a70064f287674d2852f5b5865f3b6c20c30db0b04d7f65c4b) 0x61a6e8b8454c44f53efe3b411e2943162b6f2e9399788577bc762258875fe (-0x23b0a12d27231de1a80d906c55f591712acdc73923a3acf7ef8795cd212401);
  SDbl 0x223898e14545ad37ff32aea43ab66a0353126d0f1e2eaf9d1cea8b9bbcd78bad 0x2822e9e4bac82d2d8b6d20d22a6f30bc619204ea187893fe36cd7f016359c4af 0x1884a53e5d6f4777f72310d73a910105c664f936a27ab6be5172c0834def4e67 (-0x4dbdd81661a5b670da11baf5b7f0132fcc429383b5279e34889c9b928baaadd) 0x183333c222fd878000b8597b4d74e8bb6904b213f9b2799808466368cd972cb0 (-0x137ac89c6bfddf7b392b2cd3c42407f3dba1d89234601b35cb434f143d9b35cf);
  SDbl 0x9836d84d11be7c719a5e1e74c9e64c03901d04ce676567b978a0acafa57178d 0xdc367c5827f9542a230ea055543ae2a3ded3315aed7eca2cd8b8ec349a2965c 0x144dd4d282a1a0594d188fa13c84fb454a9ea342400585327bd8289862cacdcd (-0x5a3a4ed7503c3bde7b64bc097e877bcbf1fba774a94c1bd94b1262584ca537ab) 0x1dec8688e8cbf81ac14ce992d0a0a4a6d91879ddd7176380fbae77c399ff819 0x52f48e9b0283a28e5772f175b11e51886ce9b0f4d43c27339eff0f026e954e5;
  SAdd 0x161d09ff6a27e5889f3d7919d8af2040c4647045cd255931f81b00ff2735a811 0x39860b0068681323c48d11825954f3cdd67005251794ac8187cc4219e3536c7 0x2438d624ce4aa560a43432c82b87533d874d41ed7dd4ea6444fefeec9a3c05a (-0x64a13e0eb7797e227b31398da78bfcee736ed27e973800cb94b55fbf8df07c0) 0xa1ae78005cf6ae5ec6daef72ac728646ae8c8fc1a1d0b822713f5d05e78869b 0x4a57efbb34ad639782bd9aca3e9d973e34304aedcbc6db37a60cd73f25efe52;
  SDbl 0x899530743ce970ce7edefe493549c00619328c0e529a915155481659f32f942 0xe0ccc6ad58adccc583f68bcdb5bca2317fc852a0ff9d6667c1585e9acf5bac5 0x2c9050812aca3334d416ee44defe0d452b80d17b27f85308df3a5512b39bd7cd 0xd46dc98ffb72b18b5e6a3dee36142094b318b87549a43604c7c28954ad83 0x18729598401c3464e0e0d73d25a0e41272550f00a016eb7b8156e7566278247 (-0x1db954bc7f1576a855b11c12e04b36df3c0f2398983edf9959cc76144d40ac5);
  SDbl 0x5f6773d8fae9413faec2512557c15715432ebcfdfa22276effd7f5e9e98cf99 0x1c251bd24894f1b585cc9eaa2dd9e76a5c24bde529fce9c0a11734fc5a27db81 0x23db3ce73190dcf7b825a997dd6c050550b988df97aad18e26e975d5ce735383 (-0x141702ec83b9353d9cc350cdd49c0bd6a059feee1dc4399582d6a61fbe594b7) 0xbc16a6efbbb88e4f12401466d107f30438b17f3067bcf61cc45fec34af1f6a (-0x1bc9c198bca4f5186f376365cc3769a6751dc55d1a0bf0f89c32064a175e8f4);
  SSub 0xb268eddbb607434f481481dc6b74e9374b51d93df4393eaf02925d43529bd76 0x2fa863f4e9bfa4d8bc93bdf8b2fba664db460ff961bd9562bcb0dcb293be3c69 0x21c67caf91438ae1b0353ed8b815bef4c02c8e7467f4e1852898c3589e5c057f (-0x67c3a1e34a2725e21ec5fe72f23d6a22505a4a92feb988b6572b0e8fb128c2e) 0x291c1ed241c6a14a41981e81f83ea6fc6b009ea3ffc435d05c0eb2afcf7ca3f (-0x47f07e0a0227ebcd2d62cc9ffca0aed47ec6ad869543abb1c06593eb5e1c57e);
  SDbl 0xc7226b66cc216236f0d29d2e7fe742725981f19cda7851cec1eb9fc4827965b 0x24c2b811ee9420210b6f6564f090df12f7442b7a05dfa6c1517f0dd48b8bd1b7 0xa9d154009080831f0467d81841ee41542cbb6b5322db7ce441df0cf4ea64856 (-0x7b6e641b55c72bd252966aa82f5d5ae689b2fcf1316860af4905a9940a209c4f) 0x333726998fffb98fdab7db05568fecbc598f28d944716ef2e08c7db80c35fb0 0x2cd79e84cee4da24165a0f35de1a0e4de5d417c8c8d383347137b341fec4d87;
  SDbl 0x1c6e2eccef845a7b15aca5f3e4267c9b71f292435cf731d3098410259008c2b3 0x88d473d8a290abc3f3647b555267d4241a4416e5356d0e672fbe71b42a3e38a 0xead442266b953a40cbf79439cfb061484f7f526df04529d34316ca5265ca9d (-0x474dd490e18c492553e9256e7143e6435ddd9d6528fbe6fe95cd3ef55a41b7d9) 0x10b3f6a233e0d0c935e4d87f0a76d9bc2e4ade8e2468f34e5e84c7c34ed5a0c7 0x1092a0905709dc4d8b511c9a5656b41de426576caaf1d4a173c101945c0a9d5c;
  SDbl 0x2f863709c69b04b10f835b22afc853a036a011b0af47c5c564cf77793173e28 0x2a6ac4fbf43abdb1858eef5ac4a16babcc4867d7ddd783fd07dc1ac5219cda83 0x12d2855e5417ad4159f3a3e10cd674aec6a00f148556aca11b2cf8ac41759302 (-0x46bd9691ffa2674650dc105cc833139a98fcab19cf9c6a0eedb92a3b2a5b704) 0x2eac1ae7440e6325ddc4a39be333196665349496fbb514f06e02fd09a1668f (-0x2142119e815e8926180d86f5e34f75943666b14350f66e9f5b14e28ba7f30c1);
  SSub 0x269556d04b38a71f8b412628a585a2fef2782f8040ccdd3d0228b188c10b075e 0x1ab83c927d995ad6c536b29faa2fb1aeff798d528f9a220768bfb0ae6ad8ee29 0x23125dafeb565cbe2589461c168a484b119f61047fb320728dffa9fceb335417 (-0x21d1d25b7c1be123a45d292dc0f09e527a9f6ada2dd2ce17c253a833c4278f89) 0x1ec350e5d4226251fed8fdbd1d452e9d32378458160a19f6394397662e1482f1 0xc8405be78303a987274dc69b756e80f2454a89afa46661496bf4cce151ff5f5;
  SDbl 0xf1b2e069283cce51cd664d79e6c0988bc1a4caff58b2cf5bab77677db866af9 0xed4eb982dbb450a1dc70d17d73ffa377d27d61551212c52579ce114fb8ddfae 0x1054a6c75400519437b0c8ad1a61e6261111065012577b92b9d6966580320fc9 (-0x165d1feff1a93df594744f2ca4441a67ea5e7d9a83211ea0be460773846c67e3) 0x4b73176b38d1d1bfd9d88248e0d562b75e352505368d0a91329dfaa417938c7 0x3b6034fb1a146b6189087be89a8f13813217d6136856e32788a8d219df417a5;
  SDbl 0x2ccdd9f203ecbe1da550ba133af4b2c895849a28230c08a1af5adb41d90dd5e3 0x5367786f0252761836a074b8d9a51d90281571a7c74312f780a45fa703cb2c2 0x28061d43f6f4444d65c060b76d785fa73e2e87587550e87f3b0a60472149fca2 0x109a399fe2bd0fbca84ca49a48e5589409967ad64f3432061c543838c9ec7606 0x297b7d4ed59029505c74f1e541916b59d27a775e9b76b54805a035901a120afd 0x8e7e3ce48aa985fcce21c9be56a2c5a2a57acf7d81e1b17e1f7e643d0e35cdf;
  SDbl 0x113c0819326295247da43da89ddf4834c45e4ba6fec48a38e1889c2c157b8133 0x1aac15ab357de3ecaa12129a1d2a82de59ceff0710c150ed9a77f90ba0ec2ac1 0xf771d8f5789d272f8b72b83c1d4621a4206fb641e5572990535819799287d61 0x1ad2f4bc8725c07f756891fa3b6493a3e990618fdf4fe407808a40d7a25e0880 0x6235287687befcfb7e421347e1c5225129920855bffa5183321d073244b02fc (-0x7a48611c5392aa9e06eb69db2d9cb8057fd73bac92b18a0f96395dffabc40b0);
  SSub 0xf25f9ff248986f1c805a24476b2047bef0a0186e600c0703c3582f760a70279 0xe23f91811982edf9871d85f93abec0116f82f9ae135810676df4102600f1aad 0x2ca86ff3fe685046b4fec58098753ce53ce4db8a0732d6069fd328b0871cb43a (-0x8596e6014807e9f840117236261fdcf8f7512297726a1e05ee5670d4bd6683c) 0x4bdf17ed6dacfaace7aeae8e9f20000adb9b39b75bc2dd594f5ed7d0868832e 0x3ec4083a988ae684320c4dc9c28533ecff946fbb5ecd7a1017663bc038119df;
  SDbl 0x549ee63d300910ea517b332749293eb9b3d697d2e3cd185c31f126cab89b89e 0x70db738f2c6260a37bbd127189b7c2d2c3c43beb03e89f11da29964660d247f 0x1ecffd8331eb7103ff8981c06b1802b90bac90fa47fd967ce98ad7d06751a400 (-0x2a2702ba8965194f0be379ac7ba28597da54b0e8d06ef95790fb57f51035945) 0x93f8fb4e945a48da5f11e47d38ca3d18c1a1ac88d97e61519fe26dae5da47d 0xc64838a995b020f603a63e6e57e6f7dbad4ff5192bed9c27007e40a09bc386;
  SDbl 0x76a8bf56edf32a926bc9c65f0a8d724bf7f437f09043e56c4bf6fdb0ab8e33f 0xaf6e0d6a9d2086eec5831bf69446d2af8f930cbaf5a508695a492d6c800973d 0xf6b1cebfd39cee2d69116ca3361da51f40c998840c9dd937d0df3f369e7aa76 0x65c1ddec0d4613c16055f0615a7f647fbfa988b15da3d1d40530c9a07113f9b 0x122f54e1570a00a9f3c01e53baf7362a71705a7481f32f3aebd11448794178a (-0x996e695097d8c9519b4e197f156f93b38dbe9792aa11980cf3d3a6cc2f8d08);
  SSub 0x264fbc37fd3d3f92e4c655a2d93bd8e0cb477e95c162168cbff9a06ba7b62713 0x115f74710fa15d7e310ca2d37da7303d07a278d3d082b54c0b955883dfcd6d6d 0x7415eb017c394e63a2d71e83b4241136ac9cf9915b786484c9985cd6906307c (-0x8ae2f921e49bfcf4ef9e25f6927c66677885554af988043f7abbeecb483c325) 0x1e54b71219f1582be11dbcdc54c41027eb6457f494e7c018c35d325568ba2a52 (-0x512d53c928fdf7ebff61cc4e42fe4e34be6e9e5dc4c970979345523620de46e);
  SDbl 0x13ccc983156e70e4a6008bf7de3062ed1c94e8fa00eb63ceab61d6bddf15f080 0x523f36c79c5f49f0875e26755a9bb640e27feeaa86536bf447c69320eeb213d 0x14ac1d670343d47e24de76119e728d0b17a87c74ca66080ecd510208d5afacaa (-0xcc60beb0ff592dba0f0e5509dc73e9ceb84d645318ee740d8f7b2198d46626d) 0x819f09e6f22664d20d781feca464c9fa3e774216092dbd602d6b3b2d6e88d4f 0x50148765c107a3dbe87dee445e8fc5e78ccc4b6fab6fba00aafb4ee0d4d3356;
  SDbl 0xfd96d3981d2353a23fa9147cdd2d1034a067430135caf1bd6da7a12937ea35a 0x2eae18f26c4302c51792c551a39360a8f1c391bf2159f8965ce124d48177e0c3 0x16a4ae0c76063ade11ac317db7ed9432350dfdd979f20e14a4bb177dd55b8740 0xbe7314dfb44d27f02d6ee9c6c22323c924be7d1323f2d1607acf8b69478892b 0x530e423fccd198761b9e4364a2e2d18d5c8c4c76f83f83e921f128b93a79be1 (-0xd9ae72bc0696b716cf61dbfe46a171196bc828cd1f14e80d09d3b5acbe777ca);
  SAdd 0x14458cab61a97566f2487aab4c163600916409984ef63e54c639a197f58de65b 0xeb8125301f747a037cdeea6489fcb30e331cf160f83c807de0515371f0c6281 0x223e28982a45973d2d5fdf1ef41502c4e85b0c8f54ea999d7355b0405e823666 (-0x138dfb0accd484e7947a86615eb4f2733eab9929731b3a81dc885c6ee6e20488) 0x87df069af3a8bbf5690c9bfaea2ec92c06d125421ccb411fe6f97825140504c 0xd63823a941ee5aa52d8a45b14c934685281d6ea16eb7a192d9b9caca8fdb9b0;
  SDbl 0x15bc91ce76532356c9069b9d241ff98aabf7bbc273934733bccb91ecc95f500d 0x2c93636de30e35e6a40072c725bdeae94f407537dd58214b5d2ecf3535384246 0xf0751af657d0ea75701a5e286f5c91730521ee54d298713e97cbe4896d3032d 0x1154d260d8908fbcbad81c97bc7f4efb1491b2f2cc846d1c2dff70b28774f65f 0x9c37d2816bcec8a384ebc88249fa53ad41010b5a1ef5385da3d400b5f96e817 (-0xd69380b31b87b63399821bbf6ce59def293615644fc6af9da016f0644301ecc);
  SDbl 0x22ddee6aa3d487d19122c25e9c02dd175bbd0ede00f2d0c809727c493a61e2a 0xa3d4983e692885e902467bc45f477837bd24ec57cd0c95088eda27df35678bf 0x10c01a65b0f910476d1de7fc3ee98f5cd92eae5fecdc05906299236bf203c7d2 (-0x79d404fa1403e9e8c747c5f578b9b29698e911e3ec3c356b9195098d23d37418) 0x191f3f0cdcf60991bbb6e1c9756383bee929c117b742c8def9b25033051a1f 0x18bd6105d6f97f694e6dd0afdb05bdd2cab81716fc1c7e05ee8b618f9598721;
  SDbl 0xd3ddaf67dc486c4f4bdf6f55dab14986d79ad6d20a4dc2e9870d75bb4957d37 0x24f4d82cb09b554afadf9106897f92c924b9321565b4f4c32ca57de2cefbad76 0x2bf728f7e4264fc5ed5a3af80b9f06041c201f5b5846d8737efeeab8afa91241 0x2aacb37c54be746f6fdb6aa8fbe37ca94324dc38799c8b045ebed94d0bb5dff 0x39f93f06c31790236902caf12985707fd8301308ed34cf99b0ecc360e47e0bb (-0x74f8824d40d9690331415fbf182ee700818012382891f72d8a8aebfad5d567c);
  SDbl 0xbba0dfca1d05b6f7c9b10dc8031903c6cb0b0265a2f5553092d307c10bfe65f 0xd43f5d3b09202c52ced19907a13531b4445e27d6f41b31887bc461669c2eb83 0x11755ea99a8c384e279c59f8f35f214471f3633f9741366ce33e6e585cb0c19d (-0x3f5c94990ad862ab6f19b3b40cf9142c2b4bc8cad17e4a72e5d904e4f538c8a2) 0x2d77cacd45dd7b15d3b0cbf2d66aebbed8173cf263fd04a5cb1494350bf499e 0x5bdb39b3c9d3e4e955022b8f841ffd69be1753c7866b7f37ccdd8ff5f6799b9;
  SDbl 0x2abf7e3ebdf4d35285e41a6234121f962a8382259b28136a42d14f377d60e1ab 0x28e54ab84ee8662e8fc7347b6e1b67dd829770d0b98e1441da1be47d7337f615 0x2608cecd6770358db56e47283a11de7e593904e2652e2b0d5ff6ed895d87675a 0x13ef794796a94c75da8080fc052013b6ff2ab8a010114d3cd05c5db510bdbdc5 0x25c32f31ebb259e2b34410e1e83e5f38e3ac9f73f374d3a3fe1b9fa9055fc2f2 (-0x1868638cae36633078e204ca6c78368f81a78f4776877b524a2cfbd5f2c98c1b);
  SDbl 0x1e658818827a3ea7092f30d3ea6fcf00dd2c4709b3ebe6b02f80377e16760c0d 0xa1d00f4f864f76d84f52f197bdbeb11e3666b55bad06a55055a8d9015ce5079 0x1ab30a11989e36ea86c426e7d6eadbf1ced7083e2e7df7f79985b83bb85f1a9e (-0x37e69091a73f14b1c7451c6c28e460ef9ddb9da06dcfed0d80c8a72a8a40cd41) 0x1317daa63c4250c8a78d4216a185f52ce8a9323862338b67dbaf2370cb20ceca 0x1355e2f47fb5101e616a309aa78e66b288f97dcc8857b78ecb65345b74b83b6c;
  SAdd 0x8a12bb3f6ce59b179936ceaccac98b21913529c217711498964407a21039b9c 0x1703903e493f12b757c7ba684dbff2250aab11e81bbaecc49c6660403b1f69ca 0x1a08624338cebaf78e7857674576856b8c2ff450637607f22f151b269c98f2f4 (-0x1cdb0844ca685ca15c4cadb7dde197ecd911535561aa429fe06b94f7018675c) 0x189f47acab17864003a4be016278ea92244a0b748aeab96ea026b0088a9c2d4 (-0x24cef9612626fe75beeefd3f69b12258d2e759b946a245430cb7b16ef5f49a2);
  SDbl 0x88db6899fee2448fa543bb674e1953a83d096446f3f96848ff24027dae4f4f2 0x1673d6de2cefdeb1e0740204aadfdbe2b6cd31d7dc5ec566c3cad9858d35bffa 0x276bbb1228c397df57736068f7a377fdd008c7f3560503afbf9b1eadf7d24e68 (-0x17a1b003b00d3b735a5f4c2e043550ff4d6934c7be0fa27b766c5bca32cad244) 0x1830bbff2b586e2c79e204487504276c7e42ed8f87ccf2b195aa46cb1ccd81a 0x19677761b24bc3695281d5300ab5ad622c6b3cc12365b98874532d8cfe629c;
  SDbl 0x234cbe78d138ee1e2422ce9e9060b7fcf714fe368842bea96f9db6bd23d46229 0x2ad9bea10949eb5b5f58bfe4d6177ade3989eeec69b6d366b471bc3d41767530 0x218d256a496567877d03dc91eac18edb6ac306c285c69b577fb6b6e6ce6819de 0x1a4273e5970a9806c9ae84e679bbf935626b3c8e2c93c9817cb51e4e2debbdfc 0x19bfebe2b5f29b8e4dad01096c7919b792678107081b7e15f4acb9d0e6d901ab (-0xee1288dc71a33f2c80478b3e7b954b9c71938fba2ec7c02fb8c2e8fd145dcb4);
  SSub 0x2624c03e773035578041a07c5515c9d9d6b73ab692941efce81dd55dedd54400 0x96f2d2ff53eb6d86192bd67d342f189da0ce6322dd9e2293f166ef756268d13 0x2e05eab6cc1b678f94b2c037b2e7e5fc10789c5f992b7ae5a4abc7e354d836d4 (-0x21c69b8ae9fcdf5e498b845c64f00b1816894d1c3447072868e0cbf4702e1ce1) 0x1e10cdb6725b59b1aedd17d1d582768213fdd6c99f64ed255445ea6d57ee8264 0x1a56e8cb1ba800aa734828dd1a70f59bb5ff85b85fd8a2ec7e85646d7ec7b142;
  SDbl 0x8e7975e05925b3ea9202938762244f3012e2660dd5040c8e0ab52444467be1a 0x2e83851ce1b9cf5156ac102c79cb4dd10234b5d215cb6d96a69678750723daf4 0x7c387a2603a35b7904933b485e073416a9992d4c5d4af7d5afa38c0427a7462 0xb6b74e7fc6555d133eaa831fe37f85cf93bf9c23e335a7ae820f04702e10b03 0x1a378994e319b7cca0703e56a78f505cb185b101226df67d6f1e077581a0b26 (-0x6d2b3602c1515eb3a927782e3f9cb3e9cb02cf539f17ef18a901355c575a570);
  SDbl 0x14c0d266abc2aaef0f845aae2a267c37b7d1d56a53a430a3316a13d20a60a4ca 0x16deb46cf9f66baaf72cb58442d1fca4ac9a8a330f06d08b52d1076b697adf9c 0x1a5310850cc431808b6eefd5009b8200b35e8dc9cd3d2da69ed27755c302f168 (-0x7f77715506bef43c71392fd4634d43cd3c15d3cdd547b053f4425cc514aebcb8) 0x8e671f33332f5962854bf70e77e4591dab961fabe53f62ed7b1f234e7b9c720 0xa23cc09801763b5417df236829241a7d4836645a043ebbbf0346f3a0ca6402a;
  SDbl 0xfc6e0c32524153bafbf9bfc1cb554fbdf67ad99995aa1799720cd6c01ea7642 0x24045052a49b65b2984ca57d8c88f10037c8494f8a0b71e79f856310b71b431b 0x2d4c43e298cc72a66a59ce8e1f7290d62b976cf55c207b6aae74a3005893102f (-0xf429a2d11bfb20ff611ebfa57d1862209648454db6332ed1b71e73628fd8ff0) 0x524c4cf9dcf8138c7b44c48471ae7260307fed5e8e88678e6e4641ff6391847 (-0x449446fe8b50b37062596d20ddd41f60a7a7f13593e508e2b21a1ec1bfe3183);
  SDbl 0x20cfba8b50667d6d9d76db6573641a436186c023da874cd0ec8a4fe2a91f6258 0x2af44c343f53d28dd9e8fd050b12cb93c2c1009ae3ba775a57b75bd1cc573e15 0x19b423ee87d6ee2224ad13fa4245cd3dbb779c385fb90fe71dd20d9a83a5f843 (-0x12fdf8bf9be92ad5f41111eca0b3153d31c5fdf90c2c133c6c73f4ec035b2d6d) 0x163f536b95f4d6246c07a212849faddaca246955193dc1653137d5639d23bce3 (-0x4b42ebe9b9e297f69c5bc3b79ac989e1ac23b58ae18cdcef95d5f46f58dd38e);
  SDbl 0x6ebf8a821fe1b5bfe9f61b89a8d6a0dd0750ed492610a121d7c25dce77b1db3 0x1f3ebbaa2c90e2d01de929e1d3d47da297988cf316439680b941456552addc09 0x3f3b0f350a87cadd4ac76d1ada53b65302b4c40379b37a658b743d07ec2f0e5 (-0x6b07b6a9b7d679b29586f884db30f207e440334619c2f23fcecf34344ea9df3f) 0xfd7490c002dcf3d22a414d489f73b53ae3a363d15595724414220af858185a 0x1acc25118acbca67e0464536cbfbab4cca456393454b87d28b51ce4df0722e4;
  SDbl 0x1af1f4741583610e598125e8d5f1f36292d4c6078fb6b14d8b50c61d2ce2760 0x1d891d0e4359b9efa618da9c6e415b6c769f0515e5dca1f3890c3bc6f2b7bfa0 0x199e3284a28a810d1498a3d247f99867c503379ab7ff2f668cec2d33648999dd (-0x3c3f29ac89ba4b7b03fe7d33386dc38f148cb3fd9ea401fb7bd5db148453fcb5) 0xf00dccd5c30932d6881a4d8b6a07ae1e3d2bd7f55d1dba77ff23760016042 0xf3abf655e9ea973cde9d46037a9dd372e2df59fcaa359981372dd2c3f1e72;
  SAdd 0x28047402bb0768f801622843fdc275add5277032524fe2028488d91a5a29d372 0x2b4f8482c40f2ccea16952bbe09779e96dd955fca2249775c639d2741d2236a3 0x2959803984ea78e787c86bf0a0f5e051aa44ae8cc12a12f829908d3ea7e781d7 (-0x186ca0cc0ab343521e41756023ffe53c7004496adfac4b74060c376ba4e005f5) 0x21179a8189a25806a246ae5c20061e37fd0ecb1ee55cc7d64fd27059fcf9d380 (-0xb6424c9fe5ec84716c3a9be7721c253d59328681f645548e2f41ff8ae68e8a6);
  SDbl 0x117fc46b7f60ffa9b63d436519633263e99d0eaf3da90945b651e677b1517f02 0xc572c1fe3a43b0e743f5981b85659bc55b3db196c419186f6cbdca79dc2e710 0x2f9e4114ec76a3ec3132b943d64e8d1de8a52e02453bc5da92260325d9566cc1 (-0x56623d68a60059aee61657ae5a57103db1fe244990779218f4fd232d78d1e989) 0x653f0ac638d1de75c4215acf5d2291f28516ee25b8d7341ff4c656ca902f9e2 0xb32fd405fd66ba8e1567ebad411b51fb492342a549ac2cf52a43e37f284c502;
  SDbl 0x295ce0611683d843b552c973173f2f998fb58d09e480449fa572daed5159dea3 0x251b44b64d018e47910be64cefe4966964e3f91af9ab825414da742a6c6f6b9c 0x277ca7e2dd4530ae315ecd34d84992b8de7f81f5b65e2abb8070c5cefc828665 0x47f64c7c418a2696b1208c1a649e813b7feaa59f0173cea3a7cbf88fba1fbe0a 0x235ad15f066b28926b69adfeba046474df42307d7cc714f62e4e17302fd7000b (-0x152b2eba9fa6aff6034094decd12c01aeb66984c8eac2e0a338d3211a1c27a66);
  SSub 0x1da2dca1125c4fdf53cd3cbee7d4e7216b5e17b2b17cec21e6eca0e8eb24ec2d 0x10e51b42a19f84511f5ed011541d16d56eadaca13216776cbb57b2043e06cf20 0xb998fdf4186736d3947daf5a1504011e4ac1a9d1425e5065ec161dc2ed306ec (-0x16b98db9b33a1488de5c38bc6b773a922ee641bad6cbf632190265e08c5f0569) 0x12265af09ce5ad855b372a133b8ef6da55ee4b55135dfdaa6a5c2d517d9a7774 0xc60c43f764e9b4d52dc4a0255f3b4dcb4a0c5cf76f2da6e3a9ba16d883dc92d;
  SDbl 0x636dae5dcb6f4cc93e6120d66c1efc87676c7cb1364995630ace2d3c1c1d580 0x178ac5f6ca497f72246bd34bc34a2a6a98d827bcb99af86065c310e4dc06fe36 0xb7aefe566b78d3c54cc2682d950276092f0583488909f52ab0467ddf749fe2e (-0xeb75f1b9d967b5d1bfb069fc6d2a07a66bbf89fddd7df09d320a85a2a041800) 0xcc4a80c9a5cc5e3b5998bda5d75d9fc085e14b805685767f21b67f09ed1d26 (-0xda85611dea250d7f68f0afee1b09384e794dd5efbd8726601bf05fc4da1616);
  SDbl 0xf3bab473c0a52be7d7e0544de03f3c6677d90523b0372b79372da52ed3475a 0x22156134ea6a64b3663f06aa7640281fe2e55e70a0daa7b4f61c7ed6560c18 0x14a87fd851cc5a0eaf40aa236be0c7d5893dfc31a83e241f122e267a1492f02f (-0x21e83b7e22b2fd2f0198a7a2c57902f50da0a4851541e928d744e30f9e97cd8c) 0x4cb8ff71bc5871838309281d50c7bc59c85562a0acdef7166437de2d5f3e0 0x75e6aa63ea1d90eb47a1ac39a1368bf13f775a5e8d8d1f3d77f14a3cd027d9;
  SSub 0x2cf189b78755eba6730f8060c48e609f48798ecbf2ccb8f3c86d30f637580f01 0x1cf1b08d41fdef3090cc1edb21dd598970743709d1345e55fe21d38c8ff149f7 0xcc10f0450e50b10ab5caa0574322d008578d26b23678386c8b9b25e1280774e (-0x1fa79ff3da610537771ae67d642d2cb55c7f90ebcbdfab6824e8c0e9c87eeb) 0x29bdac89595a32c25a324eba835d6fa99591179a83c9fa51ac6c3630630bcd07 (-0x1ac2089f880aa9e13129d1d73f68213b6490afffeef6f7c8fd25971c594ad4c4);
  SDbl 0x25cc4c58da4df51bd5ae337a3dc9f71d668e392626eedf6b991d65aae80a5d7e 0x4ab13323cb73e8ed28e3646b2c29dd71a94a63f51a8dd9ebee5508a57e1a89d 0x1c60ee41e445dbd32a9c630f1c76e07a3b15fec5f69908e0209ecc759a53d0c9 (-0x200314031fd1156a8b18a70dad86ab1dd5805e4905dd35b2cc9482d04e14bffd) 0x1d85fe7fccadf8209d2e6857534a42c80d1b343efb60b7441c2b6f7319b07f3f 0x12f62197028b2c55a624b7b553cec59e027dd7fecc308c55a96f3e4006d1f0a3;
  SDbl 0x2f8c217b259d5cb5b70bc64c6dcbea53a2425c6540bc97b19e8fa1d22bf61176 0x288278eb0a30b9523edf5f44c7a487fd70ae860421ba812628efa5791a46ded9 0x1bda0a6369d42c34fda489e4a5b66584d5ff9f7563f5dac3015a8deb3f5e022e 0x366a74ca5d89dbad204aadea856042925d0f6d6bcab514383986ad6e6eb26687 0x2eb7ba364039beace53e7c739c0d45de67c96e9acbacd7440e9ebe9785e73fa7 (-0x2337497137c6009b1927e9de1723ac392fba85f604942ae0f2be2196be05efe9);
  SSub 0x29158954fda5c1404883a7bb05b1be69227795cb848ec1066c0834773ba7cb3e 0x2976b4ffc83be02c0d12b72addf5315515ec9c237b573409285c9ff04db29b77 0xea0aeb8e2d544dc08715cc64a3d84b8ba3849eb6e560deb67bd0f1af0254a5f (-0x22646adb02a00a4c341635da36cbafb5122a0fbbb352c935daa328b960e760e1) 0x22e145f24a2b203316bc9ba437e06a4d7b2b233e6f7b096ddcc7da3fdfe73f35 (-0xcf5a42847dad9cde0467a5216065ae49b37b2c5ad1683c3b2d852161aa5927);
  SDbl 0x92d7a7ea13295ffb39f06f8918ec7b14549ac93a148d21d05c40b7b1d4677c0 0x107a4783ebfd8cbe730a6ccca66eeca5af9eacea969a44583763d04fc113321f 0x19ae5c5f953116c1890062a0df7f11e923e1e20b7103920b7885c6dcc441531b (-0x6508b4f0c91ef153d33d4968510b8d5b591ccc7dd0eea5e8d7d2549bd0561e75) 0x1bd95e090a829476ac49d972cffcc0c23c8690e1d342497ce7565184c81aef5 0x4bd19e76ff33d4d88d16b77e21a25a9356df17837f4924de39c7d0c976b3a4a;
  SDbl 0x14bbd39e00706f30102c044a5319fd6610d47fd37fecd0a0e43adeae86de6aab 0x2075b0be136710c7ba5971bec3468b84c81b92e085aeac9c7f6509853dca4782 0x1faa1e05e35ba5d8c186e817f9fcf2382f82c4279b3d1f2b040e5a56a1ce070d 0x52c986753a74076a91b22d18f4e7aa2934d6d3abf1b3dcee2ca5ef039f97239 0x8e229a1fc7ad21eb8493fc25f84690213da3cc0849abcc89c09c941e723823f (-0x6d8fbda4477f348e7bdccb1de8060dca605d6c86825e91772ab09c0130d74ef);
  SDbl 0x2bd14b9a9bf6f826403a81474f6a3bebf2ab4d943f89f2302fde326986c7d903 0x1f592530f82fa77569cb46f9bcfb27a94b8299b25241e2d46ef6f664c499d2e6 0x1658811721f8e2c3738e2785fde0a8290fbcf3149c5078b58a9957686c56bbdc (-0x7f9e16522d85bb4957fa9c76d61671fb1a025de52b8a5b5cf6ba842fa2b9352) 0x27acf982ab9a2d1313bb7603e44164f51eeb5313452e7e8c12a6486bf8449e69 0x101a5fa037b17ee3a228ce9ccb95716a7f0a20f9f2857ec46881a82dba61b3d;
  SDbl 0x757fb3998139684197442dd7a05ba45dd94fbb59b9c7587465390654dba4f16 0x1e682074ca6b2d0f73198c005cf8114f2a69f71e4805c7837fbf6afc9fa520d0 0x1da3e7020286f1c54ee8157b442bc990dfdf3563397e4086f0da507f57ca650d (-0x3623d7eaef38d54c9a217bcdb3f9d519417074818d56abb8f821b86a7a1eab04) 0x11d4baf5795f836c6a7e34165e64f5da25167645c8895cb9936bab0ee433a78 0x24935d5c3226d1ec5068396cda2e846b9f5f4d2910fea104ad0d49c310c2ad;
  SAdd 0x10ea365b674e02991709b0f4c703b83278218970d34b2bbe943065a5e6dc8a68 0x2fa7333b95ef51f482d6475de63e06f3d1705c889cf8094c0ebbb3ac3a65b44b 0x57b2a671b349a9b908d6750a6b84b3f03c735422aac1475872c1ec1114dc260 (-0xaa0ddb22786354feb572aaccf02e6567a64132bfec9640062b8e87c00a8c50b) 0x5e9956e1ede6089dcf27d2db1b9357e4d1a4dca39f84c77bcdb468ee24b63bc (-0x6073efd802371d06b1309504ee0d8c6a748ac5ebd71083d61bb18a81142e3f3);
  SDbl 0x1366965ac6c442e35916142a835f2048c9fda3c5594a5594725924ef9746d5e7 0x1875bdf37beca7553d58c8e4bf19e64556167903192563c8fd1ac6c518d36e5f 0x289aa9cc4f89ef68f743a243ad2349ccf76244ea9be17984f1f46af2fc22e796 (-0x8861db713d510476336f6b6afd47a10c9ed1ac8daefb1875c7fa24c82d2c637d) 0x7c726ac924839c9f641c186e129c348f468795b9cb43235f25544a91e90f2a4 0x94c61d8a0c95ccf1c4519420134e7949ff133c64d8e41e5be6e867114b9ad12;
  SDbl 0x1cb70e1f9a1c93624ce0b3c766600f9ccdc8bb211a0226be5056a72066db8e3c 0x26f8791cc8a15cef3a7e4a10d98a8300670774d44da7e26dd9f93f6bc630c6c7 0x14df97b6726e676f6bbb67f0f80f7036f708c637a299576407cd3e7d9c8cf618 0xb19016e9e2ad908462a98f3dd6d766c1657b588485950d8120e6f858f128d8b 0x110a0488bcf270aa424a93cb904560489f6bd9f5c8ea04d1e8c69e25704e2a9d (-0x89c458ddfabb378f6d3ec3915e049200913dbf4971d56a7f681307f5b4d1882);
  SSub 0x4964d37efa8f1d2c5fc77488f8d7282688bd804374ac950c51225c23fc859f1 0x4f5f5e1d963f31c9848553a8903a2bd1b54599ded3079d7a59e572ea4da2ccc 0x23086ca3437ad3968ed5bb2942621fbe171b39a6db5b227a1c84f9687e65962f (-0x3b1ae63fe8ab892ed650170647d1ef63ad08f7c4440d33b2fb7337a3e297355) 0x6f503a06c4961f83a6d1a02410c9bbba756d780aad50db27edb309ae5e06cb 0x3394cdb0ed5dcd5ace920c694df2637eee4f2f716830e101e453b03d73265dc;
  SDbl 0x226dfc056e89f92caf01112fe5ea88149fce91a7ff75c92e13c601ae9c6ae6d4 0x254a4a9b305241859ba836e2234358e32bf6a384894826afdc2a1a8e300ebe60 0x215127160d11fbaa07d974552bc44f653a86bd9c4ac1adcd524a1cc87e408ea5 0x305314019274d6264b8063584ba4e6bdeefd7aa223a75fc67f994e88d5313898 0x187ef08cbea3a8fc8cc50b7fe4dbd045c5edb3985c70a7b73f10f8dda359a7a8 (-0x1700697948328b7cf80084293b301507fe17cf20affbb067e441fee90b3b9b7c);
  SDbl 0x93d4a638b1d7f48d69f8969929fed26ad82d47020b6256f42a020d25ce0aa39 0x2e9bc1751a9bd9883cfd3ab129c0405ae2f8af41291e3edec95db537cd84062 0x20dc5e1ec67cebeb553d397335b30fa56a0450ae83342258084c02cd4ded3f36 (-0x497bde5385f686d72935689f69db396f10b40863e8c61e9e7c48e7afef11944a) 0x1c39a6f0958506303d517b180dc71430d97b714cd0a7a5a8157cb002af9cb79 0x69048b851860381d7d42384873b218b8d78909af53c13e65b40e08237dba435;
  SDbl 0x2a506f85b672378a62ce1ad162d311e2e8c0942b40ae33de92c457914adfe6ca 0x51f8a0e8b58783ccc8148753768e376c91dee6efabb2696d93d447404e60184 0x2ea2cc23f7c33503a9fa24c15c5a64b1a461bb436022d82c7745e47b643888af 0x38f103468072c4de673b18669232bc8054789176b428529f3d921b9273b907f4 0x24fff836786ce4b3cc75b74778c20fc67205a4c046c1eceeebc500662115e004 (-0x1eebe7cbec856d3b85aa6976d8de95c52fe259e532b7b0d71f22c7a4a2599ff);
  SSub 0x16ea01e5650a28c7079b0e4af5fd7e0a551b5d134bc8d530be821980a206263b 0x6b2c2fb561d5af5e96deafdfb6511c59575b6a843b31bdde631ad4cf43b4229 0x1e07020cbcaa511194c4487e1983d48dfb4eda1c2ddcefba760614db5d015c76 (-0x26d0774fcbbaa40ccc7a60b004a57c453bb09b03b17041b5959c9499ce7e981) 0xad99f725047ef59b41ce1d568d1790a078eff509185a67499fe3a7b7a9a6c3d (-0xbeee3453c84b17d1a0d649c50a719dc552f6d2bab46bc88498046bff7ed374);
  SDbl 0xa42f8b891bcf0f0a7cefda6496263874bc631ff41948bf8f4ed00aea1013211 0x18e0b0ad29a54c3c07607c152deac667dce0f12dba754a1b28a6c9ba1c3a0c48 0x135360f60f48e4571b981085913555378543fb537e149c0c994c8994df8111cf 0x9f409d3f61a14e4deee1ca0a4b7d6774764ab9b41900645277986b3c48ad8bf 0x22d0e51aa763364ce93ab45ae5aa980111b03c892dc5c02fd6ffee0063ecec1 (-0x3dae093a4262c59fd70f72c8a2a998d6c01310e5c114f2b5551e683eb7d2f0c);
  SDbl 0x11fac73b8a046fbf95944afe752dfdf1f7fdd7d7801f7a2ed2805799353c86af 0x1c9ee00234d588389d9195f10c25d1b36a345053df89bf483cfb8d7bec97b3bd 0x22892a066fa482ad72cef6f5096546132a367b37b5ba6970083ac84ec395edfb (-0x1801e5e2facb6346f557ddbea5bc40a1609ac912a75ff961d5c5cd56ac10b952) 0x6ae204fd13aa9aa4f1e842c7d617580824e0fa9c44d3ff38d23aed75a24000c (-0x164018f56779692b29ffcc3dc4a08e2b2c9b2ab15fada2313e0595cbaab0193);
  SAdd 0x1d61d27be1fc147bf32382b655cb09415db9517676b31892027a43f83d7afe3d 0x1a77dfb39f93644c0aa05d21d7ffb7f56f1a2e568fb88dbb5897631f8d5472c8 0x251e9b06b67ed72af3580fc027229f93fcf4b05989d0c41d5de2cb075f74b9e9 (-0x1160aac72ab924490f120f659cbafee7556e50936df18b072d463f47027ea115) 0x11d7088cbb42f8d29c369eabcf20af1bc58d74564151ff485f460b48293a4165 0x14e8d51c2653f876ba878dd5f7cb13513ea909521ec0d8eb0e9e204567d3e1b;
  SDbl 0x21ed326a3d7cbd4d723a45044799ba102db5b1aefe8c1e2a9f36b9235572d612 0x173b7c988e1feae45d7700918f1eb493a9af3356b38e5dd6d5947bfb8f9a6114 0xbf0a002915cc0e273c0c773acf84efbe5656cdec94572b99664678dcb844437 0x89dd6a5adb4ae84325b9e43e12ac21d51d0d65799530a1149ea44aad5bd15dc 0x17c9051f36eb72325ed16db5101492334fbb25c7e8b081551fa691ca2e656860 0x244c40f0bcfb5d4b261c4d0aaa26ef08ae22f991961a3c66913185e8380a738;
  SDbl 0x45db853818fdc70795c86b9cede38871dec14c3d1d55a9eb0aa79631032e862 0x26d6d93c950997145bc8ce16ffd2bdcc9da21bc56da194d06c40136f81f596b5 0xf785a2ea0542add27f7512359ca13e45240a9306c2dbdc58ba63bc1e304824d (-0x1f4e676a08638e6a247a3cbc29ee18f12239dcc14b6b42453118d778e16e52cc) 0x64d84e29542fbf3347ad9356998586af5b4f5552f41016587ca3f56d5045a1 (-0x1687a09ceca5b1261c641e275a1a08da1b2e0d610152e2bf01ebef1fb1753aa);
  SDbl 0x25a88106a601d5850b1a022cf599ef00137cac2233f8b3ae09d1284a3de58e3a 0x26e46424b1ebcda798af9904698bd7bddf50de5e2c95b265c3642cf5089a801d 0x23bdf12ea1227fe8bc7397b3dca6aaf67c4bbb1faaa86b35f7dae8de1155f2ba (-0x45708845bd7e9c6b515f7fb9381f929de465168b9b7f385fe368b008265d8241) 0x1d4e2e57b964fdb914916e1d224aed277f098842204d476b3619e34ef51c05fb (-0xa89eced8fdb7d7285e98ee59710483b07a368b4bfb2bba04e3f96a2f71431);
  SAdd 0x2a04062bcc045c64e3fd401f696fa7970b118930d33735a3c9a463f558adc04d 0x7f79523557ae758fe22bb56c47fd479046d0a8f2ce1c27c733d7b4281770335 0x281b8582ec5d11359073a707d0d8cfd551e3803fed24dadc174b61a0b0d21fc (-0x21c489aecabeb6f0daee6ffc455d415e41d5f1501d0f83f79337543d25d846ac) 0x247acfa8d7c39c69497ed8d9e250992c25e884fcea9b217ab957e2bd1631a07a 0x1ad9b0c4a6897f86f3190d0f79cff1cb1fc0cb99acb1caf68e3870f2c5bc1b5e;
  SDbl 0x180b0ce25a74dc249e485a8bbebd9ee27be601b9dd1fee07e146812f10d37aa3 0xa0eb68592aba4124b1c0f8ecd5430d76355c331b6dd671b42a8dda4fe1beeea 0xda8c867616e456cd14447996373e67934fc73a9b4f65a232acbc90500d9b665 (-0x171b52b790e45e718d185d83deded44d271a329477c880aa85357ca0e485165) 0xbf218de76c1d6f0b04a07403cca0585a48a7e821c402569672e7dda8c5d4463 (-0x109e047f4f001a6c1436cf7ceec0b7d172d73e8c19c234e28ee2d2239532c60);
  SDbl 0x2e6ff53d8f2e90e314c3be1af21c38f04a6b5c93e8f9cee21be90ead9691fd1f 0xc4dabf116eeea47b3601d20dc917b69e8f35c3c77ff8616afd11a74e6265d82 0xd5dd1d0fbfd4033d5376a7a74a65f9c0c66b4dd27a0eb5ce6013ff1e82244b8 0x13f1c3aeebc11a5c514acaff6c6adc69771bd650e687bcbbe2ea995ba85b51e6 0x2c8fd165da5b911c9794010f6ad11d4520a68449cd601cbb1946146bdc2ce7bd (-0x227bc9ec7a3ad16cba5811e46acc91ffe2e06c71bb30a146d907facf43d7ad3);
  SAdd 0x111d39268fc1b34f4e7defe60f707f98e67aecd13e327a58db7eb4ba9e43f564 0x2dcf5a6d4ae0b3b2ec2b71d77b679cf3164f2d1477e4207afd393132281f970 0x5f8e234bbfaea48d9459c66b687d7063e2da30e5992d2fc6c9f1fee4b274eed (-0x459e80e17e8288cc65d78f9c2f99ce0e8bf2a0ee004fba96214b2a8b483f2e2) 0x60d7459e3c703e61b6db71efbf89cef246cc0f02bd19f15ec6e3c2e9ed8c17b 0x356b08148970f234f11523cd6732334a860e02d40891829fbc98081d7e35d05;
  SDbl 0x19a5ab946a1f10e7618062141bd5c86e5bce73e872cca2d015633cf6f33bf3f3 0x21398393ea990ad5b1f742e1cf20f5fbd93a5e4f64269e1efeef3e22452cf38b 0xe8c3029b4565f22f91e5b0abb1ff3bd3b9f6171378f6631a3f4928436d80f8c 0x5d27c83c000ad94d44752b7fb6d927d640a0ce0d29622a60c3e8e2d3a9066a2 0xd97bc341469bd4179dd2d1b135b9f1a85b8f001a9b3be7fa75e97886b0a02d2 (-0x10175ef351a2d6d4ddee8c13353275741117d303813e15443d8410708f8ac516);
  SDbl 0x14ad2f1c612e62b9278758e38a860c9d42263cc7fe26d2bef045bef4aaf03d57 0x1389a1e2e9fb8e68570f9f21efdbe840b19b3c0b93f75fc11ddb34a3d79525bc 0x2c5f2f7fe8992085bc47791be12a18a7e11b574a1bf0769582edde6c40b314b5 (-0x38008eed80de15008020cc819d7deb3e58d20bc8226cdea9fb7af799616d3c25) 0x8d5a1ef18605e33a510aa4a9595a402406946c0d9c7776bfc0a17f4522706c9 0x5d91cd5f1d85fe0f418a01ffbe6457a3c9997fe377e2a9eac4577094d9f8b28;
  SDbl 0x2788816394c4d74575a332d396e7cc4778249075226963b2d18b532000113e0c 0x2ac3c4fff29e638bc422c26b058ccbab266d2b0c2d4b3e9243746ee5d8dd400b 0x204ccf474cc929be759525db3a67a8662e0b68074f9b9634513ffbd2c1eb7807 0x30d5801f0e7d68291cc553b00fb696332e6cc953bbf991d133ef66e21c2196f8 0x204bd8fe6f25a5cb46673d74c3fdd8f19d15ac259e7159f1d878d76267ef050b (-0x12f9a36ff02c2c5c3c7c5e107282d129f5ca957dcdcdf12d7ac88d0324343a10);
  SDbl 0x302ad7d40982853cc80d039dc1c41e90210583fe530c34ed2eb629c5d6ac70a5 0x2f7add5511db248a8f99e9e108d8b127b855d123e5b7ce950beeeca477c21510 0x1f6852b2020bbdb2a10e2e26f4484346eba986753f321d72b8c5f309b52f9e8b (-0x31135062a34c8d78343828be0a456da6b569885f6b6a24a8116b2b34617dd2f3) 0x2ff1a5717874f4583085eecd2aa93a26bf25406b04b4f525371bb9da8c72ceb5 (-0x4b17ef488fd801929a2d367ada7962b04baefcc9dfdcb9f714d7c253b54f05d);
  SDbl 0x56e1236874abca11f14edfc8afe616271c227d6168e59c49dffd31c328b6063 0x544851a5e687e4dfabcb26458a1a3912a0eb9a724319dd3bcfc9ed0dfa5a06e 0x23a1e70ae926c5f92fa56efa90d16969ab71edb840320a724f995f9072cb3d72 (-0x84b5151ed157d76a2c420597bcf7d58a330433dbe0e959b5e34a9b83214c6792) 0x9bfa413e7530feccab844e9c419ddf23474a6385d1a95843c05854aadf57ed 0x4bc8fd5e65680d057c87371f13e36c2fe578d12318712058f7d217f840e5c8f;
  SAdd 0x5e3e0dae7cd96992fc62157663d643181ca90e94d675454e71dce135c72cbb0 0x247e320d0206f4c8845804b5ce82b565b8f069f6563004ee415bce03cdb910a0 0xaf71e848da67ed3f191ca78bc09503dabdf8c175a1d0963c75e790a4d5e22d1 (-0xa42394476a44a12273505d31f95d093bb79003a510ec271a055669d1acdf80) 0xb78926c7d8288dd22957cf8c3fc2b02869e8fc002659cbc6eac94f6532ad07 (-0x3ccf9242cd2c2ef0c4b99cd069a08f703441edd2c33863085548334a40f37c5);
  SDbl 0x20b1de64c7e8487dcd455d67cddef2f2b25d2412c5eda859f834a9ea682ce080 0x3ae567af4d08f341ae9ce1567b7051f85c1969c7825f0d43106c10c7ffd0f31 0x1cb1e33507c396bc4c9ce1c6d40a4ffed2e5578e831ba44816dad36a1583da2b (-0x43be1cf8fc5bc9dcec52b68b8638164248549c453d453b3ffaf5e07635080d00) 0x1616e7d02fbe8b1ceece45e2f9eda645691b012a3d77d3e7672d02228ca05f79 0x162b2ab7bc8468058b02c21da3fd27b6ad86b8ff2c9b808c1cb695219867035c;
  SDbl 0x1d40bc28a67f95532d3d0252d08030305380c28fcb3d85d92f8d699b73dcec14 0x184cf4f0affec84e13d44c8c43450822df14d62f9ec6eda2e7ce0c1fbbde18d7 0x2b6da22fbf75b70d6359c719eb027e485b208721e2735a2cbd289bf46f4c9021 0x21da240ddc3bd06124589d60902967197eab3ecc7bfe7aacf00ae947c0b4c943 0x11aef14c72ab856705b2ec3a63d619824af6c5c1075c6ecdfae6bc112c1f3271 (-0xc76ed41185268ed2d2d74a51df4f4ad7d34bf31a4e86c7b19d03bfd53f7449c);
  SSub 0x18eabd34d796557cce774e37e6cd8cf9951cba63e594338ea5113431c37bae15 0xf2c8fba0e122b4a23255ca126290190bc329b4b1c3e5912c0c109af92d8974f 0x2f8a73eb7a00fb76926b109bd3a8276013443b75ee45fe37ca5416ec1ad598f1 (-0xc832bb36357d883acc90ab3de80a111846c9d2f4ffadf142d92683f4c2090be) 0xcd469adcf70c9f297041641b4eef51297a5092aa9f28f4569bf27abba5ef6de 0x4b3028ede3f95975d1a3cd16aa1a47dca3240ea851913a85e20826272d7d33a;
  SDbl 0x5fe489e3d7fffba4a848d1daa8a10744ac891dd35152d6c15fd4619e5619b57 0x2d0ccd1e76dfca3f1667f731979439953f7a3bbfe99bc5a2c2f017e4490567ad 0xe95a86ab43ff267505e7cb38e2b1b503de13e14a8969613d8cd889974905099 (-0x27f9a6212dbd61ff7e08c544378b04210e9e551313d6c4d4e0985da73c7b683) 0xbe0520b227ae72dd530d3e3fe953c55377efd0d943c834fa0cadb325045f8a (-0x3b33ac100cfd8be1c908ff6a37e183d681ca97a7b0cd80f9b10d130ed688ea4);
  SDbl 0x178dd10db238d3be05a57ca784a7e228234890e2fa835f7401aa2e4151b0c021 0xf4c556230accb23ac7cd9f95716b20ae92d5e9d413aa920f93bac78c9a632b0 0xe7795adfa2716622da1763a220ffd0b0adc6b6cecc74ff67a9103bf7a1ce902 (-0x6f9e8656ba89b9b21023562103b9638c501f86055ebb7e7e41fd1892fe769cef) 0xb76eb8584a42d07ccd261f5b7e950d96c139c5c7b829a61ba0d1b22b5b50b91 0xe7b32a965883b2687b1b309a38b409714c3d423c0b0af095ab36e18631b85ee;
  SAdd 0xcf71846985302ca1c48cd2df4bf52caa0afbb6fdf9a37a56fb121e3964be10f 0x8f76d6d66d2487f8b77ea6ea7564998f4dbe413b1d880635c0d0a8520efab13 0x2c2db01229ce02b0b9bf95e39f13d3705c7c0012939305922b3a18e4e4f7ca2c (-0x4194534338adf29a7d8e910e0359edddaf4df24f809d19d4c678fe3b79fec37) 0x37941d6a9d3db604ff3182990b80d027abd41c774f5a7e2cdcf31c1d197b07b 0x1b24697152b21bf5fd184e910200a36395192f85b77af90dac14375e456f253;
  SDbl 0x3048a4c9858a606f35c924d2ea4d82fa477b713b8f092dfcaf28f11533a59743 0x2bda0da7cfa3761819acc6768c490ddc898860ec1b2b1202cc0844cab6664fb6 0x2d1f47a32ca9696b5e4747d39f21a1f69179dd1666a90d105d102a2def9d3c3f 0x532ce8ad58979af0617df481fbffc90ab29de484b80dc6cfafd0f0a9e7af3b4b 0x302d0af0549413dc8ac8cc9206f8eb8d5e8a833a08c9832bd4fa616c76791f6b (-0x22ceaf1e304b0bd3b5c51f25752087ff41b795715cfff53d7502e911b021e74c);
  SDbl 0x2af4d70795ffecb8b97f7cbbdb1eb15a48478ce5eb31a111fd984a6dba403443 0x17eab707fcc92e21a3920d940870f79d7103ff70f4b597b3c5403c789368edb9 0x2ccf05634b7b3b409df66cf2fbbb25c7532ffdb77b8d9632ec3fb937e5c84820 (-0x271add919d3afe6dd4c4ac3f3abd6e8c9887cedd752dc888703fbe74c65ab83e) 0x2621aa119070e5593ae561d44453daf5adc8e7761c985ce6279e2c0e894b827c 0x11b22062c304f334abf42a68496b6a337dc164dd0687d2ad7653b32be7a76068;
  SDbl 0x1f9d686caaed131e5e1e3e8a562a9de14617b0bc9b875093a2054e368b858a6e 0x19dce919e4de5932abb01baf7787df52511a866152f6ad96943cc5052fba882b 0xca6f4f313f89bfd38e5d60b4b93e3e35e2083d5fea45fdfed1ad5be52a0c108 0x17161ef5a40a0cdccc2dfffb24016ba1d6a7ff59117cbb4230b2c175f9caf2ab 0x14a781ade5bf21edbd18810ec05120755d49499e26ad29e89837676be56d16a1 (-0x14579ee8817e7487796561b63a279c00376bf49efe1cc8f0f3e127572c356bc);
  SDbl 0x2ecf336779df206169e6a4169fbdd3ed34414a83755581222cb08226255ae846 0x21b6d6ddc5991a21df3e1f1ced3b5ac2ea84935e969d5526d138e41103ef5dd0 0x442e0edbc347db622057d0df46d8e0e70a85c38feed6f677b10f9729961bdb8 (-0x10fd8600bb6b4a07dd3d1ec17d9ab2b6d1614b6c8f04b98a89db924566f999dd) 0x2d4757a5ad00861dfe49fe05aef6c7435ae5ea1fa8534e071da6e4d457349a12 (-0x79833ea8e27b8ed04cc411015d563c302f5a0102f9314462e87ddda29d23632);
  SDbl 0xa938eedf8687225c1bf938e9f63e821c166402074e828f332d6e4d4ea2e6ce0 0x20dd46493702110f0cb63565602a58517c1ace0127e404590b6d677cf4a59291 0x2b769408af33c6e5fb29ab3f64caa957ef39bd43dcdee199f60c4182c55a674 (-0x449a481bcded0b8b1813549bfe7bb365691c1cc959186c7c10df74c378ac9f00) 0x24fc1e52c8ba731cc761795c2919af85c5f3978e72593e65faa87c207c6e739 0x2f8ce8f58e373e30dfc3093cc9bd330b44a03c4cd1833cf668036a9bd0eb6c;
  SSub 0x232690a3c00bc0ae4b6f7a99a6406e2e6df84ea70ad1451cd72706f37252d0a9 0xed11bb80e0af6dbb5704244a319c3c08692faeaff40d66358fa694e11bd55b8 0x1890b2a7c5ebb6a645d62880a5134a3e4a661b02c42de5ac59cf087d83da99b2 (-0x17df32c7593f214e949480eb6eaf487352fd92db8d2c8463118a037c03f73597) 0x198856d0a9241ae001be09eb8d0bef4b1f10cb18def597b80921113e5bfc8601 0xd1bfa0296685e83788eb5162ca7c406bcf03d466a174b1e5b73ae18a140ed8d;
  SDbl 0x357822816269a44c06c671073b2e8d170af17f9746675af2606a5059da83c39 0x2f52f71aa3259e6e1dd612cae233206b2c427f07ab54f6e29f51a695b1cd4ec3 0x3e856b9cd32b344ecdb1de1a6a5770b29d8442540549bc364f96d6fff73c807 (-0xa379b6fb9e0b84ec031f768bf7ca9e45908d84ab26b0c841947577a1e1836a4) 0x3b145898a59379d6434d26803bf9d336aec2fb6db97f6d1ac447b4310ee892 (-0x23eb04977c649df86e83ef47dce5d048a32687538e0704c05c89fa1b888b374);
  SDbl 0x26a7c8e556132d0db44b1d47253a85c34ec6714ef7e5e82707fa6d7ca6e15240 0x2227e2fa9f171c6593527e0d1132c7905f707354c56d2a74f9d4efabf10df8c6 0x26808d53f5226a7f48123d0fc501c7d11115c127c5ac5859042dc101e48ce063 (-0x8498d2cc38b02d9ffa6cc1a2a67b0d1b6c4521caf2d1077bf110d5835494f68d) 0x1ee0c1de9b6e94e86ad68a5bd799f3d58538aaebde55c69fc8022676321242ac 0xa84d1b13e1f32afda8f775d87497e70763e9fb2153485fd4cbee01b61f4eb7a;
  SAdd 0x22dfd592ca8d4423cbfe3ee9f8673c858b5b4fff2e1ec059745765d3f5b87563 0x3db5da38ad12b3da324af4a92d6ee8c96d9247e4a41d24b365845712dc7122 0xcfc13e55e8323e693ec3099b5f3a90e11c2d097fda5c0f3d7e804e1f61bd49d (-0x189d6c8752110d7138eec3f555f4cfd12adb8ace94f2a6c21ac90641dbd2abc2) 0x1921fd2161a685b20a54aeb8244b36434cdc4ad40ae848c8b421c6f3d38ca2a0 0x1870f38cb4395030c75afe9b0aa3ecdfea79eb8f8e729424637c5cf7fb793734;
  SDbl 0x2bc6ac7170b4450ef9c928dd5f36ff6ed6bbf210ceaa47e650d320e7b1598886 0x17c94ffe7186923ff541982be4d91ce8f37cf52769418263ac352cd99ad9fe93 0x12d328fa89986dd877fbb2cd196696a5cd2842c34703f0b3722b89502d5f2034 0x177d1cddff26be0e8c231a346c9fa185212bba823efbc6fd6c8ea4652cf386b0 0x2799bf949431587cbce4b827ddeff1fd872ae5bf8b2075241a0d119c83dca2cb (-0x154cabfcf5728cfe87c5bb032bb971a5edcec2a992d74dcaca3af952cac449d1);
  SDbl 0xa19a0d34088177bd5e39bed6cb88a7b4bfbdf75d6bba4e08145cbd6c4f4c594 0xacde98eed13ffe34c9ad9bd8247e77ddbd0b1a25bd2078a6bb594d5daef1fb9 0x260b7749d8d07b616f15f2a417fecc2940576f4915ec9eadcd55af9e072ab7f4 (-0x1b37b485582e125f542716588002d73b3e49b2724214131b8708434a5d36838d) 0x21ba8f4ffe7897c4a6ac800658478d2d04c8d3231985731a6d9b2d23a4b2e47 0x2b5a4ebcfa3d179e33761a4a67eea52cfbc5b54c8b766261f9a76204781b120;
  SDbl 0x6069e8395bbe44247dfc6e78011ce1472d7a56f55d65b85032bfaec13ef46f6 0x20e2dc7c563347253e062c3f0d668b287130d3ccf03ca2375f53a3df95104ceb 0x19788d08859e23994a5c971d26d784cbcf5fcfd8e9f5d6de2d7920cde97430cd 0x23cf0bd85cfa632c616e39093833885578e546a4cd689c6d5da7ce8a240adbb 0xc017207239443151154e24e4474d67d75add60a5bceb4e58e757d8918f1f41 (-0x2bfeaeb01cc4bde88b1b9d05bf836406dbd3b6c92398399a807d4bb55c1394b);
  SDbl 0x66718e4349d7ef4a6a343e43512a54934bbe39132b0a818c3a994b7b09407d7 0x17344dc3e8a1c062a1d329316ece0d0edf6492f6bfe5065ba54bfa22aa5e6947 0x1d2b4c6612a2bd7052cbdafe99190e20cf095018a70c2e5da83e55c575df1199 (-0x3c4e6ee64d0d7d6f2c12050f93d45d4db5178aea3a5cd71bb280c8a73b0fbf03) 0xd8de775995e78954ee8e19011469fab823c919566f24b27b2d2e78e85e5aec 0x147f0225f36945f202751d971a689bc82434cc4bb3beaaba2bdf1eb2b6ee7fa;
  SDbl 0x45c8a3961e8f0e435228fa47122046c65da6b8c7d7560874bdff2587a22b637 0x19edd8309df001c16f150781c6e73dd982e4b5f042f7d071c474e74578582c3b 0x304ece8337a5599cb57b86586f955adb20991143ba745f65aaa824cd5bf0d1ba (-0x1c1f40c73a320692651abbdc2dc0fb9892d45b35a0c8a625951262f398e7d283) 0x64a1d20cea58af03ed48465662cd5e89eae377607f2124d4d7bca354061ab8 (-0x3ede4a89aeebccf298b6407bf278396faaaa754e6e1b6b3691956c43ba17c9);
  SAdd 0x144d7d1801d7fc37a87497db8fb4526f938a0627fd4e6ead3b673229c6359f2 0xe05bd55a73f97ff295ffc91837a1ab40406385c929107acf8696b69f5e73e35 0x1583db57705767bfa8cfcd044a2141f4a58ca17f5b1743101982d8c359e30d36 (-0xae0e4e31486370a23e6eb5f536a0a6f381fe700bd2544bbb5e7a3a1cb43e04) 0x88498825f9619bc43f600210d317191046808429606298d6e10354ed80c95 0x4fed380b2b13c3a68f1030eb3a42d0e08cac12c37b95e75b6030b71b11ef64;
  SDbl 0xf9311c2e70426da42826bd7224526a4ecfc996bae985879f5b3c279ebe8c2c0 0x6a495fcd8f7a4a3ac98c74f7cb3c6892070ec853598a890d65cc6ead1a3041a 0xb08edbece8320dba0eeb4e3b8391a9fa9bcacf9daf5469966547df484ef234a 0x1a8bbaaca1869fe3a3f983e4916cbdf22710d6452dee9b3e5c30f56770931c3 0x503342e0ce0ed4280698773d4b80a8110c7898c9d26f891332f7ce1c9acc2a4 0x26001fec55e78910d668e1c9a1acd54c1e78d5c88ae5c18c381e33390b53840;
  SDbl 0x303769dd8eab6c29ee2c76b0d2c79ce1c7153c414e5c8829b22ca4c934eccb0a 0x1ac44a8fa3597b5ea396221d1a78a3c4c1ed01599fd5ad8ab64ef3be6775dc6f 0x2a75de2758c253a2c88b7c96a688c07299d6b74995dbc21501fc28080d638b1c 0x13410c1f2214319db5098a59785c8f4d284b0530de9cd3f028bba9353fd42944 0x300aaeeddc0060492a5677d1420ab1d4d7b3ce734b2ee7695ab69fe7f409c6b7 (-0x140d095b465104a7fd8e8aaeb53b06265001e2c2cc4fe5d8fcfd717ba961ad88);
  SDbl 0x29b5a6479253145ec6fa71b38a658cee0584e22183245f0f78c78484497e41cf 0x118a5ba9750df9a89f3860b405e26abe2a255bce1155a7e07e3a95525c77cdc2 0xef7a1a8861c051d666f2a82ab46b37764f887a964b06409635cbcec66912adc 0x1cc73cb3cee910a8b09c391293128fc3a9c2364dcaa02c7f117928adf6318073 0x23f3360b5bfbe951dac2cfb9d8482aee3030e626e2452b431a8b2f47ee70c7b7 0x7f3c844806c8b2d61079bfb5d0b4a5ff4cc8bb5eac5deeaa4350ebb273aed3d;
  SAdd 0x8ee39b97844871583f0c5328056206d28606439fe94b203dd62538b1d9739a1 0x4a497fc907aff8c5dd3d3f1b702182a61a736df65ef0614b4c63663e235606d 0xd036c3b2ca7c7370f2ad7720aaa91f19b4bd67fb3f41ade7b434a1add6d7451 (-0x33caeaf31a16a48aab50c93f2368cbfecb6dd8687918fa59e2bcfd70d0baec1) 0x1a5ea8b01927c0c0a0ce661b1bb825baec14e164c4c546198bf37d8f4fab2e7 0x26154b56263dd75398d1bda42f80db12aa9a61a54d84a5b7eab5dd67f207178;
  SDbl 0xadc8e12601996e2c755bad097f6814f539072314d2ae99e4c9f90b4498f2035 0x21585cb28c3d9c1039e25bfbd12cdd1fd3f8ab1d21a6d23a802bbbc6da5af373 0x2f25c5cfa5a686d23fd3e48115c86ce5f99b91cef0a59778651764893583c382 0x4815b767962615cd30c134f097722ba3e3c663ad19b1c68cc74d9740850bab9 0x2701870b7739fe8096c331d52783a3db59b15969f2df19ac04fcd6cb37dd9f4 (-0x67134d4dcf3148048691d2ca4991a39f950360221c40af5dab415833118bbe7);
  SDbl 0x167c6c75c9e42c5bb3aea341a5548b08ace9566752844c3ddd4e16ecef903540 0x249fa95f47630a8e2d5306772d7c59ed47721d06f29a64179fd5c7ae65475800 0x69f4b5814337bdeab8df628fd20d7f744c54dca398716c0ad4f4c9b30a0f64 (-0x191d8794a7557730ab6d646bb67ff74f0b04f92819c7f7a03bd70b89ae5d15ad) 0xa72d057ae745f9826fc48eb679fa3321d3cdd2911e44bbf8616f9ea16158b16 (-0x185fe6e438c75736ecea6c77162940f1bdeb376225f2a3cae37759be1db5aaa);
  SDbl 0xf2ee9db8e046082458146ea32f66575233b4994d330045d4cb133925d6a6b71 0x2da360428821313386882834dd7e1e0d67490eb8ef733315e358014649f0f892 0x27f2807aa2e5ef7dec69badf45f259e7d3b13ff1871b36eacb8691398da88cb8 (-0x52e4729d648c536cc8ce9dc177917aba7f63b521fb9bf9da9096540612759c88) 0x4c38b82186f2f450e6ceabbbb4d831d041405cabc73250b0b6b1b4d595ed1b9 (-0x2d40f8c73f1d1a73424831e58641dc4f260ba938a71416ca0dee8a2e72e3802);
  SDbl 0x5a8f4d37d8eb541efcb77e6181e4f248249c6759702f2475885090c4564ba63 0x75163bc8eeb42b923b587c540a3e857a972c26de1cfade18e2afa9235833c47 0x2692e779f371aafaa868fd0350c7641124435478ec6aaede44a49aaa24a712d5 (-0x77c77546fd64c87e2057eaf47d1d54dd2d715581cdb26b6b427bc0887068cea4) 0xa978e732466d99107853515d2cb352e416ab8ba16d42aecf3243c7fd323b32 0x47b6451d244113a6e7327e37f4ac045132d16042724dde9f1ce736c3d063eec;
  SAdd 0x293a310e2a403a2d28e73c9ee6e64984c4fc8516a4e715e29596dcf2fc6653ba 0x103b34fbf4c63dbaf52b44c35d125b90f2223bba2a04f2c7a8c11ccb99e9d0ac 0x827e309981b33d23ff9688a707440fbd806d882b5aa77d64b1d22021300331e (-0x63c07c3822a68243cdbf4f089c762c3b5623363dc13d8e976b073fb2066c62f) 0x231f9f1170825f6918da536bc038dbaf85aff4419a0f0a356b78953b472a9050 (-0x797fd50bf75b46df173213db586ea0cf0caca72e2192f452ea3ff11cbdb6d83);
  SDbl 0x1a39720eaa39bac770fddf647ee049cea4a50c1191a5d8ef605449f929adce34 0x1ad4f99371249ec06d3e679aa8eea0031097c4885259d4ba129cff413a5f57ed 0xd3556bfdfd87cdc02986901e5115d75383036608aed6c41934a0f9e8e13ebcd (-0x77e366c39ec320e38bf9608a5983a96090a0e9eb3277f4f1de12c244bbbfd80) 0xe3622f7aa393dd6a3964844cb0881eea580c189c5b5835ff60b2b447e0a8ddd (-0x5bea3b8a7793d21302beea53a4d01511417579d9f792a94980c5784dfe6dc69);
  SDbl 0x1c46ac2077579de134086fa961c32f49e50627e4307097c1b02cbd27c60cac3b 0x759f82506054693b31e2555714dd5834d446147437fea09b378fe51b02b7b31 0x6bdc54bd2f71edb38d53a9357cbbb8754c32c6d0976ec359127e086725eb5cf (-0x1d32705fdd8bfd72c90c2f8f69dd1f7a3b5ab26523ecc42c7ba2cfcd7d0400db) 0x1085aa109be90de61828f967b2880b83daac2d6ced279e86bfaa3b851f3b5002 0xb61fb57af32d22fcf9856f27e8f0da65af726b8bd034fa015dd63dce67f0088;
  SDbl 0x256f63008c768a5d176132ac32876fb17d1a3f10b7e1258cbd6234e214135f2c 0x2044212a0e6dfb9b8bd18bc777c23ec946239ed335948ffb215a7f64ac60ece9 0x16d896b0de2d4001ebab3ebaf21334b360c91cb647a95fefee6a30f23ca29ba2 0x7145b51601a07fd63a150b7377dd632a85928d8ea2eae588db954952729b353 0x1cf58c386986816409ae2f2f716e0caa4d0faa428262c30a26897c04f43d0013 (-0x134609c1b61d71e7d21fea213863ba12dc35b9ce6c6bdd39f5565f4e9e4496e7);
  SDbl 0x2ab4ab6b908853631de8b8ab2ec6cc851ffa67d205f99f4ae8d8e049c83d64ae 0x19fa1b5a1f0c3edd8efc655f310b62e0412da28c525c1eb89de66a3048d4151e 0x30613e37ba948cf5ef23a6ecc9e12405f73d20209b4631f727cfe57b0e87cbc4 (-0x1838072687d36ea85ff622b7455dd26b8de365c0315cc883e4df4b6de9d3adad) 0x25b01245e58e61bb7495188d9ac3cb36bdfd9cce9041a018e4403f6ba244a80c 0x58cd7f81d7812c70d3d24d47600bf1156d8cf2d21ca2535f34145c3274764cc;
  SSub 0x2539d20f81c182880125564fe9c25bf7ea65a5b591a1e963bab3d97fc0c7e8ba 0x59b9f8ca6aa4c262a9b254bc2af00f8733e78bcfd8071916fa35c6ff17a418a 0x2f443750b12292373ad108b394ded69c4aa82c1c8d16a0cfec48588f649043e4 (-0x13fba828215e49ac95dae370bcdd3e47614d4e03a170e7d9673534dd17f48855) 0x1ca2e74f3df07be3e4043c69dca91de0c60a2e608e0753918dfe302851ec5d2d 0xfab4a4eb0ab4019494c53bb12f22f659aaa384a336fe223c56bc9fec9255720;
  SDbl 0x205c0bca38980b47a2436bc5da10c6178a88905d2765d1ac14ebbc595487c76 0x1db1b35ad07205067a2ce1b56376646ecc7597d7d716880c8efbdd6663ae5a8 0x25ed63f3d46f907425cab45374926f967025a209e27620855f3201b7f3b75ccd 0x200526a6b21729aea0864a4c114bfb4eb8bc6c353343e2b8160c18ab447bedc 0x15a3882c476e92b4e940709d6c51782d685f4dafdc8c458c8e8e8bdcbd2918 0x2824beba7d7a72624f0220f45b848160fda64f2924e66c4b9187f49072f42d;
  SDbl 0x190606ffac1d3df77055315017e98bb3bc01783e168585a8312515a47ebba56b 0x45f7c7c952cf266fd4fb0f600862c4b1643e8b60a59edd4fd0357fe346ffebd 0x29ace61ced3b75a523b406d5af3c5fa322e2eb5502ae305deee582f3cc7ea6c2 0x2702d7a360ff0899b132872a6982f80ea889f25f86f54d7a55494f156440e772 0xcf093092f6abc2b47d5b7f761ba7188e0124bfdf0601670cdc3770717534ff4 (-0x14d35ee1bb791640e531209bdb22802346fca9be96f693596faf423970d47fa);
  SAdd 0xe4d994307f26ba8a2bb88b2b6a902bab917dbaf228f7594d7e9fe66c12e5eb3 0x2b96389497d1ce615155ea707b3e24009c22f6fb72f89cc5e45a90dc36e96dc8 0x2aad126e207aad6dcaa4ed8b63b5048e327a43c053504c6dc9d45a5bef859252 (-0x14ae2a82f8c42c5f086320788c33688c0eb71f031a403694174783260db95ac) 0x43a413eaf93e1d003ae6c566ef9b9c7f3118b89c3a9284d85f8a7fa9609fbc5 (-0xb9723643a151012870f53b3f3023b91b7d06c1886235cf94218106254b8c893);
  SDbl 0xe790ed192e05461ecd53c13edfebd0111eb5b6f1f1ba15685957fdca6dde5b8 0xa02270d6811bfaf119ce7d557de75fdeb239177ef7542f4f2d93fa00a9cfeb1 0x1cdc70a6b7b2e83fe078ce918d849c3308484a9f81c601271d746300f95ca109 (-0x5c3ff382e3e716e3b333b10cad0882104e1a5c5c931a14550e83796696995e20) 0x45419032f883ac3a38aeb97e1de88ee7c7b5a1035add16f5e2dff1f9c51b989 0xa0ae2f97c626a106c5381024ab8de956f9375fbfa45086d3c3e11de621288eb;
  SDbl 0x10e9ad1c3abbf0b4c1029630d312881a946d4757ac34cfc07760aa3b0efcc87d 0xc4faed3b93d1df37e3cc7569aa7574d65c311c5a1f4bdb43efef7f02c3db80f 0x16c70dc402cb23f84a582c51f5efc88136a1a3fc4e84b4fa2eaffbae47938394 0xdf6c2b37e3233f64b3ab77c1302e4bc919f608df5e9b2e7aafe68fd2dd6eaa1 0x5e9357d52965e1135f4220ea2e96600a6b00cdf843239942ada80a7ed61d7a8 (-0xce0a0308be3ccdc86de027b52dc7aa989988fec0aa06a6b97ea661a665c1e5);
  SDbl 0x17b9eddb69ec7c7440d2c385845efc10e02551acf6403bf75b4b64a49ba5a01 0x2eb947d5af027d27e787ea131d936293dafa40bce1e57ea91850a7f087dd93fb 0xcdbae45e2ae35d4c2f8be033c4decbd6ed9bbb73d501ea7aa123309670c07c5 (-0x800125a642a490ed63ef5898ce51a4f9b90f57a2fbd1fd3258d7cfdaf3b3a2d) 0xba204eda25f760db0a2750711ce2809a35a967a27e3c198d0fc565af424d8 (-0x10df4e0a2e538af83e9ce3e6a3fe7b4c0065a93c79bd8d9edb0e060018f5513);
  SSub 0x1c4280fa25ac250957fe131c62d02708fc737d51a535e93dc62ee4a6fd44e278 0x2c62a8cf028c028cd9b63a88dc34eeb2f541147112ad4f172c9b07eb95308fa4 0x2c0415bf372baa4a40081851897f22dd8f89805271032cec8b6a3f19dc9bb624 (-0x1b4921438f4e186c9eb923640c06122768abea1a1eb86c6943fe64b114a55bd0) 0x1080cb522c2fb87c295e0c6620f1a221fa113271801c90993ac7029192523660 0x15d94f564e0aeb5f39535f733bd0ddc726695b69ac560d760cd18b9129f73a9;
  SDbl 0x8e040dae17124d0da191ce147d65acaa8f84ea716499f8fb75a41633399a15b 0x2b9dd30a75a29ca52955f000d39e4bfa413dd83c235313b781a97832485ee5df 0x1eeeefec22bb44659c9118f8e23e6563e3bb8573a09274e13f06bb5b1191bc8c (-0x69fc3726a6399bcb860f0dbfdebb54d15b8754d5a55ef7b87899f5b1905161a8) 0x1a0c6602d73fadfc554b87272244f817ebf79c8b7ed72dabc3b0981265ef63e 0x241a7383ef1dd92f0e6d04b4595df33a79c3f873393d8e6214885aa6338971;
  SDbl 0x11259bc0d10c8fde31d3e295fe89b9e0cc4ddceb5b7a877abca7205aedd04994 0x2b11ac5d3c62eb68477b0e2e1d76c8ffac17fdb8fc30924ea78e1498d1c53f18 0x331996b333b7d0279e349ae91c321f5451b86c8bb6e64e21d055e33a9d9eca7 (-0x600405704f49970eb12e2af879ded35a222c212f0eb42d8d201557cd4fa5ff85) 0x613642159518e3ecd34360cef1f2e107c76ee74ee90a80c44778b0829f46c76 0x31a9108d9d5eeb23f39e68abcbbe7e5b64b951ee5089be4e3327dcb7f220df;
  SDbl 0x283ae84a20293e0ce83a51b1cb32ae9b7ebf16ef9ea1a0ba2d17492163534758 0xafdbc48620fe7b4fa91e2d322b6368444ed1fc89c6625f1557475c7d6d841a3 0x3834ca8533b70a2b47fae4e0be4c40c63873ac0e2b60c085632807268a5de04 (-0x6daf5aeb0a5bfd27081b03d2e05363d73fbf3a79a3f575bc6d66af912af10690) 0x2171e77b3ddd5d1a090c23cda875dc5c1ef987f0cd9f6bbf83a7650da75e00ab 0x1aaaebba0b64bff60ef0f4459c15220daec3445579b848af6e8e9eaa99ff258b;
  SSub 0x1c1b500b0a44d28f583431b54aae90137556b078e1b178b14fe4613072cd3e95 0x983f2b525ce0aae75a07e070847f6843cfd3562a225d45971f2a2306f24b814 0x559ca480fba8d6d4294806dfd0d713a44a9292a7b07efc2373d9003333ed1d2 (-0x662426993b351c6a21668b3fd14ed6d0531e9df1ae5c63fb6c43981b8ddf69d) 0x10532506cc2864389a02987eb9340cfb3ba66089efc99b287ba9214d8d3c4b77 0xdb6caee2b5fdef16b6a050685e06166ab9b5f4afd9ae0148c6fc0d7555a8f3;
  SDbl 0x149214e5dbe70587ff0f61a06c13db757c70cd62c486461412008aa7823f3827 0x239f687e09fc28cfc738d70c46896dad875f7677411a24c06982ee577c8a6875 0xf9e1107c1c43b42fea838e47aaa7fb85b6bc5e8943e8b6f7cf4494ff34470a6 (-0x110687ba00df19d37e89a30594ed7a2aff168174f0319b7bfa1c2418fa6ddac) 0x8be8818a34dcd0b17e01c317813b7048f9bc0cfbd80182d6b390eb58388b20c (-0xb1909ab0a3c1c3816664ae4832694d7e862bc0b859a2c92a501b2082bb5e049);
  SDbl 0x9a3bef7682411722160861e27007b8de5185ce265fc29c789be5762218e0ebb 0x93ddad36db6297a79e214ee846448257223ae14b8d574936679e93ea683b2e7 0x1462b8cbdb04487db832b0feccf8b65a7a106f693145518039a1a8a1500f81ed (-0x4872646e1aef575a5fbc93121f659bbd8daf2eab7b1f289d83e7e5a8a7a6f261) 0x1eb92f5d2577e285d4d681539647e1db926ed18eaf98e7188d885c91e0604f8 0x5414e2701f951faa36de95775bdae69a8dbdc87cb81c33a9440364cdf96e621;
  SAdd 0x2b6bfcb173e1566aaa9a72263379cae0069fb72f1b4bdb81c201d3264e6b9797 0x498117c207e8c3e39740ee6f96f3f82e01a14582095d6ffffe97d1dc0f872a1 0x294849c4a879329797175b23410acc89438bb5ac3518221b7630bc86acd1c6be (-0x84adfb1e4a6aa6d761e17abc441ae67ed6972b931c51295acfa5381870227c9) 0x26f656ccac6a923fc6c16493ad82707a5a0f0708e0fb3b9a2e57e62fb385a238 0x42b976f9dab94fb1db42b5b56976cc12d112e7ca92c2593f44bd02d9fc0f3e9;
  SDbl 0x4be13a2d3a877e95195a8759378bb4ce60ae5dbef291ed478378e35746de769 0x728d9e1455d8fd618a69804ace45cfa5fd552c00ed40062a69de6147df24348 0xa0e0956ac3fe04d39c6d54b807302d199e4196821d248e74a096ba7c3b98098 0x6c87a3b129f83e01ae5561164f7c5450abb02aab2d21c59265f6685ec23379f 0x76fb533c7278c64b62f1a4e18ec7bf36681eaf01e5a4fda734b305a38002c1 (-0x405daca769e3648b94f97ad1305179a6af95d234ae67bffbc2a0af76c54303);
  SDbl 0x816b8960c10165858d58318a43e98112b88350a4a27d2e122a8a4b98c65e44d 0xcc8c4bbe9b6f62cb1469cab0153dbda9b3785398a72c1f5f2ff2b01800c1370 0x26a750ca6bb77d78d408514093b471fae3547dd384732aed131108b03ba79c60 0x2efed376c37fd7ac191321da21e8cff225c51c765eb6bb08cb35bf259253d0 0x15a1fa65e50179b9924a5659af266e3c1c65ab0cfbe5d7a4d407b508598c20f (-0xf0af1b2e7cbaff9d7d103760e77be5ca5c0a15d7605b33d9e05dca9e955f00);
  SSub 0x1de9fb55ea3ced89b02d207245f783c94aad1172636e8233f2d5b34100d9630b 0x252e55c020727b9042d40b5ccc645c5b84c989bec82238fa5e9259931b09ac61 0x514a707be0e856296af452c40ef7677a19d1cee786814fffcc3f6be371d963a (-0x7e719fca6d65dde5b01e9e250c5922ffed3353bbd96af042afa7ed3d4092c06) 0x127ddfcf43f6616ca2ded783d55c2fc18b67a81502b419e0419366310e7e3fa1 (-0xf14c5ca030fe2a5f7b9fb9949d1ae20947a47b3955764220be3bc7eea818ee3);
  SDbl 0x264a77b7fe7515a006c7d958a6f30a8686565e3319c7c52ab5b97a8b6d613d83 0x1d9f92cc253fbfb04dd51fdb1192b5ff78ebe4150463946c971b6fece589346e 0x28efc5bdc62a5af203d4795bfae3c3fbe150fc56f07f50f7dfd4e8fa85038fc3 (-0x4da966c78def9ee10914c818286422b407d3fd887b87eae29c7ac4b259128d61) 0x1e4c6072bad8406cdfeed00b735470e5ad1b5c46a5da0071d1a52151ed00e5df 0x5faea1983c9c10e758466badef509974abd57dec7baebe1a72649c4931808c4;
  SDbl 0x2b71b6f9b87479f6881ca3089bf3c8252572ad14c1758d3db1f2b65ea8c55bcf 0x122ef9c660a25b84c390542ce121dd7bf374d5bae67d54a6933030859277e118 0x29eff9029393ab182a2b06878125f610460ccde92b094e309135dc8ec92dc0ff 0x1319a311479f740561f8ed5a8b50cfa52fdb97da21afaf13074fbef2b452c102 0x27009edbacd3bc70bb4bbc343d4217574dc583b5283ffaffb9198ab430925fab 0xa452cdd66067f1bebb60e655cdbb14557f0dd407a17f879401c133d311401f8;
  SDbl 0x89433d7bef9974ee585f300055fa900bdc50008805bf5deea0a060c7ecb8aa1 0x15e1103d100a2478a377cf31ac78e1160178b67392a155005bc34f030956f80a 0x1e77ef390d1de0725f9dadfd9faf9a6336f0a628a704308e622514634f810083 (-0x5a0d8dbcb92e5590b73e69b95f90c6cb376f7d1228aeaa4eada5b437b98feee) 0x18557e9b08c2898ee9d269a4ebe2c8f07f0aa3b6caeb9f862250d44c52b9041 (-0xa7b9034fcf10f21fa73370f82c662a6de025dbf576ac5686e2e40a9ae1c8ac);
  SSub 0x4f778971cf0648aa5874b1313229918b3b04113d532837dcbb07602ce8ed1e5 0xdac510091c9eff0449b51bfa1690fd99436b815ef19dd66b4d8703a9f3cb0ee 0x2024795e7aaa5a125c75639e0a1274fa5b9b449ffa8efce94817b62afd92b7b (-0x23edd27eafa023672a91203569a7c5091005629f2750ddbe6f31f80a1cd2739) 0x827f450564192d265c157671c8efa13bdc69fa13d7aee6a5ae8922094af320 0xd79c15422a6ae9359167285a9ce7bd1393ccac3ef2a9dea08b1ab08ff4e282;
  SDbl 0x461c85d4404909e4658638684f3a126d899dbfda76618b721cc90c5744de3c6 0x2a25319d3d3d7ee94034aa7804d92f548dba8393aaa7dbd19e861ff9b8fdcc28 0x35ccf6194ebb61073670039d052add84387d5b81ac3c1dc9d9dc6d550881ff1 (-0xb39e7deeeec69ebdb7e9f6520d31ab34f377273e06c718eaba535bf98b21438) 0x6594519a84e9d9d6d62e75431bcf7e12c49c783293c86dc303f34ee56507e0 (-0x29405404b329382110b7d599a9baef36c37840dca355c4575cd3817c38ef978);
  SDbl 0x19b4e8b6a36851d8511d22be57d260e7cfe283c3a3094053baddfbe0f7202f51 0x3031a40ab54e1c1c5ff54e0705c7a502b39edf14e57645a368e6e2a4a9e156a0 0x15c4ec09301f5693ada9bbb2c70c89f363a5cb8f417ac86dea022809c769f110 (-0x6a8aeffc693876dfac080efadce6ba64e2acdde9f162af3ad28eb822688556d2) 0xda7e81ee3d917ed3249827827a5489b4497b640b1901952d7a9aeac59380647 (-0x33690ab8a1977fa7d0213cb7f3ffb7b06d83553fea654ddc407dcc114d907bf);
  SDbl 0x29653b3ac75cfbb0d11343246f2b263d6937bf4674f55d0b8c2769f3cb743697 0x4feb4a93be9782c6a56ec4a695a6016bf5065cd0bd72980d8cf68e537773c98 0x1b15ad594c2559b0337e9e3a439e2f6ba3c1332b538b6e0ccdf315746b4415fc (-0x6abf25401dddeab284e332e90ef07d529bb9334f38f1b89fb725c2a0cb962be0) 0x23691b2b24927e216d1e588dd226d00980d174f3af9db65b42e748f08a261b7f 0x24f40ec552920006f53eeebd68cc0dd014a58856b6e4f4fc8abce66529dd84f4;
  SDbl 0x1f32f77d3ff5368c1f4d7788afbc139230e99f499126bfc54d2bab562e4ab7f9 0x2c51e0ca099b8cb2f352082fbc170f77c081eb7aab4b4c7084d059a045c21118 0x19747befa6c67e80c909df36f08ce5d67edc9e4706e8b1f4498e50dcdb6ce388 0x216093995e7cdc734863e9a69e66b57590568a374784c3dc77d568e66edfb2c8 0x141d57c8fe2aa9387d482a91a98625539faf178f83cb883d7b4f758c91a95b4f (-0x195a7d46605eadee6e8e731f1d218beea731c1d5b7ebd6c9074be89bd2a8f7dc);
  SDbl 0x1a9016f2fd92266d1b45e5291954ee7f74026f5df250054cb00f67ed6498b903 0x10f02458a41e73b23f791e2074131df0ce5481e665fce4bf2b7c9130f4d56e0f 0xed6f67408de843fae0c671cdf648faf9bb860e9c172ea1a61bcc812d95e1a91 (-0x5dd38bc44b9423465919187db9ef1648daad797f2dbb61f90da818a308d249f0) 0xe94a68c3768970529c081dc36ffa57208000f26756f722be719f9eb549a08e6 0xf07ba600480f91dc90207aeed6eaf22abd099547cea9c85d8804efcecb16cee;
  SAdd 0x1801a93613c153016e2ae6bef60796bb67866f65ae2de9259db128799484bf17 0x2bfd1551d347144c940e76f555d3ec61f53bba34b141ae430f463965a1f72cee 0x287befe445e91ef53d238f3ddc1edf4b629f09c16f650673c32ec102515af8c5 (-0x8671908879c701f5202e0141c85bcb1531e820473e76981d05b64b61dc05d35) 0xbe8c6312163a23208351388b236e5d982f6620632e643eae9c898df9f1a9bd5 (-0xd6b5d2cf3e190405937d40c71c663c9173b1f96ee63bbe79493b6155273a629);
  SDbl 0x2df04c2dc9f1dd6a0b296b8da1c797148f46ed79b251290cf6a479d6c7b2a460 0x124d2e22393d9d5f407fa20abb04c5607b43132fceebf2d6f3996bf041d520af 0x1f16c1ff22291b958ffd2c46787dc9cb95c1c8f96b5e91cada010382774c28e5 (-0x2b182dfb4b64c6fa679f7b17ee6fe14572c8da9294e6ff9ae28ca2a96eb7e994) 0x2b9c1ff226fa9dc3a7e277aca9007929ac0753cc0ffeec2b04a7c4533ae01163 0x18628bdc5d4ac2279dd251c00f40213648650162832153d076b94ddbce3e815a;
  SDbl 0x13cbdf52a74e874e5de6d76341eea0e4c6dfaaf76c2c08f4300327ec10a861a2 0x2c69471ff22aae64c109d7d8eb608eea0554a54f2344a3d270fd5ddec87e4c73 0x8ceae4a0cf15a6b1e43b9f0e36d4b3e887b53bfe4cdee667afd10f2d5da1df 0x4abe6d46b0bfd24d15bb52bb6561b3e2084bf75b4738b604617f3f8149e8807 0x81930feb52bb0cc2af283a8aec0ec28fdeee7b51733190090fbe7fc1395eb35 (-0xaae5d7b4b04239adb907100b09d9a812667031f3431bea08232de0282f5eed4);
  SDbl 0x2f1a8d7f619caacd1e7f3109063fa15cfc7550b9e3a7f68c985e1cdd32b1c1c1 0x1b215a85f74776bb55d33e2aabc80c38959f014eeb62335ddff06eceb69b8854 0x254427a1d02bfb415e51be5718d96bc5d848cc6562e7e13a2b42956f6e1da351 (-0x7933e1d1ee080a6d168218c7f0bcfc468e39431f55c35bef5fa3d3d48cbd51db) 0x2dd99391a487b2435aeeff3b0eacfeb658e764809fd6bcb92e214ca04a096301 0x10d22ae63f6672f28b937e2c30e0b4805f66c434ebb90f01602dd6a8542d9cd9;
  SAdd 0x1ed6a5b2d0f7e34a7f771c4051ab90ecfbbe1eccd3e9580d91d41805bc02aa71 0x1957d1d72aaffc4e3aaf3c303f1fc034132bdddce7b0fa6e64847f553c5c6a43 0x273af2b68b7e5b13c6e361642c1e976587da221fab60b77fdfcb822abe023935 (-0x114a09c3aafda5f398c8a211071060d2c5a772271fc9eb65419707b5d492f80c) 0x13a6fda3183ec6c1495c1f10b69933751631d9e07f87658707cc4e29ebf232ef 0x12392226a81a084ac7e728eb09595bb5ac683f7ee79ecd2bb7fc76f6b0a26ad;
  SDbl 0x3f90020ef50ef013183acfa6cbdc41fdddf6464616279bd987de482ab6d8116 0x2369e35d5c270744da58137803ee3e7cf0cc89337037d881befef33f82a5117b 0x12cf959d3b957b7e198f5587bac121b295da0fb51f2bbf6dd73fe6844ae396d9 (-0x216030b0bbecff26dd83a07343d3e21859e67917d6ea0c2bf7984365376a6e09) 0x537d3d6afe98a36ae5a2ca5c20070d7cc133b64bd46378180d7658539dbe85 (-0xd3a49419a0cf2ff250db1ed92ae92f7d9ed7a16496041143a2cc632f161932);
  SDbl 0x17b2670480f64263c86f40787394ef11bada6e427a6dbdbe8a5b0ca3379c68b6 0x23c18eba6151f4e9b1c2f9705eefe769a625ec9a6c69f00c4b35b4dde503bc8a 0x20082deb8f4f410ffe4a69d3b7f324334a2f2e737f24a37fd9f06621c96f0b0f (-0x3b5342b243ea9447ce33a08af3d7ff2fd7953ad3c37e6d5be1ecddae7a5ba6c9) 0xb9aa4a87484b1a4a8be739cc07fd49061a3f0e0acffa53033528002ae2150fc (-0x2aee3db39a289efa1580db627eb15e3b73b4f138ee9703236dc6b6f59935de);
  SDbl 0x1a10f99b8eb7335dee5cb3987e197b0b1136a3d9613347b91933c8d60b79b440 0x2297fc78778165fb6a8ba896f3282ee16dcf2daa402cb8b6e9c030d7f1b32140 0x2834589f49378448e2d4e25f14355a72e50d05f744843bb19c2dcf14326b4b9 (-0x2cc0429c73f6d11500a6f133811413a19e8264e4eb32270bd4d1eaba75d9d8f4) 0xe0a67c9431cd626174ea67da8d09f91cce9fc93dc09d9c25f363f63a09082f4 0xa04980c7036fc80bbd0717e6bc0b0c73c988a8bc9ca472eed00f4f1c398b88;
  SDbl 0x2821929916f7c0550a8820159d9527079e75b13e35f50fe129f7ccd13491b04e 0x1556f8dceed248e05894ca1e4f99b1ccf0c3653766fa49e360969e92c3e772bf 0x80c8397d076ec9be466d96e5017af27a6770625471de15b16f2c70f4df27122 (-0x46059ed7d0598d87d937fc606f13999028bc38ac02db197c0ec2e95adac9689c) 0x2147d51a210a8045fab12dd1aa576a6e0a0cd1033331e3f8acda189e257097d3 0xafdd01bcd9330c78683e3ece71c792d69e6a4535eab70fd15fa921590ca6c75;
  SAdd 0x2afb6cd8dd4174876fb647624eb274663b462d4f1ff555b5a8f7d8d1b3a4b9f 0x198282b45b2f8645ee19e54bba62643904c077459ce03f67eaf19547b310836d 0x146bb5f7e0767b02af1f340503f78c969b9dc0fb9b8fbd01fc04521935bf6a95 (-0x12f445109373418b8ca3d9a470cdedef935688c6b954867ef155fb4fe76c50e) 0x262d5be4fa31e52406862d938c45b02294009c51db7596a949f03998422ecc (-0x3b432ef9f420c55d19345d411c35350127209977f214b3f40ee55bdedca06f);
  SDbl 0x1737025e1ad137f6fcded04796fe7fb752ac3b87651968281128aa35c04b1901 0xda8779079ce159414f3679446edd3697d945c6ecacb08f7547703fe1e7e135e 0x1add333ccdd37d1824d862c2d3d6a2818223da074f0f85c65c8e6d8a9b45d4c (-0x14bff2a3b7de6cbfc9ca868ba7a2cd3ead6aef3d9b401c9aedd8e90440cfede7) 0xb23062493db6f26aed308602564e302ab0a47b6d946102d238e91494be28a6f 0x5af837c33432f2af4da4ab0bb09d44dae7b071dec41d04c7b841b36662f8662;
  SDbl 0x17fb9f70320653fbf75b45c642f62e505fa7bb68479573da6587003b01688473 0x2a3ed3e059a4bb9d9c4f59b1734010ebfbd729614d10a7965a32661b5c32e469 0x595d91ea7c37070e0a715ec3b26b96bad4712748aac4e97655e5a5d0d5de091 (-0x9e67af4d31230e1ba63fb219aef1b4ceefbfde6c1e1b6ea23d6a290615e769c) 0xbe2c946161d8db8a0fb98b26e18ce8295e64a9c17a166fd75d1eeac628eed5c (-0xe2af772a1ea5ec93c0f00dbd377df8858f453db5cbd313f5c7a0f60e0240ec2);
  SAdd 0x16a1c092d3cee3b45250b2840cf56119492a00075dc039fc3f2794accfa8bdc4 0x2b2597eea9c80226ce889e52a83c842f6299f3200bc5a733c6e2673e847cd5c8 0x2d160dffc7261e7e45d208d31d8fd74d9b494a87a44e873e74b5bcdf89348bef (-0x13c1de7adff720ebe1e97c229bd5f97e27192db3f226f466b33b3dcb77f2e4e7) 0xa959deff6276fc1e9ac2a10b90e94008bf6bdb97ca0bf700b990f23d9d5d432 (-0x6beca3453457c96197d43a587ac2372e6aa7ad247e266db7f7810a2e316fe4);
  SDbl 0x978ed0826091a030ff17d66de9b007728f79c70e79dcf6c1bec95a922760822 0xf333a97addfd9fb6d2ba72b2e66a7a0ba01b0f58fec937e9ed106aa8ce23290 0x1b79cde0b51c2b45e797ea69ac7dd7060be1cc6e1b7d6e53b94a8e72a842770c (-0x61c2ad78681451e062c65e6fca1d6b74fd701380c3e76b9d79c87dd003b99e9c) 0x1daa99fa3ee0a485a838cd8ea75a842c87d91fde6f424be2e89a020239ba87c 0x5786af0d8e57fa3503058372ed8bd65b587b2dd8ea888837c0d7548b581c863;
  SDbl 0x24fba357ab49d6fcd8778a36d82f44d33f0028512356b6880a935c20f529a9d3 0x202bf3d8c2ac39257332a2414ecae2469085d63ae4efc71caef3c2cd9c3d269a 0x16e04263eb0be6ff45910d989940fb44d2be0817c8dacfe8b43a31d40f6098a3 0x1bac43afe16230aac7ca79770f15129e1e525be07e5a2f1baa76d4446e07caf8 0x1c438bf79ff6f1a28841c584d1d6a260a7c133a40800a73c6f50af7431ad41d9 (-0xcf86941d40a749f31de4740c1c23155c20ca96febf46cb1c90b6fc2dc23252b);
  SDbl 0xdbd316a4401ffdabeed844c21edd205758e37604aa6cb722f6e478b9c87bec6 0x2b0ec7887fc1225063a5198eb488b0507fab700c24091849bfbd9cb1ec7c78b8 0x201a2d9664f17f5275faa5064559b6aaa073547a58b38964936576596075ad47 (-0x332cdde91a3339a893fde3293501aed82e2f04d89538a9a2ed1eb9c97cf927f8) 0x3e69311d284d6d27610a8b694c6e8de0e598f4025b1dd4241cf6077c1262708 (-0x31736ebe3f4d26686e9c24a7f4a55a0d6bd8d183c412df14c3f0c4f9cfe60f2);
  SDbl 0x1a7cc0a22457ed9f6ed2e7f7677bc3bb4dab9fd2e9600347f1c6ceaab678e1da 0xcabb240622be31c7b7505ae0faf1126a92cacaabe59f194551bb9c879b70ab9 0x25318a5e0969348d53d92ab584218acce87cfdd866f19c76382d0fcb7d242f9a (-0x4fcadad0adb4aa06ee1428bac77cfe5585e53fea0ca5f6aa0e72caff3cc3e98c) 0xe7f73b318fffb68702fbfaa68d68e79cfa34b19284beca28226954cf74a342d 0x10a1e3a7dc07a0d25c9c069e21206a0e0d3617619d471e88c33ef0d907175713;
  SAdd 0xf2988a755f0d1dfa4239ef3796b5c67f98bf5673759b6ec2264c536a6c09ae0 0x11adedf4c24112f8750826980fb7403b4c9775b29e4609a8779644dd3618137c 0xfcb3478fa3a1edfc10c773d06dd00a1df92ee4ad98396fe1e0ee044295f95d4 (-0x3f8529b3b67741e6943fd3cb2dc499113cce9fe6ad6faacd53a7483063d2758) 0x4c02be476a37736b435815f5cc87d173d5412e80379374fb05561e71a17a8e6 (-0x191c09bf297769eb2b0716e5370ef5ddbcfe934f066690cff286a68a456e082);
  SDbl 0xd58ca9f0119e7e72e42775c58b08adb0edc18bc1468c70ea804a27e951600d6 0x3f8c379a3c2612598f62972088f5e530dcff4ce6e31b4825acc1bc68f38eee0 0x682f561e8b79867b6bb2403ef7f4105da1644a3f33b89fb5cb50c35ec451c30 (-0xaaa32d97eea2da1eca26e8580111e07635df17635295a36124dd19527400440) 0x3ae60b2c8947d1d53052e3b4534edcec6a047b51b6d15bfd4bb06e001d15094 0x3c7daf663a8cc4365750fcbbd32dfe8b0c3b16f0c04b197ddf1f1669e29f67c;
  SDbl 0x2ed80e8e18149ac7474112b6c2df6503caa5a5fa2cb80204c1f7525563d48bf3 0x54df2c296e01b2f60856dfb17efb02b99ebf65a37f7a3d02702e52e8e4b5bfd 0x132525afd0bb9df5d0bf676aca7e2f247976e653ea726025d207792d73b19ea 0xba0ed9c036e7a494ffc748a015e4007da6250be164d109b44d088fe1b847fe0 0x2d587b4b84d823b0de11b1709e738edd412cb27d49b9bb05703dbb3638ca3fb4 (-0x14a458ad30d9327cd670f838cbee5fcb48a3301d0f689313ad294fd60be27d7);
  SDbl 0x1ac8e9774cc1306461b43514a6bb3364f35fa4bb71d65925e9d468ea604d7b47 0x119508293549b1923f2d88adee08351e237a9241cf3e3445f3d920128d0a7cd4 0x2648085f4a2adf1f818cb63a7955501c2201edd8818b0420d0903c70f9b218db (-0x6b755fbb3bd837c52dd2aadaa46b7dec09c0adab187bd0fd84c4e40c0a9cb9) 0xed34ac898ba155a8434b086aa708b3f03ede5dd39aadc18a0421112a67ee585 (-0x6cbb15b8fd9867c4a70c9e1469d5204ec5c9cdc13b24a3c1dc704232847646a);
  SDbl 0x404d8b74399422a11a2d0797a26efb8dbffaee4b2177726e8b291bc4f36ad8c 0x1276a37a3ae4a278c51462b8dd959033ddd023aec19bd3dccee5878ff69461b6 0xc9848d9e7de12fb6fa17d3788cf00dfffcc0b71a8957879f150ca5b4f137ccc (-0xcce4910f187c0bd44ebeba653b843da793eccd027cd2ed4d82e98117481e998) 0x55720d3ade5e05eac38d20ea3b0ae41a49f0a0922c4814cf33fd97a5da9e3e (-0x12bc917bd1b94c7cda975b4de9c6e7cfac6fe4c959a1374e5d83ff56dbae49);
  SDbl 0x10214e91396aba83b40e731156f4ed3d13f97f6057c787a82aed2b35a03605b2 0x2642e2cdd8e7a891921fc2738cfca16c5294bf06c61c2cfde89793cb36de82be 0x23c85a40bd97855a96033fb5094635f09e2d7d5b2f327bfba535401c155af0f6 (-0xcbcc0f1160d12234837a23b4750fc7ae55dc489b08599ed47b965534e4ae5a4) 0x560648d07336a4fca7fa6b8fd838a666bd569624cfd7dd603d129e998fe2e96 (-0x6995cf9d5a3208c624f4cd8d3dbf9e77e2021070d25835f34db8483e263a91e);
  SSub 0xcb251e079264a5708b70ed0c5847ff6100cf85d88a354a6527425fcd6754deb 0xfe81e9a0cacb714900982cfca269aab8c7c44680058bda8edb2e21c8d8f48bd 0x2bad79f057001c3d7c457392bf57fae841771f25bb544382a2628d77aa54c1f1 (-0xa09e2560a102641b8e8f9485eec80d9acea21bc66563553b759974cab58bfc2) 0x354c950372b15e109c9558aeaf38e6ae579248f345cbf561e8a552405748e5b 0x5dd7b6f2490e0e87cf8805ddf3b10feec40639eb01f910e90667283378e50dc;
  SDbl 0x16ef2108d833d4701e0af8711ce3d35fc07ef08a3b05501f1182dbf79f977622 0x226d4e0581b9718d91b595954a58199853afe57ecdd4c1e48bc61c2b787e5535 0x20af01c7f492f1fe2037bb56f0ef303f54289cd00e646bea7050db3c9bd936d3 0x19b6c3ccefdd425cd73e53546a7788c476c60f759b6beff3884aa9c9cea9a7cf 0xade79aad2b3c2d30f4e9a6080bcd59b2fb8c55d27a1bec8b9933087169f9203 (-0x8c6f770835d2e56d5b374681f6c59abc2cbc306f93b93d5d0b1a7e54e1d93ac);
  SDbl 0x14a235b5fc6daf089defaf9bbe6928f0e9f0a5b93b91587108754895235a79c 0xa70da3cef51fa31931ecf87af96ba99cc88b7d2713a92598c8506ad368fb6ca 0xb5f74263d7ed669178e74fdd2acfb04673927d922270dd47de6fd8d7c55ad1b (-0x47bbf84eae7196cc0e977bad1ef5258683fa5025c766b73ebd94ccdd5ba63ba5) 0x8cc43a9d20c5d85b20a9b60b634741f8966942e99c031c798e9028bc44944 0xa3a3520f2ac19217d2216598869b74a7418ee5adb84eaa5b067cead075c68a;
  SDbl 0x28cb70d401b09f03851f69929421b11ef94dec3cbf2ef77770d2bcaa44945047 0x2919c5c2691daf1e7ee5f13d7bff024cf706feac5832310e0e1746437ad84ad4 0x2460cafcf310eb8801acf49d496d7a16d6886296175636e20deaff0a53ed735c 0xc6ab4635c7dbbaf15a7d6edcff18b6cc53bf3db142e6c5127aea89d117899c2 0x2263e74b896a251f67cb873616cda64b30d5f60571283f5747278ee40b4c8aef (-0x19d8b3b080614ce6851eab5c9df8ad3016baa7b481e4d646261e16e5dedc015b);
  SDbl 0x2126fa8f847daadc2709260cb3dee099a1d1fd49306040c1b76f4b0a9027312f 0x17fe84d62eb1d9c38df900361f80f362d5cb8e041046323dcfbd07fbe17f6305 0x2460d44b307807b4339e612a28ba84f8e9f6165a55b7655863edeb6df3a9f36b (-0x36e1639fbf06782ca5b94e94b8956b520e9a57b8b023c6b2b92b8d05168551d8) 0x16b6420470114338bdf0c3acc6c1feb0f8eb4d0f2ce82e2717259e8bf01e2c6c 0xbb82365e0fb9f0c8af71e33e65060fd0a708ee042838d6b30610a79017bf3f6;
  SAdd 0x2d9daf725f5e624349b36d241e2b76fdd7c0d4fe247f31b62cee899d93aa09da 0xa07f122594f302fbec34712fc7454e69a651ca634d28562251abddfda8b557c 0x66c983ec1dd25f75bf5d7fb0c592fdd33365cc1a60329929a36679628d0f1d4 (-0x169e2b92746f3952fe31dc52747cf6350809b1f2060a23a6e144c76549efd189) 0x2affd3ba4581dfe641fcc93311697940e2c727d107a9e4eb86998041d94c4ace 0xd2987fc53bc9e7f80be2893cce5f2b8c457eee198e8017b24338e946f5563bd;
  SDbl 0x30b0ae10b636a516786b1cdbea996cb36f1e93c42121f61c4a630f17585adfb 0x22d2b7b3d6ca8e0ab84634a651375d348248e4bd7e550c293749d25c92bc620b 0xb9d72193e6ce13a6f5b1ad223772d6ab9e36d99865ccc30fc6f1406503a4524 (-0x56e10ccd4008d99cfaf373a28b756b737d3a292b423bdc0f54ed084430869c8) 0x30fd863785cd401f6ee2534696bfe1a9aee5bb3078b5df108e89c52251933a (-0x18f1e740090e4923ce803b390f0992440c3ec382f6f529a44e45ed17dd206eb);
  SDbl 0x5f6e0c28717df768041ccbcaae066910c988d8a89186cb83723705387d27de7 0x24b63cde13c5288c96695c472d6bdf78dd490aea2038a84aad2333439ca4512f 0xdef22ae37063375b95a4ce8b55b66c0ff09faefaae3797ffd342432516b5c8c (-0x485053f47ee42f3ea1959c8df2b82baea767ed753d74b168823e6ee6dd5a4375) 0xbc30a8d150d0614cff81f0dd4ebfe5c0a0ca3fa2dd3cdcd60517d69d4e8b74 (-0x3b98386d96fe3e35833d7c1ba90b13300a43cdde7afe6e40d6627a0db76d74);
  SDbl 0x11fe9234083fb8908883f3b02bd5bc30404aa5c838ed1049137ec2051799314 0x12e8816208542e5b9aa20d14a142cfa1c0ce57ef69319da39955bb2d0e6e6c71 0x2d22e034e6a6ae604475ed6602a768f021463421d61bef97fc38ef4d11cd1e3e (-0x52e7c586f65695420dc5b5d8102e6806e01b58b1819420d00a136a5253fa0f65) 0x6b0f21f4643428ba8909317579c5ca42590ff0dd5cd03c9bd35a44c83bbb7 0x69ec901ce1611cc8c93c7f80714bbab29f6c02887f517706a79779bd652082;
  SDbl 0x1430534a1cf0dd920404c54d72420cc0b01aa1e2f227dc8478d3ee704f0ec4ff 0x118b1f458bc1bdd75dfde6607935d47b7d91072a41e09ff49464b2c94e74b0c5 0x218cec0c41ab79f49d5b96ddc2c6ae3465e178930d3e161fc0f2aaf28c69194c 0xf7f3a64e7722a69c8ece109f397c7a4b568f8c667857a84acc75558573beb97 0x86c318f049287014504020b94688919136f1a159defeb6cff7c3be1ea0db5d6 0x91c2b30c92b077368f2b524925d9b31e2cc5df91e5b8e461abab4f5f4acde6;
  SDbl 0xcbe277ccb57e222f383ef26dcfc3accb352d541621a9e2a4da2b3e561fd5f3f 0x28f25c7450e83e98acfb129a0eb22fe1cd65001045c838534bc03d01efd07905 0x1bf45b338f60a0a0e0f25db6c0d76d0136b609c151bf86360324db14bfbdd3a6 (-0x16920a03ade9f259dddb31311ccc222ec35a555b9d3b7044e6151a2fd071f05) 0x35b01f71edd31d3f613428045dac4bb208be01769471bdb28df354815bd427e (-0x629a509af20bbee5e42db4074dbaa14b5deb64d8b770789c4a4eeec7f0436be);
  SDbl 0x814077acb691a11ebfb492f615853356a954f4cfb107ff83008e27402c14be5 0xaa774a3a7993d740e1cd99992709be7d1a3e1166ab80b168a5ea887b5681aa7 0x1159aafb3d814e10a40b99b30a3a71723b002d439c4857b0eb598aec483b5235 (-0x5e9ba9213206aed0b5e73f7d09122ea9c2d2cd4925ee3d3acdcc1fbb2a3d6db9) 0x159396df94b7c11cb2e452ed9eee18a14a99e06f353e92c0ba255630fb71498 0x50e8ea430e6dcc27bd73c112268592f54f36d579cdeb92044d4fc1a40d8d16d;
  SSub 0x1c1aab72fff9e0d6de24bcc4615cb26ca8df807a083d4b28083518b94e61063d 0x11c30133b89d1a8f65c936cbc8cc7d8793cf95dce38c3944054ef8f3d56f685f 0x85efb2a5b495c79b07176accce21196de94841a1dfc51c226dcaa7b91aa1ddd (-0x6300157c85bf14519133dd531eb725d0ccffd18513cb6941ad64f159d1d6972) 0x105265d681a2fcc0e861be7c9b5032dc0a1d4488f8f3f45e172fdf7fea64556e (-0x420ba0b5cf63bd20ea0623e962d20887de5f1b6db198bd40b0b97ad71a3a0c6);
  SDbl 0x24286aca76920307ffb7ed28cadf341235bbd10663b66ee4e75ae1b9f74f1ace 0x3f3493e505e063f010906364cbca0bb871f251123b52211ddb61db811f3b54 0x287a31c2247516088fe1885959347a3f1d7f17b937b60142893b62b473666d02 (-0x70c5ef971b010615523b31e5b990f1343b5be1ecb3fe4d543dbdb6c1010d8b1) 0x1b044d1a53c6fc64f70ad306cdb5485f5a01c14721d546ec1594f9425d0b51be 0xd163fdc23b62876d8c67d840e687da5ccb6a342682c4b307da7b32fcbb68fad;
  SDbl 0x54a754b90e2e15850234679301e95aa2d2f8f2e00d8144d03ad27ae16dac2c4 0x13bfccbb116f77c97bc5558a3ed082196c0f46593891a938dbe308165f757287 0x17b84e96038f72738a4eec96e26c3974c8d37f036a412b279a0c9bd61a9d5c37 0x8d8e798d0d7aa7d918084300e1f803dfcc26b8927b3e0c24efb90668f5474a0 0x941679ac0be55349296e8cd2df7cfb58bc2d482872ce5069500b4abab8e897 (-0x221dbbb9170152d69046591ef0738806e7edc1cc22bb273f91f3409ef09ea13);
  SSub 0x2b1d9fd4221b370faa3b1c2761c0d3c915184a40425752d659ffce861897fd8b 0xb9cfd5d1bda6837e186616ddfad6e387a238215d935250b8b8915ab63f09c43 0x1dec488fa657936020236c69c69c83b701a408288b5bfa8e82b897527dd8973a (-0x1198926d75111b8217b3605972d7d4e59906a332730dae0859c1372016d27bb0) 0x266a34992c94186bc13a22e97ef6794034ea5627afa526296f6464f77bcd8ee2 0x73fb9487b1727758d59cfe538f2679b7d5f2e49a362582c92a6d55a5f795e2d;
  SDbl 0x840894bc159f017f6ec62b84cb749479f5a4be4724e2a430087e816bafed7e4 0x2039ed193c4c3745eda62697082ac2ca600ee3e163224b99476383397a077674 0x22f5b0ce6d129904f1c4fa1add49382abad352572707ab9c0a658182c088d015 0x1d828b52ddfd27ac1b4839567bfef0f38829fec45cc6102f8dcc56ca8121223 0x1683e64d2e3adbdc1b333f65afa30f1f327c507ae680b5650655fb73754be3a (-0x383dbb708b841d6609dc0f91a457d0c8419b3f4e8b437ce602f18931b9c1bf5);
  SDbl 0x13f24d4fa7029dbfe6b1d742cbba3a652228ef29a39601bf122584e0678a9df9 0xa392c430fbcd4c74b1bb4a8677d09b3fdc8bb0ddd147cec7191b61756e0ed59 0x1a850d355b1ff2517afdc6d0c5147e8527b48c2470839f0f88bbafbf6f33651a (-0x239015d767707433a03589af5bc96d6f76932cbd8d126e2373ac13e7ebc7d97a) 0x838c0a9d102aa47cecdb7b39b6f88f0dec7c87dd58fdc8b0701e29e0063a690 0x911bfc4a68e466253131a83d4e839f9aefed1629eea5c8db56715c15eae5c4c;
  SSub 0x2b6563110f9d1db370d0ac74dd51deeac8a39649a86403a99f715e982647ab07 0x2f8fb053a5374a54f0fb396eabb7c23d6b9397225ce4ea475f8d1fef28146510 0x1c33efe0a6b31d91b86254a547130bec90575eddaa8bbcdd695b7bc66c5c2967 (-0x92afc839089fbb624451dbb68f7181d3b8b4f99c5b464292fca3aed48fe9355) 0x26ea7f81c483100bf2df78d3dab34cef43f208d77e9d382ac16712b3dba8e181 (-0x217bbb947594243dab802f8d97150d25e4b303559f9de057e14900cfb6f55b6e);
  SDbl 0x25bcc5f50aeda3288d964b633677a125d81beca89f9d9f0b9e6d8dae7b3aeaaf 0xbab293c8aecd035a75d828242a26fda80154d114c5c0b7a38f0b1ef418e8f2d 0x1160d5b9280fb8693ac1aa8cd3b5fad21bdd9c466c75856c32f8140f6d42497c (-0x603f836d2a2720332a01b3b7cd7005fac041b2ab7a8caa4a9e3ca05c63f44162) 0x1d6dc2d249fa1ad9fcde297cd9c09bffc9d95334bde4b799170f3814e002fd0c 0x1bfd7d5ff423e046b4ad88767c6c7019b51a8fde29bfefbd2856df22eaa37166;
  SDbl 0x8c47adb37d932755efd1f77486e63d7d467c197fe4c80ec201876905037e47e 0x77cfcc2167bd9c74b38b59c1ccf03a7d8bbe13643a25c6148d943a2756ba8b0 0xaa42a5d30d5cb4ab1ba09540684bd92f25f46ebefe12418ba8bfa704683375b (-0x224cdd7e06959dc8f5bef1c14e57be502e36d5da01cd18407aebe67b992b87d) 0x196a61852dc53e9baaf99ab9d9e6f66a8d151b5991c022550f11410c2f2b636 0xc1e424f59124ab7e7ded54e506f6fbf298485e65938c008b3aa3b606d79159;
  SDbl 0x2df6f16ad800f5ff58541fddf596a5c1ff20b5d5d7db45df6dc6143bf7c52a24 0x2fa7957d17e6e537fa8b71605ce06ef7ed0861a3e996622a718b86509cbc51ce 0x19cc9a3a7c907f43515393f49bd85efdf9c9f187d480cd73ef2d719e85a24a06 0x10bd24e6b113116af5e6ad2b4ff6f9ca7f290a31708a6ba3a1b54323695cd4a8 0x2ba8bed9f5e322fa24eeb181baf4f8c84c5a997a68eee9d89a781f14f16ae80e (-0x2626d98da97977950210f2c247bd29490d9833740a3ffd3d9bfb01636a31261f);
  SAdd 0x13ca70ed1693f62710c0bb4f82cbdb564f56d575e64f4a56758ffa257fc3bf8d 0xbef95b1e7bd0fe93124f2fc885c0bd44b4325302b1d5f4d8a4fb66908bb3645 0x2773e8f391affede28b28e55458fd64dde92bc2a482d351ee8ae994cfaa4868 (-0x137d42648456f988c38b2c3e9619b124bd3b1421615db36c5de2365adc189073) 0x818054328e2618a11604d6f317cf878819110fcbc6fc0ba0960a89fb2160e43 0xe9b9e33e3a7dfeb5f6705901998a5e3498abad7aef3c65acc364c2a6f7a8041;
  SDbl 0x5085192402d00d88c817eaa927e8b85a742206abf3092d25f279643c7bc63a5 0x1832efd24c21edfd225df0ea4f1aa050b957aa62bcdfa3059a3ee911741e7eee 0x3bb3b577cb573936082fad9c69c4caab22c73e2a28348a4ea07cd091d255e60 (-0x851b1c30f0875d4724cde0978b1dd7a0fc66250736529aa1ce2e16fbcb9dded) 0x85fa7571c034a29ffbc98b7e72f43440193190533a7660106d2e90fb138897 (-0x14679e0988c18145201cc5884b8f6ed9a8ec18b845251372e203d0ceab51a23);
  SDbl 0x300729d4dfec0e9368061084271ee3ff6f7b65d5dbd6d145cffa1c17e8619f01 0x3052b8a947930750261aba5bcc979a5c31b880ccbe6d91505e97af8420ec1cc9 0x72cfb92667a95de97f2c1378aa795b3b12c19d629d66d42d4c72dfd59779878 (-0x1ce57b2e8ea570b9ede7ec7119f25fda2c385f33ab8c35722d44706ecda5ca94) 0x2faab87e3a84b320b84ec5480da7da35b9c18be4885f25fb0e9a1e1e36657fc4 (-0x17f159e2fac9dc006a3ccea0aa87096f361f60b3c9eb7c4fc2de7030389b8635);
  SAdd 0x2af1cef54eeb9a90f650df2bedcb8cad306b8103a5f00203915c75755f2a4d93 0x139f07b7f4c4f2dc208a6b4ffaf46957341e29e6de13579896308b92a4b32af2 0x2ddba07a15d282376ec17d85dd910e16f2fd6ca948cd70c4a947000073268a4b (-0x2ae233eadea1e0f000516b2f0bb12217098df40a84bf5b5017ce0026ee431f8e) 0x261c4874329f950e14795773f6b9e7314f351f4f89df4324c222e5bcfbb1726b 0x197897e9579da78d401154fd370c81327779439a33da5ff13125624da30e34be;
  SDbl 0x1d7d229f53f1a5f29f4afa742aee602667261ae509edf5513c58c154eae7b659 0x121e3d262fed5374c935b0e8450031da8c3c0afd8976956c6052bb15962ba5bf 0x22d09d72ecc1f2391b3f88d8284c789d699fca20ab526a0621aaea3ae65d06a6 0x2005b217ac01633914b81acbf0cc45c022ebd58459c83f9512dad1d1eae6b056 0x11f842d0a5b904ac785da19ccafd4d9b191a4b621aa94249f211db6d3da50542 0xea7b873b9b59be60d65c1bd0da9053df211fc7576fc56fb84013d882fffee6;
  SDbl 0x19f7d736c2df69b05b4591a5bc9daae8535a93f0209f71f9eabc8c688b4c33a4 0x29af7d4376a044ef5d22d6397c1e159514d03ac479c7c30d4687559c229ba92a 0x2b84e75721abab433b8f6f75e5daece1d4cccfc2400a8f46dfa0ce269d0210a9 0x1103ae5263b7c7b2aee7747fc1583ec078e2345531a8bb439cbec380f1bdcdeb 0xdef610dd9b607386f989a925f61b7d943d3866799f77e077dc14f111e076458 (-0xca5938a9df4657a5b83263939bb995c9191cd5363d08c63fe861c4e664481cd);
  SDbl 0x55e2cd861260cd10efb01220516c167853bfb92083caa9a61296b3f42814b7f 0x1346af2a5e79421d11d43d204c5998aae52144ae83ad341576a0e0391b0d4f70 0x1ebe870ec86748e6a2b15943cf7702c904a03048f85188a009d5eb6dd96a5a9e (-0x62122be5c517cf656ee22a90a0ec55b3ca173f4198364a291a2d14ada4274c12) 0x986e3e16f9e029755e083ae6ece7d0afad264a75e305118ee68f0181dc895b 0x27c5b2d5547550baa60aa569890b2a74717439134e00d846cf9b3a622d71d89;
  SDbl 0x2ead7f3b5d3c02d452aea9b0849398e34ab9e53c395c7e3848ac7d5bef5cedcb 0xadcbadff5e1934c4a1b167ffbe91dd9051a68c6be4c7bd61b6556088791534e 0x1d529d93fa225656430a9753ac33d4dba6e47fafe9d1c3b5db9833ef62110c7a 0x244687647bfd74f96c03fa8726ffb83cfb63e301423c655579dbc8b5ac9e2dcc 0x2d063b11f31dccdb31de26b123f6d82ff6450b161a68f46ca8bedb6ad97b265d 0x81da8925f4b20cbae9454e40f0b1bf0718e0890588fa1826ccbef5097512632;
  SDbl 0x27a27f000b75d9f04634498fb4b2e0533bd7c7e33669f202ad9cb6cd22c223e9 0x193cfab48d7665194b8fd3d3a88a712d6192d4c0f26e7a31dba8873cfa420233 0xd669272d1541165fea792bd15e5b3d516881e32a9abd32e06a4166cb0d8a04c 0x28b7e334328c4445518a58f3e1f2658d20b164e56f6128770143350c3e85bef8 0x20765e286ef2e2c61b8b30a0435011e42f7e19b8696681dbdaffa13c88d6edae (-0xbc643c7443e828484d77357ecc43a8990b20be7a32076f0e2bc977eb859b1b5);
  SDbl 0x953138cc7c4d4a715246cbd33ea21cd8f176f80a1240c48921c0577c92e8fef 0x22882db2b23fca511fddaba475c168f9892d009e70053bf1208a9fbe49561e0f 0xc0ff45745ba98c41a6c343711161866171e0b8e482d6a5d11e8063991239a0b (-0x2252e3d856f4f0af5e2347209ffb035e3aa15b47005a569c1f688e7e51a62c55) 0x1cbf5edae1aca9cb807a0f6495c86ea9ea6c567df80a8470504bc84282f71f4 (-0x1ca715cc1e3349df9950c70d1b0f8d1b8b7d52171b01d7be52bf74404ba2aed);
  SSub 0x42820666c5e45a9ab71c06d9165e7926d9befb0b3c77c8a6ccff2035d922d64 0x11d182c0742c0f62e89f5edfac3b8dfe87efd61d532e2886284444493cb15c36 0x1c6139691fc6bd205f9b0d47de59e00b76ab499bc5409cb1c1ba46b52f2dc391 (-0x2f759c560743d530e944fd67e0993d7f9bec1f1c98b6023222a1ea97c7384be) 0x5b67ee9348e04ff9866bfd8f46413f782df0999f6e310ed95f83d62cd401e6 0x16f870e0d3937abbb8c83960b495c036f6d6701d356d6b50284ebe79ce4f298;
  SDbl 0x273021a2296aee1d39768189b1051434b15d423a98cb38ec49d5e97dad435ace 0x1832571a4b21339e3d16ce6e509175be7412fe2d76ef3af75f6bd1ed2970e6d1 0xaabec6cd4ad90e62c04f31082933bf55adb8c9915d6a9b0210fc24a1306e9c6 0x1a480e812e6024f6d1ac5b26a66577d14add7e20bfa2d2b5efbb01056929bf50 0x1fbc15dfb5ff464777cd1497aacb007842777dcb5d50a5669b93a773de73b4c1 (-0x52a46a68c5dcb24e6c22783e6bc11c11f4713ba85750f4ac381e11c9bee0fe7);
  SDbl 0x240abf878ffcafcd1c936a1d668c4b9210f7c3f73ef5a4f62bd5925182f34617 0x2901ca12016e191cbb113955fc113efcf6e253316d0910150491dafd176424b8 0x14462fe5de8da467b6f17fe337a973a936384cd1e0f9de1252adb0f1d8aec92e (-0x1466585cf9800077ddea912aa9eb05d335efd573c3d107a5de3ff907eebf1eb9) 0x1ad809168fe8e4679914bae5e4e235291d7097e2fa544b7475e943c0d35a9e11 (-0xc852feb20e82acf3b295f0800ec9c04c4895352a2cf8248223f343bf62bd423);
  SDbl 0x22b67915c02d345abcdf4ab250c21047b4a072502b391aa3cbf6e0480453f0e 0x2f90893deedf7b01a4569000a9eb036ef24cfa349f43d22997637f4be3092d10 0x1f05cd915b4363610328283ff71e3e5754487329bafe6a3ab7ddc8b5090252a1 (-0x666df0cbba7c8e61465def1c9770ca8765f3ee429b22b114347198aa6a309688) 0x18e682f33ecd0740a0d890b57e61d72e5181a366e5d2e39864014a9136b19c (-0x4b436135c6b72dcd9e6d95b6b8f52f9e6dbd82c6a95b0c223f99b2a7dd35e9);
  SDbl 0x18209d4738ccdd095d0af05ca53336a11ad0552e9497bf7240437b1afb7af20c 0x128455990f2842f5a874c6fc292bba9828acc816d694c93769503685de899f9e 0x2951606f5421bbfa765fc59c402f761df6cf08e92663cf3e303dff2d1ea56f0d (-0x6d51d785b44667b4a5a49ae742d0e9c02de4eb888572dbaf9a436c8159f394d8) 0xc079005cfe5163ce9c9d0d7438a2a270bc0e3b9589e41ea2ef5b87584e0f39e 0xe7b92b0245a0f36f242c39596a6d16c8495fe2cc75e0cc6469734259825ac06;
  SDbl 0xc6d5cc2c25578cbfb5a6057c0e876fb6ba0cdd4d7b40f8ac5384d186d7d815d 0x1879d4ae8476d7a93bdc3d35ad324b270b30d4b024b085b15445a8656291b924 0x3fe5822c30073c560deefd1534648ee493f43e0a17f4274e470d21ee7efa48f (-0x8fd802ca8e87654e29b86f7266c32b81d72cf07016de60edd694a39f30516) 0x330fc47e09cd617fe8243e65bd653e3248af74c6bc98ae4e5a0f6bc273bb1cf (-0x187c0c81b8d4235e7f03649fa0eb8bf27ab140465dd418d571db264bb22e366);
  SDbl 0xd6ee858e4f024ed74c8811fd6729d56d27e475eeb92e59c4a5ef09258999379 0x1503c5c3bab2ad9a7659c58e0b5d47706da22d5f4f02016b573314efecdf3cde 0x213fbded10afe2950b98f21b6326584f6e02c52a43440e3e32ac45f83619b46a (-0x22ebea56b03d8dd5069bf31258e74d876d66bb0f3f340fd34a5fd18287bbeaee) 0x3ba9de6feec90de0511bc4051a65b719bba5d8f3da543b6c8daa0fb73ca391d 0xf5f6aee28a752bccc96a6c7985fe5adf834551448e86e3d5f79898a247737b;
  SDbl 0x265094859027fa50fbb51792d7192618522c54336e097694028e70157d7b1135 0x2efd507363a18a35bff82efd86a1f9074078ca632f672ffb00300e8f31f4aa02 0x115a52aa35ea5a154faea72c1f974826dbdecd8cbfc53e423e293c73195a95bc 0x1945d6ca435ecc9b4fe47d538504128669832e0b57ca1e8f295d44f57f9dc2e8 0x1e560d939e0cc773045fc64182dfc293cf6bdb8cab4b6a46c74ee65476e1166d (-0x1490d95a7c064321b6a15d9fc49b90085f192be28379210f89ba7a45aa89a996);
  SDbl 0x1d88921a8368d4ee73ad10a0355afff796ca74747fd1dbaa1e09ee1ab0d11aa4 0x1b9c88df8b874fdc2c069273d21783ffb76d9463e965a3d38f9da8be95e598fc 0xb41edc1793af6ace00e4c566d275851708fad5d900b8e3a9ca0bb360774a6d5 (-0x73b3e28d5f1c37fda248e48b6767f3b3885a13371f814349c5dfcb0ba640fd74) 0x12063563e78abe11b88c576951367524ce9c4ea574fd73a9f0021d73789a9b70 0xbd38f07236a11f07032d66aab4bdf01e0f553487749b3aaa1945f311ae76601;
  SDbl 0x2fc5d77504ec52cf143ce624bae3fb43552c8dca9a53fce0ac0f5427037d71fc 0x3b345240dfaf2e495b06985dce9d91a087a34d961dc2b19c568ea32f307f3d7 0x3c75b15909a1702abdfe3fec2b1a09c56638c9ea5e7c602653f488cec1cb06f (-0x190963be74863e4ca83f42c0353a450c2e96d2698c68e1348d73ccb3489d8a68) 0x2f296760a067bb91e1ce7c52cda64cce2f396c318238bf2402e69c6c836e2037 0x179af6eb4c9b93be5bbba45e08e54910d27c63e43729e48be6060d7e221f7498;
  SDbl 0x2d1706a6e9bd484093e09ae8129e36c07ffee3204614e19f14e3d278f506b016 0x17c14b0650460217297d8b8ffced936a39f0584a8d1826cdc675e951abb52771 0x2959a52d8393fcd0e4a9c9d33e4dacb74fda1188a25bf24dabc62b8a11ad6b23 0x631674bd349da8e091db87aa93cb1250ebc100af62ea1844d7da74bd899ba17 0x2a036bba21becf50f3b98de9396e7558be475723c3122c069bbf34b0ca3ba593 (-0x12afb7baba372ef04b37cad867ba2b1323cbea5d05b0b1a38466864cc9d32dc2);
  SDbl 0x12d801024879727ba748aff9d9291f7516d0094dd6f7909288c155942730bf72 0xd2317bb54363264efbde99123aa1bc386b46959cdcaa65a9c8914e4ad7d19de 0x2ce36f6306145225fcc1219f63615198772aea7fcb27458589108cf641c6a726 (-0x2c7a3488519189094998dbec2bedc09016f33bd1cb935e7d6817c57ef1bb151) 0x75677541f4fe225e4b9f85a233222ac6d96c72d767ca7c12d66c1e76cde5bdc 0x42277769e78efa730e361eba7aae64c0dfe14bb20c23992f8f725677b13aaeb;
  SDbl 0x2cff03b756b0e5c41f60a6b9b91b97d9ad0540d758f3ced0cff3628b0a83e3b2 0x299ba585017381eeac5b8ef6766e3343499483e8b9f4a1c2e6efa1ce10bd7430 0x19c0f6ec951a6c225088c535efa5b425612da5c38aa594036c27d48e1aec29a3 0x48c72f8b15bb4a7fef42348543a20951bfdf07804bc336d28c9f7e0eebb37c54 0x29d6b89b497181c82e6736b378e42faa103814501c4ba4cc263838acf4fa0d68 (-0x1a791d08698e56964cb85cb52b68418de75460ef75282cc64661fdc43daee04b);
  SDbl 0x22673e958c1e673562ac71786bb884d96c2b41982757d275a1ecec69c9f934dd 0xa723e583d74e082bad60221a00efd94323c962a4265037068e575b90fb49fbd 0x154ad75605b6f1ad3d5523e83041f703ec27c39f18b41cbecf70dff81e78090a (-0x46b505f059390b5491099b419922221148ab4ca3ee201ea73a5d87ac4f5844de) 0x18755a4620fc1bf8ffbaf88418b9a3a6eb4320a89899b76917e6fcc45a2f31f4 0x1627644861bb3da5a96d4f8d8065b5afa18fd0e0090c777295facd832a860f96;
  SDbl 0x8d5d1c800dc32d43d15055167e25801cff3b7122659e23da1334715fd3dc2ae 0x106cb30e9e71e72cc8a056e9b8ee9ca315d71741d515595b590e65f1449e39cc 0x1ed9dc2fb1d104bfe204b4ae85b3fc56cfdef309409ce818f046b16f2731e39e 0x1028ad6d6899545dcbcb13b7fe6332b78b8fe8e15565ef200b29b512683459b 0x19cf4c5ddd63906d7e4ea60cd8112ecf0660b830cbbe828e5027aec823cea12 (-0x1176d0e87c005250b0176138493e8b652ade2aabe1b6200d087441cf1343d56);
  SDbl 0x896c414dd3e0803d8a35dabc672c9541deb64be0a2485bf8436607ccf393d57 0xe970d5d08a9435126d46d51638ee45addcc4db8e6542237c42681f2fcebc9e9 0x19d52f07ee259199b35fb87a2c35df5a890a1a45f15f52d170d8def106996da0 (-0x5c5cc0006d8cb24e3b57ed4301c9466fda6ca0273980ce4ccd4215e36469554) 0x18640b99b4977d4decd4db10af90119680b6e4a80e1060ef07585bc30a1c170 0x535b3b9cb2a8d0e085f896c9a3521fbb469c9dd188c1803c015ea98c628c61;
  SDbl 0x233dc8e6ea4b1280f9a1c57aaa14e3ac2719189926e064ca6e9b21e0e7c431dc 0x2a5c5ef456a1e90378cef7455d22318b635627d5de9b75f9ead7c60dbc51d5dc 0x15f15886aeae8ce16c4edbca1f9dde6b6590cd0234923fb05adb01848ba06e60 0x186dc4a146c04f7395e531349c2d78baebb62b4f6a271300442cffd1fe17834b 0x19aa1d7e068bda42c5adae6e2e2586f120c20ce0a4e6996f34859a263ab6828e (-0x14395c9895565fb5a51c1d8c14273e27a4aecf4286dda77de37d2908608c578c);
  SDbl 0x18e1ff19fec26b66704e65d395fb336b13e9fa00bcc14443000c2432f3fde11a 0x1f63a436ebb4f2a562c6ca2b9459114f3cc46aa7c896a464345704a7cba2675 0xb04418ceb8c32f347e3133c0ea784bd1dfd6b7b8c2dab3c3ff55a1f4a494dad (-0x58adbf2b6d82ea7430cfe6e7b50667e1bc3ad57e9dffd4b0e896cfc339f226d0) 0xccb6a753dd81b1d0df48815183be80ca760f7d6b15434bd637300f0d54db751 0x14c5deffc912e3d17239e8e334ee0c6a0e0557a38bb53d78a8626e3f159b39cf;
  SDbl 0xa2f22ba685419e652fa540833d16692ee881ca6b7180a3cb871b33ac1590ed7 0x772c1302bff692776c87b4a3b72c345b0cbf8ab935091d9e2aafe2ece76979d 0x2ec1b20435b44ef6fc56760168aaaea2939e443f9353c5e004b0b08e9d8ce3d1 0x465f8c203b6f84a4dbe921276aa4c6fad873f300a5e21b2cd4e63d1fca837fd 0x224acd8f3a02e3144e05ec0272d63b24ede5ebf5d33ca5fcd739d7c59b028a6 (-0x12795a8132a3a022adb36fd0de27a8bc32600e882e7aec07fb0fcd88003b83a);
  SDbl 0x4776eff38681dea6005b3ec653f20cdee4dc51a9f9812180656918e93c907f3 0x1f5924777cb78c9acadb1cea2d9dd575ed748aa26e25677b62b0d38a5587019b 0x264c174bcdd4eeb41e62c8d447ed008051cce36eb4093017963abb39ba096117 0x5312759e12062408d8a752f18deee0f340f27b4640a71073fa3e83d81c5b03d 0x6989cbac0d9e15e0d041f8b78255dd4c4d280fe65145e72c0558559d301b8c (-0x234b943886a3d87ac4b0e24bff450e2e1a8451f439a7bcc6977d7675c7b4dee);
  SDbl 0xe879c89382024ec9abe14a5fdb25aff73930d02f94c161586564731042e6240 0x1b290f9fbc1f2b07794fae4c3f28b182411e08dea36e11b70e7adc0ef77900cf 0x28a772b7b03b9751c98a94820aa9fe243cdb0a4d2f3a1ddb0b8354d3a09ba7c1 (-0x25ecaa339dc4a618ba16522bd8ce0f53e54c26ee171256af12c59cd5bdab851d) 0x45cd1f13bc7d1003d4720e754ab2ecac0d9b25aef8354a47607300ee55785ad 0x141e4f6b071efa5052b179b863263358432f6edd0e3459697771a3d417e2098;
  SDbl 0x923a1c39eb534e5e21c8fdd5e64aed15a8a134b3d3106c008e74f5159082cb7 0x463d92f82a67532c9286a0793b3708efc6d19c0cbe4c2cde3a53c9814675cf 0x91f8d97572d154eb52240240ef3de5cf90fdd81526466dc38da3fbc3bd99c2d (-0x1e605d23bac2984ed8dcb7de95c817d2d11ae627a57ef0ff1dea588ef0eb5ca3) 0x1b9dbc0c1c450178645908b97a9a66aa7838cecd3d9068d3a40a6f3acd0137c 0x513e0576c903c9a2ad16676cfb8f229a299662e3d27da9071f591e660c49f5e;
  SDbl 0x1998226536e8378b4aa78829ae2a70367ecfeeef92b0832b00db592053517623 0x2a202ea6d300915fbd7f14494e7a70fd36e5b697ee30ec985602e856e97887d2 0x314dcadff9b95c896cae3a28cded48c42baa7a4f5c1d46615fcbde763819027 0x9a5567dea766bb2fd2dc5aa4455dab4f8b67fdbb9687d1d9224f96aca88effd 0xd8966f7d6b532015056621fb50b6af9298ebb4bb072e1f4ecaeff274ab2685f (-0x162291816cb6370a9cbd929ef01c532c982cf93db8da0296d9d2aef987265fdb);
  SDbl 0x913318719a23f5d74dbeac8e020ccf7333f4cb0b4c955e4a7d0aed61714adc4 0xffc78613994e4e749fc497e46ccbf14fb14d056bc783d970c01930d9601c790 0xbb9d95eed44d08466bc38cad32b1c475d7ce55a98e9edb3c879569359cc934d (-0x6cdb70f15175ecdbeffb4f9287d3821bafff9ee715a72aae3e9c2ae82b6b7a4c) 0x1b3abd1697d05130bae97c3785e6c1dc983c58fa382633999e3a92162e0a044 0x4e6e78ddee1f9e6431dbb87f0be243d20968cc1a450176b2037c5a86011c84c;
  SDbl 0x71a0606656bd5d073d6dcf93c85e95ae6f6ab25db7ef1191f9cced853323de2 0x11d8e8417c7b60d24eee117dabf250b7877b0fbc590859b8345a8be8d34e35ec 0x1bd8a9685a7019760f8a1a922af42e9a207ec7ebbd57bec3033207af2075cfe4 (-0xc66c624e218e308b5fc6c37cc5e183532ebbfbdc370ef76e6ff213276a6a094) 0x10accfe9c8091c59bacc9b7b8686354f6b7ee1a8d307d33c83edd58787af1c8 (-0x45eb2ce306138c8cd0982701de593b4db85e5eb6e4587c0cd7ef23475190cf);
  SDbl 0x17b3c8d7a71d652e4a2a6a32036c7530294747b9837130cdead0a329e484a557 0x184097963a0a9b55651325224318253adf1962c8efbaa64dd096b6d411958000 0x199b075faa5a426210531970dde5b3132da855fad93915852685402426fc84b7 0x7881415ab266832963d848ad22a4f2c51814d14fdafe80aa58740456d638178 0xb9bff39914c79dced9fa617bd1bd9c3f22201b2e15604beeced3b04ebc782ff (-0x3231dd9cfb531d13110100e9a02bcdace45178f320937e11db94d38bd95e6e1);
  SDbl 0x19d0d0fed800dfed752986167c5f873013011269a177cac9331e51bd73d4e5ab 0x1445028b80c702b04a6dd07717c91b1a958549f4f2183300a71421f853a14ac 0x2a083c981a781106b64de60dad47dbea03c7c2d3084adc058e54f604acccb97 (-0x924bf1cdeec83f3da893cd11ba630dcdac880744000e898fda076e9dc20b14a) 0xdc59e93d94cb57a5cde278c4dc2dd2c761fb65ba36e4598d3c34fa2f8040a8b 0xc431953fbd364c3903424154bcae653d9a3bdd08347556fe8e8e131a66843c2;
  SDbl 0x266d8a1ede905128be4166cf5d7be87904123f456a04533ce315af2d4fa6bffc 0x16c372d654908a9ae463a429149fd61b49e61926c29d6b83d6c2945ebebf69f5 0xbd73965d13c74f86c48cf10239fafde44a4c6cd431c0f50e55bfd943ac76190 0x4129da8cab34b8d49363c399c80930eba4366ff9bcf3afdf589f4cad9b97ea8 0x1e83fa81ac3246de2cbd7815b72299c205801c2933a82182c865be85d85e62a5 (-0x1112088b916a8db10fba26a0ef8df872652f4c0215bce3895eb308910eb07d65);
  SDbl 0x1df8fcb700d2697efcbecd3051bea54b885fc00fd54077df3637bb19f7608fbb 0x1 0x30644e72e131a029b85045b68181585d97816a916871ca8d3c208c16d87cfd45 (-0x1174c2d810add357f88f2f234a2e6ded699216772abaae0e690e216cfe82cc1d) 0x129071a71e364ad24dfecdfb9c1fe926e6e824c588b6e40930dc980c43aecae2 0xe195dd29d438e2f206b5489f160ec2e13f1ad06b0555943682ac6d8446711e1
].

Lemma order_chain : ochain (1, 1, 2) order_steps = Some (r_mod - 1, 1, p_mod - 2).
Proof. vm_compute. reflexivity. Qed.
