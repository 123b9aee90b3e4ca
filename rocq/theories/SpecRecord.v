(** Values written down in the repository's test file: the first ten registers (instance commitment and the
    eight challenges) in aggregator_lib_circuit_test.go:172-183 and all registers after the first step in
    aggregator_lib_circuit_test.go:230-279 (hexadecimal there; the 44th number repeats the 43rd).  Registers 10
    to 13 after the second and after the third step are in a comment, aggregator_lib_circuit_test.go:219-228.
    The tests print the values and check nothing. *)
From Coq Require Import ZArith List.
Import ListNotations.
Open Scope Z_scope.

(** aggregator_lib_circuit_test.go:173-182 *)
Definition recorded_start : list Z := [
  14518669122153204107438001167275775392293121025028421520190945678452919453116;
  17093993445643899230068359428052269750701581214259397668825355106622530890359;
  11998403060490390570455295813295651267749063915313021105374173689081403863257;
  2495735567390302507201888405163469563532488217546814052976483435583288670565;
  14059003638501981466784405033930231791072560930660624891412078762767896781609;
  9618638276073043292923148356967627316354531496479286038747655855210260248763;
  7264406879962038625787264009404137460377457101078411404048363683262191883717;
  11388297455859133038480661962794609878975270610033719337414430187627923593514;
  5407378722455163557827638766233330495102514713373201611482560475011947871717;
  10696824190703641741008737755241846718268731271095825424278589440469985414304].
(** aggregator_lib_circuit_test.go:231-277 *)
Definition recorded_step1 : list Z := [
  0x2019468813ad3bfb184eec100a4f586a75635286fb97ea624ea0372ab83945bc;
  0x25cadb8048af8478880564973a1a470beae2842392885eb4fa8ae853bd1baa77;
  0x1a86db004dd17617b5a369186c5f99a4fb1860bd75f46fa5d84764ea1728f0d9;
  0x058489492ba829c0486d2b820fa6f4e05bd1718523f1f89a476d0c1669747965;
  0x1f151d33af47710bb034c64f468ba9df39758425243168a7693d3c3c3dd3a329;
  0x1543f4d28c68ea41ab4ea9aeab56579fcbbb91b033eb3a616ae52f993232b8bb;
  0x100f8232cd716f876ec209e5b0e8eab6d5b81abca006ac0c614934d827f3d5c5;
  0x192d8c45b0f96f98dbd4b1a88ca556d5b59bab53f4272668dbb3ae4aa87f592a;
  0x0bf477c82a0d9682ded1db91c8c79a2513e65b822c9fe20a2b2b4742fbcabde5;
  0x17a6301ccf4f0489b01c156674f117b7c5c4f83cd439ed10aa9b5c7a36504ca0;
  0x067502a2aaeec1739d0be3c677e8a16d245e14daf50f461c9ec15d4c2f888626;
  0x247c2f513abb7b5cab4144f87540d2020f4807097a90d7935b2f76b4b5c47210;
  0x0000000000000000000000000000000000000000000000000000000000000001;
  0x0000000000000000000000000000000000000000000000000000000000000000;
  0x0000000000000000000000000000000000000000000000000000000000000000;
  0x0000000000000000000000000000000000000000000000000000000000000000;
  0x0000000000000000000000000000000000000000000000000000000000000000;
  0x118e5a1c1a722142cb7e3e03ada5291596942a24416871753f75c40d5c578503;
  0x2bd0e4da8ae31ad34625a1213f3649800cd3c8b1fd45f7e118b8d78de216cda1;
  0x0855a3bb64c10f81cfbc6fbf178e020044367e230eaf63ad34ca6db254f9d44c;
  0x11f5fca8371622c457e9d32094ea4b37518cd6748b9f0303e9abf540eac9356b;
  0x06c5ac199ce325840c4469f3a546c262e2ccde85d9d7769b4117058013f0826b;
  0x0f508c616a8df507e05fa5a75d6315b7818e7a19c58a896375d0eec7e1567854;
  0x2875d8037c7fd58fb33017cb914606dd3b68493188c8a12e0ee703563fd4fdb9;
  0x2e24d289bfafbf1d80fcb9f3ca0273f73fa85cb027e8ce388d7485b97c90001b;
  0x19e5ac05f0d0e595e76fa1292c6ffc1dae5083d5260a8f696108cc54a9c04c86;
  0x07ee766f64b1ca9a05202deaf03b517feccb9f16f0f0cf6334faf23db02b0248;
  0x0323555c1c4305b817585ba76acea2e6ef00369d47cbc79b87cb5abf1a798728;
  0x060ceadb8825f9607efb8e4918d829a604071d2d201e2068b869ab7d54c0babd;
  0x028dbd6f17f75e54f1d2a5825a6288111d10962ddb36b797b25809f797de6d16;
  0x1346172434cec1d0c63ea4569760658da97c1f16e0869539c56446c05065a1a0;
  0x2eb660de0b8f9c4116f7f553debfea73bdcb8bb0c25cd9e01e7f97c081ead0c1;
  0x1d1e374eac62de58f211a15fea20f2cf7eb7c9319932db577e7daed39f9a5e60;
  0x19d81360c6f32f42761360fb6003c29eab451435f15d6b7cd7f4a5788ac97861;
  0x22a0d08de4170dd415dfb8270f03ea416955b976ebf259ac2591f7151116a6aa;
  0x1ded2b235ff4e7353a5698f7a0a59ec15372b5523c5be63ca303edc944b1b1cf;
  0x1ded2b235ff4e7353a5698f7a0a59ec15372b5523c5be63ca303edc944b1b1ce;
  0x0c9e7892f3706a46e6ae915abf41499be6f8bb862a698d584d6961d4765c836f;
  0x2f91ee2fd91f552f0c01048482b3c082a84e355525d1dc5f8951e6ffde9611e3;
  0x279c91b03ba32131225b2c8dffaa0a14c4993b030579f262f5e61227a16a9af8;
  0x0c700e936f498cfaff7ab722787c51d54dbe76b8dbb8e572533863af6c71421b;
  0x0e21eca359dbb9af5dce7ea85c0d28d4d02dc1810537e6c2ff7abb6247f394cd;
  0x160358d426c794afa49b046600102e357de5e73e1bbe7ce217baeb8a48123c88].
(** aggregator_lib_circuit_test.go:220-223 *)
Definition recorded_step2 : list Z := [
  2920616387084030925907755037226454382846345550621956833249622258647667607078;
  16502678157049327323910877548707266122319935523346850792311342099791838736912;
  12573005921276352472929923238615004089566478023566067316598208128132732745355;
  12024405228272103929747566698126288604391444364896006494111292076262270732980].
(** aggregator_lib_circuit_test.go:224-227 *)
Definition recorded_step3 : list Z := [
  2920616387084030925907755037226454382846345550621956833249622258647667607078;
  16502678157049327323910877548707266122319935523346850792311342099791838736912;
  7162082828732168937516361335135022403650719329242056518668518043784043198510;
  18768486256042060147567165227366772940689098806912976766549486364846889365307].
