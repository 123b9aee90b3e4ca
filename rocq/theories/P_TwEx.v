(** The two points of GetVerifyCircuitsG2Jac have order r: the slopes of the chain of doublings and additions that
    computes r-1 times each, Montgomery forms of elements of Fp2 (29-bit limbs).  Certificates only; [ord_ok] trusts none of them. *)
From Coq Require Import ZArith Bool List Uint63.
From Verif Require Import Params Go Curve Agg SpecMisc SpecPairing SpecTwist P_Limb P_Mont P_Jac P_Pairing P_PairEx P_Twist P_TwCert.
Import ListNotations.
Open Scope Z_scope.

Definition slopes_g20 : list m2 := [
  ([298167152; 380119548; 243209521; 449063522; 113889420; 336780883; 331448104; 508940825; 1134163], [94515928; 14676256; 150008217; 70615590; 155177764; 461474212; 83783092; 389531931; 1151254]);
  ([381177; 505801131; 41340931; 210923756; 91130346; 199822561; 300462260; 429138610; 2273877], [4826609; 29594306; 143868160; 181991816; 456499468; 393019204; 171275546; 48741950; 719892]);
  ([477093141; 496595646; 233895272; 98032416; 388945995; 358272195; 198104496; 153809450; 2078022], [254888203; 293701059; 479290909; 218089729; 421883153; 430177623; 113053496; 476770591; 2608011]);
  ([286708934; 326512450; 391113537; 323593647; 286861242; 86429589; 342543896; 176735599; 1645608], [177500320; 432240068; 532213731; 381488970; 193712514; 306609131; 282489491; 503598647; 1680273]);
  ([292276141; 163811132; 40283532; 352590213; 93992125; 284433006; 532012943; 504690441; 254124], [175311907; 27071188; 401160612; 344746084; 183760316; 96035285; 35319250; 192205909; 1869370]);
  ([22142839; 288563979; 282071623; 324467884; 290863763; 358649631; 530268249; 91935981; 2606713], [263625769; 250363453; 50114004; 494333878; 48540739; 362216944; 448856060; 328575588; 1559415]);
  ([187217641; 396682263; 434783643; 179643865; 30783783; 84527504; 210350747; 141200123; 2207422], [531347994; 362355094; 9246741; 297980219; 315405593; 50031646; 159023273; 262390603; 3099080]);
  ([328899119; 149188076; 461016108; 109406982; 71310880; 483368983; 235639204; 10551015; 2504188], [402793960; 68266223; 221253024; 206014807; 365395109; 294143382; 405911917; 446316597; 1945551]);
  ([39195414; 146927926; 102309414; 449313923; 341204655; 48656673; 274186469; 262545024; 3087938], [531531394; 354745577; 207416694; 261255280; 238952737; 292287670; 415722618; 40259827; 2621133]);
  ([512995788; 190102766; 267032508; 459534484; 123495372; 462067120; 503940327; 164687541; 1257035], [453442769; 384116120; 137015135; 253118211; 135778189; 144622608; 335438166; 185155381; 306882]);
  ([273387528; 511410838; 415782414; 257489941; 8643351; 223443420; 491298092; 88286251; 281641], [255275193; 358037137; 271446999; 77460551; 334087420; 35923932; 292359467; 426274782; 261185]);
  ([130592637; 135451595; 365432991; 140696739; 221603665; 192112137; 417165342; 363548876; 1282728], [76988445; 435112949; 351429967; 339611480; 3833869; 420626750; 504273709; 183219770; 929076]);
  ([1395558; 435313142; 332477728; 489783490; 420972151; 5292341; 333746427; 72269248; 1155319], [168554126; 202808805; 187215307; 106713378; 508817587; 87285869; 3820071; 33002736; 89608]);
  ([105528539; 25062141; 105188767; 512483303; 109065298; 196690338; 359511002; 316006906; 2392523], [30510735; 528140656; 25121555; 141743779; 23187076; 92405442; 340703304; 478639451; 1419671]);
  ([392107765; 354201672; 2329890; 413427936; 294942254; 98562388; 26360275; 305620556; 3152344], [470956930; 359258836; 258696810; 518647643; 137378112; 279409946; 309354268; 432536929; 2282510]);
  ([93388471; 136802062; 21011836; 321999868; 47753422; 460531177; 234430752; 178603721; 1805847], [428609582; 140686317; 91467073; 297927148; 264046323; 92872065; 494940681; 95341854; 741146]);
  ([131301399; 166208464; 401840513; 531929963; 189390505; 219219610; 152182874; 466651676; 3079395], [73249970; 78451030; 501891628; 349859855; 89946511; 364174466; 175376563; 416036140; 76296]);
  ([18270804; 177011130; 191192322; 83652813; 376809151; 92272320; 181212257; 279851019; 3100167], [193988886; 345742887; 388275195; 163070521; 8812919; 392961455; 185230298; 315736986; 3100642]);
  ([468253418; 147641162; 133135129; 41651281; 448981573; 320365485; 334136739; 182495142; 997415], [351983113; 483737781; 168528135; 9933691; 58835984; 111270410; 339616811; 467199788; 961894]);
  ([207382226; 439641438; 83481066; 229682879; 335578987; 135178365; 20887786; 503366422; 2213324], [273473281; 211685328; 486387853; 227139919; 353317540; 111254931; 283436979; 511283239; 2765774]);
  ([11675394; 316679192; 218864084; 50211709; 16802872; 324538858; 518203185; 150998796; 427882], [87661438; 94602334; 359479424; 415210397; 98656476; 484345918; 31121257; 144820447; 2467826]);
  ([166014217; 492464650; 308197243; 436331554; 43468376; 149417706; 449256599; 308664320; 3027303], [338754294; 50425090; 8865999; 224430080; 223539616; 159111848; 146122696; 454852444; 1119271]);
  ([512191063; 380186720; 466655732; 207177491; 108106863; 74309721; 79837854; 245582519; 811961], [105883144; 491051047; 26989204; 364447678; 112045102; 440136513; 483182000; 265299673; 1077938]);
  ([354123298; 267966503; 301613478; 501059476; 109870302; 520454404; 138999830; 356876246; 1589257], [398451587; 186228341; 436162310; 431689924; 238925573; 30582065; 143943228; 436409156; 1320568]);
  ([530359579; 281520419; 269512835; 203489225; 515433091; 163204360; 494821815; 193340732; 1276892], [280284680; 287996971; 109177259; 231237395; 241362364; 515232618; 13589654; 520836963; 1628593]);
  ([495206866; 51009154; 436624979; 14243740; 457877152; 509527329; 35929599; 454525643; 354097], [336524927; 1524532; 532739826; 498089584; 124035145; 297250893; 423389272; 182382467; 618024]);
  ([498785072; 469434008; 516577267; 527889526; 19069080; 32599260; 472817342; 348894497; 69443], [26253623; 238680121; 79866383; 514672763; 203220216; 360795735; 146667466; 92394954; 2972952]);
  ([450994885; 521074437; 196430618; 349939670; 73785434; 315086506; 41811280; 455943274; 3049047], [468329693; 155698689; 370202336; 392242578; 193274503; 90891920; 470041002; 500334624; 1190342]);
  ([508853632; 172211544; 252698180; 77699899; 308247937; 535441400; 263734230; 333794686; 495389], [23482380; 74587822; 64160811; 146498473; 202950795; 437065464; 222808334; 532696988; 962171]);
  ([400854872; 533099608; 476098122; 300780278; 377910276; 323277134; 67209226; 529556569; 1980261], [517817756; 462011256; 520622896; 242567565; 343492208; 237962543; 271250281; 53034884; 1451899]);
  ([139430780; 381592229; 500284243; 510760802; 42247199; 510270071; 427817134; 465905618; 1415250], [46891524; 248391353; 270128459; 202883160; 169055244; 496334418; 158381983; 10448334; 6316]);
  ([28024136; 475668887; 501075645; 344927631; 145628969; 23818776; 447151070; 492375900; 2993583], [19430368; 859038; 24174502; 144768997; 378386560; 254749731; 113028146; 503012953; 2468634]);
  ([488994594; 327459588; 138541953; 170090492; 519022412; 422202161; 499851963; 88550984; 2117954], [397828418; 347761618; 107136631; 463645858; 298234165; 292911808; 236918272; 465005036; 255121]);
  ([253693218; 277764039; 45962014; 431806145; 404707892; 128319602; 265115092; 340968247; 2257690], [297409353; 428943724; 183831387; 368302959; 449148563; 467558587; 275948995; 401704229; 228022]);
  ([2540980; 357239907; 213126806; 253068514; 511728273; 409172771; 147496869; 220832190; 2046537], [409377086; 144973922; 217199447; 427575171; 69455809; 301323045; 375568792; 350713104; 1262285]);
  ([261446150; 242439821; 443858460; 403365352; 277621045; 8768166; 415463135; 77472812; 2626802], [113295750; 381382122; 33918243; 280573221; 302509760; 191020582; 297260441; 345838234; 2031]);
  ([48453465; 329361939; 276044238; 433133669; 289268129; 284648748; 86357767; 113554304; 472341], [192167439; 535761425; 359369574; 387885271; 351751988; 82481336; 263135497; 187441165; 2009937]);
  ([17519014; 384908454; 97219465; 312803011; 226757470; 31302009; 440704904; 478282824; 3150353], [448399696; 82285326; 178788663; 392066028; 322269010; 80137863; 58312708; 255756044; 1740770]);
  ([494733349; 32049280; 161973447; 251940738; 440251832; 295594926; 345733552; 193197438; 899614], [498211192; 89882285; 398621604; 196666986; 431783737; 431522962; 406999720; 438430208; 2153462]);
  ([280426268; 163390220; 332205592; 502085270; 222579132; 414414037; 471608574; 491846720; 1462041], [213870786; 434814828; 302885896; 152515572; 62259037; 522485423; 348308549; 144232045; 801383]);
  ([372227113; 320788593; 194473559; 177131047; 359880505; 117977283; 355388379; 346988342; 2019859], [165445413; 154652815; 216469106; 383801755; 249226228; 297877123; 16927898; 489290492; 2788395]);
  ([490975960; 408865032; 41604115; 265378844; 58419813; 104595621; 472344057; 256094104; 518370], [417626403; 482245880; 113473243; 103358610; 46054984; 233140483; 144425771; 342234300; 60400]);
  ([6838904; 98009650; 508479910; 243521556; 103211280; 350755738; 411900129; 267246231; 2864612], [99042644; 438361918; 87944027; 217578020; 214947432; 124752998; 3458270; 331058568; 2772620]);
  ([206857829; 120861117; 399769227; 342683523; 159771789; 192269631; 32651213; 82014657; 1230275], [294019473; 503624972; 182446933; 328513388; 485711062; 159563856; 396541843; 186636095; 1060155]);
  ([507909730; 171149966; 181062468; 423304455; 515107231; 495601113; 493037230; 475322353; 946829], [88627414; 449975883; 354417469; 514942514; 468708410; 81938021; 405590797; 388762606; 1513447]);
  ([61595553; 361451911; 408308732; 339446907; 242319748; 450386059; 300017030; 309760622; 1162205], [297415455; 115690267; 417037031; 243423600; 85310607; 187202518; 523376785; 378776740; 2300613]);
  ([241109503; 527677064; 240995071; 100934008; 103110822; 345830867; 273150509; 19502073; 2206], [439566186; 442495167; 38839364; 118517686; 22547068; 92715083; 464598079; 248697798; 54047]);
  ([194755459; 28006680; 98741124; 96483308; 199946765; 485981935; 83514873; 448321073; 2632251], [458458035; 389525648; 274696629; 95945293; 425321612; 503623402; 235394129; 235093279; 823349]);
  ([264180953; 109338642; 395473251; 154152572; 165386408; 475929010; 329686938; 140892032; 2052591], [154248507; 417499089; 174150315; 342640120; 516632534; 225711625; 214169883; 59521118; 896540]);
  ([146314820; 98244678; 209304794; 56388961; 7100071; 139169397; 299647907; 170410166; 2237355], [502293295; 199629820; 222135130; 527021217; 69488090; 450525313; 39855707; 193007538; 2105173]);
  ([364946051; 270256762; 205604784; 117940919; 481046722; 259668300; 244633260; 28322935; 281233], [349629673; 298486285; 445805408; 501436630; 63337314; 344006030; 492621928; 465478033; 66707]);
  ([474784906; 95005461; 396748697; 457401862; 55199513; 241098228; 526749692; 74243742; 2520234], [197245503; 74287450; 427064250; 424997620; 268204773; 462218998; 334707369; 146920307; 346002]);
  ([131605118; 14226141; 474267103; 306068362; 536608383; 175921200; 261643466; 507820544; 905822], [212341860; 402840686; 370389258; 302471176; 121102782; 511827723; 159023502; 251043797; 1248937]);
  ([388661330; 53607809; 462328497; 40340980; 475825174; 138456185; 338387640; 318918092; 1139937], [263378574; 419916718; 69998150; 227273599; 213518395; 488175760; 274343251; 367164293; 2993812]);
  ([68607667; 14357959; 380285919; 126940543; 132350182; 310167907; 289373022; 426990957; 2586297], [502399006; 175969934; 476115844; 268889735; 210794000; 507232072; 394736258; 237586853; 1959857]);
  ([193499026; 471935830; 154326669; 59181813; 23602202; 363367917; 271256800; 126395370; 2241472], [452797904; 307238780; 27389187; 180073582; 43736851; 409184115; 14852405; 314427483; 1784101]);
  ([314076417; 65878369; 194221100; 78614274; 450999808; 511703109; 416720205; 144988483; 2148847], [268991660; 414942853; 258742842; 347355701; 319997208; 124692281; 324944732; 351662715; 535878]);
  ([212393904; 21022374; 466388335; 280487086; 8942773; 445859223; 253527553; 489818386; 644053], [135508461; 165186605; 410043901; 322306806; 207152918; 243561157; 179637743; 50415889; 1510277]);
  ([114867803; 47684509; 222482586; 361417398; 174657011; 304145588; 139017245; 514726174; 1235696], [31525454; 445703122; 427154745; 439223336; 496942986; 234103508; 143300735; 290568825; 138651]);
  ([460739006; 360065684; 234888941; 267742519; 197552370; 342890121; 41744340; 224554554; 35344], [417220669; 407211639; 286928676; 188976060; 239472291; 38947350; 427315282; 238879397; 3133266]);
  ([87193128; 450504410; 410719286; 275615041; 151650; 123252738; 319137497; 433737857; 533851], [83273706; 34110259; 319775588; 85408692; 309222780; 163123746; 149155276; 482243402; 2566544]);
  ([486894609; 142434443; 313803778; 530956815; 483019060; 14986066; 166537961; 1151188; 2763946], [338647016; 435768045; 483171704; 131334300; 67185128; 159995505; 133588817; 89360962; 2084981]);
  ([499889086; 294716189; 347007522; 383522860; 208082200; 497047634; 36377873; 163896916; 1540623], [97944829; 70603477; 518155381; 443999144; 119185118; 335630848; 54949360; 281065750; 886478]);
  ([354627334; 96864171; 141399225; 336190612; 92163687; 223773545; 286654722; 136897913; 996440], [35980769; 137282948; 280007229; 179407863; 141319617; 277351615; 235525398; 85090833; 945240]);
  ([497283877; 165057282; 140608172; 259978534; 383758783; 366484555; 460907718; 247491050; 774410], [133930810; 334518187; 180096747; 25990431; 134595672; 219779251; 133675013; 150776253; 342803]);
  ([403348436; 65203351; 407266412; 310810966; 131783154; 365496052; 243489496; 425735604; 2476948], [487417185; 455806072; 463130311; 519667360; 85835009; 519699986; 403220382; 511868231; 1940042]);
  ([204180368; 16662769; 407100531; 422169383; 480267660; 186721485; 405963978; 475030397; 1451643], [204123152; 237826097; 492625419; 328911177; 129577615; 503883468; 363620710; 256593215; 2679550]);
  ([336309740; 231502225; 445653343; 239661168; 464654402; 428977376; 11586646; 44361637; 1014368], [94327722; 123531981; 309112702; 256989163; 510392089; 461583650; 36513290; 449236519; 181855]);
  ([154299742; 240722841; 258159592; 504102152; 496844948; 373164904; 263671800; 74750493; 2221661], [483115496; 182587980; 50482200; 288551565; 316915550; 373770977; 389616676; 498023065; 213100]);
  ([383273471; 100877036; 169496522; 124296621; 249022376; 471078565; 412529156; 227324108; 798745], [451366700; 502360869; 30356040; 508123881; 119473435; 56725250; 103997542; 475391884; 1814948]);
  ([327430054; 110267656; 74406449; 451991040; 94098018; 120938115; 254340236; 260491783; 572062], [47731481; 513020809; 234850872; 89016691; 133973090; 206402288; 493149504; 475496904; 1823180]);
  ([444271375; 17136606; 502113265; 345253186; 63604649; 322268880; 210225482; 190147239; 1313225], [275667007; 165898531; 311833528; 192638641; 399342442; 189964786; 93376496; 189305675; 1254491]);
  ([270872416; 122244244; 153622767; 506384217; 505114840; 223459809; 107706787; 187315709; 2979237], [448439559; 426958012; 89586484; 170000793; 354022825; 35180927; 52626006; 432540930; 624861]);
  ([153655359; 242865018; 510329391; 290186839; 118928800; 317506916; 405461850; 142433097; 2126480], [131413675; 518831862; 118123874; 300307496; 38325825; 158860973; 17083326; 332521336; 2609643]);
  ([237855551; 29093145; 222531285; 364312072; 406595846; 255531123; 292896826; 87597180; 3020834], [175371714; 314328252; 464903763; 371245203; 23669220; 132041456; 330497576; 361330503; 1609059]);
  ([513947375; 255080830; 349410070; 190439210; 122020089; 513974150; 437046354; 468486392; 1643967], [80941177; 69206175; 275082385; 341516323; 167810821; 507770727; 53105272; 302725844; 2107953]);
  ([387747748; 4954445; 81818606; 468666180; 344660516; 120644988; 405390505; 348669408; 815294], [64634867; 239178757; 11166795; 199084985; 93867911; 102729414; 86527041; 209258091; 2363067]);
  ([230859734; 52724809; 250249519; 91668451; 174995531; 246177511; 371426982; 201586421; 2026798], [227952805; 388315119; 254326723; 282450792; 330022224; 144144422; 146134217; 53290314; 1142177]);
  ([291443160; 315399436; 502242993; 258541473; 362996188; 89866014; 160665676; 26896698; 2441693], [447860117; 5329993; 59683871; 185831488; 209622686; 148752867; 362977983; 75571513; 1098374]);
  ([525142409; 43164857; 362633238; 307216027; 285384787; 124411220; 532755138; 481135013; 1102218], [353952963; 533519725; 195220628; 385319723; 216840425; 261531901; 497741760; 523072384; 297135]);
  ([130691906; 505157680; 175313798; 163157050; 97132652; 377962104; 452370441; 409587238; 2033106], [278193046; 226887875; 510655398; 169278486; 157143603; 271597246; 433026171; 461714492; 1759335]);
  ([76678738; 424202828; 88459903; 500692170; 456443578; 483939792; 498222200; 290790392; 416277], [97328140; 375870635; 504894631; 359229595; 487210821; 7396947; 72350623; 90709081; 1664600]);
  ([246660162; 44696960; 17788449; 69965174; 261199551; 1743851; 404581935; 331801645; 2018816], [114824993; 489878467; 431011556; 199697489; 372598371; 509254639; 174796747; 53999262; 1483821]);
  ([111086120; 450649799; 328809834; 130828010; 515844448; 198887387; 315038810; 400759582; 940550], [118305063; 35169382; 127281257; 297127521; 87298367; 482905033; 409415512; 228673115; 920585]);
  ([47636601; 269768076; 222888326; 24056645; 418600396; 243610350; 462527151; 66404529; 2724250], [527549392; 12133300; 406295792; 399495042; 461207408; 43047117; 269530577; 48220440; 2340483]);
  ([521991563; 337707027; 17322496; 302204169; 426175518; 442806447; 18547557; 107496801; 1262596], [60193857; 419055641; 225974494; 315894749; 216881457; 104687314; 363791006; 189805015; 2810175]);
  ([274876369; 390061896; 201866086; 65757519; 495614648; 30451625; 92412560; 430169211; 891009], [438830228; 146714259; 143735869; 126916010; 56376591; 27089295; 60048254; 450609575; 638229]);
  ([18908911; 527313342; 49871795; 383158651; 254050956; 73943329; 307567520; 286902234; 3062230], [134411569; 328002337; 93821261; 112426389; 470543495; 431554198; 213531989; 411747239; 2308293]);
  ([323084137; 323023826; 444010834; 475784547; 79373049; 458849565; 407386692; 106328741; 3017624], [304537367; 188498646; 209916451; 297894315; 237543644; 407765975; 298907749; 190569263; 2095786]);
  ([258074034; 55108405; 339860073; 180038729; 527798090; 517062826; 56107921; 69519088; 3163085], [362544338; 418469312; 533072868; 142523330; 476717467; 278442137; 10006184; 371652901; 354041]);
  ([148259891; 48216524; 215432196; 322591713; 172910404; 48672456; 325006432; 362038890; 822456], [128153199; 4528660; 232708150; 253519981; 8731520; 28929796; 105035143; 428444653; 1971954]);
  ([526086151; 106831810; 469104568; 232650087; 509229325; 115108613; 360641806; 88295680; 911126], [74205659; 152735808; 212915288; 45143535; 137785932; 5991866; 209015979; 430795217; 243886]);
  ([200521560; 334491173; 134558586; 418583857; 424938643; 270556510; 163777937; 203837196; 2803234], [445304387; 350070662; 317124291; 115065839; 186198521; 531827521; 87688287; 275824892; 1807211]);
  ([30888271; 258794997; 245085071; 78764971; 197698601; 358898788; 68022455; 520383059; 2327835], [185789192; 311453125; 179337735; 161787182; 521918810; 97200546; 10292817; 154784815; 1013386]);
  ([63878357; 287093207; 391375036; 149497217; 104383880; 482339752; 281259665; 325805406; 1102172], [515149511; 6073965; 115244879; 428463582; 516511392; 143027101; 527063892; 215340884; 2822223]);
  ([436384437; 38948539; 130817672; 352941481; 191277065; 129894161; 115833700; 175299105; 623142], [171895944; 484601124; 274962928; 447315762; 374440726; 29225626; 76246885; 166916653; 1550933]);
  ([248965264; 78269999; 132850464; 88196477; 190918271; 333825328; 347615839; 398406575; 2288796], [465221318; 94802060; 356420297; 161875872; 80017920; 360302691; 206660630; 259447096; 291493]);
  ([507632602; 252689916; 526983722; 315689215; 288801032; 381849434; 490143686; 171404948; 1718272], [322200272; 40140982; 458978888; 54136176; 285063090; 37646913; 461852314; 328668231; 2535704]);
  ([285251491; 157030742; 483971794; 170608345; 299150258; 1263186; 321518637; 518967558; 2597685], [221003840; 71454178; 27131973; 203392973; 180495366; 213936826; 288915419; 324232031; 142384]);
  ([201191374; 117418123; 321572231; 273111904; 189758579; 115330609; 66788646; 246389023; 816572], [53448245; 60320654; 138305031; 120365655; 90378101; 372103481; 414148334; 244619350; 2302489]);
  ([36599029; 117131815; 65188053; 289338749; 16572021; 314977663; 302631093; 433494803; 1881173], [301890670; 153892804; 305357852; 347439853; 270726433; 268636885; 339486220; 277427054; 2284909]);
  ([507810369; 269465666; 219627650; 495325290; 445336890; 477167215; 333808961; 16655192; 801833], [135876671; 332166573; 223819332; 499678510; 54518742; 64789442; 83708514; 444447121; 779388]);
  ([293679910; 125447144; 160664225; 389789912; 340812343; 59860739; 17528853; 49845150; 816588], [522308867; 170503292; 308062442; 272586288; 527653818; 305945174; 197085448; 209434285; 2010349]);
  ([12497283; 44172947; 48580769; 291797057; 494750633; 519272349; 402388365; 111004298; 151161], [258382347; 373306351; 157483808; 477801856; 492319136; 29121613; 427769188; 214047620; 1921327]);
  ([221159910; 284794834; 257770339; 103527288; 504247600; 81615844; 197041499; 344566349; 446661], [485931409; 155490379; 81024089; 458834706; 284699929; 431639991; 330196279; 190049821; 3026887]);
  ([454677893; 456720013; 487378859; 427541388; 104736565; 242344532; 408707610; 254059259; 2571206], [203115444; 416464079; 529919009; 33674337; 336473521; 357207977; 400543933; 320199402; 504397]);
  ([322319652; 330896154; 181148452; 311300116; 429564475; 435975279; 60074338; 511349725; 764999], [378871326; 505171458; 326869117; 194581536; 277756696; 253157169; 278076002; 405815052; 2645204]);
  ([245659148; 532051553; 442282565; 67264130; 146700528; 39708957; 104126137; 454665846; 3072217], [434973471; 38050599; 229442215; 123770710; 444433375; 119935076; 391527498; 294669695; 1844633]);
  ([369991100; 406124733; 477082244; 282505770; 522634794; 277712416; 265921670; 366608762; 3003270], [376634250; 432661441; 355778856; 228946662; 122960744; 534169891; 394911370; 207583382; 1785915]);
  ([163146002; 401828714; 60783107; 400411036; 284350856; 278008204; 238796467; 392633699; 2117716], [352533430; 457803905; 277597584; 50322731; 98834787; 310731351; 83822425; 103276048; 3016533]);
  ([371626688; 68064504; 208925663; 187899299; 301075793; 482948785; 255283330; 265962049; 1364325], [332360352; 267609894; 472639619; 27702306; 373523228; 396058542; 449310841; 117483971; 3018452]);
  ([474608782; 156495610; 359423867; 500575940; 409328806; 88340370; 230390995; 18999842; 1179038], [158491016; 217543431; 448098293; 237058156; 372111818; 196406381; 13084562; 72766680; 2420064]);
  ([81489454; 439250155; 79805097; 334117256; 449655480; 145439171; 224783161; 280445199; 2756120], [496072999; 426812015; 12954424; 462303975; 438005976; 390212061; 384974498; 424948910; 1226898]);
  ([231918291; 59373685; 470039047; 207176545; 291623707; 402225148; 214108815; 293136733; 1503618], [81933790; 126191821; 97782843; 75977318; 181636150; 350818262; 93154805; 149828317; 1977798]);
  ([233610612; 160564102; 355857780; 385582077; 33808253; 291173473; 210003317; 169334310; 3075011], [33446268; 514057731; 245146670; 107739683; 74058056; 464005089; 48022779; 381109736; 1343303]);
  ([67503635; 276018279; 351459093; 89514520; 382285689; 318700178; 163060112; 227294385; 630461], [227175313; 422418722; 451174528; 480584094; 513783672; 321948607; 363809741; 440941150; 1076646]);
  ([215429735; 364632843; 191921739; 433089310; 221557392; 522791465; 386938330; 404338518; 661695], [14382295; 299011081; 426816309; 335932033; 392635890; 262961278; 207292438; 465399633; 2818125]);
  ([521308035; 287028388; 243208113; 296761086; 299051558; 167594415; 280190495; 338396602; 2236713], [315834632; 103540575; 244360065; 407914882; 210301813; 173864768; 106998047; 409147899; 2746335]);
  ([254205106; 128776326; 103455855; 310466757; 113514102; 292059468; 345239; 391320947; 1355539], [483240010; 841322; 370655211; 455033225; 29696024; 80526417; 271635356; 44820972; 2632039]);
  ([265416516; 111307482; 504937901; 191486842; 220715462; 536575267; 404047406; 215643634; 2312677], [396895814; 189385157; 178363633; 54585728; 201192251; 290326383; 63159090; 280493785; 1690518]);
  ([231237723; 181752228; 137909193; 39455766; 175334546; 413820474; 341398890; 382249680; 2041184], [50606533; 464967401; 48171518; 200336072; 81712114; 339443503; 388395284; 5944988; 1846898]);
  ([50056685; 233551313; 14495465; 393079456; 323603106; 513836867; 439933051; 404968875; 1845311], [62612649; 393339087; 188298986; 528675908; 272175668; 108442632; 36813134; 464074715; 2716760]);
  ([301855250; 371448021; 146695171; 127511605; 439438526; 385131710; 277866334; 310982080; 2816635], [408513121; 175521926; 283231035; 126699325; 461884016; 420319284; 455520401; 397209085; 2475074]);
  ([514329078; 239098477; 154049548; 389268621; 109856717; 79659305; 297635767; 161080246; 1308785], [30576646; 392982510; 304042798; 290547769; 392051435; 47818543; 163752435; 427132073; 899619]);
  ([13850980; 484897442; 74138297; 260836629; 91811065; 526065243; 478387050; 345410627; 1319046], [305077243; 399624211; 360889186; 448246947; 518712311; 359684878; 73107922; 129778246; 2092214]);
  ([142237114; 352377899; 422534556; 115358183; 521307568; 524940118; 240628440; 62936083; 641856], [349212003; 469993995; 508306179; 444475152; 336634450; 33032207; 389721801; 535560794; 3125026]);
  ([283511286; 253173720; 155623949; 499848003; 334986872; 430077159; 481047185; 240654548; 1741237], [216781702; 49225604; 310575251; 374733719; 323902489; 33138655; 106207049; 469307450; 597427]);
  ([124665697; 140357069; 30416434; 246422187; 282545126; 162719037; 409208; 446770767; 198077], [412254428; 437488812; 276207396; 310893151; 157213044; 1146394; 415272589; 388895609; 564470]);
  ([64126010; 161789745; 289703969; 247237473; 282217166; 291145239; 290224029; 213738430; 1400983], [121302336; 30137051; 159541373; 260604988; 140506555; 415994283; 76109755; 5808416; 1470057]);
  ([155332887; 133573047; 8975241; 524508901; 73359318; 71037229; 154725639; 169595712; 1402794], [305206712; 323723155; 527861250; 498968697; 350599634; 268347706; 133045156; 440846466; 1561866]);
  ([41020294; 79853718; 527376676; 380842933; 318510965; 145032767; 298826823; 339645389; 1035554], [416891037; 382807820; 173693091; 68416448; 356701844; 460872389; 516202418; 149159534; 1684153]);
  ([188129664; 5791411; 109781448; 454949838; 423862024; 168394265; 50625648; 421856763; 1630153], [436078381; 217290982; 376304471; 471790891; 174925440; 49706673; 401010030; 317691792; 2079128]);
  ([434787423; 15744317; 55583375; 487909414; 532646827; 429292045; 392024704; 310137397; 363477], [295004884; 150323382; 45812976; 54837302; 1668560; 29564603; 527162321; 89700976; 2039235]);
  ([177932670; 186616739; 484803961; 256154639; 70428435; 24710037; 240281979; 240743077; 624834], [162667952; 228132864; 468915365; 506167948; 300517026; 77061034; 355669382; 419376433; 1962149]);
  ([423385337; 219172265; 406332460; 223526241; 284932838; 292276811; 216073301; 1994426; 1481203], [59109733; 464059179; 441876686; 452192593; 491533503; 142114149; 476311007; 221522444; 2284934]);
  ([36333138; 274349672; 411717425; 450951795; 127522408; 41397400; 320681666; 222252184; 216523], [53480819; 199117907; 384038199; 132818050; 60120031; 442941814; 236194581; 199348141; 3021279]);
  ([187659672; 158940785; 408005226; 66615979; 281405010; 362834721; 525026130; 467978906; 2184336], [370443224; 316659054; 47032795; 508244732; 33654822; 141884031; 231883796; 235085613; 3162468]);
  ([506806844; 401721490; 474214763; 241942804; 475760252; 304723165; 7995246; 56947204; 1404099], [2718139; 534447825; 516868972; 509781619; 428689608; 267248888; 279886178; 67997765; 2077191]);
  ([516992940; 410517206; 458228376; 111733562; 341213514; 36119061; 509632884; 230764256; 405203], [523215485; 305240175; 323689805; 458849845; 391762666; 17227234; 292622826; 210305856; 668356]);
  ([156966826; 310417139; 200217037; 475568394; 238906742; 303555798; 516940819; 337301178; 2674629], [451451184; 453585000; 201409955; 496634379; 289250060; 17563638; 500876534; 160586403; 2987138]);
  ([432573782; 295688579; 512194695; 238778218; 505106427; 56666361; 531263240; 16709202; 1900478], [34266591; 372618790; 57876980; 386896568; 362088577; 85310408; 43206269; 156963193; 612336]);
  ([463612546; 217717473; 362409101; 351679086; 11582480; 317141428; 515920765; 246317833; 2197677], [176198463; 508665247; 325173887; 26030801; 428919186; 75276727; 185314407; 155027533; 2840347]);
  ([290858809; 483145448; 476972831; 114535855; 458465351; 426362367; 531121844; 205031731; 1183077], [325779525; 113100151; 210183141; 420094721; 169035544; 55894490; 151341920; 122082588; 2381781]);
  ([519251131; 99417598; 309238079; 403482477; 385069990; 364170749; 468095905; 502315844; 1708019], [345686330; 252237170; 203689046; 399128449; 448070195; 456015246; 305202914; 69555108; 555581]);
  ([399306565; 206853141; 182768296; 372704853; 486648065; 58010335; 244459334; 66111946; 547157], [420756320; 234891928; 293980709; 346057843; 422561483; 456893955; 346918289; 231936323; 2791784]);
  ([112323218; 153954061; 374733735; 409832648; 368682932; 407154; 21617709; 168686436; 1227954], [141540547; 84499855; 400963736; 466977697; 369255208; 25338928; 210109602; 280675915; 835810]);
  ([240117496; 357665313; 145750314; 70423762; 141364423; 433493469; 44083232; 244466993; 213317], [355694641; 283562620; 454257100; 346372881; 417208757; 423604404; 520997070; 508555292; 1958271]);
  ([418982045; 439685440; 94374356; 82949154; 389761321; 308831883; 426706052; 25052708; 183121], [302741368; 115059826; 206466978; 329455325; 522338418; 42226800; 147628280; 69622356; 740074]);
  ([276359915; 247783653; 59756855; 188899014; 21664915; 125681596; 218583987; 521964995; 1417045], [73896985; 457992961; 389045813; 199046327; 148045956; 299618727; 399349948; 418266229; 1579151]);
  ([30891923; 248471398; 384871914; 147454586; 108515181; 529048368; 337295229; 389441604; 259366], [373727658; 18220376; 255617868; 392789666; 175775920; 294243883; 250529428; 292331917; 226879]);
  ([363097629; 133846689; 402431848; 374998792; 216388063; 414682691; 316153229; 276856933; 187157], [174593144; 43113202; 162404884; 73655575; 371038789; 206556544; 481585964; 145414297; 2958760]);
  ([246020001; 64139410; 504119535; 15451054; 361498478; 100007324; 164953551; 292233933; 1442616], [413201909; 305754177; 302166454; 379787015; 442149854; 152514202; 257738966; 408580443; 1007900]);
  ([149303270; 404363014; 248370479; 361851067; 360369504; 146115398; 261926510; 32540201; 2268977], [209289904; 219047357; 127017040; 395798091; 187585038; 505335312; 229360642; 453385569; 144444]);
  ([360637276; 234032405; 527180025; 289161453; 96366045; 136255549; 364870657; 115569816; 656473], [323426068; 306003248; 180556810; 324430621; 207538310; 413414889; 309950309; 464557365; 550046]);
  ([487705313; 433788275; 418508297; 390662851; 176286690; 236278236; 251102218; 403510208; 1371643], [345442622; 11318372; 97667198; 103356647; 81166166; 402498847; 499634389; 430604106; 2087072]);
  ([489616223; 271656843; 254443530; 130638532; 226908599; 5074449; 295488370; 278025993; 789811], [438000424; 380496424; 436433900; 205641492; 455547949; 528119934; 381831462; 135635167; 985362]);
  ([50005575; 426780422; 143648218; 40964372; 316647334; 147239306; 440609826; 72175605; 2521725], [336183394; 3315329; 220775163; 456068565; 385356153; 137666339; 469916159; 159919954; 1489226]);
  ([394120074; 33571655; 350028189; 255763149; 512347082; 284854841; 447268051; 7221960; 1963469], [424011189; 50124680; 330707252; 391356546; 530329055; 342452976; 500685794; 506917994; 1780222]);
  ([155465460; 131046795; 218074718; 283849129; 430188004; 252776557; 285077817; 307685655; 416700], [122089736; 260423637; 295540656; 434477161; 102958784; 426231315; 265113679; 210102944; 3055422]);
  ([231211342; 511189433; 217439011; 445510676; 510206547; 432890456; 30957216; 525623628; 471608], [58075732; 408574034; 453635056; 482159482; 227364291; 153037838; 296148382; 109523313; 374350]);
  ([213771446; 146045687; 458121839; 300237497; 379706849; 136315961; 2569235; 92600819; 1372275], [74722594; 422510202; 296696482; 446816961; 382213503; 330214178; 377202239; 274284972; 2800829]);
  ([174157761; 101384983; 127025625; 167174762; 146853452; 148831739; 19910159; 151329243; 3114456], [251544656; 62679640; 471553231; 205346359; 48316494; 397950616; 499251437; 335170841; 1513873]);
  ([223750231; 266369483; 122886216; 411549324; 391581968; 272208699; 362323841; 266547445; 2335359], [95688918; 498334066; 37387202; 506035601; 129320497; 351435362; 517840857; 241343395; 2439482]);
  ([232084063; 205567462; 233481064; 171393223; 134477079; 376733146; 460697663; 258654612; 1741209], [27695207; 228901545; 189442739; 385076366; 28488264; 79869479; 32457861; 71210696; 35307]);
  ([263174461; 409731363; 96474070; 400256239; 51469012; 143152968; 363313725; 422984109; 2965950], [507153989; 219023035; 203335495; 150659973; 516057454; 121510303; 356015456; 243523723; 547459]);
  ([426725526; 6557642; 55390448; 64479844; 442830819; 260444493; 331970730; 340028804; 3115339], [208116139; 293615019; 54023270; 222041520; 341030856; 284962274; 387440343; 105941793; 895986]);
  ([418364276; 212536902; 518836612; 489014910; 341062565; 184756534; 190711003; 52530904; 1642138], [52392669; 204288745; 421838903; 512442423; 516395596; 119392030; 422944580; 437234593; 1902721]);
  ([165919324; 181661785; 406653066; 196374234; 66728024; 33339400; 211889894; 390163567; 1363277], [281880219; 362257239; 498473677; 193137699; 454653296; 186771391; 64130513; 234835697; 2397466]);
  ([20265345; 307542904; 206249471; 479976780; 329055982; 459493630; 392880145; 491390755; 367750], [55991173; 180765876; 125983291; 29739747; 97093001; 370354157; 378851657; 464926499; 2725839]);
  ([126160495; 419075332; 370760811; 227565664; 164800293; 103607295; 96902234; 469090110; 1764195], [168929295; 287290961; 353697152; 50632613; 505139170; 282182466; 166866050; 436898981; 1462098]);
  ([101601801; 230178093; 447377619; 125664835; 183740027; 386572469; 25072442; 335378402; 2842808], [384542081; 364191841; 118965316; 279333661; 293368504; 20791774; 500856650; 340754461; 152140]);
  ([408408534; 226196010; 478578630; 195206906; 71570447; 424044501; 110913750; 204875718; 1457577], [318950637; 273575611; 39893741; 308696204; 343438062; 453271801; 148285638; 269066021; 1155226]);
  ([167002802; 144961335; 63778681; 477727039; 12189781; 508615376; 103294038; 508528698; 1415177], [319099567; 413317318; 206371093; 290695799; 7717434; 415340850; 347014293; 239284858; 1175640]);
  ([485784554; 314233754; 30119265; 255375468; 428886627; 430699022; 325359965; 102299237; 1539332], [23677353; 437889598; 202865402; 17606004; 165379887; 185382020; 54575433; 326124191; 960168]);
  ([57408052; 234943849; 480473071; 333615336; 342929635; 179726442; 448691584; 401974835; 2737499], [536239745; 157614683; 228991587; 447168170; 527466869; 499778170; 416371023; 76737229; 1463861]);
  ([259869346; 376225637; 132786081; 72858590; 414037177; 123712441; 432922374; 250722510; 1477621], [165937442; 509042927; 478366638; 130116415; 442524009; 337084606; 438956582; 447744394; 944377]);
  ([198487818; 25928218; 263262329; 338072964; 434425197; 253368439; 254778392; 297440193; 1008752], [392175331; 330176467; 79261624; 13179919; 244369416; 378435605; 272876189; 191454023; 2892572]);
  ([238216483; 193602449; 183943206; 166629507; 422957692; 401074695; 459140961; 44129778; 2005440], [417312830; 122718250; 205494848; 32533003; 12815322; 525499400; 534759653; 80954915; 1924862]);
  ([325557885; 105492625; 447641349; 22294722; 259519417; 261409181; 175720230; 312231385; 1173178], [176537676; 477391435; 449915192; 472157900; 146308540; 350753686; 170444201; 403819355; 799448]);
  ([77789326; 223884755; 353382979; 17157728; 165400756; 227647665; 516290914; 277250212; 2438085], [147537075; 65830322; 82635090; 362261155; 294415978; 143082483; 392423617; 321934417; 2478410]);
  ([45494871; 484462602; 381692238; 101403976; 15761041; 172094946; 365370184; 410959709; 1652593], [15580800; 273598736; 404657396; 44999156; 461312969; 302432021; 494879802; 423667851; 2761437]);
  ([493792828; 129138683; 495257404; 223692488; 349776572; 49017472; 535682135; 366490205; 3017603], [404681496; 331650466; 424380606; 293629629; 508147001; 101077978; 144701885; 343620598; 1472737]);
  ([404620030; 477419244; 55505081; 475054777; 326611480; 382219691; 187607370; 68899750; 73722], [342501365; 296798431; 277986521; 533261088; 496182700; 143437822; 231387116; 123989193; 1863686]);
  ([348431318; 149820101; 33116671; 44349940; 443549719; 98214237; 184491910; 504939; 937794], [243947726; 364842022; 140450183; 511667714; 280615155; 456760409; 231719278; 154129633; 2278452]);
  ([95633737; 437473307; 180928497; 235534921; 451738565; 150683639; 74286935; 38482507; 1494738], [232668782; 219245380; 291210347; 195521037; 60225617; 154173280; 500728680; 504466030; 713315]);
  ([365123576; 485397724; 404127290; 275474109; 157195629; 478194905; 330519497; 145743514; 2626993], [427515810; 532368812; 162037532; 110577158; 107424676; 535156062; 476808136; 460803005; 3089961]);
  ([294669344; 207059105; 18632433; 422308932; 453835726; 316266388; 33566782; 241726654; 763031], [496993783; 365743896; 509957905; 531926561; 152342330; 430093506; 34817834; 389714170; 2251562]);
  ([274857036; 482972586; 201746713; 536501417; 30007348; 382871115; 334129761; 447823300; 2519607], [402527848; 500567238; 133746765; 243787225; 409621142; 348576258; 338901326; 312330454; 810446]);
  ([117994970; 310901356; 115442998; 474800426; 426878527; 348451284; 135038813; 373984034; 1262725], [46041465; 233297997; 470564730; 66723978; 204515965; 207705771; 34802564; 512412267; 2315937]);
  ([120714425; 406171783; 58777428; 477380838; 47011534; 36003523; 235351299; 349801907; 1066933], [143746305; 254339110; 110259895; 11511871; 284208172; 377176012; 513681857; 362979678; 2274073]);
  ([448394443; 517297520; 27813927; 93566606; 136988098; 503120818; 508507421; 234780985; 2152545], [72634571; 389707580; 237736768; 135788487; 384301528; 373572676; 209749062; 409849945; 2071197]);
  ([189901682; 308583016; 125278552; 37324212; 485904985; 68924304; 186902073; 13040278; 3102836], [255610747; 425179071; 291672027; 407691620; 382612678; 326074028; 498091411; 7180518; 2942812]);
  ([204087587; 23000140; 314008812; 310609318; 182099121; 409954994; 482998015; 315882287; 2862363], [475991203; 401719447; 506826479; 487344980; 78923224; 60206666; 465715112; 273366209; 2656581]);
  ([334438966; 506041506; 140801458; 250424483; 160992807; 62443539; 181754818; 316690230; 2539858], [498738022; 527040048; 377428113; 205360593; 292107289; 263240597; 50590766; 109819749; 2331577]);
  ([493397110; 76039517; 382861035; 487829433; 331417026; 330439434; 169146257; 181536306; 2021559], [79505781; 94357692; 432665570; 294368012; 209541142; 245388027; 365847823; 220629667; 2603159]);
  ([455458194; 293216649; 198841930; 190647290; 400209181; 6119428; 90748355; 198919588; 1492450], [383012946; 523590643; 284204241; 164760338; 397514259; 357304259; 7233920; 219830459; 1353533]);
  ([203651507; 220975416; 269460406; 269453398; 48733378; 476540558; 181714203; 119298101; 2647055], [248710210; 52660225; 491095374; 214853852; 142511408; 163095082; 150613327; 318614276; 284625]);
  ([18682561; 287312584; 151759973; 255545440; 309211786; 185649156; 350186094; 153884225; 2031094], [159801394; 373407071; 535040771; 200277454; 521949689; 242089106; 303299286; 455464332; 2822084]);
  ([5935521; 203544900; 2139511; 175328979; 216833584; 299962704; 378682968; 145376709; 3063456], [63362021; 230384461; 260345738; 106293866; 28822906; 358923952; 354079371; 414524418; 2547109]);
  ([73203871; 425903644; 276237621; 28521617; 197658408; 133326548; 316620035; 492193004; 334211], [536494926; 190560864; 252156571; 161257867; 186786363; 77351710; 523319051; 310879281; 3076150]);
  ([116730679; 232851615; 309413465; 251361276; 198595129; 213444833; 239164194; 260602674; 433868], [93654368; 257161623; 481256435; 54366396; 189764408; 228971716; 269754517; 496357437; 1233873]);
  ([147221185; 269053878; 514373459; 430429569; 260643822; 46213739; 9219138; 90217267; 704395], [78432597; 147549454; 53314870; 51784482; 285117068; 499224797; 453342585; 271620305; 494996]);
  ([184505980; 297730059; 241770388; 407831891; 482679532; 158290301; 46669804; 298144242; 288247], [80173960; 513258398; 220795576; 130015681; 21931890; 257633548; 235178865; 305914114; 1025275]);
  ([376700912; 47200260; 530616633; 329333613; 57653242; 203416651; 178253778; 480794544; 2028431], [515108965; 249777627; 309591054; 500054024; 375930831; 231680249; 407628719; 134035908; 3073578]);
  ([221055000; 113398354; 111507183; 167372111; 319599530; 93690244; 250083334; 412240226; 3072593], [1762527; 335836186; 150168855; 480662784; 247110683; 38776379; 376266981; 410352285; 965048]);
  ([492270298; 43388310; 495190539; 494048237; 190374757; 176975991; 481344015; 418847888; 1885303], [208664260; 339066433; 205323843; 160299706; 121255236; 320116586; 71069636; 89734569; 2922445]);
  ([323387251; 254738549; 49803427; 232494808; 130671208; 255581214; 141421556; 236703680; 2645224], [487256109; 31719631; 62395277; 456895466; 119423252; 359000348; 50334845; 149127684; 784494]);
  ([526589884; 27436132; 498445559; 36252816; 524114728; 461848373; 117388244; 358347012; 1621511], [22533405; 515536507; 141007151; 516952385; 468155248; 402026063; 10528588; 26259088; 407480]);
  ([34176780; 468732711; 451303623; 141678233; 367204627; 235148432; 353006794; 86344462; 2702463], [387310754; 463004834; 388314577; 246541248; 103055246; 316116283; 332020800; 216575018; 3094830]);
  ([183086925; 361045728; 209369535; 35626161; 159922458; 239851085; 400587428; 400994515; 2124899], [385973578; 520475532; 444950501; 481109665; 203667598; 254217302; 489048801; 14221775; 2795717]);
  ([90571416; 275829391; 199354650; 472753930; 249657852; 360825754; 365612689; 414630121; 2282928], [270564687; 86401035; 409276301; 31879287; 422258464; 230338245; 388198136; 206382726; 1483818]);
  ([199094934; 209651964; 23345386; 377574014; 101501871; 282311607; 97561945; 374934035; 2515809], [30684056; 271016499; 513708793; 485019204; 322810936; 184832081; 403453651; 266980228; 2352670]);
  ([275577313; 9264297; 487841226; 337539168; 27700758; 172404388; 135569102; 143674468; 1747918], [232951180; 292512921; 48631779; 98245216; 32620129; 18584774; 278880345; 477139778; 629825]);
  ([218391200; 466671571; 509891197; 260463585; 329622202; 161585952; 231397585; 80123879; 2923590], [396551211; 342121800; 46057195; 24783354; 50092847; 219455169; 292252156; 225616067; 1629649]);
  ([54443307; 498451927; 430924574; 268767283; 129418; 18729034; 141586480; 68852037; 119655], [308857650; 326694367; 457461141; 510986178; 371596415; 124440323; 217519347; 450457532; 2281789]);
  ([59457184; 313508435; 406775524; 58535809; 351510167; 461596547; 417868944; 263806421; 2141525], [200543377; 173891762; 45646155; 440274884; 247937498; 379374398; 474721924; 460278296; 3031275]);
  ([240150100; 181672093; 260452598; 364209215; 119376622; 279590152; 334001980; 460964750; 1075208], [446440609; 435113457; 100847282; 456715418; 259675894; 55437637; 461796116; 504098907; 736276]);
  ([471468036; 43464880; 84769919; 457885118; 285714211; 5346556; 427831197; 447585943; 95033], [111360223; 214044794; 256282124; 16609531; 157237277; 471095521; 461920315; 228383261; 1969516]);
  ([227126187; 421330310; 311452358; 534970540; 108825907; 239203108; 289394292; 528290588; 1298558], [293831298; 497580706; 356271150; 41538416; 251346505; 84119415; 339608103; 295557710; 3161018]);
  ([62952129; 170773832; 471285673; 338245011; 385230127; 331905683; 90816926; 420991802; 382750], [449866820; 71158518; 332007003; 144733665; 407232310; 81443543; 499076807; 221301681; 1800170]);
  ([9144748; 178490941; 107076693; 189050233; 484273865; 292043637; 317692108; 220119650; 1833820], [194542870; 453993621; 2990329; 455506614; 417014260; 246249970; 506295785; 324740056; 1838612]);
  ([402611537; 118629182; 242913927; 414459357; 421843336; 304088831; 236295896; 318254588; 2314278], [436573517; 534066082; 514494619; 10261322; 388837376; 356123138; 69240466; 433635486; 1756273]);
  ([212521742; 241801356; 60599101; 400562401; 105354556; 194602460; 261150323; 370866665; 825186], [58479566; 156845129; 38574047; 288254634; 374880; 173173233; 276221420; 90338712; 157688]);
  ([148837675; 339479541; 142251459; 516435397; 480438747; 507283590; 248457396; 468024476; 2515974], [176599184; 56619234; 354244317; 483363719; 44588341; 351496850; 44414100; 55248339; 1693636]);
  ([475291929; 215520158; 88815536; 267427434; 382667421; 265970187; 355967611; 491662007; 3072466], [52166982; 233544119; 302655762; 48144095; 371393332; 32271685; 299049587; 209116375; 1053683]);
  ([204848297; 218768912; 69299817; 163415632; 319785086; 140505058; 317900970; 525738693; 449940], [110609935; 135468174; 59989271; 418314984; 271794360; 100365644; 249079874; 95917429; 2964485]);
  ([72548751; 365856106; 513522944; 203167489; 147755051; 337818797; 342234372; 383225542; 1305037], [110800952; 96739451; 30253374; 67908053; 28561379; 270135155; 197154584; 504212298; 1813332]);
  ([8862790; 352765545; 234624730; 407223667; 343379374; 116440347; 288826103; 320281591; 1311758], [118454998; 256025734; 240199545; 329386348; 144773295; 454300816; 29464762; 78776087; 2860915]);
  ([107297050; 165857303; 473389321; 121661262; 355794802; 200732553; 81586021; 489343324; 1016624], [102643589; 226513483; 101112348; 450777880; 202036176; 312423121; 312486050; 515837494; 2006697]);
  ([48467266; 437315731; 166983792; 11152832; 212888413; 56785048; 456595300; 133256931; 1416617], [418525020; 489904603; 198484907; 300254943; 466280207; 285576882; 255480329; 435566793; 1165841]);
  ([84054197; 408893030; 258800318; 190729569; 475272867; 108377037; 183179758; 117590238; 2143898], [356016018; 476398770; 139309642; 206269095; 342777966; 217415545; 205385803; 7091142; 2805936]);
  ([174809563; 527737216; 158729954; 114171426; 183757903; 130670993; 455476712; 347988871; 2063728], [283287411; 170650376; 282129287; 237846732; 89470300; 456431238; 51281192; 298472950; 2952515]);
  ([420882097; 10428887; 483202770; 328185536; 169877064; 339176102; 460126294; 293682981; 1144061], [37252807; 281945331; 162678050; 464627211; 112993488; 419815804; 234754903; 316982815; 2839969]);
  ([315645539; 308708092; 79379982; 495329353; 239565576; 438996298; 373516293; 19232920; 1473333], [337586414; 170401090; 431489917; 230287428; 107043864; 426594997; 73134967; 59095744; 2028119]);
  ([54435109; 338215755; 93754736; 371523377; 285174129; 479897220; 190645638; 440565080; 1948233], [376750215; 417698451; 394401845; 102577190; 527068953; 514715826; 26823466; 118689418; 1893627]);
  ([128744544; 378370865; 118696726; 299888618; 409752125; 25296952; 266967488; 3722346; 2532608], [287290408; 204547241; 396438326; 51750004; 198351215; 403339873; 536360102; 496437054; 2480674]);
  ([471355315; 132427834; 364550257; 129427938; 452812444; 394147700; 29825017; 112630361; 2101077], [210093186; 139077328; 428448315; 11317696; 358453592; 533496429; 376383123; 508369128; 656501]);
  ([304749382; 218994372; 208278179; 270756120; 244453931; 67406608; 518931339; 68203167; 2825380], [75617605; 258717366; 200046528; 289033068; 91633314; 423868590; 311452320; 393777212; 758819]);
  ([65172035; 432840561; 425151090; 9434798; 222572220; 118378754; 286042688; 278231104; 1410222], [64043902; 457562846; 446940055; 438707151; 453633234; 535963214; 508256750; 212801124; 357479]);
  ([406453257; 433620132; 318422983; 509390304; 420338356; 47236073; 413192362; 270604300; 1713511], [10079763; 52089578; 422217286; 274206799; 287975364; 120802579; 348036665; 360729930; 1261893]);
  ([295324364; 525313527; 30515329; 14661738; 230435531; 128432209; 270322511; 469063767; 1998569], [533630113; 173772880; 401697885; 64369522; 38949424; 245936427; 472857548; 531348568; 3085275]);
  ([60669664; 153259254; 35844799; 70184526; 411407798; 312702391; 249355983; 336701326; 2100866], [124035114; 46824638; 23868645; 289182020; 411173948; 315074888; 252395468; 302023079; 1086261]);
  ([104965503; 367812231; 518564204; 321555249; 103595579; 231123590; 444557862; 259745432; 954661], [464817958; 80713751; 535225644; 191842891; 346687108; 425242076; 47379261; 84341890; 1694962]);
  ([329908754; 32590329; 315865362; 496651290; 131357186; 426095952; 478860826; 334766233; 892176], [330957755; 164390902; 466978886; 12258935; 225179230; 157208806; 505503155; 468200874; 1661318]);
  ([220510767; 53055082; 482991718; 438385399; 313370494; 112224586; 102279967; 359615771; 2431113], [473067044; 66459666; 160213148; 281817903; 285502345; 204136496; 210289947; 362181257; 510322]);
  ([206294044; 335946784; 160926524; 86853703; 12890045; 134691232; 373091870; 244454789; 3069325], [238711489; 210070264; 315427186; 44333339; 92802835; 305998015; 27551480; 525576767; 2833278]);
  ([199181272; 308293527; 181789637; 395604973; 168983109; 132161491; 253603644; 359392030; 2949350], [369924770; 211808395; 466582538; 445529882; 71753847; 499259902; 499745944; 479837864; 2826937]);
  ([35161159; 352566253; 26727865; 441830752; 391558261; 44838086; 98074713; 358485312; 1860216], [526802212; 379684244; 407199691; 143470040; 54085132; 5339952; 37412913; 494689747; 517667]);
  ([381107103; 523851762; 322113897; 247932055; 229504866; 242997368; 428821663; 533134471; 780929], [121301163; 460817492; 45344488; 527648361; 108795300; 226194343; 91293989; 318954958; 713554]);
  ([274649431; 288494930; 401323679; 399763223; 168495493; 445942818; 323607953; 469484236; 417337], [471849224; 490908518; 113864563; 124856957; 21544858; 312774694; 362984463; 306673175; 2984082]);
  ([142917704; 60188938; 252488715; 43657903; 238543992; 506868378; 136693917; 16829676; 2144087], [426039749; 267020603; 207384475; 62413998; 399399521; 265116220; 34791072; 320610108; 1102103]);
  ([523678378; 30815497; 30046154; 507187469; 529676314; 2006691; 48187566; 168224089; 2264709], [14700466; 329627431; 386398852; 18261240; 53463641; 338724446; 333810143; 167708199; 1307782]);
  ([42054141; 685473; 262665972; 349869377; 524399286; 397817936; 378310657; 125903839; 1013017], [257970075; 83966505; 508775573; 10797564; 382414160; 417662726; 260510884; 286902041; 1240700]);
  ([523849758; 352762375; 354451526; 462030486; 469799902; 495128237; 222648385; 115308003; 1474182], [295108251; 133001573; 289264297; 482055355; 136531115; 79794746; 314521887; 50968499; 2982816]);
  ([42046316; 65119939; 271942707; 493183564; 198249602; 131663510; 378438038; 201965475; 525994], [418788894; 50153387; 381934669; 89084384; 38913491; 12239766; 138321588; 238118738; 2965117]);
  ([519893514; 274559246; 241628650; 532002421; 214875583; 282377017; 184744011; 421313206; 354219], [468323912; 507119339; 489996872; 179573822; 235288831; 398971735; 164250409; 456406166; 2850495]);
  ([444316828; 234111965; 102531075; 420396476; 130726017; 98811125; 153264224; 321066852; 266224], [390312184; 334407971; 48452539; 34284607; 66658788; 230077048; 65699341; 399819224; 1909679]);
  ([527204230; 424883263; 205264444; 517751319; 516866819; 341478325; 261290617; 288614318; 2944435], [263345592; 43659412; 479637533; 284301519; 446756079; 164572099; 48822699; 382164433; 3129743]);
  ([520075973; 469475247; 262485620; 216252496; 461961068; 455443305; 49367513; 497462077; 2442866], [159143020; 507250385; 279092322; 278786404; 148204493; 157067084; 425104837; 155039323; 592006]);
  ([131512978; 278722358; 412690949; 41209939; 365506295; 268328157; 232474995; 267993815; 1998458], [98248742; 310459906; 463953737; 314658348; 534451609; 248085089; 484249828; 178566498; 2910340]);
  ([31217074; 135395268; 353912996; 475539371; 444534160; 409113752; 416735086; 535483778; 938819], [469746779; 258758780; 284998274; 284512346; 419249924; 266673271; 505936440; 341316083; 2556191]);
  ([248014741; 488474925; 512301655; 28986336; 265292416; 424073121; 204326150; 166443716; 637257], [28264935; 488792015; 488114777; 483756799; 436811278; 289768953; 277587842; 390013556; 1824971]);
  ([494864280; 431723559; 80994971; 427170683; 169819883; 90817709; 293119990; 262932470; 2561183], [402008610; 159703135; 495475967; 357282658; 240679761; 66246281; 149097269; 84571919; 661165]);
  ([435229209; 59764945; 246766928; 482488605; 370203160; 323268160; 373614184; 88588435; 1594181], [316833216; 37158724; 271881648; 271725534; 444749437; 455488066; 266941155; 139510483; 2315886]);
  ([465476648; 328303690; 465887085; 285269489; 219696589; 231993602; 333148543; 53664187; 719781], [112613333; 394042865; 158321157; 347938992; 105864123; 11663640; 441088099; 45089770; 201190]);
  ([449664206; 32420063; 269984255; 107868704; 494259893; 140951223; 235262237; 466087465; 107236], [406748131; 283908995; 120653915; 117695856; 495737246; 348478781; 249706158; 441630887; 719883]);
  ([320386509; 434009697; 33916538; 384412332; 226393127; 226294856; 341470535; 464320761; 886291], [395245029; 269265656; 486693637; 183604085; 430869686; 533578578; 482858528; 216857122; 1762115]);
  ([512963618; 398411575; 391580201; 163594615; 446140539; 136218477; 359845998; 13155062; 2648711], [102129940; 428265526; 245338301; 488446572; 251923297; 437115189; 341478972; 273033434; 1376667]);
  ([243605463; 268703210; 195900436; 478695822; 324105727; 93511290; 273523786; 150550332; 1980480], [360199981; 70544278; 163163678; 25471830; 127590677; 359911304; 44667344; 391141160; 2494767]);
  ([45017616; 446073152; 420672027; 147781406; 6135699; 108173083; 286761283; 509790178; 2254674], [403452728; 4005287; 365953503; 183449103; 80163582; 57336847; 407729060; 58112930; 599174]);
  ([3087667; 65521067; 31289427; 65861975; 121873418; 2837182; 121492517; 315823880; 609153], [119311111; 249881041; 56375713; 270676656; 158280787; 372222292; 502727904; 318994378; 147571]);
  ([476940555; 439012159; 377570294; 13181299; 284212039; 534007060; 25716083; 110473088; 978920], [211071735; 271932032; 191482362; 123297857; 136186372; 331537404; 227847661; 13243472; 1618087]);
  ([534352112; 292186194; 327227445; 180854921; 466305250; 130912466; 364359291; 206572479; 3008872], [470018098; 437596954; 170398047; 379250225; 9293392; 505646582; 356947496; 8021424; 1910549]);
  ([356793205; 463105819; 171547347; 133915220; 393574475; 403856605; 467499738; 182521874; 1237431], [73754655; 216140051; 232387511; 376764434; 381780686; 399956648; 431519781; 321253975; 691721]);
  ([315554209; 36166252; 404852422; 391217511; 166036077; 158227270; 92144619; 124718534; 2445669], [27705669; 113579890; 250744805; 269345132; 146278864; 355952160; 380531819; 408089131; 1517773]);
  ([421219370; 383152493; 186003044; 241061461; 78307453; 140105661; 156835009; 182190388; 2447510], [166549610; 400564300; 159552614; 440439162; 207965336; 159715270; 200107846; 475894722; 2054762]);
  ([37614971; 298665703; 524106315; 85747897; 337833365; 53444891; 300492653; 394128856; 2581933], [216397728; 204413139; 438205984; 58026917; 425696003; 81393087; 204275763; 100401355; 2144471]);
  ([283893196; 11927575; 75275601; 140658499; 248902809; 388569854; 233525437; 247092773; 320580], [432483238; 391950467; 244966258; 96122828; 64233493; 167715244; 67780180; 397702830; 2612090]);
  ([495953654; 218182163; 118653111; 302406705; 272457521; 278998665; 533139148; 173987082; 1738563], [64935008; 482260861; 268111169; 68517644; 58954379; 249481965; 211195828; 359872920; 2709455]);
  ([14420313; 173127282; 408857636; 393438676; 340098700; 70705361; 249902542; 33065396; 3010337], [291953313; 527901135; 223497669; 600273; 355611830; 81985679; 485537726; 261558318; 2993675]);
  ([91859595; 492521318; 157026225; 300333400; 490495109; 170116802; 238029301; 115422237; 2598768], [101919401; 384882142; 278902984; 337347501; 41037616; 190791700; 56239934; 73671091; 2685361]);
  ([112600467; 425662468; 201092120; 142935533; 232739877; 95576575; 191367223; 461950258; 1402494], [76961375; 17328130; 93742338; 528282014; 279846502; 245874368; 340228043; 420515152; 2917923]);
  ([382058734; 185395805; 302299639; 249880268; 508035426; 195951559; 282089146; 10327494; 35538], [310363463; 26250056; 269354689; 167219380; 320906703; 502749750; 365197644; 286881811; 1794639]);
  ([526746216; 411463437; 61121771; 68974272; 320394434; 353855307; 35098623; 66384410; 1040195], [333523161; 147721886; 156123055; 84385690; 109204545; 223210638; 66669366; 270991114; 1619789]);
  ([472516520; 467586601; 123599080; 263656167; 150594467; 383762628; 331302571; 129281024; 3082406], [401610104; 290643930; 324830846; 284111197; 521887235; 66847953; 283946550; 351522593; 3093047]);
  ([131131042; 263318169; 294587220; 167590124; 443281753; 289814572; 166862077; 334284125; 1758421], [2805179; 181966118; 51096788; 366920170; 133443309; 351562061; 338346441; 200609613; 1055197]);
  ([478057781; 306435232; 364219449; 321812706; 521030554; 190915893; 152739430; 169201075; 1020997], [263834618; 388079758; 330085064; 48969250; 292691514; 250917850; 462691743; 477926371; 667272]);
  ([228844795; 469268873; 484718010; 20500655; 320794958; 450638649; 56957971; 362305118; 3145006], [256654024; 245264336; 411926539; 303523170; 506023614; 105657990; 383524320; 515033731; 2072129]);
  ([135281894; 123619883; 45600888; 467133941; 94243913; 487996910; 145005331; 59340235; 1768810], [510857428; 242497782; 353796426; 70458785; 335594987; 278733174; 146418797; 157345977; 2695486]);
  ([466002675; 146135441; 270832205; 289769013; 346279350; 107828799; 246589935; 136409082; 2953821], [494133715; 221484501; 228718803; 91724035; 469038591; 103976619; 458708557; 272271468; 653795]);
  ([505347512; 115460812; 497751927; 29286450; 377471349; 148860668; 24343192; 409318420; 5105], [292096828; 194468217; 443914587; 362093665; 506579801; 327667497; 249720181; 278384913; 111075]);
  ([369260599; 77404377; 526129822; 30105019; 98612869; 194741137; 171052143; 228554445; 2911366], [68035467; 294532565; 321029318; 229757432; 38161138; 282904957; 120249829; 294303646; 141036]);
  ([245758795; 451653137; 399288394; 232499446; 532825294; 315049746; 526148942; 62185598; 3076907], [369481645; 355340264; 462535410; 463113384; 459628516; 53395383; 113941645; 56560915; 2213218]);
  ([46284429; 487299722; 131389030; 317677091; 439652401; 357282831; 482883704; 149417069; 92452], [403954810; 212949624; 265310618; 300206176; 258607641; 176718143; 2315618; 358055252; 269714]);
  ([72349044; 63510680; 521906745; 499699749; 394334569; 221565468; 119966394; 134861362; 1564972], [302627066; 49184350; 76485029; 297225724; 165826269; 369331091; 373760296; 302667936; 2199506]);
  ([433652190; 383173474; 222217671; 330029907; 32561283; 74880118; 184325661; 323587220; 2819052], [426535024; 221778944; 424145549; 137014862; 427392171; 507831981; 265585222; 369671424; 2164120]);
  ([84569288; 233254629; 331401464; 25798364; 346713847; 13257098; 209994738; 271186003; 8407], [6962288; 408697432; 67973909; 346605205; 40383008; 96285230; 412690280; 160939708; 2464233]);
  ([135682170; 108827911; 459325793; 204732398; 90067739; 256132894; 14951121; 235158104; 1829968], [347291929; 311823660; 32878308; 92368329; 40785423; 173418951; 398806633; 367202661; 580726]);
  ([374815490; 299941971; 36164238; 319286287; 523676925; 425262932; 447867250; 379743087; 2187267], [130752978; 212984416; 319289295; 99276789; 359095523; 211105287; 69399525; 478175070; 919254]);
  ([454746131; 53295205; 435300749; 391990423; 362079763; 120535093; 89899934; 392133273; 2107067], [317763751; 393557750; 80056087; 247325493; 402522289; 47832686; 490926002; 361945646; 2453556]);
  ([330893958; 264303320; 188677668; 280281403; 286113457; 227585548; 291729298; 432287810; 337348], [271855540; 220470877; 128598526; 43905898; 87824395; 220903020; 36633031; 251457373; 367653]);
  ([305113221; 95688364; 50441684; 466241304; 452561320; 386571851; 143276432; 419902140; 2148205], [13582019; 492809715; 171639023; 415892164; 235003851; 304233124; 59129720; 75985367; 54677]);
  ([245110851; 82375988; 388094215; 19641650; 301547016; 180123400; 434097959; 359398089; 2234380], [37470312; 429604579; 498159335; 259119073; 516747167; 497866083; 324458964; 66050883; 492509]);
  ([40102105; 217500045; 217765355; 416646988; 533933345; 535489851; 464642761; 147480515; 1889104], [363878663; 347188633; 303923168; 150541447; 145361176; 49339494; 316694864; 77568861; 1849697]);
  ([85161833; 66977793; 228761036; 535297817; 47558212; 300690509; 124023235; 307073148; 2676136], [421724066; 6111501; 98014033; 362222399; 168964204; 81697824; 354419324; 491226658; 2105735]);
  ([391091797; 379451655; 387011871; 387373932; 301419817; 449880633; 126751318; 107242691; 162105], [249924984; 348038796; 133782243; 389462189; 107474122; 527430246; 185749244; 100345712; 492733]);
  ([211011288; 53675814; 45862997; 233260651; 454496746; 178019245; 244568499; 341361394; 217044], [140879539; 443428399; 312877654; 232184283; 343351014; 417725315; 463127455; 466463197; 527639]);
  ([384687896; 155419642; 77123684; 488929689; 76782721; 369538578; 181895234; 133455560; 68445], [326361751; 4886552; 36519192; 509128737; 461124378; 114509894; 352715102; 279864885; 1542311]);
  ([357261591; 264452996; 221100749; 326930422; 424451616; 319226132; 327013968; 120686441; 1795637], [512233716; 181171356; 439948510; 446421875; 485900726; 86509684; 124868186; 174612245; 599838]);
  ([198962735; 428553047; 171745321; 48816484; 419839973; 264432058; 412104367; 258159684; 478588], [23302172; 111456260; 154593604; 149397756; 5747298; 519206196; 215163123; 112542317; 2837745]);
  ([50284165; 296311719; 40442713; 185420239; 308519831; 291017026; 405685277; 464794394; 766206], [53976302; 27925939; 326569188; 386445848; 385308531; 150013464; 278402614; 430937371; 1587254]);
  ([265214019; 43381549; 526495491; 388864210; 327636963; 14303210; 224687090; 176072786; 874844], [476027729; 7843846; 100245018; 375658966; 407320400; 324536870; 484160136; 326248344; 1679356]);
  ([383427409; 476096247; 497053291; 498216657; 52393640; 273556324; 485180086; 301834104; 593359], [223041533; 97005849; 144302870; 391294741; 487361505; 229780385; 128284202; 244340860; 2673429]);
  ([429863924; 123030098; 351409707; 37433607; 256290722; 353854803; 16790869; 406248499; 2387873], [397403321; 399293457; 408182349; 57478494; 262178643; 376146231; 237156560; 43445940; 24246]);
  ([98028388; 509729957; 243639494; 297007919; 336026622; 462654733; 266109203; 354853791; 2131160], [322969778; 57328101; 402188911; 485626817; 115955764; 447771701; 453149374; 354345228; 2577643]);
  ([62650967; 278115740; 190970962; 67638964; 418677998; 69534138; 248635027; 88457271; 1467812], [461518253; 163983052; 347011478; 509883349; 269964338; 201527553; 371832125; 158088170; 1662682]);
  ([405393470; 10626334; 355334214; 156806636; 15115178; 381825582; 251474588; 419659174; 1045794], [322733889; 140285667; 250624556; 23604464; 57589197; 356173883; 165218856; 150103192; 2163391]);
  ([268852591; 528601536; 511096528; 414732744; 334847708; 261448768; 170976251; 347136572; 784700], [90317154; 438528068; 475565970; 414142655; 449088662; 131332879; 483662284; 332796886; 988020]);
  ([214847223; 264727000; 59672352; 97000328; 219265050; 467734085; 266902557; 284130282; 1378692], [20344426; 418765124; 113522653; 276612202; 164517120; 282790031; 12176832; 495888830; 130786]);
  ([438625096; 46362674; 299260335; 429642923; 441182660; 115367689; 326177776; 449511548; 1956536], [346349478; 140585778; 485512425; 5793056; 457307061; 343107264; 217215306; 135763223; 756302]);
  ([290193877; 191006846; 456177754; 339868779; 271267206; 324398955; 399811080; 418663795; 1503744], [423297593; 311165839; 480373086; 214330768; 138374984; 71492079; 2897569; 120923921; 1588658]);
  ([176262655; 38954190; 487328784; 218494359; 498503390; 171841120; 425691177; 21052829; 410875], [260200052; 52456159; 202703615; 199999049; 79055838; 504858218; 285882472; 133603697; 2709012]);
  ([48004846; 56614201; 228516293; 50046461; 70164413; 221720810; 11108407; 372641038; 1108672], [27126962; 204185689; 500407901; 137724246; 391891272; 450931506; 288329653; 58521868; 1114751]);
  ([363972409; 352394033; 290880435; 291870555; 288397097; 122769686; 34379768; 532118076; 2603891], [188781191; 144396648; 291074795; 500085858; 90082385; 22731499; 217213753; 196520986; 1225676]);
  ([477838257; 410202637; 166476230; 219360762; 401930558; 112715118; 530920051; 26279282; 1363761], [264166763; 358681488; 423298489; 79893161; 231295534; 73655057; 141189345; 40615462; 2707067]);
  ([185869454; 383638550; 406056379; 392912493; 436893320; 62150103; 463878056; 210590266; 2556851], [120163762; 533679797; 84937154; 214227820; 316297233; 80723346; 253809166; 460259850; 1775851]);
  ([495842979; 410543382; 423911509; 393985721; 301383992; 302195360; 145853526; 473526396; 1554895], [31186350; 423556987; 141133783; 67494515; 366691438; 173345188; 461411728; 401075791; 1823201]);
  ([54665017; 296430805; 200275547; 40790195; 259643716; 532303226; 491902662; 165612026; 696373], [458082149; 45928479; 321421558; 150560641; 185593463; 29091896; 218526157; 395302375; 2816617]);
  ([484067654; 494466300; 40082116; 104519391; 400453734; 492096488; 518698558; 262465153; 2162396], [285461965; 27087621; 180698408; 451826847; 274225224; 520596740; 124173132; 316568762; 1276197]);
  ([238592346; 311344192; 70799021; 223089121; 490337921; 98134965; 27921380; 122195882; 2040398], [196248013; 244765878; 496110741; 129820410; 319739123; 416430529; 45572144; 302820166; 359963]);
  ([176528937; 322752488; 165472471; 158520332; 214161835; 51083511; 95749926; 490134594; 808718], [308485388; 311436982; 184171382; 92579265; 194080476; 1567675; 212923734; 361369038; 985432]);
  ([452270782; 330562632; 440240732; 414448159; 306244186; 106404208; 187206689; 61366995; 3080098], [304578433; 397996634; 459665332; 153742139; 532739360; 44023351; 229460359; 33110831; 1352244]);
  ([535307732; 215453218; 489405110; 225179837; 467457700; 63111818; 421874982; 126220325; 1230613], [511029384; 425075676; 426320651; 213182164; 205818023; 180077724; 188238883; 170334166; 3135783]);
  ([131546265; 443041622; 490038263; 361126436; 135808714; 380773187; 68282136; 492491988; 171517], [219816209; 325464762; 217925634; 255681950; 386436062; 309747263; 237693335; 139290914; 1397389]);
  ([215287661; 38568382; 67867517; 102925299; 233557216; 240822029; 50694791; 450495897; 1130706], [473439103; 338706730; 473775887; 10679139; 399789006; 135506999; 34691041; 7081782; 3038619]);
  ([53678033; 221321289; 503023458; 471961481; 331999180; 124465252; 469487987; 218194142; 955465], [84958557; 426742170; 103579145; 486633575; 133101888; 483944285; 440228342; 20815179; 1116408]);
  ([493387553; 96499832; 360324366; 286073707; 383368023; 306805870; 123524450; 369989267; 2711314], [153525793; 149265164; 533745073; 512371359; 144622303; 76908935; 127596127; 500095479; 2585555]);
  ([220054721; 88582431; 476406531; 404451163; 482913852; 113579887; 519590409; 252774433; 1052693], [73245864; 125300636; 203154873; 424162320; 305389835; 115168; 350915738; 255391342; 1526815]);
  ([321757957; 137911459; 407117157; 408745118; 255741632; 464926539; 249442863; 460953959; 2273709], [406163304; 305035524; 159319421; 496247342; 421535686; 489466570; 73298221; 138042025; 2853729]);
  ([471137505; 266314688; 159333973; 435746752; 145413194; 448250223; 353877826; 310495464; 130976], [213374809; 360445334; 79811899; 317436226; 400481074; 293797198; 290122652; 8720661; 2757269]);
  ([281460882; 29237472; 149635055; 91710262; 226015837; 106013047; 60909957; 148819327; 280927], [275807824; 111154246; 269084499; 55745235; 198746517; 238872327; 98648176; 482771451; 1708207]);
  ([360645949; 199310571; 87492206; 74605434; 485705923; 151106346; 179158804; 183054687; 669250], [108480651; 315759567; 378872493; 431730278; 203869460; 377645817; 242308687; 18575490; 1248354]);
  ([351777208; 459924822; 442719950; 122958661; 419628695; 212390761; 462349655; 33633861; 2471309], [213955054; 185216837; 331171984; 19598979; 99653873; 14444224; 93423413; 120496439; 1655153]);
  ([460462350; 403960307; 294129045; 133621299; 522041300; 52690505; 523997788; 448513603; 1436641], [58386612; 129957273; 68537432; 90530170; 342896528; 453322297; 473321402; 168351137; 1989150]);
  ([82100954; 177042588; 46146360; 203880140; 197337188; 431179008; 259131151; 102964734; 2813362], [147829625; 270637254; 405593096; 282173889; 226293760; 288667117; 314011232; 249965346; 1116551]);
  ([192922943; 27224500; 479265129; 191905146; 38975344; 532136378; 370477689; 394336508; 763878], [295746221; 418786230; 265314862; 208448599; 354375790; 3684044; 238975052; 479736974; 1266862]);
  ([352660910; 15509512; 241478756; 5073625; 443921022; 182683179; 487004580; 503050616; 2704712], [308549217; 114683785; 290073916; 7629068; 148556557; 240024620; 467074675; 31040932; 2467970]);
  ([253900445; 254037016; 152665434; 122516980; 431422919; 98273296; 20556816; 100925266; 2015034], [307795963; 431301863; 467462316; 140572645; 78168166; 61282820; 264437060; 214933540; 206725]);
  ([157824857; 285816528; 238584836; 85535687; 386815289; 221677621; 233223492; 426612894; 1132735], [4068771; 505993370; 22480364; 142124300; 147762838; 137520088; 201461506; 266382707; 2652014]);
  ([308422044; 61583168; 357896825; 403345333; 318154109; 534113396; 40044746; 501027437; 379213], [108042747; 32197380; 371064377; 315243664; 62436408; 131152645; 85888403; 452753920; 1301465]);
  ([106667839; 460495562; 143431571; 473897214; 495203553; 506743278; 382189883; 133786992; 2045788], [167810010; 442840252; 16138082; 252791512; 54886333; 450090828; 28269237; 419596685; 2665567]);
  ([271351060; 502520333; 72862472; 195647297; 365099692; 532351573; 216904847; 258474362; 416518], [436095972; 12354697; 239765306; 450610436; 397579058; 408105122; 114748815; 160854698; 2045210])]%uint63.
Definition slopes_g21 : list m2 := [
  ([288514044; 119237378; 60828649; 467595409; 418862118; 103380283; 370368720; 254519866; 401118], [24714157; 78771591; 388456120; 247240991; 327185280; 242440847; 103653258; 79406185; 1292824]);
  ([238488298; 145254916; 177303397; 393010017; 392676324; 151369476; 506506812; 432881559; 434191], [392177999; 342727758; 101393132; 270837252; 420937596; 326169295; 470251277; 364223337; 1638978]);
  ([372556186; 344262041; 436914109; 185848803; 111655973; 385981150; 279794074; 374911636; 1328625], [368607416; 227128659; 207292116; 397513380; 16920940; 264204877; 522756277; 307181768; 526985]);
  ([114370146; 407566589; 29036782; 170127222; 388966587; 166680141; 407667962; 291283808; 731281], [463677815; 319754730; 414523586; 26075545; 411129387; 31300687; 50324732; 315500286; 1419874]);
  ([146378247; 530121124; 58202660; 227950169; 393867864; 117396179; 478436622; 446512915; 640390], [6380066; 495653874; 517263696; 279656337; 418809887; 450791992; 92256918; 459726467; 1309255]);
  ([213227071; 360187392; 502328526; 434557999; 201073773; 484204730; 52442455; 224887298; 2101412], [471434870; 235906104; 34295522; 372156962; 421396775; 107908072; 450439342; 363145201; 2410142]);
  ([97514382; 323168539; 87702066; 529609136; 277826052; 119093086; 536224757; 231086909; 2303935], [13943346; 136444113; 76553498; 409693541; 12333647; 7654577; 208721517; 348945205; 3157171]);
  ([43597609; 426612248; 138090358; 42710833; 334266080; 55317169; 209053693; 201204196; 1056579], [70175943; 395300528; 216570175; 400470601; 39947606; 139102009; 354604944; 143618896; 2288484]);
  ([30770940; 43000263; 252927050; 477288170; 323426437; 387176548; 391574433; 375368143; 1660921], [275646002; 508724328; 32395093; 492445254; 514717602; 86663137; 98816433; 149506942; 1589313]);
  ([508933679; 6100598; 341443284; 427954120; 27710940; 392766873; 438450374; 375672148; 2735769], [241088975; 49422553; 508482325; 287226271; 484084462; 214911608; 120622372; 193247055; 2089639]);
  ([408770058; 253984053; 248127066; 76103565; 110851031; 20838597; 223888416; 235538067; 3060503], [281541450; 322651987; 77073297; 457360636; 235785750; 404546840; 200305287; 474050282; 781223]);
  ([193422827; 264602861; 380207681; 62577854; 113009207; 228562699; 142048630; 356147138; 1619080], [88964874; 377917637; 196231861; 312435034; 419682551; 329802969; 225476797; 30447623; 190546]);
  ([30109255; 213470257; 211740096; 505810147; 37788508; 120831015; 140344428; 387671466; 2347517], [484560583; 294048615; 505623250; 511780608; 41656292; 1855132; 6032465; 237932730; 1810774]);
  ([427009540; 355650331; 259375732; 243278952; 352964157; 315251578; 9006279; 475322133; 1275708], [53321661; 342028236; 173763668; 419156760; 283724068; 346398633; 430520629; 18333958; 259172]);
  ([397185297; 18369181; 152901253; 392471005; 512399434; 348785984; 71296672; 415655602; 155780], [213874096; 181831733; 151400; 29446593; 360094339; 134542250; 80094024; 179426370; 2591208]);
  ([345191380; 154802294; 293821422; 450336558; 137044152; 244345258; 452191478; 84870457; 2247673], [358560015; 465962467; 467291173; 133395384; 438513020; 366224672; 284661336; 384830878; 2876381]);
  ([380524694; 21411496; 168687715; 39579231; 280677922; 331383975; 422497700; 290918516; 160864], [441386667; 197170983; 149767826; 132825630; 498279164; 73328233; 179621803; 496235895; 314438]);
  ([251545345; 454941823; 200770876; 453518069; 262430567; 372251713; 437494946; 240364714; 1172944], [234960946; 80829322; 531135168; 353298472; 483391430; 441944566; 198786301; 452911741; 863977]);
  ([63623938; 281018017; 176777858; 366495073; 54691860; 45688209; 348945263; 380516339; 2265739], [230777200; 251291507; 414086742; 206229304; 38210203; 438507750; 206535727; 235812508; 996789]);
  ([28987379; 369072820; 313513685; 170531932; 341442112; 386810238; 270500255; 65979750; 91070], [150896710; 122380934; 494939139; 341528487; 524559005; 394965019; 165736465; 201686831; 545156]);
  ([508157681; 292612334; 450945704; 167297696; 495117707; 482282748; 232479227; 53099494; 733372], [230111596; 136399974; 129133716; 63467381; 472649857; 156588432; 49511713; 492751114; 2633264]);
  ([3677499; 518042748; 483259831; 43250075; 252479622; 437489132; 528657193; 407943783; 684922], [476761728; 104759850; 493528973; 495327641; 488541663; 129950027; 532452771; 531886807; 130204]);
  ([318439501; 402315760; 408458432; 498252783; 429769234; 169921000; 146463936; 189013526; 2132695], [7837842; 251652912; 123718279; 235299145; 342725245; 305236497; 131238253; 76323952; 861906]);
  ([152436264; 199817191; 383893820; 252885190; 83640674; 389756083; 394197684; 118061118; 2868376], [29542175; 61900569; 504901385; 317842958; 255038412; 135591640; 4759342; 296057456; 600465]);
  ([279672961; 162021061; 196798980; 190501588; 240196163; 531572356; 302326613; 292282007; 2960859], [113146462; 425236648; 101629487; 288253769; 498893769; 345266507; 509275246; 273860190; 397063]);
  ([490382621; 49724350; 482759639; 307497532; 496037349; 135621850; 438940347; 498732680; 1186014], [516651151; 498808498; 131674033; 417977389; 161265660; 413999277; 231806510; 53801687; 1702946]);
  ([149745442; 303049086; 274742221; 304626528; 418700733; 149970880; 368239127; 61836323; 2865302], [463809042; 278942731; 325483683; 516075794; 181764820; 349903295; 160637728; 466850934; 3105226]);
  ([382214210; 238377345; 406684450; 368953115; 379119128; 515138728; 29963380; 179038338; 602557], [214575011; 286359365; 57219503; 31369277; 16607366; 434766248; 137990090; 118693020; 616888]);
  ([430074012; 533197467; 94385003; 253777945; 146860208; 77818282; 478034358; 456129209; 2922408], [374043853; 200826195; 24088876; 529999124; 473071426; 414746381; 499318054; 58295710; 2834569]);
  ([15461585; 292711101; 399872255; 211202012; 35262206; 290440583; 249653472; 106767489; 951110], [454479588; 483889446; 334466975; 464377719; 422125867; 67744834; 187888905; 385522753; 1928044]);
  ([27757180; 349024576; 132132375; 52514207; 367872041; 3936219; 496342967; 171408965; 2611455], [174270936; 6034133; 33094825; 70801322; 121899207; 46076777; 359630473; 292233343; 2594560]);
  ([308254829; 384134823; 189445817; 287659551; 136508634; 334698104; 357673740; 108541189; 511413], [147513065; 158330780; 189618836; 29436431; 77326456; 69304900; 282178776; 273485639; 2096664]);
  ([65428218; 324701574; 286766386; 357366965; 514910220; 308782411; 451543763; 286508619; 664438], [465457535; 275831458; 195242053; 201480184; 489565272; 430365701; 341909695; 460493679; 1960741]);
  ([193805090; 65244686; 226176022; 422474056; 298783735; 52843855; 49385549; 51950492; 1422589], [391736525; 241076709; 166901596; 329809473; 178474373; 369678385; 365452852; 150979851; 2826043]);
  ([178694280; 431355707; 340103122; 18647475; 299938967; 192216529; 525046995; 108879211; 1274812], [407103773; 297968329; 360189227; 138337573; 454297580; 491523160; 447080375; 310648703; 1416404]);
  ([386684643; 53464552; 449800162; 435710672; 467845062; 76799756; 512091896; 161001924; 2402073], [442698957; 492201948; 29377935; 478647053; 128145415; 498149899; 108711526; 153833420; 602305]);
  ([185973170; 177915240; 535794906; 265547682; 138504000; 397427332; 145315119; 447953359; 3061899], [476320101; 244812563; 220207033; 326243962; 186501675; 535491831; 202182612; 529142841; 2165118]);
  ([34259850; 125500768; 279414694; 268648450; 11487146; 394186543; 349610942; 15428562; 1644773], [122154190; 431485198; 438182717; 270520843; 98725905; 215829166; 30286998; 157332937; 2780574]);
  ([486085727; 67576311; 97981906; 113591440; 226463683; 106175534; 112669883; 322488262; 2094883], [186640668; 200234773; 508233598; 195046908; 25018894; 169446458; 472584527; 219523604; 1241186]);
  ([439487074; 79178303; 510897355; 408084056; 438695850; 500437855; 294757254; 270165336; 2072086], [95980423; 43949881; 370641298; 462569020; 226609971; 6897754; 200991674; 24619218; 526778]);
  ([130014102; 490102624; 384288600; 383441603; 207773452; 294717641; 124350842; 447978181; 2928544], [302283061; 173011323; 251374061; 528747636; 146714320; 6351; 430729443; 311369188; 1656936]);
  ([349050955; 166621024; 510243424; 175034448; 23589397; 476565553; 116970260; 155630395; 1140716], [241694949; 41116716; 33508884; 149382977; 57523187; 257554780; 435560168; 365117755; 2488569]);
  ([478534134; 70521949; 153053068; 452763741; 66100549; 420238680; 290272280; 116977676; 542383], [297880463; 262899337; 450317365; 258457032; 201846804; 274056400; 246177217; 216970316; 2674829]);
  ([3389151; 43775391; 229522873; 139034521; 506023482; 271031238; 328909565; 309972656; 1975285], [373421995; 135566660; 11600123; 89536578; 289108713; 1053328; 127819218; 185552014; 3077942]);
  ([369831885; 34479907; 389225253; 99095570; 473249843; 206518161; 324169622; 167413124; 1669165], [418603877; 57807563; 39990380; 106774265; 53436255; 462426135; 4149749; 501901556; 2182079]);
  ([120613593; 333560200; 68367526; 108291038; 41838647; 239719226; 165958631; 532727458; 679402], [446022312; 411277279; 121444053; 432777905; 329603517; 98416446; 223672529; 49781133; 2231920]);
  ([184465252; 36898805; 19562365; 486886992; 30624095; 105091609; 287553143; 101086376; 3055585], [384346976; 435950301; 340425098; 273269837; 441295006; 372728646; 408842236; 432127157; 2467164]);
  ([402295216; 155039649; 164363488; 87190541; 469474394; 51381884; 131510504; 97907510; 1105880], [511569803; 126951670; 520395307; 293749625; 53222569; 57282987; 181746446; 411408371; 1596297]);
  ([36533521; 104111793; 297165470; 13104538; 188377806; 152338163; 3942343; 116848920; 1763417], [48507616; 226440768; 376562227; 164118757; 19262400; 236805131; 122347457; 237469414; 522407]);
  ([221419064; 390793303; 329839581; 237207874; 7945089; 534289221; 525291452; 479759348; 999710], [496986120; 51208467; 350630946; 245204927; 457845590; 280779715; 88575227; 256012603; 2831779]);
  ([506659862; 161149156; 285856096; 292552385; 295725711; 488684219; 299096800; 140882596; 1297758], [407085677; 168412996; 76246749; 117394742; 154271248; 236995972; 316228552; 416813870; 812670]);
  ([112394859; 238892561; 330439370; 400670968; 256300649; 235960381; 288380273; 307462775; 2373949], [169413868; 106880209; 425412273; 352937924; 59433040; 477468567; 219624554; 101480688; 183666]);
  ([472232066; 386467732; 493673158; 409117842; 341876206; 219824697; 349845570; 401051807; 945312], [145593373; 104632935; 389957943; 138943173; 111504522; 335914945; 472549013; 347828805; 2341065]);
  ([307906794; 207819394; 335744568; 240857538; 380625774; 48045312; 208338464; 175379518; 1689704], [223655255; 248265574; 113132069; 28075978; 20305279; 488483837; 420690778; 272487941; 2765266]);
  ([401834310; 85857772; 290316382; 18827124; 197377234; 194033690; 197030702; 492505362; 981214], [420139252; 266797440; 172176580; 294734969; 298234551; 135229259; 247871533; 27594816; 565496]);
  ([286334799; 289861144; 203530111; 35511409; 229360738; 134756420; 480465503; 100095738; 2892570], [81788838; 472258241; 340359713; 180646732; 90037064; 434337953; 373930036; 519071377; 391889]);
  ([38036605; 314036041; 487753090; 516883576; 155041744; 390598010; 393878437; 332002689; 342811], [291387573; 5325225; 40514061; 85872140; 60170774; 244654281; 248689036; 415953241; 269460]);
  ([498935321; 202742700; 428268835; 427428421; 61495342; 61401226; 175712998; 88414568; 1759426], [155120596; 508159869; 283121523; 519219675; 533629453; 100329094; 37198889; 148131954; 396119]);
  ([412431645; 239008034; 394653599; 247320082; 29361492; 149865381; 351362226; 314152504; 760316], [466785893; 163278568; 161619700; 380096177; 89774863; 389577110; 228882792; 269327120; 717467]);
  ([14603570; 207188405; 442352357; 454095190; 104780550; 107317994; 406630599; 2864705; 1205466], [89499424; 342174784; 531342293; 531788569; 132350391; 252098842; 75908006; 462860028; 732144]);
  ([328759837; 459713564; 324476320; 441683570; 305085597; 368483681; 184383598; 340637764; 3071600], [385066971; 458845129; 487951354; 25414171; 350809488; 523195630; 131916553; 418959211; 61831]);
  ([189212649; 287408195; 176292062; 102793448; 500605170; 308501051; 36640450; 436074019; 2291378], [222067098; 230165115; 174589062; 502433647; 392567211; 356467723; 475230276; 140506542; 3152447]);
  ([295861225; 373889171; 463127084; 334869064; 473010422; 358784342; 103091026; 464388362; 158866], [25896426; 463472604; 394389345; 273835807; 215249317; 63518290; 203949794; 375729994; 382544]);
  ([333729815; 504479951; 40164670; 257789932; 439391987; 426091922; 30394744; 45348517; 1091311], [121800733; 6841294; 481448306; 40187573; 372656949; 187611810; 273401268; 234179650; 2486098]);
  ([16778059; 392659772; 206094390; 387399417; 439195877; 241550460; 46089671; 208386030; 1716429], [7995120; 335337529; 311513770; 477589307; 416861478; 232228490; 156180022; 4045847; 1198123]);
  ([420079657; 296920151; 196045433; 10868279; 390271678; 32577672; 520973970; 63032539; 1697870], [304351997; 151110608; 470790188; 267388722; 432235575; 397080827; 286549674; 245130085; 842344]);
  ([98533916; 472620767; 291040780; 303610323; 180748873; 21955103; 424212102; 418615706; 206539], [352182535; 143720878; 278133886; 316433931; 2798813; 316611473; 471324119; 432615196; 2658150]);
  ([488885625; 27617483; 533973653; 99234363; 254566616; 29504434; 237940101; 348622692; 707731], [73707830; 199311538; 252061570; 391757655; 224742609; 92332864; 250671715; 391663620; 616730]);
  ([75332618; 28227780; 393402873; 192358279; 239780450; 396778890; 382367335; 191936261; 304829], [136506814; 477559827; 299470808; 532488683; 434038648; 471303065; 237005993; 34963876; 183051]);
  ([237788933; 269375777; 94899110; 413479447; 181135074; 309992833; 495884416; 426491768; 2073153], [527811993; 161461565; 421020959; 535900028; 74609387; 88474298; 245312180; 493971487; 974270]);
  ([74747948; 275616404; 430363707; 126442997; 59164209; 26063810; 150035432; 73050414; 926937], [352021025; 331860113; 33871415; 461987644; 84952516; 79601207; 461688969; 70897265; 734430]);
  ([437486493; 511835602; 17118617; 68219451; 226021156; 250589060; 504130679; 42600401; 501842], [517222032; 442697209; 119944151; 139135208; 447016289; 29991375; 160558123; 436147477; 2740104]);
  ([64701435; 174968241; 248961947; 204441214; 140892273; 323552736; 376849248; 498819549; 2296781], [26696246; 301308394; 415354157; 454547514; 363026717; 172090896; 19100200; 33765642; 1688380]);
  ([153203647; 343291881; 246646831; 349948080; 502336190; 101451678; 358603597; 105223932; 1526061], [138994346; 61362977; 351234377; 294015175; 179467322; 447641612; 57691189; 342598124; 2098914]);
  ([86307430; 454671536; 296113365; 23276628; 277930819; 116062078; 441517994; 86582931; 683931], [47248168; 467484931; 299031552; 302462073; 433093342; 11934988; 88403565; 302862416; 1384960]);
  ([243832400; 303266102; 219953586; 220864323; 141720381; 318927906; 336954227; 185494079; 2898822], [153898482; 287207447; 330528151; 74833855; 520723569; 178266395; 181266816; 170544734; 1585329]);
  ([155548776; 310557942; 108006513; 520259633; 347218177; 122904987; 33630497; 439156108; 1294025], [497167169; 348922362; 236904144; 318345241; 114516173; 150231678; 45356429; 305228302; 784826]);
  ([249521743; 321079789; 264683560; 121525259; 457533879; 485059036; 470640138; 340952170; 586016], [398773470; 520951468; 274521553; 54714319; 498719279; 358676198; 308928031; 81673947; 846670]);
  ([530512780; 63345885; 85921685; 53859257; 499471148; 349339661; 169641808; 519130138; 1574330], [272709333; 59954614; 509262201; 275594855; 468303916; 45619495; 271271633; 93163665; 3106743]);
  ([534464572; 193260984; 5686678; 442038453; 104950035; 9361916; 515950591; 150413905; 2444944], [84181904; 491207084; 60598540; 83497603; 476481573; 45002633; 517228812; 161745029; 1476561]);
  ([344476278; 46512657; 171321260; 149174952; 485750051; 207974547; 14670897; 242091327; 2579634], [380531204; 469934425; 444099485; 243772981; 524084911; 207075793; 276942011; 496108869; 968726]);
  ([471655373; 520364348; 483639280; 151225105; 25932320; 246602382; 394677953; 262555093; 2654656], [111977275; 279930012; 14749596; 223553805; 391165082; 37398600; 48934243; 407759295; 73377]);
  ([164606122; 263823361; 57823792; 326101612; 224041646; 295360195; 17448080; 129765698; 2809019], [359964494; 274620073; 321985528; 462714194; 335971608; 129946211; 321484302; 431128140; 1876936]);
  ([186299161; 317440421; 212923139; 482780869; 527132249; 272169632; 253950331; 332552500; 649426], [441840267; 174388642; 448669179; 490229999; 296628696; 407600983; 6034650; 405128539; 2505383]);
  ([46155626; 274397131; 519081095; 293977570; 390086845; 133793466; 504263428; 230064532; 788241], [45248692; 180972795; 529691743; 536135414; 94671364; 342054898; 358730632; 18979417; 109714]);
  ([500318539; 410571078; 192111891; 492510909; 303077845; 416187101; 221420135; 375771204; 1407724], [53703955; 230962231; 417081751; 23017619; 122645753; 375395682; 441826646; 79992966; 2678072]);
  ([22400398; 448216055; 520667866; 23171955; 352791377; 514358222; 376264409; 346203545; 1512744], [154673927; 465318822; 255795; 383190399; 500294237; 253626489; 146113210; 103394138; 1610186]);
  ([199808308; 351020095; 66170137; 386780783; 431842221; 468447134; 208448558; 302219551; 3011936], [392988340; 343507960; 113388717; 389783429; 128089647; 111798943; 477629181; 449114124; 874599]);
  ([197694895; 251427110; 463570131; 157000903; 43721439; 188169607; 174160392; 302552873; 408662], [494415733; 30111783; 162504922; 383067662; 423953875; 196112020; 266284818; 52667931; 2097972]);
  ([110644867; 128476992; 35441179; 521209637; 378495736; 518025614; 362519945; 82117933; 3112593], [429900228; 484520052; 20894927; 536748262; 131378439; 296161641; 312731995; 99472636; 757056]);
  ([332158812; 86931762; 339222993; 507194986; 488899903; 417332803; 302803302; 312766544; 945856], [290687174; 927692; 239278058; 198296162; 99138808; 471442212; 388946987; 121042506; 2180151]);
  ([370594396; 144719161; 488940855; 471640612; 343570206; 7659923; 273372031; 459358937; 2712707], [418967974; 366409375; 257827488; 368332763; 200798996; 73384483; 190763303; 214944; 1530040]);
  ([170715272; 89948426; 251867901; 518392236; 171707114; 335951207; 374471632; 346431029; 873407], [499988197; 30639283; 490624111; 406038445; 265154081; 339448863; 534090575; 96862716; 2534283]);
  ([29189313; 273895267; 385672090; 58382177; 341867236; 430329952; 330975991; 1025455; 3013095], [433303482; 84800878; 500915417; 394071123; 72858534; 176963427; 198868373; 505442102; 927927]);
  ([43548386; 91148380; 120001025; 535479418; 152406042; 481269390; 173023541; 483346406; 1621981], [177944122; 153329242; 380638526; 321048401; 265704448; 475052233; 142553081; 215420067; 2347211]);
  ([276962334; 184921799; 351169589; 523879038; 153752819; 529431567; 453409821; 113008910; 1855903], [188453421; 261511471; 98341828; 357473173; 173015528; 120011155; 243828613; 339180461; 1226253]);
  ([298320726; 120815548; 193701518; 490809134; 211479673; 285236816; 284308366; 499140062; 1073010], [464892713; 7566389; 483028680; 426601122; 96390183; 298558160; 286883374; 376215959; 1529126]);
  ([376819186; 259791369; 155824383; 485268729; 86543618; 36679777; 6303797; 40590137; 1003878], [360365156; 98075248; 165166874; 146931701; 466224760; 37284176; 405788069; 375024003; 2314680]);
  ([55157967; 88153359; 8740179; 415477691; 361611799; 32530301; 441096540; 63399259; 1346738], [97299490; 212184929; 140104375; 418879202; 101772877; 454710280; 519740284; 316488834; 1405210]);
  ([493633021; 112047727; 350955425; 209335574; 388288085; 112875929; 470851506; 9224323; 2222095], [6696574; 188877344; 529103156; 146169861; 60115669; 69270866; 12208479; 451289506; 3145560]);
  ([209567129; 520624121; 271176529; 124106455; 398832458; 235651715; 102220439; 361312600; 915694], [19593691; 501814067; 237455165; 441809122; 318121321; 248092335; 280999701; 338940642; 1854208]);
  ([245359256; 160061326; 451177045; 25483041; 400464894; 24960459; 195854793; 134184136; 1659326], [213731806; 28092745; 108954776; 132380083; 39702155; 354904638; 137464404; 206202438; 2941488]);
  ([163910435; 501485713; 421481656; 274204635; 107938371; 197356093; 71885042; 377749964; 2552036], [306012519; 373185265; 168069457; 485199593; 481273545; 535944659; 322142803; 51624033; 1016931]);
  ([445598682; 113520335; 308566399; 385514952; 281772910; 367547066; 110120864; 297616909; 5361], [307226305; 423139557; 234308570; 337553020; 40732578; 239413400; 447897430; 37449151; 804964]);
  ([29022575; 222605849; 460338743; 45307050; 389662113; 211933335; 207155967; 293966211; 336558], [372038795; 384876372; 112329580; 164807561; 137221477; 47918381; 293060671; 113652990; 1459076]);
  ([60213147; 329867780; 516732957; 494269831; 153816975; 290331458; 283506304; 243643162; 1072655], [118394973; 32820069; 433548838; 206726305; 518603326; 202341133; 142083430; 207447127; 950455]);
  ([127561447; 63290422; 533948138; 56234537; 421747847; 373386927; 399308136; 61182355; 1335528], [36303208; 398267523; 111103588; 365227958; 494469771; 282664207; 51312757; 34463609; 3165043]);
  ([26200913; 335225511; 433358857; 356876046; 497107966; 498067537; 209899022; 164964173; 148211], [448307731; 378568578; 277495308; 153913037; 110503176; 480471448; 249900736; 415317916; 3140976]);
  ([98032260; 331911459; 202415245; 161775151; 49002509; 517061762; 82154538; 210437498; 452080], [339968857; 107695899; 15099974; 30036916; 167781586; 516311349; 122316617; 342298232; 328674]);
  ([477486155; 334631802; 382893082; 351326653; 501522461; 252177156; 296447410; 120435831; 938113], [536815019; 478597369; 392711880; 430016594; 125983898; 517148264; 233964213; 476339995; 1001666]);
  ([1192212; 63578709; 156068864; 245125182; 31917359; 259375593; 44919897; 393544288; 1264668], [365667737; 399714040; 30884715; 186515051; 35972453; 17185264; 231680403; 158842374; 2616061]);
  ([104973382; 277699637; 106031401; 240719397; 332954648; 189440027; 380524313; 15701689; 1580862], [333356463; 267766913; 169776360; 531704062; 76500467; 20950208; 500814419; 483748140; 2673726]);
  ([196884326; 9493360; 504009279; 365791614; 493401844; 289394812; 303064874; 300913852; 1618910], [37471410; 206735622; 439426541; 252514700; 302098101; 496036192; 395393289; 529153695; 1995490]);
  ([217475860; 363282859; 91845024; 491849075; 183662796; 139319498; 50484088; 33843486; 1401368], [363342987; 406082372; 475845265; 66093383; 158047684; 87736982; 95811319; 528476208; 1746501]);
  ([274110083; 515465917; 427672526; 116908438; 137438377; 354715183; 177104468; 65992633; 1062993], [436967421; 506473696; 273317321; 305820984; 328906236; 160825690; 347270744; 517677859; 1424346]);
  ([366285764; 123318269; 356256910; 282469914; 48537593; 375643325; 427590211; 237894809; 1490143], [467351072; 34785820; 275250197; 184873685; 449864610; 101948778; 490511512; 380047026; 3166988]);
  ([442192688; 160944173; 116439227; 440155506; 404447184; 151670747; 105255485; 426815274; 511533], [153259663; 219136878; 385797318; 60860830; 482757493; 399342664; 379026368; 165785947; 1357442]);
  ([444818387; 322446413; 67290350; 305168413; 453855404; 293981706; 85844097; 131027250; 1789937], [368507041; 425294887; 53828276; 465403755; 145523376; 514820882; 320317878; 531396041; 283461]);
  ([205940857; 526836201; 442341540; 241796414; 252878921; 149615754; 516651518; 23905484; 1822409], [27381993; 290473662; 28661905; 30916679; 357589571; 491321024; 178300752; 411231094; 2815339]);
  ([514798275; 143606253; 289791842; 94280067; 398466602; 389865400; 72299605; 385090559; 2631183], [366865106; 486929382; 356126740; 297420809; 427890754; 410484391; 471841343; 266169008; 790826]);
  ([18901797; 499223732; 390990974; 487354164; 237288470; 531508530; 446382741; 250175606; 2566578], [302304902; 81323211; 218144261; 375639543; 342894829; 523656593; 482387442; 428727042; 902390]);
  ([80763730; 450440100; 9668543; 14343048; 267839752; 117399347; 177393255; 446631341; 927376], [324964705; 99803659; 78831150; 430041702; 379557918; 306214461; 528689651; 176953052; 1854451]);
  ([95646454; 396554060; 69005719; 370228508; 370972992; 50889295; 172797852; 135769568; 1585099], [340735901; 252131823; 389877314; 66854566; 93509351; 330189957; 87675409; 119899570; 1252118]);
  ([326419126; 441625882; 56144307; 210684944; 273331095; 493036269; 248707172; 311487709; 884377], [315918406; 242510238; 199952026; 124105486; 485689018; 357026515; 284868851; 280694129; 2165162]);
  ([15280769; 73121171; 266612551; 37783571; 330336163; 198601231; 208208256; 65923574; 1498747], [345864748; 336777221; 215318717; 373712374; 471377491; 69404726; 58010296; 24175007; 1057404]);
  ([257476350; 145885274; 435029091; 342019240; 341252841; 65413802; 451433562; 248443037; 1331426], [226888379; 155871515; 146113523; 291832693; 233801535; 126011063; 53447858; 274238000; 2867040]);
  ([207495419; 317191960; 262267873; 262022500; 107471693; 4496098; 331914776; 448756624; 302215], [16573051; 17347264; 232037917; 155159534; 129867961; 528327498; 113137487; 457663116; 3131603]);
  ([71573884; 315280776; 112312169; 31791782; 437008370; 293951279; 119129973; 110125312; 1237331], [29631022; 395255837; 125494184; 127709359; 390389122; 316045083; 357428361; 246345566; 562166]);
  ([380792650; 534979206; 222632305; 447065801; 307721463; 358530449; 498671138; 30538176; 1403316], [19906285; 221457056; 335851311; 24236681; 123262650; 7247318; 259746304; 6062365; 2242752]);
  ([509179348; 466275065; 122244186; 424103891; 458160706; 262075860; 139022068; 474166849; 127653], [32626201; 376508393; 477500373; 527289712; 408642241; 144884803; 345804683; 409407949; 1298306]);
  ([345784568; 310842746; 437898693; 197758229; 484766680; 410695887; 483350341; 276906636; 2983953], [141251657; 406586975; 257368880; 101063141; 80685732; 158181802; 276285438; 58170271; 1384787]);
  ([9902313; 120538700; 380444645; 213091598; 158219672; 368235021; 133930864; 394000621; 3108819], [20666967; 241590165; 256066207; 134498348; 104149469; 398226022; 199003222; 474846322; 2533069]);
  ([379636230; 316396987; 289381749; 234896780; 192281342; 153064013; 367641779; 238861783; 230155], [276670214; 186093496; 127142774; 159494441; 280468277; 255305147; 34986850; 83060934; 2182509]);
  ([504642018; 217450380; 166743058; 488559211; 136861496; 197205989; 487269615; 139341003; 2301587], [270427302; 145659826; 140608084; 256286640; 284409785; 518363216; 378226510; 174928702; 1443873]);
  ([307478114; 525319260; 513981831; 370606621; 327548046; 395728612; 386887409; 6994699; 177337], [406717514; 395238115; 194216978; 365379529; 139883241; 241433369; 422858432; 328837941; 1168121]);
  ([69245276; 304978561; 193535011; 518649166; 4134535; 499785482; 134431706; 529471267; 1007586], [12260906; 471327257; 25648263; 117115193; 93670652; 361447612; 18679972; 463030337; 1352049]);
  ([466782750; 533391497; 32651144; 432123972; 393814367; 391736582; 492764610; 467495624; 2146351], [420394283; 169133551; 461981918; 214879063; 438720215; 174482710; 266076374; 284305279; 2538993]);
  ([173360394; 465766489; 429364997; 42258893; 464025946; 254235607; 431048029; 299523801; 2350752], [418916532; 150683711; 146417257; 301955685; 450491953; 112940644; 515624352; 420934771; 2917306]);
  ([366112431; 384465781; 57187588; 517324742; 360663274; 450477814; 399168062; 494836064; 389571], [173357678; 394736667; 319780392; 268363225; 195313429; 313938153; 509976954; 99367173; 786012]);
  ([514509931; 478385788; 534807249; 208496024; 142057622; 528185346; 256762732; 225387609; 870545], [517541907; 518590039; 433913195; 135561084; 47365325; 83889029; 55572796; 305855656; 2559391]);
  ([174205899; 439437793; 477467128; 291839016; 313749882; 368441999; 345199646; 328855947; 568843], [230262273; 215149162; 407544637; 410000932; 258450890; 461041236; 445599868; 39505325; 1062313]);
  ([270591848; 518488282; 376957597; 350902011; 263976984; 375421543; 506224296; 371247457; 2192273], [27848275; 399959038; 327095052; 286792779; 493055492; 480571221; 535322718; 282005510; 1810607]);
  ([213844775; 505423144; 242037549; 260011320; 255658308; 346115613; 80657081; 463412293; 209459], [495089635; 463376933; 448757868; 144697104; 390804169; 364145524; 362945650; 163799109; 2441633]);
  ([103466743; 66681291; 81490664; 125218115; 173015693; 399974011; 191380803; 422307330; 1378628], [244330287; 338294807; 480111536; 195283062; 513085953; 10557178; 401691806; 58414945; 1655649]);
  ([444342747; 235829712; 55636598; 224149670; 374308563; 521716329; 129004583; 40606585; 1705775], [245216157; 415933893; 52447363; 173124289; 197250550; 53465484; 142465221; 431814211; 1056377]);
  ([137400604; 426266060; 259039380; 43419123; 440465576; 335903825; 189521166; 190891333; 268346], [96141975; 534707602; 371502398; 277872199; 400638548; 12486787; 17170951; 229409677; 490367]);
  ([147049279; 140753104; 507747345; 274577110; 333396017; 316156246; 477672473; 462127068; 1221936], [239942278; 369687048; 515234102; 24063054; 121328821; 293681134; 472719806; 262822817; 1716716]);
  ([63690799; 399878647; 447404642; 176359802; 445370240; 1286857; 454748524; 180805259; 810600], [145197251; 195898418; 122798854; 280818127; 186001324; 283727126; 536601080; 522664182; 2751972]);
  ([319190952; 237895416; 380329860; 8628174; 167832594; 450098216; 327334995; 483149376; 1551385], [20137580; 315491331; 76972258; 423633096; 443515798; 212017675; 415099417; 403931276; 1493276]);
  ([67291662; 135104429; 257274230; 248125469; 344065243; 297548234; 445257622; 125548852; 1824485], [478810104; 370170649; 6760395; 286365051; 24768382; 203638789; 480848180; 508196025; 2355370]);
  ([62463862; 13393037; 335225959; 305940888; 445942793; 68017801; 330586017; 254244146; 634861], [314975841; 529329708; 28027204; 271212078; 308774911; 244137798; 475671900; 50456009; 2183126]);
  ([80549068; 221888068; 469879682; 306429148; 214667794; 90257310; 446671902; 467812051; 2080082], [353619334; 459248613; 508801062; 328855413; 94336253; 88072177; 112723998; 41513770; 1336297]);
  ([422066337; 116743892; 67804490; 463388905; 353380024; 505931648; 270677993; 26126616; 2241460], [216105866; 510662261; 44856638; 315282542; 527854061; 461631055; 343893656; 389932256; 1588527]);
  ([477241464; 113492299; 391447781; 473411617; 336024044; 137552858; 12482155; 481081779; 2100298], [341904579; 110893876; 110609743; 131871511; 114074165; 118989559; 329322255; 327845630; 1319692]);
  ([467271428; 94511787; 75655686; 34576644; 509006987; 375758832; 116587965; 155031198; 2410807], [340260654; 108129074; 533378939; 501866503; 304368406; 404283667; 143655503; 517945314; 808613]);
  ([531932014; 527800845; 241015122; 150048626; 152052174; 114976379; 19259046; 153188693; 115661], [75256460; 103568854; 440194005; 344479288; 113277384; 285844038; 134858897; 511564223; 1288880]);
  ([327241417; 316669386; 98457136; 411323197; 25974309; 161083754; 189448096; 214484266; 102011], [5721104; 529889653; 353166946; 425998790; 153819999; 181879977; 28767024; 509897511; 1815483]);
  ([181390518; 52728293; 34459335; 67085014; 252543937; 159625232; 335212256; 436767517; 2559418], [501187370; 200488514; 534915695; 332793827; 395449903; 135513114; 522397995; 306565085; 1065357]);
  ([216219149; 366950538; 224994028; 434666524; 295190987; 108419211; 128191567; 145413609; 748455], [376483681; 456987334; 46931328; 223950804; 32864506; 311063043; 247898652; 438590847; 2526449]);
  ([408868442; 188886960; 426980917; 506624778; 45440479; 194837528; 419528067; 457741744; 2343282], [525781299; 442904743; 457279363; 535471811; 124547550; 233324921; 431584699; 180515397; 1298793]);
  ([193615525; 513197797; 129099103; 162428982; 390794371; 244343621; 445950951; 501877199; 428372], [107721785; 416044415; 67099807; 272828722; 337014198; 314428301; 154937315; 93615287; 412133]);
  ([301520463; 526801302; 330327639; 508259001; 156775194; 282206838; 305863868; 48196811; 1963690], [116906915; 161870595; 119332699; 60463230; 36910882; 430180177; 394562907; 159965652; 873320]);
  ([399062870; 426909123; 389301421; 52247259; 405417588; 72394489; 512668921; 104767397; 263878], [267532514; 229445610; 132436960; 67284669; 296287493; 418248699; 339262826; 160342592; 1190685]);
  ([453698281; 60441344; 220916909; 86792900; 76728501; 165225996; 533321748; 103722242; 1798920], [160593795; 466849330; 121127394; 297380004; 519540095; 96535892; 312921407; 485507882; 2331440]);
  ([182297077; 225468209; 343901056; 528624681; 68073761; 110713827; 105535443; 349815791; 1131396], [157640888; 269013460; 191505594; 102296247; 2661764; 262216824; 447107804; 245800119; 3073174]);
  ([320881318; 478568199; 381999736; 170277881; 31675765; 396118643; 525988694; 242995302; 2018914], [338874673; 381101531; 313390716; 343569822; 241286027; 151074827; 159230716; 447422550; 771740]);
  ([171892949; 44985693; 527797510; 82342578; 490608269; 249274920; 171775070; 398639063; 611039], [168620588; 364684380; 315311858; 242084721; 58800835; 228152012; 219374759; 390957477; 1222788]);
  ([293358554; 527205676; 438654208; 337260823; 509230307; 99053596; 89223440; 145275051; 3057772], [130406600; 32467734; 515360437; 334559937; 61267020; 303994329; 8941354; 297771796; 1099980]);
  ([91227430; 518995339; 419475867; 364538550; 259562729; 203617341; 313256360; 167992327; 3006512], [308892245; 77349364; 133796027; 260908894; 303477277; 284165166; 277917452; 379421769; 521201]);
  ([445693070; 109635726; 142411248; 453676891; 4246026; 473515329; 147064214; 94239324; 2882988], [363149024; 11612807; 260805320; 193155468; 234901198; 522809476; 157516826; 494448031; 1015709]);
  ([461535102; 531381944; 506230609; 406011172; 17366727; 249154514; 228729253; 347954148; 1004677], [21416540; 386619461; 470772645; 193745992; 466530489; 219268695; 196865958; 143312228; 1966712]);
  ([167019797; 199491450; 5691476; 42131809; 80351815; 355461275; 42587114; 230638038; 1350910], [387637266; 402362551; 358030916; 239570110; 197769119; 13918473; 254548174; 249336965; 166964]);
  ([428007911; 331428064; 501682812; 484362422; 241337356; 432893364; 66630046; 295759268; 687625], [363852709; 278191378; 455240633; 224936313; 413381521; 450658232; 397176095; 65930861; 1831875]);
  ([115373579; 250577363; 286174645; 428396931; 432744691; 192236687; 148620785; 104442405; 1130129], [432390033; 457561581; 142642691; 54397049; 53381039; 208190424; 80364961; 369787483; 953208]);
  ([101723135; 76073428; 129052050; 381062159; 319781594; 411878225; 323998166; 82415465; 2858521], [300639957; 2070527; 303207665; 340536391; 394369190; 486420472; 330816621; 237251561; 777408]);
  ([295940560; 433052558; 458741177; 144998088; 129138022; 159963788; 453946228; 363895309; 1569222], [101492033; 529627330; 266708435; 217597752; 21483919; 442743149; 368910107; 425681778; 2192149]);
  ([56043881; 108138625; 183781705; 2076421; 45072707; 438569117; 82441046; 224594207; 5950], [240470526; 138141313; 524480386; 53760043; 115247264; 213697595; 188679840; 352323316; 2931716]);
  ([143866160; 286033910; 400074355; 72888573; 293524190; 58458072; 44751854; 133912106; 2490796], [155844745; 1301708; 226410362; 530136176; 106180481; 393254847; 33141745; 83782833; 2689622]);
  ([481292509; 247959599; 265392565; 428221161; 44749788; 45452368; 329728510; 242829920; 1497172], [62508095; 99127921; 8749272; 379563773; 350092769; 447911486; 143060736; 92986490; 1220]);
  ([524842676; 215312565; 221463473; 459056172; 51013698; 229419633; 531304621; 461055712; 1590131], [158455006; 112355688; 439004527; 296068241; 439196706; 109592666; 177833030; 266686697; 1217292]);
  ([130181454; 370897270; 54845667; 198913480; 118390818; 227382588; 522784357; 48370500; 954704], [202850021; 173026923; 366871559; 387992773; 21165570; 88547553; 31668385; 141470501; 2961345]);
  ([9317509; 471776423; 281109535; 189869237; 484497159; 295525499; 123491461; 355053463; 2236685], [310007723; 54936053; 118759220; 136020129; 255970851; 198617223; 146697210; 40814153; 2167765]);
  ([202645932; 281228381; 394601355; 385234835; 460821665; 194210490; 525984729; 369748407; 617673], [94267353; 529840934; 285673928; 471839706; 94430754; 220353887; 376511164; 167182948; 2587310]);
  ([252744518; 235516036; 438080987; 520045240; 16838896; 136958359; 96626800; 9768312; 1152184], [92301926; 303235139; 118004124; 366488538; 181670299; 26479676; 87864467; 379564169; 2055654]);
  ([380117965; 450155101; 195663619; 179051536; 118751646; 157549131; 153227814; 254660220; 906294], [384227794; 255432017; 389330983; 291425987; 216081448; 133009960; 440136307; 478633488; 1963600]);
  ([223799137; 171711311; 428237544; 82593836; 197776371; 401028188; 150253907; 156265028; 450068], [404539615; 484613939; 223657663; 262142568; 311153668; 250985716; 421079412; 185026703; 235127]);
  ([296693837; 326718269; 20455426; 518501515; 25493367; 479510864; 351034322; 413307798; 594718], [516634230; 15012172; 229234016; 372471284; 32507079; 41492989; 209430450; 207728156; 1478609]);
  ([433465220; 451497087; 334300108; 17361621; 90375491; 396766352; 359968680; 303291521; 1854034], [370980572; 341755859; 497682944; 305027376; 47946767; 284077934; 312800956; 271127508; 2671647]);
  ([525189449; 412446686; 142002652; 209036073; 89095887; 251936709; 466900543; 241138432; 616054], [421533686; 298082743; 464119216; 455427645; 255834685; 508183796; 37388126; 92837244; 558035]);
  ([460162412; 10573123; 236707235; 441957827; 425268324; 126331608; 528266597; 320110630; 2432875], [366745938; 220573672; 312238689; 189235432; 448275645; 442767918; 122685063; 508729754; 2191367]);
  ([218660634; 364775110; 69824060; 93887699; 191744931; 102424926; 434667491; 127488649; 1071044], [518560440; 95220305; 296266812; 346791240; 181211036; 292345457; 124530181; 260700576; 522343]);
  ([438282226; 305550429; 449849553; 319060448; 395753908; 92102195; 422953391; 488534487; 2136216], [243831466; 150742768; 507363312; 48594243; 375326711; 57456354; 51770032; 286175969; 2385145]);
  ([268583396; 272367784; 329329961; 523414920; 68700724; 218081522; 482033985; 241077750; 2852475], [516076118; 418375519; 207483527; 262821784; 163372257; 35499236; 524799417; 146474997; 1219791]);
  ([297720084; 317702653; 393749664; 68362388; 18090571; 130365099; 272334265; 226648182; 1041840], [389221534; 97815653; 301675137; 197370014; 411480079; 237113649; 42981190; 190851842; 2291321]);
  ([48485565; 324422315; 291952995; 162719280; 161342439; 374332601; 230961037; 181523025; 2572397], [501216218; 296493586; 301695248; 180191442; 469875317; 503944866; 39163252; 98185936; 802082]);
  ([94597285; 478426796; 320381916; 201086383; 335950551; 219625382; 213101535; 500086392; 2725723], [139848065; 409969129; 455905257; 204981150; 528224848; 204690131; 493249083; 1880490; 2638937]);
  ([473539726; 410309755; 515609509; 304991514; 462066101; 403650473; 50277362; 147619435; 1356012], [144601577; 526077096; 50030952; 353517028; 362854699; 209860250; 521324052; 38079814; 3103591]);
  ([502721431; 93901431; 469543176; 40478655; 309408292; 173161029; 77966479; 472178371; 142690], [398239211; 357410715; 337986950; 377823420; 88702776; 371081504; 277498949; 346174842; 2658724]);
  ([327929316; 112568543; 86280002; 236687668; 433054134; 240166032; 80802581; 86554249; 2996980], [447448918; 245597980; 22446064; 270171527; 66490425; 269147179; 216366051; 479519604; 2267900]);
  ([444577885; 52476231; 137819047; 481079737; 264020716; 30395968; 155930716; 117465530; 2130701], [335101707; 521487577; 306614639; 68854737; 334781961; 432741513; 286519594; 316833062; 1855274]);
  ([91633887; 519581866; 273056975; 69523951; 388790632; 246389103; 170465338; 92651253; 1426395], [142083795; 534355624; 233601792; 140018305; 333146837; 89834108; 128908065; 83743408; 151009]);
  ([381069188; 357270362; 483036840; 421840245; 163478835; 480882430; 222295988; 431580222; 2585476], [395856108; 199558603; 178093908; 275055040; 13658572; 231478462; 6267929; 24303749; 897139]);
  ([112264845; 253498801; 405592536; 306763861; 417172323; 200267989; 144638601; 204096242; 2841543], [463858320; 458525537; 175691338; 297604564; 160780900; 265661226; 311196573; 99136478; 19799]);
  ([155595469; 126663275; 280077556; 337406297; 140963783; 380840787; 370933857; 58428149; 592491], [319922988; 55495582; 463385882; 119816657; 252512799; 473439872; 435693782; 517083454; 185850]);
  ([56273110; 248588695; 493176197; 291490678; 22433343; 443662406; 282420997; 457673067; 633627], [84790019; 38781254; 18071051; 37228452; 282725961; 260402126; 151536778; 534798088; 1516113]);
  ([77049539; 375718063; 227741269; 456067075; 295149516; 432112994; 488521012; 172144609; 934982], [473160433; 324854347; 349229850; 331587046; 222738804; 366398720; 345592466; 493706951; 712397]);
  ([14036352; 360835920; 248450447; 39884491; 442570763; 26756431; 147010814; 296370965; 995491], [504748643; 389462894; 469823002; 59377894; 250140118; 366041680; 275003001; 13276066; 1591693]);
  ([197500849; 268836514; 116561856; 417034705; 20921198; 116638316; 26090213; 158723209; 3115346], [317795956; 413674118; 294747259; 173088458; 162682491; 253331633; 315656488; 458751913; 206315]);
  ([448708769; 346631365; 125531476; 168960230; 17985101; 218899077; 461961509; 334610971; 2846938], [500511077; 29978655; 464212259; 130269503; 261575549; 494547132; 485544076; 25012322; 824444]);
  ([124344497; 500673282; 257885909; 208823084; 310298127; 388499125; 77223392; 125408094; 692276], [312523668; 500492286; 188028455; 284497674; 192892375; 125826261; 142708589; 300179817; 1423090]);
  ([144516199; 227856780; 353753003; 350046326; 512631687; 369987012; 139156360; 422260159; 1745066], [494893964; 390445067; 22870728; 118001032; 382506040; 378944574; 97475833; 327382608; 2097672]);
  ([225130318; 326308904; 452871578; 427605245; 130029566; 78319851; 177681295; 204023854; 882096], [194290707; 128026467; 368624039; 431500270; 163955234; 111771994; 257304448; 382460856; 1043773]);
  ([279107386; 255230827; 34841109; 333887535; 139718536; 445180759; 74820808; 411038185; 1102529], [147358047; 505736635; 259659039; 451667917; 425078597; 142507019; 463204674; 114448626; 120784]);
  ([320093740; 307279716; 532155752; 428941095; 136263513; 412720930; 301561786; 492263192; 3105197], [409725002; 299726536; 528961258; 70305622; 189285728; 97748088; 103754142; 347602966; 2651033]);
  ([1705398; 195113895; 250057303; 167600235; 75920305; 492801282; 24136878; 174011523; 795779], [8776795; 319047951; 112163055; 143351400; 184726606; 466261615; 70878848; 125641261; 1305112]);
  ([43316488; 266380956; 375449363; 338307022; 201900936; 69323569; 185949194; 475263022; 2163110], [166616526; 428732453; 514953373; 464224382; 260728442; 459530509; 170236204; 441973798; 2507094]);
  ([212939784; 392195043; 161573330; 529984246; 171266780; 238231626; 484562845; 383344220; 2377529], [67638557; 379980098; 456017581; 308553871; 229532057; 369085667; 48920111; 279837500; 2899008]);
  ([458801487; 133933515; 274859823; 187650886; 333483452; 370499383; 42542444; 309642585; 2282236], [153197099; 447946478; 142344085; 214196383; 78613557; 498569757; 394652071; 530127897; 3168652]);
  ([268243369; 228741754; 162249392; 152376272; 87060282; 233665358; 489449818; 213033954; 1317039], [286189563; 80474183; 318959420; 194713542; 447387436; 529649592; 429615401; 244553682; 1441470]);
  ([61002269; 481583952; 317793840; 431711758; 337520293; 324576337; 473799134; 222403266; 1421531], [171683463; 530168836; 146898851; 493828508; 211062213; 241365760; 283654334; 271450673; 112956]);
  ([206855080; 429910350; 84935446; 474998663; 63267640; 450595157; 209068071; 278520175; 2565996], [468102119; 277625025; 481840453; 329240543; 184486731; 65852997; 356591343; 352576211; 1657809]);
  ([196098363; 49794154; 403231501; 501010992; 41509325; 142399825; 103965010; 88531339; 2110235], [344053877; 381788255; 373953174; 56178060; 235823865; 401084996; 351894714; 272409527; 2769468]);
  ([281668501; 408307787; 181924718; 361348340; 85287220; 164877982; 381514540; 237362565; 1257465], [515289040; 501418062; 311965781; 525508004; 314427476; 280247072; 41095783; 231184211; 1432140]);
  ([335131382; 292621628; 48309215; 129912539; 456698084; 486895867; 168326592; 427513827; 1099226], [492325590; 236173738; 99900183; 531837163; 395571019; 189348943; 17267923; 147911832; 3144997]);
  ([187617301; 485189188; 100992915; 105965909; 339110723; 412333278; 369497504; 120325066; 31029], [422753892; 217665975; 73324177; 328630473; 13147055; 524236597; 139606802; 463105194; 961839]);
  ([110197976; 209669631; 312955950; 391457755; 284327198; 194113499; 244358298; 4899600; 2390643], [433917099; 517012615; 260333747; 61527859; 458475494; 316733813; 327688678; 208285618; 2108010]);
  ([355992905; 295028014; 275519274; 19268482; 163361887; 293040942; 3585790; 504747588; 2111350], [534834230; 435515624; 87179715; 107526333; 343456150; 83049854; 54003908; 153839347; 8830]);
  ([170816507; 4390647; 284187635; 78692465; 94080636; 246782901; 391765585; 175438394; 776862], [525657969; 50788422; 38679537; 382674859; 420942446; 402112493; 281828305; 143195926; 1982236]);
  ([437975746; 510815234; 157037026; 176803218; 96871945; 294228520; 102756090; 265682168; 1881495], [101456372; 113471047; 421418760; 24830609; 500461714; 59721422; 249992993; 344466285; 1162982]);
  ([260348517; 479632458; 517555903; 140249774; 184461658; 296085800; 311203939; 488923627; 2372474], [504268773; 475415517; 69817111; 13657174; 103588797; 128279143; 256676226; 407716399; 3128047]);
  ([234736572; 371803043; 65176285; 239865750; 361725123; 517582590; 117456228; 291797097; 1740094], [52073297; 151975608; 286793080; 279230027; 480244018; 501403344; 209379434; 499699378; 807365]);
  ([517683293; 273240576; 111351117; 536292610; 452706175; 194733086; 252869673; 165197190; 1559203], [400162141; 441658378; 272816742; 104686051; 27227992; 9301851; 236976615; 507091723; 3119165]);
  ([434022779; 267668303; 273134969; 54239662; 431401615; 315298120; 389856498; 213265247; 2314449], [7426737; 388400355; 153690601; 121551909; 456305596; 101912160; 215224329; 278388879; 2843353]);
  ([419924459; 20162388; 57883410; 218646941; 78598062; 516632848; 118817492; 286616981; 1164747], [380373272; 130309720; 19738831; 506272241; 491583707; 92697936; 451896677; 47845326; 1755662]);
  ([264155803; 330810208; 175903308; 493847157; 370332184; 477945756; 71279005; 471719326; 2605522], [409633013; 221108496; 182395189; 93662329; 448455685; 206539376; 392940585; 302549263; 2727600]);
  ([333506726; 105255710; 199411799; 91638212; 291123325; 374923303; 239540851; 281162254; 729037], [215490832; 250765351; 19640107; 280220900; 274427310; 420708094; 101961007; 30732914; 1891115]);
  ([535848179; 505882230; 141023471; 218311451; 487983894; 448973739; 332959522; 444407988; 395762], [351723656; 530612157; 389080188; 332120311; 63907648; 205248049; 424628734; 371591062; 3132193]);
  ([364921705; 418733390; 341992885; 364787462; 394595483; 373773046; 140046180; 466351380; 2949467], [272019980; 230461145; 190663853; 455005806; 66346805; 238371940; 209830090; 323321914; 14163]);
  ([142576039; 334204459; 423409827; 181717386; 148273293; 486559449; 273221818; 372708443; 3076385], [471567826; 268182651; 105766369; 300599037; 387877981; 334111709; 60756730; 292043144; 2078076]);
  ([235790442; 3740139; 532066923; 513323671; 260726363; 275981930; 272436147; 506080458; 1453604], [448100006; 42938997; 78205614; 381778857; 30024913; 260955993; 169899174; 269311505; 2950392]);
  ([524875775; 447821102; 326638998; 170525327; 272565092; 133595060; 496412691; 406897982; 2501403], [114061671; 98581550; 531255697; 99646243; 246023428; 419712540; 469791798; 307881996; 2687014]);
  ([71678129; 321151389; 394135860; 40138863; 266038546; 285767877; 168078709; 301207983; 272892], [34009701; 262252078; 425956786; 198747098; 47573218; 517009299; 457268880; 351808432; 58599]);
  ([250124122; 459539026; 422227717; 198053398; 449069181; 194790038; 98845077; 112094647; 960987], [398652105; 170032769; 299508235; 75807301; 421463063; 455408410; 353731798; 58468488; 1721262]);
  ([94996026; 162957962; 530047782; 279230241; 340801565; 75595546; 530016783; 389959975; 2771351], [400115088; 137334494; 254279001; 238124659; 455106838; 33595824; 400278637; 221304587; 1158878]);
  ([297931516; 27586522; 379281984; 133012266; 241181175; 215839044; 47088500; 351173389; 2670762], [526014979; 135618702; 445194952; 29504093; 182362019; 240719582; 161232105; 496385961; 2596743]);
  ([313872957; 512361605; 321314799; 207924665; 228325938; 510433443; 78796150; 150626882; 1306120], [514522462; 217904703; 407317263; 405477881; 88948250; 317311604; 287786835; 117478232; 2119790]);
  ([344766764; 359817992; 244328370; 69185970; 302439076; 45492640; 324294231; 281833779; 2959556], [512375634; 363626001; 300036860; 333483222; 228063854; 129004606; 291727218; 384763638; 3055873]);
  ([294155357; 27541142; 346413506; 116436610; 273629197; 411392306; 403958824; 447919697; 2100826], [528889262; 109800870; 389630519; 4852568; 379029398; 229790405; 133558249; 325502343; 63128]);
  ([256575833; 27917610; 503199673; 531144752; 210770059; 363006875; 199053795; 495511123; 1939889], [278689691; 370277568; 372107155; 267534499; 146825942; 44049131; 429900771; 176232033; 394724]);
  ([471717503; 215714889; 527251000; 79617943; 341606191; 215811501; 351967706; 383279386; 595799], [161986389; 140164404; 526103284; 138142508; 239863294; 347736859; 83374787; 251288162; 1645236]);
  ([254553920; 210622068; 529781795; 474489400; 403086784; 184353692; 309966109; 80127996; 2405677], [411199927; 138567187; 64635342; 109831996; 504443893; 126253648; 132118719; 487713895; 199169]);
  ([137860980; 132272302; 22433727; 152544144; 460228896; 438802597; 439612415; 325434967; 1803359], [8990700; 321208107; 266858225; 147931313; 266767745; 310437209; 277901323; 183276056; 1205171]);
  ([13426751; 360123935; 49272705; 144971744; 29803846; 369233517; 532763996; 164294362; 113538], [307824675; 95740273; 192153617; 422974944; 249851519; 407437899; 44142845; 426680323; 75130]);
  ([18440337; 63086034; 365481650; 427876716; 134074163; 180486468; 167694231; 50403827; 2966526], [469617497; 136677160; 465097276; 410418424; 253767434; 511736421; 524045876; 423101180; 1997670]);
  ([87191777; 295548920; 245112279; 469901121; 346708293; 236913061; 60704333; 276685159; 1642639], [34058004; 529525004; 65434056; 74235729; 395226817; 178663413; 522935973; 130693590; 2560634]);
  ([86699726; 453446899; 434858272; 79654340; 485999355; 38606499; 430919102; 484402215; 9843], [345650986; 491782797; 155403781; 237951366; 404680921; 12891899; 469217068; 277595697; 820923]);
  ([217531973; 5146541; 302079187; 33666152; 360983210; 68656878; 30482177; 396819774; 1204570], [481494352; 161861023; 235253333; 308525931; 253975593; 135803486; 451038204; 487409167; 2813064]);
  ([7317686; 365639594; 446212378; 405374296; 504287186; 257001120; 527153666; 419334358; 1955645], [470559678; 284971586; 388044492; 17055666; 157337457; 157992143; 523205845; 484799041; 513470]);
  ([111918642; 368004076; 306446007; 380420901; 498123607; 334071657; 423058203; 492510253; 2402028], [208965602; 435840944; 159207573; 445262650; 536442127; 82409854; 159519709; 516112942; 488979]);
  ([99163229; 456369249; 171810838; 27372699; 281263729; 453916172; 447706113; 420067066; 2735684], [144120203; 534419497; 270215980; 361692113; 307875406; 106606927; 526668940; 450434298; 2192643]);
  ([169614427; 134177287; 71302267; 268047102; 440605299; 64691869; 18991669; 86896187; 1713837], [90162188; 291383558; 272031879; 248537852; 319574251; 452790683; 342771788; 295621431; 2547555]);
  ([366377635; 332542872; 238627756; 506438132; 438939599; 187978507; 129470470; 348054145; 2591466], [208221696; 526006717; 61472527; 57103901; 178146977; 13750868; 364947764; 339248668; 712370]);
  ([362524836; 172064380; 338765575; 420990441; 281406311; 151561602; 386507907; 311749268; 2060015], [526927028; 465622341; 370187846; 383991588; 27985824; 490152331; 87456199; 199173601; 1258954]);
  ([179772150; 446554711; 478376669; 99662900; 363561914; 195014944; 289277052; 534295097; 2654897], [466629621; 294332768; 53791866; 260156034; 372016829; 499393802; 251378936; 425873035; 306434]);
  ([71278967; 2216217; 451593295; 274773558; 493357738; 416968025; 30637245; 532107952; 76684], [280715264; 481244186; 483676544; 155694791; 65809719; 141473213; 531870631; 31892959; 791738]);
  ([451644124; 268321852; 414008830; 509512443; 65080587; 527820849; 498299055; 509110678; 486386], [368412496; 455206833; 173881430; 434260562; 233245179; 490110993; 349512672; 236757505; 2934366]);
  ([166170251; 9029312; 131406047; 452088086; 74727350; 209973343; 245435439; 20918925; 587294], [62313210; 237987193; 259643323; 470004085; 518931452; 307890314; 174116226; 511217593; 749229]);
  ([416221144; 359426795; 179236928; 195235229; 182813944; 302776655; 464086419; 111514238; 2644509], [220510975; 424681931; 95159509; 96449208; 94803957; 331497202; 140848181; 424565244; 1661963]);
  ([142172082; 407945796; 232574208; 61569874; 466058256; 443840956; 518219561; 518000682; 2217245], [449462737; 183902864; 232313364; 453687533; 127778588; 452898058; 422262102; 288162381; 1563909]);
  ([365272276; 74149665; 349914893; 265840572; 269174995; 418133005; 382736576; 143505102; 2521161], [297874123; 431609783; 490113622; 168249887; 176769665; 355737677; 266527042; 280508470; 2140232]);
  ([27562419; 235000755; 66069205; 271369750; 33116748; 146374445; 522090225; 516961855; 283228], [463901084; 426035601; 106700708; 133909001; 487619098; 90575634; 53449697; 327847499; 3060261]);
  ([416037698; 113805251; 1769132; 505495816; 237632580; 68976024; 332048504; 114978963; 1395937], [69227415; 156011986; 67508434; 151553424; 108630875; 178399945; 458801117; 130944527; 383726]);
  ([277716897; 195761591; 485796376; 2960309; 168550998; 496619157; 244237497; 34115160; 2331105], [406840953; 296735148; 521966222; 305388541; 369942719; 434580744; 168543829; 417332717; 410675]);
  ([413312448; 425604357; 388604045; 423874795; 259146999; 165240368; 27126208; 231371665; 797158], [214231366; 509887648; 481389412; 228230082; 419837988; 227353635; 324604785; 471348871; 209319]);
  ([485376361; 86586920; 194197032; 190078316; 37037238; 304441072; 524793630; 207256865; 2884103], [456501494; 182160083; 303834676; 40344122; 483644128; 512702191; 223191091; 531692363; 359002]);
  ([219510286; 526918825; 105891111; 125359969; 269289450; 287718407; 206369451; 77555102; 749504], [168605000; 480459523; 423255954; 147706952; 13842698; 361087135; 9364575; 276382970; 2960771]);
  ([216466242; 464295427; 435320082; 394901717; 398580042; 215275304; 332980102; 353451307; 1795899], [287484777; 196541089; 470104868; 416242411; 102790598; 493351578; 321435536; 123352123; 1618062]);
  ([44833713; 7407093; 442195932; 138376883; 168477337; 74943257; 405596410; 260082657; 2024751], [46878599; 221216588; 137183948; 315012910; 488686579; 120884236; 37161786; 196469340; 128589]);
  ([29450741; 182652659; 488935966; 57592565; 410276332; 419858278; 469000503; 175308049; 2559353], [206695685; 428474718; 515778984; 233205122; 404923832; 476549694; 24691089; 230486266; 1734655]);
  ([365870307; 462616441; 213932505; 273406030; 177006575; 439072858; 483071865; 288040003; 1001651], [34943771; 163079971; 90331961; 465197773; 387219146; 400339109; 136192121; 220565149; 949415]);
  ([395758854; 282016261; 196569176; 31196751; 6799691; 243086943; 28145671; 484520149; 1279531], [288100449; 410299822; 120559775; 25035480; 527996006; 222331159; 385698043; 433679754; 2759697]);
  ([516341111; 172601711; 142862014; 467651866; 319154778; 117083826; 510192061; 34763644; 1937321], [420082033; 334745766; 373495898; 317686553; 357832340; 172915381; 260854082; 403121954; 511471]);
  ([505326477; 304027939; 276820844; 207855484; 531182072; 57677728; 246536900; 402753355; 47673], [10820168; 201732958; 114568530; 464022924; 381722751; 155144342; 330966889; 22374044; 2592468]);
  ([245229678; 170204822; 131153587; 142429360; 43452042; 155909390; 358369575; 134069794; 2426246], [265021017; 361001064; 107683824; 72686766; 404985750; 56770388; 428576250; 215696705; 3106824]);
  ([201784643; 355410988; 287882402; 188760398; 33389629; 151460634; 411031309; 463053436; 1419337], [107599663; 51935711; 442060606; 214415032; 162171776; 108922304; 454183553; 112264465; 1257897]);
  ([85534406; 341576571; 359370885; 301580423; 530737741; 283046441; 165228380; 487741092; 810163], [117504630; 415998210; 364395842; 22688533; 62501139; 201618998; 91631794; 305610860; 481587]);
  ([522528282; 423327453; 101508108; 414408561; 268007535; 506037512; 344468030; 326245809; 3039467], [477883497; 153108360; 314173382; 501374224; 354582735; 359831376; 304251087; 113658727; 2333515]);
  ([104689372; 290037874; 66414309; 42655436; 333149597; 410915483; 70451426; 534745099; 325147], [92965635; 457720030; 250746407; 10330376; 470132020; 520822878; 361260847; 305214082; 854085]);
  ([464588343; 394118366; 129969741; 256983044; 331309048; 119382591; 391692819; 275373073; 2196074], [343699464; 168200587; 102424581; 149421321; 430358667; 41244093; 179466548; 295408111; 2161331]);
  ([342950079; 331691467; 156069035; 193431976; 514309236; 233801274; 19116756; 226950782; 2639063], [159760447; 283129388; 431314505; 529554387; 74283551; 18254087; 463686783; 201137202; 290460]);
  ([168584617; 194490241; 339953586; 25813968; 3230230; 407526880; 373110311; 207964126; 1238301], [84955545; 26836760; 298466756; 513930124; 211330495; 164528019; 133336233; 169901940; 1578748]);
  ([497579400; 404658606; 120022676; 310667016; 153184620; 396362650; 202527334; 531222120; 627568], [396487092; 449656627; 409503836; 520725584; 361798491; 421501703; 507440728; 273508432; 146926]);
  ([450553284; 26727495; 410210556; 85704818; 349314891; 274649708; 492993404; 259447311; 2779865], [33883072; 17114469; 448008337; 81916018; 428042431; 342543176; 65942045; 138224588; 1302182]);
  ([236473075; 298542325; 70095712; 494889371; 465605369; 407679967; 363089260; 57160426; 2388607], [203856782; 490772690; 278131279; 6602082; 357495445; 72346415; 147099182; 148808918; 149569]);
  ([536198698; 67934381; 499030713; 327235695; 249961313; 52757985; 302090795; 310264590; 188526], [2568372; 220820973; 61246726; 34081642; 466303165; 24989318; 355849471; 252410883; 45289]);
  ([148641564; 258030503; 344807914; 229999710; 365900621; 182605716; 425713787; 495174991; 1550989], [38807604; 529442054; 102786386; 498527051; 348667845; 497662358; 385141009; 92192161; 1273324]);
  ([151918286; 278139968; 130320741; 138472572; 327624710; 369244998; 87999410; 173346115; 2536460], [166850576; 70219354; 458718665; 501186857; 334314244; 481236575; 332039744; 324176001; 608985]);
  ([64177707; 454492616; 108006322; 393312965; 521154205; 503103987; 382595319; 90771457; 705240], [241477822; 210941258; 147532051; 385194772; 409947034; 230006423; 394413604; 216393778; 330825]);
  ([152014263; 287198984; 478957143; 421287557; 68102018; 180622413; 376869579; 130536828; 2686377], [78650980; 130605350; 154703891; 338707863; 256466525; 89649975; 117384117; 114779770; 675283]);
  ([235310606; 49787000; 208529163; 100918708; 448798401; 148832594; 350695888; 408285734; 447569], [465966867; 506785523; 171458517; 146382947; 134557478; 340487190; 488662887; 313321102; 1507962]);
  ([366664935; 123872814; 221756738; 320253525; 237291085; 106177859; 486533972; 49847924; 2592486], [495712156; 499676546; 154005297; 219922778; 269267467; 454788490; 213066432; 484899631; 2748677]);
  ([533189503; 400950605; 492056121; 70679160; 527433793; 525682333; 531695211; 222701786; 394625], [252330024; 524714246; 230775295; 473262188; 123756859; 65986596; 166589626; 108076107; 316884]);
  ([502656857; 208808124; 56380622; 155248322; 232577305; 270430713; 483339956; 297971084; 140845], [359805216; 383161708; 307390540; 190801500; 351403966; 513652243; 177035723; 288818423; 1658729]);
  ([372106761; 422301671; 506740891; 474533567; 121546204; 500171762; 534245082; 130840579; 1570325], [1332810; 247745036; 241614264; 49373849; 182842628; 256280661; 446869550; 166734472; 2548139]);
  ([398762830; 18156586; 328167878; 319807217; 123524721; 30080371; 185843634; 222817556; 3044518], [487739475; 396809023; 283078650; 46225805; 261298928; 318880528; 40902527; 490226062; 2799260]);
  ([405498517; 181941307; 272709068; 471024430; 403880827; 138142632; 277638437; 474489753; 1161715], [225949704; 483200387; 147117757; 324610696; 457858356; 22068815; 327742792; 462805069; 486723]);
  ([394286423; 242435678; 296402350; 435538987; 435014175; 68095658; 482228969; 39915469; 884288], [438963606; 297230124; 243582691; 425029010; 253970373; 448284098; 13650257; 357274518; 127955]);
  ([284383395; 394622645; 55797252; 497590286; 450361068; 197933770; 281230462; 104163558; 3163927], [107211151; 96319155; 477711859; 55995678; 288351552; 24451224; 38750645; 182676625; 2337679]);
  ([154169612; 75009617; 273336512; 65879542; 280181390; 210068263; 158852630; 297472051; 1761144], [77728284; 293187486; 7953349; 189521581; 461719592; 73577919; 48458164; 458993035; 2106836]);
  ([326158576; 293420474; 283918136; 484082111; 268029505; 196001541; 61666536; 526145689; 901032], [63178120; 358808127; 293696905; 493267988; 338410025; 324195434; 54528190; 510398740; 2995136]);
  ([444098384; 36901142; 483823003; 408285640; 298572362; 478106393; 139240618; 266330121; 2539220], [239997041; 365310496; 21022997; 103884447; 255663840; 484683322; 269121626; 136110654; 2096049]);
  ([267775517; 348885734; 178694280; 501477635; 237737438; 70640408; 422604649; 475524470; 2859418], [495594682; 30716101; 470683658; 174015648; 125391233; 3472256; 501626758; 65083330; 2100034]);
  ([352946254; 410454920; 240467171; 306681921; 6267964; 96549352; 484518559; 417479198; 548466], [71456524; 520231414; 461149896; 11017924; 209491929; 15551446; 420170342; 358352355; 8814]);
  ([409219392; 150114193; 281817457; 254407097; 290623144; 24147346; 446953473; 515878892; 1008914], [105730554; 200334590; 289084141; 346617057; 103126806; 183070116; 163331628; 261045286; 2302774]);
  ([73727227; 523819546; 284391711; 365923479; 394138351; 239162749; 147624834; 343170198; 218765], [466107932; 38174584; 474172935; 353385794; 106356207; 355952073; 448025082; 444618878; 2314760]);
  ([315204921; 121460748; 223305959; 349172186; 5673390; 49281639; 300219549; 347529445; 185576], [252181081; 480079949; 408572048; 98134625; 254661922; 77550212; 461378452; 468542221; 2487897]);
  ([15330454; 131756648; 479925374; 63992580; 269425375; 257911344; 504599801; 259897486; 840523], [81645824; 369118217; 317427497; 91315307; 78377800; 146629507; 43398314; 272651847; 822583]);
  ([375525786; 64810622; 362638618; 204243355; 427250205; 456641716; 448176051; 52274239; 1803194], [346814867; 392246644; 328111887; 456727; 161960650; 414637513; 167804744; 248048326; 2768890]);
  ([416340298; 232825951; 426145658; 220280578; 194089029; 178375137; 339496621; 215465578; 3089597], [284583085; 145614586; 326877592; 46513431; 114816140; 79864411; 496623865; 276130886; 759764]);
  ([223721923; 144874915; 360835817; 264283126; 198077377; 327871786; 35339161; 268944057; 3163624], [112151923; 61414658; 239859555; 84895896; 224574097; 512190217; 440944949; 160856170; 794163]);
  ([3707796; 293022868; 85105471; 347348238; 484237535; 269114542; 98554071; 251283069; 2182999], [317412040; 373382712; 42841803; 272158785; 227128330; 315041247; 175601191; 92053460; 2730473]);
  ([468044527; 431139135; 186713472; 89739155; 405360039; 231135248; 140081488; 340112041; 2715227], [522349772; 360436851; 20788651; 497150673; 45939502; 371538067; 385471092; 368012664; 2856170]);
  ([354009978; 492365944; 143444399; 171614895; 16308061; 251546687; 356838877; 246363013; 1414772], [258455195; 464638142; 212117402; 166500075; 348551348; 62396353; 519984992; 15234920; 2983907]);
  ([55772722; 450846634; 184277947; 162765605; 267158473; 138568734; 518370969; 406275122; 2593912], [145579904; 62425837; 49057326; 3254101; 123903763; 102973337; 163412399; 31063533; 264998]);
  ([313932345; 118593855; 18715892; 465352502; 216112678; 256190629; 279263825; 230431040; 3099128], [451809525; 356138670; 387558893; 256526471; 496934582; 452442342; 357696943; 229851178; 1135586]);
  ([430856287; 248799780; 93983147; 281336182; 317471353; 341144106; 245738499; 253446534; 1362806], [440576228; 416502637; 416239584; 251237842; 461655748; 226859142; 507360928; 444292914; 1702033]);
  ([285982266; 216379451; 5962849; 488021509; 231429423; 520501574; 493598077; 258855312; 1953060], [189914665; 442696291; 132782533; 407648427; 289090893; 402862677; 369786260; 367661088; 1070889]);
  ([492087132; 173860829; 24368060; 92201374; 357587175; 45223576; 141728936; 493093057; 1107288], [401950587; 160966189; 225818175; 104234019; 130871951; 75178269; 153788497; 125888150; 3083977]);
  ([243785306; 87512022; 45476416; 339124500; 336166001; 447370926; 321964369; 467463188; 1451418], [489546916; 4381306; 400178266; 44270949; 214705129; 86707408; 407865428; 79327964; 2996887]);
  ([524793379; 126061798; 201663534; 529103474; 359219332; 383935033; 239277618; 136446192; 2872767], [232214042; 11611799; 380469172; 346602976; 137657424; 444224541; 33831369; 354056140; 2913265]);
  ([319364953; 243077951; 66485721; 404674129; 325687089; 399912727; 441518076; 324775441; 672679], [466892184; 477891837; 218968611; 432174986; 170207382; 215660207; 451857163; 2179351; 397386]);
  ([433267363; 500544045; 240451597; 141702204; 494337103; 234094132; 435471727; 324175031; 1964298], [168316574; 399853508; 532243345; 152561090; 232943150; 269708894; 333211932; 202944457; 3123821]);
  ([271744857; 123782286; 139018812; 384755375; 365042313; 223202311; 518754328; 368423061; 3084654], [212963411; 495411368; 197209687; 495595286; 281855103; 525545262; 269592601; 311280855; 955404]);
  ([433969922; 28807152; 252017072; 48614563; 11828067; 149417847; 408851297; 185502231; 1978766], [142384752; 503054734; 144462053; 80656135; 142152476; 128244777; 494000796; 182912395; 2071138]);
  ([222831756; 54838851; 371743322; 45212920; 237730773; 47414146; 156002067; 52041699; 68110], [372817851; 529461431; 287410693; 233029576; 209907359; 244212392; 420913346; 520018370; 1604581]);
  ([403771637; 285716515; 258961480; 65849485; 520908945; 433819365; 391094602; 324928856; 1735343], [16874573; 310913991; 416945450; 60828541; 86959113; 481799164; 408726295; 524537084; 2869778]);
  ([486551373; 54776834; 397529863; 343357218; 278894821; 371467483; 329795270; 114785456; 564726], [334419051; 441862408; 531749276; 139980420; 347229163; 104882225; 99823709; 429046466; 565869]);
  ([354725471; 249995102; 193306820; 200308948; 298324711; 267297534; 64753661; 80938277; 476264], [409973802; 141087933; 237843573; 30929580; 283925169; 496327951; 107811286; 150795698; 2831795]);
  ([247736643; 189000913; 256088615; 7771147; 504619382; 310263789; 469519506; 354936660; 410897], [426895812; 431875319; 217461139; 356495643; 478553927; 167374065; 181832219; 330758861; 3113301]);
  ([176614790; 482396743; 421933697; 44872729; 466952652; 507736602; 374678585; 41426095; 1874702], [445651841; 221498948; 479311094; 324061900; 155486661; 207727020; 309251416; 486474755; 1456160]);
  ([158373255; 346848845; 270336944; 329577271; 319424418; 96542165; 458621938; 108383742; 2305907], [1942458; 1719150; 157486512; 268466964; 192283918; 503419281; 374543931; 138887803; 601960]);
  ([320580872; 339465373; 485934747; 113224398; 396952951; 214974635; 472569456; 503959241; 79215], [481640521; 384351209; 388330429; 445589883; 203267922; 523004061; 498467292; 268373683; 1388102]);
  ([105067405; 454998185; 309516676; 427293493; 288080076; 249682939; 189648810; 352642026; 650288], [314393134; 467243933; 87490088; 147867022; 431196990; 279286581; 401025969; 473787887; 2210847]);
  ([516339145; 305504748; 97915934; 454432931; 242540434; 428569480; 77365655; 350026555; 896083], [182765527; 212729433; 107863783; 82890491; 296883031; 526620413; 229324969; 270078015; 1977492]);
  ([482795424; 185588850; 492097909; 423890885; 186848694; 500511090; 132875769; 13612041; 3054536], [302152276; 228714713; 159726715; 77546005; 527392913; 167126246; 135527962; 236444329; 917587]);
  ([261587043; 401518945; 140548149; 156053565; 260642782; 383611645; 282104321; 292631767; 1344760], [180957381; 244586091; 529025381; 325900560; 472314272; 214075616; 279934028; 457865115; 652169]);
  ([340532788; 496131861; 133142062; 416367090; 201671065; 56654626; 125785991; 182599269; 1900458], [217547058; 281534182; 197402798; 9901411; 508521986; 508458406; 337488890; 202889967; 1530633]);
  ([288174200; 438730791; 411244100; 126291509; 346473386; 282569093; 203638273; 195939689; 1575467], [246271471; 397893538; 169853470; 525905122; 361889407; 24877666; 148680952; 194015345; 2876769]);
  ([419347390; 254897943; 130465422; 197730221; 195069107; 288863608; 511094362; 107462418; 5453], [259727404; 88827416; 506659323; 135970215; 95507054; 56407355; 222999042; 101193504; 2721528]);
  ([360240373; 305807354; 441102382; 98202555; 405733185; 7862195; 375165595; 204519797; 989634], [322446119; 281186399; 451161699; 360156596; 92092976; 485670006; 115274; 316280542; 54990]);
  ([309829719; 532265252; 93871028; 194679623; 357244339; 189498064; 371175763; 421154496; 2130286], [138021189; 2906975; 261603410; 469330635; 143896830; 88621011; 383359536; 372843178; 579367]);
  ([515193163; 55881913; 209848234; 360755844; 32216671; 326640894; 523049061; 473633156; 1899224], [28178579; 298052420; 434781492; 294318123; 279050743; 84356318; 188229312; 47745937; 2058672])]%uint63.
(** a point of the twist outside the subgroup of order r *)
Definition lstray : lpt * lpt := (([1; 0; 0; 0; 0; 0; 0; 0; 0], [0; 0; 0; 0; 0; 0; 0; 0; 0]), ([87159227; 442251488; 101464682; 451005017; 94706349; 424144321; 30139273; 61501502; 2648337], [232802468; 469527873; 221631558; 419361305; 337148312; 389566665; 136370705; 312990525; 856689]))%uint63.
Definition stray : g2 := ((1, 0),
  (18278151005453108793778860132295291098363647455926340152056652516292830556603,
   5912654199736721486680175016176231956195085055698687135131307249486702594212)).
Definition slopes_stray : list m2 := [
  ([270539867; 193793415; 296672630; 232753651; 416133085; 447134758; 42603557; 384168544; 373604], [461540302; 191108893; 47756242; 378914406; 330516588; 102163788; 180027283; 136542379; 2790076]);
  ([132555202; 439640831; 343914865; 14258740; 201711707; 47600718; 233463751; 67308266; 765130], [43280924; 2754074; 519602675; 480727159; 243600658; 206611360; 270077438; 471139708; 2329121]);
  ([223258180; 353112283; 475348971; 460051842; 149650616; 421651446; 493991019; 527639082; 2640026], [49071620; 437970981; 327624526; 226771356; 348166513; 368559766; 111381850; 369725709; 2537765]);
  ([123956430; 476802308; 185991601; 327396998; 166030024; 354900842; 143645341; 242829783; 566602], [302338682; 213670880; 21974622; 271330448; 150004463; 457802333; 329415786; 470191532; 148644]);
  ([112681012; 123361581; 113633158; 256494206; 257688324; 346161929; 167188188; 190712724; 1954988], [196163514; 526641246; 30725572; 302274119; 268092954; 276764056; 41735203; 315489225; 110190]);
  ([349943377; 382677723; 325577142; 364251016; 445996972; 495155696; 156006690; 10290862; 3044701], [363681792; 420746208; 214835975; 401309588; 120157998; 318105317; 520610563; 174748294; 1950570]);
  ([181345039; 284526978; 173074147; 141220145; 259557942; 239204646; 404675507; 275397515; 801795], [382564309; 300766925; 241450530; 291125852; 292457054; 29671378; 234389072; 527691539; 1166043]);
  ([320531820; 265369015; 412260099; 376908889; 73218988; 346400697; 40313948; 435877294; 1183660], [419159129; 514060788; 28307175; 10839403; 59622834; 144806971; 337944617; 341030028; 2362466]);
  ([375503241; 323662434; 16430766; 217324479; 419488450; 434346641; 250141855; 477474293; 251701], [110518320; 496552986; 163382698; 454481766; 192157140; 201974569; 233893501; 99614709; 282830]);
  ([489036754; 324864061; 86356757; 1860655; 383365654; 519321713; 114983320; 46051812; 962067], [257740105; 67094639; 349556625; 319104206; 437016494; 177036029; 283737272; 136136027; 3045072]);
  ([527939394; 380596662; 301160479; 397392302; 397363342; 127095575; 22671238; 440416593; 2484016], [62861489; 347969740; 407127183; 338649166; 93246611; 392077128; 338133514; 140837845; 1268593]);
  ([294622752; 133740764; 341976133; 406629326; 295945943; 209514537; 72910067; 437396666; 1967752], [486678003; 310797173; 9018619; 433771184; 169472309; 57959091; 253510839; 51460005; 2505375]);
  ([309344714; 400083519; 74365532; 97665404; 361582910; 80411924; 96264622; 280986878; 1129477], [259914023; 237287150; 419875240; 391285631; 90601738; 371231105; 32197884; 68516059; 1788259]);
  ([515022836; 527119611; 150160157; 282791347; 245360181; 439736101; 207206444; 397963295; 847047], [384588940; 184047158; 194723313; 364635030; 141058346; 234544331; 251021156; 473431493; 2807876]);
  ([63934732; 233056861; 200168733; 29326483; 164301260; 81003726; 110868605; 317433093; 1826525], [173044817; 85635249; 476894029; 244407702; 79275056; 27271144; 86862646; 358749225; 2246308]);
  ([58342289; 410215397; 403313946; 334717058; 149734844; 379334676; 122591889; 156936223; 373269], [528745661; 188182689; 70359836; 409269002; 392799880; 411151955; 472522531; 195455933; 3027755]);
  ([369527310; 350521355; 260149597; 395511495; 349438787; 309224605; 432511098; 212011350; 968042], [392568794; 341001255; 277916975; 22854563; 481891760; 261392384; 482718917; 192995391; 487303]);
  ([381985131; 314835052; 274484430; 9587502; 505675231; 73024933; 288268401; 371347738; 1489688], [214750811; 385580487; 536726825; 255252241; 530497928; 20140736; 432264157; 270850310; 664394]);
  ([87884547; 325364731; 521988923; 103665370; 173039629; 158121229; 330798947; 29139693; 624836], [315693555; 149531207; 457689174; 153507946; 393582200; 357632561; 444892927; 363558201; 520710]);
  ([110868895; 334017656; 104280339; 251821845; 535228989; 258137651; 45839362; 507248379; 1098453], [68388465; 450773257; 457839013; 61106099; 332111722; 313129987; 191687596; 316631860; 458310]);
  ([531724203; 370009703; 378840098; 166902556; 258304714; 414267653; 388756592; 446669210; 466476], [267671707; 205984287; 157226511; 208216521; 218003171; 352543054; 50459769; 515001691; 1342123]);
  ([142100686; 157350588; 55040797; 110589652; 521438957; 79617772; 459317355; 402214964; 319611], [300709517; 35702309; 26927293; 313800498; 84856480; 167663907; 8337444; 363087712; 1169971]);
  ([284736945; 242775449; 51207037; 467032637; 497984777; 413741216; 336975422; 149156471; 1261722], [439881556; 104316912; 442035600; 42893826; 315366796; 361366922; 264484013; 354268515; 898044]);
  ([527946154; 520570822; 381046917; 222870663; 515232878; 424885985; 229100160; 139679226; 2482418], [329751382; 196293275; 50282174; 36690576; 244082782; 1135713; 235904796; 253827007; 538508]);
  ([343203080; 303720661; 424491174; 141355799; 309873544; 214988912; 287425093; 497910695; 519188], [395685156; 470309651; 51301194; 470270035; 113589655; 12230051; 399434249; 167179488; 2717400]);
  ([404268528; 379074186; 458610038; 166661146; 221357505; 455398880; 205097196; 358264923; 504521], [139456117; 126685589; 534638948; 154075612; 517567437; 428914863; 453822629; 236731592; 2162239]);
  ([16437720; 36406391; 332514576; 409161842; 238744377; 281446121; 162874811; 77214897; 530499], [9788640; 482845519; 511625837; 531401342; 257166015; 348127178; 254673540; 70387475; 40396]);
  ([203019847; 185082325; 535141606; 534693462; 71236198; 388778289; 530573648; 217999146; 2747761], [509563700; 344836180; 144191482; 234189589; 62607484; 446995799; 237793585; 131334987; 421331]);
  ([108890768; 391270245; 119554379; 428483884; 450791157; 358093248; 32148252; 394845204; 623948], [403367283; 47138144; 52405413; 361914608; 198990486; 28491121; 163790065; 123515042; 2250447]);
  ([404097750; 245805362; 315918841; 65060534; 330296753; 21452826; 282238250; 278101127; 2067445], [499412231; 338326765; 489671452; 154447516; 389522947; 6784557; 390144487; 494067876; 252820]);
  ([227262045; 61041363; 19093591; 60169194; 412399800; 536582505; 154792973; 22975034; 3012241], [442537827; 345863014; 188118022; 523935938; 531930963; 225423245; 461918487; 257230164; 2593650]);
  ([425997483; 136647905; 191546330; 233033188; 53378840; 460099433; 42060922; 508790008; 1923661], [463140719; 1297747; 485013396; 217883830; 24183886; 86507883; 345233702; 135756434; 2329653]);
  ([354405822; 515422543; 364840297; 267328568; 367945859; 265884059; 454186172; 432559447; 2651745], [136066943; 270992332; 416456884; 91731702; 63642923; 395687982; 140322190; 21469589; 2940051]);
  ([313945160; 163190490; 465587191; 257872599; 227951502; 142611255; 133358009; 79281554; 1495523], [296924291; 455659477; 519888574; 369377490; 479852738; 311306961; 448255730; 513120837; 277610]);
  ([423271001; 173322102; 259590803; 26899918; 66042685; 136272315; 116049452; 384113332; 2225390], [143482970; 331705467; 255887210; 325969706; 430600971; 179862691; 31312054; 393744186; 2739204]);
  ([294212472; 43486493; 228721587; 9362390; 16456849; 183838018; 38066212; 392090551; 322782], [504226444; 138961893; 131690343; 176770361; 16146725; 332314538; 261587929; 192083516; 771012]);
  ([444723921; 479815777; 279126819; 331019754; 267428985; 1450917; 473385243; 353949434; 292219], [356090244; 184205700; 285899587; 409685756; 319555178; 395864038; 200077637; 127324673; 1854452]);
  ([451952464; 334185868; 85102469; 210223998; 421723657; 59241562; 146116531; 234728622; 2976784], [7734381; 489256121; 173388867; 465160616; 445812265; 124950173; 383526491; 520585439; 2097246]);
  ([320439743; 115325169; 478913936; 498446262; 439247210; 168936897; 188984410; 377558389; 1178683], [153098534; 273492186; 475479385; 173437550; 353868257; 201402246; 124604049; 318375716; 83888]);
  ([291652729; 129361949; 390509193; 147696017; 254468278; 397178656; 148451119; 438071551; 742808], [279761728; 388974158; 511564374; 443666021; 421715858; 399575260; 227631947; 100494849; 694750]);
  ([21944720; 169014957; 246011328; 447472329; 159036868; 370885158; 67601493; 486526208; 682379], [507989644; 535215520; 259596205; 120746849; 182914142; 300675693; 84047075; 297917355; 1677369]);
  ([228638642; 35565053; 107365151; 323914931; 352354135; 65949566; 83871780; 100473959; 1339334], [393335198; 48228539; 411744897; 335340334; 46267577; 12109936; 364756003; 459956409; 636798]);
  ([114286571; 470753979; 197398617; 350688725; 127257930; 124459036; 66836314; 254860907; 497079], [91927551; 109795955; 335665484; 525746409; 123804145; 69621739; 394621491; 63786668; 235987]);
  ([89832558; 187451925; 353993980; 159560149; 102165108; 243539566; 283660704; 5665957; 913285], [408442639; 398853584; 399524426; 374795017; 234300416; 155505191; 341287732; 292897951; 2091998]);
  ([137575688; 306774039; 278590438; 139683288; 206743283; 158230683; 420456559; 482693613; 2640497], [453553396; 267857045; 140464834; 447977098; 309312275; 313269099; 196549386; 48357555; 1955504]);
  ([394057614; 417292508; 320368492; 59699965; 417672443; 128907385; 26376129; 443230117; 843355], [466102742; 460634253; 266733243; 359337289; 431033805; 251924063; 419880972; 513984676; 2601426]);
  ([263267564; 383146860; 254871806; 132661504; 23035534; 360402804; 249562079; 360077648; 3112069], [385251089; 117178171; 413122467; 516005277; 480870927; 415827778; 36229896; 370298930; 930662]);
  ([275733161; 36766124; 332629661; 453567918; 210851671; 259023993; 260373618; 271634843; 2901298], [3116389; 326215567; 378425852; 448461117; 310393322; 137937524; 117020882; 324047156; 1021388]);
  ([359733172; 244112834; 205696750; 37974820; 26032872; 327973527; 293063070; 516158583; 2656318], [26780691; 425663323; 365030875; 498074524; 114565441; 416957023; 429232662; 93920137; 1838721]);
  ([247747027; 361547373; 464124483; 95320794; 231331989; 71348629; 405242995; 80369602; 2232481], [25198707; 208372775; 495140662; 312271520; 184538188; 469461076; 148031961; 251691930; 2688058]);
  ([256561507; 421199977; 152084544; 59401692; 533578000; 308226424; 91381338; 239104100; 185272], [471921127; 245436305; 53165224; 59650388; 152803442; 101291661; 469601244; 268568140; 867516]);
  ([442345005; 491230451; 198046669; 218233308; 193769138; 293888303; 3798413; 343937724; 2398882], [297655459; 421241866; 331301426; 471580332; 363614073; 153946083; 22977675; 174734874; 1534276]);
  ([164710742; 372092205; 172693843; 104953012; 525962278; 532502178; 527316389; 282505880; 255209], [159857815; 224892079; 302848650; 482068725; 369897435; 354646915; 217312074; 389072739; 2567217]);
  ([456164981; 260443556; 106086293; 75869233; 442149471; 465425015; 354982771; 19880744; 1101588], [93438722; 269091620; 81757038; 31567028; 386076537; 467141293; 60714370; 441895834; 1856064]);
  ([476514481; 207748665; 187142271; 23341103; 529891822; 242715331; 426214868; 484358832; 895038], [54799452; 444078090; 90760109; 440833755; 71564589; 90010473; 503132566; 33220192; 2023125]);
  ([378942390; 492494364; 306350233; 457188861; 455590340; 141636640; 357581894; 124351808; 312030], [32185565; 203566259; 396411274; 129137885; 285747186; 155161243; 85843469; 163577641; 388478]);
  ([151978137; 502300829; 458983464; 314907682; 52781753; 58250428; 491214987; 159813859; 2533956], [364040296; 224649846; 375638888; 105978302; 3293805; 500994012; 271544049; 5408115; 2285766]);
  ([369670755; 386203316; 429415963; 415156357; 130468792; 383406942; 390239612; 359389813; 2254041], [138734769; 39600587; 192191341; 178230194; 271648703; 311753454; 439785221; 305642441; 2525464]);
  ([396884757; 110920964; 138039223; 373534833; 77245926; 325097029; 143946914; 311507259; 22503], [6620636; 151798524; 365085622; 177350308; 353622059; 419802118; 351488874; 214721740; 1553465]);
  ([370322872; 220637180; 454600113; 436195681; 126710762; 207142083; 385991457; 42087260; 359199], [120617708; 480900372; 52607089; 100829726; 39634435; 17080363; 196809238; 405961859; 2894793]);
  ([138888436; 173074217; 459837923; 113628865; 316164736; 270014274; 216097634; 343023365; 1073767], [132703516; 463699079; 298607636; 108039039; 181291149; 447524197; 139123105; 230384043; 482734]);
  ([310304078; 182082554; 108531962; 492489456; 365510810; 71496696; 111003669; 390173959; 657930], [236967918; 23017354; 198727414; 24949199; 478653852; 328776937; 141371865; 474862198; 1822826]);
  ([9153668; 481796987; 224779869; 437860186; 229601379; 454314861; 154267585; 6356056; 218687], [285855695; 494282953; 128053561; 324769936; 230871322; 501571869; 227557167; 76215661; 934985]);
  ([150614365; 50968568; 434965770; 507676089; 407878628; 525959744; 137430048; 524265217; 1548493], [20923362; 74595141; 446834957; 230708842; 282922162; 218947304; 414135901; 94334549; 2040741]);
  ([15364172; 406561275; 114025036; 484317533; 232390854; 137060866; 465855060; 422159376; 2292988], [32360527; 319851843; 57722799; 478447942; 394548980; 163138726; 340529714; 341456492; 3108217]);
  ([195771127; 278429713; 461549406; 303073381; 378516779; 105340783; 141379628; 438150314; 2122558], [11798589; 65207755; 266140913; 369491943; 492599023; 499697244; 373572262; 141275316; 2824012]);
  ([520111260; 514814524; 442905506; 362271402; 318227862; 350446867; 30405414; 129103087; 545670], [25471451; 294027929; 491133516; 450801573; 205079162; 474833992; 365158180; 229974935; 240353]);
  ([20585434; 521134169; 9132617; 188856845; 85592729; 495763910; 533705675; 456671728; 690403], [235341885; 529276953; 307816681; 268260331; 271295252; 229699708; 481805040; 337450399; 410992]);
  ([189054001; 103271696; 234571128; 394113337; 306673914; 385695131; 382452825; 440170311; 1171172], [386119024; 308509928; 94147491; 298733487; 430052908; 134756357; 42712773; 61113495; 1675186]);
  ([259452201; 230499833; 383616170; 287664818; 235403491; 2479554; 529526649; 437601376; 1127224], [290626716; 53240649; 248077228; 186207633; 259651049; 35644622; 384327020; 267281085; 1064081]);
  ([89579305; 503772785; 135554047; 257027154; 508581357; 454776445; 470058312; 190060454; 3019061], [240516119; 505399628; 458849464; 122193260; 294706513; 364069137; 371374704; 1254304; 2587874]);
  ([355960334; 740008; 39260955; 14559932; 102759930; 106680178; 203541987; 223246941; 1468605], [342225239; 366723975; 162571601; 442273576; 53233302; 367996716; 6680392; 226147749; 1068701]);
  ([142359432; 118833481; 375445994; 256125117; 97180225; 183176818; 66380001; 346716107; 2045995], [433013996; 488822677; 481744107; 23716276; 416366685; 176396664; 427610305; 124285318; 1966784]);
  ([495386782; 45694647; 327634851; 487043347; 61780741; 190087124; 460024646; 513012239; 600766], [441500666; 508058990; 16536683; 60167304; 396093816; 339339763; 169918244; 2928299; 363675]);
  ([113877756; 90300058; 230883271; 397137462; 442075918; 274332073; 320582752; 271886931; 1220346], [216931305; 315708097; 179170601; 442902066; 158564678; 316332708; 441865685; 57948713; 274572]);
  ([58114094; 276028949; 48205568; 158888959; 358236905; 105512159; 443572470; 506784979; 1878782], [134877493; 169115973; 61095209; 321620807; 412495188; 480563172; 465630534; 267075645; 395403]);
  ([510268842; 535491532; 249820173; 310407227; 530534325; 296659401; 447026059; 459408686; 1632111], [262056680; 222023195; 416324341; 372939373; 455777647; 258635544; 332362213; 528264178; 2751622]);
  ([499775740; 442860456; 456040209; 344087114; 285114481; 333112955; 446315101; 307252173; 673667], [422365751; 67166497; 341840318; 449589655; 156457888; 33385224; 108948440; 106197555; 3113339]);
  ([10209030; 416768187; 170911697; 361434403; 122885712; 449183006; 388157792; 201008344; 484305], [147774417; 401379818; 127205374; 453175538; 301286087; 150761296; 232344228; 468044844; 570908]);
  ([188745788; 237466653; 140124514; 230226002; 453573187; 456129776; 152975119; 465887145; 2547816], [529958405; 298844868; 275280064; 412940987; 131630592; 424331106; 124113310; 253680391; 829715]);
  ([214332981; 305259820; 466314507; 64142240; 158209056; 19854953; 262762156; 426008510; 695769], [452482302; 231747307; 244422922; 415879853; 497428943; 161446929; 44327033; 527498783; 656770]);
  ([475784385; 528248539; 528955273; 307953787; 286063043; 463580227; 118969672; 20046921; 722930], [332321227; 291960186; 291270542; 227733104; 477034481; 138442927; 472534485; 217375621; 2218030]);
  ([348751475; 114667208; 327509360; 199145585; 398857960; 188856714; 120276650; 251579458; 1356707], [281823252; 432039602; 198756840; 107357300; 336641097; 241078506; 122898335; 164641117; 1567751]);
  ([440521613; 205115989; 244751214; 172296415; 73315341; 325718099; 490549553; 392065309; 2831931], [497765240; 91160811; 57308156; 172348823; 235647900; 423947259; 256934120; 412712693; 669670]);
  ([77300158; 159837609; 453458321; 42050988; 102845009; 463377466; 197223785; 95222406; 1671378], [125905114; 348405518; 299498036; 460036215; 274772104; 329158155; 495991051; 281403852; 1324708]);
  ([69799366; 467956734; 138705194; 254351852; 508113445; 341350399; 101976584; 73636133; 79198], [258053738; 400837391; 272504286; 520244356; 372540531; 251750548; 25796539; 398554380; 2735817]);
  ([198504195; 41027860; 280270923; 216320799; 126686859; 510537911; 380433591; 187395317; 1063212], [292611362; 260238817; 327200837; 214107886; 313157965; 117771027; 533460637; 308683202; 2429754]);
  ([484229527; 172020034; 246942712; 216590450; 21184904; 244710141; 344493589; 383425091; 2673889], [426108139; 311063659; 223618682; 228329487; 120173374; 516688848; 232983279; 497299839; 854007]);
  ([22891875; 95734251; 127117257; 218490298; 123901808; 303112107; 297998548; 432793899; 719692], [117335067; 430490564; 321077420; 130431167; 431741433; 189834413; 25312791; 524911741; 559752]);
  ([444121944; 112723993; 535347952; 114260336; 484967147; 490310041; 463719444; 90015900; 2893699], [379495573; 398724286; 25192584; 221665190; 364530586; 138559941; 311603212; 106934985; 300422]);
  ([122758286; 49649296; 160527773; 334003028; 218341503; 90807741; 288616018; 146363785; 620144], [169722560; 310550372; 504383274; 429815153; 258731486; 171634904; 276084168; 533283878; 2913037]);
  ([373145972; 279470770; 485051872; 93585800; 419553795; 69546503; 226532203; 401678051; 2842005], [340174864; 315533591; 425831891; 433182130; 396952922; 353183295; 55157652; 403516576; 1828186]);
  ([132565974; 175285313; 505655436; 193579608; 346078282; 17254858; 466048901; 244036405; 1019936], [296634680; 413003410; 355711165; 206447096; 491599512; 152182492; 447761819; 442560876; 1536943]);
  ([163974197; 482219195; 334433813; 237749510; 143740105; 15200735; 2675098; 354351774; 2119265], [409830804; 488033310; 511781022; 283886266; 535646467; 189859967; 232328125; 514341723; 408050]);
  ([504981343; 297539135; 494132078; 187461028; 344491472; 521317334; 117910063; 487484729; 3155492], [112662335; 30675139; 384721621; 32447902; 536762150; 194780344; 470232329; 507847119; 146512]);
  ([298260457; 4022631; 358820040; 300469317; 277471176; 406776651; 474374117; 127853469; 321938], [52036426; 181453634; 103865126; 144175258; 46049070; 101893323; 66252038; 366249217; 1164231]);
  ([312121783; 151146337; 112540047; 313706439; 219789408; 258570204; 522218066; 470294371; 421838], [349001774; 220197286; 432319125; 127104070; 398084388; 144811316; 145307552; 396844217; 93503]);
  ([273825160; 404827193; 6554720; 419969328; 197310823; 164778211; 435675620; 97651522; 1420383], [198442252; 438597024; 219373165; 395321482; 300124309; 90020390; 156621245; 387343700; 2041312]);
  ([1694053; 329139056; 48169903; 111670292; 343485484; 211352891; 386924827; 413438854; 1677992], [168285314; 272679555; 466656963; 122889433; 117390983; 183257509; 464748845; 357018310; 186528]);
  ([181807990; 310453670; 480038573; 9679750; 33244112; 497272206; 83349828; 183895503; 3092392], [114783144; 329401865; 154171287; 286786065; 427245781; 312536849; 150011353; 514591549; 3034455]);
  ([224550090; 118019382; 119139948; 59737899; 364261276; 137974905; 378880622; 484765840; 1621127], [185032622; 382504495; 106240507; 266531218; 242003554; 469020599; 301091979; 308883905; 1087462]);
  ([122492507; 381682703; 435909814; 265548533; 49149307; 361558440; 367615035; 396592727; 1512550], [170374815; 8780212; 56373068; 27790161; 18007330; 121779428; 403982518; 202019226; 2610029]);
  ([43048918; 477525490; 147689204; 221774268; 49112586; 312759735; 242772001; 466365509; 2083246], [524795518; 56186290; 515347033; 136900424; 334673765; 377785506; 425127100; 292693241; 1500609]);
  ([196145167; 231662779; 294664772; 177095228; 323635068; 178302913; 390796959; 506661396; 2930997], [1844027; 395259703; 446232612; 212324355; 341333687; 355113689; 80858868; 36787144; 51599]);
  ([162166785; 228587981; 449056247; 390109082; 70080648; 287236869; 230398530; 58192467; 1280675], [344096908; 324084879; 366998160; 269702539; 521620295; 438637578; 195002529; 444985734; 798465]);
  ([10346904; 429376516; 456759392; 401293704; 228207199; 282815593; 420155237; 66312309; 1723150], [316810176; 34491593; 182547204; 234563525; 237153063; 50820534; 403692702; 500481999; 253623]);
  ([477440320; 345080080; 419924703; 144992192; 509570686; 77964012; 408151732; 208330654; 2998144], [299899140; 516063099; 313735225; 18528421; 334958222; 525156120; 420400788; 31916168; 2677910]);
  ([11540096; 464867753; 512994737; 55083485; 22102235; 424802229; 416699288; 207665089; 1573431], [237906818; 461583815; 268862961; 258785932; 241377638; 459031591; 339818343; 358336327; 822580]);
  ([243227112; 158749720; 415109134; 347114516; 169167073; 122282094; 115415829; 384166228; 2595387], [157179536; 259333834; 135276858; 452942213; 226750919; 244532067; 498793843; 256401009; 1156187]);
  ([326758856; 499590451; 322179293; 264653737; 492638712; 210573865; 336219746; 425907372; 1595552], [159934256; 128265168; 52518877; 261432730; 375425892; 374612332; 434935993; 519788142; 1413741]);
  ([260322260; 20863507; 344859097; 124322922; 309405758; 15573302; 403118505; 174767282; 2723640], [80402952; 237716170; 503857285; 211504811; 118600264; 510937599; 507905826; 417727476; 1838076]);
  ([68834924; 387704802; 518214435; 102030600; 17711833; 217311839; 49286588; 253727526; 1781057], [526498153; 470176255; 362896533; 256881561; 2784797; 238096385; 242139928; 325929452; 2388455]);
  ([505903567; 476866934; 308519675; 512011473; 253488205; 226817576; 341337511; 264727008; 678962], [181467010; 384005593; 149710697; 105343579; 137553527; 323336145; 385717025; 257705510; 3041778]);
  ([332033325; 184473060; 194212435; 155807585; 302267076; 290420315; 42900683; 376999503; 1627721], [481665254; 351251437; 155469407; 269127479; 526964428; 486510370; 325271289; 236228663; 2688765]);
  ([219172842; 328538617; 359391144; 70175001; 198777662; 182664041; 54965033; 141413197; 300164], [443651648; 495581599; 367145659; 281383443; 380339673; 4790469; 97418450; 329604135; 2886444]);
  ([232540254; 512800449; 344855762; 84930578; 386953681; 273129793; 330124087; 298895545; 1190457], [350365791; 296596292; 134057769; 244810083; 217087527; 301585194; 213477052; 138416544; 980908]);
  ([29348766; 213435020; 266831132; 461784207; 266306023; 69435207; 412307315; 28598066; 2115078], [39461799; 219270430; 6803329; 297551139; 153664596; 319911877; 246926790; 519455659; 2386597]);
  ([281034423; 460793973; 471446144; 35912992; 493373597; 104276663; 156419487; 251972922; 1019650], [501099663; 150743628; 192939284; 221328547; 470238031; 523584300; 387036106; 365124878; 2743173]);
  ([532192387; 119835258; 261503098; 98560641; 21789087; 418816696; 129403395; 229798108; 89368], [260289684; 386600236; 93725538; 299222029; 201614873; 361270543; 417664063; 59877271; 1642637]);
  ([458852479; 134860839; 24344519; 22163926; 111861718; 84284968; 117894076; 112886783; 1117551], [529999300; 285508576; 121531836; 295489108; 8566193; 422337143; 372306691; 172594498; 810985]);
  ([1643408; 331623669; 530634782; 7788470; 128889626; 176304550; 496736576; 362258190; 795780], [275527748; 302195123; 346153799; 150715831; 130619726; 268863646; 3642868; 154627826; 784370]);
  ([380892766; 6672249; 229412625; 362506493; 522393053; 121992645; 136936780; 12986596; 887442], [339391759; 110125666; 342605341; 247967293; 289789356; 355096039; 26545638; 438515259; 74399]);
  ([8580477; 104537604; 203502219; 251079604; 227469277; 323557724; 41841925; 138567573; 2608772], [490961263; 517025749; 128743509; 293029015; 480044892; 91773550; 230924618; 140137213; 140090]);
  ([415007324; 356200889; 299775183; 290309218; 138305079; 329632125; 209367043; 407146958; 1412945], [193089695; 221143814; 520875803; 79399774; 27477880; 345284697; 431272540; 330939710; 1972493]);
  ([46420845; 119459035; 432690681; 504841601; 268973760; 220435638; 224216164; 496784480; 363294], [291882401; 458128707; 354981125; 371727596; 371210319; 524688675; 439260660; 11455775; 2909147]);
  ([410092690; 299530931; 366105389; 163966024; 16509307; 161718902; 344932221; 344952394; 183502], [288842839; 150965629; 511364586; 381729244; 278980652; 267019074; 264825369; 514044377; 270482]);
  ([371163620; 259457263; 28638804; 371364704; 57740453; 94958396; 244295926; 39640751; 2202747], [424159888; 514568895; 112000688; 200294457; 453412746; 313615552; 513783669; 440404699; 617599]);
  ([195054105; 301623225; 536045127; 312480737; 127183863; 202103376; 209281784; 79547212; 20363], [359182933; 451208896; 348167472; 74498668; 462016472; 133296940; 342920638; 90588471; 631794]);
  ([93332260; 361592106; 478228176; 455334413; 471221701; 466263692; 20314807; 508942754; 1612697], [228035599; 232519074; 414466799; 467272300; 405705700; 309353859; 390913025; 235633343; 2280945]);
  ([309493702; 322203847; 493699590; 468891335; 22236470; 472262367; 300821187; 13428268; 2010165], [24571363; 410321529; 461739717; 56425711; 19099053; 159875172; 392228691; 492575912; 2154982]);
  ([522455821; 356736988; 203187467; 89622454; 35074233; 399047711; 176378221; 289725066; 1623153], [120828012; 204264315; 266597744; 214460804; 338283107; 224303546; 391094887; 190205903; 1094417]);
  ([531941985; 170562100; 274672258; 181416513; 150658601; 515989603; 212251267; 204837060; 1779256], [284523411; 98005806; 230604758; 87647035; 508113665; 377852076; 475683544; 12228727; 2995817]);
  ([160200607; 231107569; 260875578; 59640761; 27726606; 519516317; 410262536; 159050132; 1548797], [370820148; 460589334; 527257575; 29568012; 293953706; 269886204; 320985214; 17718582; 2202224]);
  ([72755921; 485592025; 102988212; 480647376; 72066841; 145793913; 39308390; 7214797; 1264702], [235663945; 363660094; 458669508; 495899803; 307575139; 178458462; 528564253; 181134581; 149178]);
  ([376099507; 498136751; 377962553; 217732484; 70290300; 420996386; 190937694; 172205744; 1197155], [344939820; 276336680; 279737547; 200920938; 248325592; 193257690; 1773988; 129489029; 1577863]);
  ([505976990; 158948613; 188431910; 512857442; 5393339; 337778683; 441448369; 388723397; 466711], [476954508; 144869677; 72929857; 54730326; 480887858; 349637706; 244796067; 387702249; 2503559]);
  ([353795559; 182011320; 215405987; 314015834; 288219162; 350126134; 276924814; 379433601; 2188434], [354248655; 419973344; 207130459; 480526720; 184024803; 378305874; 356939718; 394921823; 1597591]);
  ([34076323; 470903385; 531947828; 270754903; 154839870; 291703211; 164037951; 48771491; 1714535], [348474009; 534197929; 153847152; 225225591; 9609536; 464215032; 142978623; 378848860; 2438560]);
  ([374183084; 278303658; 38303666; 176017716; 123240327; 174519307; 142816002; 329141990; 744432], [241969842; 186023569; 417519982; 233068184; 399179767; 67518534; 282681534; 330768411; 1670548]);
  ([246334249; 301376695; 281536619; 482457748; 147503338; 367194161; 493768251; 97081715; 1301497], [534360939; 523840772; 51370613; 238554674; 315875410; 64329376; 178327704; 394640196; 1062014]);
  ([316059219; 396027448; 99033147; 485499851; 178440300; 36626822; 256262574; 391636568; 2211641], [211238317; 188732975; 95303219; 381734883; 418380520; 42408059; 276887670; 251861129; 2425517]);
  ([295724663; 485296148; 156713553; 476449424; 78992574; 444683327; 418184671; 88055859; 1997994], [351333448; 88070560; 153935122; 322094485; 51262957; 381353529; 152778935; 402708859; 2951701]);
  ([405211085; 121332241; 314644349; 54626599; 490951495; 229776073; 405922919; 355104828; 1224739], [532749706; 436636963; 411545837; 18085174; 82225914; 239943611; 381475861; 451851894; 824142]);
  ([433450897; 175785925; 6196277; 108355002; 368572843; 449688787; 390105959; 382785156; 1725796], [531248422; 388767475; 424265101; 100088608; 64546346; 157593347; 130511835; 289727574; 2493284]);
  ([113401310; 472953851; 308026271; 525768521; 61698455; 80632630; 318824524; 47610840; 483498], [58786347; 468076965; 115838829; 113634899; 348522443; 63103272; 65075119; 306966561; 2963557]);
  ([106331378; 260724865; 477705416; 147036651; 185079582; 352618703; 34123791; 66281371; 1065200], [97161617; 263477322; 440029911; 139617975; 268821656; 206729346; 444724397; 488138304; 3094393]);
  ([409333723; 168332636; 282318591; 99654700; 7131832; 76044005; 486212564; 399232319; 1567969], [84913463; 89691644; 298134793; 226592742; 64057457; 88155737; 83010665; 187585488; 803301]);
  ([383134154; 476333580; 109549884; 129172170; 50960974; 368156662; 222110054; 161698426; 2713777], [373862985; 136011386; 53402546; 535367357; 44189953; 311841732; 184770052; 385966414; 2229667]);
  ([439200451; 208156861; 182739544; 481131753; 94122670; 335519770; 232440141; 453329109; 2806156], [2427830; 272674966; 92939726; 523872419; 23167524; 12426096; 385154347; 263053525; 1211638]);
  ([59636569; 1330029; 275611530; 469206248; 119595121; 42983086; 531689633; 156831892; 2839454], [93377562; 449832886; 106856392; 396404830; 187897199; 141313095; 84775634; 398831127; 1981395]);
  ([288735313; 206399449; 350338038; 309674559; 182771108; 179339506; 211676509; 520422885; 2704482], [498225185; 335276093; 318700365; 94537737; 487208709; 242802201; 355258608; 287264697; 355492]);
  ([36397260; 181706866; 388759066; 31362248; 152271290; 480810461; 346695502; 63762414; 1182226], [316454296; 291735067; 478625337; 343447655; 411715665; 392336939; 445506072; 206312476; 476885]);
  ([327978051; 506609310; 243218453; 411138262; 29314746; 523795721; 462702260; 47613729; 1400271], [308587925; 5001413; 13243756; 187647926; 380647167; 16112994; 273654112; 109084557; 1438600]);
  ([14045228; 209015870; 231957577; 109407937; 283565517; 189504157; 486069404; 145268600; 2290753], [427436766; 329465785; 120106347; 340368205; 350700616; 446817116; 206266835; 520389282; 1479040]);
  ([367255945; 223943335; 311803227; 184443797; 369388171; 160070684; 440397087; 277399614; 2894425], [353565107; 14714652; 516105646; 284967632; 129692002; 236779555; 2178197; 219256587; 3141719]);
  ([20071242; 282738147; 331333682; 327010510; 486316936; 187774534; 388799854; 132277797; 74662], [434866693; 11946754; 226484459; 294548614; 14206006; 108723298; 20416093; 392444844; 2040239]);
  ([16817139; 457117627; 318370496; 196672776; 85827729; 95488754; 511122068; 123327140; 2537608], [510356314; 230759158; 72026268; 16482993; 510924772; 260673338; 336646395; 45810012; 2204003]);
  ([369859002; 202510960; 292668750; 125989740; 250927635; 233055109; 372021548; 446961149; 770404], [436807721; 510775087; 401022988; 8787839; 369599825; 259282927; 152648474; 283271686; 767842]);
  ([8850429; 73590163; 136363621; 352982628; 489183205; 483904367; 507207874; 4016383; 68392], [427974878; 330436297; 492374815; 367624022; 42144316; 299030672; 83721869; 481862630; 1167093]);
  ([416441790; 81068709; 130500587; 4067871; 109177754; 325582707; 51699806; 91167154; 1082931], [220620013; 349601558; 19096929; 218934953; 279187289; 470290322; 137896155; 370542357; 389523]);
  ([484766049; 84935659; 54682022; 254293681; 54752578; 414051718; 295824746; 36564748; 124381], [108141630; 63184850; 160713672; 332737955; 439855308; 118441664; 58606675; 389883970; 373084]);
  ([70602280; 97757309; 126196357; 366922629; 223736644; 482522593; 486539163; 73857725; 1785129], [487192332; 452753663; 381855064; 232788221; 447206487; 7839258; 275288166; 124387213; 761307]);
  ([228517932; 371174029; 254278938; 451806991; 137079883; 70709791; 147747506; 250137980; 2395279], [316339208; 278443937; 35707386; 147965260; 435637828; 52157639; 249651079; 77971156; 1003603]);
  ([418289101; 4361943; 519082116; 19212007; 508503652; 521432010; 190975599; 193221574; 275105], [473801024; 321590450; 74751511; 58390594; 233190277; 399446861; 25579119; 95100161; 2783721]);
  ([529894242; 131222703; 23838929; 28797362; 425687545; 868249; 424052783; 533971458; 2425054], [462263783; 234566128; 378818658; 161405072; 267321313; 429101703; 23439933; 31955693; 2375066]);
  ([241603948; 342721762; 299861540; 325916928; 342891216; 281888673; 225222820; 505551299; 2281755], [117828325; 237042780; 453727439; 140475707; 467693450; 160083286; 393940341; 491196566; 2332293]);
  ([30588427; 325972813; 452645744; 415721988; 342037967; 74018012; 465898036; 502504786; 581066], [185758937; 505250277; 448398478; 166761729; 336168708; 461940515; 321369855; 122463002; 2548003]);
  ([43351166; 441721946; 190844984; 350468104; 298690638; 232057100; 12244081; 149105707; 2787205], [136747284; 99333366; 408277341; 170059302; 239252625; 307795689; 211608010; 113709025; 2588267]);
  ([243849961; 516372759; 487810327; 377108652; 126340679; 298788181; 413152000; 63908128; 817497], [98143765; 207932240; 529270939; 76461899; 31395593; 14631298; 302731344; 246659435; 2648320]);
  ([279728781; 38525273; 273127913; 403127529; 45161455; 158088074; 511352393; 81235468; 1700457], [393761589; 256814973; 370290329; 378400791; 527444579; 488627520; 283678835; 115181116; 3058087]);
  ([493447386; 119645100; 507046237; 223518181; 368830804; 216572311; 431892214; 289247663; 1160527], [525311035; 212845039; 252139414; 103160519; 222358224; 286272167; 271882480; 187454925; 2403013]);
  ([481866922; 297950728; 310156585; 290548667; 486272624; 122277373; 267938827; 471615856; 3008292], [453474006; 532181277; 366334424; 372225991; 440212724; 423497725; 152328926; 147293922; 2343919]);
  ([514730532; 414742266; 34617126; 430177280; 434103529; 423276738; 271202748; 504762963; 2480366], [353065189; 101788682; 140254138; 190097390; 70483336; 440394060; 383292170; 113806028; 1525423]);
  ([110031125; 198050233; 345489879; 67216476; 257004084; 143864741; 180232013; 118493751; 463354], [214685395; 93244703; 444323407; 400160680; 233167792; 57802848; 162232786; 347871162; 3000750]);
  ([336580217; 78337937; 19755145; 37962676; 261201124; 161058902; 426147450; 133202352; 2294108], [360099391; 24027904; 200733150; 337849139; 136538088; 440217848; 170107572; 381061647; 2895352]);
  ([25533048; 441861531; 111423090; 244809856; 446781129; 103386343; 354990325; 343378686; 1152608], [114444193; 465636393; 281741286; 513220152; 401555524; 528699832; 215745420; 62160926; 1276068]);
  ([349812103; 308809654; 115085749; 365177381; 393614654; 468253493; 67858654; 479384974; 1935843], [352419037; 62869351; 387200113; 465349404; 263362925; 468535212; 244946526; 349893513; 1205286]);
  ([195317367; 193224799; 238339737; 232922047; 363347248; 490482025; 201791372; 273853565; 2520808], [113117422; 389731360; 410731704; 453430263; 245785619; 120522381; 347401734; 129022269; 1016943]);
  ([158535250; 471638352; 284141099; 534843380; 501298650; 163019407; 163845383; 444387496; 1747798], [179549292; 226583459; 193133479; 28606582; 20756542; 216232418; 85056161; 328172469; 2145969]);
  ([245626137; 535231557; 24503893; 353530474; 397686059; 343387165; 410750915; 504537985; 1542427], [391738669; 517912611; 461793108; 430067978; 111064093; 492686917; 356216663; 328167015; 2495489]);
  ([487362611; 514960156; 116845300; 337481239; 481208933; 84292428; 524818024; 476610624; 784028], [448836645; 502977124; 265228105; 317612481; 145839455; 90070656; 445619960; 519075605; 2334511]);
  ([504866925; 486521843; 335142999; 228347339; 408641355; 186142439; 75685994; 83127990; 3096468], [393674798; 181661809; 229998278; 217622743; 179161117; 220235903; 173480591; 328254659; 2395284]);
  ([250627469; 162360652; 313284175; 81299909; 308810726; 427074228; 466263392; 533815544; 695645], [29779616; 74554602; 489065002; 504101941; 429618520; 485485531; 298755415; 458422213; 426639]);
  ([433915277; 462213405; 289490726; 354897372; 272536909; 88273336; 473214098; 345338179; 828860], [415065468; 488908021; 367618544; 294040423; 362675164; 497894298; 197594345; 116924517; 1220530]);
  ([7937211; 412766464; 443692668; 58604906; 214604535; 299896584; 40316889; 405718701; 2930160], [194448440; 353636161; 490471297; 527309309; 251050633; 471830092; 378892027; 196308367; 7115]);
  ([509526448; 242526424; 221484521; 191696415; 389991040; 147471519; 428521533; 308378622; 683817], [353412908; 421776051; 53703062; 47773708; 13562136; 417362695; 266896583; 112319777; 2897260]);
  ([254855058; 301007104; 13873515; 142333617; 312486327; 499939226; 393591243; 490836840; 2806157], [313368444; 131049024; 325643898; 67791612; 455405368; 415691142; 113737794; 295234664; 2644153]);
  ([209321304; 481306747; 159597979; 399911752; 284037008; 114495126; 176259406; 263422956; 1203093], [116591197; 396839239; 368511403; 125400062; 482236339; 77324530; 198170107; 45895121; 1688100]);
  ([212904412; 444651923; 26186930; 337218445; 338489495; 245681835; 171301285; 251707122; 60197], [190352565; 146386100; 44513656; 256155895; 514169134; 77245788; 497717900; 170983242; 1040104]);
  ([457390905; 283469705; 70791132; 324145910; 454893256; 461081233; 56314597; 75358339; 498571], [19930604; 191241827; 118952412; 225127129; 364697072; 351833403; 364390859; 125801012; 1607256]);
  ([349839203; 93572097; 127141604; 393394173; 134274858; 501114935; 519320146; 31340757; 2864386], [211417663; 397258943; 355866519; 387992479; 122486961; 438697109; 56520228; 14123374; 1985505]);
  ([298088918; 514491200; 342112229; 32629094; 478961870; 331698721; 374468519; 97399415; 2740437], [193515977; 90213718; 456509300; 369830259; 390301993; 170687999; 43982973; 3784275; 3023926]);
  ([189996360; 426862148; 207272322; 420017680; 236326542; 524680832; 179655745; 303497923; 35782], [63923561; 224238101; 389657270; 516394166; 115210572; 225426447; 71587838; 244283341; 1321073]);
  ([3092634; 503534836; 375255161; 150544210; 387863349; 206128892; 419629414; 206595387; 2501556], [495222797; 409482472; 351605848; 444219290; 214081019; 395919569; 140526474; 19855752; 1863335]);
  ([416074314; 522162596; 376272735; 407514828; 157308723; 436491820; 34831745; 268883352; 980592], [501176828; 31344056; 155046669; 397588297; 137291047; 131829639; 503756410; 221178018; 1124372]);
  ([420374041; 330741797; 93027353; 122086752; 315221754; 524564110; 308418480; 135131407; 2828968], [397621160; 341459706; 233571603; 393804934; 114203113; 415330527; 503874718; 509550183; 614686]);
  ([41673066; 418899809; 296222378; 73502741; 79686696; 353263741; 514259443; 115653419; 1242622], [465268014; 484492636; 520304676; 417755848; 405988325; 501001474; 72955935; 468476627; 2384669]);
  ([150895467; 426283323; 334006673; 117043207; 76013808; 212022114; 104309364; 235760328; 533261], [194787742; 534627325; 257061088; 47000863; 331836716; 405570713; 332390841; 155898136; 2217507]);
  ([419963884; 518015529; 310421860; 331708796; 396754343; 357696015; 321736884; 152632830; 528272], [168371771; 457033649; 9971627; 274962423; 188478440; 53405719; 312441867; 83453446; 1337805]);
  ([188019485; 338602196; 19671009; 165486413; 48471998; 372405403; 59314758; 70088735; 2359684], [446379867; 283808636; 64047546; 461003559; 465396833; 417006275; 110480441; 443099312; 2217026]);
  ([479053273; 517367062; 314489886; 46598735; 181376663; 507421356; 343545117; 193681697; 2283258], [134959437; 165556924; 99337859; 322106408; 11697109; 182664843; 169650033; 46108818; 92564]);
  ([521247445; 475105776; 1834880; 366878568; 396682767; 228203421; 193187168; 116123030; 1078526], [484516207; 370911393; 46822166; 394054951; 425681646; 474415206; 185278466; 395163192; 1800344]);
  ([127370410; 470200167; 284711604; 499414236; 295718659; 190164775; 291600636; 177516898; 703414], [409178974; 277952346; 163735883; 296595061; 112922400; 323423061; 210980304; 461278383; 2790216]);
  ([445509295; 313042198; 374088498; 222825205; 388617808; 244802286; 80358045; 487605930; 3023069], [461506738; 137718614; 483779317; 259423606; 146398005; 243240623; 536328734; 375046668; 1088871]);
  ([53089576; 497413572; 148317332; 512561383; 382741882; 100030093; 231864631; 513385421; 1361521], [210817851; 83371648; 57353519; 352735921; 516502606; 103353004; 73443165; 477487715; 1758133]);
  ([281934994; 382351533; 280106333; 60996030; 279165893; 64088254; 244216166; 506313908; 769205], [87951973; 261470344; 383995019; 366140974; 100587364; 236058246; 66737715; 471810061; 1337432]);
  ([272609093; 227102275; 490159612; 302173091; 204399712; 35283645; 493882256; 330561313; 446593], [25639116; 410680089; 143282050; 55434991; 260197482; 281281890; 364482370; 359641893; 1618909]);
  ([232594338; 310092476; 242611622; 222963672; 226275745; 336745955; 274407988; 98667780; 1384007], [308262193; 373098912; 60864911; 447966967; 431430760; 491523774; 411038332; 276627569; 1811335]);
  ([309076807; 497197627; 469936297; 527660681; 272493352; 517803395; 286674584; 312725470; 1593057], [113239310; 234291072; 254780005; 154807916; 79435947; 147203859; 148918966; 192780197; 1988480]);
  ([436475924; 235645991; 253111414; 344757016; 330318475; 301359622; 438696324; 226586313; 1386310], [238690339; 302403780; 297588722; 7301536; 301260986; 182311656; 501652227; 86501480; 1787473]);
  ([312508206; 94093631; 458217479; 334646633; 154622612; 126123219; 446258080; 425921157; 1742290], [483866564; 345428428; 494226029; 170716073; 220567228; 278461064; 508074325; 415369078; 2880100]);
  ([404660660; 260783746; 45362118; 144806790; 90881085; 223558186; 77884940; 495650447; 862101], [157800907; 489808119; 472961538; 388387735; 477872059; 494679125; 40929758; 417214964; 2670461]);
  ([245067987; 189173683; 59326563; 340073558; 12187970; 342951455; 129095945; 496457538; 1177595], [462637988; 17020037; 61628776; 187510076; 317742263; 337931040; 460849056; 320829698; 1167506]);
  ([35206763; 147052774; 409182792; 219265333; 312962614; 178953994; 265534375; 35287624; 1854249], [100932634; 102965285; 423671334; 475333312; 75943077; 433173394; 400866696; 135419315; 1732125]);
  ([338263927; 62913250; 487264219; 234300408; 187827673; 105811902; 368070703; 449348609; 2405695], [355980840; 331610744; 203825071; 201766726; 19751601; 350113273; 381055930; 425633894; 2349415]);
  ([215775625; 377579143; 509761696; 294146236; 495376791; 227380897; 105074894; 173349112; 184276], [319743509; 365449740; 110885766; 388977418; 506959263; 385874479; 12672676; 248797316; 106555]);
  ([322127903; 120744530; 101325883; 493648968; 46998722; 363805006; 152568316; 515035754; 2493352], [61761263; 91430314; 64185716; 98180516; 383133418; 310531779; 315142832; 523520790; 893882]);
  ([142361646; 57759276; 272638323; 393942587; 263624947; 477789401; 149435158; 259845818; 1325847], [52689086; 262852671; 50960358; 14124232; 100781100; 6860807; 446729139; 299551216; 2855390]);
  ([346765091; 146070605; 364761566; 474357061; 536446440; 162678753; 255629248; 248579890; 1277899], [387975123; 244163470; 276464193; 235239791; 374835230; 240845478; 338847782; 23393838; 1136229]);
  ([491933219; 170951067; 337463074; 444113731; 526843451; 236224288; 161556957; 450399448; 117543], [112290082; 253589250; 378422399; 259057345; 111118745; 521218540; 382190546; 266567425; 608441]);
  ([363662269; 43606315; 216573621; 151108827; 310312253; 407211275; 496700853; 238460918; 478081], [217996804; 326807329; 241066360; 295842938; 472350623; 79999003; 453769891; 355820306; 1561044]);
  ([354192459; 375370449; 71868442; 19006810; 130422652; 134620513; 377079771; 197886736; 267980], [335399967; 225523908; 180626212; 459259188; 187046091; 402942531; 84714587; 183380813; 2297465]);
  ([416941143; 225125791; 422104213; 443076171; 289219037; 332533483; 375719507; 504999346; 812364], [474721676; 515492558; 308698756; 130587324; 18983957; 162757751; 376461785; 495032324; 3005160]);
  ([267331260; 513948806; 190890833; 4750937; 110609524; 433347439; 62725150; 416541199; 2602356], [347999533; 527763715; 351721921; 246677546; 403977759; 521796576; 426649565; 247127218; 1883747]);
  ([436155289; 321432164; 22576693; 501215451; 218479458; 73234832; 169981604; 92521947; 3033775], [201254743; 110262948; 474565604; 191464342; 331680178; 181416154; 481182082; 20409969; 1777438]);
  ([245198397; 426444755; 178877710; 205248286; 71646092; 227758126; 201444641; 152537280; 2969746], [102939644; 224042255; 64280403; 19730164; 340954821; 238550756; 400769920; 399815935; 305214]);
  ([531774245; 98683808; 369503918; 229900852; 526559176; 8005131; 127205226; 477894393; 543559], [188246144; 296047170; 241347412; 409371112; 30580071; 467087393; 408215054; 14903939; 807365]);
  ([5047553; 469030126; 520340645; 98073307; 49116543; 353047048; 403783841; 409579152; 1058154], [267251428; 472869404; 326985958; 49558984; 300283830; 287538918; 180543507; 248243851; 3042985]);
  ([401909786; 368948660; 257307494; 149772154; 13891762; 427130795; 32207508; 65956115; 1660025], [115818353; 284038283; 446450887; 390395511; 410392895; 471809533; 143674677; 47688889; 541250]);
  ([184062970; 85118275; 282674189; 209266504; 515411825; 276402861; 67474374; 436547552; 669830], [424861337; 345656873; 288549836; 31605815; 364438903; 94743227; 150378222; 417115252; 1355959]);
  ([403417033; 185370387; 72728648; 200637497; 58204556; 57981491; 477497084; 534111581; 1652599], [456789005; 367846216; 100122146; 418727430; 529382831; 49023180; 284887777; 190127189; 809842]);
  ([90955493; 106943616; 60269593; 50244231; 450201141; 376614428; 273716061; 329757436; 1904969], [78178798; 455084378; 503026358; 331676071; 482729185; 211543302; 152095521; 205981081; 2097621]);
  ([409289130; 382480217; 78749509; 143729869; 259347612; 327973718; 179654027; 214715313; 1192555], [208004515; 124627469; 288791382; 480640917; 328459488; 531589657; 290362192; 393056449; 2643748]);
  ([9369620; 105817372; 6534685; 449077390; 253108888; 159356203; 198638822; 397306637; 553323], [358141016; 382999436; 353986189; 296823112; 438764899; 249054316; 94402192; 274602228; 2663309]);
  ([298991524; 343220324; 109879454; 192298827; 143843585; 84175412; 441611467; 358346838; 644983], [529921527; 31018951; 232569935; 523015174; 391802924; 12962737; 509708008; 272620768; 1795071]);
  ([160735904; 466369238; 384531942; 493981505; 409462862; 523849999; 246408367; 483083964; 2238749], [520000647; 207456857; 193664146; 262002148; 500134143; 532304494; 195990542; 530542712; 1447108]);
  ([18679079; 385905106; 309702363; 392179652; 268978447; 330164938; 273369670; 99610797; 1399752], [30523078; 135668092; 175732030; 349335301; 287969498; 415980414; 341659386; 368939104; 2515908]);
  ([108992232; 62440038; 175707706; 365086787; 119749762; 134715187; 366165434; 443663847; 858170], [131975103; 75173517; 232644251; 429805856; 371723179; 151171994; 201111393; 499340992; 2167337]);
  ([313908685; 445968333; 359436001; 354509757; 509213254; 496808292; 280891455; 472316757; 2642598], [141103280; 10892978; 492052570; 309417680; 65372946; 536528886; 289726343; 73220568; 950499]);
  ([353009276; 168515740; 235491872; 356912794; 410448993; 227398979; 57265329; 119338581; 2578661], [461933223; 89611449; 342293828; 276684446; 61284103; 437432641; 523855534; 244143148; 3115026]);
  ([39771103; 345228932; 176934234; 531171636; 168442483; 345512392; 154394516; 416710278; 2322359], [204888506; 196530958; 188191761; 466661124; 302896992; 458061725; 49720301; 171533799; 1748053]);
  ([159586327; 500903268; 480142518; 226248640; 55274409; 504840716; 460009371; 515993161; 2005647], [376828998; 143730637; 447424570; 107733642; 108919597; 430086135; 112294545; 107191821; 3044879]);
  ([254665264; 213385666; 218478252; 25914999; 294450879; 433588632; 156092991; 265898484; 2136312], [340189290; 420861457; 330694405; 262903345; 455587647; 526466476; 435092890; 2624133; 2846252]);
  ([239863699; 178649107; 234175215; 493758429; 180464760; 210472287; 344729; 480848122; 61293], [502280285; 99292081; 40579986; 379599446; 212509228; 84806516; 65579472; 480670337; 1541032]);
  ([86160016; 354006586; 308194810; 442763678; 520838576; 503015988; 445459464; 101527195; 2301342], [323194548; 195584463; 145487860; 435050611; 63195618; 207516840; 54314355; 68236402; 1697]);
  ([104858323; 189875463; 1185913; 174835697; 385072696; 346238239; 458797088; 490772030; 2628825], [419345168; 397796036; 369270359; 283711333; 44718379; 499660536; 386488591; 69126080; 1405838]);
  ([51919395; 487999963; 67238269; 207480664; 517271182; 468352195; 33181731; 400162186; 1339264], [507959083; 356003141; 100866734; 491278363; 273829948; 106367267; 4192920; 265018254; 659109]);
  ([381292905; 499016994; 509218254; 43469372; 195020177; 242970509; 327167734; 403399224; 1854668], [47897840; 161211026; 287924285; 18596120; 31334158; 136800917; 126182386; 91919335; 684361]);
  ([325311366; 524651812; 100109996; 329846652; 208681095; 171314878; 246345099; 59062680; 2320944], [320899134; 463119986; 467814282; 515134915; 8120073; 128770946; 175896948; 307377017; 1565982]);
  ([302689124; 70289033; 363087334; 392185744; 373356924; 256685425; 360549804; 380017544; 212499], [35310356; 440094689; 253684456; 97445324; 449634541; 307999202; 33016644; 14278643; 1839153]);
  ([8502027; 458573764; 461510420; 228134972; 409013101; 289702914; 78380482; 97865653; 423488], [123509985; 147186790; 111280912; 336744827; 263636203; 472376107; 513867850; 168309937; 2512223]);
  ([415072645; 448052971; 163322162; 409491062; 330176757; 97599107; 262200; 242701655; 1541007], [156291666; 403709050; 38832347; 36920845; 9514815; 44794313; 519892979; 374836898; 3025914]);
  ([71181685; 436502517; 303493355; 154189808; 492194206; 410972729; 52782364; 482227733; 2051172], [175706623; 281746271; 423378355; 28860827; 377029363; 83582081; 19407869; 283739254; 2378115]);
  ([316357317; 422408300; 502212091; 323714971; 194691463; 426623899; 123283094; 113179265; 2174058], [52755326; 243079493; 420844951; 409280135; 348752779; 414168004; 61940473; 210844576; 698830]);
  ([97157753; 192577164; 291190345; 483548175; 519097380; 491378917; 358188386; 125952415; 1354244], [218609084; 79487329; 349185665; 78891395; 132777400; 264591609; 23524444; 143190415; 159457]);
  ([241884262; 470055348; 193266168; 478323102; 419424722; 270982787; 11693525; 456968657; 3106807], [35880002; 194442328; 377547073; 300443846; 385592843; 258696221; 441633388; 264019692; 2763585]);
  ([76437658; 496939625; 290112942; 404716367; 183399656; 417875157; 256091881; 314937153; 1087800], [304352367; 445010298; 434220134; 512897958; 533832391; 323104255; 230910673; 486744351; 836721]);
  ([15242289; 255577490; 107221617; 155484125; 447087740; 216593358; 215744842; 131326792; 624744], [280251382; 24976285; 173917505; 345403657; 146073660; 491185022; 45122622; 354486114; 2561173]);
  ([217907925; 455800953; 69197687; 407757796; 32043892; 98059169; 373778146; 302430979; 1007732], [264333631; 324859912; 211720458; 493089053; 205310890; 3926695; 310118185; 46929479; 2669160]);
  ([346170153; 159140702; 463727591; 110284492; 413372871; 327588434; 530757529; 458481860; 655305], [266971523; 274888052; 12431196; 226222856; 213437854; 412340863; 7285260; 534745218; 1325641]);
  ([15519802; 7867962; 200469294; 423989666; 126133761; 191712750; 360094057; 184720309; 1156751], [517777091; 10766958; 351223804; 292123536; 404277390; 434155682; 337114756; 31466267; 153436]);
  ([442678706; 246462894; 269837359; 71852806; 480768069; 529289069; 144457080; 184363293; 1498905], [269813445; 232470421; 524063532; 35494787; 223143183; 124890752; 198195704; 415803917; 170442]);
  ([205456382; 382365626; 276606882; 133684344; 268805637; 369558765; 347598030; 509195660; 642746], [289363725; 414421517; 474221481; 425980124; 287281166; 65927258; 252977756; 443448385; 2635775]);
  ([1179153; 98871833; 433935585; 475109885; 325687295; 212874881; 496796003; 418486056; 1015485], [232541301; 199039905; 155851814; 128092486; 534897345; 273328396; 486833437; 100191668; 1317158]);
  ([320042951; 318955791; 507032910; 220998719; 95387498; 27306397; 328121294; 449073493; 2883602], [27352684; 34044859; 75034395; 386004051; 230402597; 498420746; 241758247; 301724346; 591392]);
  ([107327137; 335787853; 351769657; 341224962; 450530425; 113591653; 149506210; 88736046; 519816], [222788802; 12003411; 8246274; 314855159; 447139624; 92382612; 332310900; 147044679; 2870888]);
  ([105330269; 395090878; 375525811; 466037216; 167028039; 160005840; 241479742; 370704305; 1572126], [114657128; 206450039; 417874749; 152648214; 133135103; 314740081; 293067922; 489885915; 1202128]);
  ([13969511; 209977566; 45831656; 532352318; 410029992; 283592802; 404328422; 378217153; 2146194], [418457272; 19303469; 173596040; 201754058; 508863728; 107883920; 435089308; 531282037; 1455763]);
  ([439789946; 28903764; 210299083; 383233825; 506422729; 32540623; 286679326; 480005099; 619237], [423148460; 363502314; 521428191; 261544051; 188890463; 99889306; 127630061; 96708567; 1527337]);
  ([108707479; 350253462; 222986262; 128963298; 346011575; 440095115; 201090017; 62999021; 379643], [203493438; 261396730; 129520388; 108919678; 377175911; 167634316; 131468603; 528600457; 678672]);
  ([130126755; 471057286; 453842160; 464117003; 326767489; 272102094; 393725981; 157846244; 284197], [497212710; 167727049; 344061809; 197808559; 334162851; 157643606; 197598303; 520265495; 2337866]);
  ([20166513; 484876377; 175388210; 409999801; 398065687; 146493415; 269582690; 528118572; 3133754], [240750923; 359664373; 147883330; 228550325; 357175586; 35037820; 437598958; 213429950; 1724491]);
  ([98053334; 36935001; 529942994; 184626067; 449347629; 416361058; 533020996; 103406153; 643795], [467925471; 62821617; 502159990; 362323896; 37556983; 364346139; 303174418; 337819048; 1434294]);
  ([222864291; 505902686; 110072081; 461033; 113249363; 282081370; 448488402; 454270778; 2971459], [18819283; 395272510; 256195440; 380060482; 185183930; 293382666; 420616564; 53670742; 2245429]);
  ([285122908; 425670711; 16452927; 402469164; 529457207; 394242109; 148954012; 298349; 1580014], [101719345; 435027979; 317269688; 305505540; 414256184; 93093077; 522004606; 381271941; 2779168]);
  ([323802079; 461413925; 473061764; 331650010; 320362124; 170327987; 68803057; 165387955; 138363], [279436933; 34923650; 321245488; 444482225; 118928538; 521820450; 101241646; 258219718; 2244569]);
  ([532963485; 461674940; 212806373; 153983565; 314918732; 273645599; 421017481; 39531081; 510386], [154036240; 310277519; 485020420; 489289695; 60968139; 74410332; 152859771; 245750848; 2647416]);
  ([442041253; 145200341; 186089828; 103345303; 21004268; 319761434; 130088361; 236319501; 2741322], [288608032; 256726634; 80195480; 531905570; 29643358; 438099850; 122911446; 496624426; 1763008]);
  ([404129065; 404630917; 21523047; 207386237; 317348207; 171652848; 118134700; 289167308; 1252262], [346879648; 392352289; 262321026; 91167092; 16819104; 154276622; 68948651; 125137813; 1152729]);
  ([280160610; 521174306; 147429079; 164971715; 289684668; 93040204; 478641304; 71972870; 2295972], [49459866; 290031045; 183357546; 505750739; 398480990; 191383490; 415056803; 237486002; 2861192]);
  ([423840681; 497850451; 303658497; 123151907; 40627462; 58275841; 505944132; 295099050; 1294168], [245426547; 229564514; 69993224; 180661704; 13459023; 510926907; 183003847; 118569364; 3092414]);
  ([315857826; 152982009; 447311678; 484218524; 65921980; 89959729; 273632287; 417644111; 1326324], [461770034; 19088873; 87587300; 191222602; 192642088; 252694603; 175602907; 383839914; 352598]);
  ([421449194; 17839730; 48083010; 52662636; 67390602; 448483731; 517488998; 166046875; 1560643], [483450886; 287846490; 49943787; 533340716; 534601223; 389362560; 338807112; 157966580; 1404472]);
  ([156607089; 349970140; 435459285; 46177213; 263561289; 383456225; 494296759; 87239775; 1750051], [147943068; 257703402; 529113347; 153695503; 151891530; 533141567; 75235154; 82852372; 2225597]);
  ([399858461; 231661233; 509540977; 342983849; 35909117; 165717319; 53958109; 356705173; 2585386], [174666133; 360291569; 390188926; 287681530; 227811279; 318203950; 169181362; 334661542; 2145862]);
  ([233374197; 180642090; 329023853; 309117804; 180803489; 32677231; 206056933; 265455626; 639882], [155644577; 16429794; 383889156; 145488636; 299962290; 185060356; 500013417; 197045393; 2000326]);
  ([303573979; 478740447; 417396700; 208736090; 117963192; 418425598; 185047427; 452496158; 1073971], [194869768; 12602835; 393200240; 87538904; 80174216; 535303152; 463850228; 101803741; 2949559]);
  ([475689974; 323082979; 85965993; 460364494; 301960841; 513134123; 219016200; 430070323; 1451928], [242426217; 533920891; 412649072; 341849311; 5192182; 252361076; 427319799; 53764507; 37494]);
  ([358861218; 121775852; 262862217; 205763449; 386668527; 525814080; 510721017; 187939886; 338709], [279347768; 248644406; 380733130; 334589237; 529946908; 463386771; 186567535; 440582804; 2708112]);
  ([304510343; 373973794; 175299856; 426404285; 187404003; 115030424; 39349943; 73699203; 19717], [424614570; 69580118; 99128619; 502199636; 288175889; 152408814; 534444823; 109497959; 3007430]);
  ([348664734; 167672738; 180762704; 224698130; 41310633; 266913694; 376015027; 139817854; 916687], [40874107; 365324808; 344950310; 72989622; 99560031; 376686392; 119035247; 245173657; 63779]);
  ([168159867; 14474436; 214706227; 4399441; 281752049; 419374764; 253216298; 39177868; 2626344], [490897065; 229467953; 467104414; 436546883; 374711611; 57334438; 429156263; 142689149; 105154]);
  ([254027168; 370148208; 140042031; 196820787; 227553224; 333805050; 76094182; 89599829; 3040106], [355516468; 442621433; 458236648; 224603010; 41749759; 252662237; 428920394; 77753960; 1414250]);
  ([110379884; 153982329; 304610695; 434218908; 185129628; 313265818; 257506388; 20614484; 971268], [41104261; 409210143; 383088243; 125885457; 279181899; 530925146; 25914192; 152202929; 857687]);
  ([3261799; 18311125; 131769319; 103800473; 523719856; 319274829; 270000587; 761000; 747303], [59457318; 371114744; 97617382; 307455669; 166582349; 516002687; 327061369; 131523394; 2535602]);
  ([92825949; 125293471; 478987749; 27812639; 230360224; 373554160; 322197056; 194304023; 1705087], [144140722; 306230897; 252512706; 193564463; 235130069; 104950872; 134503508; 225094022; 2454109]);
  ([176351853; 66481691; 410783931; 156950809; 350783400; 345504434; 366110054; 373466022; 1780104], [40655293; 41885771; 413195632; 280311845; 48574328; 206983413; 170412185; 499991054; 1197678]);
  ([150221933; 275117139; 399378259; 510976044; 291410314; 199651770; 202956680; 354541855; 1615450], [209594849; 183879312; 249234159; 44321250; 23016563; 35466372; 258896639; 303636576; 2420366]);
  ([198026277; 467152947; 126836674; 415681429; 47415104; 331440132; 51520403; 153281579; 982674], [317684766; 281495382; 56032280; 494979833; 69253763; 180434472; 299570663; 16098323; 1571168]);
  ([168053023; 385116407; 244178360; 106982735; 278249958; 38008334; 515956602; 167090964; 2702618], [511141429; 64843149; 24453699; 372489471; 112163351; 281794480; 267649867; 80466170; 1661221]);
  ([242148766; 414951522; 357664762; 2155407; 445050359; 469962719; 437267282; 162947950; 655168], [389067216; 313516320; 358104343; 299450674; 502760735; 31638760; 310406563; 228781697; 2001675]);
  ([281321701; 478142526; 320828027; 522035846; 16922621; 192806547; 240600989; 111163546; 1755596], [401488442; 28342648; 179968740; 41209315; 334451091; 504189916; 411470048; 441757447; 2654764]);
  ([509552851; 351479942; 313408737; 100797345; 205293663; 521503482; 115639933; 331061487; 373089], [336707669; 349753506; 192535970; 360935542; 512185456; 67772533; 399446605; 58353622; 1617916]);
  ([488462079; 194946954; 39861647; 60791503; 390929007; 64356863; 246829206; 367481220; 992740], [490803716; 163716831; 16963403; 330594615; 62181414; 4495165; 49638425; 24850886; 2316503]);
  ([457468268; 46069405; 390420295; 315659369; 228660305; 146752290; 88850357; 481139794; 2682385], [267126664; 436875416; 130156955; 336612908; 49651501; 54164854; 510504343; 224211980; 715197]);
  ([502829151; 429684; 9206934; 50733534; 420285804; 135918617; 478908094; 350865113; 1804328], [408368137; 48350147; 41053694; 248401475; 141435491; 429419625; 329824799; 381943420; 685916]);
  ([154406433; 485034190; 104287632; 351302356; 456371441; 499576741; 475947596; 478657144; 2318080], [223553197; 63932244; 71610323; 354826915; 329664754; 178653624; 383013599; 88739811; 2459338]);
  ([525959595; 115265421; 243304932; 136396769; 16538838; 356849446; 121088372; 399422292; 1523932], [126493441; 172187065; 519235502; 86066861; 513260674; 471346755; 475281013; 442463669; 250706]);
  ([392507223; 318637863; 505012337; 62261362; 279406918; 386298117; 370356468; 21906718; 729669], [197893731; 268325291; 320038575; 181394831; 204837763; 338217731; 208690781; 330352652; 1213788]);
  ([433917821; 268333813; 255854053; 534387369; 353005936; 55700566; 441759689; 415223150; 3111690], [145967808; 513548182; 494232293; 151524244; 358915911; 517359804; 110464660; 31804887; 2406532]);
  ([257681929; 20736316; 154789907; 189017981; 295828270; 444495308; 447381385; 135809696; 2174700], [118475857; 417340646; 199371403; 43630229; 176485382; 406701998; 279271304; 274926218; 46216]);
  ([432658862; 243942358; 316263183; 293750055; 110926167; 519144404; 158558251; 528376068; 2136049], [270291301; 509334158; 230042090; 409221270; 433663808; 46576037; 376347049; 276938087; 1833535]);
  ([23188226; 35144698; 320163719; 282398848; 142088129; 391905954; 411248975; 106301103; 2226834], [364617247; 3853125; 130506771; 509916650; 413245753; 267738483; 501685635; 449932489; 3100488]);
  ([468692918; 458159149; 362793923; 239350684; 46010773; 508485629; 495717067; 362813188; 393272], [151381154; 235525516; 220500483; 246258650; 454327225; 411956855; 168974597; 22787106; 2741754]);
  ([19111019; 422131381; 482661788; 349675527; 404982713; 252199965; 253814240; 89025318; 330336], [440032354; 99561945; 329131905; 31797879; 384031893; 410631462; 129209435; 119611127; 189272]);
  ([256574102; 25524090; 82226262; 263492199; 242596718; 228272636; 82877925; 80260910; 1160552], [228592907; 244891532; 221080875; 134267799; 5817091; 495325458; 348036147; 388176761; 2551054]);
  ([408539505; 129175864; 82622652; 341536754; 348117797; 444724716; 72365166; 27969599; 2081130], [323494380; 290425548; 486557718; 428974003; 183985851; 68931405; 13125147; 141358150; 2693301]);
  ([305568385; 296391241; 328472818; 438423859; 35615857; 134067892; 196384699; 104462654; 2734470], [202949271; 212992444; 482700656; 517237921; 16906491; 36594747; 502465098; 215143017; 2031033]);
  ([434175726; 534352304; 160105097; 24442070; 476197653; 323040425; 231503286; 346367468; 1742645], [365357332; 181898173; 135785204; 51547151; 158716235; 509235543; 522414688; 288667414; 1524748]);
  ([316136380; 380808397; 342648278; 332826702; 346473442; 180693919; 326128427; 302808946; 620758], [236923739; 266472106; 267966004; 147755010; 264589535; 197211087; 264334635; 158340355; 2815932]);
  ([314473349; 311073259; 196340695; 77177794; 436430646; 183142295; 442654378; 188555038; 1146291], [156685987; 276198021; 292861456; 101513649; 432442359; 245283562; 91625532; 197177777; 2969722]);
  ([367344925; 535668258; 288062009; 216256088; 88282174; 373165295; 33082678; 521229039; 296135], [499841768; 58882363; 271273345; 46873576; 38977986; 507784883; 174980919; 506042114; 1148996]);
  ([136213495; 425913798; 188205551; 455968755; 316816809; 428506903; 319576388; 311586471; 1023992], [127306021; 89207411; 91108396; 33128182; 317640026; 376827705; 63016392; 116875830; 220211]);
  ([307707618; 232388847; 272487479; 94441350; 230729721; 487592809; 67029187; 279770353; 2499236], [102449169; 162789282; 495433863; 185482301; 338489503; 128074957; 183312268; 312130305; 827551]);
  ([360276399; 441478631; 449397729; 184712135; 504698669; 268537453; 504324530; 196195496; 2316021], [241195761; 362168280; 272568980; 82242231; 179610423; 271688255; 324784822; 80694533; 1492466]);
  ([346800488; 389104102; 198542604; 62889037; 150896598; 312654776; 168736251; 76346925; 3111785], [167876301; 99688293; 173397936; 416845644; 527099688; 13650575; 45229535; 57076175; 1909275]);
  ([230459652; 292602321; 493842643; 62791191; 371122390; 148568662; 83821249; 405940324; 975963], [324464910; 431721155; 466864035; 240809316; 86259622; 176376081; 111103341; 28166728; 2811849]);
  ([338639796; 507965530; 67458659; 202211078; 385285359; 208996770; 518153584; 63307100; 1644811], [504391833; 465137329; 213638686; 48102939; 55177721; 50331181; 289803977; 49443622; 2204175]);
  ([69131804; 303309031; 170918533; 7645931; 286453430; 195734396; 338569848; 265416027; 281781], [205661519; 277580191; 500277370; 141750549; 482806714; 31747206; 324662544; 153390263; 2745668]);
  ([218651184; 458788630; 72162399; 382177099; 269196703; 159122270; 115456371; 32287871; 1466768], [26174306; 211852612; 311140732; 47123265; 355814915; 105940885; 268146947; 303576682; 640020]);
  ([331265273; 44925575; 302924195; 57169041; 184087438; 183712618; 193489716; 252569923; 253647], [523188598; 198109034; 251140006; 213552178; 371947414; 9446840; 33836277; 344541353; 3134958]);
  ([172817283; 117337508; 319640364; 164893913; 496866576; 245098038; 169627037; 75012016; 184562], [180255771; 443838415; 42615741; 264495805; 276590485; 426357361; 154400554; 509511732; 1581784]);
  ([222155474; 531340379; 265251072; 276581295; 17957717; 235083294; 218444597; 448968249; 3076696], [66374586; 199890347; 67099559; 514412856; 10323903; 295405090; 170488085; 529947374; 2550761]);
  ([205241244; 91525211; 527906378; 361937872; 256089044; 293774919; 334597373; 186429982; 2307056], [223243991; 169639859; 329849161; 511271079; 496491578; 426543256; 229408293; 184889204; 509782]);
  ([535970808; 126875217; 265875155; 271735186; 226100462; 312873324; 337182589; 58503742; 1467064], [318314599; 244197230; 244857634; 84442205; 102308747; 329702814; 503745925; 178691528; 2477981]);
  ([98505091; 166114715; 370672771; 43334906; 151074678; 513794099; 12950911; 249105114; 2882245], [520161929; 228597179; 11096601; 466022010; 484172968; 256368225; 132034267; 198596503; 26214]);
  ([407340556; 169976332; 101722443; 452159513; 138325709; 527722381; 514883504; 289083369; 1908697], [139520024; 269155018; 179465074; 211728428; 59999980; 330588156; 346595436; 455493603; 1107513]);
  ([75026047; 365977006; 318632012; 201431980; 401004687; 197828175; 460154250; 188868583; 1273580], [522493517; 293563810; 288558338; 154660034; 361062597; 304816545; 28574418; 255217519; 1498496]);
  ([60579497; 9078617; 326555150; 252533717; 359320195; 438570690; 138136208; 149751234; 2745873], [492451041; 523515197; 237574236; 217051236; 218954907; 367751047; 124189379; 524336375; 757648]);
  ([45217076; 500494038; 386998702; 396927249; 60985693; 230946288; 174290851; 330982863; 1093693], [183814560; 101677283; 413065385; 255341448; 518905971; 15798887; 232690362; 224316696; 2166032]);
  ([64765214; 338806268; 289755856; 23152631; 342658332; 331524814; 501573981; 535708618; 73529], [222592530; 165364069; 45457687; 533715834; 256439566; 13949600; 120230230; 356565139; 1488683]);
  ([163553701; 204821377; 522639907; 322445921; 380740248; 19431313; 359223391; 70966134; 1199498], [526227033; 427947904; 78568659; 434683505; 153001685; 197487197; 191219683; 384401469; 1975883]);
  ([89298365; 38195433; 50787151; 404057150; 131153335; 269610248; 206989530; 346285845; 2110741], [516921360; 454589755; 169969255; 115667562; 42417144; 16429768; 23083547; 280597149; 866318]);
  ([260003135; 112191348; 300172569; 405095170; 194739309; 508506818; 465840503; 103094441; 156080], [7850223; 98732767; 402289405; 247469918; 1544987; 511929600; 479019539; 56331358; 2943452]);
  ([397498472; 521190122; 182224586; 354609318; 380142789; 256225607; 67076733; 485887506; 1647204], [469544864; 68762266; 190304957; 523572206; 225065578; 481154705; 446051364; 480066224; 693660]);
  ([102931619; 96292174; 158171500; 326313738; 353754099; 247570716; 175465722; 25060303; 398302], [231918940; 297216081; 239367928; 111397736; 335533458; 506939804; 171856435; 427576370; 1297284]);
  ([255395496; 491960635; 372971513; 530075128; 416284621; 20257268; 285566244; 400857332; 762754], [136337195; 228498841; 252084574; 314437043; 346892853; 482139214; 283823168; 142448397; 148662]);
  ([433467702; 330108352; 324687359; 517768312; 266167595; 501719943; 490302790; 359434251; 965338], [43324538; 117836883; 492612042; 289791866; 401036901; 516021041; 471307359; 98401672; 1335826]);
  ([364021725; 492627312; 217857051; 57468787; 449162422; 196678433; 169474124; 373967457; 241712], [157149559; 182416231; 274940130; 34473660; 148918332; 491369182; 196727100; 225857810; 2329105]);
  ([134144548; 479188233; 146899944; 261455; 367888328; 108221779; 354507616; 217693989; 808524], [195263658; 196333587; 477697925; 37875538; 163692970; 62826032; 132831491; 80064249; 257839]);
  ([64412225; 154736719; 160759341; 391201588; 421009610; 268749371; 20938403; 435725151; 2274206], [368676727; 231549634; 434129347; 123144271; 7816063; 274725284; 465384889; 51714209; 1349892]);
  ([37237302; 530384709; 139014810; 345327854; 50555303; 311401986; 329478441; 313645048; 1798652], [485023134; 383814690; 343782116; 357954468; 9878735; 42350848; 477379268; 55962140; 2201376])]%uint63.

Lemma g20_point : twist_point (Some g20_const).
Proof. split; [|split]; [vm_compute; repeat split; intros Q; discriminate Q|vm_compute; repeat split; intros Q; discriminate Q|]. apply c34_check. vm_compute. reflexivity. Qed.
Lemma g21_point : twist_point (Some g21_const).
Proof. split; [|split]; [vm_compute; repeat split; intros Q; discriminate Q|vm_compute; repeat split; intros Q; discriminate Q|]. apply c34_check. vm_compute. reflexivity. Qed.
Lemma chk_g20 : ord_chk lg20 slopes_g20 = true. Proof. vm_compute. reflexivity. Qed.
Lemma chk_g21 : ord_chk lg21 slopes_g21 = true. Proof. vm_compute. reflexivity. Qed.
Lemma order_g20 k : twist_multiple (Some g20_const) k None <-> (r_mod | k).
Proof. pose proof g20_point as V. rewrite <- lg20_val in V |- *. exact (ord_ok _ _ V chk_g20 k). Qed.
Lemma order_g21 k : twist_multiple (Some g21_const) k None <-> (r_mod | k).
Proof. pose proof g21_point as V. rewrite <- lg21_val in V |- *. exact (ord_ok _ _ V chk_g21 k). Qed.
Lemma lstray_val : tog lstray = stray. Proof. vm_compute. reflexivity. Qed.
Lemma stray_curve : g2_is_on_curve stray = true. Proof. vm_compute. reflexivity. Qed.
Lemma stray_point : twist_point (Some stray).
Proof. split; [|split]; [vm_compute; repeat split; intros Q; discriminate Q|vm_compute; repeat split; intros Q; discriminate Q|]. apply c34_check. exact stray_curve. Qed.
Lemma chk_stray : stray_chk lstray slopes_stray = true. Proof. vm_compute. reflexivity. Qed.
Lemma stray_order : ~ twist_multiple (Some stray) r_mod None.
Proof. pose proof stray_point as V. rewrite <- lstray_val in V |- *. exact (stray_ok _ _ V chk_stray). Qed.
Lemma c69_check : exists P, g2_is_on_curve P = true /\ twist_point (Some P) /\ ~ twist_multiple (Some P) r_mod None.
Proof. exists stray. split; [exact stray_curve|]. split; [exact stray_point|exact stray_order]. Qed.
