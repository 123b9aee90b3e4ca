(** The two pairs of the shipped sample multiply to one under the Tate pairing, and those of the sample with
    its last point negated do not.  The numbers below are Montgomery forms (29-bit limbs): an r-th root
    relating the Miller values to one (or to an element of order r), and the slopes of the lines met on the
    way, for the two points in turn.  They are only certificates; [pair_ok] and [pair_not] trust none of them. *)
From Coq Require Import ZArith Bool List Uint63.
From Verif Require Import Params Curve Agg SpecPairing SpecSample SpecTamper P_Limb P_Mont P_Jac P_Pairing.
Import ListNotations.
Open Scope Z_scope.

Definition root : m12t := (((([53717222; 328730674; 91333145; 244093584; 461517998; 290951407; 49486360; 120434456; 3153130], [207035935; 505200584; 282976394; 259292163; 245762419; 351733609; 291756905; 407412899; 2815905]), ([494328705; 430659107; 240550469; 434143353; 367346940; 513640412; 3253116; 183193571; 534710], [483653311; 100693901; 448124185; 294392860; 433477601; 153939340; 282212425; 55414708; 253785]), ([451716095; 217541861; 76780878; 298619299; 100352225; 289473569; 363237692; 143416228; 2262207], [314478434; 172361523; 84357890; 286938666; 497899309; 473041718; 322460892; 270614069; 2064142])),
  (([250129882; 462857052; 38003917; 213539017; 176593913; 30957216; 512507850; 12398346; 2228377], [258052297; 75347013; 14723277; 437413889; 3833559; 470653638; 308103371; 193137064; 1202819]), ([2774223; 230039438; 126052534; 235734265; 365258686; 181685318; 74574787; 58651887; 564847], [16524429; 315312372; 56101944; 295683603; 459903873; 402937244; 173020082; 6215484; 1556130]), ([459911239; 460601528; 293573505; 505800096; 521872000; 252009225; 331249245; 206365407; 2303226], [274444946; 391797978; 495880523; 453748465; 414419701; 302167187; 246551549; 230035287; 1840347]))))%uint63.
Definition slopes : list (list int) := [
[33142659; 2955858; 489121777; 214996830; 195861542; 86348180; 446833732; 388668739; 2451228];
[389075921; 507420273; 354123883; 17949306; 274773461; 241619530; 289350331; 173150062; 1214587];
[378104939; 212287327; 198523692; 536348185; 93499383; 499288141; 89491958; 312341867; 657310];
[212578679; 146483710; 526968889; 253633578; 499282234; 234348064; 270545673; 63001526; 1111337];
[297523183; 340533130; 181696558; 151341988; 334175000; 421181564; 253327586; 395642186; 103367];
[315717898; 170463534; 483206732; 242126297; 18232583; 285937752; 301859439; 447427581; 1482921];
[319489332; 194009370; 326890811; 138734502; 304582332; 296102940; 278291475; 314539113; 2168331];
[142728384; 268603963; 379587026; 402896580; 460892367; 279445330; 11163607; 277205848; 2980838];
[70718739; 192154111; 482737091; 485488244; 45857635; 513652530; 300458023; 276510985; 683103];
[409920764; 183395061; 322588935; 61913479; 210785873; 116430515; 284323491; 61649092; 1951462];
[209136884; 92047246; 422208993; 503700553; 488150824; 161041149; 499160823; 246416819; 1213471];
[371194058; 453049244; 99445258; 501634554; 333450871; 75630623; 175505695; 510340907; 1610052];
[330118894; 187661407; 401069571; 64257050; 447171518; 46219962; 380538677; 491422700; 2272538];
[346733305; 89297424; 441199137; 429708739; 161404002; 397089769; 158696925; 184668811; 501797];
[456366095; 31253169; 466699623; 353085189; 401974334; 262515338; 297146665; 534157740; 462208];
[340158668; 394207750; 425124668; 433032726; 93566598; 507195339; 125921515; 136612434; 94973];
[177693156; 339179912; 317407644; 377435250; 147705748; 158198607; 41727447; 509917326; 1450312];
[406213564; 356042066; 117539999; 405005582; 386667039; 155407634; 295596614; 207751359; 900229];
[387521888; 175116990; 419295134; 501066291; 210650515; 416704977; 377851452; 346190565; 2350309];
[496036197; 114451727; 96701526; 471376538; 305023289; 108686820; 530061354; 324381798; 2979771];
[264556187; 138479211; 161765946; 388518706; 432451920; 505022827; 428780168; 291583378; 1030535];
[148180727; 169116349; 414654438; 52721733; 77689213; 138823582; 168127029; 513053909; 467204];
[417161562; 149905911; 53777139; 423545260; 269651877; 175025042; 360552942; 289723069; 741094];
[516359764; 7885050; 178311038; 217605375; 45286004; 415295559; 150243834; 271320622; 2511742];
[177635864; 530107635; 374063601; 113628581; 187226371; 216646219; 90431244; 417187033; 1911642];
[484498296; 47406888; 246871856; 21041212; 224865018; 73452298; 355384004; 385725106; 716674];
[307179632; 397144515; 335715028; 426642428; 489764781; 348415080; 292140858; 237916071; 1381755];
[204464345; 295050472; 138283435; 519660428; 93879235; 248215911; 120599286; 438418767; 35300];
[257092494; 56065484; 512111846; 416634225; 382050568; 507769232; 50694259; 207630348; 1549115];
[10299391; 527357383; 99244377; 524295497; 252874004; 297310486; 216624455; 130730570; 1354438];
[143116489; 382866721; 344646959; 208954661; 157037118; 440262868; 12124486; 317120134; 1180957];
[281449961; 239378640; 529609836; 372212586; 170924849; 48120721; 176720154; 194796160; 85089];
[501963020; 112676546; 471868523; 267453437; 387039500; 13292595; 141349475; 179666394; 343287];
[221495047; 532811003; 143997279; 69454326; 198182846; 331003078; 168303427; 162842846; 1861329];
[154986773; 463992139; 369217877; 411321637; 483838693; 311801542; 262756134; 440606580; 2777807];
[406904203; 310278459; 338079989; 57693003; 303003945; 349182352; 475360433; 221382942; 1677567];
[400253413; 468352173; 452198674; 21348930; 295026946; 482286330; 75211855; 208811678; 1534543];
[32454042; 196760622; 13115507; 517998008; 318759167; 502488104; 353069470; 171157768; 2131583];
[371852135; 332933162; 352477598; 36839332; 435211494; 168891085; 133243010; 467912909; 1214376];
[259519530; 126267451; 338426682; 532165416; 149060903; 429057184; 271051915; 523979204; 1296809];
[401223929; 86506105; 247000433; 137981898; 57694311; 342366615; 159366639; 500723353; 2012329];
[285394416; 284623072; 17221391; 108419869; 181029803; 177337235; 194384061; 195083545; 1525612];
[381361330; 319123503; 155459722; 422947736; 268004016; 376813813; 27166094; 524294438; 1298587];
[219399215; 256895392; 111133000; 325438795; 223228336; 35083610; 334309663; 376172541; 225902];
[408699301; 169668011; 509070585; 491872881; 372633629; 346859044; 8770313; 158580870; 2770115];
[306011813; 532550685; 328469549; 520073112; 76013763; 385110850; 338395642; 397392868; 440032];
[272846538; 414254306; 359472465; 69217747; 337002265; 407944477; 508836430; 384751408; 1203784];
[178898098; 166711237; 462090978; 287104973; 136122179; 206216171; 237599478; 470138109; 48757];
[524455637; 139715545; 228593439; 462893718; 489429612; 195294205; 347185963; 426500966; 2299885];
[358571816; 471603780; 530718828; 228145920; 405423348; 311930224; 448522387; 18440280; 1293490];
[157432268; 353767455; 148531238; 346867356; 121084041; 453291211; 71208351; 466328076; 1890944];
[69279697; 442870579; 96625311; 218397083; 118318230; 493485626; 64039252; 344765225; 2000164];
[487980337; 72483125; 140524824; 45127689; 52010928; 257478332; 352792109; 353001036; 2210056];
[418112783; 457428360; 427345733; 334025032; 40366861; 189236783; 289734768; 308366492; 2030308];
[100853250; 473294476; 105219773; 86044483; 84420240; 255186221; 222305744; 187957462; 3146127];
[260560206; 342274918; 532662771; 416495639; 127888894; 479389049; 298596803; 499114614; 2867922];
[320604157; 207695974; 12471256; 205221046; 411766304; 192343737; 275443445; 189052416; 793925];
[400047803; 511728633; 146569722; 532853011; 408889176; 77319567; 79308147; 322853032; 1193206];
[222564741; 520861570; 232296592; 441468845; 214102206; 394649454; 25896190; 113333336; 261156];
[98881138; 482754586; 2232859; 228348647; 124139731; 433543778; 154405969; 119526299; 76014];
[384016332; 521032820; 54814475; 310568282; 292675723; 503131797; 534396579; 316591812; 3144558];
[183753726; 578441; 326926263; 63681427; 185196472; 372415133; 65251771; 414615876; 1697251];
[99709830; 92367615; 173256958; 208707244; 11296984; 533970062; 171129253; 356225394; 1887590];
[203463436; 97892570; 172289781; 381749344; 150141324; 243306469; 309335709; 401575378; 1708663];
[283661707; 478271084; 181775490; 127078506; 356259105; 296827080; 508011150; 519951942; 1414456];
[164038545; 432752889; 232080888; 229251630; 109384524; 71761650; 207219291; 353595088; 590244];
[484237461; 476777125; 377124188; 316724648; 426631519; 306467673; 199173456; 122950104; 821896];
[63738201; 363250344; 28227691; 535653902; 497488171; 535633371; 395806276; 525601238; 215541];
[192658380; 343110218; 175598372; 503786050; 163965625; 177325000; 415333788; 45241873; 437108];
[42092635; 37486824; 225314135; 470732592; 123822428; 509220811; 93386378; 357128402; 2864464];
[115695561; 45319278; 288016841; 409989759; 521942933; 428805924; 86000654; 343342302; 2424959];
[7940259; 64012652; 284118516; 335590667; 26409765; 442084775; 357239006; 307067755; 905835];
[117911207; 41666788; 404358338; 516422480; 19272093; 404109143; 523520280; 164161800; 2792617];
[399505033; 518194989; 432052194; 299232894; 413284916; 199609726; 475637103; 511170351; 1951443];
[258228576; 68001270; 81288425; 23137252; 108198027; 295730599; 60478584; 419882384; 2565066];
[147269770; 112206838; 2867924; 328838095; 49682602; 2142369; 75149688; 381133545; 301723];
[68921706; 226275905; 7014829; 318450012; 471473203; 348565917; 234035866; 179173419; 479763];
[49437254; 301432104; 292967541; 460814668; 69953966; 409920899; 155536848; 367547652; 134444];
[264232599; 147887186; 236132817; 140184806; 459259644; 86765011; 40057046; 292295703; 672256];
[164731679; 96073340; 128207714; 261872255; 110078699; 515453347; 206400566; 106003425; 1568299];
[447323985; 531617083; 455316226; 200312121; 273147716; 148439591; 51441672; 278521983; 520109];
[123897400; 507465300; 523461552; 139102886; 348925323; 257297556; 424190806; 312856037; 3165838];
[215888531; 203611623; 151582225; 119311477; 112769340; 277194517; 398114000; 72521551; 1944915];
[500816664; 245130188; 247448423; 87799562; 344590874; 225546910; 197525787; 152231199; 2821522];
[253504846; 269470439; 364198432; 466198762; 221326270; 306992944; 182723270; 495877920; 250950];
[237382451; 185876575; 398484045; 197805419; 133490756; 127655452; 300505178; 472311507; 2843941];
[205217511; 448345909; 398639874; 226161280; 161131437; 223443472; 420133964; 411848505; 2878545];
[3714948; 72892949; 421440314; 442889620; 80728276; 276281672; 35733939; 241132138; 256974];
[532599982; 485490700; 275899192; 293567703; 523506758; 350518157; 315558748; 56795043; 166978];
[108803597; 171875243; 300450958; 505473941; 362458353; 443069075; 24407022; 147095471; 1152782];
[465233810; 265214522; 134434480; 22920662; 530293544; 120606232; 86645405; 264797479; 3038553];
[269818724; 29804739; 479355774; 145276476; 479553565; 169856715; 117224678; 459863722; 1969997];
[74803669; 512073712; 304508839; 228238238; 353645416; 414698989; 279188722; 374880441; 1153254];
[466184965; 58429680; 145676906; 49229447; 300236749; 118477984; 52949059; 362132400; 2493913];
[16330383; 337455448; 200782870; 34239037; 128022354; 509721674; 163505302; 26713125; 637196];
[485691414; 426239810; 190552279; 495422200; 397626036; 76988394; 58464922; 527881009; 2887056];
[378452388; 122374314; 373937318; 29179691; 10112179; 472618812; 415215309; 406918851; 2672273];
[42366982; 411627957; 457864883; 309534608; 338403989; 6964912; 20606086; 283841160; 886222];
[109893633; 535497917; 138367912; 100430666; 430123726; 231229060; 154729327; 248768749; 73230];
[343889913; 195651973; 487906554; 468549776; 478117955; 235192896; 421972450; 520138870; 1023745];
[441505445; 147989267; 91804703; 283496337; 164206028; 513600957; 31504254; 299417467; 2615322];
[522721496; 384268014; 103542462; 221424955; 424872888; 66651312; 104306160; 281053257; 2964416];
[424341446; 300049614; 198185687; 276991793; 456982554; 220497007; 271445424; 51269118; 2219723];
[146223104; 353249058; 182142502; 150638478; 413132817; 46160684; 126874340; 21065813; 2792579];
[428489454; 102754055; 381786852; 254037622; 429250516; 430143240; 7739154; 300279583; 1827910];
[219520600; 19855144; 87779023; 378679407; 302630396; 34145898; 181467448; 137702567; 1055331];
[199673069; 113625207; 351564487; 203916579; 242473262; 147913126; 224188542; 13562709; 3161577];
[441588735; 213097061; 14734865; 135075482; 333261739; 315089191; 394673701; 145059313; 1288850];
[468497673; 175630169; 77083620; 58505379; 211363341; 194097658; 190984157; 408300704; 1735716];
[448993385; 305348374; 264642613; 284577639; 506543304; 428432026; 517071686; 36890454; 1897579];
[219381713; 301465310; 33090973; 220664191; 488961949; 445961142; 120632788; 29155327; 1418075];
[142103655; 189026377; 180755161; 415742809; 349412402; 75410591; 377713270; 280965210; 1918160];
[377650051; 194300591; 511778309; 157008758; 61376755; 5969159; 295420307; 317887824; 574886];
[288800684; 8120904; 310126707; 46142335; 179665856; 117075404; 381950468; 401544465; 1487045];
[194341099; 365292815; 249486972; 142639521; 238504761; 428505736; 352695278; 235595132; 1356471];
[475987950; 371402419; 417810807; 284773613; 82920582; 198225674; 482275759; 291197666; 2818755];
[464812547; 342955821; 343932767; 270947754; 278333631; 223002944; 394271141; 149419155; 3042901];
[68559974; 167239219; 227755661; 489637220; 158353169; 344577756; 125578398; 220231001; 2996101];
[351325846; 154074076; 39388723; 368098700; 274697310; 85166851; 491523075; 536092914; 2648530];
[67669576; 315378477; 102685041; 455325528; 9821225; 33780874; 487604340; 337966468; 1958319];
[82131205; 474190197; 204452794; 100042215; 91215880; 119192962; 195663091; 275111480; 1941801];
[213631833; 170930255; 234385481; 122513888; 443402842; 264904231; 77214868; 34643668; 1854379];
[191439189; 393847973; 483782988; 19292644; 200080859; 172886513; 523332855; 464020021; 1004449];
[492771663; 106544517; 244315906; 435238919; 150434127; 526777286; 528115762; 474238784; 105269];
[17360079; 103806953; 72760916; 33513046; 340089159; 62904518; 270323365; 514739367; 2005762];
[322134816; 327884652; 90962831; 152843015; 314864537; 429261924; 142861316; 145398341; 2412092];
[386096122; 486471404; 359951539; 140112720; 305069313; 528054335; 507630747; 401829384; 201351];
[80987657; 115443124; 111732588; 431517089; 386925267; 195059599; 47294054; 40083200; 771224];
[460246062; 335411266; 1924884; 323750315; 419052096; 203902038; 17549044; 451954129; 186186];
[228913349; 146428840; 361784001; 169439175; 194516476; 52570207; 226269318; 279446099; 3118622];
[419186523; 33943782; 522953147; 355345444; 189708290; 375758446; 503882411; 267651520; 2212899];
[467469461; 244721691; 141252040; 477237970; 528433165; 141559519; 190474323; 289336028; 1573970];
[461685108; 86746348; 238358820; 44741686; 374134232; 451357679; 387107730; 261921740; 1923319];
[518581852; 534755643; 51097587; 203311177; 107886133; 172092911; 364450569; 179796815; 763949];
[255591606; 366918627; 333664358; 6804707; 502009732; 512234116; 116839948; 189972714; 1481106];
[394677342; 172149939; 150907474; 321775665; 473194341; 189639375; 408059711; 29732956; 857722];
[248949916; 40365587; 458369204; 433043902; 343385262; 504137514; 522625452; 447615380; 811444];
[28359287; 508171135; 94250882; 318766756; 488646830; 138514157; 287985565; 169292844; 1341499];
[203853048; 192385307; 299866227; 119981742; 333272040; 88904074; 49624986; 329791424; 2417200];
[378659927; 153584123; 42220460; 237548351; 131006047; 169006483; 526552889; 184578031; 2444419];
[167652090; 5801774; 94061427; 157281473; 21999655; 136874515; 510140250; 112034501; 1630816];
[445754045; 429493309; 360967274; 433786806; 262603080; 289249084; 341461214; 75752403; 90426];
[4342918; 388022289; 255791406; 47177165; 267734371; 108656842; 205695160; 109838684; 3126758];
[421915884; 532976335; 126976100; 421577437; 185761135; 16519418; 8300109; 138869075; 1340879];
[198453774; 470755552; 15324371; 108167981; 203521285; 397920915; 108290725; 213120292; 2823818];
[56321266; 460424644; 125840463; 368690408; 323322774; 366629480; 209698659; 16846179; 524963];
[446559733; 472391081; 522741348; 508213638; 484017464; 12675066; 220390367; 97291901; 2118687];
[439838864; 193374883; 41757804; 510527966; 256953465; 335029185; 302338447; 484578469; 170028];
[236692020; 462708143; 212205330; 140554647; 97018585; 428225114; 89753236; 467288752; 440780];
[296079888; 108320046; 105213745; 489174053; 283612873; 433628797; 354721652; 89398657; 602252];
[101702644; 147469216; 83206043; 198695823; 271521348; 346259069; 149974145; 399395422; 576651];
[59487386; 302416994; 126389763; 226756788; 238382673; 150214295; 83190052; 85828247; 898542];
[450387102; 377906055; 532238347; 518316728; 260698121; 417974749; 464381504; 314232655; 1661455];
[157555477; 79262055; 145691363; 337279830; 217764436; 403259340; 112303912; 251804650; 1117661];
[35059499; 530612975; 311201240; 320555293; 28467119; 312918101; 379405718; 42044550; 640135];
[472964442; 326431442; 76179914; 435164237; 513733035; 171101257; 297777915; 361491150; 729374];
[59936774; 105655410; 124080030; 410971727; 195229896; 69379573; 394964719; 278049104; 927092];
[59116531; 171413093; 160830771; 69821671; 400047005; 300433477; 531092051; 387532642; 881911];
[367072550; 463441113; 211825375; 336622299; 509446626; 271668911; 203609438; 191509802; 1309845];
[210183070; 139893477; 113104272; 369787883; 254671600; 254331532; 301433674; 70926907; 64072];
[282992412; 206173276; 483573920; 91360668; 170894214; 346592121; 382681103; 48348741; 2875349];
[378131473; 477500148; 137822176; 138493096; 318021274; 270720382; 203909590; 191669465; 3039057];
[185417854; 89845415; 1876279; 50587151; 25130355; 436424356; 455574564; 531015696; 687861];
[341366478; 363876288; 80099352; 207063620; 431301976; 349026498; 455704074; 440606722; 2195257];
[203723247; 105953142; 471785706; 330865262; 174086082; 255455509; 532741949; 106702697; 1009277];
[352953381; 271930614; 486086691; 469621273; 39852433; 184832657; 187678797; 465984364; 1547128];
[362030314; 297187742; 405234451; 35797065; 47085950; 354186679; 481295068; 178915315; 58650];
[81336723; 95574764; 164124341; 419522901; 133520706; 278621117; 161642096; 477908635; 2968864];
[500355704; 203990023; 300454275; 271895691; 100014525; 210594096; 207853724; 522023019; 2369647];
[501268156; 97554320; 466382576; 149470761; 10842174; 405311610; 311396372; 331566916; 2985644];
[345785191; 435204271; 430419363; 365101450; 416290446; 15276553; 7560085; 104062505; 198280];
[349128703; 76976725; 395491358; 301607300; 496970442; 160061127; 386044969; 330209060; 859052];
[141426742; 58152935; 505159537; 490722061; 342758924; 427101399; 431414522; 324666943; 1279263];
[49266419; 368532592; 436207669; 462986895; 219389633; 54578326; 418181580; 467589933; 181682];
[47196361; 376752778; 22109340; 421247028; 519352702; 107083446; 193461702; 477081036; 569337];
[231528118; 464425721; 410852320; 215813336; 376864584; 460559751; 36168977; 52688457; 309189];
[420591745; 122960996; 278310638; 156688946; 377824361; 458027142; 95446424; 214489525; 3121247];
[497976698; 286883919; 395553348; 88761584; 297839446; 211214892; 205608336; 466469533; 2299726];
[267548706; 8761469; 200694720; 178631744; 468226766; 91783046; 427696160; 366111628; 1898935];
[59011202; 232766141; 335884076; 62440641; 151567849; 423348949; 6210992; 252178319; 1336884];
[8255500; 304588391; 258122889; 87779687; 143752695; 411412765; 24328439; 453800864; 2867829];
[493689287; 345824326; 186672876; 374734960; 90714465; 489589399; 99643220; 81714438; 453848];
[129346906; 14015717; 317116084; 110889810; 200326703; 118799880; 81814277; 86411594; 2163870];
[504241090; 205273597; 229300869; 205045699; 299021692; 80947008; 356612475; 331886373; 1248437];
[35572669; 80236345; 518943466; 35358194; 411033714; 180147964; 277466272; 4121034; 1552044];
[93951763; 129835986; 382169074; 63950410; 391846577; 144616678; 365451390; 536811990; 2442398];
[65897790; 464431047; 313970671; 509901438; 461664158; 491793142; 481925961; 46023771; 2091378];
[421437765; 470200593; 291583511; 5398964; 531343418; 527285296; 351584697; 100202174; 3119808];
[84798427; 519453548; 201000288; 327799869; 190800173; 33283865; 143730200; 112554441; 390753];
[506677863; 413766095; 377625311; 137065188; 71436222; 329405698; 108776770; 184334786; 582695];
[315995730; 287564044; 465291212; 27880731; 499890307; 449541963; 137604913; 266791875; 1900215];
[68486422; 364325447; 299226321; 69081907; 502837624; 426876260; 258044643; 424323525; 444718];
[332015053; 61227921; 16627527; 114413477; 225678037; 41789469; 282131740; 22247104; 738864];
[168519626; 513023182; 55301757; 399757162; 27859593; 476848408; 485149297; 193261529; 1628441];
[492180500; 158110097; 442295594; 194280470; 395589881; 51183393; 66276526; 370938604; 2977688];
[106547711; 352156851; 244502837; 165155119; 65103085; 42253758; 110550915; 263848992; 807772];
[274615483; 394935485; 70096942; 357023417; 323653154; 276778585; 353834181; 392867738; 1695626];
[129487064; 136758366; 462472244; 525787572; 98753944; 204339920; 317159746; 29263495; 80648];
[528157539; 104370661; 352434358; 25667591; 185861828; 99029205; 394123970; 49857184; 2586084];
[131693248; 27352118; 2263595; 313743011; 229510278; 525167671; 322798371; 79675097; 1754842];
[376872394; 182023017; 168742825; 163865551; 529522481; 522256149; 272512644; 359900360; 83139];
[262546218; 204259162; 474244170; 312527660; 282179289; 94791700; 432119184; 173161072; 1510238];
[16817213; 526960297; 282327617; 395503330; 440066026; 479758035; 508437701; 179214862; 2247032];
[424548085; 81164221; 420092571; 509611601; 515346896; 248262593; 425862781; 466382867; 2967356];
[370982719; 474920649; 442599563; 269814375; 460989278; 395671987; 529544698; 463650811; 2842865];
[496685207; 394655489; 271255866; 439952368; 161615492; 329451265; 73214781; 510211499; 1182215];
[70850722; 428403677; 66220322; 242447401; 199240728; 36936944; 286940195; 334738916; 521907];
[67862194; 106548130; 199032111; 493938912; 150750475; 435801293; 300105416; 379437474; 1581060];
[310327736; 348662938; 268886883; 309389010; 125065785; 483090181; 391212234; 466849525; 257361];
[280578458; 471747346; 88791520; 435408523; 79721411; 45065280; 521248787; 34975548; 3166668];
[313645865; 204806486; 289731132; 220023659; 415238055; 275506586; 1386581; 503834910; 3157572];
[27143057; 188878058; 79551307; 374883889; 26351280; 386859621; 288674787; 18702937; 1466908];
[378328790; 533764816; 70233243; 166595619; 12777550; 474510539; 208854190; 472111175; 645230];
[307088389; 26497362; 504916560; 426603867; 157475169; 71713912; 28177371; 133131397; 1687025];
[237460617; 151679650; 390001684; 125139040; 397085006; 469263626; 62446762; 492558442; 127203];
[432976114; 119076216; 516516683; 43701466; 80098122; 187326449; 361667384; 149826489; 1420957];
[195206778; 213247282; 192002030; 439408435; 323080469; 10941150; 498971699; 339639259; 1374491];
[256286206; 32761563; 63188449; 233083630; 80137348; 482505600; 126486156; 400651745; 2422102];
[355290238; 77850089; 279427009; 183739987; 71848565; 103307232; 100411657; 245092872; 1881238];
[197481524; 313419643; 7847199; 163951466; 522157783; 399895366; 253346775; 209864435; 701792];
[362901773; 4424925; 511084541; 508032825; 31769908; 149390274; 463150819; 89309778; 2148381];
[331025509; 331017460; 327995868; 229640159; 265313506; 518574502; 237705868; 202306199; 493600];
[155017320; 47154239; 483069657; 447094999; 387924807; 479661695; 457398568; 106941070; 1453059];
[512075640; 292501037; 518042757; 480992821; 508881180; 383064345; 133422868; 328623070; 947891];
[531696032; 477899567; 366020748; 78739891; 277277348; 490262280; 457013332; 447382474; 1371768];
[517778893; 408276228; 97427871; 100850286; 192859065; 378608444; 405097075; 171902505; 560775];
[296971024; 255451655; 32652855; 95925954; 105413704; 114253775; 212832424; 404175789; 12208];
[119587855; 461033990; 200374478; 246338029; 399210439; 460942352; 119654439; 87341636; 1812858];
[342199680; 426998307; 325946193; 306456312; 421062971; 339983615; 526520169; 415091955; 2116726];
[531194865; 521428489; 326325222; 440422495; 418996610; 278409014; 166783220; 155230673; 2106316];
[59856287; 89739265; 300513141; 93700341; 440797334; 178803634; 2396166; 365866150; 2632662];
[245372686; 470907063; 229995269; 180051659; 270847472; 301185369; 48940558; 208669864; 1659908];
[532633949; 213762497; 197331881; 472291845; 194580945; 234126667; 345562220; 306887316; 1321775];
[189198316; 500505257; 163670182; 188683842; 84340566; 527119293; 425046172; 361370322; 2531797];
[129296635; 482954022; 193423355; 91009565; 368899643; 501328610; 92483422; 35439005; 983327];
[333177944; 382566559; 345533644; 40613394; 337399448; 221838657; 417225282; 480170986; 1841773];
[124156395; 356563875; 30566384; 524831297; 481718665; 499662071; 200529339; 215153713; 2123672];
[73513293; 390511476; 249404538; 415460528; 41586014; 410450435; 17054723; 524778078; 3010288];
[256449487; 497780909; 69333571; 529134178; 111337559; 266621797; 420542973; 341239138; 3157224];
[519135993; 512927987; 211069983; 503693206; 200857560; 146615643; 61119771; 124832667; 2045482];
[246661665; 30502068; 371888745; 114491707; 438059136; 463926491; 207963979; 458838199; 2894407];
[33918655; 496089265; 449700358; 74098133; 226309151; 42900913; 490793054; 490404985; 1126944];
[228404000; 248401263; 507905622; 333182771; 276549086; 23488597; 302845607; 384288215; 456610];
[404944526; 388921261; 140169175; 251680347; 502565447; 350228171; 269242099; 396339308; 2202406];
[308438566; 298574966; 237735064; 35783644; 500252713; 453355393; 68663862; 358401884; 2369596];
[383244932; 59137480; 371026404; 225344061; 493877508; 463007823; 333051742; 51481128; 2048013];
[35338905; 186424583; 433062937; 445948604; 195810088; 350339263; 303551556; 362026939; 2844126];
[86709917; 266187042; 32723115; 355992769; 111335285; 25766121; 186223515; 182083945; 2599901];
[521084557; 360993690; 362181842; 473247685; 287852841; 460044204; 442408966; 445173044; 1469624];
[481163522; 273269218; 420612774; 447511912; 189637749; 524890341; 162057944; 316949139; 782905];
[192842667; 6944979; 57356505; 131393982; 530520392; 200690534; 314532097; 394261951; 2480185];
[440391252; 466036489; 371272081; 143338525; 220535041; 271454488; 240092547; 471391918; 224617];
[489790148; 489670027; 302108727; 57060968; 86680202; 522009402; 120914450; 111323845; 2908110];
[20738195; 212983600; 524254889; 375266305; 182090602; 17777044; 129347315; 356191114; 451307];
[217717587; 336964927; 284522660; 296311446; 529448568; 261160881; 222475159; 498644819; 2110500];
[362196620; 3599170; 118673709; 518168196; 105810472; 435447781; 404336370; 41763839; 1347907];
[513140326; 344443204; 522753845; 159053827; 497007221; 267080525; 444205646; 53436380; 2723982];
[159419239; 17768110; 373134656; 257833551; 150492148; 99735553; 403715591; 166011063; 472575];
[37038382; 312978182; 274028032; 283335015; 36264791; 44111339; 274209943; 124203241; 1708498];
[52090461; 251045009; 199948968; 337996934; 180595960; 52333969; 143801868; 58971361; 1790867];
[475842766; 395235587; 118390447; 62009108; 263138144; 464506806; 255829998; 256666370; 262366];
[39804993; 207829549; 46072352; 199234341; 144234003; 394712708; 4837911; 455726871; 104898];
[266104010; 458570401; 188523347; 456688313; 381717393; 233930460; 163099653; 511240852; 1912898];
[231140900; 53024440; 470027022; 139189474; 264241734; 77105741; 19867066; 120238812; 345093];
[42753028; 397636632; 67309367; 445253496; 179847240; 153593635; 53250528; 209663191; 1534246];
[470721198; 284381439; 240532540; 461511587; 376077580; 385583443; 338253235; 421259404; 975833];
[149627967; 143554077; 4073332; 37796074; 340310208; 397711785; 41153407; 267340851; 1734272];
[16163460; 149103291; 376817278; 143724809; 439058965; 452499532; 419202180; 403292760; 335072];
[253949463; 352338334; 505856239; 80781600; 96057167; 210663372; 442281698; 144029359; 2844314];
[520949468; 214842410; 524229897; 10731552; 51707661; 433679238; 109408926; 12365359; 1895226];
[241802785; 241960175; 460533056; 461687128; 53664613; 41406463; 117765219; 12454091; 2542902];
[392655849; 223467501; 436638492; 338908419; 215461013; 20142736; 155316208; 142310744; 3150800];
[325322646; 140965148; 385148789; 382325762; 460489973; 523009140; 244606297; 397153966; 2402236];
[74659292; 218446387; 31504221; 444459800; 471882769; 214063600; 360556428; 67258085; 566301];
[127225252; 359895184; 367240021; 451368035; 3190358; 386840069; 94622942; 489381081; 537693];
[392166765; 431813183; 519049340; 280784107; 270634179; 287622818; 63755507; 89638463; 2468185];
[177437969; 334506908; 438114763; 198541030; 293678687; 82836074; 504010004; 313220604; 674087];
[160083929; 23527529; 193255853; 483981745; 486202459; 272158636; 240539989; 2325237; 2111085];
[40474143; 146405309; 383778747; 429846208; 73452220; 416739387; 475985756; 102213679; 1874860];
[198996430; 278828213; 2648044; 6451736; 535577673; 466154121; 235655377; 485218372; 2629662];
[306199601; 516990165; 393440770; 286729209; 58127282; 131718407; 110384099; 102616382; 2911254];
[245514431; 370898131; 165231282; 181809936; 381331102; 65169389; 161249434; 256968762; 128196];
[218745990; 508284196; 278623484; 443943737; 77708718; 9771307; 106723094; 242567042; 1149074];
[477770783; 490132830; 426347325; 89355382; 212719351; 289672061; 334360690; 480812841; 1203421];
[453935183; 105134308; 12980875; 230377804; 252155544; 394466810; 340609508; 199707510; 2517197];
[143731646; 88375347; 240139405; 514491375; 332290858; 150338826; 427246383; 382368915; 854831];
[304596187; 370638110; 44610322; 323762990; 159574709; 474752998; 418508887; 242229166; 3079796];
[378777038; 349472877; 204210698; 30473475; 274519400; 196784861; 78083435; 207767806; 782182];
[210196482; 374700559; 95991674; 369554716; 148157764; 439890005; 248579978; 177539259; 36392];
[466680793; 506362459; 310415200; 113453169; 373827127; 286097124; 387520612; 138293480; 2567879];
[465613127; 100882335; 178405451; 203147551; 341926940; 233407313; 487304714; 57548160; 196881];
[112486955; 411280434; 378669823; 70722843; 337817597; 255974244; 381047958; 491949814; 468978];
[34711895; 176731338; 109964892; 405746936; 525833707; 484296701; 258274299; 426160853; 1707518];
[505748163; 507168387; 385833913; 254686677; 403048044; 266712523; 346679402; 536175760; 1165943];
[84854406; 520377330; 484892345; 91249149; 272711134; 435353275; 502202187; 390025585; 1894149];
[514517236; 494042983; 118153568; 190437997; 74887933; 301211346; 298214804; 508888253; 2908720];
[397236809; 231264284; 373658294; 81545567; 436111819; 189898371; 165773518; 398613453; 233559];
[210326906; 153267462; 337185; 144499531; 432717361; 28647386; 251267642; 534232825; 2008887];
[4411499; 175569884; 102786983; 522025685; 313259653; 21324375; 64297557; 216659533; 414638];
[481668685; 125257456; 403378450; 477518597; 329089441; 245783087; 436273840; 480314419; 2750805];
[65994466; 268734545; 54282701; 269085013; 408007102; 300083444; 314573506; 177493138; 2064807];
[103426324; 92510207; 495761768; 510314251; 427978880; 260918341; 160499981; 122424115; 744777];
[123311184; 113943512; 121102717; 404436570; 411507377; 128548609; 127126528; 451524537; 2012948];
[254352310; 413107598; 121302964; 416972429; 446213297; 363713379; 316028359; 448434688; 2014111];
[416612196; 468894365; 535465488; 150077792; 132132377; 20184738; 182897185; 342381991; 457011];
[431052634; 490522255; 341209129; 343696862; 119231545; 255037404; 169762359; 176256955; 1245311];
[474124815; 319763867; 38200980; 524836184; 316371104; 107551425; 420088191; 314302358; 2315570];
[160516304; 358387580; 442838373; 38204236; 72362728; 109682676; 149054837; 142263217; 1182941];
[252088175; 396708052; 457081865; 160460806; 276827837; 348034602; 55332077; 305878564; 3975];
[516448877; 193625769; 504786899; 526116794; 167322077; 352003293; 13727432; 297684919; 1518462];
[511645739; 309321540; 312308392; 371864161; 96790903; 176667140; 180161422; 101594216; 213311];
[265755851; 29896112; 206230309; 159652297; 386480235; 155991439; 417741260; 62729006; 2109337];
[274271178; 458875274; 347886211; 186025161; 378965947; 424436953; 248468220; 290845656; 1162612];
[8739489; 295755164; 221581825; 472634937; 486426761; 21043470; 48097811; 416320291; 2339878];
[62393986; 247476101; 536326815; 114569625; 180880275; 88871148; 97710103; 417915498; 2346554];
[399023215; 300503144; 382839906; 388257692; 37676339; 230105392; 100437643; 192041132; 94450];
[536262229; 377174434; 245601579; 476522406; 519925361; 497884007; 142788767; 302397217; 531935];
[384930625; 150510681; 464156799; 306792864; 74780539; 52721221; 77344312; 288049479; 195151];
[477493031; 448604900; 126721618; 276007886; 225826391; 314417590; 69942723; 138485340; 2691281];
[529970549; 423318109; 467766409; 115047369; 470353736; 85272099; 29677530; 231544212; 2303053];
[265401494; 301946960; 21800487; 488287257; 408879446; 491351112; 94198413; 804547; 2484298];
[125291750; 260411391; 101797084; 413016516; 35271484; 526191701; 357317109; 512663239; 3019660];
[32279864; 296364995; 159221626; 426831601; 514693359; 63228781; 139825836; 148225686; 1547399];
[274394898; 528234942; 394537849; 399367103; 460435060; 150946937; 249210687; 89589719; 147250];
[509387359; 131416725; 107823758; 410081160; 354598278; 357384281; 334276743; 12421207; 1825895];
[248459982; 193649330; 150990792; 74390454; 287169951; 196262190; 305636722; 360167159; 2175562];
[163952273; 392035215; 67468261; 283869997; 12888529; 197499670; 34516161; 132612342; 1003234];
[215208839; 268009445; 276283870; 10261438; 214858632; 287407760; 372783503; 469071120; 196944];
[43525921; 448497781; 299311312; 197534767; 395695830; 456302547; 536025219; 27266132; 780633];
[497667465; 6538407; 137302733; 20646337; 83770606; 339630662; 452111645; 384975567; 1929412];
[332449685; 536718055; 121065364; 248047693; 440617398; 271802138; 252524717; 17004641; 1277050];
[340273040; 260989372; 480786964; 209183399; 424701932; 492291725; 261427834; 238117856; 2947874];
[161500241; 174032298; 294602875; 297241070; 12243287; 414447490; 48145045; 118994722; 1094346];
[338199905; 188129960; 45502532; 169276883; 400562560; 98951255; 4389996; 320562644; 307183];
[424875211; 525568679; 463935520; 28080303; 455558897; 483793186; 302391745; 278336990; 2315364];
[338270909; 497454586; 229122054; 86588858; 116644244; 395657834; 18400296; 90323586; 2418761];
[523416861; 515517253; 283809048; 80540953; 490991110; 331138115; 237325800; 394431976; 239935];
[181013614; 265809227; 483340235; 114727722; 161145622; 443861262; 287795998; 408204299; 2924789];
[56398347; 128881481; 99381883; 456326327; 329949777; 82064751; 245585459; 222429468; 1865586];
[39513993; 155935032; 2397583; 497201071; 372250708; 453961736; 206304800; 520344769; 1160452];
[505620808; 365670250; 146710535; 417961617; 140679091; 134838364; 410366274; 21628434; 1198725];
[274062739; 13106525; 77321508; 161749771; 417827962; 342044468; 414523994; 315314955; 1391903];
[238742304; 60732605; 409564616; 19048396; 318014067; 348471108; 392548670; 168389356; 235820];
[182147900; 524872208; 340234216; 201289329; 257991685; 141569392; 194945208; 142154835; 2469166];
[252435205; 369145414; 335097339; 91088445; 217380205; 138920830; 131857893; 129353412; 1775892];
[129915880; 453150949; 304072814; 292621104; 480517250; 166422485; 531129082; 281289626; 3089462];
[187061840; 383994637; 10690349; 393269445; 448543488; 352908662; 218607772; 452979810; 1964067];
[250697949; 361728103; 524223874; 251477566; 327526486; 163361740; 260918782; 50598274; 1846238];
[387783667; 142054329; 232440213; 168600254; 93107451; 294837177; 403748195; 128033436; 637195];
[52237072; 215366815; 382958283; 395422708; 136901230; 266414236; 389783599; 308067228; 2118064];
[434843102; 471753800; 403494172; 503462003; 242375989; 331736404; 473297512; 294887044; 3143608];
[31304487; 286957121; 488625170; 165439513; 162493784; 534838032; 139556671; 415302088; 1175440];
[112211556; 258858439; 243063662; 79194472; 140232963; 186631121; 393165930; 152996004; 2183339];
[347923506; 523662096; 170989774; 472769938; 530915896; 397337735; 233000442; 310428154; 2379231];
[194230169; 329372882; 72819858; 159103305; 479920582; 487274552; 362483556; 26855841; 2816190];
[257571761; 8581077; 216053464; 194979927; 12791583; 259782105; 298879203; 31025821; 2677269];
[111756290; 31482692; 113427594; 323939375; 180642014; 266292317; 35856908; 303099016; 2656368];
[284476662; 323599828; 329329831; 451937742; 390283274; 182933640; 481211284; 504079531; 523417];
[97768327; 7096766; 229388453; 319162265; 510953551; 429461831; 49416738; 45410831; 963702];
[252177104; 229405877; 163712662; 267725838; 210074850; 83878641; 339510588; 411199036; 2105642];
[55592226; 415720419; 198762354; 33368238; 118194175; 296088702; 36972288; 62925671; 2035154];
[452082814; 136564011; 481564321; 457402855; 18061998; 155815211; 387930638; 123344212; 325830];
[223117155; 515737790; 166438796; 267240455; 450441232; 194325152; 266055257; 397589234; 881107];
[67324284; 255308357; 302221740; 312037953; 291972943; 4916714; 482139522; 139796222; 2344908];
[482943568; 463261911; 254541718; 318950549; 40076040; 510609222; 46776818; 123704214; 2370570];
[287118143; 493462229; 138847935; 160716083; 256930484; 282193315; 200888055; 219290763; 831620];
[85892440; 505774502; 43987456; 457359065; 106770847; 292889421; 133094711; 439404633; 2204079];
[208872335; 137391694; 304705437; 179575206; 331119786; 408559157; 287158398; 223368793; 1584835];
[46203694; 19588431; 28502435; 294535499; 428583397; 473949140; 178793361; 376235397; 2410025];
[29367236; 365186026; 535855009; 481764319; 36831412; 443890329; 27186393; 328433599; 1463757];
[62793963; 374471743; 141931141; 306015506; 290355256; 529378443; 60560056; 517881362; 3157301];
[197226629; 76607020; 30421788; 280852037; 357815294; 230019875; 203444883; 398705786; 2985901];
[396989124; 253678191; 78494478; 418685722; 427620521; 63237766; 25621953; 320074383; 1599391];
[354077037; 74347810; 502404886; 165204422; 59554823; 173030972; 86628287; 337024267; 2462912];
[85427672; 229071516; 332649528; 21535583; 280579195; 212878103; 362062462; 524163811; 1747097];
[513792949; 188378618; 141905642; 170667199; 5237790; 70069826; 431879092; 473741703; 591634];
[452815284; 529111950; 79737866; 433011611; 530756422; 213808329; 34494061; 340268546; 603125];
[235198276; 73605536; 53651612; 337946043; 535383323; 36634900; 154597126; 243803953; 1877922];
[34203852; 521828892; 440165487; 432271032; 132292321; 316995932; 255297038; 405031463; 2054145];
[330127108; 178145698; 515173778; 57385537; 190839683; 193054549; 443299060; 471481981; 1062385];
[21003681; 165348404; 333105981; 130580287; 247513062; 491145187; 351723980; 77738286; 2014869];
[172806608; 260154948; 535583350; 347232080; 354505086; 130965244; 189957966; 279667504; 1691938];
[249125618; 489134152; 372237398; 441758918; 188831821; 484528593; 431549510; 418947438; 1481516];
[496086780; 157866401; 467533190; 363307277; 367444343; 364318675; 453804142; 269419584; 3075592];
[237355126; 85999109; 432692399; 145089095; 170169449; 468454619; 422537401; 286367686; 2009613];
[115359830; 162220850; 230587879; 441902125; 235042034; 338404246; 505646099; 365165964; 3041087];
[232809118; 80350974; 339790406; 121607514; 258858883; 35489945; 344739098; 265441592; 2000568];
[220691045; 108736340; 87038098; 202466491; 129071529; 233096010; 89987704; 403709078; 877741];
[375833030; 481798678; 419858216; 525509543; 199927395; 353352772; 508983045; 525950672; 474482];
[202214408; 479177897; 221592006; 475100652; 282627067; 279379302; 318353522; 528474541; 481997];
[176868623; 436219069; 130422484; 182741668; 355825678; 352864097; 528419202; 425509550; 1676177];
[322754274; 48728668; 235968822; 451840504; 49024488; 426556472; 210155533; 26942198; 148411];
[73593231; 502554768; 206053333; 512169028; 37975821; 116521375; 384378888; 309211934; 2739781];
[493023211; 382847531; 446904061; 396467364; 263934866; 219366944; 491149639; 478003849; 2622689];
[216514560; 133664161; 46793929; 219825894; 472819761; 86634126; 99627244; 500750796; 930530];
[298922994; 22921959; 235966564; 290521619; 62256934; 460283425; 79592125; 43057794; 1600525];
[304430934; 365272662; 121879258; 280172106; 486598753; 375895919; 10796099; 198857250; 3005887];
[422011588; 118974610; 529273072; 523083491; 187299071; 436146462; 307310803; 435112346; 2404483];
[419164439; 285996898; 296157588; 72365262; 415365467; 153064422; 227503306; 348929229; 2824695];
[90637339; 103102562; 527971849; 412515817; 231245109; 184578941; 315967826; 170143462; 934297];
[237343612; 393573018; 252142032; 179837435; 220056616; 514064155; 167712112; 291478648; 2494896];
[316522278; 517222535; 453668823; 58814591; 473776174; 117935540; 333961994; 171555528; 938893];
[420383863; 423710630; 60376565; 140020127; 515654021; 183413449; 403126265; 200029264; 1859975];
[319779370; 441189569; 499169366; 371878093; 264862567; 143402904; 462051175; 173828009; 850526];
[69580661; 506201037; 198411964; 446271412; 18591195; 354843000; 352782100; 395016137; 225008];
[267640313; 318431480; 158926750; 491254838; 129869648; 246314538; 405305338; 230894251; 1115832];
[280541360; 152314169; 465734175; 25938320; 203696801; 193403158; 531276888; 203520376; 465083];
[527430534; 84398826; 12990023; 297231532; 473000236; 155434230; 434472924; 409191803; 1041271];
[120572526; 1996662; 371462329; 164419267; 15205213; 10286173; 436595579; 461153233; 783432];
[223407719; 269812322; 12459674; 510184062; 161905724; 179976081; 115444851; 313631249; 1494364];
[165977170; 350223707; 204662671; 440891930; 117157968; 98221956; 221653542; 64469084; 2670827];
[329166053; 222907253; 232618765; 364188292; 240565356; 13515140; 532908781; 440924542; 334099];
[209312340; 261789446; 429267291; 293096615; 389678462; 133567923; 60848328; 443345148; 2032910];
[495068188; 46939379; 381889140; 79100770; 32641614; 319951024; 394150995; 39717289; 550704];
[128501957; 373478895; 246444839; 534550237; 314638920; 225337203; 347393473; 527532055; 1811175];
[115877201; 203243665; 507464052; 171261735; 57152313; 134240589; 223394843; 400189324; 503508];
[188611670; 27363911; 182902911; 198823682; 320238382; 5885140; 273598723; 120799252; 2344266];
[291220943; 66355403; 334141744; 437760789; 357154124; 164209787; 124623556; 517684550; 1242232];
[197713481; 282324090; 181885281; 472363385; 197974441; 225515997; 344643627; 90814238; 1867673];
[510232916; 281764242; 59500574; 248248265; 254978679; 97889627; 204244046; 274563219; 645339];
[391450270; 298138252; 498601920; 369821966; 290816875; 216357629; 208048159; 330597700; 2048593];
[307377055; 463912527; 125053621; 492971366; 109919129; 193383355; 316238826; 310269219; 914365];
[376005745; 53457676; 476764042; 412199426; 301097037; 372814436; 330159772; 164360960; 1787855];
[431261615; 132866354; 203031876; 12630896; 86065618; 436369682; 182504584; 347767206; 2428645];
[301375375; 98596614; 60182044; 41533547; 411998153; 441215912; 35198078; 530799650; 2774549];
[159944041; 14275712; 53523678; 517592749; 373741694; 200121787; 393917199; 455224642; 2386790];
[325667016; 145861140; 372946044; 242129691; 404171364; 152903650; 290891082; 526005033; 572790];
[387845297; 379237983; 19663851; 478248482; 120006238; 156428380; 323267385; 246335245; 2000348];
[499194282; 9272825; 162646381; 382474035; 468635928; 103877213; 103426062; 196149837; 560950];
[502350628; 410045337; 286528147; 280749512; 390173214; 475400764; 225598463; 415546812; 1635009];
[269124456; 104449621; 433145198; 400856411; 54791926; 296242417; 445177213; 421498752; 328166];
[150682330; 442986191; 479905373; 173308192; 181734146; 114584662; 8140048; 156673956; 410541];
[54774229; 200468868; 337265088; 82795673; 375553143; 278146850; 340644025; 335022530; 1316073];
[116427753; 476307304; 168632549; 10228501; 116184698; 292031162; 92592058; 178061101; 1225108];
[351528840; 278805437; 378177844; 43892949; 406780261; 406893357; 343560664; 393437054; 578606];
[474072855; 377779944; 536725997; 392008543; 413386000; 455807418; 247433000; 183956189; 746218];
[248866710; 37508495; 315706058; 463215503; 289656870; 442360628; 375545395; 183590345; 2074298];
[437489994; 231222501; 380981922; 356073326; 199404476; 246251635; 105695111; 403594153; 2138800];
[448861695; 367151804; 250190683; 459848847; 434359468; 389541387; 414809283; 250583453; 3031474];
[301278708; 465080692; 441891270; 33846746; 289746921; 391788515; 272013141; 472989882; 411147];
[58600451; 270309681; 70600049; 59709779; 498883891; 277845249; 291979611; 455356805; 2783822];
[304449007; 101466602; 340438083; 381966564; 54148739; 405826539; 187314103; 120793512; 2263784];
[206543177; 256661835; 492755216; 424829445; 215793641; 121834504; 424538186; 435134443; 2912297];
[397848924; 116011774; 404128185; 296701601; 392621388; 187915002; 272221050; 280135498; 2429619];
[58499924; 493510683; 307057790; 222895831; 413629302; 496260863; 398243403; 216636395; 255706];
[447864325; 309557818; 65352636; 321992376; 175639205; 259023295; 241485335; 129994594; 439015];
[460518504; 121312976; 218696830; 6264324; 424377169; 475831480; 284349872; 510134765; 786390];
[77936236; 111656589; 94816673; 482898351; 287748222; 217094457; 295705835; 33059693; 974568];
[218075831; 105017273; 10483499; 464374429; 470825157; 502994870; 226415182; 426667289; 1758220];
[253681030; 74857870; 490696208; 380671072; 94119386; 498473350; 512339643; 212910115; 2958478];
[287252795; 154189073; 50499295; 54940521; 511631884; 533721483; 414421470; 217456699; 1837915];
[7906577; 102067801; 17665188; 313230472; 355580298; 373075455; 154214509; 31845827; 2483465];
[384928409; 444657997; 311110246; 398958043; 203013168; 140437286; 31823921; 290937845; 3088054];
[156285386; 53140022; 454801450; 454755473; 243420652; 342015769; 400664445; 491851500; 2872237];
[11210341; 502013333; 411796695; 434816037; 113951782; 328360364; 224962769; 160929835; 2495018];
[286446056; 254903430; 196859357; 410050750; 36271030; 85917737; 503599735; 228924971; 1728398];
[463814265; 200945131; 404883501; 78952967; 416736737; 18789096; 118527945; 123696303; 1224690];
[3711563; 117219906; 20942729; 173273691; 344112630; 15528323; 103995112; 518071504; 2867312];
[174165544; 180137052; 167829700; 260588926; 209918383; 32296614; 66638200; 312349124; 3117878];
[241920995; 87828993; 297957804; 498687464; 247777694; 342612916; 137349463; 237159951; 2326532];
[313271434; 99913422; 280053517; 401256757; 72632383; 17359399; 423238054; 119668148; 1450955];
[535395711; 276058589; 91981349; 263208842; 365513502; 137809302; 240291716; 14869160; 435035];
[254054463; 194939586; 114973572; 32299031; 289571015; 258698840; 367642381; 194326627; 780006];
[122624982; 290389069; 475568591; 101891550; 440659842; 315265525; 366408912; 324340583; 1549667];
[225066350; 133862284; 33108151; 29634809; 457835724; 429943826; 536691553; 167270799; 2474053];
[508428372; 30116798; 34246899; 475284892; 445299921; 476276322; 375106384; 385987818; 1520887];
[315645100; 319275298; 226414366; 409905476; 141014205; 221829998; 534761902; 261599743; 2565707];
[519553901; 298968742; 471717591; 467814117; 97849388; 206008538; 193692207; 282389865; 1390328];
[313941609; 469140975; 178516274; 239650481; 242893358; 397148602; 204382315; 151076170; 2508153];
[292626889; 529780585; 39884577; 63021534; 304211874; 364403160; 224125034; 206889375; 2848768];
[454988088; 509480543; 342183108; 271586952; 525751591; 37099284; 291513898; 532181671; 2935503];
[229488868; 382246688; 235091911; 480402293; 136541161; 73392354; 506040939; 279576333; 68346];
[266348706; 114018780; 390360617; 211582713; 96597522; 50210344; 512557876; 19237389; 2229715];
[137280525; 112082452; 454403846; 122322146; 369904514; 478431581; 502478954; 91528250; 555953];
[349312329; 310749582; 241161459; 7124758; 492329297; 441029876; 493994450; 119582193; 1262488];
[28797858; 282710851; 134814402; 401884364; 38721708; 290451674; 231595188; 52900064; 65161];
[339803732; 304627812; 100896202; 34230652; 487458212; 153135081; 105156423; 344004689; 241231];
[49864142; 69393375; 50568139; 89599894; 365237386; 424733317; 170688227; 493225299; 2793624];
[95019921; 232223968; 151552637; 382098298; 153632807; 416670962; 251010034; 266742577; 1139267];
[137378356; 526933661; 424823558; 527688463; 519999775; 350973897; 428202311; 209176485; 3095844];
[92280291; 156290774; 269249397; 356195888; 454374883; 239083651; 288317292; 339625389; 2441056];
[275415003; 66250890; 41983075; 30071536; 208770208; 318776246; 153229604; 301847701; 675547];
[418658815; 312983623; 181129396; 107015321; 77297273; 123013790; 407137767; 141054389; 2728844];
[122695446; 447043411; 294609550; 358805436; 434335287; 165772208; 26764148; 209480897; 1833291];
[182259685; 237668793; 357834938; 424538040; 399650802; 495210485; 76187523; 18608562; 130866];
[209513694; 526054665; 505116233; 492764273; 213668580; 310487540; 51208430; 236459199; 3076568];
[460245736; 156063771; 369693359; 269859417; 46899932; 126554373; 111198569; 321745601; 1149049];
[26751260; 177697046; 45405432; 441311164; 139035426; 237649358; 400282522; 483082941; 2707041];
[190575246; 409530200; 133903247; 65407673; 43245450; 294366771; 112289991; 421523079; 1000087];
[254206919; 107501233; 261489122; 12665409; 515132024; 516018801; 487229592; 26543133; 3170509];
[388195562; 232673602; 408644143; 221386012; 314904212; 232499099; 325978943; 342983082; 3101142];
[71007446; 209036232; 280326170; 27870584; 337365572; 472133304; 54868409; 174903228; 1370506];
[8022694; 529305844; 502289998; 453573278; 86730767; 469970047; 179123081; 289657134; 2170857];
[356681344; 334269628; 360894329; 42540852; 185453962; 329666863; 326924205; 428059248; 427522];
[411252201; 109206520; 396801471; 499278583; 368349661; 523989129; 487620069; 399452989; 1564931];
[307906296; 513639718; 126810120; 350992119; 243632782; 100754153; 176952918; 348875949; 657476];
[56140778; 298750360; 394727923; 67236157; 490208081; 440257812; 25002694; 427121131; 3053301];
[515096443; 78179654; 106081887; 42442437; 511485865; 86246682; 438136692; 225684052; 1346556];
[108364985; 377243671; 511833827; 60224227; 109615250; 450599960; 417038273; 323384911; 1676810];
[363935944; 385585541; 340486652; 234246825; 243121728; 188183334; 107052911; 399460407; 902286];
[502825098; 314693940; 416678990; 64162357; 470838415; 349543944; 77093400; 87590051; 2691486];
[345844977; 352300440; 153584179; 56779840; 411968948; 375076666; 77706264; 243861086; 1257134];
[275170700; 124882388; 176077757; 457480618; 24626568; 342000074; 325319091; 135612784; 1805955];
[391200276; 16903028; 167555489; 51398187; 83558497; 520113383; 168802513; 36939380; 3132368];
[81273531; 265017776; 361259750; 272404856; 375063056; 273834969; 297036139; 128943606; 845970];
[60343108; 473364533; 403947465; 342412968; 189620545; 310250935; 129432131; 76326672; 2274585];
[259419577; 125247679; 55050883; 486399285; 32834194; 408118931; 480418647; 311835910; 1130911];
[57607074; 86250201; 306275422; 528245689; 251949518; 379927984; 360193236; 69168859; 1006893];
[130747142; 319920570; 434424302; 147781650; 95888120; 226016445; 205956968; 320606008; 2119152];
[235070924; 364256856; 174317221; 163945541; 476446623; 63227921; 11394133; 426363327; 2461620];
[478538189; 502385703; 417348522; 10985589; 151513277; 310369468; 94849544; 288841200; 2526230];
[150399061; 341866885; 304164084; 239547892; 69747049; 304608274; 49549343; 6165686; 2755];
[345408731; 420704730; 362340481; 12634761; 340517284; 520407491; 99938920; 330614781; 3064050];
[244958983; 500299044; 383096628; 213546056; 377144183; 372181542; 413011011; 403347638; 2214385];
[483423830; 63335015; 191658787; 55937145; 196218412; 203383875; 89831536; 385641289; 1266808];
[468295705; 83172295; 42383630; 175402287; 422752255; 410331826; 424722542; 96097710; 2069849];
[51178139; 37060473; 513160872; 282451681; 272251190; 469054317; 97787711; 235395492; 2077256];
[399169733; 115681151; 201610590; 220183061; 303200292; 247205339; 250075010; 10264055; 794381];
[442458366; 162179569; 15714696; 205319776; 233595562; 231225400; 330250791; 133028852; 2853159];
[490361478; 462822822; 289192121; 368124074; 475418053; 388640436; 447602076; 240115677; 80132];
[287675293; 156108751; 210205134; 94841309; 414750848; 199612208; 343034617; 86399542; 266115];
[289870637; 381898463; 349174837; 189256379; 162419914; 502902249; 393688481; 86885682; 123213];
[483218011; 60391661; 39702573; 191993560; 120679127; 123157741; 372688342; 290390874; 1927708];
[304518654; 164813169; 226382455; 158011203; 513718875; 217134957; 374474292; 242176066; 2703986];
[129462045; 187851090; 367960217; 371074844; 276525492; 410364102; 256490966; 163223213; 3082774];
[385603672; 248835672; 465788196; 384243339; 103466905; 347761436; 82354473; 534291903; 1737107];
[312442628; 84858402; 210160577; 116598292; 2371390; 96377927; 496102534; 154406587; 1973097];
[424401383; 84594252; 11061166; 304535097; 59050334; 111231628; 521477407; 47110531; 512278];
[493913912; 140807282; 406086105; 417027327; 381335797; 211631679; 212919777; 54001122; 1382789];
[428605456; 221628991; 250371852; 189197558; 536606314; 152963216; 362870753; 110791260; 281186];
[496021378; 511599382; 234452032; 495791584; 506206597; 490511929; 268807019; 78827211; 802891];
[505343354; 285394991; 89732807; 167619976; 432918334; 256747899; 168355047; 222830277; 1714363];
[131011957; 30497449; 434486661; 290180182; 68879402; 498557545; 414827378; 430431002; 2456176];
[232769048; 237958869; 220031721; 74262007; 87968047; 294245686; 129801370; 147698534; 1043790];
[349728561; 41136258; 74247963; 399471824; 438164747; 93077154; 535585782; 224209080; 1197375];
[51491700; 372610356; 365500745; 523393402; 224551917; 312675025; 375631163; 146974418; 2754920];
[172003709; 430695653; 274454628; 16310853; 456197223; 205724888; 514862634; 313174459; 1428731];
[211690060; 360347710; 218751927; 393652807; 500039141; 186727212; 313373898; 388285966; 2692713];
[78190840; 333792478; 37693116; 121826967; 110789109; 72640361; 143617609; 177931139; 2374305];
[275447469; 212470670; 158394127; 123119145; 326847382; 346226663; 299370177; 55839299; 94992];
[90814547; 533809311; 297880162; 373029449; 227060418; 74408337; 401806515; 67376575; 1674381];
[118574367; 55619714; 205544012; 26720507; 519556585; 275224120; 274097272; 142469215; 2231847];
[2331877; 242131006; 470198301; 363002677; 105244189; 224875049; 358333610; 122771792; 733506];
[510941444; 167893347; 172509855; 232446594; 532048056; 49545116; 88680079; 209728618; 590485];
[500117032; 423479113; 482679575; 473022145; 336774430; 302101359; 298280616; 227420724; 787261];
[386165550; 323127028; 130988656; 33372409; 64005494; 41267034; 185052078; 115949848; 1665909];
[445464340; 130600818; 244974427; 502459396; 167033451; 528386856; 78344387; 444997278; 937407];
[519324447; 298773260; 526865706; 173570330; 460292301; 108128245; 473562797; 510384738; 1318091];
[516289904; 495880464; 349336868; 371204830; 76435906; 22241317; 26809365; 462983536; 1970068];
[374033005; 178080092; 204399988; 359627574; 164712840; 26706590; 354133495; 66751837; 1240526];
[171360909; 507471873; 118894749; 51772722; 206169111; 424494875; 215463079; 451807657; 3076067];
[444011531; 308950666; 140276924; 301864335; 281197799; 291542136; 235255759; 269281568; 2069644];
[25168104; 250942067; 449897827; 399213825; 504247556; 495687243; 43914295; 514419013; 2487206];
[433390451; 298022687; 483718488; 459799983; 243274479; 410444395; 252526865; 523577034; 1169687];
[112796411; 36323961; 455254911; 416084075; 351572042; 261396897; 324114831; 445321314; 1896224];
[110459514; 412012201; 178255839; 522770202; 119736429; 13219798; 284074167; 515072579; 1557257];
[427450748; 274200684; 82457321; 246302050; 98467016; 294152064; 393595446; 353262136; 3074367];
[355506164; 25555716; 402459453; 464819065; 20565918; 332291868; 429288650; 277657554; 812323];
[117810683; 102260543; 320923516; 54789256; 493688660; 297582674; 392396771; 388034721; 2017437];
[120709271; 224053379; 330394588; 522020455; 436248643; 210173745; 47305262; 280632965; 466285];
[85668316; 129856323; 231884529; 341053334; 297993374; 518313243; 127851670; 513795966; 2599792];
[499907911; 532100423; 429579649; 26106465; 284089495; 274364517; 438415089; 344029854; 3041809];
[104606594; 375876611; 145083716; 273130758; 390198096; 376914375; 215161131; 535291591; 2953188];
[184088995; 473356288; 447182161; 133410526; 65226475; 223814977; 511272809; 198310298; 2353357];
[336603638; 436044183; 470256369; 250065761; 163752160; 403482896; 48722170; 318314270; 2786830];
[372659399; 53749027; 365917544; 102593833; 365116494; 313218116; 387532738; 32361299; 1100338];
[436428171; 264225965; 264772305; 26119490; 112949650; 320057652; 187337551; 348959845; 1519418];
[486642510; 372401023; 274696761; 535329048; 112734938; 308569906; 97034511; 168707552; 2358378];
[157825023; 317163943; 156161526; 148331231; 55303844; 289215088; 355620013; 46951920; 825759];
[474801738; 477454722; 154838412; 205016485; 415077329; 351515823; 529336586; 164757909; 1302751];
[135730084; 521865078; 428137617; 536467148; 478087694; 396121183; 515013245; 444459768; 2645959];
[173503652; 304851570; 235027691; 160031132; 341567293; 419392041; 52411649; 446565488; 1744744];
[394450266; 312522165; 155578187; 320192932; 413619680; 512753635; 215993133; 423230348; 2627247];
[293307174; 89980207; 123541225; 318219316; 257600178; 334741115; 461194863; 395482637; 2493300];
[134340956; 426519168; 131711529; 246312207; 86988474; 230193353; 227651670; 307966495; 256279];
[383215744; 253566934; 362382478; 32625547; 496112110; 7551278; 242832562; 132861297; 985795];
[336952304; 198215162; 416045554; 96566285; 116985653; 114670547; 392673545; 61046152; 2083125];
[301216741; 155245219; 383807007; 380743067; 62155924; 409457833; 189965495; 288176802; 297045];
[536083692; 110043989; 508399994; 496948770; 243269421; 93150569; 260141375; 121557505; 2462433];
[132285990; 185789533; 121589057; 91765698; 171146411; 351562498; 115224055; 1388076; 479796];
[284682514; 253963749; 95355886; 264695341; 50508576; 30930199; 440368862; 469851798; 2881709];
[197624880; 437995173; 490388095; 503002119; 529020043; 473230212; 245251056; 88274348; 1338140];
[86274214; 481879117; 530464197; 88693614; 438972195; 290692298; 210835734; 45126834; 2315148];
[118317581; 503705561; 301301569; 433837751; 70953829; 302606665; 369564346; 334300509; 584606];
[151506869; 140722951; 326988005; 442537371; 274972246; 398931360; 26440925; 138210245; 1933144];
[80322329; 299242699; 111247804; 484813471; 242647240; 116942465; 478481924; 71504636; 2639269];
[315182475; 409509572; 38994590; 192499979; 186235108; 29012017; 87108564; 63964333; 3051129];
[158978420; 58152795; 211741186; 346488772; 291660479; 339991030; 254737933; 491024210; 563891];
[409268128; 384727106; 450857192; 78088811; 278585144; 122471199; 336215938; 99319716; 488366];
[336946443; 382406437; 423250459; 63393759; 103546131; 98080756; 280762441; 206927860; 1310274];
[517504286; 69444276; 306117053; 181387850; 408720365; 146157936; 392173719; 395307646; 601649];
[88473403; 437590083; 132154389; 516704896; 404131711; 172021489; 471560037; 298725191; 1616754];
[329920044; 436468651; 65825370; 219147095; 252020451; 168379393; 201844935; 504806620; 1349829];
[508042700; 501584630; 42965639; 404136763; 52682577; 16151444; 177326105; 177910241; 748969];
[51235904; 386211886; 402393094; 327558156; 467270483; 490304405; 47204443; 62372627; 2880531];
[261873055; 467057988; 430667960; 108749000; 487818675; 326949023; 505762032; 498079792; 3019970];
[323176305; 106892904; 220452153; 359488195; 268467237; 97576823; 119853983; 162959407; 1218634];
[34041644; 57281550; 225643391; 457828853; 356403734; 409128086; 344793876; 370730299; 2538228];
[176445270; 148359204; 316659465; 162272532; 98909817; 28239; 266553056; 27083009; 549849];
[395353068; 60844501; 116714754; 852286; 13918352; 108394203; 455792678; 210153734; 263439];
[2909775; 155935273; 242052156; 178766023; 429600653; 86636264; 433471502; 169222790; 778371];
[344654854; 316646029; 78887457; 215416722; 43793422; 369550154; 105392927; 410274604; 1607025];
[104086644; 528922557; 103612873; 295894707; 174567599; 429194357; 489180832; 196098230; 2305985];
[100812451; 534752752; 101774920; 206410370; 431722534; 489238108; 117017966; 470810336; 1060785];
[339155961; 240734787; 40885100; 139975345; 65472947; 111117123; 79029711; 362735410; 1410370];
[36539776; 176568990; 427704247; 375393304; 299176796; 406020156; 337116981; 256508411; 1809866];
[253703536; 280498219; 111662279; 199440950; 377889346; 187117568; 236074125; 354316633; 2469353];
[418388149; 65411622; 142914270; 503274002; 129349990; 107053395; 253155747; 269122136; 374756];
[368663971; 249953585; 131839702; 219016082; 345381314; 320581015; 67227647; 106361625; 2341242];
[207300005; 436918482; 467248890; 190431920; 94661202; 520154785; 181765426; 126485627; 542286];
[276120250; 72782205; 44866557; 536018334; 181304814; 86811530; 33198121; 81281807; 1028498];
[355394561; 372424351; 273495752; 528887253; 485834443; 201458387; 165403334; 503411776; 1925243];
[114732392; 504696103; 34766907; 258943754; 399549251; 481496106; 292713188; 82875272; 2884958];
[78344907; 294740841; 82688656; 216998708; 445413907; 307503807; 308321946; 16743709; 550561];
[448107344; 311790941; 367167821; 56802306; 116856088; 248551; 380411728; 325922166; 2802103];
[65923402; 455751379; 174985907; 31194887; 476209399; 517092386; 374243289; 83836467; 530591];
[316577590; 331448381; 378227439; 44824623; 413436195; 446539893; 142887373; 92356145; 1927926];
[30948359; 391874692; 296978442; 318376406; 331708367; 487027415; 92664272; 181977287; 2667610];
[468166004; 77082902; 150405330; 32919983; 242450648; 287436535; 156321174; 438841761; 1700763];
[206709141; 99450995; 303765580; 150852707; 402970875; 60250775; 111107264; 140497324; 2157099];
[56247409; 24049182; 80856699; 178631505; 228030456; 46068973; 477592543; 261349488; 1809807];
[336046082; 358193484; 503103162; 409108892; 511075397; 229123511; 200225765; 422293364; 2615531];
[329786583; 126998787; 258237811; 267610176; 27017576; 282263414; 37619941; 198587849; 730106];
[117098328; 102620216; 217026641; 519246511; 418591437; 12874489; 205749995; 391604205; 1722290];
[443467324; 439085862; 155021981; 142403332; 19560804; 166905929; 66603103; 77052255; 1441193];
[481340645; 343269115; 205634771; 189221379; 325726289; 332426575; 243847937; 395223136; 2173254];
[84422506; 307885559; 258120706; 211914363; 260641618; 161591704; 492517044; 52165675; 1735598];
[239543412; 454589083; 115141463; 253694476; 66842371; 292639143; 353233905; 192284334; 671931];
[288440286; 501455611; 367491191; 317871365; 127482173; 206743409; 395817583; 365429817; 2838508];
[440611442; 404643985; 404148144; 506010975; 181008611; 428426409; 282572275; 471412406; 2589070];
[463288108; 98116271; 288679397; 416807663; 33943707; 433428071; 221249068; 161147729; 375707];
[471340321; 58100306; 15343087; 432815151; 413276050; 42710961; 462671170; 390074433; 1553204];
[235032459; 458742218; 236981631; 404503445; 206733435; 337509430; 322957296; 241175774; 3065693];
[506191130; 426208371; 399086288; 412853680; 188935551; 99301417; 507667850; 49233786; 2679911];
[189048262; 401410301; 378464113; 511322416; 98821535; 400488259; 430834567; 99381914; 2695194];
[255748319; 271301238; 405802053; 7879854; 435443703; 142630645; 370815918; 65857946; 2557693];
[15505697; 159677204; 497640025; 207137842; 293547931; 106213795; 443299926; 434044604; 630778];
[136542328; 345114322; 65863708; 493983605; 462519742; 453377; 222928334; 512866659; 2833602];
[8645613; 425965887; 485574214; 379615994; 167580893; 294677668; 174890736; 190518545; 1879799];
[309931361; 309740842; 254095118; 52426516; 393173673; 328630824; 415919164; 331810852; 844083];
[279264872; 205947704; 460530984; 287833654; 237779008; 514895833; 153233462; 100449911; 1938342];
[22635807; 456223662; 412933117; 106061139; 190269059; 107386944; 207204315; 292396171; 1468221];
[309905985; 473716711; 173095725; 124407521; 340843011; 954003; 305957523; 444873611; 422738];
[374801797; 355115338; 223812884; 136306865; 473802294; 503198319; 300989163; 11176095; 242990];
[456679466; 235609272; 456713012; 65468066; 420512753; 142293735; 109889274; 131867234; 179042];
[123817690; 377336232; 83173470; 56702118; 52197157; 336307311; 359812677; 286803011; 705243];
[535839296; 295548269; 237682275; 411136366; 131304795; 506825083; 305087226; 69144482; 82367];
[489499479; 414906520; 480189664; 318405067; 342847911; 71216822; 247326962; 384286779; 2786524];
[439531105; 29898309; 405365237; 444302594; 509333538; 527916957; 476987660; 270384966; 1183363];
[344005938; 155819079; 241437856; 231052371; 240179734; 344166443; 92165274; 80504928; 3096073];
[322819340; 435271632; 226197307; 334760430; 277875000; 274692145; 515373900; 506711083; 2253164];
[23799560; 439354880; 410807970; 414106606; 428325785; 287000369; 47339820; 149060440; 1783549];
[212743848; 421099857; 412385108; 225999522; 278473481; 153778392; 531092374; 20499281; 2468545];
[532903563; 253985947; 326932759; 349972659; 471101291; 32896662; 48993901; 26714510; 64814];
[277034799; 147255081; 435394332; 105012139; 467336112; 72957401; 233806417; 7944859; 1345091];
[352844754; 520504705; 505314049; 381875840; 342335683; 201559189; 185224586; 505691946; 1616486];
[141268936; 526615893; 123121859; 488283670; 507343878; 530839842; 274043262; 256976760; 2603114];
[516589942; 127869302; 475311310; 238745515; 69922966; 75171472; 316389290; 175560849; 2943880];
[167345862; 321137143; 152312753; 255503501; 305464275; 433129291; 336986206; 408755580; 993517];
[432535425; 40083189; 481692212; 41610326; 210731271; 102434247; 54649352; 159118678; 392305];
[247560482; 476105995; 317592282; 345629119; 240323113; 7048671; 85925909; 406690877; 2299718];
[74450567; 157654595; 47557167; 156476659; 234778425; 198052566; 318818778; 504838301; 2421381];
[337604581; 152879370; 18130392; 181494591; 536566598; 408096798; 198778681; 59240503; 691066];
[331392847; 39938528; 295138493; 244591267; 343894434; 371514098; 492789115; 36032295; 1791779];
[352421822; 295853674; 500130920; 159371533; 272655964; 391417970; 27843136; 402628297; 2691830];
[85070687; 362719018; 386771615; 85857249; 240974139; 480348523; 98684023; 368389407; 2210559];
[230022168; 522703199; 253446872; 312366879; 232479929; 5170180; 210556933; 362171371; 1697002];
[194729467; 527821465; 94982310; 126881583; 466834634; 412035130; 460036908; 290894298; 2518889];
[444622008; 58802333; 143422716; 439673050; 263021189; 2699139; 322646971; 431489593; 2261269];
[389656661; 525990684; 16237609; 435874250; 472383305; 8466046; 221364041; 336643463; 2683773];
[46264987; 405165904; 429434777; 157751305; 276397040; 423443435; 479079636; 393211705; 1199340];
[185288792; 54843608; 223875265; 172039066; 469019617; 122948872; 52267981; 80661366; 946768];
[64971682; 460674586; 226578555; 235873055; 331896058; 226270646; 306545306; 187322248; 2231534];
[415678613; 389208793; 528699332; 65584051; 175695112; 535498465; 109768053; 224487064; 725191];
[327095688; 377348985; 241012507; 318877965; 501252302; 311952835; 494362220; 495851470; 873069];
[406462413; 290095218; 508430135; 240048258; 484992957; 347674256; 72843122; 319922081; 894071];
[426541187; 338070368; 58100894; 18290488; 527951607; 467312813; 249950783; 321012220; 1946634];
[7522471; 349427218; 212051136; 512726544; 32870954; 163696081; 73242715; 486352140; 1179337];
[7649180; 118649322; 415037438; 74696403; 279316471; 93505457; 490078574; 174049198; 518864];
[487021671; 280779879; 411866469; 316369679; 528245521; 474159903; 228894938; 330955260; 1214212];
[37133886; 352128143; 348663559; 530062178; 420596929; 19711616; 260323903; 116135909; 979353];
[509550918; 188442174; 444120802; 340500763; 373989068; 512203710; 407605369; 19838581; 1674420];
[57975404; 522566626; 178476220; 309246586; 273055768; 414692017; 16931250; 142883965; 846486];
[440362550; 11803373; 520232253; 76466612; 297093297; 375207074; 270345631; 191728100; 187722];
[47240047; 358191923; 363029139; 51070673; 211772113; 454754056; 487201047; 333880193; 1855161];
[510006795; 194469061; 159106889; 366988772; 458024294; 445590032; 119679595; 57212344; 2096080];
[50145755; 140034036; 355796217; 441209152; 516162494; 120526739; 509815726; 353416516; 1890376];
[298989312; 39848852; 237918577; 299916437; 22272282; 205034423; 209137416; 345347845; 1343307];
[77664984; 514762526; 481935119; 529932077; 60294864; 533907086; 108317115; 199345422; 807051];
[444758525; 52513875; 480361486; 238899050; 99998230; 7649525; 505436097; 46870042; 2432653];
[520555440; 69505124; 64539558; 257234521; 282059903; 216831753; 514440782; 428449179; 2542292];
[247787466; 129627721; 260279093; 88296290; 339445612; 212577996; 327320991; 312970303; 1889405];
[107868822; 439592736; 305192457; 197270382; 120481013; 215765763; 288041994; 304861624; 120484];
[495542; 407872599; 168032271; 56826848; 424194261; 471024529; 390639939; 524035338; 1855158];
[151758708; 228171169; 530093148; 423202635; 230682428; 499448000; 445818411; 465883688; 441221];
[197026454; 136717828; 137747111; 323952109; 239945; 83437987; 365641449; 57805450; 1351004];
[534846463; 521320014; 488684974; 523479764; 132851170; 343113540; 305081596; 16042910; 1334155];
[451689565; 482171386; 433660675; 457322861; 421521640; 400287389; 298540075; 30664572; 697885];
[498614483; 59852304; 44895292; 403100332; 337001459; 460671697; 217258587; 515291990; 1283221];
[17993467; 499887147; 214441635; 361317173; 253343437; 266144798; 148207000; 484868322; 1822139];
[503855379; 134630169; 512716085; 138868174; 249992122; 142482060; 271254023; 463450861; 680149];
[174002408; 254618946; 308044974; 413509825; 277460794; 162264553; 46170742; 324791397; 806941];
[510784178; 361179526; 24210186; 502951879; 57592593; 333402310; 48116828; 63445624; 1633063];
[85435862; 481048288; 177709897; 314557876; 179620735; 105026843; 158645342; 455450955; 97506]]%uint63.
Definition root_b : m12t := (((([259623469; 304966017; 7785502; 196108853; 529208678; 397078226; 314866720; 525269857; 55433], [217237258; 467072697; 10521405; 324723944; 152821467; 155229684; 458440894; 246040750; 117412]), ([67898989; 17269426; 134515747; 200465711; 334613690; 376694262; 510116031; 65586897; 372435], [116811559; 5002641; 4774377; 49132793; 42529721; 314793668; 254568910; 152419590; 2027169]), ([215934170; 440564387; 225706152; 465015938; 483363332; 316734716; 267571611; 38185260; 52116], [279213820; 144635725; 336470986; 88871578; 473827025; 422032743; 142087271; 66655365; 2454132])),
  (([424874317; 514354274; 453925997; 410142768; 269267097; 375519569; 224818001; 404468133; 1550916], [394637478; 408599348; 465488399; 213322438; 292967257; 345187972; 208027392; 24773154; 1053063]), ([55349396; 225460546; 370009088; 43981739; 258868908; 305414028; 147301278; 267439972; 1557466], [69620248; 55242708; 173512302; 398781435; 468531396; 288054973; 427980692; 304081482; 1076813]), ([137833667; 263177923; 286342384; 13346924; 22819531; 119016308; 388751818; 363055352; 1137064], [416094100; 279054588; 459550639; 134460792; 479514558; 175188600; 103530788; 29049273; 2759196]))))%uint63.
Definition value_b : m12t := (((([174919588; 510617047; 17412994; 195164702; 341836252; 180916485; 392668443; 330034739; 1694460], [47322344; 20407603; 501882995; 411697742; 367670179; 499024149; 321728747; 168392463; 1922518]), ([367015872; 330867514; 85801578; 168266984; 238051422; 198202166; 369707980; 463563908; 2915674], [305540212; 506871844; 403900683; 364967595; 526941267; 467139675; 202714793; 170663965; 1440946]), ([286204811; 386650168; 437362769; 42573978; 471684424; 299105164; 476044334; 427782860; 2471026], [345702891; 320785821; 150450075; 47844286; 72236882; 20761741; 2248483; 465329155; 2834432])),
  (([12026040; 378317122; 461804676; 142281208; 361566; 295947120; 244534472; 219442697; 200751], [230873072; 367807666; 450289059; 301838667; 439522183; 449915057; 218709781; 289831996; 1390832]), ([213322736; 370992314; 85164278; 436741772; 452600276; 184431187; 361923982; 26257664; 585469], [231299864; 339174522; 297760116; 166722026; 221731429; 190314068; 503685956; 331503836; 621416]), ([180716263; 335330882; 453896920; 131945923; 32764433; 250753171; 153718839; 487546098; 2460776], [17216722; 57762083; 81649104; 950183; 146778723; 306599527; 25554940; 23742041; 847207]))))%uint63.
Definition slopes_b : list (list int) := [
[377701828; 14108260; 525024094; 369396593; 165231953; 498446124; 100973820; 389122288; 720177];
[53013089; 498082888; 420353503; 426523951; 96263940; 524281207; 306057866; 361680480; 4967];
[32739548; 341647703; 278751266; 48045239; 267594112; 85506163; 458315594; 465449160; 2514095];
[83455145; 501483654; 373500169; 121798363; 56240212; 36449358; 97148861; 469769477; 2948063];
[113321304; 213401900; 295578400; 433051436; 26918495; 163612740; 294479966; 382148841; 3068038];
[146669152; 114241761; 131980119; 383511279; 289783340; 135149493; 39131974; 174050585; 125532];
[91355155; 359925660; 150384147; 445658922; 56511163; 288691364; 269516077; 463251914; 1003074];
[2803434; 358840310; 434951392; 253171468; 70897891; 228511939; 493892737; 255488791; 2708043];
[340125748; 361780919; 531408779; 98905179; 315235860; 71141774; 247349529; 501280042; 2488302];
[519370209; 213685502; 165814907; 136959341; 386300986; 401712742; 473357106; 45151020; 1936179];
[201707603; 461887784; 55065965; 80692871; 409813583; 423753154; 48646729; 531374208; 1957934];
[265327140; 24618144; 448555929; 234415902; 470350998; 211967984; 158568388; 127608563; 2228034];
[80725593; 366273623; 76205387; 520136374; 450792889; 1703429; 167268876; 286368327; 898867];
[144022640; 200097709; 323408528; 229604041; 151587723; 123158923; 394711083; 292774393; 2074508];
[491349304; 522681860; 10575335; 231308235; 495990073; 322278965; 250660887; 243633287; 2709197];
[346932758; 322570879; 504974984; 506988304; 424310872; 487745007; 483336530; 153425139; 1506447];
[233151331; 214755118; 159867314; 206958174; 213387747; 426595697; 506080105; 267873701; 1721093];
[442908659; 41125217; 351485636; 21662593; 246882216; 322654293; 521342331; 95700513; 2023055];
[23322599; 378818040; 57979824; 83327133; 150442980; 168089327; 169956100; 431600462; 821096];
[458742833; 375570720; 367629594; 380442532; 531262567; 219230657; 104453592; 426485138; 743437];
[146288300; 415455819; 315509012; 195874718; 465512487; 79771476; 119027384; 486207649; 2140870];
[323387821; 516666177; 142250750; 180543229; 209229574; 94050383; 82072195; 177942165; 3154993];
[530553837; 404029118; 423497819; 160848164; 91441618; 409769262; 187254610; 488067958; 2430311];
[77485565; 55679349; 376240846; 17699446; 527478345; 295126913; 8145651; 41657202; 1114881];
[233208623; 23827395; 103211357; 470764843; 173867124; 368148085; 457376308; 360603994; 1259763];
[189759851; 329146933; 37438286; 9309171; 195666660; 369615538; 489631207; 471709619; 1985601];
[103664855; 156790515; 141559930; 157750996; 408199626; 236379223; 255666694; 3004044; 1789651];
[363364811; 312252305; 133038267; 427639746; 28357726; 334341847; 139160482; 464583176; 870167];
[153751993; 497869546; 502034024; 167759198; 515913839; 77025071; 497113293; 33289767; 1622291];
[163392498; 432257338; 429118761; 63576519; 69433643; 395257947; 268083971; 56045121; 2994415];
[267727998; 171068309; 132627999; 375438763; 204056377; 144531436; 535683066; 460670893; 1990448];
[243691925; 2588645; 421563098; 324427055; 396627803; 58952392; 498365295; 226607677; 813971];
[445752379; 441258483; 5406435; 316939987; 510924907; 34630796; 406458078; 61253721; 2828119];
[525110022; 211233277; 346404236; 452333878; 88539399; 505212521; 107030018; 24381785; 2542130];
[255857714; 89942891; 108057081; 173071787; 414125714; 272992761; 285051418; 337184447; 393598];
[305013348; 311744635; 382853258; 218931599; 498382950; 179017951; 438481107; 501244556; 1207851];
[10591074; 85582857; 25076284; 26173582; 66066550; 102507974; 472595697; 32108437; 1636863];
[235067628; 405319420; 289923574; 90213372; 514769716; 24141193; 385668171; 458812740; 1574827];
[38992352; 221001868; 124797360; 10683180; 462752914; 415903218; 414564542; 309878118; 1957029];
[8861349; 226148287; 228500952; 506499026; 112694371; 369532545; 302548628; 474942748; 848476];
[9620558; 467428925; 230274525; 446411526; 303399184; 242427689; 388440913; 277067674; 1159076];
[126389; 212839756; 406673402; 521880385; 75640509; 177722782; 2928595; 362670123; 327531];
[29483157; 234811527; 321815236; 161445688; 93089479; 207980491; 520641458; 253496589; 1872818];
[467950813; 80127236; 82309217; 128202703; 4628960; 462207319; 63925702; 89801508; 2423309];
[2145186; 384267019; 505075285; 92520542; 525330778; 237935259; 2166327; 82339246; 401291];
[433120466; 365009075; 447897780; 193072752; 203904063; 328903163; 436048399; 317578379; 593336];
[137997949; 139680724; 117802493; 515175677; 24091230; 176849827; 38971122; 393039619; 1967621];
[106294180; 436383661; 219836601; 225128890; 148187215; 466280933; 165800978; 329505650; 23417];
[423259762; 414219484; 248681519; 121499706; 408534795; 389500098; 200621589; 351290061; 871520];
[488807834; 85715056; 107183690; 36325265; 268749967; 272886172; 160679066; 236466705; 724009];
[253412219; 200167575; 328743720; 237526068; 240009454; 131503093; 476599201; 311462951; 1280461];
[115491134; 264908433; 328620765; 453519614; 222826065; 477831996; 69952413; 340482184; 2164448];
[459735062; 481451904; 336750134; 2394823; 309082568; 327315972; 195015443; 424789991; 961349];
[511371020; 347526539; 36890427; 184106576; 211780152; 425462988; 305503152; 29980777; 185338];
[309991237; 80640554; 372055185; 498348941; 276673255; 329608083; 325501808; 52962653; 25279];
[188173617; 325756063; 222812466; 245703838; 509740590; 495102048; 454668904; 170115713; 2519771];
[90240330; 346239056; 464803702; 379172378; 486198103; 392450566; 272364107; 51867699; 2377481];
[364829138; 365078858; 314267178; 95243437; 210329821; 351624404; 277830746; 482558759; 3145554];
[188279746; 33073460; 244978366; 142924579; 146991289; 190144850; 521911362; 127586779; 2910250];
[312283234; 158501934; 193832578; 358705555; 471052086; 460245923; 1431024; 308936160; 791271];
[26828155; 32902210; 422460483; 273825142; 68417772; 81662507; 13410973; 461199215; 26847];
[338178044; 98179961; 523390894; 469925806; 384942400; 197036786; 202267700; 195317694; 1083429];
[311134657; 461567415; 304018000; 375686180; 349796511; 50824242; 376678299; 421565633; 1283815];
[131464822; 154402417; 10428767; 221567267; 523579380; 53915498; 232570865; 196930391; 2258497];
[127182780; 75663946; 295499468; 457314918; 4834390; 287967224; 39796402; 257839085; 1756949];
[76660083; 166989930; 409176840; 8364585; 232867794; 162793690; 218145735; 33816477; 892124];
[463477938; 77157904; 100150770; 267668776; 471332888; 278326630; 348634096; 117970011; 2349510];
[102493477; 131774703; 517087350; 103893470; 527050515; 422475517; 432926204; 446344095; 2329496];
[218186107; 210824812; 301676586; 80607374; 197127870; 407469304; 132473764; 195678242; 2734298];
[11732993; 514524512; 459498590; 249485224; 87815786; 184199873; 343689838; 534380421; 1464701];
[295148926; 508615752; 189258117; 174403665; 376021474; 155988379; 461806898; 434448725; 746446];
[319039774; 512628235; 393502070; 58132042; 24085121; 482505488; 201394343; 152045467; 1382074];
[292933280; 512268242; 72916620; 67970944; 341821402; 180685161; 24287272; 76758315; 378789];
[90598450; 125252893; 308669678; 496881943; 322386271; 200131953; 458313523; 133211839; 206091];
[152615911; 485933760; 395986533; 24385260; 252895469; 289063705; 487328968; 357908643; 606339];
[333122690; 351789417; 204268554; 110434555; 534474922; 142579292; 49106262; 208636657; 21095];
[341922781; 327659125; 470260129; 265943412; 426491204; 236228386; 313771686; 61746696; 2691643];
[337687300; 385259006; 153804917; 464950780; 430442885; 52125071; 501582618; 212239331; 1951709];
[146611888; 406047844; 241142141; 444208618; 438704763; 498029292; 507750506; 485495324; 2499149];
[499763048; 243866680; 477763017; 517456543; 61637516; 403749504; 314882894; 93773861; 3023445];
[500391414; 22317946; 21958732; 384081303; 87945779; 436354713; 496365880; 499269044; 2651296];
[295285988; 422020076; 521281264; 273162240; 228986727; 477217908; 525598289; 16166015; 972241];
[194955956; 350323407; 325692733; 465081947; 248324155; 307599787; 149693552; 168398564; 1226491];
[131085290; 43301007; 152250555; 383882026; 314209796; 117830900; 469109462; 465182911; 1106618];
[157339641; 284464591; 113076526; 118194662; 139767225; 277801360; 365084282; 281913107; 2920455];
[123734486; 233403773; 53885785; 464336444; 296861178; 304576772; 235399709; 410551946; 351200];
[205626976; 105589121; 78635084; 358232144; 199962058; 361350832; 127673588; 365942522; 292860];
[107591087; 40350872; 61679046; 33790252; 421619463; 475252865; 236036443; 446211670; 606929];
[415115417; 68444329; 201375766; 290825721; 374457649; 234276146; 232248804; 184125072; 3004428];
[27752394; 424748210; 365800089; 281089635; 277749309; 293548522; 408797961; 103355190; 2331014];
[482481589; 288720507; 342840478; 24601850; 367670864; 464188071; 461162147; 512993548; 132852];
[151447613; 341281195; 518950455; 445435456; 282469647; 529660725; 309355515; 449860612; 3022385];
[336040818; 41861318; 172766119; 356155186; 7448079; 170095315; 268618830; 402910586; 2018151];
[254842; 478858254; 50561691; 453008250; 251909125; 278278278; 510735249; 340121724; 721881];
[394514104; 216479582; 276492088; 13283475; 233071142; 75072630; 384302250; 214206990; 2534210];
[203801752; 361627427; 305123719; 37835362; 189394730; 512578087; 470073450; 420191837; 1160556];
[32392099; 431560716; 103337640; 18342821; 350981317; 112175492; 132592243; 370872176; 499132];
[428352099; 1432709; 83113957; 341705616; 250079385; 256845983; 19692034; 374374609; 2784174];
[300950854; 18437113; 338907046; 483962758; 467840681; 353565243; 393078225; 529022278; 3098175];
[66094105; 360053670; 278483912; 422560608; 91996996; 370550484; 480486680; 149131276; 301689];
[506209954; 405945762; 385470255; 300897087; 196887467; 71193347; 516303298; 478373560; 556083];
[81602201; 30905732; 149859189; 417576848; 402354569; 54776605; 16748840; 244706705; 586244];
[523373953; 253885415; 279089271; 307401631; 440981853; 364297296; 276362128; 189650997; 951683];
[250223983; 436860390; 498092379; 492700107; 433898431; 314759128; 88076604; 292161809; 1820810];
[519225945; 451180974; 95488106; 330355802; 468713891; 154651063; 3197486; 477511445; 1343495];
[441556950; 271252607; 466542678; 429645064; 270082927; 431037161; 450328606; 196947916; 1729649];
[211171418; 440309823; 125710471; 380476845; 118620233; 436881178; 323619010; 227357406; 9829];
[462947769; 512326598; 506495824; 31747310; 271813042; 235107018; 29825830; 62561205; 641826];
[479217726; 378304860; 400191338; 525888045; 149730154; 390696646; 356823395; 369490323; 1435689];
[95604225; 363380328; 499577592; 13348461; 89739944; 250669566; 423181073; 64578302; 2045381];
[191462774; 252469720; 444183985; 363729233; 409002458; 138833161; 427174764; 211764788; 1753331];
[197361946; 115407513; 350161924; 247790126; 474309857; 107087200; 115255913; 486650593; 2282934];
[33194436; 359634439; 502367561; 427384665; 299716740; 41954233; 252387246; 459903203; 2596519];
[532431073; 518097867; 42303084; 20627033; 382999931; 22142730; 292607040; 223963163; 1410003];
[216503388; 188642215; 227787986; 441753903; 122588734; 156288568; 195112274; 5324983; 1814935];
[407139058; 257969496; 196096848; 112015547; 313374087; 453092647; 133839039; 497179678; 274458];
[482902852; 210979208; 133342191; 313445670; 82759864; 361791360; 153536411; 91500960; 128505];
[152988452; 503623609; 302926119; 502787149; 141473783; 134879566; 127063255; 321467245; 2669944];
[59518641; 399860954; 437886235; 216294724; 86396185; 499627453; 56284477; 241698113; 522875];
[522694796; 105804866; 311314455; 62249062; 412392991; 120161909; 278570327; 327931892; 2992776];
[328713282; 79744833; 272822164; 484351209; 269877615; 465601342; 352144461; 502679547; 1229604];
[370079975; 6019887; 408394020; 422846142; 131280369; 422853575; 234448193; 184159715; 1417068];
[219405298; 160087057; 530362882; 28229867; 161012637; 411907791; 24474697; 313771006; 2166956];
[146747791; 482220979; 498050614; 472161702; 444928521; 397729290; 87848575; 457385967; 746628];
[393484408; 450128077; 404514042; 14009466; 21004337; 521889786; 277484187; 263051660; 1165643];
[292203866; 228363027; 269338811; 151207195; 168234668; 255331522; 215730175; 116724042; 2545073];
[24748365; 67463626; 117323419; 444280704; 56024182; 56739969; 40176805; 375961643; 2970054];
[355218211; 288222657; 316907623; 238414412; 51959526; 404806437; 381239268; 454688314; 2071708];
[487469337; 218523763; 475350074; 260643109; 478912311; 380892265; 530258508; 325836898; 2985219];
[335189449; 263153210; 470552537; 121348775; 149526160; 320829375; 502069678; 213682303; 1594054];
[528528876; 519991247; 491192723; 229047979; 171385205; 209035858; 43925141; 510139507; 958506];
[110291556; 470317853; 159295889; 76043194; 231993601; 485274357; 161971074; 195259527; 2434578];
[486030291; 467188681; 238916138; 2780826; 523830176; 133436624; 160699822; 515869287; 1248086];
[375486325; 232741597; 479228743; 477819463; 206441861; 161245047; 409277835; 355625096; 1681505];
[155252881; 187016403; 143610600; 40717805; 395954676; 72560187; 430967604; 50947401; 1690300];
[428779963; 342952150; 478491406; 293256076; 182892488; 91495845; 257749458; 86119321; 2288912];
[161894571; 513569443; 18905754; 151349522; 17708233; 80656790; 25182100; 330175647; 2359961];
[91777157; 174220712; 48363194; 405873523; 258014941; 274484237; 364444219; 255959640; 785158];
[206991439; 361549723; 177408731; 464411682; 27821455; 495890230; 498182566; 447999603; 754205];
[297635288; 74321268; 206501654; 315313956; 169609666; 385215261; 249590603; 453339179; 2909833];
[243192397; 11262344; 383213532; 427111951; 339093840; 447919789; 37667302; 128885614; 1540590];
[61205399; 260717009; 488530088; 129331340; 153601890; 254105794; 45919552; 306373475; 1146955];
[406501569; 165912741; 221483552; 345347; 93359125; 476137462; 342112392; 131081431; 44648];
[455041519; 514261486; 37081333; 253546987; 147982649; 337278438; 366388623; 76133569; 2068232];
[212390713; 83179478; 461950587; 476225443; 157572210; 186873389; 439516827; 27799823; 347588];
[35779377; 144835841; 97688488; 188688082; 222174527; 394302292; 122796808; 62014661; 367744];
[501155666; 81543948; 491404522; 76179785; 413946943; 35248325; 327417186; 143628214; 1052719];
[192991109; 197821146; 149159124; 341332355; 482611873; 97645497; 456045107; 3475206; 158697];
[174152467; 91226887; 265069628; 443838777; 264074910; 156569190; 458054316; 310502275; 2730625];
[135325004; 175904239; 279550017; 59488425; 374395397; 6056325; 528538375; 536697754; 761329];
[309141843; 406465814; 394068915; 385697601; 89572147; 238535235; 397833407; 378395605; 2594754];
[344411468; 21368933; 377961153; 43190548; 281172070; 205684449; 415438180; 496508704; 772002];
[497328297; 176028974; 481907523; 66076695; 100395374; 166819555; 83426048; 463558372; 1509950];
[211505057; 377503755; 482085471; 96515890; 189107163; 488826916; 337528996; 130026617; 549608];
[375784988; 23322055; 166073718; 263838131; 332626376; 271876203; 168401834; 198875565; 2531271];
[463600344; 58956542; 321495642; 385986340; 510581242; 183070105; 45985928; 513771690; 377329];
[350907713; 448279620; 353194928; 173421697; 165863599; 515414731; 152842833; 499741923; 2244313];
[94564960; 175383932; 38880384; 438036092; 96036478; 439113055; 514099677; 111929231; 2767643];
[43771937; 90493917; 265449583; 247771125; 388517781; 313125392; 344198114; 49410313; 1861561];
[447133571; 396537799; 276732552; 262197212; 118816607; 54261051; 199482208; 265042213; 362513];
[127852075; 347761754; 530571950; 493032755; 190199281; 238202183; 165126449; 192571374; 296057];
[432188185; 239181317; 24533555; 288021356; 152684885; 450806778; 447140648; 156151088; 2043517];
[225426633; 464089615; 475398679; 533806273; 335963140; 148369948; 92232988; 246775331; 2483544];
[239772019; 317911484; 517818151; 176234486; 462347515; 447870903; 91967219; 346055045; 1889888];
[207121240; 447981888; 5489252; 253528162; 187007413; 329338795; 15065603; 134217418; 2162129];
[67825023; 437407966; 106966813; 189903858; 532370756; 327309432; 25803330; 2496829; 539252];
[48814173; 256747288; 72040507; 11725447; 314007546; 230607625; 66512484; 62004800; 3112756];
[282136645; 6625513; 148335390; 309024621; 34814434; 342874482; 74581158; 280299014; 2132810];
[447359695; 349945006; 176820683; 312497733; 261078970; 374200208; 339953828; 255768008; 801758];
[155205011; 60992298; 9877135; 327111253; 98608865; 6843045; 276741356; 244400904; 3025211];
[65059296; 118730759; 46855595; 219291974; 481673961; 32646838; 3376556; 136857611; 2973126];
[275785417; 133080013; 351235354; 63142585; 273356907; 339533593; 54073465; 132117415; 2161977];
[269417745; 495782095; 508986333; 93671362; 18334571; 157692905; 116393030; 453124084; 1892142];
[419444372; 522962003; 454136103; 351394249; 234165311; 256512711; 461138630; 28525870; 1526245];
[363648126; 177182252; 455165618; 163146396; 378611705; 477710857; 354345850; 300709991; 2602068];
[163205456; 93196634; 70263160; 465353743; 11335142; 282978569; 106988205; 288749837; 2994686];
[527123654; 430974033; 198964320; 427704478; 520140046; 126767161; 452361128; 26430590; 50159];
[473110423; 501310214; 123566278; 319355266; 252180320; 212465381; 30203070; 9425296; 1509605];
[143295781; 8302649; 276580239; 405761680; 429737641; 493011257; 120111392; 411679399; 1272470];
[69459195; 103053337; 74963079; 95993614; 158004412; 460092902; 32507745; 289535746; 2086725];
[402588987; 249346639; 219152069; 496613737; 217340800; 173381539; 523479113; 323990163; 303576];
[338897431; 380191391; 230010257; 536588238; 312428597; 279279437; 239828481; 933564; 2421707];
[281497581; 3048401; 160158875; 473503614; 160766792; 465994424; 465993275; 154508521; 1007536];
[49527132; 94121045; 185900983; 4279286; 479123535; 432292334; 424111039; 309773984; 1847594];
[375271818; 473698685; 495202404; 12164317; 486930694; 404646339; 270341280; 236799081; 1619362];
[401240100; 183875818; 36694615; 379873994; 232285352; 192634912; 240560676; 308203636; 2930237];
[344946697; 89503983; 163304287; 74491986; 436300249; 93001161; 65881591; 194896344; 1080028];
[131685283; 231635929; 312548881; 480711093; 348633996; 382034152; 448615013; 169453555; 2370856];
[326046060; 34481482; 276274670; 256593555; 170293322; 14639527; 404077353; 128365674; 2780653];
[77100572; 402108160; 33546148; 173809220; 162319149; 25341213; 207379667; 525722461; 3002646];
[94848757; 266370986; 11983746; 19641781; 398074101; 135252340; 410202639; 510999152; 1271190];
[433186179; 212383960; 215679168; 310119311; 403490947; 366300769; 4007607; 452616088; 2463001];
[78829434; 492707109; 460647431; 469979947; 135415458; 6133923; 265675813; 218673011; 2432542];
[213359142; 371977556; 217581839; 429734368; 124989218; 256108422; 176465431; 533256991; 1116421];
[455534899; 395824932; 34979364; 390112954; 502374526; 533610910; 481531026; 406852423; 193717];
[17919797; 192965338; 410976853; 416395441; 238764464; 465539640; 279734810; 65470718; 1607206];
[136229004; 158999545; 407178016; 227370007; 37440341; 308015719; 193973371; 384923289; 1475779];
[437227833; 534760685; 478576518; 305833143; 177233098; 526398321; 494348134; 535879958; 2577797];
[419557860; 449564368; 124840600; 21854921; 175231668; 485765099; 153683582; 191062931; 585322];
[498469723; 279583180; 187443976; 17477960; 356841307; 30483413; 461254967; 317795118; 586657];
[33972093; 371912013; 308532133; 420527873; 368441926; 62538154; 275294908; 417890667; 3088266];
[98555410; 183124194; 80557463; 217012867; 137365409; 384465726; 480535975; 278797121; 622363];
[394027274; 26974733; 194947341; 188890094; 457898381; 105036268; 39369851; 61705253; 924374];
[184776053; 500681367; 321214119; 308362396; 18843166; 261623280; 24071064; 519777071; 3114643];
[39861768; 79014381; 34675395; 314579049; 436975129; 189122316; 18262854; 314140216; 328540];
[250149193; 21975157; 405972688; 361539651; 190283559; 329349198; 378804276; 253166077; 3047934];
[339993765; 125531353; 411054636; 341946023; 161852767; 10986448; 260867358; 443052111; 2649498];
[162719482; 394939752; 94001307; 420812435; 422503108; 301253225; 206976339; 265553383; 560296];
[100516751; 205272092; 208388075; 275004414; 236027710; 101704123; 156595318; 310941502; 2914044];
[362631924; 329997262; 347729403; 300196197; 449208374; 399482611; 63359036; 495427849; 2013219];
[97198622; 349128544; 187543826; 364369765; 482726352; 309287717; 9550059; 273956118; 13833];
[317052976; 216987329; 129790941; 154511857; 314692937; 123108033; 198525640; 514877973; 1188353];
[32515697; 20170214; 407041715; 417797805; 348315945; 110283765; 338953362; 305679852; 2526175];
[510022643; 202537605; 323389160; 421613751; 326728143; 439738773; 420230564; 122383973; 1542461];
[173383870; 402255380; 87273274; 459254384; 500879401; 115530677; 485360790; 285232585; 3044202];
[281980947; 271744953; 487548204; 453314170; 373094132; 522060376; 353726254; 433542031; 1318481];
[215637709; 340687748; 285272928; 144984989; 38013026; 36982242; 48835854; 438151768; 1796914];
[87197009; 261177727; 321005706; 265605220; 129323915; 277193500; 30805196; 371472250; 741546];
[55554249; 476084941; 197847949; 400653437; 289244930; 481487072; 447395895; 532698155; 1290167];
[274814129; 326481222; 418111359; 441408183; 283449610; 37086479; 47748015; 480329236; 1216867];
[47942714; 12639193; 503061330; 76360598; 329323587; 435404030; 84656733; 151610337; 1023025];
[41774279; 182654148; 356571026; 312862203; 272384421; 175583132; 220988275; 359922686; 1991991];
[255827167; 506780791; 531076213; 137298424; 510039600; 105132608; 90408984; 133979045; 1718347];
[434907758; 342344133; 376365019; 534787430; 399267676; 406621249; 328155042; 179441057; 703623];
[416019367; 76035462; 111254210; 505653533; 83816147; 94532024; 90794220; 330408553; 1799637];
[288948664; 117711462; 288928049; 35659448; 532016525; 335760885; 75632175; 100067072; 1676537];
[113873463; 298483375; 444622103; 488467470; 255679791; 470540529; 334975128; 373615238; 3159197];
[216041066; 95361896; 183630964; 380865671; 514716173; 73334076; 495314267; 416177797; 333883];
[68644807; 126936723; 151328765; 277937112; 476901436; 244810688; 21287383; 362699072; 1054679];
[358017501; 114454769; 495732333; 348986620; 406115305; 90003252; 94054534; 210391602; 825876];
[350988200; 464195765; 176761817; 490693083; 457167073; 405990669; 8540474; 411924878; 538743];
[407930588; 430236190; 218851743; 251213869; 41847601; 526292909; 181673320; 138825013; 1561234];
[415081450; 340172532; 279943077; 112101579; 166512550; 350667637; 202245332; 470903711; 1849630];
[281537130; 262873947; 142448201; 219120106; 220537504; 479244955; 342594200; 394159227; 3106435];
[281547852; 70981008; 283851603; 493383859; 529064764; 83465693; 455324130; 205481110; 2188079];
[105978228; 443727618; 59138443; 423609363; 48422427; 468009813; 201219240; 414041754; 1539716];
[286688092; 197371155; 446708574; 59562127; 416245742; 85132232; 347278213; 25766402; 1047734];
[43417999; 66614710; 6044282; 224900506; 495465724; 425098679; 294637669; 243298318; 696111];
[154395000; 56154121; 407941387; 55259246; 249755936; 318172507; 127264579; 436551889; 14181];
[157337046; 388162463; 488282934; 494321509; 528201671; 98080382; 367741114; 6158771; 2209899];
[164182822; 523432962; 105386213; 469901717; 459905271; 120867812; 339843573; 318952828; 276998];
[225077281; 429829233; 205255132; 172400208; 236827106; 19264757; 103126991; 468641782; 2499228];
[182440487; 305533767; 506240248; 251210652; 84544409; 24434795; 244961946; 393502812; 2714795];
[420336729; 477167330; 432567923; 74175223; 232435837; 346941276; 160014052; 405178435; 2136513];
[102405921; 255360064; 239539894; 11738868; 397711695; 131438910; 479143690; 419389143; 801809];
[307252419; 128382633; 188730131; 304017443; 440319472; 445137548; 365936387; 137174975; 2642507];
[375505582; 367510447; 44212021; 138444820; 165283407; 234455041; 244255996; 415764088; 327279];
[381169543; 238013763; 477650484; 482096555; 338167080; 336553774; 52028684; 216795930; 1491689];
[426630842; 192941339; 115093116; 111145739; 73240654; 124750100; 105398586; 332617983; 1701781];
[212599976; 466704956; 26640086; 69005066; 25902633; 433016713; 203933769; 476243365; 2582015];
[218001820; 10119139; 419918454; 452999442; 367444015; 384103769; 233275455; 383529076; 691220];
[490971026; 24535901; 445027728; 242597095; 425494011; 183458306; 33716405; 265443524; 1114002];
[457925251; 64265002; 175166231; 527332456; 274413293; 62784902; 426893102; 129596270; 263296];
[130098916; 199715655; 368044188; 297330268; 31028067; 16983307; 396516479; 43438121; 95283];
[193126900; 216970103; 192752298; 288081978; 368515839; 323633422; 325332393; 279146208; 1060905];
[217424706; 493834414; 229110275; 420279800; 376147834; 513206744; 140175290; 267904745; 2955212];
[434575073; 209491825; 491392025; 425339596; 400957186; 317713778; 103601906; 187483735; 447424];
[338245849; 45874222; 222135342; 20258285; 52088478; 248913103; 529233462; 78810622; 1899730];
[373806105; 240956848; 203246926; 301058409; 324828704; 3812053; 273597610; 116716874; 1462908];
[300039773; 180100946; 51935027; 527398512; 349733307; 485072458; 501069342; 524763360; 2766755];
[471872633; 158699442; 358884511; 522384316; 97955351; 120287498; 291977554; 521124657; 2909039];
[202535427; 10778004; 159340215; 184877172; 215039595; 42565086; 241129184; 116782171; 1166781];
[144740477; 95364629; 288751611; 127705111; 516247014; 350863843; 384707899; 266550175; 1258507];
[314229344; 30664552; 115520557; 124104652; 287239785; 255208777; 289053754; 145545680; 2546787];
[368091459; 156298398; 409965591; 139139928; 181246255; 431200669; 494557024; 31256924; 1637160];
[71657882; 491801522; 200975636; 51406003; 159266845; 239659188; 346783862; 71598074; 1135618];
[261216520; 410380953; 473201626; 9726438; 20783288; 187082519; 506654145; 510450176; 1437133];
[63708188; 155927865; 243079672; 486264457; 68773451; 410388270; 101429692; 343977333; 1731967];
[156895024; 201596696; 508289631; 503611823; 265036328; 374130932; 105525854; 96890756; 327092];
[31054449; 24923644; 306516394; 195825818; 193259604; 85204699; 416723377; 208966295; 3024715];
[169041702; 311974855; 16741902; 122706296; 307428882; 6516929; 430042334; 228466024; 628504];
[437647558; 250771256; 389773442; 478946019; 97914872; 326974956; 208036609; 388344729; 849649];
[85521841; 412969882; 92126169; 202067662; 437474434; 61785163; 303201255; 380637061; 769169];
[253203216; 241176353; 353564293; 195484517; 437214043; 277336816; 145755575; 458603990; 1952700];
[283619235; 194039846; 110034937; 133025389; 357903137; 197954235; 453184610; 288409946; 2633712];
[279789814; 242148478; 343482884; 487048966; 531896489; 530879158; 300343969; 515390307; 3101762];
[233406518; 219428122; 39160195; 385852394; 67414808; 501958230; 43797548; 464570423; 2497318];
[308666964; 388491621; 371167; 221009951; 345581447; 29247614; 403126370; 390777359; 2485664];
[370370344; 407529721; 93496211; 154547216; 287641275; 168054917; 71821796; 138706436; 1296546];
[515214342; 415379750; 425888647; 84472362; 174311877; 195045204; 195752222; 215974895; 945946];
[104644886; 36944865; 83834188; 297664215; 302966213; 453075897; 437423453; 138303733; 260152];
[492478285; 190369331; 198385022; 238140216; 147075848; 103778588; 115452271; 111080586; 2744848];
[192098497; 45650834; 198651474; 140449687; 283384777; 38152085; 441084459; 535223985; 2022331];
[251232908; 480590585; 85840849; 44574220; 522959433; 480461415; 387753422; 31792952; 2267735];
[493780216; 448800721; 464294083; 354015620; 108937951; 190327494; 207198044; 41212605; 654209];
[379357412; 247633964; 489077866; 23000611; 97960020; 380643375; 437326276; 422690322; 2883164];
[106248300; 183296920; 432664636; 260630434; 201518786; 110041306; 129298665; 535561861; 91609];
[32675153; 532857745; 318650174; 328953758; 468053201; 321530982; 272206463; 226090507; 2861537];
[200648005; 179234471; 381283284; 214838708; 212935731; 144904299; 299227574; 63380856; 3135014];
[400482551; 241914355; 342343664; 114659732; 16985789; 334872172; 68517296; 302651224; 1302037];
[482102272; 453052694; 298869507; 381245873; 19166555; 351386991; 60502838; 183371955; 2974525];
[131337390; 301982099; 128182288; 374693532; 97453128; 243775559; 176506482; 426173040; 2307499];
[376132592; 377203692; 367310066; 178646488; 372130700; 100497602; 289533253; 351630174; 1463887];
[493410886; 303143121; 107080003; 512563870; 506381430; 378577959; 18022070; 238731723; 3146523];
[325990081; 33557700; 529253525; 493144274; 88382361; 149441029; 45605365; 387765442; 1277256];
[174676241; 308049385; 195086254; 92736042; 107493991; 384778431; 473597101; 439606376; 983455];
[13607678; 322670746; 103616664; 502847857; 461852588; 394895932; 382034034; 379177574; 2937846];
[239052092; 461980460; 355804463; 479295267; 130800947; 51004302; 357107553; 358464418; 3073362];
[406432988; 378365146; 374487975; 62367739; 47833842; 26599017; 483509996; 24260582; 2756768];
[243059389; 264976302; 150826427; 31976785; 249497534; 371094518; 296357783; 430909351; 3148084];
[344850021; 285200485; 422992257; 315308411; 489957305; 284710859; 233234046; 63426977; 1106599];
[360807946; 318070894; 290306932; 262545149; 418574764; 91909551; 123315350; 206795188; 1614728];
[287533303; 439991518; 356172241; 179956854; 486457030; 456245694; 420681024; 326266490; 1158457];
[436736182; 181494593; 412054310; 381271401; 449603836; 144660547; 505528965; 177695195; 290348];
[531103203; 85040664; 478680382; 434315631; 228961118; 27738654; 364910368; 435409036; 2714394];
[259143436; 105566765; 260852692; 141283880; 27962605; 434654885; 482040887; 232348108; 1261082];
[473590584; 234171162; 439073978; 59557240; 44722391; 477242879; 127719361; 463488669; 855835];
[229821932; 399686482; 15982631; 346337085; 481800430; 475074344; 41845152; 379843759; 936308];
[158756312; 157226978; 20193093; 423932618; 84265658; 236759702; 492475475; 471912463; 3167430];
[249854705; 493901485; 37023630; 218425596; 4451617; 480239540; 349095153; 255943611; 1593897];
[436069660; 244613489; 164966566; 212529263; 264302592; 408127164; 367646130; 139325899; 2958095];
[232040441; 91597642; 194562772; 49060736; 458213465; 232583; 402720259; 351522340; 440737];
[136573309; 95059756; 129388747; 398368263; 518998460; 160357350; 299339332; 486945371; 2008793];
[151452891; 164040338; 257285482; 151175163; 256853499; 309607959; 467069932; 396405860; 474427];
[348450501; 306458929; 477819055; 469823798; 180213220; 495923156; 450097449; 359875529; 824851];
[100618419; 317987591; 175196808; 357382377; 346418413; 234243220; 213316228; 122680680; 2982662];
[411453170; 176760595; 231673379; 107871018; 378039046; 86910296; 405018785; 475393810; 2639470];
[503702610; 301875275; 394932573; 361198320; 416746950; 68754420; 470920372; 395095784; 1827282];
[470222368; 105330129; 350553340; 308385538; 135267104; 270376714; 477864829; 102434775; 480125];
[334045945; 456912463; 524926447; 130202561; 178408268; 413439815; 29879137; 392390340; 382086];
[145442993; 251988070; 455474471; 96106167; 489084961; 93443191; 453609139; 240115568; 687108];
[231496860; 30284600; 279108521; 232340499; 516866278; 230137003; 176314991; 54638423; 1634637];
[378564623; 257570035; 318053332; 157561823; 383271048; 521565522; 407981716; 92694429; 1624007];
[275644826; 408896578; 206185880; 493464283; 305468243; 424126523; 291046077; 406361597; 1067879];
[438328040; 422518304; 369451200; 174312264; 6495217; 227410023; 213530809; 228498908; 1345511];
[365934361; 183876530; 463693207; 64837285; 264211310; 165422228; 311471520; 198988517; 2801092];
[246892214; 161899815; 409806697; 300523427; 348204966; 387294634; 513291391; 108307773; 2168172];
[481022873; 114693980; 449193029; 511912470; 464500044; 287019999; 157976866; 91519960; 2482799];
[367318566; 105437249; 177963646; 386858657; 502268577; 128491756; 11782333; 213653983; 2390773];
[316005263; 422127468; 33620010; 225193051; 304213823; 377728241; 167340346; 355484404; 2932332];
[78394802; 17216975; 356209594; 336345731; 457347009; 312992165; 295282835; 223915474; 1894356];
[269104986; 471338208; 351189691; 63685145; 37613887; 189044623; 358849984; 320205122; 968549];
[249344246; 379902732; 182672083; 287152354; 348850208; 170346814; 499662507; 121925393; 2077060];
[111657754; 305535559; 498733885; 467520371; 458151527; 309310192; 115127440; 354623343; 403969];
[522840188; 28366350; 13339438; 19442209; 442405511; 101001117; 245415807; 499454037; 856041];
[426928797; 62894034; 366732163; 195305408; 97205958; 273824561; 335623738; 469759656; 730378];
[424298538; 38417776; 193465910; 503852471; 406973297; 253656188; 310481752; 383359051; 2931470];
[447188555; 471851755; 122987503; 237427404; 512957361; 117774350; 226893626; 289340108; 812438];
[354446140; 425053549; 377893075; 128067097; 31143718; 502729553; 302222093; 18490647; 1305820];
[153954413; 218088095; 403119698; 287776608; 528541050; 133371229; 312968297; 474498955; 674236];
[442094591; 188264779; 330564423; 166431807; 220414404; 449955940; 137441278; 219291681; 1972681];
[220138109; 348825877; 204858417; 509920695; 235201458; 480571491; 93767808; 7247652; 2701678];
[172102183; 493202425; 67710342; 28474116; 43079429; 236323196; 155258882; 72530759; 2935586];
[350459958; 312575741; 502036461; 130749830; 332130393; 353645284; 465390919; 468085802; 2143429];
[158409282; 184789616; 142177619; 493304979; 143713290; 445873474; 415949659; 111566703; 1395514];
[157273604; 194534393; 152393613; 391684892; 485229859; 373849496; 455240462; 355941870; 2191963];
[223782647; 169940393; 466584609; 191123979; 449420919; 231885641; 329199780; 324811217; 1207338];
[294727511; 361362637; 309988521; 303423601; 364047580; 130873857; 474324126; 240756934; 1692272];
[23060820; 411880701; 244834745; 415793170; 267986044; 289957127; 144059357; 112886679; 2534211];
[159387199; 527119281; 123647016; 248038612; 307216439; 128284948; 141096519; 188695798; 1601352];
[512872297; 82181229; 73780786; 80931421; 118717506; 253057900; 74510040; 482903983; 27797];
[411531440; 299817059; 441943980; 104634111; 454671181; 490706053; 438662495; 261974213; 333127];
[298632931; 295076591; 234211296; 505198952; 220860532; 398163183; 154641622; 87924111; 988067];
[422502987; 358694309; 453521863; 360586918; 508322868; 493361335; 218424548; 512930105; 2884188];
[216614318; 224562148; 404455100; 425290119; 418043825; 97519751; 185323996; 214064274; 355216];
[244940236; 162995777; 102371472; 434000940; 300641577; 159968754; 286920507; 67928296; 836137];
[299088197; 522452338; 363847364; 260454049; 180451481; 318501987; 511950644; 474692011; 515037];
[359488873; 230766617; 197179201; 254972244; 495515327; 124517797; 241505339; 216513354; 298001];
[313076160; 9967352; 247886506; 265231159; 387010856; 155332472; 498390814; 195509284; 2207704];
[18730310; 224954825; 512526455; 442210914; 118299065; 156787841; 502418195; 171790414; 2063403];
[355252261; 138214611; 278512604; 14154274; 242899321; 288705602; 510835264; 177994444; 1136252];
[366774462; 201876997; 86028551; 247632894; 128232892; 381000566; 326628660; 406454185; 2645754];
[187727332; 38197240; 310836162; 317152969; 447523175; 390469151; 281752295; 380201793; 2290298];
[120895968; 375626636; 347350691; 160148210; 450031983; 342914507; 423895467; 207913254; 1990707];
[464771831; 90673118; 222733240; 265442875; 321017455; 74185082; 501030734; 117215901; 800836];
[320014009; 523330253; 225239520; 219147025; 344392568; 417792117; 27868897; 190092649; 2641529];
[324952047; 48160528; 433287502; 127034359; 254322648; 291904883; 414712841; 338386394; 967326];
[35710741; 473781498; 71370913; 452049129; 461982686; 35339354; 68709553; 531764278; 1535468];
[364640793; 534346599; 448772523; 289857925; 469381010; 110845163; 369014191; 401555630; 761380];
[361290771; 9028467; 141612704; 459553015; 352018773; 475643732; 410301837; 229600560; 310101];
[348050524; 179463287; 335343817; 278377918; 70738239; 55415861; 487247496; 259909665; 14104];
[105869027; 123771195; 515256093; 401783913; 451522944; 272510578; 119826184; 308555328; 2239857];
[13855363; 300256839; 398780480; 165707702; 470343886; 521556537; 522185599; 457716644; 1572014];
[152560120; 368964244; 158140187; 271985834; 135340266; 170710399; 315367094; 135267432; 2649611];
[325416815; 324863514; 144625430; 25986929; 80514301; 371916201; 185745090; 253627216; 1424308];
[253541294; 65152759; 70937101; 135599021; 489901262; 256580410; 470374485; 347178958; 474902];
[494900115; 24823079; 397537092; 151381813; 367207985; 370985974; 513313491; 437522481; 2568280];
[471552368; 478669889; 175044845; 220555002; 327620716; 41886883; 121672160; 374065459; 2721836];
[376640635; 32106138; 37109471; 152122392; 228801174; 267798372; 292510514; 372759564; 1117260];
[410879603; 249560958; 230354452; 458656764; 210857447; 426432976; 166565410; 363290873; 1482221];
[389840806; 388586626; 144168977; 453813137; 113580433; 93649117; 196083572; 163181829; 1156537];
[189779225; 37856629; 66181258; 508251297; 157002324; 453141442; 244440322; 398088619; 2559050];
[161718869; 64800878; 105037560; 142634506; 172261674; 100265711; 116258042; 358843589; 1689889];
[265416337; 211313818; 484323993; 501466710; 390522198; 371825063; 9822619; 502123565; 630711];
[173489361; 467935921; 44582559; 439304329; 190924046; 116339685; 125270151; 491423341; 1161792];
[348674044; 169736701; 110576506; 104601099; 71392026; 382991842; 524556645; 352269057; 2029168];
[178035369; 473584056; 137484552; 462785910; 102234612; 12433447; 203068455; 512349435; 1170837];
[252593406; 287798111; 155332873; 492268502; 439794113; 408730515; 248358325; 461847776; 821186];
[35011457; 72136352; 57416742; 58883881; 161166100; 231441532; 38824507; 251840355; 2696923];
[354307308; 367070199; 271044342; 68928352; 383054521; 363666372; 443100995; 464483455; 729849];
[233975864; 117715961; 346852474; 401651756; 5267817; 231930207; 19388350; 352281477; 1495228];
[373723827; 184839051; 81672740; 510741189; 461167478; 200071410; 425553098; 274167318; 2142038];
[337251256; 51380262; 271221625; 72224396; 323117674; 468272929; 163428664; 468579093; 431624];
[194689918; 46220718; 319314764; 445792017; 293990974; 271805015; 68904483; 149146432; 1305820];
[194329927; 420270869; 430481029; 364567530; 425144646; 498160177; 448180308; 277040231; 2240875];
[325958244; 386669702; 422745022; 498438605; 152757853; 101918558; 312614706; 284595566; 956074];
[106413553; 188662368; 355395700; 304221318; 411365654; 208898384; 140541; 42062866; 165519];
[335384945; 463855696; 159081968; 78704497; 453139030; 123727180; 5445427; 108440355; 377142];
[528550960; 267938131; 181117370; 512028162; 482598940; 431729881; 320304246; 428861798; 346710];
[462755488; 139332141; 299799388; 357525604; 436702312; 462478585; 194446820; 343388134; 2104400];
[173500875; 160362012; 225132926; 404555989; 141036879; 70730149; 380095440; 486312379; 676509];
[104445049; 267228207; 80331947; 299021387; 374246844; 1823821; 178590421; 169154087; 1016787];
[527331536; 130224399; 416898393; 444373297; 382310386; 401380854; 144681287; 40890851; 1311431];
[413740341; 146358866; 61179369; 511244195; 524743632; 265974772; 328962155; 418870184; 71670];
[341263826; 47733993; 278862994; 138122012; 342502300; 229951304; 195025452; 382774890; 2946397];
[242862798; 41035295; 385687872; 420295863; 146040206; 510980553; 356775119; 237168324; 1846900];
[130303127; 401620861; 11540783; 21584192; 157396695; 391391146; 16530664; 37399739; 2706323];
[150280486; 423798836; 469601128; 34298430; 493647413; 160747981; 232657512; 399489721; 1275755];
[290271961; 15067456; 105812630; 419974157; 345888282; 37637219; 111211974; 316637794; 2387973];
[162326632; 494658527; 333419472; 156644446; 200452398; 346326816; 523540640; 439372809; 1566002];
[244867317; 203711323; 272612287; 143501494; 243935527; 486572348; 326154010; 176451031; 500579];
[507178893; 409126191; 346210334; 147000415; 300945402; 139145650; 351345475; 255114540; 3078423];
[201532147; 292145584; 48007667; 291296809; 508285945; 451226380; 486959224; 334445879; 1138495];
[316089835; 232255120; 356053783; 215371712; 398778170; 322756056; 139977442; 253134264; 177895];
[282342530; 180456135; 230830119; 49843187; 46454575; 359457101; 200414079; 250258972; 1360230];
[327848829; 57196636; 204268308; 145545274; 89061961; 479409239; 304366347; 470795756; 1455754];
[222232817; 526571119; 294372047; 385569742; 40855113; 42038252; 274208830; 120120863; 827140];
[521261730; 57747827; 382891890; 30135448; 113881054; 213045953; 270234242; 391808447; 1666541];
[213131006; 271610940; 295389677; 112030039; 163119054; 359278307; 203163925; 150105877; 1303733];
[25900674; 357767552; 86943932; 352019508; 275322977; 58039594; 131563597; 169190009; 696878];
[19394217; 255796778; 515543950; 214571457; 70276620; 368436675; 339759393; 447193327; 1122812];
[150581698; 370700002; 277350222; 36623254; 346953321; 40010938; 445904358; 434833581; 2451193];
[34838742; 500477354; 510916; 172193998; 59996458; 211979868; 217647780; 76559155; 1383551];
[378363161; 142036581; 40115469; 397633661; 243182368; 269955524; 188427843; 181675702; 1286341];
[109469112; 455338416; 417092914; 5988965; 485966255; 143578391; 512609474; 246991377; 396856];
[291153103; 187246837; 348635163; 71767180; 380307068; 298111358; 77880957; 115363913; 873848];
[85177471; 408073890; 104328914; 342263733; 493793043; 431890653; 256916470; 251785994; 2598615];
[471070639; 141544948; 93971044; 137604358; 535017991; 255641705; 15674649; 89599326; 293877];
[448521117; 7791292; 314628578; 201919389; 429328479; 480917090; 444381490; 44770278; 2610456];
[121247458; 160467210; 422469243; 304279487; 466379418; 360983490; 477762548; 207074741; 2680141];
[141720031; 449485409; 44129760; 183537013; 306301569; 288551887; 102630339; 356292275; 2843239];
[514227718; 246923978; 420202700; 245603549; 83528837; 363896842; 446256165; 56915047; 1333725];
[356070258; 353466162; 140009870; 501597751; 522411264; 306647453; 207163527; 442768497; 1855332];
[505024197; 395397549; 117834245; 104549290; 166194207; 364382363; 76367686; 510846358; 1727910];
[59315647; 275129593; 99097114; 3629563; 491184147; 177900946; 204246888; 384353973; 2592799];
[482551759; 519536793; 376771035; 459950900; 328662874; 349050053; 244993514; 438051210; 2310399];
[161977777; 516426535; 161568900; 121177921; 71436625; 142433676; 172262157; 57329770; 1097108];
[71080724; 283799886; 418434469; 88904482; 529145348; 32652622; 440842828; 498258885; 2728077];
[498853704; 186783225; 227084275; 124544577; 463604939; 195252916; 132998269; 527207574; 139931];
[283044427; 148543919; 267730907; 467949703; 489483612; 132409975; 191276140; 402279430; 1135127];
[352244036; 283625349; 406674909; 524683645; 399080516; 306949054; 255827941; 322434222; 387583];
[397670251; 505135173; 244235500; 188729979; 85575585; 347689804; 528273113; 533035962; 2170577];
[204301310; 297273195; 521390654; 159563978; 145299854; 462959800; 123269366; 342656584; 259108];
[423594141; 351567006; 410587059; 257087962; 435118221; 521641675; 403807686; 70914337; 3110147];
[352344563; 60424347; 170217168; 361497593; 484335105; 88533440; 149564149; 24283720; 2915700];
[100029674; 490906037; 174667331; 195784701; 461554901; 260740578; 342065630; 133760949; 1368900];
[487196895; 432622053; 258578128; 41258188; 473587239; 108962823; 263457680; 267656262; 2385015];
[446965284; 448429710; 493567743; 84963206; 80253279; 150157859; 360004673; 416380904; 228082];
[192768656; 448917757; 466791459; 120018995; 427139250; 81799433; 321392370; 351123738; 1413185];
[19937022; 58557335; 82359813; 448835696; 427048551; 355574071; 393518440; 351120936; 1374765];
[123591692; 399745957; 426775663; 529452903; 386332523; 51072820; 133386082; 23463416; 1333491];
[487681488; 27725504; 167396456; 388905153; 377789536; 404316062; 405826959; 93173594; 1937628];
[25916078; 109277033; 166164712; 185435381; 158080327; 444357018; 515983631; 486853182; 83351];
[279508230; 134005; 110008978; 105962763; 77966808; 52136857; 284290398; 325588166; 212336];
[399634146; 51921697; 65478263; 149577387; 247141713; 256433940; 322844783; 79990280; 676388];
[48273506; 69219255; 15883325; 306638779; 94658629; 190257930; 37406056; 312553740; 2129168];
[483901134; 352989898; 72391457; 505440457; 481227670; 29134295; 429279608; 117223812; 1946716];
[278953202; 501151812; 238316369; 252070207; 442079560; 332163971; 48500393; 131190980; 2988938];
[236678943; 373797978; 309445258; 323804498; 151175112; 15626778; 481169353; 465441903; 53527];
[90970641; 416474600; 305852390; 9347615; 501060436; 520245247; 402944037; 374937214; 3028883];
[97573053; 454021608; 197221441; 183136667; 288461112; 30563993; 124569499; 121251967; 1720451];
[322991306; 448895349; 133988296; 138292101; 163374573; 224927768; 531182337; 358588154; 2608226];
[156790024; 358995444; 362301386; 15223481; 71522481; 326095464; 180165171; 46593488; 2391400];
[225356034; 331960024; 312788259; 448174367; 396765875; 468358212; 426664950; 463030405; 2228947];
[185778137; 420072746; 444166807; 17887703; 440128684; 154850477; 11115999; 73649316; 697353];
[286058845; 252541298; 101980427; 440430067; 353226647; 269100050; 150897046; 168948287; 2914610];
[95199387; 234659732; 250860592; 174487948; 220079290; 362964306; 13045650; 516191284; 605698];
[196247399; 348297346; 451765020; 231795369; 210530934; 36533486; 280126820; 241479328; 990690];
[96902878; 84794055; 298758684; 344742943; 118200137; 187645702; 343425237; 89843945; 663253];
[348587953; 358387257; 149949749; 475532545; 288798201; 418318767; 482599208; 434244291; 3072112];
[492727311; 44454486; 135091850; 312806472; 372212816; 10824107; 256293655; 245609356; 235902];
[423907769; 96441117; 357137908; 376127213; 499583318; 346537479; 130667536; 394507934; 2516976];
[144495781; 439916250; 86914341; 372810711; 264495973; 534583960; 35249676; 221682726; 941691];
[403264275; 370928973; 395052836; 535211307; 127193670; 288504287; 176059593; 106788950; 875900];
[61532158; 243185448; 236113499; 40397754; 405635111; 143764427; 53813102; 121337922; 1908918];
[190777074; 202376784; 442647102; 486302958; 533081583; 466564408; 121559195; 111140844; 1064921];
[71040755; 249307218; 376378756; 13291860; 410506196; 431659222; 442651129; 433786338; 2930174];
[446436412; 535234690; 28798392; 341432526; 338847615; 10770593; 209037391; 509356165; 273815];
[315824566; 321711062; 325722321; 202295126; 207460688; 168123342; 296797518; 511048450; 2032138];
[235857808; 246025944; 454852666; 438563940; 317112910; 213227085; 164432382; 240287878; 2119732];
[318564196; 397644256; 208025561; 228197536; 443589524; 345710652; 259490260; 438165638; 730349];
[10646542; 370589952; 467368433; 457891253; 461572198; 427971083; 12155125; 327364667; 2601670];
[529056584; 240951406; 296145562; 477378103; 283796222; 461780514; 140669785; 99865726; 442562];
[303249734; 376353120; 443396140; 270403553; 374761920; 186905851; 189944466; 219955612; 3140020];
[228584802; 316266237; 119440020; 159855384; 498313605; 89583818; 471620029; 222311553; 3040540];
[389803340; 320399565; 345408667; 444636553; 478877135; 207710401; 516279743; 243413026; 2183545];
[487469663; 397871258; 107581599; 314534007; 314193563; 458239931; 436608983; 456045426; 2022356];
[7340885; 294542102; 497574520; 137086825; 198001326; 329918897; 122355553; 20590287; 2642777];
[220269241; 144404830; 343371711; 518985751; 317848045; 290427533; 435517561; 356267948; 2171318];
[394842564; 140447641; 68486169; 471630382; 40048593; 49400038; 410684789; 306211227; 2652389];
[22648925; 321261428; 68630815; 363007412; 46189283; 352295205; 221828609; 434807945; 70263];
[384831419; 3997036; 240265546; 102654265; 230578380; 106300915; 230527140; 268302961; 2925418];
[402821793; 24629186; 511855872; 130820145; 274362728; 114824257; 368684471; 488133893; 1000548];
[201690194; 27298330; 87458572; 43225131; 34894371; 524856627; 265459950; 176556610; 1171182];
[536463198; 444728509; 80473487; 85114841; 529614746; 60805174; 60187483; 378338038; 1606474];
[54738270; 97784111; 508910855; 465096866; 62386611; 413996792; 425350453; 418684603; 1206677];
[354703709; 255184670; 82547035; 517157267; 407756326; 144536491; 522804858; 350669896; 118104];
[531185476; 476257840; 523683084; 520979637; 522733296; 361148111; 386337128; 278444379; 3144958];
[302479502; 176691359; 502312043; 524169196; 251478245; 134194344; 130769279; 454406116; 1494595];
[93103989; 498316756; 197343145; 108009579; 317511979; 417601296; 276942156; 382348184; 729029];
[444890301; 239241089; 60595968; 520231067; 427125992; 235250359; 470714152; 153330064; 479920];
[2048288; 258079451; 398139253; 21347062; 456657870; 249994473; 214611044; 478133340; 3160681];
[135673787; 429052642; 301197201; 126912806; 336466927; 242794230; 222488461; 105307331; 1365451];
[226446911; 195403513; 472195062; 147033387; 116824014; 448705036; 172265792; 132403039; 687739];
[329570956; 288917254; 116015208; 311988568; 522901351; 310959334; 250771413; 111976509; 2325436];
[526401992; 35277298; 303687319; 75686834; 232504313; 514549298; 509668963; 101627403; 1521048];
[151424910; 428687351; 422224075; 97994139; 328259301; 176675373; 67388905; 465955117; 2040494];
[339871672; 463999689; 19519833; 472853415; 378067458; 474942763; 75878071; 199244990; 640850];
[280097345; 234014460; 42850656; 436611774; 265205375; 358777859; 341850584; 457185019; 1052253];
[457556825; 525345383; 341400481; 91841739; 40165494; 529993213; 427104230; 402917963; 2821606];
[469177210; 51549326; 59926436; 36536923; 209580219; 274424836; 452958008; 488949827; 645175];
[378511095; 149311443; 343757991; 1225390; 179645743; 387009889; 105487709; 194115619; 1028900];
[65435756; 133230300; 114934477; 34887751; 20576212; 64386813; 447868632; 447176246; 107355];
[417682102; 68838654; 29662555; 237964087; 41224166; 29424072; 351400841; 228170510; 1624206];
[464291569; 490600014; 285616171; 528456279; 164875083; 381410429; 457976016; 392149738; 1904597];
[467107098; 142133737; 198336785; 302108642; 137255880; 336756888; 516881438; 389961702; 1590255];
[359666348; 516874557; 500984998; 301941742; 88842305; 115739987; 450019841; 5524623; 1094150];
[500806843; 110513880; 67892075; 500161538; 475148333; 3883845; 107799998; 447900848; 3104538];
[505257033; 391755460; 461560262; 379073648; 127497933; 353568904; 217556761; 107891263; 318247];
[50124539; 489903265; 247974021; 315267204; 340142338; 83398278; 436493405; 363685448; 2125698];
[123169194; 397826279; 267069824; 489552115; 483213559; 385182095; 204772935; 154520573; 2905291];
[332135919; 339089922; 377602899; 201573438; 488242045; 76073781; 444116617; 448962618; 3077739];
[464497388; 493543368; 437572385; 392399864; 240414368; 461636563; 175119210; 487400153; 1243697];
[530898109; 488562959; 126859248; 390764483; 37708706; 161290094; 536644923; 485529959; 900173];
[281382442; 366083940; 109314741; 213318580; 84568003; 174430202; 291316586; 77696902; 88632];
[508046640; 346768725; 10107070; 25966165; 417724932; 150329982; 521801909; 54223468; 2514557];
[98401859; 469076628; 267114381; 467795132; 358722105; 488416377; 51705018; 86513528; 1198309];
[526865349; 52742243; 118733214; 504007067; 453924652; 241546877; 511335119; 174237402; 1259236];
[453801487; 413127747; 71188853; 167366097; 516628610; 373162624; 334887775; 186918993; 1788617];
[150411684; 377836696; 245198884; 386258842; 276752241; 47435225; 93000361; 336987042; 847621];
[451694021; 42335647; 242822926; 88601840; 391757810; 94282374; 279000533; 162092904; 2368515];
[134983809; 483352466; 432339762; 82141661; 130427632; 71468654; 92933967; 237612494; 140264];
[279832530; 523437581; 42788297; 294213242; 292214093; 86236759; 132980174; 347360025; 715229];
[231093897; 387370038; 190672586; 32472270; 236051234; 316990823; 301135262; 329405153; 1519737];
[61115926; 512798772; 403026995; 184921600; 459799660; 491717149; 12221770; 16711035; 1974031];
[153084988; 257055199; 229985544; 104362610; 10123618; 176342325; 87314480; 98324714; 2548503];
[238840778; 123239377; 202820330; 31211659; 441767185; 379069415; 32944918; 464616568; 1742674];
[209799400; 238717670; 432553295; 352119207; 245876267; 178328141; 155949922; 524234407; 859124];
[332653647; 220142552; 439581842; 462566457; 250304386; 512153943; 404189943; 62988976; 797101];
[372156024; 176110992; 220315023; 9636856; 214795049; 403513413; 263669466; 520857251; 1123888];
[320029940; 20125719; 179394796; 211363975; 134033077; 510385967; 146001037; 173543540; 1497025];
[343109396; 96165472; 407837797; 420174036; 453512499; 43781560; 143430727; 418092577; 1517989];
[408512610; 311804024; 7076657; 221390747; 255849306; 359919255; 189473942; 118148323; 2437900];
[135357286; 179032048; 23647624; 223143566; 410146658; 219831625; 336246414; 78684983; 3003864];
[447598367; 130455916; 531466295; 111371278; 24319065; 282692945; 249526936; 13499391; 2384145];
[498640787; 61385667; 441327388; 58602581; 278213897; 307132464; 232391817; 15979666; 2005985];
[502251059; 423334211; 232300531; 81934028; 194060044; 56407448; 469463165; 332793749; 2233998];
[26045070; 69265375; 81348884; 46878957; 150041972; 351692321; 133800481; 396239454; 2109268];
[431425495; 58054565; 127938090; 213188594; 284657589; 25682075; 520998188; 314807491; 1201337];
[36685681; 411724341; 175680073; 65251849; 403021926; 362753921; 12568121; 474873277; 745663];
[239483578; 46463157; 358380209; 532620702; 154924384; 160299429; 332344473; 325983370; 95338];
[156682783; 426806434; 507268316; 136662452; 453643595; 505879776; 56089013; 268300713; 349094];
[385676383; 302992963; 27377131; 185179599; 393716851; 89107060; 503893257; 263372014; 684199];
[411114833; 327704572; 99855; 418435726; 406519550; 248099481; 98649315; 332295072; 3084012];
[298048076; 517611069; 22020047; 168309349; 9521453; 323397407; 223692721; 332469713; 1275181];
[125008266; 175991076; 520630049; 328776100; 363775323; 483765202; 419858863; 205889461; 1331877];
[520264651; 279734345; 394817637; 338091374; 262626479; 290642240; 154212106; 424528891; 97038];
[274033045; 524022548; 419104204; 119678181; 74277513; 117903823; 433193690; 63821777; 2176410];
[293033804; 451674487; 156351442; 529604168; 404275747; 287211629; 155410781; 389756306; 1153968];
[82237460; 97003014; 289412503; 102041143; 14800959; 80576201; 113241435; 512872077; 1854689];
[325176171; 424078707; 245390429; 243340090; 63100121; 66481061; 419955882; 263995061; 571613];
[392287375; 7781659; 312135498; 173208911; 520244929; 77345316; 501347868; 412815110; 852998];
[306237893; 178058419; 332191242; 311262666; 507766311; 207879928; 332646421; 242499436; 218217];
[479043591; 144259727; 103355255; 196541029; 375944274; 310130376; 54714428; 494806367; 965592];
[74240849; 117890847; 7018589; 334327663; 197341335; 181311408; 499085382; 459476757; 384575];
[358816954; 150763650; 54585312; 377283912; 519360919; 109948855; 335189767; 346480488; 3124150];
[511287228; 289709064; 212502653; 21403022; 248143846; 264736652; 360470001; 428831182; 1651987];
[226780031; 286587562; 346415220; 69628350; 95763805; 523294520; 409388975; 207270018; 1061617];
[253019464; 236771087; 321113432; 436062193; 305789651; 295579216; 192187539; 193968195; 2345647];
[215020999; 355248167; 125068181; 37543822; 220200968; 205897830; 346426639; 69653719; 118518];
[275114403; 32069952; 49137341; 47926276; 419876713; 188673120; 32794307; 333331259; 525446];
[174604752; 200730612; 456945095; 518583048; 452977033; 325963616; 93333260; 461561009; 3082794];
[16394221; 241412865; 321696771; 264200492; 484344727; 72040668; 331814419; 354560679; 544158];
[207708886; 234648845; 373098272; 260254439; 328963925; 441631671; 515202695; 33135899; 405835];
[276503531; 127415862; 345563429; 338081217; 274105021; 354600951; 320155882; 469824532; 2915126];
[223464227; 80591732; 448641311; 254387643; 523867691; 500164840; 116856798; 238804102; 809142];
[73892183; 355719868; 61229404; 487827139; 244107842; 470123757; 155134007; 179873963; 1088281];
[112034342; 459714720; 306231525; 82270634; 408759272; 400138468; 10209882; 211903825; 859280];
[411631707; 443891040; 505745876; 87444653; 117824074; 491643735; 287666177; 119362610; 708973];
[42704246; 344824909; 218571078; 166012952; 323588922; 121210183; 411982069; 274987821; 497876];
[126161973; 299971281; 381919072; 319698083; 310584919; 16993193; 107438691; 307939229; 289696];
[140661276; 147971674; 83017679; 326921468; 122306717; 196474065; 415373248; 339673230; 544787];
[324570273; 72055913; 483681673; 495699809; 458992212; 294102005; 336971818; 195793281; 856258];
[193783505; 359854854; 518530043; 372036767; 413119228; 493642354; 198830368; 278887712; 1889357];
[259337618; 413212079; 150286953; 141856053; 86121249; 185862944; 521366627; 102709870; 1238262];
[235967648; 276228015; 215097089; 140783479; 277588172; 153724650; 468153103; 394308111; 1192073];
[95662012; 144425458; 438280368; 391893445; 174858387; 18911375; 460698989; 176955782; 120277];
[411824344; 157439801; 314424829; 306661812; 135371494; 322887705; 100734368; 87895248; 1786614];
[1576359; 169207924; 26417766; 506304613; 82508351; 462323105; 211591614; 141600399; 2683040];
[466858396; 110268416; 6980093; 369777489; 272772175; 515944071; 465898677; 479320375; 1127009];
[430211113; 484490753; 171157905; 403005574; 489244042; 438636367; 155633833; 382483381; 2569756];
[231689156; 420789507; 107500555; 359976618; 107010560; 525496202; 446191964; 267661231; 2693311];
[80924443; 117466379; 411449588; 365246329; 109073044; 416414911; 345962617; 272984407; 1821576];
[35432653; 160138815; 23168741; 256886771; 65374535; 336398018; 379618441; 140310887; 1468557];
[359608583; 167723144; 74881864; 256835268; 430693924; 94489898; 500603109; 178547488; 290875];
[249014420; 86255198; 104629025; 389982604; 503814564; 452671683; 516444987; 87883147; 712483];
[87668182; 447042126; 256822805; 224905229; 92626258; 487217481; 427953569; 77960708; 1952772];
[256738672; 533498915; 8510837; 143374401; 348953265; 493039879; 426785419; 462557436; 738839];
[234399217; 405575826; 160615493; 422120892; 262183678; 47895153; 281254497; 213837106; 2621557];
[42478516; 29098566; 406424413; 408592319; 441058230; 272990707; 169590771; 226375198; 2187595];
[407934712; 397999757; 235222802; 405627401; 468363754; 498158039; 114336050; 71697325; 2393035];
[163360501; 360429172; 286583929; 500267248; 69283929; 129755818; 291658822; 133847684; 1874318];
[306757843; 25012473; 373662085; 288498717; 186525896; 155599947; 58626720; 44821885; 865421];
[260708096; 372497471; 187618562; 410189961; 317440835; 271171526; 437610450; 518790955; 2655871];
[71688526; 313200243; 436389858; 444418079; 295620548; 473677181; 468777841; 415055617; 1761035];
[223122273; 526869926; 515687780; 468570064; 527850915; 324027599; 295508327; 3522674; 184273];
[157140951; 273436811; 365612679; 384952474; 520075061; 397676735; 311733427; 423474394; 702052];
[291014729; 90022648; 226911195; 205005772; 397361260; 236809936; 249639461; 421942580; 2588312];
[42180516; 303981445; 345435256; 365377342; 15712181; 264213289; 480579905; 134558490; 830164];
[481241635; 369976250; 93808341; 372775741; 426807614; 195789411; 203703372; 314546233; 956291];
[134724237; 481152825; 432408401; 48375090; 179788681; 497982774; 514609431; 159638308; 2142908];
[272450661; 139604230; 47509330; 464480289; 167619706; 35255229; 38236695; 345268079; 1680797];
[296112095; 49238927; 442508051; 325449670; 498415156; 103298197; 255094364; 158044843; 286448];
[38724300; 131097509; 225467660; 207643802; 289701305; 60099481; 98692436; 246193330; 1401127];
[499608055; 242144088; 110107137; 527591118; 244237407; 47674841; 167395825; 451868861; 369302];
[290430290; 532824592; 115325816; 510287120; 297129777; 310929998; 468644470; 239219591; 1984366];
[94266897; 222486649; 99047519; 2697889; 484528213; 138254410; 404920179; 148563970; 1243480];
[42413076; 160245566; 268811829; 338717563; 73811750; 531834349; 111281025; 47486254; 2497579];
[479549395; 476852127; 326869628; 14602529; 118642848; 297357769; 391486378; 338949266; 1470642];
[112790240; 436411799; 455707456; 204423802; 503921121; 308517265; 105553573; 354001075; 2763506];
[354597078; 529885848; 396418259; 405761919; 133063039; 1854419; 70215010; 516441539; 1361598];
[327901724; 328208134; 20593698; 515901847; 20709145; 372611535; 167489042; 399212698; 122765];
[81057904; 426936243; 219037147; 316783248; 334075919; 302530890; 510187611; 42332266; 2441300];
[205492767; 29052580; 131021568; 363178023; 307594168; 50873474; 244515287; 335430185; 453061];
[504248075; 114849167; 322252977; 441990092; 341532691; 417888375; 481204449; 163867860; 1730213];
[160738714; 351389287; 346080422; 60285414; 498321771; 464019637; 7616993; 99695798; 2230775];
[326421981; 246049471; 219154252; 372479061; 100451877; 423202600; 55290508; 188754440; 1435808];
[525767094; 58054804; 310564874; 222809829; 264146517; 285240844; 67531501; 460235660; 1470806];
[122404201; 52479419; 109783767; 266522059; 233611322; 378050895; 151989969; 412361210; 332897];
[120086363; 403575939; 245335; 481264299; 441975067; 502777532; 71553931; 276134538; 2469668];
[484427291; 455818758; 188595561; 167585761; 327149788; 151366233; 326558484; 79772386; 2795699];
[212193470; 163403639; 366542677; 404303026; 153687715; 234581849; 528340189; 496483511; 2823819];
[175812028; 95192812; 240293327; 179889979; 154360060; 247284874; 224850256; 536615253; 105712];
[240394983; 145499350; 202817694; 109953516; 435894531; 401230861; 322239744; 124595944; 2491487];
[221796225; 152524729; 98810845; 73071008; 262271960; 184306045; 116972985; 141538201; 476212];
[503092952; 431957948; 399636571; 68316903; 219986767; 417704960; 403914472; 202057909; 429110];
[395338790; 394257826; 516505845; 377255581; 67545564; 478580509; 104507626; 343746423; 2540627];
[390335903; 422795780; 286970981; 11177786; 193061958; 154832406; 249065778; 62613721; 1026764];
[402198874; 127969143; 528571656; 204777429; 193512602; 290116636; 372916816; 50401570; 1291607];
[300133000; 428697233; 300543208; 178578276; 530231056; 457573108; 527259289; 22274692; 509395];
[131579615; 347987326; 16743974; 296559770; 123314487; 69898471; 394574090; 140470204; 1233064];
[304684676; 148031207; 427107404; 94405044; 25167143; 288082252; 46042509; 11206302; 2897996];
[100938502; 80218319; 304179233; 459985903; 20250484; 46969389; 241850030; 332917416; 2748667];
[244692021; 377628539; 381109901; 69210988; 348318696; 227630066; 327659950; 200628408; 2456593];
[491035933; 318325757; 20561946; 518925358; 477451654; 442500568; 437918278; 109052881; 2992364];
[376253159; 86863743; 399021634; 5591533; 47056703; 277234878; 136540223; 454812355; 1381322];
[411876103; 258386760; 239592683; 173257058; 229788700; 77969221; 242720326; 171775633; 3089039];
[394182471; 228545435; 128422286; 315735791; 441467641; 444528520; 140306477; 511946512; 2150247];
[508184294; 524036720; 71909721; 140090830; 388630869; 56877346; 70819892; 507406061; 1988042];
[244995489; 5651200; 356310301; 339953433; 64928775; 158090676; 37031309; 340931153; 655526];
[88025147; 118663398; 251077651; 249632994; 83218495; 310102159; 32433652; 271079944; 918241];
[134705634; 147176239; 331257778; 110138242; 450259117; 86759162; 406104759; 447990866; 1125148];
[198100639; 132835173; 64889850; 358393902; 82620014; 431015912; 16715178; 220420834; 702861];
[58482162; 434477902; 339570061; 117702850; 190473234; 49671602; 136045058; 215676949; 2726597];
[133809688; 406679949; 41880626; 479381285; 430628295; 511836902; 314001135; 232975256; 1826315];
[269553470; 49173890; 203121177; 161014432; 367129323; 187030700; 360124951; 231962078; 2722045];
[269575551; 27319137; 354153099; 96109754; 390620529; 53954461; 273764290; 520814267; 568291];
[232108606; 292824117; 458206134; 291945503; 59835869; 378943294; 348441781; 236983213; 2780108];
[243498625; 232797887; 324962205; 328889923; 55629220; 151665013; 210821346; 369035447; 2177888];
[59217045; 369775412; 88437973; 461151291; 505504873; 127978045; 327477747; 207163754; 1994559];
[163284005; 77829035; 159682676; 238764305; 120770382; 40874721; 461881644; 371100150; 871687];
[312210527; 262447794; 147490131; 501132573; 508571626; 368314493; 310642912; 265593921; 2010115];
[73239906; 401055660; 459144566; 402898833; 361397809; 176697505; 349028871; 181679612; 2480340];
[195448900; 94257756; 456099257; 448051039; 26065709; 249257878; 185210728; 68073189; 2722911];
[58422665; 258081356; 514014950; 425021890; 88437531; 193376334; 519964416; 375162730; 479575];
[361406481; 406788315; 207162187; 301286386; 10187341; 433421966; 501177676; 356475576; 965196];
[180822319; 31231831; 223828086; 272026545; 128613566; 42753212; 337250620; 415619656; 1474403];
[368521280; 169495608; 304162228; 50128464; 389361105; 187760448; 438246119; 421072772; 3037534];
[503093391; 495132696; 333852242; 144720374; 98072306; 45224253; 225160582; 346301434; 910136];
[79289913; 186608962; 328695862; 31144862; 114783622; 420525911; 389766197; 77300316; 1839863];
[364579500; 148769126; 47840181; 426642119; 84696455; 161350869; 68727916; 384579322; 1972065];
[380958804; 356911400; 124759274; 365271837; 355748043; 271813597; 331424719; 453117343; 1718059];
[345872805; 93260444; 250696403; 348520369; 29197437; 358523658; 241262246; 53597867; 939872];
[332029790; 106050516; 79963615; 177937824; 150826301; 471103681; 442210299; 456392477; 2472352];
[83748799; 176586045; 236262451; 265515459; 396712105; 272841468; 53445332; 281939557; 2298336];
[218199758; 446146683; 63977153; 305498333; 425830139; 73371057; 502783699; 458887131; 1057651];
[521174212; 215864661; 419174064; 29232024; 370012801; 117481490; 297856769; 456778807; 1224771];
[123694569; 375409306; 77783310; 445412607; 192036853; 410789752; 310123082; 536310405; 1532017];
[403195307; 435285708; 62237520; 509697021; 81777024; 491288847; 57728978; 66870917; 2652542];
[145706238; 401380098; 163023907; 24460967; 532128395; 238102388; 418138488; 125903437; 2151000];
[373710601; 201806887; 128611399; 54331246; 477367478; 28211775; 287483650; 124784206; 2192053];
[501872536; 358986926; 446248084; 117852071; 253507355; 113357632; 495643971; 211602764; 708941];
[352869083; 31368404; 298798738; 275146838; 88037727; 170102287; 530876302; 98036150; 2324920];
[275366201; 133311381; 40893760; 215296511; 329961291; 234415105; 469022951; 501162562; 236544];
[363604440; 195743107; 114245819; 533322751; 149321382; 130040248; 60606505; 443910834; 1316244];
[10816097; 210321096; 377866070; 156019048; 471675364; 314848813; 348473277; 425377916; 2805579];
[360698732; 413900994; 121478741; 143184272; 381801913; 464267564; 37991826; 424374511; 1281029];
[404684734; 352402796; 383892686; 209769839; 80753; 64034793; 290169528; 133736322; 2298827];
[333179503; 39172504; 532210751; 54461346; 300798631; 50887218; 439490437; 41574693; 2364355];
[144739143; 269441437; 506238925; 486786926; 433124117; 205864042; 298000597; 179368508; 720357];
[427159959; 484429905; 412735400; 327158903; 79033592; 367962551; 33366770; 349341848; 629113];
[95270912; 74578866; 213435731; 94631509; 482806761; 220169057; 344115907; 225715604; 2934876];
[302975665; 114342294; 172082501; 387123042; 240612482; 369028541; 259765558; 472929403; 3050921];
[190681593; 105886688; 77468619; 351712403; 103680729; 163404619; 472892059; 406249739; 819360];
[259085779; 325763861; 484052722; 161190788; 130411067; 85346304; 101989141; 311907339; 2730184];
[484225373; 442148363; 522647372; 83221789; 249763155; 451946453; 520401518; 287587065; 1401112];
[412868936; 32615015; 525460896; 60913659; 228242325; 241680764; 242725956; 224877205; 1837251];
[346211417; 68894141; 2268706; 291981386; 184856812; 129185337; 89514777; 486076748; 1564235];
[449100916; 494082725; 432379666; 181293092; 24092036; 124122607; 330548965; 262499037; 1888184];
[453923664; 453667397; 350987319; 89840376; 333328867; 279675395; 281358650; 67764404; 2307481];
[443860020; 419304860; 501429785; 445525249; 111101373; 442312244; 276553529; 314340166; 2491256];
[240285187; 402684273; 220892054; 325605043; 457832101; 31914378; 213336722; 230657587; 2004268];
[436931221; 192755503; 453064772; 81441545; 303500902; 251391994; 499690724; 177474491; 1538343];
[461264094; 251951886; 256884183; 98377167; 127393935; 479565928; 481054143; 91509830; 2236303]]%uint63.
Definition lW : lpt := ([260605478; 369814113; 64063271; 472495594; 169267781; 300104692; 97416239; 341138904; 423170], [365195792; 427537829; 70640854; 269357813; 220209396; 41695904; 225619205; 170350447; 2391087])%uint63.
Definition lR : lpt := ([380532782; 407543917; 224782406; 491688487; 247989122; 412036086; 201818840; 203005700; 1037720], [105377595; 351149954; 335523048; 489198622; 466430829; 465275200; 269428004; 114504573; 2719382])%uint63.
Definition lWb : lpt := ([260605478; 369814113; 64063271; 472495594; 169267781; 300104692; 97416239; 341138904; 423170], [45648695; 126397201; 406634104; 315035611; 140884099; 6227488; 322188348; 70569668; 780319])%uint63.
Definition lRb : lpt := ([123668642; 92321445; 169973627; 124484250; 457431613; 33752424; 152739963; 140328904; 742848], [244353426; 323207355; 361825892; 261274444; 395787111; 284762920; 328355656; 295659575; 1492751])%uint63.
Definition lg20 : lpt * lpt := (([462701990; 202625417; 215710241; 9356207; 202960824; 347879018; 496268630; 375940263; 1964832], [473529844; 433915640; 180614340; 137727533; 66757226; 248106517; 400703336; 397659533; 2464156]), ([121748653; 164046165; 498165617; 279759182; 385627066; 283456298; 530578037; 105006775; 2621283], [7740985; 177358640; 81564568; 244461; 366783459; 338597787; 25958328; 297954095; 1869177]))%uint63.
Definition lg21 : lpt * lpt := (([429061869; 385215206; 397850449; 105228782; 71800436; 3354414; 433654184; 501367779; 1573086], [250811074; 522464701; 175752357; 345138795; 366108442; 534485245; 15321474; 309477801; 1674899]), ([293765021; 432930987; 192791675; 520507576; 24959802; 169540059; 150582931; 429962406; 1940463], [123364844; 329091536; 261023353; 208845807; 307002803; 369396794; 516894406; 340859445; 2579908]))%uint63.

Lemma lW_val : topt lW = sample_W. Proof. vm_compute. reflexivity. Qed.
Lemma lR_val : topt lR = sample_R. Proof. vm_compute. reflexivity. Qed.
Lemma lWb_val : topt lWb = flipped_W. Proof. vm_compute. reflexivity. Qed.
Lemma lRb_val : topt lRb = flipped_R. Proof. vm_compute. reflexivity. Qed.
Lemma lg20_val : tog lg20 = g20_const. Proof. vm_compute. reflexivity. Qed.
Lemma lg21_val : tog lg21 = g21_const. Proof. vm_compute. reflexivity. Qed.

Lemma chk : pair_chk lW lR lg20 lg21 root (o1 mo12) slopes = true. Proof. vm_compute. reflexivity. Qed.
Lemma sample_tate : tate_product [(sample_W, g20_const); (sample_R, g21_const)] = o1 zp12.
Proof. rewrite <- lW_val, <- lR_val, <- lg20_val, <- lg21_val. exact (pair_ok _ _ _ _ _ _ chk). Qed.
Lemma chk_b : pair_chk lWb lRb lg20 lg21 root_b value_b slopes_b = true. Proof. vm_compute. reflexivity. Qed.
Lemma ord_b : order_r value_b = true. Proof. vm_compute. reflexivity. Qed.
Lemma flipped_tate : tate_product [(flipped_W, g20_const); (flipped_R, g21_const)] <> o1 zp12.
Proof. rewrite <- lWb_val, <- lRb_val, <- lg20_val, <- lg21_val. exact (pair_not _ _ _ _ _ _ _ chk_b ord_b). Qed.
