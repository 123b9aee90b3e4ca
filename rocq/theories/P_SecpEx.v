(** The signature of TestKyc verifies, and does not verify for the hash commented out there: the three
    multiples, with the inverse for each step supplied (generated). *)
From Coq Require Import ZArith Bool List Lia Uint63.
From Verif Require Import Agg P_Limb P_Mont P_Jac SpecKeys SpecEcdsa SpecKycTest P_Secp.
Import ListNotations.
Open Scope Z_scope.

Definition kt_w : Z := 14872755445913445035799164071643673401381722726999689173680738613356914952674.
Definition lg_x : list int := [385357720;261360344;327824982;402241115;279998505;290121539;246503041;266288023;7978598]%uint63.
Definition lg_y : list int := [454087864;37651583;22349415;258511181;277516241;503187208;295007891;249877624;4733658]%uint63.
Definition lq_x : list int := [38320226;103464304;481944622;203234314;501421732;121279085;89587048;238040023;12460189]%uint63.
Definition lq_y : list int := [240491201;498529235;532843201;421103513;54321778;297207533;243745390;504571455;5805798]%uint63.
Definition ta_k : Z := 91887713759759450656542211088791973883165611707244390339225448847025594269452.
Definition ta_x : Z := 37011416624340759746010589498877857361345327122775466211728320807763962522969.
Definition ta_y : Z := 67083279286998140798047300863790554111669665887251416703623345286251019321176.
Definition ta_c : list (list int) := [
  [175701171;73078196;34925360;151111377;387863904;66243469;504059580;281433252;1160168];
  [116109968;197404216;125945696;170060015;189164240;494851337;416099843;265118078;7779097];
  [165296522;6946521;418941926;262630522;307744997;247038680;50304195;527294098;12863744];
  [288171632;107296073;428510078;264809342;443754577;445978906;464311303;298353113;14626845];
  [218555635;251632277;345733695;96006914;17611637;195861357;493060898;175001136;9390807];
  [525881928;176422486;489021869;70035020;332620457;42140555;7766516;255705134;7265249];
  [139423784;132039536;176528531;455323478;468093542;446589593;102092198;464020354;5956623];
  [138014903;411287644;127461395;404279938;415325883;111621940;455982460;180188356;6109913];
  [193969800;263566352;317995426;491429593;238259057;362986876;501660549;175765127;1275037];
  [63992443;306680216;178321508;521511222;485809041;266140030;492120598;131132467;9320369];
  [183430240;428842145;254056253;493157702;452963063;222471786;470320538;400363431;10851146];
  [230424130;54920927;135888214;188062023;194080811;107965555;236533479;81241486;587152];
  [536006018;513363676;352878584;478772893;73075269;1910310;278312043;126552502;15109461];
  [453284776;232328390;497408277;174467896;428727271;131483092;159030586;217415653;16282926];
  [374421261;389468393;406704617;293198827;341467156;133354828;291772242;477060738;10240685];
  [263724489;391255255;87746739;79115511;341680078;112973818;169033534;533554984;12237608];
  [306050787;58348837;442007331;82293188;425894750;227875682;251077191;375643839;14717873];
  [230778279;519058443;167230471;258077591;30086790;12763053;409178843;188714833;8440023];
  [305768794;416571947;10878616;87016746;213684196;188919486;271346644;387870564;999071];
  [152219945;41984809;473951273;320288449;178485361;69615628;322714936;48569564;9758232];
  [111804012;359008336;464078721;92584400;31714270;482709876;135887360;298296641;2147380];
  [333608860;40330266;350964334;323443440;199434452;495352769;398406992;127239323;10544439];
  [19163866;4554364;65793313;110006465;515510093;19764819;277089655;263867960;10513950];
  [183940614;511979703;461496523;28588504;404045451;313480245;305909632;183747736;5169785];
  [171363881;85569472;510398728;394571772;328719050;69487676;55217498;352988979;6726018];
  [175316757;156325390;232525867;214063799;409183873;373306082;354392984;323882831;14299891];
  [393419762;495426554;192287739;393877588;424425460;181178566;142178100;24184879;5175031];
  [108152879;118557360;443710606;516960790;309780319;8184247;314234535;404930652;11930390];
  [201506627;429917662;246911767;228354117;450266743;284131694;211119164;135347290;5968479];
  [534735891;14892448;317473229;288560193;442524340;109228761;260602977;506264532;15631793];
  [358480279;237355596;16312941;25603655;109865041;326773124;115889453;35120564;13027704];
  [384144118;303524233;36515723;505491898;417263659;453914926;144347397;96655836;10349042];
  [86999150;117704993;237268440;391335067;138500532;498615030;176918028;356841392;16109566];
  [19490708;27728125;93487950;489062374;235528249;513923100;215801985;467626833;7601999];
  [265887351;419282664;533631048;472947806;483095586;4058924;525137744;184257299;3170383];
  [51861892;136746737;251753061;233662128;274617744;12197496;349567890;435069891;3950488];
  [299184378;308591342;307851457;4216196;264739758;82042710;371411717;13522444;8654887];
  [399970616;129327249;472213361;10033263;78435217;379698063;158508245;190646389;10253417];
  [314296952;449936697;506497388;4490963;225240743;277819398;96601210;489435365;13497429];
  [86265038;201790727;34250320;173008896;52012856;258305891;446773024;383890445;3190079];
  [424949099;194612197;513680017;199384827;19731881;406613329;266066734;292920847;15165778];
  [229845968;327152320;493971219;491852682;129703776;493151690;235696742;428446519;8165071];
  [35625165;262603311;330468566;27907598;68374185;236045586;502935598;6364128;6834515];
  [26844784;203481164;338106086;42060922;502137810;473379110;474628879;458420324;11756409];
  [426384861;475994864;497423502;164286874;322233865;61200313;289874913;424943358;13014640];
  [515856116;120431000;349250113;172087092;250165041;460979366;242440453;167803451;395797];
  [117983041;268322024;148074558;491852754;171027228;144776571;500892144;144186513;1445178];
  [514720106;478700572;384450188;450881011;15154968;490921541;380488215;40421287;2772583];
  [217098079;441826381;511680479;235373313;98127512;173451870;384351564;474061094;1092355];
  [340934662;472900850;473310045;239127527;356565096;438693043;481683636;448870652;11797842];
  [379024504;57317626;146514811;220246023;218249978;16766154;298657887;283037966;1382191];
  [263181150;392915696;403336370;7280470;438462713;351298077;201267683;274603048;7531067];
  [79423376;74445949;221764191;154132313;149338650;241318857;436765578;18820744;3385308];
  [346851024;35806313;470608293;173837939;318069650;168399281;208540252;424005422;12233813];
  [516802964;493630515;461420476;230510927;248590719;79837595;343435137;294373895;9201793];
  [463609431;106936648;476966177;116036982;23982594;11063310;125812622;58091081;13532028];
  [33193589;260372823;255724542;517287130;238520612;293628982;313321145;39790044;8361504];
  [264933444;218732957;231974279;345821284;152542533;158416214;417870149;114907579;5248529];
  [49521702;406719769;161233516;171525387;34645606;252483184;133920505;271453274;15364279];
  [45897345;181941854;77600389;297668756;66973431;37332427;147199744;369436788;6973940];
  [531846385;377076055;382398870;186263168;168379129;175156185;127525018;343878248;8656036];
  [339643523;376319451;84335533;103988807;278544259;229268114;313117366;436931991;7837188];
  [743715;475587218;137598252;124582221;198185570;320122806;353038021;413130895;10502131];
  [67631502;209158066;344695101;52263820;300598890;116442623;524925454;379427124;7506280];
  [191458576;271677526;70700184;35531855;385244463;498800362;120034265;1695770;6685386];
  [458703245;142767198;409773877;208364646;84826898;372264276;245406429;112257339;10149616];
  [456437925;467514545;118735603;209444453;424794681;521349265;361759716;52693828;9654207];
  [107109268;297492362;292187933;507697347;252734296;529370934;32156760;361853005;1294169];
  [51943997;32676891;225058521;239660479;422552999;144850022;292326359;276173368;4531976];
  [196700383;205466196;102951339;31784487;31983919;451240052;328464806;348414841;324941];
  [326321715;370165447;158900188;256289470;144170882;14423182;182910449;404365689;8703811];
  [455652112;253942747;43280389;417077669;266952745;134088862;285233897;361504741;3544741];
  [262610161;109650381;147983212;283291501;340406858;84883230;531520667;154277643;14577176];
  [228348640;380467312;399671661;148654964;268699963;370200632;322166447;211694785;7106047];
  [376821096;429153742;512237523;348279971;43809134;342148887;161174815;455861225;14545170];
  [210412531;458095772;456352839;272264264;187589697;177694475;400058416;64376405;11420398];
  [126929373;58942131;339501609;139077848;270454387;301407822;397265213;367574558;242437];
  [363323362;181300446;95979172;61159956;95056272;499803489;384094871;203051271;12749185];
  [92992068;326850601;482158245;410802688;71204153;284179052;110426097;370045966;10212512];
  [515242187;144356141;180172454;369814439;226525294;187191013;73401701;283796951;2958624];
  [399520961;4187652;318001527;186715505;472932523;200868450;411515878;515084093;7867387];
  [279968571;50058498;414770481;155473231;200250081;368548027;463860427;251406377;14960205];
  [252639485;210065246;295337361;393066088;152979241;360880489;74945089;132494797;15709770];
  [338633759;361790432;112691443;415949726;294756334;349813286;460858997;103925759;866629];
  [451217805;74291014;523440844;423987004;182411313;199977283;426154217;62082264;6216996];
  [312735;319816126;108637805;453412601;224495125;370184165;431883183;439050251;6195928];
  [427791244;528450657;91461050;374801107;358665690;154170943;523530620;29749406;12391821];
  [135569438;222949682;141324971;341913527;164386422;516093578;111224022;267416212;2632682];
  [480420096;95533687;437900875;487304191;528902427;222303705;310327264;331115562;4610292];
  [235248344;508921203;112925705;235325324;277961865;228566102;321900001;357148474;15399972];
  [536491279;123957738;502320267;431221651;218088992;72285091;390318606;180010706;9372818];
  [424197359;124198881;439252732;268290919;424989228;303416728;477126406;411990330;9893015];
  [398108756;492809239;448895170;334936005;22223326;237113493;251073395;76129364;4817833];
  [500181601;115894587;223402233;323903292;403540785;295796785;473206696;177326598;13462231];
  [73315076;94772132;227389278;463554451;100306200;325349955;179973719;409754958;277972];
  [73859378;286459885;334344935;101524733;64159425;513582217;492513713;425921046;2920815];
  [157163872;487380305;400013321;48276406;5831344;287546118;422849587;230353342;7860675];
  [73749253;479949952;456038493;104126447;510232731;135456971;27899015;160142768;15619498];
  [420504277;412570241;116562906;195854261;76829213;331999578;354835401;98213092;511544];
  [460602745;506342085;513819714;531947089;475009263;114604012;278999772;324965772;8269898];
  [39368430;171207432;231318340;473438402;93709999;387431780;210606711;141881508;667271];
  [260565514;349508764;463427960;98568519;272857529;511565367;457485141;331960486;3961329];
  [12351020;423868126;527307576;383914896;495395378;309990699;109818218;119090514;7106340];
  [167911995;308758953;295120774;507704854;96279243;270634708;401448416;514250861;4543586];
  [123541191;93654575;75712074;184544321;307947672;315184069;319710608;470970879;6674235];
  [462756745;158038771;341340201;25528230;508298129;40025596;363727635;488813809;918331];
  [368696;66603873;139549238;211841993;246308515;286478090;341065097;174135859;8937318];
  [269821067;262430375;63813035;529639216;62525028;149369982;160988684;96107877;67145];
  [122814960;170343016;85402008;111758896;828735;381983497;346204682;468802216;11114025];
  [462708536;394170908;78657202;88047380;328971455;406739062;105992721;502266903;5106475];
  [223571831;206250957;340375958;505552213;429978679;375216575;468450684;56264386;9445557];
  [477127745;203197744;425851217;276954755;274095127;474810595;168771465;423838393;4285322];
  [275549549;319683486;124251218;125979663;282790946;208370229;252648685;235140379;15321789];
  [30437212;68598040;17125949;186464209;23333278;247293050;245808486;502660646;1990440];
  [334862722;382559796;510374149;318803818;472943151;153607375;350116764;337797146;4067672];
  [15084353;441805774;292541487;495014386;490405097;400025712;169786039;380680571;15621680];
  [403586094;296491347;141168986;105440731;323726473;404940736;223661905;401053807;5409907];
  [495412067;510072481;11598050;93228589;168491636;271063862;246012118;155041017;9999041];
  [54935602;169350633;230849627;501909341;415684534;313865281;316242051;20734367;11584746];
  [176771128;77850535;306797447;114649756;516720253;281100111;60901433;518121594;3482589];
  [458801613;114171224;320447932;498228497;39684506;261752128;475489401;183711724;4804596];
  [118185333;110580627;48605175;141552695;466419016;115408498;23720107;62209440;8269337];
  [373511014;54179311;377449387;396267828;425308615;415540293;232948254;264351387;15898436];
  [414728884;316490897;212833579;6123478;370916043;194878886;248433275;277758086;12566661];
  [443673572;88917526;454385563;433395333;25656754;489825671;7328247;132849892;9964707];
  [532563647;415690948;165883484;486386179;426798575;21592615;291547018;502468226;6702118];
  [483618967;316072193;262851241;404640660;373740242;187861821;469597302;384546756;13329377];
  [216440057;445784076;343222897;535796365;510633049;291461964;186453089;292731265;16050857];
  [34850591;30310335;72892568;138329338;25313874;171285900;432394364;266461029;373433];
  [164544185;295844999;158265894;193181560;425368320;434046106;415784448;45501807;6003579];
  [524885285;465466536;321045530;136452692;376241515;496046833;8696001;481279020;6547780];
  [149107369;348240603;233819109;491257908;507440921;110820511;198344665;198597575;4421968];
  [457947615;24048853;5391914;105057631;234220998;441351728;410408424;95812371;9918289];
  [101387724;216231607;435460422;23915740;192799458;248437027;341029781;431233655;5722931];
  [307316639;411336723;431910581;49558046;190223164;93036413;459662912;269582457;4452960];
  [456137912;137202388;513324942;211999205;321850984;400966884;495567233;180849273;11157163];
  [456870527;277450046;140968376;183272154;293024055;364304382;390642004;497765334;7984131];
  [95146325;459260488;207644299;333712717;289369732;104598149;344578193;473349522;16512124];
  [186788098;198911709;377173855;535160597;271645438;189101604;224636959;383363313;16388427];
  [311413622;314429264;236744889;505055224;145443826;309599461;102302588;288453970;15590005];
  [374482330;167185407;225989102;467652511;37770891;150948293;436308609;18301486;10796007];
  [152539241;17468185;77123818;514033172;351332712;242332853;480921566;85988894;15571565];
  [453565933;154002522;171177981;96208353;379080236;358153303;84671269;60879135;13336152];
  [71261624;293686632;302793162;121970427;348134469;403068096;45265691;211316929;2095743];
  [313240945;520534732;470230508;3671147;252137656;24510347;287562219;50655775;9656148];
  [109981184;505004355;89642154;174501772;100980347;191566595;441719082;230925489;4529407];
  [77490356;355760958;83624733;89891995;44277517;36341382;376088047;323669267;14238883];
  [530974735;211129093;213140302;444365313;263435166;296438796;34495981;411995283;11058991];
  [67989938;73831686;59011553;173881569;55602735;120564676;416939126;452294854;7417190];
  [51907154;170871585;13416984;71551998;501743343;416920375;400777963;449429728;14501167];
  [369927390;374141541;396822276;218077513;134793763;487878140;486916963;499388895;1915420];
  [98494869;489838450;393775136;248829148;137060685;134593749;226448192;474456748;9855299];
  [506466306;227903621;413634028;504378303;519787035;267614127;246417399;282387958;2894902];
  [65408725;391921847;422331068;360004581;49924939;199348772;497858043;270727899;14557371];
  [358186389;490740897;509674975;348318357;260737363;75180699;234882605;335812982;4778476];
  [58462040;83772409;143255905;393249690;326078216;390012154;160120213;251645721;7707199];
  [200643943;393577329;370108596;98936315;174506588;207929236;52986848;351110573;13887540];
  [130116596;388303491;437509477;261288614;422644786;456881225;244581672;13515913;9211452];
  [176695463;126998508;323452101;174337365;396749507;284224899;506410369;50829728;10494617];
  [350921800;191838285;165308646;462571382;357696727;128359603;222686869;83045428;4630707];
  [115636785;517326808;415309582;512366122;38557270;138937497;21372250;268656650;10343954];
  [242313461;377525414;87932599;443466496;427969303;498630481;514912183;292372725;5266062];
  [212802869;46151958;141068044;215588200;383896975;42795670;217709211;299441983;15383903];
  [7657946;211905840;442958286;473939838;407575093;183658334;268164571;222552210;15087042];
  [225302448;298259732;259476525;521959388;251695754;419044338;3584860;211769429;3515971];
  [21081916;338682291;472484556;63562303;534909419;494934358;109934854;96243832;612726];
  [174590679;26531930;515927604;301581211;532089095;161170947;216027552;232475310;1648924];
  [421344999;370737927;135110672;67879384;300691343;104472313;18307559;367786402;6751764];
  [172333535;188622953;312688014;411045846;328683042;439349777;441462944;87728366;15725856];
  [235037313;283792413;432578977;488563241;125973251;517801448;527306241;232594337;14054838];
  [202110868;166220010;174117765;481250832;66799547;370425683;332034075;256858501;6026296];
  [163468270;128645159;198205017;417605061;105631049;419617696;64502994;185593099;13959559];
  [104692589;325301256;94755102;532863211;449779890;280180952;440935328;139131222;14499629];
  [104329909;452033198;267396312;47229625;418222688;526776777;280307395;322252119;7708151];
  [414051870;416546819;478433026;117491445;387316388;244305894;288297902;156796316;16006519];
  [332258261;241208195;295572366;66447475;399861533;107490743;513415148;389474982;11278418];
  [422627904;11132996;499523815;428796285;161772759;317956635;432699597;57349396;3636898];
  [438397396;521316499;23541675;489755753;169849319;213956116;342906882;50459700;9183634];
  [4798083;535204739;214384518;200481027;148511039;454502342;359949590;132417389;8597861];
  [90618946;163801735;394399742;206157870;168279497;52508021;411204348;238394325;14638763];
  [237257866;175157163;471760068;300977769;24795273;362958477;379371725;437652567;2103200];
  [454607175;249053169;337057556;272800132;534481575;206380283;515028749;251542101;3690937];
  [111114480;322272843;126440734;372188012;395627860;325429137;38928586;482911399;12975009];
  [532670530;349717861;313684163;496852961;44802541;128254013;291400467;311129488;14418975];
  [205019451;236048462;131242459;200224147;164585713;482852803;381269390;440405366;12307459];
  [340467002;310398198;233097136;17433467;125029135;403772494;174910531;345602381;8323760];
  [417278270;350729483;11150816;282302445;111427973;393564408;529045769;535794484;3032045];
  [321001061;449614498;39279556;101801237;165462623;5842748;26881579;324046502;8090148];
  [425206492;89681621;290407717;360165583;467427273;273383851;341062015;530999670;765779];
  [58126704;402727349;355219297;115236982;283161519;303251953;512905871;385548219;4345223];
  [119560224;128180863;211641126;435081186;56330200;372770372;61399299;4583728;16358938];
  [269039120;158269884;470438473;100676185;198434203;178191534;134523761;342185453;4917372];
  [406548347;383351568;169911794;355206656;419395064;497564315;37693559;447571828;15967219];
  [242435785;264214390;282283951;90366671;449824283;355433247;202192873;355773615;7079623];
  [329458422;57463107;358090838;86710391;388037338;427905727;468734126;36134817;4645157];
  [515311519;451397297;191894460;225125387;357174;277589029;294049641;87486553;4258246];
  [89160448;32851658;487646630;235553180;458534355;224094964;80009843;227670574;12082345];
  [271465584;188513249;42279554;93678236;302343885;490535566;1829336;506194223;9965156];
  [119776633;100517818;387868771;242869304;14113968;145161618;187996217;214371299;16631978];
  [188409101;240989345;206308196;389577768;423693300;514150176;336252818;212147267;13382451];
  [467734766;229284738;520285773;336327039;76784056;390873285;443502221;86037299;11324046];
  [247835241;5407929;54525554;299127344;50056058;44995454;506038676;108019903;16707633];
  [263072853;366308596;275117678;289837581;160640919;199672637;292716663;138684258;796522];
  [470260213;416296920;67678343;435667446;8793393;359817209;297964113;228409501;8540574];
  [434825525;228734956;189020340;137587072;313570352;430379201;87148691;520802842;8363132];
  [177707166;435274299;490129597;276158092;299145020;355152654;264770370;197425754;1955446];
  [75300610;487548175;470334833;502899529;533658820;98271968;1971825;189167013;15740192];
  [74326133;356442430;271147923;16340902;280633226;362506980;435305774;10134508;5426084];
  [377718884;21475135;425129609;196016383;4366978;492147469;429307979;173269400;5543685];
  [327438881;435363689;426593988;441665748;808619;65553894;194271986;362042923;3901776];
  [187860696;243425906;182655001;43917876;414587505;169851548;122986217;174273186;571128];
  [368375225;164424318;478373427;257636296;66785813;260139583;433643980;155486388;16557701];
  [489110537;486590175;280478738;359842661;107126409;110562637;336237399;526277875;10804833];
  [253597712;260719417;366028925;354671685;502096589;271824296;207802437;110109614;1723337];
  [300131856;305785840;264396975;168237722;344319120;208398585;447726753;450830132;1725381];
  [97342723;315107345;462042244;407995927;302288661;500780223;88941006;384528333;5012827];
  [232414975;126901884;9402836;329786556;529333555;518330673;1380937;510501581;7458704];
  [535013873;219468281;297732452;307744546;85220450;348817172;87540693;397078557;3810553];
  [67774099;341551200;397696587;182643055;479729250;94989168;211909349;69990836;14339447];
  [501216146;38362822;91899115;493329603;68075685;382065295;324402680;185023188;3214649];
  [172843132;140700487;44719582;532087114;175981502;81273931;257447028;97631753;7344637];
  [41014705;150279233;266438310;347332623;224933395;393233265;529638590;433216367;5775120];
  [434660499;273405563;247737340;345558715;368694981;525721886;245022607;286400112;2934151];
  [220230131;462450775;235324847;469504271;298110796;492773189;164013145;377001563;10793256];
  [105321076;127741702;437268131;268733636;108094480;7113963;347347201;110806954;9759005];
  [111520365;391907553;21456230;183679998;112410474;251935341;440941046;155285728;12548448];
  [23538879;95332214;6471006;508475183;241142067;354555385;390485517;416945867;10312531];
  [178900949;422586906;438037555;59936449;316116380;377437182;510338655;126064194;16176223];
  [87017996;222524558;198988125;72042960;452646609;327042878;25227111;163021816;15534692];
  [215673488;109220501;20796358;431159055;532641545;93347003;6874328;347155734;10930906];
  [451221868;460058708;47695365;68889572;437017655;515035141;273290351;352890479;6602016];
  [491656707;444094526;321513360;224542217;446801133;294009142;439614382;198394937;14048431];
  [498098481;409054172;503162754;166215153;466663300;89273298;482718388;515606320;1438421];
  [97236861;491287006;207068026;517891961;256481045;303159674;379811584;320908239;10307280];
  [355770332;109903685;150584575;477569266;157321427;527305477;60566258;377682022;15753220];
  [195781132;325189150;251073875;149409196;385217482;342722915;40655283;141384865;6774350];
  [310864781;234874946;84178581;159345327;200351697;161945214;14749938;475028635;788721];
  [381922889;191761749;182213114;335813832;231844165;236604893;44107944;85664548;9668145];
  [185773717;469838010;56882868;89697220;311961714;267354214;373008994;109392717;16474646];
  [18489369;514621306;288745909;247226096;59690021;315233196;457693272;369472228;15967991];
  [8148934;440898959;410660986;41352338;36560544;178774367;422170426;534911767;2699831];
  [446636621;496704574;13960005;108580921;116070813;484422550;469022874;375652532;1433930];
  [176359122;197580154;482300927;63859860;317345779;195068449;153449847;400983188;15429466];
  [46188124;86413920;423394975;177935381;57008208;176382089;261223017;11829870;459015];
  [226647006;450467162;42004449;102113149;310311203;338606555;27075697;150644367;3057281];
  [330907600;307837770;299063105;403566459;373389783;249812047;116878017;250772749;14599854];
  [453025761;101627250;534300207;360758823;407974641;109555863;52605458;47166564;2246611];
  [334796733;203432968;292617690;91677269;209344823;301174022;148985506;106738663;611946];
  [321709174;328591847;339034769;494416952;353043558;389863271;470287438;44677882;12330759];
  [204162651;154128977;125603306;423651198;39495975;431456525;247100605;329028570;4188276];
  [280809704;38650656;13477650;391928124;494131679;191519557;70992982;127777621;14863067];
  [300609128;274595024;103394006;164332896;213262032;319465339;385624158;273923007;8532016];
  [21654949;133400520;105475857;431055660;403398059;13556648;345170040;94570290;2849436];
  [476627921;121961623;441544235;347424750;193922111;370308053;294380897;369675605;9292614];
  [398089680;90032858;177974227;105405077;523642022;480005895;167167708;266084387;392610];
  [163718869;251496293;208784412;524922077;260649371;45332970;487892284;283100015;3358281];
  [206418498;252311215;215856093;426530436;330880816;141754270;262328930;81375689;10805265];
  [454150828;454791742;275030212;198273468;26185115;298290939;11703553;387223253;1200724];
  [11603450;207101539;495130676;305272706;13299569;47207150;303733318;279432466;11851070];
  [513801314;407401313;119600689;400809116;483931667;468551630;130133002;481058175;11754837];
  [502539259;447323531;461796276;237767884;8509800;336287671;238808874;30898090;7901930];
  [265922759;382007683;517861879;101845601;210588180;93722076;172328668;313605223;4720546];
  [300547841;86338394;267587042;421134983;494350358;139004110;366571066;84437042;707759];
  [305293674;402948247;60553917;320559737;94047570;35931087;438239629;431535895;3661048];
  [198487823;498319917;34220680;248035067;511885162;189228980;500141524;346013010;12627708];
  [221422879;142074993;74497629;113193016;515635520;10658845;45626882;21815979;6331447];
  [53496839;241705602;121800458;249097612;402362620;314515615;99398514;39421957;16024698];
  [265964060;161424553;51925144;328728129;220814975;256205700;422114367;361182973;16374980];
  [386235749;203182481;498192732;344309731;390772343;509443426;500815347;221321390;8078153];
  [307811828;36195150;409270716;273843076;89212018;70013215;511821628;142106137;11285028];
  [348344190;338156876;364537194;115963052;502681595;298634333;105353155;220273975;10930381];
  [474345594;149186155;225943305;482180689;73086067;332728159;301797237;327411726;9132350];
  [64196352;463407273;460495626;183717588;110062827;207901843;7320356;36399632;7385480];
  [288728942;133058319;466456828;481642784;7221869;270154776;108431153;167098978;7772673];
  [201783757;268294321;84805622;440589632;78697405;502097378;453526977;5517048;8693727];
  [74876664;340477259;255756983;420481241;253224889;459296341;14659481;4199484;11392853];
  [88163311;342096448;105454374;467552132;444115526;410833082;492104349;489601712;6414471];
  [16960590;536696029;431147593;516190060;78420456;345242989;453841869;340500934;15891482];
  [93065760;211451309;475062239;407541395;432886012;358257109;107938101;416295232;13007115];
  [424113690;42362080;210562307;247607798;305109720;71057586;341456684;345848628;10856860];
  [40717954;266502931;207198970;166603446;360561874;328383973;104835023;289528354;4145608];
  [10007666;294146231;420860923;333850291;72548173;354319882;364409523;502910420;16480700];
  [280575535;197197795;535954219;335163038;530396784;264278647;220491583;105639750;7576472];
  [252165449;58361063;123646894;424405270;359654193;125648318;243552574;195818224;13327495];
  [211527563;534563761;323361820;208663491;238369917;178968122;55706652;263365583;15991896];
  [206537895;20698891;355853217;490284471;304845394;206463214;277698264;237175724;5792735];
  [516808774;37825372;301891214;158473052;529184939;73098793;110586170;398265010;2091336];
  [33436841;495422764;109107173;147306974;275876712;81097631;410557305;413470452;5502130];
  [123016665;305862557;127278407;260440168;521208489;69370832;447726027;373270907;6532884];
  [465316691;132743263;437187159;499592285;371356225;183135545;188897199;146057995;4310485];
  [379943006;486141993;456243033;119012665;357273266;284571668;443854113;245715118;2669730];
  [164107830;439847586;14521664;512001420;452097665;332060510;513551166;89390071;14687584];
  [217090229;273882472;72176201;429932016;339034408;73681538;347608455;357496965;1574073];
  [325503289;409249889;44882075;35717484;147680932;415710214;278856883;195727156;12256077];
  [315721891;368430115;10506214;310788293;242563915;60039789;312066682;182024906;5333583];
  [45705107;182303531;66876216;122380782;278229573;242582336;108888818;19067910;248407];
  [401604320;193896439;409623434;51410660;198893351;135164629;66787171;245610470;11189232];
  [110190718;101105410;382327099;338820849;401696051;533947889;274470308;407859688;762381];
  [174508288;357963788;106827459;420463246;405965367;204702671;317573024;212857682;7543665];
  [392664325;449920555;378908317;36537649;129971306;130385580;98275568;195312054;6111481];
  [324422812;460046706;454898554;486714009;488455301;510187649;444599215;88945113;9966560];
  [117972391;425758998;5606242;460476613;75360250;300838885;451473918;324773058;1048407];
  [68775788;163089476;63965052;97072918;308834789;514770373;418343719;470376400;4336004];
  [429691266;266738195;347597719;379145396;63512101;254737858;328020383;187181461;16732773];
  [272392201;287786284;302881999;95302218;138883765;156282394;435576167;58297127;2308695];
  [255652774;456769857;185085131;69397629;212058080;488928255;153449045;106037682;2619392];
  [315009689;141051215;394510167;260128609;205709244;390555229;199404913;83140368;12007385];
  [510401442;230789260;398031825;417164586;244284746;327875875;16249262;116938101;2334368];
  [207315367;476166908;384199199;366637891;229546892;448552446;46024759;477159156;11260839];
  [403948917;521951727;320774002;428010373;65660528;107036980;426290508;499175375;3858333];
  [191337112;301596104;230626581;199122163;103505646;343520192;175890549;280402023;240551];
  [144395912;532496216;36793492;152323252;271385058;105995834;431439658;346386385;773523];
  [166735824;420641926;299184733;67678460;213888328;124535677;434757716;282477626;6394714];
  [412033828;306625927;394436349;371489996;190044460;461292790;86636599;75970559;14891288];
  [23133856;450767666;258328906;306767136;26885807;337731257;254363474;3424946;7520172];
  [477212287;70198125;491551111;129051341;382058386;222666513;401468142;210627525;4662631];
  [328980822;139257589;147369571;115160367;91024917;118827246;319461022;81926826;1669961];
  [255757215;391884190;328439326;182169992;284913348;234760080;429488810;393596226;14921999];
  [510703714;417876224;404687608;309468043;177340668;461000791;171601671;48421654;2356255];
  [470143667;348545139;364620100;391500716;231782396;376550013;125422069;195275372;7011407];
  [524054923;132799008;439438627;387298607;51727453;234443039;142533881;387824042;13423261];
  [531477721;462000257;142891662;474237268;56045961;414299697;376646597;280786443;8915611];
  [389376262;106830625;119175236;490673401;317251639;202066172;374307200;83248314;913737];
  [411483988;30828621;359714207;250885715;358020769;160502305;281126862;343514905;11372567];
  [527798218;524057914;392302661;336160797;468608558;434627735;460322148;97723365;3529134];
  [536856929;320276944;325802084;151746143;36343414;23216156;31086414;6606694;13984277];
  [521603324;379630365;354210668;210777925;237982639;196364767;331261555;6327845;627844];
  [501583351;364388781;347437920;442856378;102111695;452726143;7061234;108602172;336445];
  [277361152;446216720;225607428;284172350;497433080;274221570;210561460;290526997;4214067];
  [290578000;504837219;137446324;192947667;289039491;74696515;62554919;71244732;16495956];
  [429681117;190593893;207479978;22324793;439122281;31062636;258301703;295930989;14402497];
  [151229641;300051713;235310961;348102350;350171141;134086947;514715238;52603023;9898439];
  [129879378;526602503;166844193;513547373;269999597;146602587;330818045;188674171;14472493];
  [427965836;134843174;327112185;100677486;397242842;497446655;1186789;432472364;732096];
  [487258878;168817588;199449197;158034333;343149909;73205150;535785327;347840952;7493677];
  [363902462;422887361;265395544;491865837;354899518;237727654;321502404;382248435;13811372];
  [139092473;280775834;433098968;61809185;107155327;35744905;360809801;532283575;1833102];
  [61950306;280673957;332844386;172514217;478342554;292588497;92398717;3179991;1968828];
  [155077720;353295440;16694504;528999551;21510089;33840133;486768775;470394044;12383320];
  [528323977;462205683;169759000;386246641;135537082;60272344;65048946;264426263;3689176];
  [66252456;459964140;328284812;378324593;217025555;372024322;515470174;126180275;3846754];
  [1258391;399111683;506780542;350372318;504121776;100714015;64100720;189113486;5214894];
  [224504322;232305098;335750490;344852166;38550878;293276615;234195107;288758826;3482869];
  [315655391;390680521;333712432;23887696;27513015;501696550;351742787;258688051;4541813];
  [391555590;447781012;243887187;499252376;346558364;53170362;319518055;174979019;10881835];
  [433345585;41035788;182245841;398660178;32158467;132137952;203359704;367058631;16291922];
  [290529954;454261548;70065701;347092586;358253988;1940874;415504222;475803487;13815263];
  [502218221;427570393;144123296;164623658;390675151;99232000;298126827;309419462;7436928];
  [314754042;179464723;218577330;105054923;331335859;161699139;500961199;20717339;8704423];
  [83862766;308730868;297711413;271605824;281533050;441817685;54720776;475475414;7601621];
  [16585270;97434479;150073981;168573602;128299666;351241588;85534001;514617598;14832325];
  [408902797;412090798;460922758;220232364;284771792;183305423;65176270;396085019;6755621];
  [490298491;284706611;331660398;127078398;45355256;320066642;167911040;191177377;9796980];
  [178784949;351586646;102546170;496081363;473219426;318201837;45340215;527500525;8321981];
  [422739528;483246202;72156618;110338707;142220096;197042301;381466136;122357455;14026302];
  [301957112;46249166;333204288;220786838;313387710;316211418;14499105;442422869;6563681];
  [186976343;264868205;308671776;125557208;170888105;404232802;406324328;260816168;5952200];
  [161479890;138983222;179110791;24788753;362020965;434716499;15771340;241452454;9948734];
  [261795019;298162827;53861016;493040763;138482680;159429376;215226122;508080382;8883822];
  [82497989;496961207;134722564;392528345;62837568;297215872;235506657;386418837;8760435];
  [267868896;400165103;416559386;434099242;24653137;450007679;38467700;52538965;6775322];
  [191487142;45027504;92824087;419867544;319658608;148387733;407285474;204062942;14423532];
  [47986325;206949722;114328256;318570496;201195970;345445427;377093855;435551981;9672439];
  [470910395;417034471;186871308;88241790;38737189;330658425;101505718;399151215;7771430];
  [317047360;275701016;220142200;153921479;497122197;373026783;477584279;276701393;3307843];
  [181954871;51474069;508063617;279803938;455227687;528361045;191488245;40127219;1940205];
  [319132501;415253393;316895510;461465083;93478692;253854060;218760023;111291938;996913];
  [103752825;214501917;468155437;121902524;317190787;258321939;154624229;385624095;8507883];
  [214359944;132352524;364983329;103630493;231127002;107731832;238458247;185918089;6732689];
  [418222050;138552551;519114982;173742471;151372811;358744710;176185257;310885255;14913760];
  [471986024;461500991;270370061;186089782;207834321;2198748;494946806;353857795;7104961];
  [139957155;40477371;4926339;200053032;26410987;493144007;115524170;34830613;9230701];
  [79196258;295949925;144944369;143078509;414851933;361186418;143197999;494235255;11461816];
  [446949962;43978921;424351793;48606192;333361869;421729733;273748443;109606518;1799233]]%uint63.
Definition ta_lx : list int := [409759065;86076116;140793720;258984434;17051698;505870543;486196441;96231162;5362616]%uint63.
Definition ta_ly : list int := [529612632;8088332;357561454;217582146;471656230;358420873;183226478;204254543;9719754]%uint63.
Definition tb_k : Z := 29270202460181227611708937193904244033376356023324247583476624558932080747457.
Definition tb_x : Z := 16965858080999515110704718615737054167892637707308958819458013505945593169244.
Definition tb_y : Z := 1600076036929202890007791009112661130017993863197192722196175209402164625996.
Definition tb_c : list (list int) := [
  [227367430;527821652;83341002;63155037;63560634;126236363;179615073;505007459;2503991];
  [348001004;105696904;73905467;76745441;461638239;234684357;443561234;339379841;11000315];
  [170488933;285527377;171262022;319243686;342424386;278080728;497228653;141543283;8491966];
  [125425488;411623598;213973981;156976879;183613316;80482646;368915613;474035481;10893740];
  [156866989;408076519;275947753;64246015;435426423;11289471;357888915;2748872;1222345];
  [279609223;432072101;474152647;201071215;192590762;251428531;469913577;262247948;11653449];
  [14526472;1850689;355724579;67149576;223396838;105945651;341744801;1461954;14190015];
  [447980852;513364196;530597588;140751194;525292145;286794845;54719912;214753958;311539];
  [534560200;457520829;114436186;103352484;503979435;78250800;7671276;54613524;16682362];
  [69940708;429099289;164269741;313815051;219288857;183785477;408645370;535786358;7146909];
  [138660301;229825684;422095448;263052749;68058418;125007098;279928713;100504040;246565];
  [239930641;414013001;281829903;186213403;77228327;340522467;30736205;72779631;8252115];
  [321108581;289525415;16927015;86064784;350552302;334155624;346377805;35788506;3565039];
  [505002059;509014576;136412940;4048025;281532321;440185993;174386605;450299076;12804631];
  [104438020;414868731;418968560;320515838;243038290;144213620;106434570;378933041;16200339];
  [76002730;214054361;138644773;443421011;235205946;456716906;292953853;296795760;7861817];
  [448329044;101872154;497843835;451920904;326887437;259159912;325403685;157470143;4628141];
  [466401426;228507576;368113515;52177454;49007466;72482826;257358983;235344046;11539588];
  [235741104;455076814;254998681;212802204;498059994;247199344;324288545;10963649;12225794];
  [132787966;278071764;437801197;231424414;260668556;383024471;437221807;427426052;2940077];
  [328211449;131982380;444070575;217807680;160139358;470460286;338275318;23032340;2831764];
  [357912638;404232206;12367205;470085207;209515273;392085730;8051932;267993319;12105890];
  [287941450;514371920;326156300;49826401;400884776;423487070;126969685;59331144;14479447];
  [61253410;403264402;208394204;534286292;498258509;383376918;168321281;363424135;15617650];
  [533460092;244616735;130007862;360806604;412359217;384195157;157028698;8360092;6199528];
  [447490971;222086693;336790205;175539977;355277942;511254803;469470254;186259540;11691076];
  [311624031;432982439;459261193;440139207;232660266;186698857;481972655;366908797;7039159];
  [179849265;301068476;506584870;363662329;85714973;55008469;506476829;248699578;4838371];
  [370520123;297719095;30081654;385189132;49888719;26805645;176519348;98863214;45166];
  [501868596;92263033;134296787;527251185;271153616;460789908;346594152;521899019;12036779];
  [96819105;282362757;126944834;245230657;415028013;402992649;88939511;177470967;4015610];
  [36361138;437037445;393371523;27487451;508568320;69772048;446619356;462841066;13469832];
  [383857751;53105413;495808330;330655949;104189322;59303959;352356427;383676718;4233260];
  [134051644;241818919;386880919;276284166;347892610;219880904;156978285;424975614;594348];
  [226687852;181686467;422825279;339053461;75894765;500035598;413166158;258997045;16051801];
  [475747211;124681972;425776219;333863014;310287096;426692530;162770902;124169199;12471343];
  [116413214;288741660;309248179;263042432;467257142;84240432;137956541;332771856;7158192];
  [354078735;137947106;107504455;355688903;221707977;353089715;169022795;506110412;10820408];
  [238279520;497623569;297948892;376413381;402067208;413297109;382312910;414451524;7227274];
  [225907602;114861121;72765990;202523039;262425971;121984815;34255013;517334216;11202721];
  [259162360;160966000;170462353;522960149;133019092;179757522;438098250;174972696;1737682];
  [338409252;66806814;214218206;313966175;198136190;308674085;3272767;434409952;3528295];
  [424798545;53592654;516655088;43980025;172072347;349976709;232803179;429860627;12585455];
  [250387517;327050276;284678335;400939825;469062739;246175403;43560473;194190679;1034629];
  [78352065;230959881;171587761;71576914;481816323;521493186;284109376;446123820;13190391];
  [282704395;520587027;138830734;496147697;117199770;420081649;9064877;304677195;1998106];
  [78686291;83901173;331367479;426686876;251757386;82083753;104009132;341487418;5499084];
  [391662451;532778831;506421263;104544453;23580257;61464563;450470734;227883374;14258434];
  [387478839;452410879;428807548;23267649;488003155;402178689;148323036;113632359;1933597];
  [267751508;186998178;466163051;66580635;471702947;62124457;246990072;58754930;830898];
  [260565121;196076169;401107854;49943670;455677397;398248871;390726619;127453328;10555568];
  [291186917;93228272;521043358;453227569;455127242;172004603;465342693;529588657;8864043];
  [25796267;127691041;392614830;447366784;283205793;240855272;410936421;323740963;3016194];
  [14646009;158625536;152311930;196030935;275762271;338542640;39565048;418275821;5109668];
  [214051382;360580494;293395859;343805619;242048152;410850168;441330738;289761576;10645969];
  [438985994;360182099;164023276;299941707;228958161;495697293;183001194;496594482;4168608];
  [502758460;277952391;95379428;335271260;521808486;502595252;471112952;259448464;1531932];
  [230456539;165167537;378429969;50786349;134331578;113378505;201033143;265010776;14067082];
  [410760083;532142685;161149407;483470191;232715466;407067371;88396224;523637433;3659450];
  [256166827;289093119;93791056;353061673;266201319;446254126;317471037;126642816;5754613];
  [21070208;131105127;118351374;253195998;120876013;477897292;229988598;125694993;3941120];
  [274097349;39807261;110846126;432688307;81494943;286056134;303395896;174790043;8765337];
  [441688220;244479486;332357482;450434847;141670658;152978330;453415065;184984669;5661673];
  [40535400;417504214;335690881;143633090;308824801;28215816;43816679;427694883;11285385];
  [445276379;322440387;445273153;58806220;444535315;400998891;187030286;179148353;16301502];
  [74855777;234578200;69107726;516714051;262698644;466566890;207348634;83423248;3959882];
  [244189173;429093228;354955514;298555115;400993852;29354026;252257037;355513666;15426203];
  [233533165;214023815;408246018;344975341;401791781;287667227;367709518;21159785;7333192];
  [300206345;30399585;85274072;304802167;334623251;348558520;485280265;350391449;6749100];
  [394701160;512686663;439068026;271719255;505871063;432937638;198166415;65861452;5157960];
  [48773644;321964008;114620382;25006666;201797905;6943717;310946963;5561771;12533192];
  [455027567;230957315;310024281;423845839;118178638;466937914;370477058;184733890;5519039];
  [85858230;344451601;497526173;201489997;3785247;281023950;409904988;56346177;5315505];
  [233271809;68869439;239572264;345746136;165464487;140781445;16330455;77044198;11044135];
  [213264006;329129146;231994875;118247869;227518847;182730326;160244135;176235342;8554953];
  [228329121;101161081;50508061;218951487;99942111;189658928;482556626;394242571;8761767];
  [121671848;252184637;496397290;48939283;52213299;255664295;162772959;434900478;8307001];
  [4479340;42762161;536495069;59188358;300880515;155010090;84488587;71660732;10047633];
  [286993689;173858252;374268027;319783826;219506368;191059244;404333863;336749100;9043333];
  [179184643;417685019;181822845;23217191;270237373;247165987;344809115;225130196;8527276];
  [107726310;328320501;67842889;147949694;283284451;419917955;318448699;316645574;7318270];
  [286743607;156558684;67465229;446791985;291987561;306616988;525943581;408467945;1833064];
  [198221810;505864825;427764980;501387189;174822971;208795709;467623488;267821189;2788655];
  [250777652;128274605;77954579;496560746;87570731;231867946;329542433;163526829;2622193];
  [343029767;222780799;527659330;58476065;136623005;531595823;250895214;301710398;5247886];
  [75149598;516309487;342583614;446098304;327023742;429716925;279079102;333983227;2559399];
  [13930058;63904141;9543863;504716956;420516767;68374679;211843608;241800282;15248861];
  [209684972;434152819;125810904;161172018;190244203;104264286;22962964;528783354;9404820];
  [238426030;166481506;535166589;487541571;507372569;212930638;102012794;524902293;9327039];
  [488600849;138042977;343476908;75451859;389084320;377409036;251217852;89223142;10115097];
  [32105444;369062615;130574654;274335921;534880766;380775063;123829163;205212288;5932532];
  [380606752;219026411;485748018;440076824;32102307;376100200;94487602;304978732;15350104];
  [215395899;390431241;499736729;460092711;361327217;203592849;405634605;309579585;7600882];
  [215028171;281914224;359325808;390765177;78780977;476490055;469577512;329284883;3951053];
  [168880002;393072822;19457203;97835772;268106255;135876838;16792618;308328244;9328701];
  [194988029;188773389;485405898;312426134;136391536;34926383;404449410;188232509;11387798];
  [32487017;529104666;238598246;316003176;228182287;47754923;411458030;479139378;1461688];
  [202508331;372119617;213501703;48460928;494127788;522606786;109189651;275600604;13268319];
  [374999008;398001945;494512596;523643291;54876874;349285748;157359312;74689142;13541096];
  [455870831;101929742;93747718;148945412;321185453;112298226;123675806;438342400;9875705];
  [526028076;319821594;31107936;495905238;490161405;348511249;300895678;118177918;1339459];
  [262424304;188240257;299764627;31127530;528206222;267956021;119107590;201766056;16332343];
  [296909652;263980540;200637444;181905467;495743026;78548474;152386389;153409645;16283794];
  [507060341;336642090;254900481;141525667;482062652;475927688;274042748;36692291;787323];
  [106351808;509213507;83055878;242317876;334430694;370292784;461461740;56637128;4836725];
  [214565660;94024378;456502868;274470135;209913897;270733725;247272694;18622642;4751019];
  [163828937;307246034;428206838;366620515;318893057;238449723;288017066;101700026;10320536];
  [224032489;252794575;29638248;240464402;399218346;76052428;95676648;68010257;3021242];
  [376954705;104978258;188473022;405803101;176305383;118314137;220354653;528420639;5413152];
  [259408730;255573817;228053765;339326575;175495154;452797572;39026731;472901579;13421781];
  [323875025;528601383;318538345;350377133;247836591;298778082;209783251;140530288;1128474];
  [69053804;117859880;114497168;298284760;189870423;137807433;383521208;470328307;1838336];
  [313665844;223642457;350022242;152549586;7263072;26152642;51418363;514254965;15504093];
  [68934790;38845969;41573259;503865080;379228385;108762403;153952282;290185993;9768508];
  [344852096;274332033;290152934;286374586;36947852;130902197;94055390;74553832;2134878];
  [511442247;385129607;196477003;486137911;465186125;141035504;414102378;360372700;15903430];
  [99782675;165336672;390984701;482758403;501768104;245294641;39911740;121532324;4546152];
  [447563542;189003486;216119662;398062027;104662336;184850010;479664130;53611099;12671593];
  [10137933;500998591;48851617;311075245;186084413;72203558;316873814;175585670;9750666];
  [96807048;71934568;222630035;446435185;267880163;395173424;238505844;11342110;9849736];
  [89151223;152161830;126984155;36289553;365669142;426206753;465867316;516892565;3372256];
  [1482620;273515736;282896362;303033167;292931415;20800414;62218821;326572162;11674910];
  [513410353;285463191;505458237;70356732;166977748;97266419;168755134;454581749;3778459];
  [121229207;136537705;187867672;173517410;498560463;435696356;135448125;96223936;1029631];
  [182519640;160407409;121463024;341985348;183115653;227102025;534275684;448385017;7381221];
  [130196176;56117076;291815639;40852688;287138967;360791992;131140393;1084386;10791355];
  [337882847;186346725;526846346;363998565;527825608;295288524;28396026;289411462;14432741];
  [445975699;91543305;185630569;211023172;123794873;272586261;146534868;374869183;12400278];
  [524714641;101244877;291613301;505151025;443632120;126427226;225735259;349347059;4390275];
  [380845367;436083636;436517649;380435598;148000956;441856388;84853485;452688494;4822417];
  [262045450;378443713;64481014;196295683;353407599;488813767;44304210;91214706;11439529];
  [295709241;284744252;412015259;317616516;321854831;89847084;215959465;115543276;10248541];
  [125248626;119094672;83095459;256627093;236309003;108055209;531998297;236339913;13859071];
  [95524898;513829257;95216425;466203475;82298312;273566657;141981923;213784215;3854360];
  [289984609;422279319;5207148;303971807;46565299;487742712;30713657;344331679;11415066];
  [187240409;520000846;426984465;457072606;120389538;182940559;339065510;150481132;1937962];
  [124316765;333685470;153332289;155301396;144065629;235715543;250146812;39644329;1819065];
  [237715931;132375023;135242707;409779000;149758311;282714012;240302996;116446366;8913896];
  [252588209;32230758;389395238;466772024;464325943;478871639;414760698;268318726;10387852];
  [273302068;178096966;374705977;30636185;527206168;158277545;286097314;494718726;6120347];
  [479325084;411816686;415060988;162627968;83633386;64546175;416253777;10396683;10883749];
  [441371281;390695761;315296633;111414284;350111083;77297114;362902261;251459570;1555111];
  [26888693;315099910;397843576;33590149;494707406;72881293;252293644;436751774;1540701];
  [222355786;244640028;272942896;13103018;411832230;420600536;231693290;295659313;3963614];
  [298391347;41835213;502339371;238053465;334568387;487277278;408145091;127033212;12095772];
  [360552947;200225951;67455829;191853681;112767047;506791148;188882038;212301241;11494155];
  [193741694;506198361;499279217;307956964;104703312;56261810;392825264;135638204;2831044];
  [433529068;357217743;108658955;487959240;387911839;117665046;61600528;326021476;10021154];
  [100332188;436830571;66440431;401034057;120374158;92453818;95782402;137749140;263625];
  [278652999;82334761;241985585;304997718;519964816;270761647;393747045;76899545;12900636];
  [53044623;47892827;427016541;125611470;107787356;205167803;1395233;85078659;9673228];
  [7291465;173325598;29519143;265052947;44512078;414000208;288686369;63458765;1452288];
  [520569251;377378044;80364851;425009250;360980356;47574894;64688239;404264462;34885];
  [339768913;143709245;357821322;247523107;264167240;174720360;203688682;398905086;16415763];
  [174823852;119872865;530796290;442198270;24705690;135933266;315718540;422470560;8032646];
  [85836954;235653396;324541136;236960685;318381978;329947858;112375838;411892638;4320637];
  [198941147;147658682;453266913;533499779;7334118;277813201;128431603;388398124;9020296];
  [382406768;337122601;145028724;383408936;78663634;62621200;104728176;455014622;10512329];
  [169404609;380016989;496162762;161953544;206093262;65709980;176971134;496413385;16313530];
  [348246034;59978212;184226951;223733856;110631498;343593682;373685246;515728715;6567493];
  [346743706;31744842;219755760;31083620;401226140;285937020;448400304;506396364;8455382];
  [511077259;138253044;413956885;212822679;70633041;531617780;303456442;530245980;8079914];
  [48928430;266260421;306070006;179840290;30519025;142068708;43131004;179818087;5749988];
  [224230815;95101700;233016519;231744703;458968402;457328451;131448768;322157624;12176881];
  [348069157;271346131;210726024;343085764;338664990;353098772;514597620;382364892;528318];
  [397883694;154252218;402804017;361775973;216069837;365614053;215696927;379422272;4516425];
  [337528732;146576267;5554279;387715250;525906887;369453025;81174919;45187502;5308757];
  [67189381;528928842;497579606;162791004;332495677;1907772;357879283;189903219;473465];
  [98642925;444457874;519197353;90813692;435961414;504726541;36664492;247817227;8244253];
  [434693096;109646054;327636359;341864440;527547492;455435268;456172927;224390158;14819528];
  [134092647;79947916;161214997;23641808;7292442;58719569;351116696;221616666;12432417];
  [29230672;20020606;68960825;43521844;16622757;459293688;391249756;35151465;3308866];
  [510131020;500427549;129036483;413084366;2249907;350787992;82858839;5266330;10538766];
  [417847993;139917908;303504606;134412440;386009241;272787674;381345763;137386038;7495342];
  [360496671;265560228;21418445;282722587;309571586;409885258;104730444;294698623;5462986];
  [383962228;264232902;380777145;117743395;482845961;158553975;425009920;67488075;3185137];
  [41977644;60593703;354875498;474975804;266185232;401970720;96977239;127851308;11744565];
  [403782604;170880703;244508626;362610404;155527808;263551559;255853595;130779421;12925513];
  [404242509;234183402;14978849;147832697;132891287;361686534;109959186;132069818;14799281];
  [498854298;34383229;29657204;332750816;287841893;138944406;348917210;11829912;2519665];
  [305594418;14124778;113405445;226747452;67578086;529121499;348692631;239733100;14759420];
  [98576076;145855743;144990783;134407838;426587109;115240539;513997821;445179385;15003824];
  [84626752;133413969;442275289;108257813;386465509;68897147;221032227;230463500;12303319];
  [484413525;169097190;301316177;229276984;10730001;254627657;349389519;505417344;12102001];
  [500160683;261397713;415399474;279406312;365976762;412804738;57535791;347325526;7846725];
  [477036883;343915954;325840834;157737992;87996435;163539913;197535006;198364697;1596076];
  [84624303;534950776;435233330;371229376;83605274;417963772;21217857;300768650;11788601];
  [409296851;183530969;275197260;394098573;275772906;339931200;438718786;250745095;10703859];
  [342437719;446538632;440987063;316867989;225343123;65620749;53107474;59414773;1427685];
  [158010132;374922387;345782336;126989587;148558030;320820181;234267534;347438968;9910618];
  [438159857;50327486;294565044;409883718;36531887;353508909;85999546;74981628;1952954];
  [144432934;394122281;374468241;129699059;502289582;518079272;418714500;84256798;3111551];
  [167504108;286178550;256759340;315138502;453736689;296358121;417065722;475683613;10707659];
  [79168767;313842043;297952493;73274631;249858120;15203585;110743975;53971815;3140923];
  [393850583;69864944;458424502;201918665;116502256;443038232;320882645;338822049;10005452];
  [484661887;117332868;466386207;7254852;174005946;278585568;170419764;490094151;15693879];
  [532083953;370341239;37734877;45319427;349206293;261485815;358881927;200645317;16363040];
  [154277636;128961465;503567844;446534922;231601588;457168594;193831957;76186722;6980947];
  [427729165;437681003;211261326;263918508;228464640;284259079;134209116;520881307;10981544];
  [121592369;11683468;107549705;485282999;401065217;431823100;381068165;252466278;5169472];
  [133539037;230194510;167444775;278862902;249068301;169531406;171834454;155020460;10416740];
  [213751457;531495187;63506354;441396001;352920040;71458943;338318055;174759229;7062911];
  [526584734;36861727;72499945;252326164;208713449;521023296;272121706;308205209;7899744];
  [408566923;505410488;525673897;22946700;416903092;153698919;110799728;262598854;4306791];
  [84550818;278981358;17027376;153020334;131894739;252742175;356748161;33366567;6900843];
  [184326723;362434676;312282531;55436117;478264264;513384396;487466648;146012623;16215385];
  [210914740;445111719;340049985;173016400;43929273;369750448;208390655;158979314;8768935];
  [216411412;508811682;431739323;320120391;23290137;446071713;64489233;10356228;10433389];
  [244737310;251150711;7979657;164446445;417542967;96118275;257212413;386014668;16068971];
  [111670079;30167885;88225416;389234657;42814090;307178219;271204727;64688341;2201344];
  [64654099;372523265;230644920;110965751;216936171;293078343;71624156;123623833;13902200];
  [298276281;238390767;349145811;47521604;283723855;239547757;477424359;89040624;8462474];
  [43002468;343082826;345040407;309300027;68098875;255932975;271631227;24035444;9496602];
  [519864653;266901711;249773374;54784360;416583593;130653709;61524729;379187806;6302446];
  [338650144;479780163;459906752;199193265;523260269;296979128;346582580;296882462;4428519];
  [134957651;105103920;57692664;120387273;162275021;159671024;68550662;9476863;7938266];
  [25601020;70723286;192999403;174191194;360950547;229561267;372873390;253342705;12073919];
  [222434663;86132302;173770976;53364034;6648181;305093874;149390797;83120925;5811906];
  [324770692;173537783;267996059;392304207;119667962;306625695;279010211;195631482;2949715];
  [67022965;92566791;280541081;453349971;440699242;264250121;268233395;382814920;13723495];
  [279260928;125259210;48069343;41820525;374885880;307156799;193374374;75912220;13837759];
  [319897377;354068188;254815198;112239056;61317812;62179720;244282454;382819614;4149732];
  [428613349;259023372;186807003;37666075;183358788;131734285;59133328;350758309;5972982];
  [270729518;283500565;176650137;173235579;519826587;341055200;325098593;145959674;10404603];
  [313160416;354854426;226351035;133514976;411093553;127880603;15665473;125447466;13370511];
  [480829894;467232675;125337132;418123101;526485921;476336149;263986018;285932700;4144005];
  [152379198;480934852;518326344;313003510;533727908;530683385;222814613;218010679;16109191];
  [303723235;337098552;467885724;496986332;246195944;51291021;511639401;426929257;2835181];
  [430725024;515696782;167506843;168551162;174595093;131423964;8266521;165473751;10547968];
  [329363994;285601244;43415947;282925851;245929750;501101395;347881151;515242416;697495];
  [49024598;439425001;302902571;193488613;319497860;80047086;241324595;8870944;7407269];
  [378996502;462611835;438361647;149308922;513310850;466731386;213666559;85254163;515438];
  [507583035;465764385;318292102;35162492;437437402;409675011;43277704;91936646;9485336];
  [117589699;99014700;462451389;44667314;174120154;429738486;264804998;235021109;12560805];
  [463887581;234666106;453321047;247733093;38246670;456861702;100273010;97005241;14814177];
  [356847132;197157837;433378156;34733510;534257628;252769286;506005510;313392222;2508270];
  [489644709;486635800;183800599;469610949;180991713;500722454;147741625;215226196;12553988];
  [54061823;47416413;211109117;47388195;132023157;312061375;99135777;221262621;15176229];
  [347973621;199104328;506571656;80629420;102263562;26865080;99570241;41890854;13357460];
  [140757707;315402559;62773025;446635067;532738374;234555895;375572603;329294357;14336527];
  [189610897;390297525;90145763;441963416;527072844;498015755;19784081;260112272;3078399];
  [213111057;441096088;427165549;394909980;35489646;195399069;385208040;107617589;12333483];
  [470121607;506654851;374256809;429763614;436102106;521797737;453219844;132272446;4054172];
  [476292376;109268701;374596133;181742370;181039364;295060362;226764035;320520437;9088417];
  [238279385;498978778;23882434;456972101;118087138;202846587;344305880;86796790;2688345];
  [451826580;405472849;58277377;251383819;413538139;137151728;80928658;240274869;769851];
  [326164553;464879874;464109194;484622415;524895284;341937722;60721188;267368308;838851];
  [27787937;94609392;535344492;20639436;375800322;70435692;531539635;451058241;3755606];
  [153684389;511738492;90563415;148688190;536541901;340982269;92176381;144396679;14015606];
  [479844427;103750181;79718865;247577122;527353244;492926562;216504018;464145920;16271181];
  [147146137;23922984;520807493;48993640;90441459;399594944;171033606;484467013;6305844];
  [361420057;401701965;395689338;314955933;285138526;380241414;322197678;189530345;16713934];
  [502936682;528264739;37937545;170338955;358369907;175697470;278808635;403745386;4669372];
  [369547734;162218246;232145562;515788444;289591008;121088030;137942619;329122310;11284676];
  [40388741;66964258;330778675;96222690;363238146;305011777;254699024;183665021;5323184];
  [58471302;384839827;130815854;217870763;384283061;522611743;26432103;105289053;9648407];
  [265508769;536656018;421730618;379863740;129441960;324453923;522106024;352048187;16152575];
  [223310208;221218617;3532472;489213252;173463050;401225899;489598690;527805650;15194962];
  [383251098;517666562;367079531;174047167;317359879;35513249;272443865;30266021;13644946];
  [77056762;304328373;239679454;518842070;94844910;518950113;172082695;218722242;320212];
  [240346645;343843582;439171083;379284487;400285093;511564721;120966450;373777220;6005988];
  [472131716;417066483;322210950;419051976;271879174;190251680;523654841;244090580;305882];
  [205534249;84886253;268749517;335657162;174617935;179697576;36097765;128670041;3840405];
  [216880842;223455664;83656789;223596636;414670441;55196030;192275149;173469422;14293389];
  [509349122;380043893;4545852;384942798;212014910;386006891;188587141;510677940;16486369];
  [92879465;518843312;26101136;80819167;201256928;448298029;56985635;175627653;13775116];
  [464072207;59680157;291838268;348629020;275382597;516264953;36645427;203836474;2681884];
  [470012792;435211776;388342234;77727321;316445440;508326524;166158931;106976938;8648213];
  [225410221;143215426;517542964;315904850;150759139;221881530;513513746;278282364;5893067];
  [203523418;94025489;179081002;96877398;406406111;102641593;363688658;482980229;8781821];
  [213946342;164404528;205906883;435128745;506303500;323465504;60331144;450825032;6556392];
  [258857141;132066396;284053136;258459941;378058901;3410290;305809181;71185144;9471137];
  [18376402;353490536;300589539;233982530;322906566;532346327;241513738;484988792;7303639];
  [505328025;110757297;115669755;512138883;352552993;370050867;183334563;46902425;7682836];
  [94719278;278358097;489660027;271815011;259132046;70587589;78734459;283360467;12486159];
  [468875366;531177712;112265082;28495433;321079955;107309957;320950905;113941168;11985839];
  [45660705;146979455;156970132;523690542;383673252;290267879;269490219;102791815;11468819];
  [138728058;178802023;368379973;141238090;444430271;258993762;354288602;45797834;6040520];
  [384721606;446536762;138618427;516077287;527016221;279018608;254095827;227251644;16626812];
  [73470163;364860071;25830317;34430787;156024922;514639529;519172810;496254146;37341];
  [58431822;149514220;267557327;83487624;178404224;304623399;419047883;324370257;15163231];
  [533552802;158064157;99654803;308821233;21360500;180666999;431142183;514976415;6885695];
  [416223746;155521889;149781339;66784157;103224387;454848739;497059543;170273807;638746];
  [520656153;36853683;270827606;245273744;67360472;211441854;34886924;64338836;13064387];
  [275369726;499219338;130013691;479410077;26643005;285540445;381279041;515810505;442461];
  [202993269;23629157;271907062;259247784;177103112;355290310;46241513;29856320;15970536];
  [245407949;5624949;512842049;46169398;191211957;74363403;457926721;237484245;1579660];
  [533146131;151470574;14926994;522731896;484432492;148444550;104183381;506751399;3316935];
  [121266900;521803006;303754183;462925582;302087282;5140546;121197231;387802293;9614317];
  [240902017;370107148;335651906;318154717;308154987;90557447;168283439;507969206;6817256];
  [319048092;234423388;48457709;535723867;432964062;24111390;451340470;166333289;10684032];
  [199584608;380807434;197617233;297851268;426527872;118212877;34124565;15392974;13480121];
  [319877813;148790631;320150558;505770173;216556307;430648805;435634848;229515498;5062800];
  [297837715;197308307;86420430;480013720;184046371;143231424;509981003;203383623;2745093];
  [495966216;293130518;427927898;209291069;73477699;73610208;413655023;10384964;9144986];
  [437529284;280835337;274319643;1747501;12338323;22259407;401407;253422918;15648897];
  [233499207;346181706;451496509;332064591;499858544;378670757;162385697;75564444;11781176];
  [116423441;370285256;158268156;193749233;130967258;61693946;453523046;57972162;15527293];
  [1051394;324322230;65757055;412990657;82135893;455991776;394028336;35785529;11307370];
  [351347347;28895098;445706381;448633595;366326735;506880362;281997598;333879636;3570309];
  [441738218;68069053;89158651;515280231;99088515;188953267;90828527;120779840;5043559];
  [301297662;236951150;131155295;188758753;487211761;62536770;362229183;113016889;5273402];
  [49362440;259355978;293101665;161094068;298124736;245246719;289521471;239320416;9639041];
  [390341015;85283632;17010234;429267906;340941982;6767737;68278531;32320113;1973705];
  [233844585;259890304;534251799;259942017;350244650;471973741;166209168;473186820;8484280];
  [243526865;324266219;368805051;334930333;377771087;532739485;50454058;154797435;219634];
  [234001715;453396174;204819266;18547257;71522897;532248372;533793328;84239832;12124742];
  [191694956;226754330;534645969;369478433;440630577;54449724;136424903;454485998;11947964];
  [451233699;122388265;94606329;113765437;512263234;431268087;302052990;353752521;10051232];
  [143092977;291268149;33521710;401122405;237847875;261609377;241187872;86689919;1222029];
  [342328558;14324607;480307623;532148726;377629531;485613135;455624017;529585392;5274899];
  [137793368;33039002;343512836;302518436;240884739;50649139;275681405;303920726;7940099];
  [323891733;356002079;227254246;136001740;37513290;113926302;255015509;382323897;12579842];
  [534091929;432816243;273146376;458083949;150349877;516401167;464136177;343183832;13580623];
  [376175625;489622864;365855581;501683887;273135983;449575268;4886640;146242819;9772706];
  [458710482;60480994;493746112;174929120;28393004;282559405;426153155;168516262;14784530];
  [462315229;494472579;29737611;447132442;316044674;55879251;143911361;503594020;9117574];
  [332518712;362449648;177797737;275185536;488327728;92178264;135627567;200310288;6970150];
  [62839564;58459744;485665993;84551444;237908150;484735759;123810816;466979669;8039108];
  [66818739;235390054;395131100;35855230;127366706;198171887;295235975;404297618;12233705];
  [82934451;26749459;82637263;57663108;425687225;488446792;525403779;483132427;12705674];
  [420926714;248683139;74182031;88590224;192316302;158312075;156122678;35465698;9117152];
  [383433512;403865261;387130321;362568095;285837970;83656305;364721093;378492507;16534012];
  [7452856;227520988;235023414;274326788;400624964;354266329;93028223;173626084;977715];
  [187492837;2481830;520173963;359426162;460994172;438306097;379412853;521097161;10263538];
  [192088158;114253871;284146649;393860566;401551065;224908195;411708112;129839247;12367208];
  [529318902;249213039;45603275;218344498;211624215;298477194;97164323;147855476;9514336];
  [436866901;287750546;184054010;461871346;466376552;74224105;414142271;494592566;11796919];
  [22485020;1428000;16204881;405854104;471206661;476542820;83112950;78830532;1138641];
  [304697438;67403699;194750055;475790930;124067680;367156257;430670441;177170988;16548046];
  [299007786;183232611;242112044;56068149;43923019;341153864;47025165;262824213;14273507];
  [243844975;472833856;508507910;354895094;163524096;313020465;133580734;294824772;12041992];
  [231740754;134750872;289689784;129110178;429898419;92396586;508521608;322834897;9098896];
  [289274689;8762912;323062409;269103678;376819296;474734012;280084988;58258896;6986722];
  [505095513;71347851;62526091;230366781;381532475;393553810;239704690;501094612;5739596];
  [29458916;208782512;180624372;445421136;441628646;215199854;352781005;507311896;2411262];
  [509853184;402126789;431398050;104602387;510648561;445044058;27514946;196076650;10501072];
  [397046047;122540747;9035199;206391751;94599339;196779217;7132804;12831284;2899405];
  [208935354;157762067;386950780;350469861;286187364;19912193;411895851;488414765;4985272];
  [349783134;346206802;178565708;252075563;155168549;257213685;478597149;522160238;16125170];
  [372777699;389948471;12266220;426951307;411321305;128948408;209911391;398085895;5333590];
  [179180282;527280503;232521148;445003533;160320004;447878080;322248029;324835513;7236867];
  [64460569;99761061;222495236;97381426;377442347;236450564;257573876;94237066;5311331];
  [178367216;33471988;123060630;54134795;472056272;65085146;393269640;435218587;7204711];
  [7809771;292398665;71297682;323989864;343405178;491852341;91173768;108472225;3847272];
  [247849749;9972153;172464926;222352534;380893936;202444041;429789646;340020610;11569861];
  [499104285;2719973;291392601;425394712;347058311;349030069;308581261;64303577;8123327];
  [489721559;261108007;432292314;201866039;32726716;265431045;349449566;427733039;11450379];
  [331507917;262718326;57170720;362559451;337236658;385942100;311182231;60198390;15789153];
  [88896275;38497346;506359404;52610859;376474013;215402232;488217597;529422798;10028760];
  [492179201;159372448;9998828;462987547;177091198;416691919;479850620;227427330;1309197];
  [494953998;125839900;381337946;448371900;28818555;56885285;335554749;354588659;10451165];
  [465815667;452563458;497246004;285909885;384268205;376795206;427699978;478230623;13587948];
  [279173169;85959808;260908983;499631733;254631020;479640368;328396713;97073391;14730737];
  [513204969;356130445;53847300;26279164;76418542;304358761;120168850;288143978;7943218];
  [319071704;471891070;216029372;241060355;200215478;403072313;141220811;230746173;7652361];
  [213335423;525574393;90256894;227729463;220668811;457026003;202860499;335746113;9383989];
  [263067505;276614424;337241013;28996700;337528868;335023506;250669716;265852853;14580484];
  [75617630;427153891;225511632;225769653;167892768;395416320;171648366;294075809;4413378];
  [404311499;50250355;398476045;517953789;106085852;212237353;303789542;8643438;953405];
  [194450684;222370225;164955057;152741102;199812151;134394934;46717525;387125625;6703770];
  [510861553;45687227;209618808;524581988;62230812;157810272;327711592;138457442;14177444];
  [81803049;168302996;182281699;289841627;49239502;314895555;314799738;382588401;11012835];
  [99636976;351314588;306501920;77489199;129773605;495573423;169228313;368593919;2985305];
  [115624191;338985778;370801383;109319210;238001113;479897207;251312884;122855644;15687568];
  [162388677;406606915;145490705;129015810;61660328;150468747;336328040;57754039;15281291];
  [488433393;336662498;288239154;8987171;500581146;185211246;301480957;438859401;1195275];
  [318364101;466598285;316175781;157506590;38318372;126071442;472892742;336566052;13757191];
  [128896326;197628436;516492634;117507401;477202154;469120945;51930083;473396447;16735470];
  [155566907;77977893;531160204;367641573;255118011;175383686;293809238;250248764;16056980];
  [87551647;293839313;221552547;436058191;377148981;442389424;147581418;512643804;3670732];
  [467795509;477640900;441254043;347422724;449578979;410855866;276656745;141722964;15034254];
  [356712886;350385293;258143909;222988174;57003711;280804117;38844524;83526397;3122042];
  [381618266;432586497;448675005;368053054;126246716;42301467;193649321;432905599;7885331]]%uint63.
Definition tb_lx : list int := [305644892;40326392;505459869;179112343;307729233;96677342;362082813;460235384;2458197]%uint63.
Definition tb_ly : list int := [287621708;150565367;135064939;414079978;434115443;68655091;120540623;215539942;231836]%uint63.
Definition tc_k : Z := 68503459266495860596105717987941855543821682732133987916952434390752609365965.
Definition tc_x : Z := 28166890109849389542541900595172695727698094888984723587776109705468016951442.
Definition tc_y : Z := 20880063570696828028084780480677416990190064161819122619777266314032369752377.
Definition tc_c : list (list int) := [
  [175701171;73078196;34925360;151111377;387863904;66243469;504059580;281433252;1160168];
  [529282210;459663522;453525687;64531595;319586786;101147317;246971296;445870102;13646149];
  [473647586;336172395;388174749;519377452;458101126;214570489;187317754;77764871;9735940];
  [425274975;301958384;482030348;12735133;532978374;71414536;379280363;528040891;12671297];
  [209164151;31896386;239141807;488971396;312993721;113730053;64983524;384556230;10857151];
  [167975056;403885465;108367896;254946799;348807914;256316836;14669992;244003506;806395];
  [26541459;37883842;505310424;8863884;85560594;498635893;447548280;393289128;7278439];
  [12561984;340342789;426837544;95656997;312446935;416111274;459280776;295746138;7271230];
  [378525283;214489464;354954501;130424993;206065599;483248352;62510553;88148501;1212309];
  [452021940;49611018;503783593;536773585;39460832;264930970;254314167;185332371;16164688];
  [145518633;447730561;470955427;98440946;496081149;401895445;68823031;482300946;1587105];
  [278233382;359649152;534372114;166333549;262336287;426430983;241702226;356907444;13580556];
  [419120143;111306943;78864165;344500410;193014863;371496843;343846484;321863674;3606327];
  [169794818;211378006;268263851;325259640;242856032;340727549;452694965;324299033;7522424];
  [149055763;86098061;58200437;144367724;400675441;402010870;203227063;325937072;4804305];
  [377793483;283106711;370732194;476769122;25131656;243141209;147463342;141374474;14698015];
  [260620127;171639641;70373420;258202196;460785086;128419351;117263090;88386160;4613823];
  [500738975;312622962;536036864;172473516;80538295;148733676;61646415;523654981;10211570];
  [536165745;135029219;434406342;220790743;160189955;457212219;123248171;291690096;9718502];
  [290860196;412193904;433280191;74384444;302549783;351777231;94840297;182463144;9283663];
  [28319104;174542848;464733434;401618560;133299711;195361467;312570008;144834064;4111964];
  [64331528;379705698;292581840;243103218;203934475;277051409;137835896;360841776;1062624];
  [309300853;167900582;186583685;28348118;524686808;192890133;114443777;114508648;16428335];
  [20788811;398743858;141563079;451384164;318447698;414380606;516695587;463959069;8505987];
  [47858309;155890618;253725148;339422366;449251379;336260535;368610974;394685135;9631980];
  [484003373;12204805;466143303;475168452;301019131;129803930;464428034;238965416;7603252];
  [342263923;500485356;211317405;133766289;172804910;471240208;233296286;230768488;7817038];
  [241381711;480124242;338562963;494411195;205769358;317712773;8777000;279573166;12742122];
  [68247454;472398183;37494113;58194873;520936163;452396397;124163390;274935378;6137399];
  [235130493;386485047;271665058;479191786;428091521;229128254;417632824;287454364;7950870];
  [503248791;129714506;457604909;178655211;286837254;520485496;261177582;439352471;3361268];
  [144993842;348349420;210147035;388600233;186358441;127543084;346874021;317870039;15576867];
  [531601133;128960970;515125773;333240411;65442138;103593553;47536223;354583048;7572003];
  [525716610;488826899;186417336;39056935;290467398;435718133;263392048;452420783;14116918];
  [217252766;391021433;529013499;314561204;61100673;520064037;154117526;237383615;4155938];
  [178574749;489767447;384456007;421949840;325675405;288329483;188158600;364805448;5686534];
  [516882869;92378185;128579304;432846353;107472102;67851326;68954056;11961169;14048354];
  [60896203;228382365;139331454;210577573;137238168;378189916;286906433;287775307;3518450];
  [266028267;55530655;413603706;102226523;418237726;213175955;359086601;271398267;12185130];
  [231579077;41610063;14873354;307544333;408572174;386945879;253212855;299872900;6756364];
  [3914015;300127012;509764901;457861486;364075769;496917046;406695335;189891155;6074511];
  [337636717;505354505;453208041;469552956;213867038;346613900;149306261;50447379;1029274];
  [383606500;55312600;285399988;235728502;199170755;248325880;153810332;249575316;4039128];
  [85563948;342257293;47560191;351345944;224638796;62011394;516094755;410882507;14999831];
  [376292640;246145252;160416327;126066066;145570392;512656055;348767361;142609342;6972983];
  [200215756;355031265;308806539;158261738;9002166;194036449;379791344;365561919;10129820];
  [276345814;234768709;272622011;76412992;164512046;248127561;495913145;40209091;961725];
  [148862342;9065877;406298313;470408163;374324559;103021913;283705499;74958881;14523193];
  [90785483;373992139;442718358;111505337;190462663;32093454;286927754;371672615;4176678];
  [307923491;110471193;496155607;100276129;51508601;500408006;479140263;17420400;13238251];
  [22915187;39363217;364434504;333982506;111523548;420571041;493121817;317072781;16022509];
  [182019906;147914617;287399787;48401265;269825315;217962782;158034771;222508242;11564054];
  [297097029;425324653;276622121;90774510;421637309;297737656;63330819;463752427;13920993];
  [475149401;429581157;213599246;520104670;73397845;176406359;99046028;49560657;15176487];
  [192817022;77057330;456095754;141818402;483829451;206558070;428085521;104402084;7287944];
  [416644050;428763574;44842169;146260749;126440796;389970571;40857873;511959404;1678756];
  [520268947;123364612;480930499;342656834;509989261;283650034;364861030;333444228;13763672];
  [225731432;438482710;471072614;401427078;219118391;235026131;506498591;112632146;10956648];
  [226979289;54975120;479123529;275260442;291029223;476929418;127433113;213198408;15924560];
  [36260901;15900841;526491657;134534274;101531430;472863113;404451614;21528430;12142889];
  [76210397;204113404;466988755;160736218;237949311;420029919;138724099;645646;2572815];
  [104199725;529358532;357011237;369773525;494268116;320986309;196255995;388930049;6567429];
  [246110029;506901705;325991583;477633472;265972443;346855393;237682086;261277269;13169771];
  [41432518;421946086;89329467;384835868;405580998;26057644;412943482;443546428;8136822];
  [194661985;445331882;334507327;61182940;232036188;45721604;273015363;345981738;2425983];
  [142150628;536855529;381873335;134866167;381238555;66121488;498065106;325604018;4945975];
  [446014177;2196642;136280175;475116908;142105505;4936880;308295697;339334973;951415];
  [308905636;228348672;267866488;135915591;63872184;270166961;455825959;118645297;6664498];
  [388507423;444419022;324601610;40094291;508714088;250930843;179449004;468333725;8789536];
  [37544837;472478906;441325512;297078713;445902690;513564047;272425046;488591833;7620315];
  [126218621;140558446;360190647;342436152;194618299;173937544;325747682;155236912;10176577];
  [276373320;68996828;246706272;156923316;139417033;328990261;167702642;145807920;6812424];
  [315037922;2101653;39736148;396489915;90834953;485690974;236208498;263965195;11446387];
  [504155262;251607569;213446420;83319484;285275385;307789851;5818593;298182323;11520672];
  [444895090;380461928;259593599;57848039;534765754;90568822;206476129;273499781;5777437];
  [237551776;369262510;414588350;134132770;130555854;315227286;57358068;433860834;6351121];
  [130000695;43319231;426683011;234136554;488650395;459108395;142062121;25432623;2512202];
  [373990938;392945565;168695886;208381875;123306996;147576395;398143178;289427689;10688986];
  [449634249;258760347;94409290;469577375;383956127;58058992;218085205;106986670;14084589];
  [241081515;172100629;328167490;381414955;518735130;61399402;289592893;391052314;8029670];
  [153343991;401037398;250788651;142420663;127340765;469739392;332549676;250601290;14031047];
  [280340745;444700996;135524965;80894759;505212031;84576272;395307666;423717929;15857417];
  [95565690;107787782;56361816;398637444;136343909;281049923;252104017;367544085;13217274];
  [95037715;238064749;164857325;367072091;445581754;218025919;17160049;333723579;16722107];
  [356569847;275730201;238231700;488774969;113423726;260403153;200943875;399889447;4946496];
  [270325981;136037354;515254755;534282929;240383388;447360972;92277448;162693737;7833943];
  [437444587;284774810;203952686;73599856;415301793;302317322;481155458;253338476;3994927];
  [340724173;83212078;383200321;228088315;513041464;318231921;517960918;374932974;12726126];
  [57611097;411545366;104789289;174607496;254829065;302150025;296080999;529938844;6348063];
  [274788876;407884684;108980458;330798992;481453966;25419616;366196815;4046076;8705922];
  [180642085;63341557;520363547;282882904;225798598;173050632;305054465;126254385;2099899];
  [491904464;460543605;268790005;184581018;76809101;24025453;100850857;220263271;841582];
  [215768530;214445524;345612494;245069365;98182053;111771332;326140251;352301855;3838003];
  [393867392;396980883;235829108;171617569;513201389;28485202;112978038;292242972;2126946];
  [107103013;230980741;9474275;166447308;233694777;525444615;459278163;517479850;1593611];
  [74835416;502297424;161916386;463981807;90101247;313592360;390946038;59458660;6511528];
  [246642984;301094942;429489415;391530704;47659524;444744568;341774636;405887972;7269601];
  [244119360;76260288;334304052;1044432;374200775;448850351;229735441;346819772;1657154];
  [394878388;487398192;28104985;366163956;207530207;411683095;151943567;522647486;8714178];
  [159524666;367397735;183382708;496945142;159604486;127309679;194214236;509276390;7622928];
  [451813482;506377150;475530304;125465443;216273334;425734347;457690953;488421541;12262389];
  [219313370;228535521;219309588;382687967;320416353;366127776;330059843;498566878;1618494];
  [236057810;441249745;442825473;220592721;275728399;56068231;149799988;227155714;12265526];
  [156542875;364149274;181907674;317831207;407655443;525390960;444013307;108668202;8773316];
  [143879700;76814771;461333757;320171219;414348020;158965049;404197194;44855714;11850646];
  [463710988;444040577;194203202;486802595;367132857;277071876;128623931;324953802;15461489];
  [116574607;212424574;29086029;15670228;479560812;485543682;510441915;116799560;2654630];
  [139884521;224093913;498057198;470518660;311615663;502285376;420021599;360122908;350468];
  [98487357;415026232;427219662;230132166;487188076;70506650;508754171;37288665;13831785];
  [399642345;271946546;223400150;365215845;29739587;281608384;439525003;516020426;4997903];
  [236703224;64731209;83183311;470909028;519008896;21227183;160609096;106680705;264588];
  [249275109;354732094;427434517;362684959;446332882;22479390;337564082;158516127;5529016];
  [95634271;252650168;94170878;373996078;502146674;190208588;148160200;72226942;4124085];
  [523221305;496301002;491844162;120504609;536232447;48648467;198032667;495686742;1660112];
  [5919859;79823258;412915364;3739399;18403368;280694391;323482636;88445878;1183013];
  [236352906;190534122;535096739;130029781;451121921;183623492;9581605;381802926;1415617];
  [346684726;345392822;500015038;395906116;135908243;118435698;359234754;372805579;1102417];
  [386325940;346297814;447411251;7698212;15190732;441056890;186439962;360591955;2186918];
  [257388701;386035753;418307112;433053264;460046499;258899604;511629558;50809107;13013852];
  [171319037;465350433;461227819;158554043;451979213;482492403;337705501;528080092;10531230];
  [426792094;225156081;69104727;368923800;382903197;287078922;408877333;265871495;9308985];
  [339651258;292862916;29936119;323258049;488923090;322047944;336585876;211899703;12836596];
  [370380062;175979398;72166469;160326385;279694654;219852358;10387648;324608071;2742507];
  [518362244;400283889;512146689;140968714;148969620;303379837;251998237;433602553;7366153];
  [194108520;405499666;472247401;147698562;465405138;469649650;406343481;121405174;3639375];
  [385221956;7960376;161543060;70836353;256404626;406124467;22958816;398990732;5933237];
  [175806329;158124632;94425824;48852565;165509864;470164735;382132024;41775054;13351991];
  [322648499;115562920;419681491;246199089;462990804;35862816;154147327;207539244;5844351];
  [206331212;312557641;478202067;492635533;394975205;284185616;457917053;225714134;7899389];
  [50111564;126602645;359332493;489517939;368456991;10625216;468296601;54053009;267379];
  [389820332;108433586;265734308;228977228;114529485;530412823;336870393;139146908;1685320];
  [229182036;304566874;290220244;211170915;276130543;65205775;500633519;434143034;4236704];
  [180548962;124813135;381556240;80929102;242113729;357759916;108990386;495134194;11166255];
  [99896360;522996985;312375869;473253103;226869424;78803115;481880782;187019333;14614078];
  [227287078;288372921;451891513;24238483;109954595;405203290;224289098;171573971;12058397];
  [512287440;249002921;69679439;274183985;172380410;41525685;399958569;119083578;3035516];
  [422577578;440068234;422590621;275147824;156680230;439841643;35486505;430124468;3575331];
  [378013261;348536318;401056728;357273429;156742252;116391778;244651951;131827056;14727456];
  [142988810;427481123;300746833;177640391;522415857;254902796;274248026;270688702;16450606];
  [96732024;76863947;458585610;104427547;69311125;529911931;335447229;39738250;14293722];
  [51222711;336116550;468202311;380098880;232084755;26313458;270816616;125592751;11896216];
  [80388516;85009094;361539690;427743661;241686928;120761041;151507179;461225071;11359615];
  [376830433;22737719;57291417;469455754;233597500;499312018;531883277;60308239;12689440];
  [708690;74099746;279758351;169956744;31453657;478636321;530224179;278466419;16425163];
  [354635600;317451635;439054149;418864823;432801093;487100040;418617002;156235871;3606060];
  [1833446;499026288;489258596;439641887;344268069;432168611;139367224;1414235;7160594];
  [310955911;140574768;49335802;205801445;45398344;478517164;309255337;23925916;15292671];
  [157286528;360614676;245436971;107548222;206513940;167431459;443523403;298634660;14001875];
  [516324819;173104592;278201741;535323905;344126894;491363133;503577608;397513460;6489378];
  [288781301;147020594;5692458;56152888;319434991;122189914;95422463;255457355;6362584];
  [756021;463513237;375118134;494924646;480899849;83304939;63834725;56820487;12559529];
  [192147042;254644661;90768389;289748749;514715358;211065659;441238736;12587261;1410594];
  [455468306;157894680;404594153;228328717;256507571;129004549;347012150;52569169;8600244];
  [435100449;248451200;57014555;6140544;410351506;77041148;71253392;96805093;5934102];
  [74433959;106994966;138630222;331091426;258485999;434621990;328423739;313758401;3683901];
  [238405688;438928213;72267110;468544135;298398251;434237268;512681315;266035143;10924771];
  [225154952;519697053;74769710;17311799;445257380;29770146;92807270;447504089;6306320];
  [262027009;521157979;118102101;409529159;41319674;408896948;302006545;399363446;105098];
  [288968675;217678799;198382424;429077233;186076383;330841979;398651135;174277047;8999303];
  [328013665;355316956;426074131;277134608;418618730;354348954;123088965;432506952;2586361];
  [281003549;508982266;332964662;498281222;50929531;436588650;324967432;261499705;3561139];
  [85172197;496235033;301232919;17653199;222350209;69316275;51045428;68993934;12388038];
  [498622558;186505017;524307504;18215067;489700159;153845302;134424348;107035968;16507724];
  [198442022;271656765;395842391;331236694;198241716;376647501;465824394;287404283;3822128];
  [468519440;143740082;31683946;130375940;197102875;442216846;104879516;162752031;11705088];
  [370274968;534812437;282660748;377328636;419804099;430124759;132021405;129107780;9197582];
  [67898583;389727899;871973;484420353;292556298;353607837;88906084;410889166;5548519];
  [158939432;235737527;243725192;214068982;285486490;427854765;308755516;296471009;7490794];
  [324416534;399627985;415321935;334410770;377508594;506896491;145900049;421294525;101937];
  [316918399;338934256;229390488;258030652;174805241;300515814;228087323;470461658;3043951];
  [95516271;282591230;213005819;33800617;358376908;67784509;324574503;533213584;230149];
  [57426861;254781376;395318977;383501182;413175452;60737263;260310022;94878193;6002202];
  [218236414;385262186;375523146;206412746;322999552;495018164;500762651;237674179;15349326];
  [529287774;170280038;116423847;528660213;236384653;345106608;459647764;216562715;12591797];
  [37366992;106483174;285581666;234908219;329382769;450140488;414640778;86116070;4846195];
  [309345712;464465000;204217556;353214944;434843548;211227010;159346618;88602989;10097897];
  [434623389;233076124;229611129;454990334;319678170;9578078;45756278;124345728;14873123];
  [454811059;308496521;382025011;468714203;249578762;235236725;432179032;134567628;16314037];
  [483249540;421950227;375672270;127991074;46314854;211026958;50491846;124559623;7800270];
  [213666951;375727910;443095930;204279861;167989069;481576347;37848313;131302606;12590714];
  [10320026;401194898;122909456;397466419;438599539;499314958;32556915;487868544;9742502];
  [109391270;223401341;141537390;137811522;433264194;180039942;406125356;274930877;12424920];
  [361935980;404263287;118733171;306261143;478011953;83753461;221794093;177516110;12272720];
  [280926889;127633111;516624081;226142470;452614251;287096980;529499458;348417902;59072];
  [234424596;530545503;453271076;300530829;163387269;402423960;65935268;417515644;7424833];
  [422800962;352319292;195434708;382230390;472293414;389569767;269252250;33038537;5691461];
  [116944998;422284164;164048671;79612024;317887489;281676593;476416188;267444623;3684972];
  [125001949;322930394;535615921;399881916;63892819;127672572;110369893;64479902;108578];
  [468668611;139482557;342654963;94226260;526714319;142486144;250612279;71812178;11331542];
  [389024097;347946470;109916731;132368489;2539836;338129849;1288245;379714563;426541];
  [221107646;296854112;524375475;478366696;284360754;19148733;520084750;257245236;13521957];
  [139486140;219090818;375732542;386959840;134413758;172719787;231883625;366778350;7839348];
  [31023083;166517165;26585783;33146033;100816946;482670209;30681541;367098953;10520772];
  [198983628;533898306;534213029;337416769;322329750;300555208;189158463;144338131;15922776];
  [196700751;67381188;398858313;148057154;492228324;194918979;201729221;6923680;1486963];
  [114324208;18726697;283459390;211880307;301639695;27521298;530004100;536337145;6597500];
  [60996864;448679192;53054986;348392340;499653794;316442934;387009666;431494349;9464106];
  [510532002;536606186;128944667;520687306;383914355;349481994;486007374;14557833;10966376];
  [463398098;114741143;503143242;335271702;485808604;526594839;316516685;223911179;13030003];
  [87604799;326271301;322986699;320667070;180128451;469966248;380447902;295480281;12509832];
  [24596896;226140937;476718713;224384149;69030290;311304950;390167975;515036481;2829799];
  [48235799;485672029;215422673;303603669;220003533;429079784;152184207;121443124;904981];
  [300824178;384847289;159751059;75078246;173680475;375423295;121410262;494749911;15560180];
  [331427951;226058482;413464238;110446722;472864227;242186932;394074498;295770796;10892941];
  [16175065;490636626;14581822;236287826;409991082;21720435;351508129;101929973;3582614];
  [438094484;167442229;461551652;501185441;412803790;471684497;13436491;17587398;2482480];
  [445515628;175559119;38544605;487211038;295743807;103762682;176490837;93354557;10600504];
  [215808791;342689573;186496702;78025832;474439480;411133442;354415616;272274749;12322633];
  [55333667;397531267;240599445;382834558;149765370;336480158;195245887;32397218;800044];
  [235447784;420704632;288191341;466499325;220305723;433613759;383117760;192922834;15664460];
  [391741371;445918069;217759138;126298524;137045981;276473341;138386362;448438394;649987];
  [503191297;72430366;173623668;398957775;230187384;26877713;376104687;86704120;575916];
  [365405825;216756119;216567256;206285052;29985479;319287250;527276218;284224226;2471040];
  [185796431;120159586;302568527;499682813;161217032;63579356;195715705;41517003;8701719];
  [401689722;234043169;148329864;6907713;220531855;527696766;220689886;465141857;5121213];
  [159759843;214802767;7285674;160559180;424167683;502288347;313157411;417593588;15078756];
  [488710884;192696646;508911979;42909170;524927500;485277646;438226475;512312799;241020];
  [189808259;62891547;278454938;354235627;3102977;260198191;369646155;465830675;3594105];
  [133553970;241930546;182474751;214755666;193168595;358509094;135690040;160754783;9750180];
  [208672816;450978322;142275005;448604068;300747791;437757705;260341973;224746180;10129487];
  [282682959;297457962;384007895;17204066;64600093;2461870;281805675;1746925;15618366];
  [390407415;44090715;153681222;48523287;418188115;213693292;383012949;146974979;11351196];
  [135537821;345450560;10750437;146884277;260076743;260415311;491947600;501030111;4578922];
  [533290907;112893933;440887057;166486344;476064307;51485855;34571284;2127528;10477975];
  [72935039;11695388;159133727;233274801;28520161;100044349;374156463;171411685;5429445];
  [107520916;130195915;508734686;126162878;325289940;418783099;256439137;197818529;1011063];
  [286163670;248927310;156244106;190286627;448939451;223773341;169329088;69820776;12035108];
  [289868598;106199949;422067942;510709156;98929972;15510308;218162024;464040209;11217763];
  [116355359;53173557;388078992;91479994;358439061;37331896;339939338;359799583;3087204];
  [470995115;267722178;80076933;123643262;506324959;508044223;319619512;96739940;7509491];
  [510023971;431914266;440605397;401254031;412800717;203818660;77769343;519616553;15550634];
  [285845121;239973760;447479984;407267731;500874384;83097814;328816904;264399673;14559027];
  [218027333;199752833;255922240;480812883;497427793;206225067;246397921;398341952;8464730];
  [209479336;205834796;524661683;330115040;445097276;528895159;208364765;393788971;8537032];
  [414477028;391741675;210706862;25955624;414539534;315670408;24250279;395324602;5500927];
  [396652185;527841095;417996211;55589004;436566226;324823509;101387228;307296936;6695534];
  [179654807;534367428;35798745;397857819;259218152;64627652;141824407;187477491;2919414];
  [126629217;418737570;383731521;375407623;168394506;478704215;264525803;31241164;1697716];
  [342159886;58773725;529444408;246163742;127204428;17295209;216086756;410507414;1061348];
  [223356141;477297931;347717767;330377224;387822466;397409551;170455579;179602898;11894836];
  [199024923;187583371;373682589;347553470;38544608;144027310;102511504;460411402;10802621];
  [80668684;106817739;24572281;429936016;463074674;388597642;410642349;418089224;2392384];
  [460958698;311694974;223549265;525073120;114758022;476885022;483595889;323723743;10250576];
  [413396720;233955650;49578498;489354255;262065988;153258977;522725868;36802209;11955407];
  [487963106;461041603;487669616;307250679;327521019;373037800;471265937;74942203;8125398];
  [198951917;27541485;273853742;249281096;519813149;304719475;487800653;510265086;7639945];
  [204759130;193322486;228912935;46966172;509157734;325337442;19686786;440088356;5884917];
  [268620599;434733544;103479497;208222222;452977519;377617698;299648461;447237836;8533256];
  [240903312;170251672;515133931;32365073;392387328;396734343;87202757;46916595;13769668];
  [265045137;320113927;490180417;385788690;463046631;172119834;304119933;431679792;16272892];
  [408139674;487771643;227039085;316136277;9591126;164851800;228562312;65851001;15506236];
  [455323780;335683785;135277515;94467095;403804818;274174905;406954590;470146815;8476360];
  [343894263;30508733;407446125;100449262;87827577;502229176;441597396;84221254;16293302];
  [52962132;55490857;435968131;18384286;503045377;505533438;185102147;211105831;805201];
  [422242684;72357023;227330687;37514412;408784600;266504043;9992850;248829968;10939316];
  [392678712;142132335;107915324;131586285;362342491;136565147;263280333;70201926;936258];
  [209623177;264346881;375572160;481916092;86329208;154141998;106989804;490026041;14976264];
  [79343665;465324484;249092437;380952119;47251010;226886392;117343648;459280538;4505151];
  [92102140;433018904;447276655;462876225;39081370;20560089;228368421;146247342;10207493];
  [84148966;390298391;33977060;144036990;450562724;279498068;209816885;113169694;15628644];
  [179029728;88229959;99236254;3762523;483317439;406520253;28822323;51994388;16679207];
  [531148572;68047072;50471278;183759681;361117709;38078934;422098443;362093996;10732532];
  [425067033;326144469;270927611;1297563;474998381;336138275;369435323;174897950;1045281];
  [350698888;346177050;215079568;422177755;469260821;129698407;504711682;46225178;8551058];
  [24942193;325351700;401447678;360303703;491696259;186318545;354991134;487700300;11681080];
  [94804217;442012798;430543549;159769449;316951817;532020299;54831522;243796275;1953317];
  [315527491;474169698;24798797;157384195;211238086;284884762;167214497;211601647;6356960];
  [383685256;456883258;470413765;413076296;70744944;324837350;136158749;9243780;768740];
  [133700786;369316739;368429719;302837183;410083497;395859194;80440679;318533039;16745743];
  [399463027;508010948;295812862;510179261;162588785;155456913;6562900;83153634;16381125];
  [255816712;122213754;346868981;342193087;383789807;489103442;354071247;247129963;5562721];
  [137510819;328644806;263504398;509535030;323391220;214286118;357987205;318308356;14524507];
  [183607600;84649932;242564388;433554354;64304636;457169082;532812920;129709210;10416967];
  [291156783;156241107;50356113;260075053;325984925;302934732;212347750;360943920;7041857];
  [105423551;126678115;173920991;237718929;190188314;448235480;490738967;226494003;12277740];
  [200331320;258750385;342578411;434239142;453501727;246614872;121914751;78964445;1095039];
  [57719385;317059829;227571786;196719227;322513862;364699512;11199342;19122016;6650070];
  [470238323;521042267;305788990;191901595;462878457;334133090;55647540;157368792;8926714];
  [451524713;285222507;147253256;329992200;203283021;440293965;181130776;371081108;665321];
  [136987143;172721441;417615198;115041291;528132334;479641867;498876956;317755691;4030687];
  [146976372;76095451;516220725;94142316;459943831;512905707;178622416;397620895;14513470];
  [99325725;145041723;318709146;313750301;190694928;382716508;21217741;213192364;3883175];
  [34557256;298841422;94217028;235639875;187707097;265933981;210268686;2525836;10841344];
  [16727060;398856610;317071387;16379359;490257236;390375239;529087110;357900491;5654273];
  [446055586;502755437;46656116;22061371;54607548;94280984;13896775;529612005;2063646];
  [499471435;439091184;74610876;89014988;519063940;494200207;292436133;413749078;15810452];
  [205949675;158297422;181457417;292034532;242676071;149268521;190415262;54175604;652648];
  [511873643;357673286;278275779;86789541;60767105;225701556;474128421;210623781;4752933];
  [129904084;421031463;356883333;323500956;379499275;100547830;48456348;519495037;2487329];
  [132312685;511845461;462523769;116882017;469619539;487842506;163764595;108887940;3672446];
  [148031035;59710475;192083848;524672067;160442211;304143;39418889;170759475;16773879];
  [425223839;223471296;335028412;462890695;240852742;411383945;433433946;244705308;2717028];
  [176867411;481108367;40081761;201885907;93176647;518270702;150330790;122653679;10724770];
  [493045424;457122609;89554882;382748837;413073468;356704774;197857961;96187729;10944874];
  [39921878;367214965;483202342;513719539;212145714;192375650;40957679;470312584;10211167];
  [221517656;66394165;426962241;48883199;380017549;80433619;83537832;178383632;2213636];
  [317958941;206005489;376016962;513498382;387706971;394728577;444303556;402782031;3166792];
  [425303795;151755387;264620834;322830783;309820363;119549926;275282039;414070521;504376];
  [448896476;262953211;198253667;449071177;404303202;49675765;248858907;338417828;1920427];
  [118835017;28110657;36888789;513755957;364646238;443510339;311135626;87372095;846155];
  [534210110;186582446;200252872;341763026;25806951;323831889;255495954;296372335;2626266];
  [29251194;311203934;330942714;443421548;322037582;140641210;526254021;329607935;14837544];
  [177711694;345195664;519144336;391845357;207128211;70427678;299458633;188278406;11720880];
  [141919571;107185535;86002737;66153853;175094594;394711568;56018838;10326742;16143120];
  [372549655;402170802;295710024;7677610;107629161;397186873;30327694;383029565;3104319];
  [139483064;360835865;377318307;215957425;92619954;270962928;239384324;451199030;13875480];
  [152610597;301517116;168267880;302162300;55974278;217752196;193720548;332288311;9250114];
  [398786721;290999891;348034142;390666938;444386788;204382875;510784656;352370198;10248160];
  [427225436;238006400;116665230;361188311;129059022;156907098;159708233;3352392;18012];
  [342582737;384874557;310133352;81062384;310606353;113494085;310780986;5095179;6598443];
  [460368042;484500706;145284385;343072958;310072019;318861861;3404897;44973845;3828833];
  [310789965;239217512;44834046;511781557;470575779;378101918;378687037;88423895;7726365];
  [155182332;121396264;160208192;205933697;316960762;461090481;104594614;270662628;10308144];
  [304702465;415632180;154157189;515118518;528971365;37358768;507883349;147600137;9040994];
  [424474107;13269348;193523263;147265620;452966811;536049348;474074251;488952350;2211352];
  [175607627;222785743;94627069;77008003;484694081;368626305;489970785;331590581;12991266];
  [303171577;141334921;472632934;382362082;364907587;152346663;148307719;5727059;2589341];
  [385490555;508759549;198055915;300391445;262373236;341574504;293140738;26048075;7545282];
  [50368447;164187830;300219724;397604816;213912971;220282358;61839170;196791043;6437734];
  [213800223;429928250;110599224;455282747;244030925;162880858;313646246;333721277;8064962];
  [440151723;85484646;521980774;255157769;337547182;5161137;159536891;86153464;15090017];
  [299945335;241358606;262999082;129280241;47815768;243372202;145157124;352301483;15089760];
  [246152009;217127756;438663699;80727119;247186933;504322918;22969815;59234274;1933492];
  [470030081;372273756;534299822;79739986;321815987;161953002;347499857;302292568;7195333];
  [121400987;71107902;175290094;118121797;419322110;374412607;528224981;201172383;9207276];
  [287127108;349732196;406633213;114557180;205025899;279054798;191693384;390438614;9451146];
  [96759241;296670454;337742141;363386885;127139445;357982731;428043955;533699449;1645046];
  [128790716;526819996;169465118;197584779;130668831;420554942;481859148;319629596;4576940];
  [324965564;505134532;445473832;163731440;470479119;173700795;113735204;31963656;6239891];
  [498952526;211059675;162077167;167577167;63632293;118822805;192579784;18336746;16178369];
  [404509007;78579085;230513863;51151755;361208590;524390268;347830365;226890613;6242835];
  [182623519;97324635;465395213;240869280;373707190;495974493;2241864;100710472;6351327];
  [289621253;86668002;346226989;102322735;319870373;267433665;115223624;168701037;3038605];
  [137597784;338993338;523878734;534090081;131666708;321192522;382722803;80013893;1877295];
  [174465777;466931921;421336868;159273074;185067965;84460042;531879432;18791638;11286249];
  [526228840;28988136;520354755;272878985;271080683;248265042;127849205;172826778;12397495];
  [328771561;293552180;10635683;496104753;55704426;415942043;511425916;142523827;4853494];
  [494834957;349090253;496485115;374084763;2587372;348691703;411927671;489546397;6958698];
  [458457198;61065241;369045080;528889264;78082678;68441539;426128851;86951726;3399143];
  [230153822;324669755;152390559;182302798;276348144;144449428;240139535;296061771;16024561];
  [178762006;444547489;191322220;400331993;286898963;92057749;492620975;76710352;2444372];
  [77892733;529727936;245099061;216826354;153108000;112656235;311211539;221689086;909136];
  [117166668;311802513;213414253;151714862;473746061;402987665;82811842;7919829;6716971];
  [340713399;436762310;313462121;258229929;471538661;193408293;489369423;288972864;14251459];
  [12529438;350006645;216743531;419736478;301257437;128636183;218611925;296252628;3718718];
  [184535167;72607226;241587805;448542066;469772481;222131875;241112255;139010660;5449413];
  [136151481;68545208;231360566;452175246;262306993;191410816;208962430;125638833;12198641];
  [485080904;282564158;78339574;166942814;377343170;433935750;488763573;81264962;5388567];
  [372420467;528788859;433292345;339732720;309475493;261781407;335793690;23623065;9716873];
  [320287082;520657630;31840631;328157555;497511391;413733159;206869798;4000940;16230825];
  [329402501;234978118;499198632;67506678;337022090;527834580;160887972;404868880;10415793];
  [408361557;422520343;27011553;368165986;30664956;182792637;157352875;121424745;4566116];
  [216901543;412972304;235784968;500932364;237128020;478669278;302529117;148925014;11292146];
  [394966567;250566526;477989270;96032923;238910633;164215791;279067365;198429832;4636765];
  [322824146;37962547;255595934;481283424;136641189;128033355;74820047;127903042;13476344];
  [297959454;55731582;372273040;157373272;475317560;413798533;199887121;173234320;15093476];
  [36420437;333527799;23406119;186255136;320645943;156803066;199711010;257828814;10826858];
  [173951329;536511772;13203702;429560269;172316622;392582049;458668357;129629446;7826734];
  [2528274;125171618;152468499;377285312;138653776;324028826;274894280;197402250;2026427];
  [17706591;503814487;452673910;321547592;523328274;128967264;8863303;249096097;15496410];
  [371721602;284077724;286876430;253475988;436442773;100743452;123709450;20533696;12208721];
  [108707340;463771381;168318456;154753028;289696999;491402300;228089360;489751272;15271643];
  [106119831;190613580;409315433;57529726;289173119;64843327;110246906;505967908;4483939];
  [119392239;251114159;533402921;342497225;23699976;198501024;51540811;405679612;9712135];
  [392202572;134593818;508293084;141940810;177495702;222847385;411538450;224268028;1532376];
  [473298686;156094950;283999837;398351358;203858950;358436383;74938693;34225206;4263697];
  [459748335;442925998;413882978;396696315;51932740;294087404;427673044;451560209;8172447];
  [66253253;365253577;382796326;512239406;143306860;78990433;317197861;480181215;3430890];
  [448456832;184855677;353789939;168503687;13415137;392174778;350599440;330431785;8467060];
  [10546011;447476131;385194288;187534112;169535061;384829931;450234095;425005725;3090744];
  [512274959;517176043;289630036;424865418;467399720;525726822;469459402;80841492;9040241];
  [476170735;118713451;76673489;303731930;134874452;82441431;425393109;497693011;12493588];
  [418310642;176770300;74683938;255149244;326137718;230142928;493924016;32490648;1269934];
  [234754232;90170487;334090146;77266533;474590843;79202409;283078158;324113156;9465731];
  [191252786;466285875;445118081;197285088;442901412;315365698;26912923;386629221;10636846];
  [405605079;451465408;188687674;379845941;407481654;126538460;43077784;428253470;493960];
  [446184109;148355614;407736787;21327622;282719597;523891613;32358538;188193664;3779768];
  [41512532;518670801;409529456;480924395;308238760;407485863;152779249;209848119;14913517];
  [7255539;32967048;427788742;365172366;332725655;150033124;386017788;525833959;589249];
  [278438298;444725228;365869916;215466007;427701355;259146806;497211493;332795322;15095628];
  [177057552;511112032;10431642;177804109;388907336;202101892;527857026;89586506;13337736];
  [371732250;95485258;526079774;283066721;428817164;277036480;198822909;162977166;10440591];
  [6292310;342155879;454538305;461664227;356126850;197496287;357301424;254343036;1296609];
  [492176967;278951107;398286450;154364457;502716092;257492881;357255690;216885479;16177472];
  [447296965;108981973;216630009;329222067;190589653;274839903;468632748;162882177;229122];
  [259860048;181675472;61019430;405737787;530475094;412635992;212195063;227531750;12067418];
  [452376025;216192286;420233741;347345462;320016491;7074741;348026040;178357021;14661282]]%uint63.
Definition tc_lx : list int := [236028050;123847480;415556728;179506909;76856709;455210901;20981567;42806858;4081125]%uint63.
Definition tc_ly : list int := [528341305;35831224;61798022;430339619;527767947;144746904;429112597;256338517;3025330]%uint63.
Definition td_e : list int := [309664741;167525729;158432154;144491674;239075969;25442835;313956699;278040295;14116604]%uint63.
Definition td_x : Z := 45536044045135930417610581277973574046122438970391757925449844580498097416238.
Definition td_y : Z := 1024141422863646202565775820037859074970567978856512850590434542706247449211.
Definition td_lx : list int := [148219950;426065031;105711390;205811032;336394549;194474565;263308441;441454512;6597756]%uint63.
Definition td_ly : list int := [357939835;6778713;265316210;364169648;208902934;531121043;257025147;395624780;148388]%uint63.
Definition te_e : list int := [205657357;388474958;101050346;440385093;138448615;80889779;492474425;235758301;15260102]%uint63.
Definition te_x : Z := 65562617457922097038184744940913439655126813930494875066671508196716557711010.
Definition te_y : Z := 58499423056734535274873195129757272919273140109922459363511455962241528408127.
Definition te_lx : list int := [499988130;485853145;292690880;115751263;471326852;175550706;126614618;199860497;9499424]%uint63.
Definition te_ly : list int := [365340735;287778019;329019861;314779394;61195428;327530928;428067649;12870332;8476032]%uint63.

Definition plain (l : list int) (z : Z) : bool := below l && (lval l =? z).
Lemma plain_ok l z : plain l z = true -> below l = true /\ lval l = z.
Proof. intros H. apply andb_true_iff in H. destruct H as [H1 H2]. apply Z.eqb_eq in H2. split; assumption. Qed.
Definition at_ (R : lpt) (lx ly : list int) : bool := eqmod sms (fst R) (enter lx) && eqmod sms (snd R) (enter ly).
Definition chk (k : positive) (px py : list int) (c : list (list int)) (lx ly : list int) : bool :=
  match srun k (enter px, enter py) c with Some (R, _) => at_ R lx ly | None => false end.
Lemma entered lx ly x y : plain lx x = true -> plain ly y = true -> prp (enter lx, enter ly) x y.
Proof.
  intros H K. apply plain_ok in H, K. destruct H as [H1 H2], K as [K1 K2].
  assert (C : forall l z, below l = true -> lval l = z -> canon z).
  { intros l z B V. apply andb_true_iff in B. destruct B as [B1 B2]. apply elemb_ok in B1.
    pose proof B1 as [L1 D1]. destruct sms_elem as [L2 D2]. pose proof (llt_ok l sms ltac:(congruence) D1 D2) as Q. destruct (llt l sms); try discriminate B2.
    pose proof (lval_nonneg l). assert (V0 : lval sms = pp) by exact sms_val. unfold canon. rewrite <- V. lia. }
  split; [apply enter_ok; assumption|]. split; [apply enter_ok; assumption|]. split; [exact (C _ _ H1 H2) | exact (C _ _ K1 K2)].
Qed.
Lemma at_ok R x y lx ly x' y' : prp R x y -> plain lx x' = true -> plain ly y' = true -> at_ R lx ly = true -> x = x' /\ y = y'.
Proof.
  intros (RX & RY & CX & CY) H K A. apply plain_ok in H, K. destruct H as [H1 H2], K as [K1 K2].
  apply andb_true_iff in A. destruct A as [A1 A2].
  split; [exact (leave_ok _ _ _ _ RX CX H1 H2 A1) | exact (leave_ok _ _ _ _ RY CY K1 K2 A2)].
Qed.
Lemma chk_ok k px py x y c lx ly x' y' : plain px x = true -> plain py y = true -> plain lx x' = true -> plain ly y' = true ->
  chk k px py c lx ly = true -> forall S, smult k (SAff x y) S <-> S = SAff x' y'.
Proof.
  intros P1 P2 P3 P4 H. unfold chk in H. destruct (srun k (enter px, enter py) c) as [[R c']|] eqn:E; [|discriminate H].
  destruct (srun_sound _ _ _ (entered _ _ _ _ P1 P2) _ _ _ _ E) as (xr & yr & HR & UR).
  destruct (at_ok _ _ _ _ _ _ _ HR P3 P4 H) as [-> ->]. exact UR.
Qed.
Definition chk1 (ax ay bx by_ e lx ly : list int) : bool :=
  match sadd (enter ax, enter ay) (enter bx, enter by_) e with Some R => at_ R lx ly | None => false end.
Lemma chk1_ok ax ay bx by_ x1 y1 x2 y2 e lx ly x' y' : plain ax x1 = true -> plain ay y1 = true -> plain bx x2 = true -> plain by_ y2 = true ->
  plain lx x' = true -> plain ly y' = true -> chk1 ax ay bx by_ e lx ly = true ->
  forall S, ssum (SAff x1 y1) (SAff x2 y2) S <-> S = SAff x' y'.
Proof.
  intros P1 P2 P3 P4 P5 P6 H. unfold chk1 in H.
  destruct (sadd (enter ax, enter ay) (enter bx, enter by_) e) as [R|] eqn:E; [|discriminate H].
  destruct (sadd_sound _ _ _ _ _ _ _ _ (entered _ _ _ _ P1 P2) (entered _ _ _ _ P3 P4) E) as (xr & yr & HR & UR).
  destruct (at_ok _ _ _ _ _ _ _ HR P5 P6 H) as [-> ->]. exact UR.
Qed.

Lemma pgx : plain lg_x secp_gx = true. Proof. vm_compute. reflexivity. Qed.
Lemma pgy : plain lg_y secp_gy = true. Proof. vm_compute. reflexivity. Qed.
Lemma pqx : plain lq_x kyc_pub_x = true. Proof. vm_compute. reflexivity. Qed.
Lemma pqy : plain lq_y kyc_pub_y = true. Proof. vm_compute. reflexivity. Qed.
Lemma ptax : plain ta_lx ta_x = true. Proof. vm_compute. reflexivity. Qed.
Lemma ptay : plain ta_ly ta_y = true. Proof. vm_compute. reflexivity. Qed.
Lemma ptbx : plain tb_lx tb_x = true. Proof. vm_compute. reflexivity. Qed.
Lemma ptby : plain tb_ly tb_y = true. Proof. vm_compute. reflexivity. Qed.
Lemma ptcx : plain tc_lx tc_x = true. Proof. vm_compute. reflexivity. Qed.
Lemma ptcy : plain tc_ly tc_y = true. Proof. vm_compute. reflexivity. Qed.
Lemma ptdx : plain td_lx td_x = true. Proof. vm_compute. reflexivity. Qed.
Lemma ptdy : plain td_ly td_y = true. Proof. vm_compute. reflexivity. Qed.
Lemma ptex : plain te_lx te_x = true. Proof. vm_compute. reflexivity. Qed.
Lemma ptey : plain te_ly te_y = true. Proof. vm_compute. reflexivity. Qed.
Lemma ta_chk : chk (Z.to_pos ta_k) lg_x lg_y ta_c ta_lx ta_ly = true. Proof. vm_compute. reflexivity. Qed.
Lemma tb_chk : chk (Z.to_pos tb_k) lq_x lq_y tb_c tb_lx tb_ly = true. Proof. vm_compute. reflexivity. Qed.
Lemma tc_chk : chk (Z.to_pos tc_k) lg_x lg_y tc_c tc_lx tc_ly = true. Proof. vm_compute. reflexivity. Qed.
Lemma td_chk : chk1 ta_lx ta_ly tb_lx tb_ly td_e td_lx td_ly = true. Proof. vm_compute. reflexivity. Qed.
Lemma te_chk : chk1 tc_lx tc_ly tb_lx tb_ly te_e te_lx te_ly = true. Proof. vm_compute. reflexivity. Qed.

Lemma ta_mul S : smultz ta_k (SAff secp_gx secp_gy) S <-> S = SAff ta_x ta_y.
Proof. exact (chk_ok _ _ _ _ _ _ _ _ _ _ pgx pgy ptax ptay ta_chk S). Qed.
Lemma tb_mul S : smultz tb_k (SAff kyc_pub_x kyc_pub_y) S <-> S = SAff tb_x tb_y.
Proof. exact (chk_ok _ _ _ _ _ _ _ _ _ _ pqx pqy ptbx ptby tb_chk S). Qed.
Lemma tc_mul S : smultz tc_k (SAff secp_gx secp_gy) S <-> S = SAff tc_x tc_y.
Proof. exact (chk_ok _ _ _ _ _ _ _ _ _ _ pgx pgy ptcx ptcy tc_chk S). Qed.
Lemma td_sum S : ssum (SAff ta_x ta_y) (SAff tb_x tb_y) S <-> S = SAff td_x td_y.
Proof. exact (chk1_ok _ _ _ _ _ _ _ _ _ _ _ _ _ ptax ptay ptbx ptby ptdx ptdy td_chk S). Qed.
Lemma te_sum S : ssum (SAff tc_x tc_y) (SAff tb_x tb_y) S <-> S = SAff te_x te_y.
Proof. exact (chk1_ok _ _ _ _ _ _ _ _ _ _ _ _ _ ptcx ptcy ptbx ptby ptex ptey te_chk S). Qed.
Lemma tw : (kt_s * kt_w) mod secp_n = 1. Proof. vm_compute. reflexivity. Qed.
Lemma tka : (kt_hash * kt_w) mod secp_n = ta_k. Proof. vm_compute. reflexivity. Qed.
Lemma tkb : (kt_r * kt_w) mod secp_n = tb_k. Proof. vm_compute. reflexivity. Qed.
Lemma tkc : (kt_other * kt_w) mod secp_n = tc_k. Proof. vm_compute. reflexivity. Qed.
Lemma td_r : td_x mod secp_n = kt_r. Proof. vm_compute. reflexivity. Qed.
Lemma te_r : te_x mod secp_n <> kt_r. Proof. vm_compute. discriminate. Qed.
Lemma kt_ranges : 1 <= kt_r < secp_n /\ 1 <= kt_s < secp_n.
Proof. repeat split; vm_compute; try reflexivity; discriminate. Qed.

Lemma kt_valid : ecdsa_valid kyc_pub_x kyc_pub_y kt_hash kt_r kt_s.
Proof.
  destruct kt_ranges as [R1 R2]. split; [exact R1|]. split; [exact R2|].
  exists kt_w, (SAff ta_x ta_y), (SAff tb_x tb_y), td_x, td_y.
  split; [exact tw|]. rewrite tka, tkb. split; [apply ta_mul; reflexivity|]. split; [apply tb_mul; reflexivity|].
  split; [apply td_sum; reflexivity | exact td_r].
Qed.
(** the inverse of s is determined modulo n *)
Lemma w_unique n s w w' h : 1 < n -> (s * w) mod n = 1 -> (s * w') mod n = 1 -> (h * w) mod n = (h * w') mod n.
Proof.
  intros N H K. transitivity ((h * w * (s * w')) mod n).
  - rewrite (Z.mul_mod (h * w) (s * w')), K, Z.mul_1_r, Z.mod_mod by lia. reflexivity.
  - replace (h * w * (s * w')) with (h * w' * (s * w)) by ring. rewrite (Z.mul_mod (h * w') (s * w)), H, Z.mul_1_r, Z.mod_mod by lia. reflexivity.
Qed.
Lemma kt_invalid : ~ ecdsa_valid kyc_pub_x kyc_pub_y kt_other kt_r kt_s.
Proof.
  intros (_ & _ & w & A & B & x & y & W & MA & MB & S & X).
  assert (N : 1 < secp_n) by reflexivity.
  rewrite (w_unique _ _ _ _ kt_other N W tw), tkc in MA. rewrite (w_unique _ _ _ _ kt_r N W tw), tkb in MB.
  apply tc_mul in MA. apply tb_mul in MB. rewrite MA, MB in S. apply te_sum in S.
  assert (E : x = te_x) by congruence. apply te_r. rewrite <- E. exact X.
Qed.
