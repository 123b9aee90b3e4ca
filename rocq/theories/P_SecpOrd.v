(** The multiples n - 1 of the base point and of the KYC key, with the inverse for each step supplied (generated). *)
From Coq Require Import ZArith Bool List Lia Uint63.
From Verif Require Import Agg P_Limb P_Mont P_Jac SpecKeys SpecEcdsa P_Secp P_SecpEx.
Import ListNotations.
Open Scope Z_scope.

Definition og_y : Z := 83121579216557378445487899878180864668798711284981320763518679672151497189239.
Definition og_c : list (list int) := [
  [175701171;73078196;34925360;151111377;387863904;66243469;504059580;281433252;1160168];
  [116109968;197404216;125945696;170060015;189164240;494851337;416099843;265118078;7779097];
  [165296522;6946521;418941926;262630522;307744997;247038680;50304195;527294098;12863744];
  [130309571;58933233;486480589;193131228;191076540;65587354;94113492;464549946;4150086];
  [255326620;40951256;390513772;141242773;138573618;489540768;239370880;262201363;9091547];
  [461478409;216664213;22764599;239456632;529538711;367980386;327938845;431072599;14769968];
  [254029328;280441420;132625607;334138575;356573918;414947638;43260585;35639917;588129];
  [500089219;262156266;251877405;63576500;244504254;530080833;14342437;285832117;14443858];
  [104807120;54821908;485579227;315192730;443590967;345257174;512367700;19566420;12175744];
  [179304303;516603600;236069375;345328402;403019761;136762090;286928095;535543136;14064596];
  [217590917;147251718;18709622;436546329;445361224;498119004;371604005;116307975;10994924];
  [107321840;224071274;335629462;338563650;196423970;316375359;301813263;112189621;715309];
  [514547214;227002239;301522689;455154152;230171461;203277844;207432330;316993623;16615142];
  [210415234;139788826;176074762;340977767;33238665;36975300;509093288;298487936;11854350];
  [433130835;35292290;483597623;229900732;209178625;509509402;469919131;521413009;1628541];
  [313075360;278596646;223009401;66439354;49661396;122315138;196048592;332582689;7039094];
  [420951579;156094100;345464657;212775071;255658712;489273271;8579870;12334167;10663596];
  [78746294;371771348;110217388;109271615;42329231;525037389;451201663;251577564;10523725];
  [524912601;457411825;152679470;399982140;155744820;316922074;356006054;431692716;2307816];
  [49420670;132949;360369759;39358557;214970470;279035390;128438327;215945350;7932998];
  [344379818;86006979;514071332;24873775;86487558;495540279;313099066;243212249;4287947];
  [427322836;369642937;19888850;267214412;459214363;413116081;17705033;191202399;16252152];
  [464177074;235847288;87243992;15675349;269402729;337200078;176786038;472720181;6875001];
  [393380588;137159805;239513343;109603574;514624429;448060995;265778389;492850990;14999466];
  [67574836;378884680;473974894;178413150;330817649;438662828;532649140;464706140;4056710];
  [432003600;38027122;2522628;178050765;490221663;442287011;385416295;94507257;14965026];
  [127640091;344052600;199549788;199907158;206328695;295898975;88407789;165013253;5637576];
  [295355242;512578601;345027370;417740280;138354053;260080110;435327371;117871191;14055596];
  [309843525;117495597;89296726;56043546;402322528;310561321;263409361;348961228;12620139];
  [38153699;325595248;74476669;473545777;333532479;106044331;127061894;159341763;2812683];
  [269354781;192072411;211716433;457350121;281946885;153848844;359665541;499234312;15197084];
  [527705782;200283965;317931952;196901803;328122360;513935612;47934809;25818586;5288332];
  [529630959;241096225;339049964;511519397;455757608;161777225;131999830;510701521;13597565];
  [316443293;6049998;202482321;105920258;112086877;22400262;338369352;311425029;15335850];
  [201555967;182640369;1288067;265450412;232519510;242035482;269050927;300138620;13378112];
  [89317043;293826773;88038862;317325691;402090241;252488772;56865592;470930032;10968326];
  [342469277;61044106;195903644;79927170;462156869;305355998;276782059;56174861;9911145];
  [397260662;163289758;32949768;48667891;106615420;247841773;59661470;137334259;4338438];
  [64407618;226380494;425501168;405785446;300839283;292210743;470314624;361866995;12270278];
  [325538244;37838224;281439570;437286497;68988307;84221003;454834296;167261790;3559275];
  [424621478;486997499;282819007;7301175;147334637;266346875;178818765;483381555;6802890];
  [332131529;237571981;337403484;311918201;15237112;474650425;31796519;35542716;10509089];
  [322180637;323053150;201464343;234715700;466009919;306061695;198625278;530361261;15800055];
  [7227378;175586317;464216330;399468981;245555020;294719153;79988206;308981662;12639750];
  [380234959;502711399;201157359;320139146;395755823;139431246;111584962;299916674;14261442];
  [499938533;138696188;87929822;324927245;382622341;520097929;423138785;264541212;7313215];
  [355115782;463918841;385648286;80467851;418689658;350392547;401757819;79377611;6483592];
  [300806459;118407974;370315014;162200783;12792951;90607592;140255517;209690816;15655996];
  [42387992;500533218;271609761;118608815;281580485;204044534;168419378;412624817;759530];
  [467532419;125568515;239601158;333225040;170794171;69386993;354961212;93053025;15428955];
  [354779480;81259308;123771263;496931322;361345429;514170785;202458892;113003565;2152996];
  [423293373;282241764;494494167;363559967;496979502;188923950;288704722;205366196;1250914];
  [317579277;218057028;316981462;335377769;224898032;275437692;243920707;500155334;10976934];
  [140312804;497077512;218263912;310269647;234897074;424899733;506235905;61390485;1584661];
  [203714807;446151176;183584157;216726751;333382876;391899602;192229588;206313649;1036585];
  [184025701;152949765;248561509;307584636;417936804;116691353;255391654;138774594;4004961];
  [255121542;455602407;348993299;453631426;472900133;60990024;422967938;183071830;915760];
  [268274494;364339990;286031543;419412459;288508512;261466353;284591895;82006016;6992599];
  [448691318;367224422;209849645;280099697;298342556;181547093;220600910;260172079;5828229];
  [153446092;218426580;368661441;343767937;136794107;240770357;377241582;485079012;2830965];
  [144310014;248928777;51625696;408766827;490863726;1858394;333372075;157247684;11443239];
  [418244421;484888601;327782869;394630199;393089034;249778727;165380435;144033603;6513445];
  [329119332;175767524;52988449;158836481;1923112;142676775;518971834;52688058;12891217];
  [201923055;444765011;30277865;527152006;137514509;522350402;450840863;277732617;3244476];
  [374149794;218992209;532387407;66538382;366678627;531070211;295898227;203723667;4492352];
  [209404473;132050264;65457636;165815928;251232315;212920598;211124307;352428059;10953738];
  [90555117;65211977;167106233;153372703;437420716;338452886;486544032;480675548;5766152];
  [146225566;175635878;503886391;255248369;373017586;186728924;258321021;116654098;7157316];
  [210799156;301798148;531440517;186820797;141614634;294843707;323945836;77807207;2236425];
  [462148651;25271464;49433111;187112538;414095767;78822362;377331622;248351428;11658869];
  [238387572;274211846;174235457;381553944;278893000;449578221;420134939;429537489;11269647];
  [401583195;72065123;181535533;122950483;468510736;297679572;140725911;257712625;36972];
  [9579857;241587294;167144260;534202163;1344342;143850666;57153201;46783809;13801312];
  [517057065;38299852;400178522;217609041;338461180;102474083;398083664;185603010;9397072];
  [268019256;137409044;409843049;84482457;340819139;343873404;121873617;197515077;11931026];
  [40518570;377602852;19581613;245899542;73543156;419609662;520688656;179189262;16035375];
  [47383325;483676420;468436837;336790843;206900685;322914468;394624661;222805130;9127315];
  [135037236;182817646;512063127;116438523;197643570;472803686;105080677;372733459;14842087];
  [391226421;281784197;454938508;16079484;41428968;188613788;216769805;175166635;4657213];
  [14026426;216842743;34289267;287643083;365619333;266507929;68462262;155982727;15503906];
  [26661639;363630497;481231178;153221514;376322880;158510052;360367431;491453371;7233580];
  [70972809;509527508;11977654;107246918;50043144;191066269;273695974;215731569;1487109];
  [164461100;175993695;426918064;380480758;94470569;403991257;522188502;187305431;2274033];
  [327995668;87831685;487569472;160774679;474646696;237442344;197395432;72409853;16534136];
  [270654591;272986496;142149045;193644610;424887080;489239779;264980765;268032039;1882094];
  [469763283;105965069;112972525;139111663;346845488;209029956;43589312;262361717;5873133];
  [73564328;421516034;474488357;418752149;375505938;157475689;89932810;41778824;2129361];
  [192696856;391100371;499126736;130719122;338785159;498033057;476314203;103723795;8806984];
  [394999579;6352117;84506058;313602578;75779218;371365534;505819241;273012579;9211144];
  [90924516;377905520;296149321;147223319;225497455;24665147;385642770;31401353;1526673];
  [117449735;452715975;511312161;47493244;56053151;458496320;3186918;264393394;14721123];
  [356578571;299739333;299532604;372507081;512820174;242446360;247440029;497497338;444129];
  [365568307;321097368;376447665;96967700;305256415;454384645;443140329;280266757;11052625];
  [108833925;290540782;437981606;189473858;486455527;445948146;363740797;482205884;700722];
  [108453649;160432226;393834020;91164294;384738785;16626070;86841207;204841035;8578945];
  [69921858;207705967;127359750;46397965;319105129;33724584;305889319;514969778;8128025];
  [264732942;447627044;381136802;108745896;457758265;71449134;245522858;105194816;1151259];
  [473420629;436378764;99542413;212745017;297934354;451586692;159590454;294531210;15495802];
  [133554560;250852060;71839650;435164185;257089336;234784658;178199478;374263569;910108];
  [79944289;257931490;452054409;129710848;103363597;351288407;39529124;480670834;8714776];
  [20156367;191926567;110493195;515691078;183241032;411001556;225927807;397124221;7061972];
  [448154800;36289606;197725567;182623212;461888232;42743435;73495945;421487922;7721830];
  [208146554;47468503;368967080;142373272;518363005;2441999;305524493;33210777;4263131];
  [494565791;161187259;167021837;49376056;285676413;224085465;209067719;317050693;5656146];
  [58142858;272372458;467664835;79150832;338145472;414902608;214103379;8336092;13007047];
  [170746162;408395932;105029141;494230686;19109146;499720932;239029560;315451908;3831969];
  [59291564;396844443;153431882;452135043;207667510;162271987;118154276;96253983;5710914];
  [99517081;126793316;272158555;113721585;241321684;115612994;66516138;24572585;7761802];
  [463579654;198626369;454549585;154364298;3773821;464487419;403775559;500332626;13123639];
  [73313891;299981439;106473044;215104416;416036549;76637014;40588184;259320285;11682585];
  [303027821;252012311;235937355;37366329;247417681;507607007;512361458;347438833;8597889];
  [488583538;169498117;501271040;418960883;366681933;532781043;518983674;71062781;7401298];
  [496141810;246301360;164278911;103107345;132545193;411648807;514789826;76732676;10599280];
  [73299905;348264443;399934937;27714722;405925561;216336066;411116588;403949064;1441330];
  [240499809;213945417;335533121;197251704;530005680;414046032;462679560;277173687;5397489];
  [501650331;97134725;300499337;257063999;61241936;277400354;352837663;159669511;4601983];
  [490890799;119605939;409287567;116962897;233318521;93448580;138603413;478821277;16505379];
  [271868988;116469004;107937094;471895507;4653701;471226964;286104957;307126177;2626694];
  [460207946;187567926;468229367;247172672;392215466;322740221;351605126;46242368;10841274];
  [434573098;283532225;220882344;60904395;30361760;318728278;466245096;166430386;6900037];
  [463963933;464961902;198030009;272027890;447645961;517373064;18888839;99576781;7236453];
  [305678930;225162116;260859004;491186428;239275655;295270552;15367638;152390246;13382926];
  [181488148;431456391;302550148;31152132;395935135;495104815;242336391;523205640;14146536];
  [456107815;169105396;103203982;435474177;371368580;110246021;94378217;1905415;5894017];
  [227106601;372666759;115902333;16988006;103632865;414106935;282384797;110598861;11255848];
  [365629154;471071599;330994393;205160328;236062871;534113583;426809737;512178397;3978173];
  [524505981;86765095;144818810;356772167;428839380;532933009;286088967;14252848;6045791];
  [476386969;167301264;97412413;172796638;226895145;120416371;101654261;120379821;1132376];
  [81648036;207807784;412515421;234717826;527951760;363088881;520728948;197546884;15189604];
  [59569155;348044241;375859204;449794239;96937596;401648006;394331792;338235763;1913041];
  [533957012;89703338;332245307;309438220;524590010;135524373;393412240;226649091;5334600];
  [4899909;318147577;461177210;325530715;316237153;3674147;338569037;422389907;1841947];
  [209986701;476207551;94156678;38003677;285524214;524067650;521942186;295807921;2468558];
  [16550248;256534452;39121077;392313611;182697591;173912854;103741352;499478983;9376836];
  [278180504;196117461;43103348;476375445;95236076;462035608;74013885;91595774;9868676];
  [79090714;141915785;351172483;464807480;120014647;345533228;27902804;491312996;12364978];
  [282337058;70979402;75378755;499017002;430617608;337304385;511022555;158701861;12863991];
  [184577990;262983570;22412213;473482620;15331899;32988359;96347813;271704942;5041938];
  [132980949;515548069;458820303;434724592;94647504;521932609;2550086;294612630;10529161];
  [25466723;97213258;372503099;479156014;64434690;385772548;275205363;143699658;9717118];
  [149649948;165868384;37572635;128741637;357713882;272918151;479140227;247807604;4593848];
  [193392087;473399632;422263219;141277997;485328594;371561552;401542878;399382169;12367578];
  [350473647;380274198;258564225;253163239;277215697;430703734;115531250;471060473;10221586];
  [259669899;192954166;476820022;336084026;421069109;111593072;203844189;194214611;9133108];
  [199588505;160894383;150212700;154277340;406821711;257352119;391814370;334866336;747238];
  [363474144;446299016;72968450;510194976;458562220;202948191;82806020;351726643;14067108];
  [61486492;484462188;1011599;121370271;519533351;212111846;185393534;470023111;16680498];
  [53522243;243586350;387852195;219803788;417008298;46947079;99191550;492317919;509640];
  [94499839;321729233;283441675;506570078;416507783;173065153;4417658;404338570;3326514];
  [180064007;180383589;456950024;196727083;317993057;269744471;226358292;513012533;11971080];
  [208983960;82777424;146316858;145846480;442568934;499760487;518903999;465911980;6316523];
  [534142298;340455603;321388656;425915123;40860335;353757412;13973946;34731481;6337288];
  [474027553;313747490;383041021;131055883;365585411;2124722;308110029;388674875;1685914];
  [67787504;332044205;456950258;425968595;64457197;461043025;154927174;223245383;3537976];
  [415438108;469595919;25886335;333700248;304536614;152497268;370396690;295895554;5596267];
  [278736586;343529744;280054588;459524754;418086594;308786282;238950968;510899452;4686744];
  [105852521;287012584;379985377;153708877;6946517;436078872;438927892;203183818;16688170];
  [499358563;60009850;374770109;81178861;337859708;78778231;159239564;104758143;15390554];
  [521204783;103873386;212501653;442029394;485775557;236781603;395273665;13701621;2255628];
  [482048269;57175870;24156854;462843217;47871622;95556901;485133850;49658726;13631951];
  [214592652;379517453;409798819;151971252;528618766;86164068;39127229;327055004;16473172];
  [350919612;473264778;100836587;250182021;254101580;199285824;61959399;269738525;15837849];
  [396770901;24083016;274125855;369020872;27475191;240056476;37754059;139913114;1004707];
  [265186768;215320752;509973860;90739681;339118344;132903505;63666018;148427953;16498447];
  [388221136;287961830;164187071;487886491;436548672;419107018;120777121;57952710;1993082];
  [68795891;374171815;527360344;78361391;525197490;85215530;394365961;2010041;13128429];
  [489937600;110196118;403504183;848854;395899886;258643577;409349673;343974721;1909353];
  [180488333;457830035;506344503;96341826;415737099;181787728;349240099;236165275;6889265];
  [77326067;38604930;476017126;524234311;431734069;513424742;115744153;215532452;704483];
  [516945571;471038551;54545704;212146233;276935336;114536098;329375695;409168483;12974176];
  [435899833;124128807;249813573;269595109;187457355;369045597;196694788;171279320;6378187];
  [410116144;531524853;63184326;147921254;482434920;395217543;379084740;525861032;1924257];
  [235030266;36026990;21208138;307177862;494413971;198113066;459022368;267565594;14740713];
  [175392119;129099895;267122420;144035904;491968802;27272277;226676458;516704435;16379171];
  [350172902;103446515;39702188;487949118;186117521;485728602;253557682;508428377;10312198];
  [119480119;345367857;341378438;152983185;156549235;257547051;405173715;472081280;2507026];
  [512544001;87306852;41189269;265897246;448805842;426779291;362648963;194327505;4358272];
  [223752271;278179726;199764056;409545988;293258770;506885302;484641234;313158373;7179827];
  [414425679;495374856;22351220;155388103;78698849;84838319;170918928;111567420;15330007];
  [467556854;334634537;511469123;33438560;411535636;108475945;93623218;33941464;14318526];
  [99897117;112441236;494448726;216675448;530820993;41592635;122548520;466445028;9999564];
  [3464431;498545682;279191885;262244796;47763508;273364940;393248234;76321775;13973009];
  [69905671;328598943;402042508;456160679;45253664;142029216;152926291;486295499;1094995];
  [263523487;382433549;512011415;421165929;401951649;355269396;434849129;340309100;560545];
  [52064386;255696755;367517642;73201127;478844562;535884231;357084803;373279663;2560015];
  [359058509;476392844;75804967;241356707;430119581;104970342;497290911;114036479;13242013];
  [214741816;18413518;110489168;387555248;501873682;159193998;304840945;169229206;4209102];
  [431857455;469024111;498338697;181185887;266441147;169076195;212536559;125843297;6882555];
  [489226097;364640637;141613741;288313172;285684434;450685057;359774648;83667906;16460661];
  [114113559;509153684;31151840;95962858;311706786;487608754;480101958;332824349;9349757];
  [222830813;165801168;150487616;326534753;493403809;409836135;1168249;428595854;4499690];
  [421602789;497426519;162559609;506381215;43160649;351498495;433838392;18260657;11550401];
  [461687709;236506486;78269835;67449868;47322225;267585320;147062699;437061475;2543958];
  [35231413;465722734;458213358;173428696;397192786;487521724;535415084;281198622;16022856];
  [328570326;261796153;127744471;371858427;417913768;366682862;510856649;88571309;14073280];
  [101655013;427458432;236783575;502938517;430668933;512251972;334626403;384543554;4287812];
  [232257348;41203240;238737187;88021665;452695502;47336427;158686717;202757037;2231540];
  [239364283;177511902;379036257;379477576;264116279;528462903;260942516;154511885;14513381];
  [113091573;332751603;333736064;473381281;109546669;274093628;472763903;198899159;1940426];
  [470340989;24609609;484912932;134863885;151414583;353446269;283663737;255990787;16313617];
  [362481855;94643977;121625014;405882944;498412053;184197971;368209420;268756915;5234107];
  [236549336;497996804;85024007;418250549;46646052;190347924;276634664;150887644;969291];
  [129304103;283318595;365857476;336551001;465149343;290206728;9288368;15265953;10079773];
  [491137686;203121737;309252108;251574058;455571636;122616203;342237855;142290535;3793838];
  [25831187;279763430;44574450;271947473;453728111;264038571;369372642;418379399;10746359];
  [478901719;71246201;235464068;268647991;300515943;533027291;269506489;307004427;10385529];
  [277041011;288300791;147452914;476386515;360972328;308020319;373532439;213526719;14964264];
  [421146146;514520160;475799713;142546678;453507989;320851364;119918631;481938264;15243631];
  [304753063;288718361;345341539;293402518;126208769;222637494;66502990;155019264;1470807];
  [359778961;315193458;352901268;448362930;63536635;37770599;40064444;152644759;2710823];
  [209024630;89947884;462865261;162936652;260897266;525609877;149203134;161654290;9830933];
  [521988121;317886004;75262627;332091781;527359592;102286181;70659157;303478003;9516192];
  [193655342;381473422;530691034;497850856;358530599;7715443;370497386;49013756;4077285];
  [175808277;336067886;90305348;139177499;197870385;258501341;128753610;401034936;3237144];
  [191159634;101272737;142699907;409801144;47713626;248784747;118269460;503322514;14463840];
  [9394746;188993847;241814030;295343077;11593259;202467969;215648815;263807990;6516303];
  [183818132;204060690;266048963;210889921;426047734;264754378;487260611;109332002;5256948];
  [535067060;425252720;140345289;473978199;25564552;68748804;230771150;487879715;10298920];
  [181683131;288278261;391195027;283117160;133446297;2499305;382912469;121302371;13482913];
  [512368266;370845278;480022703;101105446;282459524;65195603;488020635;79524357;12083164];
  [377585800;45181617;155428637;389259502;60522724;177064345;303413931;429336603;1440995];
  [54415422;484332396;245578035;235851996;401762322;265872380;262017016;263309182;814294];
  [29393329;458466438;339707031;4374977;91255270;247913270;326331042;445355875;10274096];
  [453222995;327746089;525841895;142758947;464513021;107496864;50986375;248847462;5796766];
  [100648223;488285875;3205027;449444949;191267722;147800840;22984475;414049093;7232005];
  [381678164;92992144;504059192;146201541;126813475;196060685;245990227;26941867;919129];
  [48645236;420219671;321768460;411547905;35759491;89293007;156998341;446899794;4846979];
  [484798064;304370972;385308309;201293049;399828767;312106165;489792922;109500342;2038229];
  [156118654;529843132;418715875;202332618;318220714;244913511;207562719;489380565;10143187];
  [31859432;494800470;172100399;282718449;102922244;238344045;244350201;338799466;6752852];
  [375439895;71545316;424946926;316797042;84515422;441841098;122627283;109574369;7489677];
  [365086450;41178580;452168167;193327647;69209916;510156320;293843770;524391584;1477535];
  [208978587;337037369;98185288;534917861;4566979;121536344;484172635;365730115;2187089];
  [188194499;333011862;361802990;232912352;19084589;94161082;197931145;328029286;14494219];
  [336248550;532115275;48673936;507918113;227809400;263232500;123011319;463547203;9894500];
  [153737549;418876346;478559836;385664330;502338534;214878083;400705451;461870605;1392975];
  [304267212;22214492;406789204;95260710;18142571;359111965;461495910;536018400;10936060];
  [345644365;4333940;191459032;494620125;324538680;52658902;174600174;64019613;10478989];
  [204155790;310782297;323133668;406029161;298385083;11681077;83289074;23452405;12739550];
  [342449870;365999367;128592718;484847280;491463667;448381799;421229564;533432914;14120512];
  [271995756;427187658;42239961;241540050;489924588;504897216;15729015;69685098;9015549];
  [63140622;160972969;479578032;346138062;375294737;419950783;397345561;2706479;2058604];
  [438064646;1028989;423545111;441609977;49532961;495834668;168735529;209844475;4484752];
  [191055472;4017;34955716;351491905;486118784;527252982;206039152;388015883;2147005];
  [35990122;51048231;312855942;265620777;387427938;52247370;528920139;515247115;12076275];
  [183232889;369069109;138995127;459770456;88513260;458407965;475096339;32896354;14790173];
  [360225158;231392873;199240614;536215460;529663746;269630394;442719180;42626176;1728043];
  [67032016;147465163;430050556;333669955;248559573;471083259;531534301;379961214;16523193];
  [81426853;230862326;390280057;348577178;495011526;211066970;85656803;494428960;2872889];
  [459831220;285381367;159841033;217565198;372048263;448691475;509459296;216226636;3835750];
  [412515282;7546533;115921310;25133863;144998686;74835594;477236195;208618864;2162602];
  [340365158;408523548;325295772;475839272;497318595;146810984;528500340;18305696;7945326];
  [238527394;104799099;26519966;31139991;39143977;277172298;494515047;353358368;8640236];
  [82018832;522682388;227660976;253948960;211859980;209183172;507853494;471987864;3825991];
  [428381574;81859122;470836969;189091144;280238673;299566634;194325322;493233180;3999417];
  [377147584;350061277;364980418;123204450;359632078;493072952;356409604;169213530;10786467];
  [238961750;69314360;335576688;517154457;427757144;471131700;399168967;273773224;14330857];
  [460108795;246089698;435793734;407090471;37153411;335665852;142890759;11832190;6399998];
  [173644201;216317661;397403241;272414351;160272115;508648613;202152416;355071108;13403849];
  [121594933;340321970;443607463;182449066;337281143;98380840;44588840;462267595;13073297];
  [58299702;235345922;14741024;402851402;30387385;329160157;164265906;117844519;771216];
  [373603440;48830431;5345454;138734556;419494354;25730061;24995406;30624811;8949824];
  [405442396;110703237;407097749;379365571;392363989;368461436;88074985;143338243;11422411];
  [201282525;55057085;493750236;12905191;135815849;281919381;136434716;207282750;8516220];
  [511816298;261161773;114714465;222668740;337966531;229333639;239557247;296160207;8760988];
  [311368664;101038616;298203757;269061556;461061989;59509416;400054673;458859643;10281837];
  [451036825;514653630;287803401;464170470;504387161;416362627;431896197;257438109;5901001];
  [142150982;196992365;314064978;181774605;426248975;210367020;417301505;223985161;13580413];
  [187395801;252118127;124599401;201007928;399046810;437464107;420771828;478914572;2442628];
  [450129300;299241767;219498951;413969005;373245869;216767805;495601918;116966102;4855851];
  [79008173;56400966;83582487;511683631;409872178;53052042;356545617;383744047;10625865];
  [340336294;217656641;89606045;275300299;532769519;382145174;147055020;220086763;8305524];
  [261362926;361700708;528381730;218388503;152071870;148277227;259838824;320510730;14756121];
  [506386558;233727038;73834670;358065570;417042357;26448260;346832495;320899999;11564854];
  [54595237;209464868;294442641;3462436;116481326;329168768;440925201;36784156;3435276];
  [251534696;92116773;529495248;180253770;154293415;11788424;519274953;368998211;13306391];
  [379333185;26488849;149425008;78579383;374203013;140717338;409690237;407796367;311791];
  [121160347;138394361;458275712;118863172;338151069;330195086;83794707;80474955;4085105];
  [440712161;504631336;268241414;112628734;509250744;176184907;12766648;186684413;11860259];
  [175902565;482463986;391819854;119286413;126126800;41718210;76165877;346868538;13009664];
  [50830854;92771397;447436633;535503637;516832609;470606039;275488279;173172774;6776122];
  [501915452;61502013;333988674;513552502;455516638;388605752;63671341;222107619;4723410];
  [464476745;376705819;365130922;297612056;444311832;481632358;154609699;223407939;13887588];
  [396807091;149025122;319320275;395795664;106860674;7547491;356908134;122728175;14004504];
  [482399390;415235752;28273088;232629917;16859473;153113530;301587426;436189574;9574434];
  [280220924;250267320;16008884;24838536;316872174;185126235;518284326;12514609;11573170];
  [343291404;220300135;290295608;361741742;434382875;422462186;115243435;421067510;15346182];
  [511264618;81339534;423917397;253246237;343524329;470229081;154197035;166794179;15487174];
  [180342167;201500123;26304095;126191920;32999897;419509741;277203058;191559553;3182699];
  [135837789;299676635;210405578;458411069;377890443;113404964;533890944;180664584;9349112];
  [403425489;492202956;493695020;351946135;307074054;34196544;199928714;383294885;15860920];
  [460908829;416046980;141411281;409109384;420903629;349225951;32240568;62173188;1718020];
  [163101566;536572749;223333422;281285126;528332025;149319003;309507172;108162722;278063];
  [194932634;76429250;376477635;253205208;535990172;140758467;379522028;12084150;6185783];
  [112513721;121486002;113713259;318314019;339872730;130000603;379230126;462797356;994516];
  [131966792;129828201;178204662;462415766;288266904;243333024;279280042;165913642;3717999];
  [486183578;417374195;75326777;116746401;397946154;497639819;278185036;431757945;16328000];
  [489699279;28059971;8628249;17982872;274443575;400256717;141233333;242272571;11729551];
  [522627412;353206556;29178846;243938420;461873545;14553535;451791806;514606836;12501262];
  [299502892;467644632;149751634;268706022;100884827;451368350;534013688;214228427;15644285];
  [103903884;350857866;116171987;461957946;345377834;139665792;342055389;1124503;473619];
  [482992744;238058227;329323456;273162003;190041942;370701862;117274215;303919430;15290986];
  [41671534;172559439;61945680;6293955;222374546;502275121;426469995;392583016;13775818];
  [139497958;308876252;147970657;72209501;135472252;370310747;53856877;446176146;15788667];
  [50742878;402649636;140248443;37188827;196727653;143054971;506414662;238451143;7676004];
  [494076984;76133718;289985762;366356928;193819978;358921242;89146445;359195253;2443647];
  [74280418;483402832;446330535;35490916;275954962;58813846;408008540;436855587;976711];
  [120234346;123014441;252722652;190987537;419043556;364008990;161086382;107167649;3275608];
  [234042526;403478744;408343648;229876945;492129475;116155054;190117578;524283645;9563177];
  [93600016;434553128;533607938;130753517;460117805;341987491;98830688;502143636;14150894];
  [368076393;474188496;263247317;294893487;498687647;489074209;370915039;416003891;1074611];
  [136109853;483672797;107473047;364269981;211152816;424893355;460136165;53477862;13910881];
  [318929981;292964532;91858100;211052146;417655353;189177968;490136056;514114251;2477290];
  [255013198;47138119;140016473;418241383;26057531;344850144;372389276;376725491;7132959];
  [362810077;370125822;176047968;188646351;71322496;69642826;267689855;136817035;11826816];
  [387731057;462113578;266105239;278558800;236325826;62405565;314321980;473127538;5173462];
  [413676147;252824146;440030249;7321862;251453242;211704520;463522124;100485430;1245027];
  [118785529;287562697;515853812;230518799;166841711;427208944;346290076;374001667;8184096];
  [209374313;479012270;427183645;481992160;80193021;201624584;95249296;298613913;4307420];
  [398379483;267183947;274567998;405014650;146700308;440088881;533496282;447710592;6790629];
  [533793057;351488774;302171883;403522991;434033868;237818428;442061673;35602681;12796592];
  [428889678;141707997;13426045;250499155;527601066;291007633;95941714;523282546;1018882];
  [219546127;213198655;219273754;250241948;132483594;246871747;287684347;375859763;2055879];
  [306622288;210311630;247573722;233755547;515659974;10951651;131743284;195661913;5614485];
  [138023138;72156614;387230701;260915398;398845913;41206330;124337042;377259417;7816624];
  [51649989;75968566;50322446;448415468;396299840;258991294;266071544;395685302;15979412];
  [309366303;215710265;416248934;483459788;150782978;230314601;473762579;174298973;13163407];
  [67199563;22738245;265227710;453200608;80139091;273323585;193369162;490921757;16252623];
  [209968440;385686878;394364172;322742718;179140013;228882203;372455562;337925119;16531538];
  [222832004;223789657;111178887;287946751;209883083;246086970;421032095;381944613;1228968];
  [128026613;494001779;44380086;464395186;19050338;525955051;414624011;119386215;3278254];
  [265384937;241498331;212365679;365583100;106336233;323086332;77305964;511481694;10048961];
  [330883343;482524463;142864790;111837810;388045471;368694425;83098065;34136628;1162313];
  [410560175;320768015;103150990;521904518;51291852;378549574;62307901;450144263;9105959];
  [115084255;167809049;413174643;396302649;491104090;286581610;263695134;191884876;8417986];
  [248269360;163739732;317665215;379650127;460003733;515626491;390418966;108870072;15806989];
  [383004328;135935758;505175352;176901626;259876869;293650331;122141003;483167720;1775503];
  [285799110;478943057;106006820;429254975;506081285;345974268;17667808;46110511;16402801];
  [490621830;362670557;188253087;251208632;460428916;510232802;211808844;3394235;15692972];
  [350479213;383978567;338286772;279021284;242356358;177339430;79091032;185621708;4384905];
  [82568090;486567331;322104693;441937666;533669914;142056368;433003856;416901188;5259903];
  [278467527;309727831;420429471;443924477;201089656;341567277;107065643;6053687;13025853];
  [132241551;8708442;135622992;498235295;155670907;77848204;429481560;128434236;4240580];
  [463945589;219070842;185953580;44428602;244447299;484722653;268593962;526590699;5238388];
  [414962351;249420302;260013995;496818559;431857540;1683582;42071535;511649461;4238252];
  [176228042;80030316;56895199;51253936;78890794;92289476;371242926;398868657;13292328];
  [264899791;530755386;56422628;55807846;31185653;61106900;276325083;487813058;11183577];
  [391286554;429185519;229880729;17540640;153493800;417990674;508334247;237659209;14163668];
  [72674537;173911224;71127127;144834494;31582425;137386589;237633321;463645273;2927077];
  [287407262;88993017;245962466;36154750;412083853;525376581;192493368;329650000;13046617];
  [194323755;462714732;460827438;419401942;428230858;322333956;416715785;169064379;9972148];
  [123345423;40350556;286371533;461666584;106758849;10749526;87800523;136346163;6107957];
  [34770005;371718762;502551106;157043446;390740390;45373215;399901981;265161324;132493];
  [371703798;144541217;364760139;228057489;146598057;284551839;448025674;387468738;3996004];
  [12477246;357728393;58009281;203730366;303227390;407242511;436435785;293975992;950114];
  [4527258;105983713;434854656;146417861;9095968;289109257;250654901;228173337;14074293];
  [299577597;529438251;428052697;200468788;159313092;506107169;30859934;251705374;3433610];
  [177650936;453444485;152269366;13531666;309281854;169882315;17148982;340947075;16465414];
  [99805608;318921570;60890039;108342020;66091804;233020522;515912192;457473748;7122493];
  [262820905;99354557;382051845;161595022;479275327;107348748;340502978;304068567;16165759];
  [240125991;354114887;535512427;152867954;462712280;516293274;463278778;476067736;11714174];
  [289535905;88709353;471709363;500155294;387508764;238723926;151943241;447564676;2284148];
  [46410118;197665259;194605406;299060802;234830295;245064515;153938575;108160187;2817331];
  [218482283;365343222;433245520;265550011;171962505;269823753;77347071;283043180;13499713];
  [524854169;528925880;251788623;201749189;497614862;442784071;352003314;349483731;10126310];
  [237493193;283561121;229495776;79852121;38197390;434968899;50411963;40840390;9475538];
  [92140360;500557241;54410364;382825123;117021235;146929069;186704846;457881698;1056199];
  [258826629;40089907;436739255;206615467;532578057;272604149;212254787;99988037;6444499];
  [434826107;308198593;30473420;153590434;294181339;139376293;298057951;190036658;4864965];
  [218112184;188036174;317764147;529838801;85106726;424696664;522129860;527348557;12911107];
  [402979100;6547501;303369077;330986717;387270882;362836209;251989476;358504891;12456641];
  [74952397;75658;242595583;91829928;503289518;212006383;78148519;297910232;1455129];
  [513345710;414842699;111563765;146469328;147666055;450133504;312247728;205921528;6116120];
  [99488398;471817665;512088969;524422923;32160778;334032675;7311597;220385093;8981208];
  [250436107;278511185;524961045;486125224;373831142;257321231;199299336;171805172;1101607];
  [317676403;398833540;516407296;24698770;428325670;173104208;371106755;293033856;13285054];
  [489932267;337343905;322903417;368237775;427527076;317532105;134819446;2689494;4598283];
  [404767186;157297821;203140551;495218589;409090717;157183783;480389760;307951126;6051845];
  [298740294;147265474;150478216;220280676;523273830;353400775;440310216;311938171;9755272];
  [536582331;105977589;162870488;372746768;41414262;291772175;379082193;45663608;12996374];
  [182252383;361960061;131923918;85109848;89808969;318068745;534898189;39000831;184955];
  [5768255;242123952;65285312;284423257;526276508;69556903;222995430;134457111;5070743];
  [363694377;461929138;365750364;397429245;262581259;316290182;533707119;204356707;7129403];
  [128433529;262207153;331888293;168690129;453169474;369431347;41940304;246957231;12951702];
  [233614351;30283983;448283204;379121961;130441721;244829440;260433388;361026586;2716582];
  [480972228;308994599;341030078;487880153;66586057;28304039;67621624;326845376;11014343];
  [440175856;165283026;473725055;294913638;272598646;83040428;283853615;73893926;13602466];
  [178914865;455449158;98383345;148483960;338219787;234634653;407119586;159075658;12201175];
  [158801777;36756155;216152732;355017360;214376888;515668282;152451025;27854668;7124040];
  [237257430;377588809;387697725;87272379;388271372;372618401;53053484;421861082;7206394];
  [240098126;280304182;217787788;286205882;325771672;98909356;121917828;72323523;3628730];
  [409270853;515255966;65128024;11093505;255090291;189231340;402399528;262199708;15914320];
  [192906085;308951801;242481563;327935512;74934668;292071986;405366654;471755012;15770235];
  [195402632;170006337;409688825;409537124;87290115;43070983;80789448;289055717;13656387];
  [351935577;58528810;526078258;329626598;201841822;87587601;167564674;175531342;1595452];
  [445185929;20259732;22169490;206979481;268176730;428791275;261037943;481276712;1160082];
  [72094481;236574893;225423145;47100880;379376052;488345293;211888127;421652147;3370987];
  [21688905;314878695;58548047;310820592;202342178;78959;334356220;224465406;11171742];
  [517917956;57020914;180113326;388802739;150288829;157723640;403759926;67458709;4831044];
  [421334349;41731736;457747042;287758322;355283084;171761006;27569493;416330010;11870391];
  [189651337;426904948;232154141;205595896;363587133;185831616;382716563;49641758;14850571];
  [240900546;1225470;417423305;364449723;13923769;327848967;391743159;363279422;9771976];
  [204003072;444032142;422248128;272178830;372814076;118084894;236293648;130332147;13589446];
  [62472029;227884997;94774012;62234514;297271949;405161783;177538271;161831156;13692935];
  [345214870;300799884;366595905;166400971;59219879;128844913;239383826;277724525;14708938];
  [387101291;433745530;299975960;126565366;384749591;313683031;400813313;250843859;10368137];
  [344365603;277199169;330180612;66948284;517413253;464033075;431920149;317016185;13040148];
  [99577878;332643722;19716600;473749032;266186019;257095866;123414545;511634772;3563516];
  [312756607;406623052;201879082;27546401;519671474;310776108;462567997;294954323;1396231];
  [424286562;355204445;27688666;239666871;441298716;395649076;461528479;533600627;7404598];
  [449810001;258315751;387673136;103614370;59373679;378465655;243657750;403882038;16355785];
  [470964452;436628657;456866190;42151857;424980750;223441536;448358783;274710627;7661118];
  [51334520;247911507;229809956;26639970;495802453;33621655;508362959;124724023;405136];
  [253262180;438028944;458870035;178061952;198848207;254740565;375476272;425657217;1977576];
  [342280933;462845516;98302950;294241668;457641117;459484447;66250387;440750532;1956534];
  [121181389;109201458;404099316;24980015;20052077;313594387;3055619;292148819;3074028];
  [368353253;93362887;268560278;513688655;289669057;66016356;321106371;264591919;16579491];
  [206276058;368057651;459365414;231889576;80816890;416369906;113433603;151500456;10380133];
  [207494305;404230927;341758085;45242689;128644865;294902456;508366884;25224112;11533651];
  [310214208;29786201;502815599;130333620;106304609;333872317;7672777;261688634;6171048];
  [259411202;24766661;107776882;41684870;157366966;182203287;255425301;423222230;9809829];
  [314915843;76336102;22429839;188769732;353414759;390577243;120799714;463632054;4736704];
  [370218837;446524467;324346142;437977746;179168932;113844310;342935251;377072291;12811455];
  [23976046;530947780;409783063;353544118;332765564;520828394;366978511;457128057;8769236];
  [450273593;372568206;249424021;464716028;294045836;354585675;211643503;456056690;16254312];
  [247612909;422124800;57368096;107306332;80963636;380994765;278710276;488192918;1412166];
  [42336073;443705276;25332011;340624414;310901483;422075478;270799864;451907522;10205045];
  [526933873;406163365;9579318;225389595;459932821;82987410;433744560;408266465;9063623];
  [208611124;25905602;57752140;100029131;162401058;105160876;372125705;483773891;16055408];
  [514036642;24436887;498962982;59549185;167331245;204146756;47089656;214876249;14048420];
  [141928877;186970531;520194772;198405809;236037714;261351460;373193430;438836884;6412099];
  [183235453;304361126;248545847;321423351;457539300;428722323;482576028;38924853;2649212];
  [198373338;411129283;435243610;290051960;482456591;515791948;174054205;153857963;16196313];
  [17669665;282213581;493982456;194493364;82908618;481035301;509868906;449791687;3673995];
  [409523570;495842712;191253432;220854700;499119096;407706373;153545121;517535196;16034074];
  [258398337;261271099;207451762;83113287;77282705;53284595;89091646;78181984;5604424];
  [36432027;62392762;214312646;465641446;513204379;457620216;383022387;524324058;15732396];
  [92712014;391852042;152484031;63674070;320979615;233705187;77723231;341456149;9388331];
  [235870840;68040093;190091451;130889961;87125162;129611277;519178394;532332006;9641251];
  [411327643;497421118;492036663;67806429;267212781;31911222;440099542;130675483;3896052];
  [428502323;37572933;356915416;253004802;499495219;24503141;378222157;501587609;10657970];
  [192456902;40064014;360652603;158497889;97436158;339735916;517149083;165246129;16205322];
  [467486052;135496166;387732802;478184688;283410222;78144058;383592782;13696334;10184812];
  [215351775;506638684;334674173;208262018;374635460;308780986;151947591;17984128;3361848];
  [949517;246304857;521004935;275440479;103431567;506941250;124796758;433084604;5042976]]%uint63.
Definition og_ly : list int := [82782071;499219320;514521496;278359730;259354670;33683703;241863020;286993287;12043557]%uint63.
Definition oq_y : Z := 75721937614091691238162328473357034508034672865551268937965426940728427831662.
Definition oq_c : list (list int) := [
  [227367430;527821652;83341002;63155037;63560634;126236363;179615073;505007459;2503991];
  [126063948;428896091;262684722;349805008;462683084;62642520;300509619;175858148;11050521];
  [262273655;124729400;97128001;144917702;146591715;32263073;214517703;102575819;16321917];
  [298120053;371454952;445102757;137389023;196595543;418818003;368115969;71787126;571324];
  [427522056;320500731;1795132;202842832;218590508;237421292;389979539;405770657;14225818];
  [502457967;485071580;32970805;455077894;329632618;425111350;67643080;169198141;14233204];
  [498598410;175988298;58261599;101539808;306660245;339642055;452460978;192753092;1402500];
  [459253399;415474592;209401121;356149824;301336905;63755459;11057022;232132849;15915943];
  [228973377;535292054;444565731;238039851;522009042;10763607;135494555;401118346;9340492];
  [367184152;446039047;52998979;269403391;239659972;529321457;405594428;463335243;45637];
  [460073008;462925782;4041892;3675074;476444715;69955715;449781765;25546736;13261479];
  [520908782;190716316;309589046;355836226;62845779;319295751;237827949;94714335;3661735];
  [465918879;354068174;123964473;165524214;51159926;117260724;78678428;115507895;3844729];
  [273418309;240442827;224115716;527183668;296276054;262044458;231025280;160535369;4231779];
  [528798942;408339114;458212349;133225538;27060317;162633677;436865561;474714336;491327];
  [264801538;21879209;397870153;487195823;139194987;529910347;483897997;151684894;7802569];
  [150833750;151889106;289309106;483062834;275123460;407713258;152117464;18626639;7462088];
  [272504915;368592923;154895873;456785902;101168716;8309439;55252356;101488915;12867353];
  [323461436;13787166;277966773;436115467;402694668;88755062;12943505;494374411;9444712];
  [12532780;339800274;523779076;525835156;242154928;449446534;185596970;474488466;15893303];
  [393591956;80425350;114570112;535101930;90791360;322364368;200593322;70953886;1744247];
  [461133297;260677620;457057645;162147024;244766053;221540736;448704783;306685817;13124501];
  [376175150;403821991;129429920;522472929;282429772;240069161;84833127;161056491;1117190];
  [197657931;71249789;378220387;290993946;120775564;361953158;37616964;362677110;5464707];
  [199237710;402703083;460775976;298984336;18967608;85478027;518581820;300839527;13497638];
  [327423691;88674653;95392310;435446347;256595704;226853011;65919522;411471683;6197913];
  [179415181;184569007;291910685;21820584;436986592;175833645;462232643;203082272;15212511];
  [106080526;93989371;297006167;443686258;350323160;37374743;402241345;312907400;14062524];
  [457997492;73129968;495858588;478497376;170288282;378363611;21123424;37081866;6866716];
  [136277402;357087089;38922572;427031672;105013749;119409330;245169044;363687192;9243542];
  [363030201;383318337;530116684;48248285;532691415;410181898;372965789;205901690;11289917];
  [20578793;128468919;422856403;366306915;196509446;426781115;263971947;14685127;13333177];
  [334262850;12364213;279800548;227788025;325696831;242315579;320655301;101792189;6014567];
  [266398749;33632399;154712555;444301223;58692346;410747665;143495518;243306452;16650452];
  [238171557;109260365;481829603;114388425;14747885;79594085;51892631;536264844;757136];
  [300787849;305541453;238057400;441604855;422433093;461574303;508988107;367504675;14644925];
  [179048506;8083824;115520932;183252023;276754740;447650382;305449937;247002232;13036628];
  [126569376;305876086;149907204;405604717;171973053;382725646;274800849;477649209;9486801];
  [2274815;357596520;44452161;456219282;534180835;195374956;469941275;381443925;6128704];
  [474684460;442329467;530118383;250907686;460291080;301570615;214271040;2137982;5988009];
  [513494704;384434068;614661;375952691;451652677;184543293;326392597;160099949;5626824];
  [446942380;191144662;516317840;163119656;278076462;529178685;195081688;201538099;8828421];
  [196893192;5503001;289806442;361141623;132437997;146832703;156758029;38648817;10619805];
  [85502790;33773456;192150930;399285255;245481851;201924163;42251556;424031241;8823215];
  [317426816;408379978;210912483;17971443;137676937;256604272;39341977;315984488;16344296];
  [18385594;477188245;524116053;469595560;235342151;295577567;461703703;172041316;8472614];
  [327634948;288416052;355464218;117754573;199688677;40666681;198496373;368526977;15210926];
  [21280932;119243335;375715028;455295964;168499447;426991993;251347796;348819629;7508529];
  [157923021;305999959;290697763;420384421;270543458;421226073;401766193;277023844;11057047];
  [490510678;429969866;214168674;367697332;92036040;143503246;471992155;123467118;1122581];
  [472661905;282507646;54851935;398160499;511695876;351867959;256869477;501102426;11008101];
  [335436484;172266424;532716842;241895367;73530336;221386422;259965396;245465017;2311393];
  [372030199;226983552;378338464;517894482;281980956;348278205;403120963;92503988;8939538];
  [150145510;200564300;214981818;13407455;150957200;7483768;29973259;61165991;8989591];
  [376203037;311016394;221751300;526280295;374825860;62575713;43813662;373583511;15954751];
  [526280016;87039828;23523542;517193268;32452053;149856163;434578367;5112675;11595732];
  [472115957;292865955;158054881;123584318;243590171;252854563;339195778;451328930;6391411];
  [206561510;124348229;268289191;435144019;269252421;165583217;57925009;438884046;16680354];
  [134458804;19467085;132578384;96420958;338760188;372596763;346833157;510438078;16560359];
  [521759329;82925489;42683333;137557407;460876769;319205325;465368038;353963906;9471758];
  [158739977;116301583;46125551;59762121;179494315;424947455;451388083;426702283;16474982];
  [302120407;518226045;524354334;123952937;251004502;337136879;140291749;191278215;14266696];
  [155417815;120745619;230528384;448352755;174149564;316485073;308650028;500796331;4723535];
  [420468624;379756763;394644733;329467320;451588617;297622569;436407213;145259077;11813273];
  [237556253;498874336;290347046;154310097;282978600;436471319;149457566;177973861;14925525];
  [30322267;449606222;527082262;65975410;183243618;426242837;453266507;467057566;12001622];
  [60789757;24314231;494162406;151604532;47571014;254168918;39149337;374529114;11893774];
  [364191269;423615057;22317549;358336093;163197020;159104129;414312951;511484453;14728749];
  [267984069;516919960;197937821;397103165;128350464;330442166;354861331;465233735;15418323];
  [339595780;467158524;77571549;143474306;320021264;193285488;389836579;20897851;1472981];
  [19811125;404788612;390079887;453733326;465871270;228750893;305648388;175917977;12741142];
  [198631715;438424935;459096632;87665964;447480429;182058530;232296226;186282583;11362901];
  [256913956;180047191;400697562;185283477;508843614;333472691;339963422;439560811;9825034];
  [374240631;317101403;497377191;247254600;481668142;520641740;499968921;60601183;1913367];
  [388926509;172563025;37615820;15544597;393053720;370064736;273187401;497065650;7231612];
  [208579342;188053568;440310439;364355252;449889375;179970151;137985445;413256937;2435263];
  [254481825;44637984;109764288;518217431;432711105;272277106;358597120;294882766;733344];
  [514760599;384137342;16344919;62222222;121274069;529101305;307928882;203450426;1842344];
  [272364855;339697079;387173528;116818082;48324122;86380179;410487603;13246467;10680885];
  [269369755;535881541;380857517;153867783;77161000;38125550;372099417;178203945;13238345];
  [279365483;323770533;359435605;499881042;139192474;414989284;404611298;167370363;15142951];
  [325548051;436639695;185307562;5741182;189516192;164438203;478954273;479350324;2796961];
  [40781330;484381549;308681982;287328001;393178179;170938192;467344509;324862773;14839355];
  [323821917;21748364;210272691;359523257;137183343;290904002;485382188;191806318;13557682];
  [265220063;347873679;502943862;435505984;374626307;22782442;167184589;279467826;12259213];
  [484114709;319162016;361164960;327154964;296276267;119287578;377888514;506173932;2811239];
  [117175078;382117132;335380170;102095488;478462625;280689509;225304693;245054887;3139455];
  [462029673;223437527;522253661;347894640;137545282;319760612;296094381;417073851;5614575];
  [361862735;284212511;341483273;142751074;89598808;510525830;40108173;84841186;2396006];
  [44193383;410146471;160284736;24236036;505334359;146544686;12007086;73436240;6537155];
  [418123187;132100858;168581242;308512766;280174633;394072378;379034225;278690527;8379570];
  [468085114;282225949;50509757;289639315;351084068;123075471;118729696;212950360;371152];
  [261644639;282726041;284746700;240977286;403303818;114961581;7380645;400012384;10902104];
  [512862013;18682118;485219768;298616680;16851182;124305907;246147103;61373686;7660550];
  [155078489;167316296;38859089;251535955;187593177;366690927;417242322;496235527;11405583];
  [425229083;256556549;470217525;73037386;163719146;440091610;420620122;376781079;9910259];
  [251250420;509355522;146508500;527250043;184966942;288206899;227198583;442515888;10426409];
  [299417635;520392721;69157456;312761049;72908479;409269750;519678223;150451773;9436515];
  [396404918;341668102;6176289;281800923;46058541;16514696;358942841;100427766;854806];
  [220606186;464875161;532854260;112572901;173731422;285539462;476166150;462134911;7676350];
  [399451109;188835715;355150465;344309151;292981156;211067354;390297192;433582879;9464514];
  [251773446;94539876;471404071;90008898;293446132;234701633;402788070;147277635;8742183];
  [178130133;182978125;44183883;150762294;155371221;117321523;286228598;167099634;5125198];
  [264994314;397196213;118261108;358328637;445190986;72826425;102341949;280915547;15953358];
  [389962603;152285407;474999352;411423811;496379499;301163486;201078212;247927492;13985588];
  [383802688;315230915;477387127;134473492;163613956;497415335;142942410;42997395;16342399];
  [416357220;125335066;121914270;61077475;346070261;335089289;120202359;327620170;2699070];
  [461331838;103671286;73397483;245187202;464626896;152636062;431123620;372221518;8675796];
  [67730855;326672802;38883275;181908680;396336660;31509013;37678079;192287478;679644];
  [245075161;294296168;528938268;292493142;306100122;415224350;174872260;192296776;2553468];
  [53144806;392458385;102704267;97540937;243799756;501072265;14933618;305987300;3574599];
  [513794810;350000049;447495287;3214539;191031153;525991523;345304966;110862833;7891316];
  [238997280;346184942;353666414;100261807;423638417;476057327;532084682;344387511;6697784];
  [43652967;35760942;34425821;50910660;431392310;201418561;525503425;159799761;16141646];
  [108570464;266446059;152129634;402149575;513204749;365853739;51530940;456667144;13760609];
  [201024531;397321066;355057791;220307129;474809156;261395584;137029320;47669667;718313];
  [280330689;403675998;473093667;488999830;267078320;171668708;159241556;102434820;1630071];
  [416581200;261911160;183688526;511812260;519378155;269232065;97178484;479427623;3722630];
  [96845637;164312710;254883014;121244276;427285578;213803164;198402954;355630952;3236626];
  [511355050;396307544;249187847;357009766;110727087;408707597;42293828;475369147;15186738];
  [72359485;225756500;68542804;300044096;389533249;359690214;348598589;169461444;13257411];
  [396494439;244630290;363309619;204699298;499221675;190218604;215260299;29203751;3469370];
  [344077386;195215526;463645054;189190789;459391443;93827813;169278669;393290344;5045643];
  [486537541;191630802;310995734;411869639;275545527;112715817;10219207;3290292;11640287];
  [385700979;354062419;150545951;57575977;506091138;505608025;500896698;205008652;10439068];
  [458242017;502364541;489032908;297398770;534823717;391157287;276396472;32695138;12132163];
  [287562652;137570439;234446708;73523992;488412543;195659472;55231634;441411409;14888087];
  [149342469;204834886;158769575;340000434;108770983;503311040;258676959;527020643;14403576];
  [492997376;451689221;80987444;478412557;382730937;489133767;153060854;447424003;10855289];
  [106397536;372178019;137618475;268818192;120139880;255545174;346085900;477816684;5517670];
  [491901216;278417409;217677235;196234990;405945359;98450794;88420376;435162259;4925532];
  [38382970;226644185;58093949;234345163;341683832;139088336;448872758;216322063;14595736];
  [128663703;390280601;274179314;381810290;339475004;399886706;102743468;462606628;13050721];
  [256134659;317883521;257142171;306048235;139539796;512881512;93373344;510312256;3985539];
  [90463498;347737969;226698954;409626718;522169694;31919987;266178472;515042668;6330011];
  [201987848;150852749;199327832;348206863;260604226;165053313;439169828;41396963;10126375];
  [232549542;294313051;476663101;389272526;217618706;395374435;91925601;211298704;3171843];
  [399779392;266537502;130553620;437424642;137744803;202018008;337932811;362532657;15157670];
  [143420587;179865796;363462565;175794981;241091903;138353991;27304397;115514314;12351325];
  [255139146;61170651;290210491;109651619;512754440;137386769;520794850;84122394;6774763];
  [310794841;13380057;88679443;472899418;500002133;459602835;228151472;209734132;2597124];
  [468706740;194731840;344324950;283795282;536617148;534666321;258356918;226206100;2939089];
  [536819888;27610509;220702999;134221026;385663976;360287115;423483699;211637406;8333752];
  [196378446;426601595;49674105;358149729;447687859;370835404;445340416;96409154;4380774];
  [83898199;51962862;158437009;53235025;447195690;318106176;102004917;108673938;7062897];
  [290170328;437815660;254187102;188318687;250206800;226712069;395381180;252973053;6861918];
  [529235978;130315699;440251526;421885923;33380421;433709685;159792460;287247047;13961179];
  [459628464;518858474;193216391;192668084;15381352;136394098;535179068;300623170;12949266];
  [185761807;461081393;62919179;359431150;351037655;17774273;410208600;530425751;368173];
  [83636778;46277464;19794175;404119906;68155672;391052726;60375159;27248166;12990706];
  [528013744;397366602;93699182;190274011;5322587;221598805;202956046;368542601;6055472];
  [421880755;107461440;367108911;476677935;247009637;349554184;94779670;436436018;10324095];
  [151277453;21740928;152517389;397021421;92606596;282914754;336246409;319332021;2468172];
  [425184418;108687991;406363144;111621835;33297503;536777813;291662651;395260367;13488347];
  [275587095;447047319;117419393;145090458;36615930;34092446;397131946;207321303;12624019];
  [462631558;39232102;535697859;418643231;320566807;197230664;227023245;226130387;15369776];
  [436928533;478632373;9243541;403928950;203044431;451376282;138165539;378139190;159351];
  [507282867;447309844;311017441;171536750;193275544;355303092;417656736;439896324;1336343];
  [191199225;200363256;282107979;440297565;334539419;110722550;114842177;67946350;10108593];
  [500735067;415174369;447261900;101997240;60026444;90931379;333888788;184388299;4094190];
  [385311486;330781439;70901637;518688020;468646596;368589992;259229702;47865611;1735577];
  [436254154;342602997;100643368;193712238;151534038;476816808;63777089;296967182;11974904];
  [325934972;165581775;393684102;286684317;95932168;210073418;138864856;534751380;9561047];
  [440701808;520323976;533978084;317871427;30807941;176791919;458956802;150700540;1248379];
  [174746772;441104537;52477659;534699968;453516243;526652497;123045653;416206965;11848777];
  [358177848;385944528;448386946;265360682;349015905;477069018;460917121;400958096;15250084];
  [64227720;312157210;336262648;466345615;13148795;110667987;26756789;224332220;819000];
  [286097384;453777878;60666123;450701249;77423828;407861714;391683973;314886839;8959888];
  [527672615;315803649;424521743;123891098;274697394;36922488;482518145;503598119;16054390];
  [119735789;291671055;23565203;106866844;24931987;473932571;173382955;39247087;5322088];
  [160685067;508318920;211084740;64029605;133773387;345611564;449151064;526209692;4923461];
  [528308204;414099061;214673907;320518993;348964546;233552077;347832698;266580333;8538668];
  [265227974;377343243;378124395;470000044;35141091;430223894;178102692;162900142;14140469];
  [214868353;453721531;356206177;127294699;43058234;469385231;59121636;25761496;10706542];
  [114006339;334378124;14780194;43302493;101189940;306632507;98221167;24669251;3291684];
  [372496472;521252059;219454626;251452851;269391152;452451057;439119524;24036267;3549714];
  [38130820;387123334;390165054;443644844;446939393;317876017;318420248;529994874;14544311];
  [454826119;396451332;470103250;297301440;468381732;468460795;62008302;231741388;5283231];
  [491688618;186013209;251528134;432330896;493895129;255391947;310942725;166133846;15105405];
  [75848809;266076886;308934263;404322420;454879034;77911413;207864026;63137329;15985871];
  [88289415;395644597;434743044;453022886;14412633;153677104;440525360;433610815;7516489];
  [498248104;488467962;336819307;206480878;405746553;208149499;111741721;51142480;11351354];
  [337178195;413692769;478033949;381082849;186558660;269029183;102140457;73480404;1248452];
  [273726081;534563215;293959761;429732719;535047992;176143854;324138496;362537729;12678155];
  [441790195;500552161;99337815;533903173;513316130;451096609;434236917;109256606;4348411];
  [511977384;75204490;239009831;152238984;6561555;294515171;459635160;358601311;8891081];
  [192876031;366448939;283696958;390747546;134495703;72190;138298240;479326148;7435055];
  [498247089;526675601;19294350;318861090;348798788;234327502;349643235;158661333;13328692];
  [89010522;333424797;477443368;505424107;421759491;39119907;277649698;511596673;9897024];
  [248386503;483243621;370236824;420406021;122427570;217169128;22121920;264329584;1640207];
  [5069052;401744687;88275846;249382990;497608160;185160501;55223449;137963574;8915498];
  [31115278;383175688;415870730;304785425;125113461;328857066;63943043;401040949;16047761];
  [106071310;447092096;144249192;268112116;364354806;141351485;19690035;325049515;10854518];
  [463229522;407997484;255749585;104869932;245151624;426209224;114488419;335037520;8999801];
  [28228875;383694402;369340048;198276737;276357748;160593303;130380259;465108993;12866133];
  [208124181;219462263;469760903;224040852;486039841;387621589;275669274;89173119;12537119];
  [84818124;271513579;450700942;259649853;43451275;75728000;523734996;80560315;10510580];
  [477576285;183244901;129731230;495357838;298171195;223970985;124723690;354939335;4830845];
  [267525136;492345095;387834340;536267213;262129797;41089131;227595376;328458322;11459995];
  [58107470;137417606;246913883;146729611;336513469;71140507;340270074;364449731;12394596];
  [340238551;295792500;115769715;27966111;387986567;8065476;154529806;324610787;3386438];
  [346722666;109242756;239954513;477737256;529068002;457968203;427032723;158937039;11820094];
  [387082908;234997869;128598146;267195749;165412556;111397291;235192003;130250378;9811021];
  [347688657;204872345;191634742;492807694;502684294;426692968;117920785;225146114;6699112];
  [109071422;296957631;423237282;518243650;474204936;442630179;393295100;224211535;2021471];
  [488430855;148768201;70717463;522671059;467525247;188950012;482468326;190021391;3742277];
  [406060963;86352707;490518246;336079791;464303503;497953045;511352453;445705985;15837387];
  [447761708;460812534;176858359;306868006;435002376;269795095;182365357;84039560;6960320];
  [201992966;329311838;404890084;365378495;239489908;326963477;364574913;172855176;7866777];
  [257554548;499056827;363881128;6851563;191610794;220220223;111412272;295109743;623074];
  [407969322;136835150;191195422;49346735;84371356;184834728;112455119;506346388;13497847];
  [182324779;243478974;523702976;464681693;381574798;452047457;367156705;429539675;6291884];
  [480477320;392372367;379987872;160616072;84565021;201469077;47070907;21407035;12399395];
  [497273550;321136518;200693958;34451952;414928470;135068684;331207458;323113406;16087671];
  [376269802;506500761;20433629;157280738;141948866;214361443;123987710;358753165;13203273];
  [432573791;194225065;10237336;505930579;1976806;6682479;368927334;154049710;10519252];
  [246594533;280322337;228784792;124164339;250378797;73536559;229783532;249863040;427963];
  [394321350;334036008;516148508;141459345;478308990;407628934;118106891;95140057;16193395];
  [8647727;438929662;63753403;10424201;199491208;383243551;72674052;91233518;6642358];
  [373627109;357250167;183206202;231485257;479570356;295390228;325327881;310777972;15880953];
  [138937069;91908057;50925737;220410632;379823665;290967137;300099477;276393743;5051973];
  [322424874;201137241;234779383;113130659;502064800;168631370;346860459;164436075;11756618];
  [404505312;406188775;133978447;332372487;361370088;262543377;379888412;170599221;15997485];
  [19033418;86425805;511683145;286124881;384039349;524252633;9976294;110110114;4139980];
  [120610147;135045553;163087349;501664649;133359779;38090125;248766561;172320306;13167497];
  [426216255;2274442;340597644;213618519;257611491;6073821;29215889;123341953;14422131];
  [369075603;442895381;291812967;378346507;382436883;494168316;393931466;333823802;5991937];
  [404366282;34719676;427472010;307254071;432043539;317453414;362473490;376613010;15166083];
  [258556288;313444917;71193812;472470290;160041187;158659804;316874273;230864196;7399447];
  [267535728;441091469;358464475;371892691;144873954;532340139;516918203;173057298;14493976];
  [342167163;352263886;323933283;348805950;214623412;390569381;140469105;231853193;12866200];
  [350205100;210449390;470267465;200079809;119293252;404342245;292555697;6639650;11130611];
  [167786076;468282144;297595653;350392916;28548414;412647540;288934356;263292514;1775266];
  [528858624;523300960;334561413;30021996;416598247;466330585;116093368;284412878;13177130];
  [383987562;425747612;489467309;190085935;415110034;6601853;274965014;32886058;8498112];
  [484637252;214242296;87811651;417829781;175852215;30064970;292775155;91370015;13695469];
  [154601990;522724192;26002472;341641673;222386042;198085506;392017569;132636648;2996295];
  [156403401;245020636;461969142;63376887;411741040;496731375;351152467;137203799;5113744];
  [270736442;527329840;339317694;39405662;231518499;162082768;296372410;17393714;9833728];
  [377502764;169473990;443595776;246654068;313389015;69553011;514090033;478073834;531592];
  [402916503;64199760;159175788;286382901;121225877;252195182;302352143;13729131;8766985];
  [536322610;362076060;535040416;151553705;171170092;18499312;474345502;515959417;12700277];
  [361021620;105008003;241525405;382408114;226240815;483456450;102238053;9724425;11486286];
  [209412034;169046667;489516602;267701530;135545960;390810102;88860512;131794852;529288];
  [186333981;230272911;365501603;139936619;448118466;337561678;73708603;381359311;14737492];
  [310737561;91663992;98377665;298328472;14060720;249197010;416421515;10190492;13429976];
  [508485022;246850846;271119625;40881381;349431748;427761308;118577232;404818749;5567045];
  [39295712;114350714;393752788;268423072;341947472;396471669;449124850;378032100;8378615];
  [15003555;53855247;395265501;386238843;362059075;78539778;34160737;292114996;2097836];
  [117472842;306138625;68161506;447666104;379312260;2496095;364988948;230115917;2866894];
  [28538325;247904793;170109145;55528709;295239960;276777336;535259006;151626680;1531514];
  [30132189;509231679;206697071;485199023;240373682;72392739;298813672;196849287;14276228];
  [6874646;378692377;161283421;375352556;335737333;227913444;233972486;4351307;13707611];
  [54309313;92690755;101322403;124883859;134097978;51785365;346996250;109197394;695935];
  [269666381;39818139;143664997;505728664;308755124;277305579;372689578;440002633;4447340];
  [454036439;491931342;296738308;479051413;392087818;29569234;387635640;512385647;12960534];
  [324947116;58819266;157279128;224302091;130589906;101289798;407339570;93923732;11005615];
  [524837655;366164364;18065769;73569590;485806239;516866390;357177590;41654714;12125441];
  [189759351;28433057;420629822;447729579;186584230;476771364;78877864;434036882;2581778];
  [108313163;248194393;210148863;502337693;206300203;142026545;64092626;284579033;2787725];
  [90907518;521185770;55780052;288298646;37759739;439018430;29032942;119620727;11666147];
  [301198261;8967093;124383486;411161652;423042000;531108079;21482563;95587176;8637574];
  [367220099;219570649;220742177;288039427;483266281;510708870;244717152;312117330;9408843];
  [105800718;429738245;276769930;432868787;307423883;524631678;398859574;392296193;1285773];
  [392054069;139900159;147568361;252746456;108032033;94583765;256051197;353888178;11676493];
  [261770961;145797492;158313799;73320464;333983012;113384071;236238196;471134452;7544868];
  [189831738;246155204;315570889;333164162;281054722;406295456;432019386;100811277;5509788];
  [355772660;494786031;530482231;94699182;465064894;501241574;346725456;403078260;14091540];
  [172520141;92350042;119118579;352333182;13447864;151040188;238770137;113335424;16591839];
  [31081173;138660275;373171076;448982742;355726194;421011050;218702456;9466037;5724088];
  [234118692;388351100;286057497;430502212;374121148;506354893;92300324;103932018;14509691];
  [108183178;465359583;79885506;67261251;162122026;447971431;496925732;54076953;7994120];
  [35129264;518711284;268324218;58189372;188977985;385577875;119383072;298474337;11528728];
  [325408242;197221176;450981002;191457254;360853135;323323956;438878271;430597539;7001535];
  [454645921;402167791;307473404;321400537;370847882;256527754;71048098;169437770;5902111];
  [35748476;473995691;395055218;503007364;229594682;278574871;188927711;479081536;6466919];
  [133080894;427349359;11244476;360768620;431375646;123144242;197692310;157353083;9212425];
  [413765843;83195724;479112451;173468807;152605466;258648869;128055717;314682811;2704738];
  [8061536;430295797;430798508;224313635;521868810;369298294;26920148;243641714;12929027];
  [308034139;263915339;489222733;184656730;465063306;443989555;484499714;263549579;12628339];
  [468107708;219988547;359315571;276060699;379964321;376579966;296326361;356203790;14251300];
  [301505168;143387876;104447205;431538246;450439402;390660025;64973677;471262735;8815954];
  [340264544;435764378;56587656;410017730;205213081;5310192;150852178;199404898;3701242];
  [244791645;445053205;232653013;183337609;288775619;126919077;30873940;526531088;3532005];
  [494924176;203120308;114852505;476662737;85907133;63052952;429307575;281827999;6926825];
  [453882337;104256258;379825982;308815412;106189810;355282904;36723285;33894265;10279554];
  [481743629;243028300;530128586;105723710;216836573;263787724;227792485;503930289;2830873];
  [187894187;162964914;242373641;472206900;347240558;464632097;272257240;288071329;11560382];
  [120516954;40074759;500140401;468334249;121117019;411918756;173280797;90174473;4032975];
  [263686129;467782561;41105937;72370856;222773661;37190827;329506275;160637571;4729033];
  [513293726;127339256;504325568;119092074;334141560;36088094;488372935;12598617;11701005];
  [412817363;439316561;367881452;238880220;249242613;323633347;118923708;98105121;6824519];
  [466040911;366799787;211107077;112462868;245423437;502781129;117171740;53813777;12372095];
  [439876921;285611372;139669649;227855631;508057395;536593931;423908009;144269727;2340253];
  [529578201;98271562;222118918;18015089;222891980;488968057;238124827;104259068;11141698];
  [165206110;274353381;440355426;2565256;337883825;115424866;171507107;223600193;9187004];
  [532243976;18784363;133041845;130204593;272772509;491943789;272953407;3520021;11500836];
  [374520249;388071681;145201382;150662414;213373751;33977045;326014275;39948004;10686519];
  [251830481;520231117;513060250;8325644;75467018;265349002;230833557;85863987;94304];
  [123888161;64104973;45495605;527754771;166057665;141365328;102506923;215858070;10510323];
  [162407298;206931085;391692019;341894170;529086037;129937753;51552113;338960832;13977363];
  [371618881;313790000;329729380;388037509;131572951;508895502;454348305;11949653;11815756];
  [332014449;186932282;263221205;361614297;162911153;401145412;216454979;192310197;14573845];
  [314382557;459438242;492369500;442551888;38690988;474861505;41652269;355419088;10886524];
  [73642122;155780248;129905645;349428680;220851116;461667293;221674744;168869442;137824];
  [151226240;143888094;452248842;458075191;101960189;40852122;235456306;463103961;12343355];
  [439334280;98081097;23129193;423774583;36987906;222718107;64936156;174672079;5662466];
  [70072419;243293628;283809538;124696594;184564458;246543747;98256823;177399945;5739935];
  [181442653;95229774;349544821;41486296;162777667;225379741;282833503;99281686;2524693];
  [304768855;263106990;445352211;432456134;101928562;251739952;292612736;479949341;3572623];
  [15157443;114882410;75645483;123924574;157278336;216476544;147355274;262602869;1569867];
  [104174054;399248584;79823082;148132735;333483551;313215034;210467059;497135254;11620475];
  [535175879;141517327;247936949;25331956;445482499;497581960;265540273;429359685;3958238];
  [105836711;71391248;60480224;503208276;475546784;7846362;76820003;4719497;12076743];
  [107395755;391370627;341841354;140300104;511434913;443752813;375953954;165132136;9589940];
  [336208534;228138611;192898925;278332632;302789738;435845296;499796633;253444762;4630631];
  [929500;496850504;377325451;277250793;350257934;494599305;510833325;289319183;4288257];
  [368845764;24140305;452825260;158292729;465209921;437606517;305703312;476875055;9123618];
  [278035029;483550796;40528627;50780517;124270898;137374253;334294364;364384145;16202005];
  [453845206;335203354;23606787;36491901;490223631;275415702;171525211;235904334;10098489];
  [342508339;76390146;102580205;120259937;495475119;149031052;522571063;142938885;7713141];
  [386675467;528552547;352822060;143546166;274748897;303125633;435529041;497390496;14582665];
  [516632002;410574257;306369259;489525851;528334688;26324763;59848469;49867140;14342646];
  [73535983;243487134;430571796;239293881;426480606;414655101;402987272;234320575;4496236];
  [79781549;68782461;178785303;74300397;198086448;195350047;174651675;454157505;11254987];
  [72278056;208218368;368972198;33712207;491084085;13917268;452660868;451258878;6176856];
  [193004254;327365090;528939475;496692416;338086675;6206642;173872029;529108015;1904836];
  [422949956;335914203;410574154;120393367;130945680;187418593;192295293;339083309;398853];
  [52105095;716270;439081716;106466979;530198963;138637562;256386080;271142312;6828545];
  [420231291;2459900;287050354;185156611;102564576;232344007;127016496;457681938;6205469];
  [454957275;147219183;300971885;381949537;455947384;123544681;229628320;171195639;6271237];
  [24595676;266293524;384885279;323445730;144536054;425104067;328819204;123868251;5510620];
  [525633041;472032293;324973130;518924799;504361444;92717406;48258313;185113516;14667172];
  [438365643;525480820;335882674;473831393;319686753;136875371;317129395;12818866;5386764];
  [531326632;166790800;150332184;47492071;86566539;295891467;57645543;225345210;10758133];
  [29364212;295740805;210333565;161545784;8782056;505739708;62482392;500508416;7266801];
  [399577427;422477518;393143170;264459398;125103550;313080547;323162490;136564495;1668283];
  [380001746;233753622;58769746;7839217;295218881;364922518;480429871;461317713;1351757];
  [499723625;83015208;273864884;225581649;448202537;132489092;444227907;416832919;16430091];
  [339231901;128563067;142681832;458021510;116020655;237920660;147174484;139295990;13220707];
  [449934539;323132374;135133187;170842219;523586121;383572683;100410269;29401958;15788370];
  [305721617;294874379;322251614;235098645;46693229;386326575;86626566;194486625;7323846];
  [21775855;161660477;472291475;274502937;360114670;273801672;469909726;535592832;14839366];
  [250797981;57067496;518583715;351010076;238629388;111945195;403073199;235520476;15012741];
  [354824641;498748385;406022071;243530193;129758346;228299731;153486683;343428452;3672791];
  [195562176;358682486;264137930;357771218;358647141;522570233;516810695;145707480;1273928];
  [407691920;344420963;78604982;323676797;107890206;252828746;45811831;222284559;187512];
  [400896950;72525183;131451445;127393159;234000553;187919492;318063956;524389186;2471428];
  [27888213;521124130;343642259;188568774;408726668;423010633;4444491;472559999;1954129];
  [11126081;310530706;338301861;272344551;465924323;395340310;257049724;451516497;16345690];
  [399678468;307354482;372478335;454961854;118036251;414159284;23156889;120560091;10391932];
  [1083902;323370920;2822858;312794169;124448305;239445873;413386952;412099365;4231457];
  [388193059;348520418;245825981;178971504;491398806;457509835;359420497;147664229;11343537];
  [193843024;81738613;381891542;344031024;202477182;368204465;82461266;526520274;9823278];
  [462441521;384929593;214550177;111578468;203427491;46083712;94352755;474610844;3185997];
  [288224497;355640726;323235189;375066633;443842380;454369060;167267195;300676671;532659];
  [258238312;392725258;42540130;406047311;119418553;313644940;361968452;399629805;2750090];
  [136837537;215727396;254284997;324740834;229456033;86385865;471503225;250960421;10683424];
  [154731859;467334243;414362300;51258167;97524914;491405651;465281576;203993172;16654015];
  [522168931;476243132;154792500;376832096;533439815;335074217;511409059;472610750;12595195];
  [36893310;518224322;152415878;152492372;434136904;514526043;506008532;279241335;15022534];
  [265669814;446492281;375241106;257256457;206346162;252551267;518468950;517529892;255224];
  [268756818;420902266;252258331;196313956;499564508;437245605;314481066;209260001;1924711];
  [2517046;355810729;194683347;22743721;314122159;78076099;297421764;519166101;11551145];
  [297709927;211831798;158548162;367771642;130250764;506722420;146160775;337291384;7437038];
  [329047485;67750476;71203948;149836741;152085961;143489359;300992910;286272248;10985537];
  [187605830;94885712;353591090;463201199;363020460;338743615;171526259;327475191;7374242];
  [159712449;485230936;42369961;50227096;305549288;291605908;241044375;517222668;15222108];
  [108769256;111874089;28863261;91608675;274668824;485180035;84294831;309303010;6896443];
  [384428003;421307380;10779060;523084087;45378881;101685691;86123899;479822052;2436254];
  [243377970;282133043;303488619;178464514;163429034;403231708;296772460;352742372;12061807];
  [381902569;402245417;513668415;24980755;400889674;105960686;491436214;106117193;5919745];
  [71326690;409328427;598055;436316938;98211746;471253406;337539080;387710922;10053361];
  [269276422;252196715;179335160;233110779;318576720;340582640;317459235;33013579;6048988];
  [130630019;41182335;278923997;12486476;417177054;310178183;469860361;102064724;15557378];
  [454203705;462768698;450082409;252446983;334191439;440207957;206566078;350680441;6967612];
  [115109456;5575520;291395848;85394277;159949393;452073306;204146149;334244281;11412865];
  [438224446;245492599;284095871;408455684;157882324;121743112;287485770;412512491;10460732];
  [57573315;357924260;38816939;144367673;108445970;232619449;371218404;223801089;6616671];
  [517443844;485954207;97442413;170029708;142263228;284931711;276390246;97220494;6899168];
  [32025978;216794426;105664667;157291906;249126945;169834634;45076333;264728576;1350821];
  [395628192;104536965;462630271;230715032;192459020;190733661;501205776;137797303;15666889];
  [248153783;132970512;505283995;154025474;353902091;296015604;117607769;152643437;16303222];
  [146292178;338124070;420405806;42862196;236025577;393042797;274682438;194483102;3952317];
  [333774274;246536250;334298458;292760537;148155929;486489162;495568368;217018830;10148129];
  [208387871;203202892;7913645;316405682;484183568;489772595;367176645;76257050;9831039];
  [528325352;294695300;327379342;63115046;406341012;65097286;108217935;425597058;10187052];
  [276336566;393652867;223266502;77094316;20779374;430081321;437177921;521006196;5043180];
  [321810641;293114889;139986812;258894177;14198060;504827431;50912851;234899980;8387681];
  [173780007;14841493;25366500;506366124;251112349;223431464;144583007;499762618;6373879];
  [96155833;305887814;26578336;106869056;480714057;121543872;198049079;524752494;11873928];
  [435708031;420453097;271548820;388633573;427611826;469996005;419196905;30789403;7870487];
  [518697239;67452444;404827609;201359486;272400127;165804084;485436123;189623605;8529044];
  [32964575;245559078;375783732;334204715;445186295;435782082;42985990;195819312;5109295];
  [113884364;268095861;234470988;333697293;55977586;246112340;53761292;310827155;3039823];
  [274806090;382679229;425643729;77137222;98603350;287348559;229449020;281287501;68708];
  [391913265;95267868;3855226;321249855;364454980;504258731;461626770;294884510;9990381];
  [283673126;405406690;194428307;532627159;368192837;13905664;184991885;317517492;2950696];
  [47102304;397005287;291897759;521881392;255368341;63885014;320601115;281795392;1203172];
  [334263355;132876817;406295956;394246153;148557791;481814012;460950299;18037733;14191246];
  [250563296;20332906;205625756;386844187;167052022;2055862;494115737;403889392;14549784];
  [512695123;305028285;87950409;490254273;227727966;462447843;272943041;84471765;6346135];
  [195677306;218923605;534113157;97891507;275519015;423035569;168426933;447819918;5974612];
  [523480920;252990462;107666619;218305038;58245997;467474297;519550222;513497938;2979037];
  [104523258;227427687;439589240;526308070;116064764;254853711;354394131;44499967;15828634];
  [75443935;311681130;270563290;342282929;298050161;10940515;272964589;382353291;6020396];
  [397353617;504430529;61376466;532715384;234445018;90448625;310103984;325761659;6017297];
  [378902403;70107439;295965669;171959163;497899867;397821827;399216345;37424693;10580024];
  [467067128;481110731;523631142;387154277;314247213;299593710;326132040;459637510;14531334];
  [156850204;146801995;533722377;231727892;231514499;123442044;311606342;128570138;6095422];
  [148749518;116819738;230518334;239525979;220976572;117659600;185965204;131784805;5763088];
  [432855613;172393411;162224454;154408557;170437053;166634994;308720208;276902029;16014354];
  [339773863;96005079;174957738;249137550;235566423;436687285;127740747;131801215;15983777];
  [229778938;435408154;358571367;99982294;51504713;483762993;303786682;363236079;10778093];
  [113604952;396301;510023264;176078573;16392785;427135353;20460706;405035168;11907883];
  [365125019;303511521;465506391;44595373;476253928;170916788;212912718;61538999;11667363];
  [23816286;344701360;347273349;533372259;332327426;405343079;15890204;256125457;6661993];
  [391900943;433105776;379665818;521426207;239404834;333842213;160120981;78988523;3376136];
  [58975747;336140408;315228991;162352309;228427252;215920732;247671754;129335738;3772319];
  [322955544;465653569;454814110;43890033;222114516;228345412;391049635;418285202;5671662];
  [54432931;53219417;116016927;305767181;377025390;119766526;110852466;121651964;16041606];
  [359756059;282033706;393719910;463944885;330062776;261248897;474236189;147424197;14445436];
  [419546918;11092799;414652092;381363653;264748523;162976601;473688555;456008996;4872639];
  [404886184;262934266;2121353;140479865;363989892;185355088;54526028;65194011;54616];
  [390587187;182024630;180825401;275387855;72063385;455092061;384272111;376823369;10942810];
  [80374724;162917194;286276131;415620246;68669584;319729652;93675047;208781346;5230023];
  [167211036;429141375;245152146;287750697;402644171;142687395;270572509;323830059;5149271];
  [287516730;281565654;509748021;329997231;330440352;187033334;514981616;84310943;791721];
  [385064801;230424810;342437186;55060782;143376683;534434724;302112546;370705327;5699361];
  [9369019;43382809;208607214;27214159;304289700;437848385;243776987;272068383;417512];
  [32992523;77208460;108936073;376462705;533371638;256081739;271917838;383828617;7719882];
  [323009261;393775554;460338811;210472356;101458715;95321857;381576582;47105183;7407091];
  [304646328;174033346;275969490;349017253;456691751;228160984;249718790;162577784;2885232];
  [479698936;361570926;334763435;192525832;33524870;307012604;306407507;198999033;14053337];
  [281872905;433232855;232943189;33913551;181516227;310076204;6579316;398877898;6076764];
  [121756824;485559979;460971473;35324110;131743639;221191429;184880255;523900388;7781242];
  [144918274;434501300;481252827;527002294;197609558;368880711;187797126;119986132;8948745];
  [1669884;127956323;257792557;383840692;36912854;353096432;533220041;391077134;2534727];
  [238923075;389157433;148251964;225083050;144436400;516531011;71371543;395757407;10191612];
  [77876424;458129058;165277497;160896183;507715310;219565567;66591681;191442469;2380420];
  [16503533;499900962;499705773;457487270;329727170;186773918;132167533;181156702;11093606];
  [73068269;535343779;445164436;481920550;435249265;285458482;410578585;408276416;3074454];
  [382262814;379088557;5611006;403804687;321687517;166589385;22883944;59753241;13164790];
  [234253295;145848988;119978819;72688210;323455868;521635420;209341016;458931452;3905785];
  [270987619;237334119;442933589;454901166;278333975;375987187;208947272;477398494;7192981]]%uint63.
Definition oq_ly : list int := [296378734;38341668;4027710;115767398;482549133;239663378;293125521;32299456;10971417]%uint63.
Lemma pogy : plain og_ly og_y = true. Proof. vm_compute. reflexivity. Qed.
Lemma poqy : plain oq_ly oq_y = true. Proof. vm_compute. reflexivity. Qed.
Lemma og_chk : chk (Z.to_pos (secp_n - 1)) lg_x lg_y og_c lg_x og_ly = true. Proof. vm_compute. reflexivity. Qed.
Lemma oq_chk : chk (Z.to_pos (secp_n - 1)) lq_x lq_y oq_c lq_x oq_ly = true. Proof. vm_compute. reflexivity. Qed.
Lemma og_mul S : smultz (secp_n - 1) (SAff secp_gx secp_gy) S <-> S = SAff secp_gx og_y.
Proof. exact (chk_ok _ _ _ _ _ _ _ _ _ _ pgx pgy pgx pogy og_chk S). Qed.
Lemma oq_mul S : smultz (secp_n - 1) (SAff kyc_pub_x kyc_pub_y) S <-> S = SAff kyc_pub_x oq_y.
Proof. exact (chk_ok _ _ _ _ _ _ _ _ _ _ pqx pqy pqx poqy oq_chk S). Qed.
Lemma og_neg : og_y = secp_p - secp_gy. Proof. vm_compute. reflexivity. Qed.
Lemma oq_neg : oq_y = secp_p - kyc_pub_y. Proof. vm_compute. reflexivity. Qed.
