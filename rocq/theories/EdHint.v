(** Generated by tools/mkedhint.py: points of the curve in Montgomery form, used as
    hints by the checkers of EdCurve.v and ProofEdT.v. *)
Require Import List Uint63.
Import ListNotations.
Open Scope uint63_scope.

Definition lpt : Type := (list int * list int)%type.
Definition h_B : lpt := ([141916466;66705961;46840917;158222494;93869603;190544330;57388516;218728345;8282231;7],[26843538;53687093;53687091;53687091;53687091;53687091;53687091;53687091;53687091;3]).
Definition h_d : list int := [10179170;234127008;15567870;207787832;25655215;141099274;34061336;40786233;175284165;5].
Definition h_one : list int := [100663296;2;0;0;0;0;0;0;0;0].
Definition h_order : list (bool * lpt) := [
(true,([140364162;262211956;257290649;2515672;52314430;104370976;76650420;17885709;262626472;5],[132778412;235832585;35945955;96545890;138810592;174958375;109964816;218522017;56309810;1]));
(true,([98290803;56602133;246722823;158501197;160480240;240099026;56763362;125270489;249748944;0],[253123953;3598568;40464516;264625170;33001154;224474815;64036782;118014710;136655935;6]));
(true,([108347192;76094335;103786985;179014637;158749967;218058411;197974962;14548651;9042657;3],[113921496;117725463;185047867;157212007;151877264;41210749;191183008;6740967;234360612;1]));
(true,([151782379;14766521;7947838;99890261;250983526;64517679;85931375;116857126;166463167;6],[219245405;190119669;37055046;34791074;246148885;106865403;14464446;3868964;257881859;7]));
(true,([169213821;130808846;181904538;231020349;156992775;225116743;139438722;10294668;158584833;1],[112789904;164639697;213287362;219711311;216028508;188656554;86287588;256102559;91006627;3]));
(true,([62414011;42993052;35135060;90005309;176791004;15775527;84545120;244629528;29808152;4],[212108375;145085903;31078397;253517334;146408533;74837404;101094153;1115327;16491526;6]));
(true,([62244756;200126004;102163365;71456990;70540713;198437112;140376896;55936749;254300187;5],[248582594;62087332;98725205;100937914;176336313;41341847;39632053;250440716;4500180;4]));
(true,([150922414;240011469;191629519;120562477;267738348;137320750;246135148;130313027;160985380;3],[8260085;222480926;117229394;245690145;186972331;174221600;189744471;6318095;69846622;3]));
(true,([78604334;111631272;157129467;138957703;262474024;131764377;158936255;26842801;11596713;4],[242573799;21725028;122468568;72684854;158907128;219212727;20158441;119199941;99499358;4]));
(true,([200092912;147859260;35891627;97953337;10953512;172196029;52547132;221747624;18495374;5],[97883159;25062138;103284570;12981559;71457904;42902097;261147165;265221893;54896837;5]));
(true,([218611908;17651967;122162526;59360786;102538569;261233334;11240809;198081702;226937702;3],[13968946;13164795;180565517;260411968;134787240;260385646;102484066;217308777;118885392;1]));
(true,([226715582;57753239;125175970;203617126;215071005;28379205;263826453;181330811;213277196;6],[130015566;14183961;47388855;197865602;193470251;163788680;236551269;253402600;143146739;6]));
(true,([175190741;101072759;121587303;142340095;156488445;227652557;5681385;56651483;216114947;6],[246942400;130670861;41921776;154871540;41424955;2316729;118377401;18936175;158151530;2]));
(true,([120833725;119886698;216823792;30907779;35574719;242082650;178413757;115687442;208151379;0],[178816266;18892170;256761793;89851778;20219951;221405931;47719666;171616651;172070876;2]));
(true,([252602716;110697924;143515566;139511671;128361960;110497988;230735463;169674577;19849478;5],[36841378;180572061;226996351;94253719;219344677;182679120;110092080;232156916;44537190;3]));
(true,([263225784;162130160;190668431;128152024;191744555;128517275;202636584;227567562;257926306;2],[263299987;231321871;232781496;99215954;199837028;205294120;196865016;156725970;209202901;5]));
(true,([223454649;11451429;217751639;207598140;21677872;39475394;4584101;51855660;69922022;4],[89601692;152672799;171139142;113806596;132021656;81479926;136953887;6761971;111835265;6]));
(true,([6178780;264249377;37000838;222844945;111744928;174667679;50149273;201812514;160611580;2],[126053544;141966676;146603645;15976193;75022409;194836561;155738080;122211624;61260654;4]));
(true,([74555740;162473160;85548386;77698439;116624825;136614955;156563424;149985424;17115786;5],[216493628;173447963;102005126;72165654;91921011;124125898;229953137;17076033;36324428;6]));
(true,([63655158;233795605;233497840;67751907;210163276;20310225;13289267;194048217;8206727;7],[184924800;88805327;152480622;39353155;215184389;43132575;70603473;257366164;199440560;7]));
(true,([84842902;215170274;256972931;263590288;153837198;21140420;124997015;123102172;118118620;2],[232966580;100328154;168739990;265936257;70419359;204051913;124191771;253407075;88273090;0]));
(true,([144624830;177927235;200712259;244864025;52105919;91801247;134931628;147141238;162919267;1],[148436396;59974031;207827624;221325140;95512978;262560176;28740406;216491739;19922864;1]));
(true,([18056737;53978144;110239964;245130835;232485647;136748683;57821483;35391273;189720882;6],[24559248;263963870;152534754;76911528;12520885;267437002;189203794;182962399;44418937;7]));
(true,([130348096;49810142;143572970;20312128;38145772;242483559;138618840;188638297;232819493;2],[142696050;128292063;224531712;30057714;25567731;61297383;10136158;170610900;3004268;6]));
(true,([119906175;199540584;253433301;220925200;174448981;15778179;207776646;112045997;225823471;1],[24950822;23911601;29104734;214538610;76476864;188713531;180974122;75701160;110966765;0]));
(true,([198416649;56240450;234735995;114655220;99672441;187842194;144623627;102607966;195813494;3],[22831874;99353240;143928517;6816135;147241082;18349663;241700404;47560668;231894585;2]));
(true,([40725280;201505454;77246993;80153042;152766710;30300800;205960735;111883249;260517029;7],[30489609;6247986;190589132;108459992;135049330;124171161;17417686;238954708;157873264;4]));
(true,([213965912;91056;128518726;102528324;130053745;42991802;144577293;23795467;261639309;2],[92338404;15063261;257626269;183151141;207612427;161663635;200269880;99942773;154353564;6]));
(true,([60725707;85900831;8616280;206796178;10416690;184377936;148247631;234000620;70021733;0],[244995980;217617650;188117771;157150023;170747127;56667566;79911728;110006305;13529904;3]));
(true,([25303591;69381138;266252698;120163618;82753269;5197239;112761733;58082485;130007443;0],[104537806;124959445;199293763;64615597;74084416;79365018;142083139;26671376;236675367;6]));
(true,([208445493;23882603;102181645;11536582;58341436;23871593;66458949;56580270;48140159;1],[56896355;202008054;59745389;14556419;32887867;38734916;132819001;170416252;15053062;6]));
(true,([83728964;226401879;92308071;4721725;69890317;2361491;232355711;99514391;14709549;3],[71608901;132061124;60332356;141777860;187977736;82649415;244506133;18633741;257530873;6]));
(true,([118563686;187427116;131009366;68679847;175573169;183618788;37977329;245718144;230883178;6],[233926270;225369258;189624568;212147715;37392470;250753503;85074771;264902502;178628810;5]));
(true,([233117053;268155043;227237687;49679981;195195418;183434866;147464454;255226015;79795996;6],[236133715;147256448;157374420;209097472;192562511;156050714;231167544;22751807;12052510;1]));
(true,([86813793;163158414;87364222;170593447;137572344;241359555;187319450;103934914;175034670;4],[266532486;226871693;170811872;75064782;154323456;131462919;42378896;216359800;205399937;5]));
(true,([82481576;58636061;115868785;202565810;120667959;58322993;131599095;42527804;245443657;5],[150953293;86187679;13072589;77467617;134510024;237124202;202355775;58611400;102208087;1]));
(true,([58751990;221072181;208058411;69525640;223171977;59032631;83395303;184228557;258723495;4],[47081009;56670511;5795258;114853637;239751141;103465762;120662631;160622012;266636683;3]));
(true,([14344027;231503489;184083328;209524301;190618497;22529095;232041426;59738983;117172975;1],[64760188;93386169;237679413;108031036;112873365;151719327;139637601;174109113;132051588;1]));
(true,([244865447;199177809;109271060;213016294;155506033;502206;61179213;108023953;33588186;1],[179437517;52741733;199541801;67846464;144882625;143345610;54581547;69460509;8207903;1]));
(true,([83786348;214485029;92112164;164458068;156714708;193834179;208794761;243268161;88111185;6],[97472693;123046923;198877475;161474170;140327555;129368383;254966225;99117170;267140597;1]));
(true,([222007060;64474156;8106960;48877754;55235921;219450697;1107669;122955562;240221203;2],[198508308;253119310;268056465;92514125;181931264;96357514;100460889;142454619;108442500;3]));
(true,([151561876;207916884;40932775;85846397;176127513;257470912;92745414;131175319;206168076;2],[78410284;207996687;192383393;67389307;245351831;145888096;192234787;57525709;210939819;1]));
(true,([63071703;72219419;66178725;26331111;221747975;156491342;112538861;56266694;205607519;1],[222141730;211159259;125218924;213915036;16567694;94065701;92387511;112371756;183085478;5]));
(true,([130568257;222728112;98095366;253388238;43992674;28803659;246273685;208565406;155661809;0],[211570764;74374747;263861410;106579336;152753209;137334288;28972142;203728462;196616465;3]));
(true,([32756308;134559220;257478494;57093822;42116037;251704712;55794819;79547404;95917276;6],[267306234;145012233;1091641;155093811;134821217;224707800;168808007;47133238;189744039;2]));
(true,([11833441;125324583;221102166;224155470;177639046;240953608;191751656;141765851;68076615;2],[37019090;39323818;143966672;178826696;193476731;243251964;260274347;114720176;191333603;4]));
(true,([101250324;142575139;186769536;131725387;94126735;42139981;214085704;262237532;190045597;5],[65476962;25317549;245923742;6546899;217919217;159978700;168282073;61775763;249673135;4]));
(true,([238869073;65788351;39902047;128898633;24804333;140068055;46998709;89261295;170811360;7],[200843992;140151264;164204702;144951154;18289854;230575198;90316074;168345119;165553591;3]));
(true,([108003525;8587195;77082004;69051005;79947356;124962235;71739293;155618721;59195903;2],[1662508;145348673;20758174;52045231;224181358;221240524;65921620;178965925;107848928;5]));
(true,([186495022;50660450;65352341;10600141;258738061;32609391;10195188;214718046;165272894;4],[109395172;257478810;174453859;268252329;255229042;205277733;249224147;176896870;168788901;5]));
(true,([23217790;39972733;236875058;177202819;256099388;176840318;121068613;248859368;21019906;5],[266753770;88411491;71713607;29139334;145559762;3577012;212891648;232332056;57101396;4]));
(true,([173835065;93040549;182144736;236798525;240201387;253450907;236887509;116072463;216159082;3],[59906363;209549032;148038847;43526007;61730623;81618458;182138343;112333000;236929693;5]));
(true,([9895412;85493804;97182399;244619511;87354779;30358431;217089866;188164643;13380291;7],[112742947;36044132;12188377;120819087;216653081;206518222;184957776;195032864;149925655;0]));
(true,([12310700;198080443;121200911;265340084;187928194;216918149;160319553;103439547;34194762;6],[222089658;266254458;35497523;139334454;148936432;225417899;150966096;98722141;42227377;7]));
(true,([192095584;5227420;74774415;1119949;146129303;210344723;20553958;174963568;102237628;5],[267128915;265943727;109940763;61671955;74621665;52100304;161383048;2419089;46399455;0]));
(true,([172305797;52666661;6777200;242000979;119116225;261571574;219747262;65453384;200247336;3],[164273892;182748604;27417419;213139629;231022016;247649050;105767362;201580342;91037467;4]));
(true,([252424133;215092070;189690998;41024679;16540491;114290733;122683611;124499249;30743970;4],[57905362;189544393;187754087;73144962;145795909;135754540;93300225;229485031;243004855;0]));
(true,([203673077;239410534;210315608;20507044;253181373;65597204;26233654;257637845;155860397;4],[66336351;149876248;151334224;138058101;98852414;82158787;196195981;44193985;168970588;0]));
(true,([228046273;191531498;250390497;144955603;142655645;170029760;244897707;24728221;115892430;5],[138498859;196247862;79723507;48425710;70672737;105888747;75618444;193925023;242632256;3]));
(true,([171090733;26772196;206149697;13039328;96461443;33979132;85170063;113068761;114304180;1],[85267648;149785153;213231903;129152898;217520556;246114299;69273406;141880479;21866636;7]));
(true,([75448552;121294161;43198782;201667633;67128721;32027849;239847286;8800205;222739904;6],[105266751;46210949;108606140;223012750;132592793;180282974;248693051;176466985;51802739;1]));
(true,([16728836;37579874;141919953;110472920;44846168;189187641;197108510;173630364;168820908;3],[132202312;81899531;688192;179363681;52158324;97214365;41453733;258181188;11817432;3]));
(true,([53346616;47103986;147736086;197544729;264401302;75848211;250671935;38362848;100734514;5],[177566313;30560461;10188987;36046539;141444376;179724202;238488577;60254904;22943572;2]));
(true,([93058316;95707367;95549278;239079091;9753505;153370911;248827860;198718213;207672085;4],[62968885;115230030;244918525;107360147;184896433;121399207;255043604;166584359;247968485;6]));
(true,([110703154;204056903;266683074;257873288;151278039;254351993;174560728;52306730;263938773;7],[122282847;67321776;29402908;148949876;20398230;6908880;137256685;22945356;43592421;5]));
(true,([244941791;23679359;71022430;142392275;125626307;195692791;74257673;155785542;181290192;4],[133293680;50128340;43814034;248658172;203078930;164687906;259542867;205043771;104697895;1]));
(true,([63689163;222169719;221547591;260186608;133562056;224966324;59941744;163287341;163620537;7],[266616913;216081948;223863081;74876291;54753050;142166571;165354015;194965674;41130398;0]));
(true,([87134507;92242242;64418136;227253116;105598899;189474463;62882945;34372557;173048217;6],[142238339;183856140;154091534;175676134;24654909;203382660;186845885;80056035;101909538;0]));
(true,([39893559;19200786;259887981;166942740;137488753;430502;220053342;217381037;1954056;0],[72405836;152968260;195650643;108317423;97790022;158131559;77234460;254181525;53956455;4]));
(true,([243832984;146176744;12951554;252408123;37740281;167628373;207046458;216652800;244432080;3],[216540557;261158392;191160722;29380915;77633685;54403429;93409910;215501464;155242019;7]));
(true,([176621029;224918116;227542132;259718243;158392644;227745149;112208426;235704513;83334509;3],[121619828;39480142;937656;123556782;33348033;253292214;96082430;267721502;150990309;6]));
(true,([187866012;150951108;144746874;216511535;209718346;238459210;90735024;131327902;239736024;2],[144521593;172285861;231993631;165183829;221884074;236567293;148984062;50946723;76971951;0]));
(true,([173499736;161224679;164611047;11742928;66759377;11566180;148711325;238209782;173425916;0],[27913726;25543228;22768856;52167716;259522407;80069503;99517480;180618012;232707006;2]));
(true,([168601537;178375896;16047375;247915594;200172024;92628535;62466415;59552207;73826511;0],[26411300;164245735;168690638;27996815;101485050;172350271;6436486;142733041;64707319;4]));
(true,([239577428;215341417;236688220;84107474;56490579;139076020;3495376;29326544;122948415;6],[223124798;79889859;263658739;250448110;75260562;175489736;126961662;4977604;233704067;0]));
(true,([214369328;118053840;96891043;222917208;241818227;131679298;44766947;31625740;116783837;7],[17788872;125300959;194837172;19451719;180404046;124757376;146207162;205570371;90010207;0]));
(true,([47572641;250591866;239998240;237649981;232424803;262080442;16532288;100127084;175108357;1],[256072316;22856382;149163425;155437560;234969241;26733092;101806272;48486546;235412318;4]));
(true,([9909992;192926111;258362760;218045472;199847510;95707413;250974623;106452668;145027522;2],[154263023;57220275;71979919;402017;104449435;239100211;78800880;131617237;167466489;6]));
(true,([84507878;209045068;171923027;193042000;24461017;189117650;202829275;165139954;164438713;1],[160769218;215893117;22652645;194897804;87719853;174343176;29656047;221725881;195462789;3]));
(true,([144724302;65431653;52774726;31007019;145265154;152499327;99941644;198170115;188390533;2],[166001055;156042214;226761162;245550578;4607418;54332506;75465781;258266321;259043347;0]));
(true,([130022634;79526677;32125481;31474925;155271157;3238665;54368003;101681405;61760013;6],[22926429;232696823;130350177;150598152;121357037;220974685;38228156;210580242;235122629;5]));
(true,([152672032;60964459;41369656;1505162;220493199;94034382;134420405;136519756;134054845;5],[108372801;26691981;10498058;88002806;96641091;168262654;91878137;256113133;45311717;1]));
(true,([147360354;14073248;63784266;7318284;161533598;78905947;192302267;190763134;14423493;7],[136878088;88898477;264454728;184368379;138864776;157748737;91197029;66540802;17910299;4]));
(true,([32326749;193583963;11272082;62920841;37685318;135448796;231265361;65230939;134925163;0],[232250832;178998732;250786878;179568437;134666591;179697212;5905199;78112386;231626538;2]));
(true,([74156108;21827780;243168133;217267843;248609588;206632299;191096313;235747041;99867903;4],[185352591;202905148;200517558;32734501;6569464;51296338;143793944;242038750;61970375;5]));
(true,([26747832;188178894;124776590;201068592;136852332;253114054;207278961;235270772;82308571;2],[124205857;67813334;248277598;130131780;220887108;207166671;76447736;162294490;261847440;7]));
(true,([237730534;160056134;30110625;2247734;207477358;264250401;164867196;129833065;47851870;6],[5553834;1738460;192639760;117016397;21683257;161416205;28840128;267797166;141864776;1]));
(true,([51320352;168641733;12243855;166479911;110488504;30221723;21766845;32008646;38796718;1],[43189960;156916391;176900821;158990763;79369522;169085596;80178524;113481184;258456605;2]));
(true,([41899235;114897510;168418191;107516331;10626422;159145755;166050983;123384771;172282449;1],[194899814;246130241;70037613;174844007;115330226;146981945;109728322;238357058;135691406;6]));
(true,([211157779;125706886;65277026;228142571;35008823;219724698;127758862;21661958;213478230;0],[132003296;132236896;52197154;48824125;85991312;161320898;198841724;172120534;76128650;4]));
(true,([192663181;231361556;62200606;252464219;219607492;119684487;41907263;174982891;206310306;6],[221356486;169507387;161187913;49051210;218160616;84651966;239912709;119851204;68406750;5]));
(true,([106877101;139451547;180907419;267375876;256448804;114950174;51328370;239723849;212801577;1],[255584023;218929069;180871100;164722877;215561003;186697616;12374847;15655512;19851410;2]));
(true,([74934030;245888839;185172417;40304039;61268702;250942560;50141611;135087128;150900958;2],[154912849;58275668;6968132;203930308;267363167;153168668;237546474;45796967;203166428;2]));
(true,([264044202;188816226;233731464;158359502;213455565;136966256;170434369;78206042;248159900;7],[39142579;262066777;84255214;135975505;19950520;190061168;59150601;85165072;107309680;5]));
(true,([94410076;218130988;13562449;243424459;238482332;88416998;241404934;113994671;98383160;1],[135539115;3102489;163664549;175160283;168631033;129245711;200351046;174902212;209855093;5]));
(true,([239726951;217036778;117820138;226369228;110062427;125330691;186833210;105313823;88933950;5],[79788908;266259357;228130367;155263310;118608169;116204750;257711183;57315535;260595146;4]));
(true,([238577782;237438808;151196108;7291729;101332532;124856538;75897915;109898035;47906989;6],[239525870;185764257;128469827;68407586;199681407;25954969;33201699;154954891;198087214;6]));
(true,([220503043;45844791;85189927;238501766;255247632;147171875;129684292;119031798;144352016;5],[59204118;152691856;258702589;103331846;214332288;62186624;199962285;26192230;169729510;1]));
(true,([251489991;33388639;167405012;136925192;155080593;77079123;207962892;28520304;125041307;4],[226494746;185670301;83756825;245528518;228229354;107136116;175081256;180589919;143583934;3]));
(true,([85710094;255595962;52372353;59412800;62000269;77957763;242625030;98027797;245353925;5],[147884400;141521781;78047863;48940484;153512118;197781717;86701378;121680588;128820806;0]));
(true,([37816670;258546949;163040643;162350319;238703136;222748218;99103173;97721332;27345470;3],[168453522;239240049;265479676;175872523;111556194;103239967;92000679;122461103;97266397;4]));
(true,([268110111;55330487;144040657;244339696;230322024;86277298;49529663;74053125;174466988;0],[266202630;91501488;96609612;215952202;149012535;181574204;48103654;220568688;266902847;3]));
(true,([192425375;87927451;73407053;251445246;254320769;132441895;10600724;78056703;137689313;1],[159420768;31845019;29690373;162600902;129511252;159567063;3533539;167622964;177413239;6]));
(true,([131105009;73101708;197445948;238531231;147751839;154652714;37542661;196701849;48677514;2],[181524991;133845107;174806684;228386966;51759451;82672297;225076982;47224105;240430221;3]));
(true,([117375506;178733803;146923534;176665112;168185638;190142865;116074534;261181096;118674744;5],[42134544;27137236;44954248;223484037;165960999;78692974;232412;214267230;225582601;5]));
(true,([105884652;56650632;34716844;12225483;138442400;109030752;139011976;115195315;9628200;6],[18797280;181117892;112956701;229708488;117087821;261243919;189024897;129723188;188690221;4]));
(true,([11490380;192224374;163298643;173304076;129996001;32377404;44740834;179490779;153115768;1],[189092363;56395280;80801567;1290101;210056982;166492096;66302192;4586017;112689593;4]));
(true,([106837982;150984018;259044498;165736186;63098085;6694958;238250299;198180824;144506067;0],[181978861;142024608;166394352;211469230;94570069;98555056;54930575;193039374;107937633;7]));
(true,([22827740;95118773;7343322;1896697;22682380;179036165;85166083;122976668;117387444;4],[197964485;239795424;164444619;160482796;32312024;28381452;111319816;171634237;264644783;2]));
(true,([222312483;225200390;16889960;45216276;105654009;27757625;83861914;78394173;175292450;1],[49573372;256306787;48870398;241727306;16366009;67296827;21304585;142346505;9101587;3]));
(true,([117403718;266103628;204209622;50996919;59264075;110610329;28484086;190736661;82020262;1],[144755984;187470590;132553667;218074179;1059859;127046443;43607845;20217349;51265878;3]));
(true,([221448461;118150939;171270397;242183691;73817932;165957197;118186712;203290081;202601951;7],[184548301;212062823;144951434;17784114;116609898;57317657;147284083;73131261;111656601;4]));
(true,([199799921;35169456;219130482;144687927;216491426;257986570;45818057;214479061;217276928;7],[206951695;190265509;114638791;13480122;122942403;3160509;78501914;181156912;139439825;6]));
(true,([54999762;165431995;94835215;58563167;183493669;130322395;185517680;204568227;9276997;4],[201440323;31939887;159771525;30531976;77561269;174817426;43923208;120377000;108595201;5]));
(true,([189483060;1303076;184810259;92448417;230140287;181360884;128878655;178359087;253997121;6],[25921037;19459548;3450472;133844141;171529498;42615827;37984717;202048844;142615009;4]));
(true,([39458397;209462362;246510574;224446394;193384356;232698613;199123762;205741239;185351181;1],[228003763;34396239;132548925;83531441;175282721;76594445;45423807;69795912;206876520;0]));
(true,([216164052;147563800;81037610;167297312;88080201;198428068;239574479;235552117;74419480;3],[83549198;103921227;184993374;112826204;164068105;124084214;1932015;191361808;56353665;0]));
(true,([258635500;253909428;93445957;148801485;107603900;215491170;232270665;257524519;210182778;2],[100701359;123189327;111233669;200852446;240679733;238940108;18466059;125455921;60364534;4]));
(true,([229846188;36869732;173492623;245603553;261899225;192012010;146886558;151134349;594061;1],[68412979;188881678;176920574;182610123;21925902;148629477;94723645;153057928;25043462;0]));
(true,([234089895;19279344;98618869;241670922;97389462;60346675;161258661;231971020;84211065;5],[63798296;93898305;258676558;173064286;50500696;39742080;233450615;46940959;209006923;7]));
(true,([155033202;48493024;59114001;93998587;166105321;198113379;268336020;112397283;41217078;7],[59614982;129296558;98645294;43200730;262335973;159499506;255566507;49334697;78792203;2]));
(true,([257259792;110549964;168212673;174559018;107792223;149569266;141539959;192572527;226527506;6],[57067092;86513688;170598716;130381099;247821130;2796543;39215495;138802938;219087849;3]));
(true,([38743711;124665995;118068006;79322039;126627534;257785951;178533211;42722999;214352721;6],[215122302;88849789;125136675;265118299;240986958;36698569;167463320;98601689;72099778;3]));
(true,([50943976;29584162;45640967;69750288;4886761;94502941;136699260;243301680;104426060;0],[27735348;145582085;221738445;28994147;229446132;125928592;120864707;97526089;34564341;6]));
(true,([81594578;40809859;50748560;228103398;131770964;38383005;49942156;215693666;153388127;0],[74612539;222618058;15724317;250210218;233481307;87524526;164099046;37595415;256466399;7]));
(true,([122151287;154487840;127046870;87818773;91238566;139618388;90726133;210049406;236927341;1],[8000497;106791535;130832829;187285147;256036587;267501883;141538208;226420855;235951124;6]));
(true,([122582220;48253063;182579611;76873205;55348854;193105552;151017118;85363100;254016175;6],[212716338;246230609;18022462;222835096;46850424;124365278;31081731;249070000;172578749;1]));
(true,([93314221;95733616;185246690;83182135;131855086;48065315;163148186;165825384;49439256;6],[181900304;73886559;230166673;122877977;205029406;51058671;252297443;172235944;3951554;3]));
(false,([179379599;119399892;61969445;37790870;118044521;80135204;38331648;82406124;74863085;2],[255080752;96571267;98847466;77784664;143861649;17064135;232427868;71120695;41299756;5]));
(true,([28921192;263262991;216136870;27291590;245943586;239416704;109446185;63474662;55643833;0],[199444366;93645855;190300379;37596088;100686598;118333504;179636692;24170878;244815274;4]));
(true,([112081149;119527207;200577988;82313953;198806997;58686325;176052141;137613394;174359660;2],[227154938;203363002;233723864;28894868;214363759;254533715;237063469;158559920;58774246;7]));
(false,([208199423;200004270;9560723;238387160;136958773;131417454;9803605;239966740;66170896;2],[257905943;243848138;139153009;167982738;197910012;165128601;231156438;189244514;169933917;2]));
(true,([6694694;89224649;12042699;96845311;223811166;135211860;76192701;101650768;12265139;6],[131784300;215733966;48832566;183571946;55923397;27666663;63048802;59114306;42208210;4]));
(true,([78614205;74283668;164883732;9365617;207316113;210390275;180558128;160004693;234344326;0],[248089741;86229788;214173648;171025664;177757630;264327028;207134658;211688457;118415882;4]));
(true,([39183561;196936197;34217738;104623626;8656338;7121698;186427749;226151500;28061862;5],[121206638;150207587;144019033;186848204;164275372;5127762;43573851;222490364;191721586;4]));
(false,([128357478;247040572;171041759;49426315;245097900;188306335;209953143;58222773;149272608;5],[39416153;102232512;196256411;49217989;217591063;160873119;61733463;195346353;158867222;7]));
(true,([227471762;59283570;64576144;160326512;223848561;54531476;224601452;61464644;5644808;1],[229379013;252733137;217325322;210479967;260374783;159609500;24155820;254098132;260751856;2]));
(false,([102637402;64384135;238495965;7453231;87041783;87280382;260771977;268126314;252487441;2],[19827900;246464793;113502613;25651262;71514724;195829221;171163703;225105573;249242931;7]));
(true,([23888115;89914574;125655741;213640951;184667186;2579515;257306828;177549882;150452676;5],[219574553;162803041;37815581;12634079;212011684;82755551;64763106;115984771;18778416;5]));
(true,([234489721;115604391;142772042;252022720;267074929;242310542;91573990;16033680;180323559;5],[63982990;98676207;151707286;246856047;38812894;195288634;13052010;147176874;44223983;0]));
(false,([94532936;11106823;171275797;76470974;117405537;103883454;82196710;138411162;222886875;1],[51149523;202796474;226127597;120038727;133396189;204368872;86918857;21447441;179113686;1]));
(true,([202480820;82608332;228437965;174131445;86605815;215050355;83234023;935331;199624199;2],[152841730;263824839;157259258;201845534;248384401;206871882;115032980;132148401;32250524;6]));
(false,([238587729;63876909;116597607;158454333;145946228;151938055;35486729;157103680;158861046;3],[180898548;127843910;251186797;2794775;106639265;251650010;16552759;180477039;187641045;1]));
(true,([60290500;22569117;111304620;72428672;101271499;228567428;124288635;198530982;226113884;6],[69006773;21702752;199616881;131373931;267582518;77018901;51939494;37884924;39953250;5]));
(false,([89735071;26765725;161567359;150595936;222523573;195545357;40048281;39455460;156151514;1],[165237892;250870606;57752213;208085363;268314606;94140297;73597394;16539832;130806954;7]));
(true,([56884030;189093813;41065201;52363166;215442351;145062727;147524128;86353010;146695385;0],[69566447;194077723;239746270;134411123;72051199;74833236;53702807;95286070;7722259;3]));
(false,([107669150;147233457;21326289;107838236;76164686;7141762;134210299;81505138;172239198;6],[103287521;211793064;10294990;145611329;73984131;224114392;73988578;250656457;177370950;5]));
(true,([85238547;58293611;39642361;202476159;122729429;128696359;250929354;150860858;157827783;1],[37810037;258015526;68264788;211379069;191612638;55176106;106026005;135790670;22566227;3]));
(true,([141751441;250573284;82704976;146845774;155989568;263879670;194631560;168561483;70455861;1],[74911192;254046018;28860712;246486427;179922700;192745183;39640211;41336237;177819489;5]));
(false,([225665091;203292978;121056343;94347134;62158402;59743732;180579901;76978949;268248070;5],[237743040;219447765;228587969;216592323;193421675;137029326;168271637;161044877;231586268;0]));
(true,([18488163;261096454;205476151;9366300;195997181;146557044;69336201;135908456;74867130;7],[164044728;20921541;52925849;232247035;65870530;61915981;141436651;30976214;115215341;6]));
(false,([56372796;15436174;147399349;256179605;257649780;30498132;184609119;98776878;73671434;1],[61015824;195880916;257201643;95008827;231290138;7396261;210172480;188584362;47206675;1]));
(true,([167253125;229872372;265363741;46048667;57267662;140978064;171033971;115171316;231594121;5],[27892090;62644791;186656782;51678461;21102350;97016785;265367576;79451313;257633030;6]));
(false,([253140465;142375098;190505108;132981573;20606285;107787809;106507222;139330462;211856630;5],[205366018;37232928;230569429;50963420;198059930;48870482;229558349;101292659;107216585;3]));
(true,([80472331;109035402;111152241;212937204;155136003;216180776;190194280;151046356;101128787;3],[105498206;200225889;42149486;38702469;98778233;35446955;209573984;140028637;141574285;6]));
(false,([237035658;136034569;38742521;2966762;108684260;267167690;39866892;203202834;254919073;2],[134410139;142400982;254066227;72333034;8832792;187854717;93372117;182934194;34126449;3]));
(true,([26799932;76714258;166868392;40371283;188313070;24236775;249722052;56061718;10000113;4],[69462291;247937872;57776290;174804678;146748215;162654598;192293341;186437753;241607664;1]));
(false,([154175024;197175194;11675281;69711443;108809934;113897736;57489236;56739309;133413339;6],[60561120;130177246;28415940;53308810;86643577;110398130;152089755;185199581;7052858;2]));
(true,([253839465;132274473;34499202;249669128;159697748;118193427;212145081;158135010;137372009;5],[8007252;122016250;34391431;92138628;54431090;137762482;102200406;7906059;217925703;2]));
(true,([127108370;237342823;37749060;87867300;52948253;32577741;127603370;119194463;34458256;1],[61481059;190279703;184063720;174763616;38255315;177417078;254350428;238501695;149624211;2]));
(true,([235634016;155650643;88085313;177039642;255287840;152546680;162367479;234226523;89699354;6],[177364105;154433072;40355017;9675686;171759110;25509097;66305330;140392002;180684943;6]));
(false,([135133782;52014379;219348952;93971954;166236202;152497476;244077705;185017024;36954376;1],[89963699;84923381;142328972;159129074;117235331;217556548;235898454;222679320;177934027;5]));
(true,([116576157;17894866;265950035;47750994;101034182;147924093;19674329;173505082;153549761;2],[177757046;121192368;226744425;137954466;219232774;240220584;233707558;84373416;164233099;6]));
(false,([29751029;15959180;255232432;221765431;181526507;232611841;195609313;75319984;50046362;6],[194293272;100259249;194056141;109410630;97065389;16851258;106576409;131822265;148780470;7]));
(true,([14731123;23893597;207478608;24107967;142493612;167897594;75376736;12687429;254041375;5],[160666403;231521242;87848401;30774202;231464187;40087093;82837692;130396885;79131914;7]));
(false,([100790410;235037488;16779005;223918868;268262999;236161361;193357444;237242941;187708064;6],[167898057;221165477;51115538;140453662;13586278;162800476;32758018;32118025;180826509;4]));
(true,([155413985;24976663;149500386;115607342;69274768;176290905;81278902;131946922;126503483;0],[120056087;82695265;98189352;175799686;212876400;88394106;184181405;236832815;139285920;7]));
(true,([52651208;87442815;221670266;85106689;90848643;209625260;132199698;38149588;228886508;3],[249474474;62615450;9899040;150495422;172052334;49896112;145841683;211263168;114116891;7]));
(false,([36184288;211223658;45070461;50324706;249677428;48255993;8878602;223022605;192382168;4],[71803949;222280608;218543627;46145420;83937418;144247792;90342738;217132743;265278437;0]));
(true,([153181870;175732313;252571020;252325695;215317495;205615303;221777507;32374566;268158714;2],[224610971;136797129;243808112;264397994;146178089;202659363;193542111;11159303;59868474;2]));
(false,([123262003;60035404;152599615;218430200;46424036;191002746;18031059;111386069;64001593;4],[110813821;234102101;164776442;114462028;10242437;189473594;117662076;189661420;81581452;2]));
(true,([63079919;34785432;39734175;203474353;71465935;266426434;21986792;241284447;219307489;4],[229491140;143830949;242524160;13295485;221049434;1501373;67318229;125358276;220177563;0]));
(false,([240861882;56745074;113778289;105637196;106166174;26418141;129031950;84183740;60509025;5],[24887517;143745493;204018836;256536072;177882854;9898335;48339972;181455220;82644865;1]));
(true,([166851662;158163356;177837855;215241142;62082335;234571522;48481450;113701555;223885281;3],[71110593;82636400;233463152;145176448;101912452;119359355;224848262;78122304;176431687;7]));
(false,([136934807;166389870;79784980;128224600;257923130;241801192;179003044;217791278;131694195;3],[150290247;3817604;239061738;190629299;26295341;174816189;61954602;190154602;241523496;5]));
(true,([189531669;106280158;191869085;162295684;63559469;163668155;26912947;40328040;231650644;7],[212707539;241016511;44708923;108040188;118000035;63157543;144686746;193178471;59298382;0]));
(true,([31872438;130018264;156471777;48086553;89702282;131503526;66658800;107884189;48575276;7],[196687697;80530350;110705220;72248314;253746056;139476358;181887886;158036834;141243433;3]));
(false,([119709791;28083989;247498342;81099485;147468205;55265897;153504625;200107755;15292885;3],[225868850;10681993;257458114;81666906;24364772;36182754;52116396;15246330;224708040;4]));
(true,([5400713;165888442;95631177;215902603;180984988;16619349;164341181;147060681;102374865;3],[224858404;174014172;131438141;263615632;67522126;226030130;22728220;193372722;252550097;5]));
(true,([8439942;207645832;151427097;198972896;224006818;54045249;252884884;115378292;263975293;6],[17971074;212983064;201931213;89260066;185441206;246070753;111090958;189242278;70706679;5]));
(false,([210622790;37353870;198694089;148829852;153439542;1365907;255866107;172055404;91995609;1],[117717811;267876851;217918145;22520167;213564236;102319629;167372962;86841363;139029995;5]));
(true,([713994;12081902;259604171;32633830;260381894;230445300;46117705;204157813;203686774;1],[205846225;247747087;122993224;52578442;59525533;35576977;98160220;32654005;128477110;5]));
(true,([29060712;252569692;80025362;3419493;101769095;254547626;81258174;82362876;49586029;1],[179439994;6847826;232415806;31281298;11215107;218892866;171068664;141934613;220078419;7]));
(true,([144450324;265309603;153042137;129123455;181919845;254880028;226950761;255058989;142589519;2],[264953081;76516682;60431990;5377033;14794379;190587396;39097272;241887373;178492228;1]));
(true,([192328195;178052118;260097689;52993614;161742212;172779846;132629328;113180109;60939002;0],[252591623;223080789;67755851;100269090;181928761;171548603;6435767;194406633;189674368;7]));
(false,([135932525;148545932;192303232;139921046;165951437;66443856;144435203;211870762;88027264;6],[170463845;248913984;57589925;198134872;147080766;138434570;224976275;150545162;38137160;2]));
(true,([147742227;106841694;129793198;226739113;139313066;144025201;75211128;242923208;258696128;2],[36855063;202113626;393084;174510315;55550404;17332699;68540215;123892056;5954938;6]));
(true,([167259625;44821966;82514132;64095410;204771210;33818255;181762417;88124600;199075189;4],[72954164;203106191;206498082;90979794;70626090;29446024;153992830;47573853;95065199;0]));
(false,([171010795;79525350;74227213;18611945;258676353;190565833;95389797;230918266;146568961;5],[120335154;50045319;124106518;166246616;207448046;91456493;234708634;220206409;85027891;4]));
(true,([86077774;93903157;95938971;229945403;214871108;97922626;37708346;45977503;246695844;5],[236630716;228391142;95980050;197384311;214275657;60447596;190446130;173487119;57294039;1]));
(false,([164067522;208321998;33560862;229219075;118578288;100727029;130639133;85944496;14128217;7],[133561760;123334145;267626621;105746339;266513944;219563732;153711803;99933538;61155944;5]));
(true,([189213978;37947146;108832430;103160241;242980182;145321909;218568342;60286648;175910743;1],[114807891;31614153;148059731;229022089;230323466;90539894;96369327;124761075;186514791;0]));
(false,([98346789;274625;261297651;10289708;118025011;135621704;123803831;208844139;4107230;1],[156612710;265295389;89106841;254888093;250386251;79284860;27316799;93312849;27556168;4]));
(true,([106733642;258420196;57215353;144495652;15166964;58241201;116818808;9449759;176957314;0],[229147983;165350803;263333541;101204558;21546967;240214337;129966698;173493505;22742296;7]));
(false,([35008691;179622933;140297028;83746883;44154864;176169288;231027807;187951162;253334690;3],[223593723;239924135;150489859;107279435;37170446;172664748;265268216;173508611;155619348;3]));
(true,([261447531;170761684;202402902;227092075;229631743;42109024;230877224;115815983;148795047;2],[39829230;51093110;185885656;242725382;230935365;52632181;175169395;208697017;220859191;2]));
(true,([242161275;75901583;162783632;133902882;196071833;254433238;154793172;92159683;83485014;3],[21551806;252988901;9202878;226082014;223964376;62874643;61498988;144017950;134245648;1]));
(false,([100682401;4578425;64931143;33741214;100678086;120115300;247438302;211812782;68389906;3],[152216453;85001924;126758878;264494361;15024942;121014649;264007026;122412439;123844375;0]));
(true,([227292926;49260498;255491786;235449143;214419330;257498188;100844796;248739542;168255747;1],[118551009;130633000;210895949;30756999;74230857;249013999;221331519;254066713;178393718;3]));
(false,([155087206;114723265;202143087;160912858;87719065;255926159;31033436;105536678;150852975;6],[196166026;123448378;13393591;54148232;72980757;46766064;215751280;245953882;29261189;3]));
(true,([216192482;66862980;228748586;245347656;116696627;243009605;54048754;150748683;53323389;6],[131460465;221883476;90559404;11945070;59958935;254143833;182114469;44654010;66573048;6]));
(false,([30844115;219301292;257222266;239908116;123464785;74901501;255282225;6737047;6477446;3],[181928397;42489784;13931795;190174999;48181280;243079813;205356319;1325981;80953681;7]));
(true,([208711936;93904936;144841507;252216849;169374188;185484119;235834022;86768074;113979420;2],[197924722;33337045;158477377;145346575;40399310;257940670;171534281;248526478;3674015;7]));
(false,([231182049;43312361;111528207;54742702;3473414;239834874;171872420;83598749;42945558;0],[150209049;214862568;141139091;249964689;61120511;15087227;133028472;120197597;178357179;3]));
(true,([249541430;194094915;23033401;250467235;25125649;239583852;183238451;103304423;33858439;2],[177109918;165605346;228797562;153744961;115679509;66207711;94447034;265332071;125687397;3]));
(true,([76919050;169331844;4189863;101318262;164354299;218449020;187294274;212117339;257357515;3],[223661952;121123465;162150043;117688411;216749689;46672136;10030736;3336625;98368113;1]));
(true,([41470871;210939714;170547473;189454662;103882820;145492717;61982100;135673544;224741004;3],[84207190;18794021;33487667;50360675;99978754;202747861;74037923;176428940;45346682;4]));
(false,([223456667;256889704;184483415;172619095;82994568;54292682;132544299;215699608;131356793;6],[21028560;164762868;85832184;10242732;100573182;98761869;16030058;81699460;202305827;7]));
(true,([259588392;114832344;167139374;151312819;134473513;194558176;30946305;16801726;81650267;4],[175619403;170235766;223465634;177242693;261933789;32759422;178575539;94333024;999156;4]));
(false,([161539233;31061926;64204746;215303948;236208804;37640258;239369726;108820139;19961031;6],[154855564;201584994;191351576;2888100;65049782;267402104;86597804;33531604;108011882;6]));
(true,([133360685;103325587;18094995;130486678;234688437;206014303;68887194;238675485;265208246;5],[27001198;90777768;33044622;126265827;104732157;74074174;106532380;65043868;81728961;0]));
(false,([127336789;265668319;98484216;193145384;102542412;114984509;1653675;190955821;199691645;3],[231452081;431928;35470173;2282725;149914651;141972588;86140397;175434261;160011772;6]));
(true,([49030764;126334510;221722862;108964147;53763017;20689892;219719294;34552350;122587120;2],[74294057;70904208;67230706;151245751;130554187;57708159;204836174;46877645;186292340;2]));
(true,([30691839;264902984;179578563;147983849;52199585;202101697;221789382;149543516;79731254;1],[251002170;139423812;156552907;76545388;216448961;241420390;64538730;206162183;35145548;4]));
(true,([83794811;181280875;7852094;169086547;226410792;27877145;120518429;57207249;241796930;0],[240487650;49002019;6156634;103203569;18231251;207267915;105449144;238183803;151654645;7]));
(false,([151500014;19865837;9346506;70910267;242340455;138974318;146572130;219345848;145912019;1],[70075212;161959077;267024656;158842475;82255086;218153152;82184329;12913373;212409516;0]));
(true,([42862112;261832799;174486413;211205936;256270955;245485810;130613059;169788278;11620512;1],[14598121;32181589;218016654;1447650;24193225;262259405;83530697;85062912;123332298;0]));
(false,([216198970;183217541;191405118;256502702;206318405;257954434;185051239;60384322;143612800;7],[215401510;114033422;94185198;28473674;184705512;267317109;45997877;240539459;79850796;6]));
(true,([240002558;70925104;127574806;7802736;132138707;8560649;159983763;116833383;140323269;0],[234250453;90036117;104366376;237661316;223522145;113222544;46646722;168195314;136371169;7]));
(true,([250265013;226608093;200632954;201474800;146840589;7758135;87115914;52877731;74787677;1],[44027350;228325160;103291446;213452586;154766206;22166652;177233483;231375752;178952392;2]));
(false,([169854440;73715679;257366594;122548884;71087626;23986911;93050277;55378640;65657554;5],[79214177;239887418;255277475;253166905;261369618;68848776;75004439;126655899;55249234;6]));
(true,([116763188;114224831;206491436;29032383;201238525;116327319;73466882;98520698;245295962;5],[38940529;135973865;209483602;130433459;93596277;212369952;192310201;125330257;26138269;3]));
(true,([17223033;55309526;220389567;134222724;41335709;156204861;74966464;51675963;141995445;1],[94669695;74029235;158868624;240037005;177187317;227975097;182071935;62061753;245886382;4]));
(false,([51661308;76580970;150829077;226536573;138656108;141621463;254700026;119829737;201304147;3],[252789613;129533156;34629472;68720665;93739679;261564001;255443749;170597593;212589571;2]));
(true,([186409391;7794170;4050431;190464086;231549569;58823910;162080411;264957343;77247013;2],[149660325;267646127;35025884;157321497;187873673;223155569;129390276;27734473;155008860;2]));
(false,([224874298;192754340;159767460;174944082;171290234;142089460;119629865;36442882;58706776;7],[230110784;108722804;27587008;156410659;214915902;63785053;182127560;82702474;249771286;4]));
(true,([76013238;175706532;205982318;167088367;151601234;230865498;143061066;263978806;7013395;1],[101302597;189897619;62372612;182024499;96981888;191541977;31739360;236907329;150500842;4]));
(true,([96706695;90295911;111202270;75513636;78893348;191599675;93492315;34965501;150572890;1],[84271675;2612434;41888684;22375808;20990181;47248639;25713838;35530155;129220423;1]));
(true,([58753738;212692996;40814992;179178191;151939446;116960838;239024298;177282193;158893955;7],[3100276;101638930;264020555;117731760;95581983;25526476;142413843;195875062;151015640;6]));
(false,([142109035;134384575;199342049;18750464;6744127;20568055;77143631;148221712;19046902;5],[120794253;179993675;42129325;248319376;41253231;48663014;267720985;36619393;210202465;7]));
(true,([20611050;235489950;187478083;47917317;145616150;174847814;156863793;63213814;128830165;5],[117575840;79856619;179979126;142057840;71166349;255599815;159666281;25836863;3839332;2]));
(true,([110328052;251374483;236721833;66183637;161089016;50734119;186390561;137766371;83164149;7],[235903784;256064821;46260447;256087185;189946257;64992536;264177053;217108169;3053020;1]));
(false,([97607881;120535867;255827000;22689152;190339036;198004183;100277634;172967629;162536162;4],[141119549;202447483;48290573;147993104;257144535;163537957;22338972;24862622;178008577;6]));
(true,([261838450;258710355;216987002;152156580;93851987;229489361;190073508;244641724;206780306;3],[185215871;173547615;134207107;97457557;51615714;175632850;212791487;77898767;126128237;0]));
(false,([68527676;39931641;21838050;199052243;207228220;175802793;83491811;220695883;108489082;6],[240643538;193132254;247465049;43517462;252800612;170073662;262671798;21038918;158665468;4]));
(true,([1137675;131984540;26451996;40267029;148309270;39421979;18229448;62816190;53653850;3],[39769039;156684092;209555260;27450265;184276911;16343310;36874055;262925963;245371472;6]));
(true,([47104632;185586120;227439111;206102670;15469540;220212193;205935872;25298322;93924117;3],[92250647;91205028;259604984;213586491;73234952;228027951;45911009;25766444;37142218;5]));
(true,([92743893;31825685;24768780;171967676;92364699;44760862;60981881;87415995;200172806;2],[58645167;123793819;33711097;48466009;78285309;160876965;242104631;84897399;115794419;1]));
(true,([29571694;136306564;73733924;230732357;226656134;249295802;112632802;61202082;148743890;6],[76251374;21396515;202147167;85883683;226537515;198246032;214712269;155459695;204430444;5]));
(true,([190688726;128402788;7694629;97480349;211153661;54279556;161656907;198738237;118299440;5],[140001817;90427792;257144031;79719198;51358201;175290385;181985304;138663893;245979020;7]));
(true,([31205755;238023570;4333202;18665957;44936865;265739259;55985430;102413105;172923377;6],[95028667;2868932;149861261;31326890;59770704;180293358;98248494;59740210;25358856;7]));
(true,([163656938;262487622;10137651;228084087;143307153;42880366;210157934;201486732;39745815;7],[184262754;49556564;54002250;5687747;38923687;174947112;268060472;93035793;187307878;3]));
(false,([169231306;68641381;125888526;90507633;7723682;63292725;37742879;259868707;106230140;4],[124292537;105127620;207116929;132197902;204745608;207402815;133571502;121409089;33301525;6]));
(true,([122441463;65157953;216759785;228329721;262588613;1981413;130658819;33875115;188321385;5],[30015080;55032210;231570313;89194110;189025709;111250667;32312676;134733822;125084075;5]));
(true,([223791474;118775296;88918099;156922601;184035355;78492172;144442398;15954974;196169707;3],[12887811;260431116;199569799;54291666;205614837;249768986;205407616;193649548;167880059;7]));
(true,([232493184;171483126;231057915;99719514;205827472;105902947;207746140;115949395;240350942;0],[112662318;221543472;196491734;197735716;26339692;197757801;228840282;168882205;26857739;1]));
(false,([149540102;54042596;154680473;213731419;164350682;1961676;104098749;186961234;214620407;5],[56259536;65908288;158607541;233235924;102024432;224302468;123391738;152643843;147752550;6]));
(true,([47796200;256371229;166034235;40957879;207169093;171977559;1364835;9913157;158886850;3],[200220712;54796775;144137778;252798016;49053056;250677464;238547310;254910389;59905660;4]));
(true,([44555719;149561107;170685265;166156210;260953030;199744374;12640308;236288191;221251137;6],[154972953;196506709;37606145;127541396;132650042;193286414;240122768;227134881;231476544;1]));
(true,([68762489;182839643;192174299;106826403;83240381;94017099;101139554;195339787;228337409;2],[91687066;151087173;235982020;254993688;177850984;177917322;157217566;133739999;37779546;4]));
(false,([26615870;37767486;39729680;245382808;71442411;101251288;241910999;112416051;189836076;0],[62967879;216658285;159360934;24973648;14373230;251319839;257227580;156050678;160993247;3]));
(true,([3322759;187973748;46169032;47210829;108699603;10288867;199497322;24413244;19570767;2],[139009605;138173720;42647329;120279157;131781226;149352013;20343747;252915477;191318124;2]));
(false,([55823007;101466463;132172171;23532934;20389018;213440212;129767218;22704034;225740314;1],[197797436;22102379;108955872;197897485;138159861;39008053;234754621;5199795;220760521;3]));
(true,([237731914;179185332;237682047;103494556;3559451;190407149;235279002;201468876;47878027;3],[219368672;66262356;189051384;259486416;85814923;177576955;88365879;202642361;73866955;7]));
(true,([72353398;29137952;10753487;246918552;177433897;27619651;3441607;174687142;67053123;3],[222085211;34017328;195644796;127965678;229694108;67327677;31681076;174868422;23571766;5]));
(true,([251926080;232682516;193776603;26787011;15161734;24355124;249464108;107260214;76934309;2],[158442820;63792211;4538276;118253729;150951656;74054777;141477126;138011681;64443392;3]));
(true,([3386315;181438707;160952474;182204605;41709122;143621241;145449173;211762039;224016722;1],[100493599;115492461;232493126;134759620;219555298;265584786;6056583;93592220;56258715;6]));
(false,([169862345;24400607;83994752;182968845;84648608;206456557;261764529;33376901;193370266;2],[115909758;210725707;152290891;32591823;255463349;37513770;9150119;98395330;162873720;1]));
(true,([229929669;200713359;27450946;77193934;233143932;246463084;119702016;24222930;165395448;4],[201411561;127182694;54922374;63192958;143758004;77425983;86683649;121651166;154012813;1]));
(false,([73305626;146935923;74324832;251071667;233715691;114131192;74434018;185041240;70954671;0],[20578170;55099393;112375694;208872033;21086869;72124340;233328015;215639849;158603429;4]));
(true,([108316670;31795031;100066134;199091960;238529615;181396004;266616435;257341833;240340042;2],[34327682;229175548;49672395;234201960;31603570;94046815;30802005;181338200;97200758;3]));
(true,([249772544;168017281;235831438;265898827;66736976;127047982;122013183;10179781;238441201;0],[172806811;181876493;68260710;166453159;234053904;73912224;159642412;194871785;8747773;1]));
(true,([205428429;50647073;55161756;134630650;243959100;110124700;231137697;185604318;213867460;0],[63036336;153790948;196931681;65093655;94507804;255950827;19586051;47707025;78685959;6]));
(true,([124033499;123619081;196463721;170027846;194464515;17544314;224833136;243818084;134609975;2],[139063288;77291906;70647344;239315974;260014435;89926423;38398425;13032765;138527721;5]));
(false,([44298205;252351450;50668977;77466826;219677111;103265289;186760789;117153904;127601108;3],[10896296;23304283;244361858;80721779;255059153;138079622;232539416;125349836;124362108;0]));
(true,([117559346;64834424;185196632;237834128;193922570;128852693;267077668;262173722;165673904;4],[53097457;72495717;2287305;174922210;64491698;165062083;260588282;80352378;37053559;2]));
(false,([242091844;131528179;33156382;31766539;235343616;205776729;17509206;22234902;261288867;1],[190507180;179405307;211401078;154674237;245105894;148594686;19232916;52136636;58734302;1]));
(true,([51789723;32196710;245708166;138477412;92490356;95541857;215384420;150917919;82818518;0],[242927188;28118661;42557658;200728928;27773250;58760418;61698907;1606899;79657697;0]));
(true,([1477379;179585184;42876328;261250416;259184028;136998378;105770275;165613246;145774162;2],[110305393;93041119;120024963;227844128;91285533;10148076;214213293;221145569;259389665;5]));
(false,([141960607;180518479;184930466;89296702;180536001;80952325;221461261;173939446;142023637;5],[139022863;192129654;183726738;196193463;267815017;66306401;102568525;9741869;152623076;6]));
(true,([44990633;137869796;163426643;24326175;7936586;224110213;216771523;245085232;82193634;2],[152183317;186798669;223111089;146481676;105229711;60928179;258356426;93113058;20390197;5]));
(true,([235699226;210802989;222193837;50331635;139544896;261339802;86132587;45659978;101168591;0],[25859723;113522786;228776225;125217835;125180651;194376592;202307639;5027112;250842482;5]));
(true,([202818037;154993461;99638675;254722134;56161835;4966536;73307477;58010028;155169065;7],[53430806;176587736;118448697;39248463;60878644;24390818;233034764;158940946;204754495;3]));
(false,([13102350;167491128;161447530;260697040;56638809;129512837;17538200;239173592;202477557;0],[119672528;207771600;95511253;73772859;210163543;135779508;21037310;18416370;82301553;0]));
(true,([206978636;132943659;55518848;101656686;72196661;267234162;217356360;143931923;88959824;6],[25003780;147342608;260092304;130934952;177712431;162004724;87543906;100365382;130683340;2]));
(true,([265450344;141253449;199601893;146381429;88745330;175913859;211277327;250591309;194071708;2],[160413806;115667719;44554970;242978063;93185447;59235922;252351778;16840216;240795232;7]));
(false,([183067795;172549911;132064277;250221530;3140996;203084966;143510078;109678171;148074792;1],[257375044;142388132;103890978;24118475;225999666;189752866;207989918;4044031;114005929;1]));
(true,([196216640;156798943;143896915;125520161;204205962;257138671;210109251;235230292;137716826;1],[90523219;80908296;141422339;119696707;1748490;170415517;71956437;148810955;247280206;5]));
(false,([57916669;266512891;17324483;30345435;42822287;10057554;227424058;234640746;80586283;4],[198324997;129041621;58481227;85333412;64687356;27152250;257466686;201418353;179219974;5]));
(true,([61878708;70281766;262696544;43904297;81244210;10263999;89712273;58342737;157997530;0],[32887235;129959534;117560591;110734794;76256027;116217679;167052135;42601517;51468795;3]));
(false,([246637244;204458130;240890255;111217842;115846862;169188878;268257828;102534095;170311281;3],[121262497;176742873;225018142;264827319;5669291;56211230;229094868;234195081;263137489;6]));
(true,([59616659;108466924;151032848;259558921;246350238;234849289;195947179;102192463;164026863;0],[74583871;71397003;101404280;46565;264541959;200725715;98855379;19095026;230742752;0]));
(true,([177093491;165773204;245197560;94707796;200414178;255273481;139757893;175980077;210397192;1],[241467186;146420432;199694669;122951815;78489308;227540122;15325743;28326778;156559725;1]));
(true,([46676523;188515816;146831233;180153119;140231863;128731016;214155177;10312197;27678411;4],[190697812;104760181;160445884;123024044;153260491;264767287;214760725;221377434;117221922;1]));
(false,([242289117;50839031;36671167;244008204;159420749;253804170;195311490;153112966;2283768;6],[3602520;147080806;257750602;140386906;16512567;52685726;48852135;221684062;103080589;2]));
(true,([191915134;112325183;304892;69822771;39308110;167820576;135678078;119793721;257861130;1],[101385810;94329841;4261564;159804804;192921664;202124673;122025950;145538927;7117686;0]));
(false,([155566177;92767727;263352403;80019030;243843445;129356945;57215380;241917553;183781614;0],[254358460;224929811;241525;259940757;192022745;131661924;168666671;259087847;248830607;0]));
(true,([180461811;67834303;74720715;186940582;171388567;267545155;200093324;31552157;188553270;5],[149878830;47289125;66365076;97272381;95422486;259913181;264770778;90193667;84761424;2]));
(false,([209624325;12730851;61335436;232284520;208624497;217255152;55984344;178843005;44905344;6],[244100485;43881243;259813047;186242990;43182218;79372468;197145649;263304780;161351001;6]));
(true,([21241882;74271228;15226608;187680104;114503413;118833707;52489384;245813937;244937439;3],[228173856;229283897;69202306;12748767;61839786;128917085;124463062;32456221;74617356;0]));
(false,([223159579;240727360;238413453;63338765;23468874;255814434;192880849;102238626;221467867;4],[247468656;217882957;20909959;61972701;146006135;103920437;190841056;136698355;225377292;0]));
(true,([136942997;75428853;132921118;165744291;110050575;66798923;3714961;106270969;73755064;7],[129218723;7697643;79789827;110843549;17706842;33514153;47752561;258109887;88946964;7]));
(true,([147342092;3878140;40771039;29392930;25090666;173398976;33643193;176880392;236787461;6],[246608389;149611210;50809767;200585162;188451025;158757021;14558925;26965798;19999991;0]));
(false,([126319654;79474609;265080250;226541568;172897610;65880362;31040975;61354010;51075950;3],[242629836;13182555;143517349;146421460;233037565;150648512;239113144;169371888;201624313;5]));
(true,([99745702;191727484;53927429;38413583;144737208;82176538;27879927;247985499;27491494;5],[9770686;18137847;139804640;197600662;8111934;193307933;148834204;35381652;231186366;0]));
(true,([90094128;29164224;153094844;79153613;194651873;103095958;96312288;162595423;32932991;0],[155970897;78184157;47850122;218749801;125977138;240010744;171939386;219137443;145566519;1]));
(false,([32384200;268031833;38488251;156504680;185390436;57837481;60618428;228282322;21516253;5],[45733982;1082058;146497624;125093230;117884138;162501232;27202411;209752664;122631552;0]));
(true,([215275643;47306319;205554508;68529174;58528281;144149473;262869247;147487429;207151254;0],[107899952;178246969;137153184;204883381;231085150;118788002;168869640;43080430;15930005;5]));
(false,([137891333;265523692;192640646;115029407;89967072;9136988;179373057;241139384;187712194;1],[101652448;262497460;25478479;156731261;197488068;136577616;159423563;240919060;219017989;4]));
(true,([13304699;47844674;211125074;217683020;231211225;137237391;223670616;231158235;27274056;5],[220417375;248425979;202683321;224170418;75895730;6802321;156280170;162772149;252877966;5]));
(false,([61771372;203031752;83141154;241992584;241380936;13333583;183074254;146556793;189789516;6],[163208988;78658577;228257174;3546309;29159097;78397058;76282096;60655122;113929232;2]));
(true,([28970940;240950103;235126768;154303113;137611793;151775275;46065685;47622897;208780306;2],[152310021;19374945;47488152;152166210;253673429;35439768;236298573;135804672;265890341;4]));
(true,([216747607;29301232;253901296;70827051;245238562;195622318;268188224;235100711;138794315;4],[111171132;64609624;81585501;27517932;113714436;3676350;252890828;237615234;48229742;1]));
(false,([77765898;241983351;170552830;182032191;253063082;220062650;199920774;160571918;79871441;5],[90147763;40903974;152060557;205011114;42506227;114973702;41071562;166466502;185841840;0]));
(true,([100623827;144806084;124928319;196052012;67525909;222679608;205689292;89113186;80160283;7],[62335887;3013979;9767825;116915756;191295170;262429836;165077431;120488166;249359832;7]));
(true,([229071992;73352401;83975921;92148417;146305382;212877840;31862056;85238127;116076393;5],[61149681;99972845;244523576;163685382;52692334;45411714;200489263;140564011;9490411;4]));
(true,([95531029;148342650;129340402;256323689;184573953;158555725;178893284;15563140;248814167;7],[55093333;207405318;67594664;192407840;141172860;36975660;260026504;126252707;144315565;7]));
(false,([19042265;189766260;27421749;63634739;114905147;59900973;157250631;116640297;181191799;4],[6412151;173967919;192933602;162073232;136290905;173569583;7165648;201287522;93818258;6]));
(true,([63905028;39917038;70130577;147033516;138446120;242827279;27653296;224307907;248409086;5],[236181766;43471592;218905601;64643251;207218024;18474572;37951628;236681252;68573802;0]));
(false,([70778183;14446916;14768538;112748315;203018079;233012792;228251725;25962277;153046234;5],[39838377;57768903;240621018;216651152;223486565;35323443;89911736;61222441;30518916;6]));
(true,([102324651;7087922;86000069;137248490;267238643;144151861;53790522;261359793;205928994;2],[63237927;114548452;106477429;105666413;189642904;162138836;103278330;68165015;234699360;3]));
(false,([191410527;129407561;145173525;149566215;148239785;220570685;143899926;258454416;123247853;5],[103197845;267205128;41643261;54816295;44759382;184958869;249830536;251919468;230670064;6]));
(true,([237392381;128318064;92493771;108157873;255246802;210209148;25676254;200444142;150244892;1],[106072034;36740940;68019324;159839247;85574528;78734505;7113081;43581088;17140909;1]));
(false,([61055282;8230653;49802843;158621996;30591294;67235471;62802651;227891085;251144090;7],[207298276;207199662;213892435;120103194;156451158;208642171;122035641;127159031;107975368;2]));
(true,([98015149;113689217;30991132;147152953;153296204;10983437;66562306;183140648;81184900;3],[30431251;158063946;172549923;129420473;158591471;92492484;199050263;238200558;128409017;1]));
(false,([208555003;69117976;225305110;50187270;190678372;138068105;213272426;108083289;5514507;4],[119945758;181356135;6442067;161271286;150698622;64736328;231265765;210584172;221227275;6]));
(true,([14378184;33531075;245890927;165108878;68473588;5773235;248915410;262874155;5568097;1],[237860489;91947975;159815602;96786724;65230098;234786391;38846140;246913105;41392182;4]));
(true,([101820700;12033374;39788255;92453005;8285264;185871351;232012749;133782056;267687261;3],[60349254;254702715;173876422;8901118;235249389;65735205;86907303;27811465;198205341;5]));
(false,([11283473;248617065;52041522;16902902;165012205;168103299;197727381;47159006;69833081;1],[126376721;103179337;267508561;217479739;29693163;115023685;128723565;239813402;131037107;0]));
(true,([258938242;117645475;159574111;167171774;215108521;150133504;255188330;181390636;27194589;1],[78967672;241823097;96871162;62865059;139574413;119298527;155754941;97347183;111941262;6]));
(false,([182508047;30062704;41979194;66113261;31765760;228857343;39663879;137964986;250616890;2],[120489762;74152444;158265445;130457787;29029273;111235575;246216008;104150714;115746041;0]));
(true,([18520911;97857861;218690715;237484538;196241499;1320056;257976614;165476145;125667449;7],[65402012;34315552;242280051;208860119;83099087;72182671;149614455;210397181;37661361;6]));
(true,([126518971;201729494;221594538;110212961;174565852;77891125;211046939;49707110;260153224;0],[26843538;53687093;53687091;53687091;53687091;53687091;53687091;53687091;53687091;3]));
(false,([0;0;0;0;0;0;0;0;0;0],[100663296;2;0;0;0;0;0;0;0;0]))].
Definition h_rows : list (list lpt * list lpt) := [
([([140364162;262211956;257290649;2515672;52314430;104370976;76650420;17885709;262626472;5],[132778412;235832585;35945955;96545890;138810592;174958375;109964816;218522017;56309810;1]);
([13953426;124721599;110542393;158089177;143903028;193637312;88167545;229369118;18989380;0],[265348862;256347517;151091905;92744070;118192463;160176598;186795451;127843263;130900911;1]);
([98290803;56602133;246722823;158501197;160480240;240099026;56763362;125270489;249748944;0],[253123953;3598568;40464516;264625170;33001154;224474815;64036782;118014710;136655935;6]);
([56279890;120553299;261571719;37218616;64683832;166730463;214502598;108574920;231718690;4],[124974243;224009556;254848401;255524103;116527199;120763583;118254518;162818437;45469156;0]);
([235344849;180641643;145570798;79814077;80305178;52740225;77647746;57302746;237390916;2],[99310058;953733;87964421;132056524;141097475;167571451;250583500;245797558;235144231;6]);
([213388989;100784759;213160960;239772337;24784357;41015623;130098785;191593813;59528217;6],[146630501;171502214;154481397;140464396;107776195;192715587;126932509;14846510;141339045;3]);
([108347192;76094335;103786985;179014637;158749967;218058411;197974962;14548651;9042657;3],[113921496;117725463;185047867;157212007;151877264;41210749;191183008;6740967;234360612;1])],
[([151782379;14766521;7947838;99890261;250983526;64517679;85931375;116857126;166463167;6],[219245405;190119669;37055046;34791074;246148885;106865403;14464446;3868964;257881859;7]);
([169213821;130808846;181904538;231020349;156992775;225116743;139438722;10294668;158584833;1],[112789904;164639697;213287362;219711311;216028508;188656554;86287588;256102559;91006627;3]);
([62414011;42993052;35135060;90005309;176791004;15775527;84545120;244629528;29808152;4],[212108375;145085903;31078397;253517334;146408533;74837404;101094153;1115327;16491526;6]);
([62244756;200126004;102163365;71456990;70540713;198437112;140376896;55936749;254300187;5],[248582594;62087332;98725205;100937914;176336313;41341847;39632053;250440716;4500180;4]);
([150922414;240011469;191629519;120562477;267738348;137320750;246135148;130313027;160985380;3],[8260085;222480926;117229394;245690145;186972331;174221600;189744471;6318095;69846622;3])]);
([([78604334;111631272;157129467;138957703;262474024;131764377;158936255;26842801;11596713;4],[242573799;21725028;122468568;72684854;158907128;219212727;20158441;119199941;99499358;4]);
([229431590;23453443;222476309;27400196;215241863;10752205;94508163;9008356;155635258;0],[145660646;95441553;159721414;60053657;230165390;91091103;267321724;70100212;56172088;1]);
([200092912;147859260;35891627;97953337;10953512;172196029;52547132;221747624;18495374;5],[97883159;25062138;103284570;12981559;71457904;42902097;261147165;265221893;54896837;5]);
([200467066;183646774;49393734;48103645;14055804;148088653;114723689;16505834;3661496;7],[84033441;82065189;145001438;139222510;237701604;110268541;50711826;217835845;16618436;0]);
([214985945;15560339;214236311;265059313;165501172;24357409;261148442;246207192;184357820;4],[196290579;170070729;205673018;37957362;204800848;66993964;131943041;59062904;264989288;0]);
([9733919;178759265;190285639;146120097;217948428;194261021;134398231;106768243;54922090;6],[5337653;20988513;85780086;179302800;106536158;6005494;42901797;267383299;165303866;6]);
([218611908;17651967;122162526;59360786;102538569;261233334;11240809;198081702;226937702;3],[13968946;13164795;180565517;260411968;134787240;260385646;102484066;217308777;118885392;1])],
[([226715582;57753239;125175970;203617126;215071005;28379205;263826453;181330811;213277196;6],[130015566;14183961;47388855;197865602;193470251;163788680;236551269;253402600;143146739;6]);
([175190741;101072759;121587303;142340095;156488445;227652557;5681385;56651483;216114947;6],[246942400;130670861;41921776;154871540;41424955;2316729;118377401;18936175;158151530;2]);
([120833725;119886698;216823792;30907779;35574719;242082650;178413757;115687442;208151379;0],[178816266;18892170;256761793;89851778;20219951;221405931;47719666;171616651;172070876;2]);
([252602716;110697924;143515566;139511671;128361960;110497988;230735463;169674577;19849478;5],[36841378;180572061;226996351;94253719;219344677;182679120;110092080;232156916;44537190;3]);
([263225784;162130160;190668431;128152024;191744555;128517275;202636584;227567562;257926306;2],[263299987;231321871;232781496;99215954;199837028;205294120;196865016;156725970;209202901;5])]);
([([223454649;11451429;217751639;207598140;21677872;39475394;4584101;51855660;69922022;4],[89601692;152672799;171139142;113806596;132021656;81479926;136953887;6761971;111835265;6]);
([221815105;134245950;239181319;68775640;156417758;188990257;32940023;4180014;80281872;1],[267332628;131999921;179269277;229818592;50796405;84667102;4654177;144427085;82111217;2]);
([6178780;264249377;37000838;222844945;111744928;174667679;50149273;201812514;160611580;2],[126053544;141966676;146603645;15976193;75022409;194836561;155738080;122211624;61260654;4]);
([121881172;68607527;38426705;84803644;252154682;86545656;264545787;65754198;105573168;2],[4737581;96719023;256264844;140494960;18587840;149711225;240926111;119217873;240924560;4]);
([236635456;827564;182903084;176879103;9401517;118845103;233926727;38709985;167515351;4],[189598547;145141346;16105376;152978579;23998628;104462793;43950769;120273155;105070908;1]);
([102998941;166761907;73467791;41085747;186465752;64817737;103656333;160816009;174395073;5],[113887516;69032802;14472998;1394338;193715810;7963206;86300857;209173739;172344699;2]);
([74555740;162473160;85548386;77698439;116624825;136614955;156563424;149985424;17115786;5],[216493628;173447963;102005126;72165654;91921011;124125898;229953137;17076033;36324428;6])],
[([63655158;233795605;233497840;67751907;210163276;20310225;13289267;194048217;8206727;7],[184924800;88805327;152480622;39353155;215184389;43132575;70603473;257366164;199440560;7]);
([84842902;215170274;256972931;263590288;153837198;21140420;124997015;123102172;118118620;2],[232966580;100328154;168739990;265936257;70419359;204051913;124191771;253407075;88273090;0]);
([144624830;177927235;200712259;244864025;52105919;91801247;134931628;147141238;162919267;1],[148436396;59974031;207827624;221325140;95512978;262560176;28740406;216491739;19922864;1]);
([18056737;53978144;110239964;245130835;232485647;136748683;57821483;35391273;189720882;6],[24559248;263963870;152534754;76911528;12520885;267437002;189203794;182962399;44418937;7]);
([130348096;49810142;143572970;20312128;38145772;242483559;138618840;188638297;232819493;2],[142696050;128292063;224531712;30057714;25567731;61297383;10136158;170610900;3004268;6])]);
([([119906175;199540584;253433301;220925200;174448981;15778179;207776646;112045997;225823471;1],[24950822;23911601;29104734;214538610;76476864;188713531;180974122;75701160;110966765;0]);
([107175761;120199545;265642534;120349066;55563237;81861681;136643936;45432351;77972668;5],[186894015;83673419;82210657;77719491;95531418;228451083;86209295;133513432;28291953;0]);
([198416649;56240450;234735995;114655220;99672441;187842194;144623627;102607966;195813494;3],[22831874;99353240;143928517;6816135;147241082;18349663;241700404;47560668;231894585;2]);
([194102634;2950733;189198517;35832420;67168288;228559086;195457884;226951368;194613091;2],[239333441;184630112;133441194;77806360;133953743;222028345;155018168;127414881;221115252;7]);
([203065951;9244480;123485992;197965018;16424566;73872257;122197935;175066498;75521406;6],[83714095;90825000;145802123;92570304;44409082;134948483;190841205;183265065;168726839;5]);
([76972048;241719810;28481679;40323219;71573644;115617691;83866559;100105610;3608159;1],[44107746;264429770;252337957;85071511;15070869;146982744;208180752;253193939;129574978;4]);
([40725280;201505454;77246993;80153042;152766710;30300800;205960735;111883249;260517029;7],[30489609;6247986;190589132;108459992;135049330;124171161;17417686;238954708;157873264;4])],
[([213965912;91056;128518726;102528324;130053745;42991802;144577293;23795467;261639309;2],[92338404;15063261;257626269;183151141;207612427;161663635;200269880;99942773;154353564;6]);
([60725707;85900831;8616280;206796178;10416690;184377936;148247631;234000620;70021733;0],[244995980;217617650;188117771;157150023;170747127;56667566;79911728;110006305;13529904;3]);
([25303591;69381138;266252698;120163618;82753269;5197239;112761733;58082485;130007443;0],[104537806;124959445;199293763;64615597;74084416;79365018;142083139;26671376;236675367;6]);
([208445493;23882603;102181645;11536582;58341436;23871593;66458949;56580270;48140159;1],[56896355;202008054;59745389;14556419;32887867;38734916;132819001;170416252;15053062;6]);
([83728964;226401879;92308071;4721725;69890317;2361491;232355711;99514391;14709549;3],[71608901;132061124;60332356;141777860;187977736;82649415;244506133;18633741;257530873;6])]);
([([118563686;187427116;131009366;68679847;175573169;183618788;37977329;245718144;230883178;6],[233926270;225369258;189624568;212147715;37392470;250753503;85074771;264902502;178628810;5]);
([210775221;187850077;223789407;152740329;259401618;163446311;225747819;180258262;117713275;1],[250392775;153663708;60253144;241149157;14457616;181458592;113210054;17440430;51666915;5]);
([233117053;268155043;227237687;49679981;195195418;183434866;147464454;255226015;79795996;6],[236133715;147256448;157374420;209097472;192562511;156050714;231167544;22751807;12052510;1]);
([217425550;143123983;212577534;13014945;161997409;210108962;124412095;13199849;75881884;0],[119270503;47095882;6383753;58010544;165782746;37299298;244596744;172462986;201991221;4]);
([55319164;218564051;260034863;83006491;202738595;95948064;78513002;98670977;74813992;7],[98102043;29398204;216263093;60516064;245018669;210618987;249307847;109841165;23010286;7]);
([54609055;149403289;230805587;243330716;223929600;80424423;58836531;175973039;244732918;2],[176679761;237392535;169699706;75325929;145450763;97270014;32264517;243356234;120180427;4]);
([86813793;163158414;87364222;170593447;137572344;241359555;187319450;103934914;175034670;4],[266532486;226871693;170811872;75064782;154323456;131462919;42378896;216359800;205399937;5])],
[([82481576;58636061;115868785;202565810;120667959;58322993;131599095;42527804;245443657;5],[150953293;86187679;13072589;77467617;134510024;237124202;202355775;58611400;102208087;1]);
([58751990;221072181;208058411;69525640;223171977;59032631;83395303;184228557;258723495;4],[47081009;56670511;5795258;114853637;239751141;103465762;120662631;160622012;266636683;3]);
([14344027;231503489;184083328;209524301;190618497;22529095;232041426;59738983;117172975;1],[64760188;93386169;237679413;108031036;112873365;151719327;139637601;174109113;132051588;1]);
([244865447;199177809;109271060;213016294;155506033;502206;61179213;108023953;33588186;1],[179437517;52741733;199541801;67846464;144882625;143345610;54581547;69460509;8207903;1]);
([83786348;214485029;92112164;164458068;156714708;193834179;208794761;243268161;88111185;6],[97472693;123046923;198877475;161474170;140327555;129368383;254966225;99117170;267140597;1])]);
([([222007060;64474156;8106960;48877754;55235921;219450697;1107669;122955562;240221203;2],[198508308;253119310;268056465;92514125;181931264;96357514;100460889;142454619;108442500;3]);
([258768356;153472528;26666115;169194738;108795125;122639749;227188250;237933474;123420575;3],[13182038;207624159;38057755;258963422;227937024;246125303;241692583;81902958;65027686;7]);
([151561876;207916884;40932775;85846397;176127513;257470912;92745414;131175319;206168076;2],[78410284;207996687;192383393;67389307;245351831;145888096;192234787;57525709;210939819;1]);
([253354780;97856173;32063731;135910488;114959419;23368062;103702010;241325126;237751645;3],[117268443;261185902;215869754;18601949;244070538;208159115;265139575;141867318;162477936;4]);
([80531028;13384249;202679229;224634212;13928556;161258317;102231329;237545121;144107649;1],[182317556;178291138;246423097;180043693;237106040;229389552;91752482;226822986;78936635;7]);
([111590881;195533677;205128110;209215454;88504778;23460245;127255061;183891159;75096466;2],[152732212;182884886;182144779;154663503;142126446;99694023;174404711;82482000;16559702;3]);
([63071703;72219419;66178725;26331111;221747975;156491342;112538861;56266694;205607519;1],[222141730;211159259;125218924;213915036;16567694;94065701;92387511;112371756;183085478;5])],
[([130568257;222728112;98095366;253388238;43992674;28803659;246273685;208565406;155661809;0],[211570764;74374747;263861410;106579336;152753209;137334288;28972142;203728462;196616465;3]);
([32756308;134559220;257478494;57093822;42116037;251704712;55794819;79547404;95917276;6],[267306234;145012233;1091641;155093811;134821217;224707800;168808007;47133238;189744039;2]);
([11833441;125324583;221102166;224155470;177639046;240953608;191751656;141765851;68076615;2],[37019090;39323818;143966672;178826696;193476731;243251964;260274347;114720176;191333603;4]);
([101250324;142575139;186769536;131725387;94126735;42139981;214085704;262237532;190045597;5],[65476962;25317549;245923742;6546899;217919217;159978700;168282073;61775763;249673135;4]);
([238869073;65788351;39902047;128898633;24804333;140068055;46998709;89261295;170811360;7],[200843992;140151264;164204702;144951154;18289854;230575198;90316074;168345119;165553591;3])]);
([([108003525;8587195;77082004;69051005;79947356;124962235;71739293;155618721;59195903;2],[1662508;145348673;20758174;52045231;224181358;221240524;65921620;178965925;107848928;5]);
([232141570;258300027;59631187;9156714;151886358;230215408;173111584;245265666;34386888;6],[37908831;183403522;140184874;152725541;193219109;206270600;114837110;23635279;116956650;3]);
([186495022;50660450;65352341;10600141;258738061;32609391;10195188;214718046;165272894;4],[109395172;257478810;174453859;268252329;255229042;205277733;249224147;176896870;168788901;5]);
([218945544;257682399;223988968;25851953;259275150;233976524;219214441;214546407;161561833;2],[186447601;3618580;236124487;148630243;60250012;96768032;53958484;67683988;32918770;2]);
([205487706;5093965;75757402;164139132;266222894;4789919;80610154;175000121;56299850;5],[213584162;129675368;25514704;29306222;221874764;23688549;17854336;15382133;107398346;6]);
([179365247;265701839;87792732;175990965;231167571;30903849;217664275;68784910;201734519;4],[202929704;199204428;122470286;18310588;223379248;174218706;138967946;254776455;35804311;5]);
([23217790;39972733;236875058;177202819;256099388;176840318;121068613;248859368;21019906;5],[266753770;88411491;71713607;29139334;145559762;3577012;212891648;232332056;57101396;4])],
[([173835065;93040549;182144736;236798525;240201387;253450907;236887509;116072463;216159082;3],[59906363;209549032;148038847;43526007;61730623;81618458;182138343;112333000;236929693;5]);
([9895412;85493804;97182399;244619511;87354779;30358431;217089866;188164643;13380291;7],[112742947;36044132;12188377;120819087;216653081;206518222;184957776;195032864;149925655;0]);
([12310700;198080443;121200911;265340084;187928194;216918149;160319553;103439547;34194762;6],[222089658;266254458;35497523;139334454;148936432;225417899;150966096;98722141;42227377;7]);
([192095584;5227420;74774415;1119949;146129303;210344723;20553958;174963568;102237628;5],[267128915;265943727;109940763;61671955;74621665;52100304;161383048;2419089;46399455;0]);
([172305797;52666661;6777200;242000979;119116225;261571574;219747262;65453384;200247336;3],[164273892;182748604;27417419;213139629;231022016;247649050;105767362;201580342;91037467;4])]);
([([252424133;215092070;189690998;41024679;16540491;114290733;122683611;124499249;30743970;4],[57905362;189544393;187754087;73144962;145795909;135754540;93300225;229485031;243004855;0]);
([81757626;26657595;263015734;124756801;26496143;122093567;113248026;151105597;46417629;2],[55409324;122107653;199169648;170819152;218612773;228425447;40520395;66953692;260242795;4]);
([203673077;239410534;210315608;20507044;253181373;65597204;26233654;257637845;155860397;4],[66336351;149876248;151334224;138058101;98852414;82158787;196195981;44193985;168970588;0]);
([252400788;262777344;210946440;2449576;186321414;118658545;176475441;35880461;177650368;7],[48088007;5660012;88663027;112782326;28575407;175685351;36693045;209349698;243206175;2]);
([939739;128897671;98520695;150206907;148679722;10765297;174413157;10060345;113419880;0],[199896971;8325371;83001321;163710561;114837138;18322462;107542587;82609081;87705961;1]);
([192367020;150533685;185875879;10703462;161796072;9677544;139816612;86021982;51056923;4],[6116879;88693677;138363816;129607991;65596487;89601711;172936524;185975323;42481230;6]);
([228046273;191531498;250390497;144955603;142655645;170029760;244897707;24728221;115892430;5],[138498859;196247862;79723507;48425710;70672737;105888747;75618444;193925023;242632256;3])],
[([171090733;26772196;206149697;13039328;96461443;33979132;85170063;113068761;114304180;1],[85267648;149785153;213231903;129152898;217520556;246114299;69273406;141880479;21866636;7]);
([75448552;121294161;43198782;201667633;67128721;32027849;239847286;8800205;222739904;6],[105266751;46210949;108606140;223012750;132592793;180282974;248693051;176466985;51802739;1]);
([16728836;37579874;141919953;110472920;44846168;189187641;197108510;173630364;168820908;3],[132202312;81899531;688192;179363681;52158324;97214365;41453733;258181188;11817432;3]);
([53346616;47103986;147736086;197544729;264401302;75848211;250671935;38362848;100734514;5],[177566313;30560461;10188987;36046539;141444376;179724202;238488577;60254904;22943572;2]);
([93058316;95707367;95549278;239079091;9753505;153370911;248827860;198718213;207672085;4],[62968885;115230030;244918525;107360147;184896433;121399207;255043604;166584359;247968485;6])]);
([([110703154;204056903;266683074;257873288;151278039;254351993;174560728;52306730;263938773;7],[122282847;67321776;29402908;148949876;20398230;6908880;137256685;22945356;43592421;5]);
([102304748;159038587;18405915;199754288;236241514;141691408;217321610;204820234;76525961;1],[266955125;115388364;253961528;210946377;172011371;227674743;72736796;18394079;65376445;0]);
([244941791;23679359;71022430;142392275;125626307;195692791;74257673;155785542;181290192;4],[133293680;50128340;43814034;248658172;203078930;164687906;259542867;205043771;104697895;1]);
([244680027;69947065;16114490;232422751;122181004;152341736;57496477;212758863;142819229;0],[70886653;204114820;120538036;133206405;250448699;83810688;262303184;212368263;13184026;0]);
([90221039;153961747;267300234;39673541;133623305;18905132;186707832;144628352;149240956;3],[198889634;148986334;56683904;116870695;261638747;30496010;202169657;148600535;91299621;3]);
([78539504;170017461;134436695;209171501;105164;217565719;264390282;171274754;262759844;7],[4772546;57189221;1177917;216767305;72394231;71337341;133587523;119617109;8460606;5]);
([63689163;222169719;221547591;260186608;133562056;224966324;59941744;163287341;163620537;7],[266616913;216081948;223863081;74876291;54753050;142166571;165354015;194965674;41130398;0])],
[([87134507;92242242;64418136;227253116;105598899;189474463;62882945;34372557;173048217;6],[142238339;183856140;154091534;175676134;24654909;203382660;186845885;80056035;101909538;0]);
([39893559;19200786;259887981;166942740;137488753;430502;220053342;217381037;1954056;0],[72405836;152968260;195650643;108317423;97790022;158131559;77234460;254181525;53956455;4]);
([243832984;146176744;12951554;252408123;37740281;167628373;207046458;216652800;244432080;3],[216540557;261158392;191160722;29380915;77633685;54403429;93409910;215501464;155242019;7]);
([176621029;224918116;227542132;259718243;158392644;227745149;112208426;235704513;83334509;3],[121619828;39480142;937656;123556782;33348033;253292214;96082430;267721502;150990309;6]);
([187866012;150951108;144746874;216511535;209718346;238459210;90735024;131327902;239736024;2],[144521593;172285861;231993631;165183829;221884074;236567293;148984062;50946723;76971951;0])]);
([([173499736;161224679;164611047;11742928;66759377;11566180;148711325;238209782;173425916;0],[27913726;25543228;22768856;52167716;259522407;80069503;99517480;180618012;232707006;2]);
([211601595;92738615;229505918;31039838;114880795;46306494;152301890;126702838;220792719;5],[213406635;248796524;173112457;217778603;30875810;127122170;17115803;24946465;155577307;0]);
([168601537;178375896;16047375;247915594;200172024;92628535;62466415;59552207;73826511;0],[26411300;164245735;168690638;27996815;101485050;172350271;6436486;142733041;64707319;4]);
([148359167;254055880;7715287;109382523;25018040;46991506;193440351;13601338;120409370;5],[7694216;42746639;65473908;75088071;86186579;226651926;193851769;219882183;108722223;7]);
([249128855;230035065;149293063;54607977;96852773;161757390;168959492;188736413;63796513;1],[8717522;64579535;123939577;133546156;214858854;216783812;258918004;223743418;59686669;6]);
([258106028;57241417;236313237;267942189;165740192;206284619;239426511;132733957;234733968;1],[202765884;20502535;194608201;90879206;83113431;181493238;241727216;105204904;6232394;5]);
([239577428;215341417;236688220;84107474;56490579;139076020;3495376;29326544;122948415;6],[223124798;79889859;263658739;250448110;75260562;175489736;126961662;4977604;233704067;0])],
[([214369328;118053840;96891043;222917208;241818227;131679298;44766947;31625740;116783837;7],[17788872;125300959;194837172;19451719;180404046;124757376;146207162;205570371;90010207;0]);
([47572641;250591866;239998240;237649981;232424803;262080442;16532288;100127084;175108357;1],[256072316;22856382;149163425;155437560;234969241;26733092;101806272;48486546;235412318;4]);
([9909992;192926111;258362760;218045472;199847510;95707413;250974623;106452668;145027522;2],[154263023;57220275;71979919;402017;104449435;239100211;78800880;131617237;167466489;6]);
([84507878;209045068;171923027;193042000;24461017;189117650;202829275;165139954;164438713;1],[160769218;215893117;22652645;194897804;87719853;174343176;29656047;221725881;195462789;3]);
([144724302;65431653;52774726;31007019;145265154;152499327;99941644;198170115;188390533;2],[166001055;156042214;226761162;245550578;4607418;54332506;75465781;258266321;259043347;0])]);
([([130022634;79526677;32125481;31474925;155271157;3238665;54368003;101681405;61760013;6],[22926429;232696823;130350177;150598152;121357037;220974685;38228156;210580242;235122629;5]);
([217079735;153513901;198269971;102791468;202984775;84709932;184989033;36815694;202948320;2],[183872252;209484839;195324136;744274;35535635;238525199;8836672;71494285;62253774;7]);
([152672032;60964459;41369656;1505162;220493199;94034382;134420405;136519756;134054845;5],[108372801;26691981;10498058;88002806;96641091;168262654;91878137;256113133;45311717;1]);
([190719767;212801995;5267725;6409141;36506931;169937157;68029530;28702988;267729389;1],[247467004;214213974;222982075;264157370;13347972;263483564;72286017;159508899;261346993;7]);
([5030338;239349285;71847032;189292659;132862803;217210778;84979367;255203806;237943794;4],[206640745;74862409;196146335;226477199;214470266;195271074;29382804;15305371;98169551;6]);
([17700430;145164213;32927333;120676226;49971170;175074900;106566354;5008933;131581891;1],[162201001;10516824;109675482;61342299;163013283;94315115;22045572;5900711;75448145;2]);
([147360354;14073248;63784266;7318284;161533598;78905947;192302267;190763134;14423493;7],[136878088;88898477;264454728;184368379;138864776;157748737;91197029;66540802;17910299;4])],
[([32326749;193583963;11272082;62920841;37685318;135448796;231265361;65230939;134925163;0],[232250832;178998732;250786878;179568437;134666591;179697212;5905199;78112386;231626538;2]);
([74156108;21827780;243168133;217267843;248609588;206632299;191096313;235747041;99867903;4],[185352591;202905148;200517558;32734501;6569464;51296338;143793944;242038750;61970375;5]);
([26747832;188178894;124776590;201068592;136852332;253114054;207278961;235270772;82308571;2],[124205857;67813334;248277598;130131780;220887108;207166671;76447736;162294490;261847440;7]);
([237730534;160056134;30110625;2247734;207477358;264250401;164867196;129833065;47851870;6],[5553834;1738460;192639760;117016397;21683257;161416205;28840128;267797166;141864776;1]);
([51320352;168641733;12243855;166479911;110488504;30221723;21766845;32008646;38796718;1],[43189960;156916391;176900821;158990763;79369522;169085596;80178524;113481184;258456605;2])]);
([([41899235;114897510;168418191;107516331;10626422;159145755;166050983;123384771;172282449;1],[194899814;246130241;70037613;174844007;115330226;146981945;109728322;238357058;135691406;6]);
([119986202;9812458;198247226;89771912;186831743;163707208;187235295;34606314;143937838;3],[258148060;28003731;29289097;238681880;131854249;257079372;21060038;43658720;22620022;0]);
([211157779;125706886;65277026;228142571;35008823;219724698;127758862;21661958;213478230;0],[132003296;132236896;52197154;48824125;85991312;161320898;198841724;172120534;76128650;4]);
([163929139;121299449;161255681;113507561;111438334;244086963;207082015;182747171;197283368;6],[133271428;214923880;171634524;30656778;225521018;104845535;76602676;173325071;69449922;5]);
([134791498;63549063;176696727;181985185;6375937;97253453;146640414;101430801;2294755;6],[262914608;36409962;99900703;259806548;16797358;187600084;125350775;32153781;124536622;4]);
([44156736;219447910;124626954;217546094;247784346;100070743;34408145;38307241;169815468;1],[145299565;216485002;108319217;184004762;180053543;39156403;57747524;46630310;121186542;5]);
([192663181;231361556;62200606;252464219;219607492;119684487;41907263;174982891;206310306;6],[221356486;169507387;161187913;49051210;218160616;84651966;239912709;119851204;68406750;5])],
[([106877101;139451547;180907419;267375876;256448804;114950174;51328370;239723849;212801577;1],[255584023;218929069;180871100;164722877;215561003;186697616;12374847;15655512;19851410;2]);
([74934030;245888839;185172417;40304039;61268702;250942560;50141611;135087128;150900958;2],[154912849;58275668;6968132;203930308;267363167;153168668;237546474;45796967;203166428;2]);
([264044202;188816226;233731464;158359502;213455565;136966256;170434369;78206042;248159900;7],[39142579;262066777;84255214;135975505;19950520;190061168;59150601;85165072;107309680;5]);
([94410076;218130988;13562449;243424459;238482332;88416998;241404934;113994671;98383160;1],[135539115;3102489;163664549;175160283;168631033;129245711;200351046;174902212;209855093;5]);
([239726951;217036778;117820138;226369228;110062427;125330691;186833210;105313823;88933950;5],[79788908;266259357;228130367;155263310;118608169;116204750;257711183;57315535;260595146;4])]);
([([238577782;237438808;151196108;7291729;101332532;124856538;75897915;109898035;47906989;6],[239525870;185764257;128469827;68407586;199681407;25954969;33201699;154954891;198087214;6]);
([212255899;257585143;74252746;177621531;255347007;88674757;108857508;131462737;216670379;1],[59637460;234195426;184925027;6733704;96705237;176905692;222874278;148857686;47615904;1]);
([220503043;45844791;85189927;238501766;255247632;147171875;129684292;119031798;144352016;5],[59204118;152691856;258702589;103331846;214332288;62186624;199962285;26192230;169729510;1]);
([76435750;244475504;189027699;219326125;149716132;189641265;95006799;261214988;120393650;6],[45462836;55551902;113954110;257031598;199173980;126373802;189004160;234109947;246737329;2]);
([100972408;69773888;216229267;247697453;161949497;187049084;77150655;260129184;94190285;7],[37343093;233385971;128607749;90036345;194630289;217868563;114195498;218132723;59085510;5]);
([169752290;68387596;159678747;180816161;103114639;54057524;78797336;197796589;102001662;5],[181726178;249283652;122982005;80760640;93999614;125518262;4217604;113128035;122282314;0]);
([251489991;33388639;167405012;136925192;155080593;77079123;207962892;28520304;125041307;4],[226494746;185670301;83756825;245528518;228229354;107136116;175081256;180589919;143583934;3])],
[([85710094;255595962;52372353;59412800;62000269;77957763;242625030;98027797;245353925;5],[147884400;141521781;78047863;48940484;153512118;197781717;86701378;121680588;128820806;0]);
([37816670;258546949;163040643;162350319;238703136;222748218;99103173;97721332;27345470;3],[168453522;239240049;265479676;175872523;111556194;103239967;92000679;122461103;97266397;4]);
([268110111;55330487;144040657;244339696;230322024;86277298;49529663;74053125;174466988;0],[266202630;91501488;96609612;215952202;149012535;181574204;48103654;220568688;266902847;3]);
([192425375;87927451;73407053;251445246;254320769;132441895;10600724;78056703;137689313;1],[159420768;31845019;29690373;162600902;129511252;159567063;3533539;167622964;177413239;6]);
([131105009;73101708;197445948;238531231;147751839;154652714;37542661;196701849;48677514;2],[181524991;133845107;174806684;228386966;51759451;82672297;225076982;47224105;240430221;3])]);
([([117375506;178733803;146923534;176665112;168185638;190142865;116074534;261181096;118674744;5],[42134544;27137236;44954248;223484037;165960999;78692974;232412;214267230;225582601;5]);
([115990474;213708219;131288746;105420464;69950261;154143179;189925332;10772345;48114500;3],[162055096;241844112;164344089;117205506;57382187;207484256;241881376;171816938;130642153;1]);
([105884652;56650632;34716844;12225483;138442400;109030752;139011976;115195315;9628200;6],[18797280;181117892;112956701;229708488;117087821;261243919;189024897;129723188;188690221;4]);
([44127109;223959114;135303828;135610700;7520252;83748046;230715561;225343411;199640033;4],[30366184;123880504;175870316;1832065;172746977;46777544;96291767;196396216;216264442;7]);
([261576337;136539534;268096987;174545982;103749487;65584368;267532217;199596183;190440101;4],[118408270;239298838;222340179;32534718;153223247;253786858;62908301;220562319;205143290;2]);
([249766617;98114651;199720725;132371499;145231752;264927945;209783443;251834517;219741201;3],[100944087;182120608;123101626;38815756;56863400;59654907;125188724;218629180;70992450;5]);
([11490380;192224374;163298643;173304076;129996001;32377404;44740834;179490779;153115768;1],[189092363;56395280;80801567;1290101;210056982;166492096;66302192;4586017;112689593;4])],
[([106837982;150984018;259044498;165736186;63098085;6694958;238250299;198180824;144506067;0],[181978861;142024608;166394352;211469230;94570069;98555056;54930575;193039374;107937633;7]);
([22827740;95118773;7343322;1896697;22682380;179036165;85166083;122976668;117387444;4],[197964485;239795424;164444619;160482796;32312024;28381452;111319816;171634237;264644783;2]);
([222312483;225200390;16889960;45216276;105654009;27757625;83861914;78394173;175292450;1],[49573372;256306787;48870398;241727306;16366009;67296827;21304585;142346505;9101587;3]);
([117403718;266103628;204209622;50996919;59264075;110610329;28484086;190736661;82020262;1],[144755984;187470590;132553667;218074179;1059859;127046443;43607845;20217349;51265878;3]);
([221448461;118150939;171270397;242183691;73817932;165957197;118186712;203290081;202601951;7],[184548301;212062823;144951434;17784114;116609898;57317657;147284083;73131261;111656601;4])]);
([([199799921;35169456;219130482;144687927;216491426;257986570;45818057;214479061;217276928;7],[206951695;190265509;114638791;13480122;122942403;3160509;78501914;181156912;139439825;6]);
([110125066;148009387;31753695;222107587;23576195;42621562;37459913;126608334;256959276;6],[18852592;50521271;185113792;159570136;133383883;190145194;8827052;9747614;128145095;3]);
([54999762;165431995;94835215;58563167;183493669;130322395;185517680;204568227;9276997;4],[201440323;31939887;159771525;30531976;77561269;174817426;43923208;120377000;108595201;5]);
([40565300;242147522;35616930;203732121;245199988;142239230;211217301;119697664;70452960;3],[72102809;28582858;49088765;115747454;12532836;17152296;5573848;67873212;220224635;1]);
([33375212;217026811;158395001;81071907;66141991;104087792;10213524;260905073;211979756;7],[138121989;101018173;136940535;201213936;15341815;116923741;109716313;62920264;265336373;0]);
([100884340;144396224;172926042;108166711;26808081;178896045;225356245;161895900;246161501;0],[251856460;103254315;131158070;56760839;34628302;267076619;742209;223076664;253594555;0]);
([189483060;1303076;184810259;92448417;230140287;181360884;128878655;178359087;253997121;6],[25921037;19459548;3450472;133844141;171529498;42615827;37984717;202048844;142615009;4])],
[([39458397;209462362;246510574;224446394;193384356;232698613;199123762;205741239;185351181;1],[228003763;34396239;132548925;83531441;175282721;76594445;45423807;69795912;206876520;0]);
([216164052;147563800;81037610;167297312;88080201;198428068;239574479;235552117;74419480;3],[83549198;103921227;184993374;112826204;164068105;124084214;1932015;191361808;56353665;0]);
([258635500;253909428;93445957;148801485;107603900;215491170;232270665;257524519;210182778;2],[100701359;123189327;111233669;200852446;240679733;238940108;18466059;125455921;60364534;4]);
([229846188;36869732;173492623;245603553;261899225;192012010;146886558;151134349;594061;1],[68412979;188881678;176920574;182610123;21925902;148629477;94723645;153057928;25043462;0]);
([234089895;19279344;98618869;241670922;97389462;60346675;161258661;231971020;84211065;5],[63798296;93898305;258676558;173064286;50500696;39742080;233450615;46940959;209006923;7])]);
([([155033202;48493024;59114001;93998587;166105321;198113379;268336020;112397283;41217078;7],[59614982;129296558;98645294;43200730;262335973;159499506;255566507;49334697;78792203;2]);
([171684937;18307468;31572383;50859163;258508744;135760201;37412734;62355690;14330471;4],[172284170;100022261;6600696;130800968;18931944;234195692;36174942;244332766;7445339;3]);
([257259792;110549964;168212673;174559018;107792223;149569266;141539959;192572527;226527506;6],[57067092;86513688;170598716;130381099;247821130;2796543;39215495;138802938;219087849;3]);
([153460406;167975551;58390182;2137183;91309696;25773632;67544160;85572541;46212084;1],[5032696;23350340;247948303;131184533;125530362;264448270;58210060;18382133;91804531;6]);
([233179363;15162803;32790725;136374652;38598383;11658987;192670026;180894530;209637718;4],[130249008;163453410;252292684;69041171;184967992;259322145;136621623;168956111;164888372;2]);
([140954627;26473214;37739109;69540051;255146197;169162491;191488184;197415533;201223588;6],[47627480;39051210;144889120;82868458;213869929;196468175;116797403;8451987;39489322;7]);
([38743711;124665995;118068006;79322039;126627534;257785951;178533211;42722999;214352721;6],[215122302;88849789;125136675;265118299;240986958;36698569;167463320;98601689;72099778;3])],
[([50943976;29584162;45640967;69750288;4886761;94502941;136699260;243301680;104426060;0],[27735348;145582085;221738445;28994147;229446132;125928592;120864707;97526089;34564341;6]);
([81594578;40809859;50748560;228103398;131770964;38383005;49942156;215693666;153388127;0],[74612539;222618058;15724317;250210218;233481307;87524526;164099046;37595415;256466399;7]);
([122151287;154487840;127046870;87818773;91238566;139618388;90726133;210049406;236927341;1],[8000497;106791535;130832829;187285147;256036587;267501883;141538208;226420855;235951124;6]);
([122582220;48253063;182579611;76873205;55348854;193105552;151017118;85363100;254016175;6],[212716338;246230609;18022462;222835096;46850424;124365278;31081731;249070000;172578749;1]);
([93314221;95733616;185246690;83182135;131855086;48065315;163148186;165825384;49439256;6],[181900304;73886559;230166673;122877977;205029406;51058671;252297443;172235944;3951554;3])]);
([([88116370;118986086;194584767;119651256;77136214;123718050;247427742;203240240;28678784;1],[251478645;114531651;224595145;98247674;155995817;61408486;42835343;144432323;16895645;3]);
([17275828;230619772;194777209;239342228;62544918;192003783;76723643;67311979;89630754;1],[241049414;247738065;63890416;178117790;105643603;476751;139520495;108906403;105243806;4]);
([29475042;82760697;55914411;119343650;116393197;240408519;221487056;187885103;182815005;0],[58764453;55981756;241136797;9254098;102117479;128524904;99742673;91971934;17867490;0]);
([208415264;80452592;165136934;267135629;132781170;260650078;135380083;108343092;125172051;6],[177482210;163219863;127096709;258682403;58726169;7408338;172784412;158196233;47685045;5]);
([146761290;170982542;61878160;207732128;88263726;100566680;169999187;121503171;42866676;0],[75720661;79272281;76120978;94039214;177884756;91808702;211355324;54448258;195476316;3]);
([105006939;175353238;45857977;226453950;69861779;78630705;11732910;171876539;38763886;2],[183566373;67573097;80077735;110762859;203707416;224508964;253889615;105922018;162273680;7]);
([249021545;151513947;187490902;229439904;164080614;89051122;15862284;232718281;148349265;5],[138707100;170255739;259741714;243636931;100382083;3715674;162013947;92899335;122198549;4])],
[([19556930;170112633;119643068;234198854;240818938;126916311;117207232;14901571;35507404;3],[40802017;120724179;258439193;177538134;188089176;66383299;233393937;138739234;241884625;2]);
([81897327;117318587;88366237;145230715;62796588;4376246;80772934;248143639;257186616;0],[40928096;128826145;207348030;143372826;188969766;55377013;33984290;236798214;135499540;5]);
([58940141;255631542;240219471;177036913;107109106;93777676;105233911;241200619;55811623;1],[202086113;188630076;33758797;198192336;121643834;159533913;164004949;146060903;109200150;3]);
([200332982;95491342;245107689;236868458;157016162;72645460;251210668;74650991;101351340;3],[15690239;257029591;110295581;242501255;94602725;265017098;50027118;234378039;99123799;5]);
([216551170;130440519;94344874;114707218;226819440;85987611;9043560;2222220;81486262;5],[226023586;245349829;14691222;210519524;74596564;217193996;145691517;23565075;77633489;0])]);
([([192000842;258812868;97661190;63920460;35621730;128139856;127734981;40958336;219423244;3],[171518411;77551491;261559443;233135321;255294563;252721660;7878731;30379920;239797836;0]);
([152146129;144794194;10062783;209047973;6715049;119918420;28594537;216621485;52361118;1],[249592143;73620047;226770113;179872792;95408900;47755515;35217976;238196730;109229970;5]);
([64525594;80411455;226703502;95284832;218811789;4409968;7292778;33278254;222020045;1],[93838388;18753929;217229095;226915995;81811801;45692394;207172711;62797221;136146130;4]);
([199759634;25373468;40562161;203121986;56219058;130467087;94104861;215235579;59378056;5],[137090298;130427002;164219246;123960933;175602693;107992707;184457523;241495588;74031603;7]);
([17990205;83041332;148364531;7815153;790758;6797610;82940428;49589715;6728404;0],[129386412;81110268;70138482;117100875;67141679;20146248;50714969;71449841;91447827;3]);
([204159422;136401202;24716825;63248104;354957;2538322;150700882;89396317;205800016;3],[148412025;194626208;235354240;127791076;234550124;133077917;117061222;46004695;9490651;0]);
([204566844;189596059;100081906;116132484;17922808;150539102;253853453;191293904;181297826;1],[222359231;41095791;164989735;179763174;120486245;121537094;106652207;143059258;217017804;4])],
[([198980557;3493925;37975702;110223187;30454664;39319180;258774008;113813409;35369895;6],[6200752;205018727;24627500;71099217;129078492;51870587;240224182;237745831;260012467;0]);
([247053704;120383589;4743099;15553429;5388896;124896474;159359338;152215938;245678786;2],[95290584;25241228;181563491;180491969;5723590;203868858;187117533;38857984;168649447;6]);
([51080817;190341307;15759124;73164484;105859111;121025053;196558524;45977320;70980322;2],[8748501;46823234;49476430;230313218;66064659;12191886;171228528;28937751;84989859;1]);
([128074487;170506982;229545119;89741679;106198311;246440090;262550579;258239873;258407625;0],[235128261;158092182;33555877;263383666;93541409;107007705;92030539;232403444;221797741;2]);
([174969761;24344327;191615902;211765459;74451500;227765174;119022373;62830607;151760819;6],[55766070;248993811;4831621;171419007;16292089;33600989;144805029;97337870;252891170;7])]);
([([23364715;3737588;204087858;236991552;129965202;210902299;90320587;198072636;226246548;4],[116168034;25759199;181244376;190076337;117328473;48868624;112879764;24382560;85188431;1]);
([170602863;11271916;126572523;200850371;150983185;163448687;34461563;103060539;265946183;2],[151218447;104723737;154521421;106108951;36789986;202019003;58609564;62046745;246865167;7]);
([43200601;11390463;241751353;28747878;15672878;148428297;149606155;16075984;13602159;1],[161388677;166778846;251703840;163392002;105921768;200160073;27992715;220688455;133487568;7]);
([43246979;146485204;211606111;143124468;204688631;184155879;208463892;54294563;63123500;4],[190668610;254568470;56490114;106141957;105617967;16017471;10501586;41109720;238700173;2]);
([259171509;120715845;207258720;156869063;260261637;221278263;92475182;206467232;19118452;6],[217418015;87495270;174807491;180817381;232026670;29747363;41706065;219977285;120895189;5]);
([250204092;252856813;154633763;216746089;128202211;148312551;146554048;117546382;42438671;0],[72049861;150800423;183863449;265707790;192971740;91456846;148862377;71391027;235100667;0]);
([84215561;137770827;126638131;249920939;35414767;173206211;248864089;79306819;248151032;2],[134993466;242567748;222078530;67938843;237001326;15398155;233834400;206974631;216001650;3])],
[([18934209;125891498;228360161;3065277;207228380;57821625;242673681;168664152;212476066;2],[73143717;89387655;51637454;135020035;108476745;20868482;96060418;137003512;138847889;6]);
([109904533;197731053;181639295;115672106;180240407;58419666;176694177;149290540;154524979;6],[124868431;224319450;201969286;142169426;249999511;215851032;128260453;108694654;106921399;4]);
([53526784;247930175;123513444;901088;53584876;261046811;198790176;184447921;127319186;4],[28701932;205704138;110660399;263893460;255929365;200615324;208229768;215169382;86447428;0]);
([210311711;200323524;18057951;193224523;190150147;70400100;162508138;158525875;44470166;7],[67729026;91666119;267884704;231522383;55761148;66575354;255862008;39481592;258680867;7]);
([247100861;170075655;234486718;243649942;249530060;93267283;213193119;125994958;71593712;7],[72557319;130419302;228264390;22239171;177789134;188918698;264763272;50838266;128555056;7])]);
([([235450344;136409094;146876230;199643831;18532245;148234753;112542031;221442289;111019988;0],[27053701;267827211;129687900;50583185;211590729;220679090;231017662;699632;174292080;6]);
([248992903;216348500;180780609;84073535;88700602;100031900;107144732;102809717;197980907;1],[209145346;198210081;134737985;171651284;162049656;80822214;156379913;236654735;39214986;6]);
([197076249;82009326;166651541;64086588;259013096;110849795;51162095;167475544;261382450;4],[166752823;71378770;227952774;250906326;203132101;85953723;152797252;38056682;125672995;3]);
([32344635;18389114;237385504;267600773;49322004;112673452;27214455;254376941;142434292;7],[155344629;168338175;179026851;52134545;174621687;116142686;123972441;41900290;150627306;5]);
([231857825;178076516;110715139;23794790;131716954;13531914;249049778;232673726;246813279;1],[172870427;90796980;185708591;129277649;180892177;81344550;86145442;133622597;208939089;1]);
([37102905;77577680;153847942;89464225;173923578;191465137;29145483;262617016;46169519;7],[253010582;223332683;75207623;205198178;171152859;173331037;151852361;148931339;254015595;4]);
([89578017;149603551;147484645;175740309;265729207;171731438;43956109;36193593;69571267;7],[165477977;90307445;49546442;194464626;202442511;79740862;153317726;162441597;216228917;7])],
[([202636810;191791223;2361422;154187682;84149074;93560484;128156420;38699537;70145961;0],[255749943;202760223;205262645;267512806;90962786;194548359;65216232;14938099;197570199;0]);
([202456726;105295790;265402501;122508956;94247712;45933065;252749793;121212150;101105211;5],[56637324;84497671;129618410;64428925;38451879;6091370;192397808;209042573;213184797;6]);
([264513041;59163983;112809876;255466689;144301568;111172094;44571276;32452179;25701266;2],[204097123;223960026;153183778;223658500;15363056;192089347;265698310;56997764;2022135;6]);
([145849951;210237604;182819651;244723018;20544208;131964184;93204494;190450506;29272015;6],[206324445;109790363;101202113;186095185;72925641;98466135;220235919;199626384;71376713;1]);
([19595524;46332050;228066512;72681503;261895008;264777451;72805718;199382068;45959302;2],[48363362;1415149;165182073;250670662;248352485;225552515;121476711;138015256;151868303;5])]);
([([85187779;210034879;214010701;208284316;137935201;70697146;250056761;218488055;100425074;0],[54382005;11519515;18136672;254809530;155323037;87883327;31133451;243151433;191840799;5]);
([81169746;171739545;212518032;173410050;80805960;208987198;172236511;124906568;34973131;6],[251042007;252352739;109181214;92735802;160469955;231722783;141333083;52320963;68378140;1]);
([69308489;149574683;190812523;237699719;84154494;72031883;131013096;17944427;66614265;7],[262331775;86814212;242243781;116783548;253424369;232079685;137870707;92157789;75449028;4]);
([63542152;175367563;187157653;8766460;78017938;122060462;230607964;181687073;184297815;7],[256264527;179314104;84790884;236672360;12131711;188871081;141021598;189785483;141348207;2]);
([203200780;199190970;67403169;97373721;144070749;106330105;160358607;89969581;140999960;4],[25569827;209579646;16460748;68446493;89055268;49415818;43787446;243037959;2840630;6]);
([235206460;172604576;109462728;109431077;200512326;45135469;180654480;169197379;190208674;5],[118371366;126795448;101621027;128392308;257654445;190512841;234599778;147146704;34781710;0]);
([235200005;128711629;36467375;209575348;86110076;152424461;226652758;86789887;49541811;4],[112611236;106306753;167044226;213829788;34567110;58291775;70492164;228395511;35747964;5])],
[([88747211;255356121;227553429;195765526;12148442;143298953;159341226;218222393;41821667;0],[236850472;32375332;46564878;177227084;150090311;231019130;187198037;35400433;251643708;6]);
([188846292;172753381;151128297;174159443;61700413;624322;105073366;41506214;202082270;3],[213087637;63400355;46083618;134575265;198126294;260387849;53191501;178676863;45115749;5]);
([148846904;141588075;224417928;153749080;199562673;241864734;169513116;97794333;9793408;2],[88679232;163263725;168130186;27473535;55342808;167414240;66729287;166563751;186147474;3]);
([43521866;71265508;212571012;191088169;80234183;167877;218942902;98123195;8913006;0],[57745415;98296817;116779004;18441729;157828809;218996730;225869378;177592130;154475872;2]);
([138499534;264777460;193260414;25500807;156583997;196299750;951125;123744506;169853063;6],[93434895;265162379;242461094;5767428;151709239;246661041;58416874;226446170;77464166;2])]);
([([241392727;166295321;99195712;219068972;159321140;64716382;26911887;49687297;261177268;1],[19583299;252069444;91222945;198375870;124111197;139925487;180481947;257739035;31289986;6]);
([13233050;34322677;217649267;33415530;197770512;192390967;86851423;56355430;235536116;1],[125219894;130989195;195014075;45547451;245403596;188535132;228736563;190631573;59793960;2]);
([117675704;237899691;65429250;100266502;209765581;218542566;20847167;98070217;185317893;6],[92838192;184576495;128385286;10730145;140841892;72890881;183427913;158959521;103268001;5]);
([190618972;124300706;70414736;162631058;71425818;228435234;249279365;53623888;159823190;7],[119598423;121339937;260550533;110899739;42232202;47572709;247212776;150937373;107576437;3]);
([236070907;15331505;207882940;134883295;162748141;93201394;206585319;220776561;162736262;3],[204651336;232369977;94629818;127198764;105791094;105409830;106877087;14507892;144545624;5]);
([236392466;422896;207321507;86211150;32781335;81262288;231482928;41751947;151177815;7],[153800961;162415913;82531758;40003406;157126975;194932215;124276821;235102739;52980827;1]);
([96867332;49818664;59683735;58271747;63362635;145686948;215833257;205661108;247843350;5],[223821371;214072595;266501451;164758133;71440198;6049243;58543033;264331368;169017097;6])],
[([58902116;147559677;243485987;225776071;115350862;150414592;255745516;231093306;218834053;0],[70413479;98071690;78572798;199540375;163481900;181394420;193407447;139762833;225723325;3]);
([157660969;46552381;134132639;144646586;26360757;226406848;186660833;148356340;261411256;1],[117981576;47476134;115022179;167591424;222669842;252020916;225951139;221206184;17698043;5]);
([230964606;215009676;268287762;134613581;167150822;238032257;12380082;100170908;171066220;6],[229426566;69111424;249294725;252850534;64973554;97861898;16146452;6224021;151033762;3]);
([144974432;222184235;70914378;129163473;154506465;110789266;266827170;240304412;16752243;7],[198429942;133476069;51275451;149364255;254090332;249221372;63542477;199623649;150872091;0]);
([93700545;1617693;9860851;247663562;114515396;235249448;96979858;215688875;248447454;7],[203851705;243791078;104990311;20620280;124960451;255263859;36347478;258876280;261663245;1])]);
([([164947541;164015309;226847379;52690002;60209850;123356145;187699626;102399102;33005002;5],[223063234;67249763;173645195;20644529;142204840;258937129;223555350;62693888;103734861;5]);
([60284295;144881525;258046528;145266756;168620266;267198905;267915576;257582895;27603468;0],[123506672;191919356;224942841;261199095;41890272;125467418;181325786;254922632;83491169;6]);
([7089592;181772349;180860592;189666640;191369462;94889482;223029333;122180941;17756518;5],[74590516;123293289;14135566;264279272;226726401;76035551;126676162;252465761;235038220;5]);
([64826380;36767350;181103818;68191310;77155015;234338134;189635186;24316497;174858413;4],[123329169;162023207;100482267;7428006;106981973;98890960;94589842;150398652;13868984;6]);
([20100954;233468720;232484285;68698723;125210013;30452604;259755230;100569356;179262483;1],[93001870;65551020;113926463;181625099;106280248;118949258;114007998;71756773;147339476;4]);
([115559914;247120419;181956486;190159807;35296210;202344706;62093929;260276086;22186404;2],[62425349;91184891;258935303;28772266;189321182;48752367;203297660;253923773;132096885;4]);
([157307954;208473816;120284553;89548680;24843467;57676802;146045295;246246204;118226747;5],[89701225;121040087;209025427;16372801;33016167;210948801;40224343;102106086;33329237;5])],
[([253381259;193105899;65480962;21032031;58562667;165371569;222829868;152657463;239830931;1],[147773544;103635962;15073940;245729245;153579660;133572704;18005356;265801307;214229463;1]);
([106416933;190639919;106614992;54626411;247812605;237409446;210191305;128648348;252999622;5],[49487657;76298048;57917924;150257639;28105221;33106765;39123342;219998748;58666765;0]);
([187750643;53572434;187637233;10492405;12457085;99603681;244911396;2969970;267291104;2],[20537019;479989;111596226;224805370;115156594;148094060;171280787;69869494;186135164;0]);
([52024841;59386707;154948675;264945092;244776335;153202713;37873674;234057005;48331982;1],[85103774;164343694;3893833;135101720;3866458;166511634;40969546;220229279;800468;0]);
([9318812;27490173;8337496;201514650;227037142;153420747;74203067;54980423;210105833;7],[28114109;171894645;141430640;76971891;127312661;160071548;199814711;31165305;71492042;2])]);
([([62688456;60514895;96250375;29574114;150446659;202919601;150341500;161588347;223518249;5],[94266869;213165099;136137622;168824701;60506816;45188355;59995243;2857884;165644572;3]);
([210108110;253445679;143110021;484230;72161691;43280558;72000042;173502556;193798589;5],[84917015;245197847;107408873;128407526;31328777;65870681;20697699;84168299;206535128;3]);
([51412660;240570938;114073972;177865535;229417335;39090793;233748774;106068137;255572088;7],[122416026;34048384;112639941;64739665;170592742;135490507;70529014;120249606;182854118;4]);
([125547766;157964322;80753023;23631528;380455;54418525;199095629;86499519;52612613;5],[206076460;60151040;31520981;22746607;223829222;97742513;59860025;264496775;266610817;5]);
([176894054;137640725;259074191;264534972;117542704;70562430;249622678;134072506;100151260;5],[251606386;264304789;221333924;120375487;147885820;97282185;16448941;227391536;10287667;6]);
([261149385;249893392;103513890;102446085;136626317;224455548;173950669;40832343;58958519;6],[78278942;196360977;72106120;204636176;200618082;244632974;46411737;226457142;145082775;1]);
([99446021;75987028;184580902;38349767;156367457;32973535;66509288;48783399;178752646;4],[129571022;193466773;245252357;104011514;8553444;235646290;16218078;15945025;254891307;3])],
[([143861132;160967364;8256798;194802842;194501637;34637776;219401763;119092194;244849779;6],[90832071;95116336;161045983;250850836;29184435;254583133;193948141;222525203;188098683;0]);
([237226414;174581105;42289199;225354102;230943317;187735940;2165285;23024473;264105049;0],[163318607;46883833;267784271;204561532;147012460;216830211;145182357;245914172;237869352;3]);
([71989971;146941055;27025943;92422470;154899895;56267168;208194681;122552881;176731267;3],[202970406;14023246;247336365;231137218;201973495;255051801;176240662;128227921;204826170;4]);
([65311138;47051332;145482159;145105559;238444569;149297295;103841845;206976928;234030872;1],[176169076;36991513;223530123;157372826;151774337;213498147;60243284;259278181;200613137;3]);
([179460020;178762776;71028277;101268553;253067604;130679606;3029687;116141802;206806534;7],[166476676;7670683;1085750;8177026;246856374;145597669;236717034;12755320;212674721;1])]);
([([234974276;151386089;13362511;122588690;6782512;86352147;191626600;1253246;49076550;6],[116241610;75819269;159263258;136208614;263889936;198364829;83652968;232637863;147868229;4]);
([97837899;8540889;2250396;233272941;58470218;137076260;166911743;143527691;100934241;1],[43381012;53130778;59359775;19246635;264137578;194400304;15710822;136935661;67135048;7]);
([43956236;11942350;90450340;125338750;97370162;45359196;102423162;24346051;250989333;6],[247980297;67191758;170845266;53243458;194377600;95481898;142341946;135737966;106050695;4]);
([74575656;143536649;222799936;107556185;78333868;245259167;118253262;217177263;147268669;3],[162955080;58560588;76928364;52890269;26829866;223647647;201389022;120984219;213945482;2]);
([143667981;90438929;102336235;206185917;100673563;230689506;15088362;170296055;80158988;3],[119272194;173059273;230748159;231628460;190314261;91860642;114063013;169106235;124517348;0]);
([9220535;258190431;127941519;119313140;259472556;215804408;14448248;47706087;79698935;6],[77504283;76459911;238249935;206325061;66119817;17555716;160474123;44828433;222569786;7]);
([217755541;115997610;143559657;258114349;267043338;117655343;133985727;105784174;5609628;1],[132238604;190439950;103699496;230257031;251494469;18402688;33815666;72662049;87120262;2])],
[([206424280;184504463;127204060;23325514;170911950;224562949;143051884;64631380;10552209;6],[35953285;123772646;245129197;15353257;116371269;233315545;115362859;97120048;249526129;2]);
([40351987;224106010;188609010;224093109;100500669;213383233;74415904;124445617;214588728;2],[119785969;264408394;154675857;7585193;144388136;8034781;69994608;119770332;138376011;7]);
([171034657;29264860;170066683;222369235;219601250;246360249;64544104;40080037;156695762;6],[87671205;208024542;7752953;220285908;118969629;203122065;140935647;198296614;83510447;6]);
([49845246;264591603;225763792;251420962;252726198;85070077;118615983;224426211;76616068;2],[36628528;35870934;33143542;19690528;122691361;95666069;141612452;138968740;22524924;1]);
([127991110;198558831;73882518;266018877;209629080;192697801;149917469;238835413;151323887;6],[123199870;26091986;137427076;51356257;182705205;262095039;239271303;104943641;10441872;3])]);
([([159427901;14740088;18016019;77231478;71669663;161157857;215949534;41829926;233558329;5],[158519700;82280810;138589075;238583320;29942607;203120178;156302250;85679528;10536008;1]);
([30309717;62362711;34383464;190036276;32995614;57416014;7555254;58058234;1475163;4],[77801968;203116351;185729183;137536889;157432024;250683015;135335632;69891387;51028286;1]);
([51680500;106428292;207486966;163358746;11953180;247488984;115926272;99806098;143112150;2],[151777807;234908709;255187234;263982996;59847992;211179027;266611574;97707083;102107267;1]);
([108304221;89471563;188354537;214493012;222675810;18807546;77084051;185240816;77894691;2],[236926699;13901741;61958768;37605753;28332008;15743507;32056088;141356449;161123392;4]);
([169142421;242230209;239278034;91013402;114740909;63152203;263217356;65736601;212671457;0],[164909698;253100775;131813795;85705333;134936942;8033566;46024671;76205531;221104222;3]);
([41492189;262799709;4732454;22072224;160523903;227071836;209780056;61643008;225040153;4],[135870359;128999204;183690974;164974581;151809041;204146816;160808298;58980741;218909428;2]);
([91348576;224341178;99089137;63257436;67870705;79809183;141030053;46223907;19133602;1],[149249897;66155387;120061228;44420574;133967910;172939496;123959442;118884544;4798670;6])],
[([174795513;22902178;110328994;121787807;120737250;141432829;85517158;35247124;195837773;0],[255586944;257083979;210500649;185605077;252816584;48086641;224288937;193693989;114131826;1]);
([149869676;241320791;10551287;245048338;55670524;129147891;117343052;43137218;68775887;3],[224248417;240962247;80484165;243468268;96693494;99544286;86597627;126839447;65418342;7]);
([117618205;195438923;64524885;249123517;172084106;223157969;39883683;29840240;156344433;3],[153129528;3184837;210915746;140697162;91257394;102302463;135297121;140554050;18935641;4]);
([16781397;128681088;247318355;232623533;242998865;64674396;210719995;248163673;55643215;5],[20076429;42620354;9013946;105307678;62565220;242780101;182249831;127310436;265528097;3]);
([43107535;166884314;122638718;23881769;79013146;46722428;66374769;162353683;256335136;2],[214089773;68389014;66695315;20555897;50437097;81450511;195203415;131285541;13635522;4])]);
([([69632316;131566892;24811268;263593352;81182586;7819372;213836487;37893978;202801450;5],[133084632;125830693;79525128;181328532;46999372;16795150;197888542;153753586;112883000;7]);
([21003783;188939018;1376300;263281521;257095587;258032741;4329294;165913190;198142003;1],[46105433;125286195;213100476;209836736;81655601;39319570;242886871;58998739;164297508;4]);
([179592164;145229895;42226321;169056064;93991191;205871367;172444126;206580658;83239557;6],[225278535;207307128;131784700;244839515;249812345;208895516;176708349;96151844;265144715;0]);
([136641919;250977209;232052151;141489485;9894152;109246979;35411796;140093571;49916696;6],[184643802;67641191;229030641;36369975;4337405;188568408;211726713;146149065;229041185;1]);
([6781701;4378442;245206541;194300622;172462499;17871699;177470811;200844124;130071613;2],[97329255;246048223;187226470;261895546;198425619;71395680;234067039;124031968;122939156;7]);
([8000924;135870230;149721474;31102907;255996165;220940364;158043615;151993983;157507816;3],[260358316;262749327;186884618;157526517;91856568;265308463;217386223;201248985;35378590;3]);
([68611557;70710485;240339416;241370121;47492108;164688616;20830734;243933381;156580518;3],[144524120;116929612;74054218;198660623;203669014;236224949;142667871;255261425;130304833;5])],
[([29134437;74315917;150584776;109214508;92092876;21583220;46615200;190964612;5107216;5],[65613543;116952460;262417862;124963614;112119684;112059919;34806957;154465778;189459340;3]);
([248775094;4807345;29409709;80878752;141747207;146606718;256736828;75972695;193876690;2],[2006957;54631950;71012174;116140486;100210862;152013705;179361271;98501551;199378867;6]);
([100352028;8145006;267947480;110669068;177342936;77903796;254122451;259114827;59975126;0],[177237171;208077788;183643820;69786117;203212673;128554215;107502465;30589035;240196641;7]);
([159554271;105535158;230581396;89028706;213739347;117041148;104943185;249486699;11863298;4],[67526489;18488042;51754499;194301950;54225221;96331011;24190983;96277354;206370179;4]);
([80997980;201003258;135147843;165468986;106762;50558545;122930467;242051633;190393034;5],[112410726;71008863;74028972;101052078;146348742;170338686;124694138;235255078;36794928;1])]);
([([32162137;73341903;182086154;184249856;231687260;236876594;34278517;54530655;231649219;5],[240379885;236184943;99032596;136682470;246655146;193641241;223256905;231587050;94121092;5]);
([118281286;252906244;7349817;264593458;66487738;261425885;37419114;138440681;244237781;1],[94167819;181120418;139187595;15612491;20699453;264235202;239144103;252872655;216278538;6]);
([256390864;183587113;112680777;13125181;255751319;115649252;209282403;262241995;60082797;3],[74014115;187892620;176302021;256119697;73809131;17689520;110917849;215860088;26419059;6]);
([181640023;215394322;158183558;136942118;222944508;173393186;223453434;99860054;145071205;3],[82036663;135271793;212780504;232928265;67758646;42977146;151619741;84661573;130242154;2]);
([199756240;10607252;256056449;10580227;235996837;58344859;20468712;217184937;261795202;4],[125196700;167210698;83751006;59233198;98549405;182431966;241505663;20278389;182469930;6]);
([248690569;61654664;161577336;71381423;44950346;154221273;31284401;134144669;33053146;7],[184511236;55721236;139479192;67891327;5122777;83331706;61529375;152524960;51856177;5]);
([6567834;50442377;34441788;200139833;104883835;179671173;36774893;164944325;161712898;1],[103321569;244874920;129507870;81200145;231411026;6785958;42166705;180434194;75737863;7])],
[([66024005;138125163;47408465;228682850;261331485;264647101;95840598;30354425;249308942;7],[254306061;147007504;265048063;2340869;188009018;65299563;225720984;159115946;6839204;5]);
([140720311;102660080;232053778;249916641;101553375;37146255;92172840;52637915;196658566;3],[148574942;247864897;196795133;15387062;111927913;188705140;121217655;186637566;117547454;1]);
([141291431;156266094;101092636;130818157;130122168;136491531;39856425;112063106;100441044;1],[52699119;154750954;132910642;80262807;150868966;121033112;108203955;28990192;27854823;3]);
([105649148;240186409;248689174;213513633;90258522;230003314;84418962;141613353;54547541;1],[43508434;263568240;199025929;164296288;250944673;6021311;104143733;128212065;245085894;1]);
([45972611;36563775;263778756;90737108;227657918;146239530;221804433;1909273;164528329;0],[11104819;163542704;152775701;97940999;225687714;105144945;156216689;265658554;216173230;3])]);
([([255753299;65224085;259559510;197584914;91186696;93914351;166362030;165393915;38284319;5],[257846490;78365237;57684577;41252471;249875065;43602563;21977296;6544216;56471645;3]);
([187394061;214966370;81371313;253961141;124830627;148518705;163603181;152427321;203850823;1],[161684309;164908568;238640382;259666167;255670895;192118493;132722233;252943296;265762142;1]);
([140150228;176397127;151476752;226202296;54506212;248180403;35270973;263866956;249724607;1],[242189917;24976428;47836998;197811967;133369710;261426570;17082156;94862589;20096078;2]);
([8754271;74193742;115998726;163391176;171181886;49996463;126528308;128122976;59052541;3],[171882282;158755692;104360209;92292782;193154224;33461771;8641232;62425234;223686599;6]);
([160724862;187023345;250371111;236729149;108474708;49541821;218866698;35529912;155014370;5],[135437718;42001125;13609961;16442154;150368719;206643514;255191366;115851907;35099266;0]);
([68936560;68857801;82590362;58509084;38336695;132460421;231035365;149734623;152802318;2],[227888453;18170162;85544394;263415902;122182091;186665664;106305240;251750378;246623373;2]);
([6977243;24699829;32836413;142579232;17242329;225393208;175634554;161744179;87842579;0],[233131482;231865174;121363622;139544479;71023320;103581984;218606290;196632523;197224036;2])],
[([198311016;45866628;100219167;56619948;247867254;24488781;228029035;162792628;229075100;6],[161176830;58776737;213987326;104580951;244547424;197819522;226077130;205471728;228258156;0]);
([77661207;72133048;217639959;44775223;176628227;107724675;132965017;196919934;128526744;4],[240509452;232005012;31309845;38966987;64492977;172208545;153272864;154166099;20575123;1]);
([213888736;116051924;178468762;239377899;208357035;189035861;31678224;155014670;229156219;6],[7440544;181437643;54734312;251331575;229373267;23888020;255264114;110820159;182947947;0]);
([225853694;22911905;20254883;47142071;137183290;80420584;138684377;92990784;212172564;2],[203277002;240378831;234151174;235088275;180514611;237929763;130699505;74190911;188962052;3]);
([240388152;208590201;128151875;25582061;103352348;110854596;181581857;115703367;169258605;0],[221753574;73439387;88881882;180122680;161238568;28552198;240153802;1063636;156793412;1])]);
([([209013784;132630836;155532254;169490574;66817437;130433315;133278136;144302973;211468503;5],[74238762;104833106;64579680;104006704;169264063;150630358;104287889;109703104;114275866;0]);
([25411850;225928117;11278308;78439914;257139259;53093623;266519237;95811788;79912782;3],[261191709;19691368;150492097;67254421;72486518;121435981;254769855;101316557;30550100;7]);
([4791814;140999520;2305002;9265467;8013193;61845823;244677399;63823786;65033326;1],[163020146;252125798;36301163;240239395;136950006;212188355;120665599;197563107;69759049;5]);
([120459926;5680212;255826307;77782800;246189540;4850857;186142701;827752;73855016;3],[68167615;254933133;241795275;217200224;215789508;224861315;10174958;43616234;250064750;5]);
([125410596;225310879;206023307;79259188;95176782;16170336;114987977;266946282;41850182;5],[121459083;165555876;77310720;87091699;231596875;111990490;210819734;10694293;185979842;6]);
([34801906;219479457;3038556;63668135;187722368;197976514;92299475;199811563;137700686;6],[167873286;86447411;52620615;175031736;204069168;222855047;181379311;224776402;154821918;5]);
([94569626;242285039;144705347;144900291;175679235;141108773;246123006;435485;108394387;4],[160379952;47301622;216790707;44468743;106041509;127547600;110643102;222764262;38839078;2])],
[([134686627;221924071;21830512;148596215;160171616;226422083;267292531;39797973;13012506;3],[36319685;86349632;48137047;10595657;202990669;177214497;96224610;241414335;249422997;1]);
([207611224;178020164;6983503;177527355;98967063;114637418;192257863;236434545;184514298;4],[208897633;182342512;195076173;174373341;34271393;45647921;226569827;64195823;112434462;0]);
([202699075;103920930;35607492;182449961;5088832;89145755;105671659;32432540;222663138;5],[261055752;40582683;196657955;234700624;4799357;17629461;33315774;195033544;95830848;2]);
([143156017;6220731;156953927;208295376;34378900;253658570;81627970;29714491;80468968;0],[161826722;133556124;83273303;4831540;118054709;168778337;15167620;175789708;183814892;0]);
([264983693;181766638;198288288;234012074;168285917;4347298;70260206;66871464;25641189;0],[141988389;251371156;92036671;51735789;68429346;219012417;174613388;28030707;229751171;0])]);
([([124107145;46544575;125487628;198057865;87496221;227161448;210542849;131579012;42108043;6],[254934000;112265834;154446739;132584070;96728365;78562511;19432082;247027607;267528526;0]);
([189138124;261757569;90099480;191592721;104338838;71186942;125571306;240103551;164017927;0],[231092407;195815495;127417204;204185754;68154140;47252790;86552765;246125734;211060435;2]);
([15422003;159975316;126784025;99588152;12738893;205961708;111391037;170184800;175072258;7],[213012369;9848324;192653422;80408661;15340960;1613931;93340889;109151767;122951902;7]);
([224989003;50850689;204164630;176565395;117823792;126742917;102126975;127205729;130322495;6],[240311072;233223475;256661238;130815318;24408355;116508314;202721344;78031492;52411668;2]);
([56819346;33388661;44245058;28413997;137959472;157450153;239855855;178928440;124179713;7],[58110636;88568032;175240958;254173388;198673903;101151893;27081393;181452552;11760730;4]);
([123946368;229655032;35950367;49489499;122143313;94411463;16224871;221555653;198933337;2],[27200400;16338718;5036738;158636630;103059703;229083829;260119004;33434503;230605243;6]);
([69676218;258519892;53284730;97046345;148124775;245659736;18483036;36576368;79106870;2],[82933132;224443709;160229254;136303487;32501166;62084444;243372405;172761597;238992314;1])],
[([147502149;81132739;168193733;142768322;89761554;194452325;103523272;2356912;210273934;1],[117168786;75397761;9417143;62221448;229049691;121151604;116766541;133558516;65447239;7]);
([99514671;178768920;220001057;197895057;12107195;204512128;214292710;75748460;245347590;5],[168307200;201580399;27072652;63052916;142311125;196123277;79916884;221627361;240368167;4]);
([161807214;60287155;164732805;119367865;41614147;155711049;54197334;100272283;119806779;5],[142847312;54780564;138750709;40128276;88952437;140801980;59425657;111868383;95260654;3]);
([44990776;163909143;63350831;111413353;98463120;96230748;222239591;76567321;246187340;1],[228816836;25068466;56638629;147278838;170789600;113815900;166466874;75833394;105502673;1]);
([192154257;232719528;115923087;220559778;79343175;145721528;20340240;155585867;29826807;2],[229219178;268376043;5082008;175118231;151866494;135153798;257874724;264455656;76373943;6])]);
([([37665442;6516399;173634534;240044338;141046650;152907085;23946284;250795947;24050707;7],[147291729;67155254;149386939;152175913;250552789;140558839;202076828;214479244;108838001;0]);
([159629571;160985942;152235584;94297408;94290597;176345407;141284676;141708535;134806247;1],[2377571;14957756;186257455;42196792;231935603;96026256;43228383;160689466;106737541;3]);
([113260240;259155346;198185537;61263042;223208180;197727667;181774667;98940179;74138392;4],[237579525;180440844;116758060;236352720;45031294;226696079;59155771;211669312;92143239;7]);
([46274649;153607216;144471403;209681852;73869441;124856401;160845544;252905991;116230312;7],[263018965;139188699;256727248;205174410;222229339;17753724;64077199;197510501;238285281;4]);
([191755463;115882155;85189840;219910430;248039764;159987965;212728105;177052793;148949217;6],[11693888;33351002;21389367;202634277;46797253;165383682;18259103;210012259;228805248;3]);
([66836809;133830665;42039128;257254975;211848330;171667704;255246416;38705586;207812813;4],[113966312;124619718;156539889;174713733;195180271;38751810;76317803;86809570;141707658;5]);
([265581844;126815781;170920000;199762499;238718951;224675521;247629253;92300981;52315080;3],[129651573;113469977;36556357;8114307;38613110;117966489;198577025;114919619;193046800;5])],
[([237944977;16750453;42344879;159248140;203661517;255221731;193348151;87387190;5171329;4],[181274582;123936406;75014574;184564177;157734956;154026342;6741097;1161324;189744530;3]);
([142988621;240622255;192913482;102087798;163045424;64164967;103388258;254385284;147099077;7],[231167096;76259563;99656807;26962344;181684065;205837290;35080480;222365287;75452083;6]);
([206308277;207257222;6835912;72094712;258295259;177940532;207061631;4589690;235619140;7],[256206605;122238037;71696542;202915367;223640091;161981744;2514060;189577848;145936732;4]);
([223042930;148099750;117220740;119598679;142176292;221222876;267514958;40795380;219076105;6],[95874055;115356476;69661760;238572174;78029167;105051655;105442613;119097721;189104471;7]);
([237185726;108232136;150206820;192294103;144606199;265355216;10221313;101519638;108978565;6],[142719385;39234038;76132045;262212515;195166946;8493997;193812167;260732056;150729455;7])])].
Definition h_odd : list lpt := [
([13953426;124721599;110542393;158089177;143903028;193637312;88167545;229369118;18989380;0],[265348862;256347517;151091905;92744070;118192463;160176598;186795451;127843263;130900911;1]);
([56279890;120553299;261571719;37218616;64683832;166730463;214502598;108574920;231718690;4],[124974243;224009556;254848401;255524103;116527199;120763583;118254518;162818437;45469156;0]);
([213388989;100784759;213160960;239772337;24784357;41015623;130098785;191593813;59528217;6],[146630501;171502214;154481397;140464396;107776195;192715587;126932509;14846510;141339045;3]);
([95674423;27061581;54866672;155591031;35761887;41304129;89165821;2253218;229642453;3],[229957031;171114068;94251940;98694105;90363714;85535422;178448395;86541720;149737490;6]);
([131897724;220775177;18434218;253404446;244877651;101119571;252564683;139602865;153699291;4],[50536018;197632733;88132353;55769075;221917439;92892049;163292636;125225160;257884024;4]);
([181350626;73982936;220287277;41178499;64259315;45933473;27653813;109615805;264380738;5],[174009612;207112918;228294646;236778594;248803846;118850361;86723696;77440804;20604595;1]);
([68754163;62894278;242803523;61293430;82004394;198788171;151245513;267081624;252637471;5],[67540163;189668504;137979185;254754752;134064124;227932833;171243329;111233802;247324464;2])].
Definition h_B2 : lpt := ([140364162;262211956;257290649;2515672;52314430;104370976;76650420;17885709;262626472;5],[132778412;235832585;35945955;96545890;138810592;174958375;109964816;218522017;56309810;1]).
