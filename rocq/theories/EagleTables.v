(** The constants of eaglesong/eaglesong_constants.go. *)
From Coq Require Import NArith List.
Import ListNotations.
Open Scope N_scope.

(** eaglesong_constants.go:10-27 *)
Definition bitMatrix : list N :=
  [1; 1; 1; 1; 0; 1; 0; 1; 1; 1; 1; 1; 0; 0; 0; 1;
   0; 1; 1; 1; 1; 0; 1; 0; 1; 1; 1; 1; 1; 0; 0; 1;
   0; 0; 1; 1; 1; 1; 0; 1; 0; 1; 1; 1; 1; 1; 0; 1;
   0; 0; 0; 1; 1; 1; 1; 0; 1; 0; 1; 1; 1; 1; 1; 1;
   1; 1; 1; 1; 1; 0; 1; 0; 1; 0; 1; 0; 1; 1; 1; 0;
   1; 0; 0; 0; 1; 0; 0; 0; 1; 0; 1; 0; 0; 1; 1; 1;
   1; 0; 1; 1; 0; 0; 0; 1; 1; 0; 1; 0; 0; 0; 1; 0;
   1; 0; 1; 0; 1; 1; 0; 1; 0; 0; 1; 0; 0; 0; 0; 1;
   0; 1; 0; 1; 0; 1; 1; 0; 1; 0; 0; 1; 0; 0; 0; 1;
   0; 0; 1; 0; 1; 0; 1; 1; 0; 1; 0; 0; 1; 0; 0; 1;
   0; 0; 0; 1; 0; 1; 0; 1; 1; 0; 1; 0; 0; 1; 0; 1;
   0; 0; 0; 0; 1; 0; 1; 0; 1; 1; 0; 1; 0; 0; 1; 1;
   1; 1; 1; 1; 0; 0; 0; 0; 1; 0; 0; 1; 1; 0; 0; 0;
   0; 1; 1; 1; 1; 0; 0; 0; 0; 1; 0; 0; 1; 1; 0; 0;
   0; 0; 1; 1; 1; 1; 0; 0; 0; 0; 1; 0; 0; 1; 1; 0;
   1; 1; 1; 0; 1; 0; 1; 1; 1; 1; 1; 0; 0; 0; 1; 1].

(** eaglesong_constants.go:29-36 *)
Definition coefficients : list N :=
  [0; 2; 4; 0; 13; 22; 0; 4; 19; 0; 3; 14;
   0; 27; 31; 0; 3; 8; 0; 17; 26; 0; 3; 12;
   0; 18; 22; 0; 12; 18; 0; 4; 7; 0; 4; 31;
   0; 12; 27; 0; 7; 17; 0; 7; 8; 0; 1; 13].

(** eaglesong_constants.go:38-125 *)
Definition injectionConstants : list N :=
  [1855865006; 1905425410; 2584990641; 3672912557; 1032409551; 3788111514; 3087447372; 2897998871;
   3546426171; 2692904490; 2665279936; 2847595127; 2140267628; 3406786127; 643666497; 3082676912;
   1650510310; 4283489578; 2419501681; 3457554553; 3509615839; 2313443039; 4163974114; 1710578749;
   2491882241; 3050439885; 1480208996; 1578522967; 1287498084; 1734330951; 4104323902; 708932386;
   996229935; 2136290034; 3054081851; 444158521; 833910729; 3532954920; 2023134994; 246971246;
   2115097133; 3438184637; 4006641336; 3847633537; 3888868303; 635344190; 1292199226; 193140055;
   2495204727; 334501241; 2034977354; 1743243228; 3294025940; 1500028059; 1719949015; 584229601;
   951298088; 51751996; 1133340702; 2876312005; 2548963752; 3724946222; 745981051; 8668527;
   2425294803; 2789627167; 1048733477; 3575740558; 2667692720; 2467826908; 2464816632; 1125817006;
   2083431254; 3660819715; 1184000147; 1723721687; 3036793973; 527338049; 1750225140; 1001517848;
   2938342404; 2538525420; 1528143433; 3576101055; 302536230; 1042559657; 1808927816; 522017242;
   413864040; 2163752184; 747377088; 2102689845; 267810243; 4275134655; 1958460196; 3649962091;
   3735701483; 99751838; 1132137329; 2814992271; 11115835; 1069794372; 1919446926; 16581033;
   3738961799; 3333387814; 1880292982; 4070963150; 2591764186; 1582824690; 1302385837; 1550037333;
   873558901; 3558034449; 782726197; 1383642846; 2874289228; 3163539202; 3377072612; 3954784926;
   2448209502; 1280502982; 2265168722; 3408748714; 815813514; 353693963; 360669993; 875158589;
   1572290226; 2812389737; 1921432868; 234260510; 931510879; 3439616570; 41255280; 3626497366;
   2581156241; 2219146929; 1487403810; 3533077599; 1326199798; 1241647514; 3767552033; 2484224054;
   1231684379; 2014013892; 3474606375; 2275482040; 3455775992; 1291439375; 667511428; 1829835134;
   2139945031; 1959718373; 3364423142; 1612798017; 1903331162; 1936628026; 17474876; 1138048043;
   4040759955; 228080470; 4162217532; 3855692643; 174158716; 164958544; 2208672815; 1049118981;
   2063707829; 1611296423; 3077017467; 1924368759; 109058290; 3463111771; 689474216; 3852513769;
   3226217350; 2345749877; 1686602227; 3685621258; 3721255086; 2873983395; 1147906746; 482394525;
   398348176; 2193679965; 1735367829; 1550880178; 1876215911; 2769317616; 433972381; 2014850965;
   3498691969; 2737740030; 3190844546; 1826110860; 58661854; 185954861; 3990625826; 2479318361;
   2318358299; 2462876084; 35353719; 1733441796; 3378363596; 2887249565; 2488157884; 125929086;
   3361004957; 652395276; 2240545814; 1832482568; 3957496920; 3356290438; 3566646443; 3192252149;
   282216198; 2901940346; 2532647883; 573038915; 2026071396; 1178840514; 1193924986; 3489218061;
   625494973; 2445703566; 2516022260; 1142965877; 786061242; 114496495; 4004136038; 771388720;
   2830044315; 972116830; 214087613; 950496270; 1329661725; 3450807413; 1235677176; 23205704;
   921414827; 3178076713; 1154600293; 1082220029; 1442470426; 2278353385; 2924845893; 3614133286;
   1669161133; 3727291897; 2538151099; 4214554688; 4293392791; 538746317; 3860013289; 2835974051;
   3796564611; 1640097532; 3431464802; 4056537338; 1339049286; 2431436654; 1189369529; 811454136;
   4129810060; 757622805; 3339041789; 270233075; 2301472354; 3585604420; 3927792788; 1395844043;
   4166449290; 3007426793; 675319197; 1411496983; 3952802236; 1612935621; 1738037905; 3614740607;
   2085448061; 2473636024; 1878380219; 2101761860; 1733094080; 3935372028; 233392004; 3348356713;
   4267285425; 3333264687; 1835837891; 2458664849; 4177669893; 614556892; 3857288403; 1984557019;
   1844690139; 1562288113; 401985552; 3798494881; 1856796670; 2075510149; 2295925947; 409506147;
   1741287333; 3233246619; 2517564331; 3179751431; 1895089268; 1455594784; 3511950613; 2282975283;
   3824167742; 3067720333; 1403025338; 4007449246; 2768923677; 314736670; 1387934555; 899171860;
   3797523112; 2945772829; 3641526119; 539786503; 2008990964; 4201757824; 4233923446; 2366618620;
   3661000134; 2335350983; 456587260; 1715657916; 1877468964; 2338301826; 3290592260; 981278119;
   1367266904; 2316885869; 1046256419; 532500975; 342908957; 872429724; 1735067229; 2288299392;
   3933149852; 766805217; 1619494384; 2379449519; 1775396505; 1083985430; 2012846186; 2135495270;
   2285807311; 3936378994; 4197342645; 891655348; 2438380425; 2734406651; 2889451975; 1847861937;
   1478440288; 269068725; 2119883213; 2851867246; 1139120526; 2139584761; 4030265569; 1410712296;
   1687795505; 3089336750; 97835033; 252068878; 4050868896; 2556702958; 1206687020; 3205799109;
   3016436918; 1061284034; 656065819; 1219255789; 4150920297; 1903934029; 1331466454; 997521238;
   405016842; 2768061411; 514871420; 2838977544; 360470951; 212701009; 3596628384; 2880779327;
   3845388867; 429318843; 3616881265; 3528629140; 1492187655; 1285232759; 92182797; 2348685764;
   2833432777; 2583472858; 1775413962; 3692840514; 4107412231; 2145549964; 325495303; 362079799;
   3457181375; 3683788114; 2570106154; 2930416190; 838827700; 1579127898; 353027228; 214805549;
   3634930199; 3090065125; 3601286745; 1740104678; 2205085514; 3069771892; 2141448779; 3406004515;
   3204882261; 531120068; 3605781283; 384868663; 430379277; 1609807199; 4217583720; 3026647109;
   3168846232; 2285912726; 3720206475; 2143626566; 1671779320; 2804432986; 931802062; 1751311728;
   4021780093; 3323028062; 844192789; 1770305381; 3896531318; 2611185405; 3572421849; 4177396489;
   216352257; 3136846274; 3629269079; 495721850; 1925227433; 1512045534; 2196978245; 1363407942;
   700965250; 3845571375; 1517233243; 1143417563; 3413122460; 4150343660; 138539333; 3875811020;
   4045897175; 1952250156; 2835244542; 3554858959; 1422201839; 1618590765; 3059955376; 270415931;
   3168229203; 633217930; 1453781182; 4009741335; 1587748669; 182940405; 4151174110; 465489325;
   3373301059; 4158885326; 1635997901; 1552105220; 4137113862; 3728832485; 1741886684; 3027636030;
   1456363656; 243484072; 3220615615; 2027925778; 4050689054; 2075717003; 2418279097; 3668331232;
   1186405769; 2129527647; 3191301385; 2573504314; 140765727; 1236109447; 2042490053; 1007727976;
   1596869550; 82780331; 1928908411; 1377705662; 340940085; 780859739; 2425670909; 3170068243;
   3342423023; 3568899188; 1700064301; 3817364630; 64779191; 2467727529; 3418288514; 729272265;
   1663709885; 3524353484; 451236669; 845696531; 1288019972; 322051038; 1657525133; 2016950843;
   3490088689; 2673876711; 2125407198; 823182482; 2620723721; 2126028114; 1834380972; 3270496806;
   854194885; 1377989236; 167266085; 3100685829; 1915297538; 1907737419; 1035979704; 77603427;
   1438275967; 3571712893; 3356746174; 4292734714; 3284162803; 2264993582; 503117151; 3331649259;
   2847939188; 2562915435; 3850245160; 3710278257; 2204865901; 2118560538; 1479923009; 1353917701;
   3862991164; 3142082681; 4266222179; 289168233; 2479711776; 1593737787; 761625408; 3027106924;
   1467026537; 4271877611; 3052958346; 3810673008; 3391666001; 4255886934; 1521560636; 2794964055;
   3532628663; 90536434; 2681853968; 3814028408; 3633154475; 2804585506; 1833413584; 1079757785;
   1870916527; 332065910; 4243300066; 781331959; 3466090207; 3227423522; 661833812; 3061787186;
   1830482573; 980995959; 3757314532; 1640451241; 3985343534; 1921517637; 1854238853; 3326101810;
   3996645052; 655454024; 1587463258; 2393023775; 2773958071; 2806435894; 1214990184; 1531154235;
   415582812; 1694298254; 3918777793; 901901011; 2648735207; 840664092; 2269264990; 119185654;
   2519643995; 3137781202; 3705361251; 949441266; 2212088968; 3491016134; 3339788731; 594737464;
   3405719120; 1656654161; 1457310463; 2889909440; 158412437; 490481807; 453531460; 3788754927;
   1553629486; 1712455001; 2246336580; 427939973; 1514967103; 1140002123; 2099077147; 3711710097;
   51299934; 3240655053; 1927779838; 3502729917; 515933659; 2092655098; 2481511710; 2239949574;
   1935028548; 77418110; 1607839486; 2072259072; 1976489573; 3140670552; 1317256103; 2400523551;
   2006294821; 4035191893; 1234893213; 1448921082; 2746296205; 1059573364; 2529822094; 2320069699;
   2801503406; 3239422497; 391137571; 3834848258; 2930280130; 2394397429; 3956664939; 3348630843;
   1899402005; 2037279334; 981387016; 2958128584; 3760944359; 3946281683; 1821122388; 3112223604;
   1504633473; 1151121305; 3760150021; 3977119838; 3382813620; 2865004977; 3375743900; 3084439167].
