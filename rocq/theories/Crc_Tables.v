(** Tables of /repo/lib/checksum.h, extracted by a script. *)
From Verif Require Import Common.

(** lib/checksum.h:5-52 *)
Definition crc32c_table : list Z := [
  0; 79764919; 159529838; 222504665; 319059676; 398814059; 445009330; 507990021; 638119352; 583659535; 797628118; 726387553;
  890018660; 835552979; 1015980042; 944750013; 1276238704; 1221641927; 1167319070; 1095957929; 1595256236; 1540665371; 1452775106; 1381403509;
  1780037320; 1859660671; 1671105958; 1733955601; 2031960084; 2111593891; 1889500026; 1952343757; 2552477408; 2632100695; 2443283854; 2506133561;
  2334638140; 2414271883; 2191915858; 2254759653; 3190512472; 3135915759; 3081330742; 3009969537; 2905550212; 2850959411; 2762807018; 2691435357;
  3560074640; 3505614887; 3719321342; 3648080713; 3342211916; 3287746299; 3467911202; 3396681109; 4063920168; 4143685023; 4223187782; 4286162673;
  3779000052; 3858754371; 3904687514; 3967668269; 881225847; 809987520; 1023691545; 969234094; 662832811; 591600412; 771767749; 717299826;
  311336399; 374308984; 453813921; 533576470; 25881363; 88864420; 134795389; 214552010; 2023205639; 2086057648; 1897238633; 1976864222;
  1804852699; 1867694188; 1645340341; 1724971778; 1587496639; 1516133128; 1461550545; 1406951526; 1302016099; 1230646740; 1142491917; 1087903418;
  2896545431; 2825181984; 2770861561; 2716262478; 3215044683; 3143675388; 3055782693; 3001194130; 2326604591; 2389456536; 2200899649; 2280525302;
  2578013683; 2640855108; 2418763421; 2498394922; 3769900519; 3832873040; 3912640137; 3992402750; 4088425275; 4151408268; 4197601365; 4277358050;
  3334271071; 3263032808; 3476998961; 3422541446; 3585640067; 3514407732; 3694837229; 3640369242; 1762451694; 1842216281; 1619975040; 1682949687;
  2047383090; 2127137669; 1938468188; 2001449195; 1325665622; 1271206113; 1183200824; 1111960463; 1543535498; 1489069629; 1434599652; 1363369299;
  622672798; 568075817; 748617968; 677256519; 907627842; 853037301; 1067152940; 995781531; 51762726; 131386257; 177728840; 240578815;
  269590778; 349224269; 429104020; 491947555; 4046411278; 4126034873; 4172115296; 4234965207; 3794477266; 3874110821; 3953728444; 4016571915;
  3609705398; 3555108353; 3735388376; 3664026991; 3290680682; 3236090077; 3449943556; 3378572211; 3174993278; 3120533705; 3032266256; 2961025959;
  2923101090; 2868635157; 2813903052; 2742672763; 2604032198; 2683796849; 2461293480; 2524268063; 2284983834; 2364738477; 2175806836; 2238787779;
  1569362073; 1498123566; 1409854455; 1355396672; 1317987909; 1246755826; 1192025387; 1137557660; 2072149281; 2135122070; 1912620623; 1992383480;
  1753615357; 1816598090; 1627664531; 1707420964; 295390185; 358241886; 404320391; 483945776; 43990325; 106832002; 186451547; 266083308;
  932423249; 861060070; 1041341759; 986742920; 613929101; 542559546; 756411363; 701822548; 3316196985; 3244833742; 3425377559; 3370778784;
  3601682597; 3530312978; 3744426955; 3689838204; 3819031489; 3881883254; 3928223919; 4007849240; 4037393693; 4100235434; 4180117107; 4259748804;
  2310601993; 2373574846; 2151335527; 2231098320; 2596047829; 2659030626; 2470359227; 2550115596; 2947551409; 2876312838; 2788305887; 2733848168;
  3165939309; 3094707162; 3040238851; 2985771188
].
(** lib/checksum.h:54-100 *)
Definition crc32LE_table : list Z := [
  0; 1996959894; 3993919788; 2567524794; 124634137; 1886057615; 3915621685; 2657392035; 249268274; 2044508324; 3772115230; 2547177864;
  162941995; 2125561021; 3887607047; 2428444049; 498536548; 1789927666; 4089016648; 2227061214; 450548861; 1843258603; 4107580753; 2211677639;
  325883990; 1684777152; 4251122042; 2321926636; 335633487; 1661365465; 4195302755; 2366115317; 997073096; 1281953886; 3579855332; 2724688242;
  1006888145; 1258607687; 3524101629; 2768942443; 901097722; 1119000684; 3686517206; 2898065728; 853044451; 1172266101; 3705015759; 2882616665;
  651767980; 1373503546; 3369554304; 3218104598; 565507253; 1454621731; 3485111705; 3099436303; 671266974; 1594198024; 3322730930; 2970347812;
  795835527; 1483230225; 3244367275; 3060149565; 1994146192; 31158534; 2563907772; 4023717930; 1907459465; 112637215; 2680153253; 3904427059;
  2013776290; 251722036; 2517215374; 3775830040; 2137656763; 141376813; 2439277719; 3865271297; 1802195444; 476864866; 2238001368; 4066508878;
  1812370925; 453092731; 2181625025; 4111451223; 1706088902; 314042704; 2344532202; 4240017532; 1658658271; 366619977; 2362670323; 4224994405;
  1303535960; 984961486; 2747007092; 3569037538; 1256170817; 1037604311; 2765210733; 3554079995; 1131014506; 879679996; 2909243462; 3663771856;
  1141124467; 855842277; 2852801631; 3708648649; 1342533948; 654459306; 3188396048; 3373015174; 1466479909; 544179635; 3110523913; 3462522015;
  1591671054; 702138776; 2966460450; 3352799412; 1504918807; 783551873; 3082640443; 3233442989; 3988292384; 2596254646; 62317068; 1957810842;
  3939845945; 2647816111; 81470997; 1943803523; 3814918930; 2489596804; 225274430; 2053790376; 3826175755; 2466906013; 167816743; 2097651377;
  4027552580; 2265490386; 503444072; 1762050814; 4150417245; 2154129355; 426522225; 1852507879; 4275313526; 2312317920; 282753626; 1742555852;
  4189708143; 2394877945; 397917763; 1622183637; 3604390888; 2714866558; 953729732; 1340076626; 3518719985; 2797360999; 1068828381; 1219638859;
  3624741850; 2936675148; 906185462; 1090812512; 3747672003; 2825379669; 829329135; 1181335161; 3412177804; 3160834842; 628085408; 1382605366;
  3423369109; 3138078467; 570562233; 1426400815; 3317316542; 2998733608; 733239954; 1555261956; 3268935591; 3050360625; 752459403; 1541320221;
  2607071920; 3965973030; 1969922972; 40735498; 2617837225; 3943577151; 1913087877; 83908371; 2512341634; 3803740692; 2075208622; 213261112;
  2463272603; 3855990285; 2094854071; 198958881; 2262029012; 4057260610; 1759359992; 534414190; 2176718541; 4139329115; 1873836001; 414664567;
  2282248934; 4279200368; 1711684554; 285281116; 2405801727; 4167216745; 1634467795; 376229701; 2685067896; 3608007406; 1308918612; 956543938;
  2808555105; 3495958263; 1231636301; 1047427035; 2932959818; 3654703836; 1088359270; 936918000; 2847714899; 3736837829; 1202900863; 817233897;
  3183342108; 3401237130; 1404277552; 615818150; 3134207493; 3453421203; 1423857449; 601450431; 3009837614; 3294710456; 1567103746; 711928724;
  3020668471; 3272380065; 1510334235; 755167117
].
(** lib/checksum.h:102-146 *)
Definition crc32_table : list Z := [
  0; 3072180484; 1849393673; 3643163405; 3698721811; 1802224919; 2991425050; 89147166; 3102541862; 267438370; 3604384303; 1640713003;
  1687882805; 3548826929; 178294332; 3183300408; 1893405004; 3351695432; 518034245; 2851951169; 2897024351; 464573531; 3264649046; 1972065874;
  3358988650; 2133579886; 2785909603; 286284391; 339746169; 2740837501; 2054922096; 3446038132; 3770033048; 1470882460; 2391646609; 965763221;
  1019225995; 2346575503; 1392223618; 3857081478; 1482369982; 4014402234; 912304567; 2172479667; 2217553837; 858844841; 3927354788; 1561029792;
  2423075540; 661713872; 4267094237; 1229681113; 1276851911; 4211537859; 572568782; 2503833034; 679492338; 2677930998; 1186707707; 4054219263;
  4109778657; 1139539941; 2597174504; 768638444; 2003863092; 3228387120; 424346685; 2924922169; 2869330471; 471548707; 3309109294; 1914749226;
  3483209234; 2021674774; 2712013851; 381406495; 334203393; 2767604485; 2110785544; 3402483980; 128685944; 2964739708; 1771050353; 3733836917;
  3688731499; 1824543343; 3051753826; 50057318; 3209076574; 140205658; 3514637655; 1717623891; 1664129869; 3559742025; 218831172; 3122059328;
  2546378156; 551249064; 4194117541; 1323361953; 1269866943; 4239220923; 629875638; 2459361970; 791391626; 2553703566; 1091579779; 4128108167;
  4083001753; 1145071773; 2640718736; 712764052; 3877483744; 1342207460; 2300983017; 1044117485; 996913395; 2356572663; 1431319290; 3796759550;
  1609612486; 3907878338; 835403471; 2262237131; 2206644437; 882604497; 3988601564; 1520499672; 4007660649; 1509805421; 2161872480; 935743332;
  848693370; 2240530814; 1554877043; 3954199415; 1443693647; 3775972683; 943097414; 2401978178; 2323316828; 1030144344; 3829432917; 1398621009;
  2654674213; 690412577; 4026572588; 1193106984; 1112348982; 4115716146; 745970495; 2607503931; 651564291; 2446054407; 1223530250; 4293940750;
  4204794128; 1304285204; 2493223705; 596005405; 240529393; 3108761333; 1617800696; 3614469372; 3525323746; 1698556646; 3155929579; 184969455;
  3065718743; 27715283; 3632309726; 1872585946; 1791828932; 3721454272; 83272141; 3018547401; 2123185853; 3381723065; 280411316; 2813033904;
  2734373550; 367459242; 3435182247; 2078112163; 3328194203; 1904080799; 2824582290; 524711318; 437662344; 2903241612; 1949151361; 3274731909;
  2576386653; 781011801; 4155181140; 1085720912; 1172737614; 4076556106; 735906887; 2629881155; 561873531; 2522891135; 1329987698; 4166762870;
  4245390952; 1242974060; 2469397601; 606979429; 3914046225; 1582717461; 2272270616; 812505116; 893230850; 2183159302; 1527127307; 3961248783;
  1369871159; 3871035955; 1067258174; 2290143290; 2379257636; 986535456; 3823834413; 1425462313; 2032576965; 3459999937; 387787724; 2684414664;
  2773528022; 307064018; 3412799455; 2088169179; 3251347939; 1993760999; 2951750634; 418243310; 498968048; 2862638324; 1938171897; 3298551549;
  167622793; 3202382221; 1741044352; 3504077700; 3582704794; 1654029726; 3148889747; 212729751; 2970661039; 101544363; 3744150182; 1748431778;
  1835447484; 3665524152; 56440501; 3024156593
].
(** lib/checksum.h:148-192 *)
Definition crc16_table : list Z := [
  0; 32773; 32783; 10; 32795; 30; 20; 32785; 32819; 54; 60; 32825;
  40; 32813; 32807; 34; 32867; 102; 108; 32873; 120; 32893; 32887; 114;
  80; 32853; 32863; 90; 32843; 78; 68; 32833; 32963; 198; 204; 32969;
  216; 32989; 32983; 210; 240; 33013; 33023; 250; 33003; 238; 228; 32993;
  160; 32933; 32943; 170; 32955; 190; 180; 32945; 32915; 150; 156; 32921;
  136; 32909; 32903; 130; 33155; 390; 396; 33161; 408; 33181; 33175; 402;
  432; 33205; 33215; 442; 33195; 430; 420; 33185; 480; 33253; 33263; 490;
  33275; 510; 500; 33265; 33235; 470; 476; 33241; 456; 33229; 33223; 450;
  320; 33093; 33103; 330; 33115; 350; 340; 33105; 33139; 374; 380; 33145;
  360; 33133; 33127; 354; 33059; 294; 300; 33065; 312; 33085; 33079; 306;
  272; 33045; 33055; 282; 33035; 270; 260; 33025; 33539; 774; 780; 33545;
  792; 33565; 33559; 786; 816; 33589; 33599; 826; 33579; 814; 804; 33569;
  864; 33637; 33647; 874; 33659; 894; 884; 33649; 33619; 854; 860; 33625;
  840; 33613; 33607; 834; 960; 33733; 33743; 970; 33755; 990; 980; 33745;
  33779; 1014; 1020; 33785; 1000; 33773; 33767; 994; 33699; 934; 940; 33705;
  952; 33725; 33719; 946; 912; 33685; 33695; 922; 33675; 910; 900; 33665;
  640; 33413; 33423; 650; 33435; 670; 660; 33425; 33459; 694; 700; 33465;
  680; 33453; 33447; 674; 33507; 742; 748; 33513; 760; 33533; 33527; 754;
  720; 33493; 33503; 730; 33483; 718; 708; 33473; 33347; 582; 588; 33353;
  600; 33373; 33367; 594; 624; 33397; 33407; 634; 33387; 622; 612; 33377;
  544; 33317; 33327; 554; 33339; 574; 564; 33329; 33299; 534; 540; 33305;
  520; 33293; 33287; 514
].
(** lib/checksum.h:194-228 *)
Definition crc8_table : list Z := [
  0; 7; 14; 9; 28; 27; 18; 21; 56; 63; 54; 49;
  36; 35; 42; 45; 112; 119; 126; 121; 108; 107; 98; 101;
  72; 79; 70; 65; 84; 83; 90; 93; 224; 231; 238; 233;
  252; 251; 242; 245; 216; 223; 214; 209; 196; 195; 202; 205;
  144; 151; 158; 153; 140; 139; 130; 133; 168; 175; 166; 161;
  180; 179; 186; 189; 199; 192; 201; 206; 219; 220; 213; 210;
  255; 248; 241; 246; 227; 228; 237; 234; 183; 176; 185; 190;
  171; 172; 165; 162; 143; 136; 129; 134; 147; 148; 157; 154;
  39; 32; 41; 46; 59; 60; 53; 50; 31; 24; 17; 22;
  3; 4; 13; 10; 87; 80; 89; 94; 75; 76; 69; 66;
  111; 104; 97; 102; 115; 116; 125; 122; 137; 142; 135; 128;
  149; 146; 155; 156; 177; 182; 191; 184; 173; 170; 163; 164;
  249; 254; 247; 240; 229; 226; 235; 236; 193; 198; 207; 200;
  221; 218; 211; 212; 105; 110; 103; 96; 117; 114; 123; 124;
  81; 86; 95; 88; 77; 74; 67; 68; 25; 30; 23; 16;
  5; 2; 11; 12; 33; 38; 47; 40; 61; 58; 51; 52;
  78; 73; 64; 71; 82; 85; 92; 91; 118; 113; 120; 127;
  106; 109; 100; 99; 62; 57; 48; 55; 34; 37; 44; 43;
  6; 1; 8; 15; 26; 29; 20; 19; 174; 169; 160; 167;
  178; 181; 188; 187; 150; 145; 152; 159; 138; 141; 132; 131;
  222; 217; 208; 215; 194; 197; 204; 203; 230; 225; 232; 239;
  250; 253; 244; 243
].
