(** * Tables of the spectral and temporal noise shaping
    Copied from /repo/src by /verif/tools/gen_shape_tables.py; data only. *)
From Coq Require Import ZArith List.
Import ListNotations.
Local Open Scope Z_scope.

(** src/tables.c lines 4407-4505, lc3_sns_lfcb: binary32 values times 2^32. *)
Definition sns_lfcb : list (list Z) := [
  [9718796288; 3493145344; -2277163776; -5826760192; -6869893632; -6188995072; -4912654336; -3243575552];
  [12649385984; 10357026816; 4125123328; -1903643264; -5279099392; -6682541056; -6429079040; -4797048320];
  [-9389258752; -8467619840; -7675906048; -8240577536; -7705133568; -5829920256; -3029860096; -205373712];
  [2979368192; 4104313088; 2470597376; -492217952; -2774766336; -4090318080; -4613020160; -3255961856];
  [-5572811776; -3179860992; -1483363584; -1345551872; -1730774016; -1597817344; -336473824; 416801376];
  [3928400640; 7485829120; 8199377408; 6631793664; 4696330240; 2780903424; 155387952; -1276003840];
  [-10798785536; -12419983360; -8609290240; -3225143552; 1894948608; 5162163712; 5701262336; 5241968128];
  [-3960769024; 2716546048; 4670194176; 2614040064; 563390464; -1271950976; -889116288; 579498112];
  [3394408448; 2698962944; 1688428672; 2061617408; 1923351424; 900801600; 28204706; -369900768];
  [6218063872; 11699488768; 9924951040; 4016014592; -1180016128; -3874394112; -4040196352; -2721708032];
  [3407431680; 61817972; -2438832128; -2812174848; -2059260672; -746871872; 292127648; 1267556352];
  [11700579328; 12710851584; 7943694848; 2419290368; 600939328; 1544646784; 2961213952; 2747877888];
  [-2279898368; -913499520; 24765366; 1824809088; 2032073344; 3688922368; 5115785216; 4278601984];
  [7246830080; 10463163392; 10008108032; 7644344832; 6202417664; 6528143360; 6322165760; 4199114240];
  [-12678025216; -6845898752; -472097536; 1669063296; 2203028992; 2697723136; 3533133824; 3761925120];
  [437564160; 2533417984; 2658789376; 5443068416; 10392147968; 9671160832; 2261459456; -1703347584];
  [11521445888; 5701053952; 559141504; -1453988608; -1581489536; -823302080; -664785216; -1005912192];
  [20731717632; 13398055936; 5992066560; 1075010176; -1690558592; -2763631872; -2759820288; -3106091264];
  [377278496; -2446356736; -4917996032; -7171241984; -7925692928; -6720250368; -4799486976; -2293433856];
  [5974398464; 8510326272; 4778829312; -945354560; -3328451840; -2551484928; 588142848; 3514326528];
  [1651783808; -689723584; -2316562688; -2273365248; 817905856; 10997818368; 12107358208; 2820379904];
  [8299053568; 12929147904; 13165960192; 10742149120; 8293134848; 2457381888; -3486404352; -5052677120];
  [751964864; -3223471104; -4464356352; -4878116864; -4475266048; -65309316; 8892660736; 14729543680];
  [-5103152128; 1575363456; 5624595968; 7229747712; 5373043712; 4047473152; 3548718848; 1889582592];
  [10880105472; 9074177024; 5424046080; 3270675712; 2242479360; 509727008; -1942814848; -3007990784];
  [17175137280; 17519247360; 12124077056; 7413423104; 2779463936; -1422272128; -3796933888; -4840313856];
  [2181425152; 6822059520; 7425956352; 4324698112; 1619723392; 2045996928; 4670980608; 4671046144];
  [13608896512; 13995299840; 10403724288; 7707150336; 6535991296; 5033560064; 2101933824; -267488720];
  [8135302144; 5373377536; 2535968768; 2612880128; 3771715840; 4806605824; 4374753280; 2664829184];
  [4075411200; 9158563840; 11697143808; 11896461312; 10921542656; 8677821440; 3565019904; -118356056];
  [-8075687936; -5430173184; 1337560064; 7888575488; 9690914816; 8796908544; 9428605952; 8704163840];
  [1058175744; 4104364288; 6530359296; 8488891392; 8334120448; 9593919488; 8539940352; 5464601600]].

(** src/tables.c lines 4507-4605, lc3_sns_hfcb: binary32 values times 2^32. *)
Definition sns_hfcb : list (list Z) := [
  [996554496; -4333203968; -9200829440; -10201999360; -9579578368; -9345672192; -9838306304; -10878568448];
  [-5562151936; -7727932928; -8104738304; -7773532672; -7573747200; -7877761536; -7751599104; -7459479552];
  [598227584; -1108896640; -2795184384; -4587700736; -6954786304; -9395780608; -11328302080; -12794610688];
  [-1359413376; -2051910528; -2367223040; -2082149760; -1023870336; -614285568; 293426432; 379272128];
  [3777502720; 1281360896; -3931554560; -9476672512; -11774316544; -12289580032; -12405652480; -12677996544];
  [-1274324992; -4187614208; -5835035136; -4225049856; -2804428800; -4251961856; -6934964736; -10338514944];
  [1464502656; 1154915840; 241950832; 214367856; -409796032; -3264888832; -9996884992; -16198705152];
  [-6065772032; -6378976256; -5093984768; -2684361472; 661006208; 2475561216; 3414896640; 2562225664];
  [-982858240; -1433312512; -3476008704; -7026045952; -8095429120; -7065079296; -6035106816; -6299276800];
  [-4601998336; -6088846848; -6652550656; -6240418304; -4431674880; -2966287616; -1841870080; -2125837952];
  [-2538276352; -305689024; 1484854016; 1290850048; -4804574720; -10483549184; -9571537920; -8139359232];
  [-3643996672; -2504940032; 386729024; 3629354752; 4577249280; 3167894784; 1102047616; -2112966528];
  [4899232768; 4140421120; 1638363392; -2073822080; -7801065984; -12037913600; -13889310720; -14856666112];
  [-1616124160; 182826224; 2218555392; 1081115776; -928485888; -2293830656; -2752155392; -3735526400];
  [2856171008; 4715477504; 5941772288; 5769316352; 3534667264; 927183808; -1739142912; -4596715008];
  [-3548785152; -2882701568; -981381120; 2229005824; 5872160768; 9364018176; 10891869184; 9454129152];
  [6056261632; 3240303360; -5607105024; -8037331456; -5326132224; -5442278912; -8747594752; -12441882624];
  [1552144512; -94485720; -2488370176; -3777114368; -3653664256; -3347484928; -3144701696; -3815427840];
  [1878916096; 1311856640; -31730642; -2128799872; -3464540928; -5258409472; -7308220416; -9641853952];
  [2783569664; 2930452480; 1087689600; 316041792; 1349550464; 1008157184; 621052864; -292968384];
  [4806920192; 5302804480; 2530466816; -5892371456; -10183183360; -8623425536; -7159218176; -8273474560];
  [609230336; -475281376; -1214722432; -28338772; 1228056960; 197759856; -2588131840; -9731052544];
  [2164865280; 3551861248; 4809557504; 5064369664; 4638024704; 2995895296; -3919367424; -15362443264];
  [-2152105216; -1398776448; 120601904; 1125515776; 1548725760; 2729982976; 4118927104; 5615461888];
  [16104881152; 6543065600; -1965873792; -3430437632; -1661376384; -1614482816; -2825388032; -5504600576];
  [-4950336000; -4758861824; -2416413440; -947307136; -1502563712; -3235969024; -4245990144; -5531508736];
  [4416396800; 4714608128; 3301307392; 885115328; -1472339456; -3242439936; -4475191808; -6456867328];
  [553329088; 2961119744; 4825262592; 5623595008; 5820194816; 6112227328; 4969553920; 1745128704];
  [5756674560; 5969868288; 4486862848; 2730838016; -1179972480; -6653907968; -10490015744; -12990455808];
  [9184491520; 18241210368; 12443984896; 4006047744; -1257661952; -3480659968; -3388162560; -4017311232];
  [2425928448; 6836942848; 10298116096; 13043701760; 11442838528; 5983081984; 1734453888; -2818662400];
  [-1814454272; 1400801920; 5977362432; 9584073728; 11217571840; 11447820288; 10312369152; 7555722752]].

(** src/tables.c lines 4607-4621, lc3_sns_vq_gains: counts, values times 2^12. *)
Definition sns_vq_gains : list (Z * list Z) := [
  (2, [8915; 12054]);
  (4, [6245; 15043; 17861; 21014]);
  (4, [7099; 9132; 11253; 14808]);
  (8, [4336; 5067; 5895; 8149; 10235; 12825; 16868; 19882])].

(** src/sns.c lines 35-117, dct16_m: binary32 values times 2^28. *)
Definition dct16_m : list (list Z) := [
  [67108864; 94449264; 93082672; 90819632; 87681960; 83699856; 78911672; 73363536; 67108864; 60207896; 52727096; 44738504; 36319056; 27549834; 18515294; 9302441];
  [67108864; 90819632; 78911672; 60207896; 36319056; 9302441; -18515294; -44738504; -67108864; -83699856; -93082672; -94449264; -87681960; -73363536; -52727096; -27549834];
  [67108864; 83699856; 52727096; 9302441; -36319056; -73363536; -93082672; -90819632; -67108864; -27549834; 18515294; 60207896; 87681960; 94449264; 78911672; 44738504];
  [67108864; 73363536; 18515294; -44738504; -87681960; -90819632; -52727096; 9302441; 67108864; 94449264; 78911672; 27549834; -36319056; -83699856; -93082672; -60207896];
  [67108864; 60207896; -18515294; -83699856; -87681960; -27549834; 52727096; 94449264; 67108864; -9302441; -78911672; -90819632; -36319056; 44738504; 93082672; 73363536];
  [67108864; 44738504; -52727096; -94449264; -36319056; 60207896; 93082672; 27549834; -67108864; -90819632; -18515294; 73363536; 87681960; 9302441; -78911672; -83699856];
  [67108864; 27549834; -78911672; -73363536; 36319056; 94449264; 18515294; -83699856; -67108864; 44738504; 93082672; 9302441; -87681960; -60207896; 52727096; 90819632];
  [67108864; 9302441; -93082672; -27549834; 87681960; 44738504; -78911672; -60207896; 67108864; 73363536; -52727096; -83699856; 36319056; 90819632; -18515294; -94449264];
  [67108864; -9302441; -93082672; 27549834; 87681960; -44738504; -78911672; 60207896; 67108864; -73363536; -52727096; 83699856; 36319056; -90819632; -18515294; 94449264];
  [67108864; -27549834; -78911672; 73363536; 36319056; -94449264; 18515294; 83699856; -67108864; -44738504; 93082672; -9302441; -87681960; 60207896; 52727096; -90819632];
  [67108864; -44738504; -52727096; 94449264; -36319056; -60207896; 93082672; -27549834; -67108864; 90819632; -18515294; -73363536; 87681960; -9302441; -78911672; 83699856];
  [67108864; -60207896; -18515294; 83699856; -87681960; 27549834; 52727096; -94449264; 67108864; 9302441; -78911672; 90819632; -36319056; -44738504; 93082672; -73363536];
  [67108864; -73363536; 18515294; 44738504; -87681960; 90819632; -52727096; -9302441; 67108864; -94449264; 78911672; -27549834; -36319056; 83699856; -93082672; 60207896];
  [67108864; -83699856; 52727096; -9302441; -36319056; 73363536; -93082672; 90819632; -67108864; 27549834; 18515294; -60207896; 87681960; -94449264; 78911672; -44738504];
  [67108864; -90819632; 78911672; -60207896; 36319056; -9302441; -18515294; 44738504; -67108864; 83699856; -93082672; 94449264; -87681960; 73363536; -52727096; 27549834];
  [67108864; -94449264; 93082672; -90819632; 87681960; -83699856; 78911672; -73363536; 67108864; -60207896; 52727096; -44738504; 36319056; -27549834; 18515294; -9302441]].

(** src/sns.c lines 161-177, ge_14: binary32 values times 2^23. *)
Definition ge_14 : list Z := [8388608; 8829012; 9292538; 9780399; 10293873; 10834304; 11403108; 12001774; 12631871; 13295048; 13993042; 14727680; 15500888; 16314689; 17171214; 18072708; 19021530; 20020166; 21071230; 22177476; 23341800; 24567252; 25857038; 27214540; 28643312; 30147094; 31729826; 33395650; 35148932; 36994260; 38936468; 40980644; 43132140; 45396592; 47779924; 50288384; 52928540; 55707300; 58631952; 61710144; 64949944; 68359832; 71948744; 75726080; 79701720; 83886080; 88290120; 92925376; 97803992; 102938728; 108343040; 114031080; 120017744; 126318712; 132950480; 139930416; 147276800; 155008880; 163146880; 171712144; 180727088; 190215312; 200201664; 210712304].

(** src/sns.c lines 179-195, ge_18: binary32 values times 2^23. *)
Definition ge_18 : list Z := [8388608; 8959037; 9568255; 10218901; 10913791; 11655933; 12448542; 13295048; 14199117; 15164663; 16195866; 17297192; 18473408; 19729608; 21071230; 22504084; 24034370; 25668718; 27414202; 29278380; 31269322; 33395650; 35666568; 38091912; 40682176; 43448584; 46403104; 49558536; 52928540; 56527700; 60371608; 64476904; 68861360; 73543968; 78544984; 83886080; 89590368; 95682552; 102189008; 109137904; 116559328; 124485416; 132950480; 141991168; 151646624; 161958672; 172971920; 184734096; 197296080; 210712304; 225040832; 240343712; 256687184; 274142016; 292783808; 312693216; 333956512; 356665696; 380919104; 406821760; 434485824; 464031040; 495585376; 529285376].

(** src/sns.c lines 197-213, ge_22: binary32 values times 2^23. *)
Definition ge_22 : list Z := [8388608; 9090977; 9852154; 10677063; 11571041; 12539871; 13589820; 14727680; 15960812; 17297192; 18745466; 20315002; 22015954; 23859326; 25857038; 28022020; 30368270; 32910970; 35666568; 38652888; 41889252; 45396592; 49197596; 53316852; 57781012; 62618948; 67861960; 73543968; 79701720; 86375048; 93607136; 101444752; 109938608; 119143640; 129119400; 139930416; 151646624; 164343824; 178104144; 193016608; 209177664; 226691856; 245672512; 266242384; 288534560; 312693216; 338874656; 367248256; 397997536; 431321408; 467435456; 506573280; 548988096; 594954240; 644769024; 698754816; 757260736; 820665344; 889378688; 963845376; 1044547008; 1132005760; 1226787328; 1329504768].

(** src/sns.c lines 215-231, ge_26: binary32 values times 2^23. *)
Definition ge_26 : list Z := [8388608; 9224859; 10144475; 11155767; 12267873; 13490844; 14835731; 16314689; 17941082; 19729608; 21696432; 23859326; 26237834; 28853456; 31729826; 34892936; 38371376; 42196576; 46403104; 51028980; 56116004; 61710144; 67861960; 74627048; 82066536; 90247656; 99244344; 109137904; 120017744; 131982176; 145139344; 159608112; 175519280; 193016608; 212258208; 233418000; 256687184; 282276032; 310415840; 341360864; 375390752; 412813024; 453965888; 499221248; 548988096; 603716096; 663899904; 730083328; 802864576; 882901248; 970916672; 1067706304; 1174144768; 1291193984; 1419911680; 1561461120; 1717121408; 1888299392; 2076541824; 2283549952; 2511194624; 2761532928; 3036827136; 3339565056].

(** src/sns.c lines 233-249, ge_30: binary32 values times 2^23. *)
Definition ge_30 : list Z := [8388608; 9360713; 10445470; 11655933; 13006669; 14513934; 16195866; 18072708; 20167046; 22504084; 25111946; 28022020; 31269322; 34892936; 38936468; 43448584; 48483576; 54102048; 60371608; 67367712; 75174552; 83886080; 93607136; 104454704; 116559328; 130066688; 145139344; 161958672; 180727088; 201670464; 225040832; 251119472; 280220192; 312693216; 348929376; 389364704; 434485824; 484835776; 541020480; 603716096; 673677120; 751745536; 838860800; 936071360; 1044547008; 1165593344; 1300666880; 1451393408; 1619586688; 1807270784; 2016704512; 2250408448; 2511194624; 2802201856; 3126932224; 3489293568; 3893646848; 4344858112; 4848357888; 5410204672; 6037160960; 6736771072; 7517455360; 8388608000].

(** src/sns.c lines 253-269, ge_34: binary32 values times 2^23. *)
Definition ge_34 : list Z := [8388608; 9498568; 10755396; 12178524; 13789957; 15614611; 17680698; 20020166; 22669186; 25668718; 29065142; 32910970; 37265672; 42196576; 47779924; 54102048; 61260700; 69366568; 78544984; 88937872; 100705912; 114031080; 129119400; 146204160; 165549552; 187454656; 212258208; 240343712; 272145408; 308155040; 348929376; 395098848; 447377376; 506573280; 573601856; 649499456; 735439680; 832751232; 942938880; 1067706304; 1208982656; 1368952320; 1550088704; 1755192832; 1987435648; 2250408448; 2548176896; 2885345536; 3267127552; 3699426048; 4188925184; 4743193600; 5370801664; 6081453056; 6886136320; 7797293056; 8829011968; 9997246464; 11320057856; 12817900544; 14513934336; 16434382848; 18608941056; 21071230976].

(** src/tns.c lines 92-96, lag_window: binary32 values times 2^24. *)
Definition tns_lag_window : list Z := [16777216; 16744132; 16645270; 16481796; 16255626; 15969390; 15626382; 15230495; 14786149].

(** src/tns.c lines 247-250, q_thr: binary32 values times 2^15. *)
Definition tns_q_thr : list Z := [3023; 8967; 14606; 19747; 24216; 27860; 30555; 32210].

(** src/tns.c lines 277-280, q_inv: binary32 values times 2^15. *)
Definition tns_q_inv : list Z := [0; 6021; 11837; 17250; 22076; 26149; 29333; 31517; 32628].
