(** * Tables of the long term postfilter
    Copied from /repo/src by /verif/tools/gen_ltpf_tables.py; data only. *)
From Coq Require Import ZArith List.
Import ListNotations.
Local Open Scope Z_scope.

(** src/tables.c lines 4755-4827, lc3_ltpf_cnum: decimal values times 10^18, by rate. *)
Definition ltpf_cnum : list (list (list Z)) := [
  [[602361821000000000; 419760926000000000; -18834245300000000; 0];
   [599476858000000000; 419760926000000000; -15949282800000000; 0];
   [596776466000000000; 419760926000000000; -13248891000000000; 0];
   [594241012000000000; 419760926000000000; -10713436600000000; 0]];
  [[602361821000000000; 419760926000000000; -18834245300000000; 0];
   [599476858000000000; 419760926000000000; -15949282800000000; 0];
   [596776466000000000; 419760926000000000; -13248891000000000; 0];
   [594241012000000000; 419760926000000000; -10713436600000000; 0]];
  [[398969559000000000; 514250861000000000; 100438297000000000; -12788939600000000; -1572280080000000; 0];
   [394863491000000000; 512381921000000000; 104319493000000000; -10919999600000000; -1347408330000000; 0];
   [390984448000000000; 510605352000000000; 107983252000000000; -9143431070000000; -1132124620000000; 0];
   [387309389000000000; 508912208000000000; 111451738000000000; -7450287130000000; -925551405000000; 0]];
  [[298237945000000000; 465280920000000000; 210599743000000000; 37667803800000000; -10156961600000000; -2535881000000000; -318294617000000; 0];
   [294383415000000000; 461929400000000000; 212946577000000000; 40661750000000000; -8693272300000000; -2178307110000000; -274288806000000; 0];
   [290743921000000000; 458746191000000000; 215145697000000000; 43501047700000000; -7295495350000000; -1834395640000000; -231692019000000; 0];
   [287297585000000000; 455714889000000000; 217212695000000000; 46200888800000000; -5957463800000000; -1502934280000000; -190385191000000; 0]];
  [[198136374000000000; 352449490000000000; 251369527000000000; 142414624000000000; 57047310200000000; 9293366240000000; -7226025370000000; -3172679890000000; -1121835960000000; -290295724000000; -42708155900000; 0];
   [195070943000000000; 348466041000000000; 250998846000000000; 144116741000000000; 59289473200000000; 11089238300000000; -6192908110000000; -2726705510000000; -966712583000000; -250810092000000; -36999387700000; 0];
   [192181006000000000; 344694556000000000; 250622009000000000; 145710245000000000; 61411321300000000; 12799414000000000; -5203721090000000; -2297324510000000; -816560813000000; -212385575000000; -31412713300000; 0];
   [189448531000000000; 341113925000000000; 250240688000000000; 147206563000000000; 63424772300000000; 14432034300000000; -4254449140000000; -1883081470000000; -670961906000000; -174936334000000; -25938647400000; 0]]].

(** src/tables.c lines 4829-4901, lc3_ltpf_cden: decimal values times 10^18, by rate. *)
Definition ltpf_cden : list (list (list Z)) := [
  [[209880463000000000; 583527575000000000; 209880463000000000; 0];
   [106999186000000000; 550075002000000000; 335690625000000000; 6698858370000000];
   [39671147800000000; 459220930000000000; 459220930000000000; 39671147800000000];
   [6698858370000000; 335690625000000000; 550075002000000000; 106999186000000000]];
  [[209880463000000000; 583527575000000000; 209880463000000000; 0];
   [106999186000000000; 550075002000000000; 335690625000000000; 6698858370000000];
   [39671147800000000; 459220930000000000; 459220930000000000; 39671147800000000];
   [6698858370000000; 335690625000000000; 550075002000000000; 106999186000000000]];
  [[63222316300000000; 250730961000000000; 371390943000000000; 250730961000000000; 63222316300000000; 0];
   [34592721700000000; 198651560000000000; 362641173000000000; 298675055000000000; 101309287000000000; 4263543710000000];
   [15357467800000000; 147434488000000000; 337425955000000000; 337425955000000000; 147434488000000000; 15357467800000000];
   [4263543710000000; 101309287000000000; 298675055000000000; 362641173000000000; 198651560000000000; 34592721700000000]];
  [[29004018800000000; 112985742000000000; 221202403000000000; 272390947000000000; 221202403000000000; 112985742000000000; 29004018800000000; 0];
   [17031534200000000; 87225037900000000; 196140776000000000; 268923798000000000; 242499910000000000; 140577336000000000; 44748771700000000; 3127030240000000];
   [8563673750000000; 64262229400000000; 168767671000000000; 258744594000000000; 258744594000000000; 168767671000000000; 64262229400000000; 8563673750000000];
   [3127030240000000; 44748771700000000; 140577336000000000; 242499910000000000; 268923798000000000; 196140776000000000; 87225037900000000; 17031534200000000]];
  [[10823593900000000; 36089692200000000; 76764014700000000; 124153058000000000; 162759644000000000; 177677142000000000; 162759644000000000; 124153058000000000; 76764014700000000; 36089692200000000; 10823593900000000; 0];
   [7041404930000000; 28197023200000000; 65470449400000000; 112464799000000000; 154841896000000000; 176712238000000000; 169150721000000000; 135290158000000000; 88514250100000000; 44993538500000000; 15576137100000000; 2039721960000000];
   [4146998470000000; 21357573100000000; 54827355800000000; 100497144000000000; 145606034000000000; 173843984000000000; 173843984000000000; 145606034000000000; 100497144000000000; 54827355800000000; 21357573100000000; 4146998470000000];
   [2039721960000000; 15576137100000000; 44993538500000000; 88514250100000000; 135290158000000000; 169150721000000000; 176712238000000000; 154841896000000000; 112464799000000000; 65470449400000000; 28197023200000000; 7041404930000000]]].

(** src/ltpf.c lines 37-46, h_8k_12k8_q15. *)
Definition h_8k : list Z := [
  214; 417; -1052; -4529; 26233; -4529; -1052; 417; 214; 0;
  180; 0; -1522; -2427; 24506; -5289; 0; 763; 156; -28;
  92; -323; -1361; 0; 19741; -3885; 1317; 861; 0; -61;
  0; -457; -752; 1873; 13068; 0; 2389; 598; -213; -79;
  -61; -398; 0; 2686; 5997; 5997; 2686; 0; -398; -61;
  -79; -213; 598; 2389; 0; 13068; 1873; -752; -457; 0;
  -61; 0; 861; 1317; -3885; 19741; 0; -1361; -323; 92;
  -28; 156; 763; 0; -5289; 24506; -2427; -1522; 0; 180].

(** src/ltpf.c lines 50-62, h_16k_12k8_q15. *)
Definition h_16k : list Z := [
  -61; 214; -398; 417; 0; -1052; 2686; -4529; 5997; 26233; 5997; -4529; 2686; -1052; 0; 417; -398; 214; -61; 0;
  -79; 180; -213; 0; 598; -1522; 2389; -2427; 0; 24506; 13068; -5289; 1873; 0; -752; 763; -457; 156; 0; -28;
  -61; 92; 0; -323; 861; -1361; 1317; 0; -3885; 19741; 19741; -3885; 0; 1317; -1361; 861; -323; 0; 92; -61;
  -28; 0; 156; -457; 763; -752; 0; 1873; -5289; 13068; 24506; 0; -2427; 2389; -1522; 598; 0; -213; 180; -79].

(** src/ltpf.c lines 66-76, h_32k_12k8_q15. *)
Definition h_32k : list Z := [
  -30; -31; 46; 107; 0; -199; -162; 209; 430; 0; -681; -526; 658; 1343; 0; -2264; -1943; 2999; 9871; 13116; 9871; 2999; -1943; -2264; 0; 1343; 658; -526; -681; 0; 430; 209; -162; -199; 0; 107; 46; -31; -30; 0;
  -14; -39; 0; 90; 78; -106; -229; 0; 382; 299; -376; -761; 0; 1194; 937; -1214; -2644; 0; 6534; 12253; 12253; 6534; 0; -2644; -1214; 937; 1194; 0; -761; -376; 299; 382; 0; -229; -106; 78; 90; 0; -39; -14].

(** src/ltpf.c lines 80-112, h_24k_12k8_q15. *)
Definition h_24k : list Z := [
  -50; 19; 143; -93; -290; 278; 485; -658; -701; 1396; 901; -3019; -1042; 10276; 17488; 10276; -1042; -3019; 901; 1396; -701; -658; 485; 278; -290; -93; 143; 19; -50; 0;
  -46; 0; 141; -45; -305; 185; 543; -501; -854; 1153; 1249; -2619; -1908; 8712; 17358; 11772; 0; -3319; 480; 1593; -504; -796; 399; 367; -261; -142; 138; 40; -52; -5;
  -41; -17; 133; 0; -304; 91; 574; -334; -959; 878; 1516; -2143; -2590; 7118; 16971; 13161; 1202; -3495; 0; 1731; -267; -908; 287; 445; -215; -188; 125; 62; -52; -12;
  -34; -30; 120; 41; -291; 0; 577; -164; -1015; 585; 1697; -1618; -3084; 5534; 16337; 14406; 2544; -3526; -523; 1800; 0; -985; 152; 509; -156; -230; 104; 83; -48; -19;
  -26; -41; 103; 76; -265; -83; 554; 0; -1023; 288; 1791; -1070; -3393; 3998; 15474; 15474; 3998; -3393; -1070; 1791; 288; -1023; 0; 554; -83; -265; 76; 103; -41; -26;
  -19; -48; 83; 104; -230; -156; 509; 152; -985; 0; 1800; -523; -3526; 2544; 14406; 16337; 5534; -3084; -1618; 1697; 585; -1015; -164; 577; 0; -291; 41; 120; -30; -34;
  -12; -52; 62; 125; -188; -215; 445; 287; -908; -267; 1731; 0; -3495; 1202; 13161; 16971; 7118; -2590; -2143; 1516; 878; -959; -334; 574; 91; -304; 0; 133; -17; -41;
  -5; -52; 40; 138; -142; -261; 367; 399; -796; -504; 1593; 480; -3319; 0; 11772; 17358; 8712; -1908; -2619; 1249; 1153; -854; -501; 543; 185; -305; -45; 141; 0; -46].

(** src/ltpf.c lines 116-144, h_48k_12k8_q15. *)
Definition h_48k : list Z := [
  -13; -25; -20; 10; 51; 71; 38; -47; -133; -145; -42; 139; 277; 242; 0; -329; -511; -351; 144; 698; 895; 450; -535; -1510; -1697; -521; 1999; 5138; 7737; 8744; 7737; 5138; 1999; -521; -1697; -1510; -535; 450; 895; 698; 144; -351; -511; -329; 0; 242; 277; 139; -42; -145; -133; -47; 38; 71; 51; 10; -20; -25; -13; 0;
  -9; -23; -24; 0; 41; 71; 52; -23; -115; -152; -78; 92; 254; 272; 76; -251; -493; -427; 0; 576; 900; 624; -262; -1309; -1763; -954; 1272; 4356; 7203; 8679; 8169; 5886; 2767; 0; -1542; -1660; -809; 240; 848; 796; 292; -252; -507; -398; -82; 199; 288; 183; 0; -130; -145; -71; 20; 69; 60; 20; -15; -26; -17; -3;
  -6; -20; -26; -8; 31; 67; 62; 0; -94; -152; -108; 45; 223; 287; 143; -167; -454; -480; -134; 439; 866; 758; 0; -1071; -1748; -1295; 601; 3559; 6580; 8485; 8485; 6580; 3559; 601; -1295; -1748; -1071; 0; 758; 866; 439; -134; -480; -454; -167; 143; 287; 223; 45; -108; -152; -94; 0; 62; 67; 31; -8; -26; -20; -6;
  -3; -17; -26; -15; 20; 60; 69; 20; -71; -145; -130; 0; 183; 288; 199; -82; -398; -507; -252; 292; 796; 848; 240; -809; -1660; -1542; 0; 2767; 5886; 8169; 8679; 7203; 4356; 1272; -954; -1763; -1309; -262; 624; 900; 576; 0; -427; -493; -251; 76; 272; 254; 92; -78; -152; -115; -23; 52; 71; 41; 0; -24; -23; -9].

(** src/ltpf.c lines 148-174, h_96k_12k8_q15. *)
Definition h_96k : list Z := [
  -3; -7; -10; -13; -13; -10; -4; 5; 15; 26; 33; 36; 31; 19; 0; -23; -47; -66; -76; -73; -54; -21; 23; 70; 111; 139; 143; 121; 72; 0; -84; -165; -227; -256; -240; -175; -67; 72; 219; 349; 433; 448; 379; 225; 0; -268; -536; -755; -874; -848; -648; -260; 301; 1000; 1780; 2569; 3290; 3869; 4243; 4372; 4243; 3869; 3290; 2569; 1780; 1000; 301; -260; -648; -848; -874; -755; -536; -268; 0; 225; 379; 448; 433; 349; 219; 72; -67; -175; -240; -256; -227; -165; -84; 0; 72; 121; 143; 139; 111; 70; 23; -21; -54; -73; -76; -66; -47; -23; 0; 19; 31; 36; 33; 26; 15; 5; -4; -10; -13; -13; -10; -7; -3; 0;
  -1; -5; -8; -12; -13; -12; -8; 0; 10; 21; 30; 35; 34; 26; 10; -11; -35; -58; -73; -76; -65; -39; 0; 46; 92; 127; 144; 136; 100; 38; -41; -125; -199; -246; -254; -214; -126; 0; 146; 288; 398; 450; 424; 312; 120; -131; -405; -655; -830; -881; -771; -477; 0; 636; 1384; 2178; 2943; 3601; 4084; 4340; 4340; 4084; 3601; 2943; 2178; 1384; 636; 0; -477; -771; -881; -830; -655; -405; -131; 120; 312; 424; 450; 398; 288; 146; 0; -126; -214; -254; -246; -199; -125; -41; 38; 100; 136; 144; 127; 92; 46; 0; -39; -65; -76; -73; -58; -35; -11; 10; 26; 34; 35; 30; 21; 10; 0; -8; -12; -13; -12; -8; -5; -1].
