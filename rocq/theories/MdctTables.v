(** * Windows of the transform
    Copied from /repo/src/tables.c by /verif/tools/gen_mdct_tables.py; data only. *)
From Coq Require Import ZArith List.
Import ListNotations.
Local Open Scope Z_scope.

(** src/tables.c lines 1480-1491, mdct_win_2m5_8k: binary32 values times 2^47. *)
Definition win_2m5_8k : list Z := [
  948277149696; 3845355732992; 8674440904704; 15750284705792; 25150542053376; 36697651806208; 49958661128192; 64284616818688;
  78886729678848; 92938327556096; 105685891153920; 116550094815232; 125197961134080; 131571927482368; 135868773826560; 138471985381376;
  139853387792384; 140469908537344; 140684942114816; 140734292295680; 140734292295680; 140684942114816; 140469908537344; 139853387792384;
  138471985381376; 135868773826560; 131571927482368; 125197961134080; 116550094815232; 105685891153920; 92938327556096; 78886729678848;
  64284616818688; 49958661128192; 36697651806208; 25150542053376; 15750284705792; 8674440904704; 3845355732992; 948277149696].

(** src/tables.c lines 1493-1514, mdct_win_2m5_16k: binary32 values times 2^47. *)
Definition win_2m5_16k : list Z := [
  670531977216; 1695374901248; 3133374464000; 5038715961344; 7457756676096; 10426562641920; 13968738353152; 18093650739200;
  22795144658944; 28050844549120; 33822072635392; 40054424600576; 46679013195776; 53614290665472; 60768506609664; 68042537041920;
  75333164335104; 82536495579136; 89551536128000; 96283586985984; 102647512170496; 108570548895744; 113994589274112; 118877899980800;
  123195994669056; 126941835296768; 130125127483392; 132770894446592; 134917321129984; 136612985962496; 137913706741760; 138879160025088;
  139569550852096; 140042550902784; 140350731583488; 140539752087552; 140647260487680; 140702600134656; 140727279419392; 140735894519808;
  140735894519808; 140727279419392; 140702600134656; 140647260487680; 140539752087552; 140350731583488; 140042550902784; 139569550852096;
  138879160025088; 137913706741760; 136612985962496; 134917321129984; 132770894446592; 130125127483392; 126941835296768; 123195994669056;
  118877899980800; 113994589274112; 108570548895744; 102647512170496; 96283586985984; 89551536128000; 82536495579136; 75333164335104;
  68042537041920; 60768506609664; 53614290665472; 46679013195776; 40054424600576; 33822072635392; 28050844549120; 22795144658944;
  18093650739200; 13968738353152; 10426562641920; 7457756676096; 5038715961344; 3133374464000; 1695374901248; 670531977216].

(** src/tables.c lines 1516-1547, mdct_win_2m5_24k: binary32 values times 2^47. *)
Definition win_2m5_24k : list Z := [
  547487711232; 1154412576768; 1928435073024; 2889296379904; 4053672656896; 5436386836480; 7050342432768; 8906285776896;
  11012541513728; 13374771429376; 15995765784576; 18875273969664; 22009889161216; 25392981213184; 29014683025408; 32861948215296;
  36918641295360; 41165713833984; 45581418364928; 50141570531328; 54819884630016; 59588309155840; 64417463009280; 69277012983808;
  74136168693760; 78964122976256; 83730521653248; 88405903933440; 92962201534464; 97373124558848; 101614547369984; 105664894468096;
  109505417314304; 113120471154688; 116497674403840; 119628042862592; 122506065215488; 125129661087744; 127500097159168; 129621836169216;
  131502335590400; 133151695306752; 134582405955584; 135808887554048; 136847112011776; 137714158534656; 138427735474176; 139005777674240;
  139466001874944; 139825520836608; 140100524572672; 140305969971200; 140455396245504; 140560782327808; 140632454594560; 140679095255040;
  140707826237440; 140724276297728; 140732757180416; 140736423002112; 140736423002112; 140732757180416; 140724276297728; 140707826237440;
  140679095255040; 140632454594560; 140560782327808; 140455396245504; 140305969971200; 140100524572672; 139825520836608; 139466001874944;
  139005777674240; 138427735474176; 137714158534656; 136847112011776; 135808887554048; 134582405955584; 133151695306752; 131502335590400;
  129621836169216; 127500097159168; 125129661087744; 122506065215488; 119628042862592; 116497674403840; 113120471154688; 109505417314304;
  105664894468096; 101614547369984; 97373124558848; 92962201534464; 88405903933440; 83730521653248; 78964122976256; 74136168693760;
  69277012983808; 64417463009280; 59588309155840; 54819884630016; 50141570531328; 45581418364928; 41165713833984; 36918641295360;
  32861948215296; 29014683025408; 25392981213184; 22009889161216; 18875273969664; 15995765784576; 13374771429376; 11012541513728;
  8906285776896; 7050342432768; 5436386836480; 4053672656896; 2889296379904; 1928435073024; 1154412576768; 547487711232].

(** src/tables.c lines 1549-1590, mdct_win_2m5_32k: binary32 values times 2^47. *)
Definition win_2m5_32k : list Z := [
  474138738688; 908538937344; 1427511705600; 2043686813696; 2765599539200; 3600561471488; 4555149934592; 5635294887936;
  6846265425920; 8192620756992; 9678155153408; 11305843949568; 13077787443200; 14995168428032; 17058213396480; 19266155839488;
  21617224712192; 24108622413824; 26736527933440; 29496103141376; 32381509566464; 35385946144768; 38501663899648; 41720054022144;
  45031662551040; 48426288939008; 51893044772864; 55420446048256; 58996501250048; 62608803627008; 66244640243712; 69891088449536;
  73535133319168; 77163768315904; 80764125315072; 84323554295808; 87829757558784; 91270882000896; 94635628167168; 97913342525440;
  101094101352448; 104168794619904; 107129201491968; 109968057434112; 112679096156160; 115257091555328; 117697891270656; 119998433460224;
  122156771966976; 124172009209856; 126044346515456; 127775008620544; 129366201729024; 130821071568896; 132143619506176; 133338627047424;
  134411597119488; 135368619851776; 136216280301568; 136961591345152; 137611851071488; 138174525341696; 138657189068800; 139067383611392;
  139412541276160; 139699884654592; 139936359514112; 140128559300608; 140282641252352; 140404326400000; 140498832457728; 140570865434624;
  140624619634688; 140663752491008; 140691426508800; 140710309265408; 140722648907776; 140730248986624; 140734552342528; 140736691437568;
  140736691437568; 140734552342528; 140730248986624; 140722648907776; 140710309265408; 140691426508800; 140663752491008; 140624619634688;
  140570865434624; 140498832457728; 140404326400000; 140282641252352; 140128559300608; 139936359514112; 139699884654592; 139412541276160;
  139067383611392; 138657189068800; 138174525341696; 137611851071488; 136961591345152; 136216280301568; 135368619851776; 134411597119488;
  133338627047424; 132143619506176; 130821071568896; 129366201729024; 127775008620544; 126044346515456; 124172009209856; 122156771966976;
  119998433460224; 117697891270656; 115257091555328; 112679096156160; 109968057434112; 107129201491968; 104168794619904; 101094101352448;
  97913342525440; 94635628167168; 91270882000896; 87829757558784; 84323554295808; 80764125315072; 77163768315904; 73535133319168;
  69891088449536; 66244640243712; 62608803627008; 58996501250048; 55420446048256; 51893044772864; 48426288939008; 45031662551040;
  41720054022144; 38501663899648; 35385946144768; 32381509566464; 29496103141376; 26736527933440; 24108622413824; 21617224712192;
  19266155839488; 17058213396480; 14995168428032; 13077787443200; 11305843949568; 9678155153408; 8192620756992; 6846265425920;
  5635294887936; 4555149934592; 3600561471488; 2765599539200; 2043686813696; 1427511705600; 908538937344; 474138738688].

(** src/tables.c lines 1592-1653, mdct_win_2m5_48k: binary32 values times 2^47. *)
Definition win_2m5_48k : list Z := [
  387133145088; 672056016896; 983933124608; 1332800651264; 1723211972608; 2158293024768; 2640610852864; 3172440211456;
  3755863441408; 4392807038976; 5085056729088; 5834260086784; 6641923653632; 7509409005568; 8437925150720; 9428523810816;
  10482091032576; 11599339323392; 12780807651328; 14026845192192; 15337619718144; 16713099771904; 18153063055360; 19657081749504;
  21224533000192; 22854586335232; 24546214150144; 26298181222400; 28109055197184; 29977202393088; 31900800385024; 33877831712768;
  35906090172416; 37983193399296; 40106593353728; 42273563738112; 44481231454208; 46726568214528; 49006415708160; 51317489795072;
  53656376311808; 56019581403136; 58403493773312; 60804447600640; 63218693177344; 65642447241216; 68071872004096; 70503121289216;
  72932336336896; 75355654193152; 77769258041344; 80169339453440; 82552148721664; 84914011635712; 87251329482752; 89560570658816;
  91838346166272; 94081359282176; 96286447501312; 98450607702016; 100570962591744; 102644827815936; 104669670014976; 106643140378624;
  108563091423232; 110427560214528; 112234801922048; 113983256264704; 115671597842432; 117298694193152; 118863639347200; 120365753827328;
  121804559482880; 123179787878400; 124491405459456; 125739563220992; 126924621873152; 128047151841280; 129107891322880; 130107779842048;
  131047916306432; 131929567395840; 132754167562240; 133523260309504; 134238540136448; 134901818982400; 135515009449984; 136080099639296;
  136599169925120; 137074359402496; 137507849109504; 137901853638656; 138258621136896; 138580391362560; 138869395685376; 139127857086464;
  139357956603904; 139561841721344; 139741592813568; 139899239923712; 140036737597440; 140155956494336; 140258674999296; 140346595999744;
  140421304942592; 140484311777280; 140537000624128; 140580671717376; 140616507850752; 140645591154688; 140668919873536; 140687366422528;
  140701727719424; 140712716795904; 140720937631744; 140726935486464; 140731180122112; 140734049026048; 140735886131200; 140736959873024;
  140736959873024; 140735886131200; 140734049026048; 140731180122112; 140726935486464; 140720937631744; 140712716795904; 140701727719424;
  140687366422528; 140668919873536; 140645591154688; 140616507850752; 140580671717376; 140537000624128; 140484311777280; 140421304942592;
  140346595999744; 140258674999296; 140155956494336; 140036737597440; 139899239923712; 139741592813568; 139561841721344; 139357956603904;
  139127857086464; 138869395685376; 138580391362560; 138258621136896; 137901853638656; 137507849109504; 137074359402496; 136599169925120;
  136080099639296; 135515009449984; 134901818982400; 134238540136448; 133523260309504; 132754167562240; 131929567395840; 131047916306432;
  130107779842048; 129107891322880; 128047151841280; 126924621873152; 125739563220992; 124491405459456; 123179787878400; 121804559482880;
  120365753827328; 118863639347200; 117298694193152; 115671597842432; 113983256264704; 112234801922048; 110427560214528; 108563091423232;
  106643140378624; 104669670014976; 102644827815936; 100570962591744; 98450607702016; 96286447501312; 94081359282176; 91838346166272;
  89560570658816; 87251329482752; 84914011635712; 82552148721664; 80169339453440; 77769258041344; 75355654193152; 72932336336896;
  70503121289216; 68071872004096; 65642447241216; 63218693177344; 60804447600640; 58403493773312; 56019581403136; 53656376311808;
  51317489795072; 49006415708160; 46726568214528; 44481231454208; 42273563738112; 40106593353728; 37983193399296; 35906090172416;
  33877831712768; 31900800385024; 29977202393088; 28109055197184; 26298181222400; 24546214150144; 22854586335232; 21224533000192;
  19657081749504; 18153063055360; 16713099771904; 15337619718144; 14026845192192; 12780807651328; 11599339323392; 10482091032576;
  9428523810816; 8437925150720; 7509409005568; 6641923653632; 5834260086784; 5085056729088; 4392807038976; 3755863441408;
  3172440211456; 2640610852864; 2158293024768; 1723211972608; 1332800651264; 983933124608; 672056016896; 387133145088].

(** src/tables.c lines 1657-1718, mdct_win_2m5_48k_hr: binary32 values times 2^47. *)
Definition win_2m5_48k_hr : list Z := [
  27146506; 178542832; 525927968; 1217292928; 2466424320; 4575381504; 7958697984; 13171133440;
  20939061248; 32195375104; 48117637120; 70169034752; 100141514752; 140200214528; 192928219136; 261370167296;
  349073440768; 460124913664; 599181623296; 771493134336; 982913777664; 1239902584832; 1549508935680; 1919343656960;
  2357531770880; 2872650760192; 3473647861760; 4169745825792; 4970328883200; 5884819275776; 6922539368448; 8092568256512;
  9403592867840; 10863753822208; 12480492339200; 14260399767552; 16209074454528; 18330972848128; 20629283667968; 23105795784704;
  25760781828096; 28592893329408; 31599064252416; 34774431301632; 38112273104896; 41603959881728; 45238940860416; 49004750569472;
  52887040294912; 56869687132160; 60934882066432; 65063310327808; 69234369495040; 73426408570880; 77617055137792; 81783508959232;
  85902953021440; 89952939409408; 93911741628416; 97758790811648; 101475028041728; 105043239895040; 108448335265792; 111677605412864;
  114720866566144; 117570552201216; 120221763371008; 122672226762752; 124922135314432; 126974064328704; 128832703037440; 130504628109312;
  131998051991552; 133322512531456; 134488596152320; 135507644252160; 136391493156864; 137152197296128; 137801811099648; 138352154116096;
  138814668406784; 139200208830464; 139518984323072; 139780415291392; 139993091670016; 140164747755520; 140302220263424; 140411490271232;
  140497708384256; 140565245067264; 140617749364736; 140658224398336; 140689102864384; 140712347697152; 140729485623296; 140741732990976;
  140750037712896; 140755121209344; 140757587460096; 140757906227200; 140756480163840; 140753661591552; 140749769277440; 140745105211392;
  140739971383296; 140734636228608; 140729376571392; 140724427292672; 140720040050688; 140716391006208; 140713656320000; 140711953432576;
  140711366230016; 140711919878144; 140713589211136; 140716307120128; 140719964553216; 140724385349632; 140729384960000; 140734745280512;
  140740223041536; 140745591750656; 140750591361024; 140755020546048; 140758661201920; 140761395888128; 140763056832512; 140763610480640;
  140763023278080; 140761312002048; 140758577315840; 140754903105536; 140750473920512; 140745457532928; 140740072046592; 140734527176704;
  140729007472640; 140723714260992; 140718781759488; 140714285465600; 140710225379328; 140706492448768; 140702835015680; 140698825261056;
  140693842427904; 140686988935168; 140677081989120; 140662594863104; 140641589788672; 140611659235328; 140569875578880; 140512740769792;
  140436110835712; 140335145549824; 140204283265024; 140037173805056; 139826703630336; 139564937117696; 139243183669248; 138851980935168;
  138381220642816; 137820165373952; 137157607948288; 136381997252608; 135481614401536; 134444757286912; 133259992236032; 131916355338240;
  130403646046208; 128712720777216; 126835711016960; 124766375641088; 122500302241792; 120035175563264; 117370995605504; 114510195064832;
  111457790328832; 108221415030784; 104811261329408; 101240029577216; 97522743771136; 93676533448704; 89720340086784; 85674598334464;
  81560850137088; 77401400803328; 73218882797568; 69035886641152; 64874629562368; 60756569620480; 56702149853184; 52730517258240;
  48859329855488; 45104584720384; 41480508932096; 37999463104512; 34671907831808; 31506399494144; 28509600743424; 25686332932096;
  23039624347648; 20570806681600; 18279596818432; 16164201693184; 14221445169152; 12446883381248; 10834942099456; 9379055140864;
  8071809073152; 6905098403840; 5870270808064; 4958282317824; 4159847006208; 3465578545152; 2866126782464; 2352302784512;
  1915190116352; 1546241048576; 1237356904448; 980951629824; 769997602816; 598055256064; 459287429120; 348459270144;
  260926472192; 192612843520; 139980046336; 99990814720; 70068150272; 48051769344; 32153581568; 20913412096;
  13155996672; 7950179328; 4570863104; 2464204288; 1216310656; 525556320; 178435616; 27130908].

(** src/tables.c lines 1720-1841, mdct_win_2m5_96k_hr: binary32 values times 2^47. *)
Definition win_2m5_96k_hr : list Z := [
  19187494; 64425064; 140395152; 259066224; 435195264; 686931776; 1036365248; 1510114304;
  2139967872; 2963580416; 4025223936; 5376595968; 7077686784; 9197700096; 11816037376; 15023329280;
  18922530816; 23630059520; 29276993536; 36010307584; 43994148864; 53411164160; 64463839232; 77375881216;
  92393611264; 109787348992; 129852825600; 152912576512; 179317293056; 209447174144; 243713228800; 282558464000;
  326459031552; 375925407744; 431503212544; 493774110720; 563356565504; 640906231808; 727116677120; 822719021056;
  928482656256; 1045214396416; 1173758410752; 1314995306496; 1469841539072; 1639248035840; 1824198492160; 2025708191744;
  2244821647360; 2482610110464; 2740170260480; 3018620141568; 3319095885824; 3642750140416; 3990746824704; 4364258770944;
  4764462481408; 5192535244800; 5649650417664; 6136971919360; 6655652134912; 7206825099264; 7791602827264; 8411070070784;
  9066280648704; 9758251679744; 10487958863872; 11256330190848; 12064246464512; 12912530817024; 13801946611712; 14733193248768;
  15706899873792; 16723626426368; 17783851057152; 18887972225024; 20036303454208; 21229069139968; 22466401402880; 23748335894528;
  25074805506048; 26445646659584; 27860584628224; 29319237730304; 30821115232256; 32365611057152; 33952005881856; 35579458748416;
  37247017549824; 38953608544256; 40698032160768; 42478975582208; 44295000162304; 46144554008576; 48025967788032; 49937450532864;
  51877102223360; 53842905399296; 55832746131456; 57844397244416; 59875547676672; 61923785703424; 63986611519488; 66061454016512;
  68145679171584; 70236577464320; 72331393236992; 74427337277440; 76521586819072; 78611281346560; 80693585510400; 82765638795264;
  84824605851648; 86867684884480; 88892107653120; 90895164637184; 92874196647936; 94826645159936; 96750027145216; 98641960239104;
  100500162740224; 102322487164928; 104106911858688; 105851557773312; 107554671689728; 109214668161024; 110830112735232; 112399730343936;
  113922405302272; 115397206474752; 116823328555008; 118200175951872; 119527295680512; 120804385751040; 122031320334336; 123208124596224;
  124334974697472; 125412172627968; 126440179761152; 127419566522368; 128351045943296; 129235423330304; 130073629818880; 130866680430592;
  131615674073088; 132321793540096; 132986297122816; 133610501832704; 134195766624256; 134743500783616; 135255147151360; 135732182122496;
  136176082092032; 136588348620800; 136970483269632; 137323987599360; 137650346393600; 137951027658752; 138227474235392; 138481128964096;
  138713367576576; 138925549027328; 139118990327808; 139294958157824; 139454685642752; 139599355576320; 139730083643392; 139847968751616;
  139954009145344; 140049203068928; 140134448103424; 140210616664064; 140278514057216; 140338912034816; 140392498462720; 140439944429568;
  140481853915136; 140518788956160; 140551252869120; 140579732193280; 140604637970432; 140626381242368; 140645297553408; 140661714059264;
  140675924361216; 140688180117504; 140698707820544; 140707708796928; 140715375984640; 140721860378624; 140727312973824; 140731851210752;
  140735584141312; 140738612428800; 140741028347904; 140742890618880; 140744266350592; 140745222651904; 140745809854464; 140746061512704;
  140746044735488; 140745759522816; 140745256206336; 140744568340480; 140743729479680; 140742739623936; 140741665882112; 140740491476992;
  140739249963008; 140737958117376; 140736649494528; 140735332483072; 140734032248832; 140732757180416; 140731524055040; 140730358038528;
  140729259130880; 140728244109312; 140727338139648; 140726532833280; 140725844967424; 140725291319296; 140724863500288; 140724578287616;
  140724427292672; 140724427292672; 140724561510400; 140724846723072; 140725266153472; 140725819801600; 140726499278848; 140727304585216;
  140728218943488; 140729233965056; 140730341261312; 140731532443648; 140732782346240; 140734090969088; 140735433146368; 140736800489472;
  140738176221184; 140739535175680; 140740877352960; 140742185975808; 140743444267008; 140744635449344; 140745742745600; 140746766155776;
  140747672125440; 140748477431808; 140749165297664; 140749718945792; 140750138376192; 140750406811648; 140750557806592; 140750541029376;
  140750406811648; 140750104821760; 140749685391360; 140749114966016; 140748427100160; 140747621793792; 140746699046912; 140745675636736;
  140744568340480; 140743360380928; 140742102089728; 140740776689664; 140739417735168; 140738008449024; 140736599162880; 140735164710912;
  140733738647552; 140732312584192; 140730903298048; 140729519177728; 140728151834624; 140726801268736; 140725467480064; 140724133691392;
  140722791514112; 140721407393792; 140719972941824; 140718429437952; 140716751716352; 140714872668160; 140712741961728; 140710258933760;
  140707356475392; 140703917146112; 140699815116800; 140694924558336; 140689069309952; 140682081599488; 140673751711744; 140663844765696;
  140652109103104; 140638267899904; 140621994000384; 140602935083008; 140580713660416; 140554901913600; 140525046857728; 140490636787712;
  140451126444032; 140405945401344; 140354430959616; 140295920418816; 140229675581440; 140154916306944; 140070812123136; 139976482226176;
  139870987091968; 139753353641984; 139622541688832; 139477460713472; 139316986642432; 139139936681984; 138945077706752; 138731151425536;
  138496849215488; 138240820510720; 137961681190912; 137658038747136; 137328433561600; 136971439570944; 136585571991552; 136169354428416;
  135721318875136; 135239972159488; 134723871440896; 134171557101568; 133581611466752; 132952658804736; 132283348549632; 131572397244416;
  130818580152320; 130020731256832; 129177768427520; 128288701808640; 127352625430528; 126368742375424; 125336381554688; 124254972542976;
  123124079132672; 121943407722496; 120712807317504; 119432252751872; 118101895020544; 116722027724800; 115293120626688; 113815794483200;
  112290821046272; 110719173394432; 109101950435328; 107440435625984; 105736055029760; 103990410870784; 102205231202304; 100382395072512;
  98523932524544; 96631991042048; 94708818771968; 92756814856192; 90778428768256; 88776244199424; 86752886784000; 84711057653760;
  82653525049344; 80583073988608; 78502523043840; 76414724341760; 74322513231872; 72228725063680; 70136178409472; 68047649898496;
  65965878411264; 63893565079552; 61833339731968; 59787756699648; 57759303204864; 55750382583808; 53763297509376; 51800266768384;
  49863400095744; 47954693980160; 46076052635648; 44229250252800; 42415951970304; 40637705486336; 38895945252864; 37191975698432;
  35526992199680; 33902058012672; 32318131535872; 30776041144320; 29276508258304; 27820132663296; 26407405092864; 25038707228672;
  23714305409024; 22434367406080; 21198958231552; 20008042233856; 18861483098112; 17759062720512; 16700462333952; 15685287673856;
  14713058492416; 13783217995776; 12895137038336; 12048118317056; 11241399517184; 10474158555136; 9745518821376; 9054551277568;
  8400282845184; 7781699551232; 7197749673984; 6647349510144; 6129390714880; 5642740301824; 5186248507392; 4758754033664;
  4359085096960; 3986067292160; 3638525952000; 3315290865664; 3015199686656; 2737102389248; 2479864152064; 2242369290240;
  2023523221504; 1822256398336; 1637526011904; 1468318351360; 1313651425280; 1172575748096; 1044176568320; 927574392832;
  821926494208; 726427041792; 640308084736; 562839355392; 493328400384; 431120384000; 375597793280; 326179684352;
  282321158144; 243512492032; 209278074880; 179175456768; 152794169344; 129754472448; 109706067968; 92326805504;
  77321289728; 64419495936; 53375385600; 43965485056; 35987513344; 29259016192; 23616006144; 18911649792;
  15014992896; 11809724416; 9192980480; 7074208768; 5374074880; 4023429632; 2962330624; 2139119104;
  1509555072; 1036010240; 686716672; 435072768; 259002176; 140365696; 64414140; 19184730].

(** src/tables.c lines 1845-1864, mdct_win_5m_8k: binary32 values times 2^47. *)
Definition win_5m_8k : list Z := [
  140161679360; 537484460032; 1342752817152; 2704495607808; 4760753668096; 7634772033536; 11428978229248; 16215377444864;
  22024604876800; 28842225827840; 36608166330368; 45216337756160; 54514287640576; 64309954609152; 74382475001856; 84492064653312;
  94391175741440; 103836748349440; 112603011481600; 120491121573888; 127343112749056; 133048792252416; 137549892812800; 140850197692416;
  143013435146240; 144159553880064; 144455134871552; 144095263588352; 143289856557056; 142256732372992; 141216914079744; 140284755181568;
  139625595142144; 139220433764352; 139043828400128; 139066561527808; 139257008095232; 139581328457728; 140003510321152; 140485846892544;
  140989582802944; 141475316760576; 141903219654656; 142233714032640; 142428497510400; 142451784286208; 142271076892672; 141858239938560;
  141191681146880; 140259690020864; 138883756982272; 136955174060032; 134272522387456; 130658777169920; 125972959461376; 120116201127936;
  113041626628096; 104775332921344; 95431094697984; 85202059657216; 74338636136448; 63142621085696; 51958534635520; 41159611121664;
  31113097510912; 22140097134592; 14503361118208; 8419947315200; 4041744056320; 1362885607424].

(** src/tables.c lines 1866-1902, mdct_win_5m_16k: binary32 values times 2^47. *)
Definition win_5m_16k : list Z := [
  86460506112; 209640144896; 405901672448; 694440820736; 1094815252480; 1625392152576; 2304091619328; 3148461113344;
  4174498758656; 5398216048640; 6833665212416; 8493585661952; 10389646475264; 12530652020736; 14923186831360; 17571565797376;
  20476346761216; 23635953713152; 27045924962304; 30698199056384; 34582856466432; 38686477516800; 42992836542464; 47483052883968;
  52135018364928; 56924791898112; 61826041643008; 66811257159680; 71851296423936; 76915876560896; 81974777610240; 86996215136256;
  91949595885568; 96804410490880; 101530501906432; 106100414218240; 110486624403456; 114664428011520; 118611016417280; 122306181464064;
  125733968019456; 128880123838464; 131734087663616; 134287923871744; 136538377682944; 138486204071936; 140135127580672; 141493855584256;
  142573637206016; 143389462888448; 143959955341312; 144305935089664; 144450554691584; 144418543763456; 144235370119168; 143927239770112;
  143521197588480; 143044405886976; 142524429631488; 141987961372672; 141494476341248; 140957571874816; 140491643420672; 140094971314176;
  139765701672960; 139501401800704; 139299227959296; 139155950534656; 139068105031680; 139032025628672; 139043887120384; 139099730083840;
  139195486044160; 139326910365696; 139489632583680; 139679148015616; 139890826149888; 140119952588800; 140361729048576; 140611298525184;
  140863787237376; 141114254295040; 141357742030848; 141589267611648; 141803848204288; 141996500975616; 142162343755776; 142296578260992;
  142394523648000; 142451717177344; 142463880658944; 142426903674880; 142336994574336; 142190596587520; 141984522043392; 141716036255744;
  141382941409280; 140983761108992; 140517748768768; 139984543678464; 139270396313600; 138461809999872; 137500517466112; 136362535682048;
  135024082944000; 133462577119232; 131657952657408; 129592501207040; 127251072942080; 124621386940416; 121693804691456; 118462085070848;
  114924483248128; 111083910070272; 106948838031360; 102533938806784; 97858757853184; 92947739574272; 87829497511936; 82534960463872;
  77098253287424; 71557971968000; 65954675425280; 60331204280320; 54733268058112; 49207897489408; 43802584678400; 38563878010880;
  33535593283584; 28758014689280; 24267448123392; 20096466550784; 16274684903424; 12829378740224; 9785124585472; 7162095992832;
  4972860669952; 3218216583168; 1883074723840; 934568198144].

(** src/tables.c lines 1904-1958, mdct_win_5m_24k: binary32 values times 2^47. *)
Definition win_5m_24k : list Z := [
  71596367872; 140161679360; 236749733888; 367282225152; 537484460032; 752849780736; 1019489157120; 1342752817152;
  1727746408448; 2179953721344; 2704495607808; 3306443767808; 3990188720128; 4760753668096; 5622377480192; 6579161137152;
  7634772033536; 8792955682816; 10056870395904; 11428978229248; 12911820931072; 14506727047168; 16215377444864; 18037841330176;
  19974370361344; 22024604876800; 24187049607168; 26460536438784; 28842225827840; 31329896890368; 33919862833152; 36608166330368;
  39390608883712; 42261781938176; 45216337756160; 48247745806336; 51349433614336; 54514287640576; 57734670057472; 61002586521600;
  64309954609152; 67648238911488; 71008727859200; 74382475001856; 77760223510528; 81133366673408; 84492064653312; 87827366805504;
  91130095992832; 94391175741440; 97601856733184; 100752945053696; 103836748349440; 106844903178240; 109769423585280; 112603011481600;
  115338855317504; 117970227429376; 120491121573888; 122896437477376; 125181804675072; 127343112749056; 129376259670016; 131279089565696;
  133048792252416; 134684142993408; 136184437145600; 137549892812800; 138781625679872; 139880709488640; 140850197692416; 141692783034368;
  142412441714688; 143013435146240; 143501064929280; 143881085648896; 144159553880064; 144343365058560; 144439364288512; 144455134871552;
  144397773570048; 144275266338816; 144095263588352; 143865650610176; 143594530799616; 143289856557056; 142960033267712; 142612946223104;
  142256732372992; 141900703072256; 141588512636928; 141216914079744; 140875044749312; 140564448149504; 140284755181568; 140035470917632;
  139815991377920; 139625595142144; 139463476903936; 139328739082240; 139220433764352; 139137554317312; 139079052165120; 139043828400128;
  139030775726080; 139038744903680; 139066561527808; 139113034416128; 139176930443264; 139257008095232; 139351975526400; 139460532502528;
  139581328457728; 139713012826112; 139854209875968; 140003510321152; 140159496486912; 140320759087104; 140485846892544; 140653333839872;
  140821693202432; 140989582802944; 141155459137536; 141317862588416; 141475316760576; 141626345259008; 141769471688704; 141903219654656;
  142026146316288; 142136775278592; 142233714032640; 142315536515072; 142380917325824; 142428497510400; 142456985223168; 142465155727360;
  142451784286208; 142415696494592; 142355818610688; 142271076892672; 142160481484800; 142023143194624; 141858239938560; 141665050296320;
  141443020619776; 141191681146880; 140910746664960; 140600066179072; 140259690020864; 139891581124608; 139393994063872; 138883756982272;
  138312819933184; 137672316157952; 136955174060032; 136154003275776; 135262050975744; 134272522387456; 133179226718208; 131976426160128;
  130658777169920; 129221817008128; 127661024215040; 125972959461376; 124154334412800; 122202716372992; 120116201127936; 117893714935808;
  115535274573824; 113041626628096; 110414901805056; 107657910288384; 104775332921344; 101772177702912; 98655012913152; 95431094697984;
  92108274794496; 88695747117056; 85202059657216; 81637815615488; 78012611559424; 74338636136448; 70627272687616; 66891162845184;
  63142621085696; 59395178233856; 55662490943488; 51958534635520; 48297347645440; 44693060583424; 41159611121664; 37710102265856;
  34357276311552; 31113097510912; 27988733198336; 24994522333184; 22140097134592; 19434487939072; 16886211280896; 14503361118208;
  12293539627008; 10263719837696; 8419947315200; 6766910242816; 5307400978432; 4041744056320; 2967241752576; 2077692657664;
  1362885607424; 794064650240].

(** src/tables.c lines 1960-2031, mdct_win_5m_32k: binary32 values times 2^47. *)
Definition win_5m_32k : list Z := [
  64681349120; 111454568448; 172815384576; 251026882560; 348965568512; 468627619840; 612705632256; 783199240192;
  983207313408; 1214548017152; 1479634321408; 1780445478912; 2119633862656; 2498922545152; 2920972812288; 3387289239552;
  3900128362496; 4461284556800; 5073036902400; 5736641331200; 6454274686976; 7227062616064; 8056911953920; 8945070505984;
  9893072338944; 10901507801088; 11972025253888; 13104970727424; 14301221879808; 15561214918656; 16885532852224; 18273598963712;
  19726101118976; 21242516078592; 22822445383680; 24465159225344; 26170422722560; 27936516210688; 29762862972928; 31648097763328;
  33590716923904; 35588702994432; 37640904638464; 39744708804608; 41898257416192; 44098954199040; 46344525840384; 48631700783104;
  50958159577088; 53320488058880; 55715884433408; 58140678684672; 60591825747968; 63065546555392; 65558728933376; 68067212132352;
  70587795898368; 73116332064768; 75649171587072; 78182262767616; 80712359215104; 83234780086272; 85746044108800; 88242141528064;
  90719414910976; 93173628010496; 95601660264448; 97999124430848; 100362639900672; 102688683458560; 104974184873984; 107215151169536;
  109408738607104; 111551474302976; 113640824897536; 115673569165312; 117647299575808; 119559038173184; 121406998183936; 123188696580096;
  124902900236288; 126547461668864; 128120761876480; 129621257355264; 131048503508992; 132400831004672; 133677845577728; 134879043911680;
  136004350509056; 137053480157184; 138027481432064; 138926169784320; 139750526681088; 140501634252800; 141180910174208; 141789319135232;
  142329109282816; 142801639571456; 143209309143040; 143554299035648; 143839327158272; 144066524217344; 144239262433280; 144359974502400;
  144431948759040; 144458121216000; 144441813762048; 144385811415040; 144293922603008; 144168982675456; 144014548402176; 143833824231424;
  143630484373504; 143407481618432; 143168758611968; 142917385584640; 142657053523968; 142390832660480; 142122464313344; 141854918049792;
  141639246938112; 141353195405312; 141085078716416; 140834460663808; 140601618071552; 140385997291520; 140187791261696; 140006370836480;
  139841870233600; 139693593198592; 139561581674496; 139445105852416; 139344165732352; 139257964396544; 139186485067776; 139128880496640;
  139085117128704; 139054330937344; 139036446425088; 139030599565312; 139036689694720; 139053827620864; 139081912680448; 139120047292416;
  139168080461824; 139225114607616; 139290990346240; 139364784930816; 139446313811968; 139534629076992; 139629554565120; 139730125586432;
  139836132425728; 139946610393088; 140061349773312; 140179352322048; 140300408324096; 140423527923712; 140548493017088; 140674296971264;
  140800704905216; 140926735351808; 141052145041408; 141175927341056; 141297847369728; 141416898494464; 141532829057024; 141644649201664;
  141752107270144; 141854213406720; 141950715953152; 142040625053696; 142123722604544; 142199001972736; 142266295386112; 142324596211712;
  142373736677376; 142412760481792; 142441533407232; 142459099152384; 142465340276736; 142459350810624; 142441013313536; 142409488924672;
  142364693757952; 142305772175360; 142232724176896; 142144744456192; 142041849790464; 141923301982208; 141789184917504; 141638844284928;
  141472414302208; 141289341321216; 141089860222976; 140873484468224; 140640574767104; 140390745243648; 140124465659904; 139841467580416;
  139452236169216; 139081375809536; 138677380448256; 138236651372544; 137756470673408; 137233491296256; 136664995332096; 136047551840256;
  135378795233280; 134655403622400; 133875044974592; 133034925883392; 132133016305664; 131166581555200; 130134212345856; 129033526312960;
  127863080615936; 126621054926848; 125306492944384; 123917641449472; 122454055845888; 120914503008256; 119298756444160; 117606279282688;
  115837566451712; 113992433401856; 112072138424320; 110077268721664; 108009577512960; 105870667022336; 103663037054976; 101388558270464;
  99050695163904; 96652073369600; 94196190937088; 91686403309568; 89127005454336; 86520983715840; 83873262206976; 81187766796288;
  78468666621952; 75721271672832; 72950631890944; 70161289707520; 67359159091200; 64548870553600; 61736522612736; 58927446228992;
  56127840583680; 53343208603648; 50579854327808; 47843343597568; 45140034977792; 42475435589632; 39855534899200; 37285420597248;
  34770723536896; 32316158115840; 29926893813760; 27607091380224; 25361391812608; 23193494487040; 21107633553408; 19107132997632;
  17195905056768; 15377006329856; 13654053355520; 12029790257152; 10507427774464; 9089184694272; 7777549287424; 6573815496704;
  5479254196224; 4493714391040; 3616686997504; 2846076960768; 2179063611392; 1611338612736; 1136663855104; 745914892288].

(** src/tables.c lines 2033-2139, mdct_win_5m_48k: binary32 values times 2^47. *)
Definition win_5m_48k : list Z := [
  57563131904; 86460506112; 120636792832; 161428013056; 209640144896; 265961537536; 331155406848; 405901672448;
  490922442752; 586881040384; 694440820736; 814458601472; 947699777536; 1094815252480; 1256369946624; 1432993136640;
  1625392152576; 1834300997632; 2060328239104; 2304091619328; 2566285426688; 2847554928640; 3148461113344; 3469513064448;
  3811314761728; 4174498758656; 4559732736000; 4967473086464; 5398216048640; 5852495347712; 6330825834496; 6833665212416;
  7361410367488; 7914547838976; 8493585661952; 9098940645376; 9730864971776; 10389646475264; 11075631185920; 11789243777024;
  12530652020736; 13299973357568; 14097395482624; 14923186831360; 15777520418816; 16660342767616; 17571565797376; 18511241936896;
  19479520083968; 20476346761216; 21501493379072; 22554714570752; 23635953713152; 24745108045824; 25881907036160; 27045924962304;
  28236786434048; 29454300610560; 30698199056384; 31967988940800; 33263011758080; 34582856466432; 35927065886720; 37295168159744;
  38686477516800; 40100280926208; 41535945048064; 42992836542464; 44470225600512; 45967252389888; 47483052883968; 49016838553600;
  50567791509504; 52135018364928; 53717562818560; 55314472763392; 56924791898112; 58547513589760; 60181597650944; 61826041643008;
  63479872487424; 65141978693632; 66811257159680; 68486617366528; 70166989766656; 71851296423936; 73538329378816; 75226872283136;
  76915876560896; 78604318801920; 80291041378304; 81974777610240; 83654244040704; 85328408870912; 86996215136256; 88656480043008;
  90307995631616; 91949595885568; 93580265783296; 95198956748800; 96804410490880; 98395511324672; 99971177119744; 101530501906432;
  103072562937856; 104596210974720; 106100414218240; 107584174424064; 109046543679488; 110486624403456; 111903519014912; 113296405430272;
  114664428011520; 116006739509248; 117322526228480; 118611016417280; 119871555764224; 121103498346496; 122306181464064; 123479135354880;
  124622032863232; 125733968019456; 126814705942528; 127863516823552; 128880123838464; 129864308883456; 130815744802816; 131734087663616;
  132618951589888; 133470227529728; 134287923871744; 135071939952640; 135822066057216; 136538377682944; 137221067767808; 137870346027008;
  138486204071936; 139068717400064; 139618213167104; 140135127580672; 140619846516736; 141072630022144; 141493855584256; 141884043296768;
  142243813916672; 142573637206016; 142874066812928; 143145740271616; 143389462888448; 143605956083712; 143795874168832; 143959955341312;
  144099072016384; 144214130163712; 144305935089664; 144375308877824; 144423174275072; 144450554691584; 144458322542592; 144447350243328;
  144418543763456; 144372943290368; 144311572234240; 144235370119168; 144145226137600; 144042163699712; 143927239770112; 143801477758976;
  143665800413184; 143521197588480; 143368709472256; 143209460137984; 143044405886976; 142874570129408; 142700892389376; 142524429631488;
  142346222043136; 142167142039552; 141987961372672; 141806062796800; 141695299616768; 141494476341248; 141307343273984; 141128514928640;
  140957571874816; 140794480558080; 140639182258176; 140491643420672; 140351805325312; 140219600863232; 140094971314176; 139977841180672;
  139868109799424; 139765701672960; 139670516137984; 139582452531200; 139501401800704; 139427263283200; 139359911149568; 139299227959296;
  139245087883264; 139197373480960; 139155950534656; 139120684826624; 139091450527744; 139068105031680; 139050514120704; 139038535188480;
  139032025628672; 139030842834944; 139034844200960; 139043887120384; 139057812209664; 139076476862464; 139099730083840; 139127420878848;
  139159389863936; 139195486044160; 139235541647360; 139279405678592; 139326910365696; 139377896325120; 139432187396096; 139489632583680;
  139550055727104; 139613280665600; 139679148015616; 139747473227776; 139818096918528; 139890826149888; 139965501538304; 140041938534400;
  140119952588800; 140199375929344; 140280032395264; 140361729048576; 140444289728512; 140527546662912; 140611298525184; 140695318822912;
  140779666276352; 140863787237376; 140947740426240; 141031290961920; 141114254295040; 141196445876224; 141277664378880; 141357742030848;
  141436494282752; 141513736585216; 141589267611648; 141662919589888; 141734507970560; 141803848204288; 141870738964480; 141935029256192;
  141996500975616; 142055003127808; 142110351163392; 142162343755776; 142210829910016; 142255641853952; 142296578260992; 142333488136192;
  142366186930176; 142394523648000; 142418330517504; 142437456543744; 142451717177344; 142460978200576; 142465088618496; 142463880658944;
  142457203326976; 142444939182080; 142426903674880; 142403012919296; 142373082365952; 142336994574336; 142294648881152; 142245877514240;
  142190596587520; 142128688660480; 142060036292608; 141984522043392; 141902078803968; 141812605911040; 141716036255744; 141612269174784;
  141501254336512; 141382941409280; 141257280061440; 141124236738560; 140983761108992; 140835869949952; 140680521318400; 140517748768768;
  140347552301056; 140169931915264; 139984543678464; 139786161487872; 139506200084480; 139270396313600; 139016456372224; 138747140112384;
  138461809999872; 138159492956160; 137839341731840; 137500517466112; 137142047080448; 136763024605184; 136362535682048; 135939766616064;
  135493920489472; 135024082944000; 134529415118848; 134009145262080; 133462577119232; 132889014435840; 132287710625792; 131657952657408;
  130999203659776; 130310909984768; 129592501207040; 128843390124032; 128063039864832; 127251072942080; 126407086702592; 125530661715968;
  124621386940416; 123678968774656; 122703189114880; 121693804691456; 120650563846144; 119573323972608; 118462085070848; 117316838752256;
  116137626959872; 114924483248128; 113677617332224; 112397339590656; 111083910070272; 109737681092608; 108359130808320; 106948838031360;
  105507499016192; 104035642245120; 102533938806784; 101003277893632; 99444582252544; 97858757853184; 96246693888000; 94609304715264;
  92947739574272; 91263248367616; 89556820951040; 87829497511936; 86082511175680; 84317220896768; 82534960463872; 80736803618816;
  78923907989504; 77098253287424; 75261055860736; 73413808881664; 71557971968000; 69695105400832; 67826849153024; 65954675425280;
  64080182247424; 62205122838528; 60331204280320; 58460070739968; 56593513185280; 54733268058112; 52881063411712; 51038665048064;
  49207897489408; 47390404902912; 45588083113984; 43802584678400; 42035583123456; 40288844251136; 38563878010880; 36862362124288;
  35185756209152; 33535593283584; 31913330868224; 30320357277696; 28758014689280; 27227592851456; 25730335375360; 24267448123392;
  22840095014912; 21449404317696; 20096466550784; 18782344970240; 17508079763456; 16274684903424; 15083139760128; 13934398537728;
  12829378740224; 11768953831424; 10753949040640; 9785124585472; 8863163088896; 7988659617792; 7162095992832; 6383828729856;
  5654068592640; 4972860669952; 4340071268352; 3755376377856; 3218216583168; 2727825113088; 2283202150400; 1883074723840;
  1525902082048; 1209885523968; 934568198144; 727993221120].

(** src/tables.c lines 2143-2249, mdct_win_5m_48k_hr: binary32 values times 2^47. *)
Definition win_5m_48k_hr : list Z := [
  13725389; 90262952; 265814080; 615028096; 1245602048; 2309468672; 4014754560; 6639400448;
  10546439168; 16200836096; 24187715584; 35231723520; 50217209856; 70208815104; 96472031232; 130493136896;
  173997981696; 228968873984; 297659072512; 382603821056; 486627573760; 612846600192; 764665856000; 945770135552;
  1160108441600; 1411871277056; 1705459974144; 2045448814592; 2436538564608; 2883502735360; 3391125454848; 3964131868672;
  4607113691136; 5324446105600; 6120202567680; 6998065152000; 7961232539648; 9012329316352; 10153316319232; 11385405702144;
  12708980195328; 14123524947968; 15627566710784; 17218627698688; 18893194133504; 20646704709632; 22473552691200; 24367113175040;
  26319790276608; 28323086336000; 30367687901184; 32443578974208; 34540168937472; 36646439354368; 38751090769920; 40842739843072;
  42910057758720; 44941984137216; 46927873835008; 48857681494016; 50722129313792; 52512862240768; 54222527660032; 55844922195968;
  57375054626816; 58809208799232; 60144960405504; 61381185372160; 62518026305536; 63556863131648; 64500220821504; 65351681310720;
  66115799613440; 66797965410304; 67404298190848; 67941508841472; 68416782204928; 68837655445504; 69211896414208; 69547407179776;
  69852127559680; 70133951234048; 70400654442496; 70659837263872; 70918885867520; 71184922181632; 71464799698944; 71765027979264;
  72091839758336; 72451081895936; 72848282484736; 73288566964224; 73776700063744; 74317018693632; 74913448722432; 75569429479424;
  76287947309056; 77071460073472; 77921905541120; 78840634277888; 79828418035712; 80885441363968; 82011234500608; 83204740481024;
  84464248029184; 85787467055104; 87171478323200; 88612817338368; 90107482734592; 91650978217984; 93238379675648; 94864360341504;
  96523283070976; 98209242284032; 99916147851264; 101637783814144; 103367858716672; 105100106268672; 106828344066048; 108546507145216;
  110248723480576; 111929381093376; 113583144828928; 115205006688256; 116790327771136; 118334863441920; 119834754940928; 121286579716096;
  122687334645760; 124034452815872; 125325778354176; 126559566430208; 127734500032512; 128849639636992; 129904406429696; 130898607472640;
  131832368594944; 132706159558656; 133520743727104; 134277161287680; 134976754417664; 135621066620928; 136211909836800; 136751280553984;
  137241359810560; 137684488028160; 138083131457536; 138439873789952; 138757374214144; 139038325473280; 139285462253568; 139501510852608;
  139689147236352; 139851022204928; 139989685895168; 140107612946432; 140207143780352; 140290509766656; 140359791280128; 140416934477824;
  140463726133248; 140501802024960; 140532638547968; 140557561102336; 140577744093184; 140594210930688; 140607859195904; 140619435474944;
  140629577302016; 140638787993600; 140647503757312; 140656018194432; 140664574574592; 140673340669952; 140682400366592; 140691803996160;
  140701534781440; 140711575945216; 140721843601408; 140732262252544; 140742706069504; 140753107943424; 140763308490752; 140773207048192;
  140782686175232; 140791628431360; 140799949930496; 140807533232128; 140814328004608; 140820216807424; 140825166086144; 140829125509120;
  140832044744704; 140833923792896; 140834712322048; 140834460663808; 140833135263744; 140830769676288; 140827414233088; 140823102488576;
  140817867997184; 140811811422208; 140804983095296; 140797450125312; 140789296398336; 140780605800448; 140771495772160; 140762016645120;
  140752302637056; 140742437634048; 140732530688000; 140722665684992; 140712960065536; 140703497715712; 140694379298816; 140685705478144;
  140677560139776; 140670035558400; 140663207231488; 140657150656512; 140651932942336; 140647621197824; 140644265754624; 140641916944384;
  140640591544320; 140640323108864; 140641120026624; 140642990686208; 140645909921792; 140649860956160; 140654810234880; 140660699037696;
  140667468644352; 140675051945984; 140683365056512; 140692307312640; 140701778051072; 140711676608512; 140721877155840; 140732262252544;
  140742706069504; 140753107943424; 140763308490752; 140773207048192; 140782686175232; 140791628431360; 140799949930496; 140807533232128;
  140814328004608; 140820216807424; 140825166086144; 140829125509120; 140832044744704; 140833923792896; 140834712322048; 140834460663808;
  140833135263744; 140830769676288; 140827414233088; 140823102488576; 140817867997184; 140811811422208; 140804983095296; 140797450125312;
  140789296398336; 140780605800448; 140771495772160; 140762016645120; 140752302637056; 140742437634048; 140732530688000; 140722665684992;
  140712960065536; 140703497715712; 140694379298816; 140685705478144; 140677560139776; 140670035558400; 140663207231488; 140657150656512;
  140651932942336; 140647621197824; 140644265754624; 140641916944384; 140640591544320; 140640323108864; 140641120026624; 140642990686208;
  140645909921792; 140649860956160; 140654810234880; 140660699037696; 140667468644352; 140675051945984; 140683365056512; 140692307312640;
  140701778051072; 140711676608512; 140721877155840; 140732262252544; 140742706069504; 140753074388992; 140763207827456; 140772955389952;
  140782182858752; 140790672130048; 140798238654464; 140804647550976; 140809630384128; 140812901941248; 140814076346368; 140812750946304;
  140808439201792; 140800570687488; 140788474314752; 140771395108864; 140748443877376; 140718613987328; 140680772976640; 140633620611072;
  140575705661440; 140505417515008; 140420944232448; 140320297713664; 140201254977536; 140061391716352; 139898048741376; 139708315205632;
  139489011826688; 139236682498048; 138947577511936; 138617670336512; 138242598895616; 137817707511808; 137338021740544; 136798256758784;
  136192867696640; 135516041248768; 134761737617408; 133923749232640; 132995759472640; 131971409772544; 130844400287744; 129608557002752;
  128257940783104; 126786998370304; 125190604324864; 123464245575680; 121604096917504; 119607146840064; 117471298191360; 115195468840960;
  112779675566080; 110225109549056; 107534186708992; 104710589644800; 101759284412416; 98686528913408; 95499864506368; 92208065675264;
  88821089697792; 85350001147904; 81806896398336; 78204794568704; 74557478141952; 70879409078272; 67185544265728; 63491205496832;
  59811882336256; 56163064348672; 52560077520896; 49017891323904; 45550934163456; 42172933996544; 38896725393408; 35734111125504;
  32695709073408; 29790830592000; 27027360972800; 24411700723712; 21948687974400; 19641590087680; 17492097368064; 15500366053376;
  13665074937856; 11983514501120; 10451708542976; 9064540012544; 7815904624640; 6698872340480; 5705849372672; 4828747530240;
  4059147272192; 3388453158912; 2808037507072; 2309371985920; 1884142174208; 1524345208832; 1222371442688; 971067359232;
  763782037504; 594398412800; 457349693440; 347622965248; 260751343616; 192797016064; 140326141952; 100377862144;
  70428770304; 48354390016; 32389095424; 21085515776; 13274611712; 8027215360; 4617744896; 2490626816;
  1229803392; 531533184; 180498656; 27446820].

(** src/tables.c lines 2251-2462, mdct_win_5m_96k_hr: binary32 values times 2^47. *)
Definition win_5m_96k_hr : list Z := [
  9704537; 32583016; 70998920; 130997768; 220029968; 347253920; 523809696; 763112704;
  1081172608; 1496938496; 2032670208; 2714337280; 3572043776; 4640480256; 5959402496; 7574131712;
  9536082944; 11903313920; 14741094400; 18122498048; 22129004544; 26851119104; 32389009408; 38853140480;
  46364925952; 55057358848; 65075671040; 76577972224; 89735839744; 104734990336; 121775800320; 141073907712;
  162860744704; 187384020992; 214908141568; 245714681856; 280102699008; 318388994048; 360908390400; 408013897728;
  460076646400; 517486182400; 580650008576; 649993715712; 725960491008; 809010921472; 899622305792; 998288261120;
  1105517871104; 1221834833920; 1347776544768; 1483893374976; 1630746705920; 1788908404736; 1958958989312; 2141486055424;
  2337082441728; 2546345181184; 2769872224256; 3008262045696; 3262109974528; 3532006621184; 3818535780352; 4122271547392;
  4443775434752; 4783594274816; 5142258122752; 5520276062208; 5918134108160; 6336293109760; 6775184556032; 7235207954432;
  7716728733696; 8220076146688; 8745537503232; 9293358170112; 9863737376768; 10456827691008; 11072729776128; 11711490818048;
  12373105573888; 13057507983360; 13764575363072; 14494123163648; 15245906018304; 16019613548544; 16814872461312; 17631241306112;
  18468218863616; 19325230514176; 20201645015040; 21096755625984; 22009803177984; 22939955101696; 23886324301824; 24847960768512;
  25823853674496; 26812943958016; 27814115934208; 28826203586560; 29847996858368; 30878243749888; 31915654512640; 32958903746560;
  34006638788608; 35057479712768; 36110029815808; 37162879811584; 38214605733888; 39263781519360; 40308985298944; 41348807786496;
  42381835501568; 43406696906752; 44422020464640; 45426484969472; 46418794381312; 47397686214656; 48361960898560; 49310444027904;
  50242049277952; 51155719684096; 52050477973504; 52925405593600; 53779655294976; 54612446937088; 55423088459776; 56210954911744;
  56975501033472; 57716269645824; 58432866484224; 59125002141696; 59792450125824; 60435076218880; 61052817506304; 61645699153920;
  62213817630720; 62757344903168; 63276528435200; 63771686993920; 64243206455296; 64691539804160; 65117194551296; 65520745316352;
  65902817050624; 66264085037056; 66605274890240; 66927149973504; 67230519787520; 67516218998784; 67785124216832; 68038133022720;
  68276168163328; 68500177551360; 68711113293824; 68909948469248; 69097664544768; 69275255570432; 69443703013376; 69604009312256;
  69757155934208; 69904132734976; 70045916987392; 70183481769984; 70317787578368; 70449786519552; 70580405534720; 70710571565056;
  70841182191616; 70973134995456; 71107302391808; 71244531630080; 71385653182464; 71531480743936; 71682811232256; 71840416399360;
  72005042831360; 72177437114368; 72358287114240; 72548280696832; 72748097339392; 72958357798912; 73179682832384; 73412659642368;
  73657867042816; 73915825127424; 74187053989888; 74472048558080; 74771253428224; 75085104807936; 75413996961792; 75758298988544;
  76118354821120; 76494458060800; 76886893920256; 77295880503296; 77721644302336; 78164336312320; 78624090750976; 79101008281600;
  79595139235840; 80106500390912; 80635083358208; 81180821028864; 81743621128192; 82323349438464; 82919829798912; 83532852494336;
  84162157477888; 84807467925504; 85468448292864; 86144746258432; 86835950780416; 87541642428416; 88261343051776; 88994557722624;
  89740757958656; 90499381723136; 91269850202112; 92051534249984; 92843813109760; 93646007304192; 94457437356032; 95277415399424;
  96105203236864; 96940079448064; 97781297446912; 98628093870080; 99479705354240; 100335351758848; 101194261331968; 102055653933056;
  102918749421568; 103782767656960; 104646928498688; 105510468583424; 106372632936448; 107232658194432; 108089797771264; 108943338635264;
  109792559366144; 110636763709440; 111475263799296; 112307405324288; 113132550750208; 113950062542848; 114759361888256; 115559861583872;
  116351007981568; 117132272599040; 117903160508416; 118663193559040; 119411918766080; 120148899921920; 120873759539200; 121586103353344;
  122285604208640; 122971934949376; 123644793585664; 124303936847872; 124949096300544; 125580079005696; 126196683636736; 126798750810112;
  127386129530880; 127958719135744; 128516418961408; 129059153510400; 129586889228288; 130099584172032; 130597246730240; 131079885291520;
  131547541798912; 132000266584064; 132438151921664; 132861273309184; 133269748187136; 133663719161856; 134043312062464; 134408711438336;
  134760076673024; 135097609093120; 135421518413824; 135732022738944; 136029356949504; 136313772703744; 136585521659904; 136844872253440;
  137092109697024; 137327510814720; 137551385985024; 137764028809216; 137965758054400; 138156884099072; 138337734098944; 138508626821120;
  138669906198528; 138821890998272; 138964925153280; 139099335819264; 139225466929152; 139343645638656; 139454207492096; 139557488033792;
  139653797642240; 139743480250368; 139826846236672; 139904214368256; 139975878246400; 140042156638208; 140103343144960; 140159722979328;
  140211572965376; 140259169927168; 140302773911552; 140342653353984; 140379043135488; 140412186525696; 140442301628416; 140469623324672;
  140494361329664; 140516700192768; 140536841240576; 140554969022464; 140571251310592; 140585855877120; 140598925328384; 140610610659328;
  140621054476288; 140630374219776; 140638695718912; 140646119636992; 140652763414528; 140658702548992; 140664037703680; 140668844376064;
  140673189675008; 140677149097984; 140680781365248; 140684128419840; 140687257370624; 140690193383424; 140692986789888; 140695671144448;
  140698263224320; 140700788195328; 140703279611904; 140705745862656; 140708203724800; 140710661586944; 140713127837696; 140715610865664;
  140718119059456; 140720644030464; 140723185778688; 140725761081344; 140728344772608; 140730945241088; 140733562486784; 140736179732480;
  140738796978176; 140741397446656; 140743997915136; 140746581606400; 140749131743232; 140751648325632; 140754131353600; 140756564049920;
  140758929637376; 140761244893184; 140763476262912; 140765640523776; 140767720898560; 140769717387264; 140771613212672; 140773408374784;
  140775102873600; 140776696709120; 140778173104128; 140779532058624; 140780756795392; 140781880868864; 140782870724608; 140783726362624;
  140784464560128; 140785068539904; 140785521524736; 140785857069056; 140786058395648; 140786125504512; 140786058395648; 140785857069056;
  140785538301952; 140785068539904; 140784481337344; 140783759917056; 140782921056256; 140781964754944; 140780874235904; 140779683053568;
  140778374430720; 140776965144576; 140775455195136; 140773844582400; 140772133306368; 140770321367040; 140768442318848; 140766479384576;
  140764449341440; 140762335412224; 140760154374144; 140757939781632; 140755658080256; 140753326047232; 140750960459776; 140748561317888;
  140746128621568; 140743679148032; 140741212897280; 140738729869312; 140736246841344; 140733772201984; 140731305951232; 140728856477696;
  140726423781376; 140724024639488; 140721659052032; 140719327019008; 140717045317632; 140714822336512; 140712649687040; 140710544146432;
  140708505714688; 140706542780416; 140704655343616; 140702860181504; 140701148905472; 140699529904128; 140698019954688; 140696602279936;
  140695302045696; 140694110863360; 140693028732928; 140692072431616; 140691225182208; 140690512150528; 140689924947968; 140689463574528;
  140689128030208; 140688935092224; 140688867983360; 140688926703616; 140689128030208; 140689463574528; 140689933336576; 140690528927744;
  140691258736640; 140692122763264; 140693112619008; 140694228303872; 140695461429248; 140696820383744; 140698296778752; 140699882225664;
  140701576724480; 140703371886592; 140705276100608; 140707264200704; 140709344575488; 140711508836352; 140713740206080; 140716047073280;
  140718421049344; 140720845357056; 140723319996416; 140725844967424; 140728395104256; 140730970406912; 140733570875392; 140736179732480;
  140738796978176; 140741397446656; 140743997915136; 140746581606400; 140749131743232; 140751648325632; 140754131353600; 140756564049920;
  140758929637376; 140761244893184; 140763476262912; 140765640523776; 140767720898560; 140769717387264; 140771613212672; 140773408374784;
  140775102873600; 140776696709120; 140778173104128; 140779532058624; 140780756795392; 140781880868864; 140782870724608; 140783726362624;
  140784464560128; 140785068539904; 140785521524736; 140785857069056; 140786058395648; 140786125504512; 140786058395648; 140785857069056;
  140785538301952; 140785068539904; 140784481337344; 140783759917056; 140782921056256; 140781964754944; 140780874235904; 140779683053568;
  140778374430720; 140776965144576; 140775455195136; 140773844582400; 140772133306368; 140770321367040; 140768442318848; 140766479384576;
  140764449341440; 140762335412224; 140760154374144; 140757939781632; 140755658080256; 140753326047232; 140750960459776; 140748561317888;
  140746128621568; 140743679148032; 140741212897280; 140738729869312; 140736246841344; 140733772201984; 140731305951232; 140728856477696;
  140726423781376; 140724024639488; 140721659052032; 140719327019008; 140717045317632; 140714822336512; 140712649687040; 140710544146432;
  140708505714688; 140706542780416; 140704655343616; 140702860181504; 140701148905472; 140699529904128; 140698019954688; 140696602279936;
  140695302045696; 140694110863360; 140693028732928; 140692072431616; 140691225182208; 140690512150528; 140689924947968; 140689463574528;
  140689128030208; 140688935092224; 140688867983360; 140688926703616; 140689128030208; 140689463574528; 140689933336576; 140690528927744;
  140691258736640; 140692122763264; 140693112619008; 140694228303872; 140695461429248; 140696820383744; 140698296778752; 140699882225664;
  140701576724480; 140703371886592; 140705276100608; 140707264200704; 140709344575488; 140711508836352; 140713740206080; 140716047073280;
  140718421049344; 140720845357056; 140723319996416; 140725844967424; 140728395104256; 140730970406912; 140733570875392; 140736179732480;
  140738796978176; 140741397446656; 140743981137920; 140746531274752; 140749047857152; 140751514107904; 140753930027008; 140756262060032;
  140758493429760; 140760624136192; 140762637402112; 140764499673088; 140766194171904; 140767720898560; 140769029521408; 140770086486016;
  140770891792384; 140771378331648; 140771546103808; 140771311222784; 140770656911360; 140769532837888; 140767871893504; 140765640523776;
  140762738065408; 140759130963968; 140754718556160; 140749416955904; 140743175831552; 140735844188160; 140727363305472; 140717598965760;
  140706442117120; 140693758541824; 140679422410752; 140663282728960; 140645180112896; 140624955179008; 140602440155136; 140577442103296;
  140549768085504; 140519216775168; 140485561679872; 140448567918592; 140408017387520; 140363624873984; 140315147108352; 140262290489344;
  140204761415680; 140142257897472; 140074444390400; 140000985350144; 139921528455168; 139835712995328; 139743136317440; 139643404156928;
  139536088694784; 139420762112000; 139296954646528; 139164204924928; 139022018019328; 138869873836032; 138707252281344; 138533591318528;
  138348328910848; 138150877855744; 137940625784832; 137716943552512; 137479193624576; 137226704912384; 136958789550080; 136674759671808;
  136373893857280; 136055462297600; 135718710018048; 135362898821120; 134987240177664; 134590962335744; 134173285154816; 133733411717120;
  133270536716288; 132783880011776; 132272644685824; 131736033820672; 131173267275776; 130583581687808; 129966205304832; 129320408317952;
  128645477695488; 127940700405760; 127205422137344; 126439005356032; 125640837693440; 124810373890048; 123947077074944; 123050485874688;
  122120164081664; 121155742597120; 120156911042560; 119123400982528; 118055019479040; 116951632314368; 115813189156864; 114639681617920;
  113431185195008; 112187867660288; 110909955506176; 109597742333952; 108251614019584; 106872040325120; 105459566510080; 104014821720064;
  102538493820928; 101031379730432; 99494335086592; 97928324579328; 96334346452992; 94713524781056; 93067008802816; 91396056809472;
  89701985812480; 87986179932160; 86250090397696; 84495227158528; 82723158884352; 80935521353728; 79133992288256; 77320282963968;
  75496180154368; 73663479021568; 71824025059328; 69979684732928; 68132358062080; 66283957649408; 64436412874752; 62591657312256;
  60751632924672; 58918273286144; 57093516165120; 55279265775616; 53477426331648; 51689868492800; 49918433558528; 48164925079552;
  46431100469248; 44718683586560; 43029339570176; 41364662255616; 39726207729664; 38115448193024; 36533784543232; 34982548471808;
  33462985687040; 31976262205440; 30523455963136; 29105552621568; 27723447664640; 26377940107264; 25069734592512; 23799437197312;
  22567555432448; 21374498242560; 20220571811840; 19105994244096; 18030874591232; 16995234873344; 15998999592960; 15042004123648;
  14123994710016; 13244632662016; 12403496452096; 11600090103808; 10833840046080; 10104107696128; 9410187362304; 8751315681280;
  8126674763776; 7535396913152; 6976570392576; 6449245192192; 5952437223424; 5485135134720; 5046303457280; 4634887847936;
  4249822691328; 3890031886336; 3554435661824; 3241955033088; 2951514685440; 2682047954944; 2432499712000; 2201829507072;
  1989015502848; 1793056833536; 1612976095232; 1447821312000; 1296668426240; 1158622871552; 1032820817920; 918430416896;
  814653112320; 720723902464; 635912126464; 559521792000; 490891509760; 429394493440; 374438297600; 325464522752;
  281948160000; 243396870144; 209350393856; 179379486720; 153085018112; 130096906240; 110073012224; 92697968640;
  77681958912; 64759496704; 53688164352; 44247343104; 36236939264; 29476122624; 23802079232; 19068772352;
  15145748480; 11916955648; 9279612928; 7143115264; 5427982336; 4064855552; 2993543936; 2162121472;
  1526079360; 1047527360; 694452480; 440028544; 261979184; 141990352; 65163260; 19408372].

(** src/tables.c lines 2467-2495, mdct_win_7m5_8k: binary32 values times 2^47. *)
Definition win_7m5_8k : list Z := [
  415261229056; 1009849335808; 1937890082816; 3250382438400; 4982617145344; 7153535942656; 9776981344256; 12861777641472;
  16410634878976; 20417286766592; 24869886492672; 29743875358720; 35011069739008; 40631065903104; 46559320342528; 52750456979456;
  59153095589888; 65711024111616; 72365157384192; 79053662978048; 85712841998336; 92277489795072; 98687711707136; 104883302694912;
  110812362440704; 116421405179904; 121669486116864; 126519821205504; 130943218089984; 134910945787904; 138407963525120; 141424683122688;
  143953881989120; 146001759305728; 147577039224832; 148697857916928; 149391964897280; 149692025405440; 149640502575104; 149286587203584;
  148680141176832; 147872167231488; 146919288471552; 145871199010816; 144780696748032; 143702106308608; 142708744126464; 141761284407296;
  140979902349312; 140358843367424; 139890977144832; 139567025881088; 139375899836416; 139305150316544; 139340634128384; 139467377606656;
  139669694054400; 139931502510080; 140236344524800; 140567426105344; 140907760320512; 141240418959360; 141548113100800; 141813444771840;
  142019166994432; 142148351557632; 142184556789760; 142112381206528; 141917765500928; 141589116616704; 141117156753408; 140495485403136;
  139721082667008; 138793470394368; 137589780643840; 136156100427776; 134422561030144; 132348108603392; 129894969245696; 127030687432704;
  123736774672384; 119998659952640; 115810244755456; 111178634231808; 106120337162240; 100663296000000; 94848187105280; 88722984927232;
  82342525796352; 75772853223424; 69078710484992; 62330637385728; 55604118814720; 48977256906752; 42530406137856; 36342281011200;
  30489568083968; 25040311549952; 20052355055616; 15572911783936; 11638933553152; 8280071995392; 5517343719424; 3358406213632;
  1787031453696; 753881972736].

(** src/tables.c lines 2497-2551, mdct_win_7m5_16k: binary32 values times 2^47. *)
Definition win_7m5_16k : list Z := [
  310783377408; 536230133760; 832536117248; 1208036360192; 1671394492416; 2228371324928; 2883973545984; 3643462647808;
  4509452992512; 5483367759872; 6568812216320; 7766589046784; 9078108585984; 10504802140160; 12047131607040; 13705673703424;
  15480222908416; 17369719111680; 19373282557952; 21489269080064; 23716146708480; 26049538686976; 28486733398016; 31025631592448;
  33659895676928; 36384324714496; 39195183677440; 42085918965760; 45050755022848; 48084176338944; 51180600295424; 54333492166656;
  57535633555456; 60780447793152; 64060464824320; 67367740637184; 70695933444096; 74036495253504; 77381872123904; 80723767721984;
  84054246424576; 87365641043968; 90648967380992; 93896726020096; 97103078490112; 100258570829824; 103357104521216; 106392849481728;
  109358230798336; 112246327869440; 115051612602368; 117768699510784; 120393503342592; 122920235958272; 125345835515904; 127667022069760;
  129879416766464; 131978456203264; 133962412326912; 135830060400640; 137578850287616; 139207137820672; 140715946409984; 142102751084544;
  143366780092416; 144511304990720; 145535201705984; 146439040663552; 147226663845888; 147899010777088; 148458749034496; 148910425243648;
  149256908308480; 149502140874752; 149651541983232; 149710279016448; 149683653574656; 149578829529088; 149401276252160; 149155993354240;
  148852241858560; 148494954266624; 148089599950848; 147645976805376; 147169000554496; 146663704363008; 146139131150336; 145600364412928;
  145054182146048; 144508083765248; 143968192954368; 143440683728896; 142971391442944; 142455911481344; 141982391336960; 141550747123712;
  141160072871936; 140809915596800; 140499537100800; 140227821699072; 139994131857408; 139796831797248; 139635082657792; 139507248660480;
  139411895353344; 139347437289472; 139312339353600; 139304596668416; 139322623787008; 139364340334592; 139428001480704; 139511459741696;
  139612919955456; 139730184306688; 139861407301632; 140004298850304; 140157021847552; 140317294592000; 140483154149376; 140652268486656;
  140822750167040; 140992283934720; 141158932021248; 141320362393600; 141474511454208; 141619063947264; 141752056938496; 141871108063232;
  141974287941632; 142059264540672; 142124175589376; 142166722609152; 142185110437888; 142177208369152; 142141405790208; 142075689435136;
  141978582908928; 141848593039360; 141684478312448; 141484795887616; 141249008893952; 140975842263040; 140665103056896; 140316170518528;
  139928910430208; 139503498952704; 139039785091072; 138538481876992; 137907390119936; 137257029730304; 136540768436224; 135752566439936;
  134886400720896; 133937615601664; 132901261803520; 131771190476800; 130545354801152; 129218604171264; 127786333241344; 126248575565824;
  124602126696448; 122843832516608; 120975102312448; 118993914429440; 116899362897920; 114693544869888; 112377391480832; 109952915996672;
  107423767461888; 104791841701888; 102062725529600; 99241552773120; 96333482426368; 93343463768064; 90279885406208; 87149625999360;
  83958230417408; 80715764989952; 77430089842688; 74107932639232; 70760156626944; 67393678213120; 64018370789376; 60643520544768;
  57279307055104; 53935393996800; 50620471967744; 47345232248832; 44120697470976; 40956095102976; 37861139152896; 34844398583808;
  31917634224128; 29087309496320; 26361586515968; 23747994058752; 21253102501888; 18883008266240; 16642864054272; 14536878850048;
  12569509101568; 10744318918656; 9064581955584; 7532885573632; 6151416578048; 4921127075840; 3841917190144; 2911799607296;
  2126897086464; 1480962998272; 964822040576; 566258827264].

(** src/tables.c lines 2553-2634, mdct_win_7m5_24k: binary32 values times 2^47. *)
Definition win_7m5_24k : list Z := [
  277372338176; 415261229056; 580468539392; 777840164864; 1009849335808; 1278962827264; 1587787726848; 1937890082816;
  2330616659968; 2767615426560; 3250382438400; 3780390420480; 4357690753024; 4982617145344; 5656459345920; 6380072206336;
  7153535942656; 7977218080768; 8851477757952; 9776981344256; 10753839988736; 11781980291072; 12861777641472; 13993443852288;
  15176388575232; 16410634878976; 17695839879168; 19031482433536; 20417286766592; 21852848128000; 23337398960128; 24869886492672;
  26448624615424; 28073355378688; 29743875358720; 31458284535808; 33214483660800; 35011069739008; 36847019360256; 38720988250112;
  40631065903104; 42575067086848; 44551691567104; 46559320342528; 48596032421888; 50660426907648; 52750456979456; 54863949987840;
  56998825558016; 59153095589888; 61324885229568; 63511707254784; 65711024111616; 67921183244288; 70140112666624; 72365157384192;
  74593893089280; 76824281350144; 79053662978048; 81279865323520; 83500212420608; 85712841998336; 87915078090752; 90104018239488;
  92277489795072; 94434284797952; 96571895054336; 98687711707136; 100779083956224; 102844778676224; 104883302694912; 106892248481792;
  108869166563328; 110812362440704; 112719906734080; 114590063001600; 116421405179904; 118212784029696; 119962681212928; 121669486116864;
  123331646849024; 124948752367616; 126519821205504; 128043435687936; 129518505295872; 130943218089984; 132317112696832; 133639786463232;
  134910945787904; 136129776975872; 137295776710656; 138407963525120; 139466907844608; 140472802607104; 141424683122688; 142321878302720;
  143164413313024; 143953881989120; 144690435325952; 145372966027264; 146001759305728; 146578325110784; 147103384862720; 147577039224832;
  148000026394624; 148373202010112; 148697857916928; 148975420178432; 149206241116160; 149391964897280; 149533497491456; 149632902496256;
  149692025405440; 149711587639296; 149693703127040; 149640502575104; 149554267684864; 149435770208256; 149286587203584; 149109252030464;
  148906650370048; 148680141176832; 148430512979968; 148160047480832; 147872167231488; 147568734502912; 147250672041984; 146919288471552;
  146577452695552; 146227664519168; 145871199010816; 145509599674368; 145145366315008; 144780696748032; 144417537130496; 144057464520704;
  143702106308608; 143349952544768; 143067776548864; 142708744126464; 142374206439424; 142058442457088; 141761284407296; 141482849730560;
  141222366674944; 140979902349312; 140755490308096; 140548551737344; 140358843367424; 140186298089472; 140030504861696; 139890977144832;
  139767463280640; 139659619336192; 139567025881088; 139489154433024; 139425577172992; 139375899836416; 139339619106816; 139316223279104;
  139305150316544; 139305888514048; 139317901000704; 139340634128384; 139373500694528; 139415938662400; 139467377606656; 139527188381696;
  139594834116608; 139669694054400; 139751172603904; 139838649008128; 139931502510080; 140029154295808; 140130958442496; 140236344524800;
  140344633065472; 140455211696128; 140567426105344; 140680638758912; 140794363117568; 140907760320512; 141020335439872; 141131450941440;
  141240418959360; 141346635513856; 141449412739072; 141548113100800; 141642099064832; 141730766651392; 141813444771840; 141889495891968;
  141958282477568; 142019166994432; 142071562240000; 142114830680064; 142148351557632; 142171537670144; 142183801815040; 142184556789760;
  142173248946176; 142149374967808; 142112381206528; 142061747568640; 141996987514880; 141917765500928; 141823678873600; 141714257870848;
  141589116616704; 141448037007360; 141290851270656; 141117156753408; 140926685020160; 140719486402560; 140495485403136; 140254279368704;
  139996044460032; 139721082667008; 139428823564288; 139119594307584; 138793470394368; 138445158612992; 138005016739840; 137589780643840;
  137142357458944; 136664953389056; 136156100427776; 135613785309184; 135036405809152; 134422561030144; 133771168841728; 133080358584320;
  132348108603392; 131573613592576; 130756462510080; 129894969245696; 128987254751232; 128032337559552; 127030687432704; 125981876551680;
  124884277526528; 123736774672384; 122540089409536; 121294238515200; 119998659952640; 118652657467392; 117256130396160; 115810244755456;
  114315092819968; 112770901082112; 111178634231808; 109538543927296; 107852442107904; 106120337162240; 104343898423296; 102524090580992;
  100663296000000; 98762781360128; 96823964336128; 94848187105280; 92837848809472; 90795315036160; 88722984927232; 86621621846016;
  84493985644544; 82342525796352; 80171042340864; 77980508356608; 75772853223424; 73551482716160; 71319676780544; 69078710484992;
  66831452733440; 64581137334272; 62330637385728; 60081752244224; 57839024340992; 55604118814720; 53380508549120; 51170378776576;
  48977256906752; 46804108312576; 44654242299904; 42530406137856; 40435204489216; 38371229433856; 36342281011200; 34350200520704;
  32399033368576; 30489568083968; 28625791352832; 26808544133120; 25040311549952; 23323956215808; 21660398780416; 20052355055616;
  18500502421504; 17006968438784; 15572911783936; 14199248912384; 12887596728320; 11638933553152; 10454198910976; 9334307160064;
  8280071995392; 7292181807104; 6371162980352; 5517343719424; 4730808434688; 4011346362368; 3358406213632; 2771039813632;
  2247866449920; 1787031453696; 1386176577536; 1042477023232; 753881972736; 539343421440].

(** src/tables.c lines 2636-2743, mdct_win_7m5_32k: binary32 values times 2^47. *)
Definition win_7m5_32k : list Z := [
  260129374208; 360966094848; 473950552064; 603393163264; 751299133440; 918564372480; 1106355159040; 1315372269568;
  1546942414848; 1801597091840; 2080183287808; 2382784888832; 2710495821824; 3063811932160; 3443649150976; 3849966059520;
  4282912342016; 4742578176000; 5229574094848; 5744174825472; 6286856945664; 6857616785408; 7456562348032; 8083714605056;
  8739355623424; 9423919513600; 10137298272256; 10879559008256; 11650609446912; 12450793521152; 13280095502336; 14138525876224;
  15025672552448; 15941853249536; 16886587719680; 17860082532352; 18861757825024; 19891774029824; 20949789310976; 22035786891264;
  23149152305152; 24289753432064; 25456468295680; 26649250758656; 27867746402304; 29112131387392; 30381749305344; 31675599814656;
  32992724516864; 34332672524288; 35694965686272; 37079270555648; 38484735688704; 39910643859456; 41356198150144; 42820417093632;
  44302881259520; 45802890199040; 47319802183680; 48852623163392; 50400933707776; 51963752349696; 53540454137856; 55129692700672;
  56730864058368; 58342999326720; 59965670686720; 61597464657920; 63237605294080; 64884888829952; 66538719674368; 68198120554496;
  69862328107008; 71530172121088; 73200671129600; 74872638144512; 76545444020224; 78217897574400; 79889034117120; 81557763129344;
  83223010869248; 84884181745664; 86540067799040; 88189477847040; 89831170375680; 91464365244416; 93088332644352; 94702611202048;
  96305783242752; 97897060237312; 99474915459072; 101038736539648; 102587969830912; 104122204291072; 105640231960576; 107141205590016;
  108623858499584; 110087821590528; 111531828183040; 112955827945472; 114358386425856; 115739293908992; 117097887694848; 118433865793536;
  119746255126528; 121034577543168; 122298044514304; 123536320495616; 124749137051648; 125936041197568; 127096873549824; 128230518423552;
  129336849989632; 130414802894848; 131464494579712; 132485253955584; 133477257183232; 134440277770240; 135374265384960; 136278414721024;
  137152927105024; 137997097893888; 138811346518016; 139595547148288; 140349943054336; 141074123194368; 141767609417728; 142430141677568;
  143061988409344; 143664022028288; 144236343197696; 144778717036544; 145290589896704; 145772196659200; 146224040640512; 146646759374848;
  147040503857152; 147405374750720; 147741623713792; 148049368186880; 148329279258624; 148581440815104; 148807631241216; 149006843904000;
  149179867332608; 149327641051136; 149450047619072; 149548177555456; 149622651617280; 149674644209664; 149703853342720; 149711369535488;
  149697914208256; 149664477216768; 149611914199040; 149541215010816; 149452278988800; 149345978548224; 149223219658752; 149085294166016;
  148933292589056; 148767818907648; 148589158334464; 148397797408768; 148194876981248; 147981957332992; 147760196091904; 147529777807360;
  147291205795840; 147044916264960; 146792184283136; 146534133923840; 146271771820032; 146005534179328; 145736142422016; 145464166973440;
  145190950010880; 144917330395136; 144644281204736; 144372339310592; 144102226132992; 143834847641600; 143571814449152; 143307791400960;
  143112991145984; 142837559590912; 142580666859520; 142333739794432; 142096895836160; 141870470529024; 141654749085696; 141449328852992;
  141253941395456; 141068687376384; 140893684236288; 140728697094144; 140573465903104; 140427948720128; 140292162322432; 140165938937856;
  140049068851200; 139941392678912; 139842809757696; 139753143926784; 139672244191232; 139599976333312; 139536139026432; 139480447057920;
  139432741044224; 139392911933440; 139360766787584; 139336020393984; 139318446260224; 139307876614144; 139304084963328; 139306794483712;
  139315787071488; 139330869788672; 139351816142848; 139378307366912; 139410116968448; 139447060398080; 139488869220352; 139535249833984;
  139585958969344; 139640803688448; 139699515555840; 139761809358848; 139827391496192; 139896077418496; 139967607078912; 140041678487552;
  140118014820352; 140196431527936; 140276660174848; 140358356828160; 140441269829632; 140525181075456; 140609822130176; 140694857449472;
  140780136038400; 140865263632384; 140950122790912; 141034344415232; 141117643292672; 141199834873856; 141280633946112; 141359704965120;
  141436762718208; 141511605878784; 141583966011392; 141653507571712; 141719978901504; 141783178674176; 141842788122624; 141898522034176;
  141950095196160; 141997289504768; 142039853301760; 142077501374464; 142109931732992; 142136943050752; 142158300446720; 142173701931008;
  142182879068160; 142185647308800; 142181771771904; 142170984022016; 142153049178112; 142127816245248; 142095033565184; 142054449479680;
  142005845884928; 141949172449280; 141884261400576; 141810861080576; 141728770162688; 141637887983616; 141538113880064; 141429296857088;
  141311369805824; 141184232062976; 141047715856384; 140901703745536; 140746279616512; 140581468635136; 140407069474816; 140222931140608;
  140029221404672; 139826166759424; 139613549101056; 139391091605504; 139159138205696; 138918133497856; 138668287197184; 138401412022272;
  138056355020800; 137751420731392; 137425691082752; 137084341846016; 136726307667968; 136350699356160; 135956770324480; 135543589437440;
  135110552715264; 134657031012352; 134182814613504; 133687031103488; 133168925507584; 132627608633344; 132062669438976; 131473839489024;
  130860967788544; 130223316140032; 129560137957376; 128870476939264; 128154232422400; 127411765116928; 126643016302592; 125847390388224;
  125024165953536; 124172915179520; 123293763895296; 122387064422400; 121452623822848; 120490316267520; 119499948818432; 118480841998336;
  117433339740160; 116358180241408; 115255455776768; 114124721750016; 112966506643456; 111781280219136; 110569235415040; 109330313510912;
  108065730854912; 106775445504000; 105458912198656; 104118882402304; 102753837776896; 101365867085824; 99955163267072; 98522481295360;
  97068316098560; 95593288433664; 94098237161472; 92584294744064; 91052333596672; 89503360352256; 87938457141248; 86357019983872;
  84761280249856; 83151799975936; 81530550484992; 79898236420096; 78255310766080; 76602520109056; 74941273735168; 73273014484992;
  71599252307968; 69919953649664; 68236552962048; 66550270787584; 64862520606720; 63174397132800; 61486948941824; 59801052643328;
  58119036076032; 56440785993728; 54769099997184; 53103378300928; 51445709668352; 49797478219776; 48159820611584; 46534120964096;
  44921654345728; 43323687436288; 41741075873792; 40175447048192; 38627149086720; 37099751342080; 35590133252096; 34103999070208;
  32640646250496; 31200211107840; 29785409454080; 28396169986048; 27033172180992; 25697139556352; 24390651609088; 23113205022720;
  21865349251072; 20648594243584; 19463908884480; 18310661931008; 17190424150016; 16103670546432; 15050618175488; 14031891988480;
  13048113790976; 12099728179200; 11187128369152; 10310661439488; 9470705926144; 8667657142272; 7901819174912; 7173400166400;
  6482608783360; 5829630099456; 5214523883520; 4637225123840; 4097618739200; 3595510743040; 3130532560896; 2702169079808;
  2309814747136; 1952698990592; 1629829464064; 1340121546752; 1082464600064; 854569058304; 651025186816; 507619246080].

(** src/tables.c lines 2745-2905, mdct_win_7m5_48k: binary32 values times 2^47. *)
Definition win_7m5_48k : list Z := [
  242283347968; 310783377408; 378445561856; 454037929984; 536230133760; 626805243904; 725317713920; 832536117248;
  948386529280; 1073632575488; 1208036360192; 1352400633856; 1506746171392; 1671394492416; 1846336946176; 2032110141440;
  2228371324928; 2435646226432; 2654093967360; 2883973545984; 3125237514240; 3378504269824; 3643462647808; 3920275439616;
  4208883400704; 4509452992512; 4821807529984; 5146502234112; 5483367759872; 5832665726976; 6194431262720; 6568812216320;
  6955452596224; 7354779172864; 7766589046784; 8190994415616; 8628050329600; 9078108585984; 9540790648832; 10016397459456;
  10504802140160; 11006066556928; 11520060686336; 12047131607040; 12586964746240; 13139851608064; 13705673703424; 14284393283584;
  14875777564672; 15480222908416; 16097313030144; 16727144398848; 17369719111680; 18025094840320; 18692834328576; 19373282557952;
  20066160607232; 20771518808064; 21489269080064; 22219472240640; 22961677402112; 23716146708480; 24482408300544; 25260231491584;
  26049538686976; 26850579447808; 27662867234816; 28486733398016; 29322012262400; 30168462655488; 31025631592448; 31893548433408;
  32771607101440; 33659895676928; 34558181376000; 35466401284096; 36384324714496; 37312100564992; 38249057746944; 39195183677440;
  40150239281152; 41113989677056; 42085918965760; 43066270416896; 44054565879808; 45050755022848; 46054561021952; 47065883213824;
  48084176338944; 49109637529600; 50141847355392; 51180600295424; 52225590165504; 53276783411200; 54333492166656; 55395762569216;
  56463208742912; 57535633555456; 58612726628352; 59694567653376; 60780447793152; 61870274772992; 62963704659968; 64060464824320;
  65160068726784; 66262675750912; 67367740637184; 68475183693824; 69584656793600; 70695933444096; 71808413859840; 72922135789568;
  74036495253504; 75151399976960; 76266606690304; 77381872123904; 78496508411904; 79610641383424; 80723767721984; 81835568660480;
  82945700265984; 84054246424576; 85160536047616; 86264502026240; 87365641043968; 88463659499520; 89558096019456; 90648967380992;
  91735644438528; 92818320130048; 93896726020096; 94970610450432; 96039361052672; 97103078490112; 98160982622208; 99212914065408;
  100258570829824; 101297978081280; 102330766721024; 103357104521216; 104376345559040; 105388405948416; 106392849481728; 107389634215936;
  108378038730752; 109358230798336; 110329900040192; 111292568305664; 112246327869440; 113191136788480; 114126122647552; 115051612602368;
  115967279497216; 116873022668800; 117768699510784; 118654268080128; 119529174728704; 120393503342592; 121246901600256; 122089243672576;
  122920235958272; 123740272721920; 124548800315392; 125345835515904; 126131353157632; 126905302908928; 127667022069760; 128416846184448;
  129154406154240; 129879416766464; 130591710248960; 131291555037184; 131978456203264; 132652589907968; 133313930985472; 133962412326912;
  134597966823424; 135220661583872; 135830060400640; 136426230382592; 137009188306944; 137578850287616; 138134864003072; 138677732769792;
  139207137820672; 139723364368384; 140226269806592; 140715946409984; 141191798587392; 141654161883136; 142102751084544; 142537566191616;
  142958741422080; 143366780092416; 143761447321600; 144143011545088; 144511304990720; 144866159886336; 145207374905344; 145535201705984;
  145849539624960; 146150757761024; 146439040663552; 146714371555328; 146976851099648; 147226663845888; 147463356809216; 147687567523840;
  147899010777088; 148097955004416; 148284567977984; 148458749034496; 148620934381568; 148771828662272; 148910425243648; 149037512654848;
  149152805683200; 149256908308480; 149349786976256; 149431357800448; 149502140874752; 149562186530816; 149611779981312; 149651541983232;
  149681069883392; 149700497899520; 149710279016448; 149710547451904; 149701554864128; 149683653574656; 149657011355648; 149621946974208;
  149578829529088; 149527642243072; 149468334784512; 149401276252160; 149326634418176; 149244778381312; 149155993354240; 149060933648384;
  148959565709312; 148852241858560; 148738945318912; 148619860639744; 148494954266624; 148364763070464; 148229438046208; 148089599950848;
  147945601105920; 147797777055744; 147645976805376; 147490586230784; 147331504668672; 147169000554496; 147003208105984; 146834731302912;
  146663704363008; 146490697711616; 146315761680384; 146139131150336; 145960822898688; 145781256355840; 145600364412928; 145418700718080;
  145236516929536; 145054182146048; 144871746699264; 144689747460096; 144508083765248; 144327191822336; 144147071631360; 143968192954368;
  143790505459712; 143614831230976; 143440683728896; 143270747308032; 143152568598528; 142971391442944; 142794760912896; 142622995775488;
  142455911481344; 142293558362112; 142135634427904; 141982391336960; 141833778757632; 141689981239296; 141550747123712; 141416093188096;
  141285784551424; 141160072871936; 141038790377472; 140922155171840; 140809915596800; 140702163927040; 140598648504320; 140499537100800;
  140404636778496; 140314132086784; 140227821699072; 140145823055872; 140067892887552; 139994131857408; 139924321861632; 139858630672384;
  139796831797248; 139739067842560; 139685112315904; 139635082657792; 139588743987200; 139546213744640; 139507248660480; 139471957786624;
  139440131407872; 139411895353344; 139387014742016; 139365615403008; 139347437289472; 139332606230528; 139320870567936; 139312339353600;
  139306769317888; 139304269512704; 139304596668416; 139307876614144; 139313849303040; 139322623787008; 139333956796416; 139347940605952;
  139364340334592; 139383256645632; 139404437880832; 139428001480704; 139453687398400; 139481587908608; 139511459741696; 139543411949568;
  139577201262592; 139612919955456; 139650316369920; 139689482780672; 139730184306688; 139772529999872; 139816234647552; 139861407301632;
  139907796303872; 139955510706176; 140004298850304; 140054261399552; 140105129918464; 140157021847552; 140209677139968; 140263188070400;
  140317294592000; 140372105756672; 140427361517568; 140483154149376; 140539231993856; 140595687325696; 140652268486656; 140709092917248;
  140765892182016; 140822750167040; 140879440379904; 140936029929472; 140992283934720; 141048303058944; 141103818866688; 141158932021248;
  141213390864384; 141267279282176; 141320362393600; 141372707307520; 141424045588480; 141474511454208; 141523836469248; 141572104519680;
  141619063947264; 141664815415296; 141709107265536; 141752056938496; 141793362444288; 141833124446208; 141871108063232; 141907413958656;
  141941773697024; 141974287941632; 142004688257024; 142033108860928; 142059264540672; 142083289513984; 142104881790976; 142124175589376;
  142140885696512; 142155163107328; 142166722609152; 142175681642496; 142181771771904; 142185110437888; 142185462759424; 142182912622592;
  142177208369152; 142168517771264; 142156538839040; 142141405790208; 142122866966528; 142101039808512; 142075689435136; 142046916509696;
  142014502928384; 141978582908928; 141938921570304; 141895686684672; 141848593039360; 141797791629312; 141743047573504; 141684478312448;
  141621865742336; 141555377635328; 141484795887616; 141410288271360; 141331653459968; 141249008893952; 141162119692288; 141071136849920;
  140975842263040; 140876470812672; 140772821172224; 140665103056896; 140553064808448; 140436823867392; 140316170518528; 140191314477056;
  140062146691072; 139928910430208; 139791395979264; 139649678835712; 139503498952704; 139353091211264; 139198438834176; 139039785091072;
  138876903489536; 138709852749824; 138538481876992; 138363143192576; 138112516751360; 137907390119936; 137697624588288; 137480888123392;
  137257029730304; 137025864859648; 136787175407616; 136540768436224; 136286333566976; 136023761747968; 135752566439936; 135472823140352;
  135184129196032; 134886400720896; 134579436388352; 134263336861696; 133937615601664; 133602264219648; 133256854896640; 132901261803520;
  132535082287104; 132158492508160; 131771190476800; 131373385908224; 130964793589760; 130545354801152; 130114566225920; 129672494972928;
  129218604171264; 128752944152576; 128275414253568; 127786333241344; 127285457846272; 126772997783552; 126248575565824; 125712132472832;
  125163291017216; 124602126696448; 124028295577600; 123442208702464; 122843832516608; 122233250906112; 121610245767168; 120975102312448;
  120327174619136; 119667007946752; 118993914429440; 118308221222912; 117609802498048; 116899362897920; 116176264888320; 115441179557888;
  114693544869888; 113933570539520; 113161382395904; 112377391480832; 111581102866432; 110773162475520; 109952915996672; 109121370062848;
  108278306570240; 107423767461888; 106557845012480; 105680019128320; 104791841701888; 103893136572416; 102982980993024; 102062725529600;
  101132303073280; 100191814287360; 99241552773120; 98281577250816; 97312105824256; 96333482426368; 95345447010304; 94348779716608;
  93343463768064; 92330237362176; 91308882395136; 90279885406208; 89243657437184; 88200466923520; 87149625999360; 86092023857152;
  85028188979200; 83958230417408; 82882332721152; 81801527689216; 80715764989952; 79625136898048; 78529836351488; 77430089842688;
  76326190972928; 75218668224512; 74107932639232; 72994386870272; 71878693617664; 70760156626944; 69639652507648; 68517361614848;
  67393678213120; 66269051092992; 65143887101952; 64018370789376; 62893122912256; 61768181219328; 60643520544768; 59520462094336;
  58399144280064; 57279307055104; 56161667645440; 55047303987200; 53935393996800; 52826470350848; 51721317384192; 50620471967744;
  49523736969216; 48432014163968; 47345232248832; 46264490131456; 45189473239040; 44120697470976; 43058854887424; 42003710607360;
  40956095102976; 39916121620480; 38883714662400; 37861139152896; 36846826422272; 35840101187584; 34844398583808; 33858441445376;
  32882892472320; 31917634224128; 30962528288768; 30019493560320; 29087309496320; 28167257456640; 27258546814976; 26361586515968;
  25477339152384; 24606469521408; 23747994058752; 22903236067328; 22071195205632; 21253102501888; 20448907624448; 19659262787584;
  18883008266240; 18121716924416; 17374825676800; 16642864054272; 15925808988160; 15223776870400; 14536878850048; 13865499754496;
  13209620709376; 12569509101568; 11945124036608; 11336739192832; 10744318918656; 10168132698112; 9608135442432; 9064581955584;
  8537417711616; 8026873921536; 7532885573632; 7055658713088; 6595110502400; 6151416578048; 5724474179584; 5314420146176;
  4921127075840; 4544684621824; 4184937070592; 3841917190144; 3515442003968; 3205472714752; 2911799607296; 2634298425344;
  2372741365760; 2126897086464; 1896537522176; 1681288200192; 1480962998272; 1294969208832; 1123260170240; 964822040576;
  820017299456; 686571716608; 566258827264; 443912290304].

(** src/tables.c lines 2907-2941, mdct_win_10m_8k: binary32 values times 2^47. *)
Definition win_10m_8k : list Z := [
  -99621691392; -295295090688; -636865019904; -1158829178880; -1882663813120; -2814357798912; -3941929582592; -5237548515328;
  -6659371958272; -8155251605504; -9665297514496; -11124802060288; -12468926545920; -13635075178496; -14565784944640; -15210435837952;
  -15526754516992; -15478447669248; -15033186648064; -14160871030784; -12830265835520; -11006540513280; -8650694328320; -5718675030016;
  -2162191630336; 2069059338240; 7022429863936; 12737262387200; 19237563269120; 26524602335232; 34571557011456; 43316028637184;
  52658933071872; 62460912467968; 72546451980288; 82706658492416; 92712506228736; 102324273938432; 111305805529088; 119438888140800;
  126541581254656; 132481101594624; 137185768505344; 140654659239936; 142955570528256; 144218794229760; 144626665127936; 144395458314240;
  143753092268032; 142910456594432; 142055774879744; 141231225044992; 140581242142720; 140077908885504; 139695245754368; 139411350093824;
  139208681324544; 139073842839552; 138995853950976; 138964992262144; 138971585708032; 139005727342592; 139057652826112; 139117975306240;
  139178541056000; 139232655966208; 139275874074624; 139306458939392; 139325794680832; 139338604085248; 139352277516288; 139375925002240;
  139418832732160; 139489129267200; 139592804073472; 139732902215680; 139909331419136; 140118719463424; 140354581954560; 140607800475648;
  140867293675520; 141121434943488; 141358983544832; 141570544238592; 141749305475072; 141891559489536; 141997021069312; 142068609449984;
  142112347652096; 142136473288704; 142150415155200; 142163484606464; 142183214612480; 142214437011456; 142258594643968; 142313892347904;
  142375850606592; 142437607538688; 142490824867840; 142525838917632; 142532600135680; 142500941529088; 142421031649280; 142283089379328;
  142076243083264; 141787507195904; 141400171610112; 140893902340096; 140245488107520; 139431440809984; 138257211850752; 136639519129600;
  134358321070080; 131189205630976; 126917122457600; 121371782807552; 114459225882624; 106180131160064; 96638534156288; 86039695720448;
  74677871443968; 62928090824704; 51215987638272; 39992625725440; 29698558001152; 20720610443264; 13345665056768; 7715843735552;
  3801969065984; 1406916624384].

(** src/tables.c lines 2943-3009, mdct_win_10m_16k: binary32 values times 2^47. *)
Definition win_10m_16k : list Z := [
  -65019293696; -137179176960; -234253762560; -365510295552; -535687004160; -749372047360; -1009916051456; -1320466776064;
  -1682193383424; -2096324542464; -2562360082432; -3078732382208; -3642950418432; -4251486257152; -4899913334784; -5583151824896;
  -6294762684416; -7028748058624; -7777624784896; -8533923332096; -9290027892736; -10037350105088; -10768076505088; -11474276712448;
  -12147246497792; -12779543068672; -13363555860480; -13891826352128; -14358076719104; -14755465003008; -15078365593600; -15321951895552;
  -15480696864768; -15550063312896; -15526523830272; -15405431128064; -15183243116544; -14856425046016; -14420669366272; -13872514727936;
  -13207769972736; -12421927272448; -11510627696640; -10469159993344; -9291755945984; -7973701681152; -6508344508416; -4890044661760;
  -3112524316672; -1169588486144; 945431904256; 3237865848832; 5714091704320; 8378438909952; 11235572580352; 14288136699904;
  17538302869504; 20986105692160; 24630010052608; 28466969837568; 32491435982848; 36695403659264; 41069236453376; 45600292732928;
  50273896628224; 55072645971968; 59976290664448; 64963376840704; 70009464291328; 75088049209344; 80171763761152; 85231805661184;
  90238496014336; 95161811992576; 99971479109632; 104637533257728; 109131813879808; 113426495963136; 117495952310272; 121317240078336;
  124870738313216; 128139560747008; 131110520487936; 133774088077312; 136126463475712; 138167587962880; 139900900868096; 141335277338624;
  142483677773824; 143362384461824; 143991177740288; 144392790736896; 144593345576960; 144619853578240; 144500617904128; 144264612806656;
  143940175003648; 143553527283712; 143129533480960; 142695976665088; 142291914194944; 141831564165120; 141419884838912; 141053453664256;
  140728948752384; 140442721058816; 140191473860608; 139971843325952; 139780918607872; 139615772082176; 139474096881664; 139353602916352;
  139252545355776; 139169061928960; 139101818847232; 139049364881408; 139010575958016; 138984076345344; 138968834244608; 138963490701312;
  138966971973632; 138977893941248; 138995174473728; 139017421062144; 139043543187456; 139072257392640; 139102615764992; 139133393567744;
  139163802271744; 139192868798464; 139220039499776; 139244592955392; 139266269118464; 139284682113024; 139299982934016; 139312171581440;
  139321818480640; 139329351450624; 139335659683840; 139341582041088; 139348318093312; 139356882862080; 139368593358848; 139384472993792;
  139405830389760; 139433537961984; 139468635897856; 139511736565760; 139563552997376; 139624345239552; 139694440448000; 139773670850560;
  139861969338368; 139958765486080; 140063589531648; 140175501950976; 140293621940224; 140416657653760; 140543459852288; 140672501809152;
  140802500067328; 140931785293824; 141059057254400; 141182755667968; 141301722906624; 141414633570304; 141520548134912; 141618493521920;
  141707949637632; 141788329279488; 141859515006976; 141921305493504; 141974002728960; 142017891926016; 142053627396096; 142081863450624;
  142103640276992; 142119830290432; 142131775668224; 142140499820544; 142147378479104; 142153418276864; 142159860727808; 142167544692736;
  142177392918528; 142189824835584; 142205444423680; 142224251682816; 142246380830720; 142271479545856; 142299245838336; 142328975065088;
  142360080023552; 142391570857984; 142422659039232; 142452069498880; 142478829158400; 142501646172160; 142519362912256; 142530570092544;
  142534126862336; 142528640712704; 142513021124608; 142485858811904; 142446113587200; 142392392941568; 142323589578752; 142238260658176;
  142135114334208; 142012321890304; 141868222382080; 141700601217024; 141507327688704; 141285633556480; 141032868020224; 140746027958272;
  140422236078080; 140058380206080; 139651851485184; 139200041058304; 138589308452864; 137903229370368; 137097713287168; 136140044632064;
  135002993983488; 133658165903360; 132076980404224; 130232392613888; 128099077324800; 125655190601728; 122884064280576; 119773518102528;
  116317277388800; 112515140812800; 108373936701440; 103906893889536; 99132869967872; 94077609574400; 88773761171456; 83257479659520;
  77570322202624; 71760858841088; 65879458971648; 59979121819648; 54115988144128; 48346546831360; 42727966244864; 37315623780352;
  32162512371712; 27317455814656; 22823896612864; 18718300045312; 15028518387712; 11772771696640; 8958206017536; 6581642592256;
  4627550961664; 3072380370944; 1880789614592; 951121543168].

(** src/tables.c lines 3011-3110, mdct_win_10m_24k: binary32 values times 2^47. *)
Definition win_10m_24k : list Z := [
  -50855440384; -99621691392; -151214505984; -215817912320; -295295090688; -391027982336; -504421449728; -636865019904;
  -789442658304; -963099623424; -1158829178880; -1377160658944; -1618312691712; -1882663813120; -2170427801600; -2481173561344;
  -2814357798912; -3169521500160; -3545749258240; -3941929582592; -4356901961728; -4789291712512; -5237548515328; -5699943268352;
  -6174462181376; -6659371958272; -7152736927744; -7652131733504; -8155251605504; -8660177649664; -9164414779392; -9665297514496;
  -10160469704704; -10647770234880; -11124802060288; -11588947935232; -12037734268928; -12468926545920; -12880423419904; -13269923266560;
  -13635075178496; -13973999058944; -14284974194688; -14565784944640; -14814549114880; -15029919285248; -15210435837952; -15354422099968;
  -15460357636096; -15526754516992; -15552683704320; -15537100816384; -15478447669248; -15375469117440; -15227433254912; -15033186648064;
  -14791451082752; -14501029085184; -14160871030784; -13769925197824; -13326860943360; -12830265835520; -12278845931520; -11671421583360;
  -11006540513280; -10282480959488; -9497624969216; -8650694328320; -7739854553088; -6763061968896; -5718675030016; -4604995043328;
  -3420093415424; -2162191630336; -829145677824; 580766728192; 2069059338240; 3637695479808; 5288425947136; 7022429863936;
  8841176547328; 10745866616832; 12737262387200; 14816098910208; 16982841753600; 19237563269120; 21579897503744; 24009177563136;
  26524602335232; 29124919820288; 31807980437504; 34571557011456; 37412893884416; 40328941797376; 43316028637184; 46369758773248;
  49485715603456; 52658933071872; 55883191025664; 59152571301888; 62460912467968; 65801000321024; 69165419331584; 72546451980288;
  75935726436352; 79325277716480; 82706658492416; 86070758735872; 89408988512256; 92712506228736; 95972143136768; 99179015700480;
  102324273938432; 105399277584384; 108395872911360; 111305805529088; 114121055928320; 116834342797312; 119438888140800; 121928601829376;
  124297897050112; 126541581254656; 128655745351680; 130636513804288; 132481101594624; 134187839389696; 135756064489472; 137185768505344;
  138477739966464; 139633111334912; 140654659239936; 141546183720960; 142311493206016; 142955570528256; 143483985723392; 143902812143616;
  144218794229760; 144439464951808; 144572726378496; 144626665127936; 144609317486592; 144529357275136; 144395458314240; 144215975657472;
  143999214026752; 143753092268032; 143484908470272; 143201826504704; 142910456594432; 142631938031616; 142377763209216; 142055774879744;
  141759690571776; 141485248872448; 141231225044992; 140996562124800; 140780270256128; 140581242142720; 140398529871872; 140231051313152;
  140077908885504; 139938112733184; 139810857549824; 139695245754368; 139590623035392; 139496158920704; 139411350093824; 139335475134464;
  139268106223616; 139208681324544; 139156789395456; 139111943897088; 139073842839552; 139041999683584; 139016145993728; 138995853950976;
  138980804788224; 138970646183936; 138964992262144; 138963507478528; 138965822734336; 138971585708032; 138980376969216; 138991902916608;
  139005727342592; 139021556645888; 139038954618880; 139057652826112; 139077240225792; 139097490325504; 139117975306240; 139138519007232;
  139158777495552; 139178541056000; 139197566418944; 139215660646400; 139232655966208; 139248434937856; 139262854955008; 139275874074624;
  139287475519488; 139297642512384; 139306458939392; 139313966743552; 139320367251456; 139325794680832; 139330475524096; 139334636273664;
  139338604085248; 139342639005696; 139347093356544; 139352277516288; 139358594138112; 139366361989120; 139375925002240; 139387643887616;
  139401837412352; 139418832732160; 139438864728064; 139462227001344; 139489129267200; 139519772852224; 139554291974144; 139592804073472;
  139635393036288; 139682109194240; 139732902215680; 139787780489216; 139846626574336; 139909331419136; 139975718862848; 140045587578880;
  140118719463424; 140194804137984; 140273539612672; 140354581954560; 140437587230720; 140522119233536; 140607800475648; 140694127640576;
  140780857458688; 140867293675520; 140953193021440; 141038035402752; 141121434943488; 141202972213248; 141282278113280; 141358983544832;
  141432803295232; 141503401820160; 141570544238592; 141634029223936; 141693655449600; 141749305475072; 141800845082624; 141848291049472;
  141891559489536; 141930717511680; 141965832224768; 141997021069312; 142024401485824; 142048208355328; 142068609449984; 142085940314112;
  142100402274304; 142112347652096; 142122111991808; 142130030837760; 142136473288704; 142141758111744; 142146304737280; 142150415155200;
  142154458464256; 142158703099904; 142163484606464; 142169021087744; 142175564201984; 142183214612480; 142192223977472; 142202592296960;
  142214437011456; 142227741343744; 142242471739392; 142258594643968; 142275959062528; 142294447554560; 142313892347904; 142334108893184;
  142354828754944; 142375850606592; 142396822126592; 142417558765568; 142437607538688; 142456767119360; 142474601299968; 142490824867840;
  142505001615360; 142516812775424; 142525838917632; 142531744497664; 142534110085120; 142532600135680; 142526795218944; 142516376567808;
  142500941529088; 142480137781248; 142453646557184; 142421031649280; 142382024622080; 142336138936320; 142283089379328; 142222372634624;
  142153602826240; 142076243083264; 141989873975296; 141893774082048; 141787507195904; 141670268010496; 141541435768832; 141400171610112;
  141245754114048; 141077277310976; 140893902340096; 140694723231744; 140478892736512; 140245488107520; 139993678872576; 139722659725312;
  139431440809984; 139116104646656; 138701690634240; 138257211850752; 137778448826368; 137241905070080; 136639519129600; 135963749646336;
  135206174457856; 134358321070080; 133411809263616; 132358107824128; 131189205630976; 129897544548352; 128475667103744; 126917122457600;
  125216441237504; 123369202647040; 121371782807552; 119221556084736; 116917381627904; 114459225882624; 111848187756544; 109087161319424;
  106180131160064; 103131920728064; 99948821479424; 96638534156288; 93209908740096; 89673481322496; 86039695720448; 82320262430720;
  78527965691904; 74677871443968; 70784257097728; 66862536720384; 62928090824704; 58997856010240; 55088211034112; 51215987638272;
  47398101450752; 43651531014144; 39992625725440; 36437412020224; 33001259925504; 29698558001152; 26543057272832; 23546799587328;
  20720610443264; 18073832652800; 15613733896192; 13345665056768; 11272952217600; 9396712112128; 7715843735552; 6227055083520;
  4924912959488; 3801969065984; 2849047838720; 2055888699392; 1406916624384; 746645487616].

(** src/tables.c lines 3112-3243, mdct_win_10m_32k: binary32 values times 2^47. *)
Definition win_10m_32k : list Z := [
  -42518953984; -82581061632; -117748072448; -158559830016; -206953480192; -263667941376; -329226125312; -404199211008;
  -489239609344; -584899887104; -691663339520; -809968533504; -940214124544; -1082808467456; -1238034022400; -1406038310912;
  -1586919505920; -1780799504384; -1987831136256; -2208015843328; -2441108783104; -2686815567872; -2944997785600; -3215407972352;
  -3497618833408; -3791111323648; -4095393923072; -4410015481856; -4734353670144; -5067704893440; -5409388625920; -5758620532736;
  -6114558083072; -6476438962176; -6843498758144; -7214870822912; -7589473026048; -7966282481664; -8344490213376; -8723287244800;
  -9101529579520; -9478026035200; -9851763687424; -10221843906560; -10587378548736; -10947302260736; -11300488871936; -11645921263616;
  -11982566588416; -12309433942016; -12625657200640; -12930347171840; -13222536019968; -13501141614592; -13765313560576; -14014430052352;
  -14247717240832; -14464169541632; -14662893568000; -14843305263104; -15004880338944; -15146947706880; -15268782800896; -15369763815424;
  -15449262653440; -15506580963328; -15541244788736; -15553017151488; -15541380055040; -15505600544768; -15445057863680; -15359430098944;
  -15248446717952; -15111546732544; -14948153425920; -14757820104704; -14540045549568; -14294328541184; -14020275863552; -13717406220288;
  -13385153380352; -13022867226624; -12629958459392; -12205989822464; -11750473728000; -11262713921536; -10742041411584; -10187713806336;
  -9599108251648; -8975689973760; -8316721299456; -7621380145152; -6888836562944; -6118347112448; -5309267443712; -4460798017536;
  -3572170489856; -2642612584448; -1671203258368; -657117282304; 400271048704; 1501635411968; 2647773151232; 3839538233344;
  5077541584896; 6362323484672; 7694454358016; 9074564399104; 10503044726784; 11980264964096; 13506554363904; 15082143612928;
  16707170074624; 18381738606592; 20105706602496; 21878836035584; 23700778778624; 25571268493312; 27489885749248; 29455837822976;
  31468136955904; 33525925412864; 35628112674816; 37773402701824; 39960459608064; 42187811192832; 44453611962368; 46755957702656;
  49092960976896; 51462637879296; 53862387941376; 56289531002880; 58741621784576; 61216156286976; 63710122999808; 66220392972288;
  68743778533376; 71277138149376; 73816906661888; 76359577632768; 78901829173248; 81440180011008; 83970695888896; 86489643876352;
  88993408483328; 91478332276736; 93940497776640; 96376088166400; 98781328572416; 101152569950208; 103486079369216; 105778325225472;
  108025859801088; 110225243766784; 112373029404672; 114465953546240; 116500979515392; 118475330682880; 120386305916928; 122231480909824;
  124008506851328; 125715127205888; 127349815246848; 128910717091840; 130396314402816; 131805441163264; 133137342398464; 134391472848896;
  135567614410752; 136665800638464; 137686358687744; 138629615714304; 139496075034624; 140286986551296; 141004044763136; 141648675733504;
  142222557184000; 142727870152704; 143166980227072; 143542219440128; 143856205037568; 144111856254976; 144312327208960; 144460738461696;
  144560546119680; 144615189512192; 144628107968512; 144602589822976; 144542460280832; 144451427106816; 144333080625152; 144190776279040;
  144028037283840; 143848302968832; 143654744227840; 143450246742016; 143237712969728; 143019877597184; 142801455022080; 142602124918784;
  142419018383360; 142171470561280; 141941907914752; 141724240314368; 141518400651264; 141324137267200; 141141013954560; 140968544174080;
  140806325272576; 140653904265216; 140510886887424; 140376786599936; 140251167195136; 140133701517312; 140023986913280; 139921545232384;
  139826091261952; 139737272680448; 139654770720768; 139578283393024; 139507408044032; 139442060787712; 139381872525312; 139326616764416;
  139276075401216; 139230055497728; 139188372504576; 139150816706560; 139117161611264; 139087356887040; 139061192818688; 139038468079616;
  139019056840704; 139002808107008; 138989637992448; 138979286450176; 138971644428288; 138966586097664; 138963977240576; 138963608141824;
  138965319417856; 138969027182592; 138974555275264; 138981693980672; 138990317469696; 139000274747392; 139011465150464; 139023662186496;
  139036689694720; 139050505732096; 139064917360640; 139079756808192; 139094923411456; 139110257786880; 139125717991424; 139141077532672;
  139156244135936; 139171201024000; 139185780424704; 139199890063360; 139213446053888; 139226406453248; 139238737707008; 139250322374656;
  139261110124544; 139271159676928; 139280395534336; 139288842862592; 139296434552832; 139303296434176; 139309428506624; 139314839158784;
  139319620665344; 139323840135168; 139327640174592; 139331029172224; 139334124568576; 139337110913024; 139340097257472; 139343175876608;
  139346497765376; 139350205530112; 139354517274624; 139359491719168; 139365279858688; 139372108185600; 139380052197376; 139389296443392;
  139399908032512; 139412096679936; 139425988214784; 139441607802880; 139459106439168; 139478601564160; 139500185452544; 139523891658752;
  139549745348608; 139577872351232; 139608314609664; 139641021792256; 139676035842048; 139713356759040; 139753026486272; 139794927583232;
  139839034884096; 139885373554688; 139933809377280; 139984283631616; 140036662099968; 140090911227904; 140146938740736; 140204518146048;
  140263548780544; 140323938369536; 140385510752256; 140448098156544; 140511474089984; 140575546277888; 140640146948096; 140704965722112;
  140770019377152; 140834896871424; 140899623370752; 140963863330816; 141027482533888; 141090346762240; 141152254689280; 141213021765632;
  141272480219136; 141330529386496; 141387051827200; 141441829437440; 141494744776704; 141545781067776; 141594787315712; 141641713188864;
  141686407692288; 141728887603200; 141769119367168; 141807002320896; 141842570018816; 141875805683712; 141906742870016; 141935348023296;
  141961637920768; 141985763557376; 142007741710336; 142027589156864; 142045406560256; 142061328138240; 142075488108544; 142087903248384;
  142098724552704; 142108136570880; 142116256743424; 142123202510848; 142129108090880; 142134174810112; 142138587217920; 142142362091520;
  142145751089152; 142148888428544; 142151941881856; 142154995335168; 142158149451776; 142161605558272; 142165481095168; 142169792839680;
  142174658232320; 142180194713600; 142186452615168; 142193448714240; 142201199788032; 142209823277056; 142219252072448; 142229519728640;
  142240542359552; 142252370296832; 142264969986048; 142278223986688; 142292065189888; 142306493595648; 142321408540672; 142336692584448;
  142352211509248; 142367931760640; 142383752675328; 142399439372288; 142414975074304; 142430175232000; 142444939182080; 142459099152384;
  142472437039104; 142484936065024; 142496411680768; 142506612228096; 142515470598144; 142522785464320; 142528456163328; 142532247814144;
  142534009421824; 142533623545856; 142530955968512; 142525771808768; 142517936848896; 142507316871168; 142493811212288; 142477168214016;
  142457270435840; 142433983660032; 142407190446080; 142376689467392; 142342245842944; 142303842795520; 142261245444096; 142214235684864;
  142162645745664; 142106291077120; 142044953575424; 141978415136768; 141906323439616; 141828594597888; 141744859512832; 141654816194560;
  141558179430400; 141454630453248; 141343867273216; 141225487237120; 141099121246208; 140964450533376; 140821122777088; 140668693381120;
  140506810023936; 140335111995392; 140153272139776; 139960879415296; 139757606666240; 139543286120448; 139317968109568; 139075805773824;
  138759035158528; 138424715575296; 138083500556288; 137714653462528; 137312444874752; 136873586458624; 136395125424128; 135873689550848;
  135305638182912; 134687364218880; 134015411552256; 133286122749952; 132495957819392; 131641502597120; 130719653298176; 129727071256576;
  128660753350656; 127517939728384; 126296298356736; 124993639809024; 123608244420608; 122138602242048; 120583463370752; 118941963780096;
  117213818257408; 115399035191296; 113497899794432; 111511192207360; 109440346882048; 107287091871744; 105053306224640; 102741263253504;
  100353815085056; 97894258442240; 95366158483456; 92773524963328; 90121055502336; 87413070233600; 84654291943424; 81849929957376;
  79005445259264; 76127565512704; 73222011748352; 70295289331712; 67353781993472; 64403902824448; 61452886999040; 58507688673280;
  55575215865856; 52662607282176; 49777005821952; 46925537607680; 44115383287808; 41353429909504; 38646409330688; 36001082769408;
  33423777333248; 30920532819968; 28497307238400; 26159580446720; 23912253489152; 21759877185536; 19706601799680; 17755967324160;
  15910857342976; 14173461282816; 12545374027776; 11027644153856; 9620563165184; 8323512926208; 7135239864320; 6054129696768;
  5077837807616; 4202866671616; 3425160134656; 2741109260288; 2147246145536; 1637885280256; 1186851586048; 626235211776].

(** src/tables.c lines 3245-3441, mdct_win_10m_48k: binary32 values times 2^47. *)
Definition win_10m_48k : list Z := [
  -33115983872; -65019293696; -88142921728; -111593291776; -137179176960; -166106382336; -198328532992; -234253762560;
  -273958420480; -317656006656; -365510295552; -417653653504; -474349338624; -535687004160; -601916440576; -673072807936;
  -749372047360; -830830215168; -917667512320; -1009916051456; -1107804291072; -1211269251072; -1320466776064; -1435279163392;
  -1555881918464; -1682193383424; -1814396010496; -1952399753216; -2096324542464; -2245968527360; -2401387675648; -2562360082432;
  -2728992702464; -2901099937792; -3078732382208; -3261628416000; -3449795903488; -3642950418432; -3841097203712; -4043938201600;
  -4251486257152; -4463405301760; -4679660470272; -4899913334784; -5124100456448; -5351884193792; -5583151824896; -5817490210816;
  -6054812844032; -6294762684416; -6537287827456; -6781986668544; -7028748058624; -7277100138496; -7526868844544; -7777624784896;
  -8029246849024; -8281376423936; -8533923332096; -8786387927040; -9038588805120; -9290027892736; -9540541087744; -9789695328256;
  -10037350105088; -10283098570752; -10526824333312; -10768076505088; -11006672633856; -11242125131776; -11474276712448; -11702656565248;
  -11927121035264; -12147246497792; -12362908172288; -12573718085632; -12779543068672; -12979931185152; -13174763945984; -13363555860480;
  -13546202071040; -13722305167360; -13891826352128; -14054426935296; -14209986330624; -14358076719104; -14498548154368; -14631017906176;
  -14755465003008; -14871545511936; -14979294035968; -15078365593600; -15168685735936; -15249901092864; -15321951895552; -15384516231168;
  -15437544816640; -15480696864768; -15513947209728; -15537035804672; -15550063312896; -15552708870144; -15544981913600; -15526523830272;
  -15497249685504; -15456873218048; -15405431128064; -15342693777408; -15268734566400; -15183243116544; -15086174339072; -14977232535552;
  -14856425046016; -14723433103360; -14578278727680; -14420669366272; -14250641719296; -14067928399872; -13872514727936; -13664077742080;
  -13442605907968; -13207769972736; -12959530090496; -12697576931328; -12421927272448; -12132266541056; -11828623048704; -11510627696640;
  -11178251124736; -10831130525696; -10469159993344; -10091999789056; -9699620552704; -9291755945984; -8868360880128; -8429038469120;
  -7973701681152; -7501879705600; -7013550522368; -6508344508416; -5986206613504; -5446816497664; -4890044661760; -4315492122624;
  -3723104878592; -3112524316672; -2483651608576; -1836035080192; -1169588486144; -483893280768; 221002252288; 945431904256;
  1689521225728; 2453614886912; 3237865848832; 4042658152448; 4867963748352; 5714091704320; 6581029699584; 7469126909952;
  8378438909952; 9309289185280; 10261582839808; 11235572580352; 12231223803904; 13248765100032; 14288136699904; 15349555658752;
  16432882515968; 17538302869504; 18665632169984; 19814967934976; 20986105692160; 22179123036160; 23393734754304; 24630010052608;
  25887703564288; 27166813192192; 28466969837568; 29788039282688; 31129564348416; 32491435982848; 33873232658432; 35274734174208;
  36695403659264; 38135060758528; 39593101492224; 41069236453376; 42562819719168; 44073402499072; 45600292732928; 47143112933376;
  48701124902912; 50273896628224; 51860576665600; 53460472954880; 55072645971968; 56696558845952; 58331301412864; 59976290664448;
  61630549327872; 63293255319552; 64963376840704; 66640142139392; 68322422947840; 70009464291328; 71700083376128; 73393332289536;
  75088049209344; 76783412051968; 78478279966720; 80171763761152; 81862571589632; 83549663264768; 85231805661184; 86908101197824;
  88577316749312; 90238496014336; 91890372313088; 93531897069568; 95161811992576; 96779177558016; 98382701920256; 99971479109632;
  101544200503296; 103099943354368; 104637533257728; 106156122963968; 107654521290752; 109131813879808; 110586876657664; 112018803654656;
  113426495963136; 114809240551424; 116165938511872; 117495952310272; 118798283702272; 120072311930880; 121317240078336; 122532480942080;
  123717136941056; 124870738313216; 125992605581312; 127082453532672; 128139560747008; 129163600068608; 130153992683520; 131110520487936;
  132032805994496; 132920765317120; 133774088077312; 134592933658624; 135377000071168; 136126463475712; 136841265152000; 137521656758272;
  138167587962880; 138779352367104; 139356941582336; 139900900868096; 140411574157312; 140889624150016; 141335277338624; 141749188034560;
  142131725336576; 142483677773824; 142805582217216; 143098311081984; 143362384461824; 143598741880832; 143808004096000; 143991177740288;
  144149001011200; 144282631536640; 144392790736896; 144480669794304; 144547141124096; 144593345576960; 144620138790912; 144628728725504;
  144619853578240; 144594889080832; 144554707648512; 144500617904128; 144433492262912; 144354589016064; 144264612806656; 144165006475264;
  144056407556096; 143940175003648; 143816912797696; 143687896006656; 143553527283712; 143415333355520; 143273498771456; 143129533480960;
  142983303266304; 142837777694720; 142695976665088; 142573771423744; 142456750342144; 142291914194944; 142132849410048; 141979488878592;
  141831564165120; 141689108824064; 141551887974400; 141419884838912; 141292847759360; 141170793512960; 141053453664256; 140940811436032;
  140832648724480; 140728948752384; 140629417918464; 140534098165760; 140442721058816; 140355286597632; 140271517958144; 140191473860608;
  140114885869568; 140041762373632; 139971843325952; 139905170669568; 139841526300672; 139780918607872; 139723079155712; 139668100218880;
  139615772082176; 139566103134208; 139518824939520; 139474096881664; 139431675691008; 139391569756160; 139353602916352; 139317884223488;
  139284170407936; 139252545355776; 139222799351808; 139195033059328; 139169061928960; 139144953069568; 139122488377344; 139101818847232;
  139082743152640; 139065328402432; 139049364881408; 139035011973120; 139022059962368; 139010575958016; 139000392187904; 138991634481152;
  138984076345344; 138977835220992; 138972726558720; 138968834244608; 138965973729280; 138964262453248; 138963490701312; 138963759136768;
  138964883210240; 138966971973632; 138969824100352; 138973531865088; 138977893941248; 138983036157952; 138988773965824; 138995174473728;
  139002053132288; 139009535770624; 139017421062144; 139025792892928; 139034449936384; 139043543187456; 139052862930944; 139062493052928;
  139072257392640; 139082281779200; 139092373274624; 139102615764992; 139112816312320; 139123151077376; 139133393567744; 139143627669504;
  139153719164928; 139163802271744; 139173650497536; 139183389671424; 139192868798464; 139202196930560; 139211214684160; 139220039499776;
  139228495216640; 139236732829696; 139244592955392; 139252184645632; 139259348516864; 139266269118464; 139272745123840; 139278919139328;
  139284682113024; 139290176651264; 139295218204672; 139299982934016; 139304361787392; 139308472205312; 139312171581440; 139315686408192;
  139318857302016; 139321818480640; 139324494446592; 139327052972032; 139329351450624; 139331566043136; 139333604474880; 139335659683840;
  139337605840896; 139339610718208; 139341582041088; 139343721136128; 139345910562816; 139348318093312; 139350868230144; 139353762299904;
  139356882862080; 139360397688832; 139364231282688; 139368593358848; 139373341310976; 139378651299840; 139384472993792; 139390974164992;
  139398028984320; 139405830389760; 139414286106624; 139423572295680; 139433537961984; 139444401209344; 139456044597248; 139468635897856;
  139482040893440; 139496452521984; 139511736565760; 139528060796928; 139545274220544; 139563552997376; 139582779686912; 139603088506880;
  139624345239552; 139646700879872; 139670029598720; 139694440448000; 139719799209984; 139746265268224; 139773670850560; 139802133397504;
  139831518691328; 139861969338368; 139893292400640; 139925605318656; 139958765486080; 139992898732032; 140027786952704; 140063589531648;
  140100121919488; 140137493168128; 140175501950976; 140214265708544; 140253608280064; 140293621940224; 140334113751040; 140375184375808;
  140416657653760; 140458617470976; 140500854112256; 140543459852288; 140586275307520; 140629367586816; 140672501809152; 140715828969472;
  140759147741184; 140802500067328; 140845701398528; 140888869175296; 140931785293824; 140974516862976; 141016912887808; 141059057254400;
  141100731858944; 141142020587520; 141182755667968; 141223037763584; 141262665547776; 141301722906624; 141340042067968; 141377757249536;
  141414633570304; 141450788470784; 141486037401600; 141520548134912; 141554085789696; 141586767806464; 141618493521920; 141649330044928;
  141679092826112; 141707949637632; 141735749484544; 141762593030144; 141788329279488; 141813109227520; 141836798656512; 141859515006976;
  141881107283968; 141901760036864; 141921305493504; 141939894648832; 141957410062336; 141974002728960; 141989571985408; 142004235272192;
  142017891926016; 142030709719040; 142042571210752; 142053627396096; 142063794388992; 142073256738816; 142081863450624; 142089815851008;
  142097013276672; 142103640276992; 142109579411456; 142114998452224; 142119830290432; 142124276252672; 142128185344000; 142131775668224;
  142134946562048; 142137899352064; 142140499820544; 142142966071296; 142145197441024; 142147378479104; 142149391745024; 142151438565376;
  142153418276864; 142155515428864; 142157595803648; 142159860727808; 142162209538048; 142164810006528; 142167544692736; 142170564591616;
  142173802594304; 142177392918528; 142181167792128; 142185362096128; 142189824835584; 142194690228224; 142199840833536; 142205444423680;
  142211333226496; 142217641459712; 142224251682816; 142231314890752; 142238629756928; 142246380830720; 142254417117184; 142262839279616;
  142271479545856; 142280488910848; 142289716379648; 142299245838336; 142308943069184; 142318908735488; 142328975065088; 142339293052928;
  142349611040768; 142360080023552; 142370565783552; 142381135429632; 142391570857984; 142402056617984; 142412391383040; 142422659039232;
  142432658259968; 142442523262976; 142452069498880; 142461380853760; 142470256001024; 142478829158400; 142486915776512; 142494599741440;
  142501646172160; 142508206063616; 142514078089216; 142519362912256; 142523842428928; 142527634079744; 142530570092544; 142532700798976;
  142533858426880; 142534126862336; 142533338333184; 142531576725504; 142528640712704; 142524664512512; 142519430021120; 142513021124608;
  142505270050816; 142496294240256; 142485858811904; 142474081206272; 142460810428416; 142446113587200; 142429755801600; 142411921620992;
  142392392941568; 142371236872192; 142348252086272; 142323589578752; 142297031245824; 142268660973568; 142238260658176; 142205964517376;
  142171554447360; 142135114334208; 142096409296896; 142055523221504; 142012321890304; 141966788526080; 141918705025024; 141868222382080;
  141815072161792; 141759254364160; 141700601217024; 141639196606464; 141574755319808; 141507327688704; 141436678832128; 141362859081728;
  141285633556480; 141205002256384; 141120730300416; 141032868020224; 140941180534784; 140845651066880; 140746027958272; 140642386706432;
  140534450487296; 140422236078080; 140305508597760; 140184309989376; 140058380206080; 139927777968128; 139792251617280; 139651851485184;
  139506359468032; 139355834286080; 139200041058304; 139038971396096; 138817168211968; 138589308452864; 138369594032128; 138142053040128;
  137903229370368; 137649952129024; 137381944492032; 137097713287168; 136796696477696; 136477753212928; 136140044632064; 135782337609728;
  135403701010432; 135002993983488; 134579201507328; 134131283394560; 133658165903360; 133158750126080; 132632021041152; 132076980404224;
  131492621582336; 130878122491904; 130232392613888; 129554551144448; 128843708891136; 128099077324800; 127319867916288; 126505485074432;
  125655190601728; 124768531513344; 123844945772544; 122884064280576; 121885375332352; 120848644046848; 119773518102528; 118659955556352;
  117507855745024; 116317277388800; 115088153378816; 113820735373312; 112515140812800; 111171847847936; 109791250743296; 108373936701440;
  106920325152768; 105431112351744; 103906893889536; 102348508626944; 100756812201984; 99132869967872; 97477554339840; 95792106831872;
  94077609574400; 92335471853568; 90567094566912; 88773761171456; 86956654460928; 85117393436672; 83257479659520; 81378490187776;
  79482002079744; 77570322202624; 75645061169152; 73707930255360; 71760858841088; 69805906329600; 67844800774144; 65879458971648;
  63911948713984; 61944505565184; 59979121819648; 58017873657856; 56062774345728; 54115988144128; 52179603816448; 50255764652032;
  48346546831360; 46454118809600; 44580573544448; 42727966244864; 40898259845120; 39093475999744; 37315623780352; 35566640955392;
  33848349949952; 32162512371712; 30510950645760; 28895376048128; 27317455814656; 25778616008704; 24280341413888; 22823896612864;
  21410684600320; 20041762340864; 18718300045312; 17441043251200; 16210963988480; 15028518387712; 13894502318080; 12809052094464;
  11772771696640; 10785429389312; 9847448797184; 8958206017536; 8117986263040; 7325729947648; 6581642592256; 5884164964352;
  5233520934912; 4627550961664; 4066677882880; 3547964637184; 3072380370944; 2635867095040; 2240720666624; 1880789614592;
  1560157880320; 1258682056704; 951121543168; 493205815296].

(** src/tables.c lines 3445-3641, mdct_win_10m_48k_hr: binary32 values times 2^47. *)
Definition win_10m_48k_hr : list Z := [
  0; 0; 0; 0; 0; 0; 0; 0;
  0; 0; 0; 0; 0; 0; 0; 0;
  0; 0; 0; 0; 0; 0; 0; 0;
  0; 0; 0; 0; 0; 0; 0; 0;
  0; 0; 0; 0; 0; 0; 0; 0;
  0; 0; 0; 0; 0; 0; 0; 0;
  0; 0; 0; 0; 0; 0; 0; 0;
  0; 0; 0; 0; 0; 0; 0; 0;
  0; 0; 0; 0; 0; 0; 0; 0;
  0; 0; 0; 0; 0; 0; 0; 0;
  0; 0; 0; 0; 0; 0; 0; 0;
  0; 0; 0; 0; 0; 0; 0; 0;
  0; 0; 0; 0; 0; 0; 0; 0;
  0; 0; 0; 0; 0; 0; 0; 0;
  0; 0; 0; 0; 0; 0; 0; 0;
  13262273; 87234496; 256992016; 594955840; 1205869952; 2237920768; 3894747904; 6449241088;
  10259152896; 15784460288; 23606325248; 34447413248; 49193250816; 68914200576; 94887534592; 128619036672;
  171863359488; 226642509824; 295261569024; 380320710656; 484722835456; 611675734016; 764688269312; 947559137280;
  1164358713344; 1419401887744; 1717213069312; 2062482276352; 2460011724800; 2914655404032; 3431249739776; 4014536130560;
  4669079814144; 5399182835712; 6208790462464; 7101402841088; 8079979053056; 9146851131392; 10303634931712; 11551157256192;
  12889380356096; 14317351075840; 15833147375616; 17433857359872; 19115559354368; 20873325051904; 22701250969600; 24592489906176;
  26539311759360; 28533193703424; 30564901978112; 32624607232000; 34702014545920; 36786503942144; 38867260407808; 40933445861376;
  42974352244736; 44979535740928; 46939001323520; 48843320197120; 50683789180928; 52452569120768; 54142743609344; 55748444815360;
  57264920592384; 58688593199104; 60017067687936; 61249152876544; 62384852959232; 63425321369600; 64372818837504; 65230633697280;
  66002993807360; 66694986858496; 67312442933248; 67861817065472; 68350088577024; 68784635248640; 69173136850944; 69523445121024;
  69843508264960; 70141278683136; 70424612306944; 70701226655744; 70978629533696; 71264060309504; 71564464750592; 71886444691456;
  72236241256448; 72619709693952; 73042277433344; 73508944084992; 74024247885824; 74592265699328; 75216562683904; 75900183904256;
  76645645942784; 77454911733760; 78329348620288; 79269761908736; 80276361314304; 81348769349632; 82486004547584; 83686523404288;
  84948203601920; 86268402728960; 87643966668800; 89071271542784; 90546290819072; 92064586924032; 93621420294144; 95211766153216;
  96830381621248; 98471872823296; 100130711666688; 101801336504320; 103478185689088; 105155731128320; 106828545392640; 108491352047616;
  110139034042368; 111766692429824; 113369679921152; 114943609274368; 116484395237376; 117988254547968; 119451739488256; 120871704330240;
  122245389221888; 123570327912448; 124844423249920; 126065905238016; 127233331036160; 128345593348096; 129401903644672; 130401758609408;
  131344982081536; 132231683112960; 133062247579648; 133837329793024; 134557844111360; 135224956551168; 135840059621376; 136404772323328;
  136920906596352; 137390450540544; 137815568416768; 138198541926400; 138541778599936; 138847753076736; 139119007105024; 139358115987456;
  139567629860864; 139750107250688; 139908022796288; 140043809193984; 140159781699584; 140258154905600; 140341025964032; 140410341031936;
  140467912048640; 140515399958528; 140554323099648; 140586032037888; 140611751510016; 140632530092032; 140649315696640; 140662905241600;
  140673978204160; 140683113398272; 140690763808768; 140697332088832; 140703111839744; 140708337942528; 140713194946560; 140717808680960;
  140722279809024; 140726667051008; 140731012349952; 140735332483072; 140739635838976; 140743930806272; 140748208996352; 140752436854784;
  140756631158784; 140760775131136; 140764835217408; 140768811417600; 140772686954496; 140776461828096; 140780119261184; 140783642476544;
  140787031474176; 140790252699648; 140793339707392; 140796242165760; 140798976851968; 140801526988800; 140803892576256; 140806056837120;
  140808019771392; 140809781379072; 140811341660160; 140812667060224; 140813807910912; 140814713880576; 140815401746432; 140815871508480;
  140816139943936; 140816173498368; 140816005726208; 140815603073024; 140815015870464; 140814193786880; 140813187153920; 140811979194368;
  140810569908224; 140808959295488; 140807180910592; 140805201199104; 140803070492672; 140800755236864; 140798288986112; 140795654963200;
  140792886722560; 140789984264192; 140786947588096; 140783776694272; 140780505137152; 140777116139520; 140773643255808; 140770069708800;
  140766429052928; 140762721288192; 140758929637376; 140755104432128; 140751228895232; 140747336581120; 140743410712576; 140739468066816;
  140735517032448; 140731574386688; 140727648518144; 140723739426816; 140719872278528; 140716038684672; 140712263811072; 140708547657728;
  140704907001856; 140701341843456; 140697860571136; 140694488350720; 140691208404992; 140688054288384; 140685017612288; 140682106765312;
  140679338524672; 140676721278976; 140674246639616; 140671939772416; 140669800677376; 140667837743104; 140666050969600; 140664448745472;
  140663039459328; 140661831499776; 140660816478208; 140660011171840; 140659407192064; 140659021316096; 140658845155328; 140658887098368;
  140659138756608; 140659616907264; 140660304773120; 140661219131392; 140662343204864; 140663685382144; 140665228886016; 140666990493696;
  140668953427968; 140671117688832; 140673474887680; 140676025024512; 140678759710720; 140681662169088; 140684740788224; 140687970402304;
  140691351011328; 140694874226688; 140698523271168; 140702298144768; 140706173681664; 140710149881856; 140714209968128; 140718345551872;
  140722539855872; 140726776102912; 140731045904384; 140735340871680; 140739635838976; 140743930806272; 140748208996352; 140752436854784;
  140756631158784; 140760775131136; 140764835217408; 140768811417600; 140772686954496; 140776461828096; 140780119261184; 140783642476544;
  140787031474176; 140790252699648; 140793339707392; 140796242165760; 140798976851968; 140801526988800; 140803892576256; 140806056837120;
  140808019771392; 140809781379072; 140811341660160; 140812667060224; 140813807910912; 140814713880576; 140815401746432; 140815871508480;
  140816139943936; 140816173498368; 140816005726208; 140815603073024; 140815015870464; 140814193786880; 140813187153920; 140811979194368;
  140810569908224; 140808959295488; 140807180910592; 140805201199104; 140803070492672; 140800755236864; 140798288986112; 140795654963200;
  140792886722560; 140789984264192; 140786947588096; 140783776694272; 140780505137152; 140777116139520; 140773643255808; 140770069708800;
  140766429052928; 140762721288192; 140758929637376; 140755104432128; 140751228895232; 140747336581120; 140743410712576; 140739468066816;
  140735517032448; 140731574386688; 140727648518144; 140723739426816; 140719872278528; 140716038684672; 140712263811072; 140708547657728;
  140704907001856; 140701341843456; 140697860571136; 140694488350720; 140691208404992; 140688054288384; 140685017612288; 140682106765312;
  140679338524672; 140676721278976; 140674246639616; 140671939772416; 140669800677376; 140667837743104; 140666050969600; 140664448745472;
  140663039459328; 140661831499776; 140660816478208; 140660011171840; 140659407192064; 140659021316096; 140658845155328; 140658887098368;
  140659138756608; 140659616907264; 140660304773120; 140661219131392; 140662343204864; 140663685382144; 140665228886016; 140666990493696;
  140668953427968; 140671117688832; 140673474887680; 140676025024512; 140678759710720; 140681662169088; 140684740788224; 140687970402304;
  140691351011328; 140694874226688; 140698523271168; 140702298144768; 140706173681664; 140710149881856; 140714209968128; 140718345551872;
  140722539855872; 140726776102912; 140731045904384; 140735340871680; 140739635838976; 140743930806272; 140748208996352; 140752436854784;
  140756631158784; 140760775131136; 140764835217408; 140768811417600; 140772686954496; 140776461828096; 140780119261184; 140783642476544;
  140787031474176; 140790252699648; 140793339707392; 140796242165760; 140798976851968; 140801526988800; 140803892576256; 140806056837120;
  140808019771392; 140809781379072; 140811341660160; 140812667060224; 140813807910912; 140814713880576; 140815401746432; 140815871508480;
  140816139943936; 140816173498368; 140816005726208; 140815603073024; 140815015870464; 140814193786880; 140813187153920; 140811979194368;
  140810569908224; 140808959295488; 140807180910592; 140805201199104; 140803070492672; 140800755236864; 140798288986112; 140795654963200;
  140792886722560; 140789984264192; 140786947588096; 140783776694272; 140780505137152; 140777116139520; 140773643255808; 140770069708800;
  140766429052928; 140762721288192; 140758929637376; 140755104432128; 140751228895232; 140747336581120; 140743410712576; 140739468066816;
  140735517032448; 140731574386688; 140727648518144; 140723739426816; 140719872278528; 140716038684672; 140712263811072; 140708547657728;
  140704907001856; 140701341843456; 140697860571136; 140694488350720; 140691208404992; 140688054288384; 140685017612288; 140682106765312;
  140679338524672; 140676721278976; 140674246639616; 140671939772416; 140669800677376; 140667837743104; 140666050969600; 140664448745472;
  140663039459328; 140661831499776; 140660816478208; 140660011171840; 140659407192064; 140659021316096; 140658845155328; 140658887098368;
  140659138756608; 140659616907264; 140660304773120; 140661219131392; 140662343204864; 140663685382144; 140665228886016; 140666990493696;
  140668953427968; 140671117688832; 140673474887680; 140676025024512; 140678759710720; 140681662169088; 140684740788224; 140687970402304;
  140691351011328; 140694874226688; 140698523271168; 140702298144768; 140706173681664; 140710149881856; 140714209968128; 140718345551872;
  140722539855872; 140726776102912; 140731045904384; 140735340871680; 140739635838976; 140743897251840; 140748091555840; 140752185196544;
  140756094287872; 140759751720960; 140763006500864; 140765741187072; 140767720898560; 140768693977088; 140768341655552; 140766244503552;
  140761932759040; 140754768887808; 140744081801216; 140729041027072; 140708665098240; 140681838329856; 140647310819328; 140603631337472;
  140549197660160; 140482214625280; 140400677355520; 140302379646976; 140184913969152; 140045621133312; 139881623846912; 139689793159168;
  139466723295232; 139208781987840; 138912034979840; 138572287967232; 138185061433344; 137745632591872; 137248993443840; 136689917886464;
  136062961713152; 135362496167936; 134582775054336; 133717968289792; 132762229014528; 131709785866240; 130554984923136; 129292423921664;
  127916994199552; 126423998136320; 124809266593792; 123069184081920; 121200848142336; 119202111291392; 117071648129024; 114809064390656;
  112414896947200; 109890706079744; 107239083868160; 104463687745536; 101569240498176; 98561530265600; 95447410540544; 92234741448704;
  88932389748736; 85550161723392; 82098727682048; 78589563240448; 75034882211840; 71447494000640; 67840744882176; 64228392173568;
  60624461627392; 57043121602560; 53498548846592; 50004760723456; 46575485190144; 43223984635904; 39962892304384; 36804078075904;
  33758474403840; 30835950485504; 28045173850112; 25393503404032; 22886901350400; 20529861885952; 18325379743744; 16274937610240;
  14378526048256; 12634701168640; 11040659079168; 9592341790720; 8284567764992; 7111178715136; 6065194270720; 5138981847040;
  4324424941568; 3613088546816; 2996379058176; 2465692385280; 2012546990080; 1628702769152; 1306260144128; 1037741457408;
  816153952256; 635034140672; 488476311552; 371144720384; 278272704512; 205649969152; 149600190464; 106950639616;
  74996310016; 51459825664; 34449072128; 22413946880; 14103451648; 8524260352; 4901543424; 2642708480;
  1304498688; 563686592; 191387728; 29100212].

(** src/tables.c lines 3643-4034, mdct_win_10m_96k_hr: binary32 values times 2^47. *)
Definition win_10m_96k_hr : list Z := [
  0; 0; 0; 0; 0; 0; 0; 0;
  0; 0; 0; 0; 0; 0; 0; 0;
  0; 0; 0; 0; 0; 0; 0; 0;
  0; 0; 0; 0; 0; 0; 0; 0;
  0; 0; 0; 0; 0; 0; 0; 0;
  0; 0; 0; 0; 0; 0; 0; 0;
  0; 0; 0; 0; 0; 0; 0; 0;
  0; 0; 0; 0; 0; 0; 0; 0;
  0; 0; 0; 0; 0; 0; 0; 0;
  0; 0; 0; 0; 0; 0; 0; 0;
  0; 0; 0; 0; 0; 0; 0; 0;
  0; 0; 0; 0; 0; 0; 0; 0;
  0; 0; 0; 0; 0; 0; 0; 0;
  0; 0; 0; 0; 0; 0; 0; 0;
  0; 0; 0; 0; 0; 0; 0; 0;
  0; 0; 0; 0; 0; 0; 0; 0;
  0; 0; 0; 0; 0; 0; 0; 0;
  0; 0; 0; 0; 0; 0; 0; 0;
  0; 0; 0; 0; 0; 0; 0; 0;
  0; 0; 0; 0; 0; 0; 0; 0;
  0; 0; 0; 0; 0; 0; 0; 0;
  0; 0; 0; 0; 0; 0; 0; 0;
  0; 0; 0; 0; 0; 0; 0; 0;
  0; 0; 0; 0; 0; 0; 0; 0;
  0; 0; 0; 0; 0; 0; 0; 0;
  0; 0; 0; 0; 0; 0; 0; 0;
  0; 0; 0; 0; 0; 0; 0; 0;
  0; 0; 0; 0; 0; 0; 0; 0;
  0; 0; 0; 0; 0; 0; 0; 0;
  0; 0; 0; 0; 0; 0; 0; 0;
  9377491; 31486342; 68615416; 126617680; 212713216; 335786720; 506657984; 738373440;
  1046523904; 1449589504; 1969313280; 2631102720; 3464461568; 4503447552; 5787162624; 7360267264;
  9273525248; 11584368640; 14357495808; 17665484800; 21589426176; 26219585536; 31656060928; 38009470976;
  45401640960; 53966295040; 63849742336; 75211579392; 88225341440; 103079182336; 119976525824; 139136630784;
  160795230208; 185205030912; 212636205056; 243376848896; 277733376000; 316030779392; 358612926464; 405842657280;
  458101948416; 515791781888; 579332079616; 649161539584; 725737209856; 809533898752; 901043912704; 1000776204288;
  1109255389184; 1227021090816; 1354626367488; 1492637057024; 1641630007296; 1802191503360; 1974916087808; 2160404201472;
  2359260610560; 2572092440576; 2799506292736; 3042107457536; 3300495982592; 3575264837632; 3866997030912; 4176264036352;
  4503621337088; 4849606852608; 5214738317312; 5599508561920; 6004385251328; 6429806166016; 6876176056320; 7343865593856;
  7833206652928; 8344491261952; 8877967933440; 9433839042560; 10012257681408; 10613327659008; 11237099307008; 11883568431104;
  12552673165312; 13244296069120; 13958255738880; 14694313099264; 15452167208960; 16231452114944; 17031741046784; 17852543270912;
  18693306187776; 19553413234688; 20432187031552; 21328889380864; 22242719170560; 23172822859776; 24118286090240; 25078146269184;
  26051379986432; 27036923985920; 28033666777088; 29040450732032; 30056082571264; 31079335460864; 32108946915328; 33143629283328;
  34182071844864; 35222947102720; 36264912879616; 37306614415360; 38346696949760; 39383805722624; 40416590168064; 41443708108800;
  42463838339072; 43475672236032; 44477926342656; 45469359144960; 46448745906176; 47414908026880; 48366717239296; 49303070441472;
  50222948417536; 51125365506048; 52009390571520; 52874159587328; 53718879830016; 54542813102080; 55345296703488; 56125735043072;
  56883603832832; 57618462670848; 58329934069760; 59017720233984; 59681594671104; 60321410580480; 60937100853248; 61528657100800;
  62096159014912; 62639749201920; 63159645765632; 63656125530112; 64129545011200; 64580311056384; 65008897622016; 65415833190400;
  65801709158400; 66167154671616; 66512857595904; 66839551934464; 67148001050624; 67439018639360; 67713447755776; 67972156620800;
  68216055398400; 68446058446848; 68663113678848; 68868177395712; 69062231064576; 69246251958272; 69421234126848; 69588167426048;
  69748050100224; 69901880393728; 70050643968000; 70195326484480; 70336901021696; 70476336463872; 70614580723712; 70752573325312;
  70891245404160; 71031494541312; 71174209929216; 71320263983104; 71470503952384; 71625743532032; 71786804805632; 71954459525120;
  72129454276608; 72312535646208; 72504408276992; 72705743257600; 72917194899456; 73139383959552; 73372922806272; 73618365087744;
  73876247674880; 74147090661376; 74431363809280; 74729520103424; 75041962196992; 75369075965952; 75711213731840; 76068677484544;
  76441760825344; 76830698635264; 77235700629504; 77656951357440; 78094568259584; 78548660387840; 79019286462464; 79506480037888;
  80010215948288; 80530460639232; 81067121836032; 81620082098176; 82189173653504; 82774203564032; 83374953725952; 83991138926592;
  84622482341888; 85268631650304; 85929242918912; 86603905105920; 87292207169536; 87993687736320; 88707868655616; 89434246610944;
  90172284731392; 90921429368832; 91681118486528; 92450739716096; 93229697466368; 94017354203136; 94813072392192; 95616189333504;
  96426042327040; 97241951895552; 98063246950400; 98889214459904; 99719183335424; 100552448933888; 101388315000832; 102226076893184;
  103065046745088; 103904536690688; 104743858864128; 105582333788160; 106419298762752; 107254074310656; 108086031286272; 108914515378176;
  109738905829376; 110558590271488; 111372973113344; 112181467152384; 112983518740480; 113778565840896; 114566088359936; 115345566203904;
  116116512833536; 116878458486784; 117630941790208; 118373543313408; 119105843625984; 119827448463360; 120537988726784; 121237128871936;
  121924524965888; 122599883407360; 123262910595072; 123913346482176; 124550956187648; 125175504830464; 125786799472640; 126384663953408;
  126968930500608; 127539464896512; 128096149700608; 128638875860992; 129167567880192; 129682167037952; 130182631391232; 130668944162816;
  131141080186880; 131599064629248; 132042931044352; 132472721375232; 132888502730752; 133290350608384; 133678374060032; 134052682137600;
  134413400670208; 134760672264192; 135094664691712; 135415545724928; 135723508301824; 136018753748992; 136301483393024; 136571940503552;
  136830351572992; 137076968259584; 137312050610176; 137535867060224; 137748694433792; 137950826332160; 138142539579392; 138324144553984;
  138495943245824; 138658246033408; 138811371683840; 138955630575616; 139091349864448; 139218839928832; 139338427924480; 139450432618496;
  139555172777984; 139652967170048; 139744134561792; 139828976943104; 139907813081088; 139980936577024; 140048649420800; 140111236825088;
  140168984002560; 140222167777280; 140271064973312; 140315927248896; 140357014650880; 140394562060288; 140428812746752; 140460001591296;
  140488321531904; 140514007449600; 140537235505152; 140558215413760; 140577114947584; 140594101878784; 140609343979520; 140622983856128;
  140635180892160; 140646060916736; 140655741370368; 140664348082176; 140671981715456; 140678759710720; 140684757565440; 140690067554304;
  140694765174784; 140698934312960; 140702625300480; 140705905246208; 140708824481792; 140711441727488; 140713782149120; 140715896078336;
  140717825458176; 140719587065856; 140721206067200; 140722716016640; 140724133691392; 140725467480064; 140726742548480; 140727975673856;
  140729166856192; 140730324484096; 140731456946176; 140732572631040; 140733679927296; 140734778834944; 140735860965376; 140736943095808;
  140738025226240; 140739098968064; 140740172709888; 140741246451712; 140742320193536; 140743377158144; 140744434122752; 140745491087360;
  140746548051968; 140747588239360; 140748611649536; 140749635059712; 140750658469888; 140751665102848; 140752654958592; 140753644814336;
  140754601115648; 140755557416960; 140756513718272; 140757436465152; 140758359212032; 140759248404480; 140760137596928; 140760993234944;
  140761848872960; 140762670956544; 140763476262912; 140764264792064; 140765036544000; 140765774741504; 140766512939008; 140767217582080;
  140767905447936; 140768559759360; 140769197293568; 140769818050560; 140770405253120; 140770975678464; 140771512549376; 140772032643072;
  140772519182336; 140772988944384; 140773425152000; 140773844582400; 140774230458368; 140774582779904; 140774918324224; 140775237091328;
  140775505526784; 140775773962240; 140775992066048; 140776193392640; 140776361164800; 140776512159744; 140776629600256; 140776730263552;
  140776780595200; 140776830926848; 140776830926848; 140776814149632; 140776780595200; 140776696709120; 140776612823040; 140776478605312;
  140776327610368; 140776159838208; 140775958511616; 140775723630592; 140775471972352; 140775186759680; 140774884769792; 140774566002688;
  140774213681152; 140773827805184; 140773425152000; 140773005721600; 140772569513984; 140772099751936; 140771596435456; 140771093118976;
  140770556248064; 140769985822720; 140769415397376; 140768811417600; 140768207437824; 140767569903616; 140766915592192; 140766227726336;
  140765539860480; 140764835217408; 140764097019904; 140763358822400; 140762603847680; 140761832095744; 140761043566592; 140760238260224;
  140759416176640; 140758577315840; 140757738455040; 140756882817024; 140756010401792; 140755121209344; 140754232016896; 140753326047232;
  140752420077568; 140751497330688; 140750574583808; 140749635059712; 140748695535616; 140747739234304; 140746782932992; 140745809854464;
  140744853553152; 140743880474624; 140742907396096; 140741917540352; 140740944461824; 140739954606080; 140738964750336; 140737974894592;
  140736993427456; 140736011960320; 140735022104576; 140734040637440; 140733059170304; 140732077703168; 140731104624640; 140730131546112;
  140729158467584; 140728193777664; 140727237476352; 140726289563648; 140725341650944; 140724410515456; 140723479379968; 140722556633088;
  140721650663424; 140720744693760; 140719855501312; 140718974697472; 140718102282240; 140717246644224; 140716399394816; 140715568922624;
  140714746839040; 140713941532672; 140713153003520; 140712381251584; 140711617888256; 140710879690752; 140710149881856; 140709436850176;
  140708748984320; 140708077895680; 140707415195648; 140706786050048; 140706165293056; 140705569701888; 140704990887936; 140704437239808;
  140703900368896; 140703388663808; 140702893735936; 140702423973888; 140701979377664; 140701551558656; 140701157294080; 140700779806720;
  140700427485184; 140700100329472; 140699789950976; 140699513126912; 140699261468672; 140699034976256; 140698833649664; 140698657488896;
  140698506493952; 140698380664832; 140698280001536; 140698212892672; 140698170949632; 140698154172416; 140698162561024; 140698196115456;
  140698263224320; 140698355499008; 140698472939520; 140698615545856; 140698791706624; 140698993033216; 140699219525632; 140699471183872;
  140699756396544; 140700066775040; 140700402319360; 140700763029504; 140701148905472; 140701559947264; 140702004543488; 140702465916928;
  140702960844800; 140703472549888; 140704017809408; 140704579846144; 140705175437312; 140705787805696; 140706425339904; 140707088039936;
  140707767517184; 140708472160256; 140709201969152; 140709948555264; 140710711918592; 140711508836352; 140712314142720; 140713136226304;
  140713983475712; 140714847502336; 140715728306176; 140716625887232; 140717540245504; 140718471380992; 140719410905088; 140720367206400;
  140721340284928; 140722321752064; 140723319996416; 140724326629376; 140725341650944; 140726365061120; 140727396859904; 140728437047296;
  140729485623296; 140730542587904; 140731599552512; 140732664905728; 140733730258944; 140734804000768; 140735877742592; 140736951484416;
  140738025226240; 140739098968064; 140740172709888; 140741246451712; 140742320193536; 140743377158144; 140744434122752; 140745491087360;
  140746548051968; 140747588239360; 140748611649536; 140749635059712; 140750658469888; 140751665102848; 140752654958592; 140753644814336;
  140754601115648; 140755557416960; 140756513718272; 140757436465152; 140758359212032; 140759248404480; 140760137596928; 140760993234944;
  140761848872960; 140762670956544; 140763476262912; 140764264792064; 140765036544000; 140765774741504; 140766512939008; 140767217582080;
  140767905447936; 140768559759360; 140769197293568; 140769818050560; 140770405253120; 140770975678464; 140771512549376; 140772032643072;
  140772519182336; 140772988944384; 140773425152000; 140773844582400; 140774230458368; 140774582779904; 140774918324224; 140775237091328;
  140775505526784; 140775773962240; 140775992066048; 140776193392640; 140776361164800; 140776512159744; 140776629600256; 140776730263552;
  140776780595200; 140776830926848; 140776830926848; 140776814149632; 140776780595200; 140776696709120; 140776612823040; 140776478605312;
  140776327610368; 140776159838208; 140775958511616; 140775723630592; 140775471972352; 140775186759680; 140774884769792; 140774566002688;
  140774213681152; 140773827805184; 140773425152000; 140773005721600; 140772569513984; 140772099751936; 140771596435456; 140771093118976;
  140770556248064; 140769985822720; 140769415397376; 140768811417600; 140768207437824; 140767569903616; 140766915592192; 140766227726336;
  140765539860480; 140764835217408; 140764097019904; 140763358822400; 140762603847680; 140761832095744; 140761043566592; 140760238260224;
  140759416176640; 140758577315840; 140757738455040; 140756882817024; 140756010401792; 140755121209344; 140754232016896; 140753326047232;
  140752420077568; 140751497330688; 140750574583808; 140749635059712; 140748695535616; 140747739234304; 140746782932992; 140745809854464;
  140744853553152; 140743880474624; 140742907396096; 140741917540352; 140740944461824; 140739954606080; 140738964750336; 140737974894592;
  140736993427456; 140736011960320; 140735022104576; 140734040637440; 140733059170304; 140732077703168; 140731104624640; 140730131546112;
  140729158467584; 140728193777664; 140727237476352; 140726289563648; 140725341650944; 140724410515456; 140723479379968; 140722556633088;
  140721650663424; 140720744693760; 140719855501312; 140718974697472; 140718102282240; 140717246644224; 140716399394816; 140715568922624;
  140714746839040; 140713941532672; 140713153003520; 140712381251584; 140711617888256; 140710879690752; 140710149881856; 140709436850176;
  140708748984320; 140708077895680; 140707415195648; 140706786050048; 140706165293056; 140705569701888; 140704990887936; 140704437239808;
  140703900368896; 140703388663808; 140702893735936; 140702423973888; 140701979377664; 140701551558656; 140701157294080; 140700779806720;
  140700427485184; 140700100329472; 140699789950976; 140699513126912; 140699261468672; 140699034976256; 140698833649664; 140698657488896;
  140698506493952; 140698380664832; 140698280001536; 140698212892672; 140698170949632; 140698154172416; 140698162561024; 140698196115456;
  140698263224320; 140698355499008; 140698472939520; 140698615545856; 140698791706624; 140698993033216; 140699219525632; 140699471183872;
  140699756396544; 140700066775040; 140700402319360; 140700763029504; 140701148905472; 140701559947264; 140702004543488; 140702465916928;
  140702960844800; 140703472549888; 140704017809408; 140704579846144; 140705175437312; 140705787805696; 140706425339904; 140707088039936;
  140707767517184; 140708472160256; 140709201969152; 140709948555264; 140710711918592; 140711508836352; 140712314142720; 140713136226304;
  140713983475712; 140714847502336; 140715728306176; 140716625887232; 140717540245504; 140718471380992; 140719410905088; 140720367206400;
  140721340284928; 140722321752064; 140723319996416; 140724326629376; 140725341650944; 140726365061120; 140727396859904; 140728437047296;
  140729485623296; 140730542587904; 140731599552512; 140732664905728; 140733730258944; 140734804000768; 140735877742592; 140736951484416;
  140738025226240; 140739098968064; 140740172709888; 140741246451712; 140742320193536; 140743377158144; 140744434122752; 140745491087360;
  140746548051968; 140747588239360; 140748611649536; 140749635059712; 140750658469888; 140751665102848; 140752654958592; 140753644814336;
  140754601115648; 140755557416960; 140756513718272; 140757436465152; 140758359212032; 140759248404480; 140760137596928; 140760993234944;
  140761848872960; 140762670956544; 140763476262912; 140764264792064; 140765036544000; 140765774741504; 140766512939008; 140767217582080;
  140767905447936; 140768559759360; 140769197293568; 140769818050560; 140770405253120; 140770975678464; 140771512549376; 140772032643072;
  140772519182336; 140772988944384; 140773425152000; 140773844582400; 140774230458368; 140774582779904; 140774918324224; 140775237091328;
  140775505526784; 140775773962240; 140775992066048; 140776193392640; 140776361164800; 140776512159744; 140776629600256; 140776730263552;
  140776780595200; 140776830926848; 140776830926848; 140776814149632; 140776780595200; 140776696709120; 140776612823040; 140776478605312;
  140776327610368; 140776159838208; 140775958511616; 140775723630592; 140775471972352; 140775186759680; 140774884769792; 140774566002688;
  140774213681152; 140773827805184; 140773425152000; 140773005721600; 140772569513984; 140772099751936; 140771596435456; 140771093118976;
  140770556248064; 140769985822720; 140769415397376; 140768811417600; 140768207437824; 140767569903616; 140766915592192; 140766227726336;
  140765539860480; 140764835217408; 140764097019904; 140763358822400; 140762603847680; 140761832095744; 140761043566592; 140760238260224;
  140759416176640; 140758577315840; 140757738455040; 140756882817024; 140756010401792; 140755121209344; 140754232016896; 140753326047232;
  140752420077568; 140751497330688; 140750574583808; 140749635059712; 140748695535616; 140747739234304; 140746782932992; 140745809854464;
  140744853553152; 140743880474624; 140742907396096; 140741917540352; 140740944461824; 140739954606080; 140738964750336; 140737974894592;
  140736993427456; 140736011960320; 140735022104576; 140734040637440; 140733059170304; 140732077703168; 140731104624640; 140730131546112;
  140729158467584; 140728193777664; 140727237476352; 140726289563648; 140725341650944; 140724410515456; 140723479379968; 140722556633088;
  140721650663424; 140720744693760; 140719855501312; 140718974697472; 140718102282240; 140717246644224; 140716399394816; 140715568922624;
  140714746839040; 140713941532672; 140713153003520; 140712381251584; 140711617888256; 140710879690752; 140710149881856; 140709436850176;
  140708748984320; 140708077895680; 140707415195648; 140706786050048; 140706165293056; 140705569701888; 140704990887936; 140704437239808;
  140703900368896; 140703388663808; 140702893735936; 140702423973888; 140701979377664; 140701551558656; 140701157294080; 140700779806720;
  140700427485184; 140700100329472; 140699789950976; 140699513126912; 140699261468672; 140699034976256; 140698833649664; 140698657488896;
  140698506493952; 140698380664832; 140698280001536; 140698212892672; 140698170949632; 140698154172416; 140698162561024; 140698196115456;
  140698263224320; 140698355499008; 140698472939520; 140698615545856; 140698791706624; 140698993033216; 140699219525632; 140699471183872;
  140699756396544; 140700066775040; 140700402319360; 140700763029504; 140701148905472; 140701559947264; 140702004543488; 140702465916928;
  140702960844800; 140703472549888; 140704017809408; 140704579846144; 140705175437312; 140705787805696; 140706425339904; 140707088039936;
  140707767517184; 140708472160256; 140709201969152; 140709948555264; 140710711918592; 140711508836352; 140712314142720; 140713136226304;
  140713983475712; 140714847502336; 140715728306176; 140716625887232; 140717540245504; 140718471380992; 140719410905088; 140720367206400;
  140721340284928; 140722321752064; 140723319996416; 140724326629376; 140725341650944; 140726365061120; 140727396859904; 140728437047296;
  140729485623296; 140730542587904; 140731599552512; 140732664905728; 140733730258944; 140734804000768; 140735877742592; 140736951484416;
  140738025226240; 140739082190848; 140740139155456; 140741196120064; 140742219530240; 140743226163200; 140744216018944; 140745172320256;
  140746078289920; 140746933927936; 140747722457088; 140748427100160; 140749047857152; 140749551173632; 140749920272384; 140750121598976;
  140750138376192; 140749937049600; 140749467287552; 140748712312832; 140747621793792; 140746128621568; 140744199241728; 140741749768192;
  140738746646528; 140735080824832; 140730685194240; 140725475868672; 140719352184832; 140712213479424; 140703950700544; 140694438019072;
  140683549605888; 140671151243264; 140657083547648; 140641203912704; 140623327789056; 140603287404544; 140580898209792; 140555942100992;
  140528217751552; 140497490280448; 140463541583872; 140426111614976; 140384940326912; 140339742507008; 140290249719808; 140236143198208;
  140177112563712; 140112830660608; 140042945167360; 139967103762432; 139884920569856; 139796018102272; 139699976929280; 139596377620480;
  139484783968256; 139364734599168; 139235751362560; 139097356107776; 138949037129728; 138790265946112; 138620505686016; 138439194312704;
  138245753012224; 138039594582016; 137820098265088; 137586660081664; 137338625720320; 137075332481024; 136796134440960; 136500326957056;
  136187238940672; 135856140582912; 135506344017920; 135137119436800; 134747728642048; 134337466990592; 133905579507712; 133451344773120;
  132974041366528; 132472922701824; 131947292524544; 131396437803008; 130819662282752; 130216294875136; 129585656102912; 128927133597696;
  128240089825280; 127523945971712; 126778140000256; 126002160205824; 125195503271936; 124357716213760; 123488396378112; 122587183054848;
  121653749088256; 120687817654272; 119689187426304; 118657682243584; 117593193054208; 116495669526528; 115365111660544; 114201594953728;
  113005253623808; 111776272220160; 110514910789632; 109221488099328; 107896406802432; 106540111495168; 105153130659840; 103736051499008;
  102289536712704; 100814299332608; 99311144665088; 97780911570944; 96224522797056; 94642976587776; 93037304741888; 91408622944256;
  89758088822784; 88086935502848; 86396446441472; 84687947038720; 82962829803520; 81222529187840; 79468529975296; 77702350503936;
  75925559443456; 74139759017984; 72346585006080; 70547715129344; 68744835497984; 66939674165248; 65133959184384; 63329452163072;
  61527918903296; 59731125207040; 57940853653504; 56158870044672; 54386940182528; 52626825674752; 50880254574592; 49148946546688;
  47434591895552; 45738851565568; 44063344558080; 42409656320000; 40779313577984; 39173809504256; 37594565967872; 36042954506240;
  34520277450752; 33027772121088; 31566596145152; 30137835847680; 28742495764480; 27381496545280; 26055672856576; 24765771284480;
  23512446140416; 22296261558272; 21117687300096; 19977096658944; 18874770653184; 17810893832192; 16785560567808; 15798768762880;
  14850427191296; 13940356546560; 13068288393216; 12233871458304; 11436677922816; 10676198178816; 9951852363776; 9262993506304;
  8608910671872; 7988831584256; 7401933635584; 6847342837760; 6324143783936; 5831380697088; 5368066342912; 4933186224128;
  4525701726208; 4144558243840; 3788688326656; 3457017446400; 3148467666944; 2861962887168; 2596432773120; 2350816428032;
  2124066717696; 1915153154048; 1723064909824; 1546814357504; 1385438642176; 1238003089408; 1103601729536; 981360443392;
  870437355520; 770024275968; 679347683328; 597669117952; 524285935616; 458530947072; 399772876800; 347415838720;
  300899008512; 259696132096; 223314755584; 191295324160; 163210395648; 138663444480; 117287780352; 98745384960;
  82725593088; 68943847424; 57140350976; 47078690816; 38544539648; 31344244736; 25303527424; 20266133504;
  16092542976; 12658710528; 9854832640; 7584164864; 5761894400; 4314050048; 3176477440; 2293863936;
  1618824192; 1111043072; 736476928; 466613120; 277786272; 150549440; 69088792; 20577194].

(** src/tables.c lines 4040-4069, lc3_mdct_win, by duration and sample rate. *)
Definition mdct_win : list (list (list Z)) := [
  [win_2m5_8k; win_2m5_16k; win_2m5_24k; win_2m5_32k; win_2m5_48k; win_2m5_48k_hr; win_2m5_96k_hr];
  [win_5m_8k; win_5m_16k; win_5m_24k; win_5m_32k; win_5m_48k; win_5m_48k_hr; win_5m_96k_hr];
  [win_7m5_8k; win_7m5_16k; win_7m5_24k; win_7m5_32k; win_7m5_48k];
  [win_10m_8k; win_10m_16k; win_10m_24k; win_10m_32k; win_10m_48k; win_10m_48k_hr; win_10m_96k_hr]].
