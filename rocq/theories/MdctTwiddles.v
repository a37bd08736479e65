(** * Twiddles of the transform
    Copied from /repo/src/tables.c by /verif/tools/gen_mdct_tables.py; data only.
    The numbers are the binary32 values times 2^80. *)
From Coq Require Import ZArith List.
From Verif Require Import MdctModel.
Import ListNotations.
Local Open Scope Z_scope.

(** src/tables.c lines 85-103, fft_twiddles_15. *)
Definition fft_twiddles_15 : @bf3_twiddles Z := mkBf3 5 [
  ((1208925819614629174706176, 0), (1208925819614629174706176, 0)); ((1104408729420811993088000, -491714428444965764857856), (808929287251290660798464, -898406948763075751182336)); ((808929287251290660798464, -898406948763075751182336), (-126367150462735088615424, -1202303222319385331892224)); ((373578633121965298155520, -1149756807134295218978816), (-978041542929279885508608, -710588757845622548070400));
  ((-126367150462735088615424, -1202303222319385331892224), (-1182507920373255958953984, 251349804328023939350528)); ((-604462909807314587353088, -1046960452286103756472320), (-604462909807314587353088, 1046960452286103756472320)); ((-978041542929279885508608, -710588757845622548070400), (373578633121965298155520, 1149756807134295218978816)); ((-1182507920373255958953984, -251349804328023939350528), (1104408729420811993088000, 491714428444965764857856));
  ((-1182507920373255958953984, 251349804328023939350528), (1104408729420811993088000, -491714428444965764857856)); ((-978041542929279885508608, 710588757845622548070400), (373578633121965298155520, -1149756807134295218978816)); ((-604462909807314587353088, 1046960452286103756472320), (-604462909807314587353088, -1046960452286103756472320)); ((-126367150462735088615424, 1202303222319385331892224), (-1182507920373255958953984, -251349804328023939350528));
  ((373578633121965298155520, 1149756807134295218978816), (-978041542929279885508608, 710588757845622548070400)); ((808929287251290660798464, 898406948763075751182336), (-126367150462735088615424, 1202303222319385331892224)); ((1104408729420811993088000, 491714428444965764857856), (808929287251290660798464, 898406948763075751182336))].

(** src/tables.c lines 105-153, fft_twiddles_45. *)
Definition fft_twiddles_45 : @bf3_twiddles Z := mkBf3 15 [
  ((1208925819614629174706176, 0), (1208925819614629174706176, 0)); ((1197160615948086490955776, -168249960464535850582016), (1162094076039905012613120, -333225119452829990256640)); ((1162094076039905012613120, -333225119452829990256640), (1025227233405918349623296, -640633083825780969963520)); ((1104408729420811993088000, -491714428444965764857856), (808929287251290660798464, -898406948763075751182336));
  ((1025227233405918349623296, -640633083825780969963520), (529958203847061599682560, -1086575339587553284063232)); ((926090899931695360770048, -777082568875099954348032), (209927766611298707570688, -1190559491815865950666752)); ((808929287251290660798464, -898406948763075751182336), (-126367150462735088615424, -1202303222319385331892224)); ((676022729985628517171200, -1002244896133085462003712), (-452871566206038597173248, -1120896515743006435835904));
  ((529958203847061599682560, -1086575339587553284063232), (-744289085770844912746496, -952646573292869094735872)); ((373578633121965298155520, -1149756807134295218978816), (-978041542929279885508608, -710588757845622548070400)); ((209927766611298707570688, -1190559491815865950666752), (-1136018666542994068340736, -413476994998360034246656)); ((42190901252309177597952, -1208189391003561551200256), (-1205980969861487135817728, -84330398418471548354560));
  ((-126367150462735088615424, -1202303222319385331892224), (-1182507920373255958953984, 251349804328023939350528)); ((-292465633298884996366336, -1173015557337857598160896), (-1067418107636629762998272, 567556307177780581236736)); ((-452871566206038597173248, -1120896515743006435835904), (-869628442741020016246784, 839790473913824626868224)); ((-604462909807314587353088, -1046960452286103756472320), (-604462909807314587353088, 1046960452286103756472320));
  ((-744289085770844912746496, -952646573292869094735872), (-292465633298884996366336, 1173015557337857598160896)); ((-869628442741020016246784, -839790473913824626868224), (42190901252309177597952, 1208189391003561551200256)); ((-978041542929279885508608, -710588757845622548070400), (373578633121965298155520, 1149756807134295218978816)); ((-1067418107636629762998272, -567556307177780581236736), (676022729985628517171200, 1002244896133085462003712));
  ((-1136018666542994068340736, -413476994998360034246656), (926090899931695360770048, 777082568875099954348032)); ((-1182507920373255958953984, -251349804328023939350528), (1104408729420811993088000, 491714428444965764857856)); ((-1205980969861487135817728, -84330398418471548354560), (1197160615948086490955776, 168249960464535850582016)); ((-1205980969861487135817728, 84330398418471548354560), (1197160615948086490955776, -168249960464535850582016));
  ((-1182507920373255958953984, 251349804328023939350528), (1104408729420811993088000, -491714428444965764857856)); ((-1136018666542994068340736, 413476994998360034246656), (926090899931695360770048, -777082568875099954348032)); ((-1067418107636629762998272, 567556307177780581236736), (676022729985628517171200, -1002244896133085462003712)); ((-978041542929279885508608, 710588757845622548070400), (373578633121965298155520, -1149756807134295218978816));
  ((-869628442741020016246784, 839790473913824626868224), (42190901252309177597952, -1208189391003561551200256)); ((-744289085770844912746496, 952646573292869094735872), (-292465633298884996366336, -1173015557337857598160896)); ((-604462909807314587353088, 1046960452286103756472320), (-604462909807314587353088, -1046960452286103756472320)); ((-452871566206038597173248, 1120896515743006435835904), (-869628442741020016246784, -839790473913824626868224));
  ((-292465633298884996366336, 1173015557337857598160896), (-1067418107636629762998272, -567556307177780581236736)); ((-126367150462735088615424, 1202303222319385331892224), (-1182507920373255958953984, -251349804328023939350528)); ((42190901252309177597952, 1208189391003561551200256), (-1205980969861487135817728, 84330398418471548354560)); ((209927766611298707570688, 1190559491815865950666752), (-1136018666542994068340736, 413476994998360034246656));
  ((373578633121965298155520, 1149756807134295218978816), (-978041542929279885508608, 710588757845622548070400)); ((529958203847061599682560, 1086575339587553284063232), (-744289085770844912746496, 952646573292869094735872)); ((676022729985628517171200, 1002244896133085462003712), (-452871566206038597173248, 1120896515743006435835904)); ((808929287251290660798464, 898406948763075751182336), (-126367150462735088615424, 1202303222319385331892224));
  ((926090899931695360770048, 777082568875099954348032), (209927766611298707570688, 1190559491815865950666752)); ((1025227233405918349623296, 640633083825780969963520), (529958203847061599682560, 1086575339587553284063232)); ((1104408729420811993088000, 491714428444965764857856), (808929287251290660798464, 898406948763075751182336)); ((1162094076039905012613120, 333225119452829990256640), (1025227233405918349623296, 640633083825780969963520));
  ((1197160615948086490955776, 168249960464535850582016), (1162094076039905012613120, 333225119452829990256640))].

(** src/tables.c lines 166-172, fft_twiddles_10. *)
Definition fft_twiddles_10 : @bf2_twiddles Z := mkBf2 5 [
  (1208925819614629174706176, 0); (978041542929279885508608, -710588757845622548070400); (373578633121965298155520, -1149756807134295218978816); (-373578633121965298155520, -1149756807134295218978816);
  (-978041542929279885508608, -710588757845622548070400)].

(** src/tables.c lines 174-182, fft_twiddles_20. *)
Definition fft_twiddles_20 : @bf2_twiddles Z := mkBf2 10 [
  (1208925819614629174706176, 0); (1149756807134295218978816, -373578633121965298155520); (978041542929279885508608, -710588757845622548070400); (710588757845622548070400, -978041542929279885508608);
  (373578633121965298155520, -1149756807134295218978816); (74025360, -1208925819614629174706176); (-373578633121965298155520, -1149756807134295218978816); (-710588757845622548070400, -978041542929279885508608);
  (-978041542929279885508608, -710588757845622548070400); (-1149756807134295218978816, -373578633121965298155520)].

(** src/tables.c lines 184-195, fft_twiddles_30. *)
Definition fft_twiddles_30 : @bf2_twiddles Z := mkBf2 15 [
  (1208925819614629174706176, 0); (1182507920373255958953984, -251349804328023939350528); (1104408729420811993088000, -491714428444965764857856); (978041542929279885508608, -710588757845622548070400);
  (808929287251290660798464, -898406948763075751182336); (604462909807314587353088, -1046960452286103756472320); (373578633121965298155520, -1149756807134295218978816); (126367150462735088615424, -1202303222319385331892224);
  (-126367150462735088615424, -1202303222319385331892224); (-373578633121965298155520, -1149756807134295218978816); (-604462909807314587353088, -1046960452286103756472320); (-808929287251290660798464, -898406948763075751182336);
  (-978041542929279885508608, -710588757845622548070400); (-1104408729420811993088000, -491714428444965764857856); (-1182507920373255958953984, -251349804328023939350528)].

(** src/tables.c lines 197-210, fft_twiddles_40. *)
Definition fft_twiddles_40 : @bf2_twiddles Z := mkBf2 20 [
  (1208925819614629174706176, 0); (1194041963278124969885696, -189117677568333195509760); (1149756807134295218978816, -373578633121965298155520); (1077160798753715885441024, -548840824307106577383424);
  (978041542929279885508608, -710588757845622548070400); (854839630371051838373888, -854839630371051838373888); (710588757845622548070400, -978041542929279885508608); (548840824307106577383424, -1077160798753715885441024);
  (373578633121965298155520, -1149756807134295218978816); (189117677568333195509760, -1194041963278124969885696); (74025360, -1208925819614629174706176); (-189117677568333195509760, -1194041963278124969885696);
  (-373578633121965298155520, -1149756807134295218978816); (-548840824307106577383424, -1077160798753715885441024); (-710588757845622548070400, -978041542929279885508608); (-854839630371051838373888, -854839630371051838373888);
  (-978041542929279885508608, -710588757845622548070400); (-1077160798753715885441024, -548840824307106577383424); (-1149756807134295218978816, -373578633121965298155520); (-1194041963278124969885696, -189117677568333195509760)].

(** src/tables.c lines 212-230, fft_twiddles_60. *)
Definition fft_twiddles_60 : @bf2_twiddles Z := mkBf2 30 [
  (1208925819614629174706176, 0); (1202303222319385331892224, -126367150462735088615424); (1182507920373255958953984, -251349804328023939350528); (1149756807134295218978816, -373578633121965298155520);
  (1104408729420811993088000, -491714428444965764857856); (1046960452286103756472320, -604462909807314587353088); (978041542929279885508608, -710588757845622548070400); (898406948763075751182336, -808929287251290660798464);
  (808929287251290660798464, -898406948763075751182336); (710588757845622548070400, -978041542929279885508608); (604462909807314587353088, -1046960452286103756472320); (491714428444965764857856, -1104408729420811993088000);
  (373578633121965298155520, -1149756807134295218978816); (251349804328023939350528, -1182507920373255958953984); (126367150462735088615424, -1202303222319385331892224); (342460800, -1208925819614629174706176);
  (-126367150462735088615424, -1202303222319385331892224); (-251349804328023939350528, -1182507920373255958953984); (-373578633121965298155520, -1149756807134295218978816); (-491714428444965764857856, -1104408729420811993088000);
  (-604462909807314587353088, -1046960452286103756472320); (-710588757845622548070400, -978041542929279885508608); (-808929287251290660798464, -898406948763075751182336); (-898406948763075751182336, -808929287251290660798464);
  (-978041542929279885508608, -710588757845622548070400); (-1046960452286103756472320, -604462909807314587353088); (-1104408729420811993088000, -491714428444965764857856); (-1149756807134295218978816, -373578633121965298155520);
  (-1182507920373255958953984, -251349804328023939350528); (-1202303222319385331892224, -126367150462735088615424)].

(** src/tables.c lines 232-255, fft_twiddles_80. *)
Definition fft_twiddles_80 : @bf2_twiddles Z := mkBf2 40 [
  (1208925819614629174706176, 0); (1205199072908581579784192, -94851230486373999837184); (1194041963278124969885696, -189117677568333195509760); (1175523089552783452405760, -282218124692367660285952);
  (1149756807134295218978816, -373578633121965298155520); (1116901786844731786919936, -462635874601336097996800); (1077160798753715885441024, -548840824307106577383424); (1030778694565788393668608, -631661985425652979859456);
  (978041542929279885508608, -710588757845622548070400); (919274395650895453880320, -785134500605680135700480); (854839630371051838373888, -854839630371051838373888); (785134500605680135700480, -919274395650895453880320);
  (710588757845622548070400, -978041542929279885508608); (631661985425652979859456, -1030778694565788393668608); (548840824307106577383424, -1077160798753715885441024); (462635874601336097996800, -1116901786844731786919936);
  (373578633121965298155520, -1149756807134295218978816); (282218124692367660285952, -1175523089552783452405760); (189117677568333195509760, -1194041963278124969885696); (94851230486373999837184, -1205199072908581579784192);
  (74025360, -1208925819614629174706176); (-94851230486373999837184, -1205199072908581579784192); (-189117677568333195509760, -1194041963278124969885696); (-282218124692367660285952, -1175523089552783452405760);
  (-373578633121965298155520, -1149756807134295218978816); (-462635874601336097996800, -1116901786844731786919936); (-548840824307106577383424, -1077160798753715885441024); (-631661985425652979859456, -1030778694565788393668608);
  (-710588757845622548070400, -978041542929279885508608); (-785134500605680135700480, -919274395650895453880320); (-854839630371051838373888, -854839630371051838373888); (-919274395650895453880320, -785134500605680135700480);
  (-978041542929279885508608, -710588757845622548070400); (-1030778694565788393668608, -631661985425652979859456); (-1077160798753715885441024, -548840824307106577383424); (-1116901786844731786919936, -462635874601336097996800);
  (-1149756807134295218978816, -373578633121965298155520); (-1175523089552783452405760, -282218124692367660285952); (-1194041963278124969885696, -189117677568333195509760); (-1205199072908581579784192, -94851230486373999837184)].

(** src/tables.c lines 257-283, fft_twiddles_90. *)
Definition fft_twiddles_90 : @bf2_twiddles Z := mkBf2 45 [
  (1208925819614629174706176, 0); (1205980969861487135817728, -84330398418471548354560); (1197160615948086490955776, -168249960464535850582016); (1182507920373255958953984, -251349804328023939350528);
  (1162094076039905012613120, -333225119452829990256640); (1136018666542994068340736, -413476994998360034246656); (1104408729420811993088000, -491714428444965764857856); (1067418107636629762998272, -567556307177780581236736);
  (1025227233405918349623296, -640633083825780969963520); (978041542929279885508608, -710588757845622548070400); (926090899931695360770048, -777082568875099954348032); (869628442741020016246784, -839790473913824626868224);
  (808929287251290660798464, -898406948763075751182336); (744289085770844912746496, -952646573292869094735872); (676022729985628517171200, -1002244896133085462003712); (604462909807314587353088, -1046960452286103756472320);
  (529958203847061599682560, -1086575339587553284063232); (452871566206038597173248, -1120896515743006435835904); (373578633121965298155520, -1149756807134295218978816); (292465633298884996366336, -1173015557337857598160896);
  (209927766611298707570688, -1190559491815865950666752); (126367150462735088615424, -1202303222319385331892224); (42190901252309177597952, -1208189391003561551200256); (-42190901252309177597952, -1208189391003561551200256);
  (-126367150462735088615424, -1202303222319385331892224); (-209927766611298707570688, -1190559491815865950666752); (-292465633298884996366336, -1173015557337857598160896); (-373578633121965298155520, -1149756807134295218978816);
  (-452871566206038597173248, -1120896515743006435835904); (-529958203847061599682560, -1086575339587553284063232); (-604462909807314587353088, -1046960452286103756472320); (-676022729985628517171200, -1002244896133085462003712);
  (-744289085770844912746496, -952646573292869094735872); (-808929287251290660798464, -898406948763075751182336); (-869628442741020016246784, -839790473913824626868224); (-926090899931695360770048, -777082568875099954348032);
  (-978041542929279885508608, -710588757845622548070400); (-1025227233405918349623296, -640633083825780969963520); (-1067418107636629762998272, -567556307177780581236736); (-1104408729420811993088000, -491714428444965764857856);
  (-1136018666542994068340736, -413476994998360034246656); (-1162094076039905012613120, -333225119452829990256640); (-1182507920373255958953984, -251349804328023939350528); (-1197160615948086490955776, -168249960464535850582016);
  (-1205980969861487135817728, -84330398418471548354560)].

(** src/tables.c lines 285-318, fft_twiddles_120. *)
Definition fft_twiddles_120 : @bf2_twiddles Z := mkBf2 60 [
  (1208925819614629174706176, 0); (1207268999354915097673728, -63270287538592935837696); (1202303222319385331892224, -126367150462735088615424); (1194041963278124969885696, -189117677568333195509760);
  (1182507920373255958953984, -251349804328023939350528); (1167732654830966911533056, -312893024459915073159168); (1149756807134295218978816, -373578633121965298155520); (1128629520562374748143616, -433240267343939548217344);
  (1104408729420811993088000, -491714428444965764857856); (1077160798753715885441024, -548840824307106577383424); (1046960452286103756472320, -604462909807314587353088); (1013890484193525185380352, -658428211076605539254272);
  (978041542929279885508608, -710588757845622548070400); (939511842994041552633856, -760801659905388402704384); (898406948763075751182336, -808929287251290660798464); (854839630371051838373888, -854839630371051838373888);
  (808929287251290660798464, -898406948763075751182336); (760801659905388402704384, -939511842994041552633856); (710588757845622548070400, -978041542929279885508608); (658428211076605539254272, -1013890484193525185380352);
  (604462909807314587353088, -1046960452286103756472320); (548840824307106577383424, -1077160798753715885441024); (491714428444965764857856, -1104408729420811993088000); (433240267343939548217344, -1128629520562374748143616);
  (373578633121965298155520, -1149756807134295218978816); (312893024459915073159168, -1167732654830966911533056); (251349804328023939350528, -1182507920373255958953984); (189117677568333195509760, -1194041963278124969885696);
  (126367150462735088615424, -1202303222319385331892224); (63270287538592935837696, -1207268999354915097673728); (342460800, -1208925819614629174706176); (-63270287538592935837696, -1207268999354915097673728);
  (-126367150462735088615424, -1202303222319385331892224); (-189117677568333195509760, -1194041963278124969885696); (-251349804328023939350528, -1182507920373255958953984); (-312893024459915073159168, -1167732654830966911533056);
  (-373578633121965298155520, -1149756807134295218978816); (-433240267343939548217344, -1128629520562374748143616); (-491714428444965764857856, -1104408729420811993088000); (-548840824307106577383424, -1077160798753715885441024);
  (-604462909807314587353088, -1046960452286103756472320); (-658428211076605539254272, -1013890484193525185380352); (-710588757845622548070400, -978041542929279885508608); (-760801659905388402704384, -939511842994041552633856);
  (-808929287251290660798464, -898406948763075751182336); (-854839630371051838373888, -854839630371051838373888); (-898406948763075751182336, -808929287251290660798464); (-939511842994041552633856, -760801659905388402704384);
  (-978041542929279885508608, -710588757845622548070400); (-1013890484193525185380352, -658428211076605539254272); (-1046960452286103756472320, -604462909807314587353088); (-1077160798753715885441024, -548840824307106577383424);
  (-1104408729420811993088000, -491714428444965764857856); (-1128629520562374748143616, -433240267343939548217344); (-1149756807134295218978816, -373578633121965298155520); (-1167732654830966911533056, -312893024459915073159168);
  (-1182507920373255958953984, -251349804328023939350528); (-1194041963278124969885696, -189117677568333195509760); (-1202303222319385331892224, -126367150462735088615424); (-1207268999354915097673728, -63270287538592935837696)].

(** src/tables.c lines 320-363, fft_twiddles_160. *)
Definition fft_twiddles_160 : @bf2_twiddles Z := mkBf2 80 [
  (1208925819614629174706176, 0); (1207993754635748576854016, -47462206990159385198592); (1205199072908581579784192, -94851230486373999837184); (1200546097888770459172864, -142093999584689757618176);
  (1194041963278124969885696, -189117677568333195509760); (1185696613024622345977856, -235849729461705884303360); (1175523089552783452405760, -282218124692367660285952); (1163536957302920481603584, -328151364112634389463040);
  (1149756807134295218978816, -373578633121965298155520); (1134203751921960777416704, -418429837695759991963648); (1116901786844731786919936, -462635874601336097996800); (1097877717327590356680704, -506128577354733736427520);
  (1077160798753715885441024, -548840824307106577383424); (1054782952637267175276544, -590706826875097992658944); (1030778694565788393668608, -631661985425652979859456); (1005185062142615035576320, -671643213535191333076992);
  (978041542929279885508608, -710588757845622548070400); (949389930330324941668352, -748438666438707068796928); (919274395650895453880320, -785134500605680135700480); (887741416039145885663232, -820619767192816013279232);
  (854839630371051838373888, -854839630371051838373888); (820619767192816013279232, -887741416039145885663232); (785134500605680135700480, -919274395650895453880320); (748438666438707068796928, -949389930330324941668352);
  (710588757845622548070400, -978041542929279885508608); (671643213535191333076992, -1005185062142615035576320); (631661985425652979859456, -1030778694565788393668608); (590706826875097992658944, -1054782952637267175276544);
  (548840824307106577383424, -1077160798753715885441024); (506128577354733736427520, -1097877717327590356680704); (462635874601336097996800, -1116901786844731786919936); (418429837695759991963648, -1134203751921960777416704);
  (373578633121965298155520, -1149756807134295218978816); (328151364112634389463040, -1163536957302920481603584); (282218124692367660285952, -1175523089552783452405760); (235849729461705884303360, -1185696613024622345977856);
  (189117677568333195509760, -1194041963278124969885696); (142093999584689757618176, -1200546097888770459172864); (94851230486373999837184, -1205199072908581579784192); (47462206990159385198592, -1207993754635748576854016);
  (74025360, -1208925819614629174706176); (-47462206990159385198592, -1207993754635748576854016); (-94851230486373999837184, -1205199072908581579784192); (-142093999584689757618176, -1200546097888770459172864);
  (-189117677568333195509760, -1194041963278124969885696); (-235849729461705884303360, -1185696613024622345977856); (-282218124692367660285952, -1175523089552783452405760); (-328151364112634389463040, -1163536957302920481603584);
  (-373578633121965298155520, -1149756807134295218978816); (-418429837695759991963648, -1134203751921960777416704); (-462635874601336097996800, -1116901786844731786919936); (-506128577354733736427520, -1097877717327590356680704);
  (-548840824307106577383424, -1077160798753715885441024); (-590706826875097992658944, -1054782952637267175276544); (-631661985425652979859456, -1030778694565788393668608); (-671643213535191333076992, -1005185062142615035576320);
  (-710588757845622548070400, -978041542929279885508608); (-748438666438707068796928, -949389930330324941668352); (-785134500605680135700480, -919274395650895453880320); (-820619767192816013279232, -887741416039145885663232);
  (-854839630371051838373888, -854839630371051838373888); (-887741416039145885663232, -820619767192816013279232); (-919274395650895453880320, -785134500605680135700480); (-949389930330324941668352, -748438666438707068796928);
  (-978041542929279885508608, -710588757845622548070400); (-1005185062142615035576320, -671643213535191333076992); (-1030778694565788393668608, -631661985425652979859456); (-1054782952637267175276544, -590706826875097992658944);
  (-1077160798753715885441024, -548840824307106577383424); (-1097877717327590356680704, -506128577354733736427520); (-1116901786844731786919936, -462635874601336097996800); (-1134203751921960777416704, -418429837695759991963648);
  (-1149756807134295218978816, -373578633121965298155520); (-1163536957302920481603584, -328151364112634389463040); (-1175523089552783452405760, -282218124692367660285952); (-1185696613024622345977856, -235849729461705884303360);
  (-1194041963278124969885696, -189117677568333195509760); (-1200546097888770459172864, -142093999584689757618176); (-1205199072908581579784192, -94851230486373999837184); (-1207993754635748576854016, -47462206990159385198592)].

(** src/tables.c lines 365-413, fft_twiddles_180. *)
Definition fft_twiddles_180 : @bf2_twiddles Z := mkBf2 90 [
  (1208925819614629174706176, 0); (1208189391003561551200256, -42190901252309177597952); (1205980969861487135817728, -84330398418471548354560); (1202303222319385331892224, -126367150462735088615424);
  (1197160615948086490955776, -168249960464535850582016); (1190559491815865950666752, -209927766611298707570688); (1182507920373255958953984, -251349804328023939350528); (1173015557337857598160896, -292465633298884996366336);
  (1162094076039905012613120, -333225119452829990256640); (1149756807134295218978816, -373578633121965298155520); (1136018666542994068340736, -413476994998360034246656); (1120896515743006435835904, -452871566206038597173248);
  (1104408729420811993088000, -491714428444965764857856); (1086575339587553284063232, -529958203847061599682560); (1067418107636629762998272, -567556307177780581236736); (1046960452286103756472320, -604462909807314587353088);
  (1025227233405918349623296, -640633083825780969963520); (1002244896133085462003712, -676022729985628517171200); (978041542929279885508608, -710588757845622548070400); (952646573292869094735872, -744289085770844912746496);
  (926090899931695360770048, -777082568875099954348032); (898406948763075751182336, -808929287251290660798464); (869628442741020016246784, -839790473913824626868224); (839790473913824626868224, -869628442741020016246784);
  (808929287251290660798464, -898406948763075751182336); (777082568875099954348032, -926090899931695360770048); (744289085770844912746496, -952646573292869094735872); (710588757845622548070400, -978041542929279885508608);
  (676022729985628517171200, -1002244896133085462003712); (640633083825780969963520, -1025227233405918349623296); (604462909807314587353088, -1046960452286103756472320); (567556307177780581236736, -1067418107636629762998272);
  (529958203847061599682560, -1086575339587553284063232); (491714428444965764857856, -1104408729420811993088000); (452871566206038597173248, -1120896515743006435835904); (413476994998360034246656, -1136018666542994068340736);
  (373578633121965298155520, -1149756807134295218978816); (333225119452829990256640, -1162094076039905012613120); (292465633298884996366336, -1173015557337857598160896); (251349804328023939350528, -1182507920373255958953984);
  (209927766611298707570688, -1190559491815865950666752); (168249960464535850582016, -1197160615948086490955776); (126367150462735088615424, -1202303222319385331892224); (84330398418471548354560, -1205980969861487135817728);
  (42190901252309177597952, -1208189391003561551200256); (74025360, -1208925819614629174706176); (-42190901252309177597952, -1208189391003561551200256); (-84330398418471548354560, -1205980969861487135817728);
  (-126367150462735088615424, -1202303222319385331892224); (-168249960464535850582016, -1197160615948086490955776); (-209927766611298707570688, -1190559491815865950666752); (-251349804328023939350528, -1182507920373255958953984);
  (-292465633298884996366336, -1173015557337857598160896); (-333225119452829990256640, -1162094076039905012613120); (-373578633121965298155520, -1149756807134295218978816); (-413476994998360034246656, -1136018666542994068340736);
  (-452871566206038597173248, -1120896515743006435835904); (-491714428444965764857856, -1104408729420811993088000); (-529958203847061599682560, -1086575339587553284063232); (-567556307177780581236736, -1067418107636629762998272);
  (-604462909807314587353088, -1046960452286103756472320); (-640633083825780969963520, -1025227233405918349623296); (-676022729985628517171200, -1002244896133085462003712); (-710588757845622548070400, -978041542929279885508608);
  (-744289085770844912746496, -952646573292869094735872); (-777082568875099954348032, -926090899931695360770048); (-808929287251290660798464, -898406948763075751182336); (-839790473913824626868224, -869628442741020016246784);
  (-869628442741020016246784, -839790473913824626868224); (-898406948763075751182336, -808929287251290660798464); (-926090899931695360770048, -777082568875099954348032); (-952646573292869094735872, -744289085770844912746496);
  (-978041542929279885508608, -710588757845622548070400); (-1002244896133085462003712, -676022729985628517171200); (-1025227233405918349623296, -640633083825780969963520); (-1046960452286103756472320, -604462909807314587353088);
  (-1067418107636629762998272, -567556307177780581236736); (-1086575339587553284063232, -529958203847061599682560); (-1104408729420811993088000, -491714428444965764857856); (-1120896515743006435835904, -452871566206038597173248);
  (-1136018666542994068340736, -413476994998360034246656); (-1149756807134295218978816, -373578633121965298155520); (-1162094076039905012613120, -333225119452829990256640); (-1173015557337857598160896, -292465633298884996366336);
  (-1182507920373255958953984, -251349804328023939350528); (-1190559491815865950666752, -209927766611298707570688); (-1197160615948086490955776, -168249960464535850582016); (-1202303222319385331892224, -126367150462735088615424);
  (-1205980969861487135817728, -84330398418471548354560); (-1208189391003561551200256, -42190901252309177597952)].

(** src/tables.c lines 415-478, fft_twiddles_240. *)
Definition fft_twiddles_240 : @bf2_twiddles Z := mkBf2 120 [
  (1208925819614629174706176, 0); (1208511560506505127002112, -31645988437199176073216); (1207268999354915097673728, -63270287538592935837696); (1205199072908581579784192, -94851230486373999837184);
  (1202303222319385331892224, -126367150462735088615424); (1198583321084771340124160, -157796475225461097496576); (1194041963278124969885696, -189117677568333195509760); (1188682247375989852078080, -220309230285132551684096);
  (1182507920373255958953984, -251349804328023939350528); (1175523089552783452405760, -282218124692367660285952); (1167732654830966911533056, -312893024459915073159168); (1159141948469765143003136, -343353462813207103012864);
  (1149756807134295218978816, -373578633121965298155520); (1139583643950426515046400, -403547746770309716377600); (1128629520562374748143616, -433240267343939548217344); (1116901786844731786919936, -462635874601336097996800);
  (1104408729420811993088000, -491714428444965764857856); (1091158634913929728360448, -520455968921280042762240); (1077160798753715885441024, -548840824307106577383424); (1062424660484989432889344, -576849539052055128178688);
  (1046960452286103756472320, -604462909807314587353088); (1030778694565788393668608, -631661985425652979859456); (1013890484193525185380352, -658428211076605539254272); (996307422441954238005248, -684743140016098555985920);
  (978041542929279885508608, -710588757845622548070400); (959105311619270689423360, -735947410454638223163392); (939511842994041552633856, -760801659905388402704384); (919274395650895453880320, -785134500605680135700480);
  (898406948763075751182336, -808929287251290660798464); (876923769734201954271232, -832169590710779330428928); (854839630371051838373888, -854839630371051838373888); (832169590710779330428928, -876923769734201954271232);
  (808929287251290660798464, -898406948763075751182336); (785134500605680135700480, -919274395650895453880320); (760801659905388402704384, -939511842994041552633856); (735947410454638223163392, -959105311619270689423360);
  (710588757845622548070400, -978041542929279885508608); (684743140016098555985920, -996307422441954238005248); (658428211076605539254272, -1013890484193525185380352); (631661985425652979859456, -1030778694565788393668608);
  (604462909807314587353088, -1046960452286103756472320); (576849539052055128178688, -1062424660484989432889344); (548840824307106577383424, -1077160798753715885441024); (520455968921280042762240, -1091158634913929728360448);
  (491714428444965764857856, -1104408729420811993088000); (462635874601336097996800, -1116901786844731786919936); (433240267343939548217344, -1128629520562374748143616); (403547746770309716377600, -1139583643950426515046400);
  (373578633121965298155520, -1149756807134295218978816); (343353462813207103012864, -1159141948469765143003136); (312893024459915073159168, -1167732654830966911533056); (282218124692367660285952, -1175523089552783452405760);
  (251349804328023939350528, -1182507920373255958953984); (220309230285132551684096, -1188682247375989852078080); (189117677568333195509760, -1194041963278124969885696); (157796475225461097496576, -1198583321084771340124160);
  (126367150462735088615424, -1202303222319385331892224); (94851230486373999837184, -1205199072908581579784192); (63270287538592935837696, -1207268999354915097673728); (31645988437199176073216, -1208511560506505127002112);
  (342460800, -1208925819614629174706176); (-31645988437199176073216, -1208511560506505127002112); (-63270287538592935837696, -1207268999354915097673728); (-94851230486373999837184, -1205199072908581579784192);
  (-126367150462735088615424, -1202303222319385331892224); (-157796475225461097496576, -1198583321084771340124160); (-189117677568333195509760, -1194041963278124969885696); (-220309230285132551684096, -1188682247375989852078080);
  (-251349804328023939350528, -1182507920373255958953984); (-282218124692367660285952, -1175523089552783452405760); (-312893024459915073159168, -1167732654830966911533056); (-343353462813207103012864, -1159141948469765143003136);
  (-373578633121965298155520, -1149756807134295218978816); (-403547746770309716377600, -1139583643950426515046400); (-433240267343939548217344, -1128629520562374748143616); (-462635874601336097996800, -1116901786844731786919936);
  (-491714428444965764857856, -1104408729420811993088000); (-520455968921280042762240, -1091158634913929728360448); (-548840824307106577383424, -1077160798753715885441024); (-576849539052055128178688, -1062424660484989432889344);
  (-604462909807314587353088, -1046960452286103756472320); (-631661985425652979859456, -1030778694565788393668608); (-658428211076605539254272, -1013890484193525185380352); (-684743140016098555985920, -996307422441954238005248);
  (-710588757845622548070400, -978041542929279885508608); (-735947410454638223163392, -959105311619270689423360); (-760801659905388402704384, -939511842994041552633856); (-785134500605680135700480, -919274395650895453880320);
  (-808929287251290660798464, -898406948763075751182336); (-832169590710779330428928, -876923769734201954271232); (-854839630371051838373888, -854839630371051838373888); (-876923769734201954271232, -832169590710779330428928);
  (-898406948763075751182336, -808929287251290660798464); (-919274395650895453880320, -785134500605680135700480); (-939511842994041552633856, -760801659905388402704384); (-959105311619270689423360, -735947410454638223163392);
  (-978041542929279885508608, -710588757845622548070400); (-996307422441954238005248, -684743140016098555985920); (-1013890484193525185380352, -658428211076605539254272); (-1030778694565788393668608, -631661985425652979859456);
  (-1046960452286103756472320, -604462909807314587353088); (-1062424660484989432889344, -576849539052055128178688); (-1077160798753715885441024, -548840824307106577383424); (-1091158634913929728360448, -520455968921280042762240);
  (-1104408729420811993088000, -491714428444965764857856); (-1116901786844731786919936, -462635874601336097996800); (-1128629520562374748143616, -433240267343939548217344); (-1139583643950426515046400, -403547746770309716377600);
  (-1149756807134295218978816, -373578633121965298155520); (-1159141948469765143003136, -343353462813207103012864); (-1167732654830966911533056, -312893024459915073159168); (-1175523089552783452405760, -282218124692367660285952);
  (-1182507920373255958953984, -251349804328023939350528); (-1188682247375989852078080, -220309230285132551684096); (-1194041963278124969885696, -189117677568333195509760); (-1198583321084771340124160, -157796475225461097496576);
  (-1202303222319385331892224, -126367150462735088615424); (-1205199072908581579784192, -94851230486373999837184); (-1207268999354915097673728, -63270287538592935837696); (-1208511560506505127002112, -31645988437199176073216)].

(** src/tables.c lines 482-605, fft_twiddles_480. *)
Definition fft_twiddles_480 : @bf2_twiddles Z := mkBf2 240 [
  (1208925819614629174706176, 0); (1208822272851996672262144, -15824350927987333398528); (1208511560506505127002112, -31645988437199176073216); (1207993754635748576854016, -47462206990159385198592);
  (1207268999354915097673728, -63270287538592935837696); (1206337438779192765317120, -79067527922723405692928); (1205199072908581579784192, -94851230486373999837184); (1203854262031051730714624, -110618666048170531749888);
  (1202303222319385331892224, -126367150462735088615424); (1200546097888770459172864, -142093999584689757618176); (1198583321084771340124160, -157796475225461097496576); (1196415108080170088529920, -173471938275667469139968);
  (1194041963278124969885696, -189117677568333195509760); (1191464174909012135903232, -204730990943681854308352); (1188682247375989852078080, -220309230285132551684096); (1185696613024622345977856, -235849729461705884303360);
  (1182507920373255958953984, -251349804328023939350528); (1179116529709860880646144, -266806824781904332455936); (1175523089552783452405760, -282218124692367660285952); (1171728248420370015584256, -297581073957231538470912);
  (1167732654830966911533056, -312893024459915073159168); (1163536957302920481603584, -328151364112634389463040); (1159141948469765143003136, -343353462813207103012864); (1154548276849847237083136, -358496762517044867366912);
  (1149756807134295218978816, -373578633121965298155520); (1144768259899049467969536, -388596480554583029972992); (1139583643950426515046400, -403547746770309716377600); (1134203751921960777416704, -418429837695759991963648);
  (1128629520562374748143616, -433240267343939548217344); (1122861814562796882362368, -447976441641463019732992); (1116901786844731786919936, -462635874601336097996800); (1110750446214495992807424, -477216044207767455531008);
  (1104408729420811993088000, -491714428444965764857856); (1097877717327590356680704, -506128577354733736427520); (1091158634913929728360448, -520455968921280042762240); (1084252635101334714974208, -534694225244001432240128);
  (1077160798753715885441024, -548840824307106577383424); (1069884422907765922463744, -562893424238789245534208); (1062424660484989432889344, -576849539052055128178688); (1054782952637267175276544, -590706826875097992658944);
  (1046960452286103756472320, -604462909807314587353088); (1038958600583379935035392, -618115445976898679603200); (1030778694565788393668608, -631661985425652979859456); (1022422175385209890930688, -645100366425756350283776);
  (1013890484193525185380352, -658428211076605539254272); (1005185062142615035576320, -671643213535191333076992); (996307422441954238005248, -684743140016098555985920); (987259078301017589153792, -697725756733912032215040);
  (978041542929279885508608, -710588757845622548070400); (968656401593809961484288, -723330053681003003641856); (959105311619270689423360, -735947410454638223163392); (949389930330324941668352, -748438666438707068796928);
  (939511842994041552633856, -760801659905388402704384); (929472706935083394662400, -773034301184455124975616); (919274395650895453880320, -785134500605680135700480); (908918566466140602630144, -797100168498836334968832);
  (898406948763075751182336, -808929287251290660798464); (887741416039145885663232, -820619767192816013279232); (876923769734201954271232, -832169590710779330428928); (865955883345688943132672, -843576884307735626121216);
  (854839630371051838373888, -854839630371051838373888); (843576884307735626121216, -865955883345688943132672); (832169590710779330428928, -876923769734201954271232); (820619767192816013279232, -887741416039145885663232);
  (808929287251290660798464, -898406948763075751182336); (797100168498836334968832, -908918566466140602630144); (785134500605680135700480, -919274395650895453880320); (773034301184455124975616, -929472706935083394662400);
  (760801659905388402704384, -939511842994041552633856); (748438666438707068796928, -949389930330324941668352); (735947410454638223163392, -959105311619270689423360); (723330053681003003641856, -968656401593809961484288);
  (710588757845622548070400, -978041542929279885508608); (697725756733912032215040, -987259078301017589153792); (684743140016098555985920, -996307422441954238005248); (671643213535191333076992, -1005185062142615035576320);
  (658428211076605539254272, -1013890484193525185380352); (645100366425756350283776, -1022422175385209890930688); (631661985425652979859456, -1030778694565788393668608); (618115445976898679603200, -1038958600583379935035392);
  (604462909807314587353088, -1046960452286103756472320); (590706826875097992658944, -1054782952637267175276544); (576849539052055128178688, -1062424660484989432889344); (562893424238789245534208, -1069884422907765922463744);
  (548840824307106577383424, -1077160798753715885441024); (534694225244001432240128, -1084252635101334714974208); (520455968921280042762240, -1091158634913929728360448); (506128577354733736427520, -1097877717327590356680704);
  (491714428444965764857856, -1104408729420811993088000); (477216044207767455531008, -1110750446214495992807424); (462635874601336097996800, -1116901786844731786919936); (447976441641463019732992, -1122861814562796882362368);
  (433240267343939548217344, -1128629520562374748143616); (418429837695759991963648, -1134203751921960777416704); (403547746770309716377600, -1139583643950426515046400); (388596480554583029972992, -1144768259899049467969536);
  (373578633121965298155520, -1149756807134295218978816); (358496762517044867366912, -1154548276849847237083136); (343353462813207103012864, -1159141948469765143003136); (328151364112634389463040, -1163536957302920481603584);
  (312893024459915073159168, -1167732654830966911533056); (297581073957231538470912, -1171728248420370015584256); (282218124692367660285952, -1175523089552783452405760); (266806824781904332455936, -1179116529709860880646144);
  (251349804328023939350528, -1182507920373255958953984); (235849729461705884303360, -1185696613024622345977856); (220309230285132551684096, -1188682247375989852078080); (204730990943681854308352, -1191464174909012135903232);
  (189117677568333195509760, -1194041963278124969885696); (173471938275667469139968, -1196415108080170088529920); (157796475225461097496576, -1198583321084771340124160); (142093999584689757618176, -1200546097888770459172864);
  (126367150462735088615424, -1202303222319385331892224); (110618666048170531749888, -1203854262031051730714624); (94851230486373999837184, -1205199072908581579784192); (79067527922723405692928, -1206337438779192765317120);
  (63270287538592935837696, -1207268999354915097673728); (47462206990159385198592, -1207993754635748576854016); (31645988437199176073216, -1208511560506505127002112); (15824350927987333398528, -1208822272851996672262144);
  (342460800, -1208925819614629174706176); (-15824350927987333398528, -1208822272851996672262144); (-31645988437199176073216, -1208511560506505127002112); (-47462206990159385198592, -1207993754635748576854016);
  (-63270287538592935837696, -1207268999354915097673728); (-79067527922723405692928, -1206337438779192765317120); (-94851230486373999837184, -1205199072908581579784192); (-110618666048170531749888, -1203854262031051730714624);
  (-126367150462735088615424, -1202303222319385331892224); (-142093999584689757618176, -1200546097888770459172864); (-157796475225461097496576, -1198583321084771340124160); (-173471938275667469139968, -1196415108080170088529920);
  (-189117677568333195509760, -1194041963278124969885696); (-204730990943681854308352, -1191464174909012135903232); (-220309230285132551684096, -1188682247375989852078080); (-235849729461705884303360, -1185696613024622345977856);
  (-251349804328023939350528, -1182507920373255958953984); (-266806824781904332455936, -1179116529709860880646144); (-282218124692367660285952, -1175523089552783452405760); (-297581073957231538470912, -1171728248420370015584256);
  (-312893024459915073159168, -1167732654830966911533056); (-328151364112634389463040, -1163536957302920481603584); (-343353462813207103012864, -1159141948469765143003136); (-358496762517044867366912, -1154548276849847237083136);
  (-373578633121965298155520, -1149756807134295218978816); (-388596480554583029972992, -1144768259899049467969536); (-403547746770309716377600, -1139583643950426515046400); (-418429837695759991963648, -1134203751921960777416704);
  (-433240267343939548217344, -1128629520562374748143616); (-447976441641463019732992, -1122861814562796882362368); (-462635874601336097996800, -1116901786844731786919936); (-477216044207767455531008, -1110750446214495992807424);
  (-491714428444965764857856, -1104408729420811993088000); (-506128577354733736427520, -1097877717327590356680704); (-520455968921280042762240, -1091158634913929728360448); (-534694225244001432240128, -1084252635101334714974208);
  (-548840824307106577383424, -1077160798753715885441024); (-562893424238789245534208, -1069884422907765922463744); (-576849539052055128178688, -1062424660484989432889344); (-590706826875097992658944, -1054782952637267175276544);
  (-604462909807314587353088, -1046960452286103756472320); (-618115445976898679603200, -1038958600583379935035392); (-631661985425652979859456, -1030778694565788393668608); (-645100366425756350283776, -1022422175385209890930688);
  (-658428211076605539254272, -1013890484193525185380352); (-671643213535191333076992, -1005185062142615035576320); (-684743140016098555985920, -996307422441954238005248); (-697725756733912032215040, -987259078301017589153792);
  (-710588757845622548070400, -978041542929279885508608); (-723330053681003003641856, -968656401593809961484288); (-735947410454638223163392, -959105311619270689423360); (-748438666438707068796928, -949389930330324941668352);
  (-760801659905388402704384, -939511842994041552633856); (-773034301184455124975616, -929472706935083394662400); (-785134500605680135700480, -919274395650895453880320); (-797100168498836334968832, -908918566466140602630144);
  (-808929287251290660798464, -898406948763075751182336); (-820619767192816013279232, -887741416039145885663232); (-832169590710779330428928, -876923769734201954271232); (-843576884307735626121216, -865955883345688943132672);
  (-854839630371051838373888, -854839630371051838373888); (-865955883345688943132672, -843576884307735626121216); (-876923769734201954271232, -832169590710779330428928); (-887741416039145885663232, -820619767192816013279232);
  (-898406948763075751182336, -808929287251290660798464); (-908918566466140602630144, -797100168498836334968832); (-919274395650895453880320, -785134500605680135700480); (-929472706935083394662400, -773034301184455124975616);
  (-939511842994041552633856, -760801659905388402704384); (-949389930330324941668352, -748438666438707068796928); (-959105311619270689423360, -735947410454638223163392); (-968656401593809961484288, -723330053681003003641856);
  (-978041542929279885508608, -710588757845622548070400); (-987259078301017589153792, -697725756733912032215040); (-996307422441954238005248, -684743140016098555985920); (-1005185062142615035576320, -671643213535191333076992);
  (-1013890484193525185380352, -658428211076605539254272); (-1022422175385209890930688, -645100366425756350283776); (-1030778694565788393668608, -631661985425652979859456); (-1038958600583379935035392, -618115445976898679603200);
  (-1046960452286103756472320, -604462909807314587353088); (-1054782952637267175276544, -590706826875097992658944); (-1062424660484989432889344, -576849539052055128178688); (-1069884422907765922463744, -562893424238789245534208);
  (-1077160798753715885441024, -548840824307106577383424); (-1084252635101334714974208, -534694225244001432240128); (-1091158634913929728360448, -520455968921280042762240); (-1097877717327590356680704, -506128577354733736427520);
  (-1104408729420811993088000, -491714428444965764857856); (-1110750446214495992807424, -477216044207767455531008); (-1116901786844731786919936, -462635874601336097996800); (-1122861814562796882362368, -447976441641463019732992);
  (-1128629520562374748143616, -433240267343939548217344); (-1134203751921960777416704, -418429837695759991963648); (-1139583643950426515046400, -403547746770309716377600); (-1144768259899049467969536, -388596480554583029972992);
  (-1149756807134295218978816, -373578633121965298155520); (-1154548276849847237083136, -358496762517044867366912); (-1159141948469765143003136, -343353462813207103012864); (-1163536957302920481603584, -328151364112634389463040);
  (-1167732654830966911533056, -312893024459915073159168); (-1171728248420370015584256, -297581073957231538470912); (-1175523089552783452405760, -282218124692367660285952); (-1179116529709860880646144, -266806824781904332455936);
  (-1182507920373255958953984, -251349804328023939350528); (-1185696613024622345977856, -235849729461705884303360); (-1188682247375989852078080, -220309230285132551684096); (-1191464174909012135903232, -204730990943681854308352);
  (-1194041963278124969885696, -189117677568333195509760); (-1196415108080170088529920, -173471938275667469139968); (-1198583321084771340124160, -157796475225461097496576); (-1200546097888770459172864, -142093999584689757618176);
  (-1202303222319385331892224, -126367150462735088615424); (-1203854262031051730714624, -110618666048170531749888); (-1205199072908581579784192, -94851230486373999837184); (-1206337438779192765317120, -79067527922723405692928);
  (-1207268999354915097673728, -63270287538592935837696); (-1207993754635748576854016, -47462206990159385198592); (-1208511560506505127002112, -31645988437199176073216); (-1208822272851996672262144, -15824350927987333398528)].

(** src/tables.c lines 627-635, mdct_rot_40. *)
Definition mdct_rot_40 : @mdct_rot Z := mkRot 10 [
  (679697883454344955691008, 13347552402818562260992); (669241678041095270825984, 119511401814782275223552); (642306477332123770421248, 222732473129432539725824); (599555607509346600091648, 320469159897062816350208);
  (542041649877672792162304, 410314819541599604703232); (471180860419120801251328, 490057139810890441293824); (388718005686927995437056, 557732659353792846757888); (296683632652286164992000, 611674938221788680683520);
  (197343934633289634021376, 650555774812773836390400); (93144960702751394758656, 673417703845969346428928)].

(** src/tables.c lines 637-650, mdct_rot_80. *)
Definition mdct_rot_80 : @mdct_rot Z := mkRot 20 [
  (571638189736044103991296, 5612224851942433619968); (569435677316680798699520, 50445139181750469001216); (563722410829398587473920, 94967045054391459512320); (554533626437682017075200, 138903433435878384467968);
  (541925925381647879897088, 181983453341021554868224); (525977093834060119146496, 223941473456599404118016); (506785454381983487492096, 264518834041613535150080); (484469289566031243640832, 303465333115165752688640);
  (459166229390815829950464, 340540874773921680850944); (431032242518632341438464, 375516874315194502742016); (400240771578330070646784, 408177663360028700049408); (366981724358995976650752, 438321912990682302119936);
  (331460104715667964428288, 465763786672131492806656); (293894913691025806458880, 490334057144778198351872); (254517780421104422092800, 511881259345954694234112); (213571430911420571582464, 530272519072255041339392);
  (171308372985881663897600, 545394489728257579024384); (127989121868532572749824, 557153928787277228539904); (83880786053272642256896, 565478310280914815418368); (39255288382002875596800, 570316329202215334969344)].

(** src/tables.c lines 654-672, mdct_rot_120. *)
Definition mdct_rot_120 : @mdct_rot Z := mkRot 30 [
  (516547240761489660837888, 3380842107167869763584); (515662373506703905783808, 30410200699448711970816); (513364132573661213229056, 57356210047525901565952); (509658786973042882904064, 84145003236211214516224);
  (504556532854405281611776, 110703171591578511736832); (498071277333397729443840, 136957896411252839677952); (490220854664544613564416, 162837246201985836777472); (481026810068463274426368, 188270262248048653500416);
  (470514255616675929915392, 213187237834408849309696); (458712086404391789133824, 237519898390715487485952); (445652584233739843796992, 261201518584889446760448); (431371633786550982017024, 284167210553499573026816);
  (415908290278793760735232, 306354013973755226750976); (399304959604559500541952, 327701112236288396754944); (381607182163280171892736, 348150012589138795036672); (362863452715743300288512, 367644654224144913661952);
  (343125112297700909383680, 386131642464124648030208); (322446312191072502022144, 403560248762875296874496); (300883689664771889561600, 419882698935549713973248); (278496367974707191873536, 435054281245047365042176);
  (255345722176600214077440, 449033454488405384626176); (231495180967602842238976, 461781811968001557135360); (207010136614304495960064, 473264477808321525448704); (181957692751152995631104, 483449962840770715058176);
  (156406502250867977093120, 492310344747659428888576); (130426614102053561040896, 499821340119796885225472); (104089248229216984498176, 505962340485288236679168); (77466570312787232292864, 510716556424722646040576);
  (50631565688325470683136, 514070909484782229389312); (23657784893146100924416, 516016248351024169877504)].

(** src/tables.c lines 674-697, mdct_rot_160. *)
Definition mdct_rot_160 : @mdct_rot Z := mkRot 40 [
  (480705865544618343399424, 2359678335471839084544); (480242607272548504698880, 21230281643598620393472); (479038885164144918528000, 40068152085946231160832); (477096464630461514121216, 58844239896805759778816);
  (474418444148041922379776, 77529593685972655013888); (471008894970949286232064, 96095403926630627803136); (466873077303548374417408, 114513036732348856532992); (462017368242911543558144, 132754101411076397596672);
  (456449261778818738159616, 150790468479540694876160); (450177368793757490610176, 168594323706443108188160); (443211308976531864289280, 186138222155654441730048); (435561854937450529423360, 203395115207812708302848);
  (427240788093138687229952, 220338377581920893534208); (418260970724132107845632, 236941906414538758029312); (408636201859689054470144, 253180085230985818406912); (398381361392978359222272, 269027874017333894709248);
  (387512229937094328320000, 284460845249204129366016); (376045596911447798972416, 299455201906165496676352); (363999116426578063523840, 313987795486133312290816); (351391379341746907381760, 328036252106158799585280);
  (338241841207344571088896, 341578936473632070696960); (324570750207295712395264, 354594879828688088596480); (310399183187856425222144, 367064086188981328281600); (295749009628817220698112, 378967316176903662993408);
  (280642801571510479749120, 390286195105975421108224); (265103869647607472062464, 401003285038439424065536); (249156173007125808676864, 411102048756463967404032); (232824283289632423018496, 420566957848533877653504);
  (216133402638642080382976, 429383348594262436478976); (199109255615226321043456, 437537638137173494464512); (181778107212411969732608, 445017324484701471113216); (164166672783188588232704, 451810806364206260027392);
  (146302100026109965893632, 457907635424552361656320); (128211923949297845927936, 463298408149717826404352); (109924075877641180151808, 467974801887591273594880); (91466721323209543647232, 471929610878768910434304);
  (72868336546446800060416, 475156710227757513048064); (54157595966180417339392, 477651200018162502336512); (35363342886223889825792, 479409153111108811227136); (16514564725578787717120, 480427903375617036386304)].

(** src/tables.c lines 699-732, mdct_rot_240. *)
Definition mdct_rot_240 : @mdct_rot Z := mkRot 60 [
  (434369698072890030686208, 1421476639148995510272); (434183645365084100755456, 12791462557529642369024); (433699994793901528449024, 24152680952598217359360); (432919142676109522370560, 35497347493136298934272);
  (431841593414866348015616, 46817687840287138775040); (430468067586112384663552, 58105937788293150146560); (428799501938570125377536, 69354366908393951592448); (426837085422541195968512, 80555265038027484823552);
  (424582151103515298103296, 91700953539829083144192); (422036176162170209304576, 102783789805231098822656); (419200998067153896734720, 113796189772461039943680); (416078526344708365484032, 124730596401344178814976);
  (412670850665060715462656, 135579515702100570931200); (408980384957611217256448, 146335525742544309714944); (405009615209354179379200, 156991231612087252811776); (400761279608863043092480, 167539364500930824241152);
  (396238296488696344477696, 177972655599276448022528); (391443728296600695472128, 188283971205314369290240); (386380889681901840760832, 198466249674828871106560); (381053239409113600884736, 208512519435596783943680);
  (375464452415531910168576, 218415880972988976201728); (369618311724843759828992, 228169560873165882654720); (363518888591112292794368, 237766839765483466522624); (357170290297197670957056, 247201178423282785845248);
  (350576948385133226885120, 256466091663100427108352); (343743294396952293146624, 265555238416661052653568); (336674084133861372985344, 274462403716478891196416); (329374109425863988609024, 283181444652662209380352);
  (321848450333339813937152, 291706416473702878150656); (314102150887871503925248, 300031464500085315862528); (306140615409011903168512, 308150878167482016727040); (297969266230712365744128, 316059127055550569775104);
  (289593687816510831067136, 323750734787144092483584); (281019662788328842854400, 331220477186694835077120); (272253009796884963786752, 338463202136229085708288); (263299781680078379810816, 345473973690555246313472);
  (254166103333402314801152, 352247963990872775720960); (244858225753139559006208, 358780561351163246542848); (235382544050760978530304, 365067262171799288283136); (225745543409729986887680, 371103779025935644229632);
  (215953817099901054484480, 376885932573118114562048); (206014084491918218100736, 382409795674471632207872); (195933173042816571408384, 387671549277512186986496); (185717964252826736525312, 392667662560131920429056);
  (175375483737367411425280, 397394640729019993030656); (164912811155052822528000, 401849241192444698034176); (154337116236489743663104, 406028473560253461430272); (143655640769878986588160, 409929383471090728173568);
  (132875707608214655729664, 413549376851571132858368); (122004720669284148183040, 416885967714700366970880); (111050110892472625266688, 419936814188672197853184); (100019390281958540967936, 422699862632056544559104);
  (88920124885115877720064, 425173203518611401998336); (77759916778115636920320, 427355179523673897828352); (66546413073125093670912, 429244241408972216598528); (55287305918307796779008, 430839128166610694569984);
  (43990305476225804533760, 432138758932678762823680); (32663160190038007873536, 433142196958453928296448); (21313625258302738792448, 433848793725589849636864); (9949484027076000350208, 434258044830928261349376)].

(** src/tables.c lines 734-777, mdct_rot_320. *)
Definition mdct_rot_320 : @mdct_rot Z := mkRot 80 [
  (404227502083666509561856, 992125546461164208128); (404130080216527230992384, 8928412719909819121664); (403876905859874971189248, 16861257454393302712320); (403468015042506749116416, 24787602931664537255936);
  (402903551879610640629760, 32704390644626584764416); (402183768572765778477056, 40608570530431808569344); (401308953352348314370048, 48497098155732106215424); (400279430477531418984448, 56366922331779934191616);
  (399095596265082300923904, 64215021143225326895104); (397757883060565187756032, 72038363667519063982080); (396266831295935363940352, 79833932492910807220224); (394623017431945132900352, 87598723718449100488704);
  (392827053958143817023488, 95329746953981369778176); (390879661450471795589120, 103024020816554295820288); (388781560484869447876608, 110678563923214559346688); (386533615752465229021184, 118290448934204369534976);
  (384136619886793556230144, 125856730495367426080768); (381591545665373941530624, 133374490274145192902656); (378899329836928877985792, 140840836959576898142208); (376061089294165953478656, 148252879240701769940992);
  (373077832843401699000320, 155607761835356055404544); (369950749434937740361728, 162902674497372275343360); (366681064047872722337792, 170134770951785931603968); (363270037690102308667392, 177301276981226563960832);
  (359718895340725144125440, 184399436382722221670400); (356029150209216025198592, 191426492953300953989120); (352202099332267634589696, 198379762547584848101376); (348239291948151787749376, 205256543005797481709568);
  (344142205237546262200320, 212054204225756470444032); (339912460496316911321088, 218770116105279429935104); (335551679020329588490240, 225401684570980994777088); (331061518134247166050304, 231946351578272818528256);
  (326443743249123573235712, 238401613125762083192832); (321700119776012739280896, 244764947197657461293056); (316832485183562631348224, 251033921850160172761088); (311842676940421216600064, 257206123153869947011072);
  (306732676630424538054656, 263279173208183532421120); (301504393779814600802304, 269250730141294696333312); (296159882030021485789184, 275118470095795715571712); (290701213036873783443456, 280880141271872904888320);
  (285130458456200084193280, 286533545912908107481088); (279449798030220035358720, 292076468247884657065984); (273661375472356265295872, 297506800592176944250880); (267767478611219478216704, 302822435261159359643648);
  (261770341232224849887232, 308021318613401822298112); (255672287192780103483392, 313101487079466798678016); (249475658364691471663104, 318060923046721226801152); (243182868677359225012224, 322897716988923101577216);
  (236796314045785124634624, 327610067466221474807808); (230318480456963479044096, 332196100981171360366592); (223751835883490087272448, 336654088151515847983104); (217098938369953295761408, 340982263566201008422912);
  (210362345960941450952704, 345178969900563969343488); (203544670744238427734016, 349242621887535896330240); (196648524807628100993024, 353171634260047954968576); (189676538253292855099392, 356964493808625348771840);
  (182631449269806131314688, 360619759381387319181312); (175515942002545842454528, 364135953797656088674304); (168332790668882448744448, 367511816049535993511936); (161084715442990881964032, 370745977042740313063424);
  (153774562599835640266752, 373837175769373383589888); (146405115363986438619136, 376784295336727617208320); (138979220010407775174656, 379586110765704369143808); (131499758842861167050752, 382241649278784127369216);
  (123969596150709621882880, 384749757954462285037568); (116391641259312421011456, 387109608130407405977600); (108768812501228100517888, 389320191000302959198208); (101104055230612960706560, 391380641873020489564160);
  (93400323808822556622848, 393290276201416636760064); (85660581604411698053120, 395048229294362945650688); (77887810000333704265728, 396653924691107112812544); (70085012897540031381504, 398106677844505777930240);
  (62255198700581762891776, 399405984351400675508224); (54401384821209237028864, 400551303779836521086976); (46526597678372046766080, 401542167755452068134912); (38633872698219039817728, 402378288047871164940288);
  (30726256565898132324352, 403059232311529583935488); (22806793714757426741248, 403584820402442230300672); (14878536459444373422080, 403954800119029971288064); (6944543870005863776256, 404169063374901750005760)].

(** src/tables.c lines 779-827, mdct_rot_360. *)
Definition mdct_rot_360 : @mdct_rot Z := mkRot 90 [
  (392498471329330865635328, 856300218661902221312); (392423747604313534365696, 7706212905185085227008); (392229516359584299614208, 14553778512614966427648); (391915777595143161380864, 21396910326211701374976);
  (391482639397381176557568, 28233525431147631214592); (390930281910283439964160, 35061540912595097092096); (390258849249038027456512, 41878873855726440153088); (389468521557630033854464, 48683452604713069969408);
  (388559551037638591905792, 55473201000126768742400); (387532225919439853322240, 62246047386138946043904); (386386870462206988779520, 68999938121319520927744); (385123808925113168953344, 75732810557039157706752);
  (383743437624925602447360, 82442615555467402805248); (382246152878411497865216, 89127299475174175277056); (380632459088729120702464, 95784844703526413139968); (378902788601442698526720, 102413206606293290188800);
  (377057753906101553725440, 109010376578040999182336); (375097823377066932830208, 115574337006136478138368); (373023645532685177192448, 122103088292345174556672); (370835832862505609199616, 128594657860030300160000);
  (368535069913671589167104, 135047046110957302448128); (366122041233326477410304, 141458307490087157366784); (363597467397410653208576, 147826469420783076638720); (360962177068255552733184, 154149604362404545691648);
  (358216926850598574227456, 160425784774311049953280); (355362545406771153862656, 166653092123061329592320); (352399933456698765737984, 172829652911210398482432); (349329955691509864988672, 178953557612516251533312);
  (346153584888723963641856, 185022950743932412100608); (342871757797063554760704, 191035976822412403539968); (339485519251642188300288, 196990816393706768171008); (335995842029979376287744, 202885650003566048313344);
  (332403843024782706606080, 208718694226537805250560); (328710567071165729210368, 214488147622771090784256); (324917167090633050947584, 220192280810008994643968); (321024796004689278664704, 225829328377197587595264);
  (317034642763636038172672, 231397596970876978331648); (312947896317774955282432, 236895357208790256582656); (308765853703798712696832, 242320969780673059487744); (304489739900805955190784, 247672777361862514704384);
  (300120869959887874949120, 252949140642094259372032); (295660594960932683120640, 258148438325502440112128); (291110247969430081372160, 263269103159416731992064); (286471234108463809298432, 268309585905565319561216);
  (281744958501117606494208, 273268337325676387368960); (276932844284873722036224, 278143844210275138928640); (272036386654808442929152, 282934611364285287235584); (267057062791599546695680, 287639215650224583213056);
  (261996403919120339304448, 292256197901813758820352); (256855923246845617242112, 296784152995969074462720); (251637206041844214923264, 301221711838403809509376); (246341837571184966762496, 305567505334831243329536);
  (240971421116335216656384, 309820236448558693220352); (235527614001957836947456, 313978572114096457515008); (230012055538317190496256, 318041251323548872474624); (224426457093271678091264, 322007085126614312288256);
  (218772457977085662593024, 325874812515397113217024); (213051841615211582717952, 329643316597189687377920); (207266337389906348736512, 333311372392893389996032); (201417674683426870919168, 336877899038597652152320);
  (195507672950022606946304, 340341815670391904927744); (189538115615145995534336, 343702041424365579403264); (183510822133046494363648, 346957603522999163551744); (177427629972372070596608, 350107457131179107418112);
  (171290376601770691395584, 353150701528979936903168); (165100953533085852368896, 356086327910085121015808); (158861252278161049124864, 358913507612163223584768); (152573146334441267789824, 361631339915288770510848);
  (146238572249766277677056, 364239032185927344586752); (139859457564776593358848, 366735791790544528605184); (133437729820112729407488, 369120826095605905358848); (126975361592411474100224, 371393414525171095568384);
  (120474316451110360973312, 373552872532096738918400); (113936566972846178304000, 375598515569239475093504); (107364121763052733333504, 377529803204644019634176); (100758962405566069080064, 379346050891167012225024);
  (94123115520218502266880, 381046754225650187370496); (87458598719643094876160, 382631408804935279575040); (80767438623672163631104, 384099474197067004379136); (74051675362936907366400, 385450590114075172143104);
  (67313358075267779657728, 386684252152801517371392); (60554531394895606710272, 387800136054072869388288); (53777266977648978952192, 388797881529919038554112); (46983613961358349959168, 389677236378760892121088);
  (40175653009051564900352, 390437840312628240449536); (33355455776557214203904, 391079549216333007683584); (26525096171503701983232, 391602110888296061075456); (19686657108718687092736, 392005417242126343733248);
  (12842220377129921544192, 392289288133838760837120); (5993873395164691562496, 392453651505839274459136)].

(** src/tables.c lines 829-892, mdct_rot_480. *)
Definition mdct_rot_480 : @mdct_rot Z := mkRot 120 [
  (365261385330137466142720, 597658069849549570048); (365222258056574871273472, 5378730662711829463040); (365120584791387354955776, 10158881143550405246976); (364956329505777898225664, 14937291546082955755520);
  (364729528228543520047104, 19713142778127252979712); (364440253017278258348032, 24485616310451022331904); (364088503871982113128448, 29253894739721896067072); (363674388879046141280256, 34017158410807692754944);
  (363197980096064380731392, 38774596675775485706240); (362659313551833850445824, 43525389879493093490688); (362058497332745607315456, 48268725122227775733760); (361395675553987727196160, 53003787252446978375680);
  (360670920273154248015872, 57729770125817402097664); (359884339576636226666496, 62445858590806492839936); (359036149637215776931840, 67151251006680578654208); (358126386483689917775872, 71845136725506732851200);
  (357155302317637781946368, 76526714106551283482624); (356122969196653407371264, 81195172501881303859200); (355029675351112945762304, 85849723781562004144128); (353875492838610435047424, 90489557297660457648128);
  (352660709889522026938368, 95113898431040756645888); (351385506647832816254976, 99721936533769974448128); (350050063257527897817088, 104312887979512948588544); (348654667948983423336448, 108885960134735261859840);
  (347199536894981506596864, 113440378380301006536704); (345684886268304261382144, 117975368097074274893824); (344111040328124858368000, 122490127644321394982912); (342478215247225411338240, 126983909424504223301632);
  (340786699255982072004608, 131455929811287597383680); (339036780584770992078848, 135905432199934118985728); (337228819521562361200640, 140331650978507135123456); (335363032239138293153792, 144733811527870738071552);
  (333439779025468977577984, 149111175257686039068672); (331459420168524604112896, 153462985563215639871488); (329422243898681324470272, 157788512861319906459648); (327328646532706347253760, 162087000547261440589824);
  (325178952329772843139072, 166357728045099862982656); (322973521577851001765888, 170599920735699265912832); (320712786622505050701824, 174812894071916289064960); (318397071722908160622592, 178995927477810553159680);
  (316026809224624559095808, 183148282363043169435648); (313602395444421454725120, 187269238151673758613504); (311124262727863075078144, 191358128310957469859840); (308592807391716628758528, 195414232264953923895296);
  (306008461781546343333888, 199436847452121250922496); (303371694271713465335808, 203425289325316090626048); (300682955222180731813888, 207378873337395082690560); (297942694992910879817728, 211296932955613376282624);
  (295151363943866646396928, 215178765618429101604864); (292309484492604806529024, 219023758836292936269824); (289417506999088097263616, 222831210047663010480128); (286475953880873293578240, 226600470734192982884352);
  (283485293512321642004480, 230330910391935021613056); (280446066325388427001856, 234021880502542785314816); (277358776723231914065920, 237672768576466951602176); (274223983152205897138176, 241282908080962669641728);
  (271042190015468641714176, 244851704540879126528000); (267813973773772451217408, 248378581495464018837504); (264539838830275591143424, 251862872411972495736832); (261220397674527383879680, 255304018844050763284480);
  (257856190738483113885696, 258701408302149499092992); (254447812497293594066944, 262054482339914909220864); (250995821397312618364928, 265362646482196180762624); (247500811913690999685120, 268625342282639519776768);
  (243963432564775079378944, 271842029309289641803776); (240384223782520141905920, 275012113086995733938176); (236763834085272528617472, 278135089212599530684416); (233102875962581561901056, 281210399239747238100992);
  (229401961903996564144128, 284237520750882081210368); (225661758442262386180096, 287215949342845794516992); (221882878066928350396416, 290145162598081603043328); (218065987310739307626496, 293024674127829750775808);
  (214211734692041599221760, 295853961514533462736896); (210320786743580076015616, 298632556383831492395008); (206393773969302569877504, 301359990361362593218560); (202431416945149460086784, 304035777058367009193984);
  (198434364189467087994880, 306659502143679022235648); (194403318263797323399168, 309230625185343347884032); (190338963715283526615040, 311748785895389796499456); (186241985091069057957888, 314213551928254140514304);
  (182113102967094296707072, 316624454909575133396992); (177953019904901112659968, 318981134551382585507840); (173762438466031375613952, 321283122479315250315264); (169542079226425464848384, 323530094434199957143552);
  (165292680776422269124608, 325721618070472478425088); (161014963691962167721984, 327857333100162624520192); (156709648548985539919872, 329936843206503186825216); (152377473937831274479616, 331959860159118013628416);
  (148019196463236769644544, 333925987641239896326144); (143635563722740168916992, 335834865364898645278720); (139227323313879615799296, 337686241128515127738368); (134795213826993999052800, 339479718615322135101440);
  (130340009881219226402816, 341215045623740534620160); (125862477088491950833664, 342891933923394174582784); (121363372053549570588672, 344510023226312865349632); (116843487409926502875136, 346069133388511512100864);
  (112303570755160891195392, 347568904122019925196800); (107744414722787152756736, 349009119254055990853632); (103166793931941195284480, 350389562611837595287552); (98571492008958181244928, 351709945964988586786816);
  (93959310594571782586368, 352970089169523870531584); (89331024307917907034112, 354169740023864313774080); (84687434789730226536448, 355308718384024821694464); (80029325666343903559680, 356386772048426261544960);
  (75357516592891119534080, 357403792930677576433664); (70672786692107409555456, 358359600886793671540736); (65975951115525327683584, 359253943715195414118400); (61267807000278918496256, 360086785387085785202688);
  (56549169497900736053248, 360857909729682671009792); (51820840249124452302848, 361567172627797995683840); (47083634405482621304832, 362214538052634740260864); (42338358111308542377984, 362799825860207809921024);
  (37585826518134769582080, 363322927964126147772416); (32826857029293670662144, 363783772306795715887104); (28062262544517985992704, 364182286830622476337152); (23292858215340269633536, 364518435506809410158592);
  (18519464822792609857536, 364792074220168441495552); (13742897518407560724480, 365003238999496589312000); (8963974831417396822016, 365151857787199815680000); (4183516979904253001728, 365237894554481101635584)].

(** src/tables.c lines 894-977, mdct_rot_640. *)
Definition mdct_rot_640 : @mdct_rot Z := mkRot 160 [
  (339914225907370840555520, 417137717526495494144); (339893725521867050057728, 3754164057629073080320); (339840510988670040276992, 7090828667202205384704); (339754510250185773285376, 10426809292581930795008);
  (339635759335211268046848, 13761785615244752584704); (339484294272543543525376, 17095435627817313763328); (339300115062182599720960, 20427436197026350497792); (339083221704128436633600, 23757469819098133168128);
  (338833650227178073227264, 27085213360759397941248); (338551436660128528465920, 30410347066436601511936); (338236544974182783385600, 33732548928756386889728); (337889083255731894878208, 37051499192145210769408);
  (337509051504775862943744, 40366880352829343531008); (337096485750111706546176, 43678368151635614498816); (336651458049333463613440, 46985645084790294052864); (336173968402441134145536, 50288395900319466258432);
  (335664052838231737106432, 53586300842649587810304); (335121819443096329388032, 56879040156207115403264); (334547268217034910990336, 60166298589018133102592); (333940471217641519841280, 63447751881909470232576);
  (333301464473713174904832, 66723098293706092969984); (332630392100437952036864, 69992009061635203268608); (331927218069018832273408, 73254173437322512564224); (331192050465846872506368, 76509276168794104922112);
  (330424997377313129627648, 79757011011275319148544); (329626058803417603637248, 82997053705592984567808); (328795378859348370391040, 86229098006972439986176); (327932993573902448852992, 89452828663439769468928);
  (327038975004673876951040, 92667948437419566563328); (326113467266850730541056, 95874124062539405852672); (325156542418027047550976, 99071067308423135625216); (324168272515796865908736, 102258453915897585205248);
  (323148729617754223542272, 105435995654586602881024); (322098057839087196307456, 108603368265317017976832); (321016329237389822132224, 111760274510513424039936); (319903687927850176872448, 114906408145401159876608);
  (318760205968062298456064, 118041462925205564293120); (317585991444417243774976, 121165150619550485577728); (316381152443306069721088, 124277146969262753054720); (315145833079916852150272, 127377172751165469753344);
  (313880141440640647954432, 130464930727683229220864); (312584221640665532989440, 133540096639642860781568); (311258145737585545183232, 136602400271066722205696); (309902093875385779355648, 139651544384379407040512);
  (308516138111660273434624, 142687213727606999351296); (307100458590394122240000, 145709147091971111649280); (305655199426775401627648, 148717029225497827999744); (304180468707195168489472, 151710562890611741949952);
  (302676410546841498681344, 154689495885733720752128); (301143187075300977541120, 157653512958889848471552); (299580942407761680924672, 160602343894102482878464); (297989820659411684687872, 163535682446596962779136);
  (296369983959837574168576, 166453258400395645943808); (294721576424227425222656, 169354783525122380660736); (293044760182167823187968, 172240005619198034182144); (291339697363245353402368, 175108618437847945314304);
  (289606550097046601203712, 177960351765094471827456); (287845516541955170893824, 180794935384959971491840); (286056722798760628846592, 183612099081466802077696); (284240349011448069881856, 186411554624238811873280);
  (282396593338401098301440, 189193049811696868130816); (280525617909206299443200, 191956332442261838102528); (278627602867848768126976, 194701078256760551112704); (276702728358313599172608, 197427071082410893377536);
  (274751192538984396881920, 200134022688836713185280); (272773175553846256074752, 202821716903255896752128); (270768857546884271570944, 205489829466495273402368); (268738454690880557154304, 208138162220171238834176);
  (266682147129820207644672, 210766426933907641335808); (264600133022086827343872, 213374371406125348159488); (262492610526064020553728, 215961743435245226557440); (260359795814533901058048, 218528326848485162745856);
  (258201887045880073158656, 221073815401070495531008); (256019100392884650639360, 223598010934617620611072); (253811615999532728320000, 226100661247547405238272); (251579686067403438948352, 228581514138280716664832);
  (249323508754880386826240, 231040335419636931624960); (247043282220347176255488, 233476890904435426852864); (244739276679781449465856, 235890946405495579082752); (242411672277168301277184, 238282267735636765048832);
  (240060685185289845473280, 240650602693279852003328); (237686585620123724283904, 242995771134439745126400); (235289553725655032528896, 245317502843138802188288); (232869859717861412438016, 247615599660993418887168);
  (230427701755126468313088, 249889809386424462475264); (227963350053427842383872, 252139951875446838132736); (225477038799946157916160, 254365792940879922593792); (222968984167463528693760, 256567116409941602074624);
  (220439420343160577982464, 258743706109849762791424); (217888635557413457494016, 260895363882220800442368); (215316845983004281012224, 263021873554272601243648); (212724303821512181284864, 265123036967621560893440);
  (210111243260117781577728, 267198637949485565607936); (207477952529197233602560, 269248496355879520567296); (204824647801532651143168, 271272396014021311987712); (202151617307500185911296, 273270156779925845049344);
  (199459095234280461172736, 275241562480811005968384); (196747351797851119157248, 277186450987090209406976); (194016639199791292612608, 279104624140379851063296); (191267227656078623768576, 280995901796694836117504);
  (188499387382690754854912, 282860085797651560267776); (185713370581206818619392, 284697014013663438176256); (182909465482002966773760, 286506506300745375023104); (180087924286658332065792, 288288382514912275988480);
  (177249035225549066207232, 290042480526577555734528); (174393032485855792463872, 291768602177357609959424); (171520258341150190993408, 293466603352064362807296); (168630928964214375579648, 295136339935509738422272);
  (165725350599823007416320, 296777613769310132502528); (162803811478352238215168, 298390298752675978674176); (159866581815779710205952, 299974214741622182117376); (156913931828083065618432, 301529217620960666976256);
  (153946149745638456164352, 303055145261104847912960); (150963550820419797778432, 304551889575663668035584); (147966387254006223208448, 306019270420652032524288); (144954965291172393648128, 307457143680881865523200);
  (141929573162294460809216, 308865401269962110140416); (138890499097748576403456, 310243899072704690520064); (135838049342309401624576, 311592492973921530806272); (132772503119153833443328, 312911038858424555143168);
  (129694157665857278312448, 314199428639822706638848); (126603310219995142684672, 315457518202927909437440); (123500258019142833012736, 316685235490146125611008); (120385307308075010490368, 317882400357492260339712);
  (117258755324367081570304, 319048940747372275695616); (114120899305594452705280, 320184748573395114786816); (110972045496531785089024, 321289679720372701757440); (107812491134754485174272, 322363626101913979715584);
  (104642551472236468895744, 323406551689221929697280); (101462523746553142706176, 324418240309514437918720); (98272714202479167799296, 325398727991588523343872); (95073429084789205368832, 326347798562662072188928);
  (91864992652656426090496, 327265452022735084453888); (88647693136456981676032, 328151544256619484282880); (85421854795364042801152, 329006003206721233747968); (82187783874152270659584, 329828756815446294921216);
  (78945786617596326445056, 330619733025200629874688); (75696178277670126092288, 331378823749593181716480); (72439283113546840276992, 332105992959826931482624); (69175398362801875451904, 332801168598307841245184);
  (65904852788208029663232, 333464242578644854112256); (62627952634539964104704, 334095178872040951119872); (59345013153771594711040, 334693905420902094340096); (56056354101476464787456, 335260386196431264808960);
  (52762295233228117639168, 335794549141034424598528); (49463151801000469200896, 336296358225914554744832); (46159239056767435407360, 336765741393477617319936); (42850876756102559563776, 337202698643723612323840);
  (39538384654579384975360, 337607121890261482864640); (36222084759571268632576, 337979011133091228942336); (32902290071252312784896, 338318330343415831592960); (29579327100595501793280, 338625043492438271852544);
  (26253511099574751592448, 338899114551361530757120); (22925164075563419172864, 339140507491388589342720); (19594610287734675210240, 339349222312519447609344); (16262164988062435639296, 339525259014754105556992);
  (12928153561619777978368, 339668545540498525257728); (9592895763980245532672, 339779081889752706711552); (6256713602517195292672, 339856904091313668882432); (2919928803129007538176, 339901940087587373842432)].

(** src/tables.c lines 979-1072, mdct_rot_720. *)
Definition mdct_rot_720 : @mdct_rot Z := mkRot 180 [
  (330051162579444359495680, 360030103926600630272); (330035454023944091205632, 3240219460603039711232); (329994633396921605029888, 6120162210015508168704); (329928628640782863040512, 8999638836866543779840);
  (329837547841918922129408, 11878429790674312232960); (329721318942735744368640, 14756316646856886059008); (329579977972030348722176, 17633079854932430946304); (329413560958599754153984, 20508500990319019425792);
  (329222067902443960664064, 23382358250735003500544); (329005462774765949288448, 26254436589298176229376); (328763853661956776919040, 29124515329626796457984); (328497168506422405627904, 31992373795339123032064);
  (328205479365756873342976, 34857798065452855853056); (327888786239960180064256, 37720567463586253766656); (327547125157829344755712, 40580463565157389303808); (327180532148161386381312, 43437272449183962365952);
  (326789007210956304941056, 46290771187484418113536); (326372622403808138362880, 49140743607276642762752); (325931377726716886646784, 51986973535778522529792); (325465309208479568756736, 54829244800207943630848);
  (324974416849096184692736, 57667345731382419652608); (324458808734957791346688, 60501046645720954699776); (323918484866064388718592, 63330144881240317100032); (323353517300010014736384, 66154419761558765699072);
  (322763906036794669400064, 68973659617493814083584); (322149687105215371673600, 71787643772663721099264); (321510968591663178448896, 74596160557886000332800); (320847786524935108689920, 77398998303978165370880);
  (320160140905031162396672, 80195940838158102429696); (319448103789545377497088, 82986776491243325095936); (318711747236071791919104, 85771289090451719585792); (317951143302204443590656, 88549271470200426856448);
  (317166291987943332511744, 91320516464906587865088); (316357301379679515574272, 94084798894588834086912); (315524243535007030706176, 96841920600863561220096); (314667118453925877907456, 99591665410948655480832);
  (313786070251624133033984, 102333826159261257826304); (312881098928101796085760, 105068195680218509213696); (311952276540952904990720, 107794566808237550600192); (310999747205365535604736, 110512723370536268201984);
  (310023510921339687927808, 113222467208731057717248); (309023675775266418851840, 115923582150039805362176); (308000277795942747340800, 118615879043278161575936); (306953461098556749250560, 121299132708464757833728);
  (305883261711905443545088, 123973153994415244574720); (304789751693582868152320, 126637735735546762756096); (303673039129980079964160, 129292670766276453335040); (302533196078691116908544, 131937760928220712009728);
  (301370294597310016913408, 134572808062995934478336); (300184478801024855834624, 137197605005019261698048); (298975784718632652636160, 139811944588707834626048); (297744320436524464209920, 142415646670076558442496);
  (296490194041091347447808, 145008504083542574104576); (295213477589927340277760, 147590309663523022569472); (293914279169423499591680, 150160883266032809017344); (292592706865970882281472, 152720017725489074405376);
  (291248850751562035757056, 155267523890707469172736); (289882818912588016910336, 157803194596105134276608); (288494701421041373151232, 160326867712095484379136); (287084624377711670853632, 162838327065896405696512);
  (285652677854591457427456, 165337374499124293926912); (284198969938071789764608, 167823847882192563732480); (282723626728942234238976, 170297531042319101329408); (281226774327992357224448, 172758225821120302415872);
  (279708484792816196648960, 175205788103408091136000); (278168884224203318886400, 177640001716400353705984); (276608116737341799792640, 180060704530510504787968); (275026272404224186777600, 182467662358557921116160);
  (273423495340038555697152, 184860749099753036316672); (271799875616777453961216, 187239748581313736605696); (270155575364027466907648, 189604498673653436645376); (268490702668179651428352, 191954783203990022651904);
  (266805383630023573897216, 194290476071533928251392); (265099726335950291206144, 196611361103503039660032); (263373910929944898174976, 198917276170310771539968); (261628027483999942213632, 201208059142370538553344);
  (259862202098904989696000, 203483493846900226916352); (258076614918645135441920, 205743454183110270255104); (256271356015212926861312, 207987723978218554785792); (254446587518194949292032, 210216177131435514134528);
  (252602435528380769107968, 212428597469979034517504); (250739044160958462164992, 214624858893059549560832); (248856575545514613800960, 216804763242293454962688); (246955155782838790389760, 218968166402492674867200);
  (245034892959322048823296, 221114888229672114454528); (243096021262145012367360, 223244766594245188386816); (241138612748901718949888, 225357657381023820808192); (239162829549178753908736, 227453380446022916898816);
  (237168851806961212063744, 229531773659655891320832); (235156787608640150306816, 231592710921133177700352); (233126835112599172939776, 233635994072071171735552); (231079120419627846336512, 235661497011680307052544);
  (229013823673711265316864, 237669039595975488831488); (226931070975638996254720, 239658477709768641216512); (224831042469396133969920, 241629685252270197833728); (222713882270170754318336, 243582482079495063863296);
  (220579788536346461601792, 245516724076255163449344); (218428869354314312712192, 247432267127362420736000); (216261322882457911951360, 249328985132027269349376); (214077311250363844657152, 251206697946264614469632);
  (211876996587618696167424, 253065279469284889722880); (209660541023809051820032, 254904603600298528735232); (207428124702920006434816, 256724508209718946168832); (205179909754538145349632, 258524849182358066167808);
  (202916076322648563384320, 260305518431824831840256); (200636786536837845876736, 262066371842931167330304); (198342220541091087646720, 263807247286090487300096); (196032540464994874032128, 265528036674911734857728);
  (193707944466932809334784, 267228613908605343629312); (191368576662092969410560, 268908834871983237758976); (189014653223257468043264, 270568591478654360354816); (186646318265614381088768, 272207739613430635560960);
  (184263787961945822330880, 273826153175522497003520); (181867224441838377107456, 275423688049741868826624); (179456807849277140238336, 277000272178494713102336); (177032718328247206543360, 278555761446592953974784);
  (174595154037132180324352, 280090047767645534552064); (172144277105518646919168, 281603005040862888460288); (169680303706188720111616, 283094489151056939843584); (167203413983127494721536, 284564428040633650774016);
  (164713788080320065568768, 286012713623201964359680); (162211606141751527473152, 287439201783573804744704); (159697102354602503700480, 288843802449756624519168); (157170402819662560624640, 290226389520960857309184);
  (154631741724112321511424, 291586890939592465186816); (152081317226335390662656, 292925198619260391260160); (149519300463117608157184, 294241186459175069155328); (146945898600041833037824, 295534764387343951462400);
  (144361309795491669606400, 296805842331774490771456); (141765723200651467423744, 298054330220474139672576); (139159354988303340273664, 299280083938254822309888); (136542367288033873494016, 300483085470718029201408);
  (133914994287023690350592, 301663172688277175009280); (131277425136457140404224, 302820309562135240769536); (128629848987518573215744, 303954351977104150626304); (125972491020189357309952, 305065299933183904579584);
  (123305522371255332765696, 306152973286389407809536); (120629177227897122848768, 307217372036720660316160); (117943644741299077120000, 308258316040192567279616); (115249123069844799881216, 309275841325602147663872);
  (112545828386316404916224, 310269767748964306649088); (109833958849097496526848, 311240095310279044235264); (107113730630970188496896, 312186715923155303530496); (104385341890318085128192, 313109557529999046606848);
  (101649008799923300204544, 314008584102013254500352); (98904929518169438027776, 314883651524009851355136); (96153320217838612381696, 315734759795988837171200); (93394388064513682309120, 316561836860356174020608);
  (90628349230976761593856, 317364774630720805011456); (87855401875611454537728, 318143573107082730143744); (85075762171199874924544, 318898124203050892525568); (82289646290524136538112, 319628391889828273192960);
  (79497270406366353162240, 320334340138617853181952); (76698832677110129098752, 321015860863028575600640); (73894553779137205501952, 321672954063060440449024); (71084649885229696155648, 322305547681119409799168);
  (68269332664570087473152, 322913605688408464687104); (65448818289940493238272, 323497056027333567184896); (62623313926923772493824, 324055898697894717292544); (59793044755501293764608, 324590025613700858118144);
  (56958222444855543463936, 325099472803549008625664); (54119063167768635375616, 325584132181048111923200); (51275778593423055912960, 326044003746198168010752); (48428593901800173600768, 326479051470202157924352);
  (45577716258482847481856, 326889239324263062700032); (42723370843452446081024, 327274531279583863373824); (39865773829491083182080, 327634891307367540981760); (37005136885781245198336, 327970319407614095523840);
  (34141682940504486969344, 328280743522729489072128); (31275628166442922278912, 328566163652713721626624); (28407193239978292281344, 328826615826363812151296); (25536596585692524445696, 329061991957288703754240);
  (22664052124567918870528, 329272292045488396435456); (19789782784786030395392, 329457516090962890194944); (16914005865028879646720, 329617700122509203996672); (14036942041678207778816, 329752736053736280948736);
  (11158808613416035418112, 329862659913441140015104); (8279825693674150297600, 329947507730420800159744); (5400211707034479886336, 330007171418284204490752); (2520186766928811917312, 330041759063422409900032)].

(** src/tables.c lines 1074-1197, mdct_rot_960. *)
Definition mdct_rot_960 : @mdct_rot Z := mkRot 240 [
  (307147296026518775398400, 251284340144577970176); (307139081460798451613696, 2261538988616925052928); (307117680355369187016704, 4271696616183237181440); (307083164767825019535360, 6281671425752175738880);
  (307035462640571911241728, 8291376863768402198528); (306974610002406881099776, 10300727643313973231616); (306900642882126948073472, 12309637070096061956096); (306813489222138074234880, 14318019575721748332544);
  (306713221080034297511936, 16325787339998298636288); (306599802427018598940672, 18332857046332606513152); (306473233263090978521088, 20339140874531938238464); (306333549617048455217152, 22344553256203373772800);
  (306180751488891029028864, 24349008622953993076736); (306014838878618699956224, 26352421406390876110848); (305835811786231467999232, 28354703786321289150464); (305643670211729333157888, 30355774697951939526656);
  (305438450183909314396160, 32355544069290279829504); (305220151702771411714048, 34353926331943390019584); (304988774768315625111552, 36350835917518350057472); (304744319380541954588672, 38346191761221867274240);
  (304486821568247419109376, 40339903791061394259968); (304216281331432018673664, 42331886438644010975232); (303932698670095753281536, 44322054135576797380608); (303636109613035641896960, 46310325817066460807168);
  (303326514160251684519936, 48296611411120453844992); (303003912311743881150464, 50280834356545111195648); (302668340096309250752512, 52262895574148630708224); (302319761485150774362112, 54242723006336974454784);
  (301958302579058018353152, 56220226581117595025408); (301583873306038435315712, 58195320730097572380672); (301196527709287553695744, 60167919884883986481152); (300796283803203882975232, 62137942980683544657920);
  (300383159602185932636160, 64105308952702954242048); (299957155106233702678528, 66069923225350040453120); (299518306344144212066304, 68031709237431137992704); (299066613315917460799488, 69990581420553326821376);
  (298602130064748977324032, 71946454206323686899712); (298124856590638761639936, 73899246529948925558784); (297634810907985323229184, 75848868319436495388672); (297131993016788662091776, 77795252020791985831936);
  (296616456960244306673664, 79738294051223967367168); (296088238767149275938816, 81677922353138402066432); (295547320423105060405248, 83614046854542742519808); (294993737956908679036928, 85546595497842950799360);
  (294427527397357150797824, 87475478211046479495168); (293848688744450475687936, 89400613929360035938304); (293257276041384182153216, 91321921587990327459840); (292653307302556779675648, 93239320122144061390848);
  (292036782527968268255232, 95152719459828690321408); (291407755760814176337920, 97062047543450176323584); (290766263029891522887680, 98967214301015971987456); (290112304335200307904512, 100868138667732784644096);
  (289445897691139040870400, 102764748586006576365568); (288767115155301759713280, 104656953983844799741952); (288075956727688464433152, 106544673796454162104320); (287372458437096173993984, 108427826959041370783744);
  (286656656312321907359744, 110306341414012387852288); (285928550353365664530432, 112180127089374665900032); (285188230632219992915968, 114049111927534166999040); (284435679134486383034368, 115913205856498343739392);
  (283670931888961853849600, 117772336818673158193152); (282894042938841933807616, 119626423749265317691392); (282105048312923641872384, 121475376576282274824192); (281303966025605487525888, 123319150263727755886592);
  (280490814091285980250112, 125157627718011449245696); (279665664567559157972992, 126990727874340062232576); (278828517454425020694528, 128818405696717321142272); (277979444809477606342656, 130640562105951423823872);
  (277118446632716914917376, 132457134051647587090432); (276245594981736984346624, 134268013447414754050048); (275360907870936324112384, 136073146250057396256768); (274464403314713443696640, 137872451394782221041664);
  (273556171385060890509312, 139665847816795935735808); (272636194067580155068416, 141453263458504502411264); (271704561434263784783872, 143234617255114628399104); (270761273485111779655680, 145009846156231530512384);
  (269806402277718177611776, 146778851082663406600192); (268839947812082978652160, 148541577991214728216576); (267862000160198730186752, 150297936809892947951616); (266872577336463941697536, 152047864488303282618368);
  (265871715369675632148480, 153791261947253930065920); (264859468303029329985536, 155528084150748616589312); (263835872165322054172672, 157258241026794794778624); (262800980999749333155840, 158981660517798426705920);
  (261754830835108185899008, 160698270566165474443264); (260697457700195631366144, 162407999114301900062720); (259628915638207198003200, 164110774104613665636352); (258549258692338414256128, 165806505465108223754240);
  (257458540905784808570880, 167495157166988555452416); (256356780292944890429440, 169176621123863603838976); (255244030897014188277760, 170850825278139330985984); (254120364775586740043776, 172517733601018717929472);
  (252985799943061055209472, 174177238006110707777536); (251840408457031171702784, 175829284450219772084224); (250684226346294108487680, 177473800875751872921600); (249517289639646884528128, 179110697210714462879744);
  (248339688409082047234048, 180739955440709032476672); (247151422654599596605440, 182361449464946015338496); (245952600462590589534208, 183975125240229883019264); (244743221833055026020352, 185580928723365107073024);
  (243523358823586943991808, 187178787856757649571840); (242293065477381871894528, 188768612568414963105792); (241052413852033847656448, 190350366829540028710912); (239801421961941380759552, 191923960568140298977280);
  (238540143850299999649792, 193489339741020245458944); (237268651574703742255104, 195046432290585830227968); (235987017192746646503424, 196595148144844505874432); (234695240704428712394752, 198135469289397762916352);
  (233393448210539506302976, 199667287637854544461824); (232081639711079028228096, 201190567161417831546880); (230759887263641316098048, 202705217788095076761600); (229428244911421898358784, 204211185474690751660032);
  (228086784712014812938240, 205708398163610818314240); (226735542694217078800384, 207196801811659748278272); (225374608930021243355136, 208676342375642013106176); (224004001433825816084480, 210146929783565065388032);
  (222623792263224834916352, 211608528006631886159872); (221234071490210847260672, 213061046972849928011776); (219834875143580872081408, 214504450653422171979776); (218426239252131928342528, 215938648976356070653952);
  (217008253887856563453952, 217363623927253114552320); (215580973093950305861632, 218779267419722246782976); (214144450913608684011520, 220185543424966448381952); (212698777418824245313536, 221582397899790190903296);
  (211243970623995499249664, 222969740772200926937088); (209780120601114993229824, 224347554027800147001344); (208307281393378255699968, 225715747594595303686144); (206825525058379324588032, 227074267429390868545536);
  (205334905639313728339968, 228423059488991313133568); (203835513208174014365696, 229762087744599618486272); (202327365779358692147200, 231091244109824727711744); (200810553424860309094400, 232410510570268131328000);
  (199285130187874393653248, 233719833082734300889088); (197751186140393493233664, 235019139589629198467072); (196208757311214626799616, 236308376047757295616000); (194657933772330341761024, 237587488413923063889920);
  (193098769566936166563840, 238856422644930974842880); (191531336752626139136000, 240115124697585500028928); (189955689372595787923456, 241363540528691111002112); (188371917498837660336128, 242601616095052279316480);
  (186780075174547284819968, 243829297353473476526080); (185180216442920189820928, 245046548275157683666944); (183572431375948922748928, 246253296802510862811136); (181956792031227521531904, 247449488892337485512704);
  (180333352451951514615808, 248635088515840532807680); (178702184695714939928576, 249810023615425966768128); (177063378834510344880128, 250974276176695277912064); (175416970897134748434432, 252127774142054428311552);
  (173763050955580698001408, 253270463468307889520640); (172101691067442231508992, 254402308126658642575360); (170432963290313386885120, 255523254073911159029760); (168756921667389692575744, 256633247266869910437888);
  (167073656270663695990784, 257732269691136387317760); (165383239157729435058176, 258820231274718042259456); (163685742386180947705856, 259897114003216365780992); (161981219999213762379776, 260962845819037319954432);
  (160269762068820426489856, 262017426722180904779776); (158551440652594977964032, 263060766640654572847104); (156826327808131454730240, 264092829545661305192448); (155094513607422404198400, 265113597422802592333824);
  (153356016064866335850496, 266122998214484396343296); (151610979295651325542400, 267121013906308207738880); (149859448335773646979072, 268107572440679988592640); (148101486235628083347456, 269082655803201229422592);
  (146337192074406436798464, 270046191936277892300800); (144566628902503490519040, 270998198854308486709248); (142789859770314027696128, 271938568470901955756032); (141006983757029850480640, 272867282771659789959168);
  (139218063913045742059520, 273784323742183479836672); (137423181303154995101696, 274689637339277496942592); (135622398977752392794112, 275583169519746312830976); (133815834030428246769664, 276464920283589927501824);
  (132003513482780321251328, 277334817573214303027200); (130185545421199673131008, 278192825359822420443136); (128362001903280340336640, 279038925629015770267648); (126532954986616360796160, 279873064337598824054784);
  (124698494743200281919488, 280695223471173072322560); (122858693230626141634560, 281505348986542986625024); (121013631513687232610304, 282303422869310057480192); (119163381649977592774656, 283089409090677265924096);
  (117308024704290514796544, 283863271621847592992768); (115447641741419291344896, 284624956419625510240256); (113582322833356469829632, 285374463484011017666560); (111712131030496833437696, 286111738771808586825728);
  (109837156404832929579008, 286836746254221198753792); (107957471013958796181504, 287549485931248853450752); (106073164929866980655104, 288249903759696022470656); (104184319217350775668736, 288937981725164196331520);
  (102291005934004219150336, 289613665784457846587392); (100393306144620603768832, 290276955937576973238272); (98491318928391731675136, 290927798141326047838208); (96585098328513131315200, 291566192395705070387200);
  (94674752431375859580928, 292192084657518512439296); (92760344287374699659264, 292805474926766373994496); (90841963968502198960128, 293406309160253126606848); (88919692539551650152448, 293994587357978770276352);
  (86993611065316345905152, 294570255476747776557056); (85063800610589578887168, 295133313516560145448960); (83130351247363896508416, 295683725448618857988096); (81193335033233336696832, 296221491272923914174464);
  (79252851047389701603328, 296746538931881276080128); (77308962340227774414848, 297258886439889453187072); (75361767990939357282304, 297758515782549936013312); (73411340057118488133632, 298245372916667196112896);
  (71457773114357341749248, 298719457842241233485824); (69501139220249956057088, 299180734530475029168128); (67541532950388505837568, 299629220995767092641792); (65579030865966656389120, 300064863194921895460864);
  (63613718535377327751168, 300487643113540928143360); (61645686030613067333632, 300897542737225681207296); (59675009912867540434944, 301294580080374664134656); (57701775750533667094528, 301678683085393838997504);
  (55726073615603994722304, 302049869766681715277824); (53747980069272188616704, 302408140124238292975616); (51767589687130423558144, 302753440114868043644928); (49784974526772737474560, 303085769738570967285760);
  (47800233667390932516864, 303405128995347063898112); (45813439166579046612992, 303711481856399314518016); (43824685599929254543360, 304004792292930700181504); (41834054032234848976896, 304285132362535258816512);
  (39841634535488377323520, 304552393978821933531136); (37847503670883504881664, 304806649199384762253312); (35851751510412779061248, 305047825966629707055104); (33854465874268933586944, 305275924280556767936512);
  (31855727827245261127680, 305490980169962963861504); (29855625189534495408128, 305692921577254256902144); (27854243529529556467712, 305881784531227666022400); (25851670667423178031104, 306057533003086172258304);
  (23847989919808466452480, 306220166992829775609856); (21843286855078341771264, 306369722529255495041024); (19837649293425537712128, 306506091525972273659904); (17831160551443160629248, 306629382069371168358400);
  (15823908449323944247296, 306739522101858141208576); (13815977429560901763072, 306836511623433192210432); (11807455312346766901248, 306920350634096321363968); (9798427666074459701248, 306991075162644547633152);
  (7788980622086853623808, 307048613151483833090048); (5779199748776868708352, 307093036658208215662592); (3769170896012401704960, 307124273625223657422848); (1758981039561256206336, 307142360081327177334784)].

(** src/tables.c lines 1201-1444, mdct_rot_1920. *)
Definition mdct_rot_1920 : @mdct_rot Z := mkRot 480 [
  (258279132786688731906048, 105652063516902817792); (258277403404431821635584, 950866451793707008000); (258272899804804451139584, 1796070575029954281472); (258265640002205129900032, 2641255628336529408000);
  (258255623996633857916928, 3486412393407945113600); (258242833773692125708288, 4331531722307458301952); (258227269333379933274112, 5176604607835814232064); (258208948690095790096384, 6021622324268734873600);
  (258187853829441186693120, 6866575301457012064256); (258164002765814632546304, 7711454532201391063040); (258137377484817618173952, 8556251572252570550272); (258107996000848653058048, 9400956851461342363648);
  (258075858313907737198592, 10245561925578405183488); (258040946409596361113600, 11090056661504597426176); (258003260287914524803072, 11934432052040664350720); (257962835977659247230976, 12778681341787164901376);
  (257919637450033509433344, 13622792145845123809280); (257873664705037311410176, 14466758834715006861312); (257824953771467672125440, 15310567897597931945984); (257773468620527572615168, 16154215956794178535424);
  (257719209252217012879360, 16997689501504864518144); (257662211695333011881984, 17840980650430641995776); (257602439921078550659072, 18684081522272163069952); (257539929958250648174592, 19526981983930266157056);
  (257474645778052285464576, 20369673028205696516096); (257406605394881972011008, 21212145647899199406080); (257335826823138217295872, 22054393087611333771264); (257262274034024002355200, 22896401836543217500160);
  (257185965041937836670976, 23738167391095223222272); (257106899846879720243200, 24579678492268282511360); (257025096463248162553856, 25420923881063326941184); (256940518862246144638976, 26261899053880729141248);
  (256853203072670685462528, 27102592751721420685312); (256763131080123275542528, 27942995967386146832384); (256670320899002424360960, 28783101945475466526720); (256574754514909622435840, 29622897175190497656832);
  (256476431927844869767168, 30462377152931612852224); (256375371152206675836928, 31301528367899930001408); (256271572187995040645120, 32140346316495821733888); (256165017020811454709760, 32978819739720219623424);
  (256055723665054427512832, 33816939630373868929024); (255943674106325449572352, 34654696981257514909696); (255828904373421539852288, 35492082785171902824448); (255711378437545679388672, 36329090286717591617536);
  (255591132327494887145472, 37165708226895512862720); (255468130014472144158720, 38001927598506411819008); (255342407527274469392384, 38837737142551220060160); (255213946851503353364480, 39673136859029937586176);
  (255082747987158796075008, 40508108733544054915072); (254948828948639307005952, 41342643758894317305856); (254812153707147867193344, 42176741935080724758528); (254672776305880005083136, 43010385247704767791104);
  (254530660716038701711360, 43843569193166819033088); (254385824952022466560000, 44676280260667996372992); (254238269013831299629056, 45508513946608672440320); (254087974887066691436544, 46340265747389219864576);
  (253934960586127151464448, 47171513145011501793280); (253779226111012679712768, 48002260643075145596928); (253620789476121785663488, 48832494730781269164032); (253459632667055959834624, 49662201897330990383104);
  (253295755683815202226176, 50491377639124681883648); (253129176540798022320128, 51320017452562716295168); (252959877223605910634496, 52148103323246584135680); (252787857732238867169280, 52975630747576658034688);
  (252613136081095401406464, 53802595221953310621696); (252435712270175513346048, 54628978731978032414720); (252255604313877712470016, 55454776774051196043264); (252072776183404979814400, 56279984844573174136832);
  (251887245893155824861184, 57104589432745084583936); (251699013443130247610368, 57928581531367672643584); (251508114862125267025920, 58751952133241683574784); (251314496106945354661888, 59574692231167862636544);
  (251118193206387529482240, 60396797321546582458368); (250919188146053282004992, 61218253893578960928768); (250717516954739631194112, 62039057443665370677248); (250513143603649558085632, 62859194461006929592320);
  (250306104121580081643520, 63678660442004010303488); (250096380494132692385792, 64497441875857730699264); (249883972721307390312448, 65315534258968463409152); (249668880803104175423488, 66132924080537326321664);
  (249451140768320066682880, 66949606836964692066304); (249230716588158045126656, 67765573521051305902080); (249007608262618110754816, 68580815125597913088000); (248781851820497282531328, 69395322643405258883072);
  (248553411232998541492224, 70209087067274088546304); (248322340543317416083456, 71022099390005147336704); (248088567693859868377088, 71834350604399180513280); (247852164742219936301056, 72645831703256933335040);
  (247613113673999110373376, 73456538182978778431488); (247371396474798881112064, 74266452029166206320640); (247127049173416267481088, 75075573241819217002496); (246880035741054250516480, 75883897317338183106560);
  (246630374192111339700224, 76691401737724967780352); (246378082540986044514304, 77498086502979571023872); (246123160787678364958720, 78303933598703483355136); (245865590917789791551488, 79108952032095959515136);
  (245605390945718833774592, 79913123788758490021888); (245342578885864001110016, 80716430854292565393408); (245077100695029765111808, 81518882235897440370688); (244809028430810163707904, 82320459919174605471744);
  (244538326064408177934336, 83121145889725551214592); (244264993595823807791104, 83920949154749532340224); (243989067053854072242176, 84719860707047294107648); (243710510409701952323584, 85517853525021072293888);
  (243429359692164466999296, 86314936615870121639936); (243145578872444597305344, 87111091965195932663808); (242859203979339362205696, 87906319572998505365504); (242570235012848761700352, 88700601424879330263040);
  (242278671972972795789312, 89493928513639152615424); (241984496845312954990592, 90286309846477227163648); (241687745658666258268160, 91077718401795789684736); (241388400398634196140032, 91868145172395585437696);
  (241086479079615278088192, 92657599165475869163520); (240781963687210994630656, 93446053359438876639232); (240474872235819855249408, 94233507754284607864832); (240165204725441859944448, 95019953342813808099328);
  (239852979170475518197760, 95805381117827222601728); (239538159542123811045376, 96589782072125596631040); (239220781869183757451264, 97373156205708930187264); (238900864166053866897408, 98155476496979459047424);
  (238578370403937120419840, 98936751953136437952512); (238253318597232027500544, 99716964559781357420544); (237925708745938588139520, 100496114316914217451520); (237595576878853821300736, 101274183210136508563456);
  (237262886967180708020224, 102051171239448230756352); (236927657025317757779968, 102827060390450874548224); (236589887053264970579968, 103601850663144439939072); (236249577051022346420224, 104375533050329672187904);
  (235906745032988394782720, 105148098544807316553728); (235561390999163115667456, 105919538139378118295552); (235213496935147999592448, 106689842826842822672384); (234863116884138575003648, 107459003600002174943232);
  (234510178788540803973120, 108227020458856175108096); (234154754705948724428800, 108993866381807058944000); (233796844636362336370688, 109759559383253335932928); (233436394536586111352832, 110524063434397987110912);
  (233073458449815577821184, 111287387542440267218944); (232708018361652226293760, 112049522700180921516032); (232340092286494566252544, 112810459900420695261184); (231969680224342597697536, 113570181128761078972416);
  (231596782175196320628736, 114328695392401327390720); (231221398139055735046144, 115085975669743676293120); (230843546130319350431744, 115842030967987380420608); (230463208134588657303552, 116596843272733930291200);
  (230080420180660674625536, 117350403576784071163904); (229695164254136892915712, 118102711880137803038720); (229307440355017312174080, 118853759175595871174656); (228917266497700441882624, 119603527448759766089728);
  (228524642682186282041344, 120352007692430233042944); (228129568908474832650240, 121099208913806526775296); (227732045176566093709312, 121845122105689392545792); (227332089500858574700544, 122589711239281811390464);
  (226929701881352275623936, 123332994328982292791296); (226524882318047196479488, 124074962367591582007296); (226117630810943337267200, 124815597340711169556480); (225707965374439207469056, 125554890241141800697856);
  (225295886008534807085056, 126292850076082730172416); (224881374698831626633216, 127029449823936193757184); (224464467474126685077504, 127764698491901446193152); (224045164334419982417920, 128498560051181468516352);
  (223623465279711518654464, 129231061523374024949760); (223199352295602784305152, 129962175886881351270400); (222772861410890798333952, 130691894134504192737280); (222343974611177051258880, 131420207259043294609408);
  (221912727925258562043904, 132147124267697911627776); (221479085324338311725056, 132872627146069534310400); (221043064822814809784320, 133596697879759653175296); (220604684435086565703680, 134319345475967522963456);
  (220163944161153579483136, 135040551920294634192896); (219720862015414360604672, 135760317212740986863616); (219275401969071890104320, 136478623338908071493632); (218827600050923186946048, 137195470298795888082944);
  (218377474275366760611840, 137910849085205181890560); (217924988613605592137728, 138624741683737443434496); (217470179094436700487680, 139337148094392672714752); (217013027703461576179712, 140048086331569379213312);
  (216553570469477238177792, 140757502352072034484224); (216091771363686667517952, 141465414170299148009472); (215627666414886883164160, 142171812779051465048064); (215161255623077885116416, 142876689171129730859008);
  (214692538988259673374720, 143580043346533945442304); (214221534524830757421056, 144281848283666344574976); (213748224218392627773440, 144982112989726182998016); (213272626083343793913856, 145680828457514205970432);
  (212794740119684255842304, 146377985679831158751232); (212314584341812523040768, 147073566642278531858432); (211832158749728595509248, 147767571344856325292032); (211347463343432473247744, 148459999787564539052032);
  (210860498122924156256256, 149150833956004663656448); (210371263088203644534784, 149840064842977444364288); (209879794268067957047296, 150527701455682135916544); (209386073648118584311808, 151213743794118738313216);
  (208890101228355526328320, 151898128807892468367360); (208391895023177292578816, 152580910540198854524928); (207891473046982392545280, 153262052962240877821952); (207388799270973807263744, 153941556074018538258432);
  (206883927738347065180160, 154619419875531835834368); (206376822420305147330560, 155295608337983751585792); (205867519345645072678912, 155970139475772794994688); (205356000499968331743232, 156643013288898966061056);
  (204842283897673434005504, 157314193748565245820928); (204326387553158888947712, 157983698869170143756288); (203808293452026187087872, 158651492621916640903168); (203288001594275328425984, 159317611035601756225536);
  (202765566023101841408000, 159982018081428470759424); (202240932695310197587968, 160644713759396784504832); (201714137639697415929856, 161305680055108187979776); (201185198870662005915648, 161964916968562681184256);
  (200654080359406948581376, 162622424499760264118272); (200120836149127772372992, 163278202648700936781824); (199585448225425967808512, 163932215386587680210944); (199047898573903025405952, 164584480727819003887616);
  (198508241237754473611264, 165234980657996398329856); (197966458202581802942464, 165883715177119863537664); (197422531453986503917568, 166530648256392380547072); (196876515035164104982528, 167175833939009477804032);
  (196328372917317587173376, 167819218181775626862592); (195778141129243969454080, 168460782970292318240768); (195225801656544742342656, 169100582347755080384512); (194671372513618415321088, 169738544256569875365888);
  (194114853700464988389376, 170374686711135212666880); (193556281245881480511488, 171009027725849601769472); (192995619121070872723456, 171641513257517514227712); (192432903354830183989248, 172272179334935969005568);
  (191868097918362395344896, 172900989929307947139072); (191301256854863035236352, 173527945040633448628224); (190732362149933594181632, 174153044668912473473024); (190161431817972581662720, 174776270799746512191488);
  (189588465858979997679616, 175397641447534074265600); (189013464272955842232320, 176017138597876650213376); (188436427059900115320832, 176634744236375730552832); (187857390248609835909120, 177250440348632805801984);
  (187276335824686494515200, 177864244949046385442816); (186693263788130091139072, 178476158037616469475328); (186108210167737644744704, 179086161599944548417536); (185521156949110645850112, 179694237621632112787456);
  (184932122146647603937280, 180300386102679162585088); (184341087745950009524224, 180904607043085697810432); (183748107790213391056896, 181506900442851718463488); (183153128236242220089344, 182107248287578715062272);
  (182556221141630534549504, 182705632562868178124800); (181957332463182805991424, 183302053268720107651072); (181356516244094562861056, 183896528419533013123072); (180753736455568786194432, 184489040000908385058816);
  (180149029126402494955520, 185079569998447713976320); (179542394256595689144320, 185668100397752490393600); (178933831846148368760832, 186254667227619733274624); (178323359909459043287040, 186839216444853914173440);
  (177710978446527712722944, 187421784078252052054016); (177096687457354377068544, 188002334099017127952384); (176480522970736055287808, 188580884521547651350528); (175862430943477218934784, 189157399317046603284480);
  (175242483433171905937408, 189731896499912493236224); (174620644411023097331712, 190304358055746811723776); (173996949905827812081664, 190874783984549558747136); (173371381903187540705280, 191443156271922224824320);
  (172743958417500792684544, 192009492932263319437312); (172114679448767568019456, 192573757936775823622144); (171483563011386376192000, 193135987314256756342784); (170850609105357217202176, 193696127021510589153280);
  (170215817730680091049984, 194254195072935831535616); (169579224916152016699392, 194810173454133974007808); (168940794632975975186432, 195364080179503526051840); (168300562909948985475072, 195915897234645978185728);
  (167658529747071047565312, 196465606605162820927488); (167014713158740670939136, 197013208291054054277120); (166369095130559346114560, 197558702292319678234624); (165721693676925582573568, 198102088608959692800000);
  (165072526812237889798144, 198643349226575588491264); (164421576522097758306304, 199182484145167365308416); (163768878835302207062016, 199719493364735023251456); (163114415737452726583296, 200254358870880052838400);
  (162458205242947826352128, 200787062649203944587264); (161800265366186015850496, 201317640728503717462016); (161140596107167295078400, 201846057079982352498688); (160479197465891664035840, 202372293689241340215296);
  (159816069442359122722816, 202896386585077699575808); (159151248065366690103296, 203418281724295902134272); (158484715320515856695296, 203938033150091476336640); (157816471207806622498816, 204455568804870384254976);
  (157146551756036006477824, 204970924717429644853248); (156474938950805499150336, 205484082873370748649472); (155801650806513609998336, 205995043272693695643648); (155126705337558848503808, 206503805915398485835776);
  (154450102543941214666752, 207010352787086609743872); (153771842425660708487168, 207514683887758067367936); (153091924982717329965056, 208016781203014349225984); (152410368229509588582400, 208516662747253964800000);
  (151727190180435993821184, 209014310506078404608000); (151042381828297290940416, 209509706465089159168000); (150355952180292734681088, 210002868638684737961984); (149667919250820834525184, 210493779012466631507968);
  (148978274032682335731712, 210982455600833349287936); (148287034540275747782656, 211468844360589362855936); (147594218787999580160000, 211952981320531691175936); (146899817768654578122752, 212434830451863315283968);
  (146203840489439996411904, 212914427783381254144000); (145506295957555089768448, 213391737286288488792064); (144807193180199112933376, 213866758960585019228160); (144106541164571320647680, 214339492806270845452288);
  (143404348917870967652352, 214809938823345967464448); (142700616440098053947392, 215278078997411875782656); (141995361745651089014784, 215743913328468570406912); (141288575827330818113536, 216207441816516051337216);
  (140580285706735005466624, 216668646447155809091584); (139870491383863651074048, 217127527220387843670016); (139159192858716754935808, 217584084136212155072512); (138446399138493571792896, 218038317194628743299072);
  (137732137244791865868288, 218490208381239098867712); (137016389163213127680000, 218939775710441731260416); (136299181915355121451008, 219386983153439621513216); (135580506494018592440320, 219831848724631279108096);
  (134860389920801304870912, 220274354409618194563072); (134138814181304749260800, 220714500208400367878144); (133415824311525199314944, 221152286120977799053312); (132691384282665636069376, 221587712147350488088576);
  (131965530123523078488064, 222020742258721416019968); (131238270841296781312000, 222451412483887601811456); (130509597428787489800192, 222879704808450535981056); (129779527900393713434624, 223305601218011709046784);
  (129048071263314706956288, 223729101712571121008640); (128315227517550470365184, 224150224306527281348608); (127581014677499513143296, 224568914956684661620736); (126845432743161835290624, 224985227706238790270976);
  (126108481714537436807168, 225399126526392648335360); (125370188613224081915904, 225810611417146235813888); (124630553439221770616832, 226219682378499552706560); (123889594206929012391936, 226626303381655580049408);
  (123147301909146552500224, 227030528469809846288384); (122403676545874390941696, 227432321614165332459520); (121658763153108801421312, 227831664800323529080832); (120912525702052764975104, 228228558028284436152320);
  (120165009228702555308032, 228623019312446563155968); (119416204725858917679104, 229015030638411400609792); (118666112193521852088320, 229404610020577457995776); (117914758653289122758656, 229791703415749206867968);
  (117162135097961474949120, 230176364867122175672320); (116408259541937418141696, 230558540331500835962880); (115653131985216952336384, 230938229808885187739648); (114896770442198587015168, 231315487342470759448576);
  (114139183920081576919040, 231690240874663513161728); (113380363411666667307008, 232062508419861958361088); (112620335938551622402048, 232432307992464604528640); (111859101500736442204160, 232799621578072942182400);
  (111096669105420381454336, 233164431162288461840384); (110333047759802694893568, 233526736745111163502592); (109568246471082637262848, 233886556340939556651008); (108802265239260208562176, 234243853920976622321664);
  (108035122078733918273536, 234598647499620869996544); (107266825996703021137920, 234950955091270809157632); (106497376993167517155328, 235300722652730911358976); (105726784075326661066752, 235647968198399686082560);
  (104955065257578962354176, 235992691728277133328384); (104182220539924421017600, 236334893242363253096448); (103408258929562291798016, 236674554726259535904768); (102633189433691829436416, 237011694194364491235328);
  (101857030066711543414784, 237346293632279609606144); (101079771821422178992128, 237678353040004891017216); (100301423705022990909440, 238007854403141825986560); (99522012739111743389696, 238334815736088923996160);
  (98741529916489181691904, 238659237038846185046016); (97959993251553815298048, 238981082282616590172160); (97177411751504898949120, 239300369481798648856576); (96393776409143177904128, 239617098636392361099264);
  (95609123253265671127040, 239931269746397726900224); (94823434269473869135872, 240242864797416236777472); (94036736479365536153600, 240551883789447890731008); (93249029882940672180224, 240858326722492688760832);
  (92460323487398531956736, 241162211610949140348928); (91670635307137624965120, 241463484411621717049344); (90879956334958696464384, 241762181153307437826048); (90088304585260255936512, 242058283821607793197056);
  (89295689065241558122496, 242351810430921292644352); (88502118782101857763328, 242642724952450917203968); (87707602743040409600000, 242931045400595176357888); (86912140948057213632512, 243216771775354070106112);
  (86115751411550779342848, 243499886062329088966656); (85318443140720361472000, 243780406275918742421504); (84520216135565960019968, 244058296387326011506688); (83721088410486084468736, 244333574410949405704192);
  (82921059965480734818304, 244606240346788925014016); (82120139807749165809664, 244876294194844569436160); (81318354958889141665792, 245143717940717829488640); (80515687404502152904704, 245408511584408705171456);
  (79712155158986709008384, 245670693140315705966592); (78907776236741319458816, 245930226579641812910080); (78102550637765984256000, 246187147931184044965888); (77296487369259958140928, 246441421166145383170048);
  (76489595438422495854592, 246693046284525827522560); (75681892859652106878976, 246942041300723887505408); (74873370625749536473088, 247188388200341053636608); (74064046751113294118912, 247432086983377325916160);
  (73253934746542261927936, 247673119635434194862080); (72443034612036439900160, 247911522185308679438336); (71631359858394710147072, 248147276618602270162944); (70818914989216700039168, 248380346906517948071936);
  (70005718018900919058432, 248610769077852732129280); (69191768947447367204864, 248838525118208112852992); (68377076782055299219456, 249063633041982599725056); (67561650529923969843200, 249286056820379173781504);
  (66745503701852261187584, 249505832482194853986304); (65928640801439800623104, 249722905984234111893504); (65111075339485470261248, 249937331369692475949056); (64292811819588897472512, 250149054595374417707008);
  (63473854745349709627392, 250358111690076956131328); (62654222131166416207872, 250564484639401581740032); (61833918480638644584448, 250768191457746804015104); (61012952800965649498112, 250969196116315603992576);
  (60191334099346685689856, 251167516629506491154432); (59369066879381380530176, 251363152997319465500672); (58546164651868616130560, 251556087205356017549312); (57722640927607274602496, 251746319253616147300352);
  (56898495706597355945984, 251933885170896873717760); (56073737996038114902016, 252118730914002668355584); (55248385810328060952576, 252300892511730550177792); (54422434645867566727168, 252480333935283500220416);
  (53595907020654769078272, 252657073199060027965440); (52768802934689668005888, 252831110303060133412864); (51941135898771145621504, 253002445247283816562688); (51112910416498829295616, 253171078031731077414912);
  (50284135495071973769216, 253336990642003406487552); (49454824645289461153792, 253500183078100803780608); (48624982370750918819840, 253660655340023269294080); (47794622182255228878848, 253818425442169312509952);
  (46963748583402018701312, 253973475370140423946240); (46132375084990170398720, 254125787109538094120960); (45300501687019683971072, 254275414703557851480064); (44468146403889068900352, 254422304109004167577600);
  (43635313739197952557056, 254566455325877042413568); (42802017203745217052672, 254707886368574985469952); (41968261301130489757696, 254846597237097996746752); (41134055038553025413120, 254982551902649057280000);
  (40299407423212078759936, 255115804408423695515648); (39464327462306904539136, 255246318725624892489728); (38628824163036757491712, 255374112868651157684224); (37792911036200519729152, 255499150808705472135168);
  (36956590333598004936704, 255621450560186345324544); (36119875566028095225856, 255741030137492286734336); (35282771237090417967104, 255857853511826277400576); (34445293109383668957184, 255971956711985336287232);
  (33607443434707661881344, 256083303709172444430336); (32769233472061465165824, 256191912517786111311872); (31930674480444147236864, 256297783137826336931840); (31091770963455335464960, 256400897554894611808256);
  (30252536431893911961600, 256501273783389445423104); (29412977641159317782528, 256598893808912328294400); (28573103598450807668736, 256693775645861769904128); (27732923310967636361216, 256785919294237770252288);
  (26892448037708872286208, 256875288725243310374912); (26051682282274142814208, 256961919967675409235968); (25210637303662516371456, 257045795007135557353472); (24369324360873061384192, 257126913843623754727424);
  (23527750209305218908160, 257205294491538510839808); (22685921604358429999104, 257280900922082806726656); (21843852056831576768512, 257353769164053661351936); (21001548322124100272128, 257423881203052565233664);
  (20159021659235068936192, 257491219024681008889856); (19316276571764110131200, 257555818657736011284480); (18473324318710292283392, 257617662087819062935552); (17630175033172776976384, 257676731300531654361088);
  (16786836596450912108544, 257733026295873785561088); (15943320267543766106112, 257786583102642475499520); (15099630550050966339584, 257837383706439214694400); (14255779828871488077824, 257885428107264003145728);
  (13411778237104492904448, 257930698290718331371520); (12567631404249515032576, 257973194256802199371776); (11723350589305622888448, 258012952034312626110464); (10878943673572164370432, 258049935594452592623616);
  (10034420790148301062144, 258084144937222098911232); (9189789820333380861952, 258115598077019654455296); (8345060334276611932160, 258144295013845259255808); (7500241902127202435072, 258170217733300403830784);
  (6655343531084407111680, 258193384249783597662208); (5810373665397527281664, 258213776548896331268096); (4965341312265817686016, 258231412645037114130432); (4120255760363509776384, 258246292538205946249216);
  (3275126298364835004416, 258258380199605808660480); (2429961651994071400448, 258267711658033720328192); (1584771109925450416128, 258274286913489681252352); (739563468251994259456, 258278087951575181950976)].

(** src/tables.c lines 155-156, lc3_fft_twiddles_bf3. *)
Definition tab_bf3 : list (@bf3_twiddles Z) := [fft_twiddles_15; fft_twiddles_45].
(** src/tables.c lines 609-615, lc3_fft_twiddles_bf2. *)
Definition tab_bf2 : list (list (@bf2_twiddles Z)) := [[fft_twiddles_10; fft_twiddles_30; fft_twiddles_90]; [fft_twiddles_20; fft_twiddles_60; fft_twiddles_180]; [fft_twiddles_40; fft_twiddles_120]; [fft_twiddles_80; fft_twiddles_240]; [fft_twiddles_160; fft_twiddles_480]].
(** src/tables.c lines 1448-1468, lc3_mdct_rot, by duration and sample rate. *)
Definition tab_rot : list (list (@mdct_rot Z)) := [
  [mdct_rot_40; mdct_rot_80; mdct_rot_120; mdct_rot_160; mdct_rot_240; mdct_rot_240; mdct_rot_480];
  [mdct_rot_80; mdct_rot_160; mdct_rot_240; mdct_rot_320; mdct_rot_480; mdct_rot_480; mdct_rot_960];
  [mdct_rot_120; mdct_rot_240; mdct_rot_360; mdct_rot_480; mdct_rot_720];
  [mdct_rot_160; mdct_rot_320; mdct_rot_480; mdct_rot_640; mdct_rot_960; mdct_rot_960; mdct_rot_1920]].
(** src/mdct.c lines 38-42. *)
Definition tab_5 : @fft5_consts Z := mkK5 (373578633121965298155520) (-978041542929279885508608) (-1149756807134295218978816) (-710588757845622548070400).
