(** * The emission numbers of the tagger, states B

    Generated from jieba/posseg/prob_emit.py, the entries with the key ('B', tag): one row
    per tag, in the order of [pos_tags]; in a row, every number with the characters that
    have it (27578 entries in all).  [(m, e)] is the binary64 number [m * 2^e], the exact
    value of the decimal number in the file as Python reads it. *)
From Verif Require Import PyBase.

Definition pos_emit_B : list (list (Z * Z * list N)) := [
  (* ('B', 'a') *)
  [
   ((-8148623264239839, -51)%Z, [19968]%N);
   ((-5911293639022895, -49)%Z, [19975; 20520; 27700; 28825; 29002; 30922; 32972; 33836; 36343; 36474; 38281;
     38381]%N);
   ((-1202059015918673, -47)%Z, [19978]%N);
   ((-4754237835530889, -49)%Z, [19979; 21051; 21696; 32098; 32474]%N);
   ((-787872880119935, -48)%Z, [19981]%N);
   ((-8824779891637527, -50)%Z, [19985; 37240; 37276]%N);
   ((-2181158481354417, -48)%Z, [19987; 23560]%N);
   ((-3227292942249215, -48)%Z, [19990; 20984; 21619; 22122; 22604; 24102; 24118; 25215; 26103; 26336; 31491; 31716;
     32829; 34850; 34892; 38665; 40692]%N);
   ((-4720917463138643, -49)%Z, [19999; 20002; 20940; 22024]%N);
   ((-2447384955465337, -49)%Z, [20005; 22196]%N);
   ((-5400854936197769, -49)%Z, [20007; 21930; 27513]%N);
   ((-1748173518700593, -48)%Z, [20010; 20491]%N);
   ((-7912169328056093, -50)%Z, [20013]%N);
   ((-1308745120497057, -48)%Z, [20016; 35920]%N);
   ((-2616758602453541, -48)%Z, [20026; 28858; 28907; 29145; 35215; 35268; 36066; 36132]%N);
   ((-1808750057629775, -47)%Z, [20029; 20360; 22108; 22165; 25370; 25711; 25805; 26089; 29390; 29808; 31378; 34013;
     34164; 34253; 34256; 34314; 34382; 38470; 38520; 38712; 40599]%N);
   ((-784414046424801, -46)%Z, [20037; 26179; 26364; 26391; 26688; 31922; 32382; 32561; 36771; 36798; 36948; 37504;
     37782; 38134; 38145; 39010; 39071]%N);
   ((-5202234159787853, -49)%Z, [20041; 32681]%N);
   ((-4250907097218061, -49)%Z, [20047]%N);
   ((-794438251528771, -47)%Z, [20048; 27138]%N);
   ((-4907108410011623, -49)%Z, [20054; 20256; 20659; 29992]%N);
   ((-7625207403529435, -49)%Z, [20081; 20098; 20132; 20171; 20280; 20918; 21475; 22353; 22829; 23451; 23613; 24038;
     24343; 24429; 24796; 25169; 25289; 25361; 25490; 25778; 26412; 26435; 26775; 27402; 27462; 27877; 27975; 28107;
     28349; 28550; 28784; 29030; 29677; 30433; 31119; 31454; 31478; 32350; 32469; 33151; 36777; 36783; 36896; 37389;
     38045]%N);
   ((-8283048807362629, -50)%Z, [20102]%N);
   ((-314545441364389, -45)%Z, [20105; 29229]%N);
   ((-3090634641109219, -48)%Z, [20111; 20801; 27450; 29074; 31964; 33639; 34407; 39361; 39539]%N);
   ((-643055626067653, -46)%Z, [20123; 25032; 33495]%N);
   ((-4989401847307385, -49)%Z, [20130; 24691; 25031; 26543]%N);
   ((-2335697723253093, -48)%Z, [20142]%N);
   ((-6951564032205173, -50)%Z, [20146; 35242]%N);
   ((-7006743666795641, -49)%Z, [20149; 20381; 20961; 21595; 21958; 22925; 23624; 23697; 24753; 24797; 24935; 25106;
     28085; 28343; 35131; 36300; 38753; 39131; 39134; 39873; 40096]%N);
   ((-2393005734437935, -48)%Z, [20161; 28014]%N);
   ((-8436368175563615, -50)%Z, [20174; 24478]%N);
   ((-2451311364639383, -48)%Z, [20179; 20489; 25991]%N);
   ((-5151352456594261, -49)%Z, [20183; 29712; 29795; 33609; 35905; 36299]%N);
   ((-5769816193328055, -49)%Z, [20215; 20729; 23578; 25197; 27833; 39405; 39559]%N);
   ((-4963924651180845, -49)%Z, [20219; 25402; 30450; 36877]%N);
   ((-798534991257731, -46)%Z, [20239; 20570; 29096; 32346; 32557; 39003; 39072]%N);
   ((-6063775551029357, -50)%Z, [20248; 20778]%N);
   ((-6139550202746353, -49)%Z, [20250; 20508; 24046; 24608; 26371; 33039; 33247; 35998; 36126; 38393; 39719]%N);
   ((-7192398302861399, -50)%Z, [20255; 20553; 22855]%N);
   ((-7450678005733229, -50)%Z, [20260; 20663]%N);
   ((-4920783980161845, -49)%Z, [20278; 20882; 22307; 32854]%N);
   ((-6519162054217033, -50)%Z, [20302]%N);
   ((-4525981271807431, -49)%Z, [20307; 24618; 25955; 39636]%N);
   ((-1327747788293045, -47)%Z, [20309]%N);
   ((-2874671514868009, -48)%Z, [20358; 20465; 23409; 24825; 25943; 26469; 31368; 36133]%N);
   ((-5534652181551559, -49)%Z, [20384; 20448; 28843; 29436; 30240; 37559; 38144]%N);
   ((-4539881976915031, -49)%Z, [20389; 20709; 36367]%N);
   ((-6530804380170445, -50)%Z, [20415; 35641; 35880]%N);
   ((-5860081080719327, -49)%Z, [20419; 21170; 21185; 26381; 27611; 33643; 34093; 36887; 39348; 39535]%N);
   ((-4708122595253185, -49)%Z, [20426; 24779; 27946]%N);
   ((-5130879293002225, -49)%Z, [20431; 20837; 25042; 25078; 27801; 27900; 28149; 28170; 28497; 31258]%N);
   ((-5623724377917417, -49)%Z, [20439; 32905; 35299; 36208]%N);
   ((-1862118130097919, -48)%Z, [20445]%N);
   ((-85466779807953, -43)%Z, [20461; 20745; 25958; 26408; 36946]%N);
   ((-159322805258235, -44)%Z, [20462; 20945; 28234; 30233]%N);
   ((-8704285782906171, -50)%Z, [20498; 29409; 36797; 36988]%N);
   ((-4734009912610743, -49)%Z, [20500; 33499]%N);
   ((-372977226084737, -45)%Z, [20517; 25248; 25715; 25950; 29702; 30343; 35937]%N);
   ((-5283964365467425, -49)%Z, [20518; 22073; 25000; 25578]%N);
   ((-273841302873883, -45)%Z, [20540; 21329]%N);
   ((-8485092601334321, -50)%Z, [20559; 33030]%N);
   ((-2344729780844161, -48)%Z, [20572; 35480; 35825]%N);
   ((-5931449948554899, -50)%Z, [20581]%N);
   ((-1971467435079037, -48)%Z, [20598]%N);
   ((-249177829487211, -45)%Z, [20625; 26480]%N);
   ((-4819686287968585, -49)%Z, [20658; 36874; 36956]%N);
   ((-5016086935485157, -49)%Z, [20687; 21334; 36067]%N);
   ((-4778794062921901, -49)%Z, [20725; 38543; 38568]%N);
   ((-1271454813611423, -47)%Z, [20731; 25195; 25475]%N);
   ((-2722957487377151, -48)%Z, [20803; 27465; 40823; 40844]%N);
   ((-6550976165601689, -50)%Z, [20805]%N);
   ((-7711615430105771, -50)%Z, [20807; 20982; 24904]%N);
   ((-6410668396916749, -50)%Z, [20808]%N);
   ((-1874792981716153, -48)%Z, [20809; 26580; 31354]%N);
   ((-2267605083128523, -48)%Z, [20839; 20869]%N);
   ((-6730341015389629, -50)%Z, [20844]%N);
   ((-5885105198388073, -49)%Z, [20851; 25302; 37329; 38364; 39740]%N);
   ((-8092120791477303, -50)%Z, [20852; 33288]%N);
   ((-688483235175333, -47)%Z, [20855]%N);
   ((-4642519888819889, -49)%Z, [20856]%N);
   ((-5592441332798187, -49)%Z, [20859; 29575; 37145; 39178]%N);
   ((-5369279373559137, -49)%Z, [20887; 24581; 24757]%N);
   ((-2969380029834747, -48)%Z, [20901; 23525; 24347; 24749; 24947; 24949; 30196; 39015; 39038]%N);
   ((-6844793057508765, -49)%Z, [20908; 20928; 22914; 25062; 27424; 27589; 28136; 29367; 29406; 29552; 29559; 29616;
     29694; 30355; 32852; 32879; 32881; 33080; 33192; 33225; 33615; 33707]%N);
   ((-489110331690303, -46)%Z, [20914; 34909]%N);
   ((-7040739760420903, -50)%Z, [20919; 35443; 35814]%N);
   ((-7961461875126513, -50)%Z, [20932; 28114]%N);
   ((-6986829999531441, -50)%Z, [20934; 28310]%N);
   ((-8972454231267219, -50)%Z, [20937; 28092]%N);
   ((-1334845299968109, -47)%Z, [20939; 24528; 32850]%N);
   ((-2753919986795755, -48)%Z, [20955; 20956; 37219]%N);
   ((-2455815060347235, -48)%Z, [20957]%N);
   ((-901372423877143, -47)%Z, [20986]%N);
   ((-5292829902289101, -49)%Z, [20993; 25276]%N);
   ((-8993982610050881, -50)%Z, [20998]%N);
   ((-1556582330193743, -47)%Z, [20999; 21076; 24426; 26070; 27769; 27958; 28354; 29152; 29801; 30424; 30436; 33147;
     33193; 33721; 35082]%N);
   ((-303986449718049, -45)%Z, [21010; 21123; 30702]%N);
   ((-8499009959096455, -50)%Z, [21018; 21083; 24858]%N);
   ((-4408661786806113, -49)%Z, [21029; 21035]%N);
   ((-6658732762513261, -50)%Z, [21033]%N);
   ((-2249584531923691, -48)%Z, [21050; 26292; 28287; 28629]%N);
   ((-1427625873986509, -47)%Z, [21066; 28385; 28415; 36481]%N);
   ((-7317575615516285, -50)%Z, [21095; 21127]%N);
   ((-5640042910450013, -49)%Z, [21117; 22806; 24076; 24646; 24658; 25300; 34074; 35571; 35865; 36828; 36960]%N);
   ((-8510269051991281, -50)%Z, [21160; 21205]%N);
   ((-408109835984793, -45)%Z, [21164; 21348; 21927; 24807; 25084; 26157; 35469; 35748; 40565]%N);
   ((-2119206005350977, -48)%Z, [21171; 21214]%N);
   ((-5434307347983941, -49)%Z, [21183; 21218; 26495; 30315; 30322; 32831]%N);
   ((-3869899813924793, -49)%Z, [21191]%N);
   ((-8287682146851441, -50)%Z, [21220]%N);
   ((-4800729953092785, -49)%Z, [21243; 21248]%N);
   ((-4521422947684135, -49)%Z, [21254]%N);
   ((-2624917868719839, -48)%Z, [21319; 24575]%N);
   ((-1020062501295929, -47)%Z, [21326; 33775]%N);
   ((-8013011679368703, -50)%Z, [21331]%N);
   ((-6446287022679997, -50)%Z, [21333; 21934]%N);
   ((-8697583977958799, -50)%Z, [21338; 26114]%N);
   ((-7984279022008359, -50)%Z, [21361]%N);
   ((-7335368960662479, -50)%Z, [21385; 21426]%N);
   ((-265506646587759, -45)%Z, [21402; 33579]%N);
   ((-6662015271855369, -50)%Z, [21407]%N);
   ((-2593610635667561, -48)%Z, [21442; 21443; 23478; 29157]%N);
   ((-7727029359677833, -50)%Z, [21451]%N);
   ((-1952237277471587, -48)%Z, [21453]%N);
   ((-5907650473544411, -50)%Z, [21457; 30332]%N);
   ((-4588865027538467, -49)%Z, [21463]%N);
   ((-6564962679710815, -50)%Z, [21476; 32654]%N);
   ((-6064378711488095, -49)%Z, [21483; 24717; 27745; 31310; 32189; 32305; 32437; 32496; 32993; 33436; 34154; 38451;
     38525; 39062]%N);
   ((-342686443923339, -46)%Z, [21487]%N);
   ((-7474100245193615, -50)%Z, [21507]%N);
   ((-8667909934860273, -50)%Z, [21508]%N);
   ((-5351910360109675, -50)%Z, [21512]%N);
   ((-4859628564429343, -49)%Z, [21513; 26840]%N);
   ((-2202479077666455, -48)%Z, [21517; 25166; 32670]%N);
   ((-723882763651013, -46)%Z, [21523; 22151; 22303; 27530; 32013; 32435]%N);
   ((-2612765982649531, -48)%Z, [21533]%N);
   ((-2081963731365091, -48)%Z, [21547]%N);
   ((-4677352644460911, -49)%Z, [21548; 23113; 32893]%N);
   ((-1206862809505127, -47)%Z, [21574; 28129]%N);
   ((-4029713988186693, -49)%Z, [21608; 36913]%N);
   ((-5411786346726555, -49)%Z, [21629; 22068]%N);
   ((-1729342303983885, -48)%Z, [21644]%N);
   ((-2238880771635843, -48)%Z, [21709; 38911]%N);
   ((-164851133886849, -44)%Z, [21807; 30140; 32313; 32549; 33725; 37239]%N);
   ((-8407597971449395, -50)%Z, [21892]%N);
   ((-8342382867763065, -50)%Z, [21916; 26263; 32080; 32467]%N);
   ((-6616536493785307, -49)%Z, [21943; 22132; 22475; 24726; 25237; 28866; 29211; 31563; 32771; 32982; 37000]%N);
   ((-4872185589583045, -49)%Z, [22070]%N);
   ((-5194677671117101, -49)%Z, [22179; 22210]%N);
   ((-919054497804929, -47)%Z, [22242; 22296]%N);
   ((-8262431549347601, -50)%Z, [22256]%N);
   ((-749686278999225, -47)%Z, [22266]%N);
   ((-8139953821467053, -50)%Z, [22278; 22291]%N);
   ((-2505323881593717, -48)%Z, [22312; 24623; 29424; 29465; 36196; 37255]%N);
   ((-4835324792288727, -49)%Z, [22320]%N);
   ((-3415690443118347, -49)%Z, [22343]%N);
   ((-2440357648756821, -48)%Z, [22350; 22904; 23014]%N);
   ((-1573844686055017, -48)%Z, [22362; 22533]%N);
   ((-8339948488637725, -50)%Z, [22374]%N);
   ((-8938842782838017, -50)%Z, [22519; 25191]%N);
   ((-4712223248312533, -50)%Z, [22522]%N);
   ((-5562805545484645, -49)%Z, [22530; 24069; 24101; 27178; 27243; 32570; 33324]%N);
   ((-490864767988129, -46)%Z, [22766; 22767]%N);
   ((-184869069490339, -45)%Z, [22797]%N);
   ((-7372851771313393, -50)%Z, [22810]%N);
   ((-5548552886659159, -49)%Z, [22815; 22816; 32943; 37221]%N);
   ((-8198455286688707, -50)%Z, [22823]%N);
   ((-8882334154154153, -50)%Z, [22825; 30246]%N);
   ((-8141991649909057, -50)%Z, [22826]%N);
   ((-7433153918009541, -50)%Z, [22833]%N);
   ((-3972965987511333, -49)%Z, [22836; 38957]%N);
   ((-8444343887122557, -50)%Z, [22882; 26274; 30021]%N);
   ((-6100710668956371, -49)%Z, [22885; 22887; 25769; 26085; 30382; 36461]%N);
   ((-1646696519798223, -48)%Z, [22909]%N);
   ((-2568810644597069, -48)%Z, [22934; 29572; 32724; 33125; 38290; 38386]%N);
   ((-6328967232679829, -49)%Z, [22937; 23194; 24826; 28601; 29943; 39377; 39549]%N);
   ((-8635830844485699, -50)%Z, [22949; 28799; 29158]%N);
   ((-4771668018992463, -49)%Z, [22953; 23285]%N);
   ((-4554134635740517, -49)%Z, [22996; 35519; 35843]%N);
   ((-8115783306683149, -50)%Z, [23041; 23458; 32966; 33213]%N);
   ((-2196995625485079, -48)%Z, [23047; 23308]%N);
   ((-5836122147764637, -49)%Z, [23071; 23104; 23521; 30149]%N);
   ((-4934800055687601, -49)%Z, [23092; 23291]%N);
   ((-5729588372882771, -49)%Z, [23391; 23803; 28903; 29138]%N);
   ((-1985200645402337, -48)%Z, [23396]%N);
   ((-2214739557479125, -48)%Z, [23425; 23527]%N);
   ((-4949174026862101, -49)%Z, [23432; 24853; 30524]%N);
   ((-3242704337150327, -49)%Z, [23433]%N);
   ((-6050329899030363, -50)%Z, [23436]%N);
   ((-7866540511817035, -50)%Z, [23439]%N);
   ((-1175458146550477, -47)%Z, [23452]%N);
   ((-8308771419333863, -50)%Z, [23453; 23542; 24685]%N);
   ((-8734947584470269, -50)%Z, [23454; 23526]%N);
   ((-8843639627534365, -50)%Z, [23457; 23529]%N);
   ((-2380572641791963, -48)%Z, [23475]%N);
   ((-5570926289994083, -50)%Z, [23481]%N);
   ((-1428010375700211, -48)%Z, [23485; 23532]%N);
   ((-961708365189155, -47)%Z, [23490]%N);
   ((-3567960179125419, -49)%Z, [23494]%N);
   ((-3543862160326063, -49)%Z, [23500]%N);
   ((-954695082069095, -47)%Z, [23506]%N);
   ((-3897687400285203, -49)%Z, [23545; 23565]%N);
   ((-1048390812510931, -47)%Z, [23547; 23563]%N);
   ((-6481668139608199, -50)%Z, [23553; 38590; 38627]%N);
   ((-4692527416438387, -49)%Z, [23562]%N);
   ((-2513562761769953, -48)%Z, [23567; 31896]%N);
   ((-8337519361682863, -50)%Z, [23569; 34928]%N);
   ((-1679793601422541, -47)%Z, [23572; 24367; 24398; 27454; 29246; 29275; 31229; 31330; 33261; 33907; 40723]%N);
   ((-1921369630615535, -48)%Z, [23574]%N);
   ((-7871341798013447, -50)%Z, [23604; 23607]%N);
   ((-5217658411030843, -49)%Z, [23616; 24971]%N);
   ((-2555562318074489, -48)%Z, [23646; 23660; 24681]%N);
   ((-1507562520865087, -47)%Z, [23789; 27915; 29053; 32047; 35342; 35752; 37658; 38126]%N);
   ((-8914276719408997, -50)%Z, [23815]%N);
   ((-4686408334958917, -49)%Z, [23822; 31351; 31406; 33395; 33399]%N);
   ((-2387609882747969, -48)%Z, [24037]%N);
   ((-8493422355038473, -50)%Z, [24039; 32899; 32901]%N);
   ((-5581788488372871, -50)%Z, [24040]%N);
   ((-6031396158446545, -50)%Z, [24120]%N);
   ((-5922040068043827, -50)%Z, [24178; 24185]%N);
   ((-971318391333979, -48)%Z, [24179]%N);
   ((-3149075705149773, -49)%Z, [24180]%N);
   ((-1670339089839983, -48)%Z, [24184]%N);
   ((-8976727101317173, -50)%Z, [24188]%N);
   ((-3882891543272561, -49)%Z, [24189]%N);
   ((-5423627723737591, -50)%Z, [24191; 24291]%N);
   ((-3953595566590073, -49)%Z, [24196; 33674]%N);
   ((-1803638419859383, -48)%Z, [24222; 40848]%N);
   ((-5179862343625661, -49)%Z, [24247; 24684; 26124; 39791; 40065]%N);
   ((-8323053639263951, -50)%Z, [24248]%N);
   ((-8547658691572781, -50)%Z, [24265]%N);
   ((-8133862373388327, -50)%Z, [24320; 38283]%N);
   ((-3286263772584979, -49)%Z, [24322; 30064]%N);
   ((-5457766990481581, -49)%Z, [24352; 24373; 25305; 29301; 29309; 35672; 35782]%N);
   ((-5073580729981347, -49)%Z, [24369; 24812; 24860; 39340; 39532]%N);
   ((-5045601685507387, -50)%Z, [24375; 24378]%N);
   ((-2625334466041465, -49)%Z, [24456]%N);
   ((-7223539360865941, -50)%Z, [24471]%N);
   ((-7174118892428929, -50)%Z, [24494]%N);
   ((-7688201377251945, -50)%Z, [24515]%N);
   ((-3100290981092919, -49)%Z, [24517]%N);
   ((-8374518306664093, -50)%Z, [24537; 27427]%N);
   ((-8086282058045661, -50)%Z, [24544]%N);
   ((-8063225281513695, -50)%Z, [24551; 24962]%N);
   ((-7316595293376125, -50)%Z, [24555]%N);
   ((-2906570703925447, -48)%Z, [24565; 33537; 36457]%N);
   ((-1423011116678785, -47)%Z, [24568; 24811; 24970; 27602; 37610; 38138]%N);
   ((-2240989208286355, -48)%Z, [24597; 32768]%N);
   ((-1242232170928837, -47)%Z, [24609; 30805; 30889; 31680; 33410]%N);
   ((-3714949150776343, -49)%Z, [24613]%N);
   ((-2402235249053383, -48)%Z, [24615]%N);
   ((-4711294152675261, -49)%Z, [24653; 28218; 32942; 39599; 40664]%N);
   ((-3689524700564397, -49)%Z, [24656]%N);
   ((-5422934234840559, -49)%Z, [24674; 25212; 26214; 33945]%N);
   ((-8741876221147183, -50)%Z, [24688]%N);
   ((-912266192234395, -47)%Z, [24694; 24801]%N);
   ((-1170843389242753, -47)%Z, [24700; 24817; 25918]%N);
   ((-2458094222408883, -48)%Z, [24709; 24742; 30828]%N);
   ((-5656848634664615, -49)%Z, [24730; 25630; 28548; 32147; 32463; 37003]%N);
   ((-7441881867971369, -50)%Z, [24736]%N);
   ((-8755862735256309, -50)%Z, [24748; 25080]%N);
   ((-3344593396329633, -49)%Z, [24754]%N);
   ((-1255394793429055, -47)%Z, [24758; 38391]%N);
   ((-672451127539715, -46)%Z, [24773; 27927; 37679; 38169]%N);
   ((-5038384897930821, -49)%Z, [24774; 28120]%N);
   ((-2950471006669631, -49)%Z, [24778; 39514]%N);
   ((-8158428436817347, -50)%Z, [24808; 24920]%N);
   ((-2247410969179249, -48)%Z, [24813; 24922]%N);
   ((-8874488130020347, -50)%Z, [24822]%N);
   ((-5049874071264991, -49)%Z, [24833]%N);
   ((-3878527568291647, -49)%Z, [24841]%N);
   ((-3333753738706831, -49)%Z, [24847]%N);
   ((-3548680591626477, -49)%Z, [24859; 29233]%N);
   ((-2128275376520241, -48)%Z, [24863; 35435; 35815]%N);
   ((-4259393940667003, -49)%Z, [24868; 24996]%N);
   ((-5165426938506273, -49)%Z, [24871; 31364; 31548; 31840; 34542; 34875]%N);
   ((-516971762349637, -46)%Z, [24908]%N);
   ((-8802557461548553, -50)%Z, [24910; 36575; 36719]%N);
   ((-4615053468173289, -49)%Z, [24951]%N);
   ((-4612379116571613, -49)%Z, [24980]%N);
   ((-4528274350144671, -49)%Z, [25026]%N);
   ((-4949560227835815, -50)%Z, [25104]%N);
   ((-639704100072647, -46)%Z, [25163; 25343; 27922; 28753]%N);
   ((-2331288103407317, -48)%Z, [25233; 33268]%N);
   ((-8821045560164901, -50)%Z, [25250; 25654]%N);
   ((-2304858704852793, -48)%Z, [25265; 26356; 36426; 37586; 38155]%N);
   ((-1014971982966013, -47)%Z, [25277]%N);
   ((-5998072757051513, -49)%Z, [25303; 29113; 30669; 33457]%N);
   ((-285547345912583, -45)%Z, [25304]%N);
   ((-8828526650192861, -50)%Z, [25317; 25793]%N);
   ((-2674585940310999, -48)%Z, [25326; 32599; 32645; 32932; 33178]%N);
   ((-8200601902985943, -50)%Z, [25345]%N);
   ((-5301837293704805, -49)%Z, [25705; 32032; 32186; 32191; 32494; 32501; 33219; 36802; 39501; 39553]%N);
   ((-71581879791327, -43)%Z, [25932; 25973]%N);
   ((-6914623117240435, -50)%Z, [25935]%N);
   ((-7783444623709013, -50)%Z, [25972]%N);
   ((-4958964707611663, -49)%Z, [26031]%N);
   ((-1730202821244477, -48)%Z, [26032]%N);
   ((-6561449728633601, -50)%Z, [26041]%N);
   ((-1679401441245503, -48)%Z, [26080; 28961]%N);
   ((-142166985730887, -44)%Z, [26102; 26178]%N);
   ((-3948650147200859, -49)%Z, [26106; 30528; 33879]%N);
   ((-2195386468131915, -49)%Z, [26126]%N);
   ((-8617013137814349, -50)%Z, [26127]%N);
   ((-2312939881237411, -48)%Z, [26131; 36229]%N);
   ((-1595954685540263, -48)%Z, [26174; 39023]%N);
   ((-5955470829393813, -50)%Z, [26222]%N);
   ((-4040236723595229, -49)%Z, [26223]%N);
   ((-4653893001963271, -49)%Z, [26228; 28487; 28703; 30772; 38472; 38515]%N);
   ((-2295714862122563, -48)%Z, [26230]%N);
   ((-2286858739085255, -48)%Z, [26262]%N);
   ((-1236085452187713, -47)%Z, [26279; 26326; 29312; 30465]%N);
   ((-3872044387769513, -49)%Z, [26354]%N);
   ((-3593540576034641, -50)%Z, [26368]%N);
   ((-8643599967331169, -51)%Z, [26377]%N);
   ((-1901044798706957, -48)%Z, [26406]%N);
   ((-8257900758900019, -50)%Z, [26420; 27192]%N);
   ((-7358521942700359, -50)%Z, [26426; 27231]%N);
   ((-18557873581349, -41)%Z, [26434; 38620]%N);
   ((-7686839126744753, -50)%Z, [26494]%N);
   ((-6499547410625417, -50)%Z, [26497; 26997]%N);
   ((-2160543489832463, -48)%Z, [26524; 36027; 36153]%N);
   ((-623026666468171, -46)%Z, [26631; 27161; 30162; 30306; 33806; 38738]%N);
   ((-5508259071526039, -50)%Z, [26681]%N);
   ((-4704968805753007, -49)%Z, [26862]%N);
   ((-4607068228565269, -49)%Z, [27054; 33635]%N);
   ((-7935696450831117, -50)%Z, [27169]%N);
   ((-7767244345552111, -50)%Z, [27426; 27489]%N);
   ((-4923877684758525, -50)%Z, [27491]%N);
   ((-5577428444345457, -49)%Z, [27494; 32819]%N);
   ((-2586299186237155, -48)%Z, [27515; 32285; 32540]%N);
   ((-3681809413698793, -49)%Z, [27531; 27544]%N);
   ((-8684298869168227, -50)%Z, [27575]%N);
   ((-1618904037793225, -48)%Z, [27665]%N);
   ((-1952616879655501, -48)%Z, [27668; 27683]%N);
   ((-1499676362643929, -48)%Z, [27784; 27785]%N);
   ((-4475664892976895, -49)%Z, [27794; 27809; 27985; 28222]%N);
   ((-2233677758855949, -48)%Z, [27822]%N);
   ((-4724162140440471, -49)%Z, [27905; 28500]%N);
   ((-8150180048960157, -50)%Z, [27963]%N);
   ((-8405018589091367, -50)%Z, [27969]%N);
   ((-4656772547645375, -49)%Z, [27973; 28154; 39165; 39281]%N);
   ((-1779016405135945, -48)%Z, [27987; 28611]%N);
   ((-4594006158735033, -49)%Z, [28009]%N);
   ((-1082677572532077, -47)%Z, [28010; 29087]%N);
   ((-245630327537747, -45)%Z, [28040]%N);
   ((-4278233148844255, -49)%Z, [28139]%N);
   ((-1498387451407463, -48)%Z, [28145]%N);
   ((-5092039759212243, -49)%Z, [28147; 31216; 31281; 35452; 35801]%N);
   ((-7006000991567061, -50)%Z, [28151]%N);
   ((-4773900427526313, -50)%Z, [28165]%N);
   ((-201263180389807, -45)%Z, [28201; 28331]%N);
   ((-1203960902812537, -47)%Z, [28237; 38745; 38748]%N);
   ((-8832285918816661, -50)%Z, [28369]%N);
   ((-3661245035375863, -49)%Z, [28418]%N);
   ((-3850957654685215, -49)%Z, [28459]%N);
   ((-1314543972323089, -47)%Z, [28518]%N);
   ((-8094073783999677, -50)%Z, [28526; 38544; 38577]%N);
   ((-2964723665495117, -49)%Z, [28608]%N);
   ((-7278066301809791, -50)%Z, [28779]%N);
   ((-6646237725776673, -50)%Z, [28789; 38728]%N);
   ((-269968685466237, -45)%Z, [28814]%N);
   ((-2394827585307663, -48)%Z, [28861; 29118; 38752]%N);
   ((-3707414335283265, -49)%Z, [28902; 29033]%N);
   ((-2850236472861, -39)%Z, [28909; 29105; 29305]%N);
   ((-7297165994892225, -50)%Z, [28966]%N);
   ((-133648793231933, -44)%Z, [29245]%N);
   ((-4727425627570841, -49)%Z, [29255]%N);
   ((-8580295756637973, -50)%Z, [29282]%N);
   ((-7500324922261681, -50)%Z, [29369; 29494]%N);
   ((-8135889196450247, -50)%Z, [29378; 33510]%N);
   ((-4867968716282021, -49)%Z, [29408]%N);
   ((-3334029087185503, -49)%Z, [29420; 29544]%N);
   ((-7329406546515445, -50)%Z, [29421; 29433]%N);
   ((-1134385306323879, -47)%Z, [29462]%N);
   ((-1992108353462955, -48)%Z, [29467]%N);
   ((-2486988798032197, -48)%Z, [29618; 35211; 35265]%N);
   ((-895582638204829, -47)%Z, [29645]%N);
   ((-5241617343985533, -49)%Z, [29976; 30591]%N);
   ((-8795246397502727, -50)%Z, [29980]%N);
   ((-1831362268381029, -48)%Z, [29983]%N);
   ((-336883234732891, -45)%Z, [30031]%N);
   ((-4680355051329321, -49)%Z, [30095]%N);
   ((-3526151683379935, -49)%Z, [30127; 30219]%N);
   ((-6599153067496761, -50)%Z, [30130]%N);
   ((-1983076295871887, -48)%Z, [30171]%N);
   ((-4994638628823341, -49)%Z, [30333; 30684]%N);
   ((-267946591965661, -45)%Z, [30452]%N);
   ((-5286909381265735, -50)%Z, [30456]%N);
   ((-6419909761304549, -50)%Z, [30495]%N);
   ((-7163805233376329, -50)%Z, [30693]%N);
   ((-619256010360007, -46)%Z, [30699; 30703; 38346; 38420]%N);
   ((-936678074349853, -47)%Z, [30701]%N);
   ((-8177211261968141, -50)%Z, [30830; 30906]%N);
   ((-2533779908735623, -48)%Z, [30861; 31001]%N);
   ((-3223822446039483, -49)%Z, [31070]%N);
   ((-4885029111368833, -49)%Z, [31077]%N);
   ((-1191157763236645, -47)%Z, [31163; 37555; 38160; 38626]%N);
   ((-8292334632425573, -50)%Z, [31168]%N);
   ((-1712500459875167, -48)%Z, [31169]%N);
   ((-7011218676739443, -50)%Z, [31232]%N);
   ((-8658189875294293, -50)%Z, [31264]%N);
   ((-4926806818797437, -50)%Z, [31283; 31337]%N);
   ((-3069509424161969, -49)%Z, [31361]%N);
   ((-5079666734698657, -49)%Z, [31384]%N);
   ((-1209825813436947, -47)%Z, [31389; 31401]%N);
   ((-1178620919839267, -47)%Z, [31471]%N);
   ((-4578721510705013, -49)%Z, [31528]%N);
   ((-2722865091028831, -49)%Z, [31616; 31777]%N);
   ((-6908468775064907, -50)%Z, [31895]%N);
   ((-702039529228335, -47)%Z, [31934]%N);
   ((-7876163646526099, -50)%Z, [31946]%N);
   ((-8878404307557625, -50)%Z, [31967]%N);
   ((-8700929893963109, -50)%Z, [32005; 32418]%N);
   ((-8629523265485343, -50)%Z, [32010]%N);
   ((-7735526757799633, -50)%Z, [32020; 32431]%N);
   ((-4617740585224765, -49)%Z, [32027; 32439]%N);
   ((-1400049860302457, -48)%Z, [32039; 32202]%N);
   ((-6682471663965093, -50)%Z, [32048; 32454]%N);
   ((-3810373107814319, -49)%Z, [32085; 32477]%N);
   ((-3482912573163385, -49)%Z, [32233; 32531]%N);
   ((-2803932792020589, -48)%Z, [32244; 32451; 36562; 36713; 36870]%N);
   ((-6617435304839255, -50)%Z, [32321]%N);
   ((-2489536100274401, -48)%Z, [32399; 32544; 36837]%N);
   ((-580667712375747, -46)%Z, [32406; 32420]%N);
   ((-7634957418614193, -50)%Z, [32597]%N);
   ((-3761229604017951, -49)%Z, [32769]%N);
   ((-7258354336835551, -50)%Z, [32784]%N);
   ((-7438600952856551, -50)%Z, [32874; 32880]%N);
   ((-7171531606939151, -50)%Z, [32933]%N);
   ((-644793214206103, -46)%Z, [33021]%N);
   ((-1133222179965117, -47)%Z, [33104]%N);
   ((-4999924582715921, -49)%Z, [33148; 38758]%N);
   ((-2704925320521823, -49)%Z, [33258]%N);
   ((-7026260983408919, -50)%Z, [33298]%N);
   ((-1453714856359013, -48)%Z, [33391]%N);
   ((-6764623030997879, -50)%Z, [33392; 33393]%N);
   ((-3950293797867535, -49)%Z, [33485; 33980]%N);
   ((-1951101532917711, -48)%Z, [33521]%N);
   ((-4148503211487191, -49)%Z, [33538]%N);
   ((-3743853225975041, -49)%Z, [33618]%N);
   ((-8601568452462243, -50)%Z, [33831; 34157]%N);
   ((-6814316682256251, -50)%Z, [33853]%N);
   ((-8836057781328715, -50)%Z, [34028]%N);
   ((-507736414324441, -46)%Z, [34180]%N);
   ((-4390382585065461, -49)%Z, [34388]%N);
   ((-7323475541192621, -50)%Z, [34394; 34395]%N);
   ((-2324088862460243, -48)%Z, [34880]%N);
   ((-7751273866336071, -50)%Z, [34987]%N);
   ((-7762866245776837, -50)%Z, [35201]%N);
   ((-8562376546991703, -50)%Z, [35437; 35809]%N);
   ((-7786415337587731, -50)%Z, [35488; 35802]%N);
   ((-2747449012688869, -48)%Z, [35559; 35856]%N);
   ((-4214224282802671, -49)%Z, [35609; 35878]%N);
   ((-7355474850429577, -50)%Z, [35946]%N);
   ((-1753927576166315, -48)%Z, [36007; 36139]%N);
   ((-4285650251571775, -49)%Z, [36010; 36138]%N);
   ((-71046300027695, -43)%Z, [36020; 36149]%N);
   ((-2279483426925883, -48)%Z, [36028; 36148]%N);
   ((-579267293138753, -46)%Z, [36062; 36175]%N);
   ((-4782391199463975, -49)%Z, [36074; 36136]%N);
   ((-4876434288643945, -49)%Z, [36215]%N);
   ((-5019569647863651, -50)%Z, [36611; 36739]%N);
   ((-398641829479349, -46)%Z, [36629; 36731]%N);
   ((-8014832051482057, -50)%Z, [36637; 36745]%N);
   ((-8255642182602317, -50)%Z, [36763]%N);
   ((-4551733992642311, -49)%Z, [36776]%N);
   ((-4275293455723297, -49)%Z, [36805]%N);
   ((-499573716429937, -46)%Z, [36807; 36942]%N);
   ((-4082327313642021, -49)%Z, [36817]%N);
   ((-5304163642624557, -50)%Z, [36830; 36899]%N);
   ((-3792059043348657, -49)%Z, [36831; 36978]%N);
   ((-4179786256606421, -49)%Z, [36843]%N);
   ((-4104614765348163, -49)%Z, [36855]%N);
   ((-2885032750230211, -49)%Z, [36866; 36969]%N);
   ((-3646660023916447, -49)%Z, [36879]%N);
   ((-8088224940161681, -50)%Z, [36890]%N);
   ((-1207843562521853, -47)%Z, [36924]%N);
   ((-3991253672971793, -49)%Z, [36951; 36986]%N);
   ((-4015674608376231, -49)%Z, [36953; 36965]%N);
   ((-4747414116183803, -49)%Z, [37034]%N);
   ((-4698713741917509, -49)%Z, [37057; 39729]%N);
   ((-8890235238556785, -50)%Z, [37073; 37165]%N);
   ((-3694205142842579, -49)%Z, [37197]%N);
   ((-1213876092625187, -47)%Z, [37266]%N);
   ((-7194560548956283, -51)%Z, [37325]%N);
   ((-8770025184971207, -50)%Z, [37326]%N);
   ((-8784368052907281, -50)%Z, [37806; 38215]%N);
   ((-651236682622365, -46)%Z, [37847; 38143]%N);
   ((-6868277717524781, -50)%Z, [38263; 38271]%N);
   ((-4032564373787289, -49)%Z, [38452; 38512]%N);
   ((-8269262105627369, -50)%Z, [38476]%N);
   ((-8752349784179095, -50)%Z, [38497]%N);
   ((-4001075412172353, -49)%Z, [38505; 38570]%N);
   ((-8441679034027989, -50)%Z, [38534]%N);
   ((-88658930288715, -43)%Z, [38589; 38603; 40655]%N);
   ((-7597871615827473, -50)%Z, [38596]%N);
   ((-2368665580453721, -48)%Z, [38597]%N);
   ((-2120582413847775, -48)%Z, [38646]%N);
   ((-5320296322935701, -49)%Z, [38706]%N);
   ((-2562108542810539, -48)%Z, [38739; 38746]%N);
   ((-5104690852367403, -49)%Z, [38754]%N);
   ((-5359135856725683, -49)%Z, [38914; 39030]%N);
   ((-8248893511606421, -50)%Z, [38918; 39034]%N);
   ((-7927237358396379, -50)%Z, [38929; 39037]%N);
   ((-2370336059995945, -48)%Z, [38969; 39059]%N);
   ((-3566293412686739, -49)%Z, [38971; 39057]%N);
   ((-269771019934613, -45)%Z, [39080; 39118]%N);
   ((-2741123466111289, -48)%Z, [39108; 39128]%N);
   ((-2465044574962683, -48)%Z, [39321]%N);
   ((-8185660831882935, -50)%Z, [39509; 39556]%N);
   ((-2528040061150569, -49)%Z, [39640]%N);
   ((-2449086254421725, -48)%Z, [39745]%N);
   ((-6916682063087331, -50)%Z, [39854; 40092]%N);
   ((-4269459725244321, -49)%Z, [40635]%N);
   ((-988192076785385, -47)%Z, [40657]%N);
   ((-2522050087486803, -48)%Z, [40687]%N);
   ((-7410559850640077, -50)%Z, [40778; 40784]%N)];
  (* ('B', 'ad') *)
  [
   ((-1270221152358265, -47)%Z, [19981]%N);
   ((-3915312002751101, -49)%Z, [19987; 23560]%N);
   ((-7437800257483249, -51)%Z, [20005; 22196]%N);
   ((-8745541399167321, -51)%Z, [20027]%N);
   ((-436933630303403, -46)%Z, [20179; 20489]%N);
   ((-2315010180957093, -49)%Z, [20180]%N);
   ((-2355575300007381, -48)%Z, [20302]%N);
   ((-2150235131706195, -48)%Z, [20389; 20709]%N);
   ((-4078955695880845, -49)%Z, [20598]%N);
   ((-7293590974737697, -51)%Z, [20805]%N);
   ((-2521022537821539, -48)%Z, [20807; 20982; 22996]%N);
   ((-7238493849349951, -51)%Z, [20840]%N);
   ((-6884026742092949, -51)%Z, [20844]%N);
   ((-5329614336748555, -49)%Z, [20934; 28310; 33521]%N);
   ((-5948078073482349, -49)%Z, [20945; 27494; 28234; 29462; 36798; 36948]%N);
   ((-5455657650571647, -50)%Z, [20999]%N);
   ((-7882517978805257, -50)%Z, [21051; 25062]%N);
   ((-8016677885656201, -51)%Z, [21162]%N);
   ((-5660508812376871, -49)%Z, [21171; 21214; 32942; 39599]%N);
   ((-658787704920817, -46)%Z, [21191]%N);
   ((-7800598228596741, -50)%Z, [21220]%N);
   ((-8684378685768951, -50)%Z, [21254]%N);
   ((-8134007483465069, -51)%Z, [21450]%N);
   ((-1234851790934555, -47)%Z, [21608; 36913]%N);
   ((-3283270905108071, -48)%Z, [21644; 23396; 25289; 25943; 28165; 29301; 29309; 36027; 36028; 36133; 36148;
     36153]%N);
   ((-257574796894523, -45)%Z, [22343]%N);
   ((-4904395965527579, -50)%Z, [22362; 22533]%N);
   ((-4754475814537601, -49)%Z, [22374; 24653]%N);
   ((-2335461389784739, -48)%Z, [22766; 22767]%N);
   ((-1381036411865863, -48)%Z, [22823]%N);
   ((-6610730138414523, -50)%Z, [22949]%N);
   ((-5395920291185137, -49)%Z, [23433; 26274; 30021; 33609]%N);
   ((-2770731167281301, -50)%Z, [23436]%N);
   ((-6176334637205807, -49)%Z, [23454; 23526; 32191; 32501; 33510; 40664]%N);
   ((-4149146701590703, -50)%Z, [23494]%N);
   ((-2182134320763633, -48)%Z, [23545; 23565]%N);
   ((-2669439753957461, -49)%Z, [23567]%N);
   ((-5167663727461679, -49)%Z, [24179; 29282]%N);
   ((-1108659568515251, -48)%Z, [24443; 24505]%N);
   ((-3946595047870331, -49)%Z, [24613]%N);
   ((-5216646778085115, -49)%Z, [24646; 24658; 30130]%N);
   ((-1206609901268695, -47)%Z, [24736]%N);
   ((-5471091782443395, -49)%Z, [24754; 36229]%N);
   ((-8486343400783025, -50)%Z, [24778; 39514]%N);
   ((-361632966512217, -45)%Z, [24871; 26426; 27231; 32899; 32901; 33537]%N);
   ((-1478042694504641, -48)%Z, [24908]%N);
   ((-7724236773697105, -50)%Z, [24951]%N);
   ((-4971584490147055, -49)%Z, [25212; 33579]%N);
   ((-8951973176476533, -50)%Z, [25307]%N);
   ((-2426314022854801, -48)%Z, [26080; 28961]%N);
   ((-7588502188060967, -51)%Z, [26126]%N);
   ((-4264777110986981, -50)%Z, [26174; 39023]%N);
   ((-6981151057531243, -51)%Z, [26222]%N);
   ((-8079328349900453, -50)%Z, [26524]%N);
   ((-6646775952564875, -51)%Z, [27491]%N);
   ((-2561301844452573, -48)%Z, [27575; 36877]%N);
   ((-8774498762882017, -50)%Z, [27784; 27785; 28909; 29105]%N);
   ((-8287137132949119, -50)%Z, [27794; 27809]%N);
   ((-2778935450236007, -48)%Z, [29408; 31548; 31840; 32027; 32439; 36629; 36731]%N);
   ((-3910263090402055, -49)%Z, [29420; 29544]%N);
   ((-478838830443053, -46)%Z, [29436]%N);
   ((-546955219333831, -46)%Z, [29467]%N);
   ((-2502856559087401, -48)%Z, [30142; 40778; 40784]%N);
   ((-5970893753535095, -50)%Z, [30450; 31934]%N);
   ((-2779607319249953, -50)%Z, [30452]%N);
   ((-7683310672398927, -51)%Z, [30830; 30906]%N);
   ((-1528131829169743, -49)%Z, [31215; 31309]%N);
   ((-1645899676834131, -48)%Z, [31283; 31337]%N);
   ((-761015059163341, -48)%Z, [31361]%N);
   ((-3692150043512051, -49)%Z, [31895]%N);
   ((-5599864923588033, -50)%Z, [32039; 32202]%N);
   ((-8898348760556435, -50)%Z, [32784]%N);
   ((-4331466162412963, -49)%Z, [34028]%N);
   ((-8542184592191523, -50)%Z, [34394; 34395]%N);
   ((-5717713567781875, -50)%Z, [35443; 35814]%N);
   ((-8875246856030447, -51)%Z, [35469; 35748]%N);
   ((-7060398868450349, -50)%Z, [36362; 36404]%N);
   ((-410935735532373, -47)%Z, [36805]%N);
   ((-5639723949956709, -50)%Z, [36807; 36942]%N);
   ((-6277428562406123, -50)%Z, [36866; 36969]%N);
   ((-4633378873401847, -49)%Z, [38534]%N);
   ((-4777580532324155, -50)%Z, [38543; 38568]%N);
   ((-4719795728050829, -50)%Z, [38918; 39034]%N)];
  (* ('B', 'ag') *)
  [
];
  (* ('B', 'an') *)
  [
   ((-635251761672565, -47)%Z, [20005; 22196]%N);
   ((-4724195338442401, -49)%Z, [20260; 20663; 26543; 38753]%N);
   ((-6933589402765555, -50)%Z, [20302; 28902; 29033]%N);
   ((-3685087289002551, -49)%Z, [20559]%N);
   ((-7038890382767299, -50)%Z, [20807; 20982]%N);
   ((-2671329537588097, -48)%Z, [20844; 21608; 28165; 36855; 36913; 39640]%N);
   ((-4826833250347259, -49)%Z, [20914; 22937; 34909]%N);
   ((-6650634511375875, -50)%Z, [20919]%N);
   ((-8211463203417215, -50)%Z, [20932; 28114]%N);
   ((-3967739925376421, -49)%Z, [21018; 21083]%N);
   ((-4552837050997051, -50)%Z, [21160; 21205]%N);
   ((-2166994082716033, -48)%Z, [21329; 24736]%N);
   ((-748913504383203, -48)%Z, [21355; 34907]%N);
   ((-2928327938092343, -50)%Z, [21361]%N);
   ((-3187325579355751, -49)%Z, [21696]%N);
   ((-5732866248186529, -49)%Z, [21916; 22810; 24551; 24555; 24962; 26080; 28961; 29369; 29494; 30140; 31934; 32654;
     33485; 33980; 35488; 35802; 37034; 37326; 40687]%N);
   ((-8489630381222599, -52)%Z, [22256]%N);
   ((-3226678565399513, -51)%Z, [23433]%N);
   ((-79912539241449, -43)%Z, [23604; 23607; 24694; 24801; 37240]%N);
   ((-8416739027226931, -50)%Z, [24037]%N);
   ((-2191485608027751, -48)%Z, [24189]%N);
   ((-1376500271831535, -48)%Z, [24646; 24658]%N);
   ((-1802386446890697, -49)%Z, [24656]%N);
   ((-6075495989164921, -50)%Z, [24754]%N);
   ((-1602994306460307, -48)%Z, [24758; 38391]%N);
   ((-5816777595499759, -50)%Z, [26214]%N);
   ((-7563660766269709, -50)%Z, [26580]%N);
   ((-7251755079908531, -51)%Z, [28201; 28331]%N);
   ((-1140561182288881, -47)%Z, [29378]%N);
   ((-6765790258072525, -50)%Z, [29408]%N);
   ((-3238538137659319, -49)%Z, [29436]%N);
   ((-4046418904326589, -49)%Z, [29477; 36000; 36127]%N);
   ((-1458744089778763, -49)%Z, [30171]%N);
   ((-2280382192867657, -50)%Z, [30683]%N);
   ((-5418931640818669, -50)%Z, [31036; 31150]%N);
   ((-3943780992421731, -49)%Z, [31354]%N);
   ((-3309893004444947, -49)%Z, [32047]%N);
   ((-3508513780854863, -49)%Z, [32784]%N);
   ((-6975433395495607, -51)%Z, [33104]%N);
   ((-6818992276723799, -50)%Z, [33258]%N);
   ((-7841600505015977, -50)%Z, [35299]%N);
   ((-6204594946960871, -50)%Z, [36007; 36139]%N);
   ((-6855910335185591, -50)%Z, [38290; 38386]%N);
   ((-6163272881442977, -50)%Z, [38452; 38512]%N);
   ((-2318708110206891, -48)%Z, [38646]%N);
   ((-8119438012982471, -51)%Z, [40635]%N)];
  (* ('B', 'b') *)
  [
   ((-8858920872399677, -51)%Z, [19968]%N);
   ((-6959230048721545, -49)%Z, [19969; 20052; 20316; 20896; 21160; 21205; 21319; 21367; 21378; 21697; 21932; 22253;
     22290; 22402; 23500; 23548; 23566; 24067; 24288; 24674; 25216; 25937; 26410; 26517; 26631; 26689; 26691; 27161;
     27915; 30149; 30740; 30967; 31166; 35342; 35752; 36015; 36142; 36208; 37233; 37240; 37292; 37672; 37806; 38170;
     38215]%N);
   ((-1114559932703297, -47)%Z, [19971; 29983]%N);
   ((-797457590061249, -47)%Z, [19975; 33836]%N);
   ((-5705721375698855, -50)%Z, [19977]%N);
   ((-4093315731307377, -50)%Z, [19978]%N);
   ((-6675613446303867, -50)%Z, [19979]%N);
   ((-7413401884957631, -50)%Z, [19981; 28779]%N);
   ((-6071173431488301, -50)%Z, [19987; 23560]%N);
   ((-8595894592745911, -50)%Z, [19990]%N);
   ((-1839741779819581, -48)%Z, [19994; 22478; 26989]%N);
   ((-3319990364271323, -49)%Z, [19996; 26481]%N);
   ((-511032560090375, -46)%Z, [19997; 32020; 32114; 32431]%N);
   ((-6400732450444515, -50)%Z, [20004; 20841]%N);
   ((-792595788998469, -46)%Z, [20006; 21464; 21548; 23380; 23481; 24182; 25311; 25836; 28789; 29980; 30524; 32097;
     32476; 32893; 33026; 33050; 33139; 35722; 35998; 36126; 36820; 38728; 39131; 39134; 39438; 39569]%N);
   ((-5473572847938463, -49)%Z, [20007; 20882; 21629; 21930; 23637; 28857; 35010; 35686; 39854; 40092; 40670]%N);
   ((-1995365896712049, -49)%Z, [20013]%N);
   ((-5170144792956747, -49)%Z, [20018; 20420; 21453; 30437; 38452; 38512]%N);
   ((-2357916109235271, -49)%Z, [20020; 33256]%N);
   ((-7328168793881181, -52)%Z, [20027]%N);
   ((-6178815702700875, -49)%Z, [20056; 20805; 21713; 21854; 22352; 23130; 23545; 23565; 24758; 25353; 25504; 26126;
     26131; 26588; 26893; 27331; 27604; 27888; 30693; 31038; 31859; 32852; 32879; 33853; 35498; 35828; 38391; 38480;
     39164; 39282; 39340; 39532; 40441; 40560]%N);
   ((-5219127843580183, -49)%Z, [20057; 22242; 22296; 24072; 24107; 25509; 26708; 31895; 33104; 36575; 36719]%N);
   ((-5194103725911437, -49)%Z, [20061; 20845; 31034; 35506; 35838; 38914; 39030; 40778; 40784]%N);
   ((-2780175982983541, -48)%Z, [20065; 20114; 21560; 23396; 24246; 26524; 30007; 37129; 38281; 38381; 38918;
     39034]%N);
   ((-7427431971887709, -50)%Z, [20070; 26360]%N);
   ((-6053197050882275, -49)%Z, [20080; 20135; 21327; 21332; 21644; 23485; 23532; 24052; 25945; 26102; 26178; 27833;
     28207; 28459; 28748; 28907; 29145; 29986; 30702; 30952; 31456; 36023; 36843]%N);
   ((-1243516388910531, -47)%Z, [20083; 32068; 32452; 33521; 37569; 37941; 38081; 38109]%N);
   ((-5950559138977417, -49)%Z, [20107; 20633; 20973; 22681; 22763; 22791; 22865; 23494; 24359; 24977; 26657; 29254;
     29976; 30913; 31070; 32160; 32178; 32511; 32593; 35302; 35320]%N);
   ((-4862823631952475, -50)%Z, [20108]%N);
   ((-3755842458959293, -49)%Z, [20116]%N);
   ((-3284511437855605, -48)%Z, [20123; 20179; 20249; 20489; 20923; 20941; 21019; 21066; 21109; 21270; 21313; 21475;
     21508; 21514; 22821; 22871; 23558; 23559; 24426; 24555; 25346; 25499; 25943; 26356; 26840; 28201; 28331; 29702;
     30697; 31048; 31179; 31383; 32676; 32933; 32958; 33102; 34074; 34507; 34562; 34631; 34821; 34913; 35330; 35746;
     35910; 36133; 36848; 37117; 37939; 38253; 38463]%N);
   ((-4941888229233289, -49)%Z, [20132; 20598; 26059; 38928; 39044]%N);
   ((-7729198904687241, -50)%Z, [20146; 21382; 27511; 35242]%N);
   ((-6981557347908511, -50)%Z, [20154]%N);
   ((-1415747469467985, -47)%Z, [20159; 20740; 21345; 21387; 22739; 24466; 24565; 31995; 33394; 34180; 37749;
     38190]%N);
   ((-6836869922090049, -50)%Z, [20174; 24478]%N);
   ((-16333469444949, -41)%Z, [20219; 27597; 34255]%N);
   ((-1158964984724229, -47)%Z, [20223]%N);
   ((-2931890010474399, -48)%Z, [20225; 20559; 20919; 21496; 22303; 22635; 24237; 25277; 25414; 25968; 25976; 26681;
     27468; 28287; 28629; 30742; 30938; 34880; 36011; 36143]%N);
   ((-5692037076034395, -50)%Z, [20248; 20778]%N);
   ((-5063611018074881, -49)%Z, [20254; 20632; 24369; 28626; 28693; 30418; 37628; 38050; 40635]%N);
   ((-5398401356680205, -49)%Z, [20256; 20659; 20813; 35336; 35745]%N);
   ((-5515291927410549, -49)%Z, [20266; 20605; 23467; 23470; 24418; 26641; 27193; 38936; 39046; 40386; 40542]%N);
   ((-5434733314148481, -49)%Z, [20280; 21483; 25668; 25885; 26611; 28909; 29031; 29105; 30246; 32218; 32447; 32764;
     36890]%N);
   ((-3631747353276083, -49)%Z, [20302]%N);
   ((-2504097091834935, -48)%Z, [20367; 22278; 22291; 36611; 36739; 36829; 36949; 40845; 40857]%N);
   ((-8576141456144333, -50)%Z, [20415; 35064]%N);
   ((-2562542377200107, -48)%Z, [20445; 21457; 22696; 25239; 25480; 26222; 27224; 27225; 30332; 31481; 32232; 32534;
     34013; 34253; 36879]%N);
   ((-4693158501917793, -49)%Z, [20449; 31232]%N);
   ((-7925283657808799, -50)%Z, [20505; 24515]%N);
   ((-4756956880032669, -49)%Z, [20551; 26497; 26997; 37775]%N);
   ((-4061448272762951, -49)%Z, [20556]%N);
   ((-3698053307712665, -49)%Z, [20808]%N);
   ((-150508424294209, -44)%Z, [20809; 21351; 22841; 22846; 33253; 34935; 38450]%N);
   ((-846245637314713, -47)%Z, [20839; 20869]%N);
   ((-5955620938476331, -50)%Z, [20840]%N);
   ((-4617987010659535, -49)%Z, [20843; 32039; 32202; 34966; 38454; 38542; 38598]%N);
   ((-4727962813971519, -50)%Z, [20844]%N);
   ((-3990795192837485, -49)%Z, [20849]%N);
   ((-6581878920157765, -50)%Z, [20891; 36557]%N);
   ((-4492368358840935, -49)%Z, [20892; 36786]%N);
   ((-1286791013260751, -47)%Z, [20908; 21315; 22812; 23267; 26151; 30408; 31227]%N);
   ((-4841862618783621, -49)%Z, [20986; 27178; 27243]%N);
   ((-5364272728652459, -49)%Z, [20992; 22993; 24038; 24188; 24448; 25193; 25844; 30028; 35033; 36205; 39321]%N);
   ((-7329465870640837, -50)%Z, [20998]%N);
   ((-5026067111907251, -49)%Z, [20999]%N);
   ((-1647140209581665, -48)%Z, [21009]%N);
   ((-8446797764099655, -50)%Z, [21010; 21123; 33707]%N);
   ((-3349697253568341, -49)%Z, [21021]%N);
   ((-2271958053085515, -48)%Z, [21029; 21035; 36215]%N);
   ((-7781136410377907, -50)%Z, [21069]%N);
   ((-2159117988468739, -48)%Z, [21103]%N);
   ((-2275840528111477, -48)%Z, [21152; 30707]%N);
   ((-2216176206727815, -48)%Z, [21155]%N);
   ((-1999761636962871, -48)%Z, [21161; 22797; 36650; 36718]%N);
   ((-2522263070569073, -48)%Z, [21243; 21248; 21326; 24536; 26742; 33775; 35041; 36196; 37324; 40285; 40517; 40613;
     40614]%N);
   ((-2804667508295259, -48)%Z, [21253; 21830; 22686; 23569; 24490; 26412; 29943; 30699; 30703; 38275; 38378]%N);
   ((-7045073965773577, -50)%Z, [21271]%N);
   ((-499574856500843, -46)%Z, [21306; 21312]%N);
   ((-1897612821578487, -48)%Z, [21307; 37291]%N);
   ((-2049326849069345, -48)%Z, [21322; 27668; 27683; 36855]%N);
   ((-2548413718646709, -49)%Z, [21333; 21934]%N);
   ((-8142707612199105, -50)%Z, [21335]%N);
   ((-4768329993176051, -49)%Z, [21355; 25240; 30333; 34907]%N);
   ((-4673403845064547, -49)%Z, [21363]%N);
   ((-4478467653733335, -49)%Z, [21365; 32005; 32418]%N);
   ((-5245316284215005, -49)%Z, [21381; 22120; 24307; 32592; 32946]%N);
   ((-1935781935243813, -48)%Z, [21407]%N);
   ((-1447152132422635, -47)%Z, [21410; 22721; 24258; 24503; 25215; 25329; 25670; 25850; 28246; 32000; 32340; 32426;
     32455; 36667; 36752; 36807; 36942; 38634]%N);
   ((-941842711806319, -47)%Z, [21439; 32291]%N);
   ((-5947058920736937, -50)%Z, [21452; 24180; 38617]%N);
   ((-3072765851631785, -49)%Z, [21476]%N);
   ((-2401948276450551, -48)%Z, [21482; 34987; 39080; 39118]%N);
   ((-4054940108330753, -49)%Z, [21487; 21490]%N);
   ((-1224207047669189, -47)%Z, [21488; 31243]%N);
   ((-8162873522751827, -50)%Z, [21491]%N);
   ((-4683194525814109, -49)%Z, [21512; 39015; 39038]%N);
   ((-4761185296768841, -50)%Z, [21516]%N);
   ((-1852480377882851, -48)%Z, [21518; 24460; 25153]%N);
   ((-2427554555602335, -48)%Z, [21521; 23478; 30495; 36870]%N);
   ((-2074933128221129, -48)%Z, [21544; 22136]%N);
   ((-666511925280453, -46)%Z, [21551; 21855; 23616; 31665; 33457; 34425; 39764]%N);
   ((-4464901938194335, -49)%Z, [21733]%N);
   ((-1223407983982653, -48)%Z, [21807]%N);
   ((-4990871279856725, -49)%Z, [21870; 22227; 24544; 26262; 29978; 32905]%N);
   ((-526842242838219, -46)%Z, [21943; 22132; 26449]%N);
   ((-8010836183396593, -50)%Z, [22235]%N);
   ((-7101767401494089, -50)%Z, [22266]%N);
   ((-2763573993499103, -49)%Z, [22269; 22283]%N);
   ((-921541384161299, -47)%Z, [22312]%N);
   ((-8791250529417263, -50)%Z, [22320]%N);
   ((-619718377888691, -46)%Z, [22612; 27874]%N);
   ((-603615083821231, -46)%Z, [22788; 31283; 31337; 34389]%N);
   ((-397350660522273, -46)%Z, [22806]%N);
   ((-2777450223053845, -49)%Z, [22810]%N);
   ((-7389030531421457, -51)%Z, [22823]%N);
   ((-5138103717856415, -50)%Z, [22825]%N);
   ((-7733822730105157, -50)%Z, [22836; 38957]%N);
   ((-8129461578160631, -50)%Z, [22855]%N);
   ((-2482112145961, -38)%Z, [22899; 27721; 28450; 31163; 34746; 38626]%N);
   ((-2434337413371835, -48)%Z, [23265; 31867; 39006]%N);
   ((-4567539850099193, -49)%Z, [23273; 24030]%N);
   ((-5103838838520165, -49)%Z, [23398; 23416; 31570; 36339]%N);
   ((-4663780534601165, -49)%Z, [23402; 23423; 28872; 30719; 31014]%N);
   ((-7623568376927593, -50)%Z, [23450]%N);
   ((-4413689379890767, -49)%Z, [23454; 23526; 31934; 36074; 36136; 37329]%N);
   ((-5620318104423845, -50)%Z, [23567]%N);
   ((-8711203637816661, -50)%Z, [23574; 24179]%N);
   ((-512770148228825, -46)%Z, [23653; 29238]%N);
   ((-946279637561819, -47)%Z, [23853; 23940; 28040]%N);
   ((-8585974705607547, -50)%Z, [24037]%N);
   ((-5971004951097713, -50)%Z, [24040]%N);
   ((-2650829131273951, -48)%Z, [24062; 26012; 26234; 31680; 33410]%N);
   ((-7602756325808017, -50)%Z, [24066]%N);
   ((-1447672582532369, -48)%Z, [24120]%N);
   ((-4993086338659029, -50)%Z, [24191; 24291]%N);
   ((-4559554610491173, -49)%Z, [24212; 25033; 27605; 30050]%N);
   ((-293956376171953, -45)%Z, [24223; 24290; 36895]%N);
   ((-4745808991918665, -49)%Z, [24314; 27575]%N);
   ((-1156713136870303, -47)%Z, [24320; 33014; 33184; 38283]%N);
   ((-7504103071712935, -50)%Z, [24322; 30064]%N);
   ((-4210456933836055, -49)%Z, [24375; 24378]%N);
   ((-6941884231203715, -50)%Z, [24425]%N);
   ((-7120421791174967, -50)%Z, [24433]%N);
   ((-8667894455816063, -50)%Z, [24481; 31142]%N);
   ((-3525055778826703, -49)%Z, [24494]%N);
   ((-7644772391701393, -50)%Z, [24613; 26408]%N);
   ((-3540409911124169, -49)%Z, [24635; 32317]%N);
   ((-7675145329277731, -50)%Z, [24694; 24801]%N);
   ((-6946479747407573, -50)%Z, [24799]%N);
   ((-1570278721499967, -48)%Z, [24930]%N);
   ((-4029634726627467, -49)%Z, [25104]%N);
   ((-3626258009655235, -50)%Z, [25152]%N);
   ((-6580214618440313, -50)%Z, [25163]%N);
   ((-8657322548030903, -50)%Z, [25484; 26263]%N);
   ((-4528700316309211, -49)%Z, [25552; 26143; 36554; 36710]%N);
   ((-2463231988995149, -48)%Z, [25950]%N);
   ((-35322218097869, -42)%Z, [25955; 33337]%N);
   ((-7805743057887277, -51)%Z, [25972]%N);
   ((-2441287765925635, -48)%Z, [26029; 26039; 26531; 26839; 32599; 32645; 38747]%N);
   ((-8695141844436715, -51)%Z, [26032]%N);
   ((-633910968051217, -47)%Z, [26080; 28961]%N);
   ((-1485111074704459, -48)%Z, [26082]%N);
   ((-5714166624279263, -50)%Z, [26085]%N);
   ((-8090633595734743, -50)%Z, [26087; 33290; 36817]%N);
   ((-2861151287626979, -48)%Z, [26103; 26336; 27880; 31616; 31777; 37202; 40643; 40644]%N);
   ((-133400709402491, -44)%Z, [26174; 39023]%N);
   ((-6843154030906923, -50)%Z, [26242; 26283]%N);
   ((-3503996889510973, -49)%Z, [26368]%N);
   ((-304791024657671, -46)%Z, [26377]%N);
   ((-4911451089537567, -49)%Z, [26399; 30828]%N);
   ((-4583858382631789, -49)%Z, [26417]%N);
   ((-201194307994067, -45)%Z, [26426; 27231]%N);
   ((-4734877581389879, -49)%Z, [26447]%N);
   ((-4383896716457101, -49)%Z, [26495; 28165]%N);
   ((-930652383775919, -47)%Z, [26816; 27298]%N);
   ((-4506621017666421, -49)%Z, [26825]%N);
   ((-2304629464785639, -48)%Z, [26837; 29942]%N);
   ((-1036512407992407, -47)%Z, [27169]%N);
   ((-3528855230505121, -49)%Z, [27425]%N);
   ((-2356815832754915, -48)%Z, [27431; 27472]%N);
   ((-6552291526587999, -50)%Z, [27491]%N);
   ((-4185432816167309, -49)%Z, [27611]%N);
   ((-5139028102068309, -50)%Z, [27665]%N);
   ((-5832706396022853, -50)%Z, [27700]%N);
   ((-3717256563359419, -49)%Z, [27704]%N);
   ((-8269505196569791, -50)%Z, [27839]%N);
   ((-785618331677477, -47)%Z, [27861]%N);
   ((-8616000482513009, -50)%Z, [27954]%N);
   ((-7887480109795393, -50)%Z, [27963; 38604]%N);
   ((-8943287868772497, -50)%Z, [27969]%N);
   ((-7882181747514759, -50)%Z, [27973; 28154]%N);
   ((-5272782704861605, -49)%Z, [27987; 28378; 28414; 28611; 29151; 29190; 33829; 34955]%N);
   ((-4536256804979963, -49)%Z, [28023]%N);
   ((-976313672266861, -47)%Z, [28129]%N);
   ((-385957068200937, -46)%Z, [28145]%N);
   ((-6353523812846361, -50)%Z, [28151]%N);
   ((-3885756637834421, -49)%Z, [28216; 36938]%N);
   ((-543083801047443, -46)%Z, [28385; 28415]%N);
   ((-3428977403101329, -49)%Z, [28507; 28508]%N);
   ((-4095167928776037, -49)%Z, [29255]%N);
   ((-4705717384293931, -50)%Z, [29305]%N);
   ((-4112816708114011, -49)%Z, [29420; 29544]%N);
   ((-3532680499720243, -49)%Z, [29421; 29433]%N);
   ((-2890009106597035, -49)%Z, [29616; 29694]%N);
   ((-8136065115605707, -50)%Z, [30002; 35199]%N);
   ((-3151501354499207, -49)%Z, [30005; 38651]%N);
   ((-8509613250707911, -50)%Z, [30334]%N);
   ((-218322438473135, -45)%Z, [30427]%N);
   ((-6596969390529547, -50)%Z, [30452]%N);
   ((-3375225806712973, -49)%Z, [30465]%N);
   ((-2028593750471553, -49)%Z, [30701]%N);
   ((-836273550739013, -47)%Z, [31169]%N);
   ((-7850904738874473, -50)%Z, [31185]%N);
   ((-2029092392816291, -48)%Z, [31237; 31246]%N);
   ((-1791763812370169, -48)%Z, [31354]%N);
   ((-2296099267242233, -48)%Z, [31359]%N);
   ((-6758216471146075, -50)%Z, [31435]%N);
   ((-4157578020235611, -49)%Z, [31532]%N);
   ((-3951763230416875, -49)%Z, [31561]%N);
   ((-2039027835205485, -48)%Z, [31881]%N);
   ((-4654318968127811, -49)%Z, [31909]%N);
   ((-7825488311794247, -50)%Z, [32043]%N);
   ((-8877426995119027, -50)%Z, [32085; 32477]%N);
   ((-4350109580677267, -49)%Z, [32318; 32489]%N);
   ((-2082698447639761, -48)%Z, [32654; 34394; 34395]%N);
   ((-7382459176731157, -50)%Z, [32769]%N);
   ((-2120565527601867, -48)%Z, [32784; 37096]%N);
   ((-8528223590234953, -50)%Z, [32974]%N);
   ((-2017927615697009, -48)%Z, [33258]%N);
   ((-1928860070618453, -48)%Z, [33328; 33382]%N);
   ((-942328852145843, -47)%Z, [33391]%N);
   ((-893452345434553, -47)%Z, [33609]%N);
   ((-7086020292957651, -50)%Z, [33647; 34277]%N);
   ((-2300332053423195, -48)%Z, [34276]%N);
   ((-5649041598590729, -50)%Z, [35013; 35037]%N);
   ((-1143909997294411, -47)%Z, [35352; 35760; 36866; 36969]%N);
   ((-6184637367337933, -50)%Z, [36000; 36127]%N);
   ((-3405018470146639, -49)%Z, [36039; 36164]%N);
   ((-5718799963768075, -50)%Z, [36229]%N);
   ((-7112389177506777, -50)%Z, [36328]%N);
   ((-1985470497860841, -48)%Z, [36617; 36733]%N);
   ((-1657811501852831, -48)%Z, [36629; 36731]%N);
   ((-4131036743516897, -49)%Z, [36793; 37002]%N);
   ((-6478512809006225, -50)%Z, [36828; 36960]%N);
   ((-7953085068023999, -50)%Z, [36830; 36899]%N);
   ((-3249220380606797, -49)%Z, [37325]%N);
   ((-5896104528483857, -50)%Z, [37326]%N);
   ((-8744815086245863, -50)%Z, [37341; 38024]%N);
   ((-4426062404404353, -49)%Z, [37504; 38134; 38613]%N);
   ((-6775885707639509, -50)%Z, [38263; 38271]%N);
   ((-1194984404986603, -47)%Z, [38290; 38386]%N);
   ((-1494207146072317, -48)%Z, [38291; 38388]%N);
   ((-384308005353037, -46)%Z, [38468]%N);
   ((-2225827722886643, -48)%Z, [38543; 38568]%N);
   ((-7181146796465185, -50)%Z, [38544; 38577]%N);
   ((-7392679215801889, -50)%Z, [38548]%N);
   ((-7362293266178435, -50)%Z, [38596]%N);
   ((-462903241466501, -46)%Z, [38738]%N);
   ((-4759863817853237, -50)%Z, [38750]%N);
   ((-7204066670014485, -50)%Z, [38989; 39069]%N);
   ((-8232827689312171, -50)%Z, [39135]%N);
   ((-6039867432081419, -50)%Z, [39318]%N);
   ((-1192369966816075, -48)%Z, [39640]%N);
   ((-7914352504887701, -50)%Z, [40657]%N)];
  (* ('B', 'bg') *)
  [
];
  (* ('B', 'c') *)
  [
   ((-5354122520285505, -50)%Z, [19968]%N);
   ((-5782936885870741, -51)%Z, [19981]%N);
   ((-2678718946715767, -49)%Z, [19982; 33287]%N);
   ((-3525854432643141, -49)%Z, [19988]%N);
   ((-2381439154754569, -49)%Z, [20006; 24182]%N);
   ((-4160241047714899, -49)%Z, [20026; 28858]%N);
   ((-6646694816893061, -50)%Z, [20035]%N);
   ((-6217287670419443, -50)%Z, [20043]%N);
   ((-1783470637310433, -48)%Z, [20108]%N);
   ((-4627962568198339, -50)%Z, [20110; 26044]%N);
   ((-4617588724168277, -50)%Z, [20174; 24478]%N);
   ((-3126193044848097, -50)%Z, [20197]%N);
   ((-3477782797948753, -50)%Z, [20294]%N);
   ((-6565196193151769, -50)%Z, [20309]%N);
   ((-5442805648414283, -49)%Z, [20498]%N);
   ((-372771339791807, -46)%Z, [20504]%N);
   ((-6977924094202563, -50)%Z, [20551]%N);
   ((-5681449792753161, -50)%Z, [20854]%N);
   ((-4774109249104613, -49)%Z, [20855]%N);
   ((-870155473812151, -47)%Z, [20877]%N);
   ((-7252507944005769, -50)%Z, [20917; 27841]%N);
   ((-4559753390488755, -49)%Z, [21029; 21035]%N);
   ((-1743084122536145, -48)%Z, [21152]%N);
   ((-289508688610819, -46)%Z, [21363]%N);
   ((-7254871644092823, -49)%Z, [21448]%N);
   ((-5097139637596357, -50)%Z, [21450]%N);
   ((-3731040550460567, -49)%Z, [21453]%N);
   ((-8231082028087623, -51)%Z, [21478]%N);
   ((-8483614973402063, -51)%Z, [21482]%N);
   ((-2236988928870387, -49)%Z, [21487]%N);
   ((-6580711693612613, -51)%Z, [21516]%N);
   ((-5931801954908577, -50)%Z, [21542]%N);
   ((-3522128740993983, -49)%Z, [21738]%N);
   ((-4781039096575733, -51)%Z, [22240]%N);
   ((-7365191900671563, -50)%Z, [22266]%N);
   ((-3110334077470941, -50)%Z, [22914]%N);
   ((-6474457298072153, -49)%Z, [23425; 23527]%N);
   ((-8868269477340309, -50)%Z, [23572; 29246; 38750]%N);
   ((-8473464938257315, -50)%Z, [23578]%N);
   ((-4074781859841781, -49)%Z, [23601]%N);
   ((-2279372641386979, -49)%Z, [23613; 30433]%N);
   ((-1476244152990449, -47)%Z, [23682; 35912]%N);
   ((-2626694309240403, -48)%Z, [24246; 33707]%N);
   ((-2435640792274461, -48)%Z, [24590]%N);
   ((-6372936698206449, -50)%Z, [24635; 32317]%N);
   ((-4523421433020479, -49)%Z, [24688]%N);
   ((-5286512875228003, -49)%Z, [24799]%N);
   ((-731999195167295, -46)%Z, [24930]%N);
   ((-8412755080748161, -51)%Z, [25110]%N);
   ((-7074598946298953, -51)%Z, [25152]%N);
   ((-278814905665675, -45)%Z, [25233]%N);
   ((-3881976956372943, -49)%Z, [25442; 25563]%N);
   ((-5104541682898017, -50)%Z, [25509]%N);
   ((-8937934988622353, -50)%Z, [25925]%N);
   ((-1329170327833595, -48)%Z, [26080; 28961]%N);
   ((-2711003703526421, -49)%Z, [26082]%N);
   ((-7256087914929239, -50)%Z, [26159]%N);
   ((-1291079105528737, -47)%Z, [26356]%N);
   ((-2474980281749545, -48)%Z, [26524]%N);
   ((-3318203953679515, -48)%Z, [27010]%N);
   ((-8596860644620143, -51)%Z, [27492]%N);
   ((-2537789607658845, -48)%Z, [27595]%N);
   ((-14539756246913, -42)%Z, [28982]%N);
   ((-4969045440435825, -49)%Z, [29978]%N);
   ((-5030519176761157, -49)%Z, [29997; 35373; 35774]%N);
   ((-3072924144225401, -50)%Z, [30001]%N);
   ((-1209889425385577, -47)%Z, [30456]%N);
   ((-1894400305470719, -48)%Z, [32039; 32202]%N);
   ((-9003699660292867, -50)%Z, [32156; 32508]%N);
   ((-8106778264266345, -50)%Z, [32305; 32437]%N);
   ((-1956167957002159, -48)%Z, [32380; 32487]%N);
   ((-6626603979150315, -51)%Z, [32780]%N);
   ((-4198421775164717, -49)%Z, [33509]%N);
   ((-7135951672413401, -51)%Z, [34429; 38614]%N);
   ((-1428219117884827, -48)%Z, [35201]%N);
   ((-7537762938150129, -50)%Z, [36681; 36716]%N);
   ((-4804971063542629, -50)%Z, [36824; 36996]%N);
   ((-8567114485053319, -50)%Z, [36825; 36889]%N);
   ((-6600691599195769, -50)%Z, [36827; 36914]%N);
   ((-6648783685593983, -50)%Z, [37027]%N);
   ((-1646688638090349, -48)%Z, [38500]%N)];
  (* ('B', 'd') *)
  [
   ((-6082591800621515, -51)%Z, [19968]%N);
   ((-8681688783444663, -50)%Z, [19975; 33836]%N);
   ((-457367129395705, -45)%Z, [19979; 20132; 21305; 23673; 25171; 25277; 25320; 25765; 36280; 36319; 36489; 36953;
     36965; 37832; 38142]%N);
   ((-409873479266503, -47)%Z, [19981]%N);
   ((-1400990076456185, -47)%Z, [19982; 21243; 21248; 27867; 33287]%N);
   ((-6190591540779975, -50)%Z, [19987; 23560]%N);
   ((-2298763884312863, -48)%Z, [19994; 26989; 33510]%N);
   ((-724172166969777, -46)%Z, [20005; 22196]%N);
   ((-826221902436673, -47)%Z, [20006; 24182]%N);
   ((-8856669508518463, -50)%Z, [20013]%N);
   ((-1407856681617835, -47)%Z, [20020; 22312; 32047; 33256]%N);
   ((-1439261344572485, -47)%Z, [20030; 24013; 33289]%N);
   ((-8581119444259223, -50)%Z, [20037]%N);
   ((-5187564692179583, -49)%Z, [20054; 20805]%N);
   ((-2001755373762295, -48)%Z, [20056; 36225]%N);
   ((-2946127960272521, -49)%Z, [20063]%N);
   ((-1259230480673059, -47)%Z, [20070; 25384; 26360]%N);
   ((-2410102500359811, -48)%Z, [20105; 29229]%N);
   ((-994579229593405, -47)%Z, [20107]%N);
   ((-4695252956383793, -49)%Z, [20110; 26044; 36866; 36969]%N);
   ((-611388737935859, -46)%Z, [20111; 20873; 31454; 31478; 34407]%N);
   ((-6361974124166315, -50)%Z, [20114]%N);
   ((-5918995987576817, -49)%Z, [20123; 29255]%N);
   ((-2948007623831537, -48)%Z, [20127; 22836; 31361; 38957]%N);
   ((-1513072595820915, -48)%Z, [20146; 35242]%N);
   ((-8144720015107179, -50)%Z, [20154]%N);
   ((-6753559168639353, -50)%Z, [20165; 20677]%N);
   ((-5187740401224965, -50)%Z, [20173]%N);
   ((-1292910565430287, -48)%Z, [20174; 24478]%N);
   ((-850256030687793, -46)%Z, [20195; 20581; 21475; 23743; 24011; 25504; 27493]%N);
   ((-1665376841554267, -48)%Z, [20197]%N);
   ((-4844019123396107, -49)%Z, [20208]%N);
   ((-8182403051192093, -50)%Z, [20219; 29408]%N);
   ((-6863950735937101, -50)%Z, [20223]%N);
   ((-6927666897320945, -49)%Z, [20250; 26371; 35041; 37324; 39087; 39122]%N);
   ((-5132747911077171, -49)%Z, [20282]%N);
   ((-2799449955162479, -49)%Z, [20284]%N);
   ((-4955059429395225, -49)%Z, [20294; 24179]%N);
   ((-490447139182377, -46)%Z, [20302]%N);
   ((-1621178155208195, -48)%Z, [20309]%N);
   ((-394325197536697, -45)%Z, [20351; 20917; 26411; 27841; 30636; 38346; 38420]%N);
   ((-5967979038200253, -49)%Z, [20355]%N);
   ((-5446535398011263, -50)%Z, [20381]%N);
   ((-5046798490993025, -49)%Z, [20391; 20596; 25913; 33609]%N);
   ((-1468483987255071, -47)%Z, [20420; 40718]%N);
   ((-5061946040360983, -49)%Z, [20445]%N);
   ((-1388186936880293, -47)%Z, [20449]%N);
   ((-2726076606685659, -48)%Z, [20493]%N);
   ((-612339681382791, -46)%Z, [20495; 38291; 38388]%N);
   ((-5262736183437841, -49)%Z, [20498; 22251; 34935]%N);
   ((-2268995416529867, -48)%Z, [20511; 21051]%N);
   ((-6264143122030619, -49)%Z, [20542; 20670; 24536; 24758; 38391]%N);
   ((-7820377699600519, -50)%Z, [20559]%N);
   ((-1977817452447405, -48)%Z, [20598]%N);
   ((-8228972961138055, -50)%Z, [20599]%N);
   ((-1653157803892217, -47)%Z, [20633; 22791; 24038; 24207; 27530]%N);
   ((-5660302284157637, -49)%Z, [20658; 25321; 25799]%N);
   ((-2366950975166631, -48)%Z, [20800; 38497]%N);
   ((-5633833161698909, -50)%Z, [20808]%N);
   ((-4830287955995983, -49)%Z, [20809]%N);
   ((-5942954920531507, -49)%Z, [20813]%N);
   ((-1657339145248127, -48)%Z, [20840]%N);
   ((-4606571335856975, -49)%Z, [20844; 36825; 36889]%N);
   ((-5710374381878499, -50)%Z, [20849]%N);
   ((-5121258737743001, -49)%Z, [20852; 33288]%N);
   ((-5466471956996169, -50)%Z, [20854]%N);
   ((-619675445838013, -47)%Z, [20877]%N);
   ((-2089980493229117, -48)%Z, [20915; 27770]%N);
   ((-4613450646963691, -49)%Z, [20919]%N);
   ((-1295300902018925, -47)%Z, [20934; 24453; 28310]%N);
   ((-5326994617834257, -50)%Z, [20960; 24190]%N);
   ((-1916229901622243, -48)%Z, [20961; 29992]%N);
   ((-1236664258825241, -47)%Z, [20973; 24977]%N);
   ((-4759190407806553, -50)%Z, [20998]%N);
   ((-4611148189956851, -49)%Z, [20999; 23682; 35912]%N);
   ((-6076205185056175, -50)%Z, [21018; 21083]%N);
   ((-822381091919499, -47)%Z, [21021]%N);
   ((-5590713813403691, -49)%Z, [21029; 21035; 29469]%N);
   ((-2858343832755625, -49)%Z, [21040]%N);
   ((-4813581983700385, -49)%Z, [21128]%N);
   ((-4803791302950823, -49)%Z, [21152]%N);
   ((-8596829930423227, -50)%Z, [21153; 21209]%N);
   ((-549508147347447, -46)%Z, [21160; 21205; 27963]%N);
   ((-8374977210320687, -50)%Z, [21183; 21218]%N);
   ((-9949146863557, -41)%Z, [21313]%N);
   ((-2764394407283241, -48)%Z, [21315; 26007; 39717]%N);
   ((-1337378825366615, -47)%Z, [21322; 39108; 39128]%N);
   ((-6147252551300275, -49)%Z, [21327; 21332; 25206; 29702; 37219; 39770; 40060]%N);
   ((-218919932124373, -45)%Z, [21333; 21934]%N);
   ((-3169690028398425, -49)%Z, [21363]%N);
   ((-6227592564435831, -50)%Z, [21364; 21371]%N);
   ((-3971637143784801, -49)%Z, [21382; 27511]%N);
   ((-1086639917191279, -47)%Z, [21385; 21426]%N);
   ((-4790996435065365, -49)%Z, [21387; 22739; 24191; 24291]%N);
   ((-2916108434774099, -48)%Z, [21402]%N);
   ((-1269380325020043, -48)%Z, [21407]%N);
   ((-576970319959081, -46)%Z, [21450]%N);
   ((-143533121512515, -44)%Z, [21452; 38617]%N);
   ((-5492945474221069, -50)%Z, [21453]%N);
   ((-2603545462716629, -48)%Z, [21476]%N);
   ((-2337151782028653, -48)%Z, [21478]%N);
   ((-5037381460380865, -50)%Z, [21482]%N);
   ((-2343652647812593, -48)%Z, [21487]%N);
   ((-721864788315915, -46)%Z, [21512]%N);
   ((-82040884122915, -44)%Z, [21516]%N);
   ((-7230517885530127, -50)%Z, [21521]%N);
   ((-1208422369159381, -47)%Z, [21807; 26059]%N);
   ((-5300532250843023, -49)%Z, [22158; 30896]%N);
   ((-7780093082636399, -50)%Z, [22235]%N);
   ((-5384711133516985, -49)%Z, [22240; 24815; 24931; 37555; 38160]%N);
   ((-2438098224902471, -48)%Z, [22242; 22296]%N);
   ((-2375657080833385, -48)%Z, [22519; 25191]%N);
   ((-6954023665800025, -50)%Z, [22522]%N);
   ((-3268729862155305, -48)%Z, [22530; 24161; 26103; 26127; 26336]%N);
   ((-4083949251984533, -49)%Z, [22788; 34389]%N);
   ((-6269182079244847, -50)%Z, [22810]%N);
   ((-1914156557075115, -49)%Z, [22823]%N);
   ((-2716022860217089, -48)%Z, [22825]%N);
   ((-5617526021363739, -49)%Z, [22826; 23384; 31177]%N);
   ((-4380598547896153, -49)%Z, [22859; 22894]%N);
   ((-3350229871176445, -49)%Z, [22909]%N);
   ((-4355242873616479, -49)%Z, [22914]%N);
   ((-6591860761893215, -50)%Z, [22987]%N);
   ((-323043318391117, -45)%Z, [22993; 26435; 27402]%N);
   ((-5505808074652739, -49)%Z, [22996; 31895]%N);
   ((-1617788442468507, -47)%Z, [23059; 36989]%N);
   ((-5852690033140235, -49)%Z, [23113; 24490; 24581; 24757; 30171]%N);
   ((-8150026701632719, -50)%Z, [23425; 23527]%N);
   ((-6473057654255817, -50)%Z, [23450]%N);
   ((-5217493623703483, -50)%Z, [23454; 23526]%N);
   ((-3627936747028075, -49)%Z, [23545; 23565]%N);
   ((-3952773653736973, -49)%Z, [23558; 23559]%N);
   ((-914387719147349, -47)%Z, [23567]%N);
   ((-5032047866674281, -49)%Z, [23569]%N);
   ((-6434927883333285, -50)%Z, [23578]%N);
   ((-173446879318909, -45)%Z, [23588]%N);
   ((-665495588325059, -47)%Z, [23601]%N);
   ((-5977513263204761, -50)%Z, [23613; 30433]%N);
   ((-956254641723349, -47)%Z, [23621]%N);
   ((-254799326228125, -45)%Z, [23622; 23626]%N);
   ((-8659170034662833, -50)%Z, [23649; 23650]%N);
   ((-1007675989450651, -47)%Z, [24046]%N);
   ((-3459672476686381, -50)%Z, [24050]%N);
   ((-5494660186538735, -49)%Z, [24102; 24118]%N);
   ((-382070245204533, -45)%Z, [24109; 30452]%N);
   ((-3168803073821657, -49)%Z, [24120]%N);
   ((-969044242990505, -47)%Z, [24178; 24185]%N);
   ((-3944276134608113, -49)%Z, [24184]%N);
   ((-6080946596863693, -49)%Z, [24320; 25269; 38283]%N);
   ((-7799405732939297, -50)%Z, [24322; 30064]%N);
   ((-1087359803611805, -47)%Z, [24375; 24378]%N);
   ((-2599838263993377, -49)%Z, [24403; 30070]%N);
   ((-2666354788625929, -48)%Z, [24443; 24505; 35475]%N);
   ((-5901603520031799, -50)%Z, [24448]%N);
   ((-8550341220472859, -50)%Z, [24452; 24465]%N);
   ((-1380786933687779, -48)%Z, [24456]%N);
   ((-2447450413294849, -48)%Z, [24464]%N);
   ((-4840554805057649, -49)%Z, [24466]%N);
   ((-1863092192680647, -48)%Z, [24494]%N);
   ((-1133234513787095, -48)%Z, [24517]%N);
   ((-677781879960577, -46)%Z, [24525; 38468]%N);
   ((-1272033620248951, -47)%Z, [24537; 32852; 32879]%N);
   ((-1427086341815113, -48)%Z, [24555]%N);
   ((-1469742002969325, -48)%Z, [24573]%N);
   ((-6874752181179439, -50)%Z, [24613]%N);
   ((-5375703742101281, -49)%Z, [24616]%N);
   ((-4700614425036945, -49)%Z, [24618; 27839]%N);
   ((-5959633351724419, -50)%Z, [24635; 32317]%N);
   ((-4950842556094201, -49)%Z, [24653]%N);
   ((-855957694148219, -47)%Z, [24656]%N);
   ((-674233124123045, -46)%Z, [24675; 38935; 39047]%N);
   ((-8850046548792587, -50)%Z, [24680]%N);
   ((-7257477340348505, -50)%Z, [24688]%N);
   ((-5483728776009949, -49)%Z, [24694; 24801; 28304; 36805]%N);
   ((-3676883373727755, -49)%Z, [24708]%N);
   ((-4586423859258935, -49)%Z, [24713]%N);
   ((-5517181187796121, -49)%Z, [24717; 25163]%N);
   ((-1255606139052725, -47)%Z, [24763]%N);
   ((-153818034173749, -44)%Z, [24799]%N);
   ((-8425911554676991, -50)%Z, [24819]%N);
   ((-7639847924817975, -50)%Z, [24840]%N);
   ((-4879887938136967, -49)%Z, [24868; 24996; 38989; 39069]%N);
   ((-6642757558939139, -50)%Z, [24930]%N);
   ((-5316391044719263, -49)%Z, [24936]%N);
   ((-4441778974178159, -49)%Z, [25104]%N);
   ((-6853251931636491, -50)%Z, [25110]%N);
   ((-4918198632100907, -49)%Z, [25130]%N);
   ((-5162540574510837, -49)%Z, [25152]%N);
   ((-5277551510929281, -49)%Z, [25165; 25954]%N);
   ((-6411841072492009, -49)%Z, [25196; 25562; 27425; 36837]%N);
   ((-4861667902734081, -49)%Z, [25209; 27515]%N);
   ((-2617113148203221, -48)%Z, [25311; 25836]%N);
   ((-7089617506607821, -49)%Z, [25314; 25554; 25588; 25871; 29245; 32763]%N);
   ((-2596999237980579, -48)%Z, [25318; 25876; 33293]%N);
   ((-8782760817438709, -50)%Z, [25340]%N);
   ((-6183584508768551, -49)%Z, [25351; 30830; 30906; 32842]%N);
   ((-8151801169938307, -50)%Z, [25353]%N);
   ((-7708081243341615, -49)%Z, [25422; 25552; 26179]%N);
   ((-8029098671158679, -50)%Z, [25454; 25818]%N);
   ((-4177828597721399, -49)%Z, [25509]%N);
   ((-2788885932594959, -48)%Z, [25746]%N);
   ((-8823937554918653, -50)%Z, [25797]%N);
   ((-4524040916889257, -49)%Z, [25918]%N);
   ((-7176966356363803, -50)%Z, [25925]%N);
   ((-7153309020465597, -50)%Z, [25972]%N);
   ((-2238432545391169, -48)%Z, [26029; 26039; 30828; 32020; 32431]%N);
   ((-4649167694536397, -49)%Z, [26032]%N);
   ((-7673015480455131, -50)%Z, [26041]%N);
   ((-5410021651496387, -50)%Z, [26080; 28961]%N);
   ((-3039932410214741, -49)%Z, [26085]%N);
   ((-5608505677393803, -50)%Z, [26089]%N);
   ((-6934579687138319, -50)%Z, [26102; 26178]%N);
   ((-4178893782435455, -49)%Z, [26126]%N);
   ((-6603472684564963, -50)%Z, [26242; 26283]%N);
   ((-108362222750131, -44)%Z, [26263]%N);
   ((-4712028980013895, -50)%Z, [26356]%N);
   ((-6342580153428211, -50)%Z, [26366]%N);
   ((-4652944075354385, -50)%Z, [26368]%N);
   ((-5207574886445201, -50)%Z, [26377]%N);
   ((-6471459499400055, -50)%Z, [26410]%N);
   ((-6156879444256409, -50)%Z, [26412]%N);
   ((-5963440930283379, -50)%Z, [26497; 26997]%N);
   ((-6450887319497143, -50)%Z, [26524]%N);
   ((-7833686364096575, -50)%Z, [26684]%N);
   ((-2411772979902035, -48)%Z, [27178; 27243]%N);
   ((-4837111675343069, -49)%Z, [27427]%N);
   ((-4679468278754573, -49)%Z, [27490]%N);
   ((-2872510094752395, -49)%Z, [27491]%N);
   ((-2390793790864845, -48)%Z, [27589]%N);
   ((-1589546552802647, -47)%Z, [27595]%N);
   ((-2354376801143501, -48)%Z, [27599]%N);
   ((-1221536293081895, -48)%Z, [27604]%N);
   ((-3255434501854565, -49)%Z, [27605; 30050]%N);
   ((-8076255162497793, -50)%Z, [27627]%N);
   ((-1606806031217403, -48)%Z, [27704]%N);
   ((-2554999681676043, -48)%Z, [27794; 27809]%N);
   ((-6021633899481675, -49)%Z, [27833]%N);
   ((-3743626570868587, -49)%Z, [28145]%N);
   ((-6799627515716393, -50)%Z, [28176; 28472]%N);
   ((-7374944172554227, -50)%Z, [28385; 28415]%N);
   ((-37710209883055, -42)%Z, [28507; 28508]%N);
   ((-8907623900771543, -50)%Z, [28779]%N);
   ((-3875554583890419, -49)%Z, [29031]%N);
   ((-4433338786793735, -49)%Z, [29282; 32780]%N);
   ((-2413628408135589, -49)%Z, [29305]%N);
   ((-7460027983299549, -50)%Z, [29420; 29544]%N);
   ((-7270391029234913, -50)%Z, [29467]%N);
   ((-7424102016459911, -50)%Z, [29575]%N);
   ((-4098548448188411, -49)%Z, [29616; 29694]%N);
   ((-2482145870561401, -49)%Z, [29978]%N);
   ((-4778485921247537, -49)%Z, [29983]%N);
   ((-3302185444782105, -49)%Z, [30001]%N);
   ((-8508130547387425, -50)%Z, [30053]%N);
   ((-2782560386017379, -48)%Z, [30142]%N);
   ((-4535976698698593, -49)%Z, [30331]%N);
   ((-74331875083867, -43)%Z, [30333]%N);
   ((-19242905748863, -41)%Z, [30334]%N);
   ((-933709482055809, -47)%Z, [30340]%N);
   ((-5366838205279605, -49)%Z, [30410]%N);
   ((-4364427652150421, -50)%Z, [30456]%N);
   ((-2299158756706635, -49)%Z, [30495]%N);
   ((-1116083671448577, -47)%Z, [30524]%N);
   ((-8522848402806347, -50)%Z, [30528; 33879]%N);
   ((-8217619252420351, -50)%Z, [31169]%N);
   ((-3649167252498919, -49)%Z, [31245]%N);
   ((-1872799188287119, -48)%Z, [31283; 31337]%N);
   ((-3218431043697001, -49)%Z, [31350]%N);
   ((-4654105883687513, -49)%Z, [31354]%N);
   ((-8687389554645855, -50)%Z, [31364]%N);
   ((-2611045508199683, -49)%Z, [31435]%N);
   ((-6455601492079303, -50)%Z, [31455]%N);
   ((-2024090263066223, -48)%Z, [31469]%N);
   ((-1798191519937483, -48)%Z, [31616; 31777]%N);
   ((-4637008475552697, -49)%Z, [32004; 32422]%N);
   ((-3078741733913035, -49)%Z, [32027; 32439]%N);
   ((-4736766841775451, -49)%Z, [32032]%N);
   ((-8623511271586441, -50)%Z, [32034]%N);
   ((-893252112141599, -47)%Z, [32039; 32202]%N);
   ((-551698016242561, -46)%Z, [32048; 32454; 34022; 39488]%N);
   ((-2825712852835187, -49)%Z, [32066; 32456]%N);
   ((-748028420639345, -47)%Z, [32085; 32477]%N);
   ((-4485989276794607, -49)%Z, [32113; 32479]%N);
   ((-6222140253989667, -50)%Z, [32147; 32463]%N);
   ((-481849086017981, -46)%Z, [32233; 32531]%N);
   ((-8453429826475801, -50)%Z, [32305; 32437]%N);
   ((-5722916750262193, -49)%Z, [32654; 35905]%N);
   ((-88676799572037, -43)%Z, [32676; 37941; 38081]%N);
   ((-598088303251761, -46)%Z, [32769]%N);
   ((-2575216828641713, -48)%Z, [32902]%N);
   ((-5098960775297337, -49)%Z, [32972]%N);
   ((-8830408261848809, -50)%Z, [32993]%N);
   ((-1135977659256055, -48)%Z, [33258]%N);
   ((-1361754369725899, -48)%Z, [33267]%N);
   ((-1991031220431387, -48)%Z, [33707]%N);
   ((-319028313345525, -45)%Z, [33988]%N);
   ((-5077512468635521, -49)%Z, [34892]%N);
   ((-443342177090051, -46)%Z, [34987]%N);
   ((-5285107999600033, -49)%Z, [35211; 35265]%N);
   ((-1323191825197775, -47)%Z, [35442; 35813]%N);
   ((-2610247564503159, -48)%Z, [35488; 35802; 37196]%N);
   ((-1512627364291993, -47)%Z, [35524; 35846]%N);
   ((-1126649682845491, -47)%Z, [36031; 36152]%N);
   ((-5770222424649273, -50)%Z, [36214; 36245]%N);
   ((-7545833343971123, -50)%Z, [36215]%N);
   ((-2845369711926679, -48)%Z, [36229]%N);
   ((-5517315820914731, -50)%Z, [36234]%N);
   ((-8234693040707355, -50)%Z, [36275]%N);
   ((-390994783537817, -46)%Z, [36611; 36739]%N);
   ((-1613408713546853, -48)%Z, [36629; 36731]%N);
   ((-4588627188699465, -49)%Z, [36650; 36718]%N);
   ((-1167296450490383, -47)%Z, [36681; 36716]%N);
   ((-2488315516134635, -48)%Z, [36703; 36720]%N);
   ((-8773468605903659, -50)%Z, [36804]%N);
   ((-3181349437347309, -49)%Z, [36807; 36942]%N);
   ((-8950115732531641, -50)%Z, [36814]%N);
   ((-984496531389209, -47)%Z, [36817]%N);
   ((-2525546464182993, -49)%Z, [36827; 36914]%N);
   ((-6901925410557403, -50)%Z, [36828; 36960]%N);
   ((-6086652481721895, -50)%Z, [36830; 36899]%N);
   ((-8146486132970249, -50)%Z, [36831; 36978]%N);
   ((-667631216138067, -46)%Z, [36870]%N);
   ((-4716388389418185, -50)%Z, [36880]%N);
   ((-360665678079783, -46)%Z, [36890]%N);
   ((-2779926857267263, -49)%Z, [37325]%N);
   ((-2647965687252153, -49)%Z, [38263; 38271]%N);
   ((-6823388395585623, -50)%Z, [38470; 38520]%N);
   ((-2309042003034613, -48)%Z, [38505; 38570]%N);
   ((-2482617155606441, -49)%Z, [38543; 38568]%N);
   ((-2853299108864799, -48)%Z, [38548]%N);
   ((-5410177194759305, -50)%Z, [38590; 38627]%N);
   ((-628401956070379, -46)%Z, [38646]%N);
   ((-5003657819974025, -49)%Z, [38669]%N);
   ((-4902560127780765, -49)%Z, [38670]%N);
   ((-5032254605777261, -50)%Z, [38750]%N);
   ((-4689942068377449, -49)%Z, [38914; 39030]%N);
   ((-1247495562455951, -47)%Z, [38915; 39031]%N);
   ((-7538599450937753, -50)%Z, [38918; 39034]%N);
   ((-132787882087459, -44)%Z, [38928; 39044]%N);
   ((-7033367553188363, -50)%Z, [38931; 39039]%N);
   ((-2050664226803979, -48)%Z, [38971; 39057]%N);
   ((-2372725023313407, -48)%Z, [39131; 39134]%N);
   ((-5683286469727001, -50)%Z, [39318]%N);
   ((-7185214744220993, -50)%Z, [39340; 39532]%N);
   ((-4478678135677715, -49)%Z, [39519; 39588]%N);
   ((-5518514042137347, -50)%Z, [39640]%N);
   ((-8602115855187975, -50)%Z, [40664]%N);
   ((-583967358418831, -46)%Z, [40778; 40784]%N)];
  (* ('B', 'df') *)
  [
   ((0, 0)%Z, [19981]%N)];
  (* ('B', 'dg') *)
  [
];
  (* ('B', 'e') *)
  [
   ((-1439837957858721, -49)%Z, [21596; 21978]%N);
   ((-7349827211323799, -50)%Z, [21703; 22123]%N);
   ((-2325018573530873, -49)%Z, [21704]%N);
   ((-2371339037213611, -52)%Z, [21710]%N);
   ((-8354758647646447, -52)%Z, [21834]%N);
   ((-5537761215645259, -50)%Z, [21992; 23578]%N);
   ((-6112899737856213, -50)%Z, [21996]%N);
   ((-5675942302766409, -51)%Z, [22825]%N);
   ((-806255873808555, -48)%Z, [22909]%N)];
  (* ('B', 'en') *)
  [
];
  (* ('B', 'f') *)
  [
   ((-1679834916571649, -48)%Z, [19968]%N);
   ((-7989402294514889, -51)%Z, [19978]%N);
   ((-4810145370465299, -50)%Z, [19979]%N);
   ((-6336922074747253, -50)%Z, [19994; 26989]%N);
   ((-4024766095359481, -49)%Z, [19995; 21474]%N);
   ((-459029015884203, -47)%Z, [19996; 26481]%N);
   ((-642622792418869, -47)%Z, [20004; 20841]%N);
   ((-7523359085379093, -51)%Z, [20013]%N);
   ((-3877398793282703, -51)%Z, [20043]%N);
   ((-208432023390325, -47)%Z, [20197]%N);
   ((-6757671875958175, -50)%Z, [20391; 20596]%N);
   ((-4101401696554645, -49)%Z, [20559]%N);
   ((-315235415741387, -45)%Z, [20808]%N);
   ((-8597069568883847, -51)%Z, [20839; 20869]%N);
   ((-7896633248178889, -50)%Z, [20851; 38364]%N);
   ((-3267199230889185, -49)%Z, [20854]%N);
   ((-5544828741297807, -50)%Z, [21021]%N);
   ((-7566225607653979, -51)%Z, [21069]%N);
   ((-3955996242197355, -50)%Z, [21271]%N);
   ((-1404292587509863, -47)%Z, [21306; 21312]%N);
   ((-902702898912295, -48)%Z, [21335]%N);
   ((-4002194922545231, -49)%Z, [21453]%N);
   ((-3195955410549015, -49)%Z, [21491]%N);
   ((-2565680424680527, -49)%Z, [21516]%N);
   ((-2101008765778591, -49)%Z, [21518; 24460]%N);
   ((-4960652994337207, -50)%Z, [21608; 36913]%N);
   ((-5537659136473527, -50)%Z, [22235]%N);
   ((-1273187425621407, -47)%Z, [22330; 22580]%N);
   ((-8039342981750145, -50)%Z, [22478]%N);
   ((-5965658443577701, -49)%Z, [22659]%N);
   ((-1073492918928045, -48)%Z, [22806]%N);
   ((-5249042475671907, -49)%Z, [22823]%N);
   ((-5110072606298773, -49)%Z, [22825; 34892]%N);
   ((-4420114399566381, -49)%Z, [22836; 38957]%N);
   ((-122700287260135, -44)%Z, [23467; 23470]%N);
   ((-215036933646185, -45)%Z, [23545; 23565]%N);
   ((-7297623162349263, -50)%Z, [23613; 30433]%N);
   ((-1214708825665393, -47)%Z, [23614; 24320; 38283]%N);
   ((-8760485753143731, -50)%Z, [23665]%N);
   ((-3178045794902229, -49)%Z, [24038]%N);
   ((-3946087116409313, -49)%Z, [24180]%N);
   ((-87084453014817, -44)%Z, [24213]%N);
   ((-3077537736755589, -48)%Z, [24237]%N);
   ((-5901855308243361, -50)%Z, [24403; 30070]%N);
   ((-5075943978271027, -49)%Z, [26012]%N);
   ((-5376578560933521, -50)%Z, [26049]%N);
   ((-7603301325665175, -50)%Z, [26089]%N);
   ((-3633782776760575, -50)%Z, [26368]%N);
   ((-3990937224048587, -50)%Z, [26399]%N);
   ((-6769102430043745, -50)%Z, [26411]%N);
   ((-4756197390756715, -49)%Z, [26519]%N);
   ((-5711213439219421, -49)%Z, [26657]%N);
   ((-2257783901259835, -48)%Z, [27004; 27155]%N);
   ((-7742387662424551, -50)%Z, [27491]%N);
   ((-8791804960393435, -51)%Z, [27839]%N);
   ((-509451652547447, -46)%Z, [30382]%N);
   ((-5764868300500843, -49)%Z, [31245]%N);
   ((-3140347062664889, -48)%Z, [31471]%N);
   ((-4534230836084533, -49)%Z, [31649]%N);
   ((-5028342400619201, -49)%Z, [31665]%N);
   ((-3922128183454623, -49)%Z, [32922]%N);
   ((-3040054118570043, -49)%Z, [32972]%N);
   ((-6688363849964685, -50)%Z, [33050; 33139]%N);
   ((-1156463806112389, -48)%Z, [35041; 37324]%N);
   ((-7732603519207023, -51)%Z, [35199]%N);
   ((-378277347600395, -45)%Z, [36123; 36195]%N);
   ((-8809659503072723, -50)%Z, [36275]%N);
   ((-3461836854219009, -49)%Z, [36319]%N);
   ((-6442644734616655, -49)%Z, [36335]%N);
   ((-3116180032131095, -49)%Z, [36523]%N);
   ((-3869249269854179, -49)%Z, [36793; 37002]%N);
   ((-8054661584132279, -50)%Z, [36817]%N);
   ((-8261899012391787, -51)%Z, [38468]%N);
   ((-1151313436818969, -48)%Z, [38754]%N);
   ((-400603783148591, -46)%Z, [38914; 39030]%N)];
  (* ('B', 'g') *)
  [
];
  (* ('B', 'h') *)
  [
   ((0, 0)%Z, [36229]%N)];
  (* ('B', 'i') *)
  [
   ((-3425216198669229, -50)%Z, [19968]%N);
   ((-2839432106597911, -48)%Z, [19969; 20080; 20083; 20165; 20439; 20633; 20677; 20857; 20973; 21019; 21098; 21109;
     21359; 21363; 21617; 22791; 22953; 23244; 23285; 23784; 24049; 24675; 24796; 24977; 25620; 25644; 27010; 27602;
     27792; 27827; 29520; 29677; 31461; 32177; 32434; 33125; 33579; 33586; 34429; 34445; 34926; 34974; 36023; 36074;
     36136; 36865; 36873; 36935; 36984; 36992; 38013; 38075; 38614; 38761; 38931; 39039; 39748; 39764]%N);
   ((-429593949918345, -46)%Z, [19971]%N);
   ((-6252459143382059, -50)%Z, [19975; 33836]%N);
   ((-6069071386206157, -49)%Z, [19976; 19995; 20167; 20315; 20804; 20851; 21010; 21123; 21450; 21472; 21474; 21695;
     21898; 21983; 22930; 23380; 23395; 24214; 24568; 24615; 24629; 24936; 25159; 25277; 25658; 25794; 25884; 26279;
     26326; 26446; 27523; 27900; 28088; 28497; 28872; 29245; 29313; 29575; 30090; 31185; 31203; 31578; 31639; 31731;
     31918; 31975; 32670; 33020; 33167; 33402; 34269; 34739; 35712; 35835; 35937; 36848; 37066; 38339; 38364; 38418;
     39253; 39479; 39578; 39791; 40065; 40169; 40300; 40480; 40527]%N);
   ((-6021955733222749, -50)%Z, [19977]%N);
   ((-8784171217639139, -50)%Z, [19978; 20256; 20659; 21442; 21443; 23601; 29577; 33145; 33293; 36798; 36948]%N);
   ((-4686052097327933, -49)%Z, [19979; 21483; 21489; 21899; 24310; 24369; 25554; 26159; 26426; 26611; 27231; 36001;
     36012; 36130; 36131; 38876; 38892]%N);
   ((-3339759387774225, -50)%Z, [19981]%N);
   ((-834405293783453, -47)%Z, [19982; 33287]%N);
   ((-5516913603908945, -49)%Z, [19985; 21247; 21280; 21619; 22622; 22841; 22846; 22885; 22887; 23631; 23743; 24011;
     24575; 25240; 25340; 25788; 25797; 26172; 26205; 26286; 27459; 27575; 27844; 27861; 27889; 27945; 29151; 30005;
     32184; 32353; 32399; 32438; 32483; 32544; 33310; 33829; 35524; 35846; 35910; 37276; 37476; 37555; 38057; 38160;
     38651; 38989; 39069; 39438; 39569; 40474; 40550]%N);
   ((-8607890126792097, -50)%Z, [19987; 23560; 24739; 25300; 28357; 28781; 31215; 31309]%N);
   ((-8746637745165391, -50)%Z, [19990; 20280; 20834; 22842; 22890; 27882; 28122; 29392; 32831; 35905; 36830; 36899;
     37580; 38116]%N);
   ((-3343767561469975, -48)%Z, [19994; 20104; 20339; 20558; 20991; 21076; 21078; 21084; 21106; 21155; 21521; 21629;
     21980; 22721; 22763; 22805; 23004; 23384; 23391; 23418; 23421; 23844; 24067; 24188; 24425; 24481; 24573; 24646;
     24658; 24677; 24717; 24785; 25142; 25143; 25209; 25226; 25346; 25423; 25472; 25474; 25499; 25619; 25826; 25830;
     26045; 26059; 26060; 26185; 26187; 26381; 26690; 26696; 26834; 26862; 26989; 27424; 28046; 28053; 28067; 28149;
     28170; 28185; 28312; 28369; 28487; 28703; 28888; 28925; 29238; 29273; 29492; 29642; 29926; 30496; 30757; 30922;
     31142; 31243; 31709; 31909; 32006; 32417; 32827; 32933; 33433; 33495; 33606; 33610; 33715; 33940; 34593; 34847;
     34957; 35215; 35268; 35522; 35844; 35962; 36011; 36143; 36777; 36783; 36943; 37347; 37463; 37648; 38015; 38035;
     38067; 38181; 38593; 38660; 38753; 38859; 38886; 38924; 38929; 39037; 39042; 39250; 39286; 39519; 39588; 40478;
     40510; 40607; 40700]%N);
   ((-6912637940761347, -50)%Z, [19996; 26481]%N);
   ((-5288657040185487, -49)%Z, [19997; 25480; 25486; 26399; 26635; 26847; 27745; 28866; 29211; 30561; 31168; 32114;
     32780; 32929; 33176; 35496; 35826; 36831; 36978; 37956; 38136; 38646; 39187; 39295; 40723]%N);
   ((-2486810679216705, -48)%Z, [19999; 20002; 20658; 20820; 21033; 21213; 21326; 22007; 22971; 23617; 24537; 24618;
     26543; 29359; 30041; 30805; 30889; 32178; 32593; 32988; 33655; 33775; 34701; 35336; 35475; 35492; 35542; 35745;
     35770; 35823; 37733; 37806; 38194; 38215; 39501; 39553]%N);
   ((-7929900897378563, -50)%Z, [20004; 20841; 21457; 30332; 36814]%N);
   ((-509801831861959, -46)%Z, [20005; 21335; 22196; 24754; 40778; 40784]%N);
   ((-1115795663902071, -47)%Z, [20006; 20184; 24182; 24799; 25429; 27815; 28356; 29123; 30053; 32113; 32479; 32768;
     33521; 36203; 36991]%N);
   ((-7984833738671763, -50)%Z, [20007; 21930; 23649; 23650; 27665; 39015; 39038]%N);
   ((-8212855788768243, -50)%Z, [20013; 20807; 20982; 24528; 36275; 36817; 36827; 36914; 40201; 40486; 40845;
     40857]%N);
   ((-7354762375167609, -50)%Z, [20016; 32622; 35920]%N);
   ((-1300469480539217, -47)%Z, [20018; 20960; 21385; 21426; 22040; 22099; 22857; 23059; 24072; 24107; 24190; 25134;
     25527; 25842; 26803; 28218; 28937; 32380; 32487; 32701; 33593; 33805; 34555; 34581; 36929; 39262; 39307; 39391;
     39543]%N);
   ((-4328969181064795, -49)%Z, [20020; 21171; 21214; 23692; 24616; 26367; 27493; 29301; 29309; 32858; 33256;
     34966]%N);
   ((-5337640090808923, -49)%Z, [20025; 20419; 20445; 20462; 20598; 21494; 22806; 23574; 24013; 24248; 26517; 26541;
     26783; 27597; 27982; 28608; 28639; 29579; 29701; 29807; 30422; 30585; 31177; 32406; 32420; 32920; 32974; 33865;
     33995; 36009; 36068; 36137; 36145; 36994; 37261; 39321]%N);
   ((-1759733039557507, -48)%Z, [20026; 28858]%N);
   ((-3043928077924067, -49)%Z, [20030; 33289]%N);
   ((-3848339188286385, -49)%Z, [20037]%N);
   ((-7432441442747573, -50)%Z, [20041; 21453; 32681; 39740]%N);
   ((-5391294952090345, -49)%Z, [20043; 20391; 20596; 21364; 21371; 21435; 21709; 22075; 22256; 22827; 23493; 24904;
     25197; 25810; 26391; 26465; 26781; 28389; 28651; 31368; 35413; 35780; 36036; 36159; 37912; 38047; 38911; 39761;
     39881; 40100; 40763]%N);
   ((-2020699959979659, -48)%Z, [20044; 24490; 24808; 24920; 28879]%N);
   ((-2056100895337753, -48)%Z, [20048; 20914; 21331; 21382; 23525; 25391; 27138; 27511; 30427; 34909]%N);
   ((-4811670749146533, -49)%Z, [20052; 20805; 21220; 21452; 21589; 21932; 22036; 22766; 22767; 23047; 23308; 24230;
     24357; 24396; 26366; 26865; 28857; 30424; 30436; 32610; 32631; 36867; 38617; 40023; 40158; 40670]%N);
   ((-4148146973856207, -49)%Z, [20056; 40664]%N);
   ((-7966223399144721, -50)%Z, [20061; 20316; 21547; 35486; 35821]%N);
   ((-4249548990745637, -49)%Z, [20064; 20302; 21187; 25325; 27784; 27785; 32004; 32321; 32422; 32722]%N);
   ((-4557225744788253, -49)%Z, [20070; 21513; 24046; 26360; 27599; 27754; 32098; 32362; 32472; 32474; 34028; 35641;
     35880]%N);
   ((-7509710271697805, -50)%Z, [20081; 20098; 22855; 28779; 30171; 35527; 35848]%N);
   ((-8201425234682673, -50)%Z, [20102; 20845; 28895; 29017]%N);
   ((-1859550133527945, -48)%Z, [20105; 20449; 21151; 29229]%N);
   ((-7109977237651399, -50)%Z, [20107; 24038]%N);
   ((-1055168358264835, -47)%Z, [20108; 21018; 21038; 21083; 22852; 29081; 33391; 34850; 35347; 35757]%N);
   ((-1236858229449647, -47)%Z, [20110; 20652; 20711; 21884; 22899; 26044; 26234; 26612; 28422; 29922; 36229; 36864;
     38472; 38515; 39154; 39278]%N);
   ((-2563353215449305, -48)%Z, [20113; 21032; 21329; 21863; 21927; 22038; 22900; 23389; 24037; 24444; 24643; 24826;
     25242; 25771; 27546; 27563; 28431; 30095; 30343; 33136; 35980; 36367; 37571; 37847; 38143; 38162; 38468; 38642;
     38654; 38695; 40440; 40556]%N);
   ((-578141658111895, -46)%Z, [20114; 22242; 22296; 23267; 24908; 25361; 28155; 30690; 32080; 32467; 34903; 39135]%N);
   ((-6484227952033873, -50)%Z, [20116; 24341]%N);
   ((-8062512806251727, -50)%Z, [20117; 20284; 24688; 38596]%N);
   ((-722687765637585, -46)%Z, [20120; 20121; 20179; 20342; 20384; 20448; 20489; 20621; 21271; 21368; 21387; 21535;
     22251; 22739; 22809; 23486; 23494; 24685; 24800; 25488; 25568; 25720; 26666; 27973; 28154; 28538; 29572; 29738;
     29781; 30192; 30417; 30435; 31508; 31528; 31558; 32772; 33426; 35137; 35199; 35370; 35775; 35895; 36051; 36405;
     36413; 36825; 36889; 36944; 37255; 38745; 38748; 39151; 39184; 39277; 39616; 40306; 40522]%N);
   ((-562079383424307, -46)%Z, [20129; 20355; 23519; 23521; 23853; 23940; 25238; 26103; 26336; 27169; 27838; 27934;
     30701; 32824; 32883; 36000; 36127; 36364; 36490]%N);
   ((-318286112679429, -45)%Z, [20130; 20799; 20818; 22270; 22294; 23388; 24609; 25140; 25342; 25975; 26009; 27779;
     28129; 28378; 28414; 28846; 31192; 32191; 32501; 33541; 35065; 36855; 37219; 37586; 37801; 38121; 38155; 38275;
     38378]%N);
   ((-8178906485900843, -50)%Z, [20132; 20915; 21407; 21636; 24324; 24536; 27770]%N);
   ((-4702370629860529, -49)%Z, [20134; 20891; 22989; 22999; 23608; 23629; 25282; 26483; 29618; 29664; 30610; 30622;
     31548; 31563; 31840; 33499; 33976; 36557]%N);
   ((-2500543889540005, -48)%Z, [20141; 20826; 20849; 21646; 22116; 22908; 22916; 23033; 23578; 24040; 24231; 24426;
     25288; 27877; 29421; 29433; 30862; 31359; 33286; 34920; 35206; 36077; 36172; 36671; 38500; 39108; 39128;
     40680]%N);
   ((-4508242694164817, -49)%Z, [20146; 23485; 23532; 24178; 24185; 25506; 30130; 31283; 31337; 32005; 32418;
     35242]%N);
   ((-5533086933615885, -50)%Z, [20154]%N);
   ((-4213680176004777, -49)%Z, [20161; 20912; 25968; 25976; 26434; 36898; 38620]%N);
   ((-6297327949929615, -49)%Z, [20166; 20426; 20693; 20855; 20898; 21149; 21240; 21281; 21683; 21809; 22039; 22068;
     22124; 22618; 22635; 22871; 23506; 23517; 23522; 23581; 24043; 24120; 24149; 24895; 24910; 25166; 25377; 25504;
     25550; 25551; 25578; 25661; 25668; 25803; 25885; 25919; 25932; 25949; 25973; 26001; 26012; 26093; 26216; 26429;
     26460; 26633; 26647; 26753; 27036; 27073; 27355; 27431; 27472; 27762; 27801; 27931; 28041; 28051; 29312; 29483;
     30072; 30410; 30423; 30428; 30565; 31255; 31348; 31397; 31418; 32020; 32431; 32937; 32961; 33029; 33296; 33485;
     33980; 34434; 34453; 34560; 34588; 34707; 34718; 34870; 35010; 35124; 35172; 35461; 35586; 35803; 35859; 35987;
     36339; 36372; 36425; 36433; 36513; 36766; 36781; 36894; 36920; 36930; 36963; 36973; 37145; 37197; 37406; 37860;
     38055; 38210; 38356; 38422; 38495; 38657; 38717; 38991; 39000; 39068; 39376; 39522; 39540; 39547; 39825; 40077;
     40329; 40441; 40529; 40560]%N);
   ((-8399898017209307, -50)%Z, [20170; 25206; 32784]%N);
   ((-6707965654841635, -50)%Z, [20174; 24478]%N);
   ((-5450607649472363, -49)%Z, [20182; 20271; 20278; 20301; 20975; 20977; 20987; 21375; 21555; 21556; 22120; 23562;
     23681; 24076; 24809; 25074; 25802; 25947; 25986; 26379; 27506; 28270; 28418; 29066; 29409; 30126; 30241; 30355;
     31649; 31967; 32173; 32500; 32596; 33722; 33900; 36066; 36132; 37657; 38193; 40367; 40575]%N);
   ((-4544574651633093, -49)%Z, [20183; 21073; 21133; 23398; 23416; 24555; 24700; 24817; 25106; 25513; 37257;
     40687]%N);
   ((-369195048557455, -45)%Z, [20185; 20294; 20667; 20801; 20813; 21024; 21034; 21295; 21484; 23453; 23542; 23610;
     23653; 23721; 23781; 23842; 24265; 24601; 24792; 25945; 26361; 26417; 26580; 26792; 27490; 27719; 28860; 29001;
     29141; 29796; 29814; 30733; 31206; 31859; 32066; 32227; 32456; 32536; 33014; 33184; 33292; 33831; 34157; 34814;
     34917; 35036; 35167; 35422; 35789; 36029; 36155; 37492; 37969; 39973; 40143]%N);
   ((-4853389828618619, -49)%Z, [20195; 21161; 24323; 24681; 25317; 25793; 26230; 26538; 26820; 27085; 27769; 27958;
     28316; 31062; 31209; 32302; 32553; 32745; 35609; 35672; 35782; 35878; 36805; 36820; 36877; 38548]%N);
   ((-4179960519991691, -49)%Z, [20196; 21839; 22859; 22894; 24377; 24392; 24822; 25481; 26684; 32874; 32880; 36235;
     36264; 38382; 40657]%N);
   ((-6606985094212131, -50)%Z, [20197]%N);
   ((-1265100119115507, -47)%Z, [20202; 20570; 20736; 20993; 22696; 23477; 23822; 24581; 24757; 25298; 26495; 27589;
     27782; 28180; 28417; 29748; 30860; 31119; 33464; 33590; 34261; 36020; 36149; 36234; 36880; 36951; 36986;
     38899]%N);
   ((-594296523265707, -46)%Z, [20208; 21767; 26089; 26631; 27161; 27987; 28020; 28611; 29616; 29694; 29976; 30142;
     31227; 31661; 32094; 32478; 32954; 37509; 38108; 40796; 40839]%N);
   ((-133267558724949, -44)%Z, [20215; 20729; 20843; 21769; 25970; 29378; 29399; 36062; 36175]%N);
   ((-8167813786253471, -50)%Z, [20219; 20837; 27735; 29992; 36215; 37341; 38024]%N);
   ((-8591689848635195, -50)%Z, [20241; 23545; 23565; 24222; 25490; 27468; 32027; 32439; 38632; 40848]%N);
   ((-6421661861795413, -50)%Z, [20247; 30526]%N);
   ((-8948228132274141, -50)%Z, [20248; 20778; 21128; 21169; 21237; 22826; 22937; 23448; 24680; 24758; 30636; 36575;
     36719; 38290; 38386; 38391; 40718]%N);
   ((-8559972260882717, -50)%Z, [20260; 20663; 21490; 21507; 26263; 32011; 32441]%N);
   ((-2416071956369285, -48)%Z, [20307; 21193; 21514; 21988; 22996; 23616; 26197; 26248; 27530; 30465; 31181; 31278;
     36895; 36924; 38816; 39636]%N);
   ((-1916997869201489, -48)%Z, [20309; 24352; 24373]%N);
   ((-5592085095167203, -49)%Z, [20313; 21327; 21332; 21520; 21531; 23507; 24208; 24300; 24591; 25195; 25289; 25343;
     25375; 25406; 25475; 25484; 25746; 26031; 26157; 26505; 27014; 30307; 30316; 30450; 30554; 31169; 31264; 31658;
     31774; 32580; 33041; 33080; 33126; 33225; 33647; 34277; 34430; 34542; 34631; 34662; 34821; 34875; 35264; 35266;
     35469; 35611; 35748; 35762; 36064; 36180; 36524; 37034; 37039; 37857; 38236; 39192; 40251; 40511; 40660]%N);
   ((-8259775073763523, -50)%Z, [20320; 20859; 24859; 26149; 27605; 29233; 29369; 29494; 30050; 31561; 39178]%N);
   ((-7075985224774821, -50)%Z, [20358; 26469]%N);
   ((-4583414185423075, -49)%Z, [20363; 20811; 20882; 21009; 25805; 26007; 26641; 27193; 28246; 30097; 30196; 31216;
     31281; 39717]%N);
   ((-3764160305612423, -49)%Z, [20379]%N);
   ((-984690502013615, -47)%Z, [20381; 35013; 35037]%N);
   ((-2621798500814477, -48)%Z, [20415; 20932; 21066; 21675; 21697; 22218; 22475; 22478; 22615; 22681; 23456; 23541;
     24066; 25569; 25856; 26827; 27902; 28034; 28039; 28114; 28799; 29158; 29254; 29282; 29756; 29898; 30776; 31383;
     32008; 32034; 32424; 34619; 35201; 35531; 35584; 35831; 35851; 37225; 37528; 38125; 38598; 38917; 39033; 40285;
     40517; 40736]%N);
   ((-4610880606069675, -49)%Z, [20463; 20538; 20661; 21305; 22788; 25233; 29022; 30342; 34389; 36106; 36190; 36670;
     36759; 36829; 36949; 38752]%N);
   ((-8863214185939305, -50)%Z, [20498; 23569; 25320; 25765; 25903; 28825; 29356; 33609; 38915; 39031]%N);
   ((-4772831215356551, -49)%Z, [20506; 20961; 22934; 23305; 23492; 25943; 26688; 27498; 27867; 29980; 34506; 34865;
     36133; 36617; 36733; 38012; 38179; 38451; 38525; 38605; 38829]%N);
   ((-8334037143555837, -50)%Z, [20511; 23383; 25265; 25417; 26041; 28372; 35441; 35805]%N);
   ((-8032751604581143, -50)%Z, [20542; 20670; 21548; 27604; 32893; 35342; 35752]%N);
   ((-8710315243399233, -50)%Z, [20547; 20854; 21463; 23682; 26408; 31096; 31117; 32654; 33037; 33214; 35912; 36008;
     36135; 39405; 39559]%N);
   ((-2395958046146643, -48)%Z, [20551; 21163; 21191; 22781; 23551; 26020; 27835; 28809; 29200; 32160; 32511; 38797;
     40643; 40644]%N);
   ((-2581519194183443, -48)%Z, [20559; 21578; 21943; 22132; 22993; 23377; 23614; 24191; 24291; 24684; 25194; 25321;
     25451; 25628; 25799; 26114; 28176; 28472; 29031; 29934; 29973; 30001; 30475; 30624; 30952; 31946; 32842; 35301;
     35437; 35809; 36007; 36139; 38477; 39381; 39550]%N);
   ((-8455509315833577, -50)%Z, [20572; 20860; 26137; 26311; 27054; 33635; 36291; 36493]%N);
   ((-3786489859850987, -49)%Z, [20599]%N);
   ((-7252337258560473, -50)%Z, [20808; 26395; 30452]%N);
   ((-3411119708389915, -49)%Z, [20809]%N);
   ((-7947915680209971, -50)%Z, [20839; 20869; 21338]%N);
   ((-3240878081001509, -49)%Z, [20840]%N);
   ((-7626286712471719, -50)%Z, [20844; 24748; 25080; 31435; 38452; 38512]%N);
   ((-3328893094045555, -49)%Z, [20852; 33288]%N);
   ((-3533822593665067, -49)%Z, [20853; 22352; 28385; 28415]%N);
   ((-3943043016924157, -49)%Z, [20877; 25259]%N);
   ((-8765248084692433, -50)%Z, [20896; 21497; 22022; 25165; 36225]%N);
   ((-5029963336766307, -49)%Z, [20900; 23104; 23475; 24223; 24247; 24290; 25187; 25955; 26691; 34074; 34949; 35018;
     35090; 35504; 35841; 36093; 36187; 36299; 36896; 38463]%N);
   ((-306153116698447, -45)%Z, [20901; 23553; 24736; 26087; 26462; 27627; 27777; 27837; 27905; 28500; 28536; 29087;
     29088; 32650; 33290; 36027; 36153; 37240]%N);
   ((-8575719369419155, -50)%Z, [20919; 23425; 23527; 31036; 31150; 39854; 40092]%N);
   ((-1159939040938993, -47)%Z, [20964; 20999; 21696; 22266; 25366; 25972; 26525; 28291; 28528; 29305; 30699; 30703;
     31245; 32361; 32499; 33806; 36974; 39509; 39556; 39592; 40179]%N);
   ((-5784590061810299, -50)%Z, [20986]%N);
   ((-3901630973158303, -49)%Z, [20992; 25237; 25307; 30007; 32147; 32463; 36828; 36960]%N);
   ((-7149486551357893, -50)%Z, [20998]%N);
   ((-4736499257888275, -49)%Z, [21015; 21152; 22868; 23376; 24358; 24576; 25079; 25235; 25380; 25824; 26131; 26228;
     28404; 28448; 28954; 30149; 32025; 32440; 33150; 37340; 39472]%N);
   ((-8803417838565903, -50)%Z, [21021; 24109; 25381; 25582; 37559; 38144; 38544; 38577]%N);
   ((-2335096651725847, -48)%Z, [21028; 21351; 23792; 24858; 27963; 30651; 33253; 33879; 35433; 35799; 36286; 36802;
     40372; 40548]%N);
   ((-3604560221466593, -49)%Z, [21029; 21035; 30772]%N);
   ((-3826958772357095, -49)%Z, [21051]%N);
   ((-5821065114204269, -50)%Z, [21069]%N);
   ((-7485365541479673, -50)%Z, [21147; 21475]%N);
   ((-1048301753103185, -47)%Z, [21160; 21205; 23544; 28784; 31163; 31469; 33050; 33139; 35696; 35758; 36947;
     38626]%N);
   ((-7127365998833739, -50)%Z, [21183; 21218; 24212; 25033]%N);
   ((-2359588177037565, -48)%Z, [21246; 21807; 25102; 25105; 25296; 25463; 25581; 40165; 40479]%N);
   ((-4654769052208703, -49)%Z, [21253; 22919; 23142; 25345; 26195; 26313; 26354; 27888; 27927; 28507; 28508; 28783;
     29128; 29978; 34255; 35569; 35763; 36335; 36554; 36710]%N);
   ((-970503501844775, -47)%Z, [21270; 25196; 25562]%N);
   ((-8822999200065027, -50)%Z, [21290; 21700; 24724; 25243; 25291; 25925; 27915; 31363; 31434; 36941; 37202]%N);
   ((-7131755477714541, -50)%Z, [21313]%N);
   ((-5303099729988307, -50)%Z, [21315]%N);
   ((-3293916010765383, -49)%Z, [21322]%N);
   ((-8469852183769651, -50)%Z, [21333; 21934; 22534; 25169; 25454; 25778; 25818; 27714; 27875; 29609; 38281;
     38381]%N);
   ((-8842927152272397, -50)%Z, [21334; 21496; 21608; 25954; 26970; 32676; 33394; 34562; 36067; 36913]%N);
   ((-7553622797535167, -50)%Z, [21361; 24863]%N);
   ((-3730768041265105, -49)%Z, [21367]%N);
   ((-8692584169755881, -50)%Z, [21402; 26479; 27450; 35352; 35760]%N);
   ((-1807030856026413, -48)%Z, [21462; 38543; 38568]%N);
   ((-942612578665925, -47)%Z, [21464; 35722]%N);
   ((-3878171330660663, -49)%Z, [21476; 31881; 35302; 35320]%N);
   ((-8113932696467713, -50)%Z, [21478; 22320; 22645; 23576; 32925]%N);
   ((-7835664179822527, -50)%Z, [21482; 24565; 27969; 38622; 40481]%N);
   ((-446010133537225, -46)%Z, [21487; 23613; 30433]%N);
   ((-1732721578196471, -48)%Z, [21508; 23433]%N);
   ((-7912169823735211, -50)%Z, [21512; 38663]%N);
   ((-1621676295137757, -48)%Z, [21516]%N);
   ((-2994003215177675, -49)%Z, [21517]%N);
   ((-3381826686870307, -49)%Z, [21518; 24460]%N);
   ((-3851982890025841, -49)%Z, [21534; 26410; 32972]%N);
   ((-2461204400064921, -48)%Z, [21542; 22260; 22285; 23241; 24455; 24604; 24976; 25703; 27595; 30861; 31001; 32728;
     32761; 36212; 36214; 36245]%N);
   ((-2285083846501013, -48)%Z, [21561; 23110; 24029; 25331; 25384; 26127; 26420; 27192; 30031; 30331; 31232; 32899;
     32901; 33261; 38613]%N);
   ((-4596979900962075, -49)%Z, [21574; 21822; 23233; 24428; 25285; 25462; 25812; 27946; 28847; 29255; 29645]%N);
   ((-15179230837711, -41)%Z, [21628; 24687; 26397]%N);
   ((-7370962653324511, -50)%Z, [21644]%N);
   ((-7242589146524563, -50)%Z, [21676]%N);
   ((-2242630977125537, -48)%Z, [21713; 21854; 24433; 24453; 26222; 26376; 27743; 30707; 31680; 32189; 32496; 33410;
     35519; 35576; 35832; 35843; 36861; 39138; 39269]%N);
   ((-4875469127261409, -49)%Z, [21719; 22057; 22244; 22374; 23572; 24062; 24093; 24133; 25302; 26497; 26997; 27704;
     28010; 28014; 29246; 29916; 35373; 35774; 36042; 36156]%N);
   ((-2077183739311379, -48)%Z, [21741; 25293; 26082; 40635]%N);
   ((-8641007217405743, -50)%Z, [21891; 22818; 23624; 25115; 26790; 32085; 32477]%N);
   ((-8135176721188279, -50)%Z, [21892]%N);
   ((-6509248979669529, -50)%Z, [21916]%N);
   ((-3159414866056569, -49)%Z, [22235]%N);
   ((-1911736501497221, -48)%Z, [22238; 22810; 23618; 23652; 24544; 33853]%N);
   ((-1695711328528831, -48)%Z, [22240]%N);
   ((-922736725780701, -47)%Z, [22269; 22283]%N);
   ((-1035498613527293, -47)%Z, [22303; 24039; 26071; 27442; 28107]%N);
   ((-7185809053124051, -50)%Z, [22312]%N);
   ((-107673801174307, -44)%Z, [22362; 22533; 25622; 25671]%N);
   ((-1883648262581761, -48)%Z, [22402]%N);
   ((-8904918950273543, -50)%Z, [22519; 24820; 25191; 25215; 36870; 38948; 39056; 40180; 40483]%N);
   ((-2059017760577241, -48)%Z, [22530; 24184; 31179; 36866; 36969; 37941; 38081]%N);
   ((-4532201627119507, -49)%Z, [22577; 23457; 23529; 24314; 24651; 25088; 25253; 25964; 27584; 27585; 32032; 36816;
     36939]%N);
   ((-432950806273099, -46)%Z, [22768; 32882]%N);
   ((-4186544805031593, -49)%Z, [22812; 25918; 26524; 34523; 37057; 39729]%N);
   ((-8623723293580139, -51)%Z, [22823]%N);
   ((-1355214678655881, -48)%Z, [22825]%N);
   ((-3960500228253965, -49)%Z, [22833; 30524]%N);
   ((-3438502611500063, -49)%Z, [22836; 38957]%N);
   ((-4520094709892097, -49)%Z, [22840; 23481; 24443; 24505; 24825; 27874; 32570; 35463; 35946; 37326]%N);
   ((-7398492139880173, -50)%Z, [22909]%N);
   ((-5551307510618373, -50)%Z, [22914]%N);
   ((-4001878435809235, -49)%Z, [22987; 24375; 24378; 24833; 26292; 27611]%N);
   ((-8413545455903479, -50)%Z, [23041]%N);
   ((-7055249833801857, -50)%Z, [23396]%N);
   ((-4272221180389435, -49)%Z, [23432; 23815; 25439; 25613; 25705; 26435; 27402; 27427; 30442; 33633; 38450]%N);
   ((-33257854613497, -42)%Z, [23436; 33503; 37327; 38914; 39030]%N);
   ((-3636045197581025, -49)%Z, [23454; 23526; 33457]%N);
   ((-1742073766588849, -48)%Z, [23478; 24322; 30064]%N);
   ((-3866798217517281, -49)%Z, [23500]%N);
   ((-4441936739728235, -49)%Z, [23547; 23563; 24699; 24827; 24930; 29747; 30011; 30059; 30382; 32048; 32454; 35041;
     36562; 36713; 37324]%N);
   ((-3802999839402405, -49)%Z, [23558; 23559]%N);
   ((-6030192053104111, -50)%Z, [23567]%N);
   ((-7741127566170415, -50)%Z, [23621]%N);
   ((-7479360727742853, -50)%Z, [23665; 31351; 31406]%N);
   ((-6462174800503893, -50)%Z, [24179]%N);
   ((-4173452355559493, -49)%Z, [24180; 24503; 25937; 33945; 35488; 35802; 39165; 39281]%N);
   ((-7122993566515795, -50)%Z, [24320; 38283]%N);
   ((-3751095490559, -39)%Z, [24402; 27512]%N);
   ((-6598736706354941, -50)%Z, [24403; 30070]%N);
   ((-7387399440232801, -50)%Z, [24418; 36703; 36720]%N);
   ((-8624326913700387, -50)%Z, [24466; 25915; 27531; 27544]%N);
   ((-6808954307989257, -50)%Z, [24471; 26085]%N);
   ((-435995519706291, -46)%Z, [24494]%N);
   ((-2460463734980839, -49)%Z, [24515]%N);
   ((-8271816898783725, -50)%Z, [24517; 29469]%N);
   ((-3727828348144147, -49)%Z, [24525; 37679; 38169; 39340; 39532]%N);
   ((-8023003492545233, -50)%Z, [24535]%N);
   ((-7421010888662003, -50)%Z, [24551; 24962; 27491; 36681; 36716]%N);
   ((-3623726326302383, -49)%Z, [24594]%N);
   ((-8247860677854073, -50)%Z, [24605; 26412; 28216; 33021; 36938; 39003; 39072]%N);
   ((-7042989459582289, -50)%Z, [24613]%N);
   ((-7640017369311969, -50)%Z, [24653; 39131; 39134]%N);
   ((-3969436129422139, -49)%Z, [24694; 24801; 26102; 26178; 27941]%N);
   ((-6894680623792237, -50)%Z, [24773; 26126]%N);
   ((-1533508794964231, -48)%Z, [24778; 39514]%N);
   ((-7689437837748981, -50)%Z, [24819; 33510; 38738]%N);
   ((-1724562311930173, -48)%Z, [24847]%N);
   ((-4160657487674035, -49)%Z, [24868; 24996; 26681; 28966]%N);
   ((-7547243744171553, -50)%Z, [24951]%N);
   ((-6445316091197245, -50)%Z, [25104]%N);
   ((-3761041461328025, -49)%Z, [25112; 25136; 30495]%N);
   ((-7344090258232203, -50)%Z, [25130]%N);
   ((-6859603023291299, -50)%Z, [25152]%N);
   ((-6723160216177005, -50)%Z, [25163]%N);
   ((-1803460301043891, -48)%Z, [25171]%N);
   ((-3724903926225149, -49)%Z, [25351; 27794; 27809]%N);
   ((-6870012033394441, -50)%Z, [25353]%N);
   ((-265136878939761, -45)%Z, [25402; 33618; 37073; 37165]%N);
   ((-1841384154793807, -48)%Z, [25509; 25512]%N);
   ((-7612721489258749, -50)%Z, [25514; 25913]%N);
   ((-8042584854044357, -50)%Z, [25552; 29275; 35299]%N);
   ((-3909673252125349, -49)%Z, [25910; 27832; 28151; 29436; 32305; 32437; 32862; 38395]%N);
   ((-3905637751307263, -49)%Z, [25991]%N);
   ((-1898168816010629, -48)%Z, [26025; 26028]%N);
   ((-7071807483777929, -50)%Z, [26029; 26039]%N);
   ((-3572513767998815, -49)%Z, [26032]%N);
   ((-8190109562481479, -50)%Z, [26049; 26665; 31505; 36837]%N);
   ((-8514302586751275, -51)%Z, [26080; 28961]%N);
   ((-1929670908867651, -48)%Z, [26143]%N);
   ((-1785146527621815, -48)%Z, [26174; 39023]%N);
   ((-8675128007579367, -50)%Z, [26274; 28949; 29029; 30021; 38647]%N);
   ((-7726115345006601, -50)%Z, [26356; 33016]%N);
   ((-675103683929301, -47)%Z, [26377]%N);
   ((-3509431054869199, -49)%Z, [26432; 27578]%N);
   ((-7599317760635915, -50)%Z, [26463]%N);
   ((-7328269390325511, -50)%Z, [27178; 27243]%N);
   ((-491814163624195, -46)%Z, [27426; 27489; 33267]%N);
   ((-4006669528161367, -49)%Z, [27453; 28023; 34915; 38054]%N);
   ((-3369281321944103, -49)%Z, [27492]%N);
   ((-6289310066105073, -50)%Z, [27515]%N);
   ((-6299764179343733, -50)%Z, [27668; 27683]%N);
   ((-3200394896544851, -49)%Z, [27700]%N);
   ((-8124504604252873, -50)%Z, [27833; 39746]%N);
   ((-8728330026230641, -50)%Z, [27985; 28222; 31895; 32233; 32531; 35613; 35874]%N);
   ((-4046541051155883, -49)%Z, [28009; 32902]%N);
   ((-6191690875939929, -50)%Z, [28145; 30334]%N);
   ((-7333518350447043, -50)%Z, [28165; 36208]%N);
   ((-8072610630949819, -50)%Z, [28201; 28331; 38634]%N);
   ((-7014890677377815, -50)%Z, [28304]%N);
   ((-1891622591274579, -48)%Z, [28459]%N);
   ((-498468132334737, -46)%Z, [28789; 29289; 38728]%N);
   ((-7497472108738865, -50)%Z, [28909; 29105; 32966; 33213; 34394; 34395]%N);
   ((-3008521353825775, -49)%Z, [29420; 29544]%N);
   ((-6766829398150883, -50)%Z, [29702]%N);
   ((-3155158135351983, -49)%Z, [29983]%N);
   ((-7317844316705817, -50)%Z, [30333]%N);
   ((-1593387237606863, -48)%Z, [30446]%N);
   ((-1561608225727673, -48)%Z, [30456]%N);
   ((-7409695216460809, -50)%Z, [30473]%N);
   ((-7779557914862047, -50)%Z, [30693]%N);
   ((-6582419030783111, -50)%Z, [31070]%N);
   ((-7586071726597441, -50)%Z, [31354; 32819]%N);
   ((-6732376365100329, -50)%Z, [31361]%N);
   ((-6428706096912517, -50)%Z, [31934]%N);
   ((-4072975482597949, -49)%Z, [32039; 32202; 36953; 36965]%N);
   ((-31455096645245, -42)%Z, [32097; 32476]%N);
   ((-3688207481885337, -49)%Z, [32618]%N);
   ((-1776417921956911, -48)%Z, [32763]%N);
   ((-7172050430910621, -50)%Z, [32769]%N);
   ((-6534838715440445, -50)%Z, [32993]%N);
   ((-3495675921443681, -49)%Z, [33067; 33073]%N);
   ((-5110024179345483, -50)%Z, [33258]%N);
   ((-7675094969812907, -50)%Z, [33392; 33393]%N);
   ((-1795301034777593, -48)%Z, [33509]%N);
   ((-1601926061545915, -48)%Z, [33707]%N);
   ((-3921956283839859, -49)%Z, [34382; 37610; 38138; 38272; 38376]%N);
   ((-1956868945192857, -48)%Z, [34880; 39347; 39536]%N);
   ((-947438336745339, -47)%Z, [34892]%N);
   ((-3414470610863601, -49)%Z, [35211; 35265]%N);
   ((-7903407912536465, -50)%Z, [35222; 35270]%N);
   ((-6779623852956655, -50)%Z, [35328]%N);
   ((-7467446331833403, -50)%Z, [35498; 35828]%N);
   ((-7262170508023687, -50)%Z, [36010; 36138]%N);
   ((-7795305023398485, -50)%Z, [36196]%N);
   ((-6412337585672471, -50)%Z, [36523]%N);
   ((-6590548307303841, -50)%Z, [36629; 36731]%N);
   ((-7994255550196233, -50)%Z, [36807; 36942; 37670; 38182]%N);
   ((-3244593935769507, -49)%Z, [36843]%N);
   ((-7491402552763055, -50)%Z, [36890]%N);
   ((-230004269039705, -45)%Z, [37325]%N);
   ((-6629280870440139, -50)%Z, [37329]%N);
   ((-826218505019419, -47)%Z, [38263; 38271]%N);
   ((-6812260918021847, -50)%Z, [38590; 38627]%N);
   ((-234871237552867, -45)%Z, [38750]%N);
   ((-6452510364281395, -50)%Z, [38754]%N);
   ((-7277083307587645, -50)%Z, [38918; 39034]%N);
   ((-2726535656117651, -49)%Z, [39080; 39118]%N);
   ((-894807239102951, -47)%Z, [39318]%N);
   ((-6553104004426373, -50)%Z, [39640]%N);
   ((-7860592871385073, -50)%Z, [39770; 40060]%N)];
  (* ('B', 'in') *)
  [
   ((0, 0)%Z, [24515]%N)];
  (* ('B', 'j') *)
  [
   ((-7908208077560811, -51)%Z, [19968]%N);
   ((-2472086552912605, -48)%Z, [19971; 29238; 29289]%N);
   ((-5334380278835545, -49)%Z, [19975; 23615; 24188; 26377; 30452; 32178; 32593; 33836; 35947]%N);
   ((-2401420703979415, -49)%Z, [19977]%N);
   ((-927405327630895, -48)%Z, [19978]%N);
   ((-2310936726460891, -48)%Z, [19987; 23560; 23569; 34092]%N);
   ((-1754081994087295, -48)%Z, [19990]%N);
   ((-8777651593692383, -50)%Z, [19994; 26989]%N);
   ((-2711031995848193, -49)%Z, [19996; 26481]%N);
   ((-1390278362316207, -48)%Z, [20004; 20841]%N);
   ((-5513653791935567, -49)%Z, [20005; 21220; 21496; 22196; 24425; 26080; 26230; 28595; 28961; 29627; 30450; 30717;
     30789; 32068; 32452; 33016; 33402; 34269; 36870; 37806; 38215]%N);
   ((-1671068827741643, -47)%Z, [20007; 20822; 20823; 20877; 21320; 21414; 21544; 21930; 22136; 22788; 23156; 23344;
     23396; 23457; 23529; 24223; 24264; 24290; 24375; 24378; 24433; 24459; 24613; 25176; 25209; 25320; 25505; 25511;
     25765; 26202; 26684; 26827; 27010; 28183; 28402; 28436; 29482; 29976; 29996; 31105; 31181; 31278; 31609; 31665;
     31820; 32905; 32925; 33609; 34389; 35009; 35222; 35270; 35299; 35359; 35469; 35519; 35748; 35772; 35843; 35948;
     35997; 36125; 36814; 37319; 37628; 38050; 38498; 38795; 39080; 39118]%N);
   ((-232240028442657, -45)%Z, [20010; 20491]%N);
   ((-2633957644984245, -50)%Z, [20013]%N);
   ((-3032905787116389, -48)%Z, [20018; 21416; 21746; 22374; 22609; 22922; 23637; 24067; 24220; 24282; 26497; 26696;
     26997; 27602; 27874; 28246; 28385; 28415; 28909; 29105; 31163; 31726; 31811; 33832; 34217; 35352; 35370; 35413;
     35760; 35775; 35780; 36024; 36151; 38626]%N);
   ((-5588825283193825, -49)%Z, [20020; 20210; 20256; 20303; 20659; 20896; 20989; 21021; 21171; 21214; 22812; 25163;
     26435; 26657; 27402; 30095; 31680; 33256; 33410; 33889; 36012; 36131; 38463]%N);
   ((-8434827242171923, -50)%Z, [20027; 39791; 40065]%N);
   ((-2694017570058483, -48)%Z, [20044; 20864; 21016; 21129; 21407; 26174; 26690; 27784; 28879; 30334; 32218; 32447;
     36008; 36135; 39023; 39154; 39278]%N);
   ((-2318248175891297, -48)%Z, [20050; 32626]%N);
   ((-5240337189655575, -49)%Z, [20052; 20247; 20859; 21932; 30526; 33310; 33457; 34903; 36829; 36864; 36949; 38899;
     39178]%N);
   ((-3823698960383717, -49)%Z, [20061]%N);
   ((-1289944644098377, -47)%Z, [20070; 20137; 21574; 22519; 23665; 25191; 26360; 28201; 28331; 30045; 32080;
     32467]%N);
   ((-4580154373449697, -49)%Z, [20094; 22899; 23616]%N);
   ((-6378299689926905, -50)%Z, [20108]%N);
   ((-14703268410899, -41)%Z, [20113; 22320; 22806; 38642]%N);
   ((-5403803157582693, -50)%Z, [20116]%N);
   ((-6735148952688623, -50)%Z, [20122; 20126]%N);
   ((-5542628921663303, -50)%Z, [20132]%N);
   ((-8556010514708317, -51)%Z, [20135; 29986]%N);
   ((-7036469835635533, -50)%Z, [20140]%N);
   ((-2547750677982601, -49)%Z, [20154]%N);
   ((-5675604401222443, -49)%Z, [20171; 20392; 20689; 21095; 21127; 21381; 21507; 24307; 24320; 24847; 25490; 26364;
     26465; 26781; 27531; 27544; 28151; 29579; 29677; 30967; 31998; 32416; 32771; 38283; 40845; 40857]%N);
   ((-8036065230097601, -50)%Z, [20179; 20489]%N);
   ((-2951930482472951, -48)%Z, [20195; 20648; 20786; 20799; 20818; 21319; 21361; 22467; 22810; 23612; 25103; 25138;
     26368; 27927; 31449; 34255; 35347; 35757]%N);
   ((-4334304191816305, -49)%Z, [20197; 20839; 20869; 23458]%N);
   ((-4666933491478315, -49)%Z, [20202; 20736; 22242; 22296; 24179; 26611]%N);
   ((-2349555408943575, -48)%Z, [20225; 22799; 32844; 32887; 34987]%N);
   ((-5778242313127301, -49)%Z, [20234; 20449; 21306; 21312; 21338; 21513; 22278; 22291; 25206; 25286; 26222; 26494;
     27597; 30000; 30701; 32676; 34701; 35215; 35268; 37675; 38177]%N);
   ((-1929898930264961, -48)%Z, [20250; 26371]%N);
   ((-2447595027600887, -48)%Z, [20266; 20605; 21327; 21332; 22522; 23381]%N);
   ((-4528941815146129, -49)%Z, [20302; 30007; 30149; 36234]%N);
   ((-2246687627710539, -48)%Z, [20307; 31237; 31246; 39636]%N);
   ((-8740118121218635, -50)%Z, [20316]%N);
   ((-5089317990897485, -49)%Z, [20379; 20599; 21462; 22768; 25910; 26426; 27231; 27915; 28748; 28860; 29001; 32882;
     36793; 37002]%N);
   ((-449868735544021, -46)%Z, [20420]%N);
   ((-8139431341249141, -50)%Z, [20445; 38750]%N);
   ((-4751112374152277, -49)%Z, [20551; 33337; 36827; 36914]%N);
   ((-4504982882191439, -49)%Z, [20711]%N);
   ((-5285397228212109, -49)%Z, [20808; 27491; 27611; 27827; 31908; 31925; 35695; 35793]%N);
   ((-6467853561392211, -50)%Z, [20809]%N);
   ((-903903366858495, -47)%Z, [20826; 28023; 40680]%N);
   ((-6294068137956237, -49)%Z, [20837; 20848; 20934; 20960; 21002; 21152; 21451; 21767; 22303; 22659; 22842; 22890;
     23588; 24190; 25195; 25475; 26234; 27493; 27748; 27969; 27993; 28129; 28271; 28310; 29123; 29306; 29351; 29702;
     30002; 30003; 33034; 34349; 34917; 35013; 35036; 35037; 36039; 36164; 36664; 36755; 36828; 36867; 36960; 37941;
     38081]%N);
   ((-8919845687269811, -50)%Z, [20840]%N);
   ((-3438761248188881, -49)%Z, [20843]%N);
   ((-70031283473089, -43)%Z, [20844; 20998; 28040]%N);
   ((-3378566874896929, -49)%Z, [20845]%N);
   ((-4196689196631275, -49)%Z, [20849; 24341; 31206]%N);
   ((-8651418738182833, -50)%Z, [20851; 26149; 38364]%N);
   ((-256808873668883, -45)%Z, [20852; 33288; 36007; 36139]%N);
   ((-3283914202600091, -49)%Z, [20891; 36557]%N);
   ((-2572577107499923, -49)%Z, [20892; 36786]%N);
   ((-5026703524792929, -49)%Z, [20900; 21439; 32291; 35686; 40660]%N);
   ((-2048726402683979, -48)%Z, [20908; 27963]%N);
   ((-2528570332244325, -48)%Z, [20919; 22797; 24515; 25112; 25136; 26097; 27835; 37857; 38236]%N);
   ((-8585170224688439, -50)%Z, [20943; 21452; 23384; 26680; 28187; 38617; 39340; 39532]%N);
   ((-7566460095755217, -50)%Z, [20986]%N);
   ((-1568624120671617, -48)%Z, [21009; 21019; 21109]%N);
   ((-7959703775197965, -50)%Z, [21069; 25239; 26032; 35336; 35745]%N);
   ((-307446811759779, -45)%Z, [21150; 30358; 32102; 32473; 36031; 36152; 36774]%N);
   ((-790920668196325, -47)%Z, [21160; 21205]%N);
   ((-2599309055091745, -48)%Z, [21161; 25918; 31119; 38918; 39034]%N);
   ((-5094052321136049, -50)%Z, [21271]%N);
   ((-787445491919425, -47)%Z, [21307; 37291]%N);
   ((-2361501402098275, -49)%Z, [21313]%N);
   ((-1040939689951135, -47)%Z, [21326; 33775]%N);
   ((-5658382121229819, -50)%Z, [21335]%N);
   ((-2341396142677277, -48)%Z, [21355; 21442; 21443; 21512; 30417; 30435; 34907]%N);
   ((-2026853268130239, -48)%Z, [21360]%N);
   ((-8507491157108475, -50)%Z, [21378; 24288; 36797; 36988]%N);
   ((-944996342643945, -47)%Z, [21453]%N);
   ((-7408819212886225, -50)%Z, [21457; 30332]%N);
   ((-6973244810590803, -50)%Z, [21488]%N);
   ((-3308062196060211, -50)%Z, [21516]%N);
   ((-2175948904863119, -48)%Z, [21517; 32232; 32534]%N);
   ((-8407025831956723, -50)%Z, [21518; 24460; 25945; 38470; 38520]%N);
   ((-5447347837498985, -49)%Z, [21555; 21556; 22622; 23553; 23567; 24555; 27934; 30830; 30906; 32602; 32624; 33590;
     38928; 39044]%N);
   ((-2258417448959359, -48)%Z, [21628; 37504; 38134]%N);
   ((-1197164070079977, -47)%Z, [21672; 25903; 32113; 32479; 35566]%N);
   ((-8816479576118271, -50)%Z, [21704; 27700]%N);
   ((-3591956627297605, -49)%Z, [21830]%N);
   ((-1185609498689837, -48)%Z, [22235]%N);
   ((-8609965424390057, -51)%Z, [22269; 22283]%N);
   ((-3135186151296071, -49)%Z, [22478]%N);
   ((-3006898025427561, -49)%Z, [22823]%N);
   ((-924695014998925, -47)%Z, [22825]%N);
   ((-5672816933137757, -50)%Z, [22826]%N);
   ((-3707294851731083, -50)%Z, [22830]%N);
   ((-6122089521760885, -50)%Z, [22885; 22887]%N);
   ((-8448989691886821, -50)%Z, [22919; 23142]%N);
   ((-2011496279308991, -48)%Z, [22996]%N);
   ((-7626611485936053, -50)%Z, [23130]%N);
   ((-4997827967106631, -49)%Z, [23398; 23416; 23459; 25171; 26412; 28814]%N);
   ((-7245817634613717, -50)%Z, [23433]%N);
   ((-4979852325562581, -50)%Z, [23478]%N);
   ((-8229551418362207, -50)%Z, [23621]%N);
   ((-2119465125531399, -48)%Z, [24029]%N);
   ((-1147742418727731, -48)%Z, [24037]%N);
   ((-4317243796729493, -49)%Z, [24038; 25509]%N);
   ((-7804755878667769, -50)%Z, [24052]%N);
   ((-474134727505985, -46)%Z, [24066]%N);
   ((-2189682115186419, -48)%Z, [24072; 24107; 25104]%N);
   ((-424331531697925, -46)%Z, [24120]%N);
   ((-951620505905235, -47)%Z, [24178; 24185; 29305]%N);
   ((-18406716610273, -42)%Z, [24180]%N);
   ((-6846197139915383, -50)%Z, [24191; 24291]%N);
   ((-5355289608940597, -50)%Z, [24314]%N);
   ((-1033162159354621, -47)%Z, [24449; 24494; 24501; 27867; 39381; 39550]%N);
   ((-1530973823963955, -48)%Z, [24503]%N);
   ((-3961690636715903, -49)%Z, [24635; 32317]%N);
   ((-3464026062770047, -49)%Z, [24646; 24658]%N);
   ((-8353401416036625, -50)%Z, [25142; 25143]%N);
   ((-6614050502269757, -51)%Z, [25151]%N);
   ((-1972048509402985, -48)%Z, [25216]%N);
   ((-3898371161184925, -49)%Z, [25237]%N);
   ((-6977094044790773, -50)%Z, [25289]%N);
   ((-3176826070259917, -49)%Z, [25307]%N);
   ((-7460926707886647, -50)%Z, [25484]%N);
   ((-320215413682827, -45)%Z, [25705; 26089; 38598]%N);
   ((-8289774323765657, -50)%Z, [25913]%N);
   ((-5872296605630107, -50)%Z, [25919]%N);
   ((-216157244065133, -45)%Z, [25968; 25976]%N);
   ((-6398875083156625, -50)%Z, [25991]%N);
   ((-4850130016645241, -49)%Z, [26053]%N);
   ((-4892269163695, -40)%Z, [26085]%N);
   ((-574215011123587, -46)%Z, [26118; 34880]%N);
   ((-8379894400878723, -50)%Z, [26126]%N);
   ((-7300995263364527, -50)%Z, [26185; 26187]%N);
   ((-38830949581719, -42)%Z, [26280; 38013; 38075]%N);
   ((-6069220658876753, -50)%Z, [26376]%N);
   ((-4398449107309573, -49)%Z, [26397]%N);
   ((-8026231980634387, -50)%Z, [26399]%N);
   ((-3773551586794205, -49)%Z, [26449]%N);
   ((-4566907881028647, -49)%Z, [26519; 26862]%N);
   ((-4553965932814875, -49)%Z, [26524]%N);
   ((-1303270009635985, -48)%Z, [27431; 27472]%N);
   ((-6738263477238571, -50)%Z, [27494]%N);
   ((-603610512595649, -46)%Z, [27515; 36816; 36939]%N);
   ((-3440528753419265, -49)%Z, [27665]%N);
   ((-6924366688839127, -50)%Z, [27721; 28450]%N);
   ((-5712239775517697, -50)%Z, [27743]%N);
   ((-4449199663163393, -49)%Z, [27773]%N);
   ((-2835803469247435, -49)%Z, [27818; 28396]%N);
   ((-8420840728062797, -50)%Z, [27833]%N);
   ((-1037776916662345, -47)%Z, [27861]%N);
   ((-4183284993058215, -49)%Z, [27941; 30719; 31014]%N);
   ((-589489567762719, -46)%Z, [28006; 31169; 38272; 38376]%N);
   ((-3530562781691689, -49)%Z, [28072; 28466]%N);
   ((-8604224695178327, -51)%Z, [28145]%N);
   ((-7165530806963865, -50)%Z, [28165; 37096]%N);
   ((-7120846374886983, -50)%Z, [28207]%N);
   ((-3028616889292599, -49)%Z, [28248]%N);
   ((-8076280215971879, -50)%Z, [28359]%N);
   ((-3632785385607647, -49)%Z, [28779]%N);
   ((-6812383790668489, -50)%Z, [29028]%N);
   ((-7997237247671713, -50)%Z, [29420; 29544]%N);
   ((-1909228206646443, -49)%Z, [29615; 29872]%N);
   ((-1894888025662671, -48)%Z, [29664]%N);
   ((-6884603651208891, -50)%Z, [29790]%N);
   ((-7040541810804001, -50)%Z, [29983]%N);
   ((-7932352634897521, -50)%Z, [30005; 36817; 38651]%N);
   ((-7478845917532917, -50)%Z, [30416; 40573]%N);
   ((-3220594727069113, -49)%Z, [30465]%N);
   ((-2504170434328065, -49)%Z, [30707]%N);
   ((-5064750828531437, -50)%Z, [30740]%N);
   ((-3376983329679987, -49)%Z, [31038; 32173; 32500]%N);
   ((-3733434072992445, -49)%Z, [31185]%N);
   ((-1104550941040705, -47)%Z, [31354; 38468]%N);
   ((-7306148132344339, -50)%Z, [31435]%N);
   ((-4103168082410743, -49)%Z, [31649]%N);
   ((-7682918213802225, -50)%Z, [31918; 31975; 32929]%N);
   ((-215929512706417, -45)%Z, [32000; 32426]%N);
   ((-7757508390811443, -50)%Z, [32005; 32418]%N);
   ((-4091794969267361, -49)%Z, [32013; 32435; 36074; 36136]%N);
   ((-3269360044194023, -49)%Z, [32147; 32463]%N);
   ((-5548034116426961, -50)%Z, [32156; 32508]%N);
   ((-4915643062712421, -50)%Z, [32654]%N);
   ((-4080647081153357, -49)%Z, [32769]%N);
   ((-3143480223290051, -49)%Z, [32852; 32879]%N);
   ((-4872209315288031, -49)%Z, [33258; 36036; 36159; 39318]%N);
   ((-2029496245076529, -48)%Z, [33322]%N);
   ((-6156904497730495, -50)%Z, [33487; 34311]%N);
   ((-3016818105086651, -49)%Z, [33521]%N);
   ((-4607620794096297, -49)%Z, [33647; 34277]%N);
   ((-2914180193181793, -49)%Z, [34013; 34253]%N);
   ((-3118955839301189, -49)%Z, [34892]%N);
   ((-3594278073694183, -49)%Z, [35199]%N);
   ((-4959752225302517, -50)%Z, [35657; 35777]%N);
   ((-6349228166628173, -50)%Z, [36001; 36130]%N);
   ((-1162877310058831, -47)%Z, [36229; 36681; 36716; 37329]%N);
   ((-4027996591152485, -49)%Z, [36275]%N);
   ((-1716745893686691, -48)%Z, [36554; 36629; 36710; 36731]%N);
   ((-1992242623352259, -48)%Z, [36575; 36719]%N);
   ((-7707020797270855, -51)%Z, [36890]%N);
   ((-6434025697795241, -50)%Z, [36947]%N);
   ((-2037577421461147, -48)%Z, [37038; 37109]%N);
   ((-4438676927754857, -49)%Z, [37073; 37165]%N);
   ((-1069181579616995, -47)%Z, [37122]%N);
   ((-1965626748510091, -48)%Z, [37325]%N);
   ((-4808410937173155, -49)%Z, [37672; 38170]%N);
   ((-7099152063880887, -50)%Z, [38263; 38271]%N);
   ((-8856694561992549, -50)%Z, [38313; 38397]%N);
   ((-3380154887102063, -49)%Z, [38450]%N);
   ((-3742441464408149, -49)%Z, [38485; 38493]%N);
   ((-1586755670321655, -48)%Z, [38738]%N);
   ((-7845702205851843, -50)%Z, [38761]%N);
   ((-1438273308372117, -48)%Z, [39640]%N);
   ((-3059243319492263, -49)%Z, [39759]%N);
   ((-7295865869951209, -50)%Z, [40643; 40644]%N)];
  (* ('B', 'jn') *)
  [
   ((-7304210039150669, -54)%Z, [19996; 26481]%N);
   ((-4947709893870347, -52)%Z, [20135; 29986]%N)];
  (* ('B', 'k') *)
  [
];
  (* ('B', 'l') *)
  [
   ((-4125378448060631, -50)%Z, [19968]%N);
   ((-8811607450221933, -50)%Z, [19971; 19996; 21676; 24573; 26481; 35937; 36664; 36755; 38544; 38577]%N);
   ((-3723431755651075, -49)%Z, [19975; 33836]%N);
   ((-3229443624752471, -49)%Z, [19977]%N);
   ((-3009237555065461, -49)%Z, [19978]%N);
   ((-6202636823246275, -50)%Z, [19979]%N);
   ((-7457967989193379, -51)%Z, [19981]%N);
   ((-7612213449228095, -50)%Z, [19982; 25919; 32769; 33287]%N);
   ((-3164906401228943, -48)%Z, [19985; 20018; 20161; 20239; 20294; 20538; 20570; 20661; 20813; 20861; 20961; 21038;
     21355; 21520; 22120; 22570; 22857; 22870; 23057; 23267; 23384; 23425; 23456; 23486; 23527; 23541; 23703; 23831;
     24072; 24107; 24198; 24278; 24493; 24816; 24935; 24950; 24971; 25179; 25366; 25484; 26082; 26197; 26248; 26376;
     26454; 26460; 26517; 26538; 27054; 27085; 27602; 29424; 29465; 29518; 29560; 29616; 29694; 30606; 30775; 32034;
     32098; 32305; 32437; 32474; 32728; 32761; 33635; 33647; 34277; 34425; 34560; 34837; 34907; 34962; 35222; 35270;
     35628; 35884; 36051; 36093; 36187; 36328; 37239; 37266; 37276; 37604; 38148; 38506; 38634; 40285; 40517;
     40736]%N);
   ((-6988521139087555, -50)%Z, [19987; 23560]%N);
   ((-4073884772487589, -49)%Z, [19988]%N);
   ((-734898802731215, -47)%Z, [19990]%N);
   ((-2685062471668597, -48)%Z, [19994; 20262; 20313; 20523; 20808; 20900; 21243; 21248; 21548; 21880; 22002; 22063;
     22218; 22721; 25237; 25319; 25840; 25945; 26611; 26989; 28799; 29158; 29577; 31169; 32893; 33152; 33395; 33399;
     33402; 34269; 34382; 35380; 35524; 35542; 35770; 35785; 35846; 36042; 36156; 36554; 36710; 36880; 36882; 36958;
     37628; 37707; 38050; 38149; 38605; 39192]%N);
   ((-7347068165287599, -50)%Z, [19997; 32114]%N);
   ((-2384492055208273, -48)%Z, [19999; 20002; 20260; 20663; 21754; 22788; 23432; 24213; 26144; 26228; 28216; 30171;
     33108; 34299; 34389; 35441; 35805; 36938]%N);
   ((-243705191877847, -45)%Z, [20004; 20841; 24191; 24291; 31283; 31337]%N);
   ((-1211038900418701, -47)%Z, [20005; 21738; 22196; 24590; 25910; 27493; 29934; 29973; 30095; 32629; 36629; 36731;
     36981; 39554]%N);
   ((-3971246860582731, -49)%Z, [20006; 24182]%N);
   ((-5711349065724093, -49)%Z, [20007; 20559; 20658; 21066; 21163; 21713; 21854; 21892; 21930; 22068; 22833; 22902;
     23435; 23458; 23562; 23608; 23629; 24161; 24548; 24858; 25196; 25554; 25562; 25688; 25903; 26070; 26435; 27010;
     27402; 27425; 27530; 27844; 27945; 28180; 28363; 28417; 28748; 30302; 30313; 30861; 31001; 31890; 32025; 32027;
     32439; 32440; 32618; 34255; 34586; 34920; 35504; 35841; 35980; 36196; 36364; 36490; 36703; 36720; 37070; 38654;
     38695; 39087; 39122; 40718]%N);
   ((-8266394939739215, -50)%Z, [20010; 20491]%N);
   ((-3349947097934427, -49)%Z, [20013]%N);
   ((-4864628765266841, -49)%Z, [20016; 20358; 20687; 21253; 24038; 26469; 26631; 27161; 27927; 28903; 29138; 29399;
     35920; 36845; 39138; 39269; 40723]%N);
   ((-173418701763663, -44)%Z, [20020; 20572; 20599; 20984; 21490; 23439; 23507; 23618; 23652; 25380; 25824; 25915;
     26087; 26093; 27814; 27877; 28138; 29492; 29824; 29993; 30636; 31192; 31359; 31389; 31401; 31867; 32047; 32178;
     32191; 32501; 32593; 33256; 33290; 33311; 33590; 36066; 36132; 37504; 38134; 39006]%N);
   ((-6720019975468221, -49)%Z, [20025; 20070; 20117; 20419; 20542; 20670; 20754; 20804; 20940; 20991; 21494; 21501;
     21566; 22064; 22635; 22799; 22827; 22840; 22937; 23047; 23110; 23308; 23453; 23519; 23542; 23631; 24040; 24062;
     24196; 24413; 24503; 25214; 25226; 25248; 25387; 25514; 25682; 25715; 25856; 25913; 26360; 26472; 26483; 26705;
     26954; 27233; 27454; 27584; 27585; 27743; 27777; 27867; 27888; 27905; 27975; 28070; 28207; 28246; 28500; 28507;
     28508; 28516; 28550; 28814; 29141; 29273; 29474; 29486; 29563; 30565; 31168; 31548; 31661; 31840; 32350; 32381;
     32469; 32548; 32701; 32780; 33037; 33214; 33261; 33310; 33674; 33865; 34067; 34394; 34395; 34445; 35463; 35519;
     35616; 35843; 35875; 36011; 36143; 36255; 36466; 36827; 36914; 36951; 36986; 37196; 38015; 38272; 38356; 38376;
     38422; 38969; 38991; 39003; 39059; 39068; 39072; 39151; 39277; 39347; 39381; 39522; 39536; 39540; 39550; 39749;
     39764; 40372; 40441; 40548; 40560]%N);
   ((-6273967666720355, -50)%Z, [20026; 28858]%N);
   ((-8243876190957385, -50)%Z, [20027; 23494; 27833]%N);
   ((-8189474309309415, -50)%Z, [20030; 32039; 32202; 33289]%N);
   ((-4084214419246171, -49)%Z, [20037; 21551; 21855; 27595]%N);
   ((-3585320696442093, -49)%Z, [20041; 32681]%N);
   ((-677972475577327, -46)%Z, [20045; 20934; 21477; 21547; 21638; 22622; 24443; 24444; 24505; 25233; 25286; 25293;
     25329; 25424; 27735; 28009; 28310; 30805; 30889; 31077; 33067; 33073; 33485; 33980; 34966; 35433; 35799; 36335;
     36798; 36948; 38451; 38525; 38914; 39030]%N);
   ((-2442937340573445, -48)%Z, [20047; 20110; 20202; 20736; 20851; 21916; 24188; 25260; 25880; 26041; 26044; 27531;
     27544; 33150; 35998; 36126; 36234; 38364; 39472]%N);
   ((-306747123736855, -45)%Z, [20048; 20127; 21147; 22238; 22805; 24544; 25317; 25670; 25793; 25850; 27138; 28155;
     29238; 31454; 31478; 33618; 35342; 35752; 36861]%N);
   ((-2282343239823889, -48)%Z, [20056; 20113; 20139; 21476; 25381; 25582; 26964; 27668; 27683; 33021; 36027; 36153;
     38291; 38388; 38622; 38642; 40481; 40778; 40784]%N);
   ((-8887968905121569, -50)%Z, [20057; 22768; 23433; 24618; 27985; 28222; 29615; 29872; 30331; 31215; 31309; 32882;
     36777; 36783; 36814]%N);
   ((-5276081854157225, -49)%Z, [20061; 20301; 20449; 21465; 21675; 22815; 22816; 24537; 24826; 25105; 25259; 25944;
     27490; 29134; 31958; 32874; 32880; 35480; 35825; 36766; 36781; 36865; 37202; 37559; 38144; 39108; 39128]%N);
   ((-1328067545905707, -48)%Z, [20063]%N);
   ((-582202264677929, -46)%Z, [20065; 20102; 20985; 22806; 23500; 26097; 28322; 29279; 31561; 32654; 37129; 39154;
     39278]%N);
   ((-5234362774685139, -49)%Z, [20080; 21452; 21767; 22240; 22363; 22727; 22763; 23059; 23270; 26519; 26641; 27193;
     27754; 27861; 29730; 30149; 32819; 34542; 34875; 35492; 35823; 36023; 36974; 37555; 38160; 38617]%N);
   ((-4702678155979965, -49)%Z, [20081; 20098; 21482; 22519; 22859; 22894; 23547; 23563; 25140; 25191; 25195; 25475;
     27036; 31062; 34987; 35328]%N);
   ((-2090315913192239, -48)%Z, [20105; 25289; 29229]%N);
   ((-4602486995426985, -50)%Z, [20107]%N);
   ((-3602777907771901, -49)%Z, [20108]%N);
   ((-8689296618756929, -50)%Z, [20114; 21220; 24605]%N);
   ((-7977139528791753, -50)%Z, [20116]%N);
   ((-5939605629447551, -49)%Z, [20129; 20652; 20820; 20943; 21247; 22882; 22920; 23229; 23490; 23556; 24230; 24535;
     25000; 25215; 25345; 25384; 25441; 25791; 25943; 26029; 26039; 26059; 26463; 26725; 27211; 28187; 28818; 28866;
     29031; 29211; 29281; 29482; 29575; 30442; 30952; 31034; 31096; 31117; 31461; 32008; 32424; 32844; 32887; 33039;
     33247; 33499; 33633; 33821; 33931; 34083; 34367; 34429; 35033; 35948; 36133; 36291; 36493; 36763; 36837; 36963;
     38614; 38686; 39187; 39295; 40213; 40501; 40845; 40857; 40860; 40863]%N);
   ((-6364733884400275, -50)%Z, [20132]%N);
   ((-3341523749458023, -49)%Z, [20135; 29986]%N);
   ((-2402658033942411, -48)%Z, [20142; 21514; 22312; 24067; 25077; 30246; 33392; 33393; 36530]%N);
   ((-1967057912843287, -48)%Z, [20146; 20844; 35242]%N);
   ((-4951251367391929, -50)%Z, [20154]%N);
   ((-7657644969099059, -50)%Z, [20165; 20677]%N);
   ((-6350125154245005, -50)%Z, [20174; 24478]%N);
   ((-1707155769699289, -48)%Z, [20182]%N);
   ((-2096571170101153, -48)%Z, [20184; 21448; 26127; 27491; 32085; 32477]%N);
   ((-2741546251000317, -48)%Z, [20185; 20914; 21017; 21063; 21306; 21312; 21462; 21943; 22132; 22350; 22993; 24455;
     24466; 25220; 25512; 25552; 26049; 26411; 26543; 26597; 27450; 27611; 28129; 29228; 29301; 29309; 29609; 30011;
     30059; 30423; 30428; 31163; 31363; 31434; 31508; 31558; 34091; 34180; 34739; 34909; 35611; 35762; 37034; 38358;
     38383; 38626; 39509; 39556]%N);
   ((-8907896857328939, -50)%Z, [20195; 20799; 20818; 21151; 21213; 21334; 23517; 23522; 26149; 32160; 32511; 32988;
     36067]%N);
   ((-6479631130370995, -50)%Z, [20196]%N);
   ((-6788129921233547, -50)%Z, [20197; 21830]%N);
   ((-60637875637729, -43)%Z, [20208]%N);
   ((-1865865461234179, -48)%Z, [20215; 20729; 25104]%N);
   ((-5195523240895157, -49)%Z, [20219; 20919; 25206; 25391; 25645; 26412; 28526; 29087; 30053; 31351; 31406; 32000;
     32426; 33510; 34028; 35302; 35320; 36894; 38647; 40180; 40483]%N);
   ((-4824400944821557, -49)%Z, [20247; 20307; 20462; 20826; 21295; 21917; 22478; 24357; 24396; 24403; 25417; 25423;
     26172; 26205; 27719; 30070; 30526; 32937; 39636; 40680]%N);
   ((-4174479306637443, -49)%Z, [20248; 20778; 24613]%N);
   ((-5813986977628951, -49)%Z, [20250; 20355; 20415; 20463; 20860; 20957; 21010; 21123; 21191; 21363; 22852; 23041;
     23578; 23681; 24453; 24615; 24809; 24833; 24868; 24996; 25074; 25238; 25346; 25499; 26230; 26274; 26371; 27506;
     28218; 28404; 29483; 29677; 30021; 30719; 31014; 31206; 31258; 32670; 33016; 33337; 35413; 35780; 35987; 36040;
     36158; 37210; 37326; 37605; 38147; 38480; 38613; 38928; 39044; 39511; 39564]%N);
   ((-135513434872635, -44)%Z, [20256; 20659; 33041; 33126; 35488; 35802; 36828; 36960; 38738]%N);
   ((-8520479020890119, -50)%Z, [20284; 23398; 23416]%N);
   ((-1147427649329131, -47)%Z, [20302; 22919; 23142; 28378; 28414; 33521; 34074; 35201; 38596]%N);
   ((-73982116912325, -43)%Z, [20308; 21344; 21608; 24184; 24910; 29359; 30566; 32232; 32534; 36913]%N);
   ((-4954893652658113, -49)%Z, [20309; 20837; 21033; 21161; 21495; 21809; 23467; 23470; 23574; 24682; 25153; 25193;
     25844; 26131; 29275; 32043; 32599; 32645; 32963; 34399; 38519; 38899; 40687]%N);
   ((-6559139442718637, -50)%Z, [20320]%N);
   ((-7452369145289343, -50)%Z, [20351; 20840; 23431; 36575; 36719]%N);
   ((-7187963271572337, -50)%Z, [20379; 38543; 38568]%N);
   ((-7637949424758515, -50)%Z, [20381; 24694; 24801; 33609]%N);
   ((-5006106210961681, -49)%Z, [20390; 20597; 21558; 21584; 21863; 22038; 22179; 22210; 24433; 25925; 26449; 33298;
     39770; 40060]%N);
   ((-1525389059683607, -47)%Z, [20399; 20992; 21331; 21385; 21426; 21703; 21827; 22039; 22362; 22533; 23581; 24536;
     24661; 24936; 25102; 25176; 25212; 25235; 25243; 25291; 25302; 25413; 25481; 25530; 25630; 25644; 25723; 25744;
     25745; 25788; 26447; 26635; 26792; 26847; 27004; 27155; 27721; 27838; 27915; 28448; 28450; 28810; 28872; 28954;
     29190; 29422; 29468; 29509; 29976; 30196; 30707; 31105; 32831; 32933; 32972; 33292; 33509; 35465; 35486; 35609;
     35686; 35696; 35709; 35758; 35821; 35878; 35962; 36012; 36131; 36367; 36670; 36759; 36870; 36893; 36991; 37347;
     37658; 38035; 38126; 38518; 38593; 38646]%N);
   ((-6970390314008495, -50)%Z, [20439]%N);
   ((-4150520373682753, -49)%Z, [20445; 23396; 24708; 34701; 34892]%N);
   ((-8336786603840267, -50)%Z, [20498]%N);
   ((-244177472419769, -45)%Z, [20505]%N);
   ((-8464867722265849, -50)%Z, [20511]%N);
   ((-8232783491310013, -50)%Z, [20540; 22836; 37027; 38957]%N);
   ((-2343626952368487, -48)%Z, [20551; 20667; 22899; 24576; 24754; 24859; 25079; 25932; 25973; 27431; 27472; 28010;
     29233; 29369; 29494; 29579; 37341; 38024]%N);
   ((-2812284973847737, -48)%Z, [20581; 20839; 20855; 20869; 20915; 21046; 21435; 21486; 21561; 22351; 22686; 22750;
     22818; 24110; 24171; 24464; 24555; 24594; 24685; 24713; 24736; 25321; 25506; 25511; 25513; 25799; 26222; 26612;
     26790; 27424; 27770; 28372; 29076; 30465; 32233; 32531; 32745; 33011; 33032; 33033; 36010; 36020; 36074; 36092;
     36136; 36138; 36141; 36149; 36386; 36924; 40786; 40831]%N);
   ((-5033572631608281, -49)%Z, [20648; 20786; 20805; 23388; 24930; 25112; 25136; 25810; 25964; 26114; 30340; 31185;
     31481; 31528; 36215; 38505; 38570; 38860; 38887; 39165; 39281]%N);
   ((-985539526163405, -47)%Z, [20721; 37329; 38599]%N);
   ((-958871172982669, -47)%Z, [20809]%N);
   ((-4297046731726639, -49)%Z, [20843]%N);
   ((-217712466365647, -45)%Z, [20849]%N);
   ((-2106222686259981, -48)%Z, [20852; 21029; 21035; 21319; 28779; 33288; 33853]%N);
   ((-8438059315119729, -50)%Z, [20853; 20877; 21315; 22812; 25830; 35352; 35760]%N);
   ((-4930934719703423, -49)%Z, [20854; 21629; 22270; 22294; 22841; 22846; 22871; 23521; 25361; 26143; 26580; 28201;
     28331; 30410; 32966; 33213; 33769; 36001; 36130; 37749; 38190; 38920; 39035; 39131; 39134]%N);
   ((-141897735834159, -44)%Z, [20859; 24322; 25298; 26408; 27178; 27243; 30064; 30896; 31449; 39178]%N);
   ((-7307558851581105, -50)%Z, [20891; 36557]%N);
   ((-6618073709482915, -50)%Z, [20892; 36786]%N);
   ((-1026365083781555, -47)%Z, [20896; 27442; 36953; 36965]%N);
   ((-2152353016458853, -48)%Z, [20901; 27515]%N);
   ((-4495667508136555, -49)%Z, [20908; 21518; 24425; 24460; 27599; 27987; 28611; 31934; 36300]%N);
   ((-8277825493824785, -50)%Z, [20960; 22404; 22751; 24190]%N);
   ((-3373045720783041, -49)%Z, [20986]%N);
   ((-3534014725717599, -49)%Z, [20998]%N);
   ((-3866480590931249, -49)%Z, [20999; 33707]%N);
   ((-1116022986374481, -47)%Z, [21009; 25169; 25778; 31179; 34152]%N);
   ((-1783153723096669, -48)%Z, [21021]%N);
   ((-3190832514562061, -49)%Z, [21040]%N);
   ((-7357165989985691, -50)%Z, [21069]%N);
   ((-8811170980424911, -51)%Z, [21097]%N);
   ((-5159191283426881, -49)%Z, [21128; 21326; 23380; 23485; 23506; 23532; 23601; 25438; 25447; 25736; 26354; 28459;
     29378; 29699; 32321; 32570; 33008; 33775; 39318; 39740]%N);
   ((-8868387543622445, -50)%Z, [21152; 26085; 38281; 38381]%N);
   ((-465086541801701, -46)%Z, [21160; 21205]%N);
   ((-6445267326479889, -50)%Z, [21171; 21214]%N);
   ((-1179634237464051, -47)%Z, [21183; 21218; 21333; 21934; 24825]%N);
   ((-1273221332247575, -47)%Z, [21187; 21442; 21443; 21513; 22242; 22260; 22285; 22296; 22971; 23113; 24518; 25014;
     25265; 25581; 33579; 39321; 39746]%N);
   ((-5854889480520317, -50)%Z, [21270]%N);
   ((-7651041431653983, -50)%Z, [21271; 31616; 31777; 32080; 32467; 35211; 35265]%N);
   ((-6539342890395509, -50)%Z, [21313]%N);
   ((-7860274728455027, -50)%Z, [21322]%N);
   ((-5125062655399135, -49)%Z, [21329; 24314; 24323; 25209; 25250; 25654; 26395; 26530; 26820; 27166; 29053; 29554;
     30097; 32905; 33136; 33537; 33719; 34631; 34821; 37561; 38152; 38712; 38929; 39037; 40763]%N);
   ((-7372484592367825, -50)%Z, [21335]%N);
   ((-4552579562420367, -49)%Z, [21338; 26434; 27426; 27489; 33492; 35199; 38620]%N);
   ((-4672241016284243, -49)%Z, [21351; 25490; 27827; 30897; 31572; 33192; 33253; 36064; 36180; 36824; 36996; 37336;
     38025; 38918; 39034; 40572]%N);
   ((-4751661206603401, -49)%Z, [21367; 22839; 25165; 26292; 26685; 28857; 28895; 29017; 29305; 32993; 35672; 35782;
     36039; 36164; 37941; 38081; 38632; 40670]%N);
   ((-8640689074475697, -50)%Z, [21382; 21596; 21978; 27511]%N);
   ((-4529119919922727, -49)%Z, [21387; 22353; 22739; 23408; 24778; 25622; 25671; 29702; 35299; 38470; 38520;
     39514]%N);
   ((-805940737847199, -47)%Z, [21407]%N);
   ((-8087973197601775, -50)%Z, [21453; 40657]%N);
   ((-8517777926769419, -51)%Z, [21457; 30332]%N);
   ((-3330485161403273, -49)%Z, [21463]%N);
   ((-7342053012644187, -50)%Z, [21464; 35722]%N);
   ((-8830217789748975, -50)%Z, [21475; 30000]%N);
   ((-2307949518975673, -48)%Z, [21478; 33080; 33225; 35013; 35037; 36923; 37007]%N);
   ((-2337282785586707, -49)%Z, [21487]%N);
   ((-7037074927017141, -50)%Z, [21507]%N);
   ((-1393987124198283, -48)%Z, [21508]%N);
   ((-2660570946356879, -48)%Z, [21510; 22766; 22767; 22996; 23305; 23436; 24917; 25658; 25884; 25954; 26021; 26089;
     26174; 27784; 27785; 27922; 28753; 28797; 28798; 30504; 30887; 31119; 33014; 33184; 36203; 36225; 36524; 36873;
     36947; 36984; 38948; 39023; 39056; 39854; 40092]%N);
   ((-7297894415358607, -50)%Z, [21512]%N);
   ((-1955328091594467, -48)%Z, [21516]%N);
   ((-7740064674869449, -50)%Z, [21517; 24840]%N);
   ((-962262601867419, -47)%Z, [21531]%N);
   ((-4979917770326859, -49)%Z, [21534; 24614; 28389; 28651; 30041; 30446]%N);
   ((-4517746806779345, -49)%Z, [21560; 22577; 24178; 24185; 25253; 25746; 28151; 30427; 30624; 31649; 32406; 32420;
     39015; 39038]%N);
   ((-1898322579070347, -48)%Z, [21578]%N);
   ((-4328329776845869, -49)%Z, [21628]%N);
   ((-8031193104201263, -50)%Z, [21644; 26893]%N);
   ((-3289645157251797, -49)%Z, [21704]%N);
   ((-8549349831128895, -50)%Z, [21741; 25098; 26432; 27492; 27578]%N);
   ((-7625007904033867, -50)%Z, [21806; 37327]%N);
   ((-1977220568184065, -48)%Z, [21807; 26368; 31639]%N);
   ((-4253158285587611, -49)%Z, [21839; 36305; 38382]%N);
   ((-7768935485108225, -50)%Z, [22235]%N);
   ((-1144264876040341, -47)%Z, [22256; 24212; 25033; 27835; 31435; 33391; 34276; 39340; 39532]%N);
   ((-2912291281245883, -49)%Z, [22266]%N);
   ((-6358449775583401, -50)%Z, [22269; 22283]%N);
   ((-7844527619918589, -50)%Z, [22278; 22291; 31995]%N);
   ((-7140954929831363, -50)%Z, [22303]%N);
   ((-7791085050063143, -50)%Z, [22320]%N);
   ((-2237210796128253, -48)%Z, [22352; 23544; 24033; 25163; 39250; 39286]%N);
   ((-3428767539368923, -49)%Z, [22522]%N);
   ((-8624941965939259, -50)%Z, [22797; 25351; 30130]%N);
   ((-1606285367380783, -48)%Z, [22810]%N);
   ((-5403284186870065, -50)%Z, [22823]%N);
   ((-774197356345523, -47)%Z, [22825]%N);
   ((-7806097271226957, -50)%Z, [22826; 30693]%N);
   ((-3712553157163551, -49)%Z, [22900]%N);
   ((-746078542759527, -47)%Z, [22909]%N);
   ((-6694250575496681, -50)%Z, [22914]%N);
   ((-2531224094647289, -48)%Z, [23130; 25342; 26286; 26410; 28431; 30830; 30906; 31216; 31281; 31469; 31895; 32622;
     35041; 35657; 35777; 35895; 36000; 36106; 36127; 36190; 37324; 37528; 38125; 38597]%N);
   ((-2321682729298973, -48)%Z, [23376; 24377; 24392; 24758; 26840; 27946; 30333; 31245; 38391]%N);
   ((-6333658317295829, -50)%Z, [23395]%N);
   ((-4225691864941011, -49)%Z, [23448; 28608]%N);
   ((-3734524724497349, -49)%Z, [23450]%N);
   ((-939347194688355, -47)%Z, [23454; 23526; 24179; 39080; 39118]%N);
   ((-866003964619671, -47)%Z, [23478]%N);
   ((-1328273830251115, -48)%Z, [23545; 23565]%N);
   ((-6103458773651117, -50)%Z, [23553]%N);
   ((-7587052627712591, -50)%Z, [23567; 28023; 38750]%N);
   ((-6663706411411483, -50)%Z, [23569]%N);
   ((-106256796261369, -44)%Z, [23613; 30433]%N);
   ((-7562441813795407, -50)%Z, [23621]%N);
   ((-8740097712635909, -50)%Z, [23649; 23650; 32048; 32454]%N);
   ((-2000960490975205, -48)%Z, [23665; 36681; 36716]%N);
   ((-6184593169335775, -50)%Z, [24037]%N);
   ((-2565656398890257, -49)%Z, [24046]%N);
   ((-4110899507423943, -49)%Z, [24052; 27874; 35215; 35268; 36864]%N);
   ((-3966998161521831, -49)%Z, [24066; 32958; 33102]%N);
   ((-4786857038653927, -49)%Z, [24076; 27714; 27873; 28369; 33694; 38393; 38752; 39592; 39719]%N);
   ((-6716996801783445, -50)%Z, [24120]%N);
   ((-3496091302713063, -49)%Z, [24180; 38454; 38542]%N);
   ((-2314732376745173, -48)%Z, [24265; 30382; 36229]%N);
   ((-6610209417391345, -50)%Z, [24320; 38283]%N);
   ((-7618592502591709, -50)%Z, [24341; 33945; 37325]%N);
   ((-3262360304080863, -49)%Z, [24375; 24378]%N);
   ((-8705976922462285, -50)%Z, [24402; 25749; 27169; 27512]%N);
   ((-458255576976765, -46)%Z, [24418]%N);
   ((-3715253162115885, -49)%Z, [24456]%N);
   ((-4289490243055887, -49)%Z, [24471; 25343; 32781]%N);
   ((-8097721309637685, -50)%Z, [24490; 25307; 36829; 36949]%N);
   ((-1721802280459093, -48)%Z, [24494]%N);
   ((-3591803876964227, -49)%Z, [24515]%N);
   ((-3116995344747215, -49)%Z, [24517; 29992]%N);
   ((-7968377617593007, -50)%Z, [24635; 32317]%N);
   ((-3799781377691793, -49)%Z, [24744]%N);
   ((-887482391296585, -47)%Z, [24773]%N);
   ((-5899849715366885, -50)%Z, [24819]%N);
   ((-824652889415871, -47)%Z, [24847]%N);
   ((-1838026439291857, -48)%Z, [24863; 30002]%N);
   ((-8137580336006361, -50)%Z, [25152; 26426; 26680; 27231; 40664]%N);
   ((-3368641917725177, -49)%Z, [25171]%N);
   ((-3873606634860687, -49)%Z, [25197]%N);
   ((-7959683366615239, -50)%Z, [25216; 32676]%N);
   ((-7337060100218593, -50)%Z, [25239]%N);
   ((-4144686643203777, -49)%Z, [25277]%N);
   ((-4186852331151029, -49)%Z, [25340]%N);
   ((-7917191534855141, -50)%Z, [25353]%N);
   ((-1720136743192919, -48)%Z, [25509]%N);
   ((-7925562576441615, -50)%Z, [25720]%N);
   ((-7691256417528261, -50)%Z, [25805]%N);
   ((-7414383377020799, -50)%Z, [25918]%N);
   ((-8200146426244821, -50)%Z, [25937; 38745; 38748]%N);
   ((-1816176898617151, -48)%Z, [25968; 25976; 28165]%N);
   ((-4506598918665341, -49)%Z, [25970; 36866; 36969]%N);
   ((-8127482511308269, -50)%Z, [25972]%N);
   ((-2820151574805401, -49)%Z, [25991]%N);
   ((-3891826670263573, -49)%Z, [26032]%N);
   ((-2297741464936563, -49)%Z, [26080; 28961]%N);
   ((-1674267212394019, -48)%Z, [26102; 26178]%N);
   ((-6981233735608643, -50)%Z, [26126]%N);
   ((-5436868536198073, -50)%Z, [26159]%N);
   ((-3406437985130359, -49)%Z, [26356]%N);
   ((-8135887120740329, -51)%Z, [26377]%N);
   ((-8049803443728305, -50)%Z, [26465; 26781; 30007]%N);
   ((-7457901834097621, -50)%Z, [26500; 27083; 30828; 32862; 38395]%N);
   ((-739934981231023, -47)%Z, [27494]%N);
   ((-5803970546889611, -50)%Z, [27604]%N);
   ((-5656983453316157, -50)%Z, [27627]%N);
   ((-3420690643955845, -49)%Z, [27665]%N);
   ((-380535493075033, -46)%Z, [27700]%N);
   ((-8793299731287183, -50)%Z, [27704; 36879; 36898]%N);
   ((-4151844058059993, -50)%Z, [27794; 27809]%N);
   ((-1007403156906597, -47)%Z, [27882; 28122]%N);
   ((-7574679976754347, -50)%Z, [27963; 38450]%N);
   ((-1559434362012441, -48)%Z, [27969]%N);
   ((-972033795482887, -47)%Z, [28014]%N);
   ((-3478046490106095, -49)%Z, [28040]%N);
   ((-965737778144319, -47)%Z, [28145; 30334; 39135]%N);
   ((-7179269020594569, -50)%Z, [28385; 28415]%N);
   ((-1768975727360757, -48)%Z, [28909; 29105]%N);
   ((-4424570461347841, -49)%Z, [29022; 31181; 31278; 31680; 33410; 35692]%N);
   ((-4602652545530297, -49)%Z, [29151; 33829; 34915; 35527; 35848; 36007; 36139; 37832; 38142; 38290; 38386; 38935;
     39047]%N);
   ((-6158058557729393, -50)%Z, [29289]%N);
   ((-7994870602435105, -50)%Z, [29420; 29544]%N);
   ((-8757553874812423, -50)%Z, [29627; 30813; 32097; 32476]%N);
   ((-2397767075386231, -49)%Z, [29983]%N);
   ((-3423907509585933, -49)%Z, [30001]%N);
   ((-6797346070156871, -50)%Z, [30005; 38651]%N);
   ((-2017181644168753, -48)%Z, [30452]%N);
   ((-321015009845921, -46)%Z, [30456]%N);
   ((-8312830382910615, -50)%Z, [30475; 32763; 35264; 35266]%N);
   ((-3855957855522713, -49)%Z, [30495]%N);
   ((-993881967363107, -47)%Z, [30524]%N);
   ((-8534821888826193, -50)%Z, [30772; 32218; 32447; 35576; 35832]%N);
   ((-5571786200345337, -50)%Z, [31038]%N);
   ((-5905423488665191, -50)%Z, [31070]%N);
   ((-8107554559100899, -50)%Z, [31232]%N);
   ((-8969888655330085, -50)%Z, [31319]%N);
   ((-3914498859907371, -49)%Z, [31354; 36896]%N);
   ((-8775284948455775, -50)%Z, [31505; 33457; 33988]%N);
   ((-6427359992224871, -50)%Z, [31532]%N);
   ((-6867339784299961, -50)%Z, [31918; 31975]%N);
   ((-4020229911206167, -49)%Z, [32005; 32418]%N);
   ((-1277264584555545, -48)%Z, [32068; 32452]%N);
   ((-6168597479360391, -50)%Z, [32113; 32479]%N);
   ((-6057763810550369, -50)%Z, [32147; 32463]%N);
   ((-7388014492471673, -50)%Z, [32156; 32508]%N);
   ((-4239257580480011, -49)%Z, [32784]%N);
   ((-6639317734203481, -50)%Z, [32852; 32879]%N);
   ((-8178902401524255, -50)%Z, [32858]%N);
   ((-7214456256414435, -50)%Z, [32929]%N);
   ((-798510053820785, -47)%Z, [33034]%N);
   ((-1071104795759075, -48)%Z, [33258]%N);
   ((-6778988599784591, -50)%Z, [33267; 36807; 36942]%N);
   ((-3337358872605947, -49)%Z, [34880]%N);
   ((-8022002033513105, -50)%Z, [35064; 38598]%N);
   ((-6860793836170099, -50)%Z, [35336; 35745]%N);
   ((-2222870075431887, -49)%Z, [35498; 35828]%N);
   ((-3097692312429559, -49)%Z, [36008; 36135]%N);
   ((-1070508460818477, -47)%Z, [36084; 36182; 36855]%N);
   ((-1778007784951825, -48)%Z, [36208]%N);
   ((-530770628566631, -46)%Z, [36523]%N);
   ((-7398488055503585, -50)%Z, [36804]%N);
   ((-7419732080224151, -50)%Z, [36816; 36939]%N);
   ((-5053961550819213, -50)%Z, [36817]%N);
   ((-5481985754151903, -50)%Z, [36825; 36889]%N);
   ((-3268446308798173, -49)%Z, [36830; 36899]%N);
   ((-5297520192230197, -50)%Z, [36890]%N);
   ((-5327215977074079, -50)%Z, [38263; 38271]%N);
   ((-2180727016796533, -48)%Z, [38452; 38512]%N);
   ((-3946222742913985, -49)%Z, [38500]%N);
   ((-1051484302021941, -47)%Z, [38548]%N);
   ((-6766914490433233, -50)%Z, [38590; 38627]%N);
   ((-7136777188834471, -50)%Z, [38604]%N);
   ((-7174946942707941, -50)%Z, [38754]%N);
   ((-2039512951842077, -48)%Z, [38936; 39046]%N);
   ((-1489217372357421, -48)%Z, [39640]%N);
   ((-8012885385266513, -50)%Z, [40643; 40644]%N)];
  (* ('B', 'ln') *)
  [
   ((0, 0)%Z, [20154]%N)];
  (* ('B', 'm') *)
  [
   ((-8292871812319787, -53)%Z, [19968]%N);
   ((-5526212952579327, -49)%Z, [19969]%N);
   ((-1446207891097861, -48)%Z, [19971; 32654]%N);
   ((-7114735374937233, -51)%Z, [19975; 33836]%N);
   ((-3675915795876537, -50)%Z, [19977]%N);
   ((-2343378311636713, -48)%Z, [19978]%N);
   ((-5181872003134723, -50)%Z, [19981]%N);
   ((-1422040890466551, -47)%Z, [19990]%N);
   ((-2858899674589873, -48)%Z, [19993; 23618; 23652]%N);
   ((-8038619671832393, -50)%Z, [19997; 32114]%N);
   ((-3061063523150431, -50)%Z, [20004; 20841]%N);
   ((-2836955451520359, -48)%Z, [20010; 20491; 27861]%N);
   ((-1441350231707893, -47)%Z, [20057; 21152]%N);
   ((-97275944675055, -44)%Z, [20061]%N);
   ((-8894126847372271, -51)%Z, [20108]%N);
   ((-4816834145567641, -50)%Z, [20116]%N);
   ((-4862689177289001, -49)%Z, [20123]%N);
   ((-5262979305575697, -49)%Z, [20154]%N);
   ((-460961673937315, -47)%Z, [20159; 20740]%N);
   ((-1742537768472581, -47)%Z, [20191]%N);
   ((-783113527390989, -46)%Z, [20200]%N);
   ((-700950618575517, -46)%Z, [20237]%N);
   ((-3210578691514081, -49)%Z, [20247; 30526]%N);
   ((-3011259804092533, -49)%Z, [20313; 39192]%N);
   ((-3680179123450329, -48)%Z, [20336; 21326; 21488; 25420; 33775; 36635; 36742]%N);
   ((-4716787740626685, -49)%Z, [20415]%N);
   ((-608253767046681, -46)%Z, [20457; 20486]%N);
   ((-5436349169553739, -49)%Z, [20809]%N);
   ((-3046496816868675, -48)%Z, [20811]%N);
   ((-5301544746724837, -50)%Z, [20840]%N);
   ((-5805543021371409, -50)%Z, [20843]%N);
   ((-6645284330580707, -50)%Z, [20844]%N);
   ((-2802855526040647, -49)%Z, [20845]%N);
   ((-7750565419910993, -49)%Z, [20848; 22330; 22362; 22467; 22533; 22580; 22825; 25302; 25346; 25499; 26465; 26781;
     32068; 32452; 32922; 34349; 38867; 38889]%N);
   ((-7190336227528867, -51)%Z, [20960; 24190]%N);
   ((-6844532422071723, -49)%Z, [20961]%N);
   ((-307417539148395, -45)%Z, [20986]%N);
   ((-7174288569662963, -50)%Z, [20998]%N);
   ((-445756355198575, -45)%Z, [21015; 36649; 36744]%N);
   ((-4049137612992185, -50)%Z, [21313]%N);
   ((-4956461628605793, -50)%Z, [21315]%N);
   ((-3200335193889983, -48)%Z, [21317]%N);
   ((-2540125547646361, -49)%Z, [21322]%N);
   ((-3593748898478533, -49)%Z, [21400]%N);
   ((-6655115392138247, -49)%Z, [21441]%N);
   ((-847751016524885, -47)%Z, [21452; 38617]%N);
   ((-6306627298599997, -49)%Z, [21516]%N);
   ((-4153179734035581, -49)%Z, [21608; 36913]%N);
   ((-2337048012849493, -49)%Z, [22235]%N);
   ((-1354546979667665, -47)%Z, [22764]%N);
   ((-5895174209709613, -49)%Z, [22777]%N);
   ((-3738785762479135, -50)%Z, [22810]%N);
   ((-8775873022189959, -51)%Z, [22823]%N);
   ((-427858228694157, -46)%Z, [22909]%N);
   ((-1326305090001805, -47)%Z, [23002]%N);
   ((-3113034342668965, -48)%Z, [23545; 23565]%N);
   ((-5104430216930361, -49)%Z, [23567]%N);
   ((-3032142662049031, -49)%Z, [23569]%N);
   ((-1247828831525961, -48)%Z, [24038]%N);
   ((-179658824821843, -44)%Z, [24049]%N);
   ((-6579943900879989, -49)%Z, [24066; 35041; 37324]%N);
   ((-3957990184702931, -49)%Z, [24179]%N);
   ((-313970657826563, -45)%Z, [24180]%N);
   ((-5400594300760727, -49)%Z, [24218]%N);
   ((-2671508213706201, -48)%Z, [24319]%N);
   ((-1341524934743953, -48)%Z, [24456]%N);
   ((-4915013186996885, -49)%Z, [24494]%N);
   ((-1395781251715785, -47)%Z, [25098]%N);
   ((-5817402483096699, -49)%Z, [25104]%N);
   ((-6741894510166865, -49)%Z, [25209; 26578; 29590]%N);
   ((-5094286700096907, -49)%Z, [25668; 25885]%N);
   ((-5460377189238741, -50)%Z, [25968; 25976]%N);
   ((-7984822096485485, -50)%Z, [25972]%N);
   ((-3626502427551205, -49)%Z, [26080; 28961]%N);
   ((-4945044304350143, -49)%Z, [26085]%N);
   ((-574866754857501, -46)%Z, [26377]%N);
   ((-1202941587835119, -47)%Z, [26497; 26997]%N);
   ((-3094868363934827, -48)%Z, [26550]%N);
   ((-6513637946443407, -49)%Z, [27604]%N);
   ((-6180163363753351, -50)%Z, [27627]%N);
   ((-594247150011731, -46)%Z, [28023]%N);
   ((-8009221137231089, -50)%Z, [28207]%N);
   ((-5799529554859319, -49)%Z, [28595]%N);
   ((-5938499424232453, -49)%Z, [28857; 40670]%N);
   ((-113479407357843, -44)%Z, [29255]%N);
   ((-293074932890705, -45)%Z, [30002; 33391]%N);
   ((-5782206651046173, -49)%Z, [30328]%N);
   ((-5711049045518191, -50)%Z, [30334]%N);
   ((-6155608099841907, -49)%Z, [30414]%N);
   ((-1261535499135851, -47)%Z, [31435]%N);
   ((-1525993220210737, -49)%Z, [31532]%N);
   ((-8630260686644915, -50)%Z, [31995]%N);
   ((-5297956388855869, -49)%Z, [32013; 32435]%N);
   ((-2174432773823703, -48)%Z, [32066; 32456]%N);
   ((-7047605502859103, -50)%Z, [32085; 32477]%N);
   ((-6868678074410503, -50)%Z, [33509]%N);
   ((-535561798344951, -46)%Z, [33521]%N);
   ((-5152483539921465, -49)%Z, [35211; 35265]%N);
   ((-4646675269006493, -50)%Z, [35377; 35768]%N);
   ((-3844112734208271, -49)%Z, [35576; 35832]%N);
   ((-2830005098966559, -48)%Z, [36019; 36144]%N);
   ((-5041546461199325, -49)%Z, [36763]%N);
   ((-8883388670670733, -50)%Z, [38646]%N);
   ((-2622607828362301, -49)%Z, [39318]%N);
   ((-187826975461551, -44)%Z, [39340; 39532]%N)];
  (* ('B', 'mg') *)
  [
];
  (* ('B', 'mq') *)
  [
   ((-2706473054374063, -50)%Z, [19968]%N);
   ((-6555986759307959, -50)%Z, [19975; 33836]%N);
   ((-4941231446873497, -52)%Z, [19977]%N);
   ((-4464039149927975, -49)%Z, [19978; 38470; 38520]%N);
   ((-1743772783296341, -48)%Z, [20108]%N);
   ((-2903210457886635, -49)%Z, [20116]%N);
   ((-8086789674443837, -50)%Z, [20843; 20960; 24190]%N);
   ((-4794933625556291, -49)%Z, [20845]%N);
   ((-1384143318152257, -48)%Z, [21313]%N);
   ((-3683624803907305, -49)%Z, [21315]%N);
   ((-3465890975592383, -49)%Z, [21322]%N);
   ((-5310759450385227, -49)%Z, [21452; 38617]%N);
   ((-759920967761743, -47)%Z, [21738]%N);
   ((-2223049933534361, -50)%Z, [22235]%N);
   ((-7398967195567089, -50)%Z, [22810]%N);
   ((-2850483311697781, -48)%Z, [22909; 25104; 31532]%N);
   ((-1230138069343723, -47)%Z, [23569]%N);
   ((-4692295713651433, -49)%Z, [25342; 33098; 33240]%N);
   ((-8809452905091913, -50)%Z, [27491]%N);
   ((-5723541377483993, -50)%Z, [27492]%N);
   ((-2070068965677111, -48)%Z, [30334]%N);
   ((-4827237150473699, -52)%Z, [36825; 36889]%N);
   ((-6675581143496955, -51)%Z, [37027]%N);
   ((-5974778681121195, -50)%Z, [38646]%N)];
  (* ('B', 'n') *)
  [
   ((-3375895011513379, -49)%Z, [19968]%N);
   ((-344817388271963, -45)%Z, [19969; 35616; 35875; 36798; 36948]%N);
   ((-2775686610666527, -48)%Z, [19971; 26829]%N);
   ((-35083762159383, -42)%Z, [19975; 33836]%N);
   ((-4533582673656505, -49)%Z, [19976]%N);
   ((-7964765023105465, -50)%Z, [19977]%N);
   ((-7374910908606901, -50)%Z, [19978]%N);
   ((-3926127670431281, -49)%Z, [19979]%N);
   ((-3063378258741509, -49)%Z, [19981]%N);
   ((-3213558994169819, -48)%Z, [19982; 21010; 21053; 21123; 21130; 25250; 25654; 33287; 38940; 39052]%N);
   ((-8531238925856513, -49)%Z, [19984; 20237; 20261; 20387; 20406; 20480; 20857; 21243; 21248; 21671; 21761; 21863;
     21912; 22038; 22475; 22581; 23011; 23113; 23360; 23682; 24435; 25342; 25602; 25695; 25722; 26406; 26851; 27159;
     27183; 27299; 27782; 27817; 28101; 28296; 28467; 28530; 28950; 28953; 29148; 30220; 30251; 30321; 30651; 30718;
     30751; 30755; 31020; 31040; 31077; 31189; 31602; 31629; 32180; 32196; 32498; 32512; 32745; 32900; 33004; 33176;
     33228; 33255; 33332; 33342; 33444; 33503; 33538; 33586; 33706; 33715; 33789; 33940; 34044; 34058; 34328; 34578;
     35438; 35808; 35912; 36050; 36170; 36767; 37039; 37365; 37659; 37860; 38039; 38171; 38210; 38370; 38657; 38717;
     39144; 39190; 39255; 39294; 39341; 39533; 40221; 40422; 40431; 40498; 40553; 40554; 40703; 40715; 40793;
     40837]%N);
   ((-5601643603762435, -49)%Z, [19985; 26088; 31034; 37276]%N);
   ((-3541068862107221, -49)%Z, [19987; 23560]%N);
   ((-1480417007502941, -48)%Z, [19990]%N);
   ((-2246114104911685, -48)%Z, [19992; 22920; 23229]%N);
   ((-5322174481735409, -49)%Z, [19993; 27832]%N);
   ((-6442535810276351, -50)%Z, [19994; 26989]%N);
   ((-5203756230411051, -49)%Z, [19995; 21474]%N);
   ((-3524177724820283, -49)%Z, [19996; 26481]%N);
   ((-4843308556384555, -49)%Z, [19997; 31209; 32114]%N);
   ((-4935271846242309, -49)%Z, [19998]%N);
   ((-8550290795492329, -50)%Z, [20004; 20841]%N);
   ((-689468616504083, -46)%Z, [20005; 22196; 34701; 38968; 39048]%N);
   ((-5767733569591965, -49)%Z, [20006; 24182; 28020]%N);
   ((-5612575014291221, -49)%Z, [20007; 21930; 26131]%N);
   ((-3432265097056951, -49)%Z, [20010; 20491]%N);
   ((-4723510231634175, -49)%Z, [20011; 22609; 31890]%N);
   ((-2906654245397263, -49)%Z, [20013]%N);
   ((-5908617811909027, -49)%Z, [20016; 35920]%N);
   ((-6240580504088265, -49)%Z, [20018; 21544; 22136; 22495; 33108]%N);
   ((-342097241827667, -45)%Z, [20020; 23460; 33256]%N);
   ((-6155867259766757, -49)%Z, [20024; 20304; 21696; 21980; 24833; 25377; 25803; 33486; 33511; 34542; 34638; 34829;
     34875; 37438; 38080]%N);
   ((-5584883368615243, -49)%Z, [20025]%N);
   ((-5519746226603261, -49)%Z, [20026; 28858; 36676; 36758]%N);
   ((-5713524079163105, -50)%Z, [20027]%N);
   ((-6645410575959411, -49)%Z, [20029; 20991; 21169; 21237; 22445; 22497; 28867; 28916; 29808; 30174; 33333; 35553;
     35877; 38015; 39715; 40599]%N);
   ((-35067001291113, -42)%Z, [20030; 33289]%N);
   ((-1679793232544493, -47)%Z, [20035; 20285; 22028; 27498; 27529; 27891; 29756; 29898; 30014; 31657; 31854; 32774;
     35370; 35775; 36538; 36562; 36713; 39511; 39564; 40672]%N);
   ((-8388646064382081, -50)%Z, [20041; 32681]%N);
   ((-2800049579238531, -48)%Z, [20043; 24509; 33760; 35531; 35831]%N);
   ((-4597631616775433, -49)%Z, [20044; 28879]%N);
   ((-1103143881985897, -47)%Z, [20048; 27138]%N);
   ((-3092807466097565, -48)%Z, [20050; 25467; 34619]%N);
   ((-341035563845345, -45)%Z, [20052; 21932; 36328]%N);
   ((-6100709193444179, -49)%Z, [20054; 26060; 26552; 26976; 29356; 33469; 37057; 39173; 39292; 39729]%N);
   ((-2433144648149149, -48)%Z, [20056]%N);
   ((-4598672189998551, -49)%Z, [20057]%N);
   ((-634881711172237, -46)%Z, [20061]%N);
   ((-5919392302589153, -49)%Z, [20062]%N);
   ((-4257684830013015, -49)%Z, [20064; 32722; 36215]%N);
   ((-1104837834091265, -47)%Z, [20065; 37129]%N);
   ((-7360453090811687, -50)%Z, [20070; 26360]%N);
   ((-4817760195356407, -49)%Z, [20080; 22781; 23551; 36023]%N);
   ((-5393325841983467, -49)%Z, [20081; 20098; 21754; 37467; 38085]%N);
   ((-563384752786067, -46)%Z, [20083]%N);
   ((-6135541949085201, -49)%Z, [20094; 25773; 29996; 39180; 39285]%N);
   ((-4070515876423089, -48)%Z, [20102; 20872; 21350; 21485; 22159; 22604; 22856; 23256; 23305; 23713; 24456; 24518;
     25014; 25414; 25438; 25630; 25736; 26485; 27073; 27197; 28458; 28907; 29145; 29277; 30148; 30405; 30791; 30898;
     30933; 31494; 31637; 31964; 33307; 33729; 33735; 33910; 34169; 34170; 34272; 34660; 34674; 35494; 35563; 35733;
     35829; 35855; 35888; 36255; 36310; 36448; 36454; 37095; 37142; 37541; 37571; 38129; 38162; 38356; 38422; 38678;
     38902; 39378; 39437; 39439; 39545; 39568; 39570; 39761; 40153; 40409; 40503]%N);
   ((-625657395708929, -46)%Z, [20105; 29229]%N);
   ((-3083398754877337, -49)%Z, [20107]%N);
   ((-2057000732375103, -48)%Z, [20108]%N);
   ((-748595763971975, -46)%Z, [20111; 26366; 28818; 31933; 34407]%N);
   ((-2290241004158205, -48)%Z, [20113; 38642]%N);
   ((-4752180545366049, -49)%Z, [20114]%N);
   ((-4390201282063025, -49)%Z, [20116]%N);
   ((-2731893213739745, -48)%Z, [20117; 21381; 24307; 30561]%N);
   ((-6988283162052553, -49)%Z, [20120; 20121; 21153; 21209; 21311; 24347; 24717; 25644; 25856; 26020; 26094; 29243;
     30860; 33564; 33692; 37496; 38128; 40386; 40542; 40783; 40785]%N);
   ((-1102676935677137, -47)%Z, [20122; 20126]%N);
   ((-5895433369634463, -49)%Z, [20129; 30683; 37259]%N);
   ((-8302982362133055, -49)%Z, [20130; 20394; 20757; 20885; 20917; 21024; 21034; 21359; 21553; 21661; 21862; 21987;
     22109; 22378; 22466; 22859; 22894; 23057; 23125; 23493; 23913; 24079; 24131; 24917; 25190; 25421; 25569; 25703;
     25784; 25852; 25949; 26179; 26214; 26692; 26755; 27689; 27692; 27733; 27841; 27863; 27875; 28316; 28354; 28859;
     29081; 29566; 29935; 29964; 30042; 30555; 30636; 30765; 30937; 31645; 32371; 32564; 32610; 32631; 32772; 32821;
     32831; 33222; 33431; 33616; 33757; 33922; 34137; 34148; 34174; 34188; 34214; 34259; 34330; 34728; 34766; 34999;
     35140; 35646; 35731; 35753; 35881; 36476; 36645; 36746; 36802; 36929; 37353; 37431; 37606; 37657; 37694; 37864;
     38034; 38068; 38164; 38193; 38753; 39243; 39304; 39498; 39557; 39618; 39633; 39998; 40148]%N);
   ((-761460439227473, -47)%Z, [20132]%N);
   ((-2939540264387317, -49)%Z, [20135; 29986]%N);
   ((-7571551066735821, -49)%Z, [20137; 20398; 21400; 21417; 21834; 22300; 23077; 23884; 25950; 26165; 26289; 26526;
     27141; 27326; 27777; 28373; 29978; 30045; 30133; 30388; 30529; 30556; 31264; 32786; 33007; 33496; 33596; 34545;
     34554; 34586; 36386; 36481; 36845; 37122; 37485; 38077; 40018; 40159; 40669; 40738; 40801; 40836]%N);
   ((-6686370451063669, -49)%Z, [20139; 21870; 22227; 22616; 22918; 22941; 26194; 26348; 28061; 28551; 29389; 29536;
     30242; 30302; 30313; 33180]%N);
   ((-4830979240862289, -49)%Z, [20140]%N);
   ((-2843310640201437, -48)%Z, [20141; 36420]%N);
   ((-2534678931926969, -48)%Z, [20142; 31639]%N);
   ((-1995272264645857, -48)%Z, [20146; 35242]%N);
   ((-4900024445422899, -50)%Z, [20154]%N);
   ((-7825996071094101, -49)%Z, [20159; 20647; 20740; 20752; 21652; 21799; 21981; 22535; 23402; 23423; 23622; 23626;
     24062; 25321; 25402; 25799; 25874; 25890; 26391; 26771; 26848; 26973; 26982; 27000; 27047; 27067; 30218; 30250;
     30303; 30355; 30505; 30637; 30917; 31255; 31559; 31659; 31787; 32184; 32272; 32438; 32457; 32687; 33688; 34735;
     36426; 36944; 37219; 37563; 37804; 38161; 38224; 39315; 39606; 39973; 40143]%N);
   ((-5900670151150419, -49)%Z, [20160; 24039; 27167; 31373; 31429; 32051; 32453]%N);
   ((-2729482278428511, -48)%Z, [20161]%N);
   ((-247274224660085, -44)%Z, [20164; 21414; 21497; 21543; 21563; 22022; 22372; 22804; 22949; 23625; 23644; 23729;
     24264; 25110; 25619; 26898; 27001; 27975; 28153; 28550; 28820; 29409; 29831; 29989; 30102; 30308; 30900; 32210;
     32392; 32490; 32556; 32581; 33009; 33150; 33493; 33761; 34212; 34384; 34555; 34581; 34622; 36776; 37877; 38119;
     38316; 38406; 39472; 39935; 40138; 40407; 40485]%N);
   ((-5066959777358887, -49)%Z, [20166; 20693; 24535]%N);
   ((-5331667960566891, -49)%Z, [20167]%N);
   ((-5857637302229281, -49)%Z, [20170; 20525; 24367; 24398; 26592; 27320; 31166; 32189; 32496; 37336; 38025]%N);
   ((-4941939690140453, -49)%Z, [20171]%N);
   ((-6033569856244855, -49)%Z, [20174; 21561; 23436; 24478; 38772]%N);
   ((-4335419720378351, -49)%Z, [20179; 20489]%N);
   ((-1840154351706377, -47)%Z, [20180; 20233; 21261; 22265; 24050; 24214; 24328; 24443; 24464; 24505; 24680; 24724;
     25166; 25518; 25806; 26421; 27825; 30109; 30457; 31174; 31240; 33107; 34546; 34799; 35473; 35827; 36090; 36186;
     36838; 36848; 37231; 40009; 40150]%N);
   ((-724973589348021, -46)%Z, [20181; 34071]%N);
   ((-5395466338681767, -49)%Z, [20182]%N);
   ((-6407363331486391, -49)%Z, [20184; 23377; 30178; 34516; 35970; 37011; 37159; 37604; 38148]%N);
   ((-1239247856598455, -47)%Z, [20185]%N);
   ((-3425420438269007, -49)%Z, [20195]%N);
   ((-705837955289871, -46)%Z, [20196; 23653; 34442; 38607; 38619]%N);
   ((-3156162815411285, -48)%Z, [20197; 33421; 33465; 33502; 39699; 39714]%N);
   ((-8574587473167759, -50)%Z, [20202; 20736]%N);
   ((-1701019667232231, -47)%Z, [20208; 20731; 21554; 22427; 26621; 27273; 29022; 29157; 33419; 33640; 34113; 34303;
     35355; 35363; 35408; 35769; 35776; 35784; 36101; 36184; 36820; 38348; 38417; 39019; 39076; 39479; 39578; 40818;
     40843]%N);
   ((-6280452027082781, -49)%Z, [20210; 27713]%N);
   ((-7522568016112385, -49)%Z, [20213; 21634; 24527; 25035; 25082; 25101; 25282; 25305; 26389; 27028; 27427; 28346;
     28353; 28888; 29343; 29360; 29548; 30201; 30202; 32945; 33515; 33724; 33997; 34036; 34548; 34832; 36011; 36109;
     36143; 36193; 36910; 37290; 38332; 38415; 38747; 39405; 39559]%N);
   ((-1808749688751727, -47)%Z, [20214; 20318; 20987; 21149; 21240; 22570; 23413; 24420; 25802; 29245; 30152; 30244;
     30320; 33580; 33643; 33778; 34067; 34093; 35513; 35837; 36882; 36958; 38007; 38218; 40239; 40284; 40504;
     40520]%N);
   ((-1465027049386955, -48)%Z, [20215; 20729]%N);
   ((-4048993505256285, -49)%Z, [20219]%N);
   ((-1140410221355659, -47)%Z, [20221]%N);
   ((-6198861424616179, -49)%Z, [20223; 20329; 21602; 31709]%N);
   ((-6258444973263055, -50)%Z, [20225]%N);
   ((-3037516379129657, -48)%Z, [20234; 27852; 28248; 28866; 29211; 32679]%N);
   ((-3220341851939319, -48)%Z, [20238; 20854; 22313; 26009; 36555; 36711; 37228]%N);
   ((-5665441981877311, -49)%Z, [20239; 26580]%N);
   ((-1869376994388963, -47)%Z, [20240; 21066; 21700; 23547; 23563; 25139; 26157; 26721; 27208; 29325; 30168; 30232;
     30266; 30764; 31735; 31948; 32190; 32491; 34003; 34563; 35533; 35673; 35812; 35887; 37414; 37964; 38043; 38228;
     39899; 40119; 40478; 40510]%N);
   ((-5733482760347587, -49)%Z, [20241; 20392; 20689; 24049; 26329]%N);
   ((-8264246031981519, -50)%Z, [20247; 30526]%N);
   ((-7971055959330453, -50)%Z, [20248; 20778]%N);
   ((-4835323316776535, -49)%Z, [20249; 22821; 24215; 26118]%N);
   ((-857886030628947, -47)%Z, [20250; 26371]%N);
   ((-171957061289671, -44)%Z, [20254; 20632; 39348; 39535]%N);
   ((-2907698123898879, -48)%Z, [20255; 20553; 22882; 24055; 33167; 36010; 36138; 38464; 39881; 40100]%N);
   ((-3579766326507573, -49)%Z, [20256; 20659]%N);
   ((-7625205928017243, -49)%Z, [20258; 20800; 21369; 21482; 24199; 24597; 24676; 25294; 25975; 26333; 26638; 26891;
     27227; 27265; 27305; 27359; 27599; 27784; 30137; 31095; 31153; 31578; 31718; 31731; 33448; 34731; 34835; 34873;
     35313; 35609; 35878; 36213; 36249; 36291; 36493; 37393; 38051; 39391; 39543; 40653; 40667]%N);
   ((-4619898076705509, -49)%Z, [20260; 20663]%N);
   ((-2609611430647237, -48)%Z, [20262; 20523; 23486; 30813; 36051]%N);
   ((-5274369397546013, -49)%Z, [20266; 20605]%N);
   ((-5085817778933499, -49)%Z, [20271]%N);
   ((-8250012533676221, -50)%Z, [20272]%N);
   ((-1461993171994931, -47)%Z, [20276; 28132; 30590; 30871; 31186]%N);
   ((-1707722719222243, -47)%Z, [20280; 21247; 21647; 21945; 22809; 23536; 26355; 27983; 28024; 28687; 30164; 30928;
     31067; 31961; 33883; 34686; 34833; 35032; 35424; 37230; 37247; 37312]%N);
   ((-5460166158067595, -49)%Z, [20291; 26007; 39717]%N);
   ((-7750824579835843, -49)%Z, [20294; 20375; 20801; 20940; 21005; 21187; 21273; 22496; 22982; 23388; 24224; 24524;
     24537; 25332; 25530; 25723; 26604; 26724; 26727; 27071; 27280; 27292; 27645; 28073; 28349; 28544; 29469; 29575;
     29747; 30043; 30115; 30545; 30596; 30604; 30652; 30700; 31799; 32697; 32705; 33133; 33467; 33473; 34031; 34065;
     34162; 34204; 34308; 34364; 34511; 34749; 34762; 34806; 34900; 35465; 35709; 35977; 36019; 36049; 36123; 36144;
     36168; 36195; 36460; 36466; 36468; 37048; 37392; 37532; 37678; 38052; 38178; 38816; 38990; 39066; 39945;
     40135]%N);
   ((-8186506335990521, -50)%Z, [20301]%N);
   ((-4138295524019057, -49)%Z, [20302]%N);
   ((-8139340240450203, -50)%Z, [20303]%N);
   ((-868847742021639, -47)%Z, [20307; 39636]%N);
   ((-2790198843941193, -48)%Z, [20308; 21344; 23736; 26106; 36305]%N);
   ((-2761213472866393, -48)%Z, [20309; 26588; 27331]%N);
   ((-4660536637701109, -49)%Z, [20313; 39192]%N);
   ((-3238050519481537, -48)%Z, [20314; 25776; 34460; 37221; 37347; 37811; 38035; 38221; 39933; 39971; 40101;
     40107]%N);
   ((-1157566945630729, -47)%Z, [20315]%N);
   ((-3071992468843311, -49)%Z, [20316]%N);
   ((-3249236427562633, -48)%Z, [20317; 20806; 21385; 21426; 25318; 25876; 28558; 31546; 31627; 31908; 31925; 34739;
     34784; 35998; 36126; 38287; 38384; 40298; 40524]%N);
   ((-878228383527523, -46)%Z, [20320; 20463; 21510; 24069; 24101; 24331; 24490; 25170; 25326; 27954; 29785; 30184;
     30278; 32822; 33179; 33335; 33451; 39905; 40113]%N);
   ((-1341553901517735, -47)%Z, [20323; 20653]%N);
   ((-3717894449041883, -48)%Z, [20325; 20649; 20681; 20794; 21587; 22039; 22094; 22116; 22216; 23157; 23307; 23581;
     24218; 24245; 24864; 24868; 24909; 24996; 25200; 25772; 25774; 25854; 26653; 26729; 27051; 27137; 28173; 28460;
     29053; 29854; 29924; 32172; 32502; 33137; 33841; 34398; 34428; 36945; 37261; 38466; 38960; 39050; 39156; 39284;
     39628; 39637; 39757; 39759; 39809; 40069; 40660]%N);
   ((-2659678689254205, -48)%Z, [20339; 27807; 28317; 30865]%N);
   ((-6521770660636475, -49)%Z, [20348; 20367; 25286; 28195; 28921; 38876; 38892; 39912; 40120]%N);
   ((-8970320910814723, -50)%Z, [20351]%N);
   ((-1300558171068915, -47)%Z, [20356]%N);
   ((-3876501090763495, -49)%Z, [20358; 26469]%N);
   ((-8015413101027577, -49)%Z, [20361; 20433; 21714; 22112; 22158; 22391; 22674; 24148; 24691; 25000; 25031; 25300;
     25380; 25824; 25902; 26195; 26313; 26361; 26462; 26688; 27017; 27384; 27822; 28372; 28504; 28699; 29048; 29920;
     30128; 31397; 31418; 32143; 32236; 32306; 32485; 32517; 32551; 33071; 33308; 33334; 33931; 34028; 34083; 34115;
     34461; 34486; 34672; 34836; 35014; 35168; 35988; 36410; 37194; 37369; 37858; 38037; 38230; 39851; 40091;
     40664]%N);
   ((-1230080314817695, -47)%Z, [20363]%N);
   ((-4743357761531173, -49)%Z, [20365]%N);
   ((-8757620378659237, -50)%Z, [20379]%N);
   ((-8914273768384613, -50)%Z, [20381]%N);
   ((-6665518068896551, -49)%Z, [20384; 20448; 22383; 27965; 29470; 35105; 36084; 36182]%N);
   ((-1366249594044711, -47)%Z, [20390; 20597; 27839]%N);
   ((-2660616940045325, -48)%Z, [20391; 20596]%N);
   ((-6537856039322947, -49)%Z, [20399; 26413; 26666; 27035; 27769; 27958; 36920; 40372; 40548]%N);
   ((-2707553059755531, -48)%Z, [20405; 36093; 36187]%N);
   ((-5598558938765465, -49)%Z, [20415; 31563]%N);
   ((-758932307604169, -46)%Z, [20419; 29788]%N);
   ((-705420335404315, -46)%Z, [20420; 39171; 39290]%N);
   ((-1738271832500507, -47)%Z, [20426; 21576; 24708; 25758; 25792; 27993; 28046; 28053; 29435; 30743; 30824; 31903;
     35548; 35853; 36311; 36784]%N);
   ((-1789079944014185, -47)%Z, [20431; 20521; 26541; 26547; 26783; 27607; 28003; 29626; 29885; 30008; 31487; 31544;
     36880; 37544; 37834; 38002; 38133; 38262; 39336; 40024; 40095]%N);
   ((-1366553234914069, -47)%Z, [20439; 32784; 39409; 39558]%N);
   ((-5360140547617927, -49)%Z, [20440; 31609; 31820; 33406]%N);
   ((-3299037994521109, -48)%Z, [20442; 21106; 28525; 32617; 32641; 32648; 33816; 34527; 37385; 38048]%N);
   ((-3565876015505519, -49)%Z, [20445]%N);
   ((-6310269603743551, -50)%Z, [20449]%N);
   ((-1243747839924343, -47)%Z, [20462; 36275]%N);
   ((-5253988892986927, -49)%Z, [20465; 22367; 22707]%N);
   ((-7006742191283449, -49)%Z, [20467; 25794; 26274; 30021; 30193; 30699; 30703; 31513; 32217; 32514; 33632; 33704;
     33978; 34106; 34234; 34298; 34569; 37255; 37397; 37664; 37762; 38062; 38189; 38209]%N);
   ((-741993855986997, -46)%Z, [20472]%N);
   ((-2734324978123759, -48)%Z, [20493]%N);
   ((-2668237709466321, -48)%Z, [20498; 30450]%N);
   ((-41413504420745, -42)%Z, [20505; 32023; 32433]%N);
   ((-278795190589589, -44)%Z, [20506; 21117; 21526; 21545; 21861; 22066; 22366; 22576; 22626; 22764; 22925; 23495;
     23846; 24222; 24413; 24575; 25114; 25279; 25684; 25810; 26197; 26238; 26248; 26444; 26564; 26720; 26895; 27281;
     27672; 27739; 28118; 28174; 28465; 28626; 28678; 28693; 29632; 29786; 29969; 30054; 30496; 30655; 30778; 30779;
     30784; 30802; 30990; 31018; 31025; 31262; 31360; 31459; 31660; 31751; 32609; 32633; 32792; 32957; 32997; 33147;
     33193; 33280; 33460; 33491; 33507; 33508; 33696; 33796; 34432; 34445; 34553; 34645; 34794; 34876; 35426; 35466;
     35588; 35810; 35913; 35944; 36332; 36393; 38407; 38606; 38698; 38930; 39041; 39110; 39129; 39219; 39222; 39226;
     39271; 39305; 39310; 39377; 39549; 40440; 40556; 40848]%N);
   ((-1178860649094553, -47)%Z, [20511; 21103]%N);
   ((-752144519809507, -46)%Z, [20513; 28176; 28472; 33545; 36319; 37709; 38208]%N);
   ((-6970410233815173, -49)%Z, [20518; 20658; 22134; 22545; 22649; 22959; 23254; 23815; 24041; 25062; 25504; 27654;
     27905; 28500; 29071; 30294; 31568; 31644; 36277; 38799; 38867; 38889; 39108; 39128]%N);
   ((-7237150843041939, -50)%Z, [20538; 20661]%N);
   ((-685751377784789, -46)%Z, [20540]%N);
   ((-147599540518347, -44)%Z, [20542; 20670]%N);
   ((-7684518625399261, -49)%Z, [20547; 21638; 21756; 21852; 21961; 22239; 22930; 23630; 24665; 24871; 25022; 25528;
     25763; 26051; 26279; 26326; 26597; 27670; 27922; 28753; 28843; 29134; 29428; 29993; 30031; 30182; 30207; 30270;
     30318; 30437; 30442; 31364; 31949; 32221; 32399; 32521; 32544; 33331; 33436; 33633; 33670; 34154; 34481; 34631;
     34821; 34945; 35491; 35820; 36299; 37145; 37300; 37389; 37798; 38045; 38223; 39791; 40065]%N);
   ((-9004900209305109, -50)%Z, [20551]%N);
   ((-3647155726194463, -48)%Z, [20552; 21076; 21708; 21716; 22006; 22040; 22099; 22376; 23404; 23784; 26124; 27481;
     27950; 29838; 29908; 30153; 30169; 30275; 31398; 31431; 31976; 32694; 33012; 33154; 33211; 33489; 34074; 34632;
     34760; 35090; 36280; 36294; 36330; 36489; 36594; 36721; 37154; 37238; 37573; 38156; 38660; 39262; 39307; 40756;
     40761]%N);
   ((-145916367377071, -44)%Z, [20559]%N);
   ((-2362243081804731, -48)%Z, [20570]%N);
   ((-2834458496312059, -48)%Z, [20572; 21220; 24616]%N);
   ((-2815096831383775, -48)%Z, [20581; 30782; 31019; 38012; 38179]%N);
   ((-5457765514969389, -49)%Z, [20598; 24656]%N);
   ((-3590671946862743, -48)%Z, [20599; 20995; 21330; 21683; 26753; 26941; 31742; 32652; 33589; 34595; 35930; 36877;
     39003; 39072; 40020; 40157; 40223; 40497; 40799; 40835]%N);
   ((-3308267509136557, -48)%Z, [20607; 20767; 21579; 31041; 31319; 34935; 38475]%N);
   ((-761656599207775, -46)%Z, [20608; 22840; 35463; 36111; 36194]%N);
   ((-2969379292078651, -48)%Z, [20625; 26480; 33426]%N);
   ((-5597022921568535, -49)%Z, [20633; 22564; 22791; 30385; 30394]%N);
   ((-7045581725073431, -49)%Z, [20643; 20993; 21277; 23418; 23803; 26624; 26685; 26731; 26772; 30260; 32899; 32901;
     33003; 33051; 34719; 38433; 39231; 39306; 40182; 40469; 40482; 40492; 40748]%N);
   ((-8833790196808321, -50)%Z, [20648; 20786]%N);
   ((-2627411755653239, -48)%Z, [20652]%N);
   ((-2599977534205267, -48)%Z, [20667]%N);
   ((-784413861985777, -46)%Z, [20687; 21310; 25042; 25078; 30879]%N);
   ((-3130081673259129, -48)%Z, [20698; 25102; 27900; 28497; 30079; 30338; 31570; 32244; 32451; 38686]%N);
   ((-5052198838539865, -49)%Z, [20711; 30722]%N);
   ((-1766513722166367, -47)%Z, [20718; 21675; 22204; 22467; 25496; 26974; 30208; 30460; 31392; 33020; 33981; 36119;
     36189; 36286; 38358; 38383; 38485; 38493; 39608; 39661]%N);
   ((-5422932759328367, -49)%Z, [20721; 38599]%N);
   ((-5362158291546577, -49)%Z, [20725]%N);
   ((-4910268314387231, -49)%Z, [20754]%N);
   ((-3806150926750471, -49)%Z, [20799; 20818]%N);
   ((-4193688579341939, -49)%Z, [20803]%N);
   ((-4103423691950667, -49)%Z, [20804]%N);
   ((-1250646203517439, -47)%Z, [20805]%N);
   ((-5716159856534441, -49)%Z, [20807; 20982]%N);
   ((-3585893558539905, -49)%Z, [20808]%N);
   ((-7318161267750149, -50)%Z, [20809]%N);
   ((-1487532924325171, -47)%Z, [20811; 25429; 39522; 39540]%N);
   ((-3566180421551025, -48)%Z, [20812; 20817; 21884; 23477; 25198; 26093; 27122; 27146; 28078; 31783; 33392; 33393;
     33725; 39627; 39638; 39993; 40099; 40617; 40632]%N);
   ((-2640665113770909, -48)%Z, [20813; 26609]%N);
   ((-1370874462167365, -47)%Z, [20820; 20999; 39208; 39302]%N);
   ((-1072837965888277, -47)%Z, [20826; 31508; 31558; 40680]%N);
   ((-3245458183227257, -48)%Z, [20828; 21484; 27029; 29922; 30759; 34444; 39491; 39584]%N);
   ((-5296414107392539, -49)%Z, [20837; 23381; 27964; 28193; 31351; 31402; 31406]%N);
   ((-207607153959379, -45)%Z, [20839; 20869]%N);
   ((-5646784889067157, -50)%Z, [20840]%N);
   ((-2101640639566193, -48)%Z, [20843]%N);
   ((-4806409536209913, -50)%Z, [20844]%N);
   ((-658543560629489, -46)%Z, [20845; 27454]%N);
   ((-5706761475419863, -49)%Z, [20848; 34349]%N);
   ((-7919675185271535, -50)%Z, [20849]%N);
   ((-812526077923483, -47)%Z, [20851; 38364]%N);
   ((-562641850053089, -46)%Z, [20852; 33288]%N);
   ((-985267027953607, -47)%Z, [20853]%N);
   ((-6817325161349973, -49)%Z, [20855; 20887; 22317; 22377; 23138; 24208; 24300; 28120; 29159; 32021; 32057; 32432;
     32461; 33441; 34928; 35493; 35575; 35773; 35824; 35962; 36029; 36155]%N);
   ((-8681987055653779, -50)%Z, [20856]%N);
   ((-2443815940420315, -48)%Z, [20859; 39178]%N);
   ((-7109380103188307, -49)%Z, [20860; 21208; 21536; 21917; 27814; 28059; 28138; 28142; 28389; 28644; 28651; 28698;
     29394; 31211; 31636; 32948; 33096; 33750; 35048; 35065; 37852; 38231; 38739; 38746; 39194]%N);
   ((-672450943100691, -46)%Z, [20861; 29560]%N);
   ((-7326488778797761, -49)%Z, [20864; 23000; 23572; 24047; 24048; 25320; 25765; 25942; 26185; 26187; 27778; 29042;
     29246; 29295; 29322; 29346; 30131; 30292; 30896; 31292; 32283; 32403; 32538; 32552; 33585; 33805; 33831; 34157;
     34526; 36805; 37891; 38105; 38317; 38398; 39914; 40110; 40751]%N);
   ((-209625782564499, -44)%Z, [20874; 20876; 23724; 24525; 26646; 26866; 31968; 33226; 35730; 35863; 36825; 36889;
     36935]%N);
   ((-6394568463600933, -49)%Z, [20877; 24816; 25358; 26503; 32660; 35734; 35894; 37463; 38067]%N);
   ((-2988296873333367, -48)%Z, [20882; 23648; 33005; 37232]%N);
   ((-1293691565907265, -47)%Z, [20889; 23531]%N);
   ((-3124039766413345, -49)%Z, [20891; 36557]%N);
   ((-6303554951809655, -50)%Z, [20892; 36786]%N);
   ((-4904411239228309, -49)%Z, [20896]%N);
   ((-2743635914486003, -48)%Z, [20900]%N);
   ((-6131563487626141, -49)%Z, [20901; 28437; 34957]%N);
   ((-6919963073254831, -49)%Z, [20906; 24130; 24323; 25376; 25747; 26092; 26820; 27684; 27860; 28902; 29033; 30712;
     32070; 32458; 40008; 40149]%N);
   ((-2656882557220383, -48)%Z, [20908]%N);
   ((-1040112096412239, -47)%Z, [20912]%N);
   ((-150531005847353, -44)%Z, [20914; 34909]%N);
   ((-8081050010585753, -50)%Z, [20915; 27770]%N);
   ((-4951117112708005, -49)%Z, [20918]%N);
   ((-1132240655871877, -47)%Z, [20919]%N);
   ((-1347002484724947, -47)%Z, [20923; 20941]%N);
   ((-3764472805807587, -49)%Z, [20928; 28136]%N);
   ((-4702143947571021, -49)%Z, [20934; 28310]%N);
   ((-659080319480505, -46)%Z, [20937; 28092]%N);
   ((-5435455923849089, -49)%Z, [20943; 22904; 23014; 27605; 28187; 30050; 33519]%N);
   ((-5640041434937821, -49)%Z, [20957]%N);
   ((-2394096691560521, -48)%Z, [20960; 24190]%N);
   ((-1423010747800737, -47)%Z, [20961]%N);
   ((-2579876687588165, -48)%Z, [20964; 40179]%N);
   ((-2794702539649045, -48)%Z, [20973; 24977; 25153; 27204; 37070]%N);
   ((-5994952437254923, -49)%Z, [20975; 20977; 25234; 27516; 27570; 28889; 39423; 39567; 40285; 40517]%N);
   ((-719172131880239, -46)%Z, [20979; 36991]%N);
   ((-6104474759012105, -49)%Z, [20984; 21537; 24352; 24373; 25233; 33445; 37322; 37323]%N);
   ((-5964679017192003, -49)%Z, [20985; 23273; 26441; 27490]%N);
   ((-8280044378340249, -50)%Z, [20986]%N);
   ((-4637195632118109, -49)%Z, [20989]%N);
   ((-1190808169642545, -47)%Z, [20992; 34746]%N);
   ((-6795651979576373, -50)%Z, [20998]%N);
   ((-1374044359421045, -47)%Z, [21002]%N);
   ((-4864616338296143, -49)%Z, [21009]%N);
   ((-2421453296408151, -48)%Z, [21015]%N);
   ((-3348546815767591, -48)%Z, [21016; 21129; 21558; 21584; 22055; 26257; 27450; 28113; 31224; 31699; 31757; 32943;
     33509; 34496; 35691; 35893; 38808; 40587]%N);
   ((-5151350981082069, -49)%Z, [21018; 21083; 26174; 39023]%N);
   ((-3389862473537881, -49)%Z, [21019; 21109]%N);
   ((-4757334227561509, -49)%Z, [21021]%N);
   ((-5545743674885641, -49)%Z, [21028]%N);
   ((-4922631274631195, -49)%Z, [21029; 21035]%N);
   ((-6382057949783105, -49)%Z, [21032; 23100; 25087; 31384; 32920; 38534]%N);
   ((-6523704683014793, -50)%Z, [21033]%N);
   ((-3227292204493119, -48)%Z, [21038; 25098; 25935; 27867; 29481; 30872; 34433; 34811]%N);
   ((-6060869748283993, -49)%Z, [21040; 26049; 27453; 38054; 38893]%N);
   ((-3473129696169005, -49)%Z, [21046]%N);
   ((-6554414584629769, -49)%Z, [21047; 22857; 23047; 23308; 26127; 26840; 27696; 27893; 30749; 32365; 33500; 33575;
     34480; 38242]%N);
   ((-4268878187904999, -49)%Z, [21048]%N);
   ((-2932498114969371, -48)%Z, [21049; 21070; 24677; 27573; 32827; 38393; 39719]%N);
   ((-4678850370775973, -49)%Z, [21050]%N);
   ((-5471097568596381, -49)%Z, [21051; 22766; 22767; 26172; 26205]%N);
   ((-2770084933718551, -48)%Z, [21058; 21137]%N);
   ((-1587986624270345, -47)%Z, [21059; 22312; 25370; 25424; 25642; 25711; 25970; 27530; 27742; 30857; 30910; 32856;
     39094; 39123]%N);
   ((-7414504996022859, -50)%Z, [21069]%N);
   ((-5648381586790499, -49)%Z, [21073; 21133; 21348; 22615; 28034; 40565]%N);
   ((-5922118457812235, -49)%Z, [21078; 37396; 38046; 40474; 40550]%N);
   ((-6189995887794503, -49)%Z, [21085; 21093; 36115; 36163]%N);
   ((-4244068371290359, -49)%Z, [21095; 21127; 31062]%N);
   ((-5332626173484913, -49)%Z, [21097; 35302; 35320]%N);
   ((-171010168032853, -44)%Z, [21098; 28330]%N);
   ((-6778485627559991, -49)%Z, [21128; 25551; 28063; 28095; 28286; 28451; 28771; 29060; 29401; 31103; 31108; 31528;
     33626; 33698; 34473; 34670; 36036; 36159; 36205]%N);
   ((-3677026370122929, -49)%Z, [21147]%N);
   ((-7558680400884739, -50)%Z, [21150; 36774]%N);
   ((-3700611040755483, -49)%Z, [21151]%N);
   ((-4692218402020201, -49)%Z, [21152]%N);
   ((-5690229946307571, -49)%Z, [21155; 25299]%N);
   ((-6631154933788171, -50)%Z, [21160; 21205]%N);
   ((-2483209815940725, -48)%Z, [21161]%N);
   ((-6176953992851055, -49)%Z, [21163; 38281; 38381]%N);
   ((-5270062184847633, -49)%Z, [21170; 21185; 38604]%N);
   ((-1023499084089633, -47)%Z, [21171; 21214; 37202]%N);
   ((-4219376005622151, -49)%Z, [21183; 21218]%N);
   ((-316947697283735, -45)%Z, [21191]%N);
   ((-673899181655829, -46)%Z, [21195; 21235]%N);
   ((-1536912216578153, -47)%Z, [21202; 24758; 26613; 26629; 34430; 34662; 38391]%N);
   ((-2437364741841361, -48)%Z, [21213; 24481; 26263; 31142; 32988]%N);
   ((-3468140802893713, -48)%Z, [21215; 21621; 22418; 22744; 23588; 24609; 31176; 31668; 31868; 37575; 38049; 38704;
     39027; 39070; 39635; 40442; 40557]%N);
   ((-6413871495918589, -49)%Z, [21242; 21472; 27714; 27899; 28681; 30090; 37656; 38180]%N);
   ((-21504789830563, -41)%Z, [21246; 26690]%N);
   ((-4460793735434897, -49)%Z, [21253]%N);
   ((-1205210687251175, -47)%Z, [21256]%N);
   ((-6270216291401807, -49)%Z, [21269; 24904; 31807; 36009; 36137; 39201; 39301; 39995; 40151]%N);
   ((-7059451971914217, -50)%Z, [21270]%N);
   ((-8411734362980249, -50)%Z, [21271]%N);
   ((-6082250164213283, -49)%Z, [21280; 21650; 34532]%N);
   ((-2894449797376299, -48)%Z, [21283; 22915; 26045; 26367; 26797; 32923; 33067; 33073; 34583; 34680; 39882;
     40104]%N);
   ((-6217022675499259, -49)%Z, [21290; 21478; 26708; 33909; 34850]%N);
   ((-4247965197405583, -49)%Z, [21295; 27719]%N);
   ((-3294534298813257, -48)%Z, [21305; 21449; 22129; 22916; 25160; 25995; 29316; 29712; 29795; 32203; 32495; 32718;
     33550; 33686; 34006; 39235; 39309; 40779]%N);
   ((-1862503238840503, -48)%Z, [21306; 21312]%N);
   ((-6835460985586803, -50)%Z, [21307; 37291]%N);
   ((-2517773698252059, -48)%Z, [21313]%N);
   ((-1252526312428961, -47)%Z, [21315; 31449]%N);
   ((-634273112834427, -46)%Z, [21319; 24565]%N);
   ((-1335818896834313, -47)%Z, [21320]%N);
   ((-2116200654160757, -48)%Z, [21322]%N);
   ((-8616388314414673, -50)%Z, [21326; 33775]%N);
   ((-1920113896005629, -48)%Z, [21327; 21332]%N);
   ((-1393617961045417, -47)%Z, [21329; 33433]%N);
   ((-6791136720715151, -49)%Z, [21331; 24935; 25386; 27673; 27722; 28796; 32626; 32768; 33636; 33911; 36992; 37210;
     40275; 40513]%N);
   ((-7231231032118503, -50)%Z, [21333; 21934]%N);
   ((-5179860868113469, -49)%Z, [21334; 36067]%N);
   ((-279274126962765, -45)%Z, [21335]%N);
   ((-4218712697010685, -49)%Z, [21338]%N);
   ((-6301499336521037, -49)%Z, [21340; 25381; 25582; 33852; 34523]%N);
   ((-5136941968984249, -49)%Z, [21345]%N);
   ((-2852450241071763, -48)%Z, [21346; 30439; 31914; 31966]%N);
   ((-168675468913581, -44)%Z, [21351; 23429; 33253]%N);
   ((-8706974763604897, -50)%Z, [21355; 31169; 34907]%N);
   ((-8570998944530399, -50)%Z, [21360]%N);
   ((-7575696227558261, -50)%Z, [21361]%N);
   ((-6844791581996573, -49)%Z, [21363; 23421; 24623; 26702; 28359; 29006; 36814; 37720; 38113; 39853; 40081]%N);
   ((-5042950992736825, -49)%Z, [21365; 25509]%N);
   ((-1272229859853913, -47)%Z, [21367]%N);
   ((-8964800741812591, -50)%Z, [21378; 24288]%N);
   ((-3110828017302397, -48)%Z, [21380; 22622; 35578; 35866]%N);
   ((-6768166602993677, -50)%Z, [21382; 27511]%N);
   ((-950411381576769, -47)%Z, [21387; 22739]%N);
   ((-7087300804545517, -49)%Z, [21388; 21421; 22774; 22778; 23561; 24764; 25161; 25260; 26635; 26775; 26805; 26847;
     27661; 27686; 27712; 29096; 30117; 32325; 32555; 32842; 32946; 33991; 34989; 35186; 35554; 35816; 36887; 37904;
     38243; 39911; 40115; 40198; 40489; 40718]%N);
   ((-1351573158245825, -47)%Z, [21397; 24257]%N);
   ((-2452654185409025, -48)%Z, [21402]%N);
   ((-1520022392587459, -48)%Z, [21407]%N);
   ((-5573000078759269, -49)%Z, [21410; 24258; 30528; 32318; 32489; 34676; 37089]%N);
   ((-5092038283700051, -49)%Z, [21416; 24282]%N);
   ((-2541366556968265, -48)%Z, [21435; 24466]%N);
   ((-7998371190912629, -50)%Z, [21439; 32291]%N);
   ((-4126580009745575, -49)%Z, [21442; 21443]%N);
   ((-2559799268579253, -48)%Z, [21448]%N);
   ((-6420455780958491, -49)%Z, [21450; 24809; 25074; 25645; 31104; 35905; 36104; 36192; 39600]%N);
   ((-5033288817934221, -49)%Z, [21451]%N);
   ((-3748663317817381, -49)%Z, [21452; 38617]%N);
   ((-8833036330086589, -50)%Z, [21453]%N);
   ((-1800987595497439, -48)%Z, [21457; 30332]%N);
   ((-622511900253959, -46)%Z, [21460; 24544]%N);
   ((-2796981701710693, -48)%Z, [21462; 28404; 30127; 30219]%N);
   ((-4749451085699455, -49)%Z, [21463]%N);
   ((-4215803388450707, -49)%Z, [21464; 35722]%N);
   ((-1488252810745697, -47)%Z, [21465; 25944; 33479; 33894]%N);
   ((-2676567428892881, -48)%Z, [21467]%N);
   ((-1940497428505779, -48)%Z, [21475]%N);
   ((-1914020836280859, -48)%Z, [21476]%N);
   ((-1420758899946811, -47)%Z, [21477; 24086; 24088; 31806]%N);
   ((-1801883083590077, -47)%Z, [21481; 21880; 21927; 22063; 23044; 23105; 25527; 25842; 27819; 30256; 31074; 31310;
     31400; 32008; 32424; 33120; 33483; 33703; 33820; 34121; 34388; 36022; 36033; 36140; 36146; 36655; 36753; 36797;
     36842; 36893; 36963; 36988; 37027; 37266; 37466; 38086; 38553; 38931; 39039; 39062; 39985; 40022; 40098; 40156;
     40306; 40522; 40578]%N);
   ((-327346951888311, -45)%Z, [21483]%N);
   ((-4062090570036941, -49)%Z, [21487]%N);
   ((-2248386258134271, -48)%Z, [21488; 32113; 32479]%N);
   ((-2142376773342229, -48)%Z, [21490; 24494]%N);
   ((-290440007749409, -45)%Z, [21491]%N);
   ((-4543173991510463, -49)%Z, [21494; 33865]%N);
   ((-4883730017256543, -49)%Z, [21495; 34399]%N);
   ((-7855729855886845, -50)%Z, [21496]%N);
   ((-5708628641156177, -49)%Z, [21507; 27941]%N);
   ((-7655553572189609, -50)%Z, [21512]%N);
   ((-4838902664462465, -49)%Z, [21513]%N);
   ((-5104689376855211, -49)%Z, [21514]%N);
   ((-3652398801597953, -49)%Z, [21516]%N);
   ((-6986242317303655, -50)%Z, [21517]%N);
   ((-7237333485577313, -50)%Z, [21518; 24460]%N);
   ((-5185740294436735, -49)%Z, [21519]%N);
   ((-1493397834949581, -47)%Z, [21520; 24358; 25220; 28237]%N);
   ((-5188703195768007, -49)%Z, [21521]%N);
   ((-924618670536723, -46)%Z, [21525; 21533; 21557; 21570; 21888; 22839; 23162; 24536; 25443; 25623; 26021; 26137;
     26311; 26869; 27982; 28639; 32266; 32546; 32793; 33384; 36381; 37226; 37356; 37564; 37997; 38030; 38153; 38247;
     39663]%N);
   ((-6447591151931675, -49)%Z, [21527; 21966; 24091; 25214; 28009; 28577; 31567; 37561; 38152; 38669]%N);
   ((-2280089970908503, -48)%Z, [21531]%N);
   ((-361671676240045, -45)%Z, [21534; 23435; 24551; 24962; 31515; 40736]%N);
   ((-6635619895209849, -49)%Z, [21542; 23849; 25480; 27553; 27567; 27774; 28340; 31967; 32047; 33678; 35342; 35752;
     36604; 36726; 36763; 39185; 39293; 39825; 39986; 40077; 40140]%N);
   ((-135425880666623, -44)%Z, [21547]%N);
   ((-5055120225238259, -49)%Z, [21548; 32893]%N);
   ((-2991323515148165, -48)%Z, [21551; 21855; 26632; 26855; 37586; 38155]%N);
   ((-5955905593592069, -49)%Z, [21555; 21556; 26590; 31946; 32578; 32588]%N);
   ((-1222562057313247, -47)%Z, [21560]%N);
   ((-1636518608194273, -47)%Z, [21564; 27631; 27779; 28938; 32129; 32465; 32990; 33348; 35167; 36343; 36474; 37521;
     38115; 39195; 39300]%N);
   ((-5440079768763133, -49)%Z, [21574]%N);
   ((-181381375974079, -44)%Z, [21578; 29595; 29802; 32737]%N);
   ((-4760102272245641, -49)%Z, [21592; 21729]%N);
   ((-7831785290123697, -50)%Z, [21608; 36913]%N);
   ((-1205597594679337, -47)%Z, [21619]%N);
   ((-1276652950787933, -47)%Z, [21628; 38761]%N);
   ((-4006413426452323, -49)%Z, [21629]%N);
   ((-8202319196615295, -50)%Z, [21644]%N);
   ((-5141704111791565, -49)%Z, [21654]%N);
   ((-6050476530868303, -49)%Z, [21672; 28388; 28670; 35566; 36677; 36757; 37237]%N);
   ((-3377002842909497, -48)%Z, [21674; 25605; 25898; 34001; 37457; 37672; 38082; 38170; 39799; 39822; 40063;
     40071]%N);
   ((-6231038751025015, -49)%Z, [21676; 33314]%N);
   ((-178104816634995, -44)%Z, [21688]%N);
   ((-5372356939196347, -49)%Z, [21693]%N);
   ((-1810523155216635, -48)%Z, [21697]%N);
   ((-5747334600392579, -49)%Z, [21704; 23457; 23529; 25387; 38307; 38401]%N);
   ((-5217656935518651, -49)%Z, [21709; 29066; 38911]%N);
   ((-1334360464214569, -47)%Z, [21713; 21854]%N);
   ((-8837945510692947, -50)%Z, [21733]%N);
   ((-5513099750892347, -49)%Z, [21736; 30563; 36031; 36152; 40575]%N);
   ((-5301835818192613, -49)%Z, [21741]%N);
   ((-6040271720556273, -49)%Z, [21742; 40441; 40560]%N);
   ((-522612426402481, -46)%Z, [21746]%N);
   ((-2956989640281089, -48)%Z, [21767; 32560; 33970; 37428; 38083; 38849]%N);
   ((-2835331287636829, -48)%Z, [21776; 22931; 25277; 30105]%N);
   ((-1519657473700347, -47)%Z, [21794; 21993; 26575; 33540; 33905; 34085; 36636; 36750; 38329; 38409]%N);
   ((-652993368071241, -46)%Z, [21806]%N);
   ((-5015539171765689, -49)%Z, [21807]%N);
   ((-1327978325928411, -47)%Z, [21809]%N);
   ((-2803151263259781, -48)%Z, [21822; 28096; 34276; 35488; 35802; 36028; 36148]%N);
   ((-6888680028135601, -49)%Z, [21823; 25744; 25745; 26086; 26364; 26943; 30883; 33716; 33845; 34512; 37615; 38150;
     39177; 39253; 39287; 39683]%N);
   ((-6506132156316333, -49)%Z, [21828; 22368; 22684; 25830; 27794; 27809; 29619; 32121; 32482; 32903; 34809; 35338;
     35759; 40055; 40132]%N);
   ((-1546047151346661, -48)%Z, [21830]%N);
   ((-783131148288973, -47)%Z, [21839; 38382]%N);
   ((-2577068933865611, -48)%Z, [21860; 26012]%N);
   ((-2604175882877565, -48)%Z, [21892; 38543; 38568]%N);
   ((-4961933951148593, -49)%Z, [21895]%N);
   ((-163851561777737, -44)%Z, [21897; 22280]%N);
   ((-5559924524290349, -49)%Z, [21898; 29748]%N);
   ((-1202058647040625, -47)%Z, [21916]%N);
   ((-2723543767512045, -48)%Z, [21943; 22132]%N);
   ((-730103947251835, -46)%Z, [21949; 22029; 30462; 34893]%N);
   ((-5817661643021549, -49)%Z, [21957; 25193; 25844; 28378; 28414; 30239; 32764; 33298]%N);
   ((-5033852613628237, -49)%Z, [21971]%N);
   ((-7263874312693205, -49)%Z, [22003; 22127; 22654; 23048; 23372; 24608; 25401; 27586; 28051; 28822; 29129; 30192;
     31498; 32115; 32286; 32475; 32543; 32824; 32883; 32961; 33029; 35359; 35442; 35772; 35813; 36198; 36611; 36674;
     36739; 36831; 36978; 37275; 39920; 40118]%N);
   ((-2860937566788613, -48)%Z, [22025; 40638]%N);
   ((-4541995531893549, -49)%Z, [22068]%N);
   ((-2124262047697411, -48)%Z, [22120]%N);
   ((-2882830043378211, -48)%Z, [22121; 22534; 25196; 25562; 32666; 38665; 40692]%N);
   ((-5292828426776909, -49)%Z, [22122; 30165; 35009]%N);
   ((-3290101530402419, -48)%Z, [22124; 23544; 24248; 29520; 30180; 32573; 34521; 38069]%N);
   ((-6607229848509593, -49)%Z, [22139; 25311; 25836; 32568; 34684; 34747; 35477; 35806; 39165; 39281]%N);
   ((-6203347105349037, -49)%Z, [22218; 28954; 33109; 34417; 34597; 34664; 37492; 37683; 37969; 38192; 39394;
     39560]%N);
   ((-5615737662797205, -49)%Z, [22234; 23725; 23994; 26415; 27694; 33104; 34899; 37528; 38125]%N);
   ((-8698583758103715, -50)%Z, [22235; 27515]%N);
   ((-8679354140319241, -50)%Z, [22238]%N);
   ((-7349503235038111, -50)%Z, [22240]%N);
   ((-8448885712165017, -50)%Z, [22242; 22296]%N);
   ((-2352326460437901, -48)%Z, [22253; 22290; 34903]%N);
   ((-5164713318745511, -49)%Z, [22256; 32928; 33144]%N);
   ((-4943859384936513, -49)%Z, [22260; 22285]%N);
   ((-4792585732738599, -49)%Z, [22266]%N);
   ((-5209447071883831, -50)%Z, [22269; 22283]%N);
   ((-1966514639089481, -48)%Z, [22270; 22294]%N);
   ((-4406620299347237, -49)%Z, [22278; 22291]%N);
   ((-6646775163486849, -50)%Z, [22303]%N);
   ((-549022818867681, -46)%Z, [22307; 32854]%N);
   ((-5645030684316813, -49)%Z, [22314; 24230]%N);
   ((-1235254573743367, -48)%Z, [22320]%N);
   ((-8477645201127685, -50)%Z, [22330; 22580]%N);
   ((-4939072366691623, -49)%Z, [22343; 37051; 37168]%N);
   ((-6143584228052247, -49)%Z, [22346; 26477; 35527; 35848]%N);
   ((-3230832816921843, -48)%Z, [22350; 25628; 26674; 31800; 32097; 32476; 38469; 38555; 39230; 39311]%N);
   ((-5038383422418629, -49)%Z, [22351; 22750; 25226]%N);
   ((-4975499666687593, -49)%Z, [22352]%N);
   ((-5408483102491825, -49)%Z, [22353; 23475; 36062; 36175]%N);
   ((-5484753033032091, -49)%Z, [22359; 22602]%N);
   ((-367500569899467, -45)%Z, [22362; 22533; 24184; 32671; 32677]%N);
   ((-6468837067811723, -49)%Z, [22363; 22727; 25335; 25658; 25884; 26551; 26689; 27741; 30126; 30241; 30733; 33099;
     36032; 36154]%N);
   ((-5611000328080085, -49)%Z, [22365; 22761; 25096; 38860; 38887]%N);
   ((-20720962426255, -41)%Z, [22369; 24471]%N);
   ((-2143946548891673, -48)%Z, [22374]%N);
   ((-5413996858160193, -49)%Z, [22402; 26410; 38312; 38394]%N);
   ((-1282887098809669, -47)%Z, [22403; 24080; 24115]%N);
   ((-3084212142460229, -48)%Z, [22404; 22751; 25203; 26356]%N);
   ((-4991489242293639, -49)%Z, [22411]%N);
   ((-6433859984531551, -49)%Z, [22438; 22718; 23452; 24140; 24674; 31729; 31852; 33311; 38924; 39042]%N);
   ((-796227428164845, -46)%Z, [22443; 22666; 22756; 23519; 29474; 31786; 37938; 38255]%N);
   ((-6622816666692389, -50)%Z, [22478]%N);
   ((-1238756625773889, -47)%Z, [22519; 25191; 26579]%N);
   ((-5661988290348987, -49)%Z, [22521; 34164; 34314]%N);
   ((-2575394643214945, -49)%Z, [22522]%N);
   ((-5130208037573521, -49)%Z, [22530]%N);
   ((-5774000238609099, -49)%Z, [22561; 23517; 23522; 24930; 29228]%N);
   ((-6562880156991693, -49)%Z, [22575; 22862; 23591; 25242; 25304; 25771; 28418; 29648; 29754; 29781; 31293; 36015;
     36142; 36865; 38334; 38408]%N);
   ((-7329205391123531, -50)%Z, [22577; 25253]%N);
   ((-2810257600842073, -48)%Z, [22612; 22937; 36649; 36744]%N);
   ((-3187952715018035, -48)%Z, [22635; 25958; 33948; 35586; 35859]%N);
   ((-5213761072541643, -49)%Z, [22645; 23576; 24895; 39000]%N);
   ((-4867547285544519, -49)%Z, [22659]%N);
   ((-4551972121285011, -49)%Z, [22675]%N);
   ((-4842103525699485, -49)%Z, [22681; 29254; 33756; 35299]%N);
   ((-3798054428309501, -49)%Z, [22686]%N);
   ((-5083348696232337, -49)%Z, [22696]%N);
   ((-6571474979716581, -49)%Z, [22697; 24685; 26786; 40213; 40501]%N);
   ((-4730706668376013, -49)%Z, [22721]%N);
   ((-6085893865952739, -49)%Z, [22741; 23035; 32874; 32880]%N);
   ((-4371110411865811, -49)%Z, [22763]%N);
   ((-7313851972658185, -50)%Z, [22768; 32882]%N);
   ((-6089561305330175, -49)%Z, [22771; 25454; 25818; 27580; 30420; 35676; 35889; 36367]%N);
   ((-8875267325541375, -50)%Z, [22788; 34389]%N);
   ((-4726443117909553, -49)%Z, [22797]%N);
   ((-2687209514621755, -48)%Z, [22799]%N);
   ((-5843201897109893, -49)%Z, [22805]%N);
   ((-3305643886027557, -49)%Z, [22806]%N);
   ((-8805860041902449, -50)%Z, [22810]%N);
   ((-4757679489733277, -49)%Z, [22812]%N);
   ((-5063381693575425, -49)%Z, [22818; 26790]%N);
   ((-611315222028963, -47)%Z, [22823]%N);
   ((-6475334661432665, -50)%Z, [22825]%N);
   ((-6859687324922851, -50)%Z, [22826]%N);
   ((-3940744344758245, -49)%Z, [22827]%N);
   ((-6340338870311019, -49)%Z, [22831; 25405; 26964; 28068; 28364; 33395; 33399; 35672; 35782; 38471; 38552;
     38580]%N);
   ((-2402422223859569, -48)%Z, [22833; 23707; 23798]%N);
   ((-3791560701119813, -49)%Z, [22836; 38957]%N);
   ((-5231108241961957, -49)%Z, [22841; 22846]%N);
   ((-2359327894883655, -48)%Z, [22855]%N);
   ((-1273636465005439, -47)%Z, [22863]%N);
   ((-5049292533925669, -49)%Z, [22865; 25209]%N);
   ((-3429522120411029, -48)%Z, [22868; 26728; 27123; 28228; 29421; 29433; 29486; 29563; 30204; 30732; 31229; 31330;
     31363; 31434; 33100; 33499; 37251; 37550; 38014; 38819]%N);
   ((-4794794826299699, -49)%Z, [22870; 29518]%N);
   ((-4552211827464243, -49)%Z, [22871]%N);
   ((-5681251287823017, -49)%Z, [22880; 32102; 32473]%N);
   ((-5277839053850965, -49)%Z, [22885; 22887]%N);
   ((-3364267404620093, -49)%Z, [22899]%N);
   ((-2089151016167565, -48)%Z, [22900]%N);
   ((-8851269925455241, -50)%Z, [22902]%N);
   ((-8211827812804767, -50)%Z, [22909]%N);
   ((-5511779820736847, -49)%Z, [22914; 40023; 40158]%N);
   ((-4267286092876059, -49)%Z, [22919; 23142]%N);
   ((-1191682861633701, -47)%Z, [22934]%N);
   ((-3178920657426967, -48)%Z, [22942; 23601; 28976; 30129; 30384; 31499; 31565; 32323; 32503; 34678]%N);
   ((-6766112603046405, -49)%Z, [22958; 24344; 24596; 26463; 26697; 30264; 31069; 33656; 34412; 34415; 34502; 34633;
     34796; 40199; 40488]%N);
   ((-2342747353506847, -48)%Z, [22969]%N);
   ((-4357544696326811, -49)%Z, [22971]%N);
   ((-2747448274932773, -48)%Z, [22986; 33495]%N);
   ((-5526472112504177, -49)%Z, [22987]%N);
   ((-8675416275948827, -50)%Z, [22992]%N);
   ((-7892711186702855, -50)%Z, [22993]%N);
   ((-2472410846391763, -48)%Z, [22995]%N);
   ((-7617410301043371, -50)%Z, [22996]%N);
   ((-6675847715655133, -49)%Z, [23004; 24441; 25721; 28357; 28781; 30775; 35137; 38313; 38397; 39519; 39588]%N);
   ((-6020400835777885, -49)%Z, [23013; 29733; 33127; 33606; 33610]%N);
   ((-5266639986142087, -49)%Z, [23016; 29492]%N);
   ((-4935745510513771, -49)%Z, [23039; 27836]%N);
   ((-2383190294793845, -48)%Z, [23041]%N);
   ((-5012272528440507, -49)%Z, [23043; 23487]%N);
   ((-8966496374522905, -50)%Z, [23064]%N);
   ((-5658555658046247, -49)%Z, [23067; 23089; 37675; 38177]%N);
   ((-1202247683319355, -47)%Z, [23110; 37038; 37109]%N);
   ((-3057962491652999, -48)%Z, [23114; 25442; 25563; 28044; 28263; 38969; 39059]%N);
   ((-8877617030547609, -50)%Z, [23130]%N);
   ((-5066361848515185, -49)%Z, [23156; 23344]%N);
   ((-1351300146543615, -47)%Z, [23158; 23352; 34411; 34802; 38605]%N);
   ((-8381810900616159, -50)%Z, [23186]%N);
   ((-6742153670091715, -49)%Z, [23194; 23869; 27844; 27945; 30566; 31204; 31524; 33983; 34541]%N);
   ((-4778434134705193, -49)%Z, [23219]%N);
   ((-6265167379052761, -49)%Z, [23233; 25941; 37794; 38056; 38309; 38400]%N);
   ((-1256641736895755, -47)%Z, [23234]%N);
   ((-5192428887417165, -49)%Z, [23244; 27835]%N);
   ((-400058096731551, -45)%Z, [23252; 23338; 26539; 26963; 28905; 29172; 29657; 32629; 34769; 38995; 39067; 39554]%N);
   ((-6250286778217469, -49)%Z, [23265; 27268; 37934; 38256]%N);
   ((-5947266805858495, -49)%Z, [23270; 24324; 27088; 38713]%N);
   ((-6212427140155179, -49)%Z, [23332; 23351; 24726; 26894; 29796; 29814; 39607]%N);
   ((-7917333740771139, -50)%Z, [23376]%N);
   ((-5075398157354983, -49)%Z, [23380; 30772]%N);
   ((-4177315698393067, -49)%Z, [23383]%N);
   ((-8776095641793425, -50)%Z, [23384]%N);
   ((-2583069254631103, -48)%Z, [23385; 23403]%N);
   ((-5474789056928407, -49)%Z, [23389; 30805; 30889]%N);
   ((-5751355688584967, -49)%Z, [23391; 29705; 38654; 38695]%N);
   ((-2618370906227693, -48)%Z, [23394]%N);
   ((-7004363178005373, -50)%Z, [23395]%N);
   ((-5238361813439303, -49)%Z, [23396]%N);
   ((-12132994262391, -41)%Z, [23398; 23416]%N);
   ((-1884225423830309, -48)%Z, [23401]%N);
   ((-3122706361099757, -48)%Z, [23425; 23527; 25235; 26803; 27465; 31167; 31171; 32222; 32526; 35074; 35437;
     35809]%N);
   ((-4793321134480569, -49)%Z, [23431; 34092]%N);
   ((-5262391287081187, -49)%Z, [23432; 29942]%N);
   ((-152045381120049, -44)%Z, [23433]%N);
   ((-4104613289835971, -49)%Z, [23439]%N);
   ((-8072580215830267, -50)%Z, [23447]%N);
   ((-3452530612708543, -49)%Z, [23448]%N);
   ((-4140368158628983, -49)%Z, [23450]%N);
   ((-8196095775204495, -50)%Z, [23453; 23542; 36012; 36131]%N);
   ((-3372051325680821, -49)%Z, [23454; 23526]%N);
   ((-5961739324071045, -49)%Z, [23456; 23541; 25746; 38929; 39037]%N);
   ((-7327621011045939, -50)%Z, [23458]%N);
   ((-4631370525193693, -49)%Z, [23459]%N);
   ((-5283962889955233, -49)%Z, [23462]%N);
   ((-2284748635229063, -48)%Z, [23466; 25010]%N);
   ((-8377779927747093, -50)%Z, [23467; 23470]%N);
   ((-2572565238157759, -48)%Z, [23472; 31461; 34562]%N);
   ((-1361185476706151, -47)%Z, [23476]%N);
   ((-6928140508918775, -50)%Z, [23478]%N);
   ((-1166448108175919, -47)%Z, [23481]%N);
   ((-5053365574612259, -49)%Z, [23485; 23532]%N);
   ((-5333586020185343, -49)%Z, [23492; 33261; 33945]%N);
   ((-4265698487801885, -49)%Z, [23494]%N);
   ((-4513084658504883, -49)%Z, [23500]%N);
   ((-2343051322193743, -48)%Z, [23506; 25252; 35703]%N);
   ((-1401186316061147, -47)%Z, [23507; 25588; 27744]%N);
   ((-5120255805129749, -49)%Z, [23521; 24030]%N);
   ((-5641699609784465, -49)%Z, [23528]%N);
   ((-3743167728564085, -49)%Z, [23545; 23565]%N);
   ((-5016085459972965, -49)%Z, [23546]%N);
   ((-7722380032156697, -50)%Z, [23548; 23566]%N);
   ((-2250676902247081, -48)%Z, [23553]%N);
   ((-8891422247030355, -50)%Z, [23556]%N);
   ((-3807298893519813, -49)%Z, [23558; 23559]%N);
   ((-647941038436363, -46)%Z, [23562; 24453; 25511]%N);
   ((-5876950572699717, -50)%Z, [23567]%N);
   ((-8126592922303153, -50)%Z, [23569]%N);
   ((-2656419223820765, -48)%Z, [23574]%N);
   ((-1170843020364705, -47)%Z, [23578]%N);
   ((-4562128710369471, -49)%Z, [23608; 23629]%N);
   ((-151416334085803, -44)%Z, [23610; 33769]%N);
   ((-5417331221038049, -49)%Z, [23612; 33152; 33181]%N);
   ((-288541420202527, -45)%Z, [23614; 24038; 24213]%N);
   ((-1255394424551007, -47)%Z, [23615]%N);
   ((-1941262554148211, -48)%Z, [23616]%N);
   ((-2569829129354895, -48)%Z, [23617; 37806; 37912; 38047; 38215]%N);
   ((-71829875790015, -43)%Z, [23618; 23652]%N);
   ((-3964460574560471, -49)%Z, [23621]%N);
   ((-1357147648857241, -47)%Z, [23624]%N);
   ((-4590400967510967, -49)%Z, [23627; 27873]%N);
   ((-1248527819389357, -47)%Z, [23631]%N);
   ((-5230308028673811, -49)%Z, [23637]%N);
   ((-2457636173460867, -48)%Z, [23646; 23660]%N);
   ((-85466756753075, -43)%Z, [23663; 30606]%N);
   ((-6618749658173453, -50)%Z, [23665]%N);
   ((-1302859107688025, -47)%Z, [23681; 27506]%N);
   ((-6194411204180863, -49)%Z, [23700; 29503; 30315; 30322; 33030; 37799; 38112]%N);
   ((-5186479559091129, -49)%Z, [23703; 23831]%N);
   ((-8626693391742313, -50)%Z, [23721; 30002]%N);
   ((-5240800589614813, -49)%Z, [23731; 32020; 32431]%N);
   ((-2535883104786889, -48)%Z, [23777; 23805]%N);
   ((-2857133793000885, -48)%Z, [23789]%N);
   ((-4918480047642813, -49)%Z, [23792]%N);
   ((-6064377235975903, -49)%Z, [23830; 28911; 30410; 30643]%N);
   ((-1586528191650601, -47)%Z, [24005; 24020; 25317; 25793; 33276; 37855; 38130]%N);
   ((-5860079605207135, -49)%Z, [24029; 30246]%N);
   ((-291066239904123, -45)%Z, [24033; 26292]%N);
   ((-1563800850737269, -47)%Z, [24034; 25273; 29306; 29351; 32350; 32469; 32688; 35947]%N);
   ((-1374519385049717, -48)%Z, [24037]%N);
   ((-4546724244732437, -49)%Z, [24040]%N);
   ((-5727649029868611, -49)%Z, [24043; 34299]%N);
   ((-7976677565176697, -50)%Z, [24046]%N);
   ((-5280455402263323, -49)%Z, [24052; 28363]%N);
   ((-1459030168063111, -47)%Z, [24065; 24163; 33620]%N);
   ((-4974296409114009, -50)%Z, [24066]%N);
   ((-2129197857630721, -48)%Z, [24067]%N);
   ((-2828423579576211, -48)%Z, [24070; 25346; 25499; 32930]%N);
   ((-3974680824162179, -49)%Z, [24072; 24107]%N);
   ((-2782849210290867, -48)%Z, [24076; 33293; 34503]%N);
   ((-8271316428378421, -50)%Z, [24093]%N);
   ((-1328905759191381, -47)%Z, [24102; 24118; 39493; 39537]%N);
   ((-5030478278130289, -49)%Z, [24109]%N);
   ((-2738012475971917, -48)%Z, [24110; 24171]%N);
   ((-2868702886207245, -48)%Z, [24119; 35033]%N);
   ((-8480396668545029, -50)%Z, [24120]%N);
   ((-5227914191104573, -49)%Z, [24125]%N);
   ((-8572492775062453, -50)%Z, [24133]%N);
   ((-2555561580318393, -48)%Z, [24149; 31232]%N);
   ((-1931897727750029, -48)%Z, [24178; 24185]%N);
   ((-7142698192245069, -50)%Z, [24179]%N);
   ((-6449636449825669, -50)%Z, [24180]%N);
   ((-312197720047961, -45)%Z, [24187]%N);
   ((-4681257429294819, -49)%Z, [24188]%N);
   ((-5100864107640089, -49)%Z, [24189; 25915; 38013; 38075]%N);
   ((-33321267852641, -42)%Z, [24191; 24291]%N);
   ((-2417067620228891, -48)%Z, [24196; 33674]%N);
   ((-5763594213049311, -49)%Z, [24198; 24950; 27813; 28701; 36953; 36965; 38752]%N);
   ((-4565555372840005, -49)%Z, [24202]%N);
   ((-2462475404002569, -48)%Z, [24207]%N);
   ((-4358393663390773, -49)%Z, [24211; 24235]%N);
   ((-5199197906287755, -49)%Z, [24212; 25033]%N);
   ((-5175491247571399, -49)%Z, [24217; 24287; 28287; 28629]%N);
   ((-83232831396329, -43)%Z, [24220; 38982; 39063]%N);
   ((-4830585982059415, -49)%Z, [24223; 24290]%N);
   ((-2423065183285321, -48)%Z, [24231]%N);
   ((-5461370329550095, -49)%Z, [24237; 27060]%N);
   ((-5867470739212747, -49)%Z, [24246; 27978; 28609; 36259]%N);
   ((-2368664842697625, -48)%Z, [24247]%N);
   ((-724699246917971, -46)%Z, [24265]%N);
   ((-3048484324215099, -48)%Z, [24266; 25187; 27103; 27315; 30702]%N);
   ((-2906569966169351, -48)%Z, [24310; 26286; 26792; 27818; 28396; 30690; 32094; 32478; 32602; 32624; 33777; 38500;
     39166; 39280]%N);
   ((-790420527359665, -46)%Z, [24311; 28041; 30116; 31579; 31721; 33125; 34425; 37476; 38057; 40180; 40483; 40654]%N);
   ((-1725315064392235, -48)%Z, [24314]%N);
   ((-7947644027996055, -50)%Z, [24320; 38283]%N);
   ((-8658186924269909, -50)%Z, [24322; 30064]%N);
   ((-1407955760370919, -47)%Z, [24330; 30003; 32321]%N);
   ((-5776104726867139, -49)%Z, [24335; 29461; 29564; 39449; 39575]%N);
   ((-2719460121093773, -48)%Z, [24339]%N);
   ((-4800355786435951, -49)%Z, [24341]%N);
   ((-8638994983895199, -50)%Z, [24351]%N);
   ((-5769814717815863, -49)%Z, [24357; 24396; 24493; 26531; 26839]%N);
   ((-2726497362049779, -48)%Z, [24359; 37956; 38136]%N);
   ((-6483459966672535, -49)%Z, [24361; 30053; 32091; 32486; 35436; 35807; 38592; 40056; 40072]%N);
   ((-2446877858472449, -48)%Z, [24369]%N);
   ((-1997312911712891, -48)%Z, [24375; 24378]%N);
   ((-8396289677628143, -50)%Z, [24377; 24392]%N);
   ((-5498747989883097, -49)%Z, [24402; 27512; 39749]%N);
   ((-4320767543142631, -49)%Z, [24403; 30070]%N);
   ((-2643746184154603, -48)%Z, [24405; 37636]%N);
   ((-5930377040447437, -49)%Z, [24407; 26643; 27225]%N);
   ((-6464341171923619, -50)%Z, [24418]%N);
   ((-2253207278664255, -48)%Z, [24425]%N);
   ((-4191157894237611, -49)%Z, [24433]%N);
   ((-5958814902152047, -49)%Z, [24444; 37555; 38160]%N);
   ((-2746171742238215, -48)%Z, [24448; 36855]%N);
   ((-2642862431539411, -48)%Z, [24449; 24501; 25505; 37319]%N);
   ((-602460601557049, -46)%Z, [24452; 24465; 32858]%N);
   ((-598160509320133, -46)%Z, [24459]%N);
   ((-651526280655363, -46)%Z, [24503]%N);
   ((-214011920259655, -45)%Z, [24515]%N);
   ((-5478504911696405, -49)%Z, [24517; 29572]%N);
   ((-2523489122571759, -48)%Z, [24555]%N);
   ((-2611183920640443, -48)%Z, [24576; 25079; 33899]%N);
   ((-4029807293372329, -49)%Z, [24577; 24907]%N);
   ((-2683617260145971, -48)%Z, [24594; 29281; 38706]%N);
   ((-3732838081805503, -49)%Z, [24605]%N);
   ((-4791484428272419, -49)%Z, [24613]%N);
   ((-7184089316018853, -50)%Z, [24615]%N);
   ((-5073579254469155, -49)%Z, [24618]%N);
   ((-1511390894821743, -48)%Z, [24635; 32317]%N);
   ((-1224764566871013, -47)%Z, [24646; 24658; 39764]%N);
   ((-5998071281539321, -49)%Z, [24651; 25088; 35475; 36824; 36996; 37411; 38041]%N);
   ((-329218349215503, -45)%Z, [24681]%N);
   ((-336883142513379, -45)%Z, [24687]%N);
   ((-2451310626883287, -48)%Z, [24694; 24801; 33086]%N);
   ((-3436833569841435, -48)%Z, [24735; 26144; 26932; 32862; 33351; 33581; 33759; 33806; 34913; 35911; 38395]%N);
   ((-4378986414077785, -49)%Z, [24739]%N);
   ((-2553627036780935, -48)%Z, [24748; 25080; 27663]%N);
   ((-2530208615997005, -48)%Z, [24754]%N);
   ((-6072307083714709, -50)%Z, [24773]%N);
   ((-2925186665538965, -48)%Z, [24778; 25293; 39514]%N);
   ((-6904104279378591, -49)%Z, [24807; 25084; 29330; 32110; 32728; 32761; 33588; 35331; 35747; 36678; 36705; 36756;
     36760; 36930; 36974; 37045; 38601; 38649; 39345; 39534]%N);
   ((-679144770718395, -46)%Z, [24808; 24920; 31168]%N);
   ((-4940504202868575, -49)%Z, [24815; 24931]%N);
   ((-590928019007331, -46)%Z, [24819]%N);
   ((-3327701187706947, -49)%Z, [24847]%N);
   ((-1507562151987039, -47)%Z, [24858; 27679; 30738; 33972; 34223; 35386; 35786]%N);
   ((-2212721757854399, -48)%Z, [24859; 29233]%N);
   ((-3841583155500733, -49)%Z, [24863]%N);
   ((-831921819007887, -46)%Z, [24944; 27189; 30746; 30831; 31258; 33192; 33713; 33802; 35064; 36315; 39501; 39553]%N);
   ((-4317123841403175, -49)%Z, [25103; 25138]%N);
   ((-6367122271834871, -50)%Z, [25104]%N);
   ((-889272272580303, -47)%Z, [25105]%N);
   ((-5209891985466727, -49)%Z, [25106; 35695; 35793]%N);
   ((-96704836251879, -44)%Z, [25112; 25136]%N);
   ((-1429514627276149, -47)%Z, [25130; 29436]%N);
   ((-1148307628503805, -47)%Z, [25142; 25143]%N);
   ((-7235234883093037, -50)%Z, [25151]%N);
   ((-7331387560597975, -50)%Z, [25152]%N);
   ((-2641103207208313, -48)%Z, [25159]%N);
   ((-6596355676697587, -50)%Z, [25163]%N);
   ((-2606492562430333, -48)%Z, [25165; 31532]%N);
   ((-6226327845262779, -49)%Z, [25169; 25340; 25778; 26242; 26283; 28457; 34763; 40766]%N);
   ((-2553948538788145, -48)%Z, [25171]%N);
   ((-5350158903965057, -49)%Z, [25176]%N);
   ((-1396973450836929, -47)%Z, [25195; 25475; 36801; 36983]%N);
   ((-2867720424558113, -48)%Z, [25197]%N);
   ((-1500301875272605, -47)%Z, [25206; 29790; 30519]%N);
   ((-2542599746133411, -48)%Z, [25215]%N);
   ((-6664151095316317, -50)%Z, [25216]%N);
   ((-6665414331032989, -50)%Z, [25237]%N);
   ((-4709704664957935, -49)%Z, [25239; 26411]%N);
   ((-4896400749000023, -49)%Z, [25240]%N);
   ((-6235789411736133, -49)%Z, [25243; 25291; 27495]%N);
   ((-5731531458728675, -49)%Z, [25259; 29554; 32162; 32504; 33719; 39385; 39544]%N);
   ((-94432075180019, -43)%Z, [25265; 29425; 29508; 32027; 32439]%N);
   ((-5675932036089157, -49)%Z, [25269; 30418]%N);
   ((-1516976678582469, -47)%Z, [25276; 33583]%N);
   ((-5355127603064531, -49)%Z, [25285; 25812; 29190; 29359]%N);
   ((-751741259426945, -46)%Z, [25287; 32353; 32483; 36829; 36949]%N);
   ((-1283897180813067, -47)%Z, [25289]%N);
   ((-2503166236910025, -48)%Z, [25296; 36817]%N);
   ((-5290154075175233, -49)%Z, [25302; 26063]%N);
   ((-3059897035190457, -48)%Z, [25303; 30001; 30358; 35628; 35884]%N);
   ((-4603116210851761, -49)%Z, [25307]%N);
   ((-6306886458524847, -49)%Z, [25308; 39187; 39295]%N);
   ((-6108265682114931, -49)%Z, [25324; 26791; 30111; 30247]%N);
   ((-5761535892827827, -49)%Z, [25329; 28183; 28402; 28891; 29165; 29301; 29309; 39389; 39548]%N);
   ((-635572735489759, -46)%Z, [25331]%N);
   ((-5424059786638571, -49)%Z, [25343; 32004; 32422]%N);
   ((-2416474833116055, -48)%Z, [25345]%N);
   ((-6408563742103715, -50)%Z, [25351]%N);
   ((-2839736306752361, -48)%Z, [25353; 36339]%N);
   ((-2951653461951341, -48)%Z, [25361; 28821; 38476]%N);
   ((-5558490256117261, -49)%Z, [25366; 39515; 39551]%N);
   ((-2795460211645461, -48)%Z, [25391; 26031; 26928]%N);
   ((-8607101212759709, -50)%Z, [25439; 25613]%N);
   ((-6047054332162757, -49)%Z, [25463; 26704; 26758; 31983; 33630; 34126; 39746]%N);
   ((-597618513745873, -46)%Z, [25484]%N);
   ((-8922811053573277, -50)%Z, [25490]%N);
   ((-2426930820158751, -48)%Z, [25506]%N);
   ((-4825109010888801, -49)%Z, [25512]%N);
   ((-6151743065838161, -49)%Z, [25513; 26103; 26336; 26726; 27014; 27194; 27617; 27656; 32265; 32537; 39361;
     39539]%N);
   ((-3987107329074181, -49)%Z, [25514]%N);
   ((-4797012622812595, -49)%Z, [25552]%N);
   ((-5242432329752673, -49)%Z, [25554]%N);
   ((-3142820271322399, -48)%Z, [25581; 27224; 32670; 33267; 34837; 38582; 38584]%N);
   ((-2819194064960763, -48)%Z, [25622; 25671]%N);
   ((-2486481354510621, -48)%Z, [25668; 25885]%N);
   ((-5944416420257899, -49)%Z, [25670; 25850; 33900; 35598; 35868]%N);
   ((-5432012794134509, -49)%Z, [25674; 25892]%N);
   ((-2962428939524851, -48)%Z, [25688; 28790; 30340; 34955; 36068; 36145]%N);
   ((-2447318007079277, -48)%Z, [25705]%N);
   ((-2769392498002287, -48)%Z, [25720]%N);
   ((-5334547506248995, -49)%Z, [25805; 33285]%N);
   ((-3900390975135737, -49)%Z, [25903]%N);
   ((-6492170162289803, -50)%Z, [25910]%N);
   ((-5396539646830385, -49)%Z, [25913; 31359; 38000; 38053]%N);
   ((-2394826847551567, -48)%Z, [25918]%N);
   ((-2704500598046061, -49)%Z, [25919]%N);
   ((-8051303930675505, -50)%Z, [25925]%N);
   ((-3716901610731643, -49)%Z, [25928]%N);
   ((-3979427843081781, -49)%Z, [25932; 25973]%N);
   ((-303187556777827, -45)%Z, [25937]%N);
   ((-1325686133755441, -47)%Z, [25943; 36133; 40201; 40486]%N);
   ((-6882845439236133, -50)%Z, [25945]%N);
   ((-4676154675504851, -49)%Z, [25954; 28797; 28798]%N);
   ((-4587585572014497, -49)%Z, [25955]%N);
   ((-3013473419612809, -48)%Z, [25964]%N);
   ((-3141549997330325, -49)%Z, [25968; 25976]%N);
   ((-7716214541217417, -50)%Z, [25972]%N);
   ((-5911241779065971, -50)%Z, [25991]%N);
   ((-5189446364131279, -49)%Z, [26001; 39164; 39282]%N);
   ((-367028289357545, -45)%Z, [26023; 35565; 35861]%N);
   ((-4876859451995235, -49)%Z, [26029; 26039]%N);
   ((-202571005640071, -45)%Z, [26032]%N);
   ((-5474265935037279, -50)%Z, [26041]%N);
   ((-8942986797484719, -50)%Z, [26053]%N);
   ((-4984728561137207, -49)%Z, [26059; 30140]%N);
   ((-1034567213917, -37)%Z, [26071]%N);
   ((-2108958878479243, -48)%Z, [26080; 28961]%N);
   ((-408109743765281, -45)%Z, [26082; 26586; 29923; 30130; 33040; 33229; 34770; 35109; 36118; 36174; 36941; 37030;
     37406; 37499; 38055; 38124; 39028; 39079]%N);
   ((-1825545624052635, -48)%Z, [26085]%N);
   ((-4686711238990999, -49)%Z, [26087; 33290]%N);
   ((-4749110831864121, -49)%Z, [26089; 26222; 30828]%N);
   ((-5152742699846315, -49)%Z, [26097]%N);
   ((-2610772662520301, -49)%Z, [26102; 26178]%N);
   ((-8586935302206987, -50)%Z, [26126]%N);
   ((-8444607768640443, -50)%Z, [26143]%N);
   ((-4368163476973569, -49)%Z, [26149]%N);
   ((-5425189074787423, -49)%Z, [26159]%N);
   ((-4570982627397485, -49)%Z, [26202]%N);
   ((-5403022827352519, -49)%Z, [26216]%N);
   ((-8741178484598225, -50)%Z, [26223]%N);
   ((-5725717810295663, -49)%Z, [26228; 28149; 28170; 33151]%N);
   ((-2330995832764765, -48)%Z, [26230]%N);
   ((-8824029082792991, -50)%Z, [26234]%N);
   ((-5061601144004329, -49)%Z, [26262]%N);
   ((-8966920682011191, -50)%Z, [26354]%N);
   ((-4566784253383485, -49)%Z, [26368; 36575; 36719]%N);
   ((-437735579413515, -46)%Z, [26376]%N);
   ((-909639602331451, -47)%Z, [26377]%N);
   ((-8500688711008839, -50)%Z, [26379]%N);
   ((-4266852665455633, -49)%Z, [26381]%N);
   ((-6160021890826197, -49)%Z, [26388]%N);
   ((-2651827360539221, -48)%Z, [26395]%N);
   ((-4034280082992697, -49)%Z, [26397]%N);
   ((-7386320401891175, -50)%Z, [26399]%N);
   ((-1968718212185523, -48)%Z, [26408]%N);
   ((-7790286070095719, -50)%Z, [26412]%N);
   ((-5523772107551843, -49)%Z, [26417; 26460]%N);
   ((-5933157045866985, -49)%Z, [26420; 26999; 27192; 33098; 33240]%N);
   ((-5555726102454279, -50)%Z, [26426; 27231]%N);
   ((-2556858702322255, -48)%Z, [26432; 27578; 34255]%N);
   ((-8408886930959005, -50)%Z, [26434; 38620]%N);
   ((-7368633309571949, -50)%Z, [26435; 27402]%N);
   ((-5184264671171333, -49)%Z, [26438; 26751]%N);
   ((-5693861894088777, -49)%Z, [26446; 27850; 33043; 33215; 35559; 35856]%N);
   ((-1427625505108461, -47)%Z, [26447; 31391]%N);
   ((-1983033234233791, -48)%Z, [26448]%N);
   ((-1007380749784621, -47)%Z, [26449]%N);
   ((-623805479772499, -46)%Z, [26464; 27091]%N);
   ((-6828198323082607, -50)%Z, [26465; 26781]%N);
   ((-5567151195461337, -49)%Z, [26472; 26954]%N);
   ((-2705341064271793, -48)%Z, [26479]%N);
   ((-4840500820123229, -49)%Z, [26494]%N);
   ((-7333076684015553, -50)%Z, [26495]%N);
   ((-4535906995510955, -49)%Z, [26497; 26997]%N);
   ((-1134209854501805, -47)%Z, [26500; 27083]%N);
   ((-5503924577654845, -49)%Z, [26517; 38901; 38907]%N);
   ((-4390920936943289, -49)%Z, [26519]%N);
   ((-2229887779178037, -48)%Z, [26524]%N);
   ((-5226323935941365, -49)%Z, [26525]%N);
   ((-2366012526472219, -48)%Z, [26530; 27166; 33541]%N);
   ((-2286858001329159, -48)%Z, [26538; 27085]%N);
   ((-5489801945381137, -49)%Z, [26543]%N);
   ((-2643303961005179, -48)%Z, [26550]%N);
   ((-675106682585697, -46)%Z, [26577]%N);
   ((-2673107640229105, -48)%Z, [26611; 28065; 28198]%N);
   ((-4858386655172331, -49)%Z, [26612]%N);
   ((-6010722374694481, -49)%Z, [26623; 38331; 38414]%N);
   ((-7093332843933393, -50)%Z, [26631; 27161]%N);
   ((-5404110653687967, -49)%Z, [26639; 27396; 37610; 38138]%N);
   ((-8281659564465783, -50)%Z, [26641; 27193]%N);
   ((-3061844966678961, -48)%Z, [26647; 27424; 30571; 32932; 33178]%N);
   ((-2114035451355629, -48)%Z, [26657]%N);
   ((-8114585344147135, -50)%Z, [26679; 27171]%N);
   ((-7579897812593637, -50)%Z, [26680]%N);
   ((-8845540142570863, -50)%Z, [26681; 34507]%N);
   ((-8506030735821275, -50)%Z, [26684]%N);
   ((-1286799087505657, -47)%Z, [26691; 29378]%N);
   ((-3148081639026667, -48)%Z, [26693; 27584; 27585; 30977; 32412; 32518; 32843; 32894; 35380; 35785]%N);
   ((-317979795236377, -45)%Z, [26694; 31227]%N);
   ((-1096788242749231, -47)%Z, [26696]%N);
   ((-2400737300444259, -48)%Z, [26700]%N);
   ((-5521084990500367, -49)%Z, [26705]%N);
   ((-1215841218594825, -47)%Z, [26723; 27284]%N);
   ((-4956008107447875, -49)%Z, [26725; 27211]%N);
   ((-1264808951146437, -47)%Z, [26757; 28304; 30967]%N);
   ((-5149962694426767, -49)%Z, [26799]%N);
   ((-2458093484652787, -48)%Z, [26816; 27298]%N);
   ((-4236902204123587, -49)%Z, [26825]%N);
   ((-5309146959309505, -49)%Z, [26827; 30717; 30789]%N);
   ((-5636739666215283, -49)%Z, [26834; 32016; 32445]%N);
   ((-1287317458214543, -47)%Z, [26837]%N);
   ((-5898045671089653, -49)%Z, [26842; 34952]%N);
   ((-8663360511348251, -50)%Z, [26862]%N);
   ((-2963805348021649, -48)%Z, [26865; 27264; 33832; 34217; 38497; 38774]%N);
   ((-4720592546104527, -49)%Z, [26874]%N);
   ((-623155717591969, -46)%Z, [26885]%N);
   ((-950458791881531, -47)%Z, [26893]%N);
   ((-2562107805054443, -48)%Z, [26925; 27234]%N);
   ((-2648657053754883, -48)%Z, [26970]%N);
   ((-8422411416784791, -50)%Z, [27004; 27155]%N);
   ((-3852960422730031, -49)%Z, [27010]%N);
   ((-1335331071429585, -47)%Z, [27036]%N);
   ((-5795407759184795, -49)%Z, [27048; 27979; 28204; 33455; 38684; 40860; 40863]%N);
   ((-2536184954656793, -48)%Z, [27054; 33635]%N);
   ((-798534806818707, -46)%Z, [27133; 29313; 31821; 31923; 33464]%N);
   ((-3816243477131179, -49)%Z, [27169]%N);
   ((-4999923107203729, -49)%Z, [27178; 27243]%N);
   ((-5635096015548607, -49)%Z, [27185; 27387; 29483; 35987; 40232; 40493]%N);
   ((-4719623335041441, -49)%Z, [27233]%N);
   ((-6317817869053633, -49)%Z, [27249; 27365; 30844; 36867; 38675]%N);
   ((-4705281915302603, -49)%Z, [27425]%N);
   ((-365799015958391, -45)%Z, [27426; 27489; 28919]%N);
   ((-4621522753023421, -49)%Z, [27431; 27472]%N);
   ((-5363169882031577, -49)%Z, [27442]%N);
   ((-6328965757167637, -49)%Z, [27463; 29432; 33134; 33324; 34560]%N);
   ((-2213200701268765, -48)%Z, [27468]%N);
   ((-2050042325290475, -48)%Z, [27491]%N);
   ((-522179861958715, -46)%Z, [27493]%N);
   ((-1889305849149051, -48)%Z, [27494]%N);
   ((-5985698257025735, -49)%Z, [27513; 33218; 37782; 38145]%N);
   ((-146336471379293, -44)%Z, [27531; 27544]%N);
   ((-2326371909863245, -48)%Z, [27542]%N);
   ((-3003766424006337, -48)%Z, [27575; 27931; 34814; 37321]%N);
   ((-2713727235005607, -48)%Z, [27583; 36394]%N);
   ((-3145438662080377, -48)%Z, [27589; 31177; 31957]%N);
   ((-7947129252444829, -50)%Z, [27597]%N);
   ((-8931413568788037, -50)%Z, [27602]%N);
   ((-7350310693544681, -50)%Z, [27604]%N);
   ((-8392461384559147, -50)%Z, [27611]%N);
   ((-5719963586907197, -49)%Z, [27627; 38597]%N);
   ((-6626473651740575, -50)%Z, [27665]%N);
   ((-1658028717810803, -48)%Z, [27668; 27683]%N);
   ((-5426320632863729, -49)%Z, [27675; 29611]%N);
   ((-316313054798183, -45)%Z, [27682; 27691]%N);
   ((-4822003072232569, -49)%Z, [27687]%N);
   ((-2544148869343035, -48)%Z, [27688]%N);
   ((-2612765244893435, -48)%Z, [27695]%N);
   ((-1435284038128995, -48)%Z, [27700]%N);
   ((-2803932054264493, -48)%Z, [27704]%N);
   ((-4237724429128695, -49)%Z, [27721; 28450]%N);
   ((-1292608964504701, -47)%Z, [27735; 32701; 39486; 39585]%N);
   ((-8837567120534171, -50)%Z, [27743]%N);
   ((-5037815073098853, -49)%Z, [27745; 35492; 35823]%N);
   ((-88658907233837, -43)%Z, [27748; 28271; 34321; 36864]%N);
   ((-44995977117635, -42)%Z, [27754; 32752]%N);
   ((-451375235981775, -46)%Z, [27773]%N);
   ((-2484715033306961, -48)%Z, [27785]%N);
   ((-8042680612511617, -50)%Z, [27801]%N);
   ((-3090633903353123, -48)%Z, [27815; 28356; 30196; 33452]%N);
   ((-907561695341105, -47)%Z, [27827]%N);
   ((-477494111068271, -46)%Z, [27833]%N);
   ((-5536025431883515, -49)%Z, [27849]%N);
   ((-6736057748578909, -50)%Z, [27861]%N);
   ((-4419730172148819, -49)%Z, [27874]%N);
   ((-1119177691629339, -47)%Z, [27877]%N);
   ((-2459469893149585, -48)%Z, [27880]%N);
   ((-4767433817123011, -49)%Z, [27882; 28122]%N);
   ((-2664401534562351, -48)%Z, [27888; 36777; 36783]%N);
   ((-25444910571751, -41)%Z, [27901; 28580; 30520; 30970; 37066; 39509; 39556]%N);
   ((-4671097759488385, -49)%Z, [27915]%N);
   ((-2627829684425951, -48)%Z, [27927]%N);
   ((-4649884748302119, -49)%Z, [27934]%N);
   ((-4754236360018697, -49)%Z, [27946]%N);
   ((-134308619194085, -44)%Z, [27963]%N);
   ((-623479848723221, -46)%Z, [27966]%N);
   ((-6924952755468145, -50)%Z, [27969]%N);
   ((-5154836750444723, -49)%Z, [27973; 28154; 36070; 36171; 37832; 38142]%N);
   ((-5729586897370579, -49)%Z, [27974; 28479; 37648; 38181]%N);
   ((-4868808092238213, -49)%Z, [27985; 28222]%N);
   ((-4861285263763795, -49)%Z, [27987; 28611]%N);
   ((-2499430969134273, -48)%Z, [28010]%N);
   ((-2475802152195005, -48)%Z, [28014]%N);
   ((-1573883511863075, -48)%Z, [28023]%N);
   ((-7030278159609279, -50)%Z, [28040]%N);
   ((-5701196850670323, -49)%Z, [28070; 28516]%N);
   ((-7719853703706667, -50)%Z, [28072; 28466]%N);
   ((-8859340927091413, -50)%Z, [28082]%N);
   ((-5970604860892721, -49)%Z, [28085; 28925]%N);
   ((-650851968569775, -46)%Z, [28107]%N);
   ((-4764280027622833, -49)%Z, [28129; 31361]%N);
   ((-3011832161454127, -48)%Z, [28139; 40605]%N);
   ((-4369375053051975, -49)%Z, [28145]%N);
   ((-2302214990150407, -48)%Z, [28151]%N);
   ((-5833779920632929, -49)%Z, [28155; 28845; 37239]%N);
   ((-3929607563213579, -49)%Z, [28165]%N);
   ((-1134501780531293, -47)%Z, [28180; 28417]%N);
   ((-570327119801031, -46)%Z, [28192]%N);
   ((-637212014975081, -46)%Z, [28196; 29943]%N);
   ((-1981051156389537, -48)%Z, [28201; 28331]%N);
   ((-1066064771362309, -47)%Z, [28207]%N);
   ((-2044407321699293, -48)%Z, [28216; 36938]%N);
   ((-8468885420247345, -50)%Z, [28246]%N);
   ((-5810892624150959, -49)%Z, [28291; 28528]%N);
   ((-2482709860255623, -48)%Z, [28322]%N);
   ((-4608654765258211, -49)%Z, [28342]%N);
   ((-5257334816378567, -49)%Z, [28369]%N);
   ((-6139548727234161, -49)%Z, [28382; 28399; 34479]%N);
   ((-4777360144007259, -49)%Z, [28385; 28415]%N);
   ((-5223156839242445, -49)%Z, [28392; 28657]%N);
   ((-2809459089734317, -48)%Z, [28393; 28760; 32224; 32532]%N);
   ((-5552789448377895, -49)%Z, [28422]%N);
   ((-5592439857285995, -49)%Z, [28431; 29237]%N);
   ((-281678548775607, -45)%Z, [28436]%N);
   ((-5862532550061631, -49)%Z, [28448; 36779; 36782; 37440; 38078]%N);
   ((-5819936191382209, -49)%Z, [28459; 32918; 35443; 35814; 37624; 38191; 40255; 40509]%N);
   ((-8672145210583365, -50)%Z, [28507; 28508]%N);
   ((-2448863970037339, -48)%Z, [28526]%N);
   ((-5455375065715463, -49)%Z, [28595]%N);
   ((-8563262815368687, -50)%Z, [28608]%N);
   ((-2554270408436381, -48)%Z, [28689]%N);
   ((-4847749202922483, -49)%Z, [28748]%N);
   ((-1773212690760265, -48)%Z, [28779]%N);
   ((-4515325704272673, -49)%Z, [28783; 29128]%N);
   ((-4617469820086093, -49)%Z, [28784]%N);
   ((-2265403048062189, -48)%Z, [28789; 38728]%N);
   ((-5509149208691031, -49)%Z, [28809; 29200]%N);
   ((-180768820187375, -44)%Z, [28810; 34636; 36106; 36190]%N);
   ((-5436608329478589, -49)%Z, [28814; 31607]%N);
   ((-4307728074702373, -49)%Z, [28846]%N);
   ((-2417463506337345, -48)%Z, [28856]%N);
   ((-4748091302542137, -49)%Z, [28857; 40670]%N);
   ((-5617325675002339, -49)%Z, [28860; 29001; 32034]%N);
   ((-5040662575140763, -49)%Z, [28872; 33032; 33033]%N);
   ((-8621685210421105, -50)%Z, [28895; 29017]%N);
   ((-86806759937569, -43)%Z, [28900]%N);
   ((-5115670963412679, -49)%Z, [28903; 29138]%N);
   ((-3729047534081601, -49)%Z, [28909; 29105]%N);
   ((-4633582512139523, -49)%Z, [28966]%N);
   ((-1938973388554327, -48)%Z, [29028]%N);
   ((-1117769522688365, -47)%Z, [29031]%N);
   ((-5394395072985665, -49)%Z, [29074; 33639]%N);
   ((-623870787196377, -46)%Z, [29076; 33034]%N);
   ((-5307310253101355, -49)%Z, [29087]%N);
   ((-4340170381089469, -49)%Z, [29123]%N);
   ((-2580229634313671, -48)%Z, [29141]%N);
   ((-3989131856145325, -49)%Z, [29151; 33829]%N);
   ((-5887668419582539, -49)%Z, [29226; 32763]%N);
   ((-929375000452411, -47)%Z, [29238]%N);
   ((-2463873461396829, -48)%Z, [29239; 29242]%N);
   ((-4751155446533317, -49)%Z, [29240]%N);
   ((-5653445638510881, -49)%Z, [29241]%N);
   ((-2589565119304987, -48)%Z, [29255]%N);
   ((-299490705651571, -45)%Z, [29256]%N);
   ((-4923557941430431, -49)%Z, [29260]%N);
   ((-4810126858695171, -49)%Z, [29273]%N);
   ((-8663684651240181, -50)%Z, [29275]%N);
   ((-5739377578120141, -49)%Z, [29282]%N);
   ((-5703045620651865, -49)%Z, [29286; 29339; 31687]%N);
   ((-4616125300809715, -49)%Z, [29287]%N);
   ((-6694077476691025, -50)%Z, [29289]%N);
   ((-2520045960656227, -48)%Z, [29298; 40403; 40551]%N);
   ((-6805441936436437, -50)%Z, [29305]%N);
   ((-2945122427036223, -48)%Z, [29312]%N);
   ((-1877222758449637, -48)%Z, [29366; 29376]%N);
   ((-1346211081580371, -47)%Z, [29369; 29494]%N);
   ((-5626948985465721, -49)%Z, [29392; 31614; 31805]%N);
   ((-1327747419414997, -47)%Z, [29399; 33459; 34218]%N);
   ((-5544345040741557, -49)%Z, [29417; 35584; 35851]%N);
   ((-2397028749080499, -48)%Z, [29420; 29544]%N);
   ((-2556533860997441, -48)%Z, [29422; 29509]%N);
   ((-4971446004143071, -49)%Z, [29454; 29557]%N);
   ((-2744267732880831, -48)%Z, [29467]%N);
   ((-5049872595752799, -49)%Z, [29482; 35948]%N);
   ((-8433983486863747, -50)%Z, [29577]%N);
   ((-3767022644052921, -49)%Z, [29579]%N);
   ((-2390654083756313, -48)%Z, [29609; 32925]%N);
   ((-27791037856813, -42)%Z, [29615; 29872]%N);
   ((-863013722474279, -47)%Z, [29616; 29694]%N);
   ((-4529192727702207, -49)%Z, [29627]%N);
   ((-4989921863220555, -49)%Z, [29642; 30742; 30938]%N);
   ((-4962430598691543, -49)%Z, [29645]%N);
   ((-5051616376042563, -49)%Z, [29664; 32599; 32645]%N);
   ((-2380571904035867, -48)%Z, [29677]%N);
   ((-2271823033485383, -48)%Z, [29699]%N);
   ((-6731619548178405, -50)%Z, [29702]%N);
   ((-5549960548186665, -49)%Z, [29749]%N);
   ((-5368255282046541, -49)%Z, [29916]%N);
   ((-2616757864697445, -48)%Z, [29926; 32592]%N);
   ((-1186092186613587, -47)%Z, [29976]%N);
   ((-2582001037118615, -48)%Z, [29980]%N);
   ((-6300490735273875, -50)%Z, [29983]%N);
   ((-474639149700583, -46)%Z, [29992]%N);
   ((-2328674376499029, -48)%Z, [30000]%N);
   ((-2860300644517597, -49)%Z, [30005; 38651]%N);
   ((-7604935533417593, -50)%Z, [30007]%N);
   ((-8597278686714453, -50)%Z, [30011; 30059]%N);
   ((-1187447886328187, -47)%Z, [30028]%N);
   ((-5623722902405225, -49)%Z, [30041; 33268]%N);
   ((-4718011682198849, -49)%Z, [30044]%N);
   ((-357023853421609, -45)%Z, [30058; 30697; 32191; 32501]%N);
   ((-2624917130963743, -48)%Z, [30072]%N);
   ((-1316021730188243, -47)%Z, [30086]%N);
   ((-5757441693302277, -49)%Z, [30095]%N);
   ((-1193893675055643, -47)%Z, [30097]%N);
   ((-4949172551349909, -49)%Z, [30103; 30274]%N);
   ((-4547436990073591, -49)%Z, [30123]%N);
   ((-8584817526667129, -50)%Z, [30142]%N);
   ((-7502862725003025, -50)%Z, [30149]%N);
   ((-4568262459799801, -49)%Z, [30151]%N);
   ((-2789455184389171, -48)%Z, [30171; 37195; 38472; 38515; 38519]%N);
   ((-5534650706039367, -49)%Z, [30284]%N);
   ((-5398692421742263, -49)%Z, [30331]%N);
   ((-7124210367133595, -50)%Z, [30333]%N);
   ((-7702326368244751, -50)%Z, [30334]%N);
   ((-6710258964639283, -50)%Z, [30343]%N);
   ((-3956665564932819, -49)%Z, [30382]%N);
   ((-4305248797572365, -49)%Z, [30406]%N);
   ((-8276131403244287, -50)%Z, [30408]%N);
   ((-565547522622689, -46)%Z, [30416; 40573]%N);
   ((-564696963385215, -46)%Z, [30417; 30435]%N);
   ((-1392517010280951, -47)%Z, [30422; 30887; 32104; 32466; 33995; 36064; 36180]%N);
   ((-334508820259933, -45)%Z, [30423; 30428]%N);
   ((-4683069501524945, -49)%Z, [30424; 30436]%N);
   ((-2392823458477087, -48)%Z, [30427]%N);
   ((-5052781904312777, -49)%Z, [30431]%N);
   ((-6893831222772361, -50)%Z, [30446; 30524]%N);
   ((-8365524092983407, -50)%Z, [30452]%N);
   ((-1127546143269027, -47)%Z, [30456]%N);
   ((-3964967204221263, -49)%Z, [30465]%N);
   ((-2422459643481945, -48)%Z, [30473]%N);
   ((-4540584629016115, -49)%Z, [30475]%N);
   ((-2086510345769313, -48)%Z, [30495]%N);
   ((-249994013552773, -45)%Z, [30693]%N);
   ((-4678250210854075, -49)%Z, [30701; 33145]%N);
   ((-1719000058454089, -48)%Z, [30707]%N);
   ((-7626277218249037, -50)%Z, [30719; 31014]%N);
   ((-2482959727095565, -48)%Z, [30721; 30908]%N);
   ((-1991060590407655, -48)%Z, [30740]%N);
   ((-4926813340567389, -49)%Z, [30827]%N);
   ((-2773572896277737, -48)%Z, [30830; 30906]%N);
   ((-1252796961528439, -47)%Z, [30862]%N);
   ((-5178400556131377, -49)%Z, [30897; 40572]%N);
   ((-2456496135544727, -48)%Z, [30899]%N);
   ((-1089301366915319, -47)%Z, [30913]%N);
   ((-5305479519932069, -49)%Z, [30952; 34588]%N);
   ((-8561485078304337, -50)%Z, [31036; 31150]%N);
   ((-3102256717670249, -49)%Z, [31038]%N);
   ((-7276738428492831, -50)%Z, [31070]%N);
   ((-5667176805911005, -49)%Z, [31072; 33821; 34367]%N);
   ((-2289989012219521, -48)%Z, [31080]%N);
   ((-5234320518600463, -49)%Z, [31085; 34593; 34847; 36879]%N);
   ((-680300751443775, -46)%Z, [31096; 31117]%N);
   ((-4959457264560683, -49)%Z, [31105]%N);
   ((-5345233676105891, -49)%Z, [31109; 31146]%N);
   ((-2351541751324395, -48)%Z, [31119]%N);
   ((-2355328467314877, -48)%Z, [31163; 33510; 38626]%N);
   ((-2870678157307903, -48)%Z, [31165]%N);
   ((-2571878713483983, -48)%Z, [31179; 38829]%N);
   ((-3917753894709127, -49)%Z, [31181; 31278]%N);
   ((-3396408832696693, -49)%Z, [31185]%N);
   ((-8198023503091307, -50)%Z, [31192]%N);
   ((-2468822081541963, -48)%Z, [31199]%N);
   ((-5229508951245931, -49)%Z, [31206; 31895]%N);
   ((-6036910815329303, -49)%Z, [31207; 31353]%N);
   ((-4452699419805967, -49)%Z, [31215; 31309]%N);
   ((-2429399914734309, -48)%Z, [31216; 31281]%N);
   ((-8578187475936989, -50)%Z, [31237; 31246]%N);
   ((-7387780848560861, -50)%Z, [31243]%N);
   ((-4838105284791727, -49)%Z, [31283; 31337]%N);
   ((-2531988231893781, -48)%Z, [31291]%N);
   ((-686383910081303, -46)%Z, [31295]%N);
   ((-5869956173507923, -49)%Z, [31348; 37233; 37257; 37292; 38296; 38392]%N);
   ((-3442557094352425, -49)%Z, [31354]%N);
   ((-5271781117338653, -49)%Z, [31377; 31407]%N);
   ((-4873879747742637, -49)%Z, [31383]%N);
   ((-5493618569853767, -49)%Z, [31389; 31401; 36077; 36172; 36843; 36861]%N);
   ((-4703397036465539, -49)%Z, [31435]%N);
   ((-369792455344657, -45)%Z, [31446; 35918]%N);
   ((-4719946220025011, -49)%Z, [31454; 31478]%N);
   ((-643055441628629, -46)%Z, [31456]%N);
   ((-5195427296388007, -49)%Z, [31471]%N);
   ((-4636916875017379, -49)%Z, [31481]%N);
   ((-4490291823591285, -49)%Z, [31505]%N);
   ((-2479975865477361, -48)%Z, [31526]%N);
   ((-2955646081755351, -48)%Z, [31548; 31840]%N);
   ((-8944649870027635, -50)%Z, [31561; 36650; 36718]%N);
   ((-4809369187041873, -49)%Z, [31572]%N);
   ((-1060843834782297, -47)%Z, [31574]%N);
   ((-176723244678231, -44)%Z, [31605]%N);
   ((-2546332065702945, -48)%Z, [31616; 31777]%N);
   ((-8047359003298747, -50)%Z, [31649]%N);
   ((-5603192297871001, -49)%Z, [31661; 33329; 33369]%N);
   ((-5098328292751327, -49)%Z, [31665]%N);
   ((-1024860166454157, -47)%Z, [31680; 33410]%N);
   ((-957408403526481, -47)%Z, [31684; 33539]%N);
   ((-2937480103021213, -48)%Z, [31686]%N);
   ((-5284843187168889, -49)%Z, [31726; 31811]%N);
   ((-5082118204040961, -49)%Z, [31859]%N);
   ((-8181636427531635, -50)%Z, [31867; 39006]%N);
   ((-3365273021660677, -48)%Z, [31869; 33592; 33707; 34191; 34261; 34558; 37484; 38076; 38593]%N);
   ((-4947718525694159, -49)%Z, [31881]%N);
   ((-4698090565675735, -49)%Z, [31896]%N);
   ((-4160687531767005, -49)%Z, [31918; 31975]%N);
   ((-3719408216156201, -49)%Z, [31934]%N);
   ((-4566538262576241, -49)%Z, [31958]%N);
   ((-3412292242325507, -49)%Z, [31995]%N);
   ((-5072974257147711, -49)%Z, [31998; 32416; 33292]%N);
   ((-1109947358865435, -47)%Z, [32000; 32426]%N);
   ((-3725282338887791, -49)%Z, [32005; 32418]%N);
   ((-5380651011190327, -49)%Z, [32011; 32441]%N);
   ((-2522624375419377, -48)%Z, [32013; 32435]%N);
   ((-4522785098079119, -49)%Z, [32025; 32440]%N);
   ((-4921244128253561, -49)%Z, [32026; 32423]%N);
   ((-2337927974534959, -48)%Z, [32032]%N);
   ((-8571895004989031, -50)%Z, [32033; 32442]%N);
   ((-5482245456710385, -49)%Z, [32039; 32202]%N);
   ((-4573466964851371, -49)%Z, [32043]%N);
   ((-7498708108086415, -50)%Z, [32048; 32454]%N);
   ((-4529883605211813, -49)%Z, [32066; 32456]%N);
   ((-7881507925917, -40)%Z, [32068; 32452]%N);
   ((-6274873315159881, -50)%Z, [32080; 32467]%N);
   ((-1211129043012459, -47)%Z, [32085; 32477]%N);
   ((-5104297166846789, -50)%Z, [32147; 32463]%N);
   ((-1198422298980305, -47)%Z, [32156; 32508]%N);
   ((-8544735116584213, -50)%Z, [32160; 32511]%N);
   ((-2321540822461943, -48)%Z, [32173; 32500]%N);
   ((-5064571863053451, -49)%Z, [32177; 32434]%N);
   ((-7518580522007581, -50)%Z, [32178; 32593]%N);
   ((-4325555918653175, -49)%Z, [32218; 32447]%N);
   ((-5086436745409733, -49)%Z, [32227; 32536]%N);
   ((-8088610968207271, -50)%Z, [32232; 32534]%N);
   ((-2946416567139903, -48)%Z, [32233; 32531]%N);
   ((-5358130009932941, -49)%Z, [32239; 32428]%N);
   ((-5317487111162183, -49)%Z, [32299; 32541]%N);
   ((-2646861354033257, -48)%Z, [32302; 32553]%N);
   ((-1239370932678319, -47)%Z, [32305; 32437]%N);
   ((-5093290675659125, -49)%Z, [32340; 32455]%N);
   ((-1280558056488693, -47)%Z, [32361; 32499]%N);
   ((-304012429653927, -45)%Z, [32362; 32472]%N);
   ((-5007407832224257, -49)%Z, [32380; 32487]%N);
   ((-5855205549189179, -49)%Z, [32396; 32493]%N);
   ((-4604956347757041, -49)%Z, [32406; 32420]%N);
   ((-4553171674164673, -49)%Z, [32570]%N);
   ((-1158742357671591, -47)%Z, [32618]%N);
   ((-5239173565495487, -49)%Z, [32622]%N);
   ((-4583768947541867, -49)%Z, [32650]%N);
   ((-7980382057048835, -50)%Z, [32654]%N);
   ((-476240309826747, -46)%Z, [32676]%N);
   ((-1362066006095789, -47)%Z, [32709]%N);
   ((-1551967204007971, -47)%Z, [32736; 34691; 39025; 39045]%N);
   ((-95663645730901, -44)%Z, [32769]%N);
   ((-146583850705491, -44)%Z, [32771]%N);
   ((-1205888474882827, -47)%Z, [32789]%N);
   ((-702764595919309, -46)%Z, [32791; 34434; 34718; 38797]%N);
   ((-4426785014104961, -49)%Z, [32819]%N);
   ((-7471395673420439, -50)%Z, [32844; 32887]%N);
   ((-8097202684526939, -50)%Z, [32852; 32879]%N);
   ((-2295714124366467, -48)%Z, [32905]%N);
   ((-6112082306587561, -49)%Z, [32907; 34281; 35582; 35834; 39748]%N);
   ((-1155788032934887, -47)%Z, [32908]%N);
   ((-2418853509047119, -48)%Z, [32922]%N);
   ((-168110619867445, -45)%Z, [32929]%N);
   ((-2488768748399275, -48)%Z, [32933]%N);
   ((-4855913957404353, -49)%Z, [32937]%N);
   ((-4950630342289937, -49)%Z, [32954]%N);
   ((-2255760608917825, -48)%Z, [32958; 33102]%N);
   ((-4963923175668653, -49)%Z, [32959; 33014; 33131; 33184; 37857; 38236]%N);
   ((-2508589814661549, -48)%Z, [32963]%N);
   ((-4754923303305183, -49)%Z, [32966; 33213]%N);
   ((-4112791883371161, -49)%Z, [32972]%N);
   ((-1243620877815277, -47)%Z, [32974]%N);
   ((-8286751001292341, -50)%Z, [32982]%N);
   ((-5039521845361539, -49)%Z, [32986]%N);
   ((-8937185312916567, -50)%Z, [32993]%N);
   ((-2665355687939455, -48)%Z, [33008]%N);
   ((-618585932340943, -46)%Z, [33011]%N);
   ((-2259804213638283, -48)%Z, [33016]%N);
   ((-1641768193152519, -48)%Z, [33021]%N);
   ((-585648873043081, -46)%Z, [33026]%N);
   ((-5283083967132789, -49)%Z, [33039; 33247]%N);
   ((-8439283096115867, -50)%Z, [33041; 33126]%N);
   ((-4840901068951623, -49)%Z, [33046]%N);
   ((-2116608490469795, -48)%Z, [33050; 33139]%N);
   ((-4335256617392009, -49)%Z, [33080; 33225]%N);
   ((-1213158457965647, -47)%Z, [33136; 35712; 35835]%N);
   ((-2825032273772969, -48)%Z, [33146; 37034]%N);
   ((-5905956105042999, -49)%Z, [33203]%N);
   ((-5628568986449637, -49)%Z, [33216]%N);
   ((-5180592447103265, -49)%Z, [33251; 38795]%N);
   ((-3784466284217431, -49)%Z, [33258]%N);
   ((-5058056851372821, -49)%Z, [33286; 36671]%N);
   ((-8771805132034099, -50)%Z, [33310]%N);
   ((-7296392802752223, -50)%Z, [33322]%N);
   ((-4518026788799301, -49)%Z, [33328; 33382]%N);
   ((-8284202404880459, -50)%Z, [33337]%N);
   ((-1183750688947779, -47)%Z, [33391]%N);
   ((-1067836897289349, -47)%Z, [33394]%N);
   ((-3905992513426055, -49)%Z, [33402; 34269]%N);
   ((-5527826986692281, -49)%Z, [33437; 33738]%N);
   ((-4815459306785139, -49)%Z, [33446; 34310]%N);
   ((-2674585202554903, -48)%Z, [33453; 34966]%N);
   ((-939910526184033, -47)%Z, [33457]%N);
   ((-2659210734072921, -48)%Z, [33485; 33980]%N);
   ((-2564769526796463, -48)%Z, [33487; 34311]%N);
   ((-1456703875622231, -47)%Z, [33492; 35258; 35273]%N);
   ((-2185903028005847, -48)%Z, [33521]%N);
   ((-1262033550069875, -47)%Z, [33529; 34315]%N);
   ((-8154912534715749, -50)%Z, [33590]%N);
   ((-7797773129916319, -50)%Z, [33609]%N);
   ((-4663450463841119, -49)%Z, [33618; 36873; 36984]%N);
   ((-7730417675997017, -50)%Z, [33647; 34277]%N);
   ((-5123553705325493, -49)%Z, [33655]%N);
   ((-2457864736182895, -48)%Z, [33714; 34030]%N);
   ((-699436385501925, -46)%Z, [33740]%N);
   ((-5743342030796097, -49)%Z, [33828; 34722; 36234]%N);
   ((-1192828149549419, -47)%Z, [33853]%N);
   ((-4378457905242139, -49)%Z, [33879]%N);
   ((-1153161126307041, -47)%Z, [33889]%N);
   ((-8291399645001239, -50)%Z, [33891]%N);
   ((-2448421399228063, -48)%Z, [33976]%N);
   ((-5295515543828385, -49)%Z, [33988; 34453; 34870]%N);
   ((-4577214149443983, -49)%Z, [34013; 34253]%N);
   ((-5941580394343389, -49)%Z, [34103; 34196]%N);
   ((-3167311796634117, -48)%Z, [34152; 39745]%N);
   ((-2522049349730707, -48)%Z, [34180]%N);
   ((-2592500999655017, -48)%Z, [34382]%N);
   ((-621053099821603, -46)%Z, [34394; 34395]%N);
   ((-5514422783119221, -49)%Z, [34568]%N);
   ((-5780337453224399, -49)%Z, [34584; 36637; 36745]%N);
   ((-5979612252308425, -49)%Z, [34647; 35961]%N);
   ((-2922791119362899, -48)%Z, [34649]%N);
   ((-7653833529691737, -50)%Z, [34880]%N);
   ((-5645873526151921, -50)%Z, [34892]%N);
   ((-4680654699094393, -49)%Z, [34905]%N);
   ((-4034566790385409, -49)%Z, [34915]%N);
   ((-4564329169015141, -49)%Z, [34917; 35036]%N);
   ((-3886038524688859, -49)%Z, [34920]%N);
   ((-1379602659724673, -47)%Z, [34924; 35183]%N);
   ((-5885103722875881, -49)%Z, [34972; 35178]%N);
   ((-4437829301331621, -49)%Z, [34987; 36556; 36712]%N);
   ((-2511064940322493, -48)%Z, [35010]%N);
   ((-7509937679451733, -50)%Z, [35013; 35037]%N);
   ((-2407538368997365, -48)%Z, [35041; 37324]%N);
   ((-5076005766645941, -49)%Z, [35044; 35122]%N);
   ((-5245710067998891, -49)%Z, [35088]%N);
   ((-5214538091234253, -49)%Z, [35126]%N);
   ((-7794173127147089, -50)%Z, [35199]%N);
   ((-4159015638440579, -49)%Z, [35201]%N);
   ((-5173319090715329, -49)%Z, [35206]%N);
   ((-4861700571752695, -49)%Z, [35211; 35265]%N);
   ((-6031393207422161, -50)%Z, [35215; 35268]%N);
   ((-8635195543033661, -50)%Z, [35222; 35270]%N);
   ((-3876140248527295, -49)%Z, [35264; 35266]%N);
   ((-2033313021562287, -48)%Z, [35282]%N);
   ((-4729063017709337, -49)%Z, [35328]%N);
   ((-4910721392845025, -49)%Z, [35330; 35746; 37670; 38182]%N);
   ((-7079673786404851, -50)%Z, [35336; 35745]%N);
   ((-5530546556973721, -49)%Z, [35347; 35757]%N);
   ((-1681785180393721, -48)%Z, [35352; 35760]%N);
   ((-3748318267268165, -49)%Z, [35373; 35774]%N);
   ((-351583352061535, -45)%Z, [35377; 35768]%N);
   ((-2721786373811297, -48)%Z, [35412; 35791]%N);
   ((-4522330189001095, -49)%Z, [35413; 35780]%N);
   ((-4763930694720887, -49)%Z, [35422; 35789]%N);
   ((-4853042803877249, -49)%Z, [35430; 35797; 38544; 38577]%N);
   ((-8117974509772487, -50)%Z, [35433; 35799]%N);
   ((-4395984446408611, -49)%Z, [35441; 35805]%N);
   ((-2631619232750273, -48)%Z, [35469; 35748]%N);
   ((-2874670777111913, -48)%Z, [35480; 35825]%N);
   ((-7718592662051401, -50)%Z, [35486; 35821]%N);
   ((-8808437737009709, -50)%Z, [35498; 35828]%N);
   ((-2362895021822203, -48)%Z, [35506; 35838]%N);
   ((-4966920254371909, -49)%Z, [35519; 35843]%N);
   ((-8360807495140925, -50)%Z, [35542; 35770]%N);
   ((-4847344057202641, -49)%Z, [35576; 35832]%N);
   ((-1514345994730335, -47)%Z, [35594; 35854]%N);
   ((-4683977729665081, -49)%Z, [35611; 35762]%N);
   ((-1656499146186617, -47)%Z, [35613; 35874]%N);
   ((-3226863582449597, -49)%Z, [35657; 35777]%N);
   ((-8555285010704303, -50)%Z, [35686]%N);
   ((-8116577735229517, -50)%Z, [35696; 35758]%N);
   ((-4585038282811153, -49)%Z, [35895]%N);
   ((-2198355768591247, -48)%Z, [35910]%N);
   ((-5791060633695911, -49)%Z, [35916]%N);
   ((-5256496469308633, -49)%Z, [35937]%N);
   ((-4917561695149721, -49)%Z, [35946]%N);
   ((-2584141541553463, -48)%Z, [35997; 36125]%N);
   ((-8145870763928369, -50)%Z, [36000; 36127]%N);
   ((-6716682208913007, -50)%Z, [36001; 36130]%N);
   ((-8566231962413375, -50)%Z, [36002; 36129; 38470; 38520]%N);
   ((-2489024054518103, -48)%Z, [36007; 36139]%N);
   ((-1692855598447577, -48)%Z, [36008; 36135]%N);
   ((-4173387553691343, -49)%Z, [36020; 36149]%N);
   ((-7794922179072025, -50)%Z, [36024; 36151]%N);
   ((-2133354131886915, -48)%Z, [36027; 36153]%N);
   ((-1269084830598807, -48)%Z, [36039; 36164]%N);
   ((-5677699541319541, -49)%Z, [36042; 36156; 36628; 36741]%N);
   ((-5200713250280587, -49)%Z, [36066; 36132]%N);
   ((-7868935644567917, -50)%Z, [36074; 36136]%N);
   ((-17042970082965, -41)%Z, [36076; 36134]%N);
   ((-2456268681005715, -48)%Z, [36092; 36141]%N);
   ((-1166155057599749, -47)%Z, [36196]%N);
   ((-7821151155417189, -50)%Z, [36208]%N);
   ((-4611045214512137, -49)%Z, [36229]%N);
   ((-1970493576295911, -48)%Z, [36235; 36264]%N);
   ((-1100365164113485, -47)%Z, [36300]%N);
   ((-8703610853403563, -50)%Z, [36317]%N);
   ((-4687930405582115, -49)%Z, [36321; 36857]%N);
   ((-4125343127297003, -49)%Z, [36335]%N);
   ((-7147325818598809, -50)%Z, [36523]%N);
   ((-5344253780378199, -49)%Z, [36527; 36544]%N);
   ((-1802432028737587, -48)%Z, [36554; 36710]%N);
   ((-5161166048322719, -49)%Z, [36600; 36724]%N);
   ((-5027681700330295, -49)%Z, [36617; 36733]%N);
   ((-4658216387313275, -49)%Z, [36629; 36731]%N);
   ((-5009024731239359, -49)%Z, [36664; 36755]%N);
   ((-5497461246572205, -49)%Z, [36667; 36752]%N);
   ((-2302609858080553, -48)%Z, [36681; 36716]%N);
   ((-2368498338713645, -48)%Z, [36686; 36735]%N);
   ((-1345948266399691, -47)%Z, [36703; 36720]%N);
   ((-5663712487572547, -49)%Z, [36766; 36781; 38505; 38570]%N);
   ((-1289762091437477, -47)%Z, [36771]%N);
   ((-4130080462014123, -49)%Z, [36793; 37002]%N);
   ((-27175621277999, -42)%Z, [36807; 36942]%N);
   ((-6918191402292787, -50)%Z, [36816; 36939]%N);
   ((-4156042409001383, -49)%Z, [36827; 36914]%N);
   ((-2344882060203391, -48)%Z, [36828; 36960]%N);
   ((-4570487072829023, -49)%Z, [36830; 36899]%N);
   ((-5561362455987653, -49)%Z, [36866; 36969; 38548; 38663]%N);
   ((-2625746218387065, -48)%Z, [36870]%N);
   ((-3082103705809717, -48)%Z, [36874; 36956]%N);
   ((-4786736849440667, -49)%Z, [36884]%N);
   ((-7467019319042405, -50)%Z, [36890]%N);
   ((-7881326864161293, -50)%Z, [36895]%N);
   ((-9003145787591575, -50)%Z, [36896]%N);
   ((-145202278748727, -44)%Z, [36923; 37007]%N);
   ((-928304129735083, -47)%Z, [36947]%N);
   ((-7997115106736147, -50)%Z, [36951; 36986]%N);
   ((-4807856896129935, -49)%Z, [36973]%N);
   ((-2899544822184389, -49)%Z, [37096]%N);
   ((-8748844808848105, -50)%Z, [37117]%N);
   ((-4900391746086443, -49)%Z, [37197]%N);
   ((-2420851210666901, -48)%Z, [37240]%N);
   ((-6884579953863585, -50)%Z, [37325]%N);
   ((-8773590857875277, -50)%Z, [37326]%N);
   ((-2508316139407407, -48)%Z, [37327; 40723]%N);
   ((-5997122971014177, -50)%Z, [37329]%N);
   ((-4708754003397781, -49)%Z, [37341; 38024]%N);
   ((-6221538029622575, -50)%Z, [37504; 38134]%N);
   ((-4455721165941623, -49)%Z, [37509; 38108]%N);
   ((-8806227922940469, -50)%Z, [37559; 38144]%N);
   ((-5041233808019225, -49)%Z, [37569; 38109]%N);
   ((-237721551215593, -45)%Z, [37628; 38050]%N);
   ((-1270375991269577, -47)%Z, [37666; 38065]%N);
   ((-4498077655848697, -49)%Z, [37679; 38169]%N);
   ((-2649559217914093, -48)%Z, [37707; 38149]%N);
   ((-3086336491990679, -48)%Z, [37723; 38203]%N);
   ((-3026959830291441, -48)%Z, [37749; 38190]%N);
   ((-7200232784580147, -50)%Z, [37941; 38081]%N);
   ((-7257142390627145, -50)%Z, [38263; 38271]%N);
   ((-7889609756944703, -50)%Z, [38272; 38376]%N);
   ((-165882120535643, -44)%Z, [38275; 38378]%N);
   ((-314475050675759, -45)%Z, [38290; 38386]%N);
   ((-4769899038249887, -49)%Z, [38291; 38388]%N);
   ((-5877479001982341, -49)%Z, [38321; 38405]%N);
   ((-157467260816213, -44)%Z, [38346; 38420; 38596]%N);
   ((-8541240339106239, -50)%Z, [38431; 38538]%N);
   ((-4607066753053077, -49)%Z, [38450]%N);
   ((-4325716234745223, -49)%Z, [38451; 38525]%N);
   ((-8305461858276889, -50)%Z, [38452; 38512]%N);
   ((-2269237441405673, -48)%Z, [38453; 38499]%N);
   ((-7325940046572949, -50)%Z, [38454; 38542]%N);
   ((-4936694036354721, -49)%Z, [38459]%N);
   ((-2130910258207755, -48)%Z, [38463]%N);
   ((-2476045959032865, -48)%Z, [38468]%N);
   ((-2108628081665155, -48)%Z, [38477]%N);
   ((-4850186219513725, -49)%Z, [38480]%N);
   ((-4679751812046925, -49)%Z, [38491]%N);
   ((-7828692581389227, -50)%Z, [38498]%N);
   ((-5548551411146967, -49)%Z, [38504; 38549]%N);
   ((-5564249385152545, -49)%Z, [38506; 40786; 40831]%N);
   ((-5259857374535603, -49)%Z, [38517]%N);
   ((-4686406859446725, -49)%Z, [38518]%N);
   ((-4669914469607799, -49)%Z, [38556]%N);
   ((-633820093603433, -46)%Z, [38567]%N);
   ((-4532192673065321, -49)%Z, [38590; 38627]%N);
   ((-853358194877839, -47)%Z, [38598]%N);
   ((-1183584920391093, -47)%Z, [38613]%N);
   ((-4752522660206977, -49)%Z, [38622; 40481]%N);
   ((-1170918706028457, -47)%Z, [38632]%N);
   ((-4642237008676283, -49)%Z, [38634]%N);
   ((-4688235610226849, -49)%Z, [38646]%N);
   ((-8858955278892115, -50)%Z, [38647]%N);
   ((-7548520745292339, -50)%Z, [38656]%N);
   ((-2626577755112093, -48)%Z, [38712]%N);
   ((-7651456262143075, -50)%Z, [38738]%N);
   ((-4894195693484231, -49)%Z, [38745; 38748]%N);
   ((-1270991238100131, -47)%Z, [38750]%N);
   ((-6739867507488427, -50)%Z, [38754]%N);
   ((-5838471197393491, -49)%Z, [38801; 38851]%N);
   ((-251433118816751, -45)%Z, [38899]%N);
   ((-1395472236727297, -47)%Z, [38913; 39029]%N);
   ((-2367833305972597, -48)%Z, [38914; 39030]%N);
   ((-7085165409604185, -50)%Z, [38917; 39033]%N);
   ((-4891999241406291, -49)%Z, [38918; 39034]%N);
   ((-2861896596597839, -48)%Z, [38920; 39035]%N);
   ((-2102351027632567, -48)%Z, [38928; 39044]%N);
   ((-6617906405851609, -50)%Z, [38936; 39046]%N);
   ((-2301426912239301, -48)%Z, [38971; 39057]%N);
   ((-8329055501976387, -50)%Z, [38988; 39064]%N);
   ((-2239300459613939, -48)%Z, [38989; 39069]%N);
   ((-4539177253399553, -49)%Z, [38991; 39068]%N);
   ((-1136206997616201, -47)%Z, [39015; 39038]%N);
   ((-6304471857157573, -50)%Z, [39080; 39118]%N);
   ((-7815032119122891, -50)%Z, [39131; 39134]%N);
   ((-7376873396900659, -50)%Z, [39135]%N);
   ((-5024344042608167, -49)%Z, [39138; 39269]%N);
   ((-2338975185329373, -48)%Z, [39151; 39277]%N);
   ((-8797431785178609, -50)%Z, [39154; 39278]%N);
   ((-2507496706582063, -48)%Z, [39184]%N);
   ((-1330779164402399, -47)%Z, [39237; 39314]%N);
   ((-7395006571503265, -50)%Z, [39318]%N);
   ((-8463173631685351, -50)%Z, [39321]%N);
   ((-7850364660473945, -50)%Z, [39340; 39532]%N);
   ((-4832555029024627, -49)%Z, [39376; 39547]%N);
   ((-2518056729926697, -48)%Z, [39381; 39550]%N);
   ((-4508407302607279, -49)%Z, [39438; 39569]%N);
   ((-8612974142542689, -50)%Z, [39592]%N);
   ((-3205836952157169, -49)%Z, [39640]%N);
   ((-4882004498806989, -49)%Z, [39740]%N);
   ((-8520211022845871, -50)%Z, [39770; 40060]%N);
   ((-2328241226923871, -48)%Z, [39854; 40092]%N);
   ((-6363798512808659, -49)%Z, [39908; 40114]%N);
   ((-594926123004755, -46)%Z, [40165; 40479]%N);
   ((-5289265440494387, -49)%Z, [40219; 40499]%N);
   ((-1456128261370521, -47)%Z, [40251; 40511]%N);
   ((-6127612945424825, -49)%Z, [40594]%N);
   ((-4931026707080315, -49)%Z, [40613; 40614]%N);
   ((-1155584213220255, -47)%Z, [40635]%N);
   ((-3555250117475841, -49)%Z, [40643; 40644]%N);
   ((-5967634141843599, -49)%Z, [40655]%N);
   ((-3888245597380309, -49)%Z, [40657]%N);
   ((-4434123745213583, -49)%Z, [40763]%N);
   ((-2872667388037433, -48)%Z, [40778; 40784]%N);
   ((-8374013952867297, -50)%Z, [40845; 40857]%N)];
  (* ('B', 'ng') *)
  [
];
  (* ('B', 'nr') *)
  [
   ((-2376218162824509, -48)%Z, [19968; 22818; 23396; 24188; 26790]%N);
   ((-2978848535151507, -49)%Z, [19969]%N);
   ((-763586555235491, -46)%Z, [19971; 23492; 27803; 32771; 37040]%N);
   ((-451014526252629, -46)%Z, [19975; 33836]%N);
   ((-2379398704876451, -48)%Z, [19977]%N);
   ((-4197518012654503, -49)%Z, [19978]%N);
   ((-7051057397191475, -49)%Z, [19981; 23432; 28149; 28170; 28625; 28712; 28779; 29801; 33659; 33721; 34309;
     38750]%N);
   ((-514925469359489, -46)%Z, [19990]%N);
   ((-4137144146337301, -49)%Z, [19992]%N);
   ((-70657426151055, -43)%Z, [19995; 21474; 34180]%N);
   ((-3161774215976705, -49)%Z, [19996; 26481]%N);
   ((-3037281906928091, -48)%Z, [19999; 20002; 20711; 25746; 26280; 26449; 31505]%N);
   ((-885902039121205, -47)%Z, [20005; 22196]%N);
   ((-4505516728360697, -49)%Z, [20013]%N);
   ((-8468172114673465, -50)%Z, [20016; 35920]%N);
   ((-7704250118514527, -50)%Z, [20025]%N);
   ((-4733773292084155, -49)%Z, [20029; 34892; 40599]%N);
   ((-7279313960914933, -49)%Z, [20035; 21073; 21133; 21162; 22521; 23059; 24013; 24037; 24065; 24163; 24311; 24544;
     24688; 26089; 27224; 27571; 27941; 30010; 32241; 32529; 33293; 34382; 37060; 37071; 37087; 40165; 40479]%N);
   ((-1665212556045285, -47)%Z, [20037; 20213; 21448; 24249; 25343; 27886; 33463; 33655; 37044; 37063; 37084]%N);
   ((-6270643051170805, -49)%Z, [20040; 25308; 26381; 27982; 28639; 36033; 36146; 36868; 37326; 40636]%N);
   ((-1917380283481317, -47)%Z, [20041; 20854; 21880; 22030; 22063; 22982; 24066; 25514; 26011; 26093; 26141; 27468;
     28909; 29105; 31601; 32186; 32494; 32681; 33391; 33426; 33609; 34425; 35048; 36229; 36920; 36935; 37030]%N);
   ((-363383120232743, -45)%Z, [20043; 30196; 36911]%N);
   ((-6838938012104829, -50)%Z, [20044; 28879]%N);
   ((-468168620140229, -46)%Z, [20048; 27138]%N);
   ((-7282782238122947, -50)%Z, [20052; 21932]%N);
   ((-6373280963075663, -49)%Z, [20060; 21517; 21592; 21729; 22955; 23215; 26356]%N);
   ((-4856340717173351, -49)%Z, [20061; 38989; 39069]%N);
   ((-4584195707310865, -49)%Z, [20064; 32722]%N);
   ((-738049351389395, -46)%Z, [20070; 26360]%N);
   ((-2964709464391953, -48)%Z, [20080; 22278; 22291; 29255; 36023]%N);
   ((-7884002261362073, -50)%Z, [20094; 20239]%N);
   ((-744450921177341, -46)%Z, [20102; 20189; 20426; 31077; 31168; 31532; 38551]%N);
   ((-1279473615094295, -47)%Z, [20108]%N);
   ((-370798765215805, -46)%Z, [20110]%N);
   ((-3606048818959277, -49)%Z, [20113; 38642]%N);
   ((-5793656760131851, -49)%Z, [20115; 24518; 25014; 31471; 37048; 38816]%N);
   ((-2532946452056027, -48)%Z, [20116; 23452; 35433; 35799]%N);
   ((-8898543771457487, -50)%Z, [20117; 21340]%N);
   ((-3804368073123835, -49)%Z, [20122; 20126]%N);
   ((-5718485268873593, -49)%Z, [20130; 22812; 37021; 37178]%N);
   ((-1350862396780379, -47)%Z, [20134; 27490; 36831; 36978]%N);
   ((-3091931966571093, -48)%Z, [20136; 20304; 20924; 21389; 21401; 32004; 32166; 32422]%N);
   ((-4153275621232881, -49)%Z, [20161]%N);
   ((-4791727846579637, -49)%Z, [20167]%N);
   ((-8887523456001649, -50)%Z, [20170; 20648; 20786; 21270; 24605]%N);
   ((-5195666186990095, -49)%Z, [20171; 24180]%N);
   ((-3850848528203657, -49)%Z, [20174; 24478]%N);
   ((-4883616984143621, -49)%Z, [20179; 20489; 23462; 26412; 30460]%N);
   ((-287705036515475, -45)%Z, [20184; 30424; 30436]%N);
   ((-1027053895669087, -47)%Z, [20195; 33883]%N);
   ((-5592866617054993, -49)%Z, [20196; 24358; 26144; 33503]%N);
   ((-373942111879083, -45)%Z, [20197]%N);
   ((-2538520396113029, -48)%Z, [20202; 20736; 24796]%N);
   ((-2432000009182209, -48)%Z, [20208; 21342]%N);
   ((-4499430723643387, -49)%Z, [20210; 38920; 39035]%N);
   ((-6728400671736271, -50)%Z, [20219]%N);
   ((-6854451451804047, -50)%Z, [20234]%N);
   ((-4075926371152681, -49)%Z, [20237]%N);
   ((-4507560106115701, -49)%Z, [20262; 20523]%N);
   ((-3487406915641011, -49)%Z, [20271]%N);
   ((-2397564683610589, -48)%Z, [20285]%N);
   ((-557322131936533, -46)%Z, [20294]%N);
   ((-1284088372402019, -47)%Z, [20301]%N);
   ((-8681029784688831, -50)%Z, [20307; 39636]%N);
   ((-4245536281630625, -49)%Z, [20308; 21344]%N);
   ((-203295260360171, -45)%Z, [20309]%N);
   ((-2739310539189887, -48)%Z, [20312]%N);
   ((-3757099766297779, -49)%Z, [20313; 39192]%N);
   ((-4396456621848919, -49)%Z, [20319; 29287]%N);
   ((-4495409635450999, -49)%Z, [20329; 24515]%N);
   ((-2242740403736455, -48)%Z, [20358; 26469; 33541]%N);
   ((-7987570206114623, -50)%Z, [20365]%N);
   ((-5285931074381367, -49)%Z, [20367; 28601]%N);
   ((-4600859290392677, -49)%Z, [20381]%N);
   ((-6980847248019297, -50)%Z, [20399]%N);
   ((-4079742995625311, -49)%Z, [20445; 22612]%N);
   ((-4349718638820855, -49)%Z, [20446]%N);
   ((-4007932409594023, -49)%Z, [20449]%N);
   ((-257079597985383, -45)%Z, [20462]%N);
   ((-6319626101794241, -49)%Z, [20493; 20872; 23713; 24858; 29756; 29898; 34106; 34298; 35390]%N);
   ((-310900180020075, -45)%Z, [20505; 23569]%N);
   ((-4565736678079969, -49)%Z, [20522; 37322; 37323]%N);
   ((-3799691411100983, -49)%Z, [20613; 26223]%N);
   ((-541996104800767, -46)%Z, [20625; 26480]%N);
   ((-5857455138246727, -49)%Z, [20658; 23494]%N);
   ((-5149004582763237, -49)%Z, [20801; 20993]%N);
   ((-7026808727846783, -50)%Z, [20803]%N);
   ((-1125363022525083, -47)%Z, [20809]%N);
   ((-874722299092893, -47)%Z, [20811]%N);
   ((-2339226037752929, -48)%Z, [20826; 40680]%N);
   ((-8848014142295155, -50)%Z, [20839; 20869]%N);
   ((-2000615272641303, -48)%Z, [20840; 25096; 30003]%N);
   ((-1686976661010525, -48)%Z, [20844]%N);
   ((-7404243284852569, -50)%Z, [20848; 34349]%N);
   ((-3337963064079757, -49)%Z, [20851; 38364]%N);
   ((-5578965911947393, -49)%Z, [20852; 25166; 31292; 33288]%N);
   ((-1999783735916275, -48)%Z, [20859; 39178]%N);
   ((-4837636340388595, -49)%Z, [20864; 26080; 28961]%N);
   ((-4628084153449893, -49)%Z, [20873; 22937; 28369]%N);
   ((-4107209416271911, -49)%Z, [20892; 36786; 37026]%N);
   ((-2623273945091843, -48)%Z, [20908; 20917; 27841]%N);
   ((-5845129223698013, -50)%Z, [20911; 39342]%N);
   ((-2411553896658867, -48)%Z, [20912]%N);
   ((-4090374126134485, -49)%Z, [20919]%N);
   ((-8206405276245903, -50)%Z, [20940]%N);
   ((-5254207191374753, -49)%Z, [20957; 38902]%N);
   ((-4912282446677855, -49)%Z, [20961]%N);
   ((-6553615296694511, -50)%Z, [20964; 40179]%N);
   ((-1006696213668051, -47)%Z, [20975; 20977]%N);
   ((-3444553393952299, -48)%Z, [20999; 21213; 21531; 23707; 23798; 24231; 25995; 29865; 32057; 32461; 32988; 35258;
     35273; 35370; 35775; 36824; 36996; 38876; 38892; 39108; 39128; 40779]%N);
   ((-4570295002203265, -49)%Z, [21009]%N);
   ((-8125536688383223, -50)%Z, [21015]%N);
   ((-4461541793264549, -50)%Z, [21016; 21129]%N);
   ((-5346151024100639, -49)%Z, [21018; 21083]%N);
   ((-4746146316597741, -49)%Z, [21021]%N);
   ((-8443261808602185, -50)%Z, [21029; 21035]%N);
   ((-3573573495947825, -49)%Z, [21033]%N);
   ((-7070351329544877, -50)%Z, [21152]%N);
   ((-2940217939080235, -48)%Z, [21169; 21237; 26799; 32784; 33150; 39472]%N);
   ((-8240863948509535, -50)%Z, [21171; 21214; 37117]%N);
   ((-2810871087370645, -48)%Z, [21187; 25153; 26429]%N);
   ((-4762005110473981, -49)%Z, [21246; 24265]%N);
   ((-3919230318035739, -49)%Z, [21253; 40654]%N);
   ((-431238268218517, -46)%Z, [21271]%N);
   ((-2504119190788339, -48)%Z, [21281; 37428; 38083]%N);
   ((-4860157341645981, -49)%Z, [21306; 21312]%N);
   ((-2524787185789729, -48)%Z, [21315]%N);
   ((-637502691517475, -46)%Z, [21322]%N);
   ((-3157107053169029, -49)%Z, [21326; 33775]%N);
   ((-8478292631417689, -50)%Z, [21331]%N);
   ((-1831902253712105, -48)%Z, [21333; 21934]%N);
   ((-6663687965200575, -50)%Z, [21335]%N);
   ((-3711500245233815, -49)%Z, [21338]%N);
   ((-3436616015487181, -49)%Z, [21345]%N);
   ((-6454193702934683, -50)%Z, [21346; 30439]%N);
   ((-3813839589137285, -49)%Z, [21355; 34907]%N);
   ((-2241757942087323, -48)%Z, [21360]%N);
   ((-4965097710557679, -49)%Z, [21361; 26463; 27762]%N);
   ((-2484865534831607, -48)%Z, [21364; 21371; 21375]%N);
   ((-8448199974004509, -50)%Z, [21382; 27511]%N);
   ((-155015692975425, -44)%Z, [21385; 21426; 25160; 33255]%N);
   ((-7923672215200127, -50)%Z, [21407; 38634]%N);
   ((-5526560662618411, -49)%Z, [21451; 36196]%N);
   ((-3804955397072175, -49)%Z, [21452; 38617]%N);
   ((-837339276085431, -47)%Z, [21476]%N);
   ((-2594379369468529, -48)%Z, [21488; 37257]%N);
   ((-1616086158716607, -48)%Z, [21490]%N);
   ((-6080061196702673, -50)%Z, [21494; 33865]%N);
   ((-6283405802359921, -50)%Z, [21496]%N);
   ((-6791934076163541, -50)%Z, [21513]%N);
   ((-8936077243931235, -50)%Z, [21516]%N);
   ((-8659927963935217, -50)%Z, [21518; 24460; 38745; 38748]%N);
   ((-5490228705150135, -49)%Z, [21520; 37094; 37192]%N);
   ((-3459367712221489, -49)%Z, [21521]%N);
   ((-3200573580659429, -49)%Z, [21525; 21570]%N);
   ((-2449909050448291, -48)%Z, [21547]%N);
   ((-2659775007387501, -48)%Z, [21548; 28654; 31821; 32893; 35486; 35821]%N);
   ((-4767604345867777, -50)%Z, [21555; 21556]%N);
   ((-3381744068042999, -48)%Z, [21576; 21697; 25463; 28193; 30334; 36827; 36914]%N);
   ((-5339139985302373, -50)%Z, [21608; 36913]%N);
   ((-8295693878609679, -50)%Z, [21628]%N);
   ((-6280876095197841, -50)%Z, [21644]%N);
   ((-1134783917188583, -47)%Z, [21688]%N);
   ((-7108847383929787, -50)%Z, [21704; 23002]%N);
   ((-2426274897035263, -48)%Z, [21733; 23020]%N);
   ((-5448437700125627, -50)%Z, [21776]%N);
   ((-7741935225880865, -50)%Z, [21830]%N);
   ((-5231535001730955, -49)%Z, [21839; 38382]%N);
   ((-4812452271034323, -49)%Z, [21947; 22874]%N);
   ((-6925754375469081, -50)%Z, [22025]%N);
   ((-6042386487447347, -49)%Z, [22235; 33688; 37079; 38610; 40664]%N);
   ((-3601117838935669, -49)%Z, [22269; 22283]%N);
   ((-5502080720877415, -49)%Z, [22270; 22294]%N);
   ((-6011949347751625, -49)%Z, [22303; 22338; 40251; 40511]%N);
   ((-2717222743061045, -48)%Z, [22307; 23041; 24571; 30699; 30703; 32854; 37397; 38062]%N);
   ((-4359075363138505, -49)%Z, [22320]%N);
   ((-7615802486849995, -50)%Z, [22467]%N);
   ((-4284100466941935, -49)%Z, [22522; 40169; 40480]%N);
   ((-40757125803673, -42)%Z, [22581; 23879; 24910]%N);
   ((-2288601225128151, -48)%Z, [22615; 28034]%N);
   ((-1047620261652155, -47)%Z, [22622]%N);
   ((-4095273634462575, -49)%Z, [22696; 30410]%N);
   ((-7963181528906621, -50)%Z, [22763]%N);
   ((-8509211734305439, -50)%Z, [22781; 23551]%N);
   ((-379890661417863, -46)%Z, [22799]%N);
   ((-4432900620307399, -49)%Z, [22810]%N);
   ((-6788529134334075, -50)%Z, [22823]%N);
   ((-3603167167567299, -49)%Z, [22825]%N);
   ((-3545828869240005, -49)%Z, [22826]%N);
   ((-683405995654549, -46)%Z, [22865; 25705]%N);
   ((-821578997235827, -47)%Z, [22885; 22887]%N);
   ((-2651244809844095, -48)%Z, [22899; 33454]%N);
   ((-5328278095863259, -49)%Z, [22914; 28147; 33067; 33073]%N);
   ((-3710008986207013, -49)%Z, [23004]%N);
   ((-587635784755151, -46)%Z, [23044; 23105]%N);
   ((-48637367286049, -42)%Z, [23348; 25581; 26397; 29081]%N);
   ((-3259150351917553, -49)%Z, [23376]%N);
   ((-6258360920491523, -50)%Z, [23380]%N);
   ((-5073327420326991, -50)%Z, [23385; 23403]%N);
   ((-6574071106152521, -49)%Z, [23389; 27178; 27243]%N);
   ((-7061651480152771, -50)%Z, [23391]%N);
   ((-8107109109980979, -50)%Z, [23395]%N);
   ((-7320315710596695, -50)%Z, [23425; 23527; 26222]%N);
   ((-8062318004382419, -50)%Z, [23431]%N);
   ((-6143421426473187, -50)%Z, [23433]%N);
   ((-2464541851442579, -49)%Z, [23435]%N);
   ((-2561990232547245, -48)%Z, [23436; 31515; 33713; 33802]%N);
   ((-329365355980931, -45)%Z, [23443]%N);
   ((-3417103666633833, -49)%Z, [23447]%N);
   ((-7724885745994069, -50)%Z, [23448; 27575]%N);
   ((-4730722065354751, -49)%Z, [23451]%N);
   ((-5567388673847279, -50)%Z, [23453; 23542]%N);
   ((-1725579268853605, -48)%Z, [23459]%N);
   ((-7299606851808811, -50)%Z, [23467; 23470]%N);
   ((-4605712337287701, -49)%Z, [23472]%N);
   ((-2323060353074037, -48)%Z, [23478]%N);
   ((-1035083418254777, -47)%Z, [23481; 24576; 25079]%N);
   ((-4788346755614693, -49)%Z, [23486; 36051]%N);
   ((-4278621592032141, -49)%Z, [23487; 35060]%N);
   ((-4625554037040761, -49)%Z, [23495; 26420; 27192]%N);
   ((-7690279382040183, -50)%Z, [23500]%N);
   ((-2280607483698561, -48)%Z, [23506]%N);
   ((-8385633883766049, -50)%Z, [23547; 23563]%N);
   ((-3469638463760745, -49)%Z, [23553]%N);
   ((-8392678118883153, -50)%Z, [23561]%N);
   ((-5420522803164191, -50)%Z, [23567]%N);
   ((-7507741198021901, -50)%Z, [23572; 23578; 29246; 31302]%N);
   ((-117957561957545, -44)%Z, [23588; 30427]%N);
   ((-1066288311852457, -47)%Z, [23609]%N);
   ((-7500253000017547, -50)%Z, [23612]%N);
   ((-3894581917813701, -49)%Z, [23621]%N);
   ((-8624648840421931, -50)%Z, [23624]%N);
   ((-2387510937142019, -48)%Z, [23637]%N);
   ((-2458249659989439, -48)%Z, [23648]%N);
   ((-3304136107970393, -49)%Z, [23665]%N);
   ((-2333733668823787, -48)%Z, [23697]%N);
   ((-3764160495031385, -49)%Z, [23731]%N);
   ((-6498899614894263, -49)%Z, [23736; 24198; 24950; 26118; 27185; 27387; 32048; 32454; 35219; 35269; 37380;
     38061]%N);
   ((-3976786041516719, -49)%Z, [23828]%N);
   ((-1115114172451041, -47)%Z, [24029]%N);
   ((-298645227687911, -45)%Z, [24034]%N);
   ((-6712929640676741, -50)%Z, [24038]%N);
   ((-8037992060140409, -50)%Z, [24039; 36335]%N);
   ((-7768679949104525, -50)%Z, [24040; 26597]%N);
   ((-4581854955691349, -49)%Z, [24041; 38799]%N);
   ((-4709814359129465, -49)%Z, [24043]%N);
   ((-6497106668010647, -50)%Z, [24052]%N);
   ((-6244645274892321, -50)%Z, [24067]%N);
   ((-8982834131709035, -50)%Z, [24069; 24101]%N);
   ((-821403560291, -37)%Z, [24072; 24107]%N);
   ((-7559351691741129, -50)%Z, [24076]%N);
   ((-1881534224111273, -48)%Z, [24085; 35895]%N);
   ((-8208403324519771, -50)%Z, [24093]%N);
   ((-4879638522684561, -49)%Z, [24109; 26174; 36767; 38370; 39023]%N);
   ((-461551921037135, -46)%Z, [24120]%N);
   ((-2162011251252745, -48)%Z, [24178; 24185; 30495]%N);
   ((-3387225841393879, -49)%Z, [24179]%N);
   ((-4298035583245085, -49)%Z, [24184; 36947]%N);
   ((-5539211755773571, -49)%Z, [24187; 35203; 35998; 36126]%N);
   ((-462826422135487, -46)%Z, [24191; 24291]%N);
   ((-7167589870245047, -50)%Z, [24196; 33674]%N);
   ((-7770034008085339, -50)%Z, [24211; 24235]%N);
   ((-8799655179452869, -50)%Z, [24212; 25033]%N);
   ((-1896374233264163, -48)%Z, [24222; 40848]%N);
   ((-3305586387742245, -49)%Z, [24247]%N);
   ((-4988655539146685, -49)%Z, [24254; 28422; 38771]%N);
   ((-2677652441784007, -48)%Z, [24275]%N);
   ((-4121462075097397, -49)%Z, [24278]%N);
   ((-8136739764963859, -50)%Z, [24310]%N);
   ((-1255846482736159, -47)%Z, [24314; 27491]%N);
   ((-8645093758480177, -50)%Z, [24339]%N);
   ((-7985927755193385, -50)%Z, [24343]%N);
   ((-2105930731268955, -48)%Z, [24344; 36793; 37002]%N);
   ((-4162389014775355, -50)%Z, [24352; 24373]%N);
   ((-8869392630922589, -50)%Z, [24375; 24378]%N);
   ((-4718679895951141, -49)%Z, [24402; 27512; 28373]%N);
   ((-3493456585300353, -49)%Z, [24429]%N);
   ((-5465805002784205, -50)%Z, [24464]%N);
   ((-886735629840669, -47)%Z, [24503; 32918]%N);
   ((-5310955192050113, -49)%Z, [24535]%N);
   ((-5514187638104825, -49)%Z, [24565; 28251]%N);
   ((-671758952475611, -46)%Z, [24680; 26524; 31482]%N);
   ((-4393105719375233, -49)%Z, [24681]%N);
   ((-2877408613170935, -48)%Z, [24701; 24818; 37190; 39740]%N);
   ((-7188410803258125, -50)%Z, [24800]%N);
   ((-7669023560936307, -50)%Z, [24859; 29233]%N);
   ((-3986436848497723, -49)%Z, [24904]%N);
   ((-507962258977993, -46)%Z, [24917]%N);
   ((-6668261701646739, -50)%Z, [24935]%N);
   ((-4686833619215723, -49)%Z, [25102; 29956]%N);
   ((-3521869936285315, -49)%Z, [25104]%N);
   ((-8584840151599955, -50)%Z, [25112; 25136]%N);
   ((-8880236052522737, -50)%Z, [25114]%N);
   ((-7095372357180533, -50)%Z, [25140]%N);
   ((-5607119275880479, -49)%Z, [25142; 25143; 28014; 33967]%N);
   ((-4081661055243763, -49)%Z, [25151]%N);
   ((-5773902103278605, -49)%Z, [25165]%N);
   ((-7790542770162097, -50)%Z, [25176]%N);
   ((-4656692846967447, -49)%Z, [25196; 25562]%N);
   ((-2363843643683423, -48)%Z, [25206]%N);
   ((-4351267332929421, -49)%Z, [25215]%N);
   ((-2454048462942309, -48)%Z, [25240; 26143]%N);
   ((-1744037949810803, -48)%Z, [25289]%N);
   ((-8621758210061747, -50)%Z, [25299]%N);
   ((-2188322010754029, -48)%Z, [25307]%N);
   ((-2612088037010747, -48)%Z, [25391; 28192]%N);
   ((-4721666374856745, -49)%Z, [25484]%N);
   ((-4554499778984133, -49)%Z, [25505; 37319]%N);
   ((-4251999612713265, -49)%Z, [25506]%N);
   ((-8986819622266573, -50)%Z, [25805]%N);
   ((-4519978623372729, -49)%Z, [25903]%N);
   ((-2516857788851609, -48)%Z, [25942]%N);
   ((-2047145157758315, -48)%Z, [25964]%N);
   ((-6582970029630465, -50)%Z, [25991]%N);
   ((-745663525550469, -47)%Z, [26031]%N);
   ((-8974905226357123, -50)%Z, [26032]%N);
   ((-6584859916615273, -50)%Z, [26041]%N);
   ((-4826704929859809, -49)%Z, [26044; 26862]%N);
   ((-7731412720254807, -50)%Z, [26045; 33970]%N);
   ((-2268487314905509, -48)%Z, [26085; 32650]%N);
   ((-8506602463365097, -50)%Z, [26102; 26178]%N);
   ((-146640357978635, -44)%Z, [26103; 26336; 38263; 38271]%N);
   ((-2619495700756467, -48)%Z, [26106; 32943]%N);
   ((-5423922750713553, -49)%Z, [26114; 27973; 28154]%N);
   ((-1064306060937363, -47)%Z, [26124]%N);
   ((-3013773522860305, -49)%Z, [26126]%N);
   ((-3457779700016355, -49)%Z, [26131]%N);
   ((-2109586301827401, -48)%Z, [26149; 32705]%N);
   ((-2183496607263527, -48)%Z, [26177; 26364]%N);
   ((-968238332280181, -47)%Z, [26185; 26187]%N);
   ((-1234517730713231, -47)%Z, [26191]%N);
   ((-4082622541307415, -49)%Z, [26195; 26313]%N);
   ((-8416482386252031, -50)%Z, [26234; 31354]%N);
   ((-1413044828609253, -47)%Z, [26274; 29702; 30021]%N);
   ((-4503480740776463, -49)%Z, [26292]%N);
   ((-4111244917089997, -49)%Z, [26354]%N);
   ((-5520125442698781, -50)%Z, [26361]%N);
   ((-7238826487411529, -50)%Z, [26366]%N);
   ((-661768683479439, -46)%Z, [26376]%N);
   ((-4173264109845843, -49)%Z, [26377]%N);
   ((-7995818593971813, -50)%Z, [26395]%N);
   ((-3644475784058443, -49)%Z, [26408]%N);
   ((-2720097801041019, -49)%Z, [26417]%N);
   ((-932942665052869, -47)%Z, [26435; 27402]%N);
   ((-5565400196408393, -49)%Z, [26441]%N);
   ((-7507047191761271, -51)%Z, [26446]%N);
   ((-6595788762863107, -50)%Z, [26460]%N);
   ((-4811567151498775, -50)%Z, [26472; 26954]%N);
   ((-782649394640231, -47)%Z, [26477]%N);
   ((-3951068976993589, -49)%Z, [26494]%N);
   ((-5770674192707239, -50)%Z, [26519]%N);
   ((-505336680912133, -46)%Z, [26575]%N);
   ((-8031137245012937, -50)%Z, [26607]%N);
   ((-7112619246441841, -50)%Z, [26611]%N);
   ((-4025914088909385, -49)%Z, [26612]%N);
   ((-4798551565926723, -49)%Z, [26647]%N);
   ((-6959540404579369, -50)%Z, [26684]%N);
   ((-5082698628326655, -49)%Z, [26686; 27410]%N);
   ((-8099821706502067, -50)%Z, [26690]%N);
   ((-3216296830228841, -48)%Z, [26704; 28392; 28657; 31481; 33538; 33733; 33778]%N);
   ((-1933836786108463, -48)%Z, [26705]%N);
   ((-2083261056826965, -48)%Z, [26707]%N);
   ((-1536256099838051, -47)%Z, [26725; 27211; 29399; 32703]%N);
   ((-3040483798391985, -49)%Z, [26753]%N);
   ((-3428729734152813, -49)%Z, [26757]%N);
   ((-1267859813483935, -47)%Z, [26893]%N);
   ((-865559367952385, -47)%Z, [26970]%N);
   ((-4618031208566343, -49)%Z, [27004; 27155]%N);
   ((-938199578265297, -47)%Z, [27054; 33635]%N);
   ((-8687132238147641, -50)%Z, [27146]%N);
   ((-5337143632684935, -49)%Z, [27264]%N);
   ((-7166004095466221, -50)%Z, [27431; 27472]%N);
   ((-1163507785025355, -47)%Z, [27493]%N);
   ((-6145980290999269, -50)%Z, [27494]%N);
   ((-500049799302985, -46)%Z, [27573]%N);
   ((-2722584333296801, -48)%Z, [27595]%N);
   ((-8146161576488329, -50)%Z, [27597]%N);
   ((-7878021371298697, -50)%Z, [27604]%N);
   ((-533310709244639, -46)%Z, [27605; 30050]%N);
   ((-1659900906598339, -48)%Z, [27611]%N);
   ((-7358203484277471, -50)%Z, [27700]%N);
   ((-1083615402178705, -47)%Z, [27704; 33606; 33610]%N);
   ((-6723041785337527, -50)%Z, [27721; 28450]%N);
   ((-7516360569548529, -50)%Z, [27741]%N);
   ((-6951653157565673, -50)%Z, [27743]%N);
   ((-2435882484208171, -48)%Z, [27744; 27901; 28580; 34913; 39131; 39134]%N);
   ((-7237137214916323, -50)%Z, [27748; 28271]%N);
   ((-3637013570149323, -49)%Z, [27754]%N);
   ((-3867017070739117, -49)%Z, [27779]%N);
   ((-3486738725706871, -49)%Z, [27784]%N);
   ((-6515184948002879, -50)%Z, [27801]%N);
   ((-4302284282305985, -49)%Z, [27827]%N);
   ((-235603295828903, -45)%Z, [27861]%N);
   ((-1985615937150433, -48)%Z, [27874]%N);
   ((-7473908796134613, -50)%Z, [27888; 33831; 34157]%N);
   ((-1031920644965987, -47)%Z, [27931]%N);
   ((-6538993014460727, -50)%Z, [27946]%N);
   ((-2275033539641559, -48)%Z, [28006]%N);
   ((-3365544855144513, -49)%Z, [28023]%N);
   ((-5835375839603937, -49)%Z, [28085]%N);
   ((-4305134667906581, -49)%Z, [28165]%N);
   ((-219369642027399, -45)%Z, [28201; 28331]%N);
   ((-275628957837963, -45)%Z, [28216; 36938]%N);
   ((-4942486239239283, -49)%Z, [28325]%N);
   ((-3937521399189699, -49)%Z, [28385; 28415]%N);
   ((-7419025552863793, -50)%Z, [28504]%N);
   ((-7948797941999571, -50)%Z, [28789; 38728]%N);
   ((-2087764752534817, -48)%Z, [28966; 33509]%N);
   ((-7582052055590491, -50)%Z, [29066]%N);
   ((-7281903658361749, -50)%Z, [29141]%N);
   ((-1583618524544979, -48)%Z, [29275]%N);
   ((-8803041347138603, -50)%Z, [29279; 36234]%N);
   ((-3701143449385337, -49)%Z, [29305]%N);
   ((-8324143786437227, -50)%Z, [29380]%N);
   ((-5636755063194021, -49)%Z, [29420; 29544]%N);
   ((-6469027908389723, -50)%Z, [29572]%N);
   ((-6364786405274807, -50)%Z, [29577]%N);
   ((-7866487613226969, -51)%Z, [29579]%N);
   ((-8149952488846953, -50)%Z, [29595; 29802]%N);
   ((-4159859906272783, -49)%Z, [29677]%N);
   ((-4263823967091085, -49)%Z, [29790]%N);
   ((-7636068040231361, -50)%Z, [29926]%N);
   ((-4036453241400013, -49)%Z, [29976]%N);
   ((-4003734403910323, -49)%Z, [29983]%N);
   ((-3029854724043087, -49)%Z, [30000]%N);
   ((-7656705058329699, -50)%Z, [30001]%N);
   ((-5340078756818831, -50)%Z, [30333]%N);
   ((-5155438366544811, -49)%Z, [30343]%N);
   ((-7714520656386475, -50)%Z, [30382]%N);
   ((-8300024268205023, -50)%Z, [30422; 33995]%N);
   ((-8148055437165053, -50)%Z, [30456]%N);
   ((-4659367198569123, -49)%Z, [30655; 33593; 35582; 35834]%N);
   ((-6177478319486847, -50)%Z, [30707]%N);
   ((-2336466457054061, -48)%Z, [30887]%N);
   ((-285930658596709, -45)%Z, [31041]%N);
   ((-1957463747448123, -48)%Z, [31062]%N);
   ((-2199069791302179, -48)%Z, [31069; 31616; 31777]%N);
   ((-2136597763188437, -48)%Z, [31070]%N);
   ((-72433491478765, -43)%Z, [31103; 31108]%N);
   ((-7196522509144291, -50)%Z, [31119]%N);
   ((-4475724064927031, -49)%Z, [31161; 35336; 35745]%N);
   ((-7908248687613421, -50)%Z, [31179]%N);
   ((-8587637419888123, -50)%Z, [31181; 31278; 33298]%N);
   ((-1814824489693369, -48)%Z, [31185]%N);
   ((-2867941191184809, -49)%Z, [31206]%N);
   ((-3763614206824109, -49)%Z, [31243]%N);
   ((-4024176587673861, -49)%Z, [31398; 31431]%N);
   ((-8194490880336453, -50)%Z, [31435]%N);
   ((-3790453050693953, -49)%Z, [31456]%N);
   ((-7071807862615853, -50)%Z, [31461]%N);
   ((-4703980628650489, -49)%Z, [31526]%N);
   ((-8057060874643487, -50)%Z, [31649]%N);
   ((-6814900704351183, -50)%Z, [31684; 33539]%N);
   ((-7587799387656279, -50)%Z, [31859]%N);
   ((-4808944783342413, -49)%Z, [31903]%N);
   ((-2306535632498581, -48)%Z, [31964]%N);
   ((-3955658268334569, -49)%Z, [32000; 32426]%N);
   ((-6621383986933337, -50)%Z, [32005; 32418]%N);
   ((-7422005439667695, -50)%Z, [32013; 32435]%N);
   ((-7154965772670751, -50)%Z, [32034]%N);
   ((-7931463941154143, -50)%Z, [32043]%N);
   ((-4743027472313343, -49)%Z, [32066; 32456]%N);
   ((-1319457733825729, -47)%Z, [32080; 32467; 38357; 38425]%N);
   ((-4345097956626955, -49)%Z, [32147; 32463]%N);
   ((-4610607585120051, -49)%Z, [32160; 32511]%N);
   ((-7751223786928011, -50)%Z, [32173; 32500]%N);
   ((-38718311336643, -42)%Z, [32244; 32451]%N);
   ((-4925029027909475, -49)%Z, [32326; 32554]%N);
   ((-2244715674837113, -48)%Z, [32396; 32493]%N);
   ((-673036713161803, -47)%Z, [32599; 32645]%N);
   ((-3979984629402557, -49)%Z, [32654]%N);
   ((-5209740668902107, -49)%Z, [32701]%N);
   ((-618367057459325, -46)%Z, [32735; 36764]%N);
   ((-138472207338927, -44)%Z, [32736]%N);
   ((-347009606499209, -45)%Z, [32745]%N);
   ((-5915165104516611, -50)%Z, [32769]%N);
   ((-3698219027466339, -49)%Z, [32822]%N);
   ((-8837475220664157, -50)%Z, [32831]%N);
   ((-2270652517710637, -48)%Z, [32834; 32886]%N);
   ((-7651815148767799, -50)%Z, [32862; 38395]%N);
   ((-1343238810456955, -48)%Z, [32993]%N);
   ((-4643508404692883, -49)%Z, [32997]%N);
   ((-4391437718292941, -49)%Z, [33021]%N);
   ((-3544717417835689, -49)%Z, [33406]%N);
   ((-4615545774271167, -49)%Z, [33446; 34310; 37057; 39729]%N);
   ((-1767042514211049, -48)%Z, [33457]%N);
   ((-283967674640201, -45)%Z, [33485; 33980]%N);
   ((-6363620273728983, -50)%Z, [33487; 34311]%N);
   ((-2460374009519889, -48)%Z, [33489]%N);
   ((-8576489804991045, -50)%Z, [33495]%N);
   ((-8116285199132837, -50)%Z, [33521; 38534]%N);
   ((-4381532184956339, -49)%Z, [33600]%N);
   ((-1166188580143233, -47)%Z, [33678]%N);
   ((-3581419615339291, -49)%Z, [33707]%N);
   ((-6601533162603891, -50)%Z, [33832; 34217]%N);
   ((-792711276585963, -47)%Z, [33891]%N);
   ((-6278352059121423, -50)%Z, [33931; 34083; 36842]%N);
   ((-3620259149129273, -49)%Z, [33945]%N);
   ((-436893581419699, -46)%Z, [34013; 34253]%N);
   ((-2149724128195737, -48)%Z, [34015; 34186]%N);
   ((-4887623762292581, -49)%Z, [34028]%N);
   ((-1364025019280597, -47)%Z, [34074]%N);
   ((-7104337765456927, -50)%Z, [34081]%N);
   ((-429386352282087, -46)%Z, [34203]%N);
   ((-4547863749842589, -49)%Z, [34255]%N);
   ((-4801994695641303, -49)%Z, [34276]%N);
   ((-2234975084317823, -48)%Z, [34398]%N);
   ((-2319159944565433, -48)%Z, [34701]%N);
   ((-1092547950603223, -47)%Z, [34915]%N);
   ((-6003590824790959, -50)%Z, [34945]%N);
   ((-4528412488282819, -49)%Z, [35032]%N);
   ((-2154718745523037, -48)%Z, [35041; 37324]%N);
   ((-2248708294641123, -48)%Z, [35098]%N);
   ((-2947884081882551, -49)%Z, [35199]%N);
   ((-4929342841764667, -49)%Z, [35264; 35266]%N);
   ((-1936808397040375, -48)%Z, [35299]%N);
   ((-7934595792705789, -50)%Z, [35328]%N);
   ((-7318499742611333, -50)%Z, [35377; 35768]%N);
   ((-1927986056317355, -48)%Z, [35449]%N);
   ((-2385869678983337, -48)%Z, [35527; 35848]%N);
   ((-5668038108313251, -49)%Z, [35574; 35852; 38317; 38366; 38398; 38426]%N);
   ((-414234496186995, -46)%Z, [35576; 35832]%N);
   ((-6569362405230949, -50)%Z, [35613; 35874]%N);
   ((-7961574248252733, -50)%Z, [35674; 35885]%N);
   ((-5261972141426677, -49)%Z, [35910]%N);
   ((-429120307563759, -46)%Z, [35997; 36125]%N);
   ((-8554520329274477, -50)%Z, [36002; 36129]%N);
   ((-7164420551032405, -50)%Z, [36027; 36153]%N);
   ((-3784755128028019, -49)%Z, [36032; 36154]%N);
   ((-5537151209513267, -50)%Z, [36040; 36158]%N);
   ((-8656945445881613, -50)%Z, [36084; 36182]%N);
   ((-4698206732359105, -49)%Z, [36093; 36187]%N);
   ((-7572916914954099, -50)%Z, [36203]%N);
   ((-5225860389235127, -50)%Z, [36213; 36249]%N);
   ((-4032918222227309, -49)%Z, [36554; 36710]%N);
   ((-4784985850387723, -49)%Z, [36562; 36713]%N);
   ((-1027305887658263, -47)%Z, [36763]%N);
   ((-3827128724436317, -49)%Z, [36798; 36948]%N);
   ((-4462342621060191, -49)%Z, [36807; 36942]%N);
   ((-4979113786083435, -49)%Z, [36814]%N);
   ((-2587596511699029, -48)%Z, [36828; 36960]%N);
   ((-3737996898278975, -49)%Z, [36830; 36899]%N);
   ((-117174801741121, -44)%Z, [36890]%N);
   ((-3138995972001709, -49)%Z, [37011; 37159]%N);
   ((-6639107307272759, -50)%Z, [37027]%N);
   ((-2296828636892109, -48)%Z, [37036; 37140; 38278; 38379]%N);
   ((-8387977068601059, -50)%Z, [37041]%N);
   ((-7283661504006637, -50)%Z, [37045]%N);
   ((-7894545882692351, -50)%Z, [37049; 37138]%N);
   ((-2145512453957535, -48)%Z, [37070]%N);
   ((-384444720826755, -46)%Z, [37073; 37165]%N);
   ((-3719521039201491, -49)%Z, [37085]%N);
   ((-2802389654233381, -49)%Z, [37101]%N);
   ((-4096258674002479, -49)%Z, [37122]%N);
   ((-674185701377229, -46)%Z, [37154]%N);
   ((-5051070392407275, -50)%Z, [37329]%N);
   ((-6456722868895653, -50)%Z, [37504; 38134]%N);
   ((-6230404179219189, -50)%Z, [37666; 38065]%N);
   ((-8083595486249869, -50)%Z, [37912; 38047]%N);
   ((-7818482166762279, -50)%Z, [37941; 38081]%N);
   ((-8809844388421685, -50)%Z, [38272; 38376]%N);
   ((-1195411222825819, -47)%Z, [38292; 38389]%N);
   ((-1897238095763337, -48)%Z, [38331; 38414]%N);
   ((-3630079533865409, -49)%Z, [38446]%N);
   ((-7326694763960309, -50)%Z, [38451; 38525]%N);
   ((-4043590578886805, -49)%Z, [38452; 38512]%N);
   ((-2631841972082405, -49)%Z, [38463]%N);
   ((-1587238218797975, -48)%Z, [38470; 38520]%N);
   ((-2328310326679837, -49)%Z, [38472; 38515]%N);
   ((-7553747399896893, -50)%Z, [38518]%N);
   ((-7828427088641253, -50)%Z, [38539]%N);
   ((-1147226653268275, -47)%Z, [38593]%N);
   ((-8750048041048283, -50)%Z, [38597]%N);
   ((-601997718673537, -46)%Z, [38605; 38742]%N);
   ((-2189134348912985, -48)%Z, [38632]%N);
   ((-3329566366735161, -49)%Z, [38647]%N);
   ((-1736932539351413, -48)%Z, [38669]%N);
   ((-7969633695027613, -50)%Z, [38738]%N);
   ((-7640889888744013, -50)%Z, [38859; 38886]%N);
   ((-385091051379079, -46)%Z, [38867; 38889]%N);
   ((-8304371377492775, -50)%Z, [38917; 39033]%N);
   ((-1944207209510903, -48)%Z, [38991; 39068]%N);
   ((-3222275429730517, -49)%Z, [39015; 39038]%N);
   ((-2369962905915595, -48)%Z, [39250; 39286; 39854; 40092]%N);
   ((-7912853601627101, -50)%Z, [39321]%N);
   ((-2430138453146579, -49)%Z, [39340; 39532]%N);
   ((-558266693020377, -46)%Z, [39409; 39558]%N);
   ((-2807761544701227, -49)%Z, [39640]%N);
   ((-2987722672340655, -49)%Z, [39759]%N);
   ((-8202419785688365, -50)%Z, [39770; 40060]%N);
   ((-3143333328572511, -49)%Z, [39791; 40065]%N);
   ((-511418827799459, -46)%Z, [39825; 40077]%N);
   ((-210923359349633, -45)%Z, [40575]%N);
   ((-7249868974107311, -50)%Z, [40613; 40614]%N);
   ((-7899094979413671, -50)%Z, [40635]%N);
   ((-4974425105282963, -50)%Z, [40643; 40644]%N);
   ((-3534448339150049, -49)%Z, [40657]%N);
   ((-3775756735388715, -49)%Z, [40667]%N);
   ((-7204693081335447, -50)%Z, [40778; 40784]%N);
   ((-877217862591967, -47)%Z, [40845; 40857]%N);
   ((-1942847424370183, -48)%Z, [40852; 40858]%N)];
  (* ('B', 'nrfg') *)
  [
   ((-2115534705220801, -48)%Z, [19969; 26607]%N);
   ((-4356688062260203, -49)%Z, [19975; 20057; 21476; 22799; 23588; 25104; 31069; 33255; 33836]%N);
   ((-3840862237431267, -49)%Z, [19996; 26481; 30427; 30707]%N);
   ((-7476448651052819, -50)%Z, [20005; 22196; 26045; 32742]%N);
   ((-8354829098320361, -50)%Z, [20052; 21932; 23578; 27748; 28271; 31456; 33406]%N);
   ((-3932352261222121, -49)%Z, [20064; 20911; 28504; 32722; 33931; 34083; 34945; 39342]%N);
   ((-4663162585440045, -50)%Z, [20110; 26044]%N);
   ((-690913697661401, -46)%Z, [20167; 20195; 20237; 20522; 21704; 22823; 23020; 23383; 23384; 23569; 23609; 24109;
     24179; 24222; 24380; 24503; 24701; 24818; 24859; 25096; 26191; 26223; 26641; 26970; 27193; 28385; 28415; 29233;
     29275; 29748; 30002; 30343; 31041; 31482; 32147; 32463; 32650; 32903; 33298; 33479; 33600; 33894; 34013; 34253;
     34382; 36039; 36164; 36831; 36978; 37085; 37941; 38081; 38446; 38470; 38520; 38634; 38859; 38886; 38917; 39033;
     39321; 40654; 40848; 40852; 40858]%N);
   ((-2454422922278707, -48)%Z, [20171; 20399; 20940; 20992; 21490; 23395; 23567; 26420; 26690; 27004; 27054; 27155;
     27192; 27573; 30001; 32918; 33495; 33541; 33635; 33832; 34217; 35060; 35576; 35832; 37045; 37912; 38047; 38669;
     39759]%N);
   ((-2373447617635269, -48)%Z, [20196; 21253; 21340; 22238; 23697; 26705; 27611; 31302; 31616; 31777; 34081; 37094;
     37192]%N);
   ((-2616585857118841, -49)%Z, [20219; 21608; 36913]%N);
   ((-3612605673707809, -49)%Z, [20309; 32862; 35449; 38395]%N);
   ((-5915619959011479, -50)%Z, [20313; 39192]%N);
   ((-6768698219968701, -50)%Z, [20445; 33487; 34311]%N);
   ((-5137102408280873, -49)%Z, [20446; 20845; 20993; 21333; 21335; 21934; 23376; 23391; 23828; 24198; 24429; 24950;
     25114; 26757; 28006; 28779; 29279; 30003; 31649; 32831; 33521; 34892; 36027; 36153; 36763; 36793; 37002; 37117;
     38816; 40180; 40483]%N);
   ((-62543950729971, -43)%Z, [20613; 31077]%N);
   ((-4518638671547079, -49)%Z, [20809; 20924; 21017; 21063; 21385; 21426; 26126; 27494; 31119]%N);
   ((-3594146644476913, -49)%Z, [20851; 26041; 27754; 35377; 35768; 38364]%N);
   ((-7689671139335553, -51)%Z, [21016; 21129]%N);
   ((-8863719107036921, -50)%Z, [21147; 28023; 34398]%N);
   ((-7598344761963495, -51)%Z, [21306; 21312]%N);
   ((-414236065561041, -46)%Z, [21326; 33775]%N);
   ((-3651445207497791, -49)%Z, [21346; 21496; 23002; 30439; 30655]%N);
   ((-991620222312467, -47)%Z, [21494; 33865; 34180]%N);
   ((-859188589828333, -47)%Z, [21521; 33457]%N);
   ((-2804724907040539, -49)%Z, [21555; 21556]%N);
   ((-7574414752299691, -50)%Z, [21776]%N);
   ((-8256862997073489, -50)%Z, [22825; 23398; 23416; 27721; 28450; 31243; 33707; 37057; 39729]%N);
   ((-4621276583451937, -49)%Z, [23004; 24212; 25033; 26032; 27605; 27784; 30050; 31435; 33883; 35299]%N);
   ((-671123344306437, -47)%Z, [23380]%N);
   ((-4847050250891817, -50)%Z, [23385; 23403; 26472; 26954]%N);
   ((-5220449546029915, -50)%Z, [23425; 23527]%N);
   ((-7626791633569335, -50)%Z, [23433; 33891; 39015; 39038]%N);
   ((-2677321943257711, -49)%Z, [23435]%N);
   ((-7739475590235129, -50)%Z, [23500; 37011; 37159]%N);
   ((-6000863892050585, -50)%Z, [23601]%N);
   ((-4290382107823621, -49)%Z, [23637; 24421; 24422; 24535; 26364; 30422; 33995; 38331; 38414]%N);
   ((-6223991277481385, -50)%Z, [24038]%N);
   ((-1950087467406643, -48)%Z, [24120; 26131; 27946]%N);
   ((-1533764558134023, -48)%Z, [24196; 33674]%N);
   ((-5326494922691399, -50)%Z, [24247]%N);
   ((-6743952170941529, -50)%Z, [24314]%N);
   ((-5730127649855391, -51)%Z, [24352; 24373]%N);
   ((-1413759758514577, -48)%Z, [24464]%N);
   ((-8083304761016251, -50)%Z, [25140; 35674; 35885]%N);
   ((-1258577822967531, -48)%Z, [25918; 39340; 39532]%N);
   ((-3241483377634209, -49)%Z, [25991]%N);
   ((-8769000224323037, -51)%Z, [26102; 26178]%N);
   ((-7117901624852775, -50)%Z, [26361]%N);
   ((-6959061244214459, -50)%Z, [26366]%N);
   ((-2813732298456243, -49)%Z, [26417]%N);
   ((-5368596558435159, -52)%Z, [26446]%N);
   ((-7386328573939753, -50)%Z, [26460; 26477; 31206; 32599; 32645; 40778; 40784]%N);
   ((-638998794931261, -47)%Z, [26519]%N);
   ((-3509967761802951, -49)%Z, [26611]%N);
   ((-6193559697757747, -50)%Z, [26753]%N);
   ((-6605914227919083, -50)%Z, [27431; 27472]%N);
   ((-1635690775660455, -48)%Z, [27704]%N);
   ((-684356742512625, -47)%Z, [27743]%N);
   ((-3781413339186497, -50)%Z, [29579]%N);
   ((-2757606548262521, -49)%Z, [30000]%N);
   ((-1611199250348737, -48)%Z, [30333]%N);
   ((-6463720134341655, -50)%Z, [31062]%N);
   ((-3213093330933953, -49)%Z, [31684; 33539]%N);
   ((-5988283873948031, -50)%Z, [32769]%N);
   ((-3397000203139511, -49)%Z, [32834; 32886]%N);
   ((-607020862392301, -47)%Z, [32993]%N);
   ((-3715243585612667, -49)%Z, [33831; 34157]%N);
   ((-1732453861623209, -48)%Z, [33945]%N);
   ((-5975842864414929, -50)%Z, [35613; 35874]%N);
   ((-6106909268712069, -50)%Z, [35998; 36126]%N);
   ((-1668204762872857, -48)%Z, [36032; 36154]%N);
   ((-7343836742179655, -50)%Z, [36040; 36158]%N);
   ((-5507024697473943, -50)%Z, [36213; 36249]%N);
   ((-2946202352735379, -49)%Z, [36830; 36899]%N);
   ((-56745164853821, -43)%Z, [37049; 37138; 37666; 38065]%N);
   ((-4035296707277445, -50)%Z, [37073; 37165]%N);
   ((-8166742919960423, -50)%Z, [37101; 38263; 38271; 38518]%N);
   ((-7693402374346169, -51)%Z, [37329]%N);
   ((-8692058711542787, -51)%Z, [38472; 38515]%N);
   ((-1291228614545547, -48)%Z, [38867; 38889]%N);
   ((-5732053657885235, -50)%Z, [38989; 39069]%N);
   ((-4833512213150637, -50)%Z, [39640]%N);
   ((-2934829239591997, -49)%Z, [39791; 40065]%N);
   ((-1329891571503621, -48)%Z, [40643; 40644]%N);
   ((-831259103150583, -47)%Z, [40845; 40857]%N)];
  (* ('B', 'nrt') *)
  [
   ((-4034690878512697, -49)%Z, [19968]%N);
   ((-185918587065503, -44)%Z, [19969; 20004; 20061; 20065; 20381; 20841; 21488; 21566; 21697; 22218; 22338; 23447;
     23546; 23558; 23559; 23562; 23913; 24072; 24107; 24471; 25265; 25463; 26060; 26131; 26441; 26708; 26805; 27575;
     27605; 28363; 28388; 28670; 29463; 30050; 30707; 31456; 32340; 32455; 32899; 32901; 33606; 33610; 33678; 34003;
     34028; 34701; 35336; 35745; 36855; 37129; 37857; 38236]%N);
   ((-7962072034462551, -50)%Z, [19975; 33836]%N);
   ((-2792574889483093, -49)%Z, [19977]%N);
   ((-3432085935655143, -49)%Z, [19978; 33707]%N);
   ((-2665465524681151, -48)%Z, [19979; 19992; 20840; 21200; 21331; 21512; 22378; 22763; 23614; 24039; 24441; 24544;
     24646; 24658; 26463; 27766; 27934; 27986; 28408; 29420; 29544; 30005; 32321; 32326; 32554; 32918; 32933; 33426;
     33682; 34913; 36637; 36745; 38651; 38761; 40607]%N);
   ((-1890977186524121, -48)%Z, [19981; 23500; 24310]%N);
   ((-8088304889972101, -50)%Z, [19996; 23389; 26481; 29916; 32034]%N);
   ((-553112256440379, -46)%Z, [19997; 20027; 21270; 21733; 22987; 23376; 32114; 36196]%N);
   ((-5058558041752737, -50)%Z, [20013]%N);
   ((-1311037982833421, -47)%Z, [20016; 20998; 21051; 21916; 22240; 22266; 22530; 22900; 24120; 24214; 24311; 24429;
     25196; 25562; 26071; 26087; 26413; 26612; 27427; 27712; 29554; 30860; 31471; 33290; 33719; 35920; 36213; 36234;
     36249; 36828; 36960; 37504; 38134; 39825; 40077]%N);
   ((-1919305820599037, -48)%Z, [20020; 23068; 25096; 27743; 33256]%N);
   ((-8167347858272267, -50)%Z, [20025; 27807; 28317; 32002; 32419]%N);
   ((-837133225171755, -47)%Z, [20026; 28858]%N);
   ((-8742486380483221, -50)%Z, [20029; 21521; 24222; 40599; 40848]%N);
   ((-5043361788256825, -49)%Z, [20037; 20309; 20449; 20919; 21452; 22478; 22799; 23380; 26354; 27953; 28037; 28504;
     34121; 34382; 36784; 38617; 40778; 40784]%N);
   ((-2584490220037713, -48)%Z, [20041; 20358; 20844; 21382; 21520; 22438; 22718; 22812; 23395; 23398; 23416; 25514;
     26469; 27511; 29579; 29791; 31062; 31216; 31281; 32681; 32908; 32946; 33311; 33909; 36845; 40643; 40644;
     40723]%N);
   ((-6748122907663303, -50)%Z, [20044; 22467; 28879]%N);
   ((-8613671776750367, -50)%Z, [20048; 20908; 21608; 26417; 27138; 36913]%N);
   ((-3752779453507817, -49)%Z, [20052; 21932]%N);
   ((-4940723876351967, -49)%Z, [20080; 21525; 21570; 21628; 23882; 25505; 26420; 27192; 27453; 27818; 27837; 28396;
     35937; 36023; 36838; 37319; 37615; 38054; 38150]%N);
   ((-1808177372237717, -49)%Z, [20108]%N);
   ((-2326577307623245, -48)%Z, [20110; 20694; 22855; 23452; 25552; 26044; 26531; 26607; 26839; 27982; 28639; 29748;
     31179; 33391; 37027; 37117]%N);
   ((-4853944758323349, -49)%Z, [20113; 20964; 20986; 21046; 23721; 24800; 26797; 26862; 27973; 28154; 33445; 36039;
     36164; 38642; 40179; 40372; 40548]%N);
   ((-6343065830562989, -50)%Z, [20116]%N);
   ((-148270144969917, -44)%Z, [20117; 23435; 23578; 27748; 28074; 28271; 38593; 38706]%N);
   ((-5386781338213117, -50)%Z, [20122; 20126]%N);
   ((-679196120158395, -46)%Z, [20132; 20170; 20180; 20892; 21451; 21460; 21547; 22868; 23418; 23432; 23445; 23731;
     24198; 24950; 25968; 25976; 26000; 26497; 26725; 26997; 27211; 28113; 28153; 29245; 29642; 30002; 30928; 32784;
     32993; 36215; 36786; 37202; 37782; 38145; 38472; 38515; 39854; 40092; 40575]%N);
   ((-2678856605649659, -49)%Z, [20136; 23041]%N);
   ((-1247426731743851, -47)%Z, [20140; 20237; 22443; 22666; 24464; 28526; 29275; 30452; 30917; 32048; 32057; 32454;
     32461; 37628; 37675; 37679; 38050; 38169; 38177; 38634; 38915; 39031; 40180; 40483; 40660]%N);
   ((-550804877786517, -46)%Z, [20160; 26580; 26753; 33485; 33980; 34276; 37941; 38081]%N);
   ((-4815105224533367, -49)%Z, [20161; 20852; 24425; 28748; 31649; 31934; 32043; 33288; 33457; 33576; 38471;
     38580]%N);
   ((-6339601959106431, -49)%Z, [20179; 20185; 20210; 20426; 20489; 20843; 20940; 21073; 21133; 21305; 21360; 21517;
     21555; 21556; 21888; 22343; 22372; 22616; 22920; 22934; 23020; 23229; 23439; 23556; 24066; 24218; 24278; 24322;
     24688; 24698; 24887; 25581; 25958; 26089; 26472; 26575; 26954; 26976; 27004; 27054; 27155; 27425; 27714; 27835;
     27943; 28193; 28625; 28712; 29151; 29255; 29380; 29995; 30064; 30342; 30427; 30554; 31034; 31070; 31574; 31684;
     31903; 32000; 32426; 32736; 32752; 33459; 33469; 33539; 33635; 33829; 34013; 34180; 34253; 34926; 34974; 35032;
     35264; 35266; 35566; 35864; 36275; 36879; 38518; 38539; 38596; 38654; 38695; 38920; 39035; 39080; 39118; 39423;
     39567; 39822; 40071; 40165; 40251; 40479; 40511; 40667]%N);
   ((-1170507543233197, -47)%Z, [20195; 21069; 21490; 26771; 27744; 29645; 35258; 35273]%N);
   ((-1919290660664295, -49)%Z, [20196]%N);
   ((-5507332995049821, -50)%Z, [20234]%N);
   ((-71101823489713, -43)%Z, [20241; 24093; 33337]%N);
   ((-2447831918897717, -48)%Z, [20248; 20462; 20778; 21491; 23451; 23486; 23569; 26149; 32903; 33593; 36051; 37670;
     38182; 38989; 39069; 40654]%N);
   ((-4505456664785099, -49)%Z, [20250; 20885; 22374; 23481; 26371; 33298]%N);
   ((-997407709989041, -47)%Z, [20262; 20523; 21346; 23466; 25010; 30439; 39759]%N);
   ((-3639811894844377, -49)%Z, [20271; 20478; 32013; 32435]%N);
   ((-503173213593647, -46)%Z, [20285; 21271; 30000; 38669; 39321]%N);
   ((-496571305608669, -46)%Z, [20294; 36947]%N);
   ((-4148701903560937, -49)%Z, [20304; 22303; 33293]%N);
   ((-4712467312628509, -49)%Z, [20313; 23478; 24040; 26524; 29417; 33620; 39192]%N);
   ((-8583645999844905, -50)%Z, [20315; 25152; 28147; 29677; 29702; 32654; 36084; 36182]%N);
   ((-7148046240012679, -50)%Z, [20329]%N);
   ((-8444469058337013, -50)%Z, [20399; 20803; 23519; 27896; 27901; 28580; 28696; 32780; 32943]%N);
   ((-773521974082185, -47)%Z, [20445]%N);
   ((-936780404351805, -47)%Z, [20625; 25991; 26480]%N);
   ((-4354437466027009, -49)%Z, [20809; 21029; 21035; 22862; 31206; 36797; 36988; 37492; 37969]%N);
   ((-5134851386195509, -50)%Z, [20811]%N);
   ((-7450084637528859, -50)%Z, [20837; 40657]%N);
   ((-7022817307803565, -50)%Z, [20839; 20869]%N);
   ((-6291609780216387, -50)%Z, [20848; 34349]%N);
   ((-3998358921044421, -49)%Z, [20857; 33586]%N);
   ((-5559187613085761, -49)%Z, [20859; 21242; 22317; 22521; 22865; 22937; 23696; 24046; 24433; 24517; 24609; 25343;
     26366; 26477; 27178; 27243; 27688; 27754; 28073; 28189; 28286; 28390; 28544; 28595; 28771; 28772; 29662; 30095;
     30347; 32701; 33021; 33821; 33970; 34367; 35090; 36930; 37011; 37159; 38313; 38397; 38622; 39178; 40481;
     40635]%N);
   ((-8525894884472311, -50)%Z, [20872; 23713; 26611; 36093; 36187]%N);
   ((-3932052966607839, -49)%Z, [20877; 21319]%N);
   ((-4443982928459767, -49)%Z, [20912; 24029; 26093; 26408]%N);
   ((-7115409174947487, -50)%Z, [20937; 27874; 28092]%N);
   ((-4778773267065091, -49)%Z, [20961; 24038; 33394; 36763]%N);
   ((-740625225245285, -47)%Z, [20975; 20977]%N);
   ((-7717679128236441, -50)%Z, [20999; 22269; 22283; 36890; 38647]%N);
   ((-440328827406461, -46)%Z, [21015]%N);
   ((-8320619060662595, -50)%Z, [21016; 21129; 24179; 26494; 28789; 38728]%N);
   ((-6401243342421211, -50)%Z, [21033]%N);
   ((-4277200101061641, -49)%Z, [21106; 26126; 26460; 27796; 32016; 32445; 32771; 35140; 38451; 38525]%N);
   ((-1275668621409711, -47)%Z, [21147; 21551; 21855; 22806; 24109; 24352; 24373; 26102; 26178; 26421; 26726; 27194;
     27494; 27611; 28006; 28548; 29785; 35449; 36040; 36158; 37325; 38745; 38748; 38867; 38889]%N);
   ((-377089349875631, -46)%Z, [21152]%N);
   ((-6476184103243583, -50)%Z, [21162]%N);
   ((-4574475636296323, -49)%Z, [21171; 21214; 23621; 24220; 26106; 26410; 26495; 34255; 38453; 38499]%N);
   ((-2161130069809087, -48)%Z, [21187; 21531; 27827; 28909; 29105]%N);
   ((-6916855161591711, -50)%Z, [21202; 29595; 29802]%N);
   ((-1969963260438029, -48)%Z, [21246; 37806; 38215]%N);
   ((-1844186075820695, -48)%Z, [21326; 33775]%N);
   ((-5737560530487855, -50)%Z, [21335]%N);
   ((-7270357071477683, -50)%Z, [21338; 30331; 33521]%N);
   ((-2720900395261347, -49)%Z, [21345]%N);
   ((-8393282975599147, -50)%Z, [21355; 23588; 34907; 35613; 35874; 36817; 38598]%N);
   ((-1097141523513689, -47)%Z, [21380; 21496; 22818; 23494; 25140; 26790; 30424; 30436; 36020; 36149; 37030]%N);
   ((-3515124508669781, -49)%Z, [21476; 23450; 27861]%N);
   ((-8968421497810101, -50)%Z, [21487; 22857; 23786; 24605; 26705; 30591]%N);
   ((-2231868792656507, -48)%Z, [21494; 21518; 24460; 31481; 33673; 33865]%N);
   ((-2886805816487101, -49)%Z, [21513]%N);
   ((-7731494024342515, -50)%Z, [21516; 38464]%N);
   ((-7625448647681031, -50)%Z, [21644; 33406]%N);
   ((-4999319650635781, -50)%Z, [21704]%N);
   ((-7600427620045375, -50)%Z, [21738]%N);
   ((-8676237866988827, -50)%Z, [21746; 26114; 28304]%N);
   ((-7848576033111831, -50)%Z, [21776; 26412; 38859; 38886]%N);
   ((-2263767981713945, -48)%Z, [22025; 22856; 23425; 23448; 23527; 23729; 26124]%N);
   ((-5721138222372637, -49)%Z, [22030; 22362; 22533; 22575; 22609; 23431; 23553; 23591; 23707; 23714; 23798; 24357;
     24396; 25945; 26041; 26143; 26195; 26228; 26313; 26397; 26446; 26742; 26893; 27792; 27803; 27863; 27941; 28062;
     28142; 28145; 28150; 28228; 29159; 29422; 29509; 30003; 30041; 30053; 31168; 32032; 33453; 33618; 33738; 35382;
     35779; 35895; 36002; 36129; 38931; 39039; 39131; 39134; 40441; 40560; 40860; 40863]%N);
   ((-7190219706181275, -50)%Z, [22134]%N);
   ((-2983854280821317, -49)%Z, [22235]%N);
   ((-6103226020275003, -50)%Z, [22270; 22294; 24076]%N);
   ((-1725862858242219, -48)%Z, [22307; 30422; 32854; 33995]%N);
   ((-7131609453104389, -50)%Z, [22312; 29747]%N);
   ((-3599423666945829, -49)%Z, [22320]%N);
   ((-894544437766445, -47)%Z, [22350]%N);
   ((-1596078049424341, -48)%Z, [22522]%N);
   ((-5844160875788855, -50)%Z, [22612]%N);
   ((-6396986626927963, -50)%Z, [22622]%N);
   ((-7895823520968157, -50)%Z, [22696; 27764; 33487; 34311]%N);
   ((-567085519938327, -47)%Z, [22810]%N);
   ((-5540593968797021, -50)%Z, [22823; 22840; 35463]%N);
   ((-6012099327174597, -50)%Z, [22825]%N);
   ((-1328664712867535, -48)%Z, [22826]%N);
   ((-4172161546058577, -49)%Z, [22827; 28201; 28331; 31435]%N);
   ((-5651085325146031, -50)%Z, [22885; 22887]%N);
   ((-2312844097299945, -48)%Z, [22958; 24402; 24535; 26118; 27491; 27512; 27966; 30416; 31532; 32143; 32485; 38738;
     40573]%N);
   ((-4249046737128555, -49)%Z, [22982; 23391; 29632]%N);
   ((-4007224457866097, -49)%Z, [23110]%N);
   ((-4126180902303551, -49)%Z, [23386; 24247; 30410; 33714; 34030; 36830; 36899; 38272; 38376]%N);
   ((-6074148079416433, -50)%Z, [23433]%N);
   ((-4073530412302679, -49)%Z, [23436; 26185; 26187]%N);
   ((-6965066192430971, -50)%Z, [23449]%N);
   ((-6205962890977123, -50)%Z, [23453; 23542]%N);
   ((-7091537611328815, -50)%Z, [23467; 23470]%N);
   ((-6471635006522263, -50)%Z, [23567]%N);
   ((-6388521174213445, -50)%Z, [23572; 29246]%N);
   ((-744161529089211, -47)%Z, [23612]%N);
   ((-2588591718258387, -49)%Z, [23665]%N);
   ((-7736622486445809, -51)%Z, [23815]%N);
   ((-5730486790527345, -50)%Z, [24050]%N);
   ((-2549704255478259, -49)%Z, [24052]%N);
   ((-5260732210964973, -50)%Z, [24067]%N);
   ((-7225134128840891, -50)%Z, [24085]%N);
   ((-8368536926571975, -50)%Z, [24191; 24291; 24576; 25079; 30495]%N);
   ((-5889255945487519, -50)%Z, [24211; 24235; 31859]%N);
   ((-6765669754863171, -50)%Z, [24314]%N);
   ((-7664054712316343, -50)%Z, [24320; 32160; 32511; 38283]%N);
   ((-6030357563616235, -50)%Z, [24343]%N);
   ((-3163490636314449, -49)%Z, [24444]%N);
   ((-1943496464025653, -48)%Z, [24481; 31142]%N);
   ((-173769634486635, -45)%Z, [24503]%N);
   ((-7181657688441881, -50)%Z, [24681; 29790]%N);
   ((-1879247365275301, -48)%Z, [24859; 29233; 33509]%N);
   ((-645361896859545, -47)%Z, [24904]%N);
   ((-3663568582439097, -49)%Z, [24935; 31119]%N);
   ((-4599499753965069, -49)%Z, [25104; 26681; 26970; 29113; 29577; 37326]%N);
   ((-7460962982124305, -50)%Z, [25166]%N);
   ((-6129719005117101, -50)%Z, [25176]%N);
   ((-576991796532693, -47)%Z, [25289]%N);
   ((-1926007922385567, -48)%Z, [25308]%N);
   ((-6653547344297219, -50)%Z, [25442; 25563; 37329]%N);
   ((-6123037086948207, -50)%Z, [25705]%N);
   ((-457342045540981, -46)%Z, [25746]%N);
   ((-5381596832167245, -50)%Z, [26031]%N);
   ((-5711837918516621, -50)%Z, [26032]%N);
   ((-7243005931177239, -50)%Z, [26045]%N);
   ((-3549719347865723, -49)%Z, [26085]%N);
   ((-6462591585156569, -50)%Z, [26157]%N);
   ((-6664270281603521, -50)%Z, [26222]%N);
   ((-2104646290477367, -48)%Z, [26364]%N);
   ((-3819085407944399, -49)%Z, [26391; 33452]%N);
   ((-7928460586033349, -50)%Z, [26519]%N);
   ((-1692895001041591, -48)%Z, [26597; 35946]%N);
   ((-2958325727676685, -49)%Z, [26684]%N);
   ((-1815291500197381, -48)%Z, [26757]%N);
   ((-214304889683379, -45)%Z, [27431; 27472]%N);
   ((-116749179040413, -44)%Z, [27468; 38750]%N);
   ((-5836387082603387, -50)%Z, [27604]%N);
   ((-506721969431179, -46)%Z, [27607]%N);
   ((-55341340524961, -43)%Z, [27700]%N);
   ((-2031783218099497, -48)%Z, [27704]%N);
   ((-829050382832309, -47)%Z, [27721; 28450]%N);
   ((-7833257430729697, -50)%Z, [27779; 30333]%N);
   ((-3775997175093517, -49)%Z, [27801]%N);
   ((-3425688708252257, -49)%Z, [27888]%N);
   ((-6024238527321937, -50)%Z, [27931]%N);
   ((-2743161613425327, -49)%Z, [28023]%N);
   ((-3879821494083269, -49)%Z, [28165]%N);
   ((-3603770792434713, -49)%Z, [28359]%N);
   ((-3703796402884381, -49)%Z, [28800; 29036]%N);
   ((-7690547697158441, -50)%Z, [28814]%N);
   ((-5427342808135935, -50)%Z, [29305]%N);
   ((-7745480538451641, -50)%Z, [29486; 29563]%N);
   ((-3709033184400337, -49)%Z, [29627]%N);
   ((-6986377236997793, -50)%Z, [29756; 29898]%N);
   ((-3123056342383109, -49)%Z, [29926; 33778]%N);
   ((-7107395618649567, -50)%Z, [29976]%N);
   ((-89175368252771, -44)%Z, [30028]%N);
   ((-7540204714641925, -50)%Z, [30382]%N);
   ((-5673205877670185, -50)%Z, [31185]%N);
   ((-5790838852883989, -50)%Z, [31302]%N);
   ((-1381204820308891, -48)%Z, [32004; 32422]%N);
   ((-5936232816852495, -50)%Z, [32173; 32500]%N);
   ((-5785889834335979, -50)%Z, [32599; 32645]%N);
   ((-1026131577825813, -47)%Z, [32769; 37118]%N);
   ((-7912023799125059, -50)%Z, [32822]%N);
   ((-6820013274024705, -50)%Z, [33107]%N);
   ((-1636680704714381, -48)%Z, [33258]%N);
   ((-3013646944254983, -49)%Z, [33433]%N);
   ((-8470962043179111, -50)%Z, [33538; 37666; 38065]%N);
   ((-8230498983549529, -50)%Z, [33609; 36106; 36190]%N);
   ((-7612868629578477, -50)%Z, [33655; 40845; 40857]%N);
   ((-5883855935582851, -50)%Z, [33713; 33802]%N);
   ((-1659413005695001, -48)%Z, [33832; 34217]%N);
   ((-3787975285558343, -49)%Z, [33922]%N);
   ((-7803231653824235, -50)%Z, [33945; 40664]%N);
   ((-5578969160114149, -50)%Z, [35041; 37324]%N);
   ((-5515071169199653, -50)%Z, [35199]%N);
   ((-5145985221368611, -50)%Z, [35582; 35834]%N);
   ((-6272428738688357, -50)%Z, [35997; 36125]%N);
   ((-3254276532492027, -49)%Z, [36027; 36153]%N);
   ((-3678319206757841, -49)%Z, [36203]%N);
   ((-6359383506134819, -50)%Z, [36335]%N);
   ((-617297593953343, -47)%Z, [36798; 36948]%N);
   ((-1670137159025909, -48)%Z, [36808; 36993]%N);
   ((-7651038383451947, -50)%Z, [36842]%N);
   ((-3714319138292917, -49)%Z, [37509; 38108]%N);
   ((-1395256399717965, -48)%Z, [38263; 38271]%N);
   ((-3126314755948203, -50)%Z, [38358; 38383]%N);
   ((-4071251360651351, -50)%Z, [38463]%N);
   ((-3356914444396885, -49)%Z, [38597]%N);
   ((-1624802360917021, -48)%Z, [38918; 39034]%N);
   ((-1391677196473645, -48)%Z, [39340; 39532]%N);
   ((-3087072852863701, -49)%Z, [39640]%N);
   ((-7528537253683973, -50)%Z, [39791; 40065]%N);
   ((-6910133351137771, -50)%Z, [40613; 40614]%N)];
  (* ('B', 'ns') *)
  [
   ((-4399683292311619, -49)%Z, [19968]%N);
   ((-713842348831583, -46)%Z, [19969; 21519; 24180; 24331; 24565; 26417; 26524; 27167; 27901; 27974; 28197; 28479;
     28580; 34398; 37103; 38596]%N);
   ((-4304095757846277, -49)%Z, [19971]%N);
   ((-1978992746178071, -48)%Z, [19975; 33836]%N);
   ((-830838539398741, -47)%Z, [19977]%N);
   ((-8425128450416947, -51)%Z, [19978]%N);
   ((-4205326933016335, -49)%Z, [19979; 21555; 21556]%N);
   ((-8636301433898955, -50)%Z, [19981]%N);
   ((-7006978961502269, -49)%Z, [19982; 20141; 20309; 21029; 21035; 21153; 21209; 21378; 21472; 21576; 21943; 22132;
     22260; 22285; 22763; 23545; 23565; 23572; 24184; 24288; 24413; 25165; 25265; 25794; 26426; 26533; 27224; 27231;
     27370; 27837; 28073; 28544; 28640; 28845; 29246; 29748; 30005; 30090; 30971; 30977; 31069; 31179; 31446; 31567;
     31584; 32048; 32454; 32737; 33287; 33322; 33548; 33725; 34164; 34314; 34434; 34718; 35918; 36877; 36974; 37041;
     37118; 38275; 38378; 38651; 39237; 39314; 39854; 40092; 40165; 40251; 40479; 40511]%N);
   ((-5320531617642329, -49)%Z, [19988; 20975; 20977; 23810; 23959; 25773; 36664; 36755; 40635]%N);
   ((-6064614006194723, -49)%Z, [19992; 20018; 20559; 20826; 21270; 22804; 25912; 26122; 27811; 28739; 30772; 33804;
     35029; 40680]%N);
   ((-6845028352215393, -49)%Z, [19995; 20405; 20613; 20896; 20928; 21319; 21416; 21457; 21474; 22346; 22443; 22666;
     22687; 23492; 23609; 24222; 24282; 24481; 24635; 25250; 25438; 25514; 25654; 25736; 26228; 26441; 26638; 27359;
     27773; 27978; 28136; 28373; 28609; 29260; 30332; 30721; 30883; 30908; 31109; 31142; 31146; 31449; 32317; 32997;
     33324; 33688; 33769; 33789; 33891; 35090; 35449; 35563; 35855; 35998; 36126; 36824; 36996; 37679; 38169; 38393;
     38995; 39015; 39038; 39067; 39719; 40848]%N);
   ((-4886155117924465, -50)%Z, [19996; 26481]%N);
   ((-4078415628612725, -49)%Z, [20004; 20841]%N);
   ((-1216004622548853, -47)%Z, [20005; 22196; 26366; 32013; 32435]%N);
   ((-4880950592220269, -49)%Z, [20006; 24182; 36039; 36164]%N);
   ((-5104926147074031, -49)%Z, [20010; 20491; 32842; 38472; 38515]%N);
   ((-4619428832866783, -51)%Z, [20013]%N);
   ((-4637153645236199, -49)%Z, [20016; 35920]%N);
   ((-3508841047088353, -49)%Z, [20020; 33256]%N);
   ((-7140571791335025, -50)%Z, [20025; 25289]%N);
   ((-4628854478418917, -49)%Z, [20029; 38989; 39069; 40599]%N);
   ((-2828541964685621, -48)%Z, [20035; 20171; 20892; 22314; 23467; 23470; 23703; 23729; 23831; 26410; 28748; 35519;
     35843; 36786]%N);
   ((-7625442698236063, -49)%Z, [20037; 20065; 20859; 21193; 21439; 21895; 22030; 22218; 22338; 22363; 22564; 22727;
     22756; 22764; 22842; 22890; 22902; 22949; 23013; 23383; 23429; 23627; 23648; 23697; 24339; 24555; 24618; 25163;
     25554; 25918; 26106; 26434; 26590; 26657; 26848; 26862; 26928; 27088; 27425; 27515; 27898; 28186; 28668; 28809;
     29200; 29399; 29492; 29791; 30010; 30446; 30718; 30779; 30827; 30917; 31020; 31025; 31216; 31281; 31291; 31302;
     31616; 31777; 32113; 32291; 32479; 32568; 32773; 33021; 33293; 33492; 33500; 33603; 33631; 33931; 33976; 34081;
     34083; 34184; 34203; 34562; 34915; 35486; 35673; 35731; 35753; 35821; 35887; 35946; 36601; 36725; 36817; 36874;
     36956; 37129; 37155; 37326; 38466; 38620; 38706; 38754; 38795; 38801; 38851; 38988; 39064; 39154; 39178; 39278;
     39881; 40100; 40300; 40527; 40664; 40852; 40858]%N);
   ((-2302333375259817, -48)%Z, [20041; 32681]%N);
   ((-7803366459413191, -50)%Z, [20043; 20315]%N);
   ((-6502391814763353, -50)%Z, [20044; 28879]%N);
   ((-2387727530101283, -48)%Z, [20045; 20250; 24217; 24287; 26371; 28463]%N);
   ((-8548129280986037, -50)%Z, [20048; 27138]%N);
   ((-2625035516073153, -48)%Z, [20052; 21932; 25581]%N);
   ((-7309253883318303, -50)%Z, [20061]%N);
   ((-5998308051758141, -49)%Z, [20062; 22937; 22987; 23396; 25941; 26681; 27852; 27877; 28617; 29796; 29814; 30246;
     34676; 37124]%N);
   ((-2505441528947031, -48)%Z, [20063; 20914; 21315; 25176; 34909]%N);
   ((-839926212549599, -46)%Z, [20064; 22433; 22805; 23792; 24265; 24357; 24396; 26093; 26280; 26432; 26497; 26997;
     27468; 27578; 27796; 27817; 27867; 28180; 28296; 28304; 28417; 29723; 30338; 30402; 31680; 32047; 32218; 32244;
     32447; 32451; 32676; 32722; 33298; 33410; 33777; 35910; 36784; 38541; 38548; 39250; 39286; 40442; 40557]%N);
   ((-5284199660174053, -49)%Z, [20070; 21363; 26360; 33670]%N);
   ((-1632498167615829, -47)%Z, [20081; 20098; 20134; 20136; 20237; 20415; 21089; 21483; 21534; 21621; 22240; 24466;
     25995; 26174; 27833; 27850; 28044; 28129; 28263; 28294; 30002; 30008; 30791; 30910; 31062; 32033; 32350; 32442;
     32469; 32918; 33459; 33647; 34277; 34892; 36611; 36739; 36814; 37030; 38920; 39023; 39035; 39515; 39551; 40703;
     40715; 40779]%N);
   ((-5623959672624045, -49)%Z, [20083; 23506; 23706; 23888; 25298; 26825; 37049; 37101; 37138]%N);
   ((-5534887476258187, -49)%Z, [20094; 21487; 24685; 26143; 32858; 37013; 37150]%N);
   ((-7699629716484789, -50)%Z, [20108]%N);
   ((-8931064984394083, -50)%Z, [20110; 26044]%N);
   ((-1521344171318847, -48)%Z, [20113; 38642]%N);
   ((-3308385894245967, -48)%Z, [20114; 20581; 21547; 22534; 23002; 23624; 23830; 24452; 24465; 24509; 25106; 26507;
     26550; 26827; 27204; 28404; 29657; 30806; 30820; 32080; 32467; 32831; 34071; 34746; 36291; 36493]%N);
   ((-7714872901899459, -50)%Z, [20116]%N);
   ((-4463481670426495, -49)%Z, [20117]%N);
   ((-699259403405083, -47)%Z, [20122; 20126]%N);
   ((-1282778646927213, -47)%Z, [20132; 24212; 25033; 26495]%N);
   ((-1568886916526259, -47)%Z, [20139; 20498; 21213; 22275; 22577; 23547; 23563; 23704; 23796; 24061; 25253; 25376;
     25747; 26102; 26178; 28041; 30964; 31665; 31792; 32988; 34276; 40475; 40563]%N);
   ((-3344548127883969, -49)%Z, [20140]%N);
   ((-324682060363983, -45)%Z, [20147; 26447]%N);
   ((-2334337808280609, -48)%Z, [20154; 27863; 36838]%N);
   ((-2804050439373903, -48)%Z, [20160; 22841; 22846; 27054; 27988; 28514; 28527; 30562; 31661; 33635; 36808; 36993;
     38272; 38376]%N);
   ((-4680590346035949, -49)%Z, [20161; 20803]%N);
   ((-2616876249806855, -48)%Z, [20174; 21322; 24478; 30913; 33107; 38292; 38389]%N);
   ((-2969497677188061, -48)%Z, [20179; 20219; 20489; 20988; 21220; 21496; 25142; 25143; 26898; 27463; 27705; 29279;
     30887; 31354; 32166; 32321; 33463; 34255; 34527; 34784; 37071; 37087]%N);
   ((-2272414088691947, -48)%Z, [20185]%N);
   ((-6100945963662999, -49)%Z, [20195; 25343; 25528; 25552; 25763; 26060; 26391; 28195; 29256; 32705; 34241; 35373;
     35774; 36093; 36187; 36629; 36731; 37090; 37193; 38686]%N);
   ((-3908516151867957, -49)%Z, [20197; 22865]%N);
   ((-5117868095287803, -49)%Z, [20202; 20736; 22134; 22993; 26157; 33391]%N);
   ((-5165662233212901, -49)%Z, [20208; 23569; 25115; 27779; 29436]%N);
   ((-5967870912062419, -49)%Z, [20210; 20840; 21200; 24013; 24178; 24185; 25096; 25305; 26195; 26313; 26686; 27410;
     27838; 28049; 28625; 28712; 30053; 34849]%N);
   ((-1524645000429503, -48)%Z, [20234]%N);
   ((-8203223209207613, -50)%Z, [20239]%N);
   ((-5217893705737471, -49)%Z, [20241; 24038; 39318]%N);
   ((-6618959614410699, -50)%Z, [20262; 20523]%N);
   ((-5458002285188209, -49)%Z, [20266; 20605; 26376; 31471; 33310]%N);
   ((-8902662399523587, -50)%Z, [20271; 28937]%N);
   ((-182386170077227, -44)%Z, [20278; 23385; 23403; 23777; 23805; 24535; 26700; 28037; 28783; 29128; 30003; 33576;
     38497; 39438; 39569; 40723]%N);
   ((-5885340493094701, -49)%Z, [20285; 22365; 22761; 26262; 26584; 27029; 28125; 28128; 31508; 31558; 32239; 32428;
     40671]%N);
   ((-28262638770413, -41)%Z, [20301; 20312; 20874; 20876; 21295; 21463; 21592; 21729; 21807; 21947; 22681; 22721;
     23057; 23386; 23466; 23715; 23748; 23975; 24102; 24118; 24324; 24609; 25010; 25140; 25159; 25171; 25321; 25799;
     25913; 26001; 26503; 26623; 26771; 26797; 26834; 26976; 27719; 27740; 27966; 28015; 29028; 29254; 29662; 30693;
     30860; 30865; 30928; 31181; 31278; 31499; 31565; 31570; 31867; 33421; 33431; 33479; 33894; 33909; 34092; 34188;
     36367; 36827; 36882; 36914; 36958; 37051; 37057; 37168; 37782; 38145; 38346; 38420; 38663; 38761; 38914; 39006;
     39030; 39522; 39540; 39729; 40201; 40486]%N);
   ((-2741241113464603, -48)%Z, [20304; 21696; 24402; 25152; 27512; 33899]%N);
   ((-563248580449239, -46)%Z, [20313; 39192]%N);
   ((-6139785497452981, -49)%Z, [20329; 20625; 20911; 21050; 22840; 22899; 23398; 23416; 23478; 26045; 26480; 27973;
     28154; 28478; 28814; 29066; 29467; 29632; 31287; 32189; 32496; 35463; 38498; 38592; 39342]%N);
   ((-78465851069107, -43)%Z, [20339; 26041; 26361; 28330; 33258]%N);
   ((-5038620192637449, -49)%Z, [20358; 26469; 27766; 32903; 33678; 38622; 40481]%N);
   ((-5412021641433183, -49)%Z, [20381; 23814; 24066; 26449; 31232; 32764]%N);
   ((-657301397999873, -46)%Z, [20399; 21517; 22242; 22296; 24605; 37300]%N);
   ((-5539627321846785, -50)%Z, [20420]%N);
   ((-3822938635049911, -49)%Z, [20445]%N);
   ((-8352643952841021, -50)%Z, [20449; 27178; 27243]%N);
   ((-4843545326603375, -49)%Z, [20462]%N);
   ((-5577663739052085, -49)%Z, [20478; 20747; 23556; 28189; 30417; 30435; 31481; 36650; 36718; 37017]%N);
   ((-618072137932185, -46)%Z, [20547; 23162; 37075; 37126; 40778; 40784]%N);
   ((-6329202527386457, -49)%Z, [20808; 21514; 22313; 22615; 23558; 23559; 23573; 25114; 25391; 25490; 25942; 27573;
     27807; 27964; 28010; 28034; 28317; 28525; 28532; 28710; 31377; 31402; 31407; 32115; 32475; 34945; 36305]%N);
   ((-5241852638692161, -49)%Z, [20809; 21069; 38634]%N);
   ((-7743127832773617, -50)%Z, [20811]%N);
   ((-4642755183526517, -49)%Z, [20822; 20823; 24247; 31361; 32822]%N);
   ((-8306879153930595, -50)%Z, [20837; 36798; 36948]%N);
   ((-823984798136223, -47)%Z, [20839; 20869]%N);
   ((-4589100322245095, -49)%Z, [20843; 22372; 24196; 27733; 33674]%N);
   ((-2586416833590469, -48)%Z, [20844; 23696; 26000; 29934; 29973; 33590]%N);
   ((-8281209857695607, -50)%Z, [20845]%N);
   ((-3803591371740017, -49)%Z, [20848; 34349]%N);
   ((-5434542642690569, -49)%Z, [20849; 21202; 22920; 23229; 23723; 23725; 23994; 24494; 31168; 34905; 38296;
     38392]%N);
   ((-7258824926248807, -50)%Z, [20851; 22612; 35140; 38364]%N);
   ((-3866578874736775, -49)%Z, [20852; 33288]%N);
   ((-5770051488034683, -49)%Z, [20853; 24215; 24490; 26726; 27194; 28062; 28150; 32340; 32455]%N);
   ((-4180021551313049, -49)%Z, [20864; 37666; 38065]%N);
   ((-4768373835345117, -49)%Z, [20872; 23713; 24429]%N);
   ((-5860316375425955, -49)%Z, [20885; 28851; 30382; 31036; 31150; 32032; 32786; 32899; 32901; 34503; 38002;
     38262]%N);
   ((-5210128755685547, -49)%Z, [20891; 36557; 36763; 38598]%N);
   ((-5729823667589399, -49)%Z, [20908; 21477; 21917; 22686; 23481; 26641; 27193]%N);
   ((-4782626494170603, -49)%Z, [20912; 23487; 30427; 34281]%N);
   ((-5359371151432311, -49)%Z, [20919; 24904; 28353; 28367; 29682; 29759; 39131; 39134]%N);
   ((-8402915691882839, -50)%Z, [20934; 28310]%N);
   ((-5092275053918871, -49)%Z, [20937; 27953; 28092; 33485; 33980; 36203; 38745; 38748]%N);
   ((-1318867894771449, -47)%Z, [20940; 26446; 28481; 30830; 30906; 37108; 38654; 38695; 38917; 39033; 39053]%N);
   ((-2197113272838393, -48)%Z, [20960; 23459; 24190]%N);
   ((-2299714984501839, -48)%Z, [20961]%N);
   ((-8177681851381397, -50)%Z, [20964; 40179]%N);
   ((-5548788181365787, -49)%Z, [20973; 24977; 26837; 28553]%N);
   ((-5098565062970147, -49)%Z, [20998; 28507; 28508]%N);
   ((-5640278205156641, -49)%Z, [20999; 21162; 23485; 23532; 23578; 24687; 26597; 27752; 30406; 31215; 31309;
     40718]%N);
   ((-2380690289145277, -48)%Z, [21015; 26666; 34701]%N);
   ((-4939786011105347, -49)%Z, [21016; 21129]%N);
   ((-1129284132926979, -47)%Z, [21018; 21083; 28572; 28734]%N);
   ((-8167208288349485, -50)%Z, [21033]%N);
   ((-2295832509475877, -48)%Z, [21073; 21133; 38593]%N);
   ((-6284434763816287, -50)%Z, [21152]%N);
   ((-2955764466864761, -48)%Z, [21171; 21214; 21709; 24428; 24544; 25307; 26149; 26707; 27818; 28103; 28396; 29554;
     30028; 31526; 33495; 33620; 33719; 33922; 37099; 38911]%N);
   ((-325154340905905, -45)%Z, [21187; 23574; 30720; 30893; 37019]%N);
   ((-8994453199464137, -50)%Z, [21253]%N);
   ((-7981209042759145, -50)%Z, [21256]%N);
   ((-8190876916636387, -51)%Z, [21271]%N);
   ((-298689334851783, -45)%Z, [21305; 31649]%N);
   ((-94226334033859, -43)%Z, [21307; 21367; 22435; 22438; 22575; 22718; 22812; 23546; 23591; 23700; 27839; 31684;
     32318; 32489; 33454; 33539; 36229; 37291]%N);
   ((-4721152757845271, -49)%Z, [21313]%N);
   ((-8898662750888161, -50)%Z, [21320]%N);
   ((-5584780691173515, -50)%Z, [21326; 33775]%N);
   ((-2906688351278761, -48)%Z, [21329; 22797; 23110; 23436; 29702; 33426; 36801; 36983; 37112; 37170; 38859;
     38886]%N);
   ((-3090752288462533, -48)%Z, [21331; 21892; 24093; 25160; 25494; 26092; 26413; 26792; 27986; 28408; 28459; 29701;
     29749; 29807; 31105; 32160; 32511; 33529; 33618; 34315; 35611; 35762; 37257; 39809; 40069]%N);
   ((-3227410589602529, -48)%Z, [21333; 21508; 21934; 22369; 22484; 22836; 23707; 23798; 24709; 24742; 26465; 26781;
     29863; 30496; 31038; 32178; 32593; 32834; 32886; 32946; 33026; 33510; 33738; 34903; 35613; 35874; 36040; 36158;
     36562; 36713; 38442; 38957; 39080; 39118; 39986; 40140; 40441; 40560; 40594]%N);
   ((-8977240255956967, -51)%Z, [21335]%N);
   ((-8382536856682441, -50)%Z, [21338; 25991]%N);
   ((-8318743330169355, -50)%Z, [21345]%N);
   ((-8447485651944951, -50)%Z, [21346; 30439]%N);
   ((-2233795406209263, -48)%Z, [21351; 27764; 33253; 33436; 34154]%N);
   ((-5563040840191273, -49)%Z, [21355; 22343; 23435; 26539; 26963; 28598; 32265; 32537; 32768; 34907]%N);
   ((-2506464366078011, -49)%Z, [21360]%N);
   ((-621145497302747, -46)%Z, [21361; 27004; 27155]%N);
   ((-2325631702613855, -48)%Z, [21380]%N);
   ((-5016322230191785, -49)%Z, [21382; 26460; 27511; 31161]%N);
   ((-2562226190163853, -48)%Z, [21407; 21491; 26297; 38450]%N);
   ((-978279487057263, -47)%Z, [21414; 24264]%N);
   ((-1286170075811963, -47)%Z, [21451; 24571; 26531; 26839; 27821; 35282]%N);
   ((-4564076204576349, -49)%Z, [21452; 26126; 27611; 28909; 29105; 29226; 38617]%N);
   ((-4209222795993343, -49)%Z, [21465; 25944]%N);
   ((-5000159877422549, -49)%Z, [21475; 33541; 38517]%N);
   ((-3485304766881841, -49)%Z, [21476]%N);
   ((-5455727314453387, -50)%Z, [21488]%N);
   ((-711534970177721, -46)%Z, [21490; 22862; 24040; 28071; 28192; 28567; 33337; 37492; 37969; 38316; 38406; 40434;
     40555]%N);
   ((-8840312911807311, -50)%Z, [21494; 23784; 33865]%N);
   ((-3964697344779291, -49)%Z, [21512]%N);
   ((-3431748143093631, -49)%Z, [21513]%N);
   ((-4237275928473583, -49)%Z, [21516]%N);
   ((-4512650850975059, -49)%Z, [21518; 24085; 24460; 25925; 32943; 38918; 39034]%N);
   ((-1901162446060271, -48)%Z, [21520]%N);
   ((-1289645252088863, -47)%Z, [21521; 36002; 36129; 36213; 36249]%N);
   ((-4964159945887473, -49)%Z, [21525; 21570; 25856]%N);
   ((-8894677260330623, -50)%Z, [21531; 25166; 39791; 40065]%N);
   ((-1238570844396671, -47)%Z, [21551; 21855; 28228]%N);
   ((-1597128806192119, -47)%Z, [21578; 23004; 23439; 26114; 26132; 28000; 28766; 31574; 32771; 33136; 33993; 37154;
     38576]%N);
   ((-4219745531401879, -49)%Z, [21608; 36913]%N);
   ((-2120700061201089, -48)%Z, [21628; 24314]%N);
   ((-4109197185543675, -49)%Z, [21644]%N);
   ((-3787961551769739, -49)%Z, [21688]%N);
   ((-874605660221101, -47)%Z, [21704]%N);
   ((-842007910663437, -47)%Z, [21733]%N);
   ((-5369514668265765, -49)%Z, [21746; 27712; 37043]%N);
   ((-8186131421296191, -50)%Z, [21776]%N);
   ((-3532620397659511, -49)%Z, [21830]%N);
   ((-7241282875429211, -50)%Z, [21888]%N);
   ((-4245554753461619, -49)%Z, [21916]%N);
   ((-3807407996212647, -49)%Z, [22025]%N);
   ((-5766820653963729, -50)%Z, [22235]%N);
   ((-4360843758521637, -49)%Z, [22238]%N);
   ((-4705204100459635, -49)%Z, [22266; 32191; 32501]%N);
   ((-2455932707700549, -48)%Z, [22269; 22283; 26049; 26791; 31163; 38626]%N);
   ((-4717926674784775, -49)%Z, [22270; 22294; 22909]%N);
   ((-2394945232660977, -48)%Z, [22278; 22291; 29420; 29544]%N);
   ((-1344961078756087, -47)%Z, [22280; 22576; 24188; 24266; 25308; 27994; 28101; 29935; 29964]%N);
   ((-7242199358920469, -50)%Z, [22303; 24310]%N);
   ((-7463356599399019, -50)%Z, [22307; 32854]%N);
   ((-1251373983972563, -47)%Z, [22317]%N);
   ((-7398320240273181, -50)%Z, [22320]%N);
   ((-2754037634149069, -48)%Z, [22350; 24037; 25329; 26646; 26866; 31455; 32736; 35365; 35767]%N);
   ((-1164975548240321, -47)%Z, [22374; 31908; 31925]%N);
   ((-2747566660042183, -48)%Z, [22378; 29325; 30095; 32147; 32463; 33406]%N);
   ((-6558917916516075, -50)%Z, [22467]%N);
   ((-6512896470247903, -50)%Z, [22478]%N);
   ((-537819442266835, -46)%Z, [22522]%N);
   ((-4921019274868473, -49)%Z, [22570; 24681; 26412]%N);
   ((-2451429011992697, -48)%Z, [22616]%N);
   ((-7823159665290727, -50)%Z, [22622]%N);
   ((-1900215249507283, -48)%Z, [22696]%N);
   ((-5266876756360907, -49)%Z, [22774; 22778; 30456]%N);
   ((-2240050663118177, -48)%Z, [22781; 23551]%N);
   ((-8943460337922359, -50)%Z, [22799]%N);
   ((-2271233898381353, -48)%Z, [22806; 33014; 33184]%N);
   ((-7924342026298757, -50)%Z, [22810; 37122]%N);
   ((-1246292637237145, -48)%Z, [22823]%N);
   ((-2774583161793777, -49)%Z, [22825]%N);
   ((-2822418581167423, -49)%Z, [22826]%N);
   ((-302471159278401, -45)%Z, [22827]%N);
   ((-5401090230904397, -49)%Z, [22839; 27969; 35299]%N);
   ((-1418601708296097, -47)%Z, [22855; 28014; 28096; 29996; 33682; 39409; 39558; 40306; 40522]%N);
   ((-5293065196995729, -49)%Z, [22856; 27481; 38605; 38712]%N);
   ((-8510739641404537, -50)%Z, [22857; 37675; 38177]%N);
   ((-3536946265601325, -49)%Z, [22885; 22887]%N);
   ((-4819921582675213, -49)%Z, [22914; 26395; 29281; 30000; 39759]%N);
   ((-4514889223520173, -49)%Z, [22996]%N);
   ((-3820973711751647, -49)%Z, [23041]%N);
   ((-1347591762608221, -47)%Z, [23044; 23105; 26388; 28009; 28147; 28327; 28510; 31103; 31108; 36637; 36745]%N);
   ((-4800965247799413, -49)%Z, [23273]%N);
   ((-4994873923529969, -49)%Z, [23376]%N);
   ((-667452061822383, -46)%Z, [23380; 28177; 28576; 29677; 31561; 33970; 34074]%N);
   ((-4607303523271897, -49)%Z, [23389; 26087; 26519; 33290; 37011; 37159]%N);
   ((-8499480548509711, -50)%Z, [23391]%N);
   ((-6664679529584291, -50)%Z, [23425; 23527]%N);
   ((-5789299437801163, -50)%Z, [23433]%N);
   ((-6226564615481599, -49)%Z, [23447; 24055; 24149; 25240; 26526; 27141; 30347; 33609; 34770; 35412; 35791]%N);
   ((-281901333955933, -45)%Z, [23448]%N);
   ((-8347738063132029, -50)%Z, [23450]%N);
   ((-5302072588411433, -49)%Z, [23451; 23631; 31213; 33805; 33853; 36807; 36942]%N);
   ((-3792294338055285, -49)%Z, [23452]%N);
   ((-8006230070394801, -50)%Z, [23453; 23542]%N);
   ((-2568928291950383, -48)%Z, [23486; 28070; 28516; 30449; 36051]%N);
   ((-7961932464539769, -50)%Z, [23494]%N);
   ((-141805516250067, -44)%Z, [23500]%N);
   ((-1258240589134213, -47)%Z, [23519; 27426; 27489; 40575]%N);
   ((-5791297403914731, -49)%Z, [23553; 27185; 27387; 29483; 30408; 33446; 33756; 34162; 34308; 34310; 35987; 38518;
     40180; 40483]%N);
   ((-2874789162221323, -48)%Z, [23561; 25505; 28437; 30073; 32862; 32993; 35538; 35845; 37319; 38395]%N);
   ((-7972406027571681, -50)%Z, [23567]%N);
   ((-5592676627504815, -49)%Z, [23588; 27605; 27744; 29486; 29563; 30050; 31456; 32066; 32456; 32701; 33509; 36991;
     38632; 39770; 40060]%N);
   ((-3569030711304881, -49)%Z, [23612]%N);
   ((-4984448626451995, -49)%Z, [23614; 28779]%N);
   ((-587758485113567, -46)%Z, [23621]%N);
   ((-2487106445385511, -48)%Z, [23663; 24432; 27825; 37026]%N);
   ((-2487176980050223, -49)%Z, [23665]%N);
   ((-5521321760719187, -49)%Z, [23721; 25919; 26725; 27211; 28065; 28198; 28207; 28846; 37467; 38085]%N);
   ((-4612614411278241, -49)%Z, [23731]%N);
   ((-4571467338581961, -49)%Z, [23735; 25215]%N);
   ((-4523932790751423, -49)%Z, [23815]%N);
   ((-2723075134730465, -48)%Z, [23882; 28699; 29369; 29494]%N);
   ((-4408897081512741, -49)%Z, [23913]%N);
   ((-4183745599866803, -49)%Z, [24029]%N);
   ((-4797249393031415, -49)%Z, [24034; 38797]%N);
   ((-150865204147723, -44)%Z, [24041; 38799]%N);
   ((-2368783227807035, -48)%Z, [24043; 28255; 30358]%N);
   ((-1231204105956985, -48)%Z, [24052]%N);
   ((-7200794696738475, -50)%Z, [24067]%N);
   ((-1674668411431499, -48)%Z, [24076]%N);
   ((-7593321461550209, -50)%Z, [24120]%N);
   ((-3538923612043905, -49)%Z, [24179]%N);
   ((-4854151648771797, -50)%Z, [24191; 24291]%N);
   ((-4812262281484145, -49)%Z, [24198; 24950; 28558; 30410]%N);
   ((-8810386900079075, -50)%Z, [24208; 24300]%N);
   ((-8708122293830305, -50)%Z, [24211; 24235]%N);
   ((-4771903313699091, -49)%Z, [24213; 24220; 27741; 29151; 29273; 33829; 35576; 35832; 36947]%N);
   ((-6980013185465785, -50)%Z, [24320; 38283]%N);
   ((-2344847428197475, -48)%Z, [24343; 24403; 30070]%N);
   ((-488660063796785, -46)%Z, [24352; 24373]%N);
   ((-4711529447381889, -49)%Z, [24444; 28390; 28772; 39376; 39547]%N);
   ((-7500795511674937, -50)%Z, [24464]%N);
   ((-4868204010988649, -49)%Z, [24471]%N);
   ((-1288988319105195, -48)%Z, [24503]%N);
   ((-1136799624119777, -47)%Z, [24576; 25079]%N);
   ((-585451106459705, -46)%Z, [24594; 25151; 26053]%N);
   ((-5050109365971619, -49)%Z, [24646; 24658]%N);
   ((-1367527300603905, -47)%Z, [24688; 26007; 27264; 30041; 37340; 39530; 39562; 39717]%N);
   ((-4847580827421461, -49)%Z, [24713]%N);
   ((-8863291258475651, -50)%Z, [24800; 26612]%N);
   ((-1555030906219837, -48)%Z, [24847]%N);
   ((-7651138494191453, -50)%Z, [24859; 29233]%N);
   ((-8814084440042159, -50)%Z, [24917; 27491]%N);
   ((-1646814167151537, -48)%Z, [25104]%N);
   ((-7379519990542049, -50)%Z, [25196; 25562]%N);
   ((-4620675884883727, -49)%Z, [25206; 28100; 31435; 38948; 39056]%N);
   ((-8614377794480431, -50)%Z, [25242; 25771]%N);
   ((-7760427531486455, -50)%Z, [25386]%N);
   ((-7840183905756883, -50)%Z, [25463]%N);
   ((-2014028506180325, -48)%Z, [25705]%N);
   ((-4734245207317371, -49)%Z, [25746; 26472; 26954; 36106; 36190]%N);
   ((-3883126837979189, -49)%Z, [25958]%N);
   ((-7409965759211023, -50)%Z, [26031]%N);
   ((-650965143376765, -47)%Z, [26032]%N);
   ((-1946349897568611, -48)%Z, [26080; 28961]%N);
   ((-2301380219528641, -49)%Z, [26085]%N);
   ((-6791200854286839, -50)%Z, [26118]%N);
   ((-8661891169669871, -50)%Z, [26124; 33832; 34217; 35997; 36125]%N);
   ((-2458211869762197, -48)%Z, [26131; 39208; 39302]%N);
   ((-60583057657571, -43)%Z, [26185; 26187]%N);
   ((-4226423545102001, -49)%Z, [26222]%N);
   ((-8580766346051229, -50)%Z, [26223]%N);
   ((-4390617879772089, -49)%Z, [26234; 27815; 28356]%N);
   ((-2106572904030123, -48)%Z, [26354]%N);
   ((-4233181728948033, -49)%Z, [26364]%N);
   ((-6388576845920999, -50)%Z, [26397]%N);
   ((-2664996592057841, -48)%Z, [26408; 27803; 30340]%N);
   ((-4551969287348939, -49)%Z, [26462]%N);
   ((-6316208298295743, -50)%Z, [26477]%N);
   ((-7318046204929541, -50)%Z, [26494]%N);
   ((-2593728283020875, -48)%Z, [26525; 28435; 29422; 29509; 29916]%N);
   ((-7617371952448851, -50)%Z, [26575]%N);
   ((-2181276128707731, -48)%Z, [26604]%N);
   ((-8763392281377511, -50)%Z, [26611]%N);
   ((-1034002348375931, -47)%Z, [26684]%N);
   ((-7920986137355695, -50)%Z, [26690]%N);
   ((-1123224048530453, -47)%Z, [26691]%N);
   ((-8545208657021853, -50)%Z, [26704]%N);
   ((-4708357889959813, -49)%Z, [26705; 27941]%N);
   ((-242649822218787, -45)%Z, [26753; 35041; 37324]%N);
   ((-8939313372251273, -50)%Z, [26757]%N);
   ((-2489653747627715, -48)%Z, [26805; 29926; 35264; 35266; 36816; 36939]%N);
   ((-4142916841556761, -49)%Z, [26970]%N);
   ((-8698054567372055, -50)%Z, [27014]%N);
   ((-4754473130237517, -49)%Z, [27146]%N);
   ((-5251921885440419, -50)%Z, [27431; 27472]%N);
   ((-663903305984851, -46)%Z, [27453; 28286; 28771; 38054]%N);
   ((-3011258977130577, -49)%Z, [27494]%N);
   ((-474975056079649, -46)%Z, [27604]%N);
   ((-4724397435147099, -49)%Z, [27665]%N);
   ((-8803028050961809, -50)%Z, [27700]%N);
   ((-6794892332698131, -50)%Z, [27704]%N);
   ((-6812907115529539, -50)%Z, [27721; 28450]%N);
   ((-4887853052052389, -50)%Z, [27743]%N);
   ((-1150510567614717, -47)%Z, [27748; 28271]%N);
   ((-1148560363360415, -47)%Z, [27774; 29275; 35895]%N);
   ((-1079142903415109, -47)%Z, [27777]%N);
   ((-2446996243581859, -48)%Z, [27778]%N);
   ((-4835560086995355, -49)%Z, [27781; 28095; 38669]%N);
   ((-944696950634431, -47)%Z, [27784]%N);
   ((-3655600903759225, -49)%Z, [27801]%N);
   ((-8806077062459097, -51)%Z, [27827]%N);
   ((-4757916259952097, -49)%Z, [27835; 29615; 29872; 33433; 37095; 37142]%N);
   ((-2093747224019337, -48)%Z, [27849]%N);
   ((-5066994759203211, -50)%Z, [27861]%N);
   ((-3007393078450797, -49)%Z, [27874]%N);
   ((-6753747940616573, -50)%Z, [27888]%N);
   ((-4324511801053361, -49)%Z, [27896; 28696]%N);
   ((-4747649410890431, -49)%Z, [27902; 28039; 33883; 37941; 38081]%N);
   ((-4889611531564345, -49)%Z, [27915; 28074]%N);
   ((-2984739138521383, -49)%Z, [27931]%N);
   ((-294669935878981, -45)%Z, [27934; 27983; 28687]%N);
   ((-2062902291595847, -48)%Z, [27946]%N);
   ((-5073816024687975, -49)%Z, [27950]%N);
   ((-3715184445482971, -49)%Z, [27982; 28639]%N);
   ((-1158593409954163, -47)%Z, [27985; 28222]%N);
   ((-365355236949031, -46)%Z, [27993]%N);
   ((-7963671306440359, -50)%Z, [28006]%N);
   ((-5914587730218377, -50)%Z, [28023]%N);
   ((-5423169529547187, -49)%Z, [28063; 28451; 32933; 40285; 40517]%N);
   ((-818806791933089, -47)%Z, [28142]%N);
   ((-2804941043860591, -49)%Z, [28145]%N);
   ((-8132309781831583, -50)%Z, [28165]%N);
   ((-4989637142014013, -49)%Z, [28193; 28369; 32652; 39745]%N);
   ((-4698949036624137, -49)%Z, [28196; 33311]%N);
   ((-7777997197358497, -50)%Z, [28201; 28331]%N);
   ((-8120246453141359, -50)%Z, [28205]%N);
   ((-1396721589585511, -48)%Z, [28246]%N);
   ((-7014681692915801, -50)%Z, [28248]%N);
   ((-2267722730481837, -48)%Z, [28251]%N);
   ((-4677587939167539, -49)%Z, [28359]%N);
   ((-4744268319925487, -49)%Z, [28366; 33637]%N);
   ((-55623602449587, -43)%Z, [28385; 28415]%N);
   ((-2238998418989157, -48)%Z, [28392; 28657]%N);
   ((-303483729075461, -45)%Z, [28409]%N);
   ((-5055943096450595, -49)%Z, [28448; 29645; 35937; 37015; 38931; 39039]%N);
   ((-8968668105187227, -50)%Z, [28467; 37089]%N);
   ((-601058919797665, -46)%Z, [28487; 28703; 35582; 35834]%N);
   ((-4925652633974009, -49)%Z, [28493; 28656; 33714; 33831; 34030; 34157; 34425; 34444]%N);
   ((-2522167734840117, -48)%Z, [28504; 33394; 37167]%N);
   ((-540964937721805, -46)%Z, [28526]%N);
   ((-8088695529574937, -50)%Z, [28540]%N);
   ((-5151587751300889, -49)%Z, [28548; 30422; 33995; 38543; 38568]%N);
   ((-5180097638332289, -49)%Z, [28583]%N);
   ((-2952660506003653, -49)%Z, [28595]%N);
   ((-4639947447265191, -49)%Z, [28654]%N);
   ((-4196340083845645, -49)%Z, [28789; 38313; 38397; 38728]%N);
   ((-1066339763839217, -47)%Z, [28895; 29017]%N);
   ((-8397786298469521, -50)%Z, [28966]%N);
   ((-3783050288747111, -49)%Z, [29141]%N);
   ((-4654128296669899, -49)%Z, [29305]%N);
   ((-4342384729290741, -49)%Z, [29572]%N);
   ((-7821624695854829, -50)%Z, [29577]%N);
   ((-8752820373592351, -50)%Z, [29579]%N);
   ((-1142248207326989, -47)%Z, [29595; 29802]%N);
   ((-4816078905956775, -49)%Z, [29627; 40372; 40548]%N);
   ((-7485897890976061, -50)%Z, [29664]%N);
   ((-4859863859135971, -49)%Z, [29705; 36930; 38742]%N);
   ((-1146636814213995, -47)%Z, [29756; 29898]%N);
   ((-1668374298767259, -48)%Z, [29790]%N);
   ((-3376280141188433, -49)%Z, [29976]%N);
   ((-8910704575908363, -50)%Z, [30058]%N);
   ((-1105990046569103, -47)%Z, [30331]%N);
   ((-6734894126420667, -50)%Z, [30333; 30707]%N);
   ((-8867166993479587, -50)%Z, [30334]%N);
   ((-8844110216947621, -50)%Z, [30343]%N);
   ((-8964427422558675, -50)%Z, [30416; 40573]%N);
   ((-4949409321568729, -49)%Z, [30424; 30436]%N);
   ((-2009344954251203, -48)%Z, [30452]%N);
   ((-2674703587664313, -48)%Z, [30473]%N);
   ((-8295138693983617, -50)%Z, [31041]%N);
   ((-8623721415796401, -50)%Z, [31070]%N);
   ((-5086054549152319, -49)%Z, [31077; 34914]%N);
   ((-5824402585349819, -50)%Z, [31119]%N);
   ((-119161934140751, -44)%Z, [31185]%N);
   ((-8405489178504623, -50)%Z, [31192]%N);
   ((-3465140407440949, -49)%Z, [31206]%N);
   ((-5079902029405285, -49)%Z, [31532; 33743; 37045]%N);
   ((-8502284783849377, -50)%Z, [31859]%N);
   ((-4554369930447145, -49)%Z, [31934]%N);
   ((-1094982158864593, -47)%Z, [32004; 32422; 37169; 38428]%N);
   ((-7958462816472381, -50)%Z, [32005; 32418]%N);
   ((-6693030025353823, -50)%Z, [32016; 32445]%N);
   ((-4508200630539743, -49)%Z, [32034]%N);
   ((-8668380524273529, -50)%Z, [32043]%N);
   ((-8033670094021489, -50)%Z, [32057; 32461]%N);
   ((-2264254822425649, -48)%Z, [32143; 32485]%N);
   ((-3862340837505847, -49)%Z, [32173; 32500]%N);
   ((-3922435953295151, -49)%Z, [32236; 32517]%N);
   ((-5950979570616681, -50)%Z, [32599; 32645]%N);
   ((-2465162222315997, -48)%Z, [32650]%N);
   ((-3731570036981865, -50)%Z, [32654]%N);
   ((-7887966178252859, -50)%Z, [32769]%N);
   ((-8972924820680475, -50)%Z, [32852; 32879]%N);
   ((-1219167395837643, -47)%Z, [33150; 37610; 38138; 39472]%N);
   ((-2148218228327605, -48)%Z, [33437]%N);
   ((-260410855105821, -45)%Z, [33452]%N);
   ((-2105263715731757, -48)%Z, [33457]%N);
   ((-79473201412219, -44)%Z, [33487; 34311]%N);
   ((-4704674780162823, -50)%Z, [33521]%N);
   ((-4823790669750129, -49)%Z, [33538; 38534]%N);
   ((-7083407234926905, -50)%Z, [33606; 33610]%N);
   ((-7178048470451711, -50)%Z, [33655]%N);
   ((-3566112785724339, -49)%Z, [33707]%N);
   ((-7622501345862169, -50)%Z, [33713; 33802]%N);
   ((-4001310706878981, -49)%Z, [33778]%N);
   ((-3967235064869761, -49)%Z, [33889]%N);
   ((-6017563491230733, -50)%Z, [33945]%N);
   ((-1166433980860065, -47)%Z, [34013; 34253]%N);
   ((-4959200002318291, -49)%Z, [34015; 34186]%N);
   ((-2425822732840913, -48)%Z, [34028]%N);
   ((-8777644369236387, -50)%Z, [34382]%N);
   ((-8859428819329755, -50)%Z, [34560; 37039]%N);
   ((-2160661137185777, -48)%Z, [34913]%N);
   ((-1145419378200337, -48)%Z, [35199]%N);
   ((-7815505659560531, -50)%Z, [35377; 35768]%N);
   ((-8046707955755249, -50)%Z, [35947]%N);
   ((-3280459313836103, -49)%Z, [36020; 36149]%N);
   ((-1111338228496255, -47)%Z, [36027; 36153]%N);
   ((-566640501820887, -46)%Z, [36032; 36154]%N);
   ((-8400348074106789, -50)%Z, [36123; 36195]%N);
   ((-8229357455825601, -50)%Z, [36196]%N);
   ((-1817746705411043, -48)%Z, [36234]%N);
   ((-262112409046897, -45)%Z, [36335]%N);
   ((-4503785314153383, -49)%Z, [36554; 36710; 36981]%N);
   ((-388273932333815, -46)%Z, [36797; 36988]%N);
   ((-4261056232217375, -49)%Z, [36828; 36960]%N);
   ((-8711498308074457, -50)%Z, [36830; 36899]%N);
   ((-779611532554969, -47)%Z, [36842]%N);
   ((-3923219460663689, -49)%Z, [36890]%N);
   ((-4033753013266077, -49)%Z, [37027]%N);
   ((-2559037913897199, -49)%Z, [37073; 37165]%N);
   ((-4281423568202479, -49)%Z, [37117]%N);
   ((-2304976352206107, -48)%Z, [37202]%N);
   ((-6343526420519473, -50)%Z, [37325]%N);
   ((-1645918767697543, -48)%Z, [37329]%N);
   ((-4885264406075461, -49)%Z, [37347; 37912; 38035; 38047]%N);
   ((-2112540794934791, -48)%Z, [37504; 38134]%N);
   ((-8906676307186081, -50)%Z, [37509; 38108]%N);
   ((-8198925876101963, -50)%Z, [37670; 38182]%N);
   ((-963836895112821, -47)%Z, [37806; 38215]%N);
   ((-2533897556088937, -48)%Z, [37857; 38236]%N);
   ((-4894214727214153, -50)%Z, [38263; 38271]%N);
   ((-8048582893585447, -50)%Z, [38451; 38525]%N);
   ((-2249702179277005, -48)%Z, [38452; 38512]%N);
   ((-5339787620966641, -50)%Z, [38463]%N);
   ((-8551057500859849, -50)%Z, [38470; 38520]%N);
   ((-136170069933753, -44)%Z, [38471; 38580]%N);
   ((-6066502776659161, -50)%Z, [38485; 38493]%N);
   ((-7356960221260645, -50)%Z, [38597]%N);
   ((-2324206509813557, -48)%Z, [38647]%N);
   ((-6048575074942619, -50)%Z, [38738]%N);
   ((-6403277744803215, -50)%Z, [38750]%N);
   ((-6937252353607205, -50)%Z, [38867; 38889]%N);
   ((-4831609544794039, -49)%Z, [38902]%N);
   ((-354500743188161, -46)%Z, [39321]%N);
   ((-5997353703621063, -50)%Z, [39340; 39532]%N);
   ((-3446345188320443, -49)%Z, [39640]%N);
   ((-4556780854703471, -49)%Z, [40232; 40493]%N);
   ((-8539390039901897, -50)%Z, [40613; 40614]%N);
   ((-657787545736375, -47)%Z, [40643; 40644]%N);
   ((-4617975879931393, -49)%Z, [40654]%N);
   ((-6538122340252651, -50)%Z, [40657]%N);
   ((-1145368900337889, -47)%Z, [40660]%N);
   ((-3603943501534113, -49)%Z, [40845; 40857]%N);
   ((-1129848211791743, -47)%Z, [40860; 40863]%N)];
  (* ('B', 'nt') *)
  [
   ((-8183406117126731, -50)%Z, [19968; 20864; 24247; 38313; 38397]%N);
   ((-4505869164528391, -49)%Z, [19971; 24494; 40845; 40857]%N);
   ((-4785338286555417, -49)%Z, [19975; 27982; 28639; 33836; 33889]%N);
   ((-1812430142178933, -48)%Z, [19977]%N);
   ((-8448339661230521, -51)%Z, [19978]%N);
   ((-5477236999501063, -50)%Z, [19990]%N);
   ((-1336333023040623, -48)%Z, [19996; 26481]%N);
   ((-6293510613594903, -52)%Z, [20013]%N);
   ((-2278540861415979, -48)%Z, [20016; 20025; 23725; 23994; 25919; 26089; 32156; 32508; 35920; 39791; 40065]%N);
   ((-78657312716733, -43)%Z, [20020; 21270; 24471; 24713; 25329; 25945; 26234; 26494; 29028; 29702; 32160; 32511;
     33256; 36229; 37038; 37109]%N);
   ((-8281372218373603, -50)%Z, [20029; 28189; 40599]%N);
   ((-4746498752765435, -49)%Z, [20041; 21033; 21253; 26102; 26178; 32681; 36008; 36135]%N);
   ((-8963820463147401, -50)%Z, [20044; 22885; 22887; 28879; 30452; 31354]%N);
   ((-5652531750604705, -49)%Z, [20052; 20581; 21313; 21345; 21361; 21442; 21443; 21451; 21932; 22996; 23556; 24037;
     25151; 25289; 25937; 26041; 26611; 26666; 29976; 30002; 30828; 32004; 32422; 33519; 34013; 34253; 36763]%N);
   ((-7651300854869449, -50)%Z, [20061; 21488]%N);
   ((-1470197078582041, -47)%Z, [20063; 20185; 20241; 20304; 20918; 21555; 21556; 21628; 21644; 22307; 22317; 22362;
     22533; 23447; 24067; 24464; 24609; 25103; 25138; 26124; 26126; 26462; 26575; 26705; 27779; 27825; 28010; 28142;
     28201; 28331; 28487; 28703; 28966; 29627; 29664; 29992; 30417; 30435; 31934; 32854; 38646; 38797; 39376; 39547;
     40372; 40548; 40778; 40784]%N);
   ((-6270995487338499, -49)%Z, [20105; 20822; 20823; 21018; 21069; 21083; 21338; 21402; 21453; 21888; 22266; 22374;
     23391; 23454; 23526; 23567; 24198; 24208; 24211; 24235; 24300; 24950; 25206; 25259; 25628; 25856; 26080; 26690;
     26805; 28640; 28961; 29066; 29229; 29366; 29369; 29376; 29467; 29494; 30007; 30343; 30495; 32013; 32057; 32191;
     32435; 32461; 32501; 32676; 34913; 34915; 36106; 36190; 37039; 37628; 38050; 38428; 38548; 38597]%N);
   ((-4872117404584035, -49)%Z, [20108; 20303; 20339; 21452; 21776; 22303; 23569; 28895; 29017; 29616; 29694; 33529;
     33778; 34315; 38617]%N);
   ((-3326143135138385, -49)%Z, [20113; 38642; 38899]%N);
   ((-5490581141317829, -49)%Z, [20116; 21256; 24040; 24375; 24378; 24646; 24658; 25463; 25705; 26114; 26149; 26417;
     27733; 29281; 29615; 29872; 30000; 30005; 30693; 32769; 36798; 36816; 36939; 36948; 37070; 37806; 38215;
     38651]%N);
   ((-1625109769811035, -48)%Z, [20122; 20126]%N);
   ((-5699174139067523, -50)%Z, [20132; 24191; 24291]%N);
   ((-7711363089575967, -50)%Z, [20140]%N);
   ((-2493992921500683, -49)%Z, [20154]%N);
   ((-1935660024554063, -48)%Z, [20197; 26185; 26187; 32043]%N);
   ((-8388681940936447, -50)%Z, [20234; 22478; 24076]%N);
   ((-2631162288797185, -48)%Z, [20239; 24800; 27815; 28356; 31569; 31689; 31859; 35041; 36947; 37324; 38592;
     40664]%N);
   ((-112494880209035, -44)%Z, [20262; 20523]%N);
   ((-1084458137631051, -47)%Z, [20271; 26426; 27231; 28779; 38450]%N);
   ((-646943182445719, -46)%Z, [20315; 20316; 20999; 21465; 25944; 26131; 27704; 27946; 32034; 33310; 35258; 35273;
     35486; 35821; 37122; 37202; 39080; 39118]%N);
   ((-4710166795297159, -49)%Z, [20379; 23043; 25958; 33883]%N);
   ((-3222002018192371, -49)%Z, [20420]%N);
   ((-2413528683013751, -48)%Z, [20445; 22242; 22296; 22696; 22868; 23612; 29454; 29557]%N);
   ((-975990993275355, -47)%Z, [20449]%N);
   ((-8917858983319915, -50)%Z, [20799; 20818; 20853; 25386; 27888; 32599; 32645]%N);
   ((-7044444744906017, -50)%Z, [20809; 24179]%N);
   ((-8446433056309041, -50)%Z, [20811]%N);
   ((-5673642434887313, -50)%Z, [20826; 40680]%N);
   ((-7513825439916083, -50)%Z, [20839; 20869]%N);
   ((-308725649200175, -46)%Z, [20840]%N);
   ((-504489979941915, -46)%Z, [20843]%N);
   ((-6628456811327307, -50)%Z, [20844]%N);
   ((-8873700386034335, -50)%Z, [20848; 23041; 26441; 31237; 31246; 34349]%N);
   ((-1987772986609059, -48)%Z, [20849]%N);
   ((-6994396509568525, -50)%Z, [20851; 38364]%N);
   ((-307568778450467, -45)%Z, [20852; 22771; 27580; 27604; 30333; 30334; 33288; 35997; 36125; 36637; 36745; 39131;
     39134]%N);
   ((-6707821358124497, -50)%Z, [20891; 22797; 36557]%N);
   ((-1519889667389611, -48)%Z, [20892; 36786]%N);
   ((-539994952785853, -46)%Z, [20912; 31185; 36842]%N);
   ((-1169009541817353, -47)%Z, [21015; 21016; 21129; 22612; 23815; 26477; 32178; 32593; 32943; 33713; 33802; 39340;
     39532]%N);
   ((-4015067457368201, -49)%Z, [21019; 21109; 23433]%N);
   ((-6695241340021943, -50)%Z, [21073; 21133]%N);
   ((-7142410846152889, -50)%Z, [21152]%N);
   ((-4103555074290645, -49)%Z, [21171; 21214]%N);
   ((-4180440265360623, -49)%Z, [21213; 25104; 25308; 32988; 39318]%N);
   ((-8054337727024735, -51)%Z, [21271]%N);
   ((-6726958927774421, -50)%Z, [21295; 27494; 27719]%N);
   ((-5421395808092565, -50)%Z, [21326; 33775]%N);
   ((-8831208554274237, -50)%Z, [21327; 21332; 22467; 22830; 31070; 32113; 32479]%N);
   ((-5397439587162913, -50)%Z, [21335]%N);
   ((-6101492478283947, -50)%Z, [21355; 34907]%N);
   ((-6746427422759809, -50)%Z, [21360]%N);
   ((-2550186984153747, -48)%Z, [21380; 23435; 23494; 25242; 25771; 26045; 26053; 26631; 27161; 31908; 31918; 31925;
     31975; 33452]%N);
   ((-3428179283273039, -49)%Z, [21414; 24264]%N);
   ((-8605273436947357, -50)%Z, [21476]%N);
   ((-4643860840860577, -49)%Z, [21487; 23486; 23545; 23565; 26364; 29305; 36051]%N);
   ((-8790262227090163, -50)%Z, [21496]%N);
   ((-4375376456691835, -49)%Z, [21512; 27784; 36828; 36960; 40654; 40660]%N);
   ((-3640426712632405, -49)%Z, [21513; 28195; 28595]%N);
   ((-7824859090926687, -50)%Z, [21516; 26280]%N);
   ((-6142849044097753, -50)%Z, [21704]%N);
   ((-6571000472735253, -50)%Z, [21733]%N);
   ((-4065237779993191, -50)%Z, [21830; 32852; 32879]%N);
   ((-4974755316488893, -49)%Z, [22025; 22799; 23425; 23527; 26460; 27801; 31192; 36827; 36914]%N);
   ((-6123862086434789, -50)%Z, [22235]%N);
   ((-2875045103925109, -50)%Z, [22269; 22283]%N);
   ((-4285830994259077, -49)%Z, [22320; 27931]%N);
   ((-3947625377513869, -49)%Z, [22522]%N);
   ((-1341240622374807, -47)%Z, [22622; 24635; 26446; 26519; 26607; 27491; 27941; 29273; 30003; 32317; 37504; 38134;
     38902]%N);
   ((-5556279967801229, -50)%Z, [22806]%N);
   ((-5768400189022035, -50)%Z, [22823]%N);
   ((-1588182445480287, -48)%Z, [22825]%N);
   ((-3966084406744765, -49)%Z, [22826]%N);
   ((-7526841768780479, -50)%Z, [23453; 23542]%N);
   ((-2126826833925121, -48)%Z, [23466; 25010; 31302; 33268; 40657]%N);
   ((-7500957872352933, -50)%Z, [23500]%N);
   ((-6870886508848779, -50)%Z, [23665; 29790]%N);
   ((-4613423701164855, -49)%Z, [23731; 24320; 26604; 27721; 28450; 31206; 32236; 32517; 36203; 38283]%N);
   ((-3530817195177897, -49)%Z, [24052; 39640]%N);
   ((-1089072894938775, -47)%Z, [24310]%N);
   ((-5167739814144227, -50)%Z, [24314]%N);
   ((-4530893282197137, -49)%Z, [24343; 27700; 36074; 36136; 38451; 38525]%N);
   ((-6054497859582383, -50)%Z, [24503]%N);
   ((-8160190863586009, -50)%Z, [24847]%N);
   ((-3929752449276489, -49)%Z, [24859; 29233; 35299; 36020; 36149]%N);
   ((-8093286040013665, -50)%Z, [25239; 38470; 38520]%N);
   ((-5321078132263277, -50)%Z, [25307]%N);
   ((-1573571681907709, -48)%Z, [25991]%N);
   ((-7553334753622577, -50)%Z, [26031]%N);
   ((-1083846990608223, -48)%Z, [26032]%N);
   ((-2525766554845663, -49)%Z, [26085]%N);
   ((-4269512461726481, -49)%Z, [26118; 38669]%N);
   ((-7680931509852329, -50)%Z, [26222; 26684]%N);
   ((-6900517163831659, -50)%Z, [26368]%N);
   ((-3580588139496665, -49)%Z, [26397]%N);
   ((-1244263672520067, -48)%Z, [27431; 27472]%N);
   ((-674927073109177, -47)%Z, [27665]%N);
   ((-1909193228141687, -48)%Z, [27743]%N);
   ((-1385678686147065, -48)%Z, [27827]%N);
   ((-6033452388765311, -50)%Z, [27861]%N);
   ((-6849164293461929, -50)%Z, [27874]%N);
   ((-3323140728269975, -49)%Z, [27993]%N);
   ((-6131418490012183, -50)%Z, [28006]%N);
   ((-4631938040706201, -50)%Z, [28023]%N);
   ((-4709617108286165, -50)%Z, [28145]%N);
   ((-2814547764650495, -49)%Z, [28165]%N);
   ((-438696409912231, -46)%Z, [28246]%N);
   ((-8231323983036111, -50)%Z, [28248]%N);
   ((-6701513779124141, -50)%Z, [29141]%N);
   ((-3369950224249535, -49)%Z, [29275]%N);
   ((-7270379862232897, -50)%Z, [30707]%N);
   ((-6813866734785981, -50)%Z, [31038; 40643; 40644]%N);
   ((-817235422765201, -47)%Z, [31119]%N);
   ((-1856673950640155, -48)%Z, [31532]%N);
   ((-3389821109027923, -49)%Z, [32005; 32418]%N);
   ((-3063816974473421, -49)%Z, [32016; 32445]%N);
   ((-7566818746006403, -50)%Z, [32147; 32463]%N);
   ((-2292274071739279, -48)%Z, [32173; 32500; 35582; 35834]%N);
   ((-418536092034359, -47)%Z, [32654]%N);
   ((-3811215022315337, -49)%Z, [32822]%N);
   ((-989194809245311, -47)%Z, [33258]%N);
   ((-2076814028700287, -48)%Z, [33322]%N);
   ((-1658591765157625, -48)%Z, [33437]%N);
   ((-6454056780907983, -50)%Z, [33457]%N);
   ((-5839234859190909, -50)%Z, [33487; 34311; 35199]%N);
   ((-1092634644267877, -48)%Z, [33521]%N);
   ((-3797140540403325, -49)%Z, [33647; 34277]%N);
   ((-8050794208253567, -50)%Z, [33655]%N);
   ((-3566572063970909, -49)%Z, [33707]%N);
   ((-4208593629293709, -49)%Z, [33714; 34030]%N);
   ((-4238229416607251, -49)%Z, [33945; 36234; 37329]%N);
   ((-2198515780956803, -49)%Z, [36001; 36130]%N);
   ((-8137444637299245, -50)%Z, [36797; 36988]%N);
   ((-3446518036901849, -49)%Z, [36890]%N);
   ((-3030800676294667, -49)%Z, [37073; 37165]%N);
   ((-916841814381321, -47)%Z, [37325]%N);
   ((-3535164320666781, -49)%Z, [37941; 38081]%N);
   ((-6385502571163087, -50)%Z, [38263; 38271]%N);
   ((-7323750038588441, -50)%Z, [38463]%N);
   ((-996292320920375, -47)%Z, [38485; 38493]%N);
   ((-3158203640077495, -49)%Z, [38738]%N);
   ((-8333749099643247, -50)%Z, [38750]%N);
   ((-7180259785119831, -50)%Z, [38867; 38889]%N);
   ((-2863972171590871, -49)%Z, [39321]%N);
   ((-1997479982215531, -48)%Z, [40635]%N)];
  (* ('B', 'nz') *)
  [
   ((-7921060818131171, -50)%Z, [19968; 22797; 37675; 38177]%N);
   ((-5613853496178329, -49)%Z, [19969; 20250; 20282; 20493; 20711; 20859; 21073; 21133; 21256; 21462; 22577; 22859;
     22894; 24038; 24180; 25253; 25259; 25351; 25380; 25824; 25975; 26122; 26371; 26410; 26435; 26552; 27402; 27605;
     27682; 27691; 28014; 28845; 28860; 29001; 29579; 29980; 30050; 30420; 31067; 31665; 32033; 32442; 32724; 32789;
     32793; 33192; 35206; 35686; 36895; 37496; 37610; 37855; 38128; 38130; 38138; 38795; 39178; 40372; 40548;
     40607]%N);
   ((-7361381118728069, -50)%Z, [19971; 33267]%N);
   ((-162397718897155, -45)%Z, [19975; 33836]%N);
   ((-5265365402640079, -49)%Z, [19976; 20223; 20957; 21368; 21488; 21776; 21830; 22519; 22763; 24517; 25191; 25601;
     25622; 25671; 25841; 26726; 27194; 27696; 29071; 29399; 32218; 32447; 35009; 35013; 35037; 35352; 35760; 36039;
     36164; 36681; 36716; 37782; 38145; 38902; 38928; 38948; 39044; 39056]%N);
   ((-2474568664075227, -49)%Z, [19977]%N);
   ((-7027150470759781, -50)%Z, [19978]%N);
   ((-5700632614206947, -49)%Z, [19979; 20070; 20405; 20687; 20808; 21038; 21195; 21235; 21348; 21741; 22270; 22294;
     22359; 22521; 22602; 22615; 22681; 22856; 22865; 23447; 23608; 23629; 23884; 24576; 25079; 25298; 26360; 26797;
     27495; 27867; 27880; 28034; 28072; 28466; 28608; 29254; 29273; 30382; 30722; 31359; 32102; 32233; 32473; 32531;
     32905; 32908; 33632; 34234; 34321; 34593; 34847; 34923; 36617; 36733; 36827; 36855; 36914; 37030; 37499; 37573;
     38124; 38156; 39409; 39558; 40565; 40664; 40763]%N);
   ((-7565619724678301, -50)%Z, [19981]%N);
   ((-2184030242944533, -48)%Z, [19987; 23560; 35469; 35748]%N);
   ((-7211038136211553, -50)%Z, [19990]%N);
   ((-1677325880987769, -47)%Z, [19992; 19994; 20024; 20114; 20161; 20280; 20329; 20390; 20597; 20598; 20820; 20864;
     20889; 20891; 20928; 21021; 21032; 21047; 21076; 21085; 21093; 21202; 21305; 21307; 21363; 21548; 21561; 21672;
     21708; 22253; 22290; 22338; 22561; 22721; 22768; 23130; 23156; 23344; 23384; 23413; 23450; 23472; 23485; 23531;
     23532; 23556; 23616; 24049; 24062; 24211; 24222; 24235; 24449; 24464; 24501; 24816; 24935; 25197; 25320; 25321;
     25335; 25340; 25423; 25552; 25619; 25765; 25799; 25830; 25918; 26194; 26348; 26361; 26388; 26417; 26434; 26463;
     26497; 26538; 26597; 26874; 26989; 26997; 27029; 27085; 27122; 27185; 27225; 27387; 27602; 27687; 27813; 27832;
     27886; 27915; 27978; 27987; 28068; 28136; 28363; 28364; 28609; 28611; 28701; 28748; 28783; 28903; 29066; 29128;
     29138; 29256; 29286; 29339; 29551; 29673; 29801; 29993; 29996; 30041; 30095; 30192; 30315; 30322; 30338; 30424;
     30436; 31105; 31508; 31558; 31563; 31684; 32066; 32121; 32244; 32305; 32321; 32406; 32420; 32437; 32451; 32456;
     32482; 32568; 32676; 32882; 32893; 32903; 32925; 33009; 33030; 33041; 33126; 33136; 33391; 33538; 33539; 33540;
     33620; 33721; 34081; 34137; 34191; 34507; 34893; 34928; 35338; 35486; 35527; 35566; 35695; 35759; 35793; 35821;
     35848; 36339; 36557; 36562; 36650; 36713; 36718; 36793; 36864; 36867; 37002; 37038; 37057; 37073; 37096; 37109;
     37165; 37233; 37237; 37257; 37291; 37292; 37541; 37832; 38013; 38075; 38129; 38142; 38620; 38669; 38686; 38713;
     38774; 38859; 38876; 38886; 38892; 39729; 39764; 39882; 40104; 40718; 40848]%N);
   ((-2460109134093139, -48)%Z, [19993; 20998; 21517; 26377; 28082; 29482; 29702; 29926; 31319; 33293; 33777; 34223;
     34678; 35948; 36575; 36719; 37226]%N);
   ((-5670826702185241, -50)%Z, [19996; 26481]%N);
   ((-8339830749734665, -50)%Z, [19997; 20843; 32114]%N);
   ((-2706531676550735, -48)%Z, [20004; 20029; 20117; 20195; 20462; 20841; 20861; 21270; 23383; 24402; 25240; 25429;
     26262; 27133; 27512; 27963; 28140; 28814; 28911; 29560; 29632; 30456; 30699; 30703; 30862; 30897; 31881; 32051;
     32453; 33109; 33150; 33576; 34784; 34809; 36319; 37259; 38275; 38378; 38742; 38899; 39472; 40572; 40599]%N);
   ((-6932279889808975, -51)%Z, [20013]%N);
   ((-6678461292834563, -50)%Z, [20016; 35920]%N);
   ((-2611823161583997, -48)%Z, [20020; 20135; 21009; 22622; 23588; 26102; 26178; 26395; 27468; 27492; 27741; 28784;
     29611; 29986; 30571; 30813; 33256; 34735; 34739; 35215; 35268; 36808; 36974; 36993; 40232; 40493]%N);
   ((-8651426928814349, -50)%Z, [20025; 20255; 20553; 20822; 20823; 21407; 21512; 28070; 28516]%N);
   ((-5803270526111805, -49)%Z, [20037; 20307; 20398; 20839; 20869; 21050; 21945; 22374; 22841; 22846; 23436; 23735;
     24713; 25318; 25386; 25480; 25810; 25876; 26364; 26611; 27035; 27604; 28024; 28699; 28866; 28872; 28953; 29211;
     30149; 30328; 30422; 30779; 31025; 31109; 31146; 31890; 32113; 32156; 32236; 32479; 32508; 32517; 33421; 33529;
     33562; 33636; 33804; 33891; 33911; 33995; 34315; 35947; 36028; 36148; 36305; 36667; 36752; 37956; 38136; 38480;
     38590; 38593; 38627; 38684; 39166; 39280; 39636]%N);
   ((-7879200981844779, -50)%Z, [20041; 32681]%N);
   ((-7895758631820851, -50)%Z, [20044; 28879]%N);
   ((-1169134363304957, -47)%Z, [20048; 20132; 20185; 23545; 23565; 26007; 26408; 27138; 30913; 30952; 34180;
     39717]%N);
   ((-5359408491820049, -49)%Z, [20052; 20142; 20419; 20805; 21016; 21129; 21315; 21932; 24187; 24202; 27794; 27809;
     28009; 29151; 29275; 29313; 32025; 32440; 33074; 33322; 33647; 33829; 34277; 35282; 35488; 35802; 36027; 36153;
     36784; 36874; 36956; 37341; 38024; 38470; 38520; 39770; 40060; 40300; 40527]%N);
   ((-4553970028130633, -49)%Z, [20056; 24375; 24378; 27054; 33635]%N);
   ((-2081881427560149, -48)%Z, [20057; 21518; 24460; 25237; 36215]%N);
   ((-6974423114808135, -50)%Z, [20061]%N);
   ((-5310425441196613, -49)%Z, [20083; 20426; 20652; 20799; 20818; 20943; 21494; 21916; 22030; 22871; 23395; 24748;
     25080; 25307; 25554; 26059; 27969; 28187; 28799; 29158; 31569; 31689; 32822; 32966; 33213; 33865; 35657; 35712;
     35777; 35835; 36664; 36755; 36828; 36960; 38291; 38388; 38485; 38493; 38518; 39080; 39118; 39854; 40092;
     40723]%N);
   ((-2270931555451611, -48)%Z, [20094; 20241; 28388; 28431; 28670; 30899]%N);
   ((-7184122912509511, -50)%Z, [20108]%N);
   ((-3735124230942723, -49)%Z, [20113; 38642]%N);
   ((-1570496141434995, -48)%Z, [20116]%N);
   ((-1920888542833555, -48)%Z, [20122; 20126; 38634]%N);
   ((-5555558576609565, -50)%Z, [20140]%N);
   ((-5903718998642915, -50)%Z, [20154]%N);
   ((-5022856180091135, -49)%Z, [20159; 20392; 20633; 20689; 20740; 20806; 21414; 22609; 22791; 24218; 24264; 25096;
     25308; 26690; 26704; 28378; 28414; 30701; 35413; 35780]%N);
   ((-5051731737777433, -49)%Z, [20179; 20489; 21551; 21855; 23553; 26575; 28548; 28857; 30740; 30828; 31077; 35895;
     36008; 36135; 39164; 39282; 40165; 40479; 40670]%N);
   ((-2964444588965203, -48)%Z, [20182; 21331; 21380; 21460; 21537; 21579; 22134; 22240; 22280; 23481; 23879; 24341;
     24344; 24613; 24773; 25166; 25193; 25226; 25366; 25844; 25942; 26012; 26029; 26039; 26045; 26367; 26421; 26539;
     26550; 26592; 26792; 26816; 26862; 26963; 27233; 27298; 27320; 27689; 27692; 28207; 28359; 28418; 28900; 28938;
     29281; 31616; 31777; 32080; 32232; 32467; 32534; 32666; 32773; 32819; 32862; 32929; 32974; 33067; 33073; 33100;
     33180; 33406; 33883; 33976; 34384; 35328; 35336; 35745; 35946; 36111; 36194; 37251; 37411; 37484; 37521; 38041;
     38076; 38115; 38395; 38459; 38596; 39135; 39799; 40063]%N);
   ((-1123970616787049, -47)%Z, [20193; 21560; 23815; 24709; 24742; 25509; 26329; 27611; 28595; 33541]%N);
   ((-8352271759267767, -50)%Z, [20197; 27493; 30343]%N);
   ((-8866536002087279, -50)%Z, [20202; 20736; 20754; 21069; 31179; 32993; 37670; 38182]%N);
   ((-563378794407775, -46)%Z, [20203; 20256; 20659; 21361; 30970; 36830; 36899; 37027]%N);
   ((-4691961704462819, -49)%Z, [20221; 20239; 20985; 23391; 23631; 25176; 25925; 29983; 30416; 33590; 35377; 35768;
     40573]%N);
   ((-2437742173386347, -49)%Z, [20234]%N);
   ((-4566343052644219, -49)%Z, [20247; 20302; 20581; 22818; 24930; 26705; 26790; 30526; 32057; 32461; 34903]%N);
   ((-5538682004920071, -49)%Z, [20248; 20778; 21334; 21674; 21897; 22576; 22635; 22952; 25242; 25250; 25506; 25654;
     25771; 26477; 26524; 26641; 26657; 26700; 26803; 27193; 27599; 27773; 30011; 30059; 30417; 30435; 33104; 33394;
     33899; 36067; 36092; 36141; 36629; 36731; 37321; 37322; 37323; 37492; 37969; 38604; 38647]%N);
   ((-5472376050483489, -49)%Z, [20271; 21098; 21490; 21619; 23110; 23421; 24034; 24213; 24231; 27425; 28507; 28508;
     28843; 29916; 29943; 30058; 31048; 32972; 33021; 33324; 34394; 34395; 35480; 35825; 37214; 37428; 38083; 38772;
     38914; 39030; 39347; 39536]%N);
   ((-4776140587136781, -49)%Z, [20303; 20844; 20934; 25105; 28310; 29992; 30408; 33018; 37202; 37628; 38050]%N);
   ((-6319096350940741, -49)%Z, [20309; 20551; 21128; 21160; 21161; 21205; 21306; 21312; 21713; 21806; 21854; 21860;
     22260; 22285; 22352; 22443; 22604; 22666; 22812; 22840; 23429; 23457; 23475; 23486; 23506; 23529; 23601; 23614;
     23637; 23681; 23731; 24066; 24525; 24535; 25159; 25206; 25668; 25764; 25885; 25915; 25968; 25976; 26118; 26354;
     26356; 26379; 26391; 26448; 26522; 26588; 26604; 26697; 27331; 27490; 27506; 27531; 27544; 27694; 27745; 27893;
     27900; 27996; 28006; 28120; 28183; 28201; 28331; 28402; 28497; 28655; 28822; 28921; 29031; 29076; 29129; 30044;
     30460; 30693; 30887; 31038; 31237; 31246; 31461; 31561; 31680; 31726; 31811; 31918; 31957; 31967; 31975; 32023;
     32039; 32143; 32202; 32222; 32433; 32485; 32526; 32844; 32887; 32946; 33298; 33335; 33410; 33424; 33446; 33476;
     33630; 33756; 33816; 33853; 34092; 34126; 34299; 34310; 34746; 35088; 35430; 35433; 35463; 35797; 35799; 35910;
     36015; 36051; 36142; 36555; 36711; 36861; 36870; 37231; 37467; 37707; 37709; 37794; 38056; 38085; 38149; 38208;
     38393; 38498; 38556; 38607; 38619; 38893; 38971; 39057; 39151; 39277; 39511; 39564; 39719]%N);
   ((-4714215033269151, -50)%Z, [20315]%N);
   ((-4897237528272535, -49)%Z, [20316; 20914; 21346; 24863; 25302; 26893; 28779; 30439; 30465; 31908; 31925; 32650;
     32958; 33102; 34909; 35264; 35266; 38745; 38748; 40786; 40831]%N);
   ((-4463705140739361, -49)%Z, [20324; 22771; 27580; 28147; 29645; 30060; 30066; 37240; 38663]%N);
   ((-8701475164151841, -50)%Z, [20339; 26757; 38454; 38542]%N);
   ((-2484600659404857, -48)%Z, [20358; 20940; 21319; 24357; 24396; 26333; 26469; 26725; 27211; 30561; 30742; 30938;
     32943; 32963; 33402; 33655; 34269; 36275; 38451; 38525]%N);
   ((-8667863715722639, -50)%Z, [20375; 21253; 25391; 25910; 31859; 40860; 40863]%N);
   ((-2541084438736577, -48)%Z, [20381; 21149; 21240; 21442; 21443; 21451; 21521; 22278; 22291; 22868; 23569; 24046;
     25299; 26426; 26446; 26530; 27166; 27231; 27668; 27683; 27688; 28504; 31896; 34880; 35302; 35320; 36074; 36136;
     36637; 36745; 37255; 38706; 38929; 39037]%N);
   ((-1203421123326103, -47)%Z, [20391; 20596; 21683; 23618; 23652; 24594; 26472; 26954; 28151; 31232; 33707; 36556;
     36712; 36873; 36984]%N);
   ((-3870107589297511, -49)%Z, [20420; 21476; 21888]%N);
   ((-811106611652437, -47)%Z, [20445; 20892; 36786]%N);
   ((-6941786049742943, -50)%Z, [20449; 26041]%N);
   ((-618022150142621, -46)%Z, [20559; 24656; 25235; 25346; 25499; 26631; 27161; 36123; 36195; 37762; 38209; 40251;
     40511]%N);
   ((-4221717409615779, -49)%Z, [20616; 22343; 29255]%N);
   ((-4000284565239407, -49)%Z, [20643]%N);
   ((-3045419893608641, -48)%Z, [20648; 20786; 20813; 21150; 21170; 21185; 21322; 21491; 21496; 21602; 21654; 21807;
     22805; 22833; 22914; 22971; 23376; 23458; 23578; 23723; 24080; 24115; 24343; 24452; 24465; 24490; 25035; 25106;
     25214; 25530; 25723; 26089; 26355; 26465; 26517; 26723; 26781; 27284; 27896; 28103; 28107; 28404; 28696; 28789;
     28919; 28966; 29006; 29366; 29376; 29609; 29699; 30164; 30292; 30844; 30871; 31036; 31150; 31163; 31227; 31351;
     31406; 31751; 32129; 32147; 32227; 32361; 32399; 32463; 32465; 32499; 32536; 32544; 32617; 33437; 33729; 34276;
     34588; 34920; 35613; 35672; 35782; 35874; 36106; 36190; 36420; 36774; 36865; 37026; 37431; 37750; 38002; 38068;
     38198; 38262; 38472; 38477; 38515; 38626; 38728; 38797; 39173; 39292; 40255; 40509; 40635]%N);
   ((-839116288556485, -47)%Z, [20803; 39131; 39134]%N);
   ((-4128196295395247, -49)%Z, [20809; 21453; 24040; 29677; 36816; 36939]%N);
   ((-3551451638133539, -49)%Z, [20811; 22855]%N);
   ((-1831408815563327, -48)%Z, [20826; 26085; 27784; 35542; 35770; 40680]%N);
   ((-3049402806741907, -49)%Z, [20840]%N);
   ((-4591936094013151, -49)%Z, [20845; 20872; 20896; 21151; 22686; 23713; 24322; 25171; 27748; 27818; 27827; 28193;
     28271; 28396; 30064; 37051; 37168]%N);
   ((-7854812304636777, -50)%Z, [20848; 34349]%N);
   ((-4309628085720703, -49)%Z, [20849; 28809; 29200]%N);
   ((-4740944755086255, -49)%Z, [20851; 21387; 21435; 22739; 23389; 24102; 24118; 25569; 27714; 28248; 29113; 31471;
     32842; 38364]%N);
   ((-8557547583077483, -50)%Z, [20852; 27679; 29301; 29309; 33288; 38918; 39034; 39318]%N);
   ((-2259201734202791, -48)%Z, [20854; 24515; 26230; 27873; 35041; 36196; 37324; 37941; 38081; 38982; 39063]%N);
   ((-1296201697344503, -47)%Z, [20908; 21213; 21547; 23398; 23416; 24494; 24573; 24635; 25215; 25511; 25970; 26579;
     28340; 32317; 32933; 32988; 34584; 36031; 36152; 36805]%N);
   ((-5114346203881989, -49)%Z, [20912; 20986; 24085; 24120; 24208; 24300; 25913; 31958; 32353; 32483; 36879; 37509;
     38108]%N);
   ((-75842379902339, -43)%Z, [20919; 21367; 21696; 22266; 23454; 23526; 25098; 30355; 32768; 36817]%N);
   ((-304697389351859, -45)%Z, [20937; 28092; 30872; 31291; 36203; 36600; 36724; 38313; 38397; 38605]%N);
   ((-8587979162801121, -50)%Z, [20964; 21355; 25972; 32043; 34907; 40179]%N);
   ((-7623043495984963, -50)%Z, [20975; 20977; 30717; 30789]%N);
   ((-4794599616367677, -49)%Z, [20999; 21628; 23627; 25103; 25138; 25142; 25143; 25658; 25884; 25903; 27792; 32048;
     32454; 32671; 32677; 33519; 33609; 37806; 38215; 38534; 38592]%N);
   ((-3848727173368221, -49)%Z, [21019; 21109]%N);
   ((-4578994145799379, -49)%Z, [21029; 21035; 27427; 27852; 29662; 38750]%N);
   ((-8279607844331215, -50)%Z, [21033; 29796; 29814]%N);
   ((-2323450832953143, -48)%Z, [21046; 23381; 24033; 32769; 34560; 36824; 36996; 37210; 40441; 40560]%N);
   ((-7149208489849895, -50)%Z, [21147]%N);
   ((-8572660560418987, -50)%Z, [21152; 22836; 28195; 28909; 29105; 33457; 34917; 35036; 36798; 36948; 38957]%N);
   ((-2353910249169529, -48)%Z, [21171; 21214; 27603; 31166; 32178; 32299; 32541; 32593; 33452; 33714; 34030;
     37117]%N);
   ((-2072849369969081, -48)%Z, [21187]%N);
   ((-5947195439041925, -50)%Z, [21271]%N);
   ((-6373099693652981, -50)%Z, [21295; 27719]%N);
   ((-6675635946541785, -50)%Z, [21313]%N);
   ((-4155405731198425, -50)%Z, [21326; 33775]%N);
   ((-7862883306272949, -50)%Z, [21327; 21332; 22307; 32854]%N);
   ((-1047196743197261, -47)%Z, [21333; 21934; 26124; 27833; 28895; 29017; 29305]%N);
   ((-3191968078772195, -49)%Z, [21335]%N);
   ((-4833439150157659, -49)%Z, [21338; 21688; 25233; 26376; 27835; 28304; 35140; 36825; 36889; 37624; 38191]%N);
   ((-6580966772707399, -50)%Z, [21345]%N);
   ((-778215794567493, -47)%Z, [21360]%N);
   ((-8222443287923095, -50)%Z, [21402; 29420; 29544; 32652; 38500]%N);
   ((-6578375517462697, -50)%Z, [21452; 22303; 38617]%N);
   ((-1039419212600747, -47)%Z, [21457; 25163; 30332; 40657]%N);
   ((-4423477320294077, -49)%Z, [21464; 25140; 31435; 33268; 35722; 36797; 36988; 39881; 40100; 40654]%N);
   ((-7982409060866529, -50)%Z, [21487; 32004; 32422]%N);
   ((-8086121656066609, -50)%Z, [21513; 38867; 38889]%N);
   ((-4530011095175943, -49)%Z, [21514; 24425; 28481; 30427; 32858; 33713; 33802; 34892; 39053]%N);
   ((-7458875638855233, -50)%Z, [21516]%N);
   ((-4995389759444535, -49)%Z, [21520; 26970; 27169; 27905; 28369; 28500; 31283; 31337; 32020; 32431; 33459; 37666;
     38065; 38754]%N);
   ((-5975624986989523, -50)%Z, [21531]%N);
   ((-6782099445910457, -50)%Z, [21608; 32852; 32879; 36913]%N);
   ((-7814362547274941, -51)%Z, [21644]%N);
   ((-7070384050953613, -50)%Z, [21704]%N);
   ((-4028437929172493, -49)%Z, [21733; 23043]%N);
   ((-4342272009713997, -49)%Z, [21767; 22806; 24847; 26053; 26157; 26519; 28510]%N);
   ((-288671768873325, -45)%Z, [21943; 22132; 28040; 30414; 30827; 31354; 34013; 34253]%N);
   ((-6952560293750563, -50)%Z, [22025]%N);
   ((-7271660226127903, -50)%Z, [22235]%N);
   ((-1581138227163869, -48)%Z, [22238; 22320]%N);
   ((-8760943939249969, -51)%Z, [22269; 22283]%N);
   ((-1075438632863121, -47)%Z, [22467; 29790]%N);
   ((-7649536480827061, -50)%Z, [22478]%N);
   ((-4938229708758093, -50)%Z, [22522]%N);
   ((-3732273845342127, -49)%Z, [22612]%N);
   ((-950446875124947, -47)%Z, [22766; 22767; 40643; 40644]%N);
   ((-2061240509176231, -48)%Z, [22799; 22909; 30410]%N);
   ((-7058427479400067, -50)%Z, [22810]%N);
   ((-7770859701223467, -51)%Z, [22823]%N);
   ((-1130820255326939, -48)%Z, [22825]%N);
   ((-778689658612321, -47)%Z, [22826]%N);
   ((-5951636864552295, -50)%Z, [22885; 22887]%N);
   ((-6562951989875991, -50)%Z, [22899]%N);
   ((-2362069515435827, -48)%Z, [22934; 23452; 23494; 27966; 29705; 30246]%N);
   ((-3892332184096333, -49)%Z, [23041; 29081]%N);
   ((-2131979232023651, -48)%Z, [23385; 23403; 26460; 27941; 29028; 29756; 29898; 36628; 36741; 37197]%N);
   ((-4758267658899401, -49)%Z, [23425; 23527; 28467; 34476; 34566]%N);
   ((-8009760201166973, -50)%Z, [23431]%N);
   ((-386325245013249, -46)%Z, [23433]%N);
   ((-3583265184269023, -49)%Z, [23439]%N);
   ((-4151655937892887, -49)%Z, [23448; 26825]%N);
   ((-5983227310990557, -50)%Z, [23453; 23542]%N);
   ((-7098786635824109, -50)%Z, [23478]%N);
   ((-7330672854133137, -50)%Z, [23500]%N);
   ((-7031012909905677, -50)%Z, [23567]%N);
   ((-8906750987961557, -50)%Z, [23612; 36981; 39592]%N);
   ((-7481737336134031, -50)%Z, [23665]%N);
   ((-2188463011355371, -48)%Z, [23792; 26432; 27578]%N);
   ((-8457082257925731, -50)%Z, [24029]%N);
   ((-7964537258530181, -50)%Z, [24037; 30005; 38651]%N);
   ((-3718234465531665, -49)%Z, [24052]%N);
   ((-3561857663693327, -49)%Z, [24067]%N);
   ((-3555590994676193, -49)%Z, [24076; 27491]%N);
   ((-8200366111813595, -50)%Z, [24178; 24185; 26149; 26174; 39023]%N);
   ((-1766596100579547, -48)%Z, [24179]%N);
   ((-2738974537792233, -49)%Z, [24191; 24291]%N);
   ((-7871012582793679, -50)%Z, [24198; 24950; 29615; 29872; 30707]%N);
   ((-8126336641940887, -50)%Z, [24212; 25033; 27931]%N);
   ((-3834911757246985, -49)%Z, [24247]%N);
   ((-8542634783513525, -50)%Z, [24310; 24555; 24800]%N);
   ((-5748588340987921, -50)%Z, [24314]%N);
   ((-3070941392217017, -49)%Z, [24320; 38283]%N);
   ((-3631059322194121, -49)%Z, [24352; 24373]%N);
   ((-1885252227690279, -48)%Z, [24413]%N);
   ((-643559353988717, -46)%Z, [24471; 25277; 27982; 28639; 29627; 37569; 37995; 38109; 40285; 40517]%N);
   ((-3249227754634323, -49)%Z, [24503]%N);
   ((-1986736178639679, -48)%Z, [24605; 27927]%N);
   ((-1110807994286831, -47)%Z, [24609; 26495; 31361; 31649]%N);
   ((-6194008768787465, -50)%Z, [24646; 24658]%N);
   ((-2330762282383549, -48)%Z, [24681; 25512; 26494; 27825]%N);
   ((-7257378006197815, -50)%Z, [24859; 29233]%N);
   ((-7929622835870565, -50)%Z, [25104; 27494; 27695; 28142]%N);
   ((-4359332404800809, -49)%Z, [25112; 25136; 30495; 37122; 37385; 38048]%N);
   ((-8364851777370321, -50)%Z, [25151; 31185]%N);
   ((-3683290794718691, -49)%Z, [25196; 25562]%N);
   ((-5088314269658347, -50)%Z, [25239]%N);
   ((-1857734060563763, -48)%Z, [25252; 27665; 35703]%N);
   ((-809916435524723, -47)%Z, [25289]%N);
   ((-3143984052285693, -49)%Z, [25442; 25563]%N);
   ((-4116823182251865, -49)%Z, [25463; 29289; 39791; 40065]%N);
   ((-3773555682109963, -49)%Z, [25490; 32622]%N);
   ((-144770281471275, -44)%Z, [25505; 26438; 26751; 29976; 31206; 31995; 35442; 35813; 37319; 37440; 38078]%N);
   ((-7499193498310545, -50)%Z, [25628]%N);
   ((-5063103959794023, -50)%Z, [25705]%N);
   ((-8403457842005633, -50)%Z, [25746; 26441; 32599; 32645]%N);
   ((-8076288406603395, -50)%Z, [25919; 30524; 36890; 38598]%N);
   ((-5470184217864337, -50)%Z, [25991]%N);
   ((-8037792352218485, -50)%Z, [26031; 39321]%N);
   ((-4390808172510955, -50)%Z, [26032]%N);
   ((-3422953440632835, -49)%Z, [26080; 28961]%N);
   ((-7305707310045939, -50)%Z, [26126; 40613; 40614]%N);
   ((-2036748983864513, -48)%Z, [26131]%N);
   ((-7656258291281001, -50)%Z, [26143; 36842]%N);
   ((-4105675294137861, -49)%Z, [26185; 26187; 30358]%N);
   ((-6517909987361219, -50)%Z, [26222; 27861]%N);
   ((-7725780366687083, -50)%Z, [26223]%N);
   ((-1722352292118325, -48)%Z, [26228]%N);
   ((-3372740793699471, -49)%Z, [26397]%N);
   ((-7162174850894163, -50)%Z, [26412]%N);
   ((-7777133237056813, -50)%Z, [26607]%N);
   ((-7792246214398317, -50)%Z, [26609; 36807; 36942]%N);
   ((-3132111205462427, -49)%Z, [26684]%N);
   ((-7170902800855991, -50)%Z, [26805]%N);
   ((-575647823304275, -46)%Z, [26865; 27974; 28479; 33832; 34217]%N);
   ((-4474227876147897, -49)%Z, [27178; 27243]%N);
   ((-6899691430866431, -50)%Z, [27431; 27472]%N);
   ((-3414806410549949, -49)%Z, [27700]%N);
   ((-6612536127965839, -50)%Z, [27704]%N);
   ((-2251511892391395, -49)%Z, [27721; 28450]%N);
   ((-7295874060582725, -50)%Z, [27743]%N);
   ((-3657813598592151, -49)%Z, [27779]%N);
   ((-7090598236773009, -50)%Z, [27801]%N);
   ((-3138016329049285, -49)%Z, [27874]%N);
   ((-6430623790190883, -50)%Z, [27888]%N);
   ((-4053024804136989, -49)%Z, [27946]%N);
   ((-3758462285976949, -49)%Z, [27979; 28204]%N);
   ((-1984562615895237, -48)%Z, [27993]%N);
   ((-8827708019661391, -50)%Z, [28010; 30452; 33014; 33184; 34382]%N);
   ((-4838455900555841, -50)%Z, [28023]%N);
   ((-5790222997292195, -50)%Z, [28145]%N);
   ((-7823094716884299, -50)%Z, [28165]%N);
   ((-6334929939779511, -50)%Z, [28246]%N);
   ((-3201854283244421, -49)%Z, [28385; 28415]%N);
   ((-6444326595111953, -50)%Z, [29141]%N);
   ((-4395087273593821, -49)%Z, [29245; 38272; 38376; 38548]%N);
   ((-3346347681201489, -49)%Z, [29369; 29494]%N);
   ((-1863308004620765, -48)%Z, [29492]%N);
   ((-1845582174493455, -48)%Z, [29577]%N);
   ((-2202196221678671, -48)%Z, [29595; 29802]%N);
   ((-6931113932807537, -50)%Z, [29664]%N);
   ((-6992972132480809, -50)%Z, [30002]%N);
   ((-6138375305252091, -50)%Z, [30003]%N);
   ((-7011831868377647, -50)%Z, [30028]%N);
   ((-3594282169009941, -49)%Z, [30331]%N);
   ((-106865014580247, -44)%Z, [30333]%N);
   ((-6432896041026383, -50)%Z, [30334]%N);
   ((-3821427281329083, -49)%Z, [30596; 38761]%N);
   ((-3977853312878731, -49)%Z, [30967]%N);
   ((-6510575108606347, -50)%Z, [31070]%N);
   ((-1554545652587439, -48)%Z, [31119]%N);
   ((-5301611524596157, -50)%Z, [31302]%N);
   ((-8136618904334017, -50)%Z, [31481; 31934]%N);
   ((-4663479356639191, -50)%Z, [31532]%N);
   ((-718883537216565, -47)%Z, [32005; 32418]%N);
   ((-3038520163913885, -49)%Z, [32013; 32435]%N);
   ((-2039367374622491, -48)%Z, [32034]%N);
   ((-4256694492895951, -49)%Z, [32160; 32511; 33889]%N);
   ((-6044355887369381, -50)%Z, [32173; 32500]%N);
   ((-659714583382365, -47)%Z, [32654]%N);
   ((-7000478159659943, -50)%Z, [32752]%N);
   ((-3693813530127227, -49)%Z, [32784]%N);
   ((-8499046117855829, -50)%Z, [33107; 36229; 37616; 38146]%N);
   ((-8429950826847731, -50)%Z, [33258]%N);
   ((-957877559151361, -47)%Z, [33487; 34311]%N);
   ((-1856357652066965, -48)%Z, [33495]%N);
   ((-4813349966626503, -50)%Z, [33521]%N);
   ((-7732974639771233, -50)%Z, [33778]%N);
   ((-1510686577239559, -48)%Z, [33945]%N);
   ((-6006347217966727, -50)%Z, [34255]%N);
   ((-4014185270347007, -49)%Z, [35029]%N);
   ((-366881721888357, -46)%Z, [35199]%N);
   ((-6341202378881709, -50)%Z, [35299]%N);
   ((-3986718849700407, -49)%Z, [35519; 35843; 36234]%N);
   ((-2865689964409707, -49)%Z, [35582; 35834]%N);
   ((-7690482808011135, -50)%Z, [35997; 36125; 38471; 38580]%N);
   ((-7127924303902735, -50)%Z, [35998; 36126]%N);
   ((-8969902113238819, -50)%Z, [36020; 36149; 36554; 36710]%N);
   ((-3403595087881433, -49)%Z, [36093; 36187]%N);
   ((-7584437431349651, -50)%Z, [36335]%N);
   ((-404515181183423, -46)%Z, [36763]%N);
   ((-1518845843505857, -48)%Z, [36947]%N);
   ((-1942413036757213, -48)%Z, [37325]%N);
   ((-2042010351568781, -48)%Z, [37326]%N);
   ((-582286765881691, -47)%Z, [37329]%N);
   ((-8771866828252893, -50)%Z, [37414; 38043; 38622; 40481]%N);
   ((-7403673411292811, -50)%Z, [37504; 38134]%N);
   ((-1558330247104465, -48)%Z, [38263; 38271]%N);
   ((-2016635073641871, -48)%Z, [38450]%N);
   ((-805253897707847, -47)%Z, [38463]%N);
   ((-225629837014317, -45)%Z, [38597]%N);
   ((-7815302990930283, -50)%Z, [38738]%N);
   ((-7153514039673651, -50)%Z, [39340; 39532]%N);
   ((-4089356761605265, -49)%Z, [39381; 39550]%N);
   ((-6421580368825189, -50)%Z, [39640]%N);
   ((-6819948384877399, -50)%Z, [40201; 40486]%N);
   ((-3670408082570993, -49)%Z, [40778; 40784]%N);
   ((-1729260000178943, -48)%Z, [40845; 40857]%N)];
  (* ('B', 'o') *)
  [
   ((-1239799692029733, -48)%Z, [19969]%N);
   ((-6343997434072179, -50)%Z, [20050; 21825]%N);
   ((-7468240950873971, -50)%Z, [21047; 21756]%N);
   ((-955224898366401, -47)%Z, [21050; 21674]%N);
   ((-8878726660398795, -50)%Z, [21085; 21093]%N);
   ((-5563583088051509, -50)%Z, [21128; 22017]%N);
   ((-8098312314378125, -50)%Z, [21485; 21735; 27900; 28497]%N);
   ((-4377152862851331, -50)%Z, [21486]%N);
   ((-2242747997611119, -49)%Z, [21501; 22064]%N);
   ((-3533330332360127, -49)%Z, [21520]%N);
   ((-2752915986339457, -49)%Z, [21543; 21667]%N);
   ((-2828087477597715, -49)%Z, [21549; 21712]%N);
   ((-5167944239996035, -50)%Z, [21553]%N);
   ((-1961768752685231, -48)%Z, [21590; 22182; 28538; 37847; 38143]%N);
   ((-316765123636169, -46)%Z, [21617]%N);
   ((-8693167133582583, -51)%Z, [21628]%N);
   ((-8817150729584875, -51)%Z, [21652]%N);
   ((-2959313110807189, -50)%Z, [21653]%N);
   ((-7807108863456403, -51)%Z, [21658]%N);
   ((-3502652602905555, -50)%Z, [21679]%N);
   ((-1207392625802433, -47)%Z, [21684; 38463; 39592]%N);
   ((-5424406146543617, -50)%Z, [21695]%N);
   ((-7662629009422235, -51)%Z, [21703]%N);
   ((-2389464652706485, -50)%Z, [21704]%N);
   ((-1881715744141209, -49)%Z, [21719; 22057]%N);
   ((-1203298629734075, -48)%Z, [21799; 28404]%N);
   ((-5398522250116071, -50)%Z, [21863; 21888; 22038]%N);
   ((-5348474014778579, -50)%Z, [21866]%N);
   ((-3218642510026415, -50)%Z, [21891]%N);
   ((-6178936596136741, -50)%Z, [21939]%N);
   ((-5254594669041713, -50)%Z, [21974]%N);
   ((-1775595143555631, -49)%Z, [21985]%N);
   ((-5300556148869199, -50)%Z, [22007]%N);
   ((-3305073768636669, -49)%Z, [22016]%N);
   ((-8556652621471597, -51)%Z, [22030]%N);
   ((-319191872537787, -46)%Z, [22047]%N);
   ((-6903144189457733, -51)%Z, [22079]%N);
   ((-8713362782978767, -51)%Z, [22103]%N);
   ((-283990364643943, -46)%Z, [22140]%N);
   ((-5990850417776803, -50)%Z, [24403; 30070]%N);
   ((-6080970494889869, -50)%Z, [24573]%N);
   ((-8289327263849275, -51)%Z, [24614]%N);
   ((-3171647891324851, -50)%Z, [25169; 25778]%N);
   ((-7317897968357455, -50)%Z, [26805; 27801; 28101]%N);
   ((-5232298892813705, -50)%Z, [27753]%N);
   ((-5907412258832631, -50)%Z, [28121]%N);
   ((-7932628650408793, -51)%Z, [36703; 36720]%N);
   ((-468939636546621, -47)%Z, [38534]%N);
   ((-389457092337899, -46)%Z, [39100; 39125]%N)];
  (* ('B', 'p') *)
  [
   ((-1303673792691593, -49)%Z, [20026; 28858]%N);
   ((-7888136146918493, -50)%Z, [20056]%N);
   ((-1021566006473219, -47)%Z, [20197]%N);
   ((-6096357184906861, -50)%Z, [20381]%N);
   ((-6539642235394815, -50)%Z, [20511]%N);
   ((-5934098524787875, -51)%Z, [20851; 38364]%N);
   ((-3353070757372053, -49)%Z, [20914; 34909]%N);
   ((-2695532973221299, -49)%Z, [20973; 24977]%N);
   ((-114807910364419, -44)%Z, [21450]%N);
   ((-415910285149623, -46)%Z, [21521]%N);
   ((-5694313795434063, -49)%Z, [22240]%N);
   ((-1231548821437393, -48)%Z, [22522]%N);
   ((-2398538198209489, -50)%Z, [23545; 23565]%N);
   ((-6295101301308007, -50)%Z, [24403; 30070]%N);
   ((-6184661043070045, -51)%Z, [25353]%N);
   ((-6463380285568761, -50)%Z, [26397]%N);
   ((-7310988882146439, -50)%Z, [26412]%N);
   ((-1196552947819977, -49)%Z, [26681]%N);
   ((-1564762549705415, -48)%Z, [27599]%N);
   ((-2092516425361409, -48)%Z, [27604]%N);
   ((-5364038726759235, -50)%Z, [27839]%N);
   ((-5803751936562209, -51)%Z, [32147; 32463]%N);
   ((-8015732903148245, -50)%Z, [32227; 32536]%N);
   ((-4664436150022689, -50)%Z, [33258]%N);
   ((-8602407448380301, -51)%Z, [33267]%N);
   ((-785067755989145, -47)%Z, [36225]%N);
   ((-3680108195496905, -49)%Z, [36611; 36739]%N);
   ((-678715659280291, -46)%Z, [36793; 37002]%N);
   ((-3071159332367173, -49)%Z, [36830; 36899]%N);
   ((-241455301321907, -47)%Z, [36890]%N);
   ((-4287160770009031, -50)%Z, [37341; 38024]%N);
   ((-5569741918160661, -50)%Z, [37492; 37969]%N);
   ((-7387241047057283, -51)%Z, [38500]%N);
   ((-1358567166552399, -49)%Z, [38543; 38568]%N);
   ((-6741887371218867, -50)%Z, [38752]%N);
   ((-5732240980458829, -50)%Z, [38918; 39034]%N)];
  (* ('B', 'q') *)
  [
   ((-601586032399877, -46)%Z, [19968]%N);
   ((-1882588907832453, -48)%Z, [19975; 33836]%N);
   ((-8626361933805353, -50)%Z, [19979]%N);
   ((-4383641552398699, -49)%Z, [19995; 21474; 22330; 22580]%N);
   ((-1379482778490357, -47)%Z, [19997; 20803; 21488; 22788; 22840; 26479; 27573; 29255; 32114; 34389; 35463]%N);
   ((-2438500505119579, -49)%Z, [20010; 20491]%N);
   ((-1565138208078581, -48)%Z, [20154]%N);
   ((-6882553194182305, -50)%Z, [20239; 28966]%N);
   ((-1359111823416795, -48)%Z, [20250; 26371]%N);
   ((-5908138286971763, -49)%Z, [20262; 20523; 21015; 22362; 22533; 24211; 24235; 27431; 27472; 29790; 33322;
     33368]%N);
   ((-6040524088699541, -50)%Z, [20806]%N);
   ((-7986868758776729, -50)%Z, [20808; 22280; 26421]%N);
   ((-7691472857853947, -50)%Z, [20809; 35041; 37324]%N);
   ((-5622410467173997, -50)%Z, [20811]%N);
   ((-2479696974570277, -50)%Z, [20844]%N);
   ((-2305949058061079, -48)%Z, [20848; 26550; 34349]%N);
   ((-4872270331401995, -50)%Z, [20998]%N);
   ((-5002105289132493, -49)%Z, [21051; 21544; 22136; 26679; 27171; 37325]%N);
   ((-3159365172086273, -49)%Z, [21152]%N);
   ((-7600558944692087, -51)%Z, [21315]%N);
   ((-4899467377227635, -49)%Z, [21326; 21697; 22242; 22296; 24066; 33775]%N);
   ((-7304420514002931, -50)%Z, [21345]%N);
   ((-291950675844011, -45)%Z, [21346; 30439]%N);
   ((-2371536514426399, -49)%Z, [21400]%N);
   ((-812964891789419, -47)%Z, [21477]%N);
   ((-6407429727208347, -50)%Z, [21608; 36913]%N);
   ((-8928400331321533, -50)%Z, [22047; 22350; 25668; 25885; 36807; 36942]%N);
   ((-2644837275118985, -48)%Z, [22270; 22294; 27969; 35282]%N);
   ((-8388449044930445, -50)%Z, [22359; 22602]%N);
   ((-3860359327787785, -49)%Z, [22768; 32882]%N);
   ((-7581541714067677, -50)%Z, [22823]%N);
   ((-7613348105801223, -51)%Z, [22825]%N);
   ((-4143011964161655, -49)%Z, [23433; 29926]%N);
   ((-1525534712040409, -48)%Z, [23478]%N);
   ((-7781592934967013, -50)%Z, [23572; 29246]%N);
   ((-5401919548213371, -50)%Z, [23618; 23652]%N);
   ((-3462793227067989, -49)%Z, [23621]%N);
   ((-3615920772683309, -51)%Z, [24179]%N);
   ((-1384578999537969, -48)%Z, [24180]%N);
   ((-228908743985003, -45)%Z, [24320; 38283]%N);
   ((-3272332730749713, -49)%Z, [24494]%N);
   ((-4422481086188681, -49)%Z, [25142; 25143]%N);
   ((-531320812599765, -46)%Z, [26085]%N);
   ((-7346125278337169, -50)%Z, [26222]%N);
   ((-4052747076770383, -49)%Z, [27425; 32068; 32452]%N);
   ((-3061724946364229, -49)%Z, [27493]%N);
   ((-6380078586907903, -50)%Z, [27611]%N);
   ((-785230567823391, -48)%Z, [27627]%N);
   ((-6565710932316499, -50)%Z, [27861]%N);
   ((-682508554725253, -47)%Z, [28023]%N);
   ((-3717238231426269, -49)%Z, [28595]%N);
   ((-4168036081830401, -49)%Z, [28857; 40670]%N);
   ((-5938678436802491, -50)%Z, [29275]%N);
   ((-8317425278043219, -51)%Z, [30414]%N);
   ((-63656140510163, -43)%Z, [30701]%N);
   ((-1697349122734669, -49)%Z, [31181; 31278]%N);
   ((-8095757940423175, -51)%Z, [31435]%N);
   ((-7813310522719491, -50)%Z, [31751]%N);
   ((-6991343984706597, -51)%Z, [31995]%N);
   ((-1726242183830507, -50)%Z, [32654]%N);
   ((-6067493040535345, -50)%Z, [32929]%N);
   ((-2311697941290659, -49)%Z, [33521]%N);
   ((-8562007280987683, -50)%Z, [33970]%N);
   ((-3413810176444553, -49)%Z, [36203]%N);
   ((-7662967540202975, -50)%Z, [36649; 36744]%N);
   ((-85189680194533, -44)%Z, [38453; 38499]%N);
   ((-5307737988031839, -50)%Z, [39340; 39532]%N)];
  (* ('B', 'qe') *)
  [
   ((0, 0)%Z, [20806]%N)];
  (* ('B', 'qg') *)
  [
];
  (* ('B', 'r') *)
  [
   ((-313801529181457, -46)%Z, [19968]%N);
   ((-8721788833740927, -50)%Z, [19977]%N);
   ((-448347433083535, -46)%Z, [20004; 20841]%N);
   ((-2539831122681155, -48)%Z, [20010; 20491]%N);
   ((-5151581168813969, -50)%Z, [20026; 28858]%N);
   ((-4506805735308295, -50)%Z, [20043]%N);
   ((-3878446007921211, -49)%Z, [20108]%N);
   ((-5923396066913959, -49)%Z, [20134]%N);
   ((-3340160251381365, -50)%Z, [20160]%N);
   ((-6067050584733229, -51)%Z, [20182]%N);
   ((-5091659137072185, -50)%Z, [20219]%N);
   ((-3033461504070481, -49)%Z, [20309]%N);
   ((-5304932330180165, -49)%Z, [20313; 39192]%N);
   ((-9000680931953769, -51)%Z, [20320]%N);
   ((-8589548202663987, -50)%Z, [20474]%N);
   ((-781516928188415, -48)%Z, [20854]%N);
   ((-2244931985581375, -48)%Z, [20960; 24190]%N);
   ((-5131572054448195, -50)%Z, [21029; 21035]%N);
   ((-1699013234428451, -48)%Z, [21069]%N);
   ((-6693601511822905, -51)%Z, [21508]%N);
   ((-291090257931065, -45)%Z, [21516]%N);
   ((-3200598677771879, -49)%Z, [21518; 24460]%N);
   ((-5546754609442623, -49)%Z, [21566]%N);
   ((-4946902483578665, -49)%Z, [21643]%N);
   ((-5306761214157899, -50)%Z, [21681]%N);
   ((-5106376992491107, -50)%Z, [21738]%N);
   ((-2599661849613093, -48)%Z, [21861]%N);
   ((-1213853114946953, -47)%Z, [22312]%N);
   ((-5148221524674427, -50)%Z, [22810]%N);
   ((-9497050898387, -41)%Z, [22823]%N);
   ((-5985247280926629, -50)%Z, [22905]%N);
   ((-8133240190550127, -51)%Z, [22914]%N);
   ((-2489281905924563, -49)%Z, [23427]%N);
   ((-7637309831420499, -49)%Z, [23572; 29246]%N);
   ((-5897207626279137, -49)%Z, [24049]%N);
   ((-7115132307774905, -50)%Z, [24444]%N);
   ((-987408128381329, -48)%Z, [24590]%N);
   ((-2528101301432335, -48)%Z, [24744]%N);
   ((-5925050350821197, -51)%Z, [25105]%N);
   ((-7018846094686705, -49)%Z, [25949]%N);
   ((-2308266941852035, -48)%Z, [26049]%N);
   ((-3233344156194747, -48)%Z, [26159; 29239; 29242]%N);
   ((-1958660270862843, -49)%Z, [26377]%N);
   ((-8160467235098907, -51)%Z, [26412]%N);
   ((-5165830577805285, -50)%Z, [26576]%N);
   ((-4293571874897101, -50)%Z, [27492]%N);
   ((-3986728948406889, -50)%Z, [27599]%N);
   ((-5381381801450201, -49)%Z, [27922; 28753]%N);
   ((-1934651792067083, -48)%Z, [29978]%N);
   ((-5191964771516725, -49)%Z, [32227; 32536]%N);
   ((-2374716794399253, -48)%Z, [32769]%N);
   ((-3155348306114839, -50)%Z, [33258]%N);
   ((-2464145436354415, -48)%Z, [33509]%N);
   ((-3314319460838185, -48)%Z, [34382]%N);
   ((-5285402902740231, -50)%Z, [35442; 35813]%N);
   ((-8487381438491863, -50)%Z, [35504; 35841]%N);
   ((-960850147739809, -47)%Z, [35576; 35832]%N);
   ((-1682819208395307, -47)%Z, [36020; 36149]%N);
   ((-2429723980302949, -48)%Z, [36275]%N);
   ((-870338396841979, -49)%Z, [36825; 36889]%N);
   ((-2904601552288615, -50)%Z, [37027]%N);
   ((-5423888774617619, -49)%Z, [37145]%N)];
  (* ('B', 'rg') *)
  [
];
  (* ('B', 'rr') *)
  [
   ((-2028761349930975, -54)%Z, [20854]%N);
   ((-1260741596144071, -49)%Z, [24744]%N)];
  (* ('B', 'rz') *)
  [
   ((0, 0)%Z, [36825; 36889]%N)];
  (* ('B', 's') *)
  [
   ((-6934176043739355, -51)%Z, [19968]%N);
   ((-2699456173158157, -48)%Z, [19977; 20998; 27744; 38476]%N);
   ((-1718956252580477, -48)%Z, [19978]%N);
   ((-7486921802913893, -50)%Z, [19981]%N);
   ((-6361560767502397, -50)%Z, [19990]%N);
   ((-6884569547099395, -49)%Z, [19992; 22369; 32993]%N);
   ((-3052077600539363, -48)%Z, [19995; 21474]%N);
   ((-7271269651470877, -51)%Z, [19996; 26481]%N);
   ((-8893166829810165, -50)%Z, [20013]%N);
   ((-37561836173665, -42)%Z, [20061; 33293]%N);
   ((-1737451634484697, -48)%Z, [20065; 37129]%N);
   ((-8158096863077091, -50)%Z, [20070; 26360]%N);
   ((-5534674514968369, -49)%Z, [20113; 38642]%N);
   ((-8112752483789495, -50)%Z, [20117]%N);
   ((-1247237629113183, -47)%Z, [20182]%N);
   ((-5713948028068391, -49)%Z, [20250; 26371]%N);
   ((-5170655782592855, -49)%Z, [20260; 20663; 21407]%N);
   ((-7445217038579655, -50)%Z, [20302]%N);
   ((-5357773079792115, -50)%Z, [20307; 39636]%N);
   ((-7117229064495895, -50)%Z, [20826; 40680]%N);
   ((-2160482381543241, -48)%Z, [20828]%N);
   ((-4708448885469677, -50)%Z, [20839; 20869]%N);
   ((-5875898637355267, -49)%Z, [20843; 21367; 26588; 27331; 28809; 29200]%N);
   ((-6494362374089061, -49)%Z, [20845; 23622; 23626; 30011; 30059]%N);
   ((-3850791867815087, -49)%Z, [20851; 38364]%N);
   ((-781426430900027, -47)%Z, [20891; 36557]%N);
   ((-8702803805564407, -50)%Z, [20912]%N);
   ((-4969865639515997, -49)%Z, [20961]%N);
   ((-5570253040930233, -50)%Z, [21069]%N);
   ((-3058297951483697, -49)%Z, [21271]%N);
   ((-2441543260743689, -48)%Z, [21295; 27719; 30028]%N);
   ((-7539096384316521, -50)%Z, [21306; 21312]%N);
   ((-885137604266453, -47)%Z, [21322]%N);
   ((-7017734246236377, -50)%Z, [21335]%N);
   ((-5914469451579951, -50)%Z, [21475]%N);
   ((-5987203452725673, -50)%Z, [21488]%N);
   ((-7843876700769189, -50)%Z, [21491]%N);
   ((-5789119519326649, -49)%Z, [21518; 23431; 24460; 28330; 35282]%N);
   ((-1368104001210405, -48)%Z, [22068]%N);
   ((-8540019813514789, -50)%Z, [22218]%N);
   ((-7209646116034025, -50)%Z, [22253; 22290]%N);
   ((-2839496520933281, -50)%Z, [22269; 22283]%N);
   ((-7460695725333777, -51)%Z, [22320]%N);
   ((-5969402292873151, -50)%Z, [22330; 22580]%N);
   ((-4492879348477043, -49)%Z, [22365; 22761]%N);
   ((-4581212359576335, -50)%Z, [22478]%N);
   ((-5198122203239455, -49)%Z, [22495; 36676; 36758]%N);
   ((-8753989888302273, -50)%Z, [22564; 38646]%N);
   ((-1340018203131583, -47)%Z, [22616; 26263; 32972]%N);
   ((-3910390254091043, -49)%Z, [22622]%N);
   ((-8070940659039453, -51)%Z, [22659]%N);
   ((-766633711268995, -47)%Z, [22681; 29254]%N);
   ((-7641521500923657, -50)%Z, [22721]%N);
   ((-3403203216995681, -49)%Z, [22806]%N);
   ((-4509197881009639, -49)%Z, [22823]%N);
   ((-5879282215760085, -50)%Z, [22825]%N);
   ((-7362363914674287, -50)%Z, [22826]%N);
   ((-5273785478019549, -50)%Z, [22836; 38957]%N);
   ((-639930403036161, -46)%Z, [23454; 23526]%N);
   ((-3021180299605369, -49)%Z, [23460]%N);
   ((-5859086160227995, -50)%Z, [23467; 23470]%N);
   ((-8222537710606881, -51)%Z, [23478]%N);
   ((-3747725694228547, -49)%Z, [23545; 23565]%N);
   ((-3973845822927029, -49)%Z, [23546]%N);
   ((-5156350881787289, -50)%Z, [23627]%N);
   ((-4614180620380595, -50)%Z, [23665]%N);
   ((-5095484291334597, -49)%Z, [23703; 23831; 26368]%N);
   ((-3210479569899587, -49)%Z, [23707; 23798]%N);
   ((-2314320758564549, -48)%Z, [23725; 23994]%N);
   ((-3155552335649713, -49)%Z, [23736]%N);
   ((-5647642073631809, -49)%Z, [23830]%N);
   ((-1927978291256177, -48)%Z, [24038]%N);
   ((-8446573589501611, -50)%Z, [24055]%N);
   ((-2299849696504395, -49)%Z, [24066]%N);
   ((-958894019488317, -47)%Z, [24149]%N);
   ((-70485381611441, -44)%Z, [24403; 30070]%N);
   ((-2918423692610039, -50)%Z, [24515]%N);
   ((-6047081360453115, -50)%Z, [24576; 25079]%N);
   ((-3133052905182801, -48)%Z, [24635; 32317]%N);
   ((-7798148592257047, -50)%Z, [25142; 25143]%N);
   ((-5916573937999847, -50)%Z, [25151]%N);
   ((-7488668753552029, -51)%Z, [25163]%N);
   ((-4916210778234575, -49)%Z, [25296; 36797; 36988; 38968; 39048]%N);
   ((-2572233670979017, -48)%Z, [25674; 25892]%N);
   ((-244578446595827, -45)%Z, [25932; 25973]%N);
   ((-5440631425788399, -49)%Z, [25949; 33335]%N);
   ((-8000068527123701, -50)%Z, [25991]%N);
   ((-945764909903689, -47)%Z, [26426; 27231]%N);
   ((-3818328997421727, -49)%Z, [26449]%N);
   ((-2370804537896269, -48)%Z, [26479; 32592; 33109]%N);
   ((-8407407904641625, -50)%Z, [26517; 27807; 28317]%N);
   ((-3524485904220201, -49)%Z, [26519]%N);
   ((-7997435421599, -40)%Z, [26550]%N);
   ((-3229763434374635, -49)%Z, [26641; 27193]%N);
   ((-4534598427949129, -49)%Z, [26657]%N);
   ((-697058114780337, -47)%Z, [26700]%N);
   ((-7589144619654013, -50)%Z, [26725; 27211]%N);
   ((-299625895320095, -45)%Z, [26842]%N);
   ((-5819749411455067, -50)%Z, [27004; 27155]%N);
   ((-2886681389662979, -49)%Z, [27492]%N);
   ((-4170992264264431, -49)%Z, [27583; 29677]%N);
   ((-4928516497314519, -50)%Z, [27700]%N);
   ((-6640501751229583, -50)%Z, [27743]%N);
   ((-785928973833953, -47)%Z, [27827]%N);
   ((-1167787122574129, -47)%Z, [27839]%N);
   ((-8630139890627855, -50)%Z, [27915]%N);
   ((-7768125940904891, -51)%Z, [28023]%N);
   ((-1417865496074589, -48)%Z, [28145]%N);
   ((-6427572374124409, -50)%Z, [28246]%N);
   ((-4461596303357813, -49)%Z, [28821]%N);
   ((-8878448974391243, -50)%Z, [29151; 32218; 32447; 33829]%N);
   ((-8690362796031305, -50)%Z, [29255]%N);
   ((-7219654181103031, -50)%Z, [29425; 29508]%N);
   ((-4947506434049119, -50)%Z, [29616; 29694]%N);
   ((-2097081099628781, -48)%Z, [30000]%N);
   ((-5460411941042863, -50)%Z, [30424; 30436]%N);
   ((-8197330794635497, -50)%Z, [30465]%N);
   ((-4836790587915417, -49)%Z, [30473]%N);
   ((-5315613757235907, -50)%Z, [30524]%N);
   ((-665467606882257, -46)%Z, [30740; 31726; 31811]%N);
   ((-649453805430735, -47)%Z, [31354]%N);
   ((-5400906267255595, -50)%Z, [31383]%N);
   ((-3446621296902007, -49)%Z, [31449]%N);
   ((-653374720115719, -46)%Z, [31665]%N);
   ((-4867227727611139, -49)%Z, [31995]%N);
   ((-8264892560804315, -51)%Z, [32178; 32593]%N);
   ((-3435448825283843, -49)%Z, [32819]%N);
   ((-7075190584828431, -50)%Z, [32937]%N);
   ((-6454420737971039, -50)%Z, [33016]%N);
   ((-8979612548868857, -51)%Z, [33080; 33225]%N);
   ((-2205357300082111, -48)%Z, [33099]%N);
   ((-3869079553275547, -49)%Z, [33145]%N);
   ((-7986744112361407, -50)%Z, [33329; 33369]%N);
   ((-45250514575497, -43)%Z, [33337]%N);
   ((-8150411509640217, -50)%Z, [34255]%N);
   ((-2691202574132877, -49)%Z, [34903]%N);
   ((-2346834745776951, -48)%Z, [34955]%N);
   ((-1661257431411839, -49)%Z, [35199]%N);
   ((-4608534024191959, -49)%Z, [36229]%N);
   ((-4805433125743151, -50)%Z, [36335]%N);
   ((-6860301351095389, -51)%Z, [36523]%N);
   ((-786662938930863, -47)%Z, [36554; 36710]%N);
   ((-5978536549260125, -49)%Z, [36667; 36752; 38263; 38271; 38431; 38538]%N);
   ((-1363352513346031, -48)%Z, [36793; 37002]%N);
   ((-3080754773301531, -49)%Z, [36817]%N);
   ((-5858085804847355, -50)%Z, [36828; 36960]%N);
   ((-3278746484998071, -49)%Z, [36884]%N);
   ((-3893500488679985, -49)%Z, [36947]%N);
   ((-6480186162266435, -50)%Z, [37066]%N);
   ((-3803955026247227, -49)%Z, [37326]%N);
   ((-7933750319169883, -51)%Z, [38272; 38376]%N);
   ((-8665885747102615, -50)%Z, [38452; 38512]%N);
   ((-29681594691289, -42)%Z, [38453; 38499]%N);
   ((-7090024790283471, -50)%Z, [38470; 38520]%N);
   ((-1935870630070787, -48)%Z, [38498]%N);
   ((-7229752005801123, -50)%Z, [38548]%N);
   ((-2794164688124895, -48)%Z, [38634]%N);
   ((-6094176801266143, -50)%Z, [38754]%N);
   ((-2212394541038117, -48)%Z, [39025; 39045]%N);
   ((-6712898580432029, -50)%Z, [39640]%N);
   ((-315651515798629, -45)%Z, [40763]%N)];
  (* ('B', 't') *)
  [
   ((-5145471484052455, -50)%Z, [19968]%N);
   ((-3256144652835189, -48)%Z, [19969; 28431; 30068; 30087; 32380; 32487; 32905; 33310; 36825; 36889; 40613;
     40614]%N);
   ((-7184101415787901, -50)%Z, [19971]%N);
   ((-3687811855233729, -49)%Z, [19975; 33836]%N);
   ((-6792312998649855, -50)%Z, [19977]%N);
   ((-244692372650477, -46)%Z, [19978]%N);
   ((-4643264367642345, -50)%Z, [19979]%N);
   ((-7574950247479157, -50)%Z, [19981]%N);
   ((-6674239914957255, -49)%Z, [19985; 20133; 21629; 22242; 22296; 22303; 24051; 24247; 25100; 25277; 25910; 26214;
     29492; 30002; 35211; 35265; 36215; 36784; 36926; 37193; 37276; 39740]%N);
   ((-1745428044991353, -48)%Z, [19990]%N);
   ((-2910669124626063, -49)%Z, [19996; 26481]%N);
   ((-1223257053365169, -47)%Z, [20004; 20841; 26388]%N);
   ((-4987792571097315, -49)%Z, [20005; 22196; 26286]%N);
   ((-2454416465398951, -49)%Z, [20013]%N);
   ((-2688999872053825, -48)%Z, [20037; 24050]%N);
   ((-6884841418727921, -50)%Z, [20061]%N);
   ((-8015994438078967, -50)%Z, [20094]%N);
   ((-7212768025596851, -50)%Z, [20107]%N);
   ((-7038288431135625, -50)%Z, [20108]%N);
   ((-3013775966131897, -49)%Z, [20116]%N);
   ((-5202148429713173, -49)%Z, [20132]%N);
   ((-5149743180384191, -49)%Z, [20135; 29986]%N);
   ((-5211113264737851, -51)%Z, [20170]%N);
   ((-7170037250731687, -50)%Z, [20174; 24478]%N);
   ((-6441260521405945, -50)%Z, [20197]%N);
   ((-634910324361021, -46)%Z, [20210]%N);
   ((-5230301793646259, -49)%Z, [20239; 23553; 31036; 31150]%N);
   ((-1401564076957777, -47)%Z, [20241]%N);
   ((-6545971887340371, -50)%Z, [20250; 26371]%N);
   ((-911587956461381, -46)%Z, [20256; 20659; 20820; 21213; 21672; 23395; 25098; 26356; 26381; 26395; 26435; 26893;
     27402; 29399; 29579; 30424; 30436; 32650; 32988; 33391; 35566; 39759]%N);
   ((-6902496478680713, -49)%Z, [20307; 20809; 21355; 22320; 23391; 23398; 23416; 24072; 24107; 24859; 25506; 29233;
     29482; 30005; 32032; 34907; 35477; 35806; 35948; 36214; 36245; 37239; 38622; 38651; 38928; 39044; 39636; 40481;
     40845; 40857]%N);
   ((-5942808619560021, -49)%Z, [20339; 32771; 38287; 38384]%N);
   ((-1718809700669693, -48)%Z, [20358; 22269; 22283; 26469]%N);
   ((-4548211545675255, -49)%Z, [20367; 23567]%N);
   ((-3027888089111731, -48)%Z, [20415]%N);
   ((-7912281842878887, -50)%Z, [20551]%N);
   ((-3826632618539663, -49)%Z, [20621; 37027]%N);
   ((-4885154659192457, -49)%Z, [20799; 20818; 35506; 35838; 36947]%N);
   ((-5002449513247587, -50)%Z, [20803]%N);
   ((-3308426452094823, -49)%Z, [20808]%N);
   ((-6794535901458487, -50)%Z, [20843]%N);
   ((-659202983665001, -47)%Z, [20844]%N);
   ((-3722406694429671, -49)%Z, [20845]%N);
   ((-3772111013509777, -49)%Z, [20854]%N);
   ((-1392665891846007, -48)%Z, [20908]%N);
   ((-7964515761808571, -50)%Z, [20912]%N);
   ((-659420229025349, -46)%Z, [20919; 28385; 28415; 38290; 38386]%N);
   ((-3760326664103081, -49)%Z, [20940]%N);
   ((-672569878329323, -47)%Z, [21018; 21083]%N);
   ((-6256493459672987, -50)%Z, [21021]%N);
   ((-1977320859806095, -48)%Z, [21049; 21070]%N);
   ((-2934363183097701, -49)%Z, [21069]%N);
   ((-1432968739912427, -47)%Z, [21163; 21521; 40736]%N);
   ((-1462191382595013, -47)%Z, [21171; 21214; 23493; 25945; 28779; 30772]%N);
   ((-2797850728469843, -49)%Z, [21271]%N);
   ((-2880552789296041, -49)%Z, [21313]%N);
   ((-6470078545601585, -50)%Z, [21320]%N);
   ((-7577177547724499, -50)%Z, [21322]%N);
   ((-5647110591742953, -50)%Z, [21335]%N);
   ((-785504092743365, -46)%Z, [21359; 23454; 23526; 24858; 25991; 29238]%N);
   ((-2060299553524013, -48)%Z, [21363]%N);
   ((-1193604034631459, -48)%Z, [21435]%N);
   ((-5259937580959801, -49)%Z, [21452; 38617]%N);
   ((-1249313534392667, -47)%Z, [21457; 30332]%N);
   ((-2473925534684595, -49)%Z, [21476]%N);
   ((-4588280228323459, -49)%Z, [21516; 26257]%N);
   ((-2159167342851371, -49)%Z, [21518; 24460]%N);
   ((-4496383919603177, -50)%Z, [21608; 36913]%N);
   ((-5125263238643195, -49)%Z, [21644; 26082]%N);
   ((-5621701334926457, -50)%Z, [21776]%N);
   ((-7177828976685703, -50)%Z, [21830]%N);
   ((-2412920980905219, -48)%Z, [21987; 29275]%N);
   ((-912709871795015, -47)%Z, [22025]%N);
   ((-3656100739993089, -49)%Z, [22235]%N);
   ((-5307539158611627, -49)%Z, [22278; 22291; 24320; 38283]%N);
   ((-3971356711301263, -49)%Z, [22307; 32854]%N);
   ((-2550901798072777, -48)%Z, [22522]%N);
   ((-5137370155870605, -49)%Z, [22766; 22767; 26216]%N);
   ((-6122082132660043, -49)%Z, [22788; 24178; 24185; 24191; 24291; 28129; 34389; 38605; 38646]%N);
   ((-2622462346253535, -48)%Z, [22797]%N);
   ((-4942684406810301, -50)%Z, [22799]%N);
   ((-1355302994513099, -48)%Z, [22812]%N);
   ((-5665569005213127, -49)%Z, [22820; 33426]%N);
   ((-2029840137307627, -48)%Z, [22823]%N);
   ((-1008742510099187, -47)%Z, [22825]%N);
   ((-4960326150450715, -49)%Z, [22836; 38957]%N);
   ((-276477984988369, -46)%Z, [22914]%N);
   ((-4435634788800103, -49)%Z, [22922]%N);
   ((-4182150176975159, -49)%Z, [23130]%N);
   ((-2528814001943935, -48)%Z, [23376]%N);
   ((-8829820728690833, -50)%Z, [23381; 38738]%N);
   ((-1272607620750543, -47)%Z, [23413]%N);
   ((-5291220626079031, -49)%Z, [23433; 24674]%N);
   ((-6052598261305239, -50)%Z, [23435]%N);
   ((-2086624798524449, -48)%Z, [23459]%N);
   ((-2903523225453983, -48)%Z, [23472; 26097]%N);
   ((-4778620884310591, -49)%Z, [23506]%N);
   ((-1537798119917811, -48)%Z, [23558; 23559]%N);
   ((-131627785338715, -44)%Z, [23681; 27506]%N);
   ((-5635131865517405, -49)%Z, [23815; 24524]%N);
   ((-1379921483611787, -48)%Z, [24179]%N);
   ((-8385497435067547, -51)%Z, [24180]%N);
   ((-249585895011167, -45)%Z, [24188]%N);
   ((-2261500309331181, -48)%Z, [24314]%N);
   ((-4662134876984955, -49)%Z, [24344]%N);
   ((-6137382100598397, -51)%Z, [24403; 30070]%N);
   ((-2237866155918153, -48)%Z, [24444]%N);
   ((-5952954537970613, -50)%Z, [24448]%N);
   ((-1254167032195903, -47)%Z, [24535]%N);
   ((-5397084621044385, -49)%Z, [24576; 25079; 27575]%N);
   ((-1331086220706557, -47)%Z, [24773; 35895]%N);
   ((-2776300723274843, -48)%Z, [24778; 25995; 26172; 26205; 39514; 40779]%N);
   ((-1183764016408215, -47)%Z, [24863; 30707; 36797; 36988]%N);
   ((-5996463480841443, -49)%Z, [24930; 27531; 27544; 27597; 39340; 39532]%N);
   ((-4556872485019331, -49)%Z, [25104]%N);
   ((-6508248299475055, -50)%Z, [25112; 25136]%N);
   ((-4877389709140533, -49)%Z, [25282]%N);
   ((-2751809197963125, -48)%Z, [25345]%N);
   ((-5480637656012507, -49)%Z, [25490]%N);
   ((-2848873165810981, -48)%Z, [25968; 25976]%N);
   ((-2093326900310979, -48)%Z, [26032]%N);
   ((-3948684521657465, -49)%Z, [26041]%N);
   ((-4019639139614699, -49)%Z, [26080; 28961]%N);
   ((-5478496320330779, -50)%Z, [26085]%N);
   ((-2462836068726985, -48)%Z, [26086; 34892]%N);
   ((-471109069757349, -46)%Z, [26087; 33290]%N);
   ((-2386930685688239, -49)%Z, [26089]%N);
   ((-4471966746268379, -49)%Z, [26102; 26178]%N);
   ((-889709450864123, -48)%Z, [26126]%N);
   ((-7662847421783591, -50)%Z, [26132]%N);
   ((-1769412434920897, -48)%Z, [26143]%N);
   ((-5924857610908655, -50)%Z, [26149]%N);
   ((-7818974740855887, -51)%Z, [26152]%N);
   ((-4043671140251161, -49)%Z, [26159]%N);
   ((-2341791591823385, -48)%Z, [26185; 26187]%N);
   ((-4391658388602085, -49)%Z, [26188]%N);
   ((-4840698283058731, -50)%Z, [26202]%N);
   ((-2684761124815481, -49)%Z, [26368]%N);
   ((-713891827308911, -47)%Z, [26376]%N);
   ((-1988780039671881, -48)%Z, [26399]%N);
   ((-8129413504726919, -51)%Z, [26410]%N);
   ((-1107160382936385, -47)%Z, [26411]%N);
   ((-2500545685427553, -49)%Z, [26412]%N);
   ((-4425177213407083, -49)%Z, [26415; 34899]%N);
   ((-2350111654995919, -48)%Z, [26543]%N);
   ((-5723098752830971, -50)%Z, [27425]%N);
   ((-898998928300075, -47)%Z, [27491]%N);
   ((-4750080310543663, -50)%Z, [27492]%N);
   ((-5026632104887297, -49)%Z, [27665]%N);
   ((-4651709579906981, -49)%Z, [27704]%N);
   ((-6280902279824641, -50)%Z, [27721; 28450]%N);
   ((-8487420365089841, -50)%Z, [27739]%N);
   ((-1180801012476395, -47)%Z, [27877]%N);
   ((-5458558357369717, -49)%Z, [27900; 28497]%N);
   ((-8405412828837319, -50)%Z, [27946]%N);
   ((-5893825568936585, -49)%Z, [27963; 29615; 29872]%N);
   ((-3755050618422965, -49)%Z, [28145]%N);
   ((-5179410290144153, -50)%Z, [28165]%N);
   ((-4785129048742789, -49)%Z, [28507; 28508]%N);
   ((-1293834055438281, -47)%Z, [28783; 29128]%N);
   ((-3193335326925889, -48)%Z, [29151; 30003; 33829; 38452; 38512]%N);
   ((-4934137709815893, -49)%Z, [29467; 31237; 31246]%N);
   ((-6017363238722531, -51)%Z, [29616; 29694]%N);
   ((-6197253623918301, -49)%Z, [29677; 36831; 36978; 37213; 37278]%N);
   ((-3719441191768259, -49)%Z, [29983]%N);
   ((-6719232777586599, -50)%Z, [30333]%N);
   ((-2271965268402779, -48)%Z, [30427]%N);
   ((-6387481246987085, -51)%Z, [30446]%N);
   ((-5183392961105743, -50)%Z, [30524]%N);
   ((-6994927119312495, -50)%Z, [30636]%N);
   ((-6536200702560653, -50)%Z, [31179]%N);
   ((-3568944183161581, -49)%Z, [31206]%N);
   ((-4479523234939131, -49)%Z, [31435]%N);
   ((-8144908806989047, -50)%Z, [31461]%N);
   ((-8660144909952495, -50)%Z, [31471]%N);
   ((-6962176121751953, -50)%Z, [31532]%N);
   ((-3049507763678275, -49)%Z, [31680; 33410]%N);
   ((-1394697471796127, -47)%Z, [32085; 32477]%N);
   ((-3741559927866207, -49)%Z, [32716]%N);
   ((-7888515263166939, -50)%Z, [32769]%N);
   ((-8448083616316913, -50)%Z, [32780]%N);
   ((-4279875364733227, -49)%Z, [33098; 33240; 39151; 39277]%N);
   ((-4909113592147147, -49)%Z, [33457]%N);
   ((-4791713333782691, -49)%Z, [34382]%N);
   ((-703994348122139, -47)%Z, [35199]%N);
   ((-8386955039938089, -50)%Z, [35299]%N);
   ((-2471366266270391, -48)%Z, [36093; 36187]%N);
   ((-8683724827433843, -50)%Z, [36681; 36716]%N);
   ((-8148202510342565, -51)%Z, [36807; 36942]%N);
   ((-2025064154806515, -49)%Z, [36817]%N);
   ((-8603269186543275, -50)%Z, [36828; 36960]%N);
   ((-8642778500249769, -50)%Z, [37202]%N);
   ((-8261485247762961, -50)%Z, [37325]%N);
   ((-4527124812590957, -49)%Z, [37329]%N);
   ((-4626460955773277, -49)%Z, [38500]%N);
   ((-7263916596468553, -50)%Z, [38534]%N);
   ((-6976469330413265, -50)%Z, [38539]%N);
   ((-2118126891381471, -48)%Z, [38632]%N);
   ((-5188582714174173, -49)%Z, [38634]%N);
   ((-4705881146092435, -49)%Z, [38663]%N);
   ((-5768206917117985, -49)%Z, [38670]%N);
   ((-1381894332220235, -47)%Z, [38684]%N);
   ((-4366209990079123, -49)%Z, [38915; 39031]%N);
   ((-7487228984041095, -50)%Z, [38918; 39034]%N);
   ((-8671873140032407, -50)%Z, [38920; 39035]%N);
   ((-2823354564917871, -49)%Z, [39318]%N);
   ((-1754438683253073, -48)%Z, [40643; 40644]%N);
   ((-7758192101807037, -50)%Z, [40654]%N)];
  (* ('B', 'tg') *)
  [
];
  (* ('B', 'u') *)
  [
   ((-5316873811506237, -52)%Z, [19968]%N);
   ((-1401486595990449, -48)%Z, [19982; 33287]%N);
   ((-8470447424134417, -51)%Z, [20026; 28858]%N);
   ((-377809167333939, -45)%Z, [20113; 24320; 38283; 38642]%N);
   ((-1376375050389727, -49)%Z, [20284]%N);
   ((-5958943878702441, -52)%Z, [20358; 26469]%N);
   ((-4695051645211997, -49)%Z, [21017; 21063]%N);
   ((-3474427614480333, -50)%Z, [22312]%N);
   ((-3789018647372727, -49)%Z, [24641]%N);
   ((-2620961825048381, -49)%Z, [26497; 26997]%N);
   ((-1508155510715515, -49)%Z, [30340]%N);
   ((-314767235474931, -45)%Z, [30691]%N);
   ((-5889832656786805, -51)%Z, [31561]%N);
   ((-365671192403503, -47)%Z, [32780]%N);
   ((-3727672466774547, -50)%Z, [33324]%N);
   ((-2279644738279971, -48)%Z, [36215]%N)];
  (* ('B', 'ud') *)
  [
];
  (* ('B', 'ug') *)
  [
];
  (* ('B', 'uj') *)
  [
];
  (* ('B', 'ul') *)
  [
];
  (* ('B', 'uv') *)
  [
];
  (* ('B', 'uz') *)
  [
];
  (* ('B', 'v') *)
  [
   ((-8868042559369307, -50)%Z, [19968]%N);
   ((-7652113038421967, -49)%Z, [19969; 20047; 20262; 20360; 20523; 20971; 21988; 22820; 23589; 25419; 25722; 26060;
     26103; 26336; 27877; 29273; 30554; 31080; 32596; 33300; 34115; 36282; 36417; 37259; 40167]%N);
   ((-7565333920393349, -49)%Z, [19975; 20799; 20818; 22826; 23803; 24426; 25413; 25558; 26355; 26524; 27492; 28068;
     28102; 28140; 28174; 28364; 28678; 29399; 31119; 32725; 33836; 36416; 38517; 40766]%N);
   ((-6173197833830799, -49)%Z, [19976; 27900; 28497]%N);
   ((-1533476578225045, -47)%Z, [19977; 21348; 25488; 26149; 27801; 29956; 30862; 31351; 31406; 40565]%N);
   ((-4873560805561449, -50)%Z, [19978]%N);
   ((-5114682743328889, -50)%Z, [19979]%N);
   ((-8664707613865305, -51)%Z, [19981]%N);
   ((-5369531512066797, -49)%Z, [19982; 21927; 33287; 35692; 36953; 36965]%N);
   ((-3587563373691507, -48)%Z, [19985; 20052; 20185; 21932; 25000; 25319; 25840; 29390; 33579; 34542; 34875; 35140;
     36897; 37276; 37523; 38120]%N);
   ((-2235186912236131, -48)%Z, [19987; 23560]%N);
   ((-3177936433786181, -48)%Z, [19990; 21402; 25462; 25932; 25973; 28532; 28710; 29366; 29376; 33261; 34586; 35676;
     35889]%N);
   ((-1425269293342573, -47)%Z, [19995; 21474; 24322; 27873; 30064; 35461; 35803]%N);
   ((-161426827567593, -44)%Z, [19996; 26481; 31505]%N);
   ((-4799164057665825, -49)%Z, [19999; 20002]%N);
   ((-6374957744509097, -49)%Z, [20004; 20841; 27773; 28448; 32753]%N);
   ((-2299068839383933, -48)%Z, [20005; 22196]%N);
   ((-7483709571337751, -50)%Z, [20006; 24182]%N);
   ((-4612369141789459, -49)%Z, [20007; 21930]%N);
   ((-2923801765707089, -48)%Z, [20010; 20491; 26512; 29100]%N);
   ((-995712931655913, -47)%Z, [20013]%N);
   ((-84558616198847, -43)%Z, [20016; 21208; 35920]%N);
   ((-5300700305286901, -49)%Z, [20018; 25327]%N);
   ((-8119575221837333, -50)%Z, [20020; 21483; 33067; 33073; 33256]%N);
   ((-3261165370715741, -49)%Z, [20026; 28858]%N);
   ((-7809900797469685, -50)%Z, [20027]%N);
   ((-7137544448693693, -50)%Z, [20030; 33289]%N);
   ((-2455967373130683, -48)%Z, [20035; 36629; 36731]%N);
   ((-2581135304313807, -48)%Z, [20037; 23485; 23532; 25749; 38534]%N);
   ((-6285412282076339, -49)%Z, [20041; 21822; 31348; 32681; 35616; 35875; 36434; 36451; 36454]%N);
   ((-3682271888658245, -48)%Z, [20044; 22104; 23130; 24248; 24459; 24736; 25991; 26252; 27459; 27696; 28879; 29922;
     30406; 30431; 30495; 34631; 34821; 35357; 35766; 38556; 38597; 39138; 39269; 40736]%N);
   ((-162902928704435, -44)%Z, [20048; 27138]%N);
   ((-74050952445359, -43)%Z, [20056; 32048; 32454]%N);
   ((-3460340871512367, -48)%Z, [20060; 21117; 21385; 21426; 24476; 24534; 24609; 24615; 24864; 24909; 25001; 25102;
     27850; 28192; 29406; 29552; 30623; 30702; 31192; 36383; 38470; 38520]%N);
   ((-5637383520388901, -49)%Z, [20062; 25034]%N);
   ((-2733493439583929, -48)%Z, [20064; 21472; 23241; 23506; 24039; 27874; 30090; 32722; 35347; 35757]%N);
   ((-5327231652646963, -49)%Z, [20070; 26360; 38988; 39064]%N);
   ((-227610386033355, -45)%Z, [20080; 36023]%N);
   ((-2471547039855149, -48)%Z, [20081; 20098]%N);
   ((-6040837185820285, -49)%Z, [20083; 20167; 30522; 40718]%N);
   ((-1815529342820781, -48)%Z, [20102]%N);
   ((-568069746584615, -46)%Z, [20104]%N);
   ((-7924084344503419, -50)%Z, [20105; 29229]%N);
   ((-327785252870211, -45)%Z, [20107; 25169; 25778]%N);
   ((-390827184729219, -45)%Z, [20108; 24800; 25438; 25736; 25947; 25986; 37528; 38125]%N);
   ((-5220333694057193, -49)%Z, [20111; 34407]%N);
   ((-5324221217914491, -49)%Z, [20113; 32673; 32680; 38642]%N);
   ((-4438361223727637, -49)%Z, [20114]%N);
   ((-5661456307111483, -49)%Z, [20117; 21621; 24974; 35219; 35269; 36926]%N);
   ((-5859131919680161, -49)%Z, [20127; 20505; 30827; 35488; 35802]%N);
   ((-5062454506908843, -49)%Z, [20129; 36963]%N);
   ((-382587237442647, -45)%Z, [20130; 23458; 25682; 29408]%N);
   ((-6618187695951345, -50)%Z, [20132]%N);
   ((-5257748488197939, -49)%Z, [20134; 24072; 24107; 36947]%N);
   ((-1620147756316017, -48)%Z, [20135; 29986]%N);
   ((-7216845826855099, -49)%Z, [20136; 21899; 22204; 25880; 26212; 27465; 28046; 31786; 31958; 32019; 32446; 33778;
     36476; 37326; 38348; 38417; 38592]%N);
   ((-7310888916035069, -49)%Z, [20137; 21005; 21057; 21919; 21989; 23265; 24908; 26517; 28845; 29483; 30045; 30388;
     32162; 32504; 33041; 33126; 33467; 35987; 36315; 37221]%N);
   ((-1011301360813837, -47)%Z, [20139]%N);
   ((-315530300538047, -45)%Z, [20142]%N);
   ((-4634414528805877, -49)%Z, [20146; 35242]%N);
   ((-3202427959097899, -48)%Z, [20149; 24535; 25376; 25747; 25826; 25912; 28953; 35131; 35594; 35854; 38665; 39345;
     39534; 40692]%N);
   ((-2896628754941065, -48)%Z, [20154; 32780]%N);
   ((-4790372364873037, -49)%Z, [20165; 20677]%N);
   ((-7754750950326825, -49)%Z, [20166; 20431; 20693; 21155; 22271; 23360; 23830; 24211; 24235; 24623; 24699; 24827;
     25314; 25467; 25816; 25871; 27684; 29409; 32227; 32536; 33394; 33615; 33694; 35315; 35585; 35628; 35858;
     35884]%N);
   ((-7319790415726391, -50)%Z, [20171]%N);
   ((-476572540349927, -46)%Z, [20174; 24478]%N);
   ((-3111398907985891, -48)%Z, [20179; 20489; 21311; 23673; 25730; 25786; 25883; 34544; 34756; 37467; 38085]%N);
   ((-8270576775155761, -49)%Z, [20182; 20504; 20848; 20995; 21595; 21958; 22253; 22290; 23524; 24464; 24838; 25004;
     25661; 25753; 26364; 26449; 26580; 30250; 30303; 31319; 31570; 32666; 32810; 34349; 34849; 35433; 35533; 35799;
     35812; 36091; 36185; 36303; 36398; 37670; 38182; 38411; 38476; 38684; 38982; 39063; 39721; 40023; 40158]%N);
   ((-1774988814031189, -47)%Z, [20183; 24548; 30007; 32160; 32511; 33660; 36101; 36184; 38505; 38570; 38948;
     39056]%N);
   ((-8768225156132001, -50)%Z, [20184]%N);
   ((-4077045987273661, -49)%Z, [20195]%N);
   ((-7594256797570279, -50)%Z, [20197]%N);
   ((-5082613436636499, -49)%Z, [20208; 36062; 36175]%N);
   ((-5210435417895629, -49)%Z, [20210]%N);
   ((-8140740582753319, -50)%Z, [20219]%N);
   ((-2444997129549181, -48)%Z, [20223]%N);
   ((-2283589342540135, -48)%Z, [20225; 20633; 22791]%N);
   ((-5951764989454427, -49)%Z, [20234; 24466; 31179]%N);
   ((-5401326139648235, -49)%Z, [20239; 24944]%N);
   ((-6261108509935723, -49)%Z, [20240; 27553; 27567; 32386]%N);
   ((-4059311274728841, -49)%Z, [20241]%N);
   ((-4070694104991237, -49)%Z, [20248; 20778]%N);
   ((-6230254215753761, -49)%Z, [20249; 20991; 21983; 22821; 26412; 28465; 33136; 33509; 37219; 38015]%N);
   ((-8399448185786781, -50)%Z, [20250; 26371]%N);
   ((-3940184801072713, -48)%Z, [20251; 20660; 21330; 21769; 22228; 23000; 23721; 25248; 25463; 25616; 25715; 26087;
     27688; 27760; 28822; 29129; 29255; 30072; 32793; 33290; 34224; 34496; 35043; 35165; 35436; 35489; 35807; 35819;
     37225; 37628; 37672; 37801; 38050; 38121; 38170; 39208; 39302; 39522; 39540; 40668]%N);
   ((-1701348184491179, -47)%Z, [20254; 20632; 24696; 24927; 25781; 25862; 27852; 27875; 27887; 27973; 28154; 29022;
     30624; 34506; 34865; 35441; 35805; 36287; 38504; 38549]%N);
   ((-6944351862209501, -50)%Z, [20256; 20659]%N);
   ((-4596899064509289, -49)%Z, [20260; 20663]%N);
   ((-5222835697968707, -49)%Z, [20266; 20605]%N);
   ((-6193922258285485, -49)%Z, [20267; 20295; 20667; 22075; 25288; 25292; 28558; 30196; 35065]%N);
   ((-4017422172819339, -49)%Z, [20272]%N);
   ((-4310816467877207, -49)%Z, [20276]%N);
   ((-8143982450546919, -50)%Z, [20280]%N);
   ((-649190185762143, -46)%Z, [20282]%N);
   ((-1377810359403389, -47)%Z, [20294; 21535]%N);
   ((-212385826320843, -45)%Z, [20301]%N);
   ((-1879174319942707, -48)%Z, [20302]%N);
   ((-4892777700879763, -49)%Z, [20303; 36070; 36171; 36335; 36777; 36783]%N);
   ((-6505450452345653, -49)%Z, [20304; 20807; 20982; 24871; 25139; 26143; 29096; 29417; 31469; 31821; 33147; 33193;
     36944; 38634]%N);
   ((-4021160105716151, -48)%Z, [20305; 20742; 22040; 22099; 23194; 23544; 23853; 23940; 26702; 27813; 28073; 28180;
     28417; 28544; 28655; 28701; 30343; 30684; 31237; 31246; 31350; 32745; 33011; 35261; 35272; 35691; 35893; 36199;
     37658; 38126; 38604; 40701; 40702]%N);
   ((-7754577349794879, -50)%Z, [20307; 39636]%N);
   ((-3623690125552907, -49)%Z, [20308; 21344]%N);
   ((-2518776699039983, -48)%Z, [20309; 22766; 22767]%N);
   ((-5570786710893707, -49)%Z, [20313; 26460; 35443; 35814; 39192]%N);
   ((-5668541424208093, -50)%Z, [20316]%N);
   ((-3168706919170733, -48)%Z, [20317; 22025; 27791; 38967; 39060]%N);
   ((-5104536382006955, -49)%Z, [20329; 39347; 39536]%N);
   ((-5965665694562027, -49)%Z, [20335; 35513; 35837]%N);
   ((-6150427555935445, -50)%Z, [20351]%N);
   ((-8660783948166095, -49)%Z, [20355; 20547; 20613; 20806; 20960; 21000; 21636; 21799; 21827; 23186; 23439; 23462;
     23618; 23652; 24190; 25332; 25401; 26421; 26483; 27735; 27946; 28078; 31209; 32311; 32533; 33391; 33647; 34277;
     34949; 35018; 35455; 35607; 35798; 35876; 36241; 37336; 38025; 38357; 38425; 39144; 39255]%N);
   ((-3067420439428251, -49)%Z, [20358; 26469]%N);
   ((-3858092773415739, -49)%Z, [20363]%N);
   ((-1260520596080253, -47)%Z, [20365; 26089]%N);
   ((-8693880835459, -40)%Z, [20379]%N);
   ((-3861991720112237, -49)%Z, [20381]%N);
   ((-1105753168353269, -47)%Z, [20390; 20597]%N);
   ((-5076779706157523, -49)%Z, [20391; 20596; 30446]%N);
   ((-6068303606466885, -49)%Z, [20392; 20689; 21345; 23472; 23615; 24527; 25082; 31895]%N);
   ((-5552477781637949, -49)%Z, [20398; 21632]%N);
   ((-983764799952085, -47)%Z, [20405]%N);
   ((-8161321946254033, -50)%Z, [20415]%N);
   ((-7303514302421501, -50)%Z, [20419]%N);
   ((-4937779610472083, -49)%Z, [20439]%N);
   ((-5515442576166387, -49)%Z, [20440; 20900; 25571; 26519; 29916]%N);
   ((-2792975048925489, -49)%Z, [20445]%N);
   ((-2060310109655373, -48)%Z, [20449]%N);
   ((-5653317129861425, -49)%Z, [20456; 20796; 20853; 26893; 39250; 39286]%N);
   ((-1750803040498113, -47)%Z, [20461; 20745; 21400; 21698; 22918; 22941; 32905; 36460; 37496; 38128]%N);
   ((-3654998270245013, -49)%Z, [20462]%N);
   ((-4964076009675347, -49)%Z, [20463]%N);
   ((-3015107586730001, -48)%Z, [20465; 21333; 21449; 21934; 25101; 27982; 28639; 29282; 32958; 33102]%N);
   ((-5582539746409141, -49)%Z, [20493; 23574; 39361; 39539]%N);
   ((-4008216037204247, -49)%Z, [20498]%N);
   ((-2807149027670837, -48)%Z, [20506; 24688; 30130]%N);
   ((-8191392277082329, -50)%Z, [20511]%N);
   ((-4926557645122177, -49)%Z, [20513]%N);
   ((-8029552900305561, -50)%Z, [20540]%N);
   ((-2165897628641511, -48)%Z, [20542; 20670]%N);
   ((-4503967426733635, -49)%Z, [20551]%N);
   ((-6946870183659555, -49)%Z, [20558; 21571; 21870; 22007; 22227; 22418; 22744; 23319; 24337; 24338; 25331; 26541;
     26783; 34432; 34645; 35462; 35795; 37476; 37604; 38057; 38148; 39770; 40060]%N);
   ((-4534870970725647, -49)%Z, [20559]%N);
   ((-3138596944311097, -48)%Z, [20565; 25282; 26262; 28335; 30408; 30651; 32701; 36538; 36980; 38596]%N);
   ((-891365478208971, -47)%Z, [20570]%N);
   ((-1776496374342173, -48)%Z, [20572]%N);
   ((-4822070963235777, -49)%Z, [20581]%N);
   ((-3516824650844087, -48)%Z, [20598; 21531; 26465; 26633; 26781; 27355; 29577; 33292; 37196]%N);
   ((-2466257421538451, -48)%Z, [20599; 32993]%N);
   ((-2362809688405021, -48)%Z, [20607; 20767]%N);
   ((-2535024612589079, -48)%Z, [20648; 20786; 40778; 40784]%N);
   ((-4611098851773015, -49)%Z, [20652]%N);
   ((-6692425179301275, -49)%Z, [20658; 20993; 24455; 25110; 30721; 30908; 31096; 31117; 35627; 35882]%N);
   ((-8792795375530431, -50)%Z, [20687]%N);
   ((-78366240654917, -43)%Z, [20721; 38599]%N);
   ((-174753815769797, -44)%Z, [20725; 24807; 25084; 26007; 30385; 30394; 39717]%N);
   ((-8726612884636255, -50)%Z, [20801]%N);
   ((-7852940324940465, -50)%Z, [20805]%N);
   ((-4788630383224917, -49)%Z, [20808]%N);
   ((-4694364352394803, -49)%Z, [20809; 29151; 33829]%N);
   ((-2347672978373561, -48)%Z, [20811]%N);
   ((-2339205107995435, -48)%Z, [20812; 20817; 25487]%N);
   ((-8000314622595605, -50)%Z, [20813]%N);
   ((-1467725334231347, -47)%Z, [20828; 36555; 36711; 36884]%N);
   ((-1854954140669517, -48)%Z, [20837]%N);
   ((-4785162508068967, -49)%Z, [20839; 20869; 35009]%N);
   ((-2914449577314711, -48)%Z, [20840; 26434; 26497; 26997; 38620]%N);
   ((-7028160089959583, -50)%Z, [20844]%N);
   ((-8413383782997907, -50)%Z, [20849]%N);
   ((-1630890434440555, -48)%Z, [20851; 38364]%N);
   ((-3766780399408513, -49)%Z, [20852; 33288]%N);
   ((-1554885433726531, -48)%Z, [20855]%N);
   ((-2857965797982991, -48)%Z, [20856; 24825; 31293]%N);
   ((-8872374138961979, -50)%Z, [20859; 39178]%N);
   ((-4080001973984251, -49)%Z, [20860]%N);
   ((-5763002172207501, -49)%Z, [20874; 20876; 24999; 38829]%N);
   ((-7804364560156161, -50)%Z, [20877]%N);
   ((-4768695828645041, -49)%Z, [20882]%N);
   ((-2031247244526943, -48)%Z, [20889; 21150; 23531; 36774]%N);
   ((-6293752433929017, -49)%Z, [20891; 21671; 23507; 24323; 24653; 26820; 30511; 30599; 36196; 36557; 38929;
     39037]%N);
   ((-733368849340509, -46)%Z, [20892; 27572; 27590; 35438; 35808; 36786; 36930; 39854; 40092]%N);
   ((-5979918353387513, -49)%Z, [20896; 24910; 30140; 34384; 36767; 38370]%N);
   ((-7423856474698509, -49)%Z, [20901; 24726; 25121; 25179; 30437; 32922; 34299; 34383; 34396; 36433; 36513; 36594;
     36721; 36920; 38876; 38892; 40681; 40695]%N);
   ((-1393864630387923, -47)%Z, [20908; 22870; 29518]%N);
   ((-2852008433245625, -48)%Z, [20912; 21098; 25514; 28888]%N);
   ((-4161346405482529, -49)%Z, [20914; 34909]%N);
   ((-3346926547881497, -49)%Z, [20915; 27770]%N);
   ((-2575561360256805, -48)%Z, [20918]%N);
   ((-2272091148509193, -48)%Z, [20919; 35584; 35851]%N);
   ((-2318976162458431, -48)%Z, [20923; 20941; 25318; 25876]%N);
   ((-5217842760995653, -49)%Z, [20928; 28136]%N);
   ((-7045036459960511, -50)%Z, [20934; 28310]%N);
   ((-6746080040582697, -49)%Z, [20937; 24335; 24425; 24518; 25014; 25806; 28092; 30386; 30392; 32930; 35349; 35754;
     36441; 36479; 36517; 37389; 38045]%N);
   ((-2999750597908753, -48)%Z, [20939; 23244; 27833]%N);
   ((-5587310537278971, -49)%Z, [20940]%N);
   ((-6333670952524359, -50)%Z, [20943; 28187]%N);
   ((-5248487057990279, -49)%Z, [20945; 22952; 28234; 29076]%N);
   ((-1133995058019129, -47)%Z, [20957]%N);
   ((-1521362653975413, -47)%Z, [20973; 22070; 22240; 24977; 35563; 35855; 35946]%N);
   ((-5929333737093751, -49)%Z, [20975; 20977; 21564; 22270; 22294; 25810; 36785]%N);
   ((-5018919783655107, -49)%Z, [20984]%N);
   ((-5698152751451295, -49)%Z, [20985; 21220; 36049; 36168; 37555; 38160]%N);
   ((-2257321044547047, -49)%Z, [20986]%N);
   ((-8339560540785239, -50)%Z, [20987; 25802]%N);
   ((-6643442128677839, -49)%Z, [20989; 21281; 21776; 30663; 31382; 35506; 35838; 39740]%N);
   ((-5472797601891347, -50)%Z, [20998]%N);
   ((-8505740007632211, -50)%Z, [20999]%N);
   ((-2419466310835025, -48)%Z, [21002]%N);
   ((-453869116588227, -45)%Z, [21009; 21617; 22934; 24597; 25140; 25216; 25284; 25783; 25847; 26694; 26834; 27777;
     29343; 31629; 32903; 32928; 33144; 33255; 34503; 34583; 34680; 37749; 38190]%N);
   ((-2023300113530305, -48)%Z, [21010; 21123; 32232; 32534]%N);
   ((-1070039345842307, -47)%Z, [21015]%N);
   ((-6350839587815085, -50)%Z, [21019; 21109]%N);
   ((-4877636324851719, -49)%Z, [21021; 28954]%N);
   ((-626282355538879, -46)%Z, [21024; 21034; 26102; 26178]%N);
   ((-3881786301644651, -49)%Z, [21028]%N);
   ((-1213915377095803, -47)%Z, [21029; 21035]%N);
   ((-7490162429135091, -49)%Z, [21032; 21169; 21237; 21496; 21501; 21543; 21704; 21880; 22063; 22064; 24038; 24339;
     25374; 25527; 25787; 25842; 26191; 27189; 27905; 28500; 28825; 29673; 30027; 33402; 33439; 34269; 34850; 35115;
     36424; 37237; 37521; 38115]%N);
   ((-3470556251565989, -49)%Z, [21033]%N);
   ((-2894907190083775, -48)%Z, [21038; 21191; 23476; 38272; 38376]%N);
   ((-7780135399307149, -50)%Z, [21040]%N);
   ((-3138955789302457, -49)%Z, [21046]%N);
   ((-5057759317445089, -49)%Z, [21047; 36617; 36733]%N);
   ((-1642557181547055, -47)%Z, [21049; 21070; 21480; 24037; 24917; 26429; 36481; 37240; 37656; 38180]%N);
   ((-7430274177915931, -50)%Z, [21050]%N);
   ((-4802719542874673, -49)%Z, [21051]%N);
   ((-1646032357823955, -47)%Z, [21059; 25578; 27974; 28479; 34109; 35466; 35588]%N);
   ((-4592789922517257, -49)%Z, [21066]%N);
   ((-934182723608031, -47)%Z, [21069]%N);
   ((-5150019977842833, -49)%Z, [21076]%N);
   ((-5415269885388405, -49)%Z, [21078; 37559; 38144]%N);
   ((-8639135618555403, -50)%Z, [21085; 21093]%N);
   ((-5832590642961447, -49)%Z, [21095; 21127; 22199; 33795]%N);
   ((-8382869722785837, -50)%Z, [21097; 27714]%N);
   ((-4713821360560355, -49)%Z, [21106]%N);
   ((-5302141919271701, -49)%Z, [21119]%N);
   ((-3107719444131161, -48)%Z, [21128; 25602; 25695; 28009; 30634; 30910; 36244; 37931; 38220]%N);
   ((-8981669576160955, -50)%Z, [21147]%N);
   ((-1147177639294505, -47)%Z, [21149; 21240; 36064; 36180]%N);
   ((-2771449632077269, -49)%Z, [21152]%N);
   ((-1313440158104617, -47)%Z, [21153; 21209]%N);
   ((-7893784519156937, -50)%Z, [21160; 21205]%N);
   ((-5059632696722757, -49)%Z, [21161; 26579]%N);
   ((-6346567697808841, -49)%Z, [21162; 22815; 22816; 25721; 33100; 33499; 34633; 34796; 37251]%N);
   ((-5523940095295247, -49)%Z, [21163; 38453; 38499]%N);
   ((-6237810704424513, -49)%Z, [21170; 21185; 21643; 22874; 22930; 24439; 28201; 28331; 34453; 34870]%N);
   ((-1317812283525287, -47)%Z, [21171; 21214]%N);
   ((-1706659663461191, -47)%Z, [21187; 24675; 34866; 38646; 40643; 40644]%N);
   ((-4719945989820549, -49)%Z, [21193; 33806]%N);
   ((-1358756135560413, -47)%Z, [21202]%N);
   ((-5241963810568719, -49)%Z, [21213; 32988; 33150; 34255; 39472]%N);
   ((-8243366115603139, -50)%Z, [21215]%N);
   ((-4898386215049155, -49)%Z, [21246; 36776]%N);
   ((-6023707475077557, -50)%Z, [21253]%N);
   ((-2985188300162131, -48)%Z, [21261; 25423; 29038; 32221; 32521; 33618; 36299]%N);
   ((-2150611297177321, -48)%Z, [21270]%N);
   ((-2544254127204527, -48)%Z, [21271]%N);
   ((-5825231715251987, -49)%Z, [21294; 21297; 32599; 32645; 33609; 36198]%N);
   ((-535078435967723, -46)%Z, [21295; 25346; 25499; 27719]%N);
   ((-5040266415154607, -49)%Z, [21305]%N);
   ((-1185614129568095, -47)%Z, [21306; 21312]%N);
   ((-5740545350389667, -49)%Z, [21307; 36554; 36710; 37291]%N);
   ((-6784919574372679, -49)%Z, [21313; 25326; 25577; 25619; 27899; 28681; 40613; 40614]%N);
   ((-3670932250014669, -49)%Z, [21319]%N);
   ((-6062702068176567, -49)%Z, [21320; 21957; 24682; 25203; 27983; 28687]%N);
   ((-3234941946310301, -48)%Z, [21322; 21947; 38346; 38420; 40860; 40863]%N);
   ((-3938378188739363, -49)%Z, [21327; 21332]%N);
   ((-7065826628097009, -49)%Z, [21331; 22799; 23490; 24785; 25371; 25891; 26827; 28293; 28666; 30000; 36425; 37466;
     38086]%N);
   ((-2136228403988069, -48)%Z, [21334; 36067]%N);
   ((-5260422839799615, -49)%Z, [21335; 24052]%N);
   ((-4841474160765343, -49)%Z, [21338; 33192]%N);
   ((-402960180710201, -45)%Z, [21340; 23047; 23308; 33616; 34214; 34880; 36050; 36170; 36649; 36744]%N);
   ((-5645293954342247, -49)%Z, [21351; 33253]%N);
   ((-6848717952487555, -49)%Z, [21355; 25441; 25620; 25791; 34907; 37561; 38152; 39912; 40120]%N);
   ((-2349644790126985, -48)%Z, [21360]%N);
   ((-2303442567421883, -48)%Z, [21361]%N);
   ((-4403372892583781, -49)%Z, [21363]%N);
   ((-2237336217655621, -48)%Z, [21364; 21371]%N);
   ((-646562001880801, -46)%Z, [21367]%N);
   ((-2558432122940439, -48)%Z, [21368]%N);
   ((-4293711637850715, -49)%Z, [21382; 27511]%N);
   ((-8171256421650873, -50)%Z, [21387; 22739]%N);
   ((-313956296203405, -45)%Z, [21388; 21421; 33145; 37051; 37168]%N);
   ((-8532926034414275, -50)%Z, [21407]%N);
   ((-642523913748103, -46)%Z, [21422; 24285]%N);
   ((-8790487020222935, -50)%Z, [21435]%N);
   ((-6140249798189407, -50)%Z, [21442; 21443]%N);
   ((-6014648745185463, -49)%Z, [21450; 22278; 22291; 25995; 27583; 36418; 40779]%N);
   ((-6543416518228171, -49)%Z, [21451; 21508; 28895; 29017; 30416; 30861; 31001; 33395; 33399; 34382; 35398; 35787;
     37202; 39243; 39304; 40573]%N);
   ((-1639165752662305, -47)%Z, [21452; 23254; 27827; 29028; 30813; 32216; 32516; 38617]%N);
   ((-6038720359081497, -50)%Z, [21453]%N);
   ((-8869937958919755, -51)%Z, [21457; 30332]%N);
   ((-403203970881551, -46)%Z, [21462]%N);
   ((-3101996299575, -39)%Z, [21463]%N);
   ((-3283318493616379, -49)%Z, [21464; 35722]%N);
   ((-2392293300069001, -48)%Z, [21465; 25944]%N);
   ((-2406458551884201, -48)%Z, [21467]%N);
   ((-2526551481870007, -48)%Z, [21475]%N);
   ((-2732527829797455, -48)%Z, [21476]%N);
   ((-6166455837638885, -49)%Z, [21478; 22443; 22666; 25545; 34256; 35244; 35274]%N);
   ((-2397522087765511, -48)%Z, [21481]%N);
   ((-3519103445095583, -49)%Z, [21482]%N);
   ((-7490411915408647, -50)%Z, [21484]%N);
   ((-5285081524184889, -49)%Z, [21486; 30031; 31896; 32020; 32431; 40664]%N);
   ((-1153238431513635, -48)%Z, [21487]%N);
   ((-1614627694869305, -47)%Z, [21489; 22353; 24055; 25590; 36637; 36745]%N);
   ((-6365334434045715, -49)%Z, [21493; 25774; 31245]%N);
   ((-1161498650970977, -47)%Z, [21495; 34399; 36941]%N);
   ((-4798573653884995, -49)%Z, [21497; 22022]%N);
   ((-6974336604306155, -49)%Z, [21505; 21602; 21905; 23477; 25153; 26800; 28053; 29997; 30044; 30757; 31858; 38654;
     38695; 38819]%N);
   ((-254979547717237, -45)%Z, [21507]%N);
   ((-166148900566641, -44)%Z, [21510; 24191; 24291; 38291; 38388]%N);
   ((-854015096867721, -47)%Z, [21512]%N);
   ((-84078710298183, -43)%Z, [21514; 21558; 21584; 25615; 31177]%N);
   ((-7530920938506025, -50)%Z, [21516]%N);
   ((-2176659288132121, -48)%Z, [21517]%N);
   ((-8990586283617929, -50)%Z, [21518; 24460; 25197]%N);
   ((-5351912863590469, -49)%Z, [21520; 28548]%N);
   ((-951238211744273, -47)%Z, [21521]%N);
   ((-5035751956691787, -49)%Z, [21523; 22151]%N);
   ((-6613004988982117, -49)%Z, [21533; 35486; 35821; 35938; 36968]%N);
   ((-4829502753721631, -49)%Z, [21534]%N);
   ((-1120337612252841, -47)%Z, [21542]%N);
   ((-546753702848705, -46)%Z, [21545]%N);
   ((-131020010066851, -44)%Z, [21547]%N);
   ((-6704921856816259, -50)%Z, [21548; 32893]%N);
   ((-667816268396281, -46)%Z, [21549; 24773]%N);
   ((-3258911738429619, -48)%Z, [21550; 26223; 28789; 38728]%N);
   ((-8090101360761161, -50)%Z, [21551; 21855]%N);
   ((-3023112153912047, -48)%Z, [21553; 22303; 25987; 27609; 33900; 38816]%N);
   ((-2577777710107313, -48)%Z, [21557; 37213; 37278]%N);
   ((-7261672439482493, -50)%Z, [21560]%N);
   ((-4845308113973093, -49)%Z, [21561]%N);
   ((-1374194885650381, -47)%Z, [21563; 22549; 22702; 36027; 36153]%N);
   ((-3246671767559121, -48)%Z, [21574; 36994; 37463; 38067]%N);
   ((-4112886785815837, -49)%Z, [21576]%N);
   ((-6863954082917057, -50)%Z, [21578]%N);
   ((-2554820112170627, -48)%Z, [21589; 22036]%N);
   ((-2839048216728275, -48)%Z, [21596; 21978; 26391; 36347; 36491]%N);
   ((-303234789847399, -45)%Z, [21608; 36913]%N);
   ((-5470869308027923, -49)%Z, [21627]%N);
   ((-7998030849182063, -50)%Z, [21628]%N);
   ((-4517771984004441, -49)%Z, [21629]%N);
   ((-3299191045060653, -48)%Z, [21634; 22839; 23411; 25672; 25839; 27837; 28902; 29033; 29134; 35057; 35558; 35867;
     36676; 36758; 36793; 37002]%N);
   ((-1442396614311851, -47)%Z, [21638; 22904; 23014]%N);
   ((-320858307642807, -45)%Z, [21644; 32946]%N);
   ((-6436431480834429, -49)%Z, [21647; 26354; 30609; 30899; 32070; 32190; 32406; 32420; 32458; 32491; 35424]%N);
   ((-3073350590392819, -48)%Z, [21650; 28270; 32094; 32323; 32478; 32503; 35250; 35280]%N);
   ((-5772907705544103, -49)%Z, [21653; 28459; 29392; 36060; 36176]%N);
   ((-5374433864847855, -49)%Z, [21676]%N);
   ((-6384748425258659, -49)%Z, [21679; 21980; 25788; 26106; 31389; 31401; 36109; 36193]%N);
   ((-4865543856131295, -49)%Z, [21683]%N);
   ((-2888124332314275, -48)%Z, [21693; 30699; 30703; 36895]%N);
   ((-658735550784121, -46)%Z, [21696]%N);
   ((-5161145833121727, -49)%Z, [21697; 36276]%N);
   ((-5634771218933711, -49)%Z, [21700; 28176; 28472; 31378; 37341; 38024]%N);
   ((-42562238206683, -42)%Z, [21702; 25166; 32769]%N);
   ((-2243036322636581, -48)%Z, [21709; 38911]%N);
   ((-6057155718352881, -49)%Z, [21719; 22057; 23558; 23559; 24681; 26202]%N);
   ((-4986693970966287, -49)%Z, [21741]%N);
   ((-5737409130838569, -49)%Z, [21754]%N);
   ((-5786392181462005, -49)%Z, [21756; 22244]%N);
   ((-5358256028767881, -49)%Z, [21757; 25106]%N);
   ((-191883356156377, -44)%Z, [21766; 22438; 22718; 26684; 27442; 37057; 39729]%N);
   ((-6425708300362917, -49)%Z, [21775; 25520; 26017; 27861; 29313; 31508; 31558; 35646; 35881]%N);
   ((-6103136362107907, -49)%Z, [21792; 22062; 23700; 25447]%N);
   ((-1357845210125549, -47)%Z, [21796; 21914; 31579; 31721; 37247; 37312]%N);
   ((-6871698692401297, -49)%Z, [21804; 22645; 23113; 23576; 24040; 27431; 27472; 27538; 27550; 29477; 30917; 33643;
     34093; 38463; 39955; 40131; 40655]%N);
   ((-5143448502987215, -49)%Z, [21806; 39110; 39129]%N);
   ((-2571180338325883, -48)%Z, [21807; 24453]%N);
   ((-2445692129844773, -48)%Z, [21809]%N);
   ((-3337809727543337, -48)%Z, [21828; 24490; 24680; 24758; 27523; 30610; 30622; 32097; 32110; 32476; 33669; 33950;
     38391]%N);
   ((-1993163154203511, -48)%Z, [21830]%N);
   ((-7546662741686891, -50)%Z, [21839; 38382]%N);
   ((-3240745759695481, -48)%Z, [21852; 22725; 26505; 35569; 35763]%N);
   ((-5718950101607673, -49)%Z, [21884]%N);
   ((-2722119165721387, -48)%Z, [21890; 27599; 36887; 39221]%N);
   ((-1168297772320087, -47)%Z, [21892]%N);
   ((-1210527835611121, -47)%Z, [21898]%N);
   ((-5245868681393547, -49)%Z, [21912; 24551; 24962; 25688]%N);
   ((-957301528619785, -47)%Z, [21916]%N);
   ((-8504845015608261, -50)%Z, [21917]%N);
   ((-4523172888431123, -49)%Z, [21943; 22132]%N);
   ((-6269093749543743, -49)%Z, [21972; 25772; 35475; 36929; 39166; 39280]%N);
   ((-3048589582076591, -48)%Z, [21995; 22158; 22209; 29677; 34962]%N);
   ((-5891080915137409, -49)%Z, [22016; 27965; 36361; 37912; 38047]%N);
   ((-2388292573150063, -48)%Z, [22039; 23581]%N);
   ((-5814370607558561, -49)%Z, [22047]%N);
   ((-615358269598769, -46)%Z, [22065; 22225; 27844; 27945]%N);
   ((-5107593131345789, -49)%Z, [22066; 25496]%N);
   ((-207125558669839, -44)%Z, [22068; 25077; 25315; 25536; 32908; 33180; 35571; 35865]%N);
   ((-3164203223462881, -48)%Z, [22094; 30719; 31014; 31109; 31146; 31185; 32236; 32517; 37941; 38081]%N);
   ((-2966874526740055, -48)%Z, [22120; 23608; 23629; 33503; 37228]%N);
   ((-5989624627516717, -49)%Z, [22218; 27922; 28753; 36032; 36154]%N);
   ((-5843812608311353, -49)%Z, [22234]%N);
   ((-2652518134940491, -48)%Z, [22235]%N);
   ((-2612025764998197, -49)%Z, [22238]%N);
   ((-1390389454111023, -47)%Z, [22242; 22296; 37239; 38451; 38525]%N);
   ((-5179417618062381, -49)%Z, [22256]%N);
   ((-4005757420782945, -49)%Z, [22260; 22285]%N);
   ((-4940810303947663, -49)%Z, [22266]%N);
   ((-2494586055613367, -48)%Z, [22269; 22283]%N);
   ((-2734462373334913, -48)%Z, [22280]%N);
   ((-444488217147159, -46)%Z, [22312]%N);
   ((-4794458074537507, -49)%Z, [22320]%N);
   ((-2978180262399253, -48)%Z, [22343; 25296; 29401]%N);
   ((-5855262832605245, -49)%Z, [22349; 24796]%N);
   ((-5629582703371693, -49)%Z, [22351; 22750; 30442; 32299; 32541; 32629; 33633; 39554]%N);
   ((-7183627670761581, -50)%Z, [22352]%N);
   ((-976721026482283, -47)%Z, [22362; 22533]%N);
   ((-5427760571090301, -49)%Z, [22368; 22684; 35491; 35820]%N);
   ((-5265809961803425, -49)%Z, [22374; 25630]%N);
   ((-4399874487000357, -49)%Z, [22402]%N);
   ((-4459930395403775, -49)%Z, [22404; 22751]%N);
   ((-731427519485851, -46)%Z, [22446; 31995]%N);
   ((-8844814701648385, -50)%Z, [22475]%N);
   ((-4757613778780737, -49)%Z, [22478]%N);
   ((-1808461428308123, -48)%Z, [22519; 25191]%N);
   ((-4151726319605819, -49)%Z, [22521]%N);
   ((-5476743621713737, -49)%Z, [22522; 26179; 29993]%N);
   ((-4665684978698441, -49)%Z, [22534]%N);
   ((-661162299685739, -46)%Z, [22570]%N);
   ((-3459019196290665, -49)%Z, [22577; 25253]%N);
   ((-150328156432469, -44)%Z, [22581; 24066]%N);
   ((-5478715427419389, -49)%Z, [22604]%N);
   ((-316639941166519, -45)%Z, [22609]%N);
   ((-677573642140283, -46)%Z, [22615; 28034]%N);
   ((-6004505228352009, -49)%Z, [22622; 36856]%N);
   ((-1208157131239593, -47)%Z, [22635; 22840; 24405; 35463; 37636]%N);
   ((-2496838353626173, -49)%Z, [22686]%N);
   ((-845645614689929, -46)%Z, [22721; 23521; 24275; 28020; 29791; 30897; 35355; 35769; 40572]%N);
   ((-4946153597857447, -49)%Z, [22768; 32882]%N);
   ((-404497182076659, -46)%Z, [22788; 34389]%N);
   ((-3331513187841645, -49)%Z, [22797]%N);
   ((-2253913434071715, -48)%Z, [22806]%N);
   ((-555028936384233, -46)%Z, [22810]%N);
   ((-1386998025226273, -47)%Z, [22812]%N);
   ((-2705000212286453, -48)%Z, [22818; 26790]%N);
   ((-3653221060762851, -49)%Z, [22823]%N);
   ((-4720973271042517, -49)%Z, [22825]%N);
   ((-2960302828002747, -48)%Z, [22829; 24661; 30679]%N);
   ((-2920023521371713, -48)%Z, [22830; 24618; 26696; 31964; 34065]%N);
   ((-183715205516669, -44)%Z, [22831; 24433; 24578; 24939; 26114; 27915; 36848; 36891]%N);
   ((-3436106213336293, -49)%Z, [22833]%N);
   ((-5394481679002639, -49)%Z, [22836; 38957]%N);
   ((-2477716601404237, -48)%Z, [22841; 22846; 25300; 25569; 26222; 26646; 26866; 27814; 28138]%N);
   ((-8610768904992541, -50)%Z, [22842; 22890]%N);
   ((-8678105079018935, -50)%Z, [22855; 36523]%N);
   ((-1342790222695731, -47)%Z, [22856; 28389; 28651]%N);
   ((-8994725626173167, -50)%Z, [22857; 23562]%N);
   ((-621405930455423, -46)%Z, [22859; 22894]%N);
   ((-5325724422955647, -49)%Z, [22863; 38002; 38262]%N);
   ((-3100501741571467, -48)%Z, [22865; 23665; 25422; 28784; 28796]%N);
   ((-8692809204704649, -50)%Z, [22868]%N);
   ((-4772063435617279, -49)%Z, [22871]%N);
   ((-4586681906501889, -49)%Z, [22880]%N);
   ((-6159793630257739, -49)%Z, [22882; 23230; 25642; 27721; 28450; 30597; 32143; 32485; 33631; 34184; 36639; 36749;
     38750]%N);
   ((-6895657625355987, -49)%Z, [22899; 24580; 24938; 26228; 27849; 28891; 28997; 29165; 35440; 35800]%N);
   ((-5683754269557147, -49)%Z, [22900]%N);
   ((-7296457269409681, -50)%Z, [22909]%N);
   ((-509161417652149, -46)%Z, [22914]%N);
   ((-2668180385433891, -48)%Z, [22916; 36039; 36164]%N);
   ((-5331777706585243, -49)%Z, [22922]%N);
   ((-2625558835018047, -48)%Z, [22949]%N);
   ((-2271341048193967, -48)%Z, [22987]%N);
   ((-763644659327251, -46)%Z, [22993; 30519; 35609; 35878]%N);
   ((-8775596977375067, -50)%Z, [22996]%N);
   ((-5504997936055669, -49)%Z, [23041; 32129; 32465; 38647]%N);
   ((-1561367501403895, -47)%Z, [23094; 24231; 24858; 25190; 28388; 28670; 29469; 30732; 37860; 38210]%N);
   ((-5810796310132599, -49)%Z, [23218; 25958; 30154]%N);
   ((-5568465264497129, -49)%Z, [23233; 23478]%N);
   ((-2958145921075151, -48)%Z, [23305; 25151; 25335; 30629; 32902; 38920; 39035]%N);
   ((-2736410304823417, -48)%Z, [23381]%N);
   ((-6709089512312509, -50)%Z, [23384]%N);
   ((-5482679880095345, -49)%Z, [23389; 24840]%N);
   ((-5186425384323337, -49)%Z, [23396]%N);
   ((-7657358114185239, -50)%Z, [23398; 23416]%N);
   ((-892035901699129, -46)%Z, [23408; 24913; 25086; 25109; 26216; 27694; 30338; 36399; 36497; 36955; 38945; 39049]%N);
   ((-5399607207157215, -49)%Z, [23413; 24524; 24604; 24691; 24976; 25031; 30828]%N);
   ((-1504947469095507, -47)%Z, [23425; 23527; 31243; 34615; 35641; 35880; 36386]%N);
   ((-8775028197415083, -50)%Z, [23432]%N);
   ((-434858928999347, -46)%Z, [23433]%N);
   ((-6544697263490505, -50)%Z, [23436]%N);
   ((-6091284346380627, -49)%Z, [23448; 28900]%N);
   ((-977692890427887, -47)%Z, [23450]%N);
   ((-716012995134381, -46)%Z, [23451; 35494; 35829]%N);
   ((-180612799057985, -44)%Z, [23452; 30776]%N);
   ((-5712844118237563, -50)%Z, [23454; 23526]%N);
   ((-1346092133404015, -47)%Z, [23456; 23541; 32033; 32442]%N);
   ((-7369100793334527, -50)%Z, [23457; 23529]%N);
   ((-1795976101659457, -48)%Z, [23459]%N);
   ((-4319064050896505, -49)%Z, [23475]%N);
   ((-2443957836146743, -48)%Z, [23481]%N);
   ((-3036980721283741, -48)%Z, [23487; 37038; 37109; 37709; 38208; 38622; 40481]%N);
   ((-4684159542082773, -49)%Z, [23492]%N);
   ((-2383788877442211, -48)%Z, [23494]%N);
   ((-4312804814150619, -49)%Z, [23500]%N);
   ((-4978511414794735, -49)%Z, [23519; 28363]%N);
   ((-6886147793289635, -50)%Z, [23545; 23565]%N);
   ((-1938472093704409, -48)%Z, [23547; 23563]%N);
   ((-887909623830601, -47)%Z, [23548; 23566]%N);
   ((-8774459704645195, -50)%Z, [23553]%N);
   ((-5148919391073081, -49)%Z, [23556; 29378]%N);
   ((-4158121409566333, -49)%Z, [23567]%N);
   ((-5171350643433757, -49)%Z, [23569]%N);
   ((-4529357215057279, -49)%Z, [23578; 24448]%N);
   ((-7439613493366237, -50)%Z, [23601]%N);
   ((-631986518963597, -46)%Z, [23613; 25735; 30433; 36010; 36138; 37610; 38138]%N);
   ((-2941461038675747, -48)%Z, [23614; 32961; 33029]%N);
   ((-2597356457507355, -48)%Z, [23616]%N);
   ((-2039425289249589, -48)%Z, [23621]%N);
   ((-6415185564954381, -49)%Z, [23622; 23626; 35522; 35844; 38329; 38409]%N);
   ((-5200708178849343, -49)%Z, [23624; 27529]%N);
   ((-5474778698415473, -49)%Z, [23631]%N);
   ((-965190856144081, -47)%Z, [23637]%N);
   ((-7809418303394659, -50)%Z, [23646; 23660]%N);
   ((-2832097864174475, -48)%Z, [23648]%N);
   ((-4646444783798679, -49)%Z, [23653]%N);
   ((-2549236115256369, -48)%Z, [23663]%N);
   ((-5042992570377689, -49)%Z, [23682; 35912]%N);
   ((-4633973863457801, -49)%Z, [23815]%N);
   ((-1202324208589127, -47)%Z, [23835; 32004; 32422]%N);
   ((-4824537341566069, -49)%Z, [23849; 38472; 38515]%N);
   ((-2962476390747189, -48)%Z, [23884; 24189; 25523; 25796; 31946; 32626; 33251; 33487; 34311]%N);
   ((-1137745779355121, -47)%Z, [24033; 31227]%N);
   ((-4583451194889375, -49)%Z, [24041; 38799]%N);
   ((-2698092504225835, -48)%Z, [24046]%N);
   ((-7912394858683979, -50)%Z, [24050]%N);
   ((-8717931203784555, -50)%Z, [24067]%N);
   ((-7366819333776079, -50)%Z, [24076]%N);
   ((-3206469891028077, -49)%Z, [24102; 24118]%N);
   ((-2825315006404975, -48)%Z, [24109; 24199; 24247; 24265; 28846]%N);
   ((-7855952767959899, -50)%Z, [24110; 24171]%N);
   ((-4519566534307717, -49)%Z, [24120]%N);
   ((-1940835263937451, -48)%Z, [24178; 24185]%N);
   ((-2090054958575601, -48)%Z, [24179]%N);
   ((-4658737750011789, -49)%Z, [24180]%N);
   ((-2686397499598583, -48)%Z, [24184]%N);
   ((-5899359740125445, -49)%Z, [24187; 25170; 29279; 29287; 32844; 32887; 33014; 33184]%N);
   ((-4931019623198101, -49)%Z, [24198; 24950]%N);
   ((-3132678158354577, -49)%Z, [24212; 25033]%N);
   ((-8958008244996791, -50)%Z, [24223; 24290]%N);
   ((-4759812804832499, -49)%Z, [24230; 34989; 35186]%N);
   ((-3017750563676291, -48)%Z, [24237; 25597; 25900; 29978]%N);
   ((-3739961606044637, -49)%Z, [24310]%N);
   ((-3024942701263445, -49)%Z, [24314]%N);
   ((-1225931005252481, -48)%Z, [24320; 38283]%N);
   ((-2639753858368175, -48)%Z, [24324]%N);
   ((-3117164590144941, -49)%Z, [24341]%N);
   ((-5947206665331131, -49)%Z, [24344; 25199]%N);
   ((-8966064808224063, -50)%Z, [24352; 24373]%N);
   ((-4687056374993407, -49)%Z, [24357; 24396; 25964]%N);
   ((-76034513885005, -43)%Z, [24367; 24398]%N);
   ((-1439934671269283, -47)%Z, [24369]%N);
   ((-1805941169929601, -48)%Z, [24375; 24378]%N);
   ((-4874926572551515, -49)%Z, [24377; 24392]%N);
   ((-8068036203481129, -50)%Z, [24402; 27512; 31639]%N);
   ((-3850265476713625, -49)%Z, [24403; 30070]%N);
   ((-6112071760903299, -50)%Z, [24418]%N);
   ((-3025831740060909, -48)%Z, [24432; 24656; 37117; 37207; 39198; 39279; 39515; 39551]%N);
   ((-1575554501572735, -47)%Z, [24441; 24677; 24735; 28067; 28185; 32827]%N);
   ((-7682502268365769, -50)%Z, [24449; 24501]%N);
   ((-1555841956591155, -48)%Z, [24471]%N);
   ((-2543760744121653, -48)%Z, [24472]%N);
   ((-5440534699969571, -49)%Z, [24481; 24537; 25200; 25854; 31142]%N);
   ((-4972049938367193, -49)%Z, [24494]%N);
   ((-8549093080088203, -50)%Z, [24515]%N);
   ((-1187631423853251, -47)%Z, [24517]%N);
   ((-8499489952448479, -50)%Z, [24525]%N);
   ((-2211960939728711, -48)%Z, [24536]%N);
   ((-5355075512096453, -49)%Z, [24544; 31446; 35442; 35813; 35918]%N);
   ((-3159770455052043, -48)%Z, [24555; 28139; 32264; 32633; 33830]%N);
   ((-4808095233145935, -49)%Z, [24565; 25554]%N);
   ((-4648249112117099, -49)%Z, [24573]%N);
   ((-4066016940527923, -49)%Z, [24576; 25079]%N);
   ((-5609294022807171, -49)%Z, [24594; 25950; 26435; 27402; 28070; 28516]%N);
   ((-6079676719610267, -49)%Z, [24596; 35980]%N);
   ((-4317053513211519, -49)%Z, [24605; 26045]%N);
   ((-5513338087908347, -49)%Z, [24608; 30005; 38651]%N);
   ((-145875622035029, -44)%Z, [24613]%N);
   ((-719158490589351, -46)%Z, [24616; 25375; 25406; 27762; 33050; 33139; 34562; 36880]%N);
   ((-8546769240446221, -50)%Z, [24635; 32317]%N);
   ((-1269679393414873, -47)%Z, [24651; 25088; 36763]%N);
   ((-7490593614740413, -50)%Z, [24674]%N);
   ((-1309199773967863, -47)%Z, [24685]%N);
   ((-5907762134219705, -49)%Z, [24687; 26157; 27695; 32937; 36084; 36182]%N);
   ((-307495643525157, -45)%Z, [24694; 24801; 28860; 29001; 36291; 36493; 36628; 36741]%N);
   ((-709061861895779, -46)%Z, [24700; 24817; 27498; 27934]%N);
   ((-2883142344262433, -48)%Z, [24724; 25042; 25078]%N);
   ((-2529347613903829, -48)%Z, [24739]%N);
   ((-4677933745413615, -49)%Z, [24748; 25080]%N);
   ((-6180021553177885, -49)%Z, [24754; 36401]%N);
   ((-6208174917110971, -49)%Z, [24764; 24936; 26238; 36845]%N);
   ((-4260759321471191, -49)%Z, [24778; 39514]%N);
   ((-2556878439271379, -48)%Z, [24799; 36870]%N);
   ((-349810946970533, -45)%Z, [24806; 27975; 28550]%N);
   ((-5389402396845185, -49)%Z, [24808; 24920; 25443; 25623; 32959; 33131; 36009; 36137; 39592]%N);
   ((-4860910497025759, -49)%Z, [24809; 24859; 25074; 29233]%N);
   ((-2951772630459341, -48)%Z, [24815; 24931; 30011; 30059; 32187; 32509; 35090]%N);
   ((-6672036772275315, -50)%Z, [24819]%N);
   ((-7969033699422431, -50)%Z, [24847]%N);
   ((-6578536918491505, -50)%Z, [24863]%N);
   ((-5517554961209371, -49)%Z, [24867]%N);
   ((-1262812788253223, -47)%Z, [24868; 24996]%N);
   ((-4092320116708525, -49)%Z, [24895; 39000]%N);
   ((-2992375285749381, -48)%Z, [24930]%N);
   ((-588658902988355, -46)%Z, [25026; 38013; 38075]%N);
   ((-2742336312687057, -48)%Z, [25103; 25138]%N);
   ((-5269850194194649, -50)%Z, [25104]%N);
   ((-8962029320366763, -50)%Z, [25112; 25136]%N);
   ((-3726357320401589, -49)%Z, [25130]%N);
   ((-7772173511545507, -50)%Z, [25152]%N);
   ((-6709748083114421, -49)%Z, [25159; 25303; 27845; 30690; 31388; 31428; 31941; 32960; 33081; 35338; 35437; 35759;
     35809; 36898; 38497]%N);
   ((-8739211263644327, -50)%Z, [25163; 36820; 38936; 39046]%N);
   ((-2469646458854891, -48)%Z, [25165]%N);
   ((-5852903865178227, -50)%Z, [25171]%N);
   ((-1320224000847913, -47)%Z, [25172; 33945]%N);
   ((-586673057083389, -46)%Z, [25176]%N);
   ((-1176564525917789, -47)%Z, [25187]%N);
   ((-1641199728342619, -48)%Z, [25193; 25844]%N);
   ((-4564057679423553, -49)%Z, [25195; 25475]%N);
   ((-5099478396917175, -49)%Z, [25196; 25562]%N);
   ((-4924339848609281, -49)%Z, [25198; 34913]%N);
   ((-1169841092170679, -47)%Z, [25206]%N);
   ((-7623523568019473, -50)%Z, [25209]%N);
   ((-5577809046692739, -49)%Z, [25212]%N);
   ((-997315405519257, -47)%Z, [25214]%N);
   ((-1722947986866481, -48)%Z, [25215]%N);
   ((-5297828105416509, -49)%Z, [25220]%N);
   ((-2747371777508645, -48)%Z, [25225; 35695; 35793]%N);
   ((-2088681428602257, -48)%Z, [25226]%N);
   ((-8734264661027229, -50)%Z, [25233]%N);
   ((-1296900468420601, -47)%Z, [25234]%N);
   ((-8314730528902825, -50)%Z, [25235]%N);
   ((-6773529598111865, -50)%Z, [25237]%N);
   ((-2712081717274113, -48)%Z, [25238]%N);
   ((-8293769020940995, -50)%Z, [25239]%N);
   ((-4114635079001795, -49)%Z, [25240]%N);
   ((-2369099893783897, -48)%Z, [25242; 25771]%N);
   ((-9005141055738855, -50)%Z, [25243; 25291]%N);
   ((-8554689942848839, -50)%Z, [25250; 25654]%N);
   ((-2266697673730123, -48)%Z, [25252; 35703]%N);
   ((-5299262373589597, -49)%Z, [25256; 28626; 28693]%N);
   ((-7933200992750011, -50)%Z, [25259]%N);
   ((-8092890160635215, -50)%Z, [25260]%N);
   ((-2290921382678429, -48)%Z, [25265]%N);
   ((-4198097068774065, -49)%Z, [25269; 31215; 31309]%N);
   ((-2873435348655961, -48)%Z, [25273]%N);
   ((-5451719504044991, -49)%Z, [25276; 30251; 30321]%N);
   ((-1044634631891467, -47)%Z, [25277]%N);
   ((-6981076041703095, -50)%Z, [25285; 25812]%N);
   ((-4377370581874087, -49)%Z, [25286]%N);
   ((-3988281482624371, -49)%Z, [25289]%N);
   ((-2094116431134029, -48)%Z, [25293]%N);
   ((-8627603254155187, -50)%Z, [25298]%N);
   ((-586979675190201, -46)%Z, [25299]%N);
   ((-4565226029798139, -49)%Z, [25302]%N);
   ((-4993326742286175, -49)%Z, [25304]%N);
   ((-3012489195972023, -48)%Z, [25306; 28949; 29029; 32178; 32593; 35114; 36655; 36753]%N);
   ((-3685775177671279, -49)%Z, [25307]%N);
   ((-4543806871893821, -49)%Z, [25308]%N);
   ((-4902629576497845, -49)%Z, [25311; 25836]%N);
   ((-3694756201654663, -49)%Z, [25317; 25793]%N);
   ((-4743525749274577, -49)%Z, [25320; 25765]%N);
   ((-2750436871063537, -48)%Z, [25321; 25799; 37347; 38035]%N);
   ((-6727621011351801, -49)%Z, [25325; 25874; 25890; 28641; 30410; 31167; 31171; 32341; 32558; 35363; 35776; 36068;
     36145; 37066]%N);
   ((-5124182175620731, -49)%Z, [25329; 32340; 32455]%N);
   ((-4901211565789853, -49)%Z, [25340]%N);
   ((-361436916301279, -45)%Z, [25342; 25925]%N);
   ((-4078686285501245, -49)%Z, [25343; 35531; 35831]%N);
   ((-1725306579790065, -48)%Z, [25345]%N);
   ((-1580490313761717, -48)%Z, [25351]%N);
   ((-2410114122442647, -48)%Z, [25353]%N);
   ((-8988522305208861, -50)%Z, [25361]%N);
   ((-4665219153307011, -49)%Z, [25366]%N);
   ((-5110666569116739, -49)%Z, [25377; 25803]%N);
   ((-8881712593715341, -50)%Z, [25379; 25497]%N);
   ((-4808695713153185, -49)%Z, [25380; 25824]%N);
   ((-2279318605792091, -48)%Z, [25381; 25582; 32085; 32477]%N);
   ((-5043904230420527, -49)%Z, [25384]%N);
   ((-2637681640591381, -48)%Z, [25386]%N);
   ((-5616816851281589, -49)%Z, [25387; 36393; 39519; 39588]%N);
   ((-4282275951448027, -49)%Z, [25391]%N);
   ((-5041173667491861, -49)%Z, [25402; 26550]%N);
   ((-4990000588128905, -49)%Z, [25405]%N);
   ((-5725036106324983, -49)%Z, [25410; 27987; 28611; 36802]%N);
   ((-5604334079237989, -49)%Z, [25414; 27602]%N);
   ((-2542285762702569, -48)%Z, [25417]%N);
   ((-2803404294255997, -48)%Z, [25421; 28921; 31713]%N);
   ((-4859593654428997, -49)%Z, [25424]%N);
   ((-4511712951656473, -49)%Z, [25429]%N);
   ((-4232213004169977, -49)%Z, [25439; 25613]%N);
   ((-2163334086543731, -48)%Z, [25442; 25563]%N);
   ((-2090448629935871, -48)%Z, [25454; 25818]%N);
   ((-4770377113976629, -49)%Z, [25472; 31034; 33988]%N);
   ((-6310812829015829, -49)%Z, [25474; 29330; 29623; 31491; 31716; 35635; 35764; 36020; 36149]%N);
   ((-8584058791085545, -50)%Z, [25480]%N);
   ((-5170207597450345, -49)%Z, [25481; 39187; 39295]%N);
   ((-8230321254927767, -50)%Z, [25484]%N);
   ((-6839842190597019, -50)%Z, [25490]%N);
   ((-4900503897621967, -49)%Z, [25504]%N);
   ((-6193633799308467, -50)%Z, [25505; 37319]%N);
   ((-963444951748307, -47)%Z, [25506]%N);
   ((-6009554140701055, -49)%Z, [25507; 32823]%N);
   ((-3032268377861961, -49)%Z, [25509]%N);
   ((-1647273584432815, -48)%Z, [25511]%N);
   ((-1430997374067037, -48)%Z, [25512]%N);
   ((-4575057749363351, -49)%Z, [25513]%N);
   ((-5536931824643015, -49)%Z, [25530; 25723]%N);
   ((-8077177524930085, -50)%Z, [25551]%N);
   ((-5021088003120909, -50)%Z, [25552]%N);
   ((-2120893976975901, -48)%Z, [25581; 25955; 28216; 36938]%N);
   ((-5306489044760585, -49)%Z, [25588; 37492; 37969]%N);
   ((-5438691981619087, -49)%Z, [25600; 25881]%N);
   ((-703055196521891, -46)%Z, [25601; 25841]%N);
   ((-5278122845303821, -49)%Z, [25605; 25898]%N);
   ((-8343817256278487, -50)%Z, [25622; 25671; 27979; 28204]%N);
   ((-8941406648030849, -50)%Z, [25628]%N);
   ((-2287132430986969, -48)%Z, [25644]%N);
   ((-4533027045220467, -49)%Z, [25645]%N);
   ((-4650059242144273, -49)%Z, [25658; 25884]%N);
   ((-4592380653176497, -49)%Z, [25668; 25885]%N);
   ((-7919819567029749, -50)%Z, [25670; 25850]%N);
   ((-2821322386600965, -48)%Z, [25674; 25892]%N);
   ((-666853616664331, -46)%Z, [25684; 28437]%N);
   ((-5019793251562571, -49)%Z, [25703]%N);
   ((-2471928700898995, -48)%Z, [25705]%N);
   ((-5013707246845261, -49)%Z, [25720]%N);
   ((-5532567849662101, -49)%Z, [25744; 25745]%N);
   ((-5005977835441335, -49)%Z, [25746; 36943]%N);
   ((-2518325978404507, -48)%Z, [25758; 29467]%N);
   ((-4122037783681877, -49)%Z, [25764]%N);
   ((-5863027782657169, -49)%Z, [25769; 32346; 32557; 32676]%N);
   ((-591222710934905, -46)%Z, [25773]%N);
   ((-2472693579023769, -48)%Z, [25776]%N);
   ((-5743699139889845, -49)%Z, [25794; 27704; 28107; 31067; 32784]%N);
   ((-5030381964111929, -49)%Z, [25797; 26131]%N);
   ((-56045682475105, -43)%Z, [25805]%N);
   ((-2743336224845913, -48)%Z, [25830]%N);
   ((-2277207293646989, -48)%Z, [25856]%N);
   ((-5800207597583241, -49)%Z, [25899]%N);
   ((-3224369829842911, -49)%Z, [25903]%N);
   ((-759708798290999, -47)%Z, [25910]%N);
   ((-6029053356480167, -50)%Z, [25913]%N);
   ((-474915538205387, -46)%Z, [25915]%N);
   ((-3135285335817673, -49)%Z, [25918]%N);
   ((-625960791791895, -46)%Z, [25919]%N);
   ((-1270165533754397, -47)%Z, [25928; 31048]%N);
   ((-8755299784403069, -50)%Z, [25937]%N);
   ((-2456690030720729, -48)%Z, [25943; 36133]%N);
   ((-4840201956939337, -49)%Z, [25945]%N);
   ((-5156669070337297, -49)%Z, [25954; 28291; 28528; 36524]%N);
   ((-5488679403523073, -49)%Z, [25968; 25976; 38931; 39039]%N);
   ((-2415063260523429, -48)%Z, [25970]%N);
   ((-1891141657798841, -48)%Z, [25972]%N);
   ((-343676432522283, -45)%Z, [25975; 29053; 35905]%N);
   ((-1206598560622831, -47)%Z, [26009]%N);
   ((-5807244563629123, -49)%Z, [26012; 27665; 27769; 27958; 30127; 30219; 30637]%N);
   ((-2659867768590817, -48)%Z, [26015]%N);
   ((-2670490726530841, -48)%Z, [26021]%N);
   ((-2594390413447665, -48)%Z, [26025; 26028; 32034]%N);
   ((-1058647879302491, -47)%Z, [26029; 26039]%N);
   ((-987113550661945, -47)%Z, [26032]%N);
   ((-5731188626072017, -49)%Z, [26049; 38712; 40165; 40479]%N);
   ((-5071964022784161, -49)%Z, [26053]%N);
   ((-1178201759011385, -47)%Z, [26059]%N);
   ((-202322198538165, -45)%Z, [26080; 28961]%N);
   ((-9629440429473, -40)%Z, [26085]%N);
   ((-308895736952151, -45)%Z, [26088]%N);
   ((-3661223934506873, -49)%Z, [26126]%N);
   ((-5079689014717501, -49)%Z, [26127]%N);
   ((-1330306699052109, -47)%Z, [26144]%N);
   ((-6664595817455515, -50)%Z, [26159]%N);
   ((-6265050340701933, -50)%Z, [26174; 39023]%N);
   ((-5356663524301587, -49)%Z, [26185; 26187; 28085; 34900; 37532]%N);
   ((-3057621639667659, -48)%Z, [26194; 26348; 40763]%N);
   ((-4625666101722301, -49)%Z, [26195; 26313]%N);
   ((-5706971991142847, -49)%Z, [26197; 26248; 28404]%N);
   ((-5534745608484043, -49)%Z, [26234; 38971; 39057]%N);
   ((-4787472049578747, -49)%Z, [26242; 26283]%N);
   ((-2270592941503191, -48)%Z, [26263]%N);
   ((-164769286825113, -44)%Z, [26274; 28023; 30021]%N);
   ((-2067298071406669, -48)%Z, [26292]%N);
   ((-5276741372332211, -49)%Z, [26333]%N);
   ((-7992057891370857, -50)%Z, [26356]%N);
   ((-4609409578327117, -49)%Z, [26367; 28507; 28508; 32066; 32456]%N);
   ((-5492714904341159, -49)%Z, [26368]%N);
   ((-5998462353366503, -50)%Z, [26377]%N);
   ((-8286744831935951, -50)%Z, [26381]%N);
   ((-4570317090161537, -49)%Z, [26395]%N);
   ((-2530285864694949, -48)%Z, [26397; 30596]%N);
   ((-534638904593845, -46)%Z, [26399]%N);
   ((-8314352773520371, -50)%Z, [26410]%N);
   ((-1310815606738523, -47)%Z, [26426; 27231; 27700; 29645]%N);
   ((-7916101092619865, -50)%Z, [26432; 27578]%N);
   ((-5392783487810129, -49)%Z, [26463]%N);
   ((-2535502904933069, -48)%Z, [26494]%N);
   ((-7261820730547159, -50)%Z, [26500; 27083]%N);
   ((-5627006268881787, -49)%Z, [26538; 27085; 31967]%N);
   ((-2688862989610387, -48)%Z, [26543; 28132]%N);
   ((-4021711054367801, -49)%Z, [26597]%N);
   ((-4917738405430625, -49)%Z, [26631; 27161; 36077; 36172]%N);
   ((-2534070459211975, -48)%Z, [26641; 27193]%N);
   ((-5129468129513311, -49)%Z, [26657]%N);
   ((-799339050170293, -46)%Z, [26666; 28966; 32900; 36874; 36956]%N);
   ((-4647346225069631, -49)%Z, [26680]%N);
   ((-1428232297274393, -47)%Z, [26681; 32641; 32648]%N);
   ((-5350338177379333, -49)%Z, [26685]%N);
   ((-1423087273070509, -47)%Z, [26775; 33310]%N);
   ((-5105553455370187, -49)%Z, [26803]%N);
   ((-4271067950478705, -49)%Z, [26816; 27298]%N);
   ((-301341003333763, -45)%Z, [27010]%N);
   ((-5455497705833689, -49)%Z, [27048; 33080; 33225]%N);
   ((-5345640375818809, -49)%Z, [27054; 33635]%N);
   ((-2319642375732073, -48)%Z, [27169; 36924]%N);
   ((-4538205333603503, -49)%Z, [27178; 27243; 28151]%N);
   ((-5101496140845825, -49)%Z, [27424; 39080; 39118]%N);
   ((-2695545201983631, -48)%Z, [27425]%N);
   ((-2115352310308615, -48)%Z, [27426; 27489]%N);
   ((-1253210790965365, -47)%Z, [27427]%N);
   ((-591288018358783, -46)%Z, [27450]%N);
   ((-5594543398488427, -49)%Z, [27453; 38054; 38761]%N);
   ((-5750060223993729, -49)%Z, [27454; 30142; 39449; 39575]%N);
   ((-641316412818235, -46)%Z, [27463]%N);
   ((-2523324051200301, -48)%Z, [27468; 40635]%N);
   ((-4632653933302301, -49)%Z, [27490]%N);
   ((-1855937049808353, -48)%Z, [27491]%N);
   ((-2396351711955753, -48)%Z, [27493]%N);
   ((-4534132675598947, -49)%Z, [27494]%N);
   ((-5480694163915053, -49)%Z, [27495; 32819]%N);
   ((-3984100106975277, -49)%Z, [27515]%N);
   ((-5018047668913031, -49)%Z, [27516; 27570]%N);
   ((-87684226234687, -43)%Z, [27526]%N);
   ((-765952037981113, -46)%Z, [27530; 28907; 29145]%N);
   ((-4717897034133989, -49)%Z, [27531; 27544]%N);
   ((-5136952854533839, -49)%Z, [27542]%N);
   ((-4832001980705137, -49)%Z, [27584; 27585]%N);
   ((-3888893908666555, -49)%Z, [27604]%N);
   ((-8420831880105415, -50)%Z, [27605; 30050]%N);
   ((-5449839869733091, -49)%Z, [27607]%N);
   ((-4546063187352877, -49)%Z, [27627]%N);
   ((-2589129045743397, -48)%Z, [27668; 27683; 35010]%N);
   ((-4732398846788185, -49)%Z, [27687]%N);
   ((-1493781815258845, -47)%Z, [27745; 37855; 38130; 38924; 39042]%N);
   ((-7945109660477675, -50)%Z, [27784; 27785]%N);
   ((-2799708727253191, -48)%Z, [27792]%N);
   ((-4908647295810293, -50)%Z, [27794; 27809]%N);
   ((-2327991343822319, -48)%Z, [27807; 28317; 29468]%N);
   ((-1389249873080199, -47)%Z, [27832; 36466]%N);
   ((-7184873518206779, -50)%Z, [27835]%N);
   ((-5457396358403843, -49)%Z, [27838]%N);
   ((-4879677233262633, -49)%Z, [27839]%N);
   ((-4889300543726015, -49)%Z, [27867]%N);
   ((-3250539405810961, -49)%Z, [27880]%N);
   ((-5938199273915427, -49)%Z, [27908; 36029; 36155]%N);
   ((-4218149177781461, -49)%Z, [27927]%N);
   ((-7832322056033221, -50)%Z, [27963]%N);
   ((-8635613247258837, -50)%Z, [27966]%N);
   ((-3340427132560079, -49)%Z, [27969]%N);
   ((-1266797296348377, -47)%Z, [28010; 39479; 39578]%N);
   ((-2391431201457221, -48)%Z, [28014; 38752]%N);
   ((-4998353114547795, -49)%Z, [28024]%N);
   ((-871240128210541, -47)%Z, [28040]%N);
   ((-7811107938045107, -50)%Z, [28041]%N);
   ((-4374585074194763, -49)%Z, [28044; 28263]%N);
   ((-8058366579628465, -50)%Z, [28072; 28466]%N);
   ((-607284985622493, -46)%Z, [28120]%N);
   ((-654760729897793, -46)%Z, [28129; 36104; 36192]%N);
   ((-1905778667570583, -48)%Z, [28145]%N);
   ((-5085553129757457, -49)%Z, [28153; 32602; 32624]%N);
   ((-5157784927894757, -49)%Z, [28155]%N);
   ((-2148666730018691, -48)%Z, [28165]%N);
   ((-584444677869963, -46)%Z, [28183; 28402]%N);
   ((-4953098921840891, -49)%Z, [28193]%N);
   ((-2867145143277085, -48)%Z, [28210; 36093; 36187]%N);
   ((-2513415108804227, -48)%Z, [28212]%N);
   ((-4641066240145233, -49)%Z, [28287; 28629]%N);
   ((-4740324129535545, -49)%Z, [28304]%N);
   ((-1498635313062081, -47)%Z, [28316; 31095; 31153]%N);
   ((-5686604655157743, -49)%Z, [28322; 31363; 31434; 35408; 35784]%N);
   ((-2298862252235789, -48)%Z, [28342]%N);
   ((-2980496941952021, -48)%Z, [28346; 32966; 33213]%N);
   ((-291084908339343, -45)%Z, [28357; 28781]%N);
   ((-4828879676786501, -49)%Z, [28369; 35492; 35823]%N);
   ((-5097467859232189, -49)%Z, [28378; 28414]%N);
   ((-4985047917298139, -49)%Z, [28382; 28399]%N);
   ((-946764455600703, -47)%Z, [28385; 28415]%N);
   ((-2489662169528231, -48)%Z, [28418]%N);
   ((-5442383469951113, -49)%Z, [28431; 28938]%N);
   ((-1872013122152501, -48)%Z, [28436]%N);
   ((-3093464500615461, -48)%Z, [28526; 37411; 38041]%N);
   ((-8277568742784093, -50)%Z, [28608]%N);
   ((-2603993902773383, -48)%Z, [28748]%N);
   ((-5020668076841065, -49)%Z, [28779]%N);
   ((-8533843638301123, -50)%Z, [28818]%N);
   ((-2823977830604137, -48)%Z, [28843; 30028]%N);
   ((-346471367529361, -45)%Z, [28856]%N);
   ((-3775340371025025, -49)%Z, [28857; 40670]%N);
   ((-6530474570014399, -49)%Z, [28866; 29071; 29211; 30450; 30707; 32929; 33222]%N);
   ((-8833378036495933, -50)%Z, [28903; 29138]%N);
   ((-8929603279403183, -50)%Z, [28909; 29105]%N);
   ((-5874879798384449, -49)%Z, [29006]%N);
   ((-8095374906265687, -50)%Z, [29031]%N);
   ((-2679926525491697, -48)%Z, [29060]%N);
   ((-4324630342976505, -49)%Z, [29087]%N);
   ((-4550223400768851, -49)%Z, [29123; 36330]%N);
   ((-3792070591905635, -49)%Z, [29190]%N);
   ((-5167928444728211, -49)%Z, [29228]%N);
   ((-5566153351788171, -49)%Z, [29289]%N);
   ((-2234364606723709, -48)%Z, [29301; 29309]%N);
   ((-4814736006654231, -49)%Z, [29305; 36650; 36703; 36718; 36720]%N);
   ((-4660120353948901, -49)%Z, [29306; 29351]%N);
   ((-2480852845290067, -48)%Z, [29359]%N);
   ((-2464392106715263, -48)%Z, [29369; 29494]%N);
   ((-3688643405488843, -49)%Z, [29420; 29544]%N);
   ((-5886986715611859, -49)%Z, [29454; 29557; 32325; 32555; 32728; 32761; 32781; 36007; 36139]%N);
   ((-2255502196389759, -48)%Z, [29486; 29563]%N);
   ((-1642420098680983, -48)%Z, [29554; 33719]%N);
   ((-8556561763573975, -50)%Z, [29575]%N);
   ((-2532645266411677, -48)%Z, [29609]%N);
   ((-4805699697814433, -49)%Z, [29615; 29872]%N);
   ((-4026631585883127, -49)%Z, [29616; 29694]%N);
   ((-7247673111013003, -50)%Z, [29702]%N);
   ((-2558951929139341, -48)%Z, [29730]%N);
   ((-2615840666887839, -48)%Z, [29926; 35380; 35785]%N);
   ((-5252437600191595, -49)%Z, [29976]%N);
   ((-6566397068226237, -50)%Z, [29983]%N);
   ((-6641793751268583, -50)%Z, [29992]%N);
   ((-6938549966984735, -50)%Z, [30003]%N);
   ((-7052276998784301, -50)%Z, [30041]%N);
   ((-4657817896942061, -49)%Z, [30053]%N);
   ((-4712300558320489, -49)%Z, [30095]%N);
   ((-598361721913455, -46)%Z, [30097]%N);
   ((-2918153248864723, -48)%Z, [30103; 30274]%N);
   ((-2347427470310277, -48)%Z, [30149]%N);
   ((-2365675261274815, -48)%Z, [30171]%N);
   ((-3810842348258527, -49)%Z, [30331]%N);
   ((-672837566566721, -46)%Z, [30333]%N);
   ((-5640008000449667, -49)%Z, [30344; 30504]%N);
   ((-4737669952278403, -49)%Z, [30417; 30435]%N);
   ((-5541329893523945, -49)%Z, [30422; 33995]%N);
   ((-4890688830381317, -49)%Z, [30423; 30428]%N);
   ((-535995594660301, -46)%Z, [30424; 30436]%N);
   ((-4315300163774591, -49)%Z, [30427]%N);
   ((-5290711070632301, -49)%Z, [30447; 30460; 36305]%N);
   ((-964717601360869, -47)%Z, [30452]%N);
   ((-2720078106027891, -49)%Z, [30456]%N);
   ((-19782592197207, -41)%Z, [30465]%N);
   ((-5306985682527725, -50)%Z, [30475]%N);
   ((-2816085491789527, -48)%Z, [30505; 38518]%N);
   ((-4532658983779817, -49)%Z, [30524]%N);
   ((-8050869548952743, -50)%Z, [30528; 33879]%N);
   ((-4269451935559693, -49)%Z, [30561]%N);
   ((-4920662827349623, -49)%Z, [30563]%N);
   ((-1485671238662071, -47)%Z, [30604; 32027; 32439]%N);
   ((-348319860620761, -45)%Z, [30606]%N);
   ((-4815951881756307, -49)%Z, [30631]%N);
   ((-5530398482995159, -49)%Z, [30633; 30682; 32191; 32501]%N);
   ((-5896948753800409, -50)%Z, [30693]%N);
   ((-2582263462043335, -48)%Z, [30701]%N);
   ((-2702389915588279, -48)%Z, [30733]%N);
   ((-8315486420107345, -50)%Z, [30740]%N);
   ((-901136671824439, -47)%Z, [30772]%N);
   ((-3390235643810373, -49)%Z, [30830; 30906]%N);
   ((-8861883354146905, -50)%Z, [30896]%N);
   ((-5669714889746685, -49)%Z, [30913]%N);
   ((-5118945394104775, -49)%Z, [30933]%N);
   ((-1235392633393727, -47)%Z, [30952]%N);
   ((-2860992439797789, -48)%Z, [31036; 31150; 35538; 35845]%N);
   ((-2623588173689283, -48)%Z, [31069]%N);
   ((-2760901830135135, -48)%Z, [31070]%N);
   ((-1195428966233695, -47)%Z, [31085; 35477; 35806]%N);
   ((-4687540633047717, -49)%Z, [31104]%N);
   ((-132790623639845, -44)%Z, [31105]%N);
   ((-7188063627868839, -50)%Z, [31163; 38626]%N);
   ((-5367906835748885, -49)%Z, [31169; 38452; 38512]%N);
   ((-2135302879186379, -48)%Z, [31181; 31278]%N);
   ((-8939430806798103, -50)%Z, [31199]%N);
   ((-6597118967400659, -50)%Z, [31216; 31281]%N);
   ((-5292127297677143, -49)%Z, [31232]%N);
   ((-1281308850789013, -47)%Z, [31283; 31337]%N);
   ((-4507474914425545, -49)%Z, [31354]%N);
   ((-4300734980678923, -49)%Z, [31359; 38263; 38271]%N);
   ((-8397006768335369, -50)%Z, [31361]%N);
   ((-5459301436206445, -49)%Z, [31397; 31418]%N);
   ((-8660504446192139, -50)%Z, [31435]%N);
   ((-4551363360564573, -49)%Z, [31449]%N);
   ((-2284569068474305, -48)%Z, [31454; 31478]%N);
   ((-2446040274572781, -48)%Z, [31455]%N);
   ((-2630882397516017, -48)%Z, [31459]%N);
   ((-2534547131598055, -48)%Z, [31471]%N);
   ((-8180608358358753, -50)%Z, [31526]%N);
   ((-2536461934742295, -48)%Z, [31548; 31840]%N);
   ((-7357900946988555, -50)%Z, [31561]%N);
   ((-5209210281496047, -49)%Z, [31569; 31689; 35700; 35892]%N);
   ((-2003963115136009, -48)%Z, [31572]%N);
   ((-4940051099579835, -49)%Z, [31574]%N);
   ((-8682286699078591, -50)%Z, [31609; 31820]%N);
   ((-7538100723947497, -50)%Z, [31614; 31805]%N);
   ((-7981891683186647, -50)%Z, [31616; 31777; 36319]%N);
   ((-8783590215154477, -50)%Z, [31649]%N);
   ((-4088629728351105, -49)%Z, [31680; 33410]%N);
   ((-5379379284237069, -49)%Z, [31751]%N);
   ((-1035520997453323, -47)%Z, [31867; 39006]%N);
   ((-314454588322223, -45)%Z, [31881]%N);
   ((-4329482289144157, -49)%Z, [31934]%N);
   ((-4683197234235761, -49)%Z, [31998; 32416]%N);
   ((-2384068257094637, -48)%Z, [32000; 32426; 35504; 35841; 36012; 36028; 36131; 36148]%N);
   ((-5554734097097005, -49)%Z, [32005; 32418; 32899; 32901; 35663; 35749]%N);
   ((-549369416882329, -46)%Z, [32013; 32435]%N);
   ((-5111694788495595, -49)%Z, [32032]%N);
   ((-4587492489728215, -49)%Z, [32039; 32202]%N);
   ((-8137830861345885, -50)%Z, [32047]%N);
   ((-6099377800096421, -50)%Z, [32068; 32452]%N);
   ((-6427830253633143, -50)%Z, [32080; 32467]%N);
   ((-3977062278427943, -49)%Z, [32102; 32473]%N);
   ((-6594000583741017, -50)%Z, [32113; 32479]%N);
   ((-8094131848003241, -50)%Z, [32147; 32463]%N);
   ((-1473801277266501, -47)%Z, [32156; 32508; 32838; 34924; 35183]%N);
   ((-1785117475462847, -48)%Z, [32173; 32500]%N);
   ((-5232956419153015, -49)%Z, [32224; 32532]%N);
   ((-8583578970107969, -50)%Z, [32233; 32531]%N);
   ((-4872229801150421, -49)%Z, [32244; 32451]%N);
   ((-2063066639118443, -48)%Z, [32302; 32553]%N);
   ((-279193087063979, -45)%Z, [32305; 32437]%N);
   ((-8327650210604559, -50)%Z, [32321]%N);
   ((-1233503511226039, -47)%Z, [32350; 32469]%N);
   ((-5821588013512531, -49)%Z, [32353; 32483]%N);
   ((-5303587234451793, -49)%Z, [32362; 32472]%N);
   ((-4618763946865571, -49)%Z, [32371; 32564]%N);
   ((-770031509935983, -47)%Z, [32380; 32487]%N);
   ((-5563850894781331, -49)%Z, [32396; 32493]%N);
   ((-81885440358537, -43)%Z, [32399; 32544]%N);
   ((-7910018706046473, -50)%Z, [32570]%N);
   ((-2378532680915969, -48)%Z, [32610; 32631]%N);
   ((-4568353537583387, -49)%Z, [32622]%N);
   ((-20734162415785, -41)%Z, [32654]%N);
   ((-5528237444051845, -49)%Z, [32670; 36364; 36490]%N);
   ((-8137508022660707, -50)%Z, [32763]%N);
   ((-6868964585857887, -50)%Z, [32771]%N);
   ((-5001729136380435, -49)%Z, [32789; 34164; 34314]%N);
   ((-590897079885627, -46)%Z, [32791]%N);
   ((-347454627542591, -45)%Z, [32824; 32883; 34623; 35199]%N);
   ((-4853055253943757, -49)%Z, [32829]%N);
   ((-5337896788064713, -49)%Z, [32842]%N);
   ((-6481183955253069, -50)%Z, [32852; 32879]%N);
   ((-5054960886064771, -49)%Z, [32856]%N);
   ((-517714551128439, -46)%Z, [32858]%N);
   ((-2355391926721159, -48)%Z, [32862; 38395]%N);
   ((-981899862654771, -47)%Z, [32943]%N);
   ((-8619649844256541, -50)%Z, [32972]%N);
   ((-6866874165823953, -50)%Z, [33021]%N);
   ((-4912656940014577, -49)%Z, [33104]%N);
   ((-3374782641626665, -49)%Z, [33258]%N);
   ((-5282287722155897, -49)%Z, [33267]%N);
   ((-2038604901094621, -48)%Z, [33268]%N);
   ((-4854356872913041, -49)%Z, [33293]%N);
   ((-2901857542637575, -48)%Z, [33298]%N);
   ((-4578639627534843, -49)%Z, [33322]%N);
   ((-4774319751076335, -49)%Z, [33457]%N);
   ((-4747823098031175, -49)%Z, [33510]%N);
   ((-2567402093990507, -48)%Z, [33707]%N);
   ((-1250009648677331, -47)%Z, [33804]%N);
   ((-3791281317393701, -49)%Z, [33853]%N);
   ((-4839566931543831, -49)%Z, [33976]%N);
   ((-5141274948343339, -49)%Z, [34067]%N);
   ((-4965661785240613, -49)%Z, [34394; 34395]%N);
   ((-1454491936025159, -47)%Z, [34555; 34581]%N);
   ((-8725524006498345, -50)%Z, [34701]%N);
   ((-5507071418891213, -49)%Z, [34837]%N);
   ((-7518558579429057, -50)%Z, [34892]%N);
   ((-4778290195418063, -49)%Z, [34893]%N);
   ((-1946447412002727, -48)%Z, [34917; 35036]%N);
   ((-2585580867569335, -49)%Z, [34920]%N);
   ((-4190031745240535, -49)%Z, [34928]%N);
   ((-4616197301294483, -49)%Z, [34987]%N);
   ((-7814010366909599, -50)%Z, [35013; 35037]%N);
   ((-5363060751704473, -49)%Z, [35064]%N);
   ((-6520333238513963, -50)%Z, [35201]%N);
   ((-8915987278133115, -50)%Z, [35206]%N);
   ((-924063297168457, -47)%Z, [35211; 35265]%N);
   ((-2078022224737577, -48)%Z, [35215; 35268]%N);
   ((-2234693240709331, -48)%Z, [35222; 35270]%N);
   ((-6913240361504059, -50)%Z, [35258; 35273]%N);
   ((-7563015270416893, -50)%Z, [35264; 35266]%N);
   ((-2794855590188589, -48)%Z, [35282]%N);
   ((-6065100153846687, -50)%Z, [35299]%N);
   ((-4500134264608695, -49)%Z, [35302; 35320]%N);
   ((-5185251348541357, -49)%Z, [35328; 35576; 35832]%N);
   ((-2344740920853583, -48)%Z, [35330; 35746]%N);
   ((-921873590033673, -47)%Z, [35336; 35745]%N);
   ((-4069238408279863, -49)%Z, [35342; 35752]%N);
   ((-7197828649244113, -50)%Z, [35352; 35760]%N);
   ((-2239000769973849, -48)%Z, [35370; 35775]%N);
   ((-7013196551613981, -50)%Z, [35373; 35774]%N);
   ((-4868876902892173, -49)%Z, [35377; 35768]%N);
   ((-8838780925649135, -50)%Z, [35386; 35786]%N);
   ((-7679919434336487, -50)%Z, [35413; 35780]%N);
   ((-5656017134813759, -49)%Z, [35419; 35781]%N);
   ((-4405423714354327, -49)%Z, [35426; 35810]%N);
   ((-8228220041427999, -50)%Z, [35430; 35797]%N);
   ((-155527783734757, -44)%Z, [35465; 35709]%N);
   ((-170733804763455, -45)%Z, [35469; 35748]%N);
   ((-4843387873498091, -49)%Z, [35480; 35825]%N);
   ((-5956101081980803, -50)%Z, [35498; 35828]%N);
   ((-7481904954976343, -50)%Z, [35519; 35843]%N);
   ((-4233292900824591, -49)%Z, [35527; 35848]%N);
   ((-2311533933277895, -48)%Z, [35542; 35770]%N);
   ((-5364671482283807, -49)%Z, [35575; 35773]%N);
   ((-530059081215495, -46)%Z, [35611; 35762]%N);
   ((-4612793209571035, -49)%Z, [35613; 35874]%N);
   ((-7593061997415519, -50)%Z, [35657; 35777]%N);
   ((-2386877411915155, -48)%Z, [35672; 35782]%N);
   ((-8928951150855069, -50)%Z, [35686]%N);
   ((-8592247190136645, -50)%Z, [35696; 35758]%N);
   ((-1136893109365437, -47)%Z, [35712; 35835]%N);
   ((-2364629856259901, -48)%Z, [35731; 35753; 36118; 36174]%N);
   ((-560547699472327, -46)%Z, [35937; 38500]%N);
   ((-3883293531335967, -49)%Z, [36000; 36127]%N);
   ((-4529723123392177, -49)%Z, [36011; 36143]%N);
   ((-4858936386457753, -49)%Z, [36015; 36142]%N);
   ((-2291524328235747, -48)%Z, [36022; 36140]%N);
   ((-5418810462803969, -49)%Z, [36036; 36159; 38613]%N);
   ((-1108737113805603, -47)%Z, [36074; 36136]%N);
   ((-2459234043954611, -48)%Z, [36090; 36186; 39019; 39076]%N);
   ((-7476328955543331, -50)%Z, [36092; 36141]%N);
   ((-1075610869893187, -47)%Z, [36106; 36190]%N);
   ((-2499597611917425, -48)%Z, [36111; 36194; 38393; 39719]%N);
   ((-3203408103758635, -49)%Z, [36208]%N);
   ((-692390820510427, -46)%Z, [36212; 36575; 36719]%N);
   ((-7857965550452321, -50)%Z, [36214; 36245]%N);
   ((-2751976122109279, -49)%Z, [36215]%N);
   ((-1571792784007805, -48)%Z, [36229]%N);
   ((-19823626900721, -41)%Z, [36234]%N);
   ((-8994034678065049, -50)%Z, [36235; 36264]%N);
   ((-2228192374925391, -48)%Z, [36275]%N);
   ((-8957339459763677, -50)%Z, [36300]%N);
   ((-4640620339168715, -49)%Z, [36328]%N);
   ((-8918568138648517, -50)%Z, [36339]%N);
   ((-175604592740335, -44)%Z, [36341; 36368]%N);
   ((-709411087149403, -46)%Z, [36346]%N);
   ((-5032166276076157, -49)%Z, [36367]%N);
   ((-4733449126856675, -49)%Z, [36530]%N);
   ((-5446099324719111, -49)%Z, [36611; 36739]%N);
   ((-7915570883094247, -50)%Z, [36664; 36755]%N);
   ((-4472023254170925, -49)%Z, [36667; 36752]%N);
   ((-5502932062348559, -49)%Z, [36670; 36759]%N);
   ((-5834930166836847, -50)%Z, [36681; 36716]%N);
   ((-2775115236725103, -48)%Z, [36764]%N);
   ((-2293543526110865, -48)%Z, [36766; 36781]%N);
   ((-1637097475271385, -48)%Z, [36798; 36948]%N);
   ((-8677062096168211, -50)%Z, [36801; 36983]%N);
   ((-819100688714177, -47)%Z, [36807; 36942]%N);
   ((-4970446091261205, -49)%Z, [36808; 36993]%N);
   ((-4100798438908025, -49)%Z, [36814]%N);
   ((-7628031271574913, -50)%Z, [36816; 36939]%N);
   ((-4849168357351023, -49)%Z, [36817]%N);
   ((-6340127603623349, -50)%Z, [36824; 36996]%N);
   ((-4905954214277559, -50)%Z, [36827; 36914]%N);
   ((-8789334614895261, -50)%Z, [36828; 36960]%N);
   ((-4348788303670027, -49)%Z, [36829; 36949]%N);
   ((-8288219971232251, -50)%Z, [36830; 36899]%N);
   ((-2726802717650509, -48)%Z, [36831; 36978]%N);
   ((-8879838696073047, -50)%Z, [36843]%N);
   ((-4668488054797323, -49)%Z, [36855]%N);
   ((-7222475071029963, -50)%Z, [36861]%N);
   ((-7139405221009079, -50)%Z, [36864]%N);
   ((-7701845489369737, -50)%Z, [36865]%N);
   ((-7127628056364353, -50)%Z, [36866; 36969]%N);
   ((-3944298613187235, -49)%Z, [36867]%N);
   ((-6708545029393777, -50)%Z, [36873; 36984]%N);
   ((-7782252416364923, -50)%Z, [36879]%N);
   ((-1137082145644167, -47)%Z, [36882; 36958]%N);
   ((-7347931473935371, -50)%Z, [36890]%N);
   ((-5108615747346193, -49)%Z, [36893]%N);
   ((-5912010833280605, -49)%Z, [36894]%N);
   ((-6915200721674603, -50)%Z, [36896]%N);
   ((-311514168239845, -45)%Z, [36910]%N);
   ((-8041642029460705, -50)%Z, [36935]%N);
   ((-4938535755587003, -49)%Z, [36951; 36986]%N);
   ((-8011226260273309, -50)%Z, [36973]%N);
   ((-1199201537163653, -47)%Z, [36974]%N);
   ((-275541350335345, -45)%Z, [36981]%N);
   ((-7815221924012243, -50)%Z, [36991]%N);
   ((-2389429847330393, -48)%Z, [36992]%N);
   ((-8914699062996193, -50)%Z, [37096]%N);
   ((-5526084669139967, -49)%Z, [37145; 39348; 39535]%N);
   ((-3578821579984087, -49)%Z, [37197]%N);
   ((-1422367386649983, -47)%Z, [37257]%N);
   ((-1293410930442749, -47)%Z, [37266]%N);
   ((-8764838988446267, -50)%Z, [37322; 37323]%N);
   ((-3473575956579931, -49)%Z, [37325]%N);
   ((-4925817408390377, -49)%Z, [37327]%N);
   ((-5273988555338615, -49)%Z, [37679; 38169]%N);
   ((-2447787486742277, -48)%Z, [37723; 38203]%N);
   ((-1269436951514513, -47)%Z, [37782; 38145]%N);
   ((-8712538952544489, -50)%Z, [37806; 38215]%N);
   ((-1538302336304459, -47)%Z, [37846]%N);
   ((-2482434169543059, -48)%Z, [37956; 38136]%N);
   ((-4468072711969609, -49)%Z, [38275; 38378]%N);
   ((-4635738598299271, -49)%Z, [38281; 38381]%N);
   ((-4956213452349071, -49)%Z, [38290; 38386]%N);
   ((-7983861269931059, -50)%Z, [38321; 38405]%N);
   ((-330935655331479, -45)%Z, [38358; 38383]%N);
   ((-2270966746308077, -48)%Z, [38369; 38416]%N);
   ((-7219900276574935, -50)%Z, [38450]%N);
   ((-8204676381076575, -50)%Z, [38459]%N);
   ((-4711794535856377, -49)%Z, [38468; 39108; 39128]%N);
   ((-7278102684587753, -50)%Z, [38477]%N);
   ((-3865467769112055, -49)%Z, [38480]%N);
   ((-4928041045067255, -49)%Z, [38506]%N);
   ((-4304893222139253, -49)%Z, [38519]%N);
   ((-4761467729944233, -49)%Z, [38543; 38568]%N);
   ((-8836376440150441, -50)%Z, [38544; 38577]%N);
   ((-5025945771309605, -49)%Z, [38548]%N);
   ((-2462539071867991, -48)%Z, [38582; 38584]%N);
   ((-4275710863010177, -49)%Z, [38590; 38627]%N);
   ((-3456293832943805, -49)%Z, [38598]%N);
   ((-6351632242519699, -50)%Z, [38656]%N);
   ((-1819789101186485, -48)%Z, [38663]%N);
   ((-4336969466074681, -49)%Z, [38706]%N);
   ((-4948459198159085, -49)%Z, [38738]%N);
   ((-4762020454537895, -49)%Z, [38745; 38748]%N);
   ((-7109477464728743, -50)%Z, [38754]%N);
   ((-5131596487259935, -49)%Z, [38914; 39030]%N);
   ((-4906905166316841, -49)%Z, [38918; 39034]%N);
   ((-1540998362254777, -48)%Z, [38928; 39044]%N);
   ((-8793373204594611, -50)%Z, [38930; 39041]%N);
   ((-5366286834764969, -49)%Z, [38935; 39047]%N);
   ((-628464506955105, -46)%Z, [39003; 39072]%N);
   ((-1206443648677245, -47)%Z, [39015; 39038]%N);
   ((-7961554450000955, -50)%Z, [39131; 39134]%N);
   ((-2358692979167727, -48)%Z, [39135]%N);
   ((-2355644483917745, -48)%Z, [39154; 39278]%N);
   ((-4962494688541693, -49)%Z, [39164; 39282]%N);
   ((-5089496753264305, -49)%Z, [39165; 39281]%N);
   ((-4477334142177269, -49)%Z, [39318]%N);
   ((-4661969123930443, -49)%Z, [39376; 39547]%N);
   ((-8892390664501167, -50)%Z, [39381; 39550]%N);
   ((-319545305583639, -45)%Z, [39387; 39511; 39542; 39564]%N);
   ((-4789791105189573, -49)%Z, [39438; 39569]%N);
   ((-8977577869997405, -50)%Z, [39493; 39537]%N);
   ((-7532805921211247, -50)%Z, [39640]%N);
   ((-5658730151888401, -49)%Z, [40180; 40483]%N);
   ((-8231724245647433, -50)%Z, [40723]%N)];
  (* ('B', 'vd') *)
  [
   ((-4845123461088877, -49)%Z, [20005; 22196; 33258; 36275]%N);
   ((-2227458144039271, -48)%Z, [20498]%N);
   ((-4064709115068207, -49)%Z, [20599]%N);
   ((-7216391975242581, -50)%Z, [20882]%N);
   ((-5830567848801319, -51)%Z, [21516]%N);
   ((-6641253453031627, -50)%Z, [22362; 22533]%N);
   ((-1874836716658065, -48)%Z, [23451]%N);
   ((-166249831364673, -45)%Z, [24448]%N);
   ((-1238584071993887, -53)%Z, [25345]%N);
   ((-1593775837457617, -48)%Z, [29409]%N);
   ((-3885435601968185, -49)%Z, [36229]%N);
   ((-516815397568569, -47)%Z, [36870]%N);
   ((-1384234472109301, -48)%Z, [38281; 38381]%N)];
  (* ('B', 'vg') *)
  [
];
  (* ('B', 'vi') *)
  [
   ((0, 0)%Z, [31561]%N)];
  (* ('B', 'vn') *)
  [
   ((-491368218343879, -46)%Z, [19968]%N);
   ((-6043198735704487, -49)%Z, [19977; 20725; 20918; 21095; 21127; 23432; 23547; 23563; 27515; 27665; 29467; 32102;
     32244; 32451; 32473; 32610; 32631; 35493; 35824; 39080; 39118]%N);
   ((-8889147952515929, -50)%Z, [19978; 36028; 36148]%N);
   ((-4687645867472863, -49)%Z, [19979; 20633; 22791; 29190]%N);
   ((-4775834122541179, -49)%Z, [19981]%N);
   ((-3669208542586341, -49)%Z, [19987; 23560]%N);
   ((-8545318781734807, -50)%Z, [19990]%N);
   ((-5479433326636915, -49)%Z, [19996; 20415; 21215; 26481]%N);
   ((-832707809054785, -46)%Z, [20004; 20056; 20303; 20841; 22266; 23481; 23663; 24110; 24171; 24310; 24594; 25447;
     25856; 26391; 27048; 27454; 27965; 31095; 31153; 31998; 32068; 32362; 32416; 32452; 32472; 32784; 32993; 34065;
     34255; 35201; 36235; 36264]%N);
   ((-958791672772801, -46)%Z, [20005; 20041; 20146; 20598; 20896; 21033; 21050; 21117; 21322; 21602; 22196; 22253;
     22290; 22320; 22368; 22615; 22684; 22781; 22930; 23551; 24471; 24525; 24796; 25170; 25199; 25235; 25250; 25276;
     25311; 25654; 25805; 25836; 26049; 26242; 26283; 26803; 27704; 28034; 28129; 28212; 28389; 28651; 28891; 28954;
     29165; 29627; 29956; 29993; 30000; 30140; 30333; 30446; 30651; 31946; 31967; 32224; 32299; 32353; 32483; 32532;
     32541; 32602; 32624; 32681; 33292; 35211; 35222; 35242; 35265; 35270; 35363; 35513; 35776; 35837; 36198; 36434;
     36451; 36655; 36753; 36935; 36981; 37096; 37341; 38024; 38613; 39135]%N);
   ((-4623847489357987, -49)%Z, [20006; 24182]%N);
   ((-1489104904418967, -47)%Z, [20010; 20491; 21038; 21483; 22857; 22871; 23413; 24604; 24976; 36367; 38281; 38381;
     39640]%N);
   ((-8892809418854501, -50)%Z, [20013]%N);
   ((-1556598815217853, -47)%Z, [20016; 20030; 20139; 20812; 20817; 20891; 24518; 24760; 25014; 25300; 30465; 31934;
     33289; 35491; 35820; 35920; 36557; 36843]%N);
   ((-5404261835378657, -49)%Z, [20018; 20137; 25480; 30045]%N);
   ((-3801669187628337, -49)%Z, [20020; 33256]%N);
   ((-6892713668174515, -50)%Z, [20027]%N);
   ((-7051869645448615, -49)%Z, [20062; 20239; 20272; 20877; 21119; 21351; 21521; 21916; 22242; 22296; 22303; 22581;
     22812; 22855; 23395; 23448; 23574; 24039; 25212; 25220; 25289; 25551; 25975; 25991; 26023; 26800; 27602; 27827;
     28183; 28402; 28789; 29454; 29557; 30701; 31616; 31777; 33253; 35440; 35616; 35800; 35875; 36036; 36064; 36159;
     36180; 36305; 36341; 36368; 36828; 36960; 37411; 38041; 38290; 38369; 38386; 38416; 38665; 38728; 38931; 39039;
     40692]%N);
   ((-1272306538406645, -47)%Z, [20080; 21560; 27714; 36023]%N);
   ((-6858481718265379, -50)%Z, [20105; 29229]%N);
   ((-6712965752389357, -50)%Z, [20111; 34407]%N);
   ((-1464566846625967, -47)%Z, [20114; 21472; 22066; 25703; 27495; 27844; 27945; 27987; 28611; 30090; 31232;
     36870]%N);
   ((-1495971509580617, -47)%Z, [20116; 20542; 20670; 23433; 24322; 28024; 30064; 30456]%N);
   ((-6167961689926445, -50)%Z, [20132]%N);
   ((-1871236587951995, -48)%Z, [20135; 29986]%N);
   ((-2619901824885037, -48)%Z, [20154; 27835; 38745; 38748]%N);
   ((-1624927965787851, -47)%Z, [20167; 20276; 23601; 24102; 24118; 26185; 26187; 26234; 26397; 26893; 27494; 27584;
     27585; 29287; 31639; 32753; 32959; 33131; 35302; 35320; 36020; 36149; 36855; 37327]%N);
   ((-5329090344120399, -49)%Z, [20174; 20282; 21465; 24478; 25944; 26538; 27085; 36008; 36135]%N);
   ((-5232347249988095, -49)%Z, [20179; 20489; 21700; 30952; 36801; 36983]%N);
   ((-5210552917159247, -49)%Z, [20182; 21943; 22132]%N);
   ((-6374093211332803, -49)%Z, [20184; 20308; 21344; 23562; 23567; 23849; 24198; 24815; 24931; 24944; 24950; 25238;
     31526; 35282]%N);
   ((-1795896938065931, -48)%Z, [20195]%N);
   ((-7280126209172073, -49)%Z, [20202; 20313; 20358; 20736; 20807; 20937; 20982; 20993; 21128; 21367; 21564; 22840;
     22859; 22894; 23305; 23519; 24275; 24635; 24748; 25080; 25103; 25138; 25318; 25381; 25507; 25582; 25668; 25876;
     25885; 26085; 26469; 26681; 27498; 27867; 27880; 28020; 28092; 28448; 28779; 28888; 29228; 29609; 31363; 31434;
     31881; 31995; 32216; 32317; 32516; 32599; 32645; 33499; 33804; 35064; 35338; 35437; 35463; 35759; 35809; 36104;
     36192; 36291; 36330; 36493; 36867; 37723; 38203; 38291; 38388; 39192]%N);
   ((-6271455299427945, -49)%Z, [20208; 20985; 21311; 22841; 22846; 24067; 24076; 24819; 25196; 25292; 25562; 25622;
     25671; 25774; 26449; 31085; 32371; 32564; 32676; 33014; 33184; 35206; 36924; 36974; 39154; 39278]%N);
   ((-2370369030044165, -48)%Z, [20210; 25918]%N);
   ((-5527372910875551, -49)%Z, [20219; 24040; 28107; 28626; 28693]%N);
   ((-706623945336769, -46)%Z, [20223; 24341; 25758; 35258; 35273; 35492; 35823; 37956; 38136]%N);
   ((-6574883354409661, -49)%Z, [20225; 20240; 20811; 21439; 22865; 23254; 23398; 23416; 25109; 27801; 27934; 27973;
     28009; 28154; 28382; 28399; 28418; 28846; 29076; 30528; 30917; 32221; 32291; 32521; 33145; 33879; 34506; 34865;
     35584; 35851; 36109; 36193; 36299; 36481; 37145; 38829]%N);
   ((-8907575530918173, -50)%Z, [20241]%N);
   ((-3211927511660075, -49)%Z, [20248; 20778]%N);
   ((-2275439663770129, -48)%Z, [20250; 26371]%N);
   ((-6157898801227327, -50)%Z, [20256; 20659]%N);
   ((-8119753921951097, -50)%Z, [20260; 20663]%N);
   ((-3160219175025691, -48)%Z, [20280; 21422; 21514; 21792; 22062; 22475; 24285; 25684; 32321; 36093; 36187; 36817;
     39348; 39535]%N);
   ((-6145836647609345, -49)%Z, [20304; 20498; 24189; 25233; 25317; 25321; 25504; 25793; 25799; 26017; 27426; 27489;
     29245; 30519; 30757; 32641; 32648; 33988; 38393; 39719]%N);
   ((-8430200445943673, -50)%Z, [20307; 39636]%N);
   ((-5637567311451161, -49)%Z, [20316; 24230; 29031; 30003; 35386; 35786; 38543; 38568]%N);
   ((-5083510876583795, -49)%Z, [20363; 31579; 31721; 32903]%N);
   ((-5775515548286553, -50)%Z, [20379]%N);
   ((-45269289128039, -42)%Z, [20381; 21558; 21584; 22025; 22343; 24515; 35611; 35762; 37679; 38169; 39243; 39304]%N);
   ((-5685168889102987, -49)%Z, [20390; 20597; 21890; 24576; 25079; 26657; 36012; 36131; 36703; 36720; 38453; 38499;
     39221]%N);
   ((-1343720967015507, -47)%Z, [20391; 20596; 21270; 23500; 24453; 25277; 39003; 39072]%N);
   ((-473479953679297, -46)%Z, [20405]%N);
   ((-2145918578086105, -48)%Z, [20419]%N);
   ((-3611419391339713, -49)%Z, [20445]%N);
   ((-2242164066215893, -48)%Z, [20449]%N);
   ((-1103149942722027, -47)%Z, [20462; 30331]%N);
   ((-6889919036161739, -49)%Z, [20505; 20853; 20957; 21024; 21034; 21510; 21535; 21754; 21809; 22240; 22604; 22842;
     22890; 23319; 23436; 23884; 24481; 24685; 24936; 25151; 25943; 25958; 26089; 27424; 27553; 27567; 27607; 27833;
     28404; 28857; 29053; 29060; 29645; 30450; 31142; 31216; 31281; 31964; 32005; 32129; 32350; 32418; 32465; 32469;
     32902; 33222; 33395; 33399; 33618; 35355; 35646; 35769; 35881; 36133; 36866; 36969; 37051; 37168; 38518; 39019;
     39076; 40670]%N);
   ((-2426681021163833, -48)%Z, [20511; 25442; 25563]%N);
   ((-2257273685035991, -48)%Z, [20540]%N);
   ((-1240328605867685, -47)%Z, [20551]%N);
   ((-5930231177041047, -49)%Z, [20559; 20860; 25554; 25773; 26149; 26579; 27169; 27983; 28687; 32232; 32534; 37860;
     38210]%N);
   ((-5365422301588675, -49)%Z, [20572; 25130]%N);
   ((-4641720417595367, -49)%Z, [20581; 28041]%N);
   ((-5593678865312133, -49)%Z, [20599; 32622; 34394; 34395; 36824; 36996]%N);
   ((-5836188087861077, -49)%Z, [20607; 20767; 21696; 25615; 27700; 28174; 28378; 28414; 28678; 32763; 36060; 36176;
     36802; 36879; 37326; 38534]%N);
   ((-198491512579725, -45)%Z, [20648; 20786; 35430; 35797]%N);
   ((-4904754543082317, -49)%Z, [20652; 25513]%N);
   ((-2601735846150899, -48)%Z, [20721; 26550; 38599]%N);
   ((-3216702954357411, -48)%Z, [20805; 20856; 22120; 22270; 22294; 22768; 24764; 24808; 24920; 25304; 25417; 25670;
     25850; 25919; 27794; 27809; 27812; 28442; 28526; 30196; 30733; 31293; 32034; 32882; 34903; 36077; 36172; 36319;
     36785; 38544; 38577; 38918; 39034; 40664; 40723]%N);
   ((-2651650933972665, -48)%Z, [20809; 21927; 30561]%N);
   ((-8259076589011775, -50)%Z, [20813]%N);
   ((-5255019439631893, -49)%Z, [20837; 30563; 30693; 31354; 36882; 36958; 38750]%N);
   ((-2660181131516071, -48)%Z, [20839; 20869; 21545; 25225; 25234]%N);
   ((-4527104395225683, -49)%Z, [20840; 31169]%N);
   ((-8941524833785573, -50)%Z, [20844; 35336; 35745]%N);
   ((-5311767440307253, -49)%Z, [20849; 25034]%N);
   ((-3728470013802127, -49)%Z, [20851; 38364]%N);
   ((-7225338006584305, -50)%Z, [20859; 39178]%N);
   ((-5607931524137619, -49)%Z, [20882; 21400; 21467; 22260; 22285; 22922; 24247; 25302]%N);
   ((-5468060213493533, -49)%Z, [20889; 23531; 25484]%N);
   ((-1453735542995257, -47)%Z, [20901; 21151; 21898; 25429; 25645; 30913; 32933; 35672; 35782; 36611; 36739; 39108;
     39128]%N);
   ((-3382150192171569, -48)%Z, [20908; 20984; 21010; 21123; 21578; 21629; 22234; 22635; 23389; 23646; 23660; 24072;
     24107; 24443; 24505; 24677; 24724; 25187; 25377; 25605; 25803; 25898; 26274; 27814; 28138; 28139; 28902; 29033;
     30021; 30171; 31508; 31558; 32325; 32555; 32670; 32827; 35090; 36300; 36820; 37228; 38263; 38271]%N);
   ((-1503357109290365, -48)%Z, [20914; 34909]%N);
   ((-2319566068694003, -48)%Z, [20915; 27770]%N);
   ((-8761420649598473, -50)%Z, [20919]%N);
   ((-5196478435247235, -49)%Z, [20934; 24613; 26126; 28310; 31215; 31309]%N);
   ((-6109504690141069, -49)%Z, [20940; 20987; 21557; 21741; 24050; 25106; 25340; 25802; 26131; 28363; 30828; 37038;
     37109]%N);
   ((-3360998186652189, -49)%Z, [20943; 28187]%N);
   ((-2638165816680021, -49)%Z, [20986]%N);
   ((-3037688031056661, -48)%Z, [20989; 21650; 22882; 24405; 30416; 32033; 32442; 36418; 37636; 38013; 38075; 38656;
     39361; 39539; 40573]%N);
   ((-8521311053704541, -51)%Z, [20998]%N);
   ((-4943298487496423, -49)%Z, [20999; 24809; 25074; 39165; 39281]%N);
   ((-1146839620177263, -47)%Z, [21015; 25200; 25854; 29301; 29309]%N);
   ((-6099033325141911, -50)%Z, [21019; 21109]%N);
   ((-2588002635827599, -48)%Z, [21021; 21917; 25166; 26127; 33310; 36106; 36190]%N);
   ((-7830051585155533, -50)%Z, [21028]%N);
   ((-1813514297670569, -48)%Z, [21040]%N);
   ((-1795294852324681, -48)%Z, [21046]%N);
   ((-6184676181399327, -49)%Z, [21051; 21085; 21093; 21697; 22868; 22916; 24527; 25082; 25335; 27668; 27683; 28431;
     28938; 29289; 29378; 31070; 32769; 33016; 36062; 36175; 36944]%N);
   ((-4994300005515075, -49)%Z, [21059; 26263]%N);
   ((-2940624063208805, -48)%Z, [21078; 24616; 26367; 27861; 35498; 35531; 35828; 35831; 36229; 36845; 37117]%N);
   ((-2339632161881499, -48)%Z, [21097; 25252; 35703; 36777; 36783]%N);
   ((-4690467677658949, -49)%Z, [21098; 36953; 36965]%N);
   ((-1388241488061121, -47)%Z, [21106; 29006; 30699; 30703]%N);
   ((-4657505095224587, -49)%Z, [21149; 21240; 24120]%N);
   ((-3951119967591221, -49)%Z, [21150; 36774]%N);
   ((-2926202981708627, -49)%Z, [21152]%N);
   ((-2868585222684057, -48)%Z, [21160; 21205; 21306; 21312; 21912; 28608; 36009; 36074; 36136; 36137; 36865; 39479;
     39519; 39578; 39588]%N);
   ((-8881860549037017, -50)%Z, [21161]%N);
   ((-2877814737299505, -48)%Z, [21163; 21589; 22036; 26666; 32972; 34521]%N);
   ((-2544497777449581, -49)%Z, [21171; 21214]%N);
   ((-37234714388997, -42)%Z, [21187; 25193; 25844; 26292]%N);
   ((-4024988835931001, -49)%Z, [21208; 36000; 36127]%N);
   ((-6315838602852339, -50)%Z, [21213; 32988]%N);
   ((-4154087869490021, -49)%Z, [21253]%N);
   ((-7929965273649575, -50)%Z, [21295; 27719]%N);
   ((-5491040953407275, -49)%Z, [21305; 29305; 35010]%N);
   ((-5029339310398341, -49)%Z, [21307; 21547; 26080; 28961; 37291]%N);
   ((-7032642200877143, -50)%Z, [21319]%N);
   ((-8713502783689093, -50)%Z, [21327; 21332]%N);
   ((-5514999886361965, -49)%Z, [21334; 31569; 31689; 32233; 32531; 36067]%N);
   ((-4250217616962681, -49)%Z, [21335]%N);
   ((-2411960020787437, -48)%Z, [21338; 39318]%N);
   ((-4185495612794149, -49)%Z, [21360]%N);
   ((-8432634825069013, -50)%Z, [21387; 22739]%N);
   ((-5579778160204533, -49)%Z, [21388; 21421; 25242; 25771; 25955; 26029; 26039; 27465; 30041; 37610; 38138]%N);
   ((-5118706708634321, -49)%Z, [21407; 38480]%N);
   ((-589565178144895, -46)%Z, [21442; 21443]%N);
   ((-5421475020269429, -50)%Z, [21453]%N);
   ((-3024196167193, -40)%Z, [21457; 30332]%N);
   ((-4979926034340575, -49)%Z, [21462]%N);
   ((-5130945233098665, -49)%Z, [21463]%N);
   ((-8583893766858819, -51)%Z, [21464; 35722]%N);
   ((-2281013607827131, -48)%Z, [21475; 21487]%N);
   ((-5774714351535745, -49)%Z, [21484; 21676; 24778; 26399; 26597; 27687; 29273; 32340; 32455; 33976; 36022; 36049;
     36140; 36168; 39514]%N);
   ((-5243901498899, -40)%Z, [21512]%N);
   ((-4416064089226565, -49)%Z, [21516]%N);
   ((-487356247217791, -46)%Z, [21518; 24460]%N);
   ((-2530606457069065, -48)%Z, [21534; 27490]%N);
   ((-6012761596008765, -49)%Z, [21548; 21884; 22352; 31359; 31614; 31805; 32844; 32887; 32893]%N);
   ((-4223676340243967, -49)%Z, [21551; 21855]%N);
   ((-1323740429023163, -47)%Z, [21561; 26097]%N);
   ((-4326314252148825, -49)%Z, [21608; 36913]%N);
   ((-5149816831020377, -49)%Z, [21621; 26356; 28921; 31062]%N);
   ((-5224988322278635, -49)%Z, [21628]%N);
   ((-8580890874815929, -50)%Z, [21644]%N);
   ((-3428338454525743, -49)%Z, [21672; 35566]%N);
   ((-2722990457425371, -48)%Z, [21806; 22280; 24223; 24290; 28903; 29138; 36895]%N);
   ((-1204198499411359, -47)%Z, [21830; 24615; 30452]%N);
   ((-1162389358616495, -47)%Z, [21839; 30923; 38382]%N);
   ((-4934502215510691, -49)%Z, [22039; 23581; 29071]%N);
   ((-5456912325379529, -49)%Z, [22065; 22225; 28966; 35696; 35758]%N);
   ((-874669707157077, -47)%Z, [22238]%N);
   ((-1559044547171633, -48)%Z, [22269; 22283]%N);
   ((-8226141153756195, -50)%Z, [22312]%N);
   ((-4809757031599553, -49)%Z, [22438; 22718]%N);
   ((-7236232545469633, -50)%Z, [22519; 25191]%N);
   ((-3666907967445801, -49)%Z, [22521]%N);
   ((-4989467787403825, -49)%Z, [22534]%N);
   ((-8123451461914181, -50)%Z, [22577; 25253]%N);
   ((-4857152965430491, -49)%Z, [22686]%N);
   ((-7499747127103715, -50)%Z, [22788; 34389]%N);
   ((-8020865329946479, -50)%Z, [22797]%N);
   ((-4699018980616245, -49)%Z, [22806]%N);
   ((-8413305596569899, -50)%Z, [22810]%N);
   ((-4047102832096279, -49)%Z, [22823]%N);
   ((-3606036231972265, -49)%Z, [22833]%N);
   ((-8341390534276079, -50)%Z, [22870; 29518]%N);
   ((-5668850356570391, -49)%Z, [22900; 26410]%N);
   ((-4707702185467607, -49)%Z, [22996]%N);
   ((-6827600671086969, -50)%Z, [23041]%N);
   ((-7783918878819187, -50)%Z, [23067; 23089]%N);
   ((-1317664485988009, -47)%Z, [23094; 28507; 28508; 31896]%N);
   ((-1273750012479491, -47)%Z, [23130; 32858]%N);
   ((-1038794979074715, -47)%Z, [23384]%N);
   ((-1575724801717509, -48)%Z, [23450]%N);
   ((-6094442181467973, -50)%Z, [23454; 23526]%N);
   ((-7146436403078957, -50)%Z, [23457; 23529]%N);
   ((-1682372032591115, -48)%Z, [23459]%N);
   ((-5424734998970693, -49)%Z, [23485; 23532; 25514; 35352; 35760; 36015; 36142]%N);
   ((-71714357208285, -43)%Z, [23492; 28082]%N);
   ((-2811277211499215, -48)%Z, [23494; 25688; 27927; 29702; 35342; 35752]%N);
   ((-6106727081381263, -50)%Z, [23545; 23565]%N);
   ((-1275208445099235, -47)%Z, [23548; 23566; 28140; 36991]%N);
   ((-4970543317920355, -49)%Z, [23553]%N);
   ((-898048959925029, -47)%Z, [23556]%N);
   ((-2562396356675815, -48)%Z, [23621; 27531; 27544]%N);
   ((-8828658530385743, -50)%Z, [23637]%N);
   ((-8900168267971767, -50)%Z, [23648]%N);
   ((-1476301764843075, -47)%Z, [23653; 24524; 35663; 35749; 36776]%N);
   ((-4792540094836777, -49)%Z, [24033; 35575; 35773; 36814]%N);
   ((-1994430783369703, -49)%Z, [24037]%N);
   ((-5566212444665533, -49)%Z, [24046; 24683; 28072; 28466; 30967; 34593; 34847; 38500; 38506]%N);
   ((-1243803782144585, -47)%Z, [24178; 24185]%N);
   ((-4633991006191441, -49)%Z, [24179]%N);
   ((-3782739896943797, -49)%Z, [24191; 24291]%N);
   ((-5533752265902901, -50)%Z, [24212; 25033]%N);
   ((-1184051132512219, -48)%Z, [24314]%N);
   ((-4048910056612797, -49)%Z, [24320; 37247; 37312; 38283]%N);
   ((-7777091084050701, -50)%Z, [24375; 24378]%N);
   ((-2538926520241599, -48)%Z, [24377; 24392; 28909; 29105; 36873; 36984]%N);
   ((-7885626757876353, -50)%Z, [24402; 27512; 32173; 32500]%N);
   ((-2460780133648459, -48)%Z, [24403; 30070]%N);
   ((-7845282592832855, -51)%Z, [24433]%N);
   ((-3763335466457965, -49)%Z, [24448]%N);
   ((-130977915464555, -44)%Z, [24449; 24501]%N);
   ((-6594075844548373, -50)%Z, [24490]%N);
   ((-3611003469670685, -49)%Z, [24494]%N);
   ((-627387946839671, -46)%Z, [24517]%N);
   ((-8846114692562257, -50)%Z, [24551; 24962]%N);
   ((-2692253589262705, -48)%Z, [24555]%N);
   ((-1348574464818743, -47)%Z, [24605; 25195; 25286; 25475; 30910]%N);
   ((-1292335766068513, -47)%Z, [24681]%N);
   ((-4984676695051693, -49)%Z, [24847]%N);
   ((-2623680069220413, -48)%Z, [24859; 29233]%N);
   ((-2331433281938869, -48)%Z, [24863; 35009]%N);
   ((-2678058565912577, -48)%Z, [24868; 24996; 25176; 32048; 32454]%N);
   ((-2049523093640309, -48)%Z, [25104]%N);
   ((-3083166273914687, -49)%Z, [25112; 25136]%N);
   ((-2323466477202607, -48)%Z, [25171]%N);
   ((-5055773741840407, -49)%Z, [25206; 32047; 36617; 36733]%N);
   ((-3976801474420133, -49)%Z, [25209]%N);
   ((-4303096530563125, -49)%Z, [25215]%N);
   ((-859086338767333, -48)%Z, [25237]%N);
   ((-6869371753902333, -50)%Z, [25239]%N);
   ((-145463855886205, -44)%Z, [25240]%N);
   ((-1304431087781821, -47)%Z, [25243; 25291; 32396; 32493]%N);
   ((-7035456952110267, -50)%Z, [25269]%N);
   ((-3559393360585813, -49)%Z, [25285; 25812]%N);
   ((-7945668455770977, -50)%Z, [25307]%N);
   ((-1630539007772697, -48)%Z, [25351]%N);
   ((-1187523696101495, -47)%Z, [25353]%N);
   ((-3499019494268611, -49)%Z, [25361]%N);
   ((-5414405352212111, -49)%Z, [25380; 25824; 32302; 32553]%N);
   ((-4457515924471737, -49)%Z, [25391; 32160; 32511]%N);
   ((-2504525314916909, -48)%Z, [25439; 25613; 38459]%N);
   ((-2079234412544697, -48)%Z, [25490; 31034]%N);
   ((-6727878551953315, -50)%Z, [25505; 37319]%N);
   ((-8046513361723147, -50)%Z, [25506]%N);
   ((-4722478623113885, -49)%Z, [25509]%N);
   ((-8208029772760183, -50)%Z, [25511]%N);
   ((-8401391200660449, -50)%Z, [25512]%N);
   ((-8567075978709855, -50)%Z, [25552]%N);
   ((-3718317349929483, -49)%Z, [25588]%N);
   ((-8791181851269057, -50)%Z, [25628]%N);
   ((-5502892969134555, -49)%Z, [25644; 30149; 32085; 32477]%N);
   ((-4263310066434781, -49)%Z, [25705]%N);
   ((-314012386200111, -45)%Z, [25764]%N);
   ((-805407111879769, -47)%Z, [25903; 38450]%N);
   ((-1817390831460333, -48)%Z, [25910]%N);
   ((-4916027033826969, -50)%Z, [25913]%N);
   ((-8273794444430697, -50)%Z, [25915; 31680; 33410]%N);
   ((-897047265387789, -47)%Z, [25937]%N);
   ((-21126738955707, -42)%Z, [25945]%N);
   ((-2859648758565367, -48)%Z, [25964; 31609; 31820; 36861]%N);
   ((-4860969589903121, -49)%Z, [25968; 25976; 35408; 35784]%N);
   ((-7096252948873009, -50)%Z, [25972]%N);
   ((-6064303874855505, -50)%Z, [26007; 39717]%N);
   ((-301271609009307, -45)%Z, [26032]%N);
   ((-7140233082114651, -50)%Z, [26045]%N);
   ((-401261100721029, -46)%Z, [26053]%N);
   ((-2268893439034079, -48)%Z, [26222]%N);
   ((-4817998372406815, -50)%Z, [26377]%N);
   ((-1280561761136721, -48)%Z, [26381]%N);
   ((-8777857436506763, -50)%Z, [26426; 27231]%N);
   ((-2434340676848237, -48)%Z, [26432; 27578; 30423; 30428]%N);
   ((-1130721880481165, -47)%Z, [26434; 38620]%N);
   ((-4802806943898443, -49)%Z, [26463; 35215; 35268]%N);
   ((-4743839720570483, -49)%Z, [26497; 26997; 27542]%N);
   ((-4731534313611891, -49)%Z, [26500; 27083]%N);
   ((-8937701740445515, -50)%Z, [26631; 27161]%N);
   ((-2189540473041555, -48)%Z, [26680]%N);
   ((-7451829261194335, -50)%Z, [26685]%N);
   ((-5570930248820373, -50)%Z, [26816; 27298]%N);
   ((-4746958564854881, -49)%Z, [27450; 31069; 31574]%N);
   ((-4555312027241273, -49)%Z, [27491; 30153; 30169]%N);
   ((-3286660670767073, -49)%Z, [27604]%N);
   ((-6958529674830729, -50)%Z, [27745]%N);
   ((-4838448588645735, -49)%Z, [27784; 27785]%N);
   ((-3095843267093013, -49)%Z, [27874]%N);
   ((-4546361690864947, -50)%Z, [27963]%N);
   ((-2548136200778893, -49)%Z, [27969]%N);
   ((-6040469744945913, -50)%Z, [27979; 28204]%N);
   ((-8771253899061687, -50)%Z, [28014]%N);
   ((-69619511855241, -43)%Z, [28023]%N);
   ((-4949553986221881, -50)%Z, [28040]%N);
   ((-1224134037407043, -47)%Z, [28070; 28516]%N);
   ((-3469803270942011, -49)%Z, [28151]%N);
   ((-1425493653329397, -47)%Z, [28155; 33945; 40180; 40483]%N);
   ((-7851662611533125, -50)%Z, [28165]%N);
   ((-3681325482869781, -49)%Z, [28216; 36938]%N);
   ((-4606524585544841, -49)%Z, [28369]%N);
   ((-7815871298130937, -50)%Z, [28436]%N);
   ((-1236937176982935, -47)%Z, [28459; 33298]%N);
   ((-1802400620359957, -48)%Z, [28748]%N);
   ((-5337955880942075, -49)%Z, [28818; 36629; 36731]%N);
   ((-8735610925568389, -50)%Z, [28860; 29001]%N);
   ((-3048138196481355, -49)%Z, [29151; 33829]%N);
   ((-1705439474422545, -48)%Z, [29359]%N);
   ((-569136414310761, -46)%Z, [29420; 29544]%N);
   ((-8180423138067801, -50)%Z, [29468]%N);
   ((-566954262894535, -46)%Z, [29554; 33719]%N);
   ((-3521616999828399, -49)%Z, [29616; 29694]%N);
   ((-6739867673958801, -51)%Z, [29983]%N);
   ((-8354955757489049, -50)%Z, [29992]%N);
   ((-3682740523296661, -49)%Z, [30005; 38651]%N);
   ((-2507027331184161, -48)%Z, [30095]%N);
   ((-2531823062666011, -49)%Z, [30417; 30435]%N);
   ((-1254190853971, -37)%Z, [30424; 30436]%N);
   ((-2594785493597099, -48)%Z, [30475; 33337; 36032; 36154; 40635]%N);
   ((-7948912274677779, -51)%Z, [30740]%N);
   ((-1278171449031055, -47)%Z, [30772; 31105; 31561]%N);
   ((-8960837484088471, -50)%Z, [30896]%N);
   ((-3720333287458631, -49)%Z, [31038]%N);
   ((-8949210187222447, -50)%Z, [31163; 38626]%N);
   ((-6603637684666625, -50)%Z, [31227]%N);
   ((-5844794355076781, -50)%Z, [31361]%N);
   ((-908587031059153, -47)%Z, [31435]%N);
   ((-5872289922270829, -50)%Z, [31454; 31478]%N);
   ((-8629171407794589, -50)%Z, [31572]%N);
   ((-4307893598220845, -50)%Z, [31649]%N);
   ((-6861496177648011, -50)%Z, [32004; 32422]%N);
   ((-3942064277093215, -49)%Z, [32039; 32202]%N);
   ((-3587789947778025, -49)%Z, [32080; 32467]%N);
   ((-1370645671130299, -48)%Z, [32113; 32479]%N);
   ((-2654803727563279, -49)%Z, [32147; 32463]%N);
   ((-352971301697369, -46)%Z, [32156; 32508]%N);
   ((-4779135891263717, -49)%Z, [32380; 32487; 33067; 33073]%N);
   ((-4952234388664597, -49)%Z, [32570; 38930; 39041]%N);
   ((-4880450770941701, -49)%Z, [32654; 34928]%N);
   ((-5990358216624271, -50)%Z, [32771]%N);
   ((-4205456304841081, -49)%Z, [32789]%N);
   ((-1201567815559225, -47)%Z, [32806; 32946; 35330; 35746]%N);
   ((-5143455746916493, -49)%Z, [32819]%N);
   ((-8550718791639475, -50)%Z, [32852; 32879]%N);
   ((-2717628867189615, -48)%Z, [32899; 32901; 37322; 37323]%N);
   ((-205798096034433, -45)%Z, [33258]%N);
   ((-1208695287317075, -47)%Z, [33268]%N);
   ((-4762817358731121, -49)%Z, [33322]%N);
   ((-5286743322638507, -49)%Z, [33609]%N);
   ((-5162758779234149, -49)%Z, [33853]%N);
   ((-5638540125898657, -50)%Z, [34701]%N);
   ((-5735728556844949, -50)%Z, [34892]%N);
   ((-8319138823718293, -50)%Z, [34893]%N);
   ((-3369326397980467, -49)%Z, [34917; 35036]%N);
   ((-6741905277491465, -50)%Z, [34920]%N);
   ((-2386275803111907, -48)%Z, [34987]%N);
   ((-2296044590212727, -48)%Z, [35013; 35037]%N);
   ((-7158946530749951, -50)%Z, [35264; 35266]%N);
   ((-4339807706606483, -49)%Z, [35299]%N);
   ((-6661262457682935, -50)%Z, [35347; 35757]%N);
   ((-317015718887055, -45)%Z, [35370; 35775; 36650; 36718]%N);
   ((-2629227589567919, -49)%Z, [35373; 35774]%N);
   ((-1750362960811887, -48)%Z, [35380; 35785]%N);
   ((-6414886910028349, -50)%Z, [35413; 35780]%N);
   ((-7426617730700065, -50)%Z, [35469; 35748]%N);
   ((-4345910204884095, -49)%Z, [35480; 35825]%N);
   ((-7986873544341375, -51)%Z, [35519; 35843]%N);
   ((-3049056798730471, -49)%Z, [35527; 35848]%N);
   ((-7779817235278095, -50)%Z, [35542; 35770]%N);
   ((-8058685371157767, -50)%Z, [35686]%N);
   ((-5262784389683817, -49)%Z, [35731; 35753]%N);
   ((-8984458628223315, -50)%Z, [36007; 36139]%N);
   ((-5171078128634257, -50)%Z, [36031; 36152]%N);
   ((-2432406133310779, -48)%Z, [36039; 36164]%N);
   ((-7920647428135321, -50)%Z, [36092; 36141]%N);
   ((-4175207916179289, -49)%Z, [36118; 36174]%N);
   ((-4516620852907525, -49)%Z, [36208]%N);
   ((-1001975637141027, -47)%Z, [36215]%N);
   ((-4831137447528843, -49)%Z, [36234]%N);
   ((-2109992425955971, -48)%Z, [36328]%N);
   ((-4237422749077223, -49)%Z, [36339]%N);
   ((-1850489600690645, -48)%Z, [36628; 36741]%N);
   ((-4476536313184171, -49)%Z, [36664; 36755]%N);
   ((-440870399176519, -46)%Z, [36681; 36716]%N);
   ((-2089308150843717, -48)%Z, [36807; 36942]%N);
   ((-598216164151601, -47)%Z, [36816; 36939]%N);
   ((-2438410508367765, -49)%Z, [36827; 36914]%N);
   ((-818431008406847, -47)%Z, [36829; 36949]%N);
   ((-4071061765050969, -49)%Z, [36830; 36899]%N);
   ((-1143350082199411, -47)%Z, [36864]%N);
   ((-375255447811973, -46)%Z, [36890]%N);
   ((-7599843597778699, -50)%Z, [36896]%N);
   ((-3574385744204965, -49)%Z, [36951; 36986]%N);
   ((-3282238051735657, -49)%Z, [37197]%N);
   ((-1391058676686735, -48)%Z, [37325]%N);
   ((-1934571544222655, -48)%Z, [37492; 37969]%N);
   ((-5154122891729149, -50)%Z, [37559; 38144]%N);
   ((-308680198194379, -45)%Z, [37806; 38215]%N);
   ((-4608966888522695, -49)%Z, [38321; 38405]%N);
   ((-498507606101381, -46)%Z, [38468]%N);
   ((-1159138925724525, -47)%Z, [38477]%N);
   ((-4203070920113457, -49)%Z, [38548]%N);
   ((-533746534226991, -46)%Z, [38598]%N);
   ((-7054642836041507, -50)%Z, [38646]%N);
   ((-7215374225568357, -50)%Z, [38663]%N);
   ((-5202726538794207, -50)%Z, [38761]%N);
   ((-1155640817912307, -48)%Z, [38928; 39044]%N);
   ((-7185196180975613, -50)%Z, [38936; 39046]%N);
   ((-4193629190140165, -49)%Z, [39131; 39134]%N);
   ((-2306941756627151, -48)%Z, [39376; 39547]%N);
   ((-8155380704880525, -50)%Z, [39493; 39537]%N);
   ((-8745220371441571, -50)%Z, [39511; 39564]%N)];
  (* ('B', 'vq') *)
  [
   ((-2753344720555859, -51)%Z, [20986]%N);
   ((-6282383295568435, -54)%Z, [21435]%N)];
  (* ('B', 'w') *)
  [
];
  (* ('B', 'x') *)
  [
];
  (* ('B', 'y') *)
  [
   ((-4549213854698269, -52)%Z, [20063]%N);
   ((-4798485576118287, -50)%Z, [20358; 26469]%N);
   ((-5275657997082369, -50)%Z, [20415; 30528; 33879]%N);
   ((-6056072343103039, -50)%Z, [21710]%N);
   ((-6055684737706117, -52)%Z, [32610; 32631]%N);
   ((-1221168342315657, -50)%Z, [32780]%N)];
  (* ('B', 'yg') *)
  [
];
  (* ('B', 'z') *)
  [
   ((-3995645768637989, -49)%Z, [19978; 23781; 23842; 29088]%N);
   ((-1263423636550675, -48)%Z, [19981]%N);
   ((-2180947004346817, -48)%Z, [19997; 26505; 26862; 31168; 32114; 35559; 35856; 36834]%N);
   ((-1802719297813827, -48)%Z, [20004; 20841; 20932; 28114]%N);
   ((-3624101629192517, -49)%Z, [20005; 22196; 27611]%N);
   ((-6865760541881241, -50)%Z, [20037; 20914; 34909]%N);
   ((-6499868002738937, -50)%Z, [20044; 28879]%N);
   ((-4008018793151575, -49)%Z, [20048; 27138; 38605]%N);
   ((-4275114890665015, -49)%Z, [20054; 24820; 27575]%N);
   ((-1073897013564263, -47)%Z, [20064; 21322; 21709; 23011; 32722; 35469; 35748; 38911]%N);
   ((-6011275784917447, -50)%Z, [20081; 20098]%N);
   ((-8177154812827285, -50)%Z, [20105; 25169; 25778; 29229]%N);
   ((-80348568042411, -43)%Z, [20117; 20807; 20957; 20982; 21038; 22350; 22949; 24826; 25361; 25958; 26274; 28491;
     28722; 30021; 32043; 34028; 36339; 37003]%N);
   ((-6930645154655433, -50)%Z, [20142]%N);
   ((-2051600152637227, -48)%Z, [20146; 28814; 35242; 40679]%N);
   ((-4914051790990845, -49)%Z, [20174; 20307; 21033; 21476; 21756; 22024; 22852; 24478; 24614; 25277; 32173; 32500;
     38671; 39636]%N);
   ((-1980039604456469, -48)%Z, [20179; 20489; 21719; 22057; 23110; 35215; 35268]%N);
   ((-4338913268779891, -49)%Z, [20180; 24618; 27735; 28548; 32670]%N);
   ((-67978712937823, -44)%Z, [20248; 20778]%N);
   ((-8093716653883113, -50)%Z, [20302; 26214; 28251]%N);
   ((-7354248635046517, -50)%Z, [20358; 26469; 27498]%N);
   ((-7860799110147113, -51)%Z, [20381]%N);
   ((-4752101181703969, -49)%Z, [20426; 21047; 23267; 24037; 24464; 24609; 24697; 25064; 36413]%N);
   ((-5760772091448097, -49)%Z, [20431; 24052; 25289; 25380; 25824; 25903; 26228; 26412; 26434; 26525; 26665; 27602;
     30862; 32104; 32466; 34382; 37255; 38620; 38914; 39030]%N);
   ((-578310316235671, -46)%Z, [20542; 20670; 21508; 21713; 21854; 25705; 26102; 26178; 31896; 34623; 36924; 39592]%N);
   ((-1096463235412081, -47)%Z, [20551; 21792; 22062; 24754; 33039; 33247; 34701; 35124; 35172; 36805]%N);
   ((-2261922308990255, -48)%Z, [20559; 21704; 22016; 24792; 27915; 29074; 29081; 30933; 33639; 36042; 36156]%N);
   ((-96109051007163, -43)%Z, [20572; 20839; 20869; 21243; 21248; 21702; 22030; 23569; 23692; 23736; 26834; 29701;
     29807; 30162; 30306; 31167; 31171; 31895; 32899; 32901; 33459; 40023; 40158]%N);
   ((-5055529236685685, -49)%Z, [20581; 26009; 26580; 27889; 27969; 32960; 33030; 33081; 33994; 36771; 37658;
     38126]%N);
   ((-8874130999903783, -50)%Z, [20633; 22791; 26494; 28009; 28063; 28451; 28872; 30105; 34394; 34395; 38918;
     39034]%N);
   ((-7692136367729397, -50)%Z, [20667]%N);
   ((-4020669886306735, -49)%Z, [20725; 21628; 24537]%N);
   ((-3971686835683299, -49)%Z, [20754; 30408]%N);
   ((-3112083823078349, -49)%Z, [20809; 22810]%N);
   ((-3337798847706515, -49)%Z, [20852; 33288]%N);
   ((-8399886798813515, -50)%Z, [20882; 23047; 23308; 24443; 24505; 26179; 38926; 39040]%N);
   ((-2646864386629633, -49)%Z, [20912]%N);
   ((-6007066808401367, -50)%Z, [20919]%N);
   ((-8510720467623537, -50)%Z, [20928; 21943; 22132; 23919; 25153; 28136; 29369; 29494; 31364; 32110]%N);
   ((-8120848084961113, -50)%Z, [20937; 21547; 26543; 28092; 28404; 39108; 39128]%N);
   ((-2685282459218881, -48)%Z, [20945; 21737; 22242; 22296; 22855; 24120; 26420; 27192; 28234; 28799; 28895; 28949;
     29017; 29029; 29158; 30528; 32313; 32549; 33879; 39003; 39072]%N);
   ((-7051392887289837, -50)%Z, [20955; 20956]%N);
   ((-4556021944389345, -49)%Z, [20999; 21193; 25206; 31881; 32034; 32654]%N);
   ((-4801084232327405, -49)%Z, [21029; 21035; 22374; 24867; 25302; 26263; 28145; 28418; 28536; 29926; 36229; 36703;
     36720]%N);
   ((-7534778409829061, -50)%Z, [21050; 21741; 38543; 38568]%N);
   ((-7368235149155643, -50)%Z, [21187; 23490; 38393; 39719]%N);
   ((-1147537643104273, -47)%Z, [21220; 23049; 23273; 25402; 28369; 33324]%N);
   ((-4980357745427427, -49)%Z, [21246; 21643; 22303; 22826; 22869; 24681; 25077; 26157; 28101]%N);
   ((-2168605532283207, -49)%Z, [21254]%N);
   ((-8267274889940351, -50)%Z, [21306; 21312; 21912; 31471; 31491; 31716; 32629; 35365; 35767; 39554]%N);
   ((-5446303470890703, -50)%Z, [21313]%N);
   ((-8365240991187223, -50)%Z, [21331; 30127; 30219; 31751; 37322; 37323]%N);
   ((-2968910743711725, -49)%Z, [21402]%N);
   ((-1963313398563383, -48)%Z, [21442; 21443]%N);
   ((-2205438529658535, -48)%Z, [21472; 21696; 26041; 30090; 30353; 30362; 30385; 30394; 34013; 34253]%N);
   ((-7584826645166553, -50)%Z, [21487; 25112; 25136; 27754; 33945; 37679; 38169]%N);
   ((-3107012167573925, -49)%Z, [21574; 24736]%N);
   ((-2332661031837675, -48)%Z, [21617; 26381; 28342; 32233; 32531; 32745; 33032; 33033]%N);
   ((-8929063841196983, -50)%Z, [21644; 22696; 32696]%N);
   ((-7174748960891037, -50)%Z, [21916; 36763]%N);
   ((-2622473133309581, -48)%Z, [21995; 22209; 22934; 24684; 26758; 32933; 33464; 34837]%N);
   ((-8633667940274201, -50)%Z, [22047; 24594; 30495; 33258; 34091; 37257]%N);
   ((-3905380881246717, -49)%Z, [22075; 28316; 32203; 32381; 32495; 32548; 36953; 36965]%N);
   ((-6722193306435449, -50)%Z, [22278; 22291; 27888]%N);
   ((-987176523942389, -47)%Z, [22402; 24653; 32027; 32439]%N);
   ((-6150230808634763, -50)%Z, [22530; 30452]%N);
   ((-4935789958061773, -50)%Z, [22823]%N);
   ((-3611591115374689, -49)%Z, [22868; 37240]%N);
   ((-769376463392827, -47)%Z, [22909]%N);
   ((-1828325576965611, -48)%Z, [22914]%N);
   ((-4854739093608827, -49)%Z, [23113; 24722; 26085; 26114; 30095; 33589; 35582; 35834; 38701; 38724]%N);
   ((-6959639887618107, -50)%Z, [23396]%N);
   ((-405836165508455, -46)%Z, [23433]%N);
   ((-8298992477692829, -50)%Z, [23436; 31616; 31777; 37605; 38147]%N);
   ((-1522464706694671, -48)%Z, [23454; 23526]%N);
   ((-8067223669041015, -50)%Z, [23458; 29481; 30772]%N);
   ((-8331629542758021, -50)%Z, [23485; 23532; 23961; 25166; 33725]%N);
   ((-5973949717787721, -50)%Z, [23494]%N);
   ((-7009688122955599, -50)%Z, [23525]%N);
   ((-8676329625912445, -51)%Z, [23567]%N);
   ((-30762173497309, -42)%Z, [23618; 23652; 27973; 28154; 40643; 40644]%N);
   ((-3215231422617319, -49)%Z, [24013]%N);
   ((-90740725892411, -44)%Z, [24178; 24185]%N);
   ((-1467216823867555, -48)%Z, [24179]%N);
   ((-1864003010358425, -48)%Z, [24180; 24623]%N);
   ((-6839058106772175, -50)%Z, [24189; 30246]%N);
   ((-1176760285786859, -47)%Z, [24248; 25197; 25720; 30149; 31932; 33261; 33592; 35443; 35814]%N);
   ((-5532515527724639, -49)%Z, [24320; 25000; 27531; 27544; 27872; 28151; 28526; 29408; 30250; 30303; 30442; 32399;
     32544; 32966; 32993; 33147; 33193; 33213; 33633; 37221; 38283]%N);
   ((-893911483048497, -47)%Z, [24367; 24398]%N);
   ((-3735665321907917, -49)%Z, [24494; 36433; 36513]%N);
   ((-6779110112835563, -50)%Z, [24555; 24908; 32769; 39019; 39076]%N);
   ((-6474132027208517, -50)%Z, [24573]%N);
   ((-7749887483101991, -50)%Z, [24591; 30414; 36918; 38654; 38695]%N);
   ((-2536843418692939, -49)%Z, [24613]%N);
   ((-1701103074786471, -48)%Z, [24685]%N);
   ((-3373117393643831, -49)%Z, [24694; 24801]%N);
   ((-4926097789972949, -50)%Z, [24708]%N);
   ((-8435632655288275, -50)%Z, [24758; 31070; 36367; 38391]%N);
   ((-2976867765984163, -49)%Z, [24808; 24920; 27905; 28500]%N);
   ((-7551215196737351, -50)%Z, [24822; 26354; 29808]%N);
   ((-794916215723067, -47)%Z, [24930; 28287; 28629]%N);
   ((-3649988946550075, -49)%Z, [25042; 25078; 27987; 28611; 40669]%N);
   ((-6738163785651489, -50)%Z, [25622; 25671]%N);
   ((-3441960305746763, -49)%Z, [25972]%N);
   ((-3801008145308165, -49)%Z, [25991]%N);
   ((-8148649495176313, -50)%Z, [26000; 27769; 27958; 31283; 31337; 32085; 32477; 33391]%N);
   ((-6112697336161015, -50)%Z, [26001]%N);
   ((-532147858268909, -47)%Z, [26080; 28961]%N);
   ((-6140729487212527, -50)%Z, [26126]%N);
   ((-3072735062701477, -49)%Z, [26127]%N);
   ((-4493407478284789, -49)%Z, [26197; 26248; 27426; 27489; 32039; 32202]%N);
   ((-7502607652456119, -50)%Z, [26222; 26408; 28866; 29211; 32160; 32511; 32736]%N);
   ((-5906652717574523, -50)%Z, [26262]%N);
   ((-3867743705206011, -50)%Z, [26368]%N);
   ((-7396740466806615, -50)%Z, [26391]%N);
   ((-7619472452792845, -50)%Z, [26406; 28966]%N);
   ((-7105794768937807, -50)%Z, [27169]%N);
   ((-1952069154201951, -49)%Z, [27491]%N);
   ((-1616947228091091, -48)%Z, [27515]%N);
   ((-6076374834394857, -50)%Z, [27668; 27683]%N);
   ((-7486860543919681, -50)%Z, [27700]%N);
   ((-2945693022126025, -49)%Z, [27704]%N);
   ((-1521336548965143, -48)%Z, [27784; 27785]%N);
   ((-6770800850716681, -50)%Z, [27833]%N);
   ((-7340433738940443, -50)%Z, [27882; 28122]%N);
   ((-6573834289025847, -50)%Z, [27963; 32080; 32467]%N);
   ((-6999498913986783, -50)%Z, [27985; 28222]%N);
   ((-8472550713750067, -50)%Z, [28051; 28487; 28703; 30952; 39333]%N);
   ((-4992346303467343, -50)%Z, [28129]%N);
   ((-5226652462380697, -50)%Z, [28165]%N);
   ((-7655218309267605, -50)%Z, [28201; 28331; 32311; 32533; 36879]%N);
   ((-415348244906723, -46)%Z, [28372]%N);
   ((-2689699323659179, -49)%Z, [28378; 28414]%N);
   ((-3311783329804867, -49)%Z, [28385; 28415]%N);
   ((-1348481647405265, -48)%Z, [28422]%N);
   ((-7128313517719637, -50)%Z, [28448]%N);
   ((-6812974316885277, -50)%Z, [28459]%N);
   ((-485613464706835, -46)%Z, [28538; 37057; 39729]%N);
   ((-5389063083540857, -50)%Z, [28779; 37325]%N);
   ((-2932578786243449, -49)%Z, [28784]%N);
   ((-3200138026484305, -49)%Z, [28796]%N);
   ((-7730306121602867, -50)%Z, [28847]%N);
   ((-1463525295851637, -48)%Z, [28909; 29105]%N);
   ((-1760205244876169, -48)%Z, [29022]%N);
   ((-7062065004225243, -50)%Z, [29066]%N);
   ((-6856789180415527, -50)%Z, [29305]%N);
   ((-1418698637060285, -48)%Z, [29421; 29433]%N);
   ((-3569872035902603, -49)%Z, [29791; 34949; 35018]%N);
   ((-7567895500442707, -50)%Z, [29824; 40635]%N);
   ((-6969473137081321, -50)%Z, [29978]%N);
   ((-895369915668241, -47)%Z, [29980]%N);
   ((-7673526028202355, -50)%Z, [30171]%N);
   ((-3191272489662629, -49)%Z, [30196]%N);
   ((-5509307313820075, -50)%Z, [30333]%N);
   ((-7637203526436197, -50)%Z, [30350]%N);
   ((-582758253941247, -47)%Z, [30701]%N);
   ((-7711059500676103, -50)%Z, [30702; 34593; 34847; 36831; 36978; 40723]%N);
   ((-7382397598870541, -50)%Z, [30828]%N);
   ((-6601983252849871, -50)%Z, [30887]%N);
   ((-3194212182783587, -49)%Z, [31232]%N);
   ((-5776177647275663, -50)%Z, [31354]%N);
   ((-2597788447638125, -49)%Z, [31505]%N);
   ((-807685166670501, -47)%Z, [31508; 31558]%N);
   ((-3636896497077975, -49)%Z, [31561]%N);
   ((-226903919581025, -45)%Z, [31756; 36836]%N);
   ((-8236426387454369, -50)%Z, [31934; 33298]%N);
   ((-7286809323020345, -50)%Z, [31946; 36300]%N);
   ((-6219084567966113, -50)%Z, [32005; 32418]%N);
   ((-3470113669679849, -49)%Z, [32047]%N);
   ((-4903802013744941, -50)%Z, [32048; 32454]%N);
   ((-6911722021708727, -50)%Z, [32191; 32501]%N);
   ((-1757586854118191, -48)%Z, [32982; 38738]%N);
   ((-6203971590624609, -50)%Z, [33457]%N);
   ((-1571756223076881, -48)%Z, [33485; 33980]%N);
   ((-178429174911009, -45)%Z, [33579]%N);
   ((-6893111682181685, -50)%Z, [33831; 34157]%N);
   ((-3558498922759221, -49)%Z, [33905; 34085]%N);
   ((-405432905125893, -46)%Z, [34180]%N);
   ((-6194007809608661, -50)%Z, [34880]%N);
   ((-6325380422917137, -50)%Z, [36196]%N);
   ((-2997266735183549, -49)%Z, [36203]%N);
   ((-7518578131672159, -50)%Z, [36361]%N);
   ((-6762552462859491, -50)%Z, [36575; 36719]%N);
   ((-4698263405500179, -50)%Z, [36629; 36731]%N);
   ((-735008796506357, -47)%Z, [36828; 36960; 38275; 38378]%N);
   ((-6616326120785945, -50)%Z, [36830; 36899]%N);
   ((-6949891775582197, -50)%Z, [36855]%N);
   ((-5271651597149767, -50)%Z, [36890]%N);
   ((-6553174995508683, -50)%Z, [37329]%N);
   ((-824359969980365, -47)%Z, [37941; 38081]%N);
   ((-642228222487957, -47)%Z, [38263; 38271]%N);
   ((-7186663356800487, -50)%Z, [38452; 38512]%N);
   ((-4875769862693429, -50)%Z, [38544; 38577]%N);
   ((-6830296195573429, -50)%Z, [38596]%N);
   ((-5536636323192315, -50)%Z, [38634]%N);
   ((-7831807233310507, -50)%Z, [38646; 39087; 39122]%N);
   ((-4905380009668059, -50)%Z, [38745; 38748]%N);
   ((-2840533493671669, -49)%Z, [38750]%N);
   ((-3663393150123135, -49)%Z, [38969; 39059]%N);
   ((-6189058791060651, -50)%Z, [39131; 39134]%N);
   ((-1852817102277329, -48)%Z, [39321]%N);
   ((-7967077702821157, -50)%Z, [39405; 39559]%N);
   ((-353128031200873, -46)%Z, [39640]%N);
   ((-3151651623403819, -49)%Z, [39854; 40092]%N);
   ((-4863531699734489, -50)%Z, [40657]%N);
   ((-4693020555948033, -50)%Z, [40664]%N);
   ((-7094702069290435, -50)%Z, [40687]%N);
   ((-6244732599742781, -50)%Z, [40718]%N);
   ((-3712993132264119, -49)%Z, [40778; 40784]%N)];
  (* ('B', 'zg') *)
  [
]].
