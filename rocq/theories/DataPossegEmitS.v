(** * The emission numbers of the tagger, states S

    Generated from jieba/posseg/prob_emit.py, the entries with the key ('S', tag): one row
    per tag, in the order of [pos_tags]; in a row, every number with the characters that
    have it (9225 entries in all).  [(m, e)] is the binary64 number [m * 2^e], the exact
    value of the decimal number in the file as Python reads it. *)
From Verif Require Import PyBase.

Definition pos_emit_S : list (list (Z * Z * list N)) := [
  (* ('S', 'a') *)
  [
   ((-7986630190228053, -50)%Z, [19985; 37276]%N);
   ((-106858274639425, -44)%Z, [20005; 22196]%N);
   ((-5645150643414655, -50)%Z, [20037]%N);
   ((-3794877720397565, -48)%Z, [20047; 26127; 29408; 32305; 32437; 32670]%N);
   ((-3300232049562933, -49)%Z, [20048; 27138]%N);
   ((-2232951658636025, -48)%Z, [20054]%N);
   ((-256402482740285, -46)%Z, [20302]%N);
   ((-860792861794489, -47)%Z, [20339]%N);
   ((-537312875586979, -46)%Z, [20426]%N);
   ((-4845263334779337, -49)%Z, [20431]%N);
   ((-1908789587393227, -48)%Z, [20439]%N);
   ((-2528293898238969, -48)%Z, [20500]%N);
   ((-4722229002511165, -49)%Z, [20518; 34850]%N);
   ((-780856214915911, -47)%Z, [20551]%N);
   ((-413994347818273, -46)%Z, [20559]%N);
   ((-2369883901380817, -48)%Z, [20658]%N);
   ((-3619913646318293, -49)%Z, [20667]%N);
   ((-549012816890495, -46)%Z, [20725]%N);
   ((-916263731123981, -47)%Z, [20807; 20982]%N);
   ((-1162862148619617, -48)%Z, [20840]%N);
   ((-5892198162957169, -50)%Z, [20919]%N);
   ((-731889826536219, -47)%Z, [20928; 28136]%N);
   ((-3156029634804801, -49)%Z, [20934; 28310]%N);
   ((-1702335273693615, -47)%Z, [20937; 28092; 31976]%N);
   ((-7999954604990347, -50)%Z, [20985; 39854; 40092]%N);
   ((-2607191887352687, -48)%Z, [20993; 28784]%N);
   ((-4765277990358481, -49)%Z, [21155]%N);
   ((-8439365126522673, -50)%Z, [21220]%N);
   ((-7199548267784795, -49)%Z, [21243; 21248; 21709; 27498; 27963; 38911]%N);
   ((-3200964967284021, -49)%Z, [21402]%N);
   ((-5570360382412967, -50)%Z, [21476; 24046]%N);
   ((-544591507964917, -46)%Z, [21688]%N);
   ((-1418762883302933, -47)%Z, [22278; 22291; 37245; 37317]%N);
   ((-6182921114815953, -50)%Z, [22351; 22750]%N);
   ((-2094697166214325, -48)%Z, [22362; 22533]%N);
   ((-569986056172627, -48)%Z, [22823]%N);
   ((-4832516753547717, -49)%Z, [22855]%N);
   ((-8630025968494501, -50)%Z, [22904; 23014]%N);
   ((-5942082015617997, -51)%Z, [22909]%N);
   ((-7687601178999363, -50)%Z, [22937]%N);
   ((-2046184564283427, -48)%Z, [22949]%N);
   ((-2656859958943847, -48)%Z, [23047; 23308]%N);
   ((-4204334773811797, -49)%Z, [23273]%N);
   ((-932922758875927, -47)%Z, [23396]%N);
   ((-5728825311110215, -50)%Z, [23454; 23526]%N);
   ((-2811684842574453, -49)%Z, [23485; 23532]%N);
   ((-6365475114091325, -50)%Z, [23494]%N);
   ((-1600135340769589, -48)%Z, [23500]%N);
   ((-2026576834124883, -48)%Z, [23506]%N);
   ((-6669973735048573, -51)%Z, [23567]%N);
   ((-4581098437442981, -50)%Z, [23569]%N);
   ((-1759044329337581, -48)%Z, [23574]%N);
   ((-987409892367525, -47)%Z, [24039]%N);
   ((-1079593472368555, -47)%Z, [24069; 24101]%N);
   ((-375957222266285, -46)%Z, [24191; 24291]%N);
   ((-5755610146473799, -49)%Z, [24367; 24398]%N);
   ((-6080927085269395, -50)%Z, [24369]%N);
   ((-4774125168485605, -50)%Z, [24375; 24378]%N);
   ((-7329054152799319, -50)%Z, [24494]%N);
   ((-8916377994480215, -51)%Z, [24555]%N);
   ((-3493807802817687, -49)%Z, [24618]%N);
   ((-8212144881894021, -50)%Z, [24623]%N);
   ((-7057529815495209, -50)%Z, [24694; 24801]%N);
   ((-1039527821827355, -47)%Z, [24808; 24920]%N);
   ((-7603748552939581, -50)%Z, [24908]%N);
   ((-4953949884573081, -49)%Z, [24910; 30250; 30303]%N);
   ((-6642679738094969, -50)%Z, [24930]%N);
   ((-8473834142139989, -50)%Z, [25042; 25078; 33030]%N);
   ((-7622762996044631, -50)%Z, [25153]%N);
   ((-4695256181153901, -49)%Z, [25303]%N);
   ((-2786206810653437, -48)%Z, [26012]%N);
   ((-396819830355689, -47)%Z, [26032]%N);
   ((-2843903103355487, -49)%Z, [26087; 33290]%N);
   ((-4676677405969977, -50)%Z, [26089]%N);
   ((-3925644158306849, -49)%Z, [26097]%N);
   ((-4607067926085585, -49)%Z, [26103; 26336]%N);
   ((-7621394120609333, -50)%Z, [26106]%N);
   ((-2765288201572701, -49)%Z, [26126]%N);
   ((-5974345762317273, -50)%Z, [26131]%N);
   ((-2678554857415183, -49)%Z, [26262]%N);
   ((-8336694045980787, -50)%Z, [26263]%N);
   ((-8344467839166255, -50)%Z, [26274; 30021]%N);
   ((-2867182115296875, -48)%Z, [26292]%N);
   ((-4688710177706167, -49)%Z, [26408]%N);
   ((-8389562908864919, -50)%Z, [26434; 38620]%N);
   ((-5513100923924855, -49)%Z, [26580]%N);
   ((-7265461847925509, -50)%Z, [26834]%N);
   ((-7643498387017595, -50)%Z, [27426; 27489]%N);
   ((-3628261072883005, -49)%Z, [27531; 27544]%N);
   ((-4657075453704083, -49)%Z, [27964; 31402]%N);
   ((-6752228572910895, -50)%Z, [27973; 28154]%N);
   ((-2069090887062541, -48)%Z, [27985; 28222]%N);
   ((-7413385528693823, -50)%Z, [27987; 28611]%N);
   ((-138561544646397, -44)%Z, [28073; 28544; 31528]%N);
   ((-7119740638865559, -50)%Z, [28129]%N);
   ((-8942069559553101, -51)%Z, [28145]%N);
   ((-4946629276157121, -50)%Z, [28165]%N);
   ((-8539905891381435, -50)%Z, [28212]%N);
   ((-3677334073167641, -49)%Z, [28287; 28629]%N);
   ((-2700110725101229, -49)%Z, [28385; 28415]%N);
   ((-4964472619981617, -49)%Z, [28389; 28651]%N);
   ((-1749841058251751, -48)%Z, [28789; 38728]%N);
   ((-8843372793940389, -50)%Z, [28866; 29211]%N);
   ((-7349283631496665, -50)%Z, [28872]%N);
   ((-6971291704061337, -49)%Z, [28902; 29033]%N);
   ((-5009384309916911, -50)%Z, [28909; 29105]%N);
   ((-255422276282737, -45)%Z, [28966]%N);
   ((-2447318593595531, -48)%Z, [29043]%N);
   ((-7340721613757271, -50)%Z, [29087]%N);
   ((-1879237123175333, -48)%Z, [29282]%N);
   ((-5069238889633099, -49)%Z, [29343]%N);
   ((-1963662303588415, -48)%Z, [29420; 29544]%N);
   ((-1197999818821551, -47)%Z, [29467]%N);
   ((-8233146732622877, -50)%Z, [29572]%N);
   ((-7818219863086191, -50)%Z, [29980]%N);
   ((-551208207068011, -46)%Z, [30130]%N);
   ((-4188055568531543, -49)%Z, [30140]%N);
   ((-4376937983084459, -49)%Z, [30162; 30306]%N);
   ((-3366089314518389, -49)%Z, [30171]%N);
   ((-4540761971649003, -49)%Z, [30196]%N);
   ((-924416830318519, -47)%Z, [30246]%N);
   ((-5234244325794861, -50)%Z, [30333]%N);
   ((-1387111624165333, -48)%Z, [30701]%N);
   ((-8193799874714493, -50)%Z, [30702]%N);
   ((-6301843094500813, -50)%Z, [30828]%N);
   ((-989838364185241, -47)%Z, [30862]%N);
   ((-5231189498919975, -49)%Z, [31155]%N);
   ((-4156844807689945, -49)%Z, [31167; 31171]%N);
   ((-924556797996247, -47)%Z, [31232]%N);
   ((-4571616265830965, -49)%Z, [31264]%N);
   ((-1706001948370533, -48)%Z, [31283; 31337]%N);
   ((-7024845375036821, -50)%Z, [31351; 31406]%N);
   ((-5405369955657039, -50)%Z, [31354]%N);
   ((-3375798288718595, -49)%Z, [31364]%N);
   ((-6527213355472265, -50)%Z, [31895]%N);
   ((-402027749673757, -46)%Z, [31934]%N);
   ((-5182206448296539, -49)%Z, [31961]%N);
   ((-2507211054265343, -48)%Z, [31967]%N);
   ((-2491733400512585, -49)%Z, [32005; 32418]%N);
   ((-216420961465217, -45)%Z, [32020; 32431]%N);
   ((-5694136410148467, -49)%Z, [32032]%N);
   ((-6385835522577045, -50)%Z, [32039; 32202]%N);
   ((-3526695997100613, -49)%Z, [32043]%N);
   ((-7405452632918691, -50)%Z, [32047]%N);
   ((-6071908738353431, -50)%Z, [32048; 32454]%N);
   ((-6373575148357477, -50)%Z, [32160; 32511]%N);
   ((-4311672025162803, -49)%Z, [32191; 32501]%N);
   ((-1450167546257583, -47)%Z, [32694; 33211]%N);
   ((-3899971131889107, -50)%Z, [32769]%N);
   ((-5588272415183113, -49)%Z, [32933]%N);
   ((-8259359342956755, -50)%Z, [32960; 33081]%N);
   ((-949295051396767, -47)%Z, [32982]%N);
   ((-7837944161515879, -50)%Z, [33039; 33247]%N);
   ((-4208479209365385, -49)%Z, [33104]%N);
   ((-8500396577674941, -50)%Z, [33125]%N);
   ((-4923512744877359, -49)%Z, [33226]%N);
   ((-482592278668181, -46)%Z, [33261]%N);
   ((-4222518589175847, -49)%Z, [33391]%N);
   ((-4247219710706625, -49)%Z, [33395; 33399]%N);
   ((-6361446845369043, -50)%Z, [33510]%N);
   ((-8328973559224925, -50)%Z, [33538]%N);
   ((-4476963593534127, -49)%Z, [33643; 34093]%N);
   ((-3418441552881333, -49)%Z, [34013; 34253]%N);
   ((-3268807176183311, -49)%Z, [34180]%N);
   ((-2810698335965155, -48)%Z, [34542; 34875]%N);
   ((-2005792464632767, -48)%Z, [35488; 35802]%N);
   ((-3179607565127061, -49)%Z, [36020; 36149]%N);
   ((-2856945533500857, -48)%Z, [36042; 36156]%N);
   ((-8308640728413189, -50)%Z, [36068; 36145]%N);
   ((-5742407516350301, -50)%Z, [36275]%N);
   ((-6552868543794207, -50)%Z, [36575; 36719]%N);
   ((-5861118854391877, -50)%Z, [36629; 36731]%N);
   ((-5422315027747277, -49)%Z, [36771]%N);
   ((-5398855385249637, -49)%Z, [36802]%N);
   ((-2229836632839265, -49)%Z, [36817]%N);
   ((-5032476322661087, -50)%Z, [36828; 36960]%N);
   ((-898315037483355, -47)%Z, [36831; 36978]%N);
   ((-7131189074454307, -50)%Z, [37034]%N);
   ((-8776545857670959, -50)%Z, [37221]%N);
   ((-2912314558992511, -48)%Z, [37240]%N);
   ((-4818065589255273, -50)%Z, [37325]%N);
   ((-8799681601313915, -50)%Z, [37326]%N);
   ((-8949468171707991, -50)%Z, [37389; 38045]%N);
   ((-2253390269660887, -48)%Z, [37555; 38160]%N);
   ((-7621587016914227, -51)%Z, [38263; 38271]%N);
   ((-7529486483147267, -50)%Z, [38346; 38420]%N);
   ((-6817289993678759, -50)%Z, [38452; 38512]%N);
   ((-8048871938259495, -50)%Z, [38497]%N);
   ((-7136512488186361, -50)%Z, [38505; 38570]%N);
   ((-4752514142108013, -50)%Z, [38590; 38627]%N);
   ((-6305663305201339, -50)%Z, [38738]%N);
   ((-1086945488858251, -47)%Z, [38745; 38748]%N);
   ((-944051604876143, -47)%Z, [38918; 39034]%N);
   ((-6494305413022383, -49)%Z, [39003; 39072]%N);
   ((-8121135959777941, -50)%Z, [39165; 39281]%N);
   ((-1289806427095699, -47)%Z, [39231; 39306]%N);
   ((-4904098753664415, -49)%Z, [39262; 39307]%N);
   ((-6035871425881829, -50)%Z, [39321]%N);
   ((-4705220157257585, -49)%Z, [39479; 39578]%N);
   ((-6057283288719353, -51)%Z, [39640]%N);
   ((-4708581062484555, -49)%Z, [39740]%N);
   ((-5627552599830753, -50)%Z, [40643; 40644]%N);
   ((-1246531802745479, -47)%Z, [40655]%N);
   ((-5180547370558555, -50)%Z, [40657]%N);
   ((-865407619102213, -47)%Z, [40778; 40784]%N)];
  (* ('S', 'ad') *)
  [
   ((-6159335181027613, -50)%Z, [20725]%N);
   ((-1797746707671371, -48)%Z, [22362; 22533; 24910]%N);
   ((-6734473703238567, -50)%Z, [22855; 26292; 30196]%N);
   ((-7273040701220893, -51)%Z, [23853; 23940]%N);
   ((-4514526901848527, -51)%Z, [24039]%N);
   ((-989112368535931, -49)%Z, [24713]%N);
   ((-1445125280290165, -48)%Z, [24808; 24920]%N);
   ((-4303110588063491, -50)%Z, [26263; 29976]%N);
   ((-4528644815264419, -51)%Z, [28389; 28651]%N);
   ((-3985700588353077, -49)%Z, [32032]%N);
   ((-8624696742634169, -53)%Z, [32597]%N);
   ((-374528618504445, -47)%Z, [36837]%N)];
  (* ('S', 'ag') *)
  [
   ((-4244100866593759, -50)%Z, [20016; 35920]%N);
   ((-7861780691829849, -50)%Z, [20029; 40599]%N);
   ((-5806754719708341, -49)%Z, [20161; 22839; 24974; 25000; 25958; 26191; 26234; 29245; 31983; 33298; 36259]%N);
   ((-230657543974527, -46)%Z, [20248; 20778]%N);
   ((-6782881554315653, -50)%Z, [20461; 20745]%N);
   ((-7711437709313333, -50)%Z, [20520]%N);
   ((-5416547546698007, -49)%Z, [20625; 21927; 24709; 24742; 26480; 26862; 27965; 30142; 36066; 36132; 36423; 38451;
     38525]%N);
   ((-2772977040424033, -49)%Z, [20731]%N);
   ((-7952328455946921, -51)%Z, [20800]%N);
   ((-3339893029827731, -49)%Z, [20887]%N);
   ((-6522428101755127, -50)%Z, [20932; 28114]%N);
   ((-5620332999782391, -50)%Z, [20984; 28237]%N);
   ((-2203938318476939, -48)%Z, [21155; 36837]%N);
   ((-2726140198856173, -49)%Z, [21187]%N);
   ((-8913719375154629, -50)%Z, [21191; 30699; 30703; 33696]%N);
   ((-5169325506322667, -50)%Z, [21329]%N);
   ((-3838395950843521, -49)%Z, [21361; 26483]%N);
   ((-1297072745743637, -47)%Z, [21385; 21426; 23815; 24196; 24747; 24872; 28949; 29029; 33674; 37670; 38182]%N);
   ((-4900721721869071, -49)%Z, [21696; 40674]%N);
   ((-7327588496802969, -50)%Z, [21868; 21959; 40251; 40511]%N);
   ((-454914288332561, -46)%Z, [21892; 28865; 29197; 32010; 38475]%N);
   ((-6507941726902511, -51)%Z, [22855]%N);
   ((-1570256011895285, -48)%Z, [22882]%N);
   ((-887706672434511, -47)%Z, [23113; 24646; 24658]%N);
   ((-1481969257821441, -48)%Z, [23421]%N);
   ((-6300951999788509, -50)%Z, [23490]%N);
   ((-8331981004715497, -51)%Z, [23506]%N);
   ((-4798083809964213, -49)%Z, [23518; 24322; 30064; 32736; 33725; 38518]%N);
   ((-2549021108414041, -49)%Z, [23521]%N);
   ((-6010205382444815, -50)%Z, [23789; 38476]%N);
   ((-327348922648635, -46)%Z, [23803]%N);
   ((-8359312693360943, -51)%Z, [24040]%N);
   ((-4752759802983835, -50)%Z, [24188]%N);
   ((-2942692599762833, -49)%Z, [24189; 25062]%N);
   ((-8564515970270555, -50)%Z, [24223; 24290; 24699; 24827; 33140]%N);
   ((-2446671076829147, -49)%Z, [24265]%N);
   ((-6624853218362263, -50)%Z, [24357; 24396; 28784; 36805]%N);
   ((-5682428428867125, -50)%Z, [24432]%N);
   ((-58505513463493, -43)%Z, [24494]%N);
   ((-7164804504753351, -50)%Z, [24548]%N);
   ((-5265286442468145, -50)%Z, [24608]%N);
   ((-4555134517604363, -50)%Z, [24674]%N);
   ((-590024419442475, -47)%Z, [24685]%N);
   ((-7517951521048727, -50)%Z, [24754]%N);
   ((-218865227444663, -45)%Z, [24813; 24922; 27513; 31469; 33219]%N);
   ((-3511305205587961, -49)%Z, [24816]%N);
   ((-2490053885086081, -49)%Z, [24904]%N);
   ((-8642195037850519, -50)%Z, [24910]%N);
   ((-628292546710959, -46)%Z, [24936; 26157; 38534]%N);
   ((-281907159303671, -45)%Z, [25022; 36944]%N);
   ((-5935117570109553, -50)%Z, [25305; 28147]%N);
   ((-6057785697787481, -50)%Z, [25370; 25711]%N);
   ((-1908544493892165, -49)%Z, [25935]%N);
   ((-1649590058380041, -48)%Z, [26126]%N);
   ((-2355652345967797, -48)%Z, [26222]%N);
   ((-6737537175028057, -50)%Z, [26257]%N);
   ((-7254924581866417, -50)%Z, [26286; 27465]%N);
   ((-4967735119213917, -50)%Z, [26364]%N);
   ((-4569827246240755, -49)%Z, [26391; 27978; 28609; 29152; 36995; 39138; 39269]%N);
   ((-4388911160301997, -50)%Z, [27054; 33635]%N);
   ((-4211797399639255, -49)%Z, [27449]%N);
   ((-7352890683113289, -50)%Z, [27494]%N);
   ((-6510256092320507, -50)%Z, [27495]%N);
   ((-6474510235845747, -50)%Z, [27803; 37219]%N);
   ((-5245428786511967, -50)%Z, [27905; 28500]%N);
   ((-8078189374233983, -51)%Z, [27915]%N);
   ((-2804700923430647, -49)%Z, [28009]%N);
   ((-663780834664339, -47)%Z, [28139]%N);
   ((-1699602863604875, -48)%Z, [28218; 36101; 36184]%N);
   ((-4636133200677337, -49)%Z, [28796; 32745; 39423; 39567]%N);
   ((-1544327863095265, -48)%Z, [28799; 29158]%N);
   ((-836743563671295, -47)%Z, [28861; 29118]%N);
   ((-1328606104577901, -48)%Z, [29004]%N);
   ((-5050700111558629, -50)%Z, [29157]%N);
   ((-616054747404959, -47)%Z, [29421; 29433]%N);
   ((-3032957487154105, -49)%Z, [29712; 29795]%N);
   ((-7208963102038931, -50)%Z, [30240]%N);
   ((-147583348299083, -45)%Z, [30566]%N);
   ((-5115444416536909, -50)%Z, [30805; 30889]%N);
   ((-4092840955201801, -49)%Z, [30887; 35082]%N);
   ((-4120307375848401, -49)%Z, [31077; 37000]%N);
   ((-7011423625544049, -51)%Z, [31168]%N);
   ((-7229908533850897, -51)%Z, [31169]%N);
   ((-4913681543804407, -50)%Z, [31491; 31716]%N);
   ((-5711826963468429, -50)%Z, [32027; 32439]%N);
   ((-1724094388916593, -48)%Z, [32597]%N);
   ((-7081366345809179, -50)%Z, [32641; 32648]%N);
   ((-3249107133650153, -49)%Z, [32874; 32880]%N);
   ((-7302842447775797, -50)%Z, [33392; 33393; 36945]%N);
   ((-8083256793796467, -50)%Z, [33459; 39333]%N);
   ((-5210544415497381, -50)%Z, [33579]%N);
   ((-1955567844530839, -48)%Z, [34074]%N);
   ((-6572476337092619, -50)%Z, [34384]%N);
   ((-2209369033832929, -49)%Z, [34928]%N);
   ((-2378927190695261, -49)%Z, [35064]%N);
   ((-1886994324488547, -48)%Z, [35416; 35790]%N);
   ((-779086842966627, -47)%Z, [35437; 35809]%N);
   ((-8770475495771393, -51)%Z, [35443; 35814]%N);
   ((-5136688441257475, -50)%Z, [35559; 35856]%N);
   ((-4390752370698983, -50)%Z, [35946]%N);
   ((-2291601253824793, -49)%Z, [36007; 36139]%N);
   ((-5972035628571345, -50)%Z, [36196]%N);
   ((-208306235798323, -45)%Z, [36866; 36969]%N);
   ((-6534733141249197, -50)%Z, [36920]%N);
   ((-5331292148131785, -50)%Z, [36953; 36965]%N);
   ((-2785978771991913, -49)%Z, [37145]%N);
   ((-2257665560037841, -49)%Z, [37255]%N);
   ((-8405615897402881, -51)%Z, [38597]%N);
   ((-3208672839718813, -49)%Z, [38860; 38887]%N);
   ((-1231367794837379, -48)%Z, [38929; 39037]%N);
   ((-2740514170030673, -49)%Z, [38971; 39057]%N);
   ((-2960341379100807, -49)%Z, [39509; 39556]%N)];
  (* ('S', 'an') *)
  [
   ((-4439996277513213, -52)%Z, [24754]%N);
   ((-7280430883426243, -53)%Z, [27978; 28609]%N);
   ((-7691129508557779, -52)%Z, [31469]%N)];
  (* ('S', 'b') *)
  [
   ((-3437571168640677, -49)%Z, [20180]%N);
   ((-5459412557228951, -50)%Z, [20844]%N);
   ((-3771921217352553, -51)%Z, [21103]%N);
   ((-4343166219846029, -51)%Z, [21407]%N);
   ((-6033853711869241, -50)%Z, [22797]%N);
   ((-4617917739897373, -51)%Z, [22899]%N);
   ((-6250339590612721, -52)%Z, [24635; 32317]%N);
   ((-7967749654631585, -51)%Z, [27597]%N);
   ((-2207032375987985, -48)%Z, [27915]%N);
   ((-1652486120685573, -49)%Z, [30007]%N);
   ((-208166055850427, -45)%Z, [32115; 32475]%N);
   ((-5905510255110179, -50)%Z, [35088]%N);
   ((-2489713975102067, -49)%Z, [37326]%N);
   ((-8959897531154057, -52)%Z, [37329]%N);
   ((-2412758920433177, -48)%Z, [38287; 38384]%N);
   ((-2512723182056013, -49)%Z, [38451; 38525]%N);
   ((-5156635783968627, -50)%Z, [38596]%N);
   ((-305084249339549, -46)%Z, [38604]%N)];
  (* ('S', 'bg') *)
  [
   ((-1095450027772747, -49)%Z, [27225]%N);
   ((-5553863553831595, -55)%Z, [36119; 36189]%N)];
  (* ('S', 'c') *)
  [
   ((-4833172148648957, -50)%Z, [19988]%N);
   ((-2776412080159223, -50)%Z, [20006; 24182]%N);
   ((-2534157717660647, -50)%Z, [20294]%N);
   ((-7836390560669713, -50)%Z, [20504]%N);
   ((-46524780596447, -42)%Z, [20645; 20795]%N);
   ((-3239365251352325, -50)%Z, [21450]%N);
   ((-843014285584703, -50)%Z, [21644]%N);
   ((-227431785812031, -45)%Z, [22797]%N);
   ((-38644539114071, -42)%Z, [24799]%N);
   ((-2806933557730483, -50)%Z, [25110]%N);
   ((-5211330684857283, -50)%Z, [25925]%N);
   ((-5050159123468053, -50)%Z, [26082]%N);
   ((-4220784988246639, -49)%Z, [26280]%N);
   ((-6676273564983867, -49)%Z, [28982; 32305; 32437]%N);
   ((-9004387974761861, -52)%Z, [32780]%N);
   ((-6486856535050391, -49)%Z, [33503]%N);
   ((-2382731641399041, -49)%Z, [33509]%N);
   ((-2596048939148675, -49)%Z, [34429; 38614]%N)];
  (* ('S', 'd') *)
  [
   ((-4888072983638409, -51)%Z, [19981]%N);
   ((-7505826084107391, -50)%Z, [19987; 23560]%N);
   ((-1927857864036279, -47)%Z, [19994; 26989]%N);
   ((-5032976785622859, -49)%Z, [20045]%N);
   ((-4986401858238567, -51)%Z, [20063]%N);
   ((-3344479498572775, -49)%Z, [20081; 20098]%N);
   ((-65566843597837, -43)%Z, [20114]%N);
   ((-1374502599835559, -47)%Z, [20127]%N);
   ((-6121065673081923, -50)%Z, [20134]%N);
   ((-5666832334261417, -50)%Z, [20165; 20677]%N);
   ((-1264533158435643, -48)%Z, [20173]%N);
   ((-970740668411365, -47)%Z, [20284]%N);
   ((-4809522551871845, -50)%Z, [20415]%N);
   ((-7196817773048817, -50)%Z, [20559]%N);
   ((-4712103815090503, -49)%Z, [20598]%N);
   ((-2706381483464419, -49)%Z, [20808]%N);
   ((-5586088747135793, -50)%Z, [20849]%N);
   ((-8861752770990891, -51)%Z, [20877]%N);
   ((-248552182066617, -45)%Z, [20915; 27770]%N);
   ((-7469132637680141, -50)%Z, [20961]%N);
   ((-2401099873417145, -49)%Z, [21017; 21063]%N);
   ((-6424749084495605, -50)%Z, [21018; 21083]%N);
   ((-6195271578131529, -50)%Z, [21029; 21035]%N);
   ((-1103829747565707, -47)%Z, [21153; 21209]%N);
   ((-7195605631316181, -49)%Z, [21191]%N);
   ((-8881786551397359, -50)%Z, [21247]%N);
   ((-6574602628061163, -50)%Z, [21333; 21934]%N);
   ((-2290609684005981, -49)%Z, [21364; 21371]%N);
   ((-2545742346899653, -48)%Z, [21382; 27511]%N);
   ((-6725265592261065, -51)%Z, [21448]%N);
   ((-1949234110204383, -49)%Z, [21482]%N);
   ((-4466800452298961, -49)%Z, [21807]%N);
   ((-5223080367061225, -50)%Z, [22343]%N);
   ((-7516820311702185, -50)%Z, [22797]%N);
   ((-1325622816160627, -48)%Z, [22826]%N);
   ((-4872235521491551, -49)%Z, [22916]%N);
   ((-1675690136600247, -47)%Z, [23425; 23527]%N);
   ((-751385425897197, -46)%Z, [23451]%N);
   ((-6443482285619107, -51)%Z, [23558; 23559]%N);
   ((-6835011393601247, -50)%Z, [23578]%N);
   ((-7852500593544221, -50)%Z, [23588]%N);
   ((-1323817374832603, -49)%Z, [23601]%N);
   ((-4224865961758509, -49)%Z, [23649; 23650]%N);
   ((-7735635793207495, -50)%Z, [23682; 35912]%N);
   ((-4193276722135415, -50)%Z, [24050]%N);
   ((-6070050818326897, -50)%Z, [24120]%N);
   ((-4971253163984515, -49)%Z, [24357; 24396]%N);
   ((-4288144282007189, -50)%Z, [24456]%N);
   ((-8495501744495315, -50)%Z, [24466]%N);
   ((-8182734733071699, -50)%Z, [24494]%N);
   ((-6637895961531553, -50)%Z, [24517]%N);
   ((-1230883640271175, -47)%Z, [24530]%N);
   ((-3554789791043747, -49)%Z, [24573]%N);
   ((-3970577804381533, -49)%Z, [24656]%N);
   ((-2207256524444533, -48)%Z, [24688]%N);
   ((-2210089510022909, -48)%Z, [24799]%N);
   ((-8107295781120781, -50)%Z, [24840]%N);
   ((-8997975718784543, -51)%Z, [25165]%N);
   ((-4019494308524199, -49)%Z, [25402]%N);
   ((-8371976188482267, -50)%Z, [26059]%N);
   ((-7740525702769395, -50)%Z, [26126]%N);
   ((-2040292138187523, -48)%Z, [26242; 26283]%N);
   ((-8863178740236353, -51)%Z, [26356]%N);
   ((-5140779298870779, -50)%Z, [26366]%N);
   ((-1098735810723479, -48)%Z, [26368]%N);
   ((-5534069374640125, -50)%Z, [26410]%N);
   ((-3142294843067677, -49)%Z, [26497; 26997]%N);
   ((-4892574185034347, -49)%Z, [27010]%N);
   ((-1753194993709833, -48)%Z, [27442]%N);
   ((-2358236253066071, -49)%Z, [27491]%N);
   ((-6168475692341157, -49)%Z, [27526]%N);
   ((-5025774769014401, -49)%Z, [27530]%N);
   ((-89869804843831, -43)%Z, [27595]%N);
   ((-2698607602893931, -48)%Z, [27627]%N);
   ((-8390371886905457, -50)%Z, [27704]%N);
   ((-4652324315525235, -50)%Z, [27794; 27809]%N);
   ((-3793371143672033, -49)%Z, [28176; 28472]%N);
   ((-6863319956683847, -50)%Z, [29305]%N);
   ((-2204850740767267, -48)%Z, [29369; 29494]%N);
   ((-4322580248664987, -49)%Z, [29378]%N);
   ((-8944256188289847, -50)%Z, [29408]%N);
   ((-8684132493558417, -50)%Z, [29420; 29544]%N);
   ((-7835044431367707, -50)%Z, [29467]%N);
   ((-5094171810850781, -49)%Z, [29995]%N);
   ((-5004705575770687, -49)%Z, [29997]%N);
   ((-3545080527461117, -49)%Z, [30053]%N);
   ((-6531297549485943, -50)%Z, [30342]%N);
   ((-2965149456178597, -49)%Z, [30452]%N);
   ((-1402413579265793, -48)%Z, [30456]%N);
   ((-2945672031700091, -49)%Z, [30495]%N);
   ((-7940423792093269, -50)%Z, [30830; 30906]%N);
   ((-3634703050702521, -49)%Z, [31245]%N);
   ((-5124608950546503, -49)%Z, [31350]%N);
   ((-8476498763322849, -50)%Z, [31361]%N);
   ((-855132155755857, -47)%Z, [31455]%N);
   ((-4844901280980539, -50)%Z, [32004; 32422]%N);
   ((-8227147389618803, -50)%Z, [32039; 32202]%N);
   ((-4033644603506613, -49)%Z, [32066; 32456]%N);
   ((-7515816388401749, -50)%Z, [32085; 32477]%N);
   ((-5203856853196857, -49)%Z, [32993]%N);
   ((-2505820695941531, -48)%Z, [33391]%N);
   ((-5607310518628241, -49)%Z, [33503]%N);
   ((-1943367273370277, -48)%Z, [33707]%N);
   ((-7909397352047559, -50)%Z, [34394; 34395]%N);
   ((-8787907205660493, -50)%Z, [34542; 34875]%N);
   ((-437886787586419, -45)%Z, [35406; 35765]%N);
   ((-4561888945592577, -49)%Z, [35641; 35880]%N);
   ((-2931739523878829, -49)%Z, [36234]%N);
   ((-4470911134367815, -50)%Z, [36611; 36739]%N);
   ((-5815816589029567, -50)%Z, [36793; 37002]%N);
   ((-6420991525356327, -51)%Z, [36824; 36996]%N);
   ((-4812015571772279, -49)%Z, [36845]%N);
   ((-3510901344904719, -49)%Z, [36930]%N);
   ((-6053126420360089, -51)%Z, [37117]%N);
   ((-5009319945486485, -49)%Z, [37239]%N);
   ((-7133618546633313, -50)%Z, [38750]%N);
   ((-7074456920484805, -50)%Z, [38920; 39035]%N);
   ((-7973082374390153, -50)%Z, [38928; 39044]%N);
   ((-7182546669220311, -50)%Z, [38935; 39047]%N);
   ((-5002412497433447, -49)%Z, [39519; 39588]%N);
   ((-8290225920685599, -50)%Z, [40778; 40784]%N)];
  (* ('S', 'df') *)
  [
];
  (* ('S', 'dg') *)
  [
   ((-7560259503043293, -52)%Z, [20465]%N);
   ((-1385224825556743, -48)%Z, [20495; 21290]%N);
   ((-3582439559772787, -49)%Z, [21153; 21209]%N);
   ((-579521313509181, -46)%Z, [21193]%N);
   ((-7081440960601403, -50)%Z, [21327; 21332]%N);
   ((-4120344683244513, -49)%Z, [21330]%N);
   ((-2493210036766591, -49)%Z, [21892]%N);
   ((-4070617245328745, -50)%Z, [22797]%N);
   ((-453437449791165, -46)%Z, [22993]%N);
   ((-4937460190051189, -50)%Z, [23113]%N);
   ((-6428623370810485, -50)%Z, [24184]%N);
   ((-2741438518819621, -50)%Z, [24343]%N);
   ((-7352965297905513, -50)%Z, [29022]%N);
   ((-6931097978084887, -50)%Z, [29469]%N);
   ((-8362558423450099, -54)%Z, [29978]%N);
   ((-3339930337223843, -49)%Z, [30142]%N);
   ((-6223347547000769, -50)%Z, [30410]%N);
   ((-6261517300874239, -50)%Z, [32032]%N);
   ((-2730928166963403, -49)%Z, [36626; 36740]%N)];
  (* ('S', 'e') *)
  [
   ((-6576141534288243, -50)%Z, [21505; 21588; 31858]%N);
   ((-4646576607078043, -50)%Z, [21606]%N);
   ((-7825515744159585, -51)%Z, [21624]%N);
   ((-7146219089939203, -51)%Z, [21670]%N);
   ((-7931694402519867, -50)%Z, [21683]%N);
   ((-2302800609777083, -50)%Z, [21710]%N);
   ((-56200148669241, -45)%Z, [21734]%N);
   ((-7480612087553623, -52)%Z, [21769]%N);
   ((-4584310937993727, -49)%Z, [21863; 22038; 27449]%N);
   ((-1975190469949449, -49)%Z, [21903]%N);
   ((-5883504080545629, -50)%Z, [21908]%N);
   ((-2466943508055803, -49)%Z, [21956]%N);
   ((-7002357752995615, -51)%Z, [21992]%N);
   ((-7967322385178065, -51)%Z, [21996]%N);
   ((-8029618835417205, -52)%Z, [21999]%N);
   ((-984875648825863, -48)%Z, [22003; 22127]%N);
   ((-131065742655731, -44)%Z, [22040; 22099; 29463]%N);
   ((-2795225682228929, -49)%Z, [22075]%N);
   ((-8192097797568547, -51)%Z, [22079]%N);
   ((-5396965176193251, -50)%Z, [22114]%N);
   ((-2819184615183619, -49)%Z, [22123]%N);
   ((-5914352583031611, -50)%Z, [22191]%N);
   ((-7061159979386131, -50)%Z, [26044]%N);
   ((-5824232505918545, -50)%Z, [35474; 35830]%N)];
  (* ('S', 'en') *)
  [
];
  (* ('S', 'f') *)
  [
   ((-1665716832284451, -50)%Z, [19978]%N);
   ((-5281300556182253, -51)%Z, [19979]%N);
   ((-2394446950595317, -49)%Z, [19996; 26481]%N);
   ((-3472375981625277, -51)%Z, [20013]%N);
   ((-3438068014979757, -50)%Z, [20839; 20869]%N);
   ((-1227358441646431, -48)%Z, [21021]%N);
   ((-6087182531200287, -51)%Z, [21069]%N);
   ((-4806125924286925, -50)%Z, [21271]%N);
   ((-4511653763298029, -50)%Z, [21335]%N);
   ((-2993952072246683, -49)%Z, [21491]%N);
   ((-145703029577623, -46)%Z, [21518; 24460]%N);
   ((-7883390052950657, -51)%Z, [22806]%N);
   ((-1462992013197403, -48)%Z, [24038]%N);
   ((-5360594558419549, -50)%Z, [24213]%N);
   ((-3219634481686863, -49)%Z, [26049]%N);
   ((-5466075036214713, -50)%Z, [26411]%N);
   ((-3014475376283579, -50)%Z, [35041; 37324]%N);
   ((-1178439490065973, -48)%Z, [35199]%N);
   ((-1117780216549759, -48)%Z, [38291; 38388]%N)];
  (* ('S', 'g') *)
  [
   ((-8812504025382123, -50)%Z, [19984; 22433; 24789; 24870; 24875; 24978; 28540; 30207; 32607; 32808; 33370; 35174;
     35955; 36897; 37293; 38495; 39892; 40024; 40095; 40123]%N);
   ((-3504114877828799, -49)%Z, [19989; 27099; 27323; 32249; 32519; 39228; 39273]%N);
   ((-8221941975584463, -50)%Z, [20177; 21232; 23833; 25150; 25374; 25787; 26164; 26979; 31068; 36405; 39977; 40144;
     40677]%N);
   ((-8176899973069691, -50)%Z, [20311; 21950; 22195; 23811; 23821; 24838; 25352; 26052; 27462; 30758; 34609; 37118;
     37167; 37599; 38163; 38784; 39024; 39078; 40727]%N);
   ((-3630711722688347, -49)%Z, [20325; 20681; 24061; 27053; 34537; 39649]%N);
   ((-5293200133593597, -49)%Z, [20342; 20743; 22395; 23072; 23693; 24273; 24557; 27522; 27669; 30166; 30210; 30268;
     31059; 31114; 31564; 31584; 31632; 31706; 32741; 33284; 33914; 34000; 36026; 36150; 37449; 37841; 37951; 38089;
     38117; 38237; 38257; 38922; 38995; 39036; 39067; 39320; 40772]%N);
   ((-5395838045498455, -49)%Z, [20347; 20350; 23688; 23965; 24989; 25449; 26896; 26911; 27357; 28386; 28677; 31722;
     32119; 32310; 33543; 33553; 33691; 34086; 35097; 36349; 36416; 36508; 36518; 36626; 36740; 37234; 38141; 39380;
     39541; 40122; 40649; 40652; 40697]%N);
   ((-4536744720527617, -49)%Z, [20369; 20458; 20791; 25334; 26722; 26740; 26984; 27104; 27367; 27908; 28371; 30113;
     30221; 31366; 31906; 32807; 32812; 33752; 35224; 35271; 35344; 35750; 38508; 40699]%N);
   ((-2112608263233725, -48)%Z, [20372; 23708; 24730; 25290; 30737; 30748; 33359; 34993; 35543; 35842; 39181;
     39260]%N);
   ((-625703859061015, -46)%Z, [20393; 20744; 21006; 21043; 21055; 21132; 21724; 21868; 21959; 22156; 23705; 23988;
     24283; 25586; 25808; 26520; 26549; 26589; 27929; 28384; 28698; 28740; 29585; 29736; 29859; 30517; 30764; 31601;
     32700; 34079; 35166; 35233; 35275; 38484]%N);
   ((-1420851826650983, -47)%Z, [20394; 20757; 22316; 22412; 24558; 24731; 24733; 24925; 25124; 25486; 25669; 25860;
     26536; 26838; 26912; 27111; 27918; 27947; 28337; 30554; 30605; 30626; 31578; 31731; 31944; 35710; 35883]%N);
   ((-3821108648349515, -49)%Z, [20396; 20738; 21164; 30271; 30317; 32714; 37019; 38213]%N);
   ((-8569058447698937, -50)%Z, [20454; 20747; 20756; 26066; 28367; 28849; 29224; 30043; 33001; 34120; 34866; 36470;
     36841; 36999; 37017; 37518; 39616]%N);
   ((-7788644101678267, -50)%Z, [20492; 23224; 23782; 24018; 24408; 27766; 34520; 36273; 36274]%N);
   ((-5064943569870139, -49)%Z, [20520; 22381; 22665; 23048; 23372; 26743; 27237; 27371; 27635; 28343; 29740; 30112;
     30296; 30300; 32750; 32809; 33044; 33248; 37025; 37498; 37703; 38098; 38137; 38196; 40671]%N);
   ((-4777374308764661, -49)%Z, [20524; 20821; 20925; 22406; 22656; 22746; 22954; 23255; 24047; 24048; 25041; 25059;
     25732; 25878; 26166; 26474; 26709; 27943; 27971; 28025; 30030; 30229; 31235; 32050; 32449; 33169; 33231; 33313;
     33997; 34980; 35022; 38878; 38891; 39001; 39073; 39470; 39581; 40303; 40526]%N);
   ((-2475988005603349, -48)%Z, [20526; 21956; 22436; 22441; 22538; 23260; 24450; 24639; 25036; 26115; 26698; 27057;
     29140; 29669; 29673; 30498; 31162; 32049; 32394; 32425; 32450; 36601; 36602; 36725; 36730; 38187; 38449; 39013;
     39074; 39492; 39586; 39659]%N);
   ((-7158572738174113, -50)%Z, [20552; 28028; 35382; 35779]%N);
   ((-4741042351296385, -49)%Z, [20606; 20712; 22493; 22560; 26345; 28557; 28908; 29180; 29502; 29940; 36332; 38022;
     40672]%N);
   ((-7512660749013895, -50)%Z, [20649; 20794; 24698; 24887; 26943; 38802]%N);
   ((-8199195749297699, -50)%Z, [20694; 22596; 23748; 23975; 24229; 30855; 33074; 35925; 39906; 40117]%N);
   ((-4333512274472905, -49)%Z, [20710; 21206; 21207; 29166; 32134; 32480; 33482; 34241; 40221; 40498; 40783;
     40785]%N);
   ((-1454125965581579, -48)%Z, [20717]%N);
   ((-1971652550731285, -48)%Z, [20742; 22849; 22889; 24297; 24298; 28514; 30232; 30266; 30545; 30652; 35120; 37650;
     38165; 38339; 38418]%N);
   ((-3484899703482983, -49)%Z, [20822; 20823; 21389; 21401]%N);
   ((-7123385502354247, -50)%Z, [20881; 31287; 32964; 33217; 34885; 37313]%N);
   ((-478502012050319, -46)%Z, [20988; 21717; 22118; 27705; 33505; 34468; 34476; 34566]%N);
   ((-965971227785853, -47)%Z, [21014; 27082; 29831; 30898; 32273; 32547; 37536; 38097]%N);
   ((-160351547634585, -44)%Z, [21037; 21060; 22396; 23654; 23656; 25411; 26535; 26608; 26776; 27728; 27883; 29026;
     29864; 29965; 30132; 30231; 30238; 30372; 30589; 31576; 33557; 33712; 33943; 34212; 36112; 36166; 37253;
     38536]%N);
   ((-8133590791069093, -50)%Z, [21139; 24716; 28851; 29522; 29706; 29738; 31509; 31591; 34926; 34974]%N);
   ((-4816213842554643, -49)%Z, [21154; 21233; 21889; 22348; 24589; 24619; 27862; 35340; 35751; 36638; 36747; 37478;
     38066; 39469; 39576; 40039; 40162; 40357; 40539]%N);
   ((-4615423699477785, -49)%Z, [21165; 21869; 22208; 22319; 24508; 26269; 26533; 27370; 28203; 30016; 31098; 33323;
     35662; 35890; 37015; 37083; 38541; 39478; 39546; 40147]%N);
   ((-3372275721243647, -49)%Z, [21182; 29109]%N);
   ((-7938987084194783, -50)%Z, [21200; 26873; 27481; 28064; 28075; 28543; 29951; 32338; 32559; 35535; 35833]%N);
   ((-854333939950045, -47)%Z, [21286; 21293]%N);
   ((-7132079753332015, -50)%Z, [21347]%N);
   ((-7185704169252113, -50)%Z, [21358; 23735; 27916; 28598; 30402; 35425; 35817]%N);
   ((-2955831935163695, -48)%Z, [21370; 21787; 21845; 22044; 22282; 22479; 23518; 24586; 24679; 25378; 25759; 27870;
     28632; 29443; 29547; 29671; 30157; 30261; 30905; 31766; 32367; 32563; 32779; 33140; 33228; 33627; 33696; 34136;
     35960; 36387; 36417; 36463; 36706; 36729; 37236; 38516; 38664]%N);
   ((-960522644578641, -47)%Z, [21411; 21428; 23882; 26818; 27386; 31485; 31531]%N);
   ((-2098875052910425, -48)%Z, [21430; 23210; 23228; 24081; 26384; 28327; 28610; 28725; 29742; 29920; 33000; 33071;
     33110; 34685; 36917; 38585; 38739; 38746]%N);
   ((-7804391210214705, -50)%Z, [21471; 37439; 38079; 38315; 38335; 38403; 38412]%N);
   ((-4184503613399801, -49)%Z, [21499; 24845; 30501; 30502; 31071; 31405; 31414; 31550; 31849; 32131; 32481; 32755;
     33425; 33901; 34431; 34822; 37150]%N);
   ((-8737416213046861, -50)%Z, [21522; 21989; 22031; 27986; 28408; 30106; 30720; 30893; 30932; 32064; 32460; 32939;
     33642; 33981; 33984; 37198; 37445; 38044; 40327; 40491]%N);
   ((-5521456697317055, -49)%Z, [21588; 21802; 22379; 22452; 22605; 22682; 22947; 23221; 24243; 25482; 26561; 26767;
     26876; 27326; 27562; 28556; 30275; 31079; 31213; 31654; 31744; 32817; 33038; 33496; 36071; 36181; 36500; 36606;
     36732; 36952; 37214; 37265; 37583; 37853; 37854; 37907; 38009; 38103; 38232; 38235; 38246; 38249; 38460; 38461;
     39587; 39695; 39834; 40082; 40864]%N);
   ((-7562708984351387, -50)%Z, [21622; 29261; 29272; 31525; 32948; 35460; 35796; 37294; 37547; 38127; 39194]%N);
   ((-4561768838196363, -49)%Z, [21691; 22331; 23704; 23796; 25929; 26244; 29484; 29489; 29805; 31656; 31836; 33336;
     33617; 35393; 35778; 37200; 37301; 38158; 39086; 39121; 39838; 39901; 40085; 40116]%N);
   ((-4706913723268639, -49)%Z, [21721; 22130; 23674; 24274; 25540; 26209; 26224; 29517; 29657; 30319; 31943; 36277;
     37220; 37434; 37530; 38064; 38123; 38514; 39217; 40584]%N);
   ((-2322149628582041, -48)%Z, [21759; 22490; 22557; 24084; 24601; 25709; 27296; 29334; 30640; 31681; 32600; 33638;
     35670; 35886; 36100; 36157; 36284; 37282; 39446; 39579; 39711]%N);
   ((-4512785787572927, -49)%Z, [21811; 23256; 23275; 23838; 26199; 26492; 31143; 32060; 32241; 32459; 32529; 34941;
     36199; 36886; 37663; 38188; 40583]%N);
   ((-8071598993067947, -50)%Z, [21883; 36564; 36715; 36875; 37448; 38090; 38757; 38760]%N);
   ((-8478938370585871, -50)%Z, [21919; 23901; 23937; 25035; 27606; 31598; 32354; 32523; 32956; 33603; 37260; 38473;
     38488; 40410; 40475; 40552; 40563]%N);
   ((-497312616689137, -46)%Z, [21964; 24321; 24603; 26634; 27379; 28294; 35600; 35879; 36344; 36437; 38411; 39721;
     39826; 40075]%N);
   ((-1039727643007717, -47)%Z, [21994; 22820; 23780; 23916; 23968; 26161; 26359; 26727; 27292; 38579; 39146; 39274;
     39661; 39872; 40103]%N);
   ((-8892959666272691, -50)%Z, [22014; 22509; 23632; 26096; 27817; 28244; 28296; 28319; 28800; 29036; 29971; 32616;
     35056; 36310; 36448; 36587; 36728]%N);
   ((-7921256010551431, -50)%Z, [22028; 22387; 24751; 25003; 31782; 31937; 31965; 32669; 34849; 37633; 38174]%N);
   ((-1887496704035905, -48)%Z, [22281; 39317]%N);
   ((-8774334271508653, -50)%Z, [22318; 26378; 27981; 28590; 30653; 30874; 32638; 32796; 33934; 34762; 37606; 37614;
     38102; 38164; 39894; 40109]%N);
   ((-1897148220194733, -48)%Z, [22419; 29243]%N);
   ((-7396485627049021, -50)%Z, [22445; 22497; 29977; 34268; 35482; 35822; 37295; 40713; 40717]%N);
   ((-1168684099214951, -47)%Z, [22482; 22558; 27524; 27895; 28711; 30027; 32377; 32462; 33042; 37702; 38036; 39439;
     39568]%N);
   ((-3910180844715373, -49)%Z, [22484; 26207; 32009; 32427; 35410; 35794]%N);
   ((-4857932922026729, -49)%Z, [22485; 25401; 25616; 27957; 29787; 30361; 30471; 30544; 30558; 31234; 33683; 33977;
     34606; 35026; 36821; 37072; 37174; 38071; 38633; 39879; 40105]%N);
   ((-6301871043337725, -49)%Z, [22511; 22516; 22520; 22629; 24362; 24371; 25155; 25750; 27281; 27626; 27732; 29177;
     29294; 29379; 29423; 29546; 29647; 29918; 30233; 30489; 30885; 31697; 31779; 33187; 33396; 33615; 33912; 33927;
     33928; 34118; 35286; 36016; 36147; 39489; 39580; 39915; 40112]%N);
   ((-3500219014851791, -49)%Z, [22525; 23723]%N);
   ((-7430097075478223, -50)%Z, [22539; 26051; 32266; 32546; 37415; 38058]%N);
   ((-33724269923893, -42)%Z, [22553; 24582; 24696; 24884; 24927; 26331; 33682; 34216; 34510; 34851; 36058; 36169;
     37688; 38140; 39429; 39571; 39673]%N);
   ((-7353176445048423, -50)%Z, [22725; 31893; 37928; 38212; 39811; 40070]%N);
   ((-6116248971580837, -50)%Z, [22821]%N);
   ((-2603210507782489, -48)%Z, [22844; 22962; 24574; 24707; 24749; 24894; 24947; 25129; 25132; 27856; 28553; 29783;
     30592; 31602; 31611; 31759; 31959; 32408; 32565; 32873; 32885; 33054; 33190; 33315; 33380; 34711; 36496; 37657;
     38193; 38244; 38245; 38248; 39850; 39895; 40084; 40094; 40152]%N);
   ((-128830581705081, -44)%Z, [22850; 22864; 27796; 33562; 35992; 37377; 37523; 38059; 38120]%N);
   ((-8852013339088617, -50)%Z, [22872; 32983; 33793; 36819; 37962; 38207; 38222; 38252]%N);
   ((-1817814173709977, -48)%Z, [22935; 34108; 34297; 37155; 39530; 39562]%N);
   ((-6882589385509741, -50)%Z, [22955; 23215]%N);
   ((-8293075095034565, -50)%Z, [22994; 23991; 24811; 24970; 26231; 27653; 28552; 30806; 30820; 31901; 31986; 32951;
     35742; 35891; 36932; 37393; 38051]%N);
   ((-2233862874508197, -48)%Z, [23005; 23397; 24642; 27073; 27307; 28865; 29197; 29495; 31074; 32063; 32464; 35978;
     37653; 38175; 38606; 38662; 39688]%N);
   ((-1011485753341857, -47)%Z, [23075; 23348; 26444; 32985; 33720; 34133; 34733; 36881; 38168]%N);
   ((-2105657910679925, -48)%Z, [23143; 27198; 31344; 31559; 32287; 32539; 37103; 37503; 38122]%N);
   ((-3496349927776875, -49)%Z, [23252; 23338; 23714; 31496]%N);
   ((-4254092084153747, -49)%Z, [23264; 23762; 23854; 28015; 28338; 29270; 31411; 31655; 31691; 35537; 35836; 36282;
     37306; 38157; 40561; 40570; 40574]%N);
   ((-8979610095318369, -50)%Z, [23281; 23321; 23899; 28805; 30413; 31902; 32924; 33127; 33809; 34345; 37046; 39319;
     39727; 40380; 40547]%N);
   ((-3703789163348197, -49)%Z, [23318; 37813; 38227]%N);
   ((-8343123330372057, -50)%Z, [23346; 23733; 24123; 24152; 28243; 31267; 31308; 35250; 35280; 40045; 40090]%N);
   ((-3204937989952961, -49)%Z, [23387; 30208; 39976; 40142]%N);
   ((-1881241447126991, -48)%Z, [23445; 33816; 38827]%N);
   ((-4077518576006059, -49)%Z, [23449; 25542; 26196; 26308; 28366; 30761; 31087; 31118; 32411; 32690; 33637; 35510;
     35847]%N);
   ((-7869679058201293, -50)%Z, [23461; 28303; 34162; 34308; 36468; 37335; 37775; 38026; 38344; 38385]%N);
   ((-3221256522485557, -49)%Z, [23480]%N);
   ((-6854958553267269, -50)%Z, [23534]%N);
   ((-7903799848374917, -50)%Z, [23611; 24224; 27672; 30141; 31404; 32246; 32527; 39147; 39275]%N);
   ((-7575576551914537, -50)%Z, [23641; 32596; 36840; 37090]%N);
   ((-2451496480291631, -48)%Z, [23651; 29640; 30981; 32835; 33113; 34601; 35292; 35416; 35790; 37177]%N);
   ((-6932637620847233, -50)%Z, [23715; 28049]%N);
   ((-4587957278831185, -49)%Z, [23741; 24406; 25816; 26302; 26594; 27547; 28177; 28458; 28576; 29744; 31740; 33785;
     35263; 35276; 37348; 38032]%N);
   ((-3102300078048103, -49)%Z, [23745]%N);
   ((-12847823267109, -41)%Z, [23786]%N);
   ((-1755994216048509, -48)%Z, [23810; 23959]%N);
   ((-1075097004431427, -47)%Z, [23814; 24132; 25963; 26112; 35068]%N);
   ((-7698524024565201, -50)%Z, [23844; 26507; 33972; 37716; 38199]%N);
   ((-5141230918685857, -50)%Z, [23883]%N);
   ((-6525951203915285, -50)%Z, [23913]%N);
   ((-3835009353457115, -49)%Z, [23924; 25479; 33641; 34254; 36094; 36188]%N);
   ((-7628569858004857, -50)%Z, [23938]%N);
   ((-2134552486303239, -48)%Z, [24158; 27898; 28668; 30867; 31808; 32006; 32136; 32417; 32488; 37054; 37061; 37187;
     37369; 38037; 39824; 39944; 40029; 40080; 40124; 40125]%N);
   ((-921827850748931, -47)%Z, [24192; 35455; 35740; 35798; 35872; 37218]%N);
   ((-6510770301026607, -50)%Z, [24203; 34427]%N);
   ((-3871341310925391, -49)%Z, [24296; 33820; 35566; 35864; 37043; 40806; 40840]%N);
   ((-2458867727708061, -49)%Z, [24311]%N);
   ((-7342604537263263, -50)%Z, [24380; 30068; 30087; 32019; 32446]%N);
   ((-5292425243327505, -50)%Z, [24421; 24422]%N);
   ((-7713051966867903, -50)%Z, [24501; 24756; 27690; 33048; 36613; 36738]%N);
   ((-3532168010309039, -49)%Z, [24636; 25055; 32545; 35125]%N);
   ((-1600180567926543, -48)%Z, [24641]%N);
   ((-881002293130781, -47)%Z, [24666; 32230; 32524]%N);
   ((-8701670356572101, -50)%Z, [24846; 26585; 27015; 27372; 27976; 28254; 32058; 32448; 33460]%N);
   ((-7089264712180623, -50)%Z, [24906; 28052; 35400; 40056; 40072]%N);
   ((-7993919925487983, -50)%Z, [24949; 27012; 27159; 27414; 28751; 28765; 34443; 37987; 38259; 38286; 38387; 39899;
     40119; 40223; 40497]%N);
   ((-4025835520430289, -49)%Z, [25015; 26584; 32315; 33339; 33387; 35017]%N);
   ((-8032089679361453, -50)%Z, [25037; 25044; 31492; 34884; 36323; 37332; 37608; 38023; 38151; 38373; 38396]%N);
   ((-5652676887425973, -50)%Z, [25087]%N);
   ((-7441527629563793, -50)%Z, [25534; 25663; 28186; 31534; 32265; 32537]%N);
   ((-3553097928452235, -49)%Z, [25638]%N);
   ((-7476532518649623, -50)%Z, [25652; 29723; 30800; 36372]%N);
   ((-6551716628210681, -50)%Z, [25826; 35624; 35871]%N);
   ((-3807542932810515, -49)%Z, [26054; 32927]%N);
   ((-7242010897118285, -50)%Z, [26133; 28103; 29232; 35591; 38718]%N);
   ((-3381632445561297, -49)%Z, [26247]%N);
   ((-3732371441552257, -49)%Z, [26332; 29682; 29759]%N);
   ((-8003456236543135, -51)%Z, [26389]%N);
   ((-7140841664530761, -50)%Z, [26451; 28125]%N);
   ((-7301282471745369, -50)%Z, [26633; 27355; 37453; 38091]%N);
   ((-2820504713234011, -49)%Z, [26707]%N);
   ((-3987654792980471, -49)%Z, [26724; 27071; 28977; 31503]%N);
   ((-5857952711235689, -50)%Z, [26881; 27112]%N);
   ((-8268861260579743, -50)%Z, [26967; 28844; 31203; 31539; 32215; 32515; 32628; 32646; 33353; 34943; 37950;
     38576]%N);
   ((-3878897799596143, -49)%Z, [27000; 28947; 39601]%N);
   ((-3104218137666555, -49)%Z, [27063]%N);
   ((-3437808923392217, -49)%Z, [27117; 29711; 29833]%N);
   ((-7363848561983829, -50)%Z, [27207; 37913; 38251]%N);
   ((-7601761450858737, -50)%Z, [27519; 27521; 37550; 38014]%N);
   ((-3768703399020533, -49)%Z, [27603; 34942; 40800; 40838]%N);
   ((-5841189623815959, -50)%Z, [27664]%N);
   ((-8112545320252021, -50)%Z, [27674; 30091; 30777; 31063; 33776; 34930; 37095; 37142]%N);
   ((-3926499377247969, -49)%Z, [27681; 28267; 31775; 35607; 35876; 38352; 38423]%N);
   ((-7500488739579275, -50)%Z, [27740; 30014; 32973]%N);
   ((-2919209940475451, -49)%Z, [27764]%N);
   ((-861200545111695, -47)%Z, [27961]%N);
   ((-3079779076790717, -49)%Z, [28000]%N);
   ((-6304657065570371, -50)%Z, [28062; 28150]%N);
   ((-5866428785697545, -50)%Z, [28118]%N);
   ((-6788710039772875, -50)%Z, [28126; 33162]%N);
   ((-1943278550393605, -48)%Z, [28128; 32962; 34222; 34282]%N);
   ((-3404089267379131, -49)%Z, [28133; 28172; 40700]%N);
   ((-1830438485776829, -48)%Z, [28255; 35547; 35840]%N);
   ((-3117830716885367, -49)%Z, [28481; 39053]%N);
   ((-6821347104838067, -50)%Z, [28510]%N);
   ((-6925350217368321, -50)%Z, [28617; 28699]%N);
   ((-3588293760502761, -49)%Z, [28640; 30079]%N);
   ((-7291184647047277, -50)%Z, [28729; 37433; 38093]%N);
   ((-6868689210107519, -50)%Z, [28792; 33105]%N);
   ((-7213505579467313, -50)%Z, [29004]%N);
   ((-3528073810783489, -49)%Z, [29266]%N);
   ((-7251675333340783, -50)%Z, [29549; 29562]%N);
   ((-2968318747818593, -49)%Z, [29566]%N);
   ((-7332130974231351, -50)%Z, [29825; 30875; 30951]%N);
   ((-893709037162935, -47)%Z, [29835; 34484; 37801; 38121; 39244; 39296; 39316]%N);
   ((-7418781403277029, -50)%Z, [30083; 37075; 37126; 40788; 40832]%N);
   ((-1759986835852519, -48)%Z, [30115]%N);
   ((-7385501150586895, -50)%Z, [30347; 35580; 35862; 37124]%N);
   ((-3173654944833731, -49)%Z, [30710; 30959; 36646; 36743]%N);
   ((-1768146102118817, -48)%Z, [30798]%N);
   ((-449680952496267, -46)%Z, [30826]%N);
   ((-6726143949534415, -50)%Z, [31040]%N);
   ((-122446280743557, -44)%Z, [31066; 34414; 34787; 37539; 38135; 38173]%N);
   ((-6572762099027753, -50)%Z, [31462]%N);
   ((-3040694302328845, -49)%Z, [31637; 33308]%N);
   ((-7488446914559073, -50)%Z, [31889; 33390; 35311; 35318; 36018; 36160]%N);
   ((-3195821192268635, -49)%Z, [32199; 32513]%N);
   ((-1791886024909957, -48)%Z, [32286; 32543]%N);
   ((-3316375792366853, -49)%Z, [32386]%N);
   ((-7453075422146563, -50)%Z, [32392; 32556; 39467; 39582]%N);
   ((-2734555293149865, -49)%Z, [32996]%N);
   ((-6696118172628953, -50)%Z, [33002; 33242]%N);
   ((-6279820031056315, -50)%Z, [33456]%N);
   ((-6605086804566225, -50)%Z, [33873]%N);
   ((-6034329221372321, -50)%Z, [33922]%N);
   ((-1337970244149631, -48)%Z, [34183]%N);
   ((-1656790995168931, -48)%Z, [34541]%N);
   ((-1530838116146947, -48)%Z, [34553; 37927; 38159]%N);
   ((-194375740115091, -45)%Z, [34728; 34766]%N);
   ((-761466731587047, -47)%Z, [34948; 35158]%N);
   ((-3294404225033055, -49)%Z, [35350; 35755]%N);
   ((-2985170208715465, -49)%Z, [35550; 35869]%N);
   ((-6369257951282811, -50)%Z, [35604; 35857]%N);
   ((-3548849229391335, -49)%Z, [35606; 35873]%N);
   ((-7281176581978271, -50)%Z, [35726; 38624; 39617; 39796; 40066]%N);
   ((-6610565647041159, -50)%Z, [36173; 39143; 40782]%N);
   ((-1746253625529219, -48)%Z, [36571; 36717]%N);
   ((-6351665407311345, -50)%Z, [36838]%N);
   ((-6102175039489071, -50)%Z, [37050; 37172]%N);
   ((-1439586467176987, -48)%Z, [37230]%N);
   ((-2905545435789331, -49)%Z, [37376; 38063]%N);
   ((-902865923873973, -47)%Z, [37576]%N);
   ((-6342971156333577, -50)%Z, [37678; 38178]%N);
   ((-6505755148383195, -50)%Z, [38588]%N);
   ((-6638367057256359, -50)%Z, [39149; 39276]%N);
   ((-782945158263961, -47)%Z, [39240; 39312]%N);
   ((-6296317028125685, -50)%Z, [39252]%N);
   ((-6200777062756149, -50)%Z, [39635]%N);
   ((-405986960460453, -46)%Z, [39654]%N);
   ((-6896663317601507, -50)%Z, [39675]%N);
   ((-6848155511984187, -50)%Z, [39761]%N);
   ((-787559915571685, -47)%Z, [39851; 40091]%N);
   ((-5737920820465079, -50)%Z, [39986; 40140]%N);
   ((-7204161958151343, -50)%Z, [40031; 40078]%N);
   ((-818314519687671, -47)%Z, [40720]%N)];
  (* ('S', 'h') *)
  [
   ((0, 0)%Z, [38750]%N)];
  (* ('S', 'i') *)
  [
];
  (* ('S', 'in') *)
  [
];
  (* ('S', 'j') *)
  [
   ((-6822138310955727, -49)%Z, [19985; 22522; 36031; 36152; 37276]%N);
   ((-7042414827546051, -50)%Z, [20025]%N);
   ((-2866111932600125, -49)%Z, [20044; 28879]%N);
   ((-4376793251051953, -49)%Z, [20050; 25216]%N);
   ((-2802866857380287, -49)%Z, [20094]%N);
   ((-8729887604294183, -51)%Z, [20122; 20126]%N);
   ((-4327891802515255, -50)%Z, [20140]%N);
   ((-8226238704488117, -50)%Z, [20225]%N);
   ((-2835017923732981, -49)%Z, [20234]%N);
   ((-6378140836860943, -50)%Z, [20266; 20605]%N);
   ((-1166701203783821, -47)%Z, [20324]%N);
   ((-7526449524301019, -50)%Z, [20375]%N);
   ((-4853779542090907, -49)%Z, [20392; 20689; 27029]%N);
   ((-4768305106188949, -50)%Z, [20420]%N);
   ((-8263461926227787, -50)%Z, [20643]%N);
   ((-7618620047995811, -50)%Z, [20754]%N);
   ((-5959491802933551, -50)%Z, [20848; 34349]%N);
   ((-3748664900068603, -49)%Z, [20864]%N);
   ((-3101837287110967, -48)%Z, [20896; 26525; 28041]%N);
   ((-1368060819706175, -47)%Z, [20937; 28092]%N);
   ((-944542803517805, -47)%Z, [21256]%N);
   ((-8603585353739659, -51)%Z, [21326; 33775]%N);
   ((-8199107273410117, -50)%Z, [21338]%N);
   ((-1815139554729729, -48)%Z, [21346; 30439]%N);
   ((-2219274125705913, -48)%Z, [21361]%N);
   ((-7341013859809483, -50)%Z, [21380]%N);
   ((-3646026988163745, -49)%Z, [21414; 24264]%N);
   ((-7455015429155605, -50)%Z, [21442; 21443]%N);
   ((-5737230098022971, -50)%Z, [21494; 33865]%N);
   ((-706527018961017, -47)%Z, [21513]%N);
   ((-1335119207127437, -48)%Z, [21704]%N);
   ((-5135690967095787, -49)%Z, [21733; 27946; 28435]%N);
   ((-6065823969622661, -50)%Z, [21776]%N);
   ((-6232016791976029, -50)%Z, [21888]%N);
   ((-4644260614399561, -50)%Z, [22025]%N);
   ((-1407069880078493, -48)%Z, [22266]%N);
   ((-299141998457981, -46)%Z, [22307; 32854]%N);
   ((-4213017842911449, -49)%Z, [22317]%N);
   ((-1757423164834571, -48)%Z, [22374]%N);
   ((-6773406468734383, -50)%Z, [22467]%N);
   ((-1259889852784031, -48)%Z, [22612]%N);
   ((-1638072562917483, -48)%Z, [22616]%N);
   ((-4623546032820863, -50)%Z, [22885; 22887]%N);
   ((-452106508577915, -46)%Z, [22919; 23142; 26031]%N);
   ((-2554296592421301, -49)%Z, [22996]%N);
   ((-8910213593437297, -50)%Z, [23044; 23105; 27733]%N);
   ((-7284097053409369, -50)%Z, [23381; 27784]%N);
   ((-3177661844989549, -49)%Z, [23391]%N);
   ((-5515682321491167, -50)%Z, [23425; 23527]%N);
   ((-8448112861932397, -50)%Z, [23439]%N);
   ((-1101706092101303, -47)%Z, [23466; 25010]%N);
   ((-2913507866431063, -49)%Z, [23519]%N);
   ((-2154027771787635, -48)%Z, [23548; 23566]%N);
   ((-2750471528835759, -49)%Z, [23612]%N);
   ((-6247698102662649, -50)%Z, [23777; 23805]%N);
   ((-5213837877447791, -50)%Z, [24029]%N);
   ((-1213107255722167, -48)%Z, [24052]%N);
   ((-3212605515802523, -49)%Z, [24076]%N);
   ((-1333185871556731, -48)%Z, [24093]%N);
   ((-1179504343359713, -47)%Z, [24191; 24291]%N);
   ((-5872479217185995, -50)%Z, [24220]%N);
   ((-800632007570373, -47)%Z, [24247]%N);
   ((-6388829840310787, -50)%Z, [24310]%N);
   ((-3466390632670613, -49)%Z, [24413]%N);
   ((-8053936381840161, -51)%Z, [24503]%N);
   ((-1932685614640441, -48)%Z, [24509; 32143; 32485]%N);
   ((-1929753557120463, -48)%Z, [24681]%N);
   ((-8844925745450709, -50)%Z, [24847; 25958]%N);
   ((-1995126758709527, -48)%Z, [25215; 26604]%N);
   ((-2825758395962361, -48)%Z, [25386; 31319]%N);
   ((-1627909907576705, -48)%Z, [25463]%N);
   ((-5529782173103423, -50)%Z, [25705]%N);
   ((-7576721263342837, -50)%Z, [26000; 33832; 34217]%N);
   ((-6213722021507915, -51)%Z, [26085]%N);
   ((-4048341078401491, -49)%Z, [26086]%N);
   ((-6898487246471693, -50)%Z, [26118]%N);
   ((-7436707710220855, -50)%Z, [26124]%N);
   ((-5448492223240375, -50)%Z, [26185; 26187]%N);
   ((-7445824358467447, -50)%Z, [26234]%N);
   ((-877923135042241, -47)%Z, [26388]%N);
   ((-1404801737453365, -48)%Z, [26477]%N);
   ((-5588016592183865, -50)%Z, [26684]%N);
   ((-3469299941230591, -49)%Z, [26690]%N);
   ((-5916105313116457, -49)%Z, [26757]%N);
   ((-6077981375282701, -50)%Z, [26970]%N);
   ((-2762949070053061, -48)%Z, [26999]%N);
   ((-5112619395696527, -50)%Z, [27431; 27472]%N);
   ((-7268349944872931, -50)%Z, [27453; 38054]%N);
   ((-7125361004875733, -50)%Z, [27494]%N);
   ((-4034462462292403, -50)%Z, [27721; 28450]%N);
   ((-980273261966691, -47)%Z, [27778]%N);
   ((-1115893092270143, -47)%Z, [27781; 38742]%N);
   ((-7347050959796377, -51)%Z, [27818; 28396]%N);
   ((-4507922060598473, -49)%Z, [27821; 28583]%N);
   ((-1800944531379601, -48)%Z, [27837]%N);
   ((-22460635439397, -43)%Z, [27861]%N);
   ((-1968801513709091, -48)%Z, [27863]%N);
   ((-4722971895047553, -50)%Z, [27874]%N);
   ((-5473617950039819, -50)%Z, [27888]%N);
   ((-6165501351048701, -50)%Z, [27931]%N);
   ((-6289522050833433, -50)%Z, [27941]%N);
   ((-2940784133401333, -49)%Z, [27982; 28639]%N);
   ((-4252638709170259, -49)%Z, [27988; 28527]%N);
   ((-6030120100054987, -50)%Z, [27993]%N);
   ((-3968598926418755, -49)%Z, [28006]%N);
   ((-5621015624751561, -50)%Z, [28142]%N);
   ((-433480425943777, -46)%Z, [28180; 28417]%N);
   ((-3508556320617865, -49)%Z, [28189]%N);
   ((-2308238873260129, -49)%Z, [28207]%N);
   ((-2686702205452557, -49)%Z, [28248]%N);
   ((-5261309618914387, -49)%Z, [28251]%N);
   ((-6129388572652217, -50)%Z, [28359]%N);
   ((-1078640927001867, -47)%Z, [28390; 28772; 29935; 29964]%N);
   ((-1898062790861671, -48)%Z, [28467]%N);
   ((-1431672070795745, -47)%Z, [28487; 28703; 32236; 32517]%N);
   ((-5082036105814365, -49)%Z, [28548]%N);
   ((-5336481110172645, -49)%Z, [28558; 38902]%N);
   ((-2891658509659895, -49)%Z, [28595]%N);
   ((-2379868226455469, -48)%Z, [28966]%N);
   ((-6358804063405325, -50)%Z, [29287]%N);
   ((-1751167907925657, -48)%Z, [29627]%N);
   ((-7546289683619199, -50)%Z, [29664]%N);
   ((-7256682483914979, -50)%Z, [29756; 29898]%N);
   ((-2800194621571055, -49)%Z, [29790]%N);
   ((-7065030507145111, -50)%Z, [29796; 29814]%N);
   ((-1911405334950557, -48)%Z, [29976]%N);
   ((-1144134981936003, -47)%Z, [29996]%N);
   ((-6041723964935057, -49)%Z, [30003]%N);
   ((-3751065543166809, -49)%Z, [30060; 30066]%N);
   ((-7868524136667469, -50)%Z, [30086]%N);
   ((-3220049590597289, -49)%Z, [30358]%N);
   ((-1382654275192511, -48)%Z, [30417; 30435]%N);
   ((-8301957980612697, -50)%Z, [30707]%N);
   ((-7748567103774407, -50)%Z, [31192]%N);
   ((-8064511399430039, -50)%Z, [31206]%N);
   ((-8470631610714227, -50)%Z, [31302]%N);
   ((-8254040114703317, -50)%Z, [31686]%N);
   ((-7973172156083237, -50)%Z, [31726; 31811]%N);
   ((-6034031742345687, -50)%Z, [31908; 31925]%N);
   ((-2038823102469967, -48)%Z, [32013; 32435]%N);
   ((-7001582741131883, -50)%Z, [32016; 32445]%N);
   ((-3892542988861649, -49)%Z, [32034]%N);
   ((-6760882425172935, -50)%Z, [32173; 32500]%N);
   ((-4997167583808907, -50)%Z, [32599; 32645]%N);
   ((-3702684256313577, -49)%Z, [32652]%N);
   ((-3213540235172475, -50)%Z, [32654]%N);
   ((-8979521619430787, -50)%Z, [32701]%N);
   ((-6316054056934891, -50)%Z, [32822]%N);
   ((-3917848370564935, -49)%Z, [33452]%N);
   ((-1311776380536713, -48)%Z, [33487; 34311]%N);
   ((-8456505559401235, -51)%Z, [33521]%N);
   ((-473224491870595, -46)%Z, [33606; 33610]%N);
   ((-4391608578543393, -49)%Z, [33655]%N);
   ((-1217775611476013, -47)%Z, [33694]%N);
   ((-4246804978691283, -49)%Z, [33743; 36106; 36190]%N);
   ((-207168066890567, -45)%Z, [33778]%N);
   ((-7640169029356065, -50)%Z, [33889]%N);
   ((-3592735203291827, -49)%Z, [33931; 34083]%N);
   ((-8181376199766765, -50)%Z, [33993]%N);
   ((-8939884810752023, -51)%Z, [34255]%N);
   ((-4526688796835347, -49)%Z, [34473]%N);
   ((-2699559696393135, -49)%Z, [34560]%N);
   ((-2558040965086937, -49)%Z, [35140]%N);
   ((-6024925627603077, -50)%Z, [35947]%N);
   ((-6693211422661977, -50)%Z, [35997; 36125]%N);
   ((-1656238541651621, -48)%Z, [36123; 36195]%N);
   ((-6770890490241941, -50)%Z, [36686; 36735]%N);
   ((-4814213538834779, -50)%Z, [36797; 36988]%N);
   ((-1146765665788137, -47)%Z, [37013]%N);
   ((-1396302709372035, -47)%Z, [37073; 37165; 38451; 38470; 38520; 38525]%N);
   ((-4804796491467471, -49)%Z, [37108]%N);
   ((-7115078742482603, -50)%Z, [37122]%N);
   ((-1824013406240729, -48)%Z, [37670; 38182]%N);
   ((-3155515723395357, -49)%Z, [38313; 38397]%N);
   ((-2373433376292395, -49)%Z, [38463]%N);
   ((-7108275701199521, -50)%Z, [38471; 38580]%N);
   ((-1687740634508643, -48)%Z, [38485; 38493]%N);
   ((-430804485871815, -46)%Z, [38582; 38584]%N);
   ((-4446766644865971, -49)%Z, [38605]%N);
   ((-4020486282469793, -49)%Z, [38669]%N);
   ((-153366492890847, -45)%Z, [38867; 38889]%N);
   ((-2505036157638593, -48)%Z, [38991; 39068]%N);
   ((-4888975374141433, -49)%Z, [39791; 40065]%N);
   ((-3693922212451733, -49)%Z, [40654]%N);
   ((-3261840727663511, -49)%Z, [40660]%N)];
  (* ('S', 'jn') *)
  [
];
  (* ('S', 'k') *)
  [
   ((-443108874586889, -46)%Z, [20202; 20736]%N);
   ((-4309620515052031, -52)%Z, [20204; 20497]%N);
   ((-8358387054610289, -50)%Z, [22120]%N);
   ((-394946499568329, -48)%Z, [22411]%N);
   ((-4691529074669745, -51)%Z, [24335]%N);
   ((-4025343057096719, -49)%Z, [28814]%N);
   ((-3093010374683243, -49)%Z, [30028]%N);
   ((-6459729277047535, -52)%Z, [32773]%N)];
  (* ('S', 'l') *)
  [
];
  (* ('S', 'ln') *)
  [
];
  (* ('S', 'm') *)
  [
   ((-4546788309129983, -51)%Z, [19968]%N);
   ((-3156065452507551, -49)%Z, [19971]%N);
   ((-4391010846991237, -50)%Z, [19975; 33836]%N);
   ((-6043941695129543, -49)%Z, [19976]%N);
   ((-7685539755524671, -51)%Z, [19977]%N);
   ((-4857001643565943, -49)%Z, [19979; 20237]%N);
   ((-857310583647245, -46)%Z, [19997; 22530; 26007; 26438; 26463; 26609; 26696; 26751; 32114; 38931; 39039; 39381;
     39550; 39717]%N);
   ((-8032029697635923, -51)%Z, [20004; 20841]%N);
   ((-239993013445343, -46)%Z, [20010; 20491]%N);
   ((-731226719929229, -46)%Z, [20057; 26666]%N);
   ((-6418931285833523, -50)%Z, [20061]%N);
   ((-198208088885907, -44)%Z, [20065; 31449; 37129]%N);
   ((-8603730590769767, -51)%Z, [20108]%N);
   ((-2760107377220055, -49)%Z, [20116]%N);
   ((-1755108819616209, -47)%Z, [20123; 24202; 25342; 25674; 25892; 26694; 37526; 38114]%N);
   ((-2095504392787227, -48)%Z, [20137; 30045]%N);
   ((-1355372314562139, -48)%Z, [20159; 20740]%N);
   ((-5952451671338689, -49)%Z, [20191]%N);
   ((-4661869336589681, -49)%Z, [20195]%N);
   ((-1324413994284155, -47)%Z, [20200]%N);
   ((-2054855777146235, -48)%Z, [20214]%N);
   ((-1353636636966741, -47)%Z, [20219; 24429; 29677]%N);
   ((-8647510885702687, -50)%Z, [20221]%N);
   ((-3439988904942149, -49)%Z, [20301]%N);
   ((-5822536658106843, -50)%Z, [20313; 39192]%N);
   ((-3097480446943817, -48)%Z, [20336; 27468]%N);
   ((-2098600958414685, -48)%Z, [20363]%N);
   ((-6926344946321051, -50)%Z, [20457; 20486]%N);
   ((-5488281683451215, -50)%Z, [20493]%N);
   ((-8315402245455295, -51)%Z, [20803]%N);
   ((-980493117207631, -47)%Z, [20806]%N);
   ((-6841072837961143, -50)%Z, [20811]%N);
   ((-7248691842188295, -49)%Z, [20828; 22439; 24110; 24171; 25285; 25812; 26381; 30058; 30415; 30430; 35352; 35760;
     36649; 36744; 36973]%N);
   ((-6059405403434003, -50)%Z, [20843]%N);
   ((-3023630163735415, -49)%Z, [20845]%N);
   ((-1151924442601057, -47)%Z, [20855]%N);
   ((-626041280061567, -46)%Z, [20874; 20876]%N);
   ((-578258841030101, -46)%Z, [20911; 39342]%N);
   ((-6356901016703427, -50)%Z, [20960; 24190]%N);
   ((-5724195107615231, -49)%Z, [20986]%N);
   ((-6468277496167625, -49)%Z, [20992; 21592; 21619; 21709; 21729; 38911]%N);
   ((-6630688992294713, -50)%Z, [20998]%N);
   ((-5223585072648115, -49)%Z, [21015]%N);
   ((-155089551204103, -44)%Z, [21017; 21063]%N);
   ((-1474699202514317, -47)%Z, [21103; 21697; 23553]%N);
   ((-6289003983067603, -49)%Z, [21242; 23792; 31665; 37325; 38914; 39030]%N);
   ((-5459606586423497, -49)%Z, [21253; 22836; 38957]%N);
   ((-5018952252852819, -49)%Z, [21305]%N);
   ((-3007749860643263, -49)%Z, [21313]%N);
   ((-7076591330672963, -50)%Z, [21315]%N);
   ((-2936886346194261, -48)%Z, [21317; 24162]%N);
   ((-2759138444186671, -49)%Z, [21322]%N);
   ((-1701170170891717, -48)%Z, [21367]%N);
   ((-2891753902498625, -48)%Z, [21441; 36890]%N);
   ((-5942064442264951, -50)%Z, [21452; 38617]%N);
   ((-3973949385640415, -49)%Z, [21457; 30332]%N);
   ((-5280333073323475, -49)%Z, [21475]%N);
   ((-348531072322115, -45)%Z, [21477]%N);
   ((-2552291652437973, -49)%Z, [21482]%N);
   ((-7830279093338325, -50)%Z, [21488]%N);
   ((-2835270123166905, -48)%Z, [21494; 25991; 33865]%N);
   ((-6123833728746831, -50)%Z, [21495; 34399]%N);
   ((-6058779381784935, -50)%Z, [21517]%N);
   ((-405572260529959, -46)%Z, [21544; 22136]%N);
   ((-7354809294573009, -50)%Z, [21608; 36913]%N);
   ((-2486917604958003, -49)%Z, [22235]%N);
   ((-4997904943414563, -49)%Z, [22238; 26412]%N);
   ((-4703151173357517, -49)%Z, [22242; 22296]%N);
   ((-1409353997396653, -47)%Z, [22280; 26742]%N);
   ((-4807014221661957, -49)%Z, [22330; 22580]%N);
   ((-8429828325807973, -50)%Z, [22359; 22602]%N);
   ((-6732866017359359, -49)%Z, [22768; 32025; 32440; 32882]%N);
   ((-706716815264901, -46)%Z, [22777; 38915; 39031]%N);
   ((-8672742191600831, -50)%Z, [22788; 34389]%N);
   ((-5518950489450263, -51)%Z, [22810]%N);
   ((-5705736078384335, -49)%Z, [22812]%N);
   ((-6127153990388803, -50)%Z, [22825]%N);
   ((-3843658923163829, -49)%Z, [22871]%N);
   ((-4877474807157979, -49)%Z, [23002; 24109; 24133]%N);
   ((-663315189244787, -46)%Z, [23395; 23610; 26041]%N);
   ((-1273339586591963, -47)%Z, [23447]%N);
   ((-2415692084480255, -49)%Z, [23478]%N);
   ((-4925321732363665, -49)%Z, [23544]%N);
   ((-1033139758960711, -47)%Z, [23545; 23565]%N);
   ((-5687863150146955, -49)%Z, [23562; 30424; 30436; 36617; 36733]%N);
   ((-5804753720877299, -49)%Z, [23614; 29942]%N);
   ((-5353072811541631, -49)%Z, [23616]%N);
   ((-8485146815300471, -50)%Z, [23618; 23652]%N);
   ((-2206569804637093, -48)%Z, [23622; 23626]%N);
   ((-5704164987266549, -50)%Z, [23681; 27506]%N);
   ((-3819449507599315, -48)%Z, [24086; 25414; 26729; 27137; 27754; 31243; 31471; 32311; 32533; 32592; 32701; 37656;
     37664; 38180; 38189; 38347; 38421; 38453; 38499]%N);
   ((-3315114052727251, -48)%Z, [24103; 24128; 25171; 26679; 27171; 30462; 39184]%N);
   ((-1268823557796429, -47)%Z, [24149]%N);
   ((-7875638442900121, -52)%Z, [24180]%N);
   ((-123568585274599, -44)%Z, [24230]%N);
   ((-7422077617840423, -50)%Z, [24231]%N);
   ((-6543448987425883, -49)%Z, [24319; 25307; 26700; 32676]%N);
   ((-8871022850872755, -50)%Z, [24320; 38283]%N);
   ((-8848428783503291, -50)%Z, [24352; 24373]%N);
   ((-8679139367372507, -50)%Z, [25104]%N);
   ((-8437566499957805, -50)%Z, [25142; 25143]%N);
   ((-4064651515735937, -49)%Z, [25152; 25240]%N);
   ((-1538310453603887, -47)%Z, [25159]%N);
   ((-7969893007559659, -50)%Z, [25163]%N);
   ((-332220556585875, -45)%Z, [25209; 31080]%N);
   ((-5621557195710373, -49)%Z, [25226]%N);
   ((-1345742746307083, -47)%Z, [25420]%N);
   ((-5200912883004317, -49)%Z, [25490; 26421]%N);
   ((-68564304556335, -43)%Z, [25903]%N);
   ((-5427903644429415, -50)%Z, [25968; 25976]%N);
   ((-3903932475422911, -49)%Z, [25972]%N);
   ((-4821927675343887, -49)%Z, [26020; 36650; 36718]%N);
   ((-2893691785634879, -50)%Z, [26085]%N);
   ((-6401971541731043, -49)%Z, [26354; 26578; 36523; 36941]%N);
   ((-4964531955359265, -51)%Z, [26376]%N);
   ((-8047694117295381, -50)%Z, [26399]%N);
   ((-7062767010799417, -50)%Z, [26465; 26781]%N);
   ((-5495938543891773, -49)%Z, [26479]%N);
   ((-462065455171049, -46)%Z, [26522]%N);
   ((-6240020932444167, -49)%Z, [26525; 34955; 36255]%N);
   ((-2962492625346045, -48)%Z, [26538; 27085; 28404]%N);
   ((-3441613581260061, -49)%Z, [26550]%N);
   ((-5324682764841375, -49)%Z, [26635; 26847; 32218; 32447]%N);
   ((-8909717377492543, -50)%Z, [26681]%N);
   ((-5239223576968257, -49)%Z, [26723; 27284; 31890]%N);
   ((-1502941092180177, -47)%Z, [26869; 30418; 30524]%N);
   ((-3204318636059873, -49)%Z, [27425]%N);
   ((-7865538200461835, -50)%Z, [27454]%N);
   ((-2543636170825271, -48)%Z, [27493]%N);
   ((-5112021379932715, -49)%Z, [27573; 30446]%N);
   ((-1397780014003663, -47)%Z, [27966]%N);
   ((-569240560474961, -47)%Z, [28857; 40670]%N);
   ((-4825718598446713, -49)%Z, [29255]%N);
   ((-4907448804126285, -49)%Z, [29590]%N);
   ((-4958033420420047, -49)%Z, [29926]%N);
   ((-5393300631986915, -49)%Z, [30002]%N);
   ((-3375090732213429, -49)%Z, [30334]%N);
   ((-3057201140312783, -48)%Z, [30528; 33879]%N);
   ((-2871639992275983, -48)%Z, [30871]%N);
   ((-4263196591217423, -49)%Z, [30917]%N);
   ((-726177648537909, -47)%Z, [31181; 31278]%N);
   ((-8139188080981419, -50)%Z, [31186]%N);
   ((-8377100969856327, -50)%Z, [31456]%N);
   ((-4861037144384029, -49)%Z, [31508; 31558]%N);
   ((-3126670879928283, -49)%Z, [31532]%N);
   ((-8223695978634893, -50)%Z, [31561]%N);
   ((-8066151906194611, -50)%Z, [31680; 33410]%N);
   ((-516708810905895, -46)%Z, [31687]%N);
   ((-618688384813615, -47)%Z, [31859]%N);
   ((-8167337044805443, -50)%Z, [31867; 39006]%N);
   ((-7794627568890501, -50)%Z, [32026; 32423]%N);
   ((-2373850762139969, -48)%Z, [32068; 32452]%N);
   ((-315754781850001, -45)%Z, [32173; 32500]%N);
   ((-2317066100923147, -48)%Z, [32902]%N);
   ((-402350840103243, -46)%Z, [32929]%N);
   ((-3039035161578645, -48)%Z, [32974]%N);
   ((-6978947255543563, -50)%Z, [33368]%N);
   ((-2424508201978961, -48)%Z, [34892]%N);
   ((-604655873339087, -46)%Z, [35041; 37324]%N);
   ((-2712738979197875, -48)%Z, [35282]%N);
   ((-6908899187518143, -50)%Z, [35377; 35768]%N);
   ((-4602556639207663, -49)%Z, [36019; 36144]%N);
   ((-1074090821277531, -47)%Z, [36215]%N);
   ((-8882492219054919, -50)%Z, [36335]%N);
   ((-340499934978321, -45)%Z, [36554; 36710]%N);
   ((-7106345632791771, -50)%Z, [36635; 36742]%N);
   ((-5403823367395451, -49)%Z, [36655; 36753]%N);
   ((-2436660088049269, -48)%Z, [36947]%N);
   ((-7648129438967029, -50)%Z, [37096]%N);
   ((-1605056170117387, -48)%Z, [37770; 38225]%N);
   ((-8161245596726717, -50)%Z, [38272; 38376]%N);
   ((-4803346782284521, -49)%Z, [38291; 38388]%N);
   ((-5562244498328355, -49)%Z, [38431; 38538]%N);
   ((-8049526338866273, -50)%Z, [38470; 38520]%N);
   ((-5247208816576277, -49)%Z, [38598]%N);
   ((-887897039197391, -47)%Z, [38646]%N);
   ((-2686413734197439, -48)%Z, [38754]%N);
   ((-7530017684680349, -50)%Z, [38913; 39029]%N);
   ((-952842708585933, -47)%Z, [38917; 39033]%N);
   ((-8765789796418185, -50)%Z, [38982; 39063]%N);
   ((-751524028524355, -47)%Z, [39318]%N)];
  (* ('S', 'mg') *)
  [
   ((-3437518088832097, -51)%Z, [19993]%N);
   ((-2096306995675611, -49)%Z, [20057]%N);
   ((-5148068367874575, -51)%Z, [23493]%N);
   ((-2209585079558413, -51)%Z, [24051]%N);
   ((-8740768236005313, -52)%Z, [25098]%N);
   ((-7859174104337823, -51)%Z, [30002]%N);
   ((-5234134887781921, -51)%Z, [30328]%N);
   ((-2583257262818249, -49)%Z, [36784]%N)];
  (* ('S', 'mq') *)
  [
];
  (* ('S', 'n') *)
  [
   ((-78660985019133, -43)%Z, [19994; 26989; 38309; 38400]%N);
   ((-3977887305919843, -49)%Z, [19997; 32114]%N);
   ((-5216766081006341, -49)%Z, [20011; 35167; 37672; 38170]%N);
   ((-5653297617350605, -50)%Z, [20027]%N);
   ((-2229964179479499, -48)%Z, [20057]%N);
   ((-6842244221640457, -50)%Z, [20065; 37129]%N);
   ((-2651589455747529, -49)%Z, [20070; 26360]%N);
   ((-4353514608277325, -50)%Z, [20107]%N);
   ((-840465938714875, -47)%Z, [20113; 38642]%N);
   ((-4015129029180937, -49)%Z, [20117]%N);
   ((-4982296505538065, -51)%Z, [20154]%N);
   ((-4539869944104185, -49)%Z, [20167]%N);
   ((-2315757728728213, -48)%Z, [20181; 26639; 27396]%N);
   ((-7648306599437795, -50)%Z, [20183]%N);
   ((-776780601613879, -47)%Z, [20215; 20729]%N);
   ((-7558009119068351, -49)%Z, [20223; 20247; 26631; 27161; 30526; 31481]%N);
   ((-8312618493609527, -50)%Z, [20254; 20632]%N);
   ((-51270902327629, -43)%Z, [20307; 39636]%N);
   ((-3660352705351361, -49)%Z, [20315]%N);
   ((-7352169731126083, -50)%Z, [20363]%N);
   ((-5879610828342037, -50)%Z, [20449]%N);
   ((-6463203175853839, -50)%Z, [20538; 20661]%N);
   ((-1589043929063321, -48)%Z, [20540]%N);
   ((-4704469734531379, -49)%Z, [20598]%N);
   ((-7730548053319603, -50)%Z, [20711]%N);
   ((-5486691353408833, -50)%Z, [20799; 20818]%N);
   ((-2967514537970083, -49)%Z, [20809]%N);
   ((-6280003247418617, -50)%Z, [20826; 40680]%N);
   ((-223993810814313, -44)%Z, [20828]%N);
   ((-670174223310009, -46)%Z, [20851; 38364]%N);
   ((-5367392359081861, -50)%Z, [20853]%N);
   ((-5023964554797833, -50)%Z, [20891; 36557]%N);
   ((-5344588062265471, -49)%Z, [20906; 24130]%N);
   ((-1915995158294755, -48)%Z, [20912]%N);
   ((-4629962491082839, -49)%Z, [20989]%N);
   ((-3487156436805981, -49)%Z, [20992]%N);
   ((-7965556601319425, -50)%Z, [21009]%N);
   ((-105345887409925, -44)%Z, [21033]%N);
   ((-7391597649574501, -50)%Z, [21073; 21133]%N);
   ((-5792882796258243, -49)%Z, [21076; 30129; 30384]%N);
   ((-4113206938621571, -49)%Z, [21095; 21127]%N);
   ((-6128808631957715, -50)%Z, [21147]%N);
   ((-3520509099618987, -49)%Z, [21151]%N);
   ((-1257782870950609, -47)%Z, [21163]%N);
   ((-8091190148844539, -50)%Z, [21170; 21185]%N);
   ((-2118716935837963, -48)%Z, [21191]%N);
   ((-5668649017349943, -50)%Z, [21306; 21312]%N);
   ((-4762211042328063, -49)%Z, [21310]%N);
   ((-235256242412943, -45)%Z, [21345]%N);
   ((-4858219054806297, -49)%Z, [21348; 35970; 40565]%N);
   ((-506528073889711, -46)%Z, [21350]%N);
   ((-7703758408201277, -50)%Z, [21365]%N);
   ((-7216523049777157, -50)%Z, [21378; 24288]%N);
   ((-3770801742918505, -49)%Z, [21381; 24307]%N);
   ((-168390872435785, -45)%Z, [21439; 32291]%N);
   ((-969340902454079, -47)%Z, [21442; 21443]%N);
   ((-8530264013302281, -50)%Z, [21449]%N);
   ((-299269130377479, -45)%Z, [21451; 32104; 32466]%N);
   ((-7528866167359019, -50)%Z, [21460]%N);
   ((-3710747922876919, -49)%Z, [21494; 33865]%N);
   ((-8515756870347591, -50)%Z, [21496]%N);
   ((-7137531450210773, -50)%Z, [21531]%N);
   ((-315857314527341, -45)%Z, [21592; 21729]%N);
   ((-734970612863805, -47)%Z, [21629]%N);
   ((-6920622147766365, -50)%Z, [21733]%N);
   ((-6678979642801737, -50)%Z, [21830]%N);
   ((-6651430476849511, -50)%Z, [22068]%N);
   ((-3605993086815425, -49)%Z, [22120]%N);
   ((-7037135038016983, -50)%Z, [22242; 22296]%N);
   ((-4854572503768773, -50)%Z, [22269; 22283]%N);
   ((-5878532896323997, -50)%Z, [22270; 22294]%N);
   ((-1063075170749677, -47)%Z, [22278; 22291; 39746]%N);
   ((-4891766423150579, -49)%Z, [22280]%N);
   ((-3074881715594565, -49)%Z, [22303]%N);
   ((-2928830535050405, -48)%Z, [22338; 37564; 38153]%N);
   ((-4090151886787263, -49)%Z, [22353]%N);
   ((-4301139590757851, -49)%Z, [22365; 22761]%N);
   ((-4123834849173509, -49)%Z, [22367; 22707]%N);
   ((-7523545898005907, -50)%Z, [22369]%N);
   ((-5087639941495831, -49)%Z, [22383]%N);
   ((-2697149849819555, -49)%Z, [22478]%N);
   ((-6072351918285269, -49)%Z, [22488; 22610; 25159; 40434; 40555]%N);
   ((-565208342884673, -46)%Z, [22495]%N);
   ((-719664529566649, -46)%Z, [22534]%N);
   ((-8666328671055493, -50)%Z, [22564]%N);
   ((-5573528723440367, -50)%Z, [22577; 25253]%N);
   ((-3354413790593219, -49)%Z, [22675]%N);
   ((-7315729660320311, -50)%Z, [22681; 22771; 27580; 29254]%N);
   ((-8359025786116305, -50)%Z, [22696]%N);
   ((-5222229878573161, -50)%Z, [22788; 34389]%N);
   ((-450906525191031, -46)%Z, [22818; 26790]%N);
   ((-3768111415440179, -49)%Z, [22827]%N);
   ((-4927440344362257, -49)%Z, [22831]%N);
   ((-1231574678586495, -48)%Z, [22836; 38957]%N);
   ((-1901529195784873, -48)%Z, [22870; 29518]%N);
   ((-8126900572362873, -50)%Z, [22902; 25484]%N);
   ((-1733967897388361, -48)%Z, [22920; 23229]%N);
   ((-4660227343109757, -49)%Z, [22969]%N);
   ((-4272480261210729, -49)%Z, [22974]%N);
   ((-651548140675871, -46)%Z, [22986]%N);
   ((-8072669848895845, -50)%Z, [22992]%N);
   ((-8623226760761453, -50)%Z, [22993]%N);
   ((-8945367384907895, -50)%Z, [23004]%N);
   ((-4770112224007935, -49)%Z, [23016]%N);
   ((-6809400170655601, -50)%Z, [23064]%N);
   ((-3858142967787057, -49)%Z, [23380]%N);
   ((-5451492413908561, -50)%Z, [23383]%N);
   ((-5703546341091163, -50)%Z, [23448]%N);
   ((-1735844075026735, -48)%Z, [23453; 23542]%N);
   ((-7109167408663487, -50)%Z, [23460]%N);
   ((-4636200227516647, -49)%Z, [23486; 36051]%N);
   ((-3496397114068007, -49)%Z, [23614]%N);
   ((-478670729566093, -46)%Z, [23615]%N);
   ((-3482491359153461, -49)%Z, [23616; 38634]%N);
   ((-4564173716244801, -49)%Z, [23617; 27679; 33134]%N);
   ((-7420890034651333, -50)%Z, [23627]%N);
   ((-4554597179904119, -49)%Z, [23630]%N);
   ((-4735398834368015, -49)%Z, [23633]%N);
   ((-5301979231139845, -50)%Z, [23665]%N);
   ((-8328780013787567, -50)%Z, [23703; 23831; 28330]%N);
   ((-1692921976638297, -48)%Z, [23707; 23798]%N);
   ((-60339018841977, -43)%Z, [23725; 23994]%N);
   ((-8915279882725871, -50)%Z, [23731]%N);
   ((-7787795673160139, -50)%Z, [23736]%N);
   ((-2914279137839267, -49)%Z, [24030]%N);
   ((-8933699923949943, -50)%Z, [24034]%N);
   ((-6601781162010875, -50)%Z, [24037]%N);
   ((-8922152131367173, -50)%Z, [24065; 24163]%N);
   ((-5176182475144547, -50)%Z, [24066]%N);
   ((-6958537477625693, -50)%Z, [24067]%N);
   ((-284324821184039, -45)%Z, [24070]%N);
   ((-8779880150486829, -50)%Z, [24125]%N);
   ((-3193693800018673, -48)%Z, [24149]%N);
   ((-7442289808239149, -50)%Z, [24202]%N);
   ((-8269334541576255, -50)%Z, [24207]%N);
   ((-7999465804466159, -50)%Z, [24211; 24235]%N);
   ((-7012426443453541, -50)%Z, [24215]%N);
   ((-7534881675383071, -50)%Z, [24217; 24287]%N);
   ((-4811372439207837, -49)%Z, [24339]%N);
   ((-3625442383210389, -49)%Z, [24351]%N);
   ((-8233870195268443, -50)%Z, [24358]%N);
   ((-4551890684530291, -49)%Z, [24359]%N);
   ((-2713849870458327, -48)%Z, [24367; 24398]%N);
   ((-5063681008541141, -49)%Z, [24384]%N);
   ((-8090092245386655, -50)%Z, [24433]%N);
   ((-5260509268631173, -50)%Z, [24515]%N);
   ((-7113768558944567, -50)%Z, [24535]%N);
   ((-3948476323915147, -49)%Z, [24577; 24907]%N);
   ((-684619076271285, -47)%Z, [24615]%N);
   ((-3853048363302649, -49)%Z, [24687]%N);
   ((-6496548107556305, -50)%Z, [24773]%N);
   ((-1804383432996903, -48)%Z, [25103; 25138]%N);
   ((-794727957755783, -47)%Z, [25151]%N);
   ((-2521427968015209, -49)%Z, [25163]%N);
   ((-3963464229566559, -49)%Z, [25307]%N);
   ((-138670385054857, -44)%Z, [25331]%N);
   ((-5817906913926989, -49)%Z, [25466]%N);
   ((-562849393144459, -46)%Z, [25674; 25892; 34593; 34847]%N);
   ((-6261768948218745, -49)%Z, [25733; 30044]%N);
   ((-5440641689130427, -49)%Z, [25735]%N);
   ((-7042183294239415, -49)%Z, [25805; 25955; 32802; 38258]%N);
   ((-5178513259049999, -49)%Z, [25925; 36031; 36152]%N);
   ((-4232054104216903, -49)%Z, [26001; 29916; 37385; 38048]%N);
   ((-7442907247194487, -50)%Z, [26009]%N);
   ((-1879562662647047, -48)%Z, [26053]%N);
   ((-896191450987493, -47)%Z, [26071]%N);
   ((-6994866564275725, -50)%Z, [26143]%N);
   ((-4516572138592975, -49)%Z, [26292; 29313]%N);
   ((-2361128400932677, -49)%Z, [26376]%N);
   ((-3680087573816697, -49)%Z, [26408]%N);
   ((-3133118307081503, -49)%Z, [26435; 27402]%N);
   ((-344855409979147, -45)%Z, [26440]%N);
   ((-2207390066055813, -48)%Z, [26448]%N);
   ((-6446766388945549, -50)%Z, [26449]%N);
   ((-2279340739006869, -48)%Z, [26531; 26839]%N);
   ((-6573751409269547, -50)%Z, [26538; 27085]%N);
   ((-499148728136661, -46)%Z, [26564]%N);
   ((-2698294809265299, -48)%Z, [26607]%N);
   ((-7943183771990727, -50)%Z, [26609; 38647]%N);
   ((-7826196891269783, -50)%Z, [26611]%N);
   ((-8256540086770483, -50)%Z, [26612]%N);
   ((-7053185510777417, -50)%Z, [26680]%N);
   ((-8699773701642867, -50)%Z, [26684]%N);
   ((-8870506591407325, -50)%Z, [26691]%N);
   ((-2136651343208393, -48)%Z, [26723; 27284]%N);
   ((-6926853363432607, -50)%Z, [26725; 27211]%N);
   ((-4833194937137551, -49)%Z, [26728; 27123]%N);
   ((-2481360520553907, -48)%Z, [26729; 27137]%N);
   ((-975481256582953, -47)%Z, [26753]%N);
   ((-1088893315584135, -47)%Z, [26792]%N);
   ((-8761801083781651, -50)%Z, [26827]%N);
   ((-4653719178677559, -49)%Z, [26842]%N);
   ((-1314452236059213, -47)%Z, [26976]%N);
   ((-6717549270900609, -50)%Z, [27004; 27155]%N);
   ((-4076062727137507, -49)%Z, [27036]%N);
   ((-8985966265736227, -50)%Z, [27067; 33469]%N);
   ((-466427889260955, -46)%Z, [27454]%N);
   ((-7357309531663339, -50)%Z, [27468]%N);
   ((-3455669756324277, -49)%Z, [27583]%N);
   ((-7594751135513851, -50)%Z, [27602; 32925]%N);
   ((-2760055904464181, -49)%Z, [27668; 27683]%N);
   ((-8183876171833931, -50)%Z, [27682; 27691]%N);
   ((-2520350134313699, -48)%Z, [27686]%N);
   ((-8040712171600535, -50)%Z, [27687]%N);
   ((-1110469078180725, -47)%Z, [27688]%N);
   ((-5225631617828017, -49)%Z, [27689; 27692]%N);
   ((-8686648991242733, -50)%Z, [27694; 37438; 38080]%N);
   ((-2241669607368679, -48)%Z, [27695]%N);
   ((-1234530085071815, -48)%Z, [27700]%N);
   ((-6991966360520153, -50)%Z, [27735]%N);
   ((-4386910740829765, -49)%Z, [27742]%N);
   ((-1852210441646041, -48)%Z, [27748; 28271]%N);
   ((-893492375306075, -47)%Z, [27801]%N);
   ((-7560640894338937, -50)%Z, [27807; 28317]%N);
   ((-3008369076213197, -49)%Z, [27827]%N);
   ((-3351365172877623, -49)%Z, [27833]%N);
   ((-8185069494581405, -50)%Z, [27849]%N);
   ((-5930874472590429, -49)%Z, [27873; 30917]%N);
   ((-9285975045079, -40)%Z, [27874; 27893]%N);
   ((-7521557260620777, -50)%Z, [27877]%N);
   ((-980903247916991, -47)%Z, [27882; 28122]%N);
   ((-6852766264305939, -49)%Z, [27899; 28681; 32790]%N);
   ((-3231860356009353, -49)%Z, [27934]%N);
   ((-6626930412090269, -50)%Z, [27963]%N);
   ((-4569720066068487, -49)%Z, [27974; 28479; 39173; 39292]%N);
   ((-7969493318291123, -50)%Z, [28010]%N);
   ((-2981275675980083, -49)%Z, [28023]%N);
   ((-2110348144417227, -48)%Z, [28192]%N);
   ((-1250840984969643, -47)%Z, [28195; 30813]%N);
   ((-6693487237282863, -50)%Z, [28246]%N);
   ((-8859586041128713, -50)%Z, [28422]%N);
   ((-4428707292255929, -49)%Z, [28525]%N);
   ((-3900225553483625, -49)%Z, [28526]%N);
   ((-6219024828924585, -50)%Z, [28779]%N);
   ((-444265589418903, -46)%Z, [28783; 29128]%N);
   ((-7767838283737085, -50)%Z, [28784]%N);
   ((-8697889349894493, -50)%Z, [28790]%N);
   ((-4130820217410681, -49)%Z, [28797; 28798]%N);
   ((-8098905596900971, -50)%Z, [28809; 29200]%N);
   ((-8087899645069871, -50)%Z, [28821]%N);
   ((-4715192915002891, -49)%Z, [28845]%N);
   ((-7085989639513655, -50)%Z, [28846]%N);
   ((-2471724739363175, -48)%Z, [28867; 28916]%N);
   ((-6973091503135823, -50)%Z, [28895; 29017]%N);
   ((-158771557931085, -44)%Z, [28919]%N);
   ((-6598859022019055, -50)%Z, [29028]%N);
   ((-4141789216825631, -49)%Z, [29066; 30865]%N);
   ((-6442694413777081, -50)%Z, [29151; 33829]%N);
   ((-485903219878895, -46)%Z, [29240]%N);
   ((-7095929430375669, -50)%Z, [29241]%N);
   ((-3595773214337583, -49)%Z, [29256]%N);
   ((-7195505641218647, -50)%Z, [29260]%N);
   ((-7296043682054625, -50)%Z, [29273]%N);
   ((-800223047304161, -47)%Z, [29275]%N);
   ((-7088691800587115, -50)%Z, [29399]%N);
   ((-4750563386407515, -49)%Z, [29422; 29509; 30683]%N);
   ((-7675311489362883, -50)%Z, [29436]%N);
   ((-7326259935569045, -50)%Z, [29482; 35948]%N);
   ((-8053386600831133, -50)%Z, [29483; 35987]%N);
   ((-429359175507633, -46)%Z, [29577]%N);
   ((-7266089233708289, -50)%Z, [29677]%N);
   ((-7292795891609735, -50)%Z, [29699]%N);
   ((-6781255550589597, -50)%Z, [29702]%N);
   ((-66137804718127, -43)%Z, [29748; 32928; 33144]%N);
   ((-5805255820771829, -49)%Z, [29882; 30307; 30316; 38274; 38377]%N);
   ((-5166318920445999, -49)%Z, [29922]%N);
   ((-7928828712591527, -50)%Z, [29926]%N);
   ((-2424495080178341, -48)%Z, [29934; 29973]%N);
   ((-8114496942684253, -50)%Z, [29942]%N);
   ((-6464756498574593, -50)%Z, [30000]%N);
   ((-6497081204113065, -50)%Z, [30002]%N);
   ((-5927126859810933, -50)%Z, [30005; 38651]%N);
   ((-7089142791943773, -50)%Z, [30028]%N);
   ((-5116331498542013, -49)%Z, [30116]%N);
   ((-2437371440595781, -48)%Z, [30126; 30241; 34633; 34796]%N);
   ((-2841072372637467, -48)%Z, [30146]%N);
   ((-377219613856103, -46)%Z, [30149]%N);
   ((-5170354421264085, -49)%Z, [30179]%N);
   ((-2094676234289699, -48)%Z, [30192]%N);
   ((-2280024761158103, -48)%Z, [30244]%N);
   ((-330433346233131, -45)%Z, [30270; 30318]%N);
   ((-577211327062845, -46)%Z, [30284]%N);
   ((-735726804254237, -46)%Z, [30285]%N);
   ((-6901368944227155, -50)%Z, [30382]%N);
   ((-1170904338091065, -47)%Z, [30385; 30394]%N);
   ((-5634000041721431, -49)%Z, [30388]%N);
   ((-8816933217031623, -50)%Z, [30406; 39981; 40141]%N);
   ((-3332018990784203, -49)%Z, [30416; 40573]%N);
   ((-542451080106671, -46)%Z, [30431]%N);
   ((-5542613595434169, -50)%Z, [30465]%N);
   ((-4219199080629003, -49)%Z, [30473]%N);
   ((-6164548287433361, -50)%Z, [30524]%N);
   ((-2363062162765839, -48)%Z, [30707]%N);
   ((-2055367572806181, -48)%Z, [30717; 30789]%N);
   ((-3598745240352321, -49)%Z, [30719; 31014]%N);
   ((-4202261440783237, -49)%Z, [30722]%N);
   ((-8065131514328737, -50)%Z, [30742; 30938]%N);
   ((-1173921796458989, -47)%Z, [30775; 34588]%N);
   ((-6711288818611099, -49)%Z, [30780]%N);
   ((-2533520956884055, -48)%Z, [30802]%N);
   ((-4190061920410435, -49)%Z, [30827]%N);
   ((-3252139085383845, -48)%Z, [30839; 32625; 40572]%N);
   ((-2390073624126875, -48)%Z, [30844]%N);
   ((-1615639772823901, -47)%Z, [30871]%N);
   ((-592629722401701, -46)%Z, [30872]%N);
   ((-8225175944290675, -50)%Z, [30897]%N);
   ((-6300414208649477, -50)%Z, [30899]%N);
   ((-8243889392925975, -50)%Z, [30967; 39522; 39540]%N);
   ((-2213811826948707, -48)%Z, [30977]%N);
   ((-6760178306374051, -50)%Z, [31036; 31150]%N);
   ((-3513635912939929, -49)%Z, [31038]%N);
   ((-3066329920570301, -49)%Z, [31070]%N);
   ((-1815731647860245, -48)%Z, [31080]%N);
   ((-4222197489599845, -49)%Z, [31096; 31117]%N);
   ((-7237425572775031, -50)%Z, [31119]%N);
   ((-6214452218255055, -50)%Z, [31185]%N);
   ((-8353465775277211, -50)%Z, [31186]%N);
   ((-2449611411466279, -48)%Z, [31204]%N);
   ((-6015053355264391, -49)%Z, [31207]%N);
   ((-442790061689897, -46)%Z, [31237; 31246]%N);
   ((-4014089416783133, -49)%Z, [31243; 35282]%N);
   ((-587179096060687, -46)%Z, [31319]%N);
   ((-3987216825256387, -49)%Z, [31377; 31407; 33014; 33184]%N);
   ((-4794503762803803, -49)%Z, [31382]%N);
   ((-3830864040881881, -49)%Z, [31389; 31401]%N);
   ((-1330733367816293, -47)%Z, [31392]%N);
   ((-6136150296400145, -49)%Z, [31446; 35918]%N);
   ((-2406758506526279, -48)%Z, [31461]%N);
   ((-648872200603909, -46)%Z, [31499; 31565]%N);
   ((-5060340049456693, -49)%Z, [31513]%N);
   ((-4668469802996303, -49)%Z, [31515]%N);
   ((-5109020357425121, -49)%Z, [31548; 31840]%N);
   ((-2271259562622251, -48)%Z, [31563]%N);
   ((-318862684466947, -45)%Z, [31568]%N);
   ((-5460630177743389, -49)%Z, [31581; 31631]%N);
   ((-4305480012825621, -49)%Z, [31616; 31777]%N);
   ((-1820777089136407, -48)%Z, [31661]%N);
   ((-3432835406282297, -49)%Z, [31680; 33410]%N);
   ((-2591318726489297, -48)%Z, [31735; 37274]%N);
   ((-2393127632134559, -48)%Z, [31783]%N);
   ((-8064058717766539, -50)%Z, [31881]%N);
   ((-8800314466501629, -50)%Z, [31909; 37794; 38056]%N);
   ((-4462226117060927, -49)%Z, [31914; 31966]%N);
   ((-7139416590721235, -50)%Z, [31918; 31975]%N);
   ((-7385125251831029, -50)%Z, [31958]%N);
   ((-2552700044006613, -48)%Z, [31968]%N);
   ((-2135829517875055, -48)%Z, [32023; 32433]%N);
   ((-882469776051139, -47)%Z, [32025; 32440]%N);
   ((-447823739457221, -46)%Z, [32032]%N);
   ((-5328269529732875, -49)%Z, [32068; 32452]%N);
   ((-2271924202781623, -48)%Z, [32121; 32482]%N);
   ((-3742853962727039, -49)%Z, [32177; 32434]%N);
   ((-5997243803555841, -50)%Z, [32178; 32593]%N);
   ((-1446981873639843, -48)%Z, [32218; 32447]%N);
   ((-4027756473448135, -49)%Z, [32227; 32536]%N);
   ((-350989924427397, -45)%Z, [32299; 32541]%N);
   ((-4663509859427121, -49)%Z, [32321; 32907]%N);
   ((-5532902349528171, -49)%Z, [32412; 32518]%N);
   ((-4328606011404451, -49)%Z, [32568]%N);
   ((-6956530883070609, -50)%Z, [32618]%N);
   ((-7526868119085151, -50)%Z, [32650]%N);
   ((-77199210527719, -43)%Z, [32793]%N);
   ((-7028980972176713, -50)%Z, [32819]%N);
   ((-6749118626159049, -50)%Z, [32905]%N);
   ((-4335917152521343, -49)%Z, [32933]%N);
   ((-4132740457885683, -49)%Z, [32937]%N);
   ((-982347861744603, -47)%Z, [32954]%N);
   ((-3788261608552055, -49)%Z, [32958; 33102]%N);
   ((-3945250240854651, -49)%Z, [32963]%N);
   ((-8345176904170035, -50)%Z, [32966; 33213]%N);
   ((-6777594773047681, -49)%Z, [33016; 37624; 38191]%N);
   ((-597771987366235, -46)%Z, [33018]%N);
   ((-3672959725320455, -49)%Z, [33041; 33126]%N);
   ((-4758301651940513, -49)%Z, [33043; 33215]%N);
   ((-3253629147223741, -49)%Z, [33050; 33139]%N);
   ((-6046180883078041, -50)%Z, [33080; 33225]%N);
   ((-2108852921901383, -48)%Z, [33086]%N);
   ((-3612826008976787, -49)%Z, [33136]%N);
   ((-857517038830547, -47)%Z, [33151]%N);
   ((-7550402267490449, -50)%Z, [33180]%N);
   ((-8485731093442129, -50)%Z, [33218]%N);
   ((-3233804917367449, -49)%Z, [33251]%N);
   ((-4690482680784385, -49)%Z, [33285]%N);
   ((-7851656921391779, -50)%Z, [33292]%N);
   ((-2182590074985321, -48)%Z, [33311]%N);
   ((-2072528246061251, -48)%Z, [33329; 33369]%N);
   ((-4768126507827643, -49)%Z, [33333]%N);
   ((-3153462781690599, -49)%Z, [33337]%N);
   ((-4261896653186063, -49)%Z, [33351]%N);
   ((-4110118889444175, -49)%Z, [33495]%N);
   ((-2135010085049711, -48)%Z, [33519; 40736]%N);
   ((-4052780591116881, -49)%Z, [33550; 33686]%N);
   ((-5775358522171035, -50)%Z, [33590]%N);
   ((-6580621910570067, -50)%Z, [33609]%N);
   ((-6556756371011827, -50)%Z, [33647; 34277]%N);
   ((-2989928761606933, -48)%Z, [33659]%N);
   ((-500093289220505, -46)%Z, [33740]%N);
   ((-7212992789618191, -50)%Z, [33756]%N);
   ((-2290489720229701, -48)%Z, [33905; 34085]%N);
   ((-4388928484758415, -49)%Z, [33948]%N);
   ((-4547855183712205, -49)%Z, [34218]%N);
   ((-703105772781757, -46)%Z, [34233]%N);
   ((-577591699579153, -46)%Z, [34261]%N);
   ((-2284164173652121, -48)%Z, [34276]%N);
   ((-871687309928807, -47)%Z, [34382]%N);
   ((-7344786754462033, -50)%Z, [34411; 34802]%N);
   ((-1241382194342285, -47)%Z, [34425]%N);
   ((-8352080052140019, -50)%Z, [34430; 34662]%N);
   ((-4746733780119035, -49)%Z, [34453; 34870]%N);
   ((-5662390088421687, -49)%Z, [34461; 34836]%N);
   ((-2631279802473985, -48)%Z, [34502; 36070; 36171]%N);
   ((-3860509964771431, -49)%Z, [34503]%N);
   ((-3845299446001269, -49)%Z, [34507]%N);
   ((-2227680394320401, -48)%Z, [34562]%N);
   ((-5234639009243721, -49)%Z, [34735]%N);
   ((-2686441479907121, -48)%Z, [34835; 37697; 38184]%N);
   ((-6393242775368143, -50)%Z, [34880]%N);
   ((-7159883734753021, -50)%Z, [34903]%N);
   ((-3200157746903181, -49)%Z, [34920]%N);
   ((-5713140644275507, -49)%Z, [34921]%N);
   ((-579329287717603, -46)%Z, [35380; 35785; 40285; 40517]%N);
   ((-3411603189647955, -49)%Z, [35422; 35789]%N);
   ((-6471251843154559, -50)%Z, [35433; 35799]%N);
   ((-4774659928928115, -50)%Z, [35441; 35805]%N);
   ((-7827065306204345, -50)%Z, [35506; 35838]%N);
   ((-4395025475258379, -49)%Z, [35598; 35868]%N);
   ((-6431320314170769, -50)%Z, [35657; 35777]%N);
   ((-7947042901413647, -50)%Z, [35910]%N);
   ((-6209072057754885, -50)%Z, [35937]%N);
   ((-2340957011457615, -48)%Z, [35961]%N);
   ((-7081948518859623, -50)%Z, [36001; 36130]%N);
   ((-7482504794113427, -50)%Z, [36008; 36135]%N);
   ((-6779198485632159, -50)%Z, [36042; 36156]%N);
   ((-8430946777959691, -50)%Z, [36076; 36134]%N);
   ((-5460800047169499, -50)%Z, [36335]%N);
   ((-2689358345146609, -48)%Z, [36476]%N);
   ((-5506425255201761, -50)%Z, [36554; 36710]%N);
   ((-1946739253493219, -48)%Z, [36600; 36724]%N);
   ((-2126944347601921, -48)%Z, [36649; 36744]%N);
   ((-1430965956186755, -47)%Z, [36685; 36761; 37732; 38200]%N);
   ((-3419494302591801, -49)%Z, [37089]%N);
   ((-6089889424718229, -50)%Z, [37202]%N);
   ((-2513988847151129, -48)%Z, [37210]%N);
   ((-1209977531387635, -47)%Z, [37233; 37292]%N);
   ((-8043867427958427, -50)%Z, [37238]%N);
   ((-7468518280004301, -50)%Z, [37240]%N);
   ((-4288315574869517, -49)%Z, [37259]%N);
   ((-2399336890763073, -48)%Z, [37275]%N);
   ((-4693946999122843, -49)%Z, [37321]%N);
   ((-2740094753598317, -49)%Z, [37327]%N);
   ((-1881384513516775, -48)%Z, [37341; 38024]%N);
   ((-1222325685818367, -47)%Z, [37353; 38034]%N);
   ((-2019250059622797, -48)%Z, [37411; 38041]%N);
   ((-4507766037969783, -49)%Z, [37414; 38043]%N);
   ((-1486683316616667, -47)%Z, [37424; 38088]%N);
   ((-2872971561694905, -48)%Z, [37432; 38073]%N);
   ((-269311037976779, -45)%Z, [37440; 38078]%N);
   ((-4688758483560825, -49)%Z, [37457; 38082]%N);
   ((-8003523105818421, -50)%Z, [37467; 38085]%N);
   ((-8439894373978985, -50)%Z, [37476; 38057]%N);
   ((-2304329570060513, -48)%Z, [37499; 38124]%N);
   ((-786492336736429, -47)%Z, [37509; 38108]%N);
   ((-5548540853848313, -49)%Z, [37541; 38129]%N);
   ((-2867397617637903, -48)%Z, [37542; 38111]%N);
   ((-831497015153635, -46)%Z, [37546; 38101]%N);
   ((-5495607261023561, -49)%Z, [37561; 38152]%N);
   ((-3813507042652505, -49)%Z, [37569; 38109]%N);
   ((-1908943999125939, -48)%Z, [37573; 38156]%N);
   ((-4550542300763681, -49)%Z, [37575; 38049]%N);
   ((-8833800946851803, -50)%Z, [37616; 38146]%N);
   ((-3397706828273237, -49)%Z, [37628; 38050]%N);
   ((-5074887591096947, -50)%Z, [37666; 38065]%N);
   ((-7963593392614787, -50)%Z, [37675; 38177]%N);
   ((-7300933001758271, -50)%Z, [37679; 38169]%N);
   ((-8578322960586051, -50)%Z, [37683; 38192]%N);
   ((-7815827824211651, -50)%Z, [37707; 38149]%N);
   ((-2579166840418989, -48)%Z, [37740; 38201]%N);
   ((-8448913647098437, -50)%Z, [37749; 38190]%N);
   ((-5098228654045189, -49)%Z, [37754; 38167]%N);
   ((-8783937451839091, -50)%Z, [37762; 38209]%N);
   ((-2489890718097313, -48)%Z, [37784; 38217]%N);
   ((-2528509400579997, -48)%Z, [37804; 38224]%N);
   ((-3319481292725291, -49)%Z, [37806; 38215]%N);
   ((-1084209439429959, -47)%Z, [37811; 38221; 40860; 40863]%N);
   ((-1475109333223677, -47)%Z, [37858; 38230]%N);
   ((-472582924459299, -46)%Z, [37912; 38047]%N);
   ((-5355735950379475, -49)%Z, [37939; 38253]%N);
   ((-6223406985887167, -50)%Z, [37941; 38081]%N);
   ((-1149575586068137, -47)%Z, [38012; 38179]%N);
   ((-1328102683964159, -47)%Z, [38042]%N);
   ((-1360069466380409, -48)%Z, [38272; 38376]%N);
   ((-2250163031227255, -48)%Z, [38296; 38392]%N);
   ((-6983720992971129, -50)%Z, [38431; 38538]%N);
   ((-1683552553694191, -48)%Z, [38498]%N);
   ((-4655339179661475, -49)%Z, [38593]%N);
   ((-3654838949682993, -49)%Z, [38622; 40481]%N);
   ((-6907110414633597, -50)%Z, [38632]%N);
   ((-7824462068265779, -50)%Z, [38654; 38695]%N);
   ((-4991449210403841, -49)%Z, [38665; 40692]%N);
   ((-8477960876909483, -50)%Z, [38684]%N);
   ((-4881975742401017, -49)%Z, [38686]%N);
   ((-4571115233953395, -49)%Z, [38712]%N);
   ((-5606887631045243, -50)%Z, [38754]%N);
   ((-7970479652043947, -50)%Z, [38795; 40786; 40831]%N);
   ((-8690383322715359, -50)%Z, [38829]%N);
   ((-7376358792488131, -50)%Z, [38899]%N);
   ((-4283266662520471, -49)%Z, [38901; 38907]%N);
   ((-3899801485702049, -49)%Z, [38988; 39064]%N);
   ((-7397514110413679, -50)%Z, [38989; 39069]%N);
   ((-3005678230205513, -49)%Z, [39080; 39118]%N);
   ((-3299721421803427, -49)%Z, [39151; 39277]%N);
   ((-5208989372008363, -50)%Z, [39340; 39532]%N);
   ((-3462646161725173, -49)%Z, [39740]%N);
   ((-6468129400921711, -50)%Z, [39770; 40060]%N);
   ((-8262919140134097, -50)%Z, [39791; 40065]%N);
   ((-558211304424923, -46)%Z, [39955; 40131]%N);
   ((-5652766777958305, -49)%Z, [39998; 40148]%N);
   ((-1237907018065385, -47)%Z, [40009; 40150]%N);
   ((-8253998550912843, -50)%Z, [40023; 40158]%N);
   ((-7141304892894411, -50)%Z, [40165; 40479]%N);
   ((-4589574263184291, -49)%Z, [40372; 40548]%N);
   ((-8597102621100981, -50)%Z, [40441; 40560]%N);
   ((-3913967195735421, -49)%Z, [40575]%N);
   ((-8295368069196371, -50)%Z, [40635]%N);
   ((-3211859778752811, -48)%Z, [40723]%N);
   ((-791611656353329, -47)%Z, [40845; 40857]%N)];
  (* ('S', 'ng') *)
  [
   ((-2927993789549463, -48)%Z, [19969; 20052; 21932; 23637; 24187; 29141; 33485; 33980; 35140]%N);
   ((-2647802450045353, -49)%Z, [19990; 27665]%N);
   ((-2833285274582725, -48)%Z, [19992; 21746; 26690; 26999; 29967]%N);
   ((-5772030265530363, -50)%Z, [19994; 26989]%N);
   ((-170228793026803, -44)%Z, [19995; 21474]%N);
   ((-2429983881254979, -48)%Z, [20007; 21930; 35977]%N);
   ((-2706062772403585, -48)%Z, [20011; 22616; 30757]%N);
   ((-8198159299485927, -50)%Z, [20024; 37231]%N);
   ((-4879493995763633, -49)%Z, [20025]%N);
   ((-2909932341925287, -49)%Z, [20041; 32681]%N);
   ((-3690242156835995, -48)%Z, [20064; 20940; 21688; 22362; 22533; 23777; 23805; 24069; 24101; 29287; 31377; 31407;
     31499; 31565; 32722; 32993; 36031; 36152; 40860; 40863]%N);
   ((-1891077436207369, -48)%Z, [20083]%N);
   ((-2423658334677399, -48)%Z, [20094; 37470; 38074]%N);
   ((-792901133735011, -47)%Z, [20141]%N);
   ((-472182460368873, -46)%Z, [20161]%N);
   ((-897144317099517, -47)%Z, [20166; 20693]%N);
   ((-1289032961585081, -47)%Z, [20171; 39730]%N);
   ((-787353725807597, -47)%Z, [20179; 20489]%N);
   ((-2106207634923527, -48)%Z, [20180]%N);
   ((-3073554319797575, -49)%Z, [20185]%N);
   ((-7130016958957975, -50)%Z, [20202; 20736]%N);
   ((-5628087329635283, -50)%Z, [20225]%N);
   ((-8889472943661755, -50)%Z, [20238; 26679; 27171]%N);
   ((-5063947193538653, -50)%Z, [20247; 30526]%N);
   ((-2589105572491557, -48)%Z, [20262; 20523; 24917; 27183; 27299; 33176; 38060]%N);
   ((-2197494531350559, -48)%Z, [20271; 28340; 39663]%N);
   ((-5614989464886515, -50)%Z, [20307; 39636]%N);
   ((-8933142125635633, -50)%Z, [20323; 20653; 22496; 23039; 23156; 23344; 36527; 36544]%N);
   ((-8046575199915375, -50)%Z, [20332; 31192]%N);
   ((-1333176338622003, -47)%Z, [20384; 20448; 30405; 32660; 34092; 39315]%N);
   ((-4381156672617377, -49)%Z, [20392; 20689]%N);
   ((-1186169689362485, -47)%Z, [20399; 21484]%N);
   ((-4276699857826691, -49)%Z, [20433; 26623]%N);
   ((-4866401546291533, -49)%Z, [20467; 21361; 30418]%N);
   ((-4184756025100805, -49)%Z, [20525; 33502]%N);
   ((-5276363376155115, -49)%Z, [20607; 20767; 22489; 22628; 24331; 38333; 38413]%N);
   ((-5124556283701693, -49)%Z, [20625; 26480; 30410; 38552; 40251; 40511]%N);
   ((-2909827810815325, -48)%Z, [20711; 21947; 26092; 29854; 33222; 37466; 38086]%N);
   ((-4265462958730855, -49)%Z, [20754; 24188; 34121]%N);
   ((-5379001288059973, -49)%Z, [20799; 20818]%N);
   ((-6190795978755653, -50)%Z, [20804]%N);
   ((-6285034285899243, -49)%Z, [20806; 23731; 26525; 27627; 31049; 31684; 33539]%N);
   ((-1921941270563313, -48)%Z, [20820]%N);
   ((-5636223949739797, -50)%Z, [20844]%N);
   ((-6084244142822385, -49)%Z, [20848; 20917; 23614; 23792; 24868; 24996; 27841; 34349]%N);
   ((-1790305431265827, -48)%Z, [20856]%N);
   ((-7227749930499729, -50)%Z, [20861; 24245; 29560]%N);
   ((-1228405655947845, -47)%Z, [20885; 24577; 24907; 26586; 29626; 29885]%N);
   ((-6493734222109297, -50)%Z, [20892; 36786]%N);
   ((-7843230594258127, -50)%Z, [20898; 22618; 34746]%N);
   ((-4143863800054121, -49)%Z, [20901]%N);
   ((-4173305800806913, -49)%Z, [20964; 40179]%N);
   ((-723190874200363, -46)%Z, [20975; 20977; 22603; 23663; 26624; 26772; 33556; 35628; 35884; 37541; 38129]%N);
   ((-4676060890304401, -49)%Z, [20976; 29312]%N);
   ((-2084770117619493, -48)%Z, [20979; 30097]%N);
   ((-4124480196682453, -49)%Z, [20995]%N);
   ((-2052870928562055, -48)%Z, [21002; 28149; 28170; 28891; 29165]%N);
   ((-7212469129655541, -50)%Z, [21048]%N);
   ((-6967874322611739, -50)%Z, [21058; 21137; 23395]%N);
   ((-4972935321173399, -49)%Z, [21153; 21209; 27264; 30072; 31705]%N);
   ((-825008745956415, -46)%Z, [21155; 21414; 24264; 26517; 26564; 33251; 33897; 34562; 37499; 38124]%N);
   ((-2731989443396731, -49)%Z, [21183; 21218]%N);
   ((-8032195695306605, -50)%Z, [21195; 21235]%N);
   ((-2583531628434555, -48)%Z, [21242; 29380; 40386; 40542]%N);
   ((-3834491128551229, -49)%Z, [21280]%N);
   ((-3933827271733549, -49)%Z, [21290]%N);
   ((-2364627253103475, -48)%Z, [21307; 37291]%N);
   ((-5429448448620315, -49)%Z, [21321; 24043; 33589; 33789]%N);
   ((-5479561507914621, -50)%Z, [21330]%N);
   ((-556361123947239, -46)%Z, [21338]%N);
   ((-4906629366736817, -49)%Z, [21340; 29924; 30778; 31018]%N);
   ((-2187858750159827, -48)%Z, [21375; 26613; 26629; 30450; 33559]%N);
   ((-2411418363806901, -48)%Z, [21397; 24257; 39683]%N);
   ((-576347660080413, -46)%Z, [21410; 22435; 24258]%N);
   ((-8735312053428337, -50)%Z, [21416; 24282; 32961; 33029; 40801; 40836]%N);
   ((-7960246410611019, -50)%Z, [21451]%N);
   ((-5196277713768793, -50)%Z, [21490]%N);
   ((-1535889210051101, -47)%Z, [21494; 24687; 26708; 28330; 33865]%N);
   ((-5899089727592513, -50)%Z, [21496]%N);
   ((-1841492579687535, -48)%Z, [21519]%N);
   ((-5981606230917527, -49)%Z, [21531; 22771; 26982; 27580; 33120]%N);
   ((-6676071449287107, -50)%Z, [21619]%N);
   ((-4799377085116161, -49)%Z, [21646; 39171; 39290]%N);
   ((-835153039783365, -47)%Z, [21736]%N);
   ((-7334779961120545, -50)%Z, [21767; 35565; 35861; 40718]%N);
   ((-7860271566803047, -50)%Z, [21897]%N);
   ((-2149934896409911, -48)%Z, [21913; 33216]%N);
   ((-698924882238399, -46)%Z, [21971; 26230; 30899]%N);
   ((-3803291995183341, -49)%Z, [21987]%N);
   ((-593739442370737, -46)%Z, [22122]%N);
   ((-843806296027679, -47)%Z, [22218]%N);
   ((-1662873264289871, -48)%Z, [22253; 22290]%N);
   ((-8590317774115173, -50)%Z, [22275]%N);
   ((-6209862794640985, -49)%Z, [22329; 22745; 22996; 27583; 29790; 33108; 33285; 39525; 39589]%N);
   ((-517313853538733, -46)%Z, [22336]%N);
   ((-1910093365189887, -48)%Z, [22346]%N);
   ((-1962625577230709, -48)%Z, [22350; 22919; 23142; 33738]%N);
   ((-8064076587128823, -50)%Z, [22363; 22727; 24237]%N);
   ((-8309449815495093, -50)%Z, [22366; 22626; 35686]%N);
   ((-2968273096180497, -48)%Z, [22378; 22495; 22530; 23466; 24551; 24962; 25010]%N);
   ((-1154765026407835, -47)%Z, [22404; 22751; 26544; 26575]%N);
   ((-3185906701963931, -48)%Z, [22432; 22904; 23014; 27010; 30490; 31548; 31840]%N);
   ((-4495949030134445, -49)%Z, [22434]%N);
   ((-2847018484906025, -48)%Z, [22456; 30054]%N);
   ((-4512957875388025, -49)%Z, [22466; 31567]%N);
   ((-5501383694606505, -50)%Z, [22522]%N);
   ((-3697400028244445, -49)%Z, [22561]%N);
   ((-8877300934227135, -50)%Z, [22576; 32752; 33046]%N);
   ((-8517653859178621, -50)%Z, [22609; 38772]%N);
   ((-8580974152799203, -50)%Z, [22636; 25000]%N);
   ((-3662032156740311, -49)%Z, [22645; 23576]%N);
   ((-2796091569392655, -49)%Z, [22659]%N);
   ((-8939521178999247, -50)%Z, [22674; 37934; 38256]%N);
   ((-8078871805375057, -50)%Z, [22687; 32222; 32526]%N);
   ((-6030589281540963, -49)%Z, [22697; 33037; 33214; 33580; 37194]%N);
   ((-836667523911443, -47)%Z, [22721]%N);
   ((-8978573645506597, -50)%Z, [22737; 23679; 23996]%N);
   ((-6522519858423945, -50)%Z, [22763]%N);
   ((-4190569673533817, -49)%Z, [22774; 22778]%N);
   ((-8818339824211653, -50)%Z, [22781; 23551; 35465; 35709]%N);
   ((-144608203116425, -44)%Z, [22827; 30555]%N);
   ((-5094658110014991, -49)%Z, [22829; 36637; 36745]%N);
   ((-3495718307774741, -49)%Z, [22839]%N);
   ((-7905313569317819, -50)%Z, [22865]%N);
   ((-3620204263127861, -49)%Z, [22900]%N);
   ((-8535384932821973, -50)%Z, [22918; 22941; 31487]%N);
   ((-4841096164588247, -49)%Z, [22942; 28079]%N);
   ((-1745881900561587, -48)%Z, [22971]%N);
   ((-7372313433594293, -50)%Z, [23041]%N);
   ((-6461409516570825, -50)%Z, [23043]%N);
   ((-7689871537323893, -50)%Z, [23110]%N);
   ((-6686400878681641, -50)%Z, [23130]%N);
   ((-4724205593857903, -49)%Z, [23167; 30518; 33735]%N);
   ((-4188625112175721, -49)%Z, [23186; 24062; 36420]%N);
   ((-4793661808073377, -49)%Z, [23219; 33040; 33229]%N);
   ((-3857730636547405, -49)%Z, [23234]%N);
   ((-8601507962773361, -51)%Z, [23376]%N);
   ((-1224930479670945, -47)%Z, [23381; 37492; 37969]%N);
   ((-6611145708500387, -50)%Z, [23389]%N);
   ((-4216479908107419, -49)%Z, [23396; 26705; 33722; 40367]%N);
   ((-2502556323791117, -48)%Z, [23401; 31657; 31854; 32718; 34137; 34398]%N);
   ((-1851144095846363, -48)%Z, [23429]%N);
   ((-5546339019350659, -49)%Z, [23431; 30883; 31048; 37356; 38030; 38357; 38425]%N);
   ((-5924733798705283, -50)%Z, [23458]%N);
   ((-7140322750883855, -50)%Z, [23467; 23470]%N);
   ((-7882567343031055, -50)%Z, [23476; 30417; 30435]%N);
   ((-2542517399775805, -48)%Z, [23495]%N);
   ((-4537668109606531, -49)%Z, [23517; 23522]%N);
   ((-5656133674211235, -50)%Z, [23528]%N);
   ((-738952682768421, -47)%Z, [23546]%N);
   ((-3090960922439793, -49)%Z, [23608; 23629]%N);
   ((-7616417239829897, -50)%Z, [23631]%N);
   ((-2762546551735305, -48)%Z, [23633; 32701]%N);
   ((-619688883741301, -46)%Z, [23653; 24090; 27197]%N);
   ((-2494397057524819, -48)%Z, [23696; 24005; 24020; 27739; 38701; 38724]%N);
   ((-4423717231997145, -49)%Z, [23721]%N);
   ((-6762020576938197, -49)%Z, [23725; 23994; 26485; 26723; 27284; 33351]%N);
   ((-57683598498017, -43)%Z, [23830]%N);
   ((-3792624234990485, -49)%Z, [24040]%N);
   ((-3908481192401225, -49)%Z, [24055]%N);
   ((-2407194725640587, -49)%Z, [24072; 24107]%N);
   ((-7855376342105321, -50)%Z, [24080; 24115; 24266; 26611]%N);
   ((-7875086253003095, -50)%Z, [24085; 26023; 26700]%N);
   ((-8667996841695137, -50)%Z, [24086; 40055; 40132]%N);
   ((-8767792187709689, -50)%Z, [24088; 27875; 31806; 31957; 37528; 38125]%N);
   ((-4269930838956101, -49)%Z, [24091; 27994]%N);
   ((-162174508066453, -44)%Z, [24092; 24159]%N);
   ((-1869310074580501, -48)%Z, [24093]%N);
   ((-4671465354960321, -49)%Z, [24119; 29923]%N);
   ((-618744322657457, -46)%Z, [24125]%N);
   ((-4598586942039303, -49)%Z, [24161]%N);
   ((-126656300569579, -44)%Z, [24184]%N);
   ((-8231770747915129, -50)%Z, [24189; 38960; 39050; 40306; 40522]%N);
   ((-317223327067391, -45)%Z, [24196; 30457; 33674]%N);
   ((-8445264855708907, -50)%Z, [24208; 24300; 28071; 28567]%N);
   ((-1045707852000205, -47)%Z, [24209; 24289]%N);
   ((-4453990652060065, -49)%Z, [24214]%N);
   ((-721599784210267, -47)%Z, [24220]%N);
   ((-986577510944287, -47)%Z, [24330]%N);
   ((-843007621473649, -47)%Z, [24335]%N);
   ((-4160235065475465, -49)%Z, [24361]%N);
   ((-5119750226433277, -50)%Z, [24418]%N);
   ((-6998260272235193, -50)%Z, [24425]%N);
   ((-5237523842365133, -49)%Z, [24433; 27185; 27387; 27901; 28580; 38404; 39726]%N);
   ((-6467088721080637, -50)%Z, [24441]%N);
   ((-26071715053365, -42)%Z, [24452; 24465]%N);
   ((-2071036907296193, -48)%Z, [24459; 33618]%N);
   ((-316641753957171, -45)%Z, [24509; 30759; 36002; 36129]%N);
   ((-5289929091694115, -49)%Z, [24561; 34946]%N);
   ((-2391201216841231, -48)%Z, [24615; 25615; 27813; 28701]%N);
   ((-616892406721027, -46)%Z, [24646; 24658]%N);
   ((-7770717695337741, -50)%Z, [24681]%N);
   ((-8571707434588131, -50)%Z, [24800]%N);
   ((-2535360852583113, -49)%Z, [24847]%N);
   ((-8040801341585591, -50)%Z, [24935; 25941]%N);
   ((-5504619939878573, -49)%Z, [24936; 33643; 34093; 36562; 36713]%N);
   ((-2552224395382277, -48)%Z, [25022; 26647; 31607]%N);
   ((-2681571247091867, -48)%Z, [25096; 38567]%N);
   ((-4104068899121955, -49)%Z, [25119]%N);
   ((-8773297821696881, -50)%Z, [25216; 26797; 30879]%N);
   ((-6432054783634871, -50)%Z, [25919]%N);
   ((-1924584247509603, -48)%Z, [25928]%N);
   ((-5809498676640639, -50)%Z, [25932; 25973]%N);
   ((-2623806851528043, -49)%Z, [25991]%N);
   ((-6738613058384747, -50)%Z, [25995; 40779]%N);
   ((-1473706778222227, -47)%Z, [26031; 31903; 37784; 38217]%N);
   ((-2813537187092591, -49)%Z, [26063]%N);
   ((-4714241617754219, -49)%Z, [26086; 38348; 38417]%N);
   ((-6389409653500673, -50)%Z, [26088]%N);
   ((-8841499482755911, -52)%Z, [26102; 26178]%N);
   ((-4594580163890343, -49)%Z, [26172; 26205; 32000; 32426; 32774; 36324; 37422; 38092; 38470; 38520]%N);
   ((-1701689274021901, -48)%Z, [26223]%N);
   ((-6448035118460459, -50)%Z, [26234]%N);
   ((-2342683030033961, -48)%Z, [26379; 27465]%N);
   ((-7944275931394979, -50)%Z, [26408; 32736]%N);
   ((-4640306021511389, -49)%Z, [26413; 33007; 39748]%N);
   ((-7920737096904525, -50)%Z, [26415; 32361; 32499; 34899]%N);
   ((-2703106586095501, -49)%Z, [26426; 27231]%N);
   ((-3893344087276891, -49)%Z, [26441]%N);
   ((-2042185923894851, -48)%Z, [26447; 26757]%N);
   ((-8795593597924889, -50)%Z, [26448]%N);
   ((-1925115834025887, -48)%Z, [26454]%N);
   ((-5247372791552687, -50)%Z, [26495]%N);
   ((-8971970108061521, -50)%Z, [26500; 27083]%N);
   ((-5748854183399171, -50)%Z, [26519]%N);
   ((-6070001058560971, -50)%Z, [26524]%N);
   ((-1410095527132657, -47)%Z, [26539; 26963; 31699; 31757; 34326; 34327; 40361; 40540]%N);
   ((-2405492355943261, -48)%Z, [26577; 38607; 38619]%N);
   ((-8001192737795093, -50)%Z, [26588; 27331]%N);
   ((-4571120521392703, -49)%Z, [26632; 26855; 40667]%N);
   ((-4192520975152729, -49)%Z, [26638; 27359; 30165; 37431; 38068]%N);
   ((-4614905474571899, -49)%Z, [26643]%N);
   ((-3321986552018993, -49)%Z, [26657]%N);
   ((-4662385320154179, -49)%Z, [26693; 30201; 30202]%N);
   ((-6028269012139601, -50)%Z, [26696]%N);
   ((-4602622442857389, -49)%Z, [26704; 33276]%N);
   ((-7206963495668349, -50)%Z, [26786]%N);
   ((-1939861832972883, -48)%Z, [26799]%N);
   ((-6925382490851641, -50)%Z, [26825]%N);
   ((-3748303655299529, -49)%Z, [26829]%N);
   ((-1901156901071197, -48)%Z, [26837; 33181]%N);
   ((-7912998922754693, -50)%Z, [26840]%N);
   ((-4056061136373677, -49)%Z, [26865; 30690]%N);
   ((-3348412976150667, -49)%Z, [26874]%N);
   ((-8102956144182275, -50)%Z, [26885]%N);
   ((-8109058597641085, -50)%Z, [26898]%N);
   ((-5201191884896857, -49)%Z, [26928; 33795; 38582; 38584]%N);
   ((-4965170371121475, -49)%Z, [26941]%N);
   ((-2742432641512663, -48)%Z, [26987]%N);
   ((-8678094666393229, -50)%Z, [27014; 40288; 40516]%N);
   ((-2807678995430941, -48)%Z, [27029; 28201; 28331; 29422; 29509; 40736]%N);
   ((-8576331260006047, -50)%Z, [27084; 27257; 27347]%N);
   ((-5134885930460275, -49)%Z, [27086; 27453; 38054]%N);
   ((-2631558441867033, -48)%Z, [27088; 31255; 35070]%N);
   ((-1721366919979099, -48)%Z, [27133]%N);
   ((-7432746062367417, -50)%Z, [27169]%N);
   ((-8865259109206933, -50)%Z, [27225; 27597]%N);
   ((-5303829796801715, -49)%Z, [27249; 27365; 33218; 38686]%N);
   ((-404653207239545, -45)%Z, [27265; 27305; 28059; 28644; 30244; 33465; 34966; 35961; 37697; 38184; 39945; 40135]%N);
   ((-8181722512577637, -50)%Z, [27280; 31799; 32365; 33575]%N);
   ((-4739490241887923, -49)%Z, [27494; 35516; 35850]%N);
   ((-4126215020716147, -49)%Z, [27617; 27656]%N);
   ((-6199179486639793, -50)%Z, [27663]%N);
   ((-7807560243259493, -50)%Z, [27713]%N);
   ((-3854504553486909, -49)%Z, [27744]%N);
   ((-8778830510505159, -50)%Z, [27745; 36953; 36965; 38533]%N);
   ((-4499309935361415, -49)%Z, [27836]%N);
   ((-4653449418986005, -49)%Z, [27849; 40198; 40489]%N);
   ((-3644778509241877, -49)%Z, [27850]%N);
   ((-5013452799434911, -49)%Z, [27946; 36115; 36163; 37337; 38027; 40442; 40557]%N);
   ((-7662790308002979, -50)%Z, [27954]%N);
   ((-1006184158846719, -47)%Z, [28037]%N);
   ((-4996894254128089, -49)%Z, [28053; 35059; 36659; 36751]%N);
   ((-4892898199336693, -49)%Z, [28068; 28364; 31515; 33334; 35616; 35875; 38950; 39055]%N);
   ((-6583975762074505, -50)%Z, [28082]%N);
   ((-5465780406088591, -49)%Z, [28180; 28417]%N);
   ((-5796870154123395, -50)%Z, [28304]%N);
   ((-971623171204089, -47)%Z, [28392; 28657; 34809]%N);
   ((-7579499181368105, -50)%Z, [28393; 28760]%N);
   ((-1177331248255653, -47)%Z, [28577; 39336]%N);
   ((-2328949819710661, -48)%Z, [28689]%N);
   ((-6990277140661655, -49)%Z, [28809; 28966; 29200; 29282; 31232; 31726; 31811; 32173; 32500; 33391; 33733; 34174;
     38774; 38829]%N);
   ((-7505521845743313, -50)%Z, [28814]%N);
   ((-7391560054521057, -50)%Z, [29226]%N);
   ((-487826370303467, -46)%Z, [29237]%N);
   ((-6291498907592283, -50)%Z, [29238]%N);
   ((-6050661188034335, -50)%Z, [29239; 29242]%N);
   ((-4861950891164631, -50)%Z, [29289]%N);
   ((-4942498181477677, -49)%Z, [29322; 29346]%N);
   ((-7545606658491817, -50)%Z, [29356]%N);
   ((-5092552227537465, -50)%Z, [29366; 29376]%N);
   ((-4920703848648829, -49)%Z, [29392; 32172; 32502]%N);
   ((-3818172596018633, -49)%Z, [29425; 29508]%N);
   ((-2059653786331555, -48)%Z, [29454; 29557]%N);
   ((-7141617633035603, -50)%Z, [29492]%N);
   ((-3916803729774531, -49)%Z, [29503]%N);
   ((-4140289502628159, -49)%Z, [29645]%N);
   ((-408978122966247, -46)%Z, [29664]%N);
   ((-5568418317993449, -49)%Z, [29756; 29898]%N);
   ((-4457109496344463, -49)%Z, [29791]%N);
   ((-7260386995564921, -50)%Z, [29943]%N);
   ((-8006766511093399, -50)%Z, [30036]%N);
   ((-7757206734322541, -50)%Z, [30044]%N);
   ((-4699618718893407, -49)%Z, [30123; 31077]%N);
   ((-7378692486957907, -50)%Z, [30142]%N);
   ((-872800283114305, -47)%Z, [30151]%N);
   ((-5021918371796835, -49)%Z, [30294; 30956]%N);
   ((-2950404986123125, -49)%Z, [30343]%N);
   ((-5030513194521723, -49)%Z, [30431; 31755]%N);
   ((-5564389709119561, -50)%Z, [30446]%N);
   ((-4544932080757881, -49)%Z, [30697; 33099; 39699; 39714]%N);
   ((-5337874335688491, -50)%Z, [30707]%N);
   ((-4509514745673445, -49)%Z, [30746; 30831]%N);
   ((-1061984452389435, -47)%Z, [30784; 30990]%N);
   ((-7328644251620415, -50)%Z, [30887]%N);
   ((-6856936562838129, -50)%Z, [30913]%N);
   ((-2414428820061951, -48)%Z, [30928]%N);
   ((-4559747408249321, -49)%Z, [31062]%N);
   ((-8035056941844807, -50)%Z, [31072]%N);
   ((-8985216142099995, -50)%Z, [31103; 31108]%N);
   ((-7267608956868405, -50)%Z, [31109; 31146]%N);
   ((-8327877393897337, -50)%Z, [31165; 37484; 38076]%N);
   ((-1022307969393173, -47)%Z, [31166]%N);
   ((-4523415450781045, -49)%Z, [31174; 31240]%N);
   ((-4136737756124683, -49)%Z, [31209]%N);
   ((-7624346145181809, -50)%Z, [31291]%N);
   ((-1809043290277525, -48)%Z, [31295]%N);
   ((-7201484653193415, -50)%Z, [31348]%N);
   ((-4316675517034423, -49)%Z, [31373; 31429]%N);
   ((-3643302885976475, -49)%Z, [31383]%N);
   ((-446513242100003, -46)%Z, [31391; 36012; 36131]%N);
   ((-6489370263518633, -50)%Z, [31481]%N);
   ((-4073192332385405, -49)%Z, [31570]%N);
   ((-1688070647448081, -48)%Z, [31574]%N);
   ((-566758871633057, -46)%Z, [31659; 31787; 34638; 34829]%N);
   ((-4074775877602347, -49)%Z, [31686]%N);
   ((-4414943808397211, -49)%Z, [31751]%N);
   ((-7865188168095629, -50)%Z, [31807]%N);
   ((-5225150817851547, -49)%Z, [31809; 31839; 32034]%N);
   ((-3624463677799223, -49)%Z, [31821]%N);
   ((-4623245626424577, -49)%Z, [31869; 32403; 32552; 37195]%N);
   ((-5753349667194069, -49)%Z, [31929; 34218]%N);
   ((-4344141937681023, -49)%Z, [31983]%N);
   ((-6704708597616391, -50)%Z, [32011; 32441]%N);
   ((-1143740799527785, -47)%Z, [32032]%N);
   ((-8291318990416033, -50)%Z, [32156; 32508]%N);
   ((-2131621122987835, -48)%Z, [32162; 32504]%N);
   ((-4649034102599645, -49)%Z, [32210; 32490]%N);
   ((-7424387450058655, -50)%Z, [32239; 32428]%N);
   ((-4776856083858775, -49)%Z, [32318; 32489]%N);
   ((-4220574107632969, -49)%Z, [32406; 32420]%N);
   ((-4590601702431283, -49)%Z, [32560; 34678; 38849]%N);
   ((-129892363778651, -44)%Z, [32573; 36628; 36741; 38069]%N);
   ((-3765432357121051, -49)%Z, [32626]%N);
   ((-2206024728893965, -48)%Z, [32697]%N);
   ((-483715042918591, -46)%Z, [32705]%N);
   ((-6835015695230555, -50)%Z, [32709]%N);
   ((-6886500142076635, -50)%Z, [32764]%N);
   ((-352626448395107, -46)%Z, [32844; 32887]%N);
   ((-5347718242940743, -49)%Z, [32902]%N);
   ((-7095915308441589, -50)%Z, [32908]%N);
   ((-1063067053791999, -47)%Z, [32920]%N);
   ((-3914413280520605, -49)%Z, [32922]%N);
   ((-1027697692368289, -47)%Z, [32930]%N);
   ((-8729988639696283, -50)%Z, [32932; 33178]%N);
   ((-1068044536785961, -47)%Z, [32957]%N);
   ((-2367174555345679, -48)%Z, [33003; 33051; 39995; 40151]%N);
   ((-9005382052652717, -50)%Z, [33008; 34527; 36951; 36986]%N);
   ((-6670942055873789, -50)%Z, [33016]%N);
   ((-6289065843637673, -50)%Z, [33032; 33033]%N);
   ((-7489526155767929, -50)%Z, [33034]%N);
   ((-8255910414858521, -50)%Z, [33098; 33240]%N);
   ((-546627186920915, -46)%Z, [33109]%N);
   ((-6730490298374693, -50)%Z, [33145]%N);
   ((-8099917276192129, -50)%Z, [33179]%N);
   ((-3823221508367679, -49)%Z, [33203]%N);
   ((-6929667557515345, -50)%Z, [33322]%N);
   ((-6195818588899831, -50)%Z, [33328; 33382]%N);
   ((-572354035648257, -46)%Z, [33335; 36524]%N);
   ((-5482229167228051, -50)%Z, [33394]%N);
   ((-8096886588206465, -50)%Z, [33402; 34269]%N);
   ((-2040577491079807, -48)%Z, [33426; 40595]%N);
   ((-7737239513157951, -50)%Z, [33455]%N);
   ((-5057114203847361, -49)%Z, [33459]%N);
   ((-2333453515418513, -48)%Z, [33479; 33894; 34071; 37750; 38198]%N);
   ((-8224967706632047, -50)%Z, [33489]%N);
   ((-1881802297963211, -48)%Z, [33492]%N);
   ((-1087320767219397, -47)%Z, [33636; 33911]%N);
   ((-6813513480998603, -50)%Z, [33655]%N);
   ((-6840951912357237, -50)%Z, [33714; 34030]%N);
   ((-8075897167166969, -50)%Z, [33777]%N);
   ((-589900195165425, -46)%Z, [34122]%N);
   ((-7717620238103123, -50)%Z, [34281]%N);
   ((-7459918419633853, -50)%Z, [34299]%N);
   ((-3574709178217821, -49)%Z, [34383; 34396]%N);
   ((-8118274746564409, -50)%Z, [34433; 34811]%N);
   ((-8623644940278797, -50)%Z, [34442]%N);
   ((-7895147361133609, -50)%Z, [34521]%N);
   ((-1208735911210303, -47)%Z, [34532; 38000; 38053]%N);
   ((-4202380245601239, -49)%Z, [34631; 34821]%N);
   ((-6160037775817127, -50)%Z, [34915]%N);
   ((-8165522234420735, -50)%Z, [34923; 37428; 38083]%N);
   ((-7475496068837851, -50)%Z, [34957]%N);
   ((-4755201492858477, -49)%Z, [34972; 35178; 38649]%N);
   ((-1965681795928219, -48)%Z, [35033]%N);
   ((-4070038542885227, -49)%Z, [35044; 35122]%N);
   ((-8072930367276813, -50)%Z, [35074]%N);
   ((-4479439050583027, -49)%Z, [35088]%N);
   ((-8628487527988643, -50)%Z, [35126]%N);
   ((-7396423560601259, -50)%Z, [35215; 35268]%N);
   ((-5318082455627201, -49)%Z, [35290]%N);
   ((-729601754349207, -47)%Z, [35338; 35759]%N);
   ((-4278974406187351, -49)%Z, [35363; 35776]%N);
   ((-3260886248512277, -49)%Z, [35412; 35791]%N);
   ((-3097350257707429, -49)%Z, [35486; 35821]%N);
   ((-4644653147000273, -49)%Z, [35582; 35834; 36779; 36782; 37365; 38039]%N);
   ((-4162083835457007, -49)%Z, [35594; 35854]%N);
   ((-4586651160229967, -49)%Z, [35676; 35889; 37485; 38077]%N);
   ((-6314257560961755, -50)%Z, [35895]%N);
   ((-8812610041327275, -50)%Z, [35937]%N);
   ((-1950722113177671, -48)%Z, [35980]%N);
   ((-5213043900624137, -49)%Z, [36034; 36162; 39715]%N);
   ((-4788003971972779, -49)%Z, [36036; 36159; 37507; 38131]%N);
   ((-3202395976336315, -49)%Z, [36039; 36164]%N);
   ((-7112205741533627, -50)%Z, [36066; 36132; 39764]%N);
   ((-1388634257213035, -48)%Z, [36074; 36136]%N);
   ((-8883370490202945, -50)%Z, [36259; 39423; 39567]%N);
   ((-4198415792925283, -49)%Z, [36299]%N);
   ((-1955423265909903, -48)%Z, [36321; 36857]%N);
   ((-8331599380450011, -50)%Z, [36394; 38592]%N);
   ((-4839091772643789, -50)%Z, [36523]%N);
   ((-3989584771778863, -49)%Z, [36556; 36712]%N);
   ((-572841018520383, -46)%Z, [36667; 36752; 38991; 39068]%N);
   ((-3541156418846103, -49)%Z, [36686; 36735; 38968; 39048]%N);
   ((-2016755029493405, -48)%Z, [36784]%N);
   ((-8653017908035777, -50)%Z, [36785]%N);
   ((-1056174575390391, -47)%Z, [36870]%N);
   ((-7809903428094503, -50)%Z, [36884]%N);
   ((-6402773607512741, -50)%Z, [36895]%N);
   ((-1885475759259393, -48)%Z, [37009]%N);
   ((-1722141977770447, -48)%Z, [37030]%N);
   ((-8756861034788591, -50)%Z, [37066]%N);
   ((-3406272898653083, -49)%Z, [37070]%N);
   ((-262277749201227, -45)%Z, [37228; 39138; 39269]%N);
   ((-7728477601959205, -50)%Z, [37322; 37323]%N);
   ((-5242565355099089, -50)%Z, [37329]%N);
   ((-1157927799696625, -47)%Z, [37367; 38029]%N);
   ((-3790706175372033, -49)%Z, [37396; 38046]%N);
   ((-5130121283361621, -50)%Z, [37504; 38134]%N);
   ((-8204801796079325, -50)%Z, [37563; 38161]%N);
   ((-5048106812431657, -49)%Z, [37586; 38155]%N);
   ((-8136936498219903, -50)%Z, [37656; 38180; 39912; 40120]%N);
   ((-3677477568731079, -49)%Z, [37670; 38182]%N);
   ((-5722912527498347, -49)%Z, [37804; 38224; 40182; 40482]%N);
   ((-2258211096863241, -48)%Z, [37827; 38238; 40346; 40535]%N);
   ((-3538703473991607, -49)%Z, [37832; 38142]%N);
   ((-3409182207213061, -49)%Z, [37857; 38236]%N);
   ((-6858950695587863, -50)%Z, [38307; 38401]%N);
   ((-3720583596462821, -49)%Z, [38451; 38525]%N);
   ((-6452944063856307, -50)%Z, [38453; 38499]%N);
   ((-6773570275197601, -50)%Z, [38454; 38542]%N);
   ((-7406214056265959, -50)%Z, [38469; 38555]%N);
   ((-6860968437896425, -50)%Z, [38517]%N);
   ((-4092495364703061, -49)%Z, [38553]%N);
   ((-4392195260672127, -49)%Z, [38556; 40853; 40859]%N);
   ((-7840817088710475, -50)%Z, [38596]%N);
   ((-8740660756631689, -50)%Z, [38601]%N);
   ((-125062127739431, -44)%Z, [38797]%N);
   ((-8026494924105413, -50)%Z, [38971; 39057]%N);
   ((-1120675634428349, -47)%Z, [39025; 39045]%N);
   ((-4635992207656197, -49)%Z, [39180; 39285]%N);
   ((-8188268460707499, -50)%Z, [39184]%N);
   ((-2303343540558877, -48)%Z, [39201; 39301]%N);
   ((-6703830017855193, -50)%Z, [39208; 39302]%N);
   ((-4872909710723731, -49)%Z, [39378; 39545; 40607]%N);
   ((-4319117820012277, -49)%Z, [39486; 39585]%N);
   ((-2912944387384935, -49)%Z, [39592]%N);
   ((-4210393903390109, -49)%Z, [39881; 40100]%N);
   ((-7283662241108153, -50)%Z, [40232; 40493]%N);
   ((-4760537551326179, -49)%Z, [40255; 40509]%N);
   ((-2402575490703773, -48)%Z, [40407; 40485]%N);
   ((-3466446047029399, -49)%Z, [40613; 40614]%N);
   ((-4690076965830157, -49)%Z, [40653]%N);
   ((-6701198384619279, -50)%Z, [40763]%N)];
  (* ('S', 'nr') *)
  [
   ((-5369823102823677, -50)%Z, [19969]%N);
   ((-6833678988704045, -50)%Z, [19992]%N);
   ((-3430671884435763, -49)%Z, [19995; 21474]%N);
   ((-488574066557297, -46)%Z, [20016; 26690; 33391; 35920]%N);
   ((-3114437160796053, -49)%Z, [20025]%N);
   ((-7317856896318443, -50)%Z, [20029; 40599]%N);
   ((-4920281514102067, -50)%Z, [20040; 40636]%N);
   ((-2950692763628987, -49)%Z, [20041; 32681]%N);
   ((-7232919336557595, -50)%Z, [20052; 21932; 35895]%N);
   ((-4638933895369117, -49)%Z, [20060; 33564]%N);
   ((-3403187154208485, -48)%Z, [20064; 20167; 30259; 30683; 31526; 32722; 37079; 38686; 38867; 38889; 39791;
     40065]%N);
   ((-8797650631836757, -50)%Z, [20115]%N);
   ((-8017236285816087, -50)%Z, [20130; 31964; 38485; 38493]%N);
   ((-6757093558807779, -50)%Z, [20136]%N);
   ((-148706104663531, -44)%Z, [20169; 24041; 38799]%N);
   ((-7699214453484251, -50)%Z, [20171]%N);
   ((-2337627629356089, -49)%Z, [20179; 20489]%N);
   ((-4930509934623553, -49)%Z, [20189]%N);
   ((-3793546021459149, -49)%Z, [20210]%N);
   ((-5710924280644223, -49)%Z, [20213; 20993; 23395; 33503]%N);
   ((-5635752789385965, -49)%Z, [20233; 37084; 38366; 38426; 39498; 39557]%N);
   ((-4729719791546695, -49)%Z, [20237]%N);
   ((-6995006447682687, -50)%Z, [20255; 20553]%N);
   ((-901700835781837, -47)%Z, [20262; 20523]%N);
   ((-6097860567574703, -50)%Z, [20271]%N);
   ((-2475491549107795, -48)%Z, [20312]%N);
   ((-1943067855320271, -48)%Z, [20319; 34913]%N);
   ((-3007160435504895, -49)%Z, [20365]%N);
   ((-2136603332049889, -48)%Z, [20384; 20448; 31921; 34174; 39409; 39558]%N);
   ((-6187910571683177, -49)%Z, [20392; 20689; 29641; 34028; 36123; 36195]%N);
   ((-1504903251806213, -48)%Z, [20399]%N);
   ((-800837419423991, -47)%Z, [20426]%N);
   ((-4715819086439095, -49)%Z, [20430; 24365]%N);
   ((-4279496673151055, -49)%Z, [20446]%N);
   ((-7076747696122007, -50)%Z, [20472]%N);
   ((-5179239661939049, -49)%Z, [20521; 20616; 21593; 26990; 39525; 39589]%N);
   ((-8251017427276775, -50)%Z, [20522; 34044; 37944; 38094]%N);
   ((-1576210898499085, -48)%Z, [20581]%N);
   ((-1795844842484993, -48)%Z, [20613]%N);
   ((-1765815925934545, -48)%Z, [20625; 26480; 29788]%N);
   ((-2302050569864047, -48)%Z, [20848; 25160; 26103; 26336; 31530; 34349]%N);
   ((-4332519361481797, -49)%Z, [20864; 29734]%N);
   ((-8098271242339113, -50)%Z, [20873]%N);
   ((-451090175343225, -46)%Z, [20911; 39342]%N);
   ((-7470603081256105, -50)%Z, [20917; 27841; 37492; 37969]%N);
   ((-166272409613559, -44)%Z, [20924; 24249; 40477; 40514]%N);
   ((-1001180569982759, -47)%Z, [20940; 37555; 38160]%N);
   ((-7592440746121649, -50)%Z, [20964; 24043; 40179]%N);
   ((-7125255501739327, -50)%Z, [20975; 20977]%N);
   ((-4607423539634415, -50)%Z, [21016; 21129]%N);
   ((-1218302842900669, -47)%Z, [21169; 21237; 31616; 31777]%N);
   ((-2898851699336421, -48)%Z, [21191; 21355; 26607; 28558; 32166; 34907; 35203; 36846]%N);
   ((-4702253370900095, -49)%Z, [21281]%N);
   ((-462258517736103, -46)%Z, [21331]%N);
   ((-2971364954959855, -49)%Z, [21338]%N);
   ((-1638060831398377, -48)%Z, [21340]%N);
   ((-572752730135663, -46)%Z, [21342; 38660]%N);
   ((-3826508603893511, -49)%Z, [21346; 23462; 26726; 27194; 30439; 33931; 34083]%N);
   ((-7765998982178887, -50)%Z, [21361; 26420; 27192]%N);
   ((-6208302141689193, -50)%Z, [21375]%N);
   ((-8213168488309833, -50)%Z, [21385; 21426; 32735]%N);
   ((-2941808571563877, -49)%Z, [21484]%N);
   ((-2207342054897309, -48)%Z, [21494; 27146; 33865]%N);
   ((-6214592101662017, -50)%Z, [21525; 21570]%N);
   ((-7736079193021149, -51)%Z, [21555; 21556]%N);
   ((-7818393319100895, -51)%Z, [21608; 36913]%N);
   ((-2215501321163607, -48)%Z, [21688]%N);
   ((-7581768629186243, -50)%Z, [21746]%N);
   ((-1280840406949337, -48)%Z, [21776]%N);
   ((-3612577239418733, -49)%Z, [21895]%N);
   ((-8405492157207511, -50)%Z, [21947; 29756; 29898]%N);
   ((-229884888119561, -45)%Z, [22362; 22533]%N);
   ((-7442097763605133, -50)%Z, [22575; 23591]%N);
   ((-3481951131118657, -49)%Z, [22781; 23551]%N);
   ((-7747388642651845, -50)%Z, [22797; 23506]%N);
   ((-243080593758795, -45)%Z, [22804]%N);
   ((-2046398512791003, -48)%Z, [22855]%N);
   ((-8351611067421753, -50)%Z, [22862; 26575]%N);
   ((-7658689259616043, -50)%Z, [22874]%N);
   ((-3921839024879425, -49)%Z, [22925; 27427]%N);
   ((-633284012909451, -46)%Z, [22989; 22999; 24701; 24818; 28904; 29121]%N);
   ((-4079339413730985, -49)%Z, [23002]%N);
   ((-3704864400932331, -49)%Z, [23020]%N);
   ((-6341306145257889, -50)%Z, [23041]%N);
   ((-1153868563217869, -47)%Z, [23044; 23105; 26999; 27571; 34204; 37397; 38062]%N);
   ((-3843743111702169, -49)%Z, [23380; 34015; 34186]%N);
   ((-2376294980868105, -49)%Z, [23385; 23403]%N);
   ((-3818085255417107, -49)%Z, [23431]%N);
   ((-4567653341271463, -50)%Z, [23435]%N);
   ((-1772598783704045, -48)%Z, [23439; 37048]%N);
   ((-4101950885049381, -49)%Z, [23443; 33446; 34310; 38287; 38384]%N);
   ((-134751443684055, -44)%Z, [23451]%N);
   ((-6640768266798423, -50)%Z, [23459]%N);
   ((-2016288537931367, -48)%Z, [23466; 25010]%N);
   ((-5166037550451715, -50)%Z, [23467; 23470]%N);
   ((-4292291541036513, -49)%Z, [23476]%N);
   ((-1506489990599075, -47)%Z, [23486; 27605; 30050; 33929; 34146; 36051; 37044]%N);
   ((-3642369902852399, -49)%Z, [23495]%N);
   ((-2255462397148295, -48)%Z, [23525; 33729]%N);
   ((-7107690404348481, -50)%Z, [23561; 23828]%N);
   ((-1193250551672955, -48)%Z, [23572; 29246]%N);
   ((-7202176132169127, -50)%Z, [23609]%N);
   ((-4651040812596527, -49)%Z, [23697; 37351; 38031]%N);
   ((-2270151380806609, -48)%Z, [23706; 23888]%N);
   ((-666649166261309, -47)%Z, [23721]%N);
   ((-1254322263163043, -47)%Z, [23781; 23842; 32703]%N);
   ((-1517099021204147, -48)%Z, [23792; 35582; 35834]%N);
   ((-6652339796268493, -50)%Z, [23815]%N);
   ((-2622772808187815, -48)%Z, [23879; 37063; 38771]%N);
   ((-3777761343829929, -49)%Z, [24013; 29392]%N);
   ((-8571715514509877, -50)%Z, [24069; 24101; 28134; 29906; 29914; 33485; 33980; 37154]%N);
   ((-7153942401506141, -50)%Z, [24186]%N);
   ((-5762291888042999, -50)%Z, [24196; 33674]%N);
   ((-8497453444717563, -50)%Z, [24218]%N);
   ((-5195626782358971, -50)%Z, [24220]%N);
   ((-8222512109625803, -50)%Z, [24222; 40848]%N);
   ((-1797715114991983, -48)%Z, [24247; 33406]%N);
   ((-8930262540709921, -50)%Z, [24254; 27965]%N);
   ((-3632262809942701, -49)%Z, [24278; 35998; 36126]%N);
   ((-7729080923717095, -50)%Z, [24344; 38605]%N);
   ((-3140587578402025, -49)%Z, [24429]%N);
   ((-5739313541374659, -50)%Z, [24459]%N);
   ((-5793316271167757, -50)%Z, [24460]%N);
   ((-2777366056318235, -49)%Z, [24464]%N);
   ((-5379545314538521, -50)%Z, [24544]%N);
   ((-9002926455646473, -50)%Z, [24571; 37891; 38105]%N);
   ((-374830701774329, -46)%Z, [24646; 24658]%N);
   ((-7711066140885687, -50)%Z, [24661; 26705]%N);
   ((-3033506032544361, -49)%Z, [24681]%N);
   ((-1819152632296017, -48)%Z, [24800; 38451; 38525]%N);
   ((-4627081879641837, -49)%Z, [24910; 29956]%N);
   ((-1900803747532317, -48)%Z, [24917]%N);
   ((-4016491697176263, -49)%Z, [25096; 38945; 39049]%N);
   ((-3486571813312557, -49)%Z, [25102]%N);
   ((-7475424929768757, -50)%Z, [25114]%N);
   ((-2520623992803431, -48)%Z, [25122]%N);
   ((-3087922151485291, -49)%Z, [25215]%N);
   ((-542439077317045, -46)%Z, [25942]%N);
   ((-4040795469316879, -49)%Z, [25958]%N);
   ((-2080119552718169, -48)%Z, [25996; 27811; 28739]%N);
   ((-6069781807953779, -50)%Z, [26031]%N);
   ((-7387164922311933, -50)%Z, [26044; 27784]%N);
   ((-8167579268332603, -50)%Z, [26093]%N);
   ((-4115966960575137, -49)%Z, [26122]%N);
   ((-3840833803142191, -49)%Z, [26124; 36203]%N);
   ((-5407496225662507, -49)%Z, [26141; 26686; 27410; 29865; 33548]%N);
   ((-462540557168485, -46)%Z, [26177]%N);
   ((-8509495269737765, -50)%Z, [26191; 37071; 37087; 37758; 38202]%N);
   ((-8610767981017227, -50)%Z, [26198; 26249]%N);
   ((-3526627819334587, -49)%Z, [26216]%N);
   ((-5188631617821179, -50)%Z, [26222]%N);
   ((-6533249249708191, -50)%Z, [26230]%N);
   ((-6852972727285053, -50)%Z, [26234; 33832; 34217; 40251; 40511]%N);
   ((-7877695740266009, -50)%Z, [26342]%N);
   ((-5510843563899727, -50)%Z, [26361]%N);
   ((-6236887877890025, -50)%Z, [26391]%N);
   ((-1321476586668729, -48)%Z, [26417]%N);
   ((-7512524375789669, -51)%Z, [26446]%N);
   ((-3636283898135089, -49)%Z, [26460]%N);
   ((-4323082304645917, -50)%Z, [26472; 26954]%N);
   ((-4743972450372181, -49)%Z, [26482; 32326; 32554; 33593; 40575]%N);
   ((-8040940317270647, -50)%Z, [26539; 26963]%N);
   ((-4165380236632903, -49)%Z, [26647]%N);
   ((-8878685588359783, -50)%Z, [26688; 29822; 31041; 33484; 33799]%N);
   ((-142853083144181, -44)%Z, [26708; 27872]%N);
   ((-7288826561214805, -50)%Z, [26757]%N);
   ((-6951697265682089, -50)%Z, [26862]%N);
   ((-1497379358800949, -48)%Z, [26970]%N);
   ((-5510134137567365, -49)%Z, [26976; 27886; 30509; 33542]%N);
   ((-8707530554723691, -50)%Z, [27054; 33635]%N);
   ((-7675878905065821, -50)%Z, [27088]%N);
   ((-1951042184013089, -48)%Z, [27185; 27387; 35098]%N);
   ((-3646464102377949, -49)%Z, [27264]%N);
   ((-6927677156656929, -50)%Z, [27453; 38054]%N);
   ((-5781447547005305, -50)%Z, [27494]%N);
   ((-7260525971249977, -50)%Z, [27575]%N);
   ((-3974489514880297, -49)%Z, [27589]%N);
   ((-6416167135406635, -49)%Z, [27595; 33899; 39250; 39286]%N);
   ((-8973287491763581, -51)%Z, [27611]%N);
   ((-1792141170934981, -48)%Z, [27741]%N);
   ((-4536321304410477, -50)%Z, [27743]%N);
   ((-7963793715960641, -50)%Z, [27744]%N);
   ((-4676064930265273, -49)%Z, [27754; 28966; 29801; 33721; 36033; 36146; 36911]%N);
   ((-3949305445526025, -49)%Z, [27779; 33606; 33610; 38470; 38520]%N);
   ((-6836415077308981, -50)%Z, [27901; 28580]%N);
   ((-7705124702787443, -50)%Z, [27915; 38610]%N);
   ((-1645610421266711, -48)%Z, [27946]%N);
   ((-4140131612499199, -49)%Z, [28006]%N);
   ((-228161768519159, -45)%Z, [28009]%N);
   ((-8300191177205767, -50)%Z, [28059; 28644; 34402; 37057; 39729]%N);
   ((-5148802522243327, -49)%Z, [28251; 37021; 37178]%N);
   ((-4804891282804953, -49)%Z, [28325]%N);
   ((-4266986159333227, -49)%Z, [28373; 34074]%N);
   ((-3665265662774521, -49)%Z, [28504]%N);
   ((-8637576388163347, -50)%Z, [28654]%N);
   ((-4821209815337549, -49)%Z, [28828; 29010; 38678]%N);
   ((-4368388176222657, -49)%Z, [28952; 29182]%N);
   ((-4994308312738429, -49)%Z, [29030]%N);
   ((-378585704564761, -46)%Z, [29141]%N);
   ((-7432754142289163, -50)%Z, [29245]%N);
   ((-7664390030817235, -50)%Z, [29279]%N);
   ((-3905329045328007, -49)%Z, [29287]%N);
   ((-3742565511779403, -49)%Z, [29380; 31903; 33489]%N);
   ((-1508686650918297, -49)%Z, [29579]%N);
   ((-6589019502647911, -50)%Z, [29595; 29802]%N);
   ((-6930651794865017, -50)%Z, [29614; 29771]%N);
   ((-1123039514514929, -47)%Z, [29618; 29747; 31482]%N);
   ((-8947993614353273, -50)%Z, [29722]%N);
   ((-2394516244464357, -48)%Z, [29840; 38902]%N);
   ((-4972229014095639, -49)%Z, [29852]%N);
   ((-4298799705468711, -49)%Z, [29854; 32829]%N);
   ((-8362182975206913, -50)%Z, [29969; 39825; 40077]%N);
   ((-429537678860397, -46)%Z, [29976]%N);
   ((-3434888757736787, -49)%Z, [30410]%N);
   ((-1910439528723049, -48)%Z, [30562]%N);
   ((-4550446278446673, -49)%Z, [30655; 33465; 37049; 37138]%N);
   ((-3925199930106395, -49)%Z, [30699; 30703; 38331; 38414]%N);
   ((-1093961144001159, -47)%Z, [30922; 32673; 32680]%N);
   ((-6369901965694717, -50)%Z, [31062]%N);
   ((-3691352953475835, -49)%Z, [31077]%N);
   ((-7670119813701613, -50)%Z, [31103; 31108; 35028]%N);
   ((-1854720627516103, -48)%Z, [31161]%N);
   ((-4768628075677949, -50)%Z, [31206]%N);
   ((-3578790103638899, -49)%Z, [31293]%N);
   ((-8290183112136761, -50)%Z, [31302]%N);
   ((-446668866417647, -46)%Z, [31310; 39062]%N);
   ((-6744400077044257, -50)%Z, [31398; 31431]%N);
   ((-6915856576618783, -50)%Z, [31461]%N);
   ((-844956189853917, -47)%Z, [31684; 33539]%N);
   ((-1701669424224407, -48)%Z, [32000; 32426]%N);
   ((-869722903242877, -47)%Z, [32034]%N);
   ((-6895464559045151, -50)%Z, [32057; 32461]%N);
   ((-3293411312041947, -49)%Z, [32173; 32500]%N);
   ((-471896632952821, -46)%Z, [32361; 32499]%N);
   ((-3529958893866935, -49)%Z, [32652]%N);
   ((-6480111625229307, -50)%Z, [32701]%N);
   ((-875961597254689, -47)%Z, [32705]%N);
   ((-8270429975535183, -50)%Z, [32724; 35674; 35885; 38292; 38389]%N);
   ((-8813397740373195, -50)%Z, [32742]%N);
   ((-8722058497026393, -50)%Z, [32831]%N);
   ((-4560775925205255, -49)%Z, [32834; 32886; 32997]%N);
   ((-784105161581063, -47)%Z, [32899; 32901]%N);
   ((-2115520488076263, -48)%Z, [32903; 34398; 38742]%N);
   ((-7823750097551481, -50)%Z, [32918]%N);
   ((-5166659079535587, -50)%Z, [32993]%N);
   ((-8450534159722283, -50)%Z, [33255]%N);
   ((-4773608237685723, -49)%Z, [33260]%N);
   ((-8912806378533407, -50)%Z, [33275; 36764]%N);
   ((-7519776831185097, -50)%Z, [33298]%N);
   ((-7630610499995119, -50)%Z, [33322]%N);
   ((-2118437353315751, -48)%Z, [33405; 33725]%N);
   ((-4663413837110113, -49)%Z, [33449]%N);
   ((-4910755277770307, -49)%Z, [33454; 33688]%N);
   ((-3408700317101965, -49)%Z, [33459]%N);
   ((-3747460759611753, -49)%Z, [33531]%N);
   ((-3654742927365985, -49)%Z, [33541; 36842]%N);
   ((-8439103605636713, -50)%Z, [33600; 35673; 35887]%N);
   ((-4012541154974947, -49)%Z, [33626; 33698]%N);
   ((-1475085327644425, -47)%Z, [33659; 37908; 38241]%N);
   ((-2681218093552987, -48)%Z, [33733; 33967; 34106; 34298; 35390; 37380; 38061]%N);
   ((-1222917600208393, -47)%Z, [33804]%N);
   ((-3879880646805045, -49)%Z, [33805; 40478; 40510]%N);
   ((-3388852787204967, -49)%Z, [33831; 34157]%N);
   ((-7863965083425759, -50)%Z, [33883]%N);
   ((-414047834945167, -46)%Z, [33891]%N);
   ((-99110504111265, -44)%Z, [33970]%N);
   ((-7927116208703021, -50)%Z, [33983]%N);
   ((-6072558381264383, -50)%Z, [34081]%N);
   ((-7033502502067597, -50)%Z, [34203]%N);
   ((-5417740968733057, -50)%Z, [34945]%N);
   ((-54192380880283, -43)%Z, [35029]%N);
   ((-1049313460093173, -47)%Z, [35032]%N);
   ((-7305323558284175, -50)%Z, [35060]%N);
   ((-6600068658122369, -50)%Z, [35449]%N);
   ((-3993193891665053, -49)%Z, [35574; 35852]%N);
   ((-7625077811186841, -50)%Z, [35609; 35878]%N);
   ((-2104146214213721, -48)%Z, [35628; 35884; 40852; 40858]%N);
   ((-6661683417584463, -50)%Z, [36002; 36129]%N);
   ((-3194075168859627, -49)%Z, [36011; 36143]%N);
   ((-5592206091594737, -50)%Z, [36040; 36158]%N);
   ((-2559963482278515, -48)%Z, [36065; 36179; 37060; 38551]%N);
   ((-5285215398566799, -50)%Z, [36213; 36249]%N);
   ((-8427787933435519, -50)%Z, [36423]%N);
   ((-3566179497373139, -49)%Z, [36562; 36713]%N);
   ((-3404674436153383, -49)%Z, [36637; 36745]%N);
   ((-6898355189405335, -50)%Z, [36763]%N);
   ((-5456479276285943, -49)%Z, [36868]%N);
   ((-6762211294468605, -50)%Z, [36981]%N);
   ((-6518694477587265, -50)%Z, [37011; 37159]%N);
   ((-432609459624649, -46)%Z, [37026]%N);
   ((-1798654932147933, -48)%Z, [37036; 37140]%N);
   ((-1302854247086971, -47)%Z, [37040]%N);
   ((-7480267517478603, -50)%Z, [37041]%N);
   ((-4024476936784283, -49)%Z, [37045]%N);
   ((-5582270287864653, -50)%Z, [37073; 37165]%N);
   ((-949726872528075, -47)%Z, [37085]%N);
   ((-696180854368673, -46)%Z, [37094; 37192]%N);
   ((-1596578033345349, -48)%Z, [37101]%N);
   ((-8485539048808113, -50)%Z, [37190]%N);
   ((-895611408915453, -47)%Z, [37586; 38155]%N);
   ((-2640938786921953, -48)%Z, [37749; 38190]%N);
   ((-7023754390031687, -50)%Z, [37995]%N);
   ((-8310289001903859, -50)%Z, [38278; 38379]%N);
   ((-4088275314899159, -49)%Z, [38317; 38398]%N);
   ((-3861521956216857, -49)%Z, [38357; 38425]%N);
   ((-3550370191427433, -49)%Z, [38446]%N);
   ((-4336683151684261, -50)%Z, [38472; 38515]%N);
   ((-832125239293179, -47)%Z, [38518]%N);
   ((-6545876296899821, -50)%Z, [38534]%N);
   ((-6003810643865109, -50)%Z, [38539]%N);
   ((-453285565520741, -46)%Z, [38596]%N);
   ((-4447808366541815, -49)%Z, [38639]%N);
   ((-3985637402994301, -49)%Z, [38669]%N);
   ((-4391060365866455, -49)%Z, [38816]%N);
   ((-1735657391603261, -48)%Z, [38859; 38886]%N);
   ((-3997010516137683, -49)%Z, [38991; 39068]%N);
   ((-2742901993450979, -49)%Z, [39759]%N);
   ((-6301431773485995, -50)%Z, [40300; 40527]%N);
   ((-7209783592914639, -50)%Z, [40613; 40614]%N);
   ((-2546230271955215, -48)%Z, [40628]%N)];
  (* ('S', 'nrfg') *)
  [
];
  (* ('S', 'nrt') *)
  [
];
  (* ('S', 'ns') *)
  [
];
  (* ('S', 'nt') *)
  [
   ((-7571094898436353, -54)%Z, [20041; 32681]%N);
   ((-4034683638976513, -51)%Z, [21776]%N);
   ((-5229552235854437, -51)%Z, [36868]%N);
   ((-3189914640138173, -50)%Z, [37049; 37138]%N);
   ((-8853684227211519, -51)%Z, [38518]%N)];
  (* ('S', 'nz') *)
  [
   ((0, 0)%Z, [23439]%N)];
  (* ('S', 'o') *)
  [
   ((-4515354647796195, -50)%Z, [20051; 27216]%N);
   ((-914146305255485, -48)%Z, [21485]%N);
   ((-2369518982279395, -49)%Z, [21501; 22064]%N);
   ((-2454453565681569, -48)%Z, [21505; 31858]%N);
   ((-3281813342014343, -50)%Z, [21553]%N);
   ((-647844444818433, -48)%Z, [21596; 21978]%N);
   ((-4399776345302939, -50)%Z, [21652]%N);
   ((-4028815743443817, -50)%Z, [21653]%N);
   ((-3661325859212367, -50)%Z, [21658]%N);
   ((-8623541269666993, -51)%Z, [21661; 22109]%N);
   ((-2435052184427965, -49)%Z, [21667; 22100]%N);
   ((-2876141060631891, -49)%Z, [21673; 32651; 33416; 39100; 39125]%N);
   ((-2550341189487983, -49)%Z, [21677; 22061]%N);
   ((-1131385964191253, -48)%Z, [21712]%N);
   ((-7595012784027971, -51)%Z, [21714; 22112]%N);
   ((-3612666960513533, -49)%Z, [21719; 22057]%N);
   ((-6563544969770433, -50)%Z, [21726]%N);
   ((-8256985570684937, -50)%Z, [21734; 22070]%N);
   ((-4354913840581587, -50)%Z, [21735]%N);
   ((-5988406447559479, -50)%Z, [21863; 22038]%N);
   ((-6044932560192533, -51)%Z, [21866]%N);
   ((-779955468899585, -47)%Z, [21888]%N);
   ((-357641021522395, -46)%Z, [21908; 30729]%N);
   ((-2652979101392841, -49)%Z, [21939]%N);
   ((-743936048637211, -47)%Z, [21941]%N);
   ((-4346151929382841, -50)%Z, [21970; 22005]%N);
   ((-8970657741781467, -51)%Z, [21974]%N);
   ((-8444603863416847, -51)%Z, [21985]%N);
   ((-6247731506711833, -51)%Z, [22030]%N);
   ((-4632853579327855, -50)%Z, [22047]%N);
   ((-4567248621099249, -50)%Z, [22051]%N);
   ((-7341734881904057, -51)%Z, [22052; 22198]%N);
   ((-6814483556122925, -51)%Z, [22075]%N);
   ((-5557195506422883, -50)%Z, [22092]%N);
   ((-7967289292347553, -51)%Z, [22103]%N);
   ((-8931495018783219, -51)%Z, [22163]%N);
   ((-1000718533380967, -47)%Z, [24614]%N);
   ((-301822377604491, -46)%Z, [26758]%N);
   ((-4290443394629345, -49)%Z, [27575]%N);
   ((-7294326818994939, -51)%Z, [30768]%N);
   ((-6107031842323517, -50)%Z, [37847; 38143]%N);
   ((-5413267925348525, -50)%Z, [37848; 38197]%N);
   ((-5783130623749763, -50)%Z, [37852; 38231]%N);
   ((-1597496683428299, -48)%Z, [37946; 38107]%N)];
  (* ('S', 'p') *)
  [
   ((-6232629688350769, -51)%Z, [19982; 33287]%N);
   ((-4740523886765345, -51)%Z, [20026; 28858]%N);
   ((-2552056633290933, -48)%Z, [20046]%N);
   ((-3490749038400521, -50)%Z, [20110; 26044]%N);
   ((-6887206517565487, -51)%Z, [20174; 24478]%N);
   ((-3316733912892853, -50)%Z, [20197]%N);
   ((-7369627681093701, -50)%Z, [20973; 24977]%N);
   ((-4906289887218315, -50)%Z, [21516]%N);
   ((-4180701154052747, -50)%Z, [21521]%N);
   ((-2418210717564279, -49)%Z, [22240]%N);
   ((-5873972713633215, -52)%Z, [22312]%N);
   ((-1481780945771327, -49)%Z, [23545; 23565]%N);
   ((-4776494562687763, -50)%Z, [24403; 30070]%N);
   ((-5571452590708571, -50)%Z, [24448]%N);
   ((-7167225154038531, -51)%Z, [25226]%N);
   ((-2683970503429339, -49)%Z, [25353]%N);
   ((-2697048115929493, -49)%Z, [25454; 25818]%N);
   ((-1750594970199537, -48)%Z, [26367]%N);
   ((-2982041679303279, -49)%Z, [26397]%N);
   ((-4807304221349221, -50)%Z, [27604]%N);
   ((-3612272005588765, -49)%Z, [27839]%N);
   ((-8094336397492059, -51)%Z, [29992]%N);
   ((-8300610910978141, -51)%Z, [30001]%N);
   ((-8349188495378293, -51)%Z, [32102; 32473]%N);
   ((-5417326612058539, -50)%Z, [32147; 32463]%N);
   ((-862379031603205, -46)%Z, [32227; 32536]%N);
   ((-5746283662032015, -49)%Z, [32327]%N);
   ((-2442881875937013, -49)%Z, [33258]%N);
   ((-8688271644598935, -51)%Z, [33267]%N);
   ((-3677517213332001, -50)%Z, [34987]%N);
   ((-5403411075938873, -49)%Z, [36225]%N);
   ((-7386071326909201, -50)%Z, [36317]%N);
   ((-5566928627186125, -50)%Z, [36319]%N);
   ((-5671635893834953, -50)%Z, [38500]%N);
   ((-2442806722702143, -48)%Z, [38774]%N)];
  (* ('S', 'q') *)
  [
   ((-990119087966429, -47)%Z, [19976]%N);
   ((-2113290788967811, -48)%Z, [19992]%N);
   ((-4837003035702369, -49)%Z, [19995; 21474]%N);
   ((-7335761436997237, -50)%Z, [19997; 32114]%N);
   ((-2980308430998617, -50)%Z, [20010; 20491]%N);
   ((-7004443448750223, -49)%Z, [20018; 21350; 22439; 25130; 29926]%N);
   ((-8515613537779419, -50)%Z, [20024]%N);
   ((-1189711266384627, -47)%Z, [20039]%N);
   ((-8678213448110243, -51)%Z, [20123]%N);
   ((-3862273634172591, -49)%Z, [20137; 30045]%N);
   ((-5560505327439227, -49)%Z, [20190]%N);
   ((-1418102432066375, -48)%Z, [20195]%N);
   ((-3048167369812385, -49)%Z, [20214]%N);
   ((-6116994033141935, -50)%Z, [20221]%N);
   ((-1441878993820659, -47)%Z, [20239; 25694]%N);
   ((-913999357160661, -47)%Z, [20249; 22821]%N);
   ((-4916414071712221, -50)%Z, [20301]%N);
   ((-413389767233743, -45)%Z, [20391; 20596; 20992; 26609; 27008]%N);
   ((-6958000173692481, -50)%Z, [20493]%N);
   ((-1190894761708787, -48)%Z, [20803]%N);
   ((-2961352589311649, -49)%Z, [20811]%N);
   ((-1931667401553887, -48)%Z, [20874; 20876]%N);
   ((-7843631758196993, -51)%Z, [20998]%N);
   ((-4074848126656145, -49)%Z, [21058; 21137]%N);
   ((-8537224564157011, -50)%Z, [21242]%N);
   ((-1192341950236761, -47)%Z, [21277]%N);
   ((-7650691294105275, -50)%Z, [21305]%N);
   ((-3141938184615153, -49)%Z, [21367]%N);
   ((-4088942185690915, -49)%Z, [21400]%N);
   ((-8155899574276595, -50)%Z, [21410; 24258]%N);
   ((-8906651465929159, -51)%Z, [21475]%N);
   ((-2948658704171867, -49)%Z, [21477]%N);
   ((-5132066926645971, -50)%Z, [21488]%N);
   ((-6299200593987811, -49)%Z, [21494; 27754; 33865]%N);
   ((-631163813941929, -47)%Z, [21495; 34399]%N);
   ((-8949053318649681, -51)%Z, [21517]%N);
   ((-2707374618022505, -49)%Z, [21544; 22136]%N);
   ((-3360401525417293, -49)%Z, [21592; 21729]%N);
   ((-2713145926447869, -48)%Z, [21608; 21971; 36913]%N);
   ((-8899596539120889, -50)%Z, [21736]%N);
   ((-38782194448033, -42)%Z, [21737]%N);
   ((-2769629705779589, -48)%Z, [22253; 22290; 30024]%N);
   ((-7502087153489349, -50)%Z, [22280]%N);
   ((-2868825775771387, -49)%Z, [22330; 22580]%N);
   ((-2976753066828273, -49)%Z, [22359; 22602]%N);
   ((-540447231746455, -46)%Z, [22363; 22727]%N);
   ((-2749515795556947, -48)%Z, [22376]%N);
   ((-1477248355244369, -47)%Z, [22427]%N);
   ((-5027619107523479, -49)%Z, [22467]%N);
   ((-3077108627440803, -49)%Z, [22530]%N);
   ((-4633226413719907, -49)%Z, [22534]%N);
   ((-2935076943593747, -48)%Z, [22697; 32326; 32554; 36600; 36724; 37656; 38180; 39381; 39550]%N);
   ((-144529612147871, -44)%Z, [22721]%N);
   ((-4755051768478071, -50)%Z, [22768; 32882]%N);
   ((-1906292123626977, -48)%Z, [22774; 22778]%N);
   ((-7753823069537287, -51)%Z, [22825]%N);
   ((-6021955820690445, -50)%Z, [22871]%N);
   ((-36979436479781, -42)%Z, [23395; 23487]%N);
   ((-1099515600485853, -47)%Z, [23435; 23614]%N);
   ((-6107373062420241, -50)%Z, [23447]%N);
   ((-7461044092244059, -51)%Z, [23478]%N);
   ((-4373874674044129, -49)%Z, [23544]%N);
   ((-2632578006427441, -49)%Z, [23553]%N);
   ((-6724286115969225, -50)%Z, [23562]%N);
   ((-8116175783017907, -50)%Z, [23610]%N);
   ((-2704655704486019, -49)%Z, [23618; 23652]%N);
   ((-8676401505664903, -50)%Z, [23622; 23626]%N);
   ((-6972040354471787, -50)%Z, [23681; 27506]%N);
   ((-8628072201816779, -50)%Z, [23792; 26729; 27137]%N);
   ((-4021755934040677, -49)%Z, [24033]%N);
   ((-6460387399812007, -50)%Z, [24080; 24115]%N);
   ((-7127986389282641, -50)%Z, [24086]%N);
   ((-8532869046513127, -50)%Z, [24088; 31806]%N);
   ((-5518786247967141, -49)%Z, [24089]%N);
   ((-5361884551029311, -49)%Z, [24092; 24159; 28316]%N);
   ((-8572688910464823, -50)%Z, [24103; 24128]%N);
   ((-7058995121918249, -50)%Z, [24109]%N);
   ((-1795745410902187, -48)%Z, [24133]%N);
   ((-7134244881811321, -50)%Z, [24149]%N);
   ((-8294749171718555, -50)%Z, [24162]%N);
   ((-6139801405837931, -51)%Z, [24180]%N);
   ((-5469191595994429, -50)%Z, [24230]%N);
   ((-5366206951865627, -50)%Z, [24231]%N);
   ((-5799693301691471, -49)%Z, [24249]%N);
   ((-2253882764045439, -49)%Z, [24352; 24373]%N);
   ((-4306984443526639, -49)%Z, [24426; 26421]%N);
   ((-1464765994664213, -48)%Z, [25142; 25143]%N);
   ((-6910708578159445, -50)%Z, [25159; 33108]%N);
   ((-1469044741196127, -48)%Z, [25209]%N);
   ((-1102990776762753, -47)%Z, [25285; 25812]%N);
   ((-3192989856008215, -48)%Z, [25735]%N);
   ((-4907064507425261, -49)%Z, [25774]%N);
   ((-5871671261229067, -50)%Z, [25903]%N);
   ((-4723491301111179, -49)%Z, [26011]%N);
   ((-981549811748317, -47)%Z, [26020]%N);
   ((-4607537705539913, -50)%Z, [26041]%N);
   ((-8326868938402563, -50)%Z, [26063]%N);
   ((-2430741488721683, -48)%Z, [26086]%N);
   ((-4537581758869613, -49)%Z, [26092]%N);
   ((-4650158515744765, -49)%Z, [26188]%N);
   ((-3115160267535453, -49)%Z, [26354]%N);
   ((-2034347803454555, -48)%Z, [26376]%N);
   ((-4894739807508237, -50)%Z, [26399]%N);
   ((-1072150192672867, -47)%Z, [26413]%N);
   ((-1832070086742319, -48)%Z, [26438; 26751]%N);
   ((-8637573523239015, -50)%Z, [26463]%N);
   ((-5232464403000267, -50)%Z, [26465; 26781]%N);
   ((-7083923813480795, -50)%Z, [26479]%N);
   ((-1006144436056691, -47)%Z, [26522]%N);
   ((-7018635965494207, -50)%Z, [26525]%N);
   ((-6370267322698941, -50)%Z, [26550]%N);
   ((-4704243273918725, -49)%Z, [26635; 26847; 36203]%N);
   ((-7824249530162513, -50)%Z, [26666]%N);
   ((-3351773771050439, -49)%Z, [26679; 27171]%N);
   ((-5906981844566233, -50)%Z, [26681]%N);
   ((-2854101638950309, -48)%Z, [26694; 30446]%N);
   ((-1263351895924637, -47)%Z, [26700]%N);
   ((-2270555618611793, -48)%Z, [26723; 27284]%N);
   ((-924683753170145, -47)%Z, [26742]%N);
   ((-2564289537478403, -48)%Z, [26797]%N);
   ((-1413637104154799, -47)%Z, [26799]%N);
   ((-7735199191758749, -50)%Z, [26869]%N);
   ((-4956664489566245, -49)%Z, [27001; 27859]%N);
   ((-2916910964859609, -48)%Z, [27160; 30721; 30908]%N);
   ((-5273539520739021, -50)%Z, [27425]%N);
   ((-775524226956739, -47)%Z, [27493]%N);
   ((-5512641008200795, -50)%Z, [27573]%N);
   ((-2310426694603161, -48)%Z, [27627]%N);
   ((-5118615098853121, -49)%Z, [27744]%N);
   ((-1147282376549927, -47)%Z, [27795]%N);
   ((-2251726565420933, -48)%Z, [27954]%N);
   ((-5264341243608861, -49)%Z, [28286; 28404; 28771]%N);
   ((-4802170280061347, -49)%Z, [28855]%N);
   ((-8249180785756551, -51)%Z, [28857; 40670]%N);
   ((-4867772986494643, -49)%Z, [29247; 32225; 32535]%N);
   ((-5697704127434689, -50)%Z, [29255]%N);
   ((-6224029102729553, -49)%Z, [29323; 32094; 32478; 37526; 38114; 38754]%N);
   ((-3697325310880279, -48)%Z, [29922]%N);
   ((-4189364379428151, -49)%Z, [29923]%N);
   ((-5036084679885403, -49)%Z, [30054]%N);
   ((-6610730382328523, -50)%Z, [30058]%N);
   ((-282945261467287, -45)%Z, [30405]%N);
   ((-8069133957762727, -50)%Z, [30406]%N);
   ((-7488251035810989, -50)%Z, [30415; 30430]%N);
   ((-8063389558021943, -50)%Z, [30418]%N);
   ((-4594045792388345, -50)%Z, [30424; 30436]%N);
   ((-4017549563635267, -49)%Z, [30462]%N);
   ((-6776186885026765, -49)%Z, [30629; 31568]%N);
   ((-6424404418742505, -50)%Z, [30871]%N);
   ((-2302384005259925, -48)%Z, [30879]%N);
   ((-4676551628242747, -49)%Z, [30917]%N);
   ((-7886153910181019, -50)%Z, [30964]%N);
   ((-304476418311723, -46)%Z, [31181; 31278]%N);
   ((-7377041413585691, -50)%Z, [31186]%N);
   ((-4251421634803833, -49)%Z, [31243]%N);
   ((-8243172219368417, -50)%Z, [31348]%N);
   ((-5995772539006095, -49)%Z, [31383; 34028; 34104]%N);
   ((-1650327142701013, -48)%Z, [31456]%N);
   ((-6485501450119409, -50)%Z, [31508; 31558]%N);
   ((-7941331538931829, -50)%Z, [31570]%N);
   ((-7256082546676865, -50)%Z, [31665]%N);
   ((-6717330727629523, -50)%Z, [31687]%N);
   ((-5461487684946263, -49)%Z, [31699; 31757]%N);
   ((-5138722591790261, -49)%Z, [31726; 31811]%N);
   ((-4520258855056467, -49)%Z, [31751]%N);
   ((-2195075700336461, -49)%Z, [31859]%N);
   ((-67536756508665, -44)%Z, [31867; 39006]%N);
   ((-1858227249890647, -48)%Z, [31890]%N);
   ((-5404709816218249, -50)%Z, [32026; 32423]%N);
   ((-6416414557369651, -50)%Z, [32068; 32452]%N);
   ((-8524208235292615, -50)%Z, [32173; 32500]%N);
   ((-4555454687106993, -49)%Z, [32185; 32506; 40801; 40836]%N);
   ((-8840942657504411, -50)%Z, [32311; 32533]%N);
   ((-8046330142160749, -50)%Z, [32592]%N);
   ((-671889718978807, -47)%Z, [32676]%N);
   ((-2091853271663777, -48)%Z, [32701]%N);
   ((-5814603090357873, -51)%Z, [32929]%N);
   ((-7313465660769229, -50)%Z, [32974]%N);
   ((-4084204850973795, -49)%Z, [33032; 33033]%N);
   ((-7486533415482685, -50)%Z, [33368]%N);
   ((-5108824418103559, -49)%Z, [33445]%N);
   ((-5011060562216657, -49)%Z, [33455]%N);
   ((-8993737691603927, -50)%Z, [33580]%N);
   ((-7350874414338741, -50)%Z, [33713; 33802]%N);
   ((-7301752682239083, -50)%Z, [34955]%N);
   ((-3259577826985339, -49)%Z, [35282]%N);
   ((-8486038481419145, -50)%Z, [36255]%N);
   ((-1932731580427199, -48)%Z, [36635; 36742]%N);
   ((-2910056310603403, -49)%Z, [36650; 36718]%N);
   ((-3898393597681133, -49)%Z, [36655; 36753]%N);
   ((-896730481884555, -47)%Z, [36941]%N);
   ((-685580218224709, -48)%Z, [36947]%N);
   ((-578612132868921, -47)%Z, [37096]%N);
   ((-8270385626485395, -50)%Z, [37406; 38055]%N);
   ((-4608746471978911, -49)%Z, [37664; 38189]%N);
   ((-4738371901946471, -49)%Z, [37744; 38206]%N);
   ((-4414784917237099, -49)%Z, [37770; 38225]%N);
   ((-5044679502610291, -49)%Z, [37808; 38226]%N);
   ((-8477729219300263, -50)%Z, [37832; 38142]%N);
   ((-1292574538607223, -47)%Z, [38347; 38421]%N);
   ((-1212277488232445, -47)%Z, [38357; 38425]%N);
   ((-5672067144995903, -50)%Z, [38598]%N);
   ((-350347835374735, -45)%Z, [38774]%N);
   ((-8140454888924489, -50)%Z, [38913; 39029]%N);
   ((-2549600553820089, -48)%Z, [38915; 39031]%N);
   ((-830035931435867, -47)%Z, [38917; 39033]%N);
   ((-3366520606896763, -49)%Z, [38931; 39039]%N);
   ((-7338767847079549, -50)%Z, [38982; 39063]%N)];
  (* ('S', 'qe') *)
  [
];
  (* ('S', 'qg') *)
  [
   ((0, 0)%Z, [31209]%N)];
  (* ('S', 'r') *)
  [
   ((-6823415728033719, -52)%Z, [20182]%N);
   ((-3272873602495383, -49)%Z, [20309]%N);
   ((-4942251516692779, -51)%Z, [20320]%N);
   ((-868459501627383, -47)%Z, [20474]%N);
   ((-5820334114912991, -49)%Z, [20556]%N);
   ((-6194682494047087, -49)%Z, [20844]%N);
   ((-3384923019164239, -50)%Z, [20854]%N);
   ((-581718512087509, -46)%Z, [21413]%N);
   ((-2513539339446807, -49)%Z, [21478]%N);
   ((-4412553724684275, -50)%Z, [21508]%N);
   ((-6653544888391381, -50)%Z, [21566]%N);
   ((-3722761420375509, -49)%Z, [21643]%N);
   ((-6283620834718781, -50)%Z, [21681]%N);
   ((-2926587839772483, -49)%Z, [21738]%N);
   ((-6544702286208719, -50)%Z, [21861]%N);
   ((-372992797472703, -47)%Z, [22905]%N);
   ((-2399208356373907, -48)%Z, [23408]%N);
   ((-1885584392472853, -49)%Z, [23427]%N);
   ((-3943895595273355, -49)%Z, [24049]%N);
   ((-3961379918429089, -49)%Z, [24444]%N);
   ((-1708297834101575, -48)%Z, [24590]%N);
   ((-745025359930175, -47)%Z, [24744]%N);
   ((-2019112155121553, -50)%Z, [25105]%N);
   ((-4596057734600565, -49)%Z, [25949]%N);
   ((-4062953317025721, -49)%Z, [26031]%N);
   ((-2456928255825525, -49)%Z, [26412]%N);
   ((-6086333916476989, -50)%Z, [26576]%N);
   ((-8460289944869951, -51)%Z, [27492]%N);
   ((-4968486776312431, -50)%Z, [27599]%N);
   ((-4044814574687193, -49)%Z, [27741]%N);
   ((-7821817140525009, -49)%Z, [28937]%N);
   ((-7145309166954757, -50)%Z, [28982]%N);
   ((-533919012401743, -47)%Z, [35442; 35813]%N);
   ((-4854593325614965, -50)%Z, [35504; 35841]%N);
   ((-6183057871791543, -50)%Z, [35576; 35832]%N);
   ((-2254349299450277, -50)%Z, [36825; 36889]%N);
   ((-3295978258786635, -50)%Z, [37027]%N)];
  (* ('S', 'rg') *)
  [
   ((-7655577762287957, -53)%Z, [20857; 33586]%N);
   ((-2521771055094699, -52)%Z, [26031]%N);
   ((-7465485806197681, -50)%Z, [27741]%N)];
  (* ('S', 'rr') *)
  [
];
  (* ('S', 'rz') *)
  [
];
  (* ('S', 's') *)
  [
];
  (* ('S', 't') *)
  [
   ((-6796728635111013, -54)%Z, [34398]%N);
   ((-5212703947847923, -52)%Z, [34560]%N)];
  (* ('S', 'tg') *)
  [
   ((-115455928410585, -47)%Z, [20170]%N);
   ((-7887591438786191, -51)%Z, [20908]%N);
   ((-4545467508369797, -50)%Z, [21320]%N);
   ((-5343338016566981, -50)%Z, [21776]%N);
   ((-753193519122057, -48)%Z, [22799]%N);
   ((-3076730603889515, -49)%Z, [22805]%N);
   ((-3312878768236095, -50)%Z, [22812]%N);
   ((-6386779301769961, -50)%Z, [23435]%N);
   ((-6730608472551083, -50)%Z, [23477]%N);
   ((-572205604347329, -46)%Z, [26127]%N);
   ((-345265643446471, -46)%Z, [26132]%N);
   ((-2830108570019571, -50)%Z, [26149]%N);
   ((-5640200888259955, -50)%Z, [26152]%N);
   ((-5631375783079293, -49)%Z, [26172; 26205]%N);
   ((-3281404663929027, -49)%Z, [26188]%N);
   ((-5104888253697883, -51)%Z, [26202]%N);
   ((-116441670061539, -44)%Z, [26216]%N);
   ((-3663017014214473, -49)%Z, [26257]%N);
   ((-2767313663133785, -49)%Z, [26286]%N);
   ((-4625342985905201, -51)%Z, [29616; 29694]%N);
   ((-7825848709669575, -51)%Z, [31179]%N);
   ((-1253228011586375, -47)%Z, [38539]%N);
   ((-5241168610068959, -49)%Z, [39759]%N)];
  (* ('S', 'u') *)
  [
   ((-91661640955989, -46)%Z, [20043]%N);
   ((-4804200642062187, -49)%Z, [21949; 22029]%N);
   ((-7028553109393853, -49)%Z, [24799]%N);
   ((-8332580931741901, -52)%Z, [25152]%N);
   ((-1602522343165015, -47)%Z, [26679; 27171]%N);
   ((-5915697917618795, -53)%Z, [31561]%N);
   ((-3006609420009181, -49)%Z, [33324]%N);
   ((-107249729360355, -45)%Z, [36830; 36899]%N)];
  (* ('S', 'ud') *)
  [
   ((0, 0)%Z, [24471]%N)];
  (* ('S', 'ug') *)
  [
   ((0, 0)%Z, [36807; 36942]%N)];
  (* ('S', 'uj') *)
  [
   ((0, 0)%Z, [30340]%N)];
  (* ('S', 'ul') *)
  [
   ((0, 0)%Z, [20102]%N)];
  (* ('S', 'uv') *)
  [
   ((0, 0)%Z, [22320]%N)];
  (* ('S', 'uz') *)
  [
   ((0, 0)%Z, [30528; 33879]%N)];
  (* ('S', 'v') *)
  [
   ((-8805047433583067, -50)%Z, [19999; 20002]%N);
   ((-2449882604311287, -48)%Z, [20018]%N);
   ((-2144665729820247, -48)%Z, [20020; 33256]%N);
   ((-3935359972195093, -49)%Z, [20030; 33289]%N);
   ((-7894692726933589, -50)%Z, [20035]%N);
   ((-2788344020716213, -48)%Z, [20045]%N);
   ((-5492351226381661, -49)%Z, [20047]%N);
   ((-6386277306993521, -49)%Z, [20048; 25642; 27138; 34978]%N);
   ((-8395163078970995, -50)%Z, [20056; 30631]%N);
   ((-2527039802498503, -48)%Z, [20064; 20139; 25410; 32722; 36992]%N);
   ((-6893921047499005, -50)%Z, [20080; 36023]%N);
   ((-5540889433083553, -49)%Z, [20104]%N);
   ((-8625250393983311, -50)%Z, [20105; 29229]%N);
   ((-4494387807529651, -49)%Z, [20111; 34407]%N);
   ((-2608577494894885, -48)%Z, [20129; 32094; 32478]%N);
   ((-7757126892342203, -50)%Z, [20132]%N);
   ((-7488809653355857, -50)%Z, [20135; 29986]%N);
   ((-4023913134156577, -49)%Z, [20142]%N);
   ((-7768321614514753, -50)%Z, [20146; 35242]%N);
   ((-6552234694429357, -49)%Z, [20183; 34567; 36287]%N);
   ((-4643459467288283, -49)%Z, [20184]%N);
   ((-7183381638353647, -50)%Z, [20196]%N);
   ((-4815064526923461, -49)%Z, [20208; 25438; 25736]%N);
   ((-1628268581199957, -48)%Z, [20219]%N);
   ((-5040754723666351, -49)%Z, [20223; 28342]%N);
   ((-2229665290947277, -48)%Z, [20239]%N);
   ((-4735045114319763, -49)%Z, [20240]%N);
   ((-8632498701679215, -50)%Z, [20241]%N);
   ((-2299168497351853, -49)%Z, [20250; 26371]%N);
   ((-4276858860020687, -48)%Z, [20251; 20660; 22353; 24067; 32937; 33509]%N);
   ((-3682639852274959, -49)%Z, [20256; 20659]%N);
   ((-1023470306562485, -47)%Z, [20260; 20663]%N);
   ((-5466051541807455, -49)%Z, [20272; 23047; 23308; 35255; 35281]%N);
   ((-4760475087062883, -49)%Z, [20276; 25744; 25745]%N);
   ((-2258866231047789, -48)%Z, [20280]%N);
   ((-5507231827216953, -49)%Z, [20291; 25722; 34028]%N);
   ((-6082186275254355, -50)%Z, [20303]%N);
   ((-2977874728688511, -49)%Z, [20308; 21344]%N);
   ((-390282425248475, -46)%Z, [20316]%N);
   ((-2769113863108763, -48)%Z, [20329; 26694]%N);
   ((-1308039344047093, -48)%Z, [20351]%N);
   ((-6248806639447641, -49)%Z, [20355]%N);
   ((-8399533486761547, -51)%Z, [20358; 26469]%N);
   ((-7666985393794251, -50)%Z, [20379]%N);
   ((-4035201642125751, -49)%Z, [20381]%N);
   ((-8220483568172169, -50)%Z, [20391; 20596]%N);
   ((-1199068423852939, -47)%Z, [20419; 36077; 36172]%N);
   ((-5872852125262791, -49)%Z, [20431; 29060; 33804]%N);
   ((-662866774556023, -46)%Z, [20440; 28937; 33300]%N);
   ((-3813047075561677, -49)%Z, [20445]%N);
   ((-4168411577563385, -49)%Z, [20462]%N);
   ((-2647992054373537, -48)%Z, [20463]%N);
   ((-3225668109769341, -49)%Z, [20498]%N);
   ((-1178137278820239, -47)%Z, [20505]%N);
   ((-2473947328970025, -48)%Z, [20506; 21671; 30862]%N);
   ((-8073718548927781, -50)%Z, [20511]%N);
   ((-3129134102960497, -48)%Z, [20521; 25275]%N);
   ((-3554889799365189, -48)%Z, [20540; 30917]%N);
   ((-4689151983188281, -49)%Z, [20542; 20670]%N);
   ((-1490309344585541, -47)%Z, [20558; 32346; 32557]%N);
   ((-2755136680069799, -49)%Z, [20570]%N);
   ((-3677355736043261, -49)%Z, [20572]%N);
   ((-325791831816057, -45)%Z, [20581]%N);
   ((-1105755760397883, -47)%Z, [20599]%N);
   ((-165178664365169, -44)%Z, [20621; 36891]%N);
   ((-8585035408109033, -50)%Z, [20633; 22791]%N);
   ((-608122963780309, -46)%Z, [20648; 20786]%N);
   ((-4674649636810059, -49)%Z, [20652]%N);
   ((-5956311873047263, -50)%Z, [20687]%N);
   ((-5066577493646275, -49)%Z, [20721; 38599]%N);
   ((-4725562296833651, -49)%Z, [20805]%N);
   ((-4493556884938321, -49)%Z, [20812; 20817; 26434; 38620]%N);
   ((-142225356483553, -44)%Z, [20813]%N);
   ((-2535017360096627, -48)%Z, [20828; 22368; 22684; 28287; 28629]%N);
   ((-6541187093168945, -50)%Z, [20837]%N);
   ((-7658024232960985, -50)%Z, [20851; 38364]%N);
   ((-8488231826229089, -50)%Z, [20852; 33288]%N);
   ((-4255695775124451, -49)%Z, [20859; 39178]%N);
   ((-7635803464221553, -50)%Z, [20860]%N);
   ((-7762150747559957, -50)%Z, [20882]%N);
   ((-3445861958376697, -49)%Z, [20889; 23531]%N);
   ((-2317695145073829, -48)%Z, [20896]%N);
   ((-671209674198627, -46)%Z, [20900; 25279]%N);
   ((-7616713654752433, -50)%Z, [20914; 34909]%N);
   ((-2567448791221999, -48)%Z, [20915; 25773; 27770]%N);
   ((-2383930172213397, -48)%Z, [20923; 20941; 28404]%N);
   ((-1125164782671525, -47)%Z, [20937; 26631; 27161; 28092]%N);
   ((-8780593169923725, -50)%Z, [20943; 28187]%N);
   ((-4748595280258491, -49)%Z, [20945; 28234]%N);
   ((-4975074691205801, -50)%Z, [20986]%N);
   ((-4959172830539583, -49)%Z, [20991; 25332; 25414; 38015]%N);
   ((-4379684261846137, -49)%Z, [20999; 28507; 28508]%N);
   ((-2270365629728393, -48)%Z, [21010; 21123]%N);
   ((-4111714649689459, -49)%Z, [21015]%N);
   ((-5682748152042829, -49)%Z, [21024; 21034]%N);
   ((-1176765706085759, -47)%Z, [21028]%N);
   ((-5389713314476803, -49)%Z, [21032]%N);
   ((-4632194728378255, -49)%Z, [21038]%N);
   ((-7858522124975439, -51)%Z, [21040]%N);
   ((-7135561365818829, -50)%Z, [21046]%N);
   ((-1240268672574807, -47)%Z, [21047]%N);
   ((-5512280739565999, -49)%Z, [21049; 21070; 36346]%N);
   ((-4259244077487289, -49)%Z, [21050]%N);
   ((-551742509583705, -46)%Z, [21051]%N);
   ((-2743738585181853, -48)%Z, [21057]%N);
   ((-5182232169361191, -49)%Z, [21059]%N);
   ((-38925238477653, -42)%Z, [21066; 25386]%N);
   ((-4874703950927199, -49)%Z, [21068]%N);
   ((-5639804469187201, -49)%Z, [21072; 21102; 35538; 35845; 36555; 36711]%N);
   ((-6212474681979365, -49)%Z, [21076; 30531]%N);
   ((-5710901515975915, -49)%Z, [21078; 32267; 32530; 32768]%N);
   ((-5849294296673785, -49)%Z, [21084]%N);
   ((-4859390123166531, -49)%Z, [21085; 21093]%N);
   ((-1703403878725003, -47)%Z, [21089]%N);
   ((-4516866385073337, -49)%Z, [21097]%N);
   ((-4921537061668913, -49)%Z, [21098; 25856; 32129; 32465]%N);
   ((-574836406631997, -46)%Z, [21106; 25285; 25812]%N);
   ((-4929585728684293, -49)%Z, [21119]%N);
   ((-3419901977767417, -48)%Z, [21121; 25550; 25865; 29048; 38186]%N);
   ((-5112020621672115, -49)%Z, [21128]%N);
   ((-4142233728350319, -49)%Z, [21149; 21240]%N);
   ((-3648314629185525, -49)%Z, [21150; 36774]%N);
   ((-7279736770680709, -50)%Z, [21152]%N);
   ((-7014517452781137, -50)%Z, [21160; 21205]%N);
   ((-4632726063909367, -49)%Z, [21161]%N);
   ((-5357989431470189, -49)%Z, [21162; 39389; 39548]%N);
   ((-2537338816362363, -48)%Z, [21163]%N);
   ((-4965857641359869, -49)%Z, [21171; 21214]%N);
   ((-4524270862580817, -49)%Z, [21202; 30733]%N);
   ((-33523962305919, -42)%Z, [21213; 32988]%N);
   ((-2609329097415463, -48)%Z, [21243; 21248]%N);
   ((-2478166017082981, -48)%Z, [21246]%N);
   ((-8169540333551071, -50)%Z, [21253]%N);
   ((-7465357081210175, -50)%Z, [21270; 23613; 30433]%N);
   ((-3784177715068819, -49)%Z, [21295; 27719]%N);
   ((-1226660254680135, -47)%Z, [21307; 37291]%N);
   ((-7392343995885697, -50)%Z, [21319]%N);
   ((-451973496234343, -46)%Z, [21334; 36067]%N);
   ((-1650670463747425, -47)%Z, [21345]%N);
   ((-5767813570259727, -49)%Z, [21348; 40565]%N);
   ((-2407165042304999, -48)%Z, [21351; 33253]%N);
   ((-4569440520445149, -49)%Z, [21355; 34907]%N);
   ((-8395653988029063, -50)%Z, [21360]%N);
   ((-719447896509915, -47)%Z, [21363]%N);
   ((-4834504305450187, -49)%Z, [21368]%N);
   ((-2447331454127857, -48)%Z, [21382; 27511; 30003]%N);
   ((-7953139650160577, -50)%Z, [21387; 22739]%N);
   ((-2277577458690403, -49)%Z, [21435]%N);
   ((-2590411516160747, -48)%Z, [21449]%N);
   ((-7029593458941897, -50)%Z, [21453]%N);
   ((-103379193487483, -44)%Z, [21457; 30332]%N);
   ((-3652213061589807, -49)%Z, [21462]%N);
   ((-6120514399869727, -50)%Z, [21463]%N);
   ((-3498613725692481, -49)%Z, [21464; 35722]%N);
   ((-608626679203739, -46)%Z, [21465; 25944]%N);
   ((-5100921577422045, -49)%Z, [21472; 30090]%N);
   ((-5887624509147673, -50)%Z, [21483]%N);
   ((-679282958174903, -46)%Z, [21486; 35261; 35272]%N);
   ((-1162638976971247, -48)%Z, [21487]%N);
   ((-2411231068023289, -48)%Z, [21494; 33865]%N);
   ((-8376182687240913, -50)%Z, [21497; 22022]%N);
   ((-5605862960972851, -49)%Z, [21500]%N);
   ((-1500941278632123, -48)%Z, [21507]%N);
   ((-5732980814618705, -49)%Z, [21510]%N);
   ((-7446390967602401, -50)%Z, [21512]%N);
   ((-2355052080250003, -48)%Z, [21514]%N);
   ((-8735876466239441, -50)%Z, [21520]%N);
   ((-262749899957049, -45)%Z, [21523; 22151]%N);
   ((-5771820348408687, -49)%Z, [21531]%N);
   ((-2390770727016349, -48)%Z, [21534]%N);
   ((-5259220606640247, -49)%Z, [21535; 21957]%N);
   ((-6568553226961953, -49)%Z, [21539; 25331; 37561; 38152]%N);
   ((-7632807055515279, -50)%Z, [21547]%N);
   ((-729304948734133, -47)%Z, [21548; 32893]%N);
   ((-5443164245325485, -49)%Z, [21549; 25248; 25715]%N);
   ((-5763835108800667, -49)%Z, [21550; 36343; 36474]%N);
   ((-4702230606231787, -49)%Z, [21551; 21855]%N);
   ((-4886260514161453, -49)%Z, [21557]%N);
   ((-2166426559955901, -48)%Z, [21560]%N);
   ((-4069123408884219, -49)%Z, [21561]%N);
   ((-2413849458781267, -48)%Z, [21563]%N);
   ((-4897208277867583, -49)%Z, [21564; 36880]%N);
   ((-8639184226842671, -50)%Z, [21574]%N);
   ((-7310590335495555, -50)%Z, [21576]%N);
   ((-8295643842963729, -50)%Z, [21578]%N);
   ((-2612355739230261, -48)%Z, [21595; 21958]%N);
   ((-6398384224220931, -49)%Z, [21618; 28997]%N);
   ((-5015015385531153, -49)%Z, [21621]%N);
   ((-5573852015517915, -49)%Z, [21623; 23700]%N);
   ((-2267669919004093, -48)%Z, [21628]%N);
   ((-7203822687910347, -49)%Z, [21629; 28864; 30388; 31207; 31881; 33014; 33184]%N);
   ((-2929299733218653, -48)%Z, [21634; 25733; 34496]%N);
   ((-5273971230958991, -49)%Z, [21650; 28183; 28402]%N);
   ((-4239338374227603, -49)%Z, [21676]%N);
   ((-5659218460400145, -49)%Z, [21679; 27777]%N);
   ((-2557884734921993, -48)%Z, [21683]%N);
   ((-4709494577383137, -49)%Z, [21693]%N);
   ((-8422989029556227, -50)%Z, [21697]%N);
   ((-4776715154203559, -49)%Z, [21700]%N);
   ((-8074087514982809, -50)%Z, [21709; 38911]%N);
   ((-1315616320985519, -47)%Z, [21713; 21854]%N);
   ((-1869092763788455, -48)%Z, [21741]%N);
   ((-2293403981600001, -48)%Z, [21756]%N);
   ((-6340296663238495, -49)%Z, [21757]%N);
   ((-3349163254919997, -48)%Z, [21792; 22062; 29050]%N);
   ((-1767015129814573, -47)%Z, [21799; 25125]%N);
   ((-4930487169955245, -49)%Z, [21804]%N);
   ((-8355619917355925, -50)%Z, [21806]%N);
   ((-4010729526416665, -49)%Z, [21809]%N);
   ((-5868061032910659, -49)%Z, [21822]%N);
   ((-2572685686033437, -48)%Z, [21827]%N);
   ((-2859082743563633, -48)%Z, [21828; 32196; 32498; 37463; 38067]%N);
   ((-363824375817829, -46)%Z, [21839; 38382]%N);
   ((-5740537303289457, -49)%Z, [21840; 28938]%N);
   ((-5966895214442761, -49)%Z, [21880; 22063; 28944]%N);
   ((-5627224058429449, -49)%Z, [21884; 37720; 38113]%N);
   ((-4670086694273379, -49)%Z, [21890; 39221]%N);
   ((-8364181935095319, -50)%Z, [21892; 22815; 22816]%N);
   ((-7858465130540849, -50)%Z, [21898]%N);
   ((-155793952467509, -44)%Z, [21912]%N);
   ((-7941926728886011, -50)%Z, [21916]%N);
   ((-298033535041773, -45)%Z, [21943; 22132; 24367; 24398]%N);
   ((-47721661407325, -42)%Z, [21965; 25661]%N);
   ((-6308119336829659, -49)%Z, [21969; 23860; 26009]%N);
   ((-1275842297442727, -47)%Z, [22039; 23581]%N);
   ((-5863310372199541, -49)%Z, [22040; 22099]%N);
   ((-6195151778166219, -49)%Z, [22060; 22278; 22291; 35057]%N);
   ((-5813539427880773, -49)%Z, [22094; 23413; 24677; 32827]%N);
   ((-6138403777490859, -49)%Z, [22104]%N);
   ((-5582403318475211, -49)%Z, [22105]%N);
   ((-179873798579139, -44)%Z, [22158; 30264]%N);
   ((-4769213590158775, -49)%Z, [22199]%N);
   ((-2498735076941117, -48)%Z, [22204]%N);
   ((-6199505298618627, -50)%Z, [22238]%N);
   ((-2627194194264499, -48)%Z, [22244]%N);
   ((-4830713382347361, -49)%Z, [22256; 24735]%N);
   ((-8487698855849033, -50)%Z, [22260; 22285]%N);
   ((-2502314280185437, -48)%Z, [22280; 23472; 28907; 29145]%N);
   ((-737179875028411, -46)%Z, [22349; 27762; 28422]%N);
   ((-6856139468049943, -50)%Z, [22352]%N);
   ((-6026840084775459, -49)%Z, [22376; 25159]%N);
   ((-5387677326892569, -49)%Z, [22378; 34360]%N);
   ((-4560953676996207, -49)%Z, [22402]%N);
   ((-1301317924983449, -47)%Z, [22418; 22744]%N);
   ((-6002091046493287, -49)%Z, [22427]%N);
   ((-1343406983947583, -47)%Z, [22438; 22718; 25893]%N);
   ((-4925100047951435, -49)%Z, [22443; 22666; 23457; 23529]%N);
   ((-5304685208601487, -49)%Z, [22446]%N);
   ((-2188995589001635, -48)%Z, [22475]%N);
   ((-4579506305022467, -49)%Z, [22519; 25191]%N);
   ((-5693141369458519, -49)%Z, [22521; 25358; 35473; 35827]%N);
   ((-4504455735245379, -49)%Z, [22534]%N);
   ((-5759884566599351, -49)%Z, [22549; 22702]%N);
   ((-323713588358125, -45)%Z, [22570; 36022; 36140]%N);
   ((-4925994329241041, -49)%Z, [22581; 24700; 24817]%N);
   ((-4979470220578681, -49)%Z, [22604]%N);
   ((-2376592731280437, -48)%Z, [22615; 28034; 31896]%N);
   ((-8676366468954523, -50)%Z, [22622]%N);
   ((-601151955453191, -46)%Z, [22635]%N);
   ((-242915730438147, -44)%Z, [22657; 26367; 30813; 32802]%N);
   ((-3505605210237387, -49)%Z, [22686]%N);
   ((-5525104755454333, -49)%Z, [22697]%N);
   ((-2333626761475807, -48)%Z, [22766; 22767]%N);
   ((-7154839637286911, -49)%Z, [22831; 27974; 28479; 30839; 32078; 32471; 40572]%N);
   ((-4318678480621251, -49)%Z, [22833]%N);
   ((-5189331254022687, -49)%Z, [22840; 35463; 36910]%N);
   ((-4437116068893665, -49)%Z, [22841; 22846]%N);
   ((-1104570403634551, -47)%Z, [22842; 22890]%N);
   ((-8245986355151101, -50)%Z, [22857]%N);
   ((-8051075620948979, -50)%Z, [22863]%N);
   ((-4158480305439343, -49)%Z, [22868]%N);
   ((-5400086948973149, -50)%Z, [22914]%N);
   ((-7796228503681409, -50)%Z, [22995]%N);
   ((-2287825234174767, -48)%Z, [23094]%N);
   ((-1130739273282941, -47)%Z, [23233]%N);
   ((-4588771173396887, -49)%Z, [23244]%N);
   ((-3077021140905501, -48)%Z, [23254; 36398]%N);
   ((-4079771466258429, -49)%Z, [23384]%N);
   ((-6893533006858651, -50)%Z, [23398; 23416]%N);
   ((-246017803924849, -45)%Z, [23432]%N);
   ((-7189252265693659, -50)%Z, [23433]%N);
   ((-3626274466167599, -49)%Z, [23436]%N);
   ((-859956484159415, -47)%Z, [23450]%N);
   ((-7029220985468311, -49)%Z, [23453; 23542; 28425; 29313; 38931; 39039]%N);
   ((-5270659751096053, -49)%Z, [23456; 23541; 28107; 29022]%N);
   ((-8806460992973821, -50)%Z, [23475]%N);
   ((-8967360633275065, -50)%Z, [23481]%N);
   ((-5051836773530655, -49)%Z, [23487]%N);
   ((-532439744054953, -46)%Z, [23492]%N);
   ((-4233815345100431, -49)%Z, [23547; 23563]%N);
   ((-37072963618511, -42)%Z, [23548; 23566]%N);
   ((-4091843764911071, -49)%Z, [23556]%N);
   ((-5817886553369657, -49)%Z, [23615; 34224]%N);
   ((-7431069509581319, -50)%Z, [23621]%N);
   ((-5246425738754789, -49)%Z, [23624]%N);
   ((-6191920640916345, -50)%Z, [23646; 23660]%N);
   ((-2851865041003939, -48)%Z, [23648; 36409]%N);
   ((-2445643443211537, -48)%Z, [23663; 25179]%N);
   ((-2624798648088433, -48)%Z, [23849]%N);
   ((-4977505297280417, -49)%Z, [23884; 25106]%N);
   ((-2977817920025923, -48)%Z, [24034]%N);
   ((-5383627309759493, -49)%Z, [24076; 25950; 37659; 38171]%N);
   ((-6115060202803575, -50)%Z, [24102; 24118]%N);
   ((-4099007376707555, -49)%Z, [24110; 24171]%N);
   ((-1674532250916371, -48)%Z, [24178; 24185]%N);
   ((-7474202943744683, -50)%Z, [24179]%N);
   ((-1541230741131777, -48)%Z, [24212; 25033]%N);
   ((-4307530592507247, -49)%Z, [24223; 24290]%N);
   ((-1804423226083075, -48)%Z, [24314]%N);
   ((-5948742863766859, -50)%Z, [24320; 38283]%N);
   ((-7723654693175047, -50)%Z, [24324]%N);
   ((-2506461316182427, -48)%Z, [24339; 24524]%N);
   ((-7697998137697531, -50)%Z, [24341]%N);
   ((-1997893075129401, -48)%Z, [24377; 24392]%N);
   ((-3861692200757221, -49)%Z, [24402; 27512]%N);
   ((-4509558035612239, -49)%Z, [24405; 37636]%N);
   ((-4249741441260619, -49)%Z, [24449; 24501]%N);
   ((-7501387205945469, -50)%Z, [24453]%N);
   ((-5602876482067247, -49)%Z, [24518; 25014; 25551]%N);
   ((-290659221916001, -45)%Z, [24525]%N);
   ((-506808807447687, -46)%Z, [24536]%N);
   ((-1843441668850921, -48)%Z, [24537]%N);
   ((-140843784526789, -44)%Z, [24551; 24962]%N);
   ((-8440225114400795, -50)%Z, [24565]%N);
   ((-4574690621649105, -49)%Z, [24576; 25079]%N);
   ((-6374425291266241, -49)%Z, [24580; 24938]%N);
   ((-1179367778360337, -47)%Z, [24596]%N);
   ((-7221147647475069, -50)%Z, [24597]%N);
   ((-4392027142590959, -49)%Z, [24605]%N);
   ((-1809382116098887, -48)%Z, [24613]%N);
   ((-2400635690797285, -48)%Z, [24616; 30127; 30219]%N);
   ((-8576354563973493, -50)%Z, [24618]%N);
   ((-2665812876747183, -48)%Z, [24651; 25088]%N);
   ((-8326155434597809, -50)%Z, [24680]%N);
   ((-5912723648257307, -49)%Z, [24736]%N);
   ((-4504032623648293, -49)%Z, [24739]%N);
   ((-4528672370174549, -49)%Z, [24748; 25080]%N);
   ((-4747942584587205, -49)%Z, [24758; 38391]%N);
   ((-7869488443138785, -50)%Z, [24778; 39514]%N);
   ((-2799952881509063, -48)%Z, [24785]%N);
   ((-779937683710515, -46)%Z, [24806; 26185; 26187]%N);
   ((-5154698566907313, -49)%Z, [24807; 25084]%N);
   ((-4904052738513179, -49)%Z, [24815; 24931; 27900; 28497]%N);
   ((-2671271760017057, -49)%Z, [24819]%N);
   ((-4719948344956559, -49)%Z, [24825]%N);
   ((-4849147224224349, -49)%Z, [24833]%N);
   ((-1297690469322947, -47)%Z, [24858; 26144]%N);
   ((-6922350073094751, -50)%Z, [24859; 29233]%N);
   ((-2259734311849055, -48)%Z, [24867; 25746]%N);
   ((-3882195393952307, -49)%Z, [24895; 39000]%N);
   ((-4882934360004183, -49)%Z, [24908; 25602; 25695]%N);
   ((-2493200984926757, -48)%Z, [24971]%N);
   ((-8508131220055073, -50)%Z, [25026]%N);
   ((-5939158079699373, -49)%Z, [25077; 29042]%N);
   ((-703505656766197, -47)%Z, [25104]%N);
   ((-6287646173237623, -49)%Z, [25111; 25127; 33152]%N);
   ((-4811401859784501, -49)%Z, [25130]%N);
   ((-2470249739157551, -48)%Z, [25139]%N);
   ((-2037507057198151, -48)%Z, [25140]%N);
   ((-3772523405148623, -48)%Z, [25149; 27602; 27709; 30477; 40778; 40784]%N);
   ((-1082280210339067, -47)%Z, [25166]%N);
   ((-4202758694003549, -49)%Z, [25169; 25778]%N);
   ((-2511732537210579, -48)%Z, [25170; 29006]%N);
   ((-6065389409091149, -50)%Z, [25171]%N);
   ((-8763445413747963, -50)%Z, [25172]%N);
   ((-1066949194356915, -47)%Z, [25176]%N);
   ((-4723060292922137, -49)%Z, [25187]%N);
   ((-4532663367260969, -49)%Z, [25195; 25475; 38745; 38748]%N);
   ((-1829197561643447, -47)%Z, [25196; 25562; 25627; 28530]%N);
   ((-2340202910727013, -48)%Z, [25197]%N);
   ((-5404175209488835, -49)%Z, [25198; 32180; 32512]%N);
   ((-4285015440901017, -49)%Z, [25199]%N);
   ((-320129597909729, -45)%Z, [25200; 25854]%N);
   ((-2711666127435219, -48)%Z, [25203]%N);
   ((-4406066522401421, -49)%Z, [25206]%N);
   ((-1632403552470983, -48)%Z, [25214]%N);
   ((-4559084961741915, -49)%Z, [25220]%N);
   ((-4065230240163119, -49)%Z, [25235]%N);
   ((-899881079539669, -47)%Z, [25237]%N);
   ((-587031010620261, -46)%Z, [25238]%N);
   ((-2071228097125317, -48)%Z, [25239]%N);
   ((-1063313073569487, -47)%Z, [25240]%N);
   ((-4374956400015365, -49)%Z, [25243; 25291]%N);
   ((-6423408341889677, -49)%Z, [25247; 25718]%N);
   ((-2713839690179661, -48)%Z, [25249; 25324; 25476; 31546; 31627; 35408; 35784]%N);
   ((-263581868999105, -45)%Z, [25250; 25654]%N);
   ((-4546630829285471, -49)%Z, [25252; 35703]%N);
   ((-1166108634706651, -47)%Z, [25259]%N);
   ((-8346652316718691, -50)%Z, [25260]%N);
   ((-4037597569590591, -49)%Z, [25265]%N);
   ((-563801616650013, -46)%Z, [25269]%N);
   ((-4601701687788449, -49)%Z, [25273]%N);
   ((-1168090885621745, -47)%Z, [25276; 32302; 32553]%N);
   ((-2127304237027773, -48)%Z, [25277]%N);
   ((-330146010545029, -45)%Z, [25282]%N);
   ((-1361916967243071, -47)%Z, [25284; 28822; 29129; 30910]%N);
   ((-4823953395073379, -49)%Z, [25286]%N);
   ((-653279378074489, -46)%Z, [25288]%N);
   ((-6917715916292027, -50)%Z, [25289]%N);
   ((-2582091452988213, -48)%Z, [25292]%N);
   ((-8182874312085927, -50)%Z, [25293]%N);
   ((-5162818178148247, -49)%Z, [25294]%N);
   ((-4794853896542087, -49)%Z, [25296; 25581]%N);
   ((-5027737959856293, -49)%Z, [25299; 25972]%N);
   ((-4466802608540291, -49)%Z, [25300; 37782; 38145]%N);
   ((-2140793146762865, -48)%Z, [25302]%N);
   ((-2628802627079543, -48)%Z, [25307]%N);
   ((-7931799605012925, -50)%Z, [25308]%N);
   ((-2022330045740549, -48)%Z, [25311; 25836]%N);
   ((-4991406002388017, -49)%Z, [25314; 25429; 25871]%N);
   ((-5030964042916789, -49)%Z, [25315; 25487; 25536; 35413; 35780]%N);
   ((-8908549386814191, -50)%Z, [25317; 25793]%N);
   ((-2421854025963313, -48)%Z, [25318; 25876]%N);
   ((-1247600407776867, -47)%Z, [25319; 25424; 25840]%N);
   ((-8702499482598017, -50)%Z, [25320; 25765]%N);
   ((-2564224529429353, -48)%Z, [25321; 25799]%N);
   ((-8480263640764197, -50)%Z, [25329]%N);
   ((-1221773783120251, -47)%Z, [25340]%N);
   ((-1156464378440739, -47)%Z, [25341]%N);
   ((-2442297490269993, -48)%Z, [25342]%N);
   ((-827679511496753, -47)%Z, [25343]%N);
   ((-3538188065422245, -49)%Z, [25345]%N);
   ((-3928319179531779, -49)%Z, [25346; 25499]%N);
   ((-6660706038476665, -50)%Z, [25351]%N);
   ((-1097315199546705, -47)%Z, [25361]%N);
   ((-8720701494149711, -50)%Z, [25366]%N);
   ((-5299448427085531, -49)%Z, [25375; 25406; 40664]%N);
   ((-5080535645557683, -49)%Z, [25376; 25747]%N);
   ((-4596693203208999, -49)%Z, [25377; 25803]%N);
   ((-4853851568760081, -49)%Z, [25379; 25497]%N);
   ((-4428914003951795, -49)%Z, [25380; 25824]%N);
   ((-8872730937689139, -50)%Z, [25381; 25582]%N);
   ((-4694465656179863, -49)%Z, [25384]%N);
   ((-4869822851387503, -49)%Z, [25387]%N);
   ((-4613907042917795, -49)%Z, [25391]%N);
   ((-4935016156196291, -49)%Z, [25402]%N);
   ((-5006690650418037, -49)%Z, [25405; 35347; 35757]%N);
   ((-5044056492388889, -49)%Z, [25413]%N);
   ((-8949553074464275, -50)%Z, [25417]%N);
   ((-5375613651970623, -49)%Z, [25419]%N);
   ((-4900620106210439, -49)%Z, [25422]%N);
   ((-4668951714144125, -49)%Z, [25423]%N);
   ((-2382245696948489, -48)%Z, [25441; 25791]%N);
   ((-3857652839106387, -49)%Z, [25442; 25563]%N);
   ((-5289118780326949, -49)%Z, [25443; 25623; 31388; 31428]%N);
   ((-8917880102428029, -50)%Z, [25447]%N);
   ((-1300950943058809, -47)%Z, [25462]%N);
   ((-6463162498063499, -49)%Z, [25466]%N);
   ((-5136196198829371, -49)%Z, [25467]%N);
   ((-5185061069552421, -49)%Z, [25472]%N);
   ((-5646201696590087, -49)%Z, [25474; 25987; 27609]%N);
   ((-7568826517971641, -50)%Z, [25481]%N);
   ((-4908373173789967, -49)%Z, [25484; 25721]%N);
   ((-5229294542743061, -49)%Z, [25488; 28024]%N);
   ((-2077187246706815, -48)%Z, [25490]%N);
   ((-5468392293426971, -49)%Z, [25494]%N);
   ((-2317428217622141, -48)%Z, [25496]%N);
   ((-4892128995710129, -49)%Z, [25504]%N);
   ((-8774389848959419, -50)%Z, [25505; 37319]%N);
   ((-1096027564870685, -47)%Z, [25506]%N);
   ((-5318892901577401, -49)%Z, [25507]%N);
   ((-7444279772708837, -50)%Z, [25509]%N);
   ((-2303377566217817, -48)%Z, [25511; 27867]%N);
   ((-1915208229994299, -48)%Z, [25512]%N);
   ((-4789210240719665, -49)%Z, [25513]%N);
   ((-6146168727542783, -49)%Z, [25516; 25694]%N);
   ((-7458267692268627, -49)%Z, [25517; 36228; 38988; 39064]%N);
   ((-5485055876508783, -49)%Z, [25520]%N);
   ((-6719572425720043, -49)%Z, [25524; 25681; 30744]%N);
   ((-4954446102909935, -49)%Z, [25527; 25842; 30442; 33633]%N);
   ((-5669182436503829, -49)%Z, [25528; 25763]%N);
   ((-1409158227941281, -47)%Z, [25530; 25723]%N);
   ((-1214648889278973, -47)%Z, [25545]%N);
   ((-1448073378000181, -47)%Z, [25549; 35355; 35769]%N);
   ((-1807283504500707, -48)%Z, [25552]%N);
   ((-8592613328918119, -50)%Z, [25554]%N);
   ((-4547087213545101, -49)%Z, [25569]%N);
   ((-5363803079903201, -49)%Z, [25571; 36887]%N);
   ((-2645413639610387, -48)%Z, [25577; 28108]%N);
   ((-1219085108625591, -47)%Z, [25578]%N);
   ((-5168297053058041, -49)%Z, [25597; 25900]%N);
   ((-5301188613798645, -49)%Z, [25600; 25881]%N);
   ((-4974570712250591, -49)%Z, [25601; 25841]%N);
   ((-1218471872411967, -47)%Z, [25605; 25898; 32340; 32455]%N);
   ((-7935253983307581, -49)%Z, [25611; 32021; 32432; 39387; 39490; 39542; 39574]%N);
   ((-632892671165703, -46)%Z, [25619]%N);
   ((-5972610491485545, -49)%Z, [25620; 30779; 31025]%N);
   ((-2141935034644183, -48)%Z, [25622; 25671]%N);
   ((-1228838897076829, -47)%Z, [25628; 25810]%N);
   ((-7989858862495779, -50)%Z, [25630]%N);
   ((-5554390078986761, -49)%Z, [25632]%N);
   ((-1582341313177427, -47)%Z, [25633; 28975; 32810; 34181; 35427; 35811; 37640; 38185]%N);
   ((-8609703998506829, -50)%Z, [25644]%N);
   ((-8700566606746751, -50)%Z, [25645]%N);
   ((-4873072210789339, -49)%Z, [25658; 25884; 26179; 37336; 38025]%N);
   ((-6066131605706077, -49)%Z, [25665; 34615]%N);
   ((-8245556540331281, -50)%Z, [25670; 25850]%N);
   ((-656999315447469, -46)%Z, [25674; 25892]%N);
   ((-4657170567675253, -49)%Z, [25684]%N);
   ((-4829204132238491, -49)%Z, [25688]%N);
   ((-3433635188090717, -48)%Z, [25705; 29926]%N);
   ((-2050225551668261, -48)%Z, [25720]%N);
   ((-1339016203592551, -47)%Z, [25730; 26775; 36401]%N);
   ((-5402086338990389, -49)%Z, [25735]%N);
   ((-5010837630153961, -49)%Z, [25749]%N);
   ((-8687128596675191, -50)%Z, [25758]%N);
   ((-282007914563239, -45)%Z, [25764]%N);
   ((-2708436933585263, -48)%Z, [25769; 34924; 35183]%N);
   ((-2646270489516247, -48)%Z, [25772; 25781; 25862]%N);
   ((-1249876535366617, -47)%Z, [25774]%N);
   ((-2922349380664853, -48)%Z, [25788; 37247; 37312]%N);
   ((-6046143117093115, -49)%Z, [25792; 26964; 36955]%N);
   ((-1419831488334321, -47)%Z, [25794; 28921; 32176; 32510]%N);
   ((-8343835217900773, -50)%Z, [25805]%N);
   ((-2862762207418363, -48)%Z, [25806]%N);
   ((-1626484690214349, -47)%Z, [25828; 37941; 38081]%N);
   ((-4373277454680751, -49)%Z, [25830]%N);
   ((-2593952128589471, -48)%Z, [25874; 25890]%N);
   ((-6926583073563453, -49)%Z, [25902; 27845; 32625]%N);
   ((-860244192924053, -47)%Z, [25910]%N);
   ((-7033833590866903, -50)%Z, [25913]%N);
   ((-8195956811137089, -50)%Z, [25915]%N);
   ((-6889531065236323, -50)%Z, [25918]%N);
   ((-2002735774824649, -48)%Z, [25937]%N);
   ((-4265300321214863, -49)%Z, [25943; 36133]%N);
   ((-3727224903571553, -49)%Z, [25945]%N);
   ((-7566473047409773, -50)%Z, [25954]%N);
   ((-7933752597535299, -50)%Z, [25955]%N);
   ((-4813596599224901, -49)%Z, [25964]%N);
   ((-8923358944902963, -50)%Z, [25970]%N);
   ((-653853819992499, -46)%Z, [25975; 36009; 36137]%N);
   ((-8287585678020353, -50)%Z, [26007; 39717]%N);
   ((-2226557185089613, -48)%Z, [26012]%N);
   ((-656398725080395, -46)%Z, [26015; 30511; 30599; 39165; 39281]%N);
   ((-8924929237914609, -50)%Z, [26025; 26028]%N);
   ((-482542815485723, -46)%Z, [26029; 26039]%N);
   ((-1190452668691863, -47)%Z, [26045]%N);
   ((-5874208566843357, -50)%Z, [26080; 28961]%N);
   ((-2647129955761757, -48)%Z, [26114]%N);
   ((-634919894524827, -46)%Z, [26127]%N);
   ((-2697932917111919, -48)%Z, [26151]%N);
   ((-4853185118265519, -51)%Z, [26159]%N);
   ((-4066978835039499, -49)%Z, [26174; 39023]%N);
   ((-1198182722450467, -47)%Z, [26194; 26348]%N);
   ((-155577715676023, -44)%Z, [26197; 26248]%N);
   ((-5110776532870931, -49)%Z, [26228]%N);
   ((-5440925872780371, -49)%Z, [26238; 29997]%N);
   ((-8714166943555969, -50)%Z, [26263]%N);
   ((-3050052464488245, -50)%Z, [26377]%N);
   ((-8305118512397969, -50)%Z, [26381]%N);
   ((-27814184710113, -42)%Z, [26395]%N);
   ((-8786830858492521, -50)%Z, [26415; 34899]%N);
   ((-1518238831263291, -47)%Z, [26429; 28478]%N);
   ((-6887728388879609, -50)%Z, [26432; 27578]%N);
   ((-2514943313204559, -48)%Z, [26463; 27754]%N);
   ((-5877684343374041, -49)%Z, [26464; 27091]%N);
   ((-3010275037862091, -48)%Z, [26485; 28829; 29079]%N);
   ((-4147372818982241, -49)%Z, [26494]%N);
   ((-2661250783741049, -48)%Z, [26517]%N);
   ((-5124615105650957, -49)%Z, [26543]%N);
   ((-4808488787548539, -49)%Z, [26579; 29702]%N);
   ((-5156043728726369, -49)%Z, [26580]%N);
   ((-4238546044816833, -49)%Z, [26597]%N);
   ((-7916617250265313, -50)%Z, [26641; 27193]%N);
   ((-3338926673123979, -48)%Z, [26657]%N);
   ((-2463445016706585, -48)%Z, [26685]%N);
   ((-8163510547031039, -49)%Z, [26692; 28452; 29151; 30897; 32368; 32562; 32800; 33829; 37628; 38050; 38296;
     38392]%N);
   ((-5243271949254611, -49)%Z, [26803; 38924; 39042; 39511; 39564]%N);
   ((-5002573996216533, -49)%Z, [26816; 27298]%N);
   ((-6491315861996585, -49)%Z, [26864; 38007; 38218]%N);
   ((-5033125081860103, -49)%Z, [26893]%N);
   ((-5696648857150429, -49)%Z, [27048; 28953]%N);
   ((-4257057861328317, -49)%Z, [27178; 27243]%N);
   ((-4646175101852159, -49)%Z, [27424]%N);
   ((-2267893578115353, -48)%Z, [27463]%N);
   ((-8534482103721781, -50)%Z, [27490]%N);
   ((-2347529586131875, -48)%Z, [27498]%N);
   ((-3063324699010483, -49)%Z, [27515]%N);
   ((-4679827547182919, -49)%Z, [27584; 27585]%N);
   ((-2005012809456055, -48)%Z, [27714]%N);
   ((-6896145933867731, -49)%Z, [27718; 32793]%N);
   ((-8932813723264617, -50)%Z, [27784; 27785]%N);
   ((-1437049151120131, -47)%Z, [27791]%N);
   ((-2989192193888465, -48)%Z, [27812; 28442; 29483; 31384; 35987]%N);
   ((-7652935411159679, -50)%Z, [27835]%N);
   ((-4851494482469001, -49)%Z, [27838]%N);
   ((-4595199305949953, -49)%Z, [27873]%N);
   ((-955960590275263, -46)%Z, [27877; 28375]%N);
   ((-8743875788747349, -50)%Z, [27880; 37266]%N);
   ((-7383096201010369, -49)%Z, [27893; 27911; 28270]%N);
   ((-5186480868422091, -49)%Z, [27899; 28681]%N);
   ((-2551072026685663, -48)%Z, [27922; 28753]%N);
   ((-8407500479504971, -50)%Z, [27927]%N);
   ((-2365299956962927, -48)%Z, [27963]%N);
   ((-6854139645309535, -50)%Z, [27966]%N);
   ((-3489192337601699, -49)%Z, [27969]%N);
   ((-5118282643452839, -49)%Z, [27975; 28550; 32842]%N);
   ((-279975979898573, -45)%Z, [27979; 28204]%N);
   ((-6052727402133017, -49)%Z, [27998; 34091; 37694; 37864]%N);
   ((-4380362923716663, -49)%Z, [28014]%N);
   ((-4704641530488113, -49)%Z, [28040]%N);
   ((-1152707701502317, -47)%Z, [28044; 28263]%N);
   ((-2792641432078657, -48)%Z, [28061; 28551; 36804]%N);
   ((-4457380632063327, -49)%Z, [28070; 28516; 35613; 35874]%N);
   ((-6776110973656947, -50)%Z, [28072; 28466]%N);
   ((-2992109059127953, -48)%Z, [28078]%N);
   ((-2404971719700179, -48)%Z, [28120]%N);
   ((-1266071103827259, -47)%Z, [28132]%N);
   ((-4401817823340521, -49)%Z, [28151]%N);
   ((-5504724250895247, -49)%Z, [28153]%N);
   ((-8847512098893891, -50)%Z, [28155]%N);
   ((-2920070218603205, -48)%Z, [28173; 28460]%N);
   ((-1169668194410695, -47)%Z, [28193]%N);
   ((-1009537981762225, -47)%Z, [28201; 28331]%N);
   ((-3496444514000017, -48)%Z, [28212]%N);
   ((-2026759845491445, -48)%Z, [28216; 36938]%N);
   ((-4593709362548003, -49)%Z, [28286; 28771]%N);
   ((-5337172103318053, -49)%Z, [28293; 28666; 32033; 32442]%N);
   ((-2371051064613151, -48)%Z, [28316]%N);
   ((-1380629118811743, -47)%Z, [28322]%N);
   ((-2070672371423159, -48)%Z, [28357; 28781]%N);
   ((-654821768461761, -46)%Z, [28363]%N);
   ((-2320108951948717, -48)%Z, [28369]%N);
   ((-8829322690252619, -50)%Z, [28378; 28414; 36024; 36151; 36530]%N);
   ((-5313522908997543, -49)%Z, [28388; 28670]%N);
   ((-1311211658866437, -47)%Z, [28418; 32323; 32503]%N);
   ((-2505939582990027, -48)%Z, [28431]%N);
   ((-4548916459519917, -49)%Z, [28436]%N);
   ((-5161456750753345, -49)%Z, [28459]%N);
   ((-5923148945335281, -49)%Z, [28465]%N);
   ((-5672543341730799, -49)%Z, [28548]%N);
   ((-5085266345274085, -49)%Z, [28608]%N);
   ((-4711325310552423, -49)%Z, [28748; 28856]%N);
   ((-1077031892561111, -47)%Z, [28818]%N);
   ((-383171529768737, -45)%Z, [28846; 39219; 39271]%N);
   ((-2452457088509283, -48)%Z, [28860; 29001]%N);
   ((-4793437669497245, -49)%Z, [28866; 29211]%N);
   ((-2766470886162473, -48)%Z, [28888]%N);
   ((-5686191281757409, -49)%Z, [28889]%N);
   ((-5071191863362073, -49)%Z, [28900]%N);
   ((-598476015381229, -46)%Z, [28902; 29033]%N);
   ((-8260698554046447, -50)%Z, [28903; 29138]%N);
   ((-3138841098566969, -48)%Z, [28905; 29172]%N);
   ((-382699249226815, -45)%Z, [28950; 29148; 30585; 31968]%N);
   ((-8073349703746155, -50)%Z, [29031]%N);
   ((-1502044262802649, -47)%Z, [29032]%N);
   ((-4509985322124913, -49)%Z, [29038]%N);
   ((-5195075691146979, -49)%Z, [29071; 32728; 32761]%N);
   ((-5591086523326573, -49)%Z, [29076]%N);
   ((-3268187950276559, -48)%Z, [29080]%N);
   ((-4663310885851907, -49)%Z, [29087]%N);
   ((-3089173026975809, -48)%Z, [29096]%N);
   ((-598563593169979, -46)%Z, [29100]%N);
   ((-1521714007540191, -47)%Z, [29134]%N);
   ((-4988398248375991, -49)%Z, [29190]%N);
   ((-8297442405497703, -50)%Z, [29228; 35712; 35835]%N);
   ((-2271269967780879, -48)%Z, [29301; 29309]%N);
   ((-4288465604632445, -49)%Z, [29359]%N);
   ((-2222719702655403, -48)%Z, [29468]%N);
   ((-8289371403861531, -50)%Z, [29486; 29563]%N);
   ((-1815190500819921, -48)%Z, [29554; 33719]%N);
   ((-55782975177125, -43)%Z, [29575]%N);
   ((-8604372181564651, -50)%Z, [29609]%N);
   ((-8265062512637111, -50)%Z, [29615; 29872]%N);
   ((-2831260114561341, -48)%Z, [29730]%N);
   ((-6407829349966691, -50)%Z, [29983]%N);
   ((-1227310313518799, -47)%Z, [29993]%N);
   ((-1550936650222777, -47)%Z, [30002]%N);
   ((-3843739045031153, -49)%Z, [30011; 30059]%N);
   ((-7725819365616599, -50)%Z, [30041]%N);
   ((-4618553148685321, -49)%Z, [30140]%N);
   ((-1479478040954831, -47)%Z, [30239]%N);
   ((-352687124741813, -45)%Z, [30251; 30321]%N);
   ((-8802225627828199, -50)%Z, [30331]%N);
   ((-2562945095514147, -48)%Z, [30385; 30394]%N);
   ((-8144907807586931, -50)%Z, [30422; 33995]%N);
   ((-4203006416759327, -49)%Z, [30427]%N);
   ((-8794501931199227, -50)%Z, [30447]%N);
   ((-4920649827516119, -49)%Z, [30460; 36064; 36180]%N);
   ((-1234185251146411, -48)%Z, [30475]%N);
   ((-4861780572420457, -49)%Z, [30504]%N);
   ((-8725298350548661, -50)%Z, [30529; 30556; 36060; 36176]%N);
   ((-3825326461900149, -49)%Z, [30561]%N);
   ((-743074656499637, -46)%Z, [30572; 36427]%N);
   ((-5432060335958695, -49)%Z, [30596; 36856; 36930]%N);
   ((-8944744953676005, -50)%Z, [30597]%N);
   ((-2289995073434343, -48)%Z, [30606]%N);
   ((-2364983870487587, -48)%Z, [30610; 30622; 32353; 32483]%N);
   ((-5410488733084649, -49)%Z, [30623]%N);
   ((-1292764154294775, -47)%Z, [30629]%N);
   ((-4543446457421773, -49)%Z, [30634]%N);
   ((-3658394241128291, -49)%Z, [30693; 30772]%N);
   ((-175753824935853, -44)%Z, [30702]%N);
   ((-5021340732453407, -49)%Z, [30721; 30908; 33976; 37855; 38130; 40180; 40483]%N);
   ((-2576678305837447, -48)%Z, [30732]%N);
   ((-4802707479193331, -49)%Z, [30740]%N);
   ((-6410757248734517, -49)%Z, [30755]%N);
   ((-277390240550641, -45)%Z, [30776]%N);
   ((-5675924432695743, -49)%Z, [30796]%N);
   ((-5470742818568017, -49)%Z, [30861; 31001]%N);
   ((-4571343987866149, -49)%Z, [30896]%N);
   ((-4970681577933331, -49)%Z, [30933]%N);
   ((-4577575085449519, -49)%Z, [30952]%N);
   ((-4996454914737063, -49)%Z, [31069]%N);
   ((-2296606794884831, -48)%Z, [31085]%N);
   ((-4523394675706009, -49)%Z, [31105]%N);
   ((-226870824078153, -45)%Z, [31163; 38626]%N);
   ((-4313529050469345, -49)%Z, [31199]%N);
   ((-8661967775159687, -50)%Z, [31215; 31309]%N);
   ((-5820142733845857, -50)%Z, [31216; 31281]%N);
   ((-4243583068821643, -49)%Z, [31227]%N);
   ((-564123180396997, -46)%Z, [31283; 31337]%N);
   ((-173489497617615, -44)%Z, [31354; 38329; 38409]%N);
   ((-1777901708167141, -48)%Z, [31359]%N);
   ((-5796479032793961, -49)%Z, [31389; 31401; 38819]%N);
   ((-773335775725537, -46)%Z, [31400]%N);
   ((-7435665025785177, -50)%Z, [31435]%N);
   ((-2484856739016401, -48)%Z, [31446; 35918]%N);
   ((-6534962467341767, -50)%Z, [31449]%N);
   ((-3944364879392487, -49)%Z, [31471]%N);
   ((-6105193158769977, -50)%Z, [31505]%N);
   ((-4949758732336709, -49)%Z, [31526]%N);
   ((-2575341130036609, -48)%Z, [31548; 31840]%N);
   ((-4490658276346857, -49)%Z, [31569; 31689]%N);
   ((-4392373893420167, -49)%Z, [31572]%N);
   ((-1327050914315921, -47)%Z, [31579; 31721]%N);
   ((-616423757125339, -46)%Z, [31609; 31820; 33618]%N);
   ((-4716236573575051, -49)%Z, [31614; 31805]%N);
   ((-5144051441911373, -49)%Z, [31629]%N);
   ((-7508733687161259, -50)%Z, [31639]%N);
   ((-1761551560456287, -48)%Z, [31649]%N);
   ((-6033201168879343, -49)%Z, [31860; 31988; 32933]%N);
   ((-6115731587847061, -49)%Z, [31900; 31990]%N);
   ((-2618508442709557, -48)%Z, [31946]%N);
   ((-5361858518545105, -49)%Z, [31967]%N);
   ((-6891465712439261, -50)%Z, [31995]%N);
   ((-8989607458397357, -50)%Z, [32013; 32435]%N);
   ((-4962028035071389, -49)%Z, [32047; 37038; 37109]%N);
   ((-5527704990808989, -49)%Z, [32070; 32458]%N);
   ((-1055604015254859, -47)%Z, [32080; 32467]%N);
   ((-5211181989952869, -49)%Z, [32097; 32476]%N);
   ((-5729240269604725, -49)%Z, [32110; 39348; 39535]%N);
   ((-1102318555780625, -47)%Z, [32113; 32479]%N);
   ((-2832920738709691, -48)%Z, [32189; 32496]%N);
   ((-8332636784196779, -50)%Z, [32232; 32534]%N);
   ((-282385375048727, -45)%Z, [32233; 32531]%N);
   ((-5086455257972423, -49)%Z, [32236; 32517]%N);
   ((-2340492345175869, -48)%Z, [32244; 32451]%N);
   ((-4729336277136197, -49)%Z, [32299; 32541]%N);
   ((-8955996009968155, -50)%Z, [32305; 32437]%N);
   ((-8801521280037419, -50)%Z, [32350; 32469]%N);
   ((-4995441503206103, -49)%Z, [32362; 32472]%N);
   ((-162391281447721, -44)%Z, [32371; 32564]%N);
   ((-4865787350569417, -49)%Z, [32396; 32493; 39449; 39575]%N);
   ((-2385624788871505, -48)%Z, [32399; 32544]%N);
   ((-7257477549191769, -49)%Z, [32412; 32518]%N);
   ((-1451236151288971, -47)%Z, [32497]%N);
   ((-8709615219569787, -50)%Z, [32570]%N);
   ((-4751213656855223, -49)%Z, [32602; 32624]%N);
   ((-1909201010463507, -48)%Z, [32610; 32631]%N);
   ((-4887930990026429, -49)%Z, [32617]%N);
   ((-7482900552906087, -50)%Z, [32622]%N);
   ((-7831072550573437, -50)%Z, [32629; 39554]%N);
   ((-639158433241559, -46)%Z, [32670]%N);
   ((-4044099291215473, -49)%Z, [32763]%N);
   ((-8552398343043841, -50)%Z, [32771]%N);
   ((-36418981254065, -42)%Z, [32781]%N);
   ((-4613393167981683, -49)%Z, [32784]%N);
   ((-2501800170496009, -48)%Z, [32789]%N);
   ((-5178015296060167, -49)%Z, [32791]%N);
   ((-5652672456952411, -49)%Z, [32843; 32894]%N);
   ((-5209698590007791, -49)%Z, [32856]%N);
   ((-8739202613139553, -50)%Z, [32858]%N);
   ((-507334127964007, -46)%Z, [32862; 38395]%N);
   ((-1103035234545663, -47)%Z, [32943]%N);
   ((-604694441522449, -46)%Z, [32959; 33131]%N);
   ((-7283570401955455, -50)%Z, [32972]%N);
   ((-1203283530067831, -48)%Z, [33021]%N);
   ((-8301048172892903, -50)%Z, [33067; 33073]%N);
   ((-6297789690071077, -49)%Z, [33094; 35466; 35588; 38804]%N);
   ((-356706523714615, -45)%Z, [33100; 37251]%N);
   ((-5120807086936189, -49)%Z, [33147; 33193]%N);
   ((-4526467314658757, -49)%Z, [33150; 39472]%N);
   ((-5335317241826391, -49)%Z, [33167]%N);
   ((-4264747053402839, -49)%Z, [33268]%N);
   ((-5617969878200261, -49)%Z, [33280]%N);
   ((-6170127660497473, -49)%Z, [33282]%N);
   ((-4705850875643681, -49)%Z, [33293]%N);
   ((-4490245405075383, -49)%Z, [33310]%N);
   ((-3524363429492981, -49)%Z, [33457]%N);
   ((-685330619031557, -46)%Z, [33515]%N);
   ((-6520951649310127, -49)%Z, [33806]%N);
   ((-1897798243594597, -48)%Z, [33853]%N);
   ((-1942361808277681, -48)%Z, [33879]%N);
   ((-4340709093805789, -49)%Z, [33945]%N);
   ((-1330173585741395, -47)%Z, [33988]%N);
   ((-2844827800047933, -48)%Z, [34109]%N);
   ((-1188131856576069, -47)%Z, [34255]%N);
   ((-596576375642239, -46)%Z, [34701]%N);
   ((-3050554344493125, -48)%Z, [34731; 36035; 36050; 36161; 36170]%N);
   ((-6181222354411999, -50)%Z, [34892]%N);
   ((-2445223017477345, -48)%Z, [34900; 37532]%N);
   ((-8271200611444051, -50)%Z, [34917; 35036]%N);
   ((-79625907010219, -43)%Z, [34966]%N);
   ((-8455655688132003, -50)%Z, [34989; 35186]%N);
   ((-2508557973748005, -48)%Z, [35009]%N);
   ((-4657726019080377, -49)%Z, [35010; 39187; 39295]%N);
   ((-7638056015636811, -50)%Z, [35013; 35037]%N);
   ((-4826197716797143, -49)%Z, [35065]%N);
   ((-368277185480799, -45)%Z, [35090]%N);
   ((-1264931522796435, -47)%Z, [35114]%N);
   ((-211394764508643, -44)%Z, [35195; 39480; 39583]%N);
   ((-4340922759903545, -50)%Z, [35201]%N);
   ((-2702744469588919, -49)%Z, [35211; 35265]%N);
   ((-5596950638366529, -49)%Z, [35219; 35269]%N);
   ((-8489298524467895, -50)%Z, [35258; 35273]%N);
   ((-3292679475588277, -48)%Z, [35294; 35316]%N);
   ((-248941892604401, -45)%Z, [35299]%N);
   ((-4653297678027777, -49)%Z, [35302; 35320]%N);
   ((-2423016346858085, -48)%Z, [35330; 35746; 39250; 39286]%N);
   ((-7983031067727293, -50)%Z, [35336; 35745]%N);
   ((-4386851348055605, -49)%Z, [35342; 35752]%N);
   ((-943766884438715, -47)%Z, [35352; 35760]%N);
   ((-4892972366584603, -49)%Z, [35370; 35775]%N);
   ((-7114907902822997, -50)%Z, [35373; 35774]%N);
   ((-6658098689394711, -49)%Z, [35377; 35768]%N);
   ((-4260889329374623, -49)%Z, [35430; 35797]%N);
   ((-5775855849226773, -49)%Z, [35462; 35795; 37496; 38128]%N);
   ((-4446202210242453, -49)%Z, [35469; 35748]%N);
   ((-4877981689173417, -49)%Z, [35486; 35821]%N);
   ((-4682144216927325, -49)%Z, [35492; 35823]%N);
   ((-7419992246762063, -51)%Z, [35498; 35828]%N);
   ((-477315895328885, -46)%Z, [35519; 35843]%N);
   ((-7863657137141947, -50)%Z, [35527; 35848]%N);
   ((-1615730455318985, -48)%Z, [35531; 35831]%N);
   ((-7443225657935797, -50)%Z, [35542; 35770]%N);
   ((-4471174285636991, -49)%Z, [35584; 35851]%N);
   ((-2353834889264755, -48)%Z, [35586; 35859]%N);
   ((-7041181873750599, -50)%Z, [35611; 35762]%N);
   ((-1137687917204335, -47)%Z, [35672; 35782]%N);
   ((-8968993555833729, -50)%Z, [35676; 35889]%N);
   ((-4554440133795757, -49)%Z, [35695; 35793]%N);
   ((-8368487484919075, -50)%Z, [35696; 35758]%N);
   ((-5420348395076687, -50)%Z, [35731; 35753]%N);
   ((-725086988261873, -46)%Z, [35905; 40796; 40839]%N);
   ((-8216288705246413, -50)%Z, [36000; 36127]%N);
   ((-2492206372666727, -48)%Z, [36010; 36138]%N);
   ((-1338058802020431, -47)%Z, [36015; 36142]%N);
   ((-4327882227097691, -49)%Z, [36027; 36153]%N);
   ((-4323568413242499, -49)%Z, [36028; 36148]%N);
   ((-8951964856693545, -50)%Z, [36062; 36175]%N);
   ((-2320378434953227, -48)%Z, [36070; 36171]%N);
   ((-4828451021820591, -49)%Z, [36084; 36182]%N);
   ((-8254184168041665, -50)%Z, [36090; 36186]%N);
   ((-4812864068277791, -49)%Z, [36093; 36187]%N);
   ((-1299492510439065, -47)%Z, [36104; 36192]%N);
   ((-4968747040107169, -49)%Z, [36106; 36190]%N);
   ((-4402170659424413, -49)%Z, [36111; 36194]%N);
   ((-2601169831149165, -48)%Z, [36118; 36174]%N);
   ((-2666950601626901, -49)%Z, [36208]%N);
   ((-2027997518616059, -48)%Z, [36212]%N);
   ((-8101732099850321, -50)%Z, [36214; 36245]%N);
   ((-5329314651877731, -50)%Z, [36215]%N);
   ((-144232859006349, -44)%Z, [36225]%N);
   ((-7558507846308905, -50)%Z, [36229]%N);
   ((-2250960911349897, -48)%Z, [36235; 36264]%N);
   ((-5509750623156867, -49)%Z, [36276]%N);
   ((-7222705747079703, -50)%Z, [36300]%N);
   ((-1702874954934845, -48)%Z, [36305]%N);
   ((-7993975502938749, -50)%Z, [36319]%N);
   ((-2183637188482821, -48)%Z, [36328; 38281; 38381]%N);
   ((-8481852772865475, -50)%Z, [36330]%N);
   ((-7395773237704741, -50)%Z, [36339]%N);
   ((-2516021762710473, -48)%Z, [36357]%N);
   ((-4684470459714391, -49)%Z, [36367]%N);
   ((-4645630925924409, -49)%Z, [36386]%N);
   ((-2322543637758355, -48)%Z, [36393]%N);
   ((-6449596782524499, -49)%Z, [36433; 36513]%N);
   ((-2603371732678097, -48)%Z, [36454]%N);
   ((-5233915224936961, -49)%Z, [36460]%N);
   ((-1374316962778317, -47)%Z, [36461]%N);
   ((-2351416185000995, -48)%Z, [36466]%N);
   ((-5087646686889989, -49)%Z, [36479; 36517]%N);
   ((-2911133754484515, -48)%Z, [36481]%N);
   ((-4230163200990101, -49)%Z, [36538]%N);
   ((-8587943960247975, -50)%Z, [36617; 36733]%N);
   ((-8943945592686203, -50)%Z, [36664; 36755]%N);
   ((-4143124119921341, -49)%Z, [36676; 36758]%N);
   ((-7145061328437465, -50)%Z, [36681; 36716]%N);
   ((-309418318082523, -45)%Z, [36703; 36720]%N);
   ((-2286866204365541, -48)%Z, [36766; 36781]%N);
   ((-1169812466579511, -47)%Z, [36767; 38370]%N);
   ((-5221676700472617, -49)%Z, [36771]%N);
   ((-2981682938220695, -49)%Z, [36798; 36948]%N);
   ((-8304212719986409, -50)%Z, [36801; 36983]%N);
   ((-2466600093514943, -48)%Z, [36808; 36993]%N);
   ((-8170746009097493, -50)%Z, [36814]%N);
   ((-63549585297703, -43)%Z, [36816; 36939]%N);
   ((-2366250351709555, -48)%Z, [36820]%N);
   ((-3127405866555153, -49)%Z, [36827; 36914]%N);
   ((-4628489355645903, -49)%Z, [36855]%N);
   ((-8252021055163351, -50)%Z, [36861]%N);
   ((-118999631361887, -44)%Z, [36864]%N);
   ((-3515380778236521, -49)%Z, [36865]%N);
   ((-8223850747973337, -50)%Z, [36867]%N);
   ((-3834650633445433, -49)%Z, [36873; 36984]%N);
   ((-8779902221815607, -50)%Z, [36879]%N);
   ((-2221578586322065, -48)%Z, [36882; 36958]%N);
   ((-7338850740400235, -50)%Z, [36890]%N);
   ((-8325693905627689, -50)%Z, [36896]%N);
   ((-569189468678511, -46)%Z, [36898]%N);
   ((-8682684666830431, -50)%Z, [36924]%N);
   ((-1072188518755567, -47)%Z, [36935]%N);
   ((-8355146153449569, -50)%Z, [36973]%N);
   ((-1215844965784121, -47)%Z, [36974]%N);
   ((-4607771287862119, -49)%Z, [36991]%N);
   ((-4797697084168607, -49)%Z, [37051; 37168]%N);
   ((-8188579209813059, -50)%Z, [37197]%N);
   ((-5826682825355389, -49)%Z, [37233; 37292]%N);
   ((-17724921843721, -41)%Z, [37257]%N);
   ((-1413983986020695, -47)%Z, [37347; 38035]%N);
   ((-795352208061985, -46)%Z, [37476; 38057]%N);
   ((-1579660518059549, -47)%Z, [37548; 38096]%N);
   ((-2395659993462217, -48)%Z, [37559; 38144]%N);
   ((-6741651724362833, -49)%Z, [37564; 38153]%N);
   ((-5452207812556735, -49)%Z, [37604; 38148]%N);
   ((-1086848476156519, -47)%Z, [37610; 38138]%N);
   ((-5517375344050407, -49)%Z, [37624; 38191]%N);
   ((-2526478536157575, -48)%Z, [37648; 38181]%N);
   ((-8718083121093247, -50)%Z, [37679; 38169]%N);
   ((-2998035066991593, -48)%Z, [37709; 38208]%N);
   ((-37493156882909, -42)%Z, [37956; 38136]%N);
   ((-5142734599314611, -49)%Z, [38002; 38262]%N);
   ((-8813555533819405, -50)%Z, [38013; 38075]%N);
   ((-829876726557247, -46)%Z, [38274; 38377]%N);
   ((-1095856766926961, -47)%Z, [38275; 38378]%N);
   ((-4662749899304815, -49)%Z, [38290; 38386]%N);
   ((-2168148124813191, -48)%Z, [38358; 38383]%N);
   ((-4052949999633795, -49)%Z, [38393; 39719]%N);
   ((-4286450440284773, -49)%Z, [38450]%N);
   ((-4942339185682525, -49)%Z, [38459]%N);
   ((-8932022785468239, -50)%Z, [38468]%N);
   ((-7395167317926815, -50)%Z, [38477]%N);
   ((-2006423272672807, -48)%Z, [38480]%N);
   ((-8594369346804901, -50)%Z, [38506]%N);
   ((-4570391449646635, -49)%Z, [38519]%N);
   ((-7275916148440711, -50)%Z, [38543; 38568]%N);
   ((-1181861531106419, -47)%Z, [38544; 38577]%N);
   ((-2106755226153631, -48)%Z, [38548]%N);
   ((-1243155696648195, -47)%Z, [38613]%N);
   ((-7263632825314667, -50)%Z, [38656]%N);
   ((-565863454416635, -46)%Z, [38663]%N);
   ((-6079862773106201, -49)%Z, [38665; 40692]%N);
   ((-4403938164654797, -49)%Z, [38706]%N);
   ((-7408777820838747, -50)%Z, [38752]%N);
   ((-5809225614025581, -49)%Z, [38829]%N);
   ((-1975250960397727, -48)%Z, [38914; 39030]%N);
   ((-4671793466536065, -49)%Z, [38918; 39034]%N);
   ((-1852143366185731, -48)%Z, [38936; 39046]%N);
   ((-666223630910777, -46)%Z, [39003; 39072]%N);
   ((-2215755406147735, -48)%Z, [39015; 39038]%N);
   ((-2455926777765193, -48)%Z, [39019; 39076]%N);
   ((-4826947816779435, -49)%Z, [39108; 39128]%N);
   ((-3864944689073329, -49)%Z, [39131; 39134]%N);
   ((-983994099265491, -47)%Z, [39135]%N);
   ((-8673849084100657, -50)%Z, [39154; 39278]%N);
   ((-4889606437553093, -49)%Z, [39166; 39280]%N);
   ((-3394295698615633, -48)%Z, [39230; 39311]%N);
   ((-1268087847484415, -47)%Z, [39345; 39534]%N);
   ((-1361352888378307, -47)%Z, [39361; 39539]%N);
   ((-2005717157591401, -48)%Z, [39376; 39547]%N);
   ((-8871231736526425, -50)%Z, [39381; 39550]%N);
   ((-8049991461108979, -50)%Z, [39438; 39569]%N);
   ((-6221340218801041, -49)%Z, [40635]%N);
   ((-8657002387147849, -50)%Z, [40723]%N)];
  (* ('S', 'vd') *)
  [
];
  (* ('S', 'vg') *)
  [
   ((-4666698353334395, -49)%Z, [19969]%N);
   ((-3196325800581333, -49)%Z, [20007; 21930]%N);
   ((-2786365675586833, -48)%Z, [20029; 20648; 20786; 25932; 25973; 29287; 29310; 31941; 36091; 36185; 39524; 39591;
     40599]%N);
   ((-3371676435102335, -48)%Z, [20047; 22609; 23130; 24518; 25014; 30645; 36804]%N);
   ((-2528452763172365, -48)%Z, [20064; 24189; 25783; 25847; 32722]%N);
   ((-4652797648226795, -49)%Z, [20083; 23815; 36655; 36753]%N);
   ((-1742809629455185, -48)%Z, [20104; 26021]%N);
   ((-1382642809256415, -48)%Z, [20129]%N);
   ((-2387497050669925, -48)%Z, [20139]%N);
   ((-2867340980230271, -48)%Z, [20171; 21305; 22093; 24687; 24785; 35219; 35269; 36968]%N);
   ((-5085781084031027, -49)%Z, [20267; 20295; 21533; 21947; 25225; 28068; 28364]%N);
   ((-5419947733396657, -50)%Z, [20284]%N);
   ((-3077566140189725, -49)%Z, [20304]%N);
   ((-1809750373340795, -48)%Z, [20314; 36920]%N);
   ((-4552452814659177, -49)%Z, [20360; 22918; 22941; 38967; 39060]%N);
   ((-8445672638085277, -50)%Z, [20365]%N);
   ((-1946682616085587, -48)%Z, [20390; 20597; 34555; 34581]%N);
   ((-8484725104592627, -50)%Z, [20398; 25941; 27572; 27590]%N);
   ((-2827702335290353, -49)%Z, [20405]%N);
   ((-2046061531369815, -48)%Z, [20478; 35452; 35801]%N);
   ((-239539321627019, -45)%Z, [20513; 24871]%N);
   ((-490797691293741, -46)%Z, [20565]%N);
   ((-2014887793684853, -48)%Z, [20607; 20767; 25032; 35533; 35812]%N);
   ((-6202977411387365, -50)%Z, [20801]%N);
   ((-4112784095498577, -49)%Z, [20806]%N);
   ((-7948629955900607, -51)%Z, [20855]%N);
   ((-1376606349184271, -47)%Z, [20915; 20940; 22570; 25942; 27770; 30209; 32673; 32680; 35215; 35247; 35268; 35279;
     37217]%N);
   ((-6786877844797065, -50)%Z, [20918]%N);
   ((-2233658673648617, -48)%Z, [20939; 21277; 22179; 22210; 23067; 23089; 32216; 32516]%N);
   ((-6778115933598319, -50)%Z, [20957]%N);
   ((-7922910997143967, -50)%Z, [20984]%N);
   ((-650533864086573, -47)%Z, [20987; 25802]%N);
   ((-4118070049391157, -49)%Z, [21000; 24913; 25086]%N);
   ((-2175831335791159, -48)%Z, [21002]%N);
   ((-147392486565547, -45)%Z, [21019; 21109]%N);
   ((-6124889133470877, -49)%Z, [21153; 21209; 24800; 28180; 28417; 28577; 33322; 38518]%N);
   ((-5962938524184001, -49)%Z, [21169; 21237; 21442; 21443; 27779; 30468; 30535; 31526]%N);
   ((-4283572405181509, -49)%Z, [21193; 38924; 39042]%N);
   ((-7079930560884837, -50)%Z, [21208; 36874; 36956]%N);
   ((-4728746782171985, -50)%Z, [21215]%N);
   ((-198535803037323, -44)%Z, [21281; 24735; 32361; 32499; 33037; 33214; 35029; 36396; 36499; 37246; 37315]%N);
   ((-2145371919574773, -48)%Z, [21294; 21297; 23305; 24310; 24764]%N);
   ((-1030851526964715, -47)%Z, [21311; 35565; 35861; 40180; 40483]%N);
   ((-3049820962442395, -49)%Z, [21327; 21332]%N);
   ((-7731119165718077, -50)%Z, [21330; 23653; 27427; 36981]%N);
   ((-1984777818825217, -48)%Z, [21338; 21754; 25335; 30103; 30274]%N);
   ((-1127069305600373, -47)%Z, [21340; 27875; 36880]%N);
   ((-4710586799473423, -49)%Z, [21361; 25327; 27523; 30684]%N);
   ((-5344474787450207, -49)%Z, [21382; 22122; 25121; 27511; 32768]%N);
   ((-7567292190817735, -50)%Z, [21388; 21421; 28003]%N);
   ((-3044274612618709, -49)%Z, [21481]%N);
   ((-7930981998780139, -50)%Z, [21484; 25514; 26333]%N);
   ((-1927738313791339, -48)%Z, [21505; 31858]%N);
   ((-7383725889691491, -50)%Z, [21536; 31177]%N);
   ((-1632156391444011, -48)%Z, [21542]%N);
   ((-845817306831369, -47)%Z, [21696; 38321; 38405]%N);
   ((-3862178491894095, -49)%Z, [21698]%N);
   ((-3195293811376799, -49)%Z, [21719; 22057]%N);
   ((-1314504521376159, -48)%Z, [21796; 21914]%N);
   ((-4639231932687795, -49)%Z, [21846]%N);
   ((-4529931813401791, -49)%Z, [21852]%N);
   ((-1173893477755173, -47)%Z, [21870; 22227; 32264; 33830]%N);
   ((-3718121040726827, -50)%Z, [21917]%N);
   ((-7899039433525295, -50)%Z, [21927; 25101]%N);
   ((-3400817140116165, -49)%Z, [21980]%N);
   ((-7488050458300115, -50)%Z, [21988]%N);
   ((-3707010494213703, -49)%Z, [22065; 22225]%N);
   ((-4600392398897813, -49)%Z, [22066; 35589; 35788]%N);
   ((-7349382053344157, -50)%Z, [22070]%N);
   ((-7793879059194273, -50)%Z, [22124]%N);
   ((-7526974331362423, -50)%Z, [22234; 31350]%N);
   ((-3684439321399453, -49)%Z, [22266]%N);
   ((-4564060441429537, -49)%Z, [22271; 24974; 25234; 28372; 33669; 33950; 38657; 38717]%N);
   ((-5135929075642659, -50)%Z, [22278; 22291]%N);
   ((-2649707374446837, -48)%Z, [22781; 23551; 27745; 30410; 35380; 35785]%N);
   ((-1348364459518411, -47)%Z, [22797; 30585; 36037; 36165; 37241]%N);
   ((-4402109832142661, -49)%Z, [22829; 35627; 35882]%N);
   ((-4795238105037235, -50)%Z, [22830]%N);
   ((-6065140899603821, -50)%Z, [22856]%N);
   ((-7883401683437473, -50)%Z, [22859; 22894]%N);
   ((-4758188377125249, -49)%Z, [22865; 24598; 24814; 24986; 27527; 27556; 27760]%N);
   ((-4007521703532953, -49)%Z, [22880; 28346; 37723; 38203]%N);
   ((-4570303343090995, -50)%Z, [22987]%N);
   ((-2489113273697281, -48)%Z, [22996; 32321; 36002; 36129]%N);
   ((-8954562646801837, -50)%Z, [23081; 24629; 32792; 32961; 33029; 34962]%N);
   ((-1863931438190411, -48)%Z, [23194]%N);
   ((-929988110606869, -47)%Z, [23241]%N);
   ((-2514719552849065, -48)%Z, [23381; 25682; 31252; 36909]%N);
   ((-4067319493537337, -49)%Z, [23386; 24033; 24544]%N);
   ((-2348115455602639, -49)%Z, [23452]%N);
   ((-8124974550852175, -50)%Z, [23504]%N);
   ((-1883161595797861, -48)%Z, [23507]%N);
   ((-61649948510871, -43)%Z, [23517; 23522; 36524]%N);
   ((-8511533511738747, -50)%Z, [23519]%N);
   ((-753583914688747, -47)%Z, [23637]%N);
   ((-4419982760380041, -49)%Z, [23673]%N);
   ((-7779626971335397, -50)%Z, [23769]%N);
   ((-1411975710607981, -47)%Z, [24069; 24101; 24753; 31459; 36036; 36159]%N);
   ((-7398771546640327, -50)%Z, [24184; 27982; 28639]%N);
   ((-3630561022943667, -49)%Z, [24187]%N);
   ((-1262808758169719, -48)%Z, [24198; 24950]%N);
   ((-7179280681859575, -50)%Z, [24199]%N);
   ((-4905451310361477, -50)%Z, [24322; 30064]%N);
   ((-1407221681342057, -48)%Z, [24323; 26820]%N);
   ((-2465643437263065, -48)%Z, [24328; 30765]%N);
   ((-8995508973985911, -50)%Z, [24337; 24338]%N);
   ((-4335803877706079, -49)%Z, [24347; 28020; 35529; 35839]%N);
   ((-4847733839558007, -49)%Z, [24357; 24396; 26252; 36031; 36152]%N);
   ((-5182524178163331, -49)%Z, [24433; 33643; 34093]%N);
   ((-3681986376544957, -49)%Z, [24443; 24505]%N);
   ((-4680951012159881, -49)%Z, [24455; 30568; 35609; 35878; 36785]%N);
   ((-3816859208592745, -49)%Z, [24458; 28810; 32187; 32509; 35359; 35772; 36929]%N);
   ((-1147004843596057, -47)%Z, [24459; 32838]%N);
   ((-6460779747659295, -50)%Z, [24473]%N);
   ((-2336783552178873, -49)%Z, [24481; 31142]%N);
   ((-6590925281160989, -50)%Z, [24490]%N);
   ((-4438441789610937, -49)%Z, [24541]%N);
   ((-7621345766227245, -50)%Z, [24578; 24939]%N);
   ((-1322536281668375, -48)%Z, [24594]%N);
   ((-7652536123856841, -50)%Z, [24604; 24976]%N);
   ((-7808313871102211, -50)%Z, [24609]%N);
   ((-7320755937462627, -50)%Z, [24643]%N);
   ((-7042521807315325, -50)%Z, [24653]%N);
   ((-3205699836936587, -49)%Z, [24661]%N);
   ((-1722011769346147, -48)%Z, [24709; 24742]%N);
   ((-7914897440846047, -50)%Z, [24713; 34784]%N);
   ((-3460294901259349, -49)%Z, [24724]%N);
   ((-7493529300775049, -50)%Z, [24726; 36441]%N);
   ((-7521330710990249, -50)%Z, [24754]%N);
   ((-3399333740171087, -49)%Z, [24796]%N);
   ((-248353114823499, -45)%Z, [24809; 25074; 25615]%N);
   ((-1142780619322495, -48)%Z, [24863]%N);
   ((-4887961660003291, -49)%Z, [24868; 24996; 36106; 36190]%N);
   ((-5257695669421589, -49)%Z, [24917; 25672; 25839; 29279; 32156; 32508; 35586; 35859; 37466; 38086]%N);
   ((-414600415150421, -46)%Z, [24942; 34385]%N);
   ((-3772038468638507, -49)%Z, [24944]%N);
   ((-8383452393313165, -50)%Z, [24951]%N);
   ((-601273741673797, -46)%Z, [25001; 38305; 38402]%N);
   ((-7925598348542307, -51)%Z, [25112; 25136]%N);
   ((-5394123208915593, -50)%Z, [25193; 25844]%N);
   ((-2913945055037873, -49)%Z, [25196; 25562]%N);
   ((-7471772103800001, -50)%Z, [25212; 36109; 36193]%N);
   ((-6804608918440417, -50)%Z, [25215]%N);
   ((-3323237104984943, -49)%Z, [25233]%N);
   ((-2781858502292545, -49)%Z, [25242; 25771]%N);
   ((-5945126362273873, -50)%Z, [25298]%N);
   ((-7106876460132995, -50)%Z, [25304]%N);
   ((-1861288461244121, -48)%Z, [25325]%N);
   ((-4487424840234373, -49)%Z, [25391; 26165; 26289; 27887]%N);
   ((-886424991133375, -47)%Z, [25439; 25613]%N);
   ((-5433085570992753, -50)%Z, [25480]%N);
   ((-908761675919131, -47)%Z, [25523; 25796]%N);
   ((-1652702310003641, -48)%Z, [25558]%N);
   ((-6350083258247169, -50)%Z, [25588]%N);
   ((-5764648006663665, -50)%Z, [25668; 25885]%N);
   ((-8432950469877511, -50)%Z, [25703]%N);
   ((-2887671325416687, -49)%Z, [25776]%N);
   ((-3041129632632297, -49)%Z, [25797]%N);
   ((-3875826431920705, -49)%Z, [25880]%N);
   ((-6834795710706445, -50)%Z, [25947; 25986; 35494; 35829]%N);
   ((-2072635495107571, -48)%Z, [26027]%N);
   ((-5218856135631607, -49)%Z, [26086; 32918; 33795; 35140]%N);
   ((-603581120327659, -46)%Z, [26114]%N);
   ((-766493896166415, -47)%Z, [26157]%N);
   ((-6792757231038981, -50)%Z, [26195; 26313; 33616; 34214]%N);
   ((-8625646275584673, -50)%Z, [26212; 27891; 28843; 31048]%N);
   ((-3143789491298885, -50)%Z, [26352]%N);
   ((-4741869844592653, -49)%Z, [26460; 28085]%N);
   ((-25403404607107, -42)%Z, [26500; 27083]%N);
   ((-6974697506430267, -50)%Z, [26505]%N);
   ((-3170090410281881, -49)%Z, [26512]%N);
   ((-6421951765233407, -50)%Z, [26646; 26866]%N);
   ((-4541079701515795, -49)%Z, [27450]%N);
   ((-2433744248205627, -48)%Z, [27453; 33862; 35261; 35272; 38054; 38816]%N);
   ((-3465269454572343, -49)%Z, [27516; 27570]%N);
   ((-926114357206147, -47)%Z, [27529]%N);
   ((-8347706536838405, -50)%Z, [27539; 27566]%N);
   ((-4970130345879493, -50)%Z, [27605; 30050]%N);
   ((-8610733476020715, -50)%Z, [27792; 33210]%N);
   ((-7822936153335995, -50)%Z, [27832; 28949; 29029; 37196]%N);
   ((-2905871723738347, -49)%Z, [27844; 27945]%N);
   ((-7989159510638361, -50)%Z, [27850; 31095; 31153; 35569; 35763]%N);
   ((-8407929442241855, -50)%Z, [28037]%N);
   ((-1563236576229551, -48)%Z, [28041]%N);
   ((-995482165541005, -47)%Z, [28210; 31067]%N);
   ((-1665527990014427, -48)%Z, [28291; 28528]%N);
   ((-2312992720133373, -48)%Z, [28297; 30315; 30322; 33275; 36029; 36155; 37228]%N);
   ((-7772568014627451, -50)%Z, [28335]%N);
   ((-815496635025239, -47)%Z, [28382; 28399]%N);
   ((-7204488449124443, -50)%Z, [28626; 28693]%N);
   ((-8257586459725339, -50)%Z, [28641; 33296]%N);
   ((-2306521746026487, -48)%Z, [28655; 38469; 38555]%N);
   ((-412862827011971, -46)%Z, [28796]%N);
   ((-6927212762244575, -50)%Z, [28954]%N);
   ((-3310442237099485, -49)%Z, [29123]%N);
   ((-1129750100718251, -47)%Z, [29454; 29557; 33298; 39739]%N);
   ((-4179748086191757, -49)%Z, [29645]%N);
   ((-2010384097977001, -48)%Z, [29976]%N);
   ((-6469593099173611, -50)%Z, [30031]%N);
   ((-6370153306738799, -50)%Z, [30095; 35563; 35855]%N);
   ((-6564145858810835, -50)%Z, [30097]%N);
   ((-743314438104973, -47)%Z, [30408]%N);
   ((-3804553801634153, -49)%Z, [30417; 30435]%N);
   ((-1326639772956521, -48)%Z, [30423; 30428]%N);
   ((-1198079251288249, -47)%Z, [30450; 32899; 32901]%N);
   ((-1647116074194559, -48)%Z, [30496]%N);
   ((-8204717596841207, -50)%Z, [30505; 34164; 34314]%N);
   ((-160887360941737, -44)%Z, [30522]%N);
   ((-5704770098936223, -50)%Z, [30563]%N);
   ((-4025253876686859, -49)%Z, [30651; 37931; 38220]%N);
   ((-5003250665063309, -49)%Z, [30778; 31018; 35465; 35709; 37528; 38125; 39186; 39297]%N);
   ((-6398866335838905, -50)%Z, [31034]%N);
   ((-1645889601767311, -48)%Z, [31363; 31434]%N);
   ((-7573171577059651, -50)%Z, [31397; 31418]%N);
   ((-3227107357512283, -49)%Z, [31454; 31478]%N);
   ((-8164140235712161, -50)%Z, [31518]%N);
   ((-7845231929564003, -50)%Z, [31998; 32416]%N);
   ((-967240275875145, -47)%Z, [32034]%N);
   ((-729664984045675, -46)%Z, [32173; 32500]%N);
   ((-6366110573824909, -50)%Z, [32283; 32538]%N);
   ((-4869102553131973, -50)%Z, [32380; 32487]%N);
   ((-7860344906905507, -50)%Z, [32580; 35700; 35892; 37521; 38115]%N);
   ((-3319368017910027, -49)%Z, [32824; 32883]%N);
   ((-2485649449020655, -49)%Z, [32852; 32879]%N);
   ((-6746559985341753, -50)%Z, [32946]%N);
   ((-5447112699355065, -49)%Z, [33104; 37492; 37969]%N);
   ((-5853192296386067, -50)%Z, [33900]%N);
   ((-3977774031104579, -49)%Z, [34249]%N);
   ((-6850198138417647, -50)%Z, [34432; 34645]%N);
   ((-3694359401058543, -49)%Z, [34893]%N);
   ((-741416049576447, -47)%Z, [35206]%N);
   ((-4918204806911863, -50)%Z, [35222; 35270]%N);
   ((-1198934542906583, -48)%Z, [35264; 35266]%N);
   ((-3722547283134999, -50)%Z, [35328]%N);
   ((-7061070824987999, -50)%Z, [35386; 35786]%N);
   ((-8301745057010919, -50)%Z, [35426; 35810; 36943]%N);
   ((-3296695828266229, -49)%Z, [35475]%N);
   ((-3508528051740697, -49)%Z, [35480; 35825]%N);
   ((-7815601274581123, -50)%Z, [35491; 35820]%N);
   ((-8656077855308311, -50)%Z, [35496; 35826]%N);
   ((-428917100705329, -46)%Z, [35553; 35877]%N);
   ((-1069122795081015, -47)%Z, [35575; 35773]%N);
   ((-77410431475623, -43)%Z, [35582; 35834; 36011; 36143]%N);
   ((-1740231214692035, -48)%Z, [35585; 35858]%N);
   ((-8458540205648427, -50)%Z, [35663; 35749]%N);
   ((-1065647618804115, -47)%Z, [35730; 35863]%N);
   ((-7555624729859783, -50)%Z, [35938]%N);
   ((-6282528299692465, -50)%Z, [36032; 36154]%N);
   ((-2894276680651409, -49)%Z, [36092; 36141]%N);
   ((-5409546736502299, -50)%Z, [36196]%N);
   ((-7697707221126881, -50)%Z, [36280; 36489]%N);
   ((-3204650535694449, -49)%Z, [36291; 36493]%N);
   ((-8471556534512823, -50)%Z, [36341; 36368]%N);
   ((-8032635951037371, -50)%Z, [36382]%N);
   ((-270023726653943, -45)%Z, [36424]%N);
   ((-6338210741483955, -50)%Z, [36628; 36741]%N);
   ((-2005951329566163, -48)%Z, [36639; 36749]%N);
   ((-1593552652022765, -48)%Z, [36776]%N);
   ((-6897711513607087, -50)%Z, [36777; 36783]%N);
   ((-7200247766495891, -50)%Z, [36829; 36949]%N);
   ((-6293825049047133, -50)%Z, [36843]%N);
   ((-3115629479404337, -49)%Z, [36848]%N);
   ((-3095412085900035, -49)%Z, [36866; 36969]%N);
   ((-6197752808476985, -50)%Z, [36870]%N);
   ((-874459701856745, -47)%Z, [36893]%N);
   ((-7678125859627757, -50)%Z, [36894]%N);
   ((-5370543291434245, -50)%Z, [36926]%N);
   ((-1707173314311909, -48)%Z, [36951; 36986]%N);
   ((-2694090885408675, -49)%Z, [36963]%N);
   ((-4359762810660769, -49)%Z, [37322; 37323]%N);
   ((-7830319130000045, -50)%Z, [37392; 38052]%N);
   ((-8324491283297683, -50)%Z, [38369; 38416]%N);
   ((-8087125611885233, -50)%Z, [38504; 38549]%N);
   ((-1505304983552915, -48)%Z, [38598]%N);
   ((-557190833318459, -46)%Z, [38712]%N);
   ((-58457798030109, -43)%Z, [38753]%N);
   ((-1537115065351641, -48)%Z, [38761]%N);
   ((-3701915889729295, -49)%Z, [38930; 39041]%N);
   ((-8336039075880453, -50)%Z, [38969; 39059]%N);
   ((-8174148300781167, -50)%Z, [39144; 39255]%N);
   ((-7980662112516561, -50)%Z, [39164; 39282]%N);
   ((-3092827766349607, -49)%Z, [39347; 39536]%N);
   ((-3641842962720031, -49)%Z, [39387; 39542]%N);
   ((-8498049519354921, -50)%Z, [39425; 39563]%N);
   ((-6211739322586111, -50)%Z, [39493; 39537]%N)];
  (* ('S', 'vi') *)
  [
];
  (* ('S', 'vn') *)
  [
   ((-7863570083489473, -50)%Z, [20239; 20240; 26429; 30629]%N);
   ((-3415959216915801, -49)%Z, [20621; 26127; 30606]%N);
   ((-5065813917980547, -50)%Z, [24616]%N);
   ((-8643984429510143, -50)%Z, [24651; 25088; 25203; 35408; 35784]%N);
   ((-5657904765215135, -51)%Z, [24868; 24996]%N);
   ((-2279847388016729, -50)%Z, [25439; 25613]%N);
   ((-7847550430164877, -52)%Z, [27450]%N);
   ((-5301615979751703, -51)%Z, [28020]%N);
   ((-3313321305010943, -49)%Z, [28132]%N);
   ((-4654968751508789, -52)%Z, [30095]%N);
   ((-5846228264001217, -50)%Z, [31085]%N);
   ((-1851764239010639, -48)%Z, [35090]%N);
   ((-6035247192012617, -51)%Z, [35674; 35885]%N);
   ((-793080524041677, -48)%Z, [36093; 36187]%N)];
  (* ('S', 'vq') *)
  [
];
  (* ('S', 'w') *)
  [
];
  (* ('S', 'x') *)
  [
   ((-5848043029291079, -50)%Z, [20073]%N);
   ((-5334749808443651, -50)%Z, [20109]%N);
   ((-6294891720515497, -50)%Z, [20147]%N);
   ((-7165426143649233, -50)%Z, [20163; 32688; 34545; 34554]%N);
   ((-2604923859151269, -48)%Z, [20211; 21086; 21122; 22261; 22279; 22500; 24797; 27533; 27655; 27660; 28461; 28470;
     29473; 29568; 30213; 30281; 30565; 30881; 30962; 31028; 31717; 32845; 32889; 33644; 34019; 34130; 34167; 34659;
     35973; 36485; 36708; 36723; 37261; 40477; 40514]%N);
   ((-5600054891312873, -49)%Z, [20213; 20976; 22092; 22150; 22276; 24458; 26563; 26675; 27176; 27641; 29213; 29368;
     29428; 29441; 29505; 30562; 31012; 32805; 32881; 33405; 33953; 34016; 34362; 34590; 34612; 34661; 34789; 34921;
     35622; 36464; 36501; 36618; 36734; 38434; 38698; 38927; 39043; 39954; 40134]%N);
   ((-8726254835690573, -50)%Z, [20263; 20432; 20517; 20630; 20666; 29450; 33325; 33490; 33910; 34343; 38503; 38537;
     39991; 40102]%N);
   ((-2826257658758637, -49)%Z, [20417; 20451]%N);
   ((-4868028996328135, -50)%Z, [20421]%N);
   ((-1761700187221299, -48)%Z, [20444; 21263; 23428; 36303; 36603; 36722]%N);
   ((-1305882919156505, -48)%Z, [20447]%N);
   ((-7575977791268665, -50)%Z, [20508; 24794; 26946; 30187; 30279; 39621; 39631]%N);
   ((-4694021893473603, -49)%Z, [20522; 24457; 24617; 27287; 27637; 27647; 28383; 28777; 30272; 31006; 33068; 33881;
     34327; 34749; 36962]%N);
   ((-8228795381059583, -50)%Z, [20588; 20655; 24435; 26095; 26937; 31360; 31557]%N);
   ((-7370701967458949, -50)%Z, [20603; 20674; 27135; 34579]%N);
   ((-4156116770001877, -49)%Z, [20716; 21522; 21668; 24469; 24480; 33375; 33432; 33761; 33932; 34078; 35043;
     35165]%N);
   ((-4819640545292203, -49)%Z, [20723; 21795; 21896; 23702; 23943; 25099; 25108; 30136; 30995; 33594; 33985; 34819;
     35099; 35128; 35238; 35278; 36487; 38110]%N);
   ((-622698894322385, -46)%Z, [20769; 22948; 23580; 24529; 24554; 27661; 28486; 28491; 28704; 28722; 30124; 30147;
     30249; 30311; 31692; 32174; 32821; 33563; 33907; 34660; 34741; 36495; 36522; 40058; 40097]%N);
   ((-1457199102091079, -48)%Z, [20935]%N);
   ((-8010195142487573, -50)%Z, [21056; 21108; 21737; 21878; 21937; 25394; 33661; 33798; 34690; 39303]%N);
   ((-3552275932128895, -49)%Z, [21264; 23919; 33480; 34294; 34794; 38332; 38415]%N);
   ((-5960216257934125, -50)%Z, [21343]%N);
   ((-3886141126806333, -49)%Z, [21526; 33129; 33331; 35042; 35123; 36314; 38873; 38890]%N);
   ((-3913607547452933, -49)%Z, [21554; 21825; 26487; 27667; 34142; 34490]%N);
   ((-3482687461374949, -49)%Z, [21604; 23896; 23992; 30743; 30824; 34134; 36345; 36506]%N);
   ((-7197143731401711, -50)%Z, [21648; 21833]%N);
   ((-8607629440926535, -50)%Z, [21657; 22184; 27260; 27358; 29582; 33607; 33765; 34570; 34594]%N);
   ((-1747966976897999, -48)%Z, [21659; 22144; 23755; 32217; 32514]%N);
   ((-855190615634435, -47)%Z, [21684; 23045; 23149; 36902; 37008]%N);
   ((-6729958487019389, -50)%Z, [21714; 22112; 28227; 32915; 34309; 40240; 40505]%N);
   ((-6037895325514089, -50)%Z, [21725; 22117; 30186; 30227; 40812; 40841]%N);
   ((-7945840489669903, -50)%Z, [21747; 28859; 29827; 32242; 32520; 36869; 40383; 40431; 40538; 40553]%N);
   ((-98814648722455, -44)%Z, [21777]%N);
   ((-5800529654101639, -50)%Z, [21815; 23159]%N);
   ((-2252302431770063, -48)%Z, [21820; 27278; 27788; 29431; 29434; 30224; 33628; 33718; 33807; 34045; 34107; 34207;
     34573; 35913; 39384; 39552]%N);
   ((-7018999338669995, -50)%Z, [21823; 22055; 33355; 39491; 39584]%N);
   ((-7075306066536167, -50)%Z, [21857; 26062; 33748; 34426]%N);
   ((-6609210754384985, -50)%Z, [21879; 32184; 32438]%N);
   ((-6072900214599919, -50)%Z, [21886; 31313; 31329; 33009; 40701; 40702]%N);
   ((-3810969635548075, -49)%Z, [21903; 23046; 23304; 26636; 27368; 33384; 33715; 33940; 34231; 40230; 40495]%N);
   ((-2695764950922081, -49)%Z, [21990]%N);
   ((-2568853646518471, -49)%Z, [22134]%N);
   ((-1882954798495771, -48)%Z, [22149; 29107; 32007; 32421; 34552; 39752]%N);
   ((-7448381035038913, -50)%Z, [22250; 22257; 34474]%N);
   ((-804116207942243, -47)%Z, [22300; 40274; 40518; 40810; 40842]%N);
   ((-4591383981568745, -49)%Z, [22334; 26653; 33278; 34105; 34334; 34699; 35335]%N);
   ((-433718189145147, -46)%Z, [22390]%N);
   ((-1677228254050579, -48)%Z, [22661; 30807; 30973; 34526; 34999]%N);
   ((-8078452398543067, -50)%Z, [22716; 27447; 30399; 32093; 32468; 33757; 35004]%N);
   ((-1771272923851915, -49)%Z, [22982]%N);
   ((-6628457375311749, -50)%Z, [23052; 32609; 36302]%N);
   ((-6778777009675959, -51)%Z, [23068]%N);
   ((-6553369562976487, -50)%Z, [23090; 23207; 33507; 40329; 40529]%N);
   ((-3224683225223117, -49)%Z, [23125; 29002; 33551; 34338; 34451; 34838]%N);
   ((-3834928568502765, -49)%Z, [23146; 31650; 33491; 34047]%N);
   ((-5728447449282311, -50)%Z, [23195]%N);
   ((-7408871721332419, -50)%Z, [23250; 23329; 36211]%N);
   ((-3859952686171511, -49)%Z, [23596; 30472; 32989; 33320; 33704; 36318; 36498; 40421; 40436; 40502; 40519]%N);
   ((-1971241552569615, -48)%Z, [23846; 24832; 33848; 34170; 36292; 36428]%N);
   ((-3744663681111493, -49)%Z, [23915; 27017; 27384; 32941]%N);
   ((-1107358343070467, -47)%Z, [24488; 29364]%N);
   ((-2125079929590923, -48)%Z, [24545; 34148; 40339; 40523]%N);
   ((-3054514222482095, -49)%Z, [24703; 31046]%N);
   ((-1536588628023479, -48)%Z, [25373; 25790; 36836; 40379; 40536]%N);
   ((-5887552342997573, -50)%Z, [25822; 25851]%N);
   ((-2543605022384767, -49)%Z, [26003; 26005]%N);
   ((-6688253722685151, -50)%Z, [26297; 34472; 34500; 40258; 40506]%N);
   ((-6280548852579423, -50)%Z, [26407; 28874; 32999]%N);
   ((-6535354780145079, -50)%Z, [26473; 27050; 40729]%N);
   ((-8151116313479619, -50)%Z, [26621; 27021; 27273; 29327; 29786; 30829; 33803]%N);
   ((-5529005316797529, -50)%Z, [26891]%N);
   ((-2851281776427383, -49)%Z, [26916; 27407]%N);
   ((-6500167544325213, -50)%Z, [27016; 27354; 34548; 34832; 38836]%N);
   ((-7298038052522397, -50)%Z, [27092; 28638; 33004; 34467]%N);
   ((-5897650167695665, -50)%Z, [27308]%N);
   ((-3208364692690521, -49)%Z, [27586; 33423; 33470; 34578; 36674; 37836; 38214]%N);
   ((-5251751196609041, -50)%Z, [27698; 27699]%N);
   ((-6865228956530039, -50)%Z, [27955]%N);
   ((-1592370474381179, -48)%Z, [28238]%N);
   ((-2953919688332241, -49)%Z, [28766]%N);
   ((-1369739270365009, -48)%Z, [28911]%N);
   ((-6773267669019987, -50)%Z, [29377; 29551; 34876; 38834; 39753; 39758]%N);
   ((-6385011797628563, -50)%Z, [29384; 29437; 33728]%N);
   ((-45463242866735, -43)%Z, [29426; 29499]%N);
   ((-2682970083036623, -49)%Z, [29435]%N);
   ((-3169525158900539, -49)%Z, [29527; 32306; 32551]%N);
   ((-6096856435529571, -50)%Z, [29548]%N);
   ((-2100588404279205, -48)%Z, [29602; 29649; 29903; 33705; 33884; 36692; 36762; 40289; 40521]%N);
   ((-6795563445247995, -50)%Z, [29750; 31381; 38326; 38410]%N);
   ((-6517623706501727, -50)%Z, [29761; 32679]%N);
   ((-3030555289527405, -49)%Z, [29815; 29862]%N);
   ((-3066887246995681, -49)%Z, [30235]%N);
   ((-3631696122448053, -49)%Z, [30876; 30947; 33332; 33796; 37877; 38119; 40344; 40533]%N);
   ((-6648038736810873, -50)%Z, [31352; 34656; 38466]%N);
   ((-6026464771428519, -50)%Z, [32028; 32429]%N);
   ((-5132554424057129, -50)%Z, [32163; 32507]%N);
   ((-4905218062110249, -50)%Z, [32382; 32561]%N);
   ((-6015149099227325, -50)%Z, [32938]%N);
   ((-5077376795306319, -50)%Z, [33407]%N);
   ((-1530333371114565, -48)%Z, [33418]%N);
   ((-6590287621438279, -50)%Z, [33422]%N);
   ((-1546240144182307, -48)%Z, [33424; 33476]%N);
   ((-12054578609111, -41)%Z, [33450; 34779]%N);
   ((-6571677281911237, -50)%Z, [33463; 34513; 39747]%N);
   ((-5949544140998719, -50)%Z, [33473; 34031; 36331]%N);
   ((-5179801911913455, -50)%Z, [33527]%N);
   ((-5857791141326989, -50)%Z, [33673]%N);
   ((-1783644410290813, -48)%Z, [33706; 34843; 39612; 39757]%N);
   ((-1722360697746215, -48)%Z, [33770; 38789; 39610]%N);
   ((-7333783908997157, -50)%Z, [34364; 34752; 35039]%N);
   ((-5424357297381761, -50)%Z, [34428]%N);
   ((-5417714800788363, -50)%Z, [34471]%N);
   ((-6159076680301683, -50)%Z, [34505]%N);
   ((-27008550156297, -42)%Z, [34547; 34692; 38780; 40227; 40490]%N);
   ((-4604663389702501, -50)%Z, [34693]%N);
   ((-6667966689018243, -50)%Z, [34696]%N);
   ((-5451326249217565, -50)%Z, [34758]%N);
   ((-4737677477507193, -50)%Z, [34798]%N);
   ((-1620744474718859, -48)%Z, [34826]%N);
   ((-3133193201432263, -49)%Z, [35315]%N);
   ((-1440977948897531, -48)%Z, [35445; 35804]%N);
   ((-6198129146809033, -50)%Z, [35556; 35860]%N);
   ((-1359440256501149, -48)%Z, [37232]%N);
   ((-3375702423981207, -49)%Z, [37638; 38166]%N);
   ((-1403110868935425, -48)%Z, [37738]%N);
   ((-6400758906165001, -50)%Z, [38284; 38316; 38390; 38406]%N);
   ((-2679816293536445, -49)%Z, [38589; 38603]%N);
   ((-2419965107061831, -49)%Z, [38831; 38857]%N);
   ((-6084814610509369, -50)%Z, [39145; 39272]%N);
   ((-3409154835767379, -49)%Z, [39214]%N);
   ((-3177081647571291, -49)%Z, [39241; 39313]%N);
   ((-3119292496324663, -49)%Z, [39949; 40133]%N);
   ((-1338340036992673, -48)%Z, [40273; 40515]%N);
   ((-4681194165590025, -50)%Z, [40637]%N)];
  (* ('S', 'y') *)
  [
   ((-4063891792895589, -50)%Z, [20040; 40636]%N);
   ((-5542458782680215, -50)%Z, [20046]%N);
   ((-6314848148847581, -50)%Z, [20846]%N);
   ((-4444311521292559, -51)%Z, [21527; 21966]%N);
   ((-3204085678650649, -49)%Z, [21542]%N);
   ((-3266924243144063, -51)%Z, [21543]%N);
   ((-6425681817657603, -50)%Z, [21558; 21584]%N);
   ((-5750103426233115, -51)%Z, [21568]%N);
   ((-7498672025789647, -50)%Z, [21571]%N);
   ((-3633877521169843, -49)%Z, [21589; 22036]%N);
   ((-3448201036250347, -49)%Z, [21591; 21764]%N);
   ((-7297449609126377, -52)%Z, [21602]%N);
   ((-5860469429446223, -50)%Z, [21621]%N);
   ((-5839891234872699, -49)%Z, [21679]%N);
   ((-2753004226248871, -49)%Z, [21703]%N);
   ((-6170920567773223, -50)%Z, [21705]%N);
   ((-5733330573273013, -50)%Z, [21727; 21938]%N);
   ((-7074525422078305, -51)%Z, [21737]%N);
   ((-6483618709766341, -50)%Z, [21780]%N);
   ((-574789982353945, -48)%Z, [21834]%N);
   ((-3517091983338655, -50)%Z, [21862]%N);
   ((-1854790928360501, -48)%Z, [21877]%N);
   ((-3590828533322527, -49)%Z, [21949; 22029]%N);
   ((-8191045485945837, -51)%Z, [22043]%N);
   ((-8345057535898987, -50)%Z, [22046]%N);
   ((-2825287079081237, -49)%Z, [22114]%N);
   ((-3668472360365785, -49)%Z, [27428; 27487]%N);
   ((-2776160986883611, -48)%Z, [28937]%N);
   ((-4381700454736217, -49)%Z, [29463]%N);
   ((-8983918339921335, -51)%Z, [30691]%N);
   ((-2017690863932455, -48)%Z, [32822]%N)];
  (* ('S', 'yg') *)
  [
   ((0, 0)%Z, [23572; 29246]%N)];
  (* ('S', 'z') *)
  [
];
  (* ('S', 'zg') *)
  [
   ((0, 0)%Z, [20873]%N)]].
