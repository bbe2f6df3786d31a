(** * The emission numbers of the tagger, states E

    Generated from jieba/posseg/prob_emit.py, the entries with the key ('E', tag): one row
    per tag, in the order of [pos_tags]; in a row, every number with the characters that
    have it (29602 entries in all).  [(m, e)] is the binary64 number [m * 2^e], the exact
    value of the decimal number in the file as Python reads it. *)
From Verif Require Import PyBase.

Definition pos_emit_E : list (list (Z * Z * list N)) := [
  (* ('E', 'a') *)
  [
   ((-7350414617611315, -50)%Z, [19968]%N);
   ((-7629768930598745, -50)%Z, [19979]%N);
   ((-7625207403529435, -49)%Z, [19985; 20318; 20358; 20957; 21621; 21709; 22179; 22210; 23047; 23308; 23618; 23652;
     24418; 26388; 26469; 26775; 26865; 27870; 27888; 28227; 28632; 29614; 29771; 30340; 30699; 30703; 30876; 30947;
     32184; 32438; 32673; 32680; 32960; 33081; 33485; 33756; 33980; 34255; 35712; 35835; 36291; 36493; 37276; 38911;
     38914; 39030; 39087; 39122; 39361; 39539]%N);
   ((-3663713035617309, -49)%Z, [20005; 22196]%N);
   ((-4374423879936245, -49)%Z, [20007; 21930]%N);
   ((-285547345912583, -45)%Z, [20013]%N);
   ((-1808750057629775, -47)%Z, [20016; 21183; 21218; 21746; 22925; 24819; 25289; 27927; 28435; 29477; 30697; 31616;
     31777; 32311; 32533; 33041; 33126; 33487; 34311; 35672; 35782; 35920]%N);
   ((-1618904037793225, -48)%Z, [20027]%N);
   ((-98495582984447, -44)%Z, [20029; 40599]%N);
   ((-1708323243145975, -48)%Z, [20037]%N);
   ((-4835324792288727, -49)%Z, [20041; 20844; 32681; 32768]%N);
   ((-4989401847307385, -49)%Z, [20046; 24792; 36523]%N);
   ((-8562376546991703, -50)%Z, [20047]%N);
   ((-1766584577969771, -48)%Z, [20048; 27138]%N);
   ((-1679793601422541, -47)%Z, [20056; 21213; 24858; 27454; 28572; 28734; 28784; 31491; 31716; 32988; 34148]%N);
   ((-6354254780495345, -50)%Z, [20081; 20098]%N);
   ((-8369514298841065, -50)%Z, [20107; 30410]%N);
   ((-2505323881593717, -48)%Z, [20130; 29406; 29552]%N);
   ((-6479336600347083, -50)%Z, [20142]%N);
   ((-1427625873986509, -47)%Z, [20146; 20498; 25114; 26165; 26289; 31471; 32399; 32544; 35242; 35365; 35767]%N);
   ((-6402807155389959, -50)%Z, [20154]%N);
   ((-1556582330193743, -47)%Z, [20161; 21046; 22068; 22330; 22580; 24577; 24735; 24907; 25299; 25439; 25613; 26062;
     27498; 27745; 27825; 28044; 28263; 35352; 35760; 35905; 36074; 36136; 36199; 36208; 38464]%N);
   ((-372977226084737, -45)%Z, [20163; 20588; 20655; 21161; 25505; 26197; 26248; 26684; 32597; 33292; 34432; 34645;
     37319; 39348; 39535]%N);
   ((-1111775833864671, -47)%Z, [20215; 20729; 37327]%N);
   ((-6100710668956371, -49)%Z, [20221; 20985; 25111; 25127; 30319; 30887; 36460; 36930]%N);
   ((-2568810644597069, -48)%Z, [20247; 20351; 24811; 24970; 30526; 31077]%N);
   ((-7822689075877471, -50)%Z, [20255; 20553; 32899; 32901]%N);
   ((-8202752619794357, -50)%Z, [20260; 20663; 27779]%N);
   ((-2387609882747969, -48)%Z, [20266; 20605]%N);
   ((-6445382685356805, -50)%Z, [20284]%N);
   ((-6323417544162439, -50)%Z, [20302]%N);
   ((-2394827585307663, -48)%Z, [20303; 24608; 30702]%N);
   ((-1371274999803421, -48)%Z, [20307; 39636]%N);
   ((-8335095464284153, -50)%Z, [20313; 23569; 26102; 26178; 39192]%N);
   ((-2803932792020589, -48)%Z, [20316; 28010; 36855; 37255]%N);
   ((-4889376236857717, -49)%Z, [20339]%N);
   ((-5729588372882771, -49)%Z, [20347; 21990; 36084; 36182]%N);
   ((-2271116251028039, -48)%Z, [20360]%N);
   ((-3056911893183425, -49)%Z, [20415]%N);
   ((-4024995184753237, -49)%Z, [20419]%N);
   ((-1191157763236645, -47)%Z, [20426; 26495]%N);
   ((-2455815060347235, -48)%Z, [20431; 32902]%N);
   ((-5016086935485157, -49)%Z, [20432; 25345; 35686]%N);
   ((-3617664498205525, -49)%Z, [20439]%N);
   ((-408109835984793, -45)%Z, [20442; 20839; 20869; 24432; 24561; 29976; 31185; 38988; 39064]%N);
   ((-4039271941947915, -49)%Z, [20449]%N);
   ((-2425705085487599, -48)%Z, [20461; 20745; 24935; 39250; 39286]%N);
   ((-8510269051991281, -50)%Z, [20518]%N);
   ((-639704100072647, -46)%Z, [20540]%N);
   ((-8342382867763065, -50)%Z, [20551]%N);
   ((-3646660023916447, -49)%Z, [20581]%N);
   ((-497266337776075, -46)%Z, [20633; 22791]%N);
   ((-6139550202746353, -49)%Z, [20645; 20795; 23376; 24870; 24978; 28861; 29118]%N);
   ((-8244416766516193, -50)%Z, [20658]%N);
   ((-798534991257731, -46)%Z, [20667; 23633; 24722; 25000; 25630; 26179; 26364; 28418; 31435; 35328]%N);
   ((-2533779908735623, -48)%Z, [20687; 22916]%N);
   ((-6064378711488095, -49)%Z, [20725; 21018; 21083; 22882; 35527; 35848]%N);
   ((-8890235238556785, -50)%Z, [20731; 27178; 27243; 31957]%N);
   ((-1255394793429055, -47)%Z, [20799; 20818; 26463; 36011; 36143; 39791; 40065]%N);
   ((-4771668018992463, -49)%Z, [20801; 24196; 33674]%N);
   ((-5562805545484645, -49)%Z, [20809; 29343; 36989]%N);
   ((-5998072757051513, -49)%Z, [20811; 21512; 23736; 23835; 24576; 25079; 25384; 26411; 36556; 36712; 36777; 36783;
     37984; 38084; 39108; 39128]%N);
   ((-7844401317177047, -50)%Z, [20840]%N);
   ((-6096450505408441, -50)%Z, [20852; 33288]%N);
   ((-6328967232679829, -49)%Z, [20887; 21795; 24320; 24554; 30684; 31359; 31821; 31895; 32972; 38283]%N);
   ((-2722957487377151, -48)%Z, [20901; 28212; 40635; 40810; 40842]%N);
   ((-85466779807953, -43)%Z, [20915; 23525; 24189; 27770; 28698; 29421; 29433; 33140; 39186; 39297]%N);
   ((-784414046424801, -46)%Z, [20918; 21253; 24551; 24962; 27850; 30634; 32163; 32507; 38281; 38381; 38919; 39032;
     39489; 39580; 40409; 40503; 40643; 40644]%N);
   ((-3764770181433515, -49)%Z, [20919]%N);
   ((-2664878944704527, -48)%Z, [20925; 21464; 24816; 35722]%N);
   ((-1738600460164019, -48)%Z, [20928; 28136]%N);
   ((-1507562520865087, -47)%Z, [20932; 21736; 23244; 28114; 29282; 37658; 38126; 38596; 39138; 39269]%N);
   ((-623026666468171, -46)%Z, [20934; 24853; 28310]%N);
   ((-3837326239204095, -49)%Z, [20937; 28092]%N);
   ((-1168591541388827, -47)%Z, [20945; 23490; 28234]%N);
   ((-2335697723253093, -48)%Z, [20961; 24691; 25031]%N);
   ((-1483579255992337, -48)%Z, [20986]%N);
   ((-643055626067653, -46)%Z, [20991; 37034; 38015]%N);
   ((-4594006158735033, -49)%Z, [20998]%N);
   ((-6260325414400233, -50)%Z, [20999]%N);
   ((-8766467836334617, -50)%Z, [21017; 21063]%N);
   ((-1740918607379589, -48)%Z, [21029; 21035]%N);
   ((-5671768641306693, -50)%Z, [21033]%N);
   ((-2128275376520241, -48)%Z, [21040]%N);
   ((-6844189897050027, -50)%Z, [21051]%N);
   ((-4934800055687601, -49)%Z, [21066; 22519; 25191]%N);
   ((-8217923781674095, -50)%Z, [21069; 37666; 38065]%N);
   ((-6404113556511401, -50)%Z, [21147]%N);
   ((-1333647120355381, -48)%Z, [21151]%N);
   ((-1951479605475171, -48)%Z, [21155]%N);
   ((-705102728015491, -47)%Z, [21160; 21205]%N);
   ((-6302920495750655, -50)%Z, [21170; 21185]%N);
   ((-3709556868615117, -49)%Z, [21171; 21214]%N);
   ((-4730708143888205, -49)%Z, [21187; 36941]%N);
   ((-8076617621823163, -50)%Z, [21191]%N);
   ((-5592441332798187, -49)%Z, [21193; 25324; 28860; 29001; 30250; 30303; 33609]%N);
   ((-1712500459875167, -48)%Z, [21215]%N);
   ((-8704285782906171, -50)%Z, [21220; 24785; 32982; 38665; 40692]%N);
   ((-7666600716511025, -50)%Z, [21243; 21248]%N);
   ((-164851133886849, -44)%Z, [21270; 25112; 25136; 32242; 32520]%N);
   ((-444243440522039, -46)%Z, [21326; 33775]%N);
   ((-4958964707611663, -49)%Z, [21329; 25991; 29408; 30805; 30889]%N);
   ((-1423011116678785, -47)%Z, [21330; 21608; 21917; 24231; 24617; 24730; 24974; 25943; 32085; 32477; 32736; 36001;
     36028; 36130; 36133; 36148; 36913]%N);
   ((-2881200200332307, -49)%Z, [21333; 21934]%N);
   ((-4872185589583045, -49)%Z, [21338; 35498; 35828]%N);
   ((-4823555375043501, -49)%Z, [21361; 32670]%N);
   ((-4607068228565269, -49)%Z, [21385; 21426; 26106; 38860; 38887]%N);
   ((-6844793057508765, -49)%Z, [21388; 21421; 21457; 21476; 21534; 22121; 24275; 24573; 24825; 27915; 27985; 28222;
     28548; 28857; 28888; 29107; 29273; 30196; 30332; 30465; 36870; 40670]%N);
   ((-6478870871320031, -50)%Z, [21402; 25972]%N);
   ((-5369279373559137, -49)%Z, [21462; 29978]%N);
   ((-8040631214144231, -50)%Z, [21463]%N);
   ((-8700929893963109, -50)%Z, [21475]%N);
   ((-2747449012688869, -48)%Z, [21497; 22022; 24187; 24841; 29123; 32043; 38013; 38075]%N);
   ((-269968685466237, -45)%Z, [21507]%N);
   ((-1989138758244805, -49)%Z, [21516]%N);
   ((-5337457017767699, -50)%Z, [21517]%N);
   ((-861107987285571, -47)%Z, [21518; 24230; 24460]%N);
   ((-18557873581349, -41)%Z, [21521]%N);
   ((-5836122147764637, -49)%Z, [21533]%N);
   ((-8851272876479625, -50)%Z, [21548; 24871; 32893]%N);
   ((-4778794062921901, -49)%Z, [21619; 23398; 23416]%N);
   ((-2489536100274401, -48)%Z, [21629]%N);
   ((-6306111145868493, -50)%Z, [21644]%N);
   ((-2458094222408883, -48)%Z, [21696; 27973; 28154]%N);
   ((-5422934234840559, -49)%Z, [21705]%N);
   ((-4571232043875333, -49)%Z, [21713; 21854; 27964; 31402]%N);
   ((-8784368052907281, -50)%Z, [21776]%N);
   ((-2612765982649531, -48)%Z, [21868; 21959; 24052; 30566; 39511; 39564]%N);
   ((-1901044798706957, -48)%Z, [21892]%N);
   ((-3876358201624705, -49)%Z, [21916; 24039]%N);
   ((-5623724377917417, -49)%Z, [22025; 23544; 24544; 32160; 32511; 33499]%N);
   ((-5640042910450013, -49)%Z, [22120; 25361; 28218; 34013; 34253; 40657]%N);
   ((-2674585940310999, -48)%Z, [22122; 25214; 25454; 25818; 29609; 33261; 38929; 39037]%N);
   ((-5079666734698657, -49)%Z, [22218; 25032]%N);
   ((-5400854936197769, -49)%Z, [22242; 22296; 24582; 24884; 29790]%N);
   ((-1934237311704049, -48)%Z, [22256; 31216; 31281]%N);
   ((-924205575537881, -47)%Z, [22266]%N);
   ((-3594446776619825, -49)%Z, [22269; 22283]%N);
   ((-5202234159787853, -49)%Z, [22278; 22291; 26214]%N);
   ((-2031950926140257, -48)%Z, [22307; 32854]%N);
   ((-5885105198388073, -49)%Z, [22312; 22432; 24344; 31071; 31469; 32305; 32437; 32781; 33457]%N);
   ((-1190419164695309, -48)%Z, [22343]%N);
   ((-977261303916913, -47)%Z, [22374]%N);
   ((-2440357648756821, -48)%Z, [22391; 32004; 32422; 36879]%N);
   ((-3090634641109219, -48)%Z, [22446; 24037; 27073; 28156; 36027; 36153]%N);
   ((-2906570703925447, -48)%Z, [22530; 26432; 27578; 34701]%N);
   ((-5769816193328055, -49)%Z, [22570; 25423; 25947; 25986; 29423; 29546; 30201; 30202; 33050; 33139]%N);
   ((-7006743666795641, -49)%Z, [22604; 24310; 24653; 24684; 26834; 27814; 27916; 28138; 38706]%N);
   ((-3925341252248141, -49)%Z, [22615; 28034]%N);
   ((-5911293639022895, -49)%Z, [22622; 27526; 29030; 31384; 32873; 32885; 36426]%N);
   ((-3838000027379589, -49)%Z, [22766; 22767]%N);
   ((-72807295285229, -43)%Z, [22781; 23551; 28165]%N);
   ((-1334845299968109, -47)%Z, [22797; 24529; 24616; 25042; 25078; 30343; 35662; 35890; 39080; 39118]%N);
   ((-3333478524839985, -49)%Z, [22806]%N);
   ((-8051871572795991, -50)%Z, [22810]%N);
   ((-1765019737376699, -48)%Z, [22815; 22816]%N);
   ((-3046109592103149, -50)%Z, [22823]%N);
   ((-2616758602453541, -48)%Z, [22833; 32189; 32496]%N);
   ((-2393005734437935, -48)%Z, [22836; 38957]%N);
   ((-6756251989411405, -50)%Z, [22855]%N);
   ((-1314543972323089, -47)%Z, [22856]%N);
   ((-2267605083128523, -48)%Z, [22859; 22894; 32819]%N);
   ((-4711294152675261, -49)%Z, [22865; 33039; 33247]%N);
   ((-3694205142842579, -49)%Z, [22871]%N);
   ((-314545441364389, -45)%Z, [22885; 22887; 26791; 28796]%N);
   ((-4749383732955061, -50)%Z, [22909]%N);
   ((-4583770423054059, -49)%Z, [22914]%N);
   ((-1770933294727157, -48)%Z, [22937]%N);
   ((-8269262105627369, -50)%Z, [22949]%N);
   ((-6636019313993479, -50)%Z, [22987]%N);
   ((-5359135856725683, -49)%Z, [23039; 26089]%N);
   ((-88658930288715, -43)%Z, [23046; 23304; 26007; 27704; 28113; 32943; 39717]%N);
   ((-5860081080719327, -49)%Z, [23067; 23089]%N);
   ((-723882763651013, -46)%Z, [23068]%N);
   ((-2286858739085255, -48)%Z, [23113; 27788]%N);
   ((-8882334154154153, -50)%Z, [23146; 23789]%N);
   ((-8836057781328715, -50)%Z, [23194]%N);
   ((-4284158992544973, -49)%Z, [23273]%N);
   ((-5151352456594261, -49)%Z, [23384; 25160]%N);
   ((-4963924651180845, -49)%Z, [23389; 36953; 36965]%N);
   ((-8580295756637973, -50)%Z, [23425; 23527]%N);
   ((-7793876596880483, -50)%Z, [23432]%N);
   ((-6282789934866549, -50)%Z, [23433]%N);
   ((-2874671514868009, -48)%Z, [23439; 31381; 32287; 32539; 35998; 36126]%N);
   ((-4558056843777929, -50)%Z, [23450]%N);
   ((-3578916137782561, -49)%Z, [23452]%N);
   ((-2838390881964079, -49)%Z, [23454; 23526]%N);
   ((-5283964365467425, -49)%Z, [23456; 23541; 25758; 35064; 40672]%N);
   ((-5656848634664615, -49)%Z, [23458; 32676; 34249; 36962]%N);
   ((-6842259230832141, -50)%Z, [23475]%N);
   ((-2969380029834747, -48)%Z, [23478; 26354; 26408; 31252; 32694; 33211; 39262; 39307; 39347; 39536]%N);
   ((-8410183276619415, -50)%Z, [23481]%N);
   ((-3129204820371385, -49)%Z, [23494]%N);
   ((-5417806286141125, -50)%Z, [23500]%N);
   ((-4335584346146263, -49)%Z, [23506]%N);
   ((-2106455256676809, -48)%Z, [23518]%N);
   ((-1016479899052291, -47)%Z, [23545; 23565; 24868; 24996]%N);
   ((-97101353986671, -44)%Z, [23567]%N);
   ((-644793214206103, -46)%Z, [23574; 38534]%N);
   ((-2249584531923691, -48)%Z, [23578]%N);
   ((-7871341798013447, -50)%Z, [23596]%N);
   ((-4724162140440471, -49)%Z, [23613; 30433]%N);
   ((-336883234732891, -45)%Z, [23624; 25165; 28139; 32844; 32887]%N);
   ((-5577428444345457, -49)%Z, [23637; 25104]%N);
   ((-4686408334958917, -49)%Z, [23702; 23943; 33988]%N);
   ((-7334373029675963, -50)%Z, [23803]%N);
   ((-2312939881237411, -48)%Z, [24040]%N);
   ((-3857899172393809, -49)%Z, [24046]%N);
   ((-564612654625161, -46)%Z, [24050; 25370; 25711]%N);
   ((-658330182706785, -46)%Z, [24086; 25949; 30270; 30318]%N);
   ((-4929861223589931, -50)%Z, [24120]%N);
   ((-1242232170928837, -47)%Z, [24178; 24185; 24443; 24505; 32034; 33067; 33073]%N);
   ((-1692962020482919, -48)%Z, [24179]%N);
   ((-8318272740756099, -50)%Z, [24184; 30095]%N);
   ((-3227292942249215, -48)%Z, [24188; 24699; 24827; 25925; 26479; 28197; 34384; 36335]%N);
   ((-8976727101317173, -50)%Z, [24191; 24291; 24754; 27978; 28609]%N);
   ((-8092120791477303, -50)%Z, [24207]%N);
   ((-2624917868719839, -48)%Z, [24223; 24290; 30456]%N);
   ((-4876434288643945, -49)%Z, [24246; 28382; 28399]%N);
   ((-2988962288080167, -49)%Z, [24247]%N);
   ((-72898447323963, -43)%Z, [24248; 35628; 35884]%N);
   ((-8802557461548553, -50)%Z, [24265; 26029; 26039]%N);
   ((-6481668139608199, -50)%Z, [24314]%N);
   ((-6670815706748303, -50)%Z, [24322; 30064]%N);
   ((-2233677758855949, -48)%Z, [24335]%N);
   ((-8738406573079795, -50)%Z, [24347; 26151]%N);
   ((-766305473567841, -47)%Z, [24352; 24373]%N);
   ((-6278884624302287, -50)%Z, [24369; 24555]%N);
   ((-1745249077051627, -48)%Z, [24375; 24378]%N);
   ((-360939910291953, -46)%Z, [24403; 30070]%N);
   ((-3894696955253515, -49)%Z, [24425]%N);
   ((-226533988082015, -45)%Z, [24471]%N);
   ((-3880705327113589, -49)%Z, [24494]%N);
   ((-5241617343985533, -49)%Z, [24503]%N);
   ((-5863934059080637, -50)%Z, [24515]%N);
   ((-4563840909869721, -49)%Z, [24525]%N);
   ((-5292829902289101, -49)%Z, [24536; 24813; 24922; 31163; 32784; 33226; 37326; 38626; 38738; 38901; 38907]%N);
   ((-8166737698936229, -50)%Z, [24537]%N);
   ((-5038384897930821, -49)%Z, [24581; 24757]%N);
   ((-558936859281819, -46)%Z, [24594]%N);
   ((-1802521897266027, -48)%Z, [24597]%N);
   ((-7695037463261105, -50)%Z, [24598]%N);
   ((-1175458146550477, -47)%Z, [24604; 24717; 24976]%N);
   ((-8038768682856221, -50)%Z, [24605]%N);
   ((-1525441908523751, -48)%Z, [24613]%N);
   ((-619256010360007, -46)%Z, [24615; 32191; 32501]%N);
   ((-4148503211487191, -49)%Z, [24618]%N);
   ((-4294681727953509, -49)%Z, [24623]%N);
   ((-518709350488087, -46)%Z, [24656]%N);
   ((-8914276719408997, -50)%Z, [24677; 32827]%N);
   ((-4639712152558563, -49)%Z, [24680; 25402]%N);
   ((-5104690852367403, -49)%Z, [24685]%N);
   ((-1327747788293045, -47)%Z, [24687; 28316]%N);
   ((-3898437500267495, -49)%Z, [24694; 24801]%N);
   ((-5457766990481581, -49)%Z, [24696; 24927]%N);
   ((-7651987061234719, -50)%Z, [24700; 24817]%N);
   ((-7917169631938129, -50)%Z, [24709; 24742]%N);
   ((-4612379116571613, -49)%Z, [24756]%N);
   ((-7922192242082307, -50)%Z, [24758; 38391]%N);
   ((-1634412937709849, -48)%Z, [24773]%N);
   ((-3939694861482473, -49)%Z, [24778; 39514]%N);
   ((-4717691380078147, -49)%Z, [24794]%N);
   ((-4708122595253185, -49)%Z, [24796; 26143; 33538]%N);
   ((-8938842782838017, -50)%Z, [24800]%N);
   ((-4311625413191573, -49)%Z, [24807; 25084]%N);
   ((-4235672589464487, -49)%Z, [24808; 24920; 38918; 39034]%N);
   ((-4925417339267381, -49)%Z, [24822]%N);
   ((-1155788401812935, -47)%Z, [24833]%N);
   ((-3653419366998537, -49)%Z, [24847]%N);
   ((-7441881867971369, -50)%Z, [24859; 29233]%N);
   ((-3527703579478993, -49)%Z, [24863; 36575; 36719]%N);
   ((-4999924582715921, -49)%Z, [24904; 33094; 35222; 35270]%N);
   ((-4078180333906097, -49)%Z, [24908]%N);
   ((-3205991978420365, -49)%Z, [24910]%N);
   ((-3433809936782001, -49)%Z, [24930]%N);
   ((-4104614765348163, -49)%Z, [24936]%N);
   ((-8674436909121011, -50)%Z, [24942; 34385]%N);
   ((-4475664892976895, -49)%Z, [24944]%N);
   ((-3991253672971793, -49)%Z, [25022]%N);
   ((-2562108542810539, -48)%Z, [25026; 33725]%N);
   ((-5130879293002225, -49)%Z, [25041; 25059; 33104]%N);
   ((-5217658411030843, -49)%Z, [25062; 27934; 28014; 35600; 35879]%N);
   ((-2741123466111289, -48)%Z, [25150; 32862; 38395]%N);
   ((-269771019934613, -45)%Z, [25163]%N);
   ((-2465044574962683, -48)%Z, [25196; 25562; 27515; 36007; 36139]%N);
   ((-2370336059995945, -48)%Z, [25197; 26679; 27171]%N);
   ((-3872044387769513, -49)%Z, [25240]%N);
   ((-1236085452187713, -47)%Z, [25300]%N);
   ((-5049874071264991, -49)%Z, [25303]%N);
   ((-4747414116183803, -49)%Z, [25305]%N);
   ((-8828526650192861, -50)%Z, [25380; 25824]%N);
   ((-4551733992642311, -49)%Z, [25391]%N);
   ((-4030662514027643, -49)%Z, [25463]%N);
   ((-159322805258235, -44)%Z, [25918; 38931; 39039]%N);
   ((-669503139993155, -47)%Z, [25928]%N);
   ((-261391638522437, -45)%Z, [25935]%N);
   ((-4566293854724217, -49)%Z, [25950]%N);
   ((-1991235562138185, -48)%Z, [25954]%N);
   ((-1048390812510931, -47)%Z, [25955; 28072; 28466]%N);
   ((-8337519361682863, -50)%Z, [25964; 36947]%N);
   ((-1133222179965117, -47)%Z, [25968; 25976; 26429; 36215]%N);
   ((-3046239536523929, -49)%Z, [26032]%N);
   ((-8731499190023149, -50)%Z, [26041]%N);
   ((-4145002993246711, -49)%Z, [26087; 28070; 28516; 33290]%N);
   ((-3580194117794339, -49)%Z, [26097]%N);
   ((-4939550716398719, -49)%Z, [26103; 26336]%N);
   ((-2214739557479125, -48)%Z, [26114]%N);
   ((-5795153434768453, -50)%Z, [26126]%N);
   ((-5336443758446115, -50)%Z, [26131]%N);
   ((-2311573920336775, -49)%Z, [26174; 39023]%N);
   ((-1833344494719007, -48)%Z, [26224]%N);
   ((-4278233148844255, -49)%Z, [26234]%N);
   ((-7975448389235639, -50)%Z, [26242; 26283]%N);
   ((-2257326964406773, -48)%Z, [26262; 27494]%N);
   ((-7281860407866419, -50)%Z, [26263]%N);
   ((-7767244345552111, -50)%Z, [26274; 30021]%N);
   ((-4177317173905259, -49)%Z, [26292; 26465; 26781]%N);
   ((-2112423147581477, -48)%Z, [26377]%N);
   ((-7935696450831117, -50)%Z, [26381]%N);
   ((-7171531606939151, -50)%Z, [26391]%N);
   ((-3531211067170903, -49)%Z, [26395]%N);
   ((-1900097602153969, -48)%Z, [26407; 32999]%N);
   ((-4260893234665717, -50)%Z, [26412]%N);
   ((-8082406323041725, -50)%Z, [26420; 27192]%N);
   ((-1453134561848039, -48)%Z, [26434; 38620]%N);
   ((-183450780390931, -45)%Z, [26494]%N);
   ((-4192296770424249, -49)%Z, [26497; 26997]%N);
   ((-998478844959455, -47)%Z, [26580]%N);
   ((-5073580729981347, -49)%Z, [26862; 29100; 34382]%N);
   ((-704385663031537, -47)%Z, [26970]%N);
   ((-8257900758900019, -50)%Z, [27054; 33635]%N);
   ((-5548552886659159, -49)%Z, [27427; 36032; 36154]%N);
   ((-2402235249053383, -48)%Z, [27465]%N);
   ((-7361577303888387, -50)%Z, [27491]%N);
   ((-5762646849151281, -50)%Z, [27530]%N);
   ((-1271454813611423, -47)%Z, [27531; 27544]%N);
   ((-4528274350144671, -49)%Z, [27589]%N);
   ((-580667712375747, -46)%Z, [27602]%N);
   ((-102886532140149, -44)%Z, [27668; 27683]%N);
   ((-6616536493785307, -49)%Z, [27760; 29645; 30209; 31350; 32227; 32536; 33298; 33452; 35465; 35709; 36685;
     36761]%N);
   ((-7692298046077941, -50)%Z, [27784; 27785]%N);
   ((-5301837293704805, -49)%Z, [27795; 30331; 32959; 33131; 35676; 35889]%N);
   ((-2062784644242533, -48)%Z, [27803]%N);
   ((-7103021015170139, -50)%Z, [27861]%N);
   ((-2825410007153611, -49)%Z, [27867]%N);
   ((-8294668104570361, -50)%Z, [27900; 28497]%N);
   ((-3424030594971025, -49)%Z, [27905; 28500]%N);
   ((-4653893001963271, -49)%Z, [27922; 28753]%N);
   ((-1701081317440129, -48)%Z, [27963]%N);
   ((-8821045560164901, -50)%Z, [27966]%N);
   ((-8684298869168227, -50)%Z, [27969]%N);
   ((-1207843562521853, -47)%Z, [27982; 28639]%N);
   ((-8431082250798867, -50)%Z, [28073; 28544; 36807; 36942]%N);
   ((-3645222092219143, -49)%Z, [28129]%N);
   ((-245630327537747, -45)%Z, [28145]%N);
   ((-5534652181551559, -49)%Z, [28151; 39746]%N);
   ((-2423672766357417, -48)%Z, [28201; 28331; 36681; 36716]%N);
   ((-579267293138753, -46)%Z, [28251]%N);
   ((-7977208983662951, -50)%Z, [28287; 28629]%N);
   ((-7954533238449599, -50)%Z, [28369]%N);
   ((-6811184830704605, -50)%Z, [28385; 28415]%N);
   ((-2304858704852793, -48)%Z, [28448; 36343; 36474]%N);
   ((-4136919470409747, -49)%Z, [28459]%N);
   ((-4576213934383307, -49)%Z, [28552; 30106]%N);
   ((-5179862343625661, -49)%Z, [28608]%N);
   ((-2105146068378443, -48)%Z, [28779]%N);
   ((-8922405995929727, -50)%Z, [28789; 38728]%N);
   ((-8444343887122557, -50)%Z, [28866; 29211]%N);
   ((-5103243018571741, -50)%Z, [28872]%N);
   ((-7998553696981943, -50)%Z, [28902; 29033]%N);
   ((-6660372820934131, -50)%Z, [28909; 29105]%N);
   ((-5194677671117101, -49)%Z, [28966; 39748]%N);
   ((-6473760526678955, -50)%Z, [28982]%N);
   ((-8014832051482057, -50)%Z, [29004]%N);
   ((-389168917948605, -46)%Z, [29087]%N);
   ((-7144297628348321, -50)%Z, [29157]%N);
   ((-7394694394502033, -50)%Z, [29190]%N);
   ((-8246652914037431, -50)%Z, [29245]%N);
   ((-3302693938780251, -49)%Z, [29305]%N);
   ((-4920783980161845, -49)%Z, [29367; 29559]%N);
   ((-6884182395045537, -50)%Z, [29378]%N);
   ((-1075580060857013, -47)%Z, [29420; 29544]%N);
   ((-3848891780978105, -49)%Z, [29467]%N);
   ((-2334220160927295, -48)%Z, [29502]%N);
   ((-2380572641791963, -48)%Z, [29527; 29980]%N);
   ((-4303860463139649, -49)%Z, [29575]%N);
   ((-2486988798032197, -48)%Z, [29649; 29903]%N);
   ((-182464550524161, -45)%Z, [29702]%N);
   ((-2384069270319245, -48)%Z, [29712; 29795]%N);
   ((-2325514055260541, -48)%Z, [29801; 33721; 34588]%N);
   ((-8094073783999677, -50)%Z, [29983]%N);
   ((-3152656317631397, -49)%Z, [29992]%N);
   ((-5734653084276775, -50)%Z, [30001]%N);
   ((-1203960902812537, -47)%Z, [30053; 35443; 35814]%N);
   ((-7500324922261681, -50)%Z, [30097]%N);
   ((-4507965335833115, -49)%Z, [30140]%N);
   ((-71581879791327, -43)%Z, [30162; 30306]%N);
   ((-7234417705461387, -50)%Z, [30171]%N);
   ((-625657580147953, -46)%Z, [30240]%N);
   ((-8906205717772825, -50)%Z, [30246]%N);
   ((-487023774009969, -46)%Z, [30333]%N);
   ((-8559417544219313, -50)%Z, [30382]%N);
   ((-4677352644460911, -49)%Z, [30408]%N);
   ((-6691996626677739, -50)%Z, [30427]%N);
   ((-4631372000705885, -49)%Z, [30442; 33633]%N);
   ((-8824779891637527, -50)%Z, [30446]%N);
   ((-4119978875577965, -49)%Z, [30452]%N);
   ((-7838154977123445, -50)%Z, [30475]%N);
   ((-8224488814308823, -50)%Z, [30495]%N);
   ((-7451782370615145, -50)%Z, [30524]%N);
   ((-4034472680541497, -49)%Z, [30528; 33879]%N);
   ((-8968197515773971, -50)%Z, [30693]%N);
   ((-2446878596228545, -48)%Z, [30701]%N);
   ((-7440787166954801, -50)%Z, [30828]%N);
   ((-5563467227628495, -50)%Z, [30830; 30906]%N);
   ((-2144322336638915, -48)%Z, [30860]%N);
   ((-4463246375719867, -49)%Z, [30862]%N);
   ((-4843310031896747, -49)%Z, [30952; 31169; 36808; 36993]%N);
   ((-4720917463138643, -49)%Z, [31036; 31150]%N);
   ((-2240989208286355, -48)%Z, [31070; 31232]%N);
   ((-6987561340841237, -50)%Z, [31119]%N);
   ((-1695845855122351, -48)%Z, [31168]%N);
   ((-4949174026862101, -49)%Z, [31181; 31278]%N);
   ((-3523831831387869, -49)%Z, [31192]%N);
   ((-273841302873883, -45)%Z, [31229; 31330; 32032]%N);
   ((-4698713741917509, -49)%Z, [31258]%N);
   ((-4907108410011623, -49)%Z, [31264]%N);
   ((-3261756915400721, -49)%Z, [31283; 31337]%N);
   ((-1178620919839267, -47)%Z, [31293; 35299]%N);
   ((-4615053468173289, -49)%Z, [31302; 35946]%N);
   ((-4449096080737453, -49)%Z, [31310; 39062]%N);
   ((-4727425627570841, -49)%Z, [31351; 31406; 37197; 38753]%N);
   ((-2586299186237155, -48)%Z, [31354; 34108; 34297]%N);
   ((-7677349245941411, -50)%Z, [31364]%N);
   ((-1041584596746627, -47)%Z, [31505; 36843]%N);
   ((-651236682622365, -46)%Z, [31528; 37848; 38197; 40763]%N);
   ((-3503744646524303, -49)%Z, [31561]%N);
   ((-2406013493388759, -48)%Z, [31639]%N);
   ((-4386796904449831, -49)%Z, [31929]%N);
   ((-3773720289719847, -49)%Z, [31946]%N);
   ((-1078297834741849, -47)%Z, [31961]%N);
   ((-1811810848080125, -48)%Z, [32020; 32431]%N);
   ((-1639486926081749, -48)%Z, [32026; 32423]%N);
   ((-3878527568291647, -49)%Z, [32039; 32202]%N);
   ((-2238880771635843, -48)%Z, [32047; 35009]%N);
   ((-6644078760768359, -50)%Z, [32048; 32454]%N);
   ((-7326437138446539, -50)%Z, [32080; 32467]%N);
   ((-345067904125785, -45)%Z, [32097; 32476; 32963; 33945]%N);
   ((-8595449416167945, -50)%Z, [32113; 32479]%N);
   ((-8862820669062395, -50)%Z, [32147; 32463]%N);
   ((-493172146641991, -46)%Z, [32233; 32531]%N);
   ((-7831943099810981, -50)%Z, [32244; 32451]%N);
   ((-7026260983408919, -50)%Z, [32321]%N);
   ((-5320354411853109, -50)%Z, [32396; 32493]%N);
   ((-8583310216020605, -50)%Z, [32570]%N);
   ((-6340582230901785, -50)%Z, [32654]%N);
   ((-6747942727292523, -50)%Z, [32769]%N);
   ((-4578721510705013, -49)%Z, [32842]%N);
   ((-8651756144034117, -50)%Z, [33021]%N);
   ((-8985321798830369, -50)%Z, [33030; 33579]%N);
   ((-4867968716282021, -49)%Z, [33080; 33225]%N);
   ((-2324088862460243, -48)%Z, [33125; 36068; 36145]%N);
   ((-8339948488637725, -50)%Z, [33147; 33193]%N);
   ((-5766844748173037, -50)%Z, [33268]%N);
   ((-8545680200367183, -51)%Z, [33324]%N);
   ((-3311621503870159, -49)%Z, [33391]%N);
   ((-7468479165585751, -50)%Z, [33394]%N);
   ((-8283048807362629, -50)%Z, [33395; 33399]%N);
   ((-1213876092625187, -47)%Z, [33436; 34154; 39405; 39559]%N);
   ((-3706346118732343, -49)%Z, [33510]%N);
   ((-2513562761769953, -48)%Z, [33778; 36895]%N);
   ((-9002710560012709, -50)%Z, [33853; 35441; 35805]%N);
   ((-8248893511606421, -50)%Z, [34109]%N);
   ((-7719996857695785, -50)%Z, [34180]%N);
   ((-4118867424173649, -49)%Z, [34394; 34395]%N);
   ((-1089301735793367, -47)%Z, [34542; 34875]%N);
   ((-4620440590177099, -49)%Z, [34850]%N);
   ((-3187433879394889, -49)%Z, [34892]%N);
   ((-1438574429176965, -48)%Z, [34913]%N);
   ((-5320296322935701, -49)%Z, [34980; 39592]%N);
   ((-3506356947979493, -49)%Z, [35029]%N);
   ((-1851943928380257, -49)%Z, [35201]%N);
   ((-6239052718575963, -50)%Z, [35211; 35265]%N);
   ((-4142681546850133, -49)%Z, [35215; 35268]%N);
   ((-7768707503531703, -50)%Z, [35258; 35273]%N);
   ((-2910017398053099, -49)%Z, [35264; 35266]%N);
   ((-7918841347028979, -50)%Z, [35357; 35766]%N);
   ((-1206862809505127, -47)%Z, [35408; 35784; 39654]%N);
   ((-4800729953092785, -49)%Z, [35435; 35815]%N);
   ((-4819686287968585, -49)%Z, [35477; 35806]%N);
   ((-7439693529271103, -50)%Z, [35488; 35802]%N);
   ((-4628619183712289, -49)%Z, [35519; 35843]%N);
   ((-7479749529031961, -50)%Z, [35559; 35856]%N);
   ((-8177211261968141, -50)%Z, [35641; 35880]%N);
   ((-142166985730887, -44)%Z, [35657; 35777]%N);
   ((-2029444453863559, -48)%Z, [35937]%N);
   ((-7597871615827473, -50)%Z, [35947]%N);
   ((-6220022971367841, -50)%Z, [36020; 36149]%N);
   ((-2331288103407317, -48)%Z, [36203]%N);
   ((-4704968805753007, -49)%Z, [36229]%N);
   ((-3718209487804991, -49)%Z, [36234]%N);
   ((-1917990538692519, -48)%Z, [36259]%N);
   ((-2770994847795851, -49)%Z, [36275]%N);
   ((-3840026244156429, -49)%Z, [36481]%N);
   ((-6337292528322261, -50)%Z, [36629; 36731]%N);
   ((-1209825813436947, -47)%Z, [36763]%N);
   ((-5092039759212243, -49)%Z, [36767; 38370]%N);
   ((-34216354224623, -42)%Z, [36771]%N);
   ((-5872868745122779, -50)%Z, [36798; 36948]%N);
   ((-4183510305160175, -49)%Z, [36816; 36939]%N);
   ((-8213568264030211, -50)%Z, [36817]%N);
   ((-6250018748941901, -50)%Z, [36827; 36914]%N);
   ((-1530653000494699, -48)%Z, [36828; 36960]%N);
   ((-406876864901101, -46)%Z, [36866; 36969]%N);
   ((-4636918350529571, -49)%Z, [36874; 36956]%N);
   ((-5823931995936563, -50)%Z, [36890]%N);
   ((-5055707801743967, -49)%Z, [36920]%N);
   ((-2396661304996381, -48)%Z, [36995; 37145]%N);
   ((-7711615430105771, -50)%Z, [37057; 39729]%N);
   ((-7456210694541507, -50)%Z, [37239]%N);
   ((-1101701731328613, -47)%Z, [37240]%N);
   ((-3834639122152619, -49)%Z, [37266]%N);
   ((-581949072331099, -47)%Z, [37325]%N);
   ((-2344729780844161, -48)%Z, [37389; 38045; 38290; 38386]%N);
   ((-7254638492186037, -50)%Z, [37555; 38160]%N);
   ((-6567478658203257, -50)%Z, [37679; 38169]%N);
   ((-6854543072593523, -50)%Z, [38263; 38271]%N);
   ((-4395804295865535, -49)%Z, [38272; 38376]%N);
   ((-6722220115321289, -50)%Z, [38346; 38420]%N);
   ((-1831362268381029, -48)%Z, [38393; 38590; 38627; 39719]%N);
   ((-8436368175563615, -50)%Z, [38475]%N);
   ((-6404985333486309, -50)%Z, [38480]%N);
   ((-8137919674740589, -50)%Z, [38505; 38570]%N);
   ((-5061602619516521, -49)%Z, [38552]%N);
   ((-1863498588856629, -48)%Z, [38597]%N);
   ((-447205131550653, -46)%Z, [38598]%N);
   ((-1462565969201121, -48)%Z, [38745; 38748]%N);
   ((-7421262401826707, -50)%Z, [38752]%N);
   ((-2113766706107215, -48)%Z, [38754]%N);
   ((-2593610635667561, -48)%Z, [39321]%N);
   ((-4692527416438387, -49)%Z, [39336]%N);
   ((-5160669183273887, -50)%Z, [39640]%N);
   ((-7475227836581647, -50)%Z, [39854; 40092]%N);
   ((-7236241025547063, -50)%Z, [40664]%N);
   ((-1967034666668199, -48)%Z, [40778; 40784]%N)];
  (* ('E', 'ad') *)
  [
   ((-5216646778085115, -49)%Z, [20037; 20461; 20745; 21171; 21214]%N);
   ((-2778935450236007, -48)%Z, [20081; 20098; 27178; 27243; 32113; 32479]%N);
   ((-1325177438510363, -48)%Z, [20415]%N);
   ((-8621227560491689, -50)%Z, [20419]%N);
   ((-1645899676834131, -48)%Z, [20581]%N);
   ((-2770731167281301, -50)%Z, [20840]%N);
   ((-3283270905108071, -48)%Z, [20852; 24375; 24378; 26434; 27668; 27683; 31070; 33288; 36523; 36843; 38290; 38386;
     38620; 38860; 38887]%N);
   ((-4905150337352679, -50)%Z, [20915; 27770]%N);
   ((-3470138894493527, -50)%Z, [20998]%N);
   ((-4116091082274807, -50)%Z, [20999]%N);
   ((-361632966512217, -45)%Z, [21017; 21063; 22766; 22767; 26234; 30106; 31302]%N);
   ((-4733318280103237, -50)%Z, [21033]%N);
   ((-5471091782443395, -49)%Z, [21069; 24868; 24996]%N);
   ((-8016677885656201, -51)%Z, [21147]%N);
   ((-8745541399167321, -51)%Z, [21160; 21205]%N);
   ((-4331466162412963, -49)%Z, [21187]%N);
   ((-8213522690385961, -50)%Z, [21193]%N);
   ((-2561301844452573, -48)%Z, [21220; 36953; 36965]%N);
   ((-8468328617951617, -50)%Z, [21243; 21248]%N);
   ((-1372028443878705, -48)%Z, [21385; 21426]%N);
   ((-2426314022854801, -48)%Z, [21475]%N);
   ((-6610730138414523, -50)%Z, [21892]%N);
   ((-5167663727461679, -49)%Z, [22266; 30333]%N);
   ((-2669439753957461, -49)%Z, [22768; 32882]%N);
   ((-2400707743703017, -48)%Z, [22859; 22894; 24822]%N);
   ((-6176334637205807, -49)%Z, [22865; 24758; 31036; 31150; 36575; 36719; 38391]%N);
   ((-2521022537821539, -48)%Z, [23113; 29575]%N);
   ((-7201707503369581, -51)%Z, [23454; 23526]%N);
   ((-1393741714862839, -48)%Z, [23494]%N);
   ((-5948078073482349, -49)%Z, [24039; 27491; 29378; 35264; 35266]%N);
   ((-2150235131706195, -48)%Z, [24184]%N);
   ((-1108659568515251, -48)%Z, [24213]%N);
   ((-6884026742092949, -51)%Z, [24320; 38283]%N);
   ((-6657542141501339, -51)%Z, [24335]%N);
   ((-7882517978805257, -50)%Z, [24369]%N);
   ((-5583205188209149, -50)%Z, [24515]%N);
   ((-2910032368042351, -49)%Z, [24537]%N);
   ((-5395920291185137, -49)%Z, [24555]%N);
   ((-4754475814537601, -49)%Z, [24794; 29467]%N);
   ((-5883019637483667, -50)%Z, [24847]%N);
   ((-8486343400783025, -50)%Z, [24908]%N);
   ((-7724236773697105, -50)%Z, [24936]%N);
   ((-5559443143225221, -51)%Z, [25509]%N);
   ((-8951973176476533, -50)%Z, [25622; 25671]%N);
   ((-1005250285346341, -47)%Z, [26029; 26039]%N);
   ((-3951932632880551, -50)%Z, [26102; 26178]%N);
   ((-5329614336748555, -49)%Z, [26126; 26292]%N);
   ((-1528131829169743, -49)%Z, [26497; 26997]%N);
   ((-1009671656868517, -48)%Z, [26684]%N);
   ((-8227865558322035, -50)%Z, [28872]%N);
   ((-5400857624670523, -51)%Z, [28982]%N);
   ((-478838830443053, -46)%Z, [29384; 29437]%N);
   ((-4908970024042499, -49)%Z, [29702]%N);
   ((-7447451212301365, -50)%Z, [30053; 30343]%N);
   ((-5970893753535095, -50)%Z, [30446]%N);
   ((-8875246856030447, -51)%Z, [30495]%N);
   ((-8774498762882017, -50)%Z, [30528; 33879]%N);
   ((-7588502188060967, -51)%Z, [30830; 30906]%N);
   ((-2182134320763633, -48)%Z, [31216; 31281]%N);
   ((-5660508812376871, -49)%Z, [32047; 33039; 33247; 35488; 35802; 37197]%N);
   ((-4266059700729073, -50)%Z, [32048; 32454]%N);
   ((-2335461389784739, -48)%Z, [32147; 32463]%N);
   ((-2355575300007381, -48)%Z, [32233; 32531]%N);
   ((-1844374261435255, -48)%Z, [32899; 32901]%N);
   ((-1381036411865863, -48)%Z, [32966; 33213]%N);
   ((-8287137132949119, -50)%Z, [33080; 33225]%N);
   ((-982684063498523, -47)%Z, [33510]%N);
   ((-1270221152358265, -47)%Z, [34913]%N);
   ((-3910263090402055, -49)%Z, [35009]%N);
   ((-4971584490147055, -49)%Z, [35201]%N);
   ((-7060398868450349, -50)%Z, [36291; 36493]%N);
   ((-6569239259929747, -51)%Z, [36895]%N);
   ((-6981151057531243, -51)%Z, [36941]%N);
   ((-4633378873401847, -49)%Z, [37325]%N);
   ((-7800598228596741, -50)%Z, [37327]%N);
   ((-7238493849349951, -51)%Z, [38754]%N);
   ((-532703841202801, -46)%Z, [39519; 39588]%N)];
  (* ('E', 'ag') *)
  [
];
  (* ('E', 'an') *)
  [
   ((-5732866248186529, -49)%Z, [19985; 20081; 20098; 24677; 24694; 24709; 24742; 24773; 24801; 24868; 24944; 24996;
     26420; 27192; 27964; 28129; 30097; 31402; 31929; 32827; 34542; 34875; 37276]%N);
   ((-7841600505015977, -50)%Z, [20047]%N);
   ((-6362479149276883, -50)%Z, [20260; 20663]%N);
   ((-3226678565399513, -51)%Z, [20840]%N);
   ((-7061186158995307, -50)%Z, [20937; 28092]%N);
   ((-4826833250347259, -49)%Z, [21160; 21205; 26364]%N);
   ((-2166994082716033, -48)%Z, [21380; 24623; 36828; 36960]%N);
   ((-1523604780527907, -48)%Z, [21696]%N);
   ((-2671329537588097, -48)%Z, [22937; 28165; 30171; 33579; 36575; 36719; 36947; 39336]%N);
   ((-7636324681206261, -50)%Z, [23194]%N);
   ((-1376500271831535, -48)%Z, [23450]%N);
   ((-1850050088727641, -48)%Z, [23490]%N);
   ((-635251761672565, -47)%Z, [23506]%N);
   ((-79912539241449, -43)%Z, [23596; 27978; 28609; 29467; 36763]%N);
   ((-7340928780283479, -50)%Z, [23803]%N);
   ((-6818992276723799, -50)%Z, [24471]%N);
   ((-1687150153155687, -48)%Z, [24494]%N);
   ((-8211463203417215, -50)%Z, [24582; 24884]%N);
   ((-6933589402765555, -50)%Z, [24700; 24817]%N);
   ((-888393454852849, -47)%Z, [24717]%N);
   ((-8618782946627731, -51)%Z, [24807; 25084]%N);
   ((-3967739925376421, -49)%Z, [24846]%N);
   ((-4724195338442401, -49)%Z, [24863; 30862; 36027; 36153; 38597]%N);
   ((-4466456266284321, -50)%Z, [24908]%N);
   ((-6975433395495607, -51)%Z, [25943; 36133]%N);
   ((-7251755079908531, -51)%Z, [26262]%N);
   ((-6765790258072525, -50)%Z, [27602]%N);
   ((-5295081643144251, -50)%Z, [27668; 27683]%N);
   ((-8119438012982471, -51)%Z, [28902; 29033]%N);
   ((-1140561182288881, -47)%Z, [28909; 29105]%N);
   ((-3238538137659319, -49)%Z, [29384; 29437]%N);
   ((-4046418904326589, -49)%Z, [29712; 29795; 30106]%N);
   ((-748913504383203, -48)%Z, [29983]%N);
   ((-4552837050997051, -50)%Z, [30442; 33633]%N);
   ((-2280382192867657, -50)%Z, [30462]%N);
   ((-6204594946960871, -50)%Z, [31351; 31406]%N);
   ((-8275817856234885, -50)%Z, [33268]%N);
   ((-5778902749227169, -51)%Z, [33510]%N);
   ((-5418931640818669, -50)%Z, [35980]%N);
   ((-3309893004444947, -49)%Z, [36101; 36184]%N);
   ((-1743633932487407, -48)%Z, [36866; 36969]%N);
   ((-3508513780854863, -49)%Z, [37240]%N);
   ((-3943780992421731, -49)%Z, [38346; 38420]%N);
   ((-2893334748430393, -50)%Z, [38505; 38570]%N);
   ((-8559665195342615, -52)%Z, [38590; 38627]%N);
   ((-3685087289002551, -49)%Z, [38935; 39047]%N)];
  (* ('E', 'b') *)
  [
   ((-8349464849224409, -51)%Z, [19968]%N);
   ((-8803164925326713, -50)%Z, [19978]%N);
   ((-6305605946936981, -50)%Z, [19979]%N);
   ((-1286791013260751, -47)%Z, [19987; 23560; 26009; 26143; 26262; 28895; 29017; 31735; 33609]%N);
   ((-4383896716457101, -49)%Z, [19990]%N);
   ((-1582327494597885, -48)%Z, [19994; 26989]%N);
   ((-3284511437855605, -48)%Z, [19997; 20351; 20379; 21017; 21063; 22899; 23621; 24178; 24185; 26025; 26028; 27978;
     28609; 29087; 31649; 32114; 32177; 32434; 32937; 33014; 33050; 33139; 33184; 33324; 34255; 39131; 39134;
     40763]%N);
   ((-7464097476368953, -51)%Z, [20010; 20491]%N);
   ((-5364272728652459, -49)%Z, [20013; 20915; 21066; 23700; 24102; 24118; 26837; 27770]%N);
   ((-942328852145843, -47)%Z, [20037]%N);
   ((-7027617803597063, -50)%Z, [20041; 32681]%N);
   ((-2931890010474399, -48)%Z, [20048; 20607; 20767; 22987; 23429; 27138; 27491; 28151; 30031; 31143; 33521; 36650;
     36718; 39511; 39564]%N);
   ((-792595788998469, -46)%Z, [20061; 20184; 20799; 20818; 20844; 21476; 22918; 22941; 24052; 24339; 25269; 28861;
     28909; 29105; 29118; 31186; 31983; 33134; 36827; 36914; 37679; 38169]%N);
   ((-6178815702700875, -49)%Z, [20102; 21490; 23613; 26684; 29677; 30433; 30446; 30524; 31665; 32592; 35359; 35672;
     35772; 35782; 38913; 39029]%N);
   ((-5664419982739773, -50)%Z, [20107]%N);
   ((-2300332053423195, -48)%Z, [20108]%N);
   ((-3250769074715363, -49)%Z, [20132]%N);
   ((-1494207146072317, -48)%Z, [20135; 29986]%N);
   ((-1415747469467985, -47)%Z, [20142; 21010; 21123; 30041; 32972; 33218; 34913]%N);
   ((-4693158501917793, -49)%Z, [20146; 25176; 35242]%N);
   ((-5471749031060865, -50)%Z, [20154]%N);
   ((-8284517417733605, -50)%Z, [20195; 35215; 35268]%N);
   ((-2650829131273951, -48)%Z, [20215; 20729; 24124; 24151; 25512; 31237; 31246; 32568]%N);
   ((-1713426530566789, -48)%Z, [20219]%N);
   ((-3521281798524157, -49)%Z, [20221; 38469; 38555]%N);
   ((-4683194525814109, -49)%Z, [20247; 21270; 30526]%N);
   ((-1996844771723383, -48)%Z, [20248; 20778]%N);
   ((-8595894592745911, -50)%Z, [20256; 20659]%N);
   ((-8395611681361789, -50)%Z, [20301]%N);
   ((-8616000482513009, -50)%Z, [20302]%N);
   ((-842362977605397, -47)%Z, [20307; 39636]%N);
   ((-3642529214099285, -49)%Z, [20313; 39192]%N);
   ((-5950559138977417, -49)%Z, [20316; 21360; 21488; 22120; 22810; 26408; 27833; 28014; 28938; 32930; 35126;
     36275]%N);
   ((-8943287868772497, -50)%Z, [20320; 23556]%N);
   ((-1736044911163223, -48)%Z, [20358; 26469]%N);
   ((-5398401356680205, -49)%Z, [20493; 28872; 38272; 38376]%N);
   ((-1197947408918423, -47)%Z, [20505; 28201; 28331; 32011; 32441; 35712; 35835; 38738]%N);
   ((-6959230048721545, -49)%Z, [20540; 20811; 20854; 21019; 21109; 21307; 21382; 21451; 21644; 22841; 22846; 23553;
     24895; 25239; 26525; 26797; 27511; 27531; 27544; 30011; 30059; 30452; 32068; 32361; 32452; 32499; 33292; 33976;
     36215; 36779; 36782; 37291; 37550; 38014; 38505; 38570; 38684; 39000; 39201; 39301]%N);
   ((-8053100123260995, -50)%Z, [20542; 20670]%N);
   ((-7438070475355427, -50)%Z, [20633; 22791]%N);
   ((-4157578020235611, -49)%Z, [20803]%N);
   ((-8877426995119027, -50)%Z, [20809; 22768; 32882]%N);
   ((-2120565527601867, -48)%Z, [20839; 20869; 28779]%N);
   ((-1266844025529759, -48)%Z, [20849]%N);
   ((-2780175982983541, -48)%Z, [20851; 20934; 20986; 21464; 21619; 23521; 28310; 31896; 33136; 35722; 36031; 36152;
     38364; 39151; 39277]%N);
   ((-4841322662065249, -50)%Z, [20852; 33288]%N);
   ((-6166065401386903, -50)%Z, [20856]%N);
   ((-4941888229233289, -49)%Z, [20889; 23531; 24038; 25658; 25884; 25935; 26395]%N);
   ((-526842242838219, -46)%Z, [20892; 25311; 25836; 36786]%N);
   ((-2804667508295259, -48)%Z, [20896; 22766; 22767; 22937; 32764; 36420; 39166; 39280]%N);
   ((-2463231988995149, -48)%Z, [20919; 22863; 24213; 26579; 28784; 31354; 37504; 38134; 39746]%N);
   ((-7747809244214283, -50)%Z, [20987; 25802]%N);
   ((-5272782704861605, -49)%Z, [20998; 22788; 24352; 24373; 34389; 35373; 35774]%N);
   ((-6349451837677893, -50)%Z, [21015]%N);
   ((-7000722064357237, -50)%Z, [21021]%N);
   ((-5170144792956747, -49)%Z, [21033; 22320; 29923; 31036; 31150; 32227; 32536; 38451; 38525]%N);
   ((-7120421791174967, -50)%Z, [21046; 26646; 26866]%N);
   ((-7975831294310763, -50)%Z, [21069]%N);
   ((-8090633595734743, -50)%Z, [21103]%N);
   ((-8097012649098357, -50)%Z, [21147]%N);
   ((-1143909997294411, -47)%Z, [21150; 36774]%N);
   ((-2883914316425339, -49)%Z, [21153; 21209]%N);
   ((-5515291927410549, -49)%Z, [21155; 21943; 22132; 23574]%N);
   ((-2848669501324301, -49)%Z, [21160; 21205]%N);
   ((-2362077200459183, -48)%Z, [21161; 28903; 29138]%N);
   ((-4990871279856725, -49)%Z, [21191; 28287; 28629; 30861; 31001; 32299; 32541; 34966; 38899; 40786; 40831]%N);
   ((-1194984404986603, -47)%Z, [21213; 32988]%N);
   ((-515918156898109, -46)%Z, [21306; 21312; 23395; 36828; 36960]%N);
   ((-2504097091834935, -48)%Z, [21367; 22330; 22580; 31105; 32599; 32645]%N);
   ((-1158964984724229, -47)%Z, [21387; 22739]%N);
   ((-2861151287626979, -48)%Z, [21402; 21475; 23454; 23526; 24459; 27515; 37467; 38085; 38556]%N);
   ((-4745808991918665, -49)%Z, [21407; 22256; 30732]%N);
   ((-5063611018074881, -49)%Z, [21449; 24149; 26234; 26803; 28023]%N);
   ((-4389730446936077, -49)%Z, [21453]%N);
   ((-481084571750707, -46)%Z, [21457; 30332]%N);
   ((-2562542377200107, -48)%Z, [21463; 24180; 26497; 26997; 27873; 29190; 32048; 32454]%N);
   ((-5473572847938463, -49)%Z, [21491; 22418; 22696; 22744; 24555; 29289; 32043; 34180; 35167; 36771]%N);
   ((-8379054031385717, -50)%Z, [21495; 26657; 34399]%N);
   ((-8678566572751469, -50)%Z, [21512]%N);
   ((-1243516388910531, -47)%Z, [21517; 24613; 25209; 29255; 30382]%N);
   ((-2029092392816291, -48)%Z, [21518; 24375; 24378; 24460]%N);
   ((-845754406490147, -47)%Z, [21521; 22806]%N);
   ((-666511925280453, -46)%Z, [21560; 23457; 23529; 24187; 31680; 32791; 33410; 33655; 36394; 37832; 38142]%N);
   ((-2304629464785639, -48)%Z, [21629; 27663; 40657]%N);
   ((-8232827689312171, -50)%Z, [21697]%N);
   ((-6053197050882275, -49)%Z, [21892; 22238; 22260; 22285; 22781; 23551; 27048; 28857; 28907; 29145; 30722; 31174;
     31240; 34915; 38632; 40670]%N);
   ((-3151501354499207, -49)%Z, [22269; 22283]%N);
   ((-5880810407242543, -50)%Z, [22312]%N);
   ((-1679235490545773, -49)%Z, [22411]%N);
   ((-7392679215801889, -50)%Z, [22812]%N);
   ((-2349095224402785, -49)%Z, [22823]%N);
   ((-6955727437235661, -50)%Z, [22836; 38957]%N);
   ((-3928028803927143, -49)%Z, [22871]%N);
   ((-2434337413371835, -48)%Z, [22916; 34920]%N);
   ((-4131036743516897, -49)%Z, [22995]%N);
   ((-2096825604810727, -48)%Z, [23380; 25552]%N);
   ((-5434733314148481, -49)%Z, [23383; 26415; 26465; 26781; 27982; 28639; 31639; 32232; 32534; 34899; 39854;
     40092]%N);
   ((-2522263070569073, -48)%Z, [23435; 25105; 36007; 36139; 37341; 38024]%N);
   ((-1034623285824719, -47)%Z, [23447]%N);
   ((-5064343081486345, -50)%Z, [23450]%N);
   ((-2275840528111477, -48)%Z, [23453; 23542; 37329]%N);
   ((-5103838838520165, -49)%Z, [23475; 26463; 26680; 36920; 37096; 39135]%N);
   ((-4513884988817771, -49)%Z, [23478]%N);
   ((-2225827722886643, -48)%Z, [23494]%N);
   ((-3791161004896609, -49)%Z, [23506]%N);
   ((-930652383775919, -47)%Z, [23519]%N);
   ((-7542533420404567, -50)%Z, [23548; 23566]%N);
   ((-1154274764076445, -48)%Z, [23567]%N);
   ((-836273550739013, -47)%Z, [23618; 23652]%N);
   ((-1947710626041989, -48)%Z, [23622; 23626]%N);
   ((-934745200131255, -47)%Z, [23646; 23660]%N);
   ((-4492368358840935, -49)%Z, [24066]%N);
   ((-5631719719902577, -50)%Z, [24120]%N);
   ((-4185432816167309, -49)%Z, [24133]%N);
   ((-7316598303077687, -50)%Z, [24179]%N);
   ((-4663780534601165, -49)%Z, [24220; 27611; 28304; 32918; 36895]%N);
   ((-8010836183396593, -50)%Z, [24230; 36011; 36143]%N);
   ((-4734877581389879, -49)%Z, [24314]%N);
   ((-4596921098566831, -50)%Z, [24335]%N);
   ((-6518727794880503, -50)%Z, [24418]%N);
   ((-2049326849069345, -48)%Z, [24425]%N);
   ((-443695471323943, -46)%Z, [24441]%N);
   ((-529024394254445, -46)%Z, [24452; 24465]%N);
   ((-4911451089537567, -49)%Z, [24471; 35282; 36039; 36164; 38590; 38627]%N);
   ((-603615083821231, -46)%Z, [24494]%N);
   ((-3737138082174537, -49)%Z, [24515; 30333]%N);
   ((-8949859223462797, -51)%Z, [24615]%N);
   ((-4756956880032669, -49)%Z, [24635; 26434; 32317; 37561; 38152; 38620; 38914; 39030]%N);
   ((-384308005353037, -46)%Z, [24687]%N);
   ((-4559554610491173, -49)%Z, [24847]%N);
   ((-7925283657808799, -50)%Z, [24859; 29233]%N);
   ((-35322218097869, -42)%Z, [24863; 33457]%N);
   ((-4768329993176051, -49)%Z, [25101]%N);
   ((-7399544480407369, -50)%Z, [25104]%N);
   ((-470437720018795, -46)%Z, [25112; 25136]%N);
   ((-5219127843580183, -49)%Z, [25151; 32113; 32479; 35676; 35889]%N);
   ((-7866434638978321, -50)%Z, [25163]%N);
   ((-4841862618783621, -49)%Z, [25206; 25918; 26865; 31185; 34880]%N);
   ((-5194103725911437, -49)%Z, [25220]%N);
   ((-2998725918449833, -49)%Z, [25509]%N);
   ((-7254378058305575, -50)%Z, [25511]%N);
   ((-4567539850099193, -49)%Z, [25622; 25671; 31169]%N);
   ((-1700476915943137, -48)%Z, [25928]%N);
   ((-6043991612175745, -50)%Z, [26032]%N);
   ((-2017927615697009, -48)%Z, [26041]%N);
   ((-543083801047443, -46)%Z, [26080; 28961; 33108]%N);
   ((-7139390469313195, -50)%Z, [26085]%N);
   ((-4506621017666421, -49)%Z, [26087; 33290]%N);
   ((-2330041605965929, -49)%Z, [26102; 26178]%N);
   ((-2427554555602335, -48)%Z, [26131]%N);
   ((-8322947766425237, -50)%Z, [26222; 36554; 36710]%N);
   ((-1447152132422635, -47)%Z, [26354; 26438; 26751; 28342; 31869; 35014; 35168; 35302; 35320; 37221]%N);
   ((-3352495507385539, -50)%Z, [26377]%N);
   ((-57714788608343, -44)%Z, [26399]%N);
   ((-6836869922090049, -50)%Z, [26412]%N);
   ((-2774780627281987, -49)%Z, [26426; 27231]%N);
   ((-4654318968127811, -49)%Z, [26679; 27171; 38281; 38381]%N);
   ((-3375225806712973, -49)%Z, [26723; 27284]%N);
   ((-2582848623086671, -49)%Z, [27169]%N);
   ((-3510109326905993, -49)%Z, [27425]%N);
   ((-1030008528516995, -47)%Z, [27454]%N);
   ((-619718377888691, -46)%Z, [27542]%N);
   ((-2482112145961, -38)%Z, [27602; 32396; 32493; 32701; 39321]%N);
   ((-4645013798364291, -49)%Z, [27687]%N);
   ((-7260447614281385, -50)%Z, [27700]%N);
   ((-6069059064844677, -50)%Z, [27861]%N);
   ((-3689536504522711, -49)%Z, [27915]%N);
   ((-8815206750346915, -50)%Z, [27927; 36523]%N);
   ((-7155907634583599, -50)%Z, [27966]%N);
   ((-6378269861873533, -50)%Z, [27969]%N);
   ((-7022679638194739, -50)%Z, [28145]%N);
   ((-6814123695803285, -50)%Z, [28165]%N);
   ((-5116596339378775, -50)%Z, [28982]%N);
   ((-8657322548030903, -50)%Z, [29123; 30427]%N);
   ((-5463083458489773, -50)%Z, [29151; 33829]%N);
   ((-2159117988468739, -48)%Z, [29256]%N);
   ((-7953085068023999, -50)%Z, [29260]%N);
   ((-3885756637834421, -49)%Z, [29366; 29376]%N);
   ((-7644772391701393, -50)%Z, [29575]%N);
   ((-8473290748941753, -50)%Z, [29615; 29872]%N);
   ((-7785978998087753, -50)%Z, [29645]%N);
   ((-4876290188662671, -50)%Z, [29983]%N);
   ((-4901467559285613, -50)%Z, [29992]%N);
   ((-5602033256849755, -50)%Z, [30002]%N);
   ((-7452413343291501, -50)%Z, [30005; 38651]%N);
   ((-7930789291795991, -50)%Z, [30028]%N);
   ((-3540409911124169, -49)%Z, [30340]%N);
   ((-8269505196569791, -50)%Z, [30456]%N);
   ((-8756245640331433, -50)%Z, [30495]%N);
   ((-8585974705607547, -50)%Z, [30719; 31014]%N);
   ((-1575101369056917, -48)%Z, [31181; 31278; 32005; 32418]%N);
   ((-6480033268260715, -50)%Z, [31243]%N);
   ((-3135480069655345, -49)%Z, [31435]%N);
   ((-4350109580677267, -49)%Z, [31471]%N);
   ((-2442925233695243, -49)%Z, [31561]%N);
   ((-7257408746291239, -50)%Z, [31687]%N);
   ((-2271958053085515, -48)%Z, [31821]%N);
   ((-6169524389996429, -50)%Z, [31867; 39006]%N);
   ((-4153708933160695, -49)%Z, [31929]%N);
   ((-3292607461161175, -49)%Z, [31995]%N);
   ((-3648553785883243, -50)%Z, [32026; 32423]%N);
   ((-1935781935243813, -48)%Z, [32033; 32442]%N);
   ((-3244599698412897, -49)%Z, [32147; 32463]%N);
   ((-7892803523527447, -50)%Z, [32160; 32511]%N);
   ((-1876971903194569, -48)%Z, [32218; 32447]%N);
   ((-7459653882115291, -50)%Z, [32239; 32428]%N);
   ((-3824530769695417, -49)%Z, [32340; 32455]%N);
   ((-133400709402491, -44)%Z, [32844; 32887]%N);
   ((-8438103513121887, -50)%Z, [32905; 32990]%N);
   ((-3194021074040003, -49)%Z, [33021]%N);
   ((-5442917547937051, -50)%Z, [33394]%N);
   ((-1897612821578487, -48)%Z, [33905; 34085]%N);
   ((-8218484821376097, -50)%Z, [34013; 34253]%N);
   ((-2209920949818901, -48)%Z, [34701]%N);
   ((-5995471361618839, -50)%Z, [34892]%N);
   ((-16333469444949, -41)%Z, [34917; 35036]%N);
   ((-3631747353276083, -49)%Z, [35013; 35037]%N);
   ((-7259084871405043, -52)%Z, [35201]%N);
   ((-3448466078398283, -49)%Z, [35222; 35270]%N);
   ((-1114559932703297, -47)%Z, [35328]%N);
   ((-138910852541909, -44)%Z, [35586; 35859]%N);
   ((-5245316284215005, -49)%Z, [35695; 35793; 38534]%N);
   ((-689432542469927, -47)%Z, [36074; 36136]%N);
   ((-2441287765925635, -48)%Z, [36335]%N);
   ((-2139182226971481, -48)%Z, [36556; 36712]%N);
   ((-3435398955089289, -49)%Z, [36617; 36733]%N);
   ((-949829960670631, -47)%Z, [36793; 37002]%N);
   ((-1033748231264599, -48)%Z, [36848]%N);
   ((-4583858382631789, -49)%Z, [36873; 36984]%N);
   ((-3466374545283661, -49)%Z, [36884]%N);
   ((-1770854263754771, -48)%Z, [36896]%N);
   ((-1121343775446593, -47)%Z, [36963]%N);
   ((-1609188198478981, -48)%Z, [37325]%N);
   ((-1961443836365289, -48)%Z, [37327]%N);
   ((-8646848984998991, -50)%Z, [38263; 38271]%N);
   ((-3835377925198465, -49)%Z, [38450]%N);
   ((-5776754732918351, -50)%Z, [38754]%N);
   ((-6288791506012859, -50)%Z, [38917; 39033]%N);
   ((-5026067111907251, -49)%Z, [38936; 39046]%N);
   ((-458905137469077, -46)%Z, [38971; 39057]%N);
   ((-1485818594917899, -48)%Z, [38989; 39069]%N);
   ((-3826683544607295, -49)%Z, [39640]%N);
   ((-7088629563897993, -50)%Z, [40643; 40644]%N);
   ((-2039027835205485, -48)%Z, [40801; 40836]%N)];
  (* ('E', 'bg') *)
  [
];
  (* ('E', 'c') *)
  [
   ((-4645751176048545, -49)%Z, [19981]%N);
   ((-3317307791824995, -50)%Z, [19988]%N);
   ((-6258434884041691, -51)%Z, [20026; 28858]%N);
   ((-465977577276455, -46)%Z, [20040; 40636]%N);
   ((-2876127856814901, -49)%Z, [20043]%N);
   ((-5303835779041149, -49)%Z, [20046]%N);
   ((-3073666404676007, -50)%Z, [20110; 26044]%N);
   ((-8958585311520147, -51)%Z, [20165; 20677]%N);
   ((-1088456595250965, -47)%Z, [20196]%N);
   ((-6875339698557635, -51)%Z, [20197]%N);
   ((-1419920051277243, -48)%Z, [20294]%N);
   ((-2515566028274363, -49)%Z, [20351]%N);
   ((-3214999489554293, -49)%Z, [20358; 26469]%N);
   ((-1495098308679579, -48)%Z, [20415]%N);
   ((-7907881493820243, -50)%Z, [20809]%N);
   ((-7245381971440725, -50)%Z, [20813]%N);
   ((-595286379582385, -47)%Z, [20854]%N);
   ((-820165057268479, -47)%Z, [20917; 27841]%N);
   ((-2626694309240403, -48)%Z, [20960; 24190]%N);
   ((-5465744134637549, -50)%Z, [21017; 21063]%N);
   ((-1134193162643753, -47)%Z, [21333; 21934]%N);
   ((-1628562214502043, -49)%Z, [21450]%N);
   ((-4523421433020479, -49)%Z, [21453]%N);
   ((-2456814303015407, -48)%Z, [21482]%N);
   ((-2092012777785701, -49)%Z, [21518; 24460]%N);
   ((-7178906935318485, -51)%Z, [22806]%N);
   ((-2435640792274461, -48)%Z, [22856]%N);
   ((-7292527985735011, -50)%Z, [22914]%N);
   ((-4969045440435825, -49)%Z, [23425; 23527]%N);
   ((-8468191392752789, -50)%Z, [24403; 30070]%N);
   ((-858083058885311, -46)%Z, [24466]%N);
   ((-3522128740993983, -49)%Z, [24597]%N);
   ((-1116247258213029, -47)%Z, [24799]%N);
   ((-7693050592236645, -50)%Z, [25110]%N);
   ((-6378980536497803, -51)%Z, [26102; 26178]%N);
   ((-4734430758478413, -51)%Z, [26159]%N);
   ((-2813868498807451, -48)%Z, [26352; 35611; 35762]%N);
   ((-5421655837992423, -50)%Z, [26377]%N);
   ((-6648783685593983, -50)%Z, [26411]%N);
   ((-6312489590964127, -51)%Z, [26524]%N);
   ((-5681449792753161, -50)%Z, [27425]%N);
   ((-3391382541086493, -50)%Z, [27492]%N);
   ((-6639284103052675, -51)%Z, [28982]%N);
   ((-1355181587442873, -47)%Z, [29420; 29544]%N);
   ((-5009273260881109, -49)%Z, [30475]%N);
   ((-2474980281749545, -48)%Z, [30495]%N);
   ((-642479271687837, -47)%Z, [30528; 33879]%N);
   ((-4097505243237627, -50)%Z, [31649]%N);
   ((-17441112268871, -42)%Z, [32773]%N);
   ((-6993021839908079, -51)%Z, [32780]%N);
   ((-6474457298072153, -49)%Z, [32943]%N);
   ((-6023351512160101, -50)%Z, [33267]%N);
   ((-6833548482916625, -50)%Z, [33268]%N);
   ((-5921891769496661, -50)%Z, [33509]%N);
   ((-4661816164885769, -50)%Z, [35201]%N);
   ((-8011678265305873, -50)%Z, [35211; 35265]%N);
   ((-8334410931717809, -50)%Z, [35328]%N);
   ((-1294554281805637, -47)%Z, [35441; 35805]%N);
   ((-5182789243247869, -50)%Z, [35498; 35828]%N);
   ((-5059567289973563, -50)%Z, [35542; 35770]%N);
   ((-7516674155021963, -51)%Z, [36807; 36942]%N);
   ((-8802664519111703, -50)%Z, [36848]%N);
   ((-6903423688273279, -50)%Z, [38750]%N);
   ((-2396319755589861, -49)%Z, [38754]%N)];
  (* ('E', 'd') *)
  [
   ((-3931765620790285, -49)%Z, [19968]%N);
   ((-5248300778318453, -49)%Z, [19969; 24871]%N);
   ((-4224398243493495, -49)%Z, [19977; 20037]%N);
   ((-5220118406118139, -50)%Z, [19978]%N);
   ((-6643687670439241, -50)%Z, [19979]%N);
   ((-2650218898328925, -49)%Z, [19981]%N);
   ((-8515465426142297, -50)%Z, [19988; 39015; 39038]%N);
   ((-2788885932594959, -48)%Z, [19990; 22952; 33151]%N);
   ((-4861667902734081, -49)%Z, [20005; 22196]%N);
   ((-4639419399809023, -49)%Z, [20006; 24182]%N);
   ((-8169701386510971, -50)%Z, [20010; 20491; 29983]%N);
   ((-1743452336577529, -48)%Z, [20013]%N);
   ((-4773326350894435, -50)%Z, [20026; 28858]%N);
   ((-6890282081283287, -50)%Z, [20030; 32380; 32487; 33289]%N);
   ((-6736252952303015, -50)%Z, [20040; 40636]%N);
   ((-28742757744085, -42)%Z, [20043]%N);
   ((-2348203693764853, -49)%Z, [20046]%N);
   ((-5187564692179583, -49)%Z, [20054]%N);
   ((-427388822087885, -46)%Z, [20063]%N);
   ((-8830408261848809, -50)%Z, [20081; 20098]%N);
   ((-4606571335856975, -49)%Z, [20102]%N);
   ((-4883603792904965, -49)%Z, [20107]%N);
   ((-2711896192456875, -49)%Z, [20110; 26044]%N);
   ((-8811106647886801, -50)%Z, [20111; 34407]%N);
   ((-6281930784126777, -50)%Z, [20114]%N);
   ((-8432728325693281, -50)%Z, [20123]%N);
   ((-6411841072492009, -49)%Z, [20134; 21488; 21883; 23553; 31532; 33394; 38263; 38271]%N);
   ((-400630063153649, -46)%Z, [20165; 20677]%N);
   ((-3168271571072415, -49)%Z, [20170]%N);
   ((-4602031392272525, -49)%Z, [20174; 24478]%N);
   ((-5616137664322463, -50)%Z, [20197]%N);
   ((-2411772979902035, -48)%Z, [20214]%N);
   ((-5852690033140235, -49)%Z, [20215; 20729; 24635; 32317; 35328]%N);
   ((-2438098224902471, -48)%Z, [20247; 22242; 22296; 30424; 30436; 30526]%N);
   ((-5403170162747881, -49)%Z, [20248; 20778]%N);
   ((-850256030687793, -46)%Z, [20301; 33041; 33126; 35013; 35037; 36039; 36164; 36600; 36724]%N);
   ((-8458082312049933, -50)%Z, [20303]%N);
   ((-994579229593405, -47)%Z, [20307; 25972; 39636]%N);
   ((-5121258737743001, -49)%Z, [20309; 24052]%N);
   ((-429103084572923, -46)%Z, [20315]%N);
   ((-5967979038200253, -49)%Z, [20355; 20960; 24190]%N);
   ((-4521294138484337, -50)%Z, [20358; 26469]%N);
   ((-8645321152716563, -50)%Z, [20363]%N);
   ((-6992679618865403, -50)%Z, [20415]%N);
   ((-1653157803892217, -47)%Z, [20445; 26435; 27402; 40786; 40831]%N);
   ((-4634607832454491, -49)%Z, [20493]%N);
   ((-2007673075466533, -48)%Z, [20498]%N);
   ((-125680050139031, -44)%Z, [20505]%N);
   ((-2026211410833821, -48)%Z, [20559]%N);
   ((-3671229908373577, -49)%Z, [20572]%N);
   ((-8307739329533417, -50)%Z, [20599]%N);
   ((-551698016242561, -46)%Z, [20607; 20767; 32048; 32454]%N);
   ((-2490523174327815, -48)%Z, [20687]%N);
   ((-909205340997123, -47)%Z, [20799; 20818]%N);
   ((-1270947464725763, -48)%Z, [20808]%N);
   ((-7355516398012499, -50)%Z, [20813]%N);
   ((-294126715441495, -45)%Z, [20839; 20869]%N);
   ((-5617526021363739, -49)%Z, [20844; 29978]%N);
   ((-7576307530264437, -50)%Z, [20849]%N);
   ((-2497251980253325, -48)%Z, [20852; 33288]%N);
   ((-5447178218415161, -50)%Z, [20854]%N);
   ((-394325197536697, -45)%Z, [20860; 22068; 24102; 24118; 27513; 38989; 39069]%N);
   ((-611388737935859, -46)%Z, [20873]%N);
   ((-2920123991997035, -49)%Z, [20877]%N);
   ((-457367129395705, -45)%Z, [20887; 22362; 22533; 25104; 25171; 26012; 32244; 32451; 38431; 38538]%N);
   ((-1439261344572485, -47)%Z, [20934; 23618; 23652; 26080; 28310; 28961]%N);
   ((-1138592178516683, -47)%Z, [20961]%N);
   ((-5053130142263493, -50)%Z, [20998]%N);
   ((-2706315864610617, -48)%Z, [20999; 29359]%N);
   ((-5517181187796121, -49)%Z, [21010; 21123; 24037]%N);
   ((-3087878260453171, -49)%Z, [21018; 21083]%N);
   ((-6900755644315199, -50)%Z, [21021]%N);
   ((-4138230017635965, -50)%Z, [21029; 21035]%N);
   ((-5891540078681249, -50)%Z, [21051]%N);
   ((-4679468278754573, -49)%Z, [21069]%N);
   ((-3947094413102109, -49)%Z, [21095; 21127]%N);
   ((-2981339191877253, -49)%Z, [21147]%N);
   ((-5510663260636437, -50)%Z, [21152]%N);
   ((-6506741800015591, -50)%Z, [21160; 21205]%N);
   ((-5660302284157637, -49)%Z, [21161; 36027; 36153]%N);
   ((-6147252551300275, -49)%Z, [21170; 21185; 21512; 24335; 30636; 37341; 38024]%N);
   ((-8091300819446629, -50)%Z, [21183; 21218]%N);
   ((-2481794568662911, -48)%Z, [21191; 26247]%N);
   ((-5017673895499781, -49)%Z, [21247; 31471]%N);
   ((-4844019123396107, -49)%Z, [21254]%N);
   ((-7708081243341615, -49)%Z, [21270; 31454; 31478; 31649; 38914; 39030]%N);
   ((-8301636876074607, -50)%Z, [21322]%N);
   ((-1182053884704539, -47)%Z, [21333; 21934]%N);
   ((-340599504307629, -46)%Z, [21363; 27491]%N);
   ((-88676799572037, -43)%Z, [21382; 27511; 30860; 36215; 38917; 39033]%N);
   ((-2916108434774099, -48)%Z, [21402; 25142; 25143]%N);
   ((-1773542190631773, -48)%Z, [21457; 30332]%N);
   ((-2189537500880381, -48)%Z, [21475]%N);
   ((-8032288191441395, -50)%Z, [21476]%N);
   ((-3268729862155305, -48)%Z, [21477; 25130; 30343]%N);
   ((-5994167478835075, -49)%Z, [21482; 29575; 31169]%N);
   ((-7659172274423185, -50)%Z, [21487]%N);
   ((-5572898966925133, -50)%Z, [21516]%N);
   ((-2948007623831537, -48)%Z, [21517]%N);
   ((-5121911444905251, -50)%Z, [21518; 24460]%N);
   ((-6786347108064147, -50)%Z, [21521]%N);
   ((-4380598547896153, -49)%Z, [21619; 22039; 23581]%N);
   ((-8785875341988657, -50)%Z, [21629]%N);
   ((-5300532250843023, -49)%Z, [21845]%N);
   ((-5739722474476795, -49)%Z, [21916; 29702]%N);
   ((-5262736183437841, -49)%Z, [22261; 22279]%N);
   ((-5357305477676817, -50)%Z, [22312]%N);
   ((-6464295743057071, -50)%Z, [22320]%N);
   ((-8273588096879649, -50)%Z, [22330; 22580]%N);
   ((-1266771792889387, -47)%Z, [22343; 38915; 39031]%N);
   ((-8079581309397905, -50)%Z, [22359; 22602]%N);
   ((-1617788442468507, -47)%Z, [22530; 23059; 25463; 33016; 39318]%N);
   ((-734106441581515, -47)%Z, [22768; 32882]%N);
   ((-6346861146824811, -50)%Z, [22788; 34389]%N);
   ((-6688292994317183, -50)%Z, [22797]%N);
   ((-7432507778573929, -50)%Z, [22806]%N);
   ((-804511000873443, -47)%Z, [22810]%N);
   ((-469697060879883, -46)%Z, [22812]%N);
   ((-6529630961952011, -50)%Z, [22823]%N);
   ((-7959624276504843, -50)%Z, [22825]%N);
   ((-8269637566837651, -50)%Z, [22836; 38957]%N);
   ((-7892777039302193, -50)%Z, [22856]%N);
   ((-2601906509547045, -49)%Z, [22909]%N);
   ((-1365620715032475, -47)%Z, [22987]%N);
   ((-5645679385296825, -49)%Z, [23376]%N);
   ((-1589546552802647, -47)%Z, [23383]%N);
   ((-8603377716530617, -51)%Z, [23450]%N);
   ((-2688987882591473, -49)%Z, [23454; 23526]%N);
   ((-277505048936603, -45)%Z, [23478]%N);
   ((-2426661975564295, -49)%Z, [23545; 23565]%N);
   ((-6243131395185437, -50)%Z, [23558; 23559]%N);
   ((-1742207558532437, -48)%Z, [23567]%N);
   ((-5487600738324719, -50)%Z, [23569]%N);
   ((-1975674231610139, -48)%Z, [23572; 29246]%N);
   ((-6780552990493063, -50)%Z, [23601]%N);
   ((-8146486132970249, -50)%Z, [23613; 30433]%N);
   ((-595780924597899, -46)%Z, [23649; 23650]%N);
   ((-7089617506607821, -49)%Z, [24029; 28385; 28415; 32764; 33509]%N);
   ((-2185759256545005, -48)%Z, [24039]%N);
   ((-1550304803647597, -48)%Z, [24050]%N);
   ((-382070245204533, -45)%Z, [24109]%N);
   ((-8254053882110659, -51)%Z, [24120]%N);
   ((-5143797877406939, -50)%Z, [24133]%N);
   ((-6138313652776043, -50)%Z, [24180]%N);
   ((-5162540574510837, -49)%Z, [24184]%N);
   ((-4113536353839823, -49)%Z, [24188]%N);
   ((-8904154252704155, -50)%Z, [24212; 25033; 31561]%N);
   ((-6247704247046161, -50)%Z, [24213]%N);
   ((-4833391006271591, -50)%Z, [24230]%N);
   ((-5442009696537863, -49)%Z, [24237]%N);
   ((-2654202902555621, -48)%Z, [24248]%N);
   ((-1236664258825241, -47)%Z, [24402; 27512; 37325]%N);
   ((-2972140252645227, -49)%Z, [24403; 30070]%N);
   ((-5901603520031799, -50)%Z, [24448]%N);
   ((-7844447735454069, -50)%Z, [24459]%N);
   ((-2447450413294849, -48)%Z, [24464]%N);
   ((-6149356364637013, -50)%Z, [24471]%N);
   ((-6808748508374679, -50)%Z, [24494]%N);
   ((-1841960169886819, -48)%Z, [24515]%N);
   ((-5743555127610569, -50)%Z, [24517]%N);
   ((-789262692687465, -47)%Z, [24537]%N);
   ((-5373299279982859, -50)%Z, [24555]%N);
   ((-2662245591898857, -48)%Z, [24573]%N);
   ((-6080946596863693, -49)%Z, [24576; 25079]%N);
   ((-6633498461470425, -50)%Z, [24597]%N);
   ((-7344191970791637, -50)%Z, [24615]%N);
   ((-4309062090207553, -49)%Z, [24618; 30721; 30908]%N);
   ((-254799326228125, -45)%Z, [24688]%N);
   ((-7928613925401197, -50)%Z, [24708]%N);
   ((-1300126660098339, -47)%Z, [24763]%N);
   ((-1099802539691497, -47)%Z, [24773]%N);
   ((-8634363402896975, -50)%Z, [24840]%N);
   ((-2978171916990339, -49)%Z, [24847]%N);
   ((-5144476459328701, -49)%Z, [24868; 24996]%N);
   ((-1179253046230551, -47)%Z, [24895; 39000]%N);
   ((-4950842556094201, -49)%Z, [24910]%N);
   ((-1681173712827781, -48)%Z, [24930]%N);
   ((-6264143122030619, -49)%Z, [25105]%N);
   ((-4955059429395225, -49)%Z, [25110]%N);
   ((-6878757928402515, -50)%Z, [25163]%N);
   ((-7909836455163387, -50)%Z, [25165]%N);
   ((-2337151782028653, -48)%Z, [25209]%N);
   ((-154324319072279, -44)%Z, [25269]%N);
   ((-1255606139052725, -47)%Z, [25490; 25720; 31232]%N);
   ((-2372725023313407, -48)%Z, [25925]%N);
   ((-2694532735703423, -49)%Z, [25954]%N);
   ((-2160642925257067, -48)%Z, [25968; 25976; 33510]%N);
   ((-4611148189956851, -49)%Z, [26009]%N);
   ((-2491221649847701, -49)%Z, [26029; 26039]%N);
   ((-5570026771727611, -50)%Z, [26032]%N);
   ((-4215225739903731, -49)%Z, [26041; 38291; 38388]%N);
   ((-915128723054351, -47)%Z, [26085]%N);
   ((-5989419442136249, -50)%Z, [26086]%N);
   ((-7423171904959809, -50)%Z, [26087; 33290]%N);
   ((-1444112648630543, -48)%Z, [26089]%N);
   ((-4760674669850545, -50)%Z, [26102; 26178]%N);
   ((-1849358982357347, -48)%Z, [26126]%N);
   ((-3798365070508523, -49)%Z, [26131]%N);
   ((-6699410333597487, -49)%Z, [26132; 27604]%N);
   ((-628401956070379, -46)%Z, [26143]%N);
   ((-4025404853638167, -50)%Z, [26159]%N);
   ((-4418458185958443, -49)%Z, [26202]%N);
   ((-8142956663287311, -50)%Z, [26263]%N);
   ((-445633659897495, -46)%Z, [26366]%N);
   ((-2554999681676043, -48)%Z, [26368]%N);
   ((-4697927307985469, -49)%Z, [26376]%N);
   ((-8206378893768591, -50)%Z, [26377]%N);
   ((-4990772263392945, -50)%Z, [26399]%N);
   ((-5659549395970811, -50)%Z, [26410]%N);
   ((-1853247767986215, -48)%Z, [26412]%N);
   ((-3378320506687129, -49)%Z, [26426; 27231]%N);
   ((-5722916750262193, -49)%Z, [26465; 26781; 32654]%N);
   ((-5812462212694951, -49)%Z, [26639; 27396; 36890]%N);
   ((-706235619968539, -47)%Z, [26679; 27171]%N);
   ((-1388186936880293, -47)%Z, [26681]%N);
   ((-6516257086434253, -50)%Z, [27010]%N);
   ((-5384711133516985, -49)%Z, [27169]%N);
   ((-5450075460660513, -50)%Z, [27425]%N);
   ((-1269698850309301, -48)%Z, [27492]%N);
   ((-2153640977989939, -49)%Z, [27493]%N);
   ((-8486408332000575, -50)%Z, [27515]%N);
   ((-2354376801143501, -48)%Z, [27599]%N);
   ((-1272033620248951, -47)%Z, [27668; 27683; 34946]%N);
   ((-4676879998547213, -49)%Z, [27794; 27809]%N);
   ((-229478923770713, -45)%Z, [27861]%N);
   ((-1400990076456185, -47)%Z, [27867]%N);
   ((-1136019209444261, -47)%Z, [27963]%N);
   ((-2853299108864799, -48)%Z, [27969]%N);
   ((-3754557981397373, -49)%Z, [28145]%N);
   ((-5118905034822939, -50)%Z, [28176; 28472]%N);
   ((-5483728776009949, -49)%Z, [28304]%N);
   ((-1550540446170117, -48)%Z, [28857; 40670]%N);
   ((-5285107999600033, -49)%Z, [28895; 29017]%N);
   ((-6606100774836889, -51)%Z, [28982]%N);
   ((-4433338786793735, -49)%Z, [29282]%N);
   ((-8275568572160475, -50)%Z, [29408]%N);
   ((-7231301665517813, -50)%Z, [29420; 29544]%N);
   ((-7193524006339875, -50)%Z, [29992]%N);
   ((-8390236493933183, -50)%Z, [30001]%N);
   ((-1208422369159381, -47)%Z, [30053]%N);
   ((-4588627188699465, -49)%Z, [30058]%N);
   ((-6825573548929157, -50)%Z, [30097]%N);
   ((-667631216138067, -46)%Z, [30149]%N);
   ((-677781879960577, -46)%Z, [30171]%N);
   ((-4803791302950823, -49)%Z, [30333]%N);
   ((-5973401321060809, -50)%Z, [30340]%N);
   ((-6696552059794805, -50)%Z, [30410]%N);
   ((-4691138469312189, -50)%Z, [30452]%N);
   ((-397714005753187, -46)%Z, [30456]%N);
   ((-4457297719748425, -49)%Z, [30495]%N);
   ((-7069452894033807, -50)%Z, [30524]%N);
   ((-5061946040360983, -49)%Z, [30528; 33879]%N);
   ((-4854541858804643, -49)%Z, [30529; 30556]%N);
   ((-4934284010787379, -49)%Z, [30555]%N);
   ((-933709482055809, -47)%Z, [30830; 30906]%N);
   ((-3549519139259615, -49)%Z, [31105]%N);
   ((-674233124123045, -46)%Z, [31163; 33655; 38626]%N);
   ((-4278978628951197, -49)%Z, [31215; 31309]%N);
   ((-4967902951181013, -49)%Z, [31243; 31508; 31558]%N);
   ((-8540265986288453, -50)%Z, [31245]%N);
   ((-4342267780479183, -49)%Z, [31350; 35041; 37324]%N);
   ((-4599775076813469, -49)%Z, [31351; 31406]%N);
   ((-2492748284545473, -48)%Z, [31354]%N);
   ((-2429046802654059, -48)%Z, [31446; 35918]%N);
   ((-5707129711313477, -50)%Z, [31455]%N);
   ((-7443813981434151, -50)%Z, [31639]%N);
   ((-5505808074652739, -49)%Z, [31895]%N);
   ((-2238432545391169, -48)%Z, [31929]%N);
   ((-794254063507009, -47)%Z, [32004; 32422]%N);
   ((-2434442654344025, -48)%Z, [32026; 32423]%N);
   ((-3078741733913035, -49)%Z, [32027; 32439]%N);
   ((-5072275687119565, -49)%Z, [32032; 38450]%N);
   ((-3119938203098607, -49)%Z, [32039; 32202]%N);
   ((-2636213232498341, -49)%Z, [32066; 32456]%N);
   ((-4514284174343377, -49)%Z, [32113; 32479]%N);
   ((-6706852385468987, -51)%Z, [32147; 32463]%N);
   ((-3929022862851151, -49)%Z, [32233; 32531]%N);
   ((-6823388395585623, -50)%Z, [32396; 32493]%N);
   ((-804704587545445, -47)%Z, [32780]%N);
   ((-2377134643159183, -48)%Z, [32819]%N);
   ((-8833657614484633, -50)%Z, [32902]%N);
   ((-319028313345525, -45)%Z, [32937]%N);
   ((-4865265039276155, -49)%Z, [32943]%N);
   ((-2764394407283241, -48)%Z, [32966; 33213]%N);
   ((-3998071575226867, -49)%Z, [33021]%N);
   ((-969044242990505, -47)%Z, [33030]%N);
   ((-6183584508768551, -49)%Z, [33050; 33139]%N);
   ((-7795516610223105, -50)%Z, [33080; 33225]%N);
   ((-2596999237980579, -48)%Z, [33136]%N);
   ((-2941611023406425, -49)%Z, [33258]%N);
   ((-1250114949614263, -48)%Z, [33267]%N);
   ((-3455958900541039, -49)%Z, [33268]%N);
   ((-4646714749681901, -49)%Z, [33324]%N);
   ((-5046798490993025, -49)%Z, [33609]%N);
   ((-4840554805057649, -49)%Z, [33707]%N);
   ((-5316391044719263, -49)%Z, [34562; 35672; 35782]%N);
   ((-3398212951224757, -49)%Z, [34892]%N);
   ((-2488315516134635, -48)%Z, [34935]%N);
   ((-1321603674903579, -48)%Z, [35201]%N);
   ((-1162907843603377, -47)%Z, [35211; 35265]%N);
   ((-3830159698089961, -49)%Z, [35258; 35273]%N);
   ((-2528425717938287, -48)%Z, [35336; 35745]%N);
   ((-2642163109193471, -49)%Z, [35377; 35768]%N);
   ((-724172166969777, -46)%Z, [35422; 35789]%N);
   ((-576970319959081, -46)%Z, [35442; 35813]%N);
   ((-2716022860217089, -48)%Z, [35488; 35802]%N);
   ((-4763228891141501, -49)%Z, [35498; 35828]%N);
   ((-1512627364291993, -47)%Z, [35524; 35846]%N);
   ((-8907623900771543, -50)%Z, [36011; 36143]%N);
   ((-5856316145287779, -50)%Z, [36234]%N);
   ((-8067982532283613, -50)%Z, [36235; 36264]%N);
   ((-74331875083867, -43)%Z, [36275]%N);
   ((-259744565157607, -45)%Z, [36523]%N);
   ((-4886438210087489, -50)%Z, [36611; 36739]%N);
   ((-2436264505213753, -48)%Z, [36626; 36740]%N);
   ((-7062682579545101, -50)%Z, [36629; 36731]%N);
   ((-5692843237190097, -50)%Z, [36793; 37002]%N);
   ((-7707189843667307, -50)%Z, [36807; 36942]%N);
   ((-481849086017981, -46)%Z, [36817]%N);
   ((-1486257672121919, -48)%Z, [36828; 36960]%N);
   ((-3549867823044947, -49)%Z, [36830; 36899]%N);
   ((-1087359803611805, -47)%Z, [36831; 36978]%N);
   ((-443342177090051, -46)%Z, [36843]%N);
   ((-2563487007392893, -48)%Z, [36845]%N);
   ((-8315927728584517, -50)%Z, [36884]%N);
   ((-1349527223193135, -48)%Z, [36895]%N);
   ((-3073479778559023, -49)%Z, [36947]%N);
   ((-6548283344829637, -50)%Z, [37117]%N);
   ((-892346462373183, -47)%Z, [37327]%N);
   ((-6263193235832737, -50)%Z, [38272; 38376]%N);
   ((-1468483987255071, -47)%Z, [38553]%N);
   ((-7780093082636399, -50)%Z, [38590; 38627]%N);
   ((-7535513382563847, -50)%Z, [38750]%N);
   ((-6075362340420301, -50)%Z, [38754]%N);
   ((-4860842986017259, -50)%Z, [38920; 39035]%N);
   ((-2050664226803979, -48)%Z, [38971; 39057]%N);
   ((-8681688783444663, -50)%Z, [39340; 39532]%N);
   ((-4879887938136967, -49)%Z, [39640]%N);
   ((-8602115855187975, -50)%Z, [40664]%N);
   ((-28735907202963, -42)%Z, [40778; 40784]%N)];
  (* ('E', 'df') *)
  [
   ((0, 0)%Z, [35201]%N)];
  (* ('E', 'dg') *)
  [
];
  (* ('E', 'e') *)
  [
   ((-806255873808555, -48)%Z, [20249; 22821]%N);
   ((-2940972995002517, -52)%Z, [21568]%N);
   ((-1439837957858721, -49)%Z, [21628]%N);
   ((-352210514714537, -47)%Z, [21704]%N);
   ((-3095473370291745, -51)%Z, [21727; 21938]%N);
   ((-7349827211323799, -50)%Z, [22075; 22622]%N);
   ((-5537761215645259, -50)%Z, [39144; 39255]%N)];
  (* ('E', 'en') *)
  [
];
  (* ('E', 'f') *)
  [
   ((-1579288123177101, -49)%Z, [19978]%N);
   ((-1729880681135569, -49)%Z, [19979]%N);
   ((-3288240195477839, -49)%Z, [19996; 26481]%N);
   ((-4353440191861099, -50)%Z, [20013]%N);
   ((-4573522357015151, -49)%Z, [20195]%N);
   ((-6815345258553395, -51)%Z, [20358; 26469]%N);
   ((-4597833098087209, -50)%Z, [20391; 20596]%N);
   ((-5965658443577701, -49)%Z, [20799; 20818]%N);
   ((-2341011990267135, -49)%Z, [20839; 20869]%N);
   ((-3115680875055457, -50)%Z, [21069]%N);
   ((-4356709525171409, -50)%Z, [21271]%N);
   ((-2373446110496597, -48)%Z, [21322]%N);
   ((-142107580997299, -45)%Z, [21335]%N);
   ((-2307881705723337, -48)%Z, [21494; 33865]%N);
   ((-4098179215829751, -51)%Z, [21518; 24460]%N);
   ((-928533554166317, -47)%Z, [21521]%N);
   ((-2978565036946065, -49)%Z, [21608; 36913]%N);
   ((-4550412401647823, -50)%Z, [22260; 22285]%N);
   ((-3538354794225863, -49)%Z, [22805]%N);
   ((-2123440700535519, -49)%Z, [22806]%N);
   ((-5365672727988127, -50)%Z, [22836; 38957]%N);
   ((-7116218902158219, -50)%Z, [23618; 23652]%N);
   ((-5879291428690633, -50)%Z, [23736]%N);
   ((-5662230388595985, -49)%Z, [24180]%N);
   ((-4012860081603307, -50)%Z, [26041]%N);
   ((-3110099505472389, -49)%Z, [26049]%N);
   ((-3360826097873565, -50)%Z, [26399]%N);
   ((-1301429315287267, -47)%Z, [26411]%N);
   ((-892063241978141, -47)%Z, [27573]%N);
   ((-7536462717866475, -50)%Z, [27743]%N);
   ((-5081879255491369, -50)%Z, [28023]%N);
   ((-347984021750541, -46)%Z, [28216; 36938]%N);
   ((-5059625445738431, -49)%Z, [28246]%N);
   ((-3240526480123689, -49)%Z, [31471]%N);
   ((-7368014826450315, -50)%Z, [32218; 32447]%N);
   ((-8373433409292715, -50)%Z, [32227; 32536]%N);
   ((-6670901298340113, -49)%Z, [32764]%N);
   ((-4905774975530005, -49)%Z, [33267]%N);
   ((-1122902217391245, -47)%Z, [34903]%N);
   ((-7593019063272045, -50)%Z, [35041; 37324]%N);
   ((-3250138835802373, -49)%Z, [35199]%N);
   ((-7243815658387971, -50)%Z, [35282]%N);
   ((-8871651301073869, -50)%Z, [36335]%N);
   ((-7792190442152253, -51)%Z, [36793; 37002]%N);
   ((-1343665281872627, -47)%Z, [36807; 36942]%N);
   ((-8261899012391787, -51)%Z, [36817]%N);
   ((-5711213439219421, -49)%Z, [36828; 36960]%N);
   ((-3140347062664889, -48)%Z, [36941]%N);
   ((-4870189899534631, -51)%Z, [37096]%N);
   ((-5279358055793941, -51)%Z, [38291; 38388]%N);
   ((-2909208574649595, -49)%Z, [38469; 38555]%N);
   ((-599379615568337, -46)%Z, [38533]%N);
   ((-6085610196506847, -51)%Z, [38754]%N);
   ((-8677047594199559, -50)%Z, [39318]%N);
   ((-6873952959986733, -50)%Z, [40595]%N)];
  (* ('E', 'g') *)
  [
];
  (* ('E', 'h') *)
  [
   ((0, 0)%Z, [20302]%N)];
  (* ('E', 'i') *)
  [
   ((-7675094969812907, -50)%Z, [19968; 36766; 36781; 39131; 39134]%N);
   ((-4853389828618619, -49)%Z, [19969; 20130; 20518; 21898; 24796; 25105; 26003; 26005; 29228; 30162; 30306; 32043;
     32160; 32511; 36259; 36814; 38873; 38890; 40736]%N);
   ((-1795301034777593, -48)%Z, [19975; 33836]%N);
   ((-4148146973856207, -49)%Z, [19976; 21463; 22797]%N);
   ((-1859550133527945, -48)%Z, [19977; 33150; 39472]%N);
   ((-6403089895844383, -50)%Z, [19978]%N);
   ((-5434412273562215, -50)%Z, [19979]%N);
   ((-3343767561469975, -48)%Z, [19982; 20308; 20845; 20848; 20852; 20917; 20932; 21294; 21297; 21344; 21410; 21697;
     22066; 22121; 22575; 23110; 23544; 23591; 23849; 24258; 24405; 24643; 25235; 25353; 25970; 26103; 26115; 26231;
     26274; 26336; 26352; 26479; 26485; 26666; 26723; 27284; 27450; 27531; 27544; 27838; 27841; 28114; 29157; 30021;
     30572; 30683; 30897; 30923; 31397; 31418; 31520; 31655; 31691; 31821; 31859; 32232; 32361; 32499; 32534; 32736;
     32974; 33099; 33285; 33287; 33288; 33738; 33945; 34349; 34873; 34941; 35033; 35925; 36018; 36160; 36470; 36600;
     36724; 36891; 37636; 37666; 37860; 38065; 38210; 38357; 38425; 38607; 38619; 38686; 38920; 39035; 39438; 39569;
     39699; 39714; 40572]%N);
   ((-6297327949929615, -49)%Z, [19985; 19992; 20064; 20142; 20314; 20511; 20855; 20860; 20934; 21351; 21467; 21534;
     21608; 21913; 22124; 23633; 24561; 25289; 25615; 26197; 26248; 26797; 28156; 28310; 28966; 29408; 31293; 31914;
     31966; 32013; 32102; 32172; 32435; 32473; 32502; 32697; 32722; 32929; 33044; 33104; 33248; 33253; 33696; 34402;
     34678; 34784; 35029; 35433; 35531; 35712; 35799; 35831; 35835; 36423; 36894; 36913; 36930; 37221; 37276; 37322;
     37323; 37648; 38181; 38358; 38383; 39186; 39297; 39509; 39556; 40230; 40495]%N);
   ((-7003059746378655, -50)%Z, [19990]%N);
   ((-3604560221466593, -49)%Z, [19994; 26989]%N);
   ((-6069071386206157, -49)%Z, [19997; 20016; 20430; 20461; 20599; 20745; 20857; 21078; 21103; 21128; 21170; 21185;
     21220; 21306; 21312; 21319; 21350; 21355; 21375; 21514; 21525; 21561; 21564; 21570; 21592; 21729; 21828; 23462;
     23466; 23578; 23622; 23626; 23627; 23731; 24034; 24265; 24867; 25010; 25424; 25935; 26191; 26379; 26420; 26492;
     27053; 27192; 27597; 27704; 28525; 28921; 29585; 29642; 29788; 29859; 30249; 31361; 31383; 31446; 31581; 31631;
     31687; 32114; 32694; 32925; 32959; 33131; 33211; 33459; 33586; 34074; 34907; 34966; 35201; 35347; 35594; 35757;
     35854; 35918; 35920; 36873; 36881; 36973; 36984; 37365; 38012; 38039; 38179; 38553; 39446; 39579; 40251; 40511;
     40720]%N);
   ((-8607890126792097, -50)%Z, [20004; 20841; 22909; 24223; 24290; 28789; 33503; 38728]%N);
   ((-4173452355559493, -49)%Z, [20005; 22196; 25342; 27835; 40635]%N);
   ((-8190109562481479, -50)%Z, [20013; 22899; 34880; 35441; 35805]%N);
   ((-369195048557455, -45)%Z, [20025; 20116; 20202; 20457; 20486; 20736; 20803; 21536; 22307; 22362; 22533; 22564;
     22622; 22635; 23046; 23304; 23495; 23596; 24731; 24808; 24920; 24974; 25345; 25949; 26001; 26397; 26550; 27014;
     27788; 28014; 28070; 28516; 29420; 29544; 29791; 29922; 30522; 30566; 30861; 31001; 31921; 32854; 33276; 33756;
     35359; 35559; 35772; 35856; 36066; 36132; 36291; 36493; 36530; 36767; 37233; 37292; 37470; 37476; 38057; 38074;
     38370; 38454; 38542; 38988; 39003; 39064; 39072; 39208; 39302; 40575; 40810; 40842]%N);
   ((-6252459143382059, -50)%Z, [20026; 28858]%N);
   ((-6137667118189733, -50)%Z, [20027]%N);
   ((-2416071956369285, -48)%Z, [20029; 20170; 20964; 21713; 21854; 22645; 23486; 23576; 24339; 24615; 25216; 26612;
     28431; 29237; 29298; 31080; 31532; 31561; 31661; 33167; 34425; 35215; 35268; 35475; 36012; 36051; 36131; 40179;
     40599; 40763]%N);
   ((-902917815699725, -47)%Z, [20030; 21475; 22836; 24425; 33289; 33457; 38957]%N);
   ((-3893701969497927, -49)%Z, [20037; 21548; 32893]%N);
   ((-6620868129629319, -50)%Z, [20041; 32681]%N);
   ((-1486452386315651, -48)%Z, [20043]%N);
   ((-5337640090808923, -49)%Z, [20044; 20625; 21254; 22974; 24231; 24441; 24833; 25140; 26127; 26480; 26564; 26641;
     27193; 27837; 27905; 28246; 28500; 28879; 31034; 31364; 31461; 31487; 33426; 33922; 33993; 34955; 35977;
     39746]%N);
   ((-3905637751307263, -49)%Z, [20046; 24212; 25033]%N);
   ((-2395958046146643, -48)%Z, [20047; 20799; 20818; 21017; 21063; 21576; 24428; 24574; 24894; 25311; 25836; 27745;
     27941; 28189; 28844; 31062; 34920; 36062; 36175; 36855; 38307; 38401; 38753; 39348; 39493; 39535; 39537]%N);
   ((-7349413671964257, -50)%Z, [20048; 24213; 27138]%N);
   ((-4596979900962075, -49)%Z, [20056; 20102; 21150; 21253; 22839; 24046; 24597; 25198; 26263; 27468; 29579; 30382;
     30431; 31934; 32570; 32641; 32648; 33905; 34085; 36774]%N);
   ((-4186544805031593, -49)%Z, [20063; 20241; 20998; 23481; 28304; 30334; 30772; 33406]%N);
   ((-7860592871385073, -50)%Z, [20065; 20256; 20659; 21521; 37129]%N);
   ((-4736499257888275, -49)%Z, [20070; 20923; 20941; 22158; 22218; 22681; 22781; 23447; 23551; 25160; 25552; 26143;
     26262; 26360; 26429; 26705; 27617; 27656; 28903; 29123; 29138; 29254; 29282; 30465; 31283; 31337; 31751; 33988;
     35937; 36785; 36864; 37034; 38500; 38544; 38577; 38643; 38722]%N);
   ((-3216713429077447, -49)%Z, [20081; 20098; 25514]%N);
   ((-8042584854044357, -50)%Z, [20105; 24656; 26524; 29229; 32326; 32554]%N);
   ((-726436820695723, -47)%Z, [20107]%N);
   ((-6812260918021847, -50)%Z, [20108; 22823]%N);
   ((-2839432106597911, -48)%Z, [20111; 20360; 20399; 21307; 21359; 21367; 21400; 21531; 21897; 21905; 21917; 22675;
     23431; 23500; 25512; 26124; 26202; 26495; 26775; 27839; 27849; 28082; 28139; 28783; 29128; 29238; 29781; 30828;
     32982; 33260; 33395; 33399; 34013; 34253; 34407; 34560; 35373; 35494; 35774; 35829; 36036; 36159; 36816; 36939;
     37291; 37857; 37913; 38236; 38251; 38468; 38533; 38660; 39138; 39156; 39269; 39284]%N);
   ((-7779557914862047, -50)%Z, [20113; 21361; 34935; 38642]%N);
   ((-306153116698447, -45)%Z, [20117; 20645; 20795; 20995; 21280; 21754; 23487; 23517; 23522; 23588; 25856; 25913;
     26149; 27875; 28218; 28459; 29486; 29563; 30408; 31881; 32915; 35575; 35773; 36527; 36544; 36649; 36744; 36884;
     38548]%N);
   ((-7071807483777929, -50)%Z, [20129; 26679; 27171]%N);
   ((-3721994617665171, -49)%Z, [20132; 26434; 38620]%N);
   ((-133267558724949, -44)%Z, [20135; 20607; 20767; 22238; 29134; 29986; 35430; 35797]%N);
   ((-5450607649472363, -49)%Z, [20139; 20183; 21482; 21488; 21491; 22612; 23755; 24052; 24341; 24490; 24800; 26517;
     27888; 29275; 30529; 30556; 31391; 32933; 33337; 33579; 35582; 35834; 36305; 37228; 37389; 38045; 39019;
     39076]%N);
   ((-8023003492545233, -50)%Z, [20146; 20215; 20250; 20729; 24871; 26371; 35242; 36339; 39640]%N);
   ((-5712507856990971, -50)%Z, [20154]%N);
   ((-947438336745339, -47)%Z, [20161; 26426; 27231; 33268]%N);
   ((-2486810679216705, -48)%Z, [20163; 20415; 20431; 21046; 22070; 23094; 23562; 24598; 24813; 24863; 24922; 25166;
     25454; 25558; 25818; 25903; 26696; 26725; 26970; 27211; 27721; 27877; 27882; 28122; 28450; 29260; 29502; 30149;
     30385; 30394; 30416; 30651; 30952; 32113; 32479; 38712; 39449; 39575; 40573]%N);
   ((-2285083846501013, -48)%Z, [20166; 20693; 20849; 21322; 23506; 23572; 24807; 25084; 29246; 30003; 30331; 36208;
     36386; 36611; 36739; 37987; 38259; 40361; 40540]%N);
   ((-4520094709892097, -49)%Z, [20167; 20248; 20778; 21477; 27611; 28079; 29664; 31499; 31565; 32920; 36920; 39479;
     39578]%N);
   ((-7195075771335123, -50)%Z, [20174; 24478]%N);
   ((-4875469127261409, -49)%Z, [20179; 20489; 20658; 20811; 21329; 21462; 21796; 21914; 22418; 22744; 22756; 23456;
     23541; 24452; 24465; 30095; 31186; 32184; 32399; 32438; 32544; 33485; 33980; 35465; 35709; 36008; 36135; 36575;
     36719; 37202; 38463; 38534]%N);
   ((-5516913603908945, -49)%Z, [20181; 20381; 20542; 20670; 20945; 21535; 22947; 23167; 23547; 23563; 23567; 23789;
     24084; 24367; 24398; 24699; 24789; 24827; 25943; 26062; 26088; 26690; 26827; 28107; 28234; 28846; 29980; 31103;
     31108; 32283; 32538; 32560; 32793; 34411; 34432; 34593; 34645; 34802; 34847; 35489; 35504; 35516; 35819; 35841;
     35850; 36076; 36133; 36134; 36784; 38593; 38849]%N);
   ((-2563353215449305, -48)%Z, [20185; 21009; 21021; 21338; 21365; 21589; 22036; 22434; 22737; 22771; 22971; 23194;
     23460; 23938; 24184; 25022; 25102; 25569; 26106; 26367; 26611; 27580; 30002; 30058; 32858; 34180; 34917; 35036;
     35342; 35554; 35752; 35816; 36011; 36143; 36664; 36755; 36763; 36764; 38543; 38568; 38656; 38795; 39425;
     39563]%N);
   ((-1911736501497221, -48)%Z, [20195; 29992]%N);
   ((-8842927152272397, -50)%Z, [20196; 24680; 27573; 29226; 29399; 35469; 35748]%N);
   ((-4610880606069675, -49)%Z, [20197; 20432; 21388; 21421; 21912; 22904; 23014; 24132; 24859; 25377; 25803; 26412;
     29233; 29677; 30151; 30633; 30682; 36234; 37555; 37912; 38047; 38160]%N);
   ((-8624326913700387, -50)%Z, [20219; 22615; 23459; 26519; 28034; 32905; 36000; 36127; 36629; 36731]%N);
   ((-7392932129041079, -50)%Z, [20239; 33267]%N);
   ((-4686052097327933, -49)%Z, [20240; 21072; 21102; 21153; 21209; 21452; 23398; 23416; 23528; 25103; 25138; 25794;
     30130; 31388; 31428; 33016; 36554; 36710; 36831; 36951; 36978; 36986; 38617]%N);
   ((-889829756108989, -47)%Z, [20247; 30526; 39080; 39118]%N);
   ((-8399898017209307, -50)%Z, [20260; 20663; 23458; 26195; 26313; 26609; 27492; 27627; 31119]%N);
   ((-2461204400064921, -48)%Z, [20261; 20480; 24093; 25096; 25597; 25900; 26080; 28961; 32763; 36845; 38519]%N);
   ((-1236858229449647, -47)%Z, [20262; 20523; 20937; 21578; 22276; 22359; 22602; 23233; 23504; 23518; 24029; 24109;
     24187; 24351; 25199; 26292; 28092; 30142; 31229; 31330; 32622; 32650; 33086; 33181; 35380; 35785; 37030;
     38829]%N);
   ((-5391294952090345, -49)%Z, [20280; 20301; 20874; 20876; 21085; 21093; 22859; 22894; 23521; 23646; 23648; 23660;
     23736; 24826; 24858; 25200; 25402; 25854; 26446; 26472; 26954; 27036; 28369; 29926; 29940; 30133; 30473; 31077;
     32902; 33643; 34093; 34521; 35355; 35769; 36106; 36190; 38451; 38525; 39154; 39278; 39753; 39758]%N);
   ((-594296523265707, -46)%Z, [20302; 20506; 21018; 21083; 21811; 22829; 23621; 24039; 24358; 25239; 26538; 27085;
     27713; 28845; 30086; 30171; 30427; 31697; 31779; 32047; 32218; 32447; 36213; 36249; 38936; 39046]%N);
   ((-7957032328456563, -50)%Z, [20303; 23558; 23559]%N);
   ((-3909673252125349, -49)%Z, [20307; 24180; 26045; 39636]%N);
   ((-6297665576859457, -50)%Z, [20309]%N);
   ((-491814163624195, -46)%Z, [20313; 21385; 21426; 33251; 39192]%N);
   ((-4772831215356551, -49)%Z, [20315; 22120; 25226; 25910; 28847; 29645; 30041; 30424; 30436; 30697; 32187; 32509;
     36037; 36074; 36136; 36165; 36198; 37559; 38144; 38738]%N);
   ((-7262170508023687, -50)%Z, [20316; 26131]%N);
   ((-8765248084692433, -50)%Z, [20351; 24604; 24976; 25215; 28212; 30209; 32010; 32843; 32894; 36196]%N);
   ((-5792594123293245, -50)%Z, [20358; 26469; 30693]%N);
   ((-1035498613527293, -47)%Z, [20363; 22659; 27004; 27155; 31609; 31820]%N);
   ((-4583414185423075, -49)%Z, [20379; 20493; 20912; 21494; 23494; 29942; 32784; 32918; 33865; 35199]%N);
   ((-8455509315833577, -50)%Z, [20391; 20596; 23425; 23527; 25165; 33105]%N);
   ((-7894713661558697, -50)%Z, [20439; 27493; 35255; 35281]%N);
   ((-3730768041265105, -49)%Z, [20449; 30555]%N);
   ((-4213680176004777, -49)%Z, [20498; 20808; 21519; 26579; 35584; 35851; 37259; 39740]%N);
   ((-4557225744788253, -49)%Z, [20540; 22330; 22580; 24188; 25758; 25937; 26214; 26465; 26781; 27832; 30340; 37341;
     38024]%N);
   ((-8469852183769651, -50)%Z, [20551; 20633; 21513; 22791; 29245; 29554; 33509; 33719]%N);
   ((-4328969181064795, -49)%Z, [20570; 20943; 23475; 25300; 28165; 28187; 33145; 35569; 35763; 38899]%N);
   ((-1265100119115507, -47)%Z, [20588; 20655; 22992; 23608; 23629; 24214; 24717; 25298; 25810; 26151; 26194; 26348;
     26753; 26786; 28810; 29425; 29508; 30865; 31185; 31649; 32932; 33178; 33392; 33393; 34255; 34631; 34821; 36405;
     36777; 36783; 36841; 36999; 37336; 38025; 38356; 38422; 38592]%N);
   ((-4179960519991691, -49)%Z, [20598; 22266; 22818; 25622; 25671; 26790; 35443; 35814]%N);
   ((-722687765637585, -46)%Z, [20667; 20892; 21193; 21381; 21465; 21496; 21704; 21880; 22063; 22065; 22225; 22432;
     23305; 23896; 23992; 24062; 24080; 24115; 24220; 24307; 24347; 24380; 24674; 24944; 25463; 25944; 26063; 26435;
     26454; 26531; 26533; 26594; 26839; 27370; 27402; 28389; 28651; 28825; 29301; 29309; 29468; 29492; 29503; 29572;
     30519; 30928; 31783; 32602; 32624; 32842; 33261; 35032; 35338; 35759; 35961; 36039; 36115; 36163; 36164; 36786;
     36824; 36996; 37707; 37782; 38000; 38053; 38145; 38149; 38669; 39024; 39078; 39522; 39540]%N);
   ((-5288657040185487, -49)%Z, [20725; 20839; 20869; 21495; 22122; 22609; 22863; 24554; 24726; 25307; 25513; 26132;
     26286; 26840; 27743; 28436; 29261; 29272; 29863; 29934; 29973; 31508; 31558; 32350; 32469; 32873; 32885; 32960;
     33081; 33490; 34399; 35352; 35427; 35492; 35657; 35760; 35777; 35811; 35823; 36481]%N);
   ((-2500543889540005, -48)%Z, [20754; 20826; 21490; 22919; 23142; 25237; 26415; 27974; 28479; 28856; 28891; 29165;
     29255; 32004; 32422; 32745; 32954; 34633; 34796; 34899; 36556; 36712; 36874; 36895; 36956; 38498; 40643; 40644;
     40680]%N);
   ((-578141658111895, -46)%Z, [20806; 25387; 25439; 25442; 25563; 25588; 25613; 26432; 27578; 29022; 29916; 29978;
     30423; 30428; 32227; 32536; 32922; 33134; 34249; 35222; 35270; 35408; 35784; 36820]%N);
   ((-8575719369419155, -50)%Z, [20809; 24066; 25991; 32311; 32533; 38634]%N);
   ((-7852221829798599, -50)%Z, [20813; 21271; 24494; 26408]%N);
   ((-4811670749146533, -49)%Z, [20820; 20859; 20973; 20992; 21360; 22278; 22291; 22827; 22869; 24609; 24977; 25381;
     25582; 26588; 27331; 31348; 31373; 31429; 33333; 34915; 35663; 35749; 36637; 36745; 36861; 38914; 39030;
     39178]%N);
   ((-3874354706188033, -49)%Z, [20834; 22812; 30585]%N);
   ((-7176617982435893, -50)%Z, [20837]%N);
   ((-3816565554941405, -49)%Z, [20840; 23569]%N);
   ((-8271816898783725, -50)%Z, [20843; 20928; 23725; 23994; 24178; 24185; 24418; 28136; 31169; 36843; 40180;
     40483]%N);
   ((-4441936739728235, -49)%Z, [20844; 23039; 24524; 26512; 30246; 40718]%N);
   ((-1300469480539217, -47)%Z, [20846; 20900; 22852; 24102; 24118; 24936; 26228; 28180; 28417; 30528; 32080; 32467;
     32937; 33616; 33879; 34214; 34893; 35480; 35825; 36042; 36156; 36896; 37428; 38083; 39165; 39187; 39281;
     39295]%N);
   ((-7612721489258749, -50)%Z, [20851; 38364]%N);
   ((-970503501844775, -47)%Z, [20853; 24545]%N);
   ((-318286112679429, -45)%Z, [20856; 22696; 22871; 24724; 27530; 28291; 28528; 29356; 29730; 29748; 31243; 32305;
     32437; 36007; 36139; 37628; 38050; 39525; 39589; 39608]%N);
   ((-509801831861959, -46)%Z, [20861; 22368; 22684; 29560; 30028]%N);
   ((-8784171217639139, -50)%Z, [20877; 22242; 22296; 24459; 29649; 29903; 33795; 36024; 36151]%N);
   ((-8746637745165391, -50)%Z, [20889; 21451; 23385; 23403; 23531; 24323; 26820; 37266; 39321]%N);
   ((-33257854613497, -42)%Z, [20891; 23383; 25032; 26647; 27498; 28797; 28798; 31028; 35731; 35753; 36557]%N);
   ((-2581519194183443, -48)%Z, [20896; 21334; 21363; 21507; 21705; 22435; 24189; 24449; 24501; 24748; 25042; 25078;
     25080; 25119; 25481; 26729; 27137; 27526; 27583; 27819; 28216; 30452; 30496; 31616; 31777; 34384; 36067; 36938;
     38931; 39025; 39039; 39045; 39184; 39635; 40009; 40150; 40372; 40548]%N);
   ((-914083469536387, -47)%Z, [20914; 25163; 34909]%N);
   ((-942612578665925, -47)%Z, [20915; 27770; 32027; 32439; 35672; 35782]%N);
   ((-2335096651725847, -48)%Z, [20919; 20991; 21414; 23616; 24208; 24264; 24300; 25507; 26144; 26448; 27801; 28053;
     30011; 30059; 30196; 30460; 31569; 31689; 32299; 32541; 33391; 33402; 34269; 35519; 35843; 38015; 40165;
     40479]%N);
   ((-8710315243399233, -50)%Z, [20955; 20956; 25346; 25376; 25499; 25747; 36879]%N);
   ((-3830466260049005, -49)%Z, [20960; 23545; 23565; 24190; 27442; 32066; 32456; 35010]%N);
   ((-5029963336766307, -49)%Z, [20961; 21476; 23159; 23186; 23389; 23536; 23556; 24043; 25026; 25106; 27088; 27922;
     28322; 28753; 28790; 28860; 29001; 31918; 31975; 33222; 35461; 35803; 37406; 37670; 38055; 38182; 38393;
     39719]%N);
   ((-5986415052130213, -50)%Z, [20986]%N);
   ((-7010933204386487, -50)%Z, [20987; 24322; 25802; 30064]%N);
   ((-7421010888662003, -50)%Z, [20999; 33510]%N);
   ((-7328269390325511, -50)%Z, [21029; 21035; 21947; 35299]%N);
   ((-7307514887311283, -50)%Z, [21033; 36020; 36149]%N);
   ((-7370962653324511, -50)%Z, [21040; 24735; 31105]%N);
   ((-5592085095167203, -49)%Z, [21048; 22581; 22850; 22864; 23047; 23100; 23130; 23308; 23681; 24091; 24133; 24565;
     25252; 25581; 27178; 27243; 27506; 27538; 27550; 27901; 28073; 28176; 28472; 28544; 28580; 30126; 30157; 30241;
     32244; 32451; 32773; 32948; 33136; 33446; 33615; 33804; 34310; 35563; 35703; 35855; 36068; 36145; 36382; 37009;
     37051; 37168; 39194; 39933; 40107]%N);
   ((-437936849560949, -46)%Z, [21051; 39748]%N);
   ((-3688207481885337, -49)%Z, [21069]%N);
   ((-8675128007579367, -50)%Z, [21073; 21133; 22686; 26497; 26997; 30462; 34503; 35009; 36943; 37327]%N);
   ((-4702370629860529, -49)%Z, [21106; 23490; 23548; 23566; 25945; 26635; 26847; 27426; 27489; 30690; 30691; 31237;
     31246; 31359; 32242; 32520; 34928; 40657]%N);
   ((-5899234663128013, -50)%Z, [21147]%N);
   ((-7929900897378563, -50)%Z, [21151; 31867; 32380; 32487; 39006]%N);
   ((-8822999200065027, -50)%Z, [21152; 21693; 24760; 24822; 25822; 25851; 27874; 29273; 31232; 33618; 38706; 39347;
     39536; 40845; 40857]%N);
   ((-5471038181374049, -50)%Z, [21160; 21205]%N);
   ((-8904918950273543, -50)%Z, [21161; 22842; 22890; 26023; 29087; 36617; 36733; 36830; 36899; 39770; 40060]%N);
   ((-4654769052208703, -49)%Z, [21163; 21741; 24646; 24658; 32005; 32418; 32676; 35980; 38275; 38378]%N);
   ((-234871237552867, -45)%Z, [21171; 21214; 24050]%N);
   ((-7131755477714541, -50)%Z, [21183; 21218; 24049]%N);
   ((-1694102895713787, -48)%Z, [21187]%N);
   ((-8113932696467713, -50)%Z, [21191; 33541]%N);
   ((-6960713220149745, -50)%Z, [21213; 32988]%N);
   ((-3969436129422139, -49)%Z, [21270; 22351; 22750; 22763; 36394]%N);
   ((-7795305023398485, -50)%Z, [21313; 28572; 28734; 36235; 36264]%N);
   ((-8948228132274141, -50)%Z, [21315; 22530; 26356; 30456; 31179; 32928; 32972; 33144; 33609; 38622; 38647;
     40481]%N);
   ((-265136878939761, -45)%Z, [21326; 21497; 22022; 25527; 25842; 33775]%N);
   ((-8863214185939305, -50)%Z, [21330; 22856; 24794; 32844; 32887]%N);
   ((-8072610630949819, -50)%Z, [21402; 24814; 24986; 25391; 26114; 27880]%N);
   ((-8559972260882717, -50)%Z, [21407; 21542; 24037; 24466; 30830; 30906; 36424; 37329; 38598]%N);
   ((-6660676818451295, -50)%Z, [21435]%N);
   ((-6496668961566975, -50)%Z, [21450]%N);
   ((-8201425234682673, -50)%Z, [21453; 21644; 24677; 31639; 32827; 37492; 37969]%N);
   ((-1400535462925095, -48)%Z, [21457; 30332]%N);
   ((-104577709748609, -44)%Z, [21464; 25112; 25136; 35722]%N);
   ((-7741127566170415, -50)%Z, [21483; 25505; 31096; 31117; 32819; 37319]%N);
   ((-7242589146524563, -50)%Z, [21487]%N);
   ((-15179230837711, -41)%Z, [21505; 31435; 31858]%N);
   ((-3433265829984107, -49)%Z, [21512]%N);
   ((-6026890291480283, -50)%Z, [21516]%N);
   ((-3367732627835537, -49)%Z, [21517; 26029; 26039]%N);
   ((-1742073766588849, -48)%Z, [21518; 24460]%N);
   ((-3901630973158303, -49)%Z, [21520; 27982; 28639; 32769]%N);
   ((-3623726326302383, -49)%Z, [21574; 35422; 35789]%N);
   ((-7267119526571697, -50)%Z, [21619; 22766; 22767]%N);
   ((-8641007217405743, -50)%Z, [21628; 24665; 30410; 32028; 32429; 34394; 34395]%N);
   ((-6445316091197245, -50)%Z, [21629; 23665]%N);
   ((-4532201627119507, -49)%Z, [21646; 24377; 24392; 24616; 26399; 28895; 29017; 33210; 34701; 36771; 36829;
     36949]%N);
   ((-1012932391679475, -47)%Z, [21709; 23384; 31036; 31150; 36935; 38911]%N);
   ((-4160657487674035, -49)%Z, [21839; 23637; 29577; 32629; 38382; 38459; 38477; 38597; 39554]%N);
   ((-8591689848635195, -50)%Z, [21892; 25880; 28435; 36834]%N);
   ((-4072975482597949, -49)%Z, [21916; 22810; 25240; 28044; 28263; 29615; 29872]%N);
   ((-1159939040938993, -47)%Z, [22068; 22920; 23229; 23380; 24198; 24369; 24950; 25273; 25305; 25308; 25670; 25850;
     25915; 26223; 26463; 32210; 32490; 36084; 36182; 36807; 36942; 37196; 38613; 38662]%N);
   ((-7485365541479673, -50)%Z, [22235]%N);
   ((-4508242694164817, -49)%Z, [22240; 26391; 29378; 33538; 39151; 39277]%N);
   ((-562079383424307, -46)%Z, [22256; 22577; 22914; 24517; 25253; 25317; 25331; 25793; 27784; 27785; 27973; 28041;
     28154; 30000; 30031; 35674; 35885]%N);
   ((-7560038198977325, -50)%Z, [22269; 22283; 22855]%N);
   ((-31455096645245, -42)%Z, [22270; 22294; 27769; 27958; 32034; 32233; 32531; 32831; 33647; 34277]%N);
   ((-4001878435809235, -49)%Z, [22303; 24055; 36828; 36867; 36960]%N);
   ((-3707669418416491, -49)%Z, [22312]%N);
   ((-643392120350037, -47)%Z, [22320]%N);
   ((-498468132334737, -46)%Z, [22352; 26086]%N);
   ((-2621798500814477, -48)%Z, [22372; 23485; 23532; 23553; 23653; 25159; 27602; 27748; 28149; 28170; 28271; 28422;
     30353; 30362; 31903; 33589; 35910; 36027; 36040; 36153; 36158; 36793; 37002; 38991; 39068]%N);
   ((-1055168358264835, -47)%Z, [22478; 25509; 32178; 32593]%N);
   ((-8803417838565903, -50)%Z, [22570; 24754; 26087; 28857; 30053; 33290; 35206; 38290; 38386; 38646; 38654; 38695;
     40670]%N);
   ((-3851982890025841, -49)%Z, [22721; 32618]%N);
   ((-6561023614384645, -50)%Z, [22768; 32882]%N);
   ((-7127365998833739, -50)%Z, [22788; 34389]%N);
   ((-7984833738671763, -50)%Z, [22805; 24577; 24907; 24910; 36685; 36761]%N);
   ((-3159414866056569, -49)%Z, [22806]%N);
   ((-385680800322689, -46)%Z, [22825]%N);
   ((-3467285874743425, -49)%Z, [22833; 35498; 35828]%N);
   ((-6698946381722183, -50)%Z, [22937; 38750]%N);
   ((-8692584169755881, -50)%Z, [22987; 26247; 27054; 30505; 33218; 33635]%N);
   ((-8135176721188279, -50)%Z, [22995]%N);
   ((-4249548990745637, -49)%Z, [23041; 24576; 25079; 28385; 28415; 29359; 31071; 36001; 36130]%N);
   ((-3486052610980299, -49)%Z, [23376; 26009]%N);
   ((-8167813786253471, -50)%Z, [23432; 24092; 24159; 25171; 26234; 27513; 28937; 30442; 33633]%N);
   ((-6281016106633225, -50)%Z, [23433]%N);
   ((-6654902960121511, -50)%Z, [23450]%N);
   ((-7252337258560473, -50)%Z, [23452; 31351; 31406]%N);
   ((-7398492139880173, -50)%Z, [23453; 23542]%N);
   ((-6590548307303841, -50)%Z, [23454; 23526]%N);
   ((-7586071726597441, -50)%Z, [23478; 37941; 38081]%N);
   ((-3751095490559, -39)%Z, [23601]%N);
   ((-1956868945192857, -48)%Z, [23610]%N);
   ((-6601479460224939, -50)%Z, [23613; 30433; 32862; 38395]%N);
   ((-1738295522253473, -48)%Z, [23614; 25196; 25562]%N);
   ((-8728330026230641, -50)%Z, [23624; 24525; 28404; 30472; 35370; 35775; 38752]%N);
   ((-984690502013615, -47)%Z, [24067; 28010]%N);
   ((-1048301753103185, -47)%Z, [24072; 24107; 24375; 24378; 25187]%N);
   ((-1724562311930173, -48)%Z, [24120]%N);
   ((-7101382540138203, -50)%Z, [24179]%N);
   ((-2242630977125537, -48)%Z, [24191; 24291; 24685; 24694; 24801; 25987; 27494; 27609; 28227; 29031; 32048; 32189;
     32454; 32496; 33324; 36801; 36983; 37257]%N);
   ((-2359588177037565, -48)%Z, [24207; 25703; 26834; 27927; 31895; 32064; 32460; 35895; 39250; 39286]%N);
   ((-7354762375167609, -50)%Z, [24230; 24895; 39000]%N);
   ((-2059017760577241, -48)%Z, [24237; 25152; 29366; 29376; 36212; 40778; 40784]%N);
   ((-3866798217517281, -49)%Z, [24320; 27915; 38283]%N);
   ((-8062512806251727, -50)%Z, [24330; 24536; 30475; 37326]%N);
   ((-2077183739311379, -48)%Z, [24352; 24373]%N);
   ((-3636045197581025, -49)%Z, [24402; 27512]%N);
   ((-3727828348144147, -49)%Z, [24403; 30070]%N);
   ((-1115795663902071, -47)%Z, [24432; 24815; 24931; 26411; 26681; 27833; 28784; 28902; 29033; 30589; 38596]%N);
   ((-7409695216460809, -50)%Z, [24433; 32396; 32493]%N);
   ((-8413545455903479, -50)%Z, [24444; 36893; 38745; 38748]%N);
   ((-1732721578196471, -48)%Z, [24448]%N);
   ((-3113287623477257, -49)%Z, [24453]%N);
   ((-6537429970685147, -50)%Z, [24471; 35258; 35273]%N);
   ((-1898168816010629, -48)%Z, [24503; 26376; 30333; 30524]%N);
   ((-5548070613592019, -50)%Z, [24515]%N);
   ((-3764160305612423, -49)%Z, [24535; 24551; 24605; 24962; 27979; 28204; 30701; 36827; 36914]%N);
   ((-7553622797535167, -50)%Z, [24537; 25484; 39318]%N);
   ((-8259775073763523, -50)%Z, [24555; 25919; 26381; 26684; 29151; 33829]%N);
   ((-7947915680209971, -50)%Z, [24594; 28357; 28781; 32032; 33032; 33033; 33660]%N);
   ((-6795824131113557, -50)%Z, [24613]%N);
   ((-3414470610863601, -49)%Z, [24618]%N);
   ((-6751038116755823, -50)%Z, [24687]%N);
   ((-3878171330660663, -49)%Z, [24739; 28145]%N);
   ((-3491806834368765, -49)%Z, [24773]%N);
   ((-1626050023175707, -48)%Z, [24778; 39514]%N);
   ((-6336052246234387, -50)%Z, [24819]%N);
   ((-1374892324613079, -48)%Z, [24847]%N);
   ((-3609290921182995, -49)%Z, [24942; 27490; 34385]%N);
   ((-6704951195459003, -50)%Z, [25104]%N);
   ((-7075985224774821, -50)%Z, [25142; 25143]%N);
   ((-3826958772357095, -49)%Z, [25351; 39135]%N);
   ((-4544574651633093, -49)%Z, [25516; 25947; 25986; 26525; 28526; 28866; 29211; 32000; 32426]%N);
   ((-2020699959979659, -48)%Z, [25720; 38431; 38538]%N);
   ((-3848339188286385, -49)%Z, [25918]%N);
   ((-7387399440232801, -50)%Z, [25925; 35282]%N);
   ((-1891622591274579, -48)%Z, [25928]%N);
   ((-1851019935984539, -48)%Z, [25932; 25973]%N);
   ((-7051148190260765, -50)%Z, [25955]%N);
   ((-3943043016924157, -49)%Z, [25964]%N);
   ((-1670280434127385, -48)%Z, [25968; 25976]%N);
   ((-3921956283839859, -49)%Z, [26007; 39717]%N);
   ((-894807239102951, -47)%Z, [26032; 38590; 38627]%N);
   ((-3443788565392643, -49)%Z, [26041]%N);
   ((-1551765440465689, -48)%Z, [26085]%N);
   ((-3523530717375379, -49)%Z, [26102; 26178]%N);
   ((-6640596542641333, -50)%Z, [26126]%N);
   ((-3227459353623197, -49)%Z, [26159]%N);
   ((-2834246567742183, -49)%Z, [26377]%N);
   ((-7726115345006601, -50)%Z, [26395; 31967; 38450]%N);
   ((-8212855788768243, -50)%Z, [27425; 27665; 31181; 31278; 31471]%N);
   ((-3855650329403277, -49)%Z, [27491; 31481]%N);
   ((-6818903414615245, -50)%Z, [27515]%N);
   ((-7903407912536465, -50)%Z, [27604]%N);
   ((-1579173831016895, -48)%Z, [27668; 27683]%N);
   ((-3289861131624945, -49)%Z, [27700]%N);
   ((-7172050430910621, -50)%Z, [27714; 35613; 35874]%N);
   ((-7055249833801857, -50)%Z, [27794; 27809]%N);
   ((-4006669528161367, -49)%Z, [27827; 28954]%N);
   ((-6766829398150883, -50)%Z, [27861; 35696; 35758]%N);
   ((-7344090258232203, -50)%Z, [27963]%N);
   ((-6905420608951953, -50)%Z, [27969; 31070]%N);
   ((-3469134644724967, -49)%Z, [28023]%N);
   ((-3474717665229279, -49)%Z, [28779; 31163; 38626]%N);
   ((-107160150151, -34)%Z, [28872]%N);
   ((-7619483671188637, -50)%Z, [28909; 29105]%N);
   ((-1411778661714233, -48)%Z, [28982]%N);
   ((-4046541051155883, -49)%Z, [29004; 32654; 34913]%N);
   ((-3513423624465681, -49)%Z, [29289]%N);
   ((-3651192746948983, -49)%Z, [29616; 29694; 37679; 38169]%N);
   ((-6438167496345321, -50)%Z, [29702]%N);
   ((-353758185982583, -46)%Z, [29983]%N);
   ((-6839069325167967, -50)%Z, [30097]%N);
   ((-8032751604581143, -50)%Z, [30343]%N);
   ((-708411841508039, -47)%Z, [30446]%N);
   ((-8247860677854073, -50)%Z, [30495; 31680; 33410; 38453; 38499]%N);
   ((-8124504604252873, -50)%Z, [30571]%N);
   ((-8178906485900843, -50)%Z, [30707; 33021; 36898; 39854; 40092]%N);
   ((-8334037143555837, -50)%Z, [30862]%N);
   ((-446010133537225, -46)%Z, [31168]%N);
   ((-3786489859850987, -49)%Z, [31227; 39015; 39038]%N);
   ((-7509710271697805, -50)%Z, [31354; 33310]%N);
   ((-3546426477297501, -49)%Z, [31456]%N);
   ((-7689437837748981, -50)%Z, [31469]%N);
   ((-6909023491728311, -50)%Z, [31505]%N);
   ((-3761041461328025, -49)%Z, [31574]%N);
   ((-6527100541290613, -50)%Z, [32085; 32477]%N);
   ((-458674493496973, -46)%Z, [32147; 32463]%N);
   ((-1649000154437501, -48)%Z, [32764; 35336; 35745]%N);
   ((-7114299315538027, -50)%Z, [32966; 33213]%N);
   ((-3643568026055443, -49)%Z, [33041; 33126]%N);
   ((-7014890677377815, -50)%Z, [33050; 33139]%N);
   ((-922736725780701, -47)%Z, [33080; 33225; 33292; 36798; 36948]%N);
   ((-6884042120324519, -50)%Z, [33293]%N);
   ((-7966223399144721, -50)%Z, [33311]%N);
   ((-5384872306944591, -50)%Z, [33394]%N);
   ((-3292561136577279, -49)%Z, [33853]%N);
   ((-4272221180389435, -49)%Z, [34218; 36420; 38346; 38420; 38989; 39069]%N);
   ((-7835664179822527, -50)%Z, [34382; 38684]%N);
   ((-3178978802322085, -49)%Z, [34892]%N);
   ((-7109977237651399, -50)%Z, [35041; 37324; 38754]%N);
   ((-6428706096912517, -50)%Z, [35211; 35265]%N);
   ((-7994255550196233, -50)%Z, [35264; 35266]%N);
   ((-6479289786631549, -50)%Z, [35328]%N);
   ((-5796617593591107, -50)%Z, [35486; 35821]%N);
   ((-1720129543519335, -48)%Z, [35527; 35848]%N);
   ((-6687031985812733, -50)%Z, [35542; 35770]%N);
   ((-6637756944901995, -50)%Z, [36215]%N);
   ((-3240878081001509, -49)%Z, [36275]%N);
   ((-7640017369311969, -50)%Z, [36321; 36857; 38469; 38555]%N);
   ((-3497620482801777, -49)%Z, [36335; 40723]%N);
   ((-7426711659863195, -50)%Z, [36523]%N);
   ((-7497472108738865, -50)%Z, [36681; 36716]%N);
   ((-7237746558814717, -50)%Z, [36890]%N);
   ((-5912559077890307, -50)%Z, [36947]%N);
   ((-6499173745485123, -50)%Z, [37325]%N);
   ((-3293916010765383, -49)%Z, [38263; 38271]%N);
   ((-1929670908867651, -48)%Z, [38272; 38376]%N);
   ((-7167501334189301, -50)%Z, [38291; 38388]%N);
   ((-2056100895337753, -48)%Z, [38505; 38570]%N);
   ((-6710988206742385, -50)%Z, [38632]%N);
   ((-3572513767998815, -49)%Z, [38918; 39034]%N);
   ((-6729295925677135, -50)%Z, [39340; 39532]%N);
   ((-3576981648224061, -49)%Z, [39592]%N);
   ((-3544306135983225, -49)%Z, [40786; 40831]%N)];
  (* ('E', 'in') *)
  [
   ((0, 0)%Z, [24739]%N)];
  (* ('E', 'j') *)
  [
   ((-256808873668883, -45)%Z, [19968; 20122; 20126]%N);
   ((-4850130016645241, -49)%Z, [19977; 21338; 25289; 25490; 25955; 26415; 27602; 32771; 34899; 40635]%N);
   ((-38830949581719, -42)%Z, [19981; 21442; 21443; 22826; 26704; 28246; 36229; 38272; 38376; 38453; 38499]%N);
   ((-1671068827741643, -47)%Z, [19985; 20050; 20105; 20215; 20301; 20419; 20729; 21021; 21152; 21191; 22363; 22727;
     22870; 26434; 26612; 28779; 29229; 29518; 30003; 31105; 31291; 31293; 31361; 31461; 32905; 33008; 33151; 33993;
     34880; 35506; 35695; 35793; 35838; 36092; 36141; 36328; 36335; 36797; 36920; 36988; 37276; 38451; 38480; 38525;
     38590; 38620; 38627; 39135]%N);
   ((-4027996591152485, -49)%Z, [19987; 20154; 23560]%N);
   ((-7997237247671713, -50)%Z, [19990; 21153; 21209]%N);
   ((-4520942970264233, -50)%Z, [19994; 26989]%N);
   ((-3024374593757403, -49)%Z, [20013]%N);
   ((-2318248175891297, -48)%Z, [20051; 21220; 25151; 30028; 36008; 36135; 36873; 36984]%N);
   ((-2599309055091745, -48)%Z, [20061; 22303; 22810; 23725; 23994; 24635; 26092; 27597; 32068; 32233; 32317; 32452;
     32531; 33655; 36870; 37509; 38108; 38506]%N);
   ((-6294068137956237, -49)%Z, [20081; 20098; 20934; 21490; 21672; 21809; 22256; 24237; 26222; 27573; 28310; 28784;
     28857; 30086; 30103; 30274; 32156; 32508; 33618; 35010; 35566; 36947; 38556; 39208; 39302; 40670]%N);
   ((-5089317990897485, -49)%Z, [20107; 21452; 24065; 24163; 26049; 26381; 29616; 29694; 29699; 31639; 35299;
     38617]%N);
   ((-4528941815146129, -49)%Z, [20108; 21475; 26063; 31181; 31278; 36650; 36718; 36830; 36899; 38291; 38388]%N);
   ((-2951930482472951, -48)%Z, [20116; 20851; 21171; 21214; 22622; 25317; 25793; 26085; 26118; 26234; 26448; 27905;
     28500; 30151; 31351; 31406; 32173; 32500; 32946; 36793; 37002; 38364; 38971; 39057; 39080; 39118]%N);
   ((-3032905787116389, -48)%Z, [20132; 20625; 20808; 20874; 20876; 21491; 22120; 22478; 22609; 22681; 23433; 23459;
     23574; 23665; 24335; 24597; 25176; 25588; 26480; 26705; 28165; 29254; 29577; 30707; 30913; 31636; 32652; 35215;
     35268; 35338; 35759; 36012; 36131; 36555; 36711]%N);
   ((-213068177147867, -46)%Z, [20135; 29986]%N);
   ((-5447347837498985, -49)%Z, [20140; 20392; 20689; 20799; 20818; 20889; 20896; 21208; 22885; 22887; 23531; 24102;
     24118; 26723; 27284; 28201; 28331; 29305; 34917; 35036; 36234; 36629; 36731; 37038; 37109; 38450; 39318]%N);
   ((-5778242313127301, -49)%Z, [20170; 20598; 21147; 21345; 21367; 21407; 21516; 21608; 22766; 22767; 23273; 24377;
     24392; 24859; 25103; 25138; 26479; 26495; 26775; 28304; 29233; 29664; 32034; 32305; 32437; 35352; 35760; 36208;
     36829; 36884; 36913; 36949]%N);
   ((-8721810402283885, -50)%Z, [20171; 24072; 24107; 27818; 28396; 36890]%N);
   ((-7914480832561173, -50)%Z, [20195]%N);
   ((-1104550941040705, -47)%Z, [20214; 23621; 25991; 26426; 27231; 35370; 35775]%N);
   ((-5806337192126219, -50)%Z, [20225]%N);
   ((-6849635004897423, -50)%Z, [20239]%N);
   ((-6575899406836355, -50)%Z, [20240]%N);
   ((-5588825283193825, -49)%Z, [20241; 20551; 21213; 21496; 21578; 22581; 25142; 25143; 30563; 31295; 31456; 32000;
     32426; 32988; 36628; 36741; 36828; 36960; 38313; 38397; 38750; 40657]%N);
   ((-4504982882191439, -49)%Z, [20247; 20248; 20778; 30526; 37569; 38109]%N);
   ((-7853632069648743, -51)%Z, [20250; 26371]%N);
   ((-8651418738182833, -50)%Z, [20266; 20605; 29575]%N);
   ((-5285397228212109, -49)%Z, [20302; 20919; 21033; 21592; 21729; 23457; 23529; 25928; 30149; 30410; 35044; 35122;
     37559; 38144; 38470; 38520]%N);
   ((-2447595027600887, -48)%Z, [20303; 20540; 22411; 31821]%N);
   ((-6812383790668489, -50)%Z, [20307; 24180; 39636]%N);
   ((-4751112374152277, -49)%Z, [20316; 38517]%N);
   ((-1992242623352259, -48)%Z, [20339; 21644; 23458]%N);
   ((-1162877310058831, -47)%Z, [20390; 20597; 23395; 31449; 31471]%N);
   ((-4064328548620761, -49)%Z, [20420]%N);
   ((-8372858340775665, -51)%Z, [20445]%N);
   ((-5867968990154085, -50)%Z, [20449]%N);
   ((-2349555408943575, -48)%Z, [20462; 36093; 36187]%N);
   ((-4704409539151911, -50)%Z, [20648; 20786]%N);
   ((-5513653791935567, -49)%Z, [20809; 21713; 21854; 22771; 23475; 24895; 26230; 27580; 27982; 28189; 28639; 30002;
     39000]%N);
   ((-4317243796729493, -49)%Z, [20826; 40680]%N);
   ((-8507491157108475, -50)%Z, [20837; 21307; 37291]%N);
   ((-4607620794096297, -49)%Z, [20839; 20869; 36664; 36755]%N);
   ((-7640426382042127, -50)%Z, [20844]%N);
   ((-4997827967106631, -49)%Z, [20848; 21253; 22919; 23142; 24211; 24235; 28248; 34349]%N);
   ((-5169664568664585, -50)%Z, [20849]%N);
   ((-8856694561992549, -50)%Z, [20853]%N);
   ((-2258417448959359, -48)%Z, [20864; 21488; 25216; 32143; 32485; 36000; 36127]%N);
   ((-4683601240700539, -50)%Z, [20891; 36557]%N);
   ((-7668575345866151, -50)%Z, [20892; 36786]%N);
   ((-3117956815164255, -49)%Z, [20918]%N);
   ((-2694017570058483, -48)%Z, [20998; 23460; 27835; 28020; 29260; 31243; 38738; 38754]%N);
   ((-4769571403383173, -49)%Z, [21010; 21123; 24178; 24185; 24503; 35519; 35843]%N);
   ((-4541314839659715, -49)%Z, [21015; 25304; 25307]%N);
   ((-1069181579616995, -47)%Z, [21019; 21109; 26087; 33290]%N);
   ((-1806601271588827, -48)%Z, [21046]%N);
   ((-2528570332244325, -48)%Z, [21103; 24800; 25903; 27665; 36681; 36716; 40845; 40857]%N);
   ((-3283914202600091, -49)%Z, [21150; 36774]%N);
   ((-603610512595649, -46)%Z, [21155; 23450; 25505; 26696; 37319]%N);
   ((-1113754451348877, -48)%Z, [21270]%N);
   ((-1040939689951135, -47)%Z, [21271; 36554; 36710; 38431; 38538]%N);
   ((-1289944644098377, -47)%Z, [21295; 25250; 25654; 27719; 27979; 28204; 30000; 32080; 32467; 33402; 34269; 35373;
     35774; 36076; 36134; 37326]%N);
   ((-1642628078916255, -48)%Z, [21306; 21312]%N);
   ((-1676117145698907, -48)%Z, [21326; 33775]%N);
   ((-5951628673920779, -50)%Z, [21327; 21332]%N);
   ((-3952825099894227, -49)%Z, [21333; 21934]%N);
   ((-7987735926249477, -50)%Z, [21335; 22659; 35947]%N);
   ((-3975256352254903, -49)%Z, [21355; 34907]%N);
   ((-5334380278835545, -49)%Z, [21378; 21806; 22522; 24093; 24230; 24288; 26143; 26497; 26997; 31216; 31281; 35611;
     35762; 36015; 36142; 36275]%N);
   ((-5675604401222443, -49)%Z, [21387; 22739; 23569; 23646; 23660; 24405; 25296; 26377; 29190; 29677; 30721; 30908;
     32178; 32593; 32929; 35264; 35266; 35426; 35810; 36027; 36153; 36864; 37636; 39184; 39524; 39591; 39791;
     40065]%N);
   ((-4580154373449697, -49)%Z, [21451; 22025; 22253; 22269; 22283; 22290; 37066]%N);
   ((-589489567762719, -46)%Z, [21453; 35386; 35441; 35786; 35805]%N);
   ((-4979852325562581, -50)%Z, [21457; 30332]%N);
   ((-2310936726460891, -48)%Z, [21464; 26524; 35722]%N);
   ((-7592798136689159, -50)%Z, [21512]%N);
   ((-8407025831956723, -50)%Z, [21518; 22530; 24460]%N);
   ((-7788785399451729, -50)%Z, [21521]%N);
   ((-7048730209855101, -50)%Z, [21697]%N);
   ((-5240337189655575, -49)%Z, [21746; 24030; 24555; 26408; 28151; 30701; 33258]%N);
   ((-2011496279308991, -48)%Z, [21776]%N);
   ((-7727076811087805, -50)%Z, [21830]%N);
   ((-215929512706417, -45)%Z, [21860]%N);
   ((-307446811759779, -45)%Z, [22235; 22266; 27784]%N);
   ((-574215011123587, -46)%Z, [22242; 22296; 26080; 28961; 30044; 31680; 32026; 32423; 33410]%N);
   ((-2341396142677277, -48)%Z, [22270; 22294; 30417; 30435; 35347; 35757]%N);
   ((-4334304191816305, -49)%Z, [22320]%N);
   ((-4808410937173155, -49)%Z, [22330; 22580; 38263; 38271]%N);
   ((-3775670957875669, -50)%Z, [22343]%N);
   ((-8076280215971879, -50)%Z, [22577; 25253; 33337]%N);
   ((-3721644114251771, -49)%Z, [22675]%N);
   ((-181876597632647, -45)%Z, [22806]%N);
   ((-3056854533458351, -50)%Z, [22823]%N);
   ((-2472086552912605, -48)%Z, [22909; 23707; 23792; 23798; 24351; 27169; 27531; 27544; 35712; 35835]%N);
   ((-1283086729594205, -48)%Z, [22996]%N);
   ((-7414491264715247, -50)%Z, [23398; 23416; 33647; 34277]%N);
   ((-4103168082410743, -49)%Z, [23425; 23527]%N);
   ((-7306148132344339, -50)%Z, [23466; 25010]%N);
   ((-4566907881028647, -49)%Z, [23485; 23532; 25302; 38598]%N);
   ((-7932352634897521, -50)%Z, [23548; 23566]%N);
   ((-5694822192035591, -50)%Z, [23567]%N);
   ((-6222025702087565, -50)%Z, [23616; 24037]%N);
   ((-1197164070079977, -47)%Z, [23618; 23652; 24375; 24378; 24615; 26825; 35413; 35696; 35758; 35780]%N);
   ((-7193218265465305, -50)%Z, [23622; 23626; 36039; 36164]%N);
   ((-3300232735132687, -49)%Z, [23637]%N);
   ((-4885763651250087, -50)%Z, [24066]%N);
   ((-3989157057362503, -49)%Z, [24110; 24171]%N);
   ((-3530562781691689, -49)%Z, [24133]%N);
   ((-320215413682827, -45)%Z, [24179; 24449; 24501; 26086; 28207; 31169; 36575; 36719]%N);
   ((-8434827242171923, -50)%Z, [24188; 26690]%N);
   ((-6809057643768377, -50)%Z, [24191; 24291]%N);
   ((-5903064815735463, -50)%Z, [24314]%N);
   ((-5026703524792929, -49)%Z, [24320; 26159; 32764; 38283]%N);
   ((-4872209315288031, -49)%Z, [24433; 29420; 29544]%N);
   ((-4398449107309573, -49)%Z, [24739; 32773]%N);
   ((-5859363343875099, -50)%Z, [25112; 25136]%N);
   ((-8926514277918089, -51)%Z, [25152]%N);
   ((-5724847968941053, -50)%Z, [25237]%N);
   ((-1185080161483131, -48)%Z, [25351]%N);
   ((-3016818105086651, -49)%Z, [25511]%N);
   ((-8585170224688439, -50)%Z, [25910]%N);
   ((-7151938288876851, -50)%Z, [25913]%N);
   ((-7606201865311993, -50)%Z, [25919; 30719; 31014]%N);
   ((-6323043267683973, -50)%Z, [25945]%N);
   ((-7572987070015955, -50)%Z, [26032]%N);
   ((-944996342643945, -47)%Z, [26041]%N);
   ((-910709582622799, -47)%Z, [26053]%N);
   ((-8601370502845341, -50)%Z, [26102; 26178; 30828; 32676]%N);
   ((-8379894400878723, -50)%Z, [26149]%N);
   ((-5971972102684339, -50)%Z, [26185; 26187]%N);
   ((-2037577421461147, -48)%Z, [26397; 30334]%N);
   ((-5123393392807959, -50)%Z, [26399]%N);
   ((-7255650884076931, -50)%Z, [26435; 27402]%N);
   ((-3727508229291727, -49)%Z, [26519]%N);
   ((-6698431571512247, -50)%Z, [26631; 27161]%N);
   ((-6122089521760885, -50)%Z, [26657]%N);
   ((-6512895563906983, -50)%Z, [26816; 27298]%N);
   ((-1963518311859579, -48)%Z, [27431; 27472]%N);
   ((-4196689196631275, -49)%Z, [27454]%N);
   ((-8919845687269811, -50)%Z, [27494]%N);
   ((-2943481977139883, -50)%Z, [27604]%N);
   ((-4438676927754857, -49)%Z, [27668; 27683]%N);
   ((-1037776916662345, -47)%Z, [27700]%N);
   ((-6977094044790773, -50)%Z, [27721; 28450]%N);
   ((-7959703775197965, -50)%Z, [27743]%N);
   ((-5657187532357177, -50)%Z, [27773]%N);
   ((-4080647081153357, -49)%Z, [27827]%N);
   ((-3606031109209617, -49)%Z, [27833]%N);
   ((-3898371161184925, -49)%Z, [27861; 39131; 39134]%N);
   ((-4170192543586115, -49)%Z, [27941; 32113; 32479]%N);
   ((-7633497745365213, -50)%Z, [27954]%N);
   ((-4091794969267361, -49)%Z, [27969; 28180; 28417]%N);
   ((-7174684515163615, -50)%Z, [27993]%N);
   ((-4183284993058215, -49)%Z, [28006; 39640]%N);
   ((-2175948904863119, -48)%Z, [28023]%N);
   ((-751929513659499, -47)%Z, [28142]%N);
   ((-1885181030056199, -48)%Z, [28216; 36938]%N);
   ((-8463332559822895, -50)%Z, [28385; 28415]%N);
   ((-3663499363250143, -49)%Z, [28595]%N);
   ((-4553965932814875, -49)%Z, [28846; 34092; 36879]%N);
   ((-7829144555875771, -50)%Z, [29028]%N);
   ((-2069367321067897, -48)%Z, [29031]%N);
   ((-3536829450708823, -49)%Z, [29287]%N);
   ((-3143480223290051, -49)%Z, [29289]%N);
   ((-3558236971284519, -49)%Z, [29702]%N);
   ((-7812826880303941, -50)%Z, [29976; 36123; 36195]%N);
   ((-1972048509402985, -48)%Z, [29983]%N);
   ((-4651869684746449, -50)%Z, [30005; 38651]%N);
   ((-8289774323765657, -50)%Z, [30358; 37806; 38215]%N);
   ((-5245740774124671, -50)%Z, [30431]%N);
   ((-1845219954071511, -48)%Z, [30452]%N);
   ((-6045373173270653, -50)%Z, [30465]%N);
   ((-4449199663163393, -49)%Z, [30740; 32769]%N);
   ((-7757508390811443, -50)%Z, [31038]%N);
   ((-7040541810804001, -50)%Z, [31185]%N);
   ((-3478989068634165, -49)%Z, [31237; 31246]%N);
   ((-8139431341249141, -50)%Z, [31354]%N);
   ((-2859263111745075, -49)%Z, [31609; 31820]%N);
   ((-6225976232129563, -50)%Z, [31649]%N);
   ((-6819065708837383, -50)%Z, [31918; 31975]%N);
   ((-6258089636341327, -50)%Z, [32004; 32422]%N);
   ((-4926821421673999, -50)%Z, [32033; 32442]%N);
   ((-7036469835635533, -50)%Z, [32147; 32463]%N);
   ((-6385116460943195, -50)%Z, [32218; 32447]%N);
   ((-8537922736832113, -50)%Z, [32232; 32534]%N);
   ((-14703268410899, -41)%Z, [32302; 32553]%N);
   ((-1117713563540923, -47)%Z, [32340; 32455; 37070]%N);
   ((-1681464185288393, -48)%Z, [32654]%N);
   ((-70031283473089, -43)%Z, [32844; 32887]%N);
   ((-6116689511856217, -50)%Z, [32852; 32879]%N);
   ((-3915829065533293, -50)%Z, [32960; 33081]%N);
   ((-8755389057186603, -51)%Z, [33021]%N);
   ((-2263088847243753, -49)%Z, [33322]%N);
   ((-3693206252547161, -49)%Z, [34255]%N);
   ((-5898432952853, -41)%Z, [34892]%N);
   ((-2246687627710539, -48)%Z, [35013; 35037]%N);
   ((-6973244810590803, -50)%Z, [35199]%N);
   ((-3241334123796129, -49)%Z, [35222; 35270]%N);
   ((-7742189788429309, -50)%Z, [35282]%N);
   ((-4733239445914897, -49)%Z, [35430; 35797; 37197]%N);
   ((-7785352166990827, -51)%Z, [35657; 35777]%N);
   ((-1491026036697099, -48)%Z, [35686]%N);
   ((-8172386861954087, -50)%Z, [36001; 36130]%N);
   ((-738441215672663, -47)%Z, [36024; 36151]%N);
   ((-6069220658876753, -50)%Z, [36031; 36152]%N);
   ((-6533507579509137, -50)%Z, [36816; 36939]%N);
   ((-2048726402683979, -48)%Z, [36827; 36914; 40643; 40644]%N);
   ((-1525160790204465, -48)%Z, [37096]%N);
   ((-232240028442657, -45)%Z, [37122]%N);
   ((-3742441464408149, -49)%Z, [37325]%N);
   ((-8314795351401313, -50)%Z, [37327]%N);
   ((-7765246564961275, -50)%Z, [37329]%N);
   ((-8816479576118271, -50)%Z, [37341; 38024]%N);
   ((-6792572723995285, -50)%Z, [37504; 38134]%N);
   ((-7342894048017501, -50)%Z, [37628; 38050]%N);
   ((-3809883544262481, -49)%Z, [37941; 38081]%N);
   ((-5732481217886313, -50)%Z, [38498]%N);
   ((-3569253956025437, -49)%Z, [38505; 38570]%N);
   ((-7391972515933417, -50)%Z, [38761]%N);
   ((-8617807289753631, -50)%Z, [40660]%N)];
  (* ('E', 'jn') *)
  [
   ((-7304210039150669, -54)%Z, [35199]%N);
   ((-4947709893870347, -52)%Z, [37327]%N)];
  (* ('E', 'k') *)
  [
];
  (* ('E', 'l') *)
  [
   ((-6599808420496987, -50)%Z, [19968]%N);
   ((-5939605629447551, -49)%Z, [19969; 19975; 20208; 20255; 20506; 20553; 20859; 20923; 20941; 21017; 21063; 21161;
     21407; 21439; 22435; 22902; 22987; 24330; 24453; 24466; 24999; 25265; 25342; 25484; 25513; 25516; 26097; 26391;
     26446; 26494; 27573; 27887; 28041; 28907; 28937; 29145; 30053; 30140; 30473; 32291; 32773; 32908; 33836; 34503;
     36027; 36153; 36530; 36637; 36745; 36941; 38013; 38075; 38597; 38712; 39003; 39072; 39178]%N);
   ((-3164906401228943, -48)%Z, [19976; 20240; 20439; 20846; 20861; 20882; 20896; 21050; 21150; 21169; 21237; 21280;
     21320; 21360; 21382; 21543; 21659; 21897; 22144; 22280; 22362; 22533; 22840; 22856; 23486; 23612; 23789; 23792;
     24070; 24196; 25022; 25042; 25078; 25114; 25505; 25615; 26071; 26411; 26893; 27491; 27511; 28132; 28193; 28369;
     28845; 28954; 29256; 29560; 29864; 30103; 30274; 30505; 30719; 31014; 31034; 31295; 31456; 32178; 32350; 32371;
     32380; 32469; 32487; 32564; 32593; 32736; 32945; 33426; 33459; 33490; 33674; 34411; 34802; 35167; 35463; 35488;
     35802; 36051; 36321; 36774; 36817; 36824; 36857; 36861; 36996; 37319; 37476; 38057; 38450; 38592; 38829; 38935;
     39047; 39138; 39269; 39479; 39578; 39759; 40778; 40784]%N);
   ((-173418701763663, -44)%Z, [19977; 20080; 20262; 20320; 20329; 20523; 20570; 20598; 21029; 21035; 21361; 22521;
     22805; 22842; 22890; 23244; 23548; 23566; 23721; 24052; 25216; 25381; 25582; 25588; 26257; 27966; 28383; 28777;
     30952; 31085; 32000; 32160; 32426; 32511; 33108; 33109; 33167; 34913; 35980; 36023; 36481; 37193; 38795]%N);
   ((-264383303899375, -46)%Z, [19978]%N);
   ((-2745325134096359, -49)%Z, [19979]%N);
   ((-5349160747917103, -50)%Z, [19981]%N);
   ((-5813986977628951, -49)%Z, [19987; 20190; 20363; 20667; 21295; 21340; 21809; 21830; 22040; 22099; 22353; 22686;
     22721; 23396; 23560; 24314; 24942; 25106; 25376; 25387; 25735; 25747; 25903; 25932; 25973; 26524; 27719; 27899;
     28107; 28201; 28331; 28681; 29275; 30707; 30732; 32264; 32365; 33251; 33575; 33830; 33922; 33945; 34385; 34394;
     34395; 34633; 34796; 35613; 35874; 36639; 36749; 36867; 38533; 38706; 38914; 39030; 39321; 39746; 40845;
     40857]%N);
   ((-7544330432799395, -50)%Z, [19990; 30244]%N);
   ((-2880077841679681, -49)%Z, [19994; 26989]%N);
   ((-677972475577327, -46)%Z, [19996; 20302; 21163; 22937; 23614; 25032; 25293; 26481; 26495; 27667; 27873; 28789;
     28799; 29158; 31532; 31684; 33539; 33643; 34093; 35492; 35823; 36049; 36168; 36830; 36899; 37051; 37168; 37658;
     38126; 38534; 38548; 38728; 39854; 40092]%N);
   ((-5276081854157225, -49)%Z, [19997; 21477; 24665; 24700; 24796; 24817; 25919; 25935; 26725; 27211; 27882; 28122;
     28129; 28189; 29190; 29359; 29366; 29376; 30123; 31232; 31614; 31805; 31998; 32114; 32416; 32626; 33218; 33307;
     37707; 38149; 38647]%N);
   ((-1525389059683607, -47)%Z, [20004; 20248; 20308; 20778; 20841; 20943; 21220; 21315; 21344; 21472; 21485; 21513;
     21806; 22116; 22139; 23536; 23553; 23736; 24503; 24833; 24871; 24951; 25152; 25285; 25296; 25480; 25509; 25812;
     26031; 26063; 26517; 26691; 26757; 27498; 27604; 27849; 28187; 28404; 28860; 28895; 29001; 29017; 30090; 30424;
     30436; 30871; 31143; 31389; 31401; 31526; 31687; 31909; 32025; 32184; 32438; 32440; 33457; 33618; 34109; 34326;
     34327; 34593; 34847; 35496; 35826; 35961; 36022; 36140; 36685; 36761; 36834; 37231; 37341; 37504; 37670; 37679;
     38024; 38134; 38169; 38182; 38506; 38686; 38808; 38924; 39042; 39522; 39540; 39749]%N);
   ((-2402658033942411, -48)%Z, [20005; 20313; 20462; 20874; 20876; 21507; 22196; 23653; 23755; 25302; 26195; 26313;
     29260; 31080; 31103; 31108; 32862; 34433; 34811; 38395; 39192]%N);
   ((-6714128265437269, -50)%Z, [20013]%N);
   ((-2812284973847737, -48)%Z, [20016; 20976; 21313; 21388; 21421; 21476; 21521; 21644; 22303; 22545; 22649; 23016;
     23100; 23385; 23403; 24067; 24218; 24339; 24518; 24536; 25014; 25442; 25563; 25720; 25972; 26421; 26434; 27784;
     27785; 28072; 28466; 28790; 28809; 29200; 29399; 29616; 29664; 29694; 30651; 31359; 31373; 31429; 31932; 32412;
     32518; 32852; 32879; 33067; 33073; 33150; 33293; 33391; 33590; 33756; 33905; 34085; 35065; 35920; 36845; 38620;
     38899; 39472]%N);
   ((-6720019975468221, -49)%Z, [20020; 20063; 20185; 20237; 20399; 20432; 20445; 20558; 20658; 20754; 20812; 20817;
     20945; 21155; 21497; 22022; 22108; 22165; 22235; 22615; 22737; 22830; 23110; 23273; 23485; 23528; 23532; 23624;
     23651; 23703; 23831; 24432; 24449; 24501; 24616; 24674; 24680; 24739; 24858; 25289; 25351; 25628; 26408; 26432;
     26525; 26580; 27578; 27743; 27987; 28034; 28139; 28207; 28227; 28234; 28316; 28525; 28526; 28611; 29356; 29454;
     29557; 29922; 30086; 30246; 30270; 30318; 30347; 31227; 31508; 31558; 32048; 32454; 32599; 32645; 32784; 32922;
     32933; 33105; 33152; 33162; 33181; 33256; 33509; 33655; 34013; 34218; 34253; 35350; 35461; 35755; 35803; 35910;
     36090; 36186; 36198; 36866; 36946; 36969; 37428; 38083; 38480; 38543; 38553; 38568; 38991; 39019; 39068; 39076;
     39336]%N);
   ((-3799781377691793, -49)%Z, [20026; 28858; 30382]%N);
   ((-4786857038653927, -49)%Z, [20027; 20332; 20849; 21335; 24029; 26007; 28145; 34255; 37941; 38081; 39717]%N);
   ((-8793299731287183, -50)%Z, [20030; 20129; 21010; 21123; 27425; 31096; 31117; 33289]%N);
   ((-4186852331151029, -49)%Z, [20037; 20915; 27770; 31215; 31309]%N);
   ((-5347457419442695, -50)%Z, [20040; 40636]%N);
   ((-2905827950163243, -49)%Z, [20041; 32681]%N);
   ((-1884589368747047, -48)%Z, [20043; 24178; 24185; 28846]%N);
   ((-530770628566631, -46)%Z, [20046; 28857; 40670]%N);
   ((-4864628765266841, -49)%Z, [20048; 20142; 20260; 20663; 20908; 24375; 24378; 24535; 24597; 25773; 26800; 27138;
     28216; 32318; 32489; 32905; 35422; 35789; 36678; 36760; 36938]%N);
   ((-5711349065724093, -49)%Z, [20056; 21387; 22739; 23389; 23544; 23562; 24347; 24694; 24735; 24756; 24801; 25341;
     25684; 25987; 26579; 26705; 27572; 27590; 27609; 27748; 27927; 27934; 28079; 28176; 28271; 28303; 28472; 28783;
     29128; 29615; 29872; 30095; 30162; 30306; 30465; 30566; 31179; 31348; 31859; 32210; 32490; 32641; 32648; 34047;
     35695; 35793; 36629; 36731; 39446; 39449; 39575; 39579; 40575; 40736]%N);
   ((-4328329776845869, -49)%Z, [20061; 20303; 24237; 24322; 24778; 24859; 27454; 28902; 29033; 29233; 30064; 31561;
     39514]%N);
   ((-2090315913192239, -48)%Z, [20065; 37129]%N);
   ((-8740097712635909, -50)%Z, [20070; 20301; 24425; 24910; 25512; 26360; 38745; 38748]%N);
   ((-8520479020890119, -50)%Z, [20081; 20098]%N);
   ((-5245032302835559, -50)%Z, [20102]%N);
   ((-1738136708960457, -48)%Z, [20105; 29229]%N);
   ((-3374521344048443, -49)%Z, [20107]%N);
   ((-5125062655399135, -49)%Z, [20108; 20498; 21359; 22351; 22750; 22995; 23020; 23445; 23458; 24677; 25439; 25613;
     25943; 26753; 29298; 30701; 31036; 31150; 31283; 31337; 32051; 32094; 32321; 32361; 32453; 32478; 32499; 32827;
     34249; 35712; 35835; 36133; 36841; 36999; 38738; 38936; 39046]%N);
   ((-1783153723096669, -48)%Z, [20110; 26044]%N);
   ((-4289490243055887, -49)%Z, [20111; 20239; 34407; 37266]%N);
   ((-8689296618756929, -50)%Z, [20113; 23545; 23565; 24551; 24962; 27969; 36001; 36130; 38642]%N);
   ((-4552579562420367, -49)%Z, [20116; 21487; 22242; 22296; 27465; 30897; 31169; 32959; 33131; 33392; 33393; 38393;
     39719; 40572]%N);
   ((-4506598918665341, -49)%Z, [20132; 20449; 21213; 26149; 27760; 29575; 31649; 32988]%N);
   ((-2801692545574505, -49)%Z, [20135; 29986]%N);
   ((-73982116912325, -43)%Z, [20146; 22859; 22894; 26143; 28082; 30772; 31185; 32066; 32456; 35242; 38453; 38499]%N);
   ((-1563212606347817, -48)%Z, [20154]%N);
   ((-4930934719703423, -49)%Z, [20167; 21253; 21578; 22855; 24754; 25235; 27611; 28357; 28781; 28866; 29211; 30058;
     32299; 32396; 32493; 32541; 33402; 34269]%N);
   ((-8464867722265849, -50)%Z, [20170; 21048; 30410; 32819; 39151; 39277; 39640]%N);
   ((-5234362774685139, -49)%Z, [20182; 21646; 21880; 22063; 22827; 23558; 23559; 24065; 24066; 24163; 24211; 24235;
     25674; 25758; 25892; 25970; 26448; 26696; 28023; 28297; 32592; 32929; 36816; 36879; 36882; 36939; 36958; 37202;
     37666; 38065; 38948; 39056]%N);
   ((-5159191283426881, -49)%Z, [20183; 21576; 22914; 23467; 23470; 23506; 23610; 24055; 25830; 26234; 26999; 32617;
     35413; 35469; 35748; 35780; 36066; 36132; 36766; 36771; 36781; 36974; 38451; 38525]%N);
   ((-8049803443728305, -50)%Z, [20195]%N);
   ((-2384492055208273, -48)%Z, [20196; 20215; 20381; 20415; 20729; 21076; 24088; 25308; 30028; 31806]%N);
   ((-3516632385705969, -49)%Z, [20214]%N);
   ((-5714439791908211, -50)%Z, [20219]%N);
   ((-8277825493824785, -50)%Z, [20241; 21051; 21619; 27665; 30462; 33740]%N);
   ((-4529119919922727, -49)%Z, [20247; 26376; 30526; 31946; 36848]%N);
   ((-2741546251000317, -48)%Z, [20249; 21351; 22645; 22766; 22767; 22821; 23439; 23452; 23521; 23576; 25913; 26352;
     26367; 26842; 29378; 29699; 30011; 30059; 30899; 31293; 32097; 32476; 32654; 32925; 33253; 34949; 34955; 35018;
     35215; 35219; 35268; 35269; 36305; 36420; 36664; 36755; 36785; 37586; 38155; 38654; 38695; 39165; 39281; 39511;
     39564]%N);
   ((-5810371359506211, -50)%Z, [20250; 26371]%N);
   ((-958871172982669, -47)%Z, [20256; 20659; 26089]%N);
   ((-6663706411411483, -50)%Z, [20307; 39636]%N);
   ((-5913836229476011, -50)%Z, [20309]%N);
   ((-3453717706304765, -49)%Z, [20316]%N);
   ((-2053565500139367, -49)%Z, [20358; 26469]%N);
   ((-5195523240895157, -49)%Z, [20493; 21170; 21185; 21495; 21648; 22432; 23039; 23130; 23601; 23681; 24598; 25226;
     27506; 27825; 27875; 28149; 28170; 29322; 29346; 32769; 32791; 33579; 34399; 34562; 36953; 36965; 39318]%N);
   ((-5688797070742185, -50)%Z, [20505]%N);
   ((-2660570946356879, -48)%Z, [20522; 20625; 20801; 20845; 21149; 21240; 21364; 21371; 21449; 21453; 22066; 23380;
     24187; 24635; 24935; 25151; 25307; 26480; 26641; 26829; 27193; 28287; 28629; 29748; 30900; 31435; 32317; 32629;
     33104; 35199; 35529; 35839; 36068; 36145; 36214; 36245; 37070; 37336; 38025; 38459; 39554; 39748; 40165; 40479;
     40763]%N);
   ((-1179634237464051, -47)%Z, [20538; 20661; 20999; 23616; 28044; 28246; 28263; 29087; 30149; 37559; 38144]%N);
   ((-2312777942819347, -49)%Z, [20540]%N);
   ((-2343626952368487, -48)%Z, [20551; 21402; 23064; 27744; 28322; 31070; 31572; 35582; 35834; 38307; 38401; 39592;
     40180; 40483]%N);
   ((-4979917770326859, -49)%Z, [20572; 20844; 21171; 21214; 21326; 22871; 23621; 24917; 25096; 25187; 25504; 26087;
     29031; 32004; 32191; 32422; 32501; 32918; 33290; 33775; 36007; 36139; 36341; 36368; 36764; 36776]%N);
   ((-8438059315119729, -50)%Z, [20633; 21916; 22791; 24352; 24373; 25454; 25818; 28010]%N);
   ((-1664560216787547, -48)%Z, [20799; 20818]%N);
   ((-2039512951842077, -48)%Z, [20808; 32650]%N);
   ((-4495667508136555, -49)%Z, [20809; 27900; 27941; 28497; 38931; 39039; 39770; 40060]%N);
   ((-6313407773068629, -50)%Z, [20813; 22120]%N);
   ((-1898322579070347, -48)%Z, [20837]%N);
   ((-2442937340573445, -48)%Z, [20839; 20869; 22260; 22285; 27963; 30002; 30495; 35563; 35855; 36930; 38472;
     38515]%N);
   ((-8830217789748975, -50)%Z, [20840; 24402; 26395; 27512; 31461; 35731; 35753; 36798; 36948]%N);
   ((-7120219538858399, -50)%Z, [20851; 38364]%N);
   ((-858007756624823, -47)%Z, [20852; 33288]%N);
   ((-2531224094647289, -48)%Z, [20853; 20991; 21355; 21892; 22278; 22291; 23094; 24863; 24895; 25928; 25964; 26106;
     27905; 28500; 29943; 30000; 30442; 30496; 33446; 33633; 34180; 34310; 34907; 35099; 35128; 35584; 35611; 35762;
     35851; 36062; 36175; 36314; 36893; 37326; 38015; 38656; 39000]%N);
   ((-3345719669156847, -49)%Z, [20855]%N);
   ((-5033572631608281, -49)%Z, [20891; 20892; 20979; 22577; 22818; 23519; 24367; 24398; 24724; 25253; 26354; 26790;
     26827; 27874; 29406; 29552; 30422; 31066; 31163; 31609; 31820; 32080; 32467; 32745; 33995; 35569; 35763; 36070;
     36171; 36203; 36291; 36493; 36557; 36786; 36793; 37002; 38626]%N);
   ((-7187963271572337, -50)%Z, [20917; 27542; 27841]%N);
   ((-2314732376745173, -48)%Z, [20928; 21021; 24046; 24618; 27964; 28136; 29266; 30171; 31402; 31934; 33267; 33647;
     34277; 34880; 35433; 35799; 36076; 36134; 36527; 36544]%N);
   ((-582202264677929, -46)%Z, [20937; 21338; 22068; 24418; 26263; 27530; 28092; 28389; 28651; 36523; 37238]%N);
   ((-2152353016458853, -48)%Z, [20960; 21693; 24190; 31680; 33310; 33410]%N);
   ((-135513434872635, -44)%Z, [20961; 21183; 21218; 36012; 36131; 36896; 39519; 39588]%N);
   ((-8137580336006361, -50)%Z, [20986; 23384; 31354; 33050; 33139]%N);
   ((-8907896857328939, -50)%Z, [20987; 24494; 25463; 25802; 29827; 30631; 32129; 32465]%N);
   ((-1273221332247575, -47)%Z, [20992; 21151; 21653; 23453; 23542; 24231; 24433; 24840; 25925; 26003; 26005; 27721;
     27803; 28212; 28378; 28414; 28450; 30334; 30456; 33151; 36040; 36158; 36275; 37240; 38596; 38663]%N);
   ((-5022918116461473, -50)%Z, [20998]%N);
   ((-6592070246347155, -50)%Z, [21009]%N);
   ((-4602652545530297, -49)%Z, [21015; 21512; 23186; 27833; 36020; 36149; 40635; 40657]%N);
   ((-5006106210961681, -49)%Z, [21028; 21073; 21133; 24565; 24576; 25079; 27827; 27915; 28784; 28976; 29980; 30031;
     31881; 33016; 33538; 35946; 36077; 36106; 36172; 36190]%N);
   ((-3226028346612587, -49)%Z, [21033]%N);
   ((-2255508297222563, -49)%Z, [21040]%N);
   ((-7959683366615239, -50)%Z, [21046]%N);
   ((-1211038900418701, -47)%Z, [21047; 22763; 25199; 27054; 27426; 27489; 28797; 28798; 28903; 29138; 30406; 30561;
     33635; 35282; 36259; 38431; 38452; 38512; 38538; 39131; 39134; 39135]%N);
   ((-8127482511308269, -50)%Z, [21069; 31350; 38263; 38271]%N);
   ((-2106222686259981, -48)%Z, [21097]%N);
   ((-8178902401524255, -50)%Z, [21106]%N);
   ((-5617358252634435, -50)%Z, [21147]%N);
   ((-141897735834159, -44)%Z, [21152; 25805; 27973; 28154; 28435; 31351; 31406; 36681; 36716; 40718]%N);
   ((-3715253162115885, -49)%Z, [21153; 21209]%N);
   ((-1222665163569999, -48)%Z, [21160; 21205]%N);
   ((-2307949518975673, -48)%Z, [21187; 22238; 24109; 24785; 25165; 25240; 28459; 37228]%N);
   ((-2282343239823889, -48)%Z, [21191; 26080; 28961; 32618]%N);
   ((-6883873119671787, -50)%Z, [21270]%N);
   ((-3918367946982287, -49)%Z, [21271; 38590; 38627]%N);
   ((-4150520373682753, -49)%Z, [21306; 21312; 25569]%N);
   ((-4751661206603401, -49)%Z, [21307; 24072; 24107; 24868; 24996; 26530; 26786; 27166; 30697; 32844; 32887; 36000;
     36127; 37291]%N);
   ((-8232783491310013, -50)%Z, [21319]%N);
   ((-1147427649329131, -47)%Z, [21334; 23481; 27178; 27243; 30249; 32928; 33026; 33144; 36067]%N);
   ((-1707155769699289, -48)%Z, [21435; 24577; 24907]%N);
   ((-2321682729298973, -48)%Z, [21450; 21490; 23725; 23994; 24049; 24819; 26041; 31237; 31246; 32676]%N);
   ((-8243876190957385, -50)%Z, [21451; 23665; 38988; 39064]%N);
   ((-7968377617593007, -50)%Z, [21457; 30332; 32047]%N);
   ((-8549349831128895, -50)%Z, [21462; 24179; 35258; 35273]%N);
   ((-8705976922462285, -50)%Z, [21463; 25171; 31574; 33021]%N);
   ((-3966998161521831, -49)%Z, [21464; 26500; 27083; 30475; 35722]%N);
   ((-458255576976765, -46)%Z, [21475]%N);
   ((-1070508460818477, -47)%Z, [21488]%N);
   ((-4672241016284243, -49)%Z, [21491; 24525; 26223; 29157; 31449; 32972; 35302; 35320; 36649; 36744; 39015;
     39038]%N);
   ((-2685062471668597, -48)%Z, [21494; 21628; 22681; 22971; 24613; 26228; 26449; 27877; 27891; 28608; 29254; 29579;
     30127; 30219; 32227; 32536; 33014; 33184; 33865; 36084; 36182; 36686; 36735; 38477; 38665; 38915; 39031; 39764;
     40692]%N);
   ((-7232471039245843, -50)%Z, [21496; 33853]%N);
   ((-6934981738450983, -50)%Z, [21516]%N);
   ((-7768935485108225, -50)%Z, [21517]%N);
   ((-1732875341256189, -48)%Z, [21518; 24460]%N);
   ((-8757553874812423, -50)%Z, [21531; 22530; 27979; 28204; 31867; 35676; 35889; 39006]%N);
   ((-1841838799738627, -48)%Z, [21549]%N);
   ((-8868387543622445, -50)%Z, [21560; 22833; 24247; 30208; 33510; 36820]%N);
   ((-3790424653374143, -49)%Z, [21592; 21729]%N);
   ((-894727832456443, -47)%Z, [21629; 25112; 25136]%N);
   ((-1750809748626619, -48)%Z, [21697]%N);
   ((-4702678155979965, -49)%Z, [21705; 22270; 22294; 24452; 24465; 24524; 24537; 28908; 29180; 31471; 33136; 39184;
     40786; 40831]%N);
   ((-7474664921517351, -50)%Z, [21709; 38911]%N);
   ((-4954893652658113, -49)%Z, [21741; 22478; 23041; 25945; 29134; 30427; 31895; 32034; 36777; 36783; 37257; 39361;
     39539]%N);
   ((-6486631566851955, -50)%Z, [21839; 38382]%N);
   ((-8534821888826193, -50)%Z, [21917; 24120; 26684; 33337]%N);
   ((-2096571170101153, -48)%Z, [22269; 22283; 24320; 24555; 30518; 38283]%N);
   ((-7166352245194745, -50)%Z, [22312]%N);
   ((-5883292065390813, -50)%Z, [22320]%N);
   ((-7297894415358607, -50)%Z, [22330; 22580]%N);
   ((-7491681364919737, -50)%Z, [22495]%N);
   ((-4084214419246171, -49)%Z, [22534; 27735; 32302; 32553]%N);
   ((-8189474309309415, -50)%Z, [22570; 27982; 28639; 34920]%N);
   ((-3404876403120935, -49)%Z, [22659]%N);
   ((-4225691864941011, -49)%Z, [22768; 32882; 35013; 35037]%N);
   ((-6970390314008495, -50)%Z, [22788; 34389]%N);
   ((-8811607450221933, -50)%Z, [22797; 25103; 25138; 27597; 35359; 35772; 37912; 38047]%N);
   ((-48955021607037, -43)%Z, [22806; 38469; 38555]%N);
   ((-4949457104212447, -50)%Z, [22810]%N);
   ((-1051484302021941, -47)%Z, [22812; 24265; 28779]%N);
   ((-962262601867419, -47)%Z, [22823; 35542; 35770]%N);
   ((-3751585119584161, -49)%Z, [22825; 30005; 38651]%N);
   ((-6959650328848779, -50)%Z, [22836; 38957]%N);
   ((-3891826670263573, -49)%Z, [22899; 33080; 33225; 38632]%N);
   ((-5713261455948389, -50)%Z, [22909]%N);
   ((-5308975668011453, -50)%Z, [23376]%N);
   ((-453752842274479, -46)%Z, [23383]%N);
   ((-8117474446239263, -50)%Z, [23395]%N);
   ((-4857132621291235, -50)%Z, [23398; 23416]%N);
   ((-306747123736855, -45)%Z, [23432; 25597; 25622; 25671; 25900; 30151; 33268; 33395; 33399; 34382; 35527; 35848;
     38470; 38520; 39740]%N);
   ((-1919422798578823, -48)%Z, [23433; 30097]%N);
   ((-7347068165287599, -50)%Z, [23448]%N);
   ((-2707033514883633, -49)%Z, [23450]%N);
   ((-4073884772487589, -49)%Z, [23454; 23526]%N);
   ((-3406437985130359, -49)%Z, [23475]%N);
   ((-8560247483289209, -51)%Z, [23478]%N);
   ((-4239257580480011, -49)%Z, [23487]%N);
   ((-8266394939739215, -50)%Z, [23500]%N);
   ((-7844527619918589, -50)%Z, [23556; 32771]%N);
   ((-7664287465692457, -50)%Z, [23567; 26377]%N);
   ((-6633969031000129, -50)%Z, [23569]%N);
   ((-2180727016796533, -48)%Z, [23574; 25026; 26381; 28040]%N);
   ((-8022002033513105, -50)%Z, [23613; 30433]%N);
   ((-3822238199509627, -49)%Z, [23618; 23652; 27835]%N);
   ((-8640689074475697, -50)%Z, [23637; 26001; 26045; 33146; 37857; 38236]%N);
   ((-7532416036889945, -50)%Z, [23646; 23660]%N);
   ((-8097721309637685, -50)%Z, [24037; 38272; 38376]%N);
   ((-3946222742913985, -49)%Z, [24050]%N);
   ((-7393239095382053, -50)%Z, [24180]%N);
   ((-4824400944821557, -49)%Z, [24188; 27801; 32937; 35465; 35709; 36814]%N);
   ((-3266004005820319, -49)%Z, [24207]%N);
   ((-1624599140802859, -48)%Z, [24212; 25033]%N);
   ((-218735670454481, -45)%Z, [24213]%N);
   ((-5962733564700615, -50)%Z, [24220]%N);
   ((-5861587298647649, -50)%Z, [24230]%N);
   ((-5836344827519757, -50)%Z, [24335]%N);
   ((-1116022986374481, -47)%Z, [24351; 24448; 40723]%N);
   ((-8031193104201263, -50)%Z, [24369]%N);
   ((-8087973197601775, -50)%Z, [24377; 24392]%N);
   ((-3855957855522713, -49)%Z, [24403; 30070; 33041; 33126]%N);
   ((-7145148230420945, -50)%Z, [24459; 38291; 38388]%N);
   ((-6517480069337937, -50)%Z, [24471]%N);
   ((-3103140257722653, -49)%Z, [24515]%N);
   ((-6671954799268673, -50)%Z, [24605]%N);
   ((-7651041431653983, -50)%Z, [24615]%N);
   ((-8200146426244821, -50)%Z, [24681; 38634]%N);
   ((-7791085050063143, -50)%Z, [24687]%N);
   ((-3914498859907371, -49)%Z, [24773; 25391; 27515; 31569; 31689]%N);
   ((-3423907509585933, -49)%Z, [24847]%N);
   ((-7925562576441615, -50)%Z, [24930]%N);
   ((-7806097271226957, -50)%Z, [25104; 33324]%N);
   ((-7994870602435105, -50)%Z, [25142; 25143]%N);
   ((-2019577190344819, -48)%Z, [25163]%N);
   ((-4297046731726639, -49)%Z, [25200; 25854; 30585]%N);
   ((-4424570461347841, -49)%Z, [25215; 37197]%N);
   ((-7900633884879069, -50)%Z, [25321; 25799]%N);
   ((-4253158285587611, -49)%Z, [25552; 25910; 28909; 29105; 30001]%N);
   ((-416824913560611, -46)%Z, [25918]%N);
   ((-2237210796128253, -48)%Z, [25955; 26631; 27161; 34928]%N);
   ((-6096816277057719, -50)%Z, [25968; 25976]%N);
   ((-5572825332774283, -50)%Z, [26009]%N);
   ((-7409059963288745, -50)%Z, [26029; 26039]%N);
   ((-998246270195559, -47)%Z, [26032]%N);
   ((-7302716263871259, -50)%Z, [26085]%N);
   ((-965737778144319, -47)%Z, [26102; 26178]%N);
   ((-1880156600336209, -48)%Z, [26126]%N);
   ((-2842672576062787, -49)%Z, [26131]%N);
   ((-1333690984419793, -48)%Z, [26159]%N);
   ((-7079860382434357, -50)%Z, [26202; 26415; 34899]%N);
   ((-7977139528791753, -50)%Z, [26397; 27700]%N);
   ((-8896069569240685, -51)%Z, [26412]%N);
   ((-6623347254987441, -50)%Z, [26426; 27231]%N);
   ((-2000960490975205, -48)%Z, [26435; 27402; 30431; 36828; 36960]%N);
   ((-8107554559100899, -50)%Z, [26465; 26781; 32570; 32990]%N);
   ((-1877239735096721, -48)%Z, [26512; 28982; 34892]%N);
   ((-1969061301917767, -48)%Z, [26519; 26666]%N);
   ((-3547915430825199, -49)%Z, [26538; 27085]%N);
   ((-1929721812442683, -48)%Z, [26597]%N);
   ((-6249053120250959, -50)%Z, [26657]%N);
   ((-5446120025448459, -50)%Z, [26679; 27171]%N);
   ((-3551950931643285, -49)%Z, [26970]%N);
   ((-7398488055503585, -50)%Z, [27169]%N);
   ((-6461173341471765, -50)%Z, [27490]%N);
   ((-1489583161852319, -48)%Z, [27492]%N);
   ((-3734524724497349, -49)%Z, [27493; 35041; 37324]%N);
   ((-3723431755651075, -49)%Z, [27602; 30784; 30990]%N);
   ((-6705566247697875, -50)%Z, [27668; 27683]%N);
   ((-7274090147989729, -50)%Z, [27714]%N);
   ((-3611713808940075, -49)%Z, [27861]%N);
   ((-8775284948455775, -50)%Z, [27880; 32954; 33292]%N);
   ((-2017181644168753, -48)%Z, [28070; 28516; 35672; 35782]%N);
   ((-6794265630733677, -50)%Z, [28165]%N);
   ((-6371053264358699, -50)%Z, [28304]%N);
   ((-7740064674869449, -50)%Z, [28872]%N);
   ((-4144686643203777, -49)%Z, [29151; 33829]%N);
   ((-4174479306637443, -49)%Z, [29255]%N);
   ((-1144264876040341, -47)%Z, [29273; 32974]%N);
   ((-8918383845331213, -51)%Z, [29289]%N);
   ((-3386467679949089, -49)%Z, [29702]%N);
   ((-1865865461234179, -48)%Z, [29983]%N);
   ((-5650281648368785, -50)%Z, [29992]%N);
   ((-6924572728347841, -50)%Z, [30333]%N);
   ((-5063179496282863, -50)%Z, [30340]%N);
   ((-60637875637729, -43)%Z, [30408]%N);
   ((-915276606665751, -47)%Z, [30446]%N);
   ((-465086541801701, -46)%Z, [30524]%N);
   ((-747005060183163, -47)%Z, [30528; 33879]%N);
   ((-13789473966133, -41)%Z, [30693]%N);
   ((-8312830382910615, -50)%Z, [30721; 30908; 36864; 36935]%N);
   ((-3591803876964227, -49)%Z, [31038]%N);
   ((-8969888655330085, -50)%Z, [31119; 33609; 38275; 38378]%N);
   ((-1870077135472381, -48)%Z, [31181; 31278]%N);
   ((-3873606634860687, -49)%Z, [31199; 39340; 39532]%N);
   ((-5668242546210983, -50)%Z, [31243]%N);
   ((-6144158382327171, -50)%Z, [31505]%N);
   ((-946068033406777, -47)%Z, [31639]%N);
   ((-7574679976754347, -50)%Z, [31661]%N);
   ((-765029814564763, -47)%Z, [31995]%N);
   ((-3368641917725177, -49)%Z, [32005; 32418]%N);
   ((-3639405454616053, -49)%Z, [32016; 32445]%N);
   ((-6226534371469129, -50)%Z, [32026; 32423]%N);
   ((-6743147910721285, -50)%Z, [32032]%N);
   ((-3602777907771901, -49)%Z, [32039; 32202]%N);
   ((-985539526163405, -47)%Z, [32085; 32477]%N);
   ((-5933713919416599, -50)%Z, [32113; 32479]%N);
   ((-3289645157251797, -49)%Z, [32147; 32463]%N);
   ((-6407548925551667, -50)%Z, [32173; 32500]%N);
   ((-1746217885345075, -48)%Z, [32218; 32447]%N);
   ((-7435932358381053, -50)%Z, [32340; 32455]%N);
   ((-5496463877874647, -50)%Z, [32946]%N);
   ((-5376770404985125, -50)%Z, [32960; 33081]%N);
   ((-1026365083781555, -47)%Z, [33032; 33033]%N);
   ((-6769920900515545, -50)%Z, [33394]%N);
   ((-3270899253652669, -49)%Z, [35201]%N);
   ((-881072921724259, -47)%Z, [35211; 35265]%N);
   ((-3497928008921213, -49)%Z, [35222; 35270]%N);
   ((-6914259069295241, -50)%Z, [35264; 35266]%N);
   ((-3380462823510561, -49)%Z, [35299]%N);
   ((-3535979649015863, -49)%Z, [35328]%N);
   ((-1778007784951825, -48)%Z, [35336; 35745]%N);
   ((-7362249068176277, -50)%Z, [35373; 35774]%N);
   ((-5548147086577931, -50)%Z, [35441; 35805]%N);
   ((-993881967363107, -47)%Z, [35486; 35821; 38505; 38570]%N);
   ((-8197917993228967, -51)%Z, [35498; 35828]%N);
   ((-1007403156906597, -47)%Z, [35519; 35843]%N);
   ((-7562441813795407, -50)%Z, [35586; 35859]%N);
   ((-7388014492471673, -50)%Z, [35696; 35758; 36890]%N);
   ((-7452369145289343, -50)%Z, [35937; 38761]%N);
   ((-3802935167191971, -49)%Z, [35947]%N);
   ((-6904039030224509, -50)%Z, [36039; 36164]%N);
   ((-3428767539368923, -49)%Z, [36074; 36136]%N);
   ((-8624941965939259, -50)%Z, [36208; 36339]%N);
   ((-3712553157163551, -49)%Z, [36215]%N);
   ((-6628645617268075, -50)%Z, [36335]%N);
   ((-7419732080224151, -50)%Z, [36554; 36710]%N);
   ((-8324744778820065, -50)%Z, [36655; 36753]%N);
   ((-3450326431269387, -49)%Z, [36807; 36942]%N);
   ((-1816176898617151, -48)%Z, [36827; 36914]%N);
   ((-4020229911206167, -49)%Z, [36831; 36978]%N);
   ((-6181018880915387, -50)%Z, [36947]%N);
   ((-7241587687492435, -50)%Z, [37325]%N);
   ((-6364733884400275, -50)%Z, [37327]%N);
   ((-6778988599784591, -50)%Z, [37329]%N);
   ((-7657644969099059, -50)%Z, [38309; 38400]%N);
   ((-6090212739612643, -50)%Z, [38498]%N);
   ((-4517746806779345, -49)%Z, [38750]%N);
   ((-6639317734203481, -50)%Z, [38754]%N);
   ((-7025682925206287, -50)%Z, [39080; 39118]%N)];
  (* ('E', 'ln') *)
  [
   ((0, 0)%Z, [26435; 27402]%N)];
  (* ('E', 'm') *)
  [
   ((-630726342423893, -47)%Z, [19968]%N);
   ((-3847944202254577, -49)%Z, [19971]%N);
   ((-5352176587491953, -50)%Z, [19975; 33836]%N);
   ((-973422796024399, -47)%Z, [19976]%N);
   ((-341141727070101, -46)%Z, [19977]%N);
   ((-5084779716231269, -50)%Z, [19979]%N);
   ((-2667625738680239, -48)%Z, [19985; 37276]%N);
   ((-187826975461551, -44)%Z, [19990; 21317; 31699; 31757]%N);
   ((-3046496816868675, -48)%Z, [19995; 21474; 31751]%N);
   ((-3852355194094817, -49)%Z, [19997; 32114]%N);
   ((-6588830086044733, -50)%Z, [20004; 20841]%N);
   ((-8394766142626505, -52)%Z, [20010; 20491]%N);
   ((-4306382887246557, -49)%Z, [20018]%N);
   ((-3107940779609223, -49)%Z, [20037]%N);
   ((-6306627298599997, -49)%Z, [20043; 33455]%N);
   ((-7798156612202811, -50)%Z, [20061]%N);
   ((-4886503299965485, -49)%Z, [20065; 25273; 31080; 37129]%N);
   ((-5549153223060643, -50)%Z, [20108]%N);
   ((-1707333070216585, -48)%Z, [20116]%N);
   ((-8472686575487191, -51)%Z, [20123]%N);
   ((-5799529554859319, -49)%Z, [20133]%N);
   ((-3772978705980659, -49)%Z, [20137; 30045]%N);
   ((-6985139569770529, -50)%Z, [20159; 20740]%N);
   ((-828038858620939, -47)%Z, [20195]%N);
   ((-7750565419910993, -49)%Z, [20200; 21441; 25420; 26578; 29590; 40778; 40784]%N);
   ((-726643897100505, -47)%Z, [20214]%N);
   ((-4298991753240945, -49)%Z, [20219]%N);
   ((-3100030345655877, -49)%Z, [20221]%N);
   ((-1742537768472581, -47)%Z, [20234]%N);
   ((-6741894510166865, -49)%Z, [20237]%N);
   ((-5262979305575697, -49)%Z, [20239]%N);
   ((-8792541033010965, -50)%Z, [20249; 22821]%N);
   ((-4042104445904811, -49)%Z, [20250; 26371]%N);
   ((-2388505332394617, -49)%Z, [20301]%N);
   ((-6924849718062513, -50)%Z, [20313; 39192]%N);
   ((-3680179123450329, -48)%Z, [20336; 22439; 24319; 25096]%N);
   ((-4517542042835199, -49)%Z, [20363]%N);
   ((-6844532422071723, -49)%Z, [20457; 20486; 23002; 29305; 30462]%N);
   ((-6712030456249661, -50)%Z, [20493]%N);
   ((-6317716736117643, -50)%Z, [20799; 20818]%N);
   ((-6583782841195403, -51)%Z, [20803]%N);
   ((-6579943900879989, -49)%Z, [20806; 26426; 27231]%N);
   ((-3566782211511817, -49)%Z, [20811]%N);
   ((-3175843668578265, -48)%Z, [20828]%N);
   ((-7206539464399523, -50)%Z, [20843]%N);
   ((-7114396893888949, -50)%Z, [20845]%N);
   ((-8272859148291001, -50)%Z, [20855]%N);
   ((-2314454017914157, -48)%Z, [20874; 20876]%N);
   ((-4658246736242027, -49)%Z, [20960; 24190]%N);
   ((-3761086629769219, -49)%Z, [20986]%N);
   ((-8317751469882015, -50)%Z, [20992]%N);
   ((-4862543722011781, -50)%Z, [20998]%N);
   ((-1542196917005961, -48)%Z, [21015]%N);
   ((-4081442680409605, -49)%Z, [21017; 21063]%N);
   ((-3450642074067567, -49)%Z, [21051]%N);
   ((-3569120185607331, -49)%Z, [21103]%N);
   ((-5358875221288641, -49)%Z, [21242]%N);
   ((-8752530227199239, -50)%Z, [21253]%N);
   ((-935641717278063, -47)%Z, [21305]%N);
   ((-6326145625924179, -50)%Z, [21313]%N);
   ((-6675940831035725, -50)%Z, [21315]%N);
   ((-4582496376086057, -49)%Z, [21319; 21709; 38911]%N);
   ((-162092519871815, -44)%Z, [21320; 22721]%N);
   ((-6257352536881185, -50)%Z, [21322]%N);
   ((-1441350231707893, -47)%Z, [21359]%N);
   ((-6460059906147701, -50)%Z, [21367]%N);
   ((-6905086949988141, -50)%Z, [21452; 38617]%N);
   ((-269853424175363, -45)%Z, [21457; 30332]%N);
   ((-4448037500512779, -49)%Z, [21472; 30090]%N);
   ((-1553013116233873, -48)%Z, [21475]%N);
   ((-2657823755577189, -49)%Z, [21477]%N);
   ((-155494103330631, -45)%Z, [21482]%N);
   ((-7302244786553429, -50)%Z, [21488]%N);
   ((-2484142376141265, -49)%Z, [21491]%N);
   ((-4491107611393133, -49)%Z, [21494; 29983; 33865]%N);
   ((-7793355326006399, -50)%Z, [21495; 34399]%N);
   ((-2742246936553621, -48)%Z, [21496; 37329]%N);
   ((-5437091143063683, -50)%Z, [21517]%N);
   ((-2823567080273149, -49)%Z, [21544; 22136]%N);
   ((-1914786881889493, -48)%Z, [21592; 21729]%N);
   ((-3170112848871035, -49)%Z, [21608; 36913]%N);
   ((-2413595301291733, -48)%Z, [21619]%N);
   ((-7400070106317549, -50)%Z, [21697]%N);
   ((-3059351262698717, -49)%Z, [22235]%N);
   ((-24910417482829, -42)%Z, [22238]%N);
   ((-3936373394606015, -49)%Z, [22242; 22296]%N);
   ((-7437861293870669, -50)%Z, [22280]%N);
   ((-1568889973479683, -48)%Z, [22330; 22580]%N);
   ((-743181705624659, -47)%Z, [22359; 22602]%N);
   ((-4976768187356757, -49)%Z, [22530; 27468]%N);
   ((-4112203288176935, -49)%Z, [22534]%N);
   ((-4922372114706345, -49)%Z, [22581]%N);
   ((-4699075494552069, -49)%Z, [22763; 25285; 25812]%N);
   ((-5327782038693865, -50)%Z, [22768; 32882]%N);
   ((-445756355198575, -45)%Z, [22777]%N);
   ((-6445132639418431, -50)%Z, [22788; 34389]%N);
   ((-3966145559097447, -50)%Z, [22810]%N);
   ((-3525968541225887, -49)%Z, [22812]%N);
   ((-4411750724325705, -50)%Z, [22825]%N);
   ((-3363630572153947, -49)%Z, [22836; 38957]%N);
   ((-6548470929620691, -50)%Z, [22871]%N);
   ((-23919191349653, -42)%Z, [23376]%N);
   ((-7067544483839895, -50)%Z, [23395]%N);
   ((-6155608099841907, -49)%Z, [23433; 24494; 32701]%N);
   ((-3372765388014911, -49)%Z, [23447]%N);
   ((-1238056957995891, -48)%Z, [23478]%N);
   ((-2958210062794831, -48)%Z, [23493]%N);
   ((-2023779337485041, -48)%Z, [23544]%N);
   ((-3244696255382603, -49)%Z, [23545; 23565]%N);
   ((-3777806779771689, -49)%Z, [23553]%N);
   ((-2216155809457573, -48)%Z, [23562]%N);
   ((-5615016062951389, -50)%Z, [23569]%N);
   ((-3813331177277321, -49)%Z, [23610]%N);
   ((-4945044304350143, -49)%Z, [23614]%N);
   ((-608253767046681, -46)%Z, [23616]%N);
   ((-6300091644486591, -50)%Z, [23618; 23652]%N);
   ((-6022271147430037, -50)%Z, [23622; 23626]%N);
   ((-2968104875736017, -49)%Z, [23681; 27506]%N);
   ((-4711669978530911, -49)%Z, [23792]%N);
   ((-6036651655404453, -49)%Z, [24051]%N);
   ((-382714423339567, -45)%Z, [24080; 24115; 26410]%N);
   ((-2797615962045275, -48)%Z, [24086]%N);
   ((-5985439097100885, -49)%Z, [24103; 24128]%N);
   ((-4620179954740057, -49)%Z, [24109; 26007; 39717]%N);
   ((-4674701559769943, -49)%Z, [24110; 24171; 32025; 32440]%N);
   ((-7786191569663415, -50)%Z, [24133]%N);
   ((-2132863825261367, -48)%Z, [24149]%N);
   ((-4716787740626685, -49)%Z, [24162]%N);
   ((-7240474252168371, -50)%Z, [24178; 24185]%N);
   ((-3226462726876437, -50)%Z, [24180]%N);
   ((-5036988137076029, -49)%Z, [24202]%N);
   ((-7220854977113543, -50)%Z, [24230]%N);
   ((-6029498863960791, -50)%Z, [24231]%N);
   ((-2141651478921021, -48)%Z, [24320; 38283]%N);
   ((-3052892874998805, -49)%Z, [24352; 24373]%N);
   ((-179658824821843, -44)%Z, [25100]%N);
   ((-6738468867616677, -50)%Z, [25104]%N);
   ((-2261490607566461, -48)%Z, [25130]%N);
   ((-7016540023775497, -50)%Z, [25142; 25143]%N);
   ((-7519352631991799, -50)%Z, [25152]%N);
   ((-2189539934615405, -48)%Z, [25159]%N);
   ((-1768304133917229, -48)%Z, [25163]%N);
   ((-1146131256690547, -47)%Z, [25171]%N);
   ((-1409743536102449, -48)%Z, [25209]%N);
   ((-6130400998648915, -50)%Z, [25226]%N);
   ((-9006578768019427, -50)%Z, [25240]%N);
   ((-3094868363934827, -48)%Z, [25289]%N);
   ((-4660568182638605, -49)%Z, [25307]%N);
   ((-1144113480359181, -47)%Z, [25331]%N);
   ((-313970657826563, -45)%Z, [25414]%N);
   ((-8079565999016467, -50)%Z, [25490]%N);
   ((-4948913391425059, -49)%Z, [25674; 25892]%N);
   ((-5297956388855869, -49)%Z, [25694; 30917]%N);
   ((-1326305090001805, -47)%Z, [25735; 26092]%N);
   ((-2830005098966559, -48)%Z, [25774; 36655; 36753]%N);
   ((-3104704580737487, -49)%Z, [25903]%N);
   ((-4968966909169101, -50)%Z, [25968; 25976]%N);
   ((-1392818247783965, -47)%Z, [25972; 30003; 38646]%N);
   ((-8329259916658947, -50)%Z, [25991]%N);
   ((-3389542490323747, -49)%Z, [26020]%N);
   ((-6653958486788633, -50)%Z, [26041]%N);
   ((-1407060917003273, -48)%Z, [26085]%N);
   ((-36011381048973, -42)%Z, [26102; 26178]%N);
   ((-6513637946443407, -49)%Z, [26143]%N);
   ((-8139839821317917, -50)%Z, [26188]%N);
   ((-4508591934548867, -49)%Z, [26354]%N);
   ((-6177593792671859, -50)%Z, [26376]%N);
   ((-1279999161301225, -47)%Z, [26381]%N);
   ((-5874701046117577, -49)%Z, [26391]%N);
   ((-3709833143045595, -49)%Z, [26399]%N);
   ((-7606190883192695, -50)%Z, [26412]%N);
   ((-4175334601502355, -49)%Z, [26421]%N);
   ((-2434695520800209, -48)%Z, [26438; 26751]%N);
   ((-4622349321406999, -49)%Z, [26463]%N);
   ((-4964977285169903, -50)%Z, [26465; 26781]%N);
   ((-1792365203453495, -48)%Z, [26479]%N);
   ((-1965946407094691, -48)%Z, [26522]%N);
   ((-8486232358408677, -50)%Z, [26525]%N);
   ((-8203523753776371, -50)%Z, [26538; 27085]%N);
   ((-3737127696814529, -49)%Z, [26550]%N);
   ((-2534849912566205, -48)%Z, [26609]%N);
   ((-2395429322557595, -48)%Z, [26635; 26847]%N);
   ((-528476467848301, -46)%Z, [26666]%N);
   ((-7225185366708887, -50)%Z, [26679; 27171]%N);
   ((-3283629841458063, -49)%Z, [26681]%N);
   ((-6655115392138247, -49)%Z, [26694]%N);
   ((-4594779407800567, -49)%Z, [26696]%N);
   ((-4615866140884865, -49)%Z, [26700]%N);
   ((-2424760078411015, -48)%Z, [26723; 27284]%N);
   ((-4564560170160371, -49)%Z, [26729; 27137]%N);
   ((-2048733903040029, -48)%Z, [26742]%N);
   ((-3957990184702931, -49)%Z, [26869]%N);
   ((-7430088551490569, -51)%Z, [27425]%N);
   ((-921876494054119, -47)%Z, [27454]%N);
   ((-1436323624919941, -48)%Z, [27493]%N);
   ((-2998241620351855, -49)%Z, [27573]%N);
   ((-1979998569267089, -48)%Z, [27627]%N);
   ((-5733223600422737, -49)%Z, [27754]%N);
   ((-5217397775593801, -49)%Z, [27795; 37070]%N);
   ((-1076286068246995, -47)%Z, [27966]%N);
   ((-1214016540067441, -47)%Z, [28316]%N);
   ((-8925152941884129, -50)%Z, [28404]%N);
   ((-4832009268382985, -50)%Z, [28857; 40670]%N);
   ((-1476278116078523, -48)%Z, [29255]%N);
   ((-2131138743395653, -48)%Z, [29677]%N);
   ((-1319177618243955, -47)%Z, [29922]%N);
   ((-7367601981144165, -50)%Z, [29926]%N);
   ((-8576167755802335, -50)%Z, [29942]%N);
   ((-864022944339227, -47)%Z, [30058]%N);
   ((-6706999004051315, -50)%Z, [30334]%N);
   ((-4644515568841903, -49)%Z, [30406]%N);
   ((-8340887213524971, -50)%Z, [30415; 30430]%N);
   ((-2399862090968433, -48)%Z, [30418]%N);
   ((-8545384137333479, -50)%Z, [30424; 30436]%N);
   ((-2248148063477575, -48)%Z, [30446]%N);
   ((-1548274981957729, -48)%Z, [30524]%N);
   ((-8899269045456583, -50)%Z, [30528; 33879]%N);
   ((-3771059011184599, -49)%Z, [30871]%N);
   ((-7451248068518713, -51)%Z, [31181; 31278]%N);
   ((-2286230675920121, -48)%Z, [31186]%N);
   ((-4904152079303459, -49)%Z, [31243]%N);
   ((-8673915638246927, -50)%Z, [31449]%N);
   ((-1620940984400565, -48)%Z, [31456]%N);
   ((-8880239298248461, -50)%Z, [31471]%N);
   ((-7495198737373917, -50)%Z, [31508; 31558]%N);
   ((-2927473194632165, -48)%Z, [31532; 36784]%N);
   ((-7813903720739249, -50)%Z, [31561]%N);
   ((-686829673742587, -46)%Z, [31568]%N);
   ((-4911369485257429, -49)%Z, [31665]%N);
   ((-8041602189885997, -50)%Z, [31680; 33410]%N);
   ((-1794090990445991, -48)%Z, [31687]%N);
   ((-1140451274860341, -48)%Z, [31859]%N);
   ((-3226376793249307, -49)%Z, [31867; 39006]%N);
   ((-8727540054167025, -50)%Z, [31890]%N);
   ((-485676544888695, -46)%Z, [32026; 32423]%N);
   ((-3113034342668965, -48)%Z, [32034; 38347; 38421]%N);
   ((-7794553729426453, -50)%Z, [32068; 32452; 36255]%N);
   ((-1947441937561505, -48)%Z, [32173; 32500]%N);
   ((-7861238342435099, -50)%Z, [32218; 32447]%N);
   ((-574866754857501, -46)%Z, [32311; 32533]%N);
   ((-2768572181554057, -48)%Z, [32592]%N);
   ((-1827308890966775, -48)%Z, [32676]%N);
   ((-5059672021320969, -50)%Z, [32929]%N);
   ((-1268633010810915, -47)%Z, [32974]%N);
   ((-8227925016426069, -50)%Z, [33080; 33225]%N);
   ((-4997543605964603, -49)%Z, [33108]%N);
   ((-7638082368529401, -50)%Z, [33368]%N);
   ((-5175232087646549, -49)%Z, [33580]%N);
   ((-1817169722210909, -48)%Z, [34892]%N);
   ((-4748511623633299, -49)%Z, [34955]%N);
   ((-5241235889295885, -50)%Z, [35041; 37324]%N);
   ((-4011177784479617, -49)%Z, [35282]%N);
   ((-2389625509172415, -48)%Z, [35352; 35760]%N);
   ((-4487674979090393, -49)%Z, [35377; 35768]%N);
   ((-5256237309383783, -49)%Z, [36011; 36143]%N);
   ((-7285336756889723, -50)%Z, [36215]%N);
   ((-1560764042188855, -48)%Z, [36335]%N);
   ((-8128491562036741, -50)%Z, [36523]%N);
   ((-8961743751424319, -50)%Z, [36554; 36710]%N);
   ((-4310115165802091, -49)%Z, [36617; 36733]%N);
   ((-1584727117610345, -48)%Z, [36635; 36742]%N);
   ((-305843534813753, -45)%Z, [36649; 36744]%N);
   ((-6755969029450867, -50)%Z, [36650; 36718]%N);
   ((-4372069193900795, -49)%Z, [36890]%N);
   ((-1712726460144711, -48)%Z, [36941]%N);
   ((-6393528696585157, -50)%Z, [36947]%N);
   ((-4338268529735177, -49)%Z, [36973]%N);
   ((-4718158601500833, -50)%Z, [37096]%N);
   ((-1422040890466551, -47)%Z, [37193]%N);
   ((-8012126686990295, -50)%Z, [37325]%N);
   ((-1288431486816001, -48)%Z, [37327]%N);
   ((-2858899674589873, -48)%Z, [37526; 38114]%N);
   ((-1356798827521591, -47)%Z, [37656; 38180]%N);
   ((-5001792305025503, -49)%Z, [37664; 38189]%N);
   ((-2001942792336603, -48)%Z, [37770; 38225]%N);
   ((-1670097318951639, -48)%Z, [37912; 38047]%N);
   ((-3635091548679875, -49)%Z, [38272; 38376]%N);
   ((-111337397139665, -44)%Z, [38291; 38388]%N);
   ((-1945656678024741, -48)%Z, [38431; 38538]%N);
   ((-742631666401695, -47)%Z, [38453; 38499]%N);
   ((-1220759745406757, -47)%Z, [38598]%N);
   ((-3430139857243339, -49)%Z, [38754]%N);
   ((-1967865562097939, -48)%Z, [38913; 39029]%N);
   ((-8666087797397981, -50)%Z, [38914; 39030]%N);
   ((-3470232115760349, -49)%Z, [38915; 39031]%N);
   ((-3087941998748065, -49)%Z, [38917; 39033]%N);
   ((-926281454600331, -47)%Z, [38931; 39039]%N);
   ((-3420033694840967, -49)%Z, [38982; 39063]%N);
   ((-615760996184293, -46)%Z, [39184]%N);
   ((-7668756973431155, -50)%Z, [39318]%N);
   ((-4830326822134565, -49)%Z, [39381; 39550]%N)];
  (* ('E', 'mg') *)
  [
];
  (* ('E', 'mq') *)
  [
   ((-5284106149180689, -50)%Z, [19968]%N);
   ((-635312860832721, -46)%Z, [19977; 19979; 21457; 30332]%N);
   ((-7336401105328629, -50)%Z, [19997; 32114]%N);
   ((-509228997114705, -46)%Z, [20056; 24180]%N);
   ((-4464039149927975, -49)%Z, [20159; 20740; 21488]%N);
   ((-8086789674443837, -50)%Z, [20184]%N);
   ((-1743772783296341, -48)%Z, [20195]%N);
   ((-1270672142030425, -49)%Z, [20214]%N);
   ((-942424990495299, -48)%Z, [20221]%N);
   ((-4605516595622815, -49)%Z, [20239; 27744]%N);
   ((-690541888706261, -47)%Z, [20249; 22821]%N);
   ((-2455452560617871, -49)%Z, [20250; 26371]%N);
   ((-759920967761743, -47)%Z, [20301]%N);
   ((-2070068965677111, -48)%Z, [20363; 21021]%N);
   ((-909641191337693, -47)%Z, [20799; 20818]%N);
   ((-4029293969005877, -50)%Z, [20998; 22238]%N);
   ((-2850483311697781, -48)%Z, [21315; 21319; 21345; 23433; 26412; 26679; 27171; 30334]%N);
   ((-7871680601170907, -50)%Z, [21475; 26143]%N);
   ((-6351020450764855, -51)%Z, [22330; 22580]%N);
   ((-4530345104364557, -49)%Z, [23460]%N);
   ((-5838138503525749, -50)%Z, [24110; 24171]%N);
   ((-6157285467993281, -53)%Z, [24230]%N);
   ((-4106009303326475, -49)%Z, [25346; 25499; 34892]%N);
   ((-8809452905091913, -50)%Z, [25705]%N);
   ((-4794933625556291, -49)%Z, [26020; 33337]%N);
   ((-8430618845224959, -50)%Z, [26041]%N);
   ((-5879084830709823, -50)%Z, [26102; 26178]%N);
   ((-8604177081282197, -50)%Z, [26376]%N);
   ((-5830124947227829, -50)%Z, [26397]%N);
   ((-5310759450385227, -49)%Z, [26399; 38470; 38520]%N);
   ((-122644589392353, -45)%Z, [26465; 26781]%N);
   ((-5289033508934911, -50)%Z, [26681]%N);
   ((-1178473746680989, -48)%Z, [27425]%N);
   ((-4112980314858767, -50)%Z, [28857; 40670]%N);
   ((-8702143182529069, -50)%Z, [29305]%N);
   ((-5947863457419153, -50)%Z, [31561]%N);
   ((-813905390872947, -47)%Z, [32000; 32426]%N);
   ((-4692295713651433, -49)%Z, [32026; 32423; 36335]%N);
   ((-8691385466048723, -51)%Z, [33050; 33139]%N);
   ((-2931263590366875, -49)%Z, [33394]%N);
   ((-1902673796374449, -48)%Z, [34955]%N);
   ((-1230138069343723, -47)%Z, [36600; 36724]%N);
   ((-5639584490169973, -50)%Z, [36635; 36742]%N);
   ((-6030619872529693, -50)%Z, [36947]%N);
   ((-6413277025736703, -50)%Z, [37912; 38047]%N);
   ((-7193381622956581, -51)%Z, [38754]%N)];
  (* ('E', 'n') *)
  [
   ((-622511900253959, -46)%Z, [19968]%N);
   ((-79841101688309, -43)%Z, [19969; 33080; 33225; 40575]%N);
   ((-7006742191283449, -49)%Z, [19971; 21351; 23094; 23360; 24162; 26979; 28458; 29669; 30271; 30317; 31657; 31854;
     32403; 32552; 33253; 33770; 34120; 34659; 36339; 37356; 37414; 37827; 38030; 38043; 38238; 38476; 38607;
     38619]%N);
   ((-724973589348021, -46)%Z, [19976; 21365; 30338]%N);
   ((-2795460211645461, -48)%Z, [19977; 29436]%N);
   ((-7446708286400619, -50)%Z, [19978]%N);
   ((-7415681429183825, -50)%Z, [19979]%N);
   ((-2991323515148165, -48)%Z, [19984; 20356; 21155; 22383; 26464; 27091]%N);
   ((-3092807466097565, -48)%Z, [19985; 20828; 25674; 25892; 27028; 28903; 29138; 34560; 37226; 37276]%N);
   ((-3187952715018035, -48)%Z, [19987; 20840; 22931; 23560; 34067]%N);
   ((-8802554510524169, -50)%Z, [19990; 27611]%N);
   ((-4970941342564297, -49)%Z, [19992]%N);
   ((-2336857232731671, -49)%Z, [19994; 26989]%N);
   ((-4989400371795193, -49)%Z, [19995; 21474; 30422; 33995]%N);
   ((-3790072726808353, -49)%Z, [19996; 26481]%N);
   ((-2344729043088065, -48)%Z, [19997; 32114]%N);
   ((-3082103705809717, -48)%Z, [19998; 22366; 22626; 23485; 23532; 23849; 24930; 31946; 38718]%N);
   ((-88658907233837, -43)%Z, [20004; 20841; 21050; 24473; 24576; 25079]%N);
   ((-705420335404315, -46)%Z, [20005; 22196; 39154; 39278; 40201; 40486]%N);
   ((-6988283162052553, -49)%Z, [20006; 20164; 20603; 20674; 22656; 23613; 24182; 26095; 30433; 30881; 32047; 34583;
     34680; 35947; 36646; 36743; 38534; 39240; 39312]%N);
   ((-6382057949783105, -49)%Z, [20010; 20491; 23394; 26012; 28856; 30683; 30917; 33137; 33606; 33610; 37927; 38159;
     38305; 38402]%N);
   ((-3429522120411029, -48)%Z, [20011; 20029; 21560; 21576; 21884; 24974; 26342; 26797; 28382; 28399; 32573; 32918;
     33805; 38069; 40436; 40519; 40599]%N);
   ((-4517350301691953, -49)%Z, [20013]%N);
   ((-2734324978123759, -48)%Z, [20018; 21330; 30142]%N);
   ((-2634602341424373, -48)%Z, [20024; 20174; 24478; 34121]%N);
   ((-679720387377341, -46)%Z, [20025; 36873; 36984]%N);
   ((-7748247590428255, -50)%Z, [20026; 28858]%N);
   ((-939442035204515, -47)%Z, [20027]%N);
   ((-5398692421742263, -49)%Z, [20030; 20391; 20596; 33289]%N);
   ((-278795190589589, -44)%Z, [20037; 20040; 20291; 20849; 20857; 20906; 21700; 21708; 22575; 23157; 23224; 23307;
     23591; 23915; 24130; 24186; 25041; 25059; 25340; 25918; 26127; 26697; 26937; 29616; 29694; 29711; 29833; 29977;
     30100; 30147; 30475; 30517; 31143; 31176; 31255; 31352; 31363; 31434; 31485; 31868; 32326; 32554; 32607; 32792;
     33226; 33405; 33452; 33586; 33718; 33889; 33976; 34207; 34431; 34569; 34699; 34822; 35380; 35731; 35753; 35785;
     36007; 36139; 36485; 37340; 37453; 37547; 37604; 38091; 38127; 38148; 39141; 39167; 39270; 39283; 40213; 40361;
     40410; 40501; 40540; 40552]%N);
   ((-6209194330353373, -50)%Z, [20041; 32681]%N);
   ((-3061844966678961, -48)%Z, [20043; 20769; 26840; 35386; 35786; 37009]%N);
   ((-6675847715655133, -49)%Z, [20044; 23630; 24357; 24396; 26198; 26249; 26837; 28879; 29159; 29322; 29346; 30208;
     33040; 33229; 33445; 33725; 34261; 35091; 37232; 37946; 38107]%N);
   ((-8368014472027605, -50)%Z, [20048; 27138]%N);
   ((-784413861985777, -46)%Z, [20054; 20056; 20919; 20987; 25802; 26579; 27627; 33459]%N);
   ((-3468140802893713, -48)%Z, [20057; 20238; 25220; 29662; 30179; 31742; 32652; 33759; 34417; 34664; 36763; 37624;
     38191; 39171; 39290; 39751; 39768]%N);
   ((-6483459966672535, -49)%Z, [20061; 20999; 21450; 21650; 30196; 31166; 33098; 33099; 33240; 38317; 38398]%N);
   ((-8302982362133055, -49)%Z, [20062; 20272; 20381; 20493; 20725; 20957; 21038; 21246; 21534; 21564; 21737; 21860;
     21937; 22139; 22266; 22948; 23427; 23651; 24736; 24936; 25170; 26066; 26106; 26228; 29109; 29572; 29790; 30041;
     30127; 30219; 30260; 30759; 31392; 31681; 32272; 32457; 32779; 32822; 32845; 32889; 33465; 33545; 33630; 33704;
     33748; 33884; 33907; 34126; 34661; 34978; 36109; 36193; 36291; 36405; 36493; 36771; 36845; 37214; 38321; 38405;
     38463; 39446; 39470; 39579; 39581; 39811; 39853; 39895; 40070; 40081; 40094]%N);
   ((-5690229946307571, -49)%Z, [20064; 20184; 30086; 32722]%N);
   ((-8792695748818479, -50)%Z, [20065; 37129]%N);
   ((-7056181494748625, -50)%Z, [20070; 26360]%N);
   ((-5049292533925669, -49)%Z, [20081; 20098]%N);
   ((-1374044359421045, -47)%Z, [20083]%N);
   ((-1701019667232231, -47)%Z, [20102; 21416; 21536; 21722; 22368; 22684; 23020; 24161; 24245; 24282; 32039; 32202;
     32945; 34484; 36678; 36760; 37463; 37561; 37913; 38013; 38067; 38075; 38152; 38251; 38701; 38724]%N);
   ((-7589846186634683, -50)%Z, [20105; 29229]%N);
   ((-3167865164695841, -49)%Z, [20107]%N);
   ((-2769392498002287, -48)%Z, [20108; 32654; 32963; 36001; 36130]%N);
   ((-8531238925856513, -49)%Z, [20109; 20197; 20200; 20928; 21277; 21542; 21862; 22244; 22605; 22949; 23706; 23888;
     24081; 24119; 24908; 25321; 25332; 25371; 25799; 25891; 26060; 26417; 26551; 26864; 27051; 27257; 27347; 27813;
     27900; 28040; 28063; 28136; 28346; 28451; 28497; 28701; 28707; 29243; 29781; 30772; 30855; 32057; 32221; 32302;
     32323; 32461; 32503; 32521; 32553; 32673; 32680; 32939; 33042; 33044; 33065; 33248; 33298; 33355; 33515; 34480;
     34873; 35494; 35829; 37194; 37347; 37564; 37754; 38035; 38153; 38167; 38331; 38347; 38414; 38421; 38918; 39034;
     39139; 39156; 39268; 39284; 40056; 40072; 40274; 40431; 40518; 40553]%N);
   ((-2631619232750273, -48)%Z, [20110; 26044]%N);
   ((-1507562151987039, -47)%Z, [20111; 32784; 34407]%N);
   ((-4567276557702941, -49)%Z, [20113; 38642]%N);
   ((-4490291823591285, -49)%Z, [20116; 26679; 27171]%N);
   ((-4740670644479697, -49)%Z, [20117; 24231]%N);
   ((-3167311796634117, -48)%Z, [20122; 20126; 22937; 26638; 27359; 27688; 31609; 31820]%N);
   ((-5887668419582539, -49)%Z, [20129; 25506; 25509; 30399; 32160; 32511]%N);
   ((-6970410233815173, -49)%Z, [20130; 20241; 21547; 22338; 23052; 23632; 24103; 24128; 26286; 27655; 27660; 29177;
     30883; 31692; 33046; 34532; 36328; 37555; 38160]%N);
   ((-1166448108175919, -47)%Z, [20132]%N);
   ((-3177688937720287, -49)%Z, [20135; 29986]%N);
   ((-6919963073254831, -49)%Z, [20136; 20278; 21128; 21310; 21313; 22603; 22934; 24223; 24290; 26987; 27698; 27699;
     33048; 33190; 33556; 36777; 36783; 39201; 39243; 39301; 39304; 40199; 40488]%N);
   ((-3148081639026667, -48)%Z, [20137; 22275; 30045; 30967; 37858; 38230]%N);
   ((-5994952437254923, -49)%Z, [20140; 37210; 37440; 38078]%N);
   ((-357023853421609, -45)%Z, [20141; 25308; 34935; 38686]%N);
   ((-5026010397905043, -49)%Z, [20142; 21073; 21133]%N);
   ((-7304119029035463, -50)%Z, [20146; 35242]%N);
   ((-1163789088352481, -48)%Z, [20154]%N);
   ((-3365273021660677, -48)%Z, [20160; 31049; 31398; 31431; 38281; 38381]%N);
   ((-5432012794134509, -49)%Z, [20161; 26757]%N);
   ((-5389069111278881, -49)%Z, [20166; 20693]%N);
   ((-3130081673259129, -48)%Z, [20167; 20522; 21346; 29261; 29272; 30439; 34612; 36676; 36758; 37034]%N);
   ((-5549960548186665, -49)%Z, [20170]%N);
   ((-1218895126045635, -47)%Z, [20171]%N);
   ((-5350158903965057, -49)%Z, [20177; 23833; 33714; 34030]%N);
   ((-2819194064960763, -48)%Z, [20179; 20489; 34521; 38940; 39052]%N);
   ((-6108265682114931, -49)%Z, [20180; 21049; 21070; 21161; 35393; 35778; 39912; 40120]%N);
   ((-6085893865952739, -49)%Z, [20181; 20285; 26172; 26205; 33450; 35548; 35853; 40273; 40515]%N);
   ((-408109743765281, -45)%Z, [20182; 20329; 20648; 20786; 21163; 22234; 24809; 25074; 35578; 35866]%N);
   ((-5283083967132789, -49)%Z, [20183]%N);
   ((-1248134147836573, -47)%Z, [20185]%N);
   ((-6621388899669937, -50)%Z, [20195]%N);
   ((-1868496149279063, -48)%Z, [20196]%N);
   ((-1183584920391093, -47)%Z, [20202; 20736]%N);
   ((-3648870535350085, -49)%Z, [20204; 20497]%N);
   ((-5075398157354983, -49)%Z, [20208]%N);
   ((-3011832161454127, -48)%Z, [20210; 23004; 26792; 32191; 32501]%N);
   ((-6304033244045753, -50)%Z, [20214]%N);
   ((-6357257124993455, -50)%Z, [20215; 20729]%N);
   ((-7265820069296939, -50)%Z, [20219]%N);
   ((-6434942163442463, -50)%Z, [20221]%N);
   ((-6306886458524847, -49)%Z, [20223; 27088; 31914; 31966; 33455; 33509]%N);
   ((-6127612945424825, -49)%Z, [20225]%N);
   ((-6506132156316333, -49)%Z, [20234; 22108; 22165; 23389; 25995; 28316; 30590; 31699; 31757; 34468; 36460; 38012;
     38179; 40779]%N);
   ((-4651598448113839, -49)%Z, [20237]%N);
   ((-7522568016112385, -49)%Z, [20239; 21400; 21435; 22241; 22404; 22751; 23047; 23100; 23308; 24321; 25424; 25467;
     26693; 27189; 28014; 29427; 31069; 32093; 32468; 34460; 34486; 34732; 34733; 35628; 35884; 37794; 38056; 38500;
     38506; 38774; 39881; 39911; 40100; 40115; 40756; 40761]%N);
   ((-4946268245922307, -49)%Z, [20240]%N);
   ((-3779948006540521, -49)%Z, [20247; 30526]%N);
   ((-7109380103188307, -49)%Z, [20248; 20778; 21679; 21746; 22271; 23067; 23089; 24544; 25269; 27047; 27766; 29394;
     30192; 30887; 31232; 33160; 33392; 33393; 33493; 34427; 34512; 36820; 37438; 37738; 38080; 38950; 39055; 39230;
     39244; 39311; 39316]%N);
   ((-4786736849440667, -49)%Z, [20249; 22821; 22971]%N);
   ((-5345780349397603, -50)%Z, [20250; 26371]%N);
   ((-2906569966169351, -48)%Z, [20254; 20457; 20486; 20632; 20807; 20982]%N);
   ((-2533779170979527, -48)%Z, [20256; 20659]%N);
   ((-4919860391497663, -49)%Z, [20260; 20663; 24266]%N);
   ((-3156162815411285, -48)%Z, [20262; 20523; 25166; 27067; 28020; 28173; 28460; 29481; 31168]%N);
   ((-3048484324215099, -48)%Z, [20266; 20605; 25377; 25803; 29632; 33883; 34432; 34645; 37396; 38046]%N);
   ((-5156938619545139, -49)%Z, [20271; 26588; 27331]%N);
   ((-598160509320133, -46)%Z, [20276; 20698]%N);
   ((-7750824579835843, -49)%Z, [20280; 20394; 20430; 20757; 21032; 21380; 21525; 21535; 21570; 22122; 22535; 24665;
     25286; 26434; 26636; 26675; 26851; 27368; 28151; 28608; 29924; 30131; 30146; 30775; 31167; 31171; 31189; 31258;
     32102; 32473; 33436; 33559; 33620; 33636; 33911; 34015; 34154; 34186; 34552; 34941; 35045; 35145; 35355; 35769;
     36476; 37615; 38150; 38567; 38620; 38816; 39899; 40119]%N);
   ((-3083486990164335, -49)%Z, [20301]%N);
   ((-4966920254371909, -49)%Z, [20302; 23385; 23403; 23519]%N);
   ((-7263874312693205, -49)%Z, [20304; 20498; 22519; 22857; 22914; 23044; 23105; 23745; 24209; 24246; 24289; 25191;
     25329; 27014; 27531; 27544; 27947; 28388; 28670; 30239; 30844; 32371; 32564; 32986; 33222; 34281; 36343; 36474;
     37221; 37432; 38073; 38466; 40009; 40150; 40667]%N);
   ((-5402073111677315, -50)%Z, [20307; 39636]%N);
   ((-5033288817934221, -49)%Z, [20309]%N);
   ((-5217656935518651, -49)%Z, [20313; 39192]%N);
   ((-1801883083590077, -47)%Z, [20314; 21098; 21587; 22216; 23938; 24917; 28905; 29172; 30124; 30311; 32350; 32469;
     33125; 33505; 33661; 33729; 36645; 36746; 37197; 40617; 40632]%N);
   ((-661047275792699, -46)%Z, [20315; 21410; 24258]%N);
   ((-1923176395740601, -48)%Z, [20316; 22260; 22285]%N);
   ((-1738271832500507, -47)%Z, [20318; 22849; 22889; 22916; 23418; 24297; 24298; 26114; 27722; 29450; 30246; 30962;
     31968; 32789; 33276; 35206; 36208; 39241; 39313]%N);
   ((-3647155726194463, -48)%Z, [20323; 20426; 20653; 21334; 21471; 22403; 24199; 24858; 25758; 25816; 27527; 27556;
     27905; 28118; 28500; 29313; 30690; 33030; 34233; 35070; 35960; 36067; 39486; 39585; 40018; 40159]%N);
   ((-6817325161349973, -49)%Z, [20332; 22070; 22466; 22490; 22557; 27000; 30168; 32697; 33086; 33563; 33626; 33698;
     34719; 40024; 40095; 40763]%N);
   ((-8958464766133709, -50)%Z, [20351]%N);
   ((-5603192297871001, -49)%Z, [20358; 26469; 36637; 36745]%N);
   ((-7390916770856021, -50)%Z, [20363]%N);
   ((-5743342030796097, -49)%Z, [20365; 21563; 36527; 36544]%N);
   ((-831921819007887, -46)%Z, [20379; 20754; 31353; 34914; 36299; 36828; 36960]%N);
   ((-6131563487626141, -49)%Z, [20384; 20448; 25293; 26848; 27463; 40607]%N);
   ((-5526472112504177, -49)%Z, [20387; 20406; 22687; 33479; 33894]%N);
   ((-1407955760370919, -47)%Z, [20392; 20689; 32568; 33618]%N);
   ((-1840154351706377, -47)%Z, [20393; 20744; 21917; 22276; 25296; 25937; 26865; 26932; 27653; 29934; 29973; 30900;
     33074; 33778; 34505; 34553; 37353; 37467; 37784; 38034; 38085; 38217; 38357; 38425; 38747; 39020; 39077; 39509;
     39556; 39752; 39882; 40104; 40664; 40697]%N);
   ((-3436833569841435, -48)%Z, [20398; 20882; 24651; 25088; 27287; 32961; 33029; 33722; 34327; 34567; 36681; 36708;
     36716; 36723; 38344; 38385; 38485; 38493; 40367; 40442; 40557]%N);
   ((-5087056393192077, -49)%Z, [20399]%N);
   ((-5385897553856805, -49)%Z, [20415]%N);
   ((-1808749688751727, -47)%Z, [20419; 21545; 23648; 25102; 27167; 27533; 28371; 29467; 29585; 29859; 29922; 30408;
     31717; 33140; 33267; 34547; 34692; 37057; 38275; 38378; 39729; 40339; 40344; 40523; 40533]%N);
   ((-3057962491652999, -48)%Z, [20433; 21558; 21584; 28431; 32121; 32399; 32482; 32544; 32937]%N);
   ((-4634414253172511, -49)%Z, [20439]%N);
   ((-748595763971975, -46)%Z, [20440; 28572; 28734; 31109; 31146]%N);
   ((-2969379292078651, -48)%Z, [20445; 25169; 25778; 25955; 33909; 37656; 38180]%N);
   ((-4361289765770895, -49)%Z, [20449]%N);
   ((-1789079944014185, -47)%Z, [20458; 20472; 20791; 23456; 23541; 30201; 30202; 31659; 31787; 32768; 33897; 34321;
     39469; 39576]%N);
   ((-4070515876423089, -48)%Z, [20462; 20572; 20864; 21676; 21943; 22132; 22329; 22745; 22766; 22767; 23622; 23626;
     24050; 25292; 25361; 26174; 26507; 27015; 27278; 27372; 28389; 28651; 29640; 29852; 30183; 30932; 30995; 31923;
     32629; 32670; 32690; 33134; 33407; 33589; 33627; 33728; 34136; 34513; 35195; 35408; 35784; 36808; 36874; 36930;
     36956; 36993; 37376; 37709; 38063; 38208; 38428; 38924; 39023; 39042; 39315; 39525; 39554; 39589; 39998; 40148;
     40182; 40482]%N);
   ((-6571474979716581, -49)%Z, [20492; 29392; 31364; 33945; 33970; 35126]%N);
   ((-6443031851096441, -50)%Z, [20505]%N);
   ((-1072837965888277, -47)%Z, [20538; 20661]%N);
   ((-6134445836621545, -50)%Z, [20540]%N);
   ((-2390834227747557, -48)%Z, [20551]%N);
   ((-1869376994388963, -47)%Z, [20559; 22158; 22238; 22456; 22913; 23536; 23883; 25935; 26132; 29076; 29378; 29791;
     30162; 30306; 31718; 32793; 34016; 34231; 34362; 35350; 35755; 38334; 38408]%N);
   ((-5474789056928407, -49)%Z, [20581; 35961]%N);
   ((-1335331071429585, -47)%Z, [20598]%N);
   ((-6160021890826197, -49)%Z, [20599]%N);
   ((-608653623677407, -46)%Z, [20613]%N);
   ((-724699246917971, -46)%Z, [20625; 24120; 26480]%N);
   ((-7329205391123531, -50)%Z, [20633; 22791]%N);
   ((-8492026825102057, -50)%Z, [20687]%N);
   ((-1330779164402399, -47)%Z, [20711]%N);
   ((-6888680028135601, -49)%Z, [20718; 21888; 24043; 24361; 25376; 25747; 26685; 28938; 30294; 31635; 31833; 32728;
     32761; 33203; 34444; 35377; 35768; 39214]%N);
   ((-6729116188942685, -50)%Z, [20799; 20818]%N);
   ((-7914663753080059, -50)%Z, [20803]%N);
   ((-2228264855897343, -48)%Z, [20804]%N);
   ((-5445913499242109, -49)%Z, [20806]%N);
   ((-5132891951851173, -49)%Z, [20808; 25514]%N);
   ((-7149266662089151, -50)%Z, [20809]%N);
   ((-4256691096386181, -49)%Z, [20811]%N);
   ((-5882550657486765, -49)%Z, [20820]%N);
   ((-7437942964536365, -50)%Z, [20826; 40680]%N);
   ((-7206791099180625, -50)%Z, [20837]%N);
   ((-4784559090618725, -49)%Z, [20839; 20869]%N);
   ((-1452163562901461, -47)%Z, [20843; 21350; 23039; 25215]%N);
   ((-270497841687707, -45)%Z, [20844]%N);
   ((-8015413101027577, -49)%Z, [20845; 20918; 21066; 21574; 21971; 22489; 22628; 23250; 23329; 24421; 24422; 25203;
     27875; 27955; 28504; 29006; 32002; 32050; 32419; 32449; 33129; 33593; 33616; 33628; 33793; 34045; 34152; 34214;
     34683; 35973; 36667; 36752; 37431; 37542; 37616; 37944; 38009; 38068; 38094; 38111; 38146; 38249; 39659]%N);
   ((-2674585202554903, -48)%Z, [20848; 29399; 34349]%N);
   ((-4020500569698213, -49)%Z, [20851; 38364]%N);
   ((-5751355688584967, -49)%Z, [20852; 24369; 27880; 33288; 33311]%N);
   ((-1752523903241141, -48)%Z, [20853]%N);
   ((-3717894449041883, -48)%Z, [20854; 21388; 21421; 22942; 23071; 23428; 24155; 25259; 25684; 26011; 27086; 27712;
     28818; 30031; 30956; 31207; 32131; 32481; 32943; 33406; 33432; 34171; 34222; 34282; 34541; 34597; 34632; 34760;
     35359; 35772; 36638; 36747; 37264; 37672; 38170; 39753; 39758; 40653]%N);
   ((-7842051925761515, -50)%Z, [20855]%N);
   ((-8760443068716427, -50)%Z, [20856]%N);
   ((-1113074435761819, -47)%Z, [20859; 39178]%N);
   ((-4921706130703309, -49)%Z, [20861; 29560]%N);
   ((-3348546815767591, -48)%Z, [20872; 21191; 22576; 23713; 26361; 27103; 27315; 27742; 32957; 34107; 37260]%N);
   ((-2655033782253999, -48)%Z, [20874; 20876]%N);
   ((-1563800850737269, -47)%Z, [20881; 25239; 25439; 25613; 26726; 27194; 30813; 32964; 37476; 38057; 40306;
     40522]%N);
   ((-3299037994521109, -48)%Z, [20885; 24754; 27249; 27365; 28418; 30129; 30384; 32070; 32458; 33096; 34924;
     35183]%N);
   ((-5635096015548607, -49)%Z, [20889; 23531]%N);
   ((-6020586777424467, -50)%Z, [20891; 36557]%N);
   ((-152045381120049, -44)%Z, [20892; 36786]%N);
   ((-1250779667243283, -47)%Z, [20896]%N);
   ((-7087300804545517, -49)%Z, [20898; 21320; 21348; 22618; 27641; 30132; 30937; 32043; 32609; 33323; 33507; 33878;
     34028; 34638; 34829; 35606; 35873; 35913; 40434; 40477; 40514; 40555; 40565]%N);
   ((-924618670536723, -46)%Z, [20900; 22040; 22099; 22558; 24089; 24132; 24875; 25196; 25276; 25562; 26089; 26597;
     29368; 29505; 30115; 30232; 30266; 32915; 33375; 33502; 33678; 33713; 33802; 33882; 34511; 34570; 34806; 35166;
     37526; 37675; 38114; 38177; 38312; 38394; 38588]%N);
   ((-5922118457812235, -49)%Z, [20908; 32701]%N);
   ((-751741259426945, -46)%Z, [20912; 26197; 26248; 26723; 27284]%N);
   ((-2557183918969307, -48)%Z, [20914; 34909]%N);
   ((-6277167618697975, -50)%Z, [20917; 27841]%N);
   ((-3037516379129657, -48)%Z, [20923; 20941]%N);
   ((-3804814584177333, -49)%Z, [20934; 28310]%N);
   ((-7684518625399261, -49)%Z, [20935; 22885; 22887; 24084; 26485; 26539; 26816; 26963; 27135; 27260; 27298; 27358;
     27607; 27979; 27996; 28113; 28204; 29364; 29554; 30054; 30178; 31235; 31901; 31986; 33339; 33387; 33448; 33719;
     33828; 34594; 34722; 37195; 37433; 37841; 38093; 38237; 38675; 39361; 39539; 39851; 40091; 40578]%N);
   ((-7825996071094101, -49)%Z, [20937; 21319; 23379; 24760; 25101; 25438; 25736; 25744; 25745; 25830; 26492; 26541;
     26783; 26928; 26982; 27183; 27299; 27978; 28092; 28132; 28609; 29022; 30157; 30748; 30758; 32718; 33795; 34606;
     36841; 36879; 36999; 37365; 37750; 38039; 38198; 38646; 38867; 38889; 39873; 39976; 40008; 40096; 40142; 40149;
     40288; 40516]%N);
   ((-6537856039322947, -49)%Z, [20940; 26420; 26512; 27192; 27207; 31494; 32570; 34092]%N);
   ((-5843201897109893, -49)%Z, [20960; 24190; 33519; 38706]%N);
   ((-3003766424006337, -48)%Z, [20964; 29226; 38643; 38722; 40179]%N);
   ((-3145438662080377, -48)%Z, [20973; 22438; 22718; 22805; 23517; 23522; 24977]%N);
   ((-5356126627201465, -49)%Z, [20976]%N);
   ((-2803151263259781, -48)%Z, [20979; 26053]%N);
   ((-6554414584629769, -49)%Z, [20984; 21327; 21332; 21604; 27888; 28689; 34578; 36068; 36145; 36779; 36782; 39198;
     39279; 39949; 40133]%N);
   ((-3290101530402419, -48)%Z, [20985; 26707; 27695; 32085; 32477; 34442; 35014; 35168; 38859; 38886; 39747]%N);
   ((-570327119801031, -46)%Z, [20986]%N);
   ((-2963805348021649, -48)%Z, [20989; 25105]%N);
   ((-7571551066735821, -49)%Z, [20991; 21359; 21472; 21568; 23396; 23461; 24283; 28889; 29270; 30090; 30164; 30331;
     30755; 31435; 32796; 34826; 34917; 35036; 37038; 37109; 38015; 38757; 38760; 39985; 40098]%N);
   ((-4578468774330171, -49)%Z, [20992]%N);
   ((-5885103722875881, -49)%Z, [20995; 29609]%N);
   ((-6312476582545137, -50)%Z, [20998]%N);
   ((-290440007749409, -45)%Z, [21002]%N);
   ((-621053099821603, -46)%Z, [21009]%N);
   ((-7012860576127173, -50)%Z, [21010; 21123]%N);
   ((-4627794481214367, -49)%Z, [21015]%N);
   ((-7522338614264757, -50)%Z, [21017; 21063]%N);
   ((-5545743674885641, -49)%Z, [21018; 21083; 39187; 39295]%N);
   ((-8681328249370007, -50)%Z, [21019; 21109]%N);
   ((-5763594213049311, -49)%Z, [21028; 23553; 40372; 40548]%N);
   ((-4054908970755865, -49)%Z, [21029; 21035; 37941; 38081]%N);
   ((-3590565728213051, -49)%Z, [21033]%N);
   ((-868458842101523, -47)%Z, [21046]%N);
   ((-6607229848509593, -49)%Z, [21047; 21514; 24265; 26429; 27542; 31204; 32763; 32920; 36973; 39131; 39134]%N);
   ((-3151020849390121, -49)%Z, [21048]%N);
   ((-4399263775798897, -49)%Z, [21051]%N);
   ((-8205335963720789, -50)%Z, [21058; 21137]%N);
   ((-3590671946862743, -48)%Z, [21069; 21465; 21501; 21704; 21713; 21854; 22064; 22859; 22894; 22954; 23255; 25042;
     25078; 25944; 27530; 27605; 28107; 30050; 30112; 30296; 30702; 31513; 31889; 32923; 32956; 35032; 35461; 35803;
     36002; 36129; 37439; 37575; 37678; 38049; 38079; 38178; 40812; 40841]%N);
   ((-7937733174108843, -50)%Z, [21095; 21127]%N);
   ((-3142820271322399, -48)%Z, [21103; 30141]%N);
   ((-6433859984531551, -49)%Z, [21106; 28342; 31637; 31729; 31852; 34180]%N);
   ((-5239924510914651, -50)%Z, [21147]%N);
   ((-2643303961005179, -48)%Z, [21150; 36774]%N);
   ((-2439070656012789, -48)%Z, [21151; 38654; 38695]%N);
   ((-6226327845262779, -49)%Z, [21152; 34752; 39381; 39550]%N);
   ((-769301010133375, -47)%Z, [21153; 21209]%N);
   ((-1779015667379849, -48)%Z, [21160; 21205]%N);
   ((-1488252810745697, -47)%Z, [21170; 21185; 32362; 32472; 35074; 38991; 39068]%N);
   ((-2731893213739745, -48)%Z, [21171; 21214; 31869; 38960; 39050]%N);
   ((-3004159229528721, -49)%Z, [21183; 21218]%N);
   ((-3377002842909497, -48)%Z, [21187; 21322; 26049; 26151; 26586; 28024; 31063; 31705; 33485; 33980; 38514;
     39749]%N);
   ((-5833779920632929, -49)%Z, [21195; 21235; 28459; 31616; 31777]%N);
   ((-5636739666215283, -49)%Z, [21202]%N);
   ((-5426320632863729, -49)%Z, [21213; 32988]%N);
   ((-5223156839242445, -49)%Z, [21220; 33796]%N);
   ((-6189995887794503, -49)%Z, [21242; 22434; 22697; 24453; 34972; 35178]%N);
   ((-1125448017098989, -47)%Z, [21253]%N);
   ((-3583271683431549, -49)%Z, [21270]%N);
   ((-2907698123898879, -48)%Z, [21271; 23731]%N);
   ((-2664401534562351, -48)%Z, [21273; 23506]%N);
   ((-2437364741841361, -48)%Z, [21280]%N);
   ((-2945122427036223, -48)%Z, [21283; 28966]%N);
   ((-5364183293562537, -49)%Z, [21290; 32177; 32434]%N);
   ((-553444127793259, -46)%Z, [21295; 27719]%N);
   ((-2670175582709127, -48)%Z, [21305; 24034; 38738]%N);
   ((-2854807023134107, -49)%Z, [21306; 21312]%N);
   ((-2378149854872473, -48)%Z, [21307; 37291]%N);
   ((-3213558994169819, -48)%Z, [21315; 23090; 23207; 32771; 33922; 37548; 38096; 38712; 39015; 39038; 39906; 40117;
     40169; 40480]%N);
   ((-5598558938765465, -49)%Z, [21321; 28867; 28916]%N);
   ((-2582001037118615, -48)%Z, [21326; 22418; 22744; 33775; 37559; 38144; 40643; 40644]%N);
   ((-1276652950787933, -47)%Z, [21329]%N);
   ((-4316650309941001, -49)%Z, [21333; 21934]%N);
   ((-5152742699846315, -49)%Z, [21335]%N);
   ((-1347002484724947, -47)%Z, [21340; 23186; 27663; 32232; 32534]%N);
   ((-18636558106689, -41)%Z, [21345]%N);
   ((-4835323316776535, -49)%Z, [21355; 26525; 34907]%N);
   ((-324433478161933, -45)%Z, [21360]%N);
   ((-2988296873333367, -48)%Z, [21361; 21548; 24310; 24367; 24398; 29141; 29503; 32893; 35527; 35848]%N);
   ((-633820093603433, -46)%Z, [21367]%N);
   ((-44995977117635, -42)%Z, [21375; 21628]%N);
   ((-1916616014024467, -48)%Z, [21378; 24288]%N);
   ((-4371632064369629, -49)%Z, [21381; 24307]%N);
   ((-8654322275486297, -50)%Z, [21382; 27511]%N);
   ((-4174244496267159, -49)%Z, [21387; 22739]%N);
   ((-6235789411736133, -49)%Z, [21397; 24257; 26262; 30136; 30462; 39675]%N);
   ((-6060869748283993, -49)%Z, [21402; 22378; 31262; 35427; 35811; 36617; 36733]%N);
   ((-7307515996979303, -50)%Z, [21407]%N);
   ((-2568809906840973, -48)%Z, [21413]%N);
   ((-5280455402263323, -49)%Z, [21414; 24264]%N);
   ((-878228383527523, -46)%Z, [21417; 21693; 25343; 31579; 31721; 34471; 34555; 34581; 36448; 37247; 37312; 37683;
     38192; 39791; 40065; 40240; 40383; 40386; 40505; 40538; 40542]%N);
   ((-5521084990500367, -49)%Z, [21422; 24285]%N);
   ((-4765679531024583, -49)%Z, [21439; 32291]%N);
   ((-1328905759191381, -47)%Z, [21442; 21443]%N);
   ((-5614154117580263, -49)%Z, [21449; 27280; 31799]%N);
   ((-3840837301794805, -49)%Z, [21451]%N);
   ((-4341487994220929, -49)%Z, [21457; 30332]%N);
   ((-1243620877815277, -47)%Z, [21460]%N);
   ((-4726443117909553, -49)%Z, [21464; 35722]%N);
   ((-1614172710254111, -48)%Z, [21475]%N);
   ((-659080319480505, -46)%Z, [21476; 29942]%N);
   ((-643055441628629, -46)%Z, [21477]%N);
   ((-2521762276807597, -48)%Z, [21482]%N);
   ((-5612575014291221, -49)%Z, [21485; 23457; 23529; 34631; 34821]%N);
   ((-2753919249039659, -48)%Z, [21487; 39764]%N);
   ((-933545509840093, -47)%Z, [21488]%N);
   ((-3313980520184429, -49)%Z, [21490]%N);
   ((-6340338870311019, -49)%Z, [21491; 36686; 36735; 37544; 38133]%N);
   ((-8263336948438515, -50)%Z, [21494; 33865]%N);
   ((-1844373460347777, -48)%Z, [21495; 34399]%N);
   ((-5016564227455989, -50)%Z, [21496]%N);
   ((-6240580504088265, -49)%Z, [21507; 26946; 28820; 29484; 30952; 31373; 31429; 40289; 40521]%N);
   ((-2342899296817803, -48)%Z, [21512]%N);
   ((-1707722719222243, -47)%Z, [21513; 23700; 25139; 30452; 32009; 32427; 32987; 33449; 33983; 34326; 34696]%N);
   ((-8598807818970201, -50)%Z, [21516]%N);
   ((-7840490344503081, -50)%Z, [21517]%N);
   ((-131376743855693, -44)%Z, [21518; 24460]%N);
   ((-4822777951850331, -49)%Z, [21519]%N);
   ((-209625782564499, -44)%Z, [21520; 24613; 24913; 25086; 30174; 30520; 32781; 35582; 35834; 36797; 36988]%N);
   ((-7296392802752223, -50)%Z, [21521]%N);
   ((-2609611430647237, -48)%Z, [21531; 34071]%N);
   ((-1396973450836929, -47)%Z, [21543]%N);
   ((-247274224660085, -44)%Z, [21544; 21895; 21945; 22136; 22317; 24191; 24291; 25130; 25972; 26195; 26313; 26964;
     27679; 28699; 28907; 29145; 29611; 30220; 30571; 30867; 31079; 31085; 31751; 32982; 33260; 33807; 33841; 33953;
     34633; 34796; 34819; 35537; 35836; 36010; 36115; 36138; 36163; 36865; 38471; 38580; 38606]%N);
   ((-6969847892017703, -50)%Z, [21578]%N);
   ((-5949719980333035, -50)%Z, [21592; 21729]%N);
   ((-1587986624270345, -47)%Z, [21602; 26413; 26440]%N);
   ((-324247562949495, -45)%Z, [21608; 32361; 32499; 36913]%N);
   ((-4276466015993085, -49)%Z, [21619]%N);
   ((-7816406005695863, -50)%Z, [21629]%N);
   ((-4656771072133183, -49)%Z, [21644]%N);
   ((-6791136720715151, -49)%Z, [21647; 26708; 28153; 31964; 35424; 36381; 40251; 40475; 40511; 40563]%N);
   ((-1388552311811891, -47)%Z, [21657; 22184]%N);
   ((-6844791581996573, -49)%Z, [21674; 26231; 26767; 29863; 34203; 35712; 35835; 38543; 38568; 39319]%N);
   ((-7045581725073431, -49)%Z, [21683; 24910; 25209; 25773; 26577; 26607; 26916; 26943; 27407; 31895; 33631; 34184;
     34921; 36033; 36146; 40421; 40502]%N);
   ((-2719063329727075, -49)%Z, [21697]%N);
   ((-37115735635259, -42)%Z, [21709; 38911]%N);
   ((-988584916350567, -47)%Z, [21733]%N);
   ((-5831448861594459, -49)%Z, [21736; 31103; 31108]%N);
   ((-2465983654362537, -48)%Z, [21767]%N);
   ((-6407363331486391, -49)%Z, [21777; 28844]%N);
   ((-2896615000181427, -48)%Z, [21809]%N);
   ((-7095504765979025, -50)%Z, [21830]%N);
   ((-1679793232544493, -47)%Z, [21833; 21987; 28129; 33181; 33848; 34770; 37813; 38227]%N);
   ((-2244181037573197, -48)%Z, [21839; 38382]%N);
   ((-5277839053850965, -49)%Z, [21857]%N);
   ((-6020400835777885, -49)%Z, [21878; 31903; 34259; 34330; 38649]%N);
   ((-2900996022112349, -48)%Z, [21880; 22063; 34656]%N);
   ((-798534806818707, -46)%Z, [21891; 27986; 28212; 28408; 31636; 35010; 38601; 40657]%N);
   ((-1656499146186617, -47)%Z, [21892; 23381; 24800; 28369; 29645; 30251; 30321; 31229; 31330; 32907]%N);
   ((-1377615744535021, -47)%Z, [21897; 31287]%N);
   ((-5900670151150419, -49)%Z, [21912; 22615; 28034]%N);
   ((-320098290482907, -45)%Z, [21916]%N);
   ((-2951653461951341, -48)%Z, [21947; 28061; 28551; 34109]%N);
   ((-7326488778797761, -49)%Z, [21981; 23869; 24833; 25554; 26973; 28385; 28415; 29042; 29060; 29980; 30111; 30184;
     30247; 30278; 31313; 31329; 33133; 33820; 34643; 34838; 37804; 37934; 38224; 38256; 38678; 39796; 40066]%N);
   ((-3566180421551025, -48)%Z, [21989; 23244; 25746; 26020; 27104; 27367; 27941; 28577; 29566; 31186; 31496; 31605;
     33390; 35294; 35316; 35469; 35748; 37470; 37877; 38074; 38119]%N);
   ((-6521770660636475, -49)%Z, [21994; 23617; 25022; 25958; 26367; 26379; 30718; 31020; 40058; 40097]%N);
   ((-5307310253101355, -49)%Z, [22043; 29482; 35948]%N);
   ((-2882830043378211, -48)%Z, [22065; 22225; 26894; 28790]%N);
   ((-5523772107551843, -49)%Z, [22068; 25805; 32592]%N);
   ((-1766513722166367, -47)%Z, [22116; 26803; 27017; 27384; 27784; 27785; 27927; 28378; 28414; 28810; 31071; 31629;
     32989; 33463; 33483; 33703; 35488; 35802]%N);
   ((-3198645251508293, -49)%Z, [22120]%N);
   ((-3110828017302397, -48)%Z, [22159; 22841; 22846; 27308; 36870; 38597; 38660]%N);
   ((-7625205928017243, -49)%Z, [22179; 22210; 24785; 24838; 26576; 27176; 27523; 28180; 28237; 28417; 29190; 30496;
     30606; 32755; 33324; 34728; 34766; 37723; 38203; 38831; 38857; 39405; 39559; 40039; 40162]%N);
   ((-2432935295237519, -48)%Z, [22218]%N);
   ((-5747334600392579, -49)%Z, [22235]%N);
   ((-1803346959899137, -48)%Z, [22240]%N);
   ((-1695205089532599, -48)%Z, [22242; 22296]%N);
   ((-6036910815329303, -49)%Z, [22250; 22257; 24110; 24171; 26222; 35261; 35272; 38593]%N);
   ((-3956665564932819, -49)%Z, [22253; 22290]%N);
   ((-2895094501518967, -49)%Z, [22269; 22283]%N);
   ((-8285823571333111, -50)%Z, [22270; 22294]%N);
   ((-1300558171068915, -47)%Z, [22278; 22291]%N);
   ((-2330123041439995, -48)%Z, [22280; 22900]%N);
   ((-7566972563749967, -50)%Z, [22303]%N);
   ((-6420455780958491, -49)%Z, [22307; 26391; 26487; 26601; 26690; 27431; 27472; 27946; 30270; 30318; 32854; 32902;
     36305]%N);
   ((-607608782742045, -46)%Z, [22312]%N);
   ((-5631698300371873, -50)%Z, [22320]%N);
   ((-1246888416679147, -48)%Z, [22330; 22580]%N);
   ((-5227914191104573, -49)%Z, [22334]%N);
   ((-2112757698699703, -48)%Z, [22336]%N);
   ((-4962430598691543, -49)%Z, [22346]%N);
   ((-6203347105349037, -49)%Z, [22350; 22737; 24091; 25670; 25850; 31469; 33592; 36040; 36158]%N);
   ((-3002180645295299, -48)%Z, [22351; 22750; 25463; 25511; 28071; 28567; 35930]%N);
   ((-6562880156991693, -49)%Z, [22352; 29626; 29701; 29807; 29885; 30133; 32709; 33308; 34047]%N);
   ((-1334602489189701, -47)%Z, [22353]%N);
   ((-3614980029832447, -49)%Z, [22359; 22602]%N);
   ((-400058096731551, -45)%Z, [22362; 22533; 28096; 30875; 30951; 33738; 33852; 37027; 37762; 38209; 38922; 39036;
     40020; 40157]%N);
   ((-8572193850354247, -50)%Z, [22363; 22727]%N);
   ((-5257334816378567, -49)%Z, [22365; 22761]%N);
   ((-5905956105042999, -49)%Z, [22367; 22707; 23016; 26447; 28149; 28170; 33261]%N);
   ((-1165789600400481, -47)%Z, [22369]%N);
   ((-6151743065838161, -49)%Z, [22372; 27745; 28821; 30827; 31174; 31240; 34579; 37648; 38181]%N);
   ((-3294534298813257, -48)%Z, [22387; 22865; 26720; 26895; 36215; 39235; 39309]%N);
   ((-6645410575959411, -49)%Z, [22402; 22987; 24555; 29995; 30442; 33286; 33421; 33633; 36671; 37855; 38130]%N);
   ((-6815694510598333, -50)%Z, [22411]%N);
   ((-6301499336521037, -49)%Z, [22427; 24070]%N);
   ((-6139548727234161, -49)%Z, [22435; 27985; 28222; 28872; 28908; 29180; 33147; 33193; 34451]%N);
   ((-752144519809507, -46)%Z, [22441; 22538; 31350; 33419; 33491]%N);
   ((-173658113526505, -44)%Z, [22443; 22666]%N);
   ((-5729586897370579, -49)%Z, [22467]%N);
   ((-7726462189194463, -50)%Z, [22478]%N);
   ((-6790297428696683, -50)%Z, [22495]%N);
   ((-6040271720556273, -49)%Z, [22496; 31909; 36106; 36190]%N);
   ((-4653317380604859, -49)%Z, [22522]%N);
   ((-8304283275622589, -50)%Z, [22530]%N);
   ((-1256641736895755, -47)%Z, [22534]%N);
   ((-6766112603046405, -49)%Z, [22545; 22649; 24545; 27686; 29312; 30300; 31072; 31786; 31967; 32960; 33081; 33632;
     34234; 34789; 39995; 40151]%N);
   ((-5283962889955233, -49)%Z, [22561]%N);
   ((-5195427296388007, -49)%Z, [22564; 33446; 34310]%N);
   ((-3464486791624837, -49)%Z, [22577; 25253]%N);
   ((-5228711006458299, -49)%Z, [22609]%N);
   ((-1155516338857543, -47)%Z, [22612]%N);
   ((-2638484816450335, -48)%Z, [22616]%N);
   ((-644793029767079, -46)%Z, [22622]%N);
   ((-5047555926008393, -49)%Z, [22645; 23576]%N);
   ((-6047054332162757, -49)%Z, [22654; 26729; 27137; 31361]%N);
   ((-3537934631782087, -49)%Z, [22659]%N);
   ((-2646861354033257, -48)%Z, [22661]%N);
   ((-2283761435701701, -48)%Z, [22675]%N);
   ((-2302214990150407, -48)%Z, [22681; 29254]%N);
   ((-2572565238157759, -48)%Z, [22696; 26007; 39717]%N);
   ((-8945898788521579, -50)%Z, [22721]%N);
   ((-6064377235975903, -49)%Z, [22741; 35109]%N);
   ((-2191705028703815, -48)%Z, [22756]%N);
   ((-6344126463526873, -50)%Z, [22763]%N);
   ((-7435762255144887, -50)%Z, [22768; 32882]%N);
   ((-4582755536010907, -49)%Z, [22771; 27580]%N);
   ((-5199197906287755, -49)%Z, [22774; 22778]%N);
   ((-2577068933865611, -48)%Z, [22781; 23551]%N);
   ((-8098379378492441, -50)%Z, [22788; 34389]%N);
   ((-6394568463600933, -49)%Z, [22797; 23425; 23527; 29087; 31568; 34542; 34875]%N);
   ((-4435681007488557, -49)%Z, [22799]%N);
   ((-2512727198952925, -48)%Z, [22806]%N);
   ((-5961739324071045, -49)%Z, [22810; 32365; 33575]%N);
   ((-4671097759488385, -49)%Z, [22812]%N);
   ((-341035563845345, -45)%Z, [22818; 26790]%N);
   ((-5168999760420043, -49)%Z, [22823]%N);
   ((-1051628879334193, -47)%Z, [22825]%N);
   ((-8555285010704303, -50)%Z, [22826]%N);
   ((-7688334741974061, -50)%Z, [22827]%N);
   ((-956679621212121, -47)%Z, [22830]%N);
   ((-4288193017850867, -49)%Z, [22833]%N);
   ((-6306987211104753, -50)%Z, [22836; 38957]%N);
   ((-6104474759012105, -49)%Z, [22839; 29282]%N);
   ((-1315175186352519, -47)%Z, [22855]%N);
   ((-6413871495918589, -49)%Z, [22856; 26462; 32180; 32512; 37499; 38000; 38053; 38124]%N);
   ((-2381093637228267, -48)%Z, [22863]%N);
   ((-2391736681155149, -48)%Z, [22870; 29518]%N);
   ((-4856736983798641, -49)%Z, [22871]%N);
   ((-7457206521283235, -50)%Z, [22899; 23383]%N);
   ((-8915084059824295, -50)%Z, [22902]%N);
   ((-5530546556973721, -49)%Z, [22904; 23014; 35065]%N);
   ((-2493140763755397, -48)%Z, [22909]%N);
   ((-5085817778933499, -49)%Z, [22915; 23476]%N);
   ((-6033569856244855, -49)%Z, [22918; 22941; 24090; 33643; 33905; 34085; 34093; 36685; 36761]%N);
   ((-8353400232194519, -50)%Z, [22919; 23142]%N);
   ((-8424506602142787, -50)%Z, [22920; 23229]%N);
   ((-25444910571751, -41)%Z, [22958; 23609; 29761; 31686; 35598; 35868; 36092; 36141; 37697; 38184]%N);
   ((-8945482328407031, -50)%Z, [22969]%N);
   ((-702764595919309, -46)%Z, [22974; 23637]%N);
   ((-5435455923849089, -49)%Z, [22982; 33322; 35373; 35774]%N);
   ((-4215803388450707, -49)%Z, [22992]%N);
   ((-2335696985496997, -48)%Z, [22993]%N);
   ((-127078901775909, -44)%Z, [22995]%N);
   ((-7832095028752017, -50)%Z, [22996]%N);
   ((-6143584228052247, -49)%Z, [23013; 23521; 30879; 34013; 34253; 34573]%N);
   ((-75416694219367, -43)%Z, [23035]%N);
   ((-2446438397061227, -48)%Z, [23041]%N);
   ((-1239494116483431, -47)%Z, [23043]%N);
   ((-1948169129163941, -48)%Z, [23064]%N);
   ((-2922791119362899, -48)%Z, [23077]%N);
   ((-4374947136436649, -49)%Z, [23110]%N);
   ((-5810892624150959, -49)%Z, [23130; 37411; 38041]%N);
   ((-637212014975081, -46)%Z, [23138]%N);
   ((-6010722374694481, -49)%Z, [23156; 23344; 26613; 26629]%N);
   ((-5761535892827827, -49)%Z, [23158; 23352]%N);
   ((-5399771904246419, -49)%Z, [23167]%N);
   ((-5536025431883515, -49)%Z, [23219; 25252; 25490; 31377; 31407; 34425; 35413; 35703; 35780; 40441; 40560]%N);
   ((-3086336491990679, -48)%Z, [23233; 24677; 27973; 28154; 32827; 34276]%N);
   ((-5347198599404155, -49)%Z, [23234; 26149]%N);
   ((-3059897035190457, -48)%Z, [23252; 23338; 23421; 36062; 36175; 38829]%N);
   ((-6212427140155179, -49)%Z, [23332; 23351; 27054; 33635; 37200]%N);
   ((-4447581743535835, -50)%Z, [23376]%N);
   ((-4525522299355455, -49)%Z, [23380]%N);
   ((-2234399678689899, -48)%Z, [23384]%N);
   ((-4804093847670043, -49)%Z, [23395]%N);
   ((-2714206793898139, -49)%Z, [23398; 23416]%N);
   ((-4607066753053077, -49)%Z, [23401]%N);
   ((-2298426223582671, -48)%Z, [23429]%N);
   ((-327346951888311, -45)%Z, [23431; 30423; 30428]%N);
   ((-2564769526796463, -48)%Z, [23432]%N);
   ((-8760796403069505, -50)%Z, [23433]%N);
   ((-4872607543916631, -49)%Z, [23447; 33655]%N);
   ((-7433477046991349, -50)%Z, [23448]%N);
   ((-5001518620657451, -49)%Z, [23449]%N);
   ((-888313622213873, -47)%Z, [23450]%N);
   ((-5034416974531063, -49)%Z, [23452]%N);
   ((-572623305474037, -46)%Z, [23453; 23542]%N);
   ((-7810160721986049, -50)%Z, [23454; 23526]%N);
   ((-8420842582475905, -50)%Z, [23458]%N);
   ((-7548641155955717, -50)%Z, [23460]%N);
   ((-5998071281539321, -49)%Z, [23462; 25381; 25582; 28866; 29211; 30495]%N);
   ((-3178920657426967, -48)%Z, [23466; 25010; 31105]%N);
   ((-4203410292528945, -49)%Z, [23467; 23470]%N);
   ((-145916367377071, -44)%Z, [23475]%N);
   ((-5774000238609099, -49)%Z, [23477; 40718]%N);
   ((-5218151375943257, -50)%Z, [23478]%N);
   ((-7441440908808085, -50)%Z, [23481]%N);
   ((-2683617260145971, -48)%Z, [23486; 36051]%N);
   ((-2860937566788613, -48)%Z, [23487; 32966; 33213]%N);
   ((-8886274814541071, -50)%Z, [23494]%N);
   ((-5355127603064531, -49)%Z, [23495; 28165]%N);
   ((-8781481873913297, -50)%Z, [23500]%N);
   ((-5708628641156177, -49)%Z, [23507; 26786; 31567; 33821; 34367]%N);
   ((-1209625958361991, -47)%Z, [23528]%N);
   ((-5013359304749883, -49)%Z, [23544]%N);
   ((-6270216291401807, -49)%Z, [23545; 23565; 27694; 30405; 36951; 36986]%N);
   ((-2562107805054443, -48)%Z, [23546]%N);
   ((-7384341392340531, -50)%Z, [23548; 23566]%N);
   ((-5626948985465721, -49)%Z, [23556; 33109; 39378; 39545]%N);
   ((-2019587039573927, -48)%Z, [23558; 23559]%N);
   ((-2434193754755787, -48)%Z, [23561]%N);
   ((-1514345994730335, -47)%Z, [23562; 27012; 27414]%N);
   ((-2099648229311307, -48)%Z, [23567]%N);
   ((-3084212142460229, -48)%Z, [23569; 29266; 34905; 36234; 39180; 39285; 39745]%N);
   ((-5175491247571399, -49)%Z, [23572; 29246]%N);
   ((-2571878713483983, -48)%Z, [23574]%N);
   ((-8895397886425481, -50)%Z, [23578]%N);
   ((-6742153670091715, -49)%Z, [23588; 24758; 26771; 31203; 32172; 32502; 33333; 33580; 38391]%N);
   ((-4650740946114953, -49)%Z, [23601]%N);
   ((-4792218391809793, -49)%Z, [23608; 23629]%N);
   ((-2770084933718551, -48)%Z, [23610]%N);
   ((-2738012475971917, -48)%Z, [23612]%N);
   ((-2575328204899557, -48)%Z, [23614]%N);
   ((-2789455184389171, -48)%Z, [23615]%N);
   ((-6992323722924069, -50)%Z, [23616]%N);
   ((-1861100193975605, -48)%Z, [23618; 23652]%N);
   ((-1206862440627079, -47)%Z, [23621]%N);
   ((-3308267509136557, -48)%Z, [23624; 26364; 27586; 28514; 30007; 32187; 32509; 36674; 39146; 39274]%N);
   ((-5955905593592069, -49)%Z, [23625; 23644; 26970; 31561]%N);
   ((-4345791660811377, -49)%Z, [23627]%N);
   ((-5558490256117261, -49)%Z, [23631; 35033]%N);
   ((-5482245456710385, -49)%Z, [23633; 25391; 33179; 35167]%N);
   ((-117496149670367, -44)%Z, [23646; 23660]%N);
   ((-3230832816921843, -48)%Z, [23653; 26432; 27578; 33527; 36196; 37321; 40329; 40529; 40806; 40840]%N);
   ((-3245458183227257, -48)%Z, [23663; 26023; 33487; 33673; 34311; 38274; 38377; 39699; 39714]%N);
   ((-7646060039740133, -50)%Z, [23665]%N);
   ((-1231470326001941, -47)%Z, [23679; 23996]%N);
   ((-4987319223571295, -49)%Z, [23681; 27506]%N);
   ((-1500301875272605, -47)%Z, [23703; 23831; 26032; 34558]%N);
   ((-8302635329829609, -50)%Z, [23707; 23798]%N);
   ((-4109287806990623, -49)%Z, [23721]%N);
   ((-2507496706582063, -48)%Z, [23725; 23994]%N);
   ((-8364529481693599, -50)%Z, [23736; 33402; 34269]%N);
   ((-4798496022757673, -49)%Z, [23777; 23805; 26753]%N);
   ((-5857637302229281, -49)%Z, [23782; 24018; 31077; 36764]%N);
   ((-8419536888363617, -50)%Z, [23792]%N);
   ((-5250662738829657, -49)%Z, [23830]%N);
   ((-3220341851939319, -48)%Z, [24005; 24020; 34647]%N);
   ((-2248386258134271, -48)%Z, [24029]%N);
   ((-2313623165632549, -48)%Z, [24030]%N);
   ((-1773976858487965, -48)%Z, [24037]%N);
   ((-2578820495066673, -48)%Z, [24039]%N);
   ((-4170946309824779, -49)%Z, [24046]%N);
   ((-1493397834949581, -47)%Z, [24049; 27010; 29989; 38518; 39479; 39578]%N);
   ((-8986181937083085, -50)%Z, [24052]%N);
   ((-5665441981877311, -49)%Z, [24055; 35565; 35861]%N);
   ((-5039521845361539, -49)%Z, [24062; 27807; 28317]%N);
   ((-3248469515537129, -49)%Z, [24065; 24163]%N);
   ((-3017498797320485, -49)%Z, [24066]%N);
   ((-273752807662917, -45)%Z, [24067]%N);
   ((-1148307628503805, -47)%Z, [24069; 24101]%N);
   ((-6920187984422291, -50)%Z, [24072; 24107]%N);
   ((-2746171742238215, -48)%Z, [24080; 24115]%N);
   ((-5757441693302277, -49)%Z, [24085; 32736]%N);
   ((-338792840696289, -45)%Z, [24086]%N);
   ((-337016164872543, -45)%Z, [24088; 31806]%N);
   ((-2744267732880831, -48)%Z, [24092; 24159; 36785]%N);
   ((-481085516806215, -46)%Z, [24093]%N);
   ((-7038897604130179, -50)%Z, [24102; 24118]%N);
   ((-3847243047660225, -49)%Z, [24109]%N);
   ((-5051616376042563, -49)%Z, [24125]%N);
   ((-3522096719063045, -49)%Z, [24133]%N);
   ((-5941580394343389, -49)%Z, [24148; 27060; 31227]%N);
   ((-4641955744641743, -49)%Z, [24149]%N);
   ((-4618278075721593, -49)%Z, [24178; 24185]%N);
   ((-6980048230804411, -50)%Z, [24179]%N);
   ((-7472858246575293, -50)%Z, [24180]%N);
   ((-5028239905585175, -49)%Z, [24184]%N);
   ((-5769814717815863, -49)%Z, [24187]%N);
   ((-1456128261370521, -47)%Z, [24188; 34809]%N);
   ((-4837309032956827, -49)%Z, [24196; 33674]%N);
   ((-2596588496888827, -48)%Z, [24198; 24950]%N);
   ((-4530114086260445, -49)%Z, [24202]%N);
   ((-4031325958811085, -49)%Z, [24207]%N);
   ((-6198861424616179, -49)%Z, [24208; 24300; 32110; 34164; 34314; 35088; 37528; 38125; 39621; 39631; 39854;
     40092]%N);
   ((-8828523699168477, -50)%Z, [24211; 24235; 25925]%N);
   ((-1047884193128893, -47)%Z, [24212; 25033]%N);
   ((-8726343370018951, -50)%Z, [24213]%N);
   ((-262352110188471, -45)%Z, [24215]%N);
   ((-4776645286827491, -49)%Z, [24217; 24287]%N);
   ((-6358888349023313, -50)%Z, [24220]%N);
   ((-5947266805858495, -49)%Z, [24222; 32954; 40848]%N);
   ((-5222017940630539, -50)%Z, [24230]%N);
   ((-8030607001153361, -50)%Z, [24237]%N);
   ((-86806759937569, -43)%Z, [24247]%N);
   ((-761656599207775, -46)%Z, [24248; 30545; 30652]%N);
   ((-5404110653687967, -49)%Z, [24275]%N);
   ((-8198452335664323, -50)%Z, [24311]%N);
   ((-5342299091076065, -49)%Z, [24314; 36766; 36781]%N);
   ((-5675932036089157, -49)%Z, [24320; 30473; 38283]%N);
   ((-4537773387451513, -49)%Z, [24322; 30064]%N);
   ((-6904104279378591, -49)%Z, [24324; 26604; 26974; 31598; 33422; 34500; 37904; 38243; 39336; 39663]%N);
   ((-5964679017192003, -49)%Z, [24330; 33150; 37573; 38156; 39472]%N);
   ((-3048870645994761, -49)%Z, [24335]%N);
   ((-6194411204180863, -49)%Z, [24339; 25615; 30116; 31224]%N);
   ((-1401186316061147, -47)%Z, [24341; 24635; 31192; 32317; 39608]%N);
   ((-7652908440215677, -50)%Z, [24351]%N);
   ((-2097924321377307, -48)%Z, [24352; 24373]%N);
   ((-5394395072985665, -49)%Z, [24358]%N);
   ((-2870678157307903, -48)%Z, [24359; 27667; 39711]%N);
   ((-5077222956208611, -49)%Z, [24375; 24378; 29237]%N);
   ((-7523868929601919, -50)%Z, [24377; 24392]%N);
   ((-6100709193444179, -49)%Z, [24402; 27512; 35370; 35775; 37259]%N);
   ((-635572735489759, -46)%Z, [24403; 30070]%N);
   ((-2187036427306249, -48)%Z, [24405; 37636]%N);
   ((-7201824537776715, -50)%Z, [24418]%N);
   ((-2269237441405673, -48)%Z, [24425]%N);
   ((-499072684722293, -46)%Z, [24433]%N);
   ((-536324768518259, -46)%Z, [24441]%N);
   ((-8155325254627571, -50)%Z, [24449; 24501]%N);
   ((-8169866599463491, -50)%Z, [24452; 24465]%N);
   ((-7096390825690309, -50)%Z, [24459]%N);
   ((-4454712113953555, -49)%Z, [24466]%N);
   ((-2536184954656793, -48)%Z, [24471]%N);
   ((-4455923193560307, -49)%Z, [24503]%N);
   ((-178104816634995, -44)%Z, [24509]%N);
   ((-97205743667119, -44)%Z, [24515]%N);
   ((-1286799087505657, -47)%Z, [24518; 25014]%N);
   ((-5412889778248983, -49)%Z, [24524]%N);
   ((-1890796184237937, -48)%Z, [24535]%N);
   ((-6447591151931675, -49)%Z, [24537; 35970; 38662]%N);
   ((-2962428939524851, -48)%Z, [24551; 24962]%N);
   ((-6665518068896551, -49)%Z, [24561; 25429; 26517; 29441; 29935; 29964; 32058; 32448; 32660; 35042; 35123; 35477;
     35806]%N);
   ((-7703016723227961, -50)%Z, [24565]%N);
   ((-6881779372254515, -50)%Z, [24577; 24907]%N);
   ((-6468837067811723, -49)%Z, [24594; 35335; 35475; 35558; 35867; 38665; 40692]%N);
   ((-8203611107149289, -50)%Z, [24605]%N);
   ((-2644075469175309, -49)%Z, [24615]%N);
   ((-730103947251835, -46)%Z, [24616; 33510; 39522; 39540]%N);
   ((-5455375065715463, -49)%Z, [24618]%N);
   ((-6328965757167637, -49)%Z, [24656; 25345; 26709; 37507; 38131]%N);
   ((-5648381586790499, -49)%Z, [24680; 31783; 36420; 39493; 39537]%N);
   ((-5782465810971023, -49)%Z, [24681; 26694]%N);
   ((-3316617916835231, -49)%Z, [24687; 30446]%N);
   ((-5413996858160193, -49)%Z, [24694; 24801; 31292]%N);
   ((-5860079605207135, -49)%Z, [24735; 26087; 33290; 34183; 35363; 35776]%N);
   ((-79350668488081, -43)%Z, [24739; 36600; 36724]%N);
   ((-6136127385783813, -50)%Z, [24773]%N);
   ((-8950490045662465, -50)%Z, [24815; 24931]%N);
   ((-1863055367257457, -48)%Z, [24819]%N);
   ((-7635864916359793, -50)%Z, [24847]%N);
   ((-169361411011129, -44)%Z, [24859; 29233]%N);
   ((-4077146869189371, -49)%Z, [24863]%N);
   ((-5967634141843599, -49)%Z, [24868; 24996; 26647]%N);
   ((-2429399914734309, -48)%Z, [24895; 39000]%N);
   ((-5209891985466727, -49)%Z, [24935; 30008]%N);
   ((-5256496469308633, -49)%Z, [24942; 34385]%N);
   ((-3227292204493119, -48)%Z, [25096; 30307; 30316; 36575; 36719; 40853; 40859]%N);
   ((-2278513755418803, -48)%Z, [25103; 25138]%N);
   ((-4857148948656705, -49)%Z, [25104; 38553]%N);
   ((-1168591172510779, -47)%Z, [25106]%N);
   ((-8323290266899231, -50)%Z, [25112; 25136]%N);
   ((-4929150205498075, -49)%Z, [25114]%N);
   ((-758932307604169, -46)%Z, [25119]%N);
   ((-1519657473700347, -47)%Z, [25140; 27424; 34758; 36394; 38797]%N);
   ((-7097922936811603, -50)%Z, [25142; 25143]%N);
   ((-1812756090479573, -48)%Z, [25151]%N);
   ((-3662032143362849, -49)%Z, [25152]%N);
   ((-1270375991269577, -47)%Z, [25159]%N);
   ((-6778485627559991, -49)%Z, [25161; 26999; 29157; 30862; 37811; 37956; 38136; 38221; 40748]%N);
   ((-7478501301225333, -50)%Z, [25163]%N);
   ((-4180032286023879, -49)%Z, [25165]%N);
   ((-348589185552079, -45)%Z, [25171; 27682; 27691]%N);
   ((-4858386655172331, -49)%Z, [25176; 26031]%N);
   ((-1351300146543615, -47)%Z, [25187]%N);
   ((-8183751191314231, -50)%Z, [25216]%N);
   ((-5369277898046945, -49)%Z, [25226]%N);
   ((-1280558056488693, -47)%Z, [25240]%N);
   ((-5040662575140763, -49)%Z, [25242; 25771]%N);
   ((-180768820187375, -44)%Z, [25265; 33891; 34474; 37051; 37168; 39025; 39045]%N);
   ((-1212343176969693, -47)%Z, [25285; 25812]%N);
   ((-5368255282046541, -49)%Z, [25289]%N);
   ((-8311373348843645, -50)%Z, [25300]%N);
   ((-6050476530868303, -49)%Z, [25307]%N);
   ((-647208977278229, -46)%Z, [25331]%N);
   ((-741993855986997, -46)%Z, [25346; 25499]%N);
   ((-977260935038865, -47)%Z, [25351]%N);
   ((-5877479001982341, -49)%Z, [25353]%N);
   ((-6832078656555207, -50)%Z, [25454; 25818]%N);
   ((-8200598951961559, -50)%Z, [25480]%N);
   ((-2527853163115887, -48)%Z, [25484]%N);
   ((-2872667388037433, -48)%Z, [25505; 32993; 37319]%N);
   ((-5908617811909027, -49)%Z, [25551; 34593; 34847]%N);
   ((-2326085421312599, -48)%Z, [25552]%N);
   ((-3026959830291441, -48)%Z, [25588; 28525]%N);
   ((-3249236427562633, -48)%Z, [25688; 26818; 27386; 28044; 28263; 33335]%N);
   ((-5525120491318453, -49)%Z, [25806]%N);
   ((-8812500362042667, -50)%Z, [25903]%N);
   ((-4744031549706667, -49)%Z, [25910; 31934]%N);
   ((-441611642206273, -46)%Z, [25919]%N);
   ((-2250676902247081, -48)%Z, [25928]%N);
   ((-5262391287081187, -49)%Z, [25932; 25973]%N);
   ((-5454183636797897, -49)%Z, [25943; 28192; 36133]%N);
   ((-1992369981713157, -48)%Z, [25945]%N);
   ((-3030149890475645, -49)%Z, [25968; 25976]%N);
   ((-7517994451562385, -50)%Z, [25991]%N);
   ((-5201472454648415, -49)%Z, [26001]%N);
   ((-804889322158553, -47)%Z, [26009]%N);
   ((-5667176805911005, -49)%Z, [26029; 26039; 38684]%N);
   ((-3081302826153341, -49)%Z, [26041]%N);
   ((-3790630256381383, -49)%Z, [26045]%N);
   ((-5031039264677381, -49)%Z, [26059; 40723]%N);
   ((-3390714690325623, -49)%Z, [26063]%N);
   ((-35083762159383, -42)%Z, [26071]%N);
   ((-3829766479330383, -49)%Z, [26085]%N);
   ((-2937480103021213, -48)%Z, [26086]%N);
   ((-4763581578459515, -49)%Z, [26088]%N);
   ((-2946416567139903, -48)%Z, [26097; 26202; 31499; 31565; 36606; 36732]%N);
   ((-8005395143368649, -50)%Z, [26102; 26178]%N);
   ((-7948159039016779, -50)%Z, [26126]%N);
   ((-1755468758766219, -48)%Z, [26131]%N);
   ((-3680124672449825, -49)%Z, [26143]%N);
   ((-1564515549095521, -48)%Z, [26159]%N);
   ((-2894449797376299, -48)%Z, [26185; 26187; 29785]%N);
   ((-7497441693619313, -50)%Z, [26223]%N);
   ((-4706542016451951, -49)%Z, [26230]%N);
   ((-1319895483588965, -47)%Z, [26234; 34299]%N);
   ((-1516976678582469, -47)%Z, [26247; 33489]%N);
   ((-6089561305330175, -49)%Z, [26257; 28193]%N);
   ((-5362158291546577, -49)%Z, [26263; 32617; 35059]%N);
   ((-5048713069177211, -49)%Z, [26292]%N);
   ((-2116200654160757, -48)%Z, [26354]%N);
   ((-8722237987505547, -50)%Z, [26376]%N);
   ((-8349960116315275, -50)%Z, [26381]%N);
   ((-2336141770909609, -48)%Z, [26395]%N);
   ((-8678368382275671, -50)%Z, [26397]%N);
   ((-6611497290531055, -50)%Z, [26399]%N);
   ((-8215958762351519, -50)%Z, [26408]%N);
   ((-5128870863658785, -49)%Z, [26411]%N);
   ((-3032498534922451, -49)%Z, [26412]%N);
   ((-776442761987463, -47)%Z, [26415; 34899]%N);
   ((-584072547259861, -46)%Z, [26421]%N);
   ((-5787111738119971, -50)%Z, [26426; 27231]%N);
   ((-3327646722734631, -49)%Z, [26435; 27402]%N);
   ((-2292392093343519, -48)%Z, [26438; 26751]%N);
   ((-5218439353925937, -49)%Z, [26441]%N);
   ((-2640665113770909, -48)%Z, [26446; 29577]%N);
   ((-7217687566003561, -50)%Z, [26448]%N);
   ((-1009745338516943, -47)%Z, [26449]%N);
   ((-1335818896834313, -47)%Z, [26454; 32618]%N);
   ((-5213761072541643, -49)%Z, [26463; 26825]%N);
   ((-2233677021099853, -48)%Z, [26465; 26781]%N);
   ((-1393617961045417, -47)%Z, [26472; 26881; 26954; 27112; 29750]%N);
   ((-1252391182809021, -47)%Z, [26479]%N);
   ((-4588863552026275, -49)%Z, [26494]%N);
   ((-815402529681945, -47)%Z, [26495]%N);
   ((-4517801202760049, -49)%Z, [26497; 26997]%N);
   ((-6120812032065627, -50)%Z, [26500; 27083]%N);
   ((-7462548351559565, -50)%Z, [26519]%N);
   ((-6691656125086641, -50)%Z, [26524]%N);
   ((-5424059786638571, -49)%Z, [26530; 27166; 35044; 35122]%N);
   ((-5471097568596381, -49)%Z, [26531; 26839]%N);
   ((-8649830220882429, -50)%Z, [26538; 27085]%N);
   ((-8730119833073259, -50)%Z, [26550]%N);
   ((-5514422783119221, -49)%Z, [26564; 32353; 32483]%N);
   ((-5633457149897919, -49)%Z, [26575; 30528]%N);
   ((-146336471379293, -44)%Z, [26609]%N);
   ((-5617325675002339, -49)%Z, [26611; 28085]%N);
   ((-168675468913581, -44)%Z, [26612; 30036]%N);
   ((-6280452027082781, -49)%Z, [26623; 27016; 27354; 31607; 38290; 38386]%N);
   ((-7159447425362341, -50)%Z, [26631; 27161]%N);
   ((-1455554991786211, -47)%Z, [26632; 26855; 28792; 34523; 37664; 38189]%N);
   ((-1334844931090061, -47)%Z, [26639; 27396]%N);
   ((-2081482250577169, -48)%Z, [26641; 27193]%N);
   ((-361671676240045, -45)%Z, [26643]%N);
   ((-3892611580125339, -49)%Z, [26657]%N);
   ((-1420758899946811, -47)%Z, [26666]%N);
   ((-4895076679506629, -49)%Z, [26680]%N);
   ((-4754923303305183, -49)%Z, [26681]%N);
   ((-1530423307527787, -48)%Z, [26684]%N);
   ((-4937168899270623, -49)%Z, [26691]%N);
   ((-7237150843041939, -50)%Z, [26696]%N);
   ((-5007946282722907, -49)%Z, [26700]%N);
   ((-2721786373811297, -48)%Z, [26704; 26829; 34122]%N);
   ((-5645030684316813, -49)%Z, [26705; 27133; 36020; 36149; 37569; 38109]%N);
   ((-4570487072829023, -49)%Z, [26725; 27211]%N);
   ((-5776104726867139, -49)%Z, [26728; 27123]%N);
   ((-5509149208691031, -49)%Z, [26742; 32048; 32454; 34433; 34811]%N);
   ((-6363798512808659, -49)%Z, [26775; 29422; 29509; 31319; 31520]%N);
   ((-1238634085506369, -47)%Z, [26799]%N);
   ((-3972108314186307, -49)%Z, [26800]%N);
   ((-2771474936428325, -48)%Z, [26827]%N);
   ((-1272229859853913, -47)%Z, [26834]%N);
   ((-5229508951245931, -49)%Z, [26842]%N);
   ((-6265167379052761, -49)%Z, [26874; 27084; 35056]%N);
   ((-1227114909570565, -47)%Z, [26885]%N);
   ((-4978559184834741, -49)%Z, [26898; 30044]%N);
   ((-2121134129608989, -48)%Z, [27004; 27155]%N);
   ((-2809459089734317, -48)%Z, [27036]%N);
   ((-6635619895209849, -49)%Z, [27053; 27225; 37740; 38201; 39019; 39076; 39185; 39293; 39683; 39986; 40140]%N);
   ((-2546332065702945, -48)%Z, [27099; 27323]%N);
   ((-3654341517540001, -49)%Z, [27169]%N);
   ((-670143564446829, -46)%Z, [27224]%N);
   ((-6317817869053633, -49)%Z, [27264; 30651; 30746; 30831]%N);
   ((-36935558935347, -42)%Z, [27425]%N);
   ((-6176953992851055, -49)%Z, [27426; 27489; 30402; 39110; 39129]%N);
   ((-5295515543828385, -49)%Z, [27442]%N);
   ((-449777459213571, -46)%Z, [27454]%N);
   ((-2265749478846487, -48)%Z, [27468]%N);
   ((-353766834866123, -45)%Z, [27490; 34174]%N);
   ((-5395466338681767, -49)%Z, [27491]%N);
   ((-4595038567725417, -49)%Z, [27493]%N);
   ((-2501826515310339, -48)%Z, [27494]%N);
   ((-1262033550069875, -47)%Z, [27495; 34223]%N);
   ((-5615737662797205, -49)%Z, [27513; 30126; 30241]%N);
   ((-5278709819613783, -49)%Z, [27515; 30871]%N);
   ((-6959310983261221, -50)%Z, [27573]%N);
   ((-2323946001511675, -48)%Z, [27583]%N);
   ((-7863825892921511, -50)%Z, [27597]%N);
   ((-71098391091535, -43)%Z, [27602]%N);
   ((-2448421399228063, -48)%Z, [27604]%N);
   ((-6686370451063669, -49)%Z, [27617; 27656; 27964; 31402; 34268]%N);
   ((-1325005693324309, -47)%Z, [27631]%N);
   ((-756769025772777, -47)%Z, [27665]%N);
   ((-6312516749502807, -50)%Z, [27668; 27683]%N);
   ((-2417463506337345, -48)%Z, [27675]%N);
   ((-5817661643021549, -49)%Z, [27687; 34928; 37233; 37292]%N);
   ((-6737228609652443, -50)%Z, [27700]%N);
   ((-5141021334323487, -49)%Z, [27713]%N);
   ((-7479067165391057, -50)%Z, [27714]%N);
   ((-567985281654421, -46)%Z, [27721; 28450]%N);
   ((-2861896596597839, -48)%Z, [27728; 39177; 39287]%N);
   ((-83232831396329, -43)%Z, [27735]%N);
   ((-6135541949085201, -49)%Z, [27739; 37397; 38062; 38772]%N);
   ((-2567456659154059, -48)%Z, [27743]%N);
   ((-8883512836864441, -50)%Z, [27744]%N);
   ((-658865124376473, -46)%Z, [27748; 28271]%N);
   ((-5380651011190327, -49)%Z, [27773]%N);
   ((-2397951316201757, -48)%Z, [27801]%N);
   ((-2297648667903925, -48)%Z, [27819]%N);
   ((-8072196734931859, -50)%Z, [27827]%N);
   ((-3498591547219393, -49)%Z, [27833]%N);
   ((-3715272860574101, -49)%Z, [27835]%N);
   ((-2955646081755351, -48)%Z, [27836]%N);
   ((-2995925388386385, -48)%Z, [27839]%N);
   ((-2361105807624401, -48)%Z, [27849]%N);
   ((-2395375710208503, -48)%Z, [27850]%N);
   ((-5544345040741557, -49)%Z, [27852; 29432]%N);
   ((-367747271292317, -46)%Z, [27861]%N);
   ((-3122706361099757, -48)%Z, [27870; 28632; 32666; 33683]%N);
   ((-5209121348859837, -49)%Z, [27873]%N);
   ((-1069260709287, -37)%Z, [27874]%N);
   ((-2290241004158205, -48)%Z, [27877]%N);
   ((-285547253693071, -45)%Z, [27882; 28122]%N);
   ((-1487532924325171, -47)%Z, [27891; 33540]%N);
   ((-5944416420257899, -49)%Z, [27893; 30782; 31019; 31487; 38808]%N);
   ((-1636518608194273, -47)%Z, [27899; 28681; 34481; 34693; 38990; 39066; 39145; 39165; 39272; 39281; 40180;
     40483]%N);
   ((-2331287365651221, -48)%Z, [27901; 28580]%N);
   ((-8228883915387961, -50)%Z, [27915]%N);
   ((-4494387590888475, -49)%Z, [27934]%N);
   ((-9005778446406459, -50)%Z, [27954]%N);
   ((-1280228460346587, -47)%Z, [27963]%N);
   ((-4014564963306543, -49)%Z, [27966]%N);
   ((-3455769395030415, -49)%Z, [27969]%N);
   ((-2452654185409025, -48)%Z, [27974; 28479]%N);
   ((-5461706479181279, -50)%Z, [27982; 28639]%N);
   ((-1242231802050789, -47)%Z, [28010]%N);
   ((-8311610455279573, -50)%Z, [28023]%N);
   ((-5838471197393491, -49)%Z, [28053; 38780]%N);
   ((-5727649029868611, -49)%Z, [28059; 28644]%N);
   ((-5640041434937821, -49)%Z, [28065; 28198; 29808; 30249; 34453; 34870]%N);
   ((-7446818285903109, -50)%Z, [28070; 28516]%N);
   ((-5358130009932941, -49)%Z, [28079]%N);
   ((-8106453203415293, -50)%Z, [28082]%N);
   ((-1229275770022755, -47)%Z, [28145]%N);
   ((-5716159856534441, -49)%Z, [28195; 28287; 28629]%N);
   ((-8199310491122669, -50)%Z, [28201; 28331]%N);
   ((-2407538368997365, -48)%Z, [28207]%N);
   ((-8551170519386683, -50)%Z, [28216; 36938]%N);
   ((-2310896994426505, -48)%Z, [28246]%N);
   ((-2443164126211527, -48)%Z, [28286; 28771]%N);
   ((-1558279954167431, -48)%Z, [28304]%N);
   ((-2874670777111913, -48)%Z, [28330; 33016]%N);
   ((-5401937099044091, -49)%Z, [28392; 28657; 30137; 31165]%N);
   ((-4976008433060605, -49)%Z, [28393; 28760]%N);
   ((-5601643603762435, -49)%Z, [28404; 31423]%N);
   ((-1341553901517735, -47)%Z, [28422]%N);
   ((-4768137065126297, -49)%Z, [28436; 38647; 39318]%N);
   ((-8973304557969801, -50)%Z, [28448]%N);
   ((-275068369612519, -45)%Z, [28526]%N);
   ((-3238050519481537, -48)%Z, [28748; 29298; 31809; 31839; 40055; 40132]%N);
   ((-4322359147124567, -49)%Z, [28779]%N);
   ((-4447300817345071, -49)%Z, [28783; 29128]%N);
   ((-5104050024198843, -49)%Z, [28784]%N);
   ((-1175457777672429, -47)%Z, [28789; 38728]%N);
   ((-5161166048322719, -49)%Z, [28797; 28798]%N);
   ((-1205888474882827, -47)%Z, [28809; 29200]%N);
   ((-8963530691021581, -50)%Z, [28814]%N);
   ((-8261520980453153, -50)%Z, [28845]%N);
   ((-8436630173336039, -50)%Z, [28846]%N);
   ((-1479842763896675, -48)%Z, [28857; 40670]%N);
   ((-2627411755653239, -48)%Z, [28891; 29165; 29786]%N);
   ((-4615051992661097, -49)%Z, [28895; 29017]%N);
   ((-4977027347281607, -49)%Z, [28909; 29105]%N);
   ((-5007407832224257, -49)%Z, [28911]%N);
   ((-5489801945381137, -49)%Z, [28919]%N);
   ((-5216875603049823, -49)%Z, [28976; 33018; 33285]%N);
   ((-5422932759328367, -49)%Z, [28982]%N);
   ((-5102136311466095, -49)%Z, [29028]%N);
   ((-4752522660206977, -49)%Z, [29031]%N);
   ((-1382977821200475, -47)%Z, [29066]%N);
   ((-2379358274291839, -48)%Z, [29081]%N);
   ((-1114740585128449, -47)%Z, [29151; 33829]%N);
   ((-8440877855457343, -50)%Z, [29238]%N);
   ((-7784035188727283, -50)%Z, [29239; 29242]%N);
   ((-4715122283451549, -49)%Z, [29240; 37832; 38142]%N);
   ((-5564249385152545, -49)%Z, [29241; 34430; 34662]%N);
   ((-3672285073785297, -49)%Z, [29255]%N);
   ((-2649559217914093, -48)%Z, [29256]%N);
   ((-3984914982844301, -49)%Z, [29260]%N);
   ((-5180592447103265, -49)%Z, [29273]%N);
   ((-4687930405582115, -49)%Z, [29275; 38590; 38627]%N);
   ((-2815096831383775, -48)%Z, [29287; 32948; 39194]%N);
   ((-5553062994866541, -50)%Z, [29289]%N);
   ((-5719963586907197, -49)%Z, [29305; 29926; 30113; 30221; 32222; 32526; 37492; 37969]%N);
   ((-5693861894088777, -49)%Z, [29356; 33136; 35412; 35791]%N);
   ((-4889374761345525, -49)%Z, [29359]%N);
   ((-3895889752166789, -49)%Z, [29366; 29376]%N);
   ((-4925415863755189, -49)%Z, [29425; 29508]%N);
   ((-796227428164845, -46)%Z, [29426; 29499; 31546; 31627; 32922]%N);
   ((-5403022827352519, -49)%Z, [29454; 29557]%N);
   ((-2578118562092653, -48)%Z, [29483; 35987]%N);
   ((-8309005026752799, -50)%Z, [29486; 29563]%N);
   ((-5425189074787423, -49)%Z, [29492]%N);
   ((-1536912216578153, -47)%Z, [29549; 29562; 33437; 40407; 40485]%N);
   ((-2967257520954381, -49)%Z, [29575]%N);
   ((-3772937481738827, -49)%Z, [29579]%N);
   ((-4941939690140453, -49)%Z, [29615; 29872]%N);
   ((-575160258660413, -46)%Z, [29664]%N);
   ((-601645973017035, -46)%Z, [29677]%N);
   ((-6680406267303553, -50)%Z, [29699]%N);
   ((-6297038573345557, -50)%Z, [29702]%N);
   ((-596149198386015, -46)%Z, [29748]%N);
   ((-143732933878493, -44)%Z, [29827]%N);
   ((-37491152221127, -42)%Z, [29916]%N);
   ((-5376488700521129, -49)%Z, [29923; 36070; 36171; 40595]%N);
   ((-2390654083756313, -48)%Z, [29943]%N);
   ((-3153393687206075, -49)%Z, [29983]%N);
   ((-3194782393821505, -49)%Z, [29992]%N);
   ((-8804757119456529, -50)%Z, [30000]%N);
   ((-8858955278892115, -50)%Z, [30001]%N);
   ((-2442297381949405, -48)%Z, [30002; 31570]%N);
   ((-8192036934222165, -50)%Z, [30005; 38651]%N);
   ((-8113391599656255, -50)%Z, [30011; 30059]%N);
   ((-6298743491389871, -50)%Z, [30028]%N);
   ((-7440237264301083, -50)%Z, [30053]%N);
   ((-5100864107640089, -49)%Z, [30068; 30087]%N);
   ((-2857133793000885, -48)%Z, [30095; 36807; 36942]%N);
   ((-5778217111910123, -49)%Z, [30097]%N);
   ((-2184427743418751, -48)%Z, [30103; 30274]%N);
   ((-2713727235005607, -48)%Z, [30123]%N);
   ((-7449571772007291, -50)%Z, [30149]%N);
   ((-8893408311942669, -50)%Z, [30151]%N);
   ((-5314693309133191, -49)%Z, [30165; 39438; 39569]%N);
   ((-579267108699729, -46)%Z, [30171]%N);
   ((-6250286778217469, -49)%Z, [30187; 30279; 35998; 36011; 36126; 36143]%N);
   ((-4853042803877249, -49)%Z, [30244]%N);
   ((-1287317458214543, -47)%Z, [30284; 38519]%N);
   ((-4539880501402839, -49)%Z, [30333]%N);
   ((-7941823641484877, -50)%Z, [30340]%N);
   ((-2422459643481945, -48)%Z, [30343]%N);
   ((-8212044853751337, -50)%Z, [30382]%N);
   ((-5230308028673811, -49)%Z, [30385; 30394]%N);
   ((-2530208615997005, -48)%Z, [30406]%N);
   ((-866556422068367, -47)%Z, [30410]%N);
   ((-790420527359665, -46)%Z, [30415; 30430; 37938; 38255; 38472; 38515]%N);
   ((-288423999066311, -45)%Z, [30416; 40573]%N);
   ((-8578187475936989, -50)%Z, [30417; 30435]%N);
   ((-2656419223820765, -48)%Z, [30418; 31735; 36848]%N);
   ((-2803932054264493, -48)%Z, [30420]%N);
   ((-7234505850347635, -50)%Z, [30424; 30436]%N);
   ((-2246653432489433, -48)%Z, [30431]%N);
   ((-3013473419612809, -48)%Z, [30450]%N);
   ((-8306169600515077, -50)%Z, [30456]%N);
   ((-509244959069379, -46)%Z, [30465]%N);
   ((-5795407759184795, -49)%Z, [30518]%N);
   ((-5661988290348987, -49)%Z, [30519]%N);
   ((-8907409734782743, -50)%Z, [30524]%N);
   ((-3845122448694047, -49)%Z, [30555; 31070]%N);
   ((-8772876227634311, -50)%Z, [30563]%N);
   ((-3090633903353123, -48)%Z, [30629; 40255; 40509]%N);
   ((-2116608490469795, -48)%Z, [30693]%N);
   ((-4850186219513725, -49)%Z, [30697]%N);
   ((-348037983071357, -45)%Z, [30701; 40285; 40517]%N);
   ((-7124706067129939, -50)%Z, [30707]%N);
   ((-5478504911696405, -49)%Z, [30717; 30789]%N);
   ((-1038094320080873, -47)%Z, [30719; 31014]%N);
   ((-2108958878479243, -48)%Z, [30721; 30908]%N);
   ((-2714864509185937, -48)%Z, [30722]%N);
   ((-316610284629929, -45)%Z, [30740]%N);
   ((-5573000078759269, -49)%Z, [30742; 30938]%N);
   ((-3619032176072129, -49)%Z, [30784; 30990]%N);
   ((-4720592546104527, -49)%Z, [30861; 31001]%N);
   ((-155740488286033, -44)%Z, [30865]%N);
   ((-2522624375419377, -48)%Z, [30897; 40572]%N);
   ((-1243747839924343, -47)%Z, [30899]%N);
   ((-5136941968984249, -49)%Z, [30913]%N);
   ((-6217022675499259, -49)%Z, [30970; 33541; 34510; 34851]%N);
   ((-2723543767512045, -48)%Z, [30977]%N);
   ((-4793321134480569, -49)%Z, [31034]%N);
   ((-2316929811315833, -48)%Z, [31036; 31150; 33108]%N);
   ((-8613594131493841, -50)%Z, [31038]%N);
   ((-4891999241406291, -49)%Z, [31062]%N);
   ((-6672857686534369, -50)%Z, [31080]%N);
   ((-1339281856845561, -47)%Z, [31096; 31117]%N);
   ((-2787973733723535, -48)%Z, [31119; 37679; 38169]%N);
   ((-8548533407143581, -50)%Z, [31163; 38626]%N);
   ((-1369937250124397, -47)%Z, [31169]%N);
   ((-573352521783909, -46)%Z, [31179]%N);
   ((-7460542193998181, -50)%Z, [31181; 31278]%N);
   ((-8133656940588945, -50)%Z, [31185]%N);
   ((-148699082811997, -44)%Z, [31199]%N);
   ((-7021196441428959, -50)%Z, [31215; 31309]%N);
   ((-521857174718347, -46)%Z, [31216; 31281]%N);
   ((-4165491912993813, -49)%Z, [31237; 31246]%N);
   ((-6185694922181497, -50)%Z, [31243]%N);
   ((-4782389723951783, -49)%Z, [31291]%N);
   ((-5141704111791565, -49)%Z, [31295]%N);
   ((-4825498460889405, -49)%Z, [31348; 36093; 36187]%N);
   ((-7801836939887237, -50)%Z, [31354]%N);
   ((-5725717810295663, -49)%Z, [31382]%N);
   ((-2522336715734953, -48)%Z, [31383]%N);
   ((-1252796961528439, -47)%Z, [31389; 31401]%N);
   ((-5023235873050671, -49)%Z, [31391]%N);
   ((-245506390163657, -45)%Z, [31449]%N);
   ((-4192801544904287, -49)%Z, [31456]%N);
   ((-4515774985983209, -49)%Z, [31461]%N);
   ((-8013554531008401, -50)%Z, [31471]%N);
   ((-5226323935941365, -49)%Z, [31481]%N);
   ((-5677699541319541, -49)%Z, [31505]%N);
   ((-2394826847551567, -48)%Z, [31508; 31558]%N);
   ((-94432075180019, -43)%Z, [31515; 35586; 35859]%N);
   ((-5185740294436735, -49)%Z, [31526]%N);
   ((-176723244678231, -44)%Z, [31532; 38449]%N);
   ((-5182058463435471, -49)%Z, [31548; 31840; 32027; 32439]%N);
   ((-2708108785457689, -48)%Z, [31563]%N);
   ((-3994180768494371, -49)%Z, [31569; 31689]%N);
   ((-6323009082632377, -50)%Z, [31574]%N);
   ((-5869956173507923, -49)%Z, [31581; 31631; 37336; 38025]%N);
   ((-5867470739212747, -49)%Z, [31614; 31805; 34218; 34913]%N);
   ((-573288810829645, -46)%Z, [31639]%N);
   ((-7995323128151843, -50)%Z, [31649]%N);
   ((-2323803950044259, -48)%Z, [31661]%N);
   ((-35552930617339, -42)%Z, [31665]%N);
   ((-7690518041471637, -50)%Z, [31680; 33410]%N);
   ((-4960446632044549, -49)%Z, [31684; 33539]%N);
   ((-2740497922378973, -48)%Z, [31687; 38901; 38907]%N);
   ((-5731531458728675, -49)%Z, [31726; 31811; 34948; 35158]%N);
   ((-1551967204007971, -47)%Z, [31807; 38533]%N);
   ((-4360777605050121, -49)%Z, [31821]%N);
   ((-8685286881892875, -50)%Z, [31859]%N);
   ((-1700707806235825, -48)%Z, [31867; 39006]%N);
   ((-288541420202527, -45)%Z, [31881]%N);
   ((-4872184114070853, -49)%Z, [31890]%N);
   ((-2743635914486003, -48)%Z, [31893]%N);
   ((-4847344057202641, -49)%Z, [31918; 31975]%N);
   ((-5500037681062111, -49)%Z, [31921; 33993]%N);
   ((-2852450241071763, -48)%Z, [31929]%N);
   ((-2828423579576211, -48)%Z, [31957; 37231]%N);
   ((-1122251147476307, -47)%Z, [31958]%N);
   ((-3173697400223269, -49)%Z, [31995]%N);
   ((-1687265967949841, -48)%Z, [32000; 32426]%N);
   ((-3895516269798269, -49)%Z, [32004; 32422]%N);
   ((-4725137726128287, -49)%Z, [32005; 32418]%N);
   ((-590682973800293, -46)%Z, [32011; 32441]%N);
   ((-5930377040447437, -49)%Z, [32013; 32435]%N);
   ((-2466690582260399, -48)%Z, [32016; 32445]%N);
   ((-5132219772722451, -49)%Z, [32023; 32433]%N);
   ((-8982733542635965, -50)%Z, [32025; 32440]%N);
   ((-7399849612046723, -50)%Z, [32026; 32423]%N);
   ((-3316511115477783, -49)%Z, [32032]%N);
   ((-1586528191650601, -47)%Z, [32033; 32442; 36111; 36194; 36827; 36914]%N);
   ((-4857561215210041, -49)%Z, [32034]%N);
   ((-2617966778409943, -48)%Z, [32051; 32453]%N);
   ((-8511398227665447, -50)%Z, [32068; 32452]%N);
   ((-1331015103247859, -47)%Z, [32080; 32467]%N);
   ((-4239372490671957, -49)%Z, [32097; 32476]%N);
   ((-5584883368615243, -49)%Z, [32104; 32466; 36076; 36134]%N);
   ((-6320700457448449, -50)%Z, [32113; 32479]%N);
   ((-7550087089253989, -50)%Z, [32147; 32463]%N);
   ((-5333586020185343, -49)%Z, [32162; 32504]%N);
   ((-8870193058401947, -50)%Z, [32173; 32500]%N);
   ((-3962018271582617, -49)%Z, [32178; 32593]%N);
   ((-1385389538523101, -47)%Z, [32184; 32438]%N);
   ((-4124108956501215, -49)%Z, [32210; 32490]%N);
   ((-3217336752839285, -49)%Z, [32218; 32447]%N);
   ((-4303088351020567, -49)%Z, [32227; 32536]%N);
   ((-637926424605429, -46)%Z, [32239; 32428]%N);
   ((-2747448274932773, -48)%Z, [32244; 32451; 36275]%N);
   ((-157467260816213, -44)%Z, [32299; 32541]%N);
   ((-7179481913143803, -50)%Z, [32318; 32489]%N);
   ((-7810616521158393, -50)%Z, [32340; 32455]%N);
   ((-2508316139407407, -48)%Z, [32396; 32493]%N);
   ((-1327747419414997, -47)%Z, [32406; 32420]%N);
   ((-2733715064609473, -48)%Z, [32412; 32518]%N);
   ((-5672413587426961, -49)%Z, [32599; 32645; 37275]%N);
   ((-2726497362049779, -48)%Z, [32602; 32624; 36817]%N);
   ((-3864431038529473, -49)%Z, [32622]%N);
   ((-78671592215267, -43)%Z, [32626]%N);
   ((-2462475404002569, -48)%Z, [32650]%N);
   ((-2155733792203523, -48)%Z, [32676]%N);
   ((-2709223539297755, -48)%Z, [32705]%N);
   ((-4700893641774617, -49)%Z, [32764; 32974]%N);
   ((-4718333643862427, -49)%Z, [32769]%N);
   ((-5155264149595341, -50)%Z, [32773]%N);
   ((-5016085459972965, -49)%Z, [32791]%N);
   ((-1299233127765991, -47)%Z, [32819]%N);
   ((-1187192695889537, -47)%Z, [32844; 32887]%N);
   ((-5244068813327837, -49)%Z, [32852; 32879]%N);
   ((-8051492129573869, -50)%Z, [32862; 38395]%N);
   ((-8447547107909319, -50)%Z, [32905]%N);
   ((-5320294847423509, -49)%Z, [32908]%N);
   ((-5042378015635533, -49)%Z, [32925]%N);
   ((-2451310626883287, -48)%Z, [32928; 33144]%N);
   ((-413202212407977, -46)%Z, [32929]%N);
   ((-2443815940420315, -48)%Z, [32930]%N);
   ((-4422579595914499, -49)%Z, [32932; 33178]%N);
   ((-4935745510513771, -49)%Z, [32933]%N);
   ((-4988358835969099, -49)%Z, [32938]%N);
   ((-2457636173460867, -48)%Z, [32946]%N);
   ((-6231038751025015, -49)%Z, [32958; 33102; 37101; 40300; 40527]%N);
   ((-5138977956568483, -49)%Z, [32959; 33131]%N);
   ((-5066361848515185, -49)%Z, [32972]%N);
   ((-7925718497327511, -50)%Z, [32990]%N);
   ((-1423921673235601, -47)%Z, [33009]%N);
   ((-281872631698487, -45)%Z, [33014; 33184]%N);
   ((-6739045854058727, -50)%Z, [33021]%N);
   ((-4730706668376013, -49)%Z, [33026]%N);
   ((-8570700416116389, -50)%Z, [33032; 33033]%N);
   ((-5519746226603261, -49)%Z, [33034]%N);
   ((-2257775150153669, -48)%Z, [33039; 33247]%N);
   ((-8600952099130753, -50)%Z, [33041; 33126]%N);
   ((-2347341715192703, -48)%Z, [33050; 33139]%N);
   ((-5567151195461337, -49)%Z, [33071]%N);
   ((-5161873716490605, -49)%Z, [33104]%N);
   ((-5493618569853767, -49)%Z, [33105]%N);
   ((-2522049349730707, -48)%Z, [33145]%N);
   ((-4753207514249375, -49)%Z, [33146]%N);
   ((-4999392272696295, -49)%Z, [33151; 34382]%N);
   ((-2445342735978619, -48)%Z, [33152]%N);
   ((-4993585892588429, -49)%Z, [33162]%N);
   ((-5176217166374013, -49)%Z, [33167]%N);
   ((-4412201474804629, -49)%Z, [33180]%N);
   ((-2456496135544727, -48)%Z, [33218]%N);
   ((-3974680824162179, -49)%Z, [33251]%N);
   ((-672450943100691, -46)%Z, [33268]%N);
   ((-181381375974079, -44)%Z, [33292; 34394; 34395]%N);
   ((-4882004498806989, -49)%Z, [33293]%N);
   ((-5090164904422383, -49)%Z, [33310]%N);
   ((-8893805945676925, -50)%Z, [33328; 33382]%N);
   ((-4892437846768113, -49)%Z, [33329; 33369]%N);
   ((-37888900912085, -42)%Z, [33334]%N);
   ((-8382063316244801, -50)%Z, [33337]%N);
   ((-8619501116803427, -50)%Z, [33351]%N);
   ((-5933157045866985, -49)%Z, [33391]%N);
   ((-6338275479205745, -50)%Z, [33394]%N);
   ((-1360310422146031, -47)%Z, [33426]%N);
   ((-7458539604703117, -50)%Z, [33457]%N);
   ((-5663712487572547, -49)%Z, [33469]%N);
   ((-2956989640281089, -48)%Z, [33492]%N);
   ((-282902354083441, -45)%Z, [33495]%N);
   ((-5146506882755281, -49)%Z, [33521]%N);
   ((-5153439851580515, -49)%Z, [33550; 33686]%N);
   ((-4777002601947973, -49)%Z, [33590]%N);
   ((-8373262267133239, -50)%Z, [33609]%N);
   ((-7428487501666083, -50)%Z, [33647; 34277]%N);
   ((-5359134381213491, -49)%Z, [33735]%N);
   ((-8870972227918749, -50)%Z, [33740]%N);
   ((-4165612549435595, -49)%Z, [33756]%N);
   ((-613107453288961, -46)%Z, [33832; 34217]%N);
   ((-8579390039369705, -50)%Z, [33853]%N);
   ((-4783835039131875, -49)%Z, [33879]%N);
   ((-1327978325928411, -47)%Z, [33900]%N);
   ((-1282887098809669, -47)%Z, [33948]%N);
   ((-2449085516665629, -48)%Z, [33988]%N);
   ((-2287231888889173, -48)%Z, [34255]%N);
   ((-5360140547617927, -49)%Z, [34383; 34396]%N);
   ((-2060044332996149, -48)%Z, [34411; 34802]%N);
   ((-344817388271963, -45)%Z, [34467]%N);
   ((-5171875628505449, -49)%Z, [34503]%N);
   ((-4836911328981669, -49)%Z, [34507]%N);
   ((-1346211081580371, -47)%Z, [34562; 34993]%N);
   ((-2785766075530355, -48)%Z, [34588; 34678; 35695; 35793]%N);
   ((-5985698257025735, -49)%Z, [34690; 37089]%N);
   ((-1725298124905773, -48)%Z, [34701]%N);
   ((-2773572896277737, -48)%Z, [34746; 39519; 39588]%N);
   ((-2352798338128821, -48)%Z, [34880]%N);
   ((-3182992212217249, -49)%Z, [34892]%N);
   ((-664569287801191, -46)%Z, [34900; 37532]%N);
   ((-4740335654911097, -49)%Z, [34903]%N);
   ((-4367990607341189, -49)%Z, [34915]%N);
   ((-3508979952528067, -49)%Z, [34920]%N);
   ((-2610396577534875, -48)%Z, [34923]%N);
   ((-4378986414077785, -49)%Z, [34955]%N);
   ((-1283897180813067, -47)%Z, [34957; 38968; 39048]%N);
   ((-1183750688947779, -47)%Z, [34966]%N);
   ((-2300510268099597, -48)%Z, [34987]%N);
   ((-4769546202165995, -49)%Z, [35009]%N);
   ((-8586935302206987, -50)%Z, [35013; 35037]%N);
   ((-5173319090715329, -49)%Z, [35028]%N);
   ((-5898045671089653, -49)%Z, [35039]%N);
   ((-8121373908219619, -50)%Z, [35041; 37324]%N);
   ((-7356689746908295, -50)%Z, [35199]%N);
   ((-5128203465888357, -49)%Z, [35201]%N);
   ((-8140154487389935, -50)%Z, [35211; 35265]%N);
   ((-8971598648693687, -50)%Z, [35215; 35268]%N);
   ((-4529192727702207, -49)%Z, [35222; 35270]%N);
   ((-7883594538456263, -50)%Z, [35258; 35273]%N);
   ((-7364331285043203, -50)%Z, [35264; 35266]%N);
   ((-4108960415324855, -49)%Z, [35282]%N);
   ((-5064571863053451, -49)%Z, [35299]%N);
   ((-5829127415197881, -49)%Z, [35302; 35320]%N);
   ((-3780860947905133, -49)%Z, [35328]%N);
   ((-4508407302607279, -49)%Z, [35336; 35745]%N);
   ((-8592095116714505, -50)%Z, [35338; 35759]%N);
   ((-4939072366691623, -49)%Z, [35347; 35757]%N);
   ((-7689562326947763, -50)%Z, [35352; 35760]%N);
   ((-4452699419805967, -49)%Z, [35422; 35789]%N);
   ((-5701196850670323, -49)%Z, [35430; 35797]%N);
   ((-4633582512139523, -49)%Z, [35433; 35799]%N);
   ((-7282712895586625, -50)%Z, [35441; 35805]%N);
   ((-2297907614542897, -48)%Z, [35465; 35709]%N);
   ((-8358332988855103, -50)%Z, [35486; 35821]%N);
   ((-4546724244732437, -49)%Z, [35492; 35823; 40801; 40836]%N);
   ((-3640311484704267, -49)%Z, [35498; 35828]%N);
   ((-1395472236727297, -47)%Z, [35506; 35838]%N);
   ((-5351149141605471, -49)%Z, [35516; 35850]%N);
   ((-8458841159165389, -50)%Z, [35519; 35843]%N);
   ((-3401322488495795, -49)%Z, [35542; 35770]%N);
   ((-4775931336251871, -49)%Z, [35584; 35851]%N);
   ((-5780337453224399, -49)%Z, [35616; 35875; 37782; 38145]%N);
   ((-4321403644852595, -49)%Z, [35657; 35777]%N);
   ((-7832559796522019, -50)%Z, [35672; 35782]%N);
   ((-4764280027622833, -49)%Z, [35676; 35889]%N);
   ((-2456268681005715, -48)%Z, [35686]%N);
   ((-3232354481415767, -49)%Z, [35696; 35758]%N);
   ((-4190779270781961, -49)%Z, [35895]%N);
   ((-8665631452716887, -50)%Z, [35910]%N);
   ((-840849058650471, -47)%Z, [35937]%N);
   ((-2494439681504443, -48)%Z, [35946]%N);
   ((-4440182282618939, -49)%Z, [35980; 38598]%N);
   ((-1264661504838183, -47)%Z, [35997; 36125]%N);
   ((-5434305872471749, -49)%Z, [36000; 36127]%N);
   ((-7334071471062813, -50)%Z, [36008; 36135]%N);
   ((-2825876277334007, -48)%Z, [36009; 36137]%N);
   ((-5066959777358887, -49)%Z, [36012; 36131]%N);
   ((-8073539489899409, -50)%Z, [36024; 36151]%N);
   ((-4067132247594813, -49)%Z, [36027; 36153]%N);
   ((-4716404630141397, -49)%Z, [36028; 36148]%N);
   ((-2483961418461303, -48)%Z, [36031; 36152]%N);
   ((-7633395409080581, -50)%Z, [36039; 36164]%N);
   ((-4751155446533317, -49)%Z, [36042; 36156]%N);
   ((-5537403523032963, -49)%Z, [36060; 36176]%N);
   ((-5895433369634463, -49)%Z, [36066; 36132]%N);
   ((-3177939351018743, -49)%Z, [36074; 36136]%N);
   ((-2790198843941193, -48)%Z, [36084; 36182]%N);
   ((-2272887659587697, -48)%Z, [36259]%N);
   ((-6112082306587561, -49)%Z, [36286]%N);
   ((-4642799958676617, -49)%Z, [36317]%N);
   ((-5658555658046247, -49)%Z, [36319]%N);
   ((-8128002184775547, -50)%Z, [36321; 36857; 39208; 39302]%N);
   ((-1616833239110605, -48)%Z, [36335]%N);
   ((-2465278497475877, -48)%Z, [36424]%N);
   ((-1918292263480051, -48)%Z, [36523]%N);
   ((-1565003930112195, -48)%Z, [36554; 36710]%N);
   ((-2796981701710693, -48)%Z, [36556; 36712; 37274]%N);
   ((-1202911317030309, -47)%Z, [36628; 36741]%N);
   ((-4497859922350171, -49)%Z, [36635; 36742]%N);
   ((-316947697283735, -45)%Z, [36649; 36744]%N);
   ((-1130810093764443, -47)%Z, [36650; 36718]%N);
   ((-8422149792545937, -50)%Z, [36655; 36753]%N);
   ((-699436385501925, -46)%Z, [36677; 36757; 37066]%N);
   ((-5024344042608167, -49)%Z, [36784]%N);
   ((-4469626920856169, -49)%Z, [36793; 37002]%N);
   ((-4626972456312763, -49)%Z, [36798; 36948]%N);
   ((-8370760266310625, -50)%Z, [36816; 36939]%N);
   ((-5628568986449637, -49)%Z, [36830; 36899]%N);
   ((-2848758713055845, -48)%Z, [36855]%N);
   ((-4512190732229833, -49)%Z, [36884]%N);
   ((-3858247029783563, -49)%Z, [36890]%N);
   ((-997305011109041, -47)%Z, [36895]%N);
   ((-1157498108511061, -47)%Z, [36896]%N);
   ((-8672145210583365, -50)%Z, [36935]%N);
   ((-6477378880691149, -50)%Z, [36947]%N);
   ((-4534743634994803, -49)%Z, [37030]%N);
   ((-369792455344657, -45)%Z, [37048]%N);
   ((-1185587147237807, -47)%Z, [37070]%N);
   ((-784865082425839, -47)%Z, [37096]%N);
   ((-8928948993035205, -50)%Z, [37117]%N);
   ((-4293013598152339, -49)%Z, [37202]%N);
   ((-5061601144004329, -49)%Z, [37228]%N);
   ((-5979612252308425, -49)%Z, [37230]%N);
   ((-5583384166787989, -49)%Z, [37238]%N);
   ((-1039634716303545, -47)%Z, [37240]%N);
   ((-4867967240769829, -49)%Z, [37255]%N);
   ((-719172131880239, -46)%Z, [37322; 37323; 40860; 40863]%N);
   ((-1029855350016645, -47)%Z, [37325]%N);
   ((-4716725673750567, -49)%Z, [37326]%N);
   ((-5426565104557349, -50)%Z, [37327]%N);
   ((-5018713486669231, -50)%Z, [37329]%N);
   ((-4601543723925905, -49)%Z, [37341; 38024]%N);
   ((-1379602659724673, -47)%Z, [37385; 38048]%N);
   ((-5609430034304809, -49)%Z, [37428; 38083]%N);
   ((-2370000432281593, -48)%Z, [37504; 38134]%N);
   ((-4950143992407919, -49)%Z, [37509; 38108]%N);
   ((-299952449445059, -45)%Z, [37586; 38155; 38556]%N);
   ((-306722342168893, -45)%Z, [37610; 38138]%N);
   ((-2177165123794311, -48)%Z, [37628; 38050]%N);
   ((-8972451280242835, -50)%Z, [37666; 38065]%N);
   ((-5862532550061631, -49)%Z, [37670; 38182]%N);
   ((-2603024654374145, -48)%Z, [37707; 38149]%N);
   ((-4218580129023867, -49)%Z, [37749; 38190]%N);
   ((-8668557981198253, -50)%Z, [37806; 38215]%N);
   ((-273042650287877, -45)%Z, [37857; 38236]%N);
   ((-2584141541553463, -48)%Z, [37912; 38047]%N);
   ((-1475834583631537, -48)%Z, [38263; 38271]%N);
   ((-3226090018151489, -49)%Z, [38272; 38376]%N);
   ((-5752290384173207, -50)%Z, [38291; 38388]%N);
   ((-5653445638510881, -49)%Z, [38296; 38392]%N);
   ((-4533350768420097, -49)%Z, [38307; 38401]%N);
   ((-5080890395586047, -49)%Z, [38309; 38400]%N);
   ((-3224024810708987, -49)%Z, [38431; 38538]%N);
   ((-1157704720960729, -47)%Z, [38450]%N);
   ((-2074426478876035, -48)%Z, [38451; 38525]%N);
   ((-5449442977596083, -49)%Z, [38452; 38512]%N);
   ((-5178400556131377, -49)%Z, [38453; 38499]%N);
   ((-2471209500237289, -48)%Z, [38454; 38542]%N);
   ((-85466756753075, -43)%Z, [38459]%N);
   ((-365799015958391, -45)%Z, [38464]%N);
   ((-3178022846877611, -49)%Z, [38469; 38555]%N);
   ((-8286287190819523, -50)%Z, [38470; 38520]%N);
   ((-1461993171994931, -47)%Z, [38477; 40232; 40493]%N);
   ((-8287215002908981, -50)%Z, [38480]%N);
   ((-6725458498778183, -50)%Z, [38498]%N);
   ((-6754998732976085, -50)%Z, [38505; 38570]%N);
   ((-4462426658852253, -49)%Z, [38517]%N);
   ((-2719460121093773, -48)%Z, [38548; 39389; 39548]%N);
   ((-6082250164213283, -49)%Z, [38552; 40023; 40158]%N);
   ((-1193893675055643, -47)%Z, [38582; 38584]%N);
   ((-5184264671171333, -49)%Z, [38592]%N);
   ((-4564329169015141, -49)%Z, [38596]%N);
   ((-77514718259299, -43)%Z, [38613]%N);
   ((-4834530987365765, -49)%Z, [38622; 40481]%N);
   ((-8949653877850663, -50)%Z, [38632; 39592]%N);
   ((-8572492775062453, -50)%Z, [38634]%N);
   ((-4528043146021487, -49)%Z, [38656]%N);
   ((-4703397036465539, -49)%Z, [38663]%N);
   ((-5030478278130289, -49)%Z, [38745; 38748]%N);
   ((-5417331221038049, -49)%Z, [38750]%N);
   ((-5652805043121199, -50)%Z, [38754]%N);
   ((-5089541827487253, -49)%Z, [38761]%N);
   ((-4953557298381455, -49)%Z, [38795]%N);
   ((-3695667777267293, -49)%Z, [38899]%N);
   ((-171010168032853, -44)%Z, [38913; 39029]%N);
   ((-4456732029839423, -49)%Z, [38914; 39030]%N);
   ((-4430635575994365, -49)%Z, [38917; 39033]%N);
   ((-5462577082323921, -49)%Z, [38920; 39035]%N);
   ((-8126391743010767, -50)%Z, [38936; 39046]%N);
   ((-2610789973792777, -48)%Z, [38971; 39057]%N);
   ((-6012864949266229, -50)%Z, [38988; 39064]%N);
   ((-6968912071575159, -50)%Z, [38989; 39069]%N);
   ((-3804687478745901, -49)%Z, [39080; 39118]%N);
   ((-7877288771077069, -50)%Z, [39135]%N);
   ((-1169412672520061, -47)%Z, [39151; 39277]%N);
   ((-593214944603593, -46)%Z, [39166; 39280]%N);
   ((-5027681700330295, -49)%Z, [39173; 39292]%N);
   ((-5037247297000879, -49)%Z, [39184]%N);
   ((-2368165625936477, -48)%Z, [39321]%N);
   ((-3789763226578763, -49)%Z, [39340; 39532]%N);
   ((-8258802508532463, -50)%Z, [39511; 39564]%N);
   ((-2729482278428511, -48)%Z, [39612]%N);
   ((-1292608964504701, -47)%Z, [39635]%N);
   ((-8847828557803479, -50)%Z, [39640]%N);
   ((-4981121546807157, -49)%Z, [39740]%N);
   ((-2442081112267839, -48)%Z, [39746]%N);
   ((-1429514627276149, -47)%Z, [39748]%N);
   ((-8595446465143561, -50)%Z, [39770; 40060]%N);
   ((-4992012673250383, -49)%Z, [39981; 40141]%N);
   ((-4832555029024627, -49)%Z, [40165; 40479]%N);
   ((-5041233808019225, -49)%Z, [40227; 40490]%N);
   ((-82686493185255, -43)%Z, [40230; 40495]%N);
   ((-4448296660437629, -49)%Z, [40613; 40614]%N);
   ((-1195147070640901, -47)%Z, [40635]%N);
   ((-297680249674053, -45)%Z, [40736]%N);
   ((-1206472045124723, -47)%Z, [40786; 40831]%N);
   ((-2339725585605091, -48)%Z, [40845; 40857]%N)];
  (* ('E', 'ng') *)
  [
];
  (* ('E', 'nr') *)
  [
   ((-4167640187414549, -49)%Z, [19968; 38936; 39046]%N);
   ((-7578617686155291, -50)%Z, [19969]%N);
   ((-2387510937142019, -48)%Z, [19971; 33738]%N);
   ((-8750048041048283, -50)%Z, [19975; 21892; 31302; 33836]%N);
   ((-5684356640845847, -49)%Z, [19976; 20987; 21521; 22336; 22805; 24674; 25802; 26639; 26825; 27133; 27198; 27396;
     27739; 27781; 29028; 29282; 30079; 30555; 31068; 34945; 35413; 35780; 36033; 36146; 36886]%N);
   ((-8659927963935217, -50)%Z, [19977]%N);
   ((-5514187638104825, -49)%Z, [19978; 20064; 20860; 21150; 23396; 23588; 26087; 27463; 31105; 32722; 33290; 35443;
     35814; 36339; 36774; 37470; 38074; 38971; 39057; 39250; 39286]%N);
   ((-5423922750713553, -49)%Z, [19979; 20248; 20778; 22576; 24040; 25129; 25132; 25512; 31572; 32023; 32377; 32433;
     32462; 32718; 34849; 36855]%N);
   ((-48637367286049, -42)%Z, [19982; 19988; 20421; 20431; 20493; 20522; 21890; 22179; 22210; 22841; 22846; 23044;
     23105; 23113; 23492; 24187; 24224; 24735; 25645; 25950; 26244; 26438; 26464; 26751; 27082; 27091; 27492; 27900;
     28497; 28796; 29081; 29359; 29522; 29783; 29786; 30691; 32115; 32475; 32626; 33287; 33437; 33503; 35059; 36764;
     37239; 37569; 38109; 38469; 38555; 38601; 38753; 39221; 39530; 39562]%N);
   ((-7051057397191475, -49)%Z, [19984; 20004; 20102; 20123; 20454; 20467; 20552; 20756; 20841; 20872; 20923; 20941;
     20988; 20993; 21024; 21028; 21034; 21089; 21277; 21347; 21658; 21667; 21727; 21833; 21884; 21938; 22605; 22661;
     23059; 23090; 23146; 23207; 23713; 23714; 24119; 24162; 24254; 24608; 24677; 24703; 24708; 24806; 24813; 24922;
     24951; 25000; 25037; 25044; 25106; 25282; 25341; 25644; 26165; 26194; 26263; 26289; 26348; 26407; 26451; 26485;
     26544; 26623; 26758; 26941; 27048; 27060; 27176; 27260; 27308; 27358; 27425; 27428; 27447; 27487; 27524; 27705;
     27794; 27809; 27893; 27943; 27988; 28132; 28388; 28390; 28435; 28527; 28641; 28670; 28772; 28976; 29043; 29134;
     29224; 29247; 29432; 29481; 29922; 30249; 30271; 30317; 30544; 30558; 30631; 30779; 30806; 30820; 30917; 31025;
     31049; 31462; 31469; 31503; 31534; 31568; 31632; 31657; 31681; 31854; 31998; 32180; 32416; 32512; 32596; 32827;
     32834; 32886; 32999; 33046; 33392; 33393; 33592; 33728; 33897; 33981; 34428; 34467; 34948; 35158; 35167; 35263;
     35276; 35380; 35594; 35604; 35663; 35686; 35749; 35785; 35854; 35857; 36029; 36155; 36331; 36343; 36474; 36817;
     37118; 37187; 37274; 37369; 37445; 37604; 37633; 37855; 37907; 37939; 38037; 38044; 38130; 38148; 38174; 38246;
     38253; 38643; 38722; 38802; 39319; 39387; 39409; 39439; 39470; 39542; 39558; 39568; 39581; 40583; 40800;
     40838]%N);
   ((-5526560662618411, -49)%Z, [19985; 20540; 20864; 23383; 23735; 24733; 25327; 26009; 26112; 26262; 26799; 28014;
     30011; 30059; 30524; 31398; 31431; 31569; 31689; 33285; 33831; 34157; 35028; 35519; 35843; 37276; 37341; 38024;
     38654; 38695; 39854; 40092; 40407; 40485]%N);
   ((-2691847465134135, -48)%Z, [19987; 20355; 21029; 21035; 21448; 22260; 22285; 22346; 23560; 24448; 24525; 27014;
     28748; 28911; 32121; 32482; 34430; 34662; 35425; 35817; 36027; 36153; 36895]%N);
   ((-1234517730713231, -47)%Z, [19989; 32380; 32487; 40635]%N);
   ((-3730224801244433, -49)%Z, [19990]%N);
   ((-8902241311420571, -50)%Z, [19992; 20136; 30053; 37675; 38177]%N);
   ((-363383120232743, -45)%Z, [19993; 20063; 20396; 20738; 21165; 23495; 23745; 24694; 24801; 25273; 26579; 32265;
     32537; 32735; 34224; 34631; 34821; 35382; 35779; 38321; 38405; 38607; 38619; 40736]%N);
   ((-2000615272641303, -48)%Z, [19994; 26989]%N);
   ((-4929342841764667, -49)%Z, [19995; 21474]%N);
   ((-1480098640192021, -48)%Z, [19996; 26481]%N);
   ((-2296828636892109, -48)%Z, [19997; 20892; 21488; 29241; 32114; 36786]%N);
   ((-638984193483385, -46)%Z, [20005; 22196; 26332; 40165; 40479]%N);
   ((-7279313960914933, -49)%Z, [20006; 20039; 20060; 20081; 20098; 20114; 20127; 20204; 20272; 20319; 20419; 20472;
     20497; 20616; 20984; 21254; 21290; 21358; 21510; 21550; 21602; 21674; 21815; 22158; 22300; 22330; 22372; 22412;
     22434; 22479; 22482; 22490; 22539; 22549; 22557; 22580; 22702; 22815; 22816; 22986; 22994; 23219; 23461; 23545;
     23565; 23700; 23762; 24182; 24278; 24536; 24541; 24578; 24603; 24666; 24724; 24747; 24872; 24939; 25001; 25340;
     25379; 25420; 25497; 25600; 25601; 25709; 25841; 25881; 26054; 26164; 26188; 26238; 26280; 26333; 26406; 26462;
     26483; 26621; 26634; 26686; 26693; 26694; 26728; 26771; 26873; 27017; 27063; 27086; 27104; 27123; 27197; 27273;
     27278; 27367; 27379; 27384; 27410; 27599; 27742; 27887; 27955; 28051; 28075; 28139; 28210; 28294; 28491; 28598;
     28654; 28722; 28874; 28888; 28938; 28950; 29109; 29148; 29152; 29343; 29602; 29671; 29864; 29920; 29969; 30372;
     30471; 30529; 30556; 30768; 30798; 30910; 31155; 31174; 31240; 31262; 31350; 31381; 31384; 31518; 31528; 31530;
     31889; 32006; 32007; 32196; 32216; 32315; 32417; 32421; 32498; 32516; 32580; 32660; 32697; 32902; 32948; 33129;
     33216; 33329; 33336; 33369; 33425; 33505; 33943; 34071; 34134; 34231; 34268; 34345; 34360; 34505; 34656; 34735;
     34943; 35068; 35201; 35482; 35504; 35543; 35575; 35627; 35740; 35773; 35822; 35841; 35842; 35872; 35882; 35970;
     36015; 36031; 36035; 36068; 36101; 36142; 36145; 36152; 36161; 36184; 36199; 36319; 36423; 36454; 36677; 36757;
     36881; 37019; 37095; 37108; 37142; 37219; 37376; 37432; 37433; 37438; 37541; 37599; 37688; 37754; 37813; 37913;
     37946; 37950; 38063; 38073; 38080; 38093; 38107; 38129; 38140; 38163; 38167; 38227; 38251; 38316; 38406; 38411;
     38468; 38533; 38664; 38671; 38873; 38890; 39087; 39122; 39194; 39252; 39317; 39721; 39730; 39748; 40386; 40431;
     40542; 40553; 40852; 40858]%N);
   ((-6042386487447347, -49)%Z, [20011; 20139; 20828; 22871; 23681; 24061; 25545; 25720; 26177; 27506; 27836; 28418;
     30699; 30703; 31921; 32019; 32365; 32446; 32982; 33050; 33139; 33575; 34955; 35569; 35574; 35763; 35852; 36650;
     36718; 37775; 38369; 38416]%N);
   ((-1821575857282525, -48)%Z, [20013]%N);
   ((-8633365528400265, -50)%Z, [20016; 35920]%N);
   ((-6574071106152521, -49)%Z, [20018; 20233; 20524; 20570; 21243; 21248; 21927; 22918; 22941; 23624; 24701; 24785;
     24818; 25121; 25160; 25238; 25249; 25314; 25342; 25476; 25605; 25721; 25871; 25898; 26044; 26051; 26151; 26152;
     26302; 26356; 26368; 26696; 26729; 27137; 27667; 27778; 27975; 28000; 28267; 28378; 28414; 28550; 28617; 28792;
     28866; 28947; 29211; 29232; 29996; 30596; 31080; 31570; 31895; 32162; 32504; 32641; 32648; 32792; 32937; 33292;
     33579; 34106; 34298; 34541; 34980; 35302; 35320; 35449; 35533; 35712; 35812; 35835; 36259; 36646; 36743; 36995;
     37196; 37353; 37463; 37507; 37648; 38012; 38034; 38067; 38131; 38179; 38181; 38344; 38348; 38385; 38417; 38539;
     38585; 38816; 40788; 40832]%N);
   ((-8414079183830885, -50)%Z, [20020; 21776; 33256]%N);
   ((-2601329722022329, -48)%Z, [20024; 30431; 32858; 33576; 37523; 38120]%N);
   ((-3676289330193927, -49)%Z, [20025]%N);
   ((-879670102400877, -47)%Z, [20026; 28858]%N);
   ((-4111244917089997, -49)%Z, [20027; 37528; 37614; 38102; 38125]%N);
   ((-7414076534315783, -50)%Z, [20029; 40599]%N);
   ((-4570295002203265, -49)%Z, [20030; 20309; 27969; 33289]%N);
   ((-1138069766557237, -47)%Z, [20035; 20037; 32147; 32463]%N);
   ((-3444553393952299, -48)%Z, [20040; 20332; 20458; 20542; 20558; 20667; 20670; 20791; 20898; 20906; 21623; 22047;
     22105; 22404; 22445; 22485; 22497; 22618; 22751; 22880; 22955; 22962; 23215; 23348; 23381; 23387; 23457; 23529;
     23748; 23883; 23975; 24123; 24130; 24152; 24186; 24297; 24298; 25077; 25170; 25233; 25234; 25259; 25688; 25874;
     25890; 26224; 26492; 26533; 26633; 26818; 26916; 26987; 27183; 27299; 27355; 27370; 27386; 27407; 27481; 27679;
     27821; 27961; 27974; 28062; 28150; 28255; 28465; 28479; 28514; 28797; 28798; 28953; 29038; 30060; 30066; 30399;
     30717; 30748; 30757; 30789; 31487; 31601; 31860; 31869; 31964; 31968; 31988; 32131; 32215; 32264; 32481; 32515;
     32835; 33039; 33104; 33247; 33324; 33333; 33407; 33424; 33476; 33659; 33830; 33848; 33910; 34249; 34696; 34930;
     35044; 35122; 35203; 35553; 35628; 35877; 35884; 36424; 36894; 37015; 37124; 37221; 37397; 37414; 37440; 37478;
     37559; 37561; 37659; 37723; 37811; 37852; 37877; 38043; 38062; 38066; 38078; 38119; 38144; 38152; 38171; 38203;
     38221; 38231; 38913; 39029; 39425; 39479; 39563; 39578; 39811; 40070; 40434; 40555]%N);
   ((-3248772082775677, -49)%Z, [20041; 32681]%N);
   ((-3297178615342221, -49)%Z, [20043]%N);
   ((-5028527062141201, -49)%Z, [20044; 20806; 24034; 24049; 28879]%N);
   ((-3381744068042999, -48)%Z, [20045; 20054; 20190; 20197; 20474; 20694; 21098; 21522; 21543; 21558; 21584; 21646;
     21693; 21896; 22353; 22466; 23077; 23167; 23507; 23518; 23938; 24161; 24199; 24653; 24833; 24875; 25026; 25285;
     25286; 25294; 25366; 25487; 25658; 25812; 25884; 26015; 26092; 26197; 26248; 26803; 27012; 27015; 27372; 27414;
     27918; 28133; 28172; 28218; 28467; 28540; 28865; 28889; 29074; 29076; 29190; 29197; 29722; 29997; 30054; 30171;
     30328; 30405; 30896; 31203; 31344; 31397; 31418; 31809; 31839; 32049; 32187; 32305; 32408; 32437; 32450; 32509;
     32565; 32932; 33071; 33178; 33418; 33639; 33694; 33789; 33862; 34092; 34204; 34850; 34924; 35183; 35250; 35280;
     35427; 35442; 35506; 35580; 35611; 35762; 35811; 35813; 35838; 35862; 36058; 36064; 36169; 36180; 36606; 36732;
     36841; 36926; 36929; 36944; 36999; 37195; 37247; 37312; 37518; 37658; 37841; 37848; 38126; 38197; 38237; 38464;
     38505; 38570; 38588; 38917; 39033; 39165; 39281; 39296; 39498; 39557; 39711; 39825; 39977; 40077; 40144; 40285;
     40475; 40517; 40563]%N);
   ((-5413593103954971, -49)%Z, [20046; 20508; 21410; 22681; 24258; 24429; 25332; 27036; 29254; 29313; 29943; 30865;
     32191; 32501; 33492; 34180; 35009; 35338; 35556; 35759; 35860; 36001; 36130]%N);
   ((-3919950663563869, -49)%Z, [20048; 27138]%N);
   ((-1917380283481317, -47)%Z, [20050; 20147; 20163; 20191; 20267; 20295; 20360; 20363; 20556; 20652; 20742; 20769;
     20821; 20822; 20823; 20882; 21000; 21037; 21040; 21060; 21078; 21097; 21164; 21388; 21389; 21401; 21421; 21441;
     21481; 21526; 21533; 21549; 21553; 21563; 21604; 21661; 21679; 21722; 21738; 21802; 21846; 21857; 21891; 21996;
     22052; 22055; 22109; 22198; 22351; 22596; 22674; 22750; 22935; 23052; 23071; 23186; 23250; 23329; 23397; 23733;
     23741; 23755; 23811; 23821; 23828; 23853; 23879; 23901; 23937; 23940; 24047; 24048; 24408; 24557; 24598; 24639;
     24730; 24744; 24754; 24808; 24906; 24920; 24936; 25015; 25036; 25103; 25138; 25226; 25318; 25319; 25632; 25633;
     25661; 25703; 25788; 25792; 25840; 25876; 26027; 26095; 26127; 26242; 26283; 26474; 26578; 26585; 26636; 26891;
     26928; 26982; 27073; 27265; 27305; 27368; 27527; 27556; 27571; 27586; 27595; 27698; 27699; 27745; 27856; 27875;
     27889; 27916; 27981; 28003; 28015; 28053; 28212; 28367; 28536; 28556; 28590; 28800; 28905; 28908; 28921; 29022;
     29036; 29088; 29107; 29172; 29180; 29240; 29406; 29463; 29552; 29640; 29815; 29862; 30024; 30043; 30044; 30146;
     30505; 30720; 30759; 30879; 30893; 30932; 31207; 31252; 31313; 31329; 31559; 31567; 31735; 31783; 31901; 31961;
     31986; 32010; 32102; 32225; 32230; 32338; 32412; 32473; 32518; 32524; 32535; 32545; 32559; 32838; 32843; 32894;
     32924; 32983; 33109; 33222; 33278; 33282; 33335; 33422; 33423; 33450; 33480; 33490; 33504; 33615; 33618; 33683;
     33696; 33706; 33715; 33718; 33735; 33743; 33748; 33765; 33785; 33882; 33907; 33914; 33940; 34107; 34162; 34207;
     34216; 34294; 34308; 34427; 34431; 34443; 34510; 34579; 34594; 34685; 34822; 34851; 34942; 35125; 35174; 35255;
     35281; 35335; 35344; 35466; 35588; 35750; 35905; 36000; 36009; 36026; 36127; 36137; 36150; 36212; 36273; 36274;
     36310; 36314; 36318; 36448; 36498; 36555; 36618; 36667; 36674; 36692; 36706; 36711; 36729; 36734; 36752; 36762;
     36767; 36802; 36804; 36840; 36864; 36875; 36952; 37017; 37040; 37079; 37084; 37190; 37332; 37356; 37367; 37377;
     37380; 37411; 37453; 37496; 37526; 37542; 37563; 37576; 37638; 37663; 37664; 37707; 37740; 37750; 37770; 37931;
     38023; 38029; 38030; 38041; 38059; 38061; 38091; 38111; 38114; 38128; 38149; 38161; 38166; 38168; 38188; 38189;
     38198; 38201; 38220; 38225; 38274; 38331; 38347; 38370; 38377; 38414; 38421; 38576; 38604; 38757; 38760; 38771;
     38774; 38784; 39003; 39072; 39214; 39761; 40182; 40329; 40477; 40482; 40514; 40529; 40727]%N);
   ((-8029430042401015, -50)%Z, [20052; 21932]%N);
   ((-4993487757257935, -49)%Z, [20056; 20911; 23616; 27431; 27472; 30462; 31616; 31777; 34137; 39342; 39467;
     39582]%N);
   ((-5082698628326655, -49)%Z, [20057; 21171; 21214; 21508; 30334; 33067; 33073; 35961; 36873; 36984]%N);
   ((-1195411222825819, -47)%Z, [20061; 21807]%N);
   ((-1279473615094295, -47)%Z, [20065; 23547; 23563; 27088; 30142; 36766; 36781; 37129]%N);
   ((-257079597985383, -45)%Z, [20070; 26360]%N);
   ((-2868179098555487, -48)%Z, [20083; 20885; 21709; 22275; 22636; 22995; 25447; 25588; 26352; 26842; 29226; 29312;
     30358; 32048; 32454; 33761; 35606; 35873; 36065; 36179; 36865; 37336; 38025; 38485; 38493; 38860; 38887; 38911;
     40667]%N);
   ((-1171006470738599, -47)%Z, [20094; 30028]%N);
   ((-4856340717173351, -49)%Z, [20104; 22818; 23631; 25705; 26790]%N);
   ((-71813245672471, -43)%Z, [20105; 23519; 26102; 26178; 29229; 32899; 32901]%N);
   ((-1413044828609253, -47)%Z, [20107; 21281; 22609; 24490; 25163; 25351; 25439; 25613; 26172; 26205; 27493; 28459;
     28595; 29673; 31227; 31455; 32066; 32456; 33455; 34560; 34633; 34796; 36603; 36722; 36953; 36965]%N);
   ((-2079378581801003, -48)%Z, [20108; 24180]%N);
   ((-4620527664779141, -49)%Z, [20110; 32218; 32447]%N);
   ((-6551318009819469, -50)%Z, [20113; 38642]%N);
   ((-2426274897035263, -48)%Z, [20116; 20896; 23472; 32597; 34013; 34253]%N);
   ((-4837636340388595, -49)%Z, [20117; 23777; 23805]%N);
   ((-1659528831227953, -48)%Z, [20122; 20126]%N);
   ((-3091931966571093, -48)%Z, [20130; 20266; 20513; 20598; 20605; 20812; 20817; 20855; 21247; 21329; 21564; 21834;
     22432; 22615; 22665; 22840; 22850; 22864; 23462; 23789; 24643; 24716; 25247; 25302; 25718; 27987; 28034; 28040;
     28118; 28335; 28608; 28611; 28790; 29865; 30827; 31659; 31787; 32406; 32420; 32570; 32673; 32680; 32774; 33181;
     33218; 33323; 33405; 34402; 35463; 36012; 36131; 36861; 37026; 37808; 38226; 39361; 39376; 39539; 39547; 39881;
     40100]%N);
   ((-661768683479439, -46)%Z, [20132; 21917; 23143; 23332; 23351; 24033; 25307; 26580; 28860; 29001; 29004; 34588;
     37322; 37323; 38506; 39438; 39569]%N);
   ((-4284100466941935, -49)%Z, [20134; 24421; 24422]%N);
   ((-5607119275880479, -49)%Z, [20135; 20915; 21465; 23781; 23842; 25944; 26274; 27770; 27927; 29986; 30021; 30740;
     32361; 32499; 36100; 36157; 38290; 38386; 38459; 40636]%N);
   ((-4057221994367925, -49)%Z, [20140]%N);
   ((-7200600383601517, -50)%Z, [20141]%N);
   ((-6926394637019939, -50)%Z, [20142]%N);
   ((-2323060353074037, -48)%Z, [20146; 22320; 22686; 22806; 35242; 39336]%N);
   ((-6391946293679625, -50)%Z, [20154]%N);
   ((-6319626101794241, -49)%Z, [20159; 20174; 20238; 20740; 21463; 22427; 22484; 22635; 22829; 24478; 24596; 25329;
     25384; 25551; 25674; 25892; 26465; 26550; 26708; 26781; 26885; 27001; 27627; 28237; 28316; 28366; 28552; 29468;
     29609; 29641; 30196; 30655; 30684; 31085; 31181; 31278; 31726; 31811; 33637; 33873; 35126; 35430; 35616; 35797;
     35875; 36090; 36123; 36186; 36195; 36235; 36264; 36357; 36771; 36785; 36902; 37008; 37061; 37683; 38192; 38495;
     38592; 38929; 38935; 39037; 39047; 39180; 39285; 39699; 39714]%N);
   ((-4833968901011159, -49)%Z, [20160]%N);
   ((-7097607025278027, -50)%Z, [20161]%N);
   ((-1665212556045285, -47)%Z, [20165; 20214; 20390; 20463; 20597; 20677; 20935; 21154; 21233; 21539; 23281; 23321;
     23782; 24005; 24018; 24020; 24751; 24825; 24871; 25003; 25571; 25730; 25744; 25745; 26097; 26584; 26604; 26612;
     26685; 26979; 27010; 27280; 27454; 27872; 27882; 28052; 28122; 28818; 28844; 29649; 29903; 29956; 30083; 30522;
     30758; 30871; 31291; 31563; 31581; 31631; 31799; 32249; 32519; 32928; 33144; 33255; 33276; 33280; 33464; 33473;
     33617; 33796; 33816; 34031; 34442; 34532; 35566; 35864; 36007; 36019; 36094; 36139; 36144; 36188; 36538; 36824;
     36996; 37145; 37193; 37499; 37530; 37694; 37744; 37758; 37864; 37934; 38123; 38124; 38202; 38206; 38256; 38656;
     39469; 39576; 39949; 40133]%N);
   ((-8119976677544129, -50)%Z, [20166; 20693]%N);
   ((-738049351389395, -46)%Z, [20167; 20173; 20973; 21561; 21621; 22280; 23704; 23796; 24222; 24530; 24577; 24907;
     24977; 26292; 26816; 27298; 28861; 29118; 30058; 30406; 30683; 31040; 31751; 32844; 32887; 32963; 33454; 33756;
     35033; 36208; 36341; 36368; 36870; 38920; 39035; 40848]%N);
   ((-1284088372402019, -47)%Z, [20170; 22519; 22937; 24231; 25191; 26539; 26963; 28085; 33310; 40478; 40510]%N);
   ((-5168530816016911, -49)%Z, [20171; 21523; 22151; 25166; 31034; 31177; 32946; 36275]%N);
   ((-2612088037010747, -48)%Z, [20177; 20237; 20311; 20877; 20999; 22564; 22812; 23833; 25110]%N);
   ((-7905189175114325, -50)%Z, [20179; 20489; 27589]%N);
   ((-1204883373972943, -47)%Z, [20180; 21015; 21340; 32874; 32880; 39592]%N);
   ((-2516857788851609, -48)%Z, [20181; 29166; 36291; 36493; 37101]%N);
   ((-5835375839603937, -49)%Z, [20183; 20314; 20901; 21305; 23039; 24524; 24561; 24688; 24917; 24942; 26297; 26834;
     29482; 30036; 31216; 31281; 31491; 31716; 32143; 32485; 32763; 33853; 34385; 35948; 37085; 37550; 37762; 37832;
     38014; 38142; 38209; 39015; 39038]%N);
   ((-5857455138246727, -49)%Z, [20184; 20375; 20881; 21002; 21737; 22134; 23443; 24229; 25153; 25941; 27784; 27986;
     28408; 28478; 28481; 30496; 30511; 30561; 30599; 32964; 33351; 35531; 35559; 35831; 35856; 35980; 36225; 38657;
     38717; 39053; 39519; 39588]%N);
   ((-988722695904155, -47)%Z, [20185]%N);
   ((-283967674640201, -45)%Z, [20189]%N);
   ((-8148055437165053, -50)%Z, [20195]%N);
   ((-4386463164979947, -49)%Z, [20196]%N);
   ((-7640889888744013, -50)%Z, [20202; 20736]%N);
   ((-5195666186990095, -49)%Z, [20208; 21327; 21332; 22317; 29761; 37573; 38156]%N);
   ((-2162011251252745, -48)%Z, [20210]%N);
   ((-2722584333296801, -48)%Z, [20215; 20301; 20729; 20846; 21483; 22218; 24796; 24863; 25331; 27957; 32346; 32557;
     33643; 34093]%N);
   ((-8848014142295155, -50)%Z, [20219]%N);
   ((-6498899614894263, -49)%Z, [20223; 20379; 20945; 20991; 21085; 21093; 21200; 21486; 21596; 21719; 21862; 21978;
     22039; 22057; 22438; 22718; 22820; 23005; 23244; 23305; 23581; 23822; 23860; 24273; 24367; 24398; 25200; 25279;
     25854; 26212; 26247; 26257; 26666; 27257; 27347; 27687; 27796; 28234; 28583; 28856; 29032; 29378; 29993; 30244;
     30722; 31459; 31722; 32033; 32286; 32442; 32543; 33018; 33151; 35060; 35219; 35269; 35598; 35742; 35868; 35891;
     36420; 36664; 36755; 37038; 37049; 37109; 37138; 37238; 37858; 38015; 38230; 38797; 38969; 39059; 39173; 39292;
     40289; 40521; 40701; 40702]%N);
   ((-5209740668902107, -49)%Z, [20225; 20992; 24413; 24840; 25299; 26361; 29976; 34915; 37034]%N);
   ((-136025634353219, -44)%Z, [20234; 20315; 33609; 38991; 39068; 40372; 40548]%N);
   ((-2433934552719667, -48)%Z, [20239; 20934; 21187; 22570; 26088; 28310; 34174]%N);
   ((-5003278438007497, -49)%Z, [20240; 23646; 23660; 24212; 25033; 26381; 26477; 33491; 35696; 35758; 37956; 38136;
     38613]%N);
   ((-2331027157810299, -48)%Z, [20241; 23016; 36831; 36978]%N);
   ((-4826704929859809, -49)%Z, [20247; 24944; 27748; 28271; 30526; 34701; 36797; 36988]%N);
   ((-6011949347751625, -49)%Z, [20249; 20260; 20446; 20663; 21050; 21313; 21472; 21505; 21542; 21809; 21903; 21950;
     22195; 22821; 22942; 23916; 24604; 24895; 24976; 25187; 25296; 25321; 25353; 25799; 26543; 27029; 27922; 28510;
     28753; 29730; 29916; 30090; 30710; 30874; 30959; 31858; 32176; 32510; 33463; 33485; 33980; 34081; 34917; 35013;
     35036; 35037; 35492; 35494; 35823; 35829; 36829; 36949; 37392; 37847; 38052; 38143; 38480; 39000; 39166;
     39280]%N);
   ((-886735629840669, -47)%Z, [20250; 26371]%N);
   ((-5592866617054993, -49)%Z, [20254; 20506; 20632; 20658; 21163; 21280; 23476; 23769; 24109; 24432; 24441; 24651;
     25088; 25152; 25542; 26389; 26786; 26943; 27495; 27993; 28322; 28610; 29454; 29557; 29647; 29744; 33729; 34758;
     36084; 36182]%N);
   ((-6777253127146349, -50)%Z, [20255; 20553]%N);
   ((-4473792845354083, -49)%Z, [20256; 20659; 28846]%N);
   ((-7373341862345575, -50)%Z, [20262; 20523]%N);
   ((-1817853457949525, -48)%Z, [20271]%N);
   ((-6270643051170805, -49)%Z, [20276; 20291; 20433; 20465; 20813; 20976; 20985; 21700; 22031; 23517; 23522; 23884;
     24043; 24051; 24065; 24088; 24092; 24159; 24163; 24453; 25346; 25499; 25577; 25597; 25900; 26286; 26507; 27146;
     27792; 27886; 27978; 28609; 28855; 28975; 29585; 29627; 29682; 29759; 29859; 30778; 31018; 31539; 31614; 31805;
     31806; 32068; 32452; 32573; 32755; 33678; 33795; 36028; 36148; 36887; 36992; 37385; 37521; 37575; 38048; 38049;
     38069; 38115; 39826; 40075]%N);
   ((-2659775007387501, -48)%Z, [20280; 21898; 22830; 24086; 24799; 26080; 26161; 28961; 29787; 30742; 30938;
     32327]%N);
   ((-5636755063194021, -49)%Z, [20284; 20303; 20325; 20342; 20681; 20989; 23194; 24403; 24661; 25035; 25114; 25932;
     25973; 26613; 26629; 26688; 27490; 27873; 27963; 30070; 30385; 30394; 30883; 31264; 32392; 32556; 32933; 33616;
     34214; 34261; 38701; 38724; 39522; 39540]%N);
   ((-2270652517710637, -48)%Z, [20304; 23432; 24466; 26045]%N);
   ((-4182380907530169, -49)%Z, [20307; 32000; 32426; 39636]%N);
   ((-1319457733825729, -47)%Z, [20308; 20859; 21344; 22312; 24452; 24465; 26538; 27085; 27713; 32210; 32490; 35591;
     35674; 35885; 36523; 38477; 39178]%N);
   ((-5231535001730955, -49)%Z, [20313; 21242; 22902; 24102; 24110; 24118; 24171; 24361; 31166; 33550; 33686;
     39192]%N);
   ((-1364025019280597, -47)%Z, [20316; 21193; 22616; 24642; 25509; 25856; 30690; 32189; 32496; 32728; 32761; 32831;
     32918; 33169; 33231; 38662; 40860; 40863]%N);
   ((-5539211755773571, -49)%Z, [20320; 21592; 21628; 21729; 23896; 23992; 24418; 28966; 30361; 31209; 31283; 31337;
     32340; 32455; 32796; 37434; 38064; 39378; 39545]%N);
   ((-4845043683488619, -49)%Z, [20329; 21162]%N);
   ((-1536256099838051, -47)%Z, [20336; 20648; 20747; 20786; 21058; 21137; 21311; 22788; 22874; 22948; 24050; 24103;
     24128; 24460; 24930; 25098; 25615; 26011; 26082; 26643; 26848; 27584; 27585; 27764; 27929; 27998; 28041; 28404;
     28458; 28805; 29590; 30475; 31293; 31520; 32302; 32311; 32533; 32553; 32824; 32883; 32905; 33559; 33976; 34389;
     34638; 34829; 36703; 36720; 36837; 36951; 36986; 38446; 39151; 39277; 40255; 40288; 40509; 40516; 40660]%N);
   ((-4623035241100847, -49)%Z, [20339; 33931; 34083]%N);
   ((-4581854955691349, -49)%Z, [20351; 23553]%N);
   ((-3648466781144863, -49)%Z, [20358; 26469]%N);
   ((-3216296830228841, -48)%Z, [20369; 20392; 20689; 21478; 21943; 22132; 22777; 22949; 24328; 24444; 25101; 25216;
     25220; 25826; 25947; 25986; 26413; 26840; 26869; 27135; 27837; 27965; 27976; 28120; 28186; 28195; 28254; 28689;
     28954; 29255; 29712; 29795; 29827; 30775; 30828; 30844; 31063; 31687; 32016; 32445; 32568; 32617; 32791; 33445;
     33793; 33821; 34015; 34186; 34367; 35496; 35498; 35826; 35828; 36530; 36807; 36820; 36942; 37154; 37484; 38076;
     38752; 39491; 39584; 39649; 39663]%N);
   ((-300341188373735, -45)%Z, [20372; 22656; 26611]%N);
   ((-6959540404579369, -50)%Z, [20381]%N);
   ((-1006696213668051, -47)%Z, [20384; 20448]%N);
   ((-1906025749422991, -48)%Z, [20399]%N);
   ((-373942111879083, -45)%Z, [20405; 20925; 22870; 22958; 23617; 23627; 24789; 25293; 25514; 26479; 26522; 27185;
     27387; 27682; 27691; 27891; 28129; 28134; 28319; 28640; 29243; 29518; 30566; 31169; 31564; 32386; 32670; 34880;
     35441; 35805; 36008; 36135; 36613; 36738; 36991; 38739; 38746]%N);
   ((-2275033539641559, -48)%Z, [20415; 23386; 38859; 38886]%N);
   ((-6373280963075663, -49)%Z, [20417; 20451; 20621; 20960; 21049; 21066; 21070; 21182; 21342; 21507; 23067; 23089;
     23210; 23228; 23436; 23682; 24190; 24736; 25105; 25490; 25758; 26505; 26723; 27053; 27284; 27424; 27498; 27733;
     27762; 27813; 28068; 28079; 28364; 28369; 28701; 29825; 30562; 31048; 31351; 31406; 32097; 32110; 32476; 32741;
     32750; 33261; 33449; 33688; 33988; 35408; 35469; 35527; 35585; 35748; 35784; 35848; 35858; 35912; 36104; 36192;
     37094; 37192; 37347; 37467; 38035; 38085; 38317; 38373; 38396; 38398; 38476; 38915; 38930; 39031; 39041; 39851;
     40091; 40230; 40495]%N);
   ((-3757639766294505, -49)%Z, [20426]%N);
   ((-5578965911947393, -49)%Z, [20432; 21385; 21426; 25810; 28363; 31454; 31478; 32026; 32423; 32742; 39333]%N);
   ((-3037281906928091, -48)%Z, [20439; 20551; 20889; 21414; 21721; 21741; 22130; 23075; 23531; 24264; 24347; 24713;
     25764; 25972; 26454; 27225; 28867; 28916; 29364; 29492; 29657; 30001; 31186; 31548; 31639; 31840; 31929; 32085;
     32222; 32326; 32477; 32526; 32554; 32709; 33086; 33985; 34309; 36575; 36600; 36719; 36724; 37041; 38500; 38646;
     39108; 39128; 39511; 39564]%N);
   ((-1672853325916927, -48)%Z, [20445]%N);
   ((-7006684249210769, -50)%Z, [20449]%N);
   ((-558266693020377, -46)%Z, [20461; 20745; 26441]%N);
   ((-4146767456800683, -49)%Z, [20462]%N);
   ((-5088413905369439, -49)%Z, [20505; 21491; 28155]%N);
   ((-4891659263110667, -49)%Z, [20521; 28325; 36060; 36176; 37051; 37168]%N);
   ((-671758952475611, -46)%Z, [20572; 22697; 23004; 23493; 24046; 27785; 31319; 33080; 33225; 36655; 36753; 36777;
     36783; 38275; 38378]%N);
   ((-1985615937150433, -48)%Z, [20581]%N);
   ((-4689655429401809, -49)%Z, [20613; 22872; 23013; 27426; 27489]%N);
   ((-7229566697666041, -50)%Z, [20625; 26480]%N);
   ((-8584840151599955, -50)%Z, [20633; 22791]%N);
   ((-3521869936285315, -49)%Z, [20711]%N);
   ((-4249405368705541, -49)%Z, [20754; 21487; 40441; 40560]%N);
   ((-2873081301896531, -49)%Z, [20799; 20818]%N);
   ((-2877408613170935, -48)%Z, [20800; 21206; 21207; 24321; 25942; 27766; 27964; 28072; 28386; 28466; 28677; 29334;
     31402; 32362; 32472; 32784; 33564; 33638; 35032; 35600; 35879; 36884; 37048; 37616; 38146; 38431; 38538]%N);
   ((-4791727846579637, -49)%Z, [20801; 24085; 29366; 29376]%N);
   ((-7502387408063105, -50)%Z, [20803]%N);
   ((-4262497818177641, -49)%Z, [20804; 24352; 24373; 36106; 36190]%N);
   ((-8928469783185723, -50)%Z, [20805; 24013; 24245; 24344]%N);
   ((-8116285199132837, -50)%Z, [20808; 24341; 29237]%N);
   ((-3198969162178565, -49)%Z, [20809]%N);
   ((-5864413883283067, -50)%Z, [20811]%N);
   ((-5668038108313251, -49)%Z, [20820; 22882; 23614; 23648; 24357; 24396; 27811; 27973; 28154; 28251; 28373; 28739;
     28843; 30651; 30719; 31014; 34164; 34314; 38606; 38922; 39036]%N);
   ((-298645227687911, -45)%Z, [20826; 21295; 23395; 24594; 27719; 34527; 35937; 37325; 37653; 38175; 40680]%N);
   ((-8590441655227789, -50)%Z, [20837]%N);
   ((-593660317018605, -46)%Z, [20839; 20869; 29677; 37327]%N);
   ((-8067599796274485, -50)%Z, [20840; 26446]%N);
   ((-5718485268873593, -49)%Z, [20843; 20979; 21378; 21380; 21435; 23574; 24188; 24288; 25140; 26053; 27839; 28902;
     29033; 29087; 29123; 29392; 29450; 30165; 31890; 32350; 32469; 33484; 33606; 33610; 33799; 33905; 34085; 34746;
     34966; 36629; 36731; 36882; 36958; 37457; 38082]%N);
   ((-1570038591115903, -48)%Z, [20844]%N);
   ((-2587596511699029, -48)%Z, [20845; 23679; 23996; 30887; 31515]%N);
   ((-6458412141390859, -50)%Z, [20848; 34349]%N);
   ((-744450921177341, -46)%Z, [20849; 20986; 21253; 21736; 22319; 22737; 23475; 24038; 25773; 26463; 27605; 28359;
     28626; 28693; 28919; 29071; 29260; 30005; 30050; 30830; 30906; 30956; 30967; 31165; 32974; 33275; 34928; 36685;
     36761; 37476; 37854; 38002; 38057; 38235; 38262; 38313; 38397; 38551; 38651; 38988; 39064; 39509; 39556]%N);
   ((-4519978623372729, -49)%Z, [20851; 22857; 33267; 38364; 38470; 38520]%N);
   ((-7763279939199857, -50)%Z, [20852; 33288]%N);
   ((-6685709907186489, -50)%Z, [20853]%N);
   ((-2097581285041255, -48)%Z, [20854]%N);
   ((-2280607483698561, -48)%Z, [20856]%N);
   ((-7879513617914547, -50)%Z, [20857; 30427; 33586]%N);
   ((-2435882484208171, -48)%Z, [20861; 28548; 29560; 31215; 31309; 37749; 38190; 38789]%N);
   ((-2432000009182209, -48)%Z, [20873; 34411; 34802]%N);
   ((-2964709464391953, -48)%Z, [20874; 20876; 20995; 21010; 21123; 21169; 21237; 21322; 21413; 22859; 22894; 24555;
     26132; 26517; 28287; 28558; 28629; 28977; 29369; 29494; 29935; 29964; 31287; 31361; 33642; 33984; 35475; 37351;
     38031]%N);
   ((-2724563636448371, -49)%Z, [20891; 36557]%N);
   ((-4586546232451911, -49)%Z, [20908; 26118]%N);
   ((-8155662897910565, -50)%Z, [20912]%N);
   ((-7768679949104525, -50)%Z, [20914; 22025; 34909]%N);
   ((-2940217939080235, -48)%Z, [20917; 24149; 24189; 25171; 25442; 25563; 26632; 26855; 26937; 27754; 27838; 27841;
     29266; 29279; 31499; 31565; 32233; 32531; 32823; 33479; 33894; 35410; 35794; 36321; 36857; 37045; 38878; 38891;
     38945; 39049; 39318; 39654]%N);
   ((-5364610053331535, -49)%Z, [20918; 21350; 21576; 23569; 25343; 25558; 27603; 30095; 33426; 33983; 38543; 38568;
     38989; 39069; 40595]%N);
   ((-4528412488282819, -49)%Z, [20919; 25402; 38472; 38515]%N);
   ((-5254207191374753, -49)%Z, [20928; 21361; 21547; 25484; 28136; 33293]%N);
   ((-8727625395711251, -50)%Z, [20937; 23486; 28092; 32768; 36051]%N);
   ((-1254572831615057, -47)%Z, [20940; 26647; 26792; 29495; 31821; 36024; 36151]%N);
   ((-329365355980931, -45)%Z, [20957; 22534; 23195; 23613; 24551; 24910; 24962; 30433; 33337; 37266]%N);
   ((-2256867560907421, -48)%Z, [20961; 22993]%N);
   ((-507962258977993, -46)%Z, [20964; 40179]%N);
   ((-841184439574713, -47)%Z, [20975; 20977]%N);
   ((-4712754052250423, -49)%Z, [20998; 26976; 32318; 32489; 37555; 38160]%N);
   ((-1111857291844565, -47)%Z, [21016; 21129; 22969]%N);
   ((-4801994695641303, -49)%Z, [21017; 21063; 25958; 29791]%N);
   ((-6943820778801383, -50)%Z, [21018; 21083]%N);
   ((-5105916349912355, -49)%Z, [21019; 21109; 24778; 25324; 26500; 27083; 27575; 31513; 36814; 38902; 39514]%N);
   ((-8167171344687497, -50)%Z, [21021; 26157]%N);
   ((-3304619119543071, -49)%Z, [21033]%N);
   ((-4517889752874283, -49)%Z, [21046]%N);
   ((-5793656760131851, -49)%Z, [21051; 21246; 21351; 21471; 22075; 22331; 25142; 25143; 26512; 26898; 28151; 29422;
     29509; 29942; 30442; 33253; 33633; 33970; 36039; 36164; 37197; 38013; 38075; 38795; 39489; 39580]%N);
   ((-5285931074381367, -49)%Z, [21056; 21108; 21381; 23558; 23559; 24307; 25943; 26089; 26588; 27331; 27604; 32047;
     32972; 33593; 35586; 35859; 36133]%N);
   ((-2234975084317823, -48)%Z, [21069; 33394; 38454; 38542]%N);
   ((-7822733524514035, -50)%Z, [21073; 21133]%N);
   ((-7224547819042505, -50)%Z, [21147]%N);
   ((-5328278095863259, -49)%Z, [21149; 21240; 21495; 22402; 22774; 22778; 26388; 28180; 28417; 34399; 34503; 37782;
     38145; 38590; 38627; 38754]%N);
   ((-1014075723049749, -47)%Z, [21151]%N);
   ((-4121462075097397, -49)%Z, [21152]%N);
   ((-2717222743061045, -48)%Z, [21153; 21209; 21705; 24573; 24656; 26379; 27668; 27683; 28783; 29128; 32244; 32403;
     32451; 32552; 38450; 38924; 39042; 40346; 40535]%N);
   ((-2499180906637945, -48)%Z, [21160; 21205; 21888; 21895; 22810; 26122; 27818; 28396; 37066; 38914; 39030]%N);
   ((-5310955192050113, -49)%Z, [21161; 21619; 22363; 22577; 22727; 22804; 23697; 25253; 25480; 28189; 30315; 30322;
     31449; 32178; 32593]%N);
   ((-2810871087370645, -48)%Z, [21170; 21185; 21464; 24618; 25928; 28103; 28436; 28809; 29200; 31908; 31925; 35370;
     35722; 35775; 38442; 38928; 39044; 39493; 39537]%N);
   ((-2594379369468529, -48)%Z, [21183; 21218; 23156; 23344; 28071; 28392; 28567; 28657; 28904; 29066; 29121; 34542;
     34875; 34923; 37255; 39986; 40140]%N);
   ((-7468713125138429, -50)%Z, [21191]%N);
   ((-494938933226315, -46)%Z, [21195; 21235; 35486; 35821]%N);
   ((-6835979009332439, -50)%Z, [21202]%N);
   ((-7253288566430299, -50)%Z, [21213; 32988]%N);
   ((-571573510067563, -46)%Z, [21220; 21566; 30446]%N);
   ((-347009606499209, -45)%Z, [21232; 25265; 25320; 25765; 26166; 28751; 28765; 29978; 31918; 31975; 32321; 32745;
     32780; 33502; 33740; 35206; 37439; 38079; 39348; 39535; 40023; 40158]%N);
   ((-8373990554491933, -50)%Z, [21270]%N);
   ((-8645093758480177, -50)%Z, [21271; 35895]%N);
   ((-8737180473485133, -50)%Z, [21306; 21312; 21402; 22914]%N);
   ((-4830325199271703, -49)%Z, [21307; 21525; 21570; 37291; 38669]%N);
   ((-178161323908139, -44)%Z, [21315; 21676; 22030; 22352; 23490; 25506; 26144; 26564; 30784; 30928; 30990; 32610;
     32631; 32829; 32856; 33034; 36556; 36587; 36712; 36728; 36776; 37666; 38065; 38622; 40481]%N);
   ((-7177151710363299, -50)%Z, [21319]%N);
   ((-5142643498659353, -49)%Z, [21320; 24091; 25206; 28126; 29723; 32966; 33213]%N);
   ((-763586555235491, -46)%Z, [21321; 21520; 21557; 21568; 22989; 22999; 23401; 23601; 23723; 24331; 24571; 25276;
     25305; 25776; 26003; 26005; 26029; 26039; 27573; 28183; 28227; 28402; 28572; 28734; 29100; 31383; 31496; 31508;
     31558; 32039; 32202; 32703; 33334; 33390; 33446; 33600; 34121; 34310; 36524; 37090; 38000; 38053; 39154; 39278;
     39746; 40056; 40072]%N);
   ((-6113782472952949, -50)%Z, [21326; 33775]%N);
   ((-5044238313111755, -49)%Z, [21330; 23548; 23566; 24443; 24505; 26421; 27714; 28010]%N);
   ((-4396456621848919, -49)%Z, [21331; 29615; 29872]%N);
   ((-5346151024100639, -49)%Z, [21333; 21934; 23696; 24207; 26049; 26865; 27877; 29483; 29840; 30416; 35987; 36981;
     37057; 39524; 39591; 39729; 40573]%N);
   ((-923948390188145, -47)%Z, [21335]%N);
   ((-1847413146276703, -48)%Z, [21338]%N);
   ((-4061840149499187, -49)%Z, [21345; 24351]%N);
   ((-2281735641428089, -48)%Z, [21346; 23621; 30439]%N);
   ((-3716499833631245, -49)%Z, [21355; 34907]%N);
   ((-4762005110473981, -49)%Z, [21360; 24343; 26377; 31066]%N);
   ((-2739310539189887, -48)%Z, [21367; 21880; 22063; 24266; 25240; 25746; 25954; 27833; 27867; 28937; 30031; 31232;
     32903; 35672; 35782; 36554; 36710; 40723]%N);
   ((-7459420913603379, -50)%Z, [21375]%N);
   ((-1178927294225505, -47)%Z, [21382; 24178; 24185; 27511; 31526; 37987; 38259]%N);
   ((-8080021197829481, -50)%Z, [21407]%N);
   ((-4184683364537009, -49)%Z, [21439; 32291]%N);
   ((-4988655539146685, -49)%Z, [21442; 21443; 22696; 22856; 23562; 27442; 28857; 31934; 40670]%N);
   ((-4979113786083435, -49)%Z, [21449; 24819; 26399; 40763]%N);
   ((-2524787185789729, -48)%Z, [21450; 21452; 23429; 24517; 24773; 28504; 30697; 31661; 32771; 33308; 34507; 38346;
     38420; 38452; 38512; 38617]%N);
   ((-541996104800767, -46)%Z, [21451; 30422; 33995]%N);
   ((-8326362309138965, -50)%Z, [21457; 30332]%N);
   ((-7065993001882595, -50)%Z, [21460]%N);
   ((-2506621207055591, -48)%Z, [21462; 22868; 24339; 26797; 28357; 28781; 29436]%N);
   ((-2154718745523037, -48)%Z, [21475; 21551; 21855]%N);
   ((-999063997992403, -47)%Z, [21476]%N);
   ((-5490228705150135, -49)%Z, [21482; 22842; 22890; 25239; 27863; 28044; 28263; 28699; 30027; 30597; 30746; 30831;
     31069; 32172; 32502; 33145; 33210; 33603; 34989; 35186; 36845; 38352; 38423; 39764; 40786; 40831]%N);
   ((-2397564683610589, -48)%Z, [21484; 26342; 31958]%N);
   ((-8234705866210731, -50)%Z, [21490]%N);
   ((-1957821176038007, -48)%Z, [21494; 33865]%N);
   ((-1005827460981349, -47)%Z, [21496; 23481]%N);
   ((-4875687980483245, -49)%Z, [21497; 21767; 22022; 23567; 24358; 26827]%N);
   ((-4326985403836763, -49)%Z, [21512]%N);
   ((-7791923395604065, -50)%Z, [21513; 30343]%N);
   ((-2136597763188437, -48)%Z, [21516; 26228]%N);
   ((-4942486239239283, -49)%Z, [21517; 22411; 28176; 28472; 29002; 33469; 36040; 36158]%N);
   ((-825251648519043, -47)%Z, [21518]%N);
   ((-4912282446677855, -49)%Z, [21519; 22831; 24509; 26495; 29245; 29575; 39492; 39586]%N);
   ((-3685243934329043, -49)%Z, [21531]%N);
   ((-5181935019589971, -49)%Z, [21535; 22242; 22296; 22435; 24208; 24300]%N);
   ((-1134783917188583, -47)%Z, [21548; 23252; 23338; 26198; 26249; 32893]%N);
   ((-2242740403736455, -48)%Z, [21555; 21556; 23159; 23578; 27004; 27155; 27468]%N);
   ((-5565400196408393, -49)%Z, [21574; 24055; 24323; 25250; 25654; 26202; 26820; 26837; 27859; 28784; 28891; 29157;
     29165; 29831; 30772; 31162; 32353; 32483; 33470; 33589; 33647; 34277; 35098; 35222; 35270; 37804; 38224; 38471;
     38580]%N);
   ((-2561990232547245, -48)%Z, [21578; 27462; 29503; 32184; 32438; 38357; 38425]%N);
   ((-7618167823658697, -50)%Z, [21608; 36913]%N);
   ((-1113709127619571, -47)%Z, [21629; 26707; 37941; 38081; 40273; 40515]%N);
   ((-2143430015531497, -48)%Z, [21644]%N);
   ((-5054961493583267, -49)%Z, [21688; 31881; 33495]%N);
   ((-1350862396780379, -47)%Z, [21696; 23556; 30097; 32239; 32428; 33328; 33382; 38589; 38603]%N);
   ((-618367057459325, -46)%Z, [21697; 34903; 35563; 35855; 35947]%N);
   ((-1147226653268275, -47)%Z, [21704; 26524; 34183; 37670; 38182]%N);
   ((-3560481046475725, -49)%Z, [21733]%N);
   ((-4768475870836305, -49)%Z, [21746; 21839; 22766; 22767; 24039; 30805; 30889; 37050; 37172; 38382; 39770;
     40060]%N);
   ((-4093308711164311, -49)%Z, [21796; 21914; 23110; 35328]%N);
   ((-2183496607263527, -48)%Z, [21830; 38593]%N);
   ((-1025054039804337, -47)%Z, [21916]%N);
   ((-5502080720877415, -49)%Z, [21947; 22418; 22744; 23477; 23615; 24041; 26726; 27194; 27740; 28107; 31903; 32104;
     32156; 32466; 32508; 33268; 33891; 38799; 40442; 40557]%N);
   ((-4495409635450999, -49)%Z, [21987; 22622]%N);
   ((-2363843643683423, -48)%Z, [22068; 22863; 26460; 27515]%N);
   ((-8876609962731983, -50)%Z, [22120; 24217; 24287; 25918; 32789; 33298]%N);
   ((-4610607585120051, -49)%Z, [22235; 22575; 23591; 31038; 34299; 38899]%N);
   ((-4848784228502599, -49)%Z, [22238; 25151; 31461; 33032; 33033; 33707; 33883; 38761]%N);
   ((-4784985850387723, -49)%Z, [22240; 22659; 23663; 26000; 28393; 28760; 31143; 31310; 39062]%N);
   ((-4003734403910323, -49)%Z, [22253; 22290]%N);
   ((-4746146316597741, -49)%Z, [22266; 28216; 33804; 36938]%N);
   ((-3373134088376465, -49)%Z, [22269; 22283]%N);
   ((-7835584772676869, -50)%Z, [22270; 22294]%N);
   ((-4499430723643387, -49)%Z, [22278; 22291]%N);
   ((-4675685731101719, -49)%Z, [22303]%N);
   ((-8146161576488329, -50)%Z, [22307; 32854]%N);
   ((-4633178757934301, -49)%Z, [22343]%N);
   ((-2530200332940495, -48)%Z, [22350; 22645; 23576; 35910; 39525; 39589; 39740]%N);
   ((-4082622541307415, -49)%Z, [22362; 22533]%N);
   ((-2339226037752929, -48)%Z, [22365; 22761; 26354; 38598]%N);
   ((-2044213100238337, -48)%Z, [22369]%N);
   ((-510931844927333, -46)%Z, [22374]%N);
   ((-5130132984841525, -49)%Z, [22378; 23047; 23308; 28153; 32652; 39347; 39536]%N);
   ((-1191307798383619, -47)%Z, [22467]%N);
   ((-3415042115978419, -49)%Z, [22478]%N);
   ((-8601728966872631, -50)%Z, [22495]%N);
   ((-2088902026715147, -48)%Z, [22521]%N);
   ((-6999143947679301, -50)%Z, [22522]%N);
   ((-7261883263943495, -50)%Z, [22530]%N);
   ((-2012522333979545, -48)%Z, [22561]%N);
   ((-7897576570678015, -50)%Z, [22612]%N);
   ((-285930658596709, -45)%Z, [22721; 23703; 23831; 37009]%N);
   ((-7421011267499927, -50)%Z, [22763]%N);
   ((-7971252530542793, -50)%Z, [22768; 32882]%N);
   ((-683405995654549, -46)%Z, [22771; 23273; 23456; 23541; 23618; 23652; 25317; 25793; 26023; 27580; 29554; 29854;
     30977; 32609; 32714; 33719; 34453; 34870; 36898; 38287; 38384]%N);
   ((-8121826965399901, -50)%Z, [22781; 23551]%N);
   ((-4174395667922149, -49)%Z, [22797; 28385; 28415]%N);
   ((-8153756208366245, -50)%Z, [22799; 37070]%N);
   ((-1031920644965987, -47)%Z, [22823]%N);
   ((-3847669807429223, -49)%Z, [22825]%N);
   ((-3806721054411153, -49)%Z, [22826]%N);
   ((-6039427710889963, -50)%Z, [22827]%N);
   ((-8880236052522737, -50)%Z, [22836; 34255; 38957]%N);
   ((-565522470240695, -46)%Z, [22839; 28207]%N);
   ((-210701697924873, -45)%Z, [22855]%N);
   ((-8730801420121519, -50)%Z, [22862; 35998; 36126]%N);
   ((-4903942294825177, -49)%Z, [22865; 23506; 23786]%N);
   ((-8721300098699283, -50)%Z, [22885; 22887]%N);
   ((-2376218162824509, -48)%Z, [22899; 37117]%N);
   ((-4730722065354751, -49)%Z, [22900; 23391; 24405; 24537; 28799; 29158; 29699; 37011; 37159; 37636]%N);
   ((-310900180020075, -45)%Z, [22909; 24609; 26059; 29626; 29885; 31072; 37679; 38169]%N);
   ((-257143165070585, -45)%Z, [22915]%N);
   ((-2504119190788339, -48)%Z, [22919; 23142; 26727; 27292; 31098; 31163; 33311; 37656; 38180; 38626]%N);
   ((-7731412720254807, -50)%Z, [22920; 23229; 25193; 25844]%N);
   ((-4640908169338227, -49)%Z, [22925; 23913]%N);
   ((-636773475207603, -46)%Z, [22971; 26199; 28895; 29017]%N);
   ((-938333550182463, -47)%Z, [22982]%N);
   ((-5773902103278605, -49)%Z, [22987; 23991; 24369; 24748; 25080; 25370; 25711; 25975; 28082; 28638; 28909; 29105;
     29420; 29544; 29808; 31546; 31627; 33722; 34203; 34383; 34396; 34900; 35090; 37321; 37532; 37703; 38196; 38286;
     38387; 38393; 38548; 39719; 39796; 40066; 40367]%N);
   ((-6830672322806899, -50)%Z, [22992]%N);
   ((-8468172114673465, -50)%Z, [22996]%N);
   ((-8905951034403893, -50)%Z, [23002]%N);
   ((-4983864446794553, -49)%Z, [23020; 26133; 30563; 33465; 34108; 34297]%N);
   ((-1845007362599437, -48)%Z, [23041; 28246]%N);
   ((-4143541373740187, -49)%Z, [23043; 32057; 32461]%N);
   ((-2532946452056027, -48)%Z, [23045; 23149; 26191; 26881; 27112; 34122; 34398]%N);
   ((-3620259149129273, -49)%Z, [23064]%N);
   ((-7156536065682397, -50)%Z, [23068]%N);
   ((-8094386941773213, -50)%Z, [23125]%N);
   ((-8362466401611161, -50)%Z, [23234]%N);
   ((-155373099222909, -45)%Z, [23376]%N);
   ((-4706889937210467, -49)%Z, [23380; 29289; 32705; 32752]%N);
   ((-1133169320263605, -47)%Z, [23384; 24685; 26376]%N);
   ((-462826422135487, -46)%Z, [23385; 23403]%N);
   ((-4153275621232881, -49)%Z, [23389]%N);
   ((-132041831289401, -44)%Z, [23398; 23416]%N);
   ((-6274038261097767, -50)%Z, [23425; 23527]%N);
   ((-7277521014031317, -50)%Z, [23431]%N);
   ((-3156735346352341, -49)%Z, [23433]%N);
   ((-2064885725181197, -48)%Z, [23435; 23454; 23526]%N);
   ((-4432900620307399, -49)%Z, [23439]%N);
   ((-3017968723734591, -49)%Z, [23447]%N);
   ((-7790542770162097, -50)%Z, [23448]%N);
   ((-674185701377229, -46)%Z, [23449; 29030; 29736; 29740; 34562; 35426; 35810; 37716; 38199; 38582; 38584; 38829]%N);
   ((-8538320051117575, -50)%Z, [23450; 26174; 39023]%N);
   ((-7881007844951171, -50)%Z, [23451; 36874; 36956]%N);
   ((-2454048462942309, -48)%Z, [23452; 24481; 25252; 28006; 28779; 31142; 35703]%N);
   ((-6681580054204493, -50)%Z, [23453; 23542; 25805]%N);
   ((-7591261922133627, -50)%Z, [23458]%N);
   ((-4393105719375233, -49)%Z, [23459; 23736]%N);
   ((-2458249659989439, -48)%Z, [23460; 28952; 29182; 29614; 29771; 36935]%N);
   ((-4565736678079969, -49)%Z, [23466; 25010; 25806]%N);
   ((-1862806265928485, -48)%Z, [23467; 23470]%N);
   ((-4133972588915225, -49)%Z, [23478; 25176]%N);
   ((-6443716241256141, -50)%Z, [23480]%N);
   ((-8982834131709035, -50)%Z, [23485; 23532; 28192; 29992; 36196]%N);
   ((-5161946530977009, -49)%Z, [23487; 23673; 26638; 26646; 26866; 27359; 27994; 28020; 36617; 36733; 36848; 37449;
     38089; 39208; 39302]%N);
   ((-7939309965287949, -50)%Z, [23494; 34892]%N);
   ((-8098007201827561, -50)%Z, [23500]%N);
   ((-7885502461326657, -50)%Z, [23528]%N);
   ((-1915404074497475, -48)%Z, [23546]%N);
   ((-3986436848497723, -49)%Z, [23561]%N);
   ((-4996472041354137, -50)%Z, [23572; 29246]%N);
   ((-2651244809844095, -48)%Z, [23608; 23629; 24377; 24392; 25505; 25913; 29805; 30460; 37000; 37319; 39013;
     39074]%N);
   ((-4788346755614693, -49)%Z, [23609; 24265; 26207; 31995]%N);
   ((-4568011226440629, -49)%Z, [23610]%N);
   ((-22768843332287, -42)%Z, [23612]%N);
   ((-8936077243931235, -50)%Z, [23637; 26417; 26426; 27231]%N);
   ((-1166188580143233, -47)%Z, [23653; 24904; 30424; 30436]%N);
   ((-2764303071815019, -49)%Z, [23665]%N);
   ((-4808944783342413, -49)%Z, [23706; 23888; 28193; 28949; 29029; 37509; 38108]%N);
   ((-501308290267451, -46)%Z, [23707; 23798]%N);
   ((-6763315094395887, -50)%Z, [23721]%N);
   ((-3867017070739117, -49)%Z, [23725; 23994]%N);
   ((-3878283072631941, -49)%Z, [23731; 25996]%N);
   ((-2385869678983337, -48)%Z, [23780; 23968; 24464]%N);
   ((-6567498332111699, -50)%Z, [23792]%N);
   ((-2538520396113029, -48)%Z, [23803; 25308; 26607; 26691; 26722; 26984; 27979; 28204; 28828; 29010; 29356; 35465;
     35565; 35709; 35861]%N);
   ((-4656692846967447, -49)%Z, [23815]%N);
   ((-38718311336643, -42)%Z, [23830; 27741; 35299; 35624; 35871]%N);
   ((-7469750342997913, -50)%Z, [24029]%N);
   ((-6705536275134145, -50)%Z, [24030]%N);
   ((-8465656136181023, -50)%Z, [24037; 29788]%N);
   ((-4213073411237265, -49)%Z, [24052]%N);
   ((-4925029027909475, -49)%Z, [24062; 26420; 26635; 26847; 27192; 30149; 35261; 35272]%N);
   ((-2677652441784007, -48)%Z, [24066; 29742; 29852; 30340; 31041; 31289; 35641; 35880]%N);
   ((-7345122342362553, -50)%Z, [24067]%N);
   ((-1944207209510903, -48)%Z, [24069; 24101]%N);
   ((-3630079533865409, -49)%Z, [24070]%N);
   ((-7131670460829655, -50)%Z, [24072; 24107]%N);
   ((-8172969983634449, -50)%Z, [24076; 26641; 27193; 32929]%N);
   ((-6116586708292615, -50)%Z, [24093]%N);
   ((-2241757942087323, -48)%Z, [24120; 26415; 34899]%N);
   ((-1468734097227281, -48)%Z, [24179]%N);
   ((-5038952359219175, -49)%Z, [24184; 24402; 25910; 26497; 26997; 27512; 28698; 35542; 35770; 36866; 36969; 39381;
     39550]%N);
   ((-8639214372238261, -50)%Z, [24191; 24291]%N);
   ((-3576698833348717, -49)%Z, [24196; 33674]%N);
   ((-439088076561601, -46)%Z, [24198; 24950]%N);
   ((-2248708294641123, -48)%Z, [24211; 24235; 31087; 31118; 33993]%N);
   ((-4933689967253551, -49)%Z, [24213; 25915; 27880; 35258; 35273; 35538; 35845; 36032; 36154]%N);
   ((-8587637419888123, -50)%Z, [24218]%N);
   ((-7140930827551537, -50)%Z, [24220]%N);
   ((-4625554037040761, -49)%Z, [24230; 26679; 27171; 29467]%N);
   ((-2047145157758315, -48)%Z, [24237; 32020; 32431]%N);
   ((-7275772721899219, -50)%Z, [24247]%N);
   ((-903381807724997, -47)%Z, [24310]%N);
   ((-8060562898950093, -50)%Z, [24311]%N);
   ((-4037340475552807, -49)%Z, [24314]%N);
   ((-72433491478765, -43)%Z, [24320; 29287; 32852; 32879; 33879; 38283]%N);
   ((-1127917312026933, -47)%Z, [24322; 30064]%N);
   ((-4415251840969425, -49)%Z, [24335]%N);
   ((-7178753275223457, -50)%Z, [24375; 24378]%N);
   ((-8621758210061747, -50)%Z, [24380; 26223; 40180; 40483]%N);
   ((-4605712337287701, -49)%Z, [24425; 29113]%N);
   ((-7869109188299099, -50)%Z, [24426]%N);
   ((-4547863749842589, -49)%Z, [24433]%N);
   ((-7598219101264419, -50)%Z, [24449; 24501]%N);
   ((-8630452461039515, -50)%Z, [24459]%N);
   ((-8624648840421931, -50)%Z, [24471]%N);
   ((-4245536281630625, -49)%Z, [24494]%N);
   ((-1395704371359715, -48)%Z, [24503]%N);
   ((-4160964813307403, -49)%Z, [24515]%N);
   ((-8769629402547407, -50)%Z, [24518; 25014; 26093; 28814; 30347]%N);
   ((-7619352358125499, -50)%Z, [24535]%N);
   ((-6447058432673155, -50)%Z, [24544]%N);
   ((-2484865534831607, -48)%Z, [24565; 24698; 24887; 32080; 32467; 37073; 37165; 38901; 38907]%N);
   ((-8044888865208867, -50)%Z, [24576; 25079]%N);
   ((-3434481894505145, -49)%Z, [24605]%N);
   ((-8392678118883153, -50)%Z, [24615; 31243]%N);
   ((-4156558137550245, -49)%Z, [24635; 32317]%N);
   ((-4302284282305985, -49)%Z, [24646; 24658]%N);
   ((-882255786256351, -47)%Z, [24681]%N);
   ((-3870307261013193, -49)%Z, [24687]%N);
   ((-4584195707310865, -49)%Z, [24709; 24742; 27915; 29238; 31684; 33539]%N);
   ((-2268487314905509, -48)%Z, [24800]%N);
   ((-2218248878424737, -48)%Z, [24847]%N);
   ((-8125536688383223, -50)%Z, [24858]%N);
   ((-8387977068601059, -50)%Z, [24859; 29233]%N);
   ((-7151831741678885, -50)%Z, [24935]%N);
   ((-8837475220664157, -50)%Z, [25087]%N);
   ((-2288601225128151, -48)%Z, [25096; 32996]%N);
   ((-2460374009519889, -48)%Z, [25102]%N);
   ((-6020650240652153, -50)%Z, [25104]%N);
   ((-4718679895951141, -49)%Z, [25112; 25136; 35584; 35851]%N);
   ((-2619495700756467, -48)%Z, [25119; 26103; 26336; 27530; 28525; 31377; 31407; 36808; 36993]%N);
   ((-6868355358891813, -50)%Z, [25165]%N);
   ((-2199069791302179, -48)%Z, [25196; 25562; 27611]%N);
   ((-8378633447285089, -50)%Z, [25215]%N);
   ((-1125363022525083, -47)%Z, [25242; 25771; 36628; 36741]%N);
   ((-3490759813899259, -49)%Z, [25289]%N);
   ((-5155438366544811, -49)%Z, [25300; 25903; 37013]%N);
   ((-2025864878068431, -48)%Z, [25345]%N);
   ((-2623273945091843, -48)%Z, [25381; 25582; 26196; 26308; 26680; 27850; 31867; 34028; 35336; 35745; 36111; 36194;
     39006]%N);
   ((-8986819622266573, -50)%Z, [25391; 31471]%N);
   ((-70657426151055, -43)%Z, [25463; 30452; 36213; 36249]%N);
   ((-4608154640265555, -49)%Z, [25552; 31680; 33410; 34920]%N);
   ((-155015692975425, -44)%Z, [25622; 25671; 26410; 35215; 35268]%N);
   ((-873195295089051, -47)%Z, [25919]%N);
   ((-3271999016701011, -49)%Z, [25935]%N);
   ((-4628084153449893, -49)%Z, [25945; 33322; 37912; 38047]%N);
   ((-1267859813483935, -47)%Z, [25955; 26597; 29906; 29914; 33541; 37396; 37428; 38046; 38083]%N);
   ((-8607415342125673, -50)%Z, [25964]%N);
   ((-4951422140407457, -49)%Z, [25968; 25976; 38639]%N);
   ((-1564501785510461, -48)%Z, [25991]%N);
   ((-1865627451043531, -48)%Z, [25995; 40779]%N);
   ((-601997718673537, -46)%Z, [26007; 35347; 35757; 39717]%N);
   ((-5074439542368967, -50)%Z, [26031]%N);
   ((-1999783735916275, -48)%Z, [26032]%N);
   ((-3803781361290195, -49)%Z, [26041]%N);
   ((-4075926371152681, -49)%Z, [26063]%N);
   ((-7842788251547499, -50)%Z, [26071]%N);
   ((-2449909050448291, -48)%Z, [26085; 36838]%N);
   ((-1173835460229229, -47)%Z, [26086; 35576; 35832]%N);
   ((-8851549152755923, -50)%Z, [26106]%N);
   ((-4462342621060191, -49)%Z, [26114]%N);
   ((-6645576584204563, -50)%Z, [26124]%N);
   ((-5572764740915619, -50)%Z, [26126]%N);
   ((-4475724064927031, -49)%Z, [26131; 34218]%N);
   ((-6770541334353059, -50)%Z, [26143]%N);
   ((-6788529134334075, -50)%Z, [26149]%N);
   ((-1210331957180155, -47)%Z, [26179; 29380]%N);
   ((-4271847142610263, -49)%Z, [26185; 26187; 36299; 40575]%N);
   ((-1105561274505997, -47)%Z, [26195; 26313]%N);
   ((-4413517016935731, -49)%Z, [26216; 33021]%N);
   ((-1828945317672661, -48)%Z, [26222]%N);
   ((-4173264109845843, -49)%Z, [26230]%N);
   ((-7579761312365189, -50)%Z, [26234]%N);
   ((-6785134458676457, -50)%Z, [26364]%N);
   ((-3724592694705915, -49)%Z, [26366]%N);
   ((-1782150130132841, -48)%Z, [26391; 27874]%N);
   ((-8107109109980979, -50)%Z, [26395; 27704]%N);
   ((-953310731940887, -47)%Z, [26397]%N);
   ((-3815034812417307, -49)%Z, [26408]%N);
   ((-4686833619215723, -49)%Z, [26411; 26525; 26704; 36920; 37027]%N);
   ((-4171007794386787, -49)%Z, [26412]%N);
   ((-7748562083780935, -50)%Z, [26435; 27402]%N);
   ((-4556729286664265, -49)%Z, [26447]%N);
   ((-2333733668823787, -48)%Z, [26448; 31609; 31820; 33489]%N);
   ((-7542621816218183, -50)%Z, [26449]%N);
   ((-3928667482161685, -49)%Z, [26472; 26954]%N);
   ((-4554499778984133, -49)%Z, [26482; 31161; 38660]%N);
   ((-482480704596385, -46)%Z, [26494]%N);
   ((-5802083707117097, -50)%Z, [26519]%N);
   ((-1093352167010745, -47)%Z, [26575; 38712]%N);
   ((-1749956836683317, -48)%Z, [26576]%N);
   ((-7572916914954099, -50)%Z, [26609]%N);
   ((-1100804716190453, -47)%Z, [26631; 27161]%N);
   ((-2379398704876451, -48)%Z, [26657; 38684]%N);
   ((-8034559435814333, -50)%Z, [26681]%N);
   ((-7367641091144383, -50)%Z, [26684]%N);
   ((-6841310826274617, -50)%Z, [26690; 38738]%N);
   ((-4441936929147197, -49)%Z, [26705; 32764; 33487; 34311; 35433; 35799]%N);
   ((-1005179397725615, -47)%Z, [26725; 27211]%N);
   ((-8099821706502067, -50)%Z, [26753]%N);
   ((-6085207138828161, -50)%Z, [26757]%N);
   ((-6764423809312505, -50)%Z, [26862]%N);
   ((-4798551565926723, -49)%Z, [26893; 33098; 33240]%N);
   ((-4381532184956339, -49)%Z, [26970]%N);
   ((-5261972141426677, -49)%Z, [26999; 31482; 31584; 32396; 32493; 36062; 36175]%N);
   ((-917908244122213, -47)%Z, [27054; 33635]%N);
   ((-4420488622485381, -49)%Z, [27169]%N);
   ((-4721666374856745, -49)%Z, [27178; 27243]%N);
   ((-4600859290392677, -49)%Z, [27264; 27744]%N);
   ((-4305134667906581, -49)%Z, [27427; 28070; 28516]%N);
   ((-1035083418254777, -47)%Z, [27453; 38054]%N);
   ((-3002925267171981, -49)%Z, [27491]%N);
   ((-6470308552971597, -50)%Z, [27494]%N);
   ((-1927664554310145, -48)%Z, [27583]%N);
   ((-871434481381523, -47)%Z, [27597]%N);
   ((-1477619817887777, -48)%Z, [27663]%N);
   ((-6384401882368415, -50)%Z, [27665]%N);
   ((-7008060655136275, -50)%Z, [27700]%N);
   ((-3524720321885911, -49)%Z, [27721; 28450]%N);
   ((-7887004662892855, -50)%Z, [27735]%N);
   ((-5923281148755311, -50)%Z, [27743]%N);
   ((-637502691517475, -46)%Z, [27777; 27807; 28317; 28372; 32997; 35412; 35791]%N);
   ((-4879638522684561, -49)%Z, [27779; 31109; 31146; 34074; 34276; 35731; 35753]%N);
   ((-4118377410100427, -49)%Z, [27801; 33922; 40720]%N);
   ((-5337143632684935, -49)%Z, [27803; 29301; 29309; 29616; 29694; 34678; 35282; 35373; 35774; 38292; 38389; 40306;
     40522]%N);
   ((-6384006205011735, -50)%Z, [27827]%N);
   ((-4137144146337301, -49)%Z, [27835]%N);
   ((-3813839589137285, -49)%Z, [27849]%N);
   ((-7550398166172269, -50)%Z, [27861]%N);
   ((-235603295828903, -45)%Z, [27888]%N);
   ((-496601649429315, -46)%Z, [27901; 28580]%N);
   ((-8385633883766049, -50)%Z, [27905; 28500]%N);
   ((-7969633695027613, -50)%Z, [27931]%N);
   ((-998857789181365, -47)%Z, [27934]%N);
   ((-8511827066275477, -50)%Z, [27941]%N);
   ((-7211272500536923, -50)%Z, [27946]%N);
   ((-1036422510073253, -47)%Z, [27954]%N);
   ((-526785996839337, -46)%Z, [27966]%N);
   ((-4246823024941517, -49)%Z, [27982; 28639; 33778]%N);
   ((-5149004582763237, -49)%Z, [27985; 28222; 29801; 30465; 33721; 36896; 37202]%N);
   ((-2177188780788991, -48)%Z, [28009; 33590]%N);
   ((-3247897597235291, -49)%Z, [28023; 36798; 36948]%N);
   ((-4887623762292581, -49)%Z, [28037; 35676; 35695; 35793; 35889]%N);
   ((-7276646528622817, -50)%Z, [28059; 28644]%N);
   ((-4670193492870655, -49)%Z, [28142; 36793; 36816; 36939; 37002; 37096]%N);
   ((-1066288311852457, -47)%Z, [28145; 29747]%N);
   ((-4203450100773883, -49)%Z, [28147; 28557]%N);
   ((-4095273634462575, -49)%Z, [28149; 28170]%N);
   ((-7038775266512193, -50)%Z, [28165]%N);
   ((-2014702631300119, -48)%Z, [28201; 28331]%N);
   ((-4579523896652879, -49)%Z, [28248]%N);
   ((-996812150138477, -47)%Z, [28286; 28771]%N);
   ((-7648161603408723, -50)%Z, [28304]%N);
   ((-8037992060140409, -50)%Z, [28330]%N);
   ((-4698206732359105, -49)%Z, [28342]%N);
   ((-1255846482736159, -47)%Z, [28487; 28703; 35352; 35760]%N);
   ((-2325690979480551, -48)%Z, [28507; 28508; 36070; 36171; 38605]%N);
   ((-120905902388899, -44)%Z, [28526]%N);
   ((-950506221437897, -47)%Z, [28789; 38728]%N);
   ((-6945773771323757, -50)%Z, [28851]%N);
   ((-4043590578886805, -49)%Z, [28872]%N);
   ((-4151097862410939, -49)%Z, [28982; 36805]%N);
   ((-2319159944565433, -48)%Z, [29031]%N);
   ((-7827000996105003, -50)%Z, [29141; 38632]%N);
   ((-3711998210727073, -49)%Z, [29151; 33829]%N);
   ((-833723802332423, -47)%Z, [29239; 29242]%N);
   ((-8627546911280309, -50)%Z, [29273]%N);
   ((-2315312846272593, -48)%Z, [29275; 34784; 40664]%N);
   ((-5813704472824481, -50)%Z, [29305]%N);
   ((-4643508404692883, -49)%Z, [29399; 32943; 37122; 38358; 38383]%N);
   ((-4883616984143621, -49)%Z, [29486; 29563]%N);
   ((-8576489804991045, -50)%Z, [29572; 30331]%N);
   ((-655495802369257, -47)%Z, [29577]%N);
   ((-2967052961734045, -49)%Z, [29579]%N);
   ((-7537099981183343, -50)%Z, [29595; 29802]%N);
   ((-3900121445448719, -49)%Z, [29618]%N);
   ((-6913658076912403, -50)%Z, [29645]%N);
   ((-4159859906272783, -49)%Z, [29664]%N);
   ((-8081806923670659, -50)%Z, [29702]%N);
   ((-3937521399189699, -49)%Z, [29711; 29833; 33673]%N);
   ((-2244715674837113, -48)%Z, [29734; 30086; 36002; 36093; 36129; 36187; 39423; 39567]%N);
   ((-4259854855795267, -49)%Z, [29738]%N);
   ((-8399766704146169, -50)%Z, [29748]%N);
   ((-4222864091986827, -49)%Z, [29756; 29898]%N);
   ((-3573184045947221, -49)%Z, [29790]%N);
   ((-839315033686095, -47)%Z, [29796; 29814]%N);
   ((-8656945445881613, -50)%Z, [29822; 32113; 32479]%N);
   ((-7985927755193385, -50)%Z, [29835; 38597]%N);
   ((-8411681100055619, -50)%Z, [29926]%N);
   ((-8206405276245903, -50)%Z, [29980]%N);
   ((-5833423856077291, -50)%Z, [29983]%N);
   ((-4018137219906053, -49)%Z, [29995]%N);
   ((-7098352901361511, -50)%Z, [30000]%N);
   ((-8212410089982723, -50)%Z, [30002]%N);
   ((-2171019219239903, -48)%Z, [30003]%N);
   ((-4681232080925405, -49)%Z, [30007; 32011; 32441; 33150; 33406; 39472]%N);
   ((-2369962905915595, -48)%Z, [30041; 30342]%N);
   ((-7290720460714583, -50)%Z, [30068; 30087]%N);
   ((-3800273873598285, -49)%Z, [30333]%N);
   ((-611965487671379, -46)%Z, [30382; 38518]%N);
   ((-8833984055365077, -50)%Z, [30408]%N);
   ((-1703435294520763, -48)%Z, [30410]%N);
   ((-1907218441786803, -48)%Z, [30417; 30435]%N);
   ((-4036453241400013, -49)%Z, [30456]%N);
   ((-1060423401228047, -47)%Z, [30473]%N);
   ((-3839488166053003, -49)%Z, [30495]%N);
   ((-8715010138726459, -50)%Z, [30693; 37995]%N);
   ((-390904716133337, -46)%Z, [30707]%N);
   ((-8613130582351363, -50)%Z, [30922]%N);
   ((-1928307925965591, -48)%Z, [31036; 31150]%N);
   ((-7501319698256353, -50)%Z, [31062]%N);
   ((-4123527948804507, -49)%Z, [31070; 40607]%N);
   ((-3104941478347257, -49)%Z, [31077]%N);
   ((-3955658268334569, -49)%Z, [31103; 31108]%N);
   ((-7221214286165145, -50)%Z, [31119]%N);
   ((-876611421260581, -47)%Z, [31168]%N);
   ((-3761434339808303, -49)%Z, [31179]%N);
   ((-6932173434514539, -50)%Z, [31185]%N);
   ((-4591276932168313, -49)%Z, [31192]%N);
   ((-138472207338927, -44)%Z, [31206]%N);
   ((-8579266378301649, -50)%Z, [31267; 31308]%N);
   ((-1027305887658263, -47)%Z, [31354]%N);
   ((-3666095719188661, -49)%Z, [31435]%N);
   ((-3285381244098539, -49)%Z, [31456]%N);
   ((-1062675249081973, -47)%Z, [31481]%N);
   ((-7929901276216487, -50)%Z, [31505]%N);
   ((-7950387074100849, -50)%Z, [31532]%N);
   ((-7033832455595987, -50)%Z, [31574]%N);
   ((-4965097710557679, -49)%Z, [31649; 32004; 32422; 35377; 35768; 37857; 38236]%N);
   ((-2121485792461983, -48)%Z, [31859]%N);
   ((-3781927648686657, -49)%Z, [32005; 32418]%N);
   ((-6850852408014279, -50)%Z, [32013; 32435]%N);
   ((-7602881219341359, -50)%Z, [32032]%N);
   ((-8194490880336453, -50)%Z, [32034]%N);
   ((-4860157341645981, -49)%Z, [32043; 33655]%N);
   ((-1101657673276167, -47)%Z, [32160; 32511]%N);
   ((-7045162361587193, -50)%Z, [32173; 32500]%N);
   ((-7878021371298697, -50)%Z, [32177; 32434]%N);
   ((-4505516728360697, -49)%Z, [32227; 32536]%N);
   ((-3479440509774597, -49)%Z, [32599; 32645]%N);
   ((-8974905226357123, -50)%Z, [32650]%N);
   ((-4054469177374329, -49)%Z, [32654]%N);
   ((-8088978284901919, -50)%Z, [32676]%N);
   ((-6980847248019297, -50)%Z, [32690]%N);
   ((-3840113318758471, -49)%Z, [32701]%N);
   ((-8517076026397009, -50)%Z, [32724]%N);
   ((-8562708728325577, -50)%Z, [32736]%N);
   ((-2089472391604759, -48)%Z, [32769]%N);
   ((-2057654777675181, -48)%Z, [32773]%N);
   ((-130379213178031, -44)%Z, [32819]%N);
   ((-4359075363138505, -49)%Z, [32822]%N);
   ((-4216724991305939, -49)%Z, [32862; 38395]%N);
   ((-8138617830298141, -50)%Z, [32993]%N);
   ((-54147552278311, -43)%Z, [33251]%N);
   ((-4736841146834221, -49)%Z, [33258; 33725; 37335; 38026]%N);
   ((-7063820148380591, -50)%Z, [33391]%N);
   ((-8959212987574191, -50)%Z, [33395; 33399; 33402; 34269; 38750]%N);
   ((-117174801741121, -44)%Z, [33452]%N);
   ((-8480837039069701, -50)%Z, [33457]%N);
   ((-6761100934573467, -50)%Z, [33459]%N);
   ((-4202258671856317, -49)%Z, [33509]%N);
   ((-6293581855295449, -50)%Z, [33521]%N);
   ((-4032037925013653, -49)%Z, [33538]%N);
   ((-3976786041516719, -49)%Z, [33713; 33802]%N);
   ((-933330193948543, -47)%Z, [33714; 34030]%N);
   ((-4275902021750701, -49)%Z, [33777]%N);
   ((-7704250118514527, -50)%Z, [33805]%N);
   ((-7944043959256697, -50)%Z, [33832; 34217]%N);
   ((-7837021786154449, -50)%Z, [33945]%N);
   ((-8509211734305439, -50)%Z, [34281]%N);
   ((-7812838546390105, -50)%Z, [34382]%N);
   ((-4615545774271167, -49)%Z, [34394; 34395]%N);
   ((-1133705463724785, -47)%Z, [34425; 40657]%N);
   ((-4733773292084155, -49)%Z, [34893]%N);
   ((-8017551560936993, -50)%Z, [34913]%N);
   ((-4429326322881437, -49)%Z, [34926; 34974]%N);
   ((-4267821261661681, -49)%Z, [35029; 37628; 38050]%N);
   ((-940222672350151, -47)%Z, [35041; 37324]%N);
   ((-4618031208566343, -49)%Z, [35140]%N);
   ((-6494048936025379, -50)%Z, [35199]%N);
   ((-8024323911622785, -50)%Z, [35211; 35265]%N);
   ((-4142470108044085, -49)%Z, [35264; 35266]%N);
   ((-40757125803673, -42)%Z, [35422; 35789; 38291; 38388]%N);
   ((-3581419615339291, -49)%Z, [35488; 35802]%N);
   ((-974509432371297, -47)%Z, [35516; 35850]%N);
   ((-7407184252759453, -50)%Z, [35582; 35834]%N);
   ((-3878952852548453, -49)%Z, [35609; 35878; 37504; 38134]%N);
   ((-581093148276105, -46)%Z, [35613; 35874; 37326]%N);
   ((-2145512453957535, -48)%Z, [35657; 35777]%N);
   ((-2299224183068175, -48)%Z, [35946]%N);
   ((-8799655179452869, -50)%Z, [35997; 36125]%N);
   ((-1888716507202107, -48)%Z, [36011; 36143]%N);
   ((-4025914088909385, -49)%Z, [36020; 36149]%N);
   ((-933071722822899, -47)%Z, [36066; 36132]%N);
   ((-4703980628650489, -49)%Z, [36074; 36136]%N);
   ((-63627116375779, -43)%Z, [36203]%N);
   ((-587635784755151, -46)%Z, [36215]%N);
   ((-3540293426868213, -49)%Z, [36229]%N);
   ((-8026023383502955, -50)%Z, [36234]%N);
   ((-8282801754083775, -50)%Z, [36335]%N);
   ((-6524110083180965, -50)%Z, [36562; 36713]%N);
   ((-7633664837810215, -50)%Z, [36637; 36745]%N);
   ((-2336466457054061, -48)%Z, [36681; 36716; 36784]%N);
   ((-4509610927886247, -49)%Z, [36763]%N);
   ((-269883942261389, -45)%Z, [36801; 36983]%N);
   ((-8057060874643487, -50)%Z, [36827; 36914]%N);
   ((-3799691411100983, -49)%Z, [36828; 36960]%N);
   ((-4391437718292941, -49)%Z, [36830; 36899]%N);
   ((-7365747230467659, -50)%Z, [36842]%N);
   ((-6735946223527859, -50)%Z, [36890]%N);
   ((-1837211082228807, -48)%Z, [36917]%N);
   ((-4530540846029443, -49)%Z, [36930; 38463]%N);
   ((-7428989333879741, -50)%Z, [36947]%N);
   ((-7441063443231099, -50)%Z, [37030]%N);
   ((-1897238095763337, -48)%Z, [37089]%N);
   ((-3851486431901853, -49)%Z, [37257]%N);
   ((-7288068162887695, -50)%Z, [37329]%N);
   ((-8096195616711313, -50)%Z, [37365; 38039]%N);
   ((-7187602837735943, -50)%Z, [37406; 38055]%N);
   ((-4724668781725155, -49)%Z, [37492; 37969]%N);
   ((-4349718638820855, -49)%Z, [37586; 38155]%N);
   ((-7465607192391255, -50)%Z, [37806; 38215]%N);
   ((-4755607883071095, -49)%Z, [37944; 38094]%N);
   ((-8541003961582413, -50)%Z, [38263; 38271]%N);
   ((-1974015051734477, -48)%Z, [38272; 38376]%N);
   ((-7314876570033815, -50)%Z, [38307; 38401; 38596]%N);
   ((-6488826352682703, -50)%Z, [38451; 38525]%N);
   ((-8339766037761799, -50)%Z, [38453; 38499; 40778; 40784]%N);
   ((-4515808604650385, -49)%Z, [38498]%N);
   ((-3810269070063757, -49)%Z, [38517]%N);
   ((-6960860334281353, -50)%Z, [38534]%N);
   ((-254449480791751, -45)%Z, [38544; 38577]%N);
   ((-485881623953363, -46)%Z, [38634]%N);
   ((-7362912399158437, -50)%Z, [38647]%N);
   ((-3648911976860767, -49)%Z, [38663]%N);
   ((-7184376761297097, -50)%Z, [38678]%N);
   ((-7351643915704157, -50)%Z, [38686]%N);
   ((-2411553896658867, -48)%Z, [38706]%N);
   ((-8887523456001649, -50)%Z, [38742]%N);
   ((-7914392767836515, -50)%Z, [38745; 38748]%N);
   ((-4507560106115701, -49)%Z, [38867; 38889]%N);
   ((-426660132688449, -46)%Z, [38918; 39034]%N);
   ((-7516360569548529, -50)%Z, [38931; 39039]%N);
   ((-3652486274286729, -49)%Z, [39080; 39118]%N);
   ((-429500680080067, -46)%Z, [39131; 39134]%N);
   ((-7111863862376711, -50)%Z, [39321]%N);
   ((-7182767182885951, -50)%Z, [39340; 39532]%N);
   ((-7764627515550845, -50)%Z, [39640]%N);
   ((-7852951182379595, -50)%Z, [39759]%N);
   ((-7808624318487453, -50)%Z, [39791; 40065]%N);
   ((-146640357978635, -44)%Z, [39912; 40120]%N);
   ((-1956038554647825, -48)%Z, [40251; 40511]%N);
   ((-7358203484277471, -50)%Z, [40300; 40527]%N);
   ((-989491755131287, -47)%Z, [40613; 40614]%N);
   ((-8743595874927291, -50)%Z, [40643; 40644]%N);
   ((-4659367198569123, -49)%Z, [40654]%N);
   ((-3945007546122385, -49)%Z, [40718]%N);
   ((-4263823967091085, -49)%Z, [40801; 40836]%N);
   ((-6342452501076229, -50)%Z, [40845; 40857]%N)];
  (* ('E', 'nrfg') *)
  [
   ((-715266721343359, -47)%Z, [19968]%N);
   ((-690913697661401, -46)%Z, [19969; 19989; 19994; 20030; 20094; 20104; 20170; 20202; 20256; 20280; 20304; 20659;
     20736; 20854; 20881; 20985; 21270; 21361; 21513; 21517; 21746; 21776; 22240; 22307; 22312; 22369; 22530; 22665;
     22827; 22996; 23020; 23041; 23391; 23439; 23447; 23452; 23500; 23536; 23736; 24013; 24207; 24357; 24396; 24605;
     24635; 24646; 24658; 24685; 25463; 25996; 26106; 26122; 26195; 26222; 26230; 26234; 26313; 26497; 26609; 26976;
     26989; 26997; 27035; 27036; 27427; 27815; 27818; 27888; 27941; 27946; 28009; 28059; 28149; 28155; 28156; 28170;
     28176; 28356; 28385; 28396; 28415; 28448; 28472; 28644; 28925; 29159; 29313; 29615; 29618; 29664; 29738; 29747;
     29872; 30347; 30495; 30496; 31087; 31118; 31161; 31185; 31584; 32317; 32676; 32764; 32768; 32784; 32792; 32854;
     32874; 32880; 32964; 33289; 33311; 33322; 33391; 33402; 33457; 33620; 33714; 33778; 33945; 34030; 34183; 34269;
     34893; 35433; 35600; 35799; 35879; 36291; 36493; 36606; 36732; 36842; 37030; 37326; 37707; 38149; 38596; 38639;
     38742; 38750; 39321; 39389; 39524; 39548; 39591; 40372; 40548]%N);
   ((-6287439043494613, -50)%Z, [19977]%N);
   ((-4356688062260203, -49)%Z, [19993; 20219; 20309; 21319; 23707; 23798; 24212; 24347; 25033; 26198; 26249; 26641;
     27193; 27494; 27704; 29141; 31258; 31456; 32186; 32494; 33267; 36234; 37329; 37782; 38145; 38876; 38892; 39467;
     39582]%N);
   ((-6605914227919083, -50)%Z, [19996; 26481; 38634]%N);
   ((-4518638671547079, -49)%Z, [19998; 20041; 20625; 21450; 21535; 23433; 24033; 24426; 26366; 26472; 26480; 26954;
     27054; 27589; 29577; 30001; 32177; 32434; 32681; 33635; 36866; 36969; 37009; 38924; 39042; 39640]%N);
   ((-1228118406751145, -48)%Z, [20013]%N);
   ((-4621276583451937, -49)%Z, [20016; 20834; 20975; 20977; 21021; 21165; 21213; 22030; 24196; 24515; 24544; 25196;
     25562; 26575; 27004; 27155; 29831; 31119; 32265; 32537; 32654; 32862; 32988; 33674; 34892; 35920; 38395]%N);
   ((-2454422922278707, -48)%Z, [20020; 20102; 20934; 21451; 21566; 21880; 21916; 22063; 22313; 22372; 22855; 22909;
     23385; 23403; 23453; 23454; 23526; 23542; 23792; 24029; 24429; 24910; 25668; 25885; 25950; 26274; 26524; 26753;
     28180; 28193; 28310; 28417; 28789; 29645; 29748; 29790; 30021; 31038; 31206; 31635; 31680; 31833; 32690; 33256;
     33410; 33464; 33509; 33738; 37658; 38126; 38358; 38383; 38728]%N);
   ((-5312680026585325, -50)%Z, [20026; 28858]%N);
   ((-5137102408280873, -49)%Z, [20029; 20048; 20122; 20126; 20262; 20263; 20523; 20630; 20754; 21073; 21133; 21338;
     21457; 21512; 22899; 22915; 23376; 23913; 24070; 24178; 24185; 24449; 24501; 24535; 25324; 25343; 25935; 25964;
     26007; 26114; 26143; 26185; 26187; 26420; 26757; 27138; 27192; 27784; 27785; 27803; 27966; 28526; 28872; 29626;
     29634; 29702; 29885; 30000; 30332; 31062; 31168; 31243; 31668; 32191; 32244; 32451; 32501; 34081; 35211; 35265;
     36650; 36685; 36718; 36761; 36873; 36890; 36984; 37325; 37586; 37806; 38155; 38215; 38433; 39110; 39129; 39130;
     39717; 40180; 40483; 40599; 40801; 40836]%N);
   ((-2765885373250557, -49)%Z, [20043]%N);
   ((-8354829098320361, -50)%Z, [20063; 20113; 21452; 21647; 25918; 26391; 26412; 29579; 33459; 35424; 38617;
     38642]%N);
   ((-8863719107036921, -50)%Z, [20070; 20163; 20853; 21147; 24037; 24576; 25079; 26360; 26494; 26791; 27905; 28304;
     28500; 36335; 36523; 38745; 38748]%N);
   ((-4290382107823621, -49)%Z, [20108; 20581; 21335; 21488; 22120; 26377; 26522; 26725; 27211; 28085; 28142; 28982;
     29614; 29642; 29701; 29771; 29807; 34388; 36020; 36149; 36817; 40654]%N);
   ((-8083304761016251, -50)%Z, [20116; 20840; 22914; 25919; 27861; 30922; 35328; 35998; 36126; 39745]%N);
   ((-8166742919960423, -50)%Z, [20140; 21033; 21375; 21487; 24320; 27712; 27721; 28450; 32724; 38283; 38663]%N);
   ((-3594146644476913, -49)%Z, [20142; 24314; 36617; 36733]%N);
   ((-2401271241609155, -49)%Z, [20154]%N);
   ((-2373447617635269, -48)%Z, [20248; 20778; 21010; 21123; 22278; 22291; 22522; 23384; 23398; 23416; 24380; 25402;
     26041; 26093; 26118; 26202; 26216; 27835; 29788; 30707; 31302; 31310; 32173; 32361; 32499; 32500; 32650; 32701;
     33395; 33399; 33437; 34913; 35013; 35037; 35282; 35488; 35584; 35802; 35851; 36947; 39062; 40300; 40527]%N);
   ((-7739475590235129, -50)%Z, [20255; 20553; 30008; 30693; 36229; 38263; 38271; 38948; 39056; 39515; 39551]%N);
   ((-1771072544105893, -48)%Z, [20271]%N);
   ((-3612605673707809, -49)%Z, [20305; 22810; 28205; 30591]%N);
   ((-414236065561041, -46)%Z, [20311]%N);
   ((-991620222312467, -47)%Z, [20358; 22478; 22763; 22797; 26469]%N);
   ((-6039469956685897, -50)%Z, [20449; 20914; 34909]%N);
   ((-831259103150583, -47)%Z, [20462]%N);
   ((-5259055610665227, -50)%Z, [20633; 22791]%N);
   ((-659028022593129, -47)%Z, [20803]%N);
   ((-3932352261222121, -49)%Z, [20808; 21191; 23071; 24191; 24291; 27994; 34701; 36793; 37002]%N);
   ((-2115534705220801, -48)%Z, [20809; 20912; 21315; 23418; 24041; 24471; 31435; 37628; 38050; 38451; 38525; 38799;
     39080; 39118]%N);
   ((-62543950729971, -43)%Z, [20811; 21516; 22825; 25588]%N);
   ((-3397000203139511, -49)%Z, [20848; 33275; 34349]%N);
   ((-7343836742179655, -50)%Z, [20852; 33288]%N);
   ((-4992216672993611, -50)%Z, [20891; 36557]%N);
   ((-3651445207497791, -49)%Z, [21018; 21083; 22859; 22894; 25112; 25136; 30333; 38686; 39131; 39134; 39791;
     40065]%N);
   ((-3509967761802951, -49)%Z, [21069; 33436; 34154]%N);
   ((-1306698165218517, -48)%Z, [21151]%N);
   ((-5214141967029559, -50)%Z, [21326; 33775]%N);
   ((-8256862997073489, -50)%Z, [21442; 21443; 22270; 22294; 22768; 23110; 26449; 26771; 29863; 32882; 36808;
     36993]%N);
   ((-1540982260693717, -48)%Z, [21608; 36913]%N);
   ((-2312624957844223, -49)%Z, [21644]%N);
   ((-684356742512625, -47)%Z, [22269; 22283]%N);
   ((-1593033271614599, -48)%Z, [22799; 29983]%N);
   ((-6193559697757747, -50)%Z, [22823; 23665]%N);
   ((-6223991277481385, -50)%Z, [22826]%N);
   ((-6065962941527995, -50)%Z, [22995; 26848; 27665]%N);
   ((-1451013380238847, -48)%Z, [23013]%N);
   ((-8288305688322543, -51)%Z, [23267]%N);
   ((-5988283873948031, -50)%Z, [23425; 23527]%N);
   ((-3681979884797169, -50)%Z, [23478]%N);
   ((-2795859370218863, -49)%Z, [23729]%N);
   ((-2856150260641829, -49)%Z, [24179; 27827]%N);
   ((-6959061244214459, -50)%Z, [24180; 24420; 29081]%N);
   ((-7476448651052819, -50)%Z, [24198; 24503; 24950; 28023; 36106; 36190; 36801; 36983]%N);
   ((-7574414752299691, -50)%Z, [24248; 26727; 27292; 35609; 35878]%N);
   ((-1272311033290831, -48)%Z, [24375; 24378]%N);
   ((-6989087021119921, -50)%Z, [24428; 28976]%N);
   ((-2934829239591997, -49)%Z, [24464]%N);
   ((-6901310128841865, -50)%Z, [24682; 30355]%N);
   ((-1732453861623209, -48)%Z, [24684]%N);
   ((-1597466040025437, -48)%Z, [24840]%N);
   ((-90286491857477, -46)%Z, [25104]%N);
   ((-7626791633569335, -50)%Z, [25165; 26085]%N);
   ((-3039723466955911, -49)%Z, [25991]%N);
   ((-3251274058383771, -49)%Z, [26032]%N);
   ((-3715243585612667, -49)%Z, [26102; 26178; 26376]%N);
   ((-6563422396158985, -50)%Z, [26124]%N);
   ((-8302943658484637, -51)%Z, [26126]%N);
   ((-5557072932811435, -50)%Z, [26149]%N);
   ((-3840862237431267, -49)%Z, [26388; 34115]%N);
   ((-2553130288282855, -49)%Z, [26435; 27402]%N);
   ((-5732053657885235, -50)%Z, [26519; 38918; 39034]%N);
   ((-8083878407741687, -51)%Z, [27491]%N);
   ((-1329891571503621, -48)%Z, [27743]%N);
   ((-1950087467406643, -48)%Z, [27874]%N);
   ((-7051653111358381, -50)%Z, [27915]%N);
   ((-5600549373210445, -50)%Z, [28145]%N);
   ((-7117901624852775, -50)%Z, [28165; 32005; 32418; 33521]%N);
   ((-6026453627821501, -50)%Z, [28572; 28734]%N);
   ((-1668204762872857, -48)%Z, [28847]%N);
   ((-3213093330933953, -49)%Z, [29020]%N);
   ((-1888947449557149, -49)%Z, [30340]%N);
   ((-1679934584121677, -48)%Z, [30422; 33995]%N);
   ((-56745164853821, -43)%Z, [31077]%N);
   ((-6106909268712069, -50)%Z, [33725]%N);
   ((-3241483377634209, -49)%Z, [34382]%N);
   ((-859188589828333, -47)%Z, [34814]%N);
   ((-6768698219968701, -50)%Z, [35041; 37324]%N);
   ((-8756990596849397, -51)%Z, [35498; 35828]%N);
   ((-6819884302706567, -50)%Z, [36215]%N);
   ((-2757606548262521, -49)%Z, [36798; 36948]%N);
   ((-4860753055812887, -50)%Z, [36827; 36914]%N);
   ((-5246039281800831, -50)%Z, [36828; 36960]%N);
   ((-7386328573939753, -50)%Z, [37257; 40251; 40511]%N);
   ((-5963537824920859, -50)%Z, [38632]%N);
   ((-389970073599077, -46)%Z, [38738]%N);
   ((-6696034305032149, -50)%Z, [40845; 40857]%N)];
  (* ('E', 'nrt') *)
  [
   ((-7397215774644727, -50)%Z, [19968]%N);
   ((-6422771721204873, -50)%Z, [19969]%N);
   ((-1656794614937023, -48)%Z, [19975; 33836]%N);
   ((-2584490220037713, -48)%Z, [19976; 20196; 20911; 20964; 21153; 21209; 21220; 22025; 22686; 22865; 23448; 23696;
     26045; 26477; 26690; 27807; 28010; 28044; 28263; 28317; 28392; 28657; 29645; 31354; 32326; 32554; 33489; 37255;
     38742; 39342; 40179]%N);
   ((-8968421497810101, -50)%Z, [19978; 20113; 23736; 28481; 31068; 38642; 39053]%N);
   ((-8742486380483221, -50)%Z, [19979; 21494; 24375; 24378; 25308; 28909; 29105; 29577; 33865; 35895; 38534]%N);
   ((-4565544397071451, -50)%Z, [19990]%N);
   ((-4778773267065091, -49)%Z, [19992; 20799; 20818; 20898; 21460; 22618; 23388; 23631; 25958; 26611; 28006; 28145;
     30333; 31215; 31309; 38498]%N);
   ((-4853944758323349, -49)%Z, [19994; 20179; 20489; 22615; 23822; 24230; 26989; 27849; 28034; 29151; 30008; 33829;
     37070]%N);
   ((-1681286140248741, -48)%Z, [19996; 26481]%N);
   ((-550804877786517, -46)%Z, [19997; 20625; 23495; 26480; 26791; 29289; 32114; 32305; 32437; 33452]%N);
   ((-5147384724229777, -50)%Z, [20013]%N);
   ((-8230498983549529, -50)%Z, [20016; 22235; 30805; 30889; 35920]%N);
   ((-4815105224533367, -49)%Z, [20025; 20041; 20445; 24102; 24118; 24335; 32681; 33391; 34814; 35377; 35768]%N);
   ((-5721138222372637, -49)%Z, [20027; 20177; 20202; 20272; 20339; 20396; 20736; 20738; 21162; 21333; 21340; 21491;
     21934; 23041; 23395; 23429; 23706; 23833; 23888; 24320; 24421; 24422; 24688; 25105; 25163; 26191; 27169; 27954;
     28149; 28170; 28193; 28246; 28251; 28373; 28595; 29468; 29640; 29664; 29916; 31302; 32236; 32517; 32819; 33485;
     33980; 34892; 35215; 35268; 36032; 36154; 37666; 37782; 38065; 38145; 38283; 38596; 38632]%N);
   ((-7717679128236441, -50)%Z, [20029; 28779; 40599]%N);
   ((-4940723876351967, -49)%Z, [20044; 21457; 22253; 22290; 22818; 24211; 24235; 24904; 25102; 26757; 26790; 27431;
     27472; 27863; 28789; 28879; 29273; 30332; 31435; 37096; 38706; 38728]%N);
   ((-4034690878512697, -49)%Z, [20048; 20117; 22900; 27138; 31532; 36763; 38517]%N);
   ((-2312844097299945, -48)%Z, [20052; 20998; 21380; 21932; 24198; 24735; 24950; 28504; 28525; 30079; 30422; 31038;
     32703; 33995; 36002; 36129]%N);
   ((-2447831918897717, -48)%Z, [20065; 22467; 22495; 22763; 28165; 30707; 37129; 38291; 38388; 38669]%N);
   ((-8444469058337013, -50)%Z, [20110; 21521; 22797; 26044]%N);
   ((-1335239609802521, -48)%Z, [20122; 20126]%N);
   ((-185918587065503, -44)%Z, [20136; 20329; 20891; 21213; 21270; 21305; 21306; 21312; 21361; 21462; 22530; 22971;
     23195; 23476; 23519; 23648; 23784; 23786; 24037; 24429; 24535; 24800; 26356; 26435; 26607; 27004; 27155; 27402;
     27836; 27963; 28422; 28625; 28712; 31461; 32016; 32032; 32445; 32988; 33021; 33589; 35609; 35878; 36557; 36807;
     36875; 36942; 37675; 38177; 38712; 38920; 39035; 40251; 40511]%N);
   ((-8320619060662595, -50)%Z, [20140; 21069]%N);
   ((-2263767981713945, -48)%Z, [20141; 20711; 21171; 21214; 24085]%N);
   ((-383369959798151, -47)%Z, [20154]%N);
   ((-2940582805972369, -49)%Z, [20160]%N);
   ((-1311037982833421, -47)%Z, [20161; 21608; 22353; 22768; 22833; 23452; 25343; 26106; 26524; 27189; 27468; 27744;
     32882; 33673; 35140; 36196; 36913]%N);
   ((-4277200101061641, -49)%Z, [20195; 23486; 23578; 27979; 28204; 29677; 36051]%N);
   ((-6566304180356649, -50)%Z, [20234; 29595; 29802]%N);
   ((-1275668621409711, -47)%Z, [20256; 20659; 21151; 22369; 24311; 26395; 27735; 30427; 32080; 32467; 32709; 32946;
     33943; 34276; 35336; 35745; 38613]%N);
   ((-1750203012226433, -48)%Z, [20262; 20523]%N);
   ((-4126180902303551, -49)%Z, [20271; 38464]%N);
   ((-679196120158395, -46)%Z, [20304; 20447; 21273; 23156; 23344; 23481; 23703; 23831; 24051; 26149; 26753; 26970;
     27054; 27946; 28142; 29642; 32622; 33635; 36040; 36158; 36830; 36899]%N);
   ((-2104646290477367, -48)%Z, [20315; 25166; 30465; 33707]%N);
   ((-5559187613085761, -49)%Z, [20324; 20960; 20975; 20977; 20999; 21525; 21570; 21892; 22338; 22365; 22564; 22761;
     23588; 23731; 24190; 24191; 24220; 24291; 24443; 24505; 24859; 26194; 26348; 26495; 26575; 26597; 27694; 27982;
     28205; 28639; 29233; 29260; 29976; 31070; 31456; 32701; 33098; 33240; 34382; 36058; 36169; 36838; 37030; 38428;
     38468]%N);
   ((-5803307417818085, -50)%Z, [20358; 26469]%N);
   ((-2665465524681151, -48)%Z, [20420; 21405; 21512; 22303; 22697; 22806; 23478; 25142; 25143; 25152; 25919; 26460;
     28071; 28216; 28393; 28567; 28760; 28982; 29756; 29898; 31036; 31077; 31150; 31471; 36084; 36093; 36182; 36187;
     36554; 36710; 36797; 36938; 36988]%N);
   ((-4073530412302679, -49)%Z, [20449; 20803; 38991; 39068; 40778; 40784]%N);
   ((-4443982928459767, -49)%Z, [20462; 21271; 21338; 22435; 22616; 24515; 32121; 32482; 35997; 36125]%N);
   ((-6339601959106431, -49)%Z, [20687; 20808; 21187; 21410; 21451; 21496; 21736; 21776; 21916; 22575; 22856; 23020;
     23071; 23159; 23391; 23431; 23534; 23569; 23591; 23721; 24196; 24215; 24258; 25463; 26234; 26441; 26576; 27036;
     27453; 28014; 29738; 29748; 29852; 30343; 30424; 30436; 30446; 30456; 31481; 31574; 32005; 32311; 32418; 32533;
     32705; 32724; 32771; 32993; 33298; 33402; 33426; 33564; 33674; 34269; 35426; 35810; 35946; 35961; 36321; 36827;
     36857; 36914; 37009; 38054; 38450; 38761; 39131; 39134; 39151; 39277; 39333; 40441; 40560]%N);
   ((-553112256440379, -46)%Z, [20809; 22823; 27901; 28580; 32943]%N);
   ((-4333173601545939, -50)%Z, [20811]%N);
   ((-6664270281603521, -50)%Z, [20839; 20869]%N);
   ((-5043361788256825, -49)%Z, [20844; 21049; 21070; 22378; 22836; 23380; 26641; 27193; 27861; 29141; 31319; 31561;
     32113; 32143; 32479; 32485; 33643; 34093; 35211; 35265; 36027; 36153; 38634; 38957]%N);
   ((-8583645999844905, -50)%Z, [20845; 23792; 26102; 26178; 37073; 37165]%N);
   ((-3270940115573839, -49)%Z, [20848; 29983; 34349]%N);
   ((-7600427620045375, -50)%Z, [20852; 21522; 23528; 33288]%N);
   ((-4137328790417555, -49)%Z, [20857; 33586; 33609]%N);
   ((-4172161546058577, -49)%Z, [20872; 21488; 23713]%N);
   ((-8525894884472311, -50)%Z, [20892; 24178; 24185; 26114; 27712; 29081; 29238; 36786]%N);
   ((-1026131577825813, -47)%Z, [20961; 23472; 26408; 33970; 34394; 34395]%N);
   ((-148270144969917, -44)%Z, [21015; 21346; 24247; 28201; 28331; 29785; 30439; 35731; 35753]%N);
   ((-5364485561985109, -50)%Z, [21033]%N);
   ((-3432085935655143, -49)%Z, [21147]%N);
   ((-1808508642427881, -48)%Z, [21152; 21644; 26131]%N);
   ((-1314023922853155, -48)%Z, [21202]%N);
   ((-997407709989041, -47)%Z, [21295; 27719; 28304; 33067; 33073; 33487; 34311]%N);
   ((-1247426731743851, -47)%Z, [21319; 22350; 23460; 23546; 24038; 26500; 27053; 27083; 33251; 36106; 36190; 38738;
     38750; 40664]%N);
   ((-503173213593647, -46)%Z, [21326; 23458; 23500; 27874; 33293; 33775]%N);
   ((-1628313528816537, -48)%Z, [21335; 22885; 22887; 24265]%N);
   ((-6916855161591711, -50)%Z, [21345]%N);
   ((-7690547697158441, -50)%Z, [21355; 34907]%N);
   ((-1879247365275301, -48)%Z, [21407]%N);
   ((-3998358921044421, -49)%Z, [21439; 26494; 32291]%N);
   ((-1822241852751181, -48)%Z, [21475]%N);
   ((-4016231849281801, -49)%Z, [21476; 26391]%N);
   ((-7528537253683973, -50)%Z, [21487; 23398; 23416; 32034]%N);
   ((-3678319206757841, -49)%Z, [21508; 27743]%N);
   ((-3603770792434713, -49)%Z, [21513; 22374; 35582; 35834]%N);
   ((-3819085407944399, -49)%Z, [21531]%N);
   ((-4712467312628509, -49)%Z, [21703; 22266; 22799; 26465; 26781; 26797; 27704; 33433; 40575]%N);
   ((-6414110909984361, -50)%Z, [21704]%N);
   ((-71101823489713, -43)%Z, [21950; 22195; 24466; 25552; 28286; 28771; 36793; 37002; 37341; 38024]%N);
   ((-440328827406461, -46)%Z, [22240]%N);
   ((-6401243342421211, -50)%Z, [22269; 22283; 22810]%N);
   ((-3639811894844377, -49)%Z, [22270; 22294; 40613; 40614]%N);
   ((-3391747200037907, -49)%Z, [22320]%N);
   ((-6045802248968341, -50)%Z, [22478]%N);
   ((-5979376022600585, -50)%Z, [22522]%N);
   ((-3368287557540267, -49)%Z, [22561]%N);
   ((-6064619955639691, -50)%Z, [22612]%N);
   ((-3932052966607839, -49)%Z, [22622; 24605; 25112; 25136; 38918; 39034]%N);
   ((-609520063356829, -47)%Z, [22827]%N);
   ((-4574475636296323, -49)%Z, [22830; 24248; 27611; 40643; 40644]%N);
   ((-1554192903273577, -48)%Z, [22855]%N);
   ((-2231868792656507, -48)%Z, [22868; 23043; 23467; 23470; 26354; 31069; 33620; 38859; 38886]%N);
   ((-2031783218099497, -48)%Z, [22958; 39080; 39118]%N);
   ((-6012099327174597, -50)%Z, [22982; 32752]%N);
   ((-4505456664785099, -49)%Z, [23045; 23149; 24343; 37326; 40180; 40483]%N);
   ((-6444719782820221, -50)%Z, [23068]%N);
   ((-506721969431179, -46)%Z, [23376]%N);
   ((-6339023097649099, -50)%Z, [23425; 23527]%N);
   ((-5522862895153669, -50)%Z, [23433]%N);
   ((-5171446354514353, -50)%Z, [23447]%N);
   ((-825176629431587, -47)%Z, [23453; 23542]%N);
   ((-3709033184400337, -49)%Z, [23494]%N);
   ((-3240375827384427, -49)%Z, [23567]%N);
   ((-7825587256497881, -51)%Z, [23572; 29246]%N);
   ((-5454605639098175, -50)%Z, [23612]%N);
   ((-7190219706181275, -50)%Z, [23614]%N);
   ((-7450084637528859, -50)%Z, [23621]%N);
   ((-180045808910219, -45)%Z, [23665]%N);
   ((-6303277241174339, -50)%Z, [23707; 23798]%N);
   ((-2756565816998387, -49)%Z, [23725; 23994]%N);
   ((-6351195107083719, -50)%Z, [24029]%N);
   ((-3088818435513241, -49)%Z, [24030]%N);
   ((-3448404468187739, -49)%Z, [24052]%N);
   ((-8613671776750367, -50)%Z, [24066; 25773; 30382]%N);
   ((-6503871561745023, -50)%Z, [24067]%N);
   ((-7298389222529195, -50)%Z, [24076; 26366; 33778]%N);
   ((-2552394582956585, -49)%Z, [24093]%N);
   ((-3894256899202657, -49)%Z, [24120; 26705; 28330]%N);
   ((-7252049352542933, -50)%Z, [24179]%N);
   ((-1097141523513689, -47)%Z, [24213; 24218; 26230; 27801]%N);
   ((-4354437466027009, -49)%Z, [24314; 26032; 27721; 28037; 28450; 32004; 32422; 38533; 40169; 40480]%N);
   ((-4249046737128555, -49)%Z, [24403; 27663; 30070; 36947]%N);
   ((-1652912139911061, -48)%Z, [24471]%N);
   ((-1003893797586721, -48)%Z, [24503]%N);
   ((-6845034301660361, -50)%Z, [24681]%N);
   ((-4007224457866097, -49)%Z, [25096; 30000; 38452; 38512]%N);
   ((-1395256399717965, -48)%Z, [25104]%N);
   ((-6295485515220323, -50)%Z, [25176]%N);
   ((-8676237866988827, -50)%Z, [25196; 25562; 27779; 29066; 30495; 32654]%N);
   ((-8053812784189731, -51)%Z, [25289]%N);
   ((-2161130069809087, -48)%Z, [25505; 37319; 38518]%N);
   ((-7115409174947487, -50)%Z, [25705; 33521; 37806; 38215]%N);
   ((-1969963260438029, -48)%Z, [25746; 28147; 36341; 36368]%N);
   ((-1926007922385567, -48)%Z, [25991]%N);
   ((-929169071429261, -48)%Z, [26031]%N);
   ((-2703880723318405, -49)%Z, [26085]%N);
   ((-1682711333049039, -48)%Z, [26124]%N);
   ((-4148701903560937, -49)%Z, [26126; 26725; 27211]%N);
   ((-1624802360917021, -48)%Z, [26222]%N);
   ((-1477779691636273, -48)%Z, [26364]%N);
   ((-1170507543233197, -47)%Z, [26376; 28540; 30053]%N);
   ((-7962072034462551, -50)%Z, [26412]%N);
   ((-4599499753965069, -49)%Z, [26426; 27231; 29369; 29494; 38463; 38935; 39047]%N);
   ((-7731494024342515, -50)%Z, [26449]%N);
   ((-1540934173906065, -48)%Z, [26519]%N);
   ((-7386933512251597, -50)%Z, [26681]%N);
   ((-5657675977566337, -50)%Z, [26684]%N);
   ((-1815291500197381, -48)%Z, [26862]%N);
   ((-7612868629578477, -50)%Z, [27494; 37117]%N);
   ((-373163381962615, -46)%Z, [27604]%N);
   ((-837133225171755, -47)%Z, [27665]%N);
   ((-3472075520822465, -49)%Z, [27700]%N);
   ((-7068161687091161, -50)%Z, [27827]%N);
   ((-7651038383451947, -50)%Z, [27835; 37027]%N);
   ((-7664054712316343, -50)%Z, [27888]%N);
   ((-7540204714641925, -50)%Z, [27931]%N);
   ((-3752779453507817, -49)%Z, [27941]%N);
   ((-6702625812213135, -50)%Z, [28023]%N);
   ((-3821199271629103, -50)%Z, [29305]%N);
   ((-3059043162050071, -50)%Z, [29579]%N);
   ((-496571305608669, -46)%Z, [29632]%N);
   ((-6965066192430971, -50)%Z, [29702]%N);
   ((-2997066229017925, -49)%Z, [29747]%N);
   ((-8188007151789431, -50)%Z, [29790; 32652]%N);
   ((-3582363271859017, -49)%Z, [29791]%N);
   ((-6719472509165943, -50)%Z, [29926]%N);
   ((-424721014068501, -46)%Z, [30331]%N);
   ((-1890977186524121, -48)%Z, [30772]%N);
   ((-7243005931177239, -50)%Z, [31062]%N);
   ((-7806026514638717, -51)%Z, [31087; 31118]%N);
   ((-6742334206444741, -50)%Z, [31119]%N);
   ((-645361896859545, -47)%Z, [31143]%N);
   ((-1485472654308739, -48)%Z, [31185]%N);
   ((-1455887215046675, -48)%Z, [31859]%N);
   ((-6195256947488609, -50)%Z, [32013; 32435]%N);
   ((-7745480538451641, -50)%Z, [32173; 32500; 36203]%N);
   ((-7225134128840891, -50)%Z, [32597]%N);
   ((-4929114033415673, -50)%Z, [32599; 32645]%N);
   ((-8167347858272267, -50)%Z, [32822]%N);
   ((-1943496464025653, -48)%Z, [33203]%N);
   ((-6877113392034935, -50)%Z, [33437]%N);
   ((-5691220660501593, -50)%Z, [33576]%N);
   ((-7912023799125059, -50)%Z, [33678]%N);
   ((-3496785755040971, -49)%Z, [33713; 33802]%N);
   ((-3549719347865723, -49)%Z, [33832; 34217]%N);
   ((-7173160290320081, -50)%Z, [33922]%N);
   ((-1844186075820695, -48)%Z, [33945]%N);
   ((-1251986819586541, -48)%Z, [34926; 34974]%N);
   ((-8752219593957879, -51)%Z, [35041; 37324]%N);
   ((-5115628237898745, -50)%Z, [35199]%N);
   ((-2326577307623245, -48)%Z, [35282; 36890; 39321]%N);
   ((-1919305820599037, -48)%Z, [35613; 35874]%N);
   ((-7848576033111831, -50)%Z, [36066; 36132]%N);
   ((-52149190044199, -43)%Z, [36335]%N);
   ((-5432742818040603, -50)%Z, [36798; 36948]%N);
   ((-6958051217047151, -50)%Z, [36828; 36960]%N);
   ((-8393282975599147, -50)%Z, [36842]%N);
   ((-214304889683379, -45)%Z, [36874; 36956]%N);
   ((-7181657688441881, -50)%Z, [37329]%N);
   ((-3104777140642457, -49)%Z, [37365; 38039]%N);
   ((-8368536926571975, -50)%Z, [37941; 38081]%N);
   ((-7091537611328815, -50)%Z, [38272; 38376]%N);
   ((-1725862858242219, -48)%Z, [38451; 38525]%N);
   ((-55341340524961, -43)%Z, [38597]%N);
   ((-7270357071477683, -50)%Z, [38647]%N);
   ((-3018255018716645, -49)%Z, [38931; 39039]%N);
   ((-773521974082185, -47)%Z, [39340; 39532]%N);
   ((-3038671061923729, -49)%Z, [39640]%N);
   ((-3794061290275653, -49)%Z, [39791; 40065]%N);
   ((-460415404911543, -46)%Z, [40657]%N);
   ((-7107395618649567, -50)%Z, [40845; 40857]%N)];
  (* ('E', 'ns') *)
  [
   ((-6226564615481599, -49)%Z, [19969; 21029; 21035; 21171; 21214; 21319; 22885; 22887; 22993; 23476; 26472; 26639;
     26893; 26954; 27396; 27964; 30496; 31402; 31859; 32115; 32475; 34382; 39770; 40060]%N);
   ((-2335815370606407, -48)%Z, [19971; 21892]%N);
   ((-7006978961502269, -49)%Z, [19975; 20094; 20190; 21452; 22350; 22367; 22636; 22707; 22741; 22914; 23398; 23416;
     23706; 23888; 25918; 26118; 26517; 26842; 29791; 30722; 31069; 31166; 31168; 33542; 33706; 33836; 34955; 34987;
     35258; 35273; 36040; 36158; 38617; 39640]%N);
   ((-7982977935356841, -50)%Z, [19978]%N);
   ((-4816078905956775, -49)%Z, [19979; 22576; 36234]%N);
   ((-2489653747627715, -48)%Z, [19990; 20826; 40680]%N);
   ((-4104850060054791, -49)%Z, [19992]%N);
   ((-1597128806192119, -47)%Z, [19994; 20180; 22577; 23487; 23519; 25253; 26465; 26597; 26781; 26898; 26989; 27663;
     37025; 38899]%N);
   ((-2324172285794761, -49)%Z, [19996; 26481]%N);
   ((-2955764466864761, -48)%Z, [19997; 23811; 23821; 24324; 24403; 26384; 30070; 32114; 32705; 38867; 38889]%N);
   ((-6179798330772529, -50)%Z, [20013]%N);
   ((-7855887087878285, -50)%Z, [20016; 21015; 35920]%N);
   ((-7363068192335529, -50)%Z, [20020; 33256]%N);
   ((-3431420751427863, -49)%Z, [20025]%N);
   ((-4617975879931393, -49)%Z, [20026; 27888; 28858]%N);
   ((-6845028352215393, -49)%Z, [20027; 20108; 21632; 22521; 23729; 24310; 24441; 24490; 25302; 26464; 26479; 26531;
     26611; 26839; 27091; 27839; 28909; 29105; 29255; 31036; 31150; 31681; 31890; 32147; 32463; 33278; 36008; 36135;
     37041; 37101; 38485; 38493; 38669; 38991; 39068; 40635]%N);
   ((-4885264406075461, -49)%Z, [20029; 27583; 28100; 40599]%N);
   ((-28262638770413, -41)%Z, [20037; 20237; 21016; 21129; 21147; 21183; 21218; 21451; 21490; 22376; 22605; 22681;
     22788; 22862; 22992; 23110; 23391; 23457; 23529; 23574; 23704; 23796; 23901; 23937; 24544; 24605; 24688; 25928;
     26376; 27427; 27821; 28504; 28902; 29033; 29141; 29238; 29254; 29287; 30343; 31499; 31565; 32573; 32736; 32764;
     32943; 33609; 33853; 34106; 34298; 34299; 34389; 36214; 36245; 37045; 38069; 38497; 38610; 40180; 40483]%N);
   ((-8400348074106789, -50)%Z, [20041; 32681]%N);
   ((-5086054549152319, -49)%Z, [20044; 28879]%N);
   ((-7997230023215717, -50)%Z, [20048; 27138]%N);
   ((-3872279682476141, -49)%Z, [20065; 37129]%N);
   ((-839926212549599, -46)%Z, [20070; 21149; 21240; 22043; 22260; 22285; 24464; 26360; 26792; 26851; 26970; 26974;
     28385; 28415; 29995; 30003; 30765; 33107; 34746; 34784; 38544; 38577]%N);
   ((-2513680409123267, -48)%Z, [20080; 36023]%N);
   ((-4046295690445279, -49)%Z, [20113; 38642]%N);
   ((-141805516250067, -44)%Z, [20117; 33589]%N);
   ((-2208037706325523, -49)%Z, [20122; 20126]%N);
   ((-1032292621035351, -48)%Z, [20140]%N);
   ((-2568928291950383, -48)%Z, [20141; 21346; 28096; 30439]%N);
   ((-8352643952841021, -50)%Z, [20160]%N);
   ((-5369514668265765, -49)%Z, [20161; 25196; 25562; 30036; 32057; 32461; 38647]%N);
   ((-8898662750888161, -50)%Z, [20177; 23833]%N);
   ((-4657007842352003, -49)%Z, [20179; 20489]%N);
   ((-5079902029405285, -49)%Z, [20182; 21400; 28192]%N);
   ((-1632498167615829, -47)%Z, [20185; 20975; 20977; 22570; 23452; 23631; 27597; 27988; 28527; 29577; 29723; 29747;
     30424; 30436; 32143; 32485; 33452; 33707; 33778; 36784]%N);
   ((-5359371151432311, -49)%Z, [20196; 26223; 26411; 31377; 31407; 36827; 36914]%N);
   ((-2969497677188061, -48)%Z, [20204; 20497; 20892; 21457; 24576; 25079; 30010; 30332; 36786; 38738]%N);
   ((-5423169529547187, -49)%Z, [20234; 32752]%N);
   ((-5885340493094701, -49)%Z, [20241; 21484; 36213; 36249; 36275; 38263; 38271; 38296; 38392]%N);
   ((-324682060363983, -45)%Z, [20250; 22995; 23621; 26371; 30489]%N);
   ((-4347359282603735, -49)%Z, [20262; 20523]%N);
   ((-438464440247687, -46)%Z, [20271]%N);
   ((-5266876756360907, -49)%Z, [20313; 20937; 26495; 28092; 39192]%N);
   ((-1367527300603905, -47)%Z, [20315; 25935; 26575; 27425; 32361; 32499]%N);
   ((-8583780805433861, -50)%Z, [20316]%N);
   ((-7728911735993113, -50)%Z, [20358; 26469]%N);
   ((-5640278205156641, -49)%Z, [20381; 26085]%N);
   ((-713842348831583, -46)%Z, [20399; 22534; 24055; 26421; 27861; 28014]%N);
   ((-539178329209253, -46)%Z, [20420; 36793; 37002]%N);
   ((-1568886916526259, -47)%Z, [20445; 21487; 22466; 23534; 25171; 26143; 26395; 26609; 26646; 26647; 26771; 26799;
     26866; 27491; 28925; 29595; 29802; 30865; 32972; 35584; 35851; 36084; 36182; 38472; 38515; 40595]%N);
   ((-3308385894245967, -48)%Z, [20449; 21499; 22238; 22303; 22364; 22675; 22754; 23700; 24375; 24378; 27493; 29420;
     29544; 31729; 31852; 32769; 33922; 34164; 34314; 36203; 37941; 38081; 39321]%N);
   ((-4843545326603375, -49)%Z, [20803; 37066]%N);
   ((-2593728283020875, -48)%Z, [20805; 23448]%N);
   ((-2344847428197475, -48)%Z, [20809; 29279]%N);
   ((-3223152676317367, -49)%Z, [20811]%N);
   ((-4571467338581961, -49)%Z, [20839; 20869; 23627]%N);
   ((-94226334033859, -43)%Z, [20840; 23439; 23854; 27014; 27453; 27825; 27996; 30410; 34394; 34395; 35201; 35731;
     35753; 38054]%N);
   ((-6064614006194723, -49)%Z, [20844; 22030; 22395; 24085; 24646; 24658; 25252; 26704; 27605; 28071; 28567; 30050;
     32600; 35624; 35703; 35871]%N);
   ((-3227410589602529, -48)%Z, [20845; 21776; 23769; 27167; 27873; 28201; 28331; 28583; 30427; 30693; 31070; 31103;
     31108; 33286; 33590; 34021; 35910; 35937; 36628; 36671; 36741; 37193; 37795; 38917; 39033]%N);
   ((-5384318590028351, -50)%Z, [20848; 34349]%N);
   ((-6433268234599637, -50)%Z, [20851; 38364]%N);
   ((-1776075619899091, -48)%Z, [20852; 33288]%N);
   ((-7573459426611489, -50)%Z, [20854]%N);
   ((-7096219889918685, -50)%Z, [20856; 27801]%N);
   ((-4408897081512741, -49)%Z, [20857; 22365; 22761; 33586]%N);
   ((-8777644369236387, -50)%Z, [20872; 23713; 26032]%N);
   ((-5050109365971619, -49)%Z, [20914; 34909]%N);
   ((-5055943096450595, -49)%Z, [20918]%N);
   ((-1161394248428151, -47)%Z, [20919; 26114]%N);
   ((-5998308051758141, -49)%Z, [20940; 21162; 22313; 23500; 27054; 27754; 33635; 36874; 36956]%N);
   ((-5217893705737471, -49)%Z, [20961; 26045]%N);
   ((-2874789162221323, -48)%Z, [20964; 22372; 22615; 23786; 23860; 28034; 28216; 36938; 40179]%N);
   ((-5967870912062419, -49)%Z, [20999; 21494; 22336; 23762; 25096; 29664; 30053; 33865]%N);
   ((-1344961078756087, -47)%Z, [21017; 21063; 38473; 38488]%N);
   ((-7625442698236063, -49)%Z, [21018; 21083; 21280; 22343; 22362; 22533; 22830; 22865; 22899; 23068; 23395; 23567;
     24191; 24291; 24339; 24494; 24735; 24917; 26131; 26174; 26397; 26691; 26848; 26865; 27863; 28037; 28044; 28205;
     28263; 28625; 28712; 28779; 29425; 29508; 29785; 30887; 31161; 31243; 31661; 32005; 32043; 32418; 32862; 32918;
     33426; 33593; 33777; 36882; 36958; 37048; 38395; 38495; 38592; 38633; 39023; 40718]%N);
   ((-2821974964159895, -49)%Z, [21033]%N);
   ((-2302333375259817, -48)%Z, [21069]%N);
   ((-7434711808238195, -50)%Z, [21152]%N);
   ((-4214459577509299, -49)%Z, [21202]%N);
   ((-4859863859135971, -49)%Z, [21213; 32988]%N);
   ((-6100945963662999, -49)%Z, [21220; 22564; 22697; 23453; 23542; 26185; 26187; 26361; 29748; 31532; 31918;
     31975]%N);
   ((-5521321760719187, -49)%Z, [21243; 21248; 21333; 21934; 22987; 26438; 26446; 26751; 36305; 40575]%N);
   ((-7473444371374493, -50)%Z, [21270]%N);
   ((-1277683432293849, -48)%Z, [21271]%N);
   ((-5180097638332289, -49)%Z, [21283; 28872]%N);
   ((-2286976386438569, -48)%Z, [21295; 22366; 22626; 27719]%N);
   ((-307239909934405, -46)%Z, [21306; 21312]%N);
   ((-8766938425747873, -50)%Z, [21326; 33775]%N);
   ((-4027481221126831, -50)%Z, [21335]%N);
   ((-4868204010988649, -49)%Z, [21338; 27982; 28639]%N);
   ((-8510739641404537, -50)%Z, [21345]%N);
   ((-621145497302747, -46)%Z, [21355; 22496; 24459; 25552; 25991; 26477; 34907]%N);
   ((-2446996243581859, -48)%Z, [21378; 24288]%N);
   ((-3090752288462533, -48)%Z, [21380; 22280; 22686; 24266; 24825; 29463; 29863; 30041; 30382; 30452; 38518;
     38712]%N);
   ((-5302072588411433, -49)%Z, [21381; 24307; 33436; 34154; 39318]%N);
   ((-5577663739052085, -49)%Z, [21382; 23481; 27511; 29422; 29509; 39498; 39557]%N);
   ((-650871111510933, -47)%Z, [21407]%N);
   ((-2723075134730465, -48)%Z, [21414; 24264; 26550; 32676]%N);
   ((-4580901000324759, -50)%Z, [21439; 32291]%N);
   ((-3380151274874065, -49)%Z, [21450]%N);
   ((-6343939216090309, -50)%Z, [21475]%N);
   ((-5780003770459989, -50)%Z, [21476]%N);
   ((-3665434340742691, -49)%Z, [21488]%N);
   ((-2674703587664313, -48)%Z, [21496]%N);
   ((-5117868095287803, -49)%Z, [21508; 31072]%N);
   ((-1238570844396671, -47)%Z, [21512; 27901; 28580; 39515; 39551]%N);
   ((-4823790669750129, -49)%Z, [21513]%N);
   ((-4053167004479021, -49)%Z, [21516]%N);
   ((-1286170075811963, -47)%Z, [21517; 22855; 38742]%N);
   ((-5241852638692161, -49)%Z, [21531; 34398]%N);
   ((-8262902138760857, -50)%Z, [21555; 21556]%N);
   ((-5623959672624045, -49)%Z, [21566; 26280; 26494; 26862; 29983; 31206; 40643; 40644]%N);
   ((-2505441528947031, -48)%Z, [21608; 22363; 22727; 24072; 24107; 36913]%N);
   ((-1057279272671917, -47)%Z, [21644]%N);
   ((-4724397435147099, -49)%Z, [21703; 26222]%N);
   ((-4744268319925487, -49)%Z, [21704; 30446]%N);
   ((-429214562697435, -46)%Z, [21733]%N);
   ((-5791297403914731, -49)%Z, [21916; 25237; 25903; 30422; 33021; 33541; 33995; 36808; 36993]%N);
   ((-5098565062970147, -49)%Z, [22025]%N);
   ((-1129284132926979, -47)%Z, [22068]%N);
   ((-2458211869762197, -48)%Z, [22235]%N);
   ((-6329202527386457, -49)%Z, [22240; 22856; 24140; 25995; 26009; 27704; 28526; 30779; 31025; 33485; 33521; 33980;
     36763; 37070; 40779]%N);
   ((-7405717075275521, -50)%Z, [22253; 22290]%N);
   ((-711534970177721, -46)%Z, [22266; 26106]%N);
   ((-7339546645626775, -52)%Z, [22269; 22283]%N);
   ((-4835560086995355, -49)%Z, [22270; 22294; 24213]%N);
   ((-480117321044183, -46)%Z, [22307; 32854]%N);
   ((-4508200630539743, -49)%Z, [22317]%N);
   ((-3506218313776045, -49)%Z, [22320]%N);
   ((-1477521312552299, -48)%Z, [22323]%N);
   ((-1974853333684053, -48)%Z, [22330; 22580]%N);
   ((-5458002285188209, -49)%Z, [22331; 27902; 28039; 28467; 32032]%N);
   ((-5729823667589399, -49)%Z, [22338; 23679; 23996; 24245; 30977]%N);
   ((-2299714984501839, -48)%Z, [22346; 34892]%N);
   ((-5401090230904397, -49)%Z, [22353; 26041]%N);
   ((-7093806384371033, -50)%Z, [22369]%N);
   ((-1773652577876885, -48)%Z, [22374]%N);
   ((-4711529447381889, -49)%Z, [22378]%N);
   ((-325154340905905, -45)%Z, [22435; 26388; 30406; 32771; 37610; 38138; 39250; 39286]%N);
   ((-1030610919491181, -47)%Z, [22467]%N);
   ((-2470484599834143, -49)%Z, [22478]%N);
   ((-2396778952349695, -48)%Z, [22484]%N);
   ((-7487036889461507, -50)%Z, [22495]%N);
   ((-8832756508229917, -50)%Z, [22522]%N);
   ((-8939313372251273, -50)%Z, [22530]%N);
   ((-6884652984458793, -50)%Z, [22561]%N);
   ((-587758485113567, -46)%Z, [22612]%N);
   ((-4281423568202479, -49)%Z, [22616]%N);
   ((-5210128755685547, -49)%Z, [22622; 22826; 24681; 33391]%N);
   ((-5320531617642329, -49)%Z, [22696]%N);
   ((-2368783227807035, -48)%Z, [22721; 36797; 36988]%N);
   ((-2449203901775039, -48)%Z, [22756; 30331]%N);
   ((-7308281183554267, -50)%Z, [22763]%N);
   ((-4596829733649021, -49)%Z, [22781; 23551]%N);
   ((-7789864499920285, -50)%Z, [22799]%N);
   ((-5073816024687975, -49)%Z, [22806; 31572]%N);
   ((-8480044062505459, -50)%Z, [22810]%N);
   ((-3276717111134307, -49)%Z, [22823]%N);
   ((-8882804743567409, -50)%Z, [22825; 24178; 24185]%N);
   ((-4029002352554959, -49)%Z, [22827]%N);
   ((-7719066202489041, -50)%Z, [22836; 38957]%N);
   ((-4589100322245095, -49)%Z, [22839; 24237; 25373; 25790]%N);
   ((-2828541964685621, -48)%Z, [22871; 24208; 24300; 27815; 28356; 28363; 31062; 31302; 33883; 36953; 36965]%N);
   ((-2465162222315997, -48)%Z, [22982]%N);
   ((-4812262281484145, -49)%Z, [23002; 33489; 36215]%N);
   ((-7577156966574573, -50)%Z, [23041]%N);
   ((-4768373835345117, -49)%Z, [23273; 31481]%N);
   ((-4284394287251601, -49)%Z, [23376]%N);
   ((-2616876249806855, -48)%Z, [23385; 23403; 24211; 24235; 24449; 24501; 24863]%N);
   ((-1289645252088863, -47)%Z, [23388]%N);
   ((-6500492362761865, -50)%Z, [23425; 23527]%N);
   ((-356139305136867, -46)%Z, [23433]%N);
   ((-7837069381206935, -50)%Z, [23450]%N);
   ((-595608293456651, -46)%Z, [23451; 31449]%N);
   ((-1930467609457177, -48)%Z, [23467; 23470]%N);
   ((-7661735277420575, -50)%Z, [23478]%N);
   ((-7786885927000987, -50)%Z, [23486; 36051]%N);
   ((-1079142903415109, -47)%Z, [23494]%N);
   ((-2006112228254895, -48)%Z, [23528]%N);
   ((-3646895318623075, -49)%Z, [23546]%N);
   ((-4130317232232943, -49)%Z, [23553; 30431; 38582; 38584]%N);
   ((-6101572207572339, -50)%Z, [23572; 29246]%N);
   ((-8112275447056285, -50)%Z, [23612]%N);
   ((-4734245207317371, -49)%Z, [23614; 25705; 35282]%N);
   ((-2331405750760631, -48)%Z, [23663; 23731]%N);
   ((-8143300739963057, -51)%Z, [23665]%N);
   ((-4503785314153383, -49)%Z, [23703; 23831]%N);
   ((-2799588750705723, -49)%Z, [23707; 23798]%N);
   ((-4077383639408191, -49)%Z, [23721; 28330]%N);
   ((-3289543418758239, -49)%Z, [23725; 23994]%N);
   ((-182386170077227, -44)%Z, [23736; 24800; 25343; 27784; 28010; 36637; 36745; 36896]%N);
   ((-3719535771134903, -49)%Z, [23777; 23805]%N);
   ((-7848008120057825, -50)%Z, [23792]%N);
   ((-5092275053918871, -49)%Z, [23822; 25151; 28595]%N);
   ((-5293065196995729, -49)%Z, [23830; 28540; 32173; 32500]%N);
   ((-724802267132457, -47)%Z, [24029]%N);
   ((-462141959341391, -47)%Z, [24030]%N);
   ((-5592676627504815, -49)%Z, [24038; 24120; 27777; 31456]%N);
   ((-4034707975248125, -49)%Z, [24052; 32599; 32645]%N);
   ((-8498056866812773, -51)%Z, [24066]%N);
   ((-8906676307186081, -50)%Z, [24067]%N);
   ((-3231351121508601, -49)%Z, [24179]%N);
   ((-2804050439373903, -48)%Z, [24180; 27946; 29935; 29964; 32922; 33678; 40763]%N);
   ((-7571001128895045, -50)%Z, [24196; 33674]%N);
   ((-6158937914766925, -50)%Z, [24198; 24950]%N);
   ((-663903305984851, -46)%Z, [24212; 25033; 26757; 29642]%N);
   ((-4021483710531397, -49)%Z, [24215]%N);
   ((-8292805221838829, -50)%Z, [24217; 24287]%N);
   ((-8639468524332839, -50)%Z, [24220]%N);
   ((-5311544643339271, -50)%Z, [24230]%N);
   ((-1098104830290067, -47)%Z, [24247; 25152]%N);
   ((-510060662486293, -46)%Z, [24311]%N);
   ((-3391621965684359, -49)%Z, [24314]%N);
   ((-2625035516073153, -48)%Z, [24320; 31077; 38283]%N);
   ((-78465851069107, -43)%Z, [24352; 24373; 37009]%N);
   ((-1347591762608221, -47)%Z, [24402; 27512; 34081; 38543; 38568]%N);
   ((-2754037634149069, -48)%Z, [24418; 26705; 27953]%N);
   ((-150865204147723, -44)%Z, [24471; 26753]%N);
   ((-7323946130605877, -50)%Z, [24503]%N);
   ((-3527938874185621, -49)%Z, [24509]%N);
   ((-5284199660174053, -49)%Z, [24515; 30719; 31014]%N);
   ((-514197267642881, -46)%Z, [24535]%N);
   ((-4523932790751423, -49)%Z, [25104]%N);
   ((-144480903186199, -44)%Z, [25142; 25143; 36828; 36960]%N);
   ((-5860316375425955, -49)%Z, [25166; 33258]%N);
   ((-4949409321568729, -49)%Z, [25176]%N);
   ((-3575334808016559, -49)%Z, [25289]%N);
   ((-6312990289940447, -50)%Z, [25308]%N);
   ((-4819921582675213, -49)%Z, [25494]%N);
   ((-618072137932185, -46)%Z, [25746]%N);
   ((-823535259803531, -47)%Z, [25958]%N);
   ((-2906688351278761, -48)%Z, [26029; 26039; 31389; 31401; 38706]%N);
   ((-1317000484751159, -48)%Z, [26031]%N);
   ((-2119323652704291, -48)%Z, [26071]%N);
   ((-4730943438594833, -49)%Z, [26086]%N);
   ((-2586416833590469, -48)%Z, [26087; 33290]%N);
   ((-1983193943225201, -48)%Z, [26102; 26178]%N);
   ((-3245286237811751, -49)%Z, [26124]%N);
   ((-3826889177251227, -49)%Z, [26126]%N);
   ((-7931083962053787, -50)%Z, [26149]%N);
   ((-2425822732840913, -48)%Z, [26354]%N);
   ((-8701400483376365, -50)%Z, [26364]%N);
   ((-3775159755908975, -49)%Z, [26391]%N);
   ((-8342853457176321, -50)%Z, [26408]%N);
   ((-2325409891532183, -49)%Z, [26412]%N);
   ((-6139785497452981, -49)%Z, [26435; 27053; 27402; 28070; 28142; 28516; 28638; 28783; 29128; 30442; 31908; 31925;
     33633; 39479; 39578]%N);
   ((-7634128642728193, -50)%Z, [26449]%N);
   ((-8120246453141359, -50)%Z, [26497; 26997]%N);
   ((-6403713043438771, -50)%Z, [26519]%N);
   ((-4473811317185077, -49)%Z, [26524]%N);
   ((-5434542642690569, -49)%Z, [26580; 37670; 38182]%N);
   ((-1110843544372339, -47)%Z, [26641; 27193]%N);
   ((-7014681692915801, -50)%Z, [26681]%N);
   ((-4551969287348939, -49)%Z, [26684]%N);
   ((-7299564495575933, -50)%Z, [26725; 27211]%N);
   ((-5563040840191273, -49)%Z, [26825; 28149; 28170; 38466]%N);
   ((-2170368132792249, -48)%Z, [27004; 27155]%N);
   ((-4847580827421461, -49)%Z, [27146; 27778; 35582; 35834]%N);
   ((-6691904688021915, -50)%Z, [27431; 27472]%N);
   ((-4686643629665545, -49)%Z, [27494]%N);
   ((-8964427422558675, -50)%Z, [27604]%N);
   ((-4782626494170603, -49)%Z, [27665]%N);
   ((-6624243058676071, -50)%Z, [27700]%N);
   ((-2664996592057841, -48)%Z, [27712; 35264; 35266]%N);
   ((-6722112875670365, -50)%Z, [27721; 28450]%N);
   ((-1282778646927213, -47)%Z, [27733; 31680; 33410; 38541]%N);
   ((-7726089930238245, -50)%Z, [27735]%N);
   ((-4273310689596847, -50)%Z, [27743]%N);
   ((-4168994975548059, -49)%Z, [27744]%N);
   ((-4680590346035949, -49)%Z, [27774; 36093; 36187]%N);
   ((-2747566660042183, -48)%Z, [27779; 33251; 33714; 34030; 36801; 36983]%N);
   ((-7420658146378529, -50)%Z, [27807; 28317]%N);
   ((-8903757901773665, -51)%Z, [27827]%N);
   ((-2455932707700549, -48)%Z, [27835; 38442]%N);
   ((-4692762711145015, -49)%Z, [27837; 38307; 38401]%N);
   ((-8611280406263299, -50)%Z, [27849]%N);
   ((-4880950592220269, -49)%Z, [27850; 30028]%N);
   ((-3900929110433179, -49)%Z, [27874]%N);
   ((-2973599957995927, -49)%Z, [27915]%N);
   ((-298689334851783, -45)%Z, [27931]%N);
   ((-2093747224019337, -48)%Z, [27934]%N);
   ((-6321052622327801, -50)%Z, [27941]%N);
   ((-657301397999873, -46)%Z, [27950; 29579; 33394; 38761]%N);
   ((-4265136558246135, -50)%Z, [27954]%N);
   ((-4620675884883727, -49)%Z, [27969; 38622; 40481]%N);
   ((-8408068560862651, -50)%Z, [28006]%N);
   ((-7868634991598743, -51)%Z, [28023]%N);
   ((-2402352896406697, -48)%Z, [28165]%N);
   ((-5548788181365787, -49)%Z, [28186; 29436]%N);
   ((-2555679965427803, -48)%Z, [28193]%N);
   ((-5422275878458931, -50)%Z, [28207]%N);
   ((-2866480972602405, -49)%Z, [28246]%N);
   ((-2380690289145277, -48)%Z, [28248]%N);
   ((-5603447130748245, -50)%Z, [28286; 28771]%N);
   ((-8020781483370247, -50)%Z, [28304]%N);
   ((-5165662233212901, -49)%Z, [28390; 28772; 31038]%N);
   ((-1021423253668297, -47)%Z, [28392; 28657]%N);
   ((-8859428819329755, -50)%Z, [28393; 28760; 38596]%N);
   ((-8828997239606117, -50)%Z, [28448; 28525; 39003; 39072]%N);
   ((-5016322230191785, -49)%Z, [28789; 38728]%N);
   ((-987016353174263, -47)%Z, [29004]%N);
   ((-601058919797665, -46)%Z, [29087; 39080; 39118]%N);
   ((-8335566053697409, -50)%Z, [29151; 33829]%N);
   ((-760836258892803, -47)%Z, [29273]%N);
   ((-4984448626451995, -49)%Z, [29275; 37679; 38169]%N);
   ((-3435032574542229, -49)%Z, [29305]%N);
   ((-8704756372319427, -50)%Z, [29313]%N);
   ((-8763392281377511, -50)%Z, [29615; 29872]%N);
   ((-2612883630002845, -48)%Z, [29677; 38914; 39030]%N);
   ((-5534887476258187, -49)%Z, [29699; 37096]%N);
   ((-1071845191539301, -47)%Z, [29702]%N);
   ((-5061837914223149, -49)%Z, [29916]%N);
   ((-8079014473309085, -50)%Z, [29926]%N);
   ((-2265406050929069, -48)%Z, [29992]%N);
   ((-7823159665290727, -50)%Z, [30000]%N);
   ((-563248580449239, -46)%Z, [30002]%N);
   ((-7770643154839179, -50)%Z, [30008]%N);
   ((-2244299422682607, -48)%Z, [30058; 37195]%N);
   ((-3223605026645781, -49)%Z, [30086]%N);
   ((-2325631702613855, -48)%Z, [30333]%N);
   ((-4939786011105347, -49)%Z, [30347; 32724]%N);
   ((-2344165739274353, -49)%Z, [30465]%N);
   ((-5000159877422549, -49)%Z, [30473]%N);
   ((-4253957147555879, -49)%Z, [30707]%N);
   ((-2279601074279197, -48)%Z, [30710; 30959]%N);
   ((-8698054567372055, -50)%Z, [31119]%N);
   ((-4721152757845271, -49)%Z, [31162; 38291; 38388]%N);
   ((-7387836925179539, -50)%Z, [31185]%N);
   ((-5770051488034683, -49)%Z, [31348; 33293; 36838; 38686]%N);
   ((-4576449229089935, -49)%Z, [31391]%N);
   ((-4642755183526517, -49)%Z, [31482; 38352; 38423]%N);
   ((-6825501205533991, -50)%Z, [32004; 32422]%N);
   ((-3615171435616461, -49)%Z, [32013; 32435; 38517]%N);
   ((-2182992444859101, -48)%Z, [32034]%N);
   ((-1145368900337889, -47)%Z, [32085; 32477]%N);
   ((-5412021641433183, -49)%Z, [32597; 33276]%N);
   ((-302471159278401, -45)%Z, [32650; 38463; 38598; 38859; 38886]%N);
   ((-7269107188641937, -50)%Z, [32654]%N);
   ((-8931064984394083, -50)%Z, [32774]%N);
   ((-5821024233411973, -50)%Z, [32852; 32879]%N);
   ((-7107551832232189, -50)%Z, [32899; 32901]%N);
   ((-8545208657021853, -50)%Z, [32933]%N);
   ((-5104926147074031, -49)%Z, [33026; 36807; 36942]%N);
   ((-7404657404696741, -50)%Z, [33032; 33033]%N);
   ((-4654128296669899, -49)%Z, [33050; 33139; 33713; 33802]%N);
   ((-398511735218001, -46)%Z, [33098; 33240]%N);
   ((-2183854543470881, -48)%Z, [33267]%N);
   ((-2451429011992697, -48)%Z, [33457; 36002; 36129]%N);
   ((-1575648708357143, -48)%Z, [33487; 34311]%N);
   ((-4959200002318291, -49)%Z, [33576]%N);
   ((-1318867894771449, -47)%Z, [33618]%N);
   ((-8614377794480431, -50)%Z, [33694]%N);
   ((-7881476823649201, -50)%Z, [33832; 34217]%N);
   ((-2387727530101283, -48)%Z, [33945]%N);
   ((-2562226190163853, -48)%Z, [34028]%N);
   ((-4030897808734271, -49)%Z, [34115]%N);
   ((-6997582851337827, -50)%Z, [34255]%N);
   ((-966822081641953, -47)%Z, [34903]%N);
   ((-1606868164261889, -48)%Z, [35041; 37324]%N);
   ((-2741241113464603, -48)%Z, [35140]%N);
   ((-4564801761734323, -50)%Z, [35199]%N);
   ((-2169546307458911, -48)%Z, [35895]%N);
   ((-1418601708296097, -47)%Z, [36032; 36154]%N);
   ((-3439331185381209, -49)%Z, [36335]%N);
   ((-8943460337922359, -50)%Z, [36554; 36710]%N);
   ((-3675442603512285, -49)%Z, [36798; 36948]%N);
   ((-1952354924824901, -48)%Z, [36830; 36899]%N);
   ((-5151587751300889, -49)%Z, [36842]%N);
   ((-4180021551313049, -49)%Z, [36890]%N);
   ((-260410855105821, -45)%Z, [36947]%N);
   ((-3974917594380999, -49)%Z, [37027]%N);
   ((-8863291258475651, -50)%Z, [37030]%N);
   ((-4964159945887473, -49)%Z, [37038; 37109]%N);
   ((-2205379037394539, -48)%Z, [37073; 37165]%N);
   ((-4698949036624137, -49)%Z, [37089]%N);
   ((-8968668105187227, -50)%Z, [37112; 37170]%N);
   ((-3004932763347963, -49)%Z, [37117]%N);
   ((-4705204100459635, -49)%Z, [37326]%N);
   ((-8871056116195779, -50)%Z, [37329]%N);
   ((-8046707955755249, -50)%Z, [37675; 38177]%N);
   ((-823023253824161, -47)%Z, [37806; 38215]%N);
   ((-2942819199933057, -49)%Z, [38272; 38376]%N);
   ((-4994873923529969, -49)%Z, [38428]%N);
   ((-4876245152785791, -50)%Z, [38451; 38525]%N);
   ((-8415842354048119, -50)%Z, [38452; 38512]%N);
   ((-1216004622548853, -47)%Z, [38464]%N);
   ((-8086752647458917, -50)%Z, [38470; 38520]%N);
   ((-1105990046569103, -47)%Z, [38498]%N);
   ((-494125450231021, -46)%Z, [38534]%N);
   ((-8617483727227605, -50)%Z, [38597]%N);
   ((-3422974719493697, -49)%Z, [38750]%N);
   ((-8460937423746783, -50)%Z, [38918; 39034]%N);
   ((-1803756067212697, -48)%Z, [38931; 39039]%N);
   ((-537819442266835, -46)%Z, [39208; 39302]%N);
   ((-5570773399978295, -50)%Z, [39340; 39532]%N);
   ((-4152260623752371, -49)%Z, [39791; 40065]%N);
   ((-3274236058403429, -49)%Z, [39854; 40092]%N);
   ((-4390617879772089, -49)%Z, [40379; 40536]%N);
   ((-243201024699509, -45)%Z, [40613; 40614]%N);
   ((-3209527751332571, -49)%Z, [40654]%N);
   ((-4372913591993333, -49)%Z, [40657]%N);
   ((-8623721415796401, -50)%Z, [40778; 40784]%N);
   ((-7397267505360727, -50)%Z, [40845; 40857]%N)];
  (* ('E', 'nt') *)
  [
   ((-6270995487338499, -49)%Z, [19979; 22253; 22290; 24311; 25302; 26408; 27004; 27155; 31684; 33539]%N);
   ((-1470197078582041, -47)%Z, [19987; 20048; 21439; 22612; 23431; 23560; 23567; 24191; 24291; 24441; 24503; 27138;
     27491; 27966; 29425; 29508; 32291; 38272; 38376]%N);
   ((-6616728581247395, -50)%Z, [19994; 26989]%N);
   ((-1987772986609059, -48)%Z, [19996; 26481]%N);
   ((-8115148861071237, -50)%Z, [20013]%N);
   ((-2631162288797185, -48)%Z, [20044; 20195; 26223; 28304; 28879; 36031; 36152; 36275]%N);
   ((-646943182445719, -46)%Z, [20107; 21830; 22330; 22580; 22825; 24198; 24950; 25163; 26071; 32068; 32452; 32654;
     36816; 36830; 36899; 36939; 38918; 39034]%N);
   ((-7357030291278575, -50)%Z, [20221]%N);
   ((-6986267233047795, -50)%Z, [20247; 30526]%N);
   ((-183136761104551, -46)%Z, [20250; 26371]%N);
   ((-6915630141173163, -50)%Z, [20307; 39636]%N);
   ((-3323140728269975, -49)%Z, [20449]%N);
   ((-5490581141317829, -49)%Z, [20809; 21033; 25919; 26053; 29275; 29305; 31435; 31680; 33410; 38451; 38525]%N);
   ((-3604752791420727, -49)%Z, [20811]%N);
   ((-1943554071694491, -49)%Z, [20826; 40680]%N);
   ((-7488235704145167, -50)%Z, [20851; 21457; 30332; 38364]%N);
   ((-4710166795297159, -49)%Z, [20852; 33288]%N);
   ((-3887405427794597, -49)%Z, [20853]%N);
   ((-1935096207860675, -49)%Z, [20891; 36557]%N);
   ((-2647764937252369, -49)%Z, [21048]%N);
   ((-8831208554274237, -50)%Z, [21147; 21150; 28526; 33041; 33126; 36774]%N);
   ((-4974755316488893, -49)%Z, [21160; 21205; 23665; 31726; 31811; 32013; 32435; 33328; 33382]%N);
   ((-8050794208253567, -50)%Z, [21270]%N);
   ((-11018152176047, -41)%Z, [21306; 21312]%N);
   ((-4375376456691835, -49)%Z, [21326; 32178; 32593; 32974; 33775]%N);
   ((-2857387886550969, -49)%Z, [21327; 21332]%N);
   ((-6622577425085391, -50)%Z, [21378; 24288]%N);
   ((-6454056780907983, -50)%Z, [21381; 24307]%N);
   ((-4643860840860577, -49)%Z, [21407]%N);
   ((-4285830994259077, -49)%Z, [21414; 24264]%N);
   ((-1504052523258949, -48)%Z, [21488]%N);
   ((-7487518309890981, -51)%Z, [21496]%N);
   ((-7651300854869449, -50)%Z, [22120]%N);
   ((-8073132200772375, -51)%Z, [22242; 22296]%N);
   ((-8580330039592201, -51)%Z, [22269; 22283]%N);
   ((-1169009541817353, -47)%Z, [22307; 32854; 37329]%N);
   ((-8256070032063283, -50)%Z, [22467; 35696; 35758]%N);
   ((-8160190863586009, -50)%Z, [22530]%N);
   ((-7053006762645411, -50)%Z, [22577; 25253]%N);
   ((-1778709102251767, -48)%Z, [22788; 34389]%N);
   ((-1648408097165073, -48)%Z, [22823]%N);
   ((-8284451268695901, -51)%Z, [22830]%N);
   ((-2299207450807601, -49)%Z, [22996]%N);
   ((-1997479982215531, -48)%Z, [23376; 31354]%N);
   ((-5269584553500069, -51)%Z, [23398; 23416]%N);
   ((-4785338286555417, -49)%Z, [23433; 27833; 30719; 31014; 32218; 32447; 34255; 38517]%N);
   ((-3966084406744765, -49)%Z, [23460; 24072; 24107]%N);
   ((-6849164293461929, -50)%Z, [23572; 29246]%N);
   ((-7225935236371363, -51)%Z, [23616]%N);
   ((-2946572310040185, -49)%Z, [23637]%N);
   ((-8963820463147401, -50)%Z, [24037; 36882; 36958]%N);
   ((-3929752449276489, -49)%Z, [24215]%N);
   ((-5775883333468883, -51)%Z, [24220]%N);
   ((-1089072894938775, -47)%Z, [24237]%N);
   ((-7711363089575967, -50)%Z, [24375; 24378]%N);
   ((-5839234859190909, -50)%Z, [24515]%N);
   ((-2292274071739279, -48)%Z, [24687]%N);
   ((-4305787271120673, -50)%Z, [25152]%N);
   ((-4238229416607251, -49)%Z, [25216]%N);
   ((-2278540861415979, -48)%Z, [25237]%N);
   ((-4872117404584035, -49)%Z, [25490; 33021]%N);
   ((-4530893282197137, -49)%Z, [25945]%N);
   ((-5652531750604705, -49)%Z, [26031; 26143; 26825; 27773; 33777]%N);
   ((-307568778450467, -45)%Z, [26041]%N);
   ((-2413528683013751, -48)%Z, [26448]%N);
   ((-8790262227090163, -50)%Z, [26500; 27083]%N);
   ((-4746498752765435, -49)%Z, [26519; 31185]%N);
   ((-3077198418340261, -49)%Z, [26657]%N);
   ((-7044444744906017, -50)%Z, [27668; 27683]%N);
   ((-996292320920375, -47)%Z, [27877]%N);
   ((-2550186984153747, -48)%Z, [27888; 27941; 32406; 32420; 33402; 34269; 36895]%N);
   ((-5930574102537711, -50)%Z, [29289]%N);
   ((-1084458137631051, -47)%Z, [29664; 36650; 36718]%N);
   ((-1341240622374807, -47)%Z, [29699]%N);
   ((-504489979941915, -46)%Z, [29827]%N);
   ((-6707821358124497, -50)%Z, [29992]%N);
   ((-863506036870939, -47)%Z, [30000]%N);
   ((-8605273436947357, -50)%Z, [30005; 38651]%N);
   ((-1556571800760481, -48)%Z, [30431]%N);
   ((-7696044487193833, -50)%Z, [30465]%N);
   ((-8343522561378421, -51)%Z, [31038]%N);
   ((-3530817195177897, -49)%Z, [31449]%N);
   ((-7323750038588441, -50)%Z, [31995]%N);
   ((-4624954146494155, -50)%Z, [32340; 32455]%N);
   ((-7513825439916083, -50)%Z, [32626]%N);
   ((-6628456811327307, -50)%Z, [32852; 32879]%N);
   ((-4269512461726481, -49)%Z, [33322]%N);
   ((-3400025919339953, -49)%Z, [33647; 34277]%N);
   ((-3357082236484325, -49)%Z, [34425]%N);
   ((-2232312309499955, -50)%Z, [34892]%N);
   ((-4613423701164855, -49)%Z, [35222; 35270; 36008; 36135; 37628; 38050]%N);
   ((-6505712624748665, -50)%Z, [35338; 35759]%N);
   ((-8137444637299245, -50)%Z, [35895]%N);
   ((-4004923940534747, -49)%Z, [36335]%N);
   ((-1774205406543915, -48)%Z, [36554; 36710]%N);
   ((-7438737627580821, -50)%Z, [36798; 36948]%N);
   ((-6376041171730283, -50)%Z, [36890]%N);
   ((-5762921346547101, -50)%Z, [37030]%N);
   ((-6174474214848353, -51)%Z, [37096]%N);
   ((-8388681940936447, -50)%Z, [37202]%N);
   ((-78657312716733, -43)%Z, [37995; 39340; 39532]%N);
   ((-139742352555919, -45)%Z, [38431; 38538]%N);
   ((-3481112876097791, -49)%Z, [38469; 38555]%N);
   ((-5704723886505959, -51)%Z, [38498]%N);
   ((-8917858983319915, -50)%Z, [38505; 38570]%N);
   ((-5943332311652245, -50)%Z, [39208; 39302]%N)];
  (* ('E', 'nz') *)
  [
   ((-5359408491820049, -49)%Z, [19968; 21472; 22645; 22799; 23458; 23576; 24055; 27133; 30090; 30385; 30394; 30431;
     32353; 32380; 32483; 32487; 33976; 34987; 35488; 35802; 37260; 37573; 37683; 38156; 38192]%N);
   ((-950446875124947, -47)%Z, [19969]%N);
   ((-5700632614206947, -49)%Z, [19971; 20160; 20195; 20241; 20855; 20976; 22368; 22418; 22564; 22615; 22684; 22744;
     23043; 23380; 24863; 25239; 26053; 26122; 27969; 28014; 28034; 29066; 29378; 29791; 30002; 30003; 30897; 31579;
     31629; 31721; 32097; 32412; 32476; 32518; 32622; 32752; 32905; 33030; 33778; 35044; 35122; 35441; 35805; 36028;
     36148; 36394; 36830; 36899; 37832; 38142; 40572]%N);
   ((-8457082257925731, -50)%Z, [19977; 20026; 21010; 21123; 26399; 28858; 29190; 38989; 39069]%N);
   ((-1296201697344503, -47)%Z, [19979; 20872; 21183; 21218; 22369; 23713; 24459; 26607; 26753; 27744; 27905; 28500;
     31361; 32943; 33014; 33184; 33538; 34013; 34253; 34276; 35910; 37610; 38138]%N);
   ((-5265365402640079, -49)%Z, [19990; 20633; 20844; 22791; 23609; 27493; 27611; 27777; 27931; 28192; 28246; 31038;
     31166; 31237; 31246; 31680; 33410; 33713; 33802; 34923; 37197; 37666; 38065; 39882; 40104]%N);
   ((-5613853496178329, -49)%Z, [19992; 20197; 20415; 20845; 21151; 21517; 22218; 22363; 22365; 22378; 22727; 22761;
     22781; 23551; 23618; 23652; 24218; 24535; 25176; 25206; 25277; 25918; 26007; 26179; 27000; 27927; 28966; 29585;
     29859; 30408; 30415; 30430; 31456; 31859; 33576; 33756; 33945; 35946; 37521; 37542; 37575; 38049; 38111; 38115;
     39717; 40180; 40255; 40483; 40509]%N);
   ((-1677325880987769, -47)%Z, [19993; 20057; 20135; 20276; 20304; 20505; 20625; 20843; 21050; 21069; 21246; 21310;
     21313; 21334; 21346; 21348; 21452; 21496; 21513; 21535; 21543; 21604; 21878; 22330; 22383; 22435; 22534; 22580;
     22622; 22841; 22846; 22868; 23452; 23494; 23736; 23803; 24646; 24658; 24904; 25318; 25346; 25414; 25499; 25749;
     25876; 25943; 26012; 26025; 26028; 26089; 26144; 26480; 26517; 26575; 26613; 26629; 26631; 26641; 26700; 26799;
     26964; 27036; 27161; 27193; 27679; 27696; 27814; 27946; 28059; 28138; 28357; 28393; 28431; 28644; 28760; 28781;
     29977; 29986; 30439; 30563; 31359; 31548; 31783; 31840; 31869; 31890; 31896; 31964; 31968; 32080; 32131; 32467;
     32481; 32687; 32697; 32925; 33042; 33067; 33073; 33074; 33136; 33150; 33495; 33510; 33620; 33738; 33740; 33816;
     33905; 34085; 34503; 35211; 35265; 36001; 36067; 36130; 36133; 36635; 36742; 36808; 36920; 36993; 37232; 37257;
     37376; 37424; 37463; 37656; 37754; 38012; 38063; 38067; 38088; 38167; 38179; 38180; 38258; 38617; 38647; 38660;
     38752; 38829; 38991; 39068; 39135; 39173; 39292; 39472; 39739; 40251; 40442; 40511; 40557; 40565; 40736]%N);
   ((-2884922081045899, -49)%Z, [19994; 26989]%N);
   ((-1047196743197261, -47)%Z, [19996; 26481; 33337]%N);
   ((-4566343052644219, -49)%Z, [19997; 23454; 23526; 30331; 32114; 32862; 33391; 38395; 38935; 39047]%N);
   ((-3045419893608641, -48)%Z, [20005; 20018; 20146; 20196; 20247; 20856; 20940; 21381; 21862; 22196; 22438; 22443;
     22666; 22718; 23631; 23830; 24072; 24085; 24107; 24110; 24171; 24307; 24341; 24859; 25098; 25159; 25195; 25196;
     25299; 25300; 25475; 25562; 26410; 26609; 26726; 26742; 26792; 27004; 27155; 27194; 27813; 28009; 28595; 28701;
     29233; 29942; 29995; 30446; 30526; 30802; 31204; 31206; 31499; 31565; 31570; 32160; 32511; 32927; 32932; 32937;
     32957; 33152; 33178; 33251; 33452; 33455; 33879; 34028; 35222; 35242; 35270; 36070; 36171; 37070; 37492; 37969;
     38013; 38075; 38453; 38463; 38499; 38613; 38634; 38654; 38695; 40165; 40479; 40860; 40863]%N);
   ((-7206507345763971, -50)%Z, [20013]%N);
   ((-3054497411226315, -49)%Z, [20016; 23376; 35920]%N);
   ((-6319096350940741, -49)%Z, [20020; 20301; 20598; 20687; 20828; 20874; 20876; 21002; 21066; 21519; 21555; 21556;
     21916; 21994; 22030; 22260; 22285; 22659; 22899; 22915; 22958; 24065; 24163; 24429; 24694; 24801; 25096; 25163;
     25928; 26045; 26230; 26332; 26412; 26898; 27169; 27886; 27974; 28165; 28363; 28479; 28982; 29076; 29645; 30460;
     30780; 30952; 31572; 31908; 31925; 32023; 32403; 32433; 32552; 32676; 33256; 33308; 33832; 33993; 34217; 34249;
     34394; 34395; 34809; 34972; 35178; 35433; 35799; 36667; 36752; 36793; 36865; 37002; 37431; 37670; 37907; 38068;
     38182; 38246; 38452; 38512; 38593; 38936; 39046; 39479; 39578]%N);
   ((-1203421123326103, -47)%Z, [20024; 21697; 21912; 24418; 24819; 27665; 28342; 30967; 31461; 31726; 31811; 37274;
     37467; 38085; 38263; 38271; 40300; 40527]%N);
   ((-2964444588965203, -48)%Z, [20025; 20108; 20928; 20999; 21242; 21364; 21371; 21414; 21485; 21525; 21570; 22576;
     23731; 24069; 24101; 24264; 26367; 26447; 26564; 26690; 26705; 27225; 27431; 27472; 27714; 27872; 27964; 27987;
     28136; 28145; 28195; 28436; 28611; 28938; 29238; 29734; 30011; 30059; 30410; 30422; 30462; 30872; 31232; 31402;
     32718; 32956; 33098; 33240; 33261; 33509; 33995; 34224; 34321; 34507; 35109; 36562; 36645; 36713; 36746; 36838;
     37233; 37292; 37555; 37615; 37723; 37750; 38150; 38160; 38198; 38203; 38518; 38860; 38887; 39154; 39166; 39201;
     39278; 39280; 39301; 40607]%N);
   ((-805253897707847, -47)%Z, [20041; 32681]%N);
   ((-2460109134093139, -48)%Z, [20044; 22609; 28879; 33402; 34269]%N);
   ((-7528902343501925, -50)%Z, [20048; 23450; 27138]%N);
   ((-3555590994676193, -49)%Z, [20056]%N);
   ((-5538682004920071, -49)%Z, [20061; 21220; 21516; 22949; 24320; 25142; 25143; 26234; 26694; 27631; 28183; 28402;
     29042; 30748; 30844; 31103; 31108; 31295; 32004; 32051; 32302; 32422; 32453; 32553; 32592; 32650; 33203; 33258;
     33394; 33489; 35033; 37414; 37794; 37912; 37995; 38043; 38047; 38056; 38283; 40786; 40831]%N);
   ((-4591936094013151, -49)%Z, [20065; 23627; 26124; 26381; 26538; 27085; 27901; 28580; 36317; 37129]%N);
   ((-3870107589297511, -49)%Z, [20070; 24551; 24962; 26360; 35980]%N);
   ((-2611823161583997, -48)%Z, [20081; 20098; 20177; 20234; 21150; 22372; 23833; 25552; 26432; 26691; 27016; 27354;
     27578; 35676; 35889; 36774; 37813; 38227; 38309; 38400; 38517; 38598; 38745; 38748; 38795]%N);
   ((-7964537258530181, -50)%Z, [20083; 24615; 31881]%N);
   ((-8568750690691399, -51)%Z, [20105; 29229]%N);
   ((-4359332404800809, -49)%Z, [20107; 21345; 27748; 28207; 28271; 40643; 40644]%N);
   ((-8542634783513525, -50)%Z, [20113; 20214; 24339; 38642]%N);
   ((-2706531676550735, -48)%Z, [20116; 20185; 20987; 20992; 21487; 23633; 25187; 25252; 25802; 26195; 26313; 26728;
     26797; 27123; 27178; 27243; 28526; 29256; 30418; 30452; 31319; 31563; 32227; 32536; 34255; 35703; 37336; 38025;
     40613; 40614]%N);
   ((-4740944755086255, -49)%Z, [20117; 20358; 22885; 22887; 25995; 26159; 26469; 27694; 29577; 30717; 30789; 32011;
     32441; 37027; 39131; 39134; 40779]%N);
   ((-1430113667198907, -48)%Z, [20122; 20126]%N);
   ((-3209665408906707, -49)%Z, [20140; 36842]%N);
   ((-8866536002087279, -50)%Z, [20141; 20826; 26472; 26954; 28330; 35336; 35745; 37230; 40680]%N);
   ((-793702545165551, -47)%Z, [20154]%N);
   ((-8364851777370321, -50)%Z, [20161; 28911]%N);
   ((-5022856180091135, -49)%Z, [20179; 20489; 20975; 20977; 21416; 22278; 22291; 23439; 24282; 24618; 25484; 27663;
     27712; 28857; 29786; 30827; 32974; 33424; 33476; 34880; 35328; 38931; 39039; 40670]%N);
   ((-3685903096173881, -49)%Z, [20202; 20736; 27833]%N);
   ((-3688527576234647, -49)%Z, [20215; 20729]%N);
   ((-658295028957481, -47)%Z, [20221]%N);
   ((-5330287679043881, -50)%Z, [20250; 26371]%N);
   ((-5803270526111805, -49)%Z, [20254; 20465; 20632; 20896; 21476; 22996; 23039; 24088; 24213; 26434; 26803; 27054;
     28147; 28900; 29028; 29123; 29399; 30044; 30168; 30406; 30722; 31806; 31909; 31957; 32034; 32048; 32454; 32617;
     33433; 33459; 33635; 33707; 33714; 33722; 34030; 34430; 34453; 34662; 34870; 34924; 35183; 36066; 36132; 37122;
     37499; 37563; 37784; 38124; 38161; 38217; 38291; 38388; 38620; 40367]%N);
   ((-7871012582793679, -50)%Z, [20256; 20659; 23546]%N);
   ((-75842379902339, -43)%Z, [20262; 20523; 20581; 32763]%N);
   ((-8222443287923095, -50)%Z, [20271; 26862]%N);
   ((-4553970028130633, -49)%Z, [20305; 20613; 22855; 23707; 23798; 26757; 35013; 35037]%N);
   ((-3732273845342127, -49)%Z, [20307; 39636]%N);
   ((-2541084438736577, -48)%Z, [20315; 20964; 22806; 24449; 24501; 27766; 29113; 29273; 30701; 31077; 31893; 32033;
     32442; 32764; 35542; 35770; 40179; 40657]%N);
   ((-4423477320294077, -49)%Z, [20332; 23388; 36600; 36724; 37096; 39640]%N);
   ((-8969902113238819, -50)%Z, [20339; 21021; 21171; 21214; 21319; 24687; 30382; 38534]%N);
   ((-5310425441196613, -49)%Z, [20351; 21442; 21443; 23481; 23621; 24605; 24847; 25103; 25138; 26071; 26391; 26512;
     27742; 29702; 34593; 34847; 35206; 36637; 36745; 38622; 38971; 39057; 40481]%N);
   ((-8200366111813595, -50)%Z, [20381; 25226; 31243]%N);
   ((-7676667911905061, -50)%Z, [20445]%N);
   ((-2658350997483969, -49)%Z, [20449]%N);
   ((-4833439150157659, -49)%Z, [20648; 20786; 23467; 23470; 25331; 26174; 26364; 30862; 30913; 32113; 32479; 33519;
     37259; 39023]%N);
   ((-3986718849700407, -49)%Z, [20711; 28082; 38684]%N);
   ((-563378794407775, -46)%Z, [20723; 21410; 24258; 36039; 36164; 37569; 38109]%N);
   ((-4256694492895951, -49)%Z, [20799; 20818]%N);
   ((-1411702410794173, -48)%Z, [20803]%N);
   ((-8136618904334017, -50)%Z, [20806; 39080; 39118]%N);
   ((-6310183890752339, -50)%Z, [20809; 37329]%N);
   ((-2606386677873659, -49)%Z, [20811]%N);
   ((-3531199455880325, -49)%Z, [20839; 20869]%N);
   ((-8906750987961557, -50)%Z, [20840; 37327]%N);
   ((-7107035023681299, -50)%Z, [20848; 34349]%N);
   ((-3743763018676297, -49)%Z, [20852; 33288; 36874; 36956]%N);
   ((-7792246214398317, -50)%Z, [20853]%N);
   ((-4794599616367677, -49)%Z, [20857; 22068; 23394; 23431; 24034; 28044; 28263; 33437; 33586; 38597; 38754]%N);
   ((-5472376050483489, -49)%Z, [20891; 20914; 21449; 21560; 21679; 22359; 22602; 23648; 24237; 25215; 25329; 25511;
     25773; 26223; 26388; 26465; 26781; 26825; 26885; 27682; 27691; 27893; 28037; 28267; 29071; 29827; 30742; 30813;
     30938; 31508; 31558; 32020; 32431; 33729; 34909; 35465; 35709; 36557; 36629; 36731; 36873; 36984; 37675; 37782;
     38145; 38177; 40635; 40723]%N);
   ((-3424597091299511, -49)%Z, [20892; 27915; 36786]%N);
   ((-4000284565239407, -49)%Z, [21019; 21109; 36234]%N);
   ((-5235315425467181, -50)%Z, [21033]%N);
   ((-8037792352218485, -50)%Z, [21046; 36074; 36136]%N);
   ((-1984562615895237, -48)%Z, [21048; 29255; 34425]%N);
   ((-7271660226127903, -50)%Z, [21058; 21137]%N);
   ((-8635226650657447, -50)%Z, [21073; 21133; 27954; 27993; 29615; 29872; 33311]%N);
   ((-5114346203881989, -49)%Z, [21095; 21127; 21253; 21475; 22266; 26438; 26751; 27542; 27874; 29422; 29509; 31383;
     32406; 32420; 33642; 33984; 35895; 37509; 37664; 38108; 38189; 38450; 38632; 38945; 39049; 39347; 39536; 40232;
     40493]%N);
   ((-716727778615531, -47)%Z, [21147]%N);
   ((-7197500098470373, -50)%Z, [21152]%N);
   ((-5899462283149667, -50)%Z, [21160; 21205]%N);
   ((-4342272009713997, -49)%Z, [21187; 26377]%N);
   ((-1628253690665873, -48)%Z, [21202]%N);
   ((-2188463011355371, -48)%Z, [21213; 22478; 27583; 29943; 32988; 35961]%N);
   ((-839116288556485, -47)%Z, [21270]%N);
   ((-144770281471275, -44)%Z, [21271; 22235; 24322; 30064; 30424; 30436; 36027; 36153; 37411; 38041]%N);
   ((-4395087273593821, -49)%Z, [21295; 22902; 25705; 26023; 27719; 28895; 29017; 34411; 34802; 38431; 38538; 38706;
     38712]%N);
   ((-8429950826847731, -50)%Z, [21306; 21312; 25463]%N);
   ((-4124248257312037, -50)%Z, [21326; 33775]%N);
   ((-4208313206042719, -49)%Z, [21335; 23556; 24425]%N);
   ((-2323450832953143, -48)%Z, [21338; 26448; 30333; 34892]%N);
   ((-8403457842005633, -50)%Z, [21355; 22530; 26441; 29677; 31649; 34907]%N);
   ((-575647823304275, -46)%Z, [21360; 21512; 22721; 23068; 24800; 25151; 32184; 32438; 33151; 37275]%N);
   ((-4474227876147897, -49)%Z, [21367; 22839; 23451; 30456]%N);
   ((-643559353988717, -46)%Z, [21368; 22253; 22290; 24681; 28572; 28734; 28860; 29001; 33268; 37238]%N);
   ((-6910068461990465, -50)%Z, [21382; 27511]%N);
   ((-8279607844331215, -50)%Z, [21387; 22739; 22763]%N);
   ((-4530011095175943, -49)%Z, [21407; 26202; 35041; 37324]%N);
   ((-8484883668140931, -50)%Z, [21451; 26086; 26395; 26408; 31435]%N);
   ((-5541044012156675, -50)%Z, [21457; 30332]%N);
   ((-1638196445422945, -48)%Z, [21464; 35722]%N);
   ((-8667863715722639, -50)%Z, [21488; 21733; 22307; 22987; 23721; 24215; 32854]%N);
   ((-7921060818131171, -50)%Z, [21490; 32340; 32455]%N);
   ((-1110807994286831, -47)%Z, [21494; 27695; 31354; 33865; 34955]%N);
   ((-3707249727673381, -49)%Z, [21495; 22269; 22283; 34399]%N);
   ((-2259201734202791, -48)%Z, [21521; 22346; 24076; 32844; 32887]%N);
   ((-4897237528272535, -49)%Z, [21531; 22681; 24125; 24494; 27604; 29254; 33032; 33033; 33041; 33126; 35998; 36126;
     36203; 40660; 40664]%N);
   ((-2042010351568781, -48)%Z, [21619]%N);
   ((-2620018093354779, -49)%Z, [21629]%N);
   ((-5555558576609565, -50)%Z, [21644]%N);
   ((-8047293673640721, -50)%Z, [21704; 28919]%N);
   ((-1683383896931285, -48)%Z, [21776]%N);
   ((-304697389351859, -45)%Z, [21777; 22810; 26494; 26579; 28286; 28771; 29483; 32305; 32361; 32437; 32499; 32597;
     33026; 33590; 34701; 34915; 35987; 38761]%N);
   ((-4221717409615779, -49)%Z, [21830; 31532; 37428; 38083]%N);
   ((-2036748983864513, -48)%Z, [21839; 38382]%N);
   ((-2330762282383549, -48)%Z, [21943; 22132; 34913; 39321]%N);
   ((-8557547583077483, -50)%Z, [22025]%N);
   ((-6129654115969795, -50)%Z, [22120]%N);
   ((-5051731737777433, -49)%Z, [22240; 22982; 23616; 24405; 26588; 27331; 27597; 28779; 30555; 32858; 37484; 37636;
     37648; 37762; 38076; 38181; 38209; 39208; 39302; 40372; 40548]%N);
   ((-2061240509176231, -48)%Z, [22242; 22296]%N);
   ((-7838841825420737, -50)%Z, [22270; 22294; 24231]%N);
   ((-8587979162801121, -50)%Z, [22280; 37941; 38081]%N);
   ((-8771866828252893, -50)%Z, [22303; 40441; 40560]%N);
   ((-1554545652587439, -48)%Z, [22320]%N);
   ((-8499046117855829, -50)%Z, [22374; 24471; 30719; 31014]%N);
   ((-1845582174493455, -48)%Z, [22411]%N);
   ((-7144919342160455, -50)%Z, [22522]%N);
   ((-1123970616787049, -47)%Z, [22561; 23386; 37616; 38146]%N);
   ((-5649075036107653, -50)%Z, [22577; 25253]%N);
   ((-1976032418351831, -48)%Z, [22612; 22871; 32005; 32418]%N);
   ((-288671768873325, -45)%Z, [22768; 28216; 28809; 29200; 29699; 32882; 36938]%N);
   ((-4578994145799379, -49)%Z, [22771; 24230; 26435; 26550; 27402; 27580; 29748; 31665; 37200]%N);
   ((-4128196295395247, -49)%Z, [22788; 27801; 34389]%N);
   ((-4995389759444535, -49)%Z, [22812; 26114; 27454; 27877; 28287; 28629; 32039; 32202; 33527; 33678; 37326; 37341;
     37544; 38024; 38133; 38738]%N);
   ((-7499193498310545, -50)%Z, [22818; 26790; 29392]%N);
   ((-5813598921529849, -50)%Z, [22823]%N);
   ((-6661614595881755, -50)%Z, [22825]%N);
   ((-416176947397079, -46)%Z, [22826]%N);
   ((-1075438632863121, -47)%Z, [22827; 28006]%N);
   ((-7991452482232223, -50)%Z, [22836; 37231; 38957]%N);
   ((-5617766963874957, -50)%Z, [22870; 29518]%N);
   ((-8390441513141237, -50)%Z, [23041; 23398; 23416; 39770; 40060]%N);
   ((-2353910249169529, -48)%Z, [23159; 23725; 23994; 24196; 24212; 25033; 33674; 39235; 39309]%N);
   ((-6157803079793819, -50)%Z, [23383]%N);
   ((-7243274691434313, -50)%Z, [23425; 23527]%N);
   ((-5043731724365557, -50)%Z, [23433]%N);
   ((-6724658538531791, -50)%Z, [23447]%N);
   ((-758186566905625, -47)%Z, [23453; 23542]%N);
   ((-8126336641940887, -50)%Z, [23460; 24515; 35519; 35843]%N);
   ((-435443014753329, -46)%Z, [23478]%N);
   ((-3164346125605357, -49)%Z, [23500]%N);
   ((-1169134363304957, -47)%Z, [23528; 24102; 24118; 26612; 27966; 28783; 29128; 31526; 37202]%N);
   ((-2888721532724317, -49)%Z, [23572; 29246]%N);
   ((-7153514039673651, -50)%Z, [23612]%N);
   ((-7799879463343577, -50)%Z, [23637; 26009]%N);
   ((-3489054275754551, -49)%Z, [23665]%N);
   ((-7879200981844779, -50)%Z, [23792]%N);
   ((-4151655937892887, -49)%Z, [24029; 26222; 27880; 36008; 36135; 40575]%N);
   ((-6879219959504483, -50)%Z, [24030]%N);
   ((-2004756729844511, -48)%Z, [24037]%N);
   ((-2202196221678671, -48)%Z, [24052; 37628; 38050]%N);
   ((-8339830749734665, -50)%Z, [24067]%N);
   ((-3767469677392653, -49)%Z, [24070; 30707]%N);
   ((-4691961704462819, -49)%Z, [24093; 24343; 26149; 32568; 32724; 36367]%N);
   ((-2484600659404857, -48)%Z, [24178; 24185; 26834; 28193; 29436; 30865; 32104; 32466; 34019; 34167; 34966; 35997;
     36125; 38464]%N);
   ((-3336408836231195, -49)%Z, [24179]%N);
   ((-8701475164151841, -50)%Z, [24180; 31377; 31407]%N);
   ((-1581138227163869, -48)%Z, [24191; 24291]%N);
   ((-2081881427560149, -48)%Z, [24198; 24950]%N);
   ((-1849574794297465, -48)%Z, [24202]%N);
   ((-7074397958616107, -50)%Z, [24211; 24235; 32000; 32426; 35264; 35266]%N);
   ((-1920888542833555, -48)%Z, [24247]%N);
   ((-8651426928814349, -50)%Z, [24314; 25903; 31867; 32929; 36816; 36939; 39006]%N);
   ((-6428356115895913, -50)%Z, [24335]%N);
   ((-4758267658899401, -49)%Z, [24375; 24378; 24509; 27494; 36766; 36781; 38307; 38401; 38772]%N);
   ((-2362069515435827, -48)%Z, [24428; 27468; 28909; 29105; 31574; 33104; 36784]%N);
   ((-6903139825313551, -50)%Z, [24441]%N);
   ((-6906598813923077, -50)%Z, [24503]%N);
   ((-7361381118728069, -50)%Z, [25104]%N);
   ((-4663006984109987, -50)%Z, [25112; 25136]%N);
   ((-4463705140739361, -49)%Z, [25152; 30272; 34920; 35527; 35848; 37440; 38078; 40718]%N);
   ((-8572660560418987, -50)%Z, [25171]%N);
   ((-835872515272161, -47)%Z, [25216]%N);
   ((-7034888644909613, -50)%Z, [25289]%N);
   ((-3191968078772195, -49)%Z, [25351]%N);
   ((-4776140587136781, -49)%Z, [25935; 27713; 28422; 29926; 33322; 36523; 36855]%N);
   ((-439735004461197, -47)%Z, [25945]%N);
   ((-7136389756617253, -50)%Z, [25968; 25976]%N);
   ((-2340069252548471, -49)%Z, [25991]%N);
   ((-2784075159555605, -49)%Z, [26031]%N);
   ((-6578375517462697, -50)%Z, [26032]%N);
   ((-7042680370863629, -50)%Z, [26041]%N);
   ((-3650598698325309, -50)%Z, [26063]%N);
   ((-6491245880107233, -50)%Z, [26085]%N);
   ((-745445880176711, -47)%Z, [26126]%N);
   ((-470181095610319, -46)%Z, [26131]%N);
   ((-1285665393697263, -48)%Z, [26143]%N);
   ((-7229345855146303, -50)%Z, [26216]%N);
   ((-1986736178639679, -48)%Z, [26376; 30334]%N);
   ((-6653284842177603, -50)%Z, [26426; 27231]%N);
   ((-2039367374622491, -48)%Z, [26449; 36650; 36718]%N);
   ((-7656258291281001, -50)%Z, [26479; 27602; 35282]%N);
   ((-3631059322194121, -49)%Z, [26495; 31036; 31150]%N);
   ((-5247948376030517, -50)%Z, [26519]%N);
   ((-8086121656066609, -50)%Z, [26524; 35582; 35834]%N);
   ((-1365138212779403, -48)%Z, [26681]%N);
   ((-7409073421197479, -50)%Z, [26684; 28070; 28516]%N);
   ((-957877559151361, -47)%Z, [26725; 27211; 29260; 38899]%N);
   ((-3272610458116319, -49)%Z, [27491]%N);
   ((-3773555682109963, -49)%Z, [27668; 27683]%N);
   ((-7345922295920217, -50)%Z, [27700]%N);
   ((-3892332184096333, -49)%Z, [27721; 28450; 35029]%N);
   ((-1688631252191159, -48)%Z, [27743]%N);
   ((-7295874060582725, -50)%Z, [27779]%N);
   ((-6192170564449607, -50)%Z, [27827]%N);
   ((-3693813530127227, -49)%Z, [27835; 33018]%N);
   ((-1512299618769807, -48)%Z, [27849]%N);
   ((-6748487997481255, -50)%Z, [27861]%N);
   ((-4752930297812817, -50)%Z, [27888]%N);
   ((-4105675294137861, -49)%Z, [27982; 28639]%N);
   ((-618022150142621, -46)%Z, [27986; 28408; 28789; 29595; 29802; 31143; 32874; 32880; 35937; 37476; 38057; 38728]%N);
   ((-1550347936362879, -48)%Z, [28010]%N);
   ((-6216304545015473, -50)%Z, [28023]%N);
   ((-3873751291036967, -49)%Z, [28201; 28331]%N);
   ((-6769760693305525, -50)%Z, [28304]%N);
   ((-8827708019661391, -50)%Z, [28814; 37210]%N);
   ((-3834911757246985, -49)%Z, [29081; 32032]%N);
   ((-7392950473986509, -50)%Z, [29275; 34382]%N);
   ((-8352271759267767, -50)%Z, [29289; 35199]%N);
   ((-6268145411084875, -50)%Z, [29305]%N);
   ((-3189794524128319, -49)%Z, [29366; 29376]%N);
   ((-2131979232023651, -48)%Z, [29417; 34432; 34645]%N);
   ((-1528531053966487, -48)%Z, [29575]%N);
   ((-2811093298134899, -49)%Z, [29579]%N);
   ((-3977853312878731, -49)%Z, [29664]%N);
   ((-7201994714845859, -50)%Z, [29790]%N);
   ((-6573210829934649, -50)%Z, [29983]%N);
   ((-7777133237056813, -50)%Z, [29992; 32013; 32435]%N);
   ((-3223313348933317, -49)%Z, [30000]%N);
   ((-6813551209105723, -50)%Z, [30005; 38651]%N);
   ((-7725780366687083, -50)%Z, [30028; 35352; 35760]%N);
   ((-8189487767218149, -50)%Z, [30079; 30899; 31934; 38470; 38520]%N);
   ((-7929622835870565, -50)%Z, [30151]%N);
   ((-764694605024003, -47)%Z, [30340]%N);
   ((-1039419212600747, -47)%Z, [30343]%N);
   ((-2072849369969081, -48)%Z, [30416; 40573]%N);
   ((-6262266024842959, -50)%Z, [30427]%N);
   ((-1689388924187575, -48)%Z, [30495]%N);
   ((-1942413036757213, -48)%Z, [31070]%N);
   ((-6476963660177145, -50)%Z, [31119]%N);
   ((-7403673411292811, -50)%Z, [31161]%N);
   ((-4116823182251865, -49)%Z, [31168; 33725; 38272; 38376]%N);
   ((-5441533819366977, -50)%Z, [31185]%N);
   ((-4053024804136989, -49)%Z, [31449; 37255; 40285; 40517]%N);
   ((-4089356761605265, -49)%Z, [31995]%N);
   ((-4058073716486035, -49)%Z, [32007; 32421; 36827; 36914]%N);
   ((-3755491566927827, -49)%Z, [32025; 32440]%N);
   ((-7266879327620051, -50)%Z, [32147; 32463; 33021]%N);
   ((-3583265184269023, -49)%Z, [32173; 32500]%N);
   ((-179488898592797, -45)%Z, [32178; 32593]%N);
   ((-3160214364280575, -49)%Z, [32218; 32447]%N);
   ((-6941786049742943, -50)%Z, [32599; 32645]%N);
   ((-2024010385801243, -48)%Z, [32618]%N);
   ((-6289969704932943, -50)%Z, [32654]%N);
   ((-4309628085720703, -49)%Z, [32773; 35657; 35777; 36554; 36710]%N);
   ((-3352106810236773, -49)%Z, [32852; 32879]%N);
   ((-2270931555451611, -48)%Z, [33167]%N);
   ((-2184030242944533, -48)%Z, [33180; 36093; 36187; 38742]%N);
   ((-7481737336134031, -50)%Z, [33457]%N);
   ((-233624320149057, -45)%Z, [33521]%N);
   ((-8009760201166973, -50)%Z, [33609]%N);
   ((-3643062974273407, -49)%Z, [33647; 34277; 37857; 38236]%N);
   ((-3405183100086567, -49)%Z, [33777]%N);
   ((-7974898426297409, -51)%Z, [35338; 35759]%N);
   ((-7985810596281849, -51)%Z, [35486; 35821]%N);
   ((-7578129852349295, -50)%Z, [35516; 35850]%N);
   ((-6862440216637497, -50)%Z, [35696; 35758]%N);
   ((-5558693334755733, -50)%Z, [36335]%N);
   ((-2644182745278841, -49)%Z, [36798; 36948]%N);
   ((-7447616545960407, -50)%Z, [36828; 36960]%N);
   ((-7854812304636777, -50)%Z, [36879]%N);
   ((-2400768921047025, -49)%Z, [36890]%N);
   ((-3821427281329083, -49)%Z, [36895]%N);
   ((-7732974639771233, -50)%Z, [36947]%N);
   ((-7616516521724225, -50)%Z, [37030]%N);
   ((-7711528278828207, -50)%Z, [37117; 38917; 39033]%N);
   ((-3490903045736093, -49)%Z, [37240]%N);
   ((-7649536480827061, -50)%Z, [37385; 38048]%N);
   ((-6070427093502535, -50)%Z, [37504; 38134]%N);
   ((-7559416403713995, -50)%Z, [38451; 38525]%N);
   ((-8470897154031805, -50)%Z, [38469; 38555]%N);
   ((-3325260948117191, -49)%Z, [38498]%N);
   ((-1722352292118325, -48)%Z, [38639]%N);
   ((-3038520163913885, -49)%Z, [38918; 39034]%N);
   ((-2868134919190657, -49)%Z, [39340; 39532]%N);
   ((-225629837014317, -45)%Z, [39791; 40065]%N);
   ((-715510581939911, -47)%Z, [40845; 40857]%N)];
  (* ('E', 'o') *)
  [
   ((-6343997434072179, -50)%Z, [20051; 21886]%N);
   ((-1207392625802433, -47)%Z, [20799; 20818; 21815; 22159; 37070]%N);
   ((-7468240950873971, -50)%Z, [20908; 24052]%N);
   ((-8098312314378125, -50)%Z, [21068]%N);
   ((-1961768752685231, -48)%Z, [21485; 21590; 22182; 28538; 37848; 38197]%N);
   ((-5373220063805751, -50)%Z, [21501; 22064]%N);
   ((-955224898366401, -47)%Z, [21543; 21674; 21895; 28316]%N);
   ((-2369790038186571, -49)%Z, [21553]%N);
   ((-4828513121318435, -50)%Z, [21568]%N);
   ((-7317897968357455, -50)%Z, [21591; 21764; 27801]%N);
   ((-5167944239996035, -50)%Z, [21617]%N);
   ((-1006299581677495, -48)%Z, [21653; 24403; 30070]%N);
   ((-6543093736845981, -51)%Z, [21658]%N);
   ((-1034073147584541, -48)%Z, [21679]%N);
   ((-4153097378526685, -50)%Z, [21703]%N);
   ((-2389464652706485, -50)%Z, [21704]%N);
   ((-319191872537787, -46)%Z, [21714; 22112]%N);
   ((-1816742216251911, -49)%Z, [21735]%N);
   ((-98222598729681, -44)%Z, [21736]%N);
   ((-4211106766475939, -49)%Z, [21780]%N);
   ((-2422021510711141, -49)%Z, [21799]%N);
   ((-8878726660398795, -50)%Z, [21828]%N);
   ((-3004175615528541, -50)%Z, [21862]%N);
   ((-5398522250116071, -50)%Z, [21863; 22038]%N);
   ((-4605385735887635, -50)%Z, [21866]%N);
   ((-2662130090161879, -49)%Z, [21879]%N);
   ((-3218642510026415, -50)%Z, [21891]%N);
   ((-8775059787950731, -51)%Z, [21939]%N);
   ((-4783168742030839, -50)%Z, [21970]%N);
   ((-5254594669041713, -50)%Z, [21974]%N);
   ((-1775595143555631, -49)%Z, [21985]%N);
   ((-1796321514871073, -48)%Z, [21988]%N);
   ((-5300556148869199, -50)%Z, [22007]%N);
   ((-148560092009663, -45)%Z, [22030]%N);
   ((-8255966656438565, -51)%Z, [22047]%N);
   ((-6903144189457733, -51)%Z, [22079]%N);
   ((-2488327465147723, -49)%Z, [22100]%N);
   ((-2265965719196819, -49)%Z, [22108; 22165]%N);
   ((-8065560345831261, -51)%Z, [22163]%N);
   ((-8289327263849275, -51)%Z, [24614]%N);
   ((-3430692420455269, -49)%Z, [25289]%N);
   ((-5232298892813705, -50)%Z, [27753]%N);
   ((-211602023868671, -45)%Z, [27813; 28701]%N);
   ((-5907412258832631, -50)%Z, [28121]%N);
   ((-6178936596136741, -50)%Z, [31572]%N);
   ((-6629863834266841, -51)%Z, [36890]%N);
   ((-3044557043846295, -50)%Z, [38534]%N);
   ((-1448203783197719, -48)%Z, [38646]%N);
   ((-389457092337899, -46)%Z, [39100; 39125]%N)];
  (* ('E', 'p') *)
  [
   ((-3696056852882541, -49)%Z, [20043]%N);
   ((-4562603721586777, -51)%Z, [20102]%N);
   ((-3281098504841413, -51)%Z, [20110; 26044]%N);
   ((-590341380882013, -47)%Z, [20174; 24478]%N);
   ((-5576171975082605, -50)%Z, [20511]%N);
   ((-1021566006473219, -47)%Z, [21335]%N);
   ((-2092516425361409, -48)%Z, [21450]%N);
   ((-3071159332367173, -49)%Z, [21516]%N);
   ((-4287160770009031, -50)%Z, [23545; 23565]%N);
   ((-1564762549705415, -48)%Z, [24403; 30070]%N);
   ((-8027048575349439, -50)%Z, [25171]%N);
   ((-1196552947819977, -49)%Z, [25454; 25818]%N);
   ((-678715659280291, -46)%Z, [27839]%N);
   ((-1518722512876047, -49)%Z, [29031]%N);
   ((-114807910364419, -44)%Z, [30001; 33267]%N);
   ((-2253249316288403, -50)%Z, [30528; 33879]%N);
   ((-5591675883529205, -49)%Z, [33258]%N);
   ((-6165523468069593, -52)%Z, [36807; 36942]%N)];
  (* ('E', 'q') *)
  [
   ((-4383641552398699, -49)%Z, [19995; 21474; 22330; 22580]%N);
   ((-2438500505119579, -49)%Z, [20010; 20491]%N);
   ((-2704750697209511, -49)%Z, [20137; 30045]%N);
   ((-110924135784269, -44)%Z, [20177; 23833]%N);
   ((-7986868758776729, -50)%Z, [20196; 26421]%N);
   ((-3356511613423675, -49)%Z, [20221]%N);
   ((-7750744432481031, -50)%Z, [20239]%N);
   ((-5185989429248953, -50)%Z, [20799; 20818]%N);
   ((-432899096663253, -48)%Z, [20803]%N);
   ((-8347685081397995, -51)%Z, [20811]%N);
   ((-3413810176444553, -49)%Z, [20857; 33586]%N);
   ((-2939703431087703, -49)%Z, [20998]%N);
   ((-6991343984706597, -51)%Z, [21015]%N);
   ((-1703573984531703, -48)%Z, [21319; 35997; 36125]%N);
   ((-27287690190791, -42)%Z, [21345]%N);
   ((-469100598893915, -46)%Z, [21400]%N);
   ((-812964891789419, -47)%Z, [21477]%N);
   ((-8317425278043219, -51)%Z, [21496]%N);
   ((-1864422929098315, -48)%Z, [21544; 22136]%N);
   ((-8928400331321533, -50)%Z, [22108; 22165; 24230]%N);
   ((-63656140510163, -43)%Z, [22320]%N);
   ((-8443381886223645, -50)%Z, [22521]%N);
   ((-3860359327787785, -49)%Z, [22768; 32882]%N);
   ((-1379482778490357, -47)%Z, [22788; 26479; 34389]%N);
   ((-7613348105801223, -51)%Z, [22825]%N);
   ((-5908138286971763, -49)%Z, [22982; 23681; 24343; 25096; 25285; 25812; 27506; 28857; 29748; 40670]%N);
   ((-698279233007657, -47)%Z, [23376]%N);
   ((-4347309594930423, -49)%Z, [23433]%N);
   ((-1525534712040409, -48)%Z, [23478]%N);
   ((-2048036145646611, -48)%Z, [23544]%N);
   ((-6868566680073179, -50)%Z, [23610]%N);
   ((-5401919548213371, -50)%Z, [23618; 23652]%N);
   ((-601586032399877, -46)%Z, [24052; 37070]%N);
   ((-621360044497003, -47)%Z, [24180]%N);
   ((-4422481086188681, -49)%Z, [25142; 25143]%N);
   ((-5158264090781821, -50)%Z, [25289]%N);
   ((-228908743985003, -45)%Z, [25991]%N);
   ((-647471121493979, -47)%Z, [26020]%N);
   ((-2311697941290659, -49)%Z, [26041]%N);
   ((-531320812599765, -46)%Z, [26085]%N);
   ((-6854751783967105, -50)%Z, [26102; 26178]%N);
   ((-2644837275118985, -48)%Z, [26126]%N);
   ((-291950675844011, -45)%Z, [26609; 27604]%N);
   ((-5002105289132493, -49)%Z, [26679; 27171; 37325]%N);
   ((-7781592934967013, -50)%Z, [26684]%N);
   ((-7244624166629529, -50)%Z, [27425]%N);
   ((-3061724946364229, -49)%Z, [27493]%N);
   ((-3079944981767115, -49)%Z, [29305]%N);
   ((-5988450072235179, -50)%Z, [29926]%N);
   ((-1697349122734669, -49)%Z, [31181; 31278]%N);
   ((-7264205528128653, -50)%Z, [31186]%N);
   ((-7813310522719491, -50)%Z, [31751]%N);
   ((-6933934616158085, -52)%Z, [31859]%N);
   ((-4052747076770383, -49)%Z, [32068; 32452]%N);
   ((-1663515529207967, -48)%Z, [32819]%N);
   ((-2368758383970379, -48)%Z, [33067; 33073]%N);
   ((-7609897354285949, -52)%Z, [35041; 37324]%N);
   ((-3338638685186295, -49)%Z, [36203]%N);
   ((-5127723940951093, -49)%Z, [37329]%N);
   ((-6053927817322375, -50)%Z, [37666; 38065]%N);
   ((-5551183565715025, -50)%Z, [37770; 38225]%N);
   ((-2567089875987301, -49)%Z, [37912; 38047]%N);
   ((-5572961805778167, -50)%Z, [38453; 38499]%N);
   ((-2669727787892159, -49)%Z, [38915; 39031]%N);
   ((-5938678436802491, -50)%Z, [38931; 39039]%N)];
  (* ('E', 'qe') *)
  [
   ((0, 0)%Z, [20301]%N)];
  (* ('E', 'qg') *)
  [
];
  (* ('E', 'r') *)
  [
   ((-4599729751982173, -50)%Z, [19968]%N);
   ((-8421520564838393, -50)%Z, [19977]%N);
   ((-8239948772483237, -50)%Z, [19979]%N);
   ((-5635826805808481, -49)%Z, [19994; 26989; 29256]%N);
   ((-2976655884152971, -50)%Z, [20010; 20491]%N);
   ((-977905060919615, -48)%Z, [20013]%N);
   ((-4888536716535009, -49)%Z, [20026; 28858]%N);
   ((-4051374369838979, -49)%Z, [20030; 33289]%N);
   ((-7825592487235231, -50)%Z, [20037]%N);
   ((-4932029398655887, -51)%Z, [20040; 40636]%N);
   ((-5085683157872411, -49)%Z, [20065; 37129]%N);
   ((-6935404741723729, -50)%Z, [20070; 26360]%N);
   ((-6474116509059295, -50)%Z, [20107]%N);
   ((-8037216535150831, -50)%Z, [20108]%N);
   ((-3056251896664569, -50)%Z, [20123]%N);
   ((-2400878799253195, -48)%Z, [20137; 30045]%N);
   ((-8334985377143433, -51)%Z, [20154]%N);
   ((-8590679683230029, -51)%Z, [20182]%N);
   ((-1953089704423307, -50)%Z, [20204; 20497]%N);
   ((-2680637154256531, -48)%Z, [20221]%N);
   ((-4159436480176245, -49)%Z, [20249; 22821]%N);
   ((-1021285407650149, -47)%Z, [20250; 26371]%N);
   ((-6619736831552983, -50)%Z, [20301]%N);
   ((-8204417920259039, -51)%Z, [20309]%N);
   ((-764502922906393, -47)%Z, [20313; 39192]%N);
   ((-1811775664602541, -47)%Z, [20394; 20757; 21531]%N);
   ((-6076481139379159, -49)%Z, [20449; 22870; 29518; 29677]%N);
   ((-3866520142352765, -49)%Z, [20457; 20486; 31456]%N);
   ((-912665578182265, -47)%Z, [20505]%N);
   ((-5232208171254747, -50)%Z, [20799; 20818]%N);
   ((-572607495311549, -46)%Z, [20826; 40680]%N);
   ((-41240186637073, -42)%Z, [20839; 20869]%N);
   ((-6010175184942577, -49)%Z, [20844; 25903]%N);
   ((-2880722728813541, -48)%Z, [20960; 24190]%N);
   ((-313801529181457, -46)%Z, [20999]%N);
   ((-4739528055461905, -49)%Z, [21002]%N);
   ((-2912621917870979, -48)%Z, [21021]%N);
   ((-447978871665435, -46)%Z, [21051]%N);
   ((-4884288017474109, -49)%Z, [21095; 21127]%N);
   ((-2048257371871989, -48)%Z, [21306; 21312]%N);
   ((-1682819208395307, -47)%Z, [21345; 21697; 22253; 22290; 30418]%N);
   ((-5848224575655701, -49)%Z, [21367]%N);
   ((-5206780099008165, -49)%Z, [21378; 22235; 22971; 24288]%N);
   ((-1020011756529047, -47)%Z, [21439; 32291]%N);
   ((-541450174418857, -46)%Z, [21452; 38617]%N);
   ((-5668951062555679, -49)%Z, [21488; 25112; 25136; 30719; 31014]%N);
   ((-8122194817319083, -50)%Z, [21608; 36913]%N);
   ((-8762611428861923, -50)%Z, [21861]%N);
   ((-2511375095539249, -48)%Z, [22242; 22296]%N);
   ((-2661647512800129, -49)%Z, [22269; 22283]%N);
   ((-5636416297912579, -50)%Z, [22320]%N);
   ((-2208530291611987, -48)%Z, [22330; 22580]%N);
   ((-1894418994850681, -48)%Z, [22359; 22602]%N);
   ((-1206986509785303, -47)%Z, [22411]%N);
   ((-2402712518941913, -48)%Z, [22478]%N);
   ((-7018846094686705, -49)%Z, [22496; 32626; 37009]%N);
   ((-6477752846194659, -50)%Z, [22577; 25253]%N);
   ((-1714374457091507, -48)%Z, [22788; 34389]%N);
   ((-1430651480959275, -47)%Z, [22810]%N);
   ((-2756775312937029, -49)%Z, [22825]%N);
   ((-2747174680056821, -48)%Z, [22871]%N);
   ((-576738675455413, -46)%Z, [22914; 27966]%N);
   ((-5589530872236521, -49)%Z, [22952; 31995]%N);
   ((-1081323441714615, -47)%Z, [23376]%N);
   ((-5313939721595869, -49)%Z, [23395]%N);
   ((-7030949752170995, -50)%Z, [23427]%N);
   ((-8945695641440093, -51)%Z, [23478]%N);
   ((-2975431243780279, -48)%Z, [23546; 29942]%N);
   ((-5311922202570045, -50)%Z, [23569]%N);
   ((-2318991095182943, -48)%Z, [23616]%N);
   ((-7948076292667629, -50)%Z, [23622; 23626]%N);
   ((-8411331355869577, -50)%Z, [24030]%N);
   ((-6599909234369479, -51)%Z, [24049]%N);
   ((-5073705047407585, -49)%Z, [24050]%N);
   ((-8166196505691185, -50)%Z, [24066]%N);
   ((-6856895485399829, -49)%Z, [24072; 24107; 26411]%N);
   ((-5214336587678917, -49)%Z, [24133]%N);
   ((-715536534526701, -47)%Z, [24180]%N);
   ((-6151652630637417, -49)%Z, [24196; 33674]%N);
   ((-5253719771876597, -49)%Z, [24215]%N);
   ((-4932886408052909, -49)%Z, [24335]%N);
   ((-5229760838921907, -49)%Z, [24352; 24373; 29983]%N);
   ((-817732475455969, -46)%Z, [24375; 24378]%N);
   ((-1330773395265811, -47)%Z, [24441]%N);
   ((-291090257931065, -45)%Z, [24515]%N);
   ((-1510588127837853, -47)%Z, [24517]%N);
   ((-2729008701322683, -48)%Z, [24773]%N);
   ((-1839395708664539, -48)%Z, [25105]%N);
   ((-2429723980302949, -48)%Z, [25142; 25143]%N);
   ((-19599074488573, -41)%Z, [25152; 28207]%N);
   ((-3927300163305751, -49)%Z, [25991]%N);
   ((-7192295971405909, -50)%Z, [26041]%N);
   ((-8022758552764071, -50)%Z, [26063]%N);
   ((-6498429001947495, -50)%Z, [26085]%N);
   ((-4566977375704249, -50)%Z, [26102; 26178]%N);
   ((-7549019503812767, -50)%Z, [26159]%N);
   ((-2495587314219933, -48)%Z, [26202; 27969]%N);
   ((-7637309831420499, -49)%Z, [26361]%N);
   ((-1870103887580909, -48)%Z, [26376]%N);
   ((-3959113709441235, -49)%Z, [26399]%N);
   ((-8926396665892459, -50)%Z, [26412]%N);
   ((-4756135453109923, -49)%Z, [26426; 27231]%N);
   ((-8708503724950355, -50)%Z, [26449]%N);
   ((-1245257777901603, -47)%Z, [26465; 26781]%N);
   ((-4720225023144249, -49)%Z, [26576]%N);
   ((-5304932330180165, -49)%Z, [26635; 26847]%N);
   ((-2581727442242663, -48)%Z, [26639; 27396]%N);
   ((-8465883889810117, -50)%Z, [26657]%N);
   ((-400023897372057, -45)%Z, [26666]%N);
   ((-6702083729031021, -51)%Z, [26679; 27171]%N);
   ((-4068998590339413, -49)%Z, [26696]%N);
   ((-2125257219296509, -48)%Z, [26742]%N);
   ((-181348891784349, -44)%Z, [27004; 27155]%N);
   ((-1101928356952909, -48)%Z, [27425]%N);
   ((-5245619632798147, -49)%Z, [27454]%N);
   ((-2408450850345065, -49)%Z, [27492]%N);
   ((-8826762317330681, -50)%Z, [27573]%N);
   ((-1104727338301379, -47)%Z, [27861]%N);
   ((-5923396066913959, -49)%Z, [28982; 33647; 34277]%N);
   ((-8879313851498657, -50)%Z, [29238]%N);
   ((-4976027079071909, -49)%Z, [29255]%N);
   ((-4542679235042575, -49)%Z, [29289]%N);
   ((-5412957364088833, -49)%Z, [29702]%N);
   ((-4897131539259897, -49)%Z, [29992]%N);
   ((-8222660142470835, -50)%Z, [30028]%N);
   ((-4284471461695363, -49)%Z, [30149]%N);
   ((-4932510965314719, -50)%Z, [30340]%N);
   ((-3529412789954367, -49)%Z, [30465]%N);
   ((-277239207466303, -45)%Z, [30528; 33879]%N);
   ((-5423888774617619, -49)%Z, [31038]%N);
   ((-6486156454016545, -51)%Z, [31181; 31278]%N);
   ((-8641217993596477, -50)%Z, [31185]%N);
   ((-4692457479220385, -49)%Z, [31186]%N);
   ((-2528101301432335, -48)%Z, [31449]%N);
   ((-3921913041301941, -49)%Z, [31508; 31558]%N);
   ((-7681484053231909, -50)%Z, [31561]%N);
   ((-5741690800773835, -49)%Z, [31687]%N);
   ((-5937476408934403, -50)%Z, [31867; 39006]%N);
   ((-7023532729914329, -50)%Z, [32026; 32423]%N);
   ((-320608451779515, -45)%Z, [32068; 32452]%N);
   ((-8790672692116745, -50)%Z, [32769]%N);
   ((-5300023121079421, -50)%Z, [32773]%N);
   ((-6490573317126939, -50)%Z, [32929]%N);
   ((-1612690585748335, -48)%Z, [33258]%N);
   ((-7617055727919081, -50)%Z, [33324]%N);
   ((-4566237063631581, -49)%Z, [33394]%N);
   ((-7278843347968165, -50)%Z, [34892]%N);
   ((-3314319460838185, -48)%Z, [34920; 40180; 40483]%N);
   ((-5332398750826765, -49)%Z, [34930]%N);
   ((-7589366479361957, -51)%Z, [35041; 37324]%N);
   ((-5897207626279137, -49)%Z, [35211; 35265]%N);
   ((-2330140076405775, -48)%Z, [35328]%N);
   ((-6659688919037291, -50)%Z, [35441; 35805]%N);
   ((-4208207217030081, -49)%Z, [36335]%N);
   ((-2601168485040837, -49)%Z, [36523]%N);
   ((-1037829914100685, -47)%Z, [36554; 36710]%N);
   ((-4654622316710953, -49)%Z, [36649; 36744]%N);
   ((-2088617031051873, -48)%Z, [36650; 36718]%N);
   ((-106550672248245, -44)%Z, [36793; 37002]%N);
   ((-7265933625289341, -50)%Z, [37096]%N);
   ((-4717071233644071, -49)%Z, [37806; 38215]%N);
   ((-8856490774598789, -50)%Z, [38263; 38271]%N);
   ((-1216901699597953, -47)%Z, [38272; 38376]%N);
   ((-8361724217464991, -50)%Z, [38291; 38388]%N);
   ((-4880071144173085, -49)%Z, [38431; 38538]%N);
   ((-4608696866833457, -49)%Z, [38498]%N);
   ((-1555651738248745, -48)%Z, [38917; 39033]%N);
   ((-5872183508610391, -49)%Z, [39080; 39118]%N);
   ((-1559607937166509, -47)%Z, [39184]%N);
   ((-2539831122681155, -48)%Z, [39208; 39302]%N)];
  (* ('E', 'rg') *)
  [
];
  (* ('E', 'rr') *)
  [
   ((-2028761349930975, -54)%Z, [20154]%N);
   ((-1260741596144071, -49)%Z, [20204; 20497]%N)];
  (* ('E', 'rz') *)
  [
   ((0, 0)%Z, [20301]%N)];
  (* ('E', 's') *)
  [
   ((-3687612733871097, -51)%Z, [19978]%N);
   ((-7481032938118227, -51)%Z, [19979]%N);
   ((-8407407904641625, -50)%Z, [19996; 26481]%N);
   ((-2506846132701863, -50)%Z, [20013]%N);
   ((-4867227727611139, -49)%Z, [20391; 20596]%N);
   ((-2699456173158157, -48)%Z, [20799; 20818; 24237]%N);
   ((-4925241777901389, -51)%Z, [20839; 20869]%N);
   ((-4834461996022409, -50)%Z, [21069]%N);
   ((-3796784105893171, -50)%Z, [21271]%N);
   ((-2402520310489103, -49)%Z, [21306; 21312]%N);
   ((-9001069776683727, -51)%Z, [21335]%N);
   ((-2358564567025771, -48)%Z, [21381; 24307]%N);
   ((-4614843304276619, -50)%Z, [21475]%N);
   ((-5289612227030309, -49)%Z, [21488]%N);
   ((-3216278958456733, -49)%Z, [21518; 24460]%N);
   ((-2352638559162131, -48)%Z, [22269; 22283]%N);
   ((-7599666739704705, -51)%Z, [22320]%N);
   ((-2471308986033563, -49)%Z, [22330; 22580]%N);
   ((-819919437660519, -47)%Z, [22359; 22602]%N);
   ((-8315069304826821, -50)%Z, [22478; 38498]%N);
   ((-5713948028068391, -49)%Z, [22530]%N);
   ((-2980303077555645, -49)%Z, [22659]%N);
   ((-7229752005801123, -50)%Z, [22721]%N);
   ((-4502332972152575, -50)%Z, [22788; 34389]%N);
   ((-2949555862630387, -50)%Z, [22806]%N);
   ((-5210158385748581, -50)%Z, [22836; 38957]%N);
   ((-4880507401153265, -50)%Z, [23736]%N);
   ((-847361020274069, -47)%Z, [24213]%N);
   ((-7138851949504219, -50)%Z, [24515]%N);
   ((-8090747224891661, -50)%Z, [25490]%N);
   ((-7355900757641307, -51)%Z, [26041]%N);
   ((-6143328530210619, -50)%Z, [26049]%N);
   ((-1791819324958347, -48)%Z, [27839]%N);
   ((-7236534555871879, -50)%Z, [28023]%N);
   ((-5170655782592855, -49)%Z, [28286; 28771]%N);
   ((-2794164688124895, -48)%Z, [28392; 28657]%N);
   ((-4836790587915417, -49)%Z, [29615; 29872; 38514]%N);
   ((-5978536549260125, -49)%Z, [30036; 37096]%N);
   ((-3521613704349809, -49)%Z, [30086]%N);
   ((-5446451440956377, -50)%Z, [31354]%N);
   ((-4933533682047721, -49)%Z, [31471; 36884]%N);
   ((-6127975111745273, -50)%Z, [32218; 32447]%N);
   ((-6494362374089061, -49)%Z, [32227; 32536]%N);
   ((-1247237629113183, -47)%Z, [32764]%N);
   ((-5875898637355267, -49)%Z, [33618]%N);
   ((-4161984872848727, -49)%Z, [34903]%N);
   ((-4751857434247583, -51)%Z, [35041; 37324]%N);
   ((-4916210778234575, -49)%Z, [35199]%N);
   ((-4608534024191959, -49)%Z, [35282]%N);
   ((-1771700611950585, -49)%Z, [36215]%N);
   ((-3850451522023243, -50)%Z, [36793; 37002]%N);
   ((-2628717450310737, -48)%Z, [36947]%N);
   ((-5978267692275181, -50)%Z, [37066]%N);
   ((-4969865639515997, -49)%Z, [38272; 38376]%N);
   ((-6352217146186427, -50)%Z, [38291; 38388]%N);
   ((-6394887933666021, -50)%Z, [38470; 38520]%N);
   ((-5647642073631809, -49)%Z, [38914; 39030]%N);
   ((-3133052905182801, -48)%Z, [39003; 39072]%N);
   ((-1340018203131583, -47)%Z, [40595]%N)];
  (* ('E', 't') *)
  [
   ((-1484444584799817, -48)%Z, [19968]%N);
   ((-5047105268479333, -49)%Z, [19971; 20239]%N);
   ((-13257578742433, -41)%Z, [19977]%N);
   ((-1246062848336499, -48)%Z, [19978]%N);
   ((-5897946433472943, -50)%Z, [19979]%N);
   ((-6674239914957255, -49)%Z, [19985; 20820; 26388; 29275; 29399; 29482; 34503; 35948; 37276; 38622; 40481; 40736;
     40845; 40857]%N);
   ((-1957103712840425, -48)%Z, [19990]%N);
   ((-4228894855053481, -49)%Z, [20010; 20491]%N);
   ((-934114021382977, -47)%Z, [20013]%N);
   ((-4132793445652027, -49)%Z, [20037]%N);
   ((-2688999872053825, -48)%Z, [20043]%N);
   ((-4651709579906981, -49)%Z, [20048; 27138]%N);
   ((-4565668757005063, -49)%Z, [20061; 37329]%N);
   ((-2223145155541757, -48)%Z, [20102]%N);
   ((-1561548095566207, -48)%Z, [20108]%N);
   ((-6309461830268997, -50)%Z, [20116]%N);
   ((-4235707465254073, -50)%Z, [20170]%N);
   ((-6360204981192947, -51)%Z, [20195]%N);
   ((-8538606447827707, -50)%Z, [20221; 33267]%N);
   ((-1462191382595013, -47)%Z, [20313; 28385; 28415; 39192]%N);
   ((-3374149905859273, -50)%Z, [20358; 26469]%N);
   ((-2534175592179691, -48)%Z, [20505]%N);
   ((-8878328534308153, -50)%Z, [20551]%N);
   ((-840948536042623, -47)%Z, [20799; 20818]%N);
   ((-8701739610265251, -50)%Z, [20803]%N);
   ((-8738657668727043, -50)%Z, [20808]%N);
   ((-4885154659192457, -49)%Z, [20809]%N);
   ((-409908241074323, -46)%Z, [20839; 20869]%N);
   ((-4510806280058361, -49)%Z, [20843; 29983]%N);
   ((-7758192101807037, -50)%Z, [20845]%N);
   ((-2336378444672619, -48)%Z, [20851; 38364]%N);
   ((-499573898226095, -46)%Z, [20908]%N);
   ((-1401564076957777, -47)%Z, [20937; 28092]%N);
   ((-4772187100529017, -49)%Z, [20998]%N);
   ((-1191990200382545, -48)%Z, [21021]%N);
   ((-5768206917117985, -49)%Z, [21051; 26286]%N);
   ((-5005295513482767, -51)%Z, [21069]%N);
   ((-4602296303849215, -49)%Z, [21270]%N);
   ((-2431086959639357, -48)%Z, [21313]%N);
   ((-2288623179393637, -49)%Z, [21320]%N);
   ((-4951460613629039, -49)%Z, [21322]%N);
   ((-3688744663986383, -49)%Z, [21382; 27511]%N);
   ((-8245195637941557, -51)%Z, [21435]%N);
   ((-3754001317180827, -49)%Z, [21476]%N);
   ((-3169011387005785, -49)%Z, [21494; 33865]%N);
   ((-15432188524617, -42)%Z, [21518; 24460]%N);
   ((-16111853936977, -41)%Z, [21551; 21855]%N);
   ((-2143954842579257, -49)%Z, [21608; 36913]%N);
   ((-6422716816975353, -50)%Z, [21776]%N);
   ((-2776300723274843, -48)%Z, [21830; 30524]%N);
   ((-3438217330183087, -49)%Z, [22235]%N);
   ((-1129726604784203, -47)%Z, [22238]%N);
   ((-3659635759165793, -49)%Z, [22269; 22283]%N);
   ((-413893756700803, -47)%Z, [22312]%N);
   ((-8174834818717283, -50)%Z, [22799]%N);
   ((-4347851299490935, -49)%Z, [22805]%N);
   ((-2622462346253535, -48)%Z, [22806]%N);
   ((-350164232852909, -46)%Z, [22812]%N);
   ((-6448360588464431, -51)%Z, [22825]%N);
   ((-4778620884310591, -49)%Z, [23376]%N);
   ((-160317060346615, -45)%Z, [23395]%N);
   ((-5692586989780769, -50)%Z, [23435]%N);
   ((-2751809197963125, -48)%Z, [23477]%N);
   ((-911587956461381, -46)%Z, [23493; 34567]%N);
   ((-1331086220706557, -47)%Z, [23506; 26970; 38632]%N);
   ((-2550901798072777, -48)%Z, [23614]%N);
   ((-5416839277897631, -49)%Z, [23681; 27506]%N);
   ((-3925466800071765, -49)%Z, [24120; 26149]%N);
   ((-4628873460799261, -51)%Z, [24180]%N);
   ((-6409994648767587, -50)%Z, [24198; 24950]%N);
   ((-4808784528408493, -50)%Z, [24213]%N);
   ((-5665569005213127, -49)%Z, [24230; 31181; 31278; 38477]%N);
   ((-1594316806545007, -48)%Z, [24448]%N);
   ((-1982610478122793, -48)%Z, [24503]%N);
   ((-1359328110372417, -47)%Z, [24687; 29081]%N);
   ((-5266156138479421, -50)%Z, [25165]%N);
   ((-3193335326925889, -48)%Z, [25308; 29492]%N);
   ((-2265639721825199, -48)%Z, [25991]%N);
   ((-5810522815075265, -51)%Z, [26085]%N);
   ((-8419457500435383, -50)%Z, [26086]%N);
   ((-3407937645793799, -49)%Z, [26089]%N);
   ((-6003050670694233, -50)%Z, [26092]%N);
   ((-7090320165279981, -51)%Z, [26102; 26178]%N);
   ((-471109069757349, -46)%Z, [26126]%N);
   ((-7080514626488487, -50)%Z, [26127]%N);
   ((-4805117537355751, -49)%Z, [26132]%N);
   ((-6470078545601585, -50)%Z, [26185; 26187]%N);
   ((-148735500230433, -44)%Z, [26188]%N);
   ((-4877389709140533, -49)%Z, [26195; 26313]%N);
   ((-2730161211677987, -49)%Z, [26202]%N);
   ((-6081162617780945, -50)%Z, [26216]%N);
   ((-5162394273539351, -49)%Z, [26257]%N);
   ((-7879730563931825, -50)%Z, [26356]%N);
   ((-8138096294540525, -51)%Z, [26376]%N);
   ((-1254167032195903, -47)%Z, [26395]%N);
   ((-4591935615201741, -50)%Z, [26397]%N);
   ((-3983507677666471, -50)%Z, [26399]%N);
   ((-5104809919244507, -50)%Z, [26411]%N);
   ((-5635131865517405, -49)%Z, [26722; 26984]%N);
   ((-7064847202293839, -50)%Z, [27425]%N);
   ((-1432968739912427, -47)%Z, [27491]%N);
   ((-2130751203448323, -48)%Z, [27494]%N);
   ((-7660444219362445, -50)%Z, [27573]%N);
   ((-5344080607086259, -50)%Z, [27721; 28450]%N);
   ((-7275795077932575, -50)%Z, [27835]%N);
   ((-1180801012476395, -47)%Z, [28145]%N);
   ((-1717617008305881, -48)%Z, [28165]%N);
   ((-6122082132660043, -49)%Z, [28857; 40670]%N);
   ((-4502821040450341, -49)%Z, [30058]%N);
   ((-4729098867678135, -49)%Z, [30636]%N);
   ((-923593552608449, -47)%Z, [31179]%N);
   ((-7081949808208429, -50)%Z, [31206]%N);
   ((-5961946974035189, -50)%Z, [31680; 33410]%N);
   ((-5803204429069387, -50)%Z, [32000; 32426]%N);
   ((-2056306933720003, -48)%Z, [32066; 32456]%N);
   ((-4960326150450715, -49)%Z, [32113; 32479]%N);
   ((-6902496478680713, -49)%Z, [32210; 32490; 32650; 36208]%N);
   ((-8671873140032407, -50)%Z, [33278]%N);
   ((-1394697471796127, -47)%Z, [34544; 34756]%N);
   ((-3310329919515823, -49)%Z, [35041; 37324]%N);
   ((-4332996876895245, -49)%Z, [35477; 35806]%N);
   ((-4785129048742789, -49)%Z, [36213; 36249]%N);
   ((-2684761124815481, -49)%Z, [36817]%N);
   ((-8443261767804261, -50)%Z, [37027]%N);
   ((-5486475308540799, -50)%Z, [38291; 38388]%N);
   ((-130276610255249, -44)%Z, [38451; 38525]%N);
   ((-2503438724017025, -48)%Z, [38480]%N);
   ((-8015994438078967, -50)%Z, [38534]%N);
   ((-1381894332220235, -47)%Z, [38670]%N);
   ((-5137370155870605, -49)%Z, [38706]%N);
   ((-7608831437142721, -50)%Z, [38742]%N);
   ((-5216049134820773, -49)%Z, [38918; 39034]%N);
   ((-5480637656012507, -49)%Z, [39318]%N);
   ((-3256144652835189, -48)%Z, [39340; 39532]%N);
   ((-3474668949667633, -49)%Z, [39759]%N);
   ((-7763441061928569, -50)%Z, [40778; 40784]%N)];
  (* ('E', 'tg') *)
  [
];
  (* ('E', 'u') *)
  [
   ((-2620961825048381, -49)%Z, [20102]%N);
   ((-377809167333939, -45)%Z, [20113; 38642]%N);
   ((-3474427614480333, -50)%Z, [20839; 20869]%N);
   ((-1401486595990449, -48)%Z, [21542]%N);
   ((-314767235474931, -45)%Z, [21705]%N);
   ((-2185694613481513, -49)%Z, [22320]%N);
   ((-7619742059079691, -50)%Z, [22806]%N);
   ((-2404009601937719, -48)%Z, [24050]%N);
   ((-5317510452675995, -52)%Z, [26679; 27171]%N);
   ((-8470447424134417, -51)%Z, [27490]%N);
   ((-5654739504332689, -49)%Z, [27668; 27683]%N);
   ((-4695051645211997, -49)%Z, [29978]%N);
   ((-2563364257139747, -50)%Z, [30340]%N);
   ((-5135795856500529, -51)%Z, [30475]%N);
   ((-8223567481057459, -50)%Z, [30528; 33879]%N);
   ((-5889832656786805, -51)%Z, [31561]%N);
   ((-3789018647372727, -49)%Z, [33324]%N);
   ((-2279644738279971, -48)%Z, [35211; 35265]%N);
   ((-3001454445177705, -50)%Z, [35328]%N);
   ((-1508155510715515, -49)%Z, [35441; 35805]%N);
   ((-8158112487666975, -52)%Z, [35498; 35828]%N);
   ((-6354840478118117, -50)%Z, [35542; 35770]%N)];
  (* ('E', 'ud') *)
  [
];
  (* ('E', 'ug') *)
  [
];
  (* ('E', 'uj') *)
  [
];
  (* ('E', 'ul') *)
  [
];
  (* ('E', 'uv') *)
  [
];
  (* ('E', 'uz') *)
  [
];
  (* ('E', 'v') *)
  [
   ((-2369365060997771, -48)%Z, [19968]%N);
   ((-1706659663461191, -47)%Z, [19969; 20185; 21595; 21903; 21958; 23461; 23504; 26729; 26775; 27137; 30146; 31659;
     31787; 33948]%N);
   ((-801069059397769, -47)%Z, [19978]%N);
   ((-6257549395501623, -50)%Z, [19979]%N);
   ((-228124383025737, -45)%Z, [19982; 33287]%N);
   ((-6261108509935723, -49)%Z, [19985; 20173; 21696; 31038; 33043; 33215; 36929; 37276]%N);
   ((-6709748083114421, -49)%Z, [19988; 30520; 30568]%N);
   ((-8159674689329851, -50)%Z, [19990]%N);
   ((-3446590347310677, -49)%Z, [19994; 26989]%N);
   ((-3299191045060653, -48)%Z, [19996; 22094; 22799; 25315; 25536; 26481; 28342; 32670; 37259; 37857; 38236]%N);
   ((-1390389454111023, -47)%Z, [19997; 32114]%N);
   ((-191883356156377, -44)%Z, [20005; 21006; 22196; 23492; 25645; 32380; 32487]%N);
   ((-2059074019314433, -48)%Z, [20006; 24182]%N);
   ((-5653317129861425, -49)%Z, [20007; 21930]%N);
   ((-1754849311148985, -48)%Z, [20013]%N);
   ((-1533476578225045, -47)%Z, [20016; 27877; 31104; 31532; 32928; 32937; 33144; 34249; 35920]%N);
   ((-1575554501572735, -47)%Z, [20018; 20248; 20603; 20674; 20778; 22840; 24469; 24480; 28053; 33914; 35463; 37709;
     38208]%N);
   ((-936688099882021, -47)%Z, [20020; 33256]%N);
   ((-183715205516669, -44)%Z, [20025; 21345; 22827; 24703; 34885; 37313]%N);
   ((-8556633101846915, -51)%Z, [20026; 28858]%N);
   ((-6763863518886275, -50)%Z, [20027]%N);
   ((-7754750950326825, -49)%Z, [20029; 21153; 21209; 23572; 23610; 24218; 25139; 25371; 25414; 25891; 26690; 26865;
     26974; 27698; 27699; 28950; 29148; 29246; 30782; 31019; 31186; 31579; 31721; 32353; 32483; 33395; 33399; 33490;
     33502; 33862; 34647; 35307; 38344; 38385; 39025; 39045; 39186; 39297; 40599]%N);
   ((-8317378371328615, -50)%Z, [20030; 33289]%N);
   ((-6208174917110971, -49)%Z, [20035; 21564; 23630; 28082; 30002; 36228]%N);
   ((-3587563373691507, -48)%Z, [20037; 22855; 25015; 28180; 28417; 29422; 29509; 31293; 31941; 32000; 32426; 35350;
     35755; 36600; 36659; 36724; 36751; 39438; 39569; 40232; 40493]%N);
   ((-2437125583803683, -48)%Z, [20040; 33337; 36008; 36135; 40636]%N);
   ((-8260517572485073, -50)%Z, [20041; 32681]%N);
   ((-1351628663802563, -47)%Z, [20043; 32283; 32538; 36941]%N);
   ((-4480679071527589, -49)%Z, [20046]%N);
   ((-128975205824547, -44)%Z, [20047]%N);
   ((-5166792319310461, -49)%Z, [20048; 24735; 27138]%N);
   ((-3337809727543337, -48)%Z, [20054; 21883; 22253; 22290; 23067; 23089; 23100; 24331; 24365; 25197; 25805; 31351;
     31406; 33459; 35559; 35856]%N);
   ((-5582539746409141, -49)%Z, [20056; 20912]%N);
   ((-6692425179301275, -49)%Z, [20062; 20860; 22365; 22761; 26685; 27807; 28317; 30417; 30435; 31518; 32032; 39208;
     39302]%N);
   ((-7611927784847643, -50)%Z, [20064; 32722]%N);
   ((-4762020454537895, -49)%Z, [20065; 37129]%N);
   ((-266212436917259, -45)%Z, [20070; 26360]%N);
   ((-6871698692401297, -49)%Z, [20073; 21522; 21589; 21668; 22036; 22931; 23395; 24623; 25260; 26842; 31028; 31179;
     33026; 33041; 33109; 33126; 34966]%N);
   ((-7767283854797429, -50)%Z, [20080; 36023]%N);
   ((-1093576819996403, -47)%Z, [20081; 20098]%N);
   ((-5907762134219705, -49)%Z, [20083; 21073; 21133]%N);
   ((-1926394591062535, -48)%Z, [20102]%N);
   ((-972546303368433, -47)%Z, [20104]%N);
   ((-154930537600787, -44)%Z, [20105; 29229]%N);
   ((-6891578446013337, -50)%Z, [20107]%N);
   ((-2319808163738119, -49)%Z, [20110; 26044]%N);
   ((-311514168239845, -45)%Z, [20111; 34407]%N);
   ((-5656017134813759, -49)%Z, [20113; 24811; 24970; 26088; 38642]%N);
   ((-5661456307111483, -49)%Z, [20114; 21943; 22132]%N);
   ((-2923801765707089, -48)%Z, [20117; 24736]%N);
   ((-2962476390747189, -48)%Z, [20120; 20121; 25615; 26352; 33181; 38506]%N);
   ((-7696596529248205, -50)%Z, [20129]%N);
   ((-7652113038421967, -49)%Z, [20130; 20431; 20820; 21242; 21711; 22443; 22666; 24779; 27792; 29076; 30209; 30501;
     30502; 31204; 32070; 32458; 32745; 33329; 33369; 33796; 34360; 35294; 35316; 35491; 35820; 36626; 36639; 36740;
     36749; 37306; 38358; 38383]%N);
   ((-923647528805943, -47)%Z, [20132]%N);
   ((-7227067072936893, -50)%Z, [20135; 29986]%N);
   ((-2397522087765511, -48)%Z, [20139]%N);
   ((-2447087299871985, -48)%Z, [20140]%N);
   ((-4634414528805877, -49)%Z, [20142]%N);
   ((-4928041045067255, -49)%Z, [20146; 35242]%N);
   ((-6643442128677839, -49)%Z, [20149; 20856; 21647; 24049; 25329; 25797; 29378; 30733; 31471; 31890; 32048; 32454;
     35131; 35424; 36943; 37294; 39164; 39282]%N);
   ((-8137185276519227, -50)%Z, [20154]%N);
   ((-2888124332314275, -48)%Z, [20161; 33945]%N);
   ((-5094465452363779, -49)%Z, [20167]%N);
   ((-7565333920393349, -49)%Z, [20170; 21549; 21688; 21869; 21870; 22208; 22227; 22434; 23725; 23994; 24265; 25424;
     25441; 25791; 25794; 26053; 26429; 26643; 26757; 27867; 28851; 29310; 29399; 30518; 31487; 31496; 33441; 35419;
     35781; 36510; 37030; 37504; 38134; 39995; 40151]%N);
   ((-2693859718044873, -48)%Z, [20171]%N);
   ((-7818378087542963, -50)%Z, [20174; 24478]%N);
   ((-8505740007632211, -50)%Z, [20179; 20489]%N);
   ((-3177936433786181, -48)%Z, [20181; 25042; 25078; 27572; 27590; 27934; 30505; 36637; 36745; 38404; 39726]%N);
   ((-1642557181547055, -47)%Z, [20182; 21912; 22771; 23396; 23507; 24868; 24996; 27580; 28297]%N);
   ((-2413817793992659, -48)%Z, [20183]%N);
   ((-3824375699120145, -49)%Z, [20184]%N);
   ((-4080166651461927, -49)%Z, [20195]%N);
   ((-8657426813550959, -50)%Z, [20196]%N);
   ((-5211908230227323, -50)%Z, [20197]%N);
   ((-845645614689929, -46)%Z, [20202; 20736; 21359; 21416; 23486; 24196; 24282; 33580; 33674; 36051]%N);
   ((-314678337070477, -45)%Z, [20208; 25103; 25138]%N);
   ((-7065826628097009, -49)%Z, [20214; 21754; 22240; 22674; 22865; 23156; 23344; 23792; 24908; 25022; 26786; 28810;
     29492; 30977; 32191; 32403; 32501; 32552; 32874; 32880; 33626; 33698; 34326; 34327; 36302; 37550; 37912; 38014;
     38047; 39745]%N);
   ((-1833008851085743, -48)%Z, [20215; 20729]%N);
   ((-1717084263054905, -48)%Z, [20219]%N);
   ((-3940184801072713, -48)%Z, [20221; 20390; 20597; 21049; 21070; 21155; 21792; 22062; 22383; 22942; 24248; 24527;
     24636; 24754; 24799; 25055; 25082; 25638; 26438; 26751; 28938; 30116; 30385; 30394; 30900; 32701; 32817; 33176;
     34067; 34091; 34503; 35493; 35824; 35910; 35947; 37194; 37723; 38013; 38075; 38203; 38582; 38584; 38660; 38948;
     39056; 40165; 40479]%N);
   ((-4956213452349071, -49)%Z, [20223]%N);
   ((-5366286834764969, -49)%Z, [20237; 26408]%N);
   ((-8573549678745677, -50)%Z, [20239]%N);
   ((-2471547039855149, -48)%Z, [20240]%N);
   ((-2349397556929965, -48)%Z, [20241]%N);
   ((-5200708178849343, -49)%Z, [20247; 30526]%N);
   ((-2395477112670905, -48)%Z, [20249; 22821]%N);
   ((-772265150736473, -47)%Z, [20250; 26371]%N);
   ((-6091284346380627, -49)%Z, [20254; 20632; 21085; 21093; 28151; 30721; 30908; 38829; 40635]%N);
   ((-4145958148646485, -49)%Z, [20256; 20659]%N);
   ((-502843901948907, -46)%Z, [20260; 20663]%N);
   ((-7216845826855099, -49)%Z, [20262; 20523; 24677; 25602; 25695; 26588; 26825; 27331; 28422; 29642; 30406; 30913;
     32827; 33922; 35482; 35822; 39165; 39281]%N);
   ((-3682271888658245, -48)%Z, [20263; 20630; 20861; 21704; 23167; 24039; 24088; 25302; 25305; 25642; 27803; 28079;
     29560; 31687; 31806; 33162; 34496; 36042; 36156; 38774]%N);
   ((-6193922258285485, -49)%Z, [20266; 20339; 20605; 24764; 26707; 28227; 32580; 39138; 39269]%N);
   ((-4662895790729679, -49)%Z, [20272; 21898]%N);
   ((-317602308773457, -45)%Z, [20276; 20365]%N);
   ((-4557867102088679, -49)%Z, [20280]%N);
   ((-6505450452345653, -49)%Z, [20282; 20918; 22359; 22602; 26143; 28790; 28907; 29145; 31364; 32033; 32177; 32434;
     32442; 32641; 32648; 32930; 35357; 35425; 35766; 35817]%N);
   ((-3934804701633381, -49)%Z, [20284]%N);
   ((-2873435348655961, -48)%Z, [20291; 25331]%N);
   ((-7950838055159119, -50)%Z, [20301]%N);
   ((-7483348416593085, -50)%Z, [20302]%N);
   ((-6532526940897139, -50)%Z, [20303]%N);
   ((-2750436871063537, -48)%Z, [20304; 25134; 34109]%N);
   ((-2669718503888155, -48)%Z, [20305; 21338]%N);
   ((-5139109753545667, -49)%Z, [20307; 37247; 37312; 38632; 39636]%N);
   ((-8725524006498345, -50)%Z, [20308; 21344]%N);
   ((-1342790222695731, -47)%Z, [20309; 20928; 28136]%N);
   ((-4990000588128905, -49)%Z, [20313; 24180; 39192]%N);
   ((-2914449577314711, -48)%Z, [20314; 21719; 22057]%N);
   ((-1314771018975627, -47)%Z, [20315; 24536; 35584; 35851]%N);
   ((-6403905292009231, -50)%Z, [20316]%N);
   ((-5392783487810129, -49)%Z, [20323; 20653; 36893]%N);
   ((-5515442576166387, -49)%Z, [20329; 22369; 35206]%N);
   ((-8270576775155761, -49)%Z, [20335; 21983; 22737; 22856; 24188; 24189; 24548; 25520; 26440; 28153; 29066; 29313;
     30679; 31492; 31914; 31966; 32006; 32417; 32755; 34946; 35090; 36282; 37428; 38083; 39130; 39751; 39768]%N);
   ((-7617812469289973, -50)%Z, [20351]%N);
   ((-6103136362107907, -49)%Z, [20355; 22609; 33145; 36424; 39425; 39563]%N);
   ((-8676612594594641, -51)%Z, [20358; 26469]%N);
   ((-343676432522283, -45)%Z, [20363; 26495]%N);
   ((-6746089265927431, -50)%Z, [20379]%N);
   ((-661162299685739, -46)%Z, [20381; 21002; 27735]%N);
   ((-6848717952487555, -49)%Z, [20391; 20596; 24086; 25379; 25494; 25497; 26517; 28246; 30742; 30938; 36527; 36544;
     36866; 36969; 39177; 39287]%N);
   ((-5891080915137409, -49)%Z, [20398; 32650; 36292; 36428; 37956; 38136; 40643; 40644; 40763]%N);
   ((-4647346225069631, -49)%Z, [20405]%N);
   ((-5030381964111929, -49)%Z, [20415]%N);
   ((-2408280402753929, -48)%Z, [20419]%N);
   ((-2992375285749381, -48)%Z, [20439; 22781; 23551; 27539; 27566; 30284]%N);
   ((-646562001880801, -46)%Z, [20440]%N);
   ((-4234808244817423, -49)%Z, [20445]%N);
   ((-114315703006755, -44)%Z, [20449]%N);
   ((-8786458751500653, -50)%Z, [20462]%N);
   ((-4230489466800959, -49)%Z, [20498]%N);
   ((-8441360484315941, -50)%Z, [20505]%N);
   ((-6727621011351801, -49)%Z, [20506; 23721; 24092; 24159; 28316; 31185; 33643; 34093; 35547; 35840]%N);
   ((-2599151203078135, -48)%Z, [20511]%N);
   ((-4898386215049155, -49)%Z, [20513]%N);
   ((-6057155718352881, -49)%Z, [20518; 21103; 22564; 28085; 30423; 30428; 37096]%N);
   ((-1701348184491179, -47)%Z, [20525; 20621; 22280; 25352; 25466; 25826; 26728; 27123; 28393; 28760; 30917; 31859;
     33636; 33911; 35359; 35772]%N);
   ((-2357927754473371, -48)%Z, [20538; 20661]%N);
   ((-1879360357607583, -48)%Z, [20540]%N);
   ((-4758162730509679, -49)%Z, [20551]%N);
   ((-390827184729219, -45)%Z, [20558; 22353; 25307; 26449; 28174; 28678; 34398; 37341; 38024; 38596; 38622; 39146;
     39274; 40481]%N);
   ((-892035901699129, -46)%Z, [20559; 25159; 26522; 26525; 28132; 29942; 30196; 33180; 33276; 35513; 35533; 35812;
     35837; 36485; 36685; 36761; 37218; 38927; 38991; 39043; 39068; 39201; 39301; 39654]%N);
   ((-8328032454677775, -50)%Z, [20570]%N);
   ((-8209827678335491, -50)%Z, [20572]%N);
   ((-5810796310132599, -49)%Z, [20581; 26827; 36319]%N);
   ((-2985188300162131, -48)%Z, [20598; 21264; 24215; 28435; 28797; 28798; 36229; 39746]%N);
   ((-2314138192195075, -48)%Z, [20607; 20767]%N);
   ((-1626498564278107, -48)%Z, [20633; 22791]%N);
   ((-2558951929139341, -48)%Z, [20648; 20786]%N);
   ((-6946870183659555, -49)%Z, [20658; 20839; 20869; 21315; 23230; 26874; 29022; 31319; 40845; 40857]%N);
   ((-3329650461277039, -48)%Z, [20667; 20725; 22615; 23663; 25571; 25630; 25856; 27891; 28034; 31377; 31407; 36068;
     36145; 39854; 40092]%N);
   ((-7815221924012243, -50)%Z, [20687]%N);
   ((-6004505228352009, -49)%Z, [20721; 23456; 23541; 25674; 25892; 26025; 26028; 31616; 31777; 38599]%N);
   ((-5105553455370187, -49)%Z, [20799; 20818]%N);
   ((-5855262832605245, -49)%Z, [20800; 24052; 24425; 25325; 26641; 27193; 28068; 28364; 31800; 32266; 32546]%N);
   ((-5965665694562027, -49)%Z, [20801; 33251]%N);
   ((-5438691981619087, -49)%Z, [20803; 30031]%N);
   ((-8143657843392633, -50)%Z, [20805]%N);
   ((-3015107586730001, -48)%Z, [20807; 20982; 22721; 23421; 24125; 24211; 24235; 28478; 31085; 38646]%N);
   ((-4641066240145233, -49)%Z, [20808; 26680]%N);
   ((-8734264661027229, -50)%Z, [20809]%N);
   ((-1236730270643849, -47)%Z, [20811]%N);
   ((-2679926525491697, -48)%Z, [20812; 20817]%N);
   ((-3903865600287441, -49)%Z, [20813]%N);
   ((-5459301436206445, -49)%Z, [20826; 28966; 36973; 40680]%N);
   ((-8660783948166095, -49)%Z, [20828; 20901; 20995; 21397; 22363; 22427; 22727; 24257; 25334; 25507; 26533; 27051;
     27370; 27645; 27721; 28450; 28514; 28821; 28872; 29048; 29060; 29392; 29790; 29835; 29926; 30183; 30250; 30303;
     30535; 30684; 30722; 30865; 30871; 31404; 33226; 33426; 33735; 33976; 34164; 34314; 34638; 34829; 35970; 36299;
     36423; 36955; 37604; 37664; 38148; 38189; 39003; 39024; 39072; 39078; 39522; 39540; 39635; 39791; 40065]%N);
   ((-2557605739823377, -49)%Z, [20837]%N);
   ((-2293543526110865, -48)%Z, [20840]%N);
   ((-3100501741571467, -48)%Z, [20844; 24739; 25282; 26543; 32673; 32680; 33333; 33988]%N);
   ((-2686397499598583, -48)%Z, [20849; 25773; 26725; 27211]%N);
   ((-6740848595274997, -50)%Z, [20851; 38364]%N);
   ((-1140722937207639, -47)%Z, [20852; 33288]%N);
   ((-3998587813515841, -49)%Z, [20853]%N);
   ((-1166188428263609, -47)%Z, [20855]%N);
   ((-7713081449021297, -50)%Z, [20859; 39178]%N);
   ((-799339050170293, -46)%Z, [20864; 24867; 25303; 31821; 36090; 36186]%N);
   ((-8983036789330593, -50)%Z, [20874; 20876]%N);
   ((-2534070459211975, -48)%Z, [20882; 22604; 24576; 25079]%N);
   ((-1485671238662071, -47)%Z, [20885; 21947; 34928]%N);
   ((-4093330799122583, -49)%Z, [20889; 23531]%N);
   ((-8452407138054677, -50)%Z, [20891; 31181; 31278; 36557]%N);
   ((-5718950101607673, -49)%Z, [20892; 24760; 25512; 35219; 35269; 35576; 35832; 36786]%N);
   ((-6425708300362917, -49)%Z, [20896; 21490; 25101; 27133; 30860; 31071; 31968; 33311; 38452; 38512; 39235;
     39309]%N);
   ((-2860992439797789, -48)%Z, [20900; 26479; 27516; 27570; 27965]%N);
   ((-5265809961803425, -49)%Z, [20908; 21619; 22438; 22718]%N);
   ((-1235392633393727, -47)%Z, [20914; 34909]%N);
   ((-7035899095194699, -50)%Z, [20915; 27770]%N);
   ((-2978180262399253, -48)%Z, [20919; 24643; 36198]%N);
   ((-2557395381522667, -48)%Z, [20923; 20941; 35538; 35845]%N);
   ((-3772663294190663, -49)%Z, [20934; 27700; 28310]%N);
   ((-709411087149403, -46)%Z, [20937; 28092]%N);
   ((-1538302336304459, -47)%Z, [20940; 31062; 33016; 36066; 36132]%N);
   ((-4237633322892361, -49)%Z, [20943; 28187]%N);
   ((-6230254215753761, -49)%Z, [20945; 23186; 25975; 28234; 32709]%N);
   ((-7310888916035069, -49)%Z, [20957; 21617; 21927; 23588; 24380; 26086; 27431; 27472; 28073; 28544; 28796; 28822;
     28825; 28953; 29129; 30086; 31869; 32318; 32326; 32489; 32554; 33538; 34941]%N);
   ((-3202427959097899, -48)%Z, [20961; 22418; 22744; 24339; 25394; 30457; 36461; 37624; 38191]%N);
   ((-5577809046692739, -49)%Z, [20973; 21351; 23703; 23831; 24977; 33253]%N);
   ((-7423856474698509, -49)%Z, [20975; 20977; 21439; 21489; 21513; 23319; 25114; 25296; 25449; 26214; 27739; 30095;
     31232; 31751; 32009; 32291; 32427; 32568; 32850; 36345; 36506; 36678; 36760; 37038; 37109]%N);
   ((-2305089167003483, -49)%Z, [20986]%N);
   ((-6873892404463483, -50)%Z, [20987; 25802]%N);
   ((-6374957744509097, -49)%Z, [20989; 21402; 22120; 22763; 23447; 27553; 27567; 27814; 28138; 30450; 31348; 32792;
     33210; 36887]%N);
   ((-5287889260446215, -49)%Z, [20991; 25438; 25736; 38015]%N);
   ((-5532567849662101, -49)%Z, [20992; 22756; 24459; 24535; 28322; 39740]%N);
   ((-453869116588227, -45)%Z, [20993; 21128; 21481; 21536; 21714; 21897; 22112; 22218; 22774; 22778; 22996; 23631;
     25032; 25783; 25847; 26454; 26742; 27713; 28655; 31389; 31401; 32736; 32843; 32894; 33275; 35363; 35776; 36842;
     39173; 39292; 40575]%N);
   ((-7964042016782251, -50)%Z, [20998]%N);
   ((-5315285316746317, -49)%Z, [20999; 21322]%N);
   ((-1639165752662305, -47)%Z, [21005; 23466; 25010; 27748; 28271; 33467; 37672; 38170; 38607; 38619]%N);
   ((-4835771748944599, -49)%Z, [21009; 24680]%N);
   ((-567229234007115, -46)%Z, [21010; 21123]%N);
   ((-4110795975786009, -49)%Z, [21015]%N);
   ((-2951772630459341, -48)%Z, [21017; 21063; 25169; 25479; 25778; 36427]%N);
   ((-8978940120504597, -50)%Z, [21019; 21109]%N);
   ((-6530474570014399, -49)%Z, [21021; 21761; 28173; 28183; 28402; 28460; 32982]%N);
   ((-3460340871512367, -48)%Z, [21024; 21034; 21799; 21890; 21981; 24457; 25361; 28078; 28784; 31291; 31454; 31478;
     33559; 36705; 36756; 37610; 38138; 39221]%N);
   ((-4283220102534615, -49)%Z, [21028]%N);
   ((-8332245726808417, -50)%Z, [21029; 21035]%N);
   ((-269379540305253, -45)%Z, [21033]%N);
   ((-1504947469095507, -47)%Z, [21038; 21736; 24034; 24069; 24101]%N);
   ((-4387775439506307, -50)%Z, [21040]%N);
   ((-5878220516609307, -50)%Z, [21046]%N);
   ((-4988344851778201, -49)%Z, [21047]%N);
   ((-4787472049578747, -49)%Z, [21050; 32005; 32418]%N);
   ((-5312337928058517, -49)%Z, [21051; 24615; 34903; 36924]%N);
   ((-763644659327251, -46)%Z, [21058; 21137; 21290; 21531; 22645; 23576; 24199; 30896; 33509; 33795]%N);
   ((-2318532894686963, -48)%Z, [21066; 31354]%N);
   ((-3813400053491649, -49)%Z, [21069]%N);
   ((-6079676719610267, -49)%Z, [21076; 21369; 22871; 24676; 30707; 38753]%N);
   ((-5683754269557147, -49)%Z, [21078; 23081; 29976]%N);
   ((-4651875211310677, -49)%Z, [21095; 21127]%N);
   ((-8680716770996883, -50)%Z, [21097]%N);
   ((-3023112153912047, -48)%Z, [21098; 22066; 25096; 25746; 28507; 28508; 36344; 36437; 36524]%N);
   ((-2204478442327745, -48)%Z, [21106]%N);
   ((-1304771712449209, -47)%Z, [21119]%N);
   ((-8088245991090799, -50)%Z, [21147]%N);
   ((-5517554961209371, -49)%Z, [21149; 21240; 21311; 21368; 29190]%N);
   ((-7563015270416893, -50)%Z, [21150; 36774]%N);
   ((-4896276468844387, -49)%Z, [21151]%N);
   ((-2920248913292599, -49)%Z, [21152]%N);
   ((-5773655953442371, -50)%Z, [21160; 21205]%N);
   ((-7268364949222597, -50)%Z, [21161]%N);
   ((-150010835189693, -44)%Z, [21163; 24616]%N);
   ((-4166314767259287, -49)%Z, [21169; 21237]%N);
   ((-316639941166519, -45)%Z, [21170; 21185]%N);
   ((-5303587234451793, -49)%Z, [21171; 21214]%N);
   ((-2665129136295085, -48)%Z, [21182; 25954]%N);
   ((-2345471076844629, -48)%Z, [21183; 21218]%N);
   ((-7490162429135091, -49)%Z, [21191; 21330; 21969; 22349; 22925; 24208; 24300; 24685; 25102; 25216; 26188; 26834;
     27084; 27985; 28222; 28874; 29301; 29309; 29863; 30168; 30643; 30784; 30990; 31077; 31459; 32104; 32466; 32660;
     34588; 34987; 35554; 35816; 36255; 36343; 36474; 36655; 36677; 36753; 36757; 38002; 38262; 40201; 40486]%N);
   ((-3246671767559121, -48)%Z, [21193; 21243; 21248; 25105; 36869; 39187; 39295]%N);
   ((-4021160105716151, -48)%Z, [21195; 21235; 21608; 23110; 23425; 23527; 23544; 26632; 26767; 26771; 26855; 27169;
     27744; 28470; 29369; 29494; 30562; 30606; 31066; 31909; 32110; 32592; 32764; 33098; 33240; 34809; 35097; 36460;
     36884; 36913; 37670; 37934; 38182; 38256; 38348; 38417; 38517; 40478; 40510; 40818; 40843]%N);
   ((-6040837185820285, -49)%Z, [21202]%N);
   ((-2839048216728275, -48)%Z, [21208]%N);
   ((-8474395543298837, -50)%Z, [21213; 32988]%N);
   ((-1295144884470843, -47)%Z, [21215; 39381; 39550]%N);
   ((-3036980721283741, -48)%Z, [21220; 21451; 29038; 35408; 35784]%N);
   ((-6436431480834429, -49)%Z, [21247; 24080; 24115; 26165; 26289; 30072]%N);
   ((-4959345309958945, -49)%Z, [21253]%N);
   ((-5686002651972993, -50)%Z, [21270]%N);
   ((-6310812829015829, -49)%Z, [21271; 26465; 26781; 27063; 27901; 28580; 29238; 30828]%N);
   ((-2634261489439033, -48)%Z, [21295; 27719]%N);
   ((-733368849340509, -46)%Z, [21306; 21312; 21756; 22040; 22099; 28102; 28293; 28666; 36891; 36951; 36986]%N);
   ((-5355075512096453, -49)%Z, [21307; 37291]%N);
   ((-6285412282076339, -49)%Z, [21313; 22159; 23558; 23559; 24709; 24742; 25001; 25633; 31383; 32961; 33029; 35529;
     35839; 36314]%N);
   ((-6154358175459733, -50)%Z, [21319]%N);
   ((-576070854839813, -46)%Z, [21326; 24944; 33775]%N);
   ((-5248487057990279, -49)%Z, [21327; 21332]%N);
   ((-5413507912264815, -49)%Z, [21333; 21934; 29087]%N);
   ((-7735669532192857, -50)%Z, [21334; 36067]%N);
   ((-2803404294255997, -48)%Z, [21340; 21480; 37628; 38050]%N);
   ((-5594543398488427, -49)%Z, [21350; 28212; 30640]%N);
   ((-2211960939728711, -48)%Z, [21355; 34907]%N);
   ((-4771500766951325, -49)%Z, [21360]%N);
   ((-2896628754941065, -48)%Z, [21361; 24494; 26244]%N);
   ((-709061861895779, -46)%Z, [21363; 22475; 25527; 25842]%N);
   ((-2469646458854891, -48)%Z, [21364; 21371]%N);
   ((-2487635703059567, -48)%Z, [21365]%N);
   ((-672837566566721, -46)%Z, [21367; 28577; 29579]%N);
   ((-1774988814031189, -47)%Z, [21370; 22362; 22533; 31515; 33606; 33610; 33912; 35199; 35461; 35803; 35997; 36070;
     36125; 36171]%N);
   ((-5325724422955647, -49)%Z, [21378; 24288; 24936]%N);
   ((-8637624681303137, -50)%Z, [21382; 27511]%N);
   ((-4066981446680629, -49)%Z, [21387; 22739]%N);
   ((-5292127297677143, -49)%Z, [21388; 21421]%N);
   ((-4901211565789853, -49)%Z, [21407]%N);
   ((-5629582703371693, -49)%Z, [21413; 21725; 22117]%N);
   ((-1434452499589165, -48)%Z, [21435]%N);
   ((-5100486364873879, -49)%Z, [21449; 38647]%N);
   ((-3530154071641719, -49)%Z, [21450]%N);
   ((-1646032357823955, -47)%Z, [21452; 22108; 22165; 22367; 22707; 26800; 27450; 28238; 30778; 31018; 31665; 32925;
     38617; 40736]%N);
   ((-1984244117257331, -48)%Z, [21453]%N);
   ((-5893336426092537, -50)%Z, [21457; 30332]%N);
   ((-6358126562519323, -50)%Z, [21462]%N);
   ((-6498440895180117, -50)%Z, [21463]%N);
   ((-3290603758952703, -49)%Z, [21464; 35722]%N);
   ((-3025831740060909, -48)%Z, [21465; 25944; 36930; 40786; 40831]%N);
   ((-162902928704435, -44)%Z, [21467; 40664]%N);
   ((-313956296203405, -45)%Z, [21472; 25240; 30090]%N);
   ((-8740313466284327, -50)%Z, [21475]%N);
   ((-348319860620761, -45)%Z, [21476]%N);
   ((-6784919574372679, -49)%Z, [21477; 21533; 23460; 26228; 30315; 30322; 31384; 35598; 35868; 35895; 37347; 38012;
     38035; 38179; 38968; 39048; 39764; 40613; 40614]%N);
   ((-1030642572988591, -47)%Z, [21483]%N);
   ((-4902629576497845, -49)%Z, [21484]%N);
   ((-3644798094208045, -49)%Z, [21487]%N);
   ((-8141064349802809, -50)%Z, [21488]%N);
   ((-1750803040498113, -47)%Z, [21491; 22521; 24091; 24452; 24465; 25549; 30765; 35516; 35850; 36015; 36142; 36530;
     38969; 39059]%N);
   ((-5220333694057193, -49)%Z, [21495; 33618; 34399]%N);
   ((-1442396614311851, -47)%Z, [21496; 21742; 29237; 38917; 39033]%N);
   ((-1131427788347719, -47)%Z, [21497; 22022]%N);
   ((-2526088148470389, -48)%Z, [21505; 31858]%N);
   ((-4836402505260919, -49)%Z, [21507]%N);
   ((-1446195973360651, -48)%Z, [21512]%N);
   ((-5399607207157215, -49)%Z, [21514; 22199]%N);
   ((-7948379459213915, -50)%Z, [21516]%N);
   ((-1698915016846039, -48)%Z, [21517]%N);
   ((-4592380653176497, -49)%Z, [21518; 24460]%N);
   ((-1217721561134481, -47)%Z, [21520; 24213]%N);
   ((-1747502605204719, -48)%Z, [21521]%N);
   ((-5474778698415473, -49)%Z, [21523; 22151]%N);
   ((-5566153351788171, -49)%Z, [21527; 21966]%N);
   ((-1422367386649983, -47)%Z, [21534; 22904; 23014; 33151]%N);
   ((-2459234043954611, -48)%Z, [21535]%N);
   ((-222235996902745, -45)%Z, [21542]%N);
   ((-129905861638089, -44)%Z, [21547]%N);
   ((-4136413284331143, -49)%Z, [21548; 32893]%N);
   ((-3159770455052043, -48)%Z, [21550; 25644; 28207]%N);
   ((-4906190309137073, -49)%Z, [21551; 21855]%N);
   ((-2901857542637575, -48)%Z, [21557; 27922; 28753; 30201; 30202; 30473; 36328]%N);
   ((-2228192374925391, -48)%Z, [21560]%N);
   ((-5386041491618215, -49)%Z, [21561; 23041]%N);
   ((-180612799057985, -44)%Z, [21563; 24751; 25003]%N);
   ((-5843812608311353, -49)%Z, [21566; 26224]%N);
   ((-5616816851281589, -49)%Z, [21574; 25026]%N);
   ((-3057621639667659, -48)%Z, [21576; 34924; 35183]%N);
   ((-4112886785815837, -49)%Z, [21578]%N);
   ((-1176064569838361, -47)%Z, [21592; 21729; 36879]%N);
   ((-4287250504761021, -49)%Z, [21628]%N);
   ((-7799572469896407, -50)%Z, [21629]%N);
   ((-4173072951105319, -49)%Z, [21644]%N);
   ((-6068303606466885, -49)%Z, [21646; 25605; 25898; 27573; 31661; 32905]%N);
   ((-4200131584734145, -49)%Z, [21648]%N);
   ((-2726802717650509, -48)%Z, [21650; 25788; 28809; 29200]%N);
   ((-5825231715251987, -49)%Z, [21653; 30207]%N);
   ((-6173197833830799, -49)%Z, [21659; 22144; 28845; 36007; 36139; 36703; 36720]%N);
   ((-3048589582076591, -48)%Z, [21676; 22149; 25304; 25874; 25890; 30522; 31449; 33806]%N);
   ((-6293752433929017, -49)%Z, [21683; 22681; 24065; 24163; 29254; 34900; 36101; 36184; 37532]%N);
   ((-1229799679353179, -47)%Z, [21693; 33457]%N);
   ((-5899359740125445, -49)%Z, [21697; 23389; 25165; 26149; 29482; 35948; 36330; 40778; 40784]%N);
   ((-3017750563676291, -48)%Z, [21700; 30732; 32020; 32431; 32932; 33178; 36259; 39493; 39537]%N);
   ((-308895736952151, -45)%Z, [21709; 38911]%N);
   ((-6974336604306155, -49)%Z, [21713; 21854; 21891; 25880; 34562; 35440; 35800; 36464; 36501; 37057; 39729;
     40766]%N);
   ((-6613004988982117, -49)%Z, [21734; 22158; 23064; 24629; 25822; 25851; 26131; 26464; 27091; 29245; 30044; 33179;
     33218]%N);
   ((-2327991343822319, -48)%Z, [21741]%N);
   ((-6009554140701055, -49)%Z, [21766; 24330; 26223; 29468; 32920; 32966; 33213; 35563; 35855]%N);
   ((-4768695828645041, -49)%Z, [21796; 21914]%N);
   ((-5645293954342247, -49)%Z, [21804]%N);
   ((-7751136683247937, -50)%Z, [21806]%N);
   ((-4740856469956699, -49)%Z, [21809]%N);
   ((-8172254707432405, -50)%Z, [21830]%N);
   ((-3836850969165431, -49)%Z, [21839; 38382]%N);
   ((-3516824650844087, -48)%Z, [21845; 21987; 22949; 22974; 25402; 26274; 29420; 29544; 30021; 31455; 32406; 32420;
     32560; 35282; 37860; 38210; 38849]%N);
   ((-2799708727253191, -48)%Z, [21880; 22063; 26397; 33402; 34269]%N);
   ((-7215337352774117, -50)%Z, [21892]%N);
   ((-4649153449586149, -49)%Z, [21916]%N);
   ((-628022629558517, -46)%Z, [21917; 31040]%N);
   ((-6895657625355987, -49)%Z, [21972; 23241; 23700; 27627; 30208; 32902]%N);
   ((-5403050336871795, -49)%Z, [21990; 23884]%N);
   ((-4771332746147, -39)%Z, [22013]%N);
   ((-5345640375818809, -49)%Z, [22039; 23581; 32769]%N);
   ((-2733493439583929, -48)%Z, [22065; 22225; 23472; 35489; 35819]%N);
   ((-4822686545531585, -49)%Z, [22068]%N);
   ((-5807244563629123, -49)%Z, [22122; 24913; 25086; 36077; 36172; 37806; 38215; 39592]%N);
   ((-175604592740335, -44)%Z, [22124; 28378; 28414; 32597]%N);
   ((-1521362653975413, -47)%Z, [22179; 22210; 23194; 38544; 38577]%N);
   ((-692390820510427, -46)%Z, [22204; 35575; 35773]%N);
   ((-3073350590392819, -48)%Z, [22228; 23574; 32899; 32901; 34218]%N);
   ((-6543416518228171, -49)%Z, [22234; 24038; 25423; 26071; 26097; 27978; 28609; 29071; 30508; 30675; 31168; 31726;
     31811; 32361; 32499; 32954; 34180]%N);
   ((-3565000018691241, -49)%Z, [22238]%N);
   ((-5604334079237989, -49)%Z, [22242; 22296; 23506; 23578; 25513; 29275]%N);
   ((-5263109956851091, -49)%Z, [22256; 29366; 29376]%N);
   ((-4415193798369165, -49)%Z, [22260; 22285]%N);
   ((-549369416882329, -46)%Z, [22266]%N);
   ((-7889891810749413, -50)%Z, [22269; 22283]%N);
   ((-4091983625393413, -49)%Z, [22270; 22294]%N);
   ((-5814370607558561, -49)%Z, [22278; 22291; 25250; 25654; 25688; 31563; 34935]%N);
   ((-143627338534309, -44)%Z, [22303]%N);
   ((-5947206665331131, -49)%Z, [22307; 27048; 32854; 32963; 35340; 35565; 35585; 35751; 35858; 35861]%N);
   ((-728175973846299, -47)%Z, [22312]%N);
   ((-8162971616742337, -50)%Z, [22320]%N);
   ((-8703430980717337, -50)%Z, [22330; 22580]%N);
   ((-5763002172207501, -49)%Z, [22336; 25004; 30127; 30219; 32068; 32452; 32781; 35422; 35789]%N);
   ((-7983579689360167, -50)%Z, [22351; 22750]%N);
   ((-2315230451915365, -48)%Z, [22352]%N);
   ((-3093464500615461, -48)%Z, [22368; 22684; 23047; 23308; 26639; 27396; 37561; 38152; 38663]%N);
   ((-2664371464298669, -48)%Z, [22402]%N);
   ((-4850461009936033, -49)%Z, [22411]%N);
   ((-703055196521891, -46)%Z, [22446]%N);
   ((-562343354167161, -46)%Z, [22478]%N);
   ((-2597356457507355, -48)%Z, [22519; 25191]%N);
   ((-5401326139648235, -49)%Z, [22522; 26448]%N);
   ((-1423087273070509, -47)%Z, [22530; 25235; 32113; 32479]%N);
   ((-5686604655157743, -49)%Z, [22534; 23614; 34384]%N);
   ((-4951548094542151, -49)%Z, [22570; 28014; 36867]%N);
   ((-3814220979562639, -49)%Z, [22577; 25253]%N);
   ((-2742336312687057, -48)%Z, [22581]%N);
   ((-2344497955817599, -48)%Z, [22622]%N);
   ((-5418810462803969, -49)%Z, [22635]%N);
   ((-5309405890423051, -49)%Z, [22659; 40723]%N);
   ((-2615840666887839, -48)%Z, [22675]%N);
   ((-1924040054621591, -48)%Z, [22686]%N);
   ((-5800207597583241, -49)%Z, [22696; 28108; 30162; 30306]%N);
   ((-5874879798384449, -49)%Z, [22766; 22767; 23618; 23652; 25375; 25406; 25810; 27687; 35488; 35802]%N);
   ((-8734813211540805, -50)%Z, [22768; 32882]%N);
   ((-8317757143378223, -50)%Z, [22788; 34389]%N);
   ((-3402999943216255, -49)%Z, [22797]%N);
   ((-546753702848705, -46)%Z, [22806]%N);
   ((-4439607377979539, -49)%Z, [22810]%N);
   ((-5364671482283807, -49)%Z, [22812; 32399; 32544; 36923; 37007; 37237]%N);
   ((-6913349180902669, -50)%Z, [22815; 22816]%N);
   ((-666853616664331, -46)%Z, [22818; 24807; 25084; 26790; 29609]%N);
   ((-399119667550039, -46)%Z, [22823]%N);
   ((-2345958901883043, -48)%Z, [22825]%N);
   ((-7817648956439115, -50)%Z, [22833]%N);
   ((-3287815371873895, -49)%Z, [22836; 38957]%N);
   ((-2966874526740055, -48)%Z, [22839; 23608; 23629; 28954; 35616; 35875; 38669]%N);
   ((-4222798190304843, -49)%Z, [22842; 22890]%N);
   ((-2298862252235789, -48)%Z, [22857]%N);
   ((-4385810769258511, -49)%Z, [22859; 22894]%N);
   ((-4565616019390059, -49)%Z, [22863]%N);
   ((-2344740920853583, -48)%Z, [22868]%N);
   ((-1215392518813505, -47)%Z, [22870; 27966; 29518]%N);
   ((-5929333737093751, -49)%Z, [22880; 35250; 35280]%N);
   ((-5989624627516717, -49)%Z, [22902; 24033; 26723; 27284]%N);
   ((-7201477337165977, -50)%Z, [22909]%N);
   ((-6781342015841293, -50)%Z, [22914]%N);
   ((-5256416061650655, -49)%Z, [22918; 22941]%N);
   ((-2775115236725103, -48)%Z, [22930; 25106]%N);
   ((-4722002430293357, -49)%Z, [22952]%N);
   ((-1561367501403895, -47)%Z, [22971; 27941; 30270; 30318]%N);
   ((-5812275813588313, -50)%Z, [22987]%N);
   ((-5740545350389667, -49)%Z, [22995]%N);
   ((-6014648745185463, -49)%Z, [23035; 31373; 31429; 32341; 32558; 35255; 35281; 36111; 36194; 36495; 36522; 38971;
     39057]%N);
   ((-5331777706585243, -49)%Z, [23072; 32959; 33131]%N);
   ((-6166455837638885, -49)%Z, [23094; 28061; 28551; 29006; 35238; 35278; 37707; 38149]%N);
   ((-1025884673389891, -47)%Z, [23130]%N);
   ((-1270165533754397, -47)%Z, [23233; 39243; 39304]%N);
   ((-154234914060791, -44)%Z, [23244]%N);
   ((-2388292573150063, -48)%Z, [23376]%N);
   ((-5457396358403843, -49)%Z, [23380; 28139; 28388; 28670]%N);
   ((-1206443648677245, -47)%Z, [23381]%N);
   ((-2440179591811367, -48)%Z, [23383]%N);
   ((-7361459828967627, -50)%Z, [23384]%N);
   ((-8214311280152497, -50)%Z, [23398; 23416]%N);
   ((-1995051550992355, -48)%Z, [23432]%N);
   ((-4817170388624727, -49)%Z, [23433]%N);
   ((-8695985229114917, -50)%Z, [23436]%N);
   ((-3164203223462881, -48)%Z, [23445; 24853; 28046; 29408; 31109; 31146; 32922; 38654; 38695]%N);
   ((-2415688066499649, -48)%Z, [23448]%N);
   ((-339491515569879, -46)%Z, [23450]%N);
   ((-4413702539342363, -49)%Z, [23452]%N);
   ((-1614627694869305, -47)%Z, [23453; 23542; 25540; 26292; 28346; 30876; 30947; 33261; 34593; 34847]%N);
   ((-1937269329739601, -48)%Z, [23454; 23526]%N);
   ((-4878996108009037, -49)%Z, [23457; 23529]%N);
   ((-4998353114547795, -49)%Z, [23458]%N);
   ((-2537906634115945, -48)%Z, [23467; 23470]%N);
   ((-1878709763018125, -48)%Z, [23475]%N);
   ((-5504997936055669, -49)%Z, [23476]%N);
   ((-3982297778285305, -49)%Z, [23478]%N);
   ((-8299718307739011, -50)%Z, [23481]%N);
   ((-303519685105105, -45)%Z, [23485; 23532]%N);
   ((-5150019977842833, -49)%Z, [23487]%N);
   ((-5427760571090301, -49)%Z, [23490]%N);
   ((-5156669070337297, -49)%Z, [23494]%N);
   ((-2613936657530455, -48)%Z, [23500]%N);
   ((-6365334434045715, -49)%Z, [23517; 23522; 30427; 38665; 40692]%N);
   ((-3616561319160225, -49)%Z, [23519]%N);
   ((-3234941946310301, -48)%Z, [23521; 28891; 29165; 31361; 35604; 35857; 36022; 36140; 36845]%N);
   ((-7085765337497471, -50)%Z, [23545; 23565]%N);
   ((-5171350643433757, -49)%Z, [23547; 23563]%N);
   ((-8075343313435347, -50)%Z, [23548; 23566]%N);
   ((-264621364660021, -45)%Z, [23553]%N);
   ((-1766039662858499, -48)%Z, [23556]%N);
   ((-5568465264497129, -49)%Z, [23562; 30186; 30227; 37326; 38712]%N);
   ((-4242007470411367, -49)%Z, [23567; 28040]%N);
   ((-3571834999241375, -49)%Z, [23569]%N);
   ((-1199495967162995, -47)%Z, [23601]%N);
   ((-4593609354908551, -49)%Z, [23613; 30433]%N);
   ((-5229139794680385, -49)%Z, [23615; 26497; 26997]%N);
   ((-2867145143277085, -48)%Z, [23616]%N);
   ((-5832590642961447, -49)%Z, [23617]%N);
   ((-1941879053675151, -48)%Z, [23621]%N);
   ((-6384748425258659, -49)%Z, [23622; 23626; 38469; 38555; 40718; 40801; 40836]%N);
   ((-5005977835441335, -49)%Z, [23624]%N);
   ((-5554734097097005, -49)%Z, [23627; 24432; 26085; 26524; 39154; 39278]%N);
   ((-5743699139889845, -49)%Z, [23633; 24646; 24658; 35465; 35709]%N);
   ((-1859166243658309, -48)%Z, [23637]%N);
   ((-8431677980127025, -50)%Z, [23646; 23660]%N);
   ((-2214704085197671, -48)%Z, [23665]%N);
   ((-3240745759695481, -48)%Z, [23681; 24814; 24986; 27506; 27915; 30251; 30321; 35057; 38808]%N);
   ((-5333301252720633, -49)%Z, [23736; 25298; 25597; 25900; 31295]%N);
   ((-5369531512066797, -49)%Z, [23769]%N);
   ((-1328452423370229, -47)%Z, [23815]%N);
   ((-1473801277266501, -47)%Z, [23849; 24825; 27425; 32842; 35607; 35876]%N);
   ((-7972931477473511, -50)%Z, [24037]%N);
   ((-4808095233145935, -49)%Z, [24046]%N);
   ((-2529347613903829, -48)%Z, [24050]%N);
   ((-6125991510310303, -50)%Z, [24066]%N);
   ((-5528111953293865, -50)%Z, [24067]%N);
   ((-402960180710201, -45)%Z, [24070; 24466; 24596; 26234; 30408; 30923]%N);
   ((-2447787486742277, -48)%Z, [24072; 24107]%N);
   ((-4970446091261205, -49)%Z, [24093; 35426; 35810]%N);
   ((-8840587665657345, -50)%Z, [24102; 24118]%N);
   ((-2260323008405937, -48)%Z, [24109; 35430; 35797]%N);
   ((-1498635313062081, -47)%Z, [24110; 24171; 28900; 32315; 39149; 39276]%N);
   ((-5449839869733091, -49)%Z, [24120]%N);
   ((-4904763312293329, -49)%Z, [24149; 31680; 33410]%N);
   ((-5044817369231317, -49)%Z, [24178; 24185]%N);
   ((-4571892878323875, -49)%Z, [24179]%N);
   ((-84078710298183, -43)%Z, [24184]%N);
   ((-3111398907985891, -48)%Z, [24187; 25443; 25623; 26700; 31867; 35676; 35889; 39006]%N);
   ((-4500134264608695, -49)%Z, [24191; 24291]%N);
   ((-5750060223993729, -49)%Z, [24198; 24950]%N);
   ((-8996108795765851, -50)%Z, [24202]%N);
   ((-5584920088025045, -49)%Z, [24207; 27424; 27531; 27544; 28846]%N);
   ((-6662852128231601, -50)%Z, [24212; 25033]%N);
   ((-5353491966879511, -49)%Z, [24223; 24290; 31934]%N);
   ((-4987518806210439, -49)%Z, [24230]%N);
   ((-1308878821745857, -47)%Z, [24231]%N);
   ((-2794855590188589, -48)%Z, [24237; 25366; 36060; 36176]%N);
   ((-2318090323877687, -48)%Z, [24310]%N);
   ((-3494015894063629, -49)%Z, [24314]%N);
   ((-92473902810713, -44)%Z, [24320; 38283]%N);
   ((-160496171754051, -44)%Z, [24322; 30064]%N);
   ((-1033241428855197, -47)%Z, [24323; 26820]%N);
   ((-2406458551884201, -48)%Z, [24324]%N);
   ((-642523913748103, -46)%Z, [24328]%N);
   ((-8081469008126235, -50)%Z, [24341]%N);
   ((-2044900660384305, -48)%Z, [24352; 24373]%N);
   ((-2999750597908753, -48)%Z, [24358; 25558; 30416; 35065; 40573]%N);
   ((-2702389915588279, -48)%Z, [24367; 24398; 25318; 25876]%N);
   ((-8847237295174437, -50)%Z, [24369]%N);
   ((-6686089161229081, -50)%Z, [24375; 24378]%N);
   ((-1917145565848137, -48)%Z, [24377; 24392]%N);
   ((-4299517791116253, -49)%Z, [24402; 27512]%N);
   ((-7793373090070805, -50)%Z, [24403; 30070]%N);
   ((-4070208454390229, -49)%Z, [24405; 37636]%N);
   ((-2279126012574375, -48)%Z, [24418]%N);
   ((-4964076009675347, -49)%Z, [24433]%N);
   ((-1143467209166253, -47)%Z, [24441]%N);
   ((-1193156666808367, -47)%Z, [24443; 24505]%N);
   ((-972928782405685, -47)%Z, [24448]%N);
   ((-4182080342521023, -49)%Z, [24449; 24501]%N);
   ((-888377378219383, -47)%Z, [24453]%N);
   ((-5082613436636499, -49)%Z, [24458]%N);
   ((-632460609527981, -47)%Z, [24471]%N);
   ((-5979918353387513, -49)%Z, [24473; 27832; 31456]%N);
   ((-8616681740849985, -50)%Z, [24481; 31142]%N);
   ((-6237810704424513, -49)%Z, [24488; 25386; 25619; 38534; 38738]%N);
   ((-4917009667525079, -49)%Z, [24490]%N);
   ((-361436916301279, -45)%Z, [24503; 36628; 36741]%N);
   ((-3278698574189569, -49)%Z, [24515]%N);
   ((-2422013613077229, -48)%Z, [24518; 25014]%N);
   ((-5440534699969571, -49)%Z, [24524; 25935]%N);
   ((-4849168357351023, -49)%Z, [24525]%N);
   ((-5786392181462005, -49)%Z, [24534; 25970; 38920; 39035]%N);
   ((-4969645877973059, -49)%Z, [24537]%N);
   ((-5463131042494925, -49)%Z, [24544; 28096; 37196]%N);
   ((-8789334614895261, -50)%Z, [24551; 24962; 36394]%N);
   ((-8028087457033673, -50)%Z, [24555]%N);
   ((-2176659288132121, -48)%Z, [24565]%N);
   ((-347454627542591, -45)%Z, [24573; 34578]%N);
   ((-150328156432469, -44)%Z, [24577; 24863; 24907; 36963]%N);
   ((-4518848027568927, -49)%Z, [24594]%N);
   ((-8052963690475263, -50)%Z, [24597]%N);
   ((-2362550622600529, -48)%Z, [24604; 24976]%N);
   ((-8852707264995047, -50)%Z, [24605]%N);
   ((-5570786710893707, -49)%Z, [24613]%N);
   ((-4275710863010177, -49)%Z, [24618]%N);
   ((-5695243442891317, -49)%Z, [24635; 32317]%N);
   ((-4924339848609281, -49)%Z, [24651; 25088]%N);
   ((-5283682890040805, -49)%Z, [24656; 24758; 38391]%N);
   ((-5709942710191969, -49)%Z, [24661; 31388; 31428; 40668]%N);
   ((-4863553459408133, -49)%Z, [24681]%N);
   ((-3529224855551645, -49)%Z, [24687]%N);
   ((-2536942677774121, -48)%Z, [24694; 24801]%N);
   ((-5796721828220587, -49)%Z, [24700; 24817; 38296; 38392]%N);
   ((-3958183145522281, -49)%Z, [24713]%N);
   ((-4744597014970679, -49)%Z, [24724; 33310]%N);
   ((-3138596944311097, -48)%Z, [24726; 32819; 34383; 34396; 35349; 35754; 36538]%N);
   ((-3012489195972023, -48)%Z, [24748; 25080; 31169; 38518]%N);
   ((-4301466559668719, -49)%Z, [24773]%N);
   ((-1211166826440283, -47)%Z, [24778; 38459; 39514]%N);
   ((-2391431201457221, -48)%Z, [24785; 25300]%N);
   ((-2510772131857937, -48)%Z, [24789; 30631]%N);
   ((-4316551998743231, -49)%Z, [24796]%N);
   ((-5563850894781331, -49)%Z, [24800; 35347; 35757]%N);
   ((-5725036106324983, -49)%Z, [24809; 25074]%N);
   ((-6180021553177885, -49)%Z, [24815; 24931; 25995; 37678; 38178; 40779]%N);
   ((-7255166893359113, -50)%Z, [24819]%N);
   ((-5523940095295247, -49)%Z, [24833; 29282; 36487]%N);
   ((-320858307642807, -45)%Z, [24840; 26412]%N);
   ((-6285923808692831, -50)%Z, [24847]%N);
   ((-263346140248209, -45)%Z, [24859; 29233]%N);
   ((-5482679880095345, -49)%Z, [24871; 35594; 35854]%N);
   ((-2236507618362191, -48)%Z, [24895; 39000]%N);
   ((-2535024612589079, -48)%Z, [24917; 25830]%N);
   ((-5059632696722757, -49)%Z, [24930]%N);
   ((-7251928162314307, -50)%Z, [24942; 34385]%N);
   ((-2334603463005437, -49)%Z, [25104]%N);
   ((-6747403253963849, -50)%Z, [25112; 25136]%N);
   ((-1296900468420601, -47)%Z, [25130]%N);
   ((-5000883230956927, -49)%Z, [25140; 29287]%N);
   ((-2419466310835025, -48)%Z, [25142; 25143; 30011; 30059]%N);
   ((-4733449126856675, -49)%Z, [25151]%N);
   ((-1917518274658287, -48)%Z, [25152]%N);
   ((-3499332017807593, -49)%Z, [25163]%N);
   ((-8702897505271753, -50)%Z, [25166; 25200; 25854]%N);
   ((-8550023960593353, -50)%Z, [25171]%N);
   ((-8536140925176165, -50)%Z, [25176]%N);
   ((-5478715427419389, -49)%Z, [25187; 27946]%N);
   ((-1293410930442749, -47)%Z, [25195; 25475]%N);
   ((-8119257574802685, -50)%Z, [25196; 25562]%N);
   ((-2446737858515235, -48)%Z, [25198]%N);
   ((-2619687765180679, -48)%Z, [25199]%N);
   ((-2668180385433891, -48)%Z, [25206; 27442]%N);
   ((-8868660337111469, -50)%Z, [25209; 29031]%N);
   ((-519012562132029, -46)%Z, [25214]%N);
   ((-8497266171542177, -50)%Z, [25215; 26579; 28909; 29105]%N);
   ((-5698152751451295, -49)%Z, [25220; 30192]%N);
   ((-5863027782657169, -49)%Z, [25226; 26263; 30151]%N);
   ((-161426827567593, -44)%Z, [25233]%N);
   ((-4691429767364977, -49)%Z, [25237]%N);
   ((-1207064322178725, -47)%Z, [25238]%N);
   ((-2144697993374231, -48)%Z, [25239]%N);
   ((-2488849831369275, -48)%Z, [25242; 25771]%N);
   ((-6676348715912543, -50)%Z, [25252; 35703]%N);
   ((-1454491936025159, -47)%Z, [25259]%N);
   ((-641316412818235, -46)%Z, [25265]%N);
   ((-5348767883604057, -49)%Z, [25269; 31095; 31153]%N);
   ((-5634771218933711, -49)%Z, [25273]%N);
   ((-4737669952278403, -49)%Z, [25276]%N);
   ((-2134380387654533, -48)%Z, [25285; 25812]%N);
   ((-2894907190083775, -48)%Z, [25286; 26355; 36664; 36755; 38472; 38515]%N);
   ((-654760729897793, -46)%Z, [25289; 28459]%N);
   ((-2852008433245625, -48)%Z, [25292; 33104]%N);
   ((-5079689014717501, -49)%Z, [25293; 25343]%N);
   ((-2480852845290067, -48)%Z, [25299]%N);
   ((-569877832719455, -46)%Z, [25308]%N);
   ((-4660120353948901, -49)%Z, [25311; 25836; 29298]%N);
   ((-2518325978404507, -48)%Z, [25314; 25871]%N);
   ((-653168608947195, -46)%Z, [25317; 25793; 31958; 33136]%N);
   ((-2543268224351701, -48)%Z, [25320; 25765; 27468]%N);
   ((-7203165343339497, -50)%Z, [25321; 25799]%N);
   ((-6188477259247395, -50)%Z, [25324]%N);
   ((-5772907705544103, -49)%Z, [25340; 25776]%N);
   ((-8970791231565509, -50)%Z, [25342]%N);
   ((-2763086975260379, -49)%Z, [25345]%N);
   ((-575233744665425, -46)%Z, [25346; 25499]%N);
   ((-2484024427878773, -48)%Z, [25351]%N);
   ((-6415185564954381, -49)%Z, [25374; 25787; 27900; 28497]%N);
   ((-5528237444051845, -49)%Z, [25376; 25514; 25747; 32862; 38395; 39230; 39311]%N);
   ((-4853055253943757, -49)%Z, [25377; 25803; 25991]%N);
   ((-2575561360256805, -48)%Z, [25380; 25824; 27784; 27785]%N);
   ((-7274647388279559, -50)%Z, [25381; 25582]%N);
   ((-4800938993303577, -49)%Z, [25387]%N);
   ((-5257748488197939, -49)%Z, [25391; 27463; 28982]%N);
   ((-5005125526492123, -49)%Z, [25417]%N);
   ((-4463173203641519, -49)%Z, [25429]%N);
   ((-4599379024261859, -49)%Z, [25439; 25613]%N);
   ((-3537517894021949, -49)%Z, [25442; 25563]%N);
   ((-2519228142563717, -48)%Z, [25447]%N);
   ((-4356000572539679, -49)%Z, [25454; 25818]%N);
   ((-5886986715611859, -49)%Z, [25463]%N);
   ((-5022421816432037, -49)%Z, [25480]%N);
   ((-8181279335677087, -50)%Z, [25481]%N);
   ((-5054960886064771, -49)%Z, [25484; 28304; 30431; 32768]%N);
   ((-984498557078797, -47)%Z, [25490]%N);
   ((-4324122035986285, -49)%Z, [25496]%N);
   ((-5351912863590469, -49)%Z, [25504; 26538; 27085; 34394; 34395]%N);
   ((-1153729588370447, -47)%Z, [25505; 37319]%N);
   ((-4723549705532423, -49)%Z, [25506]%N);
   ((-3829311585196717, -49)%Z, [25509]%N);
   ((-4609831421698989, -49)%Z, [25511; 35611; 35762]%N);
   ((-2705000212286453, -48)%Z, [25551; 32784]%N);
   ((-5297828105416509, -49)%Z, [25552]%N);
   ((-1377810359403389, -47)%Z, [25554; 29028; 38307; 38401; 38745; 38748]%N);
   ((-7832322056033221, -50)%Z, [25569]%N);
   ((-5859131919680161, -49)%Z, [25581]%N);
   ((-8823242782236931, -50)%Z, [25588]%N);
   ((-5327231652646963, -49)%Z, [25601; 25841]%N);
   ((-5609294022807171, -49)%Z, [25616]%N);
   ((-5043904230420527, -49)%Z, [25622; 25671]%N);
   ((-3258911738429619, -48)%Z, [25658; 25884]%N);
   ((-624479289825985, -46)%Z, [25668; 25885]%N);
   ((-2637681640591381, -48)%Z, [25670; 25850]%N);
   ((-2477716601404237, -48)%Z, [25705]%N);
   ((-1205825700424943, -47)%Z, [25720]%N);
   ((-6062702068176567, -49)%Z, [25721; 27973; 28154; 30827; 33292]%N);
   ((-7996890697280233, -50)%Z, [25744; 25745]%N);
   ((-5186425384323337, -49)%Z, [25758]%N);
   ((-1425269293342573, -47)%Z, [25764; 36093; 36187; 38275; 38378]%N);
   ((-5182910596921841, -49)%Z, [25903]%N);
   ((-7052153889068269, -50)%Z, [25910]%N);
   ((-4300978734721883, -49)%Z, [25913]%N);
   ((-4097391772212949, -49)%Z, [25915]%N);
   ((-6740475193428661, -50)%Z, [25918]%N);
   ((-8653846842627489, -50)%Z, [25919]%N);
   ((-2652518134940491, -48)%Z, [25925]%N);
   ((-8794529753136825, -50)%Z, [25928]%N);
   ((-4841474160765343, -49)%Z, [25932; 25973]%N);
   ((-4141900169418705, -49)%Z, [25937]%N);
   ((-7616389209624527, -50)%Z, [25943; 36133]%N);
   ((-4285350249949369, -49)%Z, [25945]%N);
   ((-648893270789239, -46)%Z, [25947; 25986]%N);
   ((-122713948131287, -44)%Z, [25955]%N);
   ((-2415063260523429, -48)%Z, [25964]%N);
   ((-1281836947049759, -47)%Z, [25968; 25976; 37476; 38057]%N);
   ((-4538577040420191, -49)%Z, [25972; 28070; 28516]%N);
   ((-5446099324719111, -49)%Z, [25987; 27609]%N);
   ((-296671605095219, -45)%Z, [26007; 39717]%N);
   ((-4571498517569799, -49)%Z, [26009]%N);
   ((-4657817896942061, -49)%Z, [26012]%N);
   ((-2334712761856211, -48)%Z, [26021; 35264; 35266]%N);
   ((-1731373496125401, -48)%Z, [26029; 26039]%N);
   ((-909405943519853, -47)%Z, [26032]%N);
   ((-1358756135560413, -47)%Z, [26041; 28526; 30382; 32218; 32447; 36034; 36162]%N);
   ((-7245332361922821, -50)%Z, [26045]%N);
   ((-2383788877442211, -48)%Z, [26059]%N);
   ((-6269093749543743, -49)%Z, [26063; 27523; 27682; 27691; 39108; 39128]%N);
   ((-8411323581312649, -50)%Z, [26080; 28961]%N);
   ((-2630882397516017, -48)%Z, [26087; 33290]%N);
   ((-1420229560910659, -47)%Z, [26089; 37228]%N);
   ((-4698301081398719, -49)%Z, [26102; 26178]%N);
   ((-6245458429788963, -50)%Z, [26126]%N);
   ((-1467725334231347, -47)%Z, [26127; 28748; 36861]%N);
   ((-3741764489742237, -49)%Z, [26144]%N);
   ((-6300415323889967, -50)%Z, [26159]%N);
   ((-5111694788495595, -49)%Z, [26174; 39023]%N);
   ((-649190185762143, -46)%Z, [26179]%N);
   ((-5637383520388901, -49)%Z, [26194; 26348]%N);
   ((-38863002416199, -42)%Z, [26195; 26313]%N);
   ((-2577221984405155, -48)%Z, [26197; 26248]%N);
   ((-5488679403523073, -49)%Z, [26212]%N);
   ((-5451719504044991, -49)%Z, [26257]%N);
   ((-2234693240709331, -48)%Z, [26262]%N);
   ((-286541283752809, -45)%Z, [26354]%N);
   ((-2277207293646989, -48)%Z, [26356]%N);
   ((-4172490488608017, -49)%Z, [26367]%N);
   ((-679149967923503, -46)%Z, [26376; 31946]%N);
   ((-8174978120396131, -51)%Z, [26377]%N);
   ((-7995182631354397, -50)%Z, [26381]%N);
   ((-3157068342092649, -49)%Z, [26395]%N);
   ((-2070582743741443, -48)%Z, [26399]%N);
   ((-4517055762593045, -49)%Z, [26415; 34899]%N);
   ((-2376348577024565, -48)%Z, [26426; 27231; 27665]%N);
   ((-4134414750849977, -49)%Z, [26432; 27578]%N);
   ((-5032166276076157, -49)%Z, [26434; 38620]%N);
   ((-8219159826155383, -50)%Z, [26435; 27402]%N);
   ((-7577447581855881, -50)%Z, [26463]%N);
   ((-2497498609075575, -48)%Z, [26494]%N);
   ((-174753815769797, -44)%Z, [26500; 27083; 36556; 36712]%N);
   ((-1389249873080199, -47)%Z, [26505; 28010]%N);
   ((-2512531356189035, -48)%Z, [26512]%N);
   ((-5260422839799615, -49)%Z, [26519; 27982; 28639; 28865; 29197]%N);
   ((-4837666142050575, -49)%Z, [26550]%N);
   ((-8420831880105415, -50)%Z, [26597]%N);
   ((-765952037981113, -46)%Z, [26612; 27611; 28465; 28814; 33032; 33033; 37240; 38795]%N);
   ((-8644186770620309, -50)%Z, [26631; 27161]%N);
   ((-2960302828002747, -48)%Z, [26647; 32221; 32521; 39250; 39286]%N);
   ((-5442383469951113, -49)%Z, [26657]%N);
   ((-5455497705833689, -49)%Z, [26679; 27171]%N);
   ((-2754576283557555, -48)%Z, [26681; 33756]%N);
   ((-4624798690220299, -49)%Z, [26684]%N);
   ((-4485057406127991, -49)%Z, [26696]%N);
   ((-3168706919170733, -48)%Z, [26753; 27801; 39479; 39578]%N);
   ((-5951764989454427, -49)%Z, [26797; 36324]%N);
   ((-598942085979889, -46)%Z, [26816; 27298]%N);
   ((-4189231531952389, -49)%Z, [26893]%N);
   ((-4981770179051921, -49)%Z, [27004; 27155; 30001; 40657]%N);
   ((-656885847666489, -46)%Z, [27036]%N);
   ((-4581040270633049, -49)%Z, [27054; 33635]%N);
   ((-382587237442647, -45)%Z, [27067; 29730; 32299; 32541; 33203; 35571; 35865; 36575; 36719]%N);
   ((-637813466416353, -46)%Z, [27178; 27243]%N);
   ((-7795276958470933, -50)%Z, [27426; 27489]%N);
   ((-8629600416376141, -50)%Z, [27454]%N);
   ((-5507071418891213, -49)%Z, [27465; 30460]%N);
   ((-6786969586553965, -50)%Z, [27490]%N);
   ((-8321171838215223, -50)%Z, [27491]%N);
   ((-8940089035350521, -50)%Z, [27493]%N);
   ((-2759837651261823, -48)%Z, [27494]%N);
   ((-3726269476139349, -49)%Z, [27515]%N);
   ((-8952669053453075, -50)%Z, [27542]%N);
   ((-4443362477751103, -49)%Z, [27584; 27585]%N);
   ((-8659477633620429, -50)%Z, [27602]%N);
   ((-7368937678534265, -50)%Z, [27604]%N);
   ((-1183493750652599, -47)%Z, [27605; 30050]%N);
   ((-8340719868061355, -50)%Z, [27668; 27683]%N);
   ((-3095669543803237, -49)%Z, [27714]%N);
   ((-5199504007366843, -49)%Z, [27745; 32160; 32511]%N);
   ((-4956994784817899, -49)%Z, [27760]%N);
   ((-4635738598299271, -49)%Z, [27794; 27809]%N);
   ((-5040266415154607, -49)%Z, [27827; 36831; 36978; 39449; 39575]%N);
   ((-4770377113976629, -49)%Z, [27833]%N);
   ((-3618298820395749, -49)%Z, [27835]%N);
   ((-4860910497025759, -49)%Z, [27844; 27945]%N);
   ((-2639753858368175, -48)%Z, [27850]%N);
   ((-4648701099257735, -49)%Z, [27852]%N);
   ((-7148889632956509, -50)%Z, [27861]%N);
   ((-84558616198847, -43)%Z, [27873]%N);
   ((-5429567795606819, -49)%Z, [27874]%N);
   ((-5107593131345789, -49)%Z, [27875; 36076; 36134]%N);
   ((-1705535345700465, -48)%Z, [27880]%N);
   ((-4889300543726015, -49)%Z, [27882; 28122]%N);
   ((-5206767978518193, -49)%Z, [27899; 28681]%N);
   ((-6159793630257739, -49)%Z, [27905; 27974; 28479; 28500; 38742]%N);
   ((-4881041961090813, -49)%Z, [27927]%N);
   ((-1128906511914289, -47)%Z, [27963]%N);
   ((-8531093067128129, -50)%Z, [27969]%N);
   ((-7574898743363949, -50)%Z, [27979; 28204]%N);
   ((-5706971991142847, -49)%Z, [27994; 36829; 36949]%N);
   ((-5361454616653719, -49)%Z, [28020]%N);
   ((-4774319751076335, -49)%Z, [28023]%N);
   ((-1393864630387923, -47)%Z, [28024; 30058; 34507; 39019; 39076]%N);
   ((-569493303105889, -46)%Z, [28041]%N);
   ((-5290711070632301, -49)%Z, [28044; 28263]%N);
   ((-3208637102466677, -49)%Z, [28072; 28466]%N);
   ((-716012995134381, -46)%Z, [28088]%N);
   ((-2816085491789527, -48)%Z, [28129; 30585; 35480; 35825; 36002; 36129]%N);
   ((-2594390413447665, -48)%Z, [28145; 38346; 38420]%N);
   ((-1266797296348377, -47)%Z, [28155; 36104; 36192]%N);
   ((-2171358284438671, -48)%Z, [28165]%N);
   ((-4335412203799707, -49)%Z, [28193]%N);
   ((-2347427470310277, -48)%Z, [28201; 28331]%N);
   ((-1208157131239593, -47)%Z, [28216; 32362; 32472; 36938]%N);
   ((-2698092504225835, -48)%Z, [28287; 28629]%N);
   ((-4851108451011907, -49)%Z, [28291; 28528]%N);
   ((-1301387697238881, -47)%Z, [28335]%N);
   ((-8032783605267883, -50)%Z, [28357; 28781]%N);
   ((-4251528581529081, -49)%Z, [28369]%N);
   ((-2489662169528231, -48)%Z, [28382; 28399; 37051; 37168]%N);
   ((-3993481656482085, -49)%Z, [28385; 28415]%N);
   ((-667816268396281, -46)%Z, [28389; 28651]%N);
   ((-81885440358537, -43)%Z, [28431]%N);
   ((-129348438813967, -44)%Z, [28436]%N);
   ((-6346567697808841, -49)%Z, [28448; 34962]%N);
   ((-7351780159888411, -50)%Z, [28608]%N);
   ((-2163334086543731, -48)%Z, [28779]%N);
   ((-1293986544694459, -47)%Z, [28783; 29128]%N);
   ((-349810946970533, -45)%Z, [28789; 38728]%N);
   ((-2397815443682331, -48)%Z, [28818]%N);
   ((-8914055507730405, -50)%Z, [28856; 36062; 36175]%N);
   ((-4632653933302301, -49)%Z, [28857; 40670]%N);
   ((-8903170976888729, -50)%Z, [28860; 29001]%N);
   ((-2532645266411677, -48)%Z, [28866; 29211]%N);
   ((-2416627883655599, -48)%Z, [28895; 29017]%N);
   ((-5379379284237069, -49)%Z, [28902; 29033]%N);
   ((-4324630342976505, -49)%Z, [28903; 29138]%N);
   ((-5821588013512531, -49)%Z, [29100]%N);
   ((-4965661785240613, -49)%Z, [29123]%N);
   ((-8994725626173167, -50)%Z, [29151; 33829]%N);
   ((-5640008000449667, -49)%Z, [29228]%N);
   ((-5470869308027923, -49)%Z, [29255]%N);
   ((-1985326714656167, -48)%Z, [29256]%N);
   ((-8185650462203393, -50)%Z, [29260]%N);
   ((-5273988555338615, -49)%Z, [29273; 34701]%N);
   ((-2482434169543059, -48)%Z, [29289]%N);
   ((-1147992920290459, -47)%Z, [29359]%N);
   ((-4993326742286175, -49)%Z, [29425; 29508]%N);
   ((-5119988860489575, -49)%Z, [29454; 29557; 33469]%N);
   ((-5160023300439871, -49)%Z, [29486; 29563]%N);
   ((-2163844930561827, -48)%Z, [29554; 33719]%N);
   ((-19823626900721, -41)%Z, [29575]%N);
   ((-2270424443397179, -49)%Z, [29616; 29694]%N);
   ((-4519207166307373, -49)%Z, [29677]%N);
   ((-615358269598769, -46)%Z, [29699]%N);
   ((-6384212948505377, -50)%Z, [29702]%N);
   ((-5938199273915427, -49)%Z, [29748; 31096; 31117; 35496; 35826]%N);
   ((-1344089705645971, -48)%Z, [29983]%N);
   ((-5131301903255013, -50)%Z, [29992]%N);
   ((-1374194885650381, -47)%Z, [30000; 35569; 35763]%N);
   ((-5132663691282715, -49)%Z, [30003]%N);
   ((-4282040160888173, -49)%Z, [30005; 38651]%N);
   ((-5264458340617701, -49)%Z, [30028]%N);
   ((-7724654350904875, -50)%Z, [30041]%N);
   ((-8834576439915987, -50)%Z, [30053]%N);
   ((-8270644591415717, -50)%Z, [30097]%N);
   ((-1908448643589717, -48)%Z, [30103; 30274]%N);
   ((-1252779741659475, -47)%Z, [30123; 39347; 39536]%N);
   ((-5252437600191595, -49)%Z, [30140]%N);
   ((-4158310604645721, -49)%Z, [30149]%N);
   ((-158172260344833, -44)%Z, [30171; 36367]%N);
   ((-1254294225787553, -47)%Z, [30331; 30465; 31199; 32227; 32536]%N);
   ((-7372858970810919, -50)%Z, [30333]%N);
   ((-5201914931623169, -49)%Z, [30340]%N);
   ((-8607824091002931, -50)%Z, [30410]%N);
   ((-8514729276197097, -50)%Z, [30422; 33995]%N);
   ((-1883579045720539, -48)%Z, [30424; 30436]%N);
   ((-7288532656949397, -50)%Z, [30442; 33633]%N);
   ((-4858936386457753, -49)%Z, [30446]%N);
   ((-8824430440476639, -50)%Z, [30452]%N);
   ((-2359204287167929, -48)%Z, [30456]%N);
   ((-3283038627861959, -49)%Z, [30475]%N);
   ((-5054031158432439, -49)%Z, [30495]%N);
   ((-2369099893783897, -48)%Z, [30496]%N);
   ((-4747823098031175, -49)%Z, [30524]%N);
   ((-3036663535082265, -49)%Z, [30528; 33879]%N);
   ((-618750190970417, -46)%Z, [30544; 30558]%N);
   ((-612740015583351, -46)%Z, [30561]%N);
   ((-1439934671269283, -47)%Z, [30572; 32974]%N);
   ((-2688862989610387, -48)%Z, [30610; 30622]%N);
   ((-6577002169304545, -50)%Z, [30693]%N);
   ((-591222710934905, -46)%Z, [30701]%N);
   ((-160869404743471, -44)%Z, [30719; 31014]%N);
   ((-1310815606738523, -47)%Z, [30740]%N);
   ((-2011524378928431, -48)%Z, [30772]%N);
   ((-4717897034133989, -49)%Z, [30861; 31001]%N);
   ((-1169841092170679, -47)%Z, [30862]%N);
   ((-2307246341209611, -48)%Z, [30952]%N);
   ((-663268737832107, -47)%Z, [31034]%N);
   ((-4690454962007253, -49)%Z, [31036; 31150]%N);
   ((-164769286825113, -44)%Z, [31069; 34893]%N);
   ((-4978511414794735, -49)%Z, [31070]%N);
   ((-4751610377739755, -49)%Z, [31080]%N);
   ((-7880090100171469, -50)%Z, [31105]%N);
   ((-5397893507345495, -49)%Z, [31119; 31192]%N);
   ((-7522851282160417, -50)%Z, [31163; 38626]%N);
   ((-6746080040582697, -49)%Z, [31207; 31397; 31418; 39262; 39307]%N);
   ((-4123814773646693, -49)%Z, [31215; 31309]%N);
   ((-6852451991290103, -50)%Z, [31216; 31281]%N);
   ((-7902920189249739, -50)%Z, [31227]%N);
   ((-8929603279403183, -50)%Z, [31237; 31246]%N);
   ((-1313440158104617, -47)%Z, [31243; 37586; 38155]%N);
   ((-640786325609653, -46)%Z, [31283; 31337; 35686]%N);
   ((-2243036322636581, -48)%Z, [31350]%N);
   ((-2299896707559285, -48)%Z, [31359]%N);
   ((-5530398482995159, -49)%Z, [31363; 31434]%N);
   ((-2706466179213837, -49)%Z, [31435]%N);
   ((-5161145833121727, -49)%Z, [31469]%N);
   ((-7814979508270787, -50)%Z, [31505]%N);
   ((-5083591629677447, -49)%Z, [31508; 31558]%N);
   ((-2623588173689283, -48)%Z, [31526]%N);
   ((-5177100948317975, -49)%Z, [31548; 31840; 36032; 36154]%N);
   ((-8722806409458839, -50)%Z, [31561]%N);
   ((-4735555583770625, -49)%Z, [31569; 31689]%N);
   ((-3809618765193767, -49)%Z, [31572]%N);
   ((-5014572658166223, -49)%Z, [31574]%N);
   ((-2567402093990507, -48)%Z, [31609; 31820]%N);
   ((-658735550784121, -46)%Z, [31614; 31805; 36064; 36180; 38291; 38388]%N);
   ((-6730717426091023, -50)%Z, [31639]%N);
   ((-4069884919925335, -49)%Z, [31649]%N);
   ((-8122756630868059, -50)%Z, [31684; 33539]%N);
   ((-5912010833280605, -49)%Z, [31881]%N);
   ((-2695545201983631, -48)%Z, [31918; 31975]%N);
   ((-7634620316901817, -50)%Z, [31995]%N);
   ((-8019625295312713, -50)%Z, [32004; 32422]%N);
   ((-131362725828187, -44)%Z, [32013; 32435]%N);
   ((-2712081717274113, -48)%Z, [32023; 32433]%N);
   ((-4803314313086809, -49)%Z, [32025; 32440]%N);
   ((-68318227333431, -43)%Z, [32026; 32423]%N);
   ((-8386085433381239, -50)%Z, [32034]%N);
   ((-4277812732110593, -49)%Z, [32039; 32202]%N);
   ((-4159636753559165, -49)%Z, [32047; 38556]%N);
   ((-7691806385114909, -50)%Z, [32057; 32461]%N);
   ((-2582263462043335, -48)%Z, [32066; 32456; 39321]%N);
   ((-3755103428169475, -49)%Z, [32080; 32467]%N);
   ((-4088629728351105, -49)%Z, [32085; 32477]%N);
   ((-1250009648677331, -47)%Z, [32097; 32476]%N);
   ((-3662477372160069, -49)%Z, [32102; 32473]%N);
   ((-5552477781637949, -49)%Z, [32129; 32465]%N);
   ((-4264403023210647, -49)%Z, [32147; 32463]%N);
   ((-3107719444131161, -48)%Z, [32173; 32500]%N);
   ((-8755299784403069, -50)%Z, [32178; 32593]%N);
   ((-87684226234687, -43)%Z, [32180; 32512; 33293]%N);
   ((-5669714889746685, -49)%Z, [32210; 32490]%N);
   ((-731427519485851, -46)%Z, [32224; 32532; 38988; 39064]%N);
   ((-8697045897970415, -50)%Z, [32232; 32534]%N);
   ((-4557482442044043, -49)%Z, [32233; 32531]%N);
   ((-5096465276681491, -49)%Z, [32244; 32451; 38453; 38499]%N);
   ((-4027830947089747, -49)%Z, [32302; 32553]%N);
   ((-4620911793627565, -49)%Z, [32305; 32437]%N);
   ((-55146072850743, -43)%Z, [32340; 32455]%N);
   ((-8623122549960911, -50)%Z, [32350; 32469]%N);
   ((-5145630482282547, -49)%Z, [32371; 32564]%N);
   ((-2558432122940439, -48)%Z, [32377; 32462; 35494; 35829]%N);
   ((-2625558835018047, -48)%Z, [32386]%N);
   ((-6140797601395291, -50)%Z, [32396; 32493]%N);
   ((-602298942334643, -46)%Z, [32570]%N);
   ((-5148919391073081, -49)%Z, [32599; 32645]%N);
   ((-5057759317445089, -49)%Z, [32602; 32624; 38393; 39719]%N);
   ((-5389402396845185, -49)%Z, [32610; 32631]%N);
   ((-5211663226350543, -49)%Z, [32617]%N);
   ((-4382983289917149, -49)%Z, [32618]%N);
   ((-3583232638291643, -49)%Z, [32622]%N);
   ((-4085461928161867, -49)%Z, [32626]%N);
   ((-4940051099579835, -49)%Z, [32629; 39554]%N);
   ((-5285081524184889, -49)%Z, [32654; 32724]%N);
   ((-5350338177379333, -49)%Z, [32676]%N);
   ((-1185614129568095, -47)%Z, [32763]%N);
   ((-4102166898903489, -49)%Z, [32771]%N);
   ((-1357845210125549, -47)%Z, [32789]%N);
   ((-2308525775124817, -48)%Z, [32791]%N);
   ((-5731188626072017, -49)%Z, [32824; 32883; 36793; 37002]%N);
   ((-64850291462825, -43)%Z, [32844; 32887]%N);
   ((-2516530278682881, -48)%Z, [32852; 32879]%N);
   ((-2484423400272589, -48)%Z, [32856]%N);
   ((-4543431696969291, -49)%Z, [32858]%N);
   ((-7272549344454593, -50)%Z, [32929]%N);
   ((-1286134608868427, -47)%Z, [32933]%N);
   ((-2087411981629311, -48)%Z, [32943]%N);
   ((-4212079013502763, -49)%Z, [32946]%N);
   ((-2941461038675747, -48)%Z, [32958; 33102; 33108; 36115; 36163; 36920]%N);
   ((-4680798636855803, -49)%Z, [32960; 33081]%N);
   ((-5174793773148337, -49)%Z, [32972]%N);
   ((-4926208644013411, -50)%Z, [33021]%N);
   ((-2544254127204527, -48)%Z, [33050; 33139]%N);
   ((-8288219971232251, -50)%Z, [33067; 33073]%N);
   ((-1269679393414873, -47)%Z, [33080; 33225]%N);
   ((-8989897870324185, -50)%Z, [33150; 39472]%N);
   ((-7518558579429057, -50)%Z, [33258]%N);
   ((-7198389216797063, -50)%Z, [33267]%N);
   ((-7113890219291861, -50)%Z, [33268]%N);
   ((-8627603254155187, -50)%Z, [33322]%N);
   ((-2523324051200301, -48)%Z, [33391]%N);
   ((-1137460981642375, -47)%Z, [33394]%N);
   ((-897901586805165, -47)%Z, [33487; 34311]%N);
   ((-1428232297274393, -47)%Z, [33495; 36828; 36960]%N);
   ((-4724583590034999, -49)%Z, [33510]%N);
   ((-4709774982288037, -49)%Z, [33590]%N);
   ((-5106572369591189, -49)%Z, [33609]%N);
   ((-7749534630056017, -50)%Z, [33616; 34214]%N);
   ((-4617479161324825, -49)%Z, [33647; 34277]%N);
   ((-330935655331479, -45)%Z, [33740; 36036; 36159]%N);
   ((-3608166956709651, -49)%Z, [33853]%N);
   ((-290856066088137, -45)%Z, [33900]%N);
   ((-1386998025226273, -47)%Z, [34065]%N);
   ((-4088128362766455, -49)%Z, [34255]%N);
   ((-2833474272671273, -48)%Z, [34411; 34802]%N);
   ((-8985776206513757, -50)%Z, [34432; 34645]%N);
   ((-2102625138757077, -48)%Z, [34880]%N);
   ((-2269684015421129, -49)%Z, [34892]%N);
   ((-4835141698567225, -49)%Z, [34913]%N);
   ((-5217842760995653, -49)%Z, [34915]%N);
   ((-8923747675819229, -50)%Z, [34917; 35036]%N);
   ((-7801486859147159, -50)%Z, [34920]%N);
   ((-4666617787451095, -49)%Z, [34989; 35186]%N);
   ((-319545305583639, -45)%Z, [35009]%N);
   ((-4035689704936029, -49)%Z, [35010]%N);
   ((-1918372038275385, -48)%Z, [35013; 35037]%N);
   ((-6018386856532455, -50)%Z, [35201]%N);
   ((-5939116494030349, -50)%Z, [35211; 35265]%N);
   ((-5163397635937819, -49)%Z, [35215; 35268]%N);
   ((-7090085951922983, -50)%Z, [35222; 35270]%N);
   ((-541732404678265, -46)%Z, [35258; 35273]%N);
   ((-610472672791035, -46)%Z, [35261; 35272; 36214; 36245; 38431; 38538]%N);
   ((-98986995064347, -44)%Z, [35299]%N);
   ((-4310816467877207, -49)%Z, [35302; 35320]%N);
   ((-527032289957143, -46)%Z, [35328]%N);
   ((-7755036900783643, -50)%Z, [35330; 35746]%N);
   ((-2946954169852045, -49)%Z, [35336; 35745]%N);
   ((-322431437603461, -45)%Z, [35338; 35759]%N);
   ((-8962029320366763, -50)%Z, [35342; 35752]%N);
   ((-8235591509082773, -50)%Z, [35352; 35760]%N);
   ((-7852940324940465, -50)%Z, [35370; 35775]%N);
   ((-4078686285501245, -49)%Z, [35373; 35774]%N);
   ((-4194453367034609, -49)%Z, [35377; 35768]%N);
   ((-7005611513027891, -50)%Z, [35380; 35785]%N);
   ((-2353379585876783, -48)%Z, [35386; 35786]%N);
   ((-541764720979259, -46)%Z, [35413; 35780]%N);
   ((-42562238206683, -42)%Z, [35433; 35799]%N);
   ((-7235727884157405, -50)%Z, [35441; 35805]%N);
   ((-6694390518163099, -50)%Z, [35442; 35813]%N);
   ((-5222835697968707, -49)%Z, [35443; 35814]%N);
   ((-7470066484611925, -50)%Z, [35469; 35748]%N);
   ((-2607681400621541, -48)%Z, [35475]%N);
   ((-4859593654428997, -49)%Z, [35486; 35821]%N);
   ((-4760915547503275, -49)%Z, [35492; 35823]%N);
   ((-6630055774806037, -50)%Z, [35498; 35828]%N);
   ((-5018919783655107, -49)%Z, [35506; 35838]%N);
   ((-1704283676185435, -48)%Z, [35519; 35843]%N);
   ((-4398713166416419, -49)%Z, [35527; 35848]%N);
   ((-3818136810513431, -49)%Z, [35531; 35831]%N);
   ((-7855701422963467, -50)%Z, [35542; 35770]%N);
   ((-4298060629077247, -49)%Z, [35582; 35834]%N);
   ((-1957711527750469, -48)%Z, [35586; 35859]%N);
   ((-207125558669839, -44)%Z, [35589; 35788; 36405]%N);
   ((-4115511265876603, -49)%Z, [35613; 35874]%N);
   ((-3661223934506873, -49)%Z, [35657; 35777]%N);
   ((-7503202217429595, -50)%Z, [35672; 35782]%N);
   ((-2268175236055921, -48)%Z, [35695; 35793]%N);
   ((-7851437120569185, -50)%Z, [35696; 35758]%N);
   ((-473125830600281, -46)%Z, [35712; 35835]%N);
   ((-3713674992160507, -49)%Z, [35731; 35753]%N);
   ((-1084372378064503, -47)%Z, [35937]%N);
   ((-4414895230367777, -49)%Z, [36000; 36127; 39135]%N);
   ((-4105947407304017, -49)%Z, [36001; 36130]%N);
   ((-303234789847399, -45)%Z, [36011; 36143]%N);
   ((-1910727805651365, -48)%Z, [36012; 36131]%N);
   ((-2486829183949855, -48)%Z, [36024; 36151]%N);
   ((-8236648526754065, -50)%Z, [36027; 36153]%N);
   ((-5093468197978235, -49)%Z, [36028; 36148]%N);
   ((-5099478396917175, -49)%Z, [36035; 36161]%N);
   ((-126661103273149, -44)%Z, [36039; 36164]%N);
   ((-2603993902773383, -48)%Z, [36074; 36136]%N);
   ((-4410435608787633, -49)%Z, [36084; 36182]%N);
   ((-6691169824934239, -50)%Z, [36092; 36141]%N);
   ((-5013707246845261, -49)%Z, [36106; 36190]%N);
   ((-7786262119653109, -50)%Z, [36208]%N);
   ((-2613304839135627, -48)%Z, [36212]%N);
   ((-5810762534520275, -50)%Z, [36215]%N);
   ((-8698638777142267, -50)%Z, [36234]%N);
   ((-3931000971260625, -49)%Z, [36275]%N);
   ((-8250837749293641, -50)%Z, [36291; 36493]%N);
   ((-3421043627980365, -49)%Z, [36300]%N);
   ((-4542307670066567, -49)%Z, [36305]%N);
   ((-2596166286699403, -48)%Z, [36317]%N);
   ((-2712979564851061, -48)%Z, [36321; 36555; 36711; 36857]%N);
   ((-8626107703915131, -50)%Z, [36335]%N);
   ((-5203124276778737, -49)%Z, [36339]%N);
   ((-8576406085961071, -50)%Z, [36341; 36368]%N);
   ((-5627006268881787, -49)%Z, [36382; 37941; 38081]%N);
   ((-3464123735302893, -49)%Z, [36523]%N);
   ((-3952509395867007, -49)%Z, [36554; 36710]%N);
   ((-2659124109038795, -48)%Z, [36611; 36739]%N);
   ((-7565343113920515, -50)%Z, [36617; 36733]%N);
   ((-2318976162458431, -48)%Z, [36629; 36731]%N);
   ((-8862497760659747, -50)%Z, [36676; 36758]%N);
   ((-7377122505992813, -50)%Z, [36681; 36716]%N);
   ((-4775451309152641, -49)%Z, [36766; 36781]%N);
   ((-4587898219441937, -49)%Z, [36767; 38370]%N);
   ((-2577777710107313, -48)%Z, [36776]%N);
   ((-1309199773967863, -47)%Z, [36777; 36783]%N);
   ((-320525435036133, -45)%Z, [36785]%N);
   ((-3766780399408513, -49)%Z, [36798; 36948]%N);
   ((-8881087614566991, -50)%Z, [36801; 36983]%N);
   ((-2982884362678125, -49)%Z, [36807; 36942]%N);
   ((-4441168959988963, -49)%Z, [36814]%N);
   ((-4173267239270637, -49)%Z, [36816; 36939]%N);
   ((-112679714336883, -44)%Z, [36817]%N);
   ((-616657993115233, -46)%Z, [36820]%N);
   ((-8867425120413969, -50)%Z, [36824; 36996]%N);
   ((-6139428592804109, -50)%Z, [36827; 36914]%N);
   ((-4496672076860757, -49)%Z, [36830; 36899]%N);
   ((-2302813572798773, -48)%Z, [36843]%N);
   ((-7587304936948417, -50)%Z, [36848]%N);
   ((-2307672173328213, -48)%Z, [36855]%N);
   ((-1986685843210491, -48)%Z, [36864]%N);
   ((-8011226260273309, -50)%Z, [36865]%N);
   ((-2760901830135135, -48)%Z, [36870]%N);
   ((-3654998270245013, -49)%Z, [36873; 36984]%N);
   ((-2364629856259901, -48)%Z, [36880]%N);
   ((-4530822277571667, -49)%Z, [36882; 36958]%N);
   ((-7760104380277281, -50)%Z, [36890]%N);
   ((-1493781815258845, -47)%Z, [36894]%N);
   ((-8222287810621883, -50)%Z, [36895]%N);
   ((-6456763506021413, -50)%Z, [36896]%N);
   ((-2462539071867991, -48)%Z, [36898]%N);
   ((-4876279818283497, -49)%Z, [36935]%N);
   ((-2654735282627643, -49)%Z, [36947]%N);
   ((-2182062044726519, -48)%Z, [36991]%N);
   ((-5526084669139967, -49)%Z, [36992]%N);
   ((-2980496941952021, -48)%Z, [37034]%N);
   ((-146914743763995, -44)%Z, [37117]%N);
   ((-2090054958575601, -48)%Z, [37197]%N);
   ((-263411429508155, -45)%Z, [37202]%N);
   ((-628464506955105, -46)%Z, [37257]%N);
   ((-4128461371071205, -49)%Z, [37266]%N);
   ((-3861656464546941, -49)%Z, [37322; 37323]%N);
   ((-7394673654064685, -50)%Z, [37325]%N);
   ((-1882777323706785, -48)%Z, [37327]%N);
   ((-1234256119909157, -47)%Z, [37329]%N);
   ((-2556878439271379, -48)%Z, [37492; 37969]%N);
   ((-7747021714540849, -50)%Z, [37559; 38144]%N);
   ((-2102214076286487, -48)%Z, [37666; 38065]%N);
   ((-2387442622901683, -48)%Z, [37679; 38169]%N);
   ((-5003424770052219, -49)%Z, [37782; 38145; 38548]%N);
   ((-5503641058813509, -50)%Z, [38263; 38271]%N);
   ((-982718655453705, -47)%Z, [38272; 38376]%N);
   ((-8471786272358495, -50)%Z, [38281; 38381]%N);
   ((-719158490589351, -46)%Z, [38290; 38386]%N);
   ((-1193297615731871, -47)%Z, [38321; 38405]%N);
   ((-8402711666062501, -50)%Z, [38450]%N);
   ((-5461212982876473, -49)%Z, [38451; 38525]%N);
   ((-2378532680915969, -48)%Z, [38468]%N);
   ((-8861269282734441, -50)%Z, [38470; 38520]%N);
   ((-1656669053447721, -48)%Z, [38477]%N);
   ((-8899354363380313, -50)%Z, [38480]%N);
   ((-5019793251562571, -49)%Z, [38498]%N);
   ((-1754520677163363, -48)%Z, [38500]%N);
   ((-1157396519638059, -47)%Z, [38505; 38570]%N);
   ((-2256566375263071, -48)%Z, [38519]%N);
   ((-8248341691470729, -50)%Z, [38543; 38568]%N);
   ((-2355644483917745, -48)%Z, [38590; 38627]%N);
   ((-7125392431216295, -50)%Z, [38598]%N);
   ((-5169066867671121, -49)%Z, [38634]%N);
   ((-1161498650970977, -47)%Z, [38656]%N);
   ((-6931449973603411, -50)%Z, [38706]%N);
   ((-4154162930499675, -49)%Z, [38750]%N);
   ((-130173360751105, -44)%Z, [38752]%N);
   ((-8463132118245235, -50)%Z, [38754]%N);
   ((-5737409130838569, -49)%Z, [38761; 39341; 39533]%N);
   ((-5234234399164793, -49)%Z, [38899]%N);
   ((-2832097864174475, -48)%Z, [38914; 39030]%N);
   ((-2571180338325883, -48)%Z, [38918; 39034]%N);
   ((-5157784927894757, -49)%Z, [38924; 39042]%N);
   ((-2445692129844773, -48)%Z, [38928; 39044]%N);
   ((-4625666101722301, -49)%Z, [38931; 39039]%N);
   ((-3690783589202517, -49)%Z, [38936; 39046]%N);
   ((-4762573722349919, -49)%Z, [38989; 39069]%N);
   ((-1032294912155295, -47)%Z, [39015; 39038]%N);
   ((-8795108473225045, -50)%Z, [39080; 39118]%N);
   ((-2364108606154067, -48)%Z, [39131; 39134]%N);
   ((-4249077578453811, -49)%Z, [39151; 39277]%N);
   ((-8917922368681377, -50)%Z, [39166; 39280]%N);
   ((-5374433864847855, -49)%Z, [39184]%N);
   ((-8584058791085545, -50)%Z, [39318]%N);
   ((-4160206060825033, -49)%Z, [39340; 39532]%N);
   ((-5376077515514531, -49)%Z, [39361; 39539]%N);
   ((-1210527835611121, -47)%Z, [39376; 39547]%N);
   ((-8659990922850583, -50)%Z, [39387; 39542]%N);
   ((-2155904881578191, -48)%Z, [39511; 39564]%N);
   ((-3176973672316569, -49)%Z, [39640]%N);
   ((-4914829096870647, -49)%Z, [39770; 40060]%N);
   ((-2448489419716297, -48)%Z, [40180; 40483]%N)];
  (* ('E', 'vd') *)
  [
   ((-4845123461088877, -49)%Z, [20027; 21152]%N);
   ((-516815397568569, -47)%Z, [21183; 21218]%N);
   ((-7216391975242581, -50)%Z, [21517]%N);
   ((-166249831364673, -45)%Z, [22797]%N);
   ((-5830567848801319, -51)%Z, [27493]%N);
   ((-1874836716658065, -48)%Z, [28982]%N);
   ((-2227458144039271, -48)%Z, [29677]%N);
   ((-1384234472109301, -48)%Z, [30446]%N);
   ((-1238584071993887, -53)%Z, [32396; 32493]%N);
   ((-6641253453031627, -50)%Z, [36766; 36781]%N);
   ((-1593775837457617, -48)%Z, [36777; 36783]%N);
   ((-1308832658524803, -47)%Z, [37327]%N);
   ((-4064709115068207, -49)%Z, [38290; 38386]%N);
   ((-3836452551344749, -49)%Z, [38989; 39069]%N)];
  (* ('E', 'vg') *)
  [
];
  (* ('E', 'vi') *)
  [
   ((0, 0)%Z, [20110; 26044]%N)];
  (* ('E', 'vn') *)
  [
   ((-2765485560107485, -49)%Z, [19968]%N);
   ((-4250217616962681, -49)%Z, [19979]%N);
   ((-3382150192171569, -48)%Z, [19990; 19997; 20006; 20046; 20250; 20805; 21345; 21472; 23614; 24120; 24182; 24184;
     25237; 26371; 27784; 27785; 27899; 28608; 28681; 30090; 31359; 32114; 34701; 36676; 36758; 36887; 38918; 39034;
     39151; 39277]%N);
   ((-785448007002555, -47)%Z, [19994; 26989]%N);
   ((-5143455746916493, -49)%Z, [20007; 21930; 26435; 26494; 27402]%N);
   ((-6145836647609345, -49)%Z, [20013; 21163; 22842; 22890; 23486; 24605; 26609; 31216; 31281; 31561; 32858; 33014;
     33184; 36051; 36798; 36948; 39131; 39134]%N);
   ((-5930231177041047, -49)%Z, [20018; 22256; 22645; 23576; 25196; 25562; 25622; 25671; 34935; 35338; 35759; 36076;
     36134; 38519]%N);
   ((-7280126209172073, -49)%Z, [20026; 20102; 20171; 20225; 20305; 20398; 20511; 20801; 20945; 21015; 21451; 21619;
     21700; 21761; 23433; 23454; 23526; 24033; 24072; 24107; 24700; 24796; 24817; 24863; 25166; 25195; 25293; 25351;
     25475; 25494; 25744; 25745; 26144; 26195; 26313; 26376; 26631; 26893; 27161; 27494; 28234; 28858; 29275; 30251;
     30321; 30408; 30860; 31085; 31293; 31295; 31377; 31407; 31918; 31975; 32305; 32437; 32570; 32920; 32928; 33144;
     34411; 34802; 35488; 35802; 36198; 36229; 36924; 37240; 38291; 38388; 38453; 38498; 38499; 38500; 38774; 39438;
     39569]%N);
   ((-958791672772801, -46)%Z, [20030; 20174; 20248; 20249; 20363; 20778; 21171; 21213; 21214; 21306; 21311; 21312;
     21351; 21382; 21891; 22040; 22099; 22352; 22369; 22686; 22821; 22859; 22894; 22902; 23241; 24066; 24402; 24478;
     24604; 24661; 24871; 24976; 25193; 25220; 25314; 25447; 25844; 25871; 26681; 26800; 27133; 27511; 27512; 27553;
     27567; 28183; 28335; 28402; 28903; 29138; 29422; 29468; 29509; 29575; 30382; 30446; 30460; 30765; 30897; 31449;
     31821; 31881; 32066; 32456; 32676; 32988; 33253; 33289; 34893; 35328; 35330; 35386; 35607; 35746; 35786; 35876;
     36009; 36137; 36314; 36427; 36793; 36935; 37002; 38431; 38538; 38930; 39041; 39381; 39550; 39640; 40572]%N);
   ((-1136073760625089, -47)%Z, [20041; 32681]%N);
   ((-7643723080926543, -50)%Z, [20048; 27138]%N);
   ((-7051869645448615, -49)%Z, [20056; 20572; 21069; 21290; 22199; 22522; 22825; 22855; 22880; 22909; 22918; 22941;
     22995; 24178; 24180; 24185; 25130; 25308; 25320; 25670; 25720; 25765; 25850; 26257; 26354; 26449; 26639; 26641;
     27193; 27396; 27827; 27850; 27873; 27875; 29359; 30011; 30059; 30572; 31363; 31434; 33067; 33073; 34900; 34903;
     35482; 35586; 35822; 35859; 36034; 36036; 36159; 36162; 36367; 36992; 37532; 38451; 38525]%N);
   ((-2145918578086105, -48)%Z, [20064; 32722]%N);
   ((-6889919036161739, -49)%Z, [20065; 20083; 20918; 21253; 21917; 24065; 24163; 25282; 25307; 25380; 25496; 25513;
     25552; 25688; 25805; 25824; 26041; 26408; 26647; 26723; 26803; 27284; 27468; 27516; 27570; 27915; 28866; 29211;
     29366; 29376; 30028; 30422; 30566; 30778; 31018; 31062; 32173; 32500; 32673; 32680; 32943; 32960; 33081; 33995;
     34384; 35206; 35480; 35516; 35825; 35850; 36817; 36828; 36960; 37051; 37129; 37168; 37329; 37561; 37709; 38152;
     38208; 38622; 38656; 38931; 39039; 39108; 39128; 40481]%N);
   ((-1091553239579475, -47)%Z, [20070; 26360]%N);
   ((-1489104904418967, -47)%Z, [20080; 24418; 24751; 25003; 26071; 29425; 29508; 30183; 32856; 36023; 36785;
     38738]%N);
   ((-4904754543082317, -49)%Z, [20081; 20098; 21150; 36774]%N);
   ((-5836188087861077, -49)%Z, [20104; 21916; 24330; 26550; 28860; 29001; 31934; 35575; 35773]%N);
   ((-5253233941304449, -50)%Z, [20105; 29229]%N);
   ((-4673745162365263, -49)%Z, [20107; 20999]%N);
   ((-519124742125441, -46)%Z, [20129]%N);
   ((-4237422749077223, -49)%Z, [20132]%N);
   ((-983470413767047, -48)%Z, [20135; 29986]%N);
   ((-1275208445099235, -47)%Z, [20146; 30171; 35242; 35498; 35828; 38518]%N);
   ((-8070990410651837, -50)%Z, [20154]%N);
   ((-6043198735704487, -49)%Z, [20167; 21462; 21592; 21729; 24324; 24449; 24459; 24501; 28431; 30031; 34885; 34913;
     35695; 35793; 36864; 37313; 39019; 39076; 39361; 39539]%N);
   ((-6438685971994839, -50)%Z, [20184]%N);
   ((-5685168889102987, -49)%Z, [20195; 24515; 33391; 38468]%N);
   ((-1388241488061121, -47)%Z, [20208; 23562; 29100; 36842; 39184; 39854; 40092]%N);
   ((-3243491268576649, -49)%Z, [20215; 20729]%N);
   ((-6574883354409661, -49)%Z, [20219; 20811; 21106; 21307; 21367; 21463; 21497; 22022; 22066; 22330; 22580; 23100;
     23485; 23487; 23532; 24067; 24322; 24536; 25001; 25209; 25292; 25505; 25928; 25991; 26412; 27431; 27472; 28070;
     28082; 28516; 30064; 31028; 31038; 31574; 31614; 31805; 32371; 32564; 32650; 33080; 33225; 33495; 34065; 35494;
     35829; 36767; 37291; 37319; 38370]%N);
   ((-3160219175025691, -48)%Z, [20239; 20889; 21480; 22581; 22609; 22768; 23531; 24895; 24944; 25163; 26500; 26657;
     27083; 32882; 35611; 35672; 35762; 35782; 36305; 36814; 37628; 37941; 38050; 38081; 39000; 39015; 39038;
     39135]%N);
   ((-1556598815217853, -47)%Z, [20240; 21051; 21628; 23492; 24367; 24398; 24917; 25142; 25143; 25169; 25215; 25778;
     26102; 26178; 26367; 30707; 33104; 33469; 33510; 35538; 35845; 36010; 36138]%N);
   ((-4979926034340575, -49)%Z, [20241]%N);
   ((-1476301764843075, -47)%Z, [20247; 24573; 24930; 28322; 30526; 33150; 35569; 35763; 37586; 38155; 39472]%N);
   ((-3154213231731625, -49)%Z, [20256; 20659]%N);
   ((-1145084036227505, -47)%Z, [20260; 20663]%N);
   ((-4792540094836777, -49)%Z, [20266; 20605; 21050]%N);
   ((-7132526687162749, -50)%Z, [20272]%N);
   ((-878379215187487, -47)%Z, [20301]%N);
   ((-5262784389683817, -49)%Z, [20303; 25919; 40180; 40483]%N);
   ((-832707809054785, -46)%Z, [20307; 21119; 21495; 21919; 22253; 22290; 22831; 24471; 25233; 25375; 25406; 25429;
     26045; 26126; 27844; 27945; 28748; 28900; 29031; 29123; 30721; 30862; 30908; 31207; 32020; 32221; 32340; 32431;
     32455; 32521; 34399; 35676; 35731; 35753; 35889; 36394; 36831; 36867; 36978; 37666; 37678; 38065; 38178;
     39636]%N);
   ((-5668850356570391, -49)%Z, [20308; 21344; 21796; 21914; 23041; 35563; 35855; 38914; 39030]%N);
   ((-2289007349256721, -48)%Z, [20313; 21040; 39192]%N);
   ((-7067994287013831, -51)%Z, [20316]%N);
   ((-2601735846150899, -48)%Z, [20323; 20653; 23130; 24425]%N);
   ((-3311992913589061, -49)%Z, [20358; 26469]%N);
   ((-3037688031056661, -48)%Z, [20381; 21009; 21085; 21093; 21243; 21248; 22799; 23458; 23545; 23565; 24213; 24314;
     25480; 30417; 30435; 31726; 31811; 32023; 32433; 36495; 36522; 36963]%N);
   ((-5637567311451161, -49)%Z, [20440; 24323; 25345; 25454; 25818; 26820; 36064; 36180]%N);
   ((-6534279497174971, -50)%Z, [20445]%N);
   ((-6617162170492411, -50)%Z, [20449]%N);
   ((-971119001641957, -47)%Z, [20462]%N);
   ((-45269289128039, -42)%Z, [20498; 20892; 34915; 35370; 35775; 36104; 36192; 36786]%N);
   ((-4743839720570483, -49)%Z, [20505; 27665]%N);
   ((-7870733684813379, -50)%Z, [20538; 20661]%N);
   ((-1162389358616495, -47)%Z, [20540]%N);
   ((-2940624063208805, -48)%Z, [20551; 21295; 25438; 25736; 25903; 26087; 27048; 27719; 27974; 28479; 33290]%N);
   ((-3559393360585813, -49)%Z, [20607; 20767]%N);
   ((-195713114176129, -45)%Z, [20633; 22791]%N);
   ((-4246348529887765, -49)%Z, [20648; 20786]%N);
   ((-2297234761020679, -48)%Z, [20687]%N);
   ((-7196519982388665, -50)%Z, [20808]%N);
   ((-4457515924471737, -49)%Z, [20809; 20914; 34909]%N);
   ((-4845855931745759, -49)%Z, [20812; 20817]%N);
   ((-5424734998970693, -49)%Z, [20813; 22615; 28034; 36766; 36781]%N);
   ((-6271455299427945, -49)%Z, [20826; 20864; 21319; 24577; 24694; 24801; 24907; 25140; 25171; 28041; 30465; 34109;
     35340; 35751; 36000; 36127; 36880; 38646; 39347; 39536; 40680]%N);
   ((-2315718970401163, -48)%Z, [20837; 36291; 36493]%N);
   ((-3216702954357411, -48)%Z, [20839; 20869; 21338; 21947; 22122; 24735; 28014; 28304; 29087; 33900; 36077; 36172;
     36324; 36555; 36711; 36855; 38469; 38555; 39166; 39280; 40664]%N);
   ((-7989194702628903, -50)%Z, [20844]%N);
   ((-2407722655149801, -49)%Z, [20851; 38364]%N);
   ((-4241230767791991, -49)%Z, [20852; 33288]%N);
   ((-1986022061279003, -48)%Z, [20853]%N);
   ((-1243803782144585, -47)%Z, [20859; 38928; 39044; 39178]%N);
   ((-2436288608336741, -48)%Z, [20882]%N);
   ((-4722478623113885, -49)%Z, [20891; 23736; 32025; 32440; 36557]%N);
   ((-2530606457069065, -48)%Z, [20912; 21147]%N);
   ((-7439657251759715, -50)%Z, [20915; 27770]%N);
   ((-317015718887055, -45)%Z, [20919; 33945; 36554; 36710]%N);
   ((-4831137447528843, -49)%Z, [20923; 20941]%N);
   ((-6184676181399327, -49)%Z, [20940; 23380; 24524; 24635; 24724; 32317; 32724; 33647; 34277; 36028; 36148; 36275;
     36870; 38459; 38706; 38712]%N);
   ((-2504525314916909, -48)%Z, [20943; 28187]%N);
   ((-5255019439631893, -49)%Z, [20957; 36895]%N);
   ((-8537267019837643, -50)%Z, [20986]%N);
   ((-752605400623471, -47)%Z, [20987; 25802]%N);
   ((-4943298487496423, -49)%Z, [20998; 26009; 32380; 32487]%N);
   ((-5337955880942075, -49)%Z, [21010; 21123]%N);
   ((-283746744813217, -45)%Z, [21019; 21109; 32232; 32534]%N);
   ((-6482230986277861, -50)%Z, [21028]%N);
   ((-5224988322278635, -49)%Z, [21029; 21035; 31080; 31435; 34255; 35302; 35320]%N);
   ((-6315838602852339, -50)%Z, [21033]%N);
   ((-6748984719819209, -50)%Z, [21046]%N);
   ((-4183193155787309, -49)%Z, [21047]%N);
   ((-6374093211332803, -49)%Z, [21066; 21350; 21484; 22604; 23815; 25504; 27880; 28068; 28139; 28364; 28856; 29190;
     33609; 34249; 35377; 35768; 39340; 39532]%N);
   ((-5365422301588675, -49)%Z, [21073; 21133; 22987; 32933; 35222; 35270; 36845]%N);
   ((-5593678865312133, -49)%Z, [21098; 21334; 33457; 36067]%N);
   ((-5527372910875551, -49)%Z, [21151; 27454]%N);
   ((-8879846208319, -40)%Z, [21152]%N);
   ((-5127669967426021, -50)%Z, [21153; 21209]%N);
   ((-6737749763908093, -51)%Z, [21160; 21205]%N);
   ((-6557541777054747, -50)%Z, [21161]%N);
   ((-8341390534276079, -50)%Z, [21169; 21237]%N);
   ((-2717628867189615, -48)%Z, [21215; 21453; 24687]%N);
   ((-2562396356675815, -48)%Z, [21220]%N);
   ((-1998896694477673, -49)%Z, [21270]%N);
   ((-4838448588645735, -49)%Z, [21326; 24328; 33775]%N);
   ((-8701061774155991, -50)%Z, [21355; 34907]%N);
   ((-2859648758565367, -48)%Z, [21360; 26223; 33293]%N);
   ((-5502892969134555, -49)%Z, [21361; 21467; 21578; 28783; 29128; 29255]%N);
   ((-5004090686264637, -49)%Z, [21364; 21371]%N);
   ((-1204198499411359, -47)%Z, [21365; 25581]%N);
   ((-4725481029982295, -49)%Z, [21368; 21644]%N);
   ((-6012761596008765, -49)%Z, [21369; 21741; 24676; 24764; 25343; 25346; 25499; 26262; 30456; 31199; 36879]%N);
   ((-8368686414329299, -50)%Z, [21387; 22739; 22870; 29518]%N);
   ((-5404261835378657, -49)%Z, [21407; 23456; 23541; 25311; 25424; 25836; 36776]%N);
   ((-2588002635827599, -48)%Z, [21449; 30561]%N);
   ((-3763335466457965, -49)%Z, [21457; 30332]%N);
   ((-1989997762638759, -48)%Z, [21464; 35722]%N);
   ((-4809965991691523, -50)%Z, [21475]%N);
   ((-7828625492619283, -50)%Z, [21476; 32302; 32553]%N);
   ((-5118706708634321, -49)%Z, [21483; 21517; 24223; 24290; 38296; 38392]%N);
   ((-8658569942395893, -50)%Z, [21487; 31215; 31309]%N);
   ((-5079655034206557, -50)%Z, [21512]%N);
   ((-8892809418854501, -50)%Z, [21516; 35686]%N);
   ((-4930155090021807, -49)%Z, [21520; 22270; 22294; 25932; 25973; 37326]%N);
   ((-5156250614801951, -49)%Z, [21521; 24680; 36335]%N);
   ((-2651650933972665, -48)%Z, [21523; 22151; 23553; 24207; 35342; 35752]%N);
   ((-1343720967015507, -47)%Z, [21548; 22179; 22210; 24651; 25088; 32893; 36074; 36136]%N);
   ((-5468060213493533, -49)%Z, [21557; 22320; 24377; 24392]%N);
   ((-2722990457425371, -48)%Z, [21560; 24347; 32974]%N);
   ((-1307472928627077, -48)%Z, [21629]%N);
   ((-2660181131516071, -48)%Z, [21648; 25321; 25799; 28895; 29017; 30103; 30274; 37257]%N);
   ((-5130945233098665, -49)%Z, [21683; 30410; 36830; 36899]%N);
   ((-3922197557039367, -50)%Z, [21709; 38911]%N);
   ((-1227136130820867, -48)%Z, [21806]%N);
   ((-1154710864205871, -47)%Z, [21809]%N);
   ((-7842968360555357, -50)%Z, [21830]%N);
   ((-4348986441792623, -49)%Z, [21839; 38382]%N);
   ((-692503000503839, -46)%Z, [21898; 24913; 25086; 27739; 36208]%N);
   ((-2079234412544697, -48)%Z, [22238]%N);
   ((-4756420131328235, -49)%Z, [22266; 24433]%N);
   ((-4004546652167463, -49)%Z, [22269; 22283]%N);
   ((-2678058565912577, -48)%Z, [22303; 22362; 22533; 24859; 26696; 29233; 34920; 36015; 36142; 36655; 36753; 38505;
     38570]%N);
   ((-1624927965787851, -47)%Z, [22336; 26434; 27573; 27801; 28061; 28551; 31946; 32178; 32593; 33310; 33590; 35250;
     35280; 35489; 35506; 35819; 35838; 37117; 37396; 37492; 37969; 38046; 38272; 38376; 38620]%N);
   ((-7432617211539757, -50)%Z, [22411]%N);
   ((-2868585222684057, -48)%Z, [22438; 22675; 22718; 25918; 26679; 27171; 29454; 29557; 30201; 30202; 36115; 36163;
     38321; 38393; 38405; 39719]%N);
   ((-1272306538406645, -47)%Z, [22475; 23466; 25010]%N);
   ((-6109504690141069, -49)%Z, [22478; 24565; 25134; 28357; 28781; 29976; 30431; 31165; 31243; 37504; 38134]%N);
   ((-1871236587951995, -48)%Z, [22521]%N);
   ((-6573788810881465, -50)%Z, [22577; 25253]%N);
   ((-2517263912980179, -48)%Z, [22622]%N);
   ((-8153477238819643, -50)%Z, [22659]%N);
   ((-1464566846625967, -47)%Z, [22788; 24453; 28096; 29699; 34389]%N);
   ((-1058410079086913, -47)%Z, [22797; 36873; 36984]%N);
   ((-6494801317928399, -50)%Z, [22806]%N);
   ((-1273750012479491, -47)%Z, [22823; 23383]%N);
   ((-8224114330694275, -50)%Z, [22833]%N);
   ((-4952234388664597, -49)%Z, [22836; 29616; 29694; 38957]%N);
   ((-2499587030766515, -48)%Z, [22863]%N);
   ((-5607931524137619, -49)%Z, [23072; 24847; 27426; 27489; 28010; 30495; 32047; 32789; 37266]%N);
   ((-1224134037407043, -47)%Z, [23381]%N);
   ((-1131248002545675, -47)%Z, [23384]%N);
   ((-4657505095224587, -49)%Z, [23398; 23416]%N);
   ((-1028775722346625, -47)%Z, [23432]%N);
   ((-7198147005658571, -50)%Z, [23450]%N);
   ((-2212409659702359, -48)%Z, [23457; 23529; 23665]%N);
   ((-5286743322638507, -49)%Z, [23475; 35010]%N);
   ((-1323740429023163, -47)%Z, [23478; 25674; 25892]%N);
   ((-4463154869317331, -49)%Z, [23481]%N);
   ((-4699018980616245, -49)%Z, [23494; 35613; 35874]%N);
   ((-5491040953407275, -49)%Z, [23506; 28020; 32013; 32435; 34917; 35036; 36012; 36131]%N);
   ((-8214034586497003, -50)%Z, [23519]%N);
   ((-1555858166459901, -48)%Z, [23548; 23566]%N);
   ((-8863845766205609, -50)%Z, [23556]%N);
   ((-1425493653329397, -47)%Z, [23621]%N);
   ((-5346963272357779, -49)%Z, [23624; 35413; 35780; 36893; 39208; 39302]%N);
   ((-3145872225122691, -50)%Z, [23637]%N);
   ((-7349537174646649, -50)%Z, [23646; 23660]%N);
   ((-2594785493597099, -48)%Z, [23681; 27506; 32299; 32541]%N);
   ((-4860969589903121, -49)%Z, [23703; 23831]%N);
   ((-5485958166060133, -50)%Z, [24037]%N);
   ((-1495971509580617, -47)%Z, [24046; 24868; 24996; 25705; 25935; 28085; 30333; 32763; 35584; 35851; 36062; 36175;
     36317; 37679; 38169]%N);
   ((-706623945336769, -46)%Z, [24102; 24118; 27491; 31036; 31150; 32791; 36865]%N);
   ((-3801086121855425, -49)%Z, [24202]%N);
   ((-5113522078529443, -50)%Z, [24212; 25033]%N);
   ((-8748441832600241, -50)%Z, [24230]%N);
   ((-2323466477202607, -48)%Z, [24341]%N);
   ((-308680198194379, -45)%Z, [24352; 24373; 30284]%N);
   ((-5774714351535745, -49)%Z, [24405; 25165; 27515; 35627; 35882; 36060; 36176; 36339; 37237; 37636]%N);
   ((-4601671538649817, -49)%Z, [24441; 33853]%N);
   ((-7368318259115739, -50)%Z, [24448]%N);
   ((-5414405352212111, -49)%Z, [24494; 30097; 31456; 38281; 38381]%N);
   ((-2268893439034079, -48)%Z, [24576; 25079]%N);
   ((-2097987409169825, -48)%Z, [24613]%N);
   ((-2397970807739159, -48)%Z, [24615; 28909; 29105; 30423; 30428]%N);
   ((-4731534313611891, -49)%Z, [24773]%N);
   ((-8808062226037905, -50)%Z, [24785]%N);
   ((-6428366010587563, -50)%Z, [24800]%N);
   ((-3738287655110753, -49)%Z, [24819]%N);
   ((-8846114692562257, -50)%Z, [24942; 30053; 34385]%N);
   ((-265156615823083, -45)%Z, [25104]%N);
   ((-4510423176143387, -49)%Z, [25106]%N);
   ((-6739194224154509, -50)%Z, [25112; 25136]%N);
   ((-8072759303249533, -50)%Z, [25151]%N);
   ((-301271609009307, -45)%Z, [25176]%N);
   ((-589565178144895, -46)%Z, [25200; 25854]%N);
   ((-3811081318320897, -49)%Z, [25239]%N);
   ((-8984458628223315, -50)%Z, [25240]%N);
   ((-659830397945007, -46)%Z, [25242; 25771; 27966]%N);
   ((-7981006303577803, -50)%Z, [25252; 35703]%N);
   ((-1018000985231289, -47)%Z, [25276]%N);
   ((-5456912325379529, -49)%Z, [25289]%N);
   ((-4555312027241273, -49)%Z, [25371; 25891]%N);
   ((-1669515861580235, -48)%Z, [25439; 25613]%N);
   ((-4789159003871833, -49)%Z, [25442; 25563; 38290; 38386]%N);
   ((-6782811393246515, -50)%Z, [25490]%N);
   ((-4182045449062721, -49)%Z, [25506]%N);
   ((-4704792876907629, -49)%Z, [25509]%N);
   ((-6489582769040763, -50)%Z, [25511]%N);
   ((-2245121798965683, -48)%Z, [25512; 36617; 36733]%N);
   ((-4149740744001137, -49)%Z, [25588]%N);
   ((-4430138571138577, -49)%Z, [25758; 36008; 36135]%N);
   ((-6091391787007003, -50)%Z, [25773]%N);
   ((-8523974068415815, -50)%Z, [25830]%N);
   ((-4568823474697769, -49)%Z, [25910]%N);
   ((-2811277211499215, -48)%Z, [25913; 27745; 28796; 37325]%N);
   ((-6615705323310269, -50)%Z, [25915]%N);
   ((-5039764607476315, -49)%Z, [25937; 27687]%N);
   ((-647843408480889, -46)%Z, [25943; 28023; 30424; 30436; 36133; 36882; 36958]%N);
   ((-5149816831020377, -49)%Z, [25945; 32000; 32426]%N);
   ((-5479433326636915, -49)%Z, [25947; 25986; 37322; 37323]%N);
   ((-569136414310761, -46)%Z, [25955]%N);
   ((-2352505088012957, -49)%Z, [25972]%N);
   ((-6194020006330815, -50)%Z, [26007; 39717]%N);
   ((-5329090344120399, -49)%Z, [26021; 33976]%N);
   ((-4687645867472863, -49)%Z, [26029; 26039]%N);
   ((-1071572701587131, -47)%Z, [26032]%N);
   ((-2411960020787437, -48)%Z, [26059]%N);
   ((-3583814295990251, -49)%Z, [26085]%N);
   ((-2692253589262705, -48)%Z, [26097]%N);
   ((-5171078128634257, -50)%Z, [26131]%N);
   ((-4857152965430491, -49)%Z, [26149]%N);
   ((-382388200300431, -46)%Z, [26377]%N);
   ((-8853173649270203, -50)%Z, [26381]%N);
   ((-4802806943898443, -49)%Z, [26395; 32283; 32538]%N);
   ((-4729550740742283, -50)%Z, [26399]%N);
   ((-3740376525609199, -49)%Z, [26426; 27231]%N);
   ((-8323554123129087, -50)%Z, [26432; 27578]%N);
   ((-7053210393218717, -50)%Z, [26463]%N);
   ((-4758268129359961, -50)%Z, [26512]%N);
   ((-6925460269008137, -50)%Z, [26579]%N);
   ((-2422328776828611, -49)%Z, [26597]%N);
   ((-3895394166070841, -49)%Z, [26680]%N);
   ((-2877814737299505, -48)%Z, [26816; 27298; 30343; 32629; 39554]%N);
   ((-5055773741840407, -49)%Z, [27490]%N);
   ((-834501694964479, -47)%Z, [27493]%N);
   ((-2525193309918299, -48)%Z, [27531; 27544; 31237; 31246; 38971; 39057]%N);
   ((-3477950301024897, -49)%Z, [27542]%N);
   ((-1037706095589913, -47)%Z, [27602]%N);
   ((-4813264519291463, -49)%Z, [27604; 39449; 39575]%N);
   ((-4925841276166615, -49)%Z, [27668; 27683; 38632]%N);
   ((-3682268447836359, -49)%Z, [27700]%N);
   ((-2460780133648459, -48)%Z, [27714]%N);
   ((-587019261146757, -46)%Z, [27833]%N);
   ((-7237074969681657, -50)%Z, [27835]%N);
   ((-1496685941897809, -48)%Z, [27861]%N);
   ((-2044619224366907, -48)%Z, [27891]%N);
   ((-4531353094286583, -49)%Z, [27927]%N);
   ((-4571107250460405, -49)%Z, [27946]%N);
   ((-8963507829027899, -51)%Z, [27963]%N);
   ((-6706634527232749, -50)%Z, [27969]%N);
   ((-5695155126958115, -50)%Z, [27979; 28204]%N);
   ((-4746958564854881, -49)%Z, [28165; 31119; 32362; 32472]%N);
   ((-1453735542995257, -47)%Z, [28193; 28938; 31800; 36898; 38754]%N);
   ((-6374999638982659, -50)%Z, [28216; 36938]%N);
   ((-3606861067216417, -49)%Z, [28297]%N);
   ((-2432406133310779, -48)%Z, [28369; 36827; 36914]%N);
   ((-5566212444665533, -49)%Z, [28382; 28399; 32227; 32536]%N);
   ((-7013133546097675, -50)%Z, [28436]%N);
   ((-8490129441999481, -50)%Z, [28507; 28508]%N);
   ((-314012386200111, -45)%Z, [28779; 38634]%N);
   ((-564060187045609, -46)%Z, [28797; 28798]%N);
   ((-2619901824885037, -48)%Z, [28814]%N);
   ((-3929479730418825, -49)%Z, [28857; 40670]%N);
   ((-4779135891263717, -49)%Z, [28966]%N);
   ((-1348574464818743, -47)%Z, [29028; 31859]%N);
   ((-5143047080174415, -50)%Z, [29151; 33829]%N);
   ((-1239189024836861, -47)%Z, [29256; 32771]%N);
   ((-2507027331184161, -48)%Z, [29287]%N);
   ((-6594075844548373, -50)%Z, [29615; 29872]%N);
   ((-8856719793640565, -50)%Z, [29677]%N);
   ((-8494742593407203, -51)%Z, [29702]%N);
   ((-478416258319093, -46)%Z, [29983]%N);
   ((-317385482234461, -46)%Z, [29992]%N);
   ((-6645704867997865, -50)%Z, [30005; 38651]%N);
   ((-4223676340243967, -49)%Z, [30041]%N);
   ((-7948835546204861, -50)%Z, [30123]%N);
   ((-2458655784118009, -48)%Z, [30149]%N);
   ((-7312889516035697, -50)%Z, [30442; 33633]%N);
   ((-627387946839671, -46)%Z, [30496]%N);
   ((-6670395539905441, -50)%Z, [30563]%N);
   ((-2379804829005021, -48)%Z, [30693]%N);
   ((-5232347249988095, -49)%Z, [30719; 31014; 32004; 32422]%N);
   ((-3980796877659697, -49)%Z, [30740]%N);
   ((-1456406635266775, -48)%Z, [30772]%N);
   ((-5029339310398341, -49)%Z, [30952]%N);
   ((-7832909200666309, -50)%Z, [31034]%N);
   ((-2188728134882599, -48)%Z, [31105]%N);
   ((-4143282356301225, -49)%Z, [31163; 38626]%N);
   ((-4504292989033603, -49)%Z, [31169]%N);
   ((-2331433281938869, -48)%Z, [31181; 31278]%N);
   ((-8252827359794381, -50)%Z, [31227]%N);
   ((-7954123268761903, -51)%Z, [31350]%N);
   ((-7237918024686859, -50)%Z, [31354]%N);
   ((-55953874243533, -43)%Z, [31361]%N);
   ((-7149550927628905, -50)%Z, [31505]%N);
   ((-1236937176982935, -47)%Z, [31548; 31840]%N);
   ((-5514999886361965, -49)%Z, [31572; 35344; 35750; 36923; 37007; 38647]%N);
   ((-6701909363309007, -50)%Z, [31639]%N);
   ((-693352820107011, -47)%Z, [31649]%N);
   ((-4641720417595367, -49)%Z, [31661]%N);
   ((-6688369238246821, -50)%Z, [31680; 33410]%N);
   ((-4198330260911643, -49)%Z, [31684; 33539]%N);
   ((-6533828144229723, -50)%Z, [31867; 39006]%N);
   ((-1674040241050209, -48)%Z, [32026; 32423]%N);
   ((-4387275413237087, -49)%Z, [32034]%N);
   ((-171098650319581, -45)%Z, [32068; 32452]%N);
   ((-5311767440307253, -49)%Z, [32080; 32147; 32463; 32467; 33394; 38663]%N);
   ((-4508372354372841, -49)%Z, [32097; 32476]%N);
   ((-6697203947051561, -50)%Z, [32102; 32473]%N);
   ((-8729249892225531, -50)%Z, [32218; 32447]%N);
   ((-6637758474840249, -50)%Z, [32244; 32451]%N);
   ((-7879645867812977, -50)%Z, [32396; 32493]%N);
   ((-923306904138555, -47)%Z, [32602; 32624]%N);
   ((-6821175284530043, -50)%Z, [32618]%N);
   ((-1658081920509251, -48)%Z, [32622]%N);
   ((-8327986805653245, -50)%Z, [32654]%N);
   ((-8163026913600947, -50)%Z, [32769]%N);
   ((-5162758779234149, -49)%Z, [32843; 32894]%N);
   ((-4611419833377191, -49)%Z, [32844; 32887]%N);
   ((-7851662611533125, -50)%Z, [32852; 32879]%N);
   ((-8127161184897503, -50)%Z, [32929]%N);
   ((-4974241108434859, -50)%Z, [32946]%N);
   ((-3427437494151913, -49)%Z, [32961; 33029]%N);
   ((-8941524833785573, -50)%Z, [33021]%N);
   ((-4827517178116949, -49)%Z, [33322]%N);
   ((-1011325347677025, -47)%Z, [33337]%N);
   ((-4326314252148825, -49)%Z, [33616; 34214]%N);
   ((-4676497979358859, -49)%Z, [34432; 34645]%N);
   ((-4433712868564539, -49)%Z, [34880]%N);
   ((-2781926652167913, -49)%Z, [34892]%N);
   ((-8043059678319201, -50)%Z, [34989; 35186]%N);
   ((-8418106882766311, -50)%Z, [35009]%N);
   ((-2065291849309767, -48)%Z, [35013; 35037]%N);
   ((-3900933693705859, -49)%Z, [35215; 35268; 36681; 36716]%N);
   ((-2623680069220413, -48)%Z, [35258; 35273]%N);
   ((-273187753166877, -45)%Z, [35261; 35272]%N);
   ((-4713566300507563, -49)%Z, [35264; 35266]%N);
   ((-4071061765050969, -49)%Z, [35299]%N);
   ((-2614308435083669, -49)%Z, [35336; 35745]%N);
   ((-3666907967445801, -49)%Z, [35347; 35757]%N);
   ((-7094024178946571, -50)%Z, [35359; 35772]%N);
   ((-2359348868845549, -49)%Z, [35373; 35774]%N);
   ((-8495270546397315, -50)%Z, [35380; 35785]%N);
   ((-1208695287317075, -47)%Z, [35408; 35784; 39080; 39118]%N);
   ((-214308743552555, -45)%Z, [35426; 35810]%N);
   ((-6440345979530113, -50)%Z, [35430; 35797]%N);
   ((-3459226615706469, -49)%Z, [35441; 35805]%N);
   ((-1304431087781821, -47)%Z, [35465; 35709]%N);
   ((-4278072412894379, -49)%Z, [35492; 35823]%N);
   ((-1240328605867685, -47)%Z, [35519; 35843]%N);
   ((-8479917127931969, -50)%Z, [35527; 35848]%N);
   ((-7725209375920141, -50)%Z, [35542; 35770]%N);
   ((-8029349921016871, -50)%Z, [35657; 35777]%N);
   ((-7563225739267185, -50)%Z, [35696; 35758]%N);
   ((-5045050561368895, -49)%Z, [35712; 35835]%N);
   ((-2533352576184597, -48)%Z, [36007; 36139]%N);
   ((-4785798098644863, -49)%Z, [36024; 36151]%N);
   ((-4872169598983021, -50)%Z, [36027; 36153]%N);
   ((-6649871026240115, -51)%Z, [36039; 36164]%N);
   ((-3355954036368637, -49)%Z, [36092; 36141]%N);
   ((-6236524672735071, -50)%Z, [36093; 36187]%N);
   ((-4616358022528307, -49)%Z, [36215; 38450]%N);
   ((-4213885659494405, -49)%Z, [36523]%N);
   ((-1292335766068513, -47)%Z, [36556; 36712]%N);
   ((-5722040977637925, -50)%Z, [36664; 36755]%N);
   ((-5579778160204533, -49)%Z, [36777; 36783]%N);
   ((-1023040717663203, -47)%Z, [36801; 36983]%N);
   ((-3877090749203917, -49)%Z, [36816; 36939]%N);
   ((-4476536313184171, -49)%Z, [36843]%N);
   ((-3852298680158993, -49)%Z, [36848]%N);
   ((-2787290857702007, -49)%Z, [36890]%N);
   ((-6601718809201143, -50)%Z, [36896]%N);
   ((-5210552917159247, -49)%Z, [37038; 37109]%N);
   ((-6138356442835311, -50)%Z, [37197]%N);
   ((-4145426930145945, -49)%Z, [37202]%N);
   ((-6647700260468471, -50)%Z, [37327]%N);
   ((-1726612985163491, -48)%Z, [37559; 38144]%N);
   ((-4070121163406211, -49)%Z, [37782; 38145]%N);
   ((-8738804969999413, -50)%Z, [38477]%N);
   ((-4044402827143945, -49)%Z, [38556]%N);
   ((-1317664485988009, -47)%Z, [38590; 38627]%N);
   ((-4352079581186561, -49)%Z, [38598]%N);
   ((-5157174652227847, -50)%Z, [38761]%N);
   ((-1254190853971, -37)%Z, [38899]%N);
   ((-84681692485101, -44)%Z, [39511; 39564]%N)];
  (* ('E', 'vq') *)
  [
   ((0, 0)%Z, [36807; 36942]%N)];
  (* ('E', 'w') *)
  [
];
  (* ('E', 'x') *)
  [
];
  (* ('E', 'y') *)
  [
   ((-5899021998266173, -52)%Z, [20102]%N);
   ((-6056072343103039, -50)%Z, [21568]%N);
   ((-5275657997082369, -50)%Z, [21602]%N);
   ((-196335273801289, -47)%Z, [22909]%N);
   ((-1221168342315657, -50)%Z, [24050]%N);
   ((-4798485576118287, -50)%Z, [30528; 33879]%N);
   ((-4843953141460019, -51)%Z, [32610; 32631]%N)];
  (* ('E', 'yg') *)
  [
];
  (* ('E', 'z') *)
  [
   ((-8120848084961113, -50)%Z, [19978; 20999; 34701; 39640]%N);
   ((-5760772091448097, -49)%Z, [19995; 20998; 21474; 22108; 22165; 22351; 22750; 24530; 24722; 25196; 25384; 25562;
     26103; 26336; 26974; 28024; 28385; 28415; 30331; 30343; 31680; 32080; 32467; 33268; 33410; 37290]%N);
   ((-2180947004346817, -48)%Z, [19997; 21862; 24820; 25238; 32114; 35604; 35857; 36834]%N);
   ((-6560019392919773, -50)%Z, [20029; 40599]%N);
   ((-4493407478284789, -49)%Z, [20044; 22121; 27515; 27941; 28879]%N);
   ((-5876323613495521, -50)%Z, [20046]%N);
   ((-2622473133309581, -48)%Z, [20048; 21912; 22047; 22149; 24425; 24596; 27138; 31179; 33030; 33261; 33464; 34837;
     37221]%N);
   ((-3995645768637989, -49)%Z, [20056; 23896; 23992; 29088; 39087; 39122]%N);
   ((-1073897013564263, -47)%Z, [20064; 21277; 28487; 28703; 30095; 30495; 32722; 38469; 38555]%N);
   ((-1828325576965611, -48)%Z, [20113; 24494; 27934; 36890; 38642]%N);
   ((-6049881849552759, -50)%Z, [20142]%N);
   ((-578310316235671, -46)%Z, [20164; 22697; 22788; 23439; 30406; 30862; 31192; 34389; 34578; 40674]%N);
   ((-8148649495176313, -50)%Z, [20262; 20523; 20846; 24665; 25169; 25778]%N);
   ((-2685282459218881, -48)%Z, [20278; 21331; 21512; 21799; 26420; 26543; 27192; 30566; 31800; 32654; 36947]%N);
   ((-2261922308990255, -48)%Z, [20302; 21653; 21916; 23618; 23652; 24613; 24908; 25880; 29074; 33639; 34588; 38935;
     39047]%N);
   ((-7705529543093303, -51)%Z, [20339]%N);
   ((-3509985192674365, -49)%Z, [20381; 21671]%N);
   ((-7534778409829061, -50)%Z, [20415; 21047; 21884; 28165; 28363; 32736; 34949; 35018]%N);
   ((-96109051007163, -43)%Z, [20498; 20725; 20932; 21038; 21243; 21248; 21326; 21402; 21617; 21990; 22949; 24213;
     24464; 25361; 25733; 26946; 27225; 28052; 28070; 28114; 28516; 30250; 30303; 30887; 31751; 32189; 32496; 33487;
     33538; 33775; 34311; 35328; 36028; 36148; 36196; 36481; 36879; 40023; 40158]%N);
   ((-6949891775582197, -50)%Z, [20799; 20818]%N);
   ((-6856789180415527, -50)%Z, [20809; 26126]%N);
   ((-7584826645166553, -50)%Z, [20834]%N);
   ((-8399886798813515, -50)%Z, [20840; 21435; 22833; 23433; 24573; 26032; 31283; 31337; 31895]%N);
   ((-7440899064092195, -50)%Z, [20852; 31967; 33288]%N);
   ((-5532515527724639, -49)%Z, [20908; 20940; 21338; 22374; 24162; 26355; 26495; 27788; 28218; 29030; 31961; 32147;
     32242; 32463; 32520; 32823; 33394; 34384]%N);
   ((-7396740466806615, -50)%Z, [20912; 26001; 30008]%N);
   ((-6314287723269765, -50)%Z, [20914; 34909]%N);
   ((-2945693022126025, -49)%Z, [20919; 24646; 24658]%N);
   ((-6117321161578931, -50)%Z, [20928; 28136]%N);
   ((-769376463392827, -47)%Z, [20937; 28092]%N);
   ((-4020669886306735, -49)%Z, [20955; 20956; 26494; 28287; 28629; 29087; 33395; 33399; 36920]%N);
   ((-2643530023751777, -49)%Z, [20961]%N);
   ((-7551215196737351, -50)%Z, [21187; 26465; 26781; 28796; 30860; 33485; 33980]%N);
   ((-4008018793151575, -49)%Z, [21246; 26041]%N);
   ((-2211168587334853, -49)%Z, [21254]%N);
   ((-8267274889940351, -50)%Z, [21306; 21312; 23450; 26381; 28779; 35365; 35767]%N);
   ((-485613464706835, -46)%Z, [21333; 21934; 28538; 39361; 39539]%N);
   ((-987176523942389, -47)%Z, [21361; 39108; 39128]%N);
   ((-3470113669679849, -49)%Z, [21387; 22739]%N);
   ((-1610691971182177, -48)%Z, [21464; 35722]%N);
   ((-3649988946550075, -49)%Z, [21472; 30090]%N);
   ((-4556021944389345, -49)%Z, [21476; 24375; 24378; 24697; 25064; 25645; 26143; 29616; 29694; 31491; 31716; 33589;
     34091; 39321]%N);
   ((-1963313398563383, -48)%Z, [21480]%N);
   ((-2332661031837675, -48)%Z, [21483; 24086; 28342; 33032; 33033; 33147; 33193]%N);
   ((-8435632655288275, -50)%Z, [21505; 25240; 28404; 31858]%N);
   ((-8177154812827285, -50)%Z, [21513; 25289; 29781; 38596]%N);
   ((-7354248635046517, -50)%Z, [21534]%N);
   ((-6874803963246935, -50)%Z, [21535]%N);
   ((-6754364063808391, -50)%Z, [21574]%N);
   ((-7655218309267605, -50)%Z, [21621; 26434; 38620]%N);
   ((-7094702069290435, -50)%Z, [21628]%N);
   ((-1096463235412081, -47)%Z, [21629; 24826; 30142; 30196; 32085; 32477; 35099; 35128]%N);
   ((-80348568042411, -43)%Z, [21644; 21974; 22040; 22099; 22391; 24576; 24618; 25079; 25315; 25536; 28383; 28536;
     28777; 29190; 33905; 34085; 34593; 34847; 36855; 36962]%N);
   ((-8874130999903783, -50)%Z, [21658; 21691; 23388; 24867; 28872; 30249; 30828; 33267]%N);
   ((-3319094470921759, -49)%Z, [21700]%N);
   ((-7486860543919681, -50)%Z, [21704]%N);
   ((-4752101181703969, -49)%Z, [21736; 24275; 24751; 25003; 25150; 32233; 32531; 33696; 36413]%N);
   ((-7967077702821157, -50)%Z, [21756; 27769; 27958]%N);
   ((-7711059500676103, -50)%Z, [21943; 22132; 26230; 27905; 28500; 30097]%N);
   ((-6131307675688057, -50)%Z, [22075]%N);
   ((-8929063841196983, -50)%Z, [22199; 22446; 29245]%N);
   ((-4338913268779891, -49)%Z, [22218; 22810; 28552; 29801; 31572; 33721; 33725; 39100; 39125]%N);
   ((-8633667940274201, -50)%Z, [22228; 28063; 28451; 28865; 29197; 30353; 30362; 33509; 33551; 34338; 37306;
     40723]%N);
   ((-1980039604456469, -48)%Z, [22238; 23057; 26012; 29469; 30697]%N);
   ((-3341615472179145, -49)%Z, [22278; 22291; 24179]%N);
   ((-1522464706694671, -48)%Z, [22312]%N);
   ((-746968012885559, -48)%Z, [22320]%N);
   ((-1521336548965143, -48)%Z, [22530]%N);
   ((-4914051790990845, -49)%Z, [22604; 22852; 23637; 24367; 24398; 24515; 25955; 26406; 27922; 28133; 28172; 28753;
     29134; 30410; 30447; 33392; 33393; 38671; 38754]%N);
   ((-3373117393643831, -49)%Z, [22615; 24013; 28034]%N);
   ((-4854739093608827, -49)%Z, [22768; 24178; 24185; 27498; 28857; 32070; 32458; 32882; 36234; 38701; 38724;
     40670]%N);
   ((-4801084232327405, -49)%Z, [22823; 27900; 27973; 28154; 28497; 31998; 32416; 33041; 33126; 38534]%N);
   ((-2840533493671669, -49)%Z, [22825]%N);
   ((-4980357745427427, -49)%Z, [22869; 24859; 25026; 26157; 26758; 27813; 28701; 29006; 29233; 30162; 30306]%N);
   ((-3913260232546301, -50)%Z, [22909]%N);
   ((-8510720467623537, -50)%Z, [23068; 23613; 28459; 28548; 30433; 32272; 32457; 35947]%N);
   ((-2205438529658535, -48)%Z, [23113; 28369; 30315; 30322; 30634; 36211]%N);
   ((-1147537643104273, -47)%Z, [23159; 23273; 24691; 24808; 24920; 25031; 31168; 33324; 39003; 39072]%N);
   ((-353128031200873, -46)%Z, [23454; 23526; 26970]%N);
   ((-3905380881246717, -49)%Z, [23481; 24369; 36953; 36965; 38393; 39719]%N);
   ((-8365240991187223, -50)%Z, [23490; 24120]%N);
   ((-3569872035902603, -49)%Z, [23525; 28907; 29145]%N);
   ((-4737022244320135, -50)%Z, [23567]%N);
   ((-8331629542758021, -50)%Z, [23755; 32034; 32156; 32508]%N);
   ((-824359969980365, -47)%Z, [23784]%N);
   ((-5055529236685685, -49)%Z, [23789; 23853; 23940; 24247; 27889; 28698; 36454]%N);
   ((-3971686835683299, -49)%Z, [23803; 24623; 27833; 38597]%N);
   ((-5973949717787721, -50)%Z, [24052]%N);
   ((-6722193306435449, -50)%Z, [24189]%N);
   ((-3365075114676785, -49)%Z, [24322; 30064]%N);
   ((-6706446197899011, -50)%Z, [24352; 24373]%N);
   ((-3636896497077975, -49)%Z, [24403; 30070]%N);
   ((-8472550713750067, -50)%Z, [24420; 28051; 36461]%N);
   ((-6244732599742781, -50)%Z, [24537; 30427]%N);
   ((-2961064624320259, -49)%Z, [24555]%N);
   ((-7730306121602867, -50)%Z, [24591; 27491; 28847]%N);
   ((-3112083823078349, -49)%Z, [24708]%N);
   ((-5403717085285759, -50)%Z, [24736]%N);
   ((-8067223669041015, -50)%Z, [24794; 37030; 40669]%N);
   ((-2051600152637227, -48)%Z, [24822; 28448; 28814; 32048; 32454; 34028]%N);
   ((-3624101629192517, -49)%Z, [25032; 25402; 25758]%N);
   ((-8093716653883113, -50)%Z, [25197; 26114]%N);
   ((-1176760285786859, -47)%Z, [25423; 27987; 28611; 31932; 32323; 32503]%N);
   ((-6812974316885277, -50)%Z, [25463]%N);
   ((-3611591115374689, -49)%Z, [25918]%N);
   ((-1701103074786471, -48)%Z, [25964]%N);
   ((-8298992477692829, -50)%Z, [25972; 30361; 32028; 32429; 37219]%N);
   ((-7637203526436197, -50)%Z, [26003; 26005; 36203]%N);
   ((-8010470879119385, -51)%Z, [26087; 33290]%N);
   ((-6041187598574991, -50)%Z, [26179]%N);
   ((-6821601944595661, -50)%Z, [26263]%N);
   ((-7382397598870541, -50)%Z, [26354]%N);
   ((-3663393150123135, -49)%Z, [26391; 33050; 33139; 34013; 34253]%N);
   ((-7790102468976269, -50)%Z, [26407; 28799; 29158; 32999]%N);
   ((-6653003628043565, -50)%Z, [26429]%N);
   ((-3735665321907917, -49)%Z, [26862; 33831; 34157]%N);
   ((-4275114890665015, -49)%Z, [27575; 28789; 30140; 33067; 33073; 38728]%N);
   ((-5066375773340051, -50)%Z, [27604]%N);
   ((-7286809323020345, -50)%Z, [27668; 27683; 32311; 32533]%N);
   ((-3311783329804867, -49)%Z, [27754]%N);
   ((-22881932014933, -42)%Z, [27784; 27785]%N);
   ((-814945443384935, -47)%Z, [27915]%N);
   ((-895369915668241, -47)%Z, [27985; 28222]%N);
   ((-6255157673362475, -50)%Z, [28107]%N);
   ((-5525624989391905, -50)%Z, [28129]%N);
   ((-6412253824516637, -50)%Z, [28316]%N);
   ((-6959639887618107, -50)%Z, [28372; 31351; 31406]%N);
   ((-178429174911009, -45)%Z, [28378; 28414]%N);
   ((-3712993132264119, -49)%Z, [28422]%N);
   ((-3441960305746763, -49)%Z, [28425]%N);
   ((-7128313517719637, -50)%Z, [28866; 29211]%N);
   ((-1802719297813827, -48)%Z, [28888; 38590; 38627]%N);
   ((-5401261468375931, -50)%Z, [28909; 29105]%N);
   ((-7842276563058393, -51)%Z, [28982]%N);
   ((-7062065004225243, -50)%Z, [29066]%N);
   ((-8236426387454369, -50)%Z, [29255]%N);
   ((-6779110112835563, -50)%Z, [29408; 29791; 33150; 39472]%N);
   ((-7567895500442707, -50)%Z, [29864]%N);
   ((-3087170467820865, -49)%Z, [29983]%N);
   ((-7051392887289837, -50)%Z, [30246]%N);
   ((-1038236184220671, -48)%Z, [30333]%N);
   ((-2748836766732601, -50)%Z, [30340]%N);
   ((-7340433738940443, -50)%Z, [30408]%N);
   ((-1652282961925449, -48)%Z, [30442; 33633]%N);
   ((-807685166670501, -47)%Z, [30452]%N);
   ((-6830296195573429, -50)%Z, [30511; 30599]%N);
   ((-1338310350307837, -48)%Z, [30701]%N);
   ((-6194007809608661, -50)%Z, [31077]%N);
   ((-1864003010358425, -48)%Z, [31167; 31171; 36808; 36993]%N);
   ((-3423944369772447, -49)%Z, [31354; 31756]%N);
   ((-3494700544644345, -49)%Z, [31471; 32027; 32439]%N);
   ((-5906652717574523, -50)%Z, [31946]%N);
   ((-5613920268849697, -50)%Z, [32004; 32422]%N);
   ((-4628230099019311, -50)%Z, [32005; 32418]%N);
   ((-449919073863793, -46)%Z, [32047]%N);
   ((-736897918674045, -47)%Z, [32160; 32511]%N);
   ((-1483469469003037, -48)%Z, [32191; 32501]%N);
   ((-7831807233310507, -50)%Z, [32982]%N);
   ((-67978712937823, -44)%Z, [33391]%N);
   ((-3337798847706515, -49)%Z, [33457]%N);
   ((-3558498922759221, -49)%Z, [33510; 39592]%N);
   ((-5218281420794223, -50)%Z, [33579]%N);
   ((-7186663356800487, -50)%Z, [33592]%N);
   ((-1770929398207077, -48)%Z, [33853]%N);
   ((-6738163785651489, -50)%Z, [33945]%N);
   ((-7174748960891037, -50)%Z, [35064]%N);
   ((-5446303470890703, -50)%Z, [36275]%N);
   ((-7518578131672159, -50)%Z, [36292; 36428]%N);
   ((-1852817102277329, -48)%Z, [36575; 36719]%N);
   ((-3171113559934973, -49)%Z, [36771]%N);
   ((-2914358750840563, -49)%Z, [36793; 37002]%N);
   ((-3357146111016409, -49)%Z, [36828; 36960]%N);
   ((-7749887483101991, -50)%Z, [36836]%N);
   ((-681427650818941, -47)%Z, [36895]%N);
   ((-226903919581025, -45)%Z, [36902; 37008; 38290; 38386]%N);
   ((-6839058106772175, -50)%Z, [37057; 39729]%N);
   ((-1559889009832015, -48)%Z, [37325]%N);
   ((-1171625285118047, -48)%Z, [38263; 38271]%N);
   ((-2877914752382083, -49)%Z, [38275; 38378]%N);
   ((-5703299865892111, -50)%Z, [38544; 38577]%N);
   ((-452226452517655, -46)%Z, [38646]%N);
   ((-1577195522320643, -48)%Z, [38738]%N);
   ((-7502607652456119, -50)%Z, [38745; 38748]%N);
   ((-7673526028202355, -50)%Z, [38914; 39030]%N);
   ((-6499868002738937, -50)%Z, [40635]%N);
   ((-1417917846055573, -48)%Z, [40643; 40644]%N);
   ((-1184595712150687, -48)%Z, [40657]%N);
   ((-3536419624116431, -49)%Z, [40778; 40784]%N)];
  (* ('E', 'zg') *)
  [
]].
