(** * The emission numbers of the tagger, states M

    Generated from jieba/posseg/prob_emit.py, the entries with the key ('M', tag): one row
    per tag, in the order of [pos_tags]; in a row, every number with the characters that
    have it (22885 entries in all).  [(m, e)] is the binary64 number [m * 2^e], the exact
    value of the decimal number in the file as Python reads it. *)
From Verif Require Import PyBase.

Definition pos_emit_M : list (list (Z * Z * list N)) := [
  (* ('M', 'a') *)
  [
   ((-3725392118730029, -49)%Z, [19978; 21517; 23574; 24515]%N);
   ((-2496145706912797, -50)%Z, [19981]%N);
   ((-2616695598536233, -49)%Z, [20026; 28858; 32618]%N);
   ((-10025869591509, -41)%Z, [20154]%N);
   ((-5063579719570563, -50)%Z, [20687]%N);
   ((-429727857203069, -46)%Z, [20809; 28779; 32005; 32418; 33080; 33225]%N);
   ((-2419846778116903, -49)%Z, [20986]%N);
   ((-683145000715535, -47)%Z, [20998]%N);
   ((-6419132587802187, -50)%Z, [21160; 21205; 29609]%N);
   ((-2800900091659863, -49)%Z, [21170; 21185]%N);
   ((-1028899822935091, -47)%Z, [21475; 21608; 31649; 33258; 36913; 38290; 38386]%N);
   ((-302827337837393, -47)%Z, [21512]%N);
   ((-5937873411328099, -50)%Z, [21531; 24859; 29233]%N);
   ((-6994271110013141, -50)%Z, [21547; 36807; 36942]%N);
   ((-4734063028474157, -49)%Z, [21619; 22823; 24691; 24936; 25031; 29983; 30631; 35488; 35802; 36793; 37002]%N);
   ((-8687711710927645, -50)%Z, [22836; 25163; 31528; 38272; 38376; 38957]%N);
   ((-2307882430651299, -50)%Z, [22909]%N);
   ((-301336614831191, -46)%Z, [22914]%N);
   ((-776732095499059, -47)%Z, [24403; 26364; 30070; 31283; 31337; 33922]%N);
   ((-5738934787847125, -51)%Z, [24471]%N);
   ((-7907297364906975, -50)%Z, [24555; 29245; 29702]%N);
   ((-3290124907163161, -49)%Z, [24758; 38391]%N);
   ((-1667592472859847, -48)%Z, [24819]%N);
   ((-1128239966372833, -49)%Z, [24847]%N);
   ((-5757343636545555, -50)%Z, [25104]%N);
   ((-3761047287874371, -50)%Z, [26223]%N);
   ((-6346468672865635, -50)%Z, [27794; 27809]%N);
   ((-5182205114334601, -50)%Z, [27982; 28639]%N);
   ((-7277226001402821, -50)%Z, [30495; 35676; 35889]%N);
   ((-7126883018886305, -50)%Z, [30524; 36259]%N);
   ((-1960265795919921, -49)%Z, [32147; 32463]%N);
   ((-5669448775407589, -51)%Z, [32784]%N);
   ((-75052672726057, -44)%Z, [35201]%N);
   ((-5954195862785867, -51)%Z, [35215; 35268]%N);
   ((-2334387590243785, -49)%Z, [36215]%N);
   ((-5638718241781517, -50)%Z, [36947]%N);
   ((-6496811655382151, -50)%Z, [38754]%N)];
  (* ('M', 'ad') *)
  [
   ((-6748523770383459, -53)%Z, [23454; 23526; 30830; 30906]%N);
   ((-7873435075459281, -51)%Z, [32147; 32463]%N);
   ((-8375909682733683, -51)%Z, [35215; 35268]%N)];
  (* ('M', 'ag') *)
  [
];
  (* ('M', 'an') *)
  [
];
  (* ('M', 'b') *)
  [
   ((-3674419307617017, -50)%Z, [19968]%N);
   ((-5443962443542165, -49)%Z, [19977; 20195; 20316; 20358; 20581; 20840; 21153; 21209; 21464; 21495; 21496; 21551;
     21592; 21729; 21855; 22346; 22686; 24425; 24535; 24847; 25299; 26007; 26085; 26469; 26519; 26550; 26579; 26679;
     27171; 27893; 27915; 27982; 28207; 28608; 28639; 30452; 31350; 32026; 32423; 34180; 34399; 35029; 35352; 35542;
     35722; 35760; 35770; 36629; 36731; 36947; 36951; 36986; 37066; 39080; 39118; 39717]%N);
   ((-2977100753661555, -49)%Z, [19978]%N);
   ((-1804908574610417, -48)%Z, [19979; 20027; 20811; 21830]%N);
   ((-4663548097521495, -49)%Z, [19981; 20215; 20449; 20729; 20826; 21382; 21450; 21943; 22132; 22842; 22890; 24179;
     25289; 25945; 25955; 26009; 26234; 26494; 27511; 27700; 29255; 29992; 30707; 35380; 35672; 35782; 35785; 37428;
     37782; 38083; 38145; 40680]%N);
   ((-7633655594128487, -50)%Z, [19987; 23395; 23560; 24515; 26063; 36000; 36127]%N);
   ((-2022542180393851, -48)%Z, [19994; 20320; 25910; 26223; 26631; 26989; 27161; 27631; 36890]%N);
   ((-3958170732401675, -50)%Z, [20013]%N);
   ((-1468193920296953, -48)%Z, [20135; 29986]%N);
   ((-1206374676702093, -47)%Z, [20154; 21644; 22238; 22661; 22996; 24040; 24052; 24207; 24322; 24490; 25215; 25991;
     27602; 27784; 27785; 27861; 28286; 28771; 29645; 30064; 32852; 32879; 32938; 34255; 36367; 36650; 36718; 37806;
     38215; 38592; 39165; 39281]%N);
   ((-7916610485518167, -50)%Z, [20196; 20363; 20843; 22721; 22788; 25552; 30001; 31237; 31246; 31570; 34389; 36828;
     36960]%N);
   ((-2047033705705569, -48)%Z, [20225; 26029; 26039; 29615; 29872]%N);
   ((-7263792895727249, -50)%Z, [20256; 20659; 28010; 29616; 29694; 37096]%N);
   ((-3654877187777367, -49)%Z, [20302; 35199]%N);
   ((-2174256207884709, -48)%Z, [20303; 22242; 22296; 22830; 23625; 23644; 24072; 24107; 25622; 25671; 26080; 28961;
     32113; 32129; 32340; 32455; 32465; 32479; 32622; 38498; 40232; 40493]%N);
   ((-6355781793476827, -50)%Z, [20307; 38556; 39636]%N);
   ((-8414069940149157, -50)%Z, [20493; 23556; 24215; 25163; 25265; 25509; 25925; 32844; 32887]%N);
   ((-2526877635265915, -48)%Z, [20648; 20786; 20808; 21015; 21333; 21407; 21516; 21560; 21934; 22120; 23507; 24034;
     25773; 26149; 26415; 27833; 27987; 28611; 29123; 29245; 31283; 31337; 32676; 32789; 32982; 33402; 34269; 34899;
     36896; 37397; 37749; 38062; 38190; 38453; 38499]%N);
   ((-4000024322231169, -49)%Z, [20837; 20859; 27583; 31435; 32780; 39178]%N);
   ((-707350700800041, -47)%Z, [20844]%N);
   ((-3730048679035625, -49)%Z, [20851; 38364; 38454; 38542]%N);
   ((-7766267503001651, -50)%Z, [20891; 21010; 21123; 23610; 27463; 36557]%N);
   ((-5784671539988155, -50)%Z, [20892; 36786]%N);
   ((-6205438810960311, -50)%Z, [20945; 25919; 26799; 28234]%N);
   ((-408083751845879, -46)%Z, [21033; 37504; 38134]%N);
   ((-2695189328656675, -49)%Z, [21046]%N);
   ((-4435291533798037, -49)%Z, [21147; 21161; 23548; 23566; 25720; 26723; 27284; 31185; 32097; 32476; 34013; 34253;
     35657; 35777; 37325; 38598]%N);
   ((-7969555107488467, -51)%Z, [21151]%N);
   ((-4635848207720225, -50)%Z, [21160; 21205]%N);
   ((-8546681849022321, -50)%Z, [21306; 21312; 21439; 22855; 23384; 23453; 23542; 24565; 27954; 30408; 31163; 31934;
     32291; 35013; 35037; 36208; 38626]%N);
   ((-3588571233340785, -49)%Z, [21381; 22320; 24231; 24307; 24320; 35302; 35320; 36291; 36493; 38283]%N);
   ((-1893195328684261, -48)%Z, [21457; 22235; 22612; 30332; 38469; 38555]%N);
   ((-6417773591477973, -50)%Z, [21472; 30090]%N);
   ((-5105529905246947, -50)%Z, [21475]%N);
   ((-259232642043285, -45)%Z, [21488; 22343; 23646; 23660; 24237; 29664; 30913; 33740; 35336; 35745]%N);
   ((-1658105067927585, -49)%Z, [21512]%N);
   ((-2910794799224973, -49)%Z, [21521]%N);
   ((-1514324250495825, -48)%Z, [21544; 22136]%N);
   ((-4537929445702895, -49)%Z, [21697; 23574; 24375; 24378; 25345; 25480; 26438; 26751; 27495; 30011; 30059; 31684;
     32599; 32645; 33539; 35433; 35799; 36817]%N);
   ((-171221188760911, -45)%Z, [22269; 22283; 24120]%N);
   ((-7058517071917533, -50)%Z, [22797; 31243]%N);
   ((-5066477438739597, -50)%Z, [22823; 34892]%N);
   ((-2324508388900015, -49)%Z, [22825]%N);
   ((-3396183484358187, -49)%Z, [23376; 30865]%N);
   ((-3703860238400803, -49)%Z, [23383; 27494; 40801; 40836]%N);
   ((-7021599013455741, -50)%Z, [23398; 23416]%N);
   ((-1683653963335945, -48)%Z, [23448; 30701; 31680; 33410; 39340; 39532]%N);
   ((-3068590777452409, -49)%Z, [23450]%N);
   ((-8858237343513061, -51)%Z, [23478]%N);
   ((-7698010246946157, -50)%Z, [23494; 24352; 24373; 27969]%N);
   ((-797008603392967, -47)%Z, [23545; 23565; 33021]%N);
   ((-1379152878205725, -48)%Z, [23553]%N);
   ((-2233018365109161, -49)%Z, [23567]%N);
   ((-7096686825791003, -50)%Z, [23616]%N);
   ((-271362241433227, -46)%Z, [23618; 23652]%N);
   ((-3475603674677345, -49)%Z, [24037]%N);
   ((-1669920753012645, -48)%Z, [24066; 26041; 36031; 36152]%N);
   ((-6553044060988623, -50)%Z, [24067]%N);
   ((-646723395162805, -47)%Z, [24102; 24118]%N);
   ((-988349990736607, -48)%Z, [24180]%N);
   ((-7136196139497497, -50)%Z, [24343; 26680; 36874; 36956]%N);
   ((-3678836120732057, -49)%Z, [24930; 26059; 30005; 31348; 36617; 36733; 38651]%N);
   ((-6316272479770333, -50)%Z, [25216]%N);
   ((-7838931417938203, -50)%Z, [25311; 25836; 26126; 26412; 27835; 28857; 28909; 29105; 32302; 32553; 32905; 38928;
     39044; 40670]%N);
   ((-5968363957038007, -50)%Z, [25658; 25884; 26800]%N);
   ((-6506124775993343, -50)%Z, [25918; 32004; 32422]%N);
   ((-432349743807843, -46)%Z, [26032]%N);
   ((-4794953101435487, -50)%Z, [26102; 26178]%N);
   ((-1260293813107319, -48)%Z, [26143]%N);
   ((-3052272244919813, -49)%Z, [26377]%N);
   ((-5238969986211031, -50)%Z, [26426; 27231]%N);
   ((-4223842847946815, -50)%Z, [27491]%N);
   ((-5488344758560223, -50)%Z, [27668; 27683]%N);
   ((-1705598186405459, -48)%Z, [27745]%N);
   ((-5760715319058503, -50)%Z, [28304]%N);
   ((-3757515099682225, -49)%Z, [28856; 32005; 32418]%N);
   ((-6278102725896863, -50)%Z, [29151; 31561; 33829]%N);
   ((-2949634333014955, -49)%Z, [29305]%N);
   ((-327903192264937, -46)%Z, [29702]%N);
   ((-5575367447456157, -50)%Z, [29983]%N);
   ((-5565359382387151, -50)%Z, [30028]%N);
   ((-6461082773478571, -50)%Z, [31449; 31569; 31689]%N);
   ((-6853241248107817, -50)%Z, [31639]%N);
   ((-576245538911585, -47)%Z, [31995]%N);
   ((-5407568302763127, -50)%Z, [32048; 32454]%N);
   ((-3326595013604241, -49)%Z, [32147; 32463]%N);
   ((-4270182717933077, -50)%Z, [32218; 32447]%N);
   ((-2579900323596657, -49)%Z, [33258]%N);
   ((-1066162411646083, -49)%Z, [35215; 35268]%N);
   ((-382546547999783, -46)%Z, [36076; 36134]%N);
   ((-5535858133749663, -50)%Z, [36234]%N);
   ((-860619854482537, -47)%Z, [36681; 36716]%N);
   ((-5425024464939641, -50)%Z, [37327]%N);
   ((-1452287147229211, -48)%Z, [37329]%N);
   ((-5616313774640231, -50)%Z, [38263; 38271]%N);
   ((-1203810033775599, -48)%Z, [39640]%N)];
  (* ('M', 'bg') *)
  [
];
  (* ('M', 'c') *)
  [
   ((-4736446113007869, -51)%Z, [19968]%N);
   ((-354953721534409, -46)%Z, [19978]%N);
   ((-4178420338215157, -50)%Z, [19979]%N);
   ((-4218329829607343, -50)%Z, [19981]%N);
   ((-2306373763984763, -49)%Z, [20043]%N);
   ((-5169725980568195, -50)%Z, [20307; 39636]%N);
   ((-2497440868241059, -49)%Z, [20358; 26469]%N);
   ((-7027753456074221, -50)%Z, [20854]%N);
   ((-5302961983801909, -49)%Z, [21069]%N);
   ((-491005354250267, -46)%Z, [21152]%N);
   ((-5050200225974615, -50)%Z, [21477; 35441; 35805]%N);
   ((-4888273290744713, -50)%Z, [21487]%N);
   ((-5664861008900815, -51)%Z, [21516]%N);
   ((-8265365880736159, -51)%Z, [22240]%N);
   ((-2033017255167161, -48)%Z, [22320]%N);
   ((-307970756143543, -46)%Z, [22914]%N);
   ((-6555710428523457, -50)%Z, [23545; 23565]%N);
   ((-664515321105, -37)%Z, [23601]%N);
   ((-2961718945739899, -49)%Z, [24688; 30456]%N);
   ((-5969262416199693, -51)%Z, [25152]%N);
   ((-4454196247321717, -50)%Z, [25509]%N);
   ((-3338469073237125, -51)%Z, [26041]%N);
   ((-8725218398876917, -51)%Z, [26159]%N);
   ((-7205227869668737, -50)%Z, [26377; 29978]%N);
   ((-7818063854777321, -51)%Z, [26524]%N);
   ((-4961262857614717, -51)%Z, [27492]%N);
   ((-2600850473143277, -49)%Z, [28982]%N);
   ((-2193531041767875, -49)%Z, [30340]%N);
   ((-8196423673486315, -50)%Z, [30475]%N);
   ((-8243953993759131, -51)%Z, [32773]%N);
   ((-4577602540593607, -50)%Z, [32780]%N);
   ((-4771754351051317, -50)%Z, [33267]%N);
   ((-2691115360534549, -49)%Z, [35328]%N);
   ((-7449620775894847, -50)%Z, [35498; 35828]%N);
   ((-8523429756635547, -51)%Z, [35542; 35770]%N);
   ((-1171124561767029, -47)%Z, [36215]%N);
   ((-6834267267809615, -50)%Z, [36807; 36942]%N)];
  (* ('M', 'd') *)
  [
   ((-3107860755631447, -51)%Z, [19968]%N);
   ((-1340216729265157, -47)%Z, [19977; 23454; 23526]%N);
   ((-6317187496743505, -50)%Z, [19979]%N);
   ((-754189145441657, -48)%Z, [19981]%N);
   ((-2735584096247115, -49)%Z, [20010; 20491]%N);
   ((-1856629553495335, -48)%Z, [20108]%N);
   ((-4435275860207807, -50)%Z, [20165; 20677]%N);
   ((-6904906037057013, -50)%Z, [20250; 26371]%N);
   ((-2927840728435497, -49)%Z, [20307; 39636]%N);
   ((-2192191335579217, -50)%Z, [20358; 26469]%N);
   ((-2290226285519979, -48)%Z, [20839; 20869; 29408; 32780]%N);
   ((-1729407051316195, -48)%Z, [20854]%N);
   ((-5589123480784087, -49)%Z, [20919; 32929; 36953; 36965]%N);
   ((-2989665326897211, -48)%Z, [20934; 21046; 22823; 24102; 24118; 28310; 33050; 33139]%N);
   ((-5551886128064339, -50)%Z, [21017; 21063]%N);
   ((-2896355752321065, -49)%Z, [21170; 21185]%N);
   ((-6230537067697827, -50)%Z, [21254]%N);
   ((-4046167716980127, -49)%Z, [21475]%N);
   ((-5073297655955151, -49)%Z, [21476; 22842; 22890; 25384; 26631; 27161; 27427; 38272; 38376]%N);
   ((-8765797957876327, -51)%Z, [21487]%N);
   ((-5943727670979503, -50)%Z, [22320]%N);
   ((-4972950300713075, -50)%Z, [22359; 22602]%N);
   ((-649864538471719, -46)%Z, [22806; 24581; 24757]%N);
   ((-2825618124519539, -49)%Z, [22810; 25110]%N);
   ((-7175280910344139, -50)%Z, [22825; 31389; 31401; 33258]%N);
   ((-6237508606423133, -50)%Z, [22836; 38957]%N);
   ((-106015879631119, -44)%Z, [22856; 24052]%N);
   ((-853931467445377, -47)%Z, [23450]%N);
   ((-3091454411172429, -49)%Z, [23481]%N);
   ((-7128033422487813, -50)%Z, [23601]%N);
   ((-4369511188537293, -50)%Z, [24133]%N);
   ((-414755987680729, -46)%Z, [24418]%N);
   ((-6592115979089933, -51)%Z, [24471]%N);
   ((-4883880626021675, -49)%Z, [24537]%N);
   ((-4808709134763417, -49)%Z, [24576; 25079; 26127; 39340; 39532]%N);
   ((-2209250980876541, -48)%Z, [24618]%N);
   ((-4028294788742747, -49)%Z, [24763]%N);
   ((-204971286845773, -45)%Z, [24847]%N);
   ((-4167264658115881, -49)%Z, [26041; 35352; 35760]%N);
   ((-4742403180326835, -49)%Z, [26089; 27491]%N);
   ((-8160137284454345, -51)%Z, [26102; 26178]%N);
   ((-2041855811573879, -48)%Z, [26126; 36947]%N);
   ((-3496522486705639, -50)%Z, [26412]%N);
   ((-1544066581437865, -48)%Z, [26465; 26781]%N);
   ((-6461115077817863, -50)%Z, [26681]%N);
   ((-5082764807194067, -50)%Z, [27425]%N);
   ((-4064626746211023, -49)%Z, [28145; 36523]%N);
   ((-7112714820105679, -50)%Z, [28316]%N);
   ((-1313246142034643, -48)%Z, [28857; 40670]%N);
   ((-4384373333725335, -49)%Z, [29983]%N);
   ((-8375992059123869, -51)%Z, [30001]%N);
   ((-1059807112163265, -47)%Z, [30340; 30830; 30906]%N);
   ((-1123418363252835, -47)%Z, [30495]%N);
   ((-6251582538514899, -50)%Z, [30529; 30556]%N);
   ((-7750419432555093, -50)%Z, [32396; 32493; 38470; 38520]%N);
   ((-3961988834306165, -49)%Z, [32769]%N);
   ((-4565245430607347, -50)%Z, [33021]%N);
   ((-2439580970231547, -49)%Z, [33267]%N);
   ((-385603924269149, -46)%Z, [35211; 35265]%N);
   ((-7140547937441, -40)%Z, [35215; 35268]%N);
   ((-118388456195279, -44)%Z, [35336; 35745]%N);
   ((-3665114403437167, -49)%Z, [36000; 36127; 36317]%N);
   ((-6666390901627579, -50)%Z, [36319]%N);
   ((-6332300474085009, -50)%Z, [36367]%N);
   ((-7600076450038577, -50)%Z, [36681; 36716]%N);
   ((-5598481739086759, -50)%Z, [36807; 36942]%N);
   ((-2435471038732907, -50)%Z, [38469; 38555]%N);
   ((-637557009851001, -47)%Z, [38754]%N);
   ((-4103466280001005, -49)%Z, [39015; 39038]%N);
   ((-7893129166126349, -50)%Z, [39592]%N)];
  (* ('M', 'df') *)
  [
];
  (* ('M', 'dg') *)
  [
];
  (* ('M', 'e') *)
  [
   ((0, 0)%Z, [23478]%N)];
  (* ('M', 'en') *)
  [
];
  (* ('M', 'f') *)
  [
   ((-8219703731368829, -51)%Z, [19978]%N);
   ((-4295715141235721, -50)%Z, [19979]%N);
   ((-4668790109738467, -50)%Z, [19996; 26481]%N);
   ((-4923383302318729, -50)%Z, [20013]%N);
   ((-2711355735458519, -49)%Z, [20839; 20869]%N);
   ((-5346779339152001, -50)%Z, [21069]%N);
   ((-7699875475407481, -53)%Z, [21271]%N);
   ((-2620115743466967, -51)%Z, [21335]%N);
   ((-8285937912596119, -51)%Z, [21518; 24460]%N);
   ((-6342302758445601, -50)%Z, [21608; 36913]%N);
   ((-1421779336158511, -48)%Z, [23545; 23565]%N);
   ((-6608452861646759, -50)%Z, [24403; 30070]%N);
   ((-4439205394704331, -50)%Z, [33050; 33139]%N);
   ((-4963452346859753, -51)%Z, [35199]%N);
   ((-8877031984772217, -50)%Z, [36793; 37002]%N);
   ((-3922690167557173, -49)%Z, [38291; 38388]%N)];
  (* ('M', 'g') *)
  [
];
  (* ('M', 'h') *)
  [
];
  (* ('M', 'i') *)
  [
   ((-2276116739924765, -49)%Z, [19968]%N);
   ((-5487832964981017, -49)%Z, [19969; 20139; 20141; 21483; 23388; 23472; 24930; 25169; 25447; 25454; 25778; 25818;
     26274; 28149; 28170; 28796; 28865; 28976; 29197; 30021; 30355; 30406; 30520; 30765; 31383; 32618; 32918; 33251;
     33292; 34411; 34802; 34893; 38663; 40681; 40695]%N);
   ((-3939561298093379, -49)%Z, [19971; 27915]%N);
   ((-6271655394888727, -50)%Z, [19975; 33836]%N);
   ((-1380490398252191, -47)%Z, [19976; 20104; 20130; 20142; 20581; 21472; 21863; 22038; 23458; 23460; 23486; 23782;
     24018; 24086; 25103; 25138; 25958; 26021; 26194; 26348; 26415; 26725; 27211; 28431; 29282; 30090; 30722; 31807;
     32784; 32993; 33733; 34444; 34633; 34796; 34899; 35910; 36022; 36051; 36140; 37782; 37848; 37946; 38107; 38145;
     38197; 38480; 38548; 38662; 38761; 38860; 38887; 39087; 39122; 40198; 40489]%N);
   ((-3427131863376131, -49)%Z, [19977; 27491]%N);
   ((-6383644928627089, -50)%Z, [19978]%N);
   ((-914380405966859, -47)%Z, [19979]%N);
   ((-6714154654554693, -51)%Z, [19981]%N);
   ((-8437456330209191, -50)%Z, [19982; 20307; 24594; 33287; 35542; 35770; 39636]%N);
   ((-5732895252919077, -49)%Z, [19985; 19992; 20083; 20238; 20248; 20778; 21254; 21533; 21549; 21705; 22260; 22285;
     23673; 24859; 25288; 25805; 26829; 27744; 29233; 29492; 29536; 30414; 30865; 30928; 31203; 33030; 33181; 33433;
     33899; 34957; 35616; 35628; 35875; 35884; 36060; 36176; 36869; 37264; 37276; 38686; 38928; 39044; 40613;
     40614]%N);
   ((-2646852514642653, -48)%Z, [19987; 20508; 20542; 20670; 20826; 21280; 21307; 21490; 21733; 22066; 23560; 24833;
     25206; 25545; 25758; 26679; 27171; 27523; 27900; 28497; 29088; 29980; 31350; 31461; 31918; 31975; 32908; 32937;
     33948; 34108; 34276; 34297; 37291; 39184; 40680]%N);
   ((-5006135768179829, -49)%Z, [19988; 20025; 20426; 21319; 22330; 22580; 24119; 25361; 25484; 25975; 27975; 28526;
     28550; 30651; 34218; 36926; 37096]%N);
   ((-1697028137625601, -48)%Z, [19990]%N);
   ((-6692583112039769, -49)%Z, [19993; 20018; 20054; 20114; 20511; 20520; 20538; 20661; 20711; 20892; 20984; 21295;
     21827; 21884; 22120; 22266; 22363; 22727; 22871; 23495; 23721; 24029; 24090; 24335; 24464; 24574; 24858; 24894;
     25285; 25324; 25386; 25419; 25462; 25703; 25705; 25812; 25874; 25890; 25949; 26044; 26257; 26352; 26364; 27048;
     27197; 27533; 27603; 27719; 27792; 28120; 28507; 28508; 28921; 29425; 29508; 29575; 29738; 29748; 29788; 30044;
     30072; 30385; 30394; 30568; 30733; 31234; 31454; 31478; 32187; 32509; 32560; 32573; 32791; 33034; 33040; 33229;
     33255; 33336; 33628; 33722; 34045; 34562; 34928; 34946; 35010; 35032; 35099; 35128; 35433; 35522; 35730; 35799;
     35844; 35863; 35961; 36031; 36152; 36302; 36441; 36705; 36756; 36786; 36801; 36983; 37984; 38069; 38084; 38307;
     38401; 38657; 38717; 38739; 38742; 38746; 38849; 38876; 38892; 39361; 39524; 39530; 39539; 39562; 39591; 39912;
     40120; 40219; 40367; 40499]%N);
   ((-4732819165899837, -49)%Z, [19994; 20339; 21021; 22839; 23789; 25346; 25499; 26495; 26989; 28139; 28789; 29081;
     29701; 29807; 31363; 31434; 36203; 36866; 36969; 38728]%N);
   ((-759264921913247, -46)%Z, [19995; 20063; 20315; 20625; 21170; 21185; 21451; 21474; 21617; 22317; 22367; 22707;
     22934; 24343; 25200; 25226; 25302; 25329; 25423; 25496; 25597; 25854; 25900; 26480; 26609; 26834; 27529; 27987;
     28201; 28331; 28611; 30000; 30585; 30871; 31398; 31431; 31921; 32961; 33029; 33162; 33647; 33831; 34013; 34157;
     34253; 34277; 34429; 34569; 34926; 34974; 35009; 35582; 35834; 36196; 36814; 37240; 38614; 39173; 39292; 39341;
     39533; 39873; 40096]%N);
   ((-2226110755172005, -48)%Z, [19996; 22467; 25955; 26481; 36920]%N);
   ((-3698747709216219, -49)%Z, [19997; 20840; 32114]%N);
   ((-7235826415417553, -50)%Z, [20004; 20841; 20853]%N);
   ((-5270724289371563, -49)%Z, [20005; 20731; 21592; 21729; 22196; 23385; 23403; 24067; 24124; 24151; 24846; 25554;
     25605; 25898; 26114; 27849; 27973; 28154; 31563; 32177; 32434; 33593; 34398; 34542; 34875; 36198; 36797; 36988;
     38358; 38383; 40575; 40607]%N);
   ((-4067300291226255, -49)%Z, [20006; 20852; 24182; 33288; 35264; 35266]%N);
   ((-2138634584744627, -48)%Z, [20007; 21930; 24545; 32156; 32508; 36924]%N);
   ((-6772164693118711, -50)%Z, [20013]%N);
   ((-5168086377466705, -49)%Z, [20016; 20915; 20987; 21246; 21508; 21542; 21671; 23431; 23553; 23578; 24815; 24931;
     24942; 25259; 25802; 25970; 26262; 26633; 27355; 27770; 30086; 30246; 31729; 31852; 32026; 32311; 32423; 32533;
     34385; 34913; 35920; 35998; 36126; 36259; 38660]%N);
   ((-7797499917195491, -50)%Z, [20020; 33256]%N);
   ((-324198203400215, -45)%Z, [20024; 20462; 22971; 22995; 23588; 24052; 25513; 26522; 28246; 29572; 30566; 31665;
     32020; 32043; 32340; 32431; 32455; 35895; 36074; 36136; 38475]%N);
   ((-2732574754546397, -49)%Z, [20026; 28858]%N);
   ((-5638852163739107, -49)%Z, [20027; 20171; 20901; 21340; 21697; 21746; 24808; 24920; 24951; 26216; 27595; 28205;
     29157; 29238; 29503; 30338; 30353; 30362; 31067; 32093; 32468; 33014; 33184; 33502; 34579; 36084; 36182; 36454;
     36776; 36894; 37030; 37194; 38281; 38381; 38450; 39166; 39280; 39511; 39564]%N);
   ((-4387672031446035, -49)%Z, [20029; 24324; 25140; 26263; 38468; 40599]%N);
   ((-961094946492625, -47)%Z, [20030; 20247; 30526; 33289; 38750]%N);
   ((-6464326548316311, -49)%Z, [20035; 20064; 20221; 20687; 20801; 20857; 20889; 21155; 21281; 21368; 21536; 21568;
     22435; 22549; 22702; 23146; 23427; 23531; 23707; 23798; 24473; 24617; 25199; 25439; 25613; 25645; 26647; 26688;
     27498; 27584; 27585; 28068; 28364; 28851; 29322; 29346; 29422; 29454; 29509; 29557; 30105; 30529; 30556; 30610;
     30622; 31229; 31330; 31485; 31579; 31637; 31721; 32039; 32057; 32202; 32461; 32722; 32989; 33586; 35469; 35492;
     35748; 35823; 35925; 36323; 36831; 36978; 38348; 38411; 38417; 38477; 38589; 38598; 38603; 39214; 39438; 39569;
     39721; 40288; 40516]%N);
   ((-8103178080511403, -50)%Z, [20037; 22269; 22283; 25351]%N);
   ((-885348785631263, -46)%Z, [20040; 20133; 20140; 20214; 20234; 20280; 20506; 20558; 20848; 20934; 20989; 21269;
     21360; 21400; 21471; 21478; 21632; 21983; 22121; 22351; 22359; 22418; 22602; 22744; 22750; 22993; 24033; 24186;
     24604; 24789; 24976; 25194; 25242; 25282; 25402; 25451; 25581; 25771; 25773; 25806; 26185; 26187; 26333; 26355;
     26429; 26485; 26512; 26530; 27053; 27073; 27082; 27084; 27166; 27586; 27597; 27779; 27837; 27850; 27863; 28310;
     28316; 28418; 28844; 28966; 29261; 29272; 29615; 29642; 29730; 29872; 30068; 30087; 30597; 30697; 30923; 31177;
     31389; 31401; 31503; 31895; 31958; 32011; 32232; 32283; 32441; 32534; 32538; 32609; 32673; 32680; 32902; 32920;
     33704; 33770; 33993; 34001; 34092; 34349; 34923; 35491; 35611; 35712; 35762; 35820; 35835; 35997; 36125; 36229;
     36674; 36932; 37255; 37365; 37509; 37624; 37860; 38039; 38108; 38191; 38210; 38593; 39156; 39244; 39284; 39316;
     39391; 39543; 39711; 40169; 40379; 40480; 40536; 40699; 40860; 40863]%N);
   ((-7976319377344359, -50)%Z, [20041; 32681]%N);
   ((-1134879685743195, -48)%Z, [20043]%N);
   ((-2294231087261447, -48)%Z, [20044; 20056; 28879; 30031; 37666; 38065]%N);
   ((-4903497856274971, -49)%Z, [20045; 21367; 23380; 24092; 24159; 24213; 25260; 30518; 33485; 33980; 36027; 36153;
     36234]%N);
   ((-995891038332025, -47)%Z, [20046; 35373; 35774]%N);
   ((-2671344039954371, -48)%Z, [20047; 20094; 20658; 22265; 23418; 24813; 24922; 25102; 25964; 26023; 27875; 27899;
     28681; 31909; 32768; 36677; 36757; 39759; 40306; 40522]%N);
   ((-7516734215503581, -50)%Z, [20048; 21322; 27138]%N);
   ((-8524106759254869, -50)%Z, [20061]%N);
   ((-2727827819286091, -48)%Z, [20062; 20430; 20517; 21330; 23130; 23194; 23702; 23943; 24357; 24396; 25315; 25340;
     25453; 25536; 26096; 26391; 27721; 28193; 28369; 28450; 28707; 28846; 28891; 29165; 29664; 30196; 30416; 30860;
     32032; 32216; 32353; 32399; 32483; 32516; 32544; 33464; 35657; 35777; 37233; 37292; 38013; 38075; 40573]%N);
   ((-570284216736009, -46)%Z, [20065; 20439; 21388; 21421; 21464; 24361; 29926; 35722; 37129]%N);
   ((-8823261928801451, -50)%Z, [20070; 24868; 24996; 26360; 32789]%N);
   ((-2375206391904885, -48)%Z, [20080; 24535; 25830; 25968; 25976; 28825; 31661; 32670; 36023; 36991; 38290; 38386;
     38738; 39493; 39537]%N);
   ((-3596800110032345, -49)%Z, [20081; 20098]%N);
   ((-7257548630804403, -50)%Z, [20102]%N);
   ((-4479162055236889, -49)%Z, [20105; 20860; 22818; 25925; 26790; 27745; 29229; 31179]%N);
   ((-3312695167265325, -49)%Z, [20107]%N);
   ((-3801385621121077, -49)%Z, [20108]%N);
   ((-6619844018354989, -50)%Z, [20110]%N);
   ((-2457674936001125, -48)%Z, [20111; 20165; 20240; 20677; 21073; 21133; 21253; 22179; 22210; 22635; 24265; 24339;
     25343; 25480; 26025; 26028; 28378; 28414; 28572; 28734; 30952; 34407; 39748; 40023; 40158; 40786; 40831]%N);
   ((-7216863442414691, -50)%Z, [20113; 38642]%N);
   ((-464622102773459, -46)%Z, [20116; 33510]%N);
   ((-8570068239082355, -50)%Z, [20117; 21326; 21531; 23494; 24656; 28129; 33775; 40718]%N);
   ((-5065448465561847, -49)%Z, [20129; 21917; 21943; 22132; 22434; 24187; 24799; 26089; 26379; 28937; 30201; 30202;
     33521; 33976; 37656; 38180; 38604]%N);
   ((-7122232180859351, -50)%Z, [20132]%N);
   ((-4568707517669647, -49)%Z, [20134; 26009; 33108; 36424; 37941; 38081]%N);
   ((-2798566542133511, -48)%Z, [20136; 20184; 20811; 21038; 23059; 23138; 24314; 25374; 25787; 26420; 26635; 26847;
     27192; 27704; 27901; 27966; 28580; 31471; 31995; 33104; 33590; 33643; 34093; 36530; 36626; 36740; 36930; 36974;
     39509; 39556; 39699; 39714]%N);
   ((-4426511565236017, -49)%Z, [20146; 21514; 31036; 31150; 31351; 31406; 35242]%N);
   ((-77745708966359, -44)%Z, [20154]%N);
   ((-2223492364414027, -48)%Z, [20161; 20167; 23803; 27888]%N);
   ((-4595204170714807, -49)%Z, [20166; 20693; 24037; 26381; 26399]%N);
   ((-130477320674963, -44)%Z, [20170; 21153; 21209; 22842; 22890; 25720]%N);
   ((-4056777555817719, -49)%Z, [20174; 24478; 25130; 32599; 32645; 38706]%N);
   ((-3151187969514717, -48)%Z, [20182; 20255; 20493; 20553; 20754; 20911; 20939; 21018; 21083; 21220; 21525; 21570;
     22374; 22737; 23487; 23604; 23607; 23815; 23896; 23992; 24030; 24093; 24800; 24935; 25215; 25305; 25352; 25463;
     25588; 26052; 27788; 27905; 27927; 27985; 28222; 28500; 28698; 29038; 29468; 30152; 30320; 30431; 30505; 31392;
     31532; 32350; 32469; 33278; 33446; 34310; 34606; 34849; 35380; 35785; 36070; 36171; 36305; 36879; 36943; 37145;
     37197; 37559; 38144; 38317; 38398; 38463; 38471; 38556; 38580; 38935; 38969; 39047; 39059; 39342; 39378; 39545;
     40478; 40510; 40823; 40844]%N);
   ((-5912168766019099, -49)%Z, [20183; 20957; 21050; 21085; 21093; 21413; 21414; 21547; 21627; 22368; 22609; 22684;
     23389; 24034; 24062; 24264; 24675; 24751; 24753; 25003; 25197; 25919; 26070; 27889; 28180; 28417; 28422; 29756;
     29854; 29898; 30408; 30501; 30502; 31574; 32019; 32210; 32218; 32365; 32446; 32447; 32490; 32771; 32959; 32982;
     33131; 33575; 34107; 35065; 35524; 35846; 36068; 36145; 40289; 40521]%N);
   ((-1342219130135891, -47)%Z, [20185; 20415; 21830; 22007; 22094; 22353; 23047; 23241; 23308; 23429; 23615; 24341;
     25379; 25497; 25527; 25842; 27495; 27713; 36010; 36138; 37707; 38149; 39154; 39278]%N);
   ((-3667875018277555, -49)%Z, [20195]%N);
   ((-4602027890061893, -49)%Z, [20196; 21163; 23562; 25151; 36524]%N);
   ((-2973369697448581, -49)%Z, [20197]%N);
   ((-5845862811582517, -49)%Z, [20202; 20210; 20225; 20266; 20302; 20432; 20565; 20605; 20736; 20820; 21375; 21560;
     21574; 21576; 21972; 22253; 22290; 22774; 22778; 23631; 23663; 23961; 24871; 25170; 25504; 25620; 26597; 26874;
     27524; 27606; 27735; 27978; 28218; 28609; 29432; 30157; 30420; 31397; 31418; 32239; 32428; 32946; 33495; 33579;
     33631; 34184; 34900; 35575; 35773; 36093; 36187; 36935; 37526; 37532; 38114; 38752; 38772; 38829; 39522;
     39540]%N);
   ((-2370773623494047, -48)%Z, [20208; 21407; 22475; 24643; 28357; 28781; 30683; 32380; 32487; 35475; 39764]%N);
   ((-7896182012047951, -50)%Z, [20215; 20729; 23433]%N);
   ((-1126864238196415, -47)%Z, [20219; 21313; 29467; 33324]%N);
   ((-1241355713778045, -47)%Z, [20239; 20621; 21448; 22659; 23736; 24377; 24392; 25788; 26059; 27010; 29916; 30609;
     31034; 33026; 36865; 37034; 39138; 39269]%N);
   ((-4360205610799435, -49)%Z, [20250; 26371; 30011; 30059]%N);
   ((-608671153530903, -46)%Z, [20256; 20659; 21467; 21696; 22402; 24758; 25972; 26174; 26202; 32874; 32880; 38391;
     39023]%N);
   ((-4715758770813025, -49)%Z, [20260; 20663; 21891; 24555; 27627; 29151; 33829; 38453; 38499]%N);
   ((-8370017018183019, -50)%Z, [20262; 20523]%N);
   ((-4768574034692849, -49)%Z, [20278; 21676; 24066; 24109; 25551; 27054; 28151; 30922; 33635; 36042; 36156; 36339;
     37257; 38745; 38748; 38914; 39030; 39347; 39381; 39405; 39536; 39550; 39559]%N);
   ((-2191500110394025, -48)%Z, [20284; 24537; 26465; 26781]%N);
   ((-5683912202295641, -49)%Z, [20301; 20839; 20869; 21422; 21646; 22307; 23421; 23618; 23652; 24285; 25134; 25342;
     25443; 25623; 25644; 26472; 26954; 27424; 30460; 31186; 31561; 31881; 32002; 32419; 32854; 32932; 33099; 33178;
     33406; 33615; 34507; 35029; 35413; 35465; 35709; 35780; 36028; 36062; 36148; 36175; 36650; 36718; 37101; 37428;
     37648; 38083; 38181; 38971; 39057]%N);
   ((-4847714637246925, -49)%Z, [20303; 20940; 21364; 21371; 22882; 24323; 24494; 24724; 24820; 26820; 30757; 31105;
     31227; 35215; 35268]%N);
   ((-2548812895985341, -48)%Z, [20308; 21344; 21387; 22278; 22291; 22352; 22696; 22739; 22989; 22999; 23614; 24573;
     25810; 26757; 27754; 29408; 29649; 29903; 30423; 30428; 31185; 31809; 31839; 32097; 32313; 32476; 32549; 34255;
     35477; 35806; 36963; 40372; 40548]%N);
   ((-8098025211531591, -50)%Z, [20309]%N);
   ((-8275875865699981, -50)%Z, [20313; 22812; 24822; 39192]%N);
   ((-6412035235306323, -50)%Z, [20316]%N);
   ((-584405161568939, -46)%Z, [20351; 21051; 21644; 22805; 26696; 28949; 29029; 29579; 33039; 33247]%N);
   ((-2445945114752305, -48)%Z, [20355; 20961; 25822; 25851; 26691; 26862; 31373; 31429; 36487; 37326; 37912; 38047;
     38920; 39035]%N);
   ((-210847151964135, -45)%Z, [20358; 26469]%N);
   ((-8047753472489773, -50)%Z, [20381; 28304]%N);
   ((-5396342941190163, -49)%Z, [20391; 20596; 20900; 21650; 21719; 22057; 22362; 22533; 23267; 23517; 23522; 23681;
     24220; 24974; 25114; 25320; 25381; 25582; 25670; 25765; 25850; 25928; 26144; 26448; 26666; 27506; 30151; 32287;
     32539; 32709; 32858; 35219; 35269; 35937; 36426; 36784; 38669; 38712]%N);
   ((-1306849768712181, -47)%Z, [20419; 20805; 21496; 22840; 23186; 24825; 25308; 25490; 26550; 28044; 28263; 28525;
     29306; 29351; 30636; 30828; 31283; 31337; 31456; 31649; 32701; 32925; 33459; 35430; 35463; 35797]%N);
   ((-4978669347533229, -49)%Z, [20445; 24310; 27795; 27815; 27877; 28356; 30053; 30340; 30427; 32173; 32500; 32629;
     34586; 35338; 35531; 35759; 35831; 37492; 37969; 38929; 39037; 39554]%N);
   ((-963346794346551, -47)%Z, [20449]%N);
   ((-2388939602228185, -48)%Z, [20461; 20745; 21076; 21700; 22240; 22681; 23396; 23519; 26366; 29254; 32844; 32887;
     34563; 35486; 35821; 37051; 37168]%N);
   ((-925725585068915, -47)%Z, [20465; 21040]%N);
   ((-7721396637006191, -50)%Z, [20498; 24433]%N);
   ((-6176757287210833, -49)%Z, [20521; 20613; 20932; 20976; 21355; 21486; 21523; 21535; 21566; 21756; 22151; 22261;
     22279; 22545; 22649; 23035; 23467; 23470; 23485; 23532; 23556; 23574; 23781; 23842; 24188; 24405; 24575; 24674;
     24684; 25159; 25668; 25688; 25885; 26191; 26417; 26447; 26551; 27946; 28114; 28335; 28538; 29022; 29482; 29483;
     29796; 29814; 30127; 30219; 31181; 31206; 31278; 32184; 32438; 32697; 32779; 32881; 32922; 32930; 33437; 33778;
     34558; 34784; 34907; 35091; 35496; 35826; 35948; 35987; 36012; 36131; 36382; 36413; 36829; 36841; 36949; 36999;
     37027; 37610; 37636; 38138; 39019; 39076; 39525; 39589; 40232; 40493]%N);
   ((-2413431127539903, -48)%Z, [20540; 20885; 22918; 22941; 23456; 23541; 24367; 24398; 24653; 24863; 25512; 26517;
     28053; 32596; 37670; 38182; 39108; 39128]%N);
   ((-8784765874416541, -50)%Z, [20551; 21463; 24230; 25317; 25793]%N);
   ((-2379710087612737, -48)%Z, [20559; 20917; 21334; 23545; 23565; 25096; 26705; 27841; 30472; 33016; 35437; 35809;
     36067; 38505; 38570; 38613; 38918; 39034]%N);
   ((-4806754762142667, -49)%Z, [20570; 21311; 25238; 25384; 26286; 37528; 38125]%N);
   ((-4667476342499589, -49)%Z, [20572; 20943; 28187]%N);
   ((-8711510780728237, -50)%Z, [20599; 26753; 30130]%N);
   ((-1220129279090307, -47)%Z, [20607; 20767; 21017; 21063; 21351; 22756; 23452; 23633; 24443; 24505; 24544; 24739;
     27838; 28558; 29384; 29437; 33253; 33311; 35282; 35408; 35784; 37340]%N);
   ((-2349600112753101, -48)%Z, [20633; 20896; 22791; 26007; 26179; 28389; 28651; 29356; 29554; 31687; 33719; 36767;
     38370; 39717]%N);
   ((-5987340257277357, -49)%Z, [20667; 20813; 20908; 21019; 21109; 22522; 22930; 23617; 23648; 24038; 24184; 24351;
     24459; 24591; 25119; 25746; 26460; 27974; 28082; 28404; 28479; 29616; 29694; 30117; 31455; 32736; 32954; 33098;
     33240; 33402; 34269; 34433; 34809; 34811; 35609; 35878; 36649; 36744; 37112; 37117; 37170; 38654; 38695; 38901;
     38907; 40285; 40517]%N);
   ((-5050024214318857, -49)%Z, [20742; 21333; 21934; 24088; 25265; 26151; 27813; 28701; 29378; 31680; 31806; 33410;
     33696; 37070; 38275; 38378; 38452; 38470; 38512; 38520; 39165; 39281]%N);
   ((-1278607879046321, -47)%Z, [20799; 20818; 21493; 22622; 22904; 23014; 23425; 23527; 25506; 25912; 26087; 27803;
     32034; 32233; 32531; 32597; 32650; 33290]%N);
   ((-4555912649784189, -49)%Z, [20807; 20855; 20982; 21452; 23525; 25307; 27450; 30343; 38617]%N);
   ((-7849876798465135, -50)%Z, [20808]%N);
   ((-7262433236760111, -50)%Z, [20809; 32147; 32463]%N);
   ((-8150646933490867, -50)%Z, [20834; 24936]%N);
   ((-7013155724578293, -50)%Z, [20837]%N);
   ((-6331064172317171, -50)%Z, [20843]%N);
   ((-8108354640926125, -50)%Z, [20844; 23448; 26071; 26525]%N);
   ((-8013852849818107, -50)%Z, [20845; 32027; 32439]%N);
   ((-7739945654678865, -50)%Z, [20849]%N);
   ((-259381893622441, -45)%Z, [20851; 25910; 35672; 35782; 37329; 38364; 39592]%N);
   ((-5378315394606323, -50)%Z, [20854]%N);
   ((-301044921140397, -45)%Z, [20856; 21551; 21855; 25945; 25954; 26505; 30097; 30701; 32570; 35422; 35789; 36861;
     36867]%N);
   ((-2247983889725745, -48)%Z, [20859; 22242; 22296; 22826; 24709; 24742; 32346; 32557; 32654; 35013; 35037;
     39178]%N);
   ((-4927456789229661, -49)%Z, [20861; 20882; 21488; 24651; 25088; 29560; 32305; 32437; 34109; 34966; 36007; 36139;
     39003; 39072]%N);
   ((-8676596358068621, -50)%Z, [20877; 22827; 26049; 26538; 27085]%N);
   ((-3682429176683623, -49)%Z, [20891; 36557]%N);
   ((-5206925911256687, -49)%Z, [20912; 20919; 21294; 21297; 21338; 22869; 23627; 24809; 25074; 25216; 25277; 25438;
     25736; 26103; 26336; 27602; 27807; 27873; 28317; 30504; 31243; 33180; 33606; 33610; 35048; 35342; 35504; 35752;
     35841; 36214; 36245; 36562; 36713; 38553; 40668]%N);
   ((-2082852738386927, -48)%Z, [20914; 30333; 34909]%N);
   ((-2893275057100249, -48)%Z, [20923; 20941; 21359; 23459; 23616; 24455; 24466; 24680; 25042; 25078; 26214; 26361;
     26631; 26632; 26855; 27161; 28113; 28212; 28860; 29001; 29312; 30519; 31381; 31968; 33125; 33293; 34987; 35355;
     35769; 36034; 36162; 36575; 36719; 37219; 38459; 38518; 39749; 39757]%N);
   ((-1248058765768057, -47)%Z, [20928; 20991; 21305; 22039; 22781; 23551; 23581; 24677; 24754; 28136; 30005; 30041;
     30475; 31077; 32827; 33905; 34085; 35064; 37327; 38015; 38651]%N);
   ((-4525142698991915, -49)%Z, [20955; 20956; 22852; 24072; 24102; 24107; 24118; 27004; 27155; 27827; 30528; 32189;
     32496; 33879; 35947]%N);
   ((-5149627348235809, -49)%Z, [20960; 21247; 22204; 22829; 24190; 25032; 25299; 30260; 32191; 32501; 33003; 33051;
     33105; 33395; 33399; 33988; 35377; 35576; 35768; 35832; 36118; 36174; 38596; 39986; 40140]%N);
   ((-2517505662933063, -48)%Z, [20964; 21009; 21477; 21621; 22920; 23041; 23229; 24202; 24616; 24748; 24826; 25080;
     25176; 25234; 25239; 25250; 25654; 25658; 25884; 26015; 26020; 28641; 29305; 29392; 31639; 35442; 35813; 36115;
     36163; 40179]%N);
   ((-347393346904815, -45)%Z, [20973; 21106; 24247; 24977; 27036; 27513; 27979; 28204; 28238; 28748; 29066; 31232;
     32299; 32541; 33275; 37857; 38236; 38291; 38388; 39446; 39579]%N);
   ((-3326057504928767, -49)%Z, [20986]%N);
   ((-501766055189689, -46)%Z, [20992]%N);
   ((-284351415045807, -45)%Z, [20995; 22519; 24577; 24907; 25191; 26197; 26248; 30887; 34935]%N);
   ((-855511232898333, -47)%Z, [20998]%N);
   ((-2018152196112841, -48)%Z, [20999; 24551; 24962; 25165; 30495]%N);
   ((-4707418618960347, -49)%Z, [21010; 21097; 21123; 21382; 24358; 25331; 27511; 28192; 29255]%N);
   ((-8626174504042835, -50)%Z, [21015; 23432; 24685; 34503]%N);
   ((-2171305996444751, -48)%Z, [21029; 21035; 21361; 22270; 22294; 37336; 38025; 40643; 40644]%N);
   ((-3775498303763519, -49)%Z, [21033]%N);
   ((-7837571758971065, -50)%Z, [21046]%N);
   ((-466243989415621, -46)%Z, [21069]%N);
   ((-8257956656053711, -50)%Z, [21103]%N);
   ((-3366628097188321, -49)%Z, [21147]%N);
   ((-3674443937075603, -49)%Z, [21151]%N);
   ((-7909148373092219, -50)%Z, [21152]%N);
   ((-6151406788588401, -50)%Z, [21160; 21205]%N);
   ((-8833095178264665, -50)%Z, [21161; 22478; 24237; 31609; 31820; 32162; 32504]%N);
   ((-8634422891900025, -50)%Z, [21171; 21214; 22615; 28034; 28797; 28798; 33618]%N);
   ((-7069462452444465, -50)%Z, [21183; 21218]%N);
   ((-1906548370425635, -48)%Z, [21187]%N);
   ((-8969416810121151, -50)%Z, [21191; 21327; 21332; 21636; 24452; 24465; 26234; 26432; 27578; 34180; 36763]%N);
   ((-4644804152855791, -49)%Z, [21202; 21497; 22022; 25405; 26045; 31071; 31165; 37679; 38169]%N);
   ((-1915130589403687, -48)%Z, [21213; 32622; 32988]%N);
   ((-2005858758630593, -48)%Z, [21270; 21628]%N);
   ((-4581799967141747, -49)%Z, [21271; 24597; 25880; 32244; 32451; 32824; 32883; 36321; 36405; 36857]%N);
   ((-7086081202974459, -50)%Z, [21315]%N);
   ((-5248644990728773, -49)%Z, [21329; 21558; 21584; 21807; 21809; 25380; 25824; 26001; 26247; 26519; 27748; 28271;
     29801; 31359; 31526; 32852; 32879; 33080; 33225; 33721; 34028; 36008; 36135; 37347; 38035; 38899; 39489; 39580;
     39739]%N);
   ((-2429218908859219, -48)%Z, [21331; 23504; 23653; 25166; 29301; 29309; 30589; 31348; 33503; 40763]%N);
   ((-8539219736596373, -50)%Z, [21335; 30862; 32773; 34915]%N);
   ((-107258286912345, -44)%Z, [21363]%N);
   ((-4683114846819731, -49)%Z, [21385; 21426; 21513; 21796; 21914; 22686; 28847; 28909; 29105; 31616; 31777; 33067;
     33073]%N);
   ((-2307964297584747, -48)%Z, [21402; 25304; 30424; 30436; 31508; 31558; 34850; 38451; 38525; 38753]%N);
   ((-2326130276318885, -48)%Z, [21410; 24258; 25915; 27427; 30917; 33032; 33033; 33218; 33391; 36291; 36493; 36628;
     36741]%N);
   ((-3661381867245367, -49)%Z, [21435]%N);
   ((-2510194213502657, -48)%Z, [21442; 21443; 21927; 22343; 22841; 22846; 24055; 27934; 28216; 31293; 31469; 32113;
     32479; 32705; 32843; 32894; 33900; 35261; 35272; 35461; 35803; 36938; 39151; 39277; 40165; 40479]%N);
   ((-3695994892222623, -49)%Z, [21450; 32764]%N);
   ((-3759903124948721, -49)%Z, [21453; 31163; 38626]%N);
   ((-7489456705942491, -50)%Z, [21457; 30332]%N);
   ((-4140956438491681, -49)%Z, [21462; 24322; 30064]%N);
   ((-781566154059363, -47)%Z, [21475]%N);
   ((-1040637921818419, -47)%Z, [21476; 21505; 31858; 40664]%N);
   ((-5425218498876461, -49)%Z, [21482; 22919; 22996; 23068; 23142; 23159; 24043; 25026; 25106; 25286; 26607; 26612;
     27280; 28014; 28041; 28067; 28102; 28185; 28518; 28809; 29200; 29486; 29563; 30140; 30742; 30938; 31264; 31572;
     31799; 33261; 33392; 33393; 34701; 34949; 35018; 35547; 35840; 36842; 36944; 38469; 38555; 40635]%N);
   ((-5036082387637837, -50)%Z, [21487]%N);
   ((-7900487561871707, -50)%Z, [21491]%N);
   ((-4837191901838389, -49)%Z, [21494; 24248; 24904; 26031; 26157; 26684; 26865; 27490; 27801; 30002; 32302; 32553;
     33865; 36367; 38646]%N);
   ((-4724224343174949, -49)%Z, [21495; 21947; 22070; 23692; 27468; 31446; 31867; 32763; 34399; 35918; 35980; 36827;
     36914; 39006]%N);
   ((-1841885565958021, -48)%Z, [21507]%N);
   ((-7573355638335631, -50)%Z, [21512]%N);
   ((-6615702137877073, -50)%Z, [21516]%N);
   ((-6447076442377185, -50)%Z, [21517]%N);
   ((-3788293171648977, -49)%Z, [21518; 24460]%N);
   ((-4059389857272909, -49)%Z, [21520; 25509]%N);
   ((-4247238052135995, -49)%Z, [21521; 27963; 28165; 36855; 36870]%N);
   ((-2540653629719043, -48)%Z, [21522; 21668; 21767; 21899; 23439; 23569; 24503; 25293; 26543; 26611; 27922; 28753;
     28799; 28814; 29158; 30095; 30690; 31062; 32160; 32511; 32602; 32624; 33541; 35946; 36212; 38533]%N);
   ((-7854008545879355, -50)%Z, [21534]%N);
   ((-7821371480814163, -50)%Z, [21548; 32893]%N);
   ((-4126023203375259, -49)%Z, [21561; 23506; 29577; 31169; 32396; 32493]%N);
   ((-8642732154018907, -50)%Z, [21578; 27426; 27489]%N);
   ((-1329415990559999, -47)%Z, [21596; 21978; 23477; 23490; 23610; 24223; 24290; 26124; 26446; 27971; 28025; 29141;
     29645; 29863; 30861; 31001; 31168; 32745; 34425; 35563; 35855; 36394; 36820; 38312; 38394; 38684]%N);
   ((-8156046943395535, -50)%Z, [21608; 33050; 33139; 36913]%N);
   ((-8738426004430279, -50)%Z, [21619; 21898; 29275]%N);
   ((-2203378454191385, -48)%Z, [21629; 22766; 22767; 22987; 26354; 28783; 29128; 29369; 29399; 29494; 31859; 32321;
     35641; 35880]%N);
   ((-2311504910013471, -48)%Z, [21675; 27882; 28107; 28122; 28382; 28399; 32842]%N);
   ((-4543402135966361, -49)%Z, [21741; 32025; 32440; 32928; 33144; 36880; 36895; 37504; 38134; 38500]%N);
   ((-4208398518346013, -49)%Z, [21839; 22916; 26032; 38382]%N);
   ((-4004546083293149, -49)%Z, [21892]%N);
   ((-2129156417306727, -48)%Z, [21912; 26292; 30149; 35299; 36554; 36710]%N);
   ((-1027868970870985, -47)%Z, [21916]%N);
   ((-8729382583064585, -50)%Z, [22068; 27941; 28155]%N);
   ((-4952480906898407, -49)%Z, [22218; 22763; 24369; 24796; 24840; 24910; 25289; 25913; 26524; 27425; 28059; 28644;
     29359; 29609; 30007; 30058; 32362; 32472; 32974; 34920; 38924; 39042]%N);
   ((-8189002464100481, -50)%Z, [22235; 24444; 30707]%N);
   ((-7891892864358511, -50)%Z, [22238; 24402; 27512]%N);
   ((-70799431429719, -43)%Z, [22256; 25466; 36000; 36127]%N);
   ((-3593356980317765, -49)%Z, [22303]%N);
   ((-3055539879667487, -49)%Z, [22312]%N);
   ((-6493087356900155, -50)%Z, [22320]%N);
   ((-7971714463330679, -50)%Z, [22530; 27178; 27243]%N);
   ((-3935344424792355, -49)%Z, [22570; 27169]%N);
   ((-8668034340329227, -50)%Z, [22577; 25253; 27605; 29992; 30050; 33145]%N);
   ((-8430527693532277, -50)%Z, [22604; 26082; 39318]%N);
   ((-261156271541207, -45)%Z, [22645; 23384; 23576; 32831; 40778; 40784]%N);
   ((-8617986104991735, -50)%Z, [22721; 24536; 25903]%N);
   ((-788863865935171, -47)%Z, [22768; 32882]%N);
   ((-8659536942207427, -50)%Z, [22788; 32966; 33041; 33126; 33213; 34389; 36617; 36733; 36864; 38346; 38420]%N);
   ((-7264883509559275, -50)%Z, [22797]%N);
   ((-1877653794802321, -48)%Z, [22806; 36681; 36716]%N);
   ((-3303048297974821, -49)%Z, [22810]%N);
   ((-5386148574725427, -50)%Z, [22823]%N);
   ((-692301096347707, -47)%Z, [22825]%N);
   ((-7024986655577453, -50)%Z, [22833]%N);
   ((-5812775865325249, -50)%Z, [22836; 38957]%N);
   ((-265912311240341, -45)%Z, [22855; 24681]%N);
   ((-7115767666027281, -50)%Z, [22856]%N);
   ((-4787340770929723, -49)%Z, [22857; 23475; 23608; 23629; 27833; 28903; 29031; 29138; 29618; 30382; 30465;
     31481]%N);
   ((-2044477441113277, -48)%Z, [22859; 22894; 28023; 30422; 33995]%N);
   ((-8756733723365029, -50)%Z, [22868; 24178; 24185; 36020; 36149; 36793; 37002]%N);
   ((-4222213934467249, -49)%Z, [22899; 32676]%N);
   ((-3777081848980461, -49)%Z, [22909]%N);
   ((-1358581954314593, -48)%Z, [22914]%N);
   ((-8601785826834833, -50)%Z, [22937; 27494; 28608]%N);
   ((-1128322670816159, -47)%Z, [23039; 24207; 25417; 26127; 28040; 38012; 38179]%N);
   ((-4630181253994979, -49)%Z, [23110; 34917; 35036; 35201]%N);
   ((-7747451681857999, -50)%Z, [23376; 24352; 24373]%N);
   ((-8501810983026861, -50)%Z, [23383; 33150; 39472]%N);
   ((-8609856828471005, -50)%Z, [23398; 23416; 24049; 31361; 32005; 32418]%N);
   ((-5131754419998429, -49)%Z, [23436; 23792; 24196; 25376; 25747; 26132; 33167; 33674; 34588; 35569; 35763; 38713;
     40251; 40511]%N);
   ((-4608935338114931, -49)%Z, [23447; 24040; 27844; 27945; 32178; 32593; 35613; 35874; 36299]%N);
   ((-964257719781415, -47)%Z, [23450; 24375; 24378; 36807; 36942]%N);
   ((-4490309943350893, -49)%Z, [23453; 23542; 23572; 26665; 29246; 32972; 38543; 38568]%N);
   ((-3851574132490827, -49)%Z, [23454; 23526; 26412]%N);
   ((-3353025960082109, -49)%Z, [23478]%N);
   ((-1745550300040059, -48)%Z, [23481]%N);
   ((-3728495381644593, -49)%Z, [23500; 24908]%N);
   ((-7926672460815907, -50)%Z, [23521; 25237; 32862; 38395]%N);
   ((-4501683056494275, -49)%Z, [23544; 24050; 24529; 24785; 25300; 38931; 39039]%N);
   ((-2036318174846979, -48)%Z, [23547; 23563; 27743; 30171]%N);
   ((-2094145512704437, -48)%Z, [23558; 23559; 25932; 25973]%N);
   ((-6700094763902527, -50)%Z, [23567]%N);
   ((-999366214608925, -47)%Z, [23601; 25105; 25142; 25143; 36830; 36899]%N);
   ((-1745073627653979, -48)%Z, [23613; 30433]%N);
   ((-8465605294033215, -50)%Z, [23621; 23849]%N);
   ((-8396510003025117, -50)%Z, [23624; 26435; 27402; 27794; 27809]%N);
   ((-827135134051471, -47)%Z, [23665]%N);
   ((-8794267195838777, -50)%Z, [23830; 25937; 26143; 28010; 32066; 32456]%N);
   ((-8585815347618793, -50)%Z, [24039; 28866; 29211]%N);
   ((-490103657155067, -46)%Z, [24046; 24694; 24801]%N);
   ((-2268624808109663, -48)%Z, [24070; 24730; 28435; 28784; 32381; 32548; 35167; 36941]%N);
   ((-8936461289416205, -50)%Z, [24120; 26223; 32102; 32473; 37341; 38024]%N);
   ((-7289684069705431, -50)%Z, [24179; 26041]%N);
   ((-7394739236133541, -50)%Z, [24180]%N);
   ((-4091721226630693, -49)%Z, [24191; 24291]%N);
   ((-7277215504771335, -50)%Z, [24212; 25033; 33021]%N);
   ((-1826843835329843, -48)%Z, [24320; 38283]%N);
   ((-6866250607043817, -50)%Z, [24403; 30070]%N);
   ((-7671028498297647, -50)%Z, [24418]%N);
   ((-8451442844318317, -50)%Z, [24425; 25240; 29087; 36817]%N);
   ((-4691100086427751, -49)%Z, [24428; 25273; 26434; 28176; 28472; 31216; 31281; 32047; 36470; 36834; 38620; 39321;
     39745; 39770; 40060]%N);
   ((-8033099470744871, -50)%Z, [24448; 25918]%N);
   ((-2173479559189193, -48)%Z, [24449; 24501; 30142; 35527; 35848]%N);
   ((-2050051385170279, -48)%Z, [24453]%N);
   ((-6736319869482911, -50)%Z, [24471]%N);
   ((-4401924690271521, -49)%Z, [24490]%N);
   ((-2490276367711629, -49)%Z, [24515]%N);
   ((-7845760158022165, -50)%Z, [24517]%N);
   ((-4796964081393105, -49)%Z, [24518; 25014; 25424; 26411; 28902; 29033; 32610; 32631; 37406; 38055; 39854; 40092;
     40180; 40483]%N);
   ((-8546852985541633, -50)%Z, [24524; 36335; 38544; 38577]%N);
   ((-2318722612573165, -48)%Z, [24525; 26388; 30331; 32227; 32536; 36896; 38988; 39064]%N);
   ((-8306389925912051, -50)%Z, [24565; 26356; 31215; 31309]%N);
   ((-2236834908502913, -48)%Z, [24576; 25079; 26086; 27835; 29436; 31946; 37202; 37322; 37323]%N);
   ((-6485696302523127, -50)%Z, [24605]%N);
   ((-3868293848601, -39)%Z, [24613; 33609]%N);
   ((-4159415467722577, -49)%Z, [24615; 27982; 28639]%N);
   ((-2071995608239793, -48)%Z, [24618; 32004; 32422]%N);
   ((-1953339481129061, -48)%Z, [24687]%N);
   ((-3402960054656597, -49)%Z, [24773]%N);
   ((-6827335091097431, -50)%Z, [24778; 39514]%N);
   ((-7325349039660753, -50)%Z, [24819]%N);
   ((-1614451264071155, -48)%Z, [24847]%N);
   ((-8873310164138943, -50)%Z, [24895; 26641; 27193; 36785; 36798; 36948; 39000]%N);
   ((-1524705640771881, -48)%Z, [25104]%N);
   ((-7736211323206239, -50)%Z, [25112; 25136]%N);
   ((-5102731396362781, -50)%Z, [25152]%N);
   ((-6124362255971205, -50)%Z, [25163]%N);
   ((-7207500395466911, -50)%Z, [25171]%N);
   ((-2329908520654261, -48)%Z, [25195; 25475; 26970; 35519; 35843; 38936; 39046]%N);
   ((-3714133634561151, -49)%Z, [25196; 25562]%N);
   ((-4575215682101845, -49)%Z, [25321; 25391; 25799; 31487; 36468; 36953; 36965; 37057; 39729; 40736]%N);
   ((-8403231813479057, -50)%Z, [25345]%N);
   ((-495693527169223, -46)%Z, [25442; 25563; 29976; 34394; 34395]%N);
   ((-2032325555042969, -48)%Z, [25505; 35222; 35270; 37319]%N);
   ((-4351340073977759, -49)%Z, [25552; 27784; 27785; 31096; 31117]%N);
   ((-8217221984083503, -50)%Z, [25622; 25671]%N);
   ((-7599464632209565, -50)%Z, [25943; 36133]%N);
   ((-7699533815948619, -50)%Z, [25991]%N);
   ((-3929077755775221, -49)%Z, [26029; 26039]%N);
   ((-8743472733182957, -51)%Z, [26080; 28961]%N);
   ((-1743648434853681, -48)%Z, [26085]%N);
   ((-3516471789247787, -49)%Z, [26102; 26178]%N);
   ((-1807169455141407, -48)%Z, [26126]%N);
   ((-7383781486313953, -50)%Z, [26131]%N);
   ((-8577914263216161, -50)%Z, [26149]%N);
   ((-3778669861185595, -49)%Z, [26159]%N);
   ((-1047898198532853, -47)%Z, [26376; 34903]%N);
   ((-5428551490402015, -50)%Z, [26377]%N);
   ((-7710412160544065, -50)%Z, [26395; 35584; 35851]%N);
   ((-3770774220488065, -49)%Z, [26397]%N);
   ((-2084438517097965, -48)%Z, [26408]%N);
   ((-827307712231717, -47)%Z, [26410]%N);
   ((-7299759303889837, -50)%Z, [26426; 27231]%N);
   ((-4117249779775325, -49)%Z, [26497; 26997]%N);
   ((-2259592750518595, -48)%Z, [26580; 28072; 28466; 33337; 36066; 36132; 36951; 36986; 38519]%N);
   ((-4031300359691179, -49)%Z, [26681]%N);
   ((-8389828084856223, -50)%Z, [26827; 36637; 36745]%N);
   ((-6953934445897559, -50)%Z, [27442]%N);
   ((-7317610865510921, -50)%Z, [27492; 35498; 35828]%N);
   ((-3992793047777715, -49)%Z, [27493; 27861]%N);
   ((-3247780931592989, -49)%Z, [27515]%N);
   ((-8531637890390723, -50)%Z, [27531; 27544; 27611; 35488; 35802]%N);
   ((-1057312725128283, -47)%Z, [27604; 37586; 38155]%N);
   ((-3705689226924813, -49)%Z, [27665]%N);
   ((-1570207455609933, -48)%Z, [27668; 27683]%N);
   ((-6997572086083063, -50)%Z, [27700]%N);
   ((-7474583307260651, -50)%Z, [27714]%N);
   ((-2210753766350757, -48)%Z, [27769; 27958; 32377; 32462; 38647]%N);
   ((-2000632340859, -38)%Z, [27832; 32085; 32477]%N);
   ((-7862317807998237, -50)%Z, [27874]%N);
   ((-1866438168621983, -48)%Z, [27880; 38632]%N);
   ((-3470491145492761, -49)%Z, [27969]%N);
   ((-4080736488772409, -49)%Z, [28009; 32905]%N);
   ((-4939829813743247, -49)%Z, [28046; 28079; 30126; 30241; 30606; 31119; 32013; 32435; 32933; 33426; 39519;
     39588]%N);
   ((-1863521303382495, -48)%Z, [28145]%N);
   ((-8883592426532073, -50)%Z, [28372; 34989; 35186]%N);
   ((-7667515547220433, -50)%Z, [28385; 28415; 31354]%N);
   ((-1684847975969193, -48)%Z, [28779]%N);
   ((-2162775798901345, -48)%Z, [28857; 36001; 36130; 40670]%N);
   ((-8363490043922281, -50)%Z, [28872]%N);
   ((-4373771326338435, -49)%Z, [28895; 29017]%N);
   ((-11203912770057, -41)%Z, [28982]%N);
   ((-7566921907075455, -50)%Z, [29273]%N);
   ((-2228753732118295, -48)%Z, [29289; 33922; 36766; 36781; 38592]%N);
   ((-7378342345751073, -50)%Z, [29420; 29544]%N);
   ((-7770274758757867, -50)%Z, [29702]%N);
   ((-4462843522704293, -49)%Z, [29978]%N);
   ((-6167025397608973, -50)%Z, [29983]%N);
   ((-1691462066884405, -48)%Z, [30001]%N);
   ((-3336835433754655, -49)%Z, [30334]%N);
   ((-7833499783802597, -50)%Z, [30342]%N);
   ((-4296886135268457, -49)%Z, [30410]%N);
   ((-4043894843670021, -49)%Z, [30442; 33633]%N);
   ((-6387014207670667, -50)%Z, [30446]%N);
   ((-7302292263128787, -50)%Z, [30452]%N);
   ((-89611591025571, -44)%Z, [30456]%N);
   ((-7422609468739841, -50)%Z, [30473]%N);
   ((-3563281285227347, -49)%Z, [30524]%N);
   ((-3956751945368051, -49)%Z, [30633; 30682]%N);
   ((-8037962976825073, -50)%Z, [30634; 36828; 36960]%N);
   ((-6195127519687425, -50)%Z, [30693]%N);
   ((-3814789824694137, -49)%Z, [30772; 38472; 38515]%N);
   ((-1691856013732071, -48)%Z, [31070]%N);
   ((-8562276513128339, -50)%Z, [31310; 39062]%N);
   ((-3415333079170183, -49)%Z, [31435]%N);
   ((-3772344514263341, -49)%Z, [31505]%N);
   ((-7525975579891381, -50)%Z, [31934]%N);
   ((-4243594350396539, -49)%Z, [32048; 32454; 38634; 39135]%N);
   ((-461827939410953, -46)%Z, [32080; 32467]%N);
   ((-7612749741000137, -50)%Z, [32769]%N);
   ((-568891463580285, -47)%Z, [32780]%N);
   ((-7866495548995129, -50)%Z, [32819]%N);
   ((-5536821878472665, -50)%Z, [33258]%N);
   ((-1002329218540745, -47)%Z, [33267]%N);
   ((-3904686216979353, -49)%Z, [33268]%N);
   ((-4147042443208991, -49)%Z, [33310]%N);
   ((-1875374632740673, -48)%Z, [33394]%N);
   ((-6622613761220047, -50)%Z, [33457]%N);
   ((-868314372474225, -47)%Z, [33509]%N);
   ((-7962560755130929, -50)%Z, [33707]%N);
   ((-7403028107240717, -50)%Z, [33853]%N);
   ((-7606087591935441, -50)%Z, [34382]%N);
   ((-7789653893061685, -50)%Z, [34880]%N);
   ((-7036943227130999, -50)%Z, [34892]%N);
   ((-7462824454614119, -50)%Z, [35041; 37324]%N);
   ((-7948968237043915, -50)%Z, [35199]%N);
   ((-1890929693933701, -48)%Z, [35206]%N);
   ((-6573771890411171, -50)%Z, [35211; 35265]%N);
   ((-7128734027071549, -50)%Z, [35302; 35320]%N);
   ((-2873591825328373, -49)%Z, [35328]%N);
   ((-7177597312388939, -50)%Z, [35336; 35745]%N);
   ((-935808283273111, -47)%Z, [35441; 35805]%N);
   ((-8042847582780781, -50)%Z, [36011; 36143; 36824; 36996]%N);
   ((-7616095657004447, -50)%Z, [36208]%N);
   ((-3463180004375869, -49)%Z, [36215]%N);
   ((-6528235358656985, -50)%Z, [36275]%N);
   ((-3330343946603299, -49)%Z, [36523]%N);
   ((-7284680061882403, -50)%Z, [36629; 36731]%N);
   ((-8269871051963161, -50)%Z, [36703; 36720]%N);
   ((-8472753888885139, -50)%Z, [36816; 36939]%N);
   ((-4083462643995491, -49)%Z, [36884]%N);
   ((-7583075697901611, -50)%Z, [36890]%N);
   ((-4431560477585063, -49)%Z, [36898; 38622; 40481; 40657]%N);
   ((-7609413738835553, -50)%Z, [36947]%N);
   ((-1697429957789073, -48)%Z, [37325]%N);
   ((-7182146409110259, -50)%Z, [38263; 38271]%N);
   ((-7717723224589891, -50)%Z, [38272; 38376]%N);
   ((-3360542092471011, -49)%Z, [38590; 38627]%N);
   ((-1690283523738865, -48)%Z, [38754]%N);
   ((-7944473620668429, -50)%Z, [38991; 39068]%N);
   ((-1800132214185401, -48)%Z, [39015; 39038]%N);
   ((-6127037662949327, -50)%Z, [39080; 39118]%N);
   ((-477061001985831, -46)%Z, [39131; 39134]%N);
   ((-6593865818871047, -50)%Z, [39340; 39532]%N);
   ((-1672068545966095, -48)%Z, [39640]%N);
   ((-8004351528395871, -50)%Z, [39740; 39746]%N);
   ((-7887619994308557, -50)%Z, [40723]%N);
   ((-3839043727502797, -49)%Z, [40845; 40857]%N)];
  (* ('M', 'in') *)
  [
   ((-6243314768165359, -53)%Z, [22823; 33145]%N)];
  (* ('M', 'j') *)
  [
   ((-1355727328640045, -48)%Z, [19968; 19979]%N);
   ((-5532191562702759, -49)%Z, [19971; 19981; 20057; 21307; 21313; 21355; 21368; 24188; 26106; 26631; 27161; 28201;
     28304; 28331; 28390; 28772; 28909; 29105; 32113; 32479; 33133; 33402; 34269; 34907; 37291; 38590; 38627; 38761;
     40643; 40644]%N);
   ((-5382365166307635, -50)%Z, [19977]%N);
   ((-4264826949539451, -49)%Z, [19978; 20551; 20961; 21488; 21512; 24178; 24185; 26126; 31038; 37679; 38169]%N);
   ((-7045446594965443, -50)%Z, [19987; 23560]%N);
   ((-2961199367856547, -48)%Z, [19996; 20048; 20140; 20241; 20307; 20465; 20799; 20818; 20843; 20859; 20860; 21021;
     21040; 21161; 21361; 21487; 21496; 22253; 22290; 22330; 22580; 23448; 23521; 24191; 24291; 24694; 24773; 24801;
     25296; 25552; 25918; 26481; 26680; 27138; 27531; 27544; 27745; 27833; 27835; 28216; 28779; 28895; 29017; 29275;
     31163; 31459; 31726; 31811; 32650; 32966; 33213; 33609; 33891; 34411; 34802; 34892; 35347; 35413; 35527; 35757;
     35780; 35848; 36077; 36172; 36938; 37096; 38453; 38499; 38556; 38626; 38663; 38928; 39044; 39178; 39636]%N);
   ((-6925236541379865, -50)%Z, [20004; 20841]%N);
   ((-5016365737873823, -49)%Z, [20006; 20572; 21019; 21109; 21152; 21322; 21476; 21697; 24179; 24182; 24635; 27743;
     32317; 34987; 35519; 35843; 37322; 37323; 37941; 38081]%N);
   ((-7908079933696547, -50)%Z, [20010; 20491; 24613; 38470; 38520]%N);
   ((-4011351829698027, -50)%Z, [20013]%N);
   ((-4826948707940347, -49)%Z, [20107; 20122; 20126; 20449; 21153; 21209; 21452; 21475; 24066; 36012; 36131; 38617;
     39080; 39118]%N);
   ((-968654944132279, -47)%Z, [20108; 22235]%N);
   ((-8471902783706307, -50)%Z, [20114]%N);
   ((-7610062611550339, -50)%Z, [20116]%N);
   ((-1510470075789265, -49)%Z, [20132]%N);
   ((-734927805250887, -47)%Z, [20135; 29986]%N);
   ((-5597093224380027, -50)%Z, [20154]%N);
   ((-4572503703582067, -49)%Z, [20171; 20462; 20813; 21453; 22242; 22296; 22522; 23425; 23527; 24377; 24392; 26524;
     28196; 28207; 37038; 37109; 39854; 40092]%N);
   ((-7779265329963693, -50)%Z, [20195; 29615; 29872]%N);
   ((-104521662990015, -45)%Z, [20225]%N);
   ((-7216364970711679, -50)%Z, [20247; 21457; 27867; 30332; 30526; 30740]%N);
   ((-642748048711553, -46)%Z, [20248; 20778; 21360; 23481; 24110; 24171; 25937; 26087; 26696; 28287; 28629; 31908;
     31925; 33290; 35222; 35270; 36007; 36139; 36793; 37002; 38477]%N);
   ((-8956921228804195, -50)%Z, [20260; 20379; 20663; 22830; 28748; 29238; 30465; 30776; 32676; 36001; 36130]%N);
   ((-2198951000570015, -48)%Z, [20266; 20605; 20882; 21806; 22351; 22750; 23376; 26426; 27231; 38750]%N);
   ((-4751777216682089, -49)%Z, [20301; 21333; 21934; 22686; 25112; 25136; 25991; 26234; 29289; 29992; 32843; 32894;
     35009; 36867; 38450; 38469; 38555]%N);
   ((-793406405206901, -47)%Z, [20302]%N);
   ((-1109185383732503, -47)%Z, [20303; 20852; 23616; 24072; 24107; 32844; 32887; 33288; 36947]%N);
   ((-4685471262245507, -49)%Z, [20358; 20809; 20915; 21327; 21332; 23569; 24033; 25913; 26469; 27770; 27794; 27809;
     27982; 28142; 28639; 33322; 35488; 35802]%N);
   ((-4626158564863489, -49)%Z, [20419; 24180; 24220; 26149; 36039; 36164]%N);
   ((-3779438264406237, -49)%Z, [20445; 24739]%N);
   ((-7127665587675877, -50)%Z, [20648; 20786; 32960; 33081]%N);
   ((-1045574132642933, -47)%Z, [20804; 24314]%N);
   ((-2013389852533215, -48)%Z, [20808; 20844; 21220; 38468]%N);
   ((-3086846502798985, -49)%Z, [20837]%N);
   ((-3213379777001425, -49)%Z, [20839; 20869]%N);
   ((-4981509164454767, -50)%Z, [20840]%N);
   ((-4088253441391763, -49)%Z, [20845; 32005; 32418; 36827; 36914]%N);
   ((-5868219365426461, -50)%Z, [20849]%N);
   ((-6911074091664967, -50)%Z, [20853; 26202]%N);
   ((-6463982775742521, -50)%Z, [20864]%N);
   ((-4523520652958631, -49)%Z, [20891; 21462; 23458; 24515; 25442; 25563; 28431; 34915; 36031; 36152; 36275;
     36557]%N);
   ((-7292726425611315, -50)%Z, [20892; 36786]%N);
   ((-7841831420202153, -50)%Z, [20986; 30334]%N);
   ((-4046534361919677, -49)%Z, [21046; 32862; 37670; 38182; 38395]%N);
   ((-5303934998979301, -49)%Z, [21048; 23453; 23542; 23703; 23831; 24149; 26085; 26435; 27402; 27494; 27700; 31105;
     31350; 31934; 32771; 34013; 34253; 35352; 35611; 35760; 35762; 36681; 36716; 37197; 38281; 38381]%N);
   ((-3011675011540727, -49)%Z, [21103]%N);
   ((-8590528178470345, -50)%Z, [21150; 21592; 21729; 23433; 36774]%N);
   ((-5302034368784367, -50)%Z, [21270]%N);
   ((-2781290090070645, -49)%Z, [21271]%N);
   ((-6717587903400361, -50)%Z, [21335]%N);
   ((-436483625412595, -46)%Z, [21338; 32000; 32426]%N);
   ((-2078636206451493, -48)%Z, [21490; 25216; 27827; 28246]%N);
   ((-7978471597797599, -50)%Z, [21491]%N);
   ((-434631709476165, -46)%Z, [21518; 23398; 23416; 24460]%N);
   ((-8852651528356599, -51)%Z, [21830]%N);
   ((-6729502299309811, -50)%Z, [22269; 22283]%N);
   ((-7497469492062263, -52)%Z, [22320]%N);
   ((-5156759211359021, -50)%Z, [22478]%N);
   ((-2180785021835877, -48)%Z, [22788; 26262; 27493; 30095; 34389; 36890]%N);
   ((-3408315968332637, -49)%Z, [22806]%N);
   ((-3818277798196219, -49)%Z, [22823; 25490]%N);
   ((-2898998307935899, -49)%Z, [22826; 37504; 38134]%N);
   ((-8654882831288015, -50)%Z, [22885; 22887; 36830; 36899]%N);
   ((-4110332740034553, -49)%Z, [22899; 31179]%N);
   ((-8359488305047593, -51)%Z, [22996]%N);
   ((-1468451742371111, -48)%Z, [23457; 23529; 29287]%N);
   ((-3636572532056095, -49)%Z, [23459]%N);
   ((-3676800352501379, -49)%Z, [23478; 30005; 38651]%N);
   ((-3743106306937961, -49)%Z, [23519; 36010; 36138]%N);
   ((-6005723743172597, -51)%Z, [23567]%N);
   ((-6594231829799161, -50)%Z, [24037]%N);
   ((-2456863912984483, -48)%Z, [24120; 25509; 27965; 30452; 31918; 31975; 35201; 39015; 39038]%N);
   ((-8416969942413107, -50)%Z, [24369; 28180; 28417; 30149; 37122]%N);
   ((-844214516720579, -47)%Z, [25104]%N);
   ((-3421408417804737, -49)%Z, [25193; 25844]%N);
   ((-3302451973367283, -49)%Z, [25237]%N);
   ((-207079891729301, -45)%Z, [25588; 39791; 40065]%N);
   ((-6218436637922353, -50)%Z, [25903]%N);
   ((-3507084793162579, -49)%Z, [25910]%N);
   ((-3061822385130239, -49)%Z, [25919]%N);
   ((-7874468485267345, -50)%Z, [25945; 28595]%N);
   ((-6502478830127431, -50)%Z, [26032; 32654]%N);
   ((-390093338403395, -46)%Z, [26519]%N);
   ((-6766021173258701, -50)%Z, [26816; 27298]%N);
   ((-4803612195063645, -50)%Z, [26893]%N);
   ((-7253898443185427, -50)%Z, [27665; 36008; 36135]%N);
   ((-1860062783512109, -48)%Z, [27861; 32147; 32463]%N);
   ((-7198057251776929, -50)%Z, [28023]%N);
   ((-3792089357561397, -49)%Z, [29305; 32769]%N);
   ((-6408599484390565, -50)%Z, [29616; 29694]%N);
   ((-5991810148202337, -50)%Z, [29702]%N);
   ((-7509916645330481, -50)%Z, [29976; 39640]%N);
   ((-3395521100447179, -49)%Z, [29983]%N);
   ((-3371073334008841, -50)%Z, [30417; 30435]%N);
   ((-5584026541084315, -50)%Z, [30701]%N);
   ((-1226380476930455, -48)%Z, [30707]%N);
   ((-7332941411485593, -50)%Z, [30719; 31014]%N);
   ((-924511567095357, -47)%Z, [30828; 35299; 36335]%N);
   ((-178207872995261, -45)%Z, [31185]%N);
   ((-6473484097164757, -50)%Z, [31237; 31246]%N);
   ((-1685386031082503, -48)%Z, [31354]%N);
   ((-1507441356130903, -48)%Z, [31649]%N);
   ((-411478745125875, -46)%Z, [32068; 32452]%N);
   ((-8266626959896591, -50)%Z, [32080; 32467]%N);
   ((-832932844537085, -48)%Z, [32852; 32879]%N);
   ((-3767065239892651, -49)%Z, [33521]%N);
   ((-6313639793226005, -50)%Z, [34701]%N);
   ((-676463279747443, -47)%Z, [35199]%N);
   ((-6281002728160813, -50)%Z, [35657; 35777]%N);
   ((-7029699486429005, -50)%Z, [35947; 36024; 36151]%N);
   ((-2768686206438211, -49)%Z, [36300]%N);
   ((-2359082646779187, -49)%Z, [36816; 36939]%N);
   ((-7691488437685637, -50)%Z, [37325]%N);
   ((-3555367221476015, -49)%Z, [37559; 38144]%N);
   ((-3778910566899389, -50)%Z, [38263; 38271]%N);
   ((-198086057610419, -45)%Z, [38498]%N);
   ((-6897087577555841, -50)%Z, [38738]%N)];
  (* ('M', 'jn') *)
  [
   ((-7304210039150669, -54)%Z, [20013]%N);
   ((-4947709893870347, -52)%Z, [37559; 38144]%N)];
  (* ('M', 'k') *)
  [
];
  (* ('M', 'l') *)
  [
   ((-4899992661071905, -50)%Z, [19968]%N);
   ((-5753002474473831, -49)%Z, [19969; 20035; 20117; 20462; 20937; 21449; 21742; 24674; 26525; 26723; 27284; 27801;
     28092; 28799; 29158; 30422; 31227; 31539; 33502; 33914; 33995; 35696; 35758; 36060; 36176; 36554; 36628; 36710;
     36741; 36763; 39250; 39286]%N);
   ((-367413820393277, -45)%Z, [19971; 20044; 20129; 20711; 20985; 21320; 21359; 21465; 21514; 21767; 22519; 22826;
     22937; 23562; 24405; 24677; 24681; 25187; 25191; 25195; 25331; 25475; 25830; 25944; 26086; 26367; 26538; 27085;
     27792; 28153; 28491; 28722; 28879; 29864; 31446; 31487; 31726; 31811; 32097; 32476; 32570; 32650; 32827; 33030;
     33086; 33275; 33337; 33392; 33393; 33469; 35559; 35856; 35918; 36009; 36137; 36339; 36898; 36924; 37636; 38913;
     39029; 39519; 39588]%N);
   ((-487724598133211, -46)%Z, [19975; 21313; 33836]%N);
   ((-5524745910750373, -49)%Z, [19976; 20351; 21345; 21495; 21520; 21592; 21659; 21729; 22065; 22144; 22225; 24067;
     24935; 25165; 25273; 25343; 25377; 25803; 26060; 26685; 27036; 28354; 28459; 29426; 29499; 31859; 32066; 32456;
     32784; 33485; 33980; 34255; 34399; 35504; 35841; 36042; 36156; 36874; 36956; 37038; 37109; 38988; 39064]%N);
   ((-7128809751870355, -50)%Z, [19977]%N);
   ((-3237627054508365, -49)%Z, [19978]%N);
   ((-2992830658392255, -49)%Z, [19979]%N);
   ((-6799943717016649, -51)%Z, [19981]%N);
   ((-4986840787278647, -49)%Z, [19982; 20182; 20908; 20984; 21029; 21035; 22842; 22890; 23521; 24748; 25032; 25080;
     25252; 26106; 26263; 27867; 28866; 29123; 29211; 30338; 32004; 32422; 33287; 35703; 36454; 36650; 36718;
     40657]%N);
   ((-2727142662627175, -48)%Z, [19985; 20542; 20670; 21486; 21741; 23493; 24089; 24187; 25307; 26500; 27083; 27704;
     29087; 29256; 29306; 29351; 29486; 29563; 29942; 30496; 31096; 31117; 32027; 32189; 32439; 32496; 33145; 33152;
     36234; 36321; 36777; 36783; 36857; 36870; 36926; 36944; 37145; 37240; 37276; 38452; 38512]%N);
   ((-4309064353162835, -49)%Z, [19987; 20934; 23560; 28310]%N);
   ((-2558039854254571, -48)%Z, [19988; 19995; 21474; 23572; 23815; 24230; 24448; 25302; 26495; 27819; 29246; 36066;
     36092; 36132; 36141; 36426; 36767; 38370; 38654; 38695]%N);
   ((-4000249176177309, -49)%Z, [19990]%N);
   ((-848609133149669, -47)%Z, [19994; 26989]%N);
   ((-140362345602039, -44)%Z, [19996; 26131; 26481; 36923; 37007]%N);
   ((-5193851435122057, -49)%Z, [19997; 20687; 20845; 21363; 22260; 22285; 22857; 25622; 25671; 28009; 29228; 29255;
     29359; 32114; 33098; 33240; 36479; 36517; 36556; 36712]%N);
   ((-8869366009962871, -50)%Z, [20004; 20841]%N);
   ((-7049242645323437, -49)%Z, [20005; 20056; 20142; 20278; 20991; 21247; 21329; 21338; 21375; 21494; 21566; 21653;
     21737; 22040; 22099; 22196; 22564; 22612; 22781; 23057; 23219; 23551; 23777; 23805; 24124; 24133; 24151; 24184;
     24324; 24351; 24359; 24815; 24931; 25140; 25206; 25233; 25248; 25353; 25386; 25505; 25628; 25715; 25788; 25949;
     26021; 26031; 26103; 26118; 26157; 26247; 26336; 26361; 26580; 26611; 26840; 27589; 27741; 27760; 27814; 27985;
     28024; 28096; 28138; 28222; 28369; 28372; 28558; 28938; 29006; 29076; 29454; 29492; 29557; 29923; 30086; 30568;
     30860; 31283; 31292; 31337; 31526; 31616; 31684; 31777; 31881; 32028; 32210; 32311; 32321; 32350; 32429; 32469;
     32490; 32533; 32764; 32954; 33067; 33073; 33286; 33446; 33459; 33539; 33550; 33590; 33686; 33769; 33865; 34028;
     34218; 34310; 34411; 34433; 34453; 34521; 34569; 34802; 34811; 34870; 35475; 36084; 36182; 36196; 36667; 36671;
     36752; 36808; 36930; 36993; 37030; 37197; 37319; 37406; 37476; 37504; 38015; 38055; 38057; 38134; 38411; 38745;
     38748; 38989; 39069; 39425; 39563; 39721; 40251; 40288; 40511; 40516]%N);
   ((-4824890177991771, -49)%Z, [20006; 22270; 22294; 23445; 24038; 24182; 28363; 28572; 28734]%N);
   ((-1140414132747035, -47)%Z, [20007; 21152; 21930; 23556; 36062; 36175]%N);
   ((-4387959892974847, -49)%Z, [20010; 20491; 36681; 36716]%N);
   ((-5455022473333617, -50)%Z, [20013]%N);
   ((-2825182281284487, -48)%Z, [20016; 20900; 21696; 21809; 22681; 22971; 23389; 23574; 24833; 25103; 25138; 25196;
     25562; 26862; 27454; 27908; 27941; 29254; 31570; 32227; 32536; 32602; 32624; 35731; 35753; 35920; 37202; 37257;
     37428; 38083; 38346; 38420; 38505; 38570; 38712; 40786; 40831]%N);
   ((-5260157389558639, -49)%Z, [20018; 20020; 20302; 20439; 22402; 22859; 22894; 24646; 24658; 25169; 25402; 25705;
     25778; 26071; 28335; 33256; 34701; 34885; 35206; 37313]%N);
   ((-6268828299302767, -49)%Z, [20025; 20161; 20183; 20202; 20234; 20360; 20384; 20448; 20463; 20572; 20598; 20736;
     20820; 20923; 20941; 21326; 22039; 22359; 22374; 22435; 22602; 22721; 22904; 23014; 23386; 23396; 23425; 23439;
     23506; 23527; 23581; 24208; 24300; 24503; 24608; 24685; 24736; 24744; 24999; 25106; 25317; 25319; 25793; 25840;
     25995; 26202; 26420; 26463; 26829; 27192; 27280; 27584; 27585; 28065; 28198; 28357; 28781; 28888; 29066; 29134;
     29239; 29242; 29322; 29346; 29356; 29399; 29482; 30460; 30465; 30591; 30742; 30938; 31119; 31799; 31921; 32299;
     32541; 32728; 32761; 33016; 33618; 33655; 33713; 33775; 33802; 34429; 34996; 35895; 35948; 36538; 36864; 37066;
     37912; 38047; 38614; 38969; 39059; 39138; 39269; 40779]%N);
   ((-2972312718506425, -49)%Z, [20026; 28858]%N);
   ((-3784643705609011, -49)%Z, [20027; 20849; 35498; 35828]%N);
   ((-3329517736156551, -48)%Z, [20029; 20104; 20260; 20493; 20613; 20663; 20993; 21058; 21078; 21137; 21220; 21319;
     21513; 21536; 21705; 21713; 21854; 21884; 22478; 22581; 22815; 22816; 22918; 22941; 23485; 23532; 23622; 23626;
     23673; 23782; 24018; 24076; 24149; 24551; 24754; 24895; 24908; 24962; 25423; 25658; 25735; 25856; 25884; 25912;
     26097; 26274; 26799; 27004; 27155; 27922; 27987; 28389; 28611; 28651; 28753; 28814; 28921; 28966; 29406; 29552;
     29824; 29916; 30021; 30555; 30733; 31351; 31406; 31918; 31975; 32177; 32244; 32361; 32434; 32451; 32499; 32736;
     32781; 33014; 33184; 33538; 33615; 33756; 34276; 34542; 34875; 35373; 35386; 35774; 35786; 36101; 36184; 36332;
     36594; 36611; 36703; 36720; 36721; 36739; 36779; 36782; 36784; 37467; 37492; 37969; 38085; 38920; 39000; 39035;
     39110; 39129; 40273; 40372; 40515; 40548; 40599]%N);
   ((-4665652585779535, -49)%Z, [20030; 21253; 24191; 24291; 24433; 26089; 32933; 33289; 35486; 35821]%N);
   ((-509026620839311, -46)%Z, [20037; 32173; 32500]%N);
   ((-2472560853903281, -48)%Z, [20040; 20877; 21162; 22240; 23432; 25490; 30701; 31291; 33292; 33740; 36655; 36753;
     38592; 40636]%N);
   ((-670349412682937, -46)%Z, [20041; 22856; 23385; 23388; 23403; 23408; 24441; 24493; 25198; 25720; 26012; 26696;
     27827; 29060; 29424; 29465; 30606; 31528; 32592; 32599; 32645; 32681; 32819; 33899; 34915; 36070; 36171; 36686;
     36735; 37679; 37956; 38136; 38169; 38281; 38381; 39024; 39078]%N);
   ((-2569750041716805, -49)%Z, [20043]%N);
   ((-8041259361472791, -50)%Z, [20046]%N);
   ((-1985499221783241, -48)%Z, [20048; 23384; 27138; 30333]%N);
   ((-20841128440691, -41)%Z, [20061; 21015; 21863; 22038; 23254; 23494; 23621; 24188; 24494; 25216; 30896; 37027;
     39165; 39281; 39493; 39537]%N);
   ((-1229733316792935, -47)%Z, [20063; 24125; 25235; 26127; 26519; 30105; 31890; 35010; 35370; 35775; 36828; 36831;
     36935; 36960; 36978; 38706]%N);
   ((-5064078152244015, -49)%Z, [20065; 20961; 24930; 25391; 25932; 25973; 27426; 27489; 28342; 29575; 30342; 30414;
     32618; 32925; 34180; 35695; 35793; 37129; 37322; 37323; 40723]%N);
   ((-5563585444540355, -49)%Z, [20070; 20179; 20489; 20928; 21002; 22363; 22727; 23059; 23077; 23617; 25293; 25346;
     25499; 25554; 25950; 26360; 27010; 28136; 28872; 29474; 29483; 30053; 30406; 30721; 30908; 31080; 31639; 32858;
     35492; 35611; 35762; 35823; 35987; 36814; 37610; 37628; 38050; 38138; 38622; 38656; 40481]%N);
   ((-4725872535498807, -49)%Z, [20080; 20633; 21150; 21693; 21917; 22791; 28784; 36023; 36600; 36724; 36774]%N);
   ((-8592441662754093, -50)%Z, [20081; 20098; 20363; 21629; 24577; 24907]%N);
   ((-2549103390135881, -48)%Z, [20083; 20559; 21387; 22739; 24213; 24223; 24290; 25212; 28014; 28789; 29408; 30165;
     32034; 36879; 38728]%N);
   ((-7758304470083111, -50)%Z, [20102]%N);
   ((-8717670594963207, -50)%Z, [20105; 26124; 28023; 29229; 33945]%N);
   ((-7018985923521125, -50)%Z, [20107]%N);
   ((-3693494967038323, -49)%Z, [20108]%N);
   ((-3318732197047517, -49)%Z, [20110; 25991; 26044]%N);
   ((-8398510014579881, -50)%Z, [20111; 24840; 34407]%N);
   ((-2345338351724141, -48)%Z, [20113; 24102; 24118; 25026; 34394; 34395; 38642]%N);
   ((-3197755531513849, -49)%Z, [20114]%N);
   ((-1164388111675271, -47)%Z, [20116; 20184; 36817]%N);
   ((-568531540926885, -46)%Z, [20132; 22242; 22296; 25552; 32844; 32887]%N);
   ((-6430778908589643, -49)%Z, [20133; 20280; 20807; 20912; 20918; 20973; 20982; 21073; 21133; 21378; 21510; 21531;
     21796; 21895; 21914; 22870; 23616; 23631; 24288; 24604; 24825; 24976; 24977; 25096; 25151; 25345; 25488; 25915;
     25925; 26020; 26045; 26197; 26248; 26355; 26479; 26753; 27529; 27696; 27877; 27888; 27979; 28072; 28132; 28204;
     28404; 28466; 28514; 29518; 30776; 30933; 31350; 31909; 32831; 32986; 33109; 33147; 33167; 33193; 33261; 33643;
     33862; 33905; 34085; 34093; 34109; 34122; 34384; 34562; 35090; 35302; 35320; 36011; 36028; 36032; 36090; 36143;
     36148; 36154; 36186; 36212; 36834; 37228; 37555; 38160; 38470; 38520; 38686; 39208; 39302; 39479; 39578; 40361;
     40540]%N);
   ((-4931875215385513, -49)%Z, [20134; 22521; 23395; 24237; 24651; 24800; 25088; 25239; 26397; 26684; 27964; 28378;
     28414; 30452; 31034; 31243; 31402; 35261; 35272]%N);
   ((-5238326635549143, -50)%Z, [20135; 29986]%N);
   ((-1510142933894827, -47)%Z, [20139; 20339; 21388; 21410; 21421; 21827; 21947; 22916; 23519; 24231; 24258; 24544;
     24980; 25197; 25381; 25504; 25582; 25615; 25903; 26062; 26257; 26356; 26865; 27453; 27748; 27900; 28129; 28180;
     28271; 28417; 28497; 28518; 29245; 29260; 29664; 30171; 30331; 30585; 31388; 31428; 31809; 31839; 31895; 32399;
     32544; 32705; 33039; 33150; 33247; 33293; 33500; 34432; 34532; 34645; 34758; 34913; 35433; 35538; 35799; 35845;
     36394; 36487; 36951; 36986; 37832; 38054; 38142; 38914; 38971; 39030; 39057; 39187; 39295; 39472; 39699; 39714;
     40201; 40285; 40486; 40517]%N);
   ((-8959486087075937, -50)%Z, [20146; 27833; 29467; 35242; 38263; 38271]%N);
   ((-5546839460951535, -50)%Z, [20154]%N);
   ((-5284116322513329, -49)%Z, [20159; 20740; 21551; 21646; 21845; 21855; 22068; 24311; 25506; 26376; 26421; 26579;
     31454; 31478; 36941; 37070]%N);
   ((-6102708975774041, -50)%Z, [20160]%N);
   ((-2002637774219465, -48)%Z, [20165; 20677]%N);
   ((-3579604863471253, -49)%Z, [20170]%N);
   ((-4846969476634561, -49)%Z, [20171; 20248; 20778; 20839; 20869; 23039; 25874; 25890; 26432; 27578; 27946; 38647;
     38928; 39044; 40845; 40857]%N);
   ((-8902321530667817, -50)%Z, [20174; 24478; 25110; 29420; 29544; 32946]%N);
   ((-2906157585927925, -48)%Z, [20185; 20511; 20607; 20767; 21018; 21048; 21083; 21340; 22256; 22391; 22902; 23612;
     23703; 23831; 24039; 25265; 25810; 26429; 26449; 26505; 26786; 27627; 27850; 27934; 28176; 28472; 29378; 29749;
     29750; 30196; 32823; 32874; 32880; 32902; 32972; 33883; 34949; 35018; 35219; 35269; 35338; 35342; 35422; 35435;
     35477; 35571; 35752; 35759; 35789; 35806; 35815; 35865; 35998; 36093; 36126; 36187; 36801; 36983; 37666; 38065;
     38498; 39108; 39128]%N);
   ((-4055407242499887, -49)%Z, [20195; 23449]%N);
   ((-2222807207755111, -48)%Z, [20196; 20256; 20659; 21435; 38469; 38555]%N);
   ((-1403323458616281, -48)%Z, [20197]%N);
   ((-1257975206458795, -47)%Z, [20204; 20497; 20805; 20853; 21451; 21561; 22570; 23064; 24202; 24537; 24616; 24936;
     26001; 26434; 29436; 31192; 32178; 32302; 32553; 32593; 37051; 37168; 38604; 38620; 39151; 39277]%N);
   ((-5605304524012441, -49)%Z, [20208; 20405; 20846; 21306; 21312; 21619; 21806; 22686; 23558; 23559; 23610; 24093;
     24110; 24171; 24323; 24826; 25240; 25298; 25507; 25964; 26025; 26028; 26820; 27744; 28079; 28322; 29151; 30343;
     31077; 33151; 33395; 33399; 33503; 33829; 36259; 36575; 36719; 36974; 37658; 38126; 38634; 38918; 39034]%N);
   ((-1023857672075047, -47)%Z, [20214; 32959; 33131]%N);
   ((-5171488027750443, -50)%Z, [20215; 20729]%N);
   ((-163661770301403, -44)%Z, [20219; 20266; 20315; 20605; 20917; 21644; 22351; 22750; 24724; 25237; 25439; 25613;
     26631; 27161; 27841; 27966; 28390; 28772; 28846; 31161; 31435; 32102; 32473; 33108; 33832; 34217; 36020; 36149;
     36880; 39318; 40180; 40483]%N);
   ((-1967110645191151, -48)%Z, [20221]%N);
   ((-4418673870617343, -49)%Z, [20225; 33707; 34880; 36291; 36493]%N);
   ((-5001463686139459, -49)%Z, [20239; 23653; 24072; 24107; 25481; 30544; 30558; 36530]%N);
   ((-5153623614676773, -49)%Z, [20241; 24680; 24785; 24942; 25209; 26395; 26597; 27973; 28154; 30103; 30274; 30952;
     33509; 34385; 36678; 36760; 38518; 39154; 39278; 40763]%N);
   ((-7890916378956275, -50)%Z, [20247; 21010; 21123; 30526]%N);
   ((-5881166630762845, -50)%Z, [20250; 26371]%N);
   ((-2254927248119847, -48)%Z, [20254; 20632; 25937]%N);
   ((-2349635763086585, -48)%Z, [20255; 20553; 22530; 23500; 39015; 39038]%N);
   ((-5309140440182075, -49)%Z, [20272; 20725; 21327; 21332; 21407; 21548; 21898; 22124; 23649; 23650; 24265; 32673;
     32680; 32893]%N);
   ((-5047759619711419, -49)%Z, [20284; 20826; 21161; 21452; 22609; 22868; 24352; 24373; 24618; 24739; 25361; 27769;
     27958; 28061; 28551; 29071; 35946; 38544; 38577; 38617; 38917; 39033; 40680]%N);
   ((-8727171916385443, -50)%Z, [20301; 22343]%N);
   ((-4744331564729703, -49)%Z, [20303; 27490; 28040; 30424; 30436; 34928; 36001; 36130; 36861]%N);
   ((-6899942056383995, -50)%Z, [20307; 39636]%N);
   ((-7358339535579285, -50)%Z, [20309; 25968; 25976]%N);
   ((-5059615530512093, -50)%Z, [20313; 39192]%N);
   ((-2761933416054421, -49)%Z, [20316]%N);
   ((-297112070700191, -45)%Z, [20320; 21596; 21978; 22411; 26262; 27495; 30473]%N);
   ((-8542761549017671, -50)%Z, [20323; 20653]%N);
   ((-7061638747618215, -50)%Z, [20358; 26469]%N);
   ((-4243721529762587, -49)%Z, [20379]%N);
   ((-2849673806596205, -48)%Z, [20381; 21676; 21688; 22002; 24377; 24392; 24459; 25260; 25296; 25484; 27233; 27542;
     27927; 28120; 29748; 29922; 30149; 30871; 31163; 33046; 33136; 33278; 33647; 34277; 34588; 34966; 35524; 35846;
     36235; 36264; 36771; 37336; 37656; 38025; 38180; 38626; 38901; 38907]%N);
   ((-8816497147078739, -50)%Z, [20415; 31456; 32905]%N);
   ((-1008438162874897, -47)%Z, [20445]%N);
   ((-8258008095094017, -50)%Z, [20449]%N);
   ((-37290680643875, -42)%Z, [20461; 20745; 24594; 26087; 27425; 31036; 31150; 32922; 32960; 33081; 33290; 35676;
     35889; 35937; 36766; 36781; 36793; 37002]%N);
   ((-4440122177279159, -49)%Z, [20465; 20840; 28010]%N);
   ((-2341105565543179, -48)%Z, [20498; 20570; 21608; 36913]%N);
   ((-4881802232275583, -49)%Z, [20513; 20813; 24444; 24452; 24465; 26524; 34259; 34330; 36649; 36744; 37232; 38393;
     39719]%N);
   ((-2695835429574897, -48)%Z, [20538; 20661; 21483; 21488; 21557; 23233; 23803; 24635; 24859; 26195; 26313; 27899;
     28681; 29233; 31389; 31401; 32317; 34503; 34923; 35029; 35124; 35172; 36319; 36434; 36451; 39321]%N);
   ((-123945866995315, -44)%Z, [20540]%N);
   ((-574579201783539, -46)%Z, [20551; 22771; 27580; 32191; 32501; 38738]%N);
   ((-2381708220833219, -48)%Z, [20581; 20808; 20989; 26354; 36629; 36731]%N);
   ((-2976896308775345, -48)%Z, [20599; 20896; 20964; 21021; 21097; 21191; 21477; 21547; 22645; 22919; 22993; 23090;
     23142; 23207; 23475; 23576; 24343; 24796; 24871; 26874; 27498; 27531; 27544; 27611; 27815; 28155; 28356; 28783;
     28891; 29128; 29165; 29301; 29309; 29788; 30861; 31001; 31359; 31363; 31434; 31932; 32013; 32032; 32435; 32697;
     32771; 32907; 32908; 33162; 33222; 33579; 33821; 34367; 34558; 34560; 35488; 35802; 37233; 37259; 37292; 37341;
     37857; 38024; 38236; 38597; 40179]%N);
   ((-4554914534796227, -49)%Z, [20698; 22352; 24120; 30041; 30913; 31215; 31309; 32396; 32493; 32789; 36208]%N);
   ((-1978461980827235, -48)%Z, [20799; 20818]%N);
   ((-4077928243757273, -49)%Z, [20803]%N);
   ((-1293344567882505, -47)%Z, [20804; 21360; 23459; 24310; 25199; 25215; 25250; 25314; 25654; 25871; 26391; 27054;
     29934; 29973; 30636; 31062; 31508; 31558; 32862; 33635; 35910; 35947; 37559; 38144; 38395; 39770; 40060]%N);
   ((-8245497967423023, -50)%Z, [20809; 23618; 23652; 26381]%N);
   ((-3071604823742083, -48)%Z, [20811; 20940; 21085; 21093; 21280; 21365; 21472; 21943; 22132; 22362; 22533; 22763;
     22852; 23466; 23476; 23486; 23588; 24055; 24464; 25010; 25292; 25429; 25463; 25955; 25970; 25972; 26185; 26187;
     26639; 26691; 26869; 27396; 28102; 28903; 29138; 29577; 29926; 30002; 30090; 30127; 30162; 30219; 30306; 30887;
     31166; 32025; 32353; 32440; 32483; 32791; 32963; 33181; 33218; 33445; 33529; 34121; 34315; 34690; 35531; 35831;
     36051; 36068; 36145; 37057; 37266; 37275; 37723; 38203; 38428; 38931; 39039; 39166; 39280; 39729; 40165;
     40479]%N);
   ((-5016476574592189, -49)%Z, [20828; 22122; 22307; 22982; 26411; 28059; 28644; 31471; 32232; 32340; 32455; 32534;
     32763; 32854; 34920; 35582; 35834]%N);
   ((-4007805664848061, -49)%Z, [20837]%N);
   ((-3823483239398993, -49)%Z, [20843]%N);
   ((-6809532358714517, -50)%Z, [20844]%N);
   ((-6054597911877529, -50)%Z, [20851; 38364]%N);
   ((-4413437089101387, -49)%Z, [20852; 22766; 22767; 26063; 31532; 33288; 35264; 35266]%N);
   ((-7632438536495285, -50)%Z, [20854]%N);
   ((-3659707831258489, -49)%Z, [20855]%N);
   ((-8479757706088299, -50)%Z, [20859; 24046; 39178]%N);
   ((-4793314615353139, -49)%Z, [20860; 22577; 25253; 26143; 29031]%N);
   ((-2567269368870019, -48)%Z, [20882; 21334; 21542; 23961; 25077; 28316; 31563; 34434; 34718; 36067; 37586; 38155;
     38991; 39068]%N);
   ((-7864001155254233, -50)%Z, [20891; 25913; 36557]%N);
   ((-2446954574751497, -48)%Z, [20892; 22369; 22818; 24687; 26234; 26790; 27491; 35527; 35848; 36786; 38012;
     38179]%N);
   ((-2316964351386461, -48)%Z, [20901; 21183; 21187; 21218; 21892; 22799; 23448; 24576; 25079]%N);
   ((-8495181233675005, -50)%Z, [20915; 27770]%N);
   ((-542527960826471, -46)%Z, [20919]%N);
   ((-4972588128453161, -49)%Z, [20960; 20992; 21049; 21070; 21807; 22696; 23548; 23566; 24190; 28149; 28170; 30416;
     31179; 34382; 37707; 38149; 38663; 40573]%N);
   ((-8025800538664939, -50)%Z, [20986]%N);
   ((-4373209268656103, -49)%Z, [20987; 25802]%N);
   ((-1539456829582297, -48)%Z, [20998]%N);
   ((-1152814128282281, -47)%Z, [20999; 30707; 31105; 32305; 32437]%N);
   ((-4716865144083103, -49)%Z, [21017; 21063; 30610; 30622]%N);
   ((-2401822131055861, -48)%Z, [21019; 21109; 21497; 22022; 23458; 24062; 27714; 29616; 29694; 30142; 30410;
     31461]%N);
   ((-6530832720277069, -50)%Z, [21033]%N);
   ((-6156853777493051, -50)%Z, [21040]%N);
   ((-7197788230105941, -50)%Z, [21046; 21518; 24460]%N);
   ((-1226570543504145, -47)%Z, [21050; 21307; 22266; 22278; 22291; 27597; 30442; 30772; 33633; 37291; 38500; 40778;
     40784]%N);
   ((-4582380955442827, -49)%Z, [21051; 21095; 21127; 21333; 21916; 21934; 36824; 36996; 39340; 39532]%N);
   ((-7859577181362573, -50)%Z, [21069; 24573; 33041; 33126]%N);
   ((-4707999607261427, -49)%Z, [21103; 24369; 25480; 29827; 33134; 40664]%N);
   ((-4835821588520557, -49)%Z, [21106; 21290; 21295; 26174; 27719; 35584; 35851; 39023]%N);
   ((-6376427556901197, -50)%Z, [21147]%N);
   ((-558516927095951, -46)%Z, [21151; 28201; 28331; 30683; 35282]%N);
   ((-7714766887654335, -50)%Z, [21153; 21209]%N);
   ((-292116936202105, -45)%Z, [21155; 25918; 35336; 35745]%N);
   ((-2616801136361817, -49)%Z, [21160; 21205]%N);
   ((-5488413953282097, -49)%Z, [21163; 21382; 21402; 23700; 24402; 24656; 25300; 27511; 27512; 27530; 28193; 28246;
     28552; 28902; 29033; 32160; 32511; 33050; 33139; 35222; 35270; 35980; 36845; 36865; 37239; 37347; 38035;
     38477]%N);
   ((-6348395405849685, -50)%Z, [21171; 21214]%N);
   ((-1028373700870581, -47)%Z, [21213; 25670; 25850; 32988; 34917; 35036]%N);
   ((-6286671436444555, -50)%Z, [21270]%N);
   ((-4031103470359271, -49)%Z, [21271]%N);
   ((-8502972959629021, -50)%Z, [21315; 27468; 35469; 35748]%N);
   ((-7975752303327447, -50)%Z, [21322; 32080; 32467]%N);
   ((-4063747394352565, -49)%Z, [21335]%N);
   ((-2607548675501053, -48)%Z, [21355; 21450; 22855; 24536; 28041; 28151; 32745; 33521; 34907; 35686; 36305; 36317;
     36820]%N);
   ((-7904619183877345, -50)%Z, [21361]%N);
   ((-4603897585419663, -49)%Z, [21367; 25100; 26049; 29645]%N);
   ((-4171449357977805, -49)%Z, [21442; 21443]%N);
   ((-3980580801790845, -49)%Z, [21448]%N);
   ((-1770896702308391, -48)%Z, [21453]%N);
   ((-7070366697580043, -50)%Z, [21457; 30332]%N);
   ((-2270834021187589, -48)%Z, [21462; 33510; 36953; 36965]%N);
   ((-304371888534269, -45)%Z, [21463; 24034; 25512; 28107; 36895]%N);
   ((-5599566816903181, -50)%Z, [21464; 35722]%N);
   ((-8384347564864983, -50)%Z, [21475; 36617; 36733; 38290; 38386]%N);
   ((-3457552960353451, -49)%Z, [21476; 38272; 38376]%N);
   ((-5537818682345585, -50)%Z, [21487]%N);
   ((-3927585261240757, -49)%Z, [21490]%N);
   ((-4958687423345561, -49)%Z, [21491; 22353; 22827; 22841; 22846; 25805; 26149; 27735; 28526; 31169; 33080;
     33225]%N);
   ((-2131669247770895, -48)%Z, [21507]%N);
   ((-1523138297049701, -48)%Z, [21508]%N);
   ((-1563859826830159, -48)%Z, [21512]%N);
   ((-7044383238884507, -50)%Z, [21516]%N);
   ((-3708194234338975, -49)%Z, [21517]%N);
   ((-4135329394469263, -49)%Z, [21521]%N);
   ((-8457011479801535, -50)%Z, [21560]%N);
   ((-8653315942145537, -50)%Z, [21578; 23569; 32852; 32879]%N);
   ((-8239294646458717, -50)%Z, [21628; 24109; 36855]%N);
   ((-3723287630471989, -49)%Z, [21697]%N);
   ((-3586761103313611, -49)%Z, [21704]%N);
   ((-8609501078615287, -50)%Z, [21830; 30828; 32224; 32532]%N);
   ((-8534690547381499, -50)%Z, [21839; 38382]%N);
   ((-5422107998845515, -49)%Z, [22016; 22204; 23544; 23681; 24367; 24398; 24565; 24694; 24801; 24904; 25299; 25645;
     25935; 27506; 27874; 30011; 30059; 31661; 32824; 32883; 33310; 35430; 35613; 35797; 35874; 37326; 38598;
     38646]%N);
   ((-8302921738729685, -50)%Z, [22120; 25226; 26126; 31867; 36873; 36984; 39006]%N);
   ((-255779722728037, -45)%Z, [22235; 24066; 32654; 33853]%N);
   ((-1803150729076497, -48)%Z, [22238]%N);
   ((-4769826627810671, -50)%Z, [22269; 22283]%N);
   ((-4858342589777943, -49)%Z, [22280; 24357; 24396; 26223; 26224; 27905; 28500; 29275; 30830; 30906]%N);
   ((-494905676006381, -46)%Z, [22303]%N);
   ((-3528650007142165, -49)%Z, [22312]%N);
   ((-7076957350000349, -50)%Z, [22320]%N);
   ((-263355650775583, -45)%Z, [22330; 22580]%N);
   ((-7820524714855223, -50)%Z, [22522; 30495]%N);
   ((-6799155327590483, -50)%Z, [22768; 32882]%N);
   ((-2053704399382507, -48)%Z, [22788; 34389]%N);
   ((-6864725855155737, -50)%Z, [22797]%N);
   ((-6202531466405763, -50)%Z, [22806]%N);
   ((-6969847947677665, -50)%Z, [22810]%N);
   ((-4473909313058993, -49)%Z, [22812; 27880; 36830; 36899]%N);
   ((-5633286125648301, -50)%Z, [22823]%N);
   ((-3354915048448593, -49)%Z, [22825]%N);
   ((-8202775772509827, -50)%Z, [22833]%N);
   ((-6548606858423739, -50)%Z, [22836; 38957]%N);
   ((-1099503209464599, -47)%Z, [22899]%N);
   ((-8088951663942201, -50)%Z, [22909; 26465; 26781; 38582; 38584]%N);
   ((-1304992581314495, -48)%Z, [22914]%N);
   ((-1871767104626897, -48)%Z, [22920; 23229]%N);
   ((-4141726621872149, -49)%Z, [22987; 30719; 31014]%N);
   ((-8472124457143039, -50)%Z, [22996; 24453; 29579]%N);
   ((-581195900886633, -46)%Z, [23041; 26646; 26866; 31609; 31820; 36825; 36889; 40643; 40644]%N);
   ((-6480430669431451, -50)%Z, [23376]%N);
   ((-3506362555436023, -49)%Z, [23383]%N);
   ((-730095569798797, -47)%Z, [23398; 23416]%N);
   ((-2367513197483091, -48)%Z, [23433; 27178; 27243; 27721; 28450; 33104; 33609; 35380; 35785; 36007; 36139;
     38632]%N);
   ((-8567327612446691, -50)%Z, [23436; 24605; 27773]%N);
   ((-3126658484725135, -49)%Z, [23450]%N);
   ((-2261182505028761, -48)%Z, [23452; 25285; 25812; 26379; 26448; 31232; 31946; 39740]%N);
   ((-4932648472233231, -50)%Z, [23454; 23526]%N);
   ((-6892436029204861, -50)%Z, [23478]%N);
   ((-6497420775685873, -50)%Z, [23481]%N);
   ((-6537635761560151, -50)%Z, [23545; 23565]%N);
   ((-4497615971775349, -49)%Z, [23547; 23563; 32218; 32447; 32993]%N);
   ((-4783171098519685, -49)%Z, [23553; 28857; 29627; 32929; 36074; 36136; 40670; 40718]%N);
   ((-6369353816940687, -50)%Z, [23567]%N);
   ((-4462420139724823, -49)%Z, [23578; 30007; 30475; 30784; 30990]%N);
   ((-1479781565019709, -48)%Z, [23601]%N);
   ((-4158045154404745, -49)%Z, [23613; 30433]%N);
   ((-2915989929577631, -49)%Z, [23637]%N);
   ((-1133789969485745, -47)%Z, [23646; 23660; 37941; 38081]%N);
   ((-3613807568734901, -49)%Z, [23665]%N);
   ((-5769571446937765, -50)%Z, [24037]%N);
   ((-635110484557327, -46)%Z, [24049; 25214; 25269; 25454; 25818; 26550; 27599; 28748; 29238; 31216; 31281]%N);
   ((-4052654425506291, -49)%Z, [24050; 30446]%N);
   ((-2407083498760129, -48)%Z, [24052]%N);
   ((-6886839166444225, -50)%Z, [24065; 24163]%N);
   ((-2087425439309673, -48)%Z, [24178; 24185; 32113; 32479]%N);
   ((-8030929932078257, -50)%Z, [24179; 29369; 29494]%N);
   ((-5530542147553097, -50)%Z, [24180]%N);
   ((-8756166649348117, -50)%Z, [24207; 38548]%N);
   ((-8434715703573527, -50)%Z, [24212; 25033; 26408]%N);
   ((-8765999898811331, -50)%Z, [24248; 25943; 26415; 34899; 36133]%N);
   ((-6285579919241429, -50)%Z, [24314]%N);
   ((-7355514189286507, -50)%Z, [24320; 38283]%N);
   ((-1870185780373905, -48)%Z, [24322; 30064]%N);
   ((-7795222528544903, -50)%Z, [24335]%N);
   ((-8671330724976945, -50)%Z, [24341; 31680; 33410; 38431; 38538; 38902]%N);
   ((-7923152934179035, -50)%Z, [24375; 24378]%N);
   ((-7762347202997001, -50)%Z, [24403; 30070]%N);
   ((-7014808182524233, -50)%Z, [24418]%N);
   ((-2313134700790927, -48)%Z, [24425; 32966; 33213; 35258; 35273; 36300]%N);
   ((-1808799245918863, -48)%Z, [24466]%N);
   ((-6472674726658701, -50)%Z, [24471]%N);
   ((-3463307183741917, -49)%Z, [24515]%N);
   ((-7738305722144789, -50)%Z, [24517]%N);
   ((-4618712912911103, -49)%Z, [24525; 32047]%N);
   ((-4641693652824845, -49)%Z, [24555; 24811; 24970; 35352; 35760; 39592]%N);
   ((-7895465475677595, -50)%Z, [24590; 33394]%N);
   ((-2023594424522871, -48)%Z, [24597]%N);
   ((-8329414723571783, -50)%Z, [24613]%N);
   ((-3151586231606447, -49)%Z, [24615]%N);
   ((-7951538468872625, -50)%Z, [24773]%N);
   ((-2228381151812113, -48)%Z, [24778; 26438; 26751; 39514]%N);
   ((-1340244046350057, -48)%Z, [24819]%N);
   ((-3304740568907591, -49)%Z, [24847]%N);
   ((-1915421083554227, -48)%Z, [24863]%N);
   ((-2721027060471809, -49)%Z, [25104]%N);
   ((-7829086732594617, -50)%Z, [25105; 25442; 25563]%N);
   ((-7603933218844313, -50)%Z, [25112; 25136]%N);
   ((-6276885668263661, -50)%Z, [25152]%N);
   ((-7669116043752905, -50)%Z, [25163]%N);
   ((-3978169877534519, -49)%Z, [25171]%N);
   ((-8689638443911695, -50)%Z, [25289; 26497; 26681; 26997; 32622; 32676]%N);
   ((-7990534571338671, -50)%Z, [25351; 27794; 27809]%N);
   ((-2284240125167613, -48)%Z, [25509; 26800; 40635]%N);
   ((-7333163084922325, -50)%Z, [25597; 25900]%N);
   ((-544265548964921, -46)%Z, [25910; 37648; 38181]%N);
   ((-6321044265549241, -50)%Z, [25919]%N);
   ((-4503701976492659, -49)%Z, [25928]%N);
   ((-6327820012619965, -50)%Z, [25945]%N);
   ((-8356546154649783, -50)%Z, [25954; 28909; 29105; 33146]%N);
   ((-1868613290380699, -48)%Z, [26007; 39717]%N);
   ((-3819839537659537, -49)%Z, [26009]%N);
   ((-8559079224589501, -50)%Z, [26029; 26039; 28216; 32928; 33144; 36000; 36127; 36938]%N);
   ((-4589462180300275, -49)%Z, [26032; 29976; 31199]%N);
   ((-6119527710363325, -50)%Z, [26041]%N);
   ((-2743511311543, -39)%Z, [26080; 28961]%N);
   ((-3458507922335499, -49)%Z, [26085]%N);
   ((-2991995420919421, -49)%Z, [26102; 26178]%N);
   ((-5874331466996923, -50)%Z, [26159]%N);
   ((-8518720068165459, -50)%Z, [26292; 27882; 28122]%N);
   ((-2810563630593965, -49)%Z, [26377]%N);
   ((-6372885131618643, -50)%Z, [26399]%N);
   ((-7886385588508693, -50)%Z, [26410]%N);
   ((-6771941920473505, -50)%Z, [26412; 35328]%N);
   ((-1668458947658213, -48)%Z, [26426; 27231]%N);
   ((-7654301357552857, -50)%Z, [26435; 27402]%N);
   ((-4516075001006245, -49)%Z, [26512; 27784; 27785; 29978; 30633; 30682]%N);
   ((-7937256248942537, -50)%Z, [26530; 27166; 35672; 35782]%N);
   ((-8806214884685609, -50)%Z, [26641; 27193; 32000; 32426]%N);
   ((-3327751614867123, -49)%Z, [26679; 27171]%N);
   ((-571923462298533, -46)%Z, [26680; 28287; 28629; 29273; 32937; 38543; 38568]%N);
   ((-1684706207464965, -48)%Z, [26893]%N);
   ((-3556387141885553, -49)%Z, [26894]%N);
   ((-263127919416867, -45)%Z, [27169; 27602]%N);
   ((-1079448108562773, -47)%Z, [27442]%N);
   ((-1639573763769329, -48)%Z, [27492]%N);
   ((-3620140030933019, -49)%Z, [27493]%N);
   ((-1748025914251565, -48)%Z, [27494]%N);
   ((-8662287303611251, -50)%Z, [27515; 32085; 32477; 36884]%N);
   ((-2062933913997955, -48)%Z, [27573]%N);
   ((-229075004343097, -45)%Z, [27604]%N);
   ((-5722286157543493, -50)%Z, [27665]%N);
   ((-6504024313130949, -50)%Z, [27668; 27683]%N);
   ((-3635635044535907, -49)%Z, [27700]%N);
   ((-2196481962754675, -48)%Z, [27743]%N);
   ((-3272240079485621, -49)%Z, [27835]%N);
   ((-6289952351559373, -50)%Z, [27861]%N);
   ((-3796713539080707, -49)%Z, [27915]%N);
   ((-1883918990697205, -48)%Z, [27963]%N);
   ((-7103712666190321, -50)%Z, [27969]%N);
   ((-1684298568035701, -48)%Z, [27982; 28639]%N);
   ((-8405658609431805, -50)%Z, [28145]%N);
   ((-7600420267767099, -50)%Z, [28165]%N);
   ((-3810832146243833, -49)%Z, [28385; 28415]%N);
   ((-2012921108773121, -48)%Z, [28436]%N);
   ((-4313411478651719, -49)%Z, [28608; 35657; 35777]%N);
   ((-7263442248222867, -50)%Z, [28779]%N);
   ((-940723140501299, -47)%Z, [28797; 28798]%N);
   ((-4423959824509923, -49)%Z, [28856]%N);
   ((-4349452581061383, -49)%Z, [28895; 29017; 29677; 30408; 30427; 38899]%N);
   ((-1389554507707991, -48)%Z, [28982]%N);
   ((-1850398312607929, -48)%Z, [29289]%N);
   ((-7730404637742157, -50)%Z, [29305]%N);
   ((-3505322943038219, -49)%Z, [29366; 29376]%N);
   ((-7156841902921867, -50)%Z, [29615; 29872]%N);
   ((-6579340525894389, -50)%Z, [29702]%N);
   ((-5810313380927695, -50)%Z, [29983]%N);
   ((-3748311748140735, -49)%Z, [29992]%N);
   ((-8336136534025723, -50)%Z, [30000]%N);
   ((-8550890825538401, -50)%Z, [30001]%N);
   ((-3336148312211719, -49)%Z, [30005; 38651]%N);
   ((-836168037376603, -47)%Z, [30028]%N);
   ((-7295085546119699, -50)%Z, [30097]%N);
   ((-3873131322531455, -49)%Z, [30334]%N);
   ((-6328953278852375, -50)%Z, [30340]%N);
   ((-7565880752319961, -50)%Z, [30382]%N);
   ((-7149768162961357, -50)%Z, [30456]%N);
   ((-3440634994098119, -49)%Z, [30524]%N);
   ((-7110502032935605, -50)%Z, [30528; 33879]%N);
   ((-7807802546647457, -50)%Z, [30693]%N);
   ((-428026331731141, -46)%Z, [31038]%N);
   ((-7124204837856675, -50)%Z, [31070]%N);
   ((-3301838758598799, -49)%Z, [31181; 31278]%N);
   ((-1510556315229821, -48)%Z, [31185]%N);
   ((-1923880066681893, -48)%Z, [31354]%N);
   ((-8464542610937389, -50)%Z, [31505]%N);
   ((-6823518872823643, -50)%Z, [31561]%N);
   ((-3437864110964587, -49)%Z, [31649; 38454; 38542]%N);
   ((-3415288914765795, -49)%Z, [31687]%N);
   ((-6516009168060219, -50)%Z, [31995]%N);
   ((-7572704409005673, -50)%Z, [32005; 32418]%N);
   ((-7183165947872157, -50)%Z, [32026; 32423]%N);
   ((-7672850375225531, -50)%Z, [32039; 32202]%N);
   ((-8510818983762827, -50)%Z, [32048; 32454]%N);
   ((-1021652862152159, -47)%Z, [32068; 32452]%N);
   ((-6358825844998303, -50)%Z, [32147; 32463]%N);
   ((-4002756752499015, -49)%Z, [32162; 32504]%N);
   ((-451568697436085, -46)%Z, [32406; 32420; 38590; 38627]%N);
   ((-935487666009213, -47)%Z, [32769]%N);
   ((-4195703260786465, -49)%Z, [32773]%N);
   ((-5719643198802053, -50)%Z, [32780]%N);
   ((-455112037168617, -46)%Z, [33021]%N);
   ((-8208780586246647, -50)%Z, [33032; 33033; 38453; 38499]%N);
   ((-1508803936173889, -48)%Z, [33192]%N);
   ((-7722558613608351, -50)%Z, [33258]%N);
   ((-497875261955721, -46)%Z, [33267]%N);
   ((-4292003958076023, -49)%Z, [33268; 39131; 39134]%N);
   ((-3699328697517299, -49)%Z, [33324]%N);
   ((-2184188525272427, -48)%Z, [33391; 35576; 35832; 38451; 38525]%N);
   ((-6883123321794711, -50)%Z, [33402; 34269]%N);
   ((-3410002960873215, -49)%Z, [33457]%N);
   ((-1921978201495515, -48)%Z, [34507]%N);
   ((-7431380699608609, -50)%Z, [34892]%N);
   ((-4485637861310523, -49)%Z, [34903; 37782; 38145]%N);
   ((-819439810220839, -47)%Z, [35013; 35037]%N);
   ((-8121907184647147, -50)%Z, [35041; 37324]%N);
   ((-8179071741055267, -50)%Z, [35199]%N);
   ((-3353327036243459, -49)%Z, [35201]%N);
   ((-4039088709967291, -49)%Z, [35211; 35265]%N);
   ((-6870213599115887, -50)%Z, [35215; 35268]%N);
   ((-8138753881599955, -50)%Z, [35299]%N);
   ((-6901826408132369, -50)%Z, [35441; 35805]%N);
   ((-2094333147370291, -48)%Z, [35519; 35843]%N);
   ((-1634750329124077, -48)%Z, [35542; 35770]%N);
   ((-5937395230816423, -50)%Z, [36008; 36135]%N);
   ((-3216715985872241, -49)%Z, [36012; 36131; 38480]%N);
   ((-7850781043600713, -50)%Z, [36027; 36153]%N);
   ((-6996197842997191, -50)%Z, [36031; 36152]%N);
   ((-8994658761221545, -51)%Z, [36039; 36164]%N);
   ((-6216809373955781, -50)%Z, [36215]%N);
   ((-8575636874565573, -50)%Z, [36275]%N);
   ((-6701906771398069, -50)%Z, [36335]%N);
   ((-3656981676035407, -49)%Z, [36523]%N);
   ((-5657380376462411, -50)%Z, [36798; 36948]%N);
   ((-3338460224920677, -49)%Z, [36807; 36942]%N);
   ((-6440921355724957, -50)%Z, [36816; 36939]%N);
   ((-1933587062288365, -48)%Z, [36827; 36914; 38936; 39046]%N);
   ((-3633022743080717, -49)%Z, [36890]%N);
   ((-1869398437268337, -48)%Z, [36896]%N);
   ((-3709685493365777, -49)%Z, [36947]%N);
   ((-108841379672535, -44)%Z, [36991]%N);
   ((-5786952154962343, -50)%Z, [37096]%N);
   ((-6898060853094479, -50)%Z, [37325]%N);
   ((-2214647941488813, -48)%Z, [37327; 38450]%N);
   ((-2029086793452013, -48)%Z, [37329]%N);
   ((-4528726094161405, -49)%Z, [38275; 38378; 40654]%N);
   ((-488251707295839, -46)%Z, [38291; 38388]%N);
   ((-7643316881090731, -50)%Z, [38596]%N);
   ((-7799400269541795, -50)%Z, [38750]%N);
   ((-3669354700548993, -49)%Z, [38754]%N);
   ((-3887281617513869, -49)%Z, [38761]%N);
   ((-6647951894205307, -50)%Z, [39080; 39118]%N);
   ((-7220084006333949, -50)%Z, [39135]%N);
   ((-7068178358879777, -50)%Z, [39640]%N)];
  (* ('M', 'ln') *)
  [
   ((-6243314768165359, -53)%Z, [25919; 27665]%N)];
  (* ('M', 'm') *)
  [
   ((-5251651316769347, -51)%Z, [19968]%N);
   ((-2563720021761921, -48)%Z, [19969; 30003]%N);
   ((-4551193049684347, -50)%Z, [19971]%N);
   ((-7888056355836235, -51)%Z, [19975; 33836]%N);
   ((-426073509496163, -47)%Z, [19977]%N);
   ((-4891083340721933, -49)%Z, [19978]%N);
   ((-5043790772972989, -50)%Z, [19979]%N);
   ((-4907401873254529, -49)%Z, [19981]%N);
   ((-5596326195484345, -49)%Z, [19985; 26143; 36011; 36143; 37193; 37276]%N);
   ((-4802011144356075, -49)%Z, [19990]%N);
   ((-5234994580160307, -49)%Z, [19995; 21474; 31751]%N);
   ((-95502375317395, -43)%Z, [19997; 20848; 21333; 21934; 23447; 24230; 26479; 32068; 32114; 32452; 34349; 36784]%N);
   ((-1370862821006095, -48)%Z, [20004; 20841]%N);
   ((-7774283618120523, -51)%Z, [20010; 20491]%N);
   ((-2123215581676659, -48)%Z, [20037]%N);
   ((-3345539296710613, -49)%Z, [20043]%N);
   ((-4647868528155023, -50)%Z, [20061]%N);
   ((-6502359193323615, -49)%Z, [20065; 20239; 20493; 21317; 25346; 25499; 31687; 33391; 37129]%N);
   ((-1500807263920201, -49)%Z, [20108]%N);
   ((-496767695976455, -47)%Z, [20116]%N);
   ((-3562040690758025, -49)%Z, [20123]%N);
   ((-5797116338561203, -49)%Z, [20133; 20415; 21359; 21544; 22136; 25302]%N);
   ((-3636562249344413, -49)%Z, [20154]%N);
   ((-4622581297113143, -50)%Z, [20159; 20740]%N);
   ((-5721944847302945, -49)%Z, [20191; 20336; 25289; 29983; 35041; 37324]%N);
   ((-4830164508289161, -49)%Z, [20195; 30414]%N);
   ((-5368069631760887, -49)%Z, [20237; 24180; 25226; 26550]%N);
   ((-2941947728294911, -48)%Z, [20247; 27604; 30526]%N);
   ((-2452885612977893, -49)%Z, [20250; 26371]%N);
   ((-2356666084452301, -49)%Z, [20313; 39192]%N);
   ((-3446283183166975, -48)%Z, [20457; 20486; 20828; 21015; 21441; 21488; 22362; 22533; 22777; 22871; 24066; 24218;
     25420; 26080; 26578; 28961; 36019; 36144; 36635; 36742]%N);
   ((-8634466068139013, -50)%Z, [20799; 20818; 29255]%N);
   ((-4788445428817075, -49)%Z, [20809]%N);
   ((-1413909723216591, -47)%Z, [20811; 38867; 38889]%N);
   ((-5080500370655409, -49)%Z, [20840]%N);
   ((-4281213792774825, -50)%Z, [20843]%N);
   ((-1106417901045709, -48)%Z, [20844]%N);
   ((-8623004530422975, -51)%Z, [20845]%N);
   ((-2246119120905939, -49)%Z, [20960; 24190]%N);
   ((-279349570162023, -45)%Z, [20986]%N);
   ((-1358419912147923, -48)%Z, [20998]%N);
   ((-1032785539573325, -47)%Z, [21051]%N);
   ((-2589326300913705, -48)%Z, [21152; 22330; 22580; 22788; 34389]%N);
   ((-282700822544451, -47)%Z, [21313]%N);
   ((-7568584921391439, -51)%Z, [21315]%N);
   ((-165550282695777, -44)%Z, [21320]%N);
   ((-6435305521344101, -50)%Z, [21322]%N);
   ((-2387599468198013, -48)%Z, [21326; 33775]%N);
   ((-509449378309901, -46)%Z, [21400; 27493]%N);
   ((-4083202574054663, -49)%Z, [21452; 38617]%N);
   ((-4859800295602703, -49)%Z, [21472; 30090]%N);
   ((-1351727291387717, -47)%Z, [21477; 26723; 27284]%N);
   ((-1816554278908045, -48)%Z, [21491]%N);
   ((-7600495365329967, -50)%Z, [21608; 36913]%N);
   ((-7983704179296419, -51)%Z, [22235]%N);
   ((-565691856512109, -46)%Z, [22768; 32882]%N);
   ((-875777495909459, -48)%Z, [22810]%N);
   ((-5236888415852369, -50)%Z, [22823]%N);
   ((-4278006725991949, -49)%Z, [22825; 27627]%N);
   ((-5058421072012619, -49)%Z, [22836; 25163; 25668; 25885; 38957]%N);
   ((-8809960503997307, -50)%Z, [22909]%N);
   ((-1959193536662799, -48)%Z, [23376]%N);
   ((-5493688283579487, -49)%Z, [23478; 23493; 25104]%N);
   ((-619925428689957, -46)%Z, [23545; 23565]%N);
   ((-1164372679632693, -47)%Z, [23567]%N);
   ((-1779507035407409, -48)%Z, [23569]%N);
   ((-4202159018492117, -49)%Z, [23618; 23652]%N);
   ((-6658500554800087, -50)%Z, [24038]%N);
   ((-6274102629600157, -49)%Z, [24051; 24319; 25774; 26410; 30328; 32013; 32085; 32435; 32477; 33509; 38291;
     38388]%N);
   ((-3287674569876631, -49)%Z, [24178; 24185]%N);
   ((-4937960379634547, -50)%Z, [24179]%N);
   ((-2381128494091127, -48)%Z, [24456; 31181; 31278]%N);
   ((-5265431719856029, -49)%Z, [24494; 25100]%N);
   ((-79741892352643, -43)%Z, [24573]%N);
   ((-1288116040298147, -47)%Z, [25130; 28404]%N);
   ((-4251572294549883, -49)%Z, [25209]%N);
   ((-2946111627164475, -49)%Z, [25968; 25976]%N);
   ((-3807240939719547, -49)%Z, [25972]%N);
   ((-8328629545065311, -51)%Z, [26041]%N);
   ((-7161100603543823, -50)%Z, [26085]%N);
   ((-748316671061835, -46)%Z, [26092; 26102; 26178; 32066; 32173; 32456; 32500; 35211; 35265]%N);
   ((-2462103798734565, -48)%Z, [26188]%N);
   ((-5542671334202923, -49)%Z, [26377; 26679; 27171; 30002; 30058; 38754]%N);
   ((-5016701992540533, -49)%Z, [26421]%N);
   ((-7944655537115045, -50)%Z, [27425]%N);
   ((-2059384566889857, -48)%Z, [27663]%N);
   ((-4690293197645075, -49)%Z, [27861]%N);
   ((-1235382625320569, -47)%Z, [28023]%N);
   ((-3199034458571675, -49)%Z, [28207]%N);
   ((-2258597350122097, -48)%Z, [28595]%N);
   ((-1381853000102851, -48)%Z, [28857; 40670]%N);
   ((-4071829460911281, -49)%Z, [29926]%N);
   ((-3509825233699981, -50)%Z, [30334]%N);
   ((-4226323670416179, -49)%Z, [30636]%N);
   ((-5486990739648655, -50)%Z, [31435]%N);
   ((-8545239207976279, -50)%Z, [31532]%N);
   ((-1176821405484803, -48)%Z, [31995]%N);
   ((-3820335766834267, -50)%Z, [32654]%N);
   ((-1957768343862501, -48)%Z, [32922]%N);
   ((-1740134738079067, -48)%Z, [33521]%N);
   ((-3833652817528733, -49)%Z, [35377; 35768]%N);
   ((-4365688731068035, -49)%Z, [36335]%N);
   ((-2768132890279697, -49)%Z, [36649; 36744]%N);
   ((-7235666392764723, -51)%Z, [37096]%N);
   ((-4049750162268491, -49)%Z, [37327]%N);
   ((-199445483007925, -45)%Z, [38453; 38499]%N);
   ((-427275975311399, -46)%Z, [38646]%N);
   ((-8523995183255713, -50)%Z, [39318]%N);
   ((-4737232870513507, -49)%Z, [39340; 39532]%N)];
  (* ('M', 'mg') *)
  [
];
  (* ('M', 'mq') *)
  [
   ((-2325012858012791, -48)%Z, [19968]%N);
   ((-1105442288075531, -47)%Z, [19971; 24180]%N);
   ((-3339884840068377, -49)%Z, [19975; 33836]%N);
   ((-4031561979291789, -49)%Z, [19977]%N);
   ((-1357610015511563, -47)%Z, [19978; 20960; 24190; 26679; 27171; 29256]%N);
   ((-4811976325312459, -49)%Z, [19979; 21457; 30332]%N);
   ((-5970190004284957, -50)%Z, [19990]%N);
   ((-3397673991315005, -49)%Z, [19997; 32114]%N);
   ((-4728399024737167, -50)%Z, [20043]%N);
   ((-7606610831136661, -50)%Z, [20061]%N);
   ((-1917741370988583, -48)%Z, [20108; 34892]%N);
   ((-3287479590739395, -49)%Z, [20195]%N);
   ((-8161090059830451, -50)%Z, [20221]%N);
   ((-2264399668897447, -49)%Z, [20998]%N);
   ((-6736076408002925, -50)%Z, [21051]%N);
   ((-7889565722526341, -50)%Z, [21313; 27425]%N);
   ((-7811886654946377, -50)%Z, [21315]%N);
   ((-1603043797357293, -48)%Z, [21475]%N);
   ((-457215121601083, -51)%Z, [23395]%N);
   ((-6137793444341019, -51)%Z, [26041]%N);
   ((-5040232889035917, -49)%Z, [26143]%N);
   ((-3445275568966831, -49)%Z, [26376]%N);
   ((-7031472308925707, -50)%Z, [28857; 40670]%N);
   ((-2744783374915537, -49)%Z, [36947]%N);
   ((-1748980452936619, -49)%Z, [37096]%N);
   ((-8387025177157331, -50)%Z, [38754]%N)];
  (* ('M', 'n') *)
  [
   ((-3718460050892941, -49)%Z, [19968]%N);
   ((-8715442275566225, -50)%Z, [19969]%N);
   ((-679549853011029, -46)%Z, [19971; 20698; 21548; 30827; 31351; 31406; 32893; 37257]%N);
   ((-1258685356696001, -47)%Z, [19975; 30721; 30908; 32925; 33836; 34746]%N);
   ((-618833437943723, -46)%Z, [19976; 23385; 23403; 31629; 32654]%N);
   ((-4102863564734017, -49)%Z, [19977; 26519]%N);
   ((-8017418902018165, -50)%Z, [19978]%N);
   ((-6924918681674439, -50)%Z, [19979]%N);
   ((-265660094699713, -45)%Z, [19981; 31661]%N);
   ((-548504022842661, -46)%Z, [19982; 20538; 20661; 32819; 33287]%N);
   ((-752195934039677, -46)%Z, [19987; 20828; 22368; 22684; 22904; 22992; 23014; 23158; 23352; 23521; 23560; 26049;
     26543; 26613; 26629; 26834; 27204; 28792; 30003; 30105; 30338; 31456; 31961; 32987; 33655; 37396; 38046;
     38567]%N);
   ((-914586448418057, -47)%Z, [19990]%N);
   ((-4671622982387705, -49)%Z, [19992; 25773; 28207]%N);
   ((-1203842597661945, -47)%Z, [19993; 22441; 22538]%N);
   ((-8452024837797037, -51)%Z, [19994; 26989]%N);
   ((-2836210168931807, -48)%Z, [19995; 20805; 21021; 21474; 21892; 24040; 24361; 26086; 31548; 31665; 31840; 33285;
     34917; 35036; 36341; 36368]%N);
   ((-4279437072881705, -49)%Z, [19996; 23612; 26481]%N);
   ((-2155458839481113, -48)%Z, [19997; 32114]%N);
   ((-2396399608916765, -48)%Z, [19998]%N);
   ((-601602165657333, -46)%Z, [20004; 20841; 24402; 27512]%N);
   ((-6137799002132207, -49)%Z, [20005; 21467; 21693; 21971; 22196; 24062; 25100; 25746; 26051; 26885; 29422; 29509;
     30129; 30384; 31040; 31207; 31291; 32670; 32736; 32784; 34935; 34966; 36635; 36742; 36771; 37228; 38928;
     39044]%N);
   ((-5264890261040133, -49)%Z, [20006; 22818; 24182; 26790; 29436; 33324; 33527; 36838]%N);
   ((-826848161646395, -46)%Z, [20007; 20081; 20098; 20139; 20280; 20420; 21742; 21930; 22915; 23578; 23653; 24218;
     24330; 24466; 24944; 25668; 25885; 26159; 26797; 26946; 27902; 28039; 29141; 29228; 29425; 29508; 29609; 30208;
     30415; 30430; 31546; 31581; 31627; 31631; 32027; 32439; 32568; 33545; 33606; 33610; 34560; 36259; 36764; 37101;
     38544; 38577; 39912; 40120]%N);
   ((-4477412460327373, -49)%Z, [20010; 20491]%N);
   ((-5734345336700823, -49)%Z, [20011; 20603; 20674; 24070; 24930; 26012; 27975; 28382; 28399; 28550; 30571; 33446;
     34310; 36339; 36884; 40289; 40521]%N);
   ((-7470973582299143, -50)%Z, [20013]%N);
   ((-6843041856894619, -49)%Z, [20016; 20254; 20632; 20976; 21073; 21133; 21351; 21397; 21899; 22521; 22914; 22958;
     23435; 23588; 23803; 24248; 24257; 24778; 25195; 25346; 25377; 25475; 25499; 25803; 25975; 26531; 26607; 26839;
     27495; 27617; 27656; 27794; 27809; 28120; 28525; 29924; 31967; 32560; 32954; 33067; 33071; 33073; 33253; 33491;
     34442; 34468; 34567; 35920; 36002; 36129; 37200; 37221; 37463; 37499; 38067; 38124; 38321; 38405; 38506; 38808;
     38849; 39514; 40230; 40495]%N);
   ((-1613208670971071, -47)%Z, [20018; 20044; 21634; 22317; 22857; 25166; 25196; 25300; 25528; 25562; 25763; 28866;
     28879; 28900; 28919; 28938; 29211; 29322; 29346; 29378; 30418; 30844; 31227; 31293; 32039; 32091; 32202; 32486;
     32666; 33704; 33770; 33891; 33945; 34512; 36064; 36180; 36300; 37231; 37484; 38000; 38053; 38076; 38312; 38394;
     40372; 40548]%N);
   ((-6062627510873949, -49)%Z, [20020; 20223; 20325; 20681; 21315; 22365; 22761; 24613; 25311; 25615; 25836; 26705;
     26725; 27211; 27713; 27882; 28122; 28378; 28414; 28577; 31726; 31811; 33256; 33433; 38346; 38420]%N);
   ((-1736419942199869, -47)%Z, [20024; 20141; 20170; 20356; 20754; 20877; 21361; 21542; 21796; 21862; 21914; 22467;
     22635; 22805; 23394; 23490; 23883; 24343; 26840; 27185; 27280; 27387; 28020; 28173; 28460; 28818; 28844; 29369;
     29494; 30111; 30192; 30247; 30249; 31186; 31482; 31799; 32361; 32365; 32499; 32597; 32718; 32728; 32761; 32874;
     32880; 33575; 33583; 33660; 33722; 33905; 33922; 34028; 34085; 34223; 34972; 35140; 35178; 35492; 35641; 35823;
     35880; 35916; 36386; 36831; 36930; 36978; 37226; 38704; 38742; 39608; 40227; 40367; 40490; 40654]%N);
   ((-4987650646693239, -49)%Z, [20025]%N);
   ((-2508080266862319, -48)%Z, [20026; 21327; 21332; 26364; 28858; 31077; 33032; 33033; 35347; 35386; 35757;
     35786]%N);
   ((-8879616446406491, -51)%Z, [20027]%N);
   ((-2925114870513365, -48)%Z, [20029; 20937; 23016; 24034; 25119; 25320; 25765; 26410; 27442; 27875; 28092; 28297;
     31735; 31921; 32020; 32431; 35377; 35768; 40599; 40860; 40863]%N);
   ((-4635167149915425, -49)%Z, [20030; 28857; 33289; 40670]%N);
   ((-5242592298594469, -49)%Z, [20035; 23500; 24425; 25299; 26080; 28014; 28961; 30000]%N);
   ((-4675601443846765, -49)%Z, [20037]%N);
   ((-7186266317159847, -50)%Z, [20041; 32681]%N);
   ((-4167008480227285, -49)%Z, [20043]%N);
   ((-359224489320117, -45)%Z, [20047; 21402; 21435; 21703; 22612; 23492; 24046; 26224; 28291; 28528; 29481; 29595;
     29802; 32764; 32986; 34532; 36011; 36143; 38534]%N);
   ((-6941702593576027, -50)%Z, [20048; 27138]%N);
   ((-2562338935976381, -48)%Z, [20051; 21628; 24441; 27891; 29492; 31896; 36009; 36137; 37806; 38215; 38543;
     38568]%N);
   ((-721882281221059, -46)%Z, [20056; 24524; 27696; 29313; 29645; 30782; 31019; 31397; 31418; 32221; 32521; 35422;
     35789; 36556; 36712; 39740]%N);
   ((-2215152174417005, -48)%Z, [20057]%N);
   ((-2917185473575245, -48)%Z, [20061; 20433; 20559; 20598; 24739; 25237; 27264; 27468; 27728; 31398; 31431; 36785;
     36882; 36958]%N);
   ((-4197760255219947, -49)%Z, [20064; 21306; 21312; 31574; 32722]%N);
   ((-2500862564302625, -48)%Z, [20065; 37129; 40657]%N);
   ((-3150572620431233, -49)%Z, [20070; 26360]%N);
   ((-4452693613504685, -49)%Z, [20080; 36023]%N);
   ((-8547084510218301, -50)%Z, [20083]%N);
   ((-1865376398407103, -47)%Z, [20102; 20332; 20365; 20391; 20393; 20431; 20596; 20744; 20812; 20817; 20984; 21162;
     21242; 21452; 21671; 21674; 21737; 21863; 21878; 21937; 22038; 22336; 22367; 22376; 22707; 22831; 23624; 23830;
     24811; 24859; 24970; 25140; 25159; 25414; 25467; 25514; 25688; 26407; 26417; 26575; 26729; 26803; 26842; 27051;
     27135; 27137; 27605; 27670; 27739; 27900; 28316; 28431; 28497; 29076; 29233; 29245; 29261; 29272; 29520; 30050;
     30106; 30153; 30169; 30683; 31069; 31096; 31117; 31162; 32085; 32311; 32477; 32533; 32745; 32999; 33008; 33395;
     33399; 33426; 33576; 33589; 34383; 34396; 34467; 35065; 36007; 36042; 36139; 36156; 36235; 36264; 36381; 36454;
     36538; 36991; 37266; 37438; 37575; 38049; 38080; 38463; 38605; 38613; 38617; 38669; 39378; 39409; 39545; 39558;
     39914; 40110]%N);
   ((-7851712766638747, -49)%Z, [20104; 20387; 20390; 20406; 20597; 20961; 21059; 21290; 21527; 21537; 21545; 21604;
     21647; 21966; 22013; 22139; 22275; 22545; 22604; 22649; 22930; 23047; 23100; 23308; 23447; 24080; 24115; 24199;
     24217; 24287; 24509; 24594; 24709; 24735; 24742; 24809; 25026; 25074; 25366; 25620; 25622; 25670; 25671; 25850;
     26025; 26028; 26127; 26179; 26743; 26786; 27036; 27712; 27860; 28003; 28065; 28073; 28107; 28129; 28198; 28544;
     28572; 28734; 28889; 29572; 29619; 29671; 30127; 30137; 30219; 30271; 30317; 30585; 30643; 31095; 31103; 31108;
     31153; 31167; 31171; 31232; 31454; 31469; 31478; 31563; 31636; 32121; 32233; 32283; 32353; 32482; 32483; 32531;
     32538; 32701; 32763; 32768; 32927; 32957; 33160; 33298; 33311; 33351; 33424; 33436; 33476; 33489; 33492; 33502;
     33644; 34047; 34122; 34130; 34154; 34384; 34430; 34460; 34496; 34502; 34510; 34516; 34662; 34719; 34838; 34851;
     34893; 34993; 35412; 35424; 35791; 35961; 36032; 36060; 36154; 36176; 36321; 36399; 36460; 36497; 36820; 36857;
     37112; 37170; 37440; 37615; 37872; 38078; 38150; 38234; 38646; 38684; 38774; 38819; 38918; 39019; 39025; 39034;
     39045; 39076; 39165; 39180; 39243; 39281; 39285; 39304; 39882; 40104; 40251; 40511]%N);
   ((-1857050853451887, -48)%Z, [20105; 23545; 23565; 29229]%N);
   ((-5512253490787071, -50)%Z, [20107]%N);
   ((-8316361717752943, -50)%Z, [20108; 32000; 32426]%N);
   ((-5421183034226413, -49)%Z, [20110; 20992; 22696; 26044; 26639; 26829; 27396; 27934; 30967; 33167; 39184]%N);
   ((-1225217882166155, -47)%Z, [20113; 25496; 38642]%N);
   ((-1391471640745437, -47)%Z, [20114; 20813; 32305; 32437; 33889; 34218; 37027]%N);
   ((-166401097855401, -44)%Z, [20116; 20160; 20392; 20689; 23777; 23805; 24247; 31168; 32094; 32478; 36305; 37656;
     38180]%N);
   ((-2506258415992591, -48)%Z, [20117]%N);
   ((-8666578990248835, -50)%Z, [20122; 20126; 34507; 36092; 36141; 38556]%N);
   ((-2329926782571239, -48)%Z, [20129; 24030]%N);
   ((-6221836385229185, -50)%Z, [20132]%N);
   ((-1145312190164123, -48)%Z, [20135; 29986]%N);
   ((-521383407173339, -46)%Z, [20140]%N);
   ((-6224578120160825, -49)%Z, [20142; 20917; 21208; 21329; 22028; 22438; 22718; 23721; 24055; 25331; 25438; 25736;
     25925; 26837; 27841; 27850; 31109; 31146; 32066; 32456; 32629; 33485; 33510; 33620; 33980; 35014; 35168; 37210;
     37233; 37239; 37292; 37912; 38047; 39554; 39606; 40441; 40560; 40718]%N);
   ((-5008896562573287, -49)%Z, [20146; 23381; 33180; 35242]%N);
   ((-2754874500058941, -49)%Z, [20154]%N);
   ((-6407774645327751, -49)%Z, [20161; 20417; 20451; 21676; 21860; 22391; 23507; 25480; 26021; 26045; 26646; 26827;
     26866; 28046; 30712; 31359; 32822; 33179; 33588; 33643; 33760; 34093; 34584; 35250; 35280; 36198; 36310; 36448;
     36763; 36779; 36782; 37066; 37563; 37569; 38109; 38161; 39015; 39038; 39491; 39584; 39955; 40131]%N);
   ((-5996321556437367, -49)%Z, [20167; 21713; 21854; 23002; 23627; 24677; 26020; 26792; 27760; 31179; 32827; 33538;
     33725; 37709; 38208; 40232; 40493]%N);
   ((-4780639998849829, -49)%Z, [20171; 22920; 23229; 25240; 27966; 32932; 33178; 35430; 35797]%N);
   ((-6111610561497385, -49)%Z, [20174; 20845; 21346; 21891; 24198; 24328; 24478; 24694; 24801; 24950; 25371; 25490;
     25891; 26694; 28103; 29632; 30439; 33769; 36953; 36965; 37467; 38085; 38472; 38515; 39851; 40091]%N);
   ((-1479637457456113, -47)%Z, [20177; 20208; 20511; 21002; 21917; 23610; 23833; 24913; 25086; 27941; 31471; 32961;
     33018; 33029; 33162; 33473; 34031; 34433; 34811; 36015; 36142; 36637; 36745; 38519]%N);
   ((-8552963896460217, -50)%Z, [20179; 20489; 22763]%N);
   ((-5282213164853279, -49)%Z, [20180; 26144; 26438; 26751; 35582; 35834; 37857; 38236; 40763]%N);
   ((-2580652709398457, -48)%Z, [20182; 20363; 32922; 36801; 36983]%N);
   ((-1484252214763837, -47)%Z, [20183; 22055; 22995; 24039; 24452; 24465; 24555; 26263; 29420; 29544; 30086; 33109;
     33276; 37624; 38191]%N);
   ((-5111534474478145, -49)%Z, [20184; 21450; 23395; 33976]%N);
   ((-4944196743187459, -49)%Z, [20185; 22270; 22294; 22788; 34389; 40736]%N);
   ((-1838839654221755, -48)%Z, [20195]%N);
   ((-6869831596952429, -50)%Z, [20196]%N);
   ((-5638291709835867, -49)%Z, [20197; 22362; 22533; 33125; 35516; 35850; 36203; 36367; 37550; 38014; 38750]%N);
   ((-5556263252518367, -49)%Z, [20202; 20736; 21451; 21916]%N);
   ((-5306172097807969, -49)%Z, [20204; 20497; 24908; 26525; 30496; 32592; 36036; 36159; 38500]%N);
   ((-4810275786163371, -49)%Z, [20214; 21078; 22909; 29066]%N);
   ((-933496397596045, -47)%Z, [20215; 20729]%N);
   ((-3909337392808509, -49)%Z, [20219]%N);
   ((-7704870360786259, -50)%Z, [20221]%N);
   ((-8365180054274717, -50)%Z, [20225]%N);
   ((-2787838621865655, -48)%Z, [20237; 22240; 22969; 24369; 25340; 26023; 26441; 26898; 27694; 28448; 37762;
     38209]%N);
   ((-6290884074597407, -49)%Z, [20239; 21264; 21273; 21777; 22737; 23391; 24189; 24868; 24996; 25720; 26151; 26421;
     28814; 29157; 29738; 29840; 31165; 31258; 31348; 31487; 31572; 32162; 32377; 32386; 32462; 32504; 32963; 33040;
     33229; 34989; 35186; 39389; 39548]%N);
   ((-2444540784961973, -48)%Z, [20240; 20542; 20670; 27849; 32232; 32534]%N);
   ((-5318545122321555, -49)%Z, [20241; 20999; 22766; 22767; 27426; 27489; 33145; 33151; 38940; 39052]%N);
   ((-4960515275720055, -49)%Z, [20247; 22859; 22894; 25915; 25972; 30526]%N);
   ((-5460022568016395, -49)%Z, [20248; 20778; 21305; 21531; 27844; 27945; 29943; 34593; 34847]%N);
   ((-990186236475547, -47)%Z, [20249; 22821]%N);
   ((-2831260534481641, -49)%Z, [20250; 26371]%N);
   ((-7524066502709457, -50)%Z, [20256; 20659]%N);
   ((-2330899063250287, -48)%Z, [20260; 20663; 21807; 30011; 30059; 37666; 38065]%N);
   ((-812727216813465, -46)%Z, [20262; 20266; 20440; 20523; 20605; 20885; 21005; 21413; 21508; 21514; 21534; 21568;
     22346; 22350; 24310; 24525; 25101; 25250; 25554; 25654; 25788; 25806; 26580; 26643; 26791; 27631; 28180; 28417;
     28872; 29399; 30178; 30270; 30318; 30331; 31267; 31308; 33096; 33467; 36001; 36130; 36394; 37051; 37168; 37365;
     37476; 38039; 38057; 38706; 38797; 38950; 39055; 39173; 39187; 39292; 39295]%N);
   ((-8491779409074845, -50)%Z, [20271]%N);
   ((-5331196215476715, -49)%Z, [20272; 20923; 20941; 30171; 31481; 33108; 36617; 36733; 36870; 37038; 37109]%N);
   ((-1371170313100417, -47)%Z, [20276; 21050; 21507; 25324; 25674; 25892; 29004; 30701; 31363; 31434; 31449; 32724;
     34121; 34453; 34870]%N);
   ((-2578297256517339, -48)%Z, [20284]%N);
   ((-3616624514952477, -48)%Z, [20285; 20320; 20570; 20711; 20731; 20872; 20993; 21032; 21311; 21477; 21482; 21543;
     21553; 21661; 21679; 21994; 22109; 22122; 22581; 22697; 22937; 22986; 23630; 23713; 24086; 24119; 24132; 24184;
     24680; 24736; 25153; 25449; 25658; 25884; 26197; 26248; 26286; 26709; 26862; 27584; 27585; 27778; 27813; 27825;
     27839; 28151; 28418; 28701; 29295; 29483; 29549; 29562; 29642; 29705; 29756; 29785; 29898; 30014; 30126; 30174;
     30241; 30344; 30640; 30896; 31174; 31240; 31494; 31699; 31757; 32660; 32671; 32677; 32679; 32792; 33074; 33134;
     33778; 33820; 33852; 33907; 34015; 34091; 34183; 34186; 34656; 34905; 35206; 35475; 35987; 36111; 36194; 36196;
     36575; 36719; 36887; 37424; 38013; 38075; 38088; 38552; 38604; 38753; 38982; 39063; 40219; 40499; 40806;
     40840]%N);
   ((-6327216032065683, -49)%Z, [20291; 21040; 22040; 22099; 23528; 24339; 24840; 25242; 25463; 25771; 25932; 25973;
     28322; 30606; 30634; 32371; 32564; 33046; 33580; 35548; 35853; 36649; 36744; 39522; 39540]%N);
   ((-4004451570447315, -49)%Z, [20301]%N);
   ((-8605247213936493, -50)%Z, [20302]%N);
   ((-2232458686905633, -48)%Z, [20303; 22918; 22941; 28342]%N);
   ((-7473984011651057, -50)%Z, [20307; 39636]%N);
   ((-4512155614681087, -49)%Z, [20308; 21344; 27901; 28201; 28331; 28580; 35731; 35753]%N);
   ((-2315731759221111, -48)%Z, [20309; 21518; 23110; 24460; 27431; 27472; 35370; 35775]%N);
   ((-1084687442565931, -47)%Z, [20313; 20837; 26524; 39192]%N);
   ((-4717013487612619, -49)%Z, [20315]%N);
   ((-2837249017037535, -49)%Z, [20316]%N);
   ((-328702026558721, -45)%Z, [20323; 20653; 22218; 22280; 25308; 25937; 26494]%N);
   ((-422266421179125, -45)%Z, [20339; 21564; 21736; 22025; 22323; 22840; 23039; 23544; 24537; 25233; 25260; 26429;
     26647; 27067; 30900; 31204; 31310; 31423; 31491; 31567; 31716; 32184; 32438; 32626; 32945; 32958; 33102; 33150;
     33688; 34067; 34103; 34115; 34196; 34758; 34885; 35463; 35494; 35829; 36867; 37313; 37336; 38025; 39062; 39472;
     40607]%N);
   ((-2726018664204187, -48)%Z, [20348; 20995; 21574; 25343; 26825; 38971; 39057]%N);
   ((-1267453848751515, -47)%Z, [20351; 20852; 23186; 31192; 32844; 32887; 33288]%N);
   ((-8556900613431915, -50)%Z, [20358; 26469]%N);
   ((-1191011647101207, -47)%Z, [20360; 21857; 22609; 22797; 22900; 27016; 27354; 30446]%N);
   ((-5226429945825233, -49)%Z, [20379; 21103; 26001; 30058]%N);
   ((-700764297928379, -46)%Z, [20384; 20448; 21283; 21912; 22068; 23608; 23629; 26462; 30442; 32972; 33633; 34299;
     35980]%N);
   ((-4622309658974847, -49)%Z, [20399; 21161; 26679; 27171; 33337]%N);
   ((-5803933807454769, -49)%Z, [20405; 20882; 23156; 23344; 23487; 26700; 27531; 27544; 30044; 30862; 31295; 32899;
     32901; 34588; 37238; 37275; 38931; 39039; 40285; 40517]%N);
   ((-5444163774140155, -49)%Z, [20415; 21367; 28783; 29128; 31946; 36062; 36175; 38468]%N);
   ((-5215907210416697, -49)%Z, [20439; 27679; 29260; 29627; 29916; 31570; 33673]%N);
   ((-6915242379822571, -50)%Z, [20445]%N);
   ((-8321149392891421, -50)%Z, [20449]%N);
   ((-301769521178847, -45)%Z, [20462; 38307; 38401]%N);
   ((-2457982462398817, -48)%Z, [20493; 27743; 33714; 34030; 39208; 39302]%N);
   ((-2797892368334225, -48)%Z, [20498; 20964; 22530; 23601; 25098; 25588; 25735; 28192; 29976; 40179]%N);
   ((-38218796811273, -42)%Z, [20505; 34928]%N);
   ((-6086586443828639, -49)%Z, [20513; 21523; 21561; 22151; 22359; 22602; 22865; 22934; 23460; 24724; 25329; 26071;
     26257; 26391; 26848; 26973; 30113; 30221; 30590; 31176; 31515; 31868; 32959; 33131; 33267; 33333; 33978; 34638;
     34829; 35109; 36864; 37670; 38182]%N);
   ((-118694809641929, -44)%Z, [20540; 39511; 39564]%N);
   ((-5384851076758137, -49)%Z, [20551; 21333; 21934; 26087; 32982; 33290]%N);
   ((-2327992239033781, -48)%Z, [20572]%N);
   ((-71971854747829, -43)%Z, [20581; 26434; 33146; 38620]%N);
   ((-1227469730020081, -47)%Z, [20607; 20767; 32789; 33391]%N);
   ((-3692453942228433, -49)%Z, [20633; 22791]%N);
   ((-2296127479060443, -48)%Z, [20648; 20786]%N);
   ((-4269646392132143, -49)%Z, [20687; 23736]%N);
   ((-3340545623803871, -48)%Z, [20721; 20769; 20960; 21215; 21505; 21683; 21708; 22942; 23067; 23081; 23089; 23389;
     24190; 25096; 25424; 25954; 26690; 27667; 27899; 28072; 28392; 28422; 28466; 28657; 28681; 29006; 29060; 29701;
     29807; 30239; 30473; 30561; 31858; 32362; 32472; 32937; 33261; 34619; 34741; 35628; 35884; 35970; 36524; 36594;
     36628; 36721; 36741; 36814; 36861; 37414; 37610; 38043; 38138; 38599; 38643; 38722; 38929; 39037; 40018;
     40159]%N);
   ((-7071298420618077, -49)%Z, [20725; 20806; 20973; 20975; 20977; 21321; 21388; 21400; 21421; 21563; 22179; 22204;
     22210; 22353; 22363; 22484; 22727; 22949; 24246; 24551; 24962; 24977; 25315; 25536; 25569; 25776; 26280; 26355;
     26487; 26742; 26805; 27965; 28024; 28085; 28465; 29790; 30168; 30220; 30315; 30322; 30775; 30879; 30910; 31206;
     31607; 32058; 32350; 32448; 32469; 32842; 33480; 33806; 34180; 34268; 34294; 34632; 34760; 34900; 34923; 34957;
     35029; 35355; 35594; 35769; 35854; 36214; 36245; 36824; 36996; 37431; 37532; 38068; 39250; 39286; 39336; 39341;
     39533; 40009; 40150]%N);
   ((-975302002584049, -47)%Z, [20799; 20818]%N);
   ((-3277736297894571, -48)%Z, [20800; 21348; 21557; 21558; 21584; 22065; 22225; 22234; 22561; 22885; 22887; 23273;
     23451; 23617; 24090; 24432; 26195; 26313; 26356; 26367; 26943; 27099; 27323; 27978; 28609; 30196; 30201; 30202;
     30406; 32172; 32321; 32502; 33448; 33495; 34728; 34766; 35126; 35506; 35838; 36020; 36149; 37255; 37555; 37956;
     38136; 38160; 38331; 38414; 38518; 40565]%N);
   ((-7309505662762721, -50)%Z, [20803; 30028]%N);
   ((-19086610395953, -41)%Z, [20804]%N);
   ((-8812583239431467, -50)%Z, [20808; 23384]%N);
   ((-7836210915115335, -50)%Z, [20809]%N);
   ((-3550976496533593, -49)%Z, [20811]%N);
   ((-5956093735992083, -49)%Z, [20820; 21369; 22681; 24676; 27748; 27888; 28271; 29096; 29254; 29368; 29505; 30284;
     30423; 30428; 31903; 31914; 31966; 33479; 33879; 33894; 35433; 35799; 36028; 36148; 39438; 39569]%N);
   ((-3844169861314837, -49)%Z, [20826; 40680]%N);
   ((-6976040194824237, -50)%Z, [20839; 20869]%N);
   ((-7682883008038291, -50)%Z, [20840]%N);
   ((-1184172852924403, -47)%Z, [20843; 24358; 38464; 38477]%N);
   ((-598480173260397, -47)%Z, [20844]%N);
   ((-8059722880285403, -50)%Z, [20848; 34349]%N);
   ((-4061815063010575, -49)%Z, [20849]%N);
   ((-7915896736204387, -50)%Z, [20851; 38364; 38761]%N);
   ((-7891611679075175, -50)%Z, [20853]%N);
   ((-2283503166993591, -48)%Z, [20854]%N);
   ((-5005299426031213, -49)%Z, [20855; 29808]%N);
   ((-8938103327552945, -50)%Z, [20856]%N);
   ((-1023923032691495, -47)%Z, [20859; 39178]%N);
   ((-6366055565855665, -49)%Z, [20861; 20943; 21547; 21766; 21868; 21959; 22418; 22475; 22744; 23233; 24616; 25353;
     26053; 26088; 26974; 28187; 29226; 29312; 29560; 30140; 30187; 30279; 30872; 31377; 31391; 31407; 33707; 33735;
     33750; 34276; 35105; 36555; 36711; 37321]%N);
   ((-1264469903299181, -47)%Z, [20874; 20876; 30952; 32974; 34432; 34645; 38913; 39029]%N);
   ((-1384374129070373, -47)%Z, [20889; 22402; 23531; 27927; 31505; 33034]%N);
   ((-4255272420957643, -49)%Z, [20891; 20892; 24819; 28023; 31867; 36557; 36786; 39006]%N);
   ((-5649439597949871, -49)%Z, [20896; 25115; 30450; 40664]%N);
   ((-1564188861642415, -47)%Z, [20908; 21465; 22404; 22427; 22751; 22841; 22846; 24359; 25187; 25944; 26202; 27133;
     28393; 28760; 28796; 29577; 29750; 30465; 32412; 32518; 33455; 33738; 34071; 34394; 34395; 36104; 36192; 37259;
     37492; 37969; 38654; 38695; 39361; 39539]%N);
   ((-1232084487327805, -47)%Z, [20912; 21183; 21218; 23486; 36051]%N);
   ((-2600241479586853, -48)%Z, [20914; 26234; 34909]%N);
   ((-8918903594701435, -50)%Z, [20915; 27770; 38647]%N);
   ((-2647032590290279, -48)%Z, [20919; 26174; 30528; 36424; 39023]%N);
   ((-4745662915569657, -49)%Z, [20928; 28136; 36031; 36152]%N);
   ((-8884092977017491, -50)%Z, [20934; 24449; 24501; 28310]%N);
   ((-2060228591321975, -48)%Z, [20957]%N);
   ((-4194353588524871, -49)%Z, [20986; 33647; 34277]%N);
   ((-6784977903958339, -50)%Z, [20987; 25802]%N);
   ((-5585641219834995, -49)%Z, [20989; 25130; 27819; 35302; 35320]%N);
   ((-5979106993839609, -50)%Z, [20998]%N);
   ((-5684272353590893, -49)%Z, [21009; 21170; 21185; 21368; 23234; 23869; 24029; 25307; 27953]%N);
   ((-4438105165851217, -49)%Z, [21010; 21123]%N);
   ((-8021088323756657, -50)%Z, [21015]%N);
   ((-171929426484015, -44)%Z, [21017; 21063; 28526; 33334; 35712; 35835]%N);
   ((-4648325176876495, -49)%Z, [21018; 21083]%N);
   ((-2384368932582695, -48)%Z, [21019; 21109; 31216; 31281]%N);
   ((-4509177036550241, -49)%Z, [21028]%N);
   ((-4734470698942427, -49)%Z, [21029; 21035]%N);
   ((-2880229875851033, -49)%Z, [21033]%N);
   ((-2987924196422665, -48)%Z, [21038; 24367; 24398; 24407; 24651; 25088; 25193; 25429; 25844; 26505; 30742; 30938;
     30970; 33618; 38548; 38795]%N);
   ((-3601660638765893, -49)%Z, [21046; 21335]%N);
   ((-4582019222439913, -49)%Z, [21047]%N);
   ((-7220638562594437, -50)%Z, [21048]%N);
   ((-5094474079391333, -49)%Z, [21051; 25505; 30899; 37319]%N);
   ((-720144693082609, -46)%Z, [21058; 21137; 24202; 26757; 28286; 28404; 28771; 30427; 31361; 39318]%N);
   ((-2569067741901891, -48)%Z, [21066; 29190; 29575; 31389; 31401; 32009; 32427; 33469]%N);
   ((-1266452154214275, -47)%Z, [21069; 22781; 23551; 24490; 38634; 38745; 38748]%N);
   ((-8366844355992169, -50)%Z, [21095; 21127]%N);
   ((-5476341100548991, -49)%Z, [21106; 21191; 22443; 22666; 23035; 33218; 34678; 36343; 36474; 40165; 40479]%N);
   ((-6636270809716311, -50)%Z, [21147]%N);
   ((-1074886141454711, -47)%Z, [21150; 22235; 36774]%N);
   ((-7977825374249263, -50)%Z, [21151]%N);
   ((-7362844228610433, -50)%Z, [21152]%N);
   ((-738088614888215, -47)%Z, [21153; 21209]%N);
   ((-4610781679502105, -50)%Z, [21160; 21205]%N);
   ((-5789310908593957, -49)%Z, [21163; 30008; 32676; 33540; 33541; 36571; 36717; 38290; 38386]%N);
   ((-6165265422778807, -49)%Z, [21169; 21237; 23452; 23849; 26611; 28902; 29033; 30095; 31262; 31319; 35607; 35876;
     36034; 36076; 36134; 36162]%N);
   ((-5023519461434099, -49)%Z, [21171; 21214; 27682; 27691; 28357; 28781]%N);
   ((-5221143991932653, -49)%Z, [21202; 25106; 26816; 27298; 31461; 32905; 35613; 35874]%N);
   ((-920611803284487, -47)%Z, [21213; 32988]%N);
   ((-2682063326151725, -48)%Z, [21220; 22615; 24223; 24290; 28034; 29942]%N);
   ((-8686312892041763, -50)%Z, [21253; 40845; 40857]%N);
   ((-5700399653478685, -50)%Z, [21270]%N);
   ((-4075397144087417, -49)%Z, [21271]%N);
   ((-11125740763317, -40)%Z, [21280; 22799; 27663; 27867; 28009; 30871; 33437; 37341; 38024; 38453; 38499]%N);
   ((-8668754642919733, -50)%Z, [21295; 27719]%N);
   ((-8724558923812817, -50)%Z, [21307; 37291]%N);
   ((-2415468409461159, -48)%Z, [21313; 21733; 23458; 30897; 36667; 36752; 40572]%N);
   ((-1910694861151691, -48)%Z, [21319]%N);
   ((-5061830155398039, -49)%Z, [21320; 25276]%N);
   ((-1016802159189037, -47)%Z, [21322]%N);
   ((-6969762375090179, -50)%Z, [21326; 33775]%N);
   ((-9000669417791405, -50)%Z, [21334; 32244; 32451; 36067]%N);
   ((-2273796171387119, -48)%Z, [21338; 24322; 30064]%N);
   ((-4823099802051705, -49)%Z, [21340; 23725; 23994; 32406; 32420]%N);
   ((-1215855928409721, -47)%Z, [21345; 29748; 33988; 34913]%N);
   ((-5528342656814117, -49)%Z, [21350; 25551; 26212; 26894; 27169; 37057; 39729]%N);
   ((-1849377843308041, -48)%Z, [21355; 34907]%N);
   ((-2353185697319519, -48)%Z, [21360; 21520; 39321]%N);
   ((-5519335265398413, -49)%Z, [21364; 21371; 24785; 25286; 26479; 27987; 28068; 28364; 28611; 36766; 36781]%N);
   ((-4775848906497697, -49)%Z, [21365; 27012; 27414; 28287; 28629]%N);
   ((-4604436730737467, -49)%Z, [21378; 24288; 25239]%N);
   ((-5391932301615585, -49)%Z, [21382; 27511; 33292; 35946; 38452; 38512]%N);
   ((-2043602643658519, -48)%Z, [21387; 22739]%N);
   ((-249270219946545, -45)%Z, [21407]%N);
   ((-2688928909851787, -48)%Z, [21439; 24323; 26262; 26820; 27425; 28385; 28415; 30300; 32291; 35258; 35273; 36035;
     36161; 38901; 38907]%N);
   ((-2350040692793881, -48)%Z, [21442; 21443; 25287; 35498; 35828]%N);
   ((-8371852073247603, -50)%Z, [21449]%N);
   ((-2041853259676207, -48)%Z, [21453]%N);
   ((-3146465895887401, -49)%Z, [21457; 30332]%N);
   ((-3019823385480103, -48)%Z, [21460; 22307; 24191; 24291; 24311; 26970; 27807; 27863; 28145; 28317; 28330; 29923;
     32854; 32966; 33086; 33213; 34930; 35044; 35122; 35469; 35748; 37679; 38169]%N);
   ((-2618576563148373, -48)%Z, [21462; 27308; 27721; 28450; 32177; 32434; 36923; 37007]%N);
   ((-142463614194423, -44)%Z, [21463; 39135]%N);
   ((-4795262897710641, -49)%Z, [21464; 33310; 35722]%N);
   ((-5510469728576737, -49)%Z, [21472; 22686; 24231; 29554; 30090; 33719; 36963; 38592]%N);
   ((-206674433831023, -45)%Z, [21475]%N);
   ((-7007467265246541, -50)%Z, [21476]%N);
   ((-2564564046194039, -48)%Z, [21483; 24800]%N);
   ((-5288107982625833, -49)%Z, [21484; 23506; 24517; 26149; 32057; 32461; 35426; 35810; 36777; 36783; 39449; 39575;
     40273; 40515]%N);
   ((-1270502433402515, -47)%Z, [21485; 25830]%N);
   ((-4321460121018531, -49)%Z, [21487]%N);
   ((-1076688842073257, -47)%Z, [21488; 24418]%N);
   ((-7358074902660095, -50)%Z, [21490]%N);
   ((-5190430014290157, -49)%Z, [21491; 24503; 26472; 26954; 32856; 36600; 36724]%N);
   ((-7329875577647735, -50)%Z, [21494; 33865]%N);
   ((-4530365826248961, -49)%Z, [21495; 34399]%N);
   ((-7754035850533769, -50)%Z, [21496; 26500; 27083]%N);
   ((-5406367706734973, -49)%Z, [21497; 22022; 23380; 33452; 33487; 34311; 36319; 39151; 39277]%N);
   ((-2845385604694611, -49)%Z, [21512]%N);
   ((-2860701694243525, -48)%Z, [21513; 23472; 26865; 29359; 33136]%N);
   ((-1839858876735677, -48)%Z, [21516]%N);
   ((-2028236337301973, -48)%Z, [21517]%N);
   ((-7809500358066013, -50)%Z, [21521]%N);
   ((-2352133453190499, -48)%Z, [21544; 22136; 31934]%N);
   ((-4346484238687277, -49)%Z, [21560; 22411]%N);
   ((-1954924699129233, -48)%Z, [21578]%N);
   ((-387133811279069, -45)%Z, [21579; 21943; 22132; 22383; 22661; 24187; 24748; 24942; 25080; 25296; 25645; 26194;
     26348; 26726; 26928; 27194; 27837; 28195; 29282; 30875; 30951; 31264; 32403; 32552; 32824; 32883; 34385; 35408;
     35488; 35784; 35802; 35998; 36126; 38860; 38887]%N);
   ((-715266372955947, -47)%Z, [21592; 21729]%N);
   ((-803234216425159, -47)%Z, [21608; 36913]%N);
   ((-4560460330539449, -49)%Z, [21619; 25935]%N);
   ((-7445704801020997, -50)%Z, [21629]%N);
   ((-6898845489440103, -50)%Z, [21644]%N);
   ((-3401137219369673, -49)%Z, [21697]%N);
   ((-2345901280299863, -48)%Z, [21704; 32299; 32541; 36208; 38989; 39069]%N);
   ((-1908731835147741, -48)%Z, [21709; 38911]%N);
   ((-5660812711093253, -49)%Z, [21767; 23681; 27506; 32047; 33009; 36291; 36493]%N);
   ((-5546801686045013, -49)%Z, [21776; 22645; 23576; 26447; 27178; 27243; 29454; 29557; 29989; 32191; 32501; 35611;
     35762; 37794; 38056]%N);
   ((-7354680568142141, -50)%Z, [21806]%N);
   ((-4667672440186389, -49)%Z, [21809; 24320; 38283]%N);
   ((-1925063529634781, -48)%Z, [21830]%N);
   ((-5077915534084511, -49)%Z, [21839; 31283; 31337; 34955; 38382]%N);
   ((-1328081154388751, -47)%Z, [21895; 24764; 28861; 29118; 32318; 32489; 38712]%N);
   ((-5883353997773927, -49)%Z, [21897; 24050; 24708; 26612; 27103; 27315; 27873; 27964; 28183; 28402; 31402; 31821;
     33585; 39981; 40141]%N);
   ((-5276379434374303, -49)%Z, [21898; 25293; 33016; 35413; 35780; 39635]%N);
   ((-5205577563658115, -49)%Z, [22043; 25285; 25439; 25506; 25613; 25812]%N);
   ((-2073571135410861, -48)%Z, [22120; 26223; 30149]%N);
   ((-1454736673976875, -47)%Z, [22134; 24196; 24604; 24789; 24976; 25165; 28096; 29432; 30717; 30789; 31400; 33080;
     33225; 33674; 34503; 35997; 36125; 37675; 38177; 39230; 39311]%N);
   ((-4912913698068229, -49)%Z, [22238; 32993; 40786; 40831]%N);
   ((-7578132994481035, -50)%Z, [22242; 22296; 24615]%N);
   ((-2328957848820255, -48)%Z, [22253; 22290; 27877]%N);
   ((-2560131277783201, -48)%Z, [22256; 24207; 24646; 24658; 26799; 30828; 36093; 36187; 37322; 37323]%N);
   ((-2734061353547423, -48)%Z, [22260; 22285; 24110; 24171; 26704; 33590; 35477; 35806]%N);
   ((-8670934507892719, -50)%Z, [22266]%N);
   ((-5609500029213489, -50)%Z, [22269; 22283]%N);
   ((-4223989375838413, -49)%Z, [22278; 22291]%N);
   ((-8590930400959213, -50)%Z, [22303]%N);
   ((-7876425900989613, -50)%Z, [22312]%N);
   ((-7429651516781249, -50)%Z, [22320; 35199]%N);
   ((-895394784182823, -47)%Z, [22330; 22580]%N);
   ((-5102939651753257, -49)%Z, [22334; 28789; 29356; 38728]%N);
   ((-8476989049824949, -50)%Z, [22343]%N);
   ((-5027235316202097, -49)%Z, [22351; 22750; 32933]%N);
   ((-5253630886649219, -49)%Z, [22352; 24681; 28797; 28798; 28966]%N);
   ((-4957213506997517, -49)%Z, [22369; 37561; 38152]%N);
   ((-2412850018703181, -48)%Z, [22374; 36776]%N);
   ((-4317219423349875, -49)%Z, [22478]%N);
   ((-2261353262528947, -48)%Z, [22495]%N);
   ((-158941685235583, -44)%Z, [22519; 23553; 25191; 35465; 35709]%N);
   ((-7555221449949081, -50)%Z, [22522]%N);
   ((-4084404535503121, -49)%Z, [22577; 25253]%N);
   ((-2490371599320101, -48)%Z, [22622; 25511; 35676; 35889; 37782; 38145]%N);
   ((-4953930990680153, -49)%Z, [22659; 22971; 32227; 32536]%N);
   ((-1139303913309405, -47)%Z, [22675]%N);
   ((-1298858511706165, -47)%Z, [22721; 22810; 30813; 32602; 32624; 38622; 38917; 39033; 39770; 40060; 40481]%N);
   ((-2668814999629145, -48)%Z, [22756; 23043; 25171; 26449; 27744]%N);
   ((-8719991372287545, -50)%Z, [22768; 32882]%N);
   ((-4922117444544669, -49)%Z, [22771; 27580; 30740]%N);
   ((-7812550201665007, -50)%Z, [22806]%N);
   ((-5357384656111537, -49)%Z, [22812; 22919; 22982; 23142; 27004; 27155; 28388; 28670; 32104; 32466; 36848; 39154;
     39278; 39493; 39537; 40613; 40614]%N);
   ((-3242829638118421, -49)%Z, [22823]%N);
   ((-3637439794103201, -49)%Z, [22825]%N);
   ((-3208793156483007, -49)%Z, [22826]%N);
   ((-8946433081257097, -50)%Z, [22827]%N);
   ((-3814861431670709, -49)%Z, [22830]%N);
   ((-80719626242313, -43)%Z, [22833; 23448; 26446; 27946; 29238; 35330; 35746; 36941]%N);
   ((-7264195556923229, -50)%Z, [22836; 38957]%N);
   ((-8595002376127681, -50)%Z, [22842; 22890; 39791; 40065]%N);
   ((-2515487930608039, -48)%Z, [22855; 28911; 31036; 31150; 33192]%N);
   ((-8722272831845993, -50)%Z, [22863]%N);
   ((-4820511521844345, -49)%Z, [22870; 29518; 36000; 36127; 40180; 40483]%N);
   ((-668017270461311, -46)%Z, [22871; 25744; 25745; 30722]%N);
   ((-4358857263200863, -49)%Z, [22899; 26408]%N);
   ((-4723496668134753, -49)%Z, [22902]%N);
   ((-7671150077179897, -50)%Z, [22987]%N);
   ((-8932584199310827, -50)%Z, [22993]%N);
   ((-7211648097680857, -50)%Z, [22996]%N);
   ((-1159723827232019, -47)%Z, [23041; 33900]%N);
   ((-4833573591674581, -49)%Z, [23064; 27233; 28165; 32023; 32210; 32433; 32490]%N);
   ((-2360663650733905, -48)%Z, [23130; 35215; 35268]%N);
   ((-4695926754528321, -49)%Z, [23219; 32102; 32473; 36866; 36969]%N);
   ((-2900837099811685, -49)%Z, [23376]%N);
   ((-56510523862791, -43)%Z, [23383]%N);
   ((-4693376913086481, -50)%Z, [23398; 23416]%N);
   ((-7635797097225057, -50)%Z, [23401]%N);
   ((-4934627958362497, -49)%Z, [23425; 23429; 23466; 23527; 25010]%N);
   ((-2227019387661871, -48)%Z, [23432; 25955]%N);
   ((-3681080829085051, -49)%Z, [23433]%N);
   ((-2418111386407449, -48)%Z, [23449; 24375; 24378; 32709]%N);
   ((-6125461662207449, -50)%Z, [23450]%N);
   ((-8892031199609127, -50)%Z, [23453; 23542; 38665; 40692]%N);
   ((-3932851481841655, -49)%Z, [23454; 23526]%N);
   ((-1247784104013973, -47)%Z, [23457; 23529]%N);
   ((-2553610330311477, -48)%Z, [23467; 23470; 26538; 26775; 27085; 27974; 28479; 36951; 36986]%N);
   ((-4241256345431887, -49)%Z, [23475]%N);
   ((-1693499348805661, -48)%Z, [23478]%N);
   ((-8319551238035659, -50)%Z, [23481; 32160; 32511]%N);
   ((-8120949410690839, -50)%Z, [23494]%N);
   ((-3461765625464873, -49)%Z, [23519]%N);
   ((-752836300302765, -47)%Z, [23548; 23566]%N);
   ((-6772783922958411, -50)%Z, [23556]%N);
   ((-8738373819918891, -50)%Z, [23558; 23559]%N);
   ((-647569180748671, -46)%Z, [23562; 33014; 33184]%N);
   ((-1807273733029935, -48)%Z, [23567]%N);
   ((-1079833944762695, -47)%Z, [23569; 29616; 29694]%N);
   ((-1007782693852997, -47)%Z, [23572; 29246]%N);
   ((-1242634597082043, -47)%Z, [23574; 36843; 40723]%N);
   ((-8657918179028323, -50)%Z, [23614]%N);
   ((-1946348633231721, -48)%Z, [23615]%N);
   ((-2573644671635579, -48)%Z, [23616; 26097; 27490]%N);
   ((-2296989577672223, -48)%Z, [23618; 23652; 36655; 36753]%N);
   ((-4613302267559143, -49)%Z, [23621]%N);
   ((-607580463527417, -46)%Z, [23633; 32773]%N);
   ((-3987734967127263, -49)%Z, [23637]%N);
   ((-8611439163035971, -50)%Z, [23646; 23660]%N);
   ((-5428739522897165, -49)%Z, [23648; 25169; 25209; 25778; 26758; 32380; 32487; 32570; 36611; 36739]%N);
   ((-7492217607019709, -50)%Z, [23665]%N);
   ((-8288055480627085, -50)%Z, [23703; 23831; 24120]%N);
   ((-2265955135767167, -48)%Z, [23707; 23798; 36830; 36899]%N);
   ((-4727860643115667, -49)%Z, [23792]%N);
   ((-46099038293649, -42)%Z, [23884; 25705; 28748; 34523; 34542; 34875; 36935; 38393; 39164; 39282; 39719; 40023;
     40158]%N);
   ((-5971541236553483, -50)%Z, [24037]%N);
   ((-2706863317222217, -48)%Z, [24049; 24125; 25105; 25484; 28041; 28082; 30007; 31119; 33899; 34425; 37573; 37683;
     38156; 38192]%N);
   ((-8114275414225943, -50)%Z, [24052]%N);
   ((-4599183660396017, -49)%Z, [24065; 24163; 24213; 35531; 35831]%N);
   ((-7396807465796393, -50)%Z, [24066]%N);
   ((-7622820773331773, -50)%Z, [24067]%N);
   ((-1235247260616595, -47)%Z, [24069; 24101; 30343]%N);
   ((-4590536025629867, -49)%Z, [24072; 24107; 24237]%N);
   ((-651339836856835, -46)%Z, [24088; 30718; 31020; 31806]%N);
   ((-8337256962422403, -50)%Z, [24093]%N);
   ((-517423502078967, -46)%Z, [24102; 24118; 29579; 32929; 34915]%N);
   ((-8983258247519105, -50)%Z, [24109]%N);
   ((-581278781834887, -46)%Z, [24149]%N);
   ((-4271590953490239, -49)%Z, [24178; 24185]%N);
   ((-7286303698802525, -50)%Z, [24179]%N);
   ((-6945937958721649, -50)%Z, [24180]%N);
   ((-5175679389971413, -49)%Z, [24188; 25943; 31869; 36133]%N);
   ((-5185470070720975, -49)%Z, [24211; 24235; 24815; 24931; 28846; 29298]%N);
   ((-7073082182828411, -50)%Z, [24212; 25033]%N);
   ((-5627360299307081, -49)%Z, [24215; 25292; 30244; 37237]%N);
   ((-8385315909706173, -50)%Z, [24220]%N);
   ((-7576480903345511, -50)%Z, [24230]%N);
   ((-7953335648480305, -50)%Z, [24314]%N);
   ((-4844245948334077, -49)%Z, [24335; 32791]%N);
   ((-7753069827388413, -50)%Z, [24341]%N);
   ((-653970750536617, -46)%Z, [24351; 26292; 26588; 27331]%N);
   ((-2354241889841011, -48)%Z, [24352; 24373; 27880]%N);
   ((-2426192562792067, -48)%Z, [24357; 24396; 25226; 30416; 40573]%N);
   ((-8623926166151745, -50)%Z, [24377; 24392]%N);
   ((-351039819927223, -45)%Z, [24403; 25114; 25220; 25913; 26397; 26411; 26522; 29482; 30070; 30462; 35948; 39612]%N);
   ((-8977513847778321, -50)%Z, [24405; 37636]%N);
   ((-7946435321017449, -50)%Z, [24433]%N);
   ((-8830039401607981, -50)%Z, [24453]%N);
   ((-8810111449400611, -50)%Z, [24459]%N);
   ((-7534355993507137, -50)%Z, [24471]%N);
   ((-8855455828688207, -50)%Z, [24481; 31142]%N);
   ((-8878831752925861, -50)%Z, [24494]%N);
   ((-219061245300985, -45)%Z, [24515]%N);
   ((-1168402174641999, -47)%Z, [24518; 25014]%N);
   ((-2241528058074897, -48)%Z, [24535; 30103; 30274]%N);
   ((-4883277910754687, -49)%Z, [24536]%N);
   ((-1784429079825795, -48)%Z, [24565]%N);
   ((-4287394095154143, -49)%Z, [24577; 24907]%N);
   ((-1312021134206383, -47)%Z, [24598; 34109]%N);
   ((-7583934479049187, -50)%Z, [24605; 25381; 25582]%N);
   ((-1918686801135665, -48)%Z, [24635; 32317]%N);
   ((-3894688249806371, -49)%Z, [24687; 30913]%N);
   ((-8506766650762989, -50)%Z, [24773]%N);
   ((-2854376147665945, -48)%Z, [24807; 25084; 29392; 29503; 34562; 34903; 37230; 38829; 38920; 39035]%N);
   ((-7657762286779027, -50)%Z, [24847]%N);
   ((-8551000687755579, -50)%Z, [24863]%N);
   ((-1065723210314203, -47)%Z, [24895; 39000]%N);
   ((-686643353095449, -46)%Z, [25103; 25138; 30702; 36686; 36735; 36817; 37526; 38114]%N);
   ((-3644429104523019, -49)%Z, [25104]%N);
   ((-7486868903816357, -50)%Z, [25112; 25136]%N);
   ((-1071598323743341, -47)%Z, [25142; 25143]%N);
   ((-4180100929699385, -49)%Z, [25151]%N);
   ((-1132206401634341, -47)%Z, [25152]%N);
   ((-3814428892307577, -49)%Z, [25163; 31163; 38626]%N);
   ((-980831916315209, -47)%Z, [25176]%N);
   ((-5300086093090659, -49)%Z, [25200; 25854; 26753; 28860; 28976; 29001; 38275; 38296; 38378; 38392]%N);
   ((-2675361224365195, -48)%Z, [25206; 25302; 33293]%N);
   ((-132367068365749, -44)%Z, [25215]%N);
   ((-1801869247447213, -48)%Z, [25216]%N);
   ((-204649948520371, -45)%Z, [25252; 35703]%N);
   ((-7058919733113513, -50)%Z, [25289]%N);
   ((-4504738511953567, -49)%Z, [25321; 25799]%N);
   ((-7686517877722705, -50)%Z, [25345]%N);
   ((-8022314126715891, -50)%Z, [25351]%N);
   ((-2438766736815197, -48)%Z, [25391; 26691; 30861; 31001]%N);
   ((-2419442239840463, -48)%Z, [25442; 25563]%N);
   ((-475095030021455, -46)%Z, [25454; 25818]%N);
   ((-5866548273559325, -49)%Z, [25504; 25758; 28809; 29200; 36842]%N);
   ((-2257575018193571, -48)%Z, [25509]%N);
   ((-1260587243589865, -47)%Z, [25512]%N);
   ((-1011321422846423, -47)%Z, [25552; 26230]%N);
   ((-2635302769041459, -48)%Z, [25805; 27054; 29279; 32930; 33635]%N);
   ((-1145928076570695, -47)%Z, [25903]%N);
   ((-3617282450970175, -49)%Z, [25910]%N);
   ((-6788662000741735, -50)%Z, [25918]%N);
   ((-2723568324409547, -49)%Z, [25919]%N);
   ((-7542335473447043, -50)%Z, [25928]%N);
   ((-7206882376673979, -50)%Z, [25945]%N);
   ((-1778893503647127, -48)%Z, [25968; 25976]%N);
   ((-103386640913807, -44)%Z, [25991]%N);
   ((-3704772813507075, -49)%Z, [26007; 39717]%N);
   ((-8255906596218559, -50)%Z, [26009]%N);
   ((-4576970310090867, -49)%Z, [26029; 26039; 26376; 36880]%N);
   ((-8261959836104973, -50)%Z, [26031]%N);
   ((-1911132954589095, -48)%Z, [26032]%N);
   ((-6977978895099797, -50)%Z, [26041]%N);
   ((-8840137226306073, -50)%Z, [26059; 27602]%N);
   ((-7879662798015967, -50)%Z, [26063]%N);
   ((-8521956087301619, -50)%Z, [26085; 35486; 35821]%N);
   ((-7464229402958067, -50)%Z, [26102; 26178]%N);
   ((-5370950371650537, -49)%Z, [26124; 36286]%N);
   ((-3631472625756147, -49)%Z, [26126]%N);
   ((-5538960148688517, -50)%Z, [26131]%N);
   ((-8697427492734817, -50)%Z, [26143]%N);
   ((-8897354613341181, -50)%Z, [26222]%N);
   ((-1055105185736783, -47)%Z, [26354]%N);
   ((-6147052407716595, -50)%Z, [26377]%N);
   ((-8568794032901773, -50)%Z, [26379; 27611]%N);
   ((-2294411162909073, -48)%Z, [26381; 35527; 35848; 36807; 36942]%N);
   ((-571288512838715, -46)%Z, [26395]%N);
   ((-122246940297349, -44)%Z, [26399]%N);
   ((-5367101967720965, -50)%Z, [26412]%N);
   ((-6775617395368093, -50)%Z, [26415; 34899]%N);
   ((-3378164779553291, -49)%Z, [26426; 27231]%N);
   ((-2699551867791811, -48)%Z, [26432; 27578; 27735; 29791; 32043; 39746]%N);
   ((-1906566632342613, -48)%Z, [26435; 27402]%N);
   ((-7672947204308207, -50)%Z, [26448]%N);
   ((-4732258711996597, -49)%Z, [26463]%N);
   ((-8469666097786357, -50)%Z, [26465; 26781]%N);
   ((-7989677061650699, -50)%Z, [26495]%N);
   ((-7815608329140897, -50)%Z, [26497; 26997]%N);
   ((-846043210087923, -47)%Z, [26512]%N);
   ((-4702170256086207, -49)%Z, [26530; 27166]%N);
   ((-5050060738152813, -49)%Z, [26550; 29239; 29242; 32650]%N);
   ((-3898189504694505, -49)%Z, [26579]%N);
   ((-8628119466741327, -50)%Z, [26597]%N);
   ((-4665707516888125, -49)%Z, [26609; 36317]%N);
   ((-3841895312954177, -49)%Z, [26631; 27161]%N);
   ((-4730055382556067, -49)%Z, [26641; 27193; 37117]%N);
   ((-4403822537014571, -49)%Z, [26657]%N);
   ((-4618689389562953, -49)%Z, [26680]%N);
   ((-5151922702376693, -49)%Z, [26681]%N);
   ((-4322525305732587, -49)%Z, [26684]%N);
   ((-8921626449491239, -50)%Z, [26696]%N);
   ((-8968951830038927, -50)%Z, [26800; 33258]%N);
   ((-8108964555761569, -50)%Z, [26893]%N);
   ((-4462177952573799, -49)%Z, [27060]%N);
   ((-4265777305057227, -49)%Z, [27454]%N);
   ((-593491038849181, -46)%Z, [27463]%N);
   ((-2272210392676081, -48)%Z, [27491]%N);
   ((-8289609518012303, -50)%Z, [27493]%N);
   ((-938067435001117, -47)%Z, [27494]%N);
   ((-3566904923652969, -49)%Z, [27515]%N);
   ((-4903858007570223, -49)%Z, [27530]%N);
   ((-62010157659227, -43)%Z, [27542]%N);
   ((-8212967668291823, -50)%Z, [27573]%N);
   ((-8313181207426529, -50)%Z, [27597]%N);
   ((-4719166262524497, -49)%Z, [27604; 31526]%N);
   ((-1143514173365249, -48)%Z, [27665]%N);
   ((-3422494877595269, -49)%Z, [27668; 27683]%N);
   ((-7056316495174947, -50)%Z, [27687]%N);
   ((-4535011932016487, -49)%Z, [27688]%N);
   ((-2380857764683179, -48)%Z, [27695; 29486; 29563]%N);
   ((-5919958360892799, -50)%Z, [27700]%N);
   ((-4410015668269487, -49)%Z, [27714; 36523]%N);
   ((-2357434456883949, -48)%Z, [27745; 31080]%N);
   ((-8802728472736561, -50)%Z, [27773]%N);
   ((-4368029766790627, -49)%Z, [27801]%N);
   ((-8609371394030819, -50)%Z, [27827]%N);
   ((-914177446420363, -47)%Z, [27833; 32048; 32454]%N);
   ((-5871906241635457, -50)%Z, [27835]%N);
   ((-4550781869456045, -49)%Z, [27852]%N);
   ((-7335859116479141, -50)%Z, [27861]%N);
   ((-8863194002838039, -50)%Z, [27874]%N);
   ((-4855124546821601, -49)%Z, [27905; 28500]%N);
   ((-4002636577085485, -49)%Z, [27915]%N);
   ((-2571346903963539, -48)%Z, [27931; 30452; 31508; 31558]%N);
   ((-8103678630996821, -50)%Z, [27954]%N);
   ((-7902585449250299, -50)%Z, [27963]%N);
   ((-3431401468196611, -49)%Z, [27969]%N);
   ((-8177221811817063, -50)%Z, [27979; 28204]%N);
   ((-174160013718105, -45)%Z, [27982; 28639]%N);
   ((-2356366239371461, -48)%Z, [28010; 36798; 36948]%N);
   ((-1150670063799715, -47)%Z, [28040]%N);
   ((-7535151401457451, -50)%Z, [28070; 28516]%N);
   ((-4506214135218969, -49)%Z, [28193; 32780]%N);
   ((-7578959950013505, -50)%Z, [28216; 36938]%N);
   ((-4984186328354781, -49)%Z, [28246; 37411; 38041]%N);
   ((-8297412043395671, -50)%Z, [28304]%N);
   ((-8675306940210663, -50)%Z, [28363]%N);
   ((-8935340381609725, -50)%Z, [28369]%N);
   ((-2322267126886835, -48)%Z, [28436; 37749; 38190]%N);
   ((-8740692873070065, -50)%Z, [28459]%N);
   ((-4340948796315485, -49)%Z, [28507; 28508]%N);
   ((-8564815583861653, -50)%Z, [28608]%N);
   ((-4018564406457969, -49)%Z, [28779]%N);
   ((-7637538628750695, -50)%Z, [28784]%N);
   ((-2448950404807749, -48)%Z, [28845]%N);
   ((-8375202968300931, -50)%Z, [28856]%N);
   ((-8974652601240119, -50)%Z, [28895; 29017; 38738]%N);
   ((-4752486634916743, -49)%Z, [28903; 29138; 32771]%N);
   ((-1774677080625541, -48)%Z, [28909; 29105]%N);
   ((-6030399935007289, -50)%Z, [28982]%N);
   ((-5098690952692357, -49)%Z, [29028; 33043; 33215]%N);
   ((-4683643722813811, -49)%Z, [29031]%N);
   ((-2519266174943415, -48)%Z, [29087; 33026; 33268; 38914; 39030]%N);
   ((-1133364741410725, -47)%Z, [29123; 33616; 34214]%N);
   ((-7202136743064985, -50)%Z, [29151; 33829]%N);
   ((-2370579645961429, -48)%Z, [29255; 29615; 29872; 34013; 34253; 36215]%N);
   ((-4141703098523999, -49)%Z, [29256]%N);
   ((-4283401525557661, -49)%Z, [29273]%N);
   ((-2398868703492323, -48)%Z, [29275]%N);
   ((-1916891101414039, -48)%Z, [29287]%N);
   ((-1434737828396335, -48)%Z, [29289]%N);
   ((-4097833984789493, -49)%Z, [29305]%N);
   ((-8280317306477253, -50)%Z, [29366; 29376]%N);
   ((-2281861908834909, -48)%Z, [29664]%N);
   ((-508996347445433, -46)%Z, [29677]%N);
   ((-7613398961807303, -50)%Z, [29699]%N);
   ((-5293141045627297, -50)%Z, [29702]%N);
   ((-4471824821864303, -49)%Z, [29786; 38517]%N);
   ((-4307793064353529, -49)%Z, [29827; 32599; 32645]%N);
   ((-4947422826247955, -49)%Z, [29926]%N);
   ((-704591214366303, -47)%Z, [29983]%N);
   ((-6465478536333531, -50)%Z, [29992]%N);
   ((-7782417272734069, -50)%Z, [30001]%N);
   ((-7784401237840983, -50)%Z, [30002]%N);
   ((-6096046710164973, -50)%Z, [30005; 38651]%N);
   ((-4802719297492619, -49)%Z, [30041]%N);
   ((-7711365063054175, -50)%Z, [30053]%N);
   ((-4382074984786563, -49)%Z, [30097]%N);
   ((-8701904237825045, -50)%Z, [30123]%N);
   ((-8632328443257407, -50)%Z, [30142]%N);
   ((-6855817881608583, -50)%Z, [30333]%N);
   ((-873526525532357, -47)%Z, [30334]%N);
   ((-8305269018105571, -50)%Z, [30340]%N);
   ((-8224650262414741, -50)%Z, [30382]%N);
   ((-3355518801546703, -49)%Z, [30408]%N);
   ((-6478165738379907, -50)%Z, [30410]%N);
   ((-4378530692155055, -49)%Z, [30417; 30435]%N);
   ((-8159073001260141, -50)%Z, [30422; 33995; 35013; 35037]%N);
   ((-6546150732603245, -50)%Z, [30424; 30436]%N);
   ((-8426701269809377, -50)%Z, [30431]%N);
   ((-275548223716769, -45)%Z, [30456]%N);
   ((-8773671378594839, -50)%Z, [30495]%N);
   ((-4257167877136955, -49)%Z, [30524]%N);
   ((-8453361550328877, -50)%Z, [30563]%N);
   ((-318143034912381, -45)%Z, [30651; 33519; 34382; 38988; 39064]%N);
   ((-8771283466974723, -50)%Z, [30693]%N);
   ((-230388872517601, -45)%Z, [30707]%N);
   ((-7262320619093031, -50)%Z, [30719; 31014]%N);
   ((-4107210690222901, -49)%Z, [30772]%N);
   ((-9155680392723, -40)%Z, [30784; 30990]%N);
   ((-7509972995792409, -50)%Z, [30830; 30906]%N);
   ((-4185090179078377, -49)%Z, [31034]%N);
   ((-7748252105416825, -50)%Z, [31038]%N);
   ((-4212473082188525, -49)%Z, [31062]%N);
   ((-7761794020123671, -50)%Z, [31070]%N);
   ((-8704149303188757, -50)%Z, [31105; 33609]%N);
   ((-2497321951873901, -48)%Z, [31169; 31929; 32960; 33081; 37326; 40801; 40836]%N);
   ((-2218398749933099, -48)%Z, [31181; 31278; 37628; 38050]%N);
   ((-3775185954735789, -49)%Z, [31185]%N);
   ((-7788379686881103, -50)%Z, [31199]%N);
   ((-7023010997809269, -50)%Z, [31215; 31309]%N);
   ((-8210065862801919, -50)%Z, [31237; 31246; 33322]%N);
   ((-7284391612455319, -50)%Z, [31243]%N);
   ((-2289324127281199, -48)%Z, [31292]%N);
   ((-2938957955847173, -49)%Z, [31350]%N);
   ((-3491420150607013, -49)%Z, [31354]%N);
   ((-7731077028028415, -50)%Z, [31435]%N);
   ((-8397230305615623, -50)%Z, [31532]%N);
   ((-4080923077571013, -49)%Z, [31561]%N);
   ((-7344558534968031, -50)%Z, [31569; 31689]%N);
   ((-2052878957671649, -48)%Z, [31609; 31820]%N);
   ((-2047489993258705, -48)%Z, [31614; 31805]%N);
   ((-3261299109849311, -49)%Z, [31639]%N);
   ((-7172921302459635, -50)%Z, [31649]%N);
   ((-3952949273010547, -49)%Z, [31680; 33410]%N);
   ((-8431983061701443, -50)%Z, [31684; 33539]%N);
   ((-8713174601271255, -50)%Z, [31687]%N);
   ((-1292711792965041, -47)%Z, [31783; 37707; 38149; 38459]%N);
   ((-8673118601510397, -50)%Z, [31859]%N);
   ((-4973919479293115, -49)%Z, [31881; 35359; 35772]%N);
   ((-4743406600110601, -49)%Z, [31890; 36793; 37002]%N);
   ((-4154213612341827, -49)%Z, [31918; 31975]%N);
   ((-4585410497475291, -49)%Z, [31958]%N);
   ((-8504882299014615, -50)%Z, [31995]%N);
   ((-1045232351650389, -47)%Z, [32004; 32422]%N);
   ((-7695656725843241, -50)%Z, [32005; 32418]%N);
   ((-8580814430779653, -50)%Z, [32011; 32441]%N);
   ((-2483588741550601, -48)%Z, [32013; 32435]%N);
   ((-37292723163139, -42)%Z, [32025; 32440; 38597]%N);
   ((-8220255071770735, -50)%Z, [32026; 32423]%N);
   ((-641701721640117, -46)%Z, [32032]%N);
   ((-1073612490333609, -47)%Z, [32033; 32442]%N);
   ((-5046191651077897, -49)%Z, [32034; 37648; 38181]%N);
   ((-8380248084615003, -50)%Z, [32068; 32452]%N);
   ((-2142697135418215, -48)%Z, [32080; 32467]%N);
   ((-4738920919377743, -49)%Z, [32097; 32476; 36084; 36182]%N);
   ((-7988486263118921, -50)%Z, [32113; 32479]%N);
   ((-5834396589224001, -50)%Z, [32147; 32463]%N);
   ((-2355302060498149, -48)%Z, [32156; 32508]%N);
   ((-8662240256914951, -50)%Z, [32173; 32500]%N);
   ((-4507693636605163, -49)%Z, [32178; 32593]%N);
   ((-7540735046870751, -50)%Z, [32218; 32447]%N);
   ((-8845220304496659, -50)%Z, [32239; 32428; 37509; 37586; 38108; 38155]%N);
   ((-1161606631076585, -47)%Z, [32302; 32553]%N);
   ((-3587326506237867, -49)%Z, [32340; 32455]%N);
   ((-3599590423838171, -49)%Z, [32396; 32493]%N);
   ((-2346930440410605, -48)%Z, [32618]%N);
   ((-574680434210363, -46)%Z, [32622; 36024; 36151]%N);
   ((-3913962292924955, -49)%Z, [32769]%N);
   ((-1802166789733599, -48)%Z, [32852; 32879]%N);
   ((-4549184847240533, -49)%Z, [32858; 40635]%N);
   ((-4231195233627259, -49)%Z, [32862; 38395]%N);
   ((-4919032779547699, -49)%Z, [32908]%N);
   ((-4642648322517643, -49)%Z, [32928; 33144; 39131; 39134]%N);
   ((-8733749994500975, -50)%Z, [32938]%N);
   ((-7259202644497635, -50)%Z, [32946]%N);
   ((-8102361018316493, -50)%Z, [32990]%N);
   ((-3258393138623991, -49)%Z, [33021]%N);
   ((-8889378901782239, -50)%Z, [33039; 33247]%N);
   ((-4869025251929201, -49)%Z, [33041; 33126; 36234]%N);
   ((-4679608221995725, -49)%Z, [33050; 33139]%N);
   ((-283829187240749, -45)%Z, [33098; 33240]%N);
   ((-1196975992500295, -47)%Z, [33104; 35695; 35793]%N);
   ((-6947825469485329, -50)%Z, [33394]%N);
   ((-3856147971779663, -49)%Z, [33402; 34269]%N);
   ((-3616065261407505, -49)%Z, [33457]%N);
   ((-587250029670483, -46)%Z, [33521]%N);
   ((-4525757751787299, -49)%Z, [33740]%N);
   ((-4524230071193285, -49)%Z, [33756]%N);
   ((-3752657046489247, -49)%Z, [33796]%N);
   ((-554273905678343, -46)%Z, [33821; 34367; 38498]%N);
   ((-4757082170260823, -49)%Z, [33832; 34217]%N);
   ((-1158328072105941, -47)%Z, [33853]%N);
   ((-5115881599967029, -49)%Z, [34174]%N);
   ((-4149489529066373, -49)%Z, [34255]%N);
   ((-8778462449257843, -50)%Z, [34411; 34802; 36879]%N);
   ((-7217633757216503, -50)%Z, [34701]%N);
   ((-7021497352176619, -50)%Z, [34880]%N);
   ((-2684073227837615, -49)%Z, [34892]%N);
   ((-6663821570373401, -50)%Z, [34920]%N);
   ((-4754779713253983, -49)%Z, [35009]%N);
   ((-4616887948174773, -49)%Z, [35010]%N);
   ((-968892533011723, -47)%Z, [35041; 37324]%N);
   ((-4345372787282961, -49)%Z, [35088]%N);
   ((-8019863853916727, -50)%Z, [35201]%N);
   ((-2130967314169395, -48)%Z, [35211; 35265]%N);
   ((-7192118200951151, -50)%Z, [35222; 35270]%N);
   ((-8221718229750327, -50)%Z, [35261; 35272]%N);
   ((-537315243727305, -46)%Z, [35264; 35266]%N);
   ((-7260448798367895, -50)%Z, [35282]%N);
   ((-955676128635003, -47)%Z, [35299]%N);
   ((-7324583441432673, -50)%Z, [35328]%N);
   ((-7318659370962471, -50)%Z, [35336; 35745]%N);
   ((-7693823012234579, -50)%Z, [35338; 35759]%N);
   ((-2310248307039735, -48)%Z, [35342; 35752]%N);
   ((-8232013924417267, -50)%Z, [35352; 35760]%N);
   ((-2340811178178433, -48)%Z, [35373; 35774]%N);
   ((-2400111420639911, -48)%Z, [35380; 35785; 37030]%N);
   ((-1044818417562713, -47)%Z, [35441; 35805]%N);
   ((-4771098245786579, -49)%Z, [35519; 35843]%N);
   ((-8180040085896457, -50)%Z, [35542; 35770; 37327]%N);
   ((-7973119411674627, -50)%Z, [35584; 35851]%N);
   ((-3583871048104321, -49)%Z, [35657; 35777]%N);
   ((-7441303883729657, -50)%Z, [35672; 35782]%N);
   ((-2362837213478347, -48)%Z, [35686]%N);
   ((-3719920362875033, -49)%Z, [35696; 35758]%N);
   ((-1187550714788527, -47)%Z, [35895]%N);
   ((-2331874714059743, -48)%Z, [35910]%N);
   ((-3940371917487743, -49)%Z, [35937]%N);
   ((-982813237002049, -47)%Z, [36008; 36135]%N);
   ((-832291282214377, -47)%Z, [36012; 36131]%N);
   ((-3016141618049527, -49)%Z, [36027; 36153]%N);
   ((-8654166114473657, -51)%Z, [36039; 36164]%N);
   ((-7057877715540901, -50)%Z, [36074; 36136]%N);
   ((-3885783759093205, -49)%Z, [36275]%N);
   ((-1834799274177245, -48)%Z, [36335]%N);
   ((-8960454431917127, -50)%Z, [36420]%N);
   ((-7261696333018349, -50)%Z, [36554; 36710]%N);
   ((-7878582798022515, -50)%Z, [36629; 36731]%N);
   ((-2095906024714789, -48)%Z, [36650; 36718]%N);
   ((-7859317880936387, -50)%Z, [36664; 36755]%N);
   ((-3924377945329327, -49)%Z, [36676; 36758]%N);
   ((-8188537484018257, -50)%Z, [36681; 36716]%N);
   ((-1929240481453703, -48)%Z, [36816; 36939]%N);
   ((-4015466160038721, -49)%Z, [36827; 36914]%N);
   ((-266132375241635, -45)%Z, [36828; 36960]%N);
   ((-2297854324824605, -48)%Z, [36865]%N);
   ((-8706398854200531, -50)%Z, [36873; 36984]%N);
   ((-6861927430978311, -50)%Z, [36890]%N);
   ((-3526081896857693, -49)%Z, [36895]%N);
   ((-1627670955947293, -48)%Z, [36896]%N);
   ((-7364210612160225, -50)%Z, [36947]%N);
   ((-4866217515667875, -49)%Z, [37070]%N);
   ((-3019081311170485, -49)%Z, [37096]%N);
   ((-4783050923106155, -49)%Z, [37197]%N);
   ((-4519671747069989, -49)%Z, [37202]%N);
   ((-4931474168862319, -49)%Z, [37232]%N);
   ((-7209262715630029, -50)%Z, [37240]%N);
   ((-4096405177034105, -49)%Z, [37325]%N);
   ((-5761776593848487, -50)%Z, [37329]%N);
   ((-4481639889104953, -49)%Z, [37428; 38083]%N);
   ((-4485899303776315, -49)%Z, [37504; 38134]%N);
   ((-7358754999272041, -50)%Z, [37559; 38144]%N);
   ((-8131710782048333, -50)%Z, [37941; 38081]%N);
   ((-6254779637099557, -50)%Z, [38263; 38271]%N);
   ((-3661302642944913, -49)%Z, [38272; 38376]%N);
   ((-4047243780154331, -49)%Z, [38281; 38381]%N);
   ((-1946597176273663, -48)%Z, [38291; 38388]%N);
   ((-8679696419091465, -50)%Z, [38431; 38538]%N);
   ((-1990941521907231, -48)%Z, [38450; 39387; 39542]%N);
   ((-7227882983771455, -50)%Z, [38451; 38525]%N);
   ((-6355905248246865, -50)%Z, [38454; 38542]%N);
   ((-7824832867915823, -50)%Z, [38469; 38555]%N);
   ((-3910361869803571, -49)%Z, [38470; 38520]%N);
   ((-2740189146385875, -49)%Z, [38480]%N);
   ((-28293464529999, -42)%Z, [38505; 38570]%N);
   ((-8306847014028689, -50)%Z, [38582; 38584]%N);
   ((-2338800634082239, -48)%Z, [38590; 38627]%N);
   ((-4880398365072583, -49)%Z, [38596]%N);
   ((-4066531607265741, -49)%Z, [38598]%N);
   ((-4240334232279897, -49)%Z, [38632]%N);
   ((-2462609552513411, -48)%Z, [38656]%N);
   ((-4652141801349125, -49)%Z, [38663]%N);
   ((-4536569194291461, -49)%Z, [38752]%N);
   ((-1753239563321507, -48)%Z, [38754]%N);
   ((-3954056352921757, -49)%Z, [38899]%N);
   ((-4568654797693425, -49)%Z, [38936; 39046]%N);
   ((-2447472842481951, -48)%Z, [38968; 39048]%N);
   ((-1920267491079565, -48)%Z, [39080; 39118]%N);
   ((-4600929243045557, -49)%Z, [39166; 39280]%N);
   ((-7533561147087367, -50)%Z, [39340; 39532]%N);
   ((-8274164832660197, -50)%Z, [39592]%N);
   ((-3539451767457859, -49)%Z, [39640]%N);
   ((-2437341544014899, -48)%Z, [39854; 40092]%N);
   ((-8215876971995461, -50)%Z, [40643; 40644]%N)];
  (* ('M', 'ng') *)
  [
];
  (* ('M', 'nr') *)
  [
   ((-2963594960631677, -49)%Z, [19968]%N);
   ((-64230507968119, -43)%Z, [19969]%N);
   ((-8638060089171115, -50)%Z, [19971; 24494]%N);
   ((-8107117851902671, -50)%Z, [19975; 33836]%N);
   ((-6052109913927887, -49)%Z, [19976; 20159; 20160; 20167; 20215; 20506; 20729; 20740; 20923; 20941; 21414; 21796;
     21914; 22275; 22687; 22737; 23048; 23156; 23344; 23372; 23624; 23849; 24149; 24264; 24661; 25114; 25947; 25972;
     25986; 26463; 26584; 26726; 26775; 27194; 27739; 27794; 27809; 27844; 27873; 27945; 28044; 28151; 28263; 28608;
     29313; 29854; 29996; 30086; 30442; 30865; 31068; 31209; 32350; 32399; 32469; 32544; 32697; 32728; 32761; 33324;
     33328; 33382; 33479; 33633; 33879; 33894; 33970; 34309; 34989; 35186; 35261; 35272; 37026; 37470; 37956; 38074;
     38136; 38290; 38292; 38386; 38389; 38431; 38538; 39333; 39336; 39746; 40227; 40407; 40478; 40485; 40490;
     40510]%N);
   ((-368052276230495, -46)%Z, [19977]%N);
   ((-4000305073795327, -49)%Z, [19978; 21015]%N);
   ((-4661826653898313, -49)%Z, [19979; 20005; 20020; 22196; 22253; 22290; 33256; 33452; 35488; 35802]%N);
   ((-4520830567748339, -49)%Z, [19981; 20037; 20044; 28879; 37070]%N);
   ((-4620107574426227, -49)%Z, [19982; 20179; 20489; 33287]%N);
   ((-6306554918286167, -49)%Z, [19984; 20260; 20276; 20301; 20421; 20432; 20447; 20658; 20663; 20988; 22635; 22919;
     23142; 23682; 24055; 24161; 24571; 24845; 25296; 25332; 25950; 26127; 26639; 26840; 26869; 27396; 27705; 27792;
     28024; 28062; 28118; 28150; 28844; 28902; 29033; 29076; 29369; 29494; 29723; 29744; 29934; 29973; 30496; 30701;
     30956; 30967; 31383; 31579; 31639; 31721; 32019; 32102; 32189; 32446; 32473; 32496; 32578; 32588; 32718; 32791;
     33659; 33694; 33795; 33983; 34885; 35585; 35858; 35912; 36879; 37049; 37138; 37313; 37414; 37523; 37575; 37804;
     37987; 38043; 38049; 38120; 38224; 38259; 38278; 38287; 38321; 38379; 38384; 38405; 38646; 39654; 39881; 40100;
     40852; 40858]%N);
   ((-1623992987054911, -47)%Z, [19985; 20190; 20272; 20303; 20652; 20826; 21066; 21163; 21182; 21200; 21306; 21312;
     21560; 22609; 22871; 23270; 23674; 23745; 23782; 23860; 24018; 24748; 24825; 25080; 25105; 25169; 25298; 25327;
     25628; 25778; 26166; 26199; 26522; 26758; 27197; 27595; 27811; 28189; 28267; 28626; 28693; 28739; 29074; 29123;
     29590; 29647; 29942; 30347; 30522; 30655; 30879; 30928; 31287; 31614; 31659; 31787; 31805; 31968; 32058; 32448;
     32618; 32741; 33390; 33626; 33639; 33698; 33988; 34204; 35032; 35033; 35442; 35494; 35813; 35829; 36339; 36367;
     36613; 36738; 36886; 36991; 37085; 37255; 37276; 37653; 38175; 38701; 38724; 38771; 38922; 39036; 40255; 40509;
     40680]%N);
   ((-5297884008542039, -49)%Z, [19987; 20184; 20351; 21385; 21426; 23560; 23786; 25239; 25903; 27169; 27468; 29004;
     31515; 34917; 35036; 36784]%N);
   ((-2434418650870861, -48)%Z, [19989; 27004; 27155; 27264]%N);
   ((-5603606798441637, -50)%Z, [19990]%N);
   ((-8773029904470131, -50)%Z, [19992; 25300]%N);
   ((-5222712517283781, -49)%Z, [19993; 22806; 24847; 25996; 26354; 26413; 28504; 29392; 30342; 32023; 32433; 36866;
     36969]%N);
   ((-4787445305716913, -49)%Z, [19994; 20873; 26989; 32771; 36838]%N);
   ((-2773306867928767, -48)%Z, [19995; 21193; 21474; 23273; 23648; 24380; 24418; 24764; 25995; 26477; 31087; 31118;
     31958; 34562; 37586; 38155; 40779]%N);
   ((-6701261152439871, -50)%Z, [19996; 26481]%N);
   ((-298878636482069, -45)%Z, [19997; 31310; 32114; 39062]%N);
   ((-2268971413056703, -48)%Z, [19998]%N);
   ((-5259044474752057, -49)%Z, [20004; 20056; 20841; 21697; 21880; 22063; 23234; 24184; 24453; 26691; 28286; 28771;
     29066; 29238; 31995; 35282; 35731; 35753; 36074; 36136]%N);
   ((-6231383427027909, -49)%Z, [20006; 20214; 20498; 20572; 20973; 21098; 21149; 21169; 21237; 21240; 22805; 23305;
     23443; 23673; 24041; 24049; 24182; 24231; 24537; 24555; 24604; 24976; 24977; 25302; 25439; 25613; 26003; 26005;
     26112; 26818; 26842; 26999; 27386; 27698; 27699; 27836; 28103; 28378; 28390; 28414; 28558; 28640; 28772; 29602;
     29609; 29642; 29740; 30097; 30699; 30703; 30778; 30922; 31018; 31584; 31918; 31975; 32362; 32472; 32824; 32856;
     32883; 34015; 34186; 35009; 35250; 35280; 35475; 35542; 35673; 35770; 35887; 35980; 36104; 36192; 36603; 36722;
     36894; 36924; 38468; 38506; 38799; 38816; 40288; 40434; 40474; 40516; 40550; 40555]%N);
   ((-6783541209325121, -49)%Z, [20010; 20054; 20115; 20165; 20291; 20342; 20491; 20565; 20677; 20687; 20917; 21208;
     21321; 21478; 21596; 21658; 21705; 21868; 21927; 21959; 21978; 22047; 22281; 22336; 22404; 22419; 22636; 22751;
     22915; 22942; 23224; 23267; 23490; 24328; 24642; 24708; 24716; 24751; 24895; 25003; 25119; 25159; 25187; 26092;
     26097; 26194; 26348; 26451; 26464; 26492; 26579; 26624; 26643; 26685; 26728; 26772; 26885; 26941; 27036; 27082;
     27091; 27123; 27225; 27424; 27498; 27527; 27556; 27627; 27687; 27841; 27922; 27988; 28000; 28073; 28108; 28133;
     28172; 28369; 28527; 28544; 28654; 28753; 28796; 28809; 28874; 28904; 29121; 29190; 29200; 29241; 29334; 29481;
     29805; 30105; 30328; 30529; 30556; 30684; 30896; 31040; 31155; 31903; 32006; 32371; 32417; 32560; 32564; 32592;
     32609; 32641; 32648; 32902; 33275; 33592; 33638; 33728; 34044; 34103; 34106; 34162; 34196; 34268; 34298; 34308;
     34360; 34402; 34442; 34527; 34568; 34850; 34926; 34974; 35065; 35498; 35569; 35763; 35828; 36284; 36555; 36711;
     36802; 36837; 36865; 36875; 36944; 36992; 37015; 37415; 37439; 37604; 37659; 37723; 37950; 38000; 38053; 38058;
     38079; 38148; 38171; 38203; 38286; 38316; 38348; 38387; 38406; 38417; 38601; 38656; 38849; 38878; 38891; 39000;
     39154; 39278; 39296; 39489; 39524; 39580; 39591; 39711; 39752; 40219; 40499; 40763]%N);
   ((-2139076411267917, -48)%Z, [20011; 27597; 31609; 31820]%N);
   ((-5768818344685459, -50)%Z, [20013]%N);
   ((-4674970051372929, -49)%Z, [20016; 35920]%N);
   ((-5506385915412251, -49)%Z, [20024; 20189; 20320; 20446; 20911; 21400; 22317; 23487; 23547; 23563; 24688; 25442;
     25563; 26865; 27462; 27777; 29611; 31291; 31890; 33067; 33073; 36029; 36155; 36341; 36368; 36629; 36731; 38454;
     38542; 39015; 39038; 39342]%N);
   ((-2034226325269891, -48)%Z, [20025]%N);
   ((-3494462327869699, -49)%Z, [20026; 28858]%N);
   ((-2224096494517833, -48)%Z, [20027; 36066; 36132]%N);
   ((-6153266403385051, -50)%Z, [20029; 40599]%N);
   ((-2553277715969267, -48)%Z, [20030; 22872; 24189; 24426; 24573; 25152; 25915; 27905; 27915; 28500; 28982;
     33289]%N);
   ((-8496584833568063, -50)%Z, [20035; 20174; 24478; 35946]%N);
   ((-5069627444818581, -49)%Z, [20040; 20309; 21151; 21375; 22238; 23436; 23457; 23529; 24186; 24413; 36027; 36153;
     38706]%N);
   ((-3417727746462689, -49)%Z, [20041; 32681]%N);
   ((-2986531528553289, -49)%Z, [20043]%N);
   ((-2979033412373959, -48)%Z, [20046; 20135; 20415; 20420; 21161; 21381; 21943; 22132; 23521; 23618; 23652; 24050;
     24307; 24656; 24694; 24801; 25259; 25318; 25876; 26082; 26257; 26517; 27978; 28072; 28335; 28466; 28609; 28805;
     28861; 29118; 29986; 33463; 33564; 33603; 34638; 34829; 35538; 35606; 35672; 35782; 35845; 35873; 36058; 36169;
     36575; 36719; 36766; 36781; 36870; 37013; 37322; 37323; 37762; 38209; 38446; 38450]%N);
   ((-533682305243083, -46)%Z, [20048; 27138]%N);
   ((-4422139241535455, -49)%Z, [20052; 21932; 23013; 32852; 32879]%N);
   ((-4838400162046001, -49)%Z, [20057; 21435; 22343; 23663; 26361; 31574]%N);
   ((-3701002473029457, -48)%Z, [20060; 20173; 20314; 20369; 20390; 20394; 20430; 20458; 20597; 20608; 20731; 20757;
     20791; 20813; 20822; 20823; 20881; 20935; 20955; 20956; 21078; 21206; 21207; 21310; 21505; 21670; 21671; 21679;
     21741; 21754; 21809; 21834; 21891; 21949; 21989; 22029; 22256; 22331; 22432; 22436; 22777; 22850; 22864; 22870;
     22935; 22953; 22962; 23052; 23059; 23157; 23210; 23228; 23285; 23307; 23445; 23525; 23536; 23705; 23789; 23811;
     23821; 23879; 23883; 23988; 24089; 24092; 24103; 24119; 24128; 24133; 24159; 24215; 24407; 24541; 24561; 24653;
     24699; 24703; 24827; 24974; 25062; 25121; 25160; 25200; 25340; 25342; 25374; 25410; 25454; 25513; 25569; 25597;
     25615; 25632; 25661; 25787; 25818; 25854; 25900; 25929; 26053; 26087; 26094; 26280; 26434; 26474; 26485; 26535;
     26577; 26589; 26633; 26693; 26708; 26776; 26928; 26979; 26982; 26987; 27015; 27355; 27372; 27573; 27599; 27653;
     27812; 27815; 27886; 27889; 27911; 27943; 27971; 27976; 28003; 28025; 28079; 28218; 28227; 28254; 28255; 28270;
     28293; 28319; 28356; 28371; 28386; 28404; 28442; 28486; 28536; 28556; 28583; 28666; 28677; 28689; 28704; 28865;
     28867; 28888; 28889; 28905; 28907; 28916; 28947; 28975; 29060; 29080; 29088; 29145; 29172; 29197; 29240; 29247;
     29424; 29432; 29465; 29518; 29554; 29585; 29678; 29786; 29859; 29865; 30043; 30399; 30462; 30509; 30572; 30585;
     30597; 30697; 30722; 30768; 30867; 30874; 31095; 31153; 31255; 31384; 31449; 31509; 31518; 31567; 31581; 31591;
     31631; 31807; 31858; 31914; 31966; 32007; 32009; 32093; 32131; 32215; 32249; 32421; 32427; 32468; 32481; 32515;
     32519; 32703; 32753; 32835; 32838; 32842; 32964; 33007; 33018; 33217; 33282; 33290; 33323; 33336; 33418; 33423;
     33445; 33449; 33454; 33491; 33529; 33551; 33587; 33617; 33631; 33682; 33688; 33705; 33719; 33752; 33761; 33848;
     33976; 34003; 34105; 34107; 34184; 34249; 34315; 34334; 34338; 34510; 34851; 34943; 35167; 35203; 35335; 35338;
     35350; 35427; 35480; 35496; 35543; 35616; 35755; 35759; 35811; 35825; 35826; 35842; 35875; 35961; 36208; 36259;
     36481; 36587; 36685; 36692; 36728; 36761; 36762; 36897; 36968; 36974; 37040; 37061; 37090; 37094; 37103; 37108;
     37192; 37219; 37221; 37294; 37369; 37376; 37377; 37380; 37521; 37530; 37539; 37561; 37638; 37664; 37683; 37703;
     37707; 37740; 37754; 37758; 37853; 37877; 37927; 37939; 37946; 38012; 38037; 38059; 38061; 38063; 38107; 38115;
     38119; 38123; 38135; 38149; 38152; 38159; 38166; 38167; 38179; 38189; 38192; 38196; 38201; 38202; 38232; 38253;
     38326; 38410; 38476; 38504; 38549; 38585; 38620; 38893; 39214; 39237; 39314; 39409; 39492; 39501; 39553; 39558;
     39586; 39745; 39748; 39995; 40151; 40230; 40273; 40442; 40477; 40495; 40514; 40515; 40557; 40584]%N);
   ((-210430443725945, -45)%Z, [20061]%N);
   ((-5018414886515013, -49)%Z, [20063; 21153; 21209; 21450; 22920; 23229; 23588; 24230; 26132; 30446; 34255]%N);
   ((-5416840452979493, -49)%Z, [20064; 21548; 24245; 24687; 27735; 27954; 27994; 28129; 28487; 28703; 31561; 32722;
     32831; 32893; 33080; 33225; 33873; 34180; 35422; 35789; 36523; 36771; 40660]%N);
   ((-2594291944628017, -48)%Z, [20065; 20800; 20919; 21333; 21934; 22402; 23696; 24375; 24378; 25329; 26179; 26580;
     26635; 26847; 27850; 37129; 38453; 38499]%N);
   ((-7634068532249417, -50)%Z, [20070; 26360]%N);
   ((-5339603088014125, -49)%Z, [20080; 20313; 20898; 21463; 22618; 23631; 24518; 24698; 24754; 24887; 25014; 25856;
     26704; 28525; 28557; 30127; 30219; 30524; 32673; 32680; 34503; 35352; 35760; 36023; 39192]%N);
   ((-8424180611841483, -50)%Z, [20094]%N);
   ((-5369238875327667, -49)%Z, [20102; 22496; 23803; 24443; 24505; 26482; 26495; 26631; 27161; 28866; 29211; 31227;
     32227; 32536; 33931; 34083; 35565; 35861; 37569; 38109; 38352; 38423; 38505; 38570; 38639]%N);
   ((-2335277367493285, -48)%Z, [20104; 23725; 23994; 28436; 34394; 34395]%N);
   ((-8963532696564973, -50)%Z, [20105; 20914; 21525; 21570; 24218; 29229; 34909]%N);
   ((-2416252672136723, -48)%Z, [20107; 21315; 23485; 23532; 28126; 31461; 32709; 35382; 35779; 36831; 36978; 37782;
     38145; 38452; 38512]%N);
   ((-3250457885441953, -49)%Z, [20108]%N);
   ((-8052605044155415, -50)%Z, [20110; 28789; 38728]%N);
   ((-6590506552410867, -50)%Z, [20113; 38642]%N);
   ((-8751984433653059, -50)%Z, [20116; 22521; 26411]%N);
   ((-4581268040636245, -49)%Z, [20117; 22969; 26395]%N);
   ((-190892178115649, -45)%Z, [20122; 20126; 25215]%N);
   ((-3196667018157393, -48)%Z, [20130; 20384; 20448; 20551; 21361; 21364; 21371; 21523; 21578; 21700; 21709; 21719;
     22057; 22151; 22576; 22815; 22816; 22958; 23092; 23252; 23291; 23338; 23462; 23477; 23507; 23544; 23679; 23714;
     23769; 23780; 23968; 23996; 24369; 24469; 24480; 24590; 24598; 24680; 24736; 24785; 25000; 25226; 25361; 25405;
     25732; 25878; 26133; 26152; 26212; 26368; 26531; 26666; 26688; 26839; 26967; 27012; 27029; 27146; 27185; 27387;
     27414; 27762; 27908; 27927; 27986; 28107; 28408; 28610; 28641; 28954; 29071; 29482; 29978; 30079; 30418; 30450;
     30729; 31398; 31431; 31921; 32406; 32420; 32834; 32886; 33016; 33464; 33683; 33729; 35413; 35780; 35948; 36012;
     36094; 36131; 36188; 36855; 36887; 37449; 37457; 37716; 37775; 37832; 38082; 38089; 38142; 38199; 38369; 38416;
     38607; 38619; 38873; 38890; 38911; 39522; 39530; 39540; 39562]%N);
   ((-1367210502311155, -47)%Z, [20132; 21307; 21382; 21895; 22659; 25343; 26379; 27511; 28595; 29282; 29916; 32724;
     32874; 32880; 33756; 34122; 34900; 35347; 35757; 36554; 36710; 36873; 36984; 37291; 37532; 37780; 38229;
     40723]%N);
   ((-4094712964772329, -49)%Z, [20134; 25935]%N);
   ((-4624143075244313, -49)%Z, [20136; 20308; 21344; 30452]%N);
   ((-5774870299580993, -49)%Z, [20139; 20928; 21449; 21561; 21619; 21767; 22068; 23476; 23735; 23777; 23805; 24448;
     24594; 24778; 25237; 25480; 25943; 26012; 26202; 26286; 26827; 27133; 27713; 28134; 28136; 29454; 29557; 30358;
     30913; 31232; 31283; 31337; 33151; 33510; 35201; 35215; 35268; 35441; 35712; 35805; 35835; 36123; 36133; 36195;
     38357; 38425; 39378; 39514; 39545]%N);
   ((-8305944869238055, -50)%Z, [20140; 31143]%N);
   ((-2116967951116989, -48)%Z, [20141; 26174; 39023]%N);
   ((-580072592252283, -46)%Z, [20142]%N);
   ((-4174420741280843, -49)%Z, [20146; 35242]%N);
   ((-977571966390985, -47)%Z, [20154]%N);
   ((-7111914009094099, -50)%Z, [20161]%N);
   ((-4862616796975171, -49)%Z, [20166; 20181; 20693; 24646; 24658; 28142; 29237; 36935]%N);
   ((-7011797773048579, -49)%Z, [20169; 20278; 20323; 20392; 20431; 20508; 20524; 20570; 20653; 20689; 20889; 21010;
     21056; 21095; 21097; 21108; 21123; 21127; 21150; 21155; 21232; 21254; 21342; 21471; 21486; 21495; 21558; 21584;
     21621; 21674; 21759; 21883; 21898; 22352; 22581; 22948; 23005; 23035; 23067; 23089; 23090; 23207; 23281; 23321;
     23381; 23418; 23531; 23681; 23896; 23899; 23992; 24065; 24163; 24187; 24213; 24229; 24246; 24248; 24297; 24298;
     24456; 24548; 24701; 24818; 24871; 24875; 24936; 24951; 25042; 25078; 25101; 25130; 25139; 25238; 25250; 25286;
     25293; 25303; 25315; 25386; 25447; 25516; 25536; 25654; 25658; 25774; 25788; 25884; 26015; 26027; 26029; 26039;
     26242; 26283; 26406; 26483; 26552; 26724; 26891; 27071; 27159; 27198; 27492; 27506; 27733; 27774; 27837; 27872;
     27898; 27916; 27929; 27955; 28015; 28051; 28061; 28075; 28210; 28212; 28237; 28294; 28467; 28514; 28540; 28551;
     28655; 28668; 28751; 28765; 28818; 28821; 28977; 29006; 29022; 29096; 29134; 29232; 29463; 29640; 29671; 29815;
     29825; 29862; 29956; 30068; 30087; 30361; 30415; 30430; 30475; 30511; 30599; 30779; 30784; 30844; 30990; 31025;
     31162; 31186; 31203; 31207; 31351; 31368; 31406; 31503; 31513; 31525; 31657; 31854; 32365; 32737; 32745; 32792;
     33210; 33405; 33503; 33575; 33765; 33789; 33809; 33821; 33909; 33967; 33985; 34109; 34171; 34367; 34399; 34649;
     35059; 35302; 35320; 35437; 35504; 35574; 35740; 35809; 35841; 35852; 35872; 36018; 36065; 36160; 36179; 36650;
     36718; 36774; 36829; 36877; 36949; 37000; 37397; 37438; 37484; 37518; 37657; 37813; 37827; 37848; 37931; 38062;
     38076; 38080; 38193; 38197; 38220; 38227; 38238; 38305; 38402; 38552; 38671; 38713; 38860; 38876; 38887; 38892;
     38913; 38995; 39013; 39029; 39067; 39074; 39087; 39122; 39319; 39439; 39509; 39556; 39568; 39727; 40475;
     40563]%N);
   ((-1271947173925415, -47)%Z, [20170; 21322; 23519; 29747; 32210; 32490; 38989; 39069]%N);
   ((-6642119334630591, -50)%Z, [20171]%N);
   ((-5589938950380373, -49)%Z, [20177; 20493; 20855; 20860; 21253; 22120; 23386; 23833; 24530; 24840; 25321; 25746;
     25799; 26063; 28510; 29030; 29616; 29694; 29699; 31929; 32318; 32396; 32489; 32493; 32966; 33213; 33426; 33433;
     33495; 33541; 34453; 34870; 35695; 35793; 36039; 36111; 36164; 36194; 39423; 39525; 39567; 39589]%N);
   ((-2844045590776187, -48)%Z, [20180; 20248; 20778; 21103; 21242; 21363; 22242; 22260; 22285; 22296; 22996; 23002;
     23617; 23627; 23781; 23842; 27575; 27766; 27863; 27880; 28155; 29831; 30460; 32104; 32466; 32597; 32763; 33469;
     34028; 34299; 35676; 35889; 38622; 38654; 38695; 38929; 39037; 39381; 39550; 40481]%N);
   ((-6105764775209309, -49)%Z, [20182; 20249; 20465; 20540; 20820; 20885; 20915; 21002; 21165; 21330; 21514; 21574;
     22821; 23601; 23822; 24525; 24858; 25925; 26292; 26507; 26825; 27770; 27781; 28020; 28891; 29165; 29705; 29906;
     29914; 30031; 30402; 30431; 30528; 30757; 30813; 30977; 31539; 32162; 32377; 32392; 32462; 32504; 32556; 32905;
     33050; 33139; 33465; 34224; 34507; 35010; 35013; 35037; 36000; 36127; 37633; 38174; 39250; 39286]%N);
   ((-7520281563095853, -50)%Z, [20185]%N);
   ((-8195769044388811, -50)%Z, [20195; 32822; 38663]%N);
   ((-4373391981471873, -49)%Z, [20196; 27589; 36814]%N);
   ((-3520080692553605, -49)%Z, [20197]%N);
   ((-1162245783028131, -47)%Z, [20202; 20736; 25087]%N);
   ((-1451761906497457, -47)%Z, [20208; 20461; 20745; 20901; 21050; 21520; 22418; 22577; 22744; 23697; 24207; 24324;
     24452; 24465; 24819; 25253; 25496; 25942; 26497; 26500; 26700; 26976; 26997; 27083; 27963; 27985; 28014; 28180;
     28222; 28251; 28417; 31491; 31716; 31867; 32265; 32305; 32327; 32437; 32537; 32626; 32895; 33034; 33484; 33593;
     33799; 34880; 35028; 36319; 36824; 36996; 37341; 37550; 38014; 38024; 38275; 38378; 38971; 39006; 39057; 39825;
     40077]%N);
   ((-3737893663570633, -49)%Z, [20210]%N);
   ((-613459604441463, -46)%Z, [20219; 24615; 25958; 26216; 37096]%N);
   ((-5877508211485851, -49)%Z, [20223; 21367; 21676; 22070; 22338; 22363; 22411; 22564; 22697; 22727; 23158; 23352;
     23556; 25171; 26399; 26898; 27832; 28186; 28342; 29626; 29742; 29840; 29885; 30740; 31508; 31558; 31572; 32403;
     32552; 32844; 32887; 33550; 33618; 33686; 34746; 34903; 35425; 35426; 35531; 35810; 35817; 35831; 36033; 36146;
     38739; 38746; 38797]%N);
   ((-2440744197448441, -48)%Z, [20225; 20247; 20998; 22030; 22899; 24904; 25196; 25562; 29575; 30526; 32011; 32441;
     32780; 36084; 36182]%N);
   ((-3892343718406429, -49)%Z, [20234]%N);
   ((-5146076916088617, -49)%Z, [20237; 22900; 24405; 24433; 25928; 27178; 27243; 30003; 31532; 32191; 32501; 32918;
     36801; 36983; 37636]%N);
   ((-607058034653517, -46)%Z, [20239; 21484; 24039; 25308; 27764; 34013; 34253; 39318]%N);
   ((-2375387569296937, -48)%Z, [20240; 21439; 23703; 23831; 32291; 33268; 38899]%N);
   ((-5156406562847199, -49)%Z, [20241; 26792; 34849]%N);
   ((-8799902299562439, -50)%Z, [20250; 24735; 26371; 32113; 32479]%N);
   ((-1655397650009561, -47)%Z, [20254; 20266; 20513; 20522; 20605; 20632; 20667; 20725; 20976; 20984; 21263; 21568;
     21738; 21947; 22829; 22874; 22925; 23244; 24051; 24110; 24171; 24254; 24577; 24724; 24789; 24907; 25106; 25129;
     25132; 25370; 25514; 25520; 25711; 25721; 25805; 26001; 26238; 26274; 26612; 26613; 26629; 26686; 26722; 26803;
     26984; 27000; 27053; 27257; 27347; 27410; 27813; 27887; 27957; 27979; 28195; 28204; 28418; 28478; 28552; 28701;
     28784; 28856; 29002; 29312; 29378; 29657; 29712; 29736; 29795; 29852; 30021; 30036; 30196; 30246; 30683; 31344;
     31446; 31548; 31568; 31840; 32961; 33029; 33261; 33480; 33507; 33607; 33616; 33704; 33715; 33889; 33940; 34137;
     34214; 34294; 34905; 34924; 34966; 35068; 35126; 35183; 35219; 35269; 35449; 35527; 35600; 35848; 35879; 35918;
     36028; 36148; 36212; 36225; 36460; 36953; 36965; 37336; 37385; 37392; 37445; 37573; 37658; 37847; 37934; 38025;
     38044; 38048; 38052; 38126; 38143; 38156; 38256; 38317; 38344; 38385; 38398; 38551; 38588; 38982; 39063; 39425;
     39479; 39511; 39563; 39564; 39578; 40636]%N);
   ((-8003287675384867, -50)%Z, [20255; 20553]%N);
   ((-6625439030925235, -50)%Z, [20256; 20659]%N);
   ((-7071358144860651, -50)%Z, [20262; 20523]%N);
   ((-6256333494561169, -50)%Z, [20271]%N);
   ((-2920588127008787, -48)%Z, [20280; 20336; 20542; 20670; 20874; 20876; 20989; 20995; 22484; 23480; 23723; 24833;
     25163; 25381; 25582; 25954; 26432; 26448; 26623; 26680; 27578; 28068; 28359; 28364; 28783; 28860; 28966; 29001;
     29128; 30406; 31034; 32178; 32573; 32593; 32929; 33559; 33905; 34085; 34676; 35674; 35885; 38069; 39347;
     39536]%N);
   ((-2505157373718281, -48)%Z, [20284; 21547; 21696; 24070; 25112; 25136; 28748; 30563; 37009; 37326; 38498]%N);
   ((-2276008654012709, -48)%Z, [20304; 35516; 35850; 36628; 36741; 38859; 38886; 40643; 40644]%N);
   ((-7793552836214889, -50)%Z, [20307; 34892; 39636]%N);
   ((-4534478507774949, -49)%Z, [20315; 20339; 22788; 34389; 36797; 36988]%N);
   ((-8019487953541769, -50)%Z, [20316]%N);
   ((-3931183252196411, -49)%Z, [20329; 26970]%N);
   ((-353868921307347, -45)%Z, [20355; 20391; 20596; 21327; 21332; 22039; 22868; 23143; 23581; 24339; 24441; 24713;
     25265; 26564; 27859; 27973; 28040; 28059; 28154; 28644; 31319; 32121; 32482; 33901; 34411; 34425; 34802; 36062;
     36175; 37051; 37168; 37202; 38660; 38928; 39044; 39854; 40092]%N);
   ((-8041457429258337, -50)%Z, [20358; 23110; 26469]%N);
   ((-4592641153779627, -49)%Z, [20365; 21187; 24211; 24235; 32862; 38395; 38470; 38520]%N);
   ((-192658671018479, -44)%Z, [20375; 21009; 21481; 22075; 22406; 22435; 22445; 22497; 22615; 22746; 22880; 22989;
     22999; 23045; 23149; 23348; 24125; 24651; 24930; 25088; 25975; 26044; 26177; 26367; 27001; 27135; 27682; 27691;
     27778; 27785; 28034; 28790; 28953; 29038; 29495; 29943; 30095; 31293; 31361; 31487; 32039; 32156; 32202; 32340;
     32455; 32508; 32617; 32933; 33009; 33333; 34430; 34662; 35060; 35443; 35465; 35686; 35709; 35814; 35970; 36068;
     36145; 37944; 38094; 38589; 38603; 38930; 39041]%N);
   ((-3335650979700945, -49)%Z, [20381]%N);
   ((-1935344563703065, -48)%Z, [20399]%N);
   ((-6003126863304451, -49)%Z, [20417; 20451; 20846; 20934; 21243; 21248; 21472; 22466; 22645; 22665; 22833; 22918;
     22941; 23039; 23576; 24109; 25153; 25216; 25233; 25299; 26196; 26308; 26389; 26441; 26512; 26604; 26797; 26816;
     27088; 27298; 27531; 27544; 27838; 27891; 27964; 27987; 28132; 28310; 28316; 28372; 28611; 28843; 28937; 29279;
     29281; 30058; 30090; 30651; 30952; 31402; 31665; 31809; 31839; 31869; 32115; 32475; 33134; 33446; 34218; 34310;
     35336; 35370; 35410; 35745; 35775; 35794; 36199; 36655; 36753; 36836; 36861; 36864; 36943; 37045; 37197; 37434;
     37467; 38002; 38013; 38064; 38075; 38085; 38262; 38917; 39033; 39493; 39537; 40285; 40517]%N);
   ((-6353576839182929, -50)%Z, [20426]%N);
   ((-739543468159479, -46)%Z, [20439; 20472; 21028; 21378; 22330; 22580; 22840; 22859; 22894; 24208; 24288; 24300;
     24796; 24942; 25282; 26103; 26336; 26834; 26837; 26881; 27112; 27515; 27965; 28041; 28052; 28698; 28903; 28919;
     29138; 29255; 29787; 30005; 30742; 30871; 30938; 31455; 32184; 32438; 33218; 33337; 33455; 33485; 33600; 33980;
     34385; 34588; 35463; 36664; 36755; 36845; 36951; 36986; 38480; 38495; 38651]%N);
   ((-7263819656548271, -50)%Z, [20445]%N);
   ((-3827757446596221, -49)%Z, [20449]%N);
   ((-8543238961775955, -50)%Z, [20462; 38745; 38748]%N);
   ((-5271695567907217, -49)%Z, [20505; 24033; 25402; 26420; 27192; 29822; 31069; 31105; 32326; 32554; 35098; 38469;
     38555; 39135]%N);
   ((-1403229922573529, -47)%Z, [20521; 20957; 20986; 21019; 21109; 21247; 22346; 23451; 23495; 23706; 23888; 25206;
     25307; 27833; 27900; 28120; 28497; 29467; 29614; 29771; 31454; 31478; 31661; 34987; 35641; 35880; 37428; 38083;
     38684; 38915; 39031; 39108; 39128; 40595]%N);
   ((-8509118171602331, -50)%Z, [20581; 23435; 24352; 24373]%N);
   ((-5744433159885271, -49)%Z, [20598; 20864; 21413; 21483; 22570; 22812; 23828; 24043; 26207; 26388; 26454; 27530;
     27754; 28911; 29239; 29242; 31085; 31354; 32244; 32451; 33108; 33489; 33531; 38313; 38346; 38397; 38420; 38485;
     38493; 38924; 39042]%N);
   ((-2642318758060495, -48)%Z, [20613; 23047; 23308; 27803; 28085; 32264; 33830; 36617; 36733]%N);
   ((-7857645743150445, -50)%Z, [20625; 26480]%N);
   ((-4636426106958823, -49)%Z, [20633; 22791; 24062; 26118; 28246; 35264; 35266; 36890]%N);
   ((-5400521920446897, -49)%Z, [20648; 20786; 23472; 24432; 25035; 25276; 25353; 26539; 26893; 26963; 27744; 27966;
     28373; 28481; 30566; 31166; 31389; 31401; 32143; 32485; 33492; 36677; 36757; 37492; 37969; 38590; 38627;
     39053]%N);
   ((-2818439311624403, -48)%Z, [20694; 21160; 21205; 21628; 22280; 23396; 23545; 23565; 23609; 25098; 25806; 25810;
     25968; 25976; 26191; 26421; 26426; 26586; 27231; 28071; 28207; 28366; 28567; 29483; 30465; 30862; 31048; 32937;
     32972; 33637; 34678; 35987; 36767; 37057; 38370; 38662; 38761; 39729]%N);
   ((-8098333152667557, -50)%Z, [20711; 21496]%N);
   ((-8957260257462775, -50)%Z, [20754; 22766; 22767; 33707]%N);
   ((-513640979205213, -46)%Z, [20799; 20818]%N);
   ((-4711597598217081, -49)%Z, [20801; 27849; 29275; 33293]%N);
   ((-6050300508714281, -50)%Z, [20803]%N);
   ((-2063631244755517, -48)%Z, [20804; 22478; 28851]%N);
   ((-5311449724081039, -49)%Z, [20805; 20992; 21368; 22350; 24217; 24287; 24403; 24444; 26874; 29835; 30053; 30070;
     30719; 31014; 31601; 32016; 32445; 32997; 35586; 35859; 36001; 36130; 37122]%N);
   ((-3495007030334471, -49)%Z, [20806]%N);
   ((-6477167621958805, -50)%Z, [20808]%N);
   ((-6266032210940115, -50)%Z, [20809]%N);
   ((-5186481794769921, -50)%Z, [20811]%N);
   ((-4612122334818207, -49)%Z, [20837; 22799; 25505; 37319]%N);
   ((-4263024658163089, -49)%Z, [20839; 20869]%N);
   ((-2137983303188431, -48)%Z, [20840; 28149; 28170]%N);
   ((-290826989448339, -45)%Z, [20843; 38605; 40654]%N);
   ((-3129588697906321, -49)%Z, [20844]%N);
   ((-8872928881568271, -50)%Z, [20845]%N);
   ((-6512980366887875, -50)%Z, [20848; 34349]%N);
   ((-4887922178678457, -49)%Z, [20849; 23004; 27605; 30050; 36681; 36716; 36981; 37351; 38031]%N);
   ((-8666686205052645, -50)%Z, [20851; 38364]%N);
   ((-7564789330769359, -50)%Z, [20852; 33288]%N);
   ((-8186267722966575, -50)%Z, [20853; 32032]%N);
   ((-1918843137287155, -48)%Z, [20854]%N);
   ((-4901014628150557, -49)%Z, [20856; 20892; 23736; 26525; 32764; 33308; 34560; 35299; 36786]%N);
   ((-8118938431940817, -50)%Z, [20857; 27861; 33586]%N);
   ((-8671528792762491, -50)%Z, [20859; 31103; 31108; 39178]%N);
   ((-2857778801099487, -48)%Z, [20861; 21365; 21535; 22378; 23195; 24061; 24490; 25937; 26161; 26438; 26638; 26751;
     27359; 27490; 28363; 28393; 28760; 29560; 31237; 31246; 33310; 33322; 33804; 34521; 34633; 34796; 36070; 36171;
     36896; 37050; 37172; 37335; 38026; 38657; 38717]%N);
   ((-4566452713144805, -49)%Z, [20877; 26753; 31066; 35140; 37528; 38125]%N);
   ((-7159040047200365, -50)%Z, [20891; 36557; 36798; 36948]%N);
   ((-8867140180349709, -50)%Z, [20896]%N);
   ((-140756974065635, -44)%Z, [20908; 26657]%N);
   ((-3561449242778113, -49)%Z, [20912; 26102; 26178]%N);
   ((-4928149999123741, -49)%Z, [20918; 26607; 29677; 33831; 34157; 35657; 35777; 36637; 36745; 40720]%N);
   ((-1150088229393245, -47)%Z, [20937; 23546; 24040; 24509; 26356; 28092; 30422; 31456; 33150; 33995; 39472]%N);
   ((-74471865466201, -43)%Z, [20940]%N);
   ((-8861381088985501, -50)%Z, [20960; 24190]%N);
   ((-2425189136255413, -48)%Z, [20961; 26449; 29615; 29872; 38331; 38414]%N);
   ((-3629136670186305, -49)%Z, [20964; 40179]%N);
   ((-4210145744562645, -49)%Z, [20975; 20977; 30002]%N);
   ((-1371825259618879, -47)%Z, [20987; 21183; 21218; 22863; 23020; 23646; 23660; 24358; 25142; 25143; 25351; 25802;
     27431; 27472; 28176; 28192; 28472; 29980; 32177; 32434; 32705; 33311; 37041; 40801; 40836]%N);
   ((-4666173779387197, -49)%Z, [20999; 40300; 40527]%N);
   ((-4118946977113593, -49)%Z, [21016; 21129; 32110]%N);
   ((-8139927852980313, -50)%Z, [21017; 21063; 21073; 21133]%N);
   ((-4544936083167969, -49)%Z, [21018; 21083; 29645; 35576; 35832]%N);
   ((-2257064351718461, -48)%Z, [21021; 21475; 21488; 22857]%N);
   ((-323603279920453, -45)%Z, [21029; 21035; 21334; 21519; 28548; 29422; 29509; 34081; 36067; 36275; 37073; 37165;
     39912; 40120]%N);
   ((-3028233619720479, -49)%Z, [21033]%N);
   ((-5567859651737583, -49)%Z, [21040; 24102; 24118; 24180; 24807; 25084; 26059; 26144; 26332; 26342; 27877; 28216;
     28322; 29730; 30011; 30059; 31569; 31689; 31908; 31925; 32996; 33589; 33722; 36938; 37266; 37327; 37396; 38046;
     40165; 40367; 40479]%N);
   ((-5043439004183759, -49)%Z, [21046; 21380; 21688; 26228; 27603; 30746; 30831]%N);
   ((-2377934871539141, -48)%Z, [21068; 27934]%N);
   ((-4413715893059051, -49)%Z, [21069]%N);
   ((-7105857513011305, -50)%Z, [21147]%N);
   ((-925141576962941, -47)%Z, [21152]%N);
   ((-2089956489755953, -48)%Z, [21162]%N);
   ((-2474697957501895, -48)%Z, [21170; 21185; 22768; 22902; 26230; 27748; 28271; 29380; 32882; 33576; 35486; 35821;
     36196; 39592]%N);
   ((-4340638452399201, -49)%Z, [21171; 21214; 37806; 38215]%N);
   ((-2339710135904123, -48)%Z, [21191; 21464; 27583; 28009; 31215; 31309; 35722]%N);
   ((-4875127310792999, -49)%Z, [21195; 21235; 22616; 24069; 24101; 24188; 24944; 29289; 32858]%N);
   ((-7179488280653767, -50)%Z, [21202; 27700]%N);
   ((-8334360255189881, -50)%Z, [21213; 32988]%N);
   ((-4771436171352821, -49)%Z, [21220; 40180; 40483]%N);
   ((-7933139738940757, -50)%Z, [21270]%N);
   ((-4037618480040227, -49)%Z, [21271]%N);
   ((-4570120152522241, -49)%Z, [21281; 23454; 23526; 24341; 33609]%N);
   ((-4894430343110655, -49)%Z, [21295; 24265; 27719; 36763; 37995; 38936; 39046; 40657]%N);
   ((-560615017222833, -46)%Z, [21313]%N);
   ((-2274232780760971, -48)%Z, [21319; 29399; 36011; 36143; 37628; 38050]%N);
   ((-1244757925579333, -47)%Z, [21320; 23653; 26725; 27211]%N);
   ((-7287701148781327, -50)%Z, [21326; 32654; 33775]%N);
   ((-1158075478257557, -47)%Z, [21331; 26071]%N);
   ((-3532757685731931, -49)%Z, [21335]%N);
   ((-7283449791029571, -50)%Z, [21338]%N);
   ((-1070637722854191, -47)%Z, [21340]%N);
   ((-7341498724128235, -50)%Z, [21345]%N);
   ((-4250373565007929, -49)%Z, [21346; 30439]%N);
   ((-7879046808098177, -50)%Z, [21355; 28385; 28415; 34907]%N);
   ((-1279044685600479, -47)%Z, [21360; 24402; 27512; 28392; 28657; 32233; 32531; 34121; 34920; 37011; 37159]%N);
   ((-577495803883, -36)%Z, [21402; 23553; 28145]%N);
   ((-8711038106468985, -50)%Z, [21407; 33457; 33538]%N);
   ((-1239164971538785, -47)%Z, [21442; 21443; 23707; 23798]%N);
   ((-4541428595476059, -49)%Z, [21448; 21888; 23561; 36234]%N);
   ((-8345203676790029, -50)%Z, [21451; 22240]%N);
   ((-8161316011338257, -50)%Z, [21452; 38617]%N);
   ((-7850601508033341, -50)%Z, [21457; 30332]%N);
   ((-7735023205540085, -50)%Z, [21460]%N);
   ((-5135933399255163, -49)%Z, [21462; 25918; 26263; 27839; 34913; 35624; 35871; 37749; 38190; 40860; 40863]%N);
   ((-669278248359367, -46)%Z, [21465; 23493; 25880; 25944; 26088; 26679; 26799; 27014; 27171; 27818; 28325; 28396;
     31348; 31881; 33725; 38471; 38580; 39467; 39582; 39770; 40023; 40060; 40158]%N);
   ((-7780280777931799, -50)%Z, [21476; 27054; 33635]%N);
   ((-1638970976849563, -48)%Z, [21487]%N);
   ((-4657512840043121, -49)%Z, [21490; 23068; 26705]%N);
   ((-307577659441919, -45)%Z, [21491; 26106; 28006; 28699; 28857; 32903; 34893; 36805; 36874; 36956; 38582; 38584;
     40670]%N);
   ((-4300495038574275, -49)%Z, [21494; 25096; 33865; 36229]%N);
   ((-5246671450238471, -49)%Z, [21508; 24278; 26381; 27867; 28526; 33805; 38754]%N);
   ((-8920342199000983, -50)%Z, [21512; 36291; 36493]%N);
   ((-6538963825583411, -50)%Z, [21513]%N);
   ((-62998938570705, -43)%Z, [21516; 26234; 33647; 34277]%N);
   ((-7649625255140531, -50)%Z, [21517; 24800]%N);
   ((-2286905820427133, -48)%Z, [21518; 22856; 24460; 25588; 28800; 29036]%N);
   ((-3710067798437997, -49)%Z, [21521; 30606]%N);
   ((-7402704004523633, -50)%Z, [21531]%N);
   ((-3673735840969721, -49)%Z, [21551; 21855]%N);
   ((-1151062195137497, -47)%Z, [21555; 21556; 31471; 32676; 35328]%N);
   ((-4776722125245401, -49)%Z, [21566; 22721; 24685; 27463; 36808; 36993]%N);
   ((-4942224481035753, -49)%Z, [21576; 22995; 24799; 26366; 28779; 31161]%N);
   ((-2212487633724983, -48)%Z, [21592; 21729; 26000; 38686]%N);
   ((-268356173720673, -45)%Z, [21608; 23637; 36913]%N);
   ((-4815182440460301, -49)%Z, [21629; 26415; 26597; 31206; 34398; 34899]%N);
   ((-7326703505882001, -50)%Z, [21644]%N);
   ((-3844742140754603, -49)%Z, [21704; 31036; 31150]%N);
   ((-4125589531508879, -49)%Z, [21733; 27827]%N);
   ((-8976183390409481, -50)%Z, [21746; 26611; 29618; 33395; 33399]%N);
   ((-2152535946337075, -48)%Z, [21776]%N);
   ((-5078634836234285, -49)%Z, [21807; 24910; 25955; 31109; 31146; 32020; 32431; 38867; 38889]%N);
   ((-1146258401551043, -47)%Z, [21830; 25252; 32819; 35703; 35895]%N);
   ((-2599865888685019, -48)%Z, [21839; 22830; 28895; 29017; 29366; 29376; 30340; 32353; 32483; 32982; 35412; 35791;
     38382]%N);
   ((-4291451471343025, -49)%Z, [21892; 27665]%N);
   ((-543194384641351, -46)%Z, [21916; 26681; 26707; 27801; 28330; 35519; 35843; 37089]%N);
   ((-7051615196061641, -50)%Z, [21987]%N);
   ((-3017631612333579, -49)%Z, [22025]%N);
   ((-875672181959263, -47)%Z, [22235]%N);
   ((-631504228363581, -46)%Z, [22266; 24223; 24290; 32048; 32454; 33673; 33777; 35584; 35613; 35851; 35874; 36807;
     36898; 36942]%N);
   ((-5359198373264363, -50)%Z, [22269; 22283]%N);
   ((-8274812012688977, -50)%Z, [22270; 22294; 33945; 37257]%N);
   ((-8926411754976793, -50)%Z, [22278; 22291; 27668; 27683]%N);
   ((-1186431556561207, -47)%Z, [22303; 33678; 33738]%N);
   ((-1909000352025171, -48)%Z, [22307; 32854]%N);
   ((-2122076530120689, -48)%Z, [22312; 28201; 28331; 36828; 36960]%N);
   ((-2153687174840495, -48)%Z, [22320; 32993; 33590]%N);
   ((-4721139351280331, -49)%Z, [22362; 22533; 25558; 38669]%N);
   ((-2072135667382307, -48)%Z, [22374]%N);
   ((-8932514208435603, -50)%Z, [22467]%N);
   ((-2716823088597047, -48)%Z, [22495; 23401; 23429; 23456; 23541; 23548; 23566; 24091; 24709; 24742; 25317; 25793;
     26352; 26647; 26727; 27292; 28458; 29435; 29436; 30555; 31072; 34281; 35563; 35855; 36793; 37002; 38931;
     39039]%N);
   ((-4964018813864601, -49)%Z, [22519; 25191; 26646; 26786; 26866; 29788; 38712; 40607]%N);
   ((-1894393352166321, -48)%Z, [22522]%N);
   ((-4914418831723617, -49)%Z, [22530; 22836; 24357; 24396; 26410; 26576; 28459; 33179; 34915; 38957]%N);
   ((-5097093865465181, -49)%Z, [22561; 23460; 30772; 34108; 34297; 36848; 38901; 38907]%N);
   ((-4986691003508399, -49)%Z, [22575; 23591; 24323; 25151; 26820; 29738; 29748; 30424; 30436; 37027]%N);
   ((-7165390317316323, -50)%Z, [22612]%N);
   ((-3874953920177731, -49)%Z, [22622]%N);
   ((-227785057589331, -45)%Z, [22686]%N);
   ((-4616100796277267, -49)%Z, [22696; 36040; 36158]%N);
   ((-5913700880465113, -50)%Z, [22763]%N);
   ((-2033472710424233, -48)%Z, [22781; 23551; 27835; 40575]%N);
   ((-933428589354063, -47)%Z, [22797]%N);
   ((-7838958178759225, -50)%Z, [22810]%N);
   ((-3917167176670655, -49)%Z, [22818; 26790]%N);
   ((-589445579263261, -47)%Z, [22823]%N);
   ((-688158699277543, -47)%Z, [22825]%N);
   ((-2663569711346791, -49)%Z, [22826]%N);
   ((-48470025003367, -43)%Z, [22827]%N);
   ((-1185180548427581, -47)%Z, [22839; 29664; 30805; 30889; 31649]%N);
   ((-5526140572265497, -49)%Z, [22842; 22890; 22986; 23449; 24674; 24773; 25102; 25910; 26089; 26943; 27495; 27784;
     28799; 28828; 29010; 29158; 29166; 29801; 31526; 32928; 33144; 33721; 33853; 34164; 34174; 34314; 37666; 38065;
     38291; 38388; 38678; 39438; 39569; 39663]%N);
   ((-8302442844931449, -50)%Z, [22855]%N);
   ((-4735762250141143, -49)%Z, [22862; 23528; 32752; 36930]%N);
   ((-4809524604359703, -49)%Z, [22865]%N);
   ((-8142958540965977, -50)%Z, [22885; 22887; 28248]%N);
   ((-645866162281967, -46)%Z, [22909; 22937; 37101]%N);
   ((-3984483424846911, -49)%Z, [22914]%N);
   ((-3511037125322355, -49)%Z, [22982]%N);
   ((-8104181996505553, -50)%Z, [22987]%N);
   ((-7502959684407701, -50)%Z, [22992]%N);
   ((-2401961533034693, -48)%Z, [22993; 24066; 24322; 24917; 30064; 38598]%N);
   ((-7637937607901741, -50)%Z, [23016]%N);
   ((-1959160973105397, -48)%Z, [23041]%N);
   ((-5450969081007239, -49)%Z, [23043; 23574; 24037; 25140; 25240; 25506; 25509; 26159; 26465; 26781; 29492; 30007;
     31041; 32068; 32097; 32321; 32452; 32476; 33032; 33033; 35377; 35768; 36002; 36129; 36321; 36562; 36713; 36857;
     39764; 40594]%N);
   ((-3615472165500185, -49)%Z, [23064]%N);
   ((-8982562443773095, -50)%Z, [23113; 23159; 25913]%N);
   ((-5060761907996905, -49)%Z, [23125; 24034; 27425; 29756; 29898; 31192; 33643; 34093; 34701; 38592; 38920;
     39035]%N);
   ((-4820897717503085, -49)%Z, [23194]%N);
   ((-1302776222628355, -47)%Z, [23219; 24351; 27714; 28507; 28508; 29245; 31038; 31163; 31243; 32784; 33891; 35696;
     35758; 38626; 38914; 39030]%N);
   ((-2513316639984579, -48)%Z, [23332; 23351; 23458; 32080; 32467; 37509; 38108]%N);
   ((-2649802563507347, -49)%Z, [23376]%N);
   ((-4454150186990391, -49)%Z, [23380]%N);
   ((-2501164753914271, -48)%Z, [23383; 30028; 30473; 34074; 36817]%N);
   ((-4057985816025331, -49)%Z, [23384]%N);
   ((-7310650221642253, -50)%Z, [23385; 23403; 24515]%N);
   ((-7201629304643631, -50)%Z, [23389]%N);
   ((-8352491080268941, -50)%Z, [23391]%N);
   ((-8816339086470729, -50)%Z, [23395; 36816; 36939; 37857; 38236; 38596]%N);
   ((-6125111039948069, -50)%Z, [23398; 23416]%N);
   ((-7328174309365941, -50)%Z, [23425; 23527]%N);
   ((-2128331787029603, -48)%Z, [23431; 27941]%N);
   ((-1879634333402925, -48)%Z, [23432]%N);
   ((-6956723226163039, -50)%Z, [23433]%N);
   ((-7291968620372295, -50)%Z, [23439]%N);
   ((-2537553004038089, -49)%Z, [23447]%N);
   ((-7827434025878453, -50)%Z, [23448]%N);
   ((-1877896828029521, -48)%Z, [23450]%N);
   ((-8810833452483537, -50)%Z, [23452; 26460; 34261]%N);
   ((-3337295830990707, -49)%Z, [23453; 23542]%N);
   ((-7377821225894393, -50)%Z, [23459]%N);
   ((-2164265767585895, -48)%Z, [23466; 25010]%N);
   ((-8716075698348815, -50)%Z, [23467; 23470; 40613; 40614]%N);
   ((-171560106710725, -45)%Z, [23478]%N);
   ((-8560695123952469, -50)%Z, [23481]%N);
   ((-8447801755976327, -50)%Z, [23486; 36051]%N);
   ((-3748907332227979, -49)%Z, [23492]%N);
   ((-125604495099895, -44)%Z, [23494]%N);
   ((-7544988822096773, -50)%Z, [23500; 35997; 36125]%N);
   ((-1198221119503659, -47)%Z, [23506; 26524; 36920; 38307; 38401]%N);
   ((-8055409279495081, -50)%Z, [23558; 23559]%N);
   ((-4608171792616891, -49)%Z, [23562; 27427; 37555; 38160; 40718]%N);
   ((-323512845169311, -46)%Z, [23567]%N);
   ((-3231031930061933, -49)%Z, [23569]%N);
   ((-145853609812263, -45)%Z, [23572; 29246]%N);
   ((-1994854027941549, -48)%Z, [23578; 24212; 25033]%N);
   ((-3264755795660367, -49)%Z, [23612]%N);
   ((-2562984711575739, -48)%Z, [23613; 24038; 24609; 25345; 28010; 30433; 31616; 31684; 31777; 32943; 33539; 34784;
     36895; 38945; 39049]%N);
   ((-4994455953560323, -49)%Z, [23614; 23913; 28949; 29029; 29976; 32218; 32447]%N);
   ((-5626749147101019, -50)%Z, [23621]%N);
   ((-6936795273955669, -50)%Z, [23665]%N);
   ((-8192593019978543, -50)%Z, [23721; 37504; 38134]%N);
   ((-2314103856752339, -48)%Z, [23731; 29791]%N);
   ((-2353443346227423, -48)%Z, [23792; 33298]%N);
   ((-7388639839467419, -50)%Z, [23815]%N);
   ((-5234564533011061, -49)%Z, [23830; 24331; 26007; 26086; 27807; 28317; 28909; 29105; 33606; 33610; 38543; 38544;
     38568; 38577; 38902; 39717]%N);
   ((-4389176659101093, -49)%Z, [24013; 24517; 38272; 38376]%N);
   ((-4242094740019893, -49)%Z, [24029]%N);
   ((-3885759433366527, -49)%Z, [24030; 25242; 25771]%N);
   ((-1800736344289207, -48)%Z, [24052; 25964; 26408]%N);
   ((-6938876420401905, -50)%Z, [24067]%N);
   ((-6745993387920359, -50)%Z, [24072; 24107]%N);
   ((-6860433819056033, -50)%Z, [24076]%N);
   ((-8480087836498693, -50)%Z, [24085]%N);
   ((-7559354566040505, -50)%Z, [24093]%N);
   ((-8624015417573051, -50)%Z, [24120]%N);
   ((-4531035378060369, -49)%Z, [24178; 24185; 24635; 29796; 29814; 32317]%N);
   ((-901525151553599, -47)%Z, [24179]%N);
   ((-7474110633001399, -50)%Z, [24191; 24291]%N);
   ((-4348029586404813, -49)%Z, [24196; 33674]%N);
   ((-13888086134221, -41)%Z, [24198; 24950]%N);
   ((-2692331563285329, -48)%Z, [24199; 26122; 26198; 26249; 27740; 27993; 31482; 31680; 32773; 33410; 34183]%N);
   ((-4214041607539653, -49)%Z, [24220; 32043]%N);
   ((-4716348258928199, -49)%Z, [24222; 29031; 32690; 40848]%N);
   ((-2255403727570111, -48)%Z, [24237]%N);
   ((-8030419106462867, -50)%Z, [24247]%N);
   ((-900039346087643, -47)%Z, [24310]%N);
   ((-886133827744907, -47)%Z, [24311]%N);
   ((-6138844798436683, -50)%Z, [24314]%N);
   ((-6768148764496491, -50)%Z, [24320; 38283]%N);
   ((-8234597026814699, -50)%Z, [24335]%N);
   ((-1040007865174197, -47)%Z, [24343]%N);
   ((-2133652833516393, -48)%Z, [24344]%N);
   ((-8024940263987933, -50)%Z, [24421; 24422]%N);
   ((-8995430011336245, -50)%Z, [24425; 26131; 27779]%N);
   ((-5325350429188639, -49)%Z, [24429; 27442; 28147; 28465; 30416; 33862; 34203; 34532; 40441; 40560; 40573]%N);
   ((-8833019390176085, -50)%Z, [24449; 24501; 37365; 38039]%N);
   ((-7409011583523989, -50)%Z, [24459]%N);
   ((-4588824529306997, -49)%Z, [24464]%N);
   ((-8805354610008603, -50)%Z, [24466]%N);
   ((-905224557788863, -47)%Z, [24471]%N);
   ((-2077364455078817, -48)%Z, [24481; 31142]%N);
   ((-5077097341999669, -50)%Z, [24503]%N);
   ((-815556825671795, -47)%Z, [24535]%N);
   ((-3714879365792529, -49)%Z, [24544]%N);
   ((-2422178680000363, -48)%Z, [24565; 35373; 35774; 36032; 36154]%N);
   ((-4114015997089985, -49)%Z, [24576; 25079]%N);
   ((-774439876601497, -47)%Z, [24605]%N);
   ((-871722830253029, -47)%Z, [24681]%N);
   ((-103833199152861, -44)%Z, [24859; 29233]%N);
   ((-3905747921979489, -49)%Z, [24935; 31859]%N);
   ((-6963090254856727, -50)%Z, [25104]%N);
   ((-2213912826525281, -48)%Z, [25165]%N);
   ((-4231914535777033, -49)%Z, [25166]%N);
   ((-7876648724322911, -50)%Z, [25176; 30331]%N);
   ((-5869332793941447, -50)%Z, [25289]%N);
   ((-463958386144253, -46)%Z, [25391]%N);
   ((-4507505686417685, -49)%Z, [25463; 34276; 38991; 39068]%N);
   ((-1199594179061425, -47)%Z, [25484; 35947; 38742]%N);
   ((-4343091397253697, -49)%Z, [25552; 26185; 26187; 32172; 32502; 33251]%N);
   ((-8058220516678067, -50)%Z, [25622; 25671]%N);
   ((-6876085155810685, -50)%Z, [25705]%N);
   ((-7107066208679555, -50)%Z, [25919]%N);
   ((-1118102405991209, -47)%Z, [25945; 31216; 31281]%N);
   ((-2611432755360685, -49)%Z, [25991]%N);
   ((-5015436588954903, -50)%Z, [26031]%N);
   ((-3313903427472937, -49)%Z, [26032]%N);
   ((-399140645915871, -46)%Z, [26041]%N);
   ((-8152099862414933, -50)%Z, [26045]%N);
   ((-8884596342526223, -50)%Z, [26080; 28961]%N);
   ((-8374640645223859, -50)%Z, [26085; 38534]%N);
   ((-8401044868198527, -50)%Z, [26093]%N);
   ((-1258743357955459, -47)%Z, [26114; 33655; 33993; 38477]%N);
   ((-986086318667889, -47)%Z, [26124]%N);
   ((-5817761853942325, -50)%Z, [26126]%N);
   ((-2096470250968905, -48)%Z, [26143]%N);
   ((-6934717967265205, -50)%Z, [26149]%N);
   ((-3839693228405557, -49)%Z, [26157]%N);
   ((-387489550677227, -46)%Z, [26195; 26313]%N);
   ((-7319378171604081, -50)%Z, [26222]%N);
   ((-7546774547937951, -50)%Z, [26223]%N);
   ((-8312981766562447, -50)%Z, [26262]%N);
   ((-507992876747507, -46)%Z, [26329]%N);
   ((-8367208935687863, -50)%Z, [26364]%N);
   ((-8145997408956123, -50)%Z, [26376]%N);
   ((-3306057308081471, -49)%Z, [26377]%N);
   ((-7935661352328145, -50)%Z, [26391]%N);
   ((-3395374439562641, -49)%Z, [26397]%N);
   ((-7714095095426391, -50)%Z, [26412]%N);
   ((-287280239406129, -45)%Z, [26417; 37406; 38055]%N);
   ((-34146903916129, -42)%Z, [26435; 27402; 36060; 36176]%N);
   ((-3850861222234073, -49)%Z, [26446; 37670; 38182]%N);
   ((-1242868803411645, -47)%Z, [26447; 27426; 27489; 32701; 32789; 35910]%N);
   ((-8938649917935733, -50)%Z, [26472; 26954]%N);
   ((-7974179358572731, -50)%Z, [26494]%N);
   ((-102080276267367, -44)%Z, [26519]%N);
   ((-7945804663336993, -50)%Z, [26575]%N);
   ((-565951647419353, -46)%Z, [26609]%N);
   ((-3660419715305535, -49)%Z, [26641; 27193]%N);
   ((-6037599602153907, -50)%Z, [26684]%N);
   ((-480974170935501, -46)%Z, [26690]%N);
   ((-2070414102525017, -48)%Z, [26757]%N);
   ((-7943260255684981, -50)%Z, [26862]%N);
   ((-4208207877060677, -49)%Z, [27453; 38054]%N);
   ((-1673005521516817, -48)%Z, [27491]%N);
   ((-4562809011405349, -49)%Z, [27493; 29287; 29995; 33406]%N);
   ((-7062024206164783, -50)%Z, [27494]%N);
   ((-972810243933913, -47)%Z, [27604]%N);
   ((-4559188741993455, -49)%Z, [27611; 28814]%N);
   ((-7358001216729803, -50)%Z, [27663; 27721; 28450]%N);
   ((-6111542789385955, -50)%Z, [27704]%N);
   ((-3358272548142453, -49)%Z, [27741]%N);
   ((-3444482022860719, -49)%Z, [27743]%N);
   ((-4577527495622265, -49)%Z, [27819; 32736]%N);
   ((-3866456401048871, -49)%Z, [27874]%N);
   ((-1952309316915319, -48)%Z, [27888]%N);
   ((-3126182031211245, -49)%Z, [27901; 28580]%N);
   ((-6879044158583075, -50)%Z, [27931]%N);
   ((-1852648503784083, -48)%Z, [27946]%N);
   ((-1175553720449215, -47)%Z, [27969; 32004; 32422]%N);
   ((-1909969285776155, -48)%Z, [27982; 28639]%N);
   ((-1581965464325443, -48)%Z, [28023]%N);
   ((-8838634862698737, -50)%Z, [28037]%N);
   ((-990701075975613, -47)%Z, [28070; 28516]%N);
   ((-424593227062205, -46)%Z, [28165]%N);
   ((-4725971569391581, -49)%Z, [28193; 28872; 32361; 32499; 33394; 34923]%N);
   ((-1032655848684501, -47)%Z, [28304]%N);
   ((-4235964552910109, -49)%Z, [29141]%N);
   ((-4683905952541103, -49)%Z, [29151; 33829; 34945]%N);
   ((-6021807017805119, -50)%Z, [29305]%N);
   ((-4338196149421347, -49)%Z, [29420; 29544; 32946]%N);
   ((-3043664477465567, -49)%Z, [29486; 29563]%N);
   ((-7818298885242061, -50)%Z, [29572]%N);
   ((-5716977478616057, -50)%Z, [29577]%N);
   ((-6899977827611977, -50)%Z, [29579]%N);
   ((-3930001824788149, -49)%Z, [29595; 29802]%N);
   ((-4227893447584645, -49)%Z, [29702]%N);
   ((-2413335806897235, -48)%Z, [29711; 29833; 33098; 33240]%N);
   ((-3111929372385759, -49)%Z, [29734]%N);
   ((-3384970086420375, -49)%Z, [29790]%N);
   ((-3688142080468215, -49)%Z, [29926]%N);
   ((-7365583062935453, -50)%Z, [29983; 40845; 40857]%N);
   ((-8316516777023215, -50)%Z, [29992]%N);
   ((-7697628258477215, -50)%Z, [30000]%N);
   ((-1021715343427907, -47)%Z, [30001]%N);
   ((-8721135931167077, -50)%Z, [30041]%N);
   ((-3877098494022451, -49)%Z, [30333; 37030]%N);
   ((-7155247006307475, -50)%Z, [30334]%N);
   ((-3348526087961895, -49)%Z, [30343]%N);
   ((-4195268647451, -39)%Z, [30382]%N);
   ((-4146000829069377, -49)%Z, [30408]%N);
   ((-8121913070148905, -50)%Z, [30410]%N);
   ((-7023196223738895, -50)%Z, [30417; 30435]%N);
   ((-4289213098797911, -49)%Z, [30427]%N);
   ((-7454182680794029, -50)%Z, [30456]%N);
   ((-1943425740087683, -48)%Z, [30495; 30707]%N);
   ((-8241200564259775, -50)%Z, [30693; 38358; 38383]%N);
   ((-1936408742576377, -48)%Z, [30887]%N);
   ((-8005971585849705, -50)%Z, [31062]%N);
   ((-131386001262117, -44)%Z, [31070]%N);
   ((-7789111410704519, -50)%Z, [31077]%N);
   ((-2132580546594033, -48)%Z, [31098; 35029]%N);
   ((-5896238271884639, -50)%Z, [31119]%N);
   ((-6893956958147033, -50)%Z, [31168]%N);
   ((-5807420125343521, -50)%Z, [31177]%N);
   ((-3112481554826717, -49)%Z, [31179]%N);
   ((-7189853370261361, -50)%Z, [31185]%N);
   ((-4082202450954501, -49)%Z, [31302]%N);
   ((-6628597237503319, -50)%Z, [31435]%N);
   ((-4524211658713283, -49)%Z, [31481; 38750]%N);
   ((-2344213831611975, -48)%Z, [31505]%N);
   ((-4161810135015083, -49)%Z, [31934]%N);
   ((-1961482429371133, -48)%Z, [32000; 32160; 32426; 32511]%N);
   ((-887479177761501, -47)%Z, [32005; 32418]%N);
   ((-7290544331875155, -50)%Z, [32013; 32435; 35582; 35834]%N);
   ((-500709917313815, -46)%Z, [32034]%N);
   ((-244250832325205, -45)%Z, [32057; 32461]%N);
   ((-1018630562653363, -47)%Z, [32147; 32463]%N);
   ((-6421214958622961, -50)%Z, [32173; 32500]%N);
   ((-7484208457699491, -50)%Z, [32239; 32428]%N);
   ((-3627065729947347, -49)%Z, [32380; 32487]%N);
   ((-6409439024240691, -50)%Z, [32599; 32645]%N);
   ((-2184113633387303, -48)%Z, [32622]%N);
   ((-8661864356539993, -50)%Z, [32650]%N);
   ((-3479951119888361, -49)%Z, [32714]%N);
   ((-505240162897465, -46)%Z, [32768]%N);
   ((-6785283334863987, -50)%Z, [32769]%N);
   ((-4697581522691325, -49)%Z, [32899; 32901; 35258; 35273]%N);
   ((-6652570462003235, -50)%Z, [33021]%N);
   ((-412241863432235, -46)%Z, [33258]%N);
   ((-8231309725481347, -50)%Z, [33267]%N);
   ((-1637124021556643, -48)%Z, [33391]%N);
   ((-1138897901362845, -47)%Z, [33402; 34269]%N);
   ((-3955347904120473, -49)%Z, [33459; 36830; 36899]%N);
   ((-8439872850624415, -50)%Z, [33487; 34311]%N);
   ((-3491746693305823, -49)%Z, [33509]%N);
   ((-6553662466545721, -50)%Z, [33521]%N);
   ((-3451500189756363, -49)%Z, [33713; 33802]%N);
   ((-6745116177196715, -50)%Z, [33714; 34030]%N);
   ((-1829115332708949, -48)%Z, [33778]%N);
   ((-7583097049704109, -50)%Z, [33832; 34217]%N);
   ((-7584944301811421, -50)%Z, [33883]%N);
   ((-7405853376945905, -50)%Z, [33922]%N);
   ((-1925943783504779, -48)%Z, [34382]%N);
   ((-1548073619067131, -48)%Z, [35041; 37324]%N);
   ((-3304112746723375, -49)%Z, [35199]%N);
   ((-7572076734248271, -50)%Z, [35211; 35265]%N);
   ((-8878747498688227, -50)%Z, [35433; 35799; 38472; 38515]%N);
   ((-1618601592509217, -48)%Z, [35609; 35878]%N);
   ((-8208563499194583, -50)%Z, [35937]%N);
   ((-7286282245119253, -50)%Z, [35998; 36126]%N);
   ((-910078055592099, -47)%Z, [36020; 36149]%N);
   ((-1044519068325939, -47)%Z, [36093; 36187]%N);
   ((-8619372524779895, -50)%Z, [36106; 36190]%N);
   ((-7893543573696685, -50)%Z, [36203]%N);
   ((-8783702021405537, -50)%Z, [36213; 36249]%N);
   ((-8573967182235559, -50)%Z, [36215]%N);
   ((-4314338767824995, -49)%Z, [36335]%N);
   ((-1887588629715355, -48)%Z, [36827; 36914]%N);
   ((-1935876150219349, -48)%Z, [36842]%N);
   ((-6747749862390239, -50)%Z, [36947]%N);
   ((-8902327416169575, -50)%Z, [37117]%N);
   ((-3800853694615575, -49)%Z, [37325]%N);
   ((-5990422600986839, -50)%Z, [37329]%N);
   ((-3776074391020451, -49)%Z, [37675; 38177]%N);
   ((-4353011476912787, -49)%Z, [37912; 38047]%N);
   ((-1863957484429553, -48)%Z, [37941; 38081]%N);
   ((-401738172438403, -46)%Z, [38263; 38271]%N);
   ((-7191155741611719, -50)%Z, [38451; 38525]%N);
   ((-3815106353441061, -49)%Z, [38463]%N);
   ((-4123921530426587, -49)%Z, [38517]%N);
   ((-8890475728768139, -50)%Z, [38518; 40372; 40548; 40664; 40778; 40784]%N);
   ((-3822857938268131, -49)%Z, [38593]%N);
   ((-2051337807273269, -48)%Z, [38597]%N);
   ((-1053999924077073, -47)%Z, [38632; 39080; 39118]%N);
   ((-3794323961632833, -49)%Z, [38634]%N);
   ((-1796164724452363, -48)%Z, [38647]%N);
   ((-7426541872520025, -50)%Z, [38738]%N);
   ((-7153985493674835, -50)%Z, [38918; 39034]%N);
   ((-7886271859031975, -50)%Z, [39131; 39134]%N);
   ((-113259883567501, -44)%Z, [39321]%N);
   ((-6393285233414535, -50)%Z, [39340; 39532]%N);
   ((-1446286694294281, -48)%Z, [39640]%N);
   ((-260561348061445, -45)%Z, [39759]%N);
   ((-789253101933407, -47)%Z, [39791; 40065]%N);
   ((-5818916820609011, -50)%Z, [40251; 40511]%N);
   ((-8821871775279007, -50)%Z, [40635]%N);
   ((-8130884431614619, -50)%Z, [40667]%N)];
  (* ('M', 'nrfg') *)
  [
   ((-3234524978268645, -49)%Z, [19968]%N);
   ((-4759021712841709, -49)%Z, [19975; 19996; 20061; 20065; 20140; 20185; 20908; 21073; 21133; 21270; 21460; 23398;
     23416; 23431; 23433; 23439; 23682; 23696; 24544; 24576; 25079; 25919; 25945; 26102; 26126; 26131; 26178; 26395;
     26481; 26611; 28304; 31062; 31177; 32057; 32191; 32461; 32501; 32862; 33268; 33643; 33836; 34093; 35299; 35912;
     36020; 36149; 36827; 36914; 37129; 38395; 38517; 38634]%N);
   ((-4243195888012773, -49)%Z, [19977; 20896; 21457; 21746; 23729; 24191; 24291; 26690; 27891; 30332; 32147; 32463;
     40300; 40527]%N);
   ((-6202899853336131, -50)%Z, [19990]%N);
   ((-3912301412384457, -49)%Z, [20013; 21033; 21483; 23453; 23542; 26495; 27721; 28450; 29992; 35029]%N);
   ((-2265382574559125, -48)%Z, [20029; 20070; 20223; 20803; 20918; 22278; 22291; 22862; 23432; 23466; 23500; 23736;
     24310; 24375; 24378; 25010; 25391; 26020; 26360; 26420; 27192; 31354; 32380; 32487; 32768; 33464; 33714; 34030;
     36848; 38918; 39034; 40180; 40483; 40599]%N);
   ((-1287307221463011, -47)%Z, [20057; 20110; 20195; 20210; 20308; 20339; 20355; 20754; 20940; 21153; 21209; 21271;
     21315; 21344; 21355; 21647; 22478; 22763; 23071; 23395; 23450; 23721; 24212; 24237; 24509; 24525; 24605; 24646;
     24658; 25033; 25165; 25955; 26044; 26080; 26149; 26174; 26329; 26519; 26641; 27193; 27216; 27427; 27665; 27762;
     27818; 27973; 28154; 28165; 28396; 28436; 28851; 28949; 28961; 29029; 29420; 29544; 29579; 29995; 30410; 30427;
     31569; 31689; 32020; 32186; 32431; 32494; 32599; 32645; 32780; 32946; 33495; 34892; 34907; 35424; 36215; 36866;
     36930; 36969; 38454; 38534; 38542; 38596; 38745; 38748; 38750; 39023; 39080; 39118; 39318; 39333; 39745; 40372;
     40548; 40667]%N);
   ((-7327143370137923, -50)%Z, [20113; 38642]%N);
   ((-8737629079662747, -50)%Z, [20122; 20126; 20197; 20426; 21017; 21063; 21331; 21644; 24344; 24840; 25215; 26970;
     27741; 30456; 32654; 33391; 33402; 34269; 34382; 35336; 35745; 37325; 37329; 37941; 37956; 38081; 38136;
     38738]%N);
   ((-8281115952215831, -50)%Z, [20255; 20553; 21551; 21855; 21987; 26085; 26143; 26159; 26410; 29572; 31168; 32903;
     37670; 38182; 38797; 40718]%N);
   ((-6145148737963537, -50)%Z, [20271]%N);
   ((-6674325780347005, -50)%Z, [20316; 26041]%N);
   ((-8107557716158593, -50)%Z, [20806; 20852; 23637; 30465; 33288; 36011; 36143; 37912; 38047; 38663]%N);
   ((-733951957262291, -47)%Z, [20809]%N);
   ((-1582032196386311, -48)%Z, [20811; 26093]%N);
   ((-813402463801345, -47)%Z, [20840]%N);
   ((-3978607366821039, -49)%Z, [20844; 21213; 21491; 21531; 24039; 24515; 31119; 31258; 32988]%N);
   ((-906183037819745, -47)%Z, [20854; 23567]%N);
   ((-2799257766701777, -49)%Z, [20914; 34909]%N);
   ((-7500701606195161, -50)%Z, [21147; 23389; 26609; 31435; 36798; 36948]%N);
   ((-224275012113169, -45)%Z, [21326; 26412; 29577; 33775]%N);
   ((-3554271565782957, -49)%Z, [21340; 24503; 26725; 27211; 36817]%N);
   ((-7598667707442033, -50)%Z, [21452; 24179; 28149; 28170; 38617]%N);
   ((-6012536829090373, -50)%Z, [21521; 23665]%N);
   ((-5581325887953777, -50)%Z, [22269; 22283]%N);
   ((-6232925630241593, -50)%Z, [22823; 27491]%N);
   ((-1403992923895017, -48)%Z, [22825; 26195; 26313]%N);
   ((-6983314199356801, -50)%Z, [22915; 25958; 28113; 32895]%N);
   ((-1261973032519265, -48)%Z, [23013]%N);
   ((-6630167183061425, -50)%Z, [23376]%N);
   ((-2497999078387003, -49)%Z, [23447]%N);
   ((-1926494357501219, -48)%Z, [23478; 26397; 33521]%N);
   ((-382334207984271, -46)%Z, [23493; 26408; 27493]%N);
   ((-4975892267006907, -50)%Z, [23572; 29246; 40778; 40784]%N);
   ((-3305943723545237, -50)%Z, [23621]%N);
   ((-1408425692305855, -48)%Z, [24314]%N);
   ((-6720287260174491, -50)%Z, [24380; 26851]%N);
   ((-6587675351301327, -50)%Z, [24535]%N);
   ((-6925563083984207, -50)%Z, [24698; 24887; 27835]%N);
   ((-4361588059935967, -50)%Z, [25104]%N);
   ((-2435651603017079, -49)%Z, [25991]%N);
   ((-4862259784668465, -50)%Z, [26031]%N);
   ((-38796659217723, -43)%Z, [26032]%N);
   ((-2556748544152833, -49)%Z, [26234]%N);
   ((-4591379002630143, -50)%Z, [26377]%N);
   ((-3018919507700347, -49)%Z, [27054; 33635]%N);
   ((-5849752837040755, -50)%Z, [27589]%N);
   ((-3273364512058627, -49)%Z, [27704; 27982; 28639; 38876; 38892; 39340; 39532]%N);
   ((-2863402682195045, -49)%Z, [28023]%N);
   ((-5916657660613099, -50)%Z, [29081]%N);
   ((-6870630242691007, -50)%Z, [31103; 31108]%N);
   ((-1229410769005105, -48)%Z, [31179]%N);
   ((-6361740233974447, -50)%Z, [31292]%N);
   ((-7410581529082095, -50)%Z, [32068; 32160; 32452; 32511; 35895]%N);
   ((-6818253361421363, -50)%Z, [32690]%N);
   ((-3419709143969581, -52)%Z, [33258]%N);
   ((-1412929388013707, -48)%Z, [36947]%N);
   ((-2568121657296215, -49)%Z, [38263; 38271]%N);
   ((-2914153238048865, -49)%Z, [38451; 38525]%N);
   ((-6900976134229601, -51)%Z, [39640]%N)];
  (* ('M', 'nrt') *)
  [
   ((-7807176118641585, -50)%Z, [19968; 20857; 25160; 26126; 28595; 29226; 33586; 33678]%N);
   ((-8642523305955455, -50)%Z, [19969; 20961; 24466; 25104; 26408; 26449; 37089]%N);
   ((-555860038099541, -46)%Z, [19975; 23494; 25463; 25705; 25955; 29595; 29802; 33836; 37070]%N);
   ((-1152207728520801, -47)%Z, [19978; 20329; 24179; 24576; 25079; 25746; 33136; 33521]%N);
   ((-4999038087093539, -49)%Z, [19981; 20154; 21029; 21035; 21147; 21319; 21518; 21888; 22862; 22958; 23385; 23403;
     24278; 24320; 24460; 26045; 28373; 29677; 29790; 30003; 31070; 31389; 31401; 33391; 33433; 33457; 34955;
     38283]%N);
   ((-2613647325408499, -48)%Z, [19990; 20161; 20304; 21017; 21063; 21488; 23380; 23478; 24189; 24247; 24509; 24859;
     25165; 26157; 26494; 26641; 27193; 27743; 28789; 29233; 29632; 29747; 29995; 30053; 32002; 32016; 32419; 32445;
     32771; 33268; 33673; 33821; 34367; 37117; 37679; 38169; 38728]%N);
   ((-5617501823827333, -49)%Z, [19992; 19997; 20016; 20041; 20065; 20315; 20625; 20694; 20872; 21520; 22269; 22283;
     22307; 22575; 23459; 23466; 23500; 23588; 23591; 23707; 23713; 23798; 24222; 24605; 25010; 26000; 26174; 26223;
     26480; 26576; 26705; 27463; 27827; 28165; 28193; 28504; 29748; 29785; 30000; 30495; 31066; 31532; 31574; 32114;
     32236; 32517; 32681; 32854; 32899; 32901; 32946; 32993; 33098; 33240; 34382; 35449; 35920; 36020; 36106; 36149;
     36190; 36199; 37129; 37656; 38180; 39023; 40848]%N);
   ((-871798111418909, -47)%Z, [19996; 22467; 26481]%N);
   ((-1625235154795127, -48)%Z, [20029; 40599]%N);
   ((-7139445729286709, -50)%Z, [20044; 24213; 24343; 25096; 28879; 31119]%N);
   ((-2011272251879123, -48)%Z, [20052; 21932; 25552; 36084; 36182]%N);
   ((-8437247482145739, -50)%Z, [20080; 28023; 32032; 33538; 36023]%N);
   ((-5703845969454483, -50)%Z, [20122; 20126]%N);
   ((-5303922637105107, -50)%Z, [20160]%N);
   ((-1851398958121967, -48)%Z, [20195; 22799]%N);
   ((-5513850946488955, -50)%Z, [20234; 24681]%N);
   ((-2261025898027293, -48)%Z, [20237; 22350; 23388; 23391; 24223; 24290; 26412; 26524; 27779; 29577; 30331; 30591;
     31354; 34255; 35433; 35799; 36855]%N);
   ((-3632337330747911, -49)%Z, [20262; 20523; 22823; 28872]%N);
   ((-2793024373390683, -49)%Z, [20271]%N);
   ((-4056673131785993, -49)%Z, [20381; 20845; 23425; 23467; 23470; 23527; 25196; 25562; 26597; 35140; 36335; 38754;
     39640]%N);
   ((-8535213583392611, -50)%Z, [20547; 24196; 24443; 24505; 26114; 26410; 27801; 32834; 32886; 33293; 33495; 33674;
     36763]%N);
   ((-6273478857678245, -50)%Z, [20809; 38463]%N);
   ((-8122412924837917, -51)%Z, [20811]%N);
   ((-3721882793180669, -49)%Z, [20839; 20869; 32752; 33487; 34311]%N);
   ((-1409872829159203, -48)%Z, [20848; 34349]%N);
   ((-4837087477806663, -49)%Z, [20975; 20977; 21213; 21490; 21555; 21556; 23395; 23627; 28100; 28909; 29105; 29916;
     31572; 32988; 38534; 38669; 40778; 40784]%N);
   ((-7656833136125069, -50)%Z, [20999]%N);
   ((-6404375762553635, -50)%Z, [21015]%N);
   ((-2455540796017765, -49)%Z, [21033]%N);
   ((-6949082705040951, -50)%Z, [21152; 22240; 22982; 36808; 36993]%N);
   ((-4093005089254269, -49)%Z, [21162; 25166; 27861]%N);
   ((-1651642786735039, -48)%Z, [21171; 21214; 26519; 32822]%N);
   ((-197805799548263, -45)%Z, [21202; 23389]%N);
   ((-7524221227251905, -50)%Z, [21271; 21382; 24211; 24235; 27511; 27835]%N);
   ((-6168668359020281, -50)%Z, [21313]%N);
   ((-2355734412994031, -48)%Z, [21326; 21338; 23376; 23567; 24178; 24185; 26395; 29642; 32004; 32422; 33775]%N);
   ((-3990367177349411, -49)%Z, [21335; 23041; 23486; 26041; 36051; 36830; 36899]%N);
   ((-5728960019761885, -50)%Z, [21340; 38647]%N);
   ((-3053897039814419, -49)%Z, [21345]%N);
   ((-7919860075307379, -50)%Z, [21346; 30439; 38272; 38376]%N);
   ((-4131844623044251, -49)%Z, [21380; 21525; 21570; 23433; 31302; 33541; 35613; 35874; 36027; 36153]%N);
   ((-2749975385543367, -49)%Z, [21476]%N);
   ((-8347127405032673, -50)%Z, [21487; 26757; 27721; 28450; 38517; 38745; 38748]%N);
   ((-7704751002034449, -50)%Z, [21508; 22855; 26681; 33945]%N);
   ((-3555099965782543, -49)%Z, [21513; 30343]%N);
   ((-2827619212586625, -49)%Z, [21704; 33778]%N);
   ((-3415228655138457, -49)%Z, [21733]%N);
   ((-7298286109925025, -50)%Z, [21776; 26085]%N);
   ((-7026761772620915, -50)%Z, [22270; 22294]%N);
   ((-3276258785765323, -49)%Z, [22374]%N);
   ((-1415798837022843, -48)%Z, [22478]%N);
   ((-6924336656013779, -50)%Z, [22522]%N);
   ((-6206838112893751, -50)%Z, [22612]%N);
   ((-7000268787778817, -50)%Z, [22622; 22865; 24265; 24403; 30070; 36093; 36187]%N);
   ((-4736938624774891, -50)%Z, [22763]%N);
   ((-4614112106081139, -50)%Z, [22810]%N);
   ((-5863690273393235, -50)%Z, [22826]%N);
   ((-4847409509658191, -50)%Z, [22827]%N);
   ((-782478927373009, -47)%Z, [22885; 22887]%N);
   ((-2190287175179873, -48)%Z, [22987; 23064; 26862; 32943; 36874; 36956]%N);
   ((-2359881226924773, -50)%Z, [23572; 29246]%N);
   ((-2604673536869511, -49)%Z, [23612]%N);
   ((-475679478518599, -46)%Z, [23665; 37030; 38597]%N);
   ((-4859076970616143, -50)%Z, [24052]%N);
   ((-154378497723099, -45)%Z, [24067]%N);
   ((-1833232979387829, -48)%Z, [24076; 26364]%N);
   ((-1633765352338533, -48)%Z, [24085; 27604]%N);
   ((-6786298712991333, -50)%Z, [24180; 33576]%N);
   ((-3877399618685971, -49)%Z, [24444; 34905; 36203]%N);
   ((-3426601768281839, -49)%Z, [24471; 38913; 39029]%N);
   ((-4758182649495457, -50)%Z, [24503]%N);
   ((-5953015504086531, -50)%Z, [25176; 26131]%N);
   ((-7137413854586219, -51)%Z, [25289]%N);
   ((-2571015931002911, -49)%Z, [25991]%N);
   ((-1457199533032219, -49)%Z, [26031]%N);
   ((-3526946601849457, -49)%Z, [26032; 35258; 35273]%N);
   ((-6038839887675609, -50)%Z, [26222]%N);
   ((-2992219003013819, -49)%Z, [26391]%N);
   ((-3351430277023581, -49)%Z, [26411]%N);
   ((-361864643697083, -46)%Z, [26460]%N);
   ((-5321469484304975, -50)%Z, [26684]%N);
   ((-3043468267499, -39)%Z, [27494]%N);
   ((-6246347426600245, -50)%Z, [27874]%N);
   ((-7081694613914115, -50)%Z, [27888]%N);
   ((-2607347888471187, -49)%Z, [27931]%N);
   ((-6723147587714071, -50)%Z, [28037; 39791; 40065]%N);
   ((-1665837810085167, -48)%Z, [28287; 28629]%N);
   ((-1079316403642203, -48)%Z, [29305]%N);
   ((-5746019435623079, -50)%Z, [29791]%N);
   ((-691878546448459, -47)%Z, [29926]%N);
   ((-7232037596430631, -50)%Z, [30382]%N);
   ((-1473171251588977, -48)%Z, [31185]%N);
   ((-5394526452101809, -50)%Z, [31859]%N);
   ((-6451623250409961, -50)%Z, [32013; 32435]%N);
   ((-7862108959934785, -50)%Z, [32034]%N);
   ((-4862993148153421, -50)%Z, [32173; 32500]%N);
   ((-8972806070063835, -51)%Z, [32597]%N);
   ((-4906994836525523, -50)%Z, [32599; 32645]%N);
   ((-6484260315475153, -50)%Z, [33707]%N);
   ((-6084336983125777, -50)%Z, [33713; 33802]%N);
   ((-1691213088012077, -48)%Z, [33832; 34217; 38859; 38886]%N);
   ((-6467823528566863, -50)%Z, [33922]%N);
   ((-6376907033166969, -51)%Z, [35041; 37324]%N);
   ((-5388254012999611, -50)%Z, [35199]%N);
   ((-1498777530740761, -48)%Z, [35582; 35834]%N);
   ((-5506879407763649, -50)%Z, [35997; 36125]%N);
   ((-1480611552006623, -48)%Z, [36798; 36948]%N);
   ((-2941468447159999, -49)%Z, [36842]%N);
   ((-935409362508479, -47)%Z, [37027]%N);
   ((-6588263428005407, -50)%Z, [37329]%N);
   ((-4279256945166157, -50)%Z, [39340; 39532]%N);
   ((-4478011195634269, -50)%Z, [40664]%N)];
  (* ('M', 'ns') *)
  [
   ((-2397118233252761, -48)%Z, [19968; 23731; 24515; 29827; 38592]%N);
   ((-3484320725505695, -49)%Z, [19969]%N);
   ((-8987786153041551, -50)%Z, [19971; 31162; 38750]%N);
   ((-4941012303814923, -49)%Z, [19975; 25165; 25196; 25562; 26415; 26550; 32943; 33836; 34899; 35895]%N);
   ((-1593996449116113, -48)%Z, [19977]%N);
   ((-2374943387493811, -48)%Z, [19978; 21531]%N);
   ((-8629239126841507, -50)%Z, [19979; 20976; 24320; 38283; 40657]%N);
   ((-3768895564905117, -49)%Z, [19981]%N);
   ((-6328038370842107, -49)%Z, [19990; 19997; 20120; 20121; 20992; 21361; 21410; 22260; 22285; 22364; 22754; 23380;
     23395; 23432; 23648; 23803; 23991; 24120; 24258; 24331; 24357; 24396; 24571; 24713; 24833; 24942; 25163; 25964;
     26059; 26102; 26178; 26411; 26432; 27004; 27155; 27578; 27818; 28174; 28396; 28459; 28678; 28845; 29463; 29791;
     30347; 31215; 31309; 32114; 32115; 32475; 32862; 32990; 33509; 33510; 34385; 36032; 36058; 36154; 36169; 36420;
     36935; 36981; 37169; 38395; 38590; 38627; 38660; 39378; 39545; 39675; 40372; 40548; 40660; 40801; 40836]%N);
   ((-4521630211264163, -49)%Z, [19992; 23494; 24215; 28525]%N);
   ((-310343265347245, -45)%Z, [19994; 20975; 20977; 22338; 22378; 22521; 22721; 24085; 26989; 29282; 33446; 34310;
     34398; 38742]%N);
   ((-5368427689349629, -50)%Z, [19996; 26481]%N);
   ((-1484457799457943, -47)%Z, [20005; 20142; 20908; 22196; 23396; 23431; 23916; 24265; 26395; 26580; 26690; 26825;
     27902; 27950; 28039; 28925; 30001; 30010; 30041; 30746; 30831; 30865; 33678; 33862; 36677; 36757; 37610; 38138;
     38468; 38867; 38889; 40607; 40763]%N);
   ((-6489988980128983, -49)%Z, [20011; 20052; 20070; 20166; 20693; 20840; 20914; 21183; 21218; 21253; 21619; 21932;
     22818; 23013; 23451; 23458; 23546; 24441; 24490; 24494; 26012; 26360; 26646; 26790; 26792; 26866; 27453; 27784;
     27863; 28044; 28070; 28263; 28390; 28516; 28772; 29260; 30462; 30913; 30952; 31080; 31319; 32736; 33426; 33756;
     33891; 34164; 34299; 34314; 34433; 34811; 34909; 35140; 35258; 35273; 35328; 35377; 35768; 35946; 36092; 36141;
     36196; 37122; 37628; 38012; 38050; 38054; 38179; 38712; 39515; 39551; 39881; 40100; 40860; 40863]%N);
   ((-1485601783232115, -48)%Z, [20013]%N);
   ((-1103333615814677, -47)%Z, [20016; 27807; 28317; 31435; 35576; 35832; 35920]%N);
   ((-3006501344545015, -48)%Z, [20020; 20203; 20237; 20332; 21405; 21534; 22331; 22519; 23567; 24352; 24373; 24433;
     24449; 24501; 24544; 25152; 25191; 26114; 26639; 26791; 27396; 27493; 28108; 30060; 30066; 30489; 31206; 31348;
     32340; 32455; 32774; 33256; 33322; 33900; 34394; 34395; 34746; 34900; 37532; 37857; 38236; 38442; 39405;
     39559]%N);
   ((-7701438211136953, -50)%Z, [20025]%N);
   ((-762472725889831, -46)%Z, [20026; 20278; 20565; 21161; 21520; 21525; 21570; 21608; 22418; 22534; 22744; 22756;
     22774; 22778; 23435; 24034; 24217; 24287; 24375; 24378; 24425; 25170; 26007; 26274; 26329; 26446; 26584; 26704;
     28504; 28858; 28900; 30005; 30021; 30717; 30789; 31069; 32724; 32858; 33034; 33538; 33590; 33643; 34093; 36913;
     38466; 38471; 38580; 38651; 39131; 39134; 39717]%N);
   ((-3882693310938333, -49)%Z, [20027]%N);
   ((-2436688534529799, -48)%Z, [20029; 30442; 32933; 33633; 39151; 39277; 40599]%N);
   ((-5812212546013171, -49)%Z, [20035; 20249; 20805; 20964; 21628; 22821; 23569; 23769; 24605; 24935; 26613; 26629;
     27712; 29239; 29242; 29996; 30079; 36637; 36745; 36805; 37666; 38065; 38470; 38520; 40179]%N);
   ((-7108452716862777, -49)%Z, [20037; 20056; 20135; 20202; 20449; 20736; 21016; 21129; 21315; 21351; 21364; 21371;
     21462; 21482; 21499; 21592; 21729; 22043; 22218; 22353; 22366; 22438; 22626; 22718; 22865; 23386; 23389; 23558;
     23559; 23573; 23588; 23610; 23830; 24055; 24125; 24212; 24275; 24278; 24464; 24904; 25033; 25391; 25417; 26009;
     26417; 26771; 26799; 27583; 27704; 27813; 27891; 27900; 27987; 27988; 28145; 28251; 28363; 28369; 28497; 28527;
     28611; 28701; 28846; 28902; 29033; 29081; 29226; 29436; 29642; 29863; 29986; 30011; 30059; 30417; 30435; 30805;
     30883; 30889; 30970; 31034; 31179; 31181; 31237; 31246; 31278; 31449; 31661; 31684; 31705; 32011; 32244; 32441;
     32451; 33253; 33276; 33329; 33369; 33539; 33618; 33853; 34047; 34106; 34298; 34503; 34915; 34920; 35222; 35270;
     35347; 35609; 35613; 35673; 35731; 35753; 35757; 35874; 35878; 35887; 35960; 36600; 36724; 37025; 37045; 37197;
     37679; 38002; 38169; 38262; 38485; 38493; 38780; 40441; 40560]%N);
   ((-3838759172663943, -49)%Z, [20041; 24444; 32681]%N);
   ((-3359122771926221, -48)%Z, [20043; 20105; 20221; 20392; 20689; 20855; 20896; 21465; 22120; 22466; 22581; 23068;
     23574; 23616; 23729; 23784; 24140; 24324; 24735; 24800; 25171; 25239; 25259; 25490; 25944; 26454; 26487; 26851;
     26864; 27491; 27607; 27773; 27964; 28129; 28205; 28373; 28437; 28784; 29229; 29632; 29640; 29935; 29964; 30722;
     30874; 31389; 31401; 31402; 31570; 31726; 31811; 32218; 32447; 32773; 33311; 33593; 33647; 33706; 33943; 34071;
     34277; 34588; 34770; 35365; 35767; 36305; 37043; 37096; 37325; 37347; 38035; 38936; 39046; 39135; 40201; 40300;
     40306; 40486; 40522; 40527; 40718]%N);
   ((-4544847932849863, -49)%Z, [20044; 23452; 28385; 28415; 28879; 37675; 38177]%N);
   ((-7995798484293775, -50)%Z, [20048; 27138]%N);
   ((-5481318070384855, -49)%Z, [20061; 20136; 20415; 24825; 27012; 27014; 27414; 29420; 29544; 33286; 33402; 34269;
     34425; 34678; 36671; 36845; 38473; 38488]%N);
   ((-7124919063484031, -50)%Z, [20063]%N);
   ((-7761737024169411, -50)%Z, [20065; 37129]%N);
   ((-8934917290157419, -50)%Z, [20080; 20329; 23385; 23403; 36023; 38797]%N);
   ((-2879278842365875, -48)%Z, [20107; 20241; 20999; 21048; 21350; 21367; 22395; 23472; 23736; 24343; 25307; 27053;
     27754; 27764; 28147; 30721; 30908; 31398; 31431; 31461; 35657; 35777; 35947; 36084; 36182; 39498; 39557]%N);
   ((-2476559610521167, -48)%Z, [20108; 20891; 27821; 34382; 36557; 37070]%N);
   ((-3540141475781691, -49)%Z, [20113; 21475; 38642]%N);
   ((-589595314780053, -46)%Z, [20116; 22805; 22885; 22887; 22987; 23663; 28196; 37941; 38081]%N);
   ((-2578708425905551, -48)%Z, [20117; 21333; 21934; 22317; 23631; 23762; 30058; 32752; 37670; 38182; 38533]%N);
   ((-5743181296308207, -50)%Z, [20122; 20126]%N);
   ((-5140093947997957, -49)%Z, [20132; 21017; 21063; 22362; 22533; 25142; 25143; 25237; 26045; 27837; 27934; 32771;
     37504; 38134]%N);
   ((-1068225120987167, -47)%Z, [20133; 29976; 38263; 38271]%N);
   ((-5783947896473487, -50)%Z, [20140]%N);
   ((-5123288223783355, -49)%Z, [20141; 20307; 20809; 21151; 21375; 22365; 22496; 22761; 24517; 28096; 39636]%N);
   ((-2680313482974795, -49)%Z, [20154]%N);
   ((-3645971174852951, -49)%Z, [20160]%N);
   ((-1151865599738605, -47)%Z, [20161; 21355; 23453; 23542; 25919; 33406; 34907; 38686]%N);
   ((-2596874404639689, -48)%Z, [20163; 20196; 26597; 27597; 28540; 29151; 33391; 33829; 38920; 39035]%N);
   ((-6878659954722777, -50)%Z, [20177; 23833]%N);
   ((-5368350511721415, -49)%Z, [20179; 20489; 20864; 21305; 21697; 23044; 23105; 23457; 23529; 23822; 26865; 36951;
     36986; 36991]%N);
   ((-1355501343250709, -47)%Z, [20180; 20324; 20399; 22781; 23551; 23627; 27953; 30028; 32032; 32597; 35029; 36031;
     36152; 36808; 36993]%N);
   ((-4776075215622443, -49)%Z, [20182; 21346; 21487; 28037; 28193; 30439; 32147; 32463]%N);
   ((-577608325315935, -46)%Z, [20185; 35516; 35850; 36554; 36710]%N);
   ((-4677922984450443, -49)%Z, [20195; 20204; 20497; 20803; 23777; 23805; 27425; 27766]%N);
   ((-7722353361922993, -50)%Z, [20234; 26124]%N);
   ((-3101209859511753, -48)%Z, [20239; 20433; 20919; 21220; 22336; 22575; 22855; 23447; 23591; 24110; 24171; 24688;
     25209; 25373; 25790; 25937; 26191; 26384; 26893; 28071; 28100; 28248; 28567; 29422; 29509; 29616; 29694; 30524;
     30740; 32353; 32483; 33104; 33620; 34028; 36234; 37041; 37586; 38155; 38307; 38401]%N);
   ((-7167092529652627, -50)%Z, [20240]%N);
   ((-636388862171815, -46)%Z, [20247; 21439; 21776; 21916; 23811; 23821; 26086; 30526; 32291; 33655; 36827; 36914]%N);
   ((-8621393102707701, -50)%Z, [20250; 26371; 40613; 40614]%N);
   ((-6146669740837965, -50)%Z, [20262; 20523]%N);
   ((-3185868556264475, -49)%Z, [20271]%N);
   ((-5253061506661397, -49)%Z, [20294; 22330; 22580; 23439; 25160; 27088; 32361; 32499; 37112; 37170; 38291; 38388;
     38428; 38433]%N);
   ((-5622795516079695, -49)%Z, [20304; 21340; 21378; 24288; 24402; 24594; 24635; 26185; 26187; 27431; 27472; 27512;
     29747; 30495; 31038; 32317; 33251; 36074; 36136; 37066; 38669]%N);
   ((-4991085286924853, -49)%Z, [20308; 21162; 21344; 22993; 25918; 26071; 26212; 40723]%N);
   ((-5343326394052669, -49)%Z, [20309; 20313; 21331; 21484; 23679; 23996; 26049; 27833; 28192; 30008; 31293; 32764;
     36838; 38598; 38754; 39192]%N);
   ((-8694057017644253, -50)%Z, [20315; 20799; 20818; 27463; 33609]%N);
   ((-1208104298488835, -47)%Z, [20316; 25242; 25771; 31481; 38931; 39039]%N);
   ((-6752905964254415, -50)%Z, [20358; 26469]%N);
   ((-5319367461097979, -49)%Z, [20375; 21049; 21070; 28014; 31168; 31377; 31407; 38808; 38935; 39047]%N);
   ((-4803541636269043, -49)%Z, [20381; 33521; 36093; 36187]%N);
   ((-1768582760980493, -48)%Z, [20420]%N);
   ((-8780707446689931, -50)%Z, [20445; 24196; 33674]%N);
   ((-2854787317054157, -48)%Z, [20462; 22266; 23487; 24109; 26087; 26280; 26435; 26607; 27054; 27402; 27468; 28790;
     29087; 29942; 30334; 30422; 30693; 31918; 31975; 33290; 33635; 33883; 33995; 35937; 36066; 36132; 37327; 37509;
     38108]%N);
   ((-5547624024821437, -49)%Z, [20616; 20723; 21496; 22899; 23064; 23481; 23637; 24466; 28481; 31077; 35696; 35758;
     36801; 36983; 37326; 39053; 40180; 40483]%N);
   ((-4614124606335567, -49)%Z, [20643; 20892; 26017; 36786]%N);
   ((-5385958598714303, -50)%Z, [20811]%N);
   ((-6206387174603005, -50)%Z, [20839; 20869]%N);
   ((-2502165889672951, -48)%Z, [20843; 20928; 22030; 26472; 26611; 26954; 28136; 33150; 39472]%N);
   ((-3807521819680075, -49)%Z, [20844]%N);
   ((-2123938183139961, -48)%Z, [20845; 22982]%N);
   ((-5883172689754015, -50)%Z, [20848; 34349]%N);
   ((-5189106558334357, -50)%Z, [20849]%N);
   ((-7624680501960977, -50)%Z, [20851; 38364]%N);
   ((-6767878258119787, -50)%Z, [20852; 33288]%N);
   ((-4663107656959003, -49)%Z, [20853; 27779]%N);
   ((-3794870726524915, -49)%Z, [20854; 30343]%N);
   ((-5664514595551781, -49)%Z, [20856; 21187; 21518; 22363; 22615; 22727; 23614; 24222; 24460; 26460; 26609; 28034;
     28180; 28417; 28467; 28872; 29750; 31062; 32080; 32467; 32600; 32705; 33436; 33489; 34154; 35201; 36208; 40635;
     40848]%N);
   ((-7568059079128927, -50)%Z, [20857; 33586]%N);
   ((-8207371807020881, -50)%Z, [20872; 23713]%N);
   ((-8004805731587373, -50)%Z, [20912; 32034]%N);
   ((-2756747698396845, -48)%Z, [20918; 21451; 21688; 23383; 23621; 24043; 24208; 24231; 24300; 24311; 25252; 28149;
     28170; 31068; 32143; 32485; 35584; 35703; 35851; 36229]%N);
   ((-2244252977258483, -48)%Z, [20937; 21477; 28092]%N);
   ((-1183270262693255, -47)%Z, [20940; 25096]%N);
   ((-140949088652289, -44)%Z, [20960; 21516; 24190; 24247; 26869; 37101]%N);
   ((-7446064099758887, -50)%Z, [21015]%N);
   ((-327036771441835, -45)%Z, [21018; 21083; 21400; 21442; 21443; 26477; 28126; 30871; 33026; 33437]%N);
   ((-3631748524820533, -49)%Z, [21029; 21035]%N);
   ((-8399243161342583, -51)%Z, [21033]%N);
   ((-622267917338885, -46)%Z, [21069; 22068; 22768; 29380; 29699; 32882; 36040; 36158; 38654; 38695; 40232; 40493]%N);
   ((-2431427166825531, -48)%Z, [21095; 21127; 22561; 29031]%N);
   ((-4641591026982167, -49)%Z, [21147; 27777; 33098; 33240]%N);
   ((-5583955982289713, -49)%Z, [21149; 21240; 22372; 22530; 23398; 23416; 23578; 23899; 24681; 26647; 27963; 28371;
     29577; 30382; 31109; 31146; 34701; 35261; 35272; 38317; 38398; 38495; 38593; 38706; 39592]%N);
   ((-1285474928070605, -48)%Z, [21152]%N);
   ((-1324096680296059, -47)%Z, [21160; 21205; 25438; 25463; 25736; 27877; 33293; 33707; 33714; 33778; 34030]%N);
   ((-2370710601312849, -48)%Z, [21171; 21214; 25925; 33292]%N);
   ((-787483575692839, -47)%Z, [21202]%N);
   ((-1203250800685599, -47)%Z, [21213; 26257; 26691; 32988; 36203]%N);
   ((-2935762621697595, -48)%Z, [21243; 21248; 21313; 21494; 23391; 24310; 24576; 25079; 25112; 25136; 25494; 26388;
     27189; 27611; 27722; 27733; 27748; 28052; 28271; 28393; 28760; 29369; 29494; 29756; 29898; 30358; 30410; 30719;
     31014; 31354; 31456; 32918; 33267; 33865; 35624; 35871; 36008; 36135; 36629; 36731; 36874; 36953; 36956; 36965;
     37038; 37109; 37202; 38745; 38748]%N);
   ((-1953485102451563, -48)%Z, [21270]%N);
   ((-5307484747057915, -50)%Z, [21271]%N);
   ((-2411313256602889, -48)%Z, [21295; 21703; 23486; 24917; 26354; 27719; 28779; 28903; 29138; 30452; 36051;
     38738]%N);
   ((-1590033807742433, -48)%Z, [21322]%N);
   ((-2639304361043205, -49)%Z, [21326; 33775]%N);
   ((-7977997324441253, -50)%Z, [21329; 28165; 40575]%N);
   ((-8911672793517227, -51)%Z, [21335]%N);
   ((-7222132809269001, -50)%Z, [21338; 30333]%N);
   ((-7876724613161791, -50)%Z, [21345]%N);
   ((-7143701888634825, -50)%Z, [21382; 22303; 27511]%N);
   ((-7233471272735605, -50)%Z, [21407]%N);
   ((-3742639254000345, -49)%Z, [21450]%N);
   ((-4204162776471985, -49)%Z, [21452; 38617]%N);
   ((-4562912048031999, -49)%Z, [21457; 23388; 23519; 25552; 26753; 29279; 29702; 30332; 32652]%N);
   ((-6051818564916787, -50)%Z, [21476]%N);
   ((-6710579402205711, -50)%Z, [21488]%N);
   ((-8613601376753685, -50)%Z, [21490; 21508]%N);
   ((-5106969691250759, -49)%Z, [21491; 23703; 23831; 24237; 25216; 26970; 30456]%N);
   ((-8309281519679057, -50)%Z, [21512]%N);
   ((-3377942268586857, -49)%Z, [21513]%N);
   ((-2379240798856255, -48)%Z, [21517; 26494; 30331]%N);
   ((-1006369453847355, -47)%Z, [21566; 25991; 29785; 32160; 32511]%N);
   ((-4447169964514187, -49)%Z, [21629; 38761]%N);
   ((-312153117135477, -46)%Z, [21644]%N);
   ((-2824760178755763, -49)%Z, [21704]%N);
   ((-7308873494429749, -50)%Z, [21733]%N);
   ((-4842381170059025, -49)%Z, [21830; 32650; 35373; 35774; 37195; 38469; 38555]%N);
   ((-951083073249567, -47)%Z, [21888]%N);
   ((-1177194319658101, -47)%Z, [21892; 25104]%N);
   ((-8874586792426797, -50)%Z, [21895]%N);
   ((-2284532283889517, -48)%Z, [22025; 29796; 29814]%N);
   ((-7402858802230299, -50)%Z, [22134]%N);
   ((-2313845160937283, -48)%Z, [22235; 38544; 38577]%N);
   ((-4100985898558107, -49)%Z, [22238]%N);
   ((-5060673757678799, -49)%Z, [22240; 24254; 25935; 32822]%N);
   ((-3755614347137641, -49)%Z, [22253; 22290]%N);
   ((-6406184155937787, -50)%Z, [22269; 22283]%N);
   ((-8845592059464123, -50)%Z, [22270; 22294; 28392; 28657]%N);
   ((-5212833686216113, -49)%Z, [22307; 23077; 24180; 28201; 28331; 31070; 32854; 34444]%N);
   ((-8909740083919835, -51)%Z, [22320]%N);
   ((-6329088229588957, -50)%Z, [22323]%N);
   ((-1232290072021911, -47)%Z, [22346; 23700; 24038; 24072; 24107; 29983; 32057; 32461; 33452; 38991; 39068]%N);
   ((-4587936165700745, -49)%Z, [22369; 29615; 29872]%N);
   ((-7361250375699393, -50)%Z, [22374]%N);
   ((-5075686646131529, -49)%Z, [22411; 31680; 32769; 33410; 37550; 38014; 38622; 40481]%N);
   ((-4700903724364185, -49)%Z, [22435; 28595; 30002]%N);
   ((-8727921221693967, -50)%Z, [22467; 35264; 35266]%N);
   ((-6316905244277999, -50)%Z, [22478]%N);
   ((-1899003473038007, -48)%Z, [22484]%N);
   ((-3474498986305135, -49)%Z, [22522]%N);
   ((-2300439056957259, -48)%Z, [22570; 24403; 26106; 30070; 30779; 31025; 36002; 36129]%N);
   ((-5017897494884901, -49)%Z, [22576; 26974; 28982; 30416; 32993; 34903; 36339; 40573]%N);
   ((-1809509706065219, -48)%Z, [22612]%N);
   ((-7664074604625483, -50)%Z, [22616]%N);
   ((-1584321019869599, -48)%Z, [22622]%N);
   ((-2725440465344567, -48)%Z, [22661; 23002; 25945; 26495; 28689; 36895]%N);
   ((-2587644890024241, -48)%Z, [22696; 24037; 28010; 30431; 33541; 37009; 39250; 39286; 39683; 40285; 40517]%N);
   ((-835986309385267, -47)%Z, [22763]%N);
   ((-4009226585140773, -49)%Z, [22766; 22767]%N);
   ((-4175772729771729, -49)%Z, [22799; 26641; 27193]%N);
   ((-6458769267262923, -50)%Z, [22810]%N);
   ((-4158493767162883, -50)%Z, [22823]%N);
   ((-1010553041796277, -47)%Z, [22825]%N);
   ((-7795017276859545, -50)%Z, [22826]%N);
   ((-4499332248818499, -49)%Z, [22827; 28330; 33067; 33073]%N);
   ((-2098864496345205, -48)%Z, [22830]%N);
   ((-7772721500631537, -50)%Z, [22836; 38957]%N);
   ((-1014240697875963, -47)%Z, [22839; 31302]%N);
   ((-5031798199992501, -49)%Z, [22856; 27016; 27354; 39318; 40664]%N);
   ((-4538953115077309, -49)%Z, [22868; 26524; 26525]%N);
   ((-5394538952356237, -49)%Z, [22900; 24863; 26612; 27735; 30710; 30959; 32005; 32418; 37806; 37912; 38047;
     38215]%N);
   ((-1788037864637405, -48)%Z, [23041]%N);
   ((-4408662652600723, -49)%Z, [23273; 38464]%N);
   ((-7810130254201049, -50)%Z, [23376; 26575]%N);
   ((-6073571869485617, -50)%Z, [23425; 23527]%N);
   ((-688079134076725, -47)%Z, [23433]%N);
   ((-4472647160640727, -49)%Z, [23448]%N);
   ((-7528867173658387, -50)%Z, [23450]%N);
   ((-8553135846652207, -50)%Z, [23467; 23470; 24248; 26041; 26497; 26997]%N);
   ((-5961391627834297, -50)%Z, [23478]%N);
   ((-1675149172597263, -48)%Z, [23500]%N);
   ((-8144220681743619, -50)%Z, [23528]%N);
   ((-911793194015881, -47)%Z, [23553]%N);
   ((-4045569445075903, -50)%Z, [23572; 29246]%N);
   ((-2380568392527461, -49)%Z, [23612]%N);
   ((-557152863674717, -46)%Z, [23646; 23660; 38918; 39034]%N);
   ((-2469825371131603, -49)%Z, [23665]%N);
   ((-7913642671623583, -50)%Z, [23707; 23798; 37027]%N);
   ((-4724862657318875, -49)%Z, [23721; 24565; 27778; 32000; 32426]%N);
   ((-8661181692096351, -50)%Z, [23725; 23994; 25705]%N);
   ((-4533119384598333, -49)%Z, [23786; 26118; 26143; 29664]%N);
   ((-8297491884133947, -50)%Z, [23792]%N);
   ((-47793244069839, -43)%Z, [24029]%N);
   ((-2296840501228247, -49)%Z, [24030]%N);
   ((-6278197072123317, -50)%Z, [24052]%N);
   ((-3734152410551403, -49)%Z, [24066; 31119; 36816; 36939]%N);
   ((-3004382678261743, -49)%Z, [24067]%N);
   ((-1739917522386419, -48)%Z, [24076]%N);
   ((-3679350102472359, -49)%Z, [24093]%N);
   ((-7137406066599805, -50)%Z, [24178; 24185]%N);
   ((-4983274597241493, -50)%Z, [24179]%N);
   ((-1037921408796983, -47)%Z, [24191; 24291]%N);
   ((-7268188306040037, -50)%Z, [24198; 24950]%N);
   ((-7926222689726137, -50)%Z, [24211; 24235]%N);
   ((-8582962754016069, -50)%Z, [24213]%N);
   ((-4283975266426127, -49)%Z, [24220; 25151]%N);
   ((-5954051967507921, -50)%Z, [24230]%N);
   ((-7169243246461041, -50)%Z, [24314]%N);
   ((-8771736085224217, -50)%Z, [24413]%N);
   ((-4906179548173901, -49)%Z, [24418; 28216; 36938]%N);
   ((-4852524686892479, -49)%Z, [24421; 24422; 34081]%N);
   ((-8685747755525371, -50)%Z, [24443; 24505]%N);
   ((-3497074182503927, -49)%Z, [24459]%N);
   ((-839001594603993, -47)%Z, [24471]%N);
   ((-1523109962615391, -48)%Z, [24503]%N);
   ((-7473934332365187, -50)%Z, [24509]%N);
   ((-4685479473121195, -49)%Z, [24535]%N);
   ((-1781747659258529, -48)%Z, [24847]%N);
   ((-4556826043314689, -49)%Z, [24859; 27744; 29233]%N);
   ((-4884100249531111, -49)%Z, [25140]%N);
   ((-8637140211244139, -50)%Z, [25166; 33922]%N);
   ((-8191248859809911, -50)%Z, [25176; 26441]%N);
   ((-4281035856805237, -50)%Z, [25289]%N);
   ((-4432419340195443, -49)%Z, [25308]%N);
   ((-5752317672438363, -50)%Z, [25343]%N);
   ((-4648672251839615, -49)%Z, [25351; 26465; 26781; 28789; 38728]%N);
   ((-4575285072545585, -49)%Z, [25454; 25818]%N);
   ((-1004613869897597, -47)%Z, [25746]%N);
   ((-2034778637741347, -48)%Z, [25903]%N);
   ((-4895031660059897, -49)%Z, [25958; 34021; 37795]%N);
   ((-8257174024678635, -50)%Z, [26029; 26039]%N);
   ((-8135354412961427, -51)%Z, [26031]%N);
   ((-3728564772088333, -49)%Z, [26032]%N);
   ((-5919472669017535, -50)%Z, [26063]%N);
   ((-7210907393182877, -50)%Z, [26085; 27494]%N);
   ((-1771566622598697, -48)%Z, [26126]%N);
   ((-136781328305951, -44)%Z, [26131; 38452; 38512]%N);
   ((-2015104257552911, -48)%Z, [26149]%N);
   ((-4477883942156683, -49)%Z, [26157; 36763]%N);
   ((-969309141075875, -47)%Z, [26222]%N);
   ((-1137701282701147, -47)%Z, [26223; 27982; 28639; 36828; 36960]%N);
   ((-7037349157125639, -50)%Z, [26364]%N);
   ((-1131836372076737, -47)%Z, [26376]%N);
   ((-4111864497045631, -49)%Z, [26391]%N);
   ((-4230659429517145, -49)%Z, [26397; 35997; 36125]%N);
   ((-6111629420468283, -50)%Z, [26408]%N);
   ((-6007997610222449, -50)%Z, [26412]%N);
   ((-4023127290248373, -49)%Z, [26426; 27231; 38597]%N);
   ((-4917552661317283, -49)%Z, [26449; 27946; 28118; 33694]%N);
   ((-3158957736532171, -49)%Z, [26519]%N);
   ((-3420522347390819, -49)%Z, [26681]%N);
   ((-5723934675381443, -50)%Z, [26684]%N);
   ((-1892782778380697, -48)%Z, [26705]%N);
   ((-8789750868055625, -50)%Z, [26725; 27211; 36974]%N);
   ((-2637153711270723, -48)%Z, [26757; 27146; 27774; 28186; 32946; 36275; 36797; 36988; 38859; 38886]%N);
   ((-8108954714417351, -50)%Z, [26862]%N);
   ((-2760971768679301, -49)%Z, [27604]%N);
   ((-2346569387156131, -48)%Z, [27663; 27714]%N);
   ((-5305838092421671, -50)%Z, [27665]%N);
   ((-4767209678800767, -49)%Z, [27668; 27683; 38541; 38605]%N);
   ((-6810891943843731, -50)%Z, [27700]%N);
   ((-3683184055680109, -49)%Z, [27721; 28450]%N);
   ((-2594924251143319, -49)%Z, [27743]%N);
   ((-388358376186699, -46)%Z, [27801]%N);
   ((-8055676392021217, -50)%Z, [27815; 28356]%N);
   ((-4280259411658129, -49)%Z, [27825; 31572]%N);
   ((-5778301131133899, -50)%Z, [27827]%N);
   ((-1366865431364183, -48)%Z, [27835]%N);
   ((-7947506875673297, -50)%Z, [27849; 37030]%N);
   ((-7650789495834911, -50)%Z, [27850; 32048; 32454]%N);
   ((-518227690018497, -46)%Z, [27861]%N);
   ((-7969201186679393, -50)%Z, [27874]%N);
   ((-7718840410845779, -50)%Z, [27888]%N);
   ((-7856725865223469, -50)%Z, [27901; 28580]%N);
   ((-931102535257223, -47)%Z, [27915]%N);
   ((-6069511641836823, -50)%Z, [27931]%N);
   ((-1798294079884881, -48)%Z, [27941]%N);
   ((-7272899191184023, -50)%Z, [27954]%N);
   ((-6387753028493391, -50)%Z, [27969]%N);
   ((-3692232814620057, -49)%Z, [28006]%N);
   ((-2032242809989135, -48)%Z, [28009; 36793; 37002]%N);
   ((-4739537328975265, -50)%Z, [28023]%N);
   ((-991305932476513, -47)%Z, [28142]%N);
   ((-7888896622596411, -50)%Z, [28207]%N);
   ((-7640927535787695, -50)%Z, [28246]%N);
   ((-6500776623142709, -50)%Z, [28286; 28771]%N);
   ((-8065177713443453, -50)%Z, [28304]%N);
   ((-2252412243524781, -48)%Z, [28909; 29105]%N);
   ((-4785082607038147, -49)%Z, [29004; 30053; 32834; 32886]%N);
   ((-8516930157658561, -50)%Z, [29256]%N);
   ((-6766372037283987, -50)%Z, [29273]%N);
   ((-7897085021647511, -50)%Z, [29275]%N);
   ((-3523482036928571, -49)%Z, [29289]%N);
   ((-5653434590084599, -50)%Z, [29305]%N);
   ((-2078805739444325, -48)%Z, [29313]%N);
   ((-1977370093793947, -48)%Z, [29579]%N);
   ((-1898218326150369, -48)%Z, [29595; 29802]%N);
   ((-2769003290777897, -49)%Z, [29677]%N);
   ((-8677499367668181, -50)%Z, [29748]%N);
   ((-3958910206310237, -49)%Z, [29790]%N);
   ((-4213953457221547, -49)%Z, [29916]%N);
   ((-3603224188911307, -49)%Z, [29926]%N);
   ((-62157300807685, -43)%Z, [30000]%N);
   ((-1874905343984191, -48)%Z, [30086]%N);
   ((-3515809687120631, -49)%Z, [30340]%N);
   ((-6505542344149587, -50)%Z, [30406]%N);
   ((-3991210649166457, -49)%Z, [30424; 30436]%N);
   ((-7247229894949035, -50)%Z, [30427]%N);
   ((-8808058586990375, -50)%Z, [30446]%N);
   ((-4372621550191059, -49)%Z, [30465; 36020; 36149]%N);
   ((-8454556677104403, -50)%Z, [30473]%N);
   ((-3720285947100297, -49)%Z, [30707]%N);
   ((-255810170189933, -45)%Z, [31185]%N);
   ((-3727176485433031, -49)%Z, [31532; 37329]%N);
   ((-6852360366982833, -50)%Z, [31859]%N);
   ((-7991321739203547, -50)%Z, [32004; 32422]%N);
   ((-6683686736881303, -50)%Z, [32013; 32435]%N);
   ((-8836090738041887, -50)%Z, [32047; 38899]%N);
   ((-291904161541779, -45)%Z, [32102; 32473]%N);
   ((-363814606203763, -46)%Z, [32173; 32500]%N);
   ((-9003225188641175, -51)%Z, [32599; 32645]%N);
   ((-3036379325874701, -49)%Z, [32654]%N);
   ((-7199792792489823, -50)%Z, [32676]%N);
   ((-196839826042967, -45)%Z, [32819; 33487; 34311]%N);
   ((-7226654501719315, -50)%Z, [32852; 32879]%N);
   ((-3843853777148351, -49)%Z, [32899; 32901]%N);
   ((-5499735718625021, -50)%Z, [33258]%N);
   ((-3363950640446931, -49)%Z, [33394]%N);
   ((-105078058298979, -44)%Z, [33457]%N);
   ((-263786029640049, -45)%Z, [33495]%N);
   ((-8481852557157623, -50)%Z, [33576; 33993]%N);
   ((-8669310968617081, -50)%Z, [33589; 38647]%N);
   ((-4137138315296613, -49)%Z, [33606; 33610]%N);
   ((-3782497702011329, -49)%Z, [33713; 33802]%N);
   ((-3450245083496475, -49)%Z, [33796]%N);
   ((-396790730195903, -46)%Z, [33832; 34217]%N);
   ((-5627410665063273, -50)%Z, [33945]%N);
   ((-754103617318221, -47)%Z, [34255]%N);
   ((-460880537382255, -46)%Z, [34892]%N);
   ((-1269826197045047, -48)%Z, [35041; 37324]%N);
   ((-4309197394054169, -50)%Z, [35199]%N);
   ((-3305292916906593, -49)%Z, [35282]%N);
   ((-8027644240969705, -50)%Z, [35582; 35834]%N);
   ((-3787105776472991, -49)%Z, [36335]%N);
   ((-6199087960014717, -50)%Z, [36798; 36948]%N);
   ((-6963250060469145, -50)%Z, [36830; 36899]%N);
   ((-2092538949767625, -48)%Z, [36842]%N);
   ((-1099858439537777, -47)%Z, [36890]%N);
   ((-4125765202153231, -49)%Z, [36947; 38534]%N);
   ((-2290787540798431, -48)%Z, [37073; 37165]%N);
   ((-3431895460534201, -49)%Z, [37117]%N);
   ((-6164166595005117, -50)%Z, [38272; 38376]%N);
   ((-5420493986107401, -50)%Z, [38451; 38525]%N);
   ((-1880003348377599, -48)%Z, [38463]%N);
   ((-2257986187581783, -48)%Z, [38498]%N);
   ((-3640001342095487, -49)%Z, [38517]%N);
   ((-4194539466008603, -49)%Z, [38518]%N);
   ((-2213793561042097, -48)%Z, [38596]%N);
   ((-8924635027764289, -50)%Z, [38634]%N);
   ((-7938944857933903, -50)%Z, [38914; 39030]%N);
   ((-2161274283540565, -48)%Z, [39080; 39118]%N);
   ((-510304998453799, -46)%Z, [39321]%N);
   ((-5700914163674095, -50)%Z, [39340; 39532]%N);
   ((-355580554234697, -46)%Z, [39640]%N);
   ((-1067314195552303, -47)%Z, [39770; 40060]%N);
   ((-2950239296566109, -49)%Z, [39791; 40065]%N);
   ((-8159679504551471, -50)%Z, [39854; 40092]%N);
   ((-2226086998524345, -48)%Z, [40643; 40644]%N);
   ((-7410834513789241, -50)%Z, [40654]%N);
   ((-2008067016596905, -48)%Z, [40778; 40784]%N);
   ((-2859290159815147, -49)%Z, [40845; 40857]%N)];
  (* ('M', 'nt') *)
  [
   ((-4035316391845495, -49)%Z, [19968; 25237]%N);
   ((-4834435114650921, -49)%Z, [19969; 20851; 22836; 29677; 35997; 36125; 38364; 38957]%N);
   ((-592111475903809, -46)%Z, [19971; 31461; 33394; 36650; 36718]%N);
   ((-8505283090080335, -50)%Z, [19977]%N);
   ((-4882036692302747, -49)%Z, [19978; 21555; 21556; 30331; 36842; 39376; 39547]%N);
   ((-1295188460380557, -47)%Z, [19979; 24311; 26460; 32013; 32435; 36817]%N);
   ((-4724240714075311, -49)%Z, [19982; 22369; 28982; 29664; 31918; 31975; 33287; 35582; 35834; 35937]%N);
   ((-1252952493795197, -47)%Z, [19987; 23560; 28010; 31435; 37327]%N);
   ((-8858430106375711, -50)%Z, [19990; 20247; 20856; 23777; 23805; 30526]%N);
   ((-1424144916587791, -47)%Z, [19992; 20004; 20051; 20381; 20465; 20841; 20857; 21513; 23548; 23566; 26391; 26705;
     29595; 29616; 29694; 29802; 33586; 36215; 38647; 38918; 39034; 40657; 40801; 40836]%N);
   ((-583182314524309, -47)%Z, [19994; 26989]%N);
   ((-6392835650689955, -50)%Z, [19996; 26481]%N);
   ((-2337396599497371, -49)%Z, [20013]%N);
   ((-972542876693305, -47)%Z, [20016; 32929; 35920]%N);
   ((-8693369268440273, -50)%Z, [20020; 20998; 33256]%N);
   ((-2815136855957291, -48)%Z, [20025; 23457; 23529; 23736; 24067; 24515; 26124; 27463; 33832; 34217; 39318]%N);
   ((-5306372493340829, -49)%Z, [20026; 20061; 20114; 20215; 20729; 21220; 21518; 23386; 24452; 24460; 24465; 25942;
     26575; 27979; 28204; 28858; 29926; 35486; 35519; 35821; 35843; 37559; 38144; 38556]%N);
   ((-3293938725459379, -49)%Z, [20027]%N);
   ((-6248737448648375, -49)%Z, [20030; 21338; 21494; 21520; 22260; 22285; 22418; 22744; 22982; 23500; 24335; 24449;
     24501; 24565; 25151; 25805; 26080; 26118; 26376; 26395; 26449; 26494; 26666; 27530; 27877; 27891; 27993; 28096;
     28330; 28595; 28961; 29420; 29544; 30058; 32033; 32406; 32420; 32442; 33289; 33436; 33590; 33694; 33865; 34154;
     34411; 34802; 35695; 35793; 36020; 36149; 36951; 36986; 38597; 39438; 39569]%N);
   ((-1038405975636801, -47)%Z, [20041; 32681]%N);
   ((-431047630973099, -46)%Z, [20048; 27138]%N);
   ((-5468323102627705, -49)%Z, [20050; 20313; 20854; 24211; 24235; 25351; 27531; 27544; 28393; 28760; 30719; 31014;
     33268; 35516; 35850; 39192]%N);
   ((-5240066538904247, -49)%Z, [20063; 20845; 20874; 20876; 21334; 27801; 27874; 27880; 28246; 30007; 31569; 31689;
     36067; 38534]%N);
   ((-858400148172771, -46)%Z, [20065; 20182; 20303; 20339; 20379; 20803; 20859; 20872; 20917; 20989; 21345; 21439;
     21462; 21776; 21892; 22238; 22312; 22788; 23439; 23447; 23460; 23485; 23532; 23713; 23721; 24038; 24102; 24118;
     24265; 24613; 24904; 25104; 25480; 25972; 26465; 26525; 26580; 26781; 26825; 27054; 27748; 27841; 28197; 28271;
     28507; 28508; 29066; 29081; 29151; 29392; 30123; 30284; 30358; 30450; 30524; 30772; 30784; 30828; 30990; 31206;
     31867; 32039; 32047; 32202; 32291; 32362; 32412; 32472; 32518; 32943; 33067; 33073; 33459; 33521; 33576; 33635;
     33829; 33922; 34389; 34880; 35264; 35266; 35430; 35576; 35712; 35797; 35832; 35835; 35947; 36305; 36873; 36874;
     36895; 36956; 36984; 37112; 37122; 37129; 37170; 37237; 37675; 38177; 38428; 38442; 38567; 38914; 39006; 39030;
     39178; 40285; 40372; 40517; 40548]%N);
   ((-3395198064111403, -49)%Z, [20070; 26360]%N);
   ((-2980584093771449, -48)%Z, [20080; 20183; 20196; 20987; 21149; 21240; 21809; 23453; 23542; 24402; 25552; 25802;
     25913; 26657; 26893; 27512; 28248; 30142; 31192; 32305; 32437; 32769; 32771; 32899; 32901; 32990; 36023; 36196;
     36766; 36781; 38291; 38388; 38859; 38886; 39166; 39208; 39280; 39302]%N);
   ((-6712874430117813, -50)%Z, [20107]%N);
   ((-8316364453340999, -50)%Z, [20108; 21306; 21312]%N);
   ((-3043393419680749, -48)%Z, [20113; 20505; 20581; 20804; 21151; 22317; 22609; 22781; 23186; 23467; 23470; 23551;
     24351; 25252; 25277; 25293; 25373; 25511; 25668; 25790; 25885; 26448; 27766; 28436; 29976; 30897; 32034; 32043;
     32156; 32508; 33778; 33988; 35498; 35703; 35828; 35998; 36126; 36629; 36731; 37428; 38083; 38590; 38627; 38642;
     38797; 38928; 38936; 39044; 39046; 39592; 40572]%N);
   ((-2636121932656541, -48)%Z, [20116; 20225; 23494; 23528; 26757; 31227; 38453; 38499]%N);
   ((-732316284454755, -46)%Z, [20117; 21069; 22438; 22718; 23553; 24034; 25490; 25932; 25973; 26089; 26434; 26827;
     27714; 27850; 27966; 28860; 29001; 31609; 31820; 31859; 35328; 35370; 35488; 35775; 35802; 37195; 37569; 38109;
     38620; 38663]%N);
   ((-6574158744467321, -50)%Z, [20122; 20126]%N);
   ((-642022984849085, -47)%Z, [20132]%N);
   ((-2680426207567289, -49)%Z, [20135; 29986]%N);
   ((-5131306326441659, -50)%Z, [20140]%N);
   ((-2456607585262135, -49)%Z, [20154]%N);
   ((-311958550724297, -45)%Z, [20161; 21450; 22827; 22919; 23142; 26690; 31291]%N);
   ((-7741225931130045, -50)%Z, [20195]%N);
   ((-5771751157609421, -49)%Z, [20202; 20736; 20918; 21009; 21566; 21672; 22530; 22839; 23448; 24196; 24735; 24917;
     25101; 25239; 25242; 25771; 26381; 26397; 27491; 27663; 27849; 28195; 28201; 28331; 28525; 29916; 32032; 33308;
     33674; 33678; 33777; 35347; 35426; 35566; 35757; 35810; 38463; 38867; 38889; 39080; 39118]%N);
   ((-6476994012371833, -49)%Z, [20210; 20358; 20551; 20837; 20912; 21321; 21521; 22362; 22411; 22533; 22771; 22818;
     23043; 23391; 23621; 23627; 23703; 23725; 23831; 23994; 24076; 24222; 24405; 24471; 26185; 26187; 26216; 26469;
     26790; 27580; 27779; 27902; 27905; 27946; 28009; 28039; 28385; 28415; 28500; 28526; 28895; 29017; 29287; 29483;
     29577; 30002; 30041; 30149; 30244; 30452; 30495; 31070; 31080; 31302; 31726; 31811; 32102; 32232; 32473; 32534;
     32959; 33039; 33041; 33126; 33131; 33247; 33351; 33391; 33529; 33707; 34315; 34382; 35009; 35282; 35469; 35748;
     35910; 35987; 36203; 36635; 36742; 36784; 36793; 37002; 37396; 37492; 37636; 37857; 37969; 38046; 38236; 38485;
     38493; 38622; 40481; 40848]%N);
   ((-4790546668511893, -49)%Z, [20219; 31934; 32178; 32593; 35338; 35759]%N);
   ((-8595403167193401, -50)%Z, [20221]%N);
   ((-4653780128579289, -49)%Z, [20234; 23041; 27431; 27472; 29028; 34255; 35041; 37324]%N);
   ((-1480374249839723, -48)%Z, [20250; 26371]%N);
   ((-8903774485663307, -50)%Z, [20256; 20659; 20864; 30086; 40654]%N);
   ((-1895668662620559, -48)%Z, [20262; 20523; 26377]%N);
   ((-4534823684141835, -49)%Z, [20271; 21442; 21443; 22235; 24179; 32000; 32426]%N);
   ((-606232420736739, -46)%Z, [20301; 22307; 23454; 23526; 25343; 26631; 26800; 27161; 32854; 35010; 38505; 38570]%N);
   ((-4046464279959499, -49)%Z, [20307; 38931; 39039; 39636]%N);
   ((-7246909255669723, -50)%Z, [20315]%N);
   ((-7646468176995323, -50)%Z, [20316]%N);
   ((-2098020932366395, -48)%Z, [20329; 21160; 21205]%N);
   ((-4865718159770151, -49)%Z, [20351; 21451; 29486; 29563; 31661; 32773; 35672; 35782]%N);
   ((-1275518715643015, -47)%Z, [20392; 20420; 20689; 24443; 24505; 24773; 26862; 27931; 32016; 32445; 36575;
     36719]%N);
   ((-2276492467512457, -48)%Z, [20419; 23376]%N);
   ((-7952007388926953, -50)%Z, [20445]%N);
   ((-2785855942178797, -49)%Z, [20449]%N);
   ((-1355815766017793, -47)%Z, [20538; 20661; 22330; 22580; 23646; 23660; 26009; 27611; 28390; 28772; 28921; 32080;
     32467; 35584; 35851; 36027; 36153; 36339; 38517; 39146; 39274; 39347; 39536]%N);
   ((-5517306153251141, -49)%Z, [20540; 20808; 21496; 22365; 22622; 22761; 22768; 23567; 25206; 25705; 26354; 27969;
     32882; 35413; 35542; 35770; 35780; 36007; 36139; 36424; 36805; 37027; 37509; 37586; 38108; 38155; 38468; 40643;
     40644; 40778; 40784]%N);
   ((-4077318574141461, -49)%Z, [20633; 22791]%N);
   ((-8338123643345, -40)%Z, [20648; 20786]%N);
   ((-1288321855218907, -47)%Z, [20799; 20818; 21029; 21035; 23486; 24509; 26364; 36051; 40635]%N);
   ((-1103648038581761, -47)%Z, [20809; 21407; 22467; 26053; 37326]%N);
   ((-248707808922511, -45)%Z, [20811]%N);
   ((-3457534907252167, -49)%Z, [20826; 40680]%N);
   ((-2409711113099095, -48)%Z, [20839; 20869; 23622; 23626; 36816; 36939]%N);
   ((-1873873565370009, -48)%Z, [20840; 23637]%N);
   ((-4776645963404293, -49)%Z, [20843; 26441; 27468; 36664; 36755]%N);
   ((-597618731544919, -47)%Z, [20844]%N);
   ((-3499964333762885, -49)%Z, [20848; 34349]%N);
   ((-2290384827505707, -49)%Z, [20849]%N);
   ((-7331437346845035, -50)%Z, [20852; 23665; 33288]%N);
   ((-2338150564918337, -48)%Z, [20853; 29275; 31821; 37325; 39340; 39532]%N);
   ((-670189460576609, -47)%Z, [20891; 36557]%N);
   ((-3217536203853973, -49)%Z, [20892; 36786]%N);
   ((-1224710604129337, -47)%Z, [20934; 22805; 28310; 28846; 40845; 40857]%N);
   ((-6440248968122667, -50)%Z, [20986]%N);
   ((-2222113970820293, -48)%Z, [21010; 21123; 22856; 35686; 38750]%N);
   ((-2467019124283937, -48)%Z, [21015; 21531; 30693]%N);
   ((-2690771992299543, -48)%Z, [21019; 21109; 28180; 28251; 28417; 29260; 29790; 32218; 32447; 32701; 33334; 33796;
     39321]%N);
   ((-6811842489165831, -50)%Z, [21033]%N);
   ((-7791773567632009, -50)%Z, [21046]%N);
   ((-5820353337099585, -50)%Z, [21048]%N);
   ((-4611273155411871, -49)%Z, [21073; 21133; 33310]%N);
   ((-3999674747098203, -49)%Z, [21095; 21127; 31684; 33539]%N);
   ((-4226207113598101, -49)%Z, [21147; 32599; 32645]%N);
   ((-4280378679783555, -49)%Z, [21150; 28286; 28771; 32862; 36774; 38395]%N);
   ((-3579212236413239, -49)%Z, [21152]%N);
   ((-4711434893705821, -50)%Z, [21153; 21209]%N);
   ((-8280332581392367, -50)%Z, [21171; 21214; 27721; 28450]%N);
   ((-1122957379823103, -47)%Z, [21202]%N);
   ((-3444503076398417, -49)%Z, [21270]%N);
   ((-1735437788916887, -48)%Z, [21271]%N);
   ((-6994256615696749, -50)%Z, [21295; 27719]%N);
   ((-2476248638899385, -48)%Z, [21305; 28070; 28516]%N);
   ((-6755535761299659, -50)%Z, [21307; 25112; 25136; 37291]%N);
   ((-4525958147320159, -49)%Z, [21313; 26696; 26723; 27284; 27494; 28006]%N);
   ((-2624305297351673, -49)%Z, [21326; 33775]%N);
   ((-2961294258281009, -49)%Z, [21327; 21332]%N);
   ((-5763001194058183, -50)%Z, [21335]%N);
   ((-1869492543439087, -48)%Z, [21355; 21644; 34907]%N);
   ((-1968802931644045, -48)%Z, [21360; 33258]%N);
   ((-4562290104788435, -49)%Z, [21382; 21839; 27511; 38382; 39015; 39038]%N);
   ((-2898335040982159, -49)%Z, [21457; 30332]%N);
   ((-420805067206993, -46)%Z, [21475]%N);
   ((-4162777762014579, -49)%Z, [21476; 35352; 35760]%N);
   ((-2539057964808685, -48)%Z, [21487; 22810; 23569; 24555; 36084; 36182; 36763; 38582; 38584; 40613; 40614]%N);
   ((-2563549490120403, -48)%Z, [21488; 22519; 25191; 26497; 26997; 28779; 31995; 32650; 33609]%N);
   ((-4089339314567567, -49)%Z, [21490; 22799]%N);
   ((-5106172394763717, -50)%Z, [21512]%N);
   ((-7201797832437425, -50)%Z, [21516; 21697]%N);
   ((-2668615635499867, -49)%Z, [21592; 21729]%N);
   ((-4804799327337379, -49)%Z, [21619; 22899; 23383; 28857; 33098; 33240; 36798; 36948; 39131; 39134; 40670]%N);
   ((-6982997522801923, -50)%Z, [21629]%N);
   ((-8162594071201043, -50)%Z, [21704; 29289]%N);
   ((-7398264283114465, -50)%Z, [21733]%N);
   ((-5209629399208525, -49)%Z, [21746; 23556; 24109; 25968; 25976; 26408; 29004; 30008; 31561; 32752; 32819;
     40595]%N);
   ((-5175984190383207, -50)%Z, [21830]%N);
   ((-8843712250956789, -50)%Z, [21860]%N);
   ((-5342704450809105, -49)%Z, [22025; 22612; 22909; 23273; 23458; 23545; 23565; 26212; 26524; 26612; 27872; 30710;
     30959; 35215; 35268]%N);
   ((-2258615033115951, -48)%Z, [22120; 24503; 24819]%N);
   ((-7631422520046487, -50)%Z, [22242; 22296]%N);
   ((-5399137777384025, -51)%Z, [22269; 22283]%N);
   ((-8494508846072715, -50)%Z, [22270; 22294; 26816; 27298]%N);
   ((-2048749076176741, -48)%Z, [22303; 23425; 23527]%N);
   ((-4543831075557539, -49)%Z, [22320]%N);
   ((-6389524177988547, -50)%Z, [22323]%N);
   ((-526996422239641, -46)%Z, [22363; 22727]%N);
   ((-4073368031940145, -49)%Z, [22374]%N);
   ((-4407420720359007, -49)%Z, [22478]%N);
   ((-2034722509936621, -48)%Z, [22484; 33402; 34269]%N);
   ((-6901962566278897, -50)%Z, [22522]%N);
   ((-2193219395196979, -48)%Z, [22561; 27827]%N);
   ((-8732421734947623, -50)%Z, [22577; 25253]%N);
   ((-4601129638578417, -49)%Z, [22659; 33457]%N);
   ((-8372671181207171, -50)%Z, [22763; 36827; 36914; 37117]%N);
   ((-4459652192883577, -49)%Z, [22797; 28216; 32340; 32455; 36938]%N);
   ((-6678161856997575, -50)%Z, [22806]%N);
   ((-1805051417541021, -49)%Z, [22823]%N);
   ((-7746731565117237, -50)%Z, [22825]%N);
   ((-4024384981316709, -49)%Z, [22826]%N);
   ((-4417156881248375, -50)%Z, [22830]%N);
   ((-8411836866067157, -50)%Z, [22885; 22887]%N);
   ((-629805512841673, -47)%Z, [22996]%N);
   ((-1155407501525975, -48)%Z, [23398; 23416]%N);
   ((-4971582154735505, -49)%Z, [23431; 23450; 24859; 26149; 28040; 29233; 32097; 32476; 35441; 35805; 36012; 36131;
     37038; 37109; 39135]%N);
   ((-3229717976470553, -49)%Z, [23433]%N);
   ((-4483611125838267, -49)%Z, [23459; 31237; 31246]%N);
   ((-5067703004885499, -50)%Z, [23478]%N);
   ((-1000784766359165, -47)%Z, [23519]%N);
   ((-228282285120949, -45)%Z, [23572; 24029; 29246]%N);
   ((-3763416729536869, -49)%Z, [23612]%N);
   ((-1147791415618683, -47)%Z, [23616; 29699]%N);
   ((-1905375658227031, -48)%Z, [23707; 23798]%N);
   ((-3203089902893887, -49)%Z, [24030]%N);
   ((-2574098251938251, -49)%Z, [24037]%N);
   ((-8228358742871557, -50)%Z, [24052; 26399]%N);
   ((-7161702204127855, -50)%Z, [24065; 24163]%N);
   ((-679798675545193, -47)%Z, [24066]%N);
   ((-7549765003426403, -50)%Z, [24072; 24107]%N);
   ((-1187458438861061, -47)%Z, [24093; 36074; 36136]%N);
   ((-822257668463143, -47)%Z, [24120]%N);
   ((-457267092657633, -46)%Z, [24180]%N);
   ((-7832719894816083, -50)%Z, [24191; 24291]%N);
   ((-7850734677647491, -50)%Z, [24198; 24950; 29305]%N);
   ((-8572187913652679, -50)%Z, [24220; 31243]%N);
   ((-7925822489982753, -50)%Z, [24230; 32026; 32423]%N);
   ((-9000339342290179, -50)%Z, [24247; 24459; 30000; 35013; 35037]%N);
   ((-6517187068313701, -50)%Z, [24314]%N);
   ((-7184917457668577, -50)%Z, [24320; 38283]%N);
   ((-7906575869055989, -50)%Z, [24433]%N);
   ((-958355876524465, -47)%Z, [24535; 27604; 30431; 30707]%N);
   ((-817453874876689, -47)%Z, [24635; 32317]%N);
   ((-4763080247865293, -49)%Z, [24681; 31574]%N);
   ((-8421844931136163, -50)%Z, [24687; 29255; 39854; 40092]%N);
   ((-8473264821352149, -50)%Z, [24847; 24895; 39000]%N);
   ((-2218335726484917, -48)%Z, [25103; 25138; 26222]%N);
   ((-4200958489464397, -49)%Z, [25171]%N);
   ((-4711867689561725, -49)%Z, [25176; 36828; 36960]%N);
   ((-2032774578448117, -48)%Z, [25216]%N);
   ((-1023350988206983, -47)%Z, [25289; 26032]%N);
   ((-5570961014532563, -49)%Z, [25381; 25582; 28845; 34425]%N);
   ((-8334822242240229, -50)%Z, [25773; 31958]%N);
   ((-399138901022795, -46)%Z, [25918]%N);
   ((-7134475264864973, -51)%Z, [25919]%N);
   ((-233959316366193, -45)%Z, [25945; 35222; 35270]%N);
   ((-4042723734945519, -49)%Z, [25958; 32946; 33647; 34277]%N);
   ((-3390496993339925, -49)%Z, [25991]%N);
   ((-3215817271362953, -49)%Z, [26031]%N);
   ((-7142177438999761, -50)%Z, [26041]%N);
   ((-2186436537427479, -48)%Z, [26063; 26126]%N);
   ((-7597078683699153, -50)%Z, [26071]%N);
   ((-8583735706235449, -50)%Z, [26085; 38451; 38525]%N);
   ((-489173653544865, -46)%Z, [26086; 38272; 38376]%N);
   ((-8462791258320237, -50)%Z, [26102; 26178]%N);
   ((-1376617271921183, -48)%Z, [26131]%N);
   ((-8643321033102781, -50)%Z, [26143]%N);
   ((-559438873344977, -46)%Z, [26368; 36830; 36899]%N);
   ((-1553814401502963, -48)%Z, [26412]%N);
   ((-7132540576398933, -50)%Z, [26415; 34899]%N);
   ((-8382335617429669, -50)%Z, [26426; 27231; 31532; 33487; 34311]%N);
   ((-4687908756607035, -49)%Z, [26435; 27402; 28165; 30011; 30059; 32822]%N);
   ((-7195015282366669, -50)%Z, [26519]%N);
   ((-4664928016693293, -49)%Z, [26597; 37202]%N);
   ((-8527145911137907, -50)%Z, [26680]%N);
   ((-2290687490862585, -48)%Z, [26681; 27888]%N);
   ((-116775491256601, -44)%Z, [26684]%N);
   ((-7577913967250427, -50)%Z, [26725; 27211; 34892]%N);
   ((-2154871439863853, -49)%Z, [27665]%N);
   ((-1036154127782875, -47)%Z, [27668; 27683]%N);
   ((-7568452567817623, -50)%Z, [27700]%N);
   ((-7535950107320329, -50)%Z, [27743]%N);
   ((-3384675328702867, -49)%Z, [27773]%N);
   ((-7020008943335731, -50)%Z, [27833; 38470; 38520]%N);
   ((-6302077995040771, -50)%Z, [27835]%N);
   ((-3161850440024547, -49)%Z, [27861; 31038]%N);
   ((-7171593042906283, -50)%Z, [27915]%N);
   ((-7205204491335485, -50)%Z, [27941]%N);
   ((-1586039511228343, -48)%Z, [27954]%N);
   ((-7275596155436537, -50)%Z, [27982; 28639]%N);
   ((-2487515222230059, -49)%Z, [28023]%N);
   ((-6838621911515985, -50)%Z, [28207]%N);
   ((-3940707523770243, -49)%Z, [28304]%N);
   ((-1263783797425907, -47)%Z, [28392; 28657; 33453; 34174; 36896; 39511; 39564]%N);
   ((-6619876760155715, -50)%Z, [29256]%N);
   ((-1142937917815447, -47)%Z, [29273]%N);
   ((-3754409338121165, -49)%Z, [29579]%N);
   ((-4508635243507013, -49)%Z, [29615; 29872]%N);
   ((-2316062768789495, -48)%Z, [29627; 32768]%N);
   ((-372310084104169, -46)%Z, [29702]%N);
   ((-86921093330607, -44)%Z, [29983]%N);
   ((-3830858809391201, -49)%Z, [29992]%N);
   ((-8706236836003423, -50)%Z, [30001]%N);
   ((-5581348746958421, -50)%Z, [30005; 38651]%N);
   ((-6778655668275829, -50)%Z, [30028; 31354; 35336; 35745]%N);
   ((-4101622346282077, -49)%Z, [30333]%N);
   ((-2458082660165247, -48)%Z, [30334; 32933; 33945]%N);
   ((-943142647251061, -47)%Z, [30343]%N);
   ((-6249770650250589, -50)%Z, [30417; 30435]%N);
   ((-4303596401369255, -49)%Z, [30427]%N);
   ((-5926965198096021, -50)%Z, [30465]%N);
   ((-1867327340633959, -48)%Z, [30563]%N);
   ((-1663725750909647, -48)%Z, [30740]%N);
   ((-1855707586635871, -48)%Z, [31119]%N);
   ((-5237264914908785, -50)%Z, [31185]%N);
   ((-6665415684186593, -50)%Z, [31350]%N);
   ((-4699760772334315, -49)%Z, [31639; 33337; 33437; 33713; 33802]%N);
   ((-6423085527416391, -50)%Z, [31649]%N);
   ((-3481780518398835, -49)%Z, [32004; 32422]%N);
   ((-3370944161302743, -49)%Z, [32005; 32418]%N);
   ((-5747938763301655, -50)%Z, [32068; 32452]%N);
   ((-6960811585109375, -50)%Z, [32113; 32479; 39640]%N);
   ((-6904571837219239, -50)%Z, [32147; 32463]%N);
   ((-4181544498251453, -49)%Z, [32173; 32500]%N);
   ((-7803321360214779, -50)%Z, [32654]%N);
   ((-1339550809415239, -48)%Z, [32852; 32879]%N);
   ((-8668067082129953, -50)%Z, [33021]%N);
   ((-112634710767549, -44)%Z, [33322]%N);
   ((-236661666533125, -45)%Z, [33328; 33382]%N);
   ((-4176793837540335, -49)%Z, [34701]%N);
   ((-8013249669598627, -50)%Z, [34920]%N);
   ((-1847548320369573, -48)%Z, [35199]%N);
   ((-6489747044687013, -50)%Z, [35299]%N);
   ((-5967140319228347, -50)%Z, [35373; 35774]%N);
   ((-5052978512138565, -50)%Z, [35657; 35777]%N);
   ((-452490643685111, -46)%Z, [35696; 35758]%N);
   ((-7282883558915449, -50)%Z, [36001; 36130; 38738]%N);
   ((-6891585535154863, -50)%Z, [36008; 36135]%N);
   ((-3639616980604097, -49)%Z, [36031; 36152]%N);
   ((-7301311137317693, -50)%Z, [36039; 36164]%N);
   ((-8549441687365915, -50)%Z, [36275]%N);
   ((-4327813036298425, -49)%Z, [36335]%N);
   ((-7138955977841091, -50)%Z, [36554; 36710]%N);
   ((-5887115704809547, -50)%Z, [36890]%N);
   ((-8123360139642637, -50)%Z, [36947]%N);
   ((-3803392388744601, -49)%Z, [37030]%N);
   ((-950240158926125, -47)%Z, [37096]%N);
   ((-92455335651797, -44)%Z, [37329]%N);
   ((-6970470219276549, -51)%Z, [37504; 38134]%N);
   ((-432854162358341, -46)%Z, [37628; 38050]%N);
   ((-6866053830974653, -50)%Z, [37941; 38081]%N);
   ((-3745543801299489, -49)%Z, [38263; 38271]%N);
   ((-7426977312214571, -50)%Z, [38450]%N);
   ((-5968277017867899, -50)%Z, [38469; 38555]%N);
   ((-7656611488004171, -50)%Z, [38480]%N);
   ((-882659613782641, -47)%Z, [38498]%N);
   ((-5262499587058029, -50)%Z, [38598]%N);
   ((-4359626582433909, -49)%Z, [38754]%N);
   ((-6955332742634441, -50)%Z, [38761]%N);
   ((-3838588220795127, -49)%Z, [38899]%N);
   ((-7893925175211481, -50)%Z, [39791; 40065]%N)];
  (* ('M', 'nz') *)
  [
   ((-5081725545387089, -50)%Z, [19968]%N);
   ((-6742290820753691, -50)%Z, [19969]%N);
   ((-949759040510295, -47)%Z, [19971; 27931]%N);
   ((-4172182939964703, -49)%Z, [19975; 23556; 30827; 33836]%N);
   ((-5933877520889479, -50)%Z, [19977]%N);
   ((-1480187679366997, -47)%Z, [19978; 20171; 20204; 20387; 20406; 20497; 20505; 20957; 21049; 21066; 21070; 21095;
     21127; 21161; 21220; 21674; 21733; 21857; 21897; 22570; 22818; 22859; 22894; 23480; 23610; 24212; 24215; 24218;
     24449; 24501; 25033; 25670; 25850; 26045; 26089; 26198; 26249; 26479; 26494; 26550; 26790; 27745; 28082; 28183;
     28402; 28422; 28789; 29226; 29380; 29616; 29694; 30003; 30014; 30126; 30241; 30423; 30424; 30428; 30436; 30456;
     31038; 31921; 32032; 32227; 32350; 32469; 32536; 32769; 33151; 33167; 33218; 33433; 33459; 33616; 33748; 33816;
     33891; 34071; 34214; 34382; 35215; 35268; 35370; 35426; 35531; 35712; 35775; 35810; 35831; 35835; 35937; 36062;
     36074; 36136; 36175; 36805; 36867; 36873; 36984; 37030; 37938; 38255; 38459; 38477; 38654; 38695; 38728; 38918;
     38968; 39034; 39048; 39173; 39292]%N);
   ((-6539214454201781, -49)%Z, [19979; 20007; 20080; 20081; 20083; 20098; 20278; 20336; 20465; 20542; 20559; 20648;
     20670; 20786; 20908; 20923; 20941; 20943; 21002; 21010; 21015; 21047; 21050; 21106; 21123; 21382; 21490; 21579;
     21672; 21683; 21809; 21878; 21888; 21916; 21930; 22028; 22240; 22346; 22418; 22721; 22744; 22899; 23156; 23344;
     23380; 23381; 23481; 23506; 23553; 23567; 23573; 24050; 24067; 24187; 24199; 24207; 24343; 24425; 24459; 24481;
     24518; 24576; 25014; 25079; 25103; 25138; 25206; 25215; 25239; 25307; 25405; 25552; 25773; 25792; 25935; 26449;
     26657; 26680; 26694; 26705; 26816; 26937; 27298; 27426; 27489; 27511; 27530; 27584; 27585; 27694; 27712; 27839;
     27901; 27927; 28107; 28187; 28465; 28504; 28580; 28748; 28845; 29038; 29087; 29298; 29399; 29577; 30103; 30151;
     30187; 30274; 30279; 30408; 30442; 30465; 30496; 30566; 30590; 30718; 30872; 30910; 31020; 31062; 31142; 31162;
     31199; 31209; 31232; 32009; 32011; 32068; 32156; 32184; 32191; 32353; 32362; 32427; 32438; 32441; 32452; 32472;
     32483; 32501; 32508; 32671; 32677; 32709; 32925; 32943; 33145; 33455; 33633; 33683; 33909; 33945; 34425; 34814;
     34917; 35036; 35261; 35272; 35328; 35559; 35566; 35856; 35916; 36001; 36023; 36130; 36305; 36339; 36611; 36617;
     36733; 36739; 37467; 37496; 37656; 37749; 37794; 38056; 38085; 38128; 38180; 38190; 38275; 38378; 38472; 38480;
     38515; 38604; 38643; 38722; 38772; 38988; 39064; 39345; 39347; 39534; 39536; 40273; 40515]%N);
   ((-8673882571025811, -50)%Z, [19981; 20928; 27679; 28136; 29275; 31508; 31558; 33322; 33394]%N);
   ((-1228019951930965, -47)%Z, [19982; 20998; 22561; 23500; 26465; 26781; 28165; 28783; 29031; 29128; 29609; 31077;
     31354; 31377; 31407; 31881; 31908; 31925; 33287; 38013; 38075; 38468]%N);
   ((-6149007281191447, -49)%Z, [19985; 20309; 20311; 20405; 20498; 20625; 20877; 20889; 20915; 20940; 21028; 21319;
     21378; 21452; 21462; 21806; 22120; 22312; 22351; 22484; 22530; 22741; 22750; 22788; 22918; 22941; 22996; 23035;
     23130; 23528; 23531; 23608; 23625; 23629; 23644; 24102; 24118; 24178; 24185; 24211; 24220; 24235; 24288; 24322;
     24352; 24369; 24373; 24418; 24433; 24577; 24613; 24859; 24863; 24907; 25171; 25226; 25292; 25308; 25381; 25496;
     25582; 25597; 25900; 26001; 26194; 26348; 26395; 26480; 26500; 26580; 26862; 26865; 27083; 27167; 27225; 27583;
     27770; 27779; 27877; 27891; 28068; 28103; 28142; 28335; 28364; 28820; 28857; 29233; 29238; 29995; 30064; 30142;
     30171; 30721; 30844; 30861; 30908; 30970; 31001; 31119; 31179; 31181; 31278; 31639; 31726; 31811; 31867; 32305;
     32437; 32724; 32822; 33125; 33298; 33424; 33476; 33631; 33899; 33953; 34180; 34184; 34299; 34389; 34507; 34928;
     35338; 35548; 35759; 35853; 36763; 36865; 36880; 37210; 37231; 37276; 37499; 37610; 37666; 37832; 38065; 38124;
     38138; 38142; 38281; 38381; 38556; 38617; 38795; 38920; 39006; 39035; 39166; 39280; 39746; 40635; 40654; 40657;
     40670]%N);
   ((-2091760056787431, -49)%Z, [19990]%N);
   ((-5443764426429035, -49)%Z, [19992; 20016; 20182; 20215; 20285; 20445; 20729; 21243; 21248; 25346; 25499; 26753;
     27016; 27260; 27354; 27358; 27597; 28340; 29366; 29376; 29482; 30001; 31293; 31461; 31570; 31680; 31786; 31821;
     32004; 32302; 32422; 32553; 32960; 33032; 33033; 33081; 33410; 33436; 33538; 34092; 34154; 34631; 34809; 34821;
     35211; 35265; 35486; 35731; 35753; 35821; 35920; 35948; 36523; 36793; 36807; 36896; 36942; 37002; 37230; 38899;
     39770; 40060]%N);
   ((-8587232141980133, -50)%Z, [19993; 20180; 21019; 21109]%N);
   ((-3518438506485353, -49)%Z, [19994; 26989]%N);
   ((-7219238264215407, -50)%Z, [19996; 26481]%N);
   ((-327685892709511, -45)%Z, [19997; 20029; 20256; 20607; 20659; 20767; 21364; 21371; 21537; 24405; 24444; 25304;
     26691; 26834; 27531; 27544; 27744; 27801; 30967; 31563; 32114; 33014; 33184; 33446; 33778; 34310; 35676; 35889;
     36394; 36420; 36629; 36731; 37353; 37485; 37636; 38034; 38077; 38470; 38520; 38738; 40599]%N);
   ((-719850013522639, -46)%Z, [20004; 20010; 20047; 20214; 20491; 20598; 20841; 21098; 21329; 21495; 21518; 21708;
     21737; 21891; 21937; 22134; 22645; 22756; 22909; 23110; 23545; 23565; 23576; 23913; 24040; 24202; 24335; 24421;
     24422; 24453; 24460; 24917; 25151; 25195; 25233; 25475; 25744; 25745; 25955; 25968; 25976; 27308; 28180; 28417;
     29066; 30722; 31165; 31487; 31614; 31661; 31805; 32570; 32972; 33041; 33126; 33527; 33529; 33970; 34315; 34399;
     34411; 34802; 35377; 35480; 35768; 35825; 36012; 36131; 36685; 36761; 37057; 37259; 37275; 38860; 38887; 39318;
     39729; 40475; 40563; 40660; 40718; 40763]%N);
   ((-2253224191735267, -48)%Z, [20005; 20065; 22196; 23450; 27774; 30524; 37129]%N);
   ((-7141559196635443, -50)%Z, [20013]%N);
   ((-1070821606057871, -47)%Z, [20020; 21413; 24403; 24847; 28909; 29105; 30070; 33256; 36039; 36164; 39791;
     40065]%N);
   ((-821671336989763, -47)%Z, [20025; 21644]%N);
   ((-165201422077549, -45)%Z, [20027]%N);
   ((-5530543544457653, -49)%Z, [20030; 20896; 21009; 21171; 21214; 21777; 22577; 22949; 23448; 25253; 25945; 26009;
     26641; 26679; 26825; 27171; 27193; 27607; 27849; 28120; 28248; 29422; 29509; 30007; 30701; 31227; 31896; 32178;
     32593; 32764; 33289; 33632; 33714; 33735; 34030; 34234; 35380; 35785; 36000; 36127; 36664; 36755; 36947; 37326;
     37440; 37561; 38078; 38152; 38684; 38745; 38748; 39389; 39548; 40786; 40831]%N);
   ((-29546685679331, -42)%Z, [20041; 22242; 22296; 28436; 32681]%N);
   ((-4163842788112025, -49)%Z, [20043; 24320; 27874; 28779; 28844; 28982; 35582; 35834; 38283]%N);
   ((-3341561548530611, -49)%Z, [20048; 27138]%N);
   ((-4774088131391673, -49)%Z, [20052; 20307; 20837; 20984; 21578; 21932; 23475; 24033; 26356; 28507; 28508; 31034;
     36890; 37995; 38500; 38931; 39039; 39636]%N);
   ((-3393873082202073, -49)%Z, [20057]%N);
   ((-8037395806079499, -50)%Z, [20061; 22810; 23401; 32005; 32418; 33519; 36123; 36195]%N);
   ((-5633181456362511, -49)%Z, [20064; 20142; 20301; 20493; 20992; 20999; 21040; 21862; 23041; 23449; 23458; 23494;
     23548; 23566; 24196; 25130; 25373; 25790; 25932; 25972; 25973; 26415; 26497; 26611; 26997; 27048; 27979; 28079;
     28204; 28393; 28404; 28459; 28577; 28608; 28760; 30008; 30862; 30871; 30899; 31291; 31481; 31574; 31918; 31975;
     32097; 32232; 32476; 32534; 32687; 32722; 32946; 33067; 33073; 33267; 33469; 33590; 33674; 33678; 34472; 34899;
     35264; 35266; 35519; 35843; 36027; 36106; 36153; 36190; 36785; 36845; 37202; 37228; 37385; 37723; 38048; 38203;
     38971; 39057]%N);
   ((-3816629779951113, -49)%Z, [20070; 26360]%N);
   ((-1531255131079769, -48)%Z, [20107]%N);
   ((-4667062893996887, -50)%Z, [20108]%N);
   ((-8982870990035607, -50)%Z, [20113; 20262; 20523; 21451; 22806; 27827; 33740; 38642]%N);
   ((-4421847024263857, -49)%Z, [20116; 20117; 20332; 22885; 22887; 26149]%N);
   ((-3330150010080677, -49)%Z, [20122; 20126]%N);
   ((-546471755144241, -46)%Z, [20129; 21317; 23725; 23994; 24093; 27688]%N);
   ((-3381362568384245, -49)%Z, [20132]%N);
   ((-771604577895613, -47)%Z, [20133]%N);
   ((-3887984646736741, -49)%Z, [20135; 23622; 23626; 28207; 29986; 32654]%N);
   ((-7200830771262527, -50)%Z, [20140; 20809]%N);
   ((-3090093732386229, -49)%Z, [20154]%N);
   ((-4570855685336961, -49)%Z, [20160; 20723; 22122; 26053; 28020; 28189; 35895; 37569; 38109]%N);
   ((-569256245140295, -46)%Z, [20161; 21414; 21487; 24085; 24264; 24635; 25509; 32317; 33487; 33609; 34311; 34893;
     40613; 40614]%N);
   ((-4606051517387487, -49)%Z, [20166; 20693; 22855; 23383; 26408; 32016; 32445; 32905; 33521; 36203; 37327]%N);
   ((-4825300689695241, -49)%Z, [20185; 21381; 22797; 24307; 25098; 25142; 25143; 25913; 26837; 29468; 31389; 31401;
     33402; 34269; 35347; 35757; 38712; 39493; 39537]%N);
   ((-1368355195507815, -48)%Z, [20195]%N);
   ((-5189319422070755, -49)%Z, [20210; 20852; 20891; 21213; 21253; 23451; 23707; 23798; 23854; 24213; 24773; 25505;
     25928; 26202; 27515; 27852; 28919; 29942; 30410; 32406; 32420; 32903; 32988; 33018; 33288; 34915; 35222; 35270;
     36557; 37319; 38632; 38901; 38907; 40255; 40441; 40509; 40560]%N);
   ((-2090324256163313, -48)%Z, [20225; 26799; 36335]%N);
   ((-3844096200597713, -49)%Z, [20234]%N);
   ((-1874665921480537, -48)%Z, [20240; 27861]%N);
   ((-7113053878984471, -50)%Z, [20247; 30526]%N);
   ((-6489434681601309, -50)%Z, [20250; 22825; 26371]%N);
   ((-2507358859814359, -48)%Z, [20260; 20663; 20687; 21697; 22359; 22602; 23386; 23439; 23519; 25216; 25513; 26579;
     26690; 27905; 28216; 28392; 28500; 28657; 30086; 33391; 33541; 34523; 35408; 35784; 36771; 36938]%N);
   ((-6369839101592541, -50)%Z, [20271]%N);
   ((-5368592935170777, -49)%Z, [20308; 20384; 20448; 21334; 21344; 21407; 22467; 22870; 23384; 24359; 24471; 24515;
     24904; 26381; 27542; 28139; 28287; 28629; 29518; 29575; 29916; 30382; 32650; 32862; 33756; 36067; 36196; 37332;
     38023; 38395; 38750]%N);
   ((-5095276332890785, -49)%Z, [20313; 20806; 20964; 20986; 21348; 22521; 23637; 24605; 25720; 26377; 26530; 26597;
     26792; 27166; 28373; 29627; 30333; 30417; 30435; 30528; 30740; 31302; 31968; 33879; 33976; 39192; 40179;
     40565]%N);
   ((-8103256679732969, -50)%Z, [20315; 28246; 33390]%N);
   ((-2570168185723659, -48)%Z, [20316; 20845; 20914; 21048; 21463; 22616; 24120; 25252; 26495; 26524; 26757; 26800;
     27873; 28369; 28385; 28415; 29123; 31105; 32048; 32218; 32299; 32447; 32454; 32541; 32933; 33883; 34909; 34913;
     35430; 35703; 35797; 36828; 36960; 38665; 40692]%N);
   ((-4086605423146657, -49)%Z, [20358; 24341; 26469]%N);
   ((-8651586794797803, -50)%Z, [20381; 20856; 22478; 30462; 36830; 36899]%N);
   ((-1263389313354675, -47)%Z, [20390; 20597; 21971; 22330; 22411; 22580; 23486; 23648; 24377; 24392; 25615; 27611;
     27773; 29747; 29976; 31561; 33039; 33247; 33738; 34690; 35441; 35516; 35805; 35850; 36051; 36681; 36716;
     39135]%N);
   ((-8063279702507045, -50)%Z, [20449; 28006; 38291; 38388]%N);
   ((-8719844050853297, -50)%Z, [20462; 20859; 21488; 22270; 22294; 36600; 36724; 39178]%N);
   ((-5302286980734195, -49)%Z, [20540; 20633; 21306; 21312; 21346; 21448; 21521; 22253; 22290; 22363; 22727; 22768;
     22791; 23792; 25311; 25324; 25836; 26367; 26472; 26512; 26954; 27819; 28860; 28895; 29001; 29017; 29554; 29595;
     29781; 29802; 30340; 30439; 31435; 32026; 32160; 32423; 32511; 32882; 32928; 33144; 33426; 33540; 33719; 34588;
     36008; 36135; 36555; 36711; 37559; 37806; 38144; 38215; 38686; 39511; 39564]%N);
   ((-8792507965789849, -50)%Z, [20581; 24049; 26460; 30707]%N);
   ((-2065832730851595, -48)%Z, [20799; 20818]%N);
   ((-1134432857147441, -47)%Z, [20803; 21516; 26017; 30427; 31070]%N);
   ((-696512859610465, -47)%Z, [20811]%N);
   ((-8696628797312575, -50)%Z, [20826; 23615; 25237; 29827; 31890; 40680]%N);
   ((-7107438406461819, -50)%Z, [20839; 20869; 29273]%N);
   ((-7289430389121103, -50)%Z, [20840]%N);
   ((-3807764243129437, -49)%Z, [20843]%N);
   ((-7400037039096433, -50)%Z, [20844; 29289]%N);
   ((-2407787721092965, -49)%Z, [20848; 34349]%N);
   ((-3585402497178533, -49)%Z, [20849]%N);
   ((-4683823244000401, -49)%Z, [20851; 22266; 24180; 25100; 25391; 25512; 25588; 26397; 28151; 32396; 32493; 32771;
     33655; 38364]%N);
   ((-8012093619769179, -50)%Z, [20853; 34383; 34396]%N);
   ((-2321797711777559, -48)%Z, [20854; 21021; 28526; 29157; 31237; 31246]%N);
   ((-4852767110341841, -49)%Z, [20855; 21338; 21531; 22025; 23578; 25200; 25854; 26432; 27578; 27602; 29642; 30697;
     36637; 36745; 37504; 38134; 38453; 38499; 38706]%N);
   ((-978482908347067, -47)%Z, [20892; 36786]%N);
   ((-4588178589150107, -49)%Z, [20919; 21315; 21387; 22343; 22739; 25442; 25563; 25995; 26230; 27454; 28342; 38622;
     40285; 40481; 40517; 40779]%N);
   ((-7231679273748509, -50)%Z, [20934; 28310; 33647; 34277]%N);
   ((-8247801023302533, -50)%Z, [20976; 25343]%N);
   ((-4189243335051515, -49)%Z, [21029; 21035; 21046; 24066; 27954]%N);
   ((-6061316267167833, -50)%Z, [21033]%N);
   ((-4944257134132695, -49)%Z, [21069; 21360; 26399; 28014; 28525; 30813; 32622; 33337; 33922; 36064; 36180;
     38647]%N);
   ((-1886817807550845, -48)%Z, [21147; 21295; 27719]%N);
   ((-4116241210460199, -49)%Z, [21152; 29615; 29872; 30495; 31532; 32819; 36895]%N);
   ((-4727148458523241, -49)%Z, [21153; 21209; 21494; 21496; 27663; 27807; 27833; 28317; 28784; 29579; 32380; 32487;
     33328; 33382; 33865; 37122]%N);
   ((-3210208212620929, -49)%Z, [21160; 21205]%N);
   ((-2224329616111953, -48)%Z, [21202; 21450; 23453; 23542; 26223; 30431; 35299]%N);
   ((-5044359189126485, -50)%Z, [21270]%N);
   ((-69950196814953, -43)%Z, [21271; 22303; 23621; 24517; 24535; 26354; 28330; 31934; 36827; 36914; 38517]%N);
   ((-6656540751537555, -50)%Z, [21305]%N);
   ((-7580882678632583, -50)%Z, [21307; 24687; 37291]%N);
   ((-8076448272586849, -50)%Z, [21313; 26391; 35336; 35745; 36667; 36752]%N);
   ((-6912479105456849, -50)%Z, [21320; 31859]%N);
   ((-1718852273358571, -48)%Z, [21326; 33775]%N);
   ((-869461990135517, -47)%Z, [21327; 21332]%N);
   ((-3134846567686341, -49)%Z, [21335]%N);
   ((-3825637171366817, -49)%Z, [21345]%N);
   ((-7296033926566179, -50)%Z, [21355; 24314; 34907]%N);
   ((-1019858497294655, -47)%Z, [21410; 24258; 32025; 32440; 37509; 38108]%N);
   ((-4624510546618383, -49)%Z, [21453; 28201; 28331; 31649; 38917; 39033]%N);
   ((-197112111701153, -45)%Z, [21457; 30332]%N);
   ((-4253388250544783, -49)%Z, [21464; 32080; 32467; 35722; 38597]%N);
   ((-8546285814796059, -50)%Z, [21472; 21619; 26262; 30090]%N);
   ((-8629723973740231, -50)%Z, [21475; 29190; 35029]%N);
   ((-2958119520753187, -49)%Z, [21476; 23398; 23416]%N);
   ((-1751436039105407, -48)%Z, [21512]%N);
   ((-7572385280510783, -50)%Z, [21513; 32033; 32442; 39165; 39281]%N);
   ((-1199778062265105, -47)%Z, [21555; 21556; 23394; 24565; 29287; 33707; 38596; 40251; 40511]%N);
   ((-6329828295780815, -50)%Z, [21566]%N);
   ((-3227198389639743, -49)%Z, [21629]%N);
   ((-7660390990980225, -50)%Z, [21704; 24503]%N);
   ((-4750129198436983, -49)%Z, [21746; 24651; 24685; 25088; 26364; 27969; 28193; 28388; 28670; 32013; 32435; 34989;
     35186; 37038; 37109; 40201; 40486]%N);
   ((-6990494714634549, -50)%Z, [21776; 24030; 24076; 32599; 32645]%N);
   ((-6641627951973597, -50)%Z, [21830]%N);
   ((-6630571562893247, -50)%Z, [22235]%N);
   ((-4653044717465429, -50)%Z, [22269; 22283]%N);
   ((-814039121314115, -47)%Z, [22320]%N);
   ((-8767761916762677, -50)%Z, [22374; 24072; 24107; 25705; 26448; 27784; 29699; 29992; 31068]%N);
   ((-3063681854577043, -49)%Z, [22522]%N);
   ((-3893079251221149, -49)%Z, [22609; 30000; 32113; 32479; 34903]%N);
   ((-7893468225005141, -50)%Z, [22612; 26216]%N);
   ((-8870187033369813, -50)%Z, [22622; 27604]%N);
   ((-2941828768326369, -49)%Z, [22763]%N);
   ((-7927762243874675, -50)%Z, [22799]%N);
   ((-913768399758371, -48)%Z, [22823]%N);
   ((-6569890322491877, -50)%Z, [22826]%N);
   ((-2975898365267875, -49)%Z, [22827]%N);
   ((-2352534579940225, -48)%Z, [22836; 24680; 25910; 27668; 27683; 31243; 32610; 32631; 35302; 35320; 38505; 38570;
     38957; 39592]%N);
   ((-2231279968665753, -48)%Z, [22919; 23142; 28010; 36628; 36741]%N);
   ((-7987347570742007, -50)%Z, [22982; 36093; 36187]%N);
   ((-7371350139329619, -50)%Z, [23376]%N);
   ((-7849309627719561, -50)%Z, [23388]%N);
   ((-4304138806398603, -49)%Z, [23425; 23527; 24247; 40575]%N);
   ((-2489192881080221, -48)%Z, [23431; 24231; 24375; 24378; 24494; 25286; 26071; 26143; 26607; 31264; 33437; 35527;
     35848; 36646; 36743; 37027; 37675; 38177]%N);
   ((-1630565519284727, -48)%Z, [23433]%N);
   ((-7467386677281863, -50)%Z, [23454; 23526]%N);
   ((-2440821334014069, -48)%Z, [23459; 24615; 26114; 26928; 27946; 30952; 32034; 32039; 32202; 35013; 35037; 35282;
     36554; 36710; 36879; 38518; 38534; 39423; 39567; 40643; 40644]%N);
   ((-4058452059213571, -49)%Z, [23466; 25010]%N);
   ((-6479770245378811, -50)%Z, [23478]%N);
   ((-4732398591736641, -50)%Z, [23572; 29246]%N);
   ((-3111386925188701, -49)%Z, [23612]%N);
   ((-7407324442575345, -50)%Z, [23646; 23660; 24198; 24950]%N);
   ((-2799826818770405, -49)%Z, [23665]%N);
   ((-3919267691855971, -49)%Z, [23777; 23805; 39387; 39542]%N);
   ((-264643960850503, -45)%Z, [24029; 25096; 25937; 26080; 28961; 29790]%N);
   ((-3722243114347039, -49)%Z, [24037]%N);
   ((-7159015358811957, -50)%Z, [24052; 34701]%N);
   ((-6726206262819599, -50)%Z, [24179; 26376]%N);
   ((-440798270905495, -46)%Z, [24191; 24291]%N);
   ((-1585988801291249, -48)%Z, [24230]%N);
   ((-239674439427137, -45)%Z, [24646; 24658]%N);
   ((-732883367443925, -47)%Z, [25104]%N);
   ((-7589902607729591, -51)%Z, [25112; 25136]%N);
   ((-5929933909478177, -50)%Z, [25163]%N);
   ((-1936485879142005, -48)%Z, [25176]%N);
   ((-1456641949581659, -48)%Z, [25289]%N);
   ((-6898434433858785, -50)%Z, [25351]%N);
   ((-525854619120181, -46)%Z, [25511; 27941; 32340; 32455; 32932; 33178]%N);
   ((-3101266204004393, -49)%Z, [25918]%N);
   ((-123512248393849, -44)%Z, [25919; 32000; 32426]%N);
   ((-3293700391424091, -49)%Z, [25991]%N);
   ((-7860187972315007, -50)%Z, [26007; 30334; 39717]%N);
   ((-7479755502932779, -51)%Z, [26031]%N);
   ((-3039576339157413, -49)%Z, [26032]%N);
   ((-3413176114519729, -49)%Z, [26041]%N);
   ((-3868055133552403, -49)%Z, [26063]%N);
   ((-286740378854973, -46)%Z, [26085]%N);
   ((-1775462700600959, -48)%Z, [26102; 26178]%N);
   ((-8817810152100169, -50)%Z, [26118; 26725; 27211; 35542; 35770]%N);
   ((-241448817345903, -45)%Z, [26124; 32752]%N);
   ((-8187738788596015, -50)%Z, [26126]%N);
   ((-3935586224388567, -49)%Z, [26131; 28911]%N);
   ((-882265129711409, -47)%Z, [26222]%N);
   ((-65872567880893, -43)%Z, [26412; 28145; 33796; 36923; 37007]%N);
   ((-6903096551935725, -50)%Z, [26426; 27231]%N);
   ((-8217369443578895, -50)%Z, [26435; 27402; 33104; 36031; 36152]%N);
   ((-418906389460315, -46)%Z, [26477]%N);
   ((-5675551631989263, -50)%Z, [26519]%N);
   ((-3276324013381181, -49)%Z, [26681]%N);
   ((-3367109909558759, -49)%Z, [26684; 29702]%N);
   ((-7176746432455309, -50)%Z, [27004; 27155; 32173; 32500]%N);
   ((-8552223961437567, -51)%Z, [27425]%N);
   ((-870075226349141, -47)%Z, [27491]%N);
   ((-1049492854034943, -47)%Z, [27493; 31163; 38626]%N);
   ((-1291094968684703, -48)%Z, [27665]%N);
   ((-4263178931294345, -49)%Z, [27682; 27691; 29926; 33457; 36291; 36493]%N);
   ((-7063495271794223, -50)%Z, [27687]%N);
   ((-488580709936961, -46)%Z, [27695; 36092; 36141]%N);
   ((-7939429704832627, -50)%Z, [27696; 38598]%N);
   ((-6738248087839801, -50)%Z, [27700]%N);
   ((-3777790246161131, -49)%Z, [27721; 28450; 33713; 33802]%N);
   ((-3224070881854495, -49)%Z, [27743]%N);
   ((-8050263373642649, -50)%Z, [27818; 28396]%N);
   ((-1713211303470389, -48)%Z, [27835]%N);
   ((-4663350080408365, -49)%Z, [27850; 28070; 28516; 30717; 30789; 30897; 31995; 40572]%N);
   ((-4072352764321171, -49)%Z, [27880]%N);
   ((-3981566868143593, -49)%Z, [27888; 35041; 35910; 37324]%N);
   ((-3765417221647545, -49)%Z, [27915; 37325; 38272; 38376]%N);
   ((-6722220772262061, -50)%Z, [27982; 28639]%N);
   ((-7999652610236077, -50)%Z, [27986; 28408]%N);
   ((-6210080368613879, -50)%Z, [28023]%N);
   ((-3769511421173095, -49)%Z, [28286; 28771]%N);
   ((-7422042297994267, -50)%Z, [28304]%N);
   ((-519453049332235, -46)%Z, [29028]%N);
   ((-6396332086434639, -50)%Z, [29255]%N);
   ((-6245989103918123, -50)%Z, [29305]%N);
   ((-8089772687349143, -50)%Z, [29664; 33576]%N);
   ((-465754254681233, -46)%Z, [29677]%N);
   ((-5947789965072797, -50)%Z, [29756; 29898]%N);
   ((-6714291866910149, -50)%Z, [29983; 39340; 39532]%N);
   ((-7118697499356645, -50)%Z, [30002]%N);
   ((-5451330865822447, -50)%Z, [30005; 38651]%N);
   ((-8681839606313835, -51)%Z, [30028]%N);
   ((-4868753861765597, -50)%Z, [30563]%N);
   ((-5898872631803649, -50)%Z, [31185]%N);
   ((-237711455470629, -45)%Z, [31206]%N);
   ((-4521872634713525, -49)%Z, [31958; 36650; 36718; 37255; 38935; 39047]%N);
   ((-803697819225867, -47)%Z, [32147; 32463]%N);
   ((-1910557730341985, -48)%Z, [32852; 32879]%N);
   ((-3882935734387695, -49)%Z, [32858]%N);
   ((-4852761778199387, -50)%Z, [32929]%N);
   ((-3689226816168285, -49)%Z, [33021]%N);
   ((-7085252468769271, -50)%Z, [33098; 33240]%N);
   ((-3446895770532815, -49)%Z, [33258]%N);
   ((-7079773626294337, -50)%Z, [33777]%N);
   ((-3565035161193429, -49)%Z, [33832; 34217]%N);
   ((-1848199125068161, -48)%Z, [34255; 35657; 35777]%N);
   ((-4243764940081401, -49)%Z, [34880]%N);
   ((-948680587046497, -47)%Z, [34892]%N);
   ((-1374323086412483, -48)%Z, [34920]%N);
   ((-6605187881167825, -50)%Z, [35199]%N);
   ((-3430908287673635, -49)%Z, [35352; 35760]%N);
   ((-5608495828852125, -50)%Z, [35997; 36125]%N);
   ((-6950811315128429, -50)%Z, [36215]%N);
   ((-7916214451291905, -50)%Z, [36317; 38263; 38271]%N);
   ((-5677123020809367, -50)%Z, [36798; 36948]%N);
   ((-1214137216302593, -48)%Z, [36816; 36939]%N);
   ((-7016026418814759, -50)%Z, [36842]%N);
   ((-8024673637871733, -50)%Z, [37117; 37232]%N);
   ((-776575955274149, -47)%Z, [37240]%N);
   ((-2982966888042641, -49)%Z, [37329]%N);
   ((-3247962018102483, -49)%Z, [37628; 38050]%N);
   ((-5206028192141371, -50)%Z, [37941; 38081]%N);
   ((-3267832902880871, -49)%Z, [38451; 38525]%N);
   ((-7282865356486375, -50)%Z, [38469; 38555]%N);
   ((-928684250941283, -47)%Z, [38754]%N);
   ((-2381699050055821, -49)%Z, [38761]%N);
   ((-1926778883535533, -48)%Z, [39080; 39118]%N);
   ((-8202456644014937, -50)%Z, [39321]%N);
   ((-6261736212454561, -50)%Z, [39640]%N);
   ((-3442281400817017, -49)%Z, [39854; 40092]%N);
   ((-1829020037945603, -48)%Z, [40845; 40857]%N)];
  (* ('M', 'o') *)
  [
   ((-2751137460878463, -49)%Z, [19969; 22047; 22163]%N);
   ((-4660986296344813, -50)%Z, [20050; 20051; 36703; 36720]%N);
   ((-7976129868692099, -50)%Z, [20799; 20818; 21684; 21714; 22112]%N);
   ((-6739202395224513, -50)%Z, [20908]%N);
   ((-5178373703183173, -50)%Z, [21128]%N);
   ((-3082031936506779, -49)%Z, [21485; 21799; 37847; 37848; 38143; 38197]%N);
   ((-312800966695371, -46)%Z, [21486]%N);
   ((-455156130324549, -47)%Z, [21501; 22064]%N);
   ((-7330925754102427, -51)%Z, [21553]%N);
   ((-4307839280049437, -50)%Z, [21568]%N);
   ((-7195715522671429, -50)%Z, [21617]%N);
   ((-8530694896578679, -51)%Z, [21628; 21735]%N);
   ((-8448802242210531, -51)%Z, [21653]%N);
   ((-8703995754670035, -51)%Z, [21658]%N);
   ((-8891754446143767, -51)%Z, [21679]%N);
   ((-8991850916818751, -51)%Z, [21695; 28404; 31572]%N);
   ((-1265480260095381, -49)%Z, [21704]%N);
   ((-8011601765066513, -51)%Z, [21719; 22057]%N);
   ((-1256614723273705, -49)%Z, [21862]%N);
   ((-2987473647637679, -50)%Z, [21866; 21939]%N);
   ((-6415301176650759, -50)%Z, [21895; 25289; 38646]%N);
   ((-3880571950324143, -50)%Z, [22017; 22140]%N);
   ((-1213618121152355, -48)%Z, [22030]%N);
   ((-1046222951849693, -48)%Z, [22108; 22165]%N);
   ((-4548302339679019, -50)%Z, [24403; 30070]%N);
   ((-3741395008816251, -50)%Z, [35041; 37324]%N);
   ((-5895928667862371, -51)%Z, [38534]%N)];
  (* ('M', 'p') *)
  [
   ((-5740840160890957, -51)%Z, [20043]%N);
   ((-1465392766132139, -54)%Z, [20511]%N)];
  (* ('M', 'q') *)
  [
   ((-8694297158395263, -50)%Z, [19968; 20061; 20843]%N);
   ((-3433150675906605, -51)%Z, [20844]%N);
   ((-83684679514715, -43)%Z, [20998; 22763; 25597; 25900; 27861]%N);
   ((-7018506445533073, -52)%Z, [21315]%N);
   ((-5214092748112539, -50)%Z, [21400]%N);
   ((-1864342421231919, -48)%Z, [23567; 24335]%N);
   ((-3110221105730045, -49)%Z, [23572; 29246]%N);
   ((-4449786491102489, -49)%Z, [24494]%N);
   ((-7823762735261527, -50)%Z, [24503; 27663]%N);
   ((-351816648852073, -49)%Z, [26041]%N);
   ((-2368677876103983, -48)%Z, [26684; 35041; 37324]%N);
   ((-7283811448870439, -50)%Z, [27627]%N);
   ((-4118892015474173, -49)%Z, [27742; 31859]%N);
   ((-4965612315931425, -49)%Z, [28023]%N);
   ((-1448019511959299, -48)%Z, [29926]%N);
   ((-1646708815448485, -48)%Z, [33521]%N);
   ((-6199782917942925, -50)%Z, [36335]%N)];
  (* ('M', 'qe') *)
  [
];
  (* ('M', 'qg') *)
  [
];
  (* ('M', 'r') *)
  [
   ((-4711028964399731, -50)%Z, [19968]%N);
   ((-2352692672013779, -49)%Z, [20010; 20491]%N);
   ((-6624066549794325, -52)%Z, [20040; 40636]%N);
   ((-3544626009689613, -52)%Z, [20160]%N);
   ((-4302679720541933, -50)%Z, [20182]%N);
   ((-1212328231275479, -48)%Z, [20249; 22821]%N);
   ((-1347315252377275, -49)%Z, [20250; 26371]%N);
   ((-6517001087022449, -51)%Z, [20309]%N);
   ((-1992742577296149, -48)%Z, [21475]%N);
   ((-6222055438783317, -50)%Z, [23478]%N);
   ((-6734042835717009, -50)%Z, [26089]%N);
   ((-674366334015943, -48)%Z, [26102; 26178]%N);
   ((-7873004207937723, -50)%Z, [28857; 40670]%N);
   ((-4554965840702655, -49)%Z, [35377; 35768]%N);
   ((-6667794322222615, -50)%Z, [38272; 38376]%N);
   ((-2472586506856495, -48)%Z, [38453; 38499]%N)];
  (* ('M', 'rg') *)
  [
];
  (* ('M', 'rr') *)
  [
   ((0, 0)%Z, [20182]%N)];
  (* ('M', 'rz') *)
  [
];
  (* ('M', 's') *)
  [
   ((-2622524753007017, -50)%Z, [20013]%N);
   ((-612721999133485, -47)%Z, [20043]%N);
   ((-2278973411143379, -49)%Z, [20302]%N);
   ((-6695748817069517, -53)%Z, [20839; 20869]%N);
   ((-680215909932371, -47)%Z, [21069]%N);
   ((-8890525731241927, -51)%Z, [21271]%N);
   ((-1276762954219399, -48)%Z, [21335; 21518; 24460; 27969]%N);
   ((-1629384381600605, -48)%Z, [21512; 30333]%N);
   ((-4555008934050815, -49)%Z, [21516; 36807; 36942; 36947; 38517]%N);
   ((-4683175754495871, -50)%Z, [22320]%N);
   ((-3111070812739819, -49)%Z, [22359; 22602]%N);
   ((-5629813457818907, -50)%Z, [23506]%N);
   ((-3648975936211545, -49)%Z, [23556; 27743; 39080; 39118]%N);
   ((-1968272598658511, -48)%Z, [23665; 36884]%N);
   ((-6138703466535467, -50)%Z, [23700; 24418; 36335]%N);
   ((-413490917740463, -47)%Z, [24213]%N);
   ((-5988360484018951, -50)%Z, [25152; 31350]%N);
   ((-619588604295135, -47)%Z, [27849]%N);
   ((-6289285677365079, -51)%Z, [28023]%N);
   ((-2269182730393817, -49)%Z, [33050; 33139]%N);
   ((-6919117812556137, -50)%Z, [33853]%N);
   ((-5399235447698871, -50)%Z, [35199]%N);
   ((-2586650165185995, -49)%Z, [35282]%N);
   ((-5655601153633465, -51)%Z, [36828; 36960]%N);
   ((-3546338024306687, -49)%Z, [37066]%N);
   ((-4219327748294083, -50)%Z, [38272; 38376]%N);
   ((-6410227803839577, -50)%Z, [38452; 38512]%N)];
  (* ('M', 't') *)
  [
   ((-940490143603653, -48)%Z, [19968]%N);
   ((-4553264956072235, -50)%Z, [19977]%N);
   ((-7255489399459629, -50)%Z, [19978]%N);
   ((-780686292300603, -47)%Z, [19979]%N);
   ((-5143910862415337, -50)%Z, [19981]%N);
   ((-2865932818623345, -48)%Z, [19985; 21033; 21153; 21209; 21494; 22307; 26579; 26641; 27193; 27491; 27602; 29579;
     30410; 31105; 31461; 32854; 33865; 35013; 35037; 35426; 35810; 37276]%N);
   ((-7562788129945085, -51)%Z, [19990]%N);
   ((-4825832639407419, -49)%Z, [19994; 20013; 21382; 22899; 22919; 23142; 26524; 26989; 27511; 31036; 31150]%N);
   ((-4986910276334171, -50)%Z, [20010; 20491]%N);
   ((-308408337191533, -46)%Z, [20037]%N);
   ((-5341658464236355, -49)%Z, [20048; 20633; 21171; 21214; 22791; 24433; 25103; 25138; 27138; 27494; 29699; 32034;
     36784; 38598; 38931; 39039]%N);
   ((-4723194727502561, -49)%Z, [20061; 20891; 31319; 36557]%N);
   ((-4494938163779103, -49)%Z, [20064; 32722]%N);
   ((-4833444129798807, -50)%Z, [20108]%N);
   ((-749008617643743, -47)%Z, [20116]%N);
   ((-5350831536637167, -50)%Z, [20123]%N);
   ((-39948452347757, -42)%Z, [20135; 21106; 21326; 21517; 22278; 22291; 22320; 22836; 26085; 26757; 27665; 27827;
     29986; 33775; 36008; 36135; 36234; 38957]%N);
   ((-2085518472602675, -48)%Z, [20146; 35242]%N);
   ((-917365944800475, -47)%Z, [20154; 25308]%N);
   ((-3128237407433475, -49)%Z, [20239]%N);
   ((-7885560762963783, -50)%Z, [20241; 26377]%N);
   ((-2821141913074323, -49)%Z, [20551; 22810; 26411]%N);
   ((-5247118941437087, -50)%Z, [20799; 20818]%N);
   ((-8592831134564685, -52)%Z, [20803]%N);
   ((-1237862822806505, -47)%Z, [20840; 23388; 24314; 25106; 36424; 38469; 38555]%N);
   ((-4561244118215685, -49)%Z, [20843; 20912; 21578; 22441; 22538; 26097]%N);
   ((-3601556259094993, -49)%Z, [20908]%N);
   ((-1732897045221469, -48)%Z, [20923; 20941; 21270]%N);
   ((-885241395425299, -47)%Z, [20934; 28310]%N);
   ((-1578266152491123, -48)%Z, [21021]%N);
   ((-363423523351255, -46)%Z, [21049; 21070]%N);
   ((-5610743951269529, -50)%Z, [21051]%N);
   ((-8148587702146093, -50)%Z, [21069; 36649; 36744]%N);
   ((-1938237213522655, -48)%Z, [21160; 21205; 32946]%N);
   ((-8391647626756191, -51)%Z, [21271]%N);
   ((-6384954976325893, -50)%Z, [21320]%N);
   ((-3698564826070903, -51)%Z, [21322]%N);
   ((-3919799641568149, -49)%Z, [21365]%N);
   ((-5396175915924763, -50)%Z, [21472; 30090]%N);
   ((-198016303327111, -45)%Z, [21476]%N);
   ((-8035903745480299, -50)%Z, [21518; 24460; 32147; 32463]%N);
   ((-8273816634355207, -50)%Z, [21830; 24773; 25995; 30496; 40779]%N);
   ((-314415002565421, -46)%Z, [22120; 37027]%N);
   ((-4618335056525877, -50)%Z, [22235]%N);
   ((-8665975108984453, -50)%Z, [22659]%N);
   ((-7460765223269345, -50)%Z, [22797]%N);
   ((-32068210865381, -42)%Z, [22805]%N);
   ((-7177810331879665, -50)%Z, [22812]%N);
   ((-1380275617840263, -48)%Z, [22823]%N);
   ((-1764796234278907, -48)%Z, [22914]%N);
   ((-5749593548711489, -50)%Z, [23072]%N);
   ((-1918123303300013, -48)%Z, [23381; 38670]%N);
   ((-8575855031871387, -50)%Z, [23384; 37509; 38108]%N);
   ((-3080635829781649, -49)%Z, [23477]%N);
   ((-530776054557951, -46)%Z, [23572; 29246; 29298; 37030]%N);
   ((-4636415609473943, -49)%Z, [24029; 37247; 37312]%N);
   ((-4381970605115663, -49)%Z, [24072; 24107; 24403; 26202; 30070]%N);
   ((-6505046696471189, -51)%Z, [24180]%N);
   ((-5123550453929617, -50)%Z, [24198; 24950]%N);
   ((-8871250932794169, -50)%Z, [24615; 25226]%N);
   ((-3174218051188501, -49)%Z, [24681; 28845]%N);
   ((-7228996414617531, -50)%Z, [24687]%N);
   ((-1316319752762343, -48)%Z, [25918]%N);
   ((-3780829772195015, -49)%Z, [25972]%N);
   ((-5763755998426387, -50)%Z, [26032]%N);
   ((-3244279522911393, -49)%Z, [26086]%N);
   ((-4558138989254721, -50)%Z, [26102; 26178]%N);
   ((-758018893246159, -47)%Z, [26126]%N);
   ((-7368173356125423, -50)%Z, [26131; 27963]%N);
   ((-249485214506583, -45)%Z, [26143]%N);
   ((-5822257463648041, -50)%Z, [26149]%N);
   ((-8965157146123759, -51)%Z, [26376]%N);
   ((-7911947421589743, -51)%Z, [26399]%N);
   ((-6018561925992043, -50)%Z, [27700]%N);
   ((-5164646253388301, -50)%Z, [28165]%N);
   ((-6746599390743069, -50)%Z, [28982]%N);
   ((-2445515553928449, -49)%Z, [29983]%N);
   ((-6911660228678507, -50)%Z, [30041]%N);
   ((-6324732070922443, -50)%Z, [30406]%N);
   ((-5924325208436007, -50)%Z, [30524]%N);
   ((-7933478628873163, -50)%Z, [30636; 34892; 35109]%N);
   ((-5080012871500841, -50)%Z, [30707]%N);
   ((-5701382517872229, -50)%Z, [31179]%N);
   ((-7720072302153389, -51)%Z, [32000; 32426]%N);
   ((-5974747062461793, -50)%Z, [32599; 32645]%N);
   ((-5661640748315453, -50)%Z, [35477; 35806]%N);
   ((-1605674543042329, -48)%Z, [37329]%N);
   ((-6171460868532115, -50)%Z, [38451; 38525]%N);
   ((-3381894518096423, -49)%Z, [38453; 38499]%N);
   ((-2500649484687413, -49)%Z, [38454; 38542]%N);
   ((-4917602250340681, -50)%Z, [38684]%N)];
  (* ('M', 'tg') *)
  [
];
  (* ('M', 'u') *)
  [
   ((0, 0)%Z, [20010; 20491]%N)];
  (* ('M', 'ud') *)
  [
];
  (* ('M', 'ug') *)
  [
];
  (* ('M', 'uj') *)
  [
];
  (* ('M', 'ul') *)
  [
];
  (* ('M', 'uv') *)
  [
];
  (* ('M', 'uz') *)
  [
];
  (* ('M', 'v') *)
  [
   ((-3550533690321383, -49)%Z, [19968]%N);
   ((-775220437223303, -46)%Z, [19977; 20105; 20250; 20837; 20855; 21147; 21191; 21313; 21482; 21809; 21839; 21971;
     22068; 22278; 22291; 22766; 22767; 22871; 22909; 23637; 24503; 25954; 26007; 26371; 26538; 27085; 27463; 27880;
     27934; 28385; 28415; 28779; 29229; 29255; 29287; 29492; 29730; 30452; 30900; 31181; 31185; 31278; 31435; 31579;
     31721; 32147; 32463; 33109; 33293; 33756; 34109; 34321; 34503; 35598; 35868; 36027; 36036; 36153; 36159; 36255;
     37228; 37467; 37586; 37666; 38065; 38085; 38155; 38281; 38381; 38382; 38404; 38706; 39003; 39072; 39151; 39201;
     39277; 39301; 39438; 39569; 39717; 39726]%N);
   ((-4550961839373903, -50)%Z, [19978]%N);
   ((-2660968410109903, -49)%Z, [19979]%N);
   ((-900218430947047, -49)%Z, [19981]%N);
   ((-1109159293744079, -47)%Z, [19990; 22659; 24863; 33292]%N);
   ((-1404751264249197, -48)%Z, [19994; 26989]%N);
   ((-5811556324776089, -49)%Z, [20004; 20249; 20284; 20498; 20841; 21488; 21531; 21981; 22266; 22821; 22899; 23494;
     23500; 24405; 24418; 25215; 25311; 25346; 25499; 25836; 25919; 26085; 26174; 26519; 26631; 26690; 27161; 27494;
     28389; 28526; 28651; 31291; 31890; 32085; 32477; 32650; 32972; 33067; 33073; 34913; 35422; 35492; 35789; 35823;
     36024; 36151; 36523; 36864; 36941; 37070; 37636; 38477; 39023; 40778; 40784]%N);
   ((-292329172700835, -45)%Z, [20010; 20491; 20851; 26102; 26178; 27611; 30933; 31232; 33394; 38364; 39640]%N);
   ((-4851868465655397, -49)%Z, [20011; 20462; 20809; 20844; 23556; 31036; 31150; 32026; 32423; 37707; 38149; 38263;
     38271; 38646; 39138; 39269]%N);
   ((-2358053148501671, -48)%Z, [20013; 20803; 21010; 21123; 25042; 25078; 28982; 30830; 30906; 33509; 36454]%N);
   ((-2710674575882877, -48)%Z, [20016; 20351; 20799; 20813; 20818; 20908; 21355; 21450; 21507; 21713; 21767; 21854;
     22622; 23610; 25196; 25490; 25562; 25928; 26159; 26495; 26723; 27284; 27700; 27721; 28450; 29420; 29544; 32852;
     32879; 34180; 34907; 35920; 36066; 36132; 36991; 39108; 39128; 40613; 40614; 40643; 40644]%N);
   ((-3644115911728235, -49)%Z, [20027; 22320; 24651; 25088]%N);
   ((-2791649880526315, -48)%Z, [20030; 20805; 20889; 20914; 21170; 21185; 21187; 21380; 21463; 23401; 23481; 23531;
     23617; 25139; 26029; 26039; 27807; 27900; 27982; 28078; 28317; 28497; 28639; 28866; 29211; 29467; 29616; 29694;
     29699; 30137; 30240; 31070; 31505; 33151; 33289; 34909; 35215; 35268; 35299; 36575; 36719; 36947; 38452; 38454;
     38512; 38542]%N);
   ((-1189456344118857, -47)%Z, [20037; 20048; 22534; 22914; 24217; 24287; 24459; 25512; 25633; 26379; 26415; 27138;
     27645; 27915; 30457; 30772; 32025; 32299; 32440; 32541; 34899; 35910; 38290; 38386]%N);
   ((-5031141978755419, -49)%Z, [20041; 21069; 21322; 21334; 21548; 21916; 22522; 25474; 25794; 26497; 26997; 31471;
     32160; 32511; 32681; 32893; 33580; 35282; 35527; 35848; 36067; 36600; 36724; 37941; 38081; 39208; 39302; 39592;
     39740]%N);
   ((-4822390432819217, -50)%Z, [20043]%N);
   ((-2230830646322531, -48)%Z, [20081; 20098; 25103; 25138]%N);
   ((-8307969077204891, -50)%Z, [20102; 24819; 29275; 32227; 32536; 39340; 39532]%N);
   ((-7061208354274091, -50)%Z, [20107; 32000; 32426]%N);
   ((-210848137036361, -45)%Z, [20122; 20126]%N);
   ((-6027600318534325, -50)%Z, [20132]%N);
   ((-8537201121944259, -50)%Z, [20135; 20998; 23614; 29986; 40763]%N);
   ((-3545484777972337, -49)%Z, [20154]%N);
   ((-603470583365271, -47)%Z, [20160]%N);
   ((-5295730499947153, -49)%Z, [20174; 20742; 21351; 21457; 21892; 21912; 22475; 23452; 23618; 23652; 24237; 24478;
     25216; 26031; 26045; 26465; 26550; 26781; 27927; 30332; 31207; 31572; 32004; 32422; 32963; 33253; 35352; 35672;
     35760; 35782; 36305; 36895; 38291; 38388; 38480; 38622; 40481; 40635]%N);
   ((-8117606052959133, -50)%Z, [20195; 21566; 25903; 26684; 35519; 35843]%N);
   ((-2452761663468409, -48)%Z, [20221; 21496; 26432; 27578; 27745; 27969; 32178; 32210; 32490; 32593; 34255; 35486;
     35821; 36346; 36530; 37202; 37492; 37969; 38656]%N);
   ((-4515316153926483, -49)%Z, [20239; 24037; 24726; 26681; 33136]%N);
   ((-7954822060909515, -50)%Z, [20241; 30896; 32173; 32500]%N);
   ((-3915937294129425, -49)%Z, [20247; 25163; 30526]%N);
   ((-2840241923209925, -49)%Z, [20248; 20778]%N);
   ((-7455817101702501, -50)%Z, [20303; 22806]%N);
   ((-3609283156087213, -49)%Z, [20307; 39636]%N);
   ((-7264527792001911, -50)%Z, [20316]%N);
   ((-3506645244182355, -49)%Z, [20358; 26469]%N);
   ((-8975699466559767, -50)%Z, [20415; 21453; 22007; 26426; 27231; 27515; 27542; 27714; 30031; 31179; 32302; 32553;
     35336; 35745; 36319]%N);
   ((-3956165114574709, -49)%Z, [20439; 24604; 24976]%N);
   ((-4964836024318837, -49)%Z, [20540; 20811; 22120; 22307; 23475; 24125; 24433; 24618; 25195; 25286; 25454; 25475;
     25818; 27178; 27243; 27493; 27905; 28500; 30861; 31001; 31481; 32340; 32455; 32854; 33853; 36074; 36136;
     38752]%N);
   ((-2636444026121041, -49)%Z, [20542; 20670]%N);
   ((-6569357379020347, -50)%Z, [20570]%N);
   ((-3157796400901917, -49)%Z, [20572]%N);
   ((-1878209218941325, -48)%Z, [20853; 24448; 30442; 33633]%N);
   ((-4287059590203025, -49)%Z, [20854; 21095; 21127; 23545; 23565; 25439; 25613; 36974]%N);
   ((-4606806177717337, -49)%Z, [20859; 24120; 36339; 39178]%N);
   ((-5193092588042295, -49)%Z, [20891; 21050; 23044; 23105; 23578; 23681; 24773; 25273; 25293; 25918; 27506; 28431;
     30011; 30059; 30333; 31038; 31105; 31243; 31561; 32676; 33510; 33889; 34382; 35676; 35889; 36470; 36557; 38663;
     39799; 40063]%N);
   ((-5683359709814459, -50)%Z, [20915; 27770]%N);
   ((-4184421678298167, -49)%Z, [20919; 23467; 23470; 24367; 24398]%N);
   ((-3479178823535755, -49)%Z, [20934; 28310]%N);
   ((-3199709701508729, -49)%Z, [20986]%N);
   ((-7686395111822537, -50)%Z, [20992; 26399]%N);
   ((-3834731983549345, -49)%Z, [21015; 27665]%N);
   ((-1730792602812911, -48)%Z, [21029; 21035]%N);
   ((-3314034365906317, -50)%Z, [21033]%N);
   ((-3118788596313067, -49)%Z, [21046]%N);
   ((-3313887255164431, -49)%Z, [21048]%N);
   ((-7111256589611583, -50)%Z, [21151]%N);
   ((-6777166162069013, -50)%Z, [21152; 22788; 34389]%N);
   ((-6295576276264645, -50)%Z, [21160; 21205]%N);
   ((-266414788420601, -46)%Z, [21161]%N);
   ((-5106313470013677, -49)%Z, [21306; 21312; 21516; 21621; 22495; 25335; 26097; 30382; 35013; 35037; 35199; 36228;
     36244; 36779; 36782; 37096; 37336; 37782; 38025; 38145; 38604; 38665; 40692]%N);
   ((-4071454119634727, -49)%Z, [21333; 21934; 22836; 22987; 35937; 38957]%N);
   ((-8466809457843207, -50)%Z, [21378; 24288; 26041]%N);
   ((-4389697502107883, -49)%Z, [21407; 21702; 25943; 28009; 36133]%N);
   ((-4802885415031961, -49)%Z, [21464; 22256; 23700; 24515; 25443; 25623; 28357; 28781; 30634; 32842; 35722; 37679;
     38169; 38634; 39764; 40657]%N);
   ((-8168792135696999, -50)%Z, [21475; 28173; 28460; 32097; 32476; 38393; 39719]%N);
   ((-8195285120539097, -50)%Z, [21487; 24895; 27602; 27668; 27683; 39000]%N);
   ((-8825356484043251, -50)%Z, [21512; 24052; 25317; 25793; 32780; 34917; 35036]%N);
   ((-4544191711612781, -49)%Z, [21518; 24179; 24460; 24577; 24758; 24907; 27604; 33046; 37341; 38024; 38391]%N);
   ((-7276317427547021, -50)%Z, [21542]%N);
   ((-1948426208596345, -48)%Z, [21557; 30693; 39080; 39118]%N);
   ((-203952402182359, -46)%Z, [21619]%N);
   ((-2287314425654251, -48)%Z, [21628; 22797; 25674; 25892; 25955; 29486; 29563; 30701; 36681; 36716]%N);
   ((-4325899123993007, -49)%Z, [21629; 33945]%N);
   ((-7756786775923589, -50)%Z, [21676; 29282; 32113; 32479]%N);
   ((-7775094494858339, -50)%Z, [21697; 23450]%N);
   ((-1086593071896261, -47)%Z, [21704; 24377; 24392; 24565; 31192; 33145; 33258; 38761]%N);
   ((-7652783663393335, -50)%Z, [21943; 22132; 25240; 35542; 35770; 36807; 36942]%N);
   ((-8400560944348813, -50)%Z, [22199; 30465]%N);
   ((-3687680730405967, -49)%Z, [22240]%N);
   ((-269134029196235, -45)%Z, [22242; 22296; 24535; 25171; 26680; 27835; 31639; 32610; 32631; 38272; 38376]%N);
   ((-8337994854110353, -50)%Z, [22269; 22283; 37555; 37857; 38160; 38236]%N);
   ((-7891670935632253, -50)%Z, [22280; 35430; 35797]%N);
   ((-4046430001965981, -49)%Z, [22303; 24320; 25351; 35686; 38283]%N);
   ((-3048050968511541, -49)%Z, [22312]%N);
   ((-4710217204176171, -50)%Z, [22330; 22580]%N);
   ((-1828111414477823, -48)%Z, [22343; 36793; 37002]%N);
   ((-6880678579491547, -50)%Z, [22411; 25176; 32080; 32467]%N);
   ((-6214265802816999, -50)%Z, [22823]%N);
   ((-6855932530464375, -50)%Z, [22825]%N);
   ((-7349771725041017, -50)%Z, [22826]%N);
   ((-1631482214607953, -48)%Z, [22833]%N);
   ((-6815860688688801, -50)%Z, [23376]%N);
   ((-1934692998273045, -48)%Z, [23383; 23398; 23416]%N);
   ((-3714177383451127, -49)%Z, [23448]%N);
   ((-8735236406930185, -50)%Z, [23478; 29702]%N);
   ((-7071041603737305, -50)%Z, [23567]%N);
   ((-2697648619957625, -49)%Z, [24066]%N);
   ((-1466034976793795, -48)%Z, [24180]%N);
   ((-3700773179878067, -49)%Z, [24207; 27169]%N);
   ((-1160233701436271, -47)%Z, [24212; 25033; 25361; 27530; 30001; 30475; 32993; 33104; 33324; 36259]%N);
   ((-7442002205596427, -50)%Z, [24230]%N);
   ((-3341187147203569, -49)%Z, [24322; 30064]%N);
   ((-6808014664554995, -50)%Z, [24335]%N);
   ((-7931097429260523, -51)%Z, [24403; 30070]%N);
   ((-2035240702224759, -49)%Z, [24471]%N);
   ((-1732966165557353, -48)%Z, [24517]%N);
   ((-2891317726999661, -49)%Z, [24615]%N);
   ((-5712529732733291, -50)%Z, [24687]%N);
   ((-3362567563132859, -49)%Z, [24815; 24931; 32769]%N);
   ((-763055246808471, -47)%Z, [24847]%N);
   ((-7636346876485045, -50)%Z, [24871; 35469; 35748]%N);
   ((-7572899110471817, -50)%Z, [25104]%N);
   ((-1796321514871073, -48)%Z, [25226; 40801; 40836]%N);
   ((-1577638802481001, -48)%Z, [25307]%N);
   ((-2069680819870817, -48)%Z, [25513; 32922]%N);
   ((-4589531164123961, -50)%Z, [25622; 25671]%N);
   ((-7851455949757975, -50)%Z, [25670; 25850]%N);
   ((-6784799411014273, -50)%Z, [25968; 25976]%N);
   ((-7588429010575665, -50)%Z, [25991]%N);
   ((-8250217961832297, -50)%Z, [26063; 27426; 27489; 27743; 28216; 36208; 36938]%N);
   ((-8222416551617097, -50)%Z, [26126]%N);
   ((-7527554731184221, -50)%Z, [26376; 33041; 33126]%N);
   ((-808332160475591, -47)%Z, [26377]%N);
   ((-7620146598328143, -50)%Z, [26434; 38620]%N);
   ((-1329441703949505, -48)%Z, [26679; 27171]%N);
   ((-3851792378636157, -49)%Z, [26700; 27819]%N);
   ((-5715488735505681, -50)%Z, [26800]%N);
   ((-4656903198398151, -50)%Z, [27425]%N);
   ((-8433198009414005, -50)%Z, [27575; 29151; 31946; 33829]%N);
   ((-4233662609382721, -50)%Z, [27794; 27809]%N);
   ((-7324750697405361, -50)%Z, [27861]%N);
   ((-7498308933462599, -50)%Z, [27963; 28448]%N);
   ((-2576731506312115, -49)%Z, [28304]%N);
   ((-8603243885277269, -51)%Z, [28857; 40670]%N);
   ((-827641501716933, -47)%Z, [28909; 29105]%N);
   ((-5638204789848299, -50)%Z, [29609]%N);
   ((-4713862862753271, -50)%Z, [29983]%N);
   ((-2005431721120465, -48)%Z, [29992]%N);
   ((-152416352316013, -45)%Z, [30005; 38651]%N);
   ((-5473772840890193, -50)%Z, [30410]%N);
   ((-1770240372718917, -48)%Z, [30473; 36084; 36182]%N);
   ((-1603964047481437, -48)%Z, [30524]%N);
   ((-3598135267973209, -49)%Z, [30528; 33879; 37327]%N);
   ((-8044942138022581, -50)%Z, [30604]%N);
   ((-1722262405269505, -48)%Z, [31354; 34892]%N);
   ((-1870991516381631, -48)%Z, [32048; 32454]%N);
   ((-3224733819177475, -49)%Z, [33021]%N);
   ((-6949457206200877, -50)%Z, [33086]%N);
   ((-4250727632734749, -49)%Z, [33268]%N);
   ((-3415859348004777, -49)%Z, [34935]%N);
   ((-3111766260514035, -49)%Z, [35211; 35265]%N);
   ((-3202435856731811, -49)%Z, [35498; 35828]%N);
   ((-498542805122943, -46)%Z, [35657; 35777]%N);
   ((-1369640977888299, -48)%Z, [36215]%N);
   ((-2843121468892029, -49)%Z, [36275]%N);
   ((-3966687849983245, -49)%Z, [36629; 36731]%N);
   ((-7174407714888845, -50)%Z, [36816; 36939]%N);
   ((-3620656269230595, -49)%Z, [36827; 36914]%N);
   ((-5360178606331991, -50)%Z, [37806; 38215]%N);
   ((-5332429905552761, -50)%Z, [38469; 38555]%N);
   ((-7812627967332087, -50)%Z, [38754]%N)];
  (* ('M', 'vd') *)
  [
];
  (* ('M', 'vg') *)
  [
];
  (* ('M', 'vi') *)
  [
   ((0, 0)%Z, [21516]%N)];
  (* ('M', 'vn') *)
  [
   ((-8705133144603925, -50)%Z, [19979; 20316; 20439; 22320; 28448; 29992; 30005; 38651]%N);
   ((-2433587970254433, -50)%Z, [19994; 26989]%N);
   ((-6641829845288183, -50)%Z, [20013; 31435]%N);
   ((-861633393615673, -47)%Z, [20027]%N);
   ((-2371386872656149, -48)%Z, [20041; 21015; 21306; 21312; 21333; 21934; 26500; 27083; 32681; 32974]%N);
   ((-2113473960241681, -48)%Z, [20107; 24230; 25463; 31995; 37329]%N);
   ((-6170403918277309, -50)%Z, [20135; 29986]%N);
   ((-4514517181588839, -49)%Z, [20184; 20247; 20652; 20698; 20853; 20882; 24335; 24515; 24819; 26126; 26224; 28404;
     30526]%N);
   ((-3937058143874493, -51)%Z, [20195]%N);
   ((-4256428209940593, -50)%Z, [20250; 26371]%N);
   ((-5432166808844261, -51)%Z, [20307; 39636]%N);
   ((-5132980918322633, -49)%Z, [20572; 22242; 22253; 22256; 22290; 22296; 22823; 23432; 23500; 24213; 25918; 27530;
     28909; 29105; 30000; 30431; 32026; 32173; 32423; 32500; 34892; 39165; 39281]%N);
   ((-3357929897349461, -50)%Z, [20803]%N);
   ((-6838134307632185, -50)%Z, [20844; 25991; 27665; 31038]%N);
   ((-3866819906066021, -50)%Z, [20934; 28310]%N);
   ((-5358953141376565, -51)%Z, [20986]%N);
   ((-3042425696344757, -49)%Z, [21029; 21035; 22788; 34389]%N);
   ((-5980040894031551, -50)%Z, [21033]%N);
   ((-6687791325115669, -50)%Z, [21046; 24066]%N);
   ((-3163674388995583, -50)%Z, [21160; 21205]%N);
   ((-3836740747473027, -49)%Z, [21495; 34399]%N);
   ((-3505846271844711, -49)%Z, [21512; 35222; 35270]%N);
   ((-7144304452562585, -50)%Z, [21629; 26497; 26997]%N);
   ((-6597671248002603, -50)%Z, [22269; 22283]%N);
   ((-8248620017157009, -50)%Z, [22411; 23475; 32340; 32455]%N);
   ((-1599908990754169, -48)%Z, [22495]%N);
   ((-6514233089058431, -50)%Z, [23376; 36941]%N);
   ((-4647234252086691, -50)%Z, [23383]%N);
   ((-2791737880260623, -49)%Z, [24065; 24163; 36074; 36136; 38469; 38555]%N);
   ((-4419212201990211, -50)%Z, [24120]%N);
   ((-3147816425243211, -49)%Z, [24180]%N);
   ((-3100214847591385, -49)%Z, [24615]%N);
   ((-8316022234674125, -51)%Z, [24687]%N);
   ((-7924718798583255, -50)%Z, [26063; 29260]%N);
   ((-1769011799126773, -48)%Z, [26377; 30897; 36681; 36716; 40572]%N);
   ((-683326370023065, -47)%Z, [26391]%N);
   ((-4654919605523565, -50)%Z, [26412]%N);
   ((-7378085594023273, -50)%Z, [26684]%N);
   ((-1948026722427523, -48)%Z, [26696; 27169; 32080; 32467; 38745; 38748]%N);
   ((-3753953602666191, -50)%Z, [26800]%N);
   ((-4544809135479555, -50)%Z, [27668; 27683]%N);
   ((-1609138505369617, -48)%Z, [27861]%N);
   ((-8075061781099771, -50)%Z, [27963]%N);
   ((-249517133181473, -46)%Z, [29699]%N);
   ((-389454887354297, -46)%Z, [29702]%N);
   ((-670092971816877, -47)%Z, [30001]%N);
   ((-6735709191025049, -50)%Z, [31561]%N);
   ((-4594857370817047, -50)%Z, [31684; 33539]%N);
   ((-5774765070221835, -50)%Z, [32004; 32422]%N);
   ((-6329244298915625, -50)%Z, [33021]%N);
   ((-5375271716837717, -50)%Z, [35215; 35268]%N);
   ((-2442573570480799, -49)%Z, [36864]%N);
   ((-6057719961611515, -50)%Z, [37240]%N);
   ((-2965540505274779, -49)%Z, [38272; 38376]%N);
   ((-7294647435079101, -50)%Z, [40801; 40836]%N)];
  (* ('M', 'vq') *)
  [
];
  (* ('M', 'w') *)
  [
];
  (* ('M', 'x') *)
  [
];
  (* ('M', 'y') *)
  [
   ((0, 0)%Z, [21568]%N)];
  (* ('M', 'yg') *)
  [
];
  (* ('M', 'z') *)
  [
   ((-8328296404753771, -50)%Z, [19981; 20044; 22121; 23485; 23532; 27426; 27489; 27941; 28378; 28414; 28879;
     31070]%N);
   ((-5431512815540193, -49)%Z, [19995; 20998; 21474; 24530; 25196; 25380; 25384; 25562; 25824; 25958; 25991; 26103;
     26336; 26412; 26525; 26665; 26974; 28024; 28251; 30239; 30331; 30343; 31680; 31934; 32104; 32466; 32654; 33268;
     33410; 36879]%N);
   ((-7284855119550791, -50)%Z, [19997; 30196; 32114]%N);
   ((-6589684706569227, -50)%Z, [20005; 22196; 25758; 27754; 39108; 39128]%N);
   ((-163290971526839, -45)%Z, [20046]%N);
   ((-2457843495355629, -48)%Z, [20048; 20081; 20098; 21912; 21995; 22149; 22209; 22934; 24596; 24697; 25064; 26391;
     27138; 30149; 32039; 32202]%N);
   ((-7408705117225209, -50)%Z, [20142; 23458; 24794; 28779; 28866; 29211; 30772; 37030; 40669]%N);
   ((-7547882058733101, -50)%Z, [20146; 34028; 35242]%N);
   ((-2292396257541471, -48)%Z, [20174; 20307; 21033; 22024; 22604; 23481; 23637; 24248; 24478; 24515; 25153; 25277;
     25955; 27922; 28133; 28172; 28753; 30447; 33725; 38754; 39636]%N);
   ((-8019307985743975, -50)%Z, [20180; 22218; 24618; 29801; 31572; 33721; 39100; 39125]%N);
   ((-5041305642529859, -49)%Z, [20278; 20945; 21512; 21736; 21737; 21862; 22242; 22296; 24694; 24801; 24820; 28063;
     28234; 28451; 30250; 30303; 30353; 30362; 30385; 30394; 30528; 30566; 31800; 33030; 33879; 36947]%N);
   ((-3516808907956795, -49)%Z, [20302; 38393; 39719]%N);
   ((-3347865041615355, -49)%Z, [20358; 21534; 26469; 33592]%N);
   ((-3438129929006627, -49)%Z, [20415; 21047; 21741; 21884; 28363; 38543; 38568]%N);
   ((-45482187410551, -42)%Z, [20498; 20572; 20725; 21702; 21799; 22051; 22351; 22750; 22806; 23047; 23308; 23569;
     23692; 24213; 24443; 24505; 24591; 25733; 26946; 27225; 28052; 28070; 28516; 28982; 29701; 29807; 31896; 32189;
     32242; 32313; 32496; 32520; 32549; 33487; 33905; 33994; 34085; 34091; 34311; 36028; 36148; 36196; 36481; 38290;
     38386]%N);
   ((-2363134980388891, -48)%Z, [20581; 21038; 22949; 23853; 23940; 24247; 26580; 27769; 27958; 27969; 33589; 34013;
     34253; 36454; 37658; 38126; 39361; 39539]%N);
   ((-5203256251816735, -49)%Z, [20667; 20843; 20940; 20961; 24162; 24320; 24623; 25000; 26355; 26420; 26495; 27192;
     27788; 28151; 28487; 28703; 29030; 31961; 32399; 32544; 32780; 32823; 32933; 32960; 33081; 38283]%N);
   ((-8755563734479065, -50)%Z, [20809; 23068; 23273; 23396; 25423; 25720; 28287; 28629; 29245; 30095; 32323; 32503;
     34949; 35018; 35443; 35814]%N);
   ((-6926308093350747, -50)%Z, [20834; 24573; 24604; 24976]%N);
   ((-7741368246997707, -50)%Z, [20840; 20882; 21435]%N);
   ((-3745065471680253, -49)%Z, [20846; 25169; 25778]%N);
   ((-6782380512276389, -50)%Z, [20852; 31967; 33288]%N);
   ((-842277739373851, -47)%Z, [20912; 32982]%N);
   ((-2827884585726979, -49)%Z, [20914; 34909]%N);
   ((-6281708787543891, -50)%Z, [20919; 21387; 22739]%N);
   ((-1364700652440781, -48)%Z, [20928; 28136]%N);
   ((-8845683811592131, -50)%Z, [20932; 21187; 21476; 24037; 24822; 26197; 26248; 28114]%N);
   ((-8943649912839003, -50)%Z, [20937; 21029; 21035; 22836; 25302; 27900; 28092; 28145; 28418; 28497; 31354; 31998;
     32416; 32993; 36703; 36720; 38738; 38957]%N);
   ((-1767946892446765, -48)%Z, [20999; 26494; 29980; 31167; 31171; 32027; 32439]%N);
   ((-2113381334240721, -48)%Z, [21193; 22810; 24375; 24378; 24425; 25645; 26001; 26143; 30702; 30862; 33147; 33193;
     37057; 39729; 40643; 40644]%N);
   ((-8521782593018377, -50)%Z, [21220; 24691; 24808; 24920; 25031; 34394; 34395]%N);
   ((-1793322170373675, -48)%Z, [21246; 25402; 30495]%N);
   ((-6552358639439501, -50)%Z, [21254; 28888]%N);
   ((-7932657556698297, -50)%Z, [21277; 24867; 31192; 35469; 35748]%N);
   ((-1162774617379881, -47)%Z, [21322; 21643; 22303; 22826; 24681; 24859; 25077; 26758; 27813; 28101; 28701; 29006;
     29233; 30140; 37221]%N);
   ((-7111296883493553, -50)%Z, [21333; 21756; 21934]%N);
   ((-5303259156537295, -50)%Z, [21402]%N);
   ((-3836555495471107, -49)%Z, [21472; 25166; 30090; 30246; 30408; 31756; 33485; 33980]%N);
   ((-7194735042437725, -50)%Z, [21480]%N);
   ((-1944278525868117, -48)%Z, [21505; 24758; 25240; 28404; 31858; 33395; 33399; 36367; 38391]%N);
   ((-777035676428891, -47)%Z, [21535]%N);
   ((-3731164766572653, -49)%Z, [21547; 25289]%N);
   ((-5426827644044765, -50)%Z, [21574; 37325]%N);
   ((-8594446507954929, -50)%Z, [21617; 22615; 22697; 22788; 26102; 26178; 26434; 27611; 28034; 32670; 34389; 38620;
     40674]%N);
   ((-3498349878725899, -49)%Z, [21621]%N);
   ((-6032397745979357, -50)%Z, [21628]%N);
   ((-7975149388458395, -50)%Z, [21644; 22228; 28865; 29197; 37240; 37306]%N);
   ((-3759318130505739, -49)%Z, [21653]%N);
   ((-6361451833532923, -50)%Z, [21671]%N);
   ((-8215612448087977, -50)%Z, [21691; 23388; 30105]%N);
   ((-5979670390027711, -50)%Z, [21700; 24908]%N);
   ((-3414170996051937, -49)%Z, [21704; 27987; 28611; 31283; 31337]%N);
   ((-1033818161172647, -47)%Z, [21719; 22057; 22199; 22446; 38918; 39003; 39034; 39072; 39321; 40657]%N);
   ((-8113187331480841, -50)%Z, [21792; 22062; 24826]%N);
   ((-4194585342072607, -49)%Z, [21916; 22016; 22530; 23618; 23652; 27985; 28201; 28222; 28331; 30933; 34588;
     34701]%N);
   ((-1753751869096637, -48)%Z, [21943; 22132; 30171]%N);
   ((-37601945928175, -42)%Z, [21974; 22040; 22099; 22350; 22391; 24754; 25315; 25536; 26408; 29190; 34593; 34847;
     36339; 37003; 38452; 38512]%N);
   ((-963340304921427, -47)%Z, [22047]%N);
   ((-5244298046521813, -50)%Z, [22075]%N);
   ((-7261639866010069, -50)%Z, [22238; 26012; 27833; 30697; 35215; 35268]%N);
   ((-3145686611883195, -49)%Z, [22278; 22291]%N);
   ((-5431340274962877, -50)%Z, [22312; 27784; 27785]%N);
   ((-4525479817700923, -49)%Z, [22374; 22768; 23049; 23159; 25361; 28857; 32070; 32458; 32882; 35582; 35834; 36203;
     36830; 36899; 40670]%N);
   ((-8726416468901993, -51)%Z, [22823]%N);
   ((-1953508040483565, -48)%Z, [22833; 24420; 30952; 36461]%N);
   ((-1575280333950575, -48)%Z, [22909; 33579]%N);
   ((-781650433736615, -47)%Z, [23433; 24367; 24398]%N);
   ((-3820236962938511, -49)%Z, [23436; 31616; 31777; 38534]%N);
   ((-68901258462655, -44)%Z, [23454; 23526]%N);
   ((-41951189619995, -43)%Z, [23494]%N);
   ((-7409463230997641, -51)%Z, [23567]%N);
   ((-6641459341284343, -50)%Z, [24013; 36890]%N);
   ((-336416815422449, -46)%Z, [24052]%N);
   ((-8672125575534893, -50)%Z, [24086; 24930; 30249; 32233; 32531]%N);
   ((-3926100957903865, -49)%Z, [24120; 28548; 29369; 29494; 32110; 32272; 32457; 35947; 39019; 39076]%N);
   ((-5477490174154343, -50)%Z, [24178; 24185]%N);
   ((-5922287275935347, -50)%Z, [24179]%N);
   ((-8065269465571461, -50)%Z, [24189; 25238; 32047; 32311; 32533]%N);
   ((-6577104688466673, -50)%Z, [24352; 24373; 28909; 29105]%N);
   ((-6615274442340143, -50)%Z, [24403; 30070]%N);
   ((-6709716597339837, -50)%Z, [24494]%N);
   ((-1344586742218139, -48)%Z, [24537]%N);
   ((-1735874434700131, -48)%Z, [24555]%N);
   ((-386283722184773, -46)%Z, [24613]%N);
   ((-7238893639723305, -50)%Z, [24653; 26381]%N);
   ((-6145893747330077, -50)%Z, [24685; 25964]%N);
   ((-1979327579061577, -49)%Z, [24708]%N);
   ((-366730468241067, -46)%Z, [24736]%N);
   ((-6668267748430463, -50)%Z, [25163]%N);
   ((-3565791958580231, -49)%Z, [25197; 26406; 26407; 28799; 29158; 32999]%N);
   ((-3039822616917841, -49)%Z, [25622; 25671]%N);
   ((-371466543814629, -46)%Z, [25972; 32004; 32422]%N);
   ((-1727344237156725, -48)%Z, [26041]%N);
   ((-7435198102067307, -50)%Z, [26114]%N);
   ((-1530147890254939, -48)%Z, [26126; 29408; 32769; 33150; 39472]%N);
   ((-214376861870511, -45)%Z, [26127; 36292; 36361; 36428]%N);
   ((-5251983399958687, -50)%Z, [26179]%N);
   ((-855511137580039, -47)%Z, [26222]%N);
   ((-881567618607537, -47)%Z, [26230; 27491; 27973; 28154; 30097; 36831; 36978]%N);
   ((-2808891701592707, -49)%Z, [26262]%N);
   ((-1600886613102359, -48)%Z, [26354; 32005; 32418]%N);
   ((-861587080615193, -47)%Z, [26465; 26781; 30860]%N);
   ((-6812812092000027, -50)%Z, [26862; 31351; 31406; 36433; 36513]%N);
   ((-4991529947398161, -50)%Z, [26970]%N);
   ((-402954763570125, -46)%Z, [27169]%N);
   ((-6564663678933571, -50)%Z, [27498]%N);
   ((-2997242538113879, -49)%Z, [27515]%N);
   ((-886421116410773, -47)%Z, [27668; 27683]%N);
   ((-5972335511272839, -50)%Z, [27915]%N);
   ((-6654783756046637, -50)%Z, [27934; 40723]%N);
   ((-1399159780386667, -48)%Z, [28107]%N);
   ((-629399891171505, -47)%Z, [28129]%N);
   ((-4662287275669557, -50)%Z, [28165]%N);
   ((-5718177583671455, -50)%Z, [28316]%N);
   ((-5987053366691761, -50)%Z, [28385; 28415; 34180]%N);
   ((-6767467712712431, -50)%Z, [28422]%N);
   ((-6225402059677719, -50)%Z, [28425]%N);
   ((-7891711229514223, -50)%Z, [28789; 31364; 33067; 33073; 38728]%N);
   ((-3788953917819281, -49)%Z, [29255]%N);
   ((-5515822383825923, -50)%Z, [29983]%N);
   ((-6628290771204539, -50)%Z, [30008; 36300]%N);
   ((-8163235566818333, -50)%Z, [30127; 30219; 30315; 30322; 30634; 32034; 36211]%N);
   ((-5199256044007041, -50)%Z, [30333]%N);
   ((-5929302251319167, -50)%Z, [30442; 33633]%N);
   ((-3258115204537615, -49)%Z, [30452; 33510; 35064; 36763]%N);
   ((-3085888821878811, -49)%Z, [30511; 30599]%N);
   ((-5683708568054139, -50)%Z, [30701]%N);
   ((-6960953900977037, -50)%Z, [31232]%N);
   ((-6017079143597223, -50)%Z, [31471]%N);
   ((-301177887296839, -46)%Z, [31946]%N);
   ((-337233483128431, -46)%Z, [32048; 32454]%N);
   ((-2950750420551983, -49)%Z, [32080; 32467]%N);
   ((-3191151213844435, -49)%Z, [32160; 32511]%N);
   ((-7216597863495297, -50)%Z, [32191; 32501]%N);
   ((-29721704445799, -42)%Z, [32629; 33298; 39554]%N);
   ((-2850405586984365, -49)%Z, [33457]%N);
   ((-1609045879368657, -48)%Z, [33853]%N);
   ((-1699373372404473, -48)%Z, [33945]%N);
   ((-5468107620633219, -50)%Z, [35041; 37324]%N);
   ((-8203721197931179, -51)%Z, [36629; 36731]%N);
   ((-1473664110923219, -48)%Z, [36771]%N);
   ((-5221551820235049, -50)%Z, [36828; 36960]%N);
   ((-3117296565182939, -49)%Z, [36855]%N);
   ((-270864234478221, -46)%Z, [38263; 38271]%N);
   ((-198155636317843, -45)%Z, [38275; 38378]%N);
   ((-5821992528756323, -50)%Z, [38544; 38577]%N);
   ((-6055773670217011, -50)%Z, [38646]%N);
   ((-4518816541794343, -50)%Z, [38745; 38748]%N);
   ((-1264421438066659, -48)%Z, [39640]%N);
   ((-711172577485395, -47)%Z, [40635]%N);
   ((-4272414893007133, -50)%Z, [40664]%N);
   ((-6414320696417055, -50)%Z, [40778; 40784]%N)];
  (* ('M', 'zg') *)
  [
]].
