(** * The emission table of finalseg

    Generated from jieba/finalseg/prob_emit.py (35226 lines): for every character with an
    entry its numbers for the labels B, M, E and S.  [m @ e] is the binary64 number
    [m * 2^e], the exact value of the decimal number in the file as Python reads it;
    [#] is a missing entry.  The characters are grouped by their upper byte. *)
From Verif Require Import PyBase.
Local Open Scope Z_scope.

Definition num4 : Type := option (Z * Z) * option (Z * Z) * option (Z * Z) * option (Z * Z).
Local Notation "m @ e" := (Some (m, e)) (at level 30).
Local Notation "#" := (@None (Z * Z)).

(** prob_emit.py, characters 0x2200 to 0x22ff *)
Definition emit_22 : list (N * num4) := [
  (54%N, (#, #, #, (-8910859197905059) @ (-49)))].

(** prob_emit.py, characters 0x4e00 to 0x4eff *)
Definition emit_4e : list (N * num4) := [
  (0%N, ((-4114598817069669) @ (-50), (-2492831636199283) @ (-49), (-3403025451967205) @ (-49), (-2771790955510465) @ (-49)));
  (1%N, ((-4573991982706175) @ (-49), (-8931702810654749) @ (-50), (-5109221419371493) @ (-49), (-5080357820669959) @ (-49)));
  (2%N, (#, #, #, (-4650533185457697) @ (-48)));
  (3%N, ((-4400800688261055) @ (-49), (-7385583099583005) @ (-50), (-2589243839184489) @ (-48), (-2327639437746015) @ (-48)));
  (6%N, (#, #, #, (-4650533185457697) @ (-48)));
  (7%N, ((-111000406148189) @ (-44), (-3456469014521701) @ (-49), (-8619130957465275) @ (-50), (-3899394594937963) @ (-49)));
  (8%N, ((-155984443672639) @ (-44), (-5299022049065311) @ (-49), (-2539979806567053) @ (-48), (-5781015291172637) @ (-49)));
  (9%N, ((-3339467453258285) @ (-49), (-6165831254628755) @ (-50), (-8983363734656705) @ (-50), (-7382427668352243) @ (-50)));
  (10%N, ((-6462161718884779) @ (-50), (-1921752104815067) @ (-48), (-5993317696003951) @ (-50), (-5352588710374001) @ (-50)));
  (11%N, ((-6752122055909031) @ (-50), (-442889646033837) @ (-46), (-6462265449263865) @ (-50), (-791304270593121) @ (-47)));
  (12%N, (#, #, #, (-8205616343142647) @ (-49)));
  (13%N, ((-4812391250599779) @ (-50), (-4998724855421999) @ (-50), (-4219880164924653) @ (-49), (-4976907355277797) @ (-50)));
  (14%N, ((-2351883676233051) @ (-48), (-2377160333275039) @ (-48), (-4703909278586461) @ (-49), (-183877039306945) @ (-45)));
  (16%N, ((-5621196632616349) @ (-49), (-6869814717210335) @ (-49), (-3091607482303129) @ (-48), (-2931245788232385) @ (-48)));
  (17%N, ((-2871154027483049) @ (-48), (-6487707683278451) @ (-49), (-6068909278492185) @ (-49), (-5588741620908383) @ (-49)));
  (18%N, (#, #, #, (-4650533185457697) @ (-48)));
  (19%N, ((-7176430689017967) @ (-50), (-4892270644430083) @ (-49), (-5567048316267463) @ (-49), (-4899341843723729) @ (-49)));
  (20%N, ((-2869364037497017) @ (-48), (-191462676150205) @ (-44), (-487139725317545) @ (-46), (-2240228585230021) @ (-48)));
  (21%N, (#, (-1295039918157329) @ (-47), (-1658101860833211) @ (-47), (-6881909751646441) @ (-49)));
  (22%N, ((-864416831907051) @ (-47), (-6555977482490059) @ (-50), (-2154079095535823) @ (-48), (-2373416811146455) @ (-48)));
  (23%N, (#, #, #, (-4297911758076491) @ (-48)));
  (24%N, ((-5001166299689181) @ (-49), (-2588087789948435) @ (-48), (-2723756404908859) @ (-48), (-2836895327028937) @ (-48)));
  (25%N, ((-1533353447885147) @ (-47), (-2710474606275943) @ (-48), (-6463948669613769) @ (-49), (-399697567377715) @ (-45)));
  (26%N, ((-8821915524300131) @ (-50), (-6440151918791257) @ (-50), (-2881751223130655) @ (-49), (-4949241172671531) @ (-49)));
  (27%N, ((-5352100881955763) @ (-49), (-670342677775561) @ (-46), (-2708488854293545) @ (-48), (-5863745363070831) @ (-49)));
  (28%N, ((-6759905301588537) @ (-50), (-1801028271091723) @ (-48), (-3709651192412649) @ (-49), (-260422474638935) @ (-45)));
  (29%N, ((-1246844285038457) @ (-47), (-2329461178098097) @ (-48), (-2478043873804777) @ (-48), (-652690401230201) @ (-46)));
  (30%N, ((-5713432497279801) @ (-49), (-1368405937876837) @ (-47), (-6880652495669265) @ (-49), (-6049409379414741) @ (-49)));
  (31%N, ((-5498117881770115) @ (-49), #, #, (-8910859197905059) @ (-49)));
  (32%N, (#, #, #, (-302852298247679) @ (-44)));
  (34%N, ((-5498117881770115) @ (-49), #, #, (-5211189916691665) @ (-49)));
  (36%N, ((-6323070655800607) @ (-50), (-4167372351441727) @ (-49), (-4987964586678409) @ (-49), (-7370083218805177) @ (-50)));
  (37%N, ((-7859514861337811) @ (-50), (-5355052230129965) @ (-49), (-4876848821136785) @ (-49), (-5266599961327423) @ (-49)));
  (38%N, ((-1039201061244007) @ (-47), (-5267338755117687) @ (-49), (-4990438578108479) @ (-49), (-4227173035229071) @ (-48)));
  (39%N, ((-2594822730121107) @ (-48), (-5406420665481025) @ (-49), (-5745459322430309) @ (-49), (-5795281842964731) @ (-49)));
  (40%N, (#, #, #, (-3688528646784237) @ (-48)));
  (42%N, ((-8069731831600423) @ (-50), (-7228908679034541) @ (-50), (-2590610170671867) @ (-49), (-3082036300506105) @ (-49)));
  (43%N, ((-5377584313164163) @ (-49), (-340779850326561) @ (-45), (-7149325314970619) @ (-49), (-6637298184271627) @ (-49)));
  (44%N, (#, #, #, (-70881326618687) @ (-42)));
  (45%N, ((-5175472870455555) @ (-50), (-5914570823427931) @ (-50), (-6166484995974727) @ (-50), (-5419584076435821) @ (-50)));
  (48%N, ((-8561520755723257) @ (-50), (-4865123990877239) @ (-49), (-1309615085150497) @ (-47), (-5939544796338895) @ (-49)));
  (50%N, ((-5868600494960193) @ (-49), (-1623981519183149) @ (-47), (-5631794510447747) @ (-49), (-2909559989492275) @ (-48)));
  (51%N, (#, #, #, (-7951171338784367) @ (-49)));
  (52%N, ((-4416382602295363) @ (-49), (-5089509902665295) @ (-49), (-4634489185211525) @ (-49), (-2610460937300927) @ (-48)));
  (54%N, (#, #, #, (-7614619027055453) @ (-49)));
  (56%N, ((-3359775170817407) @ (-48), (-6240728968116259) @ (-49), (-2958638589127239) @ (-48), (-5888113743969545) @ (-49)));
  (57%N, ((-1232218819951291) @ (-47), (-4309095556644625) @ (-49), (-294720361057969) @ (-45), (-5265948524471599) @ (-49)));
  (58%N, ((-1784374899780839) @ (-48), (-3732604042028449) @ (-49), (-2836860876046429) @ (-49), (-1299628369099461) @ (-48)));
  (59%N, ((-1507595932530341) @ (-48), (-5384434405867955) @ (-50), (-7320695311426223) @ (-50), (-4284169225858431) @ (-49)));
  (61%N, ((-1368061727260891) @ (-47), (-7365267594196719) @ (-50), (-8675470202296267) @ (-50), (-5726326997281241) @ (-49)));
  (62%N, ((-3972555412520677) @ (-49), (-8871301936604697) @ (-50), (-15781135714283) @ (-41), (-2374151338327289) @ (-48)));
  (64%N, (#, #, #, (-4650533185457697) @ (-48)));
  (66%N, (#, #, (-609902861438431) @ (-45), (-8205616343142647) @ (-49)));
  (67%N, ((-325021422818459) @ (-45), (-4983704257583741) @ (-49), (-750214125361695) @ (-46), (-1226829750208701) @ (-47)));
  (69%N, ((-5304353726347755) @ (-49), (-8615132062603929) @ (-50), (-1095595437010587) @ (-47), (-2328741821570415) @ (-48)));
  (71%N, (#, #, (-4684119305002281) @ (-48), (-7029990791577139) @ (-49)));
  (72%N, ((-609902861438431) @ (-45), (-1604672177941807) @ (-47), (-3301329885452235) @ (-48), (-160573025644757) @ (-44)));
  (73%N, ((-1132644259894969) @ (-47), (-7582055695329917) @ (-50), (-6820602431363489) @ (-50), (-150934809973795) @ (-44)));
  (74%N, (#, #, #, (-4392620273043229) @ (-48)));
  (75%N, ((-6396779499165849) @ (-50), (-3160424015571821) @ (-49), (-8948186984077567) @ (-50), (-6033641175103479) @ (-50)));
  (76%N, ((-4561124313278379) @ (-49), (-5350705104641081) @ (-49), (-6182233360253939) @ (-49), (-2755249044769289) @ (-48)));
  (77%N, ((-6687373015225979) @ (-49), (-101243867878125) @ (-43), (-8233949048441833) @ (-49), (-6092001926794289) @ (-49)));
  (78%N, ((-609902861438431) @ (-45), (-4981452454767649) @ (-49), (-4089624706979731) @ (-49), (-5613538252231127) @ (-49)));
  (79%N, ((-791327281750227) @ (-46), (-5980100251903661) @ (-49), (-614113832290249) @ (-46), (-6305852876942395) @ (-49)));
  (80%N, ((-4609216897162853) @ (-49), (-7374026010033109) @ (-50), (-8199304202183207) @ (-50), (-5071070561037285) @ (-49)));
  (82%N, ((-382014655813439) @ (-45), (-2940114342201471) @ (-48), (-3912641423100301) @ (-48), (-6973174550407917) @ (-49)));
  (83%N, ((-609902861438431) @ (-45), (-5342110281916193) @ (-49), (-6801678701340051) @ (-49), (-3505203974573573) @ (-48)));
  (84%N, ((-4920888549529333) @ (-49), (-5171431591541059) @ (-49), (-1447884006543381) @ (-47), (-6106302863991523) @ (-49)));
  (85%N, (#, #, #, (-4227173035229071) @ (-48)));
  (86%N, ((-2948708458071029) @ (-48), (-7131195537680991) @ (-49), (-6124492052457255) @ (-49), (-1516560388112855) @ (-47)));
  (87%N, (#, #, #, (-3670651212387731) @ (-48)));
  (88%N, ((-2444274464784967) @ (-48), (-5575185276940065) @ (-49), (-2824512597706687) @ (-48), (-1250353565225389) @ (-47)));
  (89%N, ((-5344077706436585) @ (-49), (-2528552858758687) @ (-48), (-6615216796058171) @ (-49), (-2914826826712729) @ (-48)));
  (92%N, ((-483818997720415) @ (-45), (-4240545284906009) @ (-48), (-4684119305002281) @ (-48), (-7489000375236853) @ (-49)));
  (93%N, ((-270305253830245) @ (-45), (-7476510174753899) @ (-50), (-5284698627360789) @ (-49), (-1157930111421475) @ (-47)));
  (94%N, ((-5931545544169805) @ (-49), (-1764807936785953) @ (-47), (-7579153354239763) @ (-49), (-5923965312790103) @ (-49)));
  (95%N, ((-4503289494098713) @ (-49), (-4952970312928637) @ (-49), (-315849689403741) @ (-45), (-5154132055052021) @ (-50)));
  (96%N, ((-4657998219530109) @ (-49), (-4811967830310629) @ (-49), (-2051847030081405) @ (-48), (-1423114679922519) @ (-47)));
  (97%N, ((-4608677299743533) @ (-49), (-5143777739578121) @ (-49), (-8794910634375043) @ (-50), (-8687486693253665) @ (-50)));
  (98%N, (#, #, #, (-271331332318175) @ (-44)));
  (101%N, (#, #, #, (-271331332318175) @ (-44)));
  (102%N, ((-259267234282871) @ (-45), (-6993196871355967) @ (-50), (-1933013488992643) @ (-48), (-4145188686032819) @ (-49)));
  (104%N, (#, #, #, (-302852298247679) @ (-44)));
  (105%N, (#, #, (-3912641423100301) @ (-48), (-1749038822580415) @ (-47)));
  (106%N, (#, #, #, (-7614619027055453) @ (-49)));
  (108%N, (#, #, #, (-7600718321947853) @ (-49)));
  (109%N, (#, #, #, (-8910859197905059) @ (-49)));
  (112%N, ((-1238274141738441) @ (-47), (-2485990762300245) @ (-48), (-2489492592101517) @ (-48), (-4477293768902687) @ (-49)));
  (113%N, ((-2573375121274881) @ (-48), (-591349969240311) @ (-46), (-8952631020552395) @ (-50), (-4609243582545173) @ (-49)));
  (115%N, ((-5112438285001581) @ (-49), (-5182563733023451) @ (-49), (-3012109739985489) @ (-48), (-5904066167775883) @ (-49)));
  (116%N, (#, #, #, (-4297911758076491) @ (-48)));
  (117%N, (#, #, #, (-70881326618687) @ (-42)));
  (119%N, (#, #, #, (-302852298247679) @ (-44)));
  (120%N, (#, #, #, (-4392620273043229) @ (-48)));
  (121%N, (#, #, #, (-4650533185457697) @ (-48)));
  (122%N, (#, #, #, (-976926146266539) @ (-46)));
  (123%N, (#, #, #, (-4650533185457697) @ (-48)));
  (124%N, (#, #, #, (-302852298247679) @ (-44)));
  (125%N, (#, #, #, (-302852298247679) @ (-44)));
  (126%N, ((-5263017736344975) @ (-49), (-1328762544165803) @ (-47), (-1458832946781801) @ (-47), (-5555474362013055) @ (-49)));
  (127%N, (#, #, #, (-302852298247679) @ (-44)));
  (128%N, (#, #, #, (-8910859197905059) @ (-49)));
  (130%N, ((-2573375121274881) @ (-48), (-591349969240311) @ (-46), (-8952631020552395) @ (-50), (-4609243582545173) @ (-49)));
  (131%N, (#, #, #, (-7170756992763697) @ (-49)));
  (134%N, ((-8767251851078401) @ (-50), (-4824581127638227) @ (-49), (-7497069871072795) @ (-50), (-7933905475215681) @ (-51)));
  (136%N, ((-167780031992467) @ (-44), (-2916201150721135) @ (-48), (-4565880574599219) @ (-49), (-2882758912952675) @ (-48)));
  (137%N, ((-8775154633192523) @ (-50), (-1106169645720209) @ (-47), (-7543472464392975) @ (-50), (-5044972842805045) @ (-49)));
  (138%N, (#, #, #, (-8395033373076123) @ (-49)));
  (139%N, ((-1758930315538161) @ (-48), (-3283411243316941) @ (-49), (-3391984813751693) @ (-49), (-3662489812490699) @ (-49)));
  (140%N, ((-7267558633143733) @ (-50), (-6043515321454465) @ (-50), (-8584786214005777) @ (-50), (-7930984580195555) @ (-50)));
  (141%N, (#, #, (-4684119305002281) @ (-48), (-6752474475355211) @ (-49)));
  (142%N, ((-8171222335125099) @ (-50), (-267182930504887) @ (-45), (-5856763897608229) @ (-50), (-3176336276334017) @ (-49)));
  (143%N, ((-5458793673001059) @ (-49), (-2952878618773787) @ (-48), (-5624464329363545) @ (-49), (-5545045735042627) @ (-49)));
  (144%N, (#, #, #, (-302852298247679) @ (-44)));
  (145%N, ((-4432671074624591) @ (-49), (-7618295949962411) @ (-50), (-4433899840211895) @ (-49), (-148803111960891) @ (-44)));
  (146%N, ((-4528702273895001) @ (-49), (-4834446407854315) @ (-49), (-303786589445061) @ (-45), (-5398170610481811) @ (-49)));
  (147%N, ((-7350896790516305) @ (-49), (-8252834006088559) @ (-49), #, (-456223959081461) @ (-45)));
  (148%N, ((-7441707385122351) @ (-50), (-6955573803536861) @ (-50), (-4654802040651049) @ (-49), (-4253636246541543) @ (-49)));
  (149%N, ((-662556166332319) @ (-46), (-4532860361870127) @ (-49), (-2565991747741181) @ (-48), (-5589512257515273) @ (-49)));
  (150%N, (#, #, #, (-8910859197905059) @ (-49)));
  (151%N, (#, #, #, (-4650533185457697) @ (-48)));
  (152%N, ((-3736309789678949) @ (-48), (-8090883396801683) @ (-49), (-3293170619185937) @ (-48), (-1969801887061797) @ (-47)));
  (153%N, ((-3736309789678949) @ (-48), (-8090883396801683) @ (-49), (-3293170619185937) @ (-48), (-1969801887061797) @ (-47)));
  (154%N, ((-8533621391481445) @ (-50), (-7129300475956667) @ (-50), (-8020234685121401) @ (-50), (-1203508918998981) @ (-47)));
  (155%N, ((-3224787349219635) @ (-48), (-2515984923998233) @ (-48), (-787672576684301) @ (-47), (-8355914753430379) @ (-50)));
  (156%N, (#, #, (-2146956065995973) @ (-47), (-2001206550016447) @ (-47)));
  (157%N, (#, #, #, (-271331332318175) @ (-44)));
  (158%N, ((-8533621391481445) @ (-50), (-7129300475956667) @ (-50), (-8020234685121401) @ (-50), (-2061833855653683) @ (-47)));
  (159%N, ((-3350997957043395) @ (-48), #, (-4684119305002281) @ (-48), (-6761678221831651) @ (-49)));
  (161%N, ((-5585806915099) @ (-39), (-4800852552400737) @ (-49), (-4556189491008233) @ (-49), (-5356392717830021) @ (-49)));
  (162%N, ((-6478699293932513) @ (-49), (-3460130938885339) @ (-48), (-6124492052457255) @ (-49), (-6897440390483705) @ (-49)));
  (163%N, (#, #, #, (-3630371905756697) @ (-48)));
  (164%N, ((-7304491539108095) @ (-50), (-6904066465916383) @ (-50), (-8933747363639465) @ (-50), (-1197861985522373) @ (-47)));
  (165%N, ((-4204275375441935) @ (-48), (-4521578422093763) @ (-49), (-3756423699901591) @ (-48), (-6722838688041669) @ (-49)));
  (166%N, ((-6124492052457255) @ (-49), (-2393381486468587) @ (-48), (-6263320317011777) @ (-49), (-4544569640739425) @ (-49)));
  (167%N, ((-6919904666122833) @ (-50), (-5616630236420351) @ (-50), (-3442258798986869) @ (-49), (-4720284396733549) @ (-49)));
  (168%N, ((-5882248434986803) @ (-49), (-2836822418575591) @ (-48), (-3078178531328229) @ (-48), (-192935565585839) @ (-44)));
  (169%N, ((-1794334638614767) @ (-47), #, (-4849998465410411) @ (-49), (-1309501731805219) @ (-47)));
  (171%N, ((-2401279266573115) @ (-48), (-48594280744979) @ (-42), (-5093407178536583) @ (-49), (-5900705262548913) @ (-49)));
  (172%N, ((-4557884383616253) @ (-49), (-3348789207071233) @ (-49), (-3681000791770193) @ (-49), (-1185419788406241) @ (-47)));
  (173%N, ((-6370279013252417) @ (-49), (-2734798935279383) @ (-48), (-4980491173246967) @ (-49), (-326070516400247) @ (-45)));
  (174%N, ((-169155062456981) @ (-44), (-1314290474264215) @ (-47), (-8545107251895119) @ (-50), (-4980510087254833) @ (-49)));
  (175%N, (#, #, #, (-6029684819594483) @ (-49)));
  (176%N, (#, #, #, (-4048158111928321) @ (-48)));
  (177%N, (#, #, #, (-7926147221115621) @ (-49)));
  (178%N, ((-8139076242218837) @ (-50), (-2398597850579073) @ (-48), (-4143167561420605) @ (-49), (-8939610017361305) @ (-50)));
  (179%N, ((-3667736269636657) @ (-48), #, (-4260759154773655) @ (-48), (-3605255574468759) @ (-48)));
  (180%N, (#, #, #, (-7183698940977469) @ (-49)));
  (181%N, ((-6880652495669265) @ (-49), (-4240545284906009) @ (-48), (-7579153354239763) @ (-49), (-7025030848007957) @ (-49)));
  (182%N, (#, (-8871297742822353) @ (-49), (-4684119305002281) @ (-48), (-7231493078902567) @ (-49)));
  (183%N, (#, #, #, (-4227173035229071) @ (-48)));
  (184%N, (#, #, #, (-6284250228178101) @ (-49)));
  (185%N, (#, #, #, (-7358896042685395) @ (-49)));
  (186%N, ((-5261711325943639) @ (-50), (-1231209517012535) @ (-48), (-5305066936732743) @ (-50), (-5134704877734849) @ (-50)));
  (187%N, (#, #, #, (-8395033373076123) @ (-49)));
  (189%N, (#, #, #, (-70881326618687) @ (-42)));
  (190%N, (#, #, #, (-6184933564569943) @ (-49)));
  (191%N, ((-1016273514426587) @ (-47), (-4754696091674643) @ (-49), (-6062530173934919) @ (-49), (-2509455496934803) @ (-48)));
  (192%N, ((-1775200556584299) @ (-48), (-3495313894439701) @ (-49), (-5396207765640087) @ (-49), (-355290189839341) @ (-45)));
  (193%N, ((-5334859606498219) @ (-49), (-557254647719565) @ (-46), (-2443634804567849) @ (-48), (-5712726164312741) @ (-49)));
  (195%N, (#, (-7082212487057555) @ (-49), (-3551083531600405) @ (-48), (-7658507473194481) @ (-49)));
  (196%N, ((-8359567700260433) @ (-49), #, (-7426068281774563) @ (-49), (-7015240167258395) @ (-49)));
  (197%N, ((-1214538318499921) @ (-47), (-4564099996289657) @ (-49), (-8595428393770139) @ (-50), (-4394692875631127) @ (-49)));
  (198%N, ((-2865817849153301) @ (-48), (-5505484279959921) @ (-49), (-2808434500578087) @ (-48), (-5731265186432357) @ (-49)));
  (199%N, ((-167671949411795) @ (-44), (-5377306113966719) @ (-49), (-5349860727971373) @ (-49), (-2777012196763591) @ (-48)));
  (200%N, (#, #, #, (-239810366388671) @ (-44)));
  (201%N, ((-8359567700260433) @ (-49), (-4240545284906009) @ (-48), #, (-7643494584741751) @ (-49)));
  (202%N, ((-3735654165054679) @ (-49), (-2446855514446009) @ (-48), (-4231810797314805) @ (-49), (-2007756088456709) @ (-48)));
  (203%N, ((-8920595043398955) @ (-50), (-2151416955682391) @ (-48), (-2525940263847563) @ (-48), (-6271157778706001) @ (-49)));
  (204%N, (#, #, #, (-4650533185457697) @ (-48)));
  (205%N, ((-4565436432601095) @ (-49), (-3817185134677383) @ (-48), (-7031410888328911) @ (-49), (-8312285525593849) @ (-50)));
  (206%N, ((-3800907836231603) @ (-49), (-4761496912076741) @ (-49), (-2222697450713079) @ (-48), (-1577098003736493) @ (-48)));
  (208%N, (#, #, #, (-3951094144080465) @ (-48)));
  (209%N, (#, (-2627665581943787) @ (-48), (-1415819463559715) @ (-47), (-7358896042685395) @ (-49)));
  (210%N, (#, #, #, (-302852298247679) @ (-44)));
  (211%N, ((-1371578589124813) @ (-47), (-2762899555701287) @ (-48), (-1451481723087801) @ (-47), (-2908691685533637) @ (-48)));
  (212%N, ((-2618955158088877) @ (-48), (-2907423936947123) @ (-48), (-6325535149909711) @ (-49), (-6192760204387247) @ (-49)));
  (213%N, ((-3133934716149573) @ (-48), (-5447312890527709) @ (-49), (-764463687970229) @ (-46), (-3118628787138913) @ (-48)));
  (214%N, ((-3277943419863147) @ (-49), (-5028905333333401) @ (-49), (-1008182288282943) @ (-47), (-4855554031613139) @ (-50)));
  (215%N, ((-3289177999381927) @ (-48), (-375889304995713) @ (-45), (-5205336083854791) @ (-49), (-2567615678955695) @ (-48)));
  (216%N, ((-1244977867453651) @ (-47), (-2714178277825955) @ (-48), (-4536766247035183) @ (-49), (-5425444930818265) @ (-49)));
  (217%N, ((-4756153565646893) @ (-49), (-302098853825753) @ (-45), (-5123844318232305) @ (-49), (-4983524376595639) @ (-49)));
  (218%N, (#, #, #, (-302852298247679) @ (-44)));
  (219%N, (#, #, #, (-1713930327752905) @ (-47)));
  (220%N, (#, #, #, (-4297911758076491) @ (-48)));
  (221%N, ((-3645792046567143) @ (-48), (-6975678712175689) @ (-49), (-828507539730495) @ (-46), (-3870118839437027) @ (-48)));
  (222%N, (#, (-1925169055947837) @ (-47), (-6179298775224113) @ (-49), (-943539134077359) @ (-46)));
  (223%N, ((-8978031436994227) @ (-49), (-491414177067389) @ (-45), (-8018343577873535) @ (-49), (-8064138897447807) @ (-49)));
  (224%N, (#, #, #, (-7926147221115621) @ (-49)));
  (225%N, ((-6504176490059053) @ (-49), (-4240545284906009) @ (-48), #, (-6951095251765127) @ (-49)));
  (227%N, ((-7264233487333299) @ (-50), (-5220504133377347) @ (-50), (-3356562091613749) @ (-49), (-4734625722061045) @ (-49)));
  (228%N, ((-4421301468422227) @ (-49), (-2031102161563869) @ (-48), (-4063362603631579) @ (-49), (-4531349772658569) @ (-49)));
  (229%N, ((-6186435454667739) @ (-50), (-960615806020211) @ (-47), (-393759334412937) @ (-46), (-1518267796681283) @ (-48)));
  (230%N, (#, #, #, (-302852298247679) @ (-44)));
  (232%N, ((-8272788582231815) @ (-49), #, (-571248877892569) @ (-45), (-1809666128217651) @ (-47)));
  (233%N, (#, #, #, (-302852298247679) @ (-44)));
  (234%N, ((-4720547275775367) @ (-49), (-2789210315202571) @ (-48), (-2485586346059613) @ (-48), (-5500204999158685) @ (-49)));
  (235%N, ((-1870602565026865) @ (-47), (-491414177067389) @ (-45), #, (-302852298247679) @ (-44)));
  (236%N, (#, (-2891815782294217) @ (-48), (-5422922236190415) @ (-50), (-927273611507407) @ (-47)));
  (238%N, (#, #, #, (-3870118839437027) @ (-48)));
  (239%N, (#, #, #, (-4170689255897351) @ (-48)));
  (240%N, ((-169905478166881) @ (-44), (-5874709523005207) @ (-49), (-5182625209513799) @ (-49), (-2853260740706801) @ (-48)));
  (241%N, (#, #, #, (-8910859197905059) @ (-49)));
  (242%N, ((-1411971308904413) @ (-47), (-4556126067597811) @ (-49), (-2950488073967805) @ (-48), (-6531363337886707) @ (-49)));
  (243%N, (#, #, #, (-70881326618687) @ (-42)));
  (244%N, (#, #, #, (-7706109050846307) @ (-49)));
  (245%N, ((-3645792046567143) @ (-48), #, #, (-2130163006223681) @ (-47)));
  (246%N, ((-7591005369967043) @ (-49), (-2347616597098719) @ (-48), (-7067782690139887) @ (-50), (-4750383183932075) @ (-49)));
  (247%N, ((-7908542525800779) @ (-50), (-8145234622012521) @ (-50), (-2114421250259749) @ (-48), (-5172757466010105) @ (-49)));
  (250%N, (#, #, #, (-3722837580357007) @ (-48)));
  (251%N, ((-7184538703264933) @ (-50), (-8665103156676269) @ (-50), (-3735019068018207) @ (-49), (-8426440198414055) @ (-50)));
  (252%N, (#, #, #, (-8166776809352665) @ (-49)));
  (253%N, ((-5658615716177389) @ (-49), (-2345596433091923) @ (-48), (-2094382598826823) @ (-48), (-2467237813015041) @ (-48)));
  (254%N, (#, #, #, (-8910859197905059) @ (-49)));
  (255%N, ((-2496165424320575) @ (-48), (-6615369712852055) @ (-49), (-5671926696822739) @ (-49), (-1519284424540059) @ (-47)))].

(** prob_emit.py, characters 0x4f00 to 0x4fff *)
Definition emit_4f : list (N * num4) := [
  (0%N, (#, #, #, (-7015240167258395) @ (-49)));
  (1%N, ((-7600246950759469) @ (-50), (-8929905683526439) @ (-50), (-2878891094398851) @ (-48), (-5952620350807815) @ (-49)));
  (2%N, (#, #, #, (-302852298247679) @ (-44)));
  (3%N, (#, #, (-609902861438431) @ (-45), (-7332707602050573) @ (-49)));
  (4%N, (#, #, #, (-7926147221115621) @ (-49)));
  (5%N, (#, #, #, (-7643494584741751) @ (-49)));
  (6%N, (#, #, #, (-3722837580357007) @ (-48)));
  (7%N, (#, #, #, (-302852298247679) @ (-44)));
  (9%N, ((-7654324845498021) @ (-49), (-3817185134677383) @ (-48), (-2146956065995973) @ (-47), (-2130163006223681) @ (-47)));
  (10%N, ((-1081230065090353) @ (-47), (-282243640447033) @ (-45), (-2877739865895431) @ (-48), (-1361048033775499) @ (-47)));
  (11%N, (#, (-8871297742822353) @ (-49), #, (-271331332318175) @ (-44)));
  (13%N, ((-1347123174765201) @ (-47), (-5932498674251835) @ (-49), (-4678854304369375) @ (-49), (-768679373733051) @ (-46)));
  (14%N, ((-866281559726281) @ (-46), (-3460130938885339) @ (-48), (-3756423699901591) @ (-48), (-6644787651101307) @ (-49)));
  (15%N, ((-660115968949437) @ (-46), (-158482009115063) @ (-44), (-2546561859669773) @ (-48), (-2652518067901867) @ (-48)));
  (16%N, ((-7122640226792847) @ (-49), (-2315856224731975) @ (-48), (-1319246377230123) @ (-47), (-2855883567599667) @ (-48)));
  (17%N, ((-4732964162531635) @ (-49), (-5504060891203069) @ (-49), (-649254451762731) @ (-46), (-5328792823398455) @ (-49)));
  (18%N, (#, #, #, (-7600718321947853) @ (-49)));
  (19%N, (#, #, #, (-3688528646784237) @ (-48)));
  (20%N, (#, #, #, (-3879055303555717) @ (-48)));
  (21%N, (#, #, #, (-7183698940977469) @ (-49)));
  (22%N, (#, #, #, (-271331332318175) @ (-44)));
  (23%N, ((-8546031202632539) @ (-50), (-2202080321497503) @ (-48), (-7887415851194477) @ (-50), (-8869752475799235) @ (-50)));
  (24%N, ((-7975722746489869) @ (-50), (-2500443079764647) @ (-48), (-5552762775811559) @ (-49), (-697446917557385) @ (-46)));
  (25%N, ((-5356608111424615) @ (-49), (-4504706997937041) @ (-49), (-5032721034657141) @ (-49), (-2827860912331993) @ (-48)));
  (26%N, ((-3670636126929531) @ (-49), (-5669865083669721) @ (-50), (-2707968988959341) @ (-49), (-6512911613643389) @ (-50)));
  (27%N, ((-8978031436994227) @ (-49), #, #, (-271331332318175) @ (-44)));
  (28%N, (#, #, #, (-302852298247679) @ (-44)));
  (29%N, (#, #, #, (-8130444851884389) @ (-49)));
  (30%N, ((-6070515413542939) @ (-49), (-6240728968116259) @ (-49), (-3063576879661641) @ (-48), (-5768689383327427) @ (-49)));
  (31%N, ((-2502939613987011) @ (-48), (-1046039507519905) @ (-47), (-4608437644587329) @ (-49), (-6321200666391935) @ (-49)));
  (32%N, ((-7526233545963383) @ (-50), (-8200928010030301) @ (-50), (-2194254358110463) @ (-48), (-4470121658142505) @ (-49)));
  (33%N, (#, #, #, (-4048158111928321) @ (-48)));
  (34%N, ((-4260759154773655) @ (-48), #, #, (-2061833855653683) @ (-47)));
  (35%N, (#, #, #, (-8292395461171265) @ (-49)));
  (36%N, ((-4542437934293843) @ (-49), (-5205511012807407) @ (-49), (-4463668627839903) @ (-49), (-2339320884335511) @ (-48)));
  (37%N, ((-4684119305002281) @ (-48), #, (-3912641423100301) @ (-48), (-271331332318175) @ (-44)));
  (38%N, ((-2524168117531809) @ (-48), (-1046039507519905) @ (-47), (-5024257361967903) @ (-49), (-5819700040811679) @ (-49)));
  (39%N, (#, #, (-8233949048441833) @ (-49), (-1994339944854797) @ (-47)));
  (40%N, (#, #, #, (-4650533185457697) @ (-48)));
  (41%N, (#, #, #, (-7835882333724349) @ (-49)));
  (42%N, ((-2753752743897453) @ (-48), (-5874709523005207) @ (-49), (-5965203150036405) @ (-49), (-730957498048045) @ (-46)));
  (43%N, ((-7001207095767483) @ (-49), #, (-609902861438431) @ (-45), (-1994339944854797) @ (-47)));
  (44%N, ((-2146956065995973) @ (-47), #, #, (-8130444851884389) @ (-49)));
  (45%N, (#, #, #, (-302852298247679) @ (-44)));
  (47%N, ((-4995300314084267) @ (-49), (-1837318764979575) @ (-48), (-4795082105141271) @ (-49), (-2768982255092589) @ (-48)));
  (48%N, ((-2478989635066943) @ (-48), (-3107509511504133) @ (-48), (-2762160088197429) @ (-48), (-6347254413892145) @ (-49)));
  (49%N, (#, #, #, (-8910859197905059) @ (-49)));
  (50%N, (#, #, (-609902861438431) @ (-45), (-7386362463331995) @ (-49)));
  (52%N, ((-1307476107210677) @ (-47), (-1604672177941807) @ (-47), (-5123246071679275) @ (-49), (-2774848381033503) @ (-48)));
  (54%N, ((-6636788398932217) @ (-49), (-2833005750244973) @ (-48), (-6717008802539521) @ (-49), (-6587489088080429) @ (-49)));
  (55%N, (#, #, (-4684119305002281) @ (-48), (-4650533185457697) @ (-48)));
  (56%N, ((-4636815298105833) @ (-49), (-3260663311836043) @ (-48), (-2630170784269215) @ (-48), (-2555410486442885) @ (-48)));
  (57%N, (#, #, #, (-4650533185457697) @ (-48)));
  (58%N, ((-744328876152129) @ (-46), #, (-3663958025301281) @ (-48), (-6758593556834681) @ (-49)));
  (59%N, (#, #, #, (-70881326618687) @ (-42)));
  (60%N, ((-1084026992537331) @ (-47), (-2673195645392945) @ (-48), (-69966889191379) @ (-43), (-4648860928547241) @ (-49)));
  (61%N, ((-3204265917604379) @ (-48), (-6794643225952077) @ (-49), (-6825765795923849) @ (-49), (-369986883717853) @ (-45)));
  (62%N, (#, #, #, (-8395033373076123) @ (-49)));
  (64%N, (#, #, #, (-4392620273043229) @ (-48)));
  (65%N, (#, #, #, (-302852298247679) @ (-44)));
  (66%N, (#, #, #, (-302852298247679) @ (-44)));
  (67%N, ((-6248784555362411) @ (-49), (-3383588402652739) @ (-48), (-6798739008219093) @ (-49), (-3164875984674615) @ (-48)));
  (69%N, (#, #, #, (-302852298247679) @ (-44)));
  (70%N, ((-1983993002055049) @ (-48), (-6823518783638375) @ (-49), (-4956977084213821) @ (-49), (-3152801003618765) @ (-49)));
  (71%N, ((-7001207095767483) @ (-49), #, (-609902861438431) @ (-45), (-2130163006223681) @ (-47)));
  (72%N, (#, #, #, (-302852298247679) @ (-44)));
  (73%N, (#, #, #, (-4048158111928321) @ (-48)));
  (74%N, (#, #, #, (-302852298247679) @ (-44)));
  (75%N, (#, #, #, (-302852298247679) @ (-44)));
  (77%N, ((-1011909603495935) @ (-47), (-4796790846805263) @ (-49), (-6632462501575153) @ (-50), (-8466477624023627) @ (-50)));
  (78%N, ((-8617933903134663) @ (-50), (-5173798588525433) @ (-49), (-144148972658931) @ (-44), (-2129726004453933) @ (-48)));
  (79%N, ((-4779608237496157) @ (-49), (-5126795666406507) @ (-49), (-4005644472796987) @ (-49), (-973808617816367) @ (-47)));
  (80%N, ((-2976009353880921) @ (-48), (-4901455948345515) @ (-49), (-5825879047156935) @ (-49), (-5921873855449179) @ (-49)));
  (81%N, ((-4331497877621075) @ (-48), (-318651841684359) @ (-45), (-2958638589127239) @ (-48), (-93517869202469) @ (-43)));
  (82%N, (#, #, #, (-302852298247679) @ (-44)));
  (83%N, ((-3704601304896847) @ (-49), (-3784288272935013) @ (-49), (-6368662072864953) @ (-50), (-2262601825125919) @ (-48)));
  (84%N, ((-4505829683998135) @ (-49), (-4882761128554765) @ (-49), (-5208283926477931) @ (-49), (-7974731406485765) @ (-50)));
  (85%N, ((-8000419287069019) @ (-50), (-4343479510077045) @ (-49), (-942069495614885) @ (-47), (-4799539957733381) @ (-49)));
  (86%N, (#, #, #, (-4650533185457697) @ (-48)));
  (87%N, ((-4260759154773655) @ (-48), (-4240545284906009) @ (-48), (-7149325314970619) @ (-49), (-7425201997121977) @ (-49)));
  (88%N, ((-6850929759563609) @ (-49), #, #, (-7643494584741751) @ (-49)));
  (89%N, ((-8709609224614909) @ (-50), (-930068051664449) @ (-47), (-8960712927659531) @ (-50), (-4634824049330683) @ (-49)));
  (90%N, ((-1845768529231285) @ (-47), (-8871297742822353) @ (-49), (-6636788398932217) @ (-49), (-6525233150776923) @ (-49)));
  (91%N, ((-1192088823446847) @ (-47), (-1215824798005903) @ (-47), (-4921723941934049) @ (-49), (-5169273967151679) @ (-49)));
  (92%N, ((-1643976043522319) @ (-48), (-3293714391214667) @ (-49), (-6323309026871135) @ (-50), (-7852734127542049) @ (-50)));
  (93%N, ((-1709551796309617) @ (-47), #, #, (-8166776809352665) @ (-49)));
  (94%N, ((-7092203087097125) @ (-49), #, (-7579153354239763) @ (-49), (-7183698940977469) @ (-49)));
  (95%N, ((-6196134065361539) @ (-49), (-8871297742822353) @ (-49), (-2078626915425975) @ (-47), (-6629907050266015) @ (-49)));
  (96%N, ((-4089219681285295) @ (-49), (-3050797354896833) @ (-48), (-7013953676999103) @ (-49), (-5460139690955491) @ (-50)));
  (97%N, (#, #, #, (-8910859197905059) @ (-49)));
  (99%N, ((-6163900893513105) @ (-49), (-22383551160859) @ (-41), (-1512690189172423) @ (-47), (-5842197354372467) @ (-49)));
  (100%N, ((-7350896790516305) @ (-49), (-7310469050781013) @ (-49), (-8359567700260433) @ (-49), (-7489000375236853) @ (-49)));
  (101%N, ((-1986594946834089) @ (-47), (-6869814717210335) @ (-49), (-7681791266144621) @ (-49), (-3460785255448521) @ (-48)));
  (103%N, (#, #, #, (-302852298247679) @ (-44)));
  (105%N, ((-2679324099023285) @ (-48), (-4651057601939753) @ (-49), (-5765681739969729) @ (-49), (-768809807031151) @ (-46)));
  (107%N, (#, #, #, (-302852298247679) @ (-44)));
  (108%N, (#, (-1399558307686501) @ (-47), (-6831952121402971) @ (-49), (-3184193191912173) @ (-48)));
  (109%N, (#, #, #, (-302852298247679) @ (-44)));
  (110%N, (#, #, #, (-70881326618687) @ (-42)));
  (111%N, ((-3442027008155403) @ (-48), #, (-4426206392587813) @ (-48), (-1683626615562721) @ (-47)));
  (112%N, ((-571248877892569) @ (-45), (-6007235622876845) @ (-49), (-1998329865051197) @ (-47), (-4297911758076491) @ (-48)));
  (114%N, (#, #, #, (-3702723670134365) @ (-48)));
  (115%N, ((-5296571827884593) @ (-49), (-2191017424831259) @ (-48), (-2395503930635695) @ (-48), (-5306900210200393) @ (-49)));
  (116%N, ((-546860929579423) @ (-45), #, #, #));
  (117%N, (#, #, #, (-7145732875094951) @ (-49)));
  (118%N, ((-4426206392587813) @ (-48), (-7131195537680991) @ (-49), (-903159767337213) @ (-46), (-2130163006223681) @ (-47)));
  (119%N, (#, #, #, (-6043332759621093) @ (-49)));
  (120%N, (#, #, #, (-5263998724723399) @ (-49)));
  (121%N, (#, #, #, (-5857504168840913) @ (-49)));
  (122%N, (#, #, (-609902861438431) @ (-45), (-1531738718110281) @ (-47)));
  (123%N, (#, #, (-238379262651975) @ (-44), (-2130163006223681) @ (-47)));
  (124%N, ((-7031410888328911) @ (-49), (-6097500510268117) @ (-49), (-3912641423100301) @ (-48), (-7689790518313711) @ (-49)));
  (125%N, (#, #, #, (-3107870472150495) @ (-48)));
  (126%N, (#, #, #, (-271331332318175) @ (-44)));
  (127%N, ((-7725313263646081) @ (-50), (-317170621126113) @ (-45), (-125440773655951) @ (-44), (-6911155670269157) @ (-50)));
  (128%N, (#, #, #, (-3252634147087553) @ (-48)));
  (129%N, (#, #, #, (-2130163006223681) @ (-47)));
  (130%N, (#, #, #, (-7795654513279065) @ (-49)));
  (131%N, ((-6835070965687369) @ (-49), (-3005360696119749) @ (-48), (-6126265124642435) @ (-49), (-886648957992025) @ (-46)));
  (132%N, ((-2885662697896075) @ (-48), (-3982632372491541) @ (-48), (-6596484755205329) @ (-49), (-2903821259078867) @ (-48)));
  (134%N, ((-7315327112718203) @ (-50), (-3401329410376285) @ (-49), (-2767900928165289) @ (-49), (-735056903099271) @ (-47)));
  (136%N, ((-8272788582231815) @ (-49), (-5618768636579623) @ (-49), (-6281741590972653) @ (-49), (-3722837580357007) @ (-48)));
  (137%N, ((-4426206392587813) @ (-48), #, #, (-4048158111928321) @ (-48)));
  (138%N, (#, #, #, (-6649836563450353) @ (-49)));
  (139%N, ((-4555862035863709) @ (-49), (-5581674685439181) @ (-49), (-265906657761621) @ (-45), (-654057319097463) @ (-46)));
  (140%N, (#, #, #, (-4650533185457697) @ (-48)));
  (141%N, ((-4865954525169251) @ (-49), (-5671726777532731) @ (-49), (-5736946586312947) @ (-49), (-1424510435048597) @ (-47)));
  (142%N, (#, #, #, (-3888284818171165) @ (-48)));
  (143%N, ((-6564648714016659) @ (-49), #, #, (-2061833855653683) @ (-47)));
  (144%N, (#, #, #, (-302852298247679) @ (-44)));
  (145%N, (#, (-101243867878125) @ (-43), (-8018343577873535) @ (-49), (-1893476528496951) @ (-47)));
  (146%N, (#, #, #, (-8033701757752085) @ (-49)));
  (147%N, (#, #, #, (-4650533185457697) @ (-48)));
  (148%N, (#, #, (-6890919344730931) @ (-49), (-7587152606408853) @ (-49)));
  (151%N, ((-744328876152129) @ (-46), (-1688482578221107) @ (-47), (-1975763643203379) @ (-47), (-3306514671084387) @ (-48)));
  (154%N, (#, #, #, (-8910859197905059) @ (-49)));
  (155%N, ((-2303859645328665) @ (-48), (-5026465676412565) @ (-49), (-8543195762556299) @ (-50), (-4622441799078547) @ (-49)));
  (156%N, (#, #, #, (-70881326618687) @ (-42)));
  (157%N, ((-8088528156971585) @ (-50), (-8829473206908097) @ (-50), (-1327956655768345) @ (-47), (-2459926363584635) @ (-48)));
  (160%N, ((-3078178531328229) @ (-48), (-5631102931778521) @ (-49), (-5123246071679275) @ (-49), (-5813351998674075) @ (-49)));
  (161%N, (#, #, #, (-4650533185457697) @ (-48)));
  (163%N, ((-571248877892569) @ (-45), (-8252834006088559) @ (-49), (-2989351897969807) @ (-48), (-6913411673111127) @ (-49)));
  (164%N, (#, #, #, (-271331332318175) @ (-44)));
  (165%N, ((-6106204366996795) @ (-49), #, #, (-7307683484381827) @ (-49)));
  (166%N, ((-5141475941523119) @ (-49), (-6975678712175689) @ (-49), (-7579153354239763) @ (-49), (-6654931167934761) @ (-49)));
  (167%N, ((-2635950761013257) @ (-48), (-101243867878125) @ (-43), (-8920963436009797) @ (-50), (-5097631954247395) @ (-49)));
  (168%N, ((-5840652714768727) @ (-49), (-5970252479733389) @ (-49), (-2794419161228131) @ (-48), (-2881444221273909) @ (-48)));
  (169%N, (#, (-1925169055947837) @ (-47), (-3984680263625049) @ (-48), (-8205616343142647) @ (-49)));
  (170%N, ((-7924300488693565) @ (-49), (-8871297742822353) @ (-49), (-8197617090973557) @ (-49), (-8033701757752085) @ (-49)));
  (171%N, (#, #, #, (-302852298247679) @ (-44)));
  (172%N, (#, #, (-3736309789678949) @ (-48), (-7145732875094951) @ (-49)));
  (174%N, ((-786101000145339) @ (-46), #, (-6055439038073985) @ (-49), (-3224650029281801) @ (-48)));
  (175%N, ((-2508577881727601) @ (-48), (-4983704257583741) @ (-49), (-5374773071599561) @ (-49), (-1419684676969183) @ (-47)));
  (176%N, (#, #, #, (-302852298247679) @ (-44)));
  (177%N, (#, #, #, (-302852298247679) @ (-44)));
  (178%N, (#, #, #, (-70881326618687) @ (-42)));
  (179%N, (#, #, #, (-8910859197905059) @ (-49)));
  (181%N, ((-279751959971297) @ (-45), (-5853158567858187) @ (-49), (-5466992118192293) @ (-49), (-5706047018719337) @ (-49)));
  (182%N, ((-571248877892569) @ (-45), (-8252834006088559) @ (-49), (-2989351897969807) @ (-48), (-6913411673111127) @ (-49)));
  (183%N, (#, #, #, (-70881326618687) @ (-42)));
  (184%N, (#, #, #, (-70881326618687) @ (-42)));
  (185%N, (#, #, #, (-70881326618687) @ (-42)));
  (187%N, (#, #, #, (-302852298247679) @ (-44)));
  (190%N, (#, #, #, (-302852298247679) @ (-44)));
  (191%N, ((-4392413022835071) @ (-49), (-4954039543930835) @ (-49), (-545398579665483) @ (-46), (-3543165832215653) @ (-49)));
  (193%N, ((-2146956065995973) @ (-47), (-3383588402652739) @ (-48), (-985322676152685) @ (-46), (-6913411673111127) @ (-49)));
  (194%N, (#, #, #, (-4392620273043229) @ (-48)));
  (195%N, ((-4600172374011903) @ (-49), (-375889304995713) @ (-45), (-2691387501661721) @ (-48), (-744816330103361) @ (-46)));
  (196%N, ((-4520854715330115) @ (-49), (-4993376197570699) @ (-49), (-6147989361808037) @ (-49), (-4828216029254083) @ (-49)));
  (197%N, (#, (-3887923857524803) @ (-48), (-8272788582231815) @ (-49), (-405971578459659) @ (-45)));
  (199%N, (#, #, #, (-8395033373076123) @ (-49)));
  (200%N, (#, #, #, (-302852298247679) @ (-44)));
  (201%N, (#, #, #, (-4297911758076491) @ (-48)));
  (202%N, ((-6211418713391559) @ (-49), (-8276729012275981) @ (-50), (-4951882479729413) @ (-49), (-5608730109521345) @ (-49)));
  (204%N, (#, #, #, (-6182717223307863) @ (-49)));
  (205%N, (#, #, #, (-4392620273043229) @ (-48)));
  (206%N, ((-8462205612165291) @ (-49), (-7082212487057555) @ (-49), (-8131311136536975) @ (-49), (-1853809505254573) @ (-47)));
  (207%N, ((-6810591023946373) @ (-49), (-3227991900135919) @ (-48), (-6521825269397027) @ (-49), (-3171413761909075) @ (-48)));
  (208%N, ((-609902861438431) @ (-45), (-3172210053778219) @ (-48), (-6287624089152393) @ (-49), (-8292395461171265) @ (-49)));
  (209%N, ((-4426206392587813) @ (-48), (-3292735769582677) @ (-48), (-6801678701340051) @ (-49), (-204825927845465) @ (-44)));
  (211%N, (#, #, #, (-4650533185457697) @ (-48)));
  (212%N, (#, #, #, (-6478456086215057) @ (-49)));
  (213%N, (#, #, #, (-4650533185457697) @ (-48)));
  (214%N, (#, #, #, (-302852298247679) @ (-44)));
  (215%N, ((-1316715759465749) @ (-47), (-682375106580817) @ (-46), (-4897486407079001) @ (-49), (-2800797014320855) @ (-48)));
  (216%N, ((-88767391089659) @ (-43), (-1796212599740603) @ (-47), (-1416014661217019) @ (-47), (-5297181967198267) @ (-49)));
  (218%N, ((-1709551796309617) @ (-47), #, (-4331497877621075) @ (-48), (-886648957992025) @ (-46)));
  (220%N, (#, #, #, (-7600718321947853) @ (-49)));
  (221%N, ((-7008483789635933) @ (-50), (-1925686785480891) @ (-48), (-1144232402701257) @ (-47), (-4883278777884703) @ (-49)));
  (222%N, ((-5106022831485655) @ (-49), (-6448324499080771) @ (-49), (-7556172614326021) @ (-49), (-11736330098739) @ (-40)));
  (223%N, ((-609902861438431) @ (-45), (-491414177067389) @ (-45), (-546860929579423) @ (-45), (-405138068737789) @ (-45)));
  (224%N, ((-3078178531328229) @ (-48), (-5631102931778521) @ (-49), (-5123246071679275) @ (-49), (-5813351998674075) @ (-49)));
  (225%N, ((-3829703031131711) @ (-49), (-1051742102851063) @ (-47), (-2000481240875971) @ (-48), (-8886235932859165) @ (-50)));
  (226%N, (#, #, #, (-8292395461171265) @ (-49)));
  (227%N, ((-2146956065995973) @ (-47), (-3383588402652739) @ (-48), (-985322676152685) @ (-46), (-6913411673111127) @ (-49)));
  (228%N, (#, #, #, (-4392620273043229) @ (-48)));
  (229%N, (#, #, #, (-8910859197905059) @ (-49)));
  (230%N, (#, #, (-8359567700260433) @ (-49), (-456223959081461) @ (-45)));
  (231%N, (#, #, #, (-8033701757752085) @ (-49)));
  (232%N, ((-3290170857472073) @ (-48), (-8871297742822353) @ (-49), (-4684119305002281) @ (-48), (-6925694704825637) @ (-49)));
  (233%N, ((-3359775170817407) @ (-48), (-8871297742822353) @ (-49), (-5539143631719069) @ (-49), (-5284928642866595) @ (-49)));
  (234%N, (#, (-7385640542039271) @ (-49), (-3663958025301281) @ (-48), (-6834204681034783) @ (-49)));
  (235%N, (#, #, #, (-302852298247679) @ (-44)));
  (236%N, (#, #, #, (-4650533185457697) @ (-48)));
  (237%N, ((-3326197965972903) @ (-48), (-1445325126387491) @ (-47), (-1525271651225255) @ (-47), (-6991483479663675) @ (-49)));
  (238%N, ((-2086341110466547) @ (-48), (-2354457151901671) @ (-48), (-1178447403831243) @ (-47), (-1198306432377031) @ (-47)));
  (239%N, ((-1399883802746007) @ (-47), (-491414177067389) @ (-45), (-4331497877621075) @ (-48), (-3073158072790005) @ (-48)));
  (240%N, (#, #, #, (-2061833855653683) @ (-47)));
  (241%N, ((-2685291178902277) @ (-48), (-2466515755492073) @ (-48), (-7862826752368233) @ (-49), (-666861501976999) @ (-46)));
  (243%N, ((-3903704958981611) @ (-48), #, (-571248877892569) @ (-45), (-897148847068159) @ (-46)));
  (245%N, ((-8197617090973557) @ (-49), #, #, (-4227173035229071) @ (-48)));
  (246%N, (#, #, #, (-3702723670134365) @ (-48)));
  (248%N, ((-6670779604780977) @ (-49), (-7385640542039271) @ (-49), (-1865749067223629) @ (-47), (-6221635762073545) @ (-49)));
  (250%N, ((-6360771791699891) @ (-49), #, (-4426206392587813) @ (-48), (-5265514651653651) @ (-49)));
  (251%N, (#, #, #, (-4650533185457697) @ (-48)));
  (253%N, (#, #, #, (-8910859197905059) @ (-49)));
  (254%N, ((-6844532532160723) @ (-49), #, #, (-6644787651101307) @ (-49)));
  (255%N, (#, #, #, (-302852298247679) @ (-44)))].

(** prob_emit.py, characters 0x5000 to 0x50ff *)
Definition emit_50 : list (N * num4) := [
  (0%N, ((-4684119305002281) @ (-48), #, (-3912641423100301) @ (-48), (-4650533185457697) @ (-48)));
  (1%N, (#, #, #, (-4650533185457697) @ (-48)));
  (3%N, (#, #, #, (-302852298247679) @ (-44)));
  (5%N, (#, #, (-609902861438431) @ (-45), (-4392620273043229) @ (-48)));
  (6%N, ((-3359775170817407) @ (-48), (-8871297742822353) @ (-49), (-5539143631719069) @ (-49), (-5284928642866595) @ (-49)));
  (7%N, (#, #, #, (-302852298247679) @ (-44)));
  (8%N, (#, #, #, (-4650533185457697) @ (-48)));
  (9%N, ((-1371578589124813) @ (-47), (-1925169055947837) @ (-47), (-1451481723087801) @ (-47), (-2908691685533637) @ (-48)));
  (10%N, (#, #, #, (-302852298247679) @ (-44)));
  (11%N, ((-8069731831600423) @ (-50), (-7228908679034541) @ (-50), (-2590610170671867) @ (-49), (-3082036300506105) @ (-49)));
  (12%N, (#, #, (-3695707134388909) @ (-48), (-7127668759912815) @ (-49)));
  (13%N, ((-3063576879661641) @ (-48), (-712650916567559) @ (-46), (-5039894100394917) @ (-49), (-1245946813266777) @ (-47)));
  (15%N, ((-6212452597894135) @ (-49), #, (-4426206392587813) @ (-48), (-3355703919701135) @ (-48)));
  (16%N, (#, #, #, (-7835882333724349) @ (-49)));
  (17%N, (#, (-2891815782294217) @ (-48), (-5422922236190415) @ (-50), (-927273611507407) @ (-47)));
  (18%N, ((-601664483243635) @ (-46), (-5170644799025255) @ (-49), (-590914131534639) @ (-46), (-8125208757961983) @ (-50)));
  (19%N, (#, #, #, (-1797570806504343) @ (-47)));
  (20%N, ((-404505981231041) @ (-45), #, #, (-6991483479663675) @ (-49)));
  (21%N, (#, #, #, (-8910859197905059) @ (-49)));
  (22%N, ((-4260759154773655) @ (-48), #, #, (-7951171338784367) @ (-49)));
  (23%N, (#, #, #, (-7835882333724349) @ (-49)));
  (24%N, ((-2434448100196599) @ (-48), #, #, (-5839185308912819) @ (-49)));
  (25%N, ((-4919950212506679) @ (-49), (-5802635899289761) @ (-49), (-3673587795139739) @ (-49), (-5641165653706225) @ (-49)));
  (26%N, ((-6250996542308241) @ (-49), (-6975678712175689) @ (-49), (-6717008802539521) @ (-49), (-1436077739079997) @ (-47)));
  (27%N, (#, #, #, (-7795654513279065) @ (-49)));
  (28%N, ((-3903704958981611) @ (-48), (-6808895884777563) @ (-49), (-1870602565026865) @ (-47), (-7835882333724349) @ (-49)));
  (29%N, (#, #, #, (-7307683484381827) @ (-49)));
  (30%N, (#, (-1925169055947837) @ (-47), (-2146956065995973) @ (-47), (-1745563646303515) @ (-47)));
  (31%N, ((-2345291783587237) @ (-48), (-2834907615431351) @ (-48), (-5457709512909743) @ (-49), (-77610596960677) @ (-43)));
  (32%N, (#, #, #, (-4227173035229071) @ (-48)));
  (33%N, ((-2776060983799799) @ (-48), (-6325757073991575) @ (-49), (-5713432497279801) @ (-49), (-3281528722710867) @ (-48)));
  (34%N, (#, (-8871297742822353) @ (-49), #, (-8292395461171265) @ (-49)));
  (35%N, (#, #, #, (-271331332318175) @ (-44)));
  (36%N, (#, #, #, (-302852298247679) @ (-44)));
  (37%N, ((-2011133004627089) @ (-47), (-7082212487057555) @ (-49), #, (-8395033373076123) @ (-49)));
  (38%N, ((-6761857563197751) @ (-49), (-8252834006088559) @ (-49), (-2982268271276817) @ (-48), (-6403284594956799) @ (-49)));
  (39%N, (#, #, #, (-8130444851884389) @ (-49)));
  (40%N, ((-7556172614326021) @ (-49), (-491414177067389) @ (-45), #, (-472560260360877) @ (-45)));
  (41%N, ((-7556172614326021) @ (-49), (-5302986501741267) @ (-49), (-5757320943418829) @ (-49), (-1749038822580415) @ (-47)));
  (42%N, ((-5589180229514097) @ (-49), (-7385640542039271) @ (-49), (-3312949639450323) @ (-48), (-6632359995120511) @ (-49)));
  (43%N, ((-2524168117531809) @ (-48), (-1046039507519905) @ (-47), (-5024257361967903) @ (-49), (-302852298247679) @ (-44)));
  (44%N, (#, (-3736209830033945) @ (-48), (-3855333411915459) @ (-48), (-8064138897447807) @ (-49)));
  (45%N, ((-6237853144833625) @ (-49), (-1925169055947837) @ (-47), (-1870602565026865) @ (-47), (-3194372812263757) @ (-48)));
  (46%N, ((-2146956065995973) @ (-47), #, (-2146956065995973) @ (-47), (-8292395461171265) @ (-49)));
  (48%N, (#, #, #, (-4650533185457697) @ (-48)));
  (49%N, (#, #, #, (-4650533185457697) @ (-48)));
  (50%N, (#, #, #, (-4170689255897351) @ (-48)));
  (52%N, (#, #, #, (-70881326618687) @ (-42)));
  (53%N, (#, #, #, (-4650533185457697) @ (-48)));
  (54%N, (#, #, #, (-302852298247679) @ (-44)));
  (55%N, (#, (-1925169055947837) @ (-47), #, (-302852298247679) @ (-44)));
  (56%N, (#, #, #, (-7477852487122849) @ (-49)));
  (57%N, (#, #, #, (-271331332318175) @ (-44)));
  (58%N, ((-5298813441520685) @ (-49), (-1462630448776481) @ (-47), (-2748768160924579) @ (-48), (-1508903780562939) @ (-47)));
  (59%N, (#, #, #, (-8395033373076123) @ (-49)));
  (60%N, ((-5001045972670785) @ (-49), (-1147110783958799) @ (-47), (-962378369838983) @ (-47), (-4857275321627823) @ (-49)));
  (61%N, (#, #, #, (-4297911758076491) @ (-48)));
  (62%N, ((-2393358091363223) @ (-48), (-5440922924605929) @ (-49), (-1516826928205465) @ (-47), (-5431236648091109) @ (-49)));
  (64%N, (#, #, #, (-8395033373076123) @ (-49)));
  (65%N, (#, #, #, (-7614619027055453) @ (-49)));
  (66%N, (#, #, #, (-7523833130877875) @ (-49)));
  (67%N, ((-6857400519925933) @ (-49), (-3760701355345663) @ (-48), (-571248877892569) @ (-45), (-3390274909876681) @ (-48)));
  (68%N, (#, (-8871297742822353) @ (-49), #, (-271331332318175) @ (-44)));
  (69%N, (#, #, #, (-730957498048045) @ (-46)));
  (70%N, (#, #, #, (-4297911758076491) @ (-48)));
  (71%N, ((-4578347407236255) @ (-49), (-2496114829795519) @ (-48), (-4994348379884203) @ (-49), (-4890807031044719) @ (-49)));
  (72%N, ((-2011133004627089) @ (-47), #, (-571248877892569) @ (-45), (-3415348596671437) @ (-48)));
  (73%N, ((-2502939613987011) @ (-48), (-1046039507519905) @ (-47), (-4608437644587329) @ (-49), (-8395033373076123) @ (-49)));
  (74%N, (#, #, #, (-70881326618687) @ (-42)));
  (76%N, ((-6551267270149819) @ (-49), #, (-4684119305002281) @ (-48), (-7628871685880939) @ (-49)));
  (77%N, (#, #, #, (-8395033373076123) @ (-49)));
  (78%N, ((-7350896790516305) @ (-49), (-8871297742822353) @ (-49), (-7092203087097125) @ (-49), (-6859388750389055) @ (-49)));
  (79%N, ((-4785648355836715) @ (-49), (-3005360696119749) @ (-48), (-5712580188330589) @ (-49), (-2523073286304637) @ (-48)));
  (80%N, (#, #, #, (-7951171338784367) @ (-49)));
  (81%N, (#, #, #, (-2130163006223681) @ (-47)));
  (82%N, (#, #, #, (-8910859197905059) @ (-49)));
  (83%N, (#, #, #, (-7689790518313711) @ (-49)));
  (84%N, (#, #, #, (-271331332318175) @ (-44)));
  (85%N, ((-7298665317991735) @ (-49), (-1673001328511805) @ (-47), #, (-1590566825586219) @ (-47)));
  (86%N, (#, #, #, (-7628871685880939) @ (-49)));
  (87%N, (#, #, #, (-2001206550016447) @ (-47)));
  (88%N, (#, #, #, (-4650533185457697) @ (-48)));
  (89%N, (#, #, #, (-70881326618687) @ (-42)));
  (90%N, ((-2109040369448531) @ (-48), (-5504060891203069) @ (-49), (-4878975716844727) @ (-49), (-3596565415296681) @ (-49)));
  (91%N, (#, #, #, (-7614619027055453) @ (-49)));
  (92%N, ((-2257723054480267) @ (-48), (-5660353664389349) @ (-49), (-5136403593633149) @ (-49), (-150003402544799) @ (-44)));
  (94%N, (#, #, #, (-4650533185457697) @ (-48)));
  (98%N, (#, #, #, (-3888284818171165) @ (-48)));
  (99%N, (#, #, #, (-6686506730573393) @ (-49)));
  (100%N, (#, #, #, (-4170689255897351) @ (-48)));
  (101%N, ((-4563995386349115) @ (-49), (-1154646326419237) @ (-47), (-5036168068613945) @ (-49), (-5569066636179825) @ (-49)));
  (102%N, (#, #, #, (-7857128249604397) @ (-49)));
  (103%N, (#, #, #, (-4227173035229071) @ (-48)));
  (105%N, (#, #, #, (-8205616343142647) @ (-49)));
  (106%N, (#, #, #, (-8910859197905059) @ (-49)));
  (107%N, (#, #, #, (-271331332318175) @ (-44)));
  (108%N, (#, #, (-7615485311708039) @ (-49), (-8166776809352665) @ (-49)));
  (109%N, (#, #, #, (-4650533185457697) @ (-48)));
  (110%N, (#, #, #, (-70881326618687) @ (-42)));
  (111%N, (#, #, #, (-8395033373076123) @ (-49)));
  (112%N, (#, #, #, (-302852298247679) @ (-44)));
  (113%N, (#, #, #, (-4650533185457697) @ (-48)));
  (114%N, (#, (-8871297742822353) @ (-49), (-609902861438431) @ (-45), (-4297911758076491) @ (-48)));
  (116%N, ((-2635950761013257) @ (-48), (-101243867878125) @ (-43), (-8920963436009797) @ (-50), (-4650533185457697) @ (-48)));
  (117%N, ((-5141475941523119) @ (-49), (-6975678712175689) @ (-49), (-7579153354239763) @ (-49), (-6654931167934761) @ (-49)));
  (118%N, ((-321975163421637) @ (-45), (-6448324499080771) @ (-49), (-5766149889646123) @ (-49), (-2906389218897853) @ (-48)));
  (119%N, ((-5231351601756439) @ (-49), (-1473567016053351) @ (-47), (-2923822985911645) @ (-48), (-5269431597939735) @ (-49)));
  (122%N, (#, #, #, (-302852298247679) @ (-44)));
  (123%N, (#, (-6646945275490687) @ (-49), (-7013953676999103) @ (-49), (-7658507473194481) @ (-49)));
  (124%N, (#, #, #, (-8395033373076123) @ (-49)));
  (125%N, ((-2753752743897453) @ (-48), (-5874709523005207) @ (-49), (-5965203150036405) @ (-49), (-730957498048045) @ (-46)));
  (126%N, (#, #, #, (-8064138897447807) @ (-49)));
  (127%N, ((-6034686314485429) @ (-49), (-5636472924358379) @ (-49), (-2564251205976639) @ (-48), (-3207429064687847) @ (-48)));
  (128%N, ((-1548031821803145) @ (-47), (-3606862978324355) @ (-48), #, (-8395033373076123) @ (-49)));
  (129%N, (#, #, #, (-302852298247679) @ (-44)));
  (131%N, (#, #, #, (-8910859197905059) @ (-49)));
  (132%N, (#, #, #, (-4650533185457697) @ (-48)));
  (133%N, ((-629409045555227) @ (-46), (-101243867878125) @ (-43), (-1311461454542827) @ (-47), (-5842197354372467) @ (-49)));
  (135%N, (#, #, #, (-4650533185457697) @ (-48)));
  (136%N, ((-7122640226792847) @ (-49), (-3638170211376633) @ (-48), (-609902861438431) @ (-45), (-8205616343142647) @ (-49)));
  (137%N, (#, #, #, (-1969801887061797) @ (-47)));
  (140%N, (#, #, #, (-302852298247679) @ (-44)));
  (141%N, ((-6008154967125367) @ (-49), (-2826448632303685) @ (-48), (-3695707134388909) @ (-48), (-6305852876942395) @ (-49)));
  (144%N, (#, #, #, (-4650533185457697) @ (-48)));
  (145%N, ((-2667103455413467) @ (-48), (-2455892797552049) @ (-48), (-4640734785821225) @ (-49), (-70881326618687) @ (-42)));
  (146%N, (#, #, #, (-7835882333724349) @ (-49)));
  (149%N, (#, #, #, (-6878093127173811) @ (-49)));
  (150%N, (#, #, (-8233949048441833) @ (-49), (-1994339944854797) @ (-47)));
  (151%N, (#, #, #, (-5715613093477633) @ (-49)));
  (152%N, ((-6070515413542939) @ (-49), (-6240728968116259) @ (-49), (-3063576879661641) @ (-48), (-943539134077359) @ (-46)));
  (153%N, ((-4837443469679175) @ (-49), (-1132898897370353) @ (-47), (-3655278592706829) @ (-49), (-353293377623263) @ (-45)));
  (154%N, (#, #, #, (-2747971965566255) @ (-48)));
  (155%N, (#, #, #, (-5632359553083033) @ (-49)));
  (156%N, (#, #, #, (-6208747687246427) @ (-49)));
  (157%N, (#, #, #, (-2953723629370413) @ (-48)));
  (158%N, (#, #, #, (-6338435174200593) @ (-49)));
  (159%N, (#, #, #, (-302852298247679) @ (-44)));
  (162%N, (#, #, #, (-4650533185457697) @ (-48)));
  (163%N, ((-6064118186140053) @ (-49), (-3252133114292637) @ (-48), #, (-6722838688041669) @ (-49)));
  (164%N, (#, #, #, (-4650533185457697) @ (-48)));
  (165%N, (#, #, (-1839692586196131) @ (-47), (-8033701757752085) @ (-49)));
  (166%N, (#, #, #, (-7000866196083895) @ (-49)));
  (167%N, ((-8462205612165291) @ (-49), (-4240545284906009) @ (-48), #, (-8033701757752085) @ (-49)));
  (168%N, ((-4788940470209635) @ (-49), (-1295039918157329) @ (-47), (-353374491953959) @ (-45), (-6218091469442037) @ (-49)));
  (169%N, ((-8197617090973557) @ (-49), #, #, (-442294618973983) @ (-45)));
  (170%N, (#, #, #, (-4650533185457697) @ (-48)));
  (172%N, ((-5291913463858165) @ (-49), (-7015906532620973) @ (-49), (-4684119305002281) @ (-48), (-5611129047612189) @ (-49)));
  (173%N, ((-6163900893513105) @ (-49), (-22383551160859) @ (-41), (-1512690189172423) @ (-47), (-70881326618687) @ (-42)));
  (175%N, (#, #, (-7615485311708039) @ (-49), (-302852298247679) @ (-44)));
  (177%N, (#, #, #, (-302852298247679) @ (-44)));
  (178%N, ((-1529363771602843) @ (-47), (-6530054704760343) @ (-49), (-5700364558527349) @ (-49), (-3333936558074267) @ (-48)));
  (179%N, ((-7526233545963383) @ (-50), (-8200928010030301) @ (-50), (-2194254358110463) @ (-48), (-4470121658142505) @ (-49)));
  (180%N, ((-8978031436994227) @ (-49), #, #, (-271331332318175) @ (-44)));
  (181%N, ((-5298813441520685) @ (-49), (-1462630448776481) @ (-47), (-2748768160924579) @ (-48), (-4650533185457697) @ (-48)));
  (183%N, ((-4542437934293843) @ (-49), (-5205511012807407) @ (-49), (-4463668627839903) @ (-49), (-302852298247679) @ (-44)));
  (185%N, (#, #, #, (-302852298247679) @ (-44)));
  (186%N, (#, #, #, (-4227173035229071) @ (-48)));
  (187%N, ((-1400407315395609) @ (-47), (-398981976780441) @ (-45), (-7054022359647307) @ (-49), (-5381138892705997) @ (-49)));
  (189%N, (#, #, #, (-70881326618687) @ (-42)));
  (190%N, ((-2393358091363223) @ (-48), (-5440922924605929) @ (-49), (-1516826928205465) @ (-47), (-5431236648091109) @ (-49)));
  (191%N, (#, #, #, (-302852298247679) @ (-44)));
  (194%N, (#, (-6646945275490687) @ (-49), (-7013953676999103) @ (-49), (-7658507473194481) @ (-49)));
  (195%N, (#, #, #, (-302852298247679) @ (-44)));
  (196%N, (#, #, #, (-70881326618687) @ (-42)));
  (197%N, ((-1214538318499921) @ (-47), (-4564099996289657) @ (-49), (-8595428393770139) @ (-50), (-4650533185457697) @ (-48)));
  (198%N, (#, #, #, (-8395033373076123) @ (-49)));
  (199%N, (#, #, #, (-4650533185457697) @ (-48)));
  (200%N, (#, #, #, (-8395033373076123) @ (-49)));
  (201%N, ((-1986594946834089) @ (-47), (-6869814717210335) @ (-49), (-7681791266144621) @ (-49), (-3460785255448521) @ (-48)));
  (204%N, (#, #, #, (-70881326618687) @ (-42)));
  (205%N, (#, #, #, (-302852298247679) @ (-44)));
  (206%N, (#, #, #, (-302852298247679) @ (-44)));
  (207%N, ((-165047546135417) @ (-44), (-2461154165256317) @ (-48), (-8693689286576829) @ (-50), (-7707476314435641) @ (-50)));
  (209%N, ((-5840652714768727) @ (-49), (-5970252479733389) @ (-49), (-2794419161228131) @ (-48), (-2881444221273909) @ (-48)));
  (210%N, (#, #, #, (-302852298247679) @ (-44)));
  (211%N, (#, #, #, (-8395033373076123) @ (-49)));
  (212%N, (#, #, #, (-302852298247679) @ (-44)));
  (213%N, ((-2865817849153301) @ (-48), (-5505484279959921) @ (-49), (-2808434500578087) @ (-48), (-5731265186432357) @ (-49)));
  (214%N, ((-8018343577873535) @ (-49), (-841042158939437) @ (-46), (-1975763643203379) @ (-47), (-3733460538297031) @ (-48)));
  (215%N, (#, #, #, (-7857128249604397) @ (-49)));
  (216%N, (#, #, #, (-4650533185457697) @ (-48)));
  (217%N, (#, #, #, (-302852298247679) @ (-44)));
  (218%N, ((-7001207095767483) @ (-49), (-2738839315323893) @ (-48), (-1376433336467373) @ (-47), (-6771034946149301) @ (-49)));
  (219%N, (#, #, #, (-943539134077359) @ (-46)));
  (220%N, (#, #, #, (-4297911758076491) @ (-48)));
  (221%N, (#, #, #, (-70881326618687) @ (-42)));
  (223%N, (#, #, #, (-302852298247679) @ (-44)));
  (224%N, (#, #, #, (-302852298247679) @ (-44)));
  (225%N, (#, #, (-609902861438431) @ (-45), (-271331332318175) @ (-44)));
  (226%N, (#, #, #, (-70881326618687) @ (-42)));
  (227%N, (#, #, #, (-302852298247679) @ (-44)));
  (228%N, (#, #, #, (-302852298247679) @ (-44)));
  (229%N, ((-6106204366996795) @ (-49), #, #, (-4392620273043229) @ (-48)));
  (230%N, (#, #, #, (-7689790518313711) @ (-49)));
  (231%N, ((-5485744857256529) @ (-49), (-2706819035717497) @ (-48), (-162446545309967) @ (-44), (-2517618878903965) @ (-48)));
  (232%N, (#, #, #, (-8064138897447807) @ (-49)));
  (236%N, (#, #, #, (-2061833855653683) @ (-47)));
  (237%N, (#, #, #, (-1251272198291261) @ (-47)));
  (238%N, ((-3912641423100301) @ (-48), #, (-7320459650820583) @ (-49), (-3390274909876681) @ (-48)));
  (239%N, (#, #, #, (-302852298247679) @ (-44)));
  (240%N, (#, #, #, (-3879055303555717) @ (-48)));
  (241%N, ((-2713572061996479) @ (-48), (-7575057571972747) @ (-49), (-858821192549113) @ (-46), (-302852298247679) @ (-44)));
  (243%N, (#, (-6425952682918579) @ (-49), (-1870602565026865) @ (-47), (-70881326618687) @ (-42)));
  (244%N, (#, #, #, (-302852298247679) @ (-44)));
  (245%N, ((-2763228885162089) @ (-48), (-6794643225952077) @ (-49), (-7206819109466809) @ (-49), (-6184933564569943) @ (-49)));
  (249%N, ((-7908542525800779) @ (-50), (-8145234622012521) @ (-50), (-2114421250259749) @ (-48), (-4170689255897351) @ (-48)));
  (250%N, (#, #, #, (-4650533185457697) @ (-48)));
  (251%N, ((-1695354026101487) @ (-47), (-6615369712852055) @ (-49), (-6139744219169813) @ (-49), (-50275542397939) @ (-42)));
  (252%N, (#, #, #, (-2130163006223681) @ (-47)));
  (253%N, (#, #, #, (-70881326618687) @ (-42)));
  (254%N, (#, #, #, (-302852298247679) @ (-44)));
  (255%N, (#, #, #, (-302852298247679) @ (-44)))].

(** prob_emit.py, characters 0x5100 to 0x51ff *)
Definition emit_51 : list (N * num4) := [
  (0%N, ((-4720547275775367) @ (-49), (-2789210315202571) @ (-48), (-2485586346059613) @ (-48), (-5500204999158685) @ (-49)));
  (1%N, (#, #, (-609902861438431) @ (-45), (-7332707602050573) @ (-49)));
  (2%N, (#, #, (-3736309789678949) @ (-48), (-70881326618687) @ (-42)));
  (4%N, ((-1016273514426587) @ (-47), (-4754696091674643) @ (-49), (-6062530173934919) @ (-49), (-2509455496934803) @ (-48)));
  (5%N, (#, #, #, (-302852298247679) @ (-44)));
  (6%N, ((-8978031436994227) @ (-49), (-6808895884777563) @ (-49), (-609902861438431) @ (-45), (-7367903434101099) @ (-49)));
  (7%N, (#, #, #, (-4297911758076491) @ (-48)));
  (8%N, (#, (-1925169055947837) @ (-47), (-3984680263625049) @ (-48), (-8205616343142647) @ (-49)));
  (9%N, ((-3326197965972903) @ (-48), (-1445325126387491) @ (-47), (-1525271651225255) @ (-47), (-3879055303555717) @ (-48)));
  (10%N, (#, #, #, (-8205616343142647) @ (-49)));
  (11%N, ((-1986594946834089) @ (-47), #, (-1910269588269243) @ (-47), (-7795654513279065) @ (-49)));
  (12%N, ((-609902861438431) @ (-45), #, #, (-2001206550016447) @ (-47)));
  (13%N, (#, #, #, (-4650533185457697) @ (-48)));
  (14%N, (#, #, #, (-7600718321947853) @ (-49)));
  (15%N, (#, #, #, (-6373019742929881) @ (-49)));
  (16%N, ((-8462205612165291) @ (-49), (-4240545284906009) @ (-48), #, (-7643494584741751) @ (-49)));
  (18%N, ((-5479518097455745) @ (-49), (-5401659960970169) @ (-49), (-361123873511111) @ (-45), (-189939228193733) @ (-44)));
  (19%N, (#, #, #, (-7706109050846307) @ (-49)));
  (20%N, (#, #, (-8359567700260433) @ (-49), (-456223959081461) @ (-45)));
  (21%N, ((-7924300488693565) @ (-49), (-8871297742822353) @ (-49), (-8197617090973557) @ (-49), (-8033701757752085) @ (-49)));
  (23%N, (#, #, #, (-1848956007451337) @ (-47)));
  (25%N, (#, #, #, (-2130163006223681) @ (-47)));
  (26%N, (#, #, #, (-1672986475717779) @ (-47)));
  (28%N, (#, #, #, (-7689790518313711) @ (-49)));
  (31%N, ((-6034686314485429) @ (-49), (-5636472924358379) @ (-49), (-2564251205976639) @ (-48), (-3207429064687847) @ (-48)));
  (32%N, (#, #, #, (-4392620273043229) @ (-48)));
  (33%N, (#, (-7427359621511357) @ (-49), (-6186170089257855) @ (-49), (-70881326618687) @ (-42)));
  (34%N, (#, #, #, (-4650533185457697) @ (-48)));
  (35%N, (#, #, #, (-70881326618687) @ (-42)));
  (36%N, (#, #, #, (-8910859197905059) @ (-49)));
  (38%N, (#, #, #, (-4392620273043229) @ (-48)));
  (39%N, (#, #, #, (-4650533185457697) @ (-48)));
  (40%N, (#, #, #, (-1877995278787649) @ (-47)));
  (42%N, ((-7975722746489869) @ (-50), (-2500443079764647) @ (-48), (-5552762775811559) @ (-49), (-697446917557385) @ (-46)));
  (43%N, (#, #, #, (-1822899526423839) @ (-47)));
  (44%N, (#, #, #, (-302852298247679) @ (-44)));
  (45%N, (#, #, #, (-976926146266539) @ (-46)));
  (48%N, (#, #, #, (-271331332318175) @ (-44)));
  (50%N, ((-4788940470209635) @ (-49), (-1295039918157329) @ (-47), (-353374491953959) @ (-45), (-6218091469442037) @ (-49)));
  (51%N, (#, #, #, (-7614619027055453) @ (-49)));
  (52%N, (#, #, #, (-6228792001915903) @ (-49)));
  (53%N, (#, #, #, (-8910859197905059) @ (-49)));
  (55%N, (#, (-7385640542039271) @ (-49), (-3663958025301281) @ (-48), (-8166776809352665) @ (-49)));
  (56%N, (#, #, #, (-4650533185457697) @ (-48)));
  (57%N, (#, #, #, (-1809666128217651) @ (-47)));
  (58%N, ((-8197617090973557) @ (-49), #, #, (-442294618973983) @ (-45)));
  (59%N, (#, #, (-1839692586196131) @ (-47), (-8033701757752085) @ (-49)));
  (60%N, ((-3290170857472073) @ (-48), (-8871297742822353) @ (-49), (-4684119305002281) @ (-48), (-6925694704825637) @ (-49)));
  (61%N, (#, #, #, (-302852298247679) @ (-44)));
  (62%N, (#, #, #, (-302852298247679) @ (-44)));
  (63%N, ((-8523480423070327) @ (-50), (-8467720504250501) @ (-50), (-7144912537314105) @ (-50), (-4262802477829701) @ (-49)));
  (64%N, ((-5865798349038075) @ (-49), (-6463748750323761) @ (-49), (-6714478686130389) @ (-49), (-5787554957591571) @ (-49)));
  (65%N, ((-5164965151151361) @ (-49), (-5543815047376891) @ (-49), (-741836975493587) @ (-46), (-5635698035533919) @ (-49)));
  (66%N, (#, #, #, (-3107870472150495) @ (-48)));
  (67%N, ((-1061164641842005) @ (-47), (-860916854749181) @ (-47), (-1793077691134069) @ (-48), (-7820214187144353) @ (-50)));
  (68%N, ((-4529222416178537) @ (-49), (-4725069933939251) @ (-49), (-4779608237496157) @ (-49), (-319581103717105) @ (-45)));
  (69%N, ((-2130999564193095) @ (-48), (-2813775592637523) @ (-48), (-4966514082812897) @ (-49), (-2778100374575255) @ (-48)));
  (70%N, ((-6656935875530257) @ (-49), (-4453840164429401) @ (-49), (-2917401225018751) @ (-48), (-5685099791980615) @ (-49)));
  (71%N, ((-5207068238924219) @ (-49), (-5973515966863759) @ (-49), (-6273608013626637) @ (-49), (-5512512223899719) @ (-49)));
  (72%N, ((-1825684868035189) @ (-48), (-8060615119742389) @ (-50), (-8241777371061923) @ (-50), (-7956120332746165) @ (-50)));
  (73%N, ((-1994767402435841) @ (-48), (-7605070389399825) @ (-50), (-7720387155677367) @ (-50), (-8916114847224243) @ (-50)));
  (74%N, (#, #, #, (-4392620273043229) @ (-48)));
  (75%N, ((-1148794305466181) @ (-47), (-3277117259357017) @ (-49), (-8055079694035929) @ (-50), (-1192275704509415) @ (-47)));
  (76%N, ((-2773035198194369) @ (-48), (-8871297742822353) @ (-49), (-6335747674031145) @ (-49), (-22097751748369) @ (-41)));
  (77%N, ((-148273269739971) @ (-44), (-5485877075839019) @ (-49), (-8565006931853517) @ (-50), (-5476054171693897) @ (-49)));
  (78%N, (#, #, #, (-302852298247679) @ (-44)));
  (79%N, (#, #, #, (-7658507473194481) @ (-49)));
  (80%N, ((-7681791266144621) @ (-49), #, #, (-2130163006223681) @ (-47)));
  (81%N, ((-2773035198194369) @ (-48), (-8871297742822353) @ (-49), (-6335747674031145) @ (-49), (-22097751748369) @ (-41)));
  (82%N, ((-8523480423070327) @ (-50), (-8467720504250501) @ (-50), (-7144912537314105) @ (-50), (-4262802477829701) @ (-49)));
  (83%N, (#, #, #, (-4392620273043229) @ (-48)));
  (84%N, ((-3055684540847031) @ (-48), (-6669024574133477) @ (-49), (-3190672362444803) @ (-48), (-188036986460185) @ (-44)));
  (85%N, (#, #, (-4684119305002281) @ (-48), (-8064138897447807) @ (-49)));
  (86%N, ((-3408305968228237) @ (-48), (-8871297742822353) @ (-49), (-609902861438431) @ (-45), (-1745563646303515) @ (-47)));
  (87%N, ((-3408305968228237) @ (-48), (-8871297742822353) @ (-49), (-609902861438431) @ (-45), (-271331332318175) @ (-44)));
  (88%N, (#, #, #, (-5768159548038037) @ (-49)));
  (90%N, ((-8636310848008731) @ (-50), (-8323161810008979) @ (-50), (-3897575120536487) @ (-49), (-1006912066498183) @ (-47)));
  (92%N, ((-793268611604885) @ (-46), (-1648815554978729) @ (-47), (-3312949639450323) @ (-48), (-5758706808067767) @ (-49)));
  (93%N, (#, #, #, (-302852298247679) @ (-44)));
  (94%N, (#, #, #, (-302852298247679) @ (-44)));
  (96%N, (#, #, #, (-2130163006223681) @ (-47)));
  (98%N, ((-3538790094118157) @ (-48), (-2738839315323893) @ (-48), (-6507662259421707) @ (-49), (-7065990723112215) @ (-49)));
  (101%N, ((-545505213683127) @ (-46), (-8799490653217293) @ (-50), (-3375068868208489) @ (-49), (-4110253385799469) @ (-49)));
  (102%N, (#, #, #, (-302852298247679) @ (-44)));
  (103%N, ((-7196343271598653) @ (-50), (-7690437180315653) @ (-50), (-7495874206639741) @ (-50), (-7195975399434639) @ (-50)));
  (104%N, ((-5903574392631009) @ (-50), (-7664607577485719) @ (-50), (-7761201944815045) @ (-50), (-8116488911660281) @ (-50)));
  (105%N, ((-6323070655800607) @ (-50), (-4167372351441727) @ (-49), (-4987964586678409) @ (-49), (-7370083218805177) @ (-50)));
  (107%N, ((-2032524212416027) @ (-48), (-7011264806977741) @ (-50), (-2467684338200089) @ (-48), (-2337074403202103) @ (-48)));
  (108%N, ((-1492348810548971) @ (-48), (-1403974201264715) @ (-48), (-8650419873617497) @ (-50), (-150934809973795) @ (-44)));
  (109%N, ((-2146589758610445) @ (-48), (-3680178420688919) @ (-49), (-1269678804693091) @ (-47), (-2302500744990203) @ (-48)));
  (110%N, (#, (-1572547628566631) @ (-47), (-6901376920123951) @ (-49), (-6122962302844643) @ (-49)));
  (111%N, (#, #, #, (-302852298247679) @ (-44)));
  (112%N, ((-2514331403054713) @ (-48), (-7458991330834807) @ (-50), (-8437839510648071) @ (-50), (-2808585751130761) @ (-48)));
  (113%N, ((-7925574189620167) @ (-50), (-1523140701595953) @ (-48), (-4513772849591937) @ (-49), (-2018762310710469) @ (-48)));
  (114%N, (#, #, #, (-302852298247679) @ (-44)));
  (115%N, ((-3407548468253633) @ (-49), (-501756777706807) @ (-46), (-863687685628967) @ (-47), (-146926898068229) @ (-44)));
  (116%N, ((-8490259231608715) @ (-50), (-4023401376602801) @ (-49), (-8610288766153959) @ (-50), (-4982211832393161) @ (-49)));
  (117%N, ((-8692711126406443) @ (-50), (-8471299526835705) @ (-50), (-1906687528764749) @ (-48), (-8443696740266623) @ (-50)));
  (118%N, ((-3314279886540507) @ (-49), (-7434343063546817) @ (-50), (-4020392190130971) @ (-49), (-3400330268146933) @ (-49)));
  (119%N, ((-7594248959414797) @ (-50), (-1185334018056981) @ (-47), (-2188418288675237) @ (-48), (-4772886461348509) @ (-49)));
  (120%N, ((-2428936657729633) @ (-48), (-2473827204922479) @ (-48), (-8741590788304181) @ (-50), (-5533060123629061) @ (-49)));
  (121%N, ((-1814363866276635) @ (-47), (-4964299827097909) @ (-49), (-5590892886610603) @ (-49), (-3091912151609537) @ (-48)));
  (122%N, (#, #, #, (-302852298247679) @ (-44)));
  (123%N, ((-4603606450426375) @ (-49), (-4606911482421473) @ (-49), (-16675406947323) @ (-41), (-5128561054084031) @ (-49)));
  (124%N, ((-1204215266478471) @ (-47), (-5496997436510979) @ (-49), (-1762356706075807) @ (-47), (-4637092011419907) @ (-49)));
  (125%N, ((-1525696840335231) @ (-47), (-1578412539191041) @ (-47), (-2675601875183011) @ (-48), (-2699634792924853) @ (-48)));
  (126%N, (#, #, #, (-8910859197905059) @ (-49)));
  (127%N, (#, #, #, (-302852298247679) @ (-44)));
  (128%N, ((-2879121906200805) @ (-48), (-5324270673199015) @ (-49), (-3189974778502349) @ (-48), (-6301738729860781) @ (-49)));
  (130%N, (#, #, #, (-8910859197905059) @ (-49)));
  (131%N, (#, #, #, (-70881326618687) @ (-42)));
  (133%N, ((-7196343271598653) @ (-50), (-7690437180315653) @ (-50), (-7495874206639741) @ (-50), (-7195975399434639) @ (-50)));
  (134%N, ((-2146956065995973) @ (-47), (-1925169055947837) @ (-47), (-2146956065995973) @ (-47), #));
  (135%N, (#, #, #, (-70881326618687) @ (-42)));
  (136%N, ((-6179298775224113) @ (-49), (-4396555799926839) @ (-49), (-5168842009768139) @ (-49), (-5944593708687941) @ (-49)));
  (137%N, ((-6250996542308241) @ (-49), (-384016428008523) @ (-45), (-6295964241005071) @ (-49), (-6786983603534937) @ (-49)));
  (138%N, ((-3001212573571065) @ (-48), (-5695186420030371) @ (-49), (-2456764133335371) @ (-48), (-302852298247679) @ (-44)));
  (140%N, ((-3001212573571065) @ (-48), (-5695186420030371) @ (-49), (-2456764133335371) @ (-48), (-2832452062282755) @ (-48)));
  (141%N, ((-4191129280468877) @ (-49), (-5021014800495265) @ (-49), (-1177206942751385) @ (-47), (-1770729699351325) @ (-48)));
  (143%N, (#, #, (-609902861438431) @ (-45), (-3951094144080465) @ (-48)));
  (144%N, (#, #, #, (-70881326618687) @ (-42)));
  (145%N, (#, (-3887923857524803) @ (-48), (-6541900166291575) @ (-49), (-8292395461171265) @ (-49)));
  (146%N, ((-5235168226229069) @ (-49), (-2836822418575591) @ (-48), (-2923822985911645) @ (-48), (-4871094651118633) @ (-49)));
  (147%N, (#, #, #, (-4170689255897351) @ (-48)));
  (149%N, ((-4204275375441935) @ (-48), (-6284475237223739) @ (-49), (-3109348049726011) @ (-48), (-3605255574468759) @ (-48)));
  (150%N, (#, #, #, (-302852298247679) @ (-44)));
  (151%N, ((-1730723387525197) @ (-47), (-8871297742822353) @ (-49), (-8359567700260433) @ (-49), (-7183698940977469) @ (-49)));
  (153%N, ((-294105398796391) @ (-45), (-1539430114996847) @ (-47), (-1174494743982297) @ (-47), (-2103400759453497) @ (-48)));
  (154%N, (#, #, #, (-302852298247679) @ (-44)));
  (155%N, ((-6980754716683807) @ (-50), (-6910620207916553) @ (-50), (-6517640807955241) @ (-50), (-7886014380232183) @ (-50)));
  (156%N, ((-7187221485165889) @ (-50), (-3954177547027665) @ (-49), (-2529651784234135) @ (-48), (-340448663375475) @ (-45)));
  (157%N, (#, #, #, (-8910859197905059) @ (-49)));
  (158%N, (#, #, #, (-4650533185457697) @ (-48)));
  (159%N, (#, #, #, (-302852298247679) @ (-44)));
  (160%N, ((-5003095038032981) @ (-49), (-1157025463702395) @ (-47), (-5347406811073041) @ (-49), (-5571675478766015) @ (-49)));
  (161%N, (#, #, #, (-4650533185457697) @ (-48)));
  (162%N, ((-4204275375441935) @ (-48), (-5647369070067195) @ (-49), (-7502517753044599) @ (-49), (-193594266245197) @ (-44)));
  (163%N, (#, #, #, (-8910859197905059) @ (-49)));
  (164%N, ((-1401108375317765) @ (-47), (-3125675490238271) @ (-48), (-3232784335298843) @ (-48), (-5904740763366999) @ (-49)));
  (165%N, ((-6415910052926391) @ (-49), (-1467992525441935) @ (-47), (-1723595915767347) @ (-47), (-6249576445556469) @ (-49)));
  (166%N, (#, #, #, (-7283724551427137) @ (-49)));
  (167%N, (#, #, #, (-6777360293071555) @ (-49)));
  (168%N, ((-2146956065995973) @ (-47), #, #, (-3154306220531727) @ (-48)));
  (169%N, (#, #, #, (-6702984490925865) @ (-49)));
  (170%N, ((-7556172614326021) @ (-49), #, (-1986594946834089) @ (-47), (-7065990723112215) @ (-49)));
  (171%N, (#, #, #, (-70881326618687) @ (-42)));
  (172%N, ((-1246785583269783) @ (-47), (-2312555307644113) @ (-48), (-1352554430328277) @ (-47), (-2789598316050377) @ (-48)));
  (173%N, (#, #, #, (-3396745883983567) @ (-48)));
  (174%N, ((-609902861438431) @ (-45), #, #, (-850424662662967) @ (-46)));
  (175%N, ((-4582279155268171) @ (-49), (-428372245208381) @ (-45), (-6915629578949437) @ (-49), (-756067158084083) @ (-46)));
  (176%N, ((-4747115272763839) @ (-49), (-9121961308711) @ (-40), (-5257678062607317) @ (-49), (-5365642674144675) @ (-49)));
  (177%N, (#, #, #, (-302852298247679) @ (-44)));
  (178%N, ((-8706787896630639) @ (-50), (-4532354111877897) @ (-49), (-4611862400050295) @ (-49), (-4604331071950211) @ (-49)));
  (179%N, ((-7227635423550775) @ (-50), (-8759044215002423) @ (-50), (-508082586834451) @ (-46), (-2472403751608259) @ (-48)));
  (180%N, ((-8197617090973557) @ (-49), (-7082212487057555) @ (-49), (-2146956065995973) @ (-47), (-302852298247679) @ (-44)));
  (181%N, ((-2959866399042289) @ (-48), (-1508936377477061) @ (-47), (-7469555837767757) @ (-50), (-6366850366627415) @ (-49)));
  (182%N, ((-681305692719799) @ (-46), (-2586504241598975) @ (-48), (-708645044052325) @ (-46), (-3136876011356863) @ (-48)));
  (183%N, ((-8890431150334561) @ (-50), (-1193157398951459) @ (-47), (-5266670147693755) @ (-49), (-2440268076784847) @ (-48)));
  (187%N, ((-5826921547368603) @ (-49), (-377463309330355) @ (-45), (-5893880046161803) @ (-49), (-2922309324113695) @ (-48)));
  (188%N, ((-6933968332578247) @ (-49), #, (-609902861438431) @ (-45), (-472560260360877) @ (-45)));
  (189%N, ((-609902861438431) @ (-45), #, (-863557268122675) @ (-46), (-1994339944854797) @ (-47)));
  (191%N, (#, #, #, (-7015240167258395) @ (-49)));
  (192%N, ((-681943429562399) @ (-46), (-5099121476813677) @ (-49), (-1274347666788979) @ (-47), (-5426021428516799) @ (-49)));
  (195%N, (#, #, #, (-302852298247679) @ (-44)));
  (196%N, ((-1412637185387191) @ (-47), (-7131195537680991) @ (-49), (-8100873996841253) @ (-49), (-1713019402318041) @ (-47)));
  (198%N, ((-2064517417083985) @ (-48), (-4769536456411897) @ (-49), (-2002637521324571) @ (-48), (-5070303494624257) @ (-49)));
  (199%N, (#, (-8871297742822353) @ (-49), (-7654324845498021) @ (-49), (-6991483479663675) @ (-49)));
  (200%N, (#, #, #, (-4227173035229071) @ (-48)));
  (201%N, ((-2729939962528593) @ (-48), (-5174589804331605) @ (-49), (-1312909239714213) @ (-47), (-1382569170461915) @ (-47)));
  (202%N, (#, #, (-609902861438431) @ (-45), (-302852298247679) @ (-44)));
  (203%N, ((-6711959890190475) @ (-49), (-1925169055947837) @ (-47), #, (-7231493078902567) @ (-49)));
  (204%N, ((-5075959706890877) @ (-49), (-4816140940253803) @ (-49), (-5893292722213463) @ (-49), (-1590566825586219) @ (-47)));
  (205%N, ((-5826921547368603) @ (-49), (-377463309330355) @ (-45), (-5893880046161803) @ (-49), (-2922309324113695) @ (-48)));
  (206%N, (#, #, #, (-302852298247679) @ (-44)));
  (207%N, ((-4369500849944615) @ (-49), (-6028481538756893) @ (-49), (-2697013597492827) @ (-48), (-5381671736998899) @ (-49)));
  (209%N, ((-5862454082053899) @ (-49), (-3606862978324355) @ (-48), (-6402698104729783) @ (-49), (-5614746732022771) @ (-49)));
  (210%N, (#, #, #, (-70881326618687) @ (-42)));
  (211%N, (#, #, #, (-302852298247679) @ (-44)));
  (212%N, (#, #, #, (-4650533185457697) @ (-48)));
  (213%N, (#, #, #, (-302852298247679) @ (-44)));
  (214%N, (#, #, #, (-8064138897447807) @ (-49)));
  (215%N, (#, #, #, (-4297911758076491) @ (-48)));
  (216%N, (#, #, #, (-4650533185457697) @ (-48)));
  (219%N, ((-6344838182227367) @ (-49), (-5399294621551587) @ (-49), (-6230325526131515) @ (-49), (-3108457490041485) @ (-48)));
  (220%N, ((-6344838182227367) @ (-49), (-5399294621551587) @ (-49), (-6230325526131515) @ (-49), (-3108457490041485) @ (-48)));
  (221%N, ((-5046116037496581) @ (-49), (-4887020543226127) @ (-49), (-1610436237098159) @ (-47), (-2940151954188827) @ (-48)));
  (222%N, (#, #, #, (-70881326618687) @ (-42)));
  (224%N, ((-107906789001893) @ (-44), (-1969183284291641) @ (-48), (-699724512432187) @ (-46), (-4609852213703117) @ (-49)));
  (225%N, ((-5161434666668115) @ (-49), (-5115990153217711) @ (-49), (-1275135111555311) @ (-47), (-4849765038542759) @ (-49)));
  (228%N, ((-1213422639752005) @ (-47), (-4275728240460371) @ (-49), (-4916833670388895) @ (-49), (-5851945649099841) @ (-49)));
  (229%N, (#, #, #, (-302852298247679) @ (-44)));
  (230%N, (#, #, #, (-8910859197905059) @ (-49)));
  (232%N, (#, #, #, (-4650533185457697) @ (-48)));
  (235%N, ((-4331497877621075) @ (-48), #, #, (-7500373488380235) @ (-49)));
  (236%N, (#, #, #, (-302852298247679) @ (-44)));
  (237%N, ((-5311200078820145) @ (-49), (-6547927632997723) @ (-49), (-5910578938617203) @ (-49), (-4821081204539197) @ (-49)));
  (238%N, (#, #, #, (-4297911758076491) @ (-48)));
  (239%N, ((-5366192411850255) @ (-49), (-2505726393979917) @ (-48), (-2479379991709393) @ (-48), (-6369926603535943) @ (-49)));
  (240%N, (#, (-5380721392106603) @ (-49), (-176880171129593) @ (-44), (-6973174550407917) @ (-49)));
  (241%N, ((-5366192411850255) @ (-49), (-2505726393979917) @ (-48), (-2479379991709393) @ (-48), (-6369926603535943) @ (-49)));
  (243%N, ((-6457514885832195) @ (-49), #, (-95382707368689) @ (-43), (-6297654431751161) @ (-49)));
  (245%N, (#, #, #, (-976926146266539) @ (-46)));
  (246%N, ((-5207068238924219) @ (-49), (-5973515966863759) @ (-49), (-6273608013626637) @ (-49), (-5512512223899719) @ (-49)));
  (247%N, (#, #, #, (-302852298247679) @ (-44)));
  (248%N, ((-371676887012489) @ (-45), (-794651871930237) @ (-46), (-3206473575797559) @ (-48), (-1530989448434467) @ (-47)));
  (249%N, ((-97332161282949) @ (-43), (-3760701355345663) @ (-48), (-3470737221580077) @ (-48), (-6037321032506929) @ (-49)));
  (250%N, ((-6134330978986463) @ (-50), (-8143447124265617) @ (-50), (-6256490078615777) @ (-50), (-411997605952855) @ (-46)));
  (251%N, ((-1225099188230675) @ (-47), (-2042983817051395) @ (-48), (-8047040100309039) @ (-50), (-4968483824074821) @ (-49)));
  (252%N, ((-8462205612165291) @ (-49), (-3982632372491541) @ (-48), (-571248877892569) @ (-45), (-7245928484021955) @ (-49)));
  (253%N, ((-5270540564819393) @ (-49), (-2834907615431351) @ (-48), (-3140286215885321) @ (-48), (-3073158072790005) @ (-48)));
  (255%N, ((-1730723387525197) @ (-47), (-6680397687276859) @ (-49), (-6137022457445285) @ (-49), (-1449098598160475) @ (-47)))].

(** prob_emit.py, characters 0x5200 to 0x52ff *)
Definition emit_52 : list (N * num4) := [
  (0%N, ((-77660322856775) @ (-43), (-1206891336226473) @ (-47), (-2284109043207395) @ (-48), (-1137231176672307) @ (-47)));
  (1%N, ((-6175409640906853) @ (-49), (-3887923857524803) @ (-48), (-8100873996841253) @ (-49), (-7055467987703679) @ (-49)));
  (2%N, (#, #, #, (-6686506730573393) @ (-49)));
  (3%N, ((-3767046657841615) @ (-48), (-1412762123656457) @ (-47), (-1336629280772767) @ (-47), (-5787554957591571) @ (-49)));
  (4%N, (#, #, #, (-7835882333724349) @ (-49)));
  (6%N, ((-3182824789415815) @ (-49), (-7024078864128811) @ (-50), (-6548807169112625) @ (-50), (-951641349446511) @ (-47)));
  (7%N, ((-151433549998345) @ (-44), (-600515393695601) @ (-46), (-8047082487129067) @ (-50), (-647403926947549) @ (-46)));
  (8%N, ((-609902861438431) @ (-45), #, (-609902861438431) @ (-45), (-1713019402318041) @ (-47)));
  (10%N, ((-1345456918653213) @ (-47), (-6338130098505161) @ (-49), (-5088326623039671) @ (-49), (-1531238762030853) @ (-47)));
  (11%N, (#, #, #, (-302852298247679) @ (-44)));
  (12%N, (#, #, #, (-302852298247679) @ (-44)));
  (13%N, ((-2011133004627089) @ (-47), (-7385640542039271) @ (-49), (-7545024726212017) @ (-49), (-7245928484021955) @ (-49)));
  (14%N, ((-609902861438431) @ (-45), #, (-6670779604780977) @ (-49), (-3951094144080465) @ (-48)));
  (17%N, ((-2435114877102979) @ (-48), (-5749640358739673) @ (-49), (-5062380902079909) @ (-49), (-1382916670609711) @ (-47)));
  (18%N, ((-4743982033413685) @ (-49), (-2151080564872457) @ (-48), (-3847541075266747) @ (-49), (-5283807451590943) @ (-49)));
  (19%N, (#, #, #, (-271331332318175) @ (-44)));
  (21%N, (#, #, #, (-7065990723112215) @ (-49)));
  (22%N, (#, #, #, (-7245928484021955) @ (-49)));
  (23%N, ((-8744264575747325) @ (-50), (-4211099911322073) @ (-49), (-8319640014854643) @ (-50), (-300944149125495) @ (-45)));
  (24%N, ((-1842264736113121) @ (-48), (-640940432772667) @ (-46), (-6378557838240453) @ (-49), (-2404597157644279) @ (-48)));
  (25%N, ((-3767046657841615) @ (-48), (-300592420804541) @ (-45), (-4110306232564491) @ (-49), (-7697418860127823) @ (-50)));
  (26%N, ((-8847683682359015) @ (-50), (-5084090366672507) @ (-49), (-4489883536571651) @ (-49), (-2256526071856967) @ (-48)));
  (27%N, ((-3895849420584137) @ (-49), (-1321823375203445) @ (-47), (-1280774152331293) @ (-47), (-5231641202431517) @ (-49)));
  (28%N, (#, #, #, (-8910859197905059) @ (-49)));
  (29%N, ((-4225191907104611) @ (-49), (-1321823375203445) @ (-47), (-2257850033765459) @ (-48), (-1078502019675999) @ (-47)));
  (30%N, (#, #, #, (-7658507473194481) @ (-49)));
  (31%N, (#, #, #, (-302852298247679) @ (-44)));
  (32%N, ((-6162005437333793) @ (-49), #, (-7725679712283649) @ (-49), (-3344609873824017) @ (-48)));
  (33%N, (#, #, #, (-70881326618687) @ (-42)));
  (36%N, ((-4682327003331439) @ (-49), (-4597459544044023) @ (-49), (-4525850050259811) @ (-49), (-5642011559129733) @ (-49)));
  (37%N, ((-2087670131121935) @ (-48), (-4287723596845499) @ (-49), (-7242036820935779) @ (-50), (-8623225766235149) @ (-50)));
  (39%N, (#, #, #, (-302852298247679) @ (-44)));
  (40%N, ((-7054022359647307) @ (-49), (-8252834006088559) @ (-49), (-2146956065995973) @ (-47), (-6076221587374789) @ (-49)));
  (41%N, ((-7578651096838759) @ (-50), (-6313660520302323) @ (-50), (-7260770541584227) @ (-50), (-2439012343063227) @ (-48)));
  (42%N, ((-6162005437333793) @ (-49), #, (-7725679712283649) @ (-49), (-3344609873824017) @ (-48)));
  (43%N, ((-2087670131121935) @ (-48), (-4287723596845499) @ (-49), (-7242036820935779) @ (-50), (-8623225766235149) @ (-50)));
  (44%N, (#, #, #, (-4650533185457697) @ (-48)));
  (45%N, (#, #, (-609902861438431) @ (-45), (-2130163006223681) @ (-47)));
  (46%N, ((-5991137551879271) @ (-49), (-3256365900473599) @ (-48), (-6901376920123951) @ (-49), (-5647541146009267) @ (-49)));
  (47%N, (#, #, #, (-302852298247679) @ (-44)));
  (48%N, ((-8406726827495875) @ (-50), (-2178606455385951) @ (-48), (-5985846208801939) @ (-50), (-350628646291631) @ (-46)));
  (50%N, (#, #, #, (-302852298247679) @ (-44)));
  (51%N, (#, #, #, (-8292395461171265) @ (-49)));
  (53%N, (#, #, #, (-302852298247679) @ (-44)));
  (54%N, ((-7023462196709387) @ (-50), (-8028309982718175) @ (-50), (-3428570368973603) @ (-49), (-4415526964349729) @ (-49)));
  (55%N, ((-1487192571465177) @ (-47), (-2706819035717497) @ (-48), (-5423564956919189) @ (-49), (-676895958569083) @ (-46)));
  (56%N, ((-5942329140609933) @ (-49), (-2430286518400265) @ (-48), (-1231822487703009) @ (-47), (-3091912151609537) @ (-48)));
  (57%N, ((-3028503572403873) @ (-48), (-1436314850785075) @ (-47), (-5959231910102821) @ (-49), (-3317411837498811) @ (-48)));
  (58%N, ((-4730875568815393) @ (-49), (-5970252479733389) @ (-49), (-5221654616387387) @ (-49), (-2346718863745033) @ (-48)));
  (59%N, ((-5201028871156411) @ (-49), (-4738409750091197) @ (-49), (-8156271548778369) @ (-50), (-5281348662894531) @ (-49)));
  (60%N, (#, #, #, (-8910859197905059) @ (-49)));
  (61%N, ((-3543643231182759) @ (-48), #, #, (-4048158111928321) @ (-48)));
  (63%N, (#, #, #, (-8395033373076123) @ (-49)));
  (64%N, (#, (-4240545284906009) @ (-48), (-7374855723470995) @ (-49), (-4048158111928321) @ (-48)));
  (65%N, ((-8197617090973557) @ (-49), #, #, (-5916334327814161) @ (-49)));
  (66%N, ((-1525696840335231) @ (-47), (-6605226196018601) @ (-49), (-4635368206062429) @ (-49), (-5532711439843729) @ (-49)));
  (67%N, ((-3245222661329465) @ (-48), (-4240545284906009) @ (-48), #, (-3075761930181427) @ (-48)));
  (68%N, (#, #, (-609902861438431) @ (-45), (-4650533185457697) @ (-48)));
  (69%N, (#, #, #, (-1349748660203011) @ (-47)));
  (71%N, ((-3767046657841615) @ (-48), (-300592420804541) @ (-45), (-4110306232564491) @ (-49), (-4392620273043229) @ (-48)));
  (72%N, (#, #, #, (-302852298247679) @ (-44)));
  (73%N, (#, #, #, (-2403586647197309) @ (-48)));
  (74%N, ((-5505143869424613) @ (-49), (-2889489529576693) @ (-48), (-5510471511270575) @ (-49), (-5608730109521345) @ (-49)));
  (75%N, (#, #, #, (-8395033373076123) @ (-49)));
  (76%N, (#, (-6000328174823807) @ (-49), (-4260759154773655) @ (-48), (-2912181089436575) @ (-48)));
  (77%N, ((-3658604861126329) @ (-49), (-2234052054613715) @ (-48), (-6738331216764181) @ (-50), (-868038448668935) @ (-47)));
  (78%N, ((-3028503572403873) @ (-48), (-1436314850785075) @ (-47), (-5959231910102821) @ (-49), (-3870118839437027) @ (-48)));
  (80%N, (#, #, (-7122640226792847) @ (-49), (-1656258248562015) @ (-47)));
  (81%N, ((-2554319252267305) @ (-48), (-8773016264919941) @ (-50), (-2270420984255499) @ (-48), (-4378312346892449) @ (-49)));
  (82%N, (#, #, #, (-4227173035229071) @ (-48)));
  (84%N, ((-858821192549113) @ (-46), (-6404436052941743) @ (-49), (-3289177999381927) @ (-48), (-6951095251765127) @ (-49)));
  (85%N, (#, #, #, (-8292395461171265) @ (-49)));
  (86%N, ((-6040755914559099) @ (-49), (-723835402746273) @ (-46), (-6237853144833625) @ (-49), (-6569616159843049) @ (-49)));
  (90%N, (#, #, #, (-271331332318175) @ (-44)));
  (91%N, ((-8847683682359015) @ (-50), (-5084090366672507) @ (-49), (-4489883536571651) @ (-49), (-4392620273043229) @ (-48)));
  (92%N, ((-609902861438431) @ (-45), #, #, (-6783757520474441) @ (-49)));
  (93%N, ((-2598718053698887) @ (-48), (-7385640542039271) @ (-49), (-6968563171774189) @ (-49), (-5791405143262909) @ (-49)));
  (94%N, (#, #, #, (-4650533185457697) @ (-48)));
  (95%N, (#, #, #, (-271331332318175) @ (-44)));
  (96%N, (#, #, #, (-8205616343142647) @ (-49)));
  (97%N, ((-8100873996841253) @ (-49), #, (-4426206392587813) @ (-48), (-3951094144080465) @ (-48)));
  (98%N, (#, #, #, (-7926147221115621) @ (-49)));
  (100%N, (#, #, #, (-472560260360877) @ (-45)));
  (101%N, ((-2598718053698887) @ (-48), (-7385640542039271) @ (-49), (-6968563171774189) @ (-49), (-5791405143262909) @ (-49)));
  (102%N, (#, #, #, (-8205616343142647) @ (-49)));
  (103%N, ((-4658129062053283) @ (-49), (-4692200232906733) @ (-49), (-2233716474985397) @ (-48), (-2740719131460905) @ (-48)));
  (104%N, (#, #, #, (-4392620273043229) @ (-48)));
  (105%N, ((-295716969974741) @ (-45), (-3172210053778219) @ (-48), (-6066508635393979) @ (-49), (-5455626038694487) @ (-49)));
  (106%N, ((-5595024647935385) @ (-49), (-7427359621511357) @ (-49), (-6418888631057237) @ (-49), (-5537612776369661) @ (-49)));
  (110%N, (#, #, (-7122640226792847) @ (-49), (-4650533185457697) @ (-48)));
  (111%N, ((-2625536957507931) @ (-48), (-4746124030036299) @ (-49), (-657709757773461) @ (-46), (-3832269878300749) @ (-49)));
  (112%N, (#, #, #, (-6373019742929881) @ (-49)));
  (113%N, (#, #, #, (-302852298247679) @ (-44)));
  (114%N, ((-2774623661646583) @ (-48), (-5899983341256189) @ (-49), (-681305692719799) @ (-46), (-2731792612224535) @ (-48)));
  (115%N, (#, #, #, (-7307683484381827) @ (-49)));
  (116%N, (#, (-4240545284906009) @ (-48), (-7374855723470995) @ (-49), (-4650533185457697) @ (-48)));
  (117%N, ((-3895849420584137) @ (-49), (-1321823375203445) @ (-47), (-1280774152331293) @ (-47), (-5231641202431517) @ (-49)));
  (119%N, (#, #, #, (-8395033373076123) @ (-49)));
  (120%N, (#, #, #, (-8033701757752085) @ (-49)));
  (121%N, (#, #, #, (-70881326618687) @ (-42)));
  (122%N, (#, #, #, (-4297911758076491) @ (-48)));
  (123%N, (#, #, #, (-2130163006223681) @ (-47)));
  (124%N, (#, #, #, (-7170756992763697) @ (-49)));
  (125%N, ((-863557268122675) @ (-46), #, #, (-3879055303555717) @ (-48)));
  (127%N, ((-6222897238004853) @ (-49), #, (-2948708458071029) @ (-48), (-745656842680861) @ (-46)));
  (129%N, (#, #, #, (-1994339944854797) @ (-47)));
  (130%N, (#, #, #, (-4650533185457697) @ (-48)));
  (131%N, ((-4743982033413685) @ (-49), (-2151080564872457) @ (-48), (-3847541075266747) @ (-49), (-302852298247679) @ (-44)));
  (132%N, (#, #, #, (-7926147221115621) @ (-49)));
  (133%N, (#, #, #, (-6897440390483705) @ (-49)));
  (134%N, (#, #, #, (-302852298247679) @ (-44)));
  (135%N, ((-4658129062053283) @ (-49), (-4692200232906733) @ (-49), (-2233716474985397) @ (-48), (-302852298247679) @ (-44)));
  (136%N, ((-3106744192334589) @ (-48), (-3638170211376633) @ (-48), (-7374855723470995) @ (-49), (-2788653451192963) @ (-48)));
  (137%N, ((-1842264736113121) @ (-48), (-640940432772667) @ (-46), (-6378557838240453) @ (-49), (-302852298247679) @ (-44)));
  (138%N, ((-3543643231182759) @ (-48), #, #, (-4048158111928321) @ (-48)));
  (139%N, (#, #, #, (-2130163006223681) @ (-47)));
  (140%N, (#, #, #, (-8395033373076123) @ (-49)));
  (141%N, ((-2554319252267305) @ (-48), (-8773016264919941) @ (-50), (-2270420984255499) @ (-48), (-4378312346892449) @ (-49)));
  (142%N, (#, #, #, (-4227173035229071) @ (-48)));
  (145%N, ((-1525696840335231) @ (-47), (-6605226196018601) @ (-49), (-4635368206062429) @ (-49), (-5532711439843729) @ (-49)));
  (147%N, (#, #, #, (-3722837580357007) @ (-48)));
  (150%N, (#, #, #, (-4297911758076491) @ (-48)));
  (152%N, (#, #, #, (-4227173035229071) @ (-48)));
  (153%N, (#, #, #, (-8130444851884389) @ (-49)));
  (154%N, (#, #, #, (-239810366388671) @ (-44)));
  (155%N, ((-8390911657910189) @ (-50), (-925653550024835) @ (-47), (-6158290700967633) @ (-50), (-4464135565484181) @ (-49)));
  (157%N, ((-2674595208188941) @ (-48), (-1764807936785953) @ (-47), (-1555461002617383) @ (-47), (-2545218037508355) @ (-48)));
  (158%N, ((-4058335220380163) @ (-49), (-1226957027472307) @ (-47), (-4368678596345339) @ (-49), (-8977816158078337) @ (-50)));
  (159%N, ((-4190815397018637) @ (-49), (-8476089323612743) @ (-50), (-8055293163104851) @ (-50), (-4828615072299975) @ (-49)));
  (160%N, ((-7109984901343573) @ (-50), (-450810556578335) @ (-46), (-1795809766315461) @ (-48), (-8851651117551661) @ (-50)));
  (161%N, ((-5489743503874539) @ (-49), (-5727647541803941) @ (-50), (-871291290617681) @ (-47), (-704619386053389) @ (-46)));
  (162%N, (#, #, (-4260759154773655) @ (-48), (-8033701757752085) @ (-49)));
  (163%N, ((-5989742383994363) @ (-49), (-6065776627261503) @ (-49), (-342717037756707) @ (-45), (-399697567377715) @ (-45)));
  (166%N, (#, #, #, (-4650533185457697) @ (-48)));
  (167%N, (#, #, #, (-6103413465244223) @ (-49)));
  (168%N, ((-7647245681283249) @ (-50), (-6261483450899969) @ (-50), (-1544376752856867) @ (-48), (-4380289030588869) @ (-49)));
  (169%N, ((-5026770535576755) @ (-49), (-561011574730049) @ (-46), (-8314844473077749) @ (-50), (-5377687644266453) @ (-49)));
  (170%N, ((-2332785751925231) @ (-48), (-1302216727301013) @ (-47), (-6798739008219093) @ (-49), (-12186913822765) @ (-40)));
  (171%N, ((-378269741752949) @ (-45), (-2891815782294217) @ (-48), (-2865377700546473) @ (-48), (-1415456671616293) @ (-47)));
  (172%N, ((-2146956065995973) @ (-47), #, (-609902861438431) @ (-45), (-897148847068159) @ (-46)));
  (173%N, (#, (-6975678712175689) @ (-49), (-7556172614326021) @ (-49), (-3951094144080465) @ (-48)));
  (175%N, (#, #, #, (-6897440390483705) @ (-49)));
  (176%N, (#, #, #, (-302852298247679) @ (-44)));
  (177%N, ((-1642132785719181) @ (-47), (-6319671069274265) @ (-49), (-77733601714785) @ (-43), (-6909376172293041) @ (-49)));
  (178%N, ((-5494926711417213) @ (-49), (-5126068810329517) @ (-49), (-5099249769415705) @ (-49), (-5152172653561203) @ (-49)));
  (179%N, ((-8141839414188621) @ (-50), (-1109499927593361) @ (-47), (-5045204377453743) @ (-49), (-5745835878119485) @ (-49)));
  (180%N, (#, #, #, (-302852298247679) @ (-44)));
  (181%N, (#, #, #, (-4650533185457697) @ (-48)));
  (184%N, (#, #, #, (-4650533185457697) @ (-48)));
  (185%N, (#, #, #, (-6722838688041669) @ (-49)));
  (187%N, (#, #, #, (-3154306220531727) @ (-48)));
  (188%N, (#, (-8871297742822353) @ (-49), (-546860929579423) @ (-45), (-2130163006223681) @ (-47)));
  (189%N, (#, #, #, (-302852298247679) @ (-44)));
  (190%N, (#, (-3982632372491541) @ (-48), (-3059603049282337) @ (-48), (-3355703919701135) @ (-48)));
  (191%N, ((-2372334162674217) @ (-48), (-595951479913989) @ (-46), (-7755167747018879) @ (-50), (-4861597213109063) @ (-49)));
  (193%N, ((-5494926711417213) @ (-49), (-5126068810329517) @ (-49), (-5099249769415705) @ (-49), (-5152172653561203) @ (-49)));
  (194%N, (#, #, #, (-302852298247679) @ (-44)));
  (195%N, ((-1489478381383599) @ (-47), (-621774460820459) @ (-46), (-5539143631719069) @ (-49), (-393182027222453) @ (-45)));
  (196%N, (#, #, #, (-302852298247679) @ (-44)));
  (197%N, (#, #, #, (-8910859197905059) @ (-49)));
  (199%N, ((-1248023491671993) @ (-47), (-4745015496786557) @ (-49), (-4788775406448469) @ (-49), (-5449278616269063) @ (-49)));
  (201%N, ((-5531374395055785) @ (-49), (-3278540746232549) @ (-48), (-405758969615715) @ (-45), (-1729369077842873) @ (-47)));
  (203%N, ((-2886846860251385) @ (-48), (-6166874319454763) @ (-49), (-2755831155067681) @ (-48), (-3079448278168881) @ (-48)));
  (204%N, (#, #, #, (-8910859197905059) @ (-49)));
  (205%N, (#, #, (-4684119305002281) @ (-48), (-302852298247679) @ (-44)));
  (208%N, ((-985322676152685) @ (-46), (-3887923857524803) @ (-48), (-8359567700260433) @ (-49), (-3728098948061275) @ (-48)));
  (210%N, ((-2937407378623451) @ (-48), (-8406579823126143) @ (-50), (-4988905778042341) @ (-49), (-5466057017458279) @ (-49)));
  (211%N, (#, #, #, (-302852298247679) @ (-44)));
  (212%N, (#, #, #, (-2001206550016447) @ (-47)));
  (213%N, ((-7647245681283249) @ (-50), (-6261483450899969) @ (-50), (-1544376752856867) @ (-48), (-4380289030588869) @ (-49)));
  (214%N, (#, (-4240545284906009) @ (-48), (-3722114766328821) @ (-48), (-1893476528496951) @ (-47)));
  (215%N, (#, (-4240545284906009) @ (-48), (-3722114766328821) @ (-48), (-7658507473194481) @ (-49)));
  (216%N, ((-5755020368278289) @ (-49), (-7157383978315813) @ (-49), (-3319495864186373) @ (-48), (-12186913822765) @ (-40)));
  (217%N, ((-5489743503874539) @ (-49), (-5727647541803941) @ (-50), (-871291290617681) @ (-47), (-704619386053389) @ (-46)));
  (221%N, ((-2194254358110463) @ (-48), (-7855097326745555) @ (-50), (-555904537083605) @ (-46), (-4650533185457697) @ (-48)));
  (222%N, ((-8141839414188621) @ (-50), (-1109499927593361) @ (-47), (-5045204377453743) @ (-49), (-5745835878119485) @ (-49)));
  (223%N, ((-5775119512620157) @ (-49), (-1925169055947837) @ (-47), (-1559734195798035) @ (-47), (-6338435174200593) @ (-49)));
  (224%N, (#, #, #, (-70881326618687) @ (-42)));
  (226%N, ((-2372334162674217) @ (-48), (-595951479913989) @ (-46), (-7755167747018879) @ (-50), (-4861597213109063) @ (-49)));
  (227%N, (#, #, #, (-3879055303555717) @ (-48)));
  (228%N, ((-2685291178902277) @ (-48), (-2603174056632069) @ (-48), (-4959094906554151) @ (-49), (-3011491477641533) @ (-48)));
  (230%N, (#, #, #, (-302852298247679) @ (-44)));
  (232%N, (#, #, #, (-7500373488380235) @ (-49)));
  (233%N, (#, #, #, (-405971578459659) @ (-45)));
  (234%N, (#, #, #, (-5940263303077685) @ (-49)));
  (235%N, (#, #, #, (-2763580836310195) @ (-48)));
  (236%N, (#, #, #, (-2828077848740967) @ (-48)));
  (237%N, (#, #, #, (-5992195286339767) @ (-49)));
  (238%N, (#, #, #, (-5930286713686223) @ (-49)));
  (239%N, (#, #, #, (-5959273809190159) @ (-49)));
  (240%N, (#, (-4240545284906009) @ (-48), (-7453534702421163) @ (-49), (-3733460538297031) @ (-48)));
  (241%N, (#, #, (-4260759154773655) @ (-48), (-302852298247679) @ (-44)));
  (243%N, ((-2886846860251385) @ (-48), (-6166874319454763) @ (-49), (-2755831155067681) @ (-48), (-3079448278168881) @ (-48)));
  (245%N, ((-1642132785719181) @ (-47), (-6319671069274265) @ (-49), (-77733601714785) @ (-43), (-6909376172293041) @ (-49)));
  (246%N, (#, #, #, (-6268575434941977) @ (-49)));
  (247%N, (#, #, #, (-302852298247679) @ (-44)));
  (248%N, ((-2674595208188941) @ (-48), (-1764807936785953) @ (-47), (-1555461002617383) @ (-47), (-2545218037508355) @ (-48)));
  (250%N, ((-222100499235933) @ (-44), (-6886133249742931) @ (-49), (-100973958080197) @ (-43), (-1601641777818541) @ (-47)));
  (251%N, ((-6507662259421707) @ (-49), (-3460130938885339) @ (-48), (-5677900753099671) @ (-49), (-392931603588143) @ (-45)));
  (252%N, (#, #, #, (-302852298247679) @ (-44)));
  (254%N, ((-1337409300519663) @ (-47), (-6003771304538387) @ (-49), (-3227958931808341) @ (-48), (-5503835882157431) @ (-49)));
  (255%N, ((-230211112012267) @ (-44), (-3172210053778219) @ (-48), (-6551267270149819) @ (-49), (-2900433354868131) @ (-48)))].

(** prob_emit.py, characters 0x5300 to 0x53ff *)
Definition emit_53 : list (N * num4) := [
  (0%N, ((-6507662259421707) @ (-49), (-3460130938885339) @ (-48), (-5677900753099671) @ (-49), (-392931603588143) @ (-45)));
  (2%N, (#, #, #, (-70881326618687) @ (-42)));
  (4%N, (#, #, (-609902861438431) @ (-45), (-302852298247679) @ (-44)));
  (5%N, ((-3826020181825645) @ (-49), (-4886071217615961) @ (-49), (-4850919221182279) @ (-49), (-608110894409517) @ (-46)));
  (6%N, ((-2716796323789125) @ (-48), (-1385572875310375) @ (-47), (-691925126795715) @ (-46), (-7025030848007957) @ (-49)));
  (8%N, ((-5350531838664907) @ (-49), #, #, (-3229125083424967) @ (-48)));
  (11%N, (#, #, #, (-8292395461171265) @ (-49)));
  (13%N, ((-6901376920123951) @ (-49), #, #, (-943539134077359) @ (-46)));
  (15%N, (#, (-491414177067389) @ (-45), #, (-7600718321947853) @ (-49)));
  (16%N, (#, (-7310469050781013) @ (-49), (-3480344808752985) @ (-48), (-7628871685880939) @ (-49)));
  (21%N, ((-5847104933863893) @ (-49), (-491414177067389) @ (-45), #, (-7029990791577139) @ (-49)));
  (22%N, ((-8218734894304605) @ (-50), (-6677422745188403) @ (-50), (-3211755217728693) @ (-49), (-1175435097879909) @ (-47)));
  (23%N, ((-6673215336737759) @ (-50), (-3019566217659325) @ (-49), (-7011909699407205) @ (-50), (-8359628001688583) @ (-50)));
  (25%N, ((-8359567700260433) @ (-49), (-6838531672091105) @ (-49), (-5985577507142287) @ (-49), (-3374719848683653) @ (-48)));
  (26%N, (#, #, #, (-7477852487122849) @ (-49)));
  (28%N, (#, #, #, (-4297911758076491) @ (-48)));
  (29%N, ((-3912641423100301) @ (-48), (-3383588402652739) @ (-48), (-7591005369967043) @ (-49), (-1678560966329195) @ (-47)));
  (32%N, ((-6584334284540627) @ (-49), (-6235492186600303) @ (-49), (-5102121969286097) @ (-49), (-5981263875810981) @ (-49)));
  (33%N, ((-3302366626870007) @ (-48), (-5749640358739673) @ (-49), (-1709551796309617) @ (-47), (-6463689339147657) @ (-49)));
  (35%N, ((-3288188631134095) @ (-48), (-3278540746232549) @ (-48), (-3245222661329465) @ (-48), (-3098640957535047) @ (-48)));
  (38%N, (#, #, #, (-3396745883983567) @ (-48)));
  (42%N, ((-6324271513120055) @ (-49), (-6376969632295143) @ (-49), (-5923436429557781) @ (-49), (-6065342988887265) @ (-49)));
  (44%N, (#, #, #, (-4297911758076491) @ (-48)));
  (45%N, (#, #, #, (-239810366388671) @ (-44)));
  (46%N, ((-6689783939482305) @ (-49), (-874429171128617) @ (-46), (-609902861438431) @ (-45), (-7170756992763697) @ (-49)));
  (47%N, ((-1181772785443559) @ (-47), (-5274857397141249) @ (-49), (-5096962514046099) @ (-49), (-5683730638601819) @ (-49)));
  (49%N, ((-6689783939482305) @ (-49), (-874429171128617) @ (-46), (-609902861438431) @ (-45), (-7170756992763697) @ (-49)));
  (51%N, (#, #, #, (-302852298247679) @ (-44)));
  (52%N, (#, #, #, (-4650533185457697) @ (-48)));
  (57%N, ((-5929037967848099) @ (-49), (-5161288074707605) @ (-49), (-1319197279902447) @ (-47), (-5795281842964731) @ (-49)));
  (58%N, ((-4244031115281863) @ (-49), (-1811093473746769) @ (-48), (-754400974159275) @ (-47), (-498946117321047) @ (-46)));
  (59%N, ((-2012619653348895) @ (-48), (-8973382123925449) @ (-50), (-5127899197372743) @ (-49), (-2890236866367061) @ (-48)));
  (60%N, (#, #, #, (-8292395461171265) @ (-49)));
  (61%N, (#, #, #, (-2130163006223681) @ (-47)));
  (62%N, ((-691886281227973) @ (-46), (-8871297742822353) @ (-49), (-7426068281774563) @ (-49), (-2977046058115107) @ (-48)));
  (63%N, ((-1730723387525197) @ (-47), (-398981976780441) @ (-45), (-6541900166291575) @ (-49), (-7025030848007957) @ (-49)));
  (64%N, ((-4244031115281863) @ (-49), (-1811093473746769) @ (-48), (-754400974159275) @ (-47), (-302852298247679) @ (-44)));
  (65%N, ((-3381834025009411) @ (-49), (-696115673964501) @ (-47), (-584873760729365) @ (-46), (-4637163032671931) @ (-49)));
  (66%N, (#, #, #, (-7477852487122849) @ (-49)));
  (67%N, ((-8030671501675137) @ (-50), (-6523525765998311) @ (-50), (-4974606022257619) @ (-49), (-5061783008351797) @ (-49)));
  (69%N, ((-8100873996841253) @ (-49), (-5809931249162639) @ (-49), (-7556172614326021) @ (-49), (-1930728693765227) @ (-47)));
  (71%N, ((-4516564384630769) @ (-49), (-549222463925369) @ (-46), (-2232135542571647) @ (-48), (-4917978178245773) @ (-49)));
  (72%N, ((-2493219249456787) @ (-48), (-649754075108337) @ (-46), (-71285656609935) @ (-43), (-5863745363070831) @ (-49)));
  (73%N, (#, (-6547927632997723) @ (-49), (-1513664154916675) @ (-47), (-7658507473194481) @ (-49)));
  (74%N, ((-8011042604950427) @ (-50), (-3749856283586369) @ (-49), (-1176457197889613) @ (-47), (-4617962158990747) @ (-49)));
  (76%N, (#, #, #, (-4650533185457697) @ (-48)));
  (77%N, (#, #, #, (-8910859197905059) @ (-49)));
  (78%N, ((-3993740277462813) @ (-49), (-5940807601334101) @ (-50), (-7678614356921903) @ (-50), (-4973108724191267) @ (-49)));
  (79%N, ((-4141048402592951) @ (-49), (-8506496246074175) @ (-50), (-36839479139515) @ (-42), (-6099583858955743) @ (-49)));
  (80%N, (#, #, #, (-70881326618687) @ (-42)));
  (81%N, ((-5574329369543299) @ (-49), (-5392257655505705) @ (-49), (-5741859310459737) @ (-49), (-1512570711830551) @ (-47)));
  (82%N, ((-7862826752368233) @ (-49), (-6823518783638375) @ (-49), (-1447884006543381) @ (-47), (-4964912765725803) @ (-49)));
  (83%N, ((-5358875331377641) @ (-49), (-5033816596356029) @ (-49), (-6058579631733603) @ (-49), (-788059768887281) @ (-46)));
  (84%N, ((-4141048402592951) @ (-49), (-8506496246074175) @ (-50), (-36839479139515) @ (-42), (-6099583858955743) @ (-49)));
  (85%N, ((-7628327005942591) @ (-50), (-2627665581943787) @ (-48), (-8865605199732877) @ (-50), (-4810739025442259) @ (-49)));
  (86%N, ((-4985267393949059) @ (-49), (-2590479942958731) @ (-48), (-4868705950322641) @ (-49), (-1165609756296055) @ (-47)));
  (87%N, ((-6925165999646631) @ (-50), (-6677908596604041) @ (-50), (-7386415011228001) @ (-50), (-4006567192844273) @ (-49)));
  (89%N, (#, #, #, (-271331332318175) @ (-44)));
  (90%N, ((-551829907630135) @ (-46), (-8351808158543095) @ (-50), (-2604838252961281) @ (-48), (-5946771467509883) @ (-49)));
  (92%N, ((-5848729610181805) @ (-49), (-5161288074707605) @ (-49), (-2843592951830887) @ (-48), (-735932346265983) @ (-46)));
  (94%N, ((-389663418086415) @ (-45), (-8252834006088559) @ (-49), (-8233949048441833) @ (-49), (-5676034379441085) @ (-49)));
  (95%N, (#, #, #, (-7055467987703679) @ (-49)));
  (96%N, ((-4505829683998135) @ (-49), (-4882761128554765) @ (-49), (-5208283926477931) @ (-49), (-7974731406485765) @ (-50)));
  (97%N, ((-4794164908835641) @ (-49), (-8991728089211253) @ (-50), (-5009775933670927) @ (-49), (-2592890341428075) @ (-48)));
  (98%N, ((-4780502002494117) @ (-49), (-2652989135578485) @ (-48), (-2996618404166677) @ (-48), (-5921873855449179) @ (-49)));
  (99%N, (#, #, (-571248877892569) @ (-45), (-3464924667942539) @ (-48)));
  (100%N, ((-5852538855913737) @ (-49), (-6886133249742931) @ (-49), (-1998329865051197) @ (-47), (-5943869657201091) @ (-49)));
  (102%N, ((-8978031436994227) @ (-49), (-2955795484013275) @ (-48), (-5825879047156935) @ (-49), (-2875731433401075) @ (-48)));
  (103%N, ((-688364269219481) @ (-46), (-3100069211086487) @ (-48), (-6237853144833625) @ (-49), (-5775086610730313) @ (-49)));
  (104%N, (#, #, #, (-2130163006223681) @ (-47)));
  (105%N, (#, #, #, (-4650533185457697) @ (-48)));
  (107%N, ((-2183928770995621) @ (-48), (-7680478003390857) @ (-50), (-8953199609020085) @ (-50), (-5520641606372033) @ (-49)));
  (108%N, (#, #, #, (-1969801887061797) @ (-47)));
  (109%N, (#, #, #, (-302852298247679) @ (-44)));
  (110%N, (#, #, (-4684119305002281) @ (-48), (-6909376172293041) @ (-49)));
  (111%N, ((-8233949048441833) @ (-49), (-6823518783638375) @ (-49), (-6233539330978433) @ (-49), (-6722838688041669) @ (-49)));
  (112%N, ((-8247587111334429) @ (-50), (-2465743532849387) @ (-48), (-2567590392879823) @ (-48), (-5104106435658007) @ (-49)));
  (113%N, ((-8745761521367231) @ (-50), (-5501224865288559) @ (-49), (-5603731130682853) @ (-49), (-6081740748772525) @ (-49)));
  (114%N, (#, #, #, (-302852298247679) @ (-44)));
  (115%N, ((-8653756950526621) @ (-50), (-5442195128431935) @ (-49), (-8708922304676197) @ (-50), (-59473271099731) @ (-43)));
  (116%N, ((-4574386540887427) @ (-49), (-3054936767390851) @ (-48), (-5517654383242441) @ (-49), (-3485134323895591) @ (-49)));
  (117%N, ((-5769437883702269) @ (-49), (-5629324257460227) @ (-49), (-5439591244492663) @ (-49), (-5557292090274377) @ (-49)));
  (119%N, ((-1335192043342257) @ (-47), (-177361545445349) @ (-44), (-2391310097922703) @ (-48), (-608377493493993) @ (-46)));
  (120%N, ((-1540265024284871) @ (-47), (-5580045306723055) @ (-49), (-3091607482303129) @ (-48), (-5828473464411613) @ (-49)));
  (121%N, ((-3912641423100301) @ (-48), (-3278540746232549) @ (-48), (-3378195993368601) @ (-48), (-6678445256967907) @ (-49)));
  (122%N, (#, #, (-2017999609788739) @ (-47), (-8910859197905059) @ (-49)));
  (123%N, ((-4574386540887427) @ (-49), (-3054936767390851) @ (-48), (-5517654383242441) @ (-49), (-3485134323895591) @ (-49)));
  (127%N, ((-1730723387525197) @ (-47), (-5980100251903661) @ (-49), (-2648591146189859) @ (-48), (-5737248767513199) @ (-49)));
  (128%N, (#, #, #, (-4170689255897351) @ (-48)));
  (130%N, ((-2564855391830751) @ (-48), (-3042696796520353) @ (-48), (-1119410861688781) @ (-47), (-2409999540548813) @ (-48)));
  (132%N, ((-1532904524096673) @ (-47), (-6262177274778075) @ (-49), (-6937708877592227) @ (-49), (-188036986460185) @ (-44)));
  (133%N, ((-2940836557808977) @ (-48), (-1648815554978729) @ (-47), (-4653437785292721) @ (-49), (-2500978562464783) @ (-48)));
  (134%N, ((-7372383099830017) @ (-50), (-4689517917154653) @ (-49), (-8708922304676197) @ (-50), (-5415733731901939) @ (-49)));
  (137%N, ((-4871948978338505) @ (-49), (-1445325126387491) @ (-47), (-5396693486078693) @ (-49), (-3267743765907651) @ (-48)));
  (139%N, ((-8872995676544269) @ (-50), (-2463694570377027) @ (-48), (-4558103451603615) @ (-49), (-4945175644888551) @ (-49)));
  (140%N, ((-2879121906200805) @ (-48), (-6097500510268117) @ (-49), (-2948412946257313) @ (-48), (-3069041363552711) @ (-48)));
  (141%N, ((-8272788582231815) @ (-49), #, (-609902861438431) @ (-45), (-1713019402318041) @ (-47)));
  (144%N, (#, #, #, (-4650533185457697) @ (-48)));
  (145%N, (#, #, #, (-8910859197905059) @ (-49)));
  (147%N, (#, #, #, (-7795654513279065) @ (-49)));
  (148%N, (#, #, #, (-456223959081461) @ (-45)));
  (149%N, ((-5924676407930081) @ (-49), (-491414177067389) @ (-45), (-1797236545307357) @ (-47), (-3452684697072041) @ (-48)));
  (150%N, (#, #, #, (-7435345513955431) @ (-49)));
  (151%N, (#, #, #, (-70881326618687) @ (-42)));
  (152%N, ((-2548124824182321) @ (-48), (-5279608057852367) @ (-49), (-1765831882352707) @ (-47), (-6280290423198965) @ (-49)));
  (153%N, ((-8272788582231815) @ (-49), #, (-609902861438431) @ (-45), (-1713019402318041) @ (-47)));
  (154%N, ((-5282512411201817) @ (-49), (-4599166316306709) @ (-49), (-1189838870371059) @ (-47), (-1227606592043231) @ (-47)));
  (155%N, (#, #, #, (-3362866519325475) @ (-48)));
  (156%N, (#, #, #, (-6881909751646441) @ (-49)));
  (157%N, (#, (-8090883396801683) @ (-49), (-8978031436994227) @ (-49), (-3634150150092073) @ (-48)));
  (158%N, (#, #, #, (-8910859197905059) @ (-49)));
  (159%N, ((-3436910850632005) @ (-49), (-4285760957018799) @ (-49), (-8000988765700177) @ (-50), (-8420036579572639) @ (-50)));
  (160%N, (#, #, #, (-1848956007451337) @ (-47)));
  (161%N, (#, #, #, (-4048158111928321) @ (-48)));
  (162%N, ((-1552082100991385) @ (-47), (-2955795484013275) @ (-48), (-5876521529509587) @ (-49), (-3118628787138913) @ (-48)));
  (163%N, (#, #, #, (-3605255574468759) @ (-48)));
  (164%N, (#, #, #, (-7477852487122849) @ (-49)));
  (165%N, ((-609902861438431) @ (-45), (-6240728968116259) @ (-49), (-2889469687144251) @ (-48), (-6497476474927491) @ (-49)));
  (166%N, ((-5671926696822739) @ (-49), (-1643962057175493) @ (-47), (-1458832946781801) @ (-47), (-6531363337886707) @ (-49)));
  (167%N, (#, #, #, (-8064138897447807) @ (-49)));
  (168%N, ((-2830859757136177) @ (-48), #, (-6351422467267269) @ (-49), (-6316973237614355) @ (-49)));
  (169%N, ((-4204275375441935) @ (-48), #, (-7426068281774563) @ (-49), (-3582197954329907) @ (-48)));
  (170%N, (#, #, #, (-302852298247679) @ (-44)));
  (171%N, (#, #, #, (-2061833855653683) @ (-47)));
  (172%N, (#, #, #, (-8910859197905059) @ (-49)));
  (173%N, ((-2879121906200805) @ (-48), (-6097500510268117) @ (-49), (-2948412946257313) @ (-48), (-3069041363552711) @ (-48)));
  (174%N, ((-5998165732470767) @ (-49), (-3606862978324355) @ (-48), (-196824062928067) @ (-44), (-5677384919761169) @ (-49)));
  (176%N, (#, #, #, (-2001206550016447) @ (-47)));
  (177%N, (#, #, #, (-8910859197905059) @ (-49)));
  (178%N, ((-4871948978338505) @ (-49), (-1445325126387491) @ (-47), (-5396693486078693) @ (-49), (-70881326618687) @ (-42)));
  (179%N, (#, #, #, (-302852298247679) @ (-44)));
  (180%N, (#, #, #, (-3605255574468759) @ (-48)));
  (182%N, (#, #, #, (-7523833130877875) @ (-49)));
  (183%N, (#, #, #, (-850842282548523) @ (-46)));
  (185%N, (#, #, #, (-4297911758076491) @ (-48)));
  (186%N, (#, #, #, (-8910859197905059) @ (-49)));
  (187%N, ((-4470143939708331) @ (-49), (-4914772074009701) @ (-49), (-435629357897093) @ (-46), (-3091697187558273) @ (-49)));
  (188%N, (#, #, #, (-8910859197905059) @ (-49)));
  (191%N, ((-2127844848219923) @ (-48), (-5263616758396271) @ (-49), (-3839582257847525) @ (-49), (-7966565076597949) @ (-50)));
  (193%N, ((-4331497877621075) @ (-48), (-8871297742822353) @ (-49), (-2011133004627089) @ (-47), (-976926146266539) @ (-46)));
  (194%N, ((-7405864045657677) @ (-50), (-595568259121109) @ (-46), (-5506618719504291) @ (-49), (-5213162413290707) @ (-49)));
  (195%N, ((-7405864045657677) @ (-50), (-595568259121109) @ (-46), (-5506618719504291) @ (-49), (-5213162413290707) @ (-49)));
  (196%N, (#, #, #, (-302852298247679) @ (-44)));
  (197%N, (#, #, #, (-4650533185457697) @ (-48)));
  (198%N, (#, #, #, (-108816228894371) @ (-43)));
  (199%N, (#, #, #, (-2130163006223681) @ (-47)));
  (200%N, ((-2293032914212569) @ (-48), (-1247628554774067) @ (-47), (-7231568147748981) @ (-49), (-372376515504169) @ (-46)));
  (201%N, ((-6697079289355183) @ (-49), (-668568008212221) @ (-46), (-2788667669529573) @ (-48), (-5614343617108717) @ (-49)));
  (202%N, ((-8507608386856427) @ (-50), (-1185334018056981) @ (-47), (-3690057666766417) @ (-49), (-3600414986892411) @ (-49)));
  (203%N, ((-2460600838211761) @ (-48), (-8938467701265833) @ (-50), (-8455428748947343) @ (-50), (-5667555385133559) @ (-49)));
  (204%N, ((-7918178529260993) @ (-50), (-4561163091602621) @ (-49), (-1224346579547557) @ (-47), (-4604800280725835) @ (-49)));
  (205%N, ((-7171200380691377) @ (-50), (-8728977837328617) @ (-50), (-2340788087879385) @ (-48), (-8674737988371735) @ (-50)));
  (206%N, (#, #, #, (-225115232174701) @ (-44)));
  (207%N, (#, #, #, (-6951095251765127) @ (-49)));
  (209%N, ((-1409019298050951) @ (-48), (-7068392780060495) @ (-50), (-3662810067772013) @ (-49), (-2106459577395933) @ (-48)));
  (211%N, (#, #, #, (-6678445256967907) @ (-49)));
  (212%N, ((-5409223109829257) @ (-49), (-2464205414395123) @ (-48), (-5106022831485655) @ (-49), (-5270962245483593) @ (-49)));
  (213%N, (#, #, #, (-1828975469458993) @ (-47)));
  (214%N, ((-2002668298753579) @ (-48), (-4783986884413287) @ (-49), (-7741804854290871) @ (-50), (-2227226029672827) @ (-48)));
  (215%N, ((-8058285987585961) @ (-50), (-5154371196454247) @ (-49), (-504271794694157) @ (-46), (-7945684296747059) @ (-50)));
  (216%N, ((-1856334424940265) @ (-48), (-8773406863330395) @ (-50), (-1002933456227511) @ (-47), (-8796053928464479) @ (-50)));
  (217%N, ((-5295149979871315) @ (-49), (-6003771304538387) @ (-49), (-6594441377450325) @ (-49), (-5618793837544033) @ (-49)));
  (218%N, (#, #, #, (-7307683484381827) @ (-49)));
  (219%N, ((-5324292528292245) @ (-49), (-48594280744979) @ (-42), (-369715154211577) @ (-45), (-6067141552568647) @ (-49)));
  (220%N, (#, #, #, (-2061833855653683) @ (-47)));
  (222%N, (#, #, #, (-3323653223520611) @ (-48)));
  (223%N, (#, (-7157383978315813) @ (-49), (-1865749067223629) @ (-47), (-1783406489466885) @ (-47)));
  (224%N, ((-3187892340076311) @ (-48), (-5425876595899339) @ (-49), (-179517411214073) @ (-44), (-2926588070645609) @ (-48)));
  (225%N, (#, #, (-4260759154773655) @ (-48), (-6991483479663675) @ (-49)));
  (226%N, ((-5352100881955763) @ (-49), (-670342677775561) @ (-46), (-2708488854293545) @ (-48), (-5863745363070831) @ (-49)));
  (227%N, ((-8379749590747757) @ (-50), (-7192828431789749) @ (-50), (-6666454653145523) @ (-50), (-2047311065910733) @ (-48)));
  (228%N, ((-7602500891142001) @ (-50), (-7433392034110613) @ (-50), (-4435439578472585) @ (-49), (-4600192206264173) @ (-49)));
  (229%N, ((-5811991043845421) @ (-49), (-5284399150204499) @ (-49), (-4278355746972073) @ (-49), (-4766952099267283) @ (-49)));
  (230%N, ((-272624298190013) @ (-45), (-3982632372491541) @ (-48), (-8131311136536975) @ (-49), (-505804015763519) @ (-46)));
  (231%N, (#, #, #, (-108816228894371) @ (-43)));
  (232%N, ((-230211112012267) @ (-44), (-3115151835519143) @ (-48), (-3159622570429217) @ (-48), (-3330036149565663) @ (-48)));
  (233%N, ((-2853535706587959) @ (-48), (-7575057571972747) @ (-49), (-8272788582231815) @ (-49), (-1431213487038609) @ (-47)));
  (234%N, ((-3631070888342921) @ (-49), (-6463748750323761) @ (-49), (-8778315112927639) @ (-50), (-3202007374151995) @ (-49)));
  (235%N, ((-2298496926328197) @ (-48), (-2813775592637523) @ (-48), (-4632922910890201) @ (-49), (-459946387632611) @ (-46)));
  (236%N, ((-1083824041221103) @ (-47), (-1194912982901217) @ (-47), (-5362979480443287) @ (-49), (-5551856419268475) @ (-49)));
  (237%N, ((-2146956065995973) @ (-47), (-6065776627261503) @ (-49), (-6329343168624479) @ (-49), (-6484095031060651) @ (-49)));
  (238%N, ((-1471428188331315) @ (-47), (-5951059145045925) @ (-49), (-8018343577873535) @ (-49), (-6161020898305513) @ (-49)));
  (239%N, ((-6081036174895619) @ (-50), (-3472063772856673) @ (-49), (-8469713042708335) @ (-50), (-1616843552399109) @ (-48)));
  (240%N, ((-8424544025098403) @ (-50), (-8945273484069247) @ (-50), (-1011060522600127) @ (-47), (-2104394552330181) @ (-48)));
  (241%N, ((-6926560989478223) @ (-49), #, (-8272788582231815) @ (-49), (-788059768887281) @ (-46)));
  (242%N, ((-1119375254480911) @ (-47), (-4147485406971041) @ (-49), (-7449059902535417) @ (-50), (-2329036521219595) @ (-48)));
  (243%N, ((-4593308118829007) @ (-49), (-563058270466087) @ (-46), (-4462743027576431) @ (-49), (-1134524892247697) @ (-47)));
  (244%N, (#, #, #, (-3733460538297031) @ (-48)));
  (245%N, ((-7426068281774563) @ (-49), (-6605226196018601) @ (-49), #, (-6901390932685021) @ (-49)));
  (246%N, ((-2185024843495015) @ (-48), (-8669013152389687) @ (-50), (-4584456249191603) @ (-49), (-4941383074083119) @ (-49)));
  (247%N, ((-2395918474122569) @ (-48), (-5020412392782969) @ (-49), (-8380661296780139) @ (-50), (-7328707857187975) @ (-50)));
  (248%N, ((-4286546695804897) @ (-49), (-4275247292158225) @ (-49), (-435569330626481) @ (-46), (-4866806304703299) @ (-49)));
  (249%N, ((-703698177110831) @ (-46), (-1402959983576123) @ (-47), (-5196584056450461) @ (-49), (-5002228753380395) @ (-49)));
  (250%N, (#, #, #, (-6681119608569583) @ (-49)));
  (251%N, (#, (-8871297742822353) @ (-49), (-4081744231472905) @ (-48), (-7500373488380235) @ (-49)));
  (252%N, (#, #, #, (-208289400459167) @ (-44)));
  (253%N, ((-412537118574835) @ (-45), (-6463748750323761) @ (-49), (-7097163030666307) @ (-49), (-7050279472141661) @ (-49)));
  (254%N, (#, #, #, (-844440712760577) @ (-46)));
  (255%N, (#, #, #, (-7628871685880939) @ (-49)))].

(** prob_emit.py, characters 0x5400 to 0x54ff *)
Definition emit_54 : list (N * num4) := [
  (0%N, (#, #, #, (-8064138897447807) @ (-49)));
  (1%N, ((-7924300488693565) @ (-49), (-701050912750219) @ (-46), (-5606898722397935) @ (-49), (-3222879740574019) @ (-48)));
  (2%N, (#, #, #, (-2001206550016447) @ (-47)));
  (3%N, ((-2341334309958303) @ (-48), (-2367386554919191) @ (-48), (-4938805237722693) @ (-49), (-3772853485136003) @ (-49)));
  (4%N, ((-6554782629571533) @ (-50), (-8879857448188947) @ (-50), (-3215481543784717) @ (-48), (-3662012182332771) @ (-49)));
  (5%N, (#, #, #, (-70881326618687) @ (-42)));
  (6%N, ((-760647580132405) @ (-46), (-8090883396801683) @ (-49), (-4684119305002281) @ (-48), (-855160738236529) @ (-46)));
  (7%N, (#, #, #, (-3733460538297031) @ (-48)));
  (8%N, ((-919577114328939) @ (-47), (-6624466429030337) @ (-50), (-3557543001460165) @ (-49), (-4537980451353141) @ (-49)));
  (9%N, ((-4543824773993615) @ (-49), (-4014356584898725) @ (-49), (-5317286083537455) @ (-49), (-5266817274572129) @ (-49)));
  (10%N, ((-2730620347140059) @ (-48), (-2913665322968923) @ (-48), (-1548031821803145) @ (-47), (-5593381344590189) @ (-49)));
  (11%N, (#, #, #, (-7386362463331995) @ (-49)));
  (12%N, ((-3327831084754917) @ (-49), (-3704297160854779) @ (-49), (-6992305899130485) @ (-50), (-7522121504318241) @ (-50)));
  (13%N, ((-7377282584963027) @ (-50), (-7998671474875081) @ (-50), (-6886466397751595) @ (-50), (-7925826793400325) @ (-50)));
  (14%N, ((-3668105502769059) @ (-49), (-8613436174488683) @ (-50), (-6219458023615945) @ (-50), (-3085387055734165) @ (-49)));
  (15%N, ((-352241698028269) @ (-45), (-6547927632997723) @ (-49), (-5281917640989681) @ (-49), (-5941703073564329) @ (-49)));
  (16%N, ((-5482622868167227) @ (-49), (-2522513073603327) @ (-48), (-5740962893147041) @ (-49), (-5197380467404953) @ (-49)));
  (17%N, ((-8748287200450835) @ (-50), (-8300090876912273) @ (-50), (-970726868092591) @ (-47), (-6729444945276209) @ (-50)));
  (18%N, (#, (-3318111047509587) @ (-48), (-1975763643203379) @ (-47), (-8064138897447807) @ (-49)));
  (19%N, ((-5764746606941707) @ (-49), (-1725734743489383) @ (-47), (-1501499861142023) @ (-47), (-5000600945151967) @ (-49)));
  (20%N, (#, #, #, (-4297911758076491) @ (-48)));
  (21%N, ((-150592084745129) @ (-44), (-5438387109717167) @ (-49), (-211052467801955) @ (-44), (-5840388193886345) @ (-49)));
  (22%N, ((-609902861438431) @ (-45), #, (-609902861438431) @ (-45), (-1994339944854797) @ (-47)));
  (23%N, ((-1795778112687613) @ (-47), (-3817185134677383) @ (-48), (-6352748616180713) @ (-49), (-2041054766943815) @ (-48)));
  (24%N, (#, #, #, (-1893476528496951) @ (-47)));
  (25%N, (#, #, #, (-3733460538297031) @ (-48)));
  (27%N, ((-601739945711111) @ (-46), (-1122726545285081) @ (-47), (-2354951359366119) @ (-48), (-5156086986327855) @ (-49)));
  (28%N, (#, #, #, (-70881326618687) @ (-42)));
  (29%N, ((-211052467801955) @ (-44), (-3606862978324355) @ (-48), (-1826459187989943) @ (-47), (-1969801887061797) @ (-47)));
  (30%N, ((-1365037953971899) @ (-47), (-666312831893229) @ (-46), (-6378557838240453) @ (-49), (-5742790154080123) @ (-49)));
  (31%N, ((-3206473575797559) @ (-48), (-5491409798047909) @ (-49), (-1330115006288411) @ (-47), (-1519284424540059) @ (-47)));
  (32%N, ((-985322676152685) @ (-46), (-8090883396801683) @ (-49), (-7122640226792847) @ (-49), (-1636483042981505) @ (-47)));
  (33%N, ((-1730723387525197) @ (-47), (-3760701355345663) @ (-48), #, (-7183698940977469) @ (-49)));
  (35%N, (#, #, (-546860929579423) @ (-45), (-7706109050846307) @ (-49)));
  (37%N, (#, #, #, (-4392620273043229) @ (-48)));
  (38%N, ((-1192806873414445) @ (-47), (-5774364689437589) @ (-49), (-8876443529450053) @ (-50), (-5802553031376913) @ (-49)));
  (39%N, ((-3632058836243843) @ (-48), (-491414177067389) @ (-45), (-5761021531623209) @ (-49), (-7957530903638481) @ (-50)));
  (40%N, ((-6271305556619797) @ (-49), (-5207186460334071) @ (-49), (-4789683856654801) @ (-49), (-4811997230968079) @ (-49)));
  (41%N, ((-1303293275181351) @ (-47), (-8871297742822353) @ (-49), (-2017999609788739) @ (-47), (-7628871685880939) @ (-49)));
  (43%N, ((-283829194823695) @ (-45), (-2812891840022331) @ (-48), (-2507774285113425) @ (-48), (-1177784626105563) @ (-47)));
  (44%N, ((-8127453355975259) @ (-50), (-1235597058825449) @ (-47), (-1194052168292205) @ (-47), (-3649967553338183) @ (-49)));
  (45%N, ((-6325535149909711) @ (-49), (-3760701355345663) @ (-48), (-415075232207411) @ (-45), (-6541731033373189) @ (-49)));
  (46%N, ((-1795778112687613) @ (-47), #, (-7417202744952887) @ (-49), (-6823747105641763) @ (-49)));
  (47%N, ((-76032018412145) @ (-43), (-8835649305262889) @ (-50), (-1348688278447067) @ (-47), (-708002892317889) @ (-46)));
  (48%N, (#, #, #, (-302852298247679) @ (-44)));
  (49%N, ((-6694636986377329) @ (-49), (-6566386662228619) @ (-49), (-3577408776600841) @ (-48), (-6284250228178101) @ (-49)));
  (50%N, ((-7667890561037021) @ (-49), #, #, (-2001206550016447) @ (-47)));
  (51%N, ((-3882231018307045) @ (-49), (-357090366062801) @ (-45), (-5850358988897931) @ (-49), (-302852298247679) @ (-44)));
  (52%N, ((-3882231018307045) @ (-49), (-357090366062801) @ (-45), (-5850358988897931) @ (-49), (-581580562749475) @ (-46)));
  (53%N, ((-737473404404659) @ (-46), (-6028481538756893) @ (-49), (-6165802753272751) @ (-49), (-1444443431945447) @ (-47)));
  (54%N, ((-1496567379251555) @ (-47), (-3318111047509587) @ (-48), (-6863946523373667) @ (-49), (-7951171338784367) @ (-49)));
  (56%N, ((-2233903052157999) @ (-48), (-1258917355722251) @ (-47), (-1316957120334981) @ (-47), (-1318564071551775) @ (-47)));
  (57%N, ((-2721901101735095) @ (-48), (-2648033462206857) @ (-48), (-5927788355895659) @ (-49), (-5005635213934391) @ (-49)));
  (59%N, ((-3172494649417) @ (-38), (-3982632372491541) @ (-48), (-5916664943334513) @ (-49), (-2643138513316603) @ (-48)));
  (60%N, ((-6305649640395567) @ (-49), (-3817185134677383) @ (-48), (-3293170619185937) @ (-48), (-5760793742629897) @ (-49)));
  (61%N, (#, #, #, (-8292395461171265) @ (-49)));
  (62%N, ((-7068038435173063) @ (-49), (-292105437393611) @ (-45), (-3091607482303129) @ (-48), (-2569514628043293) @ (-48)));
  (63%N, (#, #, #, (-8910859197905059) @ (-49)));
  (64%N, ((-2146956065995973) @ (-47), (-804163951328505) @ (-46), (-3059164955844933) @ (-48), (-2265233818111515) @ (-48)));
  (66%N, ((-150592084745129) @ (-44), (-5438387109717167) @ (-49), (-211052467801955) @ (-44), (-5840388193886345) @ (-49)));
  (67%N, ((-8018343577873535) @ (-49), #, #, (-6796774284284499) @ (-49)));
  (68%N, (#, #, #, (-302852298247679) @ (-44)));
  (70%N, ((-2879352907425679) @ (-48), (-1339036069234701) @ (-47), (-727716030660657) @ (-46), (-2485331535305011) @ (-48)));
  (72%N, ((-5455277759869641) @ (-49), (-5853158567858187) @ (-49), (-6463948669613769) @ (-49), (-2283564381475241) @ (-48)));
  (74%N, ((-8626907516683953) @ (-50), (-4630506343049897) @ (-49), (-3982378018990059) @ (-49), (-5060425593204953) @ (-49)));
  (75%N, ((-3722114766328821) @ (-48), (-1796212599740603) @ (-47), #, (-7435345513955431) @ (-49)));
  (78%N, (#, #, #, (-7050279472141661) @ (-49)));
  (80%N, ((-1496567379251555) @ (-47), (-3318111047509587) @ (-48), (-6863946523373667) @ (-49), (-1569089569288295) @ (-47)));
  (81%N, (#, #, #, (-4650533185457697) @ (-48)));
  (82%N, (#, #, #, (-1853809505254573) @ (-47)));
  (83%N, ((-3921870937715749) @ (-48), #, (-1998329865051197) @ (-47), (-3870118839437027) @ (-48)));
  (84%N, (#, #, #, (-1930728693765227) @ (-47)));
  (85%N, ((-6007435542166853) @ (-49), #, (-7284590836079723) @ (-49), (-1625339725946889) @ (-47)));
  (86%N, ((-4204275375441935) @ (-48), #, (-4204275375441935) @ (-48), (-7795654513279065) @ (-49)));
  (87%N, ((-4260759154773655) @ (-48), #, (-2146956065995973) @ (-47), (-3285909744641789) @ (-48)));
  (88%N, ((-1263003056824705) @ (-47), (-5463374094811369) @ (-50), (-6675043442282893) @ (-50), (-4796703931818871) @ (-49)));
  (89%N, ((-8359567700260433) @ (-49), #, #, (-8033701757752085) @ (-49)));
  (91%N, ((-4426206392587813) @ (-48), #, (-7615485311708039) @ (-49), (-3010245091944269) @ (-48)));
  (92%N, ((-6212452597894135) @ (-49), (-5719666361771367) @ (-49), (-7591005369967043) @ (-49), (-2909559989492275) @ (-48)));
  (95%N, (#, #, #, (-70881326618687) @ (-42)));
  (96%N, (#, #, #, (-4650533185457697) @ (-48)));
  (98%N, ((-6761857563197751) @ (-49), #, (-3470737221580077) @ (-48), (-3914300335724671) @ (-49)));
  (99%N, (#, #, #, (-8910859197905059) @ (-49)));
  (100%N, (#, (-8871297742822353) @ (-49), (-3663958025301281) @ (-48), (-3722837580357007) @ (-48)));
  (102%N, (#, #, #, (-1713930327752905) @ (-47)));
  (104%N, ((-7333486462661101) @ (-50), (-4543598152464615) @ (-49), (-140310377020261) @ (-44), (-288090399155835) @ (-45)));
  (106%N, (#, #, #, (-4227173035229071) @ (-48)));
  (107%N, (#, #, #, (-1848956007451337) @ (-47)));
  (108%N, (#, #, #, (-6574031476229409) @ (-49)));
  (109%N, (#, #, #, (-6268575434941977) @ (-49)));
  (110%N, (#, #, #, (-6463689339147657) @ (-49)));
  (111%N, (#, #, #, (-6632359995120511) @ (-49)));
  (112%N, (#, #, #, (-1528275758099033) @ (-47)));
  (113%N, ((-7072789095884181) @ (-49), (-6838531672091105) @ (-49), (-7250871180066637) @ (-49), (-7217418596990555) @ (-49)));
  (114%N, (#, #, #, (-1853809505254573) @ (-47)));
  (115%N, ((-1293840841998457) @ (-47), (-8469210381279925) @ (-50), (-4309424591550917) @ (-49), (-4975176494940021) @ (-49)));
  (116%N, (#, #, #, (-6771034946149301) @ (-49)));
  (117%N, ((-6165802753272751) @ (-49), (-5861143807466207) @ (-49), (-6619465495119071) @ (-49), (-5305967401447739) @ (-49)));
  (118%N, (#, #, #, (-442294618973983) @ (-45)));
  (119%N, (#, #, (-8978031436994227) @ (-49), (-6662660579338687) @ (-49)));
  (120%N, (#, #, #, (-3066498663545229) @ (-48)));
  (123%N, ((-6008154967125367) @ (-49), (-7244163096344431) @ (-49), #, (-271331332318175) @ (-44)));
  (124%N, ((-4510340525067693) @ (-49), (-4688515334603955) @ (-49), (-4717703535749445) @ (-49), (-2564705908680647) @ (-48)));
  (125%N, ((-266981042262767) @ (-45), (-7902211506859897) @ (-50), (-7221286673266011) @ (-50), (-2211307126938551) @ (-48)));
  (126%N, (#, #, #, (-70881326618687) @ (-42)));
  (128%N, ((-6482030368464861) @ (-49), (-7346801008249289) @ (-49), (-6619465495119071) @ (-49), (-368502090743183) @ (-45)));
  (129%N, (#, #, #, (-302852298247679) @ (-44)));
  (130%N, ((-1870602565026865) @ (-47), (-7427359621511357) @ (-49), #, (-6925694704825637) @ (-49)));
  (131%N, (#, #, #, (-6694685324108583) @ (-49)));
  (132%N, ((-211052467801955) @ (-44), (-2934621973272329) @ (-48), #, (-6783757520474441) @ (-49)));
  (133%N, (#, #, #, (-4650533185457697) @ (-48)));
  (134%N, ((-6645653935753893) @ (-49), #, #, (-4227173035229071) @ (-48)));
  (135%N, (#, #, #, (-4650533185457697) @ (-48)));
  (136%N, (#, #, #, (-302852298247679) @ (-44)));
  (139%N, ((-420777065861407) @ (-45), (-1925169055947837) @ (-47), #, (-43824442345527) @ (-42)));
  (140%N, ((-8135356684521647) @ (-50), (-6236459195252349) @ (-50), (-4277257047834967) @ (-49), (-280558019774457) @ (-46)));
  (141%N, (#, #, #, (-70881326618687) @ (-42)));
  (142%N, ((-3801556143597227) @ (-48), (-6547927632997723) @ (-49), (-3326197965972903) @ (-48), (-844440712760577) @ (-46)));
  (143%N, ((-3480344808752985) @ (-48), (-2903744473092393) @ (-48), (-6764610380191347) @ (-49), (-6076221587374789) @ (-49)));
  (144%N, (#, #, (-632296289735963) @ (-46), (-943539134077359) @ (-46)));
  (145%N, (#, #, #, (-302852298247679) @ (-44)));
  (146%N, ((-24820616783201) @ (-41), (-428372245208381) @ (-45), (-6273608013626637) @ (-49), (-1563331323432085) @ (-47)));
  (148%N, ((-3430332003528151) @ (-48), #, #, (-3437151102035493) @ (-48)));
  (149%N, ((-2982268271276817) @ (-48), (-5967007802431561) @ (-49), (-6168667644714939) @ (-49), (-3291483688698791) @ (-48)));
  (150%N, ((-343541569180657) @ (-45), (-1925169055947837) @ (-47), #, (-7658507473194481) @ (-49)));
  (151%N, (#, #, #, (-302852298247679) @ (-44)));
  (153%N, (#, #, (-6164851020242309) @ (-49), (-4227173035229071) @ (-48)));
  (154%N, ((-415075232207411) @ (-45), (-6975678712175689) @ (-49), (-6291183320945945) @ (-49), (-6497476474927491) @ (-49)));
  (155%N, (#, (-3606862978324355) @ (-48), (-1762356706075807) @ (-47), (-7425201997121977) @ (-49)));
  (157%N, ((-4331497877621075) @ (-48), (-3982632372491541) @ (-48), (-609902861438431) @ (-45), (-6901390932685021) @ (-49)));
  (162%N, (#, #, #, (-302852298247679) @ (-44)));
  (163%N, ((-7502517753044599) @ (-49), (-4240545284906009) @ (-48), (-571248877892569) @ (-45), (-880642292618137) @ (-46)));
  (164%N, (#, (-3318111047509587) @ (-48), (-1975763643203379) @ (-47), (-8064138897447807) @ (-49)));
  (165%N, (#, #, #, (-4650533185457697) @ (-48)));
  (166%N, (#, (-3817185134677383) @ (-48), #, (-5912215163435265) @ (-49)));
  (167%N, ((-7171623277416283) @ (-49), (-5993504455476721) @ (-49), (-7040346789497085) @ (-49), (-6029684819594483) @ (-49)));
  (168%N, ((-5003578256906789) @ (-49), (-1925169055947837) @ (-47), (-4426206392587813) @ (-48), (-3415348596671437) @ (-48)));
  (169%N, (#, #, #, (-7425201997121977) @ (-49)));
  (170%N, ((-3632058836243843) @ (-48), (-6566386662228619) @ (-49), (-1761217125044983) @ (-47), (-788059768887281) @ (-46)));
  (171%N, ((-7313100723111123) @ (-49), (-1445325126387491) @ (-47), #, (-4297911758076491) @ (-48)));
  (172%N, ((-5609729400660887) @ (-49), (-1454951954365857) @ (-47), (-3408305968228237) @ (-48), (-5088057744679809) @ (-49)));
  (173%N, (#, #, (-8978031436994227) @ (-49), (-6909376172293041) @ (-49)));
  (174%N, (#, #, #, (-302852298247679) @ (-44)));
  (175%N, ((-6432490768163449) @ (-49), (-3469067403004029) @ (-48), (-6704470423360795) @ (-49), (-6284250228178101) @ (-49)));
  (176%N, (#, #, #, (-302852298247679) @ (-44)));
  (177%N, ((-4318048130724903) @ (-49), #, (-609902861438431) @ (-45), (-4909734358308991) @ (-49)));
  (178%N, ((-2146956065995973) @ (-47), (-2955795484013275) @ (-48), (-3645792046567143) @ (-48), #));
  (179%N, ((-713595085827727) @ (-46), (-3736209830033945) @ (-48), (-1653276102753797) @ (-47), (-5923965312790103) @ (-49)));
  (180%N, ((-609902861438431) @ (-45), (-8871297742822353) @ (-49), #, (-7489000375236853) @ (-49)));
  (181%N, (#, #, #, (-4392620273043229) @ (-48)));
  (182%N, (#, #, #, (-4650533185457697) @ (-48)));
  (183%N, (#, #, #, (-70881326618687) @ (-42)));
  (184%N, ((-303704656405833) @ (-45), (-6097500510268117) @ (-49), (-7031410888328911) @ (-49), (-3132361997462213) @ (-48)));
  (185%N, (#, #, #, (-4297911758076491) @ (-48)));
  (187%N, ((-4260759154773655) @ (-48), (-7157383978315813) @ (-49), (-2011133004627089) @ (-47), (-7835882333724349) @ (-49)));
  (188%N, (#, #, #, (-4650533185457697) @ (-48)));
  (189%N, ((-1459629576201375) @ (-47), (-3036770788656713) @ (-48), (-5697455249967371) @ (-49), (-2876246013026495) @ (-48)));
  (190%N, (#, #, #, (-70881326618687) @ (-42)));
  (191%N, ((-7453534702421163) @ (-49), (-3460130938885339) @ (-48), #, (-7477852487122849) @ (-49)));
  (192%N, ((-5636983026009765) @ (-49), (-2916201150721135) @ (-48), (-3014714285782607) @ (-48), (-6007378675271857) @ (-49)));
  (193%N, ((-4309283739619633) @ (-49), (-8589294453472571) @ (-50), (-3399223238396083) @ (-49), (-5339077536609229) @ (-49)));
  (194%N, ((-8100873996841253) @ (-49), #, #, (-6722838688041669) @ (-49)));
  (195%N, (#, #, #, (-4650533185457697) @ (-48)));
  (196%N, ((-6233539330978433) @ (-49), (-2853646668628891) @ (-48), (-6352748616180713) @ (-49), (-42553744157449) @ (-42)));
  (198%N, ((-3206473575797559) @ (-48), (-6808895884777563) @ (-49), #, (-3444810757719897) @ (-48)));
  (199%N, ((-3232784335298843) @ (-48), (-1537178267142921) @ (-47), (-6259932443476415) @ (-49), (-1444443431945447) @ (-47)));
  (200%N, ((-8945359509194185) @ (-50), (-8215828278780219) @ (-50), (-1297243270100761) @ (-47), (-330674694268487) @ (-45)));
  (201%N, (#, (-6869814717210335) @ (-49), (-3244376119408031) @ (-48), (-3010245091944269) @ (-48)));
  (202%N, (#, #, #, (-2638784857578567) @ (-48)));
  (203%N, (#, #, #, (-302852298247679) @ (-44)));
  (204%N, ((-1998329865051197) @ (-47), (-7346801008249289) @ (-49), (-609902861438431) @ (-45), (-7658507473194481) @ (-49)));
  (205%N, ((-5032848326902663) @ (-49), (-4724002055111121) @ (-49), (-490933199023963) @ (-46), (-607356581889425) @ (-46)));
  (206%N, ((-6125377890489641) @ (-49), #, #, (-5662704239181335) @ (-49)));
  (207%N, (#, #, (-546860929579423) @ (-45), (-7857128249604397) @ (-49)));
  (208%N, ((-3855333411915459) @ (-48), #, #, (-6986850120558139) @ (-49)));
  (209%N, ((-5846024415387407) @ (-49), (-3383588402652739) @ (-48), (-772656683065781) @ (-46), (-6054670632227769) @ (-49)));
  (210%N, ((-546860929579423) @ (-45), (-8871297742822353) @ (-49), (-7374855723470995) @ (-49), (-3242993650796661) @ (-48)));
  (211%N, ((-609902861438431) @ (-45), (-6615369712852055) @ (-49), (-4204275375441935) @ (-48), (-4170689255897351) @ (-48)));
  (212%N, ((-1975763643203379) @ (-47), #, #, (-2001206550016447) @ (-47)));
  (213%N, (#, #, #, (-7217418596990555) @ (-49)));
  (214%N, (#, #, #, (-4650533185457697) @ (-48)));
  (215%N, ((-3109348049726011) @ (-48), (-6240728968116259) @ (-49), (-3141456591695079) @ (-48), (-6002539534126827) @ (-49)));
  (217%N, (#, #, (-1975763643203379) @ (-47), (-7951171338784367) @ (-49)));
  (218%N, (#, #, (-7667890561037021) @ (-49), (-4650533185457697) @ (-48)));
  (220%N, (#, #, #, (-2061833855653683) @ (-47)));
  (221%N, (#, #, (-413850120634003) @ (-45), (-880642292618137) @ (-46)));
  (222%N, (#, #, #, (-4048158111928321) @ (-48)));
  (223%N, (#, #, (-6097700429558125) @ (-49), (-5637374730603399) @ (-49)));
  (224%N, (#, #, #, (-976926146266539) @ (-46)));
  (225%N, ((-1263003056824705) @ (-47), (-5463374094811369) @ (-50), (-6675043442282893) @ (-50), (-4796703931818871) @ (-49)));
  (226%N, (#, #, #, (-302852298247679) @ (-44)));
  (228%N, (#, #, #, (-302852298247679) @ (-44)));
  (229%N, ((-599041873395373) @ (-46), (-4557711843163077) @ (-49), (-4212924364424955) @ (-49), (-154448729958145) @ (-44)));
  (230%N, (#, #, (-7579153354239763) @ (-49), (-5102156260658913) @ (-49)));
  (231%N, ((-4260759154773655) @ (-48), (-3469067403004029) @ (-48), (-6493846843300471) @ (-49), (-6708586029216183) @ (-49)));
  (232%N, ((-3038900136881431) @ (-48), (-7106171420012245) @ (-49), (-5751358892258993) @ (-49), (-172648460886377) @ (-44)));
  (233%N, ((-8978031436994227) @ (-49), (-4240545284906009) @ (-48), (-8359567700260433) @ (-49), (-2130163006223681) @ (-47)));
  (234%N, ((-8608193678264635) @ (-50), (-3638170211376633) @ (-48), (-571248877892569) @ (-45), (-8794475932541361) @ (-50)));
  (236%N, (#, #, #, (-302852298247679) @ (-44)));
  (237%N, ((-2676612155346519) @ (-48), (-5721755232269813) @ (-49), (-2729261218585735) @ (-48), (-4669917216360027) @ (-49)));
  (238%N, ((-6392632320152465) @ (-49), (-7106171420012245) @ (-49), (-6699532234209679) @ (-49), (-7628871685880939) @ (-49)));
  (239%N, (#, #, #, (-302852298247679) @ (-44)));
  (241%N, (#, #, #, (-472560260360877) @ (-45)));
  (242%N, ((-4852672817012087) @ (-49), (-162620016779451) @ (-44), (-2921666078984049) @ (-48), (-6175028031233341) @ (-49)));
  (243%N, (#, #, #, (-8064138897447807) @ (-49)));
  (245%N, (#, #, #, (-3437151102035493) @ (-48)));
  (250%N, ((-5927788355895659) @ (-49), (-8252834006088559) @ (-49), (-7725679712283649) @ (-49), (-3396745883983567) @ (-48)));
  (251%N, (#, #, #, (-4297911758076491) @ (-48)));
  (252%N, ((-1606223371873941) @ (-47), (-1623981519183149) @ (-47), (-6451153801728311) @ (-49), (-5163274443723951) @ (-49)));
  (253%N, ((-193410650259593) @ (-44), #, #, (-906660926466427) @ (-46)));
  (255%N, (#, (-4240545284906009) @ (-48), #, (-2001206550016447) @ (-47)))].

(** prob_emit.py, characters 0x5500 to 0x55ff *)
Definition emit_55 : list (N * num4) := [
  (1%N, ((-546860929579423) @ (-45), #, (-6825765795923849) @ (-49), (-8166776809352665) @ (-49)));
  (2%N, (#, #, #, (-302852298247679) @ (-44)));
  (3%N, (#, #, #, (-2130163006223681) @ (-47)));
  (4%N, ((-4260759154773655) @ (-48), #, (-2146956065995973) @ (-47), (-4392620273043229) @ (-48)));
  (6%N, ((-3325069808243375) @ (-48), (-3606862978324355) @ (-48), (-889038822504283) @ (-46), (-6527269138361157) @ (-49)));
  (7%N, ((-1638764548313161) @ (-47), (-5976798483181123) @ (-49), (-5552762775811559) @ (-49), (-183379866806569) @ (-44)));
  (9%N, ((-7054022359647307) @ (-49), #, #, (-2652518067901867) @ (-48)));
  (10%N, (#, #, #, (-302852298247679) @ (-44)));
  (14%N, (#, #, #, (-4297911758076491) @ (-48)));
  (15%N, ((-7212905114184119) @ (-49), #, (-4260759154773655) @ (-48), (-7489000375236853) @ (-49)));
  (16%N, ((-8624568903920205) @ (-50), (-5496997436510979) @ (-49), (-5204299343316065) @ (-49), (-2461515125902679) @ (-48)));
  (17%N, (#, (-1764807936785953) @ (-47), (-7022614616343179) @ (-49), (-3582197954329907) @ (-48)));
  (19%N, (#, #, #, (-302852298247679) @ (-44)));
  (20%N, (#, #, (-571248877892569) @ (-45), (-6220451850063225) @ (-49)));
  (22%N, (#, #, #, (-4650533185457697) @ (-48)));
  (23%N, (#, #, #, (-302852298247679) @ (-44)));
  (25%N, (#, #, #, (-70881326618687) @ (-42)));
  (27%N, (#, #, #, (-302852298247679) @ (-44)));
  (29%N, (#, #, #, (-302852298247679) @ (-44)));
  (30%N, (#, #, #, (-8910859197905059) @ (-49)));
  (32%N, ((-6645653935753893) @ (-49), (-3252133114292637) @ (-48), (-8978031436994227) @ (-49), (-472560260360877) @ (-45)));
  (33%N, (#, #, #, (-302852298247679) @ (-44)));
  (34%N, ((-3423861029421265) @ (-48), #, #, (-70881326618687) @ (-42)));
  (35%N, (#, #, (-7862826752368233) @ (-49), (-8064138897447807) @ (-49)));
  (36%N, ((-6011041896290259) @ (-49), (-6081415131581645) @ (-49), (-5424330007936263) @ (-49), (-5529236429096921) @ (-49)));
  (39%N, ((-6384145476703523) @ (-49), (-7385640542039271) @ (-49), (-6363471796652225) @ (-49), (-8166776809352665) @ (-49)));
  (40%N, (#, #, #, (-4048158111928321) @ (-48)));
  (42%N, (#, #, (-609902861438431) @ (-45), (-8910859197905059) @ (-49)));
  (43%N, (#, #, #, (-70881326618687) @ (-42)));
  (44%N, ((-7615485311708039) @ (-49), #, (-3278481635527623) @ (-48), (-93517869202469) @ (-43)));
  (45%N, (#, #, #, (-302852298247679) @ (-44)));
  (46%N, ((-358531380851889) @ (-45), (-4809892818918117) @ (-49), (-4534240387706655) @ (-49), (-5926064569244187) @ (-49)));
  (47%N, ((-4724950504742765) @ (-49), (-5274857397141249) @ (-49), (-829324207436477) @ (-46), (-725530552448743) @ (-46)));
  (48%N, (#, #, #, (-3390274909876681) @ (-48)));
  (49%N, ((-2698589812982527) @ (-48), (-5049446416326307) @ (-49), (-2677513236473675) @ (-48), (-1243244935088607) @ (-47)));
  (50%N, (#, #, #, (-2130163006223681) @ (-47)));
  (51%N, (#, #, (-8018343577873535) @ (-49), (-7587152606408853) @ (-49)));
  (52%N, (#, #, #, (-1822899526423839) @ (-47)));
  (53%N, (#, #, #, (-1930728693765227) @ (-47)));
  (54%N, (#, #, #, (-70881326618687) @ (-42)));
  (55%N, (#, #, (-8978031436994227) @ (-49), (-1635956920916995) @ (-47)));
  (56%N, (#, #, #, (-4392620273043229) @ (-48)));
  (57%N, (#, #, #, (-4048158111928321) @ (-48)));
  (58%N, (#, #, #, (-239810366388671) @ (-44)));
  (59%N, (#, #, #, (-1969801887061797) @ (-47)));
  (60%N, (#, #, #, (-4297911758076491) @ (-48)));
  (61%N, (#, #, #, (-70881326618687) @ (-42)));
  (62%N, ((-6026446048279327) @ (-49), #, #, (-3408440888610819) @ (-48)));
  (63%N, ((-454428729292475) @ (-45), #, #, (-7523833130877875) @ (-49)));
  (64%N, (#, #, #, (-6605948117311325) @ (-49)));
  (65%N, ((-1986594946834089) @ (-47), #, #, (-2001206550016447) @ (-47)));
  (66%N, (#, #, #, (-4650533185457697) @ (-48)));
  (67%N, ((-8359567700260433) @ (-49), (-3760701355345663) @ (-48), #, (-6033065910559427) @ (-49)));
  (68%N, ((-7054022359647307) @ (-49), #, (-4204275375441935) @ (-48), (-6220451850063225) @ (-49)));
  (69%N, (#, #, #, (-4227173035229071) @ (-48)));
  (70%N, ((-7563238791693543) @ (-50), (-8165314322977697) @ (-50), (-2169887825439413) @ (-48), (-5043216823850371) @ (-49)));
  (71%N, (#, #, #, (-302852298247679) @ (-44)));
  (72%N, (#, #, #, (-302852298247679) @ (-44)));
  (73%N, (#, (-8252834006088559) @ (-49), (-7435075673190267) @ (-49), (-7658507473194481) @ (-49)));
  (74%N, ((-6184198283552203) @ (-49), (-7131195537680991) @ (-49), (-985322676152685) @ (-46), (-2033666891359193) @ (-48)));
  (75%N, (#, #, #, (-7500373488380235) @ (-49)));
  (77%N, (#, #, #, (-302852298247679) @ (-44)));
  (78%N, (#, #, #, (-4650533185457697) @ (-48)));
  (79%N, ((-6992106592474281) @ (-50), (-2403706429582773) @ (-48), (-8525553188413485) @ (-50), (-70881326618687) @ (-42)));
  (80%N, (#, #, #, (-6605948117311325) @ (-49)));
  (81%N, (#, #, #, (-271331332318175) @ (-44)));
  (82%N, (#, #, #, (-7489000375236853) @ (-49)));
  (83%N, (#, #, #, (-7600718321947853) @ (-49)));
  (85%N, (#, (-1648815554978729) @ (-47), (-1765831882352707) @ (-47), (-8910859197905059) @ (-49)));
  (86%N, (#, #, (-609902861438431) @ (-45), (-3733460538297031) @ (-48)));
  (87%N, (#, #, #, (-5964503640663789) @ (-49)));
  (88%N, (#, #, #, (-943539134077359) @ (-46)));
  (89%N, (#, #, #, (-70881326618687) @ (-42)));
  (91%N, (#, #, #, (-7643494584741751) @ (-49)));
  (92%N, ((-7171623277416283) @ (-49), #, #, (-3612205927022559) @ (-48)));
  (93%N, (#, #, #, (-4392620273043229) @ (-48)));
  (94%N, ((-5846024415387407) @ (-49), (-3383588402652739) @ (-48), (-772656683065781) @ (-46), (-6054670632227769) @ (-49)));
  (95%N, ((-76032018412145) @ (-43), (-8252834006088559) @ (-49), (-1348688278447067) @ (-47), (-302852298247679) @ (-44)));
  (96%N, (#, #, #, (-302852298247679) @ (-44)));
  (97%N, (#, (-668164747829659) @ (-46), (-5641844131867187) @ (-49), (-7523833130877875) @ (-49)));
  (98%N, (#, #, #, (-4227173035229071) @ (-48)));
  (99%N, (#, #, #, (-2061833855653683) @ (-47)));
  (100%N, ((-1493994410179133) @ (-47), (-6975678712175689) @ (-49), (-2146956065995973) @ (-47), (-6800076053007037) @ (-49)));
  (101%N, ((-3663958025301281) @ (-48), #, (-6582334460222915) @ (-49), (-2536766110473159) @ (-48)));
  (102%N, ((-4260759154773655) @ (-48), (-5883008689822489) @ (-49), (-777075903619197) @ (-46), (-4512482702077861) @ (-49)));
  (103%N, ((-212644807062239) @ (-44), (-6404436052941743) @ (-49), (-889038822504283) @ (-46), (-7332707602050573) @ (-49)));
  (105%N, (#, #, #, (-302852298247679) @ (-44)));
  (106%N, ((-1865749067223629) @ (-47), (-784151982854103) @ (-46), (-3543643231182759) @ (-48), (-738515740076419) @ (-46)));
  (107%N, (#, #, #, (-8166776809352665) @ (-49)));
  (108%N, (#, (-3606862978324355) @ (-48), (-3538790094118157) @ (-48), (-1809666128217651) @ (-47)));
  (109%N, (#, #, (-4204275375441935) @ (-48), (-7926147221115621) @ (-49)));
  (110%N, ((-7149325314970619) @ (-49), #, (-483818997720415) @ (-45), (-1877995278787649) @ (-47)));
  (111%N, (#, #, #, (-7689790518313711) @ (-49)));
  (112%N, (#, #, #, (-6529312516116161) @ (-49)));
  (113%N, (#, #, #, (-4650533185457697) @ (-48)));
  (114%N, (#, #, #, (-4297911758076491) @ (-48)));
  (117%N, (#, #, #, (-3452684697072041) @ (-48)));
  (118%N, (#, (-8090883396801683) @ (-49), (-6819646714444379) @ (-49), (-7835882333724349) @ (-49)));
  (119%N, (#, #, (-1758965277191057) @ (-47), (-6243383314301553) @ (-49)));
  (120%N, ((-1676738964413993) @ (-47), (-5336804399533481) @ (-49), (-5766149889646123) @ (-49), (-3200010553913215) @ (-48)));
  (121%N, (#, #, #, (-7614619027055453) @ (-49)));
  (122%N, (#, #, #, (-2061833855653683) @ (-47)));
  (123%N, (#, (-4240545284906009) @ (-48), (-7435075673190267) @ (-49), (-3688528646784237) @ (-48)));
  (124%N, ((-6363471796652225) @ (-49), (-6262177274778075) @ (-49), (-6968563171774189) @ (-49), (-204825927845465) @ (-44)));
  (126%N, ((-4684119305002281) @ (-48), #, (-1975763643203379) @ (-47), (-850424662662967) @ (-46)));
  (127%N, (#, #, #, (-7386362463331995) @ (-49)));
  (128%N, ((-5666799971797411) @ (-49), (-5261764947669149) @ (-49), (-1681167025932647) @ (-47), (-5584904183053611) @ (-49)));
  (129%N, (#, #, #, (-7500373488380235) @ (-49)));
  (130%N, ((-1610436237098159) @ (-47), #, (-7756962757402879) @ (-49), (-669580952416269) @ (-46)));
  (131%N, ((-5916053373525945) @ (-49), (-1508025452042197) @ (-47), (-2956502725396995) @ (-48), (-7523833130877875) @ (-49)));
  (132%N, ((-2462223780358495) @ (-48), (-71690057607153) @ (-43), (-8637026432059031) @ (-50), (-2404790047819181) @ (-48)));
  (133%N, (#, #, #, (-3549396601113259) @ (-48)));
  (134%N, (#, (-7427359621511357) @ (-49), (-3801556143597227) @ (-48), (-1994339944854797) @ (-47)));
  (135%N, ((-5551801836824169) @ (-49), (-2813775592637523) @ (-48), (-3480344808752985) @ (-48), (-5946044611432893) @ (-49)));
  (136%N, (#, #, (-546860929579423) @ (-45), (-8910859197905059) @ (-49)));
  (137%N, ((-5757320943418829) @ (-49), (-6425952682918579) @ (-49), (-5978021018471535) @ (-49), (-6091061325149531) @ (-49)));
  (138%N, ((-2784842544509863) @ (-48), (-1396647827542697) @ (-47), (-5391614203921239) @ (-49), (-2464958650953393) @ (-48)));
  (139%N, ((-1795778112687613) @ (-47), (-6376969632295143) @ (-49), #, (-7477852487122849) @ (-49)));
  (140%N, (#, #, #, (-1853809505254573) @ (-47)));
  (142%N, (#, #, #, (-7115940211661285) @ (-49)));
  (143%N, (#, #, (-1865749067223629) @ (-47), (-50343730531441) @ (-42)));
  (145%N, ((-1986594946834089) @ (-47), #, (-8462205612165291) @ (-49), (-7628871685880939) @ (-49)));
  (147%N, (#, #, #, (-70881326618687) @ (-42)));
  (148%N, (#, #, #, (-7000866196083895) @ (-49)));
  (149%N, (#, #, #, (-8910859197905059) @ (-49)));
  (150%N, (#, #, #, (-302852298247679) @ (-44)));
  (152%N, ((-1493994410179133) @ (-47), (-2780425986017795) @ (-48), (-6147989361808037) @ (-49), (-1476354042077787) @ (-47)));
  (153%N, (#, #, (-8978031436994227) @ (-49), (-204169426815881) @ (-44)));
  (154%N, ((-6011041896290259) @ (-49), (-6081415131581645) @ (-49), (-5424330007936263) @ (-49), (-8910859197905059) @ (-49)));
  (155%N, (#, #, #, (-4650533185457697) @ (-48)));
  (156%N, ((-8556378279017673) @ (-50), (-2340608559335841) @ (-48), (-2370774318978967) @ (-48), (-2338671752310163) @ (-48)));
  (157%N, ((-4763521715333405) @ (-49), (-5785972316207949) @ (-49), (-2731438985555339) @ (-48), (-4503337104580083) @ (-49)));
  (158%N, (#, #, #, (-302852298247679) @ (-44)));
  (159%N, ((-8197617090973557) @ (-49), #, (-2146956065995973) @ (-47), (-3634150150092073) @ (-48)));
  (164%N, (#, #, #, (-70881326618687) @ (-42)));
  (166%N, (#, #, #, (-4048158111928321) @ (-48)));
  (167%N, ((-2880975246076593) @ (-48), (-3312849679805319) @ (-48), (-985322676152685) @ (-46), (-3307704841892339) @ (-48)));
  (168%N, (#, #, #, (-8130444851884389) @ (-49)));
  (170%N, ((-2594822730121107) @ (-48), (-5406420665481025) @ (-49), (-5745459322430309) @ (-49), (-302852298247679) @ (-44)));
  (172%N, ((-4920888549529333) @ (-49), (-5171431591541059) @ (-49), (-1447884006543381) @ (-47), (-6106302863991523) @ (-49)));
  (174%N, ((-7628327005942591) @ (-50), (-2627665581943787) @ (-48), (-8865605199732877) @ (-50), (-4810739025442259) @ (-49)));
  (177%N, (#, (-4240545284906009) @ (-48), (-8359567700260433) @ (-49), (-2130163006223681) @ (-47)));
  (178%N, (#, #, (-6097700429558125) @ (-49), (-5637374730603399) @ (-49)));
  (179%N, ((-1998329865051197) @ (-47), (-384016428008523) @ (-45), (-6926560989478223) @ (-49), (-3670651212387731) @ (-48)));
  (181%N, (#, #, #, (-1535546096063807) @ (-47)));
  (182%N, (#, #, #, (-302852298247679) @ (-44)));
  (183%N, ((-5250698865066333) @ (-49), (-5767513286977053) @ (-49), (-211052467801955) @ (-44), (-708278524257363) @ (-46)));
  (185%N, ((-3756423699901591) @ (-48), #, (-4204275375441935) @ (-48), (-7587152606408853) @ (-49)));
  (187%N, ((-2884483496436561) @ (-48), (-5743081644318359) @ (-49), (-5878805305272223) @ (-49), (-405138068737789) @ (-45)));
  (189%N, ((-3319495864186373) @ (-48), (-8871297742822353) @ (-49), #, (-1624853585607365) @ (-47)));
  (190%N, (#, (-8871297742822353) @ (-49), (-7756962757402879) @ (-49), (-1853809505254573) @ (-47)));
  (191%N, (#, #, #, (-302852298247679) @ (-44)));
  (193%N, (#, #, #, (-302852298247679) @ (-44)));
  (194%N, (#, #, #, (-4650533185457697) @ (-48)));
  (196%N, (#, #, #, (-7050279472141661) @ (-49)));
  (197%N, ((-6399803754120501) @ (-49), #, #, (-12186913822765) @ (-40)));
  (198%N, ((-4426206392587813) @ (-48), #, (-7615485311708039) @ (-49), (-3010245091944269) @ (-48)));
  (199%N, (#, (-3606862978324355) @ (-48), (-3538790094118157) @ (-48), (-1809666128217651) @ (-47)));
  (201%N, ((-4260759154773655) @ (-48), #, #, (-7658507473194481) @ (-49)));
  (202%N, (#, #, #, (-302852298247679) @ (-44)));
  (204%N, (#, #, #, (-7332707602050573) @ (-49)));
  (205%N, (#, #, #, (-1809666128217651) @ (-47)));
  (206%N, ((-1795778112687613) @ (-47), (-3817185134677383) @ (-48), (-6352748616180713) @ (-49), (-2041054766943815) @ (-48)));
  (207%N, (#, #, #, (-472560260360877) @ (-45)));
  (208%N, (#, #, #, (-6104374951307875) @ (-49)));
  (209%N, (#, #, (-8359567700260433) @ (-49), (-3605255574468759) @ (-48)));
  (210%N, (#, #, (-889038822504283) @ (-46), (-3221120516242921) @ (-48)));
  (211%N, ((-2830665301185983) @ (-48), (-1648815554978729) @ (-47), (-4426206392587813) @ (-48), (-3612205927022559) @ (-48)));
  (212%N, ((-1794334638614767) @ (-47), (-3736209830033945) @ (-48), (-7556172614326021) @ (-49), (-3063978727495911) @ (-48)));
  (213%N, (#, #, #, (-5882246233318017) @ (-49)));
  (214%N, ((-1800199549239177) @ (-47), (-7575057571972747) @ (-49), (-7143886142672895) @ (-49), (-6681119608569583) @ (-49)));
  (215%N, (#, #, #, (-5742790154080123) @ (-49)));
  (216%N, (#, #, #, (-5991407392644435) @ (-49)));
  (217%N, (#, #, #, (-6373019742929881) @ (-49)));
  (218%N, ((-6212452597894135) @ (-49), (-5719666361771367) @ (-49), (-7591005369967043) @ (-49), (-2909559989492275) @ (-48)));
  (219%N, (#, #, #, (-6503310205406467) @ (-49)));
  (220%N, ((-6588355372733015) @ (-49), (-8871297742822353) @ (-49), #, (-6196148077922609) @ (-49)));
  (221%N, ((-4260759154773655) @ (-48), (-8252834006088559) @ (-49), (-7343131840464381) @ (-49), (-1783406489466885) @ (-47)));
  (222%N, (#, #, #, (-271331332318175) @ (-44)));
  (223%N, ((-7212905114184119) @ (-49), (-8871297742822353) @ (-49), (-4684119305002281) @ (-48), (-6421579999726895) @ (-49)));
  (225%N, ((-1588852580761685) @ (-47), #, (-1588852580761685) @ (-47), (-6649836563450353) @ (-49)));
  (226%N, (#, #, #, (-4392620273043229) @ (-48)));
  (227%N, ((-7143886142672895) @ (-49), (-4848909911439557) @ (-49), (-95382707368689) @ (-43), (-735932346265983) @ (-46)));
  (228%N, ((-3704237331932315) @ (-48), #, (-3921870937715749) @ (-48), (-5687848129189121) @ (-49)));
  (229%N, ((-8100873996841253) @ (-49), (-4240545284906009) @ (-48), (-7567545727469403) @ (-49), (-3767970024052643) @ (-48)));
  (230%N, ((-4684119305002281) @ (-48), #, (-195552660477771) @ (-44), (-6637298184271627) @ (-49)));
  (232%N, ((-2146956065995973) @ (-47), #, #, (-6365318529074281) @ (-49)));
  (233%N, ((-3423861029421265) @ (-48), #, #, (-70881326618687) @ (-42)));
  (234%N, (#, (-4240545284906009) @ (-48), (-1800199549239177) @ (-47), (-7386362463331995) @ (-49)));
  (235%N, ((-6857400519925933) @ (-49), (-3736209830033945) @ (-48), #, (-7658507473194481) @ (-49)));
  (236%N, ((-571248877892569) @ (-45), #, (-609902861438431) @ (-45), (-3326189051272823) @ (-48)));
  (237%N, (#, #, #, (-5869422217429683) @ (-49)));
  (239%N, (#, #, #, (-5355374264447905) @ (-49)));
  (242%N, ((-8100873996841253) @ (-49), (-3606862978324355) @ (-48), #, (-1828975469458993) @ (-47)));
  (243%N, ((-2017999609788739) @ (-47), #, #, (-3156388658957765) @ (-48)));
  (245%N, ((-609902861438431) @ (-45), #, (-609902861438431) @ (-45), (-3422430101659097) @ (-48)));
  (246%N, ((-1975763643203379) @ (-47), #, #, (-2001206550016447) @ (-47)));
  (247%N, ((-7206819109466809) @ (-49), (-6838531672091105) @ (-49), (-7492374236211145) @ (-49), (-6991483479663675) @ (-49)));
  (251%N, (#, #, #, (-7245928484021955) @ (-49)));
  (253%N, (#, (-491414177067389) @ (-45), (-5750902877690987) @ (-49), (-3268780507325423) @ (-48)));
  (254%N, (#, #, #, (-976926146266539) @ (-46)));
  (255%N, (#, #, #, (-302852298247679) @ (-44)))].

(** prob_emit.py, characters 0x5600 to 0x56ff *)
Definition emit_56 : list (N * num4) := [
  (0%N, ((-817970144945989) @ (-46), (-3260663311836043) @ (-48), (-8978031436994227) @ (-49), (-6863080238721081) @ (-49)));
  (1%N, ((-1910269588269243) @ (-47), (-1688482578221107) @ (-47), #, (-7115940211661285) @ (-49)));
  (6%N, ((-703698177110831) @ (-46), (-1402959983576123) @ (-47), (-5196584056450461) @ (-49), (-5002228753380395) @ (-49)));
  (8%N, ((-6562717494443711) @ (-49), (-3817185134677383) @ (-48), #, (-7005616856795013) @ (-49)));
  (9%N, ((-4813402069142483) @ (-49), (-8427646580110833) @ (-50), (-5478955428789791) @ (-49), (-2629844931815275) @ (-48)));
  (12%N, ((-3767046657841615) @ (-48), (-7157383978315813) @ (-49), #, (-7332707602050573) @ (-49)));
  (13%N, ((-3319495864186373) @ (-48), (-8871297742822353) @ (-49), #, (-302852298247679) @ (-44)));
  (14%N, ((-3476462333727023) @ (-48), (-3038732294690165) @ (-48), (-3430332003528151) @ (-48), (-6309997312495983) @ (-49)));
  (15%N, (#, #, (-8272788582231815) @ (-49), (-3879055303555717) @ (-48)));
  (17%N, (#, #, #, (-302852298247679) @ (-44)));
  (20%N, ((-6007435542166853) @ (-49), #, (-7284590836079723) @ (-49), (-1625339725946889) @ (-47)));
  (22%N, ((-212644807062239) @ (-44), (-6404436052941743) @ (-49), (-889038822504283) @ (-46), (-7332707602050573) @ (-49)));
  (23%N, ((-5571339365712421) @ (-49), (-5223356958517717) @ (-49), (-5671134924605831) @ (-49), (-22097751748369) @ (-41)));
  (24%N, ((-7350896790516305) @ (-49), (-7106171420012245) @ (-49), (-408522113529243) @ (-45), (-6603607365691809) @ (-49)));
  (26%N, (#, #, #, (-4227173035229071) @ (-48)));
  (27%N, (#, (-1544044872304571) @ (-47), (-2874995977618751) @ (-48), (-2553767791516647) @ (-48)));
  (28%N, (#, #, #, (-302852298247679) @ (-44)));
  (30%N, (#, #, #, (-1853809505254573) @ (-47)));
  (31%N, ((-3262711202969551) @ (-48), (-3278540746232549) @ (-48), (-1652749980689287) @ (-47), (-6946781437909935) @ (-49)));
  (32%N, (#, #, #, (-302852298247679) @ (-44)));
  (33%N, (#, #, #, (-8033701757752085) @ (-49)));
  (34%N, (#, #, #, (-302852298247679) @ (-44)));
  (35%N, (#, #, #, (-3510057111638175) @ (-48)));
  (36%N, ((-8978031436994227) @ (-49), #, (-4331497877621075) @ (-48), (-3268780507325423) @ (-48)));
  (38%N, (#, #, #, (-70881326618687) @ (-42)));
  (39%N, ((-7502517753044599) @ (-49), (-3460130938885339) @ (-48), (-4684119305002281) @ (-48), (-472560260360877) @ (-45)));
  (41%N, ((-3109348049726011) @ (-48), (-6240728968116259) @ (-49), (-3141456591695079) @ (-48), (-6002539534126827) @ (-49)));
  (43%N, (#, #, #, (-7139646870377641) @ (-49)));
  (44%N, (#, #, #, (-7283724551427137) @ (-49)));
  (45%N, ((-609902861438431) @ (-45), #, (-609902861438431) @ (-45), (-6786983603534937) @ (-49)));
  (46%N, ((-6645653935753893) @ (-49), (-3252133114292637) @ (-48), (-8978031436994227) @ (-49), (-472560260360877) @ (-45)));
  (47%N, ((-1676738964413993) @ (-47), (-5336804399533481) @ (-49), (-5766149889646123) @ (-49), (-4392620273043229) @ (-48)));
  (48%N, ((-412537118574835) @ (-45), (-6463748750323761) @ (-49), (-7097163030666307) @ (-49), (-7050279472141661) @ (-49)));
  (49%N, ((-1449981842230869) @ (-47), (-6975678712175689) @ (-49), (-5967207721721569) @ (-49), (-3256584737927489) @ (-48)));
  (50%N, ((-92798999931471) @ (-43), (-6376969632295143) @ (-49), (-6617337137372447) @ (-49), (-7145732875094951) @ (-49)));
  (52%N, ((-4874441608226475) @ (-49), (-5588239773877031) @ (-49), (-1307340674172137) @ (-47), (-1183910011643965) @ (-47)));
  (53%N, ((-609902861438431) @ (-45), (-6615369712852055) @ (-49), (-4204275375441935) @ (-48), (-4170689255897351) @ (-48)));
  (54%N, ((-6366184813726867) @ (-49), (-6210014990473763) @ (-49), (-7117451711230829) @ (-49), (-1576807742022961) @ (-47)));
  (55%N, (#, #, #, (-4650533185457697) @ (-48)));
  (56%N, (#, #, #, (-1853809505254573) @ (-47)));
  (57%N, ((-7054022359647307) @ (-49), #, #, (-8205616343142647) @ (-49)));
  (59%N, ((-6596484755205329) @ (-49), (-324314075590687) @ (-45), (-3070327202613245) @ (-48), (-1492635173834867) @ (-47)));
  (60%N, (#, #, #, (-4650533185457697) @ (-48)));
  (62%N, (#, #, #, (-8292395461171265) @ (-49)));
  (63%N, ((-5888616060190611) @ (-49), (-4240545284906009) @ (-48), (-5888616060190611) @ (-49), (-6214569351883485) @ (-49)));
  (64%N, (#, #, #, (-7435345513955431) @ (-49)));
  (65%N, (#, #, #, (-8292395461171265) @ (-49)));
  (71%N, (#, #, #, (-70881326618687) @ (-42)));
  (73%N, (#, #, #, (-70881326618687) @ (-42)));
  (76%N, (#, #, #, (-3670651212387731) @ (-48)));
  (77%N, (#, #, #, (-4227173035229071) @ (-48)));
  (78%N, ((-3632058836243843) @ (-48), (-7157383978315813) @ (-49), (-889038822504283) @ (-46), (-6683806725621059) @ (-49)));
  (79%N, (#, #, #, (-302852298247679) @ (-44)));
  (81%N, (#, #, #, (-4650533185457697) @ (-48)));
  (83%N, ((-7350896790516305) @ (-49), (-7106171420012245) @ (-49), (-408522113529243) @ (-45), (-6603607365691809) @ (-49)));
  (84%N, (#, #, (-3667736269636657) @ (-48), (-3549396601113259) @ (-48)));
  (85%N, (#, #, #, (-8910859197905059) @ (-49)));
  (87%N, ((-6714478686130389) @ (-49), #, #, (-6258362910820543) @ (-49)));
  (88%N, ((-8462205612165291) @ (-49), #, #, (-7245928484021955) @ (-49)));
  (89%N, (#, #, (-8978031436994227) @ (-49), (-834472943762735) @ (-46)));
  (90%N, (#, #, #, (-302852298247679) @ (-44)));
  (92%N, ((-546860929579423) @ (-45), (-6886133249742931) @ (-49), (-6329343168624479) @ (-49), (-3543822657056257) @ (-48)));
  (93%N, ((-4331497877621075) @ (-48), (-3982632372491541) @ (-48), (-609902861438431) @ (-45), (-6901390932685021) @ (-49)));
  (96%N, ((-546860929579423) @ (-45), (-8871297742822353) @ (-49), (-7374855723470995) @ (-49), (-3242993650796661) @ (-48)));
  (98%N, ((-609902861438431) @ (-45), #, (-609902861438431) @ (-45), (-5918405268053119) @ (-49)));
  (99%N, (#, #, #, (-1994339944854797) @ (-47)));
  (100%N, ((-3801556143597227) @ (-48), #, (-1797236545307357) @ (-47), (-3888284818171165) @ (-48)));
  (101%N, (#, #, (-413850120634003) @ (-45), (-880642292618137) @ (-46)));
  (102%N, (#, #, #, (-7217418596990555) @ (-49)));
  (103%N, (#, #, #, (-2061833855653683) @ (-47)));
  (104%N, ((-4885209136417675) @ (-49), (-4762257655372809) @ (-49), (-3734790608368555) @ (-49), (-2496065664689551) @ (-48)));
  (105%N, ((-6440191982019049) @ (-49), (-3252133114292637) @ (-48), (-3667736269636657) @ (-48), (-8205616343142647) @ (-49)));
  (106%N, ((-378269741752949) @ (-45), (-6210014990473763) @ (-49), (-3270022652399957) @ (-48), (-1729369077842873) @ (-47)));
  (107%N, ((-609902861438431) @ (-45), #, #, (-3543822657056257) @ (-48)));
  (108%N, ((-1797236545307357) @ (-47), (-7082212487057555) @ (-49), (-6551267270149819) @ (-49), (-1672986475717779) @ (-47)));
  (109%N, (#, #, #, (-8292395461171265) @ (-49)));
  (110%N, (#, #, #, (-302852298247679) @ (-44)));
  (111%N, ((-2017999609788739) @ (-47), #, #, (-3688528646784237) @ (-48)));
  (112%N, (#, #, #, (-1969801887061797) @ (-47)));
  (113%N, ((-7556172614326021) @ (-49), #, #, (-8205616343142647) @ (-49)));
  (114%N, (#, #, (-1975763643203379) @ (-47), (-4650533185457697) @ (-48)));
  (115%N, (#, #, #, (-8064138897447807) @ (-49)));
  (116%N, ((-5250698865066333) @ (-49), (-5767513286977053) @ (-49), (-211052467801955) @ (-44), (-4227173035229071) @ (-48)));
  (117%N, (#, #, #, (-4650533185457697) @ (-48)));
  (118%N, ((-6673120356400493) @ (-49), (-1364095619012451) @ (-47), (-7924300488693565) @ (-49), (-6629907050266015) @ (-49)));
  (119%N, (#, #, #, (-2977046058115107) @ (-48)));
  (120%N, ((-6271305556619797) @ (-49), (-5207186460334071) @ (-49), (-4789683856654801) @ (-49), (-1656258248562015) @ (-47)));
  (121%N, (#, #, #, (-440002733528793) @ (-45)));
  (122%N, (#, #, #, (-7231493078902567) @ (-49)));
  (123%N, ((-7343131840464381) @ (-49), (-8090883396801683) @ (-49), (-571248877892569) @ (-45), (-8130444851884389) @ (-49)));
  (124%N, ((-7072789095884181) @ (-49), (-841042158939437) @ (-46), #, (-7795654513279065) @ (-49)));
  (126%N, (#, #, #, (-1848956007451337) @ (-47)));
  (127%N, (#, #, #, (-70881326618687) @ (-42)));
  (128%N, (#, (-3606862978324355) @ (-48), (-1762356706075807) @ (-47), (-7425201997121977) @ (-49)));
  (129%N, (#, #, #, (-302852298247679) @ (-44)));
  (130%N, (#, #, #, (-8910859197905059) @ (-49)));
  (132%N, (#, #, #, (-302852298247679) @ (-44)));
  (133%N, (#, (-3736209830033945) @ (-48), (-6857400519925933) @ (-49), (-239810366388671) @ (-44)));
  (134%N, ((-609902861438431) @ (-45), #, #, (-302852298247679) @ (-44)));
  (135%N, ((-5764746606941707) @ (-49), (-1725734743489383) @ (-47), (-1501499861142023) @ (-47), (-8166776809352665) @ (-49)));
  (136%N, (#, #, #, (-7795654513279065) @ (-49)));
  (137%N, (#, #, #, (-302852298247679) @ (-44)));
  (138%N, (#, #, #, (-271331332318175) @ (-44)));
  (139%N, (#, #, #, (-302852298247679) @ (-44)));
  (140%N, (#, #, #, (-2061833855653683) @ (-47)));
  (142%N, ((-6694636986377329) @ (-49), #, (-3551083531600405) @ (-48), (-6603607365691809) @ (-49)));
  (143%N, ((-8978031436994227) @ (-49), #, (-1676738964413993) @ (-47), (-8130444851884389) @ (-49)));
  (145%N, (#, #, #, (-3198388215262301) @ (-48)));
  (146%N, (#, #, #, (-3951094144080465) @ (-48)));
  (147%N, ((-4684119305002281) @ (-48), (-3817185134677383) @ (-48), (-1671243093031943) @ (-47), (-855160738236529) @ (-46)));
  (149%N, ((-546860929579423) @ (-45), (-6886133249742931) @ (-49), (-6329343168624479) @ (-49), (-3543822657056257) @ (-48)));
  (150%N, (#, #, #, (-4650533185457697) @ (-48)));
  (151%N, (#, #, #, (-4650533185457697) @ (-48)));
  (152%N, (#, #, #, (-302852298247679) @ (-44)));
  (156%N, (#, #, #, (-6202985610806041) @ (-49)));
  (159%N, (#, #, #, (-7614619027055453) @ (-49)));
  (161%N, (#, #, #, (-302852298247679) @ (-44)));
  (162%N, (#, #, #, (-302852298247679) @ (-44)));
  (163%N, ((-3158997764452997) @ (-48), (-398981976780441) @ (-45), (-6292374749863511) @ (-49), (-7151885394841985) @ (-49)));
  (164%N, (#, #, #, (-302852298247679) @ (-44)));
  (165%N, (#, #, #, (-302852298247679) @ (-44)));
  (166%N, ((-4204275375441935) @ (-48), #, (-4204275375441935) @ (-48), (-6938251729979339) @ (-49)));
  (167%N, (#, #, #, (-1930728693765227) @ (-47)));
  (168%N, (#, #, (-6164851020242309) @ (-49), (-271331332318175) @ (-44)));
  (169%N, (#, #, #, (-8166776809352665) @ (-49)));
  (171%N, (#, #, #, (-1648585122635241) @ (-47)));
  (172%N, (#, #, #, (-3323653223520611) @ (-48)));
  (173%N, (#, #, #, (-6063550153125395) @ (-49)));
  (174%N, (#, #, #, (-3517497412055821) @ (-48)));
  (175%N, (#, #, #, (-7658507473194481) @ (-49)));
  (177%N, (#, #, #, (-4650533185457697) @ (-48)));
  (178%N, (#, #, #, (-6284250228178101) @ (-49)));
  (179%N, (#, (-8871297742822353) @ (-49), (-7756962757402879) @ (-49), (-4297911758076491) @ (-48)));
  (180%N, ((-7859514861337811) @ (-50), (-5355052230129965) @ (-49), (-4876848821136785) @ (-49), (-5266599961327423) @ (-49)));
  (182%N, ((-8978031436994227) @ (-49), #, (-4331497877621075) @ (-48), (-3268780507325423) @ (-48)));
  (183%N, ((-211052467801955) @ (-44), (-3256365900473599) @ (-48), (-6093496153456681) @ (-49), (-11192909011043) @ (-40)));
  (188%N, ((-238379262651975) @ (-44), (-6487707683278451) @ (-49), (-807389556437815) @ (-46), (-5942424342020999) @ (-49)));
  (192%N, (#, #, (-4204275375441935) @ (-48), (-7926147221115621) @ (-49)));
  (193%N, ((-6857400519925933) @ (-49), (-3736209830033945) @ (-48), #, (-7658507473194481) @ (-49)));
  (194%N, ((-3158997764452997) @ (-48), (-398981976780441) @ (-45), (-6292374749863511) @ (-49), (-302852298247679) @ (-44)));
  (200%N, ((-3921870937715749) @ (-48), #, (-1998329865051197) @ (-47), (-3870118839437027) @ (-48)));
  (201%N, (#, #, #, (-6529312516116161) @ (-49)));
  (202%N, ((-6215565693127483) @ (-49), (-5743081644318359) @ (-49), (-5444595277027167) @ (-49), (-2809193907600785) @ (-48)));
  (204%N, (#, #, #, (-302852298247679) @ (-44)));
  (205%N, (#, #, #, (-302852298247679) @ (-44)));
  (207%N, (#, #, (-609902861438431) @ (-45), (-4650533185457697) @ (-48)));
  (209%N, ((-1449981842230869) @ (-47), (-6975678712175689) @ (-49), (-5967207721721569) @ (-49), (-3256584737927489) @ (-48)));
  (210%N, (#, #, #, (-302852298247679) @ (-44)));
  (211%N, ((-7149325314970619) @ (-49), #, (-483818997720415) @ (-45), (-1877995278787649) @ (-47)));
  (212%N, ((-8978031436994227) @ (-49), (-7015906532620973) @ (-49), (-878374446492819) @ (-46), (-8292395461171265) @ (-49)));
  (215%N, (#, (-1925169055947837) @ (-47), #, (-4650533185457697) @ (-48)));
  (218%N, ((-1493994410179133) @ (-47), (-3606862978324355) @ (-48), (-3165948117006797) @ (-48), (-405138068737789) @ (-45)));
  (219%N, ((-7249609840711385) @ (-50), (-1720028733743977) @ (-48), (-2330935457823041) @ (-48), (-8284641871861437) @ (-50)));
  (221%N, (#, #, #, (-4650533185457697) @ (-48)));
  (222%N, ((-3511031399956487) @ (-49), (-2223964649902101) @ (-48), (-8515805635287865) @ (-50), (-8047195290678779) @ (-50)));
  (223%N, ((-4260759154773655) @ (-48), #, #, (-7245928484021955) @ (-49)));
  (224%N, ((-6873253699068595) @ (-50), (-4589282316045383) @ (-49), (-8504995275599915) @ (-50), (-243958430368237) @ (-45)));
  (225%N, ((-4684119305002281) @ (-48), (-4240545284906009) @ (-48), (-3704237331932315) @ (-48), (-8166776809352665) @ (-49)));
  (226%N, ((-8535582093039549) @ (-50), (-1030199488445071) @ (-47), (-969191699003703) @ (-47), (-4731509677262219) @ (-49)));
  (227%N, (#, #, #, (-2061833855653683) @ (-47)));
  (228%N, ((-7097163030666307) @ (-49), #, (-8978031436994227) @ (-49), (-108816228894371) @ (-43)));
  (229%N, (#, #, #, (-3722837580357007) @ (-48)));
  (230%N, (#, #, #, (-3299477430128381) @ (-48)));
  (231%N, (#, #, #, (-6041608562397533) @ (-49)));
  (232%N, (#, #, #, (-6175028031233341) @ (-49)));
  (233%N, (#, #, #, (-3355703919701135) @ (-48)));
  (234%N, (#, #, (-846618816505503) @ (-46), (-3951094144080465) @ (-48)));
  (235%N, ((-1797236545307357) @ (-47), #, #, (-4650533185457697) @ (-48)));
  (236%N, (#, #, #, (-7029990791577139) @ (-49)));
  (237%N, ((-2535925782227879) @ (-48), (-4849798546120403) @ (-49), (-8276418454695427) @ (-50), (-2718544285701955) @ (-48)));
  (238%N, (#, #, #, (-8910859197905059) @ (-49)));
  (239%N, (#, (-8871297742822353) @ (-49), #, (-302852298247679) @ (-44)));
  (240%N, ((-4539621451566989) @ (-49), (-5140787294546433) @ (-49), (-5208805740159743) @ (-49), (-5603172025339751) @ (-49)));
  (241%N, (#, #, (-846618816505503) @ (-46), (-3951094144080465) @ (-48)));
  (243%N, (#, #, #, (-302852298247679) @ (-44)));
  (244%N, ((-1151273285268483) @ (-47), (-1454951954365857) @ (-47), (-4114475515956761) @ (-49), (-5020733066764749) @ (-49)));
  (245%N, (#, (-7427359621511357) @ (-49), (-454428729292475) @ (-45), (-4650533185457697) @ (-48)));
  (247%N, (#, #, #, (-6885752428364879) @ (-49)));
  (249%N, ((-8100873996841253) @ (-49), (-3606862978324355) @ (-48), #, (-4650533185457697) @ (-48)));
  (250%N, ((-2266490847639861) @ (-48), (-4993950343416919) @ (-49), (-4908912635839501) @ (-49), (-2747971965566255) @ (-48)));
  (252%N, (#, #, #, (-302852298247679) @ (-44)));
  (253%N, ((-177238531781867) @ (-45), (-2321957455274083) @ (-49), (-5072185980843003) @ (-50), (-7775848377583495) @ (-50)));
  (254%N, ((-8249158358673963) @ (-50), (-1165684206396217) @ (-47), (-8490070749159653) @ (-50), (-8796890234297639) @ (-50)));
  (255%N, ((-4426206392587813) @ (-48), (-1925169055947837) @ (-47), (-1998329865051197) @ (-47), (-7025030848007957) @ (-49)))].

(** prob_emit.py, characters 0x5700 to 0x57ff *)
Definition emit_57 : list (N * num4) := [
  (3%N, (#, (-3736209830033945) @ (-48), (-6507662259421707) @ (-49), (-3252634147087553) @ (-48)));
  (4%N, (#, #, (-3855333411915459) @ (-48), (-302852298247679) @ (-44)));
  (6%N, ((-2377493334172525) @ (-48), (-580605495401499) @ (-46), (-5281917640989681) @ (-49), (-5044972842805045) @ (-49)));
  (7%N, (#, (-7427359621511357) @ (-49), (-454428729292475) @ (-45), (-4650533185457697) @ (-48)));
  (8%N, ((-1371578589124813) @ (-47), (-1383683753142687) @ (-47), (-1261008602075915) @ (-47), (-2627493950233121) @ (-48)));
  (9%N, (#, (-8090883396801683) @ (-49), (-609902861438431) @ (-45), (-7145732875094951) @ (-49)));
  (10%N, (#, #, #, (-4650533185457697) @ (-48)));
  (11%N, ((-177238531781867) @ (-45), (-2321957455274083) @ (-49), (-5072185980843003) @ (-50), (-8395033373076123) @ (-49)));
  (12%N, (#, #, #, (-70881326618687) @ (-42)));
  (13%N, ((-1151273285268483) @ (-47), (-1454951954365857) @ (-47), (-4114475515956761) @ (-49), (-5020733066764749) @ (-49)));
  (15%N, (#, #, #, (-302852298247679) @ (-44)));
  (18%N, ((-2535925782227879) @ (-48), (-4849798546120403) @ (-49), (-8276418454695427) @ (-50), (-8395033373076123) @ (-49)));
  (19%N, ((-2377493334172525) @ (-48), (-580605495401499) @ (-46), (-5281917640989681) @ (-49), (-4650533185457697) @ (-48)));
  (22%N, ((-8249158358673963) @ (-50), (-1165684206396217) @ (-47), (-8490070749159653) @ (-50), (-8796890234297639) @ (-50)));
  (23%N, (#, #, #, (-8292395461171265) @ (-49)));
  (24%N, ((-8535582093039549) @ (-50), (-1030199488445071) @ (-47), (-969191699003703) @ (-47), (-4650533185457697) @ (-48)));
  (26%N, (#, #, #, (-8910859197905059) @ (-49)));
  (28%N, ((-8233949048441833) @ (-49), #, (-609902861438431) @ (-45), (-6654931167934761) @ (-49)));
  (29%N, (#, #, #, (-302852298247679) @ (-44)));
  (30%N, (#, #, #, (-4392620273043229) @ (-48)));
  (31%N, ((-7858295500932183) @ (-50), (-1030199488445071) @ (-47), (-8493972479866919) @ (-50), (-4593843079339025) @ (-49)));
  (34%N, (#, #, #, (-4170689255897351) @ (-48)));
  (35%N, ((-4686371349158827) @ (-49), (-1179321365269629) @ (-47), (-2616038292849389) @ (-48), (-5022279440439717) @ (-49)));
  (37%N, (#, #, #, (-4650533185457697) @ (-48)));
  (39%N, (#, #, #, (-70881326618687) @ (-42)));
  (40%N, ((-8309052463069965) @ (-50), (-7632529306873027) @ (-50), (-6618682922196123) @ (-50), (-4185218192292853) @ (-50)));
  (41%N, ((-3667736269636657) @ (-48), (-3760701355345663) @ (-48), (-4081744231472905) @ (-48), (-3355703919701135) @ (-48)));
  (42%N, ((-1606223371873941) @ (-47), (-8252834006088559) @ (-49), (-609902861438431) @ (-45), (-6848457339860269) @ (-49)));
  (43%N, (#, #, #, (-8910859197905059) @ (-49)));
  (44%N, (#, #, #, (-8910859197905059) @ (-49)));
  (45%N, ((-3359775170817407) @ (-48), (-5954212934546103) @ (-49), (-5941689061003259) @ (-49), (-1481691516151005) @ (-47)));
  (46%N, (#, #, #, (-7835882333724349) @ (-49)));
  (47%N, (#, #, (-2011133004627089) @ (-47), (-7857128249604397) @ (-49)));
  (48%N, ((-5806716715923763) @ (-50), (-6786421703778989) @ (-50), (-6318578559480481) @ (-50), (-5887167809563775) @ (-50)));
  (51%N, (#, (-4902920058282421) @ (-49), (-5287493420103789) @ (-49), (-976926146266539) @ (-46)));
  (52%N, (#, #, #, (-302852298247679) @ (-44)));
  (53%N, (#, #, #, (-302852298247679) @ (-44)));
  (55%N, (#, #, #, (-976926146266539) @ (-46)));
  (56%N, (#, #, #, (-302852298247679) @ (-44)));
  (57%N, (#, #, (-4260759154773655) @ (-48), (-8064138897447807) @ (-49)));
  (58%N, ((-286668714024239) @ (-45), (-4208247359216947) @ (-49), (-6515430993886001) @ (-50), (-1107706199736827) @ (-47)));
  (59%N, (#, (-3606862978324355) @ (-48), (-741836975493587) @ (-46), (-7643494584741751) @ (-49)));
  (60%N, (#, #, #, (-8033701757752085) @ (-49)));
  (61%N, (#, #, #, (-302852298247679) @ (-44)));
  (62%N, (#, (-2878138193940609) @ (-48), (-2891875470821517) @ (-48), (-8130444851884389) @ (-49)));
  (64%N, (#, (-3278540746232549) @ (-48), (-8852354037417289) @ (-50), (-1535289041219093) @ (-47)));
  (66%N, ((-6507662259421707) @ (-49), (-2845603979285655) @ (-48), (-3695707134388909) @ (-48), (-7477852487122849) @ (-49)));
  (67%N, (#, #, #, (-6627464747288161) @ (-49)));
  (70%N, (#, #, #, (-2130163006223681) @ (-47)));
  (71%N, ((-5325575849410513) @ (-49), (-605892104906797) @ (-46), (-8458173434388381) @ (-50), (-8189352643092103) @ (-50)));
  (72%N, (#, #, #, (-2130163006223681) @ (-47)));
  (74%N, ((-7567545727469403) @ (-49), (-767480941468751) @ (-46), (-5129862012662659) @ (-49), (-5785366616824569) @ (-49)));
  (75%N, (#, #, #, (-70881326618687) @ (-42)));
  (76%N, (#, #, #, (-2061833855653683) @ (-47)));
  (77%N, ((-6801678701340051) @ (-49), #, (-4331497877621075) @ (-48), (-3446758689208401) @ (-48)));
  (78%N, ((-6148912987861693) @ (-49), (-6081415131581645) @ (-49), (-6310555553390721) @ (-49), (-6157837383958669) @ (-49)));
  (79%N, ((-2706856382754811) @ (-48), (-1385572875310375) @ (-47), (-4749957878363807) @ (-49), (-617566276468277) @ (-46)));
  (80%N, ((-8767010802034089) @ (-50), (-5751843688180203) @ (-49), (-5319611889470173) @ (-49), (-4261525491743409) @ (-49)));
  (81%N, ((-1474058872183449) @ (-47), (-6404436052941743) @ (-49), (-5802419404659295) @ (-49), (-5597277207567197) @ (-49)));
  (82%N, (#, #, #, (-4650533185457697) @ (-48)));
  (84%N, (#, #, #, (-4650533185457697) @ (-48)));
  (85%N, (#, #, #, (-4650533185457697) @ (-48)));
  (87%N, ((-1560823079282837) @ (-47), (-5063569048600015) @ (-49), (-4300445710171543) @ (-49), (-4727659573367689) @ (-49)));
  (88%N, (#, #, #, (-4650533185457697) @ (-48)));
  (89%N, (#, #, #, (-271331332318175) @ (-44)));
  (90%N, ((-2084551339360687) @ (-48), (-5336804399533481) @ (-49), (-5340108595140767) @ (-49), (-357711546465021) @ (-45)));
  (91%N, ((-6880652495669265) @ (-49), (-3042696796520353) @ (-48), (-2384695393724815) @ (-48), (-4878133647697185) @ (-49)));
  (92%N, (#, (-4240545284906009) @ (-48), (-2078626915425975) @ (-47), (-302852298247679) @ (-44)));
  (93%N, ((-6370279013252417) @ (-49), (-2797441164136159) @ (-48), (-5413462398614937) @ (-49), (-2925052469582655) @ (-48)));
  (94%N, ((-8978031436994227) @ (-49), #, (-6235692105890311) @ (-49), (-1596788280015305) @ (-47)));
  (95%N, ((-5925297422834119) @ (-49), (-7346801008249289) @ (-49), (-3238520559542935) @ (-48), (-5719485507394831) @ (-49)));
  (96%N, ((-6165802753272751) @ (-49), (-6794643225952077) @ (-49), (-3267258555129869) @ (-48), (-3013161957183757) @ (-48)));
  (97%N, ((-6122724547226871) @ (-49), (-2603174056632069) @ (-48), (-2437172766741893) @ (-48), (-1383964349058463) @ (-47)));
  (98%N, (#, #, #, (-7628871685880939) @ (-49)));
  (100%N, ((-3333063549672965) @ (-48), (-668164747829659) @ (-46), (-5538518131706471) @ (-49), (-5458063055285729) @ (-49)));
  (101%N, (#, #, #, (-70881326618687) @ (-42)));
  (102%N, ((-299588474088251) @ (-45), (-2321804711672847) @ (-48), (-4849630584362573) @ (-49), (-5858125183744951) @ (-49)));
  (103%N, (#, #, #, (-4297911758076491) @ (-48)));
  (104%N, ((-8233949048441833) @ (-49), (-4240545284906009) @ (-48), (-4081744231472905) @ (-48), (-1749038822580415) @ (-47)));
  (105%N, ((-1870602565026865) @ (-47), #, #, (-8395033373076123) @ (-49)));
  (106%N, ((-1870602565026865) @ (-47), (-6210014990473763) @ (-49), (-6070515413542939) @ (-49), (-2947684602040605) @ (-48)));
  (107%N, (#, #, #, (-2130163006223681) @ (-47)));
  (109%N, (#, #, #, (-7926147221115621) @ (-49)));
  (110%N, (#, #, #, (-4650533185457697) @ (-48)));
  (111%N, ((-7417202744952887) @ (-49), (-7244163096344431) @ (-49), (-6933968332578247) @ (-49), (-6913411673111127) @ (-49)));
  (114%N, (#, #, #, (-302852298247679) @ (-44)));
  (115%N, (#, (-7385640542039271) @ (-49), (-6863946523373667) @ (-49), (-1822899526423839) @ (-47)));
  (117%N, (#, #, #, (-4392620273043229) @ (-48)));
  (118%N, (#, #, #, (-472560260360877) @ (-45)));
  (119%N, ((-2146956065995973) @ (-47), (-3469067403004029) @ (-48), (-6748291847658751) @ (-49), (-2001206550016447) @ (-47)));
  (121%N, (#, #, #, (-8910859197905059) @ (-49)));
  (123%N, (#, (-7575057571972747) @ (-49), (-8233949048441833) @ (-49), (-271331332318175) @ (-44)));
  (124%N, (#, #, #, (-8292395461171265) @ (-49)));
  (128%N, (#, #, #, (-4650533185457697) @ (-48)));
  (129%N, (#, #, #, (-7358896042685395) @ (-49)));
  (130%N, ((-2539633971683013) @ (-48), (-2747098342348531) @ (-48), (-3045077597186117) @ (-48), (-5315365782562317) @ (-49)));
  (131%N, ((-5673116447079079) @ (-49), #, (-8018343577873535) @ (-49), (-8205616343142647) @ (-49)));
  (132%N, ((-5498117881770115) @ (-49), (-6605226196018601) @ (-49), (-2011133004627089) @ (-47), (-6878093127173811) @ (-49)));
  (133%N, (#, #, #, (-3688528646784237) @ (-48)));
  (134%N, (#, (-3982632372491541) @ (-48), #, (-2061833855653683) @ (-47)));
  (135%N, (#, #, #, (-8910859197905059) @ (-49)));
  (136%N, (#, #, #, (-302852298247679) @ (-44)));
  (137%N, (#, #, #, (-8910859197905059) @ (-49)));
  (138%N, (#, #, #, (-8064138897447807) @ (-49)));
  (139%N, ((-5483756134686673) @ (-49), (-1234552619981151) @ (-47), (-7581030281855191) @ (-50), (-4327039347427285) @ (-49)));
  (140%N, (#, #, (-609902861438431) @ (-45), (-302852298247679) @ (-44)));
  (141%N, (#, #, #, (-4392620273043229) @ (-48)));
  (142%N, (#, #, #, (-6401650486542557) @ (-49)));
  (143%N, (#, #, #, (-7386362463331995) @ (-49)));
  (144%N, (#, #, #, (-7951171338784367) @ (-49)));
  (145%N, (#, #, #, (-4650533185457697) @ (-48)));
  (146%N, ((-3632058836243843) @ (-48), (-6657876686019473) @ (-49), (-365989035334905) @ (-45), (-3136876011356863) @ (-48)));
  (147%N, (#, (-8252834006088559) @ (-49), (-4204275375441935) @ (-48), (-3437151102035493) @ (-48)));
  (148%N, (#, #, #, (-70881326618687) @ (-42)));
  (149%N, (#, #, (-609902861438431) @ (-45), (-1893476528496951) @ (-47)));
  (150%N, (#, #, #, (-4170689255897351) @ (-48)));
  (151%N, (#, #, #, (-8292395461171265) @ (-49)));
  (152%N, (#, #, #, (-70881326618687) @ (-42)));
  (153%N, (#, #, #, (-7307683484381827) @ (-49)));
  (154%N, (#, (-8252834006088559) @ (-49), (-8978031436994227) @ (-49), (-1625339725946889) @ (-47)));
  (155%N, ((-396226602838595) @ (-45), (-3606862978324355) @ (-48), (-7022614616343179) @ (-49), (-6569616159843049) @ (-49)));
  (156%N, (#, #, #, (-5516223624509249) @ (-49)));
  (157%N, (#, #, #, (-3702723670134365) @ (-48)));
  (158%N, (#, #, #, (-4650533185457697) @ (-48)));
  (159%N, (#, #, #, (-1969801887061797) @ (-47)));
  (160%N, (#, (-3638170211376633) @ (-48), (-1795778112687613) @ (-47), (-271331332318175) @ (-44)));
  (161%N, ((-546860929579423) @ (-45), #, #, (-3870118839437027) @ (-48)));
  (162%N, ((-609902861438431) @ (-45), (-3278540746232549) @ (-48), (-846618816505503) @ (-46), (-6719959142359565) @ (-49)));
  (163%N, ((-8131311136536975) @ (-49), (-2998452988059131) @ (-48), (-5872547080652167) @ (-49), (-6531363337886707) @ (-49)));
  (164%N, (#, (-8871297742822353) @ (-49), #, (-4170689255897351) @ (-48)));
  (166%N, ((-3280396438671863) @ (-48), (-7385640542039271) @ (-49), (-6253217255063427) @ (-49), (-409785891556225) @ (-45)));
  (167%N, (#, #, (-571248877892569) @ (-45), (-4297911758076491) @ (-48)));
  (168%N, (#, #, #, (-1853809505254573) @ (-47)));
  (169%N, (#, (-2980287009324993) @ (-48), (-6968563171774189) @ (-49), (-8395033373076123) @ (-49)));
  (170%N, (#, #, #, (-2001206550016447) @ (-47)));
  (171%N, ((-6551267270149819) @ (-49), (-1623981519183149) @ (-47), (-6351422467267269) @ (-49), (-5798067350644055) @ (-49)));
  (172%N, (#, #, #, (-2989474396959359) @ (-48)));
  (173%N, ((-7756962757402879) @ (-49), (-3887923857524803) @ (-48), (-206992078249649) @ (-44), (-442294618973983) @ (-45)));
  (174%N, ((-1709551796309617) @ (-47), (-3518576224250511) @ (-48), (-6480362367382569) @ (-49), (-2832452062282755) @ (-48)));
  (175%N, (#, #, #, (-1848956007451337) @ (-47)));
  (176%N, (#, #, #, (-3722837580357007) @ (-48)));
  (177%N, (#, #, #, (-5556928074772899) @ (-49)));
  (180%N, (#, #, #, (-8910859197905059) @ (-49)));
  (181%N, (#, #, #, (-3733460538297031) @ (-48)));
  (182%N, (#, #, #, (-7951171338784367) @ (-49)));
  (183%N, (#, #, #, (-8910859197905059) @ (-49)));
  (184%N, (#, #, (-6617337137372447) @ (-49), (-4908697935886597) @ (-49)));
  (186%N, (#, #, #, (-8910859197905059) @ (-49)));
  (187%N, (#, #, #, (-302852298247679) @ (-44)));
  (188%N, (#, #, #, (-4650533185457697) @ (-48)));
  (189%N, (#, #, #, (-8064138897447807) @ (-49)));
  (191%N, (#, #, #, (-302852298247679) @ (-44)));
  (193%N, (#, #, #, (-8130444851884389) @ (-49)));
  (194%N, ((-571248877892569) @ (-45), (-3736209830033945) @ (-48), (-7435075673190267) @ (-49), (-1678560966329195) @ (-47)));
  (195%N, ((-4854988533783939) @ (-49), (-4649809375367553) @ (-49), (-5433852131313391) @ (-49), (-2755584333643611) @ (-48)));
  (196%N, (#, #, #, (-7367903434101099) @ (-49)));
  (197%N, (#, #, #, (-7857128249604397) @ (-49)));
  (198%N, (#, #, #, (-855160738236529) @ (-46)));
  (199%N, (#, #, #, (-1893476528496951) @ (-47)));
  (201%N, (#, #, #, (-2130163006223681) @ (-47)));
  (202%N, (#, #, #, (-302852298247679) @ (-44)));
  (203%N, ((-5282115827914249) @ (-49), (-1539430114996847) @ (-47), (-6373025116031563) @ (-49), (-5311117083501417) @ (-49)));
  (204%N, (#, #, #, (-5969782513469415) @ (-49)));
  (205%N, (#, #, #, (-7358896042685395) @ (-49)));
  (206%N, ((-3502853421393267) @ (-49), (-3520613284796055) @ (-49), (-1848804543608805) @ (-48), (-8234860353585339) @ (-50)));
  (207%N, (#, #, (-4684119305002281) @ (-48), (-70881326618687) @ (-42)));
  (208%N, (#, #, #, (-70881326618687) @ (-42)));
  (209%N, (#, #, #, (-8292395461171265) @ (-49)));
  (210%N, (#, #, (-4684119305002281) @ (-48), (-8033701757752085) @ (-49)));
  (211%N, (#, #, #, (-4048158111928321) @ (-48)));
  (212%N, ((-8978031436994227) @ (-49), (-305587555302627) @ (-45), (-6636788398932217) @ (-49), (-7307683484381827) @ (-49)));
  (213%N, (#, #, (-4684119305002281) @ (-48), (-4227173035229071) @ (-48)));
  (214%N, (#, #, #, (-4392620273043229) @ (-48)));
  (215%N, (#, #, #, (-3582197954329907) @ (-48)));
  (216%N, (#, #, #, (-7795654513279065) @ (-49)));
  (217%N, (#, #, (-413850120634003) @ (-45), (-7500373488380235) @ (-49)));
  (218%N, (#, #, (-1845768529231285) @ (-47), (-302852298247679) @ (-44)));
  (219%N, (#, #, #, (-7283724551427137) @ (-49)));
  (220%N, (#, (-1925169055947837) @ (-47), #, (-1994339944854797) @ (-47)));
  (221%N, (#, #, #, (-8292395461171265) @ (-49)));
  (222%N, (#, #, #, (-3951094144080465) @ (-48)));
  (223%N, ((-6530861578236825) @ (-49), (-1343477857648519) @ (-47), (-3892078111520103) @ (-49), (-2868373849715395) @ (-48)));
  (224%N, ((-4331497877621075) @ (-48), (-6065776627261503) @ (-49), (-3194186452740551) @ (-48), (-6752474475355211) @ (-49)));
  (225%N, ((-7756962757402879) @ (-49), (-3887923857524803) @ (-48), (-206992078249649) @ (-44), (-7857128249604397) @ (-49)));
  (226%N, (#, #, #, (-7628871685880939) @ (-49)));
  (228%N, ((-609902861438431) @ (-45), #, #, (-4650533185457697) @ (-48)));
  (229%N, (#, #, #, (-8166776809352665) @ (-49)));
  (230%N, (#, #, #, (-302852298247679) @ (-44)));
  (231%N, (#, #, #, (-7587152606408853) @ (-49)));
  (232%N, (#, #, #, (-302852298247679) @ (-44)));
  (234%N, (#, #, #, (-4650533185457697) @ (-48)));
  (235%N, (#, #, #, (-302852298247679) @ (-44)));
  (236%N, (#, #, #, (-4650533185457697) @ (-48)));
  (237%N, (#, (-8871297742822353) @ (-49), #, (-7857128249604397) @ (-49)));
  (238%N, (#, #, #, (-8166776809352665) @ (-49)));
  (241%N, (#, #, #, (-4650533185457697) @ (-48)));
  (243%N, (#, #, #, (-302852298247679) @ (-44)));
  (244%N, (#, #, #, (-4650533185457697) @ (-48)));
  (245%N, (#, #, #, (-2130163006223681) @ (-47)));
  (247%N, ((-8166263767866293) @ (-50), (-2641238908720209) @ (-48), (-2867585358739653) @ (-48), (-4392620273043229) @ (-48)));
  (248%N, (#, #, #, (-70881326618687) @ (-42)));
  (249%N, ((-4433899840211895) @ (-49), (-2290611084574599) @ (-48), (-5334641957180441) @ (-49), (-820111009844349) @ (-46)));
  (250%N, ((-6907774360527625) @ (-50), (-7767679085952897) @ (-50), (-2284109043207395) @ (-48), (-5074612591305033) @ (-49)));
  (252%N, (#, #, #, (-4650533185457697) @ (-48)));
  (253%N, (#, #, #, (-6885752428364879) @ (-49)))].

(** prob_emit.py, characters 0x5800 to 0x58ff *)
Definition emit_58 : list (N * num4) := [
  (0%N, ((-1762356706075807) @ (-47), (-7310469050781013) @ (-49), #, (-4297911758076491) @ (-48)));
  (1%N, (#, #, #, (-302852298247679) @ (-44)));
  (2%N, ((-5538518131706471) @ (-49), (-4940295482135497) @ (-49), (-8471998131480057) @ (-50), (-315237597193325) @ (-45)));
  (3%N, (#, (-8871297742822353) @ (-49), (-8462205612165291) @ (-49), (-7523833130877875) @ (-49)));
  (5%N, ((-2084551339360687) @ (-48), (-5336804399533481) @ (-49), (-5340108595140767) @ (-49), (-4650533185457697) @ (-48)));
  (6%N, ((-5578676495032183) @ (-49), (-7310469050781013) @ (-49), (-5277378493197129) @ (-49), (-1323380866397871) @ (-47)));
  (7%N, ((-4331497877621075) @ (-48), (-8871297742822353) @ (-49), (-4260759154773655) @ (-48), (-1877995278787649) @ (-47)));
  (8%N, (#, #, #, (-302852298247679) @ (-44)));
  (9%N, (#, #, #, (-7951171338784367) @ (-49)));
  (10%N, (#, (-2980287009324993) @ (-48), (-6968563171774189) @ (-49), (-8395033373076123) @ (-49)));
  (11%N, (#, #, (-4684119305002281) @ (-48), (-7104451038327115) @ (-49)));
  (12%N, (#, #, #, (-4650533185457697) @ (-48)));
  (13%N, (#, #, #, (-4392620273043229) @ (-48)));
  (14%N, (#, #, #, (-70881326618687) @ (-42)));
  (16%N, (#, #, #, (-4650533185457697) @ (-48)));
  (17%N, ((-7773281289935475) @ (-49), (-1925169055947837) @ (-47), (-3301329885452235) @ (-48), (-6413190128293401) @ (-49)));
  (20%N, (#, #, #, (-302852298247679) @ (-44)));
  (21%N, ((-1538155680228393) @ (-47), (-7427359621511357) @ (-49), (-4331497877621075) @ (-48), (-11736330098739) @ (-40)));
  (22%N, (#, #, #, (-302852298247679) @ (-44)));
  (23%N, (#, #, #, (-302852298247679) @ (-44)));
  (25%N, (#, #, #, (-1930728693765227) @ (-47)));
  (26%N, (#, #, #, (-8395033373076123) @ (-49)));
  (27%N, (#, #, #, (-943539134077359) @ (-46)));
  (28%N, (#, #, #, (-6377691553587867) @ (-49)));
  (29%N, (#, #, (-1845768529231285) @ (-47), (-1415456671616293) @ (-47)));
  (30%N, (#, #, (-7862826752368233) @ (-49), (-7643494584741751) @ (-49)));
  (31%N, (#, #, #, (-6300374002032601) @ (-49)));
  (32%N, (#, #, #, (-4048158111928321) @ (-48)));
  (33%N, ((-1607359885358511) @ (-47), (-5496997436510979) @ (-49), (-4867091415397631) @ (-49), (-348605271324301) @ (-45)));
  (34%N, (#, #, #, (-3255591879837343) @ (-48)));
  (35%N, (#, #, #, (-6574031476229409) @ (-49)));
  (36%N, ((-6043048992896339) @ (-49), (-1764807936785953) @ (-47), (-5350308046193893) @ (-49), (-5501192919775057) @ (-49)));
  (37%N, (#, #, #, (-6694685324108583) @ (-49)));
  (38%N, (#, #, #, (-302852298247679) @ (-44)));
  (40%N, (#, #, #, (-4650533185457697) @ (-48)));
  (42%N, ((-361123873511111) @ (-45), (-2595733756214423) @ (-48), (-5531992003404535) @ (-49), (-371992869280897) @ (-45)));
  (44%N, (#, #, #, (-6632359995120511) @ (-49)));
  (46%N, (#, #, #, (-302852298247679) @ (-44)));
  (47%N, ((-878374446492819) @ (-46), (-5923442983753829) @ (-49), (-6083532177352997) @ (-49), (-3233672435585285) @ (-48)));
  (48%N, ((-6201182977710585) @ (-49), (-8680465507017547) @ (-50), (-1262739873039069) @ (-47), (-196014168947761) @ (-44)));
  (49%N, ((-7500377551962253) @ (-50), (-2417439639906073) @ (-48), (-7914593038033797) @ (-50), (-4291462761224635) @ (-49)));
  (50%N, (#, #, #, (-302852298247679) @ (-44)));
  (52%N, ((-286668714024239) @ (-45), (-4208247359216947) @ (-49), (-6515430993886001) @ (-50), (-4650533185457697) @ (-48)));
  (53%N, ((-2846662502171331) @ (-48), (-7106171420012245) @ (-49), (-3198462104219199) @ (-48), (-5703208609579679) @ (-49)));
  (56%N, (#, #, #, (-302852298247679) @ (-44)));
  (58%N, (#, #, #, (-4392620273043229) @ (-48)));
  (60%N, (#, #, #, (-4650533185457697) @ (-48)));
  (68%N, (#, #, (-609902861438431) @ (-45), (-7489000375236853) @ (-49)));
  (71%N, (#, #, #, (-302852298247679) @ (-44)));
  (74%N, ((-1560823079282837) @ (-47), (-5063569048600015) @ (-49), (-4300445710171543) @ (-49), (-4727659573367689) @ (-49)));
  (75%N, (#, #, (-3855333411915459) @ (-48), (-8292395461171265) @ (-49)));
  (76%N, ((-420777065861407) @ (-45), (-5654752126099031) @ (-49), (-6074550914361025) @ (-49), (-5985922798568107) @ (-49)));
  (77%N, (#, (-8871297742822353) @ (-49), (-546860929579423) @ (-45), (-4392620273043229) @ (-48)));
  (79%N, (#, #, #, (-472560260360877) @ (-45)));
  (81%N, ((-5290101067522269) @ (-49), (-5491409798047909) @ (-49), (-1427613761104959) @ (-47), (-790327111679597) @ (-46)));
  (82%N, (#, #, #, (-7795654513279065) @ (-49)));
  (83%N, (#, #, #, (-4650533185457697) @ (-48)));
  (84%N, ((-160811609502353) @ (-44), (-8991728089211253) @ (-50), (-4949352363320281) @ (-49), (-5186534045234787) @ (-49)));
  (86%N, (#, #, #, (-7951171338784367) @ (-49)));
  (87%N, ((-2701277528494027) @ (-48), (-680433776726159) @ (-46), (-2714342523180205) @ (-48), (-5593769719875287) @ (-49)));
  (88%N, ((-6432490768163449) @ (-49), (-5492801516812155) @ (-49), (-171779855065417) @ (-44), (-2938862261317585) @ (-48)));
  (89%N, (#, #, #, (-4392620273043229) @ (-48)));
  (90%N, ((-4204275375441935) @ (-48), (-3760701355345663) @ (-48), (-7502517753044599) @ (-49), (-193594266245197) @ (-44)));
  (93%N, (#, #, #, (-302852298247679) @ (-44)));
  (94%N, ((-5226841483469981) @ (-49), (-2158834717366253) @ (-48), (-1284829613015977) @ (-47), (-2601005325382947) @ (-48)));
  (96%N, (#, #, #, (-7350030505863719) @ (-49)));
  (98%N, ((-8978031436994227) @ (-49), #, (-6235692105890311) @ (-49), (-1596788280015305) @ (-47)));
  (99%N, (#, #, #, (-302852298247679) @ (-44)));
  (100%N, (#, #, (-413850120634003) @ (-45), (-7500373488380235) @ (-49)));
  (101%N, (#, #, #, (-302852298247679) @ (-44)));
  (102%N, (#, #, #, (-302852298247679) @ (-44)));
  (104%N, (#, #, #, (-4227173035229071) @ (-48)));
  (105%N, (#, #, #, (-7658507473194481) @ (-49)));
  (107%N, ((-5181629425138435) @ (-49), (-1447080710337249) @ (-47), (-3217779311456757) @ (-48), (-5628214100231211) @ (-49)));
  (108%N, ((-609902861438431) @ (-45), (-4240545284906009) @ (-48), (-7924300488693565) @ (-49), (-3374719848683653) @ (-48)));
  (109%N, (#, #, #, (-302852298247679) @ (-44)));
  (111%N, (#, #, #, (-4297911758076491) @ (-48)));
  (116%N, (#, #, #, (-7283724551427137) @ (-49)));
  (117%N, ((-5745910946965899) @ (-49), (-666182398595129) @ (-46), (-5308700851836639) @ (-49), (-181524368474303) @ (-44)));
  (118%N, (#, #, #, (-4650533185457697) @ (-48)));
  (119%N, (#, #, #, (-4650533185457697) @ (-48)));
  (120%N, (#, #, #, (-8910859197905059) @ (-49)));
  (121%N, ((-7773281289935475) @ (-49), (-1925169055947837) @ (-47), (-3301329885452235) @ (-48), (-302852298247679) @ (-44)));
  (122%N, (#, #, #, (-302852298247679) @ (-44)));
  (123%N, (#, #, #, (-4392620273043229) @ (-48)));
  (124%N, (#, #, #, (-302852298247679) @ (-44)));
  (125%N, (#, #, #, (-3100348596604989) @ (-48)));
  (126%N, ((-2011133004627089) @ (-47), (-3817185134677383) @ (-48), (-3350997957043395) @ (-48), (-7523833130877875) @ (-49)));
  (128%N, (#, #, (-6764610380191347) @ (-49), (-8205616343142647) @ (-49)));
  (129%N, (#, #, #, (-271331332318175) @ (-44)));
  (131%N, ((-4578972370663981) @ (-49), (-2308556385150267) @ (-48), (-3960849815730583) @ (-49), (-5034086530508117) @ (-49)));
  (133%N, (#, (-874429171128617) @ (-46), (-6190134541933811) @ (-49), (-8064138897447807) @ (-49)));
  (134%N, (#, #, #, (-302852298247679) @ (-44)));
  (137%N, (#, (-7106171420012245) @ (-49), (-985322676152685) @ (-46), (-8166776809352665) @ (-49)));
  (138%N, ((-6551267270149819) @ (-49), (-1623981519183149) @ (-47), (-6351422467267269) @ (-49), (-5798067350644055) @ (-49)));
  (141%N, (#, #, #, (-6622611700393137) @ (-49)));
  (142%N, (#, #, #, (-8910859197905059) @ (-49)));
  (143%N, (#, #, #, (-4650533185457697) @ (-48)));
  (145%N, (#, #, #, (-4392620273043229) @ (-48)));
  (146%N, ((-4331497877621075) @ (-48), #, (-8197617090973557) @ (-49), (-6771034946149301) @ (-49)));
  (147%N, ((-5230627550269589) @ (-49), (-1329016812506611) @ (-47), (-630471843129551) @ (-46), (-4745798946026599) @ (-49)));
  (149%N, (#, #, #, (-4297911758076491) @ (-48)));
  (150%N, (#, #, #, (-1893476528496951) @ (-47)));
  (151%N, (#, #, #, (-70881326618687) @ (-42)));
  (152%N, (#, #, #, (-302852298247679) @ (-44)));
  (153%N, ((-2558575211515935) @ (-48), (-3005360696119749) @ (-48), (-2375827453045573) @ (-48), (-4846871219301819) @ (-49)));
  (154%N, (#, #, #, (-4650533185457697) @ (-48)));
  (155%N, (#, #, #, (-8292395461171265) @ (-49)));
  (156%N, ((-6165802753272751) @ (-49), (-6794643225952077) @ (-49), (-3267258555129869) @ (-48), (-3013161957183757) @ (-48)));
  (157%N, (#, #, #, (-8064138897447807) @ (-49)));
  (158%N, ((-3571638939006875) @ (-49), (-2425790017400745) @ (-48), (-5003215803871355) @ (-49), (-5174046313563735) @ (-49)));
  (159%N, ((-4684119305002281) @ (-48), (-7575057571972747) @ (-49), (-1523793524482053) @ (-47), (-3168489320260109) @ (-48)));
  (160%N, (#, #, #, (-6271157778706001) @ (-49)));
  (161%N, (#, #, #, (-976926146266539) @ (-46)));
  (162%N, (#, #, #, (-302852298247679) @ (-44)));
  (163%N, (#, #, #, (-4392620273043229) @ (-48)));
  (164%N, (#, #, #, (-1893476528496951) @ (-47)));
  (165%N, (#, #, #, (-8910859197905059) @ (-49)));
  (166%N, (#, #, #, (-3168489320260109) @ (-48)));
  (167%N, (#, #, #, (-4048158111928321) @ (-48)));
  (168%N, ((-1240221134091371) @ (-47), (-5399294621551587) @ (-49), (-5481774412914801) @ (-49), (-177502992482691) @ (-44)));
  (169%N, ((-6518250971971065) @ (-49), (-841042158939437) @ (-46), (-5694973468048905) @ (-49), (-1385816765181083) @ (-47)));
  (171%N, (#, #, #, (-302852298247679) @ (-44)));
  (172%N, (#, #, #, (-8910859197905059) @ (-49)));
  (173%N, (#, #, #, (-8033701757752085) @ (-49)));
  (174%N, ((-1538155680228393) @ (-47), (-7427359621511357) @ (-49), (-4331497877621075) @ (-48), (-11736330098739) @ (-40)));
  (175%N, (#, #, #, (-302852298247679) @ (-44)));
  (176%N, (#, #, #, (-7706109050846307) @ (-49)));
  (179%N, ((-5925297422834119) @ (-49), (-7346801008249289) @ (-49), (-3238520559542935) @ (-48), (-5719485507394831) @ (-49)));
  (181%N, (#, #, #, (-8910859197905059) @ (-49)));
  (182%N, (#, #, #, (-70881326618687) @ (-42)));
  (183%N, (#, #, #, (-8292395461171265) @ (-49)));
  (184%N, (#, #, #, (-4170689255897351) @ (-48)));
  (185%N, (#, #, #, (-4392620273043229) @ (-48)));
  (186%N, (#, #, #, (-8292395461171265) @ (-49)));
  (187%N, (#, #, #, (-70881326618687) @ (-42)));
  (188%N, (#, #, #, (-8130444851884389) @ (-49)));
  (189%N, (#, #, #, (-7658507473194481) @ (-49)));
  (190%N, ((-3280396438671863) @ (-48), (-7385640542039271) @ (-49), (-6253217255063427) @ (-49), (-409785891556225) @ (-45)));
  (191%N, (#, #, #, (-7307683484381827) @ (-49)));
  (192%N, (#, #, #, (-4650533185457697) @ (-48)));
  (193%N, ((-5388732201278167) @ (-49), (-1291877144868539) @ (-47), (-1193167276910645) @ (-47), (-2666833439708205) @ (-48)));
  (194%N, (#, #, #, (-7055467987703679) @ (-49)));
  (195%N, (#, #, #, (-1877995278787649) @ (-47)));
  (196%N, (#, #, #, (-8064138897447807) @ (-49)));
  (197%N, ((-238379262651975) @ (-44), #, #, (-1777541578842475) @ (-47)));
  (198%N, (#, #, #, (-4392620273043229) @ (-48)));
  (199%N, ((-6880652495669265) @ (-49), (-3042696796520353) @ (-48), (-2384695393724815) @ (-48), (-826332377884195) @ (-46)));
  (200%N, (#, #, #, (-8130444851884389) @ (-49)));
  (201%N, (#, #, #, (-302852298247679) @ (-44)));
  (202%N, (#, #, #, (-3444810757719897) @ (-48)));
  (203%N, (#, #, #, (-4227173035229071) @ (-48)));
  (204%N, (#, #, #, (-4297911758076491) @ (-48)));
  (205%N, (#, #, #, (-4170689255897351) @ (-48)));
  (206%N, (#, #, #, (-4227173035229071) @ (-48)));
  (207%N, (#, #, #, (-302852298247679) @ (-44)));
  (209%N, (#, (-874429171128617) @ (-46), (-858821192549113) @ (-46), (-6771034946149301) @ (-49)));
  (210%N, (#, #, #, (-6901390932685021) @ (-49)));
  (211%N, ((-8872995676544269) @ (-50), (-2463694570377027) @ (-48), (-4558103451603615) @ (-49), (-4945175644888551) @ (-49)));
  (213%N, ((-1709551796309617) @ (-47), (-8252834006088559) @ (-49), (-3408305968228237) @ (-48), (-6303106774163249) @ (-49)));
  (214%N, (#, #, #, (-4650533185457697) @ (-48)));
  (215%N, (#, #, #, (-302852298247679) @ (-44)));
  (216%N, ((-3632058836243843) @ (-48), (-6657876686019473) @ (-49), (-365989035334905) @ (-45), (-3136876011356863) @ (-48)));
  (217%N, (#, #, (-4260759154773655) @ (-48), (-8064138897447807) @ (-49)));
  (218%N, (#, (-3982632372491541) @ (-48), #, (-2061833855653683) @ (-47)));
  (220%N, (#, #, #, (-70881326618687) @ (-42)));
  (222%N, ((-2706856382754811) @ (-48), (-1385572875310375) @ (-47), (-4749957878363807) @ (-49), (-617566276468277) @ (-46)));
  (223%N, ((-5498117881770115) @ (-49), (-6605226196018601) @ (-49), (-2011133004627089) @ (-47), (-3688528646784237) @ (-48)));
  (226%N, (#, (-4240545284906009) @ (-48), (-2078626915425975) @ (-47), (-302852298247679) @ (-44)));
  (228%N, ((-7237929231852865) @ (-49), (-2998452988059131) @ (-48), (-157537021205313) @ (-44), (-6531363337886707) @ (-49)));
  (233%N, ((-6370279013252417) @ (-49), (-2797441164136159) @ (-48), (-5413462398614937) @ (-49), (-2925052469582655) @ (-48)));
  (235%N, ((-1199146550672641) @ (-47), (-3864815966773037) @ (-49), (-7467071469775513) @ (-50), (-5302946403735771) @ (-49)));
  (236%N, ((-3223214859226429) @ (-48), (-4240545284906009) @ (-48), (-4684119305002281) @ (-48), (-3390274909876681) @ (-48)));
  (238%N, ((-4877138379627569) @ (-49), (-1250804304641941) @ (-47), (-2585070125902133) @ (-48), (-5546115643416789) @ (-49)));
  (239%N, ((-4877138379627569) @ (-49), (-1250804304641941) @ (-47), (-2585070125902133) @ (-48), (-5546115643416789) @ (-49)));
  (240%N, ((-4080710387843873) @ (-49), (-4100699008129989) @ (-49), (-447852840836073) @ (-46), (-8503827835190055) @ (-50)));
  (243%N, ((-212644807062239) @ (-44), (-731975968624813) @ (-46), (-5214929576264011) @ (-49), (-2695404059081151) @ (-48)));
  (246%N, ((-7072789095884181) @ (-49), (-3606862978324355) @ (-48), (-5805424482720873) @ (-49), (-1404090521125983) @ (-47)));
  (247%N, (#, #, #, (-4392620273043229) @ (-48)));
  (248%N, (#, #, #, (-8910859197905059) @ (-49)));
  (249%N, ((-3984680263625049) @ (-48), (-491414177067389) @ (-45), (-4081744231472905) @ (-48), (-3879055303555717) @ (-48)));
  (250%N, ((-7072789095884181) @ (-49), (-3606862978324355) @ (-48), (-5805424482720873) @ (-49), (-302852298247679) @ (-44)));
  (251%N, (#, #, #, (-302852298247679) @ (-44)));
  (252%N, (#, #, #, (-8910859197905059) @ (-49)));
  (253%N, ((-5325790020976125) @ (-49), (-2329936776594877) @ (-48), (-5346294920619889) @ (-49), (-2955765778425223) @ (-48)))].

(** prob_emit.py, characters 0x5900 to 0x59ff *)
Definition emit_59 : list (N * num4) := [
  (0%N, (#, #, #, (-302852298247679) @ (-44)));
  (1%N, (#, #, #, (-4650533185457697) @ (-48)));
  (2%N, (#, #, #, (-3728098948061275) @ (-48)));
  (4%N, ((-7966767172614607) @ (-50), (-8760974439899739) @ (-50), (-7602558011526917) @ (-50), (-498903827563863) @ (-46)));
  (5%N, (#, #, #, (-302852298247679) @ (-44)));
  (6%N, (#, #, #, (-8033701757752085) @ (-49)));
  (7%N, ((-4837443469679175) @ (-49), (-1132898897370353) @ (-47), (-3655278592706829) @ (-49), (-5337596737982269) @ (-49)));
  (8%N, (#, #, #, (-108816228894371) @ (-43)));
  (9%N, (#, #, #, (-5839786430116141) @ (-49)));
  (10%N, (#, #, #, (-1428541944574385) @ (-47)));
  (11%N, (#, #, #, (-1477201350406841) @ (-47)));
  (12%N, (#, #, #, (-6147353841640511) @ (-49)));
  (13%N, ((-8381174456040615) @ (-50), (-8619212646618219) @ (-50), (-4159658038512781) @ (-49), (-2383341918119685) @ (-48)));
  (14%N, (#, #, #, (-6089184823567291) @ (-49)));
  (15%N, ((-4345679076095873) @ (-49), (-7920377436703681) @ (-50), (-4794831812456857) @ (-49), (-2434151756454375) @ (-48)));
  (16%N, (#, #, #, (-3285909744641789) @ (-48)));
  (20%N, ((-8018343577873535) @ (-49), #, (-7244363015634439) @ (-49), (-11736330098739) @ (-40)));
  (21%N, ((-6351422467267269) @ (-49), (-5429600644453093) @ (-49), (-1400582253253255) @ (-47), (-6309997312495983) @ (-49)));
  (22%N, ((-7048185097932201) @ (-50), (-7923862345933743) @ (-50), (-6884970506306769) @ (-50), (-3799720544583137) @ (-49)));
  (23%N, (#, #, #, (-302852298247679) @ (-44)));
  (25%N, ((-7143886142672895) @ (-49), (-1925169055947837) @ (-47), #, (-7275959601375213) @ (-49)));
  (26%N, ((-6797901270496731) @ (-50), (-6468489529220833) @ (-50), (-7120024249747643) @ (-50), (-6432598898956971) @ (-50)));
  (27%N, (#, #, #, (-1678560966329195) @ (-47)));
  (28%N, ((-4662332161024955) @ (-49), (-4965390815721193) @ (-49), (-4463992947808871) @ (-49), (-1254832737273729) @ (-47)));
  (31%N, ((-6564648714016659) @ (-49), (-3638170211376633) @ (-48), (-1048598150413167) @ (-47), (-2504944027285731) @ (-48)));
  (32%N, ((-6564648714016659) @ (-49), (-3638170211376633) @ (-48), (-1048598150413167) @ (-47), (-302852298247679) @ (-44)));
  (34%N, ((-2608610609253131) @ (-48), (-8973382123925449) @ (-50), (-2684364892663753) @ (-48), (-2531571852241895) @ (-48)));
  (36%N, ((-238379262651975) @ (-44), #, (-2146956065995973) @ (-47), (-1877995278787649) @ (-47)));
  (37%N, ((-5356608111424615) @ (-49), (-4504706997937041) @ (-49), (-5032721034657141) @ (-49), (-2827860912331993) @ (-48)));
  (39%N, ((-5196144844848011) @ (-50), (-8660278573060881) @ (-51), (-1539026789960617) @ (-48), (-1502204985377485) @ (-48)));
  (40%N, (#, #, #, (-8130444851884389) @ (-49)));
  (41%N, ((-3134675793865019) @ (-49), (-3336983554564719) @ (-49), (-6638827363344423) @ (-50), (-7571079390356857) @ (-50)));
  (42%N, ((-7415304801795007) @ (-50), (-1722327991071263) @ (-48), (-143890562299661) @ (-44), (-3992765960043289) @ (-49)));
  (43%N, ((-4447461269678037) @ (-49), (-7950442810567255) @ (-50), (-8042429477172155) @ (-50), (-5011819274144409) @ (-49)));
  (44%N, (#, #, #, (-4650533185457697) @ (-48)));
  (45%N, ((-3430332003528151) @ (-48), (-3181861569937047) @ (-48), (-895045487878171) @ (-46), (-6813480256580097) @ (-49)));
  (46%N, ((-732460286173337) @ (-46), (-1744546694836575) @ (-48), (-4091654218075783) @ (-49), (-3256584737927489) @ (-48)));
  (47%N, ((-6778580078491437) @ (-49), (-4240545284906009) @ (-48), (-6945265366262979) @ (-49), (-6574031476229409) @ (-49)));
  (49%N, ((-512196178862827) @ (-46), (-4679243008103675) @ (-49), (-8887208408478763) @ (-50), (-5071992422520725) @ (-49)));
  (52%N, ((-2079222377389731) @ (-48), (-3693931586538795) @ (-49), (-3324766208990535) @ (-49), (-7846282420709683) @ (-50)));
  (54%N, (#, #, #, (-4650533185457697) @ (-48)));
  (55%N, ((-2943726470019187) @ (-48), (-5225953196570945) @ (-49), (-5736946586312947) @ (-49), (-5598451243349177) @ (-49)));
  (56%N, ((-20880496042013) @ (-41), (-6097500510268117) @ (-49), (-3363622269110247) @ (-48), (-2940475302847833) @ (-48)));
  (57%N, ((-5411463461926395) @ (-49), (-6246014922008839) @ (-49), (-3378195993368601) @ (-48), (-5208048227597809) @ (-49)));
  (58%N, ((-2439149052631827) @ (-48), (-2526312568550371) @ (-48), (-2490071639778905) @ (-48), (-5163455311180421) @ (-49)));
  (60%N, (#, #, #, (-271331332318175) @ (-44)));
  (62%N, ((-5411463461926395) @ (-49), (-6246014922008839) @ (-49), (-3378195993368601) @ (-48), (-4650533185457697) @ (-48)));
  (64%N, (#, #, #, (-302852298247679) @ (-44)));
  (65%N, (#, #, (-1845768529231285) @ (-47), (-7104451038327115) @ (-49)));
  (66%N, (#, (-7157383978315813) @ (-49), (-3855333411915459) @ (-48), (-1848956007451337) @ (-47)));
  (68%N, ((-6801678701340051) @ (-49), (-365330313349373) @ (-45), (-3761685067605859) @ (-48), (-7170756992763697) @ (-49)));
  (71%N, ((-4538350683638169) @ (-49), (-2273222303692853) @ (-48), (-566819437629867) @ (-46), (-4926225813574761) @ (-49)));
  (72%N, ((-750214125361695) @ (-46), (-8807113022693753) @ (-50), (-5183456377468451) @ (-49), (-5912215163435265) @ (-49)));
  (73%N, ((-5062112639051997) @ (-49), (-335940044921433) @ (-45), (-5248453797470961) @ (-49), (-1242922881198975) @ (-47)));
  (75%N, ((-5030307934715187) @ (-49), (-2489604811650649) @ (-48), (-2548124824182321) @ (-48), (-6351716391968069) @ (-49)));
  (76%N, (#, #, #, (-4650533185457697) @ (-48)));
  (78%N, ((-6887476215016351) @ (-49), (-5749640358739673) @ (-49), (-2880975246076593) @ (-48), (-6848457339860269) @ (-49)));
  (79%N, ((-683788152766895) @ (-46), (-5244470056194149) @ (-49), (-2538117325964269) @ (-48), (-1254343458202095) @ (-47)));
  (80%N, (#, (-7157383978315813) @ (-49), (-3855333411915459) @ (-48), (-1848956007451337) @ (-47)));
  (81%N, ((-5360923665790639) @ (-49), (-2797441164136159) @ (-48), (-382014655813439) @ (-45), (-6157837383958669) @ (-49)));
  (82%N, (#, #, #, (-302852298247679) @ (-44)));
  (83%N, (#, #, #, (-2130163006223681) @ (-47)));
  (84%N, ((-319390185936177) @ (-45), (-2706819035717497) @ (-48), (-2702754444746757) @ (-48), (-2390448763655315) @ (-48)));
  (85%N, ((-1870602565026865) @ (-47), (-2808514224933255) @ (-48), (-828507539730495) @ (-46), (-2908114300763567) @ (-48)));
  (86%N, ((-4950561000358693) @ (-49), (-2669460377617193) @ (-48), (-4784091320254261) @ (-49), (-1290412311564535) @ (-47)));
  (87%N, ((-1347123174765201) @ (-47), (-1572547628566631) @ (-47), (-4699526122309025) @ (-49), (-2490712886144297) @ (-48)));
  (88%N, (#, (-6566386662228619) @ (-49), (-6740306608050731) @ (-49), (-3879055303555717) @ (-48)));
  (90%N, ((-6373025116031563) @ (-49), (-7082212487057555) @ (-49), (-8197617090973557) @ (-49), (-6705778292954857) @ (-49)));
  (91%N, (#, #, #, (-302852298247679) @ (-44)));
  (96%N, ((-2694725659951393) @ (-48), (-3887923857524803) @ (-48), (-3423861029421265) @ (-48), (-6859388750389055) @ (-49)));
  (97%N, (#, #, #, (-271331332318175) @ (-44)));
  (98%N, ((-5733400433148071) @ (-49), (-804163951328505) @ (-46), (-1729812462090333) @ (-47), (-1683626615562721) @ (-47)));
  (100%N, (#, #, #, (-7628871685880939) @ (-49)));
  (101%N, ((-1145184343306997) @ (-47), (-592804672086763) @ (-46), (-5576331564730639) @ (-49), (-2697579721907117) @ (-48)));
  (102%N, (#, #, #, (-302852298247679) @ (-44)));
  (103%N, ((-1145184343306997) @ (-47), (-592804672086763) @ (-46), (-5576331564730639) @ (-49), (-2697579721907117) @ (-48)));
  (105%N, (#, #, (-1845768529231285) @ (-47), (-7104451038327115) @ (-49)));
  (106%N, ((-2439149052631827) @ (-48), (-2526312568550371) @ (-48), (-2490071639778905) @ (-48), (-5163455311180421) @ (-49)));
  (109%N, (#, (-8871297742822353) @ (-49), (-609902861438431) @ (-45), (-3582197954329907) @ (-48)));
  (110%N, ((-5030307934715187) @ (-49), (-2489604811650649) @ (-48), (-2548124824182321) @ (-48), (-7283724551427137) @ (-49)));
  (111%N, (#, #, #, (-4392620273043229) @ (-48)));
  (114%N, (#, #, #, (-3136876011356863) @ (-48)));
  (115%N, ((-7585972634870691) @ (-50), (-8958549139930647) @ (-50), (-8306274308715729) @ (-50), (-7855349366052215) @ (-50)));
  (116%N, ((-2304998614949517) @ (-48), (-2795775626869985) @ (-48), (-2652279986449151) @ (-48), (-1399906933177061) @ (-47)));
  (118%N, ((-5017899095367897) @ (-49), (-5278654713080207) @ (-49), (-77649650144013) @ (-43), (-5674687071370569) @ (-49)));
  (120%N, ((-5454738793860621) @ (-49), (-1512640209349921) @ (-47), (-1363348408010391) @ (-47), (-1461762600316873) @ (-47)));
  (121%N, ((-4833230624954869) @ (-49), #, #, (-6090334648324187) @ (-50)));
  (122%N, (#, #, #, (-302852298247679) @ (-44)));
  (123%N, (#, #, #, (-302852298247679) @ (-44)));
  (124%N, ((-1975763643203379) @ (-47), (-1925169055947837) @ (-47), (-2146956065995973) @ (-47), (-2960589213070475) @ (-48)));
  (125%N, ((-7668666325612911) @ (-50), (-8570869029179151) @ (-50), (-1840806193325533) @ (-48), (-813424875242605) @ (-47)));
  (129%N, (#, #, (-1975763643203379) @ (-47), (-302852298247679) @ (-44)));
  (130%N, ((-6575743532866295) @ (-50), (-7204985837449789) @ (-50), (-4090292444018783) @ (-49), (-7071656878892421) @ (-50)));
  (131%N, ((-1610436237098159) @ (-47), (-3383588402652739) @ (-48), (-5314129936492133) @ (-49), (-5293067820116653) @ (-49)));
  (132%N, ((-5741859310459737) @ (-49), (-5531740590864693) @ (-49), (-807389556437815) @ (-46), (-1542941136025743) @ (-47)));
  (133%N, (#, #, #, (-4650533185457697) @ (-48)));
  (134%N, ((-7040346789497085) @ (-49), (-649754075108337) @ (-46), (-94140010802187) @ (-43), (-6284250228178101) @ (-49)));
  (135%N, ((-4712058791660463) @ (-49), (-2738839315323893) @ (-48), (-4675605335658585) @ (-49), (-5699915119472055) @ (-49)));
  (136%N, ((-5012593445575253) @ (-49), (-4814885755891171) @ (-49), (-2345153194231059) @ (-48), (-2447472988160609) @ (-48)));
  (138%N, ((-1548031821803145) @ (-47), #, (-609902861438431) @ (-45), (-3662121014844325) @ (-48)));
  (140%N, (#, #, #, (-302852298247679) @ (-44)));
  (141%N, ((-571248877892569) @ (-45), (-6122524627936863) @ (-49), (-3000145705673323) @ (-48), (-6764779882313803) @ (-49)));
  (142%N, (#, #, #, (-4650533185457697) @ (-48)));
  (143%N, (#, #, #, (-2061833855653683) @ (-47)));
  (146%N, ((-3321712214036881) @ (-48), (-7427359621511357) @ (-49), (-1593600801795253) @ (-47), (-3362866519325475) @ (-48)));
  (147%N, ((-6045351449903179) @ (-49), #, (-212644807062239) @ (-44), (-6267288691631085) @ (-49)));
  (150%N, ((-5410964834831421) @ (-49), (-105327943197979) @ (-43), (-3736309789678949) @ (-48), (-2642801215521045) @ (-48)));
  (151%N, (#, (-8871297742822353) @ (-49), (-4684119305002281) @ (-48), (-6474727927202407) @ (-49)));
  (152%N, (#, (-1925169055947837) @ (-47), (-4260759154773655) @ (-48), (-4170689255897351) @ (-48)));
  (153%N, ((-2858427347992673) @ (-48), (-5179360595201435) @ (-49), (-1257260506171127) @ (-47), (-83935856928091) @ (-43)));
  (157%N, ((-7040346789497085) @ (-49), (-649754075108337) @ (-46), (-94140010802187) @ (-43), (-6284250228178101) @ (-49)));
  (158%N, ((-3478396877264481) @ (-48), (-6566386662228619) @ (-49), (-3632058836243843) @ (-48), (-6694685324108583) @ (-49)));
  (163%N, (#, #, (-8272788582231815) @ (-49), (-271331332318175) @ (-44)));
  (164%N, (#, #, (-7492374236211145) @ (-49), (-442294618973983) @ (-45)));
  (165%N, ((-2769884913752453) @ (-48), (-428372245208381) @ (-45), (-5991836434592771) @ (-49), (-1477201350406841) @ (-47)));
  (167%N, (#, #, #, (-4048158111928321) @ (-48)));
  (168%N, ((-6097700429558125) @ (-49), #, (-5530141207370051) @ (-49), (-3549396601113259) @ (-48)));
  (169%N, ((-6748291847658751) @ (-49), (-8871297742822353) @ (-49), (-4260759154773655) @ (-48), #));
  (170%N, (#, #, (-3801556143597227) @ (-48), (-8064138897447807) @ (-49)));
  (171%N, ((-7773281289935475) @ (-49), #, (-3912641423100301) @ (-48), (-3306514671084387) @ (-48)));
  (172%N, (#, #, #, (-70881326618687) @ (-42)));
  (173%N, (#, #, #, (-7643494584741751) @ (-49)));
  (174%N, ((-1814363866276635) @ (-47), (-1473567016053351) @ (-47), (-2816451158275781) @ (-48), (-1544030019510545) @ (-47)));
  (175%N, ((-7579153354239763) @ (-49), (-8871297742822353) @ (-49), #, (-456223959081461) @ (-45)));
  (177%N, (#, #, #, (-2061833855653683) @ (-47)));
  (178%N, (#, (-4240545284906009) @ (-48), (-483818997720415) @ (-45), (-7951171338784367) @ (-49)));
  (179%N, (#, #, #, (-7795654513279065) @ (-49)));
  (180%N, (#, #, #, (-70881326618687) @ (-42)));
  (182%N, (#, #, #, (-271331332318175) @ (-44)));
  (184%N, (#, #, #, (-1569089569288295) @ (-47)));
  (185%N, ((-5180635399064825) @ (-49), (-5406420665481025) @ (-49), (-4662464014861703) @ (-49), (-2913942148215851) @ (-48)));
  (186%N, (#, #, #, (-70881326618687) @ (-42)));
  (187%N, ((-2473580733783185) @ (-48), (-5664119229957275) @ (-49), (-5265514192557773) @ (-49), (-2764964858652261) @ (-48)));
  (188%N, (#, #, #, (-302852298247679) @ (-44)));
  (189%N, (#, #, #, (-7332707602050573) @ (-49)));
  (190%N, (#, #, (-1560823079282837) @ (-47), (-2894875919123307) @ (-48)));
  (193%N, (#, #, #, (-8395033373076123) @ (-49)));
  (194%N, (#, #, #, (-4392620273043229) @ (-48)));
  (195%N, (#, #, #, (-2130163006223681) @ (-47)));
  (196%N, (#, #, #, (-7600718321947853) @ (-49)));
  (198%N, ((-889038822504283) @ (-46), (-69390675960269) @ (-43), (-5196754363501653) @ (-49), (-5684186653169825) @ (-49)));
  (199%N, (#, #, #, (-3688528646784237) @ (-48)));
  (200%N, (#, #, #, (-8130444851884389) @ (-49)));
  (201%N, (#, #, #, (-3505203974573573) @ (-48)));
  (202%N, ((-5551801836824169) @ (-49), (-5795433882681303) @ (-49), (-3341290961436923) @ (-48), (-1252885744920799) @ (-47)));
  (203%N, ((-4585778065829585) @ (-49), (-2178421152563781) @ (-48), (-468855153697827) @ (-46), (-2489341586712161) @ (-48)));
  (204%N, (#, #, #, (-1969801887061797) @ (-47)));
  (205%N, ((-3921870937715749) @ (-48), (-2702017640376701) @ (-48), (-6262188758935471) @ (-49), (-7643494584741751) @ (-49)));
  (206%N, (#, #, #, (-8205616343142647) @ (-49)));
  (207%N, (#, #, #, (-6683806725621059) @ (-49)));
  (208%N, ((-1262051348135111) @ (-47), (-2579486496407671) @ (-48), (-4530055644753847) @ (-49), (-5654422208957691) @ (-49)));
  (209%N, ((-4405459381523283) @ (-49), (-589792582849961) @ (-46), (-634135107803545) @ (-46), (-21520153615787) @ (-41)));
  (210%N, ((-4684119305002281) @ (-48), (-4240545284906009) @ (-48), (-4684119305002281) @ (-48), (-1783406489466885) @ (-47)));
  (211%N, ((-2704115126255595) @ (-48), (-350955851614551) @ (-45), (-578036626944691) @ (-46), (-586015670680441) @ (-46)));
  (212%N, ((-7453804851939155) @ (-50), (-2757467455308887) @ (-49), (-2123304062547749) @ (-48), (-2788088050982677) @ (-48)));
  (214%N, (#, #, #, (-4297911758076491) @ (-48)));
  (215%N, ((-3921870937715749) @ (-48), (-2702017640376701) @ (-48), (-6262188758935471) @ (-49), (-7643494584741751) @ (-49)));
  (216%N, ((-3767046657841615) @ (-48), #, (-4260759154773655) @ (-48), (-6164222518044545) @ (-49)));
  (217%N, (#, #, #, (-3728098948061275) @ (-48)));
  (218%N, ((-4896686193790855) @ (-49), (-1578412539191041) @ (-47), (-6310555553390721) @ (-49), (-6220451850063225) @ (-49)));
  (219%N, (#, #, #, (-3670651212387731) @ (-48)));
  (220%N, ((-39506047268825) @ (-42), (-191462676150205) @ (-44), (-3375489482355113) @ (-48), (-5769219717755175) @ (-49)));
  (221%N, (#, (-6185641055691637) @ (-49), (-7194840999001983) @ (-49), (-2906102730347207) @ (-48)));
  (222%N, (#, #, #, (-6946781437909935) @ (-49)));
  (223%N, (#, #, #, (-1783406489466885) @ (-47)));
  (224%N, (#, #, #, (-2061833855653683) @ (-47)));
  (225%N, (#, #, #, (-4170689255897351) @ (-48)));
  (226%N, (#, #, #, (-3767970024052643) @ (-48)));
  (227%N, ((-3903704958981611) @ (-48), (-1623981519183149) @ (-47), (-807389556437815) @ (-46), (-3167038415105713) @ (-48)));
  (228%N, (#, #, #, (-1729369077842873) @ (-47)));
  (229%N, ((-6545628325304225) @ (-49), (-2819137182873279) @ (-48), (-3103138791097497) @ (-48), (-5975876753807171) @ (-49)));
  (230%N, ((-5454738793860621) @ (-49), (-1512640209349921) @ (-47), (-1363348408010391) @ (-47), (-1877995278787649) @ (-47)));
  (232%N, ((-5952670647560727) @ (-49), (-328401126567299) @ (-45), (-6164851020242309) @ (-49), (-12509616133999) @ (-40)));
  (233%N, (#, #, #, (-6440490020332539) @ (-49)));
  (234%N, (#, #, #, (-3888284818171165) @ (-48)));
  (235%N, ((-2146956065995973) @ (-47), (-1925169055947837) @ (-47), (-8197617090973557) @ (-49), (-271331332318175) @ (-44)));
  (236%N, ((-23275673171385) @ (-41), (-6440768010410019) @ (-49), (-6188148825753519) @ (-49), (-6347254413892145) @ (-49)));
  (237%N, (#, #, #, (-2130163006223681) @ (-47)));
  (238%N, (#, #, (-609902861438431) @ (-45), (-3702723670134365) @ (-48)));
  (239%N, (#, #, #, (-4650533185457697) @ (-48)));
  (240%N, (#, #, #, (-302852298247679) @ (-44)));
  (241%N, (#, #, #, (-1893476528496951) @ (-47)));
  (243%N, (#, #, #, (-3510057111638175) @ (-48)));
  (244%N, (#, #, #, (-7614619027055453) @ (-49)));
  (245%N, (#, (-3817185134677383) @ (-48), #, (-3879055303555717) @ (-48)));
  (247%N, (#, #, #, (-8205616343142647) @ (-49)));
  (248%N, (#, #, #, (-1969801887061797) @ (-47)));
  (249%N, ((-1975763643203379) @ (-47), (-1925169055947837) @ (-47), (-2146956065995973) @ (-47), (-2960589213070475) @ (-48)));
  (250%N, (#, #, #, (-4650533185457697) @ (-48)));
  (251%N, ((-1673051308334307) @ (-47), (-195523065702511) @ (-44), (-1306038163786243) @ (-47), (-7055467987703679) @ (-49)));
  (253%N, (#, #, #, (-7795654513279065) @ (-49)));
  (255%N, ((-5470028384188385) @ (-49), (-5649205776275345) @ (-49), (-5905157227817129) @ (-49), (-6456448725461755) @ (-49)))].

(** prob_emit.py, characters 0x5a00 to 0x5aff *)
Definition emit_5a : list (N * num4) := [
  (0%N, (#, #, #, (-8910859197905059) @ (-49)));
  (1%N, ((-1111505748391395) @ (-47), (-4509059725447543) @ (-49), (-2306897120464173) @ (-48), (-5437382770497839) @ (-49)));
  (2%N, (#, #, #, (-4392620273043229) @ (-48)));
  (3%N, ((-5536957415560097) @ (-49), (-5342110281916193) @ (-49), (-5366192411850255) @ (-49), (-5477000571390183) @ (-49)));
  (4%N, ((-3158997764452997) @ (-48), (-3606862978324355) @ (-48), (-3855333411915459) @ (-48), (-7005616856795013) @ (-49)));
  (5%N, (#, (-6180890394980519) @ (-49), (-6167711060026959) @ (-49), (-1828975469458993) @ (-47)));
  (6%N, (#, #, (-903159767337213) @ (-46), (-3164158850588071) @ (-48)));
  (7%N, ((-2885899132161729) @ (-48), (-712650916567559) @ (-46), (-2908803912334675) @ (-48), (-6043332759621093) @ (-49)));
  (8%N, ((-3903704958981611) @ (-48), (-7385640542039271) @ (-49), (-8462205612165291) @ (-49), (-6938251729979339) @ (-49)));
  (9%N, ((-7924300488693565) @ (-49), (-105327943197979) @ (-43), (-7756962757402879) @ (-49), (-6033065910559427) @ (-49)));
  (10%N, (#, #, #, (-3951094144080465) @ (-48)));
  (11%N, (#, #, #, (-302852298247679) @ (-44)));
  (12%N, (#, (-3736209830033945) @ (-48), (-3722114766328821) @ (-48), (-5830836321829809) @ (-49)));
  (13%N, (#, #, #, (-7104451038327115) @ (-49)));
  (17%N, ((-4331497877621075) @ (-48), (-4240545284906009) @ (-48), (-7313100723111123) @ (-49), (-1479774319479263) @ (-47)));
  (19%N, ((-3667736269636657) @ (-48), (-1688482578221107) @ (-47), (-7615485311708039) @ (-49), (-6592047412203725) @ (-49)));
  (22%N, (#, #, #, (-70881326618687) @ (-42)));
  (24%N, ((-325021422818459) @ (-45), (-4815722234430543) @ (-49), (-8554647149310699) @ (-50), (-5026234939447415) @ (-49)));
  (25%N, (#, #, #, (-4650533185457697) @ (-48)));
  (27%N, ((-687885693650391) @ (-46), (-3736209830033945) @ (-48), (-3276579770341245) @ (-48), (-7127668759912815) @ (-49)));
  (28%N, ((-7122640226792847) @ (-49), (-5485877075839019) @ (-49), (-4842776957546325) @ (-49), (-5772946114032013) @ (-49)));
  (31%N, ((-7654324845498021) @ (-49), (-5416064583611781) @ (-49), (-4876945324086095) @ (-49), (-2859015114403675) @ (-48)));
  (32%N, (#, (-1544044872304571) @ (-47), (-3163400814764593) @ (-48), (-7951171338784367) @ (-49)));
  (33%N, (#, #, #, (-6790228280836765) @ (-49)));
  (35%N, (#, (-3817185134677383) @ (-48), (-6083532177352997) @ (-49), (-3317411837498811) @ (-48)));
  (37%N, ((-2078626915425975) @ (-47), (-3278540746232549) @ (-48), (-361273658207691) @ (-45), (-5523034959308255) @ (-49)));
  (38%N, (#, #, #, (-302852298247679) @ (-44)));
  (41%N, (#, (-7575057571972747) @ (-49), (-408522113529243) @ (-45), (-3728098948061275) @ (-48)));
  (45%N, (#, #, #, (-4650533185457697) @ (-48)));
  (48%N, (#, #, #, (-302852298247679) @ (-44)));
  (49%N, ((-687885693650391) @ (-46), (-3736209830033945) @ (-48), (-3276579770341245) @ (-48), (-7127668759912815) @ (-49)));
  (50%N, (#, (-3887923857524803) @ (-48), (-1814363866276635) @ (-47), (-3102641684453985) @ (-48)));
  (52%N, ((-3132227077079631) @ (-48), (-6808895884777563) @ (-49), (-6427920107438971) @ (-49), (-1531238762030853) @ (-47)));
  (53%N, (#, #, #, (-302852298247679) @ (-44)));
  (54%N, ((-6717008802539521) @ (-49), #, (-6263320317011777) @ (-49), (-671062454382179) @ (-46)));
  (58%N, (#, #, #, (-302852298247679) @ (-44)));
  (59%N, (#, #, #, (-302852298247679) @ (-44)));
  (60%N, ((-3502711984534253) @ (-48), (-4240545284906009) @ (-48), (-6968563171774189) @ (-49), (-6925694704825637) @ (-49)));
  (61%N, (#, #, #, (-4650533185457697) @ (-48)));
  (62%N, (#, #, #, (-1994339944854797) @ (-47)));
  (63%N, (#, #, #, (-6986850120558139) @ (-49)));
  (64%N, ((-3569249510334543) @ (-48), (-3606862978324355) @ (-48), #, (-7050279472141661) @ (-49)));
  (65%N, ((-3158997764452997) @ (-48), (-3606862978324355) @ (-48), (-3855333411915459) @ (-48), (-7005616856795013) @ (-49)));
  (66%N, (#, #, #, (-1531238762030853) @ (-47)));
  (67%N, (#, #, #, (-6299012574637699) @ (-49)));
  (68%N, (#, #, #, (-1636483042981505) @ (-47)));
  (69%N, (#, #, #, (-6617800133038605) @ (-49)));
  (70%N, ((-5117742223300217) @ (-49), (-1167449465995129) @ (-47), (-2346925340546813) @ (-48), (-5991407392644435) @ (-49)));
  (71%N, (#, #, #, (-6885752428364879) @ (-49)));
  (72%N, (#, #, #, (-302852298247679) @ (-44)));
  (73%N, ((-6323010706426361) @ (-49), (-2435778887329407) @ (-48), (-6110504998710261) @ (-49), (-420540146700683) @ (-45)));
  (74%N, ((-1593600801795253) @ (-47), #, #, (-3285909744641789) @ (-48)));
  (76%N, (#, #, #, (-4650533185457697) @ (-48)));
  (77%N, (#, #, #, (-8910859197905059) @ (-49)));
  (79%N, (#, #, #, (-3192782553928043) @ (-48)));
  (80%N, (#, #, #, (-302852298247679) @ (-44)));
  (82%N, (#, #, #, (-4650533185457697) @ (-48)));
  (84%N, (#, #, #, (-302852298247679) @ (-44)));
  (85%N, ((-8978031436994227) @ (-49), (-6530054704760343) @ (-49), (-6107061868995681) @ (-49), (-108816228894371) @ (-43)));
  (90%N, ((-2427819322580487) @ (-48), (-1314290474264215) @ (-47), (-4854339172308963) @ (-49), (-5195270960767679) @ (-49)));
  (92%N, (#, #, #, (-302852298247679) @ (-44)));
  (95%N, (#, #, #, (-302852298247679) @ (-44)));
  (98%N, ((-889038822504283) @ (-46), (-3478296917619477) @ (-48), (-5907560432975513) @ (-49), (-6170680905744457) @ (-49)));
  (102%N, ((-4712058791660463) @ (-49), (-2738839315323893) @ (-48), (-4675605335658585) @ (-49), (-5699915119472055) @ (-49)));
  (103%N, ((-4260759154773655) @ (-48), (-3042696796520353) @ (-48), (-6134313791657815) @ (-49), (-7183698940977469) @ (-49)));
  (104%N, (#, #, (-609902861438431) @ (-45), #));
  (105%N, (#, #, #, (-302852298247679) @ (-44)));
  (106%N, (#, (-8090883396801683) @ (-49), (-6262188758935471) @ (-49), (-7926147221115621) @ (-49)));
  (108%N, (#, #, #, (-302852298247679) @ (-44)));
  (109%N, (#, (-6180890394980519) @ (-49), (-6167711060026959) @ (-49), (-1828975469458993) @ (-47)));
  (110%N, (#, #, #, (-302852298247679) @ (-44)));
  (112%N, (#, #, #, (-4650533185457697) @ (-48)));
  (114%N, (#, #, #, (-6182717223307863) @ (-49)));
  (115%N, (#, #, #, (-8130444851884389) @ (-49)));
  (116%N, ((-5510174204713139) @ (-49), (-3195267673917071) @ (-48), (-3140286215885321) @ (-48), (-192732576571671) @ (-44)));
  (117%N, ((-8233949048441833) @ (-49), (-398981976780441) @ (-45), (-6850929759563609) @ (-49), (-7127668759912815) @ (-49)));
  (118%N, ((-3099578987847313) @ (-48), (-1688482578221107) @ (-47), (-6521825269397027) @ (-49), (-700248514166179) @ (-46)));
  (119%N, ((-4204275375441935) @ (-48), (-1258917355722251) @ (-47), (-2536198793865879) @ (-48), (-3471250214520119) @ (-48)));
  (120%N, (#, #, #, (-302852298247679) @ (-44)));
  (122%N, ((-3478396877264481) @ (-48), #, #, (-3728098948061275) @ (-48)));
  (123%N, (#, #, #, (-4650533185457697) @ (-48)));
  (124%N, (#, #, #, (-7835882333724349) @ (-49)));
  (125%N, (#, #, #, (-7332707602050573) @ (-49)));
  (127%N, (#, #, (-5971913002456167) @ (-49), (-6746421191725615) @ (-49)));
  (129%N, (#, #, #, (-8395033373076123) @ (-49)));
  (133%N, (#, #, #, (-302852298247679) @ (-44)));
  (137%N, (#, #, #, (-8910859197905059) @ (-49)));
  (139%N, (#, #, #, (-4297911758076491) @ (-48)));
  (143%N, (#, #, #, (-302852298247679) @ (-44)));
  (145%N, (#, #, #, (-302852298247679) @ (-44)));
  (146%N, ((-2388588942115953) @ (-48), (-5146784155019469) @ (-49), (-2887321923615987) @ (-48), (-1544030019510545) @ (-47)));
  (148%N, (#, #, #, (-302852298247679) @ (-44)));
  (150%N, (#, #, #, (-8205616343142647) @ (-49)));
  (153%N, (#, #, #, (-302852298247679) @ (-44)));
  (154%N, ((-6399803754120501) @ (-49), (-5954212934546103) @ (-49), (-731226917311279) @ (-46), (-1636483042981505) @ (-47)));
  (155%N, (#, (-5437123472927511) @ (-49), (-5712154517268023) @ (-49), (-3517497412055821) @ (-48)));
  (156%N, (#, #, #, (-4650533185457697) @ (-48)));
  (158%N, (#, #, (-8462205612165291) @ (-49), #));
  (159%N, (#, #, #, (-302852298247679) @ (-44)));
  (160%N, (#, #, #, (-4227173035229071) @ (-48)));
  (166%N, (#, #, #, (-4650533185457697) @ (-48)));
  (167%N, (#, (-3887923857524803) @ (-48), (-1814363866276635) @ (-47), (-3102641684453985) @ (-48)));
  (170%N, (#, (-8871297742822353) @ (-49), (-8272788582231815) @ (-49), (-7643494584741751) @ (-49)));
  (173%N, (#, #, #, (-4650533185457697) @ (-48)));
  (175%N, ((-7773281289935475) @ (-49), #, (-3912641423100301) @ (-48), (-4170689255897351) @ (-48)));
  (176%N, (#, #, #, (-8205616343142647) @ (-49)));
  (177%N, (#, #, #, (-271331332318175) @ (-44)));
  (178%N, ((-3350997957043395) @ (-48), #, #, (-1994339944854797) @ (-47)));
  (179%N, ((-5473637940029119) @ (-49), (-5554596908200093) @ (-49), (-6313024636091883) @ (-49), (-6934034856678315) @ (-49)));
  (180%N, (#, #, #, (-3662121014844325) @ (-48)));
  (181%N, (#, #, #, (-4297911758076491) @ (-48)));
  (182%N, (#, #, #, (-4650533185457697) @ (-48)));
  (183%N, (#, #, #, (-7628871685880939) @ (-49)));
  (184%N, (#, (-8252834006088559) @ (-49), (-609902861438431) @ (-45), (-7275959601375213) @ (-49)));
  (185%N, (#, #, #, (-271331332318175) @ (-44)));
  (186%N, (#, #, #, (-3688528646784237) @ (-48)));
  (187%N, (#, #, #, (-302852298247679) @ (-44)));
  (188%N, (#, (-8871297742822353) @ (-49), (-8272788582231815) @ (-49), (-8910859197905059) @ (-49)));
  (189%N, ((-5012593445575253) @ (-49), (-4814885755891171) @ (-49), (-2345153194231059) @ (-48), (-4650533185457697) @ (-48)));
  (190%N, ((-3543643231182759) @ (-48), #, (-7924300488693565) @ (-49), (-943539134077359) @ (-46)));
  (191%N, (#, #, #, (-7706109050846307) @ (-49)));
  (192%N, (#, #, #, (-4170689255897351) @ (-48)));
  (193%N, ((-3064021899480365) @ (-48), (-6646945275490687) @ (-49), (-365989035334905) @ (-45), (-5331712190114275) @ (-49)));
  (194%N, ((-1440720247038953) @ (-47), (-6240728968116259) @ (-49), (-5658228941889813) @ (-49), (-5923965312790103) @ (-49)));
  (195%N, (#, #, #, (-4048158111928321) @ (-48)));
  (196%N, (#, #, (-4684119305002281) @ (-48), (-1994339944854797) @ (-47)));
  (197%N, (#, #, #, (-70881326618687) @ (-42)));
  (198%N, (#, #, #, (-7951171338784367) @ (-49)));
  (200%N, (#, #, #, (-7951171338784367) @ (-49)));
  (201%N, ((-3123840906345817) @ (-48), (-6823518783638375) @ (-49), (-483818997720415) @ (-45), (-6620200776136811) @ (-49)));
  (203%N, (#, #, #, (-8166776809352665) @ (-49)));
  (204%N, ((-5942329140609933) @ (-49), (-491414177067389) @ (-45), (-6373025116031563) @ (-49), (-5500534113434893) @ (-49)));
  (205%N, (#, #, #, (-3446758689208401) @ (-48)));
  (206%N, (#, #, #, (-4297911758076491) @ (-48)));
  (207%N, (#, #, #, (-4392620273043229) @ (-48)));
  (209%N, (#, #, #, (-3870118839437027) @ (-48)));
  (210%N, (#, (-8871297742822353) @ (-49), (-1814363866276635) @ (-47), (-976926146266539) @ (-46)));
  (211%N, (#, #, #, (-8205616343142647) @ (-49)));
  (212%N, ((-389663418086415) @ (-45), (-1925169055947837) @ (-47), (-6656935875530257) @ (-49), (-6951095251765127) @ (-49)));
  (214%N, ((-6887476215016351) @ (-49), (-874429171128617) @ (-46), #, (-6823747105641763) @ (-49)));
  (215%N, (#, #, (-3801556143597227) @ (-48), (-8064138897447807) @ (-49)));
  (216%N, ((-6619465495119071) @ (-49), #, #, (-1969801887061797) @ (-47)));
  (217%N, (#, #, #, (-2061833855653683) @ (-47)));
  (218%N, (#, (-4240545284906009) @ (-48), (-4331497877621075) @ (-48), (-7706109050846307) @ (-49)));
  (219%N, (#, #, #, (-4392620273043229) @ (-48)));
  (220%N, (#, #, #, (-4170689255897351) @ (-48)));
  (221%N, (#, #, #, (-4227173035229071) @ (-48)));
  (222%N, (#, #, #, (-70881326618687) @ (-42)));
  (223%N, (#, #, #, (-7951171338784367) @ (-49)));
  (224%N, (#, #, #, (-7643494584741751) @ (-49)));
  (225%N, ((-6518250971971065) @ (-49), (-8871297742822353) @ (-49), #, (-1637011139242251) @ (-47)));
  (226%N, (#, #, #, (-7127668759912815) @ (-49)));
  (227%N, ((-1668867720385385) @ (-47), (-1643962057175493) @ (-47), (-3103138791097497) @ (-48), (-1456676951768159) @ (-47)));
  (228%N, (#, #, #, (-7332707602050573) @ (-49)));
  (229%N, (#, #, #, (-2130163006223681) @ (-47)));
  (230%N, ((-3350997957043395) @ (-48), (-6657876686019473) @ (-49), (-1839692586196131) @ (-47), (-7600718321947853) @ (-49)));
  (231%N, (#, #, #, (-4297911758076491) @ (-48)));
  (232%N, (#, #, #, (-7587152606408853) @ (-49)));
  (233%N, ((-3158997764452997) @ (-48), (-752663763098607) @ (-46), (-2778311509594745) @ (-48), (-2698536888161989) @ (-48)));
  (234%N, (#, #, #, (-1930728693765227) @ (-47)));
  (235%N, (#, #, #, (-976926146266539) @ (-46)));
  (236%N, (#, #, #, (-302852298247679) @ (-44)));
  (237%N, (#, #, #, (-7151885394841985) @ (-49)));
  (238%N, (#, #, #, (-8910859197905059) @ (-49)));
  (240%N, (#, #, #, (-4650533185457697) @ (-48)));
  (241%N, (#, (-4240545284906009) @ (-48), (-546860929579423) @ (-45), (-976926146266539) @ (-46)));
  (243%N, (#, #, #, (-1635956920916995) @ (-47)));
  (245%N, ((-6748291847658751) @ (-49), (-8871297742822353) @ (-49), (-4260759154773655) @ (-48), (-2001206550016447) @ (-47)));
  (248%N, (#, #, #, (-4650533185457697) @ (-48)));
  (249%N, (#, #, #, (-302852298247679) @ (-44)));
  (251%N, ((-3132227077079631) @ (-48), (-6808895884777563) @ (-49), (-6427920107438971) @ (-49), (-1531238762030853) @ (-47)));
  (252%N, (#, #, #, (-4650533185457697) @ (-48)));
  (253%N, (#, #, #, (-302852298247679) @ (-44)));
  (254%N, (#, #, #, (-7795654513279065) @ (-49)));
  (255%N, (#, #, #, (-8130444851884389) @ (-49)))].

(** prob_emit.py, characters 0x5b00 to 0x5bff *)
Definition emit_5b : list (N * num4) := [
  (0%N, (#, #, #, (-7795654513279065) @ (-49)));
  (1%N, (#, #, #, (-3767970024052643) @ (-48)));
  (5%N, (#, #, (-4081744231472905) @ (-48), (-302852298247679) @ (-44)));
  (8%N, (#, #, (-903159767337213) @ (-46), (-3164158850588071) @ (-48)));
  (9%N, ((-405758969615715) @ (-45), (-3469067403004029) @ (-48), (-7320459650820583) @ (-49), (-1729369077842873) @ (-47)));
  (11%N, ((-8233949048441833) @ (-49), (-398981976780441) @ (-45), (-6850929759563609) @ (-49), (-4650533185457697) @ (-48)));
  (12%N, ((-2885899132161729) @ (-48), (-712650916567559) @ (-46), (-2908803912334675) @ (-48), (-6043332759621093) @ (-49)));
  (14%N, (#, #, #, (-8910859197905059) @ (-49)));
  (22%N, (#, (-8871297742822353) @ (-49), #, (-6878093127173811) @ (-49)));
  (23%N, ((-7696043924970107) @ (-49), #, (-4260759154773655) @ (-48), (-7477852487122849) @ (-49)));
  (25%N, (#, (-4240545284906009) @ (-48), (-546860929579423) @ (-45), (-976926146266539) @ (-46)));
  (26%N, (#, #, #, (-8910859197905059) @ (-49)));
  (27%N, (#, #, #, (-8292395461171265) @ (-49)));
  (29%N, (#, #, #, (-4227173035229071) @ (-48)));
  (32%N, (#, #, #, (-4650533185457697) @ (-48)));
  (33%N, (#, (-8871297742822353) @ (-49), (-1814363866276635) @ (-47), (-976926146266539) @ (-46)));
  (34%N, (#, #, #, (-4650533185457697) @ (-48)));
  (36%N, ((-1762356706075807) @ (-47), (-1623981519183149) @ (-47), (-4260759154773655) @ (-48), (-7386362463331995) @ (-49)));
  (39%N, (#, #, #, (-8395033373076123) @ (-49)));
  (40%N, (#, #, #, (-6897440390483705) @ (-49)));
  (41%N, (#, #, #, (-3017382050875969) @ (-48)));
  (42%N, ((-389663418086415) @ (-45), (-1925169055947837) @ (-47), (-6656935875530257) @ (-49), (-6951095251765127) @ (-49)));
  (43%N, (#, #, #, (-5943869657201091) @ (-49)));
  (44%N, (#, #, #, (-6390342646743027) @ (-49)));
  (45%N, (#, #, #, (-809573615059843) @ (-46)));
  (46%N, (#, #, #, (-3209945996302409) @ (-48)));
  (48%N, ((-5510174204713139) @ (-49), (-3195267673917071) @ (-48), (-3140286215885321) @ (-48), (-192732576571671) @ (-44)));
  (50%N, (#, #, #, (-3767970024052643) @ (-48)));
  (52%N, ((-3984680263625049) @ (-48), (-1925169055947837) @ (-47), (-4204275375441935) @ (-48), (-7350030505863719) @ (-49)));
  (54%N, (#, #, #, (-3116202263691401) @ (-48)));
  (55%N, ((-1762356706075807) @ (-47), (-1623981519183149) @ (-47), (-6801678701340051) @ (-49), (-7386362463331995) @ (-49)));
  (56%N, ((-3099578987847313) @ (-48), (-1688482578221107) @ (-47), (-6521825269397027) @ (-49), (-700248514166179) @ (-46)));
  (62%N, (#, #, #, (-8910859197905059) @ (-49)));
  (63%N, (#, (-1925169055947837) @ (-47), #, #));
  (64%N, ((-8197617090973557) @ (-49), #, (-7567545727469403) @ (-49), (-1783406489466885) @ (-47)));
  (67%N, (#, #, #, (-4650533185457697) @ (-48)));
  (70%N, (#, #, #, (-4650533185457697) @ (-48)));
  (72%N, (#, #, #, (-271331332318175) @ (-44)));
  (74%N, (#, #, #, (-4650533185457697) @ (-48)));
  (76%N, ((-3903704958981611) @ (-48), (-7385640542039271) @ (-49), (-8462205612165291) @ (-49), (-6938251729979339) @ (-49)));
  (78%N, (#, #, #, (-3888284818171165) @ (-48)));
  (80%N, ((-4371778095154733) @ (-49), (-6327414098543891) @ (-50), (-673964058313187) @ (-47), (-8284700851924147) @ (-50)));
  (81%N, ((-7237929231852865) @ (-49), #, #, (-7926147221115621) @ (-49)));
  (82%N, (#, #, #, (-302852298247679) @ (-44)));
  (83%N, (#, #, (-4331497877621075) @ (-48), #));
  (84%N, ((-4732068101931113) @ (-49), (-1340409128792467) @ (-47), (-2538530146830315) @ (-48), (-5158054406753739) @ (-49)));
  (85%N, ((-5836391956844343) @ (-49), (-2799958095750721) @ (-48), (-1419075365595911) @ (-47), (-6284250228178101) @ (-49)));
  (86%N, (#, #, #, (-271331332318175) @ (-44)));
  (87%N, ((-4680622023066925) @ (-49), (-4166050872071007) @ (-49), (-4102107906532257) @ (-49), (-2052754990921963) @ (-48)));
  (88%N, ((-4155543498359419) @ (-49), (-4519348914413631) @ (-49), (-8687159266479225) @ (-50), (-5024819068596875) @ (-49)));
  (89%N, ((-1027273996351699) @ (-47), (-8925425375557659) @ (-50), (-2522862572627689) @ (-48), (-4937010625279261) @ (-49)));
  (90%N, ((-8462205612165291) @ (-49), (-6605226196018601) @ (-49), (-6485381270938547) @ (-49), (-7275959601375213) @ (-49)));
  (91%N, (#, (-8871297742822353) @ (-49), (-546860929579423) @ (-45), (-3288126094492297) @ (-48)));
  (92%N, ((-454428729292475) @ (-45), (-5499812192142169) @ (-49), (-6617337137372447) @ (-49), (-6686506730573393) @ (-49)));
  (93%N, ((-4818163688832361) @ (-49), (-4548263510271535) @ (-49), (-2866038181827339) @ (-48), (-5452292274180447) @ (-49)));
  (94%N, (#, #, #, (-271331332318175) @ (-44)));
  (95%N, ((-2457537629223917) @ (-48), (-5090191027918891) @ (-49), (-6124492052457255) @ (-49), (-366997734782811) @ (-45)));
  (96%N, (#, #, #, (-302852298247679) @ (-44)));
  (97%N, (#, #, #, (-302852298247679) @ (-44)));
  (98%N, ((-6079432013900721) @ (-49), (-1725734743489383) @ (-47), (-7018267490854295) @ (-49), (-3437151102035493) @ (-48)));
  (99%N, ((-4578745030952291) @ (-49), (-2414210446056117) @ (-48), (-4654867087731071) @ (-49), (-2765659430199549) @ (-48)));
  (100%N, ((-1233788646571027) @ (-47), (-2692078758213627) @ (-48), (-1658101860833211) @ (-47), (-2709998723983633) @ (-48)));
  (101%N, (#, #, (-609902861438431) @ (-45), (-3888284818171165) @ (-48)));
  (102%N, ((-6277192416750785) @ (-50), (-5492986849002425) @ (-50), (-1527966394153825) @ (-48), (-8383713022012855) @ (-50)));
  (104%N, (#, #, #, (-6848457339860269) @ (-49)));
  (105%N, ((-8417041739244383) @ (-50), (-4346017775036799) @ (-49), (-5037450123263757) @ (-49), (-208289400459167) @ (-44)));
  (106%N, ((-7212905114184119) @ (-49), #, #, (-7358896042685395) @ (-49)));
  (107%N, ((-1027273996351699) @ (-47), (-8925425375557659) @ (-50), (-2522862572627689) @ (-48), (-70881326618687) @ (-42)));
  (108%N, ((-3903704958981611) @ (-48), #, #, (-1853809505254573) @ (-47)));
  (109%N, (#, #, #, (-4392620273043229) @ (-48)));
  (110%N, (#, #, (-609902861438431) @ (-45), (-4392620273043229) @ (-48)));
  (111%N, (#, #, #, (-302852298247679) @ (-44)));
  (112%N, ((-6775758268305351) @ (-49), (-7106171420012245) @ (-49), #, (-405138068737789) @ (-45)));
  (113%N, ((-230211112012267) @ (-44), #, #, (-2061833855653683) @ (-47)));
  (114%N, (#, #, #, (-1930728693765227) @ (-47)));
  (115%N, ((-7556172614326021) @ (-49), #, #, (-1592867762205329) @ (-47)));
  (116%N, (#, #, #, (-6268575434941977) @ (-49)));
  (117%N, ((-6149838131789579) @ (-49), #, #, (-6881909751646441) @ (-49)));
  (120%N, ((-6277192416750785) @ (-50), (-5492986849002425) @ (-50), (-1527966394153825) @ (-48), (-8383713022012855) @ (-50)));
  (122%N, ((-3761685067605859) @ (-48), (-6869814717210335) @ (-49), (-6502441666025359) @ (-49), (-1797570806504343) @ (-47)));
  (124%N, (#, #, #, (-302852298247679) @ (-44)));
  (125%N, ((-7194840999001983) @ (-49), (-6680397687276859) @ (-49), (-6158233564238699) @ (-49), (-6569616159843049) @ (-49)));
  (126%N, (#, #, #, (-7104451038327115) @ (-49)));
  (127%N, ((-7212905114184119) @ (-49), #, #, (-7358896042685395) @ (-49)));
  (128%N, (#, #, #, (-3333936558074267) @ (-48)));
  (129%N, ((-1190132869826951) @ (-47), (-7883802065782761) @ (-50), (-8929934060569981) @ (-50), (-5474480365934683) @ (-49)));
  (131%N, ((-2227103530683275) @ (-48), (-8090883396801683) @ (-49), (-4734910533990345) @ (-49), (-6979186567535599) @ (-50)));
  (132%N, (#, #, (-8272788582231815) @ (-49), (-3598472716699259) @ (-48)));
  (133%N, ((-6150764798588815) @ (-49), (-5736598463796225) @ (-49), (-5465068440619203) @ (-49), (-2929684636273067) @ (-48)));
  (134%N, (#, #, #, (-302852298247679) @ (-44)));
  (135%N, ((-5057704656283099) @ (-49), (-4680229198055309) @ (-49), (-4874537699368369) @ (-49), (-1535289041219093) @ (-47)));
  (136%N, ((-4931102267549157) @ (-49), (-4369013657987043) @ (-49), (-4511852206839165) @ (-49), (-4827916932486175) @ (-49)));
  (137%N, ((-1818954640527481) @ (-48), (-5333901517013635) @ (-50), (-7792273340255261) @ (-50), (-571989333058045) @ (-46)));
  (138%N, (#, #, #, (-7951171338784367) @ (-49)));
  (139%N, ((-2082282359651569) @ (-48), (-2638851490024883) @ (-48), (-2596087030689823) @ (-48), (-612403587415639) @ (-46)));
  (140%N, ((-7292370672569965) @ (-50), (-5461631464692351) @ (-49), (-5209153884854463) @ (-49), (-8713598160728801) @ (-50)));
  (141%N, (#, #, #, (-302852298247679) @ (-44)));
  (143%N, ((-5128653316646159) @ (-49), (-8274971166631095) @ (-50), (-2530855242024857) @ (-48), (-2966559586128739) @ (-48)));
  (144%N, (#, #, #, (-4297911758076491) @ (-48)));
  (145%N, (#, #, #, (-8166776809352665) @ (-49)));
  (147%N, ((-1765831882352707) @ (-47), (-3982632372491541) @ (-48), (-7231568147748981) @ (-49), (-6885752428364879) @ (-49)));
  (148%N, (#, #, #, (-4297911758076491) @ (-48)));
  (149%N, ((-571248877892569) @ (-45), (-3312849679805319) @ (-48), (-3375489482355113) @ (-48), (-6694685324108583) @ (-49)));
  (150%N, (#, #, #, (-302852298247679) @ (-44)));
  (151%N, ((-4416212282362615) @ (-49), (-115583986449679) @ (-44), (-564468859124477) @ (-46), (-1283378368627775) @ (-47)));
  (152%N, ((-7879754269526369) @ (-50), (-566734278710935) @ (-46), (-8295071232135093) @ (-50), (-4394508226198255) @ (-49)));
  (153%N, ((-408522113529243) @ (-45), (-5286327062888147) @ (-49), (-2685755467628925) @ (-48), (-7425201997121977) @ (-49)));
  (154%N, ((-8450262527997013) @ (-50), (-7568040721989911) @ (-50), (-3001408494348827) @ (-49), (-8491782961065961) @ (-50)));
  (155%N, ((-2789170453188195) @ (-48), (-2836822418575591) @ (-48), (-5806429750761971) @ (-49), (-6603607365691809) @ (-49)));
  (156%N, ((-8948375735110171) @ (-50), (-2366301174486735) @ (-48), (-4686508956090195) @ (-49), (-1273006807284561) @ (-47)));
  (157%N, ((-8641616971261421) @ (-50), (-4029789237439383) @ (-49), (-1052912504357613) @ (-47), (-619541669176265) @ (-46)));
  (158%N, ((-6476399536305569) @ (-50), (-58873659904479) @ (-43), (-7330185326664917) @ (-50), (-2343363751533453) @ (-48)));
  (159%N, (#, #, #, (-4650533185457697) @ (-48)));
  (160%N, ((-367247001891679) @ (-45), (-3050797354896833) @ (-48), (-3152214906683497) @ (-48), (-2956792436013423) @ (-48)));
  (161%N, ((-8190074076355501) @ (-50), (-2498703784981949) @ (-48), (-5319188300320449) @ (-49), (-5238626802438679) @ (-49)));
  (162%N, ((-8332128423108245) @ (-50), (-2573769137146443) @ (-48), (-4301417031505429) @ (-49), (-4966567940364847) @ (-49)));
  (163%N, ((-4051767975463189) @ (-49), (-2368658144585501) @ (-48), (-1495704485755307) @ (-47), (-2829819385475035) @ (-48)));
  (164%N, ((-2783359793179157) @ (-48), (-2869375619354051) @ (-48), (-8429891034863947) @ (-50), (-4948129477394011) @ (-49)));
  (165%N, (#, (-3760701355345663) @ (-48), (-3801556143597227) @ (-48), (-6681119608569583) @ (-49)));
  (166%N, ((-5904558026107103) @ (-49), (-3887923857524803) @ (-48), (-834728907770341) @ (-46), (-3299477430128381) @ (-48)));
  (167%N, (#, #, #, (-302852298247679) @ (-44)));
  (169%N, (#, #, #, (-4650533185457697) @ (-48)));
  (170%N, ((-4516462631362815) @ (-49), (-8992202451934445) @ (-50), (-1402609824953375) @ (-47), (-3252634147087553) @ (-48)));
  (171%N, ((-8554314544686011) @ (-50), (-2333931663077177) @ (-48), (-8702531181137391) @ (-50), (-4761079642518481) @ (-49)));
  (172%N, (#, #, (-609902861438431) @ (-45), (-8205616343142647) @ (-49)));
  (173%N, (#, #, #, (-8910859197905059) @ (-49)));
  (174%N, ((-8554314544686011) @ (-50), (-2333931663077177) @ (-48), (-8702531181137391) @ (-50), (-4761079642518481) @ (-49)));
  (175%N, (#, #, #, (-302852298247679) @ (-44)));
  (176%N, ((-1373010315494117) @ (-47), (-5973515966863759) @ (-49), (-6044582917424197) @ (-49), (-2964790410117605) @ (-48)));
  (177%N, (#, #, #, (-8910859197905059) @ (-49)));
  (178%N, (#, #, #, (-302852298247679) @ (-44)));
  (179%N, ((-4893397285000321) @ (-49), (-5107492634088851) @ (-49), (-4180526208052549) @ (-49), (-1268267459757099) @ (-47)));
  (180%N, ((-352381318735649) @ (-45), (-6547927632997723) @ (-49), (-5604785015458829) @ (-49), (-2908402845101199) @ (-48)));
  (181%N, ((-7298665317991735) @ (-49), (-5829860762346977) @ (-49), (-763705279999011) @ (-46), (-3224650029281801) @ (-48)));
  (182%N, ((-3801836219320707) @ (-49), (-711736267733063) @ (-47), (-5733902500759859) @ (-50), (-231980988731669) @ (-45)));
  (183%N, (#, #, #, (-8910859197905059) @ (-49)));
  (184%N, (#, (-2952878618773787) @ (-48), (-2650429523399971) @ (-48), (-5787554957591571) @ (-49)));
  (185%N, ((-8748524273602827) @ (-50), (-3945814747177341) @ (-49), (-8032720303482167) @ (-50), (-2628026542590149) @ (-48)));
  (188%N, ((-609902861438431) @ (-45), #, #, (-302852298247679) @ (-44)));
  (189%N, ((-4879945150446483) @ (-49), (-1431489092705661) @ (-47), (-5557268974456487) @ (-49), (-4560581671921589) @ (-49)));
  (190%N, ((-5544172810479351) @ (-49), (-2535053724542627) @ (-48), (-5096107183488917) @ (-49), (-1530989448434467) @ (-47)));
  (191%N, ((-2677626074709987) @ (-48), (-2758501419708421) @ (-48), (-5371743319142851) @ (-49), (-5882246233318017) @ (-49)));
  (192%N, (#, #, #, (-239810366388671) @ (-44)));
  (194%N, ((-5562137410276335) @ (-49), (-6605226196018601) @ (-49), (-2943146109036859) @ (-48), (-6678445256967907) @ (-49)));
  (195%N, (#, #, #, (-4227173035229071) @ (-48)));
  (196%N, ((-5183955667925501) @ (-49), (-2571140265686335) @ (-48), (-1730723387525197) @ (-47), (-658706250904469) @ (-46)));
  (197%N, ((-1986594946834089) @ (-47), (-2781213329123363) @ (-48), (-1523793524482053) @ (-47), (-7015240167258395) @ (-49)));
  (198%N, ((-274099884636459) @ (-45), (-4329896566562177) @ (-49), (-4407467827073043) @ (-49), (-5034805771634983) @ (-49)));
  (199%N, ((-6347462662288133) @ (-49), (-6886133249742931) @ (-49), (-727136860772465) @ (-46), (-6284250228178101) @ (-49)));
  (200%N, (#, #, #, (-271331332318175) @ (-44)));
  (201%N, (#, #, #, (-302852298247679) @ (-44)));
  (202%N, (#, #, #, (-302852298247679) @ (-44)));
  (204%N, ((-4466268434323605) @ (-49), (-2143698007334793) @ (-48), (-8316781783404047) @ (-50), (-5247167557593065) @ (-49)));
  (206%N, (#, #, #, (-70881326618687) @ (-42)));
  (208%N, (#, (-3076599374652271) @ (-48), (-7374855723470995) @ (-49), (-6938251729979339) @ (-49)));
  (209%N, (#, #, #, (-271331332318175) @ (-44)));
  (210%N, ((-2477212009412353) @ (-48), (-5024036546630921) @ (-49), (-2610204870777839) @ (-48), (-5409258117148759) @ (-49)));
  (211%N, ((-5994640674281395) @ (-49), (-1725734743489383) @ (-47), (-1525271651225255) @ (-47), (-6039032127907627) @ (-49)));
  (212%N, (#, #, #, (-1749038822580415) @ (-47)));
  (213%N, (#, #, #, (-7706109050846307) @ (-49)));
  (214%N, (#, #, #, (-8205616343142647) @ (-49)));
  (215%N, (#, #, #, (-3951094144080465) @ (-48)));
  (216%N, (#, #, #, (-3728098948061275) @ (-48)));
  (217%N, (#, #, #, (-7926147221115621) @ (-49)));
  (218%N, (#, #, #, (-6897440390483705) @ (-49)));
  (219%N, (#, (-1925169055947837) @ (-47), #, (-302852298247679) @ (-44)));
  (220%N, (#, #, #, (-7835882333724349) @ (-49)));
  (221%N, ((-6064118186140053) @ (-49), (-1673001328511805) @ (-47), (-6636788398932217) @ (-49), (-6271157778706001) @ (-49)));
  (222%N, (#, #, (-2978627744638899) @ (-48), (-8395033373076123) @ (-49)));
  (223%N, ((-2756278532608289) @ (-48), (-6575774034813187) @ (-50), (-4198918016703033) @ (-49), (-2760491445796099) @ (-48)));
  (224%N, (#, #, #, (-4650533185457697) @ (-48)));
  (225%N, ((-2443979056351299) @ (-48), (-5327378040537135) @ (-49), (-1605470763190823) @ (-47), (-6218091469442037) @ (-49)));
  (226%N, ((-6064118186140053) @ (-49), (-1673001328511805) @ (-47), (-6636788398932217) @ (-49), (-6271157778706001) @ (-49)));
  (227%N, (#, #, #, (-8395033373076123) @ (-49)));
  (228%N, ((-571248877892569) @ (-45), #, #, (-1713019402318041) @ (-47)));
  (229%N, ((-6434022605716583) @ (-49), (-761679484000969) @ (-46), (-415075232207411) @ (-45), (-7367903434101099) @ (-49)));
  (230%N, ((-6476399536305569) @ (-50), (-58873659904479) @ (-43), (-7330185326664917) @ (-50), (-302852298247679) @ (-44)));
  (231%N, ((-1190132869826951) @ (-47), (-7883802065782761) @ (-50), (-8929934060569981) @ (-50), (-8166776809352665) @ (-49)));
  (232%N, ((-3123290612960941) @ (-48), (-1391794329739461) @ (-47), (-2594990975778663) @ (-48), (-2500097363744529) @ (-48)));
  (233%N, ((-8190074076355501) @ (-50), (-2498703784981949) @ (-48), (-5319188300320449) @ (-49), (-5238626802438679) @ (-49)));
  (234%N, (#, #, #, (-302852298247679) @ (-44)));
  (235%N, ((-294105398796391) @ (-45), (-1539430114996847) @ (-47), (-1174494743982297) @ (-47), (-2103400759453497) @ (-48)));
  (236%N, ((-4879945150446483) @ (-49), (-1431489092705661) @ (-47), (-5557268974456487) @ (-49), (-4560581671921589) @ (-49)));
  (238%N, (#, #, (-2078626915425975) @ (-47), (-2812254557293409) @ (-48)));
  (239%N, (#, #, #, (-4392620273043229) @ (-48)));
  (240%N, ((-3632058836243843) @ (-48), (-7427359621511357) @ (-49), (-6432490768163449) @ (-49), (-5503504832484015) @ (-49)));
  (241%N, (#, #, #, (-4650533185457697) @ (-48)));
  (242%N, (#, #, #, (-7121773942140261) @ (-49)));
  (243%N, (#, #, #, (-7523833130877875) @ (-49)));
  (245%N, ((-367247001891679) @ (-45), (-3050797354896833) @ (-48), (-3152214906683497) @ (-48), (-302852298247679) @ (-44)));
  (246%N, ((-8641616971261421) @ (-50), (-4029789237439383) @ (-49), (-2146956065995973) @ (-47), (-3888284818171165) @ (-48)));
  (247%N, (#, #, #, (-7706109050846307) @ (-49)));
  (248%N, ((-6485381270938547) @ (-49), (-2703808579462447) @ (-48), (-5315180020649287) @ (-49), (-5876439248210613) @ (-49)));
  (249%N, ((-7004446854845503) @ (-50), (-8350465723774731) @ (-50), (-7653055521821117) @ (-50), (-2864746846982121) @ (-49)));
  (250%N, ((-5646368871189921) @ (-49), (-5317086164247447) @ (-49), (-2447694134171625) @ (-48), (-4841638255780549) @ (-49)));
  (251%N, ((-2280754976026969) @ (-48), (-5217345231403553) @ (-49), (-5699531792172201) @ (-49), (-5098114965820073) @ (-49)));
  (252%N, ((-8220661917194735) @ (-50), (-3576103879187259) @ (-49), (-3664207618596083) @ (-49), (-708278524257363) @ (-46)));
  (253%N, (#, #, #, (-4227173035229071) @ (-48)));
  (254%N, (#, #, #, (-8910859197905059) @ (-49)));
  (255%N, ((-5325790020976125) @ (-49), (-2329936776594877) @ (-48), (-5346294920619889) @ (-49), (-2955765778425223) @ (-48)))].

(** prob_emit.py, characters 0x5c00 to 0x5cff *)
Definition emit_5c : list (N * num4) := [
  (0%N, (#, #, #, (-302852298247679) @ (-44)));
  (1%N, ((-2104643394022157) @ (-48), (-1198290050085015) @ (-47), (-2434448100196599) @ (-48), (-1182499994358963) @ (-47)));
  (2%N, (#, #, #, (-271331332318175) @ (-44)));
  (3%N, (#, #, #, (-3888284818171165) @ (-48)));
  (4%N, ((-2386094079670217) @ (-48), (-8402076217493959) @ (-50), (-8684094981260661) @ (-50), (-2452456981141359) @ (-48)));
  (5%N, (#, #, #, (-8205616343142647) @ (-49)));
  (6%N, ((-8555578965318947) @ (-50), (-2351187152081241) @ (-48), (-8671330044319423) @ (-50), (-1548361994708915) @ (-48)));
  (7%N, ((-8555578965318947) @ (-50), (-2351187152081241) @ (-48), (-8671330044319423) @ (-50), (-4650533185457697) @ (-48)));
  (8%N, ((-7176430689017967) @ (-50), (-4892270644430083) @ (-49), (-5567048316267463) @ (-49), (-4297911758076491) @ (-48)));
  (9%N, ((-727716030660657) @ (-46), (-5957384491968179) @ (-49), (-5424330007936263) @ (-49), (-6437004250969885) @ (-49)));
  (10%N, ((-2398502360872213) @ (-48), (-5169859104615203) @ (-49), (-2658959720943377) @ (-48), (-2685032055114269) @ (-48)));
  (11%N, ((-2280754976026969) @ (-48), (-5217345231403553) @ (-49), (-2146956065995973) @ (-47), (-4297911758076491) @ (-48)));
  (12%N, (#, #, #, (-7145732875094951) @ (-49)));
  (13%N, ((-7004446854845503) @ (-50), (-8350465723774731) @ (-50), (-7653055521821117) @ (-50), (-2864746846982121) @ (-49)));
  (14%N, ((-8220661917194735) @ (-50), (-3576103879187259) @ (-49), (-3664207618596083) @ (-49), (-4650533185457697) @ (-48)));
  (15%N, ((-6525096836373313) @ (-50), (-1434167158893831) @ (-48), (-4147799837396635) @ (-49), (-7034055590404231) @ (-50)));
  (16%N, (#, #, #, (-8130444851884389) @ (-49)));
  (17%N, ((-8060042629157767) @ (-50), (-7701389454459307) @ (-50), (-1888440857222403) @ (-48), (-4170591512966531) @ (-49)));
  (19%N, (#, #, #, (-7658507473194481) @ (-49)));
  (20%N, ((-2707608654855269) @ (-48), (-6058377868527773) @ (-50), (-4023753221559063) @ (-49), (-1263198698153409) @ (-47)));
  (21%N, ((-4331497877621075) @ (-48), (-3817185134677383) @ (-48), #, (-7121773942140261) @ (-49)));
  (22%N, ((-2529718508182939) @ (-48), (-5721755232269813) @ (-49), (-5357060825524945) @ (-49), (-2592138487954771) @ (-48)));
  (23%N, (#, #, #, (-8166776809352665) @ (-49)));
  (24%N, ((-5745910946965899) @ (-49), (-666182398595129) @ (-46), (-5308700851836639) @ (-49), (-181524368474303) @ (-44)));
  (25%N, (#, #, #, (-2130163006223681) @ (-47)));
  (26%N, ((-8828854054628747) @ (-50), (-2365040164481987) @ (-48), (-4738597088791151) @ (-49), (-4849661431299727) @ (-49)));
  (27%N, (#, #, #, (-4650533185457697) @ (-48)));
  (28%N, (#, #, #, (-302852298247679) @ (-44)));
  (29%N, ((-5571339365712421) @ (-49), (-5223356958517717) @ (-49), (-5671134924605831) @ (-49), (-22097751748369) @ (-41)));
  (30%N, (#, #, #, (-8166776809352665) @ (-49)));
  (31%N, (#, #, #, (-2130163006223681) @ (-47)));
  (33%N, (#, #, #, (-70881326618687) @ (-42)));
  (34%N, (#, #, #, (-8205616343142647) @ (-49)));
  (35%N, (#, #, #, (-4650533185457697) @ (-48)));
  (36%N, ((-4534240387706655) @ (-49), (-5683334404303091) @ (-49), (-6709452313868769) @ (-49), (-164493203018257) @ (-44)));
  (37%N, ((-4331497877621075) @ (-48), #, #, (-3888284818171165) @ (-48)));
  (39%N, ((-878374446492819) @ (-46), (-5923442983753829) @ (-49), (-6083532177352997) @ (-49), (-3233672435585285) @ (-48)));
  (40%N, (#, #, #, (-8292395461171265) @ (-49)));
  (41%N, (#, #, #, (-4650533185457697) @ (-48)));
  (42%N, (#, #, #, (-7926147221115621) @ (-49)));
  (43%N, (#, #, #, (-302852298247679) @ (-44)));
  (44%N, (#, #, (-708448208275933) @ (-46), (-7951171338784367) @ (-49)));
  (45%N, (#, #, #, (-4650533185457697) @ (-48)));
  (46%N, (#, #, #, (-8395033373076123) @ (-49)));
  (47%N, (#, #, #, (-3267743765907651) @ (-48)));
  (48%N, (#, #, #, (-1848956007451337) @ (-47)));
  (49%N, ((-1000842543197703) @ (-47), (-2239867624583659) @ (-48), (-4636248601611381) @ (-49), (-1322224813525419) @ (-48)));
  (51%N, (#, #, #, (-70881326618687) @ (-42)));
  (52%N, ((-1417093114680817) @ (-47), (-4240545284906009) @ (-48), #, (-7245928484021955) @ (-49)));
  (53%N, (#, #, #, (-4650533185457697) @ (-48)));
  (54%N, (#, #, #, (-271331332318175) @ (-44)));
  (55%N, ((-1417093114680817) @ (-47), (-4240545284906009) @ (-48), #, (-7245928484021955) @ (-49)));
  (56%N, ((-2554829500972869) @ (-48), (-5926445390622239) @ (-49), (-2724955590055423) @ (-48), (-5287628647818929) @ (-49)));
  (57%N, ((-5121604164247915) @ (-49), (-6680397687276859) @ (-49), (-3140286215885321) @ (-48), (-6175028031233341) @ (-49)));
  (58%N, ((-5530141207370051) @ (-49), (-6262177274778075) @ (-49), (-4989376964471541) @ (-49), (-5882246233318017) @ (-49)));
  (59%N, (#, (-7310469050781013) @ (-49), #, (-456223959081461) @ (-45)));
  (60%N, ((-1220764651093627) @ (-47), (-1782438520939337) @ (-48), (-4714078604013773) @ (-49), (-5219121713330541) @ (-49)));
  (61%N, ((-8533621391481445) @ (-50), (-4769922170680787) @ (-49), (-313095724859363) @ (-45), (-8999529158504001) @ (-50)));
  (62%N, ((-5293327150582765) @ (-49), (-4887020543226127) @ (-49), (-323893317852365) @ (-45), (-5203368325730225) @ (-49)));
  (63%N, ((-2927089656735573) @ (-48), (-5079390697548431) @ (-49), (-5953976796530481) @ (-49), (-5480802161211847) @ (-49)));
  (64%N, ((-1118252327313009) @ (-47), (-663749023946679) @ (-46), (-3986887497109537) @ (-49), (-2510998982728571) @ (-48)));
  (65%N, ((-5703707997922649) @ (-49), (-6000328174823807) @ (-49), (-1498484575923297) @ (-47), (-1508903780562939) @ (-47)));
  (66%N, ((-2530520431735933) @ (-48), (-2439735194383851) @ (-48), (-8172785262999415) @ (-50), (-2387303249765359) @ (-48)));
  (67%N, (#, #, #, (-4170689255897351) @ (-48)));
  (68%N, (#, #, #, (-70881326618687) @ (-42)));
  (69%N, ((-8411169405967419) @ (-50), (-3951466272144429) @ (-49), (-4570565344659441) @ (-49), (-4566126180399785) @ (-49)));
  (70%N, ((-5825879047156935) @ (-49), (-4976975691983219) @ (-49), (-8972608036039205) @ (-50), (-1195683558379695) @ (-47)));
  (71%N, (#, #, #, (-70881326618687) @ (-42)));
  (72%N, ((-5010999206541271) @ (-49), (-712650916567559) @ (-46), (-5487740630263001) @ (-49), (-6097678781153141) @ (-49)));
  (73%N, ((-4260759154773655) @ (-48), (-4240545284906009) @ (-48), (-6188148825753519) @ (-49), (-3879055303555717) @ (-48)));
  (74%N, ((-5825879047156935) @ (-49), (-4976975691983219) @ (-49), (-8972608036039205) @ (-50), (-1195683558379695) @ (-47)));
  (75%N, ((-2359689437440927) @ (-48), (-5751843688180203) @ (-49), (-4932804953016317) @ (-49), (-5229196247650567) @ (-49)));
  (76%N, (#, #, #, (-7643494584741751) @ (-49)));
  (77%N, ((-2554829500972869) @ (-48), (-5926445390622239) @ (-49), (-2724955590055423) @ (-48), (-7835882333724349) @ (-49)));
  (78%N, ((-4204275375441935) @ (-48), (-8090883396801683) @ (-49), (-3442027008155403) @ (-48), (-192732576571671) @ (-44)));
  (79%N, ((-5449110587484677) @ (-49), (-3115151835519143) @ (-48), (-1416014661217019) @ (-47), (-5835591999137745) @ (-49)));
  (80%N, (#, #, (-7654324845498021) @ (-49), (-1930728693765227) @ (-47)));
  (81%N, (#, (-5874709523005207) @ (-49), (-5895645703500781) @ (-49), (-3156388658957765) @ (-48)));
  (83%N, (#, #, #, (-302852298247679) @ (-44)));
  (85%N, ((-2161664849424639) @ (-48), (-8323161810008979) @ (-50), (-6731696283924227) @ (-50), (-5423431825391303) @ (-49)));
  (86%N, (#, #, #, (-302852298247679) @ (-44)));
  (88%N, (#, #, #, (-70881326618687) @ (-42)));
  (89%N, (#, #, #, (-7170756992763697) @ (-49)));
  (91%N, (#, #, #, (-302852298247679) @ (-44)));
  (92%N, ((-4260759154773655) @ (-48), (-4240545284906009) @ (-48), (-6188148825753519) @ (-49), (-3879055303555717) @ (-48)));
  (93%N, (#, #, #, (-4650533185457697) @ (-48)));
  (94%N, ((-2311715553005827) @ (-48), (-4848909911439557) @ (-49), (-8418632534531647) @ (-50), (-7936382518940727) @ (-50)));
  (95%N, (#, #, #, (-70881326618687) @ (-42)));
  (96%N, ((-5366883289359861) @ (-49), (-2853646668628891) @ (-48), (-7298665317991735) @ (-49), (-6629907050266015) @ (-49)));
  (97%N, ((-2948708458071029) @ (-48), (-3227991900135919) @ (-48), (-1638764548313161) @ (-47), (-5722895859385797) @ (-49)));
  (98%N, ((-2948708458071029) @ (-48), (-3227991900135919) @ (-48), (-1638764548313161) @ (-47), (-5722895859385797) @ (-49)));
  (99%N, (#, #, (-4426206392587813) @ (-48), (-8292395461171265) @ (-49)));
  (100%N, ((-2530520431735933) @ (-48), (-2439735194383851) @ (-48), (-8172785262999415) @ (-50), (-2387303249765359) @ (-48)));
  (101%N, ((-2692456169804911) @ (-48), (-5575185276940065) @ (-49), (-6301998060326893) @ (-49), (-6451078732881897) @ (-49)));
  (102%N, (#, #, #, (-2130163006223681) @ (-47)));
  (103%N, (#, #, #, (-70881326618687) @ (-42)));
  (104%N, (#, #, #, (-2130163006223681) @ (-47)));
  (106%N, (#, #, #, (-271331332318175) @ (-44)));
  (107%N, (#, #, #, (-4392620273043229) @ (-48)));
  (108%N, ((-2311715553005827) @ (-48), (-4848909911439557) @ (-49), (-8418632534531647) @ (-50), (-2061833855653683) @ (-47)));
  (109%N, (#, #, #, (-8033701757752085) @ (-49)));
  (110%N, (#, #, #, (-302852298247679) @ (-44)));
  (111%N, ((-5638474285036567) @ (-49), (-3115151835519143) @ (-48), (-3165948117006797) @ (-48), (-5912215163435265) @ (-49)));
  (113%N, ((-3609220179200527) @ (-49), (-807518546893197) @ (-47), (-6961713764059629) @ (-50), (-1006096577087021) @ (-47)));
  (114%N, (#, #, #, (-302852298247679) @ (-44)));
  (115%N, (#, #, #, (-4048158111928321) @ (-48)));
  (116%N, (#, #, #, (-302852298247679) @ (-44)));
  (118%N, (#, #, #, (-302852298247679) @ (-44)));
  (120%N, (#, #, #, (-1853809505254573) @ (-47)));
  (121%N, ((-6887476215016351) @ (-49), (-3383588402652739) @ (-48), (-7579153354239763) @ (-49), (-7795654513279065) @ (-49)));
  (122%N, (#, (-3982632372491541) @ (-48), #, (-8205616343142647) @ (-49)));
  (123%N, (#, #, #, (-3630371905756697) @ (-48)));
  (124%N, (#, #, #, (-5222928828433101) @ (-49)));
  (125%N, (#, #, #, (-5003861282180615) @ (-49)));
  (126%N, (#, #, (-609902861438431) @ (-45), (-5178301994940979) @ (-49)));
  (127%N, (#, (-428372245208381) @ (-45), (-5555655473915359) @ (-49), (-3396745883983567) @ (-48)));
  (128%N, (#, #, #, (-1425213538034799) @ (-47)));
  (129%N, ((-1407672220017317) @ (-47), (-2973961462747413) @ (-48), (-8991473962154527) @ (-50), (-4417014156706077) @ (-49)));
  (130%N, ((-2723756404908859) @ (-48), (-7106171420012245) @ (-49), (-8131311136536975) @ (-49), (-313516157995601) @ (-45)));
  (131%N, (#, #, #, (-682067335506235) @ (-46)));
  (132%N, (#, #, #, (-5836787222417767) @ (-49)));
  (133%N, (#, #, #, (-4650533185457697) @ (-48)));
  (134%N, (#, #, #, (-302852298247679) @ (-44)));
  (136%N, (#, #, #, (-4297911758076491) @ (-48)));
  (137%N, (#, #, #, (-302852298247679) @ (-44)));
  (138%N, (#, #, (-2146956065995973) @ (-47), #));
  (139%N, (#, #, #, (-1608384983157857) @ (-47)));
  (140%N, ((-1839692586196131) @ (-47), (-101243867878125) @ (-43), #, (-8166776809352665) @ (-49)));
  (141%N, (#, #, #, (-271331332318175) @ (-44)));
  (144%N, ((-7244363015634439) @ (-49), (-6657876686019473) @ (-49), (-222100499235933) @ (-44), (-1777541578842475) @ (-47)));
  (145%N, ((-5808950802684291) @ (-49), (-3460130938885339) @ (-48), (-6709452313868769) @ (-49), (-1848956007451337) @ (-47)));
  (148%N, ((-6366184813726867) @ (-49), (-1539430114996847) @ (-47), (-6399803754120501) @ (-49), (-409385306142705) @ (-45)));
  (149%N, (#, #, #, (-8910859197905059) @ (-49)));
  (150%N, (#, (-7106171420012245) @ (-49), (-6619465495119071) @ (-49), (-302852298247679) @ (-44)));
  (151%N, ((-5292922877708355) @ (-49), (-1132268634389773) @ (-47), (-153745189041177) @ (-44), (-4845635550351145) @ (-49)));
  (152%N, ((-8131311136536975) @ (-49), #, (-4331497877621075) @ (-48), (-6503310205406467) @ (-49)));
  (153%N, (#, (-7575057571972747) @ (-49), (-609902861438431) @ (-45), (-8395033373076123) @ (-49)));
  (154%N, ((-985322676152685) @ (-46), (-5442195128431935) @ (-49), (-5959231910102821) @ (-49), (-7358896042685395) @ (-49)));
  (155%N, ((-2522927706256745) @ (-48), (-2351016094660777) @ (-48), (-4291369002748435) @ (-49), (-1183424381842155) @ (-47)));
  (156%N, (#, #, #, (-7600718321947853) @ (-49)));
  (161%N, ((-6179298775224113) @ (-49), (-4396555799926839) @ (-49), (-5168842009768139) @ (-49), (-5944593708687941) @ (-49)));
  (162%N, ((-8978031436994227) @ (-49), (-491414177067389) @ (-45), (-571248877892569) @ (-45), (-6878093127173811) @ (-49)));
  (163%N, ((-609902861438431) @ (-45), #, #, (-6837734159388757) @ (-49)));
  (164%N, (#, #, #, (-4392620273043229) @ (-48)));
  (166%N, (#, #, #, (-302852298247679) @ (-44)));
  (167%N, (#, #, #, (-2130163006223681) @ (-47)));
  (169%N, ((-1233788646571027) @ (-47), (-2474887375579617) @ (-48), (-4604557480032217) @ (-49), (-2654971278911537) @ (-48)));
  (170%N, (#, #, #, (-472560260360877) @ (-45)));
  (171%N, ((-7924300488693565) @ (-49), (-1796212599740603) @ (-47), (-8131311136536975) @ (-49), (-855160738236529) @ (-46)));
  (172%N, ((-7453534702421163) @ (-49), (-1925169055947837) @ (-47), #, (-1664373966160355) @ (-47)));
  (173%N, ((-5848729610181805) @ (-49), (-5177765835060077) @ (-49), (-4663982557848837) @ (-49), (-5145650223223517) @ (-49)));
  (175%N, (#, #, #, (-302852298247679) @ (-44)));
  (177%N, ((-1870602565026865) @ (-47), (-6886133249742931) @ (-49), (-6835070965687369) @ (-49), (-708002892317889) @ (-46)));
  (178%N, (#, #, #, (-302852298247679) @ (-44)));
  (179%N, ((-4782538579324289) @ (-49), (-4642993167177507) @ (-49), (-2553737241252579) @ (-48), (-712665532063969) @ (-46)));
  (180%N, (#, #, #, (-4650533185457697) @ (-48)));
  (181%N, (#, #, (-609902861438431) @ (-45), (-943539134077359) @ (-46)));
  (182%N, (#, #, #, (-70881326618687) @ (-42)));
  (183%N, ((-856769480328013) @ (-46), (-874429171128617) @ (-46), (-3632058836243843) @ (-48), (-7025030848007957) @ (-49)));
  (184%N, ((-5652076422142779) @ (-49), (-4757331101282551) @ (-49), (-4415488996981165) @ (-49), (-2716931244171707) @ (-48)));
  (185%N, (#, #, #, (-302852298247679) @ (-44)));
  (186%N, (#, #, #, (-70881326618687) @ (-42)));
  (187%N, (#, #, #, (-302852298247679) @ (-44)));
  (188%N, (#, #, #, (-4297911758076491) @ (-48)));
  (189%N, (#, #, (-8462205612165291) @ (-49), (-7951171338784367) @ (-49)));
  (190%N, (#, #, #, (-8395033373076123) @ (-49)));
  (191%N, ((-3912641423100301) @ (-48), #, (-609902861438431) @ (-45), (-302852298247679) @ (-44)));
  (193%N, (#, (-3982632372491541) @ (-48), (-3855333411915459) @ (-48), (-815400562512599) @ (-46)));
  (194%N, (#, #, #, (-70881326618687) @ (-42)));
  (195%N, (#, #, #, (-302852298247679) @ (-44)));
  (196%N, ((-4684119305002281) @ (-48), #, (-571248877892569) @ (-45), (-7489000375236853) @ (-49)));
  (197%N, (#, #, #, (-4392620273043229) @ (-48)));
  (198%N, (#, #, #, (-8910859197905059) @ (-49)));
  (199%N, (#, #, #, (-855160738236529) @ (-46)));
  (200%N, (#, #, #, (-302852298247679) @ (-44)));
  (202%N, (#, #, #, (-302852298247679) @ (-44)));
  (203%N, (#, (-3817185134677383) @ (-48), (-3551083531600405) @ (-48), (-7587152606408853) @ (-49)));
  (205%N, (#, #, #, (-4650533185457697) @ (-48)));
  (206%N, (#, #, #, (-4650533185457697) @ (-48)));
  (207%N, (#, #, #, (-302852298247679) @ (-44)));
  (208%N, (#, #, #, (-302852298247679) @ (-44)));
  (209%N, (#, #, #, (-302852298247679) @ (-44)));
  (210%N, ((-609902861438431) @ (-45), (-6869814717210335) @ (-49), (-6761857563197751) @ (-49), (-7587152606408853) @ (-49)));
  (212%N, (#, #, #, (-302852298247679) @ (-44)));
  (213%N, (#, #, #, (-302852298247679) @ (-44)));
  (214%N, (#, #, #, (-70881326618687) @ (-42)));
  (215%N, (#, #, #, (-8910859197905059) @ (-49)));
  (216%N, (#, #, #, (-4297911758076491) @ (-48)));
  (217%N, (#, (-7082212487057555) @ (-49), (-777206336917297) @ (-46), (-405138068737789) @ (-45)));
  (218%N, (#, #, #, (-8910859197905059) @ (-49)));
  (219%N, (#, #, #, (-4392620273043229) @ (-48)));
  (220%N, (#, #, #, (-70881326618687) @ (-42)));
  (221%N, (#, #, #, (-8910859197905059) @ (-49)));
  (222%N, (#, #, #, (-204825927845465) @ (-44)));
  (223%N, (#, #, #, (-4650533185457697) @ (-48)));
  (225%N, ((-5850358988897931) @ (-49), (-4905368735276811) @ (-49), (-4808680387259165) @ (-49), (-85833401198329) @ (-43)));
  (227%N, (#, #, #, (-6521183133643847) @ (-49)));
  (228%N, ((-609902861438431) @ (-45), (-491414177067389) @ (-45), (-3420680487369323) @ (-48), (-3728098948061275) @ (-48)));
  (229%N, ((-3704237331932315) @ (-48), (-6886133249742931) @ (-49), (-3470737221580077) @ (-48), (-7835882333724349) @ (-49)));
  (230%N, (#, (-7244163096344431) @ (-49), (-206992078249649) @ (-44), (-3662121014844325) @ (-48)));
  (231%N, (#, #, #, (-302852298247679) @ (-44)));
  (232%N, ((-2975358544396279) @ (-48), (-8090883396801683) @ (-49), (-791008870599809) @ (-46), (-6344299289240549) @ (-49)));
  (233%N, (#, #, #, (-70881326618687) @ (-42)));
  (234%N, ((-7924300488693565) @ (-49), (-5938617755731305) @ (-49), (-6887476215016351) @ (-49), (-3365783384564963) @ (-48)));
  (235%N, (#, #, #, (-4392620273043229) @ (-48)));
  (237%N, ((-3163400814764593) @ (-48), (-6425952682918579) @ (-49), (-6417397372030435) @ (-49), (-6848457339860269) @ (-49)));
  (238%N, (#, #, #, (-302852298247679) @ (-44)));
  (239%N, (#, #, #, (-4297911758076491) @ (-48)));
  (240%N, ((-2986632311820945) @ (-48), (-2337168903782483) @ (-48), (-8433051750680139) @ (-50), (-5344291222837227) @ (-49)));
  (241%N, (#, #, #, (-4227173035229071) @ (-48)));
  (244%N, ((-8131311136536975) @ (-49), #, (-4331497877621075) @ (-48), (-6503310205406467) @ (-49)));
  (245%N, (#, #, #, (-4392620273043229) @ (-48)));
  (246%N, ((-2522927706256745) @ (-48), (-2351016094660777) @ (-48), (-4291369002748435) @ (-49), (-4650533185457697) @ (-48)));
  (248%N, (#, #, #, (-2130163006223681) @ (-47)));
  (249%N, (#, #, #, (-8910859197905059) @ (-49)));
  (250%N, (#, #, #, (-8395033373076123) @ (-49)));
  (251%N, ((-454428729292475) @ (-45), (-2896526770532699) @ (-48), (-5479518097455745) @ (-49), (-1617756073932301) @ (-47)));
  (252%N, (#, #, #, (-70881326618687) @ (-42)));
  (253%N, ((-5850358988897931) @ (-49), (-4905368735276811) @ (-49), (-4808680387259165) @ (-49), (-302852298247679) @ (-44)));
  (255%N, (#, #, #, (-302852298247679) @ (-44)))].

(** prob_emit.py, characters 0x5d00 to 0x5dff *)
Definition emit_5d : list (N * num4) := [
  (1%N, (#, #, #, (-4392620273043229) @ (-48)));
  (2%N, ((-7244363015634439) @ (-49), #, #, (-6913411673111127) @ (-49)));
  (3%N, (#, (-3518576224250511) @ (-48), (-1998329865051197) @ (-47), (-440002733528793) @ (-45)));
  (4%N, (#, #, #, (-6440490020332539) @ (-49)));
  (5%N, (#, #, #, (-2130163006223681) @ (-47)));
  (6%N, ((-834728907770341) @ (-46), #, #, (-3879055303555717) @ (-48)));
  (7%N, ((-294230213626193) @ (-45), (-1114842270724631) @ (-47), (-2984945817999611) @ (-48), (-5759227816854073) @ (-49)));
  (8%N, (#, #, #, (-3702723670134365) @ (-48)));
  (9%N, (#, #, #, (-7587152606408853) @ (-49)));
  (10%N, (#, #, #, (-271331332318175) @ (-44)));
  (11%N, (#, #, #, (-7104451038327115) @ (-49)));
  (12%N, (#, #, #, (-3951094144080465) @ (-48)));
  (13%N, (#, (-3518576224250511) @ (-48), (-1998329865051197) @ (-47), (-440002733528793) @ (-45)));
  (14%N, ((-3278481635527623) @ (-48), (-5112433919323065) @ (-49), (-3363622269110247) @ (-48), (-1853809505254573) @ (-47)));
  (15%N, (#, #, #, (-7523833130877875) @ (-49)));
  (16%N, (#, #, #, (-7139646870377641) @ (-49)));
  (17%N, (#, #, (-609902861438431) @ (-45), (-2001206550016447) @ (-47)));
  (18%N, (#, #, #, (-8205616343142647) @ (-49)));
  (19%N, (#, #, #, (-8910859197905059) @ (-49)));
  (20%N, ((-2583935144619515) @ (-48), (-3478296917619477) @ (-48), (-4331497877621075) @ (-48), (-6089184823567291) @ (-49)));
  (21%N, (#, #, #, (-1994339944854797) @ (-47)));
  (22%N, ((-6717008802539521) @ (-49), (-5767513286977053) @ (-49), (-5725502330751497) @ (-49), (-2833999239195069) @ (-48)));
  (23%N, ((-5292922877708355) @ (-49), (-1132268634389773) @ (-47), (-153745189041177) @ (-44), (-7951171338784367) @ (-49)));
  (24%N, (#, #, #, (-70881326618687) @ (-42)));
  (25%N, (#, (-2627665581943787) @ (-48), (-1415819463559715) @ (-47), (-4297911758076491) @ (-48)));
  (26%N, (#, #, #, (-405138068737789) @ (-45)));
  (27%N, ((-1501499861142023) @ (-47), (-8871297742822353) @ (-49), (-4081744231472905) @ (-48), (-3612205927022559) @ (-48)));
  (28%N, (#, #, #, (-4227173035229071) @ (-48)));
  (30%N, (#, #, #, (-3951094144080465) @ (-48)));
  (31%N, (#, (-4240545284906009) @ (-48), (-609902861438431) @ (-45), (-1893476528496951) @ (-47)));
  (32%N, (#, #, #, (-3951094144080465) @ (-48)));
  (33%N, (#, #, #, (-7307683484381827) @ (-49)));
  (34%N, ((-3704237331932315) @ (-48), (-6886133249742931) @ (-49), (-3470737221580077) @ (-48), (-7835882333724349) @ (-49)));
  (35%N, (#, #, #, (-302852298247679) @ (-44)));
  (36%N, ((-609902861438431) @ (-45), #, #, (-456223959081461) @ (-45)));
  (37%N, (#, #, #, (-4392620273043229) @ (-48)));
  (38%N, ((-609902861438431) @ (-45), #, #, (-8033701757752085) @ (-49)));
  (39%N, (#, #, (-8100873996841253) @ (-49), (-6881909751646441) @ (-49)));
  (40%N, (#, #, #, (-4650533185457697) @ (-48)));
  (41%N, ((-1435016975245427) @ (-47), (-5754055675126033) @ (-49), (-394332816324959) @ (-45), (-6164222518044545) @ (-49)));
  (42%N, (#, #, #, (-8292395461171265) @ (-49)));
  (44%N, (#, #, #, (-4650533185457697) @ (-48)));
  (45%N, ((-6162952367672155) @ (-49), (-3887923857524803) @ (-48), (-4081744231472905) @ (-48), (-3767970024052643) @ (-48)));
  (46%N, ((-4684119305002281) @ (-48), (-6975678712175689) @ (-49), (-7862826752368233) @ (-49), (-7706109050846307) @ (-49)));
  (47%N, (#, #, #, (-2061833855653683) @ (-47)));
  (48%N, (#, #, #, (-3888284818171165) @ (-48)));
  (49%N, (#, #, #, (-7706109050846307) @ (-49)));
  (50%N, (#, #, #, (-7706109050846307) @ (-49)));
  (51%N, (#, #, #, (-7835882333724349) @ (-49)));
  (52%N, (#, (-8252834006088559) @ (-49), (-3663958025301281) @ (-48), (-3670651212387731) @ (-48)));
  (53%N, (#, #, #, (-302852298247679) @ (-44)));
  (56%N, (#, #, #, (-1994339944854797) @ (-47)));
  (57%N, (#, #, #, (-4650533185457697) @ (-48)));
  (59%N, (#, #, #, (-302852298247679) @ (-44)));
  (60%N, (#, #, #, (-7350030505863719) @ (-49)));
  (61%N, ((-1870602565026865) @ (-47), (-1572547628566631) @ (-47), (-1998329865051197) @ (-47), (-7127668759912815) @ (-49)));
  (62%N, (#, #, #, (-1809666128217651) @ (-47)));
  (63%N, (#, #, #, (-302852298247679) @ (-44)));
  (65%N, (#, #, #, (-7065990723112215) @ (-49)));
  (66%N, (#, #, #, (-3951094144080465) @ (-48)));
  (67%N, (#, #, #, (-2130163006223681) @ (-47)));
  (68%N, (#, #, #, (-7951171338784367) @ (-49)));
  (69%N, (#, #, #, (-4650533185457697) @ (-48)));
  (70%N, (#, #, #, (-3728098948061275) @ (-48)));
  (71%N, ((-866281559726281) @ (-46), (-8871297742822353) @ (-49), (-609902861438431) @ (-45), (-4048158111928321) @ (-48)));
  (72%N, (#, #, #, (-850842282548523) @ (-46)));
  (73%N, (#, #, #, (-2130163006223681) @ (-47)));
  (74%N, ((-1839692586196131) @ (-47), #, #, (-7275959601375213) @ (-49)));
  (75%N, (#, (-3817185134677383) @ (-48), (-1550549554213939) @ (-47), (-372361778265675) @ (-45)));
  (76%N, ((-6367546241121769) @ (-49), (-1725734743489383) @ (-47), (-6378557838240453) @ (-49), (-5836787222417767) @ (-49)));
  (77%N, (#, #, #, (-8910859197905059) @ (-49)));
  (78%N, (#, #, #, (-7835882333724349) @ (-49)));
  (79%N, (#, #, #, (-8292395461171265) @ (-49)));
  (80%N, ((-985322676152685) @ (-46), (-5442195128431935) @ (-49), (-5959231910102821) @ (-49), (-4297911758076491) @ (-48)));
  (81%N, (#, #, #, (-4227173035229071) @ (-48)));
  (82%N, (#, #, #, (-3888284818171165) @ (-48)));
  (83%N, (#, #, #, (-70881326618687) @ (-42)));
  (85%N, (#, #, #, (-8395033373076123) @ (-49)));
  (86%N, (#, #, #, (-8910859197905059) @ (-49)));
  (87%N, (#, #, #, (-4650533185457697) @ (-48)));
  (88%N, (#, (-7575057571972747) @ (-49), (-6831952121402971) @ (-49), (-7477852487122849) @ (-49)));
  (89%N, (#, #, #, (-4392620273043229) @ (-48)));
  (90%N, (#, #, #, (-302852298247679) @ (-44)));
  (91%N, (#, (-7575057571972747) @ (-49), #, (-1969801887061797) @ (-47)));
  (92%N, (#, #, #, (-4650533185457697) @ (-48)));
  (93%N, (#, #, (-4684119305002281) @ (-48), (-7628871685880939) @ (-49)));
  (95%N, (#, #, #, (-8910859197905059) @ (-49)));
  (97%N, (#, #, #, (-1994339944854797) @ (-47)));
  (99%N, (#, #, #, (-302852298247679) @ (-44)));
  (102%N, (#, #, #, (-8910859197905059) @ (-49)));
  (103%N, (#, #, #, (-4297911758076491) @ (-48)));
  (104%N, (#, #, #, (-70881326618687) @ (-42)));
  (105%N, ((-3024992404504357) @ (-48), (-761679484000969) @ (-46), (-1474058872183449) @ (-47), (-6761678221831651) @ (-49)));
  (106%N, (#, #, #, (-4392620273043229) @ (-48)));
  (107%N, (#, #, (-609902861438431) @ (-45), (-7835882333724349) @ (-49)));
  (108%N, (#, (-1925169055947837) @ (-47), (-3984680263625049) @ (-48), (-472560260360877) @ (-45)));
  (110%N, (#, #, #, (-1994339944854797) @ (-47)));
  (111%N, ((-3903704958981611) @ (-48), #, #, (-7658507473194481) @ (-49)));
  (112%N, (#, #, #, (-302852298247679) @ (-44)));
  (113%N, (#, #, #, (-302852298247679) @ (-44)));
  (115%N, (#, #, #, (-302852298247679) @ (-44)));
  (116%N, (#, #, #, (-7217418596990555) @ (-49)));
  (117%N, (#, #, #, (-4297911758076491) @ (-48)));
  (118%N, (#, #, #, (-8910859197905059) @ (-49)));
  (119%N, (#, #, #, (-4392620273043229) @ (-48)));
  (120%N, (#, #, #, (-2061833855653683) @ (-47)));
  (121%N, (#, #, #, (-70881326618687) @ (-42)));
  (122%N, (#, #, #, (-8033701757752085) @ (-49)));
  (123%N, (#, #, #, (-70881326618687) @ (-42)));
  (124%N, (#, #, #, (-302852298247679) @ (-44)));
  (125%N, (#, #, #, (-70881326618687) @ (-42)));
  (126%N, (#, #, #, (-4650533185457697) @ (-48)));
  (127%N, (#, #, #, (-2130163006223681) @ (-47)));
  (128%N, (#, #, #, (-70881326618687) @ (-42)));
  (129%N, (#, #, (-4684119305002281) @ (-48), (-7628871685880939) @ (-49)));
  (130%N, ((-609902861438431) @ (-45), #, (-3855333411915459) @ (-48), (-7151885394841985) @ (-49)));
  (131%N, (#, #, #, (-7489000375236853) @ (-49)));
  (132%N, ((-6162952367672155) @ (-49), (-3887923857524803) @ (-48), (-4081744231472905) @ (-48), (-6029684819594483) @ (-49)));
  (133%N, (#, #, #, (-352152736459689) @ (-45)));
  (134%N, (#, #, #, (-5763938722616309) @ (-49)));
  (135%N, (#, (-7106171420012245) @ (-49), (-6619465495119071) @ (-49), (-302852298247679) @ (-44)));
  (136%N, (#, #, #, (-5892059671013653) @ (-49)));
  (137%N, (#, #, #, (-1641308801060919) @ (-47)));
  (138%N, (#, #, #, (-4392620273043229) @ (-48)));
  (139%N, (#, #, #, (-302852298247679) @ (-44)));
  (140%N, (#, (-1925169055947837) @ (-47), #, #));
  (141%N, (#, #, #, (-302852298247679) @ (-44)));
  (142%N, (#, #, #, (-271331332318175) @ (-44)));
  (143%N, (#, #, #, (-6783757520474441) @ (-49)));
  (144%N, (#, #, #, (-8910859197905059) @ (-49)));
  (146%N, (#, #, #, (-4227173035229071) @ (-48)));
  (147%N, (#, #, #, (-8910859197905059) @ (-49)));
  (148%N, (#, #, #, (-8910859197905059) @ (-49)));
  (150%N, (#, #, #, (-4650533185457697) @ (-48)));
  (151%N, ((-7244363015634439) @ (-49), #, #, (-6913411673111127) @ (-49)));
  (152%N, (#, #, #, (-302852298247679) @ (-44)));
  (153%N, ((-7399879841139741) @ (-49), (-841042158939437) @ (-46), #, (-3688528646784237) @ (-48)));
  (154%N, (#, #, #, (-302852298247679) @ (-44)));
  (155%N, (#, #, #, (-2061833855653683) @ (-47)));
  (156%N, (#, #, #, (-4392620273043229) @ (-48)));
  (157%N, (#, #, #, (-4392620273043229) @ (-48)));
  (158%N, (#, #, #, (-4650533185457697) @ (-48)));
  (159%N, (#, #, #, (-70881326618687) @ (-42)));
  (160%N, ((-609902861438431) @ (-45), (-491414177067389) @ (-45), (-3420680487369323) @ (-48), (-3728098948061275) @ (-48)));
  (161%N, (#, #, #, (-4227173035229071) @ (-48)));
  (162%N, (#, #, #, (-6521183133643847) @ (-49)));
  (167%N, ((-4684119305002281) @ (-48), #, (-571248877892569) @ (-45), (-7489000375236853) @ (-49)));
  (168%N, (#, #, #, (-302852298247679) @ (-44)));
  (171%N, (#, #, #, (-4297911758076491) @ (-48)));
  (172%N, (#, #, #, (-302852298247679) @ (-44)));
  (174%N, (#, #, #, (-6440490020332539) @ (-49)));
  (175%N, (#, #, #, (-3281528722710867) @ (-48)));
  (176%N, (#, #, #, (-302852298247679) @ (-44)));
  (178%N, (#, #, #, (-4650533185457697) @ (-48)));
  (179%N, (#, #, #, (-4392620273043229) @ (-48)));
  (180%N, (#, (-7575057571972747) @ (-49), (-609902861438431) @ (-45), (-8395033373076123) @ (-49)));
  (183%N, (#, (-8252834006088559) @ (-49), (-7667890561037021) @ (-49), (-7523833130877875) @ (-49)));
  (184%N, (#, (-7575057571972747) @ (-49), (-6831952121402971) @ (-49), (-7477852487122849) @ (-49)));
  (186%N, ((-5848729610181805) @ (-49), (-5177765835060077) @ (-49), (-4663982557848837) @ (-49), (-5145650223223517) @ (-49)));
  (188%N, (#, (-428372245208381) @ (-45), (-5555655473915359) @ (-49), (-3396745883983567) @ (-48)));
  (189%N, (#, #, #, (-8395033373076123) @ (-49)));
  (194%N, (#, #, #, (-1994339944854797) @ (-47)));
  (196%N, (#, #, #, (-302852298247679) @ (-44)));
  (197%N, ((-6887476215016351) @ (-49), #, (-7040346789497085) @ (-49), (-3422430101659097) @ (-48)));
  (200%N, (#, #, #, (-1969801887061797) @ (-47)));
  (201%N, (#, #, #, (-8166776809352665) @ (-49)));
  (203%N, ((-3912641423100301) @ (-48), #, (-609902861438431) @ (-45), (-302852298247679) @ (-44)));
  (205%N, ((-3084812928816481) @ (-48), (-340779850326561) @ (-45), (-5925297422834119) @ (-49), (-1656258248562015) @ (-47)));
  (206%N, (#, #, #, (-271331332318175) @ (-44)));
  (207%N, (#, #, #, (-302852298247679) @ (-44)));
  (209%N, (#, #, #, (-302852298247679) @ (-44)));
  (210%N, (#, (-7244163096344431) @ (-49), (-206992078249649) @ (-44), (-3662121014844325) @ (-48)));
  (211%N, (#, #, #, (-302852298247679) @ (-44)));
  (212%N, ((-6887476215016351) @ (-49), #, (-7040346789497085) @ (-49), (-4392620273043229) @ (-48)));
  (214%N, (#, #, #, (-8395033373076123) @ (-49)));
  (215%N, (#, #, #, (-302852298247679) @ (-44)));
  (216%N, (#, #, #, (-302852298247679) @ (-44)));
  (217%N, (#, #, #, (-8910859197905059) @ (-49)));
  (219%N, (#, #, #, (-4650533185457697) @ (-48)));
  (220%N, (#, #, #, (-8292395461171265) @ (-49)));
  (221%N, ((-2788835164313873) @ (-48), (-1041216046776569) @ (-47), (-2256481679545373) @ (-48), (-2749281153864621) @ (-48)));
  (222%N, ((-5152861659058357) @ (-49), (-7201015429844875) @ (-50), (-3576321354678089) @ (-49), (-8486902037795211) @ (-50)));
  (223%N, (#, #, #, (-8033701757752085) @ (-49)));
  (225%N, ((-2435735444588677) @ (-48), (-384016428008523) @ (-45), (-1601766931317963) @ (-47), (-5922570144905195) @ (-49)));
  (226%N, ((-1529145404625977) @ (-47), (-5941702420728275) @ (-49), (-2949300414076189) @ (-48), (-376488521127863) @ (-45)));
  (227%N, (#, #, #, (-302852298247679) @ (-44)));
  (228%N, (#, #, #, (-302852298247679) @ (-44)));
  (229%N, ((-2975848562773383) @ (-49), (-3407744863892211) @ (-49), (-7491285304230335) @ (-50), (-315957932332755) @ (-45)));
  (230%N, ((-8041416825411331) @ (-50), (-2582194867594879) @ (-48), (-6363471796652225) @ (-49), (-8732664696368959) @ (-50)));
  (231%N, ((-5229182235089497) @ (-49), (-4825432148138045) @ (-49), (-1243967543743941) @ (-47), (-5691995957680111) @ (-49)));
  (232%N, ((-2190130477290219) @ (-48), (-5283437664140847) @ (-49), (-3106744192334589) @ (-48), (-1352104734234643) @ (-47)));
  (233%N, ((-2685755467628925) @ (-48), (-3760701355345663) @ (-48), (-1709551796309617) @ (-47), (-6796774284284499) @ (-49)));
  (235%N, ((-718295366763317) @ (-46), (-3318111047509587) @ (-48), (-7206819109466809) @ (-49), (-3288126094492297) @ (-48)));
  (238%N, ((-8851314505229715) @ (-50), (-2603174056632069) @ (-48), (-2370660522746687) @ (-48), (-1171759459830629) @ (-47)));
  (239%N, ((-8131311136536975) @ (-49), #, (-609902861438431) @ (-45), (-8166776809352665) @ (-49)));
  (240%N, ((-8131311136536975) @ (-49), #, (-609902861438431) @ (-45), (-4297911758076491) @ (-48)));
  (241%N, ((-6178323969866389) @ (-49), (-324825485351409) @ (-45), (-3323560807204777) @ (-49), (-5415450629078059) @ (-49)));
  (242%N, ((-1788486458598457) @ (-48), (-1291486749366183) @ (-47), (-2226739397415531) @ (-48), (-6780075296614231) @ (-50)));
  (243%N, ((-571248877892569) @ (-45), (-1725734743489383) @ (-47), (-1839692586196131) @ (-47), (-6408215574980407) @ (-49)));
  (244%N, ((-4188197020421905) @ (-49), (-7753694545996737) @ (-50), (-4668496271080013) @ (-49), (-4909388672112423) @ (-49)));
  (245%N, (#, #, #, (-8910859197905059) @ (-49)));
  (246%N, (#, #, #, (-1930728693765227) @ (-47)));
  (247%N, ((-1533353447885147) @ (-47), (-3172210053778219) @ (-48), (-1353867114619555) @ (-47), (-6108237401817685) @ (-49)));
  (249%N, (#, #, #, (-2130163006223681) @ (-47)));
  (250%N, (#, #, #, (-4392620273043229) @ (-48)));
  (251%N, (#, (-1925169055947837) @ (-47), #, (-3722837580357007) @ (-48)));
  (252%N, (#, #, #, (-1969801887061797) @ (-47)));
  (253%N, ((-2011133004627089) @ (-47), (-1796212599740603) @ (-47), (-2011133004627089) @ (-47), (-3444810757719897) @ (-48)));
  (254%N, ((-1765831882352707) @ (-47), (-5751843688180203) @ (-49), (-2788835164313873) @ (-48), (-6054670632227769) @ (-49)));
  (255%N, (#, #, #, (-3634150150092073) @ (-48)))].

(** prob_emit.py, characters 0x5e00 to 0x5eff *)
Definition emit_5e : list (N * num4) := [
  (0%N, (#, #, #, (-3176605805923435) @ (-48)));
  (1%N, ((-1658101860833211) @ (-47), (-74930906683829) @ (-43), (-1100916553435483) @ (-47), (-6099583858955743) @ (-49)));
  (2%N, ((-7214771112846035) @ (-50), (-3999826753564109) @ (-49), (-1533003854792107) @ (-48), (-232744850326617) @ (-45)));
  (3%N, ((-8484993613627605) @ (-50), (-463138928616533) @ (-46), (-1849792196995555) @ (-48), (-2458171526375087) @ (-48)));
  (5%N, ((-3045911597727263) @ (-48), (-5528762012733847) @ (-49), (-2436501102936913) @ (-48), (-2965850580774743) @ (-48)));
  (6%N, ((-6235692105890311) @ (-49), (-348956799615839) @ (-45), (-5400594410849727) @ (-49), (-768809807031151) @ (-46)));
  (7%N, (#, #, #, (-6774188735649479) @ (-49)));
  (8%N, ((-247627848939761) @ (-45), (-3982986355335551) @ (-49), (-7582123592775011) @ (-50), (-1098661676898643) @ (-47)));
  (9%N, (#, #, #, (-7367903434101099) @ (-49)));
  (12%N, ((-8441744612823101) @ (-50), (-8460300549184055) @ (-50), (-5483756134686673) @ (-49), (-2795141975256317) @ (-48)));
  (13%N, (#, #, #, (-4170689255897351) @ (-48)));
  (14%N, (#, #, #, (-4227173035229071) @ (-48)));
  (15%N, ((-546860929579423) @ (-45), #, #, (-943539134077359) @ (-46)));
  (16%N, ((-2842780027145369) @ (-48), (-3982632372491541) @ (-48), (-5953323343232013) @ (-49), (-5117616564926567) @ (-49)));
  (17%N, (#, #, (-8131311136536975) @ (-49), (-1822899526423839) @ (-47)));
  (19%N, (#, #, #, (-1853809505254573) @ (-47)));
  (20%N, (#, #, (-3855333411915459) @ (-48), (-3951094144080465) @ (-48)));
  (21%N, ((-2708237087750185) @ (-48), (-5236459565965863) @ (-49), (-2972770250510405) @ (-48), (-1507210677576857) @ (-47)));
  (22%N, ((-6545628325304225) @ (-49), (-3260663311836043) @ (-48), (-2956502725396995) @ (-48), (-2781574289769725) @ (-48)));
  (23%N, (#, #, #, (-4650533185457697) @ (-48)));
  (24%N, ((-6478699293932513) @ (-49), (-5481762928757405) @ (-49), (-5995343922284681) @ (-49), (-3089704493416357) @ (-48)));
  (25%N, (#, (-7082212487057555) @ (-49), (-8233949048441833) @ (-49), (-855160738236529) @ (-46)));
  (26%N, (#, (-3736209830033945) @ (-48), (-412537118574835) @ (-45), (-1749038822580415) @ (-47)));
  (27%N, ((-454428729292475) @ (-45), (-6886133249742931) @ (-49), (-3301329885452235) @ (-48), (-1625339725946889) @ (-47)));
  (28%N, (#, (-784151982854103) @ (-46), (-5547021593382297) @ (-49), (-1652074660613093) @ (-47)));
  (29%N, ((-8855130824722199) @ (-50), (-8984165340998781) @ (-50), (-7768955993430935) @ (-50), (-1264392660676823) @ (-47)));
  (30%N, (#, #, #, (-70881326618687) @ (-42)));
  (32%N, (#, #, #, (-4650533185457697) @ (-48)));
  (33%N, (#, #, #, (-70881326618687) @ (-42)));
  (36%N, (#, #, #, (-7835882333724349) @ (-49)));
  (37%N, ((-3045911597727263) @ (-48), (-5528762012733847) @ (-49), (-2436501102936913) @ (-48), (-2965850580774743) @ (-48)));
  (38%N, ((-8450929763906705) @ (-50), (-4825006477075479) @ (-49), (-4086321544480345) @ (-49), (-7948437376739823) @ (-50)));
  (39%N, ((-2146956065995973) @ (-47), (-4240545284906009) @ (-48), (-7143886142672895) @ (-49), (-6474727927202407) @ (-49)));
  (40%N, (#, #, #, (-4650533185457697) @ (-48)));
  (41%N, (#, #, #, (-302852298247679) @ (-44)));
  (43%N, ((-247627848939761) @ (-45), (-3982986355335551) @ (-49), (-7582123592775011) @ (-50), (-1742172217418765) @ (-47)));
  (44%N, (#, #, #, (-4297911758076491) @ (-48)));
  (45%N, ((-5648644952269285) @ (-49), (-8549533508793439) @ (-50), (-7915648628179481) @ (-50), (-5548620032468589) @ (-49)));
  (46%N, ((-4422505639904727) @ (-49), (-1231083788804153) @ (-47), (-5084406537889293) @ (-49), (-4749428663551155) @ (-49)));
  (47%N, (#, #, #, (-4650533185457697) @ (-48)));
  (48%N, (#, #, #, (-8166776809352665) @ (-49)));
  (49%N, (#, #, #, (-302852298247679) @ (-44)));
  (50%N, (#, #, #, (-70881326618687) @ (-42)));
  (51%N, ((-2842780027145369) @ (-48), (-3982632372491541) @ (-48), (-5953323343232013) @ (-49), (-70881326618687) @ (-42)));
  (52%N, (#, #, #, (-6909376172293041) @ (-49)));
  (53%N, (#, #, #, (-302852298247679) @ (-44)));
  (54%N, ((-8450929763906705) @ (-50), (-4825006477075479) @ (-49), (-4086321544480345) @ (-49), (-7948437376739823) @ (-50)));
  (55%N, ((-6415910052926391) @ (-49), (-3181861569937047) @ (-48), (-8359567700260433) @ (-49), (-6678445256967907) @ (-49)));
  (56%N, ((-3824024167410635) @ (-49), (-3100812802962257) @ (-49), (-7162105401786701) @ (-50), (-8713598160728801) @ (-50)));
  (57%N, (#, #, #, (-3767970024052643) @ (-48)));
  (58%N, (#, #, #, (-7367903434101099) @ (-49)));
  (59%N, (#, #, (-8978031436994227) @ (-49), (-6480329465492725) @ (-49)));
  (60%N, (#, (-6794643225952077) @ (-49), (-7343131840464381) @ (-49), (-302852298247679) @ (-44)));
  (61%N, ((-361034307814661) @ (-45), (-2952878618773787) @ (-48), (-5622283758709113) @ (-49), (-5959273809190159) @ (-49)));
  (62%N, (#, #, #, (-2061833855653683) @ (-47)));
  (63%N, (#, #, #, (-7005616856795013) @ (-49)));
  (64%N, ((-2146956065995973) @ (-47), (-4240545284906009) @ (-48), (-7143886142672895) @ (-49), (-6474727927202407) @ (-49)));
  (66%N, ((-7556172614326021) @ (-49), #, (-1986594946834089) @ (-47), (-7065990723112215) @ (-49)));
  (67%N, ((-546860929579423) @ (-45), #, #, (-943539134077359) @ (-46)));
  (68%N, (#, (-8252834006088559) @ (-49), (-1794334638614767) @ (-47), (-7643494584741751) @ (-49)));
  (69%N, ((-2802568374637173) @ (-48), (-5100508053754619) @ (-49), (-4763442821078715) @ (-49), (-5317978084017507) @ (-49)));
  (70%N, (#, #, #, (-2061833855653683) @ (-47)));
  (71%N, (#, #, #, (-3242993650796661) @ (-48)));
  (72%N, (#, #, #, (-302852298247679) @ (-44)));
  (73%N, (#, #, #, (-4392620273043229) @ (-48)));
  (74%N, (#, #, #, (-70881326618687) @ (-42)));
  (75%N, (#, #, #, (-302852298247679) @ (-44)));
  (76%N, ((-1729812462090333) @ (-47), (-8090883396801683) @ (-49), (-8359567700260433) @ (-49), (-6285576377091545) @ (-49)));
  (78%N, (#, #, #, (-4650533185457697) @ (-48)));
  (79%N, (#, #, #, (-2061833855653683) @ (-47)));
  (80%N, (#, #, #, (-302852298247679) @ (-44)));
  (81%N, (#, #, #, (-4650533185457697) @ (-48)));
  (82%N, (#, #, #, (-8395033373076123) @ (-49)));
  (83%N, (#, #, #, (-6285576377091545) @ (-49)));
  (84%N, ((-4426206392587813) @ (-48), #, (-6761857563197751) @ (-49), (-6761678221831651) @ (-49)));
  (85%N, ((-359803754727857) @ (-45), (-2534725090557005) @ (-48), (-2522277047213635) @ (-48), (-5566840067871475) @ (-49)));
  (86%N, (#, #, #, (-8910859197905059) @ (-49)));
  (87%N, (#, (-6794643225952077) @ (-49), (-7343131840464381) @ (-49), (-302852298247679) @ (-44)));
  (88%N, (#, #, (-8978031436994227) @ (-49), (-6480329465492725) @ (-49)));
  (89%N, (#, #, #, (-3415348596671437) @ (-48)));
  (91%N, (#, #, (-8233949048441833) @ (-49), (-1969801887061797) @ (-47)));
  (92%N, (#, #, #, (-302852298247679) @ (-44)));
  (94%N, (#, #, #, (-7643494584741751) @ (-49)));
  (95%N, (#, (-784151982854103) @ (-46), (-5547021593382297) @ (-49), (-1652074660613093) @ (-47)));
  (97%N, ((-1947521753537519) @ (-47), (-7082212487057555) @ (-49), (-3761685067605859) @ (-48), (-6452863044846125) @ (-49)));
  (98%N, (#, (-3887923857524803) @ (-48), (-6468822725631725) @ (-49), (-3113796480014135) @ (-48)));
  (99%N, ((-1658101860833211) @ (-47), (-74930906683829) @ (-43), (-1100916553435483) @ (-47), (-302852298247679) @ (-44)));
  (101%N, (#, #, #, (-302852298247679) @ (-44)));
  (106%N, (#, #, #, (-302852298247679) @ (-44)));
  (107%N, ((-4422505639904727) @ (-49), (-1231083788804153) @ (-47), (-5084406537889293) @ (-49), (-4749428663551155) @ (-49)));
  (108%N, (#, #, #, (-302852298247679) @ (-44)));
  (111%N, (#, #, #, (-302852298247679) @ (-44)));
  (114%N, ((-1955691742614275) @ (-48), (-8455871934951193) @ (-50), (-8801270034581271) @ (-50), (-8242901720972553) @ (-50)));
  (115%N, ((-3367279787962347) @ (-49), (-208580393576233) @ (-45), (-3590999949799487) @ (-49), (-8797820192149173) @ (-50)));
  (116%N, ((-3553951528391385) @ (-49), (-3538814743139) @ (-39), (-2959641625900387) @ (-49), (-674375274027661) @ (-47)));
  (117%N, (#, #, #, (-4392620273043229) @ (-48)));
  (118%N, ((-1039201061244007) @ (-47), (-5267338755117687) @ (-49), (-4990438578108479) @ (-49), (-3245696526355195) @ (-49)));
  (119%N, (#, #, #, (-7425201997121977) @ (-49)));
  (120%N, ((-4746808822046733) @ (-49), (-5570366845639651) @ (-49), (-5085244261188855) @ (-49), (-2937898854866363) @ (-48)));
  (121%N, ((-1955691742614275) @ (-48), (-8455871934951193) @ (-50), (-8801270034581271) @ (-50), (-8242901720972553) @ (-50)));
  (122%N, ((-609902861438431) @ (-45), (-1604672177941807) @ (-47), (-3301329885452235) @ (-48), (-160573025644757) @ (-44)));
  (123%N, ((-5484607584236567) @ (-49), (-731975968624813) @ (-46), (-2927637806814769) @ (-48), (-6303106774163249) @ (-49)));
  (124%N, ((-5080098049124825) @ (-49), (-1326244811755009) @ (-47), (-5545437156779311) @ (-49), (-2945041625094315) @ (-48)));
  (125%N, ((-2615947626082069) @ (-48), (-3054936767390851) @ (-48), (-3040534248737943) @ (-48), (-1495897129400131) @ (-47)));
  (126%N, ((-107906789001893) @ (-44), (-1969183284291641) @ (-48), (-699724512432187) @ (-46), (-4609852213703117) @ (-49)));
  (127%N, ((-1846839573009057) @ (-48), (-7201208783770619) @ (-50), (-4789601209667437) @ (-49), (-4936285174207965) @ (-49)));
  (128%N, (#, #, #, (-7060704769219635) @ (-49)));
  (132%N, ((-2338072764984921) @ (-48), (-4952970312928637) @ (-49), (-4913013546004527) @ (-49), (-5537612776369661) @ (-49)));
  (133%N, (#, #, #, (-70881326618687) @ (-42)));
  (134%N, ((-2494041074790125) @ (-48), (-8064354964170667) @ (-50), (-2277658350103973) @ (-48), (-2669415233092313) @ (-48)));
  (135%N, ((-6333177121832229) @ (-49), (-3095216074021885) @ (-48), (-3359775170817407) @ (-48), (-6157837383958669) @ (-49)));
  (137%N, (#, #, #, (-4650533185457697) @ (-48)));
  (138%N, ((-5148310958696137) @ (-49), (-6046820292385703) @ (-49), (-4747038644443647) @ (-49), (-5147054089171557) @ (-49)));
  (139%N, (#, #, #, (-3317411837498811) @ (-48)));
  (140%N, (#, #, #, (-302852298247679) @ (-44)));
  (143%N, ((-2762923100257805) @ (-48), (-2505726393979917) @ (-48), (-8841658209760895) @ (-50), (-5747875554095087) @ (-49)));
  (144%N, ((-5848729610181805) @ (-49), (-6794643225952077) @ (-49), (-1540029085439411) @ (-47), (-6461870436261829) @ (-49)));
  (145%N, (#, #, (-8100873996841253) @ (-49), (-1534010762782455) @ (-47)));
  (147%N, ((-5182957529448727) @ (-49), (-5137812651147425) @ (-49), (-4550108182373587) @ (-49), (-2696353842984009) @ (-48)));
  (148%N, ((-3665283298060497) @ (-49), (-8113268600916837) @ (-50), (-1922131938528945) @ (-48), (-7957045820538513) @ (-50)));
  (149%N, ((-2479826777480519) @ (-48), (-4993376197570699) @ (-49), (-8127817606999737) @ (-50), (-588337630004489) @ (-46)));
  (150%N, ((-7756962757402879) @ (-49), #, (-1998329865051197) @ (-47), (-6722838688041669) @ (-49)));
  (151%N, ((-167169180153259) @ (-44), (-6028481538756893) @ (-49), (-4589704296804269) @ (-49), (-2555410486442885) @ (-48)));
  (152%N, (#, #, #, (-3951094144080465) @ (-48)));
  (153%N, ((-5673513589919833) @ (-49), (-3172210053778219) @ (-48), (-578036626944691) @ (-46), (-4950726856278729) @ (-49)));
  (154%N, ((-1684417458824617) @ (-47), (-5957384491968179) @ (-49), (-3069417751170331) @ (-48), (-6925694704825637) @ (-49)));
  (155%N, (#, #, #, (-7614619027055453) @ (-49)));
  (156%N, ((-5870288502082269) @ (-49), (-2283660732020799) @ (-48), (-6912747001828465) @ (-50), (-4415048061765831) @ (-49)));
  (157%N, (#, #, #, (-6041608562397533) @ (-49)));
  (158%N, ((-2458468638815963) @ (-48), (-2973961462747413) @ (-48), (-6437098842625111) @ (-49), (-1561772752815323) @ (-47)));
  (159%N, ((-4785730424493967) @ (-49), (-2683591432496777) @ (-48), (-2972126878854959) @ (-48), (-1313959971734371) @ (-47)));
  (160%N, ((-4331497877621075) @ (-48), #, (-8272788582231815) @ (-49), (-1828975469458993) @ (-47)));
  (161%N, (#, #, #, (-3022098421302447) @ (-48)));
  (162%N, (#, #, #, (-2971573267887105) @ (-48)));
  (163%N, (#, #, #, (-6401650486542557) @ (-49)));
  (164%N, (#, #, #, (-409385306142705) @ (-45)));
  (165%N, (#, (-4240545284906009) @ (-48), (-7924300488693565) @ (-49), (-7489000375236853) @ (-49)));
  (166%N, ((-5280532282697307) @ (-49), (-7874796937365507) @ (-50), (-787406433492875) @ (-47), (-4897083265153831) @ (-49)));
  (167%N, ((-2601287837008273) @ (-48), (-1263635255202679) @ (-47), (-4278055889031045) @ (-49), (-4525669572027593) @ (-49)));
  (168%N, (#, #, #, (-6702984490925865) @ (-49)));
  (171%N, ((-5182957529448727) @ (-49), (-5137812651147425) @ (-49), (-4550108182373587) @ (-49), (-2696353842984009) @ (-48)));
  (173%N, ((-1395342107650599) @ (-47), (-8427646580110833) @ (-50), (-2206810634040589) @ (-48), (-6156780200636857) @ (-49)));
  (175%N, (#, #, #, (-1648585122635241) @ (-47)));
  (178%N, (#, #, #, (-302852298247679) @ (-44)));
  (179%N, (#, #, #, (-4392620273043229) @ (-48)));
  (181%N, ((-6594441377450325) @ (-49), (-6838531672091105) @ (-49), (-5893880046161803) @ (-49), (-1399808824083959) @ (-47)));
  (182%N, ((-3127165452593049) @ (-48), (-7385640542039271) @ (-49), (-1681167025932647) @ (-47), (-6058205651400473) @ (-49)));
  (183%N, ((-4573428807435695) @ (-49), (-4358697777978765) @ (-49), (-69931334409069) @ (-43), (-5760793742629897) @ (-49)));
  (184%N, ((-6045351449903179) @ (-49), (-5437123472927511) @ (-49), (-5740962893147041) @ (-49), (-86481356085687) @ (-43)));
  (185%N, ((-6201182977710585) @ (-49), #, #, (-3879055303555717) @ (-48)));
  (188%N, (#, #, #, (-4650533185457697) @ (-48)));
  (190%N, ((-3494371374993105) @ (-48), (-3478296917619477) @ (-48), (-571248877892569) @ (-45), (-3670651212387731) @ (-48)));
  (192%N, (#, #, #, (-302852298247679) @ (-44)));
  (193%N, ((-5924676407930081) @ (-49), (-491414177067389) @ (-45), (-1797236545307357) @ (-47), (-3452684697072041) @ (-48)));
  (194%N, ((-1552082100991385) @ (-47), (-2955795484013275) @ (-48), (-5876521529509587) @ (-49), (-3118628787138913) @ (-48)));
  (196%N, (#, #, #, (-70881326618687) @ (-42)));
  (198%N, (#, #, #, (-7857128249604397) @ (-49)));
  (200%N, ((-5671926696822739) @ (-49), (-1643962057175493) @ (-47), (-1458832946781801) @ (-47), (-6531363337886707) @ (-49)));
  (201%N, ((-5621196632616349) @ (-49), (-350955851614551) @ (-45), (-362371353296449) @ (-45), (-6226396466584401) @ (-49)));
  (202%N, ((-3286220266632137) @ (-48), #, (-2664613946985709) @ (-48), (-5234096822261617) @ (-49)));
  (203%N, (#, #, #, (-4650533185457697) @ (-48)));
  (204%N, (#, #, #, (-271331332318175) @ (-44)));
  (209%N, (#, #, (-2146956065995973) @ (-47), (-2130163006223681) @ (-47)));
  (210%N, (#, #, #, (-4048158111928321) @ (-48)));
  (211%N, ((-7133162962201383) @ (-49), (-1764807936785953) @ (-47), (-6139744219169813) @ (-49), (-6786983603534937) @ (-49)));
  (213%N, (#, #, #, (-8910859197905059) @ (-49)));
  (214%N, ((-5293934104769239) @ (-49), (-1648815554978729) @ (-47), (-571248877892569) @ (-45), (-6335525865640615) @ (-49)));
  (215%N, (#, #, #, (-70881326618687) @ (-42)));
  (216%N, (#, #, #, (-302852298247679) @ (-44)));
  (217%N, (#, #, (-609902861438431) @ (-45), (-4650533185457697) @ (-48)));
  (218%N, ((-2830859757136177) @ (-48), #, (-6351422467267269) @ (-49), (-2130163006223681) @ (-47)));
  (219%N, (#, #, (-7654324845498021) @ (-49), (-8292395461171265) @ (-49)));
  (220%N, (#, #, #, (-302852298247679) @ (-44)));
  (221%N, ((-5998165732470767) @ (-49), (-3606862978324355) @ (-48), (-196824062928067) @ (-44), (-4650533185457697) @ (-48)));
  (222%N, (#, #, #, (-302852298247679) @ (-44)));
  (223%N, ((-5673513589919833) @ (-49), (-3172210053778219) @ (-48), (-578036626944691) @ (-46), (-4950726856278729) @ (-49)));
  (224%N, ((-2564855391830751) @ (-48), (-3042696796520353) @ (-48), (-1119410861688781) @ (-47), (-2409999540548813) @ (-48)));
  (225%N, (#, #, (-8100873996841253) @ (-49), (-1534010762782455) @ (-47)));
  (226%N, ((-4785730424493967) @ (-49), (-2683591432496777) @ (-48), (-2972126878854959) @ (-48), (-1313959971734371) @ (-47)));
  (227%N, ((-1846839573009057) @ (-48), (-7201208783770619) @ (-50), (-4789601209667437) @ (-49), (-4650533185457697) @ (-48)));
  (228%N, (#, #, #, (-302852298247679) @ (-44)));
  (230%N, (#, #, #, (-302852298247679) @ (-44)));
  (232%N, (#, #, #, (-906660926466427) @ (-46)));
  (233%N, (#, (-3982632372491541) @ (-48), (-3767046657841615) @ (-48), (-7245928484021955) @ (-49)));
  (234%N, (#, (-3982632372491541) @ (-48), (-3767046657841615) @ (-48), (-7245928484021955) @ (-49)));
  (236%N, ((-5848729610181805) @ (-49), (-6794643225952077) @ (-49), (-1540029085439411) @ (-47), (-4650533185457697) @ (-48)));
  (237%N, (#, #, #, (-4650533185457697) @ (-48)));
  (241%N, (#, #, #, (-4392620273043229) @ (-48)));
  (242%N, (#, #, #, (-8395033373076123) @ (-49)));
  (243%N, ((-2940836557808977) @ (-48), (-1648815554978729) @ (-47), (-4653437785292721) @ (-49), (-2500978562464783) @ (-48)));
  (244%N, (#, #, #, (-3767970024052643) @ (-48)));
  (245%N, (#, #, #, (-7951171338784367) @ (-49)));
  (246%N, ((-4578972370663981) @ (-49), (-8948920126631489) @ (-50), (-5137629063403443) @ (-49), (-5896698484399953) @ (-49)));
  (247%N, ((-5779898403401909) @ (-49), (-141408255983013) @ (-44), (-69752786834825) @ (-43), (-2827427540457761) @ (-48)));
  (248%N, (#, #, #, (-70881326618687) @ (-42)));
  (250%N, ((-6492214408700219) @ (-50), (-6597394307347713) @ (-50), (-3873591477270739) @ (-49), (-8844743436053607) @ (-50)));
  (252%N, (#, (-8871297742822353) @ (-49), #, #));
  (253%N, (#, #, #, (-4650533185457697) @ (-48)));
  (254%N, (#, #, #, (-2061833855653683) @ (-47)));
  (255%N, ((-6697079289355183) @ (-49), (-3478296917619477) @ (-48), (-4426206392587813) @ (-48), (-4227173035229071) @ (-48)))].

(** prob_emit.py, characters 0x5f00 to 0x5fff *)
Definition emit_5f : list (N * num4) := [
  (0%N, ((-6427134391423175) @ (-50), (-1900197020723115) @ (-48), (-1809288480118229) @ (-48), (-7857405583889273) @ (-50)));
  (1%N, (#, #, (-3767046657841615) @ (-48), (-3344609873824017) @ (-48)));
  (2%N, ((-4662332161024955) @ (-49), (-2390415442408897) @ (-48), (-576648728526031) @ (-46), (-5104595036834423) @ (-49)));
  (3%N, ((-1461236491717739) @ (-47), (-5654752126099031) @ (-49), (-1219768146278841) @ (-47), (-1399221601444727) @ (-47)));
  (4%N, ((-723210892859449) @ (-46), (-1431489092705661) @ (-47), (-5585770467706197) @ (-49), (-4814522109927011) @ (-49)));
  (7%N, (#, #, (-609902861438431) @ (-45), (-3951094144080465) @ (-48)));
  (8%N, ((-7862826752368233) @ (-49), (-3469067403004029) @ (-48), (-3363622269110247) @ (-48), (-3728098948061275) @ (-48)));
  (9%N, (#, #, #, (-8910859197905059) @ (-49)));
  (10%N, ((-6153553986557577) @ (-49), (-8090883396801683) @ (-49), (-3018477376279291) @ (-48), (-3069552671552913) @ (-48)));
  (11%N, ((-3695707134388909) @ (-48), (-3252133114292637) @ (-48), (-7143886142672895) @ (-49), (-7600718321947853) @ (-49)));
  (12%N, (#, #, #, (-4650533185457697) @ (-48)));
  (13%N, (#, #, #, (-4650533185457697) @ (-48)));
  (14%N, (#, #, #, (-70881326618687) @ (-42)));
  (15%N, ((-6418888631057237) @ (-49), (-2332486963703527) @ (-48), (-7028991436589889) @ (-50), (-8722612342082047) @ (-50)));
  (17%N, ((-7667890561037021) @ (-49), #, #, (-6951095251765127) @ (-49)));
  (18%N, ((-7667890561037021) @ (-49), #, #, (-6951095251765127) @ (-49)));
  (19%N, ((-714660492162169) @ (-46), (-6069645714336419) @ (-49), (-751833937796735) @ (-46), (-5791405143262909) @ (-49)));
  (20%N, (#, #, #, (-70881326618687) @ (-42)));
  (21%N, ((-987447882852263) @ (-47), (-4716583090490309) @ (-49), (-4821739647574363) @ (-49), (-1209442641942953) @ (-47)));
  (22%N, (#, #, #, (-4392620273043229) @ (-48)));
  (23%N, ((-1366954641997741) @ (-47), (-5244470056194149) @ (-49), (-413850120634003) @ (-45), (-5943869657201091) @ (-49)));
  (24%N, ((-5760094101506659) @ (-49), (-1379979921269827) @ (-47), (-6009596581110167) @ (-49), (-6823747105641763) @ (-49)));
  (25%N, (#, #, #, (-302852298247679) @ (-44)));
  (27%N, ((-3478396877264481) @ (-48), (-3760701355345663) @ (-48), (-1574291460553911) @ (-47), (-3517497412055821) @ (-48)));
  (29%N, (#, #, #, (-3733460538297031) @ (-48)));
  (31%N, ((-4593949923270979) @ (-49), (-5279608057852367) @ (-49), (-2096665689326019) @ (-48), (-2572387290747765) @ (-48)));
  (32%N, ((-6910644076129485) @ (-50), (-4607200396953563) @ (-49), (-2028593297662129) @ (-48), (-250868134155379) @ (-45)));
  (33%N, (#, #, #, (-1930728693765227) @ (-47)));
  (34%N, (#, #, (-8978031436994227) @ (-49), (-7587152606408853) @ (-49)));
  (36%N, (#, #, #, (-4297911758076491) @ (-48)));
  (37%N, ((-2728448880426779) @ (-48), (-4580119426478421) @ (-49), (-6594441377450325) @ (-49), (-6175028031233341) @ (-49)));
  (38%N, ((-3258236148826385) @ (-48), (-675653338708871) @ (-46), (-5828488926441687) @ (-49), (-5012095704276859) @ (-49)));
  (39%N, ((-2966087093699599) @ (-48), (-7082212487057555) @ (-49), (-3172494649417) @ (-38), (-6157837383958669) @ (-49)));
  (40%N, (#, #, #, (-4650533185457697) @ (-48)));
  (41%N, ((-7127877008308803) @ (-49), (-5932498674251835) @ (-49), (-6992866943914805) @ (-49), (-1584973871545671) @ (-47)));
  (42%N, (#, #, #, (-4650533185457697) @ (-48)));
  (44%N, (#, #, #, (-6991483479663675) @ (-49)));
  (45%N, (#, (-8871297742822353) @ (-49), (-1870602565026865) @ (-47), (-7523833130877875) @ (-49)));
  (47%N, ((-673801446989963) @ (-46), (-340779850326561) @ (-45), (-2990035920121041) @ (-48), (-2702676300656007) @ (-48)));
  (48%N, (#, #, #, (-1969801887061797) @ (-47)));
  (49%N, ((-5537893325922665) @ (-49), (-5662233298701249) @ (-49), (-2386134144431043) @ (-48), (-5187099729375591) @ (-49)));
  (50%N, (#, #, #, (-302852298247679) @ (-44)));
  (51%N, (#, #, #, (-4650533185457697) @ (-48)));
  (52%N, (#, #, #, (-271331332318175) @ (-44)));
  (53%N, ((-6910644076129485) @ (-50), (-4607200396953563) @ (-49), (-2028593297662129) @ (-48), (-250868134155379) @ (-45)));
  (54%N, (#, #, #, (-7386362463331995) @ (-49)));
  (55%N, ((-7805055433003277) @ (-50), (-4685850477777217) @ (-49), (-7930990481208297) @ (-50), (-7500373488380235) @ (-49)));
  (56%N, (#, #, #, (-3879055303555717) @ (-48)));
  (57%N, ((-2376330052546907) @ (-48), (-2450484378331755) @ (-48), (-1044085068073209) @ (-47), (-2473079267312393) @ (-48)));
  (58%N, ((-7805055433003277) @ (-50), (-4685850477777217) @ (-49), (-7930990481208297) @ (-50), (-4196350435432413) @ (-49)));
  (59%N, (#, #, #, (-1893476528496951) @ (-47)));
  (60%N, ((-609902861438431) @ (-45), (-5624021706921073) @ (-49), (-5814027031429655) @ (-49), (-3510057111638175) @ (-48)));
  (61%N, (#, #, #, (-3288126094492297) @ (-48)));
  (64%N, (#, #, #, (-421091349181405) @ (-45)));
  (65%N, (#, #, #, (-7005616856795013) @ (-49)));
  (66%N, (#, #, #, (-6632359995120511) @ (-49)));
  (67%N, (#, #, #, (-8166776809352665) @ (-49)));
  (69%N, (#, #, #, (-4227173035229071) @ (-48)));
  (70%N, (#, #, #, (-302852298247679) @ (-44)));
  (71%N, (#, #, #, (-7065990723112215) @ (-49)));
  (72%N, ((-2376330052546907) @ (-48), (-2450484378331755) @ (-48), (-1044085068073209) @ (-47), (-3535663390789959) @ (-48)));
  (73%N, (#, #, #, (-906660926466427) @ (-46)));
  (74%N, (#, #, (-609902861438431) @ (-45), (-7367903434101099) @ (-49)));
  (76%N, ((-2728448880426779) @ (-48), (-4580119426478421) @ (-49), (-6594441377450325) @ (-49), (-7857128249604397) @ (-49)));
  (77%N, (#, #, #, (-3951094144080465) @ (-48)));
  (78%N, ((-673801446989963) @ (-46), (-340779850326561) @ (-45), (-2990035920121041) @ (-48), (-2702676300656007) @ (-48)));
  (80%N, (#, (-3817185134677383) @ (-48), #, #));
  (82%N, ((-4643788081189059) @ (-49), (-4637477010270649) @ (-49), (-2571588465775841) @ (-48), (-585444547673801) @ (-46)));
  (83%N, ((-3327480143388319) @ (-49), (-3817755724374677) @ (-49), (-1956369807372321) @ (-48), (-3689206032692579) @ (-49)));
  (84%N, (#, #, #, (-7926147221115621) @ (-49)));
  (85%N, ((-1200217441614447) @ (-47), (-5268273112101347) @ (-49), (-2244820479458719) @ (-48), (-5461431272833085) @ (-49)));
  (86%N, (#, #, #, (-1994339944854797) @ (-47)));
  (87%N, ((-415075232207411) @ (-45), (-6703857329774499) @ (-49), #, (-7386362463331995) @ (-49)));
  (88%N, (#, #, (-4684119305002281) @ (-48), (-7115940211661285) @ (-49)));
  (89%N, (#, #, #, (-7628871685880939) @ (-49)));
  (91%N, (#, #, #, (-6881909751646441) @ (-49)));
  (92%N, (#, #, #, (-3452684697072041) @ (-48)));
  (93%N, ((-1501499861142023) @ (-47), (-6007235622876845) @ (-49), (-7219057633931153) @ (-49), (-6344299289240549) @ (-49)));
  (94%N, (#, #, #, (-3888284818171165) @ (-48)));
  (95%N, (#, #, #, (-7358896042685395) @ (-49)));
  (97%N, (#, #, (-609902861438431) @ (-45), #));
  (98%N, ((-7113346074725521) @ (-50), (-4443158508934371) @ (-49), (-8208317100868173) @ (-50), (-4653594382082865) @ (-49)));
  (99%N, (#, #, #, (-8910859197905059) @ (-49)));
  (100%N, ((-1947521753537519) @ (-47), (-794651871930237) @ (-46), (-6163900893513105) @ (-49), (-7115940211661285) @ (-49)));
  (101%N, ((-8197617090973557) @ (-49), (-3817185134677383) @ (-48), (-5837985964384345) @ (-49), (-8910859197905059) @ (-49)));
  (102%N, ((-8197617090973557) @ (-49), (-4731159811468131) @ (-49), (-5837985964384345) @ (-49), (-5959273809190159) @ (-49)));
  (103%N, (#, #, (-4426206392587813) @ (-48), (-3157086242900219) @ (-48)));
  (104%N, (#, #, #, (-3408440888610819) @ (-48)));
  (105%N, ((-2427819322580487) @ (-48), (-4421137350405001) @ (-49), (-4636626335881931) @ (-49), (-333079895899031) @ (-45)));
  (106%N, ((-7298665317991735) @ (-49), (-6284475237223739) @ (-49), (-2669615178952913) @ (-48), (-6268575434941977) @ (-49)));
  (107%N, (#, #, #, (-8130444851884389) @ (-49)));
  (108%N, ((-3577408776600841) @ (-48), (-5546874565524039) @ (-49), (-5509283225967267) @ (-49), (-5992195286339767) @ (-49)));
  (109%N, ((-4778148766829703) @ (-49), (-195523065702511) @ (-44), (-3645792046567143) @ (-48), (-5785912905031845) @ (-49)));
  (110%N, (#, #, #, (-943539134077359) @ (-46)));
  (111%N, (#, #, #, (-70881326618687) @ (-42)));
  (112%N, ((-3480344808752985) @ (-48), (-101243867878125) @ (-43), (-6107920679159833) @ (-49), (-6605948117311325) @ (-49)));
  (113%N, ((-7870150412413247) @ (-50), (-4381067082614105) @ (-49), (-4394457291017373) @ (-49), (-5358179456883287) @ (-49)));
  (114%N, (#, #, #, (-6128961826272371) @ (-49)));
  (115%N, ((-4684119305002281) @ (-48), #, #, (-8166776809352665) @ (-49)));
  (116%N, (#, #, #, (-7628871685880939) @ (-49)));
  (117%N, (#, #, #, (-4650533185457697) @ (-48)));
  (118%N, (#, #, #, (-7835882333724349) @ (-49)));
  (119%N, ((-6949081990735609) @ (-49), #, #, (-6986850120558139) @ (-49)));
  (120%N, (#, #, #, (-7358896042685395) @ (-49)));
  (121%N, ((-1676738964413993) @ (-47), (-92460715403111) @ (-43), (-4584456249191603) @ (-49), (-1327544316750075) @ (-47)));
  (122%N, (#, #, #, (-8205616343142647) @ (-49)));
  (123%N, ((-4980375184794219) @ (-49), (-5335749197812309) @ (-49), (-320805947220325) @ (-45), (-6452863044846125) @ (-49)));
  (124%N, ((-5215457589390187) @ (-49), (-308573179220425) @ (-45), (-424016655625409) @ (-45), (-5641165653706225) @ (-49)));
  (125%N, (#, #, #, (-70881326618687) @ (-42)));
  (126%N, (#, #, #, (-3888284818171165) @ (-48)));
  (127%N, (#, #, #, (-976926146266539) @ (-46)));
  (128%N, ((-8729869883921949) @ (-50), (-5110310912582847) @ (-49), (-4138573091596203) @ (-49), (-8416914705319647) @ (-50)));
  (129%N, ((-4664842680175705) @ (-49), (-615796162950375) @ (-46), (-4294206923431517) @ (-49), (-5263134310037747) @ (-49)));
  (130%N, (#, #, #, (-4227173035229071) @ (-48)));
  (131%N, (#, #, #, (-3374719848683653) @ (-48)));
  (132%N, ((-5331170963812567) @ (-49), (-5709336715012785) @ (-49), (-4570285395400391) @ (-49), (-5480802161211847) @ (-49)));
  (133%N, ((-5187463155617411) @ (-49), (-4512957274229005) @ (-49), (-4400469395061309) @ (-49), (-8984494827374103) @ (-50)));
  (134%N, (#, #, #, (-8130444851884389) @ (-49)));
  (135%N, ((-889038822504283) @ (-46), (-7385640542039271) @ (-49), #, (-3767970024052643) @ (-48)));
  (136%N, ((-983628505305967) @ (-47), (-3115151835519143) @ (-48), #, (-1709061626420669) @ (-48)));
  (137%N, (#, #, (-1870602565026865) @ (-47), (-2061833855653683) @ (-47)));
  (138%N, (#, #, (-768961624160155) @ (-46), (-6752474475355211) @ (-49)));
  (139%N, ((-5388971805433059) @ (-49), (-65439451422193) @ (-43), (-3832111376851551) @ (-49), (-1348041074484975) @ (-47)));
  (140%N, ((-546860929579423) @ (-45), (-8613436174488683) @ (-50), (-8233949048441833) @ (-49), (-5695708749066645) @ (-49)));
  (141%N, (#, #, #, (-4048158111928321) @ (-48)));
  (142%N, (#, #, #, (-8130444851884389) @ (-49)));
  (143%N, (#, #, #, (-302852298247679) @ (-44)));
  (144%N, ((-4094988912513825) @ (-49), (-1478632665286877) @ (-47), (-756151241173869) @ (-46), (-1331895218674775) @ (-47)));
  (145%N, ((-5331170963812567) @ (-49), (-5709336715012785) @ (-49), (-4570285395400391) @ (-49), (-5480802161211847) @ (-49)));
  (146%N, ((-1347843368174879) @ (-47), (-2525357875797797) @ (-48), (-2480330260629847) @ (-48), (-2687391896407961) @ (-48)));
  (147%N, (#, #, #, (-4650533185457697) @ (-48)));
  (149%N, (#, (-8252834006088559) @ (-49), (-1800199549239177) @ (-47), (-8166776809352665) @ (-49)));
  (150%N, (#, #, #, (-302852298247679) @ (-44)));
  (151%N, ((-3832126461457547) @ (-49), (-221398475768691) @ (-45), (-1639753448181133) @ (-48), (-760826399057229) @ (-47)));
  (152%N, ((-1540029085439411) @ (-47), #, #, (-976926146266539) @ (-46)));
  (153%N, (#, (-4240545284906009) @ (-48), (-1578565812587615) @ (-47), (-2968339952448353) @ (-48)));
  (156%N, ((-1870602565026865) @ (-47), #, #, (-8910859197905059) @ (-49)));
  (157%N, (#, #, #, (-4650533185457697) @ (-48)));
  (158%N, ((-3800907836231603) @ (-49), (-4761496912076741) @ (-49), (-2222697450713079) @ (-48), (-1577098003736493) @ (-48)));
  (159%N, (#, #, #, (-302852298247679) @ (-44)));
  (160%N, (#, (-8252834006088559) @ (-49), (-1800199549239177) @ (-47), (-8166776809352665) @ (-49)));
  (161%N, ((-1261008602075915) @ (-47), (-5056463447107237) @ (-49), (-2525216930954739) @ (-48), (-4891587744329619) @ (-49)));
  (162%N, (#, #, #, (-2130163006223681) @ (-47)));
  (164%N, (#, #, #, (-302852298247679) @ (-44)));
  (168%N, (#, #, (-6949081990735609) @ (-49), (-1848956007451337) @ (-47)));
  (169%N, (#, #, #, (-4650533185457697) @ (-48)));
  (170%N, ((-2605012594853947) @ (-48), (-5540772067246427) @ (-49), (-5671134924605831) @ (-49), (-2937898854866363) @ (-48)));
  (171%N, (#, #, #, (-302852298247679) @ (-44)));
  (172%N, (#, #, #, (-7689790518313711) @ (-49)));
  (173%N, ((-3279437408862637) @ (-48), (-7106171420012245) @ (-49), #, (-108816228894371) @ (-43)));
  (174%N, ((-8501499380117545) @ (-50), (-4726496930782995) @ (-49), (-4721205568526375) @ (-49), (-4913434946513371) @ (-49)));
  (175%N, (#, #, #, (-271331332318175) @ (-44)));
  (176%N, (#, #, #, (-4392620273043229) @ (-48)));
  (179%N, ((-2146956065995973) @ (-47), #, #, (-7951171338784367) @ (-49)));
  (180%N, (#, #, #, (-302852298247679) @ (-44)));
  (181%N, ((-4664842680175705) @ (-49), (-615796162950375) @ (-46), (-1794334638614767) @ (-47), (-1777541578842475) @ (-47)));
  (182%N, (#, #, #, (-302852298247679) @ (-44)));
  (183%N, ((-2098260534072291) @ (-48), (-3458794017634159) @ (-49), (-8070770285144861) @ (-50), (-4532292244287589) @ (-49)));
  (185%N, ((-4980375184794219) @ (-49), (-5335749197812309) @ (-49), (-320805947220325) @ (-45), (-6452863044846125) @ (-49)));
  (186%N, (#, #, #, (-8910859197905059) @ (-49)));
  (188%N, (#, #, #, (-1994339944854797) @ (-47)));
  (189%N, ((-6110504998710261) @ (-49), (-607401861739249) @ (-46), (-161648304760457) @ (-44), (-6311385599151285) @ (-49)));
  (193%N, (#, #, #, (-70881326618687) @ (-42)));
  (194%N, (#, #, #, (-302852298247679) @ (-44)));
  (195%N, ((-6857936510276471) @ (-50), (-110853850353237) @ (-44), (-1663174385351013) @ (-48), (-1992598857319285) @ (-48)));
  (196%N, (#, #, #, (-8910859197905059) @ (-49)));
  (197%N, ((-7567023704216373) @ (-50), (-1074243539085105) @ (-47), (-2253389483740781) @ (-48), (-570212329560165) @ (-46)));
  (198%N, ((-3448934716216021) @ (-48), (-2588087789948435) @ (-48), (-323143921423243) @ (-45), (-6603607365691809) @ (-49)));
  (199%N, (#, #, #, (-4650533185457697) @ (-48)));
  (200%N, (#, #, #, (-8910859197905059) @ (-49)));
  (202%N, (#, #, #, (-2061833855653683) @ (-47)));
  (203%N, (#, #, #, (-7358896042685395) @ (-49)));
  (204%N, ((-371676887012489) @ (-45), (-5366069214870883) @ (-49), (-646348812159335) @ (-46), (-4989867541773051) @ (-49)));
  (205%N, ((-4930146765277185) @ (-49), (-5667910153060101) @ (-49), (-2642548517493883) @ (-48), (-5377158555925419) @ (-49)));
  (206%N, (#, #, #, (-3199198215754259) @ (-48)));
  (207%N, ((-1667112136435627) @ (-47), #, (-546860929579423) @ (-45), (-7386362463331995) @ (-49)));
  (208%N, ((-3375489482355113) @ (-48), #, #, (-8064138897447807) @ (-49)));
  (209%N, (#, (-6114059055574939) @ (-49), (-3663958025301281) @ (-48), (-8910859197905059) @ (-49)));
  (210%N, (#, (-6869814717210335) @ (-49), (-3801556143597227) @ (-48), (-3044124456602361) @ (-48)));
  (211%N, (#, #, #, (-6165293783740647) @ (-49)));
  (212%N, (#, #, #, (-3156388658957765) @ (-48)));
  (213%N, (#, #, #, (-3355703919701135) @ (-48)));
  (214%N, ((-1998329865051197) @ (-47), (-3817185134677383) @ (-48), (-6518250971971065) @ (-49), (-7065990723112215) @ (-49)));
  (215%N, ((-4812196423990223) @ (-49), (-1750498015881047) @ (-48), (-8036073319121435) @ (-50), (-5071070561037285) @ (-49)));
  (216%N, ((-5147998469121961) @ (-49), (-644967953677779) @ (-46), (-721062061950115) @ (-46), (-2450691170578711) @ (-48)));
  (217%N, ((-2765378731769119) @ (-48), (-642319354965439) @ (-46), (-1156273635868211) @ (-47), (-4497709508322287) @ (-49)));
  (218%N, (#, #, #, (-3333936558074267) @ (-48)));
  (219%N, (#, #, #, (-6913411673111127) @ (-49)));
  (220%N, (#, #, #, (-302852298247679) @ (-44)));
  (221%N, (#, (-4240545284906009) @ (-48), (-8978031436994227) @ (-49), (-3582197954329907) @ (-48)));
  (222%N, (#, #, #, (-8395033373076123) @ (-49)));
  (224%N, ((-5104285777024107) @ (-49), (-8581690343564789) @ (-50), (-4723552419047377) @ (-49), (-2683210204244541) @ (-48)));
  (225%N, (#, (-2934621973272329) @ (-48), (-1653276102753797) @ (-47), (-4170689255897351) @ (-48)));
  (227%N, (#, #, #, (-4650533185457697) @ (-48)));
  (228%N, ((-7545024726212017) @ (-49), (-4240545284906009) @ (-48), (-4684119305002281) @ (-48), (-440002733528793) @ (-45)));
  (229%N, (#, #, #, (-7029990791577139) @ (-49)));
  (230%N, (#, #, #, (-4392620273043229) @ (-48)));
  (231%N, ((-5348297907346827) @ (-49), (-2679716592864669) @ (-48), (-2766614628273723) @ (-48), (-5477000571390183) @ (-49)));
  (232%N, (#, #, #, (-302852298247679) @ (-44)));
  (234%N, (#, #, (-7579153354239763) @ (-49), (-8910859197905059) @ (-49)));
  (235%N, ((-4424705592715927) @ (-49), (-5370537095096129) @ (-49), (-4195427066663433) @ (-49), (-8126284287329085) @ (-50)));
  (236%N, (#, #, #, (-4297911758076491) @ (-48)));
  (237%N, (#, #, (-4684119305002281) @ (-48), (-8395033373076123) @ (-49)));
  (238%N, (#, #, #, (-70881326618687) @ (-42)));
  (239%N, (#, #, #, (-302852298247679) @ (-44)));
  (241%N, (#, (-4240545284906009) @ (-48), (-6370279013252417) @ (-49), (-3634150150092073) @ (-48)));
  (242%N, (#, #, #, (-70881326618687) @ (-42)));
  (245%N, ((-2586617814523633) @ (-48), (-2026151947424081) @ (-48), (-4209552156627507) @ (-49), (-1256310864016931) @ (-47)));
  (246%N, (#, #, #, (-4650533185457697) @ (-48)));
  (247%N, (#, #, #, (-4650533185457697) @ (-48)));
  (248%N, ((-7072789095884181) @ (-49), #, #, (-4227173035229071) @ (-48)));
  (249%N, (#, #, #, (-4650533185457697) @ (-48)));
  (251%N, ((-6798739008219093) @ (-49), (-1796212599740603) @ (-47), (-7773281289935475) @ (-49), (-3702723670134365) @ (-48)));
  (252%N, (#, #, #, (-70881326618687) @ (-42)));
  (253%N, ((-140860297942879) @ (-44), (-5196384137160453) @ (-49), (-5833217418619425) @ (-49), (-2327346196436293) @ (-48)));
  (254%N, (#, (-3478296917619477) @ (-48), (-106184602910939) @ (-43), (-7689790518313711) @ (-49)));
  (255%N, ((-842869473648881) @ (-46), (-7157383978315813) @ (-49), #, (-3167038415105713) @ (-48)))].

(** prob_emit.py, characters 0x6000 to 0x60ff *)
Definition emit_60 : list (N * num4) := [
  (0%N, ((-284469629436939) @ (-45), (-1167046321954483) @ (-47), (-2516233268241091) @ (-48), (-679489163764245) @ (-46)));
  (1%N, ((-4883156177813251) @ (-49), (-4923320830701797) @ (-49), (-4011837604051903) @ (-49), (-5515208995300813) @ (-49)));
  (2%N, ((-6810591023946373) @ (-49), #, (-4684119305002281) @ (-48), (-13119324708823) @ (-40)));
  (3%N, ((-8272788582231815) @ (-49), #, #, #));
  (4%N, ((-7615485311708039) @ (-49), #, #, (-7435345513955431) @ (-49)));
  (5%N, ((-3480344808752985) @ (-48), (-8252834006088559) @ (-49), (-6901376920123951) @ (-49), (-7500373488380235) @ (-49)));
  (6%N, (#, #, (-3569249510334543) @ (-48), (-7500373488380235) @ (-49)));
  (7%N, (#, #, #, (-302852298247679) @ (-44)));
  (8%N, (#, #, #, (-8166776809352665) @ (-49)));
  (9%N, (#, #, #, (-302852298247679) @ (-44)));
  (10%N, (#, #, #, (-4650533185457697) @ (-48)));
  (13%N, (#, (-1925169055947837) @ (-47), #, (-8064138897447807) @ (-49)));
  (14%N, ((-3806659811446071) @ (-49), (-5267338755117687) @ (-49), #, (-2364372489810401) @ (-48)));
  (15%N, ((-7219057633931153) @ (-49), (-3736209830033945) @ (-48), (-7298665317991735) @ (-49), (-8395033373076123) @ (-49)));
  (18%N, ((-5164965151151361) @ (-49), (-5327378040537135) @ (-49), (-4886876556263441) @ (-49), (-4937010625279261) @ (-49)));
  (19%N, (#, #, #, (-302852298247679) @ (-44)));
  (20%N, ((-846618816505503) @ (-46), (-491414177067389) @ (-45), (-7374855723470995) @ (-49), (-5244027839730977) @ (-49)));
  (21%N, ((-3133364351259961) @ (-48), (-5327378040537135) @ (-49), (-8633809879332769) @ (-50), (-4441861437285481) @ (-49)));
  (22%N, (#, (-1412762123656457) @ (-47), (-685151185708597) @ (-46), (-897148847068159) @ (-46)));
  (23%N, (#, #, #, (-4392620273043229) @ (-48)));
  (24%N, (#, #, #, (-4170689255897351) @ (-48)));
  (25%N, ((-4204275375441935) @ (-48), #, #, (-7951171338784367) @ (-49)));
  (26%N, (#, #, #, (-302852298247679) @ (-44)));
  (27%N, (#, #, (-4684119305002281) @ (-48), (-7386362463331995) @ (-49)));
  (28%N, ((-6034686314485429) @ (-49), (-5758505895561349) @ (-49), (-5392578159556465) @ (-49), (-6401650486542557) @ (-49)));
  (29%N, ((-8026127289857943) @ (-50), (-7098611328360395) @ (-50), (-2127844848219923) @ (-48), (-5260763990942533) @ (-49)));
  (30%N, (#, #, #, (-70881326618687) @ (-42)));
  (31%N, (#, #, #, (-70881326618687) @ (-42)));
  (32%N, ((-6366184813726867) @ (-49), (-1725734743489383) @ (-47), (-6606814401963911) @ (-49), (-6321200666391935) @ (-49)));
  (33%N, ((-6173475103080691) @ (-49), (-2786787273180365) @ (-48), (-5543226410783065) @ (-49), (-6009813934816095) @ (-49)));
  (34%N, (#, #, #, (-70881326618687) @ (-42)));
  (35%N, (#, #, #, (-4392620273043229) @ (-48)));
  (37%N, ((-4554989752205287) @ (-49), (-4783986884413287) @ (-49), (-4681098897261829) @ (-49), (-17368149668645) @ (-41)));
  (38%N, ((-6256564836504177) @ (-49), #, (-6363471796652225) @ (-49), (-7367903434101099) @ (-49)));
  (39%N, ((-8120600129699157) @ (-50), (-4106487443918777) @ (-49), (-3321425576108057) @ (-49), (-4323081933914373) @ (-49)));
  (40%N, ((-5796456948708731) @ (-49), (-2934621973272329) @ (-48), (-2701646031680037) @ (-48), (-350972114304277) @ (-45)));
  (41%N, (#, (-3606862978324355) @ (-48), (-7171623277416283) @ (-49), (-8395033373076123) @ (-49)));
  (42%N, ((-5215809873477667) @ (-49), (-338886063812925) @ (-45), (-4677362865759147) @ (-49), (-4784853880604907) @ (-49)));
  (43%N, (#, #, #, (-3733460538297031) @ (-48)));
  (44%N, (#, #, #, (-8910859197905059) @ (-49)));
  (45%N, (#, #, #, (-4650533185457697) @ (-48)));
  (47%N, ((-1610436237098159) @ (-47), (-8090883396801683) @ (-49), (-377404508674779) @ (-45), (-94912403534065) @ (-43)));
  (48%N, (#, #, #, (-302852298247679) @ (-44)));
  (49%N, (#, #, #, (-4297911758076491) @ (-48)));
  (50%N, (#, #, #, (-70881326618687) @ (-42)));
  (51%N, (#, #, #, (-70881326618687) @ (-42)));
  (53%N, ((-4426206392587813) @ (-48), #, (-7545024726212017) @ (-49), (-7055467987703679) @ (-49)));
  (54%N, (#, #, #, (-4650533185457697) @ (-48)));
  (56%N, (#, #, #, (-302852298247679) @ (-44)));
  (57%N, (#, #, #, (-4650533185457697) @ (-48)));
  (59%N, ((-6819177241417693) @ (-50), (-2066991775269309) @ (-48), (-5497827026711503) @ (-49), (-8046574526034729) @ (-50)));
  (60%N, (#, #, (-2017999609788739) @ (-47), (-1729369077842873) @ (-47)));
  (62%N, (#, #, #, (-302852298247679) @ (-44)));
  (63%N, (#, (-3817185134677383) @ (-48), (-1947521753537519) @ (-47), (-2061833855653683) @ (-47)));
  (65%N, ((-7492374236211145) @ (-49), #, #, (-3223763493189211) @ (-48)));
  (66%N, (#, (-8252834006088559) @ (-49), (-7417202744952887) @ (-49), (-1893476528496951) @ (-47)));
  (67%N, ((-1947521753537519) @ (-47), (-6171507678560299) @ (-49), (-6670779604780977) @ (-49), (-6373019742929881) @ (-49)));
  (68%N, (#, #, #, (-4650533185457697) @ (-48)));
  (69%N, (#, #, #, (-2061833855653683) @ (-47)));
  (70%N, ((-1324754416970013) @ (-47), (-9565566737597) @ (-40), (-1399709730382003) @ (-47), (-760565094274009) @ (-46)));
  (71%N, (#, #, #, (-4227173035229071) @ (-48)));
  (72%N, (#, #, #, (-4392620273043229) @ (-48)));
  (73%N, (#, #, #, (-4650533185457697) @ (-48)));
  (74%N, (#, #, #, (-8130444851884389) @ (-49)));
  (75%N, ((-5613644970975539) @ (-49), (-5418501600203023) @ (-49), (-5497245767028039) @ (-49), (-768809807031151) @ (-46)));
  (77%N, ((-5810468870894341) @ (-49), (-6131119450661751) @ (-49), (-4260759154773655) @ (-48), (-1608384983157857) @ (-47)));
  (78%N, (#, #, #, (-8910859197905059) @ (-49)));
  (79%N, (#, #, #, (-302852298247679) @ (-44)));
  (80%N, ((-4752427976733675) @ (-49), (-5464274427074725) @ (-49), (-2716407456616921) @ (-48), (-1382569170461915) @ (-47)));
  (81%N, (#, #, #, (-302852298247679) @ (-44)));
  (82%N, ((-1324754416970013) @ (-47), (-9565566737597) @ (-40), (-1399709730382003) @ (-47), (-760565094274009) @ (-46)));
  (83%N, (#, #, #, (-7795654513279065) @ (-49)));
  (84%N, (#, #, #, (-70881326618687) @ (-42)));
  (85%N, ((-413850120634003) @ (-45), (-874429171128617) @ (-46), (-1580438179295035) @ (-47), (-2938540759310375) @ (-48)));
  (86%N, (#, #, #, (-302852298247679) @ (-44)));
  (87%N, (#, #, #, (-302852298247679) @ (-44)));
  (89%N, ((-4260759154773655) @ (-48), #, (-6521825269397027) @ (-49), (-8033701757752085) @ (-49)));
  (90%N, (#, (-8871297742822353) @ (-49), (-8978031436994227) @ (-49), (-6761678221831651) @ (-49)));
  (91%N, (#, #, #, (-8910859197905059) @ (-49)));
  (92%N, (#, #, #, (-4392620273043229) @ (-48)));
  (93%N, (#, #, (-609902861438431) @ (-45), #));
  (94%N, (#, #, #, (-4650533185457697) @ (-48)));
  (96%N, (#, #, #, (-70881326618687) @ (-42)));
  (97%N, (#, #, #, (-302852298247679) @ (-44)));
  (98%N, ((-2355813457977899) @ (-48), (-5769787835337713) @ (-49), (-1826459187989943) @ (-47), (-1535546096063807) @ (-47)));
  (99%N, ((-6867248292096205) @ (-49), (-3817185134677383) @ (-48), #, (-7115940211661285) @ (-49)));
  (100%N, ((-3912641423100301) @ (-48), (-3278540746232549) @ (-48), (-3378195993368601) @ (-48), (-6678445256967907) @ (-49)));
  (101%N, ((-6190134541933811) @ (-49), (-1454951954365857) @ (-47), (-5669949350380159) @ (-49), (-70881326618687) @ (-42)));
  (102%N, (#, #, #, (-4650533185457697) @ (-48)));
  (103%N, (#, #, #, (-4392620273043229) @ (-48)));
  (104%N, ((-369715154211577) @ (-45), (-6122524627936863) @ (-49), (-1313332369278037) @ (-47), (-5002908398462851) @ (-49)));
  (105%N, ((-4747651963260593) @ (-49), (-8012299760481363) @ (-50), (-2467898550521471) @ (-48), (-5101345677432587) @ (-49)));
  (106%N, ((-834728907770341) @ (-46), (-7575057571972747) @ (-49), (-7117451711230829) @ (-49), (-6463689339147657) @ (-49)));
  (107%N, ((-7343131840464381) @ (-49), #, #, (-239810366388671) @ (-44)));
  (108%N, ((-858821192549113) @ (-46), (-3638170211376633) @ (-48), (-7058655718752843) @ (-49), (-3688528646784237) @ (-48)));
  (109%N, ((-2672370977123151) @ (-48), (-2484888018571619) @ (-48), (-6162005437333793) @ (-49), (-5711288232615437) @ (-49)));
  (111%N, ((-6005282767254975) @ (-49), (-7948000306682527) @ (-50), (-7618927598283177) @ (-50), (-2780106359575905) @ (-48)));
  (112%N, ((-5040668092203487) @ (-49), (-5664119229957275) @ (-49), (-727651442547653) @ (-46), (-5813351998674075) @ (-49)));
  (114%N, (#, #, #, (-2061833855653683) @ (-47)));
  (115%N, ((-6163900893513105) @ (-49), (-6615369712852055) @ (-49), (-6263320317011777) @ (-49), (-3188064985789221) @ (-48)));
  (116%N, (#, #, #, (-70881326618687) @ (-42)));
  (117%N, (#, #, #, (-4392620273043229) @ (-48)));
  (118%N, ((-2361042245674409) @ (-48), (-5068137942866169) @ (-49), (-2505805920611467) @ (-48), (-5159130450318225) @ (-49)));
  (119%N, (#, #, #, (-302852298247679) @ (-44)));
  (120%N, ((-1947521753537519) @ (-47), #, (-3767046657841615) @ (-48), (-6752474475355211) @ (-49)));
  (121%N, ((-8233949048441833) @ (-49), (-3817185134677383) @ (-48), (-3984680263625049) @ (-48), #));
  (122%N, ((-4260759154773655) @ (-48), (-3107509511504133) @ (-48), (-6507662259421707) @ (-49), (-3437151102035493) @ (-48)));
  (123%N, ((-6748291847658751) @ (-49), #, (-7756962757402879) @ (-49), (-3452684697072041) @ (-48)));
  (124%N, ((-5870288502082269) @ (-49), #, (-681305692719799) @ (-46), (-5804809346835969) @ (-49)));
  (125%N, ((-7058655718752843) @ (-49), (-4240545284906009) @ (-48), (-2078626915425975) @ (-47), (-3951094144080465) @ (-48)));
  (126%N, (#, #, #, (-302852298247679) @ (-44)));
  (127%N, (#, (-8871297742822353) @ (-49), (-6801678701340051) @ (-49), (-1783406489466885) @ (-47)));
  (128%N, (#, #, #, (-2130163006223681) @ (-47)));
  (129%N, (#, #, #, (-70881326618687) @ (-42)));
  (130%N, (#, #, #, (-4392620273043229) @ (-48)));
  (131%N, (#, #, #, (-7951171338784367) @ (-49)));
  (132%N, ((-5217397885682801) @ (-49), (-305587555302627) @ (-45), (-2760488706906565) @ (-48), (-6297654431751161) @ (-49)));
  (133%N, ((-6761857563197751) @ (-49), (-338732754759519) @ (-45), (-5363208368412865) @ (-49), (-1625339725946889) @ (-47)));
  (134%N, (#, #, #, (-880642292618137) @ (-46)));
  (135%N, (#, #, #, (-7115940211661285) @ (-49)));
  (136%N, (#, #, #, (-8910859197905059) @ (-49)));
  (137%N, ((-3099578987847313) @ (-48), (-105327943197979) @ (-43), (-2442751514167127) @ (-48), (-5989050306353355) @ (-49)));
  (138%N, (#, #, #, (-3333936558074267) @ (-48)));
  (140%N, (#, (-8252834006088559) @ (-49), (-483818997720415) @ (-45), (-3702723670134365) @ (-48)));
  (141%N, ((-424016655625409) @ (-45), #, (-6047663362612137) @ (-49), (-3307704841892339) @ (-48)));
  (142%N, (#, #, #, (-897148847068159) @ (-46)));
  (143%N, (#, #, #, (-8292395461171265) @ (-49)));
  (144%N, (#, #, #, (-8292395461171265) @ (-49)));
  (145%N, (#, #, #, (-8910859197905059) @ (-49)));
  (146%N, ((-8462205612165291) @ (-49), #, (-4204275375441935) @ (-48), (-4297911758076491) @ (-48)));
  (147%N, (#, #, #, (-3102641684453985) @ (-48)));
  (148%N, ((-1607359885358511) @ (-47), (-6069645714336419) @ (-49), (-5476150490483507) @ (-49), (-5972821386994049) @ (-49)));
  (149%N, (#, #, #, (-1745563646303515) @ (-47)));
  (150%N, ((-3321712214036881) @ (-48), (-3357982123500955) @ (-48), (-222100499235933) @ (-44), (-3233672435585285) @ (-48)));
  (151%N, (#, #, #, (-6284250228178101) @ (-49)));
  (152%N, (#, #, #, (-8910859197905059) @ (-49)));
  (153%N, (#, #, #, (-2130163006223681) @ (-47)));
  (154%N, ((-1947521753537519) @ (-47), (-5957384491968179) @ (-49), (-7696043924970107) @ (-49), (-1797570806504343) @ (-47)));
  (155%N, (#, #, (-4204275375441935) @ (-48), (-8910859197905059) @ (-49)));
  (156%N, (#, #, #, (-1664373966160355) @ (-47)));
  (157%N, (#, #, (-7615485311708039) @ (-49), (-8910859197905059) @ (-49)));
  (158%N, (#, #, #, (-302852298247679) @ (-44)));
  (159%N, ((-3312949639450323) @ (-48), (-5311000159530137) @ (-49), (-5355703773955565) @ (-49), (-2875731433401075) @ (-48)));
  (160%N, ((-5142712515229381) @ (-49), (-1431489092705661) @ (-47), (-5850903164825681) @ (-49), (-1745563646303515) @ (-47)));
  (161%N, (#, #, #, (-8033701757752085) @ (-49)));
  (162%N, (#, #, #, (-302852298247679) @ (-44)));
  (163%N, ((-1232033725999109) @ (-47), (-5687257416369995) @ (-49), (-689219036062075) @ (-46), (-10539555763405) @ (-40)));
  (164%N, (#, #, #, (-302852298247679) @ (-44)));
  (165%N, (#, #, #, (-3951094144080465) @ (-48)));
  (166%N, ((-6761857563197751) @ (-49), (-338732754759519) @ (-45), (-5363208368412865) @ (-49), (-1625339725946889) @ (-47)));
  (167%N, (#, #, #, (-108816228894371) @ (-43)));
  (168%N, ((-6598535576975875) @ (-49), (-3982632372491541) @ (-48), (-609902861438431) @ (-45), (-8576028482666403) @ (-50)));
  (170%N, (#, #, #, (-70881326618687) @ (-42)));
  (171%N, (#, #, (-571248877892569) @ (-45), (-4392620273043229) @ (-48)));
  (172%N, ((-4978407028710683) @ (-49), (-2903744473092393) @ (-48), (-3069417751170331) @ (-48), (-2725391714294153) @ (-48)));
  (173%N, ((-2011133004627089) @ (-47), #, #, (-8205616343142647) @ (-49)));
  (174%N, (#, #, #, (-4650533185457697) @ (-48)));
  (175%N, (#, (-7131195537680991) @ (-49), (-6448000012228133) @ (-49), (-7183698940977469) @ (-49)));
  (176%N, (#, #, #, (-3951094144080465) @ (-48)));
  (177%N, ((-571248877892569) @ (-45), (-7427359621511357) @ (-49), #, (-271331332318175) @ (-44)));
  (178%N, ((-2460131408882091) @ (-48), (-6028481538756893) @ (-49), (-373711712657777) @ (-45), (-5930286713686223) @ (-49)));
  (179%N, (#, #, #, (-4227173035229071) @ (-48)));
  (180%N, (#, #, (-6386960232334713) @ (-49), (-1783406489466885) @ (-47)));
  (181%N, ((-3480344808752985) @ (-48), (-8252834006088559) @ (-49), (-6901376920123951) @ (-49), (-4650533185457697) @ (-48)));
  (182%N, ((-6071320202748511) @ (-49), (-375889304995713) @ (-45), (-2759430244828247) @ (-48), (-3517497412055821) @ (-48)));
  (183%N, (#, #, #, (-4227173035229071) @ (-48)));
  (184%N, ((-4081744231472905) @ (-48), #, (-3256465860118603) @ (-48), (-7350030505863719) @ (-49)));
  (185%N, (#, #, #, (-8910859197905059) @ (-49)));
  (186%N, (#, #, #, (-8395033373076123) @ (-49)));
  (187%N, ((-1726226599619481) @ (-47), (-6823518783638375) @ (-49), (-7058655718752843) @ (-49), (-8033701757752085) @ (-49)));
  (188%N, ((-6367546241121769) @ (-49), (-3005360696119749) @ (-48), (-3359775170817407) @ (-48), (-440002733528793) @ (-45)));
  (189%N, (#, #, #, (-7926147221115621) @ (-49)));
  (190%N, (#, #, #, (-8395033373076123) @ (-49)));
  (191%N, (#, #, #, (-70881326618687) @ (-42)));
  (192%N, (#, #, #, (-3605255574468759) @ (-48)));
  (193%N, (#, #, #, (-3951094144080465) @ (-48)));
  (194%N, (#, #, #, (-3535663390789959) @ (-48)));
  (195%N, (#, #, #, (-8910859197905059) @ (-49)));
  (196%N, (#, #, #, (-8910859197905059) @ (-49)));
  (197%N, ((-7249004624757861) @ (-50), (-8776144852988867) @ (-50), (-7218988730799349) @ (-50), (-1151737557363849) @ (-47)));
  (198%N, ((-6901376920123951) @ (-49), #, #, (-1969801887061797) @ (-47)));
  (199%N, (#, #, (-571248877892569) @ (-45), (-1783406489466885) @ (-47)));
  (200%N, (#, #, #, (-8064138897447807) @ (-49)));
  (201%N, (#, #, #, (-6764779882313803) @ (-49)));
  (202%N, ((-2220397678065393) @ (-48), (-294048434203793) @ (-45), (-78974814125263) @ (-43), (-4603326939535661) @ (-49)));
  (203%N, ((-1658101860833211) @ (-47), #, (-546860929579423) @ (-45), (-1994339944854797) @ (-47)));
  (204%N, (#, #, #, (-3870118839437027) @ (-48)));
  (205%N, (#, #, #, (-302852298247679) @ (-44)));
  (206%N, (#, #, #, (-70881326618687) @ (-42)));
  (207%N, (#, #, #, (-4650533185457697) @ (-48)));
  (208%N, (#, #, #, (-70881326618687) @ (-42)));
  (209%N, ((-8100873996841253) @ (-49), (-2789210315202571) @ (-48), (-5274046838839893) @ (-49), (-6746421191725615) @ (-49)));
  (211%N, (#, #, #, (-4392620273043229) @ (-48)));
  (212%N, (#, #, #, (-7951171338784367) @ (-49)));
  (213%N, (#, (-5967007802431561) @ (-49), (-5902764238226913) @ (-49), (-225115232174701) @ (-44)));
  (214%N, (#, #, #, (-4392620273043229) @ (-48)));
  (215%N, (#, #, #, (-302852298247679) @ (-44)));
  (216%N, ((-7502517753044599) @ (-49), #, (-1652749980689287) @ (-47), (-7658507473194481) @ (-49)));
  (217%N, (#, #, #, (-70881326618687) @ (-42)));
  (218%N, (#, (-3312849679805319) @ (-48), (-798723641565743) @ (-46), (-3870118839437027) @ (-48)));
  (219%N, (#, #, #, (-7795654513279065) @ (-49)));
  (220%N, ((-3375489482355113) @ (-48), (-5709336715012785) @ (-49), (-2435639883570373) @ (-48), (-6164222518044545) @ (-49)));
  (221%N, ((-571248877892569) @ (-45), #, #, (-8910859197905059) @ (-49)));
  (222%N, (#, #, #, (-4297911758076491) @ (-48)));
  (223%N, ((-2718096441466453) @ (-48), (-2799958095750721) @ (-48), (-6342225880772177) @ (-49), (-1454635128559023) @ (-47)));
  (224%N, ((-1352554430328277) @ (-47), (-1067376933923455) @ (-47), (-4984332260921037) @ (-49), (-5954829444368915) @ (-49)));
  (225%N, ((-2361042245674409) @ (-48), (-5068137942866169) @ (-49), (-2505805920611467) @ (-48), (-5159130450318225) @ (-49)));
  (226%N, (#, #, #, (-4297911758076491) @ (-48)));
  (227%N, (#, #, #, (-4048158111928321) @ (-48)));
  (228%N, (#, #, #, (-3582197954329907) @ (-48)));
  (229%N, (#, #, #, (-8205616343142647) @ (-49)));
  (230%N, ((-1624746993624259) @ (-47), #, (-571248877892569) @ (-45), (-7275959601375213) @ (-49)));
  (231%N, ((-777075903619197) @ (-46), (-6262177274778075) @ (-49), (-5352100881955763) @ (-49), (-1399906933177061) @ (-47)));
  (232%N, ((-316457551916509) @ (-45), (-428372245208381) @ (-45), (-6020527991638953) @ (-49), (-2856843414997697) @ (-48)));
  (233%N, ((-5439591244492663) @ (-49), (-6794643225952077) @ (-49), (-2876364578256919) @ (-48), (-1656258248562015) @ (-47)));
  (234%N, (#, #, #, (-4650533185457697) @ (-48)));
  (235%N, ((-3801556143597227) @ (-48), (-3115151835519143) @ (-48), (-784925711962281) @ (-46), (-7350030505863719) @ (-49)));
  (236%N, ((-6551267270149819) @ (-49), #, #, (-8205616343142647) @ (-49)));
  (237%N, ((-760647580132405) @ (-46), (-3292735769582677) @ (-48), (-6810591023946373) @ (-49), (-6897440390483705) @ (-49)));
  (238%N, (#, #, (-6068909278492185) @ (-49), (-943539134077359) @ (-46)));
  (239%N, ((-5585770467706197) @ (-49), (-2650005273960281) @ (-48), (-2489087966333723) @ (-48), (-2857565454666937) @ (-48)));
  (240%N, ((-3442027008155403) @ (-48), (-8252834006088559) @ (-49), (-6915629578949437) @ (-49), (-3256584737927489) @ (-48)));
  (241%N, ((-5870288502082269) @ (-49), #, (-681305692719799) @ (-46), (-302852298247679) @ (-44)));
  (242%N, ((-7058655718752843) @ (-49), (-4240545284906009) @ (-48), (-2078626915425975) @ (-47), (-4392620273043229) @ (-48)));
  (243%N, ((-8013014840894791) @ (-50), (-7958180984717087) @ (-50), (-464597908179507) @ (-46), (-3480055261530695) @ (-49)));
  (244%N, ((-1697502731782709) @ (-47), (-6246014922008839) @ (-49), (-7231568147748981) @ (-49), (-7158105899608537) @ (-49)));
  (246%N, ((-2984945817999611) @ (-48), (-2819137182873279) @ (-48), (-3109348049726011) @ (-48), (-6437004250969885) @ (-49)));
  (248%N, (#, #, #, (-4650533185457697) @ (-48)));
  (249%N, ((-6207302059190055) @ (-49), (-6566386662228619) @ (-49), (-6645653935753893) @ (-49), (-691938372010433) @ (-46)));
  (250%N, ((-3638841694013343) @ (-48), (-3005360696119749) @ (-48), (-7313100723111123) @ (-49), (-3118628787138913) @ (-48)));
  (251%N, ((-6748291847658751) @ (-49), #, (-7756962757402879) @ (-49), (-3452684697072041) @ (-48)));
  (252%N, (#, #, #, (-302852298247679) @ (-44)));
  (253%N, (#, #, #, (-8395033373076123) @ (-49)));
  (254%N, (#, #, #, (-302852298247679) @ (-44)))].

(** prob_emit.py, characters 0x6100 to 0x61ff *)
Definition emit_61 : list (N * num4) := [
  (0%N, (#, (-8090883396801683) @ (-49), #, (-976926146266539) @ (-46)));
  (1%N, ((-6144309937249403) @ (-49), (-1592576856228499) @ (-47), (-2654454348746419) @ (-48), (-5709853964442349) @ (-49)));
  (2%N, (#, #, #, (-302852298247679) @ (-44)));
  (3%N, (#, #, #, (-4650533185457697) @ (-48)));
  (5%N, (#, #, #, (-4392620273043229) @ (-48)));
  (6%N, ((-571248877892569) @ (-45), #, (-2011133004627089) @ (-47), (-3662121014844325) @ (-48)));
  (7%N, (#, #, #, (-4650533185457697) @ (-48)));
  (8%N, ((-5381354607397265) @ (-49), (-2757050514554025) @ (-48), (-5509580062226937) @ (-49), (-1313959971734371) @ (-47)));
  (9%N, ((-1415819463559715) @ (-47), (-3606862978324355) @ (-48), (-1761217125044983) @ (-47), (-820927677550331) @ (-46)));
  (10%N, (#, #, #, (-302852298247679) @ (-44)));
  (12%N, (#, #, #, (-2130163006223681) @ (-47)));
  (13%N, (#, (-3817185134677383) @ (-48), #, (-3733460538297031) @ (-48)));
  (14%N, (#, (-1688482578221107) @ (-47), (-1975763643203379) @ (-47), (-3870118839437027) @ (-48)));
  (15%N, ((-3672677940073327) @ (-49), (-7630404031139397) @ (-50), (-7134009135867037) @ (-50), (-8717662941855521) @ (-50)));
  (16%N, (#, #, #, (-302852298247679) @ (-44)));
  (18%N, (#, #, #, (-271331332318175) @ (-44)));
  (20%N, (#, #, #, (-8130444851884389) @ (-49)));
  (21%N, ((-1585882629060587) @ (-47), #, (-6647892308299007) @ (-49), (-3211636541784881) @ (-48)));
  (22%N, (#, #, #, (-4650533185457697) @ (-48)));
  (23%N, (#, #, #, (-302852298247679) @ (-44)));
  (24%N, (#, #, #, (-8205616343142647) @ (-49)));
  (25%N, (#, #, #, (-4650533185457697) @ (-48)));
  (26%N, ((-5687593100752527) @ (-49), (-7131195537680991) @ (-49), (-6017592131251313) @ (-49), (-3089155273775353) @ (-48)));
  (27%N, ((-8435143890951347) @ (-50), (-8084725246749355) @ (-50), (-4260759154773655) @ (-48), (-8033701757752085) @ (-49)));
  (28%N, ((-6551267270149819) @ (-49), #, #, (-8205616343142647) @ (-49)));
  (29%N, (#, #, #, (-4650533185457697) @ (-48)));
  (30%N, (#, #, #, (-8395033373076123) @ (-49)));
  (31%N, ((-7648078073721861) @ (-50), (-2136583958948109) @ (-48), (-8770954413445391) @ (-50), (-1205147268092297) @ (-47)));
  (32%N, ((-3767046657841615) @ (-48), #, #, (-7082153075881451) @ (-49)));
  (34%N, (#, #, #, (-70881326618687) @ (-42)));
  (35%N, ((-100973958080197) @ (-43), (-3357982123500955) @ (-48), (-7219057633931153) @ (-49), (-5506158696931835) @ (-49)));
  (36%N, ((-5154597455664879) @ (-49), (-5492801516812155) @ (-49), (-2729261218585735) @ (-48), (-6196148077922609) @ (-49)));
  (37%N, (#, #, #, (-302852298247679) @ (-44)));
  (38%N, (#, #, (-4081744231472905) @ (-48), (-3888284818171165) @ (-48)));
  (39%N, ((-412537118574835) @ (-45), (-5743081644318359) @ (-49), (-2764916666040111) @ (-48), (-6390342646743027) @ (-49)));
  (40%N, (#, #, (-571248877892569) @ (-45), (-8292395461171265) @ (-49)));
  (41%N, (#, #, #, (-906660926466427) @ (-46)));
  (42%N, (#, #, #, (-6413190128293401) @ (-49)));
  (43%N, (#, (-8252834006088559) @ (-49), (-3736309789678949) @ (-48), (-3888284818171165) @ (-48)));
  (44%N, (#, #, #, (-1542399837326325) @ (-47)));
  (45%N, (#, #, #, (-6321200666391935) @ (-49)));
  (46%N, (#, #, #, (-3350102242753159) @ (-48)));
  (47%N, (#, #, #, (-6909376172293041) @ (-49)));
  (48%N, (#, #, #, (-3460785255448521) @ (-48)));
  (49%N, (#, #, #, (-2130163006223681) @ (-47)));
  (50%N, (#, #, #, (-4650533185457697) @ (-48)));
  (52%N, (#, #, (-3569249510334543) @ (-48), (-7500373488380235) @ (-49)));
  (54%N, (#, #, #, (-3292611846428319) @ (-48)));
  (55%N, ((-4260759154773655) @ (-48), (-3107509511504133) @ (-48), (-6507662259421707) @ (-49), (-3437151102035493) @ (-48)));
  (57%N, (#, #, #, (-302852298247679) @ (-44)));
  (58%N, (#, #, #, (-302852298247679) @ (-44)));
  (59%N, (#, #, #, (-70881326618687) @ (-42)));
  (61%N, (#, #, #, (-70881326618687) @ (-42)));
  (62%N, (#, (-3478296917619477) @ (-48), (-106184602910939) @ (-43), (-8910859197905059) @ (-49)));
  (63%N, ((-2376794788442317) @ (-48), (-4661462461818435) @ (-49), (-4521778341383771) @ (-49), (-2372770286912947) @ (-48)));
  (64%N, (#, #, #, (-4650533185457697) @ (-48)));
  (65%N, (#, #, #, (-8910859197905059) @ (-49)));
  (66%N, (#, #, #, (-2061833855653683) @ (-47)));
  (68%N, (#, #, #, (-302852298247679) @ (-44)));
  (69%N, (#, #, #, (-4650533185457697) @ (-48)));
  (70%N, (#, #, #, (-4650533185457697) @ (-48)));
  (71%N, (#, #, #, (-70881326618687) @ (-42)));
  (72%N, ((-2475500574449127) @ (-48), (-1343477857648519) @ (-47), (-727651442547653) @ (-46), (-3006948129193359) @ (-48)));
  (74%N, (#, #, (-609902861438431) @ (-45), (-3460785255448521) @ (-48)));
  (75%N, ((-4883156177813251) @ (-49), (-4923320830701797) @ (-49), (-4011837604051903) @ (-49), (-5515208995300813) @ (-49)));
  (76%N, ((-5579684462988887) @ (-49), (-2586504241598975) @ (-48), (-5805424482720873) @ (-49), (-679967739333335) @ (-46)));
  (77%N, ((-3767046657841615) @ (-48), #, #, (-302852298247679) @ (-44)));
  (78%N, ((-742153595799079) @ (-46), (-2656510762993541) @ (-48), (-5491178503258295) @ (-49), (-6284250228178101) @ (-49)));
  (81%N, ((-7924300488693565) @ (-49), (-3292735769582677) @ (-48), (-774642528970747) @ (-46), (-6678445256967907) @ (-49)));
  (82%N, (#, #, #, (-302852298247679) @ (-44)));
  (83%N, (#, #, #, (-1994339944854797) @ (-47)));
  (85%N, ((-5080098049124825) @ (-49), (-687830136541675) @ (-46), (-87613309058829) @ (-43), (-3166315757515667) @ (-48)));
  (87%N, (#, #, #, (-302852298247679) @ (-44)));
  (88%N, ((-316457551916509) @ (-45), (-428372245208381) @ (-45), (-6020527991638953) @ (-49), (-70881326618687) @ (-42)));
  (90%N, ((-760647580132405) @ (-46), (-3292735769582677) @ (-48), (-6810591023946373) @ (-49), (-6897440390483705) @ (-49)));
  (91%N, (#, #, #, (-3326189051272823) @ (-48)));
  (92%N, (#, (-8871297742822353) @ (-49), #, (-4650533185457697) @ (-48)));
  (93%N, (#, #, #, (-8064138897447807) @ (-49)));
  (95%N, ((-1947521753537519) @ (-47), #, (-3767046657841615) @ (-48), (-6752474475355211) @ (-49)));
  (98%N, ((-4826572619962903) @ (-49), (-731975968624813) @ (-46), (-1179407701973851) @ (-47), (-2625902193059699) @ (-48)));
  (99%N, ((-5585770467706197) @ (-49), (-2650005273960281) @ (-48), (-2489087966333723) @ (-48), (-2857565454666937) @ (-48)));
  (100%N, (#, #, #, (-302852298247679) @ (-44)));
  (101%N, (#, #, #, (-70881326618687) @ (-42)));
  (102%N, (#, #, #, (-302852298247679) @ (-44)));
  (103%N, ((-1336684853325653) @ (-47), (-8848939314613123) @ (-50), (-2451408372851113) @ (-48), (-1529256511115759) @ (-47)));
  (104%N, ((-6673120356400493) @ (-49), (-1323281807823189) @ (-47), (-21461170010211) @ (-41), (-1828975469458993) @ (-47)));
  (106%N, ((-7615485311708039) @ (-49), #, #, (-7435345513955431) @ (-49)));
  (107%N, ((-6810591023946373) @ (-49), #, (-4684119305002281) @ (-48), (-4650533185457697) @ (-48)));
  (110%N, (#, (-6114059055574939) @ (-49), (-8951873348984877) @ (-50), (-302852298247679) @ (-44)));
  (111%N, (#, #, #, (-302852298247679) @ (-44)));
  (112%N, ((-740197696008265) @ (-46), (-1544044872304571) @ (-47), (-2626476460972659) @ (-48), (-6255838467337193) @ (-49)));
  (113%N, (#, #, #, (-4650533185457697) @ (-48)));
  (115%N, ((-2011133004627089) @ (-47), #, #, (-8205616343142647) @ (-49)));
  (116%N, (#, #, #, (-271331332318175) @ (-44)));
  (117%N, ((-7502517753044599) @ (-49), #, #, (-1822899526423839) @ (-47)));
  (118%N, ((-2494041074790125) @ (-48), (-8064354964170667) @ (-50), (-2277658350103973) @ (-48), (-2669415233092313) @ (-48)));
  (119%N, ((-5836391956844343) @ (-49), (-7157383978315813) @ (-49), (-8272788582231815) @ (-49), (-3549396601113259) @ (-48)));
  (120%N, (#, #, #, (-4170689255897351) @ (-48)));
  (121%N, (#, #, #, (-271331332318175) @ (-44)));
  (122%N, (#, #, #, (-8910859197905059) @ (-49)));
  (123%N, (#, #, #, (-302852298247679) @ (-44)));
  (124%N, (#, #, #, (-302852298247679) @ (-44)));
  (125%N, (#, #, #, (-302852298247679) @ (-44)));
  (126%N, (#, #, #, (-4297911758076491) @ (-48)));
  (128%N, (#, #, #, (-302852298247679) @ (-44)));
  (130%N, ((-5348297907346827) @ (-49), (-2679716592864669) @ (-48), (-2766614628273723) @ (-48), (-5477000571390183) @ (-49)));
  (131%N, (#, #, #, (-302852298247679) @ (-44)));
  (132%N, (#, #, #, (-302852298247679) @ (-44)));
  (134%N, (#, #, #, (-302852298247679) @ (-44)));
  (135%N, (#, #, #, (-302852298247679) @ (-44)));
  (136%N, (#, #, #, (-302852298247679) @ (-44)));
  (137%N, (#, #, #, (-7706109050846307) @ (-49)));
  (138%N, ((-3801556143597227) @ (-48), (-3115151835519143) @ (-48), (-784925711962281) @ (-46), (-302852298247679) @ (-44)));
  (139%N, ((-7122640226792847) @ (-49), #, #, (-5861240576053463) @ (-49)));
  (141%N, (#, #, #, (-8910859197905059) @ (-49)));
  (142%N, ((-3127723381371779) @ (-48), (-874429171128617) @ (-46), (-3383688362297743) @ (-48), (-3415348596671437) @ (-48)));
  (144%N, ((-6034686314485429) @ (-49), (-5758505895561349) @ (-49), (-5392578159556465) @ (-49), (-6401650486542557) @ (-49)));
  (145%N, ((-5311200078820145) @ (-49), (-6547927632997723) @ (-49), (-5910578938617203) @ (-49), (-4821081204539197) @ (-49)));
  (146%N, (#, #, (-4081744231472905) @ (-48), (-3888284818171165) @ (-48)));
  (148%N, ((-1601766931317963) @ (-47), (-7385640542039271) @ (-49), #, (-1994339944854797) @ (-47)));
  (150%N, (#, #, #, (-2001206550016447) @ (-47)));
  (151%N, (#, #, #, (-4297911758076491) @ (-48)));
  (154%N, (#, #, (-6068909278492185) @ (-49), (-8292395461171265) @ (-49)));
  (156%N, (#, #, #, (-7367903434101099) @ (-49)));
  (157%N, (#, #, #, (-4297911758076491) @ (-48)));
  (158%N, (#, #, #, (-7951171338784367) @ (-49)));
  (159%N, (#, #, #, (-2130163006223681) @ (-47)));
  (161%N, (#, #, #, (-7139646870377641) @ (-49)));
  (164%N, ((-5154597455664879) @ (-49), (-5492801516812155) @ (-49), (-2729261218585735) @ (-48), (-6196148077922609) @ (-49)));
  (166%N, (#, #, #, (-4650533185457697) @ (-48)));
  (167%N, ((-6748291847658751) @ (-49), (-8090883396801683) @ (-49), (-4426206392587813) @ (-48), (-906660926466427) @ (-46)));
  (168%N, ((-3470737221580077) @ (-48), (-7310469050781013) @ (-49), (-985322676152685) @ (-46), (-1617756073932301) @ (-47)));
  (169%N, ((-6901376920123951) @ (-49), #, (-7040346789497085) @ (-49), (-7587152606408853) @ (-49)));
  (170%N, (#, #, #, (-4392620273043229) @ (-48)));
  (171%N, (#, (-7131195537680991) @ (-49), (-6448000012228133) @ (-49), (-7183698940977469) @ (-49)));
  (172%N, ((-571248877892569) @ (-45), #, (-842869473648881) @ (-46), (-7489000375236853) @ (-49)));
  (174%N, ((-8272788582231815) @ (-49), #, #, #));
  (175%N, (#, #, #, (-7795654513279065) @ (-49)));
  (176%N, (#, #, #, (-70881326618687) @ (-42)));
  (178%N, ((-4516462631362815) @ (-49), (-8992202451934445) @ (-50), (-1402609824953375) @ (-47), (-3252634147087553) @ (-48)));
  (179%N, (#, #, #, (-3307704841892339) @ (-48)));
  (181%N, (#, #, #, (-302852298247679) @ (-44)));
  (182%N, ((-3448934716216021) @ (-48), (-2588087789948435) @ (-48), (-323143921423243) @ (-45), (-6603607365691809) @ (-49)));
  (183%N, ((-609902861438431) @ (-45), #, (-8462205612165291) @ (-49), (-7425201997121977) @ (-49)));
  (184%N, (#, #, #, (-4297911758076491) @ (-48)));
  (186%N, (#, #, #, (-2130163006223681) @ (-47)));
  (187%N, (#, #, #, (-4650533185457697) @ (-48)));
  (189%N, (#, #, #, (-302852298247679) @ (-44)));
  (190%N, ((-1947521753537519) @ (-47), #, (-2820171965618367) @ (-48), (-440002733528793) @ (-45)));
  (191%N, (#, #, #, (-3408440888610819) @ (-48)));
  (194%N, ((-5330738590555197) @ (-49), (-3050797354896833) @ (-48), (-6132515227976433) @ (-49), (-5022420230725163) @ (-49)));
  (197%N, (#, #, #, (-8910859197905059) @ (-49)));
  (198%N, (#, #, #, (-7795654513279065) @ (-49)));
  (199%N, ((-6163900893513105) @ (-49), (-6615369712852055) @ (-49), (-6263320317011777) @ (-49), (-8205616343142647) @ (-49)));
  (200%N, ((-222100499235933) @ (-44), (-761679484000969) @ (-46), (-1509428233607159) @ (-47), (-850424662662967) @ (-46)));
  (201%N, ((-3665283298060497) @ (-49), (-8113268600916837) @ (-50), (-1922131938528945) @ (-48), (-7957045820538513) @ (-50)));
  (202%N, ((-195587739624079) @ (-44), #, #, (-7231493078902567) @ (-49)));
  (203%N, ((-3912641423100301) @ (-48), (-1604672177941807) @ (-47), (-7399879841139741) @ (-49), (-3728098948061275) @ (-48)));
  (204%N, (#, (-3817185134677383) @ (-48), (-1947521753537519) @ (-47), (-2061833855653683) @ (-47)));
  (205%N, (#, #, (-571248877892569) @ (-45), (-1848956007451337) @ (-47)));
  (209%N, (#, #, (-7013953676999103) @ (-49), (-8130444851884389) @ (-49)));
  (210%N, ((-5919117888189009) @ (-49), (-6657876686019473) @ (-49), (-3243532115846993) @ (-48), (-6094833198244625) @ (-49)));
  (211%N, (#, #, #, (-70881326618687) @ (-42)));
  (212%N, (#, #, (-571248877892569) @ (-45), (-1848956007451337) @ (-47)));
  (213%N, (#, #, #, (-302852298247679) @ (-44)));
  (214%N, (#, #, #, (-302852298247679) @ (-44)));
  (215%N, (#, #, #, (-3767970024052643) @ (-48)));
  (217%N, (#, #, #, (-8205616343142647) @ (-49)));
  (220%N, (#, #, #, (-7587152606408853) @ (-49)));
  (221%N, (#, #, #, (-8910859197905059) @ (-49)));
  (222%N, (#, #, #, (-271331332318175) @ (-44)));
  (223%N, (#, #, (-2017999609788739) @ (-47), (-70881326618687) @ (-42)));
  (224%N, (#, #, #, (-7614619027055453) @ (-49)));
  (225%N, (#, #, #, (-6478456086215057) @ (-49)));
  (226%N, (#, #, #, (-302852298247679) @ (-44)));
  (227%N, (#, #, (-7013953676999103) @ (-49), (-8130444851884389) @ (-49)));
  (230%N, ((-6582334460222915) @ (-49), (-8871297742822353) @ (-49), (-1761217125044983) @ (-47), (-3362866519325475) @ (-48)));
  (232%N, ((-8233949048441833) @ (-49), (-3817185134677383) @ (-48), (-3984680263625049) @ (-48), #));
  (235%N, (#, #, #, (-4650533185457697) @ (-48)));
  (237%N, (#, #, #, (-4650533185457697) @ (-48)));
  (238%N, (#, #, #, (-302852298247679) @ (-44)));
  (241%N, (#, #, #, (-4650533185457697) @ (-48)));
  (242%N, ((-5439591244492663) @ (-49), (-6794643225952077) @ (-49), (-2876364578256919) @ (-48), (-1656258248562015) @ (-47)));
  (245%N, ((-3582982720657843) @ (-48), (-3357982123500955) @ (-48), (-8462205612165291) @ (-49), (-3365783384564963) @ (-48)));
  (246%N, ((-5919117888189009) @ (-49), (-6657876686019473) @ (-49), (-3243532115846993) @ (-48), (-6094833198244625) @ (-49)));
  (247%N, ((-284469629436939) @ (-45), (-1167046321954483) @ (-47), (-2516233268241091) @ (-48), (-679489163764245) @ (-46)));
  (248%N, ((-4978407028710683) @ (-49), (-2903744473092393) @ (-48), (-3069417751170331) @ (-48), (-2725391714294153) @ (-48)));
  (250%N, ((-1667112136435627) @ (-47), #, (-546860929579423) @ (-45), (-7386362463331995) @ (-49)));
  (252%N, ((-777075903619197) @ (-46), (-6262177274778075) @ (-49), (-5352100881955763) @ (-49), (-1399906933177061) @ (-47)));
  (253%N, (#, (-8871297742822353) @ (-49), #, (-8064138897447807) @ (-49)));
  (254%N, ((-7924300488693565) @ (-49), (-3292735769582677) @ (-48), (-774642528970747) @ (-46), (-6678445256967907) @ (-49)));
  (255%N, ((-3498510787487123) @ (-48), (-2940114342201471) @ (-48), (-6271305556619797) @ (-49), (-6182717223307863) @ (-49)))].

(** prob_emit.py, characters 0x6200 to 0x62ff *)
Definition emit_62 : list (N * num4) := [
  (0%N, ((-5613644970975539) @ (-49), (-5418501600203023) @ (-49), (-5497245767028039) @ (-49), (-768809807031151) @ (-46)));
  (6%N, ((-546860929579423) @ (-45), #, #, (-8064138897447807) @ (-49)));
  (7%N, ((-546860929579423) @ (-45), #, #, (-8064138897447807) @ (-49)));
  (8%N, ((-2782867273409205) @ (-48), (-5144527839560413) @ (-49), (-5578676495032183) @ (-49), (-1590566825586219) @ (-47)));
  (9%N, (#, #, #, (-4650533185457697) @ (-48)));
  (10%N, ((-1605470763190823) @ (-47), (-3139408700561571) @ (-48), (-8018343577873535) @ (-49), (-6823747105641763) @ (-49)));
  (11%N, (#, #, #, (-4392620273043229) @ (-48)));
  (12%N, ((-571248877892569) @ (-45), (-1451264298286171) @ (-47), (-3663958025301281) @ (-48), (-225115232174701) @ (-44)));
  (13%N, ((-3476462333727023) @ (-48), (-6000328174823807) @ (-49), (-3470737221580077) @ (-48), (-6783757520474441) @ (-49)));
  (14%N, ((-5925919123563701) @ (-49), (-784151982854103) @ (-46), (-6659219651292893) @ (-49), (-6316973237614355) @ (-49)));
  (15%N, ((-2446152619095741) @ (-48), (-2556571685577051) @ (-48), (-4851749190958431) @ (-49), (-5175153393474945) @ (-49)));
  (16%N, ((-395004811375883) @ (-46), (-3466703033566831) @ (-49), (-6179458101987665) @ (-50), (-7322191530222423) @ (-50)));
  (17%N, ((-3131859817681789) @ (-49), (-4800852552400737) @ (-49), (-5171278674747175) @ (-49), (-634983680069663) @ (-47)));
  (18%N, ((-5301269061350785) @ (-49), (-1514529331517609) @ (-47), (-5252764738773443) @ (-49), (-5553300807369179) @ (-49)));
  (20%N, (#, #, #, (-8064138897447807) @ (-49)));
  (21%N, ((-1910269588269243) @ (-47), #, #, (-3728098948061275) @ (-48)));
  (22%N, ((-1028227103477535) @ (-47), (-5364957763466567) @ (-49), (-2959866399042289) @ (-48), (-3343186023176713) @ (-49)));
  (23%N, (#, #, (-238379262651975) @ (-44), (-7386362463331995) @ (-49)));
  (24%N, ((-6909316309201679) @ (-50), (-1748118431050233) @ (-48), (-7527061207449111) @ (-50), (-71471832589457) @ (-43)));
  (25%N, (#, #, #, (-7275959601375213) @ (-49)));
  (26%N, ((-2786831775239393) @ (-48), (-6284475237223739) @ (-49), (-5536957415560097) @ (-49), (-1604552257962345) @ (-47)));
  (27%N, ((-106184602910939) @ (-43), (-1643962057175493) @ (-47), #, (-7231493078902567) @ (-49)));
  (28%N, (#, #, #, (-6033065910559427) @ (-49)));
  (29%N, (#, #, #, (-5906092384552723) @ (-49)));
  (30%N, (#, #, #, (-3107870472150495) @ (-48)));
  (31%N, ((-609902861438431) @ (-45), (-6680397687276859) @ (-49), (-6162005437333793) @ (-49), (-5800305723189169) @ (-49)));
  (32%N, (#, #, #, (-6219270422654963) @ (-49)));
  (33%N, ((-4204275375441935) @ (-48), (-7575057571972747) @ (-49), (-2146956065995973) @ (-47), (-8166776809352665) @ (-49)));
  (34%N, ((-609902861438431) @ (-45), #, #, (-976926146266539) @ (-46)));
  (35%N, (#, #, #, (-1573399888152681) @ (-47)));
  (36%N, (#, #, #, (-70881326618687) @ (-42)));
  (37%N, (#, #, #, (-8166776809352665) @ (-49)));
  (38%N, (#, #, #, (-6859388750389055) @ (-49)));
  (39%N, (#, #, (-238379262651975) @ (-44), (-7386362463331995) @ (-49)));
  (41%N, (#, (-8090883396801683) @ (-49), (-3756423699901591) @ (-48), (-4392620273043229) @ (-48)));
  (42%N, ((-301124364470377) @ (-45), (-5417281773174451) @ (-49), (-1369528119716063) @ (-47), (-1399221601444727) @ (-47)));
  (44%N, (#, (-8090883396801683) @ (-49), (-3756423699901591) @ (-48), (-4392620273043229) @ (-48)));
  (46%N, ((-8272788582231815) @ (-49), (-3736209830033945) @ (-48), (-3123290612960941) @ (-48), (-420540146700683) @ (-45)));
  (47%N, (#, #, #, (-6552293256029903) @ (-49)));
  (48%N, ((-6909316309201679) @ (-50), (-1748118431050233) @ (-48), (-7527061207449111) @ (-50), (-71471832589457) @ (-43)));
  (50%N, ((-2446152619095741) @ (-48), (-2556571685577051) @ (-48), (-4851749190958431) @ (-49), (-302852298247679) @ (-44)));
  (51%N, ((-7250871180066637) @ (-49), (-491414177067389) @ (-45), (-7453534702421163) @ (-49), (-2830694211281689) @ (-48)));
  (52%N, ((-4996611857510847) @ (-49), (-2689790331163689) @ (-48), (-355423687555933) @ (-45), (-4968739768590901) @ (-49)));
  (53%N, (#, #, #, (-302852298247679) @ (-44)));
  (54%N, ((-2555194531469769) @ (-48), (-4788355477403469) @ (-49), (-8226960050127071) @ (-50), (-5014728582704387) @ (-49)));
  (55%N, ((-2555194531469769) @ (-48), (-4788355477403469) @ (-49), (-8226960050127071) @ (-50), (-5014728582704387) @ (-49)));
  (57%N, (#, #, #, (-302852298247679) @ (-44)));
  (61%N, (#, #, #, (-8910859197905059) @ (-49)));
  (62%N, (#, #, (-3403802272520385) @ (-48), (-3582197954329907) @ (-48)));
  (63%N, ((-1068204391362203) @ (-47), (-5053263040798937) @ (-49), (-8786786690322063) @ (-50), (-2378467387066531) @ (-48)));
  (64%N, ((-3406733055901867) @ (-49), (-224379264257997) @ (-45), (-8249209080597919) @ (-50), (-840288778899115) @ (-47)));
  (65%N, ((-2862315782494339) @ (-48), (-3469067403004029) @ (-48), (-2984945817999611) @ (-48), (-5582233456476185) @ (-49)));
  (66%N, (#, #, #, (-302852298247679) @ (-44)));
  (67%N, (#, #, #, (-4297911758076491) @ (-48)));
  (70%N, (#, #, #, (-976926146266539) @ (-46)));
  (71%N, ((-5890365258760307) @ (-49), (-7244163096344431) @ (-49), (-5451248036482201) @ (-49), (-5217725556840273) @ (-49)));
  (72%N, ((-3290170857472073) @ (-48), (-3312849679805319) @ (-48), (-6485381270938547) @ (-49), (-1853809505254573) @ (-47)));
  (73%N, ((-3855333411915459) @ (-48), #, (-6285263708531205) @ (-49), (-976926146266539) @ (-46)));
  (75%N, ((-3594203550339035) @ (-49), (-8260510783051935) @ (-50), (-7071394169318813) @ (-50), (-7834793343628027) @ (-50)));
  (76%N, (#, #, #, (-1994339944854797) @ (-47)));
  (77%N, ((-5131679936589365) @ (-49), (-1157025463702395) @ (-47), (-8040700081077503) @ (-50), (-1771196616712993) @ (-48)));
  (78%N, ((-2752719265245223) @ (-48), (-5121006926932823) @ (-49), (-5278756102580269) @ (-49), (-5197764864793341) @ (-49)));
  (81%N, ((-5528296476216021) @ (-49), (-5795433882681303) @ (-49), (-760647580132405) @ (-46), (-4953336274706863) @ (-49)));
  (82%N, ((-6729832818427855) @ (-49), (-7106171420012245) @ (-49), (-4204275375441935) @ (-48), (-5733252655234275) @ (-49)));
  (83%N, ((-7398763569368221) @ (-50), (-4743909142116503) @ (-49), (-4798933927078607) @ (-49), (-7639655491557993) @ (-50)));
  (84%N, ((-6293568705673569) @ (-49), #, #, (-5339324715517007) @ (-49)));
  (88%N, ((-2554319252267305) @ (-48), (-4357954854804731) @ (-49), (-2393604854947155) @ (-48), (-1283335493535789) @ (-47)));
  (91%N, ((-2078626915425975) @ (-47), (-8871297742822353) @ (-49), #, (-2944712991108693) @ (-48)));
  (92%N, (#, #, #, (-2061833855653683) @ (-47)));
  (94%N, (#, #, #, (-4650533185457697) @ (-48)));
  (96%N, (#, #, #, (-7523833130877875) @ (-49)));
  (98%N, (#, #, #, (-976926146266539) @ (-46)));
  (99%N, ((-1420077060133151) @ (-47), (-1643962057175493) @ (-47), (-2821674170527261) @ (-48), (-87010858271299) @ (-43)));
  (100%N, (#, #, #, (-2061833855653683) @ (-47)));
  (101%N, (#, #, #, (-4650533185457697) @ (-48)));
  (102%N, ((-1826459187989943) @ (-47), #, #, (-1930728693765227) @ (-47)));
  (103%N, ((-8166263767866293) @ (-50), (-2641238908720209) @ (-48), (-2867585358739653) @ (-48), (-2679217584440531) @ (-48)));
  (105%N, ((-8489379916675267) @ (-50), (-3036770788656713) @ (-48), (-2973092488641433) @ (-48), (-5432985846660805) @ (-49)));
  (106%N, ((-3921870937715749) @ (-48), (-8871297742822353) @ (-49), #, (-7500373488380235) @ (-49)));
  (107%N, ((-2603707655211571) @ (-48), (-2844614611037823) @ (-48), (-2916345032497259) @ (-48), (-5434447675457877) @ (-49)));
  (108%N, ((-5078991513233577) @ (-49), (-1210243674621747) @ (-47), (-1185938363808403) @ (-47), (-1379225265339513) @ (-47)));
  (109%N, ((-5449644189376213) @ (-49), (-3125675490238271) @ (-48), (-6411471528329717) @ (-49), (-5631528016811575) @ (-49)));
  (110%N, ((-2881673406773621) @ (-48), (-3252133114292637) @ (-48), (-5568035659321063) @ (-49), (-2906963072260147) @ (-48)));
  (111%N, ((-3367522677618851) @ (-48), (-6669024574133477) @ (-49), (-2901709658014749) @ (-48), (-5210993046623765) @ (-49)));
  (112%N, ((-95382707368689) @ (-43), (-3005360696119749) @ (-48), (-5083570059349921) @ (-49), (-1533756494441647) @ (-47)));
  (113%N, (#, #, #, (-8033701757752085) @ (-49)));
  (115%N, ((-6270157849895209) @ (-49), #, (-546860929579423) @ (-45), (-6039889629906513) @ (-49)));
  (117%N, (#, #, #, (-4392620273043229) @ (-48)));
  (118%N, ((-5263209378884161) @ (-49), (-2907423936947123) @ (-48), (-6105348169183961) @ (-49), (-2582361506537485) @ (-48)));
  (121%N, ((-2096207587340315) @ (-48), (-5366069214870883) @ (-49), (-8939725772611755) @ (-50), (-4863823781417413) @ (-49)));
  (122%N, (#, #, #, (-8910859197905059) @ (-49)));
  (124%N, ((-1575803155951081) @ (-47), (-6338130098505161) @ (-49), #, (-3292611846428319) @ (-48)));
  (126%N, ((-4602123675630815) @ (-49), (-6538920241582019) @ (-49), (-1262411583904079) @ (-47), (-2046256395503371) @ (-48)));
  (127%N, ((-2154817967773963) @ (-48), (-7652272403246299) @ (-50), (-621596538429119) @ (-46), (-2305332373426843) @ (-48)));
  (128%N, ((-929155879064647) @ (-47), (-7383762359494533) @ (-50), (-4245601058720631) @ (-49), (-5733750620727533) @ (-49)));
  (129%N, (#, #, #, (-271331332318175) @ (-44)));
  (131%N, (#, #, #, (-4650533185457697) @ (-48)));
  (132%N, ((-1478403429151277) @ (-47), (-398981976780441) @ (-45), (-791327281750227) @ (-46), (-5616766647908639) @ (-49)));
  (133%N, (#, #, #, (-70881326618687) @ (-42)));
  (134%N, (#, #, #, (-70881326618687) @ (-42)));
  (135%N, (#, #, #, (-70881326618687) @ (-42)));
  (137%N, ((-6190134541933811) @ (-49), #, #, (-7926147221115621) @ (-49)));
  (138%N, ((-2484731923739937) @ (-48), (-4981452454767649) @ (-49), (-2376794788442317) @ (-48), (-1583201777629631) @ (-48)));
  (140%N, (#, #, #, (-302852298247679) @ (-44)));
  (141%N, (#, #, #, (-239810366388671) @ (-44)));
  (142%N, (#, #, #, (-4392620273043229) @ (-48)));
  (145%N, ((-1322676137884855) @ (-47), (-1725734743489383) @ (-47), (-1509428233607159) @ (-47), (-195067275690943) @ (-44)));
  (146%N, ((-5908765893721827) @ (-49), (-6284475237223739) @ (-49), (-7725679712283649) @ (-49), (-6973174550407917) @ (-49)));
  (147%N, ((-4825162379793009) @ (-49), (-6440768010410019) @ (-49), (-6219743448504675) @ (-49), (-4749602092373667) @ (-49)));
  (148%N, (#, #, #, (-271331332318175) @ (-44)));
  (149%N, ((-471995781060885) @ (-46), (-2561585367335417) @ (-48), (-5835861622416595) @ (-49), (-4839802880280215) @ (-49)));
  (150%N, ((-6162005437333793) @ (-49), (-6185641055691637) @ (-49), (-2802568374637173) @ (-48), (-5591443477088221) @ (-49)));
  (151%N, ((-4134970821575327) @ (-49), (-5193101620843089) @ (-49), (-4810907520229239) @ (-49), (-5109340174258811) @ (-49)));
  (152%N, ((-2419487531039581) @ (-48), (-1263475417038587) @ (-47), (-623187677515381) @ (-46), (-4967205844063043) @ (-49)));
  (154%N, ((-2708362942872653) @ (-48), (-2635073245689507) @ (-48), (-5307455386829907) @ (-49), (-1398928906389443) @ (-47)));
  (155%N, ((-5541967014388863) @ (-49), #, #, (-5390266559723787) @ (-49)));
  (156%N, (#, #, #, (-302852298247679) @ (-44)));
  (159%N, (#, #, (-3984680263625049) @ (-48), (-3767970024052643) @ (-48)));
  (160%N, ((-985322676152685) @ (-46), (-4240545284906009) @ (-48), #, (-6465514138001285) @ (-49)));
  (161%N, (#, (-4240545284906009) @ (-48), (-8462205612165291) @ (-49), (-6413190128293401) @ (-49)));
  (162%N, ((-5085663590782487) @ (-49), (-3095216074021885) @ (-48), (-6166756098044911) @ (-49), (-4814424789509547) @ (-49)));
  (164%N, ((-1226286427067517) @ (-47), (-7928648716382455) @ (-50), (-8055634797822235) @ (-50), (-2610460937300927) @ (-48)));
  (165%N, ((-7500377551962253) @ (-50), (-2417439639906073) @ (-48), (-7914593038033797) @ (-50), (-4291462761224635) @ (-49)));
  (168%N, ((-1575803155951081) @ (-47), #, #, (-4297911758076491) @ (-48)));
  (169%N, (#, #, #, (-302852298247679) @ (-44)));
  (170%N, (#, #, #, (-302852298247679) @ (-44)));
  (171%N, ((-1307521280534241) @ (-47), (-6404436052941743) @ (-49), (-6352748616180713) @ (-49), (-351557473597985) @ (-45)));
  (172%N, ((-2496224663503517) @ (-48), (-6205055046904581) @ (-49), (-3855333411915459) @ (-48), (-4961364217574453) @ (-49)));
  (174%N, (#, #, #, (-302852298247679) @ (-44)));
  (177%N, ((-2577456815439353) @ (-48), (-3036770788656713) @ (-48), (-1386596820877129) @ (-47), (-4789768885474161) @ (-49)));
  (180%N, (#, #, #, (-271331332318175) @ (-44)));
  (181%N, ((-71906331596791) @ (-43), (-1688482578221107) @ (-47), (-3031661810044707) @ (-48), (-5296952612966771) @ (-49)));
  (185%N, ((-6338330017795169) @ (-49), (-3050797354896833) @ (-48), (-6201182977710585) @ (-49), (-5356137931696041) @ (-49)));
  (186%N, (#, #, #, (-8910859197905059) @ (-49)));
  (187%N, ((-4684119305002281) @ (-48), #, #, (-1828975469458993) @ (-47)));
  (188%N, ((-6157294531571557) @ (-49), (-3038732294690165) @ (-48), (-5682322374893745) @ (-49), (-1391802637891485) @ (-47)));
  (189%N, ((-4891314303323009) @ (-49), (-6605226196018601) @ (-49), (-4331497877621075) @ (-48), (-1306842368742757) @ (-47)));
  (190%N, (#, #, #, (-70881326618687) @ (-42)));
  (191%N, ((-609902861438431) @ (-45), (-8871297742822353) @ (-49), (-3903704958981611) @ (-48), (-3166315757515667) @ (-48)));
  (194%N, ((-3011000841729041) @ (-48), (-6028481538756893) @ (-49), (-6964612629572873) @ (-49), (-2941447583526881) @ (-48)));
  (195%N, (#, #, #, (-2130163006223681) @ (-47)));
  (196%N, ((-8197617090973557) @ (-49), #, #, (-6474727927202407) @ (-49)));
  (197%N, ((-4319014507205491) @ (-49), (-5840096498027951) @ (-49), (-4761238259003181) @ (-49), (-679489163764245) @ (-46)));
  (198%N, ((-1305502700280365) @ (-47), (-6669024574133477) @ (-49), (-3551083531600405) @ (-48), (-5484629597735001) @ (-49)));
  (199%N, ((-6325535149909711) @ (-49), (-1365737848711963) @ (-47), #, (-1624853585607365) @ (-47)));
  (200%N, ((-6107920679159833) @ (-49), (-7082212487057555) @ (-49), #, (-3079448278168881) @ (-48)));
  (201%N, ((-4399642014028451) @ (-49), (-805148149139321) @ (-47), (-4543824773993615) @ (-49), (-8733191638612669) @ (-50)));
  (202%N, (#, #, #, (-3688528646784237) @ (-48)));
  (203%N, ((-5541967014388863) @ (-49), #, #, (-1744424065272691) @ (-47)));
  (204%N, ((-7092203087097125) @ (-49), (-1725734743489383) @ (-47), (-6030176677925703) @ (-49), (-5702736929658141) @ (-49)));
  (205%N, ((-4906873329304297) @ (-49), (-748345307410601) @ (-46), (-5796456948708731) @ (-49), (-4790607787786999) @ (-49)));
  (206%N, ((-2017999609788739) @ (-47), #, (-4426206392587813) @ (-48), (-1534010762782455) @ (-47)));
  (207%N, (#, #, #, (-4170689255897351) @ (-48)));
  (208%N, ((-2916872633357845) @ (-48), (-3383588402652739) @ (-48), (-6178323969866389) @ (-49), (-5552939362763875) @ (-49)));
  (209%N, (#, #, #, (-4392620273043229) @ (-48)));
  (210%N, ((-5078991513233577) @ (-49), (-3518576224250511) @ (-48), (-3070327202613245) @ (-48), (-2839821522672891) @ (-48)));
  (211%N, ((-2719926754313325) @ (-48), (-1396647827542697) @ (-47), (-1429535850760509) @ (-47), (-3279363519905739) @ (-48)));
  (212%N, ((-678296905203035) @ (-46), (-5303981992634493) @ (-49), (-4657802012747959) @ (-49), (-5263134310037747) @ (-49)));
  (213%N, (#, #, #, (-302852298247679) @ (-44)));
  (214%N, ((-5398884429203443) @ (-49), (-741943737622655) @ (-46), (-1762356706075807) @ (-47), (-5104757998176833) @ (-49)));
  (215%N, ((-6863946523373667) @ (-49), (-4240545284906009) @ (-48), (-3286220266632137) @ (-48), (-409385306142705) @ (-45)));
  (216%N, ((-5794483414861325) @ (-49), (-6024884402214819) @ (-49), (-3538790094118157) @ (-48), (-3244895515983039) @ (-48)));
  (217%N, ((-3442027008155403) @ (-48), (-3982632372491541) @ (-48), (-798723641565743) @ (-46), (-1649160736886951) @ (-47)));
  (218%N, ((-6147067248656047) @ (-49), #, (-7725679712283649) @ (-49), (-5826120483124295) @ (-49)));
  (219%N, ((-4101912996133557) @ (-49), (-4943962921512933) @ (-49), (-4772428582130089) @ (-49), (-4869268110875509) @ (-49)));
  (220%N, ((-642472509458477) @ (-46), (-5238229850297097) @ (-49), (-2610649328436445) @ (-48), (-297689395591011) @ (-45)));
  (221%N, (#, #, #, (-4650533185457697) @ (-48)));
  (222%N, (#, #, #, (-70881326618687) @ (-42)));
  (223%N, ((-5688000592593281) @ (-49), (-5824811849997931) @ (-49), (-5279150325252837) @ (-49), (-5435619877762557) @ (-49)));
  (224%N, (#, #, #, (-4297911758076491) @ (-48)));
  (225%N, (#, #, #, (-8292395461171265) @ (-49)));
  (226%N, ((-8462205612165291) @ (-49), (-6794643225952077) @ (-49), (-5940411080991481) @ (-49), (-5953355752549785) @ (-49)));
  (227%N, ((-7615485311708039) @ (-49), (-3292735769582677) @ (-48), (-1865749067223629) @ (-47), (-5922570144905195) @ (-49)));
  (228%N, (#, #, #, (-7926147221115621) @ (-49)));
  (229%N, ((-8980446641980307) @ (-50), (-5289231368315749) @ (-49), (-1385570399862663) @ (-47), (-5344291222837227) @ (-49)));
  (230%N, ((-5263784698253009) @ (-49), (-7385640542039271) @ (-49), (-5823799820588585) @ (-49), (-5719485507394831) @ (-49)));
  (231%N, ((-7862826752368233) @ (-49), (-8090883396801683) @ (-49), (-571248877892569) @ (-45), (-3026895167507057) @ (-48)));
  (232%N, ((-5452051676809145) @ (-49), (-1544044872304571) @ (-47), (-6011041896290259) @ (-49), (-83935856928091) @ (-43)));
  (233%N, ((-2943726470019187) @ (-48), (-641397077750735) @ (-46), (-1117629723995309) @ (-47), (-376488521127863) @ (-45)));
  (235%N, (#, #, #, (-3702723670134365) @ (-48)));
  (236%N, ((-3414425230460409) @ (-48), (-794651871930237) @ (-46), (-8076977671920847) @ (-50), (-784872081718739) @ (-46)));
  (237%N, ((-1794334638614767) @ (-47), #, (-1709551796309617) @ (-47), (-1607953933851967) @ (-47)));
  (238%N, ((-3448934716216021) @ (-48), #, #, (-3951094144080465) @ (-48)));
  (239%N, ((-6235692105890311) @ (-49), (-7015906532620973) @ (-49), (-6509413271575009) @ (-49), (-472560260360877) @ (-45)));
  (240%N, (#, #, #, (-6040748440070665) @ (-49)));
  (241%N, ((-5564096634829615) @ (-49), (-717614034706427) @ (-46), (-6293568705673569) @ (-49), (-2572387290747765) @ (-48)));
  (242%N, (#, #, #, (-4650533185457697) @ (-48)));
  (243%N, ((-5381591091313123) @ (-49), (-5858469455864531) @ (-49), (-5253706284323955) @ (-49), (-671552375675437) @ (-46)));
  (244%N, ((-4260759154773655) @ (-48), (-3318111047509587) @ (-48), (-7313100723111123) @ (-49), (-1505537701106085) @ (-47)));
  (245%N, (#, #, #, (-4650533185457697) @ (-48)));
  (246%N, (#, #, (-609902861438431) @ (-45), (-7926147221115621) @ (-49)));
  (247%N, ((-6392632320152465) @ (-49), (-7575057571972747) @ (-49), #, (-6649836563450353) @ (-49)));
  (249%N, (#, #, #, (-4392620273043229) @ (-48)));
  (250%N, (#, #, #, (-7706109050846307) @ (-49)));
  (251%N, (#, #, #, (-2061833855653683) @ (-47)));
  (252%N, ((-2637414492739835) @ (-48), (-6180890394980519) @ (-49), (-1671243093031943) @ (-47), (-5746345104706375) @ (-49)));
  (253%N, (#, #, (-4260759154773655) @ (-48), (-5727311175772157) @ (-49)));
  (254%N, ((-5836391956844343) @ (-49), (-6780742520844477) @ (-49), (-5354124670666523) @ (-49), (-5614746732022771) @ (-49)));
  (255%N, ((-4818337599848085) @ (-49), (-2181026559380067) @ (-48), (-5648264965786129) @ (-49), (-2058672770877393) @ (-48)))].

(** prob_emit.py, characters 0x6300 to 0x63ff *)
Definition emit_63 : list (N * num4) := [
  (0%N, (#, #, #, (-302852298247679) @ (-44)));
  (1%N, ((-577591350839445) @ (-46), (-8725228583424979) @ (-50), (-7474566571809797) @ (-50), (-5018631197664333) @ (-49)));
  (2%N, ((-5410964834831421) @ (-49), (-6003771304538387) @ (-49), (-2626476460972659) @ (-48), (-4735724656172987) @ (-49)));
  (4%N, (#, #, #, (-1994339944854797) @ (-47)));
  (7%N, ((-7296041108865377) @ (-50), (-2328670295372909) @ (-48), (-9119980614325) @ (-40), (-8685211551403647) @ (-50)));
  (8%N, (#, (-3478296917619477) @ (-48), (-1975763643203379) @ (-47), (-7425201997121977) @ (-49)));
  (9%N, ((-4317511970850645) @ (-49), (-6703857329774499) @ (-49), (-6530861578236825) @ (-49), (-511053106322983) @ (-46)));
  (11%N, (#, #, #, (-4170689255897351) @ (-48)));
  (12%N, (#, #, #, (-4170689255897351) @ (-48)));
  (13%N, (#, #, #, (-302852298247679) @ (-44)));
  (14%N, ((-7122640226792847) @ (-49), #, #, (-6069850218356117) @ (-49)));
  (15%N, (#, #, #, (-4650533185457697) @ (-48)));
  (17%N, ((-608659611691151) @ (-46), (-748345307410601) @ (-46), (-3172494649417) @ (-38), (-2607967785689269) @ (-48)));
  (18%N, (#, #, #, (-7857128249604397) @ (-49)));
  (19%N, (#, #, #, (-8130444851884389) @ (-49)));
  (21%N, (#, #, #, (-302852298247679) @ (-44)));
  (22%N, ((-5543857167099385) @ (-49), (-3736209830033945) @ (-48), (-6329343168624479) @ (-49), (-5205898442139357) @ (-49)));
  (23%N, (#, #, #, (-8205616343142647) @ (-49)));
  (24%N, (#, #, #, (-302852298247679) @ (-44)));
  (25%N, (#, #, #, (-7643494584741751) @ (-49)));
  (26%N, ((-1729812462090333) @ (-47), (-8090883396801683) @ (-49), (-3149788383235985) @ (-48), (-6859388750389055) @ (-49)));
  (27%N, ((-8197617090973557) @ (-49), (-7157383978315813) @ (-49), (-6530861578236825) @ (-49), (-3662121014844325) @ (-48)));
  (28%N, (#, #, #, (-4297911758076491) @ (-48)));
  (29%N, (#, (-7244163096344431) @ (-49), (-3287202728281269) @ (-48), (-7139646870377641) @ (-49)));
  (30%N, ((-4331497877621075) @ (-48), (-7310469050781013) @ (-49), (-1839692586196131) @ (-47), (-7523833130877875) @ (-49)));
  (31%N, ((-6566586581518627) @ (-49), #, (-6813593430814783) @ (-49), (-6003343174453771) @ (-49)));
  (32%N, ((-3577408776600841) @ (-48), (-1688482578221107) @ (-47), (-94140010802187) @ (-43), (-6175028031233341) @ (-49)));
  (33%N, ((-369373371330985) @ (-45), (-7106171420012245) @ (-49), (-5554689588714003) @ (-49), (-649193857639559) @ (-46)));
  (34%N, (#, #, #, (-8064138897447807) @ (-49)));
  (35%N, ((-5422546503537073) @ (-49), (-3469067403004029) @ (-48), (-985322676152685) @ (-46), (-5761316687352519) @ (-49)));
  (36%N, ((-2879121906200805) @ (-48), (-6869814717210335) @ (-49), (-45783090290615) @ (-42), (-2671771723858599) @ (-48)));
  (37%N, ((-1300171428400067) @ (-47), (-1052560656740843) @ (-47), (-4367818474018471) @ (-49), (-2507850851502237) @ (-48)));
  (38%N, (#, #, #, (-3951094144080465) @ (-48)));
  (39%N, (#, #, #, (-1969801887061797) @ (-47)));
  (40%N, ((-5714713385098435) @ (-49), (-6397442795887179) @ (-49), (-7681791266144621) @ (-49), (-2759469138461501) @ (-48)));
  (42%N, ((-5624100313862067) @ (-49), (-3887923857524803) @ (-48), (-1839692586196131) @ (-47), (-6013077421946465) @ (-49)));
  (43%N, ((-2879352907425679) @ (-48), #, (-204668166840431) @ (-44), (-6267288691631085) @ (-49)));
  (44%N, (#, #, #, (-70881326618687) @ (-42)));
  (46%N, (#, #, #, (-4650533185457697) @ (-48)));
  (47%N, ((-5131224904943881) @ (-49), (-8159184799322737) @ (-50), (-1341433074359221) @ (-47), (-2942423234336337) @ (-48)));
  (48%N, (#, #, #, (-1994339944854797) @ (-47)));
  (50%N, (#, #, (-1845768529231285) @ (-47), (-8033701757752085) @ (-49)));
  (51%N, (#, #, #, (-4392620273043229) @ (-48)));
  (52%N, (#, #, #, (-4297911758076491) @ (-48)));
  (53%N, (#, #, #, (-302852298247679) @ (-44)));
  (54%N, (#, #, #, (-3396745883983567) @ (-48)));
  (55%N, (#, #, #, (-70881326618687) @ (-42)));
  (56%N, (#, #, #, (-8910859197905059) @ (-49)));
  (57%N, ((-8272788582231815) @ (-49), (-8871297742822353) @ (-49), #, (-1994339944854797) @ (-47)));
  (58%N, ((-5533538995181627) @ (-49), (-5620514219229163) @ (-49), (-2927637806814769) @ (-48), (-5059672885573865) @ (-49)));
  (60%N, (#, #, #, (-8130444851884389) @ (-49)));
  (61%N, ((-5550842535336557) @ (-49), (-6171507678560299) @ (-49), (-609902861438431) @ (-45), (-5827295744414245) @ (-49)));
  (62%N, ((-6566586581518627) @ (-49), #, (-6813593430814783) @ (-49), (-302852298247679) @ (-44)));
  (64%N, (#, #, #, (-4392620273043229) @ (-48)));
  (66%N, ((-3340100790628971) @ (-48), (-8871297742822353) @ (-49), #, (-6225202510774343) @ (-49)));
  (67%N, (#, #, #, (-2130163006223681) @ (-47)));
  (68%N, (#, #, #, (-302852298247679) @ (-44)));
  (69%N, ((-8272788582231815) @ (-49), #, (-609902861438431) @ (-45), (-6063550153125395) @ (-49)));
  (70%N, ((-3267258555129869) @ (-48), (-8090883396801683) @ (-49), (-3456016221203681) @ (-48), (-5988266798984817) @ (-49)));
  (71%N, (#, #, #, (-8033701757752085) @ (-49)));
  (72%N, (#, #, #, (-302852298247679) @ (-44)));
  (73%N, ((-361123873511111) @ (-45), (-6089400371189665) @ (-49), (-5903959461506935) @ (-49), (-1327896895193405) @ (-47)));
  (74%N, (#, #, #, (-4227173035229071) @ (-48)));
  (75%N, ((-8462205612165291) @ (-49), (-8090883396801683) @ (-49), #, (-6186045015974259) @ (-49)));
  (76%N, ((-8978031436994227) @ (-49), #, (-4684119305002281) @ (-48), (-7358896042685395) @ (-49)));
  (77%N, ((-3154048626372215) @ (-48), (-7244163096344431) @ (-49), #, (-1828975469458993) @ (-47)));
  (78%N, ((-1800199549239177) @ (-47), #, #, (-2998075690500123) @ (-48)));
  (79%N, ((-6714478686130389) @ (-49), (-1648815554978729) @ (-47), (-6740306608050731) @ (-49), (-5508157337919063) @ (-49)));
  (80%N, ((-5596755205564481) @ (-49), (-48594280744979) @ (-42), (-6437098842625111) @ (-49), (-5798067350644055) @ (-49)));
  (81%N, (#, #, #, (-302852298247679) @ (-44)));
  (82%N, (#, #, #, (-8910859197905059) @ (-49)));
  (85%N, ((-5119521366061303) @ (-49), (-1648815554978729) @ (-47), (-2509507968409461) @ (-48), (-5381938348395509) @ (-49)));
  (88%N, (#, #, #, (-302852298247679) @ (-44)));
  (94%N, ((-6873910499477351) @ (-49), (-6301798141036885) @ (-49), (-5842795248100579) @ (-49), (-5819700040811679) @ (-49)));
  (95%N, ((-4692040998676033) @ (-49), (-1444166786611107) @ (-47), (-5267635260142413) @ (-49), (-5791405143262909) @ (-49)));
  (97%N, ((-7374855723470995) @ (-49), #, (-2146956065995973) @ (-47), (-11192909011043) @ (-40)));
  (98%N, ((-2520915539431565) @ (-48), (-4921802762491747) @ (-49), (-283909030816173) @ (-45), (-18555845087667) @ (-41)));
  (99%N, ((-2982268271276817) @ (-48), (-3469067403004029) @ (-48), (-7212905114184119) @ (-49), (-22225343111549) @ (-41)));
  (103%N, ((-412537118574835) @ (-45), (-5488636639960079) @ (-49), (-6608903272462357) @ (-49), (-2599652542252469) @ (-48)));
  (104%N, (#, #, #, (-4650533185457697) @ (-48)));
  (105%N, (#, (-8871297742822353) @ (-49), (-4260759154773655) @ (-48), (-4392620273043229) @ (-48)));
  (107%N, ((-3921870937715749) @ (-48), (-8871297742822353) @ (-49), #, (-7500373488380235) @ (-49)));
  (108%N, (#, #, #, (-302852298247679) @ (-44)));
  (109%N, ((-4331497877621075) @ (-48), (-6975678712175689) @ (-49), #, (-302852298247679) @ (-44)));
  (110%N, ((-1206400675116833) @ (-47), (-4106487443918777) @ (-49), (-1907513108435117) @ (-48), (-1033247898790595) @ (-47)));
  (113%N, (#, #, #, (-6823747105641763) @ (-49)));
  (114%N, (#, #, #, (-302852298247679) @ (-44)));
  (117%N, (#, #, #, (-302852298247679) @ (-44)));
  (118%N, ((-7018267490854295) @ (-49), (-4240545284906009) @ (-48), #, (-3069552671552913) @ (-48)));
  (119%N, ((-5613644970975539) @ (-49), (-5505484279959921) @ (-49), (-5223259225417023) @ (-49), (-186603121865853) @ (-44)));
  (122%N, (#, (-5711387536783331) @ (-49), (-7435075673190267) @ (-49), (-6774188735649479) @ (-49)));
  (123%N, ((-3476462333727023) @ (-48), (-4240545284906009) @ (-48), (-2078626915425975) @ (-47), (-3044124456602361) @ (-48)));
  (125%N, (#, #, #, (-1893476528496951) @ (-47)));
  (128%N, ((-5492617169907433) @ (-49), #, #, (-6157837383958669) @ (-49)));
  (130%N, ((-1800199549239177) @ (-47), (-7575057571972747) @ (-49), #, (-6644787651101307) @ (-49)));
  (131%N, ((-2603707655211571) @ (-48), (-2844614611037823) @ (-48), (-2916345032497259) @ (-48), (-5434447675457877) @ (-49)));
  (132%N, (#, (-4240545284906009) @ (-48), (-8462205612165291) @ (-49), (-6413190128293401) @ (-49)));
  (134%N, (#, #, #, (-4650533185457697) @ (-48)));
  (135%N, ((-6636788398932217) @ (-49), #, (-3430332003528151) @ (-48), (-3549396601113259) @ (-48)));
  (136%N, ((-2386575233593723) @ (-48), (-5840096498027951) @ (-49), (-576739400172865) @ (-46), (-5213360043608139) @ (-49)));
  (137%N, ((-755861458701847) @ (-46), (-105327943197979) @ (-43), (-4981303762247515) @ (-49), (-2304115328633617) @ (-48)));
  (138%N, (#, #, #, (-271331332318175) @ (-44)));
  (139%N, (#, #, #, (-7658507473194481) @ (-49)));
  (140%N, ((-8931699595387259) @ (-50), (-640940432772667) @ (-46), (-4842867792553125) @ (-49), (-2291902633235257) @ (-48)));
  (141%N, (#, #, #, (-3446758689208401) @ (-48)));
  (142%N, ((-8359567700260433) @ (-49), #, #, (-70881326618687) @ (-42)));
  (143%N, ((-1407488249418107) @ (-47), #, (-546860929579423) @ (-45), (-2948682151732233) @ (-48)));
  (144%N, ((-3543643231182759) @ (-48), (-8252834006088559) @ (-49), #, (-3116806936269185) @ (-48)));
  (145%N, (#, #, #, (-850424662662967) @ (-46)));
  (146%N, ((-134533577691783) @ (-44), (-5543815047376891) @ (-49), (-4526678298616547) @ (-49), (-2521681474865689) @ (-48)));
  (147%N, (#, #, #, (-6719959142359565) @ (-49)));
  (148%N, (#, #, #, (-7015240167258395) @ (-49)));
  (149%N, (#, #, #, (-1809666128217651) @ (-47)));
  (150%N, ((-2078626915425975) @ (-47), (-3736209830033945) @ (-48), (-6745617496057075) @ (-49), (-6515162221133747) @ (-49)));
  (151%N, (#, #, #, (-7275959601375213) @ (-49)));
  (152%N, ((-1653276102753797) @ (-47), (-3165954796869305) @ (-48), (-2648591146189859) @ (-48), (-5644131900444009) @ (-49)));
  (153%N, ((-5422546503537073) @ (-49), (-3469067403004029) @ (-48), (-985322676152685) @ (-46), (-5761316687352519) @ (-49)));
  (155%N, ((-5410964834831421) @ (-49), (-6003771304538387) @ (-49), (-2626476460972659) @ (-48), (-4650533185457697) @ (-48)));
  (158%N, (#, #, #, (-7115940211661285) @ (-49)));
  (160%N, ((-5598143492219783) @ (-49), (-794651871930237) @ (-46), (-3034855886607997) @ (-48), (-712665532063969) @ (-46)));
  (161%N, ((-7823844137335407) @ (-50), (-157500517136809) @ (-44), (-1307566468362003) @ (-47), (-8033701757752085) @ (-49)));
  (162%N, ((-2219620459774653) @ (-48), (-5743081644318359) @ (-49), (-2724022449330093) @ (-48), (-2656029235801383) @ (-48)));
  (163%N, ((-889038822504283) @ (-46), (-7427359621511357) @ (-49), (-3695707134388909) @ (-48), (-1557498400781619) @ (-47)));
  (164%N, (#, #, #, (-8910859197905059) @ (-49)));
  (165%N, ((-3751873650015687) @ (-49), (-4478124518587983) @ (-49), (-4051144380878879) @ (-49), (-4478042799553763) @ (-49)));
  (167%N, ((-8684020346683931) @ (-50), (-5143777739578121) @ (-49), (-2560504146158897) @ (-48), (-5756627581499417) @ (-49)));
  (168%N, ((-1916312240174179) @ (-48), (-335940044921433) @ (-45), (-6150764798588815) @ (-49), (-1191068801071971) @ (-47)));
  (169%N, ((-1327383173822053) @ (-47), (-191462676150205) @ (-44), (-3197744970132655) @ (-48), (-86591377445295) @ (-43)));
  (170%N, ((-2319955346815157) @ (-48), (-6240728968116259) @ (-49), (-5477831775815095) @ (-49), (-6683806725621059) @ (-49)));
  (172%N, (#, (-3982632372491541) @ (-48), (-7237929231852865) @ (-49), (-1783406489466885) @ (-47)));
  (173%N, (#, #, #, (-4297911758076491) @ (-48)));
  (174%N, ((-8272788582231815) @ (-49), #, #, (-3728098948061275) @ (-48)));
  (175%N, (#, #, #, (-4297911758076491) @ (-48)));
  (176%N, ((-1826459187989943) @ (-47), (-3982632372491541) @ (-48), (-4426206392587813) @ (-48), (-6539642162874743) @ (-49)));
  (179%N, ((-6714478686130389) @ (-49), #, #, (-3118628787138913) @ (-48)));
  (180%N, (#, (-8871297742822353) @ (-49), #, (-7795654513279065) @ (-49)));
  (183%N, ((-1865749067223629) @ (-47), (-7015906532620973) @ (-49), (-1550549554213939) @ (-47), (-5324923736323539) @ (-49)));
  (184%N, ((-985322676152685) @ (-46), (-7385640542039271) @ (-49), #, (-421091349181405) @ (-45)));
  (186%N, ((-3238520559542935) @ (-48), #, #, (-6683806725621059) @ (-49)));
  (188%N, (#, #, #, (-6991483479663675) @ (-49)));
  (190%N, (#, #, #, (-442294618973983) @ (-45)));
  (192%N, ((-7615485311708039) @ (-49), (-3292735769582677) @ (-48), (-1865749067223629) @ (-47), (-5922570144905195) @ (-49)));
  (196%N, (#, #, (-3736309789678949) @ (-48), (-8064138897447807) @ (-49)));
  (198%N, (#, (-8871297742822353) @ (-49), (-3722114766328821) @ (-48), (-3722837580357007) @ (-48)));
  (201%N, ((-3582982720657843) @ (-48), (-3460130938885339) @ (-48), (-2011133004627089) @ (-47), (-1449098598160475) @ (-47)));
  (204%N, (#, #, #, (-2130163006223681) @ (-47)));
  (205%N, (#, #, (-7756962757402879) @ (-49), (-1659945904641701) @ (-47)));
  (206%N, ((-571248877892569) @ (-45), #, #, (-1969801887061797) @ (-47)));
  (207%N, ((-4930358959005073) @ (-49), (-2797441164136159) @ (-48), (-5999581959515609) @ (-49), (-3165594950523267) @ (-48)));
  (208%N, ((-3366645983941647) @ (-49), (-2337168903782483) @ (-48), (-2433735444798491) @ (-48), (-8987794008989061) @ (-50)));
  (210%N, ((-2615404237927381) @ (-48), (-6319671069274265) @ (-49), (-198690146082763) @ (-44), (-5030789805891411) @ (-49)));
  (214%N, ((-8462205612165291) @ (-49), (-1537178267142921) @ (-47), (-6598535576975875) @ (-49), (-5944593708687941) @ (-49)));
  (216%N, (#, #, #, (-302852298247679) @ (-44)));
  (218%N, ((-5078991513233577) @ (-49), (-1210243674621747) @ (-47), (-1185938363808403) @ (-47), (-302852298247679) @ (-44)));
  (219%N, ((-2520915539431565) @ (-48), (-4921802762491747) @ (-49), (-283909030816173) @ (-45), (-4297911758076491) @ (-48)));
  (221%N, (#, #, #, (-8205616343142647) @ (-49)));
  (222%N, (#, #, #, (-8910859197905059) @ (-49)));
  (224%N, ((-4260759154773655) @ (-48), #, #, (-4650533185457697) @ (-48)));
  (225%N, ((-5655528936937479) @ (-49), (-7427359621511357) @ (-49), (-2348358141957747) @ (-48), (-5341554223197139) @ (-49)));
  (227%N, ((-6463948669613769) @ (-49), #, (-7343131840464381) @ (-49), (-6155724998915685) @ (-49)));
  (230%N, (#, #, #, (-302852298247679) @ (-44)));
  (233%N, ((-7725679712283649) @ (-49), #, (-8272788582231815) @ (-49), (-6211069133643005) @ (-49)));
  (234%N, ((-3480344808752985) @ (-48), #, #, (-703837213374405) @ (-46)));
  (235%N, (#, #, #, (-302852298247679) @ (-44)));
  (237%N, ((-4981419942199103) @ (-49), (-1925169055947837) @ (-47), (-7013953676999103) @ (-49), (-5757666234844649) @ (-49)));
  (238%N, ((-1300171428400067) @ (-47), (-1052560656740843) @ (-47), (-4367818474018471) @ (-49), (-2507850851502237) @ (-48)));
  (239%N, (#, #, #, (-4650533185457697) @ (-48)));
  (240%N, (#, #, #, (-302852298247679) @ (-44)));
  (242%N, (#, #, #, (-2061833855653683) @ (-47)));
  (243%N, ((-609902861438431) @ (-45), #, #, (-70881326618687) @ (-42)));
  (244%N, ((-2660442286324975) @ (-48), (-2612110520750759) @ (-48), (-4987729534502375) @ (-49), (-2892410429111503) @ (-48)));
  (245%N, (#, #, #, (-7587152606408853) @ (-49)));
  (246%N, ((-3736309789678949) @ (-48), #, (-2146956065995973) @ (-47), #));
  (248%N, (#, #, #, (-2130163006223681) @ (-47)));
  (253%N, ((-3543643231182759) @ (-48), (-6235492186600303) @ (-49), (-1522330760878377) @ (-47), (-3068530982675411) @ (-48)));
  (254%N, (#, #, #, (-271331332318175) @ (-44)));
  (255%N, (#, #, #, (-7139646870377641) @ (-49)))].

(** prob_emit.py, characters 0x6400 to 0x64ff *)
Definition emit_64 : list (N * num4) := [
  (0%N, ((-3230361293276637) @ (-48), #, (-4684119305002281) @ (-48), (-1590566825586219) @ (-47)));
  (1%N, ((-3287202728281269) @ (-48), #, (-772656683065781) @ (-46), (-2916604569317153) @ (-48)));
  (2%N, ((-7018267490854295) @ (-49), #, (-2078626915425975) @ (-47), (-2823556929748297) @ (-48)));
  (5%N, ((-3001926071992937) @ (-48), (-3460130938885339) @ (-48), (-3502711984534253) @ (-48), (-5888113743969545) @ (-49)));
  (7%N, (#, #, #, (-271331332318175) @ (-44)));
  (10%N, (#, #, #, (-4650533185457697) @ (-48)));
  (11%N, (#, #, #, (-70881326618687) @ (-42)));
  (13%N, ((-4692040998676033) @ (-49), (-1444166786611107) @ (-47), (-5267635260142413) @ (-49), (-302852298247679) @ (-44)));
  (15%N, ((-1478403429151277) @ (-47), (-6530054704760343) @ (-49), (-1516826928205465) @ (-47), (-6236040384715157) @ (-49)));
  (16%N, ((-8978031436994227) @ (-49), #, (-6592405389866091) @ (-49), (-8205616343142647) @ (-49)));
  (19%N, ((-7545024726212017) @ (-49), #, (-1814363866276635) @ (-47), (-6049409379414741) @ (-49)));
  (20%N, ((-6877271404704321) @ (-49), (-3736209830033945) @ (-48), #, (-6438744437682999) @ (-49)));
  (21%N, (#, #, #, (-4650533185457697) @ (-48)));
  (22%N, ((-1189838870371059) @ (-47), (-4511736389010899) @ (-49), (-700774158904521) @ (-46), (-302852298247679) @ (-44)));
  (23%N, ((-2982268271276817) @ (-48), (-3469067403004029) @ (-48), (-7212905114184119) @ (-49), (-22225343111549) @ (-41)));
  (27%N, (#, #, #, (-8064138897447807) @ (-49)));
  (28%N, ((-4535817721194233) @ (-49), (-3736209830033945) @ (-48), (-4684119305002281) @ (-48), (-5376629964381023) @ (-49)));
  (30%N, ((-5357287319172507) @ (-49), (-8090883396801683) @ (-49), (-7320459650820583) @ (-49), (-4603527622784209) @ (-49)));
  (32%N, (#, (-8871297742822353) @ (-49), (-609902861438431) @ (-45), (-6627464747288161) @ (-49)));
  (33%N, (#, (-7385640542039271) @ (-49), (-7350896790516305) @ (-49), (-3670651212387731) @ (-48)));
  (34%N, (#, #, #, (-302852298247679) @ (-44)));
  (35%N, (#, #, #, (-70881326618687) @ (-42)));
  (37%N, (#, #, #, (-8205616343142647) @ (-49)));
  (38%N, (#, #, (-8978031436994227) @ (-49), (-3460785255448521) @ (-48)));
  (39%N, (#, #, #, (-440002733528793) @ (-45)));
  (40%N, (#, #, #, (-271331332318175) @ (-44)));
  (42%N, ((-1689779535490071) @ (-47), (-4240545284906009) @ (-48), (-3912641423100301) @ (-48), (-7500373488380235) @ (-49)));
  (43%N, (#, #, #, (-8205616343142647) @ (-49)));
  (44%N, ((-2794419161228131) @ (-48), (-3606862978324355) @ (-48), (-856769480328013) @ (-46), (-1302306076828859) @ (-47)));
  (45%N, ((-5407734479732849) @ (-49), (-6114059055574939) @ (-49), (-6810591023946373) @ (-49), (-40346566571417) @ (-42)));
  (46%N, (#, #, #, (-4297911758076491) @ (-48)));
  (47%N, (#, #, #, (-8910859197905059) @ (-49)));
  (48%N, (#, #, #, (-8205616343142647) @ (-49)));
  (49%N, (#, #, #, (-3612205927022559) @ (-48)));
  (50%N, (#, #, #, (-271331332318175) @ (-44)));
  (51%N, (#, #, #, (-70881326618687) @ (-42)));
  (52%N, (#, #, #, (-5982037690301785) @ (-49)));
  (53%N, (#, #, #, (-302852298247679) @ (-44)));
  (54%N, ((-5085663590782487) @ (-49), (-3095216074021885) @ (-48), (-6166756098044911) @ (-49), (-4814424789509547) @ (-49)));
  (55%N, (#, #, #, (-3670651212387731) @ (-48)));
  (56%N, (#, #, #, (-4297911758076491) @ (-48)));
  (57%N, (#, #, #, (-8910859197905059) @ (-49)));
  (58%N, ((-5353674310679767) @ (-49), (-5795433882681303) @ (-49), (-408522113529243) @ (-45), (-5633609165035473) @ (-49)));
  (59%N, (#, #, #, (-302852298247679) @ (-44)));
  (60%N, (#, #, #, (-70881326618687) @ (-42)));
  (61%N, ((-4331497877621075) @ (-48), (-8871297742822353) @ (-49), (-4684119305002281) @ (-48), (-6878093127173811) @ (-49)));
  (62%N, (#, #, #, (-8910859197905059) @ (-49)));
  (63%N, (#, #, #, (-3549396601113259) @ (-48)));
  (65%N, (#, #, (-4684119305002281) @ (-48), (-7104451038327115) @ (-49)));
  (66%N, (#, #, #, (-302852298247679) @ (-44)));
  (67%N, (#, #, #, (-302852298247679) @ (-44)));
  (68%N, ((-2508825604495371) @ (-48), (-3165954796869305) @ (-48), (-5698284947911843) @ (-49), (-5532711439843729) @ (-49)));
  (69%N, (#, #, #, (-8910859197905059) @ (-49)));
  (70%N, ((-4893397285000321) @ (-49), (-2782794653376355) @ (-48), (-3012109739985489) @ (-48), (-4966823015110227) @ (-49)));
  (71%N, ((-1189838870371059) @ (-47), (-4511736389010899) @ (-49), (-700774158904521) @ (-46), (-2621076190036349) @ (-48)));
  (72%N, ((-7092203087097125) @ (-49), #, #, (-3630371905756697) @ (-48)));
  (74%N, ((-5723762144038383) @ (-49), (-6166874319454763) @ (-49), (-2917401225018751) @ (-48), (-2944712991108693) @ (-48)));
  (75%N, (#, #, #, (-4297911758076491) @ (-48)));
  (76%N, (#, #, #, (-302852298247679) @ (-44)));
  (80%N, (#, #, #, (-3888284818171165) @ (-48)));
  (81%N, (#, (-8871297742822353) @ (-49), #, (-7283724551427137) @ (-49)));
  (82%N, ((-3396452638870059) @ (-48), #, #, (-7614619027055453) @ (-49)));
  (83%N, (#, #, #, (-8910859197905059) @ (-49)));
  (84%N, ((-1456339630029287) @ (-47), #, (-3912641423100301) @ (-48), (-5300402776698199) @ (-49)));
  (85%N, (#, #, #, (-302852298247679) @ (-44)));
  (88%N, ((-1438525691059767) @ (-47), (-1925169055947837) @ (-47), (-3123290612960941) @ (-48), (-713612476468813) @ (-46)));
  (89%N, (#, #, #, (-4650533185457697) @ (-48)));
  (91%N, (#, #, #, (-302852298247679) @ (-44)));
  (92%N, (#, #, #, (-6991483479663675) @ (-49)));
  (93%N, (#, #, #, (-1877995278787649) @ (-47)));
  (94%N, (#, #, (-7127877008308803) @ (-49), (-6991483479663675) @ (-49)));
  (95%N, ((-7018267490854295) @ (-49), #, (-2078626915425975) @ (-47), (-2823556929748297) @ (-48)));
  (96%N, (#, #, #, (-4392620273043229) @ (-48)));
  (98%N, (#, #, #, (-7139646870377641) @ (-49)));
  (100%N, (#, #, #, (-271331332318175) @ (-44)));
  (101%N, (#, #, #, (-3888284818171165) @ (-48)));
  (102%N, (#, #, #, (-4297911758076491) @ (-48)));
  (103%N, ((-5686372392026821) @ (-49), (-4240545284906009) @ (-48), (-3577408776600841) @ (-48), (-1678560966329195) @ (-47)));
  (105%N, ((-5093265431096977) @ (-49), (-4549305528067281) @ (-49), (-1361413612351565) @ (-47), (-5465438050982045) @ (-49)));
  (108%N, (#, #, #, (-271331332318175) @ (-44)));
  (109%N, (#, #, (-571248877892569) @ (-45), (-8033701757752085) @ (-49)));
  (111%N, ((-1729812462090333) @ (-47), (-8090883396801683) @ (-49), (-3149788383235985) @ (-48), (-302852298247679) @ (-44)));
  (112%N, (#, #, #, (-302852298247679) @ (-44)));
  (113%N, (#, #, #, (-8205616343142647) @ (-49)));
  (114%N, (#, #, #, (-4650533185457697) @ (-48)));
  (115%N, ((-985322676152685) @ (-46), (-4240545284906009) @ (-48), #, (-6465514138001285) @ (-49)));
  (117%N, (#, #, #, (-8166776809352665) @ (-49)));
  (118%N, (#, #, (-3984680263625049) @ (-48), (-3767970024052643) @ (-48)));
  (119%N, (#, #, #, (-7857128249604397) @ (-49)));
  (120%N, ((-695307934318799) @ (-46), (-2758501419708421) @ (-48), (-2781558085110839) @ (-48), (-4949364829992933) @ (-49)));
  (121%N, ((-6933968332578247) @ (-49), (-8090883396801683) @ (-49), (-3456016221203681) @ (-48), (-5998538451517179) @ (-49)));
  (122%N, ((-4260759154773655) @ (-48), #, #, (-6574031476229409) @ (-49)));
  (123%N, ((-3238520559542935) @ (-48), #, #, (-6683806725621059) @ (-49)));
  (124%N, (#, #, #, (-302852298247679) @ (-44)));
  (125%N, (#, #, #, (-7951171338784367) @ (-49)));
  (130%N, ((-7237929231852865) @ (-49), #, (-546860929579423) @ (-45), (-6463689339147657) @ (-49)));
  (132%N, (#, (-491414177067389) @ (-45), #, (-3951094144080465) @ (-48)));
  (133%N, ((-4426206392587813) @ (-48), (-8871297742822353) @ (-49), (-609902861438431) @ (-45), (-3236436532855373) @ (-48)));
  (135%N, ((-3023060516503943) @ (-48), (-6487707683278451) @ (-49), (-7013953676999103) @ (-49), (-3124166178377643) @ (-48)));
  (136%N, ((-6873910499477351) @ (-49), (-6301798141036885) @ (-49), (-5842795248100579) @ (-49), (-5819700040811679) @ (-49)));
  (144%N, ((-3150393055813769) @ (-48), (-6547927632997723) @ (-49), (-350123689285821) @ (-45), (-5610728514010503) @ (-49)));
  (145%N, ((-3150393055813769) @ (-48), (-6547927632997723) @ (-49), (-350123689285821) @ (-45), (-5610728514010503) @ (-49)));
  (146%N, ((-5371743319142851) @ (-49), (-5369416796311633) @ (-49), (-3084812928816481) @ (-48), (-5439151201125153) @ (-49)));
  (147%N, ((-3577408776600841) @ (-48), (-1688482578221107) @ (-47), (-94140010802187) @ (-43), (-6175028031233341) @ (-49)));
  (149%N, ((-1439907739694811) @ (-47), #, (-609902861438431) @ (-45), (-731801166122119) @ (-46)));
  (150%N, ((-4260759154773655) @ (-48), #, #, (-8910859197905059) @ (-49)));
  (151%N, (#, #, #, (-70881326618687) @ (-42)));
  (153%N, ((-571248877892569) @ (-45), #, #, (-302852298247679) @ (-44)));
  (154%N, (#, #, #, (-70881326618687) @ (-42)));
  (158%N, ((-361034307814661) @ (-45), (-2891815782294217) @ (-48), (-5528296476216021) @ (-49), (-5055028428476461) @ (-49)));
  (159%N, (#, #, #, (-8064138897447807) @ (-49)));
  (163%N, ((-985322676152685) @ (-46), (-7385640542039271) @ (-49), #, (-421091349181405) @ (-45)));
  (164%N, ((-2331133122842899) @ (-48), #, (-828507539730495) @ (-46), (-5365642674144675) @ (-49)));
  (165%N, ((-5452051676809145) @ (-49), (-1544044872304571) @ (-47), (-6011041896290259) @ (-49), (-83935856928091) @ (-43)));
  (166%N, (#, #, #, (-302852298247679) @ (-44)));
  (169%N, ((-6810591023946373) @ (-49), #, #, (-6257099274030887) @ (-49)));
  (171%N, ((-2708362942872653) @ (-48), (-2635073245689507) @ (-48), (-5307455386829907) @ (-49), (-1398928906389443) @ (-47)));
  (172%N, ((-3278481635527623) @ (-48), #, #, (-6170680905744457) @ (-49)));
  (173%N, ((-5433852131313391) @ (-49), (-5063569048600015) @ (-49), (-1138516107343977) @ (-47), (-6057319813368087) @ (-49)));
  (174%N, ((-7219057633931153) @ (-49), (-3982632372491541) @ (-48), (-903159767337213) @ (-46), (-733282668088029) @ (-46)));
  (175%N, (#, #, #, (-8292395461171265) @ (-49)));
  (176%N, ((-706270933535541) @ (-46), (-3887923857524803) @ (-48), (-6619465495119071) @ (-49), (-89209010717897) @ (-43)));
  (177%N, (#, #, #, (-7332707602050573) @ (-49)));
  (178%N, ((-5528296476216021) @ (-49), (-5795433882681303) @ (-49), (-760647580132405) @ (-46), (-4953336274706863) @ (-49)));
  (179%N, (#, #, #, (-7139646870377641) @ (-49)));
  (180%N, (#, #, #, (-6463689339147657) @ (-49)));
  (181%N, ((-3921870937715749) @ (-48), #, #, (-397263376169705) @ (-45)));
  (182%N, (#, #, #, (-1607953933851967) @ (-47)));
  (183%N, ((-8272788582231815) @ (-49), #, (-8100873996841253) @ (-49), (-7926147221115621) @ (-49)));
  (184%N, ((-571248877892569) @ (-45), #, #, (-3362866519325475) @ (-48)));
  (185%N, (#, #, #, (-6800076053007037) @ (-49)));
  (186%N, ((-7219057633931153) @ (-49), #, #, (-3662121014844325) @ (-48)));
  (187%N, ((-4331497877621075) @ (-48), (-7310469050781013) @ (-49), (-1839692586196131) @ (-47), (-3549396601113259) @ (-48)));
  (188%N, ((-7244363015634439) @ (-49), (-778145317480215) @ (-46), (-6040755914559099) @ (-49), (-850424662662967) @ (-46)));
  (190%N, (#, (-7244163096344431) @ (-49), (-3287202728281269) @ (-48), (-7139646870377641) @ (-49)));
  (191%N, ((-7374855723470995) @ (-49), #, (-2146956065995973) @ (-47), (-11192909011043) @ (-40)));
  (192%N, ((-7667890561037021) @ (-49), (-8871297742822353) @ (-49), #, (-6991483479663675) @ (-49)));
  (193%N, ((-8980446641980307) @ (-50), (-5289231368315749) @ (-49), (-1385570399862663) @ (-47), (-5344291222837227) @ (-49)));
  (194%N, ((-6262188758935471) @ (-49), (-7427359621511357) @ (-49), (-1839692586196131) @ (-47), (-1672986475717779) @ (-47)));
  (196%N, ((-6714478686130389) @ (-49), #, #, (-6746421191725615) @ (-49)));
  (197%N, ((-2738635394634001) @ (-48), #, (-3855333411915459) @ (-48), (-2895978662851933) @ (-48)));
  (199%N, ((-2943726470019187) @ (-48), (-641397077750735) @ (-46), (-1117629723995309) @ (-47), (-376488521127863) @ (-45)));
  (202%N, ((-1225099188230675) @ (-47), (-2042983817051395) @ (-48), (-8047040100309039) @ (-50), (-4650533185457697) @ (-48)));
  (203%N, ((-369373371330985) @ (-45), (-7106171420012245) @ (-49), (-5554689588714003) @ (-49), (-649193857639559) @ (-46)));
  (205%N, ((-288991368489395) @ (-45), (-5518459373097217) @ (-49), (-5093974525476437) @ (-49), (-320091559519389) @ (-45)));
  (206%N, ((-6844532532160723) @ (-49), (-6657876686019473) @ (-49), (-3068059059988117) @ (-48), (-6771034946149301) @ (-49)));
  (208%N, (#, #, #, (-8395033373076123) @ (-49)));
  (210%N, ((-6070515413542939) @ (-49), (-6089400371189665) @ (-49), (-3286220266632137) @ (-48), (-5591443477088221) @ (-49)));
  (212%N, ((-4319014507205491) @ (-49), (-5840096498027951) @ (-49), (-4761238259003181) @ (-49), (-8910859197905059) @ (-49)));
  (214%N, (#, #, #, (-302852298247679) @ (-44)));
  (215%N, (#, #, #, (-302852298247679) @ (-44)));
  (216%N, ((-546860929579423) @ (-45), #, (-3903704958981611) @ (-48), (-7835882333724349) @ (-49)));
  (218%N, ((-1206400675116833) @ (-47), (-4106487443918777) @ (-49), (-1907513108435117) @ (-48), (-1033247898790595) @ (-47)));
  (221%N, (#, #, #, (-271331332318175) @ (-44)));
  (222%N, (#, (-101243867878125) @ (-43), (-7018267490854295) @ (-49), (-3505203974573573) @ (-48)));
  (224%N, ((-2879121906200805) @ (-48), (-6869814717210335) @ (-49), (-45783090290615) @ (-42), (-2671771723858599) @ (-48)));
  (226%N, ((-3722114766328821) @ (-48), #, (-3663958025301281) @ (-48), (-6617800133038605) @ (-49)));
  (227%N, (#, #, #, (-70881326618687) @ (-42)));
  (228%N, (#, #, #, (-1893476528496951) @ (-47)));
  (230%N, ((-383620515625213) @ (-45), (-5785972316207949) @ (-49), (-5914222640356659) @ (-49), (-652041606794299) @ (-46)));
  (236%N, ((-5688000592593281) @ (-49), (-5824811849997931) @ (-49), (-5279150325252837) @ (-49), (-302852298247679) @ (-44)));
  (237%N, (#, #, #, (-3722837580357007) @ (-48)));
  (239%N, ((-7092203087097125) @ (-49), #, #, (-3630371905756697) @ (-48)));
  (240%N, ((-7862826752368233) @ (-49), (-8090883396801683) @ (-49), (-571248877892569) @ (-45), (-3026895167507057) @ (-48)));
  (241%N, ((-3287202728281269) @ (-48), #, (-772656683065781) @ (-46), (-302852298247679) @ (-44)));
  (242%N, ((-1865749067223629) @ (-47), (-7015906532620973) @ (-49), (-1550549554213939) @ (-47), (-5324923736323539) @ (-49)));
  (244%N, ((-8489379916675267) @ (-50), (-3036770788656713) @ (-48), (-2973092488641433) @ (-48), (-5432985846660805) @ (-49)));
  (247%N, ((-8272788582231815) @ (-49), #, (-8100873996841253) @ (-49), (-7926147221115621) @ (-49)));
  (250%N, ((-4893397285000321) @ (-49), (-2782794653376355) @ (-48), (-3012109739985489) @ (-48), (-4966823015110227) @ (-49)));
  (251%N, (#, (-101243867878125) @ (-43), (-7018267490854295) @ (-49), (-4650533185457697) @ (-48)));
  (252%N, ((-571248877892569) @ (-45), #, #, (-3362866519325475) @ (-48)));
  (253%N, (#, #, #, (-456223959081461) @ (-45)));
  (254%N, ((-95382707368689) @ (-43), (-3005360696119749) @ (-48), (-5083570059349921) @ (-49), (-1533756494441647) @ (-47)));
  (255%N, (#, #, #, (-3951094144080465) @ (-48)))].

(** prob_emit.py, characters 0x6500 to 0x65ff *)
Definition emit_65 : list (N * num4) := [
  (0%N, ((-1420378964049471) @ (-47), (-6235492186600303) @ (-49), (-6432490768163449) @ (-49), (-5901375840297557) @ (-49)));
  (1%N, (#, #, #, (-4392620273043229) @ (-48)));
  (4%N, (#, #, #, (-8910859197905059) @ (-49)));
  (5%N, (#, #, #, (-302852298247679) @ (-44)));
  (6%N, ((-3921870937715749) @ (-48), #, #, (-397263376169705) @ (-45)));
  (9%N, (#, #, #, (-1994339944854797) @ (-47)));
  (15%N, ((-8462205612165291) @ (-49), (-6794643225952077) @ (-49), (-5940411080991481) @ (-49), (-5953355752549785) @ (-49)));
  (18%N, ((-6810591023946373) @ (-49), (-1592576856228499) @ (-47), (-3498510787487123) @ (-48), (-3102641684453985) @ (-48)));
  (20%N, ((-5263784698253009) @ (-49), (-7385640542039271) @ (-49), (-5823799820588585) @ (-49), (-5719485507394831) @ (-49)));
  (22%N, (#, (-491414177067389) @ (-45), #, (-3951094144080465) @ (-48)));
  (24%N, ((-106184602910939) @ (-43), (-2973961462747413) @ (-48), (-6810591023946373) @ (-49), (-1664373966160355) @ (-47)));
  (25%N, ((-3230361293276637) @ (-48), #, (-4684119305002281) @ (-48), (-1590566825586219) @ (-47)));
  (26%N, (#, #, #, (-302852298247679) @ (-44)));
  (27%N, ((-7219057633931153) @ (-49), #, #, (-3662121014844325) @ (-48)));
  (28%N, ((-5353674310679767) @ (-49), (-5795433882681303) @ (-49), (-408522113529243) @ (-45), (-5633609165035473) @ (-49)));
  (29%N, ((-2508825604495371) @ (-48), (-3165954796869305) @ (-48), (-5698284947911843) @ (-49), (-5532711439843729) @ (-49)));
  (32%N, (#, #, #, (-4650533185457697) @ (-48)));
  (34%N, ((-6810591023946373) @ (-49), (-1592576856228499) @ (-47), (-3498510787487123) @ (-48), (-3102641684453985) @ (-48)));
  (35%N, ((-8197617090973557) @ (-49), (-7157383978315813) @ (-49), (-6530861578236825) @ (-49), (-4227173035229071) @ (-48)));
  (36%N, ((-5723762144038383) @ (-49), (-6166874319454763) @ (-49), (-2917401225018751) @ (-48), (-2944712991108693) @ (-48)));
  (37%N, (#, #, #, (-3209945996302409) @ (-48)));
  (38%N, (#, #, #, (-4650533185457697) @ (-48)));
  (39%N, (#, #, #, (-8205616343142647) @ (-49)));
  (40%N, (#, #, #, (-8910859197905059) @ (-49)));
  (41%N, (#, #, #, (-302852298247679) @ (-44)));
  (42%N, ((-3001926071992937) @ (-48), (-3460130938885339) @ (-48), (-3502711984534253) @ (-48), (-5888113743969545) @ (-49)));
  (43%N, ((-6714478686130389) @ (-49), #, #, (-1822899526423839) @ (-47)));
  (44%N, ((-3543643231182759) @ (-48), (-6235492186600303) @ (-49), (-1522330760878377) @ (-47), (-3068530982675411) @ (-48)));
  (45%N, (#, #, #, (-4650533185457697) @ (-48)));
  (46%N, ((-4426206392587813) @ (-48), #, #, (-8064138897447807) @ (-49)));
  (47%N, ((-7924661328593699) @ (-50), (-2446855514446009) @ (-48), (-2286489336258211) @ (-48), (-4909849634229005) @ (-49)));
  (49%N, (#, #, #, (-8130444851884389) @ (-49)));
  (50%N, (#, #, #, (-4048158111928321) @ (-48)));
  (52%N, (#, #, #, (-4650533185457697) @ (-48)));
  (53%N, (#, #, #, (-1994339944854797) @ (-47)));
  (54%N, ((-7661811832210475) @ (-50), (-8709985855592101) @ (-50), (-8849584081609535) @ (-50), (-288477067845489) @ (-45)));
  (56%N, ((-6505916676772167) @ (-49), (-398981976780441) @ (-45), (-2078626915425975) @ (-47), (-6497476474927491) @ (-49)));
  (57%N, ((-7089880969855691) @ (-50), (-607119822306867) @ (-46), (-2375672987421331) @ (-48), (-1137003654682211) @ (-47)));
  (58%N, (#, #, #, (-271331332318175) @ (-44)));
  (59%N, ((-8622871140481879) @ (-50), (-5366069214870883) @ (-49), (-2254291005789171) @ (-48), (-150984894523053) @ (-44)));
  (60%N, (#, #, #, (-2061833855653683) @ (-47)));
  (61%N, (#, #, #, (-8292395461171265) @ (-49)));
  (62%N, ((-7832113486001981) @ (-50), (-7051252608749737) @ (-50), (-8147664242957915) @ (-50), (-2136023082144843) @ (-48)));
  (63%N, ((-6427939065490333) @ (-50), (-328569849333303) @ (-46), (-1847193674171257) @ (-48), (-5080357820669959) @ (-49)));
  (64%N, (#, #, #, (-4650533185457697) @ (-48)));
  (65%N, (#, #, #, (-8910859197905059) @ (-49)));
  (66%N, (#, #, #, (-70881326618687) @ (-42)));
  (67%N, (#, #, #, (-4650533185457697) @ (-48)));
  (68%N, (#, #, #, (-2001206550016447) @ (-47)));
  (69%N, ((-4160198116218541) @ (-49), (-2811132615691233) @ (-48), (-4885307083343267) @ (-49), (-2260947536333335) @ (-48)));
  (71%N, (#, #, #, (-8292395461171265) @ (-49)));
  (72%N, ((-8766689483565343) @ (-50), (-8853544228626803) @ (-50), (-8595497380621473) @ (-50), (-2960589213070475) @ (-48)));
  (73%N, (#, (-8871297742822353) @ (-49), #, (-7835882333724349) @ (-49)));
  (74%N, (#, #, #, (-7231493078902567) @ (-49)));
  (75%N, (#, #, #, (-7350030505863719) @ (-49)));
  (76%N, ((-2154817967773963) @ (-48), (-5066828756337937) @ (-49), (-4943239214749285) @ (-49), (-2369687475701075) @ (-48)));
  (78%N, (#, #, #, (-4392620273043229) @ (-48)));
  (79%N, ((-5291913463858165) @ (-49), (-8932152541000989) @ (-50), (-4594592460252551) @ (-49), (-5630283010878203) @ (-49)));
  (81%N, ((-4685958730068705) @ (-49), (-296586547836369) @ (-45), (-2420210188629627) @ (-48), (-18630009437681) @ (-41)));
  (83%N, (#, #, #, (-1648585122635241) @ (-47)));
  (84%N, (#, #, #, (-271331332318175) @ (-44)));
  (85%N, ((-3476462333727023) @ (-48), #, (-7756962757402879) @ (-49), (-5886151104142845) @ (-49)));
  (86%N, ((-1630008820983823) @ (-47), (-3469067403004029) @ (-48), (-7244363015634439) @ (-49), (-6810099165615153) @ (-49)));
  (87%N, ((-1349599203881931) @ (-47), (-596047612093117) @ (-46), (-2174478160426333) @ (-48), (-5144075047446621) @ (-49)));
  (88%N, ((-5295149979871315) @ (-49), (-6003771304538387) @ (-49), (-6594441377450325) @ (-49), (-5618793837544033) @ (-49)));
  (89%N, ((-7001277925010721) @ (-50), (-7293449876173377) @ (-50), (-4002328296797143) @ (-49), (-8791326560119089) @ (-50)));
  (90%N, (#, #, #, (-4650533185457697) @ (-48)));
  (91%N, ((-7117451711230829) @ (-49), (-7427359621511357) @ (-49), (-5989046094538347) @ (-49), (-3108457490041485) @ (-48)));
  (92%N, (#, #, #, (-4227173035229071) @ (-48)));
  (93%N, ((-7579153354239763) @ (-49), (-8252834006088559) @ (-49), (-7284590836079723) @ (-49), (-2953723629370413) @ (-48)));
  (94%N, ((-6059367525428935) @ (-49), (-7244163096344431) @ (-49), (-6485381270938547) @ (-49), (-6525233150776923) @ (-49)));
  (95%N, (#, #, #, (-8166776809352665) @ (-49)));
  (96%N, (#, #, #, (-271331332318175) @ (-44)));
  (98%N, ((-2853746628273895) @ (-48), (-668164747829659) @ (-46), (-1078629718969335) @ (-47), (-2317199910882349) @ (-48)));
  (99%N, ((-601739945711111) @ (-46), (-5171431591541059) @ (-49), (-2354557111546675) @ (-48), (-4829314078983833) @ (-49)));
  (100%N, (#, #, #, (-3422430101659097) @ (-48)));
  (101%N, (#, #, #, (-8292395461171265) @ (-49)));
  (102%N, ((-5699948021361899) @ (-49), (-5056463447107237) @ (-49), (-5287093313510243) @ (-49), (-6574031476229409) @ (-49)));
  (103%N, (#, #, #, (-4227173035229071) @ (-48)));
  (104%N, (#, #, #, (-4650533185457697) @ (-48)));
  (105%N, (#, #, (-609902861438431) @ (-45), (-8395033373076123) @ (-49)));
  (107%N, (#, #, #, (-7706109050846307) @ (-49)));
  (108%N, ((-5111559133412043) @ (-49), (-289181465690631) @ (-45), (-4915695247445985) @ (-49), (-5609928300722357) @ (-49)));
  (109%N, (#, #, #, (-271331332318175) @ (-44)));
  (110%N, (#, #, #, (-7139646870377641) @ (-49)));
  (111%N, (#, #, #, (-440002733528793) @ (-45)));
  (112%N, ((-1852595469423141) @ (-48), (-7734124076438281) @ (-50), (-895720213663109) @ (-47), (-4468803458801323) @ (-49)));
  (113%N, (#, #, #, (-6837734159388757) @ (-49)));
  (114%N, ((-2839351052740925) @ (-48), (-6487707683278451) @ (-49), (-3333063549672965) @ (-48), (-5430945642680947) @ (-49)));
  (115%N, (#, #, #, (-2130163006223681) @ (-47)));
  (116%N, ((-984235954018105) @ (-47), (-1252271862135313) @ (-47), (-4311117569317323) @ (-49), (-5491390873761205) @ (-49)));
  (117%N, ((-2154817967773963) @ (-48), (-5066828756337937) @ (-49), (-4943239214749285) @ (-49), (-2369687475701075) @ (-48)));
  (119%N, ((-6295964241005071) @ (-49), (-804163951328505) @ (-46), (-6890919344730931) @ (-49), (-6037321032506929) @ (-49)));
  (120%N, ((-1852595469423141) @ (-48), (-7734124076438281) @ (-50), (-895720213663109) @ (-47), (-7643494584741751) @ (-49)));
  (121%N, (#, #, #, (-7614619027055453) @ (-49)));
  (122%N, (#, #, #, (-7425201997121977) @ (-49)));
  (123%N, (#, #, #, (-271331332318175) @ (-44)));
  (124%N, (#, #, #, (-1809666128217651) @ (-47)));
  (126%N, (#, #, #, (-3634150150092073) @ (-48)));
  (127%N, (#, #, #, (-302852298247679) @ (-44)));
  (128%N, (#, #, #, (-271331332318175) @ (-44)));
  (129%N, (#, #, #, (-3452684697072041) @ (-48)));
  (130%N, ((-7117451711230829) @ (-49), (-7427359621511357) @ (-49), (-5989046094538347) @ (-49), (-6719959142359565) @ (-49)));
  (131%N, ((-6448000012228133) @ (-49), #, (-6149838131789579) @ (-49), (-6182717223307863) @ (-49)));
  (135%N, ((-3222255922933191) @ (-49), (-1526565555165049) @ (-48), (-7436544680554813) @ (-50), (-8984385020975533) @ (-50)));
  (137%N, ((-2146956065995973) @ (-47), #, #, #));
  (139%N, ((-3088675424783151) @ (-48), (-6301798141036885) @ (-49), (-5700364558527349) @ (-49), (-5637374730603399) @ (-49)));
  (140%N, (#, (-2684149361275507) @ (-48), (-2410301672876599) @ (-48), (-6104374951307875) @ (-49)));
  (142%N, ((-2146956065995973) @ (-47), #, #, #));
  (144%N, ((-1671243093031943) @ (-47), (-5108900009705413) @ (-49), (-5237543931554719) @ (-49), (-6351716391968069) @ (-49)));
  (145%N, ((-5592610770010893) @ (-49), (-5767513286977053) @ (-49), (-180772444057569) @ (-44), (-5787554957591571) @ (-49)));
  (147%N, (#, (-1925169055947837) @ (-47), (-6689783939482305) @ (-49), (-6637298184271627) @ (-49)));
  (149%N, (#, (-1925169055947837) @ (-47), (-6689783939482305) @ (-49), (-6637298184271627) @ (-49)));
  (151%N, ((-2243296701427335) @ (-48), (-7930495059706755) @ (-50), (-4418216803425257) @ (-49), (-4774062761606841) @ (-49)));
  (153%N, ((-5325575849410513) @ (-49), (-4802076800697843) @ (-49), (-7520456889051871) @ (-50), (-2616843403855387) @ (-48)));
  (155%N, ((-4684119305002281) @ (-48), #, (-1975763643203379) @ (-47), (-6837734159388757) @ (-49)));
  (156%N, ((-2807001143048011) @ (-48), (-5954212934546103) @ (-49), (-175471112320145) @ (-44), (-1303636821180809) @ (-47)));
  (157%N, (#, #, #, (-8064138897447807) @ (-49)));
  (159%N, ((-6211418713391559) @ (-49), (-1604672177941807) @ (-47), (-4081744231472905) @ (-48), (-6092001926794289) @ (-49)));
  (160%N, (#, #, #, (-4650533185457697) @ (-48)));
  (161%N, ((-7072789095884181) @ (-49), (-6195264366155019) @ (-49), #, (-2931245788232385) @ (-48)));
  (162%N, (#, #, #, (-302852298247679) @ (-44)));
  (164%N, ((-6976548411382209) @ (-49), (-3027163201483805) @ (-48), (-2323942537071765) @ (-48), (-747080399202135) @ (-46)));
  (165%N, ((-6147067248656047) @ (-49), (-3260663311836043) @ (-48), (-5471691457638441) @ (-49), (-3116806936269185) @ (-48)));
  (167%N, ((-6437098842625111) @ (-49), (-6210014990473763) @ (-49), (-6329343168624479) @ (-49), (-2916604569317153) @ (-48)));
  (169%N, ((-5704966924917877) @ (-49), (-195523065702511) @ (-44), (-6976548411382209) @ (-49), (-2657919922854501) @ (-48)));
  (171%N, (#, (-8252834006088559) @ (-49), (-571248877892569) @ (-45), (-421091349181405) @ (-45)));
  (172%N, ((-5704966924917877) @ (-49), (-195523065702511) @ (-44), (-6976548411382209) @ (-49), (-2657919922854501) @ (-48)));
  (173%N, ((-4841597434285493) @ (-49), (-2435778887329407) @ (-48), (-7863216886680909) @ (-50), (-4648136224593629) @ (-49)));
  (175%N, ((-1133271619722911) @ (-47), (-1542055916855571) @ (-48), (-7769088440557147) @ (-50), (-5005498559011175) @ (-49)));
  (176%N, ((-6961309708822261) @ (-50), (-7029461398849253) @ (-50), (-1970166996551837) @ (-48), (-3473527446214505) @ (-49)));
  (183%N, ((-4841597434285493) @ (-49), (-2435778887329407) @ (-48), (-7863216886680909) @ (-50), (-4648136224593629) @ (-49)));
  (185%N, ((-3259982076151543) @ (-49), (-714953924012525) @ (-47), (-6420347765076415) @ (-50), (-8702943961229257) @ (-50)));
  (186%N, (#, #, #, (-6617800133038605) @ (-49)));
  (187%N, (#, #, #, (-943539134077359) @ (-46)));
  (188%N, ((-3288188631134095) @ (-48), (-1796212599740603) @ (-47), (-4204275375441935) @ (-48), (-3176336276334017) @ (-49)));
  (189%N, ((-4481550520938487) @ (-49), (-2167075308340173) @ (-48), (-8030045062051319) @ (-50), (-5211583863491101) @ (-49)));
  (190%N, (#, #, #, (-6484095031060651) @ (-49)));
  (191%N, (#, #, #, (-12186913822765) @ (-40)));
  (192%N, (#, #, #, (-3255591879837343) @ (-48)));
  (193%N, ((-4762182014385021) @ (-49), (-5301992768114433) @ (-49), (-1257640364669895) @ (-47), (-1216995586798735) @ (-47)));
  (194%N, (#, #, #, (-3390274909876681) @ (-48)));
  (195%N, ((-4260759154773655) @ (-48), (-7157383978315813) @ (-49), (-4331497877621075) @ (-48), (-3549396601113259) @ (-48)));
  (196%N, (#, (-8090883396801683) @ (-49), #, (-7350030505863719) @ (-49)));
  (197%N, ((-7926716307700295) @ (-50), (-5144527839560413) @ (-49), (-5659390062865397) @ (-49), (-5238833579283399) @ (-49)));
  (198%N, (#, #, (-4684119305002281) @ (-48), (-3598472716699259) @ (-48)));
  (199%N, (#, #, #, (-1656258248562015) @ (-47)));
  (200%N, (#, #, #, (-3605255574468759) @ (-48)));
  (201%N, (#, #, #, (-8910859197905059) @ (-49)));
  (203%N, ((-5244917317295439) @ (-49), (-2403294313877073) @ (-48), (-1291000023463003) @ (-47), (-89209010717897) @ (-43)));
  (204%N, ((-6470456834045967) @ (-49), (-7244163096344431) @ (-49), (-571248877892569) @ (-45), (-3415348596671437) @ (-48)));
  (206%N, (#, (-3760701355345663) @ (-48), (-1814363866276635) @ (-47), (-1893476528496951) @ (-47)));
  (207%N, ((-5893880046161803) @ (-49), (-7322253908472775) @ (-50), (-6996949752853861) @ (-50), (-4872819178458969) @ (-49)));
  (210%N, (#, #, (-4426206392587813) @ (-48), (-7628871685880939) @ (-49)));
  (211%N, (#, #, #, (-855160738236529) @ (-46)));
  (214%N, ((-3801556143597227) @ (-48), (-6794643225952077) @ (-49), (-4081744231472905) @ (-48), (-976926146266539) @ (-46)));
  (215%N, ((-5101115031576991) @ (-49), (-4997985844235005) @ (-49), (-2356930924295205) @ (-48), (-633177358210519) @ (-46)));
  (219%N, (#, #, #, (-70881326618687) @ (-42)));
  (224%N, ((-6799271778197667) @ (-50), (-1661570954205791) @ (-48), (-4863404885862999) @ (-49), (-3696011260213725) @ (-49)));
  (225%N, (#, #, #, (-4650533185457697) @ (-48)));
  (226%N, ((-4658849240029927) @ (-49), (-5649205776275345) @ (-49), (-2011133004627089) @ (-47), (-525883265654431) @ (-46)));
  (227%N, (#, #, #, (-302852298247679) @ (-44)));
  (229%N, ((-3487139625910025) @ (-49), (-7256393034819305) @ (-50), (-7130022513689553) @ (-50), (-3344950187075927) @ (-49)));
  (230%N, ((-858821192549113) @ (-46), (-157500517136809) @ (-44), (-1190172116198749) @ (-47), (-6341359596119591) @ (-49)));
  (231%N, ((-4925709073745557) @ (-49), (-5797824331935229) @ (-49), (-613626849418123) @ (-46), (-4735555449693377) @ (-49)));
  (232%N, ((-1434014487908025) @ (-47), (-1623981519183149) @ (-47), (-5063993170351635) @ (-49), (-1307706259269703) @ (-47)));
  (233%N, ((-1037632139620821) @ (-47), (-5383009809702665) @ (-49), (-4584111937282753) @ (-49), (-4299904458122717) @ (-49)));
  (234%N, (#, #, #, (-302852298247679) @ (-44)));
  (236%N, ((-7567545727469403) @ (-49), (-7385640542039271) @ (-49), (-2728584107417951) @ (-48), (-6686506730573393) @ (-49)));
  (237%N, ((-6745617496057075) @ (-49), (-591349969240311) @ (-46), (-5242695143541227) @ (-49), (-3317411837498811) @ (-48)));
  (238%N, ((-3855333411915459) @ (-48), (-8871297742822353) @ (-49), #, (-4048158111928321) @ (-48)));
  (239%N, (#, #, (-7696043924970107) @ (-49), (-8033701757752085) @ (-49)));
  (240%N, (#, (-3606862978324355) @ (-48), #, (-976926146266539) @ (-46)));
  (241%N, ((-2933458767102377) @ (-48), (-6171507678560299) @ (-49), (-5568035659321063) @ (-49), (-745656842680861) @ (-46)));
  (242%N, (#, #, #, (-4392620273043229) @ (-48)));
  (243%N, (#, #, #, (-70881326618687) @ (-42)));
  (245%N, (#, #, (-4204275375441935) @ (-48), #));
  (246%N, ((-3183200973510715) @ (-49), (-7141062423470277) @ (-50), (-770645201027297) @ (-47), (-1594714830730967) @ (-48)));
  (247%N, ((-5870288502082269) @ (-49), (-1445325126387491) @ (-47), (-3226368673472627) @ (-48), (-3065992868302729) @ (-48)));
  (248%N, (#, #, (-546860929579423) @ (-45), (-7231493078902567) @ (-49)));
  (249%N, (#, #, #, (-70881326618687) @ (-42)));
  (250%N, ((-5911184586823465) @ (-49), (-687300381887809) @ (-46), (-2797166955854779) @ (-48), (-2937898854866363) @ (-48)));
  (251%N, (#, (-3606862978324355) @ (-48), (-8197617090973557) @ (-49), (-3733460538297031) @ (-48)));
  (252%N, (#, (-3817185134677383) @ (-48), #, (-8910859197905059) @ (-49)));
  (253%N, (#, #, #, (-302852298247679) @ (-44)));
  (255%N, (#, #, #, (-302852298247679) @ (-44)))].

(** prob_emit.py, characters 0x6600 to 0x66ff *)
Definition emit_66 : list (N * num4) := [
  (0%N, (#, (-7575057571972747) @ (-49), (-1794334638614767) @ (-47), (-7643494584741751) @ (-49)));
  (2%N, ((-2883778339549901) @ (-48), (-1447080710337249) @ (-47), (-5400105314421549) @ (-49), (-6097678781153141) @ (-49)));
  (3%N, (#, #, (-4684119305002281) @ (-48), (-8292395461171265) @ (-49)));
  (4%N, (#, #, #, (-302852298247679) @ (-44)));
  (5%N, (#, #, #, (-302852298247679) @ (-44)));
  (6%N, ((-622257552526403) @ (-46), (-701050912750219) @ (-46), (-1434014487908025) @ (-47), (-5949688313172349) @ (-49)));
  (7%N, (#, (-8871297742822353) @ (-49), (-609902861438431) @ (-45), (-3333936558074267) @ (-48)));
  (8%N, (#, #, #, (-4650533185457697) @ (-48)));
  (9%N, (#, (-8871297742822353) @ (-49), (-8978031436994227) @ (-49), (-7121773942140261) @ (-49)));
  (10%N, ((-7773281289935475) @ (-49), (-5883008689822489) @ (-49), (-3040534248737943) @ (-48), (-1783406489466885) @ (-47)));
  (12%N, ((-5854727196680739) @ (-49), (-3662474305301793) @ (-49), (-4291369002748435) @ (-49), (-1548471807924363) @ (-47)));
  (13%N, (#, #, #, (-302852298247679) @ (-44)));
  (14%N, ((-6949878665060745) @ (-50), (-6996174699072265) @ (-50), (-3413074655466899) @ (-49), (-8474966095119269) @ (-50)));
  (15%N, ((-5388971805433059) @ (-49), (-5455077840579633) @ (-49), (-5801920114202245) @ (-49), (-2948682151732233) @ (-48)));
  (16%N, (#, #, #, (-8910859197905059) @ (-49)));
  (17%N, (#, #, #, (-4227173035229071) @ (-48)));
  (19%N, ((-1244370803298797) @ (-47), (-8325258946646667) @ (-50), (-8076673015882037) @ (-50), (-4891811004278379) @ (-49)));
  (20%N, ((-44033116213039) @ (-42), (-3005360696119749) @ (-48), (-1658101860833211) @ (-47), (-6238477401306399) @ (-49)));
  (21%N, ((-609902861438431) @ (-45), (-6122524627936863) @ (-49), (-6079432013900721) @ (-49), (-7029990791577139) @ (-49)));
  (22%N, (#, #, #, (-1994339944854797) @ (-47)));
  (25%N, ((-7320459650820583) @ (-49), (-1925169055947837) @ (-47), #, (-3184193191912173) @ (-48)));
  (26%N, (#, #, (-609902861438431) @ (-45), (-4297911758076491) @ (-48)));
  (27%N, (#, #, #, (-4650533185457697) @ (-48)));
  (28%N, (#, #, #, (-302852298247679) @ (-44)));
  (29%N, ((-2011133004627089) @ (-47), #, #, (-4170689255897351) @ (-48)));
  (30%N, (#, #, #, (-1822899526423839) @ (-47)));
  (31%N, ((-4522703485311657) @ (-49), (-8456461411355675) @ (-50), (-8257660752035321) @ (-50), (-4965421532098815) @ (-49)));
  (32%N, ((-1498484575923297) @ (-47), (-5527278612788769) @ (-49), (-1170735515630577) @ (-47), (-1514773221388317) @ (-47)));
  (34%N, (#, #, #, (-7145732875094951) @ (-49)));
  (35%N, (#, #, #, (-8910859197905059) @ (-49)));
  (36%N, (#, #, #, (-302852298247679) @ (-44)));
  (37%N, ((-4562613235020343) @ (-49), (-7353805405711809) @ (-50), (-4640925132383789) @ (-49), (-4925040156115791) @ (-49)));
  (39%N, ((-7862826752368233) @ (-49), (-398981976780441) @ (-45), (-6108780801486701) @ (-49), (-6347254413892145) @ (-49)));
  (40%N, ((-4650331846636489) @ (-49), (-491414177067389) @ (-45), (-4426206392587813) @ (-48), (-1664373966160355) @ (-47)));
  (41%N, (#, #, #, (-4048158111928321) @ (-48)));
  (42%N, (#, #, #, (-7643494584741751) @ (-49)));
  (43%N, (#, #, #, (-7951171338784367) @ (-49)));
  (44%N, (#, #, #, (-271331332318175) @ (-44)));
  (45%N, ((-2947528267760435) @ (-48), (-1206677773987685) @ (-47), (-5890365258760307) @ (-49), (-5868788621466997) @ (-49)));
  (46%N, (#, #, #, (-302852298247679) @ (-44)));
  (47%N, ((-4084594521352849) @ (-49), (-4317323960678447) @ (-49), (-2836729580568737) @ (-49), (-4083145116398245) @ (-50)));
  (48%N, (#, #, (-609902861438431) @ (-45), (-7857128249604397) @ (-49)));
  (49%N, (#, (-752663763098607) @ (-46), (-6316748684645637) @ (-49), (-239810366388671) @ (-44)));
  (52%N, (#, #, (-571248877892569) @ (-45), (-7489000375236853) @ (-49)));
  (53%N, ((-3855333411915459) @ (-48), #, (-6880652495669265) @ (-49), (-1809666128217651) @ (-47)));
  (54%N, (#, (-3760701355345663) @ (-48), (-3704237331932315) @ (-48), (-8130444851884389) @ (-49)));
  (55%N, (#, #, #, (-302852298247679) @ (-44)));
  (56%N, (#, #, #, (-70881326618687) @ (-42)));
  (57%N, (#, #, #, (-302852298247679) @ (-44)));
  (58%N, (#, (-8871297742822353) @ (-49), (-571248877892569) @ (-45), (-3951094144080465) @ (-48)));
  (59%N, (#, #, #, (-302852298247679) @ (-44)));
  (60%N, ((-5890365258760307) @ (-49), #, (-3276579770341245) @ (-48), (-3383949363299101) @ (-48)));
  (62%N, ((-4052459190464617) @ (-49), (-4810307209774827) @ (-49), (-4528806263911631) @ (-49), (-4946650623776243) @ (-49)));
  (63%N, (#, #, #, (-4650533185457697) @ (-48)));
  (65%N, ((-3154048626372215) @ (-48), (-7575057571972747) @ (-49), (-8131311136536975) @ (-49), (-409785891556225) @ (-45)));
  (66%N, ((-3183200973510715) @ (-49), (-7141062423470277) @ (-50), (-770645201027297) @ (-47), (-1594714830730967) @ (-48)));
  (67%N, ((-3038900136881431) @ (-48), (-5143028637733159) @ (-49), (-5516450855358231) @ (-49), (-5564991297889933) @ (-49)));
  (68%N, (#, #, #, (-302852298247679) @ (-44)));
  (69%N, (#, (-8871297742822353) @ (-49), (-8462205612165291) @ (-49), (-4650533185457697) @ (-48)));
  (71%N, (#, #, #, (-70881326618687) @ (-42)));
  (72%N, (#, #, #, (-70881326618687) @ (-42)));
  (73%N, ((-5063993170351635) @ (-49), (-1337405887050481) @ (-47), (-2526335593936019) @ (-48), (-695301647224685) @ (-46)));
  (74%N, (#, #, (-609902861438431) @ (-45), (-302852298247679) @ (-44)));
  (75%N, ((-5063993170351635) @ (-49), (-1337405887050481) @ (-47), (-2526335593936019) @ (-48), (-695301647224685) @ (-46)));
  (76%N, ((-3420680487369323) @ (-48), (-6794643225952077) @ (-49), (-5526763804554831) @ (-49), (-6527269138361157) @ (-49)));
  (78%N, (#, #, #, (-302852298247679) @ (-44)));
  (79%N, ((-6144309937249403) @ (-49), (-6530054704760343) @ (-49), (-6857400519925933) @ (-49), (-6390342646743027) @ (-49)));
  (80%N, (#, #, #, (-302852298247679) @ (-44)));
  (81%N, (#, #, #, (-302852298247679) @ (-44)));
  (82%N, ((-6329343168624479) @ (-49), (-6262177274778075) @ (-49), (-3133364351259961) @ (-48), (-698448455051911) @ (-46)));
  (83%N, ((-5406002705273793) @ (-49), (-3440821282757569) @ (-49), (-5179973688787731) @ (-49), (-1544030019510545) @ (-47)));
  (84%N, (#, (-5643713538044281) @ (-49), (-6541900166291575) @ (-49), (-7500373488380235) @ (-49)));
  (85%N, ((-1540265024284871) @ (-47), (-1478632665286877) @ (-47), (-724928785354949) @ (-46), (-176673670697357) @ (-44)));
  (86%N, ((-609902861438431) @ (-45), (-2782794653376355) @ (-48), (-5567048316267463) @ (-49), (-3444810757719897) @ (-48)));
  (87%N, (#, (-3383588402652739) @ (-48), (-3091607482303129) @ (-48), (-7835882333724349) @ (-49)));
  (89%N, (#, #, (-609902861438431) @ (-45), #));
  (90%N, ((-554545680869071) @ (-46), (-177361545445349) @ (-44), (-2383026093573539) @ (-48), (-4810739025442259) @ (-49)));
  (91%N, (#, #, #, (-70881326618687) @ (-42)));
  (92%N, (#, #, #, (-302852298247679) @ (-44)));
  (93%N, ((-5890365258760307) @ (-49), #, (-3276579770341245) @ (-48), (-3383949363299101) @ (-48)));
  (94%N, (#, #, (-571248877892569) @ (-45), (-7358896042685395) @ (-49)));
  (95%N, (#, (-701050912750219) @ (-46), (-1668867720385385) @ (-47), (-3733460538297031) @ (-48)));
  (96%N, (#, #, #, (-7587152606408853) @ (-49)));
  (97%N, (#, #, #, (-8064138897447807) @ (-49)));
  (98%N, (#, #, #, (-7489000375236853) @ (-49)));
  (99%N, (#, #, #, (-1930728693765227) @ (-47)));
  (100%N, ((-8100873996841253) @ (-49), (-5861143807466207) @ (-49), (-6093496153456681) @ (-49), (-442294618973983) @ (-45)));
  (101%N, (#, #, #, (-8033701757752085) @ (-49)));
  (102%N, ((-6440191982019049) @ (-49), (-7575057571972747) @ (-49), (-6606814401963911) @ (-49), (-6541731033373189) @ (-49)));
  (103%N, (#, #, #, (-4392620273043229) @ (-48)));
  (104%N, ((-3011000841729041) @ (-48), (-2496401318346165) @ (-48), (-5083013096699077) @ (-49), (-3120462506827631) @ (-48)));
  (105%N, (#, #, #, (-834472943762735) @ (-46)));
  (106%N, (#, #, #, (-4650533185457697) @ (-48)));
  (107%N, (#, #, #, (-3350102242753159) @ (-48)));
  (108%N, (#, #, #, (-4392620273043229) @ (-48)));
  (110%N, ((-516590979504525) @ (-46), (-8648897809421297) @ (-50), (-5295962024661845) @ (-49), (-5631943631414005) @ (-49)));
  (111%N, ((-4517480992627173) @ (-49), (-8035589533336873) @ (-50), (-4365129310624101) @ (-49), (-5418003694467175) @ (-49)));
  (112%N, (#, (-5944804081210427) @ (-49), (-1387870471998231) @ (-47), (-2001206550016447) @ (-47)));
  (113%N, (#, #, #, (-8292395461171265) @ (-49)));
  (115%N, (#, #, #, (-8064138897447807) @ (-49)));
  (116%N, ((-728495747714883) @ (-46), (-5758505895561349) @ (-49), (-3005159387431689) @ (-48), (-5851945649099841) @ (-49)));
  (118%N, ((-2583935144619515) @ (-48), (-4601736216575337) @ (-49), (-2508763653361257) @ (-48), (-6099583858955743) @ (-49)));
  (119%N, (#, #, (-7696043924970107) @ (-49), (-3767970024052643) @ (-48)));
  (120%N, (#, #, #, (-302852298247679) @ (-44)));
  (121%N, (#, #, #, (-70881326618687) @ (-42)));
  (122%N, ((-4866806977520377) @ (-49), (-4223679514229703) @ (-49), (-4857780026876167) @ (-49), (-2560229243047211) @ (-48)));
  (123%N, (#, #, #, (-4650533185457697) @ (-48)));
  (125%N, (#, #, #, (-8130444851884389) @ (-49)));
  (126%N, ((-903159767337213) @ (-46), (-8252834006088559) @ (-49), (-4684119305002281) @ (-48), (-3267743765907651) @ (-48)));
  (127%N, (#, #, #, (-4650533185457697) @ (-48)));
  (128%N, (#, #, #, (-7060704769219635) @ (-49)));
  (129%N, (#, #, #, (-4297911758076491) @ (-48)));
  (130%N, ((-2509694355113133) @ (-48), (-8252834006088559) @ (-49), (-6087662422977705) @ (-49), (-5610728514010503) @ (-49)));
  (131%N, (#, #, #, (-8910859197905059) @ (-49)));
  (132%N, (#, (-3817185134677383) @ (-48), (-1665378182407533) @ (-47), (-7614619027055453) @ (-49)));
  (133%N, (#, #, #, (-3733460538297031) @ (-48)));
  (134%N, (#, #, #, (-8910859197905059) @ (-49)));
  (135%N, (#, (-6411517277799191) @ (-49), (-5663668114187537) @ (-49), (-1617756073932301) @ (-47)));
  (136%N, ((-1540265024284871) @ (-47), (-1478632665286877) @ (-47), (-724928785354949) @ (-46), (-302852298247679) @ (-44)));
  (137%N, ((-609902861438431) @ (-45), (-2782794653376355) @ (-48), (-5567048316267463) @ (-49), (-3444810757719897) @ (-48)));
  (139%N, (#, #, #, (-4650533185457697) @ (-48)));
  (140%N, ((-8359567700260433) @ (-49), #, (-609902861438431) @ (-45), (-3879055303555717) @ (-48)));
  (141%N, (#, #, #, (-7151885394841985) @ (-49)));
  (142%N, (#, #, #, (-7951171338784367) @ (-49)));
  (144%N, (#, (-1925169055947837) @ (-47), (-4260759154773655) @ (-48), (-7386362463331995) @ (-49)));
  (145%N, ((-3158997764452997) @ (-48), (-6195264366155019) @ (-49), (-2968931895894069) @ (-48), (-3452684697072041) @ (-48)));
  (146%N, (#, #, #, (-7600718321947853) @ (-49)));
  (147%N, (#, #, #, (-302852298247679) @ (-44)));
  (149%N, (#, #, (-609902861438431) @ (-45), (-302852298247679) @ (-44)));
  (150%N, ((-5574329369543299) @ (-49), (-5033816596356029) @ (-49), (-5336822246324919) @ (-49), (-2410048685023265) @ (-48)));
  (151%N, ((-567731527669371) @ (-46), (-5620514219229163) @ (-49), (-4901303031551631) @ (-49), (-640288131361173) @ (-46)));
  (152%N, (#, #, (-546860929579423) @ (-45), (-7231493078902567) @ (-49)));
  (153%N, (#, #, #, (-302852298247679) @ (-44)));
  (154%N, (#, #, #, (-3951094144080465) @ (-48)));
  (156%N, (#, #, #, (-302852298247679) @ (-44)));
  (157%N, (#, #, #, (-7926147221115621) @ (-49)));
  (159%N, (#, #, #, (-943539134077359) @ (-46)));
  (160%N, (#, #, #, (-7643494584741751) @ (-49)));
  (161%N, (#, #, #, (-2001206550016447) @ (-47)));
  (162%N, ((-5271706898013021) @ (-49), (-6397442795887179) @ (-49), (-5682322374893745) @ (-49), (-5969782513469415) @ (-49)));
  (163%N, (#, #, #, (-3722837580357007) @ (-48)));
  (167%N, ((-1709551796309617) @ (-47), #, #, (-7857128249604397) @ (-49)));
  (168%N, ((-7171623277416283) @ (-49), (-7310469050781013) @ (-49), (-3761685067605859) @ (-48), (-3118628787138913) @ (-48)));
  (169%N, (#, #, #, (-8910859197905059) @ (-49)));
  (170%N, (#, #, #, (-302852298247679) @ (-44)));
  (171%N, ((-2509694355113133) @ (-48), (-8252834006088559) @ (-49), (-6087662422977705) @ (-49), (-5610728514010503) @ (-49)));
  (172%N, (#, #, #, (-70881326618687) @ (-42)));
  (173%N, (#, #, #, (-4392620273043229) @ (-48)));
  (174%N, ((-6291183320945945) @ (-49), (-3042696796520353) @ (-48), (-3543643231182759) @ (-48), (-2956449800576457) @ (-48)));
  (176%N, (#, #, #, (-302852298247679) @ (-44)));
  (177%N, ((-3855333411915459) @ (-48), #, (-6880652495669265) @ (-49), (-1809666128217651) @ (-47)));
  (178%N, (#, #, #, (-7145732875094951) @ (-49)));
  (180%N, ((-1193207378773961) @ (-47), (-2665774029629739) @ (-48), (-5302706468542067) @ (-49), (-1492635173834867) @ (-47)));
  (181%N, (#, #, #, (-4650533185457697) @ (-48)));
  (182%N, (#, #, #, (-302852298247679) @ (-44)));
  (184%N, (#, #, #, (-4297911758076491) @ (-48)));
  (185%N, ((-3543643231182759) @ (-48), #, (-7773281289935475) @ (-49), (-1853809505254573) @ (-47)));
  (187%N, (#, #, #, (-271331332318175) @ (-44)));
  (189%N, (#, #, #, (-302852298247679) @ (-44)));
  (190%N, (#, #, (-8359567700260433) @ (-49), (-976926146266539) @ (-46)));
  (191%N, (#, #, #, (-70881326618687) @ (-42)));
  (193%N, (#, #, #, (-4650533185457697) @ (-48)));
  (194%N, (#, #, #, (-271331332318175) @ (-44)));
  (195%N, (#, #, #, (-302852298247679) @ (-44)));
  (196%N, (#, (-5643713538044281) @ (-49), (-6541900166291575) @ (-49), (-7500373488380235) @ (-49)));
  (197%N, (#, #, #, (-302852298247679) @ (-44)));
  (198%N, (#, #, #, (-2130163006223681) @ (-47)));
  (199%N, ((-7320459650820583) @ (-49), (-1925169055947837) @ (-47), #, (-3184193191912173) @ (-48)));
  (200%N, (#, #, (-609902861438431) @ (-45), #));
  (201%N, ((-5406002705273793) @ (-49), (-3440821282757569) @ (-49), (-5179973688787731) @ (-49), (-1544030019510545) @ (-47)));
  (203%N, (#, #, #, (-302852298247679) @ (-44)));
  (204%N, (#, #, (-546860929579423) @ (-45), (-8395033373076123) @ (-49)));
  (205%N, (#, #, #, (-70881326618687) @ (-42)));
  (206%N, (#, #, #, (-4650533185457697) @ (-48)));
  (207%N, (#, #, #, (-302852298247679) @ (-44)));
  (209%N, (#, #, #, (-302852298247679) @ (-44)));
  (211%N, (#, #, #, (-70881326618687) @ (-42)));
  (212%N, (#, #, #, (-302852298247679) @ (-44)));
  (214%N, ((-1709551796309617) @ (-47), #, #, (-7857128249604397) @ (-49)));
  (215%N, (#, #, #, (-4170689255897351) @ (-48)));
  (216%N, (#, #, #, (-3702723670134365) @ (-48)));
  (217%N, ((-6273608013626637) @ (-49), (-668164747829659) @ (-46), (-7924300488693565) @ (-49), (-3207429064687847) @ (-48)));
  (218%N, (#, #, #, (-6878093127173811) @ (-49)));
  (219%N, (#, #, #, (-239810366388671) @ (-44)));
  (220%N, (#, (-6646945275490687) @ (-49), (-6877271404704321) @ (-49), (-7115940211661285) @ (-49)));
  (221%N, ((-3133364351259961) @ (-48), (-8871297742822353) @ (-49), #, (-456223959081461) @ (-45)));
  (222%N, (#, #, #, (-6642280074779601) @ (-49)));
  (223%N, (#, #, #, (-855160738236529) @ (-46)));
  (224%N, ((-5870288502082269) @ (-49), (-1445325126387491) @ (-47), (-3226368673472627) @ (-48), (-3065992868302729) @ (-48)));
  (225%N, (#, #, #, (-880642292618137) @ (-46)));
  (226%N, (#, #, #, (-3733460538297031) @ (-48)));
  (227%N, (#, #, #, (-302852298247679) @ (-44)));
  (228%N, (#, #, #, (-4650533185457697) @ (-48)));
  (229%N, (#, #, #, (-302852298247679) @ (-44)));
  (230%N, (#, (-6566386662228619) @ (-49), (-6324271513120055) @ (-49), (-850424662662967) @ (-46)));
  (231%N, (#, #, #, (-271331332318175) @ (-44)));
  (232%N, (#, #, #, (-70881326618687) @ (-42)));
  (233%N, (#, #, #, (-2001206550016447) @ (-47)));
  (234%N, (#, #, #, (-7065990723112215) @ (-49)));
  (235%N, (#, #, #, (-4650533185457697) @ (-48)));
  (236%N, ((-6329343168624479) @ (-49), (-6262177274778075) @ (-49), (-3133364351259961) @ (-48), (-698448455051911) @ (-46)));
  (238%N, (#, #, #, (-4650533185457697) @ (-48)));
  (239%N, (#, #, #, (-8395033373076123) @ (-49)));
  (240%N, (#, (-1623981519183149) @ (-47), (-3202075439804693) @ (-48), (-8939082540234373) @ (-50)));
  (241%N, (#, #, #, (-302852298247679) @ (-44)));
  (242%N, ((-1189838870371059) @ (-47), (-8813977056295623) @ (-50), (-2276597462248269) @ (-48), (-5211583863491101) @ (-49)));
  (243%N, ((-3756423699901591) @ (-48), (-7131195537680991) @ (-49), (-6647892308299007) @ (-49), (-6786983603534937) @ (-49)));
  (244%N, ((-1984974020188275) @ (-48), (-640667861440863) @ (-46), (-2746741068997895) @ (-48), (-3531696696477961) @ (-49)));
  (245%N, (#, #, #, (-302852298247679) @ (-44)));
  (246%N, (#, #, #, (-7951171338784367) @ (-49)));
  (247%N, (#, #, #, (-7477852487122849) @ (-49)));
  (248%N, ((-259267234282871) @ (-45), (-6993196871355967) @ (-50), (-1933013488992643) @ (-48), (-4145188686032819) @ (-49)));
  (249%N, ((-2198707070145029) @ (-48), (-6028481538756893) @ (-49), (-6890919344730931) @ (-49), (-5367199218786349) @ (-49)));
  (250%N, (#, #, #, (-8910859197905059) @ (-49)));
  (251%N, (#, #, #, (-8910859197905059) @ (-49)));
  (252%N, ((-648684661247319) @ (-46), (-2367386554919191) @ (-48), (-5018519289275971) @ (-49), (-3005721656766111) @ (-48)));
  (253%N, ((-609902861438431) @ (-45), #, #, #));
  (254%N, ((-4433285122160961) @ (-49), (-5883008689822489) @ (-49), (-2595833715859427) @ (-48), (-7809721463996861) @ (-50)));
  (255%N, ((-5302912112362955) @ (-49), (-6669024574133477) @ (-49), (-5044424127913147) @ (-49), (-2432869651477927) @ (-48)))].

(** prob_emit.py, characters 0x6700 to 0x67ff *)
Definition emit_67 : list (N * num4) := [
  (0%N, ((-3322065295494743) @ (-49), (-6307692958809439) @ (-49), (-6887476215016351) @ (-49), (-3493435580377769) @ (-49)));
  (2%N, (#, #, #, (-8910859197905059) @ (-49)));
  (3%N, ((-3670636126929531) @ (-49), (-5669865083669721) @ (-50), (-2707968988959341) @ (-49), (-6512911613643389) @ (-50)));
  (4%N, (#, #, #, (-271331332318175) @ (-44)));
  (5%N, (#, #, #, (-302852298247679) @ (-44)));
  (6%N, (#, #, #, (-302852298247679) @ (-44)));
  (7%N, (#, #, #, (-302852298247679) @ (-44)));
  (8%N, ((-4557008963160441) @ (-49), (-4106012681121571) @ (-49), (-3972149027290611) @ (-49), (-6310718908920201) @ (-50)));
  (9%N, ((-6086885134263429) @ (-50), (-3361669343596399) @ (-49), (-5642434797312591) @ (-50), (-2397167963396639) @ (-49)));
  (10%N, (#, #, #, (-3870118839437027) @ (-48)));
  (11%N, ((-2306987845679047) @ (-48), (-1144137589622803) @ (-47), (-6210386724187025) @ (-49), (-815400562512599) @ (-46)));
  (12%N, (#, #, #, (-302852298247679) @ (-44)));
  (13%N, ((-2033209511350657) @ (-48), (-2418089948189279) @ (-48), (-8535909208851967) @ (-50), (-626115615441891) @ (-46)));
  (15%N, (#, #, #, (-4392620273043229) @ (-48)));
  (16%N, (#, (-8252834006088559) @ (-49), (-4081744231472905) @ (-48), (-1893476528496951) @ (-47)));
  (18%N, (#, #, #, (-8910859197905059) @ (-49)));
  (19%N, (#, #, #, (-8166776809352665) @ (-49)));
  (20%N, ((-6582334460222915) @ (-49), (-6118275928875963) @ (-49), (-1681167025932647) @ (-47), (-3136876011356863) @ (-48)));
  (21%N, ((-7862826752368233) @ (-49), (-1764807936785953) @ (-47), (-3761685067605859) @ (-48), (-5306900210200393) @ (-49)));
  (23%N, ((-6008875312653497) @ (-49), (-4758842377232925) @ (-49), (-2375557193805693) @ (-48), (-5556928074772899) @ (-49)));
  (24%N, (#, #, #, (-2130163006223681) @ (-47)));
  (25%N, (#, #, #, (-271331332318175) @ (-44)));
  (26%N, (#, #, #, (-4650533185457697) @ (-48)));
  (27%N, ((-4985267393949059) @ (-49), (-4738409750091197) @ (-49), (-7881985042300551) @ (-50), (-4415718639514475) @ (-49)));
  (29%N, ((-4231136201723689) @ (-49), (-3961839330246475) @ (-49), (-8352458144603351) @ (-50), (-8564777751940489) @ (-50)));
  (30%N, (#, #, #, (-302852298247679) @ (-44)));
  (31%N, ((-8326844672103165) @ (-50), (-8488457002206689) @ (-50), (-1697883041595559) @ (-48), (-295835023819191) @ (-45)));
  (32%N, (#, #, #, (-7307683484381827) @ (-49)));
  (33%N, (#, #, #, (-271331332318175) @ (-44)));
  (35%N, (#, #, #, (-8910859197905059) @ (-49)));
  (38%N, ((-6070515413542939) @ (-49), (-6131119450661751) @ (-49), (-3761685067605859) @ (-48), (-3888284818171165) @ (-48)));
  (39%N, (#, (-3095216074021885) @ (-48), (-380272237863443) @ (-45), (-7158105899608537) @ (-49)));
  (40%N, ((-2111174359739045) @ (-48), (-1937595710345727) @ (-48), (-4554227611159771) @ (-49), (-2391643207979869) @ (-48)));
  (42%N, ((-8537284134039185) @ (-50), (-4519101735505853) @ (-49), (-4709329157853869) @ (-49), (-4214157400886113) @ (-49)));
  (43%N, ((-5263784698253009) @ (-49), (-1256768650041029) @ (-47), (-2390739319964377) @ (-48), (-606532168762463) @ (-46)));
  (44%N, ((-6912267312739591) @ (-50), (-6681254512608351) @ (-50), (-6574126922827255) @ (-50), (-7391328739356583) @ (-50)));
  (45%N, ((-7072789095884181) @ (-49), (-1648815554978729) @ (-47), (-7072789095884181) @ (-49), (-6166367091889265) @ (-49)));
  (46%N, (#, #, #, (-2130163006223681) @ (-47)));
  (47%N, ((-5942329140609933) @ (-49), (-1865966077314191) @ (-48), (-6909702126555361) @ (-50), (-1290412311564535) @ (-47)));
  (48%N, (#, #, #, (-302852298247679) @ (-44)));
  (49%N, ((-8060257041359067) @ (-50), (-658068119136087) @ (-46), (-5623372988239677) @ (-49), (-4689214996552123) @ (-49)));
  (50%N, (#, #, #, (-4650533185457697) @ (-48)));
  (51%N, (#, #, #, (-302852298247679) @ (-44)));
  (52%N, ((-5488026319156939) @ (-49), (-5954212934546103) @ (-49), (-2821674170527261) @ (-48), (-6539642162874743) @ (-49)));
  (53%N, ((-903159767337213) @ (-46), (-6171507678560299) @ (-49), (-635307085567833) @ (-46), (-2795915258645725) @ (-48)));
  (54%N, (#, #, #, (-302852298247679) @ (-44)));
  (55%N, (#, #, #, (-8130444851884389) @ (-49)));
  (56%N, (#, #, #, (-8910859197905059) @ (-49)));
  (57%N, (#, #, #, (-302852298247679) @ (-44)));
  (58%N, ((-6604351823023089) @ (-50), (-1833240734434687) @ (-48), (-6960518180938883) @ (-50), (-4712192490384987) @ (-49)));
  (59%N, (#, #, #, (-70881326618687) @ (-42)));
  (61%N, ((-7133162962201383) @ (-49), (-3606862978324355) @ (-48), (-2943146109036859) @ (-48), (-108816228894371) @ (-43)));
  (62%N, (#, #, #, (-8166776809352665) @ (-49)));
  (63%N, (#, #, #, (-302852298247679) @ (-44)));
  (64%N, ((-141825111720935) @ (-44), (-5391093332539629) @ (-49), (-2375827453045573) @ (-48), (-8379213787077685) @ (-50)));
  (65%N, (#, #, #, (-4392620273043229) @ (-48)));
  (66%N, ((-295314011529361) @ (-45), (-79684599037223) @ (-43), (-4697136866642133) @ (-49), (-5369281329170657) @ (-49)));
  (67%N, ((-1975305075677349) @ (-48), (-4223241022746995) @ (-49), (-3652925634397911) @ (-49), (-1167404043399253) @ (-47)));
  (68%N, (#, #, #, (-8130444851884389) @ (-49)));
  (69%N, (#, #, #, (-7835882333724349) @ (-49)));
  (70%N, ((-5914222640356659) @ (-49), (-701050912750219) @ (-46), (-660091247802449) @ (-46), (-1399221601444727) @ (-47)));
  (71%N, (#, #, #, (-70881326618687) @ (-42)));
  (72%N, (#, #, (-3551083531600405) @ (-48), (-1410714684387273) @ (-47)));
  (73%N, ((-5916053373525945) @ (-49), (-1291486749366183) @ (-47), (-370957998556211) @ (-45), (-5998538451517179) @ (-49)));
  (75%N, (#, #, #, (-4650533185457697) @ (-48)));
  (76%N, ((-609902861438431) @ (-45), #, #, (-3702723670134365) @ (-48)));
  (77%N, (#, #, #, (-302852298247679) @ (-44)));
  (78%N, ((-3368417141134103) @ (-49), (-4771467675984845) @ (-49), (-5471413937320559) @ (-49), (-566352540617351) @ (-46)));
  (79%N, ((-382014655813439) @ (-45), (-5133379951446409) @ (-49), (-372617373638147) @ (-45), (-6275053641683009) @ (-49)));
  (80%N, ((-2302040882199727) @ (-48), (-4505188975666329) @ (-49), (-4401422388990637) @ (-49), (-2940151954188827) @ (-48)));
  (81%N, ((-1122689420659425) @ (-47), (-4627802014614251) @ (-49), (-525365754394883) @ (-46), (-4611274917273003) @ (-49)));
  (83%N, (#, (-8090883396801683) @ (-49), (-8233949048441833) @ (-49), (-6885752428364879) @ (-49)));
  (84%N, (#, #, #, (-70881326618687) @ (-42)));
  (85%N, (#, #, #, (-302852298247679) @ (-44)));
  (86%N, ((-4684119305002281) @ (-48), (-5765247891753263) @ (-49), (-2725089148765739) @ (-48), (-5434447675457877) @ (-49)));
  (88%N, (#, #, #, (-8910859197905059) @ (-49)));
  (89%N, (#, #, #, (-2130163006223681) @ (-47)));
  (90%N, (#, #, #, (-8205616343142647) @ (-49)));
  (91%N, (#, #, #, (-8205616343142647) @ (-49)));
  (92%N, ((-568299263011805) @ (-46), (-2565222045529385) @ (-48), (-3233596673457799) @ (-48), (-5904066167775883) @ (-49)));
  (93%N, (#, #, #, (-302852298247679) @ (-44)));
  (94%N, ((-3286220266632137) @ (-48), (-428372245208381) @ (-45), (-6699532234209679) @ (-49), (-6213400192681475) @ (-49)));
  (95%N, ((-5612217974131795) @ (-49), (-1412762123656457) @ (-47), (-4467666142448931) @ (-49), (-5817961645338381) @ (-49)));
  (96%N, ((-1585882629060587) @ (-47), (-4240545284906009) @ (-48), (-3302366626870007) @ (-48), (-6837734159388757) @ (-49)));
  (97%N, ((-7879023829701319) @ (-50), (-4432463849277629) @ (-49), (-7713778796547609) @ (-50), (-4376968576473795) @ (-49)));
  (98%N, (#, #, #, (-70881326618687) @ (-42)));
  (100%N, (#, #, #, (-302852298247679) @ (-44)));
  (101%N, ((-7315327112718203) @ (-50), (-3401329410376285) @ (-49), (-2767900928165289) @ (-49), (-735056903099271) @ (-47)));
  (102%N, (#, #, #, (-302852298247679) @ (-44)));
  (103%N, (#, #, #, (-4048158111928321) @ (-48)));
  (104%N, ((-7558834503032589) @ (-50), (-2469626007875349) @ (-48), (-669321923903721) @ (-46), (-4219070205119625) @ (-49)));
  (105%N, (#, #, #, (-1274126634071889) @ (-47)));
  (106%N, (#, (-4240545284906009) @ (-48), (-4684119305002281) @ (-48), (-8166776809352665) @ (-49)));
  (107%N, (#, #, #, (-4650533185457697) @ (-48)));
  (108%N, (#, #, #, (-3256584737927489) @ (-48)));
  (109%N, ((-299588474088251) @ (-45), (-5546874565524039) @ (-49), (-811944417774287) @ (-46), (-708002892317889) @ (-46)));
  (110%N, (#, #, #, (-4650533185457697) @ (-48)));
  (111%N, ((-371676887012489) @ (-45), (-701050912750219) @ (-46), (-2351033512052745) @ (-48), (-5244445458409937) @ (-49)));
  (112%N, ((-2667103455413467) @ (-48), (-2455892797552049) @ (-48), (-4640734785821225) @ (-49), (-6045928997674321) @ (-49)));
  (113%N, ((-6759905301588537) @ (-50), (-1801028271091723) @ (-48), (-3709651192412649) @ (-49), (-260422474638935) @ (-45)));
  (114%N, (#, (-6703857329774499) @ (-49), (-6592405389866091) @ (-49), (-7489000375236853) @ (-49)));
  (115%N, ((-7502517753044599) @ (-49), (-7575057571972747) @ (-49), (-4684119305002281) @ (-48), (-3733460538297031) @ (-48)));
  (116%N, (#, #, #, (-4650533185457697) @ (-48)));
  (117%N, ((-546860929579423) @ (-45), (-3460130938885339) @ (-48), (-1839692586196131) @ (-47), (-1590566825586219) @ (-47)));
  (119%N, (#, (-1925169055947837) @ (-47), (-3577408776600841) @ (-48), (-2001206550016447) @ (-47)));
  (120%N, (#, #, #, (-4170689255897351) @ (-48)));
  (121%N, (#, #, #, (-8910859197905059) @ (-49)));
  (122%N, (#, #, #, (-302852298247679) @ (-44)));
  (123%N, (#, #, #, (-4392620273043229) @ (-48)));
  (124%N, ((-609902861438431) @ (-45), (-7346801008249289) @ (-49), (-8100873996841253) @ (-49), (-3951094144080465) @ (-48)));
  (125%N, (#, #, #, (-7065990723112215) @ (-49)));
  (126%N, ((-4677430572771487) @ (-49), (-4421552811644095) @ (-49), (-571784222719709) @ (-46), (-79121086181721) @ (-43)));
  (127%N, ((-5133960628243947) @ (-49), (-4940295482135497) @ (-49), (-4346280357812231) @ (-49), (-4891029981524235) @ (-49)));
  (129%N, ((-131142183949589) @ (-44), (-4279590690970181) @ (-49), (-8692711126406443) @ (-50), (-1066598381654115) @ (-47)));
  (130%N, (#, #, #, (-7658507473194481) @ (-49)));
  (131%N, (#, #, #, (-6424971274762273) @ (-49)));
  (132%N, ((-8944983048467835) @ (-50), (-4982014561607583) @ (-49), (-7706363057701133) @ (-50), (-5949688313172349) @ (-49)));
  (133%N, (#, #, #, (-271331332318175) @ (-44)));
  (134%N, (#, #, #, (-2130163006223681) @ (-47)));
  (135%N, ((-889038822504283) @ (-46), #, #, (-7386362463331995) @ (-49)));
  (136%N, (#, #, #, (-7386362463331995) @ (-49)));
  (137%N, ((-3420680487369323) @ (-48), (-6081415131581645) @ (-49), (-192890947544793) @ (-44), (-6030528190468957) @ (-49)));
  (138%N, (#, #, #, (-302852298247679) @ (-44)));
  (139%N, ((-571248877892569) @ (-45), (-7575057571972747) @ (-49), (-762954958786267) @ (-46), (-7217418596990555) @ (-49)));
  (140%N, (#, #, #, (-1706802855995055) @ (-47)));
  (143%N, (#, #, #, (-8395033373076123) @ (-49)));
  (144%N, ((-6844532532160723) @ (-49), (-4861480289137783) @ (-49), (-8858175797929203) @ (-50), (-2948682151732233) @ (-48)));
  (146%N, (#, #, #, (-3662121014844325) @ (-48)));
  (147%N, (#, #, #, (-4392620273043229) @ (-48)));
  (149%N, ((-5878805305272223) @ (-49), (-6338130098505161) @ (-49), (-6831952121402971) @ (-49), (-1470399511692885) @ (-47)));
  (150%N, (#, #, #, (-4650533185457697) @ (-48)));
  (151%N, ((-1017217892015065) @ (-47), (-7061197959671511) @ (-50), (-7658445191791753) @ (-50), (-35878622670551) @ (-42)));
  (152%N, (#, #, #, (-8166776809352665) @ (-49)));
  (154%N, ((-4081744231472905) @ (-48), (-6118275928875963) @ (-49), (-5262060501029449) @ (-49), (-5192788056184825) @ (-49)));
  (155%N, (#, #, #, (-302852298247679) @ (-44)));
  (156%N, ((-2274299032356179) @ (-48), (-8744100964724949) @ (-50), (-6930090476730745) @ (-50), (-4958089046378717) @ (-49)));
  (157%N, ((-5608312282345725) @ (-49), (-5084090366672507) @ (-49), (-5106167828254885) @ (-49), (-5592217823776229) @ (-49)));
  (158%N, ((-3903704958981611) @ (-48), #, (-2146956065995973) @ (-47), (-4170689255897351) @ (-48)));
  (159%N, (#, #, #, (-6881909751646441) @ (-49)));
  (160%N, (#, #, #, (-8395033373076123) @ (-49)));
  (161%N, (#, #, #, (-3543822657056257) @ (-48)));
  (162%N, ((-85213475115445) @ (-43), (-5140787294546433) @ (-49), (-5798933635296641) @ (-49), (-6047666498909845) @ (-49)));
  (163%N, ((-5800424894323443) @ (-49), (-7385640542039271) @ (-49), (-6034686314485429) @ (-49), (-6257099274030887) @ (-49)));
  (164%N, (#, #, #, (-302852298247679) @ (-44)));
  (165%N, ((-546860929579423) @ (-45), #, (-8272788582231815) @ (-49), (-8033701757752085) @ (-49)));
  (166%N, (#, #, #, (-4650533185457697) @ (-48)));
  (167%N, (#, (-8871297742822353) @ (-49), #, (-2130163006223681) @ (-47)));
  (168%N, (#, #, (-2146956065995973) @ (-47), (-4170689255897351) @ (-48)));
  (169%N, (#, #, #, (-3634150150092073) @ (-48)));
  (170%N, ((-5114053637482743) @ (-49), (-5179360595201435) @ (-49), (-2380030392669697) @ (-48), (-4855074453326703) @ (-49)));
  (171%N, ((-6890919344730931) @ (-49), (-101243867878125) @ (-43), (-5978021018471535) @ (-49), (-6654931167934761) @ (-49)));
  (172%N, (#, #, #, (-7283724551427137) @ (-49)));
  (173%N, ((-7284590836079723) @ (-49), (-3736209830033945) @ (-48), (-454428729292475) @ (-45), (-6104374951307875) @ (-49)));
  (175%N, ((-5500450147989167) @ (-49), (-6404436052941743) @ (-49), (-3551083531600405) @ (-48), (-5789201813822379) @ (-49)));
  (176%N, (#, #, (-4426206392587813) @ (-48), (-6783757520474441) @ (-49)));
  (177%N, (#, #, #, (-302852298247679) @ (-44)));
  (178%N, (#, #, #, (-2130163006223681) @ (-47)));
  (179%N, ((-8131311136536975) @ (-49), #, #, (-7614619027055453) @ (-49)));
  (180%N, (#, #, #, (-70881326618687) @ (-42)));
  (181%N, (#, #, #, (-8395033373076123) @ (-49)));
  (182%N, ((-5187128166048811) @ (-49), (-4555334851791639) @ (-49), (-8823012687071183) @ (-50), (-4679483420134305) @ (-49)));
  (183%N, ((-3504836334064703) @ (-48), (-3982632372491541) @ (-48), (-571248877892569) @ (-45), (-6311385599151285) @ (-49)));
  (184%N, ((-6606814401963911) @ (-49), (-4240545284906009) @ (-48), #, (-4170689255897351) @ (-48)));
  (185%N, (#, #, #, (-7835882333724349) @ (-49)));
  (186%N, (#, #, #, (-4650533185457697) @ (-48)));
  (187%N, (#, #, #, (-8910859197905059) @ (-49)));
  (188%N, (#, #, #, (-2061833855653683) @ (-47)));
  (189%N, (#, #, #, (-302852298247679) @ (-44)));
  (190%N, (#, #, #, (-1969801887061797) @ (-47)));
  (191%N, (#, #, #, (-4650533185457697) @ (-48)));
  (192%N, (#, #, #, (-4650533185457697) @ (-48)));
  (193%N, (#, #, #, (-8910859197905059) @ (-49)));
  (195%N, (#, (-8871297742822353) @ (-49), #, (-302852298247679) @ (-44)));
  (196%N, ((-609902861438431) @ (-45), (-6657876686019473) @ (-49), (-6045351449903179) @ (-49), (-1285234464231173) @ (-47)));
  (199%N, (#, #, #, (-225115232174701) @ (-44)));
  (200%N, (#, #, #, (-302852298247679) @ (-44)));
  (201%N, (#, #, #, (-7217418596990555) @ (-49)));
  (202%N, ((-2146956065995973) @ (-47), #, #, (-3464924667942539) @ (-48)));
  (203%N, (#, #, #, (-4650533185457697) @ (-48)));
  (204%N, (#, #, #, (-70881326618687) @ (-42)));
  (205%N, (#, #, #, (-70881326618687) @ (-42)));
  (207%N, ((-1314229842458221) @ (-47), (-2310326673858049) @ (-48), (-5719435066981753) @ (-49), (-6437004250969885) @ (-49)));
  (208%N, ((-4376122475833889) @ (-49), (-6411517277799191) @ (-49), (-5573330936021003) @ (-49), (-575190500296855) @ (-46)));
  (209%N, ((-6275919926335595) @ (-49), (-4240545284906009) @ (-48), (-1975763643203379) @ (-47), (-6377691553587867) @ (-49)));
  (210%N, ((-8978031436994227) @ (-49), (-8871297742822353) @ (-49), (-4684119305002281) @ (-48), (-4650533185457697) @ (-48)));
  (211%N, ((-5211946820584697) @ (-49), (-1146692129743221) @ (-47), (-4785156194983493) @ (-49), (-11149264338229) @ (-40)));
  (212%N, ((-5350979690680111) @ (-49), (-687300381887809) @ (-46), (-5492617169907433) @ (-49), (-5548978713559679) @ (-49)));
  (213%N, (#, #, #, (-4227173035229071) @ (-48)));
  (214%N, (#, #, #, (-302852298247679) @ (-44)));
  (215%N, (#, #, #, (-4297911758076491) @ (-48)));
  (216%N, ((-8018343577873535) @ (-49), (-1764807936785953) @ (-47), (-4426206392587813) @ (-48), (-7477852487122849) @ (-49)));
  (217%N, (#, #, (-609902861438431) @ (-45), (-7706109050846307) @ (-49)));
  (218%N, ((-7143886142672895) @ (-49), (-7427359621511357) @ (-49), (-3761685067605859) @ (-48), (-7217418596990555) @ (-49)));
  (220%N, ((-6107061868995681) @ (-49), (-2923948657522579) @ (-48), (-5813008117208653) @ (-49), (-6033065910559427) @ (-49)));
  (221%N, (#, (-8871297742822353) @ (-49), #, (-8292395461171265) @ (-49)));
  (222%N, ((-6890919344730931) @ (-49), #, #, (-7587152606408853) @ (-49)));
  (223%N, (#, #, #, (-3093579333048465) @ (-48)));
  (224%N, ((-807389556437815) @ (-46), (-3817185134677383) @ (-48), (-8131311136536975) @ (-49), (-2130163006223681) @ (-47)));
  (225%N, (#, #, #, (-302852298247679) @ (-44)));
  (226%N, (#, (-4240545284906009) @ (-48), (-4426206392587813) @ (-48), (-3662121014844325) @ (-48)));
  (227%N, (#, #, #, (-2130163006223681) @ (-47)));
  (228%N, (#, #, #, (-8205616343142647) @ (-49)));
  (229%N, ((-4658849240029927) @ (-49), (-4752447287272411) @ (-49), (-4090554986133971) @ (-49), (-638319211666341) @ (-46)));
  (230%N, (#, #, #, (-1994339944854797) @ (-47)));
  (231%N, (#, #, #, (-4297911758076491) @ (-48)));
  (232%N, (#, #, #, (-8166776809352665) @ (-49)));
  (233%N, (#, #, (-3127723381371779) @ (-48), (-6761678221831651) @ (-49)));
  (236%N, ((-3045911597727263) @ (-48), (-7427359621511357) @ (-49), (-7219057633931153) @ (-49), (-6091061325149531) @ (-49)));
  (237%N, (#, #, #, (-8205616343142647) @ (-49)));
  (238%N, (#, #, #, (-70881326618687) @ (-42)));
  (239%N, ((-323368091363705) @ (-45), (-5341045097202137) @ (-49), (-6359426629880835) @ (-49), (-6517162045451459) @ (-49)));
  (240%N, (#, (-4240545284906009) @ (-48), #, (-8292395461171265) @ (-49)));
  (241%N, ((-1391844309561963) @ (-47), (-5301992768114433) @ (-49), (-2362770106374211) @ (-48), (-2741037542101999) @ (-48)));
  (242%N, (#, #, #, (-4392620273043229) @ (-48)));
  (243%N, ((-5010876759568865) @ (-49), (-5051351494128909) @ (-49), (-5615433818853241) @ (-49), (-2643927116929091) @ (-48)));
  (244%N, ((-2567666745783237) @ (-48), (-48594280744979) @ (-42), (-6003138193410255) @ (-49), (-1382569170461915) @ (-47)));
  (245%N, ((-106184602910939) @ (-43), (-2781213329123363) @ (-48), (-3470737221580077) @ (-48), (-302852298247679) @ (-44)));
  (246%N, (#, #, #, (-302852298247679) @ (-44)));
  (247%N, (#, #, #, (-4170689255897351) @ (-48)));
  (248%N, (#, #, #, (-4650533185457697) @ (-48)));
  (251%N, (#, #, #, (-8064138897447807) @ (-49)));
  (252%N, (#, #, #, (-4297911758076491) @ (-48)));
  (253%N, ((-7756962757402879) @ (-49), (-8871297742822353) @ (-49), (-4426206392587813) @ (-48), (-4170689255897351) @ (-48)));
  (255%N, ((-1668867720385385) @ (-47), (-7106171420012245) @ (-49), (-106184602910939) @ (-43), (-6592047412203725) @ (-49)))].

(** prob_emit.py, characters 0x6800 to 0x68ff *)
Definition emit_68 : list (N * num4) := [
  (0%N, ((-7492374236211145) @ (-49), (-4240545284906009) @ (-48), (-609902861438431) @ (-45), (-8064138897447807) @ (-49)));
  (1%N, (#, #, #, (-302852298247679) @ (-44)));
  (2%N, (#, #, #, (-302852298247679) @ (-44)));
  (3%N, (#, #, #, (-302852298247679) @ (-44)));
  (4%N, (#, (-7310469050781013) @ (-49), (-2146956065995973) @ (-47), (-70881326618687) @ (-42)));
  (5%N, ((-106184602910939) @ (-43), (-2781213329123363) @ (-48), (-3470737221580077) @ (-48), (-3292611846428319) @ (-48)));
  (7%N, ((-4158471688250913) @ (-49), (-4634739069407157) @ (-49), (-8422885676698035) @ (-50), (-5420568391173833) @ (-49)));
  (8%N, ((-3378195993368601) @ (-48), (-3736209830033945) @ (-48), (-6440191982019049) @ (-49), (-850424662662967) @ (-46)));
  (9%N, ((-3921870937715749) @ (-48), (-1623981519183149) @ (-47), (-8978031436994227) @ (-49), (-3505203974573573) @ (-48)));
  (10%N, (#, #, (-4684119305002281) @ (-48), (-7367903434101099) @ (-49)));
  (11%N, ((-7343131840464381) @ (-49), (-6046820292385703) @ (-49), (-5513154359652899) @ (-49), (-405971578459659) @ (-45)));
  (12%N, (#, #, (-4331497877621075) @ (-48), (-2001206550016447) @ (-47)));
  (14%N, ((-8131311136536975) @ (-49), (-6869814717210335) @ (-49), (-3498510787487123) @ (-48), (-3113796480014135) @ (-48)));
  (15%N, ((-2841565025359345) @ (-48), (-6017758358285381) @ (-49), (-2710130848942003) @ (-48), (-747080399202135) @ (-46)));
  (16%N, (#, #, #, (-302852298247679) @ (-44)));
  (17%N, ((-2285815211652875) @ (-48), (-1041117295172689) @ (-47), (-4566603053536873) @ (-49), (-4841229877123959) @ (-49)));
  (18%N, (#, #, #, (-4650533185457697) @ (-48)));
  (19%N, ((-6770156730015033) @ (-49), (-6448324499080771) @ (-49), (-6521825269397027) @ (-49), (-855160738236529) @ (-46)));
  (20%N, (#, #, #, (-4650533185457697) @ (-48)));
  (21%N, (#, #, #, (-4650533185457697) @ (-48)));
  (22%N, ((-1448497777635467) @ (-47), (-5201344080729635) @ (-49), (-3034855886607997) @ (-48), (-6016359938263829) @ (-49)));
  (23%N, ((-5960553389473541) @ (-49), (-6319671069274265) @ (-49), (-5804421006602367) @ (-49), (-6617800133038605) @ (-49)));
  (24%N, (#, #, #, (-70881326618687) @ (-42)));
  (25%N, (#, #, #, (-302852298247679) @ (-44)));
  (27%N, (#, #, #, (-4650533185457697) @ (-48)));
  (29%N, ((-8359567700260433) @ (-49), #, #, (-271331332318175) @ (-44)));
  (31%N, (#, #, #, (-4297911758076491) @ (-48)));
  (33%N, ((-8693012008264685) @ (-50), (-1198089140003279) @ (-47), (-7642648894074791) @ (-50), (-654159636446173) @ (-46)));
  (36%N, (#, #, #, (-2130163006223681) @ (-47)));
  (37%N, (#, #, #, (-943539134077359) @ (-46)));
  (38%N, (#, #, #, (-393182027222453) @ (-45)));
  (39%N, (#, #, #, (-6214569351883485) @ (-49)));
  (40%N, (#, #, #, (-3244895515983039) @ (-48)));
  (41%N, ((-6949081990735609) @ (-49), (-6046820292385703) @ (-49), (-7696043924970107) @ (-49), (-7835882333724349) @ (-49)));
  (42%N, ((-1618434837590833) @ (-47), (-6823518783638375) @ (-49), (-5432038251873465) @ (-49), (-2967626454026481) @ (-48)));
  (43%N, (#, #, #, (-3167038415105713) @ (-48)));
  (44%N, (#, #, #, (-834472943762735) @ (-46)));
  (45%N, (#, #, #, (-3408440888610819) @ (-48)));
  (46%N, (#, #, #, (-302852298247679) @ (-44)));
  (48%N, (#, #, #, (-70881326618687) @ (-42)));
  (49%N, (#, #, #, (-3879055303555717) @ (-48)));
  (50%N, ((-7343131840464381) @ (-49), #, #, (-7350030505863719) @ (-49)));
  (51%N, (#, #, (-2146956065995973) @ (-47), (-4650533185457697) @ (-48)));
  (52%N, (#, #, #, (-4650533185457697) @ (-48)));
  (53%N, (#, #, #, (-6951095251765127) @ (-49)));
  (54%N, (#, #, #, (-4650533185457697) @ (-48)));
  (55%N, ((-4693223594008449) @ (-49), (-4460258770880497) @ (-49), (-3217821341166355) @ (-49), (-5328792823398455) @ (-49)));
  (56%N, ((-2147069185659127) @ (-48), (-155408984906443) @ (-44), (-4939128493518783) @ (-49), (-4990798587389633) @ (-49)));
  (57%N, ((-7574548334863865) @ (-50), (-4253402250335359) @ (-49), (-2272366702272659) @ (-48), (-2425920598916399) @ (-48)));
  (59%N, (#, #, #, (-8033701757752085) @ (-49)));
  (60%N, ((-4632110167188093) @ (-49), (-7501478487173543) @ (-50), (-3839093320716869) @ (-49), (-4989734660867579) @ (-49)));
  (61%N, ((-2778311509594745) @ (-48), (-3460130938885339) @ (-48), (-1797236545307357) @ (-47), (-5900035482632401) @ (-49)));
  (62%N, ((-6787131381448733) @ (-49), (-4240545284906009) @ (-48), (-8978031436994227) @ (-49), (-8166776809352665) @ (-49)));
  (63%N, (#, #, #, (-4650533185457697) @ (-48)));
  (64%N, ((-7320459650820583) @ (-49), (-1796212599740603) @ (-47), (-7696043924970107) @ (-49), (-3582197954329907) @ (-48)));
  (65%N, ((-6729832818427855) @ (-49), #, #, (-3598472716699259) @ (-48)));
  (66%N, ((-636800051403279) @ (-46), (-2143698007334793) @ (-48), (-5162715918893271) @ (-49), (-5735746899250011) @ (-49)));
  (67%N, ((-2446003887268391) @ (-48), (-2269869836488421) @ (-48), (-4934405911399571) @ (-49), (-2788276391556255) @ (-48)));
  (68%N, ((-4684119305002281) @ (-48), #, #, (-4650533185457697) @ (-48)));
  (69%N, ((-842869473648881) @ (-46), (-8871297742822353) @ (-49), (-8131311136536975) @ (-49), (-6790228280836765) @ (-49)));
  (70%N, ((-366998849120321) @ (-45), (-6669024574133477) @ (-49), (-6225009623047837) @ (-49), (-405138068737789) @ (-45)));
  (72%N, ((-1227534943797115) @ (-47), (-5089509902665295) @ (-49), (-7986395621224559) @ (-50), (-5200076777502299) @ (-49)));
  (73%N, ((-3767046657841615) @ (-48), (-8871297742822353) @ (-49), (-8462205612165291) @ (-49), (-7643494584741751) @ (-49)));
  (74%N, (#, #, #, (-302852298247679) @ (-44)));
  (76%N, ((-152924877086425) @ (-44), (-5954212934546103) @ (-49), (-5387057821597263) @ (-49), (-5822026283598745) @ (-49)));
  (78%N, ((-7556172614326021) @ (-49), #, #, (-70881326618687) @ (-42)));
  (80%N, ((-6056222545442523) @ (-49), (-2945716019149447) @ (-48), (-2762160088197429) @ (-48), (-6774188735649479) @ (-49)));
  (81%N, ((-2654974539204419) @ (-48), (-4940295482135497) @ (-49), (-5659390062865397) @ (-49), (-5946771467509883) @ (-49)));
  (83%N, ((-6185183323092107) @ (-49), (-2684149361275507) @ (-48), (-2972770250510405) @ (-48), (-3100348596604989) @ (-48)));
  (84%N, ((-6877271404704321) @ (-49), (-3606862978324355) @ (-48), (-3569249510334543) @ (-48), (-3452684697072041) @ (-48)));
  (85%N, (#, (-8090883396801683) @ (-49), (-3244376119408031) @ (-48), (-8205616343142647) @ (-49)));
  (90%N, (#, #, #, (-271331332318175) @ (-44)));
  (92%N, (#, #, #, (-8205616343142647) @ (-49)));
  (93%N, ((-2146956065995973) @ (-47), #, #, #));
  (95%N, (#, #, #, (-70881326618687) @ (-42)));
  (96%N, ((-609902861438431) @ (-45), (-1925169055947837) @ (-47), (-3667736269636657) @ (-48), (-7307683484381827) @ (-49)));
  (97%N, ((-8272788582231815) @ (-49), #, #, (-3510057111638175) @ (-48)));
  (98%N, ((-2146956065995973) @ (-47), (-6886133249742931) @ (-49), (-5638474285036567) @ (-49), (-3951094144080465) @ (-48)));
  (99%N, ((-5473081115103977) @ (-49), (-1508936377477061) @ (-47), (-5541652605023851) @ (-49), (-675322430403023) @ (-46)));
  (100%N, ((-4331497877621075) @ (-48), (-4240545284906009) @ (-48), (-8978031436994227) @ (-49), (-7367903434101099) @ (-49)));
  (101%N, ((-2459402738047273) @ (-48), (-4682206776037761) @ (-49), (-8245815753823459) @ (-50), (-4597869117620599) @ (-49)));
  (102%N, ((-6877271404704321) @ (-49), (-6487707683278451) @ (-49), (-1550549554213939) @ (-47), (-6285576377091545) @ (-49)));
  (103%N, ((-7681791266144621) @ (-49), (-3383588402652739) @ (-48), (-6704470423360795) @ (-49), (-3733460538297031) @ (-48)));
  (104%N, ((-7579153354239763) @ (-49), (-7244163096344431) @ (-49), (-6340924261802893) @ (-49), (-192935565585839) @ (-44)));
  (105%N, ((-4260759154773655) @ (-48), (-8252834006088559) @ (-49), (-6047663362612137) @ (-49), (-2980754609478867) @ (-48)));
  (107%N, ((-1975763643203379) @ (-47), #, #, (-302852298247679) @ (-44)));
  (109%N, (#, #, #, (-302852298247679) @ (-44)));
  (111%N, (#, #, #, (-4650533185457697) @ (-48)));
  (112%N, (#, #, #, (-4650533185457697) @ (-48)));
  (113%N, (#, #, #, (-8910859197905059) @ (-49)));
  (114%N, (#, #, #, (-4392620273043229) @ (-48)));
  (116%N, (#, #, #, (-7795654513279065) @ (-49)));
  (117%N, (#, #, #, (-7425201997121977) @ (-49)));
  (118%N, ((-2146956065995973) @ (-47), (-3887923857524803) @ (-48), (-5750447232216155) @ (-49), (-1496871095144383) @ (-47)));
  (119%N, (#, (-8871297742822353) @ (-49), (-4684119305002281) @ (-48), (-4170689255897351) @ (-48)));
  (120%N, (#, #, #, (-4392620273043229) @ (-48)));
  (121%N, (#, #, #, (-70881326618687) @ (-42)));
  (122%N, (#, #, #, (-8292395461171265) @ (-49)));
  (123%N, (#, #, #, (-302852298247679) @ (-44)));
  (124%N, (#, #, #, (-4650533185457697) @ (-48)));
  (125%N, (#, #, #, (-4650533185457697) @ (-48)));
  (126%N, (#, #, #, (-2061833855653683) @ (-47)));
  (127%N, ((-5914222640356659) @ (-49), (-701050912750219) @ (-46), (-660091247802449) @ (-46), (-302852298247679) @ (-44)));
  (128%N, (#, #, #, (-302852298247679) @ (-44)));
  (129%N, ((-282830083472469) @ (-45), (-319438605767389) @ (-45), (-2462538981933103) @ (-48), (-2697579721907117) @ (-48)));
  (131%N, ((-8462205612165291) @ (-49), #, #, (-7628871685880939) @ (-49)));
  (132%N, (#, #, #, (-302852298247679) @ (-44)));
  (133%N, ((-599301863139797) @ (-46), (-1144206025067067) @ (-47), (-1142180061767153) @ (-47), (-5588741620908383) @ (-49)));
  (134%N, ((-6844532532160723) @ (-49), (-778145317480215) @ (-46), (-8233949048441833) @ (-49), (-7082153075881451) @ (-49)));
  (135%N, (#, #, #, (-271331332318175) @ (-44)));
  (136%N, (#, #, #, (-271331332318175) @ (-44)));
  (137%N, (#, #, #, (-271331332318175) @ (-44)));
  (138%N, (#, #, #, (-70881326618687) @ (-42)));
  (140%N, (#, #, #, (-1994339944854797) @ (-47)));
  (141%N, (#, #, #, (-368502090743183) @ (-45)));
  (142%N, (#, #, #, (-4650533185457697) @ (-48)));
  (143%N, (#, #, (-7556172614326021) @ (-49), (-8910859197905059) @ (-49)));
  (145%N, (#, #, #, (-8395033373076123) @ (-49)));
  (146%N, (#, #, #, (-302852298247679) @ (-44)));
  (147%N, ((-3279437408862637) @ (-48), (-5954212934546103) @ (-49), (-6370279013252417) @ (-49), (-1563645119522743) @ (-47)));
  (148%N, ((-7492374236211145) @ (-49), (-4240545284906009) @ (-48), (-609902861438431) @ (-45), (-8064138897447807) @ (-49)));
  (149%N, (#, #, #, (-1877995278787649) @ (-47)));
  (150%N, (#, #, #, (-239810366388671) @ (-44)));
  (151%N, ((-1667112136435627) @ (-47), (-5932498674251835) @ (-49), (-6949081990735609) @ (-49), (-764260153179635) @ (-46)));
  (152%N, (#, (-8871297742822353) @ (-49), #, (-4048158111928321) @ (-48)));
  (153%N, (#, #, #, (-4650533185457697) @ (-48)));
  (155%N, (#, #, #, (-302852298247679) @ (-44)));
  (156%N, (#, #, #, (-4650533185457697) @ (-48)));
  (157%N, ((-7879023829701319) @ (-50), (-4432463849277629) @ (-49), (-7713778796547609) @ (-50), (-4650533185457697) @ (-48)));
  (159%N, ((-7284590836079723) @ (-49), (-3736209830033945) @ (-48), (-454428729292475) @ (-45), (-6104374951307875) @ (-49)));
  (160%N, (#, #, #, (-4650533185457697) @ (-48)));
  (161%N, (#, #, #, (-4227173035229071) @ (-48)));
  (162%N, ((-3569249510334543) @ (-48), (-6195264366155019) @ (-49), (-6147989361808037) @ (-49), (-5770281887793721) @ (-49)));
  (163%N, (#, #, #, (-4297911758076491) @ (-48)));
  (164%N, (#, #, #, (-8910859197905059) @ (-49)));
  (165%N, (#, #, #, (-302852298247679) @ (-44)));
  (166%N, ((-2608610609253131) @ (-48), (-8973382123925449) @ (-50), (-2684364892663753) @ (-48), (-2531571852241895) @ (-48)));
  (167%N, ((-6541900166291575) @ (-49), (-6780742520844477) @ (-49), (-3267258555129869) @ (-48), (-1783406489466885) @ (-47)));
  (168%N, ((-6440191982019049) @ (-49), (-4925860077016109) @ (-49), (-3138539726455591) @ (-48), (-5743803565611083) @ (-49)));
  (169%N, (#, #, #, (-1822899526423839) @ (-47)));
  (170%N, (#, #, #, (-70881326618687) @ (-42)));
  (171%N, (#, #, #, (-4650533185457697) @ (-48)));
  (172%N, (#, #, #, (-302852298247679) @ (-44)));
  (173%N, ((-6173475103080691) @ (-49), (-6530054704760343) @ (-49), (-3123840906345817) @ (-48), (-6157837383958669) @ (-49)));
  (174%N, (#, #, #, (-8033701757752085) @ (-49)));
  (175%N, ((-727780678110475) @ (-46), (-1436314850785075) @ (-47), (-167780031992467) @ (-44), (-5995357934845751) @ (-49)));
  (176%N, ((-3912641423100301) @ (-48), (-4634739069407157) @ (-49), (-9103802469061) @ (-40), (-743164836578785) @ (-46)));
  (178%N, (#, #, #, (-4170689255897351) @ (-48)));
  (179%N, ((-371676887012489) @ (-45), (-7244163096344431) @ (-49), (-7284590836079723) @ (-49), (-3098640957535047) @ (-48)));
  (180%N, (#, #, #, (-3535663390789959) @ (-48)));
  (181%N, ((-3106744192334589) @ (-48), (-3887923857524803) @ (-48), (-4260759154773655) @ (-48), (-1648585122635241) @ (-47)));
  (182%N, ((-7492374236211145) @ (-49), #, #, (-3951094144080465) @ (-48)));
  (183%N, (#, #, #, (-7600718321947853) @ (-49)));
  (185%N, (#, #, #, (-302852298247679) @ (-44)));
  (186%N, (#, #, #, (-7614619027055453) @ (-49)));
  (188%N, (#, #, #, (-70881326618687) @ (-42)));
  (189%N, (#, #, #, (-7435345513955431) @ (-49)));
  (190%N, (#, #, #, (-6823747105641763) @ (-49)));
  (191%N, (#, #, #, (-4048158111928321) @ (-48)));
  (192%N, ((-4026942507311479) @ (-49), (-8347250395820329) @ (-50), (-1384707698709441) @ (-47), (-3022098421302447) @ (-48)));
  (193%N, (#, #, #, (-3870118839437027) @ (-48)));
  (194%N, (#, (-1925169055947837) @ (-47), (-7206819109466809) @ (-49), (-389449860913061) @ (-45)));
  (196%N, ((-1461236491717739) @ (-47), (-5654752126099031) @ (-49), (-1219768146278841) @ (-47), (-70881326618687) @ (-42)));
  (197%N, (#, #, #, (-271331332318175) @ (-44)));
  (198%N, (#, #, #, (-8205616343142647) @ (-49)));
  (199%N, (#, #, #, (-8292395461171265) @ (-49)));
  (200%N, (#, #, #, (-302852298247679) @ (-44)));
  (201%N, ((-4789683856654801) @ (-49), (-377463309330355) @ (-45), (-2920593792061689) @ (-48), (-2743919563628865) @ (-48)));
  (202%N, (#, #, #, (-70881326618687) @ (-42)));
  (203%N, ((-2599914366876145) @ (-48), (-5328417652934939) @ (-49), (-2820171965618367) @ (-48), (-713612476468813) @ (-46)));
  (204%N, (#, #, #, (-976926146266539) @ (-46)));
  (205%N, ((-5989742383994363) @ (-49), (-3054936767390851) @ (-48), (-5828488926441687) @ (-49), (-89209010717897) @ (-43)));
  (207%N, (#, #, #, (-4650533185457697) @ (-48)));
  (208%N, (#, #, #, (-4048158111928321) @ (-48)));
  (209%N, (#, #, #, (-70881326618687) @ (-42)));
  (210%N, ((-3127165452593049) @ (-48), (-5528762012733847) @ (-49), (-5471413937320559) @ (-49), (-5300633541183259) @ (-49)));
  (211%N, (#, #, #, (-7926147221115621) @ (-49)));
  (212%N, (#, #, #, (-7643494584741751) @ (-49)));
  (213%N, ((-5837454126882889) @ (-49), (-3292735769582677) @ (-48), (-3476462333727023) @ (-48), (-6255838467337193) @ (-49)));
  (214%N, (#, #, (-2146956065995973) @ (-47), (-4392620273043229) @ (-48)));
  (215%N, ((-5800424894323443) @ (-49), (-7385640542039271) @ (-49), (-6034686314485429) @ (-49), (-6257099274030887) @ (-49)));
  (216%N, ((-3187892340076311) @ (-48), (-7157383978315813) @ (-49), (-3321712214036881) @ (-48), (-6192760204387247) @ (-49)));
  (217%N, (#, #, #, (-1994339944854797) @ (-47)));
  (218%N, ((-6259932443476415) @ (-49), (-7427359621511357) @ (-49), (-2787497988513035) @ (-48), (-743894052888657) @ (-46)));
  (219%N, (#, #, #, (-70881326618687) @ (-42)));
  (220%N, (#, #, #, (-8395033373076123) @ (-49)));
  (221%N, (#, #, #, (-7489000375236853) @ (-49)));
  (223%N, ((-7343131840464381) @ (-49), (-6046820292385703) @ (-49), (-5513154359652899) @ (-49), (-405971578459659) @ (-45)));
  (224%N, ((-1998329865051197) @ (-47), (-1688482578221107) @ (-47), (-6018324662198423) @ (-49), (-3268780507325423) @ (-48)));
  (225%N, (#, #, #, (-70881326618687) @ (-42)));
  (227%N, ((-4684119305002281) @ (-48), (-7082212487057555) @ (-49), (-3761685067605859) @ (-48), (-1290728220761949) @ (-47)));
  (228%N, (#, #, #, (-6408215574980407) @ (-49)));
  (229%N, (#, #, #, (-271331332318175) @ (-44)));
  (230%N, (#, #, #, (-1828975469458993) @ (-47)));
  (231%N, ((-3378195993368601) @ (-48), (-3736209830033945) @ (-48), (-6440191982019049) @ (-49), (-850424662662967) @ (-46)));
  (232%N, (#, #, #, (-8292395461171265) @ (-49)));
  (233%N, (#, #, #, (-6426674604211303) @ (-49)));
  (234%N, (#, #, (-609902861438431) @ (-45), (-4170689255897351) @ (-48)));
  (235%N, (#, #, #, (-7951171338784367) @ (-49)));
  (236%N, (#, #, #, (-3543822657056257) @ (-48)));
  (237%N, (#, #, #, (-3688528646784237) @ (-48)));
  (238%N, ((-599740820044465) @ (-46), (-8595615078206323) @ (-50), (-4989730613286493) @ (-49), (-5964503640663789) @ (-49)));
  (239%N, (#, #, #, (-1994339944854797) @ (-47)));
  (240%N, (#, (-8871297742822353) @ (-49), (-4684119305002281) @ (-48), (-6094833198244625) @ (-49)));
  (241%N, ((-6249889462397031) @ (-49), (-92460715403111) @ (-43), (-7058655718752843) @ (-49), (-5858746884474533) @ (-49)));
  (242%N, ((-1448497777635467) @ (-47), (-5201344080729635) @ (-49), (-3034855886607997) @ (-48), (-4650533185457697) @ (-48)));
  (243%N, (#, #, #, (-8910859197905059) @ (-49)));
  (244%N, (#, #, #, (-4170689255897351) @ (-48)));
  (245%N, ((-8131311136536975) @ (-49), (-761679484000969) @ (-46), (-2933178831746921) @ (-48), (-2955083414511133) @ (-48)));
  (246%N, (#, #, #, (-6454653030307859) @ (-49)));
  (247%N, (#, #, #, (-4392620273043229) @ (-48)));
  (248%N, (#, #, #, (-70881326618687) @ (-42)));
  (249%N, (#, #, (-4684119305002281) @ (-48), (-1828975469458993) @ (-47)));
  (250%N, ((-338639907205049) @ (-45), (-3252133114292637) @ (-48), (-6417397372030435) @ (-49), (-5464202155966617) @ (-49)));
  (251%N, ((-4260759154773655) @ (-48), #, #, (-239810366388671) @ (-44)));
  (252%N, (#, #, #, (-4392620273043229) @ (-48)));
  (253%N, (#, #, #, (-2061833855653683) @ (-47)));
  (254%N, (#, #, #, (-302852298247679) @ (-44)));
  (255%N, (#, #, #, (-6820303975927183) @ (-49)))].

(** prob_emit.py, characters 0x6900 to 0x69ff *)
Definition emit_69 : list (N * num4) := [
  (0%N, (#, #, #, (-4392620273043229) @ (-48)));
  (1%N, ((-609902861438431) @ (-45), (-7385640542039271) @ (-49), (-3133934716149573) @ (-48), (-6289573671662141) @ (-49)));
  (2%N, (#, #, #, (-6145280358804967) @ (-49)));
  (3%N, (#, #, #, (-7926147221115621) @ (-49)));
  (4%N, (#, #, #, (-4650533185457697) @ (-48)));
  (5%N, ((-2790178722839611) @ (-48), (-7131195537680991) @ (-49), (-2820734353371311) @ (-48), (-741817595475549) @ (-46)));
  (6%N, (#, #, #, (-7658507473194481) @ (-49)));
  (7%N, (#, #, #, (-8292395461171265) @ (-49)));
  (8%N, (#, #, #, (-1683626615562721) @ (-47)));
  (9%N, (#, #, #, (-302852298247679) @ (-44)));
  (10%N, (#, #, #, (-4650533185457697) @ (-48)));
  (11%N, ((-8131311136536975) @ (-49), (-8871297742822353) @ (-49), (-571248877892569) @ (-45), (-6299012574637699) @ (-49)));
  (13%N, ((-4497308233602709) @ (-49), (-4471727291185097) @ (-49), (-4953538703205371) @ (-49), (-6128961826272371) @ (-49)));
  (14%N, ((-6440191982019049) @ (-49), (-5205511012807407) @ (-49), (-6368910968949949) @ (-49), (-6268575434941977) @ (-49)));
  (15%N, ((-609902861438431) @ (-45), (-1925169055947837) @ (-47), (-3667736269636657) @ (-48), (-7307683484381827) @ (-49)));
  (16%N, (#, #, #, (-1994339944854797) @ (-47)));
  (17%N, (#, #, #, (-302852298247679) @ (-44)));
  (18%N, ((-3855333411915459) @ (-48), (-5261764947669149) @ (-49), (-5305799041527847) @ (-49), (-2940475302847833) @ (-48)));
  (19%N, (#, #, #, (-4048158111928321) @ (-48)));
  (20%N, (#, #, #, (-70881326618687) @ (-42)));
  (21%N, (#, #, #, (-302852298247679) @ (-44)));
  (22%N, (#, #, #, (-4650533185457697) @ (-48)));
  (23%N, (#, #, #, (-4650533185457697) @ (-48)));
  (24%N, (#, #, #, (-302852298247679) @ (-44)));
  (25%N, (#, #, #, (-70881326618687) @ (-42)));
  (26%N, (#, #, #, (-8910859197905059) @ (-49)));
  (27%N, (#, #, #, (-70881326618687) @ (-42)));
  (28%N, (#, #, #, (-70881326618687) @ (-42)));
  (29%N, (#, #, #, (-4650533185457697) @ (-48)));
  (30%N, (#, #, #, (-70881326618687) @ (-42)));
  (31%N, (#, (-8252834006088559) @ (-49), #, (-3452684697072041) @ (-48)));
  (32%N, (#, #, #, (-302852298247679) @ (-44)));
  (33%N, (#, #, #, (-4650533185457697) @ (-48)));
  (36%N, (#, (-8871297742822353) @ (-49), (-3921870937715749) @ (-48), (-6373019742929881) @ (-49)));
  (37%N, (#, #, #, (-4650533185457697) @ (-48)));
  (38%N, (#, #, #, (-4170689255897351) @ (-48)));
  (39%N, (#, #, #, (-4650533185457697) @ (-48)));
  (40%N, (#, #, #, (-302852298247679) @ (-44)));
  (41%N, (#, #, #, (-8910859197905059) @ (-49)));
  (42%N, (#, #, #, (-302852298247679) @ (-44)));
  (43%N, (#, #, #, (-4650533185457697) @ (-48)));
  (45%N, ((-5916053373525945) @ (-49), #, #, (-442294618973983) @ (-45)));
  (46%N, (#, #, #, (-302852298247679) @ (-44)));
  (47%N, (#, #, #, (-4297911758076491) @ (-48)));
  (48%N, ((-1524847742807309) @ (-47), (-6886133249742931) @ (-49), (-8100873996841253) @ (-49), (-1828975469458993) @ (-47)));
  (52%N, ((-1947521753537519) @ (-47), #, (-8462205612165291) @ (-49), (-7217418596990555) @ (-49)));
  (53%N, (#, #, #, (-302852298247679) @ (-44)));
  (55%N, (#, #, #, (-302852298247679) @ (-44)));
  (56%N, (#, #, #, (-70881326618687) @ (-42)));
  (57%N, (#, (-8252834006088559) @ (-49), (-7862826752368233) @ (-49), (-6525233150776923) @ (-49)));
  (58%N, (#, #, #, (-4650533185457697) @ (-48)));
  (59%N, (#, #, #, (-2001206550016447) @ (-47)));
  (60%N, (#, #, #, (-3630371905756697) @ (-48)));
  (61%N, ((-7696043924970107) @ (-49), (-8252834006088559) @ (-49), (-571248877892569) @ (-45), (-1777541578842475) @ (-47)));
  (62%N, (#, #, #, (-3165594950523267) @ (-48)));
  (63%N, ((-7725679712283649) @ (-49), (-1396647827542697) @ (-47), (-7001207095767483) @ (-49), (-6620200776136811) @ (-49)));
  (64%N, (#, #, #, (-6118011084002939) @ (-49)));
  (65%N, (#, #, #, (-776529182076135) @ (-46)));
  (66%N, (#, (-7310469050781013) @ (-49), (-222100499235933) @ (-44), (-6369926603535943) @ (-49)));
  (67%N, (#, #, #, (-3267743765907651) @ (-48)));
  (68%N, (#, #, #, (-6603607365691809) @ (-49)));
  (69%N, (#, #, #, (-869977916606673) @ (-46)));
  (70%N, (#, #, #, (-70881326618687) @ (-42)));
  (71%N, (#, #, #, (-4650533185457697) @ (-48)));
  (73%N, (#, #, #, (-302852298247679) @ (-44)));
  (74%N, ((-7558834503032589) @ (-50), (-2469626007875349) @ (-48), (-669321923903721) @ (-46), (-4219070205119625) @ (-49)));
  (75%N, (#, #, #, (-6637298184271627) @ (-49)));
  (76%N, (#, #, #, (-302852298247679) @ (-44)));
  (78%N, (#, #, #, (-302852298247679) @ (-44)));
  (79%N, (#, #, #, (-4650533185457697) @ (-48)));
  (80%N, (#, #, #, (-8910859197905059) @ (-49)));
  (82%N, (#, #, #, (-8910859197905059) @ (-49)));
  (83%N, ((-6890919344730931) @ (-49), (-101243867878125) @ (-43), (-5978021018471535) @ (-49), (-6654931167934761) @ (-49)));
  (84%N, ((-212644807062239) @ (-44), #, (-2146956065995973) @ (-47), (-7145732875094951) @ (-49)));
  (85%N, (#, #, #, (-302852298247679) @ (-44)));
  (86%N, (#, #, #, (-4227173035229071) @ (-48)));
  (87%N, (#, (-3887923857524803) @ (-48), #, (-108816228894371) @ (-43)));
  (88%N, (#, #, #, (-239810366388671) @ (-44)));
  (89%N, (#, #, #, (-3662121014844325) @ (-48)));
  (90%N, ((-4852857724208173) @ (-49), (-4579568864132903) @ (-49), (-1085288139436951) @ (-47), (-616224730378785) @ (-46)));
  (92%N, (#, #, #, (-4392620273043229) @ (-48)));
  (93%N, ((-4331497877621075) @ (-48), (-7082212487057555) @ (-49), (-8131311136536975) @ (-49), (-6649836563450353) @ (-49)));
  (94%N, ((-1910269588269243) @ (-47), (-6669024574133477) @ (-49), (-3903704958981611) @ (-48), (-5985922798568107) @ (-49)));
  (95%N, (#, #, #, (-4650533185457697) @ (-48)));
  (96%N, ((-6007435542166853) @ (-49), (-3256365900473599) @ (-48), (-5852538855913737) @ (-49), (-3267743765907651) @ (-48)));
  (97%N, (#, #, #, (-271331332318175) @ (-44)));
  (98%N, (#, #, #, (-4392620273043229) @ (-48)));
  (99%N, (#, (-4240545284906009) @ (-48), (-751561366464931) @ (-46), (-3702723670134365) @ (-48)));
  (100%N, (#, #, #, (-302852298247679) @ (-44)));
  (102%N, ((-4331497877621075) @ (-48), (-8871297742822353) @ (-49), (-8131311136536975) @ (-49), (-7386362463331995) @ (-49)));
  (104%N, ((-2146956065995973) @ (-47), (-6886133249742931) @ (-49), (-5638474285036567) @ (-49), (-3951094144080465) @ (-48)));
  (105%N, (#, #, #, (-70881326618687) @ (-42)));
  (106%N, (#, #, #, (-4392620273043229) @ (-48)));
  (107%N, (#, (-7575057571972747) @ (-49), (-7654324845498021) @ (-49), (-7628871685880939) @ (-49)));
  (108%N, (#, #, #, (-4650533185457697) @ (-48)));
  (109%N, ((-8821915524300131) @ (-50), (-6440151918791257) @ (-50), (-2881751223130655) @ (-49), (-302852298247679) @ (-44)));
  (110%N, (#, #, #, (-8064138897447807) @ (-49)));
  (111%N, (#, #, #, (-976926146266539) @ (-46)));
  (112%N, (#, #, #, (-70881326618687) @ (-42)));
  (113%N, (#, #, #, (-4650533185457697) @ (-48)));
  (116%N, (#, #, #, (-302852298247679) @ (-44)));
  (117%N, ((-131142183949589) @ (-44), (-4279590690970181) @ (-49), (-8692711126406443) @ (-50), (-302852298247679) @ (-44)));
  (119%N, ((-6335747674031145) @ (-49), (-6823518783638375) @ (-49), (-6323010706426361) @ (-49), (-3543822657056257) @ (-48)));
  (120%N, ((-4331497877621075) @ (-48), (-491414177067389) @ (-45), (-7667890561037021) @ (-49), (-3612205927022559) @ (-48)));
  (121%N, ((-3921870937715749) @ (-48), (-6975678712175689) @ (-49), (-1653276102753797) @ (-47), (-6359232524356971) @ (-49)));
  (122%N, (#, #, #, (-302852298247679) @ (-44)));
  (124%N, ((-2424585535432989) @ (-48), (-5095669902828685) @ (-49), (-2078778336174643) @ (-48), (-2385675960960949) @ (-48)));
  (125%N, (#, #, #, (-70881326618687) @ (-42)));
  (127%N, (#, #, #, (-271331332318175) @ (-44)));
  (128%N, (#, #, #, (-8910859197905059) @ (-49)));
  (130%N, ((-2239130527551937) @ (-48), (-101243867878125) @ (-43), (-5032848326902663) @ (-49), (-196014168947761) @ (-44)));
  (132%N, (#, (-2786787273180365) @ (-48), (-6704470423360795) @ (-49), (-6986850120558139) @ (-49)));
  (133%N, (#, #, #, (-70881326618687) @ (-42)));
  (134%N, ((-3158997764452997) @ (-48), (-6319671069274265) @ (-49), (-1794334638614767) @ (-47), (-6702984490925865) @ (-49)));
  (135%N, (#, (-8871297742822353) @ (-49), (-8462205612165291) @ (-49), (-7706109050846307) @ (-49)));
  (136%N, (#, (-6325757073991575) @ (-49), (-6867248292096205) @ (-49), (-3662121014844325) @ (-48)));
  (137%N, ((-4426206392587813) @ (-48), #, (-7696043924970107) @ (-49), (-976926146266539) @ (-46)));
  (138%N, ((-3903704958981611) @ (-48), #, #, #));
  (140%N, (#, #, #, (-271331332318175) @ (-44)));
  (141%N, (#, #, #, (-8166776809352665) @ (-49)));
  (145%N, (#, #, #, (-70881326618687) @ (-42)));
  (148%N, ((-8018343577873535) @ (-49), #, (-858821192549113) @ (-46), (-7523833130877875) @ (-49)));
  (149%N, ((-7117451711230829) @ (-49), (-3292735769582677) @ (-48), (-796456298773427) @ (-46), (-7435345513955431) @ (-49)));
  (150%N, (#, #, #, (-7614619027055453) @ (-49)));
  (151%N, (#, #, #, (-4650533185457697) @ (-48)));
  (152%N, (#, #, (-4684119305002281) @ (-48), (-809573615059843) @ (-46)));
  (154%N, (#, #, #, (-302852298247679) @ (-44)));
  (155%N, ((-3663958025301281) @ (-48), #, (-8272788582231815) @ (-49), (-1648585122635241) @ (-47)));
  (156%N, ((-5751815276518623) @ (-49), (-5822304273676225) @ (-49), (-5806933058755641) @ (-49), (-2722394082376837) @ (-48)));
  (159%N, (#, #, #, (-302852298247679) @ (-44)));
  (163%N, (#, #, #, (-4650533185457697) @ (-48)));
  (164%N, (#, #, #, (-8910859197905059) @ (-49)));
  (165%N, (#, #, #, (-302852298247679) @ (-44)));
  (166%N, (#, #, #, (-302852298247679) @ (-44)));
  (167%N, ((-8359567700260433) @ (-49), (-8871297742822353) @ (-49), (-2017999609788739) @ (-47), (-7127668759912815) @ (-49)));
  (168%N, ((-369373371330985) @ (-45), (-3887923857524803) @ (-48), (-3199181070067851) @ (-48), (-6360747868349803) @ (-49)));
  (169%N, (#, #, #, (-302852298247679) @ (-44)));
  (170%N, (#, #, #, (-302852298247679) @ (-44)));
  (171%N, ((-1975763643203379) @ (-47), (-4240545284906009) @ (-48), (-8978031436994227) @ (-49), (-1749038822580415) @ (-47)));
  (172%N, (#, #, #, (-4650533185457697) @ (-48)));
  (173%N, (#, (-3460130938885339) @ (-48), (-222100499235933) @ (-44), (-3279363519905739) @ (-48)));
  (174%N, ((-37548489280435) @ (-42), (-8764844845591001) @ (-50), (-2227696253781905) @ (-48), (-5695243308814069) @ (-49)));
  (175%N, (#, #, #, (-302852298247679) @ (-44)));
  (177%N, (#, #, #, (-8292395461171265) @ (-49)));
  (179%N, (#, #, #, (-4650533185457697) @ (-48)));
  (180%N, ((-6124492052457255) @ (-49), (-5118134727062431) @ (-49), (-6670779604780977) @ (-49), (-850424662662967) @ (-46)));
  (182%N, (#, #, #, (-302852298247679) @ (-44)));
  (183%N, (#, #, (-3663958025301281) @ (-48), (-6461870436261829) @ (-49)));
  (184%N, (#, #, #, (-8292395461171265) @ (-49)));
  (185%N, (#, #, #, (-302852298247679) @ (-44)));
  (187%N, ((-4204275375441935) @ (-48), (-3760701355345663) @ (-48), (-3267258555129869) @ (-48), (-3010245091944269) @ (-48)));
  (188%N, (#, #, #, (-70881326618687) @ (-42)));
  (190%N, (#, #, #, (-8033701757752085) @ (-49)));
  (191%N, ((-4331497877621075) @ (-48), (-4240545284906009) @ (-48), (-8978031436994227) @ (-49), (-7367903434101099) @ (-49)));
  (192%N, (#, #, #, (-271331332318175) @ (-44)));
  (193%N, ((-8462205612165291) @ (-49), (-8871297742822353) @ (-49), (-238379262651975) @ (-44), (-976926146266539) @ (-46)));
  (194%N, (#, #, #, (-302852298247679) @ (-44)));
  (195%N, (#, #, #, (-3370216152975801) @ (-48)));
  (197%N, (#, #, #, (-8292395461171265) @ (-49)));
  (199%N, (#, #, #, (-302852298247679) @ (-44)));
  (200%N, (#, #, #, (-3517497412055821) @ (-48)));
  (202%N, (#, (-7346801008249289) @ (-49), (-2078626915425975) @ (-47), (-3582197954329907) @ (-48)));
  (203%N, ((-8944983048467835) @ (-50), (-4982014561607583) @ (-49), (-7706363057701133) @ (-50), (-5949688313172349) @ (-49)));
  (204%N, (#, (-8871297742822353) @ (-49), (-3478396877264481) @ (-48), (-1625339725946889) @ (-47)));
  (205%N, ((-5114053637482743) @ (-49), (-5179360595201435) @ (-49), (-2380030392669697) @ (-48), (-4855074453326703) @ (-49)));
  (206%N, (#, #, (-4081744231472905) @ (-48), (-1531238762030853) @ (-47)));
  (208%N, ((-6186170089257855) @ (-49), (-1592576856228499) @ (-47), (-6220792749746813) @ (-49), (-3267743765907651) @ (-48)));
  (209%N, (#, #, #, (-6705778292954857) @ (-49)));
  (210%N, (#, #, #, (-8064138897447807) @ (-49)));
  (211%N, ((-1585882629060587) @ (-47), (-4240545284906009) @ (-48), (-3302366626870007) @ (-48), (-6837734159388757) @ (-49)));
  (212%N, (#, #, #, (-1930728693765227) @ (-47)));
  (214%N, (#, #, #, (-302852298247679) @ (-44)));
  (215%N, (#, #, #, (-3888284818171165) @ (-48)));
  (216%N, (#, #, #, (-8205616343142647) @ (-49)));
  (217%N, (#, (-1925169055947837) @ (-47), #, (-271331332318175) @ (-44)));
  (218%N, (#, #, #, (-70881326618687) @ (-42)));
  (219%N, (#, (-7575057571972747) @ (-49), (-6039232368423709) @ (-49), (-6774188735649479) @ (-49)));
  (220%N, (#, #, #, (-271331332318175) @ (-44)));
  (221%N, (#, #, #, (-1713019402318041) @ (-47)));
  (222%N, (#, #, #, (-4650533185457697) @ (-48)));
  (223%N, ((-424016655625409) @ (-45), (-6487707683278451) @ (-49), (-7058655718752843) @ (-49), (-3951094144080465) @ (-48)));
  (224%N, (#, #, (-8233949048441833) @ (-49), (-4048158111928321) @ (-48)));
  (225%N, (#, #, #, (-302852298247679) @ (-44)));
  (226%N, (#, #, #, (-7706109050846307) @ (-49)));
  (227%N, (#, #, #, (-302852298247679) @ (-44)));
  (228%N, (#, #, #, (-4048158111928321) @ (-48)));
  (229%N, (#, #, #, (-4650533185457697) @ (-48)));
  (230%N, (#, #, #, (-6070756010914241) @ (-49)));
  (231%N, (#, #, #, (-302852298247679) @ (-44)));
  (232%N, ((-609902861438431) @ (-45), (-7385640542039271) @ (-49), (-3133934716149573) @ (-48), (-6289573671662141) @ (-49)));
  (233%N, (#, #, #, (-4650533185457697) @ (-48)));
  (236%N, (#, #, #, (-7795654513279065) @ (-49)));
  (237%N, (#, #, #, (-6909376172293041) @ (-49)));
  (238%N, (#, #, #, (-8292395461171265) @ (-49)));
  (239%N, (#, #, #, (-8395033373076123) @ (-49)));
  (240%N, (#, #, #, (-8292395461171265) @ (-49)));
  (241%N, (#, #, (-609902861438431) @ (-45), (-4297911758076491) @ (-48)));
  (242%N, ((-1998329865051197) @ (-47), #, #, (-472560260360877) @ (-45)));
  (243%N, ((-7579153354239763) @ (-49), (-7244163096344431) @ (-49), (-6340924261802893) @ (-49), (-192935565585839) @ (-44)));
  (244%N, (#, #, #, (-70881326618687) @ (-42)));
  (246%N, (#, #, #, (-70881326618687) @ (-42)));
  (247%N, (#, #, #, (-4650533185457697) @ (-48)));
  (248%N, (#, #, #, (-5071070561037285) @ (-49)));
  (249%N, (#, #, #, (-4650533185457697) @ (-48)));
  (250%N, (#, #, #, (-4297911758076491) @ (-48)));
  (251%N, (#, (-7310469050781013) @ (-49), #, (-1853809505254573) @ (-47)));
  (252%N, (#, #, #, (-7367903434101099) @ (-49)));
  (253%N, ((-3667736269636657) @ (-48), (-428372245208381) @ (-45), (-5698284947911843) @ (-49), (-5517240085730491) @ (-49)));
  (254%N, (#, #, #, (-6897440390483705) @ (-49)));
  (255%N, (#, (-874429171128617) @ (-46), (-1975763643203379) @ (-47), (-1877995278787649) @ (-47)))].

(** prob_emit.py, characters 0x6a00 to 0x6aff *)
Definition emit_6a : list (N * num4) := [
  (0%N, (#, #, #, (-7425201997121977) @ (-49)));
  (1%N, ((-4260759154773655) @ (-48), (-8252834006088559) @ (-49), (-6047663362612137) @ (-49), (-2980754609478867) @ (-48)));
  (2%N, ((-4609216897162853) @ (-49), (-7374026010033109) @ (-50), (-8199304202183207) @ (-50), (-5071070561037285) @ (-49)));
  (3%N, (#, #, #, (-4170689255897351) @ (-48)));
  (4%N, (#, #, #, (-4650533185457697) @ (-48)));
  (5%N, ((-3903704958981611) @ (-48), #, (-2146956065995973) @ (-47), (-4170689255897351) @ (-48)));
  (6%N, (#, #, #, (-1930728693765227) @ (-47)));
  (7%N, (#, #, #, (-70881326618687) @ (-42)));
  (9%N, (#, #, #, (-7386362463331995) @ (-49)));
  (10%N, ((-5335077339996745) @ (-49), (-2813775592637523) @ (-48), (-6335747674031145) @ (-49), (-405138068737789) @ (-45)));
  (11%N, ((-7350896790516305) @ (-49), #, #, (-7367903434101099) @ (-49)));
  (15%N, (#, #, #, (-70881326618687) @ (-42)));
  (16%N, (#, #, #, (-2130163006223681) @ (-47)));
  (17%N, (#, #, #, (-4650533185457697) @ (-48)));
  (19%N, ((-2424585535432989) @ (-48), (-5095669902828685) @ (-49), (-2078778336174643) @ (-48), (-2385675960960949) @ (-48)));
  (20%N, (#, #, #, (-302852298247679) @ (-44)));
  (21%N, (#, #, #, (-302852298247679) @ (-44)));
  (23%N, ((-4684119305002281) @ (-48), (-4240545284906009) @ (-48), #, (-3688528646784237) @ (-48)));
  (24%N, (#, #, (-609902861438431) @ (-45), (-1828975469458993) @ (-47)));
  (25%N, ((-4158471688250913) @ (-49), (-4634739069407157) @ (-49), (-8422885676698035) @ (-50), (-5420568391173833) @ (-49)));
  (26%N, (#, #, #, (-8910859197905059) @ (-49)));
  (29%N, (#, #, #, (-302852298247679) @ (-44)));
  (30%N, ((-85213475115445) @ (-43), (-5140787294546433) @ (-49), (-5798933635296641) @ (-49), (-6047666498909845) @ (-49)));
  (31%N, ((-6699532234209679) @ (-49), (-6325757073991575) @ (-49), (-483818997720415) @ (-45), (-6637298184271627) @ (-49)));
  (32%N, (#, #, #, (-302852298247679) @ (-44)));
  (33%N, ((-8552985107872153) @ (-50), (-4687514534423177) @ (-49), (-8588002584260077) @ (-50), (-5777235277283137) @ (-49)));
  (35%N, ((-4693223594008449) @ (-49), (-4460258770880497) @ (-49), (-3217821341166355) @ (-49), (-5328792823398455) @ (-49)));
  (40%N, (#, (-4240545284906009) @ (-48), (-8462205612165291) @ (-49), (-302852298247679) @ (-44)));
  (42%N, ((-4715888152191655) @ (-49), (-4954039543930835) @ (-49), (-5450980411113043) @ (-49), (-2489341586712161) @ (-48)));
  (43%N, (#, #, #, (-8910859197905059) @ (-49)));
  (47%N, ((-4684119305002281) @ (-48), #, (-7924300488693565) @ (-49), (-3722837580357007) @ (-48)));
  (49%N, ((-5893292722213463) @ (-49), (-6185641055691637) @ (-49), (-1729812462090333) @ (-47), (-6416531087377849) @ (-49)));
  (50%N, (#, #, #, (-302852298247679) @ (-44)));
  (53%N, ((-1839692586196131) @ (-47), (-3982632372491541) @ (-48), (-7435075673190267) @ (-49), (-3252634147087553) @ (-48)));
  (55%N, (#, #, #, (-7477852487122849) @ (-49)));
  (56%N, ((-2146956065995973) @ (-47), (-5954212934546103) @ (-49), (-2821674170527261) @ (-48), (-7139646870377641) @ (-49)));
  (57%N, ((-2285815211652875) @ (-48), (-1041117295172689) @ (-47), (-4566603053536873) @ (-49), (-4841229877123959) @ (-49)));
  (58%N, ((-6877271404704321) @ (-49), (-6487707683278451) @ (-49), (-1550549554213939) @ (-47), (-6028001858839045) @ (-49)));
  (59%N, (#, #, #, (-5851945649099841) @ (-49)));
  (60%N, (#, #, #, (-3132361997462213) @ (-48)));
  (61%N, ((-4426206392587813) @ (-48), (-3760701355345663) @ (-48), (-4684119305002281) @ (-48), (-7217418596990555) @ (-49)));
  (62%N, (#, (-8252834006088559) @ (-49), (-1865749067223629) @ (-47), (-7587152606408853) @ (-49)));
  (63%N, (#, #, #, (-3285909744641789) @ (-48)));
  (64%N, (#, #, #, (-3460785255448521) @ (-48)));
  (65%N, (#, #, #, (-70881326618687) @ (-42)));
  (66%N, (#, #, #, (-302852298247679) @ (-44)));
  (68%N, ((-389663418086415) @ (-45), (-6794643225952077) @ (-49), #, (-7795654513279065) @ (-49)));
  (70%N, (#, #, #, (-70881326618687) @ (-42)));
  (71%N, (#, #, (-7133162962201383) @ (-49), (-7055467987703679) @ (-49)));
  (72%N, ((-8272788582231815) @ (-49), #, #, (-3510057111638175) @ (-48)));
  (75%N, ((-2459402738047273) @ (-48), (-4682206776037761) @ (-49), (-8245815753823459) @ (-50), (-302852298247679) @ (-44)));
  (76%N, (#, #, #, (-302852298247679) @ (-44)));
  (79%N, (#, #, #, (-8910859197905059) @ (-49)));
  (80%N, (#, (-8871297742822353) @ (-49), #, (-6859388750389055) @ (-49)));
  (81%N, (#, #, #, (-8910859197905059) @ (-49)));
  (83%N, (#, #, #, (-3951094144080465) @ (-48)));
  (84%N, (#, #, #, (-70881326618687) @ (-42)));
  (86%N, (#, #, #, (-302852298247679) @ (-44)));
  (87%N, (#, #, #, (-302852298247679) @ (-44)));
  (88%N, ((-1665378182407533) @ (-47), #, (-1566397569894253) @ (-47), (-108816228894371) @ (-43)));
  (89%N, ((-413850120634003) @ (-45), (-5699193198179331) @ (-49), (-230211112012267) @ (-44), (-3102641684453985) @ (-48)));
  (90%N, (#, #, #, (-4297911758076491) @ (-48)));
  (91%N, ((-8462205612165291) @ (-49), #, #, (-3733460538297031) @ (-48)));
  (92%N, (#, #, #, (-8910859197905059) @ (-49)));
  (94%N, (#, #, #, (-70881326618687) @ (-42)));
  (95%N, ((-6604351823023089) @ (-50), (-1833240734434687) @ (-48), (-6960518180938883) @ (-50), (-4712192490384987) @ (-49)));
  (97%N, ((-5613644970975539) @ (-49), (-5840096498027951) @ (-49), (-609902861438431) @ (-45), (-7500373488380235) @ (-49)));
  (98%N, ((-5916053373525945) @ (-49), #, #, (-442294618973983) @ (-45)));
  (101%N, (#, #, (-609902861438431) @ (-45), (-4227173035229071) @ (-48)));
  (102%N, (#, #, #, (-7857128249604397) @ (-49)));
  (104%N, (#, #, #, (-302852298247679) @ (-44)));
  (105%N, (#, #, #, (-302852298247679) @ (-44)));
  (106%N, (#, #, #, (-8910859197905059) @ (-49)));
  (107%N, ((-4715888152191655) @ (-49), (-4954039543930835) @ (-49), (-5450980411113043) @ (-49), (-70881326618687) @ (-42)));
  (110%N, (#, #, #, (-4650533185457697) @ (-48)));
  (111%N, (#, #, #, (-7658507473194481) @ (-49)));
  (113%N, ((-3470737221580077) @ (-48), #, (-7001207095767483) @ (-49), (-3165594950523267) @ (-48)));
  (115%N, (#, #, #, (-70881326618687) @ (-42)));
  (119%N, (#, #, #, (-4048158111928321) @ (-48)));
  (120%N, (#, #, #, (-2001206550016447) @ (-47)));
  (121%N, (#, (-7427359621511357) @ (-49), (-8462205612165291) @ (-49), (-6569616159843049) @ (-49)));
  (124%N, (#, (-3887923857524803) @ (-48), (-2078626915425975) @ (-47), (-8292395461171265) @ (-49)));
  (126%N, (#, #, #, (-4650533185457697) @ (-48)));
  (127%N, (#, #, #, (-302852298247679) @ (-44)));
  (128%N, ((-3190672362444803) @ (-48), (-3054936767390851) @ (-48), (-6551267270149819) @ (-49), (-6083592559499647) @ (-49)));
  (129%N, ((-4204275375441935) @ (-48), #, (-609902861438431) @ (-45), (-302852298247679) @ (-44)));
  (132%N, ((-6964612629572873) @ (-49), #, (-609902861438431) @ (-45), (-3350102242753159) @ (-48)));
  (133%N, (#, #, #, (-4650533185457697) @ (-48)));
  (135%N, (#, #, #, (-2130163006223681) @ (-47)));
  (136%N, (#, #, #, (-7926147221115621) @ (-49)));
  (137%N, ((-7756962757402879) @ (-49), (-8871297742822353) @ (-49), (-4426206392587813) @ (-48), (-4170689255897351) @ (-48)));
  (141%N, (#, #, #, (-302852298247679) @ (-44)));
  (142%N, (#, #, (-8233949048441833) @ (-49), (-2130163006223681) @ (-47)));
  (144%N, ((-4260759154773655) @ (-48), (-6780742520844477) @ (-49), (-5685966076633201) @ (-49), (-698448455051911) @ (-46)));
  (145%N, ((-609902861438431) @ (-45), #, (-4684119305002281) @ (-48), (-302852298247679) @ (-44)));
  (146%N, (#, #, #, (-4170689255897351) @ (-48)));
  (147%N, (#, #, #, (-302852298247679) @ (-44)));
  (148%N, ((-5473081115103977) @ (-49), (-1508936377477061) @ (-47), (-5541652605023851) @ (-49), (-675322430403023) @ (-46)));
  (149%N, (#, #, #, (-302852298247679) @ (-44)));
  (151%N, (#, #, (-483818997720415) @ (-45), (-4392620273043229) @ (-48)));
  (152%N, (#, #, #, (-70881326618687) @ (-42)));
  (153%N, (#, #, #, (-302852298247679) @ (-44)));
  (156%N, ((-7681791266144621) @ (-49), (-3383588402652739) @ (-48), (-6704470423360795) @ (-49), (-3733460538297031) @ (-48)));
  (157%N, (#, #, #, (-4650533185457697) @ (-48)));
  (158%N, (#, #, #, (-8033701757752085) @ (-49)));
  (159%N, (#, #, #, (-70881326618687) @ (-42)));
  (160%N, (#, #, #, (-8033701757752085) @ (-49)));
  (162%N, ((-4026942507311479) @ (-49), (-8347250395820329) @ (-50), (-1384707698709441) @ (-47), (-4650533185457697) @ (-48)));
  (163%N, ((-4684119305002281) @ (-48), #, (-7924300488693565) @ (-49), (-3722837580357007) @ (-48)));
  (167%N, (#, #, #, (-302852298247679) @ (-44)));
  (169%N, ((-4204275375441935) @ (-48), #, (-609902861438431) @ (-45), (-271331332318175) @ (-44)));
  (170%N, (#, #, #, (-2130163006223681) @ (-47)));
  (171%N, (#, #, #, (-1994339944854797) @ (-47)));
  (172%N, (#, (-2940114342201471) @ (-48), (-3456016221203681) @ (-48), (-3510057111638175) @ (-48)));
  (173%N, (#, #, #, (-7926147221115621) @ (-49)));
  (174%N, (#, #, #, (-70881326618687) @ (-42)));
  (175%N, (#, #, #, (-1893476528496951) @ (-47)));
  (176%N, (#, #, #, (-8205616343142647) @ (-49)));
  (178%N, (#, #, #, (-3116806936269185) @ (-48)));
  (179%N, ((-424016655625409) @ (-45), (-6487707683278451) @ (-49), (-7058655718752843) @ (-49), (-3951094144080465) @ (-48)));
  (181%N, (#, #, #, (-2130163006223681) @ (-47)));
  (182%N, (#, #, #, (-8033701757752085) @ (-49)));
  (183%N, (#, #, #, (-3951094144080465) @ (-48)));
  (184%N, ((-807389556437815) @ (-46), (-3817185134677383) @ (-48), (-8131311136536975) @ (-49), (-2130163006223681) @ (-47)));
  (185%N, (#, #, #, (-4297911758076491) @ (-48)));
  (186%N, (#, #, #, (-4048158111928321) @ (-48)));
  (187%N, (#, (-7575057571972747) @ (-49), (-6039232368423709) @ (-49), (-6774188735649479) @ (-49)));
  (188%N, (#, #, #, (-4392620273043229) @ (-48)));
  (189%N, (#, #, #, (-8292395461171265) @ (-49)));
  (190%N, ((-2146956065995973) @ (-47), #, #, (-4297911758076491) @ (-48)));
  (191%N, (#, #, #, (-2061833855653683) @ (-47)));
  (192%N, (#, #, #, (-8910859197905059) @ (-49)));
  (193%N, (#, #, #, (-4227173035229071) @ (-48)));
  (195%N, ((-6107061868995681) @ (-49), (-2923948657522579) @ (-48), (-5813008117208653) @ (-49), (-943539134077359) @ (-46)));
  (196%N, (#, #, #, (-3612205927022559) @ (-48)));
  (197%N, (#, #, #, (-4650533185457697) @ (-48)));
  (198%N, (#, #, #, (-8166776809352665) @ (-49)));
  (200%N, (#, #, #, (-4227173035229071) @ (-48)));
  (201%N, (#, #, #, (-6771034946149301) @ (-49)));
  (203%N, (#, #, #, (-4392620273043229) @ (-48)));
  (204%N, (#, #, #, (-3733460538297031) @ (-48)));
  (206%N, (#, #, #, (-3702723670134365) @ (-48)));
  (208%N, (#, #, #, (-70881326618687) @ (-42)));
  (210%N, (#, #, #, (-976926146266539) @ (-46)));
  (211%N, (#, (-7427359621511357) @ (-49), (-8462205612165291) @ (-49), (-7600718321947853) @ (-49)));
  (212%N, (#, #, #, (-2130163006223681) @ (-47)));
  (213%N, (#, #, #, (-8292395461171265) @ (-49)));
  (214%N, (#, #, #, (-70881326618687) @ (-42)));
  (216%N, (#, #, #, (-3167038415105713) @ (-48)));
  (217%N, (#, #, #, (-6527269138361157) @ (-49)));
  (218%N, (#, (-6325757073991575) @ (-49), (-6867248292096205) @ (-49), (-4297911758076491) @ (-48)));
  (219%N, ((-3921870937715749) @ (-48), (-1623981519183149) @ (-47), (-8978031436994227) @ (-49), (-302852298247679) @ (-44)));
  (221%N, (#, (-8252834006088559) @ (-49), #, (-3452684697072041) @ (-48)));
  (222%N, (#, (-3887923857524803) @ (-48), (-2078626915425975) @ (-47), (-8292395461171265) @ (-49)));
  (223%N, ((-8131311136536975) @ (-49), (-6869814717210335) @ (-49), (-3498510787487123) @ (-48), (-3113796480014135) @ (-48)));
  (224%N, (#, #, #, (-7857128249604397) @ (-49)));
  (225%N, (#, #, #, (-8205616343142647) @ (-49)));
  (227%N, (#, #, #, (-302852298247679) @ (-44)));
  (228%N, (#, #, #, (-7926147221115621) @ (-49)));
  (229%N, ((-3470737221580077) @ (-48), #, (-7001207095767483) @ (-49), (-3165594950523267) @ (-48)));
  (230%N, (#, #, #, (-2130163006223681) @ (-47)));
  (231%N, (#, #, (-8233949048441833) @ (-49), (-4048158111928321) @ (-48)));
  (232%N, (#, #, (-4331497877621075) @ (-48), (-2001206550016447) @ (-47)));
  (234%N, ((-546860929579423) @ (-45), #, (-8272788582231815) @ (-49), (-8033701757752085) @ (-49)));
  (235%N, (#, #, (-609902861438431) @ (-45), (-4227173035229071) @ (-48)));
  (236%N, (#, (-8871297742822353) @ (-49), (-8462205612165291) @ (-49), (-7706109050846307) @ (-49)));
  (240%N, (#, #, #, (-302852298247679) @ (-44)));
  (243%N, (#, #, (-4684119305002281) @ (-48), (-7367903434101099) @ (-49)));
  (246%N, (#, #, #, (-8910859197905059) @ (-49)));
  (248%N, ((-4426206392587813) @ (-48), #, (-7696043924970107) @ (-49), (-976926146266539) @ (-46)));
  (249%N, (#, #, #, (-4650533185457697) @ (-48)));
  (250%N, (#, (-1925169055947837) @ (-47), (-7206819109466809) @ (-49), (-302852298247679) @ (-44)));
  (251%N, ((-5893292722213463) @ (-49), (-6185641055691637) @ (-49), (-1729812462090333) @ (-47), (-302852298247679) @ (-44)))].

(** prob_emit.py, characters 0x6b00 to 0x6bff *)
Definition emit_6b : list (N * num4) := [
  (1%N, (#, #, #, (-302852298247679) @ (-44)));
  (2%N, (#, #, #, (-302852298247679) @ (-44)));
  (3%N, (#, #, #, (-302852298247679) @ (-44)));
  (4%N, ((-2841565025359345) @ (-48), (-6017758358285381) @ (-49), (-2710130848942003) @ (-48), (-747080399202135) @ (-46)));
  (6%N, (#, #, #, (-4650533185457697) @ (-48)));
  (7%N, (#, #, #, (-302852298247679) @ (-44)));
  (9%N, (#, #, #, (-8910859197905059) @ (-49)));
  (10%N, ((-1975305075677349) @ (-48), (-4223241022746995) @ (-49), (-3652925634397911) @ (-49), (-70881326618687) @ (-42)));
  (11%N, (#, #, #, (-70881326618687) @ (-42)));
  (12%N, (#, #, #, (-7643494584741751) @ (-49)));
  (13%N, (#, #, #, (-7367903434101099) @ (-49)));
  (14%N, (#, #, #, (-2895978662851933) @ (-48)));
  (15%N, (#, (-8871297742822353) @ (-49), (-3921870937715749) @ (-48), (-6373019742929881) @ (-49)));
  (16%N, (#, #, #, (-6003343174453771) @ (-49)));
  (17%N, (#, #, #, (-3184193191912173) @ (-48)));
  (18%N, ((-6787131381448733) @ (-49), (-4240545284906009) @ (-48), (-8978031436994227) @ (-49), (-6350225132941267) @ (-49)));
  (19%N, (#, #, #, (-3306514671084387) @ (-48)));
  (20%N, (#, #, #, (-8910859197905059) @ (-49)));
  (22%N, (#, (-2786787273180365) @ (-48), (-6704470423360795) @ (-49), (-6986850120558139) @ (-49)));
  (25%N, (#, #, #, (-3200010553913215) @ (-48)));
  (32%N, ((-5893292722213463) @ (-49), (-3638170211376633) @ (-48), (-6114838737999013) @ (-49), (-2775028065033675) @ (-48)));
  (33%N, ((-4665505208148399) @ (-49), (-3921532347066621) @ (-49), (-3309472591774857) @ (-49), (-4177078404881249) @ (-49)));
  (34%N, ((-2250256702787413) @ (-48), (-2527910954314675) @ (-48), (-1124450037688785) @ (-47), (-354500130646893) @ (-45)));
  (35%N, ((-5218636110745697) @ (-49), (-1276697565875161) @ (-47), (-5713006181505227) @ (-49), (-3196775173732053) @ (-48)));
  (36%N, (#, #, (-8359567700260433) @ (-49), (-6823747105641763) @ (-49)));
  (37%N, (#, #, #, (-302852298247679) @ (-44)));
  (39%N, ((-8320126096418405) @ (-50), (-2636013062845457) @ (-48), (-5248453797470961) @ (-49), (-5324441964832071) @ (-49)));
  (45%N, (#, #, #, (-302852298247679) @ (-44)));
  (50%N, ((-5660941958964455) @ (-49), (-4824156099340633) @ (-49), (-666966380778577) @ (-46), (-4799350444197365) @ (-49)));
  (53%N, (#, #, #, (-302852298247679) @ (-44)));
  (55%N, (#, #, (-571248877892569) @ (-45), (-8033701757752085) @ (-49)));
  (56%N, (#, #, #, (-70881326618687) @ (-42)));
  (57%N, (#, (-8871297742822353) @ (-49), #, (-7835882333724349) @ (-49)));
  (58%N, ((-5227021196146183) @ (-49), (-377463309330355) @ (-45), (-6937708877592227) @ (-49), (-2904105433738755) @ (-48)));
  (59%N, (#, #, #, (-8910859197905059) @ (-49)));
  (61%N, ((-1413210454971501) @ (-47), (-2719826794668321) @ (-48), (-5631057182309047) @ (-49), (-2824198346607805) @ (-48)));
  (62%N, ((-5837985964384345) @ (-49), (-2738161878229841) @ (-48), (-8872113309800955) @ (-50), (-5523377699016511) @ (-49)));
  (64%N, (#, #, #, (-8910859197905059) @ (-49)));
  (66%N, (#, #, #, (-8910859197905059) @ (-49)));
  (67%N, ((-7725679712283649) @ (-49), #, #, (-70881326618687) @ (-42)));
  (69%N, (#, #, #, (-302852298247679) @ (-44)));
  (70%N, ((-609902861438431) @ (-45), (-1648815554978729) @ (-47), (-6311788741076455) @ (-49), (-906660926466427) @ (-46)));
  (71%N, ((-5924676407930081) @ (-49), (-2653990826944223) @ (-48), (-2956502725396995) @ (-48), (-5272936356051599) @ (-49)));
  (73%N, ((-6480362367382569) @ (-49), (-8871297742822353) @ (-49), (-5968548079386725) @ (-49), (-50275542397939) @ (-42)));
  (75%N, (#, #, #, (-7628871685880939) @ (-49)));
  (76%N, ((-4803828441091513) @ (-49), (-5259919208463503) @ (-49), (-4959206591893953) @ (-49), (-2588409053115469) @ (-48)));
  (77%N, (#, #, #, (-4227173035229071) @ (-48)));
  (80%N, ((-8320126096418405) @ (-50), (-2636013062845457) @ (-48), (-5248453797470961) @ (-49), (-5324441964832071) @ (-49)));
  (83%N, (#, #, #, (-302852298247679) @ (-44)));
  (84%N, (#, #, #, (-3374719848683653) @ (-48)));
  (88%N, (#, #, #, (-4650533185457697) @ (-48)));
  (89%N, ((-7313100723111123) @ (-49), #, (-8978031436994227) @ (-49), (-7367903434101099) @ (-49)));
  (90%N, (#, #, #, (-302852298247679) @ (-44)));
  (92%N, (#, #, #, (-4170689255897351) @ (-48)));
  (95%N, (#, #, (-8359567700260433) @ (-49), (-6823747105641763) @ (-49)));
  (96%N, (#, #, #, (-70881326618687) @ (-42)));
  (97%N, ((-2250256702787413) @ (-48), (-2527910954314675) @ (-48), (-1124450037688785) @ (-47), (-354500130646893) @ (-45)));
  (98%N, ((-2749787207725245) @ (-48), (-5438387109717167) @ (-49), (-2059413251682157) @ (-48), (-5148461464788119) @ (-49)));
  (99%N, ((-6927594180238139) @ (-50), (-3777099030736889) @ (-49), (-1999262248851845) @ (-48), (-7516592193547267) @ (-50)));
  (100%N, ((-927003822517439) @ (-47), (-8077964333767221) @ (-50), (-7087094848760249) @ (-50), (-3698713639228957) @ (-49)));
  (101%N, ((-2338444572273305) @ (-48), (-2165478534571423) @ (-48), (-7354254877970281) @ (-50), (-1245848246094529) @ (-47)));
  (102%N, ((-804833225768841) @ (-47), (-7592272024941085) @ (-50), (-8998458292217157) @ (-50), (-4869912095639831) @ (-49)));
  (103%N, ((-6075361497587351) @ (-49), (-184645829565861) @ (-44), (-5860789369297907) @ (-49), (-6955442377254011) @ (-49)));
  (105%N, (#, #, (-4081744231472905) @ (-48), (-70881326618687) @ (-42)));
  (106%N, ((-6164851020242309) @ (-49), (-747927687525045) @ (-46), (-6926560989478223) @ (-49), (-2837792459188277) @ (-48)));
  (109%N, (#, #, #, (-70881326618687) @ (-42)));
  (112%N, (#, #, #, (-70881326618687) @ (-42)));
  (114%N, ((-1407672220017317) @ (-47), (-2973961462747413) @ (-48), (-8991473962154527) @ (-50), (-4417014156706077) @ (-49)));
  (115%N, (#, #, #, (-4650533185457697) @ (-48)));
  (117%N, (#, #, #, (-302852298247679) @ (-44)));
  (119%N, ((-7372383099830017) @ (-50), (-4689517917154653) @ (-49), (-8708922304676197) @ (-50), (-8910859197905059) @ (-49)));
  (120%N, ((-4643788081189059) @ (-49), (-4637477010270649) @ (-49), (-2571588465775841) @ (-48), (-585444547673801) @ (-46)));
  (121%N, ((-6252105803659111) @ (-49), (-874429171128617) @ (-46), (-5992536186023355) @ (-49), (-7127668759912815) @ (-49)));
  (123%N, ((-4357713327491641) @ (-49), (-2200473036749239) @ (-48), (-8635166858673663) @ (-50), (-7776336438372043) @ (-50)));
  (124%N, ((-5575663374796499) @ (-49), #, (-1588852580761685) @ (-47), (-5966006845704945) @ (-49)));
  (127%N, (#, (-8871297742822353) @ (-49), #, (-7082153075881451) @ (-49)));
  (129%N, (#, (-8871297742822353) @ (-49), #, (-7082153075881451) @ (-49)));
  (130%N, (#, #, #, (-8292395461171265) @ (-49)));
  (131%N, ((-1865749067223629) @ (-47), (-6463748750323761) @ (-49), (-1746162137615165) @ (-47), (-3688528646784237) @ (-48)));
  (132%N, (#, (-3736209830033945) @ (-48), (-4684119305002281) @ (-48), (-7951171338784367) @ (-49)));
  (134%N, ((-6608903272462357) @ (-49), #, (-1845768529231285) @ (-47), (-1848956007451337) @ (-47)));
  (135%N, ((-609902861438431) @ (-45), (-1925169055947837) @ (-47), (-2017999609788739) @ (-47), (-7689790518313711) @ (-49)));
  (137%N, ((-6079432013900721) @ (-49), (-1796212599740603) @ (-47), #, (-6474727927202407) @ (-49)));
  (138%N, ((-5923436429557781) @ (-49), (-5268273112101347) @ (-49), (-4707540537319483) @ (-49), (-6122962302844643) @ (-49)));
  (139%N, ((-4761395441735857) @ (-49), (-5383009809702665) @ (-49), (-5939773177293285) @ (-49), (-5616766647908639) @ (-49)));
  (140%N, (#, #, #, (-976926146266539) @ (-46)));
  (141%N, (#, (-8090883396801683) @ (-49), (-3984680263625049) @ (-48), (-302852298247679) @ (-44)));
  (143%N, (#, #, #, (-7795654513279065) @ (-49)));
  (145%N, (#, #, #, (-2378819065983697) @ (-48)));
  (146%N, ((-7681791266144621) @ (-49), #, (-4260759154773655) @ (-48), (-7587152606408853) @ (-49)));
  (147%N, (#, #, (-6964612629572873) @ (-49), (-3510057111638175) @ (-48)));
  (148%N, (#, #, #, (-70881326618687) @ (-42)));
  (149%N, (#, #, #, (-8166776809352665) @ (-49)));
  (150%N, ((-5107183852682791) @ (-49), (-4746864266768099) @ (-49), (-4715236044572461) @ (-49), (-6226396466584401) @ (-49)));
  (151%N, (#, #, #, (-7835882333724349) @ (-49)));
  (152%N, ((-4761395441735857) @ (-49), (-5383009809702665) @ (-49), (-5939773177293285) @ (-49), (-5616766647908639) @ (-49)));
  (154%N, ((-1865749067223629) @ (-47), #, (-2146956065995973) @ (-47), (-4048158111928321) @ (-48)));
  (155%N, (#, #, #, (-7926147221115621) @ (-49)));
  (156%N, (#, #, #, (-302852298247679) @ (-44)));
  (157%N, (#, #, #, (-4650533185457697) @ (-48)));
  (158%N, ((-7681791266144621) @ (-49), #, (-4260759154773655) @ (-48), (-7587152606408853) @ (-49)));
  (160%N, (#, #, #, (-70881326618687) @ (-42)));
  (161%N, ((-382014655813439) @ (-45), (-8871297742822353) @ (-49), (-1845768529231285) @ (-47), (-7614619027055453) @ (-49)));
  (162%N, (#, #, #, (-3767970024052643) @ (-48)));
  (163%N, (#, #, #, (-7628871685880939) @ (-49)));
  (164%N, ((-609902861438431) @ (-45), (-1925169055947837) @ (-47), (-2017999609788739) @ (-47), (-4650533185457697) @ (-48)));
  (166%N, (#, #, #, (-4392620273043229) @ (-48)));
  (167%N, (#, #, #, (-8130444851884389) @ (-49)));
  (168%N, (#, #, #, (-70881326618687) @ (-42)));
  (169%N, (#, #, #, (-8395033373076123) @ (-49)));
  (170%N, (#, #, #, (-8910859197905059) @ (-49)));
  (171%N, ((-1865749067223629) @ (-47), #, (-2146956065995973) @ (-47), (-4048158111928321) @ (-48)));
  (172%N, (#, #, #, (-8910859197905059) @ (-49)));
  (173%N, (#, #, #, (-4170689255897351) @ (-48)));
  (174%N, (#, #, (-6964612629572873) @ (-49), (-3510057111638175) @ (-48)));
  (175%N, ((-382014655813439) @ (-45), (-8871297742822353) @ (-49), (-1845768529231285) @ (-47), (-7614619027055453) @ (-49)));
  (176%N, (#, #, #, (-4170689255897351) @ (-48)));
  (178%N, ((-5575663374796499) @ (-49), #, (-1588852580761685) @ (-47), (-5966006845704945) @ (-49)));
  (179%N, ((-4204275375441935) @ (-48), #, (-609902861438431) @ (-45), (-1877995278787649) @ (-47)));
  (180%N, ((-3408305968228237) @ (-48), (-4240545284906009) @ (-48), (-3486270816616625) @ (-48), (-6837734159388757) @ (-49)));
  (181%N, ((-1201785917809109) @ (-47), (-5429600644453093) @ (-49), (-7948756148765935) @ (-50), (-4027840735742347) @ (-49)));
  (183%N, ((-2491932638139613) @ (-48), (-3107509511504133) @ (-48), (-6617337137372447) @ (-49), (-3025578836300349) @ (-48)));
  (186%N, ((-141825111720935) @ (-44), (-5391093332539629) @ (-49), (-2375827453045573) @ (-48), (-8379213787077685) @ (-50)));
  (187%N, (#, #, #, (-70881326618687) @ (-42)));
  (188%N, ((-212644807062239) @ (-44), (-731975968624813) @ (-46), (-5214929576264011) @ (-49), (-2695404059081151) @ (-48)));
  (189%N, (#, #, #, (-4392620273043229) @ (-48)));
  (190%N, (#, #, #, (-302852298247679) @ (-44)));
  (191%N, ((-2683672172929271) @ (-48), (-2692078758213627) @ (-48), (-2304099045706023) @ (-48), (-2374151338327289) @ (-48)));
  (192%N, ((-5462058737466093) @ (-49), (-7310469050781013) @ (-49), (-5131679936589365) @ (-49), (-4392620273043229) @ (-48)));
  (193%N, ((-5462058737466093) @ (-49), (-7310469050781013) @ (-49), (-5131679936589365) @ (-49), (-2588687053115065) @ (-48)));
  (194%N, ((-2017999609788739) @ (-47), (-6135466576150635) @ (-49), (-8359567700260433) @ (-49), (-7217418596990555) @ (-49)));
  (197%N, ((-756151241173869) @ (-46), (-5336804399533481) @ (-49), (-5289297427195325) @ (-49), (-3089704493416357) @ (-48)));
  (198%N, ((-3408305968228237) @ (-48), (-4240545284906009) @ (-48), (-3486270816616625) @ (-48), (-6837734159388757) @ (-49)));
  (199%N, (#, #, #, (-302852298247679) @ (-44)));
  (202%N, (#, #, #, (-7115940211661285) @ (-49)));
  (203%N, ((-6237853144833625) @ (-49), (-7310469050781013) @ (-49), (-609902861438431) @ (-45), (-3317411837498811) @ (-48)));
  (204%N, (#, #, #, (-8910859197905059) @ (-49)));
  (205%N, ((-8983071685048865) @ (-50), (-4763400701356221) @ (-49), (-8631741848393909) @ (-50), (-2594400100202677) @ (-48)));
  (206%N, (#, #, #, (-4297911758076491) @ (-48)));
  (207%N, ((-3807713281974851) @ (-49), (-3252133114292637) @ (-48), (-404505981231041) @ (-45), (-7934738806002889) @ (-50)));
  (208%N, (#, #, #, (-472560260360877) @ (-45)));
  (209%N, (#, #, #, (-302852298247679) @ (-44)));
  (210%N, ((-2410782341276233) @ (-48), (-2430286518400265) @ (-48), (-4574386540887427) @ (-49), (-310875777467553) @ (-45)));
  (211%N, ((-609902861438431) @ (-45), (-324314075590687) @ (-45), (-7082412406347563) @ (-49), (-3444810757719897) @ (-48)));
  (212%N, ((-7264127752154193) @ (-50), (-245677611958343) @ (-45), (-8671625265535625) @ (-50), (-474523193815149) @ (-46)));
  (213%N, ((-2145769778733221) @ (-48), (-682375106580817) @ (-46), (-5657070210873331) @ (-49), (-2573088131387985) @ (-48)));
  (214%N, (#, (-428372245208381) @ (-45), (-4684119305002281) @ (-48), (-7614619027055453) @ (-49)));
  (215%N, ((-6212452597894135) @ (-49), (-3817185134677383) @ (-48), (-2146956065995973) @ (-47), (-6365318529074281) @ (-49)));
  (216%N, (#, #, #, (-70881326618687) @ (-42)));
  (217%N, ((-6448000012228133) @ (-49), #, (-6149838131789579) @ (-49), (-6182717223307863) @ (-49)));
  (218%N, (#, #, #, (-7926147221115621) @ (-49)));
  (219%N, ((-8318776387672479) @ (-50), (-4541279892688439) @ (-49), (-4986086911547037) @ (-49), (-4649586566638717) @ (-49)));
  (221%N, (#, #, #, (-4650533185457697) @ (-48)));
  (222%N, (#, #, #, (-4297911758076491) @ (-48)));
  (225%N, ((-212644807062239) @ (-44), (-491414177067389) @ (-45), (-889038822504283) @ (-46), (-6184933564569943) @ (-49)));
  (226%N, (#, #, #, (-302852298247679) @ (-44)));
  (228%N, (#, #, #, (-4650533185457697) @ (-48)));
  (230%N, (#, #, #, (-3505203974573573) @ (-48)));
  (231%N, (#, #, #, (-302852298247679) @ (-44)));
  (234%N, (#, #, #, (-8910859197905059) @ (-49)));
  (235%N, ((-4392657943419061) @ (-49), (-2738161878229841) @ (-48), (-5236080772957375) @ (-49), (-1576807742022961) @ (-47)));
  (236%N, (#, #, #, (-7689790518313711) @ (-49)));
  (239%N, ((-889038822504283) @ (-46), (-2846596837375801) @ (-48), (-2934019474412715) @ (-48), (-1713930327752905) @ (-47)));
  (241%N, (#, #, #, (-302852298247679) @ (-44)));
  (243%N, (#, #, #, (-4297911758076491) @ (-48)));
  (245%N, (#, #, #, (-7926147221115621) @ (-49)));
  (249%N, (#, #, (-7862826752368233) @ (-49), (-70881326618687) @ (-42)));
  (253%N, ((-2078626915425975) @ (-47), (-7346801008249289) @ (-49), (-4426206392587813) @ (-48), (-8395033373076123) @ (-49)));
  (255%N, (#, #, #, (-7926147221115621) @ (-49)))].

(** prob_emit.py, characters 0x6c00 to 0x6cff *)
Definition emit_6c : list (N * num4) := [
  (2%N, (#, #, #, (-70881326618687) @ (-42)));
  (5%N, (#, (-4240545284906009) @ (-48), (-3984680263625049) @ (-48), (-1877995278787649) @ (-47)));
  (6%N, ((-7399879841139741) @ (-49), #, #, #));
  (7%N, (#, #, (-7399879841139741) @ (-49), (-4650533185457697) @ (-48)));
  (8%N, ((-212644807062239) @ (-44), (-491414177067389) @ (-45), (-889038822504283) @ (-46), (-6184933564569943) @ (-49)));
  (10%N, (#, #, #, (-302852298247679) @ (-44)));
  (12%N, (#, #, (-7399879841139741) @ (-49), (-4650533185457697) @ (-48)));
  (13%N, ((-7862826752368233) @ (-49), #, #, (-8910859197905059) @ (-49)));
  (15%N, ((-1465752520513273) @ (-47), (-4769151006240439) @ (-49), (-4710189718459801) @ (-49), (-658788218000723) @ (-46)));
  (16%N, (#, #, #, (-393182027222453) @ (-45)));
  (17%N, ((-7080770310964053) @ (-50), (-8639224502810157) @ (-51), (-6357992657623551) @ (-50), (-2368412869854911) @ (-48)));
  (19%N, (#, (-7427359621511357) @ (-49), (-6072126144122273) @ (-49), (-7835882333724349) @ (-49)));
  (20%N, ((-3905011864942795) @ (-49), (-7575700391645803) @ (-50), (-7390666012276493) @ (-50), (-4180886707463571) @ (-49)));
  (21%N, (#, #, #, (-271331332318175) @ (-44)));
  (22%N, ((-4260759154773655) @ (-48), (-4240545284906009) @ (-48), #, (-3075761930181427) @ (-48)));
  (24%N, ((-609902861438431) @ (-45), #, #, (-7307683484381827) @ (-49)));
  (25%N, ((-7924300488693565) @ (-49), #, #, (-3767970024052643) @ (-48)));
  (26%N, (#, #, #, (-3733460538297031) @ (-48)));
  (27%N, ((-6079432013900721) @ (-49), #, (-5327721240549073) @ (-49), (-7151885394841985) @ (-49)));
  (28%N, (#, #, #, (-70881326618687) @ (-42)));
  (31%N, ((-823797092398745) @ (-46), (-5976798483181123) @ (-49), (-7924300488693565) @ (-49), (-776529182076135) @ (-46)));
  (33%N, (#, #, #, (-3634150150092073) @ (-48)));
  (34%N, ((-362371353296449) @ (-45), (-358403368121969) @ (-45), (-6295964241005071) @ (-49), (-1449098598160475) @ (-47)));
  (35%N, ((-3905011864942795) @ (-49), (-7575700391645803) @ (-50), (-7390666012276493) @ (-50), (-2918094646787033) @ (-48)));
  (36%N, ((-7435075673190267) @ (-49), #, #, (-7706109050846307) @ (-49)));
  (37%N, (#, #, #, (-7425201997121977) @ (-49)));
  (38%N, ((-7862826752368233) @ (-49), #, (-7556172614326021) @ (-49), (-3192782553928043) @ (-48)));
  (39%N, ((-5224510424431511) @ (-49), (-4449237472244357) @ (-49), (-6019792589896983) @ (-49), (-1411671724263529) @ (-47)));
  (40%N, ((-5671530671513813) @ (-49), (-5418501600203023) @ (-49), (-7244363015634439) @ (-49), (-5229196247650567) @ (-49)));
  (41%N, ((-2146956065995973) @ (-47), #, #, (-3517497412055821) @ (-48)));
  (42%N, (#, #, #, (-3598472716699259) @ (-48)));
  (43%N, ((-362371353296449) @ (-45), (-358403368121969) @ (-45), (-6295964241005071) @ (-49), (-3222879740574019) @ (-48)));
  (44%N, ((-2146956065995973) @ (-47), #, #, (-1516560388112855) @ (-47)));
  (45%N, (#, #, #, (-3207429064687847) @ (-48)));
  (46%N, ((-6414426652981313) @ (-49), (-6547927632997723) @ (-49), (-6850929759563609) @ (-49), (-6027162261437447) @ (-49)));
  (47%N, ((-5839051149098401) @ (-49), (-5671726777532731) @ (-49), (-3215481543784717) @ (-48), (-6189392597415009) @ (-49)));
  (48%N, ((-3577408776600841) @ (-48), (-6118275928875963) @ (-49), (-609902861438431) @ (-45), (-3702723670134365) @ (-48)));
  (49%N, (#, #, #, (-3279363519905739) @ (-48)));
  (50%N, (#, (-1925169055947837) @ (-47), (-7426068281774563) @ (-49), (-6800076053007037) @ (-49)));
  (51%N, (#, (-1925169055947837) @ (-47), (-7426068281774563) @ (-49), (-6800076053007037) @ (-49)));
  (52%N, ((-6860371527572279) @ (-50), (-6618630791785749) @ (-50), (-3728405999041963) @ (-49), (-8012300557289063) @ (-50)));
  (53%N, (#, #, #, (-7951171338784367) @ (-49)));
  (54%N, (#, #, #, (-3535663390789959) @ (-48)));
  (55%N, ((-3903704958981611) @ (-48), #, #, (-302852298247679) @ (-44)));
  (56%N, ((-547762648111257) @ (-46), (-7309727721256743) @ (-50), (-1371863771569619) @ (-47), (-5480802161211847) @ (-49)));
  (57%N, ((-8462205612165291) @ (-49), (-3982632372491541) @ (-48), (-571248877892569) @ (-45), (-7245928484021955) @ (-49)));
  (58%N, (#, #, #, (-302852298247679) @ (-44)));
  (60%N, (#, #, #, (-4650533185457697) @ (-48)));
  (61%N, (#, (-5749640358739673) @ (-49), #, (-409785891556225) @ (-45)));
  (62%N, (#, #, #, (-6697438141102179) @ (-49)));
  (63%N, (#, #, #, (-70881326618687) @ (-42)));
  (64%N, ((-7417202744952887) @ (-49), (-6794643225952077) @ (-49), (-1697502731782709) @ (-47), (-3211636541784881) @ (-48)));
  (65%N, ((-3494371374993105) @ (-48), (-784151982854103) @ (-46), (-5677500504271277) @ (-49), (-5914957921374399) @ (-49)));
  (66%N, ((-1160104421126023) @ (-47), (-8874288976199403) @ (-50), (-3740260951197245) @ (-49), (-1187965385645029) @ (-47)));
  (70%N, (#, #, #, (-8130444851884389) @ (-49)));
  (71%N, ((-1181772785443559) @ (-47), (-5274857397141249) @ (-49), (-5096962514046099) @ (-49), (-5683730638601819) @ (-49)));
  (72%N, (#, #, #, (-70881326618687) @ (-42)));
  (73%N, ((-7843659112387979) @ (-50), (-3035088546682911) @ (-49), (-7618492994162889) @ (-50), (-571323602840871) @ (-46)));
  (74%N, ((-3855333411915459) @ (-48), (-3982632372491541) @ (-48), (-7579153354239763) @ (-49), (-3166315757515667) @ (-48)));
  (75%N, (#, #, #, (-70881326618687) @ (-42)));
  (77%N, (#, #, #, (-302852298247679) @ (-44)));
  (78%N, (#, #, #, (-4650533185457697) @ (-48)));
  (79%N, (#, #, #, (-302852298247679) @ (-44)));
  (80%N, ((-8462205612165291) @ (-49), (-6886133249742931) @ (-49), (-6530861578236825) @ (-49), (-4392620273043229) @ (-48)));
  (84%N, (#, #, #, (-4392620273043229) @ (-48)));
  (85%N, ((-6502441666025359) @ (-49), (-3478296917619477) @ (-48), (-7097163030666307) @ (-49), (-456223959081461) @ (-45)));
  (87%N, ((-1419075365595911) @ (-47), (-5570366845639651) @ (-49), (-320767951134463) @ (-45), (-1246209997052413) @ (-47)));
  (89%N, (#, #, #, (-4297911758076491) @ (-48)));
  (91%N, ((-1580438179295035) @ (-47), (-3736209830033945) @ (-48), (-3044246060461089) @ (-48), (-7151885394841985) @ (-49)));
  (92%N, ((-4684119305002281) @ (-48), (-6808895884777563) @ (-49), (-7492374236211145) @ (-49), (-897148847068159) @ (-46)));
  (93%N, ((-5688000592593281) @ (-49), (-1097508481643611) @ (-47), (-6778580078491437) @ (-49), (-2852549645650595) @ (-48)));
  (94%N, ((-7149325314970619) @ (-49), (-3736209830033945) @ (-48), (-3695707134388909) @ (-48), (-184209554347537) @ (-44)));
  (95%N, ((-7305061548419629) @ (-50), (-6698629761252247) @ (-50), (-7379716913478587) @ (-50), (-4786148018998793) @ (-49)));
  (96%N, ((-2570506462885553) @ (-48), (-2684149361275507) @ (-48), (-1234324790032207) @ (-47), (-1415456671616293) @ (-47)));
  (97%N, ((-5025638218828751) @ (-49), (-2590880619149821) @ (-48), (-5751358892258993) @ (-49), (-6299012574637699) @ (-49)));
  (98%N, (#, #, #, (-302852298247679) @ (-44)));
  (100%N, ((-4969350108727407) @ (-49), (-5785972316207949) @ (-49), (-5578005517654273) @ (-49), (-2504187650931275) @ (-48)));
  (103%N, (#, #, #, (-8292395461171265) @ (-49)));
  (104%N, ((-7567545727469403) @ (-49), #, #, (-3951094144080465) @ (-48)));
  (105%N, ((-7206819109466809) @ (-49), (-8871297742822353) @ (-49), (-7212905114184119) @ (-49), (-271331332318175) @ (-44)));
  (106%N, ((-4850090473248063) @ (-49), (-5840096498027951) @ (-49), (-406948109194601) @ (-45), (-2823556929748297) @ (-48)));
  (107%N, (#, #, #, (-302852298247679) @ (-44)));
  (108%N, (#, #, #, (-302852298247679) @ (-44)));
  (109%N, (#, (-8871297742822353) @ (-49), #, (-8395033373076123) @ (-49)));
  (110%N, (#, #, #, (-302852298247679) @ (-44)));
  (111%N, (#, #, #, (-302852298247679) @ (-44)));
  (112%N, ((-8978031436994227) @ (-49), (-778145317480215) @ (-46), (-5791046291515913) @ (-49), (-3722837580357007) @ (-48)));
  (114%N, ((-6347462662288133) @ (-49), (-3817185134677383) @ (-48), (-8233949048441833) @ (-49), (-3505203974573573) @ (-48)));
  (115%N, (#, #, #, (-70881326618687) @ (-42)));
  (116%N, ((-6414426652981313) @ (-49), (-1688482578221107) @ (-47), (-8272788582231815) @ (-49), (-6480329465492725) @ (-49)));
  (117%N, (#, #, #, (-6350225132941267) @ (-49)));
  (118%N, ((-3172494649417) @ (-38), (-1512640209349921) @ (-47), (-7072789095884181) @ (-49), (-1809666128217651) @ (-47)));
  (119%N, (#, #, #, (-3951094144080465) @ (-48)));
  (120%N, (#, #, #, (-4650533185457697) @ (-48)));
  (121%N, ((-193410650259593) @ (-44), (-5809931249162639) @ (-49), (-1665953796659243) @ (-47), (-4170689255897351) @ (-48)));
  (122%N, ((-7227635423550775) @ (-50), (-8759044215002423) @ (-50), (-508082586834451) @ (-46), (-2472403751608259) @ (-48)));
  (123%N, (#, #, #, (-440002733528793) @ (-45)));
  (125%N, ((-8842946670599785) @ (-50), (-4864210852066449) @ (-49), (-380015603814727) @ (-45), (-6813480256580097) @ (-49)));
  (126%N, ((-1653276102753797) @ (-47), (-428372245208381) @ (-45), (-3408305968228237) @ (-48), (-7065990723112215) @ (-49)));
  (127%N, (#, #, #, (-4650533185457697) @ (-48)));
  (129%N, ((-3206473575797559) @ (-48), (-377463309330355) @ (-45), (-3315114842255451) @ (-48), (-3211636541784881) @ (-48)));
  (130%N, ((-7001207095767483) @ (-49), (-6235492186600303) @ (-49), (-3430332003528151) @ (-48), (-6859388750389055) @ (-49)));
  (131%N, ((-5596408668186089) @ (-49), (-85483384913373) @ (-43), (-700774158904521) @ (-46), (-6786983603534937) @ (-49)));
  (132%N, (#, #, (-4684119305002281) @ (-48), (-302852298247679) @ (-44)));
  (133%N, ((-6926560989478223) @ (-49), (-5271085524046155) @ (-49), (-3663958025301281) @ (-48), (-6424971274762273) @ (-49)));
  (134%N, ((-3984680263625049) @ (-48), #, #, (-302852298247679) @ (-44)));
  (135%N, (#, #, #, (-302852298247679) @ (-44)));
  (136%N, ((-1086758216052859) @ (-47), (-5117418960973099) @ (-49), (-1761217125044983) @ (-47), (-5630283010878203) @ (-49)));
  (137%N, ((-1086758216052859) @ (-47), (-5117418960973099) @ (-49), (-2631413079511801) @ (-48), (-5310412074074995) @ (-49)));
  (139%N, (#, #, #, (-4650533185457697) @ (-48)));
  (140%N, (#, (-3760701355345663) @ (-48), (-6582334460222915) @ (-49), (-2130163006223681) @ (-47)));
  (141%N, (#, #, #, (-302852298247679) @ (-44)));
  (143%N, ((-7374855723470995) @ (-49), #, #, (-6837734159388757) @ (-49)));
  (144%N, ((-1618434837590833) @ (-47), (-1408669307301121) @ (-47), (-3695707134388909) @ (-48), (-733282668088029) @ (-46)));
  (145%N, (#, #, #, (-70881326618687) @ (-42)));
  (146%N, ((-1642131724383717) @ (-48), (-8713314187515529) @ (-50), (-2636828086326257) @ (-48), (-223363221998417) @ (-45)));
  (147%N, (#, (-3172210053778219) @ (-48), (-846618816505503) @ (-46), (-6777360293071555) @ (-49)));
  (148%N, ((-2917401225018751) @ (-48), #, (-2146956065995973) @ (-47), (-5543622346285775) @ (-49)));
  (149%N, (#, #, #, (-302852298247679) @ (-44)));
  (150%N, (#, #, #, (-8166776809352665) @ (-49)));
  (152%N, (#, #, #, (-70881326618687) @ (-42)));
  (153%N, ((-4251734229451409) @ (-49), (-1040624573855943) @ (-47), (-4735510773901585) @ (-49), (-649624541539295) @ (-46)));
  (154%N, (#, #, (-609902861438431) @ (-45), (-4170689255897351) @ (-48)));
  (155%N, ((-3577408776600841) @ (-48), (-2747797659420573) @ (-48), (-5688816462233797) @ (-49), (-7015240167258395) @ (-49)));
  (156%N, (#, #, #, (-4650533185457697) @ (-48)));
  (158%N, (#, #, #, (-4650533185457697) @ (-48)));
  (159%N, ((-5155546514535495) @ (-49), (-1419859635331521) @ (-47), (-5223259225417023) @ (-49), (-5313945983692647) @ (-49)));
  (160%N, (#, #, #, (-302852298247679) @ (-44)));
  (161%N, ((-1642131724383717) @ (-48), (-8713314187515529) @ (-50), (-2636828086326257) @ (-48), (-223363221998417) @ (-45)));
  (163%N, ((-8233949048441833) @ (-49), (-8090883396801683) @ (-49), (-3912641423100301) @ (-48), (-6938251729979339) @ (-49)));
  (164%N, ((-2078626915425975) @ (-47), (-8871297742822353) @ (-49), #, (-7121773942140261) @ (-49)));
  (165%N, ((-6570482444495635) @ (-49), (-6166874319454763) @ (-49), (-7453534702421163) @ (-49), (-3535663390789959) @ (-48)));
  (166%N, ((-5592610770010893) @ (-49), (-3982632372491541) @ (-48), (-1794334638614767) @ (-47), (-6897440390483705) @ (-49)));
  (167%N, ((-731226917311279) @ (-46), (-5549950802432567) @ (-49), (-7417202744952887) @ (-49), (-6790228280836765) @ (-49)));
  (168%N, (#, #, #, (-8910859197905059) @ (-49)));
  (169%N, ((-546860929579423) @ (-45), #, #, (-271331332318175) @ (-44)));
  (170%N, ((-6570482444495635) @ (-49), (-5758505895561349) @ (-49), (-6764610380191347) @ (-49), (-5323960605287205) @ (-49)));
  (171%N, ((-7862826752368233) @ (-49), (-2795775626869985) @ (-48), (-5808950802684291) @ (-49), (-3288126094492297) @ (-48)));
  (172%N, (#, #, #, (-271331332318175) @ (-44)));
  (173%N, ((-7435075673190267) @ (-49), (-1764807936785953) @ (-47), (-8978031436994227) @ (-49), (-7706109050846307) @ (-49)));
  (174%N, ((-6212452597894135) @ (-49), #, #, (-6719959142359565) @ (-49)));
  (176%N, (#, #, #, (-4650533185457697) @ (-48)));
  (177%N, ((-3551083531600405) @ (-48), (-1539430114996847) @ (-47), (-7244363015634439) @ (-49), (-7121773942140261) @ (-49)));
  (178%N, (#, #, #, (-302852298247679) @ (-44)));
  (179%N, ((-487640965624287) @ (-46), (-125686529162511) @ (-44), (-483181314135413) @ (-46), (-2193198768776373) @ (-48)));
  (181%N, (#, #, #, (-8910859197905059) @ (-49)));
  (183%N, (#, #, #, (-302852298247679) @ (-44)));
  (184%N, ((-5789579638614887) @ (-49), (-5437123472927511) @ (-49), (-6670779604780977) @ (-49), (-6622611700393137) @ (-49)));
  (185%N, ((-4543931595616975) @ (-49), (-8799490653217293) @ (-50), (-2242862847121471) @ (-48), (-4826225045911153) @ (-49)));
  (187%N, ((-8568638653237241) @ (-50), (-2800407050940187) @ (-49), (-7281559464484109) @ (-50), (-583532933726773) @ (-46)));
  (188%N, ((-5647505761418301) @ (-49), (-1725734743489383) @ (-47), (-3287202728281269) @ (-48), (-6771034946149301) @ (-49)));
  (189%N, ((-3695707134388909) @ (-48), (-5298035282899563) @ (-49), (-798193886911877) @ (-46), (-6238477401306399) @ (-49)));
  (190%N, ((-3138539726455591) @ (-48), (-3133834756504569) @ (-48), (-238379262651975) @ (-44), (-2894875919123307) @ (-48)));
  (191%N, ((-4396920252303923) @ (-49), (-1592576856228499) @ (-47), (-5737836625950395) @ (-49), (-5120961494276887) @ (-49)));
  (193%N, ((-2959866399042289) @ (-48), (-1508936377477061) @ (-47), (-7469555837767757) @ (-50), (-6366850366627415) @ (-49)));
  (195%N, (#, #, #, (-8395033373076123) @ (-49)));
  (196%N, ((-5664840519929071) @ (-49), (-5795433882681303) @ (-49), (-727651442547653) @ (-46), (-5790853501912131) @ (-49)));
  (197%N, ((-7654324845498021) @ (-49), #, #, (-8064138897447807) @ (-49)));
  (198%N, (#, (-3817185134677383) @ (-48), #, (-302852298247679) @ (-44)));
  (199%N, (#, #, #, (-70881326618687) @ (-42)));
  (201%N, ((-716785609930865) @ (-46), (-4829706655792803) @ (-49), (-72745521631843) @ (-43), (-691938372010433) @ (-46)));
  (202%N, ((-5728998925554339) @ (-49), (-2629499301632505) @ (-48), (-5005394030828347) @ (-49), (-2910140350474603) @ (-48)));
  (203%N, (#, #, #, (-4650533185457697) @ (-48)));
  (204%N, ((-3257349612733795) @ (-48), (-5447312890527709) @ (-49), (-5480927234495443) @ (-49), (-6897440390483705) @ (-49)));
  (208%N, (#, #, (-4684119305002281) @ (-48), (-4297911758076491) @ (-48)));
  (209%N, (#, #, #, (-4650533185457697) @ (-48)));
  (210%N, (#, #, #, (-4170689255897351) @ (-48)));
  (211%N, ((-609902861438431) @ (-45), (-6440768010410019) @ (-49), (-6844532532160723) @ (-49), (-7183698940977469) @ (-49)));
  (212%N, ((-7725679712283649) @ (-49), (-8871297742822353) @ (-49), #, (-4170689255897351) @ (-48)));
  (213%N, ((-3465391127304793) @ (-49), (-3357698899254671) @ (-49), (-6428361749706135) @ (-50), (-8057318934209483) @ (-50)));
  (214%N, (#, #, #, (-8395033373076123) @ (-49)));
  (215%N, ((-6850929759563609) @ (-49), (-6425952682918579) @ (-49), (-7350896790516305) @ (-49), (-6774188735649479) @ (-49)));
  (217%N, (#, #, #, (-302852298247679) @ (-44)));
  (218%N, (#, #, #, (-7332707602050573) @ (-49)));
  (219%N, ((-5665623482438345) @ (-49), (-5772071611100349) @ (-49), (-4661278440636031) @ (-49), (-5733252655234275) @ (-49)));
  (221%N, (#, #, #, (-70881326618687) @ (-42)));
  (222%N, (#, (-8871297742822353) @ (-49), (-3414425230460409) @ (-48), (-4650533185457697) @ (-48)));
  (223%N, (#, #, #, (-7628871685880939) @ (-49)));
  (224%N, ((-571248877892569) @ (-45), (-1796212599740603) @ (-47), (-1998329865051197) @ (-47), (-7386362463331995) @ (-49)));
  (225%N, ((-2874768523079739) @ (-48), (-6105718903722261) @ (-49), (-1387471216444353) @ (-47), (-2661139540406809) @ (-48)));
  (226%N, ((-8881946559264169) @ (-50), (-4375103777730309) @ (-49), (-4385195096993203) @ (-49), (-5059973847865675) @ (-49)));
  (227%N, ((-6901376920123951) @ (-49), (-6463748750323761) @ (-49), (-5892119909386307) @ (-49), (-1601641777818541) @ (-47)));
  (228%N, (#, #, #, (-8395033373076123) @ (-49)));
  (229%N, ((-2556659405849221) @ (-48), (-5464274427074725) @ (-49), (-5254271968464759) @ (-49), (-2487200095291685) @ (-48)));
  (230%N, (#, #, #, (-3517497412055821) @ (-48)));
  (231%N, (#, #, #, (-3870118839437027) @ (-48)));
  (232%N, ((-4155489912147069) @ (-49), (-4968127573436995) @ (-49), (-1176297056599789) @ (-47), (-5218922050284141) @ (-49)));
  (233%N, (#, #, #, (-70881326618687) @ (-42)));
  (234%N, ((-5308285390597545) @ (-49), (-1329016812506611) @ (-47), (-624278687651413) @ (-46), (-5420854080067771) @ (-49)));
  (235%N, (#, #, (-546860929579423) @ (-45), (-7835882333724349) @ (-49)));
  (236%N, (#, #, #, (-4650533185457697) @ (-48)));
  (237%N, (#, #, #, (-1994339944854797) @ (-47)));
  (238%N, ((-7435075673190267) @ (-49), (-3760701355345663) @ (-48), (-4426206392587813) @ (-48), (-8205616343142647) @ (-49)));
  (239%N, ((-1865749067223629) @ (-47), (-8090883396801683) @ (-49), (-8100873996841253) @ (-49), (-3582197954329907) @ (-48)));
  (240%N, ((-4911164438655593) @ (-49), (-2280182384812587) @ (-48), (-5403046287345071) @ (-49), (-2823556929748297) @ (-48)));
  (241%N, ((-3912641423100301) @ (-48), (-7015906532620973) @ (-49), (-3903704958981611) @ (-48), (-8395033373076123) @ (-49)));
  (242%N, (#, #, #, (-976926146266539) @ (-46)));
  (243%N, ((-856769480328013) @ (-46), (-5472278589688291) @ (-49), (-703698177110831) @ (-46), (-6951095251765127) @ (-49)));
  (244%N, (#, #, #, (-70881326618687) @ (-42)));
  (245%N, ((-1865749067223629) @ (-47), (-718430702412409) @ (-46), (-6068909278492185) @ (-49), (-1615014347841613) @ (-47)));
  (246%N, (#, #, #, (-7835882333724349) @ (-49)));
  (247%N, ((-2078626915425975) @ (-47), #, #, (-7835882333724349) @ (-49)));
  (248%N, ((-6502441666025359) @ (-49), #, #, (-239810366388671) @ (-44)));
  (249%N, (#, #, #, (-302852298247679) @ (-44)));
  (250%N, ((-609902861438431) @ (-45), (-3760701355345663) @ (-48), (-4260759154773655) @ (-48), (-1930728693765227) @ (-47)));
  (251%N, ((-6992866943914805) @ (-49), (-6669024574133477) @ (-49), (-6083532177352997) @ (-49), (-6220451850063225) @ (-49)));
  (252%N, ((-6289994408247607) @ (-49), (-195523065702511) @ (-44), (-5895645703500781) @ (-49), (-730957498048045) @ (-46)));
  (253%N, ((-6154486795310231) @ (-49), (-852288435721829) @ (-47), (-622243116431537) @ (-46), (-6049409379414741) @ (-49)));
  (254%N, ((-6819646714444379) @ (-49), (-428372245208381) @ (-45), (-7667890561037021) @ (-49), (-1678560966329195) @ (-47)))].

(** prob_emit.py, characters 0x6d00 to 0x6dff *)
Definition emit_6d : list (N * num4) := [
  (0%N, (#, #, #, (-8166776809352665) @ (-49)));
  (1%N, ((-3000500879192639) @ (-48), (-4821189852602849) @ (-49), (-4945851011214947) @ (-49), (-3188064985789221) @ (-48)));
  (2%N, (#, #, #, (-4650533185457697) @ (-48)));
  (3%N, (#, #, #, (-8166776809352665) @ (-49)));
  (4%N, ((-3543643231182759) @ (-48), (-7244163096344431) @ (-49), #, (-6531363337886707) @ (-49)));
  (5%N, (#, #, #, (-8910859197905059) @ (-49)));
  (7%N, (#, (-8871297742822353) @ (-49), #, (-2061833855653683) @ (-47)));
  (8%N, (#, #, #, (-8395033373076123) @ (-49)));
  (9%N, (#, #, #, (-70881326618687) @ (-42)));
  (10%N, (#, #, #, (-7926147221115621) @ (-49)));
  (11%N, ((-2516997627099697) @ (-48), (-8104392120716287) @ (-50), (-8580557348900713) @ (-50), (-2763063577401913) @ (-48)));
  (12%N, (#, (-8252834006088559) @ (-49), (-4426206392587813) @ (-48), (-6951095251765127) @ (-49)));
  (13%N, (#, #, #, (-4650533185457697) @ (-48)));
  (14%N, (#, #, (-4426206392587813) @ (-48), (-70881326618687) @ (-42)));
  (15%N, (#, #, #, (-3870118839437027) @ (-48)));
  (17%N, (#, #, #, (-8166776809352665) @ (-49)));
  (18%N, ((-6386960232334713) @ (-49), (-3172210053778219) @ (-48), (-2988669534055717) @ (-48), (-5785912905031845) @ (-49)));
  (19%N, (#, #, #, (-6796774284284499) @ (-49)));
  (21%N, (#, #, #, (-302852298247679) @ (-44)));
  (22%N, (#, #, #, (-208289400459167) @ (-44)));
  (23%N, ((-5084406537889293) @ (-49), (-3036770788656713) @ (-48), (-5571670805200017) @ (-49), (-2573702801679663) @ (-48)));
  (24%N, (#, #, #, (-70881326618687) @ (-42)));
  (25%N, (#, (-4240545284906009) @ (-48), (-3761685067605859) @ (-48), (-8395033373076123) @ (-49)));
  (26%N, (#, #, #, (-302852298247679) @ (-44)));
  (27%N, ((-4903828154442521) @ (-49), (-4149532499966507) @ (-49), (-2569044651602843) @ (-48), (-5770281887793721) @ (-49)));
  (28%N, (#, #, #, (-7121773942140261) @ (-49)));
  (30%N, ((-4880042185688199) @ (-49), (-335940044921433) @ (-45), (-2354879636859243) @ (-48), (-1177906178571753) @ (-47)));
  (31%N, (#, #, #, (-405138068737789) @ (-45)));
  (33%N, (#, #, #, (-4650533185457697) @ (-48)));
  (35%N, (#, #, #, (-271331332318175) @ (-44)));
  (36%N, (#, #, #, (-4650533185457697) @ (-48)));
  (37%N, ((-2750517363716291) @ (-48), (-8864504029723601) @ (-50), (-1196330050199435) @ (-47), (-5423718971509959) @ (-49)));
  (38%N, (#, #, #, (-239810366388671) @ (-44)));
  (39%N, ((-609902861438431) @ (-45), (-8871297742822353) @ (-49), (-8359567700260433) @ (-49), (-8166776809352665) @ (-49)));
  (40%N, (#, #, #, (-2130163006223681) @ (-47)));
  (41%N, ((-5664840519929071) @ (-49), (-5795433882681303) @ (-49), (-727651442547653) @ (-46), (-5790853501912131) @ (-49)));
  (42%N, ((-8490699146735179) @ (-50), (-2075151041535607) @ (-48), (-1286143120931955) @ (-47), (-5455322152072575) @ (-49)));
  (43%N, (#, #, (-8131311136536975) @ (-49), (-8910859197905059) @ (-49)));
  (45%N, (#, #, #, (-4650533185457697) @ (-48)));
  (46%N, ((-3638841694013343) @ (-48), (-3638170211376633) @ (-48), (-1845768529231285) @ (-47), (-3634150150092073) @ (-48)));
  (47%N, (#, #, #, (-70881326618687) @ (-42)));
  (48%N, (#, #, #, (-7060704769219635) @ (-49)));
  (49%N, ((-7250871180066637) @ (-49), (-3278540746232549) @ (-48), (-7556172614326021) @ (-49), (-2001206550016447) @ (-47)));
  (50%N, ((-6687373015225979) @ (-49), (-2134278403246167) @ (-48), (-3896796208727889) @ (-49), (-5160568382015529) @ (-49)));
  (51%N, (#, (-4240545284906009) @ (-48), (-4426206392587813) @ (-48), (-1877995278787649) @ (-47)));
  (52%N, (#, #, #, (-4227173035229071) @ (-48)));
  (53%N, (#, (-3887923857524803) @ (-48), (-1795778112687613) @ (-47), (-7926147221115621) @ (-49)));
  (54%N, ((-193410650259593) @ (-44), (-5809931249162639) @ (-49), (-1665953796659243) @ (-47), (-8292395461171265) @ (-49)));
  (55%N, (#, #, #, (-302852298247679) @ (-44)));
  (56%N, (#, #, #, (-3702723670134365) @ (-48)));
  (57%N, (#, #, (-4426206392587813) @ (-48), (-6810099165615153) @ (-49)));
  (58%N, (#, #, (-609902861438431) @ (-45), (-6156780200636857) @ (-49)));
  (59%N, ((-3803009598566099) @ (-49), (-4537181967743719) @ (-49), (-3807482215573753) @ (-49), (-1157982878086477) @ (-47)));
  (60%N, ((-3059164955844933) @ (-48), (-3181861569937047) @ (-48), (-1606223371873941) @ (-47), (-6859388750389055) @ (-49)));
  (61%N, ((-3301329885452235) @ (-48), (-7082212487057555) @ (-49), (-6432490768163449) @ (-49), (-7025030848007957) @ (-49)));
  (62%N, ((-4819818016697559) @ (-49), (-5250780209810865) @ (-49), (-8503150632533215) @ (-50), (-8132449957317963) @ (-50)));
  (63%N, (#, #, #, (-6578481696664725) @ (-49)));
  (65%N, ((-3804889232877999) @ (-49), (-7841526929395887) @ (-50), (-1945930007325577) @ (-48), (-4531703014640513) @ (-49)));
  (66%N, (#, #, #, (-2130163006223681) @ (-47)));
  (67%N, (#, (-6646945275490687) @ (-49), #, (-3267743765907651) @ (-48)));
  (68%N, (#, #, #, (-4048158111928321) @ (-48)));
  (69%N, ((-2661719301642245) @ (-48), (-5769787835337713) @ (-49), (-5987656093947163) @ (-49), (-651620606541177) @ (-46)));
  (70%N, ((-6338330017795169) @ (-49), (-6307692958809439) @ (-49), (-1383229922059929) @ (-47), (-5703680685039981) @ (-49)));
  (71%N, ((-6188148825753519) @ (-49), (-3125675490238271) @ (-48), (-4081744231472905) @ (-48), (-1521362620456101) @ (-47)));
  (72%N, (#, (-8871297742822353) @ (-49), (-8359567700260433) @ (-49), (-8205616343142647) @ (-49)));
  (73%N, (#, #, #, (-6901390932685021) @ (-49)));
  (74%N, ((-6729832818427855) @ (-49), (-1623981519183149) @ (-47), (-791327281750227) @ (-46), (-6408215574980407) @ (-49)));
  (75%N, ((-4605033598004077) @ (-49), (-4924843003652877) @ (-49), (-4552001543920969) @ (-49), (-2694727598825955) @ (-48)));
  (76%N, (#, #, #, (-302852298247679) @ (-44)));
  (77%N, (#, #, (-609902861438431) @ (-45), (-1969801887061797) @ (-47)));
  (78%N, ((-5357287319172507) @ (-49), (-3526727553600401) @ (-49), (-7144931558946071) @ (-50), (-5400370710804041) @ (-49)));
  (79%N, ((-5547021593382297) @ (-49), (-7575057571972747) @ (-49), (-4081744231472905) @ (-48), (-3767970024052643) @ (-48)));
  (80%N, (#, #, #, (-1652074660613093) @ (-47)));
  (81%N, ((-5266670147693755) @ (-49), (-6301798141036885) @ (-49), (-198690146082763) @ (-44), (-5906092384552723) @ (-49)));
  (82%N, ((-4260759154773655) @ (-48), (-5951059145045925) @ (-49), (-6873910499477351) @ (-49), (-3879055303555717) @ (-48)));
  (83%N, ((-4847245199634949) @ (-49), (-718430702412409) @ (-46), (-7022614616343179) @ (-49), (-2722543208195801) @ (-48)));
  (84%N, ((-1998329865051197) @ (-47), (-491414177067389) @ (-45), (-3903704958981611) @ (-48), (-7139646870377641) @ (-49)));
  (85%N, (#, #, #, (-302852298247679) @ (-44)));
  (87%N, (#, #, #, (-6683806725621059) @ (-49)));
  (88%N, (#, #, #, (-3582197954329907) @ (-48)));
  (89%N, ((-2499982092651193) @ (-48), (-48594280744979) @ (-42), (-1588852580761685) @ (-47), (-1495897129400131) @ (-47)));
  (90%N, ((-7667890561037021) @ (-49), (-3312849679805319) @ (-48), (-1544094852127073) @ (-47), (-409385306142705) @ (-45)));
  (91%N, (#, (-3817185134677383) @ (-48), (-609902861438431) @ (-45), (-4170689255897351) @ (-48)));
  (92%N, ((-7862826752368233) @ (-49), (-8871297742822353) @ (-49), (-7654324845498021) @ (-49), (-4701820056127909) @ (-49)));
  (94%N, (#, #, (-8197617090973557) @ (-49), (-7170756992763697) @ (-49)));
  (96%N, ((-6009596581110167) @ (-49), (-7157383978315813) @ (-49), (-8197617090973557) @ (-49), (-4945052904246307) @ (-49)));
  (97%N, (#, (-8871297742822353) @ (-49), #, (-7367903434101099) @ (-49)));
  (99%N, ((-7924300488693565) @ (-49), (-4240545284906009) @ (-48), (-4331497877621075) @ (-48), (-5283135807104725) @ (-49)));
  (101%N, (#, #, #, (-70881326618687) @ (-42)));
  (102%N, ((-5978021018471535) @ (-49), (-4957259476179761) @ (-49), (-349495186715827) @ (-45), (-6408215574980407) @ (-49)));
  (105%N, ((-5623372988239677) @ (-49), (-2198974497397611) @ (-48), (-5615433818853241) @ (-49), (-5830836321829809) @ (-49)));
  (106%N, ((-5159358831272615) @ (-49), (-5014423507008955) @ (-49), (-5208283926477931) @ (-49), (-2858289351276933) @ (-48)));
  (108%N, (#, #, #, (-4650533185457697) @ (-48)));
  (110%N, ((-1244862034123363) @ (-47), (-5671726777532731) @ (-49), (-5742757157465721) @ (-49), (-350972114304277) @ (-45)));
  (111%N, ((-4684119305002281) @ (-48), (-4240545284906009) @ (-48), (-609902861438431) @ (-45), (-7643494584741751) @ (-49)));
  (112%N, (#, #, #, (-70881326618687) @ (-42)));
  (113%N, (#, #, #, (-302852298247679) @ (-44)));
  (116%N, ((-6081888526686321) @ (-49), (-1617905576147995) @ (-47), (-6020527991638953) @ (-49), (-6366850366627415) @ (-49)));
  (119%N, ((-3536187323338817) @ (-49), (-6443106650592923) @ (-50), (-920002451041085) @ (-47), (-4524854461806803) @ (-49)));
  (120%N, ((-5719435066981753) @ (-49), (-3478296917619477) @ (-48), (-6289994408247607) @ (-49), (-3059993174511969) @ (-48)));
  (121%N, (#, (-6646945275490687) @ (-49), #, (-3267743765907651) @ (-48)));
  (124%N, (#, #, #, (-5832021480064217) @ (-49)));
  (130%N, ((-2701277528494027) @ (-48), (-680433776726159) @ (-46), (-2714342523180205) @ (-48), (-5593769719875287) @ (-49)));
  (133%N, ((-7298665317991735) @ (-49), (-1328762544165803) @ (-47), (-3350997957043395) @ (-48), (-6045928997674321) @ (-49)));
  (135%N, ((-6819646714444379) @ (-49), (-428372245208381) @ (-45), (-7667890561037021) @ (-49), (-1678560966329195) @ (-47)));
  (136%N, ((-7712486958321719) @ (-50), (-2617347415562197) @ (-48), (-5103852349603681) @ (-49), (-5512848614679625) @ (-49)));
  (137%N, ((-616880946468787) @ (-46), (-5944804081210427) @ (-49), (-5120859422833013) @ (-49), (-5923965312790103) @ (-49)));
  (140%N, ((-164948817368151) @ (-44), (-5795433882681303) @ (-49), (-5641844131867187) @ (-49), (-669231253848857) @ (-46)));
  (142%N, ((-3761685067605859) @ (-48), (-6463748750323761) @ (-49), (-3667736269636657) @ (-48), (-3396745883983567) @ (-48)));
  (145%N, ((-8100873996841253) @ (-49), #, #, (-1713019402318041) @ (-47)));
  (146%N, (#, #, #, (-8130444851884389) @ (-49)));
  (147%N, ((-7350896790516305) @ (-49), (-4240545284906009) @ (-48), (-3577408776600841) @ (-48), (-4360436615796429) @ (-49)));
  (148%N, (#, (-1796212599740603) @ (-47), (-1998329865051197) @ (-47), (-1290683047438385) @ (-47)));
  (149%N, ((-1814363866276635) @ (-47), (-6131119450661751) @ (-49), (-6340924261802893) @ (-49), (-7170756992763697) @ (-49)));
  (150%N, (#, #, #, (-225115232174701) @ (-44)));
  (151%N, (#, #, #, (-3223763493189211) @ (-48)));
  (152%N, (#, #, #, (-6007378675271857) @ (-49)));
  (153%N, (#, #, #, (-6527269138361157) @ (-49)));
  (154%N, (#, #, #, (-6644787651101307) @ (-49)));
  (155%N, ((-7579153354239763) @ (-49), (-2916201150721135) @ (-48), (-2460131408882091) @ (-48), (-6213400192681475) @ (-49)));
  (156%N, (#, #, #, (-850842282548523) @ (-46)));
  (157%N, ((-7567545727469403) @ (-49), (-7131195537680991) @ (-49), (-6222897238004853) @ (-49), (-6813480256580097) @ (-49)));
  (158%N, ((-3855333411915459) @ (-48), (-3887923857524803) @ (-48), (-8978031436994227) @ (-49), (-6539642162874743) @ (-49)));
  (159%N, ((-1758965277191057) @ (-47), (-7427359621511357) @ (-49), (-7667890561037021) @ (-49), (-3171413761909075) @ (-48)));
  (160%N, (#, #, #, (-7386362463331995) @ (-49)));
  (161%N, ((-5987656093947163) @ (-49), (-3982632372491541) @ (-48), (-1580438179295035) @ (-47), (-6683806725621059) @ (-49)));
  (162%N, (#, #, #, (-1636483042981505) @ (-47)));
  (163%N, ((-3486270816616625) @ (-48), (-3518576224250511) @ (-48), (-8359567700260433) @ (-49), (-850842282548523) @ (-46)));
  (164%N, ((-3543643231182759) @ (-48), (-5926445390622239) @ (-49), (-6271305556619797) @ (-49), (-1749038822580415) @ (-47)));
  (166%N, ((-1496567379251555) @ (-47), (-4511736389010899) @ (-49), (-4643023203417287) @ (-49), (-5507157130454131) @ (-49)));
  (167%N, ((-4204275375441935) @ (-48), (-3383588402652739) @ (-48), (-1625178042930149) @ (-47), (-1608384983157857) @ (-47)));
  (168%N, ((-5445389469427999) @ (-49), (-3125675490238271) @ (-48), (-5131528218503709) @ (-49), (-5387566554771453) @ (-49)));
  (169%N, ((-8018343577873535) @ (-49), (-7015906532620973) @ (-49), (-3045077597186117) @ (-48), (-3221120516242921) @ (-48)));
  (170%N, ((-6748291847658751) @ (-49), #, (-609902861438431) @ (-45), (-1828975469458993) @ (-47)));
  (171%N, (#, (-4240545284906009) @ (-48), (-4684119305002281) @ (-48), (-3670651212387731) @ (-48)));
  (172%N, (#, #, #, (-302852298247679) @ (-44)));
  (174%N, ((-3984680263625049) @ (-48), (-491414177067389) @ (-45), (-3801556143597227) @ (-48), (-3510057111638175) @ (-48)));
  (175%N, (#, (-6089400371189665) @ (-49), (-343906177335593) @ (-45), (-1744424065272691) @ (-47)));
  (178%N, ((-1292453852626623) @ (-47), (-3038732294690165) @ (-48), (-1191552679985667) @ (-47), (-1378549047878307) @ (-47)));
  (179%N, (#, #, #, (-6800076053007037) @ (-49)));
  (180%N, (#, #, #, (-302852298247679) @ (-44)));
  (181%N, ((-2933458767102377) @ (-48), (-6538920241582019) @ (-49), (-5481774412914801) @ (-49), (-50275542397939) @ (-42)));
  (182%N, (#, #, #, (-302852298247679) @ (-44)));
  (184%N, ((-4426206392587813) @ (-48), #, (-6775758268305351) @ (-49), (-7139646870377641) @ (-49)));
  (188%N, ((-2729939962528593) @ (-48), (-5174589804331605) @ (-49), (-1312909239714213) @ (-47), (-1382569170461915) @ (-47)));
  (189%N, (#, #, #, (-4650533185457697) @ (-48)));
  (191%N, ((-3325069808243375) @ (-48), #, #, (-7060704769219635) @ (-49)));
  (192%N, ((-784345347895847) @ (-46), (-5667910153060101) @ (-49), (-5967207721721569) @ (-49), (-7005616856795013) @ (-49)));
  (194%N, (#, #, #, (-302852298247679) @ (-44)));
  (196%N, ((-3288188631134095) @ (-48), (-3760701355345663) @ (-48), (-7040346789497085) @ (-49), (-7386362463331995) @ (-49)));
  (197%N, ((-454428729292475) @ (-45), (-1688482578221107) @ (-47), (-2011133004627089) @ (-47), (-7386362463331995) @ (-49)));
  (198%N, ((-2146956065995973) @ (-47), (-6838531672091105) @ (-49), (-6468822725631725) @ (-49), (-8292395461171265) @ (-49)));
  (199%N, ((-1986594946834089) @ (-47), (-195523065702511) @ (-44), (-1684417458824617) @ (-47), (-6275053641683009) @ (-49)));
  (201%N, (#, #, #, (-8910859197905059) @ (-49)));
  (203%N, ((-354793803707289) @ (-45), (-1302216727301013) @ (-47), (-768961624160155) @ (-46), (-6226396466584401) @ (-49)));
  (204%N, (#, (-3887923857524803) @ (-48), (-828507539730495) @ (-46), (-6324036692306445) @ (-49)));
  (207%N, (#, #, #, (-70881326618687) @ (-42)));
  (209%N, ((-424016655625409) @ (-45), (-2290749096333535) @ (-48), (-6764610380191347) @ (-49), (-1412313385656301) @ (-47)));
  (210%N, ((-1412637185387191) @ (-47), (-7131195537680991) @ (-49), (-8100873996841253) @ (-49), (-4650533185457697) @ (-48)));
  (214%N, ((-609902861438431) @ (-45), (-6823518783638375) @ (-49), (-7567545727469403) @ (-49), (-6335525865640615) @ (-49)));
  (216%N, ((-5653608259695913) @ (-49), (-6538920241582019) @ (-49), (-3921870937715749) @ (-48), (-3126036450884633) @ (-48)));
  (217%N, ((-1631807407613905) @ (-47), (-3760701355345663) @ (-48), (-6493846843300471) @ (-49), (-3510057111638175) @ (-48)));
  (218%N, ((-5308285390597545) @ (-49), (-1329016812506611) @ (-47), (-624278687651413) @ (-46), (-5420854080067771) @ (-49)));
  (219%N, (#, #, #, (-8910859197905059) @ (-49)));
  (220%N, (#, #, #, (-302852298247679) @ (-44)));
  (221%N, ((-8131311136536975) @ (-49), #, #, (-869977916606673) @ (-46)));
  (222%N, (#, (-2779640839130157) @ (-48), (-3538790094118157) @ (-48), (-6662660579338687) @ (-49)));
  (224%N, ((-8272788582231815) @ (-49), #, #, (-1848956007451337) @ (-47)));
  (225%N, ((-4892702101058409) @ (-49), (-618655489581475) @ (-46), (-1348809395053815) @ (-47), (-349562077316113) @ (-45)));
  (228%N, ((-5839584498217805) @ (-49), (-7575057571972747) @ (-49), (-7667890561037021) @ (-49), (-6311385599151285) @ (-49)));
  (229%N, (#, (-3736209830033945) @ (-48), (-8197617090973557) @ (-49), (-6786983603534937) @ (-49)));
  (230%N, (#, (-6703857329774499) @ (-49), (-7313100723111123) @ (-49), (-7183698940977469) @ (-49)));
  (232%N, ((-681943429562399) @ (-46), (-5099121476813677) @ (-49), (-1274347666788979) @ (-47), (-5426021428516799) @ (-49)));
  (234%N, ((-5592610770010893) @ (-49), (-3982632372491541) @ (-48), (-1794334638614767) @ (-47), (-6897440390483705) @ (-49)));
  (235%N, ((-3078178531328229) @ (-48), (-6301798141036885) @ (-49), (-3132227077079631) @ (-48), (-1542941136025743) @ (-47)));
  (236%N, ((-1765831882352707) @ (-47), #, (-8978031436994227) @ (-49), (-6934034856678315) @ (-49)));
  (238%N, ((-5285894697116859) @ (-49), (-1399558307686501) @ (-47), (-361273658207691) @ (-45), (-353293377623263) @ (-45)));
  (239%N, (#, #, #, (-1848956007451337) @ (-47)));
  (241%N, ((-7746209104947685) @ (-50), (-4789952499618981) @ (-49), (-4631360982266491) @ (-49), (-1117768169147815) @ (-47)));
  (243%N, ((-6329343168624479) @ (-49), (-5812384194017135) @ (-49), (-5519464513269615) @ (-49), (-809573615059843) @ (-46)));
  (245%N, ((-6044582917424197) @ (-49), (-319438605767389) @ (-45), (-5588496622929279) @ (-49), (-302852298247679) @ (-44)));
  (246%N, ((-3855333411915459) @ (-48), (-3887923857524803) @ (-48), (-8978031436994227) @ (-49), (-6539642162874743) @ (-49)));
  (247%N, ((-142742878035111) @ (-44), (-5993504455476721) @ (-49), (-1588852580761685) @ (-47), (-2603339616384287) @ (-48)));
  (248%N, (#, #, #, (-8130444851884389) @ (-49)));
  (249%N, ((-6022739978584783) @ (-49), (-7575057571972747) @ (-49), (-6880652495669265) @ (-49), (-1637011139242251) @ (-47)));
  (250%N, ((-2661719301642245) @ (-48), (-5769787835337713) @ (-49), (-5987656093947163) @ (-49), (-651620606541177) @ (-46)));
  (251%N, ((-5289297427195325) @ (-49), (-5545342727970905) @ (-49), (-5556945904173059) @ (-49), (-5614343617108717) @ (-49)));
  (252%N, ((-4260759154773655) @ (-48), (-1578412539191041) @ (-47), (-1630008820983823) @ (-47), (-6881909751646441) @ (-49)));
  (254%N, (#, #, #, (-70881326618687) @ (-42)));
  (255%N, (#, #, #, (-302852298247679) @ (-44)))].

(** prob_emit.py, characters 0x6e00 to 0x6eff *)
Definition emit_6e : list (N * num4) := [
  (2%N, (#, #, #, (-302852298247679) @ (-44)));
  (5%N, ((-7355813724854989) @ (-50), (-1930405416615765) @ (-48), (-8396332134000449) @ (-50), (-2095333153762253) @ (-48)));
  (6%N, (#, #, #, (-2061833855653683) @ (-47)));
  (8%N, (#, #, #, (-3688528646784237) @ (-48)));
  (10%N, ((-6044582917424197) @ (-49), (-319438605767389) @ (-45), (-5588496622929279) @ (-49), (-6301738729860781) @ (-49)));
  (12%N, (#, (-3736209830033945) @ (-48), (-8197617090973557) @ (-49), (-6786983603534937) @ (-49)));
  (13%N, ((-8462205612165291) @ (-49), (-6886133249742931) @ (-49), (-6694636986377329) @ (-49), (-6881909751646441) @ (-49)));
  (14%N, ((-3582982720657843) @ (-48), (-4240545284906009) @ (-48), (-6813593430814783) @ (-49), (-1648585122635241) @ (-47)));
  (16%N, ((-5049515188276545) @ (-49), (-3005360696119749) @ (-48), (-4459331478641423) @ (-49), (-311135142822389) @ (-45)));
  (17%N, ((-7615485311708039) @ (-49), #, #, (-7926147221115621) @ (-49)));
  (20%N, ((-2489087966333723) @ (-48), (-629304190984197) @ (-46), (-6810591023946373) @ (-49), (-185343546668175) @ (-44)));
  (21%N, (#, #, #, (-302852298247679) @ (-44)));
  (22%N, (#, #, #, (-7614619027055453) @ (-49)));
  (23%N, ((-2723756404908859) @ (-48), (-6794643225952077) @ (-49), (-6778580078491437) @ (-49), (-6335525865640615) @ (-49)));
  (24%N, (#, #, #, (-3951094144080465) @ (-48)));
  (25%N, ((-3486270816616625) @ (-48), (-3518576224250511) @ (-48), (-8359567700260433) @ (-49), (-850842282548523) @ (-46)));
  (26%N, ((-609902861438431) @ (-45), (-6886133249742931) @ (-49), (-7284590836079723) @ (-49), (-3204934439998351) @ (-48)));
  (27%N, ((-4369500849944615) @ (-49), (-6028481538756893) @ (-49), (-2697013597492827) @ (-48), (-302852298247679) @ (-44)));
  (29%N, ((-3912641423100301) @ (-48), (-1323771330015349) @ (-47), (-3359775170817407) @ (-48), (-2908114300763567) @ (-48)));
  (30%N, (#, #, #, (-4650533185457697) @ (-48)));
  (31%N, (#, (-8871297742822353) @ (-49), #, (-70881326618687) @ (-42)));
  (32%N, ((-5476430356237927) @ (-49), (-2934621973272329) @ (-48), (-2879352907425679) @ (-48), (-5840990601598641) @ (-49)));
  (33%N, ((-5240481707058933) @ (-49), (-5284399150204499) @ (-49), (-2486844209109199) @ (-48), (-5387566554771453) @ (-49)));
  (34%N, (#, #, #, (-8910859197905059) @ (-49)));
  (35%N, ((-6964612629572873) @ (-49), (-3478296917619477) @ (-48), (-6478699293932513) @ (-49), (-6303106774163249) @ (-49)));
  (36%N, ((-6019792589896983) @ (-49), (-1673001328511805) @ (-47), (-4204275375441935) @ (-48), (-6622611700393137) @ (-49)));
  (37%N, ((-7117451711230829) @ (-49), (-8871297742822353) @ (-49), (-4204275375441935) @ (-48), (-1667624399052325) @ (-47)));
  (38%N, ((-5987656093947163) @ (-49), (-3982632372491541) @ (-48), (-1580438179295035) @ (-47), (-6683806725621059) @ (-49)));
  (41%N, ((-4263944809885547) @ (-49), (-2485990762300245) @ (-48), (-2320177142834623) @ (-48), (-1305883078112563) @ (-47)));
  (43%N, (#, #, #, (-1994339944854797) @ (-47)));
  (44%N, ((-4605033598004077) @ (-49), (-4924843003652877) @ (-49), (-4552001543920969) @ (-49), (-8910859197905059) @ (-49)));
  (45%N, ((-6235692105890311) @ (-49), (-5853158567858187) @ (-49), (-6867248292096205) @ (-49), (-6697438141102179) @ (-49)));
  (46%N, (#, #, #, (-8910859197905059) @ (-49)));
  (47%N, ((-2460131408882091) @ (-48), (-2361113373156365) @ (-48), (-8853134316904999) @ (-50), (-2429058008066511) @ (-48)));
  (48%N, (#, #, #, (-8130444851884389) @ (-49)));
  (50%N, ((-1634549133704593) @ (-47), (-8090883396801683) @ (-49), (-571248877892569) @ (-45), (-6913411673111127) @ (-49)));
  (51%N, (#, #, #, (-4650533185457697) @ (-48)));
  (52%N, ((-2859286814238183) @ (-48), (-7427359621511357) @ (-49), (-6162952367672155) @ (-49), (-6186045015974259) @ (-49)));
  (54%N, (#, #, #, (-6722838688041669) @ (-49)));
  (55%N, (#, #, #, (-2061833855653683) @ (-47)));
  (56%N, ((-4084641766533811) @ (-49), (-7736610193720781) @ (-50), (-8062661251797247) @ (-50), (-4685642671437609) @ (-49)));
  (57%N, (#, #, #, (-4650533185457697) @ (-48)));
  (58%N, ((-3243532115846993) @ (-48), (-7427359621511357) @ (-49), (-3486270816616625) @ (-48), (-3549396601113259) @ (-48)));
  (60%N, (#, #, #, (-4297911758076491) @ (-48)));
  (62%N, ((-5266670147693755) @ (-49), (-6301798141036885) @ (-49), (-198690146082763) @ (-44), (-5906092384552723) @ (-49)));
  (63%N, (#, #, #, (-8205616343142647) @ (-49)));
  (64%N, (#, #, #, (-1749038822580415) @ (-47)));
  (65%N, (#, #, #, (-2760833041683547) @ (-48)));
  (67%N, (#, (-8871297742822353) @ (-49), (-3223214859226429) @ (-48), (-3702723670134365) @ (-48)));
  (68%N, ((-6810591023946373) @ (-49), #, (-7924300488693565) @ (-49), (-7857128249604397) @ (-49)));
  (69%N, (#, #, #, (-1535546096063807) @ (-47)));
  (70%N, (#, #, #, (-302852298247679) @ (-44)));
  (71%N, (#, #, #, (-1828975469458993) @ (-47)));
  (72%N, (#, #, #, (-4650533185457697) @ (-48)));
  (73%N, (#, #, (-609902861438431) @ (-45), (-7658507473194481) @ (-49)));
  (74%N, ((-5862454082053899) @ (-49), (-3606862978324355) @ (-48), (-6402698104729783) @ (-49), (-5614746732022771) @ (-49)));
  (75%N, (#, #, #, (-302852298247679) @ (-44)));
  (76%N, (#, #, #, (-302852298247679) @ (-44)));
  (77%N, ((-1601766931317963) @ (-47), (-4240545284906009) @ (-48), (-1998329865051197) @ (-47), (-6702984490925865) @ (-49)));
  (78%N, (#, (-7310469050781013) @ (-49), (-7194840999001983) @ (-49), (-7332707602050573) @ (-49)));
  (80%N, (#, #, #, (-4650533185457697) @ (-48)));
  (81%N, (#, #, #, (-70881326618687) @ (-42)));
  (83%N, (#, #, #, (-943539134077359) @ (-46)));
  (84%N, (#, #, #, (-1969801887061797) @ (-47)));
  (85%N, (#, #, #, (-8205616343142647) @ (-49)));
  (86%N, ((-1736914350719159) @ (-48), (-8588631183994277) @ (-50), (-2021220991863923) @ (-48), (-8764455037660805) @ (-50)));
  (87%N, (#, #, #, (-3167038415105713) @ (-48)));
  (88%N, ((-81480526279463) @ (-43), (-314268401699543) @ (-45), (-5609729400660887) @ (-49), (-5054282898035859) @ (-49)));
  (91%N, ((-3210191925468019) @ (-48), (-5575185276940065) @ (-49), (-6135215232928767) @ (-49), (-7358896042685395) @ (-49)));
  (92%N, (#, #, #, (-7065990723112215) @ (-49)));
  (93%N, (#, #, #, (-7926147221115621) @ (-49)));
  (94%N, (#, (-8871297742822353) @ (-49), (-8359567700260433) @ (-49), (-8205616343142647) @ (-49)));
  (95%N, ((-7082412406347563) @ (-49), (-8871297742822353) @ (-49), (-2146956065995973) @ (-47), (-7145732875094951) @ (-49)));
  (96%N, (#, #, #, (-4650533185457697) @ (-48)));
  (97%N, (#, #, #, (-6309997312495983) @ (-49)));
  (98%N, (#, #, #, (-4650533185457697) @ (-48)));
  (99%N, (#, #, #, (-1994339944854797) @ (-47)));
  (101%N, (#, #, #, (-4650533185457697) @ (-48)));
  (102%N, (#, #, (-609902861438431) @ (-45), (-8910859197905059) @ (-49)));
  (103%N, ((-164948817368151) @ (-44), (-5795433882681303) @ (-49), (-5641844131867187) @ (-49), (-669231253848857) @ (-46)));
  (104%N, (#, #, #, (-4170689255897351) @ (-48)));
  (106%N, (#, #, #, (-1382916670609711) @ (-47)));
  (107%N, (#, (-3982632372491541) @ (-48), (-2078626915425975) @ (-47), (-3605255574468759) @ (-48)));
  (108%N, (#, #, #, (-70881326618687) @ (-42)));
  (109%N, (#, #, #, (-7500373488380235) @ (-49)));
  (110%N, ((-6933968332578247) @ (-49), (-8871297742822353) @ (-49), #, (-1828975469458993) @ (-47)));
  (111%N, ((-4969350108727407) @ (-49), (-5785972316207949) @ (-49), (-5578005517654273) @ (-49), (-4297911758076491) @ (-48)));
  (112%N, (#, #, #, (-3350102242753159) @ (-48)));
  (113%N, (#, #, #, (-302852298247679) @ (-44)));
  (114%N, (#, #, #, (-271331332318175) @ (-44)));
  (115%N, (#, #, #, (-7706109050846307) @ (-49)));
  (116%N, (#, #, #, (-2847389126532009) @ (-48)));
  (117%N, (#, #, #, (-3299477430128381) @ (-48)));
  (118%N, (#, #, #, (-3733460538297031) @ (-48)));
  (120%N, (#, #, #, (-4650533185457697) @ (-48)));
  (121%N, (#, #, #, (-7835882333724349) @ (-49)));
  (122%N, (#, #, #, (-302852298247679) @ (-44)));
  (123%N, (#, #, #, (-271331332318175) @ (-44)));
  (124%N, (#, #, #, (-4227173035229071) @ (-48)));
  (126%N, ((-3577408776600841) @ (-48), (-2174375052520557) @ (-48), (-8741355170451099) @ (-50), (-5403964314656713) @ (-49)));
  (127%N, ((-5103130711313065) @ (-49), (-5416064583611781) @ (-49), (-700774158904521) @ (-46), (-5403964314656713) @ (-49)));
  (128%N, (#, #, #, (-3288126094492297) @ (-48)));
  (130%N, (#, #, #, (-3229125083424967) @ (-48)));
  (131%N, ((-2915292788368239) @ (-48), (-3195267673917071) @ (-48), (-1434570543504379) @ (-47), (-6214569351883485) @ (-49)));
  (132%N, (#, #, #, (-2130163006223681) @ (-47)));
  (133%N, ((-8018343577873535) @ (-49), (-3887923857524803) @ (-48), (-6532686377090453) @ (-49), (-6079895009566879) @ (-49)));
  (134%N, ((-2146956065995973) @ (-47), (-3760701355345663) @ (-48), (-4684119305002281) @ (-48), (-7386362463331995) @ (-49)));
  (135%N, (#, #, #, (-4297911758076491) @ (-48)));
  (136%N, ((-546860929579423) @ (-45), #, #, (-271331332318175) @ (-44)));
  (137%N, (#, (-6869814717210335) @ (-49), (-5760094101506659) @ (-49), (-7614619027055453) @ (-49)));
  (141%N, (#, #, #, (-7425201997121977) @ (-49)));
  (142%N, (#, #, #, (-4650533185457697) @ (-48)));
  (143%N, (#, #, (-4426206392587813) @ (-48), (-3702723670134365) @ (-48)));
  (144%N, ((-1301507076612131) @ (-47), (-260402936891707) @ (-45), (-7640549519994381) @ (-50), (-1254692769596001) @ (-47)));
  (145%N, (#, #, #, (-302852298247679) @ (-44)));
  (146%N, (#, #, #, (-302852298247679) @ (-44)));
  (150%N, ((-2064517417083985) @ (-48), (-4769536456411897) @ (-49), (-2002637521324571) @ (-48), (-8205616343142647) @ (-49)));
  (152%N, ((-8978031436994227) @ (-49), #, #, (-271331332318175) @ (-44)));
  (154%N, (#, #, #, (-302852298247679) @ (-44)));
  (156%N, ((-1593600801795253) @ (-47), (-670342677775561) @ (-46), (-5955285983058713) @ (-49), (-1371317510359273) @ (-47)));
  (157%N, ((-5155546514535495) @ (-49), (-1419859635331521) @ (-47), (-5223259225417023) @ (-49), (-302852298247679) @ (-44)));
  (158%N, (#, #, #, (-4048158111928321) @ (-48)));
  (159%N, (#, (-8871297742822353) @ (-49), (-1910269588269243) @ (-47), (-7835882333724349) @ (-49)));
  (162%N, ((-6370279013252417) @ (-49), (-5687257416369995) @ (-49), (-6093496153456681) @ (-49), (-3252634147087553) @ (-48)));
  (165%N, ((-6434022605716583) @ (-49), (-6680397687276859) @ (-49), (-2950190688861737) @ (-48), (-3728098948061275) @ (-48)));
  (166%N, (#, #, (-609902861438431) @ (-45), #));
  (167%N, ((-3722114766328821) @ (-48), #, (-4684119305002281) @ (-48), (-3951094144080465) @ (-48)));
  (170%N, ((-1498484575923297) @ (-47), (-5121006926932823) @ (-49), (-2619321900781425) @ (-48), (-2819949587043375) @ (-48)));
  (171%N, ((-4263944809885547) @ (-49), (-2485990762300245) @ (-48), (-2320177142834623) @ (-48), (-1305883078112563) @ (-47)));
  (175%N, ((-7435075673190267) @ (-49), (-6566386662228619) @ (-49), (-2972770250510405) @ (-48), (-6452863044846125) @ (-49)));
  (177%N, (#, #, (-609902861438431) @ (-45), (-70881326618687) @ (-42)));
  (178%N, (#, #, #, (-7614619027055453) @ (-49)));
  (179%N, (#, #, #, (-1636483042981505) @ (-47)));
  (180%N, ((-7194840999001983) @ (-49), (-1925169055947837) @ (-47), #, (-3224650029281801) @ (-48)));
  (182%N, ((-2510565795365581) @ (-48), (-5278654713080207) @ (-49), (-3149788383235985) @ (-48), (-2941447583526881) @ (-48)));
  (183%N, ((-571248877892569) @ (-45), #, #, (-4170689255897351) @ (-48)));
  (184%N, (#, #, #, (-302852298247679) @ (-44)));
  (186%N, ((-3363622269110247) @ (-48), #, (-7133162962201383) @ (-49), (-6758593556834681) @ (-49)));
  (187%N, (#, #, #, (-302852298247679) @ (-44)));
  (189%N, ((-2078626915425975) @ (-47), #, #, (-4392620273043229) @ (-48)));
  (190%N, (#, #, #, (-1994339944854797) @ (-47)));
  (191%N, (#, #, #, (-1828975469458993) @ (-47)));
  (192%N, (#, #, #, (-6094833198244625) @ (-49)));
  (193%N, ((-1794334638614767) @ (-47), #, #, (-3888284818171165) @ (-48)));
  (194%N, ((-7924300488693565) @ (-49), (-7157383978315813) @ (-49), (-4684119305002281) @ (-48), (-3549396601113259) @ (-48)));
  (195%N, (#, #, #, (-1461762600316873) @ (-47)));
  (196%N, ((-731226917311279) @ (-46), (-5549950802432567) @ (-49), (-7417202744952887) @ (-49), (-5681002281306127) @ (-49)));
  (197%N, ((-5289297427195325) @ (-49), (-5377306113966719) @ (-49), (-2408517287458079) @ (-48), (-1584973871545671) @ (-47)));
  (198%N, (#, #, #, (-6118011084002939) @ (-49)));
  (199%N, ((-6399803754120501) @ (-49), (-1764807936785953) @ (-47), (-2017999609788739) @ (-47), (-5954829444368915) @ (-49)));
  (200%N, (#, #, #, (-6574031476229409) @ (-49)));
  (201%N, (#, #, #, (-2130163006223681) @ (-47)));
  (203%N, ((-5336167272483239) @ (-49), (-2355671529647861) @ (-48), (-3138539726455591) @ (-48), (-1508903780562939) @ (-47)));
  (204%N, ((-3543643231182759) @ (-48), (-5926445390622239) @ (-49), (-6271305556619797) @ (-49), (-1749038822580415) @ (-47)));
  (206%N, ((-7054022359647307) @ (-49), (-7244163096344431) @ (-49), (-4260759154773655) @ (-48), (-943539134077359) @ (-46)));
  (207%N, ((-7756962757402879) @ (-49), #, (-609902861438431) @ (-45), (-976926146266539) @ (-46)));
  (208%N, (#, #, #, (-7025030848007957) @ (-49)));
  (209%N, ((-5193019458675363) @ (-49), (-5406420665481025) @ (-49), (-687922391822893) @ (-46), (-649600545377365) @ (-46)));
  (211%N, (#, (-7157383978315813) @ (-49), (-7667890561037021) @ (-49), (-7926147221115621) @ (-49)));
  (212%N, ((-3123840906345817) @ (-48), (-2889489529576693) @ (-48), (-6367546241121769) @ (-49), (-7425201997121977) @ (-49)));
  (213%N, ((-5864123732175763) @ (-49), (-6566386662228619) @ (-49), (-3667736269636657) @ (-48), (-6786983603534937) @ (-49)));
  (215%N, (#, #, #, (-4392620273043229) @ (-48)));
  (216%N, (#, #, #, (-2130163006223681) @ (-47)));
  (217%N, (#, #, #, (-4650533185457697) @ (-48)));
  (218%N, ((-5363208368412865) @ (-49), (-89567460233227) @ (-43), (-22168378784921) @ (-41), (-5235739873273787) @ (-49)));
  (222%N, ((-1525271651225255) @ (-47), (-767480941468751) @ (-46), (-5840652714768727) @ (-49), (-6257099274030887) @ (-49)));
  (223%N, (#, (-8871297742822353) @ (-49), (-8131311136536975) @ (-49), (-2130163006223681) @ (-47)));
  (224%N, (#, #, #, (-4297911758076491) @ (-48)));
  (225%N, ((-4133268428666253) @ (-49), (-8997910448478611) @ (-50), (-4473716148109501) @ (-49), (-4529117706062671) @ (-49)));
  (226%N, (#, (-6823518783638375) @ (-49), (-6825765795923849) @ (-49), (-4297911758076491) @ (-48)));
  (228%N, ((-6532686377090453) @ (-49), (-384016428008523) @ (-45), (-6324271513120055) @ (-49), (-6531363337886707) @ (-49)));
  (229%N, ((-1509049397608951) @ (-47), (-6069645714336419) @ (-49), (-6162952367672155) @ (-49), (-3118628787138913) @ (-48)));
  (230%N, ((-3504836334064703) @ (-48), (-6669024574133477) @ (-49), (-7773281289935475) @ (-49), (-3549396601113259) @ (-48)));
  (232%N, ((-5999581959515609) @ (-49), (-5492801516812155) @ (-49), (-5417229644126503) @ (-49), (-5904066167775883) @ (-49)));
  (233%N, ((-6504176490059053) @ (-49), (-1673001328511805) @ (-47), (-5306005818372567) @ (-49), (-5641165653706225) @ (-49)));
  (234%N, (#, #, #, (-302852298247679) @ (-44)));
  (236%N, ((-6570482444495635) @ (-49), (-5758505895561349) @ (-49), (-6764610380191347) @ (-49), (-302852298247679) @ (-44)));
  (238%N, (#, #, #, (-302852298247679) @ (-44)));
  (239%N, ((-1525271651225255) @ (-47), (-767480941468751) @ (-46), (-5840652714768727) @ (-49), (-6257099274030887) @ (-49)));
  (241%N, (#, #, #, (-4297911758076491) @ (-48)));
  (242%N, ((-2723756404908859) @ (-48), (-6794643225952077) @ (-49), (-6778580078491437) @ (-49), (-4650533185457697) @ (-48)));
  (244%N, ((-2921666078984049) @ (-48), (-2896526770532699) @ (-48), (-5368036639391275) @ (-49), (-5583758034126807) @ (-49)));
  (246%N, (#, #, #, (-302852298247679) @ (-44)));
  (248%N, ((-4260759154773655) @ (-48), (-5951059145045925) @ (-49), (-6873910499477351) @ (-49), (-3879055303555717) @ (-48)));
  (249%N, ((-3569249510334543) @ (-48), #, #, (-2130163006223681) @ (-47)));
  (250%N, (#, #, #, (-4297911758076491) @ (-48)));
  (251%N, (#, #, #, (-1652074660613093) @ (-47)));
  (254%N, ((-5363208368412865) @ (-49), (-89567460233227) @ (-43), (-22168378784921) @ (-41), (-5235739873273787) @ (-49)));
  (255%N, ((-4133268428666253) @ (-49), (-8997910448478611) @ (-50), (-4473716148109501) @ (-49), (-4529117706062671) @ (-49)))].

(** prob_emit.py, characters 0x6f00 to 0x6fff *)
Definition emit_6f : list (N * num4) := [
  (1%N, ((-2489087966333723) @ (-48), (-629304190984197) @ (-46), (-6810591023946373) @ (-49), (-185343546668175) @ (-44)));
  (2%N, ((-5244731800749545) @ (-49), (-6975678712175689) @ (-49), (-7133162962201383) @ (-49), (-6285576377091545) @ (-49)));
  (5%N, (#, #, #, (-8292395461171265) @ (-49)));
  (6%N, ((-697713228680729) @ (-46), (-5888610228112807) @ (-49), (-5787143676555967) @ (-49), (-357346623172065) @ (-45)));
  (8%N, (#, #, #, (-4170689255897351) @ (-48)));
  (9%N, (#, (-5957384491968179) @ (-49), (-6844532532160723) @ (-49), (-1994339944854797) @ (-47)));
  (10%N, (#, #, #, (-4297911758076491) @ (-48)));
  (13%N, (#, #, #, (-302852298247679) @ (-44)));
  (15%N, ((-1427613761104959) @ (-47), (-3357982123500955) @ (-48), (-5625193067269091) @ (-49), (-1442836516429083) @ (-47)));
  (17%N, (#, #, #, (-8910859197905059) @ (-49)));
  (19%N, ((-7031410888328911) @ (-49), (-6065776627261503) @ (-49), (-6242200270322509) @ (-49), (-6870536638503059) @ (-49)));
  (20%N, ((-4195139524541837) @ (-49), (-4895637292374257) @ (-49), (-142635237757051) @ (-44), (-2612471481397121) @ (-48)));
  (21%N, ((-5925919123563701) @ (-49), #, #, (-3200010553913215) @ (-48)));
  (24%N, (#, #, #, (-302852298247679) @ (-44)));
  (26%N, ((-2078626915425975) @ (-47), (-8871297742822353) @ (-49), #, (-7121773942140261) @ (-49)));
  (32%N, ((-6100238149648595) @ (-49), (-2913665322968923) @ (-48), (-1260878800371205) @ (-47), (-12509616133999) @ (-40)));
  (33%N, (#, #, #, (-8205616343142647) @ (-49)));
  (34%N, ((-7843659112387979) @ (-50), (-3035088546682911) @ (-49), (-7618492994162889) @ (-50), (-571323602840871) @ (-46)));
  (35%N, ((-1758965277191057) @ (-47), (-7427359621511357) @ (-49), (-7667890561037021) @ (-49), (-3171413761909075) @ (-48)));
  (36%N, (#, #, #, (-4650533185457697) @ (-48)));
  (41%N, ((-852837242646723) @ (-46), #, #, (-6165293783740647) @ (-49)));
  (42%N, ((-8462205612165291) @ (-49), (-428372245208381) @ (-45), (-6367546241121769) @ (-49), (-7658507473194481) @ (-49)));
  (43%N, ((-5248827354188995) @ (-49), (-5220772638967289) @ (-49), (-1364834134257267) @ (-47), (-5900035482632401) @ (-49)));
  (44%N, ((-8462205612165291) @ (-49), (-6886133249742931) @ (-49), (-6694636986377329) @ (-49), (-6881909751646441) @ (-49)));
  (45%N, (#, #, #, (-4650533185457697) @ (-48)));
  (46%N, (#, #, #, (-70881326618687) @ (-42)));
  (47%N, ((-7143886142672895) @ (-49), #, #, (-3951094144080465) @ (-48)));
  (49%N, ((-3551083531600405) @ (-48), (-778145317480215) @ (-46), (-7082412406347563) @ (-49), (-6946781437909935) @ (-49)));
  (50%N, ((-5445389469427999) @ (-49), (-3125675490238271) @ (-48), (-5131528218503709) @ (-49), (-5387566554771453) @ (-49)));
  (51%N, ((-6470456834045967) @ (-49), (-357090366062801) @ (-45), (-6518250971971065) @ (-49), (-6783757520474441) @ (-49)));
  (52%N, (#, #, #, (-8910859197905059) @ (-49)));
  (54%N, (#, #, (-4426206392587813) @ (-48), (-4650533185457697) @ (-48)));
  (55%N, (#, #, #, (-271331332318175) @ (-44)));
  (56%N, ((-5049515188276545) @ (-49), (-3005360696119749) @ (-48), (-4459331478641423) @ (-49), (-70881326618687) @ (-42)));
  (60%N, (#, #, #, (-4650533185457697) @ (-48)));
  (61%N, (#, #, #, (-8064138897447807) @ (-49)));
  (62%N, ((-8272788582231815) @ (-49), (-491414177067389) @ (-45), (-3321712214036881) @ (-48), (-7065990723112215) @ (-49)));
  (63%N, ((-6338330017795169) @ (-49), (-6307692958809439) @ (-49), (-1383229922059929) @ (-47), (-5703680685039981) @ (-49)));
  (64%N, (#, #, #, (-302852298247679) @ (-44)));
  (65%N, ((-7298665317991735) @ (-49), (-3383588402652739) @ (-48), (-7399879841139741) @ (-49), (-1637011139242251) @ (-47)));
  (67%N, (#, #, #, (-5975876753807171) @ (-49)));
  (68%N, (#, #, #, (-7857128249604397) @ (-49)));
  (69%N, (#, #, #, (-976926146266539) @ (-46)));
  (70%N, (#, (-8871297742822353) @ (-49), #, (-8910859197905059) @ (-49)));
  (71%N, ((-2892601233948259) @ (-48), (-5800224975033435) @ (-49), (-1613581339787597) @ (-47), (-7231493078902567) @ (-49)));
  (72%N, (#, #, #, (-7425201997121977) @ (-49)));
  (75%N, ((-4260759154773655) @ (-48), (-3817185134677383) @ (-48), (-4684119305002281) @ (-48), (-4650533185457697) @ (-48)));
  (76%N, (#, #, #, (-8064138897447807) @ (-49)));
  (77%N, ((-1709551796309617) @ (-47), #, #, (-7600718321947853) @ (-49)));
  (78%N, (#, #, #, (-8166776809352665) @ (-49)));
  (79%N, (#, #, #, (-8910859197905059) @ (-49)));
  (80%N, (#, #, #, (-302852298247679) @ (-44)));
  (81%N, ((-6289994408247607) @ (-49), (-195523065702511) @ (-44), (-5895645703500781) @ (-49), (-730957498048045) @ (-46)));
  (84%N, ((-3000500879192639) @ (-48), (-4821189852602849) @ (-49), (-4945851011214947) @ (-49), (-3188064985789221) @ (-48)));
  (85%N, (#, #, #, (-6681119608569583) @ (-49)));
  (86%N, (#, #, #, (-1893476528496951) @ (-47)));
  (87%N, (#, #, #, (-3535663390789959) @ (-48)));
  (88%N, ((-4970146762994381) @ (-49), (-6425952682918579) @ (-49), (-6844532532160723) @ (-49), (-6108237401817685) @ (-49)));
  (89%N, (#, #, #, (-7857128249604397) @ (-49)));
  (90%N, (#, #, #, (-1893476528496951) @ (-47)));
  (91%N, ((-4587333734261605) @ (-49), (-2443272840155113) @ (-48), (-5823281211658843) @ (-49), (-5493012741645985) @ (-49)));
  (92%N, ((-4587333734261605) @ (-49), (-2443272840155113) @ (-48), (-5823281211658843) @ (-49), (-5493012741645985) @ (-49)));
  (94%N, ((-7426068281774563) @ (-49), (-7015906532620973) @ (-49), (-3767046657841615) @ (-48), (-850842282548523) @ (-46)));
  (95%N, (#, #, #, (-1713019402318041) @ (-47)));
  (96%N, (#, #, #, (-4650533185457697) @ (-48)));
  (97%N, (#, #, #, (-3870118839437027) @ (-48)));
  (98%N, ((-7862826752368233) @ (-49), (-7575057571972747) @ (-49), (-1729812462090333) @ (-47), (-456223959081461) @ (-45)));
  (99%N, (#, #, #, (-8292395461171265) @ (-49)));
  (100%N, ((-1496567379251555) @ (-47), (-4511736389010899) @ (-49), (-4643023203417287) @ (-49), (-7500373488380235) @ (-49)));
  (101%N, (#, #, #, (-7307683484381827) @ (-49)));
  (102%N, ((-7013953676999103) @ (-49), (-6869814717210335) @ (-49), #, (-3662121014844325) @ (-48)));
  (103%N, (#, #, #, (-3634150150092073) @ (-48)));
  (104%N, (#, #, #, (-2130163006223681) @ (-47)));
  (105%N, (#, #, #, (-2061833855653683) @ (-47)));
  (106%N, (#, #, #, (-3722837580357007) @ (-48)));
  (107%N, (#, #, #, (-7795654513279065) @ (-49)));
  (108%N, (#, #, #, (-7643494584741751) @ (-49)));
  (109%N, ((-7058655718752843) @ (-49), (-2681924251057849) @ (-48), (-5631794510447747) @ (-49), (-5864373305080637) @ (-49)));
  (110%N, ((-1297579661030809) @ (-47), (-5196384137160453) @ (-49), (-4795583024604921) @ (-49), (-2761175052632929) @ (-48)));
  (111%N, ((-1998329865051197) @ (-47), (-491414177067389) @ (-45), (-3903704958981611) @ (-48), (-3460785255448521) @ (-48)));
  (112%N, ((-2915292788368239) @ (-48), (-3195267673917071) @ (-48), (-1434570543504379) @ (-47), (-6214569351883485) @ (-49)));
  (113%N, (#, #, #, (-8910859197905059) @ (-49)));
  (114%N, ((-571248877892569) @ (-45), #, #, (-8395033373076123) @ (-49)));
  (115%N, (#, #, #, (-4650533185457697) @ (-48)));
  (116%N, ((-3767046657841615) @ (-48), #, #, (-7795654513279065) @ (-49)));
  (117%N, (#, #, #, (-5781557371092637) @ (-49)));
  (118%N, (#, #, #, (-7857128249604397) @ (-49)));
  (120%N, ((-7435075673190267) @ (-49), (-8871297742822353) @ (-49), (-8462205612165291) @ (-49), (-271331332318175) @ (-44)));
  (121%N, (#, #, #, (-6569616159843049) @ (-49)));
  (122%N, ((-7212905114184119) @ (-49), (-1925169055947837) @ (-47), (-3632058836243843) @ (-48), (-2061833855653683) @ (-47)));
  (123%N, (#, #, #, (-6642280074779601) @ (-49)));
  (124%N, ((-3070327202613245) @ (-48), (-6794643225952077) @ (-49), (-6968563171774189) @ (-49), (-7926147221115621) @ (-49)));
  (125%N, (#, #, #, (-302852298247679) @ (-44)));
  (126%N, (#, #, #, (-302852298247679) @ (-44)));
  (127%N, (#, #, #, (-2130163006223681) @ (-47)));
  (128%N, ((-8018343577873535) @ (-49), (-7015906532620973) @ (-49), (-3045077597186117) @ (-48), (-3221120516242921) @ (-48)));
  (130%N, (#, #, #, (-7600718321947853) @ (-49)));
  (131%N, (#, #, #, (-4297911758076491) @ (-48)));
  (132%N, ((-1540265024284871) @ (-47), (-5760744268106463) @ (-49), (-6391208931395613) @ (-49), (-6068945880887067) @ (-49)));
  (133%N, (#, #, #, (-302852298247679) @ (-44)));
  (134%N, ((-6188148825753519) @ (-49), (-3125675490238271) @ (-48), (-4081744231472905) @ (-48), (-1521362620456101) @ (-47)));
  (135%N, ((-7567545727469403) @ (-49), (-7131195537680991) @ (-49), (-6222897238004853) @ (-49), (-6813480256580097) @ (-49)));
  (136%N, ((-571248877892569) @ (-45), (-7015906532620973) @ (-49), (-95382707368689) @ (-43), (-1848956007451337) @ (-47)));
  (137%N, ((-3921870937715749) @ (-48), #, #, (-271331332318175) @ (-44)));
  (138%N, (#, #, #, (-8910859197905059) @ (-49)));
  (140%N, (#, (-8871297742822353) @ (-49), (-609902861438431) @ (-45), (-4297911758076491) @ (-48)));
  (141%N, (#, (-6440768010410019) @ (-49), (-6226068795426929) @ (-49), (-4048158111928321) @ (-48)));
  (142%N, ((-3256465860118603) @ (-48), (-2907423936947123) @ (-48), (-7250871180066637) @ (-49), (-3688528646784237) @ (-48)));
  (143%N, (#, #, #, (-4650533185457697) @ (-48)));
  (144%N, (#, #, (-4684119305002281) @ (-48), (-302852298247679) @ (-44)));
  (146%N, (#, #, #, (-4227173035229071) @ (-48)));
  (148%N, (#, #, #, (-302852298247679) @ (-44)));
  (150%N, (#, #, #, (-4650533185457697) @ (-48)));
  (151%N, ((-4204275375441935) @ (-48), (-3383588402652739) @ (-48), (-1625178042930149) @ (-47), (-1608384983157857) @ (-47)));
  (152%N, (#, #, #, (-3888284818171165) @ (-48)));
  (155%N, (#, #, #, (-4650533185457697) @ (-48)));
  (156%N, ((-3403802272520385) @ (-48), (-368569903113375) @ (-45), (-1538155680228393) @ (-47), (-6365318529074281) @ (-49)));
  (160%N, ((-7615485311708039) @ (-49), #, #, (-7926147221115621) @ (-49)));
  (161%N, ((-7097163030666307) @ (-49), (-3460130938885339) @ (-48), (-784925711962281) @ (-46), (-421091349181405) @ (-45)));
  (163%N, (#, #, #, (-70881326618687) @ (-42)));
  (164%N, ((-6154486795310231) @ (-49), (-852288435721829) @ (-47), (-622243116431537) @ (-46), (-6049409379414741) @ (-49)));
  (165%N, (#, #, #, (-4650533185457697) @ (-48)));
  (166%N, (#, #, #, (-302852298247679) @ (-44)));
  (167%N, ((-3569249510334543) @ (-48), (-7575057571972747) @ (-49), (-7862826752368233) @ (-49), (-5999336396304811) @ (-49)));
  (169%N, (#, #, #, (-7835882333724349) @ (-49)));
  (170%N, (#, #, (-3984680263625049) @ (-48), #));
  (174%N, (#, #, (-609902861438431) @ (-45), (-1969801887061797) @ (-47)));
  (177%N, (#, #, #, (-302852298247679) @ (-44)));
  (179%N, ((-4954978048938729) @ (-49), (-5549950802432567) @ (-49), (-5971238406865051) @ (-49), (-6021319881833011) @ (-49)));
  (180%N, (#, #, #, (-4650533185457697) @ (-48)));
  (182%N, ((-7654324845498021) @ (-49), #, (-571248877892569) @ (-45), (-5103455626390817) @ (-49)));
  (185%N, ((-1795778112687613) @ (-47), #, #, (-3035831631625747) @ (-48)));
  (192%N, ((-8483556121530957) @ (-50), (-4740969448995545) @ (-49), (-4977137172848207) @ (-49), (-2840274418951953) @ (-48)));
  (193%N, ((-6729832818427855) @ (-49), (-1623981519183149) @ (-47), (-791327281750227) @ (-46), (-6408215574980407) @ (-49)));
  (194%N, (#, (-7346801008249289) @ (-49), (-903159767337213) @ (-46), (-5654422208957691) @ (-49)));
  (195%N, ((-4847245199634949) @ (-49), (-718430702412409) @ (-46), (-7022614616343179) @ (-49), (-8130444851884389) @ (-49)));
  (196%N, (#, #, #, (-7183698940977469) @ (-49)));
  (197%N, (#, #, #, (-6629907050266015) @ (-49)));
  (198%N, (#, #, #, (-1576807742022961) @ (-47)));
  (199%N, (#, #, #, (-1596788280015305) @ (-47)));
  (200%N, (#, #, #, (-208289400459167) @ (-44)));
  (201%N, ((-2078626915425975) @ (-47), #, (-8978031436994227) @ (-49), (-6813480256580097) @ (-49)));
  (202%N, (#, #, #, (-3365783384564963) @ (-48)));
  (203%N, (#, #, #, (-1713930327752905) @ (-47)));
  (209%N, ((-6877271404704321) @ (-49), (-2726888110805175) @ (-48), (-985322676152685) @ (-46), (-4048158111928321) @ (-48)));
  (210%N, ((-1515434461131037) @ (-47), (-3760701355345663) @ (-48), (-1975763643203379) @ (-47), (-803547887888141) @ (-46)));
  (211%N, (#, #, #, (-3317411837498811) @ (-48)));
  (213%N, ((-5103130711313065) @ (-49), (-5416064583611781) @ (-49), (-700774158904521) @ (-46), (-5403964314656713) @ (-49)));
  (216%N, (#, (-8871297742822353) @ (-49), (-3414425230460409) @ (-48), (-4650533185457697) @ (-48)));
  (217%N, (#, #, #, (-7332707602050573) @ (-49)));
  (219%N, (#, #, (-609902861438431) @ (-45), (-7170756992763697) @ (-49)));
  (222%N, (#, (-8252834006088559) @ (-49), (-7681791266144621) @ (-49), (-6686506730573393) @ (-49)));
  (223%N, ((-5357287319172507) @ (-49), (-3526727553600401) @ (-49), (-7144931558946071) @ (-50), (-5400370710804041) @ (-49)));
  (224%N, ((-546860929579423) @ (-45), (-7575057571972747) @ (-49), (-1729812462090333) @ (-47), (-3365783384564963) @ (-48)));
  (225%N, ((-3903704958981611) @ (-48), (-6205055046904581) @ (-49), (-4426206392587813) @ (-48), (-1535546096063807) @ (-47)));
  (228%N, ((-7579153354239763) @ (-49), (-2916201150721135) @ (-48), (-2460131408882091) @ (-48), (-6213400192681475) @ (-49)));
  (230%N, (#, #, #, (-302852298247679) @ (-44)));
  (233%N, (#, #, #, (-8292395461171265) @ (-49)));
  (235%N, ((-1509049397608951) @ (-47), (-6069645714336419) @ (-49), (-6162952367672155) @ (-49), (-3118628787138913) @ (-48)));
  (236%N, (#, #, (-4684119305002281) @ (-48), (-1848956007451337) @ (-47)));
  (238%N, ((-829324207436477) @ (-46), (-3887923857524803) @ (-48), (-571248877892569) @ (-45), (-3036741083068661) @ (-48)));
  (239%N, ((-4426206392587813) @ (-48), (-8252834006088559) @ (-49), (-2078626915425975) @ (-47), (-7350030505863719) @ (-49)));
  (240%N, ((-1709551796309617) @ (-47), #, #, (-7600718321947853) @ (-49)));
  (241%N, ((-5999581959515609) @ (-49), (-5492801516812155) @ (-49), (-5417229644126503) @ (-49), (-5904066167775883) @ (-49)));
  (248%N, (#, #, #, (-4650533185457697) @ (-48)));
  (250%N, ((-8018343577873535) @ (-49), (-3887923857524803) @ (-48), (-6532686377090453) @ (-49), (-7060704769219635) @ (-49)));
  (252%N, ((-609902861438431) @ (-45), (-3760701355345663) @ (-48), (-4260759154773655) @ (-48), (-1930728693765227) @ (-47)));
  (254%N, ((-6532686377090453) @ (-49), (-384016428008523) @ (-45), (-6324271513120055) @ (-49), (-6531363337886707) @ (-49)))].

(** prob_emit.py, characters 0x7000 to 0x70ff *)
Definition emit_70 : list (N * num4) := [
  (0%N, (#, #, #, (-4170689255897351) @ (-48)));
  (1%N, (#, #, #, (-302852298247679) @ (-44)));
  (3%N, (#, #, #, (-6620200776136811) @ (-49)));
  (5%N, (#, (-6823518783638375) @ (-49), (-6825765795923849) @ (-49), (-4297911758076491) @ (-48)));
  (6%N, ((-3582982720657843) @ (-48), (-4240545284906009) @ (-48), (-6813593430814783) @ (-49), (-1648585122635241) @ (-47)));
  (9%N, ((-6992866943914805) @ (-49), (-6669024574133477) @ (-49), (-6083532177352997) @ (-49), (-6220451850063225) @ (-49)));
  (12%N, (#, #, #, (-302852298247679) @ (-44)));
  (13%N, (#, #, #, (-271331332318175) @ (-44)));
  (15%N, ((-5547021593382297) @ (-49), (-7575057571972747) @ (-49), (-4081744231472905) @ (-48), (-3767970024052643) @ (-48)));
  (17%N, ((-718635313048497) @ (-46), (-7131195537680991) @ (-49), (-7284590836079723) @ (-49), (-6946781437909935) @ (-49)));
  (21%N, ((-1515434461131037) @ (-47), (-3760701355345663) @ (-48), (-1975763643203379) @ (-47), (-803547887888141) @ (-46)));
  (24%N, ((-6502441666025359) @ (-49), #, #, (-4650533185457697) @ (-48)));
  (25%N, (#, #, #, (-302852298247679) @ (-44)));
  (26%N, ((-3921870937715749) @ (-48), (-3054936767390851) @ (-48), (-1653276102753797) @ (-47), (-7183698940977469) @ (-49)));
  (27%N, ((-7298665317991735) @ (-49), (-3181861569937047) @ (-48), (-3632058836243843) @ (-48), (-5641165653706225) @ (-49)));
  (29%N, ((-6570482444495635) @ (-49), (-6166874319454763) @ (-49), (-7453534702421163) @ (-49), (-3535663390789959) @ (-48)));
  (31%N, ((-2892601233948259) @ (-48), (-5800224975033435) @ (-49), (-1613581339787597) @ (-47), (-7231493078902567) @ (-49)));
  (32%N, (#, (-8871297742822353) @ (-49), #, (-8910859197905059) @ (-49)));
  (35%N, (#, (-7131195537680991) @ (-49), (-4684119305002281) @ (-48), (-70881326618687) @ (-42)));
  (38%N, ((-3767046657841615) @ (-48), #, #, (-7795654513279065) @ (-49)));
  (39%N, ((-2078626915425975) @ (-47), #, #, (-7835882333724349) @ (-49)));
  (40%N, ((-6877271404704321) @ (-49), (-2726888110805175) @ (-48), (-985322676152685) @ (-46), (-4048158111928321) @ (-48)));
  (43%N, (#, #, #, (-302852298247679) @ (-44)));
  (44%N, (#, #, #, (-1809666128217651) @ (-47)));
  (45%N, (#, #, #, (-70881326618687) @ (-42)));
  (46%N, (#, #, #, (-302852298247679) @ (-44)));
  (47%N, (#, #, #, (-1969801887061797) @ (-47)));
  (48%N, (#, #, #, (-7477852487122849) @ (-49)));
  (49%N, (#, #, #, (-302852298247679) @ (-44)));
  (50%N, ((-4260759154773655) @ (-48), (-3817185134677383) @ (-48), (-4684119305002281) @ (-48), (-4650533185457697) @ (-48)));
  (52%N, (#, #, #, (-4297911758076491) @ (-48)));
  (53%N, (#, #, #, (-5972060129334541) @ (-49)));
  (55%N, (#, #, #, (-1969801887061797) @ (-47)));
  (56%N, (#, #, #, (-302852298247679) @ (-44)));
  (57%N, (#, (-8871297742822353) @ (-49), #, (-5493012741645985) @ (-49)));
  (58%N, (#, #, #, (-2061833855653683) @ (-47)));
  (59%N, (#, #, #, (-8205616343142647) @ (-49)));
  (60%N, (#, #, #, (-8205616343142647) @ (-49)));
  (61%N, (#, #, #, (-2130163006223681) @ (-47)));
  (62%N, ((-3403802272520385) @ (-48), (-368569903113375) @ (-45), (-1538155680228393) @ (-47), (-6365318529074281) @ (-49)));
  (63%N, (#, #, #, (-4227173035229071) @ (-48)));
  (66%N, (#, #, #, (-4650533185457697) @ (-48)));
  (67%N, ((-8233949048441833) @ (-49), (-8090883396801683) @ (-49), (-3912641423100301) @ (-48), (-6938251729979339) @ (-49)));
  (68%N, (#, #, #, (-3733460538297031) @ (-48)));
  (69%N, (#, #, #, (-302852298247679) @ (-44)));
  (72%N, (#, #, #, (-302852298247679) @ (-44)));
  (73%N, (#, #, #, (-1797570806504343) @ (-47)));
  (74%N, (#, #, #, (-8166776809352665) @ (-49)));
  (75%N, (#, #, #, (-302852298247679) @ (-44)));
  (76%N, ((-5239378243876313) @ (-49), (-6131119450661751) @ (-49), (-1540265024284871) @ (-47), (-2753245655694809) @ (-48)));
  (77%N, (#, #, #, (-4650533185457697) @ (-48)));
  (78%N, (#, #, #, (-4650533185457697) @ (-48)));
  (79%N, (#, (-1688482578221107) @ (-47), (-7343131840464381) @ (-49), (-2679857737040109) @ (-48)));
  (81%N, ((-6386960232334713) @ (-49), (-3172210053778219) @ (-48), (-2988669534055717) @ (-48), (-302852298247679) @ (-44)));
  (82%N, (#, #, #, (-4297911758076491) @ (-48)));
  (84%N, (#, #, #, (-70881326618687) @ (-42)));
  (85%N, (#, #, #, (-302852298247679) @ (-44)));
  (86%N, (#, #, #, (-8166776809352665) @ (-49)));
  (88%N, ((-6504176490059053) @ (-49), (-1673001328511805) @ (-47), (-5306005818372567) @ (-49), (-8910859197905059) @ (-49)));
  (89%N, (#, #, #, (-6697438141102179) @ (-49)));
  (90%N, (#, #, #, (-8910859197905059) @ (-49)));
  (91%N, (#, #, #, (-70881326618687) @ (-42)));
  (92%N, (#, #, #, (-2130163006223681) @ (-47)));
  (93%N, (#, (-1688482578221107) @ (-47), (-7343131840464381) @ (-49), (-271331332318175) @ (-44)));
  (94%N, ((-8462205612165291) @ (-49), #, #, (-5695708749066645) @ (-49)));
  (95%N, (#, #, #, (-4650533185457697) @ (-48)));
  (96%N, (#, #, #, (-8910859197905059) @ (-49)));
  (99%N, ((-3577408776600841) @ (-48), (-2174375052520557) @ (-48), (-8741355170451099) @ (-50), (-302852298247679) @ (-44)));
  (100%N, ((-3504836334064703) @ (-48), (-6669024574133477) @ (-49), (-7773281289935475) @ (-49), (-3549396601113259) @ (-48)));
  (101%N, (#, #, #, (-70881326618687) @ (-42)));
  (102%N, (#, #, #, (-7706109050846307) @ (-49)));
  (105%N, (#, (-8871297742822353) @ (-49), (-8131311136536975) @ (-49), (-2130163006223681) @ (-47)));
  (106%N, (#, #, #, (-271331332318175) @ (-44)));
  (107%N, ((-7993931334768291) @ (-50), (-8265476171063773) @ (-50), (-4425051464751027) @ (-49), (-4596612015480419) @ (-49)));
  (108%N, (#, #, #, (-302852298247679) @ (-44)));
  (109%N, ((-5289297427195325) @ (-49), (-5377306113966719) @ (-49), (-2408517287458079) @ (-48), (-318541698287505) @ (-45)));
  (110%N, (#, #, #, (-2130163006223681) @ (-47)));
  (111%N, ((-2532131165611903) @ (-48), (-2673195645392945) @ (-48), (-4831002529141121) @ (-49), (-2554587940630439) @ (-48)));
  (112%N, ((-5083013096699077) @ (-49), (-4564635629016481) @ (-49), (-5658615716177389) @ (-49), (-2604219990617325) @ (-48)));
  (116%N, (#, #, #, (-302852298247679) @ (-44)));
  (117%N, ((-2292745225127109) @ (-48), (-278022813725259) @ (-45), (-4720108841210043) @ (-49), (-640477549360277) @ (-46)));
  (118%N, ((-6226068795426929) @ (-49), (-6605226196018601) @ (-49), (-791008870599809) @ (-46), (-2914826826712729) @ (-48)));
  (120%N, (#, (-3460130938885339) @ (-48), (-3222431896338517) @ (-48), (-1569089569288295) @ (-47)));
  (122%N, (#, #, #, (-302852298247679) @ (-44)));
  (124%N, ((-6411471528329717) @ (-49), (-6295964410557909) @ (-49), (-3257349612733795) @ (-48), (-6219270422654963) @ (-49)));
  (125%N, ((-5145193841355385) @ (-49), (-2595326116785159) @ (-48), (-5333989513661297) @ (-49), (-302852298247679) @ (-44)));
  (126%N, ((-5145193841355385) @ (-49), (-2595326116785159) @ (-48), (-5333989513661297) @ (-49), (-5778852176298239) @ (-49)));
  (127%N, ((-5791046291515913) @ (-49), (-334622643602717) @ (-45), (-95382707368689) @ (-43), (-6820303975927183) @ (-49)));
  (128%N, ((-222100499235933) @ (-44), (-5963781719371065) @ (-49), (-3855333411915459) @ (-48), (-7689790518313711) @ (-49)));
  (129%N, (#, #, #, (-4650533185457697) @ (-48)));
  (133%N, (#, (-7385640542039271) @ (-49), (-7773281289935475) @ (-49), (-1969801887061797) @ (-47)));
  (134%N, (#, #, (-4260759154773655) @ (-48), (-3408440888610819) @ (-48)));
  (136%N, (#, #, #, (-8910859197905059) @ (-49)));
  (137%N, ((-5723762144038383) @ (-49), (-5824811849997931) @ (-49), (-2711400472099159) @ (-48), (-5543977856214497) @ (-49)));
  (138%N, ((-1613581339787597) @ (-47), #, (-7313100723111123) @ (-49), (-1678560966329195) @ (-47)));
  (142%N, ((-5527070005244143) @ (-49), (-668568008212221) @ (-46), (-2497590617120873) @ (-48), (-1493395918867483) @ (-47)));
  (145%N, (#, #, #, (-302852298247679) @ (-44)));
  (146%N, ((-5321734629366277) @ (-49), (-7575057571972747) @ (-49), (-1814363866276635) @ (-47), (-4959220604455023) @ (-49)));
  (147%N, (#, #, (-609902861438431) @ (-45), #));
  (148%N, ((-8197617090973557) @ (-49), (-4240545284906009) @ (-48), (-3494371374993105) @ (-48), (-3598472716699259) @ (-48)));
  (149%N, ((-6509413271575009) @ (-49), (-8252834006088559) @ (-49), (-6901376920123951) @ (-49), (-1410820701332667) @ (-47)));
  (150%N, ((-3903704958981611) @ (-48), #, (-6223952439726025) @ (-49), (-409785891556225) @ (-45)));
  (153%N, ((-3504836334064703) @ (-48), (-3172210053778219) @ (-48), (-4081744231472905) @ (-48), (-6578481696664725) @ (-49)));
  (156%N, (#, (-5902862886938293) @ (-49), (-2994175332615059) @ (-48), (-1893476528496951) @ (-47)));
  (157%N, (#, #, #, (-897148847068159) @ (-46)));
  (159%N, (#, #, #, (-8166776809352665) @ (-49)));
  (162%N, (#, #, #, (-4392620273043229) @ (-48)));
  (164%N, (#, (-4240545284906009) @ (-48), (-4684119305002281) @ (-48), (-7600718321947853) @ (-49)));
  (165%N, (#, #, #, (-302852298247679) @ (-44)));
  (169%N, (#, #, #, (-4297911758076491) @ (-48)));
  (170%N, (#, #, #, (-7500373488380235) @ (-49)));
  (171%N, ((-3194186452740551) @ (-48), (-1623981519183149) @ (-47), (-1826459187989943) @ (-47), (-6813480256580097) @ (-49)));
  (172%N, (#, (-4929946845987177) @ (-49), (-5953323343232013) @ (-49), (-6531363337886707) @ (-49)));
  (173%N, ((-1548531777882573) @ (-47), (-1467992525441935) @ (-47), (-334943909774197) @ (-45), (-397263376169705) @ (-45)));
  (174%N, ((-4779689430249369) @ (-49), (-1316368670180257) @ (-47), (-4750805752760771) @ (-49), (-2540803889724047) @ (-48)));
  (175%N, ((-6867248292096205) @ (-49), (-1478632665286877) @ (-47), (-6564648714016659) @ (-49), (-6095780128582987) @ (-49)));
  (176%N, (#, #, #, (-1672986475717779) @ (-47)));
  (177%N, (#, #, #, (-7658507473194481) @ (-49)));
  (178%N, (#, #, #, (-1584973871545671) @ (-47)));
  (179%N, ((-7696043924970107) @ (-49), (-2351016094660777) @ (-48), (-5407239143182263) @ (-49), (-208289400459167) @ (-44)));
  (180%N, (#, #, #, (-6589763636441089) @ (-49)));
  (181%N, (#, #, #, (-3326189051272823) @ (-48)));
  (182%N, (#, #, #, (-3452684697072041) @ (-48)));
  (183%N, (#, #, (-8359567700260433) @ (-49), (-855160738236529) @ (-46)));
  (184%N, ((-1331286937641497) @ (-47), (-2418089948189279) @ (-48), (-5245102894997275) @ (-49), (-5379808984330767) @ (-49)));
  (185%N, ((-4243843015947233) @ (-49), (-3945725496292743) @ (-49), (-1686468144775379) @ (-48), (-7995250542065391) @ (-50)));
  (186%N, ((-1784374899780839) @ (-48), (-3732604042028449) @ (-49), (-2836860876046429) @ (-49), (-1299628369099461) @ (-48)));
  (187%N, ((-571248877892569) @ (-45), #, #, (-8064138897447807) @ (-49)));
  (188%N, ((-689631537209171) @ (-46), (-1544044872304571) @ (-47), (-5127597832294121) @ (-49), (-5748898170095491) @ (-49)));
  (189%N, ((-1667112136435627) @ (-47), (-1544044872304571) @ (-47), (-6775758268305351) @ (-49), (-1683626615562721) @ (-47)));
  (191%N, (#, #, #, (-302852298247679) @ (-44)));
  (192%N, (#, #, #, (-8292395461171265) @ (-49)));
  (193%N, (#, (-6538920241582019) @ (-49), (-23275673171385) @ (-41), (-3543822657056257) @ (-48)));
  (194%N, ((-1580438179295035) @ (-47), (-5398115668338661) @ (-49), (-5356155761096201) @ (-49), (-2788088050982677) @ (-48)));
  (195%N, ((-7492374236211145) @ (-49), (-8871297742822353) @ (-49), (-3222431896338517) @ (-48), (-3317411837498811) @ (-48)));
  (199%N, (#, #, #, (-3549396601113259) @ (-48)));
  (200%N, ((-5559860233132595) @ (-49), (-5107492634088851) @ (-49), (-8618919620081859) @ (-50), (-2703511538588495) @ (-48)));
  (202%N, (#, (-8252834006088559) @ (-49), (-8359567700260433) @ (-49), (-1809666128217651) @ (-47)));
  (206%N, (#, #, #, (-302852298247679) @ (-44)));
  (207%N, ((-4561124313278379) @ (-49), (-5350705104641081) @ (-49), (-6182233360253939) @ (-49), (-2755249044769289) @ (-48)));
  (210%N, (#, #, #, (-302852298247679) @ (-44)));
  (212%N, (#, #, #, (-302852298247679) @ (-44)));
  (214%N, (#, #, #, (-70881326618687) @ (-42)));
  (215%N, (#, #, #, (-70881326618687) @ (-42)));
  (216%N, ((-3096563155674757) @ (-48), (-1508025452042197) @ (-47), (-863557268122675) @ (-46), (-2949349154358833) @ (-48)));
  (217%N, ((-412537118574835) @ (-45), (-4240545284906009) @ (-48), (-4081744231472905) @ (-48), (-6440490020332539) @ (-49)));
  (218%N, (#, #, #, (-302852298247679) @ (-44)));
  (219%N, ((-746912269962565) @ (-46), (-3292735769582677) @ (-48), (-5687593100752527) @ (-49), (-6166367091889265) @ (-49)));
  (220%N, (#, #, #, (-3951094144080465) @ (-48)));
  (221%N, (#, #, #, (-2130163006223681) @ (-47)));
  (223%N, ((-1232033725999109) @ (-47), (-2413569029196609) @ (-48), (-4996492499945803) @ (-49), (-5037258087930193) @ (-49)));
  (227%N, (#, #, #, (-302852298247679) @ (-44)));
  (228%N, ((-5815047793184255) @ (-49), (-7244163096344431) @ (-49), (-1435016975245427) @ (-47), (-2540256956911581) @ (-48)));
  (229%N, (#, #, #, (-302852298247679) @ (-44)));
  (230%N, ((-5471969114834413) @ (-49), (-2952878618773787) @ (-48), (-5173072289439731) @ (-49), (-5690148704329661) @ (-49)));
  (231%N, ((-4899692876851015) @ (-49), (-5392257655505705) @ (-49), (-5041055487530225) @ (-49), (-1227924316625975) @ (-47)));
  (232%N, (#, (-6680397687276859) @ (-49), (-404505981231041) @ (-45), (-7795654513279065) @ (-49)));
  (233%N, ((-7756962757402879) @ (-49), (-4240545284906009) @ (-48), (-1986594946834089) @ (-47), (-5900035482632401) @ (-49)));
  (235%N, ((-6775758268305351) @ (-49), (-8871297742822353) @ (-49), (-6659219651292893) @ (-49), (-5789201813822379) @ (-49)));
  (236%N, (#, #, (-834728907770341) @ (-46), (-7795654513279065) @ (-49)));
  (237%N, ((-1019160804505741) @ (-47), (-8438910005164435) @ (-50), (-4700865724558665) @ (-49), (-8830574924264731) @ (-50)));
  (239%N, ((-3486270816616625) @ (-48), (-5695186420030371) @ (-49), (-5830060681636985) @ (-49), (-3415348596671437) @ (-48)));
  (241%N, (#, #, #, (-70881326618687) @ (-42)));
  (244%N, ((-7492374236211145) @ (-49), (-8871297742822353) @ (-49), (-3222431896338517) @ (-48), (-3317411837498811) @ (-48)));
  (245%N, (#, #, #, (-302852298247679) @ (-44)));
  (246%N, (#, #, #, (-1969801887061797) @ (-47)));
  (247%N, ((-1668867720385385) @ (-47), (-3469067403004029) @ (-48), (-6147989361808037) @ (-49), (-6777360293071555) @ (-49)));
  (249%N, ((-1400582253253255) @ (-47), (-3982632372491541) @ (-48), (-8197617090973557) @ (-49), (-6683806725621059) @ (-49)));
  (250%N, (#, (-8871297742822353) @ (-49), #, (-7628871685880939) @ (-49)));
  (251%N, (#, #, #, (-7005616856795013) @ (-49)));
  (252%N, (#, #, #, (-8910859197905059) @ (-49)));
  (253%N, ((-829324207436477) @ (-46), (-7015906532620973) @ (-49), (-863557268122675) @ (-46), (-7170756992763697) @ (-49)))].

(** prob_emit.py, characters 0x7100 to 0x71ff *)
Definition emit_71 : list (N * num4) := [
  (3%N, (#, #, #, (-2130163006223681) @ (-47)));
  (4%N, (#, #, #, (-2130163006223681) @ (-47)));
  (5%N, (#, #, #, (-302852298247679) @ (-44)));
  (7%N, (#, #, #, (-4392620273043229) @ (-48)));
  (9%N, ((-6551267270149819) @ (-49), (-6680397687276859) @ (-49), (-6582334460222915) @ (-49), (-5909485703768671) @ (-49)));
  (10%N, ((-3244376119408031) @ (-48), (-3638170211376633) @ (-48), (-3632058836243843) @ (-48), (-6800076053007037) @ (-49)));
  (11%N, (#, #, #, (-8910859197905059) @ (-49)));
  (12%N, (#, #, #, (-8910859197905059) @ (-49)));
  (14%N, (#, #, #, (-302852298247679) @ (-44)));
  (16%N, (#, #, #, (-3535663390789959) @ (-48)));
  (17%N, (#, #, #, (-8910859197905059) @ (-49)));
  (18%N, (#, #, #, (-302852298247679) @ (-44)));
  (19%N, (#, (-8871297742822353) @ (-49), (-2146956065995973) @ (-47), (-7231493078902567) @ (-49)));
  (21%N, ((-2999436700319327) @ (-48), (-5170644799025255) @ (-49), (-2748768160924579) @ (-48), (-6681119608569583) @ (-49)));
  (22%N, ((-546860929579423) @ (-45), #, (-6619465495119071) @ (-49), (-2865137038551715) @ (-48)));
  (23%N, (#, #, #, (-8292395461171265) @ (-49)));
  (24%N, (#, #, (-3157752297922227) @ (-48), (-7217418596990555) @ (-49)));
  (25%N, ((-1797236545307357) @ (-47), (-7244163096344431) @ (-49), (-7696043924970107) @ (-49), (-6771034946149301) @ (-49)));
  (26%N, ((-5763813024715437) @ (-49), (-6547927632997723) @ (-49), (-6532686377090453) @ (-49), (-6105338082344209) @ (-49)));
  (28%N, (#, #, #, (-8033701757752085) @ (-49)));
  (30%N, (#, #, #, (-4227173035229071) @ (-48)));
  (33%N, ((-6799271778197667) @ (-50), (-1661570954205791) @ (-48), (-4863404885862999) @ (-49), (-3696011260213725) @ (-49)));
  (34%N, (#, #, #, (-302852298247679) @ (-44)));
  (35%N, (#, #, #, (-3733460538297031) @ (-48)));
  (36%N, (#, #, #, (-4392620273043229) @ (-48)));
  (38%N, ((-4747038644443647) @ (-49), (-6185641055691637) @ (-49), (-2984945817999611) @ (-48), (-22097751748369) @ (-41)));
  (39%N, (#, #, #, (-70881326618687) @ (-42)));
  (42%N, (#, #, #, (-8292395461171265) @ (-49)));
  (43%N, (#, #, #, (-4650533185457697) @ (-48)));
  (46%N, (#, #, #, (-271331332318175) @ (-44)));
  (47%N, (#, (-3736209830033945) @ (-48), (-6588355372733015) @ (-49), (-3612205927022559) @ (-48)));
  (48%N, ((-7219057633931153) @ (-49), (-2907423936947123) @ (-48), (-5557915671774499) @ (-49), (-6531363337886707) @ (-49)));
  (49%N, (#, (-6547927632997723) @ (-49), (-1676738964413993) @ (-47), (-3702723670134365) @ (-48)));
  (52%N, (#, #, #, (-4297911758076491) @ (-48)));
  (54%N, ((-4063999888356215) @ (-49), (-6910545518878293) @ (-50), (-6066322736625049) @ (-50), (-1265710260802805) @ (-47)));
  (56%N, (#, #, #, (-4650533185457697) @ (-48)));
  (57%N, (#, #, #, (-4650533185457697) @ (-48)));
  (58%N, (#, #, #, (-4048158111928321) @ (-48)));
  (59%N, (#, #, #, (-4392620273043229) @ (-48)));
  (60%N, (#, #, #, (-8205616343142647) @ (-49)));
  (64%N, (#, #, #, (-8910859197905059) @ (-49)));
  (65%N, (#, #, #, (-8130444851884389) @ (-49)));
  (66%N, (#, #, #, (-4392620273043229) @ (-48)));
  (67%N, (#, #, #, (-271331332318175) @ (-44)));
  (68%N, (#, #, #, (-7643494584741751) @ (-49)));
  (69%N, ((-985322676152685) @ (-46), #, #, (-7477852487122849) @ (-49)));
  (70%N, (#, #, #, (-4392620273043229) @ (-48)));
  (71%N, (#, #, #, (-6848457339860269) @ (-49)));
  (72%N, (#, #, #, (-302852298247679) @ (-44)));
  (73%N, ((-689631537209171) @ (-46), (-1544044872304571) @ (-47), (-5127597832294121) @ (-49), (-5748898170095491) @ (-49)));
  (74%N, ((-7502517753044599) @ (-49), (-7346801008249289) @ (-49), (-3224787349219635) @ (-48), (-3688528646784237) @ (-48)));
  (75%N, (#, #, #, (-2130163006223681) @ (-47)));
  (76%N, ((-609902861438431) @ (-45), (-358403368121969) @ (-45), (-5316653436960191) @ (-49), (-6019661706986367) @ (-49)));
  (77%N, (#, #, #, (-1930728693765227) @ (-47)));
  (78%N, ((-6493846843300471) @ (-49), (-6975678712175689) @ (-49), (-7149325314970619) @ (-49), (-2643026035801935) @ (-48)));
  (79%N, (#, #, #, (-4650533185457697) @ (-48)));
  (80%N, (#, #, #, (-302852298247679) @ (-44)));
  (81%N, (#, #, #, (-302852298247679) @ (-44)));
  (82%N, (#, (-5902862886938293) @ (-49), (-2994175332615059) @ (-48), (-1893476528496951) @ (-47)));
  (85%N, (#, #, (-609902861438431) @ (-45), (-2130163006223681) @ (-47)));
  (86%N, (#, #, (-2146956065995973) @ (-47), (-8292395461171265) @ (-49)));
  (87%N, (#, #, #, (-302852298247679) @ (-44)));
  (89%N, ((-1232033725999109) @ (-47), (-2413569029196609) @ (-48), (-4996492499945803) @ (-49), (-5037258087930193) @ (-49)));
  (90%N, (#, #, (-609902861438431) @ (-45), (-6834204681034783) @ (-49)));
  (92%N, ((-609902861438431) @ (-45), (-2913665322968923) @ (-48), (-6545628325304225) @ (-49), (-3510057111638175) @ (-48)));
  (93%N, (#, #, #, (-302852298247679) @ (-44)));
  (94%N, ((-6285263708531205) @ (-49), (-7131195537680991) @ (-49), (-6901376920123951) @ (-49), (-1525373851406443) @ (-47)));
  (95%N, (#, #, #, (-70881326618687) @ (-42)));
  (96%N, (#, #, #, (-4392620273043229) @ (-48)));
  (97%N, (#, #, #, (-1625339725946889) @ (-47)));
  (98%N, (#, #, #, (-2001206550016447) @ (-47)));
  (99%N, (#, #, #, (-302852298247679) @ (-44)));
  (100%N, ((-2518917654849595) @ (-48), (-3038732294690165) @ (-48), (-5991137551879271) @ (-49), (-1318729353412645) @ (-47)));
  (101%N, ((-2999436700319327) @ (-48), (-5170644799025255) @ (-49), (-2748768160924579) @ (-48), (-4650533185457697) @ (-48)));
  (102%N, ((-609902861438431) @ (-45), (-3312849679805319) @ (-48), (-1601766931317963) @ (-47), (-3733460538297031) @ (-48)));
  (103%N, ((-8956236939897597) @ (-50), (-4938731006964391) @ (-49), (-8267361314967035) @ (-50), (-4888027574655825) @ (-49)));
  (104%N, (#, #, (-4260759154773655) @ (-48), (-5878368261931643) @ (-49)));
  (105%N, ((-5471969114834413) @ (-49), (-2952878618773787) @ (-48), (-5173072289439731) @ (-49), (-5690148704329661) @ (-49)));
  (107%N, (#, #, #, (-302852298247679) @ (-44)));
  (108%N, ((-222100499235933) @ (-44), (-5963781719371065) @ (-49), (-3855333411915459) @ (-48), (-2130163006223681) @ (-47)));
  (109%N, (#, #, #, (-7857128249604397) @ (-49)));
  (110%N, ((-6745617496057075) @ (-49), (-3518576224250511) @ (-48), (-796456298773427) @ (-46), (-5341554223197139) @ (-49)));
  (111%N, (#, #, #, (-70881326618687) @ (-42)));
  (114%N, ((-8197617090973557) @ (-49), #, (-6594441377450325) @ (-49), (-6909376172293041) @ (-49)));
  (115%N, (#, #, (-571248877892569) @ (-45), (-6991483479663675) @ (-49)));
  (116%N, (#, #, #, (-4297911758076491) @ (-48)));
  (118%N, (#, #, #, (-12186913822765) @ (-40)));
  (119%N, (#, #, #, (-302852298247679) @ (-44)));
  (120%N, ((-571248877892569) @ (-45), #, (-609902861438431) @ (-45), (-3951094144080465) @ (-48)));
  (121%N, (#, #, #, (-4297911758076491) @ (-48)));
  (122%N, (#, #, #, (-3879055303555717) @ (-48)));
  (123%N, (#, #, #, (-70881326618687) @ (-42)));
  (124%N, (#, #, #, (-271331332318175) @ (-44)));
  (125%N, ((-3127165452593049) @ (-48), #, #, (-3370216152975801) @ (-48)));
  (126%N, (#, #, #, (-4650533185457697) @ (-48)));
  (127%N, (#, #, #, (-7857128249604397) @ (-49)));
  (128%N, (#, #, #, (-7689790518313711) @ (-49)));
  (132%N, ((-6223952439726025) @ (-49), (-1764807936785953) @ (-47), (-7579153354239763) @ (-49), (-405971578459659) @ (-45)));
  (134%N, (#, #, #, (-302852298247679) @ (-44)));
  (138%N, ((-4958202220613403) @ (-49), (-5465600575988169) @ (-49), (-2878199792430295) @ (-48), (-2783976125608303) @ (-48)));
  (139%N, (#, #, #, (-4650533185457697) @ (-48)));
  (140%N, (#, #, #, (-8292395461171265) @ (-49)));
  (143%N, ((-6378557838240453) @ (-49), (-6425952682918579) @ (-49), (-3319495864186373) @ (-48), (-6192760204387247) @ (-49)));
  (145%N, (#, #, #, (-302852298247679) @ (-44)));
  (146%N, ((-6096857058683651) @ (-49), (-3982632372491541) @ (-48), (-238379262651975) @ (-44), (-4650533185457697) @ (-48)));
  (147%N, (#, #, #, (-302852298247679) @ (-44)));
  (148%N, ((-5525235294374897) @ (-49), (-3736209830033945) @ (-48), (-1865749067223629) @ (-47), (-6236040384715157) @ (-49)));
  (150%N, (#, #, #, (-70881326618687) @ (-42)));
  (151%N, (#, #, #, (-897148847068159) @ (-46)));
  (152%N, (#, (-8871297742822353) @ (-49), #, (-7643494584741751) @ (-49)));
  (153%N, ((-6438643287910483) @ (-49), (-5618768636579623) @ (-49), (-1259876875795385) @ (-47), (-5850717840644927) @ (-49)));
  (154%N, (#, #, #, (-4650533185457697) @ (-48)));
  (155%N, (#, #, #, (-302852298247679) @ (-44)));
  (156%N, (#, #, (-609902861438431) @ (-45), (-3198388215262301) @ (-48)));
  (157%N, (#, #, #, (-302852298247679) @ (-44)));
  (159%N, ((-4899692876851015) @ (-49), (-338886063812925) @ (-45), (-4896686193790855) @ (-49), (-612431876358403) @ (-46)));
  (160%N, ((-6470456834045967) @ (-49), (-6547927632997723) @ (-49), (-3199181070067851) @ (-48), (-70881326618687) @ (-42)));
  (165%N, (#, #, #, (-8910859197905059) @ (-49)));
  (167%N, (#, #, #, (-4650533185457697) @ (-48)));
  (168%N, ((-7374855723470995) @ (-49), (-6869814717210335) @ (-49), (-609902861438431) @ (-45), (-897148847068159) @ (-46)));
  (169%N, (#, #, #, (-302852298247679) @ (-44)));
  (170%N, (#, #, #, (-302852298247679) @ (-44)));
  (172%N, ((-3315114842255451) @ (-48), #, (-6285263708531205) @ (-49), (-2841409858074167) @ (-48)));
  (174%N, (#, #, #, (-302852298247679) @ (-44)));
  (175%N, (#, #, #, (-4227173035229071) @ (-48)));
  (176%N, (#, #, #, (-302852298247679) @ (-44)));
  (177%N, ((-1019160804505741) @ (-47), (-8438910005164435) @ (-50), (-4700865724558665) @ (-49), (-4650533185457697) @ (-48)));
  (178%N, (#, #, #, (-442294618973983) @ (-45)));
  (179%N, (#, (-3817185134677383) @ (-48), (-4426206392587813) @ (-48), (-7835882333724349) @ (-49)));
  (180%N, (#, #, #, (-7367903434101099) @ (-49)));
  (181%N, (#, #, (-2017999609788739) @ (-47), (-3370216152975801) @ (-48)));
  (182%N, (#, #, #, (-6105338082344209) @ (-49)));
  (183%N, (#, #, #, (-5781015291172637) @ (-49)));
  (184%N, (#, #, #, (-2965850580774743) @ (-48)));
  (185%N, ((-3582982720657843) @ (-48), (-8871297742822353) @ (-49), (-6291183320945945) @ (-49), (-906660926466427) @ (-46)));
  (186%N, (#, #, #, (-6222822169158439) @ (-49)));
  (187%N, (#, #, #, (-6424971274762273) @ (-49)));
  (188%N, (#, #, #, (-3236436532855373) @ (-48)));
  (189%N, (#, #, #, (-70881326618687) @ (-42)));
  (190%N, ((-1667112136435627) @ (-47), (-1544044872304571) @ (-47), (-6775758268305351) @ (-49), (-1683626615562721) @ (-47)));
  (191%N, (#, #, #, (-302852298247679) @ (-44)));
  (193%N, (#, (-6680397687276859) @ (-49), (-404505981231041) @ (-45), (-4392620273043229) @ (-48)));
  (194%N, (#, #, #, (-6678445256967907) @ (-49)));
  (195%N, ((-2534496799463105) @ (-48), (-2716048550332945) @ (-48), (-5765681739969729) @ (-49), (-6118011084002939) @ (-49)));
  (200%N, ((-2532131165611903) @ (-48), (-2673195645392945) @ (-48), (-4831002529141121) @ (-49), (-2554587940630439) @ (-48)));
  (201%N, ((-3903704958981611) @ (-48), #, (-6223952439726025) @ (-49), (-409785891556225) @ (-45)));
  (202%N, (#, (-3817185134677383) @ (-48), (-609902861438431) @ (-45), (-8130444851884389) @ (-49)));
  (205%N, (#, #, #, (-302852298247679) @ (-44)));
  (206%N, ((-7133162962201383) @ (-49), (-3736209830033945) @ (-48), (-1758965277191057) @ (-47), (-7158105899608537) @ (-49)));
  (207%N, (#, #, #, (-8395033373076123) @ (-49)));
  (208%N, (#, #, #, (-302852298247679) @ (-44)));
  (210%N, ((-4899692876851015) @ (-49), (-5392257655505705) @ (-49), (-5041055487530225) @ (-49), (-302852298247679) @ (-44)));
  (212%N, (#, #, #, (-8292395461171265) @ (-49)));
  (213%N, ((-1220837843860305) @ (-47), (-4325674422120141) @ (-49), (-4812454559242781) @ (-49), (-2780289432737943) @ (-48)));
  (217%N, ((-6775758268305351) @ (-49), (-8871297742822353) @ (-49), (-6659219651292893) @ (-49), (-5789201813822379) @ (-49)));
  (218%N, (#, (-8871297742822353) @ (-49), (-4684119305002281) @ (-48), (-302852298247679) @ (-44)));
  (220%N, ((-546860929579423) @ (-45), #, (-6619465495119071) @ (-49), (-2865137038551715) @ (-48)));
  (221%N, (#, #, #, (-70881326618687) @ (-42)));
  (223%N, ((-4368561229524645) @ (-49), (-8678309298429699) @ (-50), (-1060843260598861) @ (-47), (-302852298247679) @ (-44)));
  (224%N, ((-8359567700260433) @ (-49), #, (-4260759154773655) @ (-48), (-4227173035229071) @ (-48)));
  (229%N, ((-3498510787487123) @ (-48), (-6397442795887179) @ (-49), (-2797166955854779) @ (-48), (-6348737813837223) @ (-49)));
  (230%N, ((-5791046291515913) @ (-49), (-334622643602717) @ (-45), (-95382707368689) @ (-43), (-6820303975927183) @ (-49)));
  (231%N, ((-7556172614326021) @ (-49), #, (-3756423699901591) @ (-48), (-6951095251765127) @ (-49)));
  (234%N, (#, #, #, (-4650533185457697) @ (-48)));
  (235%N, (#, #, #, (-7127668759912815) @ (-49)));
  (237%N, ((-746912269962565) @ (-46), (-3292735769582677) @ (-48), (-5687593100752527) @ (-49), (-4392620273043229) @ (-48)));
  (238%N, (#, (-6646945275490687) @ (-49), (-3502711984534253) @ (-48), (-7643494584741751) @ (-49)));
  (244%N, ((-7756962757402879) @ (-49), (-4240545284906009) @ (-48), (-1986594946834089) @ (-47), (-5900035482632401) @ (-49)));
  (249%N, (#, #, (-7591005369967043) @ (-49), (-302852298247679) @ (-44)));
  (250%N, (#, #, #, (-4650533185457697) @ (-48)));
  (251%N, (#, #, #, (-271331332318175) @ (-44)));
  (252%N, (#, #, (-834728907770341) @ (-46), (-7795654513279065) @ (-49)));
  (253%N, (#, #, #, (-302852298247679) @ (-44)));
  (254%N, (#, #, (-3157752297922227) @ (-48), (-7217418596990555) @ (-49)));
  (255%N, (#, (-3817185134677383) @ (-48), #, (-302852298247679) @ (-44)))].

(** prob_emit.py, characters 0x7200 to 0x72ff *)
Definition emit_72 : list (N * num4) := [
  (6%N, ((-1164564983748585) @ (-47), (-2955795484013275) @ (-48), (-5987656093947163) @ (-49), (-10821157850789) @ (-40)));
  (7%N, (#, #, #, (-4650533185457697) @ (-48)));
  (8%N, (#, #, #, (-302852298247679) @ (-44)));
  (10%N, (#, #, #, (-4650533185457697) @ (-48)));
  (12%N, (#, #, #, (-70881326618687) @ (-42)));
  (13%N, (#, (-6538920241582019) @ (-49), (-23275673171385) @ (-41), (-3543822657056257) @ (-48)));
  (16%N, ((-5723762144038383) @ (-49), (-5824811849997931) @ (-49), (-2711400472099159) @ (-48), (-5543977856214497) @ (-49)));
  (19%N, (#, #, #, (-302852298247679) @ (-44)));
  (20%N, (#, #, (-609902861438431) @ (-45), #));
  (26%N, (#, #, #, (-302852298247679) @ (-44)));
  (27%N, ((-1580438179295035) @ (-47), (-5398115668338661) @ (-49), (-5356155761096201) @ (-49), (-8033701757752085) @ (-49)));
  (28%N, (#, #, #, (-4392620273043229) @ (-48)));
  (29%N, (#, #, #, (-302852298247679) @ (-44)));
  (30%N, (#, #, #, (-239810366388671) @ (-44)));
  (31%N, (#, #, #, (-302852298247679) @ (-44)));
  (33%N, (#, #, #, (-302852298247679) @ (-44)));
  (34%N, (#, #, #, (-4297911758076491) @ (-48)));
  (35%N, (#, #, #, (-3951094144080465) @ (-48)));
  (39%N, (#, #, #, (-4650533185457697) @ (-48)));
  (40%N, ((-609902861438431) @ (-45), #, (-571248877892569) @ (-45), (-7587152606408853) @ (-49)));
  (41%N, (#, #, #, (-302852298247679) @ (-44)));
  (42%N, ((-1543610385251581) @ (-47), (-1725734743489383) @ (-47), (-6244386486481481) @ (-49), (-5660512917016119) @ (-49)));
  (43%N, (#, #, #, (-8205616343142647) @ (-49)));
  (44%N, ((-741758042513715) @ (-46), (-3278540746232549) @ (-48), (-6470456834045967) @ (-49), (-2507850851502237) @ (-48)));
  (45%N, ((-8775154633192523) @ (-50), (-1106169645720209) @ (-47), (-7543472464392975) @ (-50), (-5044972842805045) @ (-49)));
  (47%N, (#, #, #, (-302852298247679) @ (-44)));
  (48%N, ((-4684119305002281) @ (-48), (-8252834006088559) @ (-49), (-8197617090973557) @ (-49), (-6925694704825637) @ (-49)));
  (49%N, ((-8435143890951347) @ (-50), (-8084725246749355) @ (-50), (-4565880574599219) @ (-49), (-8565231682832343) @ (-50)));
  (50%N, (#, #, #, (-3549396601113259) @ (-48)));
  (53%N, ((-1540029085439411) @ (-47), (-5963781719371065) @ (-49), (-2708866926851005) @ (-48), (-3055089305238567) @ (-48)));
  (54%N, ((-2112793123304541) @ (-48), (-2734798935279383) @ (-48), (-4393188970516049) @ (-49), (-2592890341428075) @ (-48)));
  (55%N, ((-5388014000091975) @ (-49), (-328401126567299) @ (-45), (-8666543517345485) @ (-50), (-644088103279601) @ (-46)));
  (56%N, ((-5363895591228733) @ (-49), (-4240545284906009) @ (-48), (-2649917657507481) @ (-48), (-1378464748691387) @ (-47)));
  (57%N, ((-2589243839184489) @ (-48), (-8090883396801683) @ (-49), (-5156338620974639) @ (-49), (-2575466435123111) @ (-48)));
  (58%N, ((-5388014000091975) @ (-49), (-328401126567299) @ (-45), (-8666543517345485) @ (-50), (-2001206550016447) @ (-47)));
  (59%N, ((-3912641423100301) @ (-48), #, (-7773281289935475) @ (-49), (-1797570806504343) @ (-47)));
  (60%N, (#, #, #, (-4650533185457697) @ (-48)));
  (61%N, ((-1464644345588019) @ (-47), (-761679484000969) @ (-46), (-5700364558527349) @ (-49), (-3031327935917895) @ (-48)));
  (62%N, ((-2707608654855269) @ (-48), (-6058377868527773) @ (-50), (-4023753221559063) @ (-49), (-1263198698153409) @ (-47)));
  (63%N, (#, (-4240545284906009) @ (-48), (-8978031436994227) @ (-49), (-6909376172293041) @ (-49)));
  (64%N, (#, #, #, (-4392620273043229) @ (-48)));
  (65%N, (#, #, #, (-4170689255897351) @ (-48)));
  (66%N, (#, #, #, (-3888284818171165) @ (-48)));
  (67%N, (#, #, #, (-302852298247679) @ (-44)));
  (70%N, ((-2558575211515935) @ (-48), (-3005360696119749) @ (-48), (-2375827453045573) @ (-48), (-4846871219301819) @ (-49)));
  (71%N, ((-4908708372428907) @ (-49), (-2377160333275039) @ (-48), (-122540044214165) @ (-44), (-2389168082318925) @ (-48)));
  (72%N, ((-2460705262244385) @ (-48), (-8661560359836013) @ (-50), (-4624786128435589) @ (-49), (-4940286773924727) @ (-49)));
  (75%N, (#, #, #, (-302852298247679) @ (-44)));
  (76%N, ((-5195903343001835) @ (-49), (-5438387109717167) @ (-49), (-8872995676544269) @ (-50), (-2575289573680465) @ (-48)));
  (77%N, (#, (-8252834006088559) @ (-49), (-3420680487369323) @ (-48), (-7121773942140261) @ (-49)));
  (78%N, (#, #, #, (-976926146266539) @ (-46)));
  (79%N, (#, #, #, (-4392620273043229) @ (-48)));
  (80%N, (#, #, #, (-271331332318175) @ (-44)));
  (82%N, (#, #, (-6150764798588815) @ (-49), (-6527269138361157) @ (-49)));
  (86%N, (#, #, (-4081744231472905) @ (-48), (-7614619027055453) @ (-49)));
  (88%N, (#, (-8252834006088559) @ (-49), (-3420680487369323) @ (-48), (-70881326618687) @ (-42)));
  (89%N, ((-328040034052803) @ (-45), (-1083715690232229) @ (-47), (-4723331985727291) @ (-49), (-5233891777657849) @ (-49)));
  (90%N, (#, #, #, (-3888284818171165) @ (-48)));
  (91%N, ((-4554390840258703) @ (-49), (-4848909911439557) @ (-49), (-634135107803545) @ (-46), (-2381470757537539) @ (-48)));
  (93%N, ((-7556172614326021) @ (-49), #, #, (-7835882333724349) @ (-49)));
  (94%N, (#, #, #, (-8910859197905059) @ (-49)));
  (95%N, ((-2976009353880921) @ (-48), (-6028481538756893) @ (-49), (-1870602565026865) @ (-47), (-3326189051272823) @ (-48)));
  (96%N, (#, #, #, (-7614619027055453) @ (-49)));
  (97%N, ((-1485262427086723) @ (-47), (-428372245208381) @ (-45), (-4260759154773655) @ (-48), (-6079895009566879) @ (-49)));
  (98%N, ((-2661080069777705) @ (-48), (-5817322383168251) @ (-49), (-5648644952269285) @ (-49), (-1423230465604373) @ (-47)));
  (99%N, (#, #, #, (-302852298247679) @ (-44)));
  (100%N, (#, #, #, (-271331332318175) @ (-44)));
  (101%N, (#, #, #, (-4297911758076491) @ (-48)));
  (102%N, ((-6645653935753893) @ (-49), #, #, (-4650533185457697) @ (-48)));
  (103%N, ((-5169490756545117) @ (-49), (-71690057607153) @ (-43), (-5431521072274921) @ (-49), (-5904066167775883) @ (-49)));
  (105%N, ((-4050921835827981) @ (-49), (-6923692122536799) @ (-50), (-3350919357069541) @ (-49), (-573738866661655) @ (-46)));
  (106%N, (#, #, #, (-302852298247679) @ (-44)));
  (108%N, (#, #, #, (-1853809505254573) @ (-47)));
  (109%N, (#, #, #, (-4392620273043229) @ (-48)));
  (110%N, (#, (-8871297742822353) @ (-49), (-609902861438431) @ (-45), (-4650533185457697) @ (-48)));
  (111%N, ((-895045487878171) @ (-46), (-4240545284906009) @ (-48), #, (-7245928484021955) @ (-49)));
  (113%N, (#, #, #, (-50343730531441) @ (-42)));
  (114%N, ((-2876593326726811) @ (-48), (-5455077840579633) @ (-49), (-5356155761096201) @ (-49), (-3460785255448521) @ (-48)));
  (115%N, (#, #, #, (-8033701757752085) @ (-49)));
  (116%N, (#, #, #, (-3549396601113259) @ (-48)));
  (117%N, ((-5121604164247915) @ (-49), (-6166874319454763) @ (-49), (-7054022359647307) @ (-49), (-2710569957009137) @ (-48)));
  (118%N, (#, #, #, (-302852298247679) @ (-44)));
  (120%N, (#, #, #, (-1848956007451337) @ (-47)));
  (121%N, ((-6879803089037125) @ (-50), (-887657797145539) @ (-47), (-8437839510648071) @ (-50), (-579894409277791) @ (-46)));
  (122%N, ((-5362521983503503) @ (-49), (-6262177274778075) @ (-49), #, (-7658507473194481) @ (-49)));
  (123%N, (#, #, #, (-8064138897447807) @ (-49)));
  (125%N, ((-5121604164247915) @ (-49), (-6166874319454763) @ (-49), (-7054022359647307) @ (-49), (-2710569957009137) @ (-48)));
  (126%N, (#, #, (-8462205612165291) @ (-49), (-8395033373076123) @ (-49)));
  (128%N, ((-1588852580761685) @ (-47), (-6869814717210335) @ (-49), (-1800199549239177) @ (-47), (-6938251729979339) @ (-49)));
  (129%N, ((-6340924261802893) @ (-49), (-5932498674251835) @ (-49), (-6325535149909711) @ (-49), (-6172850272411399) @ (-49)));
  (130%N, (#, #, #, (-302852298247679) @ (-44)));
  (132%N, ((-7320459650820583) @ (-49), #, #, (-70881326618687) @ (-42)));
  (135%N, (#, #, (-4684119305002281) @ (-48), #));
  (137%N, (#, #, #, (-302852298247679) @ (-44)));
  (138%N, ((-8100873996841253) @ (-49), (-6869814717210335) @ (-49), (-3632058836243843) @ (-48), (-7015240167258395) @ (-49)));
  (139%N, (#, #, #, (-4227173035229071) @ (-48)));
  (141%N, ((-7545024726212017) @ (-49), #, (-609902861438431) @ (-45), (-3535663390789959) @ (-48)));
  (142%N, (#, #, #, (-4650533185457697) @ (-48)));
  (143%N, (#, #, #, (-4170689255897351) @ (-48)));
  (146%N, ((-1762356706075807) @ (-47), #, #, (-7104451038327115) @ (-49)));
  (150%N, (#, (-8090883396801683) @ (-49), (-3921870937715749) @ (-48), (-3888284818171165) @ (-48)));
  (154%N, (#, #, #, (-302852298247679) @ (-44)));
  (155%N, ((-6645653935753893) @ (-49), #, #, (-4650533185457697) @ (-48)));
  (158%N, (#, #, #, (-302852298247679) @ (-44)));
  (159%N, ((-1975763643203379) @ (-47), #, (-7591005369967043) @ (-49), (-7127668759912815) @ (-49)));
  (162%N, ((-8100873996841253) @ (-49), (-6869814717210335) @ (-49), (-3632058836243843) @ (-48), (-7015240167258395) @ (-49)));
  (164%N, (#, #, #, (-302852298247679) @ (-44)));
  (166%N, (#, #, #, (-302852298247679) @ (-44)));
  (167%N, ((-5362521983503503) @ (-49), (-6262177274778075) @ (-49), #, (-7658507473194481) @ (-49)));
  (168%N, (#, #, #, (-70881326618687) @ (-42)));
  (171%N, (#, #, #, (-4170689255897351) @ (-48)));
  (172%N, ((-6582334460222915) @ (-49), (-5888610228112807) @ (-49), (-1566397569894253) @ (-47), (-1523236025667119) @ (-47)));
  (173%N, (#, #, #, (-271331332318175) @ (-44)));
  (174%N, (#, #, #, (-7614619027055453) @ (-49)));
  (175%N, ((-4772508745882937) @ (-49), (-2934621973272329) @ (-48), (-620828406244549) @ (-46), (-5059672885573865) @ (-49)));
  (176%N, ((-8359567700260433) @ (-49), #, #, #));
  (177%N, (#, #, #, (-6063550153125395) @ (-49)));
  (178%N, (#, #, #, (-5901375840297557) @ (-49)));
  (179%N, (#, #, #, (-2951359698455027) @ (-48)));
  (180%N, (#, #, (-985322676152685) @ (-46), (-8130444851884389) @ (-49)));
  (181%N, (#, #, #, (-6360747868349803) @ (-49)));
  (182%N, ((-8723281802474935) @ (-50), (-4478814267443013) @ (-49), (-8977730824210059) @ (-50), (-4764987799260783) @ (-49)));
  (183%N, ((-4331497877621075) @ (-48), #, (-6873910499477351) @ (-49), (-4297911758076491) @ (-48)));
  (184%N, (#, (-3518576224250511) @ (-48), (-4081744231472905) @ (-48), (-302852298247679) @ (-44)));
  (185%N, ((-2520656949632293) @ (-48), (-2616467805544147) @ (-48), (-3756423699901591) @ (-48), (-5617576647981363) @ (-49)));
  (186%N, (#, #, #, (-6373019742929881) @ (-49)));
  (187%N, (#, #, #, (-869977916606673) @ (-46)));
  (188%N, (#, #, #, (-271331332318175) @ (-44)));
  (192%N, ((-8723281802474935) @ (-50), (-4478814267443013) @ (-49), (-8977730824210059) @ (-50), (-4764987799260783) @ (-49)));
  (193%N, (#, #, #, (-3722837580357007) @ (-48)));
  (194%N, ((-5219344892650371) @ (-49), (-6350781191660321) @ (-49), (-2718096441466453) @ (-48), (-1371317510359273) @ (-47)));
  (195%N, (#, #, #, (-302852298247679) @ (-44)));
  (196%N, ((-5376176937547601) @ (-49), (-5829860762346977) @ (-49), (-3363622269110247) @ (-48), (-1572059520989393) @ (-47)));
  (197%N, (#, #, #, (-7025030848007957) @ (-49)));
  (200%N, (#, (-1540569696027671) @ (-47), (-3088675424783151) @ (-48), (-7283724551427137) @ (-49)));
  (205%N, ((-3756423699901591) @ (-48), #, #, (-7245928484021955) @ (-49)));
  (206%N, ((-1947521753537519) @ (-47), #, #, (-3670651212387731) @ (-48)));
  (208%N, ((-5984196034170677) @ (-49), (-7852163271522405) @ (-50), (-1225982348832505) @ (-47), (-6147353841640511) @ (-49)));
  (210%N, ((-3903704958981611) @ (-48), #, (-3903704958981611) @ (-48), (-4650533185457697) @ (-48)));
  (211%N, (#, #, #, (-2130163006223681) @ (-47)));
  (212%N, (#, #, #, (-70881326618687) @ (-42)));
  (214%N, (#, #, #, (-7183698940977469) @ (-49)));
  (215%N, ((-5685966076633201) @ (-49), (-5213090109456051) @ (-49), (-1327383173822053) @ (-47), (-5050866117807263) @ (-49)));
  (217%N, ((-3276579770341245) @ (-48), #, #, (-4048158111928321) @ (-48)));
  (221%N, (#, #, #, (-4170689255897351) @ (-48)));
  (222%N, ((-3551083531600405) @ (-48), (-3887923857524803) @ (-48), (-6689783939482305) @ (-49), (-8292395461171265) @ (-49)));
  (224%N, ((-173147200910927) @ (-44), (-5465600575988169) @ (-49), (-2796994430580171) @ (-48), (-2767053736340857) @ (-48)));
  (225%N, ((-6018324662198423) @ (-49), #, #, (-6909376172293041) @ (-49)));
  (226%N, (#, #, #, (-8395033373076123) @ (-49)));
  (228%N, (#, #, #, (-70881326618687) @ (-42)));
  (231%N, (#, #, #, (-302852298247679) @ (-44)));
  (232%N, (#, #, #, (-2061833855653683) @ (-47)));
  (233%N, ((-1520677438036735) @ (-47), #, (-7350896790516305) @ (-49), (-1809666128217651) @ (-47)));
  (236%N, ((-4061387059747189) @ (-49), (-4614764696183429) @ (-49), (-1259619468337519) @ (-47), (-5211189916691665) @ (-49)));
  (237%N, ((-5323651963132949) @ (-49), #, (-1870602565026865) @ (-47), (-5969782513469415) @ (-49)));
  (238%N, ((-5489743503874539) @ (-49), (-177361545445349) @ (-44), (-5530449251127899) @ (-49), (-2980754609478867) @ (-48)));
  (239%N, (#, #, (-7219057633931153) @ (-49), (-4650533185457697) @ (-48)));
  (240%N, ((-6764610380191347) @ (-49), (-428372245208381) @ (-45), #, (-271331332318175) @ (-44)));
  (241%N, ((-1520677438036735) @ (-47), (-7427359621511357) @ (-49), (-662556166332319) @ (-46), (-184209554347537) @ (-44)));
  (242%N, (#, (-3606862978324355) @ (-48), (-1795778112687613) @ (-47), (-3505203974573573) @ (-48)));
  (243%N, (#, #, (-8359567700260433) @ (-49), (-302852298247679) @ (-44)));
  (244%N, ((-4260759154773655) @ (-48), #, #, (-70881326618687) @ (-42)));
  (247%N, (#, #, #, (-271331332318175) @ (-44)));
  (248%N, ((-7117451711230829) @ (-49), (-778145317480215) @ (-46), (-6233539330978433) @ (-49), (-3630371905756697) @ (-48)));
  (249%N, ((-5323651963132949) @ (-49), #, (-1870602565026865) @ (-47), (-5969782513469415) @ (-49)));
  (250%N, (#, #, #, (-4170689255897351) @ (-48)));
  (251%N, ((-1947521753537519) @ (-47), (-1725734743489383) @ (-47), #, (-6774188735649479) @ (-49)));
  (252%N, ((-2804687393252637) @ (-48), (-5606698803107927) @ (-49), (-2978299110653277) @ (-48), (-5247797607970439) @ (-49)));
  (253%N, (#, (-1540569696027671) @ (-47), (-3088675424783151) @ (-48), (-7283724551427137) @ (-49)))].

(** prob_emit.py, characters 0x7300 to 0x73ff *)
Definition emit_73 : list (N * num4) := [
  (1%N, (#, #, (-7545024726212017) @ (-49), (-4392620273043229) @ (-48)));
  (2%N, (#, #, #, (-8166776809352665) @ (-49)));
  (3%N, (#, #, #, (-4392620273043229) @ (-48)));
  (4%N, (#, #, #, (-4650533185457697) @ (-48)));
  (7%N, (#, #, #, (-3259584499641353) @ (-48)));
  (9%N, (#, #, #, (-4392620273043229) @ (-48)));
  (10%N, (#, #, (-3704237331932315) @ (-48), (-8395033373076123) @ (-49)));
  (12%N, (#, #, #, (-302852298247679) @ (-44)));
  (13%N, (#, #, #, (-302852298247679) @ (-44)));
  (14%N, ((-5432038251873465) @ (-49), (-195523065702511) @ (-44), (-2807001143048011) @ (-48), (-6087314556221063) @ (-49)));
  (18%N, (#, #, #, (-302852298247679) @ (-44)));
  (19%N, (#, #, #, (-1667624399052325) @ (-47)));
  (21%N, ((-3321712214036881) @ (-48), #, #, (-4297911758076491) @ (-48)));
  (22%N, ((-6311788741076455) @ (-49), #, #, (-3888284818171165) @ (-48)));
  (23%N, ((-4684119305002281) @ (-48), (-3606862978324355) @ (-48), (-2078626915425975) @ (-47), (-3702723670134365) @ (-48)));
  (24%N, (#, #, #, (-302852298247679) @ (-44)));
  (25%N, ((-6764610380191347) @ (-49), (-428372245208381) @ (-45), #, (-271331332318175) @ (-44)));
  (26%N, (#, #, #, (-4297911758076491) @ (-48)));
  (27%N, ((-4925393430365591) @ (-49), (-5645538336897909) @ (-49), (-2703991155772767) @ (-48), (-2551971831395963) @ (-48)));
  (28%N, ((-5413462398614937) @ (-49), (-6808895884777563) @ (-49), (-3341290961436923) @ (-48), (-5317978084017507) @ (-49)));
  (29%N, ((-1642132785719181) @ (-47), #, (-3761685067605859) @ (-48), (-7706109050846307) @ (-49)));
  (30%N, ((-7545024726212017) @ (-49), #, #, (-302852298247679) @ (-44)));
  (33%N, (#, #, (-8100873996841253) @ (-49), (-70881326618687) @ (-42)));
  (34%N, ((-1794334638614767) @ (-47), (-7244163096344431) @ (-49), #, (-8395033373076123) @ (-49)));
  (35%N, (#, #, #, (-302852298247679) @ (-44)));
  (36%N, (#, #, #, (-302852298247679) @ (-44)));
  (37%N, ((-1800199549239177) @ (-47), #, (-8978031436994227) @ (-49), (-472560260360877) @ (-45)));
  (41%N, ((-6819646714444379) @ (-49), (-3260663311836043) @ (-48), (-6857400519925933) @ (-49), (-7127668759912815) @ (-49)));
  (42%N, ((-349710645883247) @ (-45), (-1537178267142921) @ (-47), (-2784842544509863) @ (-48), (-5164179362667271) @ (-49)));
  (43%N, ((-3134506239141279) @ (-48), (-6301798141036885) @ (-49), (-5800424894323443) @ (-49), (-5438856076634293) @ (-49)));
  (44%N, (#, #, (-6968563171774189) @ (-49), (-1749038822580415) @ (-47)));
  (46%N, ((-5236446206240847) @ (-49), (-8142108360841719) @ (-50), (-2314031978352669) @ (-48), (-2515752422334189) @ (-48)));
  (48%N, (#, #, #, (-302852298247679) @ (-44)));
  (49%N, (#, #, #, (-7332707602050573) @ (-49)));
  (50%N, (#, #, #, (-7689790518313711) @ (-49)));
  (52%N, ((-2788500274355617) @ (-48), (-368569903113375) @ (-45), (-2988669534055717) @ (-48), (-5653989669594559) @ (-49)));
  (53%N, (#, #, #, (-302852298247679) @ (-44)));
  (54%N, ((-2520656949632293) @ (-48), (-2616467805544147) @ (-48), (-3756423699901591) @ (-48), (-5617576647981363) @ (-49)));
  (55%N, (#, (-7106171420012245) @ (-49), (-1653276102753797) @ (-47), (-7689790518313711) @ (-49)));
  (57%N, (#, #, #, (-302852298247679) @ (-44)));
  (58%N, (#, #, #, (-2130163006223681) @ (-47)));
  (59%N, (#, (-3606862978324355) @ (-48), (-1795778112687613) @ (-47), (-3505203974573573) @ (-48)));
  (62%N, (#, #, (-394332816324959) @ (-45), (-4048158111928321) @ (-48)));
  (63%N, ((-106184602910939) @ (-43), (-6171507678560299) @ (-49), (-406948109194601) @ (-45), (-766245999084601) @ (-46)));
  (65%N, (#, (-3518576224250511) @ (-48), (-4081744231472905) @ (-48), (-8130444851884389) @ (-49)));
  (66%N, (#, #, #, (-271331332318175) @ (-44)));
  (67%N, (#, #, #, (-302852298247679) @ (-44)));
  (68%N, ((-1520677438036735) @ (-47), (-7427359621511357) @ (-49), (-662556166332319) @ (-46), (-184209554347537) @ (-44)));
  (69%N, ((-5489743503874539) @ (-49), (-177361545445349) @ (-44), (-5530449251127899) @ (-49), (-302852298247679) @ (-44)));
  (70%N, (#, #, #, (-8910859197905059) @ (-49)));
  (72%N, (#, #, #, (-8033701757752085) @ (-49)));
  (74%N, (#, #, #, (-7614619027055453) @ (-49)));
  (75%N, (#, #, #, (-976926146266539) @ (-46)));
  (76%N, (#, #, #, (-2130163006223681) @ (-47)));
  (77%N, (#, #, #, (-8033701757752085) @ (-49)));
  (78%N, ((-4950561000358693) @ (-49), (-2669460377617193) @ (-48), (-4784091320254261) @ (-49), (-271331332318175) @ (-44)));
  (79%N, (#, #, #, (-7857128249604397) @ (-49)));
  (80%N, ((-7350896790516305) @ (-49), (-4240545284906009) @ (-48), #, (-6820303975927183) @ (-49)));
  (82%N, (#, #, (-8462205612165291) @ (-49), (-3728098948061275) @ (-48)));
  (83%N, (#, #, #, (-2130163006223681) @ (-47)));
  (85%N, (#, #, #, (-70881326618687) @ (-42)));
  (87%N, (#, #, (-6523620964550923) @ (-49), (-906660926466427) @ (-46)));
  (88%N, (#, #, #, (-4297911758076491) @ (-48)));
  (89%N, (#, #, #, (-7689790518313711) @ (-49)));
  (90%N, (#, #, #, (-4650533185457697) @ (-48)));
  (91%N, (#, #, #, (-302852298247679) @ (-44)));
  (92%N, (#, #, #, (-4650533185457697) @ (-48)));
  (93%N, (#, #, #, (-8910859197905059) @ (-49)));
  (94%N, (#, #, #, (-4048158111928321) @ (-48)));
  (95%N, (#, #, #, (-302852298247679) @ (-44)));
  (96%N, ((-7320459650820583) @ (-49), (-7385640542039271) @ (-49), #, (-7158105899608537) @ (-49)));
  (97%N, (#, #, #, (-8910859197905059) @ (-49)));
  (100%N, (#, #, #, (-302852298247679) @ (-44)));
  (101%N, (#, #, #, (-8166776809352665) @ (-49)));
  (102%N, (#, #, #, (-8910859197905059) @ (-49)));
  (104%N, ((-4061387059747189) @ (-49), (-4614764696183429) @ (-49), (-1259619468337519) @ (-47), (-5211189916691665) @ (-49)));
  (106%N, (#, #, (-7219057633931153) @ (-49), (-4650533185457697) @ (-48)));
  (107%N, (#, #, #, (-8064138897447807) @ (-49)));
  (108%N, ((-8359567700260433) @ (-49), #, (-609902861438431) @ (-45), (-7127668759912815) @ (-49)));
  (109%N, (#, (-8252834006088559) @ (-49), (-3504836334064703) @ (-48), (-3505203974573573) @ (-48)));
  (110%N, (#, #, #, (-302852298247679) @ (-44)));
  (111%N, ((-609902861438431) @ (-45), #, #, (-7477852487122849) @ (-49)));
  (112%N, ((-3551083531600405) @ (-48), (-3887923857524803) @ (-48), (-6689783939482305) @ (-49), (-8292395461171265) @ (-49)));
  (114%N, ((-8266176346872783) @ (-50), (-2702017640376701) @ (-48), (-1279102886623489) @ (-47), (-4636808015977677) @ (-49)));
  (116%N, (#, #, #, (-8166776809352665) @ (-49)));
  (117%N, ((-5432038251873465) @ (-49), (-195523065702511) @ (-44), (-2807001143048011) @ (-48), (-6087314556221063) @ (-49)));
  (119%N, ((-4331497877621075) @ (-48), #, (-6873910499477351) @ (-49), (-4297911758076491) @ (-48)));
  (120%N, ((-1525696840335231) @ (-47), (-1578412539191041) @ (-47), (-2675601875183011) @ (-48), (-2699634792924853) @ (-48)));
  (122%N, (#, (-8252834006088559) @ (-49), (-3504836334064703) @ (-48), (-3505203974573573) @ (-48)));
  (123%N, ((-5236446206240847) @ (-49), (-8142108360841719) @ (-50), (-2314031978352669) @ (-48), (-2515752422334189) @ (-48)));
  (124%N, ((-3321712214036881) @ (-48), #, #, (-302852298247679) @ (-44)));
  (126%N, ((-4684119305002281) @ (-48), #, (-3761685067605859) @ (-48), (-3030435779935781) @ (-48)));
  (127%N, (#, #, #, (-302852298247679) @ (-44)));
  (128%N, (#, #, (-8100873996841253) @ (-49), (-70881326618687) @ (-42)));
  (129%N, (#, #, #, (-2061833855653683) @ (-47)));
  (131%N, (#, #, #, (-302852298247679) @ (-44)));
  (132%N, ((-4881791686260897) @ (-49), (-1263475417038587) @ (-47), (-5833217418619425) @ (-49), (-2845304974854267) @ (-48)));
  (134%N, (#, #, #, (-70881326618687) @ (-42)));
  (135%N, ((-4896086779409373) @ (-49), (-5435862666233817) @ (-49), (-997508453019621) @ (-47), (-4595225844993819) @ (-49)));
  (136%N, (#, #, #, (-70881326618687) @ (-42)));
  (137%N, ((-8808498817901617) @ (-50), (-7220910584233903) @ (-50), (-8613929512759981) @ (-50), (-1220243519135677) @ (-47)));
  (139%N, ((-6589887102206713) @ (-50), (-4088952286034759) @ (-49), (-993779143352343) @ (-47), (-8248942093296657) @ (-50)));
  (142%N, ((-1998329865051197) @ (-47), #, (-571248877892569) @ (-45), (-7158105899608537) @ (-49)));
  (144%N, (#, #, #, (-302852298247679) @ (-44)));
  (145%N, (#, (-1604672177941807) @ (-47), (-1845768529231285) @ (-47), (-3688528646784237) @ (-48)));
  (146%N, (#, #, (-4684119305002281) @ (-48), #));
  (147%N, (#, #, (-609902861438431) @ (-45), (-302852298247679) @ (-44)));
  (149%N, (#, #, (-609902861438431) @ (-45), (-7857128249604397) @ (-49)));
  (150%N, ((-4331497877621075) @ (-48), (-1673001328511805) @ (-47), (-7417202744952887) @ (-49), (-1777541578842475) @ (-47)));
  (151%N, (#, #, #, (-4650533185457697) @ (-48)));
  (152%N, (#, #, #, (-3728098948061275) @ (-48)));
  (153%N, (#, (-8871297742822353) @ (-49), #, (-8910859197905059) @ (-49)));
  (154%N, (#, #, #, (-4650533185457697) @ (-48)));
  (155%N, ((-1400407315395609) @ (-47), (-4918778852158661) @ (-49), (-2776702157144723) @ (-48), (-3069552671552913) @ (-48)));
  (156%N, (#, #, #, (-302852298247679) @ (-44)));
  (157%N, (#, #, #, (-4170689255897351) @ (-48)));
  (158%N, (#, #, #, (-4650533185457697) @ (-48)));
  (159%N, (#, #, (-2017999609788739) @ (-47), (-70881326618687) @ (-42)));
  (160%N, (#, #, #, (-7065990723112215) @ (-49)));
  (161%N, (#, #, #, (-8033701757752085) @ (-49)));
  (162%N, (#, (-1925169055947837) @ (-47), (-4426206392587813) @ (-48), (-8395033373076123) @ (-49)));
  (165%N, (#, (-8871297742822353) @ (-49), (-7696043924970107) @ (-49), (-4227173035229071) @ (-48)));
  (166%N, (#, #, #, (-8166776809352665) @ (-49)));
  (168%N, (#, #, #, (-302852298247679) @ (-44)));
  (169%N, ((-5096107183488917) @ (-49), (-313663064237637) @ (-45), (-2853535706587959) @ (-48), (-312108424737159) @ (-45)));
  (170%N, (#, #, #, (-4650533185457697) @ (-48)));
  (171%N, ((-6026446048279327) @ (-49), (-6246014922008839) @ (-49), (-7082412406347563) @ (-49), (-6234825821237725) @ (-49)));
  (173%N, (#, #, (-609902861438431) @ (-45), (-302852298247679) @ (-44)));
  (174%N, (#, (-5758505895561349) @ (-49), (-3063576879661641) @ (-48), (-6344299289240549) @ (-49)));
  (175%N, ((-8110554825942563) @ (-50), (-1115734075615097) @ (-47), (-4831091483862555) @ (-49), (-5011819274144409) @ (-49)));
  (176%N, ((-3378218970124957) @ (-49), (-4819501845480773) @ (-49), (-6620412589556047) @ (-50), (-4595094006596631) @ (-49)));
  (177%N, (#, #, #, (-302852298247679) @ (-44)));
  (178%N, ((-6323010706426361) @ (-49), (-4740969448995545) @ (-49), (-4792584171949091) @ (-49), (-1706802855995055) @ (-47)));
  (179%N, ((-7298665317991735) @ (-49), (-8090883396801683) @ (-49), #, (-7835882333724349) @ (-49)));
  (183%N, ((-3543643231182759) @ (-48), #, #, (-4170689255897351) @ (-48)));
  (185%N, (#, #, #, (-6478456086215057) @ (-49)));
  (186%N, ((-3903704958981611) @ (-48), (-6646945275490687) @ (-49), (-5963870723489121) @ (-49), (-6629907050266015) @ (-49)));
  (187%N, ((-5207068238924219) @ (-49), (-2973961462747413) @ (-48), (-7862826752368233) @ (-49), (-6351716391968069) @ (-49)));
  (192%N, ((-6901376920123951) @ (-49), (-1725734743489383) @ (-47), (-3325069808243375) @ (-48), (-6885752428364879) @ (-49)));
  (194%N, ((-4684119305002281) @ (-48), (-3278540746232549) @ (-48), (-3430332003528151) @ (-48), (-5778852176298239) @ (-49)));
  (197%N, (#, #, (-571248877892569) @ (-45), (-3370216152975801) @ (-48)));
  (200%N, (#, (-3760701355345663) @ (-48), (-6551267270149819) @ (-49), (-204169426815881) @ (-44)));
  (201%N, ((-609902861438431) @ (-45), (-3638170211376633) @ (-48), (-7284590836079723) @ (-49), (-4650533185457697) @ (-48)));
  (202%N, ((-5728122738679531) @ (-49), (-5416064583611781) @ (-49), (-180772444057569) @ (-44), (-5443596735836107) @ (-49)));
  (204%N, (#, #, #, (-4227173035229071) @ (-48)));
  (205%N, ((-4799270116968217) @ (-49), (-1205826751056823) @ (-47), (-4725613969702791) @ (-49), (-5707947273530989) @ (-49)));
  (206%N, (#, #, #, (-8910859197905059) @ (-49)));
  (207%N, (#, (-7082212487057555) @ (-49), (-6606814401963911) @ (-49), (-4170689255897351) @ (-48)));
  (208%N, ((-1814363866276635) @ (-47), #, #, (-1848956007451337) @ (-47)));
  (209%N, (#, (-6669024574133477) @ (-49), (-6200169566179625) @ (-49), (-880642292618137) @ (-46)));
  (210%N, (#, #, #, (-7600718321947853) @ (-49)));
  (211%N, (#, #, #, (-8910859197905059) @ (-49)));
  (214%N, (#, #, (-609902861438431) @ (-45), #));
  (215%N, (#, #, #, (-6870536638503059) @ (-49)));
  (216%N, (#, #, #, (-8910859197905059) @ (-49)));
  (217%N, ((-3667736269636657) @ (-48), (-3982632372491541) @ (-48), (-8100873996841253) @ (-49), (-8166776809352665) @ (-49)));
  (219%N, (#, #, #, (-1745563646303515) @ (-47)));
  (220%N, (#, #, #, (-4170689255897351) @ (-48)));
  (221%N, (#, #, (-609902861438431) @ (-45), #));
  (222%N, ((-5828488926441687) @ (-49), #, (-3756423699901591) @ (-48), (-5548978713559679) @ (-49)));
  (223%N, (#, #, #, (-6644787651101307) @ (-49)));
  (224%N, ((-321975163421637) @ (-45), (-4905368735276811) @ (-49), (-4882083799016783) @ (-49), (-5250113844448287) @ (-49)));
  (225%N, (#, #, #, (-70881326618687) @ (-42)));
  (227%N, (#, (-8871297742822353) @ (-49), (-8359567700260433) @ (-49), (-2001206550016447) @ (-47)));
  (229%N, (#, #, (-3921870937715749) @ (-48), (-8166776809352665) @ (-49)));
  (230%N, (#, #, #, (-4227173035229071) @ (-48)));
  (231%N, (#, (-8252834006088559) @ (-49), (-8978031436994227) @ (-49), (-4650533185457697) @ (-48)));
  (233%N, ((-4260759154773655) @ (-48), (-7575057571972747) @ (-49), (-6976548411382209) @ (-49), (-1636483042981505) @ (-47)));
  (234%N, (#, #, (-4331497877621075) @ (-48), (-6416531087377849) @ (-49)));
  (235%N, (#, #, #, (-2001206550016447) @ (-47)));
  (237%N, ((-633522461904665) @ (-46), (-8075859847347325) @ (-50), (-2286911485480035) @ (-48), (-2467237813015041) @ (-48)));
  (238%N, (#, (-7106171420012245) @ (-49), (-4204275375441935) @ (-48), (-3211636541784881) @ (-48)));
  (239%N, (#, #, #, (-7183698940977469) @ (-49)));
  (240%N, (#, #, (-609902861438431) @ (-45), (-192732576571671) @ (-44)));
  (242%N, ((-1910269588269243) @ (-47), (-8871297742822353) @ (-49), (-985322676152685) @ (-46), (-7121773942140261) @ (-49)));
  (244%N, (#, #, #, (-70881326618687) @ (-42)));
  (245%N, (#, #, #, (-7628871685880939) @ (-49)));
  (246%N, (#, #, #, (-7386362463331995) @ (-49)));
  (247%N, (#, #, #, (-3870118839437027) @ (-48)));
  (249%N, (#, #, (-609902861438431) @ (-45), (-70881326618687) @ (-42)));
  (250%N, (#, (-7346801008249289) @ (-49), (-3912641423100301) @ (-48), (-4297911758076491) @ (-48)));
  (252%N, (#, #, #, (-302852298247679) @ (-44)));
  (253%N, (#, #, #, (-8395033373076123) @ (-49)));
  (254%N, ((-3378218970124957) @ (-49), (-4819501845480773) @ (-49), (-6620412589556047) @ (-50), (-4595094006596631) @ (-49)))].

(** prob_emit.py, characters 0x7400 to 0x74ff *)
Definition emit_74 : list (N * num4) := [
  (3%N, ((-2341334309958303) @ (-48), (-2130815989172359) @ (-48), (-4058876561830729) @ (-49), (-4827717622888263) @ (-49)));
  (5%N, ((-7725679712283649) @ (-49), (-1508025452042197) @ (-47), (-6363471796652225) @ (-49), (-6480329465492725) @ (-49)));
  (6%N, ((-7489578964060073) @ (-50), (-1605803541922017) @ (-48), (-100264451434443) @ (-44), (-1179004900990487) @ (-47)));
  (7%N, (#, (-8871297742822353) @ (-49), (-609902861438431) @ (-45), (-7477852487122849) @ (-49)));
  (9%N, ((-2727100171680985) @ (-48), (-1617905576147995) @ (-47), #, (-1659945904641701) @ (-47)));
  (10%N, (#, #, #, (-3728098948061275) @ (-48)));
  (11%N, (#, #, #, (-302852298247679) @ (-44)));
  (13%N, (#, #, #, (-4048158111928321) @ (-48)));
  (14%N, (#, #, #, (-7425201997121977) @ (-49)));
  (15%N, (#, (-6295964410557909) @ (-49), (-6034686314485429) @ (-49), (-6810099165615153) @ (-49)));
  (16%N, ((-1625178042930149) @ (-47), (-8090883396801683) @ (-49), (-6064118186140053) @ (-49), (-6589763636441089) @ (-49)));
  (18%N, (#, #, #, (-302852298247679) @ (-44)));
  (19%N, (#, #, #, (-7795654513279065) @ (-49)));
  (21%N, (#, #, #, (-302852298247679) @ (-44)));
  (23%N, (#, #, #, (-4650533185457697) @ (-48)));
  (24%N, (#, #, #, (-8910859197905059) @ (-49)));
  (25%N, (#, #, #, (-302852298247679) @ (-44)));
  (26%N, ((-7579153354239763) @ (-49), #, (-4684119305002281) @ (-48), (-3233672435585285) @ (-48)));
  (27%N, ((-571248877892569) @ (-45), (-1764807936785953) @ (-47), (-5967207721721569) @ (-49), (-6106302863991523) @ (-49)));
  (33%N, (#, #, #, (-70881326618687) @ (-42)));
  (34%N, ((-2959866399042289) @ (-48), (-6838531672091105) @ (-49), (-3430332003528151) @ (-48), (-3362866519325475) @ (-48)));
  (35%N, (#, #, #, (-70881326618687) @ (-42)));
  (36%N, (#, #, (-4684119305002281) @ (-48), (-7523833130877875) @ (-49)));
  (37%N, ((-6764610380191347) @ (-49), #, (-7725679712283649) @ (-49), (-4170689255897351) @ (-48)));
  (38%N, ((-8978031436994227) @ (-49), (-4541279892688439) @ (-49), (-5822763080049859) @ (-49), (-1783406489466885) @ (-47)));
  (39%N, (#, #, #, (-302852298247679) @ (-44)));
  (40%N, (#, (-7385640542039271) @ (-49), (-3504836334064703) @ (-48), (-4227173035229071) @ (-48)));
  (42%N, ((-2078626915425975) @ (-47), (-5758505895561349) @ (-49), (-2782539405024189) @ (-48), (-3612205927022559) @ (-48)));
  (43%N, (#, #, #, (-8395033373076123) @ (-49)));
  (44%N, ((-4260759154773655) @ (-48), (-7015906532620973) @ (-49), (-7343131840464381) @ (-49), (-8205616343142647) @ (-49)));
  (45%N, (#, #, #, (-302852298247679) @ (-44)));
  (46%N, (#, (-7244163096344431) @ (-49), (-3480344808752985) @ (-48), (-1877995278787649) @ (-47)));
  (47%N, (#, #, (-609902861438431) @ (-45), (-7658507473194481) @ (-49)));
  (48%N, (#, (-1796212599740603) @ (-47), (-6761857563197751) @ (-49), (-7951171338784367) @ (-49)));
  (50%N, (#, (-8871297742822353) @ (-49), (-609902861438431) @ (-45), (-70881326618687) @ (-42)));
  (51%N, ((-6645653935753893) @ (-49), (-5253506365033947) @ (-49), (-2541436971046821) @ (-48), (-6007378675271857) @ (-49)));
  (52%N, ((-2865377700546473) @ (-48), (-4844487658114059) @ (-49), (-4786633970246793) @ (-49), (-2748953285479605) @ (-48)));
  (53%N, ((-3078178531328229) @ (-48), (-7575057571972747) @ (-49), #, (-7151885394841985) @ (-49)));
  (54%N, (#, (-1617905576147995) @ (-47), (-777075903619197) @ (-46), (-7350030505863719) @ (-49)));
  (57%N, (#, #, #, (-302852298247679) @ (-44)));
  (58%N, ((-1814363866276635) @ (-47), #, #, (-8910859197905059) @ (-49)));
  (59%N, (#, #, #, (-302852298247679) @ (-44)));
  (60%N, ((-188095567111985) @ (-44), (-5237344012264711) @ (-49), (-5430488136290769) @ (-49), (-6234825821237725) @ (-49)));
  (63%N, ((-1910269588269243) @ (-47), (-8871297742822353) @ (-49), (-985322676152685) @ (-46), (-7121773942140261) @ (-49)));
  (64%N, (#, #, (-4684119305002281) @ (-48), (-3888284818171165) @ (-48)));
  (65%N, (#, (-8871297742822353) @ (-49), (-24820616783201) @ (-41), (-6686506730573393) @ (-49)));
  (68%N, (#, #, (-4204275375441935) @ (-48), (-7706109050846307) @ (-49)));
  (70%N, (#, #, #, (-4297911758076491) @ (-48)));
  (71%N, (#, #, #, (-271331332318175) @ (-44)));
  (73%N, (#, #, #, (-302852298247679) @ (-44)));
  (75%N, (#, (-5758505895561349) @ (-49), (-3063576879661641) @ (-48), (-6344299289240549) @ (-49)));
  (77%N, (#, #, #, (-4650533185457697) @ (-48)));
  (81%N, (#, #, #, (-4650533185457697) @ (-48)));
  (82%N, (#, #, #, (-4650533185457697) @ (-48)));
  (84%N, (#, #, #, (-70881326618687) @ (-42)));
  (85%N, ((-3704237331932315) @ (-48), (-4240545284906009) @ (-48), (-7284590836079723) @ (-49), (-5835591999137745) @ (-49)));
  (87%N, (#, #, (-483818997720415) @ (-45), (-1713930327752905) @ (-47)));
  (89%N, ((-7435075673190267) @ (-49), (-5645538336897909) @ (-49), (-3278481635527623) @ (-48), (-369986883717853) @ (-45)));
  (90%N, ((-609902861438431) @ (-45), (-2689790331163689) @ (-48), (-5999581959515609) @ (-49), (-8130444851884389) @ (-49)));
  (91%N, (#, (-6166874319454763) @ (-49), (-5770380848668847) @ (-49), (-3157086242900219) @ (-48)));
  (92%N, ((-3378195993368601) @ (-48), (-1454951954365857) @ (-47), (-2753900693954321) @ (-48), (-344595124991979) @ (-45)));
  (93%N, (#, #, #, (-70881326618687) @ (-42)));
  (94%N, ((-5094258413507375) @ (-49), (-4223679514229703) @ (-49), (-2533683483289113) @ (-48), (-5952620350807815) @ (-49)));
  (95%N, ((-6778580078491437) @ (-49), (-5466929856306913) @ (-49), (-2983269368870487) @ (-48), (-1617756073932301) @ (-47)));
  (96%N, ((-2146956065995973) @ (-47), (-6530054704760343) @ (-49), #, (-302852298247679) @ (-44)));
  (98%N, (#, #, (-609902861438431) @ (-45), (-302852298247679) @ (-44)));
  (99%N, ((-1625178042930149) @ (-47), (-8090883396801683) @ (-49), (-6064118186140053) @ (-49), (-6589763636441089) @ (-49)));
  (100%N, ((-2986632311820945) @ (-48), (-2641238908720209) @ (-48), (-2658010750278485) @ (-48), (-389449860913061) @ (-45)));
  (103%N, (#, #, #, (-6620200776136811) @ (-49)));
  (104%N, (#, #, #, (-302852298247679) @ (-44)));
  (105%N, ((-1910269588269243) @ (-47), (-5301000785560975) @ (-49), (-5444066437201125) @ (-49), (-8910859197905059) @ (-49)));
  (106%N, ((-1400407315395609) @ (-47), (-4918778852158661) @ (-49), (-2776702157144723) @ (-48), (-3069552671552913) @ (-48)));
  (108%N, (#, #, #, (-302852298247679) @ (-44)));
  (109%N, (#, (-8252834006088559) @ (-49), (-3645792046567143) @ (-48), (-3951094144080465) @ (-48)));
  (110%N, (#, #, #, (-2130163006223681) @ (-47)));
  (111%N, ((-7725679712283649) @ (-49), (-1508025452042197) @ (-47), (-6363471796652225) @ (-49), (-2130163006223681) @ (-47)));
  (112%N, ((-6813593430814783) @ (-49), (-2916201150721135) @ (-48), (-3070327202613245) @ (-48), (-1462832852534297) @ (-47)));
  (113%N, (#, #, (-609902861438431) @ (-45), (-70881326618687) @ (-42)));
  (114%N, (#, #, #, (-302852298247679) @ (-44)));
  (116%N, (#, #, #, (-8130444851884389) @ (-49)));
  (118%N, ((-2986632311820945) @ (-48), (-2641238908720209) @ (-48), (-2658010750278485) @ (-48), (-389449860913061) @ (-45)));
  (119%N, (#, (-3760701355345663) @ (-48), (-8100873996841253) @ (-49), (-6870536638503059) @ (-49)));
  (122%N, (#, #, #, (-4650533185457697) @ (-48)));
  (125%N, (#, #, #, (-302852298247679) @ (-44)));
  (126%N, (#, (-6017758358285381) @ (-49), (-704996188114421) @ (-46), (-440002733528793) @ (-45)));
  (128%N, ((-1762356706075807) @ (-47), (-4240545284906009) @ (-48), (-609902861438431) @ (-45), (-7307683484381827) @ (-49)));
  (129%N, (#, (-1764807936785953) @ (-47), (-6831952121402971) @ (-49), (-716037134733627) @ (-46)));
  (131%N, (#, (-2266556828845731) @ (-48), (-2660442286324975) @ (-48), (-4048158111928321) @ (-48)));
  (132%N, (#, #, #, (-302852298247679) @ (-44)));
  (134%N, (#, #, (-609902861438431) @ (-45), (-8395033373076123) @ (-49)));
  (135%N, ((-1998329865051197) @ (-47), (-6646945275490687) @ (-49), (-1560823079282837) @ (-47), (-334111859970889) @ (-45)));
  (136%N, (#, #, (-609902861438431) @ (-45), (-1848956007451337) @ (-47)));
  (137%N, (#, (-6295964410557909) @ (-49), (-6034686314485429) @ (-49), (-302852298247679) @ (-44)));
  (138%N, (#, #, #, (-8910859197905059) @ (-49)));
  (139%N, (#, (-3357982123500955) @ (-48), (-5284897795929441) @ (-49), (-6106302863991523) @ (-49)));
  (142%N, ((-8100873996841253) @ (-49), (-3817185134677383) @ (-48), (-8462205612165291) @ (-49), (-70881326618687) @ (-42)));
  (144%N, (#, (-175316281306671) @ (-44), (-720534952787487) @ (-46), (-6440490020332539) @ (-49)));
  (146%N, (#, #, #, (-302852298247679) @ (-44)));
  (151%N, (#, #, #, (-302852298247679) @ (-44)));
  (152%N, (#, (-8871297742822353) @ (-49), (-8978031436994227) @ (-49), (-6348737813837223) @ (-49)));
  (153%N, (#, #, #, (-302852298247679) @ (-44)));
  (154%N, (#, #, #, (-302852298247679) @ (-44)));
  (156%N, ((-4684119305002281) @ (-48), (-3887923857524803) @ (-48), (-6740306608050731) @ (-49), (-7350030505863719) @ (-49)));
  (157%N, (#, #, #, (-239810366388671) @ (-44)));
  (158%N, ((-8272788582231815) @ (-49), (-3518576224250511) @ (-48), (-7001207095767483) @ (-49), (-3365783384564963) @ (-48)));
  (159%N, (#, (-4240545284906009) @ (-48), (-985322676152685) @ (-46), (-442294618973983) @ (-45)));
  (160%N, (#, (-4240545284906009) @ (-48), (-8978031436994227) @ (-49), (-1930728693765227) @ (-47)));
  (161%N, (#, #, #, (-7425201997121977) @ (-49)));
  (163%N, (#, (-1604672177941807) @ (-47), (-1845768529231285) @ (-47), (-239810366388671) @ (-44)));
  (165%N, (#, #, #, (-8910859197905059) @ (-49)));
  (166%N, (#, (-3760701355345663) @ (-48), (-8100873996841253) @ (-49), (-6870536638503059) @ (-49)));
  (167%N, ((-4684119305002281) @ (-48), (-6680397687276859) @ (-49), (-856769480328013) @ (-46), (-2780289432737943) @ (-48)));
  (168%N, (#, (-3760701355345663) @ (-48), (-1746162137615165) @ (-47), (-8064138897447807) @ (-49)));
  (169%N, ((-4684119305002281) @ (-48), (-4240545284906009) @ (-48), (-4081744231472905) @ (-48), (-8166776809352665) @ (-49)));
  (170%N, (#, #, #, (-2130163006223681) @ (-47)));
  (171%N, (#, #, (-609902861438431) @ (-45), (-192732576571671) @ (-44)));
  (172%N, (#, #, #, (-2130163006223681) @ (-47)));
  (173%N, (#, #, #, (-7425201997121977) @ (-49)));
  (174%N, (#, #, #, (-239810366388671) @ (-44)));
  (176%N, ((-8110554825942563) @ (-50), (-1115734075615097) @ (-47), (-4831091483862555) @ (-49), (-1678560966329195) @ (-47)));
  (181%N, (#, (-8871297742822353) @ (-49), #, (-8910859197905059) @ (-49)));
  (183%N, (#, #, #, (-302852298247679) @ (-44)));
  (186%N, (#, (-8252834006088559) @ (-49), #, (-5980491123522969) @ (-49)));
  (189%N, ((-3903704958981611) @ (-48), (-6646945275490687) @ (-49), (-5963870723489121) @ (-49), (-6629907050266015) @ (-49)));
  (191%N, (#, #, #, (-2130163006223681) @ (-47)));
  (196%N, (#, #, #, (-4650533185457697) @ (-48)));
  (197%N, (#, #, (-609902861438431) @ (-45), #));
  (199%N, (#, #, #, (-302852298247679) @ (-44)));
  (200%N, (#, #, #, (-302852298247679) @ (-44)));
  (201%N, (#, #, #, (-8910859197905059) @ (-49)));
  (202%N, ((-188095567111985) @ (-44), (-5237344012264711) @ (-49), (-5430488136290769) @ (-49), (-6234825821237725) @ (-49)));
  (204%N, (#, #, #, (-4392620273043229) @ (-48)));
  (205%N, (#, #, #, (-4392620273043229) @ (-48)));
  (206%N, (#, #, (-609902861438431) @ (-45), #));
  (207%N, (#, (-6669024574133477) @ (-49), (-6200169566179625) @ (-49), (-880642292618137) @ (-46)));
  (208%N, (#, #, #, (-8910859197905059) @ (-49)));
  (209%N, (#, #, #, (-6837734159388757) @ (-49)));
  (210%N, (#, (-6975678712175689) @ (-49), (-7097163030666307) @ (-49), (-6589763636441089) @ (-49)));
  (212%N, ((-8100873996841253) @ (-49), (-3817185134677383) @ (-48), (-8462205612165291) @ (-49), (-70881326618687) @ (-42)));
  (213%N, (#, #, #, (-8292395461171265) @ (-49)));
  (214%N, (#, #, #, (-7600718321947853) @ (-49)));
  (216%N, (#, #, (-4684119305002281) @ (-48), (-7658507473194481) @ (-49)));
  (217%N, (#, #, #, (-5785912905031845) @ (-49)));
  (218%N, (#, (-6975678712175689) @ (-49), (-7097163030666307) @ (-49), (-70881326618687) @ (-42)));
  (219%N, (#, #, (-609902861438431) @ (-45), (-4650533185457697) @ (-48)));
  (220%N, ((-5558563112850373) @ (-49), (-2652989135578485) @ (-48), (-2693409515260591) @ (-48), (-5876439248210613) @ (-49)));
  (222%N, (#, #, #, (-302852298247679) @ (-44)));
  (223%N, (#, #, #, (-1853809505254573) @ (-47)));
  (224%N, ((-546860929579423) @ (-45), #, (-609902861438431) @ (-45), (-1893476528496951) @ (-47)));
  (226%N, ((-1762356706075807) @ (-47), (-7244163096344431) @ (-49), (-1746162137615165) @ (-47), (-6758593556834681) @ (-49)));
  (227%N, ((-7194840999001983) @ (-49), (-874429171128617) @ (-46), (-382014655813439) @ (-45), (-3116202263691401) @ (-48)));
  (228%N, ((-8233949048441833) @ (-49), (-491414177067389) @ (-45), (-8359567700260433) @ (-49), (-897148847068159) @ (-46)));
  (229%N, (#, #, #, (-7706109050846307) @ (-49)));
  (230%N, ((-2500823932559625) @ (-48), (-8539650138770197) @ (-50), (-1230169973746319) @ (-47), (-2571426475309363) @ (-48)));
  (231%N, (#, #, #, (-440002733528793) @ (-45)));
  (232%N, (#, #, #, (-7689790518313711) @ (-49)));
  (233%N, (#, #, #, (-8292395461171265) @ (-49)));
  (234%N, (#, #, #, (-4650533185457697) @ (-48)));
  (235%N, (#, #, #, (-4650533185457697) @ (-48)));
  (237%N, (#, #, #, (-70881326618687) @ (-42)));
  (238%N, ((-6937708877592227) @ (-49), (-6808895884777563) @ (-49), (-7924300488693565) @ (-49), (-768809807031151) @ (-46)));
  (239%N, ((-7681791266144621) @ (-49), (-8090883396801683) @ (-49), (-3543643231182759) @ (-48), (-225115232174701) @ (-44)));
  (240%N, (#, #, #, (-302852298247679) @ (-44)));
  (241%N, (#, #, #, (-302852298247679) @ (-44)));
  (244%N, (#, #, (-483818997720415) @ (-45), (-8064138897447807) @ (-49)));
  (246%N, ((-5906958669205309) @ (-49), (-5549950802432567) @ (-49), (-341310517322933) @ (-45), (-5469162099535799) @ (-49)));
  (247%N, ((-2885899132161729) @ (-48), (-6338130098505161) @ (-49), (-1428999298496615) @ (-47), (-744816330103361) @ (-46)));
  (248%N, (#, #, #, (-302852298247679) @ (-44)));
  (255%N, (#, #, (-571248877892569) @ (-45), (-7332707602050573) @ (-49)))].

(** prob_emit.py, characters 0x7500 to 0x75ff *)
Definition emit_75 : list (N * num4) := [
  (3%N, (#, #, #, (-4650533185457697) @ (-48)));
  (4%N, ((-372617373638147) @ (-45), (-3982632372491541) @ (-48), (-2078626915425975) @ (-47), (-1777541578842475) @ (-47)));
  (6%N, (#, #, #, (-7275959601375213) @ (-49)));
  (7%N, (#, #, #, (-70881326618687) @ (-42)));
  (11%N, (#, #, #, (-302852298247679) @ (-44)));
  (12%N, ((-7681791266144621) @ (-49), (-8090883396801683) @ (-49), (-3543643231182759) @ (-48), (-225115232174701) @ (-44)));
  (13%N, (#, #, #, (-2130163006223681) @ (-47)));
  (15%N, (#, #, #, (-1994339944854797) @ (-47)));
  (17%N, ((-4684119305002281) @ (-48), #, (-4684119305002281) @ (-48), (-1742172217418765) @ (-47)));
  (18%N, (#, #, #, (-8910859197905059) @ (-49)));
  (19%N, (#, #, #, (-7835882333724349) @ (-49)));
  (21%N, ((-6937708877592227) @ (-49), (-6808895884777563) @ (-49), (-7924300488693565) @ (-49), (-768809807031151) @ (-46)));
  (23%N, (#, #, #, (-8130444851884389) @ (-49)));
  (24%N, ((-2358270508036337) @ (-48), (-9565566737597) @ (-40), (-5989742383994363) @ (-49), (-5912215163435265) @ (-49)));
  (25%N, (#, #, (-4684119305002281) @ (-48), (-1783406489466885) @ (-47)));
  (26%N, ((-1995366583056719) @ (-48), (-2719826794668321) @ (-48), (-1607359885358511) @ (-47), (-8707313731582559) @ (-50)));
  (28%N, ((-5366883289359861) @ (-49), (-695500720191971) @ (-46), (-5692502579136605) @ (-49), (-1353016113433791) @ (-47)));
  (31%N, ((-3060441905353645) @ (-49), (-3219854688529987) @ (-49), (-2954414332518211) @ (-49), (-4047826615138615) @ (-49)));
  (32%N, (#, #, #, (-7614619027055453) @ (-49)));
  (33%N, (#, #, #, (-70881326618687) @ (-42)));
  (34%N, ((-6919904666122833) @ (-50), (-5616630236420351) @ (-50), (-3442258798986869) @ (-49), (-4720284396733549) @ (-49)));
  (35%N, (#, #, #, (-8205616343142647) @ (-49)));
  (36%N, (#, #, #, (-302852298247679) @ (-44)));
  (37%N, ((-8359567700260433) @ (-49), (-1617905576147995) @ (-47), (-6617337137372447) @ (-49), (-897148847068159) @ (-46)));
  (38%N, (#, #, #, (-2130163006223681) @ (-47)));
  (39%N, (#, #, #, (-302852298247679) @ (-44)));
  (40%N, ((-3840423611992209) @ (-49), (-3912626738354447) @ (-49), (-3088608527615219) @ (-49), (-3360242907537571) @ (-49)));
  (41%N, ((-6215565693127483) @ (-49), #, (-4081744231472905) @ (-48), (-5746345104706375) @ (-49)));
  (42%N, (#, #, #, (-271331332318175) @ (-44)));
  (43%N, ((-4426206392587813) @ (-48), (-2738839315323893) @ (-48), (-2691861964440243) @ (-48), (-766245999084601) @ (-46)));
  (44%N, ((-3181060087733251) @ (-48), (-5683334404303091) @ (-49), (-8197617090973557) @ (-49), (-7425201997121977) @ (-49)));
  (45%N, ((-1795778112687613) @ (-47), #, (-546860929579423) @ (-45), (-768679373733051) @ (-46)));
  (47%N, ((-2146956065995973) @ (-47), #, #, (-6143214485097857) @ (-49)));
  (48%N, ((-8735949524359561) @ (-50), (-7743475458326261) @ (-50), (-4611862400050295) @ (-49), (-4792944652717685) @ (-49)));
  (49%N, ((-1918974517787207) @ (-48), (-3718064205917995) @ (-49), (-8633025006587953) @ (-50), (-1674240395102853) @ (-48)));
  (50%N, ((-4919221474601133) @ (-49), (-8799890546635399) @ (-50), (-610957867078759) @ (-46), (-4927413973478515) @ (-49)));
  (51%N, ((-2321702756199325) @ (-48), (-2781213329123363) @ (-48), (-5687593100752527) @ (-49), (-5991407392644435) @ (-49)));
  (52%N, (#, #, #, (-302852298247679) @ (-44)));
  (53%N, ((-7041345884300027) @ (-50), (-7153041175294719) @ (-50), (-8775073711791917) @ (-50), (-8743427965035207) @ (-50)));
  (55%N, ((-8444938828228015) @ (-50), (-5049446416326307) @ (-49), (-6040755914559099) @ (-49), (-584154919444335) @ (-46)));
  (56%N, ((-8272788582231815) @ (-49), (-663749023946679) @ (-46), (-5624100313862067) @ (-49), (-1615014347841613) @ (-47)));
  (58%N, ((-3801556143597227) @ (-48), (-7082212487057555) @ (-49), (-1998329865051197) @ (-47), (-6859388750389055) @ (-49)));
  (59%N, ((-1182811991028673) @ (-47), (-313926618818951) @ (-45), (-2279133904278391) @ (-48), (-582981532285775) @ (-46)));
  (61%N, (#, #, #, (-302852298247679) @ (-44)));
  (62%N, ((-7502517753044599) @ (-49), (-491414177067389) @ (-45), #, (-1783406489466885) @ (-47)));
  (64%N, (#, #, #, (-3951094144080465) @ (-48)));
  (69%N, ((-5271706898013021) @ (-49), (-6397442795887179) @ (-49), (-5682322374893745) @ (-49), (-5969782513469415) @ (-49)));
  (72%N, (#, #, (-4331497877621075) @ (-48), (-976926146266539) @ (-46)));
  (74%N, (#, (-1925169055947837) @ (-47), #, (-4650533185457697) @ (-48)));
  (75%N, ((-4260759154773655) @ (-48), #, (-7545024726212017) @ (-49), (-8064138897447807) @ (-49)));
  (76%N, ((-5264168571403527) @ (-49), (-3743901075713181) @ (-49), (-7243157078158387) @ (-50), (-2400196779519671) @ (-48)));
  (77%N, (#, #, #, (-7643494584741751) @ (-49)));
  (78%N, (#, #, #, (-8130444851884389) @ (-49)));
  (79%N, ((-5850903164825681) @ (-49), (-5624021706921073) @ (-49), (-2840959485555969) @ (-48), (-6079895009566879) @ (-49)));
  (81%N, ((-2146956065995973) @ (-47), (-6794643225952077) @ (-49), (-609902861438431) @ (-45), (-7835882333724349) @ (-49)));
  (84%N, (#, (-1925169055947837) @ (-47), (-1493147101850079) @ (-47), (-5837385787017935) @ (-49)));
  (86%N, (#, #, #, (-3728098948061275) @ (-48)));
  (89%N, ((-4319014507205491) @ (-49), (-4874337780078361) @ (-49), (-4693641574441031) @ (-49), (-4736147895012125) @ (-49)));
  (90%N, ((-571248877892569) @ (-45), #, #, (-7500373488380235) @ (-49)));
  (91%N, ((-4204275375441935) @ (-48), (-8871297742822353) @ (-49), (-609902861438431) @ (-45), (-239810366388671) @ (-44)));
  (92%N, ((-5306005818372567) @ (-49), (-6838531672091105) @ (-49), (-5673116447079079) @ (-49), (-6038175930094793) @ (-49)));
  (93%N, ((-1794334638614767) @ (-47), #, (-4849998465410411) @ (-49), (-7628871685880939) @ (-49)));
  (94%N, (#, #, #, (-4170689255897351) @ (-48)));
  (96%N, ((-2146956065995973) @ (-47), #, #, (-7104451038327115) @ (-49)));
  (98%N, ((-2145769778733221) @ (-48), (-682375106580817) @ (-46), (-5657070210873331) @ (-49), (-2573088131387985) @ (-48)));
  (99%N, (#, #, #, (-302852298247679) @ (-44)));
  (100%N, (#, #, #, (-7951171338784367) @ (-49)));
  (101%N, ((-5564096634829615) @ (-49), (-8586312813018361) @ (-50), (-8396794658360181) @ (-50), (-4926581998308833) @ (-49)));
  (102%N, ((-4260759154773655) @ (-48), #, (-3984680263625049) @ (-48), (-7127668759912815) @ (-49)));
  (103%N, (#, #, #, (-1930728693765227) @ (-47)));
  (104%N, (#, #, #, (-6878093127173811) @ (-49)));
  (105%N, (#, #, #, (-1994339944854797) @ (-47)));
  (106%N, ((-6211418713391559) @ (-49), (-5660353664389349) @ (-49), (-4950671005235139) @ (-49), (-5232867673403395) @ (-49)));
  (107%N, ((-1182811991028673) @ (-47), (-313926618818951) @ (-45), (-2279133904278391) @ (-48), (-3437151102035493) @ (-48)));
  (108%N, ((-406948109194601) @ (-45), (-491414177067389) @ (-45), (-8978031436994227) @ (-49), (-1749038822580415) @ (-47)));
  (109%N, (#, #, #, (-8910859197905059) @ (-49)));
  (111%N, (#, #, (-609902861438431) @ (-45), (-4392620273043229) @ (-48)));
  (112%N, ((-4662332161024955) @ (-49), (-2390415442408897) @ (-48), (-576648728526031) @ (-46), (-5104595036834423) @ (-49)));
  (114%N, ((-406948109194601) @ (-45), (-491414177067389) @ (-45), (-8978031436994227) @ (-49), (-3344609873824017) @ (-48)));
  (116%N, ((-4426206392587813) @ (-48), (-8090883396801683) @ (-49), (-5353899445637145) @ (-49), (-1713019402318041) @ (-47)));
  (118%N, ((-3327480143388319) @ (-49), (-3817755724374677) @ (-49), (-1956369807372321) @ (-48), (-8910859197905059) @ (-49)));
  (119%N, (#, #, #, (-70881326618687) @ (-42)));
  (120%N, ((-5992536186023355) @ (-49), (-8090883396801683) @ (-49), (-7615485311708039) @ (-49), (-7332707602050573) @ (-49)));
  (121%N, ((-7756962757402879) @ (-49), (-4240545284906009) @ (-48), #, (-850842282548523) @ (-46)));
  (122%N, (#, #, #, (-302852298247679) @ (-44)));
  (123%N, (#, #, #, (-6870536638503059) @ (-49)));
  (124%N, (#, #, #, (-6694685324108583) @ (-49)));
  (126%N, (#, #, #, (-1749038822580415) @ (-47)));
  (127%N, ((-7097163030666307) @ (-49), (-7310469050781013) @ (-49), (-6877271404704321) @ (-49), (-6938251729979339) @ (-49)));
  (128%N, (#, #, #, (-4650533185457697) @ (-48)));
  (129%N, (#, #, #, (-4048158111928321) @ (-48)));
  (130%N, (#, #, #, (-271331332318175) @ (-44)));
  (131%N, (#, #, (-4331497877621075) @ (-48), (-886648957992025) @ (-46)));
  (132%N, (#, #, #, (-6529312516116161) @ (-49)));
  (134%N, ((-6034686314485429) @ (-49), (-1309779271112473) @ (-47), (-5075822284711891) @ (-49), (-3124166178377643) @ (-48)));
  (135%N, ((-4426206392587813) @ (-48), (-8090883396801683) @ (-49), (-5353899445637145) @ (-49), (-1713019402318041) @ (-47)));
  (138%N, ((-3187892340076311) @ (-48), (-5425876595899339) @ (-49), (-179517411214073) @ (-44), (-2926588070645609) @ (-48)));
  (139%N, ((-2146956065995973) @ (-47), #, #, (-3702723670134365) @ (-48)));
  (141%N, (#, #, #, (-7358896042685395) @ (-49)));
  (142%N, (#, #, #, (-4650533185457697) @ (-48)));
  (143%N, ((-5332253352058765) @ (-49), (-3042696796520353) @ (-48), (-5726374445493573) @ (-49), (-685819139851181) @ (-46)));
  (145%N, ((-5030688263489987) @ (-49), (-2499572088940587) @ (-48), (-4627877908798355) @ (-49), (-5726818871452701) @ (-49)));
  (146%N, (#, #, #, (-302852298247679) @ (-44)));
  (148%N, (#, #, (-609902861438431) @ (-45), (-7523833130877875) @ (-49)));
  (150%N, ((-8462205612165291) @ (-49), #, #, (-3870118839437027) @ (-48)));
  (151%N, ((-684379052090361) @ (-46), (-1321823375203445) @ (-47), (-4446741672291987) @ (-49), (-405138068737789) @ (-45)));
  (153%N, ((-6248784555362411) @ (-49), (-1544044872304571) @ (-47), #, (-4392620273043229) @ (-48)));
  (154%N, (#, (-1925169055947837) @ (-47), (-6310555553390721) @ (-49), (-1893476528496951) @ (-47)));
  (157%N, ((-8359567700260433) @ (-49), #, (-609902861438431) @ (-45), (-7367903434101099) @ (-49)));
  (159%N, ((-6670779604780977) @ (-49), (-3817185134677383) @ (-48), (-1998329865051197) @ (-47), (-3702723670134365) @ (-48)));
  (160%N, (#, #, (-1975763643203379) @ (-47), (-4227173035229071) @ (-48)));
  (161%N, (#, (-1725734743489383) @ (-47), (-1587524858760099) @ (-47), (-7926147221115621) @ (-49)));
  (162%N, (#, #, #, (-302852298247679) @ (-44)));
  (163%N, ((-4331497877621075) @ (-48), #, (-2017999609788739) @ (-47), (-6909376172293041) @ (-49)));
  (164%N, ((-6857400519925933) @ (-49), (-8871297742822353) @ (-49), (-6636788398932217) @ (-49), (-1672986475717779) @ (-47)));
  (165%N, ((-3912641423100301) @ (-48), (-3887923857524803) @ (-48), #, (-7795654513279065) @ (-49)));
  (167%N, (#, #, #, (-302852298247679) @ (-44)));
  (171%N, ((-6070515413542939) @ (-49), (-5392257655505705) @ (-49), (-686110532095985) @ (-46), (-6986850120558139) @ (-49)));
  (172%N, (#, #, (-2017999609788739) @ (-47), (-70881326618687) @ (-42)));
  (173%N, (#, #, #, (-70881326618687) @ (-42)));
  (174%N, ((-7117451711230829) @ (-49), (-3172210053778219) @ (-48), (-6364826670840329) @ (-49), (-3246810319127279) @ (-48)));
  (175%N, ((-2704115126255595) @ (-48), (-6065776627261503) @ (-49), (-3279437408862637) @ (-48), (-2827427540457761) @ (-48)));
  (176%N, ((-546860929579423) @ (-45), #, #, (-302852298247679) @ (-44)));
  (177%N, ((-895045487878171) @ (-46), (-7157383978315813) @ (-49), (-1839692586196131) @ (-47), (-7477852487122849) @ (-49)));
  (178%N, ((-20615527688511) @ (-41), (-5687257416369995) @ (-49), (-7399879841139741) @ (-49), (-6325460081063297) @ (-49)));
  (179%N, ((-4081744231472905) @ (-48), #, (-8272788582231815) @ (-49), (-8292395461171265) @ (-49)));
  (180%N, (#, #, (-985322676152685) @ (-46), (-4227173035229071) @ (-48)));
  (181%N, ((-2078626915425975) @ (-47), #, (-454428729292475) @ (-45), (-3670651212387731) @ (-48)));
  (182%N, (#, #, #, (-70881326618687) @ (-42)));
  (184%N, (#, #, (-3494371374993105) @ (-48), (-8910859197905059) @ (-49)));
  (185%N, ((-8462205612165291) @ (-49), (-3760701355345663) @ (-48), (-1543610385251581) @ (-47), (-7145732875094951) @ (-49)));
  (188%N, ((-1368479139791357) @ (-47), (-1688482578221107) @ (-47), (-5807941026712345) @ (-49), (-1363299881629425) @ (-47)));
  (189%N, (#, #, (-6968563171774189) @ (-49), (-1822899526423839) @ (-47)));
  (190%N, ((-4906568069493787) @ (-49), (-4799224351834277) @ (-49), (-1419075365595911) @ (-47), (-1372443416270973) @ (-47)));
  (192%N, (#, #, #, (-302852298247679) @ (-44)));
  (194%N, (#, #, (-7773281289935475) @ (-49), (-3733460538297031) @ (-48)));
  (195%N, (#, #, (-609902861438431) @ (-45), (-302852298247679) @ (-44)));
  (196%N, ((-4331497877621075) @ (-48), #, #, #));
  (197%N, ((-8685289807830941) @ (-50), (-2353420410483899) @ (-48), (-4212094229521221) @ (-49), (-2281160065652119) @ (-48)));
  (199%N, ((-662453848983609) @ (-46), (-6448324499080771) @ (-49), (-2541924373725683) @ (-48), (-5633192319438181) @ (-49)));
  (200%N, ((-7696043924970107) @ (-49), (-491414177067389) @ (-45), #, (-6881909751646441) @ (-49)));
  (201%N, ((-3257349612733795) @ (-48), (-8252834006088559) @ (-49), #, (-3543822657056257) @ (-48)));
  (202%N, ((-823797092398745) @ (-46), #, #, (-440002733528793) @ (-45)));
  (203%N, (#, #, #, (-6771034946149301) @ (-49)));
  (205%N, (#, (-7575057571972747) @ (-49), (-8018343577873535) @ (-49), (-4392620273043229) @ (-48)));
  (206%N, (#, #, #, (-8130444851884389) @ (-49)));
  (208%N, (#, #, #, (-4650533185457697) @ (-48)));
  (209%N, (#, #, #, (-302852298247679) @ (-44)));
  (210%N, ((-6890919344730931) @ (-49), (-3982632372491541) @ (-48), (-6053095037657275) @ (-49), (-3030435779935781) @ (-48)));
  (212%N, ((-222100499235933) @ (-44), #, (-8233949048441833) @ (-49), (-6955442377254011) @ (-49)));
  (213%N, ((-46023043240947) @ (-42), (-1673001328511805) @ (-47), (-5685966076633201) @ (-49), (-782930751864081) @ (-46)));
  (214%N, (#, #, #, (-271331332318175) @ (-44)));
  (215%N, (#, #, #, (-302852298247679) @ (-44)));
  (216%N, ((-2078626915425975) @ (-47), (-8252834006088559) @ (-49), (-903159767337213) @ (-46), (-6848457339860269) @ (-49)));
  (217%N, ((-3257349612733795) @ (-48), (-8252834006088559) @ (-49), #, (-3543822657056257) @ (-48)));
  (218%N, (#, #, #, (-4650533185457697) @ (-48)));
  (219%N, ((-4714078604013773) @ (-49), (-5245367187783889) @ (-49), (-4785238191918081) @ (-49), (-5069078358224675) @ (-49)));
  (221%N, (#, #, #, (-4170689255897351) @ (-48)));
  (222%N, ((-3704237331932315) @ (-48), (-8252834006088559) @ (-49), (-903159767337213) @ (-46), (-7706109050846307) @ (-49)));
  (223%N, (#, #, #, (-271331332318175) @ (-44)));
  (224%N, (#, #, #, (-4227173035229071) @ (-48)));
  (226%N, ((-7117451711230829) @ (-49), (-3638170211376633) @ (-48), (-7756962757402879) @ (-49), (-6813480256580097) @ (-49)));
  (227%N, (#, #, (-3645792046567143) @ (-48), (-3408440888610819) @ (-48)));
  (228%N, ((-7667890561037021) @ (-49), #, #, (-8910859197905059) @ (-49)));
  (230%N, ((-4260759154773655) @ (-48), #, #, #));
  (231%N, ((-609902861438431) @ (-45), #, (-7435075673190267) @ (-49), (-7307683484381827) @ (-49)));
  (232%N, ((-1845768529231285) @ (-47), #, (-8100873996841253) @ (-49), (-3870118839437027) @ (-48)));
  (234%N, (#, #, (-1575803155951081) @ (-47), (-886648957992025) @ (-46)));
  (235%N, ((-4684119305002281) @ (-48), (-3606862978324355) @ (-48), (-6937708877592227) @ (-49), (-1969801887061797) @ (-47)));
  (236%N, (#, #, #, (-4650533185457697) @ (-48)));
  (237%N, (#, #, #, (-4392620273043229) @ (-48)));
  (240%N, ((-7556172614326021) @ (-49), (-3887923857524803) @ (-48), (-6699532234209679) @ (-49), (-2931245788232385) @ (-48)));
  (241%N, ((-8100873996841253) @ (-49), #, #, (-271331332318175) @ (-44)));
  (243%N, (#, #, #, (-2061833855653683) @ (-47)));
  (244%N, ((-2966401766708013) @ (-48), (-5990123364511777) @ (-49), (-3154048626372215) @ (-48), (-6162086083019569) @ (-49)));
  (245%N, (#, #, #, (-8064138897447807) @ (-49)));
  (247%N, (#, #, #, (-271331332318175) @ (-44)));
  (249%N, ((-8018343577873535) @ (-49), (-105327943197979) @ (-43), (-3244376119408031) @ (-48), (-1729369077842873) @ (-47)));
  (250%N, ((-8018343577873535) @ (-49), (-105327943197979) @ (-43), (-3244376119408031) @ (-48), (-1729369077842873) @ (-47)));
  (252%N, ((-7654324845498021) @ (-49), #, #, (-70881326618687) @ (-42)));
  (254%N, (#, #, #, (-302852298247679) @ (-44)));
  (255%N, ((-4260759154773655) @ (-48), #, (-7054022359647307) @ (-49), (-7835882333724349) @ (-49)))].

(** prob_emit.py, characters 0x7600 to 0x76ff *)
Definition emit_76 : list (N * num4) := [
  (0%N, ((-8018343577873535) @ (-49), (-3817185134677383) @ (-48), (-7097163030666307) @ (-49), (-3292611846428319) @ (-48)));
  (1%N, (#, #, (-1746162137615165) @ (-47), (-8395033373076123) @ (-49)));
  (2%N, (#, #, #, (-271331332318175) @ (-44)));
  (5%N, (#, #, #, (-70881326618687) @ (-42)));
  (6%N, (#, #, #, (-4297911758076491) @ (-48)));
  (7%N, (#, #, #, (-1930728693765227) @ (-47)));
  (8%N, (#, #, #, (-7835882333724349) @ (-49)));
  (9%N, (#, #, #, (-7275959601375213) @ (-49)));
  (10%N, ((-4426206392587813) @ (-48), #, #, #));
  (11%N, ((-2704115126255595) @ (-48), (-6065776627261503) @ (-49), (-3279437408862637) @ (-48), (-2827427540457761) @ (-48)));
  (12%N, ((-4684119305002281) @ (-48), (-8090883396801683) @ (-49), (-546860929579423) @ (-45), (-302852298247679) @ (-44)));
  (13%N, (#, (-1725734743489383) @ (-47), (-1587524858760099) @ (-47), (-7926147221115621) @ (-49)));
  (14%N, (#, #, #, (-976926146266539) @ (-46)));
  (15%N, (#, #, #, (-271331332318175) @ (-44)));
  (16%N, (#, #, #, (-2130163006223681) @ (-47)));
  (17%N, (#, #, #, (-1745563646303515) @ (-47)));
  (18%N, (#, #, #, (-8395033373076123) @ (-49)));
  (19%N, (#, #, (-1575803155951081) @ (-47), (-886648957992025) @ (-46)));
  (20%N, (#, #, #, (-7835882333724349) @ (-49)));
  (21%N, (#, #, #, (-8166776809352665) @ (-49)));
  (22%N, (#, #, #, (-2061833855653683) @ (-47)));
  (23%N, (#, #, #, (-4227173035229071) @ (-48)));
  (24%N, ((-4081744231472905) @ (-48), #, (-8131311136536975) @ (-49), (-3630371905756697) @ (-48)));
  (25%N, ((-3502711984534253) @ (-48), #, #, (-8910859197905059) @ (-49)));
  (26%N, (#, #, #, (-8910859197905059) @ (-49)));
  (27%N, (#, #, #, (-7121773942140261) @ (-49)));
  (28%N, (#, #, #, (-8130444851884389) @ (-49)));
  (29%N, (#, #, #, (-7706109050846307) @ (-49)));
  (30%N, (#, #, #, (-8910859197905059) @ (-49)));
  (31%N, ((-6523620964550923) @ (-49), (-7427359621511357) @ (-49), (-7924300488693565) @ (-49), (-6951095251765127) @ (-49)));
  (32%N, ((-7654324845498021) @ (-49), (-8252834006088559) @ (-49), (-3494371374993105) @ (-48), (-7489000375236853) @ (-49)));
  (33%N, ((-7117451711230829) @ (-49), (-3172210053778219) @ (-48), (-6364826670840329) @ (-49), (-3246810319127279) @ (-48)));
  (34%N, ((-1762356706075807) @ (-47), #, #, (-7158105899608537) @ (-49)));
  (35%N, (#, #, #, (-302852298247679) @ (-44)));
  (36%N, ((-7399879841139741) @ (-49), (-778145317480215) @ (-46), (-2627041671959187) @ (-48), (-6076221587374789) @ (-49)));
  (38%N, ((-5700781404124641) @ (-49), (-6246014922008839) @ (-49), (-6165802753272751) @ (-49), (-2732564411382927) @ (-48)));
  (39%N, ((-6670779604780977) @ (-49), (-3817185134677383) @ (-48), (-1998329865051197) @ (-47), (-4392620273043229) @ (-48)));
  (40%N, (#, #, #, (-976926146266539) @ (-46)));
  (41%N, (#, (-7131195537680991) @ (-49), (-1540029085439411) @ (-47), (-70881326618687) @ (-42)));
  (42%N, ((-8018343577873535) @ (-49), (-8090883396801683) @ (-49), (-7435075673190267) @ (-49), (-3505203974573573) @ (-48)));
  (43%N, ((-6210386724187025) @ (-49), #, (-6880652495669265) @ (-49), (-3281528722710867) @ (-48)));
  (44%N, (#, #, #, (-943539134077359) @ (-46)));
  (46%N, (#, #, #, (-1745563646303515) @ (-47)));
  (47%N, (#, #, #, (-3733460538297031) @ (-48)));
  (48%N, ((-2017999609788739) @ (-47), #, #, (-8130444851884389) @ (-49)));
  (50%N, (#, #, #, (-8395033373076123) @ (-49)));
  (51%N, (#, #, #, (-8910859197905059) @ (-49)));
  (52%N, ((-7350896790516305) @ (-49), (-5970252479733389) @ (-49), (-4426206392587813) @ (-48), (-1783406489466885) @ (-47)));
  (53%N, (#, #, #, (-4650533185457697) @ (-48)));
  (55%N, (#, #, #, (-3870118839437027) @ (-48)));
  (56%N, ((-7374855723470995) @ (-49), #, #, (-850842282548523) @ (-46)));
  (57%N, (#, #, #, (-7951171338784367) @ (-49)));
  (58%N, ((-4081744231472905) @ (-48), #, (-8131311136536975) @ (-49), (-7425201997121977) @ (-49)));
  (60%N, (#, #, #, (-2130163006223681) @ (-47)));
  (61%N, (#, #, #, (-3207429064687847) @ (-48)));
  (62%N, ((-3984680263625049) @ (-48), (-7131195537680991) @ (-49), (-3133934716149573) @ (-48), (-1636483042981505) @ (-47)));
  (63%N, (#, (-4240545284906009) @ (-48), (-1947521753537519) @ (-47), (-7217418596990555) @ (-49)));
  (64%N, (#, #, (-4260759154773655) @ (-48), (-70881326618687) @ (-42)));
  (65%N, (#, #, #, (-8910859197905059) @ (-49)));
  (66%N, ((-684379052090361) @ (-46), (-1321823375203445) @ (-47), (-4446741672291987) @ (-49), (-2001206550016447) @ (-47)));
  (67%N, ((-4081744231472905) @ (-48), #, #, (-4392620273043229) @ (-48)));
  (70%N, ((-1845768529231285) @ (-47), #, (-8100873996841253) @ (-49), (-3870118839437027) @ (-48)));
  (71%N, ((-4684119305002281) @ (-48), (-3606862978324355) @ (-48), (-6937708877592227) @ (-49), (-4297911758076491) @ (-48)));
  (72%N, (#, #, #, (-271331332318175) @ (-44)));
  (73%N, (#, #, #, (-70881326618687) @ (-42)));
  (74%N, (#, #, #, (-70881326618687) @ (-42)));
  (75%N, (#, #, #, (-7926147221115621) @ (-49)));
  (76%N, ((-5875383106566677) @ (-49), (-6284475237223739) @ (-49), (-5318765029658839) @ (-49), (-6069850218356117) @ (-49)));
  (77%N, (#, #, #, (-7628871685880939) @ (-49)));
  (78%N, (#, #, #, (-4227173035229071) @ (-48)));
  (79%N, (#, #, #, (-302852298247679) @ (-44)));
  (81%N, (#, #, #, (-4650533185457697) @ (-48)));
  (82%N, (#, #, #, (-302852298247679) @ (-44)));
  (84%N, ((-7773281289935475) @ (-49), #, #, (-8910859197905059) @ (-49)));
  (85%N, (#, #, #, (-271331332318175) @ (-44)));
  (86%N, ((-7654324845498021) @ (-49), #, (-7579153354239763) @ (-49), (-1742172217418765) @ (-47)));
  (87%N, (#, #, #, (-4650533185457697) @ (-48)));
  (88%N, (#, #, (-1975763643203379) @ (-47), (-302852298247679) @ (-44)));
  (89%N, (#, #, #, (-70881326618687) @ (-42)));
  (90%N, (#, #, #, (-8166776809352665) @ (-49)));
  (92%N, (#, (-1796212599740603) @ (-47), (-7615485311708039) @ (-49), (-4227173035229071) @ (-48)));
  (93%N, (#, #, #, (-8910859197905059) @ (-49)));
  (94%N, ((-7097163030666307) @ (-49), #, #, (-1809666128217651) @ (-47)));
  (95%N, ((-8018343577873535) @ (-49), (-8090883396801683) @ (-49), (-7435075673190267) @ (-49), (-3505203974573573) @ (-48)));
  (97%N, (#, #, #, (-70881326618687) @ (-42)));
  (98%N, ((-6890919344730931) @ (-49), (-3982632372491541) @ (-48), (-6053095037657275) @ (-49), (-3030435779935781) @ (-48)));
  (99%N, ((-4331497877621075) @ (-48), #, (-7320459650820583) @ (-49), (-3722837580357007) @ (-48)));
  (100%N, ((-8462205612165291) @ (-49), #, #, (-3870118839437027) @ (-48)));
  (101%N, (#, #, #, (-4227173035229071) @ (-48)));
  (103%N, (#, #, (-2017999609788739) @ (-47), (-70881326618687) @ (-42)));
  (104%N, (#, #, #, (-4650533185457697) @ (-48)));
  (105%N, ((-7097163030666307) @ (-49), #, #, (-1809666128217651) @ (-47)));
  (107%N, ((-6717008802539521) @ (-49), (-6301798141036885) @ (-49), (-3396452638870059) @ (-48), (-7231493078902567) @ (-49)));
  (108%N, ((-4331497877621075) @ (-48), #, (-7320459650820583) @ (-49), (-3722837580357007) @ (-48)));
  (109%N, (#, (-4240545284906009) @ (-48), (-1947521753537519) @ (-47), (-7217418596990555) @ (-49)));
  (110%N, ((-3984680263625049) @ (-48), (-7131195537680991) @ (-49), (-3133934716149573) @ (-48), (-1636483042981505) @ (-47)));
  (111%N, (#, #, (-7725679712283649) @ (-49), (-8130444851884389) @ (-49)));
  (112%N, ((-7696043924970107) @ (-49), (-491414177067389) @ (-45), #, (-6881909751646441) @ (-49)));
  (113%N, ((-6210386724187025) @ (-49), #, (-6880652495669265) @ (-49), (-3281528722710867) @ (-48)));
  (114%N, ((-6717008802539521) @ (-49), (-6301798141036885) @ (-49), (-3396452638870059) @ (-48), (-7231493078902567) @ (-49)));
  (115%N, (#, #, #, (-7025030848007957) @ (-49)));
  (118%N, (#, #, #, (-4650533185457697) @ (-48)));
  (120%N, ((-1814363866276635) @ (-47), (-3817185134677383) @ (-48), (-4331497877621075) @ (-48), (-3254602511589511) @ (-48)));
  (121%N, (#, #, #, (-4650533185457697) @ (-48)));
  (123%N, ((-4365051555105549) @ (-49), (-1210462721340449) @ (-47), (-5424330007936263) @ (-49), (-646732751465951) @ (-46)));
  (124%N, ((-1409019298050951) @ (-48), (-7068392780060495) @ (-50), (-3662810067772013) @ (-49), (-2106459577395933) @ (-48)));
  (125%N, ((-7523195109600491) @ (-50), (-7493302894757637) @ (-50), (-4099627839667529) @ (-49), (-8782665040092893) @ (-50)));
  (126%N, ((-1841818267867473) @ (-48), (-6438972193830049) @ (-50), (-5023881351743467) @ (-49), (-5124326417346329) @ (-49)));
  (127%N, (#, #, #, (-4650533185457697) @ (-48)));
  (128%N, (#, #, #, (-302852298247679) @ (-44)));
  (129%N, (#, #, #, (-4650533185457697) @ (-48)));
  (130%N, ((-6887476215016351) @ (-49), (-6097500510268117) @ (-49), (-6502441666025359) @ (-49), (-3254602511589511) @ (-48)));
  (132%N, ((-1181200793553093) @ (-47), (-4076882103777861) @ (-49), (-7219638999687565) @ (-50), (-5044429430778539) @ (-51)));
  (134%N, ((-7022614616343179) @ (-49), (-1234943376794015) @ (-47), (-6798739008219093) @ (-49), (-4667438414775071) @ (-49)));
  (135%N, ((-7295432161634161) @ (-50), (-8414220746629663) @ (-50), (-5060104730776291) @ (-49), (-2522266662138235) @ (-48)));
  (136%N, ((-829324207436477) @ (-46), (-8252834006088559) @ (-49), #, (-7523833130877875) @ (-49)));
  (138%N, (#, #, #, (-3350102242753159) @ (-48)));
  (139%N, ((-2011133004627089) @ (-47), (-7385640542039271) @ (-49), (-2921666078984049) @ (-48), (-7060704769219635) @ (-49)));
  (142%N, ((-7058655718752843) @ (-49), (-7015906532620973) @ (-49), (-3704237331932315) @ (-48), (-6642280074779601) @ (-49)));
  (144%N, (#, #, #, (-302852298247679) @ (-44)));
  (145%N, ((-7696043924970107) @ (-49), (-7015906532620973) @ (-49), (-3663958025301281) @ (-48), (-4170689255897351) @ (-48)));
  (146%N, (#, #, #, (-3888284818171165) @ (-48)));
  (147%N, ((-7298665317991735) @ (-49), (-6301798141036885) @ (-49), (-6694636986377329) @ (-49), (-3242993650796661) @ (-48)));
  (149%N, (#, #, #, (-4392620273043229) @ (-48)));
  (150%N, ((-6356745910751309) @ (-49), (-105327943197979) @ (-43), (-5878805305272223) @ (-49), (-5996945947050885) @ (-49)));
  (152%N, (#, #, #, (-8033701757752085) @ (-49)));
  (153%N, (#, (-4240545284906009) @ (-48), (-7149325314970619) @ (-49), (-3870118839437027) @ (-48)));
  (154%N, ((-7696043924970107) @ (-49), (-7015906532620973) @ (-49), (-3663958025301281) @ (-48), (-4170689255897351) @ (-48)));
  (155%N, (#, #, (-609902861438431) @ (-45), #));
  (156%N, (#, #, #, (-302852298247679) @ (-44)));
  (157%N, (#, #, #, (-6870536638503059) @ (-49)));
  (158%N, (#, #, #, (-8064138897447807) @ (-49)));
  (159%N, (#, #, #, (-7158105899608537) @ (-49)));
  (160%N, (#, #, #, (-3951094144080465) @ (-48)));
  (161%N, (#, #, #, (-2130163006223681) @ (-47)));
  (162%N, (#, #, #, (-3383949363299101) @ (-48)));
  (163%N, (#, #, #, (-4297911758076491) @ (-48)));
  (164%N, (#, #, (-4684119305002281) @ (-48), (-2130163006223681) @ (-47)));
  (165%N, (#, #, #, (-3630371905756697) @ (-48)));
  (166%N, (#, #, #, (-3888284818171165) @ (-48)));
  (167%N, (#, #, #, (-8033701757752085) @ (-49)));
  (168%N, (#, #, #, (-3365783384564963) @ (-48)));
  (169%N, (#, #, #, (-70881326618687) @ (-42)));
  (170%N, (#, #, #, (-4297911758076491) @ (-48)));
  (171%N, (#, #, #, (-302852298247679) @ (-44)));
  (172%N, (#, #, #, (-401881050182303) @ (-45)));
  (174%N, ((-2276190490790735) @ (-48), (-4686182895828459) @ (-49), (-1164958197010257) @ (-47), (-586562075210875) @ (-46)));
  (175%N, (#, #, #, (-13119324708823) @ (-40)));
  (176%N, ((-895045487878171) @ (-46), (-7157383978315813) @ (-49), (-1839692586196131) @ (-47), (-7477852487122849) @ (-49)));
  (177%N, ((-5761021531623209) @ (-49), (-3760701355345663) @ (-48), (-6062530173934919) @ (-49), (-2837119342143595) @ (-48)));
  (178%N, ((-3921870937715749) @ (-48), #, #, (-302852298247679) @ (-44)));
  (179%N, (#, #, #, (-4392620273043229) @ (-48)));
  (180%N, ((-7924300488693565) @ (-49), #, #, (-3605255574468759) @ (-48)));
  (181%N, (#, #, #, (-3236436532855373) @ (-48)));
  (182%N, (#, #, #, (-302852298247679) @ (-44)));
  (183%N, (#, #, #, (-8292395461171265) @ (-49)));
  (184%N, ((-3921870937715749) @ (-48), #, #, (-302852298247679) @ (-44)));
  (185%N, (#, #, #, (-8910859197905059) @ (-49)));
  (186%N, ((-5761021531623209) @ (-49), (-3760701355345663) @ (-48), (-6062530173934919) @ (-49), (-2837119342143595) @ (-48)));
  (187%N, (#, #, #, (-3888284818171165) @ (-48)));
  (188%N, (#, #, #, (-2130163006223681) @ (-47)));
  (189%N, (#, #, #, (-4650533185457697) @ (-48)));
  (190%N, (#, #, #, (-271331332318175) @ (-44)));
  (191%N, (#, (-8871297742822353) @ (-49), (-6564648714016659) @ (-49), (-976926146266539) @ (-46)));
  (194%N, ((-4260759154773655) @ (-48), (-7575057571972747) @ (-49), (-6980583912200295) @ (-49), (-6743418784857205) @ (-49)));
  (195%N, (#, #, #, (-302852298247679) @ (-44)));
  (197%N, ((-4426206392587813) @ (-48), #, (-878374446492819) @ (-46), (-6622611700393137) @ (-49)));
  (198%N, ((-5210897845212699) @ (-49), (-5160515322419593) @ (-49), (-2776541726831625) @ (-48), (-2883815105474167) @ (-48)));
  (200%N, ((-5369655309503787) @ (-49), (-2599429323217229) @ (-48), (-2728584107417951) @ (-48), (-3166315757515667) @ (-48)));
  (201%N, (#, #, #, (-8064138897447807) @ (-49)));
  (202%N, ((-5737391430234491) @ (-49), (-4466751405444601) @ (-49), (-2034217644213061) @ (-48), (-6177214247392313) @ (-49)));
  (204%N, (#, #, #, (-2061833855653683) @ (-47)));
  (205%N, (#, #, #, (-7857128249604397) @ (-49)));
  (206%N, ((-1636875426145473) @ (-47), (-6487707683278451) @ (-49), #, (-3333936558074267) @ (-48)));
  (207%N, ((-609902861438431) @ (-45), (-3887923857524803) @ (-48), (-5908765893721827) @ (-49), (-5798067350644055) @ (-49)));
  (208%N, ((-5259960295273993) @ (-49), (-350955851614551) @ (-45), (-2635464537059719) @ (-48), (-4964277453669411) @ (-49)));
  (209%N, ((-4192930355923641) @ (-49), (-2442561745098907) @ (-48), (-4831269435485159) @ (-49), (-5299480663546209) @ (-49)));
  (210%N, ((-6134313791657815) @ (-49), (-6823518783638375) @ (-49), (-5568035659321063) @ (-49), (-5756108972569675) @ (-49)));
  (212%N, ((-3375489482355113) @ (-48), (-7244163096344431) @ (-49), (-6313024636091883) @ (-49), (-386977214305085) @ (-45)));
  (214%N, ((-5386341752024241) @ (-49), (-304588099086621) @ (-45), (-4851749190958431) @ (-49), (-1249508292484153) @ (-47)));
  (215%N, ((-2711018983479601) @ (-48), (-3125675490238271) @ (-48), (-5421022269880023) @ (-49), (-1339736735400309) @ (-47)));
  (216%N, ((-2525874429447377) @ (-48), (-5149806712366039) @ (-49), (-4567382146123451) @ (-49), (-2522120251223771) @ (-48)));
  (219%N, ((-2321034282658003) @ (-48), (-288094816668623) @ (-45), (-4954313278202057) @ (-49), (-5137299761781823) @ (-49)));
  (220%N, ((-2711018983479601) @ (-48), (-3125675490238271) @ (-48), (-5421022269880023) @ (-49), (-1339736735400309) @ (-47)));
  (221%N, (#, #, #, (-4392620273043229) @ (-48)));
  (222%N, ((-609902861438431) @ (-45), (-3887923857524803) @ (-48), (-5908765893721827) @ (-49), (-302852298247679) @ (-44)));
  (223%N, ((-690463865392381) @ (-46), (-4917272966409823) @ (-49), (-291227246307481) @ (-45), (-1480816824159849) @ (-47)));
  (225%N, ((-8533621391481445) @ (-50), (-4769922170680787) @ (-49), (-313095724859363) @ (-45), (-8999529158504001) @ (-50)));
  (227%N, ((-4192930355923641) @ (-49), (-2442561745098907) @ (-48), (-4831269435485159) @ (-49), (-4650533185457697) @ (-48)));
  (228%N, ((-2525874429447377) @ (-48), (-5149806712366039) @ (-49), (-4567382146123451) @ (-49), (-2522120251223771) @ (-48)));
  (229%N, ((-7492374236211145) @ (-49), #, #, (-3951094144080465) @ (-48)));
  (230%N, (#, #, #, (-8292395461171265) @ (-49)));
  (231%N, ((-4780502002494117) @ (-49), (-2652989135578485) @ (-48), (-2996618404166677) @ (-48), (-70881326618687) @ (-42)));
  (232%N, (#, #, #, (-70881326618687) @ (-42)));
  (233%N, (#, #, #, (-2130163006223681) @ (-47)));
  (234%N, ((-6087662422977705) @ (-49), (-4758464177720265) @ (-49), (-4973917679045603) @ (-49), (-4650533185457697) @ (-48)));
  (235%N, (#, #, #, (-4650533185457697) @ (-48)));
  (236%N, (#, #, #, (-70881326618687) @ (-42)));
  (238%N, ((-7345537718869033) @ (-50), (-4361305757278417) @ (-49), (-7758935329115043) @ (-50), (-302564112427199) @ (-45)));
  (239%N, ((-6263320317011777) @ (-49), (-3760701355345663) @ (-48), (-4204275375441935) @ (-48), (-5418857295773135) @ (-49)));
  (241%N, ((-3667736269636657) @ (-48), #, #, (-271331332318175) @ (-44)));
  (242%N, ((-5585770467706197) @ (-49), (-3312849679805319) @ (-48), (-6342225880772177) @ (-49), (-3157086242900219) @ (-48)));
  (244%N, ((-1852360794104289) @ (-48), (-1126538542712693) @ (-47), (-3994806642353279) @ (-49), (-8488526662303543) @ (-50)));
  (248%N, ((-3270234991960793) @ (-49), (-1919675883771317) @ (-48), (-8731192138808909) @ (-50), (-4080865503580925) @ (-49)));
  (249%N, ((-2017999609788739) @ (-47), (-7310469050781013) @ (-49), (-7237929231852865) @ (-49), (-7082153075881451) @ (-49)));
  (251%N, (#, #, #, (-4650533185457697) @ (-48)));
  (252%N, ((-5899193719153385) @ (-49), (-6089400371189665) @ (-49), (-739049730187879) @ (-46), (-2753412061243085) @ (-48)));
  (253%N, (#, #, #, (-302852298247679) @ (-44)));
  (254%N, ((-3383688362297743) @ (-48), (-5990123364511777) @ (-49), (-4840782286595679) @ (-49), (-1505537701106085) @ (-47)));
  (255%N, (#, #, #, (-302852298247679) @ (-44)))].

(** prob_emit.py, characters 0x7700 to 0x77ff *)
Definition emit_77 : list (N * num4) := [
  (0%N, (#, #, #, (-1893476528496951) @ (-47)));
  (1%N, ((-4029421337409737) @ (-49), (-8400111540603081) @ (-50), (-1798762457810969) @ (-48), (-7777538720897573) @ (-50)));
  (4%N, (#, #, #, (-4297911758076491) @ (-48)));
  (5%N, (#, #, #, (-302852298247679) @ (-44)));
  (6%N, (#, #, (-609902861438431) @ (-45), #));
  (7%N, (#, #, (-571248877892569) @ (-45), (-976926146266539) @ (-46)));
  (8%N, (#, (-778145317480215) @ (-46), (-889038822504283) @ (-46), (-3951094144080465) @ (-48)));
  (9%N, ((-5289096696241719) @ (-49), (-2367386554919191) @ (-48), (-5520674508261877) @ (-49), (-2857565454666937) @ (-48)));
  (10%N, (#, #, #, (-4392620273043229) @ (-48)));
  (11%N, ((-7083432737088675) @ (-50), (-2878138193940609) @ (-48), (-2081602500916359) @ (-48), (-6877092061731135) @ (-50)));
  (13%N, (#, #, #, (-271331332318175) @ (-44)));
  (17%N, (#, #, #, (-4392620273043229) @ (-48)));
  (19%N, (#, #, #, (-4650533185457697) @ (-48)));
  (20%N, (#, #, #, (-8910859197905059) @ (-49)));
  (23%N, (#, #, #, (-302852298247679) @ (-44)));
  (24%N, (#, #, #, (-8130444851884389) @ (-49)));
  (25%N, (#, (-3982632372491541) @ (-48), (-1845768529231285) @ (-47), (-302852298247679) @ (-44)));
  (26%N, (#, #, #, (-2130163006223681) @ (-47)));
  (27%N, (#, #, #, (-70881326618687) @ (-42)));
  (28%N, (#, #, #, (-4392620273043229) @ (-48)));
  (29%N, (#, #, #, (-4170689255897351) @ (-48)));
  (30%N, (#, (-1925169055947837) @ (-47), #, (-302852298247679) @ (-44)));
  (31%N, ((-7643951882013511) @ (-50), (-4070608367724093) @ (-49), (-4402003263109679) @ (-49), (-4116443558860567) @ (-49)));
  (32%N, ((-2078626915425975) @ (-47), (-5817322383168251) @ (-49), (-5415719719340869) @ (-49), (-1519284424540059) @ (-47)));
  (34%N, (#, #, #, (-8395033373076123) @ (-49)));
  (37%N, (#, (-1925169055947837) @ (-47), (-546860929579423) @ (-45), (-4650533185457697) @ (-48)));
  (38%N, (#, (-1925169055947837) @ (-47), (-546860929579423) @ (-45), (-7425201997121977) @ (-49)));
  (40%N, ((-6592405389866091) @ (-49), (-6319671069274265) @ (-49), #, (-5900035482632401) @ (-49)));
  (41%N, ((-6689783939482305) @ (-49), (-7157383978315813) @ (-49), (-3302366626870007) @ (-48), (-6897440390483705) @ (-49)));
  (43%N, (#, #, #, (-302852298247679) @ (-44)));
  (44%N, (#, #, (-7567545727469403) @ (-49), (-7386362463331995) @ (-49)));
  (45%N, ((-8978031436994227) @ (-49), (-7575057571972747) @ (-49), #, (-8292395461171265) @ (-49)));
  (46%N, (#, #, #, (-7435345513955431) @ (-49)));
  (47%N, ((-7284590836079723) @ (-49), (-5812384194017135) @ (-49), (-413850120634003) @ (-45), (-6238477401306399) @ (-49)));
  (48%N, (#, #, #, (-6539642162874743) @ (-49)));
  (49%N, (#, #, #, (-302852298247679) @ (-44)));
  (51%N, (#, #, #, (-3733460538297031) @ (-48)));
  (52%N, (#, #, #, (-8292395461171265) @ (-49)));
  (53%N, (#, #, (-609902861438431) @ (-45), (-8395033373076123) @ (-49)));
  (54%N, (#, (-3115151835519143) @ (-48), (-5995343922284681) @ (-49), (-6938251729979339) @ (-49)));
  (55%N, ((-6325535149909711) @ (-49), (-7385640542039271) @ (-49), (-6094334500526615) @ (-49), (-3222879740574019) @ (-48)));
  (56%N, ((-1761217125044983) @ (-47), (-1725734743489383) @ (-47), (-6933968332578247) @ (-49), (-976926146266539) @ (-46)));
  (57%N, (#, #, #, (-8292395461171265) @ (-49)));
  (58%N, ((-6709452313868769) @ (-49), (-4240545284906009) @ (-48), (-406948109194601) @ (-45), (-3888284818171165) @ (-48)));
  (59%N, (#, #, #, (-472560260360877) @ (-45)));
  (60%N, ((-3802308138883543) @ (-49), (-2149655372072159) @ (-48), (-2107175153510941) @ (-48), (-285891299937805) @ (-45)));
  (61%N, (#, #, #, (-6408215574980407) @ (-49)));
  (62%N, ((-8546031202632539) @ (-50), (-2202080321497503) @ (-48), (-7887415851194477) @ (-50), (-302852298247679) @ (-44)));
  (63%N, (#, #, #, (-3951094144080465) @ (-48)));
  (64%N, ((-1167942845612709) @ (-47), (-4838354290558953) @ (-49), (-895152162571795) @ (-47), (-5705904489337227) @ (-50)));
  (65%N, ((-4081744231472905) @ (-48), (-2797441164136159) @ (-48), (-3233596673457799) @ (-48), (-5252439650381005) @ (-49)));
  (67%N, (#, #, #, (-3670651212387731) @ (-48)));
  (68%N, (#, #, #, (-8910859197905059) @ (-49)));
  (69%N, (#, #, #, (-2130163006223681) @ (-47)));
  (70%N, (#, #, #, (-8033701757752085) @ (-49)));
  (71%N, (#, #, (-4684119305002281) @ (-48), (-8292395461171265) @ (-49)));
  (73%N, (#, #, #, (-4392620273043229) @ (-48)));
  (76%N, (#, #, #, (-225115232174701) @ (-44)));
  (77%N, (#, #, #, (-976926146266539) @ (-46)));
  (78%N, (#, (-8871297742822353) @ (-49), #, (-302852298247679) @ (-44)));
  (79%N, (#, #, #, (-8166776809352665) @ (-49)));
  (80%N, (#, (-3736209830033945) @ (-48), (-6068909278492185) @ (-49), (-8166776809352665) @ (-49)));
  (81%N, ((-4260759154773655) @ (-48), #, (-866281559726281) @ (-46), (-7245928484021955) @ (-49)));
  (85%N, (#, #, (-609902861438431) @ (-45), (-302852298247679) @ (-44)));
  (86%N, (#, #, #, (-70881326618687) @ (-42)));
  (87%N, (#, #, #, (-302852298247679) @ (-44)));
  (88%N, (#, #, #, (-7835882333724349) @ (-49)));
  (89%N, (#, #, #, (-6503310205406467) @ (-49)));
  (90%N, ((-8272788582231815) @ (-49), #, #, (-70881326618687) @ (-42)));
  (91%N, ((-571248877892569) @ (-45), (-6703857329774499) @ (-49), (-8963483610656341) @ (-50), (-1625339725946889) @ (-47)));
  (92%N, ((-4081744231472905) @ (-48), (-2797441164136159) @ (-48), (-3233596673457799) @ (-48), (-70881326618687) @ (-42)));
  (94%N, (#, (-3736209830033945) @ (-48), (-6068909278492185) @ (-49), (-8166776809352665) @ (-49)));
  (96%N, (#, #, #, (-302852298247679) @ (-44)));
  (97%N, ((-77827427596637) @ (-43), (-7575057571972747) @ (-49), (-5624100313862067) @ (-49), (-1173379056426457) @ (-47)));
  (98%N, ((-7681791266144621) @ (-49), #, (-8272788582231815) @ (-49), (-6702984490925865) @ (-49)));
  (99%N, ((-668065056401549) @ (-46), (-2058275543134963) @ (-48), (-8912063720440355) @ (-50), (-5586819632174177) @ (-49)));
  (101%N, ((-8462205612165291) @ (-49), #, #, (-8910859197905059) @ (-49)));
  (102%N, ((-6659219651292893) @ (-49), (-6195264366155019) @ (-49), (-6699532234209679) @ (-49), (-6106302863991523) @ (-49)));
  (104%N, (#, (-3982632372491541) @ (-48), (-7237929231852865) @ (-49), (-7145732875094951) @ (-49)));
  (106%N, (#, #, #, (-8205616343142647) @ (-49)));
  (107%N, ((-3321712214036881) @ (-48), (-6605226196018601) @ (-49), (-3383688362297743) @ (-48), (-7658507473194481) @ (-49)));
  (108%N, (#, (-8871297742822353) @ (-49), (-6311788741076455) @ (-49), (-6580720069209839) @ (-49)));
  (110%N, (#, #, #, (-8395033373076123) @ (-49)));
  (113%N, (#, #, #, (-4650533185457697) @ (-48)));
  (115%N, (#, #, #, (-6774188735649479) @ (-49)));
  (117%N, (#, #, #, (-4297911758076491) @ (-48)));
  (118%N, (#, #, #, (-7951171338784367) @ (-49)));
  (119%N, (#, #, #, (-1930728693765227) @ (-47)));
  (121%N, ((-8197617090973557) @ (-49), (-1796212599740603) @ (-47), (-1418875879399003) @ (-47), (-1713019402318041) @ (-47)));
  (122%N, (#, #, #, (-8395033373076123) @ (-49)));
  (124%N, (#, #, #, (-302852298247679) @ (-44)));
  (125%N, (#, (-3107509511504133) @ (-48), (-3551083531600405) @ (-48), (-1994339944854797) @ (-47)));
  (126%N, ((-3340100790628971) @ (-48), (-7131195537680991) @ (-49), (-3722114766328821) @ (-48), (-6991483479663675) @ (-49)));
  (127%N, ((-7022614616343179) @ (-49), (-767480941468751) @ (-46), (-3200624534650297) @ (-48), (-5769219717755175) @ (-49)));
  (128%N, (#, #, #, (-4297911758076491) @ (-48)));
  (132%N, ((-5827443522328041) @ (-49), (-8090883396801683) @ (-49), (-4260759154773655) @ (-48), (-3184193191912173) @ (-48)));
  (133%N, ((-903159767337213) @ (-46), (-491414177067389) @ (-45), (-1870602565026865) @ (-47), (-2779557853439271) @ (-48)));
  (134%N, (#, #, #, (-4650533185457697) @ (-48)));
  (135%N, ((-7284590836079723) @ (-49), (-5812384194017135) @ (-49), (-413850120634003) @ (-45), (-6238477401306399) @ (-49)));
  (136%N, (#, #, #, (-4392620273043229) @ (-48)));
  (139%N, (#, #, #, (-4227173035229071) @ (-48)));
  (140%N, ((-1723595915767347) @ (-47), (-398981976780441) @ (-45), #, (-4392620273043229) @ (-48)));
  (141%N, (#, #, #, (-70881326618687) @ (-42)));
  (142%N, ((-362371353296449) @ (-45), (-2535053724542627) @ (-48), (-1986594946834089) @ (-47), (-5216730417897343) @ (-49)));
  (143%N, (#, #, #, (-976926146266539) @ (-46)));
  (145%N, ((-1795778112687613) @ (-47), (-6448324499080771) @ (-49), #, (-7795654513279065) @ (-49)));
  (146%N, ((-7237929231852865) @ (-49), (-3125675490238271) @ (-48), (-3031661810044707) @ (-48), (-2777012196763591) @ (-48)));
  (148%N, (#, #, #, (-302852298247679) @ (-44)));
  (158%N, ((-7237929231852865) @ (-49), (-3125675490238271) @ (-48), (-3031661810044707) @ (-48), (-2777012196763591) @ (-48)));
  (159%N, ((-1998329865051197) @ (-47), #, #, (-6424971274762273) @ (-49)));
  (160%N, ((-1726226599619481) @ (-47), #, #, (-3888284818171165) @ (-48)));
  (161%N, (#, #, #, (-70881326618687) @ (-42)));
  (162%N, (#, #, #, (-70881326618687) @ (-42)));
  (163%N, (#, #, #, (-302852298247679) @ (-44)));
  (165%N, ((-212644807062239) @ (-44), #, (-6363471796652225) @ (-49), (-6155724998915685) @ (-49)));
  (166%N, (#, #, #, (-4650533185457697) @ (-48)));
  (167%N, ((-2622644266947693) @ (-48), (-8252834006088559) @ (-49), (-5426887713169385) @ (-49), (-283571708304799) @ (-45)));
  (169%N, ((-5994640674281395) @ (-49), (-1454951954365857) @ (-47), (-7320459650820583) @ (-49), (-3879055303555717) @ (-48)));
  (170%N, ((-6530861578236825) @ (-49), (-1337947185749899) @ (-47), (-7862826752368233) @ (-49), (-1372040272230327) @ (-47)));
  (172%N, ((-1381232522432541) @ (-47), (-687300381887809) @ (-46), (-3243532115846993) @ (-48), (-6541731033373189) @ (-49)));
  (173%N, ((-3341290961436923) @ (-48), #, #, (-7600718321947853) @ (-49)));
  (174%N, (#, #, #, (-4227173035229071) @ (-48)));
  (176%N, (#, #, (-5983506566903329) @ (-49), (-7951171338784367) @ (-49)));
  (179%N, ((-3288188631134095) @ (-48), (-8871297742822353) @ (-49), (-6704470423360795) @ (-49), (-6901390932685021) @ (-49)));
  (181%N, (#, #, #, (-4650533185457697) @ (-48)));
  (182%N, (#, #, #, (-4650533185457697) @ (-48)));
  (183%N, (#, #, #, (-302852298247679) @ (-44)));
  (186%N, (#, #, #, (-4227173035229071) @ (-48)));
  (187%N, ((-3034053963055003) @ (-48), (-358403368121969) @ (-45), (-6338330017795169) @ (-49), (-3124166178377643) @ (-48)));
  (188%N, ((-4260759154773655) @ (-48), #, (-866281559726281) @ (-46), (-7245928484021955) @ (-49)));
  (189%N, (#, #, #, (-7706109050846307) @ (-49)));
  (190%N, (#, #, #, (-1853809505254573) @ (-47)));
  (191%N, ((-5928412815142631) @ (-49), (-3982632372491541) @ (-48), (-4081744231472905) @ (-48), (-3362866519325475) @ (-48)));
  (192%N, (#, #, #, (-976926146266539) @ (-46)));
  (193%N, (#, #, #, (-4650533185457697) @ (-48)));
  (196%N, (#, #, #, (-302852298247679) @ (-44)));
  (197%N, (#, #, #, (-302852298247679) @ (-44)));
  (199%N, ((-7725679712283649) @ (-49), #, #, (-1809666128217651) @ (-47)));
  (201%N, (#, #, #, (-7523833130877875) @ (-49)));
  (202%N, (#, #, #, (-2061833855653683) @ (-47)));
  (204%N, (#, #, #, (-8292395461171265) @ (-49)));
  (205%N, ((-1910269588269243) @ (-47), #, #, (-7614619027055453) @ (-49)));
  (206%N, (#, #, #, (-302852298247679) @ (-44)));
  (209%N, (#, #, #, (-4650533185457697) @ (-48)));
  (211%N, (#, #, (-7567545727469403) @ (-49), (-4392620273043229) @ (-48)));
  (213%N, (#, #, #, (-302852298247679) @ (-44)));
  (214%N, (#, #, #, (-7367903434101099) @ (-49)));
  (215%N, ((-3221651105333805) @ (-48), #, (-8978031436994227) @ (-49), (-3113796480014135) @ (-48)));
  (216%N, (#, #, #, (-70881326618687) @ (-42)));
  (217%N, (#, #, #, (-8064138897447807) @ (-49)));
  (218%N, ((-5994640674281395) @ (-49), (-1454951954365857) @ (-47), (-7320459650820583) @ (-49), (-3879055303555717) @ (-48)));
  (219%N, ((-608031685402923) @ (-46), (-1385572875310375) @ (-47), (-6370279013252417) @ (-49), (-3098640957535047) @ (-48)));
  (220%N, ((-6945265366262979) @ (-49), (-3982632372491541) @ (-48), (-238379262651975) @ (-44), (-3383949363299101) @ (-48)));
  (221%N, (#, #, #, (-2061833855653683) @ (-47)));
  (222%N, (#, #, #, (-3879055303555717) @ (-48)));
  (223%N, (#, #, #, (-70881326618687) @ (-42)));
  (225%N, (#, #, #, (-4297911758076491) @ (-48)));
  (226%N, ((-1550803822554747) @ (-47), (-1578412539191041) @ (-47), (-6647892308299007) @ (-49), (-6266004882743061) @ (-49)));
  (227%N, ((-4260759154773655) @ (-48), (-8252834006088559) @ (-49), (-3396452638870059) @ (-48), (-5337596737982269) @ (-49)));
  (229%N, ((-1770457732253583) @ (-48), (-8236734501446339) @ (-50), (-7713778796547609) @ (-50), (-1070739115312787) @ (-47)));
  (231%N, (#, #, #, (-4170689255897351) @ (-48)));
  (233%N, ((-3133364351259961) @ (-48), (-191462676150205) @ (-44), (-5364354206287435) @ (-49), (-6743418784857205) @ (-49)));
  (235%N, ((-6075361497587351) @ (-49), (-3606862978324355) @ (-48), (-1947521753537519) @ (-47), (-204169426815881) @ (-44)));
  (236%N, ((-4204275375441935) @ (-48), #, #, (-8033701757752085) @ (-49)));
  (237%N, ((-4633110633879799) @ (-49), (-158626801587111) @ (-44), (-2636730470588601) @ (-48), (-4734963627205297) @ (-49)));
  (238%N, ((-2886846860251385) @ (-48), (-6284475237223739) @ (-49), (-1658101860833211) @ (-47), (-2825270633530165) @ (-48)));
  (239%N, ((-6075361497587351) @ (-49), (-3606862978324355) @ (-48), (-1947521753537519) @ (-47), (-204169426815881) @ (-44)));
  (240%N, (#, #, #, (-302852298247679) @ (-44)));
  (243%N, ((-3436104064377203) @ (-49), (-479184042652421) @ (-46), (-7900326967639909) @ (-50), (-8898479045071615) @ (-50)));
  (244%N, (#, #, #, (-4650533185457697) @ (-48)));
  (246%N, ((-2146956065995973) @ (-47), (-1648815554978729) @ (-47), (-2999436700319327) @ (-48), (-6438744437682999) @ (-49)));
  (248%N, ((-7756962757402879) @ (-49), (-3817185134677383) @ (-48), #, (-7477852487122849) @ (-49)));
  (251%N, (#, #, #, (-4650533185457697) @ (-48)));
  (252%N, (#, #, #, (-4650533185457697) @ (-48)));
  (253%N, ((-5728998925554339) @ (-49), (-3256365900473599) @ (-48), (-6857400519925933) @ (-49), (-7795654513279065) @ (-49)));
  (254%N, ((-571248877892569) @ (-45), (-6295964410557909) @ (-49), (-3632058836243843) @ (-48), (-1589430312101649) @ (-47)));
  (255%N, ((-8885332726949903) @ (-50), (-5063569048600015) @ (-49), (-4856661768034519) @ (-49), (-666861501976999) @ (-46)))].

(** prob_emit.py, characters 0x7800 to 0x78ff *)
Definition emit_78 : list (N * num4) := [
  (0%N, ((-7426068281774563) @ (-49), #, (-609902861438431) @ (-45), (-3888284818171165) @ (-48)));
  (1%N, ((-2664613946985709) @ (-48), (-2869375619354051) @ (-48), (-4730057165249905) @ (-49), (-1390327968332825) @ (-47)));
  (2%N, ((-2842171870675345) @ (-48), (-377463309330355) @ (-45), (-5700781404124641) @ (-49), (-5822026283598745) @ (-49)));
  (5%N, (#, #, #, (-4392620273043229) @ (-48)));
  (6%N, (#, #, #, (-7145732875094951) @ (-49)));
  (7%N, (#, #, #, (-7307683484381827) @ (-49)));
  (9%N, (#, (-491414177067389) @ (-45), #, (-7643494584741751) @ (-49)));
  (10%N, (#, #, #, (-2061833855653683) @ (-47)));
  (11%N, (#, #, #, (-2130163006223681) @ (-47)));
  (12%N, ((-863557268122675) @ (-46), #, (-211052467801955) @ (-44), (-5555111519619945) @ (-49)));
  (13%N, ((-6147067248656047) @ (-49), (-7244163096344431) @ (-49), (-6507662259421707) @ (-49), (-1281843035346423) @ (-47)));
  (17%N, (#, #, #, (-7587152606408853) @ (-49)));
  (18%N, ((-222100499235933) @ (-44), #, (-4684119305002281) @ (-48), (-3951094144080465) @ (-48)));
  (20%N, ((-7266880099147925) @ (-50), (-2329302823676643) @ (-48), (-4789518574811741) @ (-49), (-6029684819594483) @ (-49)));
  (21%N, (#, #, #, (-2130163006223681) @ (-47)));
  (22%N, ((-2777505683173449) @ (-48), (-6284475237223739) @ (-49), (-5943611487299781) @ (-49), (-2709713541612013) @ (-48)));
  (23%N, ((-1947521753537519) @ (-47), #, #, (-7587152606408853) @ (-49)));
  (24%N, (#, #, #, (-3888284818171165) @ (-48)));
  (25%N, (#, #, #, (-3733460538297031) @ (-48)));
  (26%N, ((-3667736269636657) @ (-48), (-3195267673917071) @ (-48), (-6521825269397027) @ (-49), (-6452863044846125) @ (-49)));
  (27%N, (#, #, #, (-302852298247679) @ (-44)));
  (28%N, (#, #, (-8131311136536975) @ (-49), (-7587152606408853) @ (-49)));
  (29%N, ((-7058655718752843) @ (-49), #, #, (-976926146266539) @ (-46)));
  (31%N, ((-609902861438431) @ (-45), #, #, (-2061833855653683) @ (-47)));
  (34%N, (#, #, #, (-302852298247679) @ (-44)));
  (35%N, ((-609902861438431) @ (-45), #, (-8018343577873535) @ (-49), (-7489000375236853) @ (-49)));
  (37%N, ((-1947521753537519) @ (-47), (-2782794653376355) @ (-48), (-2146956065995973) @ (-47), (-6281607265795727) @ (-49)));
  (38%N, (#, #, (-8272788582231815) @ (-49), (-3733460538297031) @ (-48)));
  (39%N, ((-7250871180066637) @ (-49), #, (-2017999609788739) @ (-47), (-7332707602050573) @ (-49)));
  (41%N, (#, #, #, (-7425201997121977) @ (-49)));
  (42%N, (#, #, #, (-70881326618687) @ (-42)));
  (43%N, (#, #, #, (-1893476528496951) @ (-47)));
  (44%N, ((-8462205612165291) @ (-49), #, #, (-4170689255897351) @ (-48)));
  (45%N, ((-8233949048441833) @ (-49), (-7131195537680991) @ (-49), (-238379262651975) @ (-44), (-7523833130877875) @ (-49)));
  (46%N, (#, #, #, (-70881326618687) @ (-42)));
  (47%N, (#, #, #, (-302852298247679) @ (-44)));
  (48%N, ((-7924300488693565) @ (-49), (-7157383978315813) @ (-49), (-2017999609788739) @ (-47), (-709616797444789) @ (-46)));
  (50%N, (#, #, #, (-8395033373076123) @ (-49)));
  (52%N, ((-8798953367288933) @ (-50), (-8696405154161725) @ (-50), (-573981523482911) @ (-46), (-4550201306666335) @ (-49)));
  (53%N, (#, #, #, (-4650533185457697) @ (-48)));
  (55%N, ((-1870602565026865) @ (-47), (-3982632372491541) @ (-48), (-2011133004627089) @ (-47), (-3307704841892339) @ (-48)));
  (56%N, ((-6697079289355183) @ (-49), (-3478296917619477) @ (-48), #, (-1333907094874105) @ (-47)));
  (57%N, (#, #, #, (-7435345513955431) @ (-49)));
  (58%N, ((-609902861438431) @ (-45), (-1925169055947837) @ (-47), (-6968563171774189) @ (-49), (-3510057111638175) @ (-48)));
  (59%N, ((-2146956065995973) @ (-47), (-6566386662228619) @ (-49), (-4331497877621075) @ (-48), (-3543822657056257) @ (-48)));
  (60%N, ((-609902861438431) @ (-45), #, #, (-2130163006223681) @ (-47)));
  (61%N, (#, #, #, (-7121773942140261) @ (-49)));
  (62%N, ((-829324207436477) @ (-46), (-428372245208381) @ (-45), (-6566586581518627) @ (-49), (-7000866196083895) @ (-49)));
  (64%N, ((-609902861438431) @ (-45), (-5196384137160453) @ (-49), (-4213043055117661) @ (-49), (-3233672435585285) @ (-48)));
  (65%N, (#, #, #, (-4227173035229071) @ (-48)));
  (66%N, (#, #, #, (-302852298247679) @ (-44)));
  (67%N, (#, #, #, (-8064138897447807) @ (-49)));
  (69%N, ((-5728998925554339) @ (-49), (-3256365900473599) @ (-48), (-6857400519925933) @ (-49), (-5789201813822379) @ (-49)));
  (70%N, (#, #, #, (-302852298247679) @ (-44)));
  (71%N, ((-8462205612165291) @ (-49), #, #, (-3888284818171165) @ (-48)));
  (73%N, (#, #, #, (-302852298247679) @ (-44)));
  (74%N, (#, #, #, (-302852298247679) @ (-44)));
  (75%N, (#, #, #, (-70881326618687) @ (-42)));
  (76%N, (#, #, (-571248877892569) @ (-45), (-6800076053007037) @ (-49)));
  (78%N, (#, #, (-4684119305002281) @ (-48), (-6913411673111127) @ (-49)));
  (79%N, (#, #, (-609902861438431) @ (-45), #));
  (80%N, (#, #, #, (-7121773942140261) @ (-49)));
  (82%N, ((-609902861438431) @ (-45), #, (-571248877892569) @ (-45), (-6813480256580097) @ (-49)));
  (84%N, (#, #, #, (-70881326618687) @ (-42)));
  (85%N, ((-5542596360405691) @ (-49), (-680433776726159) @ (-46), (-6100238149648595) @ (-49), (-196014168947761) @ (-44)));
  (86%N, ((-571248877892569) @ (-45), #, (-571248877892569) @ (-45), (-7523833130877875) @ (-49)));
  (87%N, (#, #, #, (-3733460538297031) @ (-48)));
  (89%N, (#, #, #, (-7857128249604397) @ (-49)));
  (90%N, ((-6636788398932217) @ (-49), #, #, (-271331332318175) @ (-44)));
  (92%N, (#, #, #, (-4227173035229071) @ (-48)));
  (93%N, ((-716785609930865) @ (-46), (-695500720191971) @ (-46), (-7250871180066637) @ (-49), (-6746421191725615) @ (-49)));
  (94%N, (#, #, #, (-4650533185457697) @ (-48)));
  (96%N, (#, #, #, (-8910859197905059) @ (-49)));
  (100%N, ((-571248877892569) @ (-45), #, (-571248877892569) @ (-45), (-7523833130877875) @ (-49)));
  (101%N, (#, #, #, (-3396745883983567) @ (-48)));
  (102%N, (#, #, #, (-7523833130877875) @ (-49)));
  (103%N, (#, #, #, (-4650533185457697) @ (-48)));
  (104%N, ((-1947521753537519) @ (-47), #, #, (-7587152606408853) @ (-49)));
  (105%N, (#, #, #, (-7951171338784367) @ (-49)));
  (106%N, (#, #, #, (-1744424065272691) @ (-47)));
  (107%N, ((-2796477488328883) @ (-48), (-1537178267142921) @ (-47), (-3326197965972903) @ (-48), (-2989474396959359) @ (-48)));
  (108%N, ((-2506235325693543) @ (-48), (-665663069712699) @ (-46), (-684379052090361) @ (-46), (-4875199062667359) @ (-49)));
  (109%N, (#, #, #, (-8166776809352665) @ (-49)));
  (110%N, ((-519778666673067) @ (-46), (-4989943565267959) @ (-49), (-4231258795355145) @ (-49), (-1269466549637845) @ (-47)));
  (111%N, ((-3667736269636657) @ (-48), (-3195267673917071) @ (-48), (-6521825269397027) @ (-49), (-6452863044846125) @ (-49)));
  (116%N, (#, #, #, (-302852298247679) @ (-44)));
  (117%N, (#, #, #, (-302852298247679) @ (-44)));
  (118%N, (#, #, #, (-1777541578842475) @ (-47)));
  (119%N, (#, #, #, (-3452684697072041) @ (-48)));
  (120%N, (#, #, #, (-4297911758076491) @ (-48)));
  (121%N, (#, #, #, (-302852298247679) @ (-44)));
  (123%N, (#, #, #, (-4392620273043229) @ (-48)));
  (124%N, ((-222100499235933) @ (-44), (-7346801008249289) @ (-49), (-7725679712283649) @ (-49), (-204825927845465) @ (-44)));
  (126%N, (#, #, #, (-271331332318175) @ (-44)));
  (127%N, (#, #, #, (-70881326618687) @ (-42)));
  (128%N, (#, #, #, (-302852298247679) @ (-44)));
  (129%N, (#, #, #, (-3582197954329907) @ (-48)));
  (130%N, (#, #, #, (-4227173035229071) @ (-48)));
  (131%N, (#, #, #, (-302852298247679) @ (-44)));
  (135%N, (#, #, (-609902861438431) @ (-45), (-3722837580357007) @ (-48)));
  (137%N, ((-6787131381448733) @ (-49), #, #, (-6938251729979339) @ (-49)));
  (140%N, ((-7417202744952887) @ (-49), (-5951059145045925) @ (-49), (-2947528267760435) @ (-48), (-3233672435585285) @ (-48)));
  (141%N, ((-100973958080197) @ (-43), (-5660353664389349) @ (-49), (-2541436971046821) @ (-48), (-6172850272411399) @ (-49)));
  (142%N, ((-5667192681930827) @ (-49), (-5491409798047909) @ (-49), (-2636048106674511) @ (-48), (-5367979108017645) @ (-49)));
  (143%N, (#, #, #, (-2130163006223681) @ (-47)));
  (145%N, ((-5898008560918977) @ (-49), (-1592576856228499) @ (-47), (-5286493686306289) @ (-49), (-1371317510359273) @ (-47)));
  (147%N, (#, (-7427359621511357) @ (-49), (-4331497877621075) @ (-48), (-7643494584741751) @ (-49)));
  (148%N, (#, #, #, (-4170689255897351) @ (-48)));
  (149%N, (#, #, #, (-7643494584741751) @ (-49)));
  (151%N, ((-6382743359033689) @ (-49), (-6046820292385703) @ (-49), (-5233711221330543) @ (-49), (-644043748570173) @ (-46)));
  (152%N, ((-3341290961436923) @ (-48), (-1764807936785953) @ (-47), (-2146956065995973) @ (-47), (-6147353841640511) @ (-49)));
  (154%N, (#, (-8090883396801683) @ (-49), (-4426206392587813) @ (-48), (-7795654513279065) @ (-49)));
  (155%N, (#, (-1796212599740603) @ (-47), (-3577408776600841) @ (-48), (-7127668759912815) @ (-49)));
  (156%N, (#, #, (-7556172614326021) @ (-49), (-1930728693765227) @ (-47)));
  (158%N, (#, #, #, (-4650533185457697) @ (-48)));
  (159%N, ((-3423861029421265) @ (-48), (-6794643225952077) @ (-49), (-413850120634003) @ (-45), (-6009813934816095) @ (-49)));
  (161%N, (#, #, (-3903704958981611) @ (-48), (-8910859197905059) @ (-49)));
  (162%N, (#, #, #, (-302852298247679) @ (-44)));
  (163%N, ((-7862826752368233) @ (-49), (-8871297742822353) @ (-49), (-1845768529231285) @ (-47), (-7500373488380235) @ (-49)));
  (165%N, (#, #, #, (-302852298247679) @ (-44)));
  (166%N, (#, #, #, (-302852298247679) @ (-44)));
  (167%N, ((-5721594448046859) @ (-49), (-4685850477777217) @ (-49), (-798723641565743) @ (-46), (-1403083090279123) @ (-47)));
  (169%N, ((-5542596360405691) @ (-49), (-680433776726159) @ (-46), (-6100238149648595) @ (-49), (-196014168947761) @ (-44)));
  (173%N, ((-7426068281774563) @ (-49), #, (-609902861438431) @ (-45), (-302852298247679) @ (-44)));
  (176%N, ((-319445004496353) @ (-45), (-761679484000969) @ (-46), (-6670779604780977) @ (-49), (-2722394082376837) @ (-48)));
  (177%N, ((-1489478381383599) @ (-47), (-5809931249162639) @ (-49), (-347470979547401) @ (-45), (-2908402845101199) @ (-48)));
  (178%N, ((-8978031436994227) @ (-49), #, #, (-3634150150092073) @ (-48)));
  (179%N, ((-2840959485555969) @ (-48), (-761679484000969) @ (-46), (-92611946696413) @ (-43), (-85833401198329) @ (-43)));
  (180%N, ((-2146956065995973) @ (-47), (-1925169055947837) @ (-47), (-7756962757402879) @ (-49), (-1809666128217651) @ (-47)));
  (181%N, (#, #, #, (-302852298247679) @ (-44)));
  (182%N, (#, #, #, (-302852298247679) @ (-44)));
  (185%N, (#, #, #, (-4650533185457697) @ (-48)));
  (186%N, ((-519778666673067) @ (-46), (-4989943565267959) @ (-49), (-4231258795355145) @ (-49), (-302852298247679) @ (-44)));
  (187%N, (#, #, #, (-4227173035229071) @ (-48)));
  (188%N, ((-2664613946985709) @ (-48), (-2869375619354051) @ (-48), (-4730057165249905) @ (-49), (-1390327968332825) @ (-47)));
  (189%N, (#, #, #, (-302852298247679) @ (-44)));
  (190%N, ((-1552082100991385) @ (-47), (-3982632372491541) @ (-48), (-571248877892569) @ (-45), (-6161020898305513) @ (-49)));
  (193%N, ((-624725853385205) @ (-46), (-4743540839876725) @ (-49), (-366998849120321) @ (-45), (-1391155567839645) @ (-47)));
  (195%N, (#, #, #, (-4297911758076491) @ (-48)));
  (197%N, ((-7374855723470995) @ (-49), (-3133834756504569) @ (-48), (-3476462333727023) @ (-48), (-1512570711830551) @ (-47)));
  (200%N, (#, #, #, (-302852298247679) @ (-44)));
  (202%N, ((-3903704958981611) @ (-48), (-5647369070067195) @ (-49), (-5516150374991651) @ (-49), (-1809666128217651) @ (-47)));
  (203%N, ((-3150393055813769) @ (-48), (-8252834006088559) @ (-49), (-1746162137615165) @ (-47), (-6316973237614355) @ (-49)));
  (208%N, ((-7435075673190267) @ (-49), (-1796212599740603) @ (-47), (-858821192549113) @ (-46), (-6569616159843049) @ (-49)));
  (209%N, (#, #, #, (-7857128249604397) @ (-49)));
  (212%N, (#, (-4240545284906009) @ (-48), (-4426206392587813) @ (-48), (-472560260360877) @ (-45)));
  (213%N, ((-1428464784035821) @ (-47), (-1643962057175493) @ (-47), #, (-2900433354868131) @ (-48)));
  (214%N, (#, #, #, (-8910859197905059) @ (-49)));
  (217%N, ((-8978031436994227) @ (-49), #, (-8018343577873535) @ (-49), (-4392620273043229) @ (-48)));
  (218%N, ((-2777505683173449) @ (-48), (-6284475237223739) @ (-49), (-5943611487299781) @ (-49), (-302852298247679) @ (-44)));
  (221%N, (#, #, #, (-8910859197905059) @ (-49)));
  (225%N, (#, #, #, (-4392620273043229) @ (-48)));
  (227%N, (#, #, (-7556172614326021) @ (-49), (-1930728693765227) @ (-47)));
  (229%N, (#, #, #, (-2001206550016447) @ (-47)));
  (231%N, (#, (-1796212599740603) @ (-47), (-3577408776600841) @ (-48), (-7127668759912815) @ (-49)));
  (232%N, ((-1347843368174879) @ (-47), (-5301992768114433) @ (-49), (-1331126553022025) @ (-47), (-5383540673822871) @ (-49)));
  (236%N, (#, (-428372245208381) @ (-45), (-3761685067605859) @ (-48), (-906660926466427) @ (-46)));
  (237%N, (#, #, #, (-4297911758076491) @ (-48)));
  (238%N, (#, #, #, (-302852298247679) @ (-44)));
  (239%N, ((-2146956065995973) @ (-47), (-1648815554978729) @ (-47), (-2999436700319327) @ (-48), (-6438744437682999) @ (-49)));
  (241%N, (#, #, #, (-1822899526423839) @ (-47)));
  (242%N, (#, #, (-1947521753537519) @ (-47), (-4650533185457697) @ (-48)));
  (244%N, ((-4331497877621075) @ (-48), #, #, (-6238477401306399) @ (-49)));
  (245%N, (#, #, #, (-302852298247679) @ (-44)));
  (246%N, (#, #, #, (-2061833855653683) @ (-47)));
  (247%N, ((-5515850054924021) @ (-49), (-6246014922008839) @ (-49), (-106184602910939) @ (-43), (-2812254557293409) @ (-48)));
  (249%N, (#, #, #, (-4650533185457697) @ (-48)));
  (250%N, ((-3478396877264481) @ (-48), (-6794643225952077) @ (-49), (-6857400519925933) @ (-49), (-3408440888610819) @ (-48)));
  (251%N, ((-8978031436994227) @ (-49), #, #, (-302852298247679) @ (-44)));
  (252%N, (#, #, #, (-2130163006223681) @ (-47)));
  (253%N, (#, #, #, (-3733460538297031) @ (-48)));
  (254%N, (#, #, #, (-3634150150092073) @ (-48)))].

(** prob_emit.py, characters 0x7900 to 0x79ff *)
Definition emit_79 : list (N * num4) := [
  (1%N, ((-3486270816616625) @ (-48), (-3736209830033945) @ (-48), (-378367205449867) @ (-45), (-6192760204387247) @ (-49)));
  (2%N, (#, #, #, (-2061833855653683) @ (-47)));
  (4%N, ((-6636788398932217) @ (-49), #, #, (-271331332318175) @ (-44)));
  (5%N, (#, #, #, (-8292395461171265) @ (-49)));
  (7%N, (#, #, #, (-7523833130877875) @ (-49)));
  (10%N, (#, #, #, (-2001206550016447) @ (-47)));
  (11%N, (#, #, #, (-7614619027055453) @ (-49)));
  (12%N, (#, #, #, (-7658507473194481) @ (-49)));
  (14%N, ((-609902861438431) @ (-45), (-5196384137160453) @ (-49), (-4213043055117661) @ (-49), (-3233672435585285) @ (-48)));
  (17%N, (#, #, #, (-302852298247679) @ (-44)));
  (19%N, (#, #, (-8978031436994227) @ (-49), (-8910859197905059) @ (-49)));
  (25%N, ((-100973958080197) @ (-43), (-5660353664389349) @ (-49), (-2541436971046821) @ (-48), (-4650533185457697) @ (-48)));
  (28%N, (#, #, #, (-302852298247679) @ (-44)));
  (29%N, (#, #, #, (-4650533185457697) @ (-48)));
  (30%N, (#, #, (-4260759154773655) @ (-48), (-271331332318175) @ (-44)));
  (32%N, (#, #, #, (-976926146266539) @ (-46)));
  (38%N, ((-8885332726949903) @ (-50), (-5063569048600015) @ (-49), (-4856661768034519) @ (-49), (-666861501976999) @ (-46)));
  (41%N, (#, #, #, (-456223959081461) @ (-45)));
  (42%N, ((-609902861438431) @ (-45), (-1925169055947837) @ (-47), (-6968563171774189) @ (-49), (-3510057111638175) @ (-48)));
  (43%N, ((-829324207436477) @ (-46), (-428372245208381) @ (-45), (-6566586581518627) @ (-49), (-7000866196083895) @ (-49)));
  (44%N, ((-571248877892569) @ (-45), (-6295964410557909) @ (-49), (-3632058836243843) @ (-48), (-1589430312101649) @ (-47)));
  (46%N, (#, #, #, (-7795654513279065) @ (-49)));
  (48%N, (#, #, #, (-302852298247679) @ (-44)));
  (49%N, ((-2146956065995973) @ (-47), (-6566386662228619) @ (-49), (-4331497877621075) @ (-48), (-3543822657056257) @ (-48)));
  (50%N, (#, #, #, (-8910859197905059) @ (-49)));
  (52%N, (#, #, (-6949081990735609) @ (-49), (-4650533185457697) @ (-48)));
  (53%N, (#, #, #, (-302852298247679) @ (-44)));
  (58%N, ((-4680690123224683) @ (-49), (-2357065835789169) @ (-48), (-1909819992192777) @ (-48), (-2910430980316335) @ (-48)));
  (59%N, (#, #, #, (-7926147221115621) @ (-49)));
  (60%N, ((-4574442928923075) @ (-49), (-8931253259877427) @ (-50), (-577667921841753) @ (-46), (-4832219245792435) @ (-49)));
  (61%N, (#, #, #, (-2061833855653683) @ (-47)));
  (62%N, ((-6887358834699269) @ (-50), (-4321657699967199) @ (-49), (-1050440337715895) @ (-47), (-5085689419969189) @ (-49)));
  (64%N, ((-609902861438431) @ (-45), (-3460130938885339) @ (-48), (-2727100171680985) @ (-48), (-5617576647981363) @ (-49)));
  (65%N, ((-5928412815142631) @ (-49), (-5244470056194149) @ (-49), (-7040346789497085) @ (-49), (-906660926466427) @ (-46)));
  (66%N, (#, #, #, (-1994339944854797) @ (-47)));
  (67%N, (#, #, #, (-4392620273043229) @ (-48)));
  (69%N, (#, #, #, (-8395033373076123) @ (-49)));
  (70%N, (#, #, #, (-7121773942140261) @ (-49)));
  (71%N, (#, #, #, (-1822899526423839) @ (-47)));
  (72%N, ((-5878233492167273) @ (-49), (-3478296917619477) @ (-48), (-6937708877592227) @ (-49), (-1713019402318041) @ (-47)));
  (73%N, (#, (-4240545284906009) @ (-48), (-7667890561037021) @ (-49), (-8205616343142647) @ (-49)));
  (75%N, (#, #, #, (-4650533185457697) @ (-48)));
  (78%N, (#, (-6440768010410019) @ (-49), (-1794334638614767) @ (-47), (-3165594950523267) @ (-48)));
  (79%N, (#, #, #, (-3951094144080465) @ (-48)));
  (80%N, (#, (-7575057571972747) @ (-49), #, (-1508054683035017) @ (-47)));
  (82%N, (#, #, #, (-4650533185457697) @ (-48)));
  (83%N, (#, #, #, (-239810366388671) @ (-44)));
  (84%N, (#, #, #, (-8910859197905059) @ (-49)));
  (85%N, (#, #, #, (-302852298247679) @ (-44)));
  (86%N, ((-4498144748699873) @ (-49), (-8795101174336491) @ (-50), (-2417913156310233) @ (-48), (-2771101273708053) @ (-48)));
  (87%N, (#, #, (-7018267490854295) @ (-49), (-3634150150092073) @ (-48)));
  (90%N, (#, (-6065776627261503) @ (-49), (-6273608013626637) @ (-49), (-7183698940977469) @ (-49)));
  (91%N, ((-6654661327169597) @ (-49), (-7346801008249289) @ (-49), #, (-6986850120558139) @ (-49)));
  (92%N, (#, (-3195267673917071) @ (-48), (-7219057633931153) @ (-49), (-3662121014844325) @ (-48)));
  (93%N, ((-5263592859793691) @ (-49), (-1247628554774067) @ (-47), (-1371863771569619) @ (-47), (-5447777815717627) @ (-49)));
  (94%N, ((-1939832298878037) @ (-48), (-8074599041048893) @ (-50), (-4158148571609285) @ (-49), (-8756893801041927) @ (-50)));
  (95%N, (#, (-2907423936947123) @ (-48), (-1601766931317963) @ (-47), (-7500373488380235) @ (-49)));
  (96%N, ((-6347462662288133) @ (-49), (-6680397687276859) @ (-49), (-6233539330978433) @ (-49), (-6105338082344209) @ (-49)));
  (98%N, ((-2011133004627089) @ (-47), #, #, (-976926146266539) @ (-46)));
  (99%N, (#, #, #, (-4650533185457697) @ (-48)));
  (101%N, ((-6237853144833625) @ (-49), (-8438910005164435) @ (-50), (-1124228752284147) @ (-47), (-3030435779935781) @ (-48)));
  (102%N, (#, #, #, (-3670651212387731) @ (-48)));
  (103%N, (#, #, (-4331497877621075) @ (-48), (-6938251729979339) @ (-49)));
  (104%N, ((-5592610770010893) @ (-49), (-40714039262603) @ (-42), (-4386687852250401) @ (-49), (-5320841761002807) @ (-49)));
  (105%N, (#, #, #, (-271331332318175) @ (-44)));
  (106%N, (#, #, #, (-4650533185457697) @ (-48)));
  (107%N, (#, #, #, (-7926147221115621) @ (-49)));
  (108%N, (#, #, #, (-4227173035229071) @ (-48)));
  (109%N, ((-5014315382541115) @ (-49), (-6680397687276859) @ (-49), (-1587524858760099) @ (-47), (-5002908398462851) @ (-49)));
  (111%N, ((-609902861438431) @ (-45), (-6530054704760343) @ (-49), (-1271800952623521) @ (-47), (-7332707602050573) @ (-49)));
  (112%N, (#, #, #, (-70881326618687) @ (-42)));
  (114%N, (#, #, #, (-302852298247679) @ (-44)));
  (115%N, (#, #, #, (-70881326618687) @ (-42)));
  (116%N, (#, #, #, (-2061833855653683) @ (-47)));
  (117%N, (#, #, #, (-4297911758076491) @ (-48)));
  (118%N, (#, #, #, (-302852298247679) @ (-44)));
  (119%N, ((-6714478686130389) @ (-49), (-3887923857524803) @ (-48), (-6256564836504177) @ (-49), (-6870536638503059) @ (-49)));
  (120%N, ((-5802919138339179) @ (-49), (-5695186420030371) @ (-49), (-5638474285036567) @ (-49), (-2853260740706801) @ (-48)));
  (121%N, (#, #, #, (-4297911758076491) @ (-48)));
  (122%N, (#, (-5064219481894119) @ (-49), (-3197744970132655) @ (-48), (-3437151102035493) @ (-48)));
  (123%N, (#, #, #, (-8130444851884389) @ (-49)));
  (124%N, (#, #, #, (-4297911758076491) @ (-48)));
  (125%N, (#, #, #, (-7857128249604397) @ (-49)));
  (126%N, (#, (-8871297742822353) @ (-49), #, (-8292395461171265) @ (-49)));
  (127%N, ((-6478699293932513) @ (-49), (-1396647827542697) @ (-47), (-5544488630938361) @ (-49), (-3156388658957765) @ (-48)));
  (128%N, ((-2756726622344805) @ (-48), (-3817185134677383) @ (-48), (-7058655718752843) @ (-49), (-5589512257515273) @ (-49)));
  (129%N, ((-1178447403831243) @ (-47), (-2283391635464251) @ (-48), (-18548213853807) @ (-41), (-5491714873743341) @ (-49)));
  (130%N, (#, #, #, (-271331332318175) @ (-44)));
  (132%N, ((-6478699293932513) @ (-49), (-1396647827542697) @ (-47), (-5544488630938361) @ (-49), (-3156388658957765) @ (-48)));
  (133%N, ((-1452870798852289) @ (-47), (-2869375619354051) @ (-48), (-5873679777117647) @ (-49), (-5882246233318017) @ (-49)));
  (134%N, (#, #, #, (-8130444851884389) @ (-49)));
  (135%N, (#, #, #, (-302852298247679) @ (-44)));
  (138%N, (#, #, #, (-8910859197905059) @ (-49)));
  (139%N, (#, #, #, (-4227173035229071) @ (-48)));
  (140%N, (#, #, #, (-8910859197905059) @ (-49)));
  (141%N, ((-5802919138339179) @ (-49), (-5695186420030371) @ (-49), (-5638474285036567) @ (-49), (-2853260740706801) @ (-48)));
  (142%N, ((-609902861438431) @ (-45), (-6530054704760343) @ (-49), (-1271800952623521) @ (-47), (-7332707602050573) @ (-49)));
  (143%N, ((-4509586203698739) @ (-49), (-8159184799322737) @ (-50), (-4608857108087917) @ (-49), (-2599652542252469) @ (-48)));
  (144%N, (#, #, #, (-8395033373076123) @ (-49)));
  (145%N, (#, #, #, (-302852298247679) @ (-44)));
  (149%N, (#, (-6440768010410019) @ (-49), (-1794334638614767) @ (-47), (-3165594950523267) @ (-48)));
  (150%N, (#, #, #, (-4297911758076491) @ (-48)));
  (154%N, ((-2078626915425975) @ (-47), #, #, #));
  (155%N, (#, #, (-609902861438431) @ (-45), (-6925694704825637) @ (-49)));
  (159%N, (#, #, #, (-302852298247679) @ (-44)));
  (165%N, (#, #, (-609902861438431) @ (-45), (-2130163006223681) @ (-47)));
  (166%N, ((-1261008602075915) @ (-47), (-5056463447107237) @ (-49), (-2525216930954739) @ (-48), (-4891587744329619) @ (-49)));
  (167%N, (#, (-5283437664140847) @ (-49), (-2619505451473753) @ (-48), (-7926147221115621) @ (-49)));
  (168%N, (#, #, #, (-3598472716699259) @ (-48)));
  (169%N, (#, #, #, (-2130163006223681) @ (-47)));
  (170%N, ((-1452870798852289) @ (-47), (-2869375619354051) @ (-48), (-5873679777117647) @ (-49), (-5882246233318017) @ (-49)));
  (173%N, (#, #, #, (-302852298247679) @ (-44)));
  (174%N, ((-4574442928923075) @ (-49), (-8931253259877427) @ (-50), (-577667921841753) @ (-46), (-70881326618687) @ (-42)));
  (176%N, (#, #, #, (-6039032127907627) @ (-49)));
  (177%N, ((-6714478686130389) @ (-49), (-3887923857524803) @ (-48), (-6256564836504177) @ (-49), (-6870536638503059) @ (-49)));
  (179%N, (#, (-8090883396801683) @ (-49), (-4684119305002281) @ (-48), (-7307683484381827) @ (-49)));
  (181%N, (#, #, #, (-4297911758076491) @ (-48)));
  (185%N, ((-1593600801795253) @ (-47), (-5944804081210427) @ (-49), (-746912269962565) @ (-46), (-6087314556221063) @ (-49)));
  (186%N, (#, (-105327943197979) @ (-43), (-6076986173905263) @ (-49), (-8395033373076123) @ (-49)));
  (187%N, ((-8713739568579169) @ (-50), (-4546704091120847) @ (-49), (-8770873793352497) @ (-50), (-4521374438649107) @ (-49)));
  (189%N, ((-47585848258867) @ (-42), (-778145317480215) @ (-46), (-5808950802684291) @ (-49), (-3209945996302409) @ (-48)));
  (190%N, ((-6740306608050731) @ (-49), (-6794643225952077) @ (-49), (-1509428233607159) @ (-47), (-5745835878119485) @ (-49)));
  (191%N, ((-3198462104219199) @ (-48), (-384016428008523) @ (-45), (-6933968332578247) @ (-49), (-5942424342020999) @ (-49)));
  (192%N, ((-2728178621186899) @ (-48), (-8042508152041167) @ (-50), (-4493144202430885) @ (-49), (-2755584333643611) @ (-48)));
  (193%N, ((-2306534511748375) @ (-48), (-2620447879384093) @ (-48), (-5264937103882509) @ (-49), (-5438856076634293) @ (-49)));
  (195%N, ((-3198462104219199) @ (-48), (-384016428008523) @ (-45), (-6933968332578247) @ (-49), (-5942424342020999) @ (-49)));
  (196%N, (#, (-8871297742822353) @ (-49), #, #));
  (197%N, (#, #, #, (-2001206550016447) @ (-47)));
  (198%N, ((-8197617090973557) @ (-49), (-8090883396801683) @ (-49), (-3340100790628971) @ (-48), (-6837734159388757) @ (-49)));
  (199%N, (#, #, #, (-302852298247679) @ (-44)));
  (200%N, ((-3921870937715749) @ (-48), (-8871297742822353) @ (-49), (-609902861438431) @ (-45), (-1893476528496951) @ (-47)));
  (201%N, ((-3060041825640419) @ (-48), (-1066074347955243) @ (-47), (-1587524858760099) @ (-47), (-6469181577378721) @ (-49)));
  (203%N, ((-1259010005897041) @ (-47), (-2044303547216339) @ (-48), (-4772508745882937) @ (-49), (-5211978086163669) @ (-49)));
  (205%N, ((-4239907379092537) @ (-49), (-2167342320195811) @ (-48), (-6096566485772193) @ (-50), (-8202324862782189) @ (-50)));
  (207%N, (#, #, #, (-70881326618687) @ (-42)));
  (208%N, (#, #, #, (-302852298247679) @ (-44)));
  (209%N, ((-7334926721777729) @ (-50), (-6976364100936107) @ (-50), (-1926880617754867) @ (-48), (-4699276363786861) @ (-49)));
  (210%N, ((-1631807407613905) @ (-47), (-3252133114292637) @ (-48), (-2972448380862169) @ (-48), (-5024819068596875) @ (-49)));
  (211%N, (#, #, #, (-302852298247679) @ (-44)));
  (213%N, ((-571248877892569) @ (-45), #, (-8978031436994227) @ (-49), (-4170689255897351) @ (-48)));
  (215%N, (#, #, #, (-4297911758076491) @ (-48)));
  (216%N, ((-8735793225350933) @ (-50), (-5483130973059873) @ (-49), (-645862530391083) @ (-46), (-5793617130208739) @ (-49)));
  (217%N, (#, #, #, (-3951094144080465) @ (-48)));
  (223%N, ((-5276004246769619) @ (-49), (-324825485351409) @ (-45), (-5417229644126503) @ (-49), (-84278063094965) @ (-43)));
  (227%N, ((-8978031436994227) @ (-49), (-7427359621511357) @ (-49), (-3756423699901591) @ (-48), (-7477852487122849) @ (-49)));
  (228%N, ((-1795778112687613) @ (-47), (-3817185134677383) @ (-48), (-1800199549239177) @ (-47), (-803547887888141) @ (-46)));
  (230%N, ((-8934586161671853) @ (-50), (-5800224975033435) @ (-49), (-5699115870503173) @ (-49), (-2607769284287029) @ (-48)));
  (231%N, ((-6689783939482305) @ (-49), (-6823518783638375) @ (-49), (-7231568147748981) @ (-49), (-3767970024052643) @ (-48)));
  (232%N, (#, #, #, (-302852298247679) @ (-44)));
  (233%N, ((-2626006317257693) @ (-48), (-7157383978315813) @ (-49), (-7579153354239763) @ (-49), (-3204934439998351) @ (-48)));
  (235%N, ((-7862826752368233) @ (-49), #, #, (-8130444851884389) @ (-49)));
  (236%N, (#, #, #, (-302852298247679) @ (-44)));
  (237%N, ((-746912269962565) @ (-46), (-8871297742822353) @ (-49), #, (-8910859197905059) @ (-49)));
  (238%N, (#, #, #, (-2130163006223681) @ (-47)));
  (239%N, ((-2121185870781993) @ (-48), (-8583669078532521) @ (-50), (-7857793794937001) @ (-50), (-5300402776698199) @ (-49)));
  (240%N, ((-4041106603771749) @ (-49), (-2616467805544147) @ (-48), (-964779100967407) @ (-47), (-7924969454766215) @ (-50)));
  (241%N, (#, #, #, (-8395033373076123) @ (-49)));
  (243%N, (#, #, #, (-302852298247679) @ (-44)));
  (244%N, (#, #, #, (-4227173035229071) @ (-48)));
  (247%N, (#, #, #, (-7523833130877875) @ (-49)));
  (248%N, ((-6992866943914805) @ (-49), #, (-866281559726281) @ (-46), (-886648957992025) @ (-46)));
  (249%N, (#, #, #, (-4227173035229071) @ (-48)));
  (250%N, (#, #, #, (-7231493078902567) @ (-49)));
  (251%N, ((-2349516693544289) @ (-48), (-5187402874168481) @ (-49), (-18556027802803) @ (-41), (-320323175013477) @ (-45)));
  (252%N, (#, #, #, (-4392620273043229) @ (-48)));
  (253%N, ((-7435075673190267) @ (-49), (-6646945275490687) @ (-49), (-6570482444495635) @ (-49), (-6580720069209839) @ (-49)));
  (254%N, (#, #, #, (-7523833130877875) @ (-49)))].

(** prob_emit.py, characters 0x7a00 to 0x7aff *)
Definition emit_7a : list (N * num4) := [
  (0%N, ((-5101690203993229) @ (-49), (-1358651169246899) @ (-47), (-691925126795715) @ (-46), (-1399221601444727) @ (-47)));
  (1%N, (#, #, #, (-302852298247679) @ (-44)));
  (2%N, (#, (-4240545284906009) @ (-48), #, (-2061833855653683) @ (-47)));
  (3%N, (#, #, (-4260759154773655) @ (-48), (-8130444851884389) @ (-49)));
  (5%N, ((-5195393347538821) @ (-49), (-5241787207811825) @ (-49), (-4889041751061113) @ (-49), (-302852298247679) @ (-44)));
  (6%N, (#, #, (-2146956065995973) @ (-47), #));
  (7%N, (#, #, #, (-302852298247679) @ (-44)));
  (8%N, ((-8197617090973557) @ (-49), (-8090883396801683) @ (-49), (-3340100790628971) @ (-48), (-6837734159388757) @ (-49)));
  (9%N, (#, #, #, (-302852298247679) @ (-44)));
  (10%N, (#, #, #, (-70881326618687) @ (-42)));
  (11%N, ((-8216959026575483) @ (-50), (-7913075855297707) @ (-50), (-1777648400148231) @ (-48), (-1346488186467149) @ (-47)));
  (12%N, (#, #, #, (-4650533185457697) @ (-48)));
  (13%N, ((-2729939962528593) @ (-48), #, (-6147989361808037) @ (-49), (-4950850840411687) @ (-49)));
  (14%N, ((-5195393347538821) @ (-49), (-5241787207811825) @ (-49), (-4889041751061113) @ (-49), (-2644039955165403) @ (-48)));
  (15%N, (#, #, #, (-302852298247679) @ (-44)));
  (16%N, (#, #, #, (-302852298247679) @ (-44)));
  (18%N, (#, #, #, (-70881326618687) @ (-42)));
  (20%N, ((-8978031436994227) @ (-49), #, (-7492374236211145) @ (-49), (-3870118839437027) @ (-48)));
  (21%N, (#, #, #, (-302852298247679) @ (-44)));
  (23%N, ((-8233949048441833) @ (-49), (-8871297742822353) @ (-49), (-609902861438431) @ (-45), (-3702723670134365) @ (-48)));
  (25%N, (#, #, #, (-302852298247679) @ (-44)));
  (26%N, ((-834728907770341) @ (-46), (-6448324499080771) @ (-49), (-3194186452740551) @ (-48), (-6649836563450353) @ (-49)));
  (27%N, (#, #, #, (-4392620273043229) @ (-48)));
  (28%N, (#, #, #, (-8910859197905059) @ (-49)));
  (30%N, ((-609902861438431) @ (-45), (-1764807936785953) @ (-47), (-3498510787487123) @ (-48), (-70881326618687) @ (-42)));
  (32%N, ((-3202075439804693) @ (-48), (-6185641055691637) @ (-49), (-1723595915767347) @ (-47), (-1648585122635241) @ (-47)));
  (35%N, (#, (-7346801008249289) @ (-49), (-6294765199117437) @ (-49), (-7523833130877875) @ (-49)));
  (39%N, (#, #, #, (-4650533185457697) @ (-48)));
  (46%N, ((-4239907379092537) @ (-49), (-2167342320195811) @ (-48), (-6096566485772193) @ (-50), (-302852298247679) @ (-44)));
  (49%N, ((-4041106603771749) @ (-49), (-2616467805544147) @ (-48), (-964779100967407) @ (-47), (-7924969454766215) @ (-50)));
  (50%N, (#, (-1925169055947837) @ (-47), #, #));
  (51%N, ((-8877683800147179) @ (-50), (-5451181977602625) @ (-49), (-2756726622344805) @ (-48), (-5438856076634293) @ (-49)));
  (54%N, (#, #, #, (-4048158111928321) @ (-48)));
  (55%N, ((-1975763643203379) @ (-47), (-7385640542039271) @ (-49), (-164066773694575) @ (-44), (-204169426815881) @ (-44)));
  (56%N, (#, #, #, (-4227173035229071) @ (-48)));
  (57%N, (#, #, (-3258236148826385) @ (-48), (-6991483479663675) @ (-49)));
  (59%N, ((-2836955506564859) @ (-48), (-3036770788656713) @ (-48), (-5600232362718229) @ (-49), (-3113796480014135) @ (-48)));
  (60%N, ((-3704237331932315) @ (-48), (-335940044921433) @ (-45), (-6148912987861693) @ (-49), (-3598472716699259) @ (-48)));
  (61%N, ((-3287202728281269) @ (-48), (-6122524627936863) @ (-49), (-6253217255063427) @ (-49), (-3209945996302409) @ (-48)));
  (63%N, ((-6039232368423709) @ (-49), (-794651871930237) @ (-46), (-5440641034919813) @ (-49), (-2799029812987241) @ (-48)));
  (64%N, (#, #, #, (-4650533185457697) @ (-48)));
  (66%N, (#, #, (-7681791266144621) @ (-49), #));
  (68%N, (#, #, #, (-4227173035229071) @ (-48)));
  (69%N, (#, #, #, (-271331332318175) @ (-44)));
  (70%N, ((-2530788248099345) @ (-48), (-1285010539706889) @ (-47), (-5810468870894341) @ (-49), (-3156388658957765) @ (-48)));
  (71%N, (#, #, #, (-2061833855653683) @ (-47)));
  (72%N, (#, #, #, (-302852298247679) @ (-44)));
  (73%N, (#, #, #, (-8910859197905059) @ (-49)));
  (74%N, (#, #, #, (-302852298247679) @ (-44)));
  (75%N, (#, #, #, (-4650533185457697) @ (-48)));
  (76%N, (#, (-7346801008249289) @ (-49), (-6294765199117437) @ (-49), (-7523833130877875) @ (-49)));
  (77%N, ((-2121185870781993) @ (-48), (-8583669078532521) @ (-50), (-7857793794937001) @ (-50), (-5300402776698199) @ (-49)));
  (78%N, ((-1870602565026865) @ (-47), (-4993376197570699) @ (-49), (-1377841093547791) @ (-47), (-6180509573602467) @ (-49)));
  (81%N, (#, #, (-2017999609788739) @ (-47), (-7115940211661285) @ (-49)));
  (87%N, ((-889038822504283) @ (-46), (-3038732294690165) @ (-48), (-1523793524482053) @ (-47), (-6325460081063297) @ (-49)));
  (92%N, (#, #, #, (-4650533185457697) @ (-48)));
  (96%N, (#, #, #, (-302852298247679) @ (-44)));
  (97%N, (#, #, (-2017999609788739) @ (-47), (-7115940211661285) @ (-49)));
  (98%N, ((-7435075673190267) @ (-49), (-6646945275490687) @ (-49), (-6570482444495635) @ (-49), (-6580720069209839) @ (-49)));
  (104%N, (#, #, #, (-3870118839437027) @ (-48)));
  (105%N, ((-8877683800147179) @ (-50), (-5451181977602625) @ (-49), (-2756726622344805) @ (-48), (-5438856076634293) @ (-49)));
  (107%N, (#, #, #, (-302852298247679) @ (-44)));
  (108%N, (#, #, #, (-7926147221115621) @ (-49)));
  (109%N, (#, #, #, (-4650533185457697) @ (-48)));
  (110%N, (#, #, #, (-302852298247679) @ (-44)));
  (112%N, (#, (-491414177067389) @ (-45), (-4426206392587813) @ (-48), (-7500373488380235) @ (-49)));
  (116%N, ((-5536957415560097) @ (-49), (-5491409798047909) @ (-49), (-5401083932579199) @ (-49), (-2585735781236841) @ (-48)));
  (118%N, ((-5091284705417521) @ (-49), (-115663287494313) @ (-44), (-3793803064640633) @ (-49), (-2905530626539053) @ (-48)));
  (119%N, ((-5292922877708355) @ (-49), (-5377306113966719) @ (-49), (-675258031863145) @ (-46), (-2667078307037011) @ (-48)));
  (120%N, (#, #, (-609902861438431) @ (-45), (-3702723670134365) @ (-48)));
  (121%N, ((-6850929759563609) @ (-49), #, (-7171623277416283) @ (-49), (-7121773942140261) @ (-49)));
  (122%N, ((-973692330802783) @ (-47), (-7877614329906891) @ (-50), (-8277978449273707) @ (-50), (-583814973159155) @ (-46)));
  (123%N, (#, #, #, (-4297911758076491) @ (-48)));
  (124%N, (#, #, #, (-4227173035229071) @ (-48)));
  (125%N, (#, #, #, (-4392620273043229) @ (-48)));
  (127%N, ((-1250321663108055) @ (-47), (-1643962057175493) @ (-47), (-5300039912492563) @ (-49), (-4434578800439323) @ (-49)));
  (128%N, ((-609902861438431) @ (-45), #, (-2146956065995973) @ (-47), (-8130444851884389) @ (-49)));
  (129%N, ((-7850437279904195) @ (-50), (-5899983341256189) @ (-49), (-5241218552652903) @ (-49), (-5423718971509959) @ (-49)));
  (131%N, ((-3078178531328229) @ (-48), (-6028481538756893) @ (-49), (-6311788741076455) @ (-49), (-188036986460185) @ (-44)));
  (132%N, ((-3403802272520385) @ (-48), (-6615369712852055) @ (-49), (-1445335004346677) @ (-47), (-2832452062282755) @ (-48)));
  (133%N, (#, #, #, (-302852298247679) @ (-44)));
  (134%N, (#, #, #, (-3951094144080465) @ (-48)));
  (135%N, (#, #, #, (-7358896042685395) @ (-49)));
  (136%N, ((-3761685067605859) @ (-48), (-3736209830033945) @ (-48), (-4260759154773655) @ (-48), (-7523833130877875) @ (-49)));
  (138%N, (#, #, #, (-302852298247679) @ (-44)));
  (139%N, (#, #, #, (-4392620273043229) @ (-48)));
  (141%N, ((-6673120356400493) @ (-49), (-3030966975271533) @ (-48), (-6313024636091883) @ (-49), (-3148149778781529) @ (-48)));
  (142%N, (#, #, #, (-70881326618687) @ (-42)));
  (145%N, ((-3034053963055003) @ (-48), (-1540569696027671) @ (-47), (-6113101236763489) @ (-49), (-5615957811629523) @ (-49)));
  (146%N, ((-3223214859226429) @ (-48), #, #, (-6478456086215057) @ (-49)));
  (147%N, (#, #, #, (-4392620273043229) @ (-48)));
  (149%N, (#, (-3760701355345663) @ (-48), (-3756423699901591) @ (-48), (-7477852487122849) @ (-49)));
  (150%N, ((-7417202744952887) @ (-49), #, (-3321712214036881) @ (-48), (-5924664195503603) @ (-49)));
  (151%N, ((-4999484057381239) @ (-49), (-3318111047509587) @ (-48), (-2779605649698425) @ (-48), (-2760833041683547) @ (-48)));
  (152%N, ((-6608903272462357) @ (-49), (-8871297742822353) @ (-49), (-3569249510334543) @ (-48), (-420540146700683) @ (-45)));
  (155%N, (#, #, #, (-7835882333724349) @ (-49)));
  (156%N, ((-7171623277416283) @ (-49), (-7575057571972747) @ (-49), (-6507662259421707) @ (-49), (-5739257511672803) @ (-49)));
  (157%N, ((-5992536186023355) @ (-49), (-2795775626869985) @ (-48), (-353374491953959) @ (-45), (-2694592501642315) @ (-48)));
  (158%N, (#, #, #, (-7435345513955431) @ (-49)));
  (159%N, ((-6386960232334713) @ (-49), (-7346801008249289) @ (-49), (-5736946586312947) @ (-49), (-5803680058687117) @ (-49)));
  (160%N, ((-483818997720415) @ (-45), (-3887923857524803) @ (-48), (-571248877892569) @ (-45), (-7025030848007957) @ (-49)));
  (161%N, (#, #, #, (-6617800133038605) @ (-49)));
  (162%N, (#, #, #, (-4650533185457697) @ (-48)));
  (163%N, (#, #, #, (-3630371905756697) @ (-48)));
  (165%N, ((-6286442661744131) @ (-49), (-6680397687276859) @ (-49), (-3663958025301281) @ (-48), (-195933285191281) @ (-44)));
  (166%N, ((-5712580188330589) @ (-49), (-398981976780441) @ (-45), (-6873910499477351) @ (-49), (-6189392597415009) @ (-49)));
  (168%N, ((-571248877892569) @ (-45), (-6823518783638375) @ (-49), #, (-3702723670134365) @ (-48)));
  (169%N, ((-5992536186023355) @ (-49), (-2795775626869985) @ (-48), (-353374491953959) @ (-45), (-2694592501642315) @ (-48)));
  (170%N, ((-3059164955844933) @ (-48), (-3181861569937047) @ (-48), (-1606223371873941) @ (-47), (-302852298247679) @ (-44)));
  (172%N, (#, #, (-8978031436994227) @ (-49), (-3605255574468759) @ (-48)));
  (173%N, (#, #, #, (-943539134077359) @ (-46)));
  (174%N, ((-5292922877708355) @ (-49), (-5377306113966719) @ (-49), (-675258031863145) @ (-46), (-2667078307037011) @ (-48)));
  (175%N, ((-3034053963055003) @ (-48), (-1540569696027671) @ (-47), (-6113101236763489) @ (-49), (-5615957811629523) @ (-49)));
  (176%N, (#, #, #, (-302852298247679) @ (-44)));
  (179%N, (#, #, #, (-7658507473194481) @ (-49)));
  (181%N, (#, #, #, (-70881326618687) @ (-42)));
  (182%N, (#, #, #, (-943539134077359) @ (-46)));
  (184%N, (#, #, #, (-1893476528496951) @ (-47)));
  (186%N, ((-6286442661744131) @ (-49), (-6680397687276859) @ (-49), (-3663958025301281) @ (-48), (-195933285191281) @ (-44)));
  (187%N, (#, #, #, (-4650533185457697) @ (-48)));
  (188%N, (#, #, #, (-302852298247679) @ (-44)));
  (191%N, (#, (-3760701355345663) @ (-48), (-3158997764452997) @ (-48), (-4297911758076491) @ (-48)));
  (195%N, (#, #, #, (-4650533185457697) @ (-48)));
  (196%N, ((-7171623277416283) @ (-49), (-7575057571972747) @ (-49), (-6507662259421707) @ (-49), (-5739257511672803) @ (-49)));
  (197%N, ((-6673120356400493) @ (-49), (-3030966975271533) @ (-48), (-6313024636091883) @ (-49), (-3148149778781529) @ (-48)));
  (198%N, (#, #, #, (-2061833855653683) @ (-47)));
  (199%N, ((-5712580188330589) @ (-49), (-398981976780441) @ (-45), (-6873910499477351) @ (-49), (-6189392597415009) @ (-49)));
  (200%N, (#, #, #, (-4392620273043229) @ (-48)));
  (202%N, ((-3078178531328229) @ (-48), (-6028481538756893) @ (-49), (-6311788741076455) @ (-49), (-188036986460185) @ (-44)));
  (203%N, ((-7817465673191365) @ (-50), (-3622689491673869) @ (-49), (-6856463301159715) @ (-50), (-4608905738237235) @ (-49)));
  (209%N, (#, (-8871297742822353) @ (-49), #, (-1893476528496951) @ (-47)));
  (214%N, ((-5877662259288811) @ (-49), (-767480941468751) @ (-46), (-3396452638870059) @ (-48), (-5706996344329503) @ (-49)));
  (216%N, (#, #, #, (-4650533185457697) @ (-48)));
  (217%N, ((-2567514060682281) @ (-48), (-3100069211086487) @ (-48), (-4321419742945463) @ (-49), (-8065396523767299) @ (-50)));
  (218%N, (#, #, #, (-302852298247679) @ (-44)));
  (220%N, (#, #, #, (-302852298247679) @ (-44)));
  (221%N, (#, #, #, (-4650533185457697) @ (-48)));
  (222%N, ((-4522292122521397) @ (-49), (-3181861569937047) @ (-48), (-1758965277191057) @ (-47), (-5733750620727533) @ (-49)));
  (223%N, ((-2292314242074433) @ (-48), (-6615369712852055) @ (-49), (-145470696064975) @ (-44), (-8918183566054921) @ (-50)));
  (224%N, ((-4895288551762807) @ (-49), (-4861480289137783) @ (-49), (-8213759676067753) @ (-50), (-2390999415888405) @ (-48)));
  (226%N, (#, #, #, (-302852298247679) @ (-44)));
  (227%N, ((-3040534248737943) @ (-48), (-8090883396801683) @ (-49), (-3767046657841615) @ (-48), (-2061833855653683) @ (-47)));
  (229%N, ((-4902715704698021) @ (-49), (-5105388145830811) @ (-49), (-4697136866642133) @ (-49), (-1367524243434793) @ (-47)));
  (230%N, (#, #, (-571248877892569) @ (-45), (-1664373966160355) @ (-47)));
  (235%N, (#, #, #, (-4170689255897351) @ (-48)));
  (237%N, ((-2840959485555969) @ (-48), (-5963781719371065) @ (-49), (-5864681384478343) @ (-49), (-3279363519905739) @ (-48)));
  (238%N, (#, #, #, (-302852298247679) @ (-44)));
  (239%N, ((-1295531774287427) @ (-47), (-5048812820363621) @ (-49), (-2231718542529881) @ (-48), (-1207203674986281) @ (-47)));
  (243%N, (#, #, #, (-7835882333724349) @ (-49)));
  (244%N, (#, #, #, (-5175153393474945) @ (-49)));
  (245%N, (#, #, #, (-6946781437909935) @ (-49)));
  (246%N, ((-4522292122521397) @ (-49), (-3181861569937047) @ (-48), (-1758965277191057) @ (-47), (-5733750620727533) @ (-49)));
  (247%N, (#, #, #, (-6637298184271627) @ (-49)));
  (248%N, (#, #, #, (-4650533185457697) @ (-48)));
  (249%N, ((-1243622809980993) @ (-47), (-2596960228641671) @ (-48), (-5248827354188995) @ (-49), (-5034805771634983) @ (-49)));
  (250%N, ((-828507539730495) @ (-46), (-1673001328511805) @ (-47), (-6188148825753519) @ (-49), (-3662121014844325) @ (-48)));
  (251%N, (#, #, #, (-3446758689208401) @ (-48)));
  (252%N, (#, #, #, (-4650533185457697) @ (-48)));
  (253%N, (#, (-7575057571972747) @ (-49), (-4684119305002281) @ (-48), (-3605255574468759) @ (-48)));
  (254%N, (#, #, #, (-943539134077359) @ (-46)));
  (255%N, ((-3912641423100301) @ (-48), (-6089400371189665) @ (-49), (-6562717494443711) @ (-49), (-6517162045451459) @ (-49)))].

(** prob_emit.py, characters 0x7b00 to 0x7bff *)
Definition emit_7b : list (N * num4) := [
  (0%N, (#, #, #, (-3605255574468759) @ (-48)));
  (1%N, (#, #, #, (-826332377884195) @ (-46)));
  (2%N, (#, #, #, (-2902970452456137) @ (-48)));
  (3%N, ((-6976548411382209) @ (-49), (-6295964410557909) @ (-49), (-6745617496057075) @ (-49), (-3069552671552913) @ (-48)));
  (4%N, (#, #, (-4260759154773655) @ (-48), (-1853809505254573) @ (-47)));
  (5%N, (#, #, #, (-2808585751130761) @ (-48)));
  (6%N, ((-4426206392587813) @ (-48), (-8252834006088559) @ (-49), (-6714478686130389) @ (-49), (-855160738236529) @ (-46)));
  (7%N, (#, #, #, (-1994339944854797) @ (-47)));
  (8%N, (#, #, (-6748291847658751) @ (-49), (-421091349181405) @ (-45)));
  (9%N, (#, #, #, (-652916384902599) @ (-46)));
  (10%N, ((-2011133004627089) @ (-47), #, #, (-7795654513279065) @ (-49)));
  (11%N, ((-7250871180066637) @ (-49), #, (-6432490768163449) @ (-49), (-3422430101659097) @ (-48)));
  (12%N, (#, #, #, (-1893476528496951) @ (-47)));
  (13%N, (#, #, #, (-4227173035229071) @ (-48)));
  (14%N, (#, #, #, (-8064138897447807) @ (-49)));
  (15%N, (#, (-8252834006088559) @ (-49), (-571248877892569) @ (-45), (-7307683484381827) @ (-49)));
  (16%N, (#, #, #, (-4170689255897351) @ (-48)));
  (17%N, ((-2351812731058961) @ (-48), (-2364860480481815) @ (-48), (-8357584491746565) @ (-50), (-7694062971184761) @ (-50)));
  (19%N, (#, #, #, (-4048158111928321) @ (-48)));
  (20%N, ((-2283079170697459) @ (-48), (-2627665581943787) @ (-48), (-2407867279525359) @ (-48), (-642400312263857) @ (-46)));
  (21%N, (#, (-8871297742822353) @ (-49), #, (-3728098948061275) @ (-48)));
  (22%N, (#, #, #, (-6686506730573393) @ (-49)));
  (24%N, (#, #, #, (-7358896042685395) @ (-49)));
  (25%N, ((-6867248292096205) @ (-49), (-1725734743489383) @ (-47), (-1625178042930149) @ (-47), (-6206435774537469) @ (-49)));
  (26%N, (#, #, #, (-4227173035229071) @ (-48)));
  (27%N, ((-6293568705673569) @ (-49), (-1544044872304571) @ (-47), (-3133364351259961) @ (-48), (-5813351998674075) @ (-49)));
  (28%N, (#, #, #, (-4650533185457697) @ (-48)));
  (30%N, (#, (-8871297742822353) @ (-49), (-7343131840464381) @ (-49), (-6934034856678315) @ (-49)));
  (31%N, (#, #, #, (-7587152606408853) @ (-49)));
  (32%N, ((-8197617090973557) @ (-49), (-7244163096344431) @ (-49), (-6877271404704321) @ (-49), (-6771034946149301) @ (-49)));
  (33%N, (#, #, #, (-271331332318175) @ (-44)));
  (34%N, (#, #, #, (-3211636541784881) @ (-48)));
  (35%N, (#, #, #, (-3888284818171165) @ (-48)));
  (36%N, ((-3767046657841615) @ (-48), #, #, (-7231493078902567) @ (-49)));
  (37%N, (#, (-4240545284906009) @ (-48), #, (-7151885394841985) @ (-49)));
  (38%N, ((-4731546057822171) @ (-49), (-2761425861357387) @ (-48), (-5499282807076489) @ (-49), (-2964790410117605) @ (-48)));
  (39%N, (#, #, #, (-70881326618687) @ (-42)));
  (40%N, ((-6230325526131515) @ (-49), (-3312849679805319) @ (-48), (-3538790094118157) @ (-48), (-6202985610806041) @ (-49)));
  (41%N, (#, #, #, (-2061833855653683) @ (-47)));
  (42%N, (#, #, (-4684119305002281) @ (-48), (-3722837580357007) @ (-48)));
  (43%N, (#, #, #, (-7145732875094951) @ (-49)));
  (44%N, ((-6415620354855019) @ (-50), (-4417205686155211) @ (-49), (-83828794221399) @ (-43), (-2017346019993625) @ (-48)));
  (45%N, (#, #, #, (-8910859197905059) @ (-49)));
  (46%N, ((-609902861438431) @ (-45), #, (-8978031436994227) @ (-49), (-7065990723112215) @ (-49)));
  (48%N, (#, #, #, (-302852298247679) @ (-44)));
  (49%N, (#, #, #, (-1783406489466885) @ (-47)));
  (51%N, (#, (-7106171420012245) @ (-49), (-8131311136536975) @ (-49), (-1877995278787649) @ (-47)));
  (56%N, ((-1998329865051197) @ (-47), #, #, (-3722837580357007) @ (-48)));
  (57%N, ((-4081744231472905) @ (-48), #, #, #));
  (58%N, ((-7313100723111123) @ (-49), (-7575057571972747) @ (-49), (-6717008802539521) @ (-49), (-3196775173732053) @ (-48)));
  (60%N, ((-5547656618777803) @ (-49), (-6605226196018601) @ (-49), (-5556945904173059) @ (-49), (-5835591999137745) @ (-49)));
  (62%N, (#, #, #, (-472560260360877) @ (-45)));
  (69%N, (#, #, #, (-3951094144080465) @ (-48)));
  (70%N, ((-2283079170697459) @ (-48), (-2627665581943787) @ (-48), (-2407867279525359) @ (-48), (-4650533185457697) @ (-48)));
  (71%N, ((-546860929579423) @ (-45), #, (-609902861438431) @ (-45), (-7587152606408853) @ (-49)));
  (72%N, (#, #, #, (-70881326618687) @ (-42)));
  (73%N, ((-8314199443036135) @ (-50), (-4069384200099733) @ (-49), (-1016279218882675) @ (-47), (-5662856453029337) @ (-50)));
  (74%N, (#, #, #, (-4650533185457697) @ (-48)));
  (75%N, ((-5889781588460825) @ (-49), (-5976798483181123) @ (-49), (-349710645883247) @ (-45), (-2740560061110975) @ (-48)));
  (76%N, (#, #, (-1998329865051197) @ (-47), (-4297911758076491) @ (-48)));
  (77%N, ((-7250871180066637) @ (-49), #, (-6432490768163449) @ (-49), (-3422430101659097) @ (-48)));
  (78%N, (#, #, #, (-70881326618687) @ (-42)));
  (79%N, ((-222100499235933) @ (-44), (-7575057571972747) @ (-49), (-6440191982019049) @ (-49), (-3344609873824017) @ (-48)));
  (80%N, ((-7773281289935475) @ (-49), (-8252834006088559) @ (-49), (-6825765795923849) @ (-49), (-6681119608569583) @ (-49)));
  (81%N, ((-1420077060133151) @ (-47), (-510005673371853) @ (-46), (-8495423341364569) @ (-50), (-2679985942451895) @ (-48)));
  (82%N, ((-1709551796309617) @ (-47), (-6043104437617705) @ (-49), (-1383229922059929) @ (-47), (-5686472283404271) @ (-49)));
  (84%N, ((-4537135550237027) @ (-49), (-5501224865288559) @ (-49), (-4507830041271837) @ (-49), (-4881302742477949) @ (-49)));
  (86%N, ((-1263828692704017) @ (-47), (-5146031044601569) @ (-49), (-8216959026575483) @ (-50), (-5500534113434893) @ (-49)));
  (88%N, (#, #, #, (-2130163006223681) @ (-47)));
  (90%N, ((-4081744231472905) @ (-48), #, #, (-8910859197905059) @ (-49)));
  (91%N, ((-6154486795310231) @ (-49), (-3760701355345663) @ (-48), (-7556172614326021) @ (-49), (-6424971274762273) @ (-49)));
  (92%N, (#, #, #, (-869977916606673) @ (-46)));
  (93%N, (#, (-6808895884777563) @ (-49), (-6178323969866389) @ (-49), (-3350102242753159) @ (-48)));
  (95%N, (#, #, #, (-3702723670134365) @ (-48)));
  (96%N, ((-8359567700260433) @ (-49), (-874429171128617) @ (-46), (-6813593430814783) @ (-49), (-4227173035229071) @ (-48)));
  (97%N, (#, #, #, (-302852298247679) @ (-44)));
  (101%N, (#, #, #, (-302852298247679) @ (-44)));
  (102%N, (#, #, #, (-1893476528496951) @ (-47)));
  (103%N, (#, (-8871297742822353) @ (-49), #, (-3728098948061275) @ (-48)));
  (104%N, (#, #, #, (-1969801887061797) @ (-47)));
  (105%N, (#, #, #, (-271331332318175) @ (-44)));
  (107%N, (#, #, #, (-6813480256580097) @ (-49)));
  (108%N, (#, #, #, (-302852298247679) @ (-44)));
  (110%N, (#, #, (-7696043924970107) @ (-49), (-1893476528496951) @ (-47)));
  (112%N, (#, #, (-609902861438431) @ (-45), (-2001206550016447) @ (-47)));
  (113%N, ((-1762356706075807) @ (-47), (-5736598463796225) @ (-49), (-1947521753537519) @ (-47), (-7857128249604397) @ (-49)));
  (114%N, ((-4684119305002281) @ (-48), #, #, (-8395033373076123) @ (-49)));
  (115%N, (#, #, #, (-4650533185457697) @ (-48)));
  (116%N, (#, #, #, (-271331332318175) @ (-44)));
  (117%N, ((-6292374749863511) @ (-49), #, (-230211112012267) @ (-44), (-1607953933851967) @ (-47)));
  (118%N, (#, #, #, (-7245928484021955) @ (-49)));
  (119%N, ((-5984196034170677) @ (-49), (-8090883396801683) @ (-49), (-106184602910939) @ (-43), (-834472943762735) @ (-46)));
  (121%N, ((-5205336083854791) @ (-49), (-2715423744356725) @ (-48), (-5816582414634615) @ (-49), (-2956792436013423) @ (-48)));
  (123%N, (#, #, #, (-4297911758076491) @ (-48)));
  (124%N, (#, #, #, (-8910859197905059) @ (-49)));
  (125%N, (#, #, #, (-6421579999726895) @ (-49)));
  (126%N, ((-4633486267759453) @ (-49), (-6646945275490687) @ (-49), (-5939773177293285) @ (-49), (-5712246445533459) @ (-49)));
  (128%N, ((-2042439025966105) @ (-48), (-707076639921921) @ (-46), (-6034686314485429) @ (-49), (-5809349290420419) @ (-49)));
  (129%N, (#, #, #, (-2061833855653683) @ (-47)));
  (133%N, (#, #, #, (-8166776809352665) @ (-49)));
  (135%N, (#, #, #, (-4650533185457697) @ (-48)));
  (138%N, (#, #, #, (-302852298247679) @ (-44)));
  (139%N, ((-7313100723111123) @ (-49), (-7575057571972747) @ (-49), (-6717008802539521) @ (-49), (-3196775173732053) @ (-48)));
  (140%N, (#, #, #, (-302852298247679) @ (-44)));
  (141%N, ((-8100873996841253) @ (-49), (-5973515966863759) @ (-49), (-7545024726212017) @ (-49), (-3093579333048465) @ (-48)));
  (142%N, (#, #, (-4260759154773655) @ (-48), (-4227173035229071) @ (-48)));
  (143%N, (#, (-6808895884777563) @ (-49), (-6178323969866389) @ (-49), (-3350102242753159) @ (-48)));
  (144%N, (#, (-8871297742822353) @ (-49), (-8100873996841253) @ (-49), (-409785891556225) @ (-45)));
  (145%N, (#, #, #, (-2130163006223681) @ (-47)));
  (146%N, (#, #, #, (-4392620273043229) @ (-48)));
  (147%N, (#, #, (-7667890561037021) @ (-49), (-7523833130877875) @ (-49)));
  (148%N, ((-985322676152685) @ (-46), (-8871297742822353) @ (-49), (-195587739624079) @ (-44), (-7275959601375213) @ (-49)));
  (149%N, ((-4426206392587813) @ (-48), (-8252834006088559) @ (-49), (-7219057633931153) @ (-49), (-6373019742929881) @ (-49)));
  (150%N, (#, #, #, (-3951094144080465) @ (-48)));
  (151%N, ((-2349024604298831) @ (-48), (-1912239437881627) @ (-48), (-4064888738895457) @ (-49), (-4572675112774169) @ (-49)));
  (152%N, (#, #, #, (-8395033373076123) @ (-49)));
  (153%N, (#, #, #, (-3598472716699259) @ (-48)));
  (156%N, ((-7773281289935475) @ (-49), #, #, #));
  (157%N, ((-546860929579423) @ (-45), #, #, (-8166776809352665) @ (-49)));
  (158%N, (#, #, #, (-6324036692306445) @ (-49)));
  (159%N, (#, #, #, (-7115940211661285) @ (-49)));
  (160%N, (#, #, #, (-2130163006223681) @ (-47)));
  (161%N, ((-3790039002228689) @ (-49), (-8426210666248507) @ (-50), (-7912447211264057) @ (-50), (-4430381899358853) @ (-49)));
  (162%N, (#, #, #, (-2966914759648055) @ (-48)));
  (163%N, (#, #, #, (-768809807031151) @ (-46)));
  (164%N, (#, #, #, (-7926147221115621) @ (-49)));
  (165%N, (#, #, #, (-4227173035229071) @ (-48)));
  (166%N, (#, #, #, (-8910859197905059) @ (-49)));
  (167%N, (#, #, (-609902861438431) @ (-45), (-7489000375236853) @ (-49)));
  (168%N, (#, #, #, (-7951171338784367) @ (-49)));
  (169%N, ((-3663958025301281) @ (-48), (-8252834006088559) @ (-49), (-7681791266144621) @ (-49), (-442294618973983) @ (-45)));
  (170%N, ((-4260759154773655) @ (-48), #, #, (-8166776809352665) @ (-49)));
  (171%N, ((-7013953676999103) @ (-49), (-3278540746232549) @ (-48), (-6745617496057075) @ (-49), (-3184193191912173) @ (-48)));
  (172%N, ((-609902861438431) @ (-45), #, #, (-7857128249604397) @ (-49)));
  (173%N, ((-380015603814727) @ (-45), (-2415282732978477) @ (-48), (-5093265431096977) @ (-49), (-318541698287505) @ (-45)));
  (174%N, (#, #, #, (-3535663390789959) @ (-48)));
  (175%N, (#, #, #, (-3415348596671437) @ (-48)));
  (176%N, (#, #, #, (-7795654513279065) @ (-49)));
  (177%N, ((-2929564782396517) @ (-48), (-3076599374652271) @ (-48), (-1307025169662585) @ (-47), (-2850897376891977) @ (-48)));
  (178%N, (#, #, #, (-4650533185457697) @ (-48)));
  (180%N, ((-7453534702421163) @ (-49), (-8871297742822353) @ (-49), (-2146956065995973) @ (-47), (-7183698940977469) @ (-49)));
  (182%N, (#, #, #, (-1877995278787649) @ (-47)));
  (183%N, (#, #, #, (-4392620273043229) @ (-48)));
  (184%N, (#, #, #, (-6955442377254011) @ (-49)));
  (185%N, (#, #, #, (-1893476528496951) @ (-47)));
  (187%N, (#, #, #, (-2061833855653683) @ (-47)));
  (188%N, (#, #, #, (-2130163006223681) @ (-47)));
  (190%N, (#, #, #, (-8910859197905059) @ (-49)));
  (191%N, (#, #, #, (-302852298247679) @ (-44)));
  (192%N, ((-8848547102575289) @ (-50), (-4792758236771807) @ (-49), (-4109120658338819) @ (-49), (-3505203974573573) @ (-48)));
  (193%N, (#, #, (-2078626915425975) @ (-47), (-976926146266539) @ (-46)));
  (194%N, (#, #, #, (-4650533185457697) @ (-48)));
  (195%N, (#, #, #, (-5900035482632401) @ (-49)));
  (196%N, ((-8322667937477911) @ (-50), (-7625319677711615) @ (-50), (-4602182911696889) @ (-49), (-2949349154358833) @ (-48)));
  (198%N, ((-6592405389866091) @ (-49), #, (-3632058836243843) @ (-48), (-3093579333048465) @ (-48)));
  (199%N, ((-3011739621619589) @ (-48), (-4719045231043625) @ (-49), (-5026015404741301) @ (-49), (-5058470642824519) @ (-49)));
  (201%N, ((-1420077060133151) @ (-47), (-510005673371853) @ (-46), (-8495423341364569) @ (-50), (-2679985942451895) @ (-48)));
  (203%N, (#, #, (-609902861438431) @ (-45), (-7489000375236853) @ (-49)));
  (204%N, (#, #, (-7773281289935475) @ (-49), (-70881326618687) @ (-42)));
  (205%N, (#, #, #, (-302852298247679) @ (-44)));
  (207%N, (#, #, #, (-302852298247679) @ (-44)));
  (209%N, (#, #, (-7435075673190267) @ (-49), #));
  (211%N, ((-3704237331932315) @ (-48), (-8252834006088559) @ (-49), (-6857400519925933) @ (-49), (-7275959601375213) @ (-49)));
  (212%N, (#, #, #, (-8910859197905059) @ (-49)));
  (216%N, (#, #, #, (-5646260258190633) @ (-49)));
  (217%N, ((-609902861438431) @ (-45), #, (-7250871180066637) @ (-49), (-7104451038327115) @ (-49)));
  (218%N, (#, #, #, (-4392620273043229) @ (-48)));
  (221%N, ((-3442027008155403) @ (-48), #, #, (-70881326618687) @ (-42)));
  (224%N, (#, #, #, (-302852298247679) @ (-44)));
  (225%N, ((-1574291460553911) @ (-47), #, (-609902861438431) @ (-45), (-3408440888610819) @ (-48)));
  (228%N, ((-6976548411382209) @ (-49), (-6295964410557909) @ (-49), (-6745617496057075) @ (-49), (-3069552671552913) @ (-48)));
  (229%N, (#, #, (-8100873996841253) @ (-49), (-4650533185457697) @ (-48)));
  (230%N, ((-8359567700260433) @ (-49), #, (-8462205612165291) @ (-49), (-7658507473194481) @ (-49)));
  (232%N, (#, #, #, (-302852298247679) @ (-44)));
  (233%N, ((-6154486795310231) @ (-49), (-3760701355345663) @ (-48), (-7556172614326021) @ (-49), (-6424971274762273) @ (-49)));
  (234%N, (#, #, (-1795778112687613) @ (-47), (-4392620273043229) @ (-48)));
  (238%N, ((-5491753528796975) @ (-49), (-5760744268106463) @ (-49), (-5574329369543299) @ (-49), (-6016359938263829) @ (-49)));
  (239%N, (#, #, #, (-271331332318175) @ (-44)));
  (241%N, ((-3340100790628971) @ (-48), (-6780742520844477) @ (-49), (-7058655718752843) @ (-49), (-7283724551427137) @ (-49)));
  (242%N, (#, #, #, (-4650533185457697) @ (-48)));
  (243%N, ((-4081744231472905) @ (-48), #, #, (-8910859197905059) @ (-49)));
  (244%N, (#, #, #, (-4650533185457697) @ (-48)));
  (246%N, (#, #, #, (-302852298247679) @ (-44)));
  (247%N, ((-7862826752368233) @ (-49), (-1572547628566631) @ (-47), (-5864681384478343) @ (-49), (-6758593556834681) @ (-49)));
  (250%N, (#, #, #, (-302852298247679) @ (-44)));
  (252%N, (#, #, (-4684119305002281) @ (-48), (-1994339944854797) @ (-47)));
  (254%N, ((-7773281289935475) @ (-49), #, (-7654324845498021) @ (-49), (-7477852487122849) @ (-49)))].

(** prob_emit.py, characters 0x7c00 to 0x7cff *)
Definition emit_7c : list (N * num4) := [
  (0%N, (#, #, #, (-8910859197905059) @ (-49)));
  (3%N, (#, #, #, (-2061833855653683) @ (-47)));
  (5%N, (#, #, #, (-302852298247679) @ (-44)));
  (6%N, (#, #, #, (-302852298247679) @ (-44)));
  (7%N, ((-1509428233607159) @ (-47), (-7082212487057555) @ (-49), (-6857400519925933) @ (-49), (-6326887077907041) @ (-49)));
  (9%N, (#, #, #, (-302852298247679) @ (-44)));
  (11%N, (#, #, #, (-1822899526423839) @ (-47)));
  (12%N, ((-3420680487369323) @ (-48), (-6425952682918579) @ (-49), (-206992078249649) @ (-44), (-8205616343142647) @ (-49)));
  (13%N, ((-3704237331932315) @ (-48), (-8252834006088559) @ (-49), (-6857400519925933) @ (-49), (-7275959601375213) @ (-49)));
  (15%N, (#, #, #, (-4297911758076491) @ (-48)));
  (18%N, (#, #, #, (-302852298247679) @ (-44)));
  (22%N, (#, #, #, (-70881326618687) @ (-42)));
  (25%N, (#, #, #, (-70881326618687) @ (-42)));
  (26%N, (#, #, #, (-4650533185457697) @ (-48)));
  (27%N, (#, #, #, (-2130163006223681) @ (-47)));
  (29%N, (#, #, #, (-271331332318175) @ (-44)));
  (30%N, ((-4260759154773655) @ (-48), #, #, (-8166776809352665) @ (-49)));
  (31%N, (#, #, #, (-1828975469458993) @ (-47)));
  (32%N, (#, #, #, (-1969801887061797) @ (-47)));
  (33%N, ((-2042439025966105) @ (-48), (-707076639921921) @ (-46), (-6034686314485429) @ (-49), (-5809349290420419) @ (-49)));
  (34%N, (#, #, #, (-4227173035229071) @ (-48)));
  (35%N, (#, #, (-7435075673190267) @ (-49), (-2061833855653683) @ (-47)));
  (36%N, (#, #, #, (-6800076053007037) @ (-49)));
  (37%N, (#, #, #, (-8205616343142647) @ (-49)));
  (38%N, (#, #, #, (-3662121014844325) @ (-48)));
  (39%N, ((-3984680263625049) @ (-48), (-6205055046904581) @ (-49), (-6463948669613769) @ (-49), (-3246810319127279) @ (-48)));
  (40%N, (#, #, #, (-3066498663545229) @ (-48)));
  (41%N, (#, #, #, (-6301738729860781) @ (-49)));
  (42%N, ((-7054022359647307) @ (-49), (-3817185134677383) @ (-48), (-1794334638614767) @ (-47), (-1742172217418765) @ (-47)));
  (43%N, ((-7013953676999103) @ (-49), (-3278540746232549) @ (-48), (-6745617496057075) @ (-49), (-3184193191912173) @ (-48)));
  (44%N, (#, #, #, (-790327111679597) @ (-46)));
  (45%N, (#, #, #, (-7951171338784367) @ (-49)));
  (46%N, (#, #, #, (-8064138897447807) @ (-49)));
  (47%N, (#, #, #, (-1637011139242251) @ (-47)));
  (48%N, ((-4204275375441935) @ (-48), #, #, (-271331332318175) @ (-44)));
  (49%N, (#, #, #, (-271331332318175) @ (-44)));
  (50%N, (#, #, #, (-6761678221831651) @ (-49)));
  (51%N, (#, #, #, (-3582197954329907) @ (-48)));
  (53%N, (#, #, #, (-3888284818171165) @ (-48)));
  (54%N, (#, #, #, (-302852298247679) @ (-44)));
  (55%N, ((-4260759154773655) @ (-48), (-6780742520844477) @ (-49), (-5685966076633201) @ (-49), (-698448455051911) @ (-46)));
  (56%N, ((-7250871180066637) @ (-49), (-8090883396801683) @ (-49), (-6659219651292893) @ (-49), (-8292395461171265) @ (-49)));
  (57%N, (#, #, #, (-869977916606673) @ (-46)));
  (58%N, (#, #, #, (-6673134368961563) @ (-49)));
  (59%N, (#, #, #, (-7614619027055453) @ (-49)));
  (61%N, ((-4633486267759453) @ (-49), (-6646945275490687) @ (-49), (-5939773177293285) @ (-49), (-271331332318175) @ (-44)));
  (62%N, ((-6478699293932513) @ (-49), (-5481762928757405) @ (-49), (-5995343922284681) @ (-49), (-3089704493416357) @ (-48)));
  (63%N, ((-1762356706075807) @ (-47), (-3638170211376633) @ (-48), (-3442027008155403) @ (-48), (-2991406284959773) @ (-48)));
  (64%N, (#, #, #, (-7658507473194481) @ (-49)));
  (65%N, (#, (-6350781191660321) @ (-49), (-7298665317991735) @ (-49), (-3733460538297031) @ (-48)));
  (66%N, (#, #, #, (-8166776809352665) @ (-49)));
  (67%N, ((-5491753528796975) @ (-49), (-5760744268106463) @ (-49), (-5574329369543299) @ (-49), (-6016359938263829) @ (-49)));
  (70%N, (#, #, #, (-4650533185457697) @ (-48)));
  (71%N, (#, #, #, (-4650533185457697) @ (-48)));
  (76%N, ((-5205336083854791) @ (-49), (-2715423744356725) @ (-48), (-5816582414634615) @ (-49), (-2956792436013423) @ (-48)));
  (77%N, ((-204668166840431) @ (-44), (-1578412539191041) @ (-47), (-1228176234838155) @ (-47), (-2806367018937591) @ (-48)));
  (78%N, (#, #, #, (-302852298247679) @ (-44)));
  (81%N, (#, #, #, (-302852298247679) @ (-44)));
  (83%N, (#, #, #, (-4297911758076491) @ (-48)));
  (84%N, (#, #, #, (-8395033373076123) @ (-49)));
  (85%N, (#, #, #, (-70881326618687) @ (-42)));
  (87%N, (#, #, #, (-2949349154358833) @ (-48)));
  (89%N, (#, #, (-7667890561037021) @ (-49), (-302852298247679) @ (-44)));
  (91%N, (#, #, #, (-271331332318175) @ (-44)));
  (92%N, (#, #, #, (-7951171338784367) @ (-49)));
  (93%N, (#, #, #, (-7835882333724349) @ (-49)));
  (95%N, (#, (-6350781191660321) @ (-49), (-7298665317991735) @ (-49), (-3733460538297031) @ (-48)));
  (96%N, ((-5547656618777803) @ (-49), (-6605226196018601) @ (-49), (-5556945904173059) @ (-49), (-5835591999137745) @ (-49)));
  (99%N, (#, #, #, (-302852298247679) @ (-44)));
  (100%N, (#, #, #, (-4297911758076491) @ (-48)));
  (101%N, (#, #, #, (-302852298247679) @ (-44)));
  (103%N, (#, #, #, (-302852298247679) @ (-44)));
  (105%N, (#, #, #, (-472560260360877) @ (-45)));
  (107%N, (#, #, #, (-302852298247679) @ (-44)));
  (108%N, ((-3340100790628971) @ (-48), (-6780742520844477) @ (-49), (-7058655718752843) @ (-49), (-7283724551427137) @ (-49)));
  (109%N, (#, #, #, (-302852298247679) @ (-44)));
  (110%N, ((-3663958025301281) @ (-48), (-8252834006088559) @ (-49), (-7681791266144621) @ (-49), (-442294618973983) @ (-45)));
  (112%N, (#, #, #, (-1969801887061797) @ (-47)));
  (114%N, ((-7924300488693565) @ (-49), (-701050912750219) @ (-46), (-5606898722397935) @ (-49), (-70881326618687) @ (-42)));
  (115%N, ((-4734610653864239) @ (-49), (-8108280497244749) @ (-50), (-7494264665341323) @ (-50), (-1899443391019439) @ (-48)));
  (116%N, (#, #, (-8978031436994227) @ (-49), (-3582197954329907) @ (-48)));
  (117%N, (#, #, #, (-302852298247679) @ (-44)));
  (120%N, (#, #, #, (-302852298247679) @ (-44)));
  (121%N, (#, #, #, (-271331332318175) @ (-44)));
  (123%N, ((-1102402420274139) @ (-47), (-2461154165256317) @ (-48), (-7519077012022383) @ (-50), (-2147872618530727) @ (-48)));
  (124%N, ((-3921870937715749) @ (-48), (-8871297742822353) @ (-49), (-609902861438431) @ (-45), (-1893476528496951) @ (-47)));
  (125%N, ((-7426068281774563) @ (-49), (-6463748750323761) @ (-49), (-6475387814069575) @ (-49), (-6885752428364879) @ (-49)));
  (130%N, (#, #, #, (-3535663390789959) @ (-48)));
  (134%N, ((-4260759154773655) @ (-48), #, #, #));
  (136%N, (#, #, #, (-6377691553587867) @ (-49)));
  (137%N, ((-2530788248099345) @ (-48), (-5618768636579623) @ (-49), (-2442506646838321) @ (-48), (-1330330114992909) @ (-47)));
  (138%N, (#, #, #, (-8395033373076123) @ (-49)));
  (139%N, (#, #, #, (-302852298247679) @ (-44)));
  (140%N, (#, #, #, (-3728098948061275) @ (-48)));
  (141%N, (#, #, #, (-6870536638503059) @ (-49)));
  (142%N, (#, #, #, (-7183698940977469) @ (-49)));
  (143%N, (#, #, #, (-3733460538297031) @ (-48)));
  (144%N, (#, #, #, (-7050279472141661) @ (-49)));
  (145%N, (#, #, (-5981443217177081) @ (-49), (-348605271324301) @ (-45)));
  (146%N, ((-1371863771569619) @ (-47), (-5418501600203023) @ (-49), (-5282512411201817) @ (-49), (-1431950977748151) @ (-47)));
  (147%N, (#, #, #, (-7386362463331995) @ (-49)));
  (148%N, (#, #, #, (-4650533185457697) @ (-48)));
  (149%N, (#, #, (-7058655718752843) @ (-49), (-1893476528496951) @ (-47)));
  (150%N, (#, #, #, (-7025030848007957) @ (-49)));
  (151%N, ((-2521239111115331) @ (-48), (-6680397687276859) @ (-49), (-6615216796058171) @ (-49), (-5265081112969597) @ (-49)));
  (152%N, ((-1347843368174879) @ (-47), (-1537178267142921) @ (-47), (-8272788582231815) @ (-49), (-175920454186751) @ (-44)));
  (153%N, (#, #, #, (-3870118839437027) @ (-48)));
  (154%N, (#, #, #, (-302852298247679) @ (-44)));
  (155%N, (#, #, #, (-3662121014844325) @ (-48)));
  (156%N, (#, #, #, (-1809666128217651) @ (-47)));
  (157%N, (#, #, (-8359567700260433) @ (-49), (-1877995278787649) @ (-47)));
  (158%N, (#, #, #, (-7857128249604397) @ (-49)));
  (159%N, ((-6094334500526615) @ (-49), (-1420345775671045) @ (-47), (-6582334460222915) @ (-49), (-6480329465492725) @ (-49)));
  (160%N, (#, #, #, (-3204934439998351) @ (-48)));
  (161%N, (#, #, #, (-3259584499641353) @ (-48)));
  (162%N, (#, #, #, (-3951094144080465) @ (-48)));
  (163%N, (#, #, #, (-4170689255897351) @ (-48)));
  (164%N, ((-6502441666025359) @ (-49), (-2833005750244973) @ (-48), (-3270022652399957) @ (-48), (-1462832852534297) @ (-47)));
  (165%N, ((-1845768529231285) @ (-47), (-7575057571972747) @ (-49), (-1658101860833211) @ (-47), (-2870132289023835) @ (-48)));
  (166%N, (#, #, #, (-3630371905756697) @ (-48)));
  (167%N, (#, #, #, (-4048158111928321) @ (-48)));
  (168%N, (#, #, #, (-886648957992025) @ (-46)));
  (169%N, (#, #, #, (-976926146266539) @ (-46)));
  (170%N, ((-396226602838595) @ (-45), (-1725734743489383) @ (-47), (-1746162137615165) @ (-47), (-1508054683035017) @ (-47)));
  (171%N, (#, #, #, (-8130444851884389) @ (-49)));
  (172%N, (#, #, #, (-5590670194063581) @ (-49)));
  (173%N, (#, #, #, (-3728098948061275) @ (-48)));
  (174%N, ((-2354557111546675) @ (-48), (-5302986501741267) @ (-49), (-5462058737466093) @ (-49), (-5104757998176833) @ (-49)));
  (175%N, (#, #, #, (-3670651212387731) @ (-48)));
  (176%N, (#, #, #, (-405138068737789) @ (-45)));
  (177%N, ((-2146956065995973) @ (-47), (-101243867878125) @ (-43), (-3069417751170331) @ (-48), (-7145732875094951) @ (-49)));
  (178%N, ((-4081744231472905) @ (-48), #, (-571248877892569) @ (-45), (-108816228894371) @ (-43)));
  (179%N, ((-6530861578236825) @ (-49), #, (-4426206392587813) @ (-48), (-8033701757752085) @ (-49)));
  (180%N, (#, #, #, (-3870118839437027) @ (-48)));
  (181%N, ((-6502441666025359) @ (-49), (-2833005750244973) @ (-48), (-3270022652399957) @ (-48), (-70881326618687) @ (-42)));
  (182%N, (#, #, #, (-8395033373076123) @ (-49)));
  (183%N, (#, #, #, (-456223959081461) @ (-45)));
  (184%N, (#, #, #, (-1930728693765227) @ (-47)));
  (185%N, (#, (-5824811849997931) @ (-49), (-5604785015458829) @ (-49), (-3879055303555717) @ (-48)));
  (186%N, (#, #, #, (-943539134077359) @ (-46)));
  (187%N, (#, #, #, (-70881326618687) @ (-42)));
  (188%N, ((-1998329865051197) @ (-47), (-1764807936785953) @ (-47), (-3855333411915459) @ (-48), (-7600718321947853) @ (-49)));
  (189%N, ((-1625178042930149) @ (-47), #, #, (-906660926466427) @ (-46)));
  (190%N, ((-7544692658282237) @ (-50), (-4572188496836525) @ (-49), (-5276200362414669) @ (-49), (-5012925810035657) @ (-49)));
  (193%N, (#, #, #, (-7358896042685395) @ (-49)));
  (197%N, ((-7579153354239763) @ (-49), #, (-8100873996841253) @ (-49), (-4170689255897351) @ (-48)));
  (199%N, (#, #, #, (-4048158111928321) @ (-48)));
  (200%N, (#, #, #, (-8910859197905059) @ (-49)));
  (202%N, ((-1407672220017317) @ (-47), (-4848909911439557) @ (-49), (-5309116619915671) @ (-49), (-1530989448434467) @ (-47)));
  (204%N, ((-1975763643203379) @ (-47), #, #, (-70881326618687) @ (-42)));
  (205%N, ((-6005282767254975) @ (-49), #, #, (-4392620273043229) @ (-48)));
  (213%N, ((-3378195993368601) @ (-48), (-1925169055947837) @ (-47), (-5739620937914623) @ (-49), (-651719439063291) @ (-46)));
  (214%N, ((-2716407456616921) @ (-48), (-2684149361275507) @ (-48), (-2596678986694983) @ (-48), (-318082808562905) @ (-45)));
  (215%N, (#, #, #, (-4170689255897351) @ (-48)));
  (217%N, ((-3855333411915459) @ (-48), (-6975678712175689) @ (-49), (-3127723381371779) @ (-48), (-7231493078902567) @ (-49)));
  (220%N, ((-6305649640395567) @ (-49), #, (-1865749067223629) @ (-47), (-6848457339860269) @ (-49)));
  (221%N, (#, #, #, (-302852298247679) @ (-44)));
  (222%N, ((-396226602838595) @ (-45), (-1725734743489383) @ (-47), (-1746162137615165) @ (-47), (-1508054683035017) @ (-47)));
  (223%N, ((-5779418684622627) @ (-49), (-6171507678560299) @ (-49), (-6294765199117437) @ (-49), (-1480816824159849) @ (-47)));
  (224%N, ((-7567545727469403) @ (-49), (-3606862978324355) @ (-48), (-7171623277416283) @ (-49), (-3281528722710867) @ (-48)));
  (227%N, (#, #, #, (-4392620273043229) @ (-48)));
  (231%N, ((-2354557111546675) @ (-48), (-5302986501741267) @ (-49), (-5462058737466093) @ (-49), (-5104757998176833) @ (-49)));
  (232%N, ((-1986594946834089) @ (-47), #, #, (-8910859197905059) @ (-49)));
  (239%N, ((-2816451158275781) @ (-48), #, (-4426206392587813) @ (-48), (-3307704841892339) @ (-48)));
  (240%N, (#, #, #, (-302852298247679) @ (-44)));
  (241%N, (#, #, #, (-302852298247679) @ (-44)));
  (242%N, (#, #, (-8359567700260433) @ (-49), (-1877995278787649) @ (-47)));
  (244%N, (#, #, (-8978031436994227) @ (-49), (-302852298247679) @ (-44)));
  (245%N, (#, #, #, (-4650533185457697) @ (-48)));
  (246%N, (#, #, #, (-1809666128217651) @ (-47)));
  (248%N, (#, #, #, (-2061833855653683) @ (-47)));
  (250%N, (#, #, #, (-271331332318175) @ (-44)));
  (251%N, ((-4017826822837913) @ (-49), (-3656676733801071) @ (-49), (-7092492426257835) @ (-50), (-4495385780399433) @ (-49)));
  (254%N, ((-2533683483289113) @ (-48), (-3460130938885339) @ (-48), (-3855333411915459) @ (-48), (-1615014347841613) @ (-47)))].

(** prob_emit.py, characters 0x7d00 to 0x7dff *)
Definition emit_7d : list (N * num4) := [
  (0%N, ((-8986874251674143) @ (-50), (-1997857734012823) @ (-48), (-7884513714323577) @ (-50), (-70881326618687) @ (-42)));
  (1%N, (#, #, #, (-4650533185457697) @ (-48)));
  (2%N, ((-7343131840464381) @ (-49), (-3383588402652739) @ (-48), (-8462205612165291) @ (-49), (-6644787651101307) @ (-49)));
  (4%N, ((-2459039108793605) @ (-48), (-2220716825675413) @ (-48), (-4139457742287421) @ (-49), (-123003629631703) @ (-44)));
  (5%N, ((-7959018455357555) @ (-50), (-7298076724554681) @ (-50), (-8719655464193789) @ (-50), (-8910859197905059) @ (-49)));
  (6%N, ((-609902861438431) @ (-45), (-8090883396801683) @ (-49), (-8978031436994227) @ (-49), (-7435345513955431) @ (-49)));
  (7%N, (#, (-8871297742822353) @ (-49), (-7092203087097125) @ (-49), (-3870118839437027) @ (-48)));
  (8%N, ((-7435075673190267) @ (-49), #, #, (-6186045015974259) @ (-49)));
  (9%N, (#, (-3095216074021885) @ (-48), (-7399879841139741) @ (-49), (-3634150150092073) @ (-48)));
  (10%N, ((-6064913875252621) @ (-49), #, (-3476462333727023) @ (-48), (-7477852487122849) @ (-49)));
  (11%N, ((-2925996548656087) @ (-48), (-5703228698997417) @ (-49), (-2686686348929489) @ (-48), (-2726448473291913) @ (-48)));
  (13%N, ((-1187720723902913) @ (-47), (-2121281371734479) @ (-48), (-4626762910726811) @ (-49), (-4650533185457697) @ (-48)));
  (16%N, ((-165793303611009) @ (-44), (-5575185276940065) @ (-49), (-1395257808463679) @ (-47), (-6348737813837223) @ (-49)));
  (17%N, (#, #, #, (-3244895515983039) @ (-48)));
  (18%N, (#, #, #, (-7523833130877875) @ (-49)));
  (19%N, ((-609902861438431) @ (-45), (-7310469050781013) @ (-49), (-985322676152685) @ (-46), (-3408440888610819) @ (-48)));
  (20%N, ((-4834124338356451) @ (-49), (-4989943565267959) @ (-49), (-5212647224971683) @ (-49), (-2657801382117137) @ (-48)));
  (21%N, ((-7237929231852865) @ (-49), (-8871297742822353) @ (-49), #, (-1672986475717779) @ (-47)));
  (22%N, (#, #, #, (-302852298247679) @ (-44)));
  (23%N, ((-6047663362612137) @ (-49), (-2684149361275507) @ (-48), (-2797858116365863) @ (-48), (-4650533185457697) @ (-48)));
  (24%N, (#, #, #, (-302852298247679) @ (-44)));
  (25%N, ((-322201873985561) @ (-45), (-5446029081639685) @ (-49), (-4817208137412807) @ (-49), (-271331332318175) @ (-44)));
  (26%N, ((-1374093750316305) @ (-47), (-1982116062117267) @ (-48), (-1640937236426295) @ (-48), (-4514649651494773) @ (-49)));
  (27%N, ((-4850642836288377) @ (-49), (-1368405937876837) @ (-47), (-1201743295916489) @ (-47), (-3224650029281801) @ (-48)));
  (28%N, (#, (-8871297742822353) @ (-49), (-6880652495669265) @ (-49), (-1652074660613093) @ (-47)));
  (29%N, (#, #, #, (-302852298247679) @ (-44)));
  (30%N, (#, #, (-609902861438431) @ (-45), (-7367903434101099) @ (-49)));
  (31%N, (#, #, #, (-6099583858955743) @ (-49)));
  (32%N, ((-4714006342932431) @ (-49), (-2269998041900207) @ (-48), (-502979754388941) @ (-46), (-2475859747380519) @ (-48)));
  (33%N, ((-1197669142017911) @ (-47), (-2500152449922915) @ (-48), (-5409471598005183) @ (-49), (-7307683484381827) @ (-49)));
  (34%N, ((-2485415253980567) @ (-48), (-290033429158201) @ (-45), (-1135942842695533) @ (-47), (-2788276391556255) @ (-48)));
  (35%N, (#, #, #, (-8910859197905059) @ (-49)));
  (36%N, (#, #, #, (-2001206550016447) @ (-47)));
  (38%N, (#, #, #, (-1853809505254573) @ (-47)));
  (39%N, ((-8531924874349215) @ (-50), (-5386459973434093) @ (-49), (-4662464014861703) @ (-49), (-4825529861969241) @ (-49)));
  (40%N, (#, #, #, (-8292395461171265) @ (-49)));
  (41%N, (#, #, #, (-7587152606408853) @ (-49)));
  (42%N, (#, #, #, (-7689790518313711) @ (-49)));
  (43%N, ((-2194741128619517) @ (-48), (-591349969240311) @ (-46), (-1492304864217625) @ (-47), (-4808423546791055) @ (-49)));
  (44%N, (#, #, #, (-1893476528496951) @ (-47)));
  (45%N, (#, #, #, (-7795654513279065) @ (-49)));
  (46%N, (#, #, #, (-3722837580357007) @ (-48)));
  (47%N, ((-5018023079500855) @ (-49), (-5337861582855293) @ (-49), (-5041443149627551) @ (-49), (-81366579809837) @ (-43)));
  (48%N, ((-4281798876686653) @ (-49), (-8536163887152865) @ (-50), (-2312917714838863) @ (-48), (-5702736929658141) @ (-49)));
  (49%N, (#, (-8871297742822353) @ (-49), (-4260759154773655) @ (-48), (-7689790518313711) @ (-49)));
  (50%N, (#, #, (-4426206392587813) @ (-48), (-70881326618687) @ (-42)));
  (51%N, ((-3276579770341245) @ (-48), (-3817185134677383) @ (-48), (-23275673171385) @ (-41), (-3446758689208401) @ (-48)));
  (52%N, (#, #, #, (-70881326618687) @ (-42)));
  (53%N, (#, #, #, (-3168489320260109) @ (-48)));
  (54%N, (#, #, #, (-6108237401817685) @ (-49)));
  (57%N, ((-5939773177293285) @ (-49), (-595472779127929) @ (-46), (-286683124989867) @ (-45), (-6268575434941977) @ (-49)));
  (58%N, ((-8197617090973557) @ (-49), (-7575057571972747) @ (-49), (-3756423699901591) @ (-48), (-7065990723112215) @ (-49)));
  (60%N, (#, #, #, (-6863080238721081) @ (-49)));
  (63%N, (#, #, #, (-3132361997462213) @ (-48)));
  (64%N, (#, #, (-903159767337213) @ (-46), (-6525233150776923) @ (-49)));
  (65%N, (#, #, #, (-4392620273043229) @ (-48)));
  (66%N, ((-8425670725649595) @ (-50), (-5649205776275345) @ (-49), (-4437646535797439) @ (-49), (-302852298247679) @ (-44)));
  (67%N, (#, #, #, (-70881326618687) @ (-42)));
  (68%N, ((-7150843810545007) @ (-50), (-8514848887070553) @ (-50), (-4502346071684749) @ (-49), (-1235223891493587) @ (-47)));
  (70%N, ((-6915629578949437) @ (-49), (-7131195537680991) @ (-49), (-7212905114184119) @ (-49), (-302852298247679) @ (-44)));
  (72%N, (#, #, #, (-271331332318175) @ (-44)));
  (75%N, (#, #, #, (-70881326618687) @ (-42)));
  (77%N, (#, #, #, (-70881326618687) @ (-42)));
  (78%N, (#, #, #, (-768679373733051) @ (-46)));
  (79%N, (#, #, #, (-4650533185457697) @ (-48)));
  (80%N, ((-7089518746158959) @ (-50), (-4309947092056453) @ (-49), (-8670371109627265) @ (-50), (-2528410870085557) @ (-48)));
  (82%N, (#, #, #, (-2001206550016447) @ (-47)));
  (85%N, ((-2141184595222641) @ (-48), (-2656510762993541) @ (-48), (-146628452949391) @ (-44), (-4650533185457697) @ (-48)));
  (89%N, (#, #, #, (-7835882333724349) @ (-49)));
  (91%N, ((-7313100723111123) @ (-49), (-3736209830033945) @ (-48), #, (-6722838688041669) @ (-49)));
  (92%N, (#, #, #, (-8292395461171265) @ (-49)));
  (93%N, (#, (-3469067403004029) @ (-48), (-8197617090973557) @ (-49), (-302852298247679) @ (-44)));
  (94%N, ((-3078178531328229) @ (-48), (-6122524627936863) @ (-49), (-1986594946834089) @ (-47), (-192935565585839) @ (-44)));
  (97%N, ((-3204265917604379) @ (-48), (-287823818881493) @ (-45), (-4524868085437499) @ (-49), (-6228792001915903) @ (-49)));
  (98%N, ((-784345347895847) @ (-46), (-3383588402652739) @ (-48), (-483818997720415) @ (-45), (-4227173035229071) @ (-48)));
  (102%N, ((-1221670033172705) @ (-47), (-5176970145947509) @ (-49), (-4389360472500123) @ (-49), (-70881326618687) @ (-42)));
  (103%N, (#, #, #, (-70881326618687) @ (-42)));
  (104%N, ((-6324271513120055) @ (-49), (-1540569696027671) @ (-47), (-1543610385251581) @ (-47), (-50343730531441) @ (-42)));
  (105%N, (#, #, #, (-4650533185457697) @ (-48)));
  (106%N, (#, #, #, (-4650533185457697) @ (-48)));
  (110%N, ((-3476462333727023) @ (-48), (-2747797659420573) @ (-48), (-404505981231041) @ (-45), (-6592047412203725) @ (-49)));
  (111%N, (#, #, #, (-4650533185457697) @ (-48)));
  (112%N, (#, #, #, (-302852298247679) @ (-44)));
  (113%N, ((-7473063554503703) @ (-50), (-2103697202289445) @ (-48), (-7399287997687969) @ (-50), (-5359203002535113) @ (-49)));
  (114%N, ((-1246844285038457) @ (-47), (-2329461178098097) @ (-48), (-2478043873804777) @ (-48), (-652690401230201) @ (-46)));
  (115%N, ((-7725679712283649) @ (-49), (-7157383978315813) @ (-49), (-3903704958981611) @ (-48), (-6218091469442037) @ (-49)));
  (117%N, (#, #, (-3984680263625049) @ (-48), #));
  (118%N, (#, #, #, (-4650533185457697) @ (-48)));
  (119%N, (#, #, #, (-4297911758076491) @ (-48)));
  (121%N, ((-3632058836243843) @ (-48), (-3460130938885339) @ (-48), (-406948109194601) @ (-45), (-6049409379414741) @ (-49)));
  (122%N, (#, #, #, (-4392620273043229) @ (-48)));
  (123%N, (#, #, #, (-302852298247679) @ (-44)));
  (126%N, (#, #, #, (-3165594950523267) @ (-48)));
  (129%N, ((-811944417774287) @ (-46), (-7575057571972747) @ (-49), (-6480362367382569) @ (-49), (-2812254557293409) @ (-48)));
  (131%N, (#, (-8090883396801683) @ (-49), (-985322676152685) @ (-46), (-4650533185457697) @ (-48)));
  (133%N, (#, #, #, (-7217418596990555) @ (-49)));
  (134%N, (#, #, #, (-7658507473194481) @ (-49)));
  (135%N, (#, #, #, (-6866796093489079) @ (-49)));
  (136%N, (#, #, #, (-7523833130877875) @ (-49)));
  (137%N, (#, #, #, (-4392620273043229) @ (-48)));
  (138%N, (#, #, #, (-7951171338784367) @ (-49)));
  (139%N, (#, #, #, (-6052033859475507) @ (-49)));
  (140%N, (#, #, #, (-302852298247679) @ (-44)));
  (141%N, (#, #, #, (-7104451038327115) @ (-49)));
  (142%N, (#, #, #, (-7350030505863719) @ (-49)));
  (143%N, ((-6356745910751309) @ (-49), (-794651871930237) @ (-46), (-222100499235933) @ (-44), (-6678445256967907) @ (-49)));
  (144%N, (#, #, #, (-302852298247679) @ (-44)));
  (145%N, (#, #, #, (-7367903434101099) @ (-49)));
  (146%N, (#, #, #, (-8910859197905059) @ (-49)));
  (147%N, ((-3163629327253789) @ (-49), (-6779552982833827) @ (-50), (-6888009700783045) @ (-50), (-2130163006223681) @ (-47)));
  (148%N, (#, #, #, (-6424971274762273) @ (-49)));
  (150%N, (#, #, #, (-8130444851884389) @ (-49)));
  (152%N, (#, #, #, (-5609928300722357) @ (-49)));
  (154%N, ((-2146956065995973) @ (-47), #, #, (-302852298247679) @ (-44)));
  (156%N, ((-8951684010733889) @ (-50), (-1447080710337249) @ (-47), (-1797236545307357) @ (-47), (-6569616159843049) @ (-49)));
  (157%N, (#, #, (-4684119305002281) @ (-48), (-7275959601375213) @ (-49)));
  (158%N, (#, #, #, (-472560260360877) @ (-45)));
  (160%N, ((-4645960895603611) @ (-49), (-4614471874354501) @ (-49), (-5403046287345071) @ (-49), (-5065875003416133) @ (-49)));
  (162%N, ((-1578565812587615) @ (-47), (-5464274427074725) @ (-49), (-5903959461506935) @ (-49), (-6421579999726895) @ (-49)));
  (163%N, (#, #, (-8131311136536975) @ (-49), (-6632359995120511) @ (-49)));
  (166%N, ((-7556172614326021) @ (-49), #, #, (-8166776809352665) @ (-49)));
  (170%N, (#, #, #, (-302852298247679) @ (-44)));
  (172%N, ((-2017999609788739) @ (-47), (-2952878618773787) @ (-48), (-222100499235933) @ (-44), (-7158105899608537) @ (-49)));
  (173%N, ((-4209168886592829) @ (-49), (-7235866677119857) @ (-50), (-4615429404117939) @ (-49), (-5508825131536423) @ (-49)));
  (174%N, (#, #, #, (-4392620273043229) @ (-48)));
  (175%N, (#, #, #, (-302852298247679) @ (-44)));
  (176%N, (#, #, (-1998329865051197) @ (-47), (-6058205651400473) @ (-49)));
  (177%N, ((-169526269380435) @ (-44), (-2716048550332945) @ (-48), (-5366422610157867) @ (-49), (-4650533185457697) @ (-48)));
  (178%N, ((-8091963601202315) @ (-50), (-4997985844235005) @ (-49), (-8968661052716069) @ (-50), (-8205616343142647) @ (-49)));
  (180%N, ((-571248877892569) @ (-45), #, (-94140010802187) @ (-43), (-6421579999726895) @ (-49)));
  (181%N, (#, #, #, (-4297911758076491) @ (-48)));
  (183%N, (#, #, #, (-302852298247679) @ (-44)));
  (184%N, ((-8233949048441833) @ (-49), (-7015906532620973) @ (-49), (-3165948117006797) @ (-48), (-3688528646784237) @ (-48)));
  (185%N, (#, #, #, (-3383949363299101) @ (-48)));
  (186%N, ((-1667112136435627) @ (-47), (-6463748750323761) @ (-49), (-1870602565026865) @ (-47), (-2823556929748297) @ (-48)));
  (187%N, ((-1697502731782709) @ (-47), (-3606862978324355) @ (-48), (-6294765199117437) @ (-49), (-6268575434941977) @ (-49)));
  (188%N, (#, #, #, (-302852298247679) @ (-44)));
  (189%N, ((-1585882629060587) @ (-47), (-5840096498027951) @ (-49), (-1697502731782709) @ (-47), (-421091349181405) @ (-45)));
  (190%N, ((-7194840999001983) @ (-49), (-2952878618773787) @ (-48), (-6992866943914805) @ (-49), (-3222879740574019) @ (-48)));
  (191%N, ((-5645990417425469) @ (-49), (-5425876595899339) @ (-49), (-5792516775469355) @ (-49), (-6377691553587867) @ (-49)));
  (196%N, ((-4684119305002281) @ (-48), #, (-571248877892569) @ (-45), (-1713930327752905) @ (-47)));
  (197%N, (#, #, #, (-302852298247679) @ (-44)));
  (199%N, (#, #, #, (-302852298247679) @ (-44)));
  (202%N, ((-8531924874349215) @ (-50), (-5386459973434093) @ (-49), (-4662464014861703) @ (-49), (-4825529861969241) @ (-49)));
  (203%N, ((-6933968332578247) @ (-49), #, (-609902861438431) @ (-45), (-6531363337886707) @ (-49)));
  (208%N, (#, #, #, (-70881326618687) @ (-42)));
  (210%N, ((-3695707134388909) @ (-48), (-4898539102683049) @ (-49), (-2347798131871583) @ (-48), (-3396745883983567) @ (-48)));
  (215%N, (#, (-8871297742822353) @ (-49), (-546860929579423) @ (-45), (-7358896042685395) @ (-49)));
  (216%N, ((-212644807062239) @ (-44), (-3638170211376633) @ (-48), (-4426206392587813) @ (-48), (-7358896042685395) @ (-49)));
  (217%N, ((-483818997720415) @ (-45), #, #, (-6642280074779601) @ (-49)));
  (218%N, ((-620391200495107) @ (-46), (-8732362873839209) @ (-50), (-7420176474206207) @ (-50), (-4654326151266135) @ (-49)));
  (219%N, (#, #, #, (-8130444851884389) @ (-49)));
  (220%N, (#, #, #, (-70881326618687) @ (-42)));
  (221%N, ((-6426404763446139) @ (-49), (-5938617755731305) @ (-49), (-1630008820983823) @ (-47), (-3307704841892339) @ (-48)));
  (222%N, ((-6867248292096205) @ (-49), #, (-1585882629060587) @ (-47), (-7835882333724349) @ (-49)));
  (223%N, (#, #, #, (-7307683484381827) @ (-49)));
  (224%N, ((-5543226410783065) @ (-49), (-761679484000969) @ (-46), (-811944417774287) @ (-46), (-3879055303555717) @ (-48)));
  (225%N, (#, #, (-4684119305002281) @ (-48), (-7151885394841985) @ (-49)));
  (226%N, (#, #, #, (-6527269138361157) @ (-49)));
  (227%N, ((-5515249895002123) @ (-49), (-335940044921433) @ (-45), (-4900698683717507) @ (-49), (-2700461041003599) @ (-48)));
  (228%N, (#, #, #, (-2130163006223681) @ (-47)));
  (229%N, (#, #, #, (-1853809505254573) @ (-47)));
  (230%N, (#, #, (-609902861438431) @ (-45), (-70881326618687) @ (-42)));
  (231%N, (#, #, #, (-302852298247679) @ (-44)));
  (232%N, ((-1927006052238543) @ (-48), (-1240802737176347) @ (-47), (-2499982092651193) @ (-48), (-7358896042685395) @ (-49)));
  (233%N, ((-4763363937879059) @ (-49), (-5641894635158453) @ (-49), (-5114053637482743) @ (-49), (-5464202155966617) @ (-49)));
  (234%N, (#, #, #, (-70881326618687) @ (-42)));
  (235%N, (#, #, #, (-271331332318175) @ (-44)));
  (236%N, ((-5761021531623209) @ (-49), (-4240545284906009) @ (-48), (-4426206392587813) @ (-48), (-6175028031233341) @ (-49)));
  (237%N, (#, #, #, (-4227173035229071) @ (-48)));
  (239%N, ((-3103138791097497) @ (-48), (-615796162950375) @ (-46), (-339453916283785) @ (-45), (-6109207169419125) @ (-49)));
  (240%N, (#, #, #, (-3333936558074267) @ (-48)));
  (241%N, ((-1870602565026865) @ (-47), #, #, (-1994339944854797) @ (-47)));
  (242%N, (#, (-8871297742822353) @ (-49), (-3367522677618851) @ (-48), (-3517497412055821) @ (-48)));
  (243%N, (#, #, #, (-7706109050846307) @ (-49)));
  (244%N, ((-1310766224304627) @ (-47), (-4536671818226777) @ (-49), (-8722045992615699) @ (-50), (-2497537257748667) @ (-48)));
  (245%N, (#, #, #, (-1994339944854797) @ (-47)));
  (246%N, (#, #, #, (-4297911758076491) @ (-48)));
  (247%N, (#, #, #, (-1893476528496951) @ (-47)));
  (248%N, (#, #, #, (-8033701757752085) @ (-49)));
  (249%N, (#, (-8871297742822353) @ (-49), (-571248877892569) @ (-45), (-8064138897447807) @ (-49)));
  (250%N, (#, #, #, (-302852298247679) @ (-44)))].

(** prob_emit.py, characters 0x7e00 to 0x7eff *)
Definition emit_7e : list (N * num4) := [
  (1%N, (#, #, #, (-302852298247679) @ (-44)));
  (5%N, (#, #, #, (-302852298247679) @ (-44)));
  (8%N, ((-7058655718752843) @ (-49), (-841042158939437) @ (-46), (-7924300488693565) @ (-49), (-7425201997121977) @ (-49)));
  (9%N, ((-6844532532160723) @ (-49), (-7106171420012245) @ (-49), (-1631807407613905) @ (-47), (-826332377884195) @ (-46)));
  (10%N, ((-8233949048441833) @ (-49), #, (-866281559726281) @ (-46), (-1749038822580415) @ (-47)));
  (11%N, (#, #, #, (-3370216152975801) @ (-48)));
  (12%N, (#, #, #, (-70881326618687) @ (-42)));
  (13%N, (#, #, #, (-7951171338784367) @ (-49)));
  (14%N, (#, #, #, (-1893476528496951) @ (-47)));
  (16%N, ((-4260759154773655) @ (-48), (-6669024574133477) @ (-49), (-7492374236211145) @ (-49), (-744816330103361) @ (-46)));
  (17%N, (#, #, #, (-7283724551427137) @ (-49)));
  (22%N, (#, #, #, (-4297911758076491) @ (-48)));
  (27%N, ((-454428729292475) @ (-45), (-6823518783638375) @ (-49), (-5941689061003259) @ (-49), (-302852298247679) @ (-44)));
  (29%N, ((-3504836334064703) @ (-48), #, #, (-302852298247679) @ (-44)));
  (30%N, ((-7725679712283649) @ (-49), #, (-4260759154773655) @ (-48), (-6973174550407917) @ (-49)));
  (31%N, (#, (-6975678712175689) @ (-49), (-985322676152685) @ (-46), (-7600718321947853) @ (-49)));
  (32%N, (#, #, #, (-271331332318175) @ (-44)));
  (33%N, (#, #, #, (-302852298247679) @ (-44)));
  (34%N, (#, #, #, (-4392620273043229) @ (-48)));
  (35%N, ((-2127844848219923) @ (-48), (-5263616758396271) @ (-49), (-3839582257847525) @ (-49), (-7966565076597949) @ (-50)));
  (37%N, (#, #, #, (-302852298247679) @ (-44)));
  (38%N, (#, #, #, (-2130163006223681) @ (-47)));
  (39%N, (#, #, #, (-7835882333724349) @ (-49)));
  (43%N, ((-2927089656735573) @ (-48), (-6376969632295143) @ (-49), (-5589522344355025) @ (-49), (-5584904183053611) @ (-49)));
  (46%N, ((-5100827665591465) @ (-49), (-5383009809702665) @ (-49), (-5051222491438527) @ (-49), (-5405630669953589) @ (-49)));
  (47%N, (#, #, #, (-3888284818171165) @ (-48)));
  (49%N, ((-4803150800379631) @ (-49), (-5687257416369995) @ (-49), (-1353177991332211) @ (-47), (-4991997913107967) @ (-49)));
  (50%N, ((-4426206392587813) @ (-48), #, #, (-7245928484021955) @ (-49)));
  (52%N, (#, #, #, (-70881326618687) @ (-42)));
  (53%N, (#, #, #, (-7358896042685395) @ (-49)));
  (54%N, (#, #, #, (-4297911758076491) @ (-48)));
  (55%N, ((-7219057633931153) @ (-49), (-3181861569937047) @ (-48), (-3070327202613245) @ (-48), (-6617800133038605) @ (-49)));
  (57%N, ((-6857400519925933) @ (-49), (-105327943197979) @ (-43), #, (-943539134077359) @ (-46)));
  (58%N, (#, #, #, (-472560260360877) @ (-45)));
  (59%N, (#, #, (-3071239602040059) @ (-48), (-1848956007451337) @ (-47)));
  (60%N, (#, #, #, (-4048158111928321) @ (-48)));
  (61%N, ((-6819177241417693) @ (-50), (-2066991775269309) @ (-48), (-5497827026711503) @ (-49), (-8046574526034729) @ (-50)));
  (62%N, ((-6530861578236825) @ (-49), (-3165954796869305) @ (-48), (-2278613845341367) @ (-48), (-6243383314301553) @ (-49)));
  (63%N, (#, #, #, (-271331332318175) @ (-44)));
  (64%N, (#, #, #, (-744816330103361) @ (-46)));
  (65%N, ((-8978409164751979) @ (-50), (-5556154170475067) @ (-49), (-2702261277775725) @ (-48), (-5703208609579679) @ (-49)));
  (66%N, (#, #, #, (-4227173035229071) @ (-48)));
  (67%N, ((-3301329885452235) @ (-48), (-7385640542039271) @ (-49), (-4081744231472905) @ (-48), (-1523236025667119) @ (-47)));
  (68%N, (#, (-8871297742822353) @ (-49), #, (-4392620273043229) @ (-48)));
  (69%N, ((-6949081990735609) @ (-49), #, #, (-3634150150092073) @ (-48)));
  (70%N, ((-6364826670840329) @ (-49), (-6615369712852055) @ (-49), (-6926560989478223) @ (-49), (-1777541578842475) @ (-47)));
  (71%N, (#, (-3638170211376633) @ (-48), (-7343131840464381) @ (-49), (-7350030505863719) @ (-49)));
  (72%N, (#, #, #, (-4227173035229071) @ (-48)));
  (73%N, (#, #, #, (-4297911758076491) @ (-48)));
  (74%N, (#, #, #, (-7857128249604397) @ (-49)));
  (75%N, (#, #, #, (-8064138897447807) @ (-49)));
  (76%N, (#, #, #, (-8205616343142647) @ (-49)));
  (77%N, (#, #, #, (-3598472716699259) @ (-48)));
  (78%N, (#, #, #, (-7386362463331995) @ (-49)));
  (79%N, (#, #, #, (-302852298247679) @ (-44)));
  (80%N, (#, #, #, (-70881326618687) @ (-42)));
  (81%N, (#, #, #, (-2130163006223681) @ (-47)));
  (82%N, (#, #, (-609902861438431) @ (-45), (-3670651212387731) @ (-48)));
  (83%N, (#, #, #, (-271331332318175) @ (-44)));
  (84%N, ((-1385570399862663) @ (-47), (-8436880049856551) @ (-50), (-3829703031131711) @ (-49), (-6569616159843049) @ (-49)));
  (85%N, ((-7725679712283649) @ (-49), #, (-5759168196769279) @ (-49), (-6578481696664725) @ (-49)));
  (86%N, (#, #, #, (-1386796897266535) @ (-47)));
  (88%N, (#, #, #, (-1635956920916995) @ (-47)));
  (89%N, (#, #, #, (-442294618973983) @ (-45)));
  (90%N, ((-211052467801955) @ (-44), (-5990123364511777) @ (-49), (-7502517753044599) @ (-49), (-880642292618137) @ (-46)));
  (91%N, (#, #, #, (-3365783384564963) @ (-48)));
  (92%N, (#, #, #, (-8910859197905059) @ (-49)));
  (93%N, (#, #, #, (-7926147221115621) @ (-49)));
  (94%N, ((-2787497988513035) @ (-48), (-1508936377477061) @ (-47), (-5131073309425685) @ (-49), (-2588594355937639) @ (-48)));
  (97%N, ((-6196134065361539) @ (-49), (-1467992525441935) @ (-47), (-2998376529662189) @ (-48), (-4937979349895027) @ (-49)));
  (98%N, (#, #, #, (-1893476528496951) @ (-47)));
  (105%N, ((-2821862511100839) @ (-48), (-1508025452042197) @ (-47), (-2842780027145369) @ (-48), (-2885939455004617) @ (-48)));
  (106%N, ((-2661719301642245) @ (-48), (-5087471457637451) @ (-49), (-650796842150003) @ (-46), (-5432693935866905) @ (-49)));
  (108%N, (#, #, #, (-6316973237614355) @ (-49)));
  (109%N, ((-7298665317991735) @ (-49), (-6487707683278451) @ (-49), (-3375489482355113) @ (-48), (-3224650029281801) @ (-48)));
  (111%N, (#, #, (-4684119305002281) @ (-48), (-7706109050846307) @ (-49)));
  (112%N, (#, #, #, (-4650533185457697) @ (-48)));
  (114%N, (#, #, #, (-4170689255897351) @ (-48)));
  (115%N, ((-5839584498217805) @ (-49), (-3817185134677383) @ (-48), (-3150393055813769) @ (-48), (-302852298247679) @ (-44)));
  (120%N, (#, #, #, (-4650533185457697) @ (-48)));
  (121%N, (#, (-5751843688180203) @ (-49), (-798193886911877) @ (-46), (-472560260360877) @ (-45)));
  (123%N, (#, (-8871297742822353) @ (-49), #, #));
  (124%N, ((-2086783420479717) @ (-48), (-8490582201529299) @ (-50), (-5209328037973693) @ (-49), (-8910859197905059) @ (-49)));
  (125%N, ((-7206819109466809) @ (-49), (-377463309330355) @ (-45), #, (-7523833130877875) @ (-49)));
  (126%N, ((-8131311136536975) @ (-49), #, #, (-1672986475717779) @ (-47)));
  (130%N, ((-7320459650820583) @ (-49), (-3518576224250511) @ (-48), (-6245482786639873) @ (-49), (-3344609873824017) @ (-48)));
  (135%N, (#, #, #, (-1994339944854797) @ (-47)));
  (136%N, ((-8359567700260433) @ (-49), (-7575057571972747) @ (-49), (-7725679712283649) @ (-49), (-1777541578842475) @ (-47)));
  (138%N, (#, #, #, (-4227173035229071) @ (-48)));
  (140%N, ((-1479625912306589) @ (-47), (-592804672086763) @ (-46), (-7831133346735021) @ (-50), (-2876503656043761) @ (-48)));
  (141%N, (#, #, #, (-302852298247679) @ (-44)));
  (142%N, (#, #, #, (-7643494584741751) @ (-49)));
  (143%N, ((-5852538855913737) @ (-49), (-3318111047509587) @ (-48), (-5893880046161803) @ (-49), (-347490425676057) @ (-45)));
  (147%N, ((-2017999609788739) @ (-47), (-1688482578221107) @ (-47), (-6656935875530257) @ (-49), (-6859388750389055) @ (-49)));
  (148%N, (#, #, #, (-8395033373076123) @ (-49)));
  (150%N, ((-2549052490048553) @ (-48), (-1287073351282085) @ (-47), (-5917890079734095) @ (-49), (-302852298247679) @ (-44)));
  (151%N, (#, #, #, (-302852298247679) @ (-44)));
  (152%N, (#, (-8090883396801683) @ (-49), (-546860929579423) @ (-45), (-6934034856678315) @ (-49)));
  (155%N, (#, #, #, (-442294618973983) @ (-45)));
  (156%N, ((-852837242646723) @ (-46), (-3606862978324355) @ (-48), (-5983506566903329) @ (-49), (-108816228894371) @ (-43)));
  (159%N, (#, #, #, (-4392620273043229) @ (-48)));
  (160%N, ((-2533683483289113) @ (-48), (-3460130938885339) @ (-48), (-3855333411915459) @ (-48), (-1615014347841613) @ (-47)));
  (161%N, ((-609902861438431) @ (-45), (-8090883396801683) @ (-49), (-8978031436994227) @ (-49), (-7435345513955431) @ (-49)));
  (162%N, ((-7959018455357555) @ (-50), (-7298076724554681) @ (-50), (-8719655464193789) @ (-50), (-8562435353383297) @ (-50)));
  (163%N, ((-7343131840464381) @ (-49), (-3383588402652739) @ (-48), (-8462205612165291) @ (-49), (-6644787651101307) @ (-49)));
  (164%N, ((-2549052490048553) @ (-48), (-1287073351282085) @ (-47), (-5917890079734095) @ (-49), (-3157086242900219) @ (-48)));
  (165%N, (#, (-8871297742822353) @ (-49), (-7092203087097125) @ (-49), (-3870118839437027) @ (-48)));
  (166%N, ((-2459039108793605) @ (-48), (-2220716825675413) @ (-48), (-4139457742287421) @ (-49), (-123003629631703) @ (-44)));
  (167%N, ((-1374093750316305) @ (-47), (-1982116062117267) @ (-48), (-1640937236426295) @ (-48), (-4514649651494773) @ (-49)));
  (168%N, ((-7435075673190267) @ (-49), #, #, (-6186045015974259) @ (-49)));
  (169%N, (#, #, #, (-4227173035229071) @ (-48)));
  (170%N, ((-8986874251674143) @ (-50), (-1997857734012823) @ (-48), (-7884513714323577) @ (-50), (-5923965312790103) @ (-49)));
  (171%N, (#, (-3095216074021885) @ (-48), (-7399879841139741) @ (-49), (-3634150150092073) @ (-48)));
  (172%N, ((-3103138791097497) @ (-48), (-615796162950375) @ (-46), (-339453916283785) @ (-45), (-6109207169419125) @ (-49)));
  (173%N, (#, (-8871297742822353) @ (-49), (-6880652495669265) @ (-49), (-1652074660613093) @ (-47)));
  (174%N, (#, (-7310469050781013) @ (-49), (-609902861438431) @ (-45), (-1994339944854797) @ (-47)));
  (175%N, ((-4834124338356451) @ (-49), (-4989943565267959) @ (-49), (-5212647224971683) @ (-49), (-2657801382117137) @ (-48)));
  (176%N, ((-7237929231852865) @ (-49), (-8871297742822353) @ (-49), #, (-1672986475717779) @ (-47)));
  (177%N, ((-6047663362612137) @ (-49), (-2684149361275507) @ (-48), (-2797858116365863) @ (-48), (-2968339952448353) @ (-48)));
  (178%N, ((-169526269380435) @ (-44), (-2716048550332945) @ (-48), (-5366422610157867) @ (-49), (-2684119655687455) @ (-48)));
  (179%N, ((-1187720723902913) @ (-47), (-2121281371734479) @ (-48), (-4626762910726811) @ (-49), (-338839118323295) @ (-45)));
  (180%N, (#, #, #, (-302852298247679) @ (-44)));
  (181%N, ((-4803150800379631) @ (-49), (-5687257416369995) @ (-49), (-1353177991332211) @ (-47), (-4991997913107967) @ (-49)));
  (182%N, ((-8233949048441833) @ (-49), (-7015906532620973) @ (-49), (-3165948117006797) @ (-48), (-3688528646784237) @ (-48)));
  (183%N, ((-4850642836288377) @ (-49), (-1368405937876837) @ (-47), (-1201743295916489) @ (-47), (-3224650029281801) @ (-48)));
  (184%N, ((-322201873985561) @ (-45), (-5446029081639685) @ (-49), (-4817208137412807) @ (-49), (-5061934034497149) @ (-49)));
  (185%N, ((-2925996548656087) @ (-48), (-5703228698997417) @ (-49), (-2686686348929489) @ (-48), (-2726448473291913) @ (-48)));
  (186%N, ((-1197669142017911) @ (-47), (-2500152449922915) @ (-48), (-5409471598005183) @ (-49), (-1542941136025743) @ (-47)));
  (187%N, (#, #, #, (-3870118839437027) @ (-48)));
  (189%N, ((-165793303611009) @ (-44), (-5575185276940065) @ (-49), (-1395257808463679) @ (-47), (-6348737813837223) @ (-49)));
  (190%N, ((-609902861438431) @ (-45), (-7310469050781013) @ (-49), (-985322676152685) @ (-46), (-3408440888610819) @ (-48)));
  (191%N, ((-620391200495107) @ (-46), (-8732362873839209) @ (-50), (-7420176474206207) @ (-50), (-4654326151266135) @ (-49)));
  (192%N, ((-8197617090973557) @ (-49), (-7575057571972747) @ (-49), (-3756423699901591) @ (-48), (-7065990723112215) @ (-49)));
  (193%N, (#, #, (-4426206392587813) @ (-48), (-6743418784857205) @ (-49)));
  (194%N, (#, (-8871297742822353) @ (-49), (-4260759154773655) @ (-48), (-7015240167258395) @ (-49)));
  (195%N, ((-1310766224304627) @ (-47), (-4536671818226777) @ (-49), (-8722045992615699) @ (-50), (-2497537257748667) @ (-48)));
  (196%N, ((-7150843810545007) @ (-50), (-8514848887070553) @ (-50), (-4502346071684749) @ (-49), (-1235223891493587) @ (-47)));
  (197%N, ((-3276579770341245) @ (-48), (-3817185134677383) @ (-48), (-23275673171385) @ (-41), (-3446758689208401) @ (-48)));
  (198%N, ((-4281798876686653) @ (-49), (-8536163887152865) @ (-50), (-2312917714838863) @ (-48), (-4970021239559513) @ (-49)));
  (199%N, ((-1385570399862663) @ (-47), (-8436880049856551) @ (-50), (-3829703031131711) @ (-49), (-716532255468803) @ (-46)));
  (200%N, ((-8425670725649595) @ (-50), (-5649205776275345) @ (-49), (-4437646535797439) @ (-49), (-5319885582508095) @ (-49)));
  (201%N, ((-4260759154773655) @ (-48), (-6669024574133477) @ (-49), (-7492374236211145) @ (-49), (-744816330103361) @ (-46)));
  (202%N, ((-6915629578949437) @ (-49), (-7131195537680991) @ (-49), (-7212905114184119) @ (-49), (-3188064985789221) @ (-48)));
  (203%N, (#, #, #, (-6863080238721081) @ (-49)));
  (204%N, (#, #, (-903159767337213) @ (-46), (-6525233150776923) @ (-49)));
  (205%N, ((-5939773177293285) @ (-49), (-595472779127929) @ (-46), (-286683124989867) @ (-45), (-6268575434941977) @ (-49)));
  (206%N, (#, (-5751843688180203) @ (-49), (-798193886911877) @ (-46), (-472560260360877) @ (-45)));
  (207%N, ((-3163629327253789) @ (-49), (-6779552982833827) @ (-50), (-6888009700783045) @ (-50), (-4087514491364485) @ (-49)));
  (208%N, (#, #, #, (-3132361997462213) @ (-48)));
  (209%N, ((-811944417774287) @ (-46), (-7575057571972747) @ (-49), (-6480362367382569) @ (-49), (-2812254557293409) @ (-48)));
  (210%N, ((-6324271513120055) @ (-49), (-1540569696027671) @ (-47), (-1543610385251581) @ (-47), (-50343730531441) @ (-42)));
  (211%N, ((-7089518746158959) @ (-50), (-4309947092056453) @ (-49), (-8670371109627265) @ (-50), (-2528410870085557) @ (-48)));
  (212%N, (#, (-3469067403004029) @ (-48), (-8197617090973557) @ (-49), (-6421579999726895) @ (-49)));
  (213%N, ((-2787497988513035) @ (-48), (-1508936377477061) @ (-47), (-5131073309425685) @ (-49), (-2588594355937639) @ (-48)));
  (215%N, (#, #, #, (-768679373733051) @ (-46)));
  (216%N, ((-2661719301642245) @ (-48), (-5087471457637451) @ (-49), (-650796842150003) @ (-46), (-5432693935866905) @ (-49)));
  (217%N, ((-1221670033172705) @ (-47), (-5176970145947509) @ (-49), (-4389360472500123) @ (-49), (-6830120713746131) @ (-50)));
  (218%N, ((-784345347895847) @ (-46), (-3383588402652739) @ (-48), (-483818997720415) @ (-45), (-4227173035229071) @ (-48)));
  (219%N, ((-7725679712283649) @ (-49), (-7157383978315813) @ (-49), (-3903704958981611) @ (-48), (-6218091469442037) @ (-49)));
  (220%N, ((-3204265917604379) @ (-48), (-287823818881493) @ (-45), (-4524868085437499) @ (-49), (-6228792001915903) @ (-49)));
  (221%N, ((-2141184595222641) @ (-48), (-2656510762993541) @ (-48), (-146628452949391) @ (-44), (-4920087485285025) @ (-49)));
  (222%N, ((-3078178531328229) @ (-48), (-6122524627936863) @ (-49), (-1986594946834089) @ (-47), (-192935565585839) @ (-44)));
  (223%N, ((-7473063554503703) @ (-50), (-2103697202289445) @ (-48), (-7399287997687969) @ (-50), (-5359203002535113) @ (-49)));
  (224%N, (#, #, #, (-6451078732881897) @ (-49)));
  (225%N, (#, (-8090883396801683) @ (-49), (-985322676152685) @ (-46), (-7350030505863719) @ (-49)));
  (226%N, ((-3632058836243843) @ (-48), (-3460130938885339) @ (-48), (-406948109194601) @ (-45), (-6049409379414741) @ (-49)));
  (227%N, ((-6196134065361539) @ (-49), (-1467992525441935) @ (-47), (-2998376529662189) @ (-48), (-4937979349895027) @ (-49)));
  (228%N, (#, #, #, (-4650533185457697) @ (-48)));
  (229%N, ((-6356745910751309) @ (-49), (-794651871930237) @ (-46), (-222100499235933) @ (-44), (-6678445256967907) @ (-49)));
  (230%N, ((-7313100723111123) @ (-49), (-3736209830033945) @ (-48), #, (-6722838688041669) @ (-49)));
  (231%N, ((-2086783420479717) @ (-48), (-8490582201529299) @ (-50), (-5209328037973693) @ (-49), (-5323479656985059) @ (-49)));
  (232%N, (#, #, #, (-1877995278787649) @ (-47)));
  (233%N, ((-6530861578236825) @ (-49), (-3165954796869305) @ (-48), (-2278613845341367) @ (-48), (-6909376172293041) @ (-49)));
  (234%N, ((-3695707134388909) @ (-48), (-4898539102683049) @ (-49), (-2347798131871583) @ (-48), (-3396745883983567) @ (-48)));
  (235%N, ((-7194840999001983) @ (-49), (-2952878618773787) @ (-48), (-6992866943914805) @ (-49), (-3222879740574019) @ (-48)));
  (237%N, ((-1479625912306589) @ (-47), (-592804672086763) @ (-46), (-7831133346735021) @ (-50), (-2876503656043761) @ (-48)));
  (238%N, ((-1667112136435627) @ (-47), (-6463748750323761) @ (-49), (-1870602565026865) @ (-47), (-2823556929748297) @ (-48)));
  (239%N, ((-6933968332578247) @ (-49), #, (-609902861438431) @ (-45), (-6531363337886707) @ (-49)));
  (240%N, ((-1585882629060587) @ (-47), (-5840096498027951) @ (-49), (-1697502731782709) @ (-47), (-421091349181405) @ (-45)));
  (241%N, (#, #, #, (-6529312516116161) @ (-49)));
  (242%N, ((-4684119305002281) @ (-48), #, (-571248877892569) @ (-45), (-1713930327752905) @ (-47)));
  (243%N, ((-2821862511100839) @ (-48), (-1508025452042197) @ (-47), (-2842780027145369) @ (-48), (-2885939455004617) @ (-48)));
  (244%N, ((-4209168886592829) @ (-49), (-7235866677119857) @ (-50), (-4615429404117939) @ (-49), (-5508825131536423) @ (-49)));
  (245%N, ((-5645990417425469) @ (-49), (-5425876595899339) @ (-49), (-5792516775469355) @ (-49), (-6377691553587867) @ (-49)));
  (246%N, ((-2017999609788739) @ (-47), (-2952878618773787) @ (-48), (-222100499235933) @ (-44), (-7158105899608537) @ (-49)));
  (247%N, ((-3301329885452235) @ (-48), (-7385640542039271) @ (-49), (-4081744231472905) @ (-48), (-3129814695220009) @ (-48)));
  (248%N, ((-1578565812587615) @ (-47), (-5464274427074725) @ (-49), (-5903959461506935) @ (-49), (-6421579999726895) @ (-49)));
  (249%N, (#, #, #, (-2130163006223681) @ (-47)));
  (250%N, (#, #, #, (-3383949363299101) @ (-48)));
  (251%N, (#, #, (-8131311136536975) @ (-49), (-6632359995120511) @ (-49)));
  (252%N, ((-8951684010733889) @ (-50), (-1447080710337249) @ (-47), (-1797236545307357) @ (-47), (-6569616159843049) @ (-49)));
  (253%N, ((-1697502731782709) @ (-47), (-3606862978324355) @ (-48), (-6294765199117437) @ (-49), (-6268575434941977) @ (-49)));
  (254%N, (#, #, (-1998329865051197) @ (-47), (-6058205651400473) @ (-49)));
  (255%N, ((-4645960895603611) @ (-49), (-4614471874354501) @ (-49), (-5403046287345071) @ (-49), (-5065875003416133) @ (-49)))].

(** prob_emit.py, characters 0x7f00 to 0x7fff *)
Definition emit_7f : list (N * num4) := [
  (0%N, ((-571248877892569) @ (-45), #, (-94140010802187) @ (-43), (-6421579999726895) @ (-49)));
  (1%N, (#, #, #, (-5518258385592267) @ (-49)));
  (2%N, ((-483818997720415) @ (-45), #, #, (-6642280074779601) @ (-49)));
  (3%N, (#, (-8871297742822353) @ (-49), (-546860929579423) @ (-45), (-6681119608569583) @ (-49)));
  (4%N, ((-212644807062239) @ (-44), (-3638170211376633) @ (-48), (-4426206392587813) @ (-48), (-7358896042685395) @ (-49)));
  (5%N, ((-5761021531623209) @ (-49), (-4240545284906009) @ (-48), (-4426206392587813) @ (-48), (-6175028031233341) @ (-49)));
  (6%N, ((-852837242646723) @ (-46), (-3606862978324355) @ (-48), (-5983506566903329) @ (-49), (-108816228894371) @ (-43)));
  (7%N, (#, (-8871297742822353) @ (-49), (-571248877892569) @ (-45), (-3299477430128381) @ (-48)));
  (8%N, (#, (-8871297742822353) @ (-49), (-3367522677618851) @ (-48), (-3517497412055821) @ (-48)));
  (9%N, ((-6426404763446139) @ (-49), (-5938617755731305) @ (-49), (-1630008820983823) @ (-47), (-3307704841892339) @ (-48)));
  (10%N, (#, #, #, (-4650533185457697) @ (-48)));
  (11%N, (#, #, #, (-1893476528496951) @ (-47)));
  (12%N, (#, #, (-609902861438431) @ (-45), (-6913411673111127) @ (-49)));
  (13%N, (#, #, #, (-472560260360877) @ (-45)));
  (14%N, ((-6867248292096205) @ (-49), #, (-1585882629060587) @ (-47), (-6238477401306399) @ (-49)));
  (15%N, (#, #, #, (-7358896042685395) @ (-49)));
  (16%N, (#, #, #, (-302852298247679) @ (-44)));
  (17%N, ((-1870602565026865) @ (-47), #, #, (-1994339944854797) @ (-47)));
  (18%N, (#, #, #, (-3370216152975801) @ (-48)));
  (19%N, ((-4763363937879059) @ (-49), (-5641894635158453) @ (-49), (-5114053637482743) @ (-49), (-5464202155966617) @ (-49)));
  (20%N, ((-5543226410783065) @ (-49), (-761679484000969) @ (-46), (-811944417774287) @ (-46), (-3879055303555717) @ (-48)));
  (21%N, ((-7219057633931153) @ (-49), (-3181861569937047) @ (-48), (-3070327202613245) @ (-48), (-6617800133038605) @ (-49)));
  (22%N, ((-1927006052238543) @ (-48), (-1240802737176347) @ (-47), (-2499982092651193) @ (-48), (-639743770613591) @ (-46)));
  (23%N, (#, #, (-4684119305002281) @ (-48), (-7151885394841985) @ (-49)));
  (24%N, ((-5515249895002123) @ (-49), (-335940044921433) @ (-45), (-4900698683717507) @ (-49), (-2700461041003599) @ (-48)));
  (25%N, ((-6844532532160723) @ (-49), (-7106171420012245) @ (-49), (-1631807407613905) @ (-47), (-826332377884195) @ (-46)));
  (26%N, ((-454428729292475) @ (-45), (-6823518783638375) @ (-49), (-5941689061003259) @ (-49), (-5739760819666473) @ (-49)));
  (27%N, (#, (-6975678712175689) @ (-49), (-985322676152685) @ (-46), (-7600718321947853) @ (-49)));
  (28%N, ((-3504836334064703) @ (-48), #, #, (-3767970024052643) @ (-48)));
  (29%N, ((-2927089656735573) @ (-48), (-6376969632295143) @ (-49), (-5589522344355025) @ (-49), (-5584904183053611) @ (-49)));
  (31%N, ((-7725679712283649) @ (-49), #, (-4260759154773655) @ (-48), (-6973174550407917) @ (-49)));
  (32%N, ((-5852538855913737) @ (-49), (-3318111047509587) @ (-48), (-5893880046161803) @ (-49), (-347490425676057) @ (-45)));
  (33%N, (#, #, (-609902861438431) @ (-45), (-3460785255448521) @ (-48)));
  (34%N, ((-8233949048441833) @ (-49), #, (-866281559726281) @ (-46), (-1749038822580415) @ (-47)));
  (35%N, (#, #, #, (-7283724551427137) @ (-49)));
  (36%N, ((-7206819109466809) @ (-49), (-377463309330355) @ (-45), #, (-7523833130877875) @ (-49)));
  (37%N, ((-6857400519925933) @ (-49), (-105327943197979) @ (-43), #, (-943539134077359) @ (-46)));
  (38%N, (#, #, #, (-7358896042685395) @ (-49)));
  (39%N, ((-4426206392587813) @ (-48), #, #, (-7245928484021955) @ (-49)));
  (40%N, ((-2017999609788739) @ (-47), (-1688482578221107) @ (-47), (-6656935875530257) @ (-49), (-6859388750389055) @ (-49)));
  (41%N, ((-5100827665591465) @ (-49), (-5383009809702665) @ (-49), (-5051222491438527) @ (-49), (-5405630669953589) @ (-49)));
  (42%N, ((-6364826670840329) @ (-49), (-6615369712852055) @ (-49), (-6926560989478223) @ (-49), (-1777541578842475) @ (-47)));
  (43%N, ((-6949081990735609) @ (-49), #, #, (-3634150150092073) @ (-48)));
  (44%N, ((-8359567700260433) @ (-49), (-7575057571972747) @ (-49), (-7725679712283649) @ (-49), (-1777541578842475) @ (-47)));
  (45%N, ((-211052467801955) @ (-44), (-5990123364511777) @ (-49), (-7502517753044599) @ (-49), (-1797570806504343) @ (-47)));
  (46%N, ((-7725679712283649) @ (-49), #, (-5759168196769279) @ (-49), (-6578481696664725) @ (-49)));
  (47%N, (#, #, (-609902861438431) @ (-45), (-3670651212387731) @ (-48)));
  (48%N, ((-3262711202969551) @ (-48), (-7244163096344431) @ (-49), (-7862826752368233) @ (-49), (-6461870436261829) @ (-49)));
  (49%N, ((-8131311136536975) @ (-49), #, #, (-1672986475717779) @ (-47)));
  (50%N, (#, #, #, (-4650533185457697) @ (-48)));
  (51%N, (#, #, (-4684119305002281) @ (-48), (-4650533185457697) @ (-48)));
  (52%N, ((-5839584498217805) @ (-49), (-3817185134677383) @ (-48), (-3150393055813769) @ (-48), (-6211069133643005) @ (-49)));
  (53%N, (#, (-8090883396801683) @ (-49), (-546860929579423) @ (-45), (-8395033373076123) @ (-49)));
  (54%N, ((-4684119305002281) @ (-48), #, #, (-3598472716699259) @ (-48)));
  (55%N, (#, #, #, (-302852298247679) @ (-44)));
  (56%N, ((-7545024726212017) @ (-49), (-3817185134677383) @ (-48), (-1552082100991385) @ (-47), (-5926064569244187) @ (-49)));
  (58%N, ((-70763410408193) @ (-43), (-2907423936947123) @ (-48), (-1335082092173887) @ (-47), (-2642913603215375) @ (-48)));
  (60%N, (#, #, #, (-4650533185457697) @ (-48)));
  (61%N, ((-7350896790516305) @ (-49), (-1725734743489383) @ (-47), (-7133162962201383) @ (-49), (-3164875984674615) @ (-48)));
  (66%N, ((-6748291847658751) @ (-49), (-3887923857524803) @ (-48), #, (-7587152606408853) @ (-49)));
  (68%N, ((-4331497877621075) @ (-48), #, (-7654324845498021) @ (-49), (-3422430101659097) @ (-48)));
  (69%N, ((-2146956065995973) @ (-47), #, (-2146956065995973) @ (-47), (-6913411673111127) @ (-49)));
  (71%N, (#, #, #, (-302852298247679) @ (-44)));
  (73%N, (#, #, #, (-4650533185457697) @ (-48)));
  (76%N, ((-6748291847658751) @ (-49), (-3887923857524803) @ (-48), #, (-7587152606408853) @ (-49)));
  (77%N, (#, #, #, (-2061833855653683) @ (-47)));
  (80%N, ((-1434570543504379) @ (-47), (-6210014990473763) @ (-49), (-732737328831097) @ (-46), (-747080399202135) @ (-46)));
  (81%N, ((-8091963601202315) @ (-50), (-4997985844235005) @ (-49), (-8968661052716069) @ (-50), (-146579405053895) @ (-44)));
  (84%N, ((-8131311136536975) @ (-49), (-3252133114292637) @ (-48), (-8978031436994227) @ (-49), (-7060704769219635) @ (-49)));
  (85%N, ((-1407488249418107) @ (-47), (-5263616758396271) @ (-49), (-5908162840687809) @ (-49), (-5990620600128631) @ (-49)));
  (87%N, ((-257315439822987) @ (-45), (-3455646316157181) @ (-49), (-1207240110121151) @ (-47), (-5061481077556991) @ (-49)));
  (88%N, (#, (-1796212599740603) @ (-47), (-8272788582231815) @ (-49), (-1994339944854797) @ (-47)));
  (90%N, ((-5786657746483999) @ (-49), (-748345307410601) @ (-46), (-5080790740184809) @ (-49), (-5398445153258977) @ (-49)));
  (93%N, (#, #, #, (-4650533185457697) @ (-48)));
  (95%N, ((-4260759154773655) @ (-48), (-8871297742822353) @ (-49), (-609902861438431) @ (-45), (-3879055303555717) @ (-48)));
  (97%N, ((-8978031436994227) @ (-49), (-3982632372491541) @ (-48), (-3442027008155403) @ (-48), (-6743418784857205) @ (-49)));
  (98%N, ((-4901403819297567) @ (-49), (-2903744473092393) @ (-48), (-361034307814661) @ (-45), (-4539710128896451) @ (-49)));
  (99%N, (#, #, #, (-4650533185457697) @ (-48)));
  (102%N, (#, #, #, (-302852298247679) @ (-44)));
  (104%N, (#, #, #, (-976926146266539) @ (-46)));
  (105%N, ((-7143886142672895) @ (-49), (-7427359621511357) @ (-49), (-5592610770010893) @ (-49), (-5678287083341141) @ (-49)));
  (106%N, ((-5063186459031229) @ (-49), (-2607394150324281) @ (-48), (-4709329157853869) @ (-49), (-4997763557884801) @ (-49)));
  (108%N, (#, #, #, (-302852298247679) @ (-44)));
  (110%N, ((-5308700851836639) @ (-49), (-4915271364466751) @ (-49), (-8179773875591053) @ (-50), (-4445285778896351) @ (-49)));
  (112%N, ((-5786657746483999) @ (-49), (-748345307410601) @ (-46), (-5080790740184809) @ (-49), (-5398445153258977) @ (-49)));
  (113%N, (#, #, #, (-1930728693765227) @ (-47)));
  (114%N, ((-3215481543784717) @ (-48), (-1725734743489383) @ (-47), (-2308109201039749) @ (-48), (-6063550153125395) @ (-49)));
  (116%N, (#, #, #, (-7489000375236853) @ (-49)));
  (117%N, ((-6031675879752957) @ (-49), (-1540569696027671) @ (-47), (-5504849362510535) @ (-49), (-2351667914805049) @ (-48)));
  (119%N, ((-4901403819297567) @ (-49), (-2903744473092393) @ (-48), (-361034307814661) @ (-45), (-7658507473194481) @ (-49)));
  (121%N, ((-1826459187989943) @ (-47), #, #, (-7600718321947853) @ (-49)));
  (124%N, (#, #, #, (-8130444851884389) @ (-49)));
  (125%N, (#, #, #, (-7500373488380235) @ (-49)));
  (126%N, (#, #, #, (-3951094144080465) @ (-48)));
  (127%N, (#, #, #, (-976926146266539) @ (-46)));
  (129%N, ((-6013216850522061) @ (-49), (-8090883396801683) @ (-49), (-3478396877264481) @ (-48), (-7115940211661285) @ (-49)));
  (133%N, ((-2146956065995973) @ (-47), (-3455646316157181) @ (-49), (-1207240110121151) @ (-47), (-5061481077556991) @ (-49)));
  (134%N, (#, #, #, (-7489000375236853) @ (-49)));
  (136%N, ((-6013216850522061) @ (-49), (-8090883396801683) @ (-49), (-3478396877264481) @ (-48), (-7115940211661285) @ (-49)));
  (138%N, ((-5073491225673421) @ (-49), (-2526312568550371) @ (-48), (-2707985546199297) @ (-48), (-2593927430105523) @ (-48)));
  (139%N, (#, #, #, (-4650533185457697) @ (-48)));
  (140%N, ((-3165948117006797) @ (-48), (-6530054704760343) @ (-49), (-6877271404704321) @ (-49), (-767516227512611) @ (-46)));
  (141%N, (#, #, #, (-7477852487122849) @ (-49)));
  (142%N, ((-3471669650421439) @ (-49), (-3391607765983921) @ (-49), (-4189077939738285) @ (-49), (-8427912838216781) @ (-50)));
  (145%N, (#, #, #, (-8130444851884389) @ (-49)));
  (147%N, (#, #, #, (-4650533185457697) @ (-48)));
  (148%N, ((-6915629578949437) @ (-49), (-491414177067389) @ (-45), (-7206819109466809) @ (-49), (-7614619027055453) @ (-49)));
  (149%N, (#, #, #, (-271331332318175) @ (-44)));
  (154%N, ((-3276579770341245) @ (-48), (-3606862978324355) @ (-48), (-1607359885358511) @ (-47), (-7217418596990555) @ (-49)));
  (155%N, (#, #, #, (-70881326618687) @ (-42)));
  (157%N, ((-4684119305002281) @ (-48), #, #, (-3670651212387731) @ (-48)));
  (158%N, ((-5741410923376357) @ (-49), (-5885802491851481) @ (-49), (-6293568705673569) @ (-49), (-366997734782811) @ (-45)));
  (159%N, ((-6231394757133713) @ (-49), (-4240545284906009) @ (-48), #, (-7145732875094951) @ (-49)));
  (161%N, ((-6076986173905263) @ (-49), (-6114059055574939) @ (-49), (-3363622269110247) @ (-48), (-3374719848683653) @ (-48)));
  (162%N, (#, #, #, (-302852298247679) @ (-44)));
  (163%N, (#, #, (-4260759154773655) @ (-48), (-3662121014844325) @ (-48)));
  (164%N, ((-4026026396526033) @ (-49), (-2291163538091909) @ (-48), (-4351493244391339) @ (-49), (-2286242565112193) @ (-48)));
  (165%N, ((-6231394757133713) @ (-49), (-4240545284906009) @ (-48), #, (-7145732875094951) @ (-49)));
  (167%N, ((-3448934716216021) @ (-48), (-8252834006088559) @ (-49), #, (-3662121014844325) @ (-48)));
  (168%N, ((-6076986173905263) @ (-49), (-6114059055574939) @ (-49), (-3363622269110247) @ (-48), (-3374719848683653) @ (-48)));
  (169%N, ((-1132644259894969) @ (-47), (-7582055695329917) @ (-50), (-4260759154773655) @ (-48), (-4650533185457697) @ (-48)));
  (170%N, (#, #, #, (-7614619027055453) @ (-49)));
  (175%N, ((-4204275375441935) @ (-48), (-3982632372491541) @ (-48), (-609902861438431) @ (-45), (-6686506730573393) @ (-49)));
  (176%N, ((-7097163030666307) @ (-49), #, #, (-7658507473194481) @ (-49)));
  (177%N, (#, #, #, (-4650533185457697) @ (-48)));
  (178%N, ((-4684119305002281) @ (-48), (-375889304995713) @ (-45), (-2769884913752453) @ (-48), (-7367903434101099) @ (-49)));
  (179%N, (#, #, #, (-4650533185457697) @ (-48)));
  (182%N, ((-2017999609788739) @ (-47), #, (-1975763643203379) @ (-47), (-6863080238721081) @ (-49)));
  (184%N, ((-7862826752368233) @ (-49), #, #, (-4048158111928321) @ (-48)));
  (185%N, ((-8462205612165291) @ (-49), (-6886133249742931) @ (-49), (-3256465860118603) @ (-48), (-2988705339167515) @ (-48)));
  (188%N, (#, #, #, (-8395033373076123) @ (-49)));
  (189%N, ((-2700419559252789) @ (-48), (-1326244811755009) @ (-47), (-1322676137884855) @ (-47), (-2860959681562305) @ (-48)));
  (191%N, ((-8018343577873535) @ (-49), (-7575057571972747) @ (-49), (-3801556143597227) @ (-48), (-976926146266539) @ (-46)));
  (192%N, (#, #, (-7206819109466809) @ (-49), (-4170689255897351) @ (-48)));
  (193%N, ((-5711729167830771) @ (-49), (-6024884402214819) @ (-49), (-176880171129593) @ (-44), (-42909089325541) @ (-42)));
  (194%N, (#, #, #, (-6517162045451459) @ (-49)));
  (195%N, (#, #, #, (-4650533185457697) @ (-48)));
  (196%N, (#, #, #, (-2061833855653683) @ (-47)));
  (197%N, ((-3070327202613245) @ (-48), (-2788400314710613) @ (-48), (-6240022511500567) @ (-49), (-2759469138461501) @ (-48)));
  (200%N, (#, #, #, (-8910859197905059) @ (-49)));
  (201%N, (#, #, #, (-4650533185457697) @ (-48)));
  (202%N, (#, (-4797600846877987) @ (-49), (-6937708877592227) @ (-49), (-7183698940977469) @ (-49)));
  (203%N, (#, #, #, (-8033701757752085) @ (-49)));
  (204%N, ((-741679197974175) @ (-46), (-8252834006088559) @ (-49), (-7862826752368233) @ (-49), (-8033701757752085) @ (-49)));
  (206%N, ((-3667736269636657) @ (-48), (-7244163096344431) @ (-49), (-3498510787487123) @ (-48), (-3535663390789959) @ (-48)));
  (209%N, (#, #, #, (-271331332318175) @ (-44)));
  (210%N, ((-4657998219530109) @ (-49), (-4811967830310629) @ (-49), (-2051847030081405) @ (-48), (-1423114679922519) @ (-47)));
  (211%N, (#, #, #, (-302852298247679) @ (-44)));
  (212%N, ((-3538790094118157) @ (-48), (-5647369070067195) @ (-49), (-5368036639391275) @ (-49), (-6531363337886707) @ (-49)));
  (213%N, ((-4260759154773655) @ (-48), #, #, (-7367903434101099) @ (-49)));
  (216%N, ((-6699532234209679) @ (-49), (-7131195537680991) @ (-49), (-7001207095767483) @ (-49), (-768679373733051) @ (-46)));
  (217%N, (#, #, #, (-302852298247679) @ (-44)));
  (218%N, (#, #, #, (-3879055303555717) @ (-48)));
  (219%N, (#, #, #, (-8910859197905059) @ (-49)));
  (223%N, ((-5858025741001299) @ (-49), #, (-1947521753537519) @ (-47), (-13119324708823) @ (-40)));
  (224%N, ((-709089948026519) @ (-46), (-4553230363533599) @ (-49), (-696832821826965) @ (-46), (-5751977211244893) @ (-49)));
  (225%N, ((-3256465860118603) @ (-48), (-4240545284906009) @ (-48), (-1975763643203379) @ (-47), (-1994339944854797) @ (-47)));
  (227%N, (#, #, #, (-271331332318175) @ (-44)));
  (229%N, (#, (-7346801008249289) @ (-49), (-8359567700260433) @ (-49), (-4392620273043229) @ (-48)));
  (230%N, ((-7725679712283649) @ (-49), #, (-1910269588269243) @ (-47), (-3598472716699259) @ (-48)));
  (233%N, ((-1697502731782709) @ (-47), (-48594280744979) @ (-42), (-6915629578949437) @ (-49), (-8292395461171265) @ (-49)));
  (236%N, (#, #, #, (-3879055303555717) @ (-48)));
  (238%N, (#, #, (-8359567700260433) @ (-49), (-8395033373076123) @ (-49)));
  (240%N, ((-5788603988538059) @ (-49), (-5222494199799545) @ (-49), (-5695386339320379) @ (-49), (-6702984490925865) @ (-49)));
  (241%N, ((-3577408776600841) @ (-48), (-8871297742822353) @ (-49), (-2017999609788739) @ (-47), (-7121773942140261) @ (-49)));
  (243%N, (#, #, (-985322676152685) @ (-46), (-472560260360877) @ (-45)));
  (249%N, ((-6699532234209679) @ (-49), (-7131195537680991) @ (-49), (-7001207095767483) @ (-49), (-768679373733051) @ (-46)));
  (251%N, ((-2336657637630003) @ (-48), (-358403368121969) @ (-45), (-5398153166983163) @ (-49), (-2460454955245541) @ (-48)));
  (252%N, ((-6426404763446139) @ (-49), (-636018764938497) @ (-46), (-5085663590782487) @ (-49), (-2829819385475035) @ (-48)));
  (253%N, (#, #, #, (-302852298247679) @ (-44)));
  (254%N, (#, #, (-8100873996841253) @ (-49), #))].

(** prob_emit.py, characters 0x8000 to 0x80ff *)
Definition emit_80 : list (N * num4) := [
  (0%N, ((-5888616060190611) @ (-49), (-2385927358094037) @ (-48), (-326043221836725) @ (-45), (-3157086242900219) @ (-48)));
  (1%N, ((-6885181925893953) @ (-50), (-7998671474875081) @ (-50), (-2269307595252289) @ (-48), (-7654048248345193) @ (-50)));
  (2%N, (#, #, #, (-3670651212387731) @ (-48)));
  (3%N, ((-7532979328780371) @ (-50), (-4919785018563097) @ (-49), (-8841658209760895) @ (-50), (-4796421113448983) @ (-49)));
  (4%N, ((-8100873996841253) @ (-49), #, #, (-3549396601113259) @ (-48)));
  (5%N, ((-8233949048441833) @ (-49), (-8995528598834557) @ (-50), (-6296391998231823) @ (-50), (-503102119289663) @ (-46)));
  (6%N, ((-1689779535490071) @ (-47), (-7346801008249289) @ (-49), (-3286220266632137) @ (-48), (-1706802855995055) @ (-47)));
  (10%N, (#, #, #, (-271331332318175) @ (-44)));
  (11%N, (#, (-3817185134677383) @ (-48), (-8462205612165291) @ (-49), (-271331332318175) @ (-44)));
  (12%N, ((-7526073423669599) @ (-50), (-1766283071056125) @ (-48), (-7919502383300925) @ (-50), (-6015606740555415) @ (-50)));
  (13%N, ((-3257349612733795) @ (-48), (-8090883396801683) @ (-49), (-6347462662288133) @ (-49), (-712665532063969) @ (-46)));
  (14%N, (#, #, #, (-302852298247679) @ (-44)));
  (16%N, ((-2629028896387897) @ (-48), (-2505726393979917) @ (-48), (-2887321923615987) @ (-48), (-2830694211281689) @ (-48)));
  (17%N, (#, #, #, (-4170689255897351) @ (-48)));
  (18%N, ((-7579153354239763) @ (-49), #, (-609902861438431) @ (-45), (-976926146266539) @ (-46)));
  (19%N, (#, #, #, (-4048158111928321) @ (-48)));
  (20%N, (#, #, #, (-302852298247679) @ (-44)));
  (21%N, ((-1287312367383317) @ (-47), (-5400476048959849) @ (-49), (-6124492052457255) @ (-49), (-1505537701106085) @ (-47)));
  (22%N, (#, #, #, (-4297911758076491) @ (-48)));
  (23%N, ((-2749787207725245) @ (-48), (-6024884402214819) @ (-49), (-2694845615195787) @ (-48), (-3044124456602361) @ (-48)));
  (24%N, ((-609902861438431) @ (-45), (-7310469050781013) @ (-49), (-1630008820983823) @ (-47), (-1848956007451337) @ (-47)));
  (25%N, ((-985322676152685) @ (-46), #, (-7862826752368233) @ (-49), (-1490004489982733) @ (-47)));
  (28%N, (#, (-8871297742822353) @ (-49), (-230211112012267) @ (-44), (-7795654513279065) @ (-49)));
  (32%N, (#, #, #, (-4650533185457697) @ (-48)));
  (33%N, (#, #, #, (-1893476528496951) @ (-47)));
  (34%N, (#, #, #, (-4227173035229071) @ (-48)));
  (35%N, (#, #, #, (-70881326618687) @ (-42)));
  (36%N, (#, #, #, (-302852298247679) @ (-44)));
  (37%N, (#, #, #, (-302852298247679) @ (-44)));
  (38%N, ((-6850929759563609) @ (-49), #, (-609902861438431) @ (-45), (-7689790518313711) @ (-49)));
  (39%N, (#, #, #, (-7926147221115621) @ (-49)));
  (40%N, (#, #, #, (-976926146266539) @ (-46)));
  (41%N, (#, #, #, (-4227173035229071) @ (-48)));
  (42%N, ((-4684119305002281) @ (-48), #, #, (-7425201997121977) @ (-49)));
  (44%N, (#, #, #, (-7926147221115621) @ (-49)));
  (48%N, (#, #, #, (-4297911758076491) @ (-48)));
  (49%N, (#, #, (-8978031436994227) @ (-49), (-8910859197905059) @ (-49)));
  (51%N, ((-4835916032909671) @ (-49), (-2194232090065637) @ (-48), (-5280334652379875) @ (-49), (-2494402685867253) @ (-48)));
  (53%N, ((-8978031436994227) @ (-49), #, #, (-8910859197905059) @ (-49)));
  (54%N, ((-2623387926499715) @ (-48), (-2458385949163707) @ (-48), (-3088675424783151) @ (-48), (-5745835878119485) @ (-49)));
  (55%N, ((-7058655718752843) @ (-49), (-7385640542039271) @ (-49), (-985322676152685) @ (-46), (-7926147221115621) @ (-49)));
  (56%N, ((-3133364351259961) @ (-48), (-5990123364511777) @ (-49), (-6382743359033689) @ (-49), (-6122962302844643) @ (-49)));
  (59%N, ((-6190134541933811) @ (-49), (-1454951954365857) @ (-47), (-5669949350380159) @ (-49), (-3244895515983039) @ (-48)));
  (60%N, (#, #, #, (-302852298247679) @ (-44)));
  (61%N, ((-5722027320004689) @ (-49), #, (-7756962757402879) @ (-49), (-6552293256029903) @ (-49)));
  (63%N, ((-5701616022444191) @ (-49), (-5479036773534323) @ (-49), (-6594441377450325) @ (-49), (-6951095251765127) @ (-49)));
  (64%N, (#, #, #, (-8205616343142647) @ (-49)));
  (66%N, ((-87757966600277) @ (-43), (-784151982854103) @ (-46), (-4204275375441935) @ (-48), (-440002733528793) @ (-45)));
  (67%N, (#, (-3817185134677383) @ (-48), (-4426206392587813) @ (-48), (-4170689255897351) @ (-48)));
  (68%N, (#, #, #, (-271331332318175) @ (-44)));
  (70%N, ((-6887476215016351) @ (-49), (-8871297742822353) @ (-49), (-8131311136536975) @ (-49), (-7104451038327115) @ (-49)));
  (74%N, ((-5734727624222727) @ (-49), (-1473567016053351) @ (-47), (-92611946696413) @ (-43), (-5910848779382367) @ (-49)));
  (75%N, ((-424016655625409) @ (-45), (-6325757073991575) @ (-49), (-6673120356400493) @ (-49), (-3267743765907651) @ (-48)));
  (76%N, ((-7328258527953997) @ (-50), (-4632618728092881) @ (-49), (-1093239901303759) @ (-47), (-4790421256985617) @ (-49)));
  (77%N, (#, #, (-8978031436994227) @ (-49), (-4650533185457697) @ (-48)));
  (82%N, ((-7343131840464381) @ (-49), #, (-4260759154773655) @ (-48), (-7795654513279065) @ (-49)));
  (84%N, ((-3744996192438903) @ (-49), (-953889001341329) @ (-47), (-8758686180695693) @ (-50), (-2584545610428889) @ (-48)));
  (86%N, ((-4686371349158827) @ (-49), (-1179321365269629) @ (-47), (-2616038292849389) @ (-48), (-5022279440439717) @ (-49)));
  (88%N, ((-5634753518329633) @ (-49), (-4902431598422343) @ (-49), (-1235782663105161) @ (-47), (-6148393454038315) @ (-49)));
  (90%N, ((-1194658709189451) @ (-47), (-5017409985914559) @ (-49), (-5347852182894863) @ (-49), (-5288531534866397) @ (-49)));
  (91%N, (#, #, #, (-8395033373076123) @ (-49)));
  (94%N, ((-4924237583111639) @ (-49), (-8367770962154479) @ (-50), (-1073963670870323) @ (-47), (-4925988482224947) @ (-49)));
  (98%N, (#, #, #, (-70881326618687) @ (-42)));
  (99%N, (#, #, #, (-3888284818171165) @ (-48)));
  (100%N, (#, #, #, (-8205616343142647) @ (-49)));
  (105%N, (#, #, (-3756423699901591) @ (-48), (-4297911758076491) @ (-48)));
  (106%N, ((-5256540406537913) @ (-49), (-20075382844089) @ (-41), (-5700364558527349) @ (-49), (-3330036149565663) @ (-48)));
  (111%N, ((-3744996192438903) @ (-49), (-953889001341329) @ (-47), (-8758686180695693) @ (-50), (-2584545610428889) @ (-48)));
  (112%N, ((-5256540406537913) @ (-49), (-20075382844089) @ (-41), (-5700364558527349) @ (-49), (-3330036149565663) @ (-48)));
  (113%N, ((-8978031436994227) @ (-49), (-3982632372491541) @ (-48), #, (-302852298247679) @ (-44)));
  (114%N, ((-4080710387843873) @ (-49), (-4100699008129989) @ (-49), (-447852840836073) @ (-46), (-8503827835190055) @ (-50)));
  (115%N, ((-3133364351259961) @ (-48), (-5990123364511777) @ (-49), (-6382743359033689) @ (-49), (-6122962302844643) @ (-49)));
  (117%N, (#, #, (-3756423699901591) @ (-48), (-4297911758076491) @ (-48)));
  (118%N, ((-87757966600277) @ (-43), (-784151982854103) @ (-46), (-4204275375441935) @ (-48), (-440002733528793) @ (-45)));
  (119%N, ((-7328258527953997) @ (-50), (-4632618728092881) @ (-49), (-1093239901303759) @ (-47), (-4790421256985617) @ (-49)));
  (121%N, (#, #, (-8978031436994227) @ (-49), (-4650533185457697) @ (-48)));
  (125%N, ((-8127453355975259) @ (-50), (-1235597058825449) @ (-47), (-1194052168292205) @ (-47), (-3649967553338183) @ (-49)));
  (126%N, ((-424016655625409) @ (-45), (-6325757073991575) @ (-49), (-6673120356400493) @ (-49), (-3267743765907651) @ (-48)));
  (127%N, (#, (-3252133114292637) @ (-48), (-8978031436994227) @ (-49), (-7489000375236853) @ (-49)));
  (128%N, (#, #, #, (-976926146266539) @ (-46)));
  (131%N, ((-5554689588714003) @ (-49), (-5238229850297097) @ (-49), (-1278771001917035) @ (-47), (-2964790410117605) @ (-48)));
  (132%N, ((-406948109194601) @ (-45), (-8871297742822353) @ (-49), #, (-2130163006223681) @ (-47)));
  (133%N, ((-5554689588714003) @ (-49), (-5238229850297097) @ (-49), (-1278771001917035) @ (-47), (-302852298247679) @ (-44)));
  (134%N, ((-2909317552945659) @ (-48), (-7082212487057555) @ (-49), (-5830060681636985) @ (-49), (-6202985610806041) @ (-49)));
  (135%N, ((-3172494649417) @ (-38), (-642319354965439) @ (-46), (-7681791266144621) @ (-49), (-1667624399052325) @ (-47)));
  (137%N, ((-5121157201180829) @ (-49), (-4816559957730105) @ (-49), (-4619935463498499) @ (-49), (-295824492728993) @ (-45)));
  (139%N, ((-6598535576975875) @ (-49), (-7385640542039271) @ (-49), (-7591005369967043) @ (-49), (-3147473968188667) @ (-48)));
  (140%N, ((-1313097140260623) @ (-47), (-1430962970641151) @ (-47), (-6130722392214563) @ (-49), (-712665532063969) @ (-46)));
  (143%N, (#, #, #, (-302852298247679) @ (-44)));
  (144%N, (#, #, #, (-4392620273043229) @ (-48)));
  (147%N, (#, #, (-7556172614326021) @ (-49), (-7435345513955431) @ (-49)));
  (149%N, (#, #, #, (-302852298247679) @ (-44)));
  (150%N, ((-1244862034123363) @ (-47), (-1314290474264215) @ (-47), (-3198462104219199) @ (-48), (-767516227512611) @ (-46)));
  (151%N, (#, #, #, (-302852298247679) @ (-44)));
  (152%N, ((-6877271404704321) @ (-49), (-4240545284906009) @ (-48), (-1605470763190823) @ (-47), (-1569089569288295) @ (-47)));
  (153%N, (#, #, #, (-8205616343142647) @ (-49)));
  (154%N, ((-2658010750278485) @ (-48), (-5342110281916193) @ (-49), (-2691861964440243) @ (-48), (-2859499998204395) @ (-48)));
  (155%N, ((-6468822725631725) @ (-49), #, (-7924300488693565) @ (-49), (-6973174550407917) @ (-49)));
  (156%N, (#, #, (-609902861438431) @ (-45), (-7926147221115621) @ (-49)));
  (157%N, ((-1361413612351565) @ (-47), (-2845603979285655) @ (-48), (-5971913002456167) @ (-49), (-5498890462768217) @ (-49)));
  (158%N, (#, #, #, (-70881326618687) @ (-42)));
  (159%N, (#, (-8252834006088559) @ (-49), (-571248877892569) @ (-45), (-7158105899608537) @ (-49)));
  (160%N, ((-2728990178625735) @ (-48), (-4999724239708303) @ (-49), (-643265895701829) @ (-46), (-2899592712202337) @ (-48)));
  (161%N, ((-4051211161553161) @ (-49), (-5171431591541059) @ (-49), (-4438753267474269) @ (-49), (-2299133340581775) @ (-48)));
  (162%N, ((-6175409640906853) @ (-49), (-1508936377477061) @ (-47), (-5555655473915359) @ (-49), (-6257099274030887) @ (-49)));
  (164%N, ((-3200624534650297) @ (-48), (-1412762123656457) @ (-47), (-5131073309425685) @ (-49), (-6649836563450353) @ (-49)));
  (165%N, ((-2579759119721991) @ (-48), (-5225086452822481) @ (-49), (-5290302156988033) @ (-49), (-2743116037600139) @ (-48)));
  (166%N, (#, #, #, (-4227173035229071) @ (-48)));
  (169%N, ((-2541436971046821) @ (-48), (-5800224975033435) @ (-49), (-2920593792061689) @ (-48), (-5442407823137769) @ (-49)));
  (170%N, (#, (-2758501419708421) @ (-48), (-5585806915099) @ (-39), (-440002733528793) @ (-45)));
  (171%N, (#, #, (-4331497877621075) @ (-48), (-3879055303555717) @ (-48)));
  (173%N, (#, #, #, (-1930728693765227) @ (-47)));
  (174%N, ((-6564648714016659) @ (-49), (-8871297742822353) @ (-49), #, (-456223959081461) @ (-45)));
  (175%N, ((-594939017415843) @ (-46), (-5902862886938293) @ (-49), (-1211217469962929) @ (-47), (-2594305502662983) @ (-48)));
  (177%N, ((-2078626915425975) @ (-47), (-491414177067389) @ (-45), (-3801556143597227) @ (-48), (-7614619027055453) @ (-49)));
  (178%N, ((-5669949350380159) @ (-49), (-7785407621404665) @ (-50), (-3726739779717277) @ (-49), (-6039889629906513) @ (-49)));
  (180%N, ((-1986594946834089) @ (-47), #, (-165793303611009) @ (-44), (-3535663390789959) @ (-48)));
  (183%N, (#, #, #, (-1877995278787649) @ (-47)));
  (184%N, (#, #, #, (-70881326618687) @ (-42)));
  (186%N, ((-1401020551609233) @ (-47), (-7131195537680991) @ (-49), (-394332816324959) @ (-45), (-2806367018937591) @ (-48)));
  (188%N, (#, #, (-7862826752368233) @ (-49), (-7643494584741751) @ (-49)));
  (189%N, ((-8233949048441833) @ (-49), (-8871297742822353) @ (-49), (-7244363015634439) @ (-49), (-405971578459659) @ (-45)));
  (190%N, ((-2754048721818217) @ (-48), (-7310469050781013) @ (-49), (-3367522677618851) @ (-48), (-2805965485379183) @ (-48)));
  (191%N, ((-5338791752544005) @ (-49), (-1403391032882013) @ (-47), (-5579684462988887) @ (-49), (-2887007672517105) @ (-48)));
  (192%N, ((-7773281289935475) @ (-49), (-5976798483181123) @ (-49), (-5326004274053277) @ (-49), (-5984365536293133) @ (-49)));
  (193%N, ((-3280396438671863) @ (-48), (-5699193198179331) @ (-49), (-5088186148939523) @ (-49), (-6070756010914241) @ (-49)));
  (194%N, (#, #, #, (-906660926466427) @ (-46)));
  (195%N, ((-700116297358617) @ (-46), (-874429171128617) @ (-46), (-740197696008265) @ (-46), (-5589897971784163) @ (-49)));
  (196%N, (#, (-3887923857524803) @ (-48), (-6541900166291575) @ (-49), (-6863080238721081) @ (-49)));
  (198%N, ((-1263266733695005) @ (-47), (-5288261600714309) @ (-49), (-164066773694575) @ (-44), (-2845304974854267) @ (-48)));
  (200%N, (#, #, #, (-1508903780562939) @ (-47)));
  (204%N, ((-4420057000281999) @ (-49), (-5767513286977053) @ (-49), (-5235715576737353) @ (-49), (-4514649651494773) @ (-49)));
  (205%N, (#, #, #, (-1783406489466885) @ (-47)));
  (206%N, ((-5728998925554339) @ (-49), (-5923442983753829) @ (-49), (-5459065039578221) @ (-49), (-5901375840297557) @ (-49)));
  (210%N, (#, #, #, (-302852298247679) @ (-44)));
  (214%N, ((-153987708114217) @ (-44), (-2858792606773735) @ (-48), (-5984886346891661) @ (-49), (-1390327968332825) @ (-47)));
  (215%N, (#, #, (-4684119305002281) @ (-48), (-7795654513279065) @ (-49)));
  (217%N, (#, #, #, (-7835882333724349) @ (-49)));
  (218%N, ((-361123873511111) @ (-45), (-841042158939437) @ (-46), (-7924300488693565) @ (-49), (-3189628739681845) @ (-48)));
  (219%N, ((-571248877892569) @ (-45), (-3469067403004029) @ (-48), (-7615485311708039) @ (-49), (-1969801887061797) @ (-47)));
  (220%N, ((-2194254358110463) @ (-48), (-7855097326745555) @ (-50), (-555904537083605) @ (-46), (-4771622419221931) @ (-49)));
  (221%N, (#, (-3887923857524803) @ (-48), (-3921870937715749) @ (-48), (-7951171338784367) @ (-49)));
  (222%N, ((-7313100723111123) @ (-49), (-4997985844235005) @ (-49), (-577591350839445) @ (-46), (-3126036450884633) @ (-48)));
  (224%N, (#, #, #, (-4650533185457697) @ (-48)));
  (225%N, ((-1952548860528445) @ (-48), (-4982577230273537) @ (-49), (-5831636837459197) @ (-49), (-5129241561816847) @ (-49)));
  (228%N, ((-609902861438431) @ (-45), (-1673001328511805) @ (-47), (-6451153801728311) @ (-49), (-6106302863991523) @ (-49)));
  (229%N, ((-3232784335298843) @ (-48), (-6615369712852055) @ (-49), (-3043003343313501) @ (-48), (-7350030505863719) @ (-49)));
  (230%N, (#, #, #, (-302852298247679) @ (-44)));
  (231%N, (#, (-3095216074021885) @ (-48), (-380272237863443) @ (-45), (-7158105899608537) @ (-49)));
  (232%N, (#, #, #, (-472560260360877) @ (-45)));
  (233%N, (#, #, #, (-7643494584741751) @ (-49)));
  (234%N, ((-8978031436994227) @ (-49), #, #, (-1372766765036657) @ (-47)));
  (235%N, ((-7615485311708039) @ (-49), (-6646945275490687) @ (-49), #, (-6913411673111127) @ (-49)));
  (236%N, ((-4684119305002281) @ (-48), #, #, (-3888284818171165) @ (-48)));
  (237%N, ((-3217779311456757) @ (-48), #, #, (-2130163006223681) @ (-47)));
  (239%N, ((-8359567700260433) @ (-49), (-4240545284906009) @ (-48), #, (-1570731798987807) @ (-47)));
  (240%N, ((-6185183323092107) @ (-49), (-4240545284906009) @ (-48), (-4426206392587813) @ (-48), (-6764779882313803) @ (-49)));
  (241%N, ((-8462205612165291) @ (-49), (-6404436052941743) @ (-49), (-6518250971971065) @ (-49), (-7104451038327115) @ (-49)));
  (243%N, ((-2834383133865439) @ (-48), #, #, (-7951171338784367) @ (-49)));
  (244%N, ((-2017999609788739) @ (-47), #, #, (-976926146266539) @ (-46)));
  (245%N, (#, #, #, (-4227173035229071) @ (-48)));
  (246%N, ((-5484891687171399) @ (-49), (-5976798483181123) @ (-49), (-2711146088912653) @ (-48), (-5839786430116141) @ (-49)));
  (248%N, ((-4761552668368193) @ (-49), (-5861143807466207) @ (-49), (-5924056077340125) @ (-49), (-5337596737982269) @ (-49)));
  (250%N, ((-3756423699901591) @ (-48), (-1673001328511805) @ (-47), (-5813008117208653) @ (-49), (-3191201229675051) @ (-48)));
  (252%N, ((-7725679712283649) @ (-49), #, #, (-4650533185457697) @ (-48)));
  (253%N, ((-7501082014009099) @ (-50), (-7655307370496219) @ (-50), (-6484771205030215) @ (-50), (-3250345547920795) @ (-49)));
  (254%N, (#, #, #, (-4650533185457697) @ (-48)))].

(** prob_emit.py, characters 0x8100 to 0x81ff *)
Definition emit_81 : list (N * num4) := [
  (1%N, (#, #, #, (-2001206550016447) @ (-47)));
  (2%N, ((-5465892069081295) @ (-49), (-349059228719007) @ (-45), (-684309276433501) @ (-46), (-1505537701106085) @ (-47)));
  (3%N, (#, #, #, (-8395033373076123) @ (-49)));
  (5%N, ((-3280396438671863) @ (-48), (-5699193198179331) @ (-49), (-5088186148939523) @ (-49), (-6070756010914241) @ (-49)));
  (6%N, ((-6134313791657815) @ (-49), (-3318111047509587) @ (-48), (-5539143631719069) @ (-49), (-6040748440070665) @ (-49)));
  (8%N, ((-2799593479302291) @ (-48), (-5301992768114433) @ (-49), (-4796084390189571) @ (-49), (-1291907845558761) @ (-47)));
  (9%N, ((-2799593479302291) @ (-48), (-5301992768114433) @ (-49), (-4796084390189571) @ (-49), (-1291907845558761) @ (-47)));
  (10%N, ((-5554046584699583) @ (-49), (-6397442795887179) @ (-49), (-5729437530916161) @ (-49), (-2643026035801935) @ (-48)));
  (11%N, (#, #, #, (-8910859197905059) @ (-49)));
  (12%N, (#, #, #, (-70881326618687) @ (-42)));
  (13%N, ((-903159767337213) @ (-46), #, #, (-3951094144080465) @ (-48)));
  (14%N, (#, #, #, (-8910859197905059) @ (-49)));
  (15%N, ((-2986632311820945) @ (-48), (-5193101620843089) @ (-49), (-2603707655211571) @ (-48), (-2912181089436575) @ (-48)));
  (16%N, ((-7435075673190267) @ (-49), (-7082212487057555) @ (-49), (-7435075673190267) @ (-49), (-3517497412055821) @ (-48)));
  (17%N, ((-2391310097922703) @ (-48), (-303757497396421) @ (-45), (-4643788081189059) @ (-49), (-1297389404301925) @ (-47)));
  (18%N, (#, #, (-571248877892569) @ (-45), (-8064138897447807) @ (-49)));
  (19%N, ((-6351422467267269) @ (-49), (-6118275928875963) @ (-49), (-3582982720657843) @ (-48), (-1621971488540869) @ (-47)));
  (20%N, (#, #, (-8978031436994227) @ (-49), (-8395033373076123) @ (-49)));
  (22%N, ((-171376244004331) @ (-44), (-1623981519183149) @ (-47), (-7615485311708039) @ (-49), (-50343730531441) @ (-42)));
  (24%N, (#, #, (-1947521753537519) @ (-47), (-7245928484021955) @ (-49)));
  (26%N, ((-2340753984168589) @ (-48), (-74930906683829) @ (-43), (-2385813785908243) @ (-48), (-4752558586412767) @ (-49)));
  (27%N, ((-7615485311708039) @ (-49), (-6646945275490687) @ (-49), #, (-6913411673111127) @ (-49)));
  (30%N, (#, #, #, (-4297911758076491) @ (-48)));
  (34%N, (#, #, #, (-302852298247679) @ (-44)));
  (37%N, (#, #, #, (-8292395461171265) @ (-49)));
  (39%N, (#, #, #, (-4650533185457697) @ (-48)));
  (41%N, (#, (-3817185134677383) @ (-48), (-571248877892569) @ (-45), (-8395033373076123) @ (-49)));
  (43%N, ((-2390739319964377) @ (-48), (-5545342727970905) @ (-49), (-635307085567833) @ (-46), (-5054282898035859) @ (-49)));
  (44%N, (#, #, #, (-8910859197905059) @ (-49)));
  (45%N, (#, #, #, (-302852298247679) @ (-44)));
  (47%N, ((-4331497877621075) @ (-48), (-491414177067389) @ (-45), (-6281741590972653) @ (-49), (-7477852487122849) @ (-49)));
  (49%N, ((-2390739319964377) @ (-48), (-5545342727970905) @ (-49), (-635307085567833) @ (-46), (-5054282898035859) @ (-49)));
  (50%N, ((-8359567700260433) @ (-49), (-8090883396801683) @ (-49), (-8197617090973557) @ (-49), (-7367903434101099) @ (-49)));
  (55%N, (#, #, #, (-302852298247679) @ (-44)));
  (56%N, ((-8684990982294891) @ (-50), (-5795433882681303) @ (-49), (-1179790017357455) @ (-47), (-279707435754117) @ (-45)));
  (57%N, ((-7773281289935475) @ (-49), (-5976798483181123) @ (-49), (-5326004274053277) @ (-49), (-5984365536293133) @ (-49)));
  (62%N, ((-2743584843528217) @ (-48), (-2776521970913253) @ (-48), (-7171623277416283) @ (-49), (-2932500974155015) @ (-48)));
  (66%N, (#, #, #, (-4650533185457697) @ (-48)));
  (68%N, (#, #, #, (-8205616343142647) @ (-49)));
  (70%N, (#, #, (-6813593430814783) @ (-49), (-3670651212387731) @ (-48)));
  (72%N, ((-7654324845498021) @ (-49), (-3760701355345663) @ (-48), (-1839692586196131) @ (-47), (-7435345513955431) @ (-49)));
  (73%N, (#, #, #, (-1994339944854797) @ (-47)));
  (74%N, ((-5812499350835641) @ (-49), (-2460396493259901) @ (-48), (-2562821440956843) @ (-48), (-6058205651400473) @ (-49)));
  (75%N, ((-3293170619185937) @ (-48), (-7385640542039271) @ (-49), (-1814363866276635) @ (-47), (-1672986475717779) @ (-47)));
  (76%N, ((-3341290961436923) @ (-48), #, #, (-6249576445556469) @ (-49)));
  (78%N, ((-2754048721818217) @ (-48), (-7310469050781013) @ (-49), (-3367522677618851) @ (-48), (-2805965485379183) @ (-48)));
  (79%N, (#, #, #, (-302852298247679) @ (-44)));
  (80%N, ((-2509445866925103) @ (-48), (-5068793679636201) @ (-49), (-2743584843528217) @ (-48), (-6155724998915685) @ (-49)));
  (81%N, (#, (-3312849679805319) @ (-48), (-1524847742807309) @ (-47), (-6118011084002939) @ (-49)));
  (83%N, ((-3190672362444803) @ (-48), #, (-4331497877621075) @ (-48), (-7231493078902567) @ (-49)));
  (84%N, ((-6778580078491437) @ (-49), (-5466929856306913) @ (-49), (-5197095132248997) @ (-49), (-1426393238893163) @ (-47)));
  (85%N, ((-3288188631134095) @ (-48), (-6838531672091105) @ (-49), (-5642219807525721) @ (-49), (-6225202510774343) @ (-49)));
  (86%N, (#, #, #, (-472560260360877) @ (-45)));
  (87%N, (#, #, #, (-8910859197905059) @ (-49)));
  (88%N, (#, #, #, (-8205616343142647) @ (-49)));
  (89%N, (#, #, #, (-8292395461171265) @ (-49)));
  (90%N, (#, #, #, (-239810366388671) @ (-44)));
  (93%N, (#, #, #, (-3888284818171165) @ (-48)));
  (96%N, ((-2011133004627089) @ (-47), #, #, (-8205616343142647) @ (-49)));
  (97%N, (#, #, #, (-4227173035229071) @ (-48)));
  (101%N, ((-6523620964550923) @ (-49), (-1537178267142921) @ (-47), (-742153595799079) @ (-46), (-6292254390791667) @ (-49)));
  (102%N, ((-2391310097922703) @ (-48), (-303757497396421) @ (-45), (-4643788081189059) @ (-49), (-70881326618687) @ (-42)));
  (103%N, ((-856769480328013) @ (-46), #, #, (-1969801887061797) @ (-47)));
  (105%N, (#, #, (-4331497877621075) @ (-48), (-8205616343142647) @ (-49)));
  (106%N, (#, #, #, (-302852298247679) @ (-44)));
  (107%N, ((-5338791752544005) @ (-49), (-1403391032882013) @ (-47), (-5579684462988887) @ (-49), (-2887007672517105) @ (-48)));
  (108%N, (#, #, #, (-302852298247679) @ (-44)));
  (109%N, ((-2146956065995973) @ (-47), (-8252834006088559) @ (-49), (-7862826752368233) @ (-49), (-1749038822580415) @ (-47)));
  (110%N, ((-1730723387525197) @ (-47), (-1578412539191041) @ (-47), (-7426068281774563) @ (-49), (-1544030019510545) @ (-47)));
  (112%N, ((-5312872415596729) @ (-49), (-3027163201483805) @ (-48), (-5589180229514097) @ (-49), (-636523324022931) @ (-46)));
  (113%N, ((-7924300488693565) @ (-49), #, (-7206819109466809) @ (-49), (-8033701757752085) @ (-49)));
  (115%N, ((-2340753984168589) @ (-48), (-74930906683829) @ (-43), (-2385813785908243) @ (-48), (-4752558586412767) @ (-49)));
  (116%N, (#, #, (-3638841694013343) @ (-48), (-8033701757752085) @ (-49)));
  (119%N, (#, #, #, (-8292395461171265) @ (-49)));
  (120%N, ((-2728990178625735) @ (-48), (-4999724239708303) @ (-49), (-643265895701829) @ (-46), (-302852298247679) @ (-44)));
  (121%N, ((-2510316537012599) @ (-48), (-5501224865288559) @ (-49), (-341310517322933) @ (-45), (-5537612776369661) @ (-49)));
  (122%N, ((-6087662422977705) @ (-49), (-626579899380591) @ (-46), (-5461785924301839) @ (-49), (-3100920119596695) @ (-48)));
  (123%N, ((-1814363866276635) @ (-47), (-3460130938885339) @ (-48), (-3005159387431689) @ (-48), (-6029684819594483) @ (-49)));
  (124%N, ((-6813593430814783) @ (-49), #, #, (-8205616343142647) @ (-49)));
  (125%N, (#, #, #, (-302852298247679) @ (-44)));
  (126%N, ((-2865377700546473) @ (-48), (-626579899380591) @ (-46), (-19650135478225) @ (-41), (-5670664386861227) @ (-49)));
  (127%N, ((-6384145476703523) @ (-49), (-84550343336025) @ (-43), (-5290905856727841) @ (-49), (-4881083610535353) @ (-49)));
  (128%N, ((-3093579294056553) @ (-48), (-7082212487057555) @ (-49), (-2749495674838789) @ (-48), (-7050279472141661) @ (-49)));
  (130%N, ((-7022614616343179) @ (-49), #, #, (-2061833855653683) @ (-47)));
  (131%N, (#, #, #, (-302852298247679) @ (-44)));
  (133%N, (#, #, #, (-70881326618687) @ (-42)));
  (134%N, (#, #, #, (-4650533185457697) @ (-48)));
  (135%N, (#, #, #, (-302852298247679) @ (-44)));
  (136%N, ((-609902861438431) @ (-45), (-4240545284906009) @ (-48), (-7924300488693565) @ (-49), (-3605255574468759) @ (-48)));
  (138%N, (#, (-6538920241582019) @ (-49), (-5711729167830771) @ (-49), (-6722838688041669) @ (-49)));
  (140%N, (#, #, #, (-8910859197905059) @ (-49)));
  (143%N, ((-6505916676772167) @ (-49), (-2789210315202571) @ (-48), (-5680710491320295) @ (-49), (-6324036692306445) @ (-49)));
  (145%N, (#, #, (-3704237331932315) @ (-48), (-8130444851884389) @ (-49)));
  (146%N, (#, #, #, (-8910859197905059) @ (-49)));
  (149%N, (#, #, #, (-8205616343142647) @ (-49)));
  (152%N, ((-8359567700260433) @ (-49), #, (-571248877892569) @ (-45), (-1848956007451337) @ (-47)));
  (153%N, (#, #, #, (-4650533185457697) @ (-48)));
  (154%N, ((-3200624534650297) @ (-48), (-1412762123656457) @ (-47), (-5131073309425685) @ (-49), (-6649836563450353) @ (-49)));
  (155%N, ((-7862826752368233) @ (-49), (-3125675490238271) @ (-48), (-5884555610156441) @ (-49), (-6275053641683009) @ (-49)));
  (156%N, ((-1758965277191057) @ (-47), (-1408669307301121) @ (-47), (-2626476460972659) @ (-48), (-5422571264785371) @ (-49)));
  (157%N, ((-6045351449903179) @ (-49), (-3357982123500955) @ (-48), (-3134506239141279) @ (-48), (-5856883838250957) @ (-49)));
  (160%N, ((-5484891687171399) @ (-49), (-5976798483181123) @ (-49), (-2711146088912653) @ (-48), (-5839786430116141) @ (-49)));
  (163%N, (#, #, #, (-302852298247679) @ (-44)));
  (165%N, (#, #, #, (-6411527054843345) @ (-49)));
  (166%N, (#, #, (-4331497877621075) @ (-48), (-4048158111928321) @ (-48)));
  (168%N, ((-2787497988513035) @ (-48), (-5262690091597035) @ (-49), #, (-399697567377715) @ (-45)));
  (169%N, ((-1814363866276635) @ (-47), (-3460130938885339) @ (-48), (-3005159387431689) @ (-48), (-302852298247679) @ (-44)));
  (173%N, (#, #, #, (-2130163006223681) @ (-47)));
  (178%N, (#, #, #, (-7500373488380235) @ (-49)));
  (179%N, ((-828507539730495) @ (-46), (-1925169055947837) @ (-47), (-6248784555362411) @ (-49), (-1490004489982733) @ (-47)));
  (180%N, (#, #, #, (-4650533185457697) @ (-48)));
  (181%N, (#, #, #, (-7643494584741751) @ (-49)));
  (185%N, (#, #, #, (-302852298247679) @ (-44)));
  (186%N, ((-609902861438431) @ (-45), (-8252834006088559) @ (-49), (-6457514885832195) @ (-49), (-1745563646303515) @ (-47)));
  (187%N, ((-2017999609788739) @ (-47), #, (-1975763643203379) @ (-47), (-6863080238721081) @ (-49)));
  (189%N, ((-1263266733695005) @ (-47), (-5288261600714309) @ (-49), (-164066773694575) @ (-44), (-302852298247679) @ (-44)));
  (190%N, ((-903159767337213) @ (-46), #, #, (-3951094144080465) @ (-48)));
  (191%N, ((-6351422467267269) @ (-49), (-6118275928875963) @ (-49), (-3582982720657843) @ (-48), (-1621971488540869) @ (-47)));
  (192%N, ((-6356745910751309) @ (-49), #, (-8462205612165291) @ (-49), (-6316973237614355) @ (-49)));
  (193%N, (#, (-8871297742822353) @ (-49), #, (-3460785255448521) @ (-48)));
  (194%N, ((-6363471796652225) @ (-49), (-1444166786611107) @ (-47), (-2485700465248977) @ (-48), (-2753911868968451) @ (-48)));
  (195%N, ((-3569249510334543) @ (-48), #, #, (-3688528646784237) @ (-48)));
  (198%N, ((-7097163030666307) @ (-49), (-7346801008249289) @ (-49), (-7284590836079723) @ (-49), (-4048158111928321) @ (-48)));
  (199%N, (#, #, #, (-4297911758076491) @ (-48)));
  (201%N, ((-8684990982294891) @ (-50), (-5795433882681303) @ (-49), (-1179790017357455) @ (-47), (-279707435754117) @ (-45)));
  (202%N, ((-7502517753044599) @ (-49), #, (-7194840999001983) @ (-49), (-6938251729979339) @ (-49)));
  (204%N, ((-571248877892569) @ (-45), #, #, (-70881326618687) @ (-42)));
  (205%N, ((-7435075673190267) @ (-49), (-7082212487057555) @ (-49), (-7435075673190267) @ (-49), (-3517497412055821) @ (-48)));
  (207%N, (#, #, (-3704237331932315) @ (-48), (-8130444851884389) @ (-49)));
  (209%N, (#, #, #, (-472560260360877) @ (-45)));
  (216%N, ((-5812499350835641) @ (-49), (-2460396493259901) @ (-48), (-2562821440956843) @ (-48), (-6058205651400473) @ (-49)));
  (218%N, ((-8978031436994227) @ (-49), #, #, (-1372766765036657) @ (-47)));
  (220%N, (#, #, #, (-8166776809352665) @ (-49)));
  (222%N, (#, #, #, (-2130163006223681) @ (-47)));
  (223%N, ((-2986632311820945) @ (-48), (-5193101620843089) @ (-49), (-2603707655211571) @ (-48), (-2912181089436575) @ (-48)));
  (224%N, (#, #, (-8978031436994227) @ (-49), (-8395033373076123) @ (-49)));
  (225%N, (#, #, #, (-4650533185457697) @ (-48)));
  (226%N, (#, #, #, (-8166776809352665) @ (-49)));
  (227%N, ((-2807001143048011) @ (-48), (-1291877144868539) @ (-47), (-1100594249734689) @ (-47), (-4826125681344057) @ (-49)));
  (229%N, ((-688364269219481) @ (-46), (-3100069211086487) @ (-48), (-6237853144833625) @ (-49), (-5775086610730313) @ (-49)));
  (231%N, ((-394179507271553) @ (-45), (-4240545284906009) @ (-48), (-4260759154773655) @ (-48), (-6909376172293041) @ (-49)));
  (232%N, ((-4416382602295363) @ (-49), (-5089509902665295) @ (-49), (-4634489185211525) @ (-49), (-2610460937300927) @ (-48)));
  (234%N, ((-5668327778632459) @ (-50), (-6557668555610709) @ (-50), (-8237100885861835) @ (-50), (-7663214468698779) @ (-50)));
  (236%N, (#, #, (-2146956065995973) @ (-47), (-7489000375236853) @ (-49)));
  (237%N, ((-1428999298496615) @ (-47), (-3195267673917071) @ (-48), (-6294765199117437) @ (-49), (-5463277012038731) @ (-49)));
  (238%N, (#, #, #, (-70881326618687) @ (-42)));
  (243%N, ((-8428819599502987) @ (-50), (-4375103777730309) @ (-49), (-2028199838557589) @ (-48), (-1837996022737529) @ (-48)));
  (244%N, ((-2340617610630693) @ (-48), (-4801260339418511) @ (-49), (-4145873867311867) @ (-49), (-2537229062841849) @ (-48)));
  (250%N, (#, #, #, (-7358896042685395) @ (-49)));
  (251%N, ((-609902861438431) @ (-45), (-3227991900135919) @ (-48), (-3217779311456757) @ (-48), (-208289400459167) @ (-44)));
  (252%N, ((-7149325314970619) @ (-49), (-3469067403004029) @ (-48), (-3486270816616625) @ (-48), (-6796774284284499) @ (-49)));
  (253%N, (#, #, #, (-6271157778706001) @ (-49)));
  (254%N, (#, (-7310469050781013) @ (-49), (-6714478686130389) @ (-49), (-4297911758076491) @ (-48)));
  (255%N, (#, #, #, (-271331332318175) @ (-44)))].

(** prob_emit.py, characters 0x8200 to 0x82ff *)
Definition emit_82 : list (N * num4) := [
  (0%N, ((-609902861438431) @ (-45), #, (-4331497877621075) @ (-48), (-1637011139242251) @ (-47)));
  (1%N, (#, #, #, (-4297911758076491) @ (-48)));
  (2%N, (#, (-4240545284906009) @ (-48), (-571248877892569) @ (-45), (-6373019742929881) @ (-49)));
  (3%N, (#, #, #, (-1848956007451337) @ (-47)));
  (4%N, (#, (-1925169055947837) @ (-47), #, (-8395033373076123) @ (-49)));
  (5%N, ((-1484624883580363) @ (-47), (-1578412539191041) @ (-47), (-2937407378623451) @ (-48), (-6351716391968069) @ (-49)));
  (6%N, ((-5470859306779715) @ (-49), (-8252834006088559) @ (-49), (-1839692586196131) @ (-47), (-5781557371092637) @ (-49)));
  (7%N, ((-2351883676233051) @ (-48), (-2377160333275039) @ (-48), (-4703909278586461) @ (-49), (-183877039306945) @ (-45)));
  (8%N, ((-8490259231608715) @ (-50), (-4023401376602801) @ (-49), (-8610288766153959) @ (-50), (-4982211832393161) @ (-49)));
  (9%N, ((-3972555412520677) @ (-49), (-8871301936604697) @ (-50), (-15781135714283) @ (-41), (-4392620273043229) @ (-48)));
  (10%N, ((-4925709073745557) @ (-49), (-5797824331935229) @ (-49), (-613626849418123) @ (-46), (-4735555449693377) @ (-49)));
  (12%N, ((-716785609930865) @ (-46), (-5423407513198177) @ (-49), (-5868600494960193) @ (-49), (-5662704239181335) @ (-49)));
  (13%N, ((-660091247802449) @ (-46), (-695500720191971) @ (-46), (-5140550290527903) @ (-49), (-697874403649395) @ (-46)));
  (14%N, (#, #, #, (-302852298247679) @ (-44)));
  (16%N, ((-546860929579423) @ (-45), (-8871297742822353) @ (-49), #, (-6859388750389055) @ (-49)));
  (18%N, ((-5039894100394917) @ (-49), (-2579486496407671) @ (-48), (-6378557838240453) @ (-49), (-6202985610806041) @ (-49)));
  (19%N, (#, #, #, (-4297911758076491) @ (-48)));
  (20%N, ((-546860929579423) @ (-45), #, #, (-1601641777818541) @ (-47)));
  (22%N, (#, #, #, (-271331332318175) @ (-44)));
  (23%N, (#, #, #, (-302852298247679) @ (-44)));
  (27%N, ((-8978031436994227) @ (-49), #, (-2146956065995973) @ (-47), (-1783406489466885) @ (-47)));
  (28%N, ((-6890919344730931) @ (-49), (-2780425986017795) @ (-48), (-3280396438671863) @ (-48), (-6351716391968069) @ (-49)));
  (30%N, ((-4804846434051415) @ (-49), (-310542282822871) @ (-45), (-4950561000358693) @ (-49), (-5238213476463121) @ (-49)));
  (31%N, ((-3061803803079203) @ (-48), (-5990123364511777) @ (-49), (-5424330007936263) @ (-49), (-2905530626539053) @ (-48)));
  (32%N, (#, #, #, (-302852298247679) @ (-44)));
  (33%N, (#, #, #, (-8130444851884389) @ (-49)));
  (34%N, ((-3476462333727023) @ (-48), #, (-8462205612165291) @ (-49), #));
  (35%N, (#, #, #, (-4297911758076491) @ (-48)));
  (37%N, (#, #, #, (-1848956007451337) @ (-47)));
  (40%N, (#, #, (-3984680263625049) @ (-48), (-3951094144080465) @ (-48)));
  (42%N, ((-2032113832497165) @ (-48), (-8986995421852541) @ (-50), (-4871662076122109) @ (-49), (-2881706668823655) @ (-48)));
  (43%N, (#, (-8090883396801683) @ (-49), (-1795778112687613) @ (-47), (-3733460538297031) @ (-48)));
  (44%N, ((-2627702522451237) @ (-48), (-4904387985980981) @ (-49), (-7752130113249399) @ (-50), (-2564705908680647) @ (-48)));
  (45%N, (#, #, #, (-4227173035229071) @ (-48)));
  (47%N, (#, #, #, (-976926146266539) @ (-46)));
  (48%N, ((-4990792894675355) @ (-49), (-5376172276819233) @ (-49), (-4901303031551631) @ (-49), (-5081451382738261) @ (-49)));
  (49%N, ((-6087662422977705) @ (-49), (-8252834006088559) @ (-49), (-1386596820877129) @ (-47), (-5644556928741603) @ (-49)));
  (50%N, (#, #, #, (-4650533185457697) @ (-48)));
  (51%N, ((-4260759154773655) @ (-48), #, #, (-1969801887061797) @ (-47)));
  (52%N, ((-4684119305002281) @ (-48), #, #, (-239810366388671) @ (-44)));
  (53%N, ((-3068059059988117) @ (-48), (-6404436052941743) @ (-49), (-3258236148826385) @ (-48), (-5735746899250011) @ (-49)));
  (54%N, ((-2078626915425975) @ (-47), (-6463748750323761) @ (-49), (-5533538995181627) @ (-49), (-7121773942140261) @ (-49)));
  (55%N, ((-7313100723111123) @ (-49), #, (-1729812462090333) @ (-47), (-6800076053007037) @ (-49)));
  (56%N, (#, (-1925169055947837) @ (-47), (-7615485311708039) @ (-49), (-7835882333724349) @ (-49)));
  (57%N, ((-4592201268044019) @ (-49), (-2659564771001225) @ (-48), (-1160025190426213) @ (-47), (-4644814550274923) @ (-49)));
  (58%N, (#, #, #, (-4297911758076491) @ (-48)));
  (59%N, (#, #, (-4260759154773655) @ (-48), (-1848956007451337) @ (-47)));
  (62%N, ((-2146956065995973) @ (-47), (-8871297742822353) @ (-49), #, (-3767970024052643) @ (-48)));
  (68%N, ((-7097163030666307) @ (-49), #, #, (-7060704769219635) @ (-49)));
  (71%N, ((-7399879841139741) @ (-49), (-3817185134677383) @ (-48), (-2397165780344039) @ (-48), (-2916901954423221) @ (-48)));
  (72%N, (#, #, (-609902861438431) @ (-45), #));
  (73%N, (#, #, #, (-7425201997121977) @ (-49)));
  (75%N, (#, #, (-4684119305002281) @ (-48), (-7689790518313711) @ (-49)));
  (76%N, (#, #, #, (-7600718321947853) @ (-49)));
  (77%N, (#, #, #, (-4650533185457697) @ (-48)));
  (78%N, (#, #, #, (-302852298247679) @ (-44)));
  (79%N, (#, #, #, (-943539134077359) @ (-46)));
  (80%N, (#, #, #, (-302852298247679) @ (-44)));
  (84%N, (#, #, #, (-4048158111928321) @ (-48)));
  (88%N, ((-4684119305002281) @ (-48), (-8871297742822353) @ (-49), (-5417481692464459) @ (-49), (-2568218501531825) @ (-48)));
  (89%N, ((-6087662422977705) @ (-49), (-8252834006088559) @ (-49), (-1386596820877129) @ (-47), (-5644556928741603) @ (-49)));
  (90%N, (#, #, #, (-3888284818171165) @ (-48)));
  (93%N, (#, #, #, (-302852298247679) @ (-44)));
  (95%N, (#, #, (-8197617090973557) @ (-49), (-2061833855653683) @ (-47)));
  (100%N, (#, #, #, (-4297911758076491) @ (-48)));
  (102%N, ((-4990792894675355) @ (-49), (-5376172276819233) @ (-49), (-4901303031551631) @ (-49), (-5081451382738261) @ (-49)));
  (104%N, ((-8197617090973557) @ (-49), #, #, (-3951094144080465) @ (-48)));
  (107%N, (#, #, (-4260759154773655) @ (-48), (-1848956007451337) @ (-47)));
  (110%N, ((-4684119305002281) @ (-48), (-6166874319454763) @ (-49), (-7092203087097125) @ (-49), (-1749038822580415) @ (-47)));
  (111%N, ((-4522189328774481) @ (-49), (-4234456124055371) @ (-49), (-8764603145745203) @ (-50), (-712138422901341) @ (-46)));
  (112%N, ((-4995538549362229) @ (-49), (-6657876686019473) @ (-49), (-1794334638614767) @ (-47), (-855160738236529) @ (-46)));
  (113%N, ((-4995538549362229) @ (-49), (-6657876686019473) @ (-49), (-1794334638614767) @ (-47), (-302852298247679) @ (-44)));
  (114%N, ((-4790842190300971) @ (-49), (-7913257818919411) @ (-50), (-7092038613682931) @ (-50), (-2357275412583249) @ (-48)));
  (115%N, ((-1495704485755307) @ (-47), (-4306548651591167) @ (-49), (-1256189774981879) @ (-47), (-5967514075396261) @ (-49)));
  (116%N, (#, #, #, (-302852298247679) @ (-44)));
  (119%N, ((-1495704485755307) @ (-47), (-4306548651591167) @ (-49), (-1256189774981879) @ (-47), (-5967514075396261) @ (-49)));
  (121%N, (#, #, #, (-7231493078902567) @ (-49)));
  (122%N, ((-8532903322231115) @ (-50), (-4182660640854949) @ (-49), (-4473574709319739) @ (-49), (-5810490020199643) @ (-49)));
  (123%N, (#, #, #, (-302852298247679) @ (-44)));
  (125%N, (#, (-4240545284906009) @ (-48), (-4260759154773655) @ (-48), (-886648957992025) @ (-46)));
  (126%N, ((-1277963007854327) @ (-47), (-5396939178979595) @ (-49), (-6311788741076455) @ (-49), (-754558428900121) @ (-46)));
  (127%N, (#, #, (-4204275375441935) @ (-48), (-6622611700393137) @ (-49)));
  (130%N, ((-8848547102575289) @ (-50), (-4792758236771807) @ (-49), (-4109120658338819) @ (-49), (-614615810136083) @ (-46)));
  (131%N, (#, #, (-4204275375441935) @ (-48), #));
  (132%N, (#, (-8871297742822353) @ (-49), #, (-7275959601375213) @ (-49)));
  (136%N, (#, #, #, (-3767970024052643) @ (-48)));
  (137%N, (#, #, #, (-7614619027055453) @ (-49)));
  (138%N, ((-609902861438431) @ (-45), (-3469067403004029) @ (-48), (-7725679712283649) @ (-49), (-7151885394841985) @ (-49)));
  (139%N, ((-7435075673190267) @ (-49), (-1925169055947837) @ (-47), (-5901571547201499) @ (-49), (-3535663390789959) @ (-48)));
  (141%N, ((-3408305968228237) @ (-48), #, (-7556172614326021) @ (-49), (-7367903434101099) @ (-49)));
  (142%N, (#, #, (-1947521753537519) @ (-47), (-7358896042685395) @ (-49)));
  (143%N, (#, (-8871297742822353) @ (-49), (-609902861438431) @ (-45), (-456223959081461) @ (-45)));
  (144%N, ((-4684119305002281) @ (-48), (-8871297742822353) @ (-49), (-3921870937715749) @ (-48), (-7170756992763697) @ (-49)));
  (145%N, (#, #, (-571248877892569) @ (-45), (-1893476528496951) @ (-47)));
  (146%N, ((-6566586581518627) @ (-49), (-3107509511504133) @ (-48), (-1359178593589567) @ (-47), (-1508903780562939) @ (-47)));
  (147%N, (#, #, #, (-4392620273043229) @ (-48)));
  (148%N, (#, #, #, (-302852298247679) @ (-44)));
  (151%N, ((-8272788582231815) @ (-49), #, #, (-3605255574468759) @ (-48)));
  (152%N, (#, #, (-2017999609788739) @ (-47), (-4048158111928321) @ (-48)));
  (153%N, ((-5725502330751497) @ (-49), (-5954212934546103) @ (-49), (-3695707134388909) @ (-48), (-5297411414910195) @ (-49)));
  (154%N, (#, #, #, (-302852298247679) @ (-44)));
  (156%N, ((-6434022605716583) @ (-49), (-6838531672091105) @ (-49), (-817970144945989) @ (-46), (-6224011081856777) @ (-49)));
  (157%N, ((-5856374052911547) @ (-49), (-349059228719007) @ (-45), (-350563774724253) @ (-45), (-1503884378264443) @ (-47)));
  (159%N, ((-4260759154773655) @ (-48), #, #, (-3510057111638175) @ (-48)));
  (160%N, (#, #, #, (-7926147221115621) @ (-49)));
  (161%N, ((-8018343577873535) @ (-49), #, (-571248877892569) @ (-45), (-906660926466427) @ (-46)));
  (163%N, (#, #, #, (-4650533185457697) @ (-48)));
  (164%N, ((-4684119305002281) @ (-48), #, #, (-897148847068159) @ (-46)));
  (165%N, ((-6770156730015033) @ (-49), (-1925169055947837) @ (-47), (-7343131840464381) @ (-49), (-1521362620456101) @ (-47)));
  (166%N, ((-5353674310679767) @ (-49), (-6114059055574939) @ (-49), (-5804922521070655) @ (-49), (-3452684697072041) @ (-48)));
  (168%N, ((-2146956065995973) @ (-47), (-1925169055947837) @ (-47), (-571248877892569) @ (-45), (-7283724551427137) @ (-49)));
  (169%N, (#, (-7575057571972747) @ (-49), (-3756423699901591) @ (-48), (-1893476528496951) @ (-47)));
  (170%N, (#, #, (-7072789095884181) @ (-49), (-897148847068159) @ (-46)));
  (171%N, ((-3855333411915459) @ (-48), #, #, (-1848956007451337) @ (-47)));
  (172%N, ((-180954905704047) @ (-44), (-5336804399533481) @ (-49), (-5122648460207631) @ (-49), (-6456448725461755) @ (-49)));
  (173%N, ((-6022739978584783) @ (-49), (-428372245208381) @ (-45), #, (-7121773942140261) @ (-49)));
  (174%N, ((-1676738964413993) @ (-47), (-7131195537680991) @ (-49), (-7435075673190267) @ (-49), (-7600718321947853) @ (-49)));
  (175%N, ((-5800922859816701) @ (-49), (-6246014922008839) @ (-49), (-6545628325304225) @ (-49), (-5861865728758931) @ (-49)));
  (176%N, (#, (-8871297742822353) @ (-49), #, (-815400562512599) @ (-46)));
  (177%N, ((-8299730061926389) @ (-50), (-7837096259597913) @ (-50), (-244016055951197) @ (-45), (-8742630428567907) @ (-50)));
  (178%N, (#, #, #, (-1994339944854797) @ (-47)));
  (179%N, ((-5904558026107103) @ (-49), (-4580394909700665) @ (-49), (-2302397744341615) @ (-48), (-735932346265983) @ (-46)));
  (180%N, ((-609902861438431) @ (-45), #, #, (-7706109050846307) @ (-49)));
  (181%N, (#, #, #, (-4297911758076491) @ (-48)));
  (183%N, ((-7194840999001983) @ (-49), (-2516600170093921) @ (-48), (-1544094852127073) @ (-47), (-6820303975927183) @ (-49)));
  (184%N, ((-3478396877264481) @ (-48), (-3054936767390851) @ (-48), (-6212452597894135) @ (-49), (-397263376169705) @ (-45)));
  (185%N, ((-6926560989478223) @ (-49), (-6657876686019473) @ (-49), (-5906958669205309) @ (-49), (-456223959081461) @ (-45)));
  (186%N, (#, #, #, (-70881326618687) @ (-42)));
  (187%N, ((-2011133004627089) @ (-47), (-7385640542039271) @ (-49), (-7545024726212017) @ (-49), (-7245928484021955) @ (-49)));
  (188%N, (#, #, #, (-302852298247679) @ (-44)));
  (189%N, ((-3442027008155403) @ (-48), (-5802635899289761) @ (-49), (-723210892859449) @ (-46), (-3098640957535047) @ (-48)));
  (190%N, (#, #, (-3276579770341245) @ (-48), (-3630371905756697) @ (-48)));
  (193%N, ((-546860929579423) @ (-45), (-7082212487057555) @ (-49), (-546860929579423) @ (-45), (-7055467987703679) @ (-49)));
  (196%N, ((-4684119305002281) @ (-48), (-8871297742822353) @ (-49), (-3921870937715749) @ (-48), (-7170756992763697) @ (-49)));
  (199%N, ((-6162952367672155) @ (-49), (-6794643225952077) @ (-49), (-3010632177659691) @ (-48), (-6973174550407917) @ (-49)));
  (200%N, (#, (-1925169055947837) @ (-47), (-609902861438431) @ (-45), (-7628871685880939) @ (-49)));
  (202%N, (#, #, (-609902861438431) @ (-45), (-1930728693765227) @ (-47)));
  (203%N, ((-7615485311708039) @ (-49), #, (-7773281289935475) @ (-49), (-7217418596990555) @ (-49)));
  (204%N, ((-609902861438431) @ (-45), (-6376969632295143) @ (-49), (-7013953676999103) @ (-49), (-7245928484021955) @ (-49)));
  (205%N, ((-5237360828624687) @ (-49), (-5817322383168251) @ (-49), (-412537118574835) @ (-45), (-3211636541784881) @ (-48)));
  (206%N, ((-7040346789497085) @ (-49), #, #, (-7523833130877875) @ (-49)));
  (207%N, ((-8002047133672031) @ (-50), (-4463160006001349) @ (-49), (-310769675655823) @ (-45), (-5040883953572035) @ (-49)));
  (209%N, ((-6656935875530257) @ (-49), (-6411517277799191) @ (-49), (-2743299661156597) @ (-48), (-192935565585839) @ (-44)));
  (210%N, (#, #, (-3756423699901591) @ (-48), (-8292395461171265) @ (-49)));
  (211%N, ((-609902861438431) @ (-45), (-3817185134677383) @ (-48), (-6158233564238699) @ (-49), (-1994339944854797) @ (-47)));
  (212%N, ((-1638764548313161) @ (-47), (-105327943197979) @ (-43), (-3325069808243375) @ (-48), (-6111151730777221) @ (-49)));
  (213%N, ((-546860929579423) @ (-45), (-4240545284906009) @ (-48), (-7924300488693565) @ (-49), (-5741273449201951) @ (-49)));
  (214%N, (#, #, #, (-4650533185457697) @ (-48)));
  (215%N, ((-1289362361441867) @ (-47), (-1179849461530375) @ (-47), (-157666703882731) @ (-44), (-5695708749066645) @ (-49)));
  (216%N, ((-2146956065995973) @ (-47), #, #, (-4297911758076491) @ (-48)));
  (219%N, ((-3142043609586069) @ (-48), #, (-1975763643203379) @ (-47), (-6539642162874743) @ (-49)));
  (220%N, ((-7313100723111123) @ (-49), (-491414177067389) @ (-45), #, (-271331332318175) @ (-44)));
  (222%N, ((-222100499235933) @ (-44), (-3478296917619477) @ (-48), (-3663958025301281) @ (-48), (-3245851289318053) @ (-48)));
  (223%N, ((-1544094852127073) @ (-47), (-6235492186600303) @ (-49), (-3486270816616625) @ (-48), (-3229125083424967) @ (-48)));
  (224%N, (#, (-8871297742822353) @ (-49), (-609902861438431) @ (-45), #));
  (225%N, (#, (-8871297742822353) @ (-49), (-1998329865051197) @ (-47), (-906660926466427) @ (-46)));
  (226%N, (#, #, #, (-4650533185457697) @ (-48)));
  (227%N, ((-609902861438431) @ (-45), (-8090883396801683) @ (-49), (-7667890561037021) @ (-49), (-3688528646784237) @ (-48)));
  (228%N, ((-609902861438431) @ (-45), #, #, (-3605255574468759) @ (-48)));
  (229%N, ((-2269969796133425) @ (-48), (-2165478534571423) @ (-48), (-2354270732301103) @ (-48), (-2103797855653913) @ (-48)));
  (230%N, ((-4763916352540889) @ (-49), (-2319349080161533) @ (-48), (-1131553064745887) @ (-47), (-4919970093989965) @ (-49)));
  (231%N, ((-7040346789497085) @ (-49), (-3817185134677383) @ (-48), #, (-7523833130877875) @ (-49)));
  (235%N, ((-8359567700260433) @ (-49), #, (-571248877892569) @ (-45), (-3306514671084387) @ (-48)));
  (237%N, (#, #, #, (-70881326618687) @ (-42)));
  (239%N, ((-6086833946075535) @ (-49), (-5568769823424139) @ (-49), (-6144309937249403) @ (-49), (-1439937327069859) @ (-47)));
  (240%N, (#, #, #, (-8910859197905059) @ (-49)));
  (241%N, ((-7608284734317209) @ (-50), (-7989092617647271) @ (-50), (-4316655175778659) @ (-49), (-4662290469977283) @ (-49)));
  (242%N, (#, #, #, (-302852298247679) @ (-44)));
  (244%N, (#, #, (-4684119305002281) @ (-48), (-7358896042685395) @ (-49)));
  (247%N, (#, (-5990123364511777) @ (-49), (-3582982720657843) @ (-48), (-6578481696664725) @ (-49)));
  (248%N, (#, #, #, (-3670651212387731) @ (-48)));
  (249%N, ((-1403143596092655) @ (-47), (-6808895884777563) @ (-49), (-7054022359647307) @ (-49), (-7082153075881451) @ (-49)));
  (250%N, (#, #, #, (-2061833855653683) @ (-47)));
  (251%N, ((-4331497877621075) @ (-48), (-7015906532620973) @ (-49), #, (-3224650029281801) @ (-48)));
  (253%N, (#, #, #, (-70881326618687) @ (-42)));
  (254%N, (#, #, (-4260759154773655) @ (-48), (-4170689255897351) @ (-48)))].

(** prob_emit.py, characters 0x8300 to 0x83ff *)
Definition emit_83 : list (N * num4) := [
  (1%N, ((-7250871180066637) @ (-49), #, (-2146956065995973) @ (-47), (-2001206550016447) @ (-47)));
  (2%N, ((-3014714285782607) @ (-48), (-4691528454839639) @ (-49), (-2780742923878755) @ (-48), (-1589430312101649) @ (-47)));
  (3%N, ((-8322667937477911) @ (-50), (-7625319677711615) @ (-50), (-4602182911696889) @ (-49), (-2949349154358833) @ (-48)));
  (4%N, ((-6360771791699891) @ (-49), (-3278540746232549) @ (-48), (-412537118574835) @ (-45), (-6752474475355211) @ (-49)));
  (5%N, ((-331137575412545) @ (-45), (-5388771886143051) @ (-49), (-1525271651225255) @ (-47), (-187084470253397) @ (-44)));
  (6%N, ((-8197617090973557) @ (-49), (-3982632372491541) @ (-48), (-571248877892569) @ (-45), (-4227173035229071) @ (-48)));
  (7%N, (#, #, #, (-70881326618687) @ (-42)));
  (8%N, (#, #, #, (-4650533185457697) @ (-48)));
  (9%N, ((-1695354026101487) @ (-47), (-6235492186600303) @ (-49), (-8233949048441833) @ (-49), (-108816228894371) @ (-43)));
  (11%N, (#, #, #, (-302852298247679) @ (-44)));
  (12%N, ((-8978031436994227) @ (-49), #, #, (-8395033373076123) @ (-49)));
  (14%N, ((-7399879841139741) @ (-49), (-7346801008249289) @ (-49), (-3002283500582821) @ (-48), (-5638635537297093) @ (-49)));
  (15%N, (#, (-7575057571972747) @ (-49), (-3761685067605859) @ (-48), (-456223959081461) @ (-45)));
  (16%N, (#, #, #, (-3870118839437027) @ (-48)));
  (17%N, (#, #, #, (-4392620273043229) @ (-48)));
  (19%N, (#, #, #, (-7600718321947853) @ (-49)));
  (20%N, (#, #, (-3855333411915459) @ (-48), (-8292395461171265) @ (-49)));
  (21%N, (#, #, #, (-2001206550016447) @ (-47)));
  (23%N, ((-609902861438431) @ (-45), (-105327943197979) @ (-43), (-3470737221580077) @ (-48), (-3326189051272823) @ (-48)));
  (26%N, ((-4426206392587813) @ (-48), #, #, (-1877995278787649) @ (-47)));
  (27%N, (#, #, (-7696043924970107) @ (-49), (-4392620273043229) @ (-48)));
  (28%N, ((-7862826752368233) @ (-49), (-6114059055574939) @ (-49), (-6278241372732173) @ (-49), (-1742172217418765) @ (-47)));
  (29%N, (#, #, #, (-4650533185457697) @ (-48)));
  (31%N, (#, #, #, (-302852298247679) @ (-44)));
  (36%N, (#, #, #, (-7689790518313711) @ (-49)));
  (39%N, ((-7298665317991735) @ (-49), (-6487707683278451) @ (-49), (-3375489482355113) @ (-48), (-3224650029281801) @ (-48)));
  (40%N, ((-7567545727469403) @ (-49), (-2600257191392581) @ (-48), (-5826921547368603) @ (-49), (-6105338082344209) @ (-49)));
  (43%N, ((-5689633516010637) @ (-49), (-2964731948131965) @ (-48), (-2846662502171331) @ (-48), (-6463689339147657) @ (-49)));
  (44%N, ((-2017999609788739) @ (-47), (-1764807936785953) @ (-47), (-420777065861407) @ (-45), (-1540788321760587) @ (-47)));
  (45%N, ((-3855333411915459) @ (-48), (-8871297742822353) @ (-49), (-4684119305002281) @ (-48), (-7951171338784367) @ (-49)));
  (47%N, ((-6352748616180713) @ (-49), (-3982632372491541) @ (-48), #, (-2130163006223681) @ (-47)));
  (49%N, ((-1947521753537519) @ (-47), (-1725734743489383) @ (-47), #, (-7951171338784367) @ (-49)));
  (50%N, ((-1814363866276635) @ (-47), (-4964299827097909) @ (-49), (-5590892886610603) @ (-49), (-3091912151609537) @ (-48)));
  (51%N, (#, (-8871297742822353) @ (-49), #, #));
  (52%N, ((-1910269588269243) @ (-47), (-3760701355345663) @ (-48), #, (-3951094144080465) @ (-48)));
  (53%N, ((-7696043924970107) @ (-49), (-5647369070067195) @ (-49), (-1575803155951081) @ (-47), (-7145732875094951) @ (-49)));
  (54%N, ((-4794498261889599) @ (-49), (-43251861075093) @ (-42), (-4991738830547445) @ (-49), (-8958014611412937) @ (-50)));
  (56%N, ((-7435075673190267) @ (-49), (-6135466576150635) @ (-49), (-3293170619185937) @ (-48), (-192732576571671) @ (-44)));
  (57%N, ((-1652749980689287) @ (-47), (-747927687525045) @ (-46), (-3034855886607997) @ (-48), (-7435345513955431) @ (-49)));
  (58%N, (#, #, #, (-4392620273043229) @ (-48)));
  (60%N, ((-4260759154773655) @ (-48), #, #, (-70881326618687) @ (-42)));
  (64%N, ((-6405607413289761) @ (-49), (-7310469050781013) @ (-49), (-1986594946834089) @ (-47), (-3543822657056257) @ (-48)));
  (66%N, (#, #, #, (-302852298247679) @ (-44)));
  (67%N, ((-609902861438431) @ (-45), (-3357982123500955) @ (-48), (-6020527991638953) @ (-49), (-6421579999726895) @ (-49)));
  (68%N, (#, #, #, (-302852298247679) @ (-44)));
  (69%N, (#, #, #, (-302852298247679) @ (-44)));
  (70%N, ((-8105409328907411) @ (-50), (-6065776627261503) @ (-49), (-3367522677618851) @ (-48), (-5247797607970439) @ (-49)));
  (71%N, (#, (-8090883396801683) @ (-49), (-4684119305002281) @ (-48), (-8130444851884389) @ (-49)));
  (72%N, (#, #, #, (-4650533185457697) @ (-48)));
  (73%N, ((-8989612241332615) @ (-50), (-1157250583699777) @ (-47), (-1185235482267899) @ (-47), (-4801533711233473) @ (-49)));
  (74%N, ((-8105409328907411) @ (-50), (-6065776627261503) @ (-49), (-3367522677618851) @ (-48), (-5247797607970439) @ (-49)));
  (79%N, ((-1975763643203379) @ (-47), (-7131195537680991) @ (-49), (-2078626915425975) @ (-47), (-8910859197905059) @ (-49)));
  (80%N, ((-1870602565026865) @ (-47), (-6185641055691637) @ (-49), (-2510815274643345) @ (-48), (-6303106774163249) @ (-49)));
  (81%N, (#, (-8871297742822353) @ (-49), (-8978031436994227) @ (-49), (-7926147221115621) @ (-49)));
  (82%N, ((-2492341376897669) @ (-48), (-1419859635331521) @ (-47), (-2730620347140059) @ (-48), (-2890236866367061) @ (-48)));
  (84%N, ((-1634549133704593) @ (-47), (-101243867878125) @ (-43), (-7206819109466809) @ (-49), (-3702723670134365) @ (-48)));
  (86%N, (#, #, #, (-2130163006223681) @ (-47)));
  (87%N, (#, #, #, (-302852298247679) @ (-44)));
  (88%N, (#, #, #, (-302852298247679) @ (-44)));
  (89%N, (#, #, #, (-4650533185457697) @ (-48)));
  (90%N, ((-238379262651975) @ (-44), (-491414177067389) @ (-45), (-3695707134388909) @ (-48), (-6878093127173811) @ (-49)));
  (91%N, (#, #, (-8978031436994227) @ (-49), (-302852298247679) @ (-44)));
  (92%N, (#, (-3982632372491541) @ (-48), (-4426206392587813) @ (-48), (-2130163006223681) @ (-47)));
  (93%N, (#, #, #, (-8130444851884389) @ (-49)));
  (94%N, ((-3423861029421265) @ (-48), #, (-8978031436994227) @ (-49), (-7643494584741751) @ (-49)));
  (95%N, ((-6964612629572873) @ (-49), (-6869814717210335) @ (-49), (-903159767337213) @ (-46), (-3951094144080465) @ (-48)));
  (96%N, ((-3912641423100301) @ (-48), (-491414177067389) @ (-45), (-985322676152685) @ (-46), (-8064138897447807) @ (-49)));
  (97%N, ((-6087662422977705) @ (-49), (-4758464177720265) @ (-49), (-4973917679045603) @ (-49), (-5700384440010635) @ (-49)));
  (98%N, (#, #, #, (-302852298247679) @ (-44)));
  (99%N, ((-37548489280435) @ (-42), (-8764844845591001) @ (-50), (-2227696253781905) @ (-48), (-5695243308814069) @ (-49)));
  (100%N, ((-7244363015634439) @ (-49), #, (-7492374236211145) @ (-49), (-5927468435192227) @ (-49)));
  (101%N, ((-7054022359647307) @ (-49), (-7244163096344431) @ (-49), (-4260759154773655) @ (-48), (-943539134077359) @ (-46)));
  (102%N, (#, (-8090883396801683) @ (-49), (-3921870937715749) @ (-48), (-3888284818171165) @ (-48)));
  (103%N, ((-6096857058683651) @ (-49), (-3982632372491541) @ (-48), (-238379262651975) @ (-44), (-7600718321947853) @ (-49)));
  (104%N, ((-483818997720415) @ (-45), #, #, (-7245928484021955) @ (-49)));
  (105%N, (#, (-8871297742822353) @ (-49), #, (-7151885394841985) @ (-49)));
  (106%N, (#, (-4240545284906009) @ (-48), (-3233596673457799) @ (-48), (-7435345513955431) @ (-49)));
  (107%N, ((-1800199549239177) @ (-47), (-1508936377477061) @ (-47), (-394332816324959) @ (-45), (-733757065912933) @ (-46)));
  (108%N, (#, (-8871297742822353) @ (-49), #, (-4650533185457697) @ (-48)));
  (109%N, (#, #, (-4081744231472905) @ (-48), #));
  (111%N, ((-4349712415188905) @ (-49), (-8769896346312957) @ (-50), (-2152799462424241) @ (-48), (-4604197084099187) @ (-49)));
  (112%N, (#, #, #, (-2001206550016447) @ (-47)));
  (119%N, ((-4950341055072277) @ (-49), (-1408669307301121) @ (-47), (-1373226336240067) @ (-47), (-5505826278880593) @ (-49)));
  (120%N, ((-985322676152685) @ (-46), #, #, (-302852298247679) @ (-44)));
  (123%N, ((-3801556143597227) @ (-48), (-3518576224250511) @ (-48), (-415075232207411) @ (-45), (-3728098948061275) @ (-48)));
  (124%N, ((-7545024726212017) @ (-49), (-3982632372491541) @ (-48), (-3538790094118157) @ (-48), (-1713930327752905) @ (-47)));
  (125%N, (#, #, (-1986594946834089) @ (-47), (-8064138897447807) @ (-49)));
  (130%N, (#, #, #, (-302852298247679) @ (-44)));
  (133%N, ((-6867248292096205) @ (-49), #, (-4684119305002281) @ (-48), (-7283724551427137) @ (-49)));
  (134%N, ((-7244363015634439) @ (-49), #, #, (-6810099165615153) @ (-49)));
  (137%N, ((-7545024726212017) @ (-49), (-4807000592612209) @ (-49), (-1271800952623521) @ (-47), (-1706802855995055) @ (-47)));
  (138%N, ((-2338072764984921) @ (-48), (-4952970312928637) @ (-49), (-4913013546004527) @ (-49), (-5537612776369661) @ (-49)));
  (139%N, (#, #, #, (-4392620273043229) @ (-48)));
  (142%N, ((-3136227803998569) @ (-48), (-5554596908200093) @ (-49), (-1520677438036735) @ (-47), (-3009417223768917) @ (-48)));
  (146%N, ((-7492374236211145) @ (-49), (-3982632372491541) @ (-48), #, (-7628871685880939) @ (-49)));
  (147%N, ((-2146956065995973) @ (-47), (-3736209830033945) @ (-48), (-7013953676999103) @ (-49), (-4048158111928321) @ (-48)));
  (149%N, (#, #, #, (-302852298247679) @ (-44)));
  (150%N, ((-7399879841139741) @ (-49), (-7346801008249289) @ (-49), (-3002283500582821) @ (-48), (-5638635537297093) @ (-49)));
  (152%N, ((-7320459650820583) @ (-49), (-6669024574133477) @ (-49), (-3984680263625049) @ (-48), (-3870118839437027) @ (-48)));
  (153%N, (#, #, #, (-4650533185457697) @ (-48)));
  (155%N, (#, #, #, (-4297911758076491) @ (-48)));
  (156%N, ((-8018343577873535) @ (-49), #, #, (-8910859197905059) @ (-49)));
  (157%N, (#, #, #, (-4650533185457697) @ (-48)));
  (158%N, ((-7492374236211145) @ (-49), (-6425952682918579) @ (-49), (-6582334460222915) @ (-49), (-3870118839437027) @ (-48)));
  (160%N, (#, (-6680397687276859) @ (-49), (-3921870937715749) @ (-48), (-8205616343142647) @ (-49)));
  (161%N, (#, #, #, (-302852298247679) @ (-44)));
  (162%N, ((-238379262651975) @ (-44), (-491414177067389) @ (-45), (-3695707134388909) @ (-48), (-6878093127173811) @ (-49)));
  (163%N, (#, #, #, (-8910859197905059) @ (-49)));
  (167%N, ((-7615485311708039) @ (-49), #, (-7773281289935475) @ (-49), (-4650533185457697) @ (-48)));
  (168%N, ((-3921870937715749) @ (-48), (-7106171420012245) @ (-49), (-8978031436994227) @ (-49), (-2001206550016447) @ (-47)));
  (169%N, (#, (-8871297742822353) @ (-49), #, (-8292395461171265) @ (-49)));
  (170%N, ((-571248877892569) @ (-45), (-4240545284906009) @ (-48), (-4426206392587813) @ (-48), (-7689790518313711) @ (-49)));
  (171%N, ((-4584800771817669) @ (-49), (-8645405561252833) @ (-50), (-2984945817999611) @ (-48), (-2586011152180093) @ (-48)));
  (174%N, (#, #, #, (-3879055303555717) @ (-48)));
  (176%N, (#, #, #, (-4297911758076491) @ (-48)));
  (177%N, ((-5526763804554831) @ (-49), (-4359814004293095) @ (-49), (-5761485820270905) @ (-49), (-5839786430116141) @ (-49)));
  (178%N, ((-5117594214898307) @ (-49), (-4402953027329725) @ (-49), (-2506972976196635) @ (-48), (-2777918719211279) @ (-48)));
  (179%N, ((-8978031436994227) @ (-49), (-8252834006088559) @ (-49), (-609902861438431) @ (-45), (-976926146266539) @ (-46)));
  (180%N, ((-7567545727469403) @ (-49), #, #, (-4650533185457697) @ (-48)));
  (182%N, (#, #, (-4684119305002281) @ (-48), (-4297911758076491) @ (-48)));
  (183%N, ((-8266176346872783) @ (-50), (-2702017640376701) @ (-48), (-1279102886623489) @ (-47), (-4636808015977677) @ (-49)));
  (184%N, (#, #, #, (-3702723670134365) @ (-48)));
  (185%N, ((-1910269588269243) @ (-47), (-5301000785560975) @ (-49), (-5444066437201125) @ (-49), (-108816228894371) @ (-43)));
  (186%N, ((-8100873996841253) @ (-49), (-3172210053778219) @ (-48), (-834728907770341) @ (-46), (-6438744437682999) @ (-49)));
  (188%N, ((-3301329885452235) @ (-48), #, (-609902861438431) @ (-45), (-1893476528496951) @ (-47)));
  (189%N, ((-6564648714016659) @ (-49), (-1592576856228499) @ (-47), (-2972448380862169) @ (-48), (-6697438141102179) @ (-49)));
  (192%N, (#, (-3736209830033945) @ (-48), (-4260759154773655) @ (-48), (-1822899526423839) @ (-47)));
  (193%N, ((-2078626915425975) @ (-47), (-3125675490238271) @ (-48), (-6291183320945945) @ (-49), (-1822899526423839) @ (-47)));
  (194%N, (#, #, #, (-4650533185457697) @ (-48)));
  (195%N, (#, #, #, (-8166776809352665) @ (-49)));
  (197%N, ((-3722114766328821) @ (-48), (-3606862978324355) @ (-48), #, (-1969801887061797) @ (-47)));
  (198%N, (#, #, #, (-302852298247679) @ (-44)));
  (199%N, ((-546860929579423) @ (-45), (-6780742520844477) @ (-49), (-5686372392026821) @ (-49), (-1745563646303515) @ (-47)));
  (201%N, (#, #, #, (-4392620273043229) @ (-48)));
  (202%N, ((-5955941719828745) @ (-49), (-5110310912582847) @ (-49), (-46023043240947) @ (-42), (-5938110528165807) @ (-49)));
  (203%N, (#, #, #, (-4650533185457697) @ (-48)));
  (204%N, ((-798193886911877) @ (-46), (-5252596178977269) @ (-49), (-5050696615684807) @ (-49), (-2842778458712335) @ (-48)));
  (205%N, (#, #, #, (-4650533185457697) @ (-48)));
  (207%N, ((-3227958931808341) @ (-48), #, (-609902861438431) @ (-45), (-7151885394841985) @ (-49)));
  (209%N, (#, #, #, (-6037321032506929) @ (-49)));
  (211%N, (#, #, #, (-8292395461171265) @ (-49)));
  (212%N, (#, (-8252834006088559) @ (-49), (-8978031436994227) @ (-49), (-7614619027055453) @ (-49)));
  (214%N, ((-7862826752368233) @ (-49), (-7427359621511357) @ (-49), (-609902861438431) @ (-45), (-8292395461171265) @ (-49)));
  (216%N, (#, (-8871297742822353) @ (-49), (-4204275375441935) @ (-48), (-7926147221115621) @ (-49)));
  (218%N, (#, #, #, (-302852298247679) @ (-44)));
  (220%N, ((-79527082739365) @ (-43), (-2537696701488917) @ (-48), (-2304278729706195) @ (-48), (-4594896306874345) @ (-49)));
  (221%N, ((-571248877892569) @ (-45), #, #, (-8130444851884389) @ (-49)));
  (222%N, (#, #, #, (-302852298247679) @ (-44)));
  (223%N, ((-7773281289935475) @ (-49), #, (-3912641423100301) @ (-48), (-3951094144080465) @ (-48)));
  (224%N, ((-793268611604885) @ (-46), (-1925169055947837) @ (-47), (-2146956065995973) @ (-47), (-8395033373076123) @ (-49)));
  (225%N, ((-4260759154773655) @ (-48), (-8871297742822353) @ (-49), (-1800199549239177) @ (-47), (-1994339944854797) @ (-47)));
  (229%N, (#, (-4240545284906009) @ (-48), (-609902861438431) @ (-45), (-4170689255897351) @ (-48)));
  (233%N, ((-1381003866836581) @ (-47), (-1688482578221107) @ (-47), #, (-7350030505863719) @ (-49)));
  (234%N, (#, (-7244163096344431) @ (-49), (-3921870937715749) @ (-48), (-7523833130877875) @ (-49)));
  (235%N, (#, #, (-2146956065995973) @ (-47), #));
  (239%N, ((-3993740277462813) @ (-49), (-5940807601334101) @ (-50), (-7678614356921903) @ (-50), (-4973108724191267) @ (-49)));
  (240%N, (#, #, #, (-3733460538297031) @ (-48)));
  (241%N, ((-2708237087750185) @ (-48), (-6547927632997723) @ (-49), (-6231394757133713) @ (-49), (-1570731798987807) @ (-47)));
  (242%N, ((-349495186715827) @ (-45), (-287823818881493) @ (-45), (-5352774670131257) @ (-49), (-360909420191353) @ (-45)));
  (244%N, (#, #, #, (-8395033373076123) @ (-49)));
  (248%N, (#, #, #, (-4297911758076491) @ (-48)));
  (249%N, (#, #, (-609902861438431) @ (-45), (-7951171338784367) @ (-49)));
  (251%N, (#, #, #, (-8395033373076123) @ (-49)));
  (252%N, (#, #, #, (-4650533185457697) @ (-48)));
  (253%N, ((-8978031436994227) @ (-49), (-8252834006088559) @ (-49), (-4426206392587813) @ (-48), (-239810366388671) @ (-44)));
  (254%N, (#, #, #, (-271331332318175) @ (-44)))].

(** prob_emit.py, characters 0x8400 to 0x84ff *)
Definition emit_84 : list (N * num4) := [
  (1%N, (#, (-8871297742822353) @ (-49), (-2078626915425975) @ (-47), (-3879055303555717) @ (-48)));
  (3%N, ((-6867248292096205) @ (-49), (-3518576224250511) @ (-48), (-6478699293932513) @ (-49), (-7217418596990555) @ (-49)));
  (4%N, ((-609902861438431) @ (-45), (-4439070568511493) @ (-49), (-1492304864217625) @ (-47), (-239810366388671) @ (-44)));
  (6%N, (#, #, #, (-8033701757752085) @ (-49)));
  (7%N, ((-609902861438431) @ (-45), (-6376969632295143) @ (-49), (-7013953676999103) @ (-49), (-7245928484021955) @ (-49)));
  (10%N, ((-5526763804554831) @ (-49), (-4359814004293095) @ (-49), (-5761485820270905) @ (-49), (-5839786430116141) @ (-49)));
  (11%N, ((-609902861438431) @ (-45), #, (-4684119305002281) @ (-48), (-2001206550016447) @ (-47)));
  (12%N, ((-2972770250510405) @ (-48), (-2973961462747413) @ (-48), (-6167711060026959) @ (-49), (-6823747105641763) @ (-49)));
  (13%N, ((-889038822504283) @ (-46), (-2789210315202571) @ (-48), (-4694967230270207) @ (-49), (-1652074660613093) @ (-47)));
  (14%N, ((-6149838131789579) @ (-49), (-4240545284906009) @ (-48), (-1762356706075807) @ (-47), (-7477852487122849) @ (-49)));
  (15%N, (#, #, (-4331497877621075) @ (-48), (-4227173035229071) @ (-48)));
  (16%N, (#, #, #, (-6214569351883485) @ (-49)));
  (17%N, (#, (-4240545284906009) @ (-48), #, (-7835882333724349) @ (-49)));
  (18%N, (#, #, #, (-7332707602050573) @ (-49)));
  (24%N, ((-3704237331932315) @ (-48), #, (-4331497877621075) @ (-48), (-7145732875094951) @ (-49)));
  (28%N, ((-8100873996841253) @ (-49), (-8252834006088559) @ (-49), (-8131311136536975) @ (-49), (-3630371905756697) @ (-48)));
  (29%N, ((-6377169551585151) @ (-49), (-644583424064213) @ (-46), (-6480362367382569) @ (-49), (-6587489088080429) @ (-49)));
  (35%N, (#, #, #, (-70881326618687) @ (-42)));
  (36%N, ((-193410650259593) @ (-44), #, (-1975763643203379) @ (-47), (-7587152606408853) @ (-49)));
  (37%N, ((-4368561229524645) @ (-49), (-8678309298429699) @ (-50), (-1060843260598861) @ (-47), (-4792944652717685) @ (-49)));
  (38%N, ((-7058655718752843) @ (-49), (-841042158939437) @ (-46), (-7924300488693565) @ (-49), (-7425201997121977) @ (-49)));
  (39%N, ((-2529118561291415) @ (-48), (-5743081644318359) @ (-49), (-6704470423360795) @ (-49), (-2932815647163429) @ (-48)));
  (40%N, ((-2534428933283943) @ (-48), (-8545697389556535) @ (-50), (-5112438285001581) @ (-49), (-2899872647557793) @ (-48)));
  (41%N, ((-3984680263625049) @ (-48), #, #, (-70881326618687) @ (-42)));
  (44%N, ((-111000406148189) @ (-44), (-3456469014521701) @ (-49), (-8619130957465275) @ (-50), (-3899394594937963) @ (-49)));
  (49%N, ((-2011133004627089) @ (-47), (-3982632372491541) @ (-48), (-6933968332578247) @ (-49), (-6351716391968069) @ (-49)));
  (53%N, ((-7567545727469403) @ (-49), #, #, (-4650533185457697) @ (-48)));
  (55%N, (#, #, #, (-472560260360877) @ (-45)));
  (56%N, (#, (-8252834006088559) @ (-49), (-3736309789678949) @ (-48), (-4227173035229071) @ (-48)));
  (58%N, (#, #, #, (-302852298247679) @ (-44)));
  (60%N, ((-3569249510334543) @ (-48), (-7575057571972747) @ (-49), (-380015603814727) @ (-45), (-6249576445556469) @ (-49)));
  (61%N, ((-2186007099435679) @ (-48), (-2376785283283893) @ (-48), (-4319265320287573) @ (-49), (-2289907033274589) @ (-48)));
  (64%N, (#, #, #, (-8910859197905059) @ (-49)));
  (69%N, (#, #, #, (-302852298247679) @ (-44)));
  (70%N, (#, (-1617905576147995) @ (-47), (-3722114766328821) @ (-48), (-3728098948061275) @ (-48)));
  (71%N, (#, #, #, (-8910859197905059) @ (-49)));
  (73%N, ((-2185024843495015) @ (-48), (-8669013152389687) @ (-50), (-4584456249191603) @ (-49), (-4941383074083119) @ (-49)));
  (78%N, (#, #, #, (-70881326618687) @ (-42)));
  (81%N, (#, (-6886133249742931) @ (-49), (-4204275375441935) @ (-48), (-6683806725621059) @ (-49)));
  (82%N, (#, #, (-4081744231472905) @ (-48), #));
  (84%N, (#, #, #, (-302852298247679) @ (-44)));
  (86%N, (#, #, (-7924300488693565) @ (-49), (-70881326618687) @ (-42)));
  (87%N, ((-1167942845612709) @ (-47), (-4838354290558953) @ (-49), (-4868991349544683) @ (-49), (-4778062422860795) @ (-49)));
  (89%N, (#, (-8871297742822353) @ (-49), #, (-4392620273043229) @ (-48)));
  (90%N, (#, #, (-8272788582231815) @ (-49), #));
  (91%N, ((-5206721381270965) @ (-49), (-4785968406886535) @ (-49), (-1529363771602843) @ (-47), (-6299012574637699) @ (-49)));
  (92%N, (#, #, (-571248877892569) @ (-45), (-8292395461171265) @ (-49)));
  (95%N, (#, #, #, (-4227173035229071) @ (-48)));
  (97%N, ((-5177005580224391) @ (-49), (-6397442795887179) @ (-49), (-609902861438431) @ (-45), (-1607953933851967) @ (-47)));
  (99%N, ((-4465385010717573) @ (-49), (-1604672177941807) @ (-47), (-6301998060326893) @ (-49), (-5803116262993101) @ (-49)));
  (102%N, ((-6162952367672155) @ (-49), (-6794643225952077) @ (-49), (-3010632177659691) @ (-48), (-6973174550407917) @ (-49)));
  (105%N, (#, #, (-1910269588269243) @ (-47), (-4392620273043229) @ (-48)));
  (107%N, ((-2934581300900063) @ (-48), (-5840096498027951) @ (-49), #, (-70881326618687) @ (-42)));
  (108%N, ((-3103138791097497) @ (-48), (-2600257191392581) @ (-48), (-5183456377468451) @ (-49), (-5450482144153273) @ (-49)));
  (109%N, ((-609902861438431) @ (-45), (-3469067403004029) @ (-48), (-4684119305002281) @ (-48), (-7489000375236853) @ (-49)));
  (111%N, (#, #, #, (-302852298247679) @ (-44)));
  (113%N, ((-3302366626870007) @ (-48), (-6319671069274265) @ (-49), (-3091607482303129) @ (-48), (-5995357934845751) @ (-49)));
  (115%N, ((-4331497877621075) @ (-48), (-8090883396801683) @ (-49), (-7667890561037021) @ (-49), (-4392620273043229) @ (-48)));
  (116%N, (#, #, #, (-70881326618687) @ (-42)));
  (117%N, ((-6285263708531205) @ (-49), (-7082212487057555) @ (-49), (-6316748684645637) @ (-49), (-6774188735649479) @ (-49)));
  (118%N, ((-8978031436994227) @ (-49), #, (-8978031436994227) @ (-49), (-2130163006223681) @ (-47)));
  (119%N, ((-7244363015634439) @ (-49), #, (-7492374236211145) @ (-49), (-5927468435192227) @ (-49)));
  (120%N, (#, #, (-8131311136536975) @ (-49), (-4650533185457697) @ (-48)));
  (121%N, (#, #, #, (-4650533185457697) @ (-48)));
  (122%N, (#, (-3736209830033945) @ (-48), (-786101000145339) @ (-46), (-271331332318175) @ (-44)));
  (126%N, (#, #, #, (-302852298247679) @ (-44)));
  (128%N, (#, #, #, (-869977916606673) @ (-46)));
  (130%N, ((-6740306608050731) @ (-49), (-2352903468232611) @ (-48), (-5813517343795543) @ (-49), (-6236040384715157) @ (-49)));
  (135%N, (#, #, #, (-302852298247679) @ (-44)));
  (136%N, (#, #, (-2146956065995973) @ (-47), (-302852298247679) @ (-44)));
  (137%N, (#, #, #, (-8910859197905059) @ (-49)));
  (139%N, ((-35327195782075) @ (-42), (-7082212487057555) @ (-49), (-6654661327169597) @ (-49), (-362066457381847) @ (-45)));
  (140%N, (#, #, #, (-8130444851884389) @ (-49)));
  (141%N, (#, #, #, (-4650533185457697) @ (-48)));
  (142%N, (#, #, #, (-7795654513279065) @ (-49)));
  (144%N, (#, #, #, (-4297911758076491) @ (-48)));
  (148%N, ((-8978031436994227) @ (-49), (-8252834006088559) @ (-49), (-609902861438431) @ (-45), (-976926146266539) @ (-46)));
  (149%N, (#, #, #, (-1994339944854797) @ (-47)));
  (150%N, (#, #, #, (-4650533185457697) @ (-48)));
  (151%N, (#, (-491414177067389) @ (-45), (-8359567700260433) @ (-49), (-2130163006223681) @ (-47)));
  (152%N, (#, #, #, (-302852298247679) @ (-44)));
  (153%N, ((-8878127085284935) @ (-50), (-4365993127851643) @ (-49), (-5319611889470173) @ (-49), (-5178301994940979) @ (-49)));
  (154%N, (#, #, #, (-302852298247679) @ (-44)));
  (156%N, ((-7127877008308803) @ (-49), (-3383588402652739) @ (-48), (-3341290961436923) @ (-48), (-6218091469442037) @ (-49)));
  (158%N, ((-6867248292096205) @ (-49), #, (-4684119305002281) @ (-48), (-7283724551427137) @ (-49)));
  (159%N, (#, #, #, (-70881326618687) @ (-42)));
  (161%N, (#, (-8252834006088559) @ (-49), (-4426206392587813) @ (-48), (-302852298247679) @ (-44)));
  (162%N, (#, #, #, (-4650533185457697) @ (-48)));
  (166%N, (#, #, #, (-302852298247679) @ (-44)));
  (168%N, (#, #, (-8100873996841253) @ (-49), (-4650533185457697) @ (-48)));
  (169%N, (#, #, #, (-4650533185457697) @ (-48)));
  (170%N, (#, #, #, (-3728098948061275) @ (-48)));
  (171%N, (#, #, #, (-4170689255897351) @ (-48)));
  (173%N, (#, #, #, (-4650533185457697) @ (-48)));
  (175%N, ((-5327506333139163) @ (-49), (-8252834006088559) @ (-49), #, (-8205616343142647) @ (-49)));
  (177%N, (#, #, #, (-7658507473194481) @ (-49)));
  (178%N, ((-5512258655480769) @ (-49), (-6823518783638375) @ (-49), (-863557268122675) @ (-46), (-1521362620456101) @ (-47)));
  (180%N, ((-6863946523373667) @ (-49), #, #, (-1809666128217651) @ (-47)));
  (183%N, (#, #, #, (-8910859197905059) @ (-49)));
  (184%N, ((-5283703840119383) @ (-49), (-5769787835337713) @ (-49), (-5801421266182521) @ (-49), (-698448455051911) @ (-46)));
  (185%N, (#, #, #, (-4048158111928321) @ (-48)));
  (186%N, ((-1870602565026865) @ (-47), (-6975678712175689) @ (-49), #, #));
  (187%N, (#, #, #, (-70881326618687) @ (-42)));
  (188%N, ((-5237360828624687) @ (-49), (-5817322383168251) @ (-49), (-412537118574835) @ (-45), (-3211636541784881) @ (-48)));
  (189%N, ((-817970144945989) @ (-46), #, (-571248877892569) @ (-45), (-239810366388671) @ (-44)));
  (190%N, (#, #, #, (-8910859197905059) @ (-49)));
  (191%N, ((-858821192549113) @ (-46), (-7385640542039271) @ (-49), (-3189974778502349) @ (-48), (-11736330098739) @ (-40)));
  (192%N, (#, (-4240545284906009) @ (-48), (-3233596673457799) @ (-48), (-7435345513955431) @ (-49)));
  (193%N, (#, (-4240545284906009) @ (-48), (-8100873996841253) @ (-49), (-271331332318175) @ (-44)));
  (194%N, (#, #, #, (-4650533185457697) @ (-48)));
  (196%N, ((-2853746628273895) @ (-48), (-1540569696027671) @ (-47), (-696832821826965) @ (-46), (-6292254390791667) @ (-49)));
  (199%N, ((-7924300488693565) @ (-49), #, #, #));
  (201%N, ((-1870602565026865) @ (-47), (-575288612779187) @ (-46), (-4679261747055499) @ (-49), (-5886804557441313) @ (-49)));
  (202%N, ((-4260759154773655) @ (-48), (-4240545284906009) @ (-48), #, (-4297911758076491) @ (-48)));
  (203%N, ((-5386341752024241) @ (-49), (-304588099086621) @ (-45), (-4851749190958431) @ (-49), (-1249508292484153) @ (-47)));
  (205%N, ((-2078626915425975) @ (-47), #, #, (-8166776809352665) @ (-49)));
  (206%N, (#, #, #, (-4650533185457697) @ (-48)));
  (207%N, (#, #, #, (-70881326618687) @ (-42)));
  (208%N, (#, #, #, (-271331332318175) @ (-44)));
  (209%N, ((-7417202744952887) @ (-49), (-8871297742822353) @ (-49), #, (-472560260360877) @ (-45)));
  (211%N, ((-1998329865051197) @ (-47), (-377463309330355) @ (-45), (-1625178042930149) @ (-47), (-7926147221115621) @ (-49)));
  (213%N, (#, #, #, (-2001206550016447) @ (-47)));
  (214%N, ((-3645792046567143) @ (-48), #, #, (-3670651212387731) @ (-48)));
  (220%N, (#, #, #, (-302852298247679) @ (-44)));
  (221%N, ((-2436644896031591) @ (-48), (-5249874417252741) @ (-49), (-5984196034170677) @ (-49), (-5235945592243159) @ (-49)));
  (222%N, (#, #, #, (-302852298247679) @ (-44)));
  (223%N, ((-777075903619197) @ (-46), (-7310469050781013) @ (-49), (-8233949048441833) @ (-49), (-3350102242753159) @ (-48)));
  (224%N, (#, #, (-2078626915425975) @ (-47), (-302852298247679) @ (-44)));
  (226%N, (#, #, #, (-302852298247679) @ (-44)));
  (227%N, (#, #, (-7924300488693565) @ (-49), (-4650533185457697) @ (-48)));
  (229%N, (#, (-3318111047509587) @ (-48), (-4331497877621075) @ (-48), (-302852298247679) @ (-44)));
  (230%N, ((-5908162840687809) @ (-49), #, #, (-7489000375236853) @ (-49)));
  (231%N, (#, #, #, (-869977916606673) @ (-46)));
  (232%N, (#, #, #, (-4297911758076491) @ (-48)));
  (233%N, (#, #, #, (-1877995278787649) @ (-47)));
  (236%N, ((-359204249908455) @ (-45), (-2903744473092393) @ (-48), (-1405934133397179) @ (-47), (-3069552671552913) @ (-48)));
  (238%N, ((-5117594214898307) @ (-49), (-4402953027329725) @ (-49), (-2506972976196635) @ (-48), (-2777918719211279) @ (-48)));
  (239%N, ((-546860929579423) @ (-45), (-7082212487057555) @ (-49), (-546860929579423) @ (-45), (-7055467987703679) @ (-49)));
  (240%N, (#, #, #, (-271331332318175) @ (-44)));
  (244%N, ((-3301329885452235) @ (-48), #, (-609902861438431) @ (-45), (-1893476528496951) @ (-47)));
  (252%N, ((-4684119305002281) @ (-48), (-8252834006088559) @ (-49), #, (-880642292618137) @ (-46)));
  (253%N, (#, (-3982632372491541) @ (-48), (-4426206392587813) @ (-48), (-2130163006223681) @ (-47)));
  (255%N, (#, (-4240545284906009) @ (-48), (-7284590836079723) @ (-49), (-7835882333724349) @ (-49)))].

(** prob_emit.py, characters 0x8500 to 0x85ff *)
Definition emit_85 : list (N * num4) := [
  (10%N, ((-4684119305002281) @ (-48), #, #, #));
  (12%N, (#, #, #, (-302852298247679) @ (-44)));
  (14%N, (#, #, #, (-302852298247679) @ (-44)));
  (17%N, ((-6714478686130389) @ (-49), #, (-6271305556619797) @ (-49), (-3630371905756697) @ (-48)));
  (19%N, ((-1538155680228393) @ (-47), (-3460130938885339) @ (-48), (-3494371374993105) @ (-48), (-6654931167934761) @ (-49)));
  (20%N, (#, #, #, (-409785891556225) @ (-45)));
  (21%N, (#, #, #, (-4170689255897351) @ (-48)));
  (23%N, ((-3232784335298843) @ (-48), (-3478296917619477) @ (-48), (-6074550914361025) @ (-49), (-7151885394841985) @ (-49)));
  (24%N, (#, #, #, (-302852298247679) @ (-44)));
  (26%N, ((-3243532115846993) @ (-48), (-398981976780441) @ (-45), (-3141456591695079) @ (-48), (-6823747105641763) @ (-49)));
  (27%N, (#, #, #, (-7628871685880939) @ (-49)));
  (30%N, (#, #, #, (-302852298247679) @ (-44)));
  (31%N, (#, #, #, (-8395033373076123) @ (-49)));
  (33%N, ((-4697838536873097) @ (-49), (-6669024574133477) @ (-49), (-7092203087097125) @ (-49), (-1418223915473135) @ (-47)));
  (35%N, ((-35327195782075) @ (-42), (-7082212487057555) @ (-49), (-6654661327169597) @ (-49), (-362066457381847) @ (-45)));
  (37%N, ((-3302366626870007) @ (-48), (-6319671069274265) @ (-49), (-3091607482303129) @ (-48), (-5995357934845751) @ (-49)));
  (38%N, (#, #, #, (-4392620273043229) @ (-48)));
  (40%N, (#, #, #, (-4650533185457697) @ (-48)));
  (42%N, (#, #, #, (-3535663390789959) @ (-48)));
  (43%N, ((-7725679712283649) @ (-49), (-8090883396801683) @ (-49), (-1986594946834089) @ (-47), (-7115940211661285) @ (-49)));
  (44%N, ((-2720451894347571) @ (-48), (-8090883396801683) @ (-49), (-6438643287910483) @ (-49), (-3582197954329907) @ (-48)));
  (45%N, ((-1800199549239177) @ (-47), (-1508936377477061) @ (-47), (-394332816324959) @ (-45), (-4227173035229071) @ (-48)));
  (47%N, (#, #, #, (-302852298247679) @ (-44)));
  (50%N, (#, #, #, (-302852298247679) @ (-44)));
  (53%N, (#, #, #, (-2130163006223681) @ (-47)));
  (55%N, ((-3383688362297743) @ (-48), (-7346801008249289) @ (-49), (-7725679712283649) @ (-49), (-420540146700683) @ (-45)));
  (56%N, (#, #, #, (-8292395461171265) @ (-49)));
  (57%N, (#, (-8871297742822353) @ (-49), #, (-8910859197905059) @ (-49)));
  (58%N, ((-3430332003528151) @ (-48), (-3817185134677383) @ (-48), (-3921870937715749) @ (-48), (-2001206550016447) @ (-47)));
  (59%N, (#, (-3817185134677383) @ (-48), (-3756423699901591) @ (-48), (-8395033373076123) @ (-49)));
  (60%N, (#, (-1540569696027671) @ (-47), (-3321712214036881) @ (-48), (-1749038822580415) @ (-47)));
  (61%N, ((-7579153354239763) @ (-49), (-5829860762346977) @ (-49), (-1429535850760509) @ (-47), (-6654931167934761) @ (-49)));
  (65%N, ((-483818997720415) @ (-45), #, #, (-7245928484021955) @ (-49)));
  (67%N, ((-985322676152685) @ (-46), (-3982632372491541) @ (-48), (-3038900136881431) @ (-48), (-189939228193733) @ (-44)));
  (69%N, (#, #, #, (-302852298247679) @ (-44)));
  (70%N, (#, #, #, (-302852298247679) @ (-44)));
  (72%N, (#, #, (-7773281289935475) @ (-49), (-1930728693765227) @ (-47)));
  (73%N, ((-7756962757402879) @ (-49), (-377463309330355) @ (-45), (-6064118186140053) @ (-49), (-3299477430128381) @ (-48)));
  (74%N, (#, (-6397442795887179) @ (-49), (-1458568402552865) @ (-47), (-6800076053007037) @ (-49)));
  (75%N, (#, #, #, (-302852298247679) @ (-44)));
  (76%N, (#, #, #, (-302852298247679) @ (-44)));
  (77%N, (#, #, #, (-8130444851884389) @ (-49)));
  (78%N, ((-3423861029421265) @ (-48), #, (-8978031436994227) @ (-49), (-7643494584741751) @ (-49)));
  (82%N, (#, (-8871297742822353) @ (-49), #, (-4650533185457697) @ (-48)));
  (83%N, (#, #, (-4260759154773655) @ (-48), (-3702723670134365) @ (-48)));
  (85%N, (#, #, #, (-3702723670134365) @ (-48)));
  (86%N, (#, #, (-4684119305002281) @ (-48), (-472560260360877) @ (-45)));
  (88%N, (#, #, (-8978031436994227) @ (-49), (-302852298247679) @ (-44)));
  (89%N, ((-4426206392587813) @ (-48), (-6823518783638375) @ (-49), (-3442027008155403) @ (-48), (-7283724551427137) @ (-49)));
  (94%N, (#, #, #, (-1969801887061797) @ (-47)));
  (97%N, (#, #, #, (-302852298247679) @ (-44)));
  (98%N, (#, #, #, (-8910859197905059) @ (-49)));
  (100%N, ((-2146956065995973) @ (-47), #, (-1975763643203379) @ (-47), (-4170689255897351) @ (-48)));
  (104%N, ((-6933968332578247) @ (-49), #, (-4426206392587813) @ (-48), (-6708586029216183) @ (-49)));
  (105%N, (#, #, #, (-302852298247679) @ (-44)));
  (106%N, ((-6434022605716583) @ (-49), (-6838531672091105) @ (-49), (-817970144945989) @ (-46), (-6224011081856777) @ (-49)));
  (108%N, (#, #, #, (-8064138897447807) @ (-49)));
  (109%N, ((-2529118561291415) @ (-48), (-5743081644318359) @ (-49), (-6704470423360795) @ (-49), (-2932815647163429) @ (-48)));
  (112%N, (#, #, (-4260759154773655) @ (-48), #));
  (114%N, ((-6201182977710585) @ (-49), (-8090883396801683) @ (-49), (-609902861438431) @ (-45), (-5632775782272731) @ (-49)));
  (116%N, ((-2778150159646669) @ (-48), (-6325757073991575) @ (-49), (-3172494649417) @ (-38), (-6786983603534937) @ (-49)));
  (119%N, (#, #, (-7924300488693565) @ (-49), (-4650533185457697) @ (-48)));
  (121%N, ((-4426206392587813) @ (-48), #, #, (-8033701757752085) @ (-49)));
  (122%N, ((-4684119305002281) @ (-48), #, #, (-8033701757752085) @ (-49)));
  (123%N, ((-609902861438431) @ (-45), (-4240545284906009) @ (-48), (-8233949048441833) @ (-49), (-302852298247679) @ (-44)));
  (126%N, ((-8978031436994227) @ (-49), (-2754170950036383) @ (-48), (-5700364558527349) @ (-49), (-3444810757719897) @ (-48)));
  (128%N, (#, #, #, (-302852298247679) @ (-44)));
  (132%N, ((-1315228490762447) @ (-47), (-5402846368055063) @ (-49), (-2756726622344805) @ (-48), (-1308832165181403) @ (-47)));
  (133%N, (#, #, #, (-7643494584741751) @ (-49)));
  (135%N, ((-609902861438431) @ (-45), (-747927687525045) @ (-46), (-5727685156105287) @ (-49), (-2932815647163429) @ (-48)));
  (136%N, ((-6964612629572873) @ (-49), (-6869814717210335) @ (-49), (-903159767337213) @ (-46), (-70881326618687) @ (-42)));
  (138%N, ((-777075903619197) @ (-46), (-7310469050781013) @ (-49), (-8233949048441833) @ (-49), (-3350102242753159) @ (-48)));
  (139%N, (#, #, #, (-302852298247679) @ (-44)));
  (140%N, ((-8272788582231815) @ (-49), #, #, (-3605255574468759) @ (-48)));
  (143%N, ((-7862826752368233) @ (-49), (-3817185134677383) @ (-48), (-8359567700260433) @ (-49), (-2001206550016447) @ (-47)));
  (144%N, (#, #, #, (-302852298247679) @ (-44)));
  (145%N, (#, #, #, (-4392620273043229) @ (-48)));
  (148%N, ((-3383688362297743) @ (-48), (-7346801008249289) @ (-49), (-7725679712283649) @ (-49), (-3879055303555717) @ (-48)));
  (150%N, (#, #, #, (-302852298247679) @ (-44)));
  (151%N, (#, (-1925169055947837) @ (-47), #, (-4392620273043229) @ (-48)));
  (152%N, (#, #, #, (-302852298247679) @ (-44)));
  (153%N, (#, #, #, (-7926147221115621) @ (-49)));
  (155%N, ((-5015672037702599) @ (-49), (-6669024574133477) @ (-49), (-1826459187989943) @ (-47), (-6021319881833011) @ (-49)));
  (156%N, ((-8462205612165291) @ (-49), (-3982632372491541) @ (-48), (-4426206392587813) @ (-48), (-7435345513955431) @ (-49)));
  (159%N, (#, #, (-4684119305002281) @ (-48), (-4297911758076491) @ (-48)));
  (161%N, (#, #, #, (-472560260360877) @ (-45)));
  (162%N, (#, #, #, (-70881326618687) @ (-42)));
  (164%N, ((-4331497877621075) @ (-48), #, #, (-4170689255897351) @ (-48)));
  (165%N, (#, #, #, (-4650533185457697) @ (-48)));
  (166%N, ((-1870602565026865) @ (-47), (-6185641055691637) @ (-49), (-2510815274643345) @ (-48), (-6303106774163249) @ (-49)));
  (168%N, (#, #, (-571248877892569) @ (-45), (-7587152606408853) @ (-49)));
  (169%N, ((-2534428933283943) @ (-48), (-8545697389556535) @ (-50), (-5112438285001581) @ (-49), (-2899872647557793) @ (-48)));
  (170%N, ((-2743299661156597) @ (-48), (-5461631464692351) @ (-49), (-5381354607397265) @ (-49), (-93517869202469) @ (-43)));
  (171%N, (#, #, (-3984680263625049) @ (-48), (-4650533185457697) @ (-48)));
  (172%N, ((-2146956065995973) @ (-47), #, #, #));
  (174%N, ((-2146956065995973) @ (-47), #, (-8197617090973557) @ (-49), (-3634150150092073) @ (-48)));
  (175%N, ((-6729832818427855) @ (-49), (-3638170211376633) @ (-48), (-5727247913401037) @ (-49), (-3535663390789959) @ (-48)));
  (176%N, ((-4426206392587813) @ (-48), (-7106171420012245) @ (-49), (-7579153354239763) @ (-49), (-420540146700683) @ (-45)));
  (179%N, (#, #, #, (-4227173035229071) @ (-48)));
  (182%N, (#, #, #, (-302852298247679) @ (-44)));
  (183%N, (#, (-8871297742822353) @ (-49), (-8272788582231815) @ (-49), (-1969801887061797) @ (-47)));
  (184%N, (#, #, #, (-4650533185457697) @ (-48)));
  (185%N, (#, #, (-7696043924970107) @ (-49), (-7332707602050573) @ (-49)));
  (186%N, ((-3912641423100301) @ (-48), (-491414177067389) @ (-45), (-985322676152685) @ (-46), (-8064138897447807) @ (-49)));
  (189%N, (#, #, #, (-4227173035229071) @ (-48)));
  (190%N, (#, #, #, (-4392620273043229) @ (-48)));
  (193%N, ((-8462205612165291) @ (-49), #, #, (-3870118839437027) @ (-48)));
  (194%N, (#, #, #, (-7857128249604397) @ (-49)));
  (201%N, ((-4260759154773655) @ (-48), (-491414177067389) @ (-45), (-408522113529243) @ (-45), (-5935965954321087) @ (-49)));
  (203%N, (#, #, #, (-1930728693765227) @ (-47)));
  (204%N, (#, #, #, (-906660926466427) @ (-46)));
  (205%N, ((-2436644896031591) @ (-48), (-5249874417252741) @ (-49), (-5984196034170677) @ (-49), (-5235945592243159) @ (-49)));
  (206%N, (#, (-8871297742822353) @ (-49), #, (-7151885394841985) @ (-49)));
  (207%N, ((-2476272192256403) @ (-48), (-8667234198145611) @ (-50), (-4482220300854999) @ (-49), (-1144265625299149) @ (-47)));
  (208%N, ((-6740306608050731) @ (-49), #, #, (-1969801887061797) @ (-47)));
  (211%N, ((-8978031436994227) @ (-49), (-841042158939437) @ (-46), (-6844532532160723) @ (-49), (-6813480256580097) @ (-49)));
  (213%N, ((-1845768529231285) @ (-47), (-5408816200812527) @ (-49), (-1845768529231285) @ (-47), (-1248166327719599) @ (-47)));
  (219%N, (#, #, #, (-4227173035229071) @ (-48)));
  (220%N, (#, (-491414177067389) @ (-45), (-7097163030666307) @ (-49), (-7121773942140261) @ (-49)));
  (221%N, ((-8532903322231115) @ (-50), (-4182660640854949) @ (-49), (-4473574709319739) @ (-49), (-5810490020199643) @ (-49)));
  (224%N, ((-571248877892569) @ (-45), #, #, #));
  (228%N, ((-1424260214777665) @ (-47), (-4663375090906553) @ (-49), (-6175409640906853) @ (-49), (-6097678781153141) @ (-49)));
  (229%N, ((-4349712415188905) @ (-49), (-8769896346312957) @ (-50), (-2152799462424241) @ (-48), (-4650533185457697) @ (-48)));
  (230%N, (#, #, #, (-2130163006223681) @ (-47)));
  (232%N, (#, #, #, (-4227173035229071) @ (-48)));
  (233%N, ((-6344838182227367) @ (-49), (-428372245208381) @ (-45), (-774642528970747) @ (-46), (-1500033868433173) @ (-47)));
  (234%N, ((-2146956065995973) @ (-47), #, (-8197617090973557) @ (-49), (-3634150150092073) @ (-48)));
  (246%N, (#, (-1925169055947837) @ (-47), (-609902861438431) @ (-45), (-7628871685880939) @ (-49)));
  (249%N, (#, (-1540569696027671) @ (-47), (-3321712214036881) @ (-48), (-1749038822580415) @ (-47)));
  (250%N, ((-3430332003528151) @ (-48), (-3817185134677383) @ (-48), (-3921870937715749) @ (-48), (-2001206550016447) @ (-47)));
  (251%N, ((-5955941719828745) @ (-49), (-6448324499080771) @ (-49), (-5293529395942735) @ (-49), (-5932409720426441) @ (-49)));
  (255%N, ((-1998329865051197) @ (-47), (-1925169055947837) @ (-47), #, (-976926146266539) @ (-46)))].

(** prob_emit.py, characters 0x8600 to 0x86ff *)
Definition emit_86 : list (N * num4) := [
  (4%N, ((-6201182977710585) @ (-49), (-8090883396801683) @ (-49), (-609902861438431) @ (-45), (-5632775782272731) @ (-49)));
  (5%N, ((-8978031436994227) @ (-49), (-1764807936785953) @ (-47), (-2011133004627089) @ (-47), (-7435345513955431) @ (-49)));
  (6%N, ((-5353674310679767) @ (-49), (-6114059055574939) @ (-49), (-5804922521070655) @ (-49), (-4650533185457697) @ (-48)));
  (7%N, ((-8002047133672031) @ (-50), (-4463160006001349) @ (-49), (-310769675655823) @ (-45), (-5040883953572035) @ (-49)));
  (10%N, ((-2778150159646669) @ (-48), (-6325757073991575) @ (-49), (-3172494649417) @ (-38), (-6786983603534937) @ (-49)));
  (11%N, ((-1403143596092655) @ (-47), (-6808895884777563) @ (-49), (-4081744231472905) @ (-48), (-1994339944854797) @ (-47)));
  (13%N, (#, #, #, (-4650533185457697) @ (-48)));
  (15%N, (#, #, #, (-7795654513279065) @ (-49)));
  (17%N, ((-3050968170420553) @ (-48), (-8871297742822353) @ (-49), (-7773281289935475) @ (-49), (-7643494584741751) @ (-49)));
  (21%N, (#, #, #, (-302852298247679) @ (-44)));
  (22%N, ((-609902861438431) @ (-45), #, (-7435075673190267) @ (-49), (-7857128249604397) @ (-49)));
  (23%N, ((-609902861438431) @ (-45), #, (-7435075673190267) @ (-49), (-4392620273043229) @ (-48)));
  (24%N, ((-4684119305002281) @ (-48), #, #, (-8395033373076123) @ (-49)));
  (25%N, (#, #, #, (-3951094144080465) @ (-48)));
  (26%N, ((-8978031436994227) @ (-49), (-841042158939437) @ (-46), (-6844532532160723) @ (-49), (-6813480256580097) @ (-49)));
  (27%N, (#, #, #, (-302852298247679) @ (-44)));
  (29%N, (#, #, #, (-70881326618687) @ (-42)));
  (30%N, (#, (-8871297742822353) @ (-49), #, (-8910859197905059) @ (-49)));
  (32%N, (#, #, #, (-70881326618687) @ (-42)));
  (34%N, (#, (-7575057571972747) @ (-49), (-3761685067605859) @ (-48), (-456223959081461) @ (-45)));
  (39%N, (#, #, #, (-4227173035229071) @ (-48)));
  (40%N, (#, #, #, (-4650533185457697) @ (-48)));
  (41%N, (#, #, (-4684119305002281) @ (-48), (-976926146266539) @ (-46)));
  (45%N, ((-2514331403054713) @ (-48), (-7458991330834807) @ (-50), (-8437839510648071) @ (-50), (-2808585751130761) @ (-48)));
  (56%N, (#, (-8090883396801683) @ (-49), (-2146956065995973) @ (-47), (-6360747868349803) @ (-49)));
  (58%N, (#, #, (-2078626915425975) @ (-47), (-302852298247679) @ (-44)));
  (60%N, ((-4260759154773655) @ (-48), #, #, (-7628871685880939) @ (-49)));
  (63%N, ((-6377169551585151) @ (-49), (-644583424064213) @ (-46), (-6480362367382569) @ (-49), (-6587489088080429) @ (-49)));
  (64%N, (#, #, #, (-4650533185457697) @ (-48)));
  (65%N, (#, #, #, (-7307683484381827) @ (-49)));
  (78%N, ((-5352774670131257) @ (-49), (-4692872813576249) @ (-49), (-2483483443973821) @ (-48), (-4914247703109935) @ (-49)));
  (79%N, ((-2146956065995973) @ (-47), (-784151982854103) @ (-46), (-5762415547903237) @ (-49), (-2900995181355479) @ (-48)));
  (80%N, ((-3278481635527623) @ (-48), (-3760701355345663) @ (-48), (-1610436237098159) @ (-47), (-6863080238721081) @ (-49)));
  (81%N, (#, (-6114059055574939) @ (-49), (-8951873348984877) @ (-50), (-6040748440070665) @ (-49)));
  (83%N, (#, #, (-571248877892569) @ (-45), (-2130163006223681) @ (-47)));
  (84%N, ((-3123840906345817) @ (-48), #, (-8359567700260433) @ (-49), (-1713019402318041) @ (-47)));
  (85%N, ((-7966767172614607) @ (-50), (-8760974439899739) @ (-50), (-7602558011526917) @ (-50), (-498903827563863) @ (-46)));
  (86%N, (#, #, #, (-302852298247679) @ (-44)));
  (88%N, (#, #, #, (-369986883717853) @ (-45)));
  (90%N, ((-4925709073745557) @ (-49), (-1177575220186071) @ (-47), (-5313710450665405) @ (-49), (-1251648182090327) @ (-47)));
  (91%N, ((-4925709073745557) @ (-49), (-1177575220186071) @ (-47), (-5313710450665405) @ (-49), (-4392620273043229) @ (-48)));
  (92%N, ((-2146956065995973) @ (-47), (-784151982854103) @ (-46), (-5762415547903237) @ (-49), (-2900995181355479) @ (-48)));
  (94%N, ((-6016860552261517) @ (-49), (-5944804081210427) @ (-49), (-6656935875530257) @ (-49), (-1526817325479289) @ (-47)));
  (95%N, ((-2395918474122569) @ (-48), (-5020412392782969) @ (-49), (-8380661296780139) @ (-50), (-302852298247679) @ (-44)));
  (96%N, (#, #, #, (-4650533185457697) @ (-48)));
  (97%N, (#, #, #, (-302852298247679) @ (-44)));
  (98%N, ((-2017999609788739) @ (-47), (-8252834006088559) @ (-49), (-8233949048441833) @ (-49), (-7029990791577139) @ (-49)));
  (103%N, ((-5458793673001059) @ (-49), (-2952878618773787) @ (-48), (-5624464329363545) @ (-49), (-5545045735042627) @ (-49)));
  (105%N, (#, #, #, (-271331332318175) @ (-44)));
  (107%N, ((-3099578987847313) @ (-48), (-1243965510465137) @ (-47), (-4809193559540299) @ (-49), (-2585735781236841) @ (-48)));
  (108%N, ((-3378195993368601) @ (-48), #, (-4204275375441935) @ (-48), (-7275959601375213) @ (-49)));
  (110%N, (#, #, #, (-7283724551427137) @ (-49)));
  (111%N, ((-3378195993368601) @ (-48), #, (-4204275375441935) @ (-48), (-7275959601375213) @ (-49)));
  (113%N, ((-3480344808752985) @ (-48), #, (-7681791266144621) @ (-49), (-855160738236529) @ (-46)));
  (117%N, (#, #, #, (-302852298247679) @ (-44)));
  (121%N, ((-6493846843300471) @ (-49), (-5437123472927511) @ (-49), (-1340459108614969) @ (-47), (-5855026937325703) @ (-49)));
  (122%N, (#, #, #, (-7643494584741751) @ (-49)));
  (123%N, (#, #, (-7862826752368233) @ (-49), (-3317411837498811) @ (-48)));
  (124%N, ((-8272788582231815) @ (-49), #, (-571248877892569) @ (-45), (-3396745883983567) @ (-48)));
  (125%N, ((-8095144111528729) @ (-50), (-7385640542039271) @ (-49), #, (-8606932163944443) @ (-50)));
  (126%N, ((-793268611604885) @ (-46), (-7385640542039271) @ (-49), (-3102627483097295) @ (-48), (-5617576647981363) @ (-49)));
  (127%N, (#, #, (-571248877892569) @ (-45), (-472560260360877) @ (-45)));
  (128%N, ((-7725679712283649) @ (-49), (-5973515966863759) @ (-49), (-2693767853917149) @ (-48), (-6301738729860781) @ (-49)));
  (129%N, ((-1800199549239177) @ (-47), (-6646945275490687) @ (-49), (-6171547190397043) @ (-49), (-6224011081856777) @ (-49)));
  (130%N, ((-6165802753272751) @ (-49), (-3357982123500955) @ (-48), #, (-6938251729979339) @ (-49)));
  (131%N, (#, #, #, (-8292395461171265) @ (-49)));
  (135%N, (#, #, #, (-4048158111928321) @ (-48)));
  (138%N, ((-6281741590972653) @ (-49), (-3606862978324355) @ (-48), (-3663958025301281) @ (-48), (-3244895515983039) @ (-48)));
  (139%N, (#, #, (-609902861438431) @ (-45), (-3670651212387731) @ (-48)));
  (140%N, ((-3301329885452235) @ (-48), (-6669024574133477) @ (-49), (-7756962757402879) @ (-49), (-3094137261827195) @ (-48)));
  (141%N, ((-8462205612165291) @ (-49), #, #, (-7386362463331995) @ (-49)));
  (143%N, (#, #, #, (-302852298247679) @ (-44)));
  (144%N, (#, #, #, (-7477852487122849) @ (-49)));
  (145%N, (#, #, #, (-3733460538297031) @ (-48)));
  (146%N, (#, #, #, (-302852298247679) @ (-44)));
  (147%N, (#, #, (-3187892340076311) @ (-48), (-7283724551427137) @ (-49)));
  (149%N, ((-2949300414076189) @ (-48), (-778145317480215) @ (-46), (-6415910052926391) @ (-49), (-6341359596119591) @ (-49)));
  (150%N, (#, #, #, (-4650533185457697) @ (-48)));
  (156%N, ((-3645792046567143) @ (-48), (-8871297742822353) @ (-49), (-8359567700260433) @ (-49), (-6991483479663675) @ (-49)));
  (157%N, ((-4426206392587813) @ (-48), #, #, (-456223959081461) @ (-45)));
  (158%N, (#, #, #, (-302852298247679) @ (-44)));
  (160%N, (#, #, #, (-3879055303555717) @ (-48)));
  (161%N, (#, (-8871297742822353) @ (-49), #, (-906660926466427) @ (-46)));
  (162%N, (#, #, #, (-4650533185457697) @ (-48)));
  (163%N, (#, (-4240545284906009) @ (-48), (-6157294531571557) @ (-49), (-7706109050846307) @ (-49)));
  (164%N, (#, (-7157383978315813) @ (-49), (-1795778112687613) @ (-47), (-7139646870377641) @ (-49)));
  (165%N, (#, #, #, (-8292395461171265) @ (-49)));
  (166%N, (#, #, #, (-3517497412055821) @ (-48)));
  (167%N, (#, #, (-8018343577873535) @ (-49), (-6800076053007037) @ (-49)));
  (168%N, (#, (-3887923857524803) @ (-48), #, (-7425201997121977) @ (-49)));
  (169%N, ((-3722114766328821) @ (-48), #, (-4684119305002281) @ (-48), (-7245928484021955) @ (-49)));
  (170%N, (#, #, (-6509413271575009) @ (-49), (-3888284818171165) @ (-48)));
  (171%N, (#, #, #, (-4227173035229071) @ (-48)));
  (172%N, ((-8978031436994227) @ (-49), #, #, (-7275959601375213) @ (-49)));
  (175%N, ((-3187892340076311) @ (-48), #, #, (-7628871685880939) @ (-49)));
  (176%N, ((-3695707134388909) @ (-48), #, (-4684119305002281) @ (-48), (-7587152606408853) @ (-49)));
  (177%N, ((-2078626915425975) @ (-47), #, (-3663958025301281) @ (-48), (-7600718321947853) @ (-49)));
  (179%N, (#, #, #, (-8395033373076123) @ (-49)));
  (180%N, (#, #, (-1910269588269243) @ (-47), (-869977916606673) @ (-46)));
  (181%N, (#, #, #, (-8064138897447807) @ (-49)));
  (182%N, ((-8978031436994227) @ (-49), #, (-4204275375441935) @ (-48), (-906660926466427) @ (-46)));
  (185%N, (#, #, #, (-1877995278787649) @ (-47)));
  (186%N, (#, #, #, (-7951171338784367) @ (-49)));
  (192%N, ((-7426068281774563) @ (-49), (-8871297742822353) @ (-49), (-8359567700260433) @ (-49), (-6934034856678315) @ (-49)));
  (193%N, (#, #, #, (-302852298247679) @ (-44)));
  (195%N, (#, #, #, (-4392620273043229) @ (-48)));
  (196%N, (#, #, (-7725679712283649) @ (-49), (-1853809505254573) @ (-47)));
  (198%N, ((-7545024726212017) @ (-49), (-8871297742822353) @ (-49), #, (-6848457339860269) @ (-49)));
  (199%N, ((-6068909278492185) @ (-49), (-2747098342348531) @ (-48), (-1387471216444353) @ (-47), (-5302714689407157) @ (-49)));
  (200%N, (#, #, #, (-302852298247679) @ (-44)));
  (201%N, (#, #, (-8018343577873535) @ (-49), (-3582197954329907) @ (-48)));
  (202%N, ((-7117451711230829) @ (-49), #, #, (-6678445256967907) @ (-49)));
  (203%N, ((-1256189774981879) @ (-47), (-2537696701488917) @ (-48), (-160483944962735) @ (-44), (-2520951697488493) @ (-48)));
  (206%N, (#, (-4240545284906009) @ (-48), (-3582982720657843) @ (-48), (-7689790518313711) @ (-49)));
  (207%N, ((-4331497877621075) @ (-48), #, (-8233949048441833) @ (-49), (-7055467987703679) @ (-49)));
  (208%N, ((-3704237331932315) @ (-48), (-7310469050781013) @ (-49), (-7567545727469403) @ (-49), (-7600718321947853) @ (-49)));
  (209%N, (#, #, (-8978031436994227) @ (-49), (-3670651212387731) @ (-48)));
  (210%N, (#, #, #, (-271331332318175) @ (-44)));
  (211%N, (#, #, #, (-6622611700393137) @ (-49)));
  (212%N, ((-7127877008308803) @ (-49), (-8871297742822353) @ (-49), #, (-788059768887281) @ (-46)));
  (214%N, (#, #, #, (-8166776809352665) @ (-49)));
  (216%N, (#, #, #, (-3630371905756697) @ (-48)));
  (217%N, ((-7018267490854295) @ (-49), (-3478296917619477) @ (-48), (-3140286215885321) @ (-48), (-6202985610806041) @ (-49)));
  (219%N, ((-3321712214036881) @ (-48), (-6566386662228619) @ (-49), (-6482030368464861) @ (-49), (-6095780128582987) @ (-49)));
  (220%N, (#, #, #, (-7795654513279065) @ (-49)));
  (222%N, ((-4081744231472905) @ (-48), #, #, (-7435345513955431) @ (-49)));
  (223%N, ((-1794334638614767) @ (-47), (-428372245208381) @ (-45), (-1665378182407533) @ (-47), (-3107870472150495) @ (-48)));
  (225%N, (#, #, #, (-8166776809352665) @ (-49)));
  (228%N, ((-823797092398745) @ (-46), (-3133834756504569) @ (-48), (-7773281289935475) @ (-49), (-3444810757719897) @ (-48)));
  (233%N, (#, #, #, (-1742172217418765) @ (-47)));
  (234%N, (#, #, #, (-4650533185457697) @ (-48)));
  (236%N, (#, #, #, (-2130163006223681) @ (-47)));
  (237%N, ((-3761685067605859) @ (-48), #, (-7453534702421163) @ (-49), (-1672986475717779) @ (-47)));
  (238%N, ((-6064913875252621) @ (-49), (-6463748750323761) @ (-49), (-5702033796083715) @ (-49), (-5719971437466799) @ (-49)));
  (240%N, ((-7435075673190267) @ (-49), #, (-1998329865051197) @ (-47), (-3630371905756697) @ (-48)));
  (241%N, ((-4204275375441935) @ (-48), #, #, (-239810366388671) @ (-44)));
  (242%N, ((-7862826752368233) @ (-49), #, #, (-3733460538297031) @ (-48)));
  (243%N, (#, #, (-1986594946834089) @ (-47), (-7523833130877875) @ (-49)));
  (244%N, ((-8359567700260433) @ (-49), #, #, (-7332707602050573) @ (-49)));
  (248%N, (#, #, (-8978031436994227) @ (-49), (-7857128249604397) @ (-49)));
  (249%N, ((-609902861438431) @ (-45), #, (-8233949048441833) @ (-49), (-6424971274762273) @ (-49)));
  (250%N, ((-4204275375441935) @ (-48), #, #, (-239810366388671) @ (-44)));
  (251%N, ((-6717008802539521) @ (-49), #, (-7773281289935475) @ (-49), (-3408440888610819) @ (-48)));
  (254%N, ((-1795778112687613) @ (-47), (-3638170211376633) @ (-48), (-3403802272520385) @ (-48), (-3120462506827631) @ (-48)))].

(** prob_emit.py, characters 0x8700 to 0x87ff *)
Definition emit_87 : list (N * num4) := [
  (0%N, ((-6295964241005071) @ (-49), (-3125675490238271) @ (-48), (-3157752297922227) @ (-48), (-5263350289305089) @ (-49)));
  (2%N, ((-2867585358739653) @ (-48), (-5858469455864531) @ (-49), (-2889469687144251) @ (-48), (-5669774347223779) @ (-49)));
  (3%N, ((-2078626915425975) @ (-47), (-6307692958809439) @ (-49), #, (-7121773942140261) @ (-49)));
  (5%N, (#, #, #, (-302852298247679) @ (-44)));
  (6%N, ((-8978031436994227) @ (-49), #, #, (-7275959601375213) @ (-49)));
  (7%N, ((-4684119305002281) @ (-48), (-3736209830033945) @ (-48), (-3801556143597227) @ (-48), (-7500373488380235) @ (-49)));
  (8%N, ((-6157294531571557) @ (-49), (-3982632372491541) @ (-48), #, (-2130163006223681) @ (-47)));
  (9%N, ((-3921870937715749) @ (-48), (-1925169055947837) @ (-47), (-4684119305002281) @ (-48), (-70881326618687) @ (-42)));
  (10%N, (#, #, (-8131311136536975) @ (-49), (-8395033373076123) @ (-49)));
  (11%N, (#, #, #, (-4227173035229071) @ (-48)));
  (13%N, (#, #, (-6831952121402971) @ (-49), (-4297911758076491) @ (-48)));
  (14%N, (#, #, #, (-8910859197905059) @ (-49)));
  (18%N, ((-4684119305002281) @ (-48), #, (-5923436429557781) @ (-49), (-456223959081461) @ (-45)));
  (19%N, (#, (-7082212487057555) @ (-49), (-878374446492819) @ (-46), (-7689790518313711) @ (-49)));
  (21%N, ((-6717008802539521) @ (-49), #, (-7773281289935475) @ (-49), (-3408440888610819) @ (-48)));
  (23%N, ((-3423861029421265) @ (-48), #, (-7681791266144621) @ (-49), (-7435345513955431) @ (-49)));
  (24%N, ((-6427920107438971) @ (-49), (-3518576224250511) @ (-48), #, (-4297911758076491) @ (-48)));
  (26%N, ((-895045487878171) @ (-46), (-6703857329774499) @ (-49), #, (-7628871685880939) @ (-49)));
  (27%N, (#, #, #, (-4650533185457697) @ (-48)));
  (28%N, ((-5765213979283555) @ (-49), (-365330313349373) @ (-45), (-5868600494960193) @ (-49), (-784872081718739) @ (-46)));
  (30%N, (#, #, #, (-302852298247679) @ (-44)));
  (33%N, ((-1430615131267275) @ (-47), (-6463748750323761) @ (-49), (-6523620964550923) @ (-49), (-3100920119596695) @ (-48)));
  (34%N, (#, #, (-1998329865051197) @ (-47), (-2061833855653683) @ (-47)));
  (35%N, ((-1998329865051197) @ (-47), #, #, (-4650533185457697) @ (-48)));
  (37%N, ((-6968563171774189) @ (-49), #, (-2078626915425975) @ (-47), (-6885752428364879) @ (-49)));
  (40%N, (#, #, #, (-302852298247679) @ (-44)));
  (41%N, (#, #, #, (-8395033373076123) @ (-49)));
  (46%N, (#, (-7385640542039271) @ (-49), (-8359567700260433) @ (-49), (-2061833855653683) @ (-47)));
  (48%N, (#, #, #, (-6408215574980407) @ (-49)));
  (49%N, (#, #, #, (-1853809505254573) @ (-47)));
  (52%N, (#, #, (-7022614616343179) @ (-49), (-4650533185457697) @ (-48)));
  (55%N, ((-3414425230460409) @ (-48), #, #, (-3543822657056257) @ (-48)));
  (57%N, (#, #, #, (-1853809505254573) @ (-47)));
  (58%N, (#, #, #, (-4650533185457697) @ (-48)));
  (59%N, ((-1746162137615165) @ (-47), (-1925169055947837) @ (-47), #, (-8395033373076123) @ (-49)));
  (61%N, (#, #, #, (-1969801887061797) @ (-47)));
  (62%N, ((-546860929579423) @ (-45), #, #, (-4650533185457697) @ (-48)));
  (63%N, ((-2983269368870487) @ (-48), #, #, (-8395033373076123) @ (-49)));
  (64%N, (#, #, #, (-4392620273043229) @ (-48)));
  (66%N, (#, #, #, (-302852298247679) @ (-44)));
  (67%N, (#, #, #, (-302852298247679) @ (-44)));
  (71%N, ((-7453534702421163) @ (-49), (-491414177067389) @ (-45), (-777206336917297) @ (-46), (-50275542397939) @ (-42)));
  (72%N, ((-2011133004627089) @ (-47), (-3982632372491541) @ (-48), (-8197617090973557) @ (-49), (-70881326618687) @ (-42)));
  (73%N, ((-6810591023946373) @ (-49), (-6566386662228619) @ (-49), (-100973958080197) @ (-43), (-1538667942845091) @ (-47)));
  (76%N, ((-6509413271575009) @ (-49), #, (-609902861438431) @ (-45), (-7060704769219635) @ (-49)));
  (78%N, ((-1673051308334307) @ (-47), (-841042158939437) @ (-46), (-7250871180066637) @ (-49), (-6649836563450353) @ (-49)));
  (83%N, (#, #, (-4081744231472905) @ (-48), (-302852298247679) @ (-44)));
  (85%N, ((-7725679712283649) @ (-49), (-5973515966863759) @ (-49), (-2693767853917149) @ (-48), (-6301738729860781) @ (-49)));
  (87%N, ((-6819646714444379) @ (-49), #, (-6992866943914805) @ (-49), (-6574031476229409) @ (-49)));
  (89%N, ((-406948109194601) @ (-45), (-4240545284906009) @ (-48), #, (-271331332318175) @ (-44)));
  (90%N, (#, #, #, (-302852298247679) @ (-44)));
  (92%N, (#, #, #, (-302852298247679) @ (-44)));
  (95%N, (#, #, #, (-4392620273043229) @ (-48)));
  (96%N, ((-7399879841139741) @ (-49), (-491414177067389) @ (-45), (-6475387814069575) @ (-49), (-7170756992763697) @ (-49)));
  (99%N, (#, #, (-3921870937715749) @ (-48), (-4650533185457697) @ (-48)));
  (100%N, ((-8978031436994227) @ (-49), #, #, (-70881326618687) @ (-42)));
  (101%N, (#, #, (-4684119305002281) @ (-48), (-302852298247679) @ (-44)));
  (102%N, ((-793268611604885) @ (-46), (-7385640542039271) @ (-49), (-3102627483097295) @ (-48), (-5617576647981363) @ (-49)));
  (104%N, ((-3480344808752985) @ (-48), #, (-7681791266144621) @ (-49), (-8166776809352665) @ (-49)));
  (106%N, (#, #, #, (-302852298247679) @ (-44)));
  (110%N, ((-7374855723470995) @ (-49), #, #, (-1969801887061797) @ (-47)));
  (111%N, (#, #, #, (-302852298247679) @ (-44)));
  (112%N, ((-546860929579423) @ (-45), #, #, (-3728098948061275) @ (-48)));
  (113%N, (#, #, #, (-4650533185457697) @ (-48)));
  (114%N, ((-8978031436994227) @ (-49), #, #, (-302852298247679) @ (-44)));
  (116%N, ((-6146146643457553) @ (-49), (-7015906532620973) @ (-49), #, (-4650533185457697) @ (-48)));
  (118%N, ((-6933968332578247) @ (-49), (-5973515966863759) @ (-49), (-2986632311820945) @ (-48), (-6541731033373189) @ (-49)));
  (119%N, (#, #, #, (-302852298247679) @ (-44)));
  (120%N, ((-3423861029421265) @ (-48), #, (-7681791266144621) @ (-49), (-7435345513955431) @ (-49)));
  (123%N, (#, #, (-4426206392587813) @ (-48), (-302852298247679) @ (-44)));
  (124%N, ((-7320459650820583) @ (-49), #, #, (-2130163006223681) @ (-47)));
  (125%N, (#, #, (-609902861438431) @ (-45), (-7587152606408853) @ (-49)));
  (126%N, ((-7615485311708039) @ (-49), #, #, (-2130163006223681) @ (-47)));
  (128%N, (#, #, #, (-302852298247679) @ (-44)));
  (130%N, (#, (-428372245208381) @ (-45), (-1709551796309617) @ (-47), (-2061833855653683) @ (-47)));
  (131%N, ((-6819646714444379) @ (-49), #, #, (-271331332318175) @ (-44)));
  (132%N, (#, #, (-1986594946834089) @ (-47), (-7523833130877875) @ (-49)));
  (133%N, (#, #, (-7374855723470995) @ (-49), (-3189628739681845) @ (-48)));
  (136%N, (#, #, (-7579153354239763) @ (-49), (-1853809505254573) @ (-47)));
  (139%N, (#, #, (-609902861438431) @ (-45), (-4297911758076491) @ (-48)));
  (141%N, ((-5025010136700203) @ (-49), (-5021014800495265) @ (-49), (-4748189165901583) @ (-49), (-6105338082344209) @ (-49)));
  (144%N, (#, #, #, (-1969801887061797) @ (-47)));
  (146%N, (#, #, #, (-3722837580357007) @ (-48)));
  (147%N, ((-571248877892569) @ (-45), #, #, (-302852298247679) @ (-44)));
  (151%N, (#, #, #, (-4297911758076491) @ (-48)));
  (152%N, (#, #, #, (-4650533185457697) @ (-48)));
  (155%N, (#, #, #, (-6973174550407917) @ (-49)));
  (158%N, ((-6165802753272751) @ (-49), (-3357982123500955) @ (-48), #, (-6938251729979339) @ (-49)));
  (159%N, ((-7862826752368233) @ (-49), (-8871297742822353) @ (-49), (-3801556143597227) @ (-48), (-7435345513955431) @ (-49)));
  (160%N, (#, #, #, (-271331332318175) @ (-44)));
  (162%N, ((-193410650259593) @ (-44), #, (-1975763643203379) @ (-47), (-70881326618687) @ (-42)));
  (168%N, ((-2078626915425975) @ (-47), (-3760701355345663) @ (-48), (-4204275375441935) @ (-48), (-3242993650796661) @ (-48)));
  (171%N, ((-4204275375441935) @ (-48), #, #, (-7115940211661285) @ (-49)));
  (172%N, (#, #, (-8359567700260433) @ (-49), #));
  (173%N, (#, #, (-2078626915425975) @ (-47), (-6266004882743061) @ (-49)));
  (175%N, ((-2017999609788739) @ (-47), #, (-4426206392587813) @ (-48), (-3471250214520119) @ (-48)));
  (176%N, (#, #, #, (-302852298247679) @ (-44)));
  (177%N, (#, #, #, (-4650533185457697) @ (-48)));
  (178%N, (#, #, #, (-8910859197905059) @ (-49)));
  (179%N, ((-7143886142672895) @ (-49), #, #, (-4170689255897351) @ (-48)));
  (181%N, (#, (-8090883396801683) @ (-49), #, (-70881326618687) @ (-42)));
  (186%N, ((-5693736667946689) @ (-49), (-2980287009324993) @ (-48), (-6259932443476415) @ (-49), (-2998075690500123) @ (-48)));
  (187%N, ((-7320459650820583) @ (-49), #, #, (-2130163006223681) @ (-47)));
  (188%N, (#, #, #, (-4297911758076491) @ (-48)));
  (189%N, ((-2146956065995973) @ (-47), #, #, (-271331332318175) @ (-44)));
  (190%N, (#, #, #, (-3254602511589511) @ (-48)));
  (191%N, (#, #, #, (-4297911758076491) @ (-48)));
  (192%N, (#, #, (-6709452313868769) @ (-49), (-7386362463331995) @ (-49)));
  (193%N, (#, #, #, (-4227173035229071) @ (-48)));
  (196%N, ((-7435075673190267) @ (-49), #, (-1998329865051197) @ (-47), (-3630371905756697) @ (-48)));
  (198%N, (#, (-7310469050781013) @ (-49), (-6470456834045967) @ (-49), (-6796774284284499) @ (-49)));
  (200%N, ((-2011133004627089) @ (-47), (-3982632372491541) @ (-48), (-8197617090973557) @ (-49), (-70881326618687) @ (-42)));
  (202%N, ((-4204275375441935) @ (-48), #, #, (-1930728693765227) @ (-47)));
  (203%N, ((-6709452313868769) @ (-49), #, #, (-4170689255897351) @ (-48)));
  (206%N, ((-2078626915425975) @ (-47), (-3760701355345663) @ (-48), (-4204275375441935) @ (-48), (-3242993650796661) @ (-48)));
  (207%N, (#, #, #, (-302852298247679) @ (-44)));
  (209%N, ((-7171623277416283) @ (-49), #, #, (-8910859197905059) @ (-49)));
  (210%N, ((-7127877008308803) @ (-49), (-8871297742822353) @ (-49), (-1795778112687613) @ (-47), (-401881050182303) @ (-45)));
  (213%N, (#, #, #, (-70881326618687) @ (-42)));
  (216%N, (#, #, #, (-4297911758076491) @ (-48)));
  (218%N, (#, #, #, (-70881326618687) @ (-42)));
  (219%N, (#, #, #, (-7170756992763697) @ (-49)));
  (220%N, (#, #, #, (-70881326618687) @ (-42)));
  (221%N, (#, #, #, (-8166776809352665) @ (-49)));
  (222%N, (#, #, #, (-302852298247679) @ (-44)));
  (223%N, (#, #, #, (-8033701757752085) @ (-49)));
  (224%N, ((-6219743448504675) @ (-49), (-6538920241582019) @ (-49), (-3326197965972903) @ (-48), (-6885752428364879) @ (-49)));
  (226%N, (#, #, #, (-7500373488380235) @ (-49)));
  (227%N, (#, #, #, (-7283724551427137) @ (-49)));
  (229%N, (#, #, (-7492374236211145) @ (-49), (-302852298247679) @ (-44)));
  (230%N, (#, #, #, (-8395033373076123) @ (-49)));
  (234%N, ((-4684119305002281) @ (-48), #, #, (-7614619027055453) @ (-49)));
  (236%N, ((-6810591023946373) @ (-49), (-6566386662228619) @ (-49), (-100973958080197) @ (-43), (-302852298247679) @ (-44)));
  (237%N, (#, #, #, (-8064138897447807) @ (-49)));
  (238%N, (#, #, #, (-6440490020332539) @ (-49)));
  (239%N, ((-7862826752368233) @ (-49), #, #, (-3733460538297031) @ (-48)));
  (240%N, (#, #, #, (-271331332318175) @ (-44)));
  (242%N, ((-3099578987847313) @ (-48), (-1243965510465137) @ (-47), (-4809193559540299) @ (-49), (-70881326618687) @ (-42)));
  (246%N, ((-4331497877621075) @ (-48), #, (-8233949048441833) @ (-49), (-7055467987703679) @ (-49)));
  (247%N, (#, #, #, (-70881326618687) @ (-42)));
  (248%N, (#, #, #, (-6629907050266015) @ (-49)));
  (249%N, ((-7244363015634439) @ (-49), (-7015906532620973) @ (-49), (-5981443217177081) @ (-49), (-1481691516151005) @ (-47)));
  (251%N, ((-1800199549239177) @ (-47), (-6646945275490687) @ (-49), (-6171547190397043) @ (-49), (-6224011081856777) @ (-49)));
  (252%N, (#, #, #, (-4170689255897351) @ (-48)));
  (254%N, ((-1676738964413993) @ (-47), (-8252834006088559) @ (-49), (-7143886142672895) @ (-49), (-6262170929535311) @ (-49)))].

(** prob_emit.py, characters 0x8800 to 0x88ff *)
Definition emit_88 : list (N * num4) := [
  (0%N, (#, #, #, (-4227173035229071) @ (-48)));
  (1%N, (#, #, #, (-8292395461171265) @ (-49)));
  (3%N, (#, #, (-546860929579423) @ (-45), (-4392620273043229) @ (-48)));
  (5%N, ((-7453534702421163) @ (-49), (-491414177067389) @ (-45), (-777206336917297) @ (-46), (-50275542397939) @ (-42)));
  (6%N, (#, #, (-571248877892569) @ (-45), (-472560260360877) @ (-45)));
  (10%N, (#, #, (-4204275375441935) @ (-48), (-1822899526423839) @ (-47)));
  (11%N, (#, #, #, (-4170689255897351) @ (-48)));
  (13%N, ((-1673051308334307) @ (-47), (-841042158939437) @ (-46), (-7250871180066637) @ (-49), (-6649836563450353) @ (-49)));
  (14%N, (#, #, #, (-1828975469458993) @ (-47)));
  (16%N, ((-8359567700260433) @ (-49), #, #, (-7332707602050573) @ (-49)));
  (17%N, ((-7615485311708039) @ (-49), #, #, (-2130163006223681) @ (-47)));
  (19%N, ((-8462205612165291) @ (-49), #, #, (-3543822657056257) @ (-48)));
  (20%N, ((-4426206392587813) @ (-48), #, #, (-70881326618687) @ (-42)));
  (21%N, ((-6252105803659111) @ (-49), (-4240545284906009) @ (-48), (-3921870937715749) @ (-48), (-472560260360877) @ (-45)));
  (22%N, (#, (-8871297742822353) @ (-49), (-2017999609788739) @ (-47), (-7307683484381827) @ (-49)));
  (25%N, (#, #, #, (-4392620273043229) @ (-48)));
  (27%N, (#, #, #, (-7628871685880939) @ (-49)));
  (31%N, ((-1430615131267275) @ (-47), (-6463748750323761) @ (-49), (-6523620964550923) @ (-49), (-3100920119596695) @ (-48)));
  (32%N, (#, #, #, (-8910859197905059) @ (-49)));
  (33%N, ((-3921870937715749) @ (-48), (-5636472924358379) @ (-49), (-6068909278492185) @ (-49), (-3662121014844325) @ (-48)));
  (34%N, ((-1613581339787597) @ (-47), (-1623981519183149) @ (-47), (-3102627483097295) @ (-48), (-6438744437682999) @ (-49)));
  (35%N, (#, (-4240545284906009) @ (-48), (-3582982720657843) @ (-48), (-7689790518313711) @ (-49)));
  (37%N, (#, #, #, (-302852298247679) @ (-44)));
  (38%N, (#, #, #, (-302852298247679) @ (-44)));
  (40%N, (#, #, #, (-302852298247679) @ (-44)));
  (49%N, ((-7117451711230829) @ (-49), #, #, (-6678445256967907) @ (-49)));
  (50%N, ((-985322676152685) @ (-46), #, #, (-7658507473194481) @ (-49)));
  (52%N, (#, #, #, (-70881326618687) @ (-42)));
  (53%N, (#, #, #, (-4227173035229071) @ (-48)));
  (54%N, ((-2949300414076189) @ (-48), (-778145317480215) @ (-46), (-6415910052926391) @ (-49), (-6341359596119591) @ (-49)));
  (57%N, ((-4204275375441935) @ (-48), #, (-4331497877621075) @ (-48), (-3460785255448521) @ (-48)));
  (59%N, ((-6064913875252621) @ (-49), (-6463748750323761) @ (-49), (-5702033796083715) @ (-49), (-5719971437466799) @ (-49)));
  (60%N, ((-609902861438431) @ (-45), #, #, (-3722837580357007) @ (-48)));
  (63%N, (#, #, #, (-302852298247679) @ (-44)));
  (64%N, ((-8812925417206451) @ (-50), (-2105979251590787) @ (-48), (-4641750712022359) @ (-49), (-1165814195073755) @ (-47)));
  (65%N, (#, #, #, (-3171413761909075) @ (-48)));
  (66%N, (#, #, #, (-302852298247679) @ (-44)));
  (68%N, (#, #, #, (-3702723670134365) @ (-48)));
  (69%N, (#, (-6669024574133477) @ (-49), (-6377169551585151) @ (-49), (-3374719848683653) @ (-48)));
  (70%N, (#, #, #, (-70881326618687) @ (-42)));
  (73%N, (#, #, #, (-302852298247679) @ (-44)));
  (74%N, (#, #, #, (-302852298247679) @ (-44)));
  (75%N, (#, #, #, (-302852298247679) @ (-44)));
  (76%N, ((-3324864223063655) @ (-49), (-3301702433527829) @ (-49), (-5879319977173171) @ (-50), (-2029592486265633) @ (-48)));
  (77%N, ((-5878233492167273) @ (-49), (-1419859635331521) @ (-47), (-1445335004346677) @ (-47), (-6539642162874743) @ (-49)));
  (78%N, (#, #, #, (-8910859197905059) @ (-49)));
  (79%N, (#, #, #, (-3535663390789959) @ (-48)));
  (82%N, (#, #, #, (-4392620273043229) @ (-48)));
  (83%N, ((-5942329140609933) @ (-49), (-1865966077314191) @ (-48), (-6909702126555361) @ (-50), (-1290412311564535) @ (-47)));
  (84%N, ((-6159174165883457) @ (-49), (-6703857329774499) @ (-49), (-2826612454677655) @ (-48), (-694843813832315) @ (-46)));
  (85%N, (#, #, #, (-8910859197905059) @ (-49)));
  (86%N, (#, #, #, (-8064138897447807) @ (-49)));
  (87%N, ((-576701606120623) @ (-46), (-2557638553474793) @ (-48), (-1169968366135421) @ (-47), (-1146501515617103) @ (-47)));
  (89%N, ((-5080513561472453) @ (-49), (-6869814717210335) @ (-49), (-6873910499477351) @ (-49), (-3154306220531727) @ (-48)));
  (91%N, ((-2183928770995621) @ (-48), (-7680478003390857) @ (-50), (-8953199609020085) @ (-50), (-5520641606372033) @ (-49)));
  (93%N, ((-8706787896630639) @ (-50), (-4532354111877897) @ (-49), (-4611862400050295) @ (-49), (-302852298247679) @ (-44)));
  (96%N, (#, #, (-4260759154773655) @ (-48), (-8910859197905059) @ (-49)));
  (97%N, ((-2749495674838789) @ (-48), (-5695186420030371) @ (-49), (-4765181053894869) @ (-49), (-3222879740574019) @ (-48)));
  (98%N, ((-878374446492819) @ (-46), #, (-5822763080049859) @ (-49), (-6603607365691809) @ (-49)));
  (99%N, ((-4497750939692263) @ (-49), (-2290611084574599) @ (-48), (-4720108841210043) @ (-49), (-5133856632067243) @ (-49)));
  (100%N, (#, #, #, (-8064138897447807) @ (-49)));
  (101%N, ((-4567883561326157) @ (-49), (-2460144388472147) @ (-48), (-1291281538750035) @ (-47), (-5137472472307313) @ (-49)));
  (102%N, (#, #, #, (-4650533185457697) @ (-48)));
  (104%N, ((-1764624006553289) @ (-48), (-5419183721168063) @ (-50), (-7193023115489461) @ (-50), (-4792289352124201) @ (-49)));
  (105%N, (#, (-8871297742822353) @ (-49), (-1947521753537519) @ (-47), (-7367903434101099) @ (-49)));
  (107%N, ((-2017999609788739) @ (-47), (-5654752126099031) @ (-49), (-5444859883355621) @ (-49), (-5920483854857995) @ (-49)));
  (108%N, ((-5942329140609933) @ (-49), (-3982632372491541) @ (-48), (-828507539730495) @ (-46), (-6366850366627415) @ (-49)));
  (110%N, ((-2146956065995973) @ (-47), (-7575057571972747) @ (-49), (-2864280330826273) @ (-48), (-3374719848683653) @ (-48)));
  (111%N, (#, #, #, (-8205616343142647) @ (-49)));
  (112%N, ((-2583935144619515) @ (-48), (-2819137182873279) @ (-48), (-5772271530390357) @ (-49), (-1477201350406841) @ (-47)));
  (114%N, (#, (-3469067403004029) @ (-48), (-6378557838240453) @ (-49), (-3634150150092073) @ (-48)));
  (119%N, ((-6457514885832195) @ (-49), (-1379979921269827) @ (-47), (-5750902877690987) @ (-49), (-6365318529074281) @ (-49)));
  (122%N, (#, #, #, (-302852298247679) @ (-44)));
  (125%N, ((-609902861438431) @ (-45), #, (-7545024726212017) @ (-49), (-976926146266539) @ (-46)));
  (126%N, (#, #, (-609902861438431) @ (-45), (-7060704769219635) @ (-49)));
  (127%N, (#, (-8871297742822353) @ (-49), (-571248877892569) @ (-45), (-7500373488380235) @ (-49)));
  (129%N, ((-8596187481719905) @ (-50), (-6069645714336419) @ (-49), (-7343131840464381) @ (-49), (-5209028123325501) @ (-49)));
  (130%N, (#, (-3638170211376633) @ (-48), (-3645792046567143) @ (-48), (-3728098948061275) @ (-48)));
  (132%N, (#, #, (-3198462104219199) @ (-48), (-3199198215754259) @ (-48)));
  (133%N, ((-6831952121402971) @ (-49), (-1643962057175493) @ (-47), (-7013953676999103) @ (-49), (-7307683484381827) @ (-49)));
  (134%N, (#, (-8871297742822353) @ (-49), (-609902861438431) @ (-45), (-4392620273043229) @ (-48)));
  (136%N, ((-1630008820983823) @ (-47), #, #, (-271331332318175) @ (-44)));
  (138%N, (#, #, #, (-4650533185457697) @ (-48)));
  (139%N, ((-3158997764452997) @ (-48), (-5938617755731305) @ (-49), (-2444077491385249) @ (-48), (-5777235277283137) @ (-49)));
  (141%N, ((-3286220266632137) @ (-48), (-874429171128617) @ (-46), (-2731438985555339) @ (-48), (-5645833942416059) @ (-49)));
  (146%N, ((-6887476215016351) @ (-49), #, (-7058655718752843) @ (-49), (-3612205927022559) @ (-48)));
  (147%N, (#, #, #, (-4392620273043229) @ (-48)));
  (149%N, (#, #, #, (-7628871685880939) @ (-49)));
  (150%N, ((-5755939470447219) @ (-49), (-5715511730711927) @ (-49), (-1284714301671259) @ (-47), (-45223846298979) @ (-42)));
  (155%N, (#, #, (-609902861438431) @ (-45), (-302852298247679) @ (-44)));
  (156%N, ((-3238520559542935) @ (-48), (-3817185134677383) @ (-48), (-846618816505503) @ (-46), (-6837734159388757) @ (-49)));
  (157%N, (#, #, #, (-70881326618687) @ (-42)));
  (158%N, ((-2146956065995973) @ (-47), (-7575057571972747) @ (-49), (-2864280330826273) @ (-48), (-3374719848683653) @ (-48)));
  (162%N, (#, #, (-8978031436994227) @ (-49), (-7658507473194481) @ (-49)));
  (164%N, (#, #, (-7133162962201383) @ (-49), (-8205616343142647) @ (-49)));
  (170%N, (#, #, #, (-4650533185457697) @ (-48)));
  (171%N, ((-4505879606399039) @ (-49), (-105327943197979) @ (-43), (-5390651896074227) @ (-49), (-6345600672299033) @ (-50)));
  (173%N, ((-1384395295721331) @ (-47), (-5721755232269813) @ (-49), (-5172256301540057) @ (-49), (-5250324884733203) @ (-49)));
  (177%N, (#, (-8871297742822353) @ (-49), (-5899193719153385) @ (-49), (-6452863044846125) @ (-49)));
  (178%N, (#, #, #, (-4650533185457697) @ (-48)));
  (180%N, (#, (-8090883396801683) @ (-49), #, (-271331332318175) @ (-44)));
  (183%N, ((-8978031436994227) @ (-49), #, #, (-6743418784857205) @ (-49)));
  (188%N, (#, #, #, (-8130444851884389) @ (-49)));
  (190%N, (#, #, #, (-8910859197905059) @ (-49)));
  (191%N, (#, #, #, (-302852298247679) @ (-44)));
  (192%N, (#, #, #, (-4297911758076491) @ (-48)));
  (193%N, ((-5136403593633149) @ (-49), (-5235576507034327) @ (-49), (-4994110647636827) @ (-49), (-5603172025339751) @ (-49)));
  (194%N, ((-5489456942426039) @ (-49), (-5480398200929225) @ (-49), (-2450500388267911) @ (-48), (-350495795615663) @ (-45)));
  (195%N, (#, #, #, (-2061833855653683) @ (-47)));
  (197%N, ((-8217452042262671) @ (-50), (-4149276205879029) @ (-49), (-2123587696316405) @ (-48), (-4714876889440555) @ (-49)));
  (198%N, ((-4426206392587813) @ (-48), (-1764807936785953) @ (-47), (-3638841694013343) @ (-48), (-7121773942140261) @ (-49)));
  (199%N, (#, #, #, (-6622611700393137) @ (-49)));
  (200%N, (#, #, #, (-2130163006223681) @ (-47)));
  (201%N, (#, #, #, (-7367903434101099) @ (-49)));
  (202%N, ((-6831952121402971) @ (-49), (-1643962057175493) @ (-47), (-7013953676999103) @ (-49), (-7307683484381827) @ (-49)));
  (206%N, (#, #, #, (-8130444851884389) @ (-49)));
  (207%N, (#, #, #, (-6033914365811853) @ (-49)));
  (210%N, (#, #, #, (-8205616343142647) @ (-49)));
  (212%N, ((-609902861438431) @ (-45), (-7131195537680991) @ (-49), (-5800922859816701) @ (-49), (-6456448725461755) @ (-49)));
  (213%N, ((-6933968332578247) @ (-49), (-1263635255202679) @ (-47), (-5362979480443287) @ (-49), (-2996492142150663) @ (-48)));
  (216%N, ((-5890365258760307) @ (-49), (-1925169055947837) @ (-47), (-1826459187989943) @ (-47), (-2929684636273067) @ (-48)));
  (217%N, ((-394179507271553) @ (-45), (-3817185134677383) @ (-48), (-6096857058683651) @ (-49), (-5900035482632401) @ (-49)));
  (218%N, (#, #, #, (-4650533185457697) @ (-48)));
  (219%N, (#, #, #, (-4170689255897351) @ (-48)));
  (220%N, ((-4567883561326157) @ (-49), (-2460144388472147) @ (-48), (-1291281538750035) @ (-47), (-5137472472307313) @ (-49)));
  (221%N, ((-8217452042262671) @ (-50), (-4149276205879029) @ (-49), (-2123587696316405) @ (-48), (-4650533185457697) @ (-48)));
  (223%N, (#, #, (-1630008820983823) @ (-47), (-7658507473194481) @ (-49)));
  (225%N, ((-8850708554394507) @ (-50), (-3442790151181889) @ (-49), (-6202166781732899) @ (-50), (-8910859197905059) @ (-49)));
  (226%N, (#, #, (-3761685067605859) @ (-48), (-3951094144080465) @ (-48)));
  (227%N, ((-2011133004627089) @ (-47), #, #, (-4048158111928321) @ (-48)));
  (228%N, ((-5742757157465721) @ (-49), (-6838531672091105) @ (-49), (-1506797549755025) @ (-47), (-386907056012469) @ (-45)));
  (229%N, (#, #, (-2146956065995973) @ (-47), (-976926146266539) @ (-46)));
  (232%N, ((-7492374236211145) @ (-49), (-105327943197979) @ (-43), #, (-6946781437909935) @ (-49)));
  (233%N, (#, #, #, (-70881326618687) @ (-42)));
  (239%N, (#, #, #, (-4227173035229071) @ (-48)));
  (240%N, (#, #, (-7092203087097125) @ (-49), (-3870118839437027) @ (-48)));
  (241%N, ((-238379262651975) @ (-44), #, (-3756423699901591) @ (-48), (-225115232174701) @ (-44)));
  (243%N, (#, (-491414177067389) @ (-45), (-6045351449903179) @ (-49), (-7170756992763697) @ (-49)));
  (244%N, ((-2894545801106889) @ (-48), (-7575057571972747) @ (-49), (-7696043924970107) @ (-49), (-3164875984674615) @ (-48)));
  (248%N, ((-5981443217177081) @ (-49), (-5923442983753829) @ (-49), (-3301329885452235) @ (-48), (-6236040384715157) @ (-49)));
  (249%N, ((-6949081990735609) @ (-49), (-7157383978315813) @ (-49), (-2947528267760435) @ (-48), (-5621644223144629) @ (-49)));
  (252%N, (#, (-8090883396801683) @ (-49), (-4684119305002281) @ (-48), (-7643494584741751) @ (-49)));
  (254%N, (#, #, (-2017999609788739) @ (-47), (-1853809505254573) @ (-47)));
  (255%N, (#, #, #, (-4650533185457697) @ (-48)))].

(** prob_emit.py, characters 0x8900 to 0x89ff *)
Definition emit_89 : list (N * num4) := [
  (0%N, (#, #, #, (-4650533185457697) @ (-48)));
  (2%N, ((-7013953676999103) @ (-49), (-4240545284906009) @ (-48), (-406948109194601) @ (-45), (-6292254390791667) @ (-49)));
  (3%N, (#, #, #, (-7587152606408853) @ (-49)));
  (6%N, (#, #, #, (-302852298247679) @ (-44)));
  (7%N, (#, #, #, (-4650533185457697) @ (-48)));
  (8%N, (#, #, #, (-302852298247679) @ (-44)));
  (10%N, ((-8233949048441833) @ (-49), #, #, (-7951171338784367) @ (-49)));
  (12%N, (#, #, #, (-2130163006223681) @ (-47)));
  (14%N, (#, #, #, (-271331332318175) @ (-44)));
  (16%N, ((-6045351449903179) @ (-49), (-5118134727062431) @ (-49), (-7171623277416283) @ (-49), (-3125411644908413) @ (-48)));
  (18%N, ((-3325069808243375) @ (-48), #, (-7756962757402879) @ (-49), (-1745563646303515) @ (-47)));
  (19%N, (#, (-3817185134677383) @ (-48), (-3632058836243843) @ (-48), (-70881326618687) @ (-42)));
  (20%N, (#, #, #, (-302852298247679) @ (-44)));
  (22%N, (#, #, #, (-302852298247679) @ (-44)));
  (24%N, (#, (-8871297742822353) @ (-49), (-609902861438431) @ (-45), (-4392620273043229) @ (-48)));
  (25%N, (#, #, (-571248877892569) @ (-45), (-2130163006223681) @ (-47)));
  (26%N, ((-1493147101850079) @ (-47), (-105327943197979) @ (-43), (-7591005369967043) @ (-49), (-1588677703418531) @ (-47)));
  (27%N, (#, (-8090883396801683) @ (-49), (-3504836334064703) @ (-48), (-8910859197905059) @ (-49)));
  (29%N, (#, #, #, (-1828975469458993) @ (-47)));
  (31%N, (#, #, #, (-7477852487122849) @ (-49)));
  (32%N, (#, #, #, (-6421579999726895) @ (-49)));
  (33%N, ((-3761685067605859) @ (-48), (-7385640542039271) @ (-49), #, (-1893476528496951) @ (-47)));
  (34%N, (#, #, #, (-6403284594956799) @ (-49)));
  (37%N, ((-1814363866276635) @ (-47), (-6823518783638375) @ (-49), (-6697079289355183) @ (-49), (-108816228894371) @ (-43)));
  (39%N, (#, #, #, (-302852298247679) @ (-44)));
  (42%N, ((-3456016221203681) @ (-48), #, #, (-6118011084002939) @ (-49)));
  (43%N, ((-7667890561037021) @ (-49), #, #, (-7689790518313711) @ (-49)));
  (45%N, (#, #, #, (-8910859197905059) @ (-49)));
  (48%N, (#, (-8871297742822353) @ (-49), #, (-5760793742629897) @ (-49)));
  (50%N, ((-5742757157465721) @ (-49), (-6838531672091105) @ (-49), (-1506797549755025) @ (-47), (-386907056012469) @ (-45)));
  (51%N, (#, #, (-3761685067605859) @ (-48), (-1797570806504343) @ (-47)));
  (52%N, ((-3767046657841615) @ (-48), (-6376969632295143) @ (-49), #, (-3888284818171165) @ (-48)));
  (53%N, (#, #, (-609902861438431) @ (-45), (-302852298247679) @ (-44)));
  (54%N, ((-6219743448504675) @ (-49), (-7244163096344431) @ (-49), (-3638841694013343) @ (-48), (-6637298184271627) @ (-49)));
  (56%N, (#, (-8090883396801683) @ (-49), (-3504836334064703) @ (-48), (-8910859197905059) @ (-49)));
  (59%N, ((-6880652495669265) @ (-49), (-4240545284906009) @ (-48), (-7579153354239763) @ (-49), (-7025030848007957) @ (-49)));
  (64%N, (#, #, #, (-8910859197905059) @ (-49)));
  (65%N, ((-7206819109466809) @ (-49), #, #, (-302852298247679) @ (-44)));
  (68%N, ((-8600198430903567) @ (-50), (-5237344012264711) @ (-49), (-5351876464989099) @ (-49), (-5100859887136293) @ (-49)));
  (73%N, (#, #, (-2146956065995973) @ (-47), (-976926146266539) @ (-46)));
  (76%N, (#, #, #, (-70881326618687) @ (-42)));
  (79%N, (#, #, #, (-302852298247679) @ (-44)));
  (81%N, (#, #, #, (-302852298247679) @ (-44)));
  (84%N, (#, #, #, (-302852298247679) @ (-44)));
  (85%N, (#, #, #, (-7386362463331995) @ (-49)));
  (86%N, (#, #, (-3198462104219199) @ (-48), (-3199198215754259) @ (-48)));
  (91%N, (#, #, #, (-2130163006223681) @ (-47)));
  (92%N, (#, #, #, (-8205616343142647) @ (-49)));
  (93%N, ((-2011133004627089) @ (-47), #, #, (-4048158111928321) @ (-48)));
  (94%N, (#, #, (-2078626915425975) @ (-47), (-8395033373076123) @ (-49)));
  (95%N, ((-3632058836243843) @ (-48), (-1539430114996847) @ (-47), (-724433664619773) @ (-46), (-6440490020332539) @ (-49)));
  (96%N, ((-4426206392587813) @ (-48), (-1764807936785953) @ (-47), (-3638841694013343) @ (-48), (-7121773942140261) @ (-49)));
  (100%N, ((-3767046657841615) @ (-48), (-6376969632295143) @ (-49), #, (-3888284818171165) @ (-48)));
  (102%N, (#, #, (-609902861438431) @ (-45), (-3879055303555717) @ (-48)));
  (104%N, (#, #, #, (-4392620273043229) @ (-48)));
  (106%N, ((-3238520559542935) @ (-48), (-3817185134677383) @ (-48), (-846618816505503) @ (-46), (-6837734159388757) @ (-49)));
  (108%N, (#, #, #, (-4650533185457697) @ (-48)));
  (111%N, ((-5942329140609933) @ (-49), (-3982632372491541) @ (-48), (-828507539730495) @ (-46), (-6366850366627415) @ (-49)));
  (114%N, ((-1384395295721331) @ (-47), (-5721755232269813) @ (-49), (-5172256301540057) @ (-49), (-70881326618687) @ (-42)));
  (115%N, (#, #, #, (-302852298247679) @ (-44)));
  (116%N, (#, #, #, (-302852298247679) @ (-44)));
  (123%N, (#, #, (-8978031436994227) @ (-49), (-1969801887061797) @ (-47)));
  (127%N, ((-3425763695420303) @ (-49), (-6561441700479643) @ (-50), (-3722167433086565) @ (-49), (-4165375403819607) @ (-49)));
  (129%N, ((-3790543161631587) @ (-49), (-4331488070553153) @ (-49), (-2965758957536585) @ (-49), (-369705511778803) @ (-46)));
  (131%N, ((-3102117102219995) @ (-48), (-8252834006088559) @ (-49), (-7343131840464381) @ (-49), (-7658507473194481) @ (-49)));
  (134%N, ((-1307521280534241) @ (-47), (-1295039918157329) @ (-47), (-2975033703071465) @ (-48), (-5722407399525719) @ (-49)));
  (135%N, (#, #, #, (-302852298247679) @ (-44)));
  (136%N, (#, #, (-609902861438431) @ (-45), #));
  (138%N, (#, #, #, (-7658507473194481) @ (-49)));
  (139%N, ((-1052115498990103) @ (-47), (-8280000881972943) @ (-50), (-3513270078272441) @ (-49), (-1753718784855943) @ (-48)));
  (140%N, (#, (-3817185134677383) @ (-48), #, #));
  (143%N, ((-3572484801587059) @ (-49), (-7869883401295435) @ (-50), (-2197925822903661) @ (-48), (-302852298247679) @ (-44)));
  (147%N, ((-3287202728281269) @ (-48), (-1643962057175493) @ (-47), (-6391208931395613) @ (-49), (-2912181089436575) @ (-48)));
  (150%N, ((-2301773532193833) @ (-48), (-8267468474006711) @ (-50), (-4114027327195789) @ (-49), (-5192216630028415) @ (-49)));
  (152%N, (#, #, #, (-1969801887061797) @ (-47)));
  (161%N, (#, #, #, (-8292395461171265) @ (-49)));
  (164%N, (#, #, #, (-70881326618687) @ (-42)));
  (165%N, (#, #, #, (-302852298247679) @ (-44)));
  (166%N, (#, #, (-6880652495669265) @ (-49), (-4392620273043229) @ (-48)));
  (169%N, (#, #, #, (-8910859197905059) @ (-49)));
  (170%N, ((-8139076242218837) @ (-50), (-2398597850579073) @ (-48), (-4143167561420605) @ (-49), (-2130163006223681) @ (-47)));
  (172%N, ((-6880652495669265) @ (-49), #, #, (-8395033373076123) @ (-49)));
  (175%N, (#, #, #, (-7926147221115621) @ (-49)));
  (176%N, (#, #, #, (-70881326618687) @ (-42)));
  (178%N, ((-7127877008308803) @ (-49), (-1796212599740603) @ (-47), (-1730723387525197) @ (-47), (-70881326618687) @ (-42)));
  (183%N, (#, #, (-6148912987861693) @ (-49), (-8910859197905059) @ (-49)));
  (186%N, ((-2123540404169329) @ (-48), (-5155900952703795) @ (-49), (-4199468154286483) @ (-49), (-4731341732764129) @ (-49)));
  (187%N, (#, #, #, (-4170689255897351) @ (-48)));
  (189%N, ((-4331497877621075) @ (-48), (-2259180424650485) @ (-48), (-2427726411215817) @ (-48), (-6440490020332539) @ (-49)));
  (191%N, (#, #, (-571248877892569) @ (-45), (-7951171338784367) @ (-49)));
  (192%N, ((-8123998835989441) @ (-50), (-2285010087321679) @ (-48), (-4173428527415233) @ (-49), (-1243148241516713) @ (-47)));
  (193%N, ((-1052115498990103) @ (-47), (-8280000881972943) @ (-50), (-3513270078272441) @ (-49), (-1753718784855943) @ (-48)));
  (194%N, ((-8123998835989441) @ (-50), (-2285010087321679) @ (-48), (-4173428527415233) @ (-49), (-1243148241516713) @ (-47)));
  (196%N, ((-3572484801587059) @ (-49), (-7869883401295435) @ (-50), (-2197925822903661) @ (-48), (-5392979576798429) @ (-49)));
  (197%N, ((-3287202728281269) @ (-48), (-1643962057175493) @ (-47), (-6391208931395613) @ (-49), (-2912181089436575) @ (-48)));
  (198%N, ((-2301773532193833) @ (-48), (-8267468474006711) @ (-50), (-4114027327195789) @ (-49), (-5192216630028415) @ (-49)));
  (199%N, (#, #, #, (-1969801887061797) @ (-47)));
  (200%N, ((-4331497877621075) @ (-48), (-2259180424650485) @ (-48), (-2427726411215817) @ (-48), (-6440490020332539) @ (-49)));
  (201%N, ((-2123540404169329) @ (-48), (-5155900952703795) @ (-49), (-4199468154286483) @ (-49), (-4731341732764129) @ (-49)));
  (202%N, ((-6880652495669265) @ (-49), #, #, (-8395033373076123) @ (-49)));
  (203%N, (#, #, #, (-8292395461171265) @ (-49)));
  (204%N, (#, #, (-571248877892569) @ (-45), (-7951171338784367) @ (-49)));
  (205%N, (#, #, #, (-302852298247679) @ (-44)));
  (206%N, (#, #, (-6880652495669265) @ (-49), (-4392620273043229) @ (-48)));
  (207%N, (#, #, #, (-7926147221115621) @ (-49)));
  (208%N, ((-7127877008308803) @ (-49), (-1796212599740603) @ (-47), (-1730723387525197) @ (-47), (-472560260360877) @ (-45)));
  (209%N, (#, #, (-6148912987861693) @ (-49), (-6541731033373189) @ (-49)));
  (210%N, ((-1173427817007167) @ (-47), (-1078341543259945) @ (-47), (-8932816098154741) @ (-50), (-2550510885330519) @ (-48)));
  (212%N, (#, #, #, (-8166776809352665) @ (-49)));
  (214%N, (#, #, #, (-302852298247679) @ (-44)));
  (218%N, (#, #, #, (-472560260360877) @ (-45)));
  (219%N, (#, #, #, (-4650533185457697) @ (-48)));
  (220%N, (#, #, #, (-8205616343142647) @ (-49)));
  (221%N, (#, #, #, (-4650533185457697) @ (-48)));
  (222%N, (#, #, (-7773281289935475) @ (-49), (-1893476528496951) @ (-47)));
  (226%N, (#, #, #, (-302852298247679) @ (-44)));
  (227%N, ((-7398310850495817) @ (-50), (-3979753733986039) @ (-49), (-7905548109389877) @ (-50), (-2400576701934983) @ (-48)));
  (229%N, ((-8018343577873535) @ (-49), #, #, (-3408440888610819) @ (-48)));
  (230%N, ((-5286493686306289) @ (-49), (-2836822418575591) @ (-48), (-4817208137412807) @ (-49), (-5834399308112331) @ (-49)));
  (235%N, (#, #, (-4426206392587813) @ (-48), #));
  (236%N, (#, #, #, (-4650533185457697) @ (-48)));
  (239%N, (#, #, #, (-7104451038327115) @ (-49)));
  (241%N, ((-4260759154773655) @ (-48), #, #, #));
  (243%N, ((-4426206392587813) @ (-48), #, #, (-7217418596990555) @ (-49)));
  (244%N, (#, #, (-7773281289935475) @ (-49), (-1893476528496951) @ (-47)));
  (246%N, (#, #, #, (-7104451038327115) @ (-49)));
  (248%N, ((-5286493686306289) @ (-49), (-2836822418575591) @ (-48), (-4817208137412807) @ (-49), (-302852298247679) @ (-44)));
  (250%N, (#, #, #, (-7350030505863719) @ (-49)));
  (253%N, (#, #, #, (-302852298247679) @ (-44)));
  (255%N, (#, #, #, (-302852298247679) @ (-44)))].

(** prob_emit.py, characters 0x8a00 to 0x8aff *)
Definition emit_8a : list (N * num4) := [
  (0%N, ((-4790593775225929) @ (-49), (-6801912585134901) @ (-50), (-61899839892023) @ (-43), (-4523982437126697) @ (-49)));
  (2%N, ((-5430746192657159) @ (-49), (-89567460233227) @ (-43), (-1199293054131255) @ (-47), (-5557656341308387) @ (-49)));
  (3%N, ((-7567545727469403) @ (-49), #, #, (-7587152606408853) @ (-49)));
  (4%N, (#, #, #, (-70881326618687) @ (-42)));
  (7%N, (#, (-4240545284906009) @ (-48), (-7219057633931153) @ (-49), (-4227173035229071) @ (-48)));
  (8%N, ((-7613406131868367) @ (-50), (-3741102025926607) @ (-49), (-7631047950327643) @ (-50), (-302852298247679) @ (-44)));
  (9%N, (#, #, #, (-4650533185457697) @ (-48)));
  (10%N, ((-3140286215885321) @ (-48), (-300956489987317) @ (-45), (-629874056608501) @ (-46), (-2505081768896853) @ (-48)));
  (12%N, (#, #, (-2994175332615059) @ (-48), (-8166776809352665) @ (-49)));
  (14%N, ((-2312516423473285) @ (-48), (-4936133171466299) @ (-49), (-5258818022403039) @ (-49), (-5351318776735621) @ (-49)));
  (15%N, (#, #, #, (-302852298247679) @ (-44)));
  (16%N, ((-4260759154773655) @ (-48), #, (-7492374236211145) @ (-49), (-7857128249604397) @ (-49)));
  (17%N, (#, #, #, (-8910859197905059) @ (-49)));
  (19%N, ((-4568552810408451) @ (-49), (-4958876375194863) @ (-49), (-4641750712022359) @ (-49), (-2885406862647589) @ (-48)));
  (21%N, ((-7567545727469403) @ (-49), #, (-889038822504283) @ (-46), (-1656258248562015) @ (-47)));
  (22%N, (#, (-4240545284906009) @ (-48), (-7667890561037021) @ (-49), (-6629907050266015) @ (-49)));
  (23%N, (#, #, #, (-70881326618687) @ (-42)));
  (24%N, ((-939646150082235) @ (-47), (-8634302606247043) @ (-50), (-8384315521502089) @ (-50), (-271331332318175) @ (-44)));
  (26%N, ((-609902861438431) @ (-45), #, #, #));
  (27%N, ((-1797236545307357) @ (-47), (-6463748750323761) @ (-49), (-7924300488693565) @ (-49), (-803547887888141) @ (-46)));
  (29%N, ((-7374855723470995) @ (-49), #, (-721062061950115) @ (-46), (-7367903434101099) @ (-49)));
  (31%N, ((-878374446492819) @ (-46), (-5671726777532731) @ (-49), (-5582381234389981) @ (-49), (-6541731033373189) @ (-49)));
  (34%N, (#, #, (-2146956065995973) @ (-47), (-3951094144080465) @ (-48)));
  (35%N, ((-3325069808243375) @ (-48), #, (-751833937796735) @ (-46), (-6006569257514267) @ (-49)));
  (37%N, ((-3582982720657843) @ (-48), (-8252834006088559) @ (-49), (-1800199549239177) @ (-47), (-6719959142359565) @ (-49)));
  (39%N, (#, #, #, (-302852298247679) @ (-44)));
  (42%N, ((-2518532600101843) @ (-48), (-2620002859565369) @ (-48), (-2378310501334005) @ (-48), (-5594936455947681) @ (-49)));
  (43%N, (#, #, #, (-4650533185457697) @ (-48)));
  (44%N, (#, #, #, (-4170689255897351) @ (-48)));
  (45%N, ((-3679537969965097) @ (-49), (-4553492994727269) @ (-49), (-7731125114518321) @ (-50), (-4240248531858829) @ (-49)));
  (49%N, ((-7651473467792431) @ (-50), (-663749023946679) @ (-46), (-2139661521913407) @ (-48), (-3951094144080465) @ (-48)));
  (51%N, (#, #, #, (-2130163006223681) @ (-47)));
  (52%N, ((-5352774670131257) @ (-49), (-682375106580817) @ (-46), (-4294961548146957) @ (-49), (-193594266245197) @ (-44)));
  (54%N, ((-4684119305002281) @ (-48), (-6262177274778075) @ (-49), (-7773281289935475) @ (-49), (-302852298247679) @ (-44)));
  (55%N, (#, #, #, (-7350030505863719) @ (-49)));
  (56%N, (#, #, (-609902861438431) @ (-45), #));
  (58%N, ((-5372673815145477) @ (-49), (-5762991576294207) @ (-49), (-5608666227628319) @ (-49), (-6369926603535943) @ (-49)));
  (62%N, ((-7567545727469403) @ (-49), #, #, (-8205616343142647) @ (-49)));
  (65%N, (#, #, (-3456016221203681) @ (-48), (-1969801887061797) @ (-47)));
  (69%N, (#, #, #, (-70881326618687) @ (-42)));
  (70%N, ((-7313100723111123) @ (-49), #, #, (-8205616343142647) @ (-49)));
  (72%N, (#, #, #, (-6881909751646441) @ (-49)));
  (75%N, (#, #, #, (-7231493078902567) @ (-49)));
  (78%N, (#, #, #, (-4227173035229071) @ (-48)));
  (80%N, ((-1559734195798035) @ (-47), (-101243867878125) @ (-43), (-5987656093947163) @ (-49), (-6281607265795727) @ (-49)));
  (82%N, (#, (-7131195537680991) @ (-49), (-7773281289935475) @ (-49), (-3634150150092073) @ (-48)));
  (84%N, ((-5240481707058933) @ (-49), (-2819137182873279) @ (-48), (-3069417751170331) @ (-48), (-302852298247679) @ (-44)));
  (85%N, ((-8742297937855435) @ (-50), (-2903744473092393) @ (-48), (-2449645528369361) @ (-48), (-1412313385656301) @ (-47)));
  (88%N, (#, #, #, (-7489000375236853) @ (-49)));
  (91%N, ((-413850120634003) @ (-45), (-7575057571972747) @ (-49), (-8233949048441833) @ (-49), (-1969801887061797) @ (-47)));
  (93%N, (#, #, (-609902861438431) @ (-45), (-2130163006223681) @ (-47)));
  (94%N, ((-8795981782232113) @ (-50), (-5772071611100349) @ (-49), (-2354557111546675) @ (-48), (-1204827884635229) @ (-47)));
  (96%N, ((-3480344808752985) @ (-48), (-3817185134677383) @ (-48), (-6764610380191347) @ (-49), (-6076221587374789) @ (-49)));
  (97%N, (#, (-7346801008249289) @ (-49), (-7040346789497085) @ (-49), (-6951095251765127) @ (-49)));
  (98%N, ((-2700786940175133) @ (-48), (-22383551160859) @ (-41), (-4835916032909671) @ (-49), (-3317411837498811) @ (-48)));
  (99%N, (#, (-7575057571972747) @ (-49), (-3060041825640419) @ (-48), (-7183698940977469) @ (-49)));
  (102%N, ((-8758048367390523) @ (-50), (-4760737195425109) @ (-49), (-4208050052635115) @ (-49), (-2531269272286167) @ (-48)));
  (103%N, (#, #, #, (-302852298247679) @ (-44)));
  (105%N, ((-2304818470958273) @ (-48), (-2546461900024769) @ (-48), (-5112291664359153) @ (-49), (-4650533185457697) @ (-48)));
  (107%N, ((-5865239589733223) @ (-49), (-7244163096344431) @ (-49), (-3290170857472073) @ (-48), (-3444810757719897) @ (-48)));
  (108%N, ((-1845768529231285) @ (-47), #, #, (-880642292618137) @ (-46)));
  (109%N, ((-718013327330935) @ (-46), (-3095216074021885) @ (-48), (-4331497877621075) @ (-48), (-6758593556834681) @ (-49)));
  (110%N, ((-846618816505503) @ (-46), #, (-8462205612165291) @ (-49), (-4170689255897351) @ (-48)));
  (112%N, ((-7696043924970107) @ (-49), #, (-3921870937715749) @ (-48), (-784872081718739) @ (-46)));
  (113%N, ((-4955421665946257) @ (-49), (-4323924498568003) @ (-49), (-460405337802267) @ (-46), (-3813428733318355) @ (-49)));
  (114%N, ((-1151586250638673) @ (-47), (-1572547628566631) @ (-47), (-1023560872586245) @ (-47), (-3927151270787395) @ (-49)));
  (115%N, ((-1271800952623521) @ (-47), (-3312849679805319) @ (-48), (-5825879047156935) @ (-49), (-1449098598160475) @ (-47)));
  (117%N, (#, #, #, (-869977916606673) @ (-46)));
  (121%N, ((-341549635335151) @ (-45), (-6097500510268117) @ (-49), (-4204275375441935) @ (-48), (-1535289041219093) @ (-47)));
  (124%N, ((-6857400519925933) @ (-49), #, #, (-7005616856795013) @ (-49)));
  (127%N, ((-609902861438431) @ (-45), #, #, (-442294618973983) @ (-45)));
  (131%N, (#, #, #, (-302852298247679) @ (-44)));
  (132%N, (#, #, #, (-7145732875094951) @ (-49)));
  (133%N, ((-3245222661329465) @ (-48), (-6615369712852055) @ (-49), (-7284590836079723) @ (-49), (-2949683249325903) @ (-48)));
  (134%N, ((-3984680263625049) @ (-48), #, #, (-6870536638503059) @ (-49)));
  (135%N, ((-20880496042013) @ (-41), (-6097500510268117) @ (-49), (-3363622269110247) @ (-48), (-2940475302847833) @ (-48)));
  (137%N, ((-87757966600277) @ (-43), (-5092239362331889) @ (-49), (-2365884865867743) @ (-48), (-2726902587361981) @ (-48)));
  (138%N, ((-3430332003528151) @ (-48), #, (-609902861438431) @ (-45), (-3702723670134365) @ (-48)));
  (140%N, (#, #, (-2146956065995973) @ (-47), (-302852298247679) @ (-44)));
  (141%N, ((-7280314545958705) @ (-50), (-2762899555701287) @ (-48), (-4635116917160401) @ (-49), (-5285377745366219) @ (-49)));
  (145%N, ((-483818997720415) @ (-45), #, #, (-6758593556834681) @ (-49)));
  (146%N, (#, #, #, (-7628871685880939) @ (-49)));
  (147%N, ((-5925919123563701) @ (-49), (-6295964410557909) @ (-49), (-2950190688861737) @ (-48), (-2890236866367061) @ (-48)));
  (149%N, ((-2691624633079883) @ (-48), (-5620514219229163) @ (-49), (-6237853144833625) @ (-49), (-6681119608569583) @ (-49)));
  (152%N, ((-2675826068724701) @ (-48), (-7427359621511357) @ (-49), (-6391208931395613) @ (-49), (-3147473968188667) @ (-48)));
  (154%N, (#, #, (-985322676152685) @ (-46), (-442294618973983) @ (-45)));
  (155%N, (#, #, #, (-302852298247679) @ (-44)));
  (156%N, (#, #, #, (-4297911758076491) @ (-48)));
  (158%N, ((-4344890867211441) @ (-49), (-4801260339418511) @ (-49), (-8048736819021951) @ (-50), (-302852298247679) @ (-44)));
  (160%N, ((-2658959720943377) @ (-48), (-5024036546630921) @ (-49), (-2146956065995973) @ (-47), (-2981128166238023) @ (-48)));
  (161%N, ((-8359567700260433) @ (-49), #, (-3150393055813769) @ (-48), (-421091349181405) @ (-45)));
  (163%N, ((-3045911597727263) @ (-48), (-8871297742822353) @ (-49), (-546860929579423) @ (-45), (-6603607365691809) @ (-49)));
  (164%N, ((-5143796749894969) @ (-49), (-6350781191660321) @ (-49), (-4588720168916417) @ (-49), (-302852298247679) @ (-44)));
  (165%N, ((-1845768529231285) @ (-47), #, (-546860929579423) @ (-45), (-5783730925736513) @ (-49)));
  (166%N, ((-3290170857472073) @ (-48), (-7157383978315813) @ (-49), (-5875383106566677) @ (-49), (-6243383314301553) @ (-49)));
  (168%N, ((-2017999609788739) @ (-47), (-3817185134677383) @ (-48), (-405758969615715) @ (-45), (-1508054683035017) @ (-47)));
  (170%N, ((-7115549202789801) @ (-50), (-4391214115588289) @ (-49), (-3552783934879545) @ (-49), (-5533358244518619) @ (-50)));
  (175%N, (#, #, #, (-8205616343142647) @ (-49)));
  (176%N, ((-5572334270160043) @ (-49), (-6246014922008839) @ (-49), (-8018343577873535) @ (-49), (-3971839177510705) @ (-49)));
  (178%N, ((-4742992197574103) @ (-49), (-6838531672091105) @ (-49), (-323245639829125) @ (-45), (-2601587085789927) @ (-48)));
  (181%N, (#, #, #, (-302852298247679) @ (-44)));
  (182%N, (#, #, #, (-3722837580357007) @ (-48)));
  (185%N, ((-6945265366262979) @ (-49), #, (-4081744231472905) @ (-48), (-70881326618687) @ (-42)));
  (188%N, (#, (-5667910153060101) @ (-49), (-1344984446574207) @ (-47), (-3383949363299101) @ (-48)));
  (191%N, ((-7779634732352625) @ (-50), (-4918778852158661) @ (-49), (-8467555732397343) @ (-50), (-4651404764567741) @ (-49)));
  (192%N, (#, #, #, (-302852298247679) @ (-44)));
  (194%N, ((-3423861029421265) @ (-48), (-4240545284906009) @ (-48), #, (-2001206550016447) @ (-47)));
  (196%N, ((-1797236545307357) @ (-47), (-6657876686019473) @ (-49), (-3756423699901591) @ (-48), (-976926146266539) @ (-46)));
  (197%N, (#, #, #, (-8292395461171265) @ (-49)));
  (198%N, (#, #, #, (-302852298247679) @ (-44)));
  (199%N, ((-4525591472351897) @ (-49), (-4697942946497641) @ (-49), (-1187220152281187) @ (-47), (-591344290158319) @ (-46)));
  (201%N, (#, #, (-7122640226792847) @ (-49), (-3630371905756697) @ (-48)));
  (203%N, ((-583570364997801) @ (-46), (-5220772638967289) @ (-49), (-2323012464519887) @ (-48), (-8049538176986999) @ (-50)));
  (205%N, ((-7924300488693565) @ (-49), (-3982632372491541) @ (-48), (-3921870937715749) @ (-48), (-3464924667942539) @ (-48)));
  (206%N, (#, #, #, (-3951094144080465) @ (-48)));
  (207%N, (#, #, #, (-3670651212387731) @ (-48)));
  (209%N, (#, #, (-8462205612165291) @ (-49), (-7628871685880939) @ (-49)));
  (210%N, ((-6564648714016659) @ (-49), (-7310469050781013) @ (-49), (-5548928822603809) @ (-49), (-6249576445556469) @ (-49)));
  (214%N, ((-4427608854885597) @ (-49), (-522628956880597) @ (-46), (-3661282326654749) @ (-49), (-2338748043129633) @ (-48)));
  (215%N, (#, (-8871297742822353) @ (-49), (-4684119305002281) @ (-48), (-7600718321947853) @ (-49)));
  (219%N, (#, (-6838531672091105) @ (-49), (-1794334638614767) @ (-47), (-3444810757719897) @ (-48)));
  (220%N, ((-7556172614326021) @ (-49), (-7131195537680991) @ (-49), (-3103138791097497) @ (-48), (-7835882333724349) @ (-49)));
  (221%N, (#, #, (-8462205612165291) @ (-49), (-302852298247679) @ (-44)));
  (222%N, (#, #, #, (-6369926603535943) @ (-49)));
  (224%N, (#, #, #, (-302852298247679) @ (-44)));
  (225%N, ((-1826459187989943) @ (-47), #, (-4331497877621075) @ (-48), (-3168489320260109) @ (-48)));
  (226%N, ((-483818997720415) @ (-45), #, (-7696043924970107) @ (-49), (-7050279472141661) @ (-49)));
  (228%N, (#, #, (-7417202744952887) @ (-49), (-7145732875094951) @ (-49)));
  (229%N, (#, #, #, (-302852298247679) @ (-44)));
  (230%N, ((-1910269588269243) @ (-47), #, (-1709551796309617) @ (-47), (-50275542397939) @ (-42)));
  (231%N, ((-6323010706426361) @ (-49), (-3760701355345663) @ (-48), (-2763688186286647) @ (-48), (-302852298247679) @ (-44)));
  (235%N, ((-222100499235933) @ (-44), (-6538920241582019) @ (-49), (-6017592131251313) @ (-49), (-2945041625094315) @ (-48)));
  (237%N, ((-6468822725631725) @ (-49), (-3312849679805319) @ (-48), (-6064913875252621) @ (-49), (-2915714294531605) @ (-48)));
  (238%N, ((-609902861438431) @ (-45), (-1925169055947837) @ (-47), (-4426206392587813) @ (-48), (-3415348596671437) @ (-48)));
  (241%N, ((-1758965277191057) @ (-47), (-3318111047509587) @ (-48), (-762954958786267) @ (-46), (-764260153179635) @ (-46)));
  (242%N, (#, #, #, (-691938372010433) @ (-46)));
  (243%N, ((-7320459650820583) @ (-49), (-7427359621511357) @ (-49), (-1723595915767347) @ (-47), (-7025030848007957) @ (-49)));
  (244%N, (#, #, #, (-302852298247679) @ (-44)));
  (246%N, ((-798193886911877) @ (-46), (-3736209830033945) @ (-48), (-8131311136536975) @ (-49), (-3157785559972261) @ (-48)));
  (247%N, ((-5943611487299781) @ (-49), (-3638170211376633) @ (-48), (-6214526080729679) @ (-49), (-943539134077359) @ (-46)));
  (248%N, ((-141825111720935) @ (-44), (-5292150735031569) @ (-49), (-6182233360253939) @ (-49), (-302852298247679) @ (-44)));
  (249%N, (#, #, #, (-302852298247679) @ (-44)));
  (250%N, ((-6699532234209679) @ (-49), (-3817185134677383) @ (-48), (-3632058836243843) @ (-48), (-7332707602050573) @ (-49)));
  (252%N, (#, #, (-546860929579423) @ (-45), (-7050279472141661) @ (-49)));
  (254%N, ((-5400105314421549) @ (-49), (-2269229683888843) @ (-48), (-4962904693868603) @ (-49), (-5596495875098369) @ (-49)))].

(** prob_emit.py, characters 0x8b00 to 0x8bff *)
Definition emit_8b : list (N * num4) := [
  (0%N, ((-2642747862386571) @ (-48), (-4519348914413631) @ (-49), (-2505132461944613) @ (-48), (-5415450629078059) @ (-49)));
  (1%N, ((-1998329865051197) @ (-47), (-3982632372491541) @ (-48), (-6945265366262979) @ (-49), (-3176605805923435) @ (-48)));
  (2%N, ((-878374446492819) @ (-46), (-3260663311836043) @ (-48), (-2275621717490545) @ (-48), (-2847389126532009) @ (-48)));
  (3%N, (#, #, #, (-70881326618687) @ (-42)));
  (4%N, ((-3430332003528151) @ (-48), #, (-609902861438431) @ (-45), (-3702723670134365) @ (-48)));
  (5%N, (#, #, (-7399879841139741) @ (-49), (-7358896042685395) @ (-49)));
  (6%N, (#, #, #, (-8166776809352665) @ (-49)));
  (7%N, (#, #, (-7143886142672895) @ (-49), (-850842282548523) @ (-46)));
  (10%N, ((-6373025116031563) @ (-49), (-7346801008249289) @ (-49), (-383847879079333) @ (-45), (-6351716391968069) @ (-49)));
  (11%N, (#, #, #, (-302852298247679) @ (-44)));
  (12%N, (#, #, #, (-302852298247679) @ (-44)));
  (14%N, ((-1653276102753797) @ (-47), (-3982632372491541) @ (-48), (-3470737221580077) @ (-48), (-712138422901341) @ (-46)));
  (16%N, (#, (-8090883396801683) @ (-49), (-3504836334064703) @ (-48), (-3670651212387731) @ (-48)));
  (17%N, (#, #, #, (-302852298247679) @ (-44)));
  (18%N, (#, #, #, (-4650533185457697) @ (-48)));
  (20%N, (#, #, (-7206819109466809) @ (-49), (-1636483042981505) @ (-47)));
  (22%N, (#, (-7427359621511357) @ (-49), (-3262711202969551) @ (-48), (-3460785255448521) @ (-48)));
  (23%N, ((-609902861438431) @ (-45), (-3606862978324355) @ (-48), (-1723595915767347) @ (-47), (-3612205927022559) @ (-48)));
  (25%N, ((-727136860772465) @ (-46), (-2321342645943839) @ (-48), (-5704966924917877) @ (-49), (-382623035576113) @ (-45)));
  (27%N, ((-287180297820709) @ (-45), (-5524323488137173) @ (-49), (-337141816495467) @ (-45), (-3888284818171165) @ (-48)));
  (29%N, ((-4420528716134215) @ (-49), (-2592489051964865) @ (-48), (-4831625507573831) @ (-49), (-2642913603215375) @ (-48)));
  (31%N, (#, #, #, (-302852298247679) @ (-44)));
  (32%N, ((-6075361497587351) @ (-49), (-7310469050781013) @ (-49), (-6184198283552203) @ (-49), (-880642292618137) @ (-46)));
  (33%N, (#, #, #, (-8910859197905059) @ (-49)));
  (36%N, (#, #, #, (-8395033373076123) @ (-49)));
  (38%N, (#, #, #, (-4650533185457697) @ (-48)));
  (40%N, (#, (-375889304995713) @ (-45), (-3204265917604379) @ (-48), (-1572059520989393) @ (-47)));
  (41%N, (#, #, #, (-4650533185457697) @ (-48)));
  (43%N, ((-1947521753537519) @ (-47), #, (-3855333411915459) @ (-48), (-3605255574468759) @ (-48)));
  (44%N, ((-796456298773427) @ (-46), (-1725734743489383) @ (-47), (-394179507271553) @ (-45), (-850424662662967) @ (-46)));
  (51%N, ((-3551083531600405) @ (-48), #, #, (-302852298247679) @ (-44)));
  (57%N, ((-5704546969692567) @ (-49), (-5774364689437589) @ (-49), (-2880975246076593) @ (-48), (-5892059671013653) @ (-49)));
  (60%N, (#, #, #, (-302852298247679) @ (-44)));
  (62%N, ((-7171623277416283) @ (-49), #, #, (-6592047412203725) @ (-49)));
  (70%N, (#, #, #, (-302852298247679) @ (-44)));
  (73%N, ((-2139661521913407) @ (-48), (-2164419029016645) @ (-48), (-8294437428164605) @ (-50), (-2130163006223681) @ (-47)));
  (78%N, (#, (-3887923857524803) @ (-48), (-7426068281774563) @ (-49), (-4297911758076491) @ (-48)));
  (79%N, ((-3070327202613245) @ (-48), #, (-3695707134388909) @ (-48), (-6925694704825637) @ (-49)));
  (84%N, (#, #, #, (-4650533185457697) @ (-48)));
  (85%N, (#, #, #, (-7926147221115621) @ (-49)));
  (86%N, (#, #, #, (-2001206550016447) @ (-47)));
  (88%N, ((-5468922391782699) @ (-49), (-2037316724543363) @ (-48), (-997194290013219) @ (-47), (-2612168982736399) @ (-48)));
  (89%N, ((-3903704958981611) @ (-48), (-3638170211376633) @ (-48), #, (-7127668759912815) @ (-49)));
  (90%N, ((-1256189774981879) @ (-47), (-7385640542039271) @ (-49), (-3456016221203681) @ (-48), (-2130163006223681) @ (-47)));
  (92%N, ((-6463948669613769) @ (-49), (-2797441164136159) @ (-48), (-2664398504972351) @ (-48), (-334064999534987) @ (-45)));
  (94%N, (#, #, (-4081744231472905) @ (-48), (-3951094144080465) @ (-48)));
  (95%N, (#, #, #, (-70881326618687) @ (-42)));
  (101%N, (#, #, #, (-6820303975927183) @ (-49)));
  (102%N, ((-1158606612624439) @ (-47), (-4925860077016109) @ (-49), (-298801710005221) @ (-45), (-93517869202469) @ (-43)));
  (105%N, (#, #, #, (-4650533185457697) @ (-48)));
  (107%N, ((-1870602565026865) @ (-47), #, #, (-302852298247679) @ (-44)));
  (108%N, ((-1474058872183449) @ (-47), #, #, (-1930728693765227) @ (-47)));
  (109%N, (#, #, #, (-4650533185457697) @ (-48)));
  (111%N, ((-2788500274355617) @ (-48), (-338886063812925) @ (-45), (-634340514159593) @ (-46), (-302852298247679) @ (-44)));
  (112%N, ((-8666470037175327) @ (-50), (-4143413418487037) @ (-49), (-7014651175313907) @ (-50), (-2677305815872959) @ (-48)));
  (116%N, ((-359803754727857) @ (-45), #, #, (-6813480256580097) @ (-49)));
  (119%N, ((-1226286427067517) @ (-47), (-7928648716382455) @ (-50), (-8055634797822235) @ (-50), (-302852298247679) @ (-44)));
  (120%N, (#, #, #, (-302852298247679) @ (-44)));
  (122%N, (#, #, #, (-3879055303555717) @ (-48)));
  (125%N, ((-87757966600277) @ (-43), (-5092239362331889) @ (-49), (-2365884865867743) @ (-48), (-2726902587361981) @ (-48)));
  (126%N, (#, #, #, (-4392620273043229) @ (-48)));
  (128%N, ((-148273269739971) @ (-44), (-1444166786611107) @ (-47), (-143089334041629) @ (-44), (-4826722131995037) @ (-49)));
  (137%N, (#, #, #, (-2061833855653683) @ (-47)));
  (138%N, ((-1856334424940265) @ (-48), (-8773406863330395) @ (-50), (-1002933456227511) @ (-47), (-8796053928464479) @ (-50)));
  (140%N, (#, #, #, (-302852298247679) @ (-44)));
  (142%N, (#, #, #, (-7005616856795013) @ (-49)));
  (146%N, ((-7435075673190267) @ (-49), (-8090883396801683) @ (-49), #, (-7055467987703679) @ (-49)));
  (147%N, ((-5608666227628319) @ (-49), (-6000328174823807) @ (-49), (-1189389260677999) @ (-47), (-56200005443119) @ (-43)));
  (149%N, ((-8978031436994227) @ (-49), #, #, (-3888284818171165) @ (-48)));
  (150%N, ((-7082412406347563) @ (-49), #, #, (-302852298247679) @ (-44)));
  (156%N, (#, (-4240545284906009) @ (-48), (-4684119305002281) @ (-48), (-7060704769219635) @ (-49)));
  (158%N, (#, #, (-2146956065995973) @ (-47), (-7523833130877875) @ (-49)));
  (160%N, (#, #, #, (-8064138897447807) @ (-49)));
  (161%N, ((-7613406131868367) @ (-50), (-3741102025926607) @ (-49), (-7631047950327643) @ (-50), (-4900474540189209) @ (-49)));
  (162%N, ((-5430746192657159) @ (-49), (-89567460233227) @ (-43), (-1199293054131255) @ (-47), (-5557656341308387) @ (-49)));
  (163%N, ((-7567545727469403) @ (-49), #, #, (-7587152606408853) @ (-49)));
  (164%N, ((-7280314545958705) @ (-50), (-2762899555701287) @ (-48), (-4635116917160401) @ (-49), (-5285377745366219) @ (-49)));
  (165%N, ((-3070327202613245) @ (-48), #, (-3695707134388909) @ (-48), (-6925694704825637) @ (-49)));
  (166%N, ((-4260759154773655) @ (-48), #, (-7492374236211145) @ (-49), (-7857128249604397) @ (-49)));
  (167%N, (#, #, (-2994175332615059) @ (-48), (-8166776809352665) @ (-49)));
  (168%N, ((-2312516423473285) @ (-48), (-4936133171466299) @ (-49), (-5258818022403039) @ (-49), (-5351318776735621) @ (-49)));
  (169%N, ((-5608666227628319) @ (-49), (-6000328174823807) @ (-49), (-1189389260677999) @ (-47), (-56200005443119) @ (-43)));
  (170%N, ((-7567545727469403) @ (-49), #, (-889038822504283) @ (-46), (-1656258248562015) @ (-47)));
  (171%N, (#, (-4240545284906009) @ (-48), (-7667890561037021) @ (-49), (-6629907050266015) @ (-49)));
  (172%N, (#, #, #, (-70881326618687) @ (-42)));
  (173%N, ((-4568552810408451) @ (-49), (-4958876375194863) @ (-49), (-4641750712022359) @ (-49), (-2885406862647589) @ (-48)));
  (174%N, ((-8666470037175327) @ (-50), (-4143413418487037) @ (-49), (-7014651175313907) @ (-50), (-2677305815872959) @ (-48)));
  (175%N, ((-3140286215885321) @ (-48), (-300956489987317) @ (-45), (-629874056608501) @ (-46), (-2505081768896853) @ (-48)));
  (176%N, ((-939646150082235) @ (-47), (-8634302606247043) @ (-50), (-8384315521502089) @ (-50), (-145977309517083) @ (-44)));
  (178%N, ((-287180297820709) @ (-45), (-5524323488137173) @ (-49), (-337141816495467) @ (-45), (-4333752734403305) @ (-49)));
  (179%N, ((-1758965277191057) @ (-47), (-3318111047509587) @ (-48), (-762954958786267) @ (-46), (-764260153179635) @ (-46)));
  (180%N, ((-3551083531600405) @ (-48), #, #, (-8292395461171265) @ (-49)));
  (181%N, (#, #, #, (-1729369077842873) @ (-47)));
  (182%N, ((-7374855723470995) @ (-49), #, (-721062061950115) @ (-46), (-7367903434101099) @ (-49)));
  (183%N, ((-3582982720657843) @ (-48), (-8252834006088559) @ (-49), (-1800199549239177) @ (-47), (-6719959142359565) @ (-49)));
  (184%N, ((-7651473467792431) @ (-50), (-663749023946679) @ (-46), (-2139661521913407) @ (-48), (-1299778081607409) @ (-47)));
  (185%N, ((-1797236545307357) @ (-47), (-6463748750323761) @ (-49), (-7924300488693565) @ (-49), (-803547887888141) @ (-46)));
  (186%N, ((-4427608854885597) @ (-49), (-522628956880597) @ (-46), (-3661282326654749) @ (-49), (-2338748043129633) @ (-48)));
  (187%N, (#, #, #, (-302852298247679) @ (-44)));
  (188%N, ((-878374446492819) @ (-46), (-5671726777532731) @ (-49), (-5582381234389981) @ (-49), (-6541731033373189) @ (-49)));
  (189%N, ((-5943611487299781) @ (-49), (-3638170211376633) @ (-48), (-6214526080729679) @ (-49), (-1783406489466885) @ (-47)));
  (190%N, ((-3679537969965097) @ (-49), (-4553492994727269) @ (-49), (-7731125114518321) @ (-50), (-4240248531858829) @ (-49)));
  (191%N, ((-2518532600101843) @ (-48), (-2620002859565369) @ (-48), (-2378310501334005) @ (-48), (-5594936455947681) @ (-49)));
  (192%N, ((-3325069808243375) @ (-48), #, (-751833937796735) @ (-46), (-6006569257514267) @ (-49)));
  (193%N, ((-2139661521913407) @ (-48), (-2164419029016645) @ (-48), (-8294437428164605) @ (-50), (-5077089822820243) @ (-49)));
  (194%N, (#, #, (-3456016221203681) @ (-48), (-1969801887061797) @ (-47)));
  (195%N, ((-4684119305002281) @ (-48), (-6262177274778075) @ (-49), (-7773281289935475) @ (-49), (-6719959142359565) @ (-49)));
  (196%N, ((-8742297937855435) @ (-50), (-2903744473092393) @ (-48), (-2449645528369361) @ (-48), (-1412313385656301) @ (-47)));
  (197%N, ((-413850120634003) @ (-45), (-7575057571972747) @ (-49), (-8233949048441833) @ (-49), (-1969801887061797) @ (-47)));
  (198%N, ((-5468922391782699) @ (-49), (-2037316724543363) @ (-48), (-997194290013219) @ (-47), (-2612168982736399) @ (-48)));
  (200%N, ((-1559734195798035) @ (-47), (-101243867878125) @ (-43), (-5987656093947163) @ (-49), (-6281607265795727) @ (-49)));
  (201%N, ((-5352774670131257) @ (-49), (-682375106580817) @ (-46), (-4294961548146957) @ (-49), (-193594266245197) @ (-44)));
  (202%N, ((-5372673815145477) @ (-49), (-5762991576294207) @ (-49), (-5608666227628319) @ (-49), (-6369926603535943) @ (-49)));
  (203%N, ((-7313100723111123) @ (-49), #, #, (-7857128249604397) @ (-49)));
  (204%N, (#, #, (-7399879841139741) @ (-49), (-7358896042685395) @ (-49)));
  (205%N, ((-8795981782232113) @ (-50), (-5772071611100349) @ (-49), (-2354557111546675) @ (-48), (-1204827884635229) @ (-47)));
  (206%N, (#, #, #, (-7489000375236853) @ (-49)));
  (207%N, ((-5240481707058933) @ (-49), (-2819137182873279) @ (-48), (-3069417751170331) @ (-48), (-5004542902258345) @ (-49)));
  (208%N, (#, #, #, (-302852298247679) @ (-44)));
  (209%N, ((-2788500274355617) @ (-48), (-338886063812925) @ (-45), (-634340514159593) @ (-46), (-5481756583514641) @ (-49)));
  (210%N, (#, (-7131195537680991) @ (-49), (-7773281289935475) @ (-49), (-3634150150092073) @ (-48)));
  (211%N, ((-3984680263625049) @ (-48), #, #, (-6870536638503059) @ (-49)));
  (212%N, (#, #, #, (-7145732875094951) @ (-49)));
  (213%N, ((-8758048367390523) @ (-50), (-4760737195425109) @ (-49), (-4208050052635115) @ (-49), (-2531269272286167) @ (-48)));
  (214%N, ((-609902861438431) @ (-45), #, #, (-442294618973983) @ (-45)));
  (215%N, ((-2304818470958273) @ (-48), (-2546461900024769) @ (-48), (-5112291664359153) @ (-49), (-4743049070537449) @ (-49)));
  (216%N, ((-7696043924970107) @ (-49), #, (-3921870937715749) @ (-48), (-784872081718739) @ (-46)));
  (217%N, ((-6857400519925933) @ (-49), #, #, (-7005616856795013) @ (-49)));
  (218%N, ((-2658959720943377) @ (-48), (-5024036546630921) @ (-49), (-4971629261449541) @ (-49), (-2981128166238023) @ (-48)));
  (219%N, ((-3245222661329465) @ (-48), (-6615369712852055) @ (-49), (-7284590836079723) @ (-49), (-2949683249325903) @ (-48)));
  (220%N, (#, #, #, (-869977916606673) @ (-46)));
  (221%N, ((-4955421665946257) @ (-49), (-4323924498568003) @ (-49), (-460405337802267) @ (-46), (-3813428733318355) @ (-49)));
  (222%N, ((-2691624633079883) @ (-48), (-5620514219229163) @ (-49), (-6237853144833625) @ (-49), (-6681119608569583) @ (-49)));
  (223%N, ((-1845768529231285) @ (-47), #, #, (-880642292618137) @ (-46)));
  (224%N, ((-846618816505503) @ (-46), #, (-8462205612165291) @ (-49), (-6823747105641763) @ (-49)));
  (225%N, ((-718013327330935) @ (-46), (-3095216074021885) @ (-48), (-4331497877621075) @ (-48), (-6758593556834681) @ (-49)));
  (226%N, ((-2700786940175133) @ (-48), (-22383551160859) @ (-41), (-4835916032909671) @ (-49), (-3317411837498811) @ (-48)));
  (227%N, (#, (-7575057571972747) @ (-49), (-3060041825640419) @ (-48), (-7183698940977469) @ (-49)));
  (228%N, ((-7924300488693565) @ (-49), (-3982632372491541) @ (-48), (-3921870937715749) @ (-48), (-3464924667942539) @ (-48)));
  (229%N, ((-1151586250638673) @ (-47), (-1572547628566631) @ (-47), (-1023560872586245) @ (-47), (-3927151270787395) @ (-49)));
  (230%N, ((-1271800952623521) @ (-47), (-3312849679805319) @ (-48), (-5825879047156935) @ (-49), (-1449098598160475) @ (-47)));
  (231%N, ((-5865239589733223) @ (-49), (-7244163096344431) @ (-49), (-3290170857472073) @ (-48), (-3444810757719897) @ (-48)));
  (232%N, ((-483818997720415) @ (-45), #, (-7696043924970107) @ (-49), (-7050279472141661) @ (-49)));
  (233%N, (#, (-7346801008249289) @ (-49), (-7040346789497085) @ (-49), (-6951095251765127) @ (-49)));
  (235%N, ((-8359567700260433) @ (-49), #, (-3150393055813769) @ (-48), (-421091349181405) @ (-45)));
  (236%N, ((-3045911597727263) @ (-48), (-8871297742822353) @ (-49), (-546860929579423) @ (-45), (-6603607365691809) @ (-49)));
  (237%N, ((-4344890867211441) @ (-49), (-4801260339418511) @ (-49), (-8048736819021951) @ (-50), (-1237001522775589) @ (-47)));
  (238%N, (#, #, (-985322676152685) @ (-46), (-442294618973983) @ (-45)));
  (239%N, ((-5143796749894969) @ (-49), (-6350781191660321) @ (-49), (-4588720168916417) @ (-49), (-5498890462768217) @ (-49)));
  (240%N, ((-1845768529231285) @ (-47), #, (-546860929579423) @ (-45), (-5783730925736513) @ (-49)));
  (241%N, ((-2675826068724701) @ (-48), (-7427359621511357) @ (-49), (-6391208931395613) @ (-49), (-3147473968188667) @ (-48)));
  (242%N, ((-2017999609788739) @ (-47), (-3817185134677383) @ (-48), (-405758969615715) @ (-45), (-1508054683035017) @ (-47)));
  (243%N, ((-483818997720415) @ (-45), #, #, (-6758593556834681) @ (-49)));
  (244%N, ((-7115549202789801) @ (-50), (-4391214115588289) @ (-49), (-3552783934879545) @ (-49), (-5533358244518619) @ (-50)));
  (245%N, ((-3290170857472073) @ (-48), (-7157383978315813) @ (-49), (-5875383106566677) @ (-49), (-6243383314301553) @ (-49)));
  (246%N, (#, #, #, (-7628871685880939) @ (-49)));
  (247%N, ((-583570364997801) @ (-46), (-5220772638967289) @ (-49), (-2323012464519887) @ (-48), (-8049538176986999) @ (-50)));
  (248%N, ((-141825111720935) @ (-44), (-5292150735031569) @ (-49), (-6182233360253939) @ (-49), (-147838693739919) @ (-44)));
  (249%N, (#, #, #, (-3670651212387731) @ (-48)));
  (250%N, ((-5400105314421549) @ (-49), (-2269229683888843) @ (-48), (-4962904693868603) @ (-49), (-5596495875098369) @ (-49)));
  (251%N, ((-148273269739971) @ (-44), (-1444166786611107) @ (-47), (-143089334041629) @ (-44), (-4826722131995037) @ (-49)));
  (252%N, (#, #, (-8462205612165291) @ (-49), (-7628871685880939) @ (-49)));
  (253%N, ((-6945265366262979) @ (-49), #, (-4081744231472905) @ (-48), (-7139646870377641) @ (-49)));
  (254%N, ((-4742992197574103) @ (-49), (-6838531672091105) @ (-49), (-323245639829125) @ (-45), (-2601587085789927) @ (-48)));
  (255%N, (#, #, (-7122640226792847) @ (-49), (-3630371905756697) @ (-48)))].

(** prob_emit.py, characters 0x8c00 to 0x8cff *)
Definition emit_8c : list (N * num4) := [
  (0%N, (#, (-6838531672091105) @ (-49), (-1794334638614767) @ (-47), (-3444810757719897) @ (-48)));
  (1%N, ((-5572334270160043) @ (-49), (-6246014922008839) @ (-49), (-8018343577873535) @ (-49), (-3971839177510705) @ (-49)));
  (2%N, (#, (-8871297742822353) @ (-49), (-4684119305002281) @ (-48), (-7600718321947853) @ (-49)));
  (3%N, ((-7779634732352625) @ (-50), (-4918778852158661) @ (-49), (-8467555732397343) @ (-50), (-4651404764567741) @ (-49)));
  (4%N, ((-3423861029421265) @ (-48), (-4240545284906009) @ (-48), #, (-1749038822580415) @ (-47)));
  (5%N, ((-6564648714016659) @ (-49), (-7310469050781013) @ (-49), (-5548928822603809) @ (-49), (-6249576445556469) @ (-49)));
  (6%N, ((-1797236545307357) @ (-47), (-6657876686019473) @ (-49), (-3756423699901591) @ (-48), (-976926146266539) @ (-46)));
  (7%N, (#, #, #, (-3722837580357007) @ (-48)));
  (8%N, ((-4525591472351897) @ (-49), (-4697942946497641) @ (-49), (-1187220152281187) @ (-47), (-591344290158319) @ (-46)));
  (10%N, (#, (-5667910153060101) @ (-49), (-1344984446574207) @ (-47), (-3383949363299101) @ (-48)));
  (11%N, ((-2642747862386571) @ (-48), (-4519348914413631) @ (-49), (-2505132461944613) @ (-48), (-5415450629078059) @ (-49)));
  (12%N, ((-798193886911877) @ (-46), (-3736209830033945) @ (-48), (-8131311136536975) @ (-49), (-3157785559972261) @ (-48)));
  (13%N, ((-7556172614326021) @ (-49), (-7131195537680991) @ (-49), (-3103138791097497) @ (-48), (-7835882333724349) @ (-49)));
  (14%N, ((-6373025116031563) @ (-49), (-7346801008249289) @ (-49), (-383847879079333) @ (-45), (-6351716391968069) @ (-49)));
  (15%N, ((-222100499235933) @ (-44), (-6538920241582019) @ (-49), (-6017592131251313) @ (-49), (-2945041625094315) @ (-48)));
  (16%N, ((-6323010706426361) @ (-49), (-3760701355345663) @ (-48), (-2763688186286647) @ (-48), (-1557498400781619) @ (-47)));
  (17%N, (#, #, (-7206819109466809) @ (-49), (-1636483042981505) @ (-47)));
  (18%N, ((-1998329865051197) @ (-47), (-3982632372491541) @ (-48), (-6945265366262979) @ (-49), (-3176605805923435) @ (-48)));
  (19%N, ((-878374446492819) @ (-46), (-3260663311836043) @ (-48), (-2275621717490545) @ (-48), (-2847389126532009) @ (-48)));
  (20%N, (#, #, (-7417202744952887) @ (-49), (-7145732875094951) @ (-49)));
  (21%N, ((-6468822725631725) @ (-49), (-3312849679805319) @ (-48), (-6064913875252621) @ (-49), (-2915714294531605) @ (-48)));
  (22%N, (#, #, (-546860929579423) @ (-45), (-7050279472141661) @ (-49)));
  (23%N, ((-7435075673190267) @ (-49), (-8090883396801683) @ (-49), #, (-7055467987703679) @ (-49)));
  (24%N, ((-609902861438431) @ (-45), #, (-546860929579423) @ (-45), (-1822899526423839) @ (-47)));
  (25%N, ((-7320459650820583) @ (-49), (-7427359621511357) @ (-49), (-1723595915767347) @ (-47), (-7025030848007957) @ (-49)));
  (26%N, ((-6699532234209679) @ (-49), (-3817185134677383) @ (-48), (-3632058836243843) @ (-48), (-7332707602050573) @ (-49)));
  (27%N, ((-1910269588269243) @ (-47), #, (-1709551796309617) @ (-47), (-50275542397939) @ (-42)));
  (28%N, ((-1653276102753797) @ (-47), (-3982632372491541) @ (-48), (-3470737221580077) @ (-48), (-712138422901341) @ (-46)));
  (29%N, (#, #, #, (-6369926603535943) @ (-49)));
  (30%N, (#, #, (-8462205612165291) @ (-49), (-4297911758076491) @ (-48)));
  (31%N, (#, (-375889304995713) @ (-45), (-3204265917604379) @ (-48), (-1572059520989393) @ (-47)));
  (32%N, (#, (-4240545284906009) @ (-48), (-4684119305002281) @ (-48), (-7060704769219635) @ (-49)));
  (33%N, (#, (-7427359621511357) @ (-49), (-3262711202969551) @ (-48), (-3460785255448521) @ (-48)));
  (34%N, ((-4420528716134215) @ (-49), (-2592489051964865) @ (-48), (-4831625507573831) @ (-49), (-2642913603215375) @ (-48)));
  (35%N, ((-6075361497587351) @ (-49), (-7310469050781013) @ (-49), (-6184198283552203) @ (-49), (-880642292618137) @ (-46)));
  (36%N, ((-609902861438431) @ (-45), (-3606862978324355) @ (-48), (-1723595915767347) @ (-47), (-3612205927022559) @ (-48)));
  (37%N, ((-1826459187989943) @ (-47), #, (-4331497877621075) @ (-48), (-3168489320260109) @ (-48)));
  (38%N, ((-727136860772465) @ (-46), (-2321342645943839) @ (-48), (-5704966924917877) @ (-49), (-382623035576113) @ (-45)));
  (39%N, (#, (-8090883396801683) @ (-49), (-3504836334064703) @ (-48), (-3670651212387731) @ (-48)));
  (40%N, ((-5704546969692567) @ (-49), (-5774364689437589) @ (-49), (-2880975246076593) @ (-48), (-5892059671013653) @ (-49)));
  (41%N, ((-7171623277416283) @ (-49), #, #, (-6592047412203725) @ (-49)));
  (42%N, ((-1947521753537519) @ (-47), #, (-3855333411915459) @ (-48), (-3605255574468759) @ (-48)));
  (43%N, (#, #, #, (-70881326618687) @ (-42)));
  (44%N, ((-796456298773427) @ (-46), (-1725734743489383) @ (-47), (-394179507271553) @ (-45), (-850424662662967) @ (-46)));
  (45%N, ((-1256189774981879) @ (-47), (-7385640542039271) @ (-49), (-3456016221203681) @ (-48), (-6148393454038315) @ (-49)));
  (46%N, (#, #, #, (-2001206550016447) @ (-47)));
  (47%N, ((-3903704958981611) @ (-48), (-3638170211376633) @ (-48), #, (-440002733528793) @ (-45)));
  (48%N, ((-8978031436994227) @ (-49), #, #, (-3888284818171165) @ (-48)));
  (49%N, ((-6463948669613769) @ (-49), (-2797441164136159) @ (-48), (-2664398504972351) @ (-48), (-334064999534987) @ (-45)));
  (50%N, (#, (-3887923857524803) @ (-48), (-7426068281774563) @ (-49), (-7628871685880939) @ (-49)));
  (51%N, (#, #, (-2146956065995973) @ (-47), (-7523833130877875) @ (-49)));
  (52%N, ((-359803754727857) @ (-45), #, #, (-6813480256580097) @ (-49)));
  (53%N, ((-1870602565026865) @ (-47), #, #, (-302852298247679) @ (-44)));
  (54%N, ((-7082412406347563) @ (-49), #, #, (-6673134368961563) @ (-49)));
  (55%N, ((-4907994033590385) @ (-49), (-4769151006240439) @ (-49), (-4681439769178645) @ (-49), (-637952282273189) @ (-46)));
  (57%N, (#, #, #, (-4650533185457697) @ (-48)));
  (58%N, (#, #, #, (-302852298247679) @ (-44)));
  (59%N, (#, #, #, (-4650533185457697) @ (-48)));
  (60%N, (#, #, #, (-302852298247679) @ (-44)));
  (63%N, (#, #, #, (-7857128249604397) @ (-49)));
  (64%N, (#, #, #, (-8910859197905059) @ (-49)));
  (65%N, ((-737473404404659) @ (-46), (-8871297742822353) @ (-49), (-8233949048441833) @ (-49), (-6678445256967907) @ (-49)));
  (68%N, (#, #, #, (-302852298247679) @ (-44)));
  (70%N, ((-2657379875953771) @ (-48), (-5097047993978133) @ (-49), (-635777897903449) @ (-46), (-5290568340939887) @ (-49)));
  (71%N, ((-483818997720415) @ (-45), (-8871297742822353) @ (-49), #, (-70881326618687) @ (-42)));
  (72%N, ((-2723756404908859) @ (-48), (-7106171420012245) @ (-49), (-8131311136536975) @ (-49), (-313516157995601) @ (-45)));
  (73%N, ((-4684119305002281) @ (-48), #, (-3921870937715749) @ (-48), (-4227173035229071) @ (-48)));
  (74%N, (#, #, #, (-8395033373076123) @ (-49)));
  (76%N, ((-1497609883932141) @ (-47), (-8090883396801683) @ (-49), #, (-8910859197905059) @ (-49)));
  (78%N, ((-5877662259288811) @ (-49), (-767480941468751) @ (-46), (-3396452638870059) @ (-48), (-5706996344329503) @ (-49)));
  (79%N, (#, #, #, (-302852298247679) @ (-44)));
  (80%N, ((-8561520755723257) @ (-50), (-4865123990877239) @ (-49), (-1309615085150497) @ (-47), (-7170756992763697) @ (-49)));
  (84%N, (#, #, #, (-302852298247679) @ (-44)));
  (85%N, (#, (-8252834006088559) @ (-49), (-609902861438431) @ (-45), (-3733460538297031) @ (-48)));
  (86%N, (#, #, #, (-302852298247679) @ (-44)));
  (90%N, ((-8197617090973557) @ (-49), #, (-2857570498086813) @ (-48), (-1777541578842475) @ (-47)));
  (93%N, (#, #, #, (-70881326618687) @ (-42)));
  (94%N, (#, #, #, (-7658507473194481) @ (-49)));
  (95%N, (#, #, #, (-4392620273043229) @ (-48)));
  (97%N, ((-4807655443956611) @ (-49), (-8825783744600039) @ (-50), (-7854038109134835) @ (-50), (-4599461059164805) @ (-49)));
  (98%N, ((-7579153354239763) @ (-49), #, #, (-3333936558074267) @ (-48)));
  (99%N, (#, #, #, (-302852298247679) @ (-44)));
  (104%N, ((-609902861438431) @ (-45), #, (-609902861438431) @ (-45), (-8033701757752085) @ (-49)));
  (106%N, ((-79527082739365) @ (-43), (-5064219481894119) @ (-49), (-5327291507739333) @ (-49), (-11149264338229) @ (-40)));
  (107%N, ((-5864123732175763) @ (-49), (-597899528029547) @ (-46), (-5332903785352869) @ (-49), (-5857504168840913) @ (-49)));
  (108%N, ((-349710645883247) @ (-45), (-1537178267142921) @ (-47), (-2784842544509863) @ (-48), (-4650533185457697) @ (-48)));
  (112%N, (#, #, #, (-302852298247679) @ (-44)));
  (115%N, (#, #, #, (-3879055303555717) @ (-48)));
  (116%N, (#, #, #, (-2130163006223681) @ (-47)));
  (120%N, (#, (-8871297742822353) @ (-49), (-3921870937715749) @ (-48), (-4297911758076491) @ (-48)));
  (121%N, ((-6377169551585151) @ (-49), (-491414177067389) @ (-45), (-5722027320004689) @ (-49), (-2978153502075005) @ (-48)));
  (122%N, ((-895045487878171) @ (-46), #, #, (-7489000375236853) @ (-49)));
  (125%N, (#, #, #, (-8205616343142647) @ (-49)));
  (128%N, (#, #, #, (-8130444851884389) @ (-49)));
  (130%N, ((-6949081990735609) @ (-49), (-3460130938885339) @ (-48), (-7237929231852865) @ (-49), (-3167038415105713) @ (-48)));
  (133%N, (#, #, (-8462205612165291) @ (-49), (-4650533185457697) @ (-48)));
  (135%N, (#, #, #, (-8910859197905059) @ (-49)));
  (137%N, ((-2146956065995973) @ (-47), #, (-8359567700260433) @ (-49), (-7183698940977469) @ (-49)));
  (138%N, (#, #, #, (-2001206550016447) @ (-47)));
  (140%N, ((-3478396877264481) @ (-48), (-1451264298286171) @ (-47), (-4740108770562623) @ (-49), (-2940475302847833) @ (-48)));
  (144%N, (#, #, #, (-302852298247679) @ (-44)));
  (146%N, (#, #, #, (-4650533185457697) @ (-48)));
  (147%N, ((-3134506239141279) @ (-48), (-6301798141036885) @ (-49), (-5800424894323443) @ (-49), (-302852298247679) @ (-44)));
  (148%N, ((-8462205612165291) @ (-49), #, #, (-4297911758076491) @ (-48)));
  (152%N, (#, #, #, (-943539134077359) @ (-46)));
  (156%N, (#, #, #, (-766245999084601) @ (-46)));
  (157%N, ((-615569072362151) @ (-46), (-4553492994727269) @ (-49), (-2636730470588601) @ (-48), (-5903392379600389) @ (-49)));
  (158%N, ((-6135215232928767) @ (-49), (-1167449465995129) @ (-47), (-5610794585374943) @ (-49), (-1573399888152681) @ (-47)));
  (160%N, ((-4056894182995459) @ (-49), (-652061453762199) @ (-46), (-2457537629223917) @ (-48), (-302852298247679) @ (-44)));
  (161%N, ((-504561261516311) @ (-46), (-4772242022672853) @ (-49), (-5279347540162341) @ (-49), (-4392620273043229) @ (-48)));
  (162%N, ((-4629430190026255) @ (-49), (-6210014990473763) @ (-49), (-1506797549755025) @ (-47), (-3009417223768917) @ (-48)));
  (165%N, (#, #, #, (-8205616343142647) @ (-49)));
  (167%N, ((-148092957151411) @ (-44), (-5530249331837891) @ (-49), (-5721161908683727) @ (-49), (-5939544796338895) @ (-49)));
  (168%N, ((-1111752853382555) @ (-47), (-4535398463344529) @ (-49), (-5007337333568177) @ (-49), (-302852298247679) @ (-44)));
  (169%N, ((-5713006181505227) @ (-49), (-2998452988059131) @ (-48), (-6225009623047837) @ (-49), (-302852298247679) @ (-44)));
  (170%N, ((-5276200362414669) @ (-49), (-3133834756504569) @ (-48), (-3921870937715749) @ (-48), (-2940151954188827) @ (-48)));
  (171%N, ((-5085244261188855) @ (-49), (-2496114829795519) @ (-48), (-5036936950982623) @ (-49), (-7500373488380235) @ (-49)));
  (172%N, ((-1147035518198787) @ (-47), (-7781030152072303) @ (-50), (-8426145463402623) @ (-50), (-5723874052426745) @ (-49)));
  (175%N, ((-5852538855913737) @ (-49), (-3357982123500955) @ (-48), (-7122640226792847) @ (-49), (-1596788280015305) @ (-47)));
  (176%N, (#, #, #, (-302852298247679) @ (-44)));
  (178%N, (#, (-4240545284906009) @ (-48), (-571248877892569) @ (-45), (-3549396601113259) @ (-48)));
  (179%N, ((-3903704958981611) @ (-48), #, (-4260759154773655) @ (-48), (-3233672435585285) @ (-48)));
  (180%N, ((-2264091305878823) @ (-48), (-4499432300499571) @ (-49), (-4597874976569915) @ (-49), (-1239647920074773) @ (-47)));
  (182%N, ((-5854727196680739) @ (-49), (-7131195537680991) @ (-49), (-7502517753044599) @ (-49), (-3102641684453985) @ (-48)));
  (183%N, ((-1238274141738441) @ (-47), (-2485990762300245) @ (-48), (-2489492592101517) @ (-48), (-4477293768902687) @ (-49)));
  (184%N, ((-2534700496234781) @ (-48), (-741943737622655) @ (-46), (-2749495674838789) @ (-48), (-5940263303077685) @ (-49)));
  (186%N, (#, #, (-609902861438431) @ (-45), (-2130163006223681) @ (-47)));
  (187%N, ((-4677836985942853) @ (-49), (-4050688542367001) @ (-49), (-8210912526198729) @ (-50), (-4392620273043229) @ (-48)));
  (188%N, ((-5344963544468971) @ (-49), (-3256365900473599) @ (-48), (-5336385512436901) @ (-49), (-4874007862937021) @ (-49)));
  (189%N, ((-420777065861407) @ (-45), (-5530249331837891) @ (-49), (-4260759154773655) @ (-48), (-7055467987703679) @ (-49)));
  (191%N, ((-2382076633862167) @ (-48), (-4697942946497641) @ (-49), (-5042866865638173) @ (-49), (-6642280074779601) @ (-49)));
  (192%N, ((-636605050349923) @ (-46), (-685562793749359) @ (-46), (-5664449446656365) @ (-49), (-302852298247679) @ (-44)));
  (193%N, ((-3756423699901591) @ (-48), (-3638170211376633) @ (-48), (-1826459187989943) @ (-47), (-271331332318175) @ (-44)));
  (194%N, (#, (-1688482578221107) @ (-47), (-6076986173905263) @ (-49), (-3728098948061275) @ (-48)));
  (195%N, (#, (-7385640542039271) @ (-49), (-6440191982019049) @ (-49), (-3598472716699259) @ (-48)));
  (196%N, ((-5997458952775391) @ (-49), (-1623981519183149) @ (-47), (-6113101236763489) @ (-49), (-6859388750389055) @ (-49)));
  (197%N, (#, #, (-3663958025301281) @ (-48), (-2061833855653683) @ (-47)));
  (199%N, ((-6926794652293919) @ (-50), (-3549261533740523) @ (-49), (-247589868234857) @ (-45), (-692289557987883) @ (-46)));
  (200%N, ((-8952111807047) @ (-40), (-5719666361771367) @ (-49), (-3133934716149573) @ (-48), (-2720462602273633) @ (-48)));
  (202%N, ((-6325535149909711) @ (-49), (-747927687525045) @ (-46), (-5032975647937565) @ (-49), (-2446464317047195) @ (-48)));
  (205%N, (#, #, #, (-6909376172293041) @ (-49)));
  (208%N, (#, #, #, (-302852298247679) @ (-44)));
  (209%N, ((-1652749980689287) @ (-47), #, (-8272788582231815) @ (-49), (-420540146700683) @ (-45)));
  (210%N, ((-7435075673190267) @ (-49), #, #, (-3598472716699259) @ (-48)));
  (211%N, ((-5544172810479351) @ (-49), (-2535053724542627) @ (-48), (-5096107183488917) @ (-49), (-302852298247679) @ (-44)));
  (217%N, (#, #, #, (-4392620273043229) @ (-48)));
  (218%N, (#, (-7244163096344431) @ (-49), (-4260759154773655) @ (-48), (-7643494584741751) @ (-49)));
  (219%N, (#, #, #, (-4650533185457697) @ (-48)));
  (220%N, ((-6334460930720253) @ (-49), (-5664119229957275) @ (-49), (-182553842567213) @ (-44), (-2657801382117137) @ (-48)));
  (222%N, ((-2745302032240235) @ (-48), (-5629324257460227) @ (-49), (-632296289735963) @ (-46), (-302852298247679) @ (-44)));
  (224%N, ((-5409223109829257) @ (-49), (-3518576224250511) @ (-48), (-211052467801955) @ (-44), (-5883544849703391) @ (-49)));
  (225%N, ((-609902861438431) @ (-45), (-3760701355345663) @ (-48), (-1800199549239177) @ (-47), (-7951171338784367) @ (-49)));
  (226%N, ((-2799245549744133) @ (-48), (-4581774351590155) @ (-49), (-5127597832294121) @ (-49), (-5681002281306127) @ (-49)));
  (227%N, ((-4985267393949059) @ (-49), (-2590479942958731) @ (-48), (-4868705950322641) @ (-49), (-1165609756296055) @ (-47)));
  (228%N, ((-6225009623047837) @ (-49), (-6615369712852055) @ (-49), (-3109348049726011) @ (-48), (-2938862261317585) @ (-48)));
  (230%N, ((-2573453059798627) @ (-48), (-1643962057175493) @ (-47), (-2797339586940663) @ (-48), (-5628627274527499) @ (-49)));
  (231%N, (#, #, #, (-4392620273043229) @ (-48)));
  (232%N, (#, #, #, (-6866796093489079) @ (-49)));
  (234%N, ((-17402094809581) @ (-41), (-2126932442789281) @ (-48), (-929805497063375) @ (-47), (-4816862861546527) @ (-49)));
  (235%N, (#, #, #, (-302852298247679) @ (-44)));
  (236%N, ((-1434014487908025) @ (-47), (-7015906532620973) @ (-49), (-5802919138339179) @ (-49), (-1475511804445333) @ (-47)));
  (237%N, ((-697839905122099) @ (-46), (-8090883396801683) @ (-49), (-6722103407023929) @ (-49), (-1439937327069859) @ (-47)));
  (244%N, ((-2728178621186899) @ (-48), (-2550601312518787) @ (-48), (-5223795113085687) @ (-49), (-302852298247679) @ (-44)));
  (250%N, ((-6020527991638953) @ (-49), (-8090883396801683) @ (-49), (-7725679712283649) @ (-49), (-2725090510438005) @ (-48)));
  (251%N, ((-4684119305002281) @ (-48), #, #, (-2130163006223681) @ (-47)));
  (252%N, ((-4762418200649623) @ (-49), (-43251861075093) @ (-42), (-1215874777828405) @ (-47), (-5798067350644055) @ (-49)));
  (253%N, ((-4946505858074467) @ (-49), (-4875732947963269) @ (-49), (-8092890322325585) @ (-50), (-5226357156853567) @ (-49)));
  (254%N, (#, (-3887923857524803) @ (-48), (-7862826752368233) @ (-49), (-897148847068159) @ (-46)))].

(** prob_emit.py, characters 0x8d00 to 0x8dff *)
Definition emit_8d : list (N * num4) := [
  (4%N, (#, #, (-1910269588269243) @ (-47), (-7857128249604397) @ (-49)));
  (5%N, ((-7072789095884181) @ (-49), (-8871297742822353) @ (-49), (-6825765795923849) @ (-49), (-6823747105641763) @ (-49)));
  (7%N, (#, (-7575057571972747) @ (-49), (-7545024726212017) @ (-49), (-1994339944854797) @ (-47)));
  (8%N, ((-5987656093947163) @ (-49), (-6886133249742931) @ (-49), (-6006717035428063) @ (-49), (-6065342988887265) @ (-49)));
  (10%N, ((-4882765985488899) @ (-49), (-5266405946365033) @ (-49), (-2672370977123151) @ (-48), (-302852298247679) @ (-44)));
  (12%N, (#, #, #, (-4650533185457697) @ (-48)));
  (13%N, ((-7143886142672895) @ (-49), (-8871297742822353) @ (-49), (-8978031436994227) @ (-49), (-3333936558074267) @ (-48)));
  (15%N, ((-5613644970975539) @ (-49), (-874429171128617) @ (-46), (-3061803803079203) @ (-48), (-70881326618687) @ (-42)));
  (16%N, (#, #, #, (-2130163006223681) @ (-47)));
  (19%N, ((-6980583912200295) @ (-49), (-3260663311836043) @ (-48), (-200730820556389) @ (-44), (-225115232174701) @ (-44)));
  (20%N, (#, #, #, (-7857128249604397) @ (-49)));
  (22%N, ((-3187892340076311) @ (-48), (-6680397687276859) @ (-49), #, (-195933285191281) @ (-44)));
  (23%N, ((-1845768529231285) @ (-47), #, #, (-3722837580357007) @ (-48)));
  (27%N, ((-1543610385251581) @ (-47), (-6295964410557909) @ (-49), (-6608903272462357) @ (-49), (-6005761001878767) @ (-49)));
  (29%N, ((-615569072362151) @ (-46), (-4553492994727269) @ (-49), (-2636730470588601) @ (-48), (-5903392379600389) @ (-49)));
  (30%N, ((-6135215232928767) @ (-49), (-1167449465995129) @ (-47), (-5610794585374943) @ (-49), (-1573399888152681) @ (-47)));
  (31%N, ((-4056894182995459) @ (-49), (-652061453762199) @ (-46), (-2457537629223917) @ (-48), (-4967205844063043) @ (-49)));
  (32%N, ((-7591005369967043) @ (-49), #, #, #));
  (33%N, ((-4629430190026255) @ (-49), (-6210014990473763) @ (-49), (-1506797549755025) @ (-47), (-3009417223768917) @ (-48)));
  (34%N, ((-504561261516311) @ (-46), (-4772242022672853) @ (-49), (-5279347540162341) @ (-49), (-2747808744351643) @ (-48)));
  (35%N, ((-1147035518198787) @ (-47), (-7781030152072303) @ (-50), (-8426145463402623) @ (-50), (-5723874052426745) @ (-49)));
  (36%N, ((-2799245549744133) @ (-48), (-4581774351590155) @ (-49), (-5127597832294121) @ (-49), (-5681002281306127) @ (-49)));
  (37%N, ((-1349599203881931) @ (-47), (-596047612093117) @ (-46), (-2174478160426333) @ (-48), (-5144075047446621) @ (-49)));
  (38%N, ((-1434014487908025) @ (-47), (-7015906532620973) @ (-49), (-5802919138339179) @ (-49), (-1475511804445333) @ (-47)));
  (39%N, ((-1111752853382555) @ (-47), (-4535398463344529) @ (-49), (-5007337333568177) @ (-49), (-5354103783309653) @ (-49)));
  (40%N, ((-17402094809581) @ (-41), (-2126932442789281) @ (-48), (-929805497063375) @ (-47), (-4816862861546527) @ (-49)));
  (41%N, ((-5713006181505227) @ (-49), (-2998452988059131) @ (-48), (-6225009623047837) @ (-49), (-6234825821237725) @ (-49)));
  (42%N, ((-5276200362414669) @ (-49), (-3133834756504569) @ (-48), (-3921870937715749) @ (-48), (-2940151954188827) @ (-48)));
  (43%N, ((-148092957151411) @ (-44), (-5530249331837891) @ (-49), (-5721161908683727) @ (-49), (-5939544796338895) @ (-49)));
  (44%N, ((-5854727196680739) @ (-49), (-7131195537680991) @ (-49), (-7502517753044599) @ (-49), (-3102641684453985) @ (-48)));
  (45%N, ((-4762418200649623) @ (-49), (-43251861075093) @ (-42), (-1215874777828405) @ (-47), (-5798067350644055) @ (-49)));
  (46%N, ((-5852538855913737) @ (-49), (-3357982123500955) @ (-48), (-7122640226792847) @ (-49), (-1596788280015305) @ (-47)));
  (47%N, ((-5085244261188855) @ (-49), (-2496114829795519) @ (-48), (-5036936950982623) @ (-49), (-5969782513469415) @ (-49)));
  (48%N, ((-3903704958981611) @ (-48), #, (-4260759154773655) @ (-48), (-3233672435585285) @ (-48)));
  (49%N, ((-6225009623047837) @ (-49), (-6615369712852055) @ (-49), (-3109348049726011) @ (-48), (-2938862261317585) @ (-48)));
  (50%N, ((-3756423699901591) @ (-48), (-3638170211376633) @ (-48), (-1826459187989943) @ (-47), (-3630371905756697) @ (-48)));
  (51%N, (#, #, #, (-302852298247679) @ (-44)));
  (52%N, ((-5344963544468971) @ (-49), (-3256365900473599) @ (-48), (-5336385512436901) @ (-49), (-4874007862937021) @ (-49)));
  (53%N, ((-2264091305878823) @ (-48), (-4499432300499571) @ (-49), (-4597874976569915) @ (-49), (-1239647920074773) @ (-47)));
  (54%N, (#, #, (-609902861438431) @ (-45), (-2130163006223681) @ (-47)));
  (55%N, ((-2534700496234781) @ (-48), (-741943737622655) @ (-46), (-2749495674838789) @ (-48), (-5940263303077685) @ (-49)));
  (56%N, ((-2382076633862167) @ (-48), (-4697942946497641) @ (-49), (-5042866865638173) @ (-49), (-6642280074779601) @ (-49)));
  (57%N, ((-4677836985942853) @ (-49), (-4050688542367001) @ (-49), (-8210912526198729) @ (-50), (-5139549142181797) @ (-49)));
  (58%N, ((-636605050349923) @ (-46), (-685562793749359) @ (-46), (-5664449446656365) @ (-49), (-1383789193480963) @ (-47)));
  (59%N, ((-420777065861407) @ (-45), (-5530249331837891) @ (-49), (-4260759154773655) @ (-48), (-7055467987703679) @ (-49)));
  (60%N, ((-6325535149909711) @ (-49), (-747927687525045) @ (-46), (-5032975647937565) @ (-49), (-2446464317047195) @ (-48)));
  (61%N, (#, #, (-1910269588269243) @ (-47), (-7857128249604397) @ (-49)));
  (62%N, ((-8952111807047) @ (-40), (-5719666361771367) @ (-49), (-3133934716149573) @ (-48), (-2720462602273633) @ (-48)));
  (63%N, ((-5997458952775391) @ (-49), (-1623981519183149) @ (-47), (-6113101236763489) @ (-49), (-6859388750389055) @ (-49)));
  (64%N, (#, (-4240545284906009) @ (-48), (-571248877892569) @ (-45), (-3549396601113259) @ (-48)));
  (65%N, (#, (-7385640542039271) @ (-49), (-6440191982019049) @ (-49), (-3598472716699259) @ (-48)));
  (66%N, (#, (-1688482578221107) @ (-47), (-6076986173905263) @ (-49), (-3728098948061275) @ (-48)));
  (67%N, ((-6980583912200295) @ (-49), (-3260663311836043) @ (-48), (-200730820556389) @ (-44), (-225115232174701) @ (-44)));
  (68%N, ((-6926794652293919) @ (-50), (-3549261533740523) @ (-49), (-247589868234857) @ (-45), (-692289557987883) @ (-46)));
  (69%N, (#, #, (-3663958025301281) @ (-48), (-2061833855653683) @ (-47)));
  (70%N, (#, #, #, (-2130163006223681) @ (-47)));
  (72%N, ((-1652749980689287) @ (-47), #, (-8272788582231815) @ (-49), (-420540146700683) @ (-45)));
  (73%N, (#, (-7244163096344431) @ (-49), (-4260759154773655) @ (-48), (-7643494584741751) @ (-49)));
  (74%N, ((-7435075673190267) @ (-49), #, #, (-3598472716699259) @ (-48)));
  (75%N, ((-2573453059798627) @ (-48), (-1643962057175493) @ (-47), (-2797339586940663) @ (-48), (-5628627274527499) @ (-49)));
  (76%N, ((-697839905122099) @ (-46), (-8090883396801683) @ (-49), (-6722103407023929) @ (-49), (-1439937327069859) @ (-47)));
  (77%N, (#, #, #, (-6411527054843345) @ (-49)));
  (78%N, ((-3187892340076311) @ (-48), (-6680397687276859) @ (-49), #, (-195933285191281) @ (-44)));
  (79%N, ((-2745302032240235) @ (-48), (-5629324257460227) @ (-49), (-632296289735963) @ (-46), (-5305268807827473) @ (-49)));
  (80%N, ((-6334460930720253) @ (-49), (-5664119229957275) @ (-49), (-182553842567213) @ (-44), (-2657801382117137) @ (-48)));
  (81%N, (#, #, #, (-7857128249604397) @ (-49)));
  (82%N, (#, #, #, (-4392620273043229) @ (-48)));
  (83%N, ((-609902861438431) @ (-45), (-3760701355345663) @ (-48), (-1800199549239177) @ (-47), (-7951171338784367) @ (-49)));
  (84%N, ((-5409223109829257) @ (-49), (-3518576224250511) @ (-48), (-211052467801955) @ (-44), (-5883544849703391) @ (-49)));
  (85%N, (#, #, #, (-4392620273043229) @ (-48)));
  (86%N, ((-2728178621186899) @ (-48), (-2550601312518787) @ (-48), (-5223795113085687) @ (-49), (-5700384440010635) @ (-49)));
  (88%N, ((-7072789095884181) @ (-49), (-8871297742822353) @ (-49), (-6825765795923849) @ (-49), (-6823747105641763) @ (-49)));
  (89%N, ((-4684119305002281) @ (-48), #, #, (-2130163006223681) @ (-47)));
  (90%N, ((-6020527991638953) @ (-49), (-8090883396801683) @ (-49), (-7725679712283649) @ (-49), (-2725090510438005) @ (-48)));
  (91%N, ((-4946505858074467) @ (-49), (-4875732947963269) @ (-49), (-8092890322325585) @ (-50), (-5226357156853567) @ (-49)));
  (92%N, (#, (-3887923857524803) @ (-48), (-7862826752368233) @ (-49), (-897148847068159) @ (-46)));
  (93%N, ((-1845768529231285) @ (-47), #, #, (-3722837580357007) @ (-48)));
  (94%N, ((-4882765985488899) @ (-49), (-5266405946365033) @ (-49), (-2672370977123151) @ (-48), (-5634861556994547) @ (-49)));
  (95%N, (#, (-6703857329774499) @ (-49), (-6887476215016351) @ (-49), (-6796774284284499) @ (-49)));
  (96%N, ((-5987656093947163) @ (-49), (-6886133249742931) @ (-49), (-6006717035428063) @ (-49), (-6065342988887265) @ (-49)));
  (97%N, ((-7143886142672895) @ (-49), (-8871297742822353) @ (-49), (-8978031436994227) @ (-49), (-3333936558074267) @ (-48)));
  (98%N, ((-5613644970975539) @ (-49), (-874429171128617) @ (-46), (-3061803803079203) @ (-48), (-330830974797173) @ (-45)));
  (99%N, ((-1543610385251581) @ (-47), (-6295964410557909) @ (-49), (-6608903272462357) @ (-49), (-6005761001878767) @ (-49)));
  (100%N, ((-1245674876662167) @ (-47), (-5899983341256189) @ (-49), (-379760828102721) @ (-45), (-5262055654882251) @ (-49)));
  (101%N, (#, #, #, (-4650533185457697) @ (-48)));
  (102%N, ((-3359775170817407) @ (-48), (-6669024574133477) @ (-49), (-6244386486481481) @ (-49), (-5720457787348817) @ (-49)));
  (103%N, ((-571248877892569) @ (-45), (-7385640542039271) @ (-49), (-8233949048441833) @ (-49), (-7857128249604397) @ (-49)));
  (107%N, ((-5253706284323955) @ (-49), (-4923827764507707) @ (-49), (-5440378403726143) @ (-49), (-6103413465244223) @ (-49)));
  (108%N, (#, #, #, (-70881326618687) @ (-42)));
  (109%N, ((-7350896790516305) @ (-49), #, #, (-7614619027055453) @ (-49)));
  (112%N, ((-2041095129819151) @ (-48), (-2496114829795519) @ (-48), (-1170240651566627) @ (-47), (-449422632103533) @ (-46)));
  (115%N, ((-609902861438431) @ (-45), (-6838531672091105) @ (-49), (-7725679712283649) @ (-49), (-1893476528496951) @ (-47)));
  (116%N, ((-6295964241005071) @ (-49), (-3181861569937047) @ (-48), (-1456339630029287) @ (-47), (-4902974523905213) @ (-49)));
  (117%N, ((-8161983936838335) @ (-50), (-1424296561087021) @ (-47), (-1544094852127073) @ (-47), (-5168543337648185) @ (-49)));
  (118%N, ((-8787768294487851) @ (-50), (-6669024574133477) @ (-49), (-705843447443531) @ (-46), (-2476792711365959) @ (-48)));
  (119%N, ((-1765634341261361) @ (-48), (-8035183876727605) @ (-50), (-7057210782354727) @ (-50), (-3510126742381803) @ (-49)));
  (123%N, (#, #, #, (-70881326618687) @ (-42)));
  (126%N, (#, #, #, (-4650533185457697) @ (-48)));
  (129%N, ((-5603380273735739) @ (-49), (-3982632372491541) @ (-48), (-3912641423100301) @ (-48), (-1359640276695081) @ (-47)));
  (130%N, (#, #, #, (-302852298247679) @ (-44)));
  (132%N, (#, (-3887923857524803) @ (-48), (-3632058836243843) @ (-48), (-2130163006223681) @ (-47)));
  (133%N, ((-8252663543158303) @ (-50), (-4696247823405873) @ (-49), (-4874537699368369) @ (-49), (-1260184617417653) @ (-47)));
  (134%N, (#, #, #, (-4170689255897351) @ (-48)));
  (138%N, ((-4339292671182843) @ (-49), (-4982577230273537) @ (-49), (-8738453263891615) @ (-50), (-8493059732973915) @ (-50)));
  (139%N, ((-2466882490796049) @ (-48), (-6657876686019473) @ (-49), (-1456339630029287) @ (-47), (-1412206238724323) @ (-47)));
  (142%N, (#, #, #, (-4048158111928321) @ (-48)));
  (145%N, ((-4684119305002281) @ (-48), #, #, (-302852298247679) @ (-44)));
  (148%N, ((-3638841694013343) @ (-48), (-3887923857524803) @ (-48), #, (-70881326618687) @ (-42)));
  (149%N, ((-8787768294487851) @ (-50), (-6669024574133477) @ (-49), (-705843447443531) @ (-46), (-2476792711365959) @ (-48)));
  (153%N, ((-483818997720415) @ (-45), (-1424296561087021) @ (-47), (-1544094852127073) @ (-47), (-5168543337648185) @ (-49)));
  (154%N, (#, #, #, (-302852298247679) @ (-44)));
  (156%N, (#, #, #, (-302852298247679) @ (-44)));
  (159%N, ((-8462205612165291) @ (-49), (-4240545284906009) @ (-48), (-1442006597807091) @ (-47), (-6052033859475507) @ (-49)));
  (163%N, ((-3138539726455591) @ (-48), (-1514529331517609) @ (-47), (-4731546057822171) @ (-49), (-6452863044846125) @ (-49)));
  (168%N, ((-2466882490796049) @ (-48), (-6657876686019473) @ (-49), (-1456339630029287) @ (-47), (-1412206238724323) @ (-47)));
  (171%N, (#, #, #, (-302852298247679) @ (-44)));
  (174%N, (#, #, #, (-3870118839437027) @ (-48)));
  (175%N, (#, #, #, (-302852298247679) @ (-44)));
  (177%N, (#, #, (-609902861438431) @ (-45), (-3634150150092073) @ (-48)));
  (178%N, (#, #, (-609902861438431) @ (-45), (-3634150150092073) @ (-48)));
  (179%N, ((-4670499178624829) @ (-49), (-8586974717744563) @ (-50), (-4222831653358693) @ (-49), (-1134019497259707) @ (-47)));
  (180%N, ((-3093579294056553) @ (-48), #, #, (-1624853585607365) @ (-47)));
  (181%N, ((-7773281289935475) @ (-49), #, #, (-8130444851884389) @ (-49)));
  (183%N, (#, #, #, (-4650533185457697) @ (-48)));
  (184%N, ((-2017999609788739) @ (-47), #, #, (-6752474475355211) @ (-49)));
  (186%N, ((-4426206392587813) @ (-48), #, (-4684119305002281) @ (-48), (-943539134077359) @ (-46)));
  (188%N, (#, (-8252834006088559) @ (-49), #, (-8033701757752085) @ (-49)));
  (190%N, ((-903159767337213) @ (-46), (-101243867878125) @ (-43), (-846618816505503) @ (-46), (-6092001926794289) @ (-49)));
  (191%N, ((-7924300488693565) @ (-49), #, #, (-472560260360877) @ (-45)));
  (194%N, (#, #, #, (-70881326618687) @ (-42)));
  (195%N, ((-2654662309580933) @ (-48), (-589441396872511) @ (-46), (-80039049318957) @ (-43), (-5233072345266555) @ (-49)));
  (196%N, ((-8978031436994227) @ (-49), (-3115151835519143) @ (-48), (-1578565812587615) @ (-47), (-1994339944854797) @ (-47)));
  (198%N, ((-7492374236211145) @ (-49), #, #, (-4048158111928321) @ (-48)));
  (199%N, (#, #, #, (-302852298247679) @ (-44)));
  (203%N, ((-6427920107438971) @ (-49), (-5705257349673547) @ (-49), (-6248784555362411) @ (-49), (-3229125083424967) @ (-48)));
  (204%N, ((-349602751373401) @ (-45), (-5774364689437589) @ (-49), (-5734727624222727) @ (-49), (-5369542135269101) @ (-49)));
  (206%N, (#, (-8252834006088559) @ (-49), (-1998329865051197) @ (-47), (-7386362463331995) @ (-49)));
  (207%N, ((-4684119305002281) @ (-48), #, #, (-7628871685880939) @ (-49)));
  (209%N, ((-180954905704047) @ (-44), (-6043104437617705) @ (-49), (-2658959720943377) @ (-48), (-8863719176843459) @ (-50)));
  (212%N, (#, #, #, (-302852298247679) @ (-44)));
  (214%N, ((-546860929579423) @ (-45), (-7346801008249289) @ (-49), (-609902861438431) @ (-45), (-976926146266539) @ (-46)));
  (215%N, ((-1947521753537519) @ (-47), #, #, (-7386362463331995) @ (-49)));
  (216%N, (#, #, #, (-302852298247679) @ (-44)));
  (218%N, (#, (-8871297742822353) @ (-49), (-1746162137615165) @ (-47), (-7951171338784367) @ (-49)));
  (219%N, ((-7018267490854295) @ (-49), #, #, (-6719959142359565) @ (-49)));
  (221%N, ((-2506235325693543) @ (-48), (-5173798588525433) @ (-49), (-1281485800495329) @ (-47), (-4999248024641575) @ (-49)));
  (222%N, (#, #, (-609902861438431) @ (-45), (-7926147221115621) @ (-49)));
  (223%N, ((-2459091027077753) @ (-48), (-5540772067246427) @ (-49), (-3063576879661641) @ (-48), (-1922322773700503) @ (-48)));
  (225%N, ((-6003138193410255) @ (-49), (-5863830924517683) @ (-49), (-4509385221921017) @ (-49), (-6109207169419125) @ (-49)));
  (227%N, (#, (-8252834006088559) @ (-49), #, (-7386362463331995) @ (-49)));
  (228%N, (#, (-8871297742822353) @ (-49), (-1668867720385385) @ (-47), (-6790228280836765) @ (-49)));
  (232%N, ((-2601804621076409) @ (-48), (-8871297742822353) @ (-49), (-6324271513120055) @ (-49), (-5211386855631375) @ (-49)));
  (233%N, (#, #, #, (-4650533185457697) @ (-48)));
  (234%N, ((-2676612155346519) @ (-48), (-8871297742822353) @ (-49), (-6901376920123951) @ (-49), (-2551402784317825) @ (-48)));
  (235%N, ((-609902861438431) @ (-45), #, (-571248877892569) @ (-45), (-7055467987703679) @ (-49)));
  (236%N, ((-8978031436994227) @ (-49), (-4240545284906009) @ (-48), #, (-8130444851884389) @ (-49)));
  (239%N, ((-4300411051100981) @ (-49), (-242327640153875) @ (-45), (-871154933834377) @ (-47), (-7868517462235613) @ (-50)));
  (243%N, ((-2485643399870837) @ (-48), (-2853646668628891) @ (-48), (-2890910688465787) @ (-48), (-4600325244183597) @ (-49)));
  (245%N, ((-3278481635527623) @ (-48), (-2998452988059131) @ (-48), (-2442849520775607) @ (-48), (-6292254390791667) @ (-49)));
  (246%N, (#, #, #, (-1848956007451337) @ (-47)));
  (247%N, ((-1947521753537519) @ (-47), (-3982632372491541) @ (-48), (-1630008820983823) @ (-47), (-420540146700683) @ (-45)));
  (248%N, (#, #, (-7122640226792847) @ (-49), (-456223959081461) @ (-45)));
  (249%N, (#, #, (-1998329865051197) @ (-47), (-472560260360877) @ (-45)));
  (250%N, ((-1668867720385385) @ (-47), (-3760701355345663) @ (-48), #, (-2904105433738755) @ (-48)));
  (251%N, ((-784345347895847) @ (-46), #, #, (-7600718321947853) @ (-49)));
  (252%N, (#, #, #, (-8910859197905059) @ (-49)));
  (253%N, (#, #, #, (-8292395461171265) @ (-49)));
  (254%N, (#, #, #, (-302852298247679) @ (-44)))].

(** prob_emit.py, characters 0x8e00 to 0x8eff *)
Definition emit_8e : list (N * num4) := [
  (1%N, (#, #, #, (-382623035576113) @ (-45)));
  (4%N, (#, #, #, (-4392620273043229) @ (-48)));
  (5%N, (#, #, (-4204275375441935) @ (-48), (-6161020898305513) @ (-49)));
  (9%N, ((-1578565812587615) @ (-47), (-3115151835519143) @ (-48), (-8978031436994227) @ (-49), (-7689790518313711) @ (-49)));
  (10%N, ((-6645653935753893) @ (-49), #, #, (-1742172217418765) @ (-47)));
  (12%N, ((-1533353447885147) @ (-47), #, #, (-4297911758076491) @ (-48)));
  (15%N, ((-5405262143947849) @ (-49), (-5170644799025255) @ (-49), (-764463687970229) @ (-46), (-5466366756092459) @ (-49)));
  (16%N, ((-3278481635527623) @ (-48), (-2998452988059131) @ (-48), (-2442849520775607) @ (-48), (-6292254390791667) @ (-49)));
  (18%N, (#, #, #, (-7523833130877875) @ (-49)));
  (20%N, ((-4684119305002281) @ (-48), (-4240545284906009) @ (-48), #, (-7115940211661285) @ (-49)));
  (21%N, (#, #, (-609902861438431) @ (-45), #));
  (24%N, (#, #, #, (-302852298247679) @ (-44)));
  (26%N, (#, #, #, (-271331332318175) @ (-44)));
  (28%N, (#, #, #, (-3870118839437027) @ (-48)));
  (29%N, ((-8100873996841253) @ (-49), (-4240545284906009) @ (-48), (-6825765795923849) @ (-49), (-3582197954329907) @ (-48)));
  (30%N, (#, (-3887923857524803) @ (-48), (-1610436237098159) @ (-47), (-6796774284284499) @ (-49)));
  (31%N, ((-7426068281774563) @ (-49), #, #, (-70881326618687) @ (-42)));
  (32%N, (#, #, #, (-2130163006223681) @ (-47)));
  (33%N, (#, #, #, (-302852298247679) @ (-44)));
  (34%N, ((-6592405389866091) @ (-49), (-3982632372491541) @ (-48), (-230211112012267) @ (-44), (-2592702189698669) @ (-48)));
  (35%N, (#, #, #, (-4392620273043229) @ (-48)));
  (37%N, (#, #, #, (-8292395461171265) @ (-49)));
  (38%N, (#, #, #, (-7523833130877875) @ (-49)));
  (41%N, ((-222100499235933) @ (-44), #, (-609902861438431) @ (-45), (-5681002281306127) @ (-49)));
  (42%N, ((-5978021018471535) @ (-49), (-6487707683278451) @ (-49), (-2636730470588601) @ (-48), (-6335525865640615) @ (-49)));
  (44%N, (#, #, #, (-4297911758076491) @ (-48)));
  (46%N, ((-4684119305002281) @ (-48), #, #, (-1809666128217651) @ (-47)));
  (47%N, ((-2017999609788739) @ (-47), (-8252834006088559) @ (-49), #, #));
  (48%N, (#, #, #, (-7170756992763697) @ (-49)));
  (49%N, ((-3538790094118157) @ (-48), #, #, (-6243383314301553) @ (-49)));
  (50%N, (#, #, #, (-8292395461171265) @ (-49)));
  (51%N, (#, #, #, (-4227173035229071) @ (-48)));
  (52%N, ((-6645653935753893) @ (-49), #, #, (-1742172217418765) @ (-47)));
  (53%N, ((-546860929579423) @ (-45), (-175316281306671) @ (-44), (-7237929231852865) @ (-49), (-7425201997121977) @ (-49)));
  (57%N, (#, #, #, (-6465514138001285) @ (-49)));
  (58%N, ((-4426206392587813) @ (-48), #, #, (-302852298247679) @ (-44)));
  (60%N, (#, #, #, (-302852298247679) @ (-44)));
  (61%N, ((-2017999609788739) @ (-47), (-491414177067389) @ (-45), (-8272788582231815) @ (-49), (-302852298247679) @ (-44)));
  (64%N, ((-4331497877621075) @ (-48), #, #, (-4392620273043229) @ (-48)));
  (65%N, ((-4260759154773655) @ (-48), #, #, (-4650533185457697) @ (-48)));
  (66%N, ((-6352748616180713) @ (-49), #, #, (-4392620273043229) @ (-48)));
  (68%N, ((-6245482786639873) @ (-49), (-2684149361275507) @ (-48), (-2994175332615059) @ (-48), (-393182027222453) @ (-45)));
  (69%N, (#, #, #, (-4650533185457697) @ (-48)));
  (71%N, ((-2017999609788739) @ (-47), #, (-546860929579423) @ (-45), (-5545045735042627) @ (-49)));
  (72%N, ((-1975763643203379) @ (-47), (-5505484279959921) @ (-49), (-2712292628081273) @ (-48), (-6934034856678315) @ (-49)));
  (73%N, ((-7924300488693565) @ (-49), #, #, (-2130163006223681) @ (-47)));
  (74%N, ((-3287202728281269) @ (-48), (-3318111047509587) @ (-48), (-7862826752368233) @ (-49), (-8910859197905059) @ (-49)));
  (75%N, ((-609902861438431) @ (-45), #, (-6717008802539521) @ (-49), (-6991483479663675) @ (-49)));
  (76%N, ((-8978031436994227) @ (-49), (-3115151835519143) @ (-48), (-1578565812587615) @ (-47), (-1994339944854797) @ (-47)));
  (77%N, (#, #, #, (-302852298247679) @ (-44)));
  (78%N, (#, #, #, (-302852298247679) @ (-44)));
  (79%N, (#, #, #, (-4650533185457697) @ (-48)));
  (80%N, (#, #, #, (-271331332318175) @ (-44)));
  (81%N, ((-6964612629572873) @ (-49), (-6295964410557909) @ (-49), (-4684119305002281) @ (-48), (-225115232174701) @ (-44)));
  (82%N, ((-7040346789497085) @ (-49), (-7427359621511357) @ (-49), #, (-4392620273043229) @ (-48)));
  (83%N, (#, #, #, (-7835882333724349) @ (-49)));
  (85%N, (#, #, (-7122640226792847) @ (-49), (-456223959081461) @ (-45)));
  (89%N, ((-7615485311708039) @ (-49), (-4240545284906009) @ (-48), #, (-3194372812263757) @ (-48)));
  (90%N, (#, #, #, (-13119324708823) @ (-40)));
  (92%N, (#, #, #, (-302852298247679) @ (-44)));
  (95%N, (#, #, #, (-4650533185457697) @ (-48)));
  (96%N, ((-546860929579423) @ (-45), (-7346801008249289) @ (-49), (-7862826752368233) @ (-49), (-239810366388671) @ (-44)));
  (97%N, (#, #, #, (-4170689255897351) @ (-48)));
  (98%N, (#, #, #, (-302852298247679) @ (-44)));
  (99%N, ((-7040346789497085) @ (-49), (-7427359621511357) @ (-49), #, (-4392620273043229) @ (-48)));
  (102%N, ((-3551083531600405) @ (-48), (-195523065702511) @ (-44), (-8197617090973557) @ (-49), (-386977214305085) @ (-45)));
  (103%N, (#, #, #, (-70881326618687) @ (-42)));
  (105%N, ((-7579153354239763) @ (-49), #, #, (-3879055303555717) @ (-48)));
  (107%N, (#, #, #, (-4650533185457697) @ (-48)));
  (108%N, ((-7862826752368233) @ (-49), (-8090883396801683) @ (-49), (-7117451711230829) @ (-49), (-3100920119596695) @ (-48)));
  (109%N, ((-8197617090973557) @ (-49), (-6869814717210335) @ (-49), (-889038822504283) @ (-46), (-3147473968188667) @ (-48)));
  (111%N, (#, #, #, (-4650533185457697) @ (-48)));
  (112%N, (#, #, (-7453534702421163) @ (-49), (-302852298247679) @ (-44)));
  (113%N, (#, #, #, (-4650533185457697) @ (-48)));
  (114%N, ((-6249889462397031) @ (-49), #, #, (-5660950499590363) @ (-49)));
  (116%N, ((-4260759154773655) @ (-48), (-6487707683278451) @ (-49), #, (-3634150150092073) @ (-48)));
  (118%N, (#, (-1578412539191041) @ (-47), (-4684119305002281) @ (-48), (-943539134077359) @ (-46)));
  (122%N, ((-1947521753537519) @ (-47), (-3982632372491541) @ (-48), (-1630008820983823) @ (-47), (-302852298247679) @ (-44)));
  (123%N, (#, #, #, (-7795654513279065) @ (-49)));
  (124%N, ((-4081744231472905) @ (-48), #, (-2078626915425975) @ (-47), (-886648957992025) @ (-46)));
  (125%N, (#, #, #, (-2061833855653683) @ (-47)));
  (126%N, (#, #, #, (-2061833855653683) @ (-47)));
  (127%N, ((-2146956065995973) @ (-47), (-7244163096344431) @ (-49), #, (-6219270422654963) @ (-49)));
  (129%N, ((-7143886142672895) @ (-49), (-8090883396801683) @ (-49), (-5624828580397555) @ (-49), (-6678445256967907) @ (-49)));
  (130%N, (#, #, #, (-1848956007451337) @ (-47)));
  (132%N, (#, #, #, (-4297911758076491) @ (-48)));
  (133%N, (#, #, (-1998329865051197) @ (-47), (-4650533185457697) @ (-48)));
  (135%N, (#, (-6235492186600303) @ (-49), (-1559192897098617) @ (-47), (-4227173035229071) @ (-48)));
  (137%N, ((-2017999609788739) @ (-47), #, #, (-6752474475355211) @ (-49)));
  (138%N, ((-1533353447885147) @ (-47), #, #, (-4297911758076491) @ (-48)));
  (139%N, ((-784345347895847) @ (-46), #, #, (-7600718321947853) @ (-49)));
  (141%N, ((-2654662309580933) @ (-48), (-589441396872511) @ (-46), (-2146956065995973) @ (-47), (-4650533185457697) @ (-48)));
  (143%N, (#, #, (-6352748616180713) @ (-49), (-4392620273043229) @ (-48)));
  (144%N, (#, #, #, (-8395033373076123) @ (-49)));
  (145%N, ((-2017999609788739) @ (-47), (-8252834006088559) @ (-49), #, (-302852298247679) @ (-44)));
  (146%N, (#, #, (-609902861438431) @ (-45), (-7926147221115621) @ (-49)));
  (147%N, (#, #, #, (-4297911758076491) @ (-48)));
  (148%N, (#, #, #, (-8910859197905059) @ (-49)));
  (149%N, (#, #, (-7453534702421163) @ (-49), (-302852298247679) @ (-44)));
  (150%N, (#, #, #, (-70881326618687) @ (-42)));
  (152%N, (#, #, #, (-2130163006223681) @ (-47)));
  (154%N, (#, #, (-1998329865051197) @ (-47), (-472560260360877) @ (-45)));
  (156%N, (#, #, #, (-271331332318175) @ (-44)));
  (157%N, (#, #, #, (-302852298247679) @ (-44)));
  (158%N, (#, #, (-4331497877621075) @ (-48), #));
  (159%N, (#, #, #, (-2061833855653683) @ (-47)));
  (161%N, ((-6964612629572873) @ (-49), (-6295964410557909) @ (-49), (-4684119305002281) @ (-48), (-4170689255897351) @ (-48)));
  (165%N, ((-2146956065995973) @ (-47), (-7244163096344431) @ (-49), #, (-6219270422654963) @ (-49)));
  (166%N, (#, #, #, (-271331332318175) @ (-44)));
  (167%N, (#, #, #, (-3888284818171165) @ (-48)));
  (170%N, (#, #, (-6352748616180713) @ (-49), (-302852298247679) @ (-44)));
  (171%N, ((-7272405060706163) @ (-50), (-4283154702579345) @ (-49), (-3666271146444573) @ (-49), (-8498395255738973) @ (-50)));
  (172%N, ((-1438525691059767) @ (-47), (-3005360696119749) @ (-48), (-3396452638870059) @ (-48), (-6321200666391935) @ (-49)));
  (173%N, (#, #, #, (-302852298247679) @ (-44)));
  (175%N, ((-5836922791351777) @ (-49), #, (-5987656093947163) @ (-49), (-6649836563450353) @ (-49)));
  (177%N, (#, #, #, (-4650533185457697) @ (-48)));
  (178%N, ((-2780742923878755) @ (-48), (-3125675490238271) @ (-48), (-1839692586196131) @ (-47), (-5077089822820243) @ (-49)));
  (183%N, (#, #, #, (-4170689255897351) @ (-48)));
  (186%N, ((-6890919344730931) @ (-49), (-491414177067389) @ (-45), (-3569249510334543) @ (-48), (-637546814460621) @ (-46)));
  (187%N, (#, #, #, (-4392620273043229) @ (-48)));
  (192%N, ((-5836922791351777) @ (-49), #, (-5987656093947163) @ (-49), (-6649836563450353) @ (-49)));
  (194%N, (#, #, #, (-70881326618687) @ (-42)));
  (195%N, (#, #, #, (-4048158111928321) @ (-48)));
  (198%N, (#, #, #, (-7600718321947853) @ (-49)));
  (202%N, ((-8625985665031827) @ (-50), (-4363363393557451) @ (-49), (-7759788880519869) @ (-50), (-8395033373076123) @ (-49)));
  (203%N, ((-3363622269110247) @ (-48), (-7427359621511357) @ (-49), (-1697502731782709) @ (-47), (-6411527054843345) @ (-49)));
  (204%N, ((-5256540406537913) @ (-49), (-3292735769582677) @ (-48), (-2862315782494339) @ (-48), (-1544030019510545) @ (-47)));
  (205%N, ((-6980754716683807) @ (-50), (-6910620207916553) @ (-50), (-4260759154773655) @ (-48), (-7886014380232183) @ (-50)));
  (206%N, (#, #, #, (-8910859197905059) @ (-49)));
  (207%N, (#, #, #, (-8205616343142647) @ (-49)));
  (210%N, ((-5806429750761971) @ (-49), (-6046820292385703) @ (-49), (-1307566468362003) @ (-47), (-3030435779935781) @ (-48)));
  (211%N, (#, #, #, (-3549396601113259) @ (-48)));
  (212%N, (#, #, #, (-7358896042685395) @ (-49)));
  (219%N, (#, (-1764807936785953) @ (-47), #, (-3415348596671437) @ (-48)));
  (223%N, ((-2327954432243123) @ (-48), (-2571140265686335) @ (-48), (-633015966837641) @ (-46), (-5061481077556991) @ (-49)));
  (224%N, (#, #, #, (-70881326618687) @ (-42)));
  (235%N, (#, (-4240545284906009) @ (-48), (-7773281289935475) @ (-49), (-3879055303555717) @ (-48)));
  (241%N, (#, #, #, (-302852298247679) @ (-44)));
  (242%N, ((-7924300488693565) @ (-49), (-7385640542039271) @ (-49), #, (-70881326618687) @ (-42)));
  (244%N, (#, #, #, (-976926146266539) @ (-46)));
  (246%N, (#, #, #, (-8395033373076123) @ (-49)));
  (248%N, ((-5924056077340125) @ (-49), (-4794770930919395) @ (-49), (-5853085144121013) @ (-49), (-302852298247679) @ (-44)));
  (249%N, (#, #, #, (-8395033373076123) @ (-49)));
  (250%N, (#, #, #, (-2061833855653683) @ (-47)));
  (251%N, ((-609902861438431) @ (-45), (-3760701355345663) @ (-48), (-3667736269636657) @ (-48), (-7628871685880939) @ (-49)));
  (252%N, ((-6831952121402971) @ (-49), (-778145317480215) @ (-46), (-7194840999001983) @ (-49), (-6503310205406467) @ (-49)));
  (254%N, (#, #, (-3301329885452235) @ (-48), (-4227173035229071) @ (-48)))].

(** prob_emit.py, characters 0x8f00 to 0x8fff *)
Definition emit_8f : list (N * num4) := [
  (2%N, (#, #, #, (-271331332318175) @ (-44)));
  (3%N, ((-2255371621731711) @ (-48), (-6246014922008839) @ (-49), (-4284353008968433) @ (-49), (-1939909477850209) @ (-48)));
  (5%N, (#, (-491414177067389) @ (-45), (-7681791266144621) @ (-49), (-1664373966160355) @ (-47)));
  (7%N, (#, #, #, (-302852298247679) @ (-44)));
  (8%N, (#, #, #, (-302852298247679) @ (-44)));
  (9%N, ((-657471219429185) @ (-46), (-640940432772667) @ (-46), (-2270182029867673) @ (-48), (-2561068465424145) @ (-48)));
  (10%N, (#, #, (-2078626915425975) @ (-47), (-302852298247679) @ (-44)));
  (18%N, (#, (-3469067403004029) @ (-48), (-3363622269110247) @ (-48), (-3582197954329907) @ (-48)));
  (20%N, ((-5197095132248997) @ (-49), (-2754888084122927) @ (-48), (-665243418032211) @ (-46), (-1445796687452191) @ (-47)));
  (21%N, ((-4218440164258623) @ (-49), (-8436011188148987) @ (-50), (-4506678967489573) @ (-49), (-582981532285775) @ (-46)));
  (27%N, ((-4260759154773655) @ (-48), (-101243867878125) @ (-43), (-2480050436591779) @ (-48), (-302852298247679) @ (-44)));
  (28%N, ((-6819646714444379) @ (-49), #, #, (-8205616343142647) @ (-49)));
  (29%N, ((-5534779656738155) @ (-49), (-4894673336739031) @ (-49), (-2329195419183713) @ (-48), (-6181612316273243) @ (-49)));
  (30%N, (#, #, (-4204275375441935) @ (-48), (-8205616343142647) @ (-49)));
  (31%N, ((-6310555553390721) @ (-49), #, (-4081744231472905) @ (-48), (-6777360293071555) @ (-49)));
  (35%N, (#, #, #, (-7706109050846307) @ (-49)));
  (37%N, ((-571248877892569) @ (-45), #, (-8131311136536975) @ (-49), (-7489000375236853) @ (-49)));
  (38%N, (#, (-7310469050781013) @ (-49), (-238379262651975) @ (-44), (-2971573267887105) @ (-48)));
  (40%N, (#, #, #, (-7926147221115621) @ (-49)));
  (41%N, ((-360974723766401) @ (-45), (-283193154693015) @ (-45), (-2460600838211761) @ (-48), (-5639056434478137) @ (-49)));
  (42%N, ((-2501426792024843) @ (-48), (-306924600784415) @ (-45), (-594958605097021) @ (-46), (-4941626986545089) @ (-49)));
  (47%N, ((-6949081990735609) @ (-49), (-4686848321382795) @ (-49), (-508718142871929) @ (-46), (-3026895167507057) @ (-48)));
  (51%N, (#, #, (-4081744231472905) @ (-48), (-6421579999726895) @ (-49)));
  (56%N, ((-4713934091125437) @ (-49), (-4589562321001875) @ (-49), (-4702633229789049) @ (-49), (-649864954291685) @ (-46)));
  (59%N, ((-5218636110745697) @ (-49), (-1324262560839915) @ (-47), (-4426206392587813) @ (-48), (-6951095251765127) @ (-49)));
  (62%N, ((-6344838182227367) @ (-49), #, #, (-3612205927022559) @ (-48)));
  (63%N, ((-5470859306779715) @ (-49), (-8252834006088559) @ (-49), (-1839692586196131) @ (-47), (-5781557371092637) @ (-49)));
  (66%N, ((-2017999609788739) @ (-47), (-6135466576150635) @ (-49), (-8359567700260433) @ (-49), (-4650533185457697) @ (-48)));
  (68%N, ((-5545120803889041) @ (-49), (-7242566993892847) @ (-50), (-5055977610823673) @ (-49), (-4661622456241993) @ (-49)));
  (69%N, ((-6857400519925933) @ (-49), (-3260663311836043) @ (-48), (-394179507271553) @ (-45), (-1783406489466885) @ (-47)));
  (70%N, ((-7654324845498021) @ (-49), (-6780742520844477) @ (-49), (-7194840999001983) @ (-49), (-7628871685880939) @ (-49)));
  (73%N, ((-3807467777072273) @ (-49), (-4725069933939251) @ (-49), (-4660029704018115) @ (-49), (-70881326618687) @ (-42)));
  (77%N, (#, (-4240545284906009) @ (-48), (-6344838182227367) @ (-49), (-302852298247679) @ (-44)));
  (78%N, ((-5739620937914623) @ (-49), (-3139408700561571) @ (-48), (-6937708877592227) @ (-49), (-331016569399621) @ (-45)));
  (80%N, (#, #, #, (-302852298247679) @ (-44)));
  (81%N, (#, #, #, (-4650533185457697) @ (-48)));
  (84%N, (#, (-8871297742822353) @ (-49), (-571248877892569) @ (-45), (-976926146266539) @ (-46)));
  (88%N, (#, #, #, (-4170689255897351) @ (-48)));
  (89%N, (#, #, #, (-302852298247679) @ (-44)));
  (90%N, (#, #, #, (-302852298247679) @ (-44)));
  (91%N, (#, #, #, (-6258362910820543) @ (-49)));
  (95%N, ((-5137935848126797) @ (-49), (-2656004967751041) @ (-48), (-6485381270938547) @ (-49), (-5442704815997953) @ (-49)));
  (96%N, (#, #, #, (-8205616343142647) @ (-49)));
  (97%N, ((-7591005369967043) @ (-49), (-3760701355345663) @ (-48), (-7681791266144621) @ (-49), (-3390274909876681) @ (-48)));
  (98%N, (#, #, (-609902861438431) @ (-45), (-4650533185457697) @ (-48)));
  (100%N, (#, #, (-238379262651975) @ (-44), (-4650533185457697) @ (-48)));
  (102%N, ((-8625985665031827) @ (-50), (-4363363393557451) @ (-49), (-7759788880519869) @ (-50), (-4507157919410169) @ (-49)));
  (103%N, ((-3363622269110247) @ (-48), (-7427359621511357) @ (-49), (-1697502731782709) @ (-47), (-6411527054843345) @ (-49)));
  (104%N, ((-5256540406537913) @ (-49), (-3292735769582677) @ (-48), (-2862315782494339) @ (-48), (-1544030019510545) @ (-47)));
  (105%N, ((-5806429750761971) @ (-49), (-6046820292385703) @ (-49), (-1307566468362003) @ (-47), (-3030435779935781) @ (-48)));
  (107%N, (#, #, #, (-7358896042685395) @ (-49)));
  (108%N, ((-3807467777072273) @ (-49), (-4725069933939251) @ (-49), (-4660029704018115) @ (-49), (-8843386346031723) @ (-50)));
  (109%N, (#, (-1764807936785953) @ (-47), #, (-3415348596671437) @ (-48)));
  (110%N, ((-2501426792024843) @ (-48), (-306924600784415) @ (-45), (-594958605097021) @ (-46), (-4941626986545089) @ (-49)));
  (111%N, ((-2327954432243123) @ (-48), (-2571140265686335) @ (-48), (-633015966837641) @ (-46), (-5061481077556991) @ (-49)));
  (112%N, ((-5137935848126797) @ (-49), (-2656004967751041) @ (-48), (-6485381270938547) @ (-49), (-5442704815997953) @ (-49)));
  (113%N, ((-7924300488693565) @ (-49), (-7385640542039271) @ (-49), #, (-70881326618687) @ (-42)));
  (114%N, ((-609902861438431) @ (-45), (-3760701355345663) @ (-48), (-3667736269636657) @ (-48), (-7628871685880939) @ (-49)));
  (115%N, (#, #, (-238379262651975) @ (-44), (-4650533185457697) @ (-48)));
  (116%N, ((-5924056077340125) @ (-49), (-4794770930919395) @ (-49), (-5853085144121013) @ (-49), (-5622461276921469) @ (-49)));
  (117%N, (#, #, #, (-8395033373076123) @ (-49)));
  (118%N, ((-6831952121402971) @ (-49), (-778145317480215) @ (-46), (-7194840999001983) @ (-49), (-6503310205406467) @ (-49)));
  (120%N, (#, (-4240545284906009) @ (-48), (-7773281289935475) @ (-49), (-3879055303555717) @ (-48)));
  (121%N, (#, #, (-609902861438431) @ (-45), (-4650533185457697) @ (-48)));
  (122%N, (#, #, #, (-2061833855653683) @ (-47)));
  (123%N, ((-4218440164258623) @ (-49), (-8436011188148987) @ (-50), (-4506678967489573) @ (-49), (-582981532285775) @ (-46)));
  (124%N, (#, #, (-3301329885452235) @ (-48), (-4227173035229071) @ (-48)));
  (125%N, ((-657471219429185) @ (-46), (-640940432772667) @ (-46), (-2270182029867673) @ (-48), (-2561068465424145) @ (-48)));
  (126%N, (#, #, (-2078626915425975) @ (-47), (-302852298247679) @ (-44)));
  (127%N, ((-5739620937914623) @ (-49), (-3139408700561571) @ (-48), (-6937708877592227) @ (-49), (-331016569399621) @ (-45)));
  (128%N, (#, #, #, (-302852298247679) @ (-44)));
  (129%N, (#, #, #, (-302852298247679) @ (-44)));
  (130%N, (#, (-491414177067389) @ (-45), (-7681791266144621) @ (-49), (-1664373966160355) @ (-47)));
  (131%N, ((-2255371621731711) @ (-48), (-6246014922008839) @ (-49), (-4284353008968433) @ (-49), (-1939909477850209) @ (-48)));
  (132%N, (#, (-3469067403004029) @ (-48), (-3363622269110247) @ (-48), (-3582197954329907) @ (-48)));
  (133%N, ((-5197095132248997) @ (-49), (-2754888084122927) @ (-48), (-665243418032211) @ (-46), (-1445796687452191) @ (-47)));
  (134%N, ((-4260759154773655) @ (-48), (-101243867878125) @ (-43), (-2480050436591779) @ (-48), (-5276242002387391) @ (-49)));
  (135%N, (#, (-7310469050781013) @ (-49), (-238379262651975) @ (-44), (-2971573267887105) @ (-48)));
  (136%N, ((-360974723766401) @ (-45), (-283193154693015) @ (-45), (-2460600838211761) @ (-48), (-5639056434478137) @ (-49)));
  (137%N, ((-5534779656738155) @ (-49), (-4894673336739031) @ (-49), (-2329195419183713) @ (-48), (-6181612316273243) @ (-49)));
  (138%N, ((-571248877892569) @ (-45), #, (-8131311136536975) @ (-49), (-7489000375236853) @ (-49)));
  (139%N, (#, #, (-4204275375441935) @ (-48), (-8205616343142647) @ (-49)));
  (141%N, ((-6310555553390721) @ (-49), #, (-4081744231472905) @ (-48), (-6777360293071555) @ (-49)));
  (142%N, ((-6819646714444379) @ (-49), #, #, (-8205616343142647) @ (-49)));
  (143%N, (#, #, (-4081744231472905) @ (-48), (-6421579999726895) @ (-49)));
  (144%N, ((-5218636110745697) @ (-49), (-1324262560839915) @ (-47), (-4426206392587813) @ (-48), (-6951095251765127) @ (-49)));
  (145%N, ((-6949081990735609) @ (-49), (-4686848321382795) @ (-49), (-508718142871929) @ (-46), (-3026895167507057) @ (-48)));
  (147%N, ((-4713934091125437) @ (-49), (-4589562321001875) @ (-49), (-4702633229789049) @ (-49), (-649864954291685) @ (-46)));
  (148%N, ((-7591005369967043) @ (-49), (-3760701355345663) @ (-48), (-7681791266144621) @ (-49), (-3390274909876681) @ (-48)));
  (149%N, ((-6857400519925933) @ (-49), (-3260663311836043) @ (-48), (-394179507271553) @ (-45), (-1783406489466885) @ (-47)));
  (150%N, ((-5545120803889041) @ (-49), (-7242566993892847) @ (-50), (-5055977610823673) @ (-49), (-4661622456241993) @ (-49)));
  (151%N, ((-6344838182227367) @ (-49), #, #, (-3612205927022559) @ (-48)));
  (152%N, ((-7654324845498021) @ (-49), (-6780742520844477) @ (-49), (-7194840999001983) @ (-49), (-7628871685880939) @ (-49)));
  (153%N, (#, (-4240545284906009) @ (-48), (-6344838182227367) @ (-49), (-456223959081461) @ (-45)));
  (154%N, (#, (-8871297742822353) @ (-49), (-571248877892569) @ (-45), (-976926146266539) @ (-46)));
  (155%N, ((-2361115555995623) @ (-48), (-1195601668245033) @ (-47), (-2841565025359345) @ (-48), (-1531738718110281) @ (-47)));
  (156%N, ((-92611946696413) @ (-43), (-1796212599740603) @ (-47), (-6056222545442523) @ (-49), (-880642292618137) @ (-46)));
  (158%N, ((-2635464537059719) @ (-48), (-5557715752484491) @ (-49), (-655129281352097) @ (-46), (-5490096735367319) @ (-49)));
  (159%N, ((-383847879079333) @ (-45), (-5973515966863759) @ (-49), (-2642747862386571) @ (-48), (-5525094534605845) @ (-49)));
  (163%N, ((-695307934318799) @ (-46), (-1323771330015349) @ (-47), (-5699115870503173) @ (-49), (-5789201813822379) @ (-49)));
  (166%N, ((-4058335220380163) @ (-49), (-1226957027472307) @ (-47), (-4368678596345339) @ (-49), (-8977816158078337) @ (-50)));
  (167%N, (#, #, #, (-4170689255897351) @ (-48)));
  (168%N, ((-5619028658357643) @ (-49), (-1340409128792467) @ (-47), (-2904728185352589) @ (-48), (-43175560803791) @ (-42)));
  (169%N, ((-2677626074709987) @ (-48), (-747927687525045) @ (-46), (-5690861324465551) @ (-49), (-1426393238893163) @ (-47)));
  (171%N, ((-6359426629880835) @ (-49), (-6794643225952077) @ (-49), (-7298665317991735) @ (-49), (-6143214485097857) @ (-49)));
  (172%N, (#, #, #, (-4650533185457697) @ (-48)));
  (173%N, ((-2635464537059719) @ (-48), (-5557715752484491) @ (-49), (-655129281352097) @ (-46), (-5490096735367319) @ (-49)));
  (174%N, ((-6359426629880835) @ (-49), (-6794643225952077) @ (-49), (-7298665317991735) @ (-49), (-6143214485097857) @ (-49)));
  (175%N, ((-2677626074709987) @ (-48), (-747927687525045) @ (-46), (-5690861324465551) @ (-49), (-1426393238893163) @ (-47)));
  (176%N, ((-7250871180066637) @ (-49), (-5461631464692351) @ (-49), (-164948817368151) @ (-44), (-6196148077922609) @ (-49)));
  (177%N, ((-1673051308334307) @ (-47), (-5416064583611781) @ (-49), (-329106667936701) @ (-45), (-11736330098739) @ (-40)));
  (178%N, ((-7187221485165889) @ (-50), (-3954177547027665) @ (-49), (-2529651784234135) @ (-48), (-340448663375475) @ (-45)));
  (181%N, (#, #, #, (-302852298247679) @ (-44)));
  (182%N, (#, #, #, (-976926146266539) @ (-46)));
  (185%N, ((-8998359619949723) @ (-50), (-4600307046085933) @ (-49), (-3786828597324341) @ (-49), (-4231854196043743) @ (-49)));
  (187%N, ((-8197617090973557) @ (-49), #, #, #));
  (189%N, ((-4965722549153529) @ (-49), (-5767513286977053) @ (-49), (-3204999881453659) @ (-48), (-2532026332927357) @ (-48)));
  (190%N, ((-2070132774482303) @ (-48), (-1948717255209367) @ (-48), (-7906744920458555) @ (-50), (-7843169993411005) @ (-50)));
  (191%N, (#, #, #, (-302852298247679) @ (-44)));
  (193%N, ((-2603274016277073) @ (-48), (-5932498674251835) @ (-49), (-2612702921832511) @ (-48), (-2601490042183825) @ (-48)));
  (194%N, ((-6367546241121769) @ (-49), (-8252834006088559) @ (-49), (-609902861438431) @ (-45), (-3605255574468759) @ (-48)));
  (196%N, ((-2939975338442437) @ (-48), #, (-4684119305002281) @ (-48), (-3285909744641789) @ (-48)));
  (197%N, ((-17774704080213) @ (-41), (-804163951328505) @ (-46), (-5568035659321063) @ (-49), (-6752474475355211) @ (-49)));
  (198%N, (#, #, #, (-70881326618687) @ (-42)));
  (199%N, ((-6972352011750321) @ (-50), (-4230594183107673) @ (-49), (-6481431946575075) @ (-50), (-3222498008415775) @ (-49)));
  (200%N, ((-1367645549071893) @ (-47), (-5853158567858187) @ (-49), (-1529363771602843) @ (-47), (-2922916605852411) @ (-48)));
  (201%N, (#, #, #, (-302852298247679) @ (-44)));
  (203%N, (#, #, #, (-70881326618687) @ (-42)));
  (205%N, (#, #, #, (-8395033373076123) @ (-49)));
  (206%N, ((-74975469037329) @ (-43), (-2595326116785159) @ (-48), (-2433166616763789) @ (-48), (-4954707955413773) @ (-49)));
  (208%N, ((-3694292869873983) @ (-49), (-7333724011530259) @ (-50), (-4307736689870133) @ (-49), (-4856750524392631) @ (-49)));
  (209%N, ((-8499217021283921) @ (-50), (-4961581569989261) @ (-49), (-8083920011997115) @ (-50), (-8378893100098719) @ (-50)));
  (211%N, (#, #, #, (-7587152606408853) @ (-49)));
  (212%N, ((-325615676301185) @ (-45), (-6440768010410019) @ (-49), (-5669554713172675) @ (-49), (-5625330340047437) @ (-49)));
  (213%N, (#, #, #, (-7926147221115621) @ (-49)));
  (216%N, ((-7628327005942591) @ (-50), (-5400476048959849) @ (-49), (-5439591244492663) @ (-49), (-5911863520803865) @ (-50)));
  (217%N, ((-1316037409942211) @ (-48), (-3125675490238271) @ (-48), #, (-5336606004649137) @ (-50)));
  (219%N, ((-6193587049087685) @ (-50), (-4128523997510055) @ (-49), (-7361678698563455) @ (-50), (-7951284929626139) @ (-50)));
  (220%N, ((-8663241648133715) @ (-50), (-8412234781808867) @ (-50), (-4230278793012697) @ (-49), (-271025669396843) @ (-45)));
  (221%N, ((-607094358934413) @ (-46), (-1688482578221107) @ (-47), (-6311788741076455) @ (-49), (-3107870472150495) @ (-48)));
  (222%N, ((-8100954018963121) @ (-50), (-8050702510678377) @ (-50), (-2248202915999) @ (-38), (-4029769061167689) @ (-49)));
  (223%N, ((-1297663884545205) @ (-47), (-2858792606773735) @ (-48), (-696832821826965) @ (-46), (-5435619877762557) @ (-49)));
  (224%N, (#, #, #, (-4650533185457697) @ (-48)));
  (226%N, ((-483818997720415) @ (-45), (-5874709523005207) @ (-49), (-834728907770341) @ (-46), (-2130163006223681) @ (-47)));
  (228%N, ((-895045487878171) @ (-46), (-3736209830033945) @ (-48), (-230211112012267) @ (-44), (-1672986475717779) @ (-47)));
  (229%N, ((-3321712214036881) @ (-48), (-8090883396801683) @ (-49), (-8233949048441833) @ (-49), (-6324036692306445) @ (-49)));
  (230%N, ((-1543610385251581) @ (-47), (-2896526770532699) @ (-48), (-1624746993624259) @ (-47), (-399697567377715) @ (-45)));
  (232%N, (#, #, (-4684119305002281) @ (-48), (-7055467987703679) @ (-49)));
  (233%N, (#, (-8090883396801683) @ (-49), (-1607359885358511) @ (-47), (-7587152606408853) @ (-49)));
  (234%N, ((-347511561295947) @ (-45), (-4595757930798563) @ (-49), (-1330966350969035) @ (-47), (-3164158850588071) @ (-48)));
  (235%N, ((-5012225143335475) @ (-49), (-5568769823424139) @ (-49), (-4804846434051415) @ (-49), (-5844012347734297) @ (-49)));
  (237%N, ((-3414425230460409) @ (-48), (-6284475237223739) @ (-49), (-3060041825640419) @ (-48), (-6236040384715157) @ (-49)));
  (238%N, ((-609902861438431) @ (-45), #, #, (-271331332318175) @ (-44)));
  (239%N, (#, #, #, (-442294618973983) @ (-45)));
  (240%N, ((-6368910968949949) @ (-49), (-701050912750219) @ (-46), (-528035368216711) @ (-46), (-344595124991979) @ (-45)));
  (243%N, (#, #, #, (-12509616133999) @ (-40)));
  (244%N, (#, #, #, (-4170689255897351) @ (-48)));
  (245%N, (#, #, (-609902861438431) @ (-45), (-302852298247679) @ (-44)));
  (247%N, ((-4977021873318173) @ (-49), (-2522827746611741) @ (-48), (-5327506333139163) @ (-49), (-1383789193480963) @ (-47)));
  (248%N, ((-3325069808243375) @ (-48), #, #, (-3156388658957765) @ (-48)));
  (249%N, ((-6003138193410255) @ (-49), (-5863830924517683) @ (-49), (-4509385221921017) @ (-49), (-6109207169419125) @ (-49)));
  (250%N, (#, #, #, (-8910859197905059) @ (-49)));
  (251%N, (#, #, #, (-4650533185457697) @ (-48)));
  (253%N, ((-4472397432648637) @ (-49), (-1445325126387491) @ (-47), (-6310555553390721) @ (-49), (-2412616094296543) @ (-48)));
  (254%N, (#, #, #, (-7926147221115621) @ (-49)))].

(** prob_emit.py, characters 0x9000 to 0x90ff *)
Definition emit_90 : list (N * num4) := [
  (0%N, ((-1143090081027647) @ (-47), (-5398115668338661) @ (-49), (-1232749005126645) @ (-47), (-4685023704961375) @ (-49)));
  (1%N, ((-4691554768813743) @ (-49), (-658068119136087) @ (-46), (-1194800612322609) @ (-47), (-8671490077811643) @ (-50)));
  (2%N, ((-1005198192183477) @ (-47), (-5596555286274473) @ (-49), (-316718896243713) @ (-45), (-5952620350807815) @ (-49)));
  (3%N, ((-148909435211455) @ (-44), (-5641894635158453) @ (-49), (-2884483496436561) @ (-48), (-4921733538953173) @ (-49)));
  (4%N, ((-7924300488693565) @ (-49), #, #, (-2001206550016447) @ (-47)));
  (5%N, (#, (-3460130938885339) @ (-48), (-7133162962201383) @ (-49), (-2001206550016447) @ (-47)));
  (6%N, ((-5638474285036567) @ (-49), (-319438605767389) @ (-45), (-763705279999011) @ (-46), (-1410714684387273) @ (-47)));
  (9%N, ((-1858231906200265) @ (-48), (-7811537099615579) @ (-50), (-8800442106088311) @ (-50), (-4696586225369513) @ (-49)));
  (10%N, ((-6370279013252417) @ (-49), (-695500720191971) @ (-46), (-2603447391691677) @ (-48), (-6262170929535311) @ (-49)));
  (11%N, (#, (-8252834006088559) @ (-49), (-546860929579423) @ (-45), (-7386362463331995) @ (-49)));
  (13%N, ((-389663418086415) @ (-45), (-3887923857524803) @ (-48), (-2011133004627089) @ (-47), (-3066498663545229) @ (-48)));
  (14%N, (#, #, #, (-4297911758076491) @ (-48)));
  (15%N, ((-1186721354771983) @ (-47), (-2564856256034487) @ (-48), (-1352616662249855) @ (-47), (-5234507135656911) @ (-49)));
  (16%N, ((-8696855316788897) @ (-50), (-4982577230273537) @ (-49), (-338845618084339) @ (-45), (-1454635128559023) @ (-47)));
  (17%N, (#, #, (-2146956065995973) @ (-47), (-7386362463331995) @ (-49)));
  (18%N, ((-5133960628243947) @ (-49), (-6404436052941743) @ (-49), (-5433852131313391) @ (-49), (-5338089904858681) @ (-49)));
  (20%N, ((-5063455234378145) @ (-49), (-5219056326804251) @ (-49), (-2424034883199899) @ (-48), (-2944712991108693) @ (-48)));
  (22%N, (#, (-3982632372491541) @ (-48), (-7756962757402879) @ (-49), (-7926147221115621) @ (-49)));
  (23%N, ((-6186170089257855) @ (-49), (-3638170211376633) @ (-48), (-3538790094118157) @ (-48), (-6285576377091545) @ (-49)));
  (25%N, ((-1316037409942211) @ (-48), (-3125675490238271) @ (-48), #, (-4297911758076491) @ (-48)));
  (26%N, ((-6777898290317287) @ (-50), (-7490424154057849) @ (-50), (-1881872156435117) @ (-48), (-2263827026461549) @ (-48)));
  (27%N, ((-3279437408862637) @ (-48), #, (-3301329885452235) @ (-48), (-45646888298489) @ (-42)));
  (29%N, ((-5619028658357643) @ (-49), (-8871297742822353) @ (-49), (-6008875312653497) @ (-49), (-3100920119596695) @ (-48)));
  (30%N, ((-211052467801955) @ (-44), (-428372245208381) @ (-45), (-6647892308299007) @ (-49), (-6326887077907041) @ (-49)));
  (31%N, ((-2297793458353887) @ (-48), (-2047484742840613) @ (-48), (-7927935845341751) @ (-50), (-5395432521652925) @ (-49)));
  (32%N, ((-2095507560391057) @ (-48), (-8465637983020521) @ (-50), (-3928449223525687) @ (-49), (-5172941406529115) @ (-49)));
  (33%N, ((-1998329865051197) @ (-47), (-8871297742822353) @ (-49), #, (-7795654513279065) @ (-49)));
  (34%N, ((-6562717494443711) @ (-49), (-2776521970913253) @ (-48), (-341549635335151) @ (-45), (-2905530626539053) @ (-48)));
  (35%N, ((-8100954018963121) @ (-50), (-8050702510678377) @ (-50), (-2248202915999) @ (-38), (-4650533185457697) @ (-48)));
  (38%N, ((-4684119305002281) @ (-48), #, (-3551083531600405) @ (-48), (-7500373488380235) @ (-49)));
  (39%N, (#, #, #, (-4650533185457697) @ (-48)));
  (45%N, (#, #, #, (-7835882333724349) @ (-49)));
  (46%N, ((-5673513589919833) @ (-49), #, #, (-6148393454038315) @ (-49)));
  (47%N, ((-7426068281774563) @ (-49), #, #, (-1877995278787649) @ (-47)));
  (49%N, ((-7333486462661101) @ (-50), (-4543598152464615) @ (-49), (-140310377020261) @ (-44), (-288090399155835) @ (-45)));
  (50%N, ((-6193587049087685) @ (-50), (-4128523997510055) @ (-49), (-7361678698563455) @ (-50), (-7951284929626139) @ (-50)));
  (52%N, (#, #, #, (-302852298247679) @ (-44)));
  (53%N, (#, #, (-5743656438732709) @ (-49), (-3767970024052643) @ (-48)));
  (54%N, ((-1845768529231285) @ (-47), #, #, (-3888284818171165) @ (-48)));
  (56%N, ((-7068038435173063) @ (-49), (-2465486595381331) @ (-48), (-5800922859816701) @ (-49), (-1492256337836659) @ (-47)));
  (59%N, ((-5366652902635377) @ (-49), (-2795775626869985) @ (-48), (-6106204366996795) @ (-49), (-94912403534065) @ (-43)));
  (60%N, ((-5476990505491527) @ (-49), (-2845603979285655) @ (-48), (-778524142174335) @ (-46), (-317424954061633) @ (-45)));
  (62%N, ((-1630008820983823) @ (-47), (-6295964410557909) @ (-49), (-4331497877621075) @ (-48), (-5950419892162145) @ (-49)));
  (63%N, (#, #, #, (-1930728693765227) @ (-47)));
  (65%N, ((-7237929231852865) @ (-49), #, (-7092203087097125) @ (-49), (-6525233150776923) @ (-49)));
  (66%N, ((-1613581339787597) @ (-47), (-5926445390622239) @ (-49), (-3011000841729041) @ (-48), (-4993467234024573) @ (-49)));
  (68%N, (#, (-8090883396801683) @ (-49), #, (-3767970024052643) @ (-48)));
  (69%N, (#, #, #, (-302852298247679) @ (-44)));
  (70%N, ((-609902861438431) @ (-45), #, #, #));
  (71%N, ((-4712779321585297) @ (-49), (-2689790331163689) @ (-48), (-1195941017831437) @ (-47), (-2551484006357549) @ (-48)));
  (74%N, ((-4084641766533811) @ (-49), (-7736610193720781) @ (-50), (-8062661251797247) @ (-50), (-8166776809352665) @ (-49)));
  (75%N, ((-3694292869873983) @ (-49), (-7333724011530259) @ (-50), (-4307736689870133) @ (-49), (-4856750524392631) @ (-49)));
  (77%N, ((-5335077339996745) @ (-49), (-5435862666233817) @ (-49), (-1154024236444599) @ (-47), (-671552375675437) @ (-46)));
  (78%N, ((-6972352011750321) @ (-50), (-4230594183107673) @ (-49), (-6481431946575075) @ (-50), (-271331332318175) @ (-44)));
  (79%N, ((-2976009353880921) @ (-48), (-7310469050781013) @ (-49), (-817970144945989) @ (-46), (-880642292618137) @ (-46)));
  (80%N, ((-7022614616343179) @ (-49), (-1399558307686501) @ (-47), (-7924300488693565) @ (-49), (-8033701757752085) @ (-49)));
  (81%N, ((-1986594946834089) @ (-47), #, #, (-7358896042685395) @ (-49)));
  (82%N, ((-1845768529231285) @ (-47), (-8871297742822353) @ (-49), (-4684119305002281) @ (-48), (-7600718321947853) @ (-49)));
  (83%N, ((-8159545603656103) @ (-50), (-7603410789678857) @ (-50), (-745767379910217) @ (-47), (-3018468430525617) @ (-49)));
  (84%N, ((-2070132774482303) @ (-48), (-1948717255209367) @ (-48), (-7906744920458555) @ (-50), (-7843169993411005) @ (-50)));
  (85%N, ((-607094358934413) @ (-46), (-1688482578221107) @ (-47), (-6311788741076455) @ (-49), (-3107870472150495) @ (-48)));
  (87%N, ((-8434366356388907) @ (-50), (-5515550064537239) @ (-49), (-24820616783201) @ (-41), (-5719971437466799) @ (-49)));
  (88%N, (#, #, (-609902861438431) @ (-45), (-2130163006223681) @ (-47)));
  (89%N, ((-1349660142392671) @ (-47), (-2737486067636979) @ (-48), (-5802919138339179) @ (-49), (-6108237401817685) @ (-49)));
  (91%N, ((-2017999609788739) @ (-47), #, (-609902861438431) @ (-45), (-3535663390789959) @ (-48)));
  (92%N, ((-6370279013252417) @ (-49), (-695500720191971) @ (-46), (-2603447391691677) @ (-48), (-6262170929535311) @ (-49)));
  (93%N, (#, #, #, (-302852298247679) @ (-44)));
  (94%N, ((-5133960628243947) @ (-49), (-6404436052941743) @ (-49), (-5433852131313391) @ (-49), (-5338089904858681) @ (-49)));
  (96%N, ((-8663241648133715) @ (-50), (-8412234781808867) @ (-50), (-4230278793012697) @ (-49), (-271025669396843) @ (-45)));
  (98%N, (#, #, (-7374855723470995) @ (-49), (-271331332318175) @ (-44)));
  (99%N, ((-2972770250510405) @ (-48), (-177361545445349) @ (-44), (-5326647522975011) @ (-49), (-342233691147601) @ (-45)));
  (101%N, ((-1349660142392671) @ (-47), (-2737486067636979) @ (-48), (-5802919138339179) @ (-49), (-6108237401817685) @ (-49)));
  (104%N, ((-454428729292475) @ (-45), (-8871297742822353) @ (-49), #, (-4392620273043229) @ (-48)));
  (105%N, ((-1005198192183477) @ (-47), (-5596555286274473) @ (-49), (-316718896243713) @ (-45), (-5952620350807815) @ (-49)));
  (108%N, (#, #, #, (-7643494584741751) @ (-49)));
  (109%N, ((-1152619493210803) @ (-47), (-8871297742822353) @ (-49), (-361424083285425) @ (-45), (-2562332009263957) @ (-48)));
  (110%N, ((-1413786069223211) @ (-47), (-5817322383168251) @ (-49), (-2017999609788739) @ (-47), (-733282668088029) @ (-46)));
  (111%N, (#, #, #, (-1848956007451337) @ (-47)));
  (114%N, ((-1297663884545205) @ (-47), (-2858792606773735) @ (-48), (-696832821826965) @ (-46), (-5435619877762557) @ (-49)));
  (116%N, ((-7054022359647307) @ (-49), #, #, (-8205616343142647) @ (-49)));
  (117%N, ((-5006607808688431) @ (-49), (-6210014990473763) @ (-49), (-7237929231852865) @ (-49), (-5914270978087913) @ (-49)));
  (119%N, ((-2603274016277073) @ (-48), (-5932498674251835) @ (-49), (-2612702921832511) @ (-48), (-2601490042183825) @ (-48)));
  (120%N, ((-1858231906200265) @ (-48), (-7811537099615579) @ (-50), (-8800442106088311) @ (-50), (-4696586225369513) @ (-49)));
  (121%N, (#, #, #, (-8130444851884389) @ (-49)));
  (122%N, ((-8434366356388907) @ (-50), (-5515550064537239) @ (-49), (-24820616783201) @ (-41), (-5719971437466799) @ (-49)));
  (124%N, ((-4965722549153529) @ (-49), (-5767513286977053) @ (-49), (-3204999881453659) @ (-48), (-2532026332927357) @ (-48)));
  (125%N, ((-8272788582231815) @ (-49), #, (-7615485311708039) @ (-49), (-3535663390789959) @ (-48)));
  (127%N, ((-4733786806249947) @ (-49), (-633435371128061) @ (-46), (-1297579661030809) @ (-47), (-5305268807827473) @ (-49)));
  (128%N, ((-644265440693903) @ (-46), (-491414177067389) @ (-45), (-3084812928816481) @ (-48), (-22145819744301) @ (-41)));
  (129%N, ((-1367645549071893) @ (-47), (-5853158567858187) @ (-49), (-1529363771602843) @ (-47), (-4297911758076491) @ (-48)));
  (130%N, ((-1746162137615165) @ (-47), #, #, (-4650533185457697) @ (-48)));
  (131%N, ((-609902861438431) @ (-45), #, (-6656935875530257) @ (-49), (-8130444851884389) @ (-49)));
  (132%N, ((-7628327005942591) @ (-50), (-5400476048959849) @ (-49), (-5439591244492663) @ (-49), (-302852298247679) @ (-44)));
  (133%N, (#, #, #, (-2130163006223681) @ (-47)));
  (134%N, (#, #, #, (-4650533185457697) @ (-48)));
  (135%N, (#, (-8090883396801683) @ (-49), (-1607359885358511) @ (-47), (-7587152606408853) @ (-49)));
  (136%N, ((-4260759154773655) @ (-48), (-4240545284906009) @ (-48), (-7298665317991735) @ (-49), (-1969801887061797) @ (-47)));
  (138%N, ((-8998359619949723) @ (-50), (-4600307046085933) @ (-49), (-3786828597324341) @ (-49), (-302852298247679) @ (-44)));
  (139%N, ((-7374855723470995) @ (-49), (-7575057571972747) @ (-49), #, (-271331332318175) @ (-44)));
  (143%N, ((-5366652902635377) @ (-49), (-2795775626869985) @ (-48), (-6106204366996795) @ (-49), (-94912403534065) @ (-43)));
  (144%N, ((-4684119305002281) @ (-48), #, (-3551083531600405) @ (-48), (-7500373488380235) @ (-49)));
  (145%N, ((-4260759154773655) @ (-48), (-1578412539191041) @ (-47), (-3133934716149573) @ (-48), (-6033914365811853) @ (-49)));
  (147%N, ((-2242285412998023) @ (-48), (-1673001328511805) @ (-47), (-3383688362297743) @ (-48), (-1478911425983015) @ (-47)));
  (149%N, ((-7696043924970107) @ (-49), (-7427359621511357) @ (-49), (-7212905114184119) @ (-49), (-7523833130877875) @ (-49)));
  (150%N, (#, #, #, (-7115940211661285) @ (-49)));
  (151%N, ((-230211112012267) @ (-44), (-4240545284906009) @ (-48), (-4684119305002281) @ (-48), (-2001206550016447) @ (-47)));
  (152%N, (#, #, #, (-2130163006223681) @ (-47)));
  (153%N, ((-7773281289935475) @ (-49), #, (-609902861438431) @ (-45), (-1969801887061797) @ (-47)));
  (154%N, (#, #, #, (-1930728693765227) @ (-47)));
  (155%N, ((-7426068281774563) @ (-49), #, (-4684119305002281) @ (-48), (-7231493078902567) @ (-49)));
  (157%N, ((-3396452638870059) @ (-48), #, #, (-239810366388671) @ (-44)));
  (160%N, (#, (-8871297742822353) @ (-49), #, (-8166776809352665) @ (-49)));
  (161%N, (#, (-4240545284906009) @ (-48), (-4331497877621075) @ (-48), (-8395033373076123) @ (-49)));
  (162%N, ((-2702138120925495) @ (-48), (-3469067403004029) @ (-48), (-4204275375441935) @ (-48), (-6082665892700411) @ (-49)));
  (163%N, ((-6546826103200213) @ (-50), (-9565566737597) @ (-40), (-5488026319156939) @ (-49), (-3148540720162301) @ (-49)));
  (164%N, (#, #, (-609902861438431) @ (-45), #));
  (166%N, ((-3262711202969551) @ (-48), (-531080477186213) @ (-46), (-8545569132485761) @ (-50), (-4851425352972949) @ (-49)));
  (168%N, (#, #, #, (-8130444851884389) @ (-49)));
  (169%N, (#, #, #, (-3733460538297031) @ (-48)));
  (170%N, ((-5879377699783581) @ (-49), (-6376969632295143) @ (-49), (-5813008117208653) @ (-49), (-2709144042223583) @ (-48)));
  (172%N, ((-3071239602040059) @ (-48), #, #, (-6480329465492725) @ (-49)));
  (174%N, ((-5020010548302773) @ (-49), (-5306979071337749) @ (-49), (-408522113529243) @ (-45), (-3157785559972261) @ (-48)));
  (175%N, ((-3215481543784717) @ (-48), #, #, (-7158105899608537) @ (-49)));
  (176%N, ((-3243532115846993) @ (-48), (-8871297742822353) @ (-49), (-609902861438431) @ (-45), (-8033701757752085) @ (-49)));
  (177%N, ((-1330966350969035) @ (-47), (-6869814717210335) @ (-49), (-1910269588269243) @ (-47), (-6515162221133747) @ (-49)));
  (178%N, (#, #, #, (-4227173035229071) @ (-48)));
  (179%N, ((-3801556143597227) @ (-48), (-4240545284906009) @ (-48), #, (-1809666128217651) @ (-47)));
  (180%N, ((-1986594946834089) @ (-47), #, (-609902861438431) @ (-45), (-2061833855653683) @ (-47)));
  (181%N, ((-5202919985925397) @ (-49), (-6680397687276859) @ (-49), (-1998329865051197) @ (-47), (-6764779882313803) @ (-49)));
  (182%N, (#, #, #, (-3951094144080465) @ (-48)));
  (183%N, (#, #, #, (-302852298247679) @ (-44)));
  (184%N, ((-7417202744952887) @ (-49), #, (-6405607413289761) @ (-49), (-3209945996302409) @ (-48)));
  (185%N, ((-5253141168044187) @ (-49), (-491414177067389) @ (-45), (-1975763643203379) @ (-47), (-7055467987703679) @ (-49)));
  (186%N, (#, (-7131195537680991) @ (-49), (-3420680487369323) @ (-48), (-1604552257962345) @ (-47)));
  (187%N, ((-5260150899627743) @ (-49), (-2896526770532699) @ (-48), (-5534158984179779) @ (-49), (-2715182041379995) @ (-48)));
  (189%N, (#, #, #, (-1994339944854797) @ (-47)));
  (190%N, ((-609902861438431) @ (-45), #, #, (-7658507473194481) @ (-49)));
  (193%N, ((-5608312282345725) @ (-49), (-5355052230129965) @ (-49), (-5367575015787367) @ (-49), (-6764779882313803) @ (-49)));
  (195%N, (#, #, (-609902861438431) @ (-45), (-3279363519905739) @ (-48)));
  (196%N, ((-4204275375441935) @ (-48), #, #, (-2001206550016447) @ (-47)));
  (197%N, ((-4426206392587813) @ (-48), (-8090883396801683) @ (-49), (-6787131381448733) @ (-49), (-3374719848683653) @ (-48)));
  (199%N, ((-2078626915425975) @ (-47), #, (-2146956065995973) @ (-47), (-4227173035229071) @ (-48)));
  (201%N, ((-4260759154773655) @ (-48), #, #, #));
  (202%N, ((-5805424482720873) @ (-49), (-2826448632303685) @ (-48), (-1335082092173887) @ (-47), (-6181612316273243) @ (-49)));
  (203%N, (#, #, #, (-302852298247679) @ (-44)));
  (206%N, ((-5686372392026821) @ (-49), (-2410383688035067) @ (-48), (-154985680653765) @ (-44), (-2709144042223583) @ (-48)));
  (207%N, ((-3984680263625049) @ (-48), (-8871297742822353) @ (-49), #, (-1777541578842475) @ (-47)));
  (208%N, (#, #, #, (-8292395461171265) @ (-49)));
  (209%N, ((-8761560820317315) @ (-50), (-6114059055574939) @ (-49), (-6582334460222915) @ (-49), (-5555474362013055) @ (-49)));
  (211%N, ((-1765831882352707) @ (-47), #, #, (-886648957992025) @ (-46)));
  (213%N, (#, #, #, (-4297911758076491) @ (-48)));
  (215%N, ((-3478396877264481) @ (-48), #, (-4684119305002281) @ (-48), (-302852298247679) @ (-44)));
  (219%N, (#, #, #, (-2001206550016447) @ (-47)));
  (220%N, ((-7237929231852865) @ (-49), #, (-609902861438431) @ (-45), (-7835882333724349) @ (-49)));
  (221%N, ((-5372441046916641) @ (-49), (-7015906532620973) @ (-49), (-7773281289935475) @ (-49), (-3245851289318053) @ (-48)));
  (222%N, (#, #, #, (-4650533185457697) @ (-48)));
  (223%N, ((-3984680263625049) @ (-48), (-8871297742822353) @ (-49), #, (-302852298247679) @ (-44)));
  (224%N, (#, #, #, (-6603607365691809) @ (-49)));
  (225%N, ((-5714286098585761) @ (-49), (-712650916567559) @ (-46), (-1332846818759131) @ (-47), (-2253494403059965) @ (-48)));
  (226%N, ((-3302366626870007) @ (-48), (-8871297742822353) @ (-49), (-8233949048441833) @ (-49), (-2871142065808005) @ (-48)));
  (228%N, ((-4684119305002281) @ (-48), #, #, (-4297911758076491) @ (-48)));
  (230%N, ((-7031410888328911) @ (-49), (-4240545284906009) @ (-48), (-8197617090973557) @ (-49), (-8205616343142647) @ (-49)));
  (231%N, ((-5301679374746079) @ (-49), #, (-571248877892569) @ (-45), (-6118997850168687) @ (-49)));
  (232%N, ((-214417556172479) @ (-45), (-6330131566550235) @ (-50), (-3096887501738493) @ (-49), (-541760536987021) @ (-46)));
  (234%N, (#, #, #, (-3517497412055821) @ (-48)));
  (235%N, ((-7654324845498021) @ (-49), #, #, (-8064138897447807) @ (-49)));
  (237%N, ((-252539110469049) @ (-45), (-2923948657522579) @ (-48), (-3278481635527623) @ (-48), (-1281843035346423) @ (-47)));
  (239%N, ((-1986594946834089) @ (-47), (-8871297742822353) @ (-49), #, (-7689790518313711) @ (-49)));
  (240%N, (#, #, #, (-302852298247679) @ (-44)));
  (242%N, (#, #, #, (-302852298247679) @ (-44)));
  (244%N, ((-7502517753044599) @ (-49), (-8871297742822353) @ (-49), (-4684119305002281) @ (-48), (-7139646870377641) @ (-49)));
  (245%N, ((-5020010548302773) @ (-49), (-5306979071337749) @ (-49), (-408522113529243) @ (-45), (-3157785559972261) @ (-48)));
  (247%N, (#, #, #, (-8130444851884389) @ (-49)));
  (248%N, ((-8462205612165291) @ (-49), (-3383588402652739) @ (-48), (-412537118574835) @ (-45), (-8130444851884389) @ (-49)));
  (249%N, (#, #, #, (-302852298247679) @ (-44)));
  (253%N, ((-4803320134101293) @ (-49), (-4375103777730309) @ (-49), (-2106299046996561) @ (-48), (-5624188794669379) @ (-50)));
  (254%N, ((-7502517753044599) @ (-49), #, (-8978031436994227) @ (-49), (-7523833130877875) @ (-49)));
  (255%N, (#, #, #, (-7706109050846307) @ (-49)))].

(** prob_emit.py, characters 0x9100 to 0x91ff *)
Definition emit_91 : list (N * num4) := [
  (0%N, (#, #, #, (-3437151102035493) @ (-48)));
  (2%N, ((-8961858590344843) @ (-50), (-6007235622876845) @ (-49), (-5831636837459197) @ (-49), (-4608028290736955) @ (-49)));
  (3%N, (#, #, #, (-4392620273043229) @ (-48)));
  (4%N, ((-2017999609788739) @ (-47), #, (-8978031436994227) @ (-49), (-1742172217418765) @ (-47)));
  (5%N, (#, #, #, (-8910859197905059) @ (-49)));
  (6%N, ((-1765831882352707) @ (-47), #, #, (-886648957992025) @ (-46)));
  (9%N, ((-4608677299743533) @ (-49), (-5143777739578121) @ (-49), (-8794910634375043) @ (-50), (-8687486693253665) @ (-50)));
  (15%N, (#, #, #, (-7857128249604397) @ (-49)));
  (16%N, (#, #, #, (-8033701757752085) @ (-49)));
  (18%N, ((-5253141168044187) @ (-49), (-491414177067389) @ (-45), (-1975763643203379) @ (-47), (-7055467987703679) @ (-49)));
  (19%N, (#, #, #, (-302852298247679) @ (-44)));
  (20%N, ((-3071239602040059) @ (-48), #, #, (-6480329465492725) @ (-49)));
  (22%N, ((-5301679374746079) @ (-49), #, (-571248877892569) @ (-45), (-6118997850168687) @ (-49)));
  (23%N, (#, #, #, (-3879055303555717) @ (-48)));
  (24%N, (#, #, #, (-1994339944854797) @ (-47)));
  (25%N, ((-1457384068873585) @ (-47), (-784151982854103) @ (-46), (-394179507271553) @ (-45), (-6484095031060651) @ (-49)));
  (26%N, (#, #, #, (-271331332318175) @ (-44)));
  (27%N, (#, #, #, (-302852298247679) @ (-44)));
  (28%N, (#, #, #, (-7926147221115621) @ (-49)));
  (30%N, ((-7696043924970107) @ (-49), #, #, (-8064138897447807) @ (-49)));
  (32%N, (#, #, #, (-2130163006223681) @ (-47)));
  (33%N, (#, #, #, (-8910859197905059) @ (-49)));
  (34%N, ((-6813593430814783) @ (-49), #, (-8131311136536975) @ (-49), (-3870118839437027) @ (-48)));
  (35%N, ((-609902861438431) @ (-45), #, #, (-1745563646303515) @ (-47)));
  (36%N, (#, #, #, (-8292395461171265) @ (-49)));
  (39%N, ((-2242285412998023) @ (-48), (-1673001328511805) @ (-47), (-3383688362297743) @ (-48), (-1478911425983015) @ (-47)));
  (40%N, (#, #, #, (-302852298247679) @ (-44)));
  (41%N, (#, #, #, (-2130163006223681) @ (-47)));
  (43%N, (#, #, #, (-4227173035229071) @ (-48)));
  (45%N, ((-8761560820317315) @ (-50), (-6114059055574939) @ (-49), (-6582334460222915) @ (-49), (-5555474362013055) @ (-49)));
  (46%N, (#, #, #, (-4297911758076491) @ (-48)));
  (47%N, ((-454428729292475) @ (-45), #, #, (-7523833130877875) @ (-49)));
  (48%N, ((-5260150899627743) @ (-49), (-2896526770532699) @ (-48), (-5534158984179779) @ (-49), (-2715182041379995) @ (-48)));
  (49%N, ((-413850120634003) @ (-45), (-4240545284906009) @ (-48), #, (-3582197954329907) @ (-48)));
  (50%N, ((-8462205612165291) @ (-49), (-3383588402652739) @ (-48), (-412537118574835) @ (-45), (-8130444851884389) @ (-49)));
  (51%N, (#, #, #, (-302852298247679) @ (-44)));
  (52%N, (#, (-7131195537680991) @ (-49), (-3420680487369323) @ (-48), (-4650533185457697) @ (-48)));
  (54%N, (#, #, #, (-8292395461171265) @ (-49)));
  (55%N, (#, #, #, (-4392620273043229) @ (-48)));
  (57%N, (#, #, #, (-7857128249604397) @ (-49)));
  (58%N, ((-3396452638870059) @ (-48), #, #, (-239810366388671) @ (-44)));
  (60%N, (#, #, #, (-4650533185457697) @ (-48)));
  (65%N, (#, #, #, (-302852298247679) @ (-44)));
  (66%N, (#, #, #, (-2130163006223681) @ (-47)));
  (67%N, ((-609902861438431) @ (-45), #, (-609902861438431) @ (-45), (-7689790518313711) @ (-49)));
  (70%N, ((-3903704958981611) @ (-48), #, (-609902861438431) @ (-45), (-1777541578842475) @ (-47)));
  (71%N, (#, #, #, (-2130163006223681) @ (-47)));
  (72%N, ((-7031410888328911) @ (-49), (-4240545284906009) @ (-48), (-8197617090973557) @ (-49), (-8205616343142647) @ (-49)));
  (73%N, ((-7756962757402879) @ (-49), (-874429171128617) @ (-46), (-7244363015634439) @ (-49), (-1678560966329195) @ (-47)));
  (74%N, ((-4426206392587813) @ (-48), (-7157383978315813) @ (-49), (-4331497877621075) @ (-48), (-8033701757752085) @ (-49)));
  (75%N, ((-3163400814764593) @ (-48), (-6538920241582019) @ (-49), (-6850929759563609) @ (-49), (-3408440888610819) @ (-48)));
  (76%N, ((-3538790094118157) @ (-48), #, (-6278241372732173) @ (-49), (-6771034946149301) @ (-49)));
  (77%N, ((-2194923884806033) @ (-48), (-2716048550332945) @ (-48), (-4495393853401183) @ (-49), (-5239247360965697) @ (-49)));
  (78%N, (#, #, #, (-1930728693765227) @ (-47)));
  (80%N, (#, (-3887923857524803) @ (-48), (-3498510787487123) @ (-48), (-7795654513279065) @ (-49)));
  (82%N, ((-4579086074957121) @ (-49), (-2543396806469877) @ (-48), (-4629181537215931) @ (-49), (-2263097097685941) @ (-48)));
  (84%N, (#, #, #, (-302852298247679) @ (-44)));
  (85%N, (#, #, #, (-70881326618687) @ (-42)));
  (86%N, (#, #, #, (-70881326618687) @ (-42)));
  (87%N, ((-3480344808752985) @ (-48), #, #, (-271331332318175) @ (-44)));
  (90%N, ((-1761217125044983) @ (-47), (-1796212599740603) @ (-47), (-6018324662198423) @ (-49), (-6627464747288161) @ (-49)));
  (93%N, ((-196824062928067) @ (-44), #, #, (-3605255574468759) @ (-48)));
  (94%N, ((-4204275375441935) @ (-48), #, (-2078626915425975) @ (-47), (-2001206550016447) @ (-47)));
  (97%N, (#, #, #, (-8166776809352665) @ (-49)));
  (98%N, (#, #, (-4081744231472905) @ (-48), (-7060704769219635) @ (-49)));
  (99%N, ((-6562717494443711) @ (-49), (-7106171420012245) @ (-49), (-7313100723111123) @ (-49), (-6578481696664725) @ (-49)));
  (100%N, (#, #, #, (-8064138897447807) @ (-49)));
  (101%N, ((-212644807062239) @ (-44), (-7131195537680991) @ (-49), (-7502517753044599) @ (-49), (-5872600938204117) @ (-49)));
  (103%N, (#, #, #, (-1749038822580415) @ (-47)));
  (105%N, ((-1986594946834089) @ (-47), #, (-4260759154773655) @ (-48), (-8395033373076123) @ (-49)));
  (106%N, ((-7681791266144621) @ (-49), (-8252834006088559) @ (-49), (-1709551796309617) @ (-47), (-3612205927022559) @ (-48)));
  (107%N, (#, #, #, (-2061833855653683) @ (-47)));
  (108%N, ((-3245222661329465) @ (-48), (-1725734743489383) @ (-47), (-5388014000091975) @ (-49), (-196014168947761) @ (-44)));
  (110%N, ((-2017999609788739) @ (-47), (-1643962057175493) @ (-47), (-6645653935753893) @ (-49), (-3113796480014135) @ (-48)));
  (111%N, ((-8272788582231815) @ (-49), (-7575057571972747) @ (-49), (-6278241372732173) @ (-49), (-6271157778706001) @ (-49)));
  (112%N, ((-3333063549672965) @ (-48), (-5636472924358379) @ (-49), (-7040346789497085) @ (-49), (-6764779882313803) @ (-49)));
  (113%N, ((-1607359885358511) @ (-47), (-3278540746232549) @ (-48), (-2972448380862169) @ (-48), (-6006569257514267) @ (-49)));
  (114%N, (#, #, #, (-4392620273043229) @ (-48)));
  (116%N, (#, #, #, (-4650533185457697) @ (-48)));
  (117%N, ((-106184602910939) @ (-43), (-6794643225952077) @ (-49), (-3222431896338517) @ (-48), (-7350030505863719) @ (-49)));
  (118%N, ((-7924300488693565) @ (-49), (-3383588402652739) @ (-48), (-6262188758935471) @ (-49), (-2845535786656221) @ (-48)));
  (119%N, ((-6008154967125367) @ (-49), (-6680397687276859) @ (-49), (-5497245767028039) @ (-49), (-6300374002032601) @ (-49)));
  (120%N, ((-5301679374746079) @ (-49), (-1088979214256491) @ (-47), (-2411395290604463) @ (-48), (-5036535708832711) @ (-49)));
  (121%N, (#, #, #, (-4048158111928321) @ (-48)));
  (122%N, (#, #, #, (-8395033373076123) @ (-49)));
  (123%N, (#, #, #, (-8910859197905059) @ (-49)));
  (125%N, (#, #, #, (-7689790518313711) @ (-49)));
  (126%N, (#, #, #, (-70881326618687) @ (-42)));
  (127%N, ((-1442006597807091) @ (-47), (-8871297742822353) @ (-49), (-6235692105890311) @ (-49), (-3374719848683653) @ (-48)));
  (129%N, (#, #, #, (-302852298247679) @ (-44)));
  (131%N, ((-3341290961436923) @ (-48), #, #, (-6249576445556469) @ (-49)));
  (132%N, (#, #, #, (-8292395461171265) @ (-49)));
  (133%N, (#, #, #, (-4392620273043229) @ (-48)));
  (134%N, (#, #, #, (-302852298247679) @ (-44)));
  (135%N, ((-1575803155951081) @ (-47), (-3278540746232549) @ (-48), (-2773035198194369) @ (-48), (-2922309324113695) @ (-48)));
  (136%N, (#, #, #, (-4650533185457697) @ (-48)));
  (137%N, ((-5890365258760307) @ (-49), (-2641238908720209) @ (-48), (-170502724300851) @ (-44), (-2746019530153841) @ (-48)));
  (139%N, ((-6850929759563609) @ (-49), (-1764807936785953) @ (-47), (-6417397372030435) @ (-49), (-5959273809190159) @ (-49)));
  (140%N, (#, #, (-3256465860118603) @ (-48), (-1893476528496951) @ (-47)));
  (141%N, ((-483818997720415) @ (-45), #, #, (-70881326618687) @ (-42)));
  (142%N, (#, #, #, (-8910859197905059) @ (-49)));
  (144%N, (#, (-3638170211376633) @ (-48), (-8100873996841253) @ (-49), #));
  (145%N, (#, #, #, (-271331332318175) @ (-44)));
  (146%N, ((-1449981842230869) @ (-47), (-5624021706921073) @ (-49), (-4814696703565321) @ (-49), (-2612168982736399) @ (-48)));
  (149%N, (#, #, #, (-4392620273043229) @ (-48)));
  (154%N, (#, #, (-6185183323092107) @ (-49), (-1729369077842873) @ (-47)));
  (155%N, ((-2017999609788739) @ (-47), (-6703857329774499) @ (-49), (-196824062928067) @ (-44), (-6517162045451459) @ (-49)));
  (156%N, ((-2871154027483049) @ (-48), (-6487707683278451) @ (-49), (-6068909278492185) @ (-49), (-70881326618687) @ (-42)));
  (158%N, ((-196824062928067) @ (-44), #, #, (-3605255574468759) @ (-48)));
  (160%N, (#, #, #, (-8395033373076123) @ (-49)));
  (161%N, (#, #, #, (-7614619027055453) @ (-49)));
  (162%N, (#, #, #, (-2001206550016447) @ (-47)));
  (163%N, (#, #, #, (-3951094144080465) @ (-48)));
  (164%N, (#, #, #, (-7104451038327115) @ (-49)));
  (168%N, (#, #, #, (-302852298247679) @ (-44)));
  (170%N, ((-8359567700260433) @ (-49), #, (-8978031436994227) @ (-49), (-1828975469458993) @ (-47)));
  (171%N, ((-2012619653348895) @ (-48), (-8973382123925449) @ (-50), (-5127899197372743) @ (-49), (-4650533185457697) @ (-48)));
  (172%N, ((-1607359885358511) @ (-47), (-3278540746232549) @ (-48), (-2972448380862169) @ (-48), (-6006569257514267) @ (-49)));
  (173%N, (#, #, #, (-7795654513279065) @ (-49)));
  (174%N, (#, (-8871297742822353) @ (-49), (-483818997720415) @ (-45), (-7060704769219635) @ (-49)));
  (175%N, (#, #, #, (-3535663390789959) @ (-48)));
  (178%N, (#, #, #, (-302852298247679) @ (-44)));
  (180%N, ((-1625178042930149) @ (-47), #, #, (-1822899526423839) @ (-47)));
  (181%N, (#, #, #, (-7951171338784367) @ (-49)));
  (186%N, (#, (-6703857329774499) @ (-49), (-7417202744952887) @ (-49), (-3612205927022559) @ (-48)));
  (188%N, (#, #, #, (-976926146266539) @ (-46)));
  (189%N, (#, #, #, (-302852298247679) @ (-44)));
  (192%N, ((-1442006597807091) @ (-47), (-8871297742822353) @ (-49), (-6235692105890311) @ (-49), (-3374719848683653) @ (-48)));
  (193%N, (#, (-6669024574133477) @ (-49), (-6377169551585151) @ (-49), (-3374719848683653) @ (-48)));
  (195%N, (#, #, #, (-70881326618687) @ (-42)));
  (197%N, (#, #, #, (-7689790518313711) @ (-49)));
  (198%N, (#, #, #, (-302852298247679) @ (-44)));
  (199%N, ((-7823844137335407) @ (-50), (-157500517136809) @ (-44), (-1307566468362003) @ (-47), (-2706736442838391) @ (-48)));
  (200%N, (#, #, #, (-4650533185457697) @ (-48)));
  (201%N, ((-212644807062239) @ (-44), (-3736209830033945) @ (-48), (-7117451711230829) @ (-49), (-3221120516242921) @ (-48)));
  (202%N, ((-5284698627360789) @ (-49), (-1396647827542697) @ (-47), (-1156427970227745) @ (-47), (-2955083414511133) @ (-48)));
  (203%N, ((-5284698627360789) @ (-49), (-1396647827542697) @ (-47), (-1156427970227745) @ (-47), (-2955083414511133) @ (-48)));
  (204%N, ((-8850708554394507) @ (-50), (-3442790151181889) @ (-49), (-6202166781732899) @ (-50), (-6713626627544411) @ (-50)));
  (205%N, ((-805502726713733) @ (-47), (-8302916867893987) @ (-50), (-7533409000075703) @ (-50), (-4251734810993847) @ (-49)));
  (206%N, ((-4576703094373677) @ (-49), (-2217612487563855) @ (-48), (-4997687215915053) @ (-49), (-1396417395199209) @ (-47)));
  (207%N, ((-5498700043097509) @ (-49), (-4705118733502469) @ (-49), (-6525031025062397) @ (-50), (-1124039822776467) @ (-47)));
  (208%N, (#, (-8871297742822353) @ (-49), #, (-976926146266539) @ (-46)));
  (209%N, ((-1782313285577961) @ (-48), (-3426199317149887) @ (-49), (-7992234424263439) @ (-50), (-8550571810123305) @ (-50)));
  (212%N, (#, (-491414177067389) @ (-45), (-609902861438431) @ (-45), (-1853809505254573) @ (-47)));
  (213%N, (#, #, (-8197617090973557) @ (-49), (-1853809505254573) @ (-47)));
  (215%N, ((-4684119305002281) @ (-48), (-1539430114996847) @ (-47), (-5585770467706197) @ (-49), (-3223763493189211) @ (-48)));
  (216%N, ((-6363471796652225) @ (-49), (-2878138193940609) @ (-48), (-47585848258867) @ (-42), (-5520300527928747) @ (-49)));
  (217%N, (#, #, #, (-7245928484021955) @ (-49)));
  (218%N, (#, #, #, (-4650533185457697) @ (-48)));
  (220%N, ((-6880652495669265) @ (-49), (-6547927632997723) @ (-49), (-609902861438431) @ (-45), (-5695243308814069) @ (-49)));
  (221%N, ((-2395255497277369) @ (-48), (-1431489092705661) @ (-47), (-298918864012563) @ (-45), (-302852298247679) @ (-44)));
  (227%N, ((-5923436429557781) @ (-49), (-6440768010410019) @ (-49), (-889038822504283) @ (-46), (-3147473968188667) @ (-48)));
  (228%N, (#, #, #, (-302852298247679) @ (-44)));
  (230%N, (#, #, #, (-271331332318175) @ (-44)));
  (231%N, (#, (-3165954796869305) @ (-48), (-7696043924970107) @ (-49), (-7489000375236853) @ (-49)));
  (233%N, ((-571248877892569) @ (-45), (-7157383978315813) @ (-49), (-7591005369967043) @ (-49), (-6255838467337193) @ (-49)));
  (234%N, (#, #, #, (-8292395461171265) @ (-49)));
  (236%N, ((-8233949048441833) @ (-49), (-3638170211376633) @ (-48), (-7579153354239763) @ (-49), (-302852298247679) @ (-44)));
  (237%N, (#, #, #, (-4170689255897351) @ (-48)));
  (241%N, (#, #, #, (-2130163006223681) @ (-47)));
  (245%N, ((-8978031436994227) @ (-49), (-5802635899289761) @ (-49), (-1458568402552865) @ (-47), (-6617800133038605) @ (-49)));
  (247%N, (#, #, (-609902861438431) @ (-45), (-6913411673111127) @ (-49)));
  (249%N, ((-546860929579423) @ (-45), (-8871297742822353) @ (-49), (-571248877892569) @ (-45), (-7658507473194481) @ (-49)));
  (252%N, (#, #, #, (-3662121014844325) @ (-48)));
  (255%N, (#, #, #, (-4650533185457697) @ (-48)))].

(** prob_emit.py, characters 0x9200 to 0x92ff *)
Definition emit_92 : list (N * num4) := [
  (0%N, (#, (-8871297742822353) @ (-49), (-4331497877621075) @ (-48), (-3172887456252975) @ (-48)));
  (1%N, (#, (-8871297742822353) @ (-49), #, (-1877995278787649) @ (-47)));
  (3%N, (#, #, (-4260759154773655) @ (-48), (-976926146266539) @ (-46)));
  (4%N, ((-8100873996841253) @ (-49), (-8871297742822353) @ (-49), (-609902861438431) @ (-45), (-8205616343142647) @ (-49)));
  (7%N, (#, #, (-609902861438431) @ (-45), (-2061833855653683) @ (-47)));
  (8%N, (#, #, #, (-4170689255897351) @ (-48)));
  (9%N, ((-6787131381448733) @ (-49), (-3982632372491541) @ (-48), (-5888616060190611) @ (-49), (-2932815647163429) @ (-48)));
  (11%N, (#, #, #, (-7689790518313711) @ (-49)));
  (13%N, ((-238379262651975) @ (-44), #, (-6451153801728311) @ (-49), (-6408215574980407) @ (-49)));
  (14%N, (#, #, #, (-302852298247679) @ (-44)));
  (16%N, ((-4331497877621075) @ (-48), (-3887923857524803) @ (-48), (-7725679712283649) @ (-49), (-6820303975927183) @ (-49)));
  (17%N, ((-4684119305002281) @ (-48), #, #, (-3767970024052643) @ (-48)));
  (18%N, (#, #, #, (-4170689255897351) @ (-48)));
  (20%N, ((-6523620964550923) @ (-49), (-7015906532620973) @ (-49), (-817970144945989) @ (-46), (-5966759956122845) @ (-49)));
  (21%N, ((-6529042675350997) @ (-49), (-3982632372491541) @ (-48), (-6880652495669265) @ (-49), (-897148847068159) @ (-46)));
  (26%N, (#, #, #, (-271331332318175) @ (-44)));
  (27%N, (#, #, #, (-4650533185457697) @ (-48)));
  (30%N, ((-7502517753044599) @ (-49), (-5383009809702665) @ (-49), (-5185957269868573) @ (-49), (-6096728654423937) @ (-49)));
  (33%N, ((-4260759154773655) @ (-48), #, #, #));
  (35%N, ((-3287202728281269) @ (-48), (-3076599374652271) @ (-48), (-3245222661329465) @ (-48), (-1431950977748151) @ (-47)));
  (36%N, (#, #, #, (-4650533185457697) @ (-48)));
  (37%N, (#, #, #, (-5305967401447739) @ (-49)));
  (38%N, ((-1865749067223629) @ (-47), (-7427359621511357) @ (-49), (-7591005369967043) @ (-49), (-5875156901520765) @ (-49)));
  (39%N, (#, (-3736209830033945) @ (-48), #, (-886648957992025) @ (-46)));
  (42%N, (#, #, #, (-4392620273043229) @ (-48)));
  (46%N, (#, #, (-4684119305002281) @ (-48), (-6925694704825637) @ (-49)));
  (48%N, (#, (-4240545284906009) @ (-48), (-609902861438431) @ (-45), (-2130163006223681) @ (-47)));
  (51%N, (#, #, #, (-8910859197905059) @ (-49)));
  (52%N, ((-5967207721721569) @ (-49), (-2636013062845457) @ (-48), (-5951367522086663) @ (-49), (-4650533185457697) @ (-48)));
  (54%N, (#, #, #, (-8910859197905059) @ (-49)));
  (55%N, ((-4426206392587813) @ (-48), (-8090883396801683) @ (-49), (-4331497877621075) @ (-48), (-1526817325479289) @ (-47)));
  (56%N, (#, #, (-7725679712283649) @ (-49), (-302852298247679) @ (-44)));
  (57%N, (#, #, (-4204275375441935) @ (-48), (-880642292618137) @ (-46)));
  (58%N, ((-8978031436994227) @ (-49), (-5472278589688291) @ (-49), (-2973738073733411) @ (-48), (-8033701757752085) @ (-49)));
  (61%N, (#, #, #, (-302852298247679) @ (-44)));
  (62%N, ((-3423861029421265) @ (-48), (-3982632372491541) @ (-48), (-7426068281774563) @ (-49), (-5980491123522969) @ (-49)));
  (63%N, ((-609902861438431) @ (-45), (-3478296917619477) @ (-48), (-7250871180066637) @ (-49), (-472560260360877) @ (-45)));
  (64%N, ((-6250996542308241) @ (-49), (-1925169055947837) @ (-47), (-6437098842625111) @ (-49), (-1507210677576857) @ (-47)));
  (68%N, (#, #, #, (-302852298247679) @ (-44)));
  (69%N, (#, (-7082212487057555) @ (-49), (-2078626915425975) @ (-47), (-1877995278787649) @ (-47)));
  (72%N, (#, #, #, (-1848956007451337) @ (-47)));
  (73%N, (#, (-1925169055947837) @ (-47), (-6880652495669265) @ (-49), (-1930728693765227) @ (-47)));
  (75%N, (#, #, #, (-4650533185457697) @ (-48)));
  (77%N, (#, #, (-4684119305002281) @ (-48), (-1749038822580415) @ (-47)));
  (79%N, (#, #, #, (-8910859197905059) @ (-49)));
  (81%N, ((-7773281289935475) @ (-49), (-8252834006088559) @ (-49), (-3921870937715749) @ (-48), (-6469181577378721) @ (-49)));
  (83%N, (#, #, #, (-302852298247679) @ (-44)));
  (84%N, (#, #, #, (-442294618973983) @ (-45)));
  (85%N, (#, #, #, (-302852298247679) @ (-44)));
  (86%N, (#, #, #, (-302852298247679) @ (-44)));
  (87%N, ((-3420680487369323) @ (-48), (-491414177067389) @ (-45), (-1865749067223629) @ (-47), (-6592047412203725) @ (-49)));
  (89%N, (#, #, #, (-6743418784857205) @ (-49)));
  (90%N, ((-7022614616343179) @ (-49), #, #, (-472560260360877) @ (-45)));
  (91%N, ((-735353042864721) @ (-46), (-1648815554978729) @ (-47), (-7313100723111123) @ (-49), (-5500204999158685) @ (-49)));
  (94%N, (#, (-3606862978324355) @ (-48), (-7143886142672895) @ (-49), (-7145732875094951) @ (-49)));
  (96%N, (#, #, #, (-4392620273043229) @ (-48)));
  (100%N, ((-6968563171774189) @ (-49), (-3736209830033945) @ (-48), (-6087662422977705) @ (-49), (-2788653451192963) @ (-48)));
  (102%N, (#, (-1925169055947837) @ (-47), (-8978031436994227) @ (-49), (-8166776809352665) @ (-49)));
  (103%N, (#, #, #, (-4650533185457697) @ (-48)));
  (104%N, (#, #, #, (-8166776809352665) @ (-49)));
  (105%N, (#, #, #, (-4227173035229071) @ (-48)));
  (108%N, ((-1947521753537519) @ (-47), (-7082212487057555) @ (-49), (-2017999609788739) @ (-47), (-6484095031060651) @ (-49)));
  (109%N, ((-8359567700260433) @ (-49), (-4240545284906009) @ (-48), #, (-6901390932685021) @ (-49)));
  (114%N, (#, #, #, (-2130163006223681) @ (-47)));
  (116%N, ((-1296364050446541) @ (-47), (-2964731948131965) @ (-48), (-5592266773695013) @ (-49), (-1530989448434467) @ (-47)));
  (117%N, (#, #, #, (-302852298247679) @ (-44)));
  (118%N, (#, #, #, (-420540146700683) @ (-45)));
  (119%N, (#, #, #, (-70881326618687) @ (-42)));
  (120%N, ((-7453534702421163) @ (-49), (-8871297742822353) @ (-49), (-609902861438431) @ (-45), (-3464924667942539) @ (-48)));
  (122%N, (#, #, #, (-8292395461171265) @ (-49)));
  (123%N, ((-6915629578949437) @ (-49), (-1925169055947837) @ (-47), (-1975763643203379) @ (-47), (-8292395461171265) @ (-49)));
  (127%N, (#, #, #, (-943539134077359) @ (-46)));
  (128%N, ((-8228204001095333) @ (-50), (-2065933948313189) @ (-48), (-5099966446728821) @ (-49), (-4798025632802971) @ (-49)));
  (131%N, (#, #, (-1746162137615165) @ (-47), (-4650533185457697) @ (-48)));
  (133%N, ((-645319450350153) @ (-46), (-1314290474264215) @ (-47), (-5625193067269091) @ (-49), (-302852298247679) @ (-44)));
  (134%N, (#, #, #, (-4708552453576919) @ (-49)));
  (138%N, (#, #, #, (-4650533185457697) @ (-48)));
  (141%N, (#, (-8871297742822353) @ (-49), #, (-302852298247679) @ (-44)));
  (142%N, (#, (-4240545284906009) @ (-48), (-4426206392587813) @ (-48), (-239810366388671) @ (-44)));
  (144%N, (#, #, #, (-3549396601113259) @ (-48)));
  (145%N, ((-3638841694013343) @ (-48), (-4240545284906009) @ (-48), (-3921870937715749) @ (-48), (-3323653223520611) @ (-48)));
  (146%N, (#, #, #, (-302852298247679) @ (-44)));
  (147%N, ((-8272788582231815) @ (-49), (-7106171420012245) @ (-49), (-1709551796309617) @ (-47), (-3728098948061275) @ (-48)));
  (150%N, ((-4684119305002281) @ (-48), (-6404436052941743) @ (-49), (-1795778112687613) @ (-47), (-880642292618137) @ (-46)));
  (152%N, ((-6039993626083217) @ (-49), (-315511246044177) @ (-45), (-5397909623845719) @ (-49), (-6438744437682999) @ (-49)));
  (153%N, (#, #, #, (-8910859197905059) @ (-49)));
  (154%N, (#, (-8871297742822353) @ (-49), #, (-8033701757752085) @ (-49)));
  (155%N, (#, #, #, (-8205616343142647) @ (-49)));
  (156%N, ((-6159174165883457) @ (-49), (-6703857329774499) @ (-49), (-2826612454677655) @ (-48), (-302852298247679) @ (-44)));
  (160%N, (#, #, #, (-7689790518313711) @ (-49)));
  (163%N, ((-609902861438431) @ (-45), (-8871297742822353) @ (-49), #, (-7332707602050573) @ (-49)));
  (165%N, ((-2146956065995973) @ (-47), #, (-571248877892569) @ (-45), (-7145732875094951) @ (-49)));
  (166%N, (#, #, (-2078626915425975) @ (-47), (-1877995278787649) @ (-47)));
  (167%N, (#, #, #, (-302852298247679) @ (-44)));
  (168%N, ((-3984680263625049) @ (-48), #, (-6976548411382209) @ (-49), (-3630371905756697) @ (-48)));
  (170%N, (#, #, #, (-302852298247679) @ (-44)));
  (171%N, (#, #, (-609902861438431) @ (-45), (-1797570806504343) @ (-47)));
  (172%N, (#, #, (-1676738964413993) @ (-47), (-6761678221831651) @ (-49)));
  (174%N, ((-3801556143597227) @ (-48), (-3133834756504569) @ (-48), (-1762356706075807) @ (-47), (-897148847068159) @ (-46)));
  (179%N, ((-746912269962565) @ (-46), (-5858469455864531) @ (-49), (-2618955158088877) @ (-48), (-302852298247679) @ (-44)));
  (180%N, (#, #, #, (-302852298247679) @ (-44)));
  (182%N, (#, #, #, (-3535663390789959) @ (-48)));
  (183%N, ((-4678854304369375) @ (-49), (-2419831484923347) @ (-48), (-4431970125175685) @ (-49), (-7795654513279065) @ (-49)));
  (185%N, ((-3543643231182759) @ (-48), (-5957384491968179) @ (-49), (-6745617496057075) @ (-49), (-302852298247679) @ (-44)));
  (187%N, ((-4260759154773655) @ (-48), (-7427359621511357) @ (-49), (-546860929579423) @ (-45), (-4048158111928321) @ (-48)));
  (188%N, ((-2017999609788739) @ (-47), #, (-4684119305002281) @ (-48), (-1777541578842475) @ (-47)));
  (190%N, (#, #, #, (-70881326618687) @ (-42)));
  (191%N, (#, #, #, (-4650533185457697) @ (-48)));
  (193%N, ((-6033932195212013) @ (-49), (-6235492186600303) @ (-49), (-842869473648881) @ (-46), (-271331332318175) @ (-44)));
  (195%N, ((-2017999609788739) @ (-47), #, #, (-3728098948061275) @ (-48)));
  (197%N, ((-1998329865051197) @ (-47), (-6605226196018601) @ (-49), (-3480344808752985) @ (-48), (-5519959656011931) @ (-49)));
  (198%N, (#, (-3817185134677383) @ (-48), (-483818997720415) @ (-45), (-4227173035229071) @ (-48)));
  (199%N, ((-1947521753537519) @ (-47), (-7244163096344431) @ (-49), (-3855333411915459) @ (-48), (-1569089569288295) @ (-47)));
  (200%N, (#, #, (-609902861438431) @ (-45), (-1745563646303515) @ (-47)));
  (204%N, ((-878374446492819) @ (-46), #, #, (-2130163006223681) @ (-47)));
  (207%N, (#, #, #, (-8395033373076123) @ (-49)));
  (208%N, (#, #, #, (-4297911758076491) @ (-48)));
  (210%N, ((-1487192571465177) @ (-47), (-2402882800679929) @ (-48), (-4570621351221037) @ (-49), (-302852298247679) @ (-44)));
  (213%N, (#, #, #, (-4297911758076491) @ (-48)));
  (216%N, (#, #, #, (-70881326618687) @ (-42)));
  (218%N, (#, #, #, (-70881326618687) @ (-42)));
  (221%N, (#, #, #, (-7358896042685395) @ (-49)));
  (223%N, (#, #, (-8462205612165291) @ (-49), (-7477852487122849) @ (-49)));
  (225%N, (#, #, #, (-302852298247679) @ (-44)));
  (227%N, (#, #, #, (-302852298247679) @ (-44)));
  (228%N, ((-1667112136435627) @ (-47), (-8252834006088559) @ (-49), (-2146956065995973) @ (-47), (-1615014347841613) @ (-47)));
  (229%N, ((-7492374236211145) @ (-49), (-3817185134677383) @ (-48), #, (-8033701757752085) @ (-49)));
  (230%N, ((-571248877892569) @ (-45), #, #, (-3888284818171165) @ (-48)));
  (232%N, (#, #, #, (-7425201997121977) @ (-49)));
  (233%N, (#, #, #, (-8064138897447807) @ (-49)));
  (234%N, ((-5409968903650087) @ (-49), (-6547927632997723) @ (-49), (-2623294861537151) @ (-48), (-2361255808782817) @ (-48)));
  (236%N, (#, #, #, (-4650533185457697) @ (-48)));
  (238%N, (#, (-7157383978315813) @ (-49), (-3043003343313501) @ (-48), (-302852298247679) @ (-44)));
  (239%N, ((-7667890561037021) @ (-49), (-8871297742822353) @ (-49), (-8462205612165291) @ (-49), (-1749038822580415) @ (-47)));
  (240%N, ((-2011133004627089) @ (-47), #, (-6835070965687369) @ (-49), (-1664373966160355) @ (-47)));
  (241%N, (#, #, #, (-4297911758076491) @ (-48)));
  (246%N, (#, #, #, (-302852298247679) @ (-44)));
  (248%N, ((-6478699293932513) @ (-49), (-6838531672091105) @ (-49), (-1800199549239177) @ (-47), (-3166315757515667) @ (-48)));
  (249%N, (#, #, #, (-4392620273043229) @ (-48)));
  (252%N, ((-2356173446486759) @ (-48), (-2621340035366207) @ (-48), (-1316715759465749) @ (-47), (-2638784857578567) @ (-48)));
  (253%N, (#, #, #, (-4392620273043229) @ (-48)))].

(** prob_emit.py, characters 0x9300 to 0x93ff *)
Definition emit_93 : list (N * num4) := [
  (1%N, (#, (-7427359621511357) @ (-49), (-571248877892569) @ (-45), (-7332707602050573) @ (-49)));
  (2%N, (#, #, #, (-302852298247679) @ (-44)));
  (4%N, ((-1200217441614447) @ (-47), (-5268273112101347) @ (-49), (-2244820479458719) @ (-48), (-5461431272833085) @ (-49)));
  (6%N, (#, (-8871297742822353) @ (-49), (-609902861438431) @ (-45), (-3733460538297031) @ (-48)));
  (8%N, (#, #, #, (-3733460538297031) @ (-48)));
  (13%N, (#, #, #, (-302852298247679) @ (-44)));
  (15%N, (#, #, #, (-4650533185457697) @ (-48)));
  (16%N, ((-404505981231041) @ (-45), (-2653990826944223) @ (-48), (-3350997957043395) @ (-48), (-6006569257514267) @ (-49)));
  (18%N, (#, #, #, (-3662121014844325) @ (-48)));
  (21%N, (#, (-1925169055947837) @ (-47), (-6714478686130389) @ (-49), (-976926146266539) @ (-46)));
  (24%N, ((-1689779535490071) @ (-47), (-5866530929470017) @ (-49), (-190579533306429) @ (-44), (-3022098421302447) @ (-48)));
  (25%N, ((-8197617090973557) @ (-49), (-4240545284906009) @ (-48), #, (-2130163006223681) @ (-47)));
  (26%N, ((-1723595915767347) @ (-47), (-6180890394980519) @ (-49), (-6087662422977705) @ (-49), (-3002476952516553) @ (-48)));
  (27%N, ((-4684119305002281) @ (-48), (-8252834006088559) @ (-49), (-8233949048441833) @ (-49), (-8751970358898887) @ (-50)));
  (29%N, (#, #, #, (-1822899526423839) @ (-47)));
  (30%N, (#, #, #, (-3702723670134365) @ (-48)));
  (31%N, (#, #, (-609902861438431) @ (-45), (-1969801887061797) @ (-47)));
  (32%N, ((-483818997720415) @ (-45), (-4240545284906009) @ (-48), (-6207302059190055) @ (-49), (-1607953933851967) @ (-47)));
  (33%N, (#, #, (-609902861438431) @ (-45), (-369986883717853) @ (-45)));
  (34%N, ((-4685340367941383) @ (-49), (-4852472897722079) @ (-49), (-2307411617097295) @ (-48), (-4179467385877833) @ (-49)));
  (38%N, ((-5101834088966133) @ (-49), (-2257090406485323) @ (-48), (-5798933635296641) @ (-49), (-338839118323295) @ (-45)));
  (39%N, (#, #, #, (-1608384983157857) @ (-47)));
  (40%N, ((-7143886142672895) @ (-49), (-4240545284906009) @ (-48), (-6945265366262979) @ (-49), (-6642280074779601) @ (-49)));
  (41%N, (#, #, (-609902861438431) @ (-45), (-4227173035229071) @ (-48)));
  (43%N, ((-5711729167830771) @ (-49), (-1127873132344535) @ (-47), (-1434014487908025) @ (-47), (-1419684676969183) @ (-47)));
  (44%N, (#, #, #, (-8910859197905059) @ (-49)));
  (46%N, ((-4331497877621075) @ (-48), #, (-6787131381448733) @ (-49), (-6790228280836765) @ (-49)));
  (47%N, ((-2333482760065245) @ (-48), (-2719826794668321) @ (-48), (-4666699726946411) @ (-49), (-2381426357351831) @ (-48)));
  (49%N, (#, #, (-609902861438431) @ (-45), (-8064138897447807) @ (-49)));
  (50%N, (#, #, #, (-4650533185457697) @ (-48)));
  (51%N, ((-6980583912200295) @ (-49), (-3095216074021885) @ (-48), (-7556172614326021) @ (-49), (-5805374841562999) @ (-49)));
  (54%N, (#, #, #, (-7600718321947853) @ (-49)));
  (56%N, (#, #, (-4684119305002281) @ (-48), (-3870118839437027) @ (-48)));
  (59%N, (#, #, #, (-4650533185457697) @ (-48)));
  (62%N, ((-571248877892569) @ (-45), #, (-546860929579423) @ (-45), (-7170756992763697) @ (-49)));
  (65%N, (#, #, (-3695707134388909) @ (-48), (-3535663390789959) @ (-48)));
  (66%N, (#, #, #, (-3370216152975801) @ (-48)));
  (69%N, (#, #, #, (-4170689255897351) @ (-48)));
  (70%N, (#, #, #, (-8033701757752085) @ (-49)));
  (71%N, (#, (-3606862978324355) @ (-48), (-1797236545307357) @ (-47), (-4297911758076491) @ (-48)));
  (73%N, (#, #, #, (-70881326618687) @ (-42)));
  (74%N, (#, #, #, (-6289573671662141) @ (-49)));
  (75%N, ((-1359178593589567) @ (-47), (-5571968411309977) @ (-49), (-5313920154505945) @ (-49), (-3209945996302409) @ (-48)));
  (76%N, (#, #, #, (-7835882333724349) @ (-49)));
  (77%N, ((-6863946523373667) @ (-49), (-8871297742822353) @ (-49), (-1865749067223629) @ (-47), (-1729369077842873) @ (-47)));
  (78%N, (#, #, #, (-3452684697072041) @ (-48)));
  (79%N, (#, #, #, (-5375838006519923) @ (-49)));
  (80%N, (#, #, #, (-5563884943219879) @ (-49)));
  (81%N, (#, #, #, (-2743919563628865) @ (-48)));
  (82%N, (#, #, #, (-1332867082620379) @ (-47)));
  (83%N, (#, #, #, (-382623035576113) @ (-45)));
  (84%N, (#, (-491414177067389) @ (-45), (-406948109194601) @ (-45), (-5703680685039981) @ (-49)));
  (85%N, (#, #, #, (-3362866519325475) @ (-48)));
  (86%N, (#, #, #, (-6211069133643005) @ (-49)));
  (87%N, (#, #, #, (-713612476468813) @ (-46)));
  (88%N, ((-7567545727469403) @ (-49), #, #, (-1683626615562721) @ (-47)));
  (89%N, (#, #, #, (-2594021900647343) @ (-48)));
  (90%N, (#, #, #, (-1332016335281523) @ (-47)));
  (91%N, ((-685257136158993) @ (-46), (-7575057571972747) @ (-49), (-1998329865051197) @ (-47), (-5775086610730313) @ (-49)));
  (92%N, (#, #, #, (-2956449800576457) @ (-48)));
  (93%N, (#, #, #, (-6297654431751161) @ (-49)));
  (94%N, (#, #, #, (-3605255574468759) @ (-48)));
  (95%N, (#, #, #, (-3184193191912173) @ (-48)));
  (96%N, (#, #, #, (-302852298247679) @ (-44)));
  (97%N, (#, #, #, (-3702723670134365) @ (-48)));
  (98%N, (#, #, #, (-3307704841892339) @ (-48)));
  (99%N, (#, #, #, (-943539134077359) @ (-46)));
  (100%N, (#, #, #, (-3728098948061275) @ (-48)));
  (101%N, ((-7399879841139741) @ (-49), #, (-571248877892569) @ (-45), (-7795654513279065) @ (-49)));
  (102%N, (#, #, #, (-649624541539295) @ (-46)));
  (103%N, (#, #, #, (-6465514138001285) @ (-49)));
  (104%N, (#, #, #, (-3870118839437027) @ (-48)));
  (105%N, (#, #, #, (-3256584737927489) @ (-48)));
  (106%N, (#, #, (-1975763643203379) @ (-47), (-6870536638503059) @ (-49)));
  (107%N, (#, #, #, (-3582197954329907) @ (-48)));
  (108%N, (#, (-8871297742822353) @ (-49), (-7298665317991735) @ (-49), (-1713019402318041) @ (-47)));
  (110%N, (#, #, #, (-302852298247679) @ (-44)));
  (112%N, (#, #, (-546860929579423) @ (-45), (-440002733528793) @ (-45)));
  (113%N, (#, #, #, (-4650533185457697) @ (-48)));
  (117%N, ((-3154048626372215) @ (-48), (-2659564771001225) @ (-48), (-4826749148642123) @ (-49), (-5925363946934187) @ (-49)));
  (118%N, ((-571248877892569) @ (-45), #, (-2011133004627089) @ (-47), (-1749038822580415) @ (-47)));
  (122%N, (#, (-8871297742822353) @ (-49), (-4426206392587813) @ (-48), (-6848457339860269) @ (-49)));
  (124%N, (#, #, #, (-302852298247679) @ (-44)));
  (126%N, ((-609902861438431) @ (-45), (-7346801008249289) @ (-49), (-2017999609788739) @ (-47), (-6175028031233341) @ (-49)));
  (127%N, (#, #, #, (-7951171338784367) @ (-49)));
  (128%N, (#, #, #, (-8130444851884389) @ (-49)));
  (129%N, (#, #, #, (-4392620273043229) @ (-48)));
  (130%N, ((-7492374236211145) @ (-49), (-6425952682918579) @ (-49), (-1762356706075807) @ (-47), (-1525373851406443) @ (-47)));
  (136%N, (#, #, #, (-4392620273043229) @ (-48)));
  (137%N, (#, #, #, (-8292395461171265) @ (-49)));
  (138%N, (#, #, (-2990035920121041) @ (-48), (-5218922050284141) @ (-49)));
  (140%N, (#, #, #, (-70881326618687) @ (-42)));
  (141%N, (#, #, #, (-302852298247679) @ (-44)));
  (142%N, (#, #, #, (-70881326618687) @ (-42)));
  (143%N, ((-3801556143597227) @ (-48), (-3887923857524803) @ (-48), (-2011133004627089) @ (-47), (-3662121014844325) @ (-48)));
  (145%N, (#, #, #, (-8130444851884389) @ (-49)));
  (146%N, (#, #, #, (-4650533185457697) @ (-48)));
  (147%N, (#, #, #, (-8910859197905059) @ (-49)));
  (148%N, (#, (-6069645714336419) @ (-49), #, (-271331332318175) @ (-44)));
  (150%N, ((-3007700120139713) @ (-48), (-2694965706359319) @ (-48), (-5211771855562801) @ (-49), (-302852298247679) @ (-44)));
  (151%N, ((-2146956065995973) @ (-47), #, #, (-8395033373076123) @ (-49)));
  (152%N, (#, #, (-8131311136536975) @ (-49), (-302852298247679) @ (-44)));
  (154%N, (#, #, #, (-4227173035229071) @ (-48)));
  (155%N, (#, #, #, (-8292395461171265) @ (-49)));
  (157%N, (#, #, #, (-1893476528496951) @ (-47)));
  (158%N, (#, #, #, (-4650533185457697) @ (-48)));
  (161%N, (#, #, #, (-1930728693765227) @ (-47)));
  (162%N, ((-1795778112687613) @ (-47), (-6350781191660321) @ (-49), (-8100873996841253) @ (-49), (-6275053641683009) @ (-49)));
  (163%N, (#, (-3318111047509587) @ (-48), (-4331497877621075) @ (-48), (-302852298247679) @ (-44)));
  (166%N, ((-1746162137615165) @ (-47), (-8871297742822353) @ (-49), #, (-3246810319127279) @ (-48)));
  (167%N, ((-6890919344730931) @ (-49), (-7427359621511357) @ (-49), (-8100873996841253) @ (-49), (-3510057111638175) @ (-48)));
  (169%N, ((-3855333411915459) @ (-48), #, #, (-6955442377254011) @ (-49)));
  (170%N, (#, #, #, (-3951094144080465) @ (-48)));
  (171%N, (#, #, #, (-302852298247679) @ (-44)));
  (172%N, ((-8462205612165291) @ (-49), (-3460130938885339) @ (-48), (-6887476215016351) @ (-49), (-5909485703768671) @ (-49)));
  (173%N, (#, #, #, (-6438744437682999) @ (-49)));
  (174%N, ((-4728720520490363) @ (-49), (-35357921550241) @ (-42), (-8818546329276505) @ (-50), (-1621971488540869) @ (-47)));
  (175%N, (#, #, #, (-5795281842964731) @ (-49)));
  (176%N, (#, (-3817185134677383) @ (-48), (-2078626915425975) @ (-47), (-3702723670134365) @ (-48)));
  (177%N, (#, #, #, (-3535663390789959) @ (-48)));
  (178%N, (#, #, #, (-8033701757752085) @ (-49)));
  (179%N, ((-7756962757402879) @ (-49), #, (-7773281289935475) @ (-49), (-3870118839437027) @ (-48)));
  (180%N, (#, #, #, (-2690170285364275) @ (-48)));
  (181%N, (#, (-8090883396801683) @ (-49), (-3704237331932315) @ (-48), (-7350030505863719) @ (-49)));
  (182%N, (#, #, #, (-5760793742629897) @ (-49)));
  (183%N, (#, #, #, (-6226396466584401) @ (-49)));
  (184%N, (#, #, #, (-6106302863991523) @ (-49)));
  (185%N, (#, #, #, (-6708586029216183) @ (-49)));
  (186%N, (#, #, #, (-1557498400781619) @ (-47)));
  (187%N, (#, #, #, (-3317411837498811) @ (-48)));
  (188%N, (#, #, #, (-6870536638503059) @ (-49)));
  (189%N, (#, #, #, (-850842282548523) @ (-46)));
  (190%N, (#, #, #, (-6946781437909935) @ (-49)));
  (191%N, (#, #, #, (-1848956007451337) @ (-47)));
  (192%N, (#, #, #, (-5990620600128631) @ (-49)));
  (193%N, (#, #, #, (-1535546096063807) @ (-47)));
  (194%N, (#, #, #, (-1418335745028765) @ (-47)));
  (195%N, (#, (-3760701355345663) @ (-48), (-1947521753537519) @ (-47), (-5517240085730491) @ (-49)));
  (196%N, (#, #, #, (-5018631197664333) @ (-49)));
  (197%N, (#, #, #, (-1472685321611307) @ (-47)));
  (198%N, (#, #, #, (-6934034856678315) @ (-49)));
  (199%N, (#, #, #, (-7283724551427137) @ (-49)));
  (200%N, ((-1417093114680817) @ (-47), (-1725734743489383) @ (-47), (-2776060983799799) @ (-48), (-5712726164312741) @ (-49)));
  (201%N, (#, #, #, (-5383540673822871) @ (-49)));
  (202%N, ((-3984680263625049) @ (-48), #, (-4426206392587813) @ (-48), (-1848956007451337) @ (-47)));
  (203%N, (#, #, #, (-3068530982675411) @ (-48)));
  (204%N, (#, #, #, (-6503310205406467) @ (-49)));
  (205%N, (#, #, #, (-6001737039403017) @ (-49)));
  (207%N, (#, #, #, (-302852298247679) @ (-44)));
  (208%N, (#, #, (-609902861438431) @ (-45), (-7029990791577139) @ (-49)));
  (209%N, (#, (-8871297742822353) @ (-49), (-7862826752368233) @ (-49), (-4297911758076491) @ (-48)));
  (214%N, ((-3551083531600405) @ (-48), #, #, (-3951094144080465) @ (-48)));
  (215%N, ((-3478396877264481) @ (-48), (-7131195537680991) @ (-49), (-7756962757402879) @ (-49), (-6474727927202407) @ (-49)));
  (216%N, (#, (-105327943197979) @ (-43), (-6915629578949437) @ (-49), (-7245928484021955) @ (-49)));
  (220%N, ((-1975763643203379) @ (-47), #, (-8131311136536975) @ (-49), (-844440712760577) @ (-46)));
  (221%N, (#, (-8871297742822353) @ (-49), #, (-8910859197905059) @ (-49)));
  (222%N, (#, #, (-7453534702421163) @ (-49), (-4297911758076491) @ (-48)));
  (223%N, ((-823797092398745) @ (-46), #, (-6656935875530257) @ (-49), (-2915714294531605) @ (-48)));
  (225%N, ((-1368061727260891) @ (-47), (-2620447879384093) @ (-48), (-4889831163920947) @ (-49), (-5550415727622485) @ (-49)));
  (226%N, ((-6055439038073985) @ (-49), (-1539430114996847) @ (-47), (-6411471528329717) @ (-49), (-5848881134436777) @ (-49)));
  (228%N, ((-6835070965687369) @ (-49), (-8871297742822353) @ (-49), (-2011133004627089) @ (-47), (-3196775173732053) @ (-48)));
  (230%N, (#, #, #, (-302852298247679) @ (-44)));
  (232%N, ((-571248877892569) @ (-45), #, (-546860929579423) @ (-45), (-7170756992763697) @ (-49)));
  (236%N, (#, #, #, (-271331332318175) @ (-44)));
  (238%N, (#, #, #, (-7658507473194481) @ (-49)));
  (239%N, (#, #, #, (-271331332318175) @ (-44)));
  (240%N, (#, (-8871297742822353) @ (-49), #, #));
  (241%N, (#, #, #, (-4650533185457697) @ (-48)));
  (244%N, (#, #, #, (-7835882333724349) @ (-49)));
  (245%N, ((-546860929579423) @ (-45), (-8871297742822353) @ (-49), (-3722114766328821) @ (-48), (-7658507473194481) @ (-49)));
  (249%N, (#, (-8871297742822353) @ (-49), (-4081744231472905) @ (-48), (-4227173035229071) @ (-48)));
  (251%N, (#, #, #, (-302852298247679) @ (-44)));
  (255%N, (#, #, #, (-3888284818171165) @ (-48)))].

(** prob_emit.py, characters 0x9400 to 0x94ff *)
Definition emit_94 : list (N * num4) := [
  (3%N, ((-985322676152685) @ (-46), #, #, (-3670651212387731) @ (-48)));
  (4%N, (#, #, #, (-70881326618687) @ (-42)));
  (7%N, (#, #, #, (-8064138897447807) @ (-49)));
  (8%N, (#, #, #, (-302852298247679) @ (-44)));
  (13%N, (#, #, #, (-7628871685880939) @ (-49)));
  (14%N, (#, #, #, (-8395033373076123) @ (-49)));
  (15%N, (#, #, #, (-6580720069209839) @ (-49)));
  (16%N, ((-3736309789678949) @ (-48), #, (-1870602565026865) @ (-47), (-7005616856795013) @ (-49)));
  (17%N, (#, #, #, (-6632359995120511) @ (-49)));
  (18%N, (#, #, #, (-6014716287597153) @ (-49)));
  (19%N, (#, #, (-4426206392587813) @ (-48), (-7231493078902567) @ (-49)));
  (20%N, (#, #, #, (-70881326618687) @ (-42)));
  (21%N, (#, #, #, (-2001206550016447) @ (-47)));
  (22%N, (#, #, #, (-6681119608569583) @ (-49)));
  (23%N, (#, #, #, (-5703208609579679) @ (-49)));
  (24%N, ((-4664511708355117) @ (-49), (-4875732947963269) @ (-49), (-8963292310017559) @ (-50), (-3464924667942539) @ (-48)));
  (25%N, (#, #, (-3645792046567143) @ (-48), (-6629907050266015) @ (-49)));
  (26%N, (#, #, #, (-3549396601113259) @ (-48)));
  (27%N, (#, #, #, (-302852298247679) @ (-44)));
  (28%N, (#, #, #, (-6006569257514267) @ (-49)));
  (29%N, (#, #, #, (-7500373488380235) @ (-49)));
  (30%N, (#, #, #, (-6627464747288161) @ (-49)));
  (31%N, (#, #, #, (-4170689255897351) @ (-48)));
  (32%N, (#, #, #, (-4650533185457697) @ (-48)));
  (33%N, (#, #, #, (-7477852487122849) @ (-49)));
  (34%N, (#, #, #, (-2916604569317153) @ (-48)));
  (35%N, (#, #, #, (-13119324708823) @ (-40)));
  (36%N, (#, #, #, (-3370216152975801) @ (-48)));
  (37%N, (#, #, #, (-6866796093489079) @ (-49)));
  (38%N, (#, #, #, (-3870118839437027) @ (-48)));
  (39%N, (#, (-8871297742822353) @ (-49), (-6709452313868769) @ (-49), (-6437004250969885) @ (-49)));
  (40%N, (#, #, #, (-7926147221115621) @ (-49)));
  (41%N, (#, #, #, (-1519284424540059) @ (-47)));
  (42%N, (#, #, #, (-2821853596400759) @ (-48)));
  (43%N, ((-1795778112687613) @ (-47), (-4240545284906009) @ (-48), (-609902861438431) @ (-45), (-6991483479663675) @ (-49)));
  (44%N, (#, #, #, (-7082153075881451) @ (-49)));
  (45%N, (#, #, #, (-1563331323432085) @ (-47)));
  (46%N, ((-3420680487369323) @ (-48), (-491414177067389) @ (-45), (-3912641423100301) @ (-48), (-3365783384564963) @ (-48)));
  (50%N, ((-1765831882352707) @ (-47), (-1925169055947837) @ (-47), (-1709551796309617) @ (-47), (-7275959601375213) @ (-49)));
  (51%N, ((-2146956065995973) @ (-47), (-8871297742822353) @ (-49), (-8131311136536975) @ (-49), (-440002733528793) @ (-45)));
  (53%N, ((-8079985129473221) @ (-50), (-7897894952409029) @ (-50), (-1178610012154769) @ (-47), (-4587694848641903) @ (-49)));
  (56%N, (#, (-3760701355345663) @ (-48), (-3243532115846993) @ (-48), (-6823747105641763) @ (-49)));
  (58%N, (#, (-3638170211376633) @ (-48), (-1845768529231285) @ (-47), (-7706109050846307) @ (-49)));
  (62%N, (#, (-8252834006088559) @ (-49), (-4684119305002281) @ (-48), (-7523833130877875) @ (-49)));
  (63%N, (#, #, #, (-271331332318175) @ (-44)));
  (67%N, (#, #, #, (-302852298247679) @ (-44)));
  (68%N, ((-345480181670235) @ (-45), (-3256365900473599) @ (-48), (-6072933240967935) @ (-49), (-5776697341309647) @ (-49)));
  (69%N, (#, #, #, (-2001206550016447) @ (-47)));
  (73%N, (#, #, #, (-3888284818171165) @ (-48)));
  (74%N, (#, #, #, (-3951094144080465) @ (-48)));
  (75%N, (#, #, #, (-1969801887061797) @ (-47)));
  (76%N, ((-3695707134388909) @ (-48), #, (-1975763643203379) @ (-47), (-4650533185457697) @ (-48)));
  (77%N, (#, #, #, (-2130163006223681) @ (-47)));
  (80%N, (#, #, #, (-8910859197905059) @ (-49)));
  (81%N, ((-1296364050446541) @ (-47), (-2964731948131965) @ (-48), (-5592266773695013) @ (-49), (-1530989448434467) @ (-47)));
  (82%N, (#, #, #, (-302852298247679) @ (-44)));
  (85%N, (#, #, #, (-271331332318175) @ (-44)));
  (91%N, (#, #, #, (-302852298247679) @ (-44)));
  (92%N, (#, #, #, (-943539134077359) @ (-46)));
  (94%N, (#, #, #, (-302852298247679) @ (-44)));
  (96%N, (#, (-3817185134677383) @ (-48), (-7453534702421163) @ (-49), (-7795654513279065) @ (-49)));
  (99%N, (#, (-3887923857524803) @ (-48), (-206992078249649) @ (-44), (-7358896042685395) @ (-49)));
  (102%N, (#, #, #, (-302852298247679) @ (-44)));
  (104%N, (#, #, #, (-472560260360877) @ (-45)));
  (106%N, (#, #, #, (-302852298247679) @ (-44)));
  (107%N, ((-1975763643203379) @ (-47), (-5501224865288559) @ (-49), (-2784512368546243) @ (-48), (-3452684697072041) @ (-48)));
  (109%N, ((-8233949048441833) @ (-49), #, #, (-7643494584741751) @ (-49)));
  (112%N, ((-753212859989507) @ (-46), (-1796212599740603) @ (-47), (-1794334638614767) @ (-47), (-2918094646787033) @ (-48)));
  (113%N, (#, #, #, (-3446758689208401) @ (-48)));
  (114%N, ((-6248784555362411) @ (-49), (-874429171128617) @ (-46), (-1910269588269243) @ (-47), (-6426674604211303) @ (-49)));
  (115%N, (#, #, #, (-1492256337836659) @ (-47)));
  (116%N, (#, #, #, (-196014168947761) @ (-44)));
  (117%N, (#, #, #, (-6617800133038605) @ (-49)));
  (118%N, (#, #, #, (-7386362463331995) @ (-49)));
  (119%N, ((-3761685067605859) @ (-48), #, #, (-3951094144080465) @ (-48)));
  (120%N, (#, #, #, (-6800076053007037) @ (-49)));
  (121%N, (#, #, (-4426206392587813) @ (-48), (-6758593556834681) @ (-49)));
  (122%N, (#, #, #, (-6834204681034783) @ (-49)));
  (123%N, (#, #, #, (-6165293783740647) @ (-49)));
  (124%N, ((-6271305556619797) @ (-49), (-2923948657522579) @ (-48), (-6411471528329717) @ (-49), (-1853809505254573) @ (-47)));
  (125%N, ((-2657379875953771) @ (-48), (-6284475237223739) @ (-49), (-846618816505503) @ (-46), (-5317026753071343) @ (-49)));
  (126%N, ((-3801556143597227) @ (-48), (-3133834756504569) @ (-48), (-1762356706075807) @ (-47), (-6901390932685021) @ (-49)));
  (127%N, ((-1730723387525197) @ (-47), (-6680397687276859) @ (-49), (-6137022457445285) @ (-49), (-1449098598160475) @ (-47)));
  (128%N, (#, #, #, (-6325460081063297) @ (-49)));
  (129%N, (#, #, #, (-3662121014844325) @ (-48)));
  (130%N, (#, #, #, (-1893476528496951) @ (-47)));
  (131%N, (#, #, #, (-7139646870377641) @ (-49)));
  (132%N, (#, #, #, (-7926147221115621) @ (-49)));
  (133%N, (#, #, #, (-7857128249604397) @ (-49)));
  (134%N, (#, #, #, (-2061833855653683) @ (-47)));
  (135%N, (#, (-491414177067389) @ (-45), (-609902861438431) @ (-45), (-1853809505254573) @ (-47)));
  (136%N, ((-2395255497277369) @ (-48), (-1431489092705661) @ (-47), (-298918864012563) @ (-45), (-331361799041861) @ (-45)));
  (137%N, ((-6363471796652225) @ (-49), (-2878138193940609) @ (-48), (-47585848258867) @ (-42), (-5520300527928747) @ (-49)));
  (138%N, ((-4684119305002281) @ (-48), (-1539430114996847) @ (-47), (-5585770467706197) @ (-49), (-3223763493189211) @ (-48)));
  (139%N, (#, #, #, (-7245928484021955) @ (-49)));
  (140%N, (#, #, (-8197617090973557) @ (-49), (-1853809505254573) @ (-47)));
  (141%N, (#, #, (-609902861438431) @ (-45), (-6913411673111127) @ (-49)));
  (142%N, ((-8233949048441833) @ (-49), (-3638170211376633) @ (-48), (-7579153354239763) @ (-49), (-1893476528496951) @ (-47)));
  (143%N, (#, (-3165954796869305) @ (-48), (-7696043924970107) @ (-49), (-7489000375236853) @ (-49)));
  (144%N, (#, #, #, (-1994339944854797) @ (-47)));
  (145%N, (#, #, #, (-3236436532855373) @ (-48)));
  (146%N, ((-571248877892569) @ (-45), (-7157383978315813) @ (-49), (-7591005369967043) @ (-49), (-6255838467337193) @ (-49)));
  (147%N, ((-5923436429557781) @ (-49), (-6440768010410019) @ (-49), (-889038822504283) @ (-46), (-3147473968188667) @ (-48)));
  (148%N, (#, #, #, (-8033701757752085) @ (-49)));
  (149%N, ((-546860929579423) @ (-45), (-8871297742822353) @ (-49), (-571248877892569) @ (-45), (-7658507473194481) @ (-49)));
  (150%N, (#, #, #, (-7217418596990555) @ (-49)));
  (151%N, ((-8978031436994227) @ (-49), (-5802635899289761) @ (-49), (-1458568402552865) @ (-47), (-6617800133038605) @ (-49)));
  (152%N, (#, #, (-4260759154773655) @ (-48), (-976926146266539) @ (-46)));
  (153%N, ((-3287202728281269) @ (-48), (-3076599374652271) @ (-48), (-3245222661329465) @ (-48), (-1431950977748151) @ (-47)));
  (154%N, (#, #, #, (-1744424065272691) @ (-47)));
  (155%N, ((-1865749067223629) @ (-47), (-7427359621511357) @ (-49), (-7591005369967043) @ (-49), (-5875156901520765) @ (-49)));
  (156%N, (#, (-7082212487057555) @ (-49), (-2078626915425975) @ (-47), (-1877995278787649) @ (-47)));
  (157%N, ((-238379262651975) @ (-44), #, (-6451153801728311) @ (-49), (-6408215574980407) @ (-49)));
  (158%N, ((-6523620964550923) @ (-49), (-7015906532620973) @ (-49), (-817970144945989) @ (-46), (-5966759956122845) @ (-49)));
  (159%N, ((-4664511708355117) @ (-49), (-4875732947963269) @ (-49), (-8963292310017559) @ (-50), (-5086162288500497) @ (-49)));
  (160%N, ((-6787131381448733) @ (-49), (-3982632372491541) @ (-48), (-5888616060190611) @ (-49), (-2932815647163429) @ (-48)));
  (161%N, ((-1947521753537519) @ (-47), (-7244163096344431) @ (-49), (-3855333411915459) @ (-48), (-1569089569288295) @ (-47)));
  (162%N, ((-2356173446486759) @ (-48), (-2621340035366207) @ (-48), (-1316715759465749) @ (-47), (-2638784857578567) @ (-48)));
  (163%N, ((-4684119305002281) @ (-48), #, #, (-3767970024052643) @ (-48)));
  (164%N, ((-4331497877621075) @ (-48), (-3887923857524803) @ (-48), (-7725679712283649) @ (-49), (-6820303975927183) @ (-49)));
  (165%N, ((-753212859989507) @ (-46), (-1796212599740603) @ (-47), (-1794334638614767) @ (-47), (-3517497412055821) @ (-48)));
  (166%N, ((-1413210454971501) @ (-47), (-2719826794668321) @ (-48), (-5631057182309047) @ (-49), (-2824198346607805) @ (-48)));
  (167%N, ((-7502517753044599) @ (-49), (-5383009809702665) @ (-49), (-5185957269868573) @ (-49), (-6096728654423937) @ (-49)));
  (168%N, ((-1795778112687613) @ (-47), (-6350781191660321) @ (-49), (-8100873996841253) @ (-49), (-6275053641683009) @ (-49)));
  (169%N, ((-6968563171774189) @ (-49), (-3736209830033945) @ (-48), (-6087662422977705) @ (-49), (-2788653451192963) @ (-48)));
  (170%N, (#, (-3736209830033945) @ (-48), #, (-886648957992025) @ (-46)));
  (171%N, (#, (-8871297742822353) @ (-49), #, (-1877995278787649) @ (-47)));
  (172%N, (#, #, #, (-4297911758076491) @ (-48)));
  (173%N, ((-8100873996841253) @ (-49), (-8871297742822353) @ (-49), (-609902861438431) @ (-45), (-8205616343142647) @ (-49)));
  (174%N, ((-6529042675350997) @ (-49), (-3982632372491541) @ (-48), (-6880652495669265) @ (-49), (-897148847068159) @ (-46)));
  (175%N, (#, (-8871297742822353) @ (-49), (-4331497877621075) @ (-48), (-3172887456252975) @ (-48)));
  (176%N, ((-8978031436994227) @ (-49), (-5472278589688291) @ (-49), (-2973738073733411) @ (-48), (-8033701757752085) @ (-49)));
  (177%N, ((-4685340367941383) @ (-49), (-4852472897722079) @ (-49), (-2307411617097295) @ (-48), (-4179467385877833) @ (-49)));
  (178%N, (#, (-1925169055947837) @ (-47), (-8978031436994227) @ (-49), (-8166776809352665) @ (-49)));
  (179%N, ((-3420680487369323) @ (-48), (-491414177067389) @ (-45), (-1865749067223629) @ (-47), (-6592047412203725) @ (-49)));
  (180%N, ((-4426206392587813) @ (-48), (-8090883396801683) @ (-49), (-4331497877621075) @ (-48), (-1526817325479289) @ (-47)));
  (181%N, ((-7350896790516305) @ (-49), (-1725734743489383) @ (-47), (-7133162962201383) @ (-49), (-3164875984674615) @ (-48)));
  (182%N, (#, #, #, (-8910859197905059) @ (-49)));
  (183%N, (#, #, #, (-2061833855653683) @ (-47)));
  (184%N, (#, #, #, (-302852298247679) @ (-44)));
  (185%N, (#, #, (-7725679712283649) @ (-49), (-906660926466427) @ (-46)));
  (186%N, (#, (-3606862978324355) @ (-48), (-7143886142672895) @ (-49), (-7145732875094951) @ (-49)));
  (187%N, ((-2657379875953771) @ (-48), (-6284475237223739) @ (-49), (-846618816505503) @ (-46), (-5317026753071343) @ (-49)));
  (188%N, ((-1947521753537519) @ (-47), (-7082212487057555) @ (-49), (-2017999609788739) @ (-47), (-6484095031060651) @ (-49)));
  (189%N, ((-8359567700260433) @ (-49), (-4240545284906009) @ (-48), #, (-6901390932685021) @ (-49)));
  (190%N, ((-6250996542308241) @ (-49), (-1925169055947837) @ (-47), (-6437098842625111) @ (-49), (-1507210677576857) @ (-47)));
  (191%N, ((-609902861438431) @ (-45), (-3478296917619477) @ (-48), (-7250871180066637) @ (-49), (-472560260360877) @ (-45)));
  (192%N, ((-3423861029421265) @ (-48), (-3982632372491541) @ (-48), (-7426068281774563) @ (-49), (-5980491123522969) @ (-49)));
  (193%N, ((-8079985129473221) @ (-50), (-7897894952409029) @ (-50), (-1178610012154769) @ (-47), (-4587694848641903) @ (-49)));
  (194%N, ((-7773281289935475) @ (-49), (-8252834006088559) @ (-49), (-3921870937715749) @ (-48), (-6469181577378721) @ (-49)));
  (195%N, ((-5967207721721569) @ (-49), (-2636013062845457) @ (-48), (-5951367522086663) @ (-49), (-6094833198244625) @ (-49)));
  (196%N, (#, (-3817185134677383) @ (-48), (-7453534702421163) @ (-49), (-7795654513279065) @ (-49)));
  (197%N, ((-735353042864721) @ (-46), (-1648815554978729) @ (-47), (-7313100723111123) @ (-49), (-5500204999158685) @ (-49)));
  (198%N, ((-7022614616343179) @ (-49), #, #, (-472560260360877) @ (-45)));
  (199%N, (#, #, #, (-4650533185457697) @ (-48)));
  (200%N, (#, (-4240545284906009) @ (-48), (-609902861438431) @ (-45), (-7658507473194481) @ (-49)));
  (201%N, (#, (-1925169055947837) @ (-47), (-6880652495669265) @ (-49), (-1930728693765227) @ (-47)));
  (202%N, (#, #, #, (-1848956007451337) @ (-47)));
  (203%N, (#, #, (-4684119305002281) @ (-48), (-1749038822580415) @ (-47)));
  (204%N, (#, #, (-4684119305002281) @ (-48), (-6925694704825637) @ (-49)));
  (205%N, (#, #, (-4204275375441935) @ (-48), (-880642292618137) @ (-46)));
  (206%N, (#, (-3760701355345663) @ (-48), (-3243532115846993) @ (-48), (-6823747105641763) @ (-49)));
  (207%N, (#, #, #, (-420540146700683) @ (-45)));
  (208%N, (#, #, (-1676738964413993) @ (-47), (-6761678221831651) @ (-49)));
  (209%N, (#, #, #, (-7689790518313711) @ (-49)));
  (210%N, (#, #, #, (-8292395461171265) @ (-49)));
  (211%N, (#, #, #, (-8064138897447807) @ (-49)));
  (212%N, (#, #, #, (-7231493078902567) @ (-49)));
  (213%N, (#, #, #, (-8292395461171265) @ (-49)));
  (214%N, (#, (-7157383978315813) @ (-49), (-3043003343313501) @ (-48), (-3879055303555717) @ (-48)));
  (215%N, (#, #, #, (-8395033373076123) @ (-49)));
  (217%N, ((-985322676152685) @ (-46), #, #, (-3670651212387731) @ (-48)));
  (218%N, (#, (-8871297742822353) @ (-49), #, (-3951094144080465) @ (-48)));
  (219%N, (#, (-3638170211376633) @ (-48), (-1845768529231285) @ (-47), (-7706109050846307) @ (-49)));
  (220%N, ((-645319450350153) @ (-46), (-1314290474264215) @ (-47), (-5625193067269091) @ (-49), (-2409459516882023) @ (-48)));
  (221%N, ((-6033932195212013) @ (-49), (-6235492186600303) @ (-49), (-842869473648881) @ (-46), (-5861240576053463) @ (-49)));
  (222%N, (#, #, #, (-8910859197905059) @ (-49)));
  (223%N, (#, #, (-2078626915425975) @ (-47), (-1877995278787649) @ (-47)));
  (224%N, ((-6890919344730931) @ (-49), (-7427359621511357) @ (-49), (-8100873996841253) @ (-49), (-3510057111638175) @ (-48)));
  (225%N, ((-7567545727469403) @ (-49), #, #, (-1683626615562721) @ (-47)));
  (226%N, ((-4684119305002281) @ (-48), (-6404436052941743) @ (-49), (-1795778112687613) @ (-47), (-880642292618137) @ (-46)));
  (227%N, ((-3638841694013343) @ (-48), (-4240545284906009) @ (-48), (-3921870937715749) @ (-48), (-3323653223520611) @ (-48)));
  (228%N, ((-878374446492819) @ (-46), #, #, (-2130163006223681) @ (-47)));
  (229%N, (#, #, #, (-2130163006223681) @ (-47)));
  (230%N, (#, #, #, (-8205616343142647) @ (-49)));
  (231%N, ((-546860929579423) @ (-45), (-8871297742822353) @ (-49), (-3722114766328821) @ (-48), (-7658507473194481) @ (-49)));
  (232%N, ((-8272788582231815) @ (-49), (-7106171420012245) @ (-49), (-1709551796309617) @ (-47), (-3728098948061275) @ (-48)));
  (233%N, ((-3855333411915459) @ (-48), #, #, (-6955442377254011) @ (-49)));
  (234%N, (#, #, #, (-943539134077359) @ (-46)));
  (235%N, (#, (-8871297742822353) @ (-49), #, (-8033701757752085) @ (-49)));
  (236%N, ((-6915629578949437) @ (-49), (-1925169055947837) @ (-47), (-1975763643203379) @ (-47), (-1529256511115759) @ (-47)));
  (237%N, ((-6039993626083217) @ (-49), (-315511246044177) @ (-45), (-5397909623845719) @ (-49), (-6438744437682999) @ (-49)));
  (238%N, ((-1723595915767347) @ (-47), (-6180890394980519) @ (-49), (-6087662422977705) @ (-49), (-3002476952516553) @ (-48)));
  (239%N, (#, #, (-609902861438431) @ (-45), (-1797570806504343) @ (-47)));
  (240%N, ((-7453534702421163) @ (-49), (-8871297742822353) @ (-49), (-609902861438431) @ (-45), (-3464924667942539) @ (-48)));
  (241%N, ((-2146956065995973) @ (-47), #, (-571248877892569) @ (-45), (-7145732875094951) @ (-49)));
  (242%N, ((-823797092398745) @ (-46), #, (-6656935875530257) @ (-49), (-2915714294531605) @ (-48)));
  (243%N, (#, #, (-1746162137615165) @ (-47), (-1713930327752905) @ (-47)));
  (245%N, ((-3984680263625049) @ (-48), #, (-6976548411382209) @ (-49), (-3630371905756697) @ (-48)));
  (246%N, ((-8228204001095333) @ (-50), (-2065933948313189) @ (-48), (-5099966446728821) @ (-49), (-4798025632802971) @ (-49)));
  (247%N, ((-609902861438431) @ (-45), (-8871297742822353) @ (-49), #, (-7332707602050573) @ (-49)));
  (248%N, ((-345480181670235) @ (-45), (-3256365900473599) @ (-48), (-6072933240967935) @ (-49), (-5776697341309647) @ (-49)));
  (249%N, (#, #, #, (-4297911758076491) @ (-48)));
  (250%N, ((-5409968903650087) @ (-49), (-6547927632997723) @ (-49), (-2623294861537151) @ (-48), (-2361255808782817) @ (-48)));
  (251%N, (#, #, #, (-4170689255897351) @ (-48)));
  (252%N, (#, #, (-4684119305002281) @ (-48), (-3870118839437027) @ (-48)));
  (253%N, (#, #, #, (-4392620273043229) @ (-48)));
  (254%N, ((-1417093114680817) @ (-47), (-1725734743489383) @ (-47), (-2776060983799799) @ (-48), (-5712726164312741) @ (-49)));
  (255%N, ((-3478396877264481) @ (-48), (-7131195537680991) @ (-49), (-7756962757402879) @ (-49), (-6474727927202407) @ (-49)))].

(** prob_emit.py, characters 0x9500 to 0x95ff *)
Definition emit_95 : list (N * num4) := [
  (0%N, ((-4678854304369375) @ (-49), (-2419831484923347) @ (-48), (-4431970125175685) @ (-49), (-184209554347537) @ (-44)));
  (1%N, ((-3007700120139713) @ (-48), (-2694965706359319) @ (-48), (-5211771855562801) @ (-49), (-5572423088375787) @ (-49)));
  (2%N, ((-2011133004627089) @ (-47), #, (-6835070965687369) @ (-49), (-1664373966160355) @ (-47)));
  (3%N, ((-7492374236211145) @ (-49), (-3817185134677383) @ (-48), #, (-8033701757752085) @ (-49)));
  (4%N, ((-1667112136435627) @ (-47), (-8252834006088559) @ (-49), (-2146956065995973) @ (-47), (-1615014347841613) @ (-47)));
  (5%N, ((-1359178593589567) @ (-47), (-5571968411309977) @ (-49), (-5313920154505945) @ (-49), (-1318289032401595) @ (-47)));
  (6%N, ((-7667890561037021) @ (-49), (-8871297742822353) @ (-49), (-8462205612165291) @ (-49), (-1749038822580415) @ (-47)));
  (7%N, (#, #, #, (-7425201997121977) @ (-49)));
  (8%N, ((-3543643231182759) @ (-48), (-5957384491968179) @ (-49), (-6745617496057075) @ (-49), (-3396745883983567) @ (-48)));
  (9%N, ((-2017999609788739) @ (-47), #, (-4684119305002281) @ (-48), (-1777541578842475) @ (-47)));
  (10%N, (#, #, #, (-7358896042685395) @ (-49)));
  (11%N, ((-1487192571465177) @ (-47), (-2402882800679929) @ (-48), (-4570621351221037) @ (-49), (-733757065912933) @ (-46)));
  (12%N, ((-1998329865051197) @ (-47), (-6605226196018601) @ (-49), (-3480344808752985) @ (-48), (-5519959656011931) @ (-49)));
  (13%N, (#, #, #, (-7643494584741751) @ (-49)));
  (14%N, (#, #, #, (-2001206550016447) @ (-47)));
  (15%N, (#, (-8871297742822353) @ (-49), (-6709452313868769) @ (-49), (-6437004250969885) @ (-49)));
  (16%N, ((-746912269962565) @ (-46), (-5858469455864531) @ (-49), (-2618955158088877) @ (-48), (-6365318529074281) @ (-49)));
  (17%N, ((-4260759154773655) @ (-48), (-7427359621511357) @ (-49), (-546860929579423) @ (-45), (-3244895515983039) @ (-48)));
  (18%N, ((-2017999609788739) @ (-47), #, #, (-3728098948061275) @ (-48)));
  (19%N, (#, #, (-8462205612165291) @ (-49), (-7477852487122849) @ (-49)));
  (20%N, ((-571248877892569) @ (-45), #, #, (-3888284818171165) @ (-48)));
  (21%N, (#, #, #, (-3662121014844325) @ (-48)));
  (22%N, (#, (-8871297742822353) @ (-49), (-609902861438431) @ (-45), (-3733460538297031) @ (-48)));
  (23%N, (#, (-8871297742822353) @ (-49), (-4426206392587813) @ (-48), (-6848457339860269) @ (-49)));
  (24%N, (#, #, (-609902861438431) @ (-45), (-7643494584741751) @ (-49)));
  (25%N, ((-2333482760065245) @ (-48), (-2719826794668321) @ (-48), (-4666699726946411) @ (-49), (-2381426357351831) @ (-48)));
  (26%N, ((-7143886142672895) @ (-49), (-4240545284906009) @ (-48), (-6945265366262979) @ (-49), (-6642280074779601) @ (-49)));
  (27%N, ((-4684119305002281) @ (-48), (-8252834006088559) @ (-49), (-8233949048441833) @ (-49), (-8751970358898887) @ (-50)));
  (28%N, (#, #, (-609902861438431) @ (-45), (-369986883717853) @ (-45)));
  (29%N, (#, #, #, (-7245928484021955) @ (-49)));
  (30%N, (#, (-7427359621511357) @ (-49), (-571248877892569) @ (-45), (-7332707602050573) @ (-49)));
  (31%N, (#, (-1925169055947837) @ (-47), (-6714478686130389) @ (-49), (-976926146266539) @ (-46)));
  (32%N, (#, #, (-609902861438431) @ (-45), (-4227173035229071) @ (-48)));
  (33%N, ((-5711729167830771) @ (-49), (-1127873132344535) @ (-47), (-1434014487908025) @ (-47), (-1419684676969183) @ (-47)));
  (34%N, ((-4331497877621075) @ (-48), #, (-6787131381448733) @ (-49), (-6790228280836765) @ (-49)));
  (35%N, ((-6271305556619797) @ (-49), (-2923948657522579) @ (-48), (-6411471528329717) @ (-49), (-6324036692306445) @ (-49)));
  (36%N, ((-1689779535490071) @ (-47), (-5866530929470017) @ (-49), (-190579533306429) @ (-44), (-3022098421302447) @ (-48)));
  (37%N, ((-404505981231041) @ (-45), (-2653990826944223) @ (-48), (-3350997957043395) @ (-48), (-6006569257514267) @ (-49)));
  (38%N, ((-5101834088966133) @ (-49), (-2257090406485323) @ (-48), (-5798933635296641) @ (-49), (-338839118323295) @ (-45)));
  (39%N, (#, #, #, (-271331332318175) @ (-44)));
  (40%N, (#, #, (-3695707134388909) @ (-48), (-3535663390789959) @ (-48)));
  (41%N, (#, #, #, (-3733460538297031) @ (-48)));
  (42%N, (#, #, #, (-1969801887061797) @ (-47)));
  (43%N, (#, #, #, (-8292395461171265) @ (-49)));
  (44%N, (#, #, (-609902861438431) @ (-45), (-1969801887061797) @ (-47)));
  (45%N, ((-483818997720415) @ (-45), (-4240545284906009) @ (-48), (-6207302059190055) @ (-49), (-1607953933851967) @ (-47)));
  (46%N, ((-3154048626372215) @ (-48), (-2659564771001225) @ (-48), (-4826749148642123) @ (-49), (-5925363946934187) @ (-49)));
  (47%N, ((-6478699293932513) @ (-49), (-6838531672091105) @ (-49), (-1800199549239177) @ (-47), (-3166315757515667) @ (-48)));
  (48%N, ((-6980583912200295) @ (-49), (-3095216074021885) @ (-48), (-7556172614326021) @ (-49), (-5805374841562999) @ (-49)));
  (49%N, ((-8197617090973557) @ (-49), (-4240545284906009) @ (-48), #, (-2130163006223681) @ (-47)));
  (50%N, ((-7399879841139741) @ (-49), #, (-571248877892569) @ (-45), (-7795654513279065) @ (-49)));
  (51%N, (#, #, #, (-302852298247679) @ (-44)));
  (52%N, (#, (-3606862978324355) @ (-48), (-1797236545307357) @ (-47), (-4297911758076491) @ (-48)));
  (53%N, (#, (-105327943197979) @ (-43), (-6915629578949437) @ (-49), (-7245928484021955) @ (-49)));
  (54%N, ((-571248877892569) @ (-45), #, (-2011133004627089) @ (-47), (-1749038822580415) @ (-47)));
  (55%N, (#, (-491414177067389) @ (-45), (-406948109194601) @ (-45), (-1893476528496951) @ (-47)));
  (56%N, (#, #, #, (-3728098948061275) @ (-48)));
  (57%N, (#, (-8871297742822353) @ (-49), (-7298665317991735) @ (-49), (-1713019402318041) @ (-47)));
  (58%N, ((-609902861438431) @ (-45), (-7346801008249289) @ (-49), (-2017999609788739) @ (-47), (-6175028031233341) @ (-49)));
  (59%N, ((-685257136158993) @ (-46), (-7575057571972747) @ (-49), (-1998329865051197) @ (-47), (-6761678221831651) @ (-49)));
  (60%N, (#, #, #, (-3951094144080465) @ (-48)));
  (61%N, (#, #, #, (-302852298247679) @ (-44)));
  (62%N, (#, #, (-546860929579423) @ (-45), (-440002733528793) @ (-45)));
  (63%N, (#, #, #, (-976926146266539) @ (-46)));
  (64%N, ((-6863946523373667) @ (-49), (-8871297742822353) @ (-49), (-1865749067223629) @ (-47), (-1729369077842873) @ (-47)));
  (65%N, ((-7492374236211145) @ (-49), (-6425952682918579) @ (-49), (-1762356706075807) @ (-47), (-1525373851406443) @ (-47)));
  (66%N, ((-6835070965687369) @ (-49), (-8871297742822353) @ (-49), (-2011133004627089) @ (-47), (-3196775173732053) @ (-48)));
  (67%N, (#, #, #, (-1930728693765227) @ (-47)));
  (68%N, (#, #, #, (-7926147221115621) @ (-49)));
  (69%N, (#, #, #, (-225115232174701) @ (-44)));
  (70%N, (#, #, #, (-3767970024052643) @ (-48)));
  (71%N, ((-4728720520490363) @ (-49), (-35357921550241) @ (-42), (-8818546329276505) @ (-50), (-4450818625824849) @ (-49)));
  (72%N, (#, #, #, (-8292395461171265) @ (-49)));
  (73%N, (#, #, (-8131311136536975) @ (-49), (-6649836563450353) @ (-49)));
  (74%N, ((-3761685067605859) @ (-48), #, #, (-3951094144080465) @ (-48)));
  (75%N, (#, #, #, (-4650533185457697) @ (-48)));
  (76%N, ((-1795778112687613) @ (-47), (-4240545284906009) @ (-48), (-609902861438431) @ (-45), (-6991483479663675) @ (-49)));
  (77%N, ((-7756962757402879) @ (-49), #, (-7773281289935475) @ (-49), (-5888769480739577) @ (-49)));
  (78%N, (#, #, #, (-976926146266539) @ (-46)));
  (79%N, ((-1746162137615165) @ (-47), (-8871297742822353) @ (-49), #, (-3246810319127279) @ (-48)));
  (80%N, ((-8462205612165291) @ (-49), (-3460130938885339) @ (-48), (-6887476215016351) @ (-49), (-3089704493416357) @ (-48)));
  (81%N, (#, #, (-2990035920121041) @ (-48), (-5218922050284141) @ (-49)));
  (82%N, (#, (-3817185134677383) @ (-48), (-2078626915425975) @ (-47), (-3702723670134365) @ (-48)));
  (83%N, (#, (-8090883396801683) @ (-49), (-3704237331932315) @ (-48), (-7350030505863719) @ (-49)));
  (84%N, ((-3695707134388909) @ (-48), #, (-1975763643203379) @ (-47), (-4650533185457697) @ (-48)));
  (85%N, (#, (-6069645714336419) @ (-49), #, (-3879055303555717) @ (-48)));
  (86%N, ((-6055439038073985) @ (-49), (-1539430114996847) @ (-47), (-6411471528329717) @ (-49), (-5848881134436777) @ (-49)));
  (87%N, ((-1975763643203379) @ (-47), #, (-8131311136536975) @ (-49), (-844440712760577) @ (-46)));
  (88%N, (#, (-8871297742822353) @ (-49), #, (-8910859197905059) @ (-49)));
  (90%N, (#, (-8871297742822353) @ (-49), #, #));
  (91%N, (#, #, (-7453534702421163) @ (-49), (-4297911758076491) @ (-48)));
  (92%N, ((-1368061727260891) @ (-47), (-2620447879384093) @ (-48), (-4889831163920947) @ (-49), (-5550415727622485) @ (-49)));
  (93%N, (#, (-8871297742822353) @ (-49), (-7862826752368233) @ (-49), (-4297911758076491) @ (-48)));
  (94%N, (#, (-3760701355345663) @ (-48), (-1947521753537519) @ (-47), (-1604552257962345) @ (-47)));
  (95%N, (#, #, #, (-7283724551427137) @ (-49)));
  (96%N, (#, #, (-609902861438431) @ (-45), (-7029990791577139) @ (-49)));
  (97%N, (#, #, #, (-70881326618687) @ (-42)));
  (98%N, ((-3695707134388909) @ (-48), #, #, (-7926147221115621) @ (-49)));
  (99%N, ((-3736309789678949) @ (-48), #, (-1870602565026865) @ (-47), (-7005616856795013) @ (-49)));
  (100%N, (#, #, #, (-4297911758076491) @ (-48)));
  (101%N, (#, #, #, (-2130163006223681) @ (-47)));
  (102%N, (#, #, (-4426206392587813) @ (-48), (-6946781437909935) @ (-49)));
  (103%N, ((-8233949048441833) @ (-49), #, #, (-7643494584741751) @ (-49)));
  (104%N, (#, #, #, (-4297911758076491) @ (-48)));
  (105%N, (#, #, (-4426206392587813) @ (-48), #));
  (106%N, (#, (-8871297742822353) @ (-49), (-4081744231472905) @ (-48), (-4227173035229071) @ (-48)));
  (107%N, (#, #, (-3645792046567143) @ (-48), (-869977916606673) @ (-46)));
  (108%N, (#, #, #, (-7025030848007957) @ (-49)));
  (109%N, ((-2146956065995973) @ (-47), (-8871297742822353) @ (-49), (-8131311136536975) @ (-49), (-440002733528793) @ (-45)));
  (111%N, ((-1765831882352707) @ (-47), (-1925169055947837) @ (-47), (-1709551796309617) @ (-47), (-7275959601375213) @ (-49)));
  (112%N, ((-3420680487369323) @ (-48), (-491414177067389) @ (-45), (-3912641423100301) @ (-48), (-3365783384564963) @ (-48)));
  (113%N, (#, #, #, (-271331332318175) @ (-44)));
  (114%N, (#, #, (-609902861438431) @ (-45), (-271331332318175) @ (-44)));
  (115%N, (#, (-3887923857524803) @ (-48), (-206992078249649) @ (-44), (-7358896042685395) @ (-49)));
  (116%N, (#, #, #, (-271331332318175) @ (-44)));
  (117%N, (#, #, #, (-70881326618687) @ (-42)));
  (118%N, ((-6248784555362411) @ (-49), (-874429171128617) @ (-46), (-1910269588269243) @ (-47), (-3026895167507057) @ (-48)));
  (119%N, ((-2146956065995973) @ (-47), (-3817185134677383) @ (-48), (-6144141515752039) @ (-50), (-7443915234669399) @ (-50)));
  (122%N, (#, #, #, (-3951094144080465) @ (-48)));
  (127%N, ((-422408835509405) @ (-46), (-6883172271572835) @ (-50), (-6144141515752039) @ (-50), (-7443915234669399) @ (-50)));
  (128%N, ((-1998472725600329) @ (-48), (-1606409777298969) @ (-48), (-6255539995787969) @ (-50), (-1893476528496951) @ (-47)));
  (130%N, (#, #, (-3403802272520385) @ (-48), (-6834204681034783) @ (-49)));
  (131%N, ((-1225754720533229) @ (-47), (-5299022049065311) @ (-49), (-716399422204035) @ (-46), (-2601005325382947) @ (-48)));
  (134%N, ((-359204249908455) @ (-45), (-7575057571972747) @ (-49), (-609902861438431) @ (-45), (-7115940211661285) @ (-49)));
  (136%N, (#, #, #, (-8033701757752085) @ (-49)));
  (137%N, ((-2403273595245659) @ (-48), (-43251861075093) @ (-42), (-4885895123041675) @ (-49), (-4650533185457697) @ (-48)));
  (139%N, ((-6427134391423175) @ (-50), (-1900197020723115) @ (-48), (-1809288480118229) @ (-48), (-7857405583889273) @ (-50)));
  (140%N, (#, #, #, (-1809666128217651) @ (-47)));
  (141%N, (#, #, #, (-302852298247679) @ (-44)));
  (142%N, (#, (-8252834006088559) @ (-49), (-483818997720415) @ (-45), (-421091349181405) @ (-45)));
  (143%N, ((-903159767337213) @ (-46), (-7082212487057555) @ (-49), (-7374855723470995) @ (-49), (-4227173035229071) @ (-48)));
  (145%N, (#, #, #, (-6938251729979339) @ (-49)));
  (146%N, ((-2566675769892415) @ (-48), (-2659564771001225) @ (-48), (-2716407456616921) @ (-48), (-1383090742973715) @ (-47)));
  (147%N, ((-2492867771812727) @ (-48), (-1132898897370353) @ (-47), (-3175832766497171) @ (-49), (-8044333074307641) @ (-50)));
  (148%N, ((-2971484974410947) @ (-48), (-7131195537680991) @ (-49), (-7250871180066637) @ (-49), (-834472943762735) @ (-46)));
  (152%N, ((-3172494649417) @ (-38), (-6425952682918579) @ (-49), (-6367546241121769) @ (-49), (-4650533185457697) @ (-48)));
  (154%N, (#, #, #, (-8910859197905059) @ (-49)));
  (155%N, (#, #, #, (-302852298247679) @ (-44)));
  (156%N, (#, #, #, (-4650533185457697) @ (-48)));
  (159%N, (#, #, #, (-4392620273043229) @ (-48)));
  (161%N, (#, (-4240545284906009) @ (-48), (-6890919344730931) @ (-49), (-1930728693765227) @ (-47)));
  (162%N, ((-4260759154773655) @ (-48), #, #, #));
  (163%N, ((-727780678110475) @ (-46), (-2747098342348531) @ (-48), (-4834571727677797) @ (-49), (-1327720495560925) @ (-47)));
  (164%N, ((-609902861438431) @ (-45), #, #, (-2061833855653683) @ (-47)));
  (165%N, ((-7284590836079723) @ (-49), #, (-2560876615416253) @ (-48), (-3365783384564963) @ (-48)));
  (166%N, (#, #, #, (-4650533185457697) @ (-48)));
  (168%N, ((-6094334500526615) @ (-49), (-1648815554978729) @ (-47), (-3984680263625049) @ (-48), (-13119324708823) @ (-40)));
  (169%N, ((-3059603049282337) @ (-48), (-6680397687276859) @ (-49), (-3632058836243843) @ (-48), (-2947684602040605) @ (-48)));
  (170%N, (#, #, #, (-302852298247679) @ (-44)));
  (171%N, (#, #, #, (-3888284818171165) @ (-48)));
  (172%N, ((-238379262651975) @ (-44), (-8252834006088559) @ (-49), (-571248877892569) @ (-45), (-5966759956122845) @ (-49)));
  (173%N, ((-7350896790516305) @ (-49), (-1796212599740603) @ (-47), (-230211112012267) @ (-44), (-2966914759648055) @ (-48)));
  (174%N, (#, #, #, (-5876439248210613) @ (-49)));
  (175%N, (#, #, #, (-2130163006223681) @ (-47)));
  (176%N, (#, #, #, (-1729369077842873) @ (-47)));
  (177%N, ((-4847519921049147) @ (-49), (-3478296917619477) @ (-48), (-350808188774995) @ (-45), (-7367903434101099) @ (-49)));
  (178%N, (#, #, #, (-5712246445533459) @ (-49)));
  (180%N, (#, #, #, (-4297911758076491) @ (-48)));
  (182%N, (#, (-8871297742822353) @ (-49), #, (-6743418784857205) @ (-49)));
  (185%N, ((-3210191925468019) @ (-48), #, #, (-6629907050266015) @ (-49)));
  (186%N, (#, #, #, (-70881326618687) @ (-42)));
  (187%N, ((-171779855065417) @ (-44), (-6210014990473763) @ (-49), (-546860929579423) @ (-45), (-6461870436261829) @ (-49)));
  (188%N, ((-1998329865051197) @ (-47), #, #, (-7600718321947853) @ (-49)));
  (189%N, (#, #, #, (-1777541578842475) @ (-47)));
  (190%N, ((-1839692586196131) @ (-47), #, (-8359567700260433) @ (-49), (-1828975469458993) @ (-47)));
  (191%N, (#, #, #, (-3422430101659097) @ (-48)));
  (192%N, (#, #, #, (-745656842680861) @ (-46)));
  (194%N, (#, #, #, (-5822609349371657) @ (-49)));
  (195%N, ((-2146956065995973) @ (-47), #, #, (-7358896042685395) @ (-49)));
  (196%N, (#, #, #, (-1455798254917785) @ (-47)));
  (197%N, (#, #, #, (-1636483042981505) @ (-47)));
  (198%N, (#, #, #, (-405138068737789) @ (-45)));
  (199%N, (#, #, #, (-6934034856678315) @ (-49)));
  (200%N, (#, (-8090883396801683) @ (-49), (-7374855723470995) @ (-49), (-7350030505863719) @ (-49)));
  (201%N, (#, #, #, (-7795654513279065) @ (-49)));
  (202%N, ((-5669554713172675) @ (-49), (-2795775626869985) @ (-48), (-1265193309525677) @ (-47), (-6350225132941267) @ (-49)));
  (203%N, (#, #, (-1975763643203379) @ (-47), (-302852298247679) @ (-44)));
  (204%N, ((-7149325314970619) @ (-49), (-1796212599740603) @ (-47), (-4204275375441935) @ (-48), (-6946781437909935) @ (-49)));
  (208%N, (#, (-1673001328511805) @ (-47), (-6659219651292893) @ (-49), (-1828975469458993) @ (-47)));
  (210%N, (#, #, #, (-2130163006223681) @ (-47)));
  (211%N, (#, #, (-8978031436994227) @ (-49), (-7139646870377641) @ (-49)));
  (212%N, ((-8197617090973557) @ (-49), #, (-483818997720415) @ (-45), (-6452863044846125) @ (-49)));
  (213%N, ((-5963870723489121) @ (-49), (-3606862978324355) @ (-48), (-1605470763190823) @ (-47), (-2765659430199549) @ (-48)));
  (214%N, ((-4861711519084571) @ (-49), (-2757050514554025) @ (-48), (-6356745910751309) @ (-49), (-1299778081607409) @ (-47)));
  (216%N, (#, #, #, (-302852298247679) @ (-44)));
  (218%N, (#, #, #, (-302852298247679) @ (-44)));
  (220%N, ((-3407548468253633) @ (-49), (-501756777706807) @ (-46), (-863687685628967) @ (-47), (-70881326618687) @ (-42)));
  (222%N, ((-1826459187989943) @ (-47), #, #, (-4297911758076491) @ (-48)));
  (223%N, (#, #, #, (-6569616159843049) @ (-49)));
  (224%N, (#, #, #, (-4650533185457697) @ (-48)));
  (225%N, ((-1312581016204297) @ (-47), (-491414177067389) @ (-45), (-3903704958981611) @ (-48), (-7015240167258395) @ (-49)));
  (226%N, ((-383847879079333) @ (-45), (-5973515966863759) @ (-49), (-2642747862386571) @ (-48), (-5525094534605845) @ (-49)));
  (228%N, (#, #, #, (-70881326618687) @ (-42)));
  (229%N, (#, #, (-8462205612165291) @ (-49), (-1848956007451337) @ (-47)));
  (232%N, ((-1998472725600329) @ (-48), (-1606409777298969) @ (-48), (-6255539995787969) @ (-50), (-1864197547909719) @ (-48)));
  (233%N, (#, #, (-3403802272520385) @ (-48), (-6834204681034783) @ (-49)));
  (234%N, ((-1225754720533229) @ (-47), (-5299022049065311) @ (-49), (-716399422204035) @ (-46), (-2601005325382947) @ (-48)));
  (235%N, ((-359204249908455) @ (-45), (-7575057571972747) @ (-49), (-609902861438431) @ (-45), (-7115940211661285) @ (-49)));
  (236%N, (#, #, #, (-8033701757752085) @ (-49)));
  (237%N, ((-2403273595245659) @ (-48), (-43251861075093) @ (-42), (-4885895123041675) @ (-49), (-5276905467347417) @ (-49)));
  (238%N, ((-6992106592474281) @ (-50), (-2403706429582773) @ (-48), (-8525553188413485) @ (-50), (-238281798304807) @ (-45)));
  (239%N, ((-4861711519084571) @ (-49), (-2757050514554025) @ (-48), (-6356745910751309) @ (-49), (-1299778081607409) @ (-47)));
  (240%N, ((-903159767337213) @ (-46), (-7082212487057555) @ (-49), (-7374855723470995) @ (-49), (-6837734159388757) @ (-49)));
  (241%N, (#, (-8090883396801683) @ (-49), (-7374855723470995) @ (-49), (-7350030505863719) @ (-49)));
  (242%N, ((-2566675769892415) @ (-48), (-2659564771001225) @ (-48), (-2716407456616921) @ (-48), (-1383090742973715) @ (-47)));
  (243%N, (#, (-8252834006088559) @ (-49), (-483818997720415) @ (-45), (-421091349181405) @ (-45)));
  (244%N, ((-2492867771812727) @ (-48), (-1132898897370353) @ (-47), (-3175832766497171) @ (-49), (-8044333074307641) @ (-50)));
  (245%N, ((-2971484974410947) @ (-48), (-7131195537680991) @ (-49), (-7250871180066637) @ (-49), (-834472943762735) @ (-46)));
  (246%N, (#, #, #, (-1809666128217651) @ (-47)));
  (247%N, ((-6071320202748511) @ (-49), (-375889304995713) @ (-45), (-2759430244828247) @ (-48), (-22225343111549) @ (-41)));
  (248%N, ((-3172494649417) @ (-38), (-6425952682918579) @ (-49), (-6367546241121769) @ (-49), (-5715613093477633) @ (-49)));
  (249%N, ((-5530449251127899) @ (-49), (-1328762544165803) @ (-47), (-5141939338410381) @ (-49), (-2480555801862643) @ (-48)));
  (250%N, ((-6094334500526615) @ (-49), (-1648815554978729) @ (-47), (-3984680263625049) @ (-48), (-13119324708823) @ (-40)));
  (251%N, ((-4924237583111639) @ (-49), (-8367770962154479) @ (-50), (-1073963670870323) @ (-47), (-4925988482224947) @ (-49)));
  (252%N, (#, #, (-8462205612165291) @ (-49), (-1848956007451337) @ (-47)));
  (253%N, ((-3059603049282337) @ (-48), (-6680397687276859) @ (-49), (-3632058836243843) @ (-48), (-2947684602040605) @ (-48)));
  (254%N, ((-7350896790516305) @ (-49), (-1796212599740603) @ (-47), (-230211112012267) @ (-44), (-6859388750389055) @ (-49)));
  (255%N, (#, #, (-8978031436994227) @ (-49), (-7139646870377641) @ (-49)))].

(** prob_emit.py, characters 0x9600 to 0x96ff *)
Definition emit_96 : list (N * num4) := [
  (0%N, ((-7284590836079723) @ (-49), #, (-2560876615416253) @ (-48), (-3365783384564963) @ (-48)));
  (1%N, ((-727780678110475) @ (-46), (-2747098342348531) @ (-48), (-4834571727677797) @ (-49), (-1327720495560925) @ (-47)));
  (2%N, (#, (-4240545284906009) @ (-48), (-6890919344730931) @ (-49), (-1930728693765227) @ (-47)));
  (3%N, (#, #, #, (-3888284818171165) @ (-48)));
  (4%N, (#, (-8871297742822353) @ (-49), (-6146146643457553) @ (-49), (-1877995278787649) @ (-47)));
  (5%N, ((-4847519921049147) @ (-49), (-3478296917619477) @ (-48), (-350808188774995) @ (-45), (-5991407392644435) @ (-49)));
  (6%N, ((-238379262651975) @ (-44), (-8252834006088559) @ (-49), (-571248877892569) @ (-45), (-7332707602050573) @ (-49)));
  (7%N, ((-609902861438431) @ (-45), #, #, (-1777541578842475) @ (-47)));
  (8%N, ((-1839692586196131) @ (-47), #, (-8359567700260433) @ (-49), (-7121773942140261) @ (-49)));
  (9%N, ((-3210191925468019) @ (-48), #, #, (-6629907050266015) @ (-49)));
  (10%N, (#, (-8871297742822353) @ (-49), #, (-6743418784857205) @ (-49)));
  (11%N, ((-7773281289935475) @ (-49), (-7575057571972747) @ (-49), (-571248877892569) @ (-45), (-7350030505863719) @ (-49)));
  (12%N, (#, #, #, (-456223959081461) @ (-45)));
  (13%N, (#, #, #, (-3767970024052643) @ (-48)));
  (14%N, ((-171779855065417) @ (-44), (-6210014990473763) @ (-49), (-546860929579423) @ (-45), (-6461870436261829) @ (-49)));
  (15%N, ((-1998329865051197) @ (-47), #, #, (-7600718321947853) @ (-49)));
  (16%N, ((-1312581016204297) @ (-47), (-491414177067389) @ (-45), (-3903704958981611) @ (-48), (-7015240167258395) @ (-49)));
  (17%N, ((-7149325314970619) @ (-49), (-1796212599740603) @ (-47), (-4204275375441935) @ (-48), (-6946781437909935) @ (-49)));
  (18%N, ((-2146956065995973) @ (-47), #, #, (-7358896042685395) @ (-49)));
  (19%N, (#, #, #, (-4650533185457697) @ (-48)));
  (20%N, ((-5669554713172675) @ (-49), (-2795775626869985) @ (-48), (-1265193309525677) @ (-47), (-5424006264169127) @ (-49)));
  (21%N, (#, #, (-1975763643203379) @ (-47), (-3598472716699259) @ (-48)));
  (22%N, ((-8197617090973557) @ (-49), #, (-483818997720415) @ (-45), (-6452863044846125) @ (-49)));
  (23%N, (#, (-1673001328511805) @ (-47), (-6659219651292893) @ (-49), (-1828975469458993) @ (-47)));
  (24%N, (#, #, #, (-2130163006223681) @ (-47)));
  (25%N, ((-5963870723489121) @ (-49), (-3606862978324355) @ (-48), (-1605470763190823) @ (-47), (-2765659430199549) @ (-48)));
  (26%N, ((-1826459187989943) @ (-47), #, #, (-4297911758076491) @ (-48)));
  (27%N, (#, #, #, (-70881326618687) @ (-42)));
  (28%N, ((-6259932443476415) @ (-49), (-3383588402652739) @ (-48), (-6945265366262979) @ (-49), (-192732576571671) @ (-44)));
  (29%N, (#, #, #, (-8205616343142647) @ (-49)));
  (31%N, ((-8784581204980509) @ (-50), (-2339293253312933) @ (-48), (-440490843217161) @ (-46), (-1089848729840833) @ (-47)));
  (32%N, (#, #, #, (-8910859197905059) @ (-49)));
  (33%N, ((-3912641423100301) @ (-48), (-6680397687276859) @ (-49), (-4684119305002281) @ (-48), (-3634150150092073) @ (-48)));
  (34%N, (#, #, #, (-302852298247679) @ (-44)));
  (40%N, (#, #, #, (-4650533185457697) @ (-48)));
  (42%N, ((-1986594946834089) @ (-47), (-1796212599740603) @ (-47), (-3199181070067851) @ (-48), (-7643494584741751) @ (-49)));
  (44%N, (#, #, #, (-3722837580357007) @ (-48)));
  (46%N, ((-167169180153259) @ (-44), (-1764807936785953) @ (-47), (-2017999609788739) @ (-47), (-6285576377091545) @ (-49)));
  (47%N, (#, #, #, (-1969801887061797) @ (-47)));
  (49%N, (#, #, (-3093579294056553) @ (-48), (-4048158111928321) @ (-48)));
  (50%N, ((-4120661979056287) @ (-49), (-253696215684133) @ (-45), (-569224070600783) @ (-46), (-2590081186607557) @ (-48)));
  (51%N, ((-4620547166213713) @ (-49), (-864933560561579) @ (-47), (-7460078828960111) @ (-50), (-1278159035897151) @ (-47)));
  (52%N, ((-569394150308895) @ (-46), (-5103989511686727) @ (-49), (-5725502330751497) @ (-49), (-2666833439708205) @ (-48)));
  (53%N, ((-4785566299141953) @ (-49), (-4645771648047173) @ (-49), (-8922161545138447) @ (-50), (-1278200362424641) @ (-47)));
  (54%N, ((-2128903206924989) @ (-48), (-1839532935505875) @ (-48), (-5355703773955565) @ (-49), (-1407778177205669) @ (-47)));
  (58%N, (#, #, #, (-302852298247679) @ (-44)));
  (59%N, ((-4809964196147189) @ (-49), (-5980100251903661) @ (-49), (-5445389469427999) @ (-49), (-686748513748395) @ (-46)));
  (60%N, (#, #, #, (-8910859197905059) @ (-49)));
  (61%N, (#, #, #, (-4650533185457697) @ (-48)));
  (63%N, ((-7865306891908901) @ (-50), (-4536162130592665) @ (-49), (-6253217255063427) @ (-49), (-2357397677832421) @ (-48)));
  (64%N, ((-3197744970132655) @ (-48), (-2620002859565369) @ (-48), (-2860148912849963) @ (-48), (-5725344536380187) @ (-49)));
  (65%N, (#, #, #, (-4650533185457697) @ (-48)));
  (66%N, ((-2078626915425975) @ (-47), (-89567460233227) @ (-43), (-2853535706587959) @ (-48), (-3702723670134365) @ (-48)));
  (68%N, ((-8837031921485805) @ (-50), (-5461631464692351) @ (-49), (-5751358892258993) @ (-49), (-2625479240347945) @ (-48)));
  (69%N, ((-222100499235933) @ (-44), (-1753368053525691) @ (-48), (-7501238621006779) @ (-50), (-5733252655234275) @ (-49)));
  (70%N, ((-8452508440624275) @ (-50), (-8629479282256037) @ (-50), (-4394744081873541) @ (-49), (-5373206164636975) @ (-49)));
  (71%N, ((-791327281750227) @ (-46), (-3172210053778219) @ (-48), (-7426068281774563) @ (-49), (-3281528722710867) @ (-48)));
  (72%N, ((-7173227168670747) @ (-50), (-5043142319614629) @ (-49), (-3023060516503943) @ (-48), (-4831115520372013) @ (-49)));
  (73%N, (#, (-7015906532620973) @ (-49), (-3767046657841615) @ (-48), (-976926146266539) @ (-46)));
  (75%N, ((-7133162962201383) @ (-49), (-398981976780441) @ (-45), (-746912269962565) @ (-46), (-6986850120558139) @ (-49)));
  (76%N, ((-1440720247038953) @ (-47), (-8871297742822353) @ (-49), (-7579153354239763) @ (-49), (-1706802855995055) @ (-47)));
  (77%N, ((-8875646933436981) @ (-50), (-1275822873884005) @ (-47), (-8977924594093825) @ (-50), (-4792570101836655) @ (-49)));
  (80%N, ((-145110406451365) @ (-44), (-7662129707572871) @ (-50), (-2283218122656005) @ (-48), (-2648820478089393) @ (-48)));
  (84%N, (#, #, #, (-2130163006223681) @ (-47)));
  (85%N, ((-152912455418799) @ (-44), (-7015906532620973) @ (-49), (-405758969615715) @ (-45), (-6067141552568647) @ (-49)));
  (87%N, (#, #, #, (-7835882333724349) @ (-49)));
  (88%N, (#, (-7015906532620973) @ (-49), (-3767046657841615) @ (-48), (-976926146266539) @ (-46)));
  (89%N, (#, #, #, (-767516227512611) @ (-46)));
  (91%N, ((-5394511036831873) @ (-49), (-3817185134677383) @ (-48), #, (-1625339725946889) @ (-47)));
  (92%N, (#, #, #, (-302852298247679) @ (-44)));
  (93%N, ((-152912455418799) @ (-44), (-7015906532620973) @ (-49), (-405758969615715) @ (-45), (-6067141552568647) @ (-49)));
  (94%N, (#, #, #, (-4392620273043229) @ (-48)));
  (95%N, ((-4684119305002281) @ (-48), (-874429171128617) @ (-46), (-2078626915425975) @ (-47), (-3888284818171165) @ (-48)));
  (97%N, ((-5706228673567305) @ (-49), #, (-609902861438431) @ (-45), (-743894052888657) @ (-46)));
  (98%N, ((-8512981094442733) @ (-50), (-8038026547073711) @ (-50), (-6462732354271389) @ (-50), (-2355285894908563) @ (-48)));
  (99%N, ((-4785566299141953) @ (-49), (-4645771648047173) @ (-49), (-8922161545138447) @ (-50), (-1278200362424641) @ (-47)));
  (100%N, ((-8908231953020407) @ (-50), (-5506911276803665) @ (-49), (-8706940220233231) @ (-50), (-8461428892126305) @ (-50)));
  (103%N, (#, #, #, (-8395033373076123) @ (-49)));
  (104%N, ((-6295964241005071) @ (-49), (-8871297742822353) @ (-49), #, (-3471250214520119) @ (-48)));
  (105%N, ((-5350308046193893) @ (-49), (-2284874860330507) @ (-48), (-2172126800336863) @ (-48), (-5493012741645985) @ (-49)));
  (106%N, ((-1349660142392671) @ (-47), (-3736209830033945) @ (-48), (-6324271513120055) @ (-49), (-1268267459757099) @ (-47)));
  (108%N, (#, #, #, (-7795654513279065) @ (-49)));
  (111%N, (#, #, #, (-8910859197905059) @ (-49)));
  (112%N, ((-569394150308895) @ (-46), (-5103989511686727) @ (-49), (-5725502330751497) @ (-49), (-2666833439708205) @ (-48)));
  (114%N, (#, #, (-6364826670840329) @ (-49), (-8064138897447807) @ (-49)));
  (115%N, ((-7492374236211145) @ (-49), (-5043142319614629) @ (-49), (-3023060516503943) @ (-48), (-4831115520372013) @ (-49)));
  (116%N, (#, #, #, (-4650533185457697) @ (-48)));
  (117%N, ((-713595085827727) @ (-46), (-8691308928617695) @ (-50), (-8857914477304415) @ (-50), (-5211978086163669) @ (-49)));
  (118%N, ((-1205588113435581) @ (-47), (-1337405887050481) @ (-47), (-2725089148765739) @ (-48), (-747080399202135) @ (-46)));
  (119%N, ((-5101690203993229) @ (-49), (-1445325126387491) @ (-47), (-2604838252961281) @ (-48), (-5646260258190633) @ (-49)));
  (120%N, ((-8452508440624275) @ (-50), (-8629479282256037) @ (-50), (-4394744081873541) @ (-49), (-5373206164636975) @ (-49)));
  (124%N, (#, #, #, (-239810366388671) @ (-44)));
  (125%N, ((-4620547166213713) @ (-49), (-864933560561579) @ (-47), (-7460078828960111) @ (-50), (-976926146266539) @ (-46)));
  (129%N, (#, #, #, (-302852298247679) @ (-44)));
  (133%N, (#, (-48594280744979) @ (-42), (-6017592131251313) @ (-49), (-389449860913061) @ (-45)));
  (134%N, ((-5004545940777933) @ (-49), (-4816140940253803) @ (-49), (-4868230606248615) @ (-49), (-5543622346285775) @ (-49)));
  (136%N, (#, #, #, (-8395033373076123) @ (-49)));
  (137%N, (#, #, #, (-8395033373076123) @ (-49)));
  (138%N, ((-8784581204980509) @ (-50), (-2339293253312933) @ (-48), (-440490843217161) @ (-46), (-1089848729840833) @ (-47)));
  (139%N, ((-1347843368174879) @ (-47), #, (-4260759154773655) @ (-48), (-2885939455004617) @ (-48)));
  (141%N, ((-571248877892569) @ (-45), (-101243867878125) @ (-43), (-7231568147748981) @ (-49), (-2001206550016447) @ (-47)));
  (142%N, ((-2128903206924989) @ (-48), (-1839532935505875) @ (-48), (-5355703773955565) @ (-49), (-1407778177205669) @ (-47)));
  (143%N, ((-1920518148340397) @ (-48), (-5244470056194149) @ (-49), (-5184288774416535) @ (-49), (-4563378249721583) @ (-49)));
  (144%N, ((-1151452037394573) @ (-47), (-633190325921023) @ (-46), (-169905478166881) @ (-44), (-2763753467396079) @ (-48)));
  (145%N, (#, #, #, (-302852298247679) @ (-44)));
  (147%N, (#, #, #, (-4650533185457697) @ (-48)));
  (148%N, ((-1302549903155705) @ (-47), (-5765247891753263) @ (-49), (-5557915671774499) @ (-49), (-5042340864202541) @ (-49)));
  (149%N, ((-6295964241005071) @ (-49), (-8871297742822353) @ (-49), #, (-3471250214520119) @ (-48)));
  (151%N, ((-6493846843300471) @ (-49), (-8090883396801683) @ (-49), (-8018343577873535) @ (-49), (-7926147221115621) @ (-49)));
  (152%N, ((-3582982720657843) @ (-48), (-3887923857524803) @ (-48), (-3204265917604379) @ (-48), (-6440490020332539) @ (-49)));
  (153%N, ((-7862826752368233) @ (-49), (-804163951328505) @ (-46), (-5564751227872465) @ (-49), (-6234825821237725) @ (-49)));
  (155%N, ((-222100499235933) @ (-44), (-1753368053525691) @ (-48), (-7501238621006779) @ (-50), (-5733252655234275) @ (-49)));
  (156%N, ((-2672149517649327) @ (-48), (-5620514219229163) @ (-49), (-2354521298202685) @ (-48), (-6541731033373189) @ (-49)));
  (158%N, (#, #, #, (-271331332318175) @ (-44)));
  (160%N, (#, #, #, (-302852298247679) @ (-44)));
  (162%N, (#, #, #, (-302852298247679) @ (-44)));
  (164%N, (#, #, #, (-302852298247679) @ (-44)));
  (165%N, (#, #, #, (-302852298247679) @ (-44)));
  (167%N, ((-5727685156105287) @ (-49), (-7346801008249289) @ (-49), (-4331497877621075) @ (-48), (-1822899526423839) @ (-47)));
  (168%N, ((-1920518148340397) @ (-48), (-5244470056194149) @ (-49), (-609902861438431) @ (-45), (-6527269138361157) @ (-49)));
  (169%N, (#, #, #, (-302852298247679) @ (-44)));
  (170%N, ((-5350308046193893) @ (-49), (-2284874860330507) @ (-48), (-2172126800336863) @ (-48), (-5493012741645985) @ (-49)));
  (173%N, (#, #, #, (-8910859197905059) @ (-49)));
  (176%N, ((-2146956065995973) @ (-47), #, (-609902861438431) @ (-45), (-3767970024052643) @ (-48)));
  (177%N, ((-1151452037394573) @ (-47), (-633190325921023) @ (-46), (-169905478166881) @ (-44), (-2763753467396079) @ (-48)));
  (179%N, (#, #, #, (-7477852487122849) @ (-49)));
  (180%N, ((-791327281750227) @ (-46), (-3172210053778219) @ (-48), (-7426068281774563) @ (-49), (-3281528722710867) @ (-48)));
  (182%N, ((-5751815276518623) @ (-49), (-4883232808476303) @ (-49), (-4932272310386533) @ (-49), (-6069850218356117) @ (-49)));
  (183%N, (#, #, #, (-3464924667942539) @ (-48)));
  (184%N, ((-5751815276518623) @ (-49), (-4883232808476303) @ (-49), (-4932272310386533) @ (-49), (-6069850218356117) @ (-49)));
  (185%N, (#, (-8871297742822353) @ (-49), (-4331497877621075) @ (-48), (-1877995278787649) @ (-47)));
  (187%N, (#, #, #, (-302852298247679) @ (-44)));
  (188%N, (#, (-8090883396801683) @ (-49), (-1998329865051197) @ (-47), (-6627464747288161) @ (-49)));
  (189%N, ((-7545024726212017) @ (-49), (-6680397687276859) @ (-49), (-7022614616343179) @ (-49), (-3365783384564963) @ (-48)));
  (190%N, ((-4016883524301997) @ (-49), (-550419409764677) @ (-46), (-8441263253300231) @ (-50), (-4159842005576863) @ (-49)));
  (192%N, ((-6915629578949437) @ (-49), (-2683591432496777) @ (-48), (-1440720247038953) @ (-47), (-386977214305085) @ (-45)));
  (193%N, ((-5894467983503413) @ (-49), (-2495542725987365) @ (-48), (-5908765893721827) @ (-49), (-6297654431751161) @ (-49)));
  (196%N, ((-621567939061045) @ (-46), (-8658381346222329) @ (-50), (-2251247464024037) @ (-48), (-649624541539295) @ (-46)));
  (197%N, ((-1263266733695005) @ (-47), (-8660499690980515) @ (-50), (-78561017725877) @ (-43), (-360909420191353) @ (-45)));
  (198%N, ((-7647215964360599) @ (-50), (-8448236695054591) @ (-50), (-4150900475789431) @ (-49), (-2388894407064783) @ (-48)));
  (199%N, ((-2713572061996479) @ (-48), (-7575057571972747) @ (-49), (-858821192549113) @ (-46), (-6033914365811853) @ (-49)));
  (201%N, ((-7567545727469403) @ (-49), (-1925169055947837) @ (-47), (-6949081990735609) @ (-49), (-420540146700683) @ (-45)));
  (203%N, ((-7545024726212017) @ (-49), (-6680397687276859) @ (-49), (-7022614616343179) @ (-49), (-3365783384564963) @ (-48)));
  (204%N, ((-356403242499351) @ (-45), (-6131119450661751) @ (-49), (-8978031436994227) @ (-49), (-5789201813822379) @ (-49)));
  (205%N, ((-5816582414634615) @ (-49), (-5888610228112807) @ (-49), (-413850120634003) @ (-45), (-6541731033373189) @ (-49)));
  (206%N, ((-609902861438431) @ (-45), #, (-7426068281774563) @ (-49), (-7795654513279065) @ (-49)));
  (207%N, ((-3199181070067851) @ (-48), (-1648815554978729) @ (-47), (-3551083531600405) @ (-48), (-3549396601113259) @ (-48)));
  (210%N, ((-3577408776600841) @ (-48), #, (-609902861438431) @ (-45), (-3355703919701135) @ (-48)));
  (211%N, (#, #, #, (-8033701757752085) @ (-49)));
  (213%N, ((-5109513103291709) @ (-49), (-3172210053778219) @ (-48), (-1326812019239259) @ (-47), (-5187665982519819) @ (-49)));
  (214%N, ((-8095144111528729) @ (-50), (-7385640542039271) @ (-49), #, (-8606932163944443) @ (-50)));
  (216%N, (#, #, #, (-70881326618687) @ (-42)));
  (217%N, ((-7918178529260993) @ (-50), (-4561163091602621) @ (-49), (-1224346579547557) @ (-47), (-8910859197905059) @ (-49)));
  (218%N, (#, #, #, (-302852298247679) @ (-44)));
  (219%N, ((-3199181070067851) @ (-48), (-1648815554978729) @ (-47), (-3551083531600405) @ (-48), (-3549396601113259) @ (-48)));
  (220%N, ((-295314011529361) @ (-45), (-79684599037223) @ (-43), (-4697136866642133) @ (-49), (-302852298247679) @ (-44)));
  (221%N, (#, #, #, (-302852298247679) @ (-44)));
  (222%N, ((-2593145781599953) @ (-48), (-5121727272460953) @ (-49), (-2618955158088877) @ (-48), (-5054133910353787) @ (-49)));
  (223%N, (#, #, #, (-8910859197905059) @ (-49)));
  (224%N, (#, #, #, (-7005616856795013) @ (-49)));
  (225%N, (#, #, #, (-70881326618687) @ (-42)));
  (226%N, ((-8713739568579169) @ (-50), (-4546704091120847) @ (-49), (-8770873793352497) @ (-50), (-4521374438649107) @ (-49)));
  (227%N, ((-4016883524301997) @ (-49), (-550419409764677) @ (-46), (-8441263253300231) @ (-50), (-4159842005576863) @ (-49)));
  (232%N, ((-5215457589390187) @ (-49), (-8767562067853789) @ (-50), (-4725245281528357) @ (-49), (-2481061369985469) @ (-48)));
  (233%N, (#, #, (-571248877892569) @ (-45), (-4170689255897351) @ (-48)));
  (234%N, ((-4931314821810101) @ (-49), (-2030827899653141) @ (-48), (-4823404533076891) @ (-49), (-4983524376595639) @ (-49)));
  (236%N, (#, #, #, (-302852298247679) @ (-44)));
  (238%N, (#, #, #, (-6938251729979339) @ (-49)));
  (239%N, ((-4260759154773655) @ (-48), (-2757050514554025) @ (-48), (-2808434500578087) @ (-48), (-2130163006223681) @ (-47)));
  (241%N, (#, #, #, (-4650533185457697) @ (-48)));
  (242%N, ((-4432671074624591) @ (-49), (-7618295949962411) @ (-50), (-8131311136536975) @ (-49), (-148803111960891) @ (-44)));
  (243%N, (#, (-3606862978324355) @ (-48), (-3194186452740551) @ (-48), #));
  (246%N, ((-4824370669438159) @ (-49), (-4907335374668781) @ (-49), (-193410650259593) @ (-44), (-5456843228257157) @ (-49)));
  (247%N, ((-2270553824399883) @ (-48), (-8563712172387943) @ (-50), (-605143053593263) @ (-46), (-2713154949453311) @ (-48)));
  (248%N, (#, #, #, (-302852298247679) @ (-44)));
  (249%N, ((-985322676152685) @ (-46), #, (-6825765795923849) @ (-49), (-7170756992763697) @ (-49)));
  (251%N, ((-7041345884300027) @ (-50), (-7153041175294719) @ (-50), (-8775073711791917) @ (-50), (-8910859197905059) @ (-49)));
  (252%N, (#, #, #, (-70881326618687) @ (-42)));
  (254%N, ((-3102117102219995) @ (-48), (-3054936767390851) @ (-48), (-2685987899497385) @ (-48), (-694843813832315) @ (-46)));
  (255%N, (#, #, #, (-302852298247679) @ (-44)))].

(** prob_emit.py, characters 0x9700 to 0x97ff *)
Definition emit_97 : list (N * num4) := [
  (0%N, ((-3893085808832801) @ (-49), (-5527278612788769) @ (-49), (-5265514192557773) @ (-49), (-569286716159539) @ (-46)));
  (1%N, ((-8978031436994227) @ (-49), (-3312849679805319) @ (-48), (-7924300488693565) @ (-49), (-1853809505254573) @ (-47)));
  (2%N, (#, (-8871297742822353) @ (-49), #, #));
  (3%N, (#, #, #, (-2001206550016447) @ (-47)));
  (4%N, ((-8018343577873535) @ (-49), (-5800224975033435) @ (-49), (-2842171870675345) @ (-48), (-1822899526423839) @ (-47)));
  (5%N, (#, #, #, (-4650533185457697) @ (-48)));
  (6%N, (#, (-6538920241582019) @ (-49), (-6342225880772177) @ (-49), (-1930728693765227) @ (-47)));
  (7%N, ((-4976330571610235) @ (-49), (-4499432300499571) @ (-49), (-4902614681825893) @ (-49), (-5202398223898877) @ (-49)));
  (8%N, (#, (-7575057571972747) @ (-49), (-6584334284540627) @ (-49), (-4650533185457697) @ (-48)));
  (9%N, ((-6313024636091883) @ (-49), (-328629968818505) @ (-45), (-5997458952775391) @ (-49), (-3165594950523267) @ (-48)));
  (13%N, ((-2516169665263369) @ (-48), (-2812891840022331) @ (-48), (-791327281750227) @ (-46), (-5853792397459405) @ (-49)));
  (14%N, ((-2975358544396279) @ (-48), (-1643962057175493) @ (-47), (-7492374236211145) @ (-49), (-7332707602050573) @ (-49)));
  (15%N, ((-8272788582231815) @ (-49), (-7244163096344431) @ (-49), (-903159767337213) @ (-46), (-1635956920916995) @ (-47)));
  (17%N, (#, #, (-4260759154773655) @ (-48), (-70881326618687) @ (-42)));
  (19%N, ((-6933968332578247) @ (-49), (-3760701355345663) @ (-48), (-3722114766328821) @ (-48), (-6426674604211303) @ (-49)));
  (22%N, ((-2017999609788739) @ (-47), (-794651871930237) @ (-46), (-5117890270626099) @ (-49), (-225115232174701) @ (-44)));
  (25%N, (#, #, (-609902861438431) @ (-45), #));
  (28%N, ((-6359426629880835) @ (-49), (-5124617907584565) @ (-49), (-5908765893721827) @ (-49), (-5892720022940893) @ (-49)));
  (30%N, ((-6689783939482305) @ (-49), (-5161288074707605) @ (-49), (-2357183870565129) @ (-48), (-6299012574637699) @ (-49)));
  (35%N, (#, #, #, (-2130163006223681) @ (-47)));
  (36%N, (#, #, #, (-8910859197905059) @ (-49)));
  (39%N, ((-3102117102219995) @ (-48), (-3054936767390851) @ (-48), (-2685987899497385) @ (-48), (-694843813832315) @ (-46)));
  (40%N, (#, #, #, (-4297911758076491) @ (-48)));
  (41%N, (#, #, #, (-8910859197905059) @ (-49)));
  (42%N, ((-571248877892569) @ (-45), #, #, (-70881326618687) @ (-42)));
  (43%N, (#, #, #, (-70881326618687) @ (-42)));
  (45%N, ((-8197617090973557) @ (-49), (-7385640542039271) @ (-49), (-6992866943914805) @ (-49), (-906660926466427) @ (-46)));
  (48%N, ((-7502517753044599) @ (-49), (-491414177067389) @ (-45), #, (-7386362463331995) @ (-49)));
  (49%N, (#, #, #, (-302852298247679) @ (-44)));
  (50%N, ((-2484277290123295) @ (-48), (-622191668035725) @ (-46), (-8992749547178237) @ (-50), (-2609261468255505) @ (-48)));
  (51%N, (#, #, #, (-5856883838250957) @ (-49)));
  (56%N, ((-5562137410276335) @ (-49), (-5699193198179331) @ (-49), (-1429106445428593) @ (-47), (-2960589213070475) @ (-48)));
  (57%N, ((-3238520559542935) @ (-48), (-3252133114292637) @ (-48), #, (-2130163006223681) @ (-47)));
  (58%N, (#, #, #, (-8166776809352665) @ (-49)));
  (61%N, ((-8978031436994227) @ (-49), (-3312849679805319) @ (-48), (-7924300488693565) @ (-49), (-1853809505254573) @ (-47)));
  (62%N, (#, #, (-7284590836079723) @ (-49), (-7060704769219635) @ (-49)));
  (63%N, (#, #, #, (-4650533185457697) @ (-48)));
  (66%N, (#, (-3606862978324355) @ (-48), (-3194186452740551) @ (-48), #));
  (68%N, ((-8197617090973557) @ (-49), (-7385640542039271) @ (-49), (-6992866943914805) @ (-49), (-906660926466427) @ (-46)));
  (70%N, (#, #, #, (-2130163006223681) @ (-47)));
  (72%N, ((-2292745225127109) @ (-48), (-278022813725259) @ (-45), (-4720108841210043) @ (-49), (-302852298247679) @ (-44)));
  (73%N, (#, #, #, (-108816228894371) @ (-43)));
  (74%N, (#, #, #, (-8910859197905059) @ (-49)));
  (81%N, (#, #, #, (-302852298247679) @ (-44)));
  (82%N, ((-1984887322099313) @ (-48), (-8082819632911921) @ (-50), (-2281610481786585) @ (-48), (-2417267025879331) @ (-48)));
  (83%N, ((-3761685067605859) @ (-48), (-6823518783638375) @ (-49), (-6825765795923849) @ (-49), (-3702723670134365) @ (-48)));
  (86%N, ((-1524003737349149) @ (-47), (-2300010823431945) @ (-48), (-4593308118829007) @ (-49), (-6148393454038315) @ (-49)));
  (89%N, ((-2444570183576003) @ (-48), (-8662622028850881) @ (-50), (-4445574284827157) @ (-49), (-5297411414910195) @ (-49)));
  (90%N, ((-3761685067605859) @ (-48), (-6823518783638375) @ (-49), (-6825765795923849) @ (-49), (-3702723670134365) @ (-48)));
  (91%N, ((-3695707134388909) @ (-48), #, (-8131311136536975) @ (-49), (-6226396466584401) @ (-49)));
  (92%N, ((-2444570183576003) @ (-48), (-8662622028850881) @ (-50), (-4445574284827157) @ (-49), (-5297411414910195) @ (-49)));
  (94%N, ((-1994747451698567) @ (-48), (-4543082157970725) @ (-49), (-4351493244391339) @ (-49), (-4230645444414059) @ (-49)));
  (96%N, ((-5382538021651485) @ (-49), (-2657017468759021) @ (-48), (-4863028141694063) @ (-49), (-572053065650811) @ (-46)));
  (97%N, ((-3903704958981611) @ (-48), (-6376969632295143) @ (-49), (-389663418086415) @ (-45), (-3279363519905739) @ (-48)));
  (98%N, ((-7119838209015079) @ (-50), (-3780216405160797) @ (-49), (-6197434100559165) @ (-50), (-8607010692272763) @ (-50)));
  (99%N, (#, #, #, (-7857128249604397) @ (-49)));
  (101%N, (#, #, (-230211112012267) @ (-44), (-3702723670134365) @ (-48)));
  (102%N, ((-6813593430814783) @ (-49), #, #, (-4297911758076491) @ (-48)));
  (104%N, (#, #, (-230211112012267) @ (-44), (-302852298247679) @ (-44)));
  (105%N, ((-2057773817843155) @ (-48), (-7208386322991011) @ (-50), (-8068262326714937) @ (-50), (-2840274418951953) @ (-48)));
  (108%N, (#, #, #, (-7835882333724349) @ (-49)));
  (112%N, (#, #, #, (-302852298247679) @ (-44)));
  (115%N, ((-3202075439804693) @ (-48), (-3982632372491541) @ (-48), (-4684119305002281) @ (-48), (-3888284818171165) @ (-48)));
  (116%N, ((-3414425230460409) @ (-48), (-3638170211376633) @ (-48), (-6714478686130389) @ (-49), (-798993026551669) @ (-46)));
  (118%N, ((-6368910968949949) @ (-49), (-3760701355345663) @ (-48), (-3663958025301281) @ (-48), (-6299012574637699) @ (-49)));
  (119%N, (#, #, #, (-302852298247679) @ (-44)));
  (120%N, (#, #, #, (-4392620273043229) @ (-48)));
  (121%N, (#, #, #, (-2130163006223681) @ (-47)));
  (122%N, (#, #, #, (-7477852487122849) @ (-49)));
  (124%N, (#, (-8871297742822353) @ (-49), (-807389556437815) @ (-46), (-3767970024052643) @ (-48)));
  (127%N, (#, #, #, (-2130163006223681) @ (-47)));
  (128%N, (#, #, (-4684119305002281) @ (-48), (-7435345513955431) @ (-49)));
  (129%N, (#, #, #, (-4650533185457697) @ (-48)));
  (132%N, (#, #, #, (-302852298247679) @ (-44)));
  (133%N, (#, #, (-6926560989478223) @ (-49), (-3767970024052643) @ (-48)));
  (136%N, (#, #, #, (-3256584737927489) @ (-48)));
  (139%N, ((-5775119512620157) @ (-49), (-7106171420012245) @ (-49), (-5524625050463193) @ (-49), (-173304961915961) @ (-44)));
  (141%N, ((-6184198283552203) @ (-49), (-340618082813601) @ (-45), (-6615216796058171) @ (-49), (-768679373733051) @ (-46)));
  (143%N, ((-2685755467628925) @ (-48), (-3760701355345663) @ (-48), (-1709551796309617) @ (-47), (-4650533185457697) @ (-48)));
  (145%N, ((-6457514885832195) @ (-49), #, #, (-5748898170095491) @ (-49)));
  (146%N, (#, #, (-571248877892569) @ (-45), (-7158105899608537) @ (-49)));
  (147%N, (#, #, #, (-70881326618687) @ (-42)));
  (148%N, (#, #, #, (-3733460538297031) @ (-48)));
  (151%N, (#, #, #, (-4227173035229071) @ (-48)));
  (152%N, ((-3767046657841615) @ (-48), (-6703857329774499) @ (-49), (-1545068817871325) @ (-47), (-6039889629906513) @ (-49)));
  (158%N, (#, #, #, (-4650533185457697) @ (-48)));
  (160%N, ((-6359426629880835) @ (-49), (-7244163096344431) @ (-49), (-1975763643203379) @ (-47), (-7029990791577139) @ (-49)));
  (161%N, (#, #, #, (-302852298247679) @ (-44)));
  (162%N, (#, #, #, (-302852298247679) @ (-44)));
  (163%N, ((-7545024726212017) @ (-49), (-8871297742822353) @ (-49), #, (-6909376172293041) @ (-49)));
  (166%N, (#, #, #, (-4650533185457697) @ (-48)));
  (167%N, (#, #, #, (-4650533185457697) @ (-48)));
  (168%N, (#, #, #, (-7489000375236853) @ (-49)));
  (171%N, (#, #, #, (-7139646870377641) @ (-49)));
  (172%N, (#, #, #, (-8205616343142647) @ (-49)));
  (173%N, ((-5683938886997807) @ (-49), (-6615369712852055) @ (-49), (-3002283500582821) @ (-48), (-2715763902004171) @ (-48)));
  (174%N, (#, #, #, (-8292395461171265) @ (-49)));
  (175%N, (#, #, (-4204275375441935) @ (-48), (-3254602511589511) @ (-48)));
  (178%N, (#, #, #, (-7477852487122849) @ (-49)));
  (179%N, (#, #, #, (-271331332318175) @ (-44)));
  (180%N, (#, #, #, (-7332707602050573) @ (-49)));
  (182%N, (#, #, #, (-2061833855653683) @ (-47)));
  (184%N, (#, #, #, (-2130163006223681) @ (-47)));
  (185%N, (#, #, #, (-1853809505254573) @ (-47)));
  (186%N, (#, #, #, (-302852298247679) @ (-44)));
  (187%N, (#, #, #, (-1969801887061797) @ (-47)));
  (193%N, ((-3262711202969551) @ (-48), (-7244163096344431) @ (-49), (-7862826752368233) @ (-49), (-6461870436261829) @ (-49)));
  (194%N, (#, #, #, (-4297911758076491) @ (-48)));
  (195%N, ((-6457514885832195) @ (-49), #, #, (-5748898170095491) @ (-49)));
  (197%N, (#, #, #, (-302852298247679) @ (-44)));
  (200%N, (#, #, #, (-8910859197905059) @ (-49)));
  (201%N, (#, #, (-4204275375441935) @ (-48), (-3254602511589511) @ (-48)));
  (203%N, ((-8816529641091661) @ (-50), (-5490021511392607) @ (-49), (-6013943706599051) @ (-49), (-2953723629370413) @ (-48)));
  (204%N, ((-3142043609586069) @ (-48), (-1592576856228499) @ (-47), (-3222431896338517) @ (-48), (-6813480256580097) @ (-49)));
  (209%N, (#, #, #, (-302852298247679) @ (-44)));
  (211%N, ((-8816445690757443) @ (-50), (-5899983341256189) @ (-49), (-1580438179295035) @ (-47), (-302852298247679) @ (-44)));
  (213%N, (#, #, #, (-7217418596990555) @ (-49)));
  (215%N, (#, #, #, (-4227173035229071) @ (-48)));
  (216%N, (#, #, #, (-4048158111928321) @ (-48)));
  (217%N, (#, (-3887923857524803) @ (-48), (-483818997720415) @ (-45), (-7217418596990555) @ (-49)));
  (220%N, ((-6659219651292893) @ (-49), (-6376969632295143) @ (-49), (-6722103407023929) @ (-49), (-3079448278168881) @ (-48)));
  (222%N, (#, (-6886133249742931) @ (-49), (-1975763643203379) @ (-47), (-7425201997121977) @ (-49)));
  (225%N, (#, (-3817185134677383) @ (-48), (-8018343577873535) @ (-49), #));
  (227%N, (#, #, #, (-472560260360877) @ (-45)));
  (229%N, (#, #, #, (-70881326618687) @ (-42)));
  (230%N, ((-8816529641091661) @ (-50), (-5490021511392607) @ (-49), (-6013943706599051) @ (-49), (-2953723629370413) @ (-48)));
  (231%N, ((-3142043609586069) @ (-48), (-1592576856228499) @ (-47), (-3222431896338517) @ (-48), (-6813480256580097) @ (-49)));
  (233%N, ((-8816445690757443) @ (-50), (-5899983341256189) @ (-49), (-1580438179295035) @ (-47), (-5105736758122175) @ (-49)));
  (234%N, (#, (-3887923857524803) @ (-48), (-483818997720415) @ (-45), (-7217418596990555) @ (-49)));
  (235%N, (#, (-6886133249742931) @ (-49), (-1975763643203379) @ (-47), (-7425201997121977) @ (-49)));
  (236%N, ((-6659219651292893) @ (-49), (-6376969632295143) @ (-49), (-6722103407023929) @ (-49), (-3079448278168881) @ (-48)));
  (237%N, ((-6877271404704321) @ (-49), (-3817185134677383) @ (-48), #, (-7435345513955431) @ (-49)));
  (243%N, ((-8870086486739035) @ (-50), (-1131203622718545) @ (-47), (-8388096403952621) @ (-50), (-5247797607970439) @ (-49)));
  (245%N, ((-6059367525428935) @ (-49), (-1420345775671045) @ (-47), (-1414460608288187) @ (-47), (-2977046058115107) @ (-48)));
  (246%N, ((-6778580078491437) @ (-49), (-5809931249162639) @ (-49), (-7018267490854295) @ (-49), (-3702723670134365) @ (-48)));
  (249%N, (#, #, #, (-7643494584741751) @ (-49)));
  (251%N, ((-6059367525428935) @ (-49), (-1420345775671045) @ (-47), (-1414460608288187) @ (-47), (-302852298247679) @ (-44)));
  (253%N, (#, #, #, (-4650533185457697) @ (-48)));
  (255%N, ((-5032848326902663) @ (-49), (-4724002055111121) @ (-49), (-490933199023963) @ (-46), (-607356581889425) @ (-46)))].

(** prob_emit.py, characters 0x9800 to 0x98ff *)
Definition emit_98 : list (N * num4) := [
  (1%N, ((-408522113529243) @ (-45), (-5902862886938293) @ (-49), (-141636043839243) @ (-44), (-1226657699468013) @ (-47)));
  (2%N, ((-620124572169461) @ (-46), (-5298035282899563) @ (-49), (-1184385330414201) @ (-47), (-4646400732033237) @ (-49)));
  (3%N, ((-2964831907776969) @ (-48), (-7131195537680991) @ (-49), (-2465763728177971) @ (-48), (-8033701757752085) @ (-49)));
  (5%N, ((-8670076217036045) @ (-50), (-348956799615839) @ (-45), (-8401604593990547) @ (-50), (-4580455897599687) @ (-49)));
  (6%N, ((-2205858739400849) @ (-48), (-4606911482421473) @ (-49), (-4874537699368369) @ (-49), (-5200076777502299) @ (-49)));
  (7%N, (#, #, (-8233949048441833) @ (-49), (-8910859197905059) @ (-49)));
  (8%N, ((-163973384299177) @ (-44), (-5527278612788769) @ (-49), (-2042486296933839) @ (-48), (-4392620273043229) @ (-48)));
  (10%N, (#, (-491414177067389) @ (-45), (-1758965277191057) @ (-47), (-4297911758076491) @ (-48)));
  (11%N, ((-4260759154773655) @ (-48), #, #, #));
  (12%N, ((-6333177121832229) @ (-49), (-5749640358739673) @ (-49), (-5928412815142631) @ (-49), (-3044124456602361) @ (-48)));
  (14%N, ((-1947521753537519) @ (-47), #, (-8462205612165291) @ (-49), (-7951171338784367) @ (-49)));
  (15%N, (#, #, (-8197617090973557) @ (-49), (-302852298247679) @ (-44)));
  (16%N, ((-126271603497121) @ (-44), (-1539430114996847) @ (-47), (-5743656438732709) @ (-49), (-3000467843510419) @ (-48)));
  (17%N, ((-5326433024990545) @ (-49), (-6089400371189665) @ (-49), (-1826459187989943) @ (-47), (-766245999084601) @ (-46)));
  (18%N, ((-5010509578370879) @ (-49), (-7131195537680991) @ (-49), (-4081744231472905) @ (-48), (-5256906686486259) @ (-49)));
  (19%N, ((-5231351601756439) @ (-49), (-5227690697806469) @ (-49), (-4533505808485275) @ (-49), (-164493203018257) @ (-44)));
  (20%N, (#, #, (-8100873996841253) @ (-49), #));
  (23%N, ((-3059603049282337) @ (-48), (-398981976780441) @ (-45), (-3403802272520385) @ (-48), (-4847386882939067) @ (-49)));
  (24%N, ((-443042879602431) @ (-46), (-2373802739068545) @ (-48), (-8223583440307491) @ (-50), (-70881326618687) @ (-42)));
  (28%N, ((-1826459187989943) @ (-47), (-195523065702511) @ (-44), (-1613581339787597) @ (-47), (-6774188735649479) @ (-49)));
  (30%N, (#, #, #, (-1994339944854797) @ (-47)));
  (32%N, (#, #, #, (-1994339944854797) @ (-47)));
  (33%N, ((-7773281289935475) @ (-49), (-3256365900473599) @ (-48), (-7545024726212017) @ (-49), (-6913411673111127) @ (-49)));
  (34%N, (#, #, #, (-4392620273043229) @ (-48)));
  (36%N, ((-3138539726455591) @ (-48), #, (-3704237331932315) @ (-48), (-3148149778781529) @ (-48)));
  (38%N, (#, (-3760701355345663) @ (-48), (-1986594946834089) @ (-47), (-6810099165615153) @ (-49)));
  (39%N, (#, #, #, (-3870118839437027) @ (-48)));
  (43%N, (#, #, #, (-7283724551427137) @ (-49)));
  (44%N, (#, #, #, (-7706109050846307) @ (-49)));
  (45%N, ((-2079222377389731) @ (-48), (-3693931586538795) @ (-49), (-3324766208990535) @ (-49), (-4650533185457697) @ (-48)));
  (48%N, ((-8100873996841253) @ (-49), #, (-2948708458071029) @ (-48), (-1492635173834867) @ (-47)));
  (50%N, (#, #, (-4260759154773655) @ (-48), (-271331332318175) @ (-44)));
  (51%N, (#, #, #, (-302852298247679) @ (-44)));
  (53%N, (#, #, #, (-70881326618687) @ (-42)));
  (55%N, ((-3645792046567143) @ (-48), #, (-609902861438431) @ (-45), (-7283724551427137) @ (-49)));
  (56%N, ((-6056222545442523) @ (-49), (-5643713538044281) @ (-49), (-5753644522493439) @ (-49), (-1360973589188545) @ (-47)));
  (57%N, ((-793268611604885) @ (-46), (-7575057571972747) @ (-49), (-7654324845498021) @ (-49), (-440002733528793) @ (-45)));
  (59%N, ((-4820254175356877) @ (-49), (-2916201150721135) @ (-48), (-2552866474968919) @ (-48), (-184209554347537) @ (-44)));
  (67%N, (#, #, #, (-4650533185457697) @ (-48)));
  (69%N, (#, #, #, (-3634150150092073) @ (-48)));
  (70%N, ((-6097700429558125) @ (-49), (-3638170211376633) @ (-48), (-1293840841998457) @ (-47), (-4170689255897351) @ (-48)));
  (74%N, (#, #, #, (-70881326618687) @ (-42)));
  (75%N, (#, #, #, (-302852298247679) @ (-44)));
  (76%N, ((-2503790359382919) @ (-48), (-5394593550780109) @ (-49), (-3459734313463735) @ (-49), (-4825927004809995) @ (-49)));
  (77%N, ((-1291281538750035) @ (-47), (-37030242263387) @ (-42), (-8567763278725339) @ (-50), (-661861577371285) @ (-46)));
  (78%N, ((-4204275375441935) @ (-48), #, (-7072789095884181) @ (-49), (-6986850120558139) @ (-49)));
  (79%N, ((-2418586810345491) @ (-48), (-2450484378331755) @ (-48), (-5675902348610513) @ (-49), (-3129814695220009) @ (-48)));
  (81%N, (#, #, #, (-302852298247679) @ (-44)));
  (82%N, ((-609902861438431) @ (-45), #, (-609902861438431) @ (-45), (-7706109050846307) @ (-49)));
  (83%N, ((-1800199549239177) @ (-47), (-8871297742822353) @ (-49), #, (-4227173035229071) @ (-48)));
  (84%N, (#, #, #, (-8910859197905059) @ (-49)));
  (86%N, (#, #, #, (-302852298247679) @ (-44)));
  (87%N, (#, #, (-609902861438431) @ (-45), (-4392620273043229) @ (-48)));
  (88%N, ((-2376794788442317) @ (-48), (-4661462461818435) @ (-49), (-4521778341383771) @ (-49), (-2372770286912947) @ (-48)));
  (89%N, (#, #, #, (-4048158111928321) @ (-48)));
  (90%N, (#, #, #, (-302852298247679) @ (-44)));
  (91%N, ((-88767391089659) @ (-43), (-6069645714336419) @ (-49), (-6190134541933811) @ (-49), (-302852298247679) @ (-44)));
  (94%N, ((-1102402420274139) @ (-47), (-2461154165256317) @ (-48), (-7519077012022383) @ (-50), (-8910859197905059) @ (-49)));
  (95%N, (#, #, #, (-302852298247679) @ (-44)));
  (96%N, (#, #, #, (-4650533185457697) @ (-48)));
  (98%N, ((-8233949048441833) @ (-49), #, #, #));
  (99%N, (#, #, #, (-3188064985789221) @ (-48)));
  (101%N, (#, (-3638170211376633) @ (-48), (-454428729292475) @ (-45), (-271331332318175) @ (-44)));
  (103%N, ((-8783520843487351) @ (-50), (-4720810519267889) @ (-49), (-4691902032999341) @ (-49), (-5047617184609183) @ (-49)));
  (107%N, ((-1407121028105117) @ (-47), (-3383588402652739) @ (-48), (-6391208931395613) @ (-49), (-2755584333643611) @ (-48)));
  (108%N, (#, #, (-8197617090973557) @ (-49), #));
  (111%N, ((-4052459190464617) @ (-49), (-4810307209774827) @ (-49), (-4528806263911631) @ (-49), (-4946650623776243) @ (-49)));
  (112%N, (#, (-874429171128617) @ (-46), (-985322676152685) @ (-46), (-3688528646784237) @ (-48)));
  (113%N, ((-6745617496057075) @ (-49), (-8871297742822353) @ (-49), (-6363471796652225) @ (-49), (-6777360293071555) @ (-49)));
  (115%N, ((-7756962757402879) @ (-49), #, #, (-7367903434101099) @ (-49)));
  (116%N, ((-7133162962201383) @ (-49), #, #, (-7489000375236853) @ (-49)));
  (117%N, ((-408522113529243) @ (-45), (-5902862886938293) @ (-49), (-141636043839243) @ (-44), (-1226657699468013) @ (-47)));
  (118%N, ((-620124572169461) @ (-46), (-5298035282899563) @ (-49), (-1184385330414201) @ (-47), (-4646400732033237) @ (-49)));
  (119%N, ((-2964831907776969) @ (-48), (-7131195537680991) @ (-49), (-2465763728177971) @ (-48), (-386907056012469) @ (-45)));
  (120%N, (#, #, (-8233949048441833) @ (-49), (-8910859197905059) @ (-49)));
  (121%N, ((-8670076217036045) @ (-50), (-348956799615839) @ (-45), (-8401604593990547) @ (-50), (-4580455897599687) @ (-49)));
  (122%N, ((-2205858739400849) @ (-48), (-4606911482421473) @ (-49), (-4874537699368369) @ (-49), (-5200076777502299) @ (-49)));
  (123%N, ((-163973384299177) @ (-44), (-5527278612788769) @ (-49), (-2042486296933839) @ (-48), (-4565813239175749) @ (-49)));
  (124%N, (#, (-491414177067389) @ (-45), (-1758965277191057) @ (-47), (-4297911758076491) @ (-48)));
  (125%N, ((-5326433024990545) @ (-49), (-6089400371189665) @ (-49), (-1826459187989943) @ (-47), (-766245999084601) @ (-46)));
  (126%N, ((-8783520843487351) @ (-50), (-4720810519267889) @ (-49), (-4691902032999341) @ (-49), (-5047617184609183) @ (-49)));
  (127%N, ((-5231351601756439) @ (-49), (-5227690697806469) @ (-49), (-4533505808485275) @ (-49), (-164493203018257) @ (-44)));
  (128%N, ((-1947521753537519) @ (-47), #, (-8462205612165291) @ (-49), (-7951171338784367) @ (-49)));
  (129%N, ((-5010509578370879) @ (-49), (-7131195537680991) @ (-49), (-4081744231472905) @ (-48), (-5256906686486259) @ (-49)));
  (130%N, ((-6333177121832229) @ (-49), (-5749640358739673) @ (-49), (-5928412815142631) @ (-49), (-3044124456602361) @ (-48)));
  (131%N, (#, #, (-8197617090973557) @ (-49), (-302852298247679) @ (-44)));
  (132%N, ((-126271603497121) @ (-44), (-1539430114996847) @ (-47), (-5743656438732709) @ (-49), (-3000467843510419) @ (-48)));
  (133%N, ((-6745617496057075) @ (-49), (-8871297742822353) @ (-49), (-6363471796652225) @ (-49), (-6777360293071555) @ (-49)));
  (134%N, ((-443042879602431) @ (-46), (-2373802739068545) @ (-48), (-8223583440307491) @ (-50), (-2361710768068381) @ (-48)));
  (135%N, ((-3059603049282337) @ (-48), (-398981976780441) @ (-45), (-3403802272520385) @ (-48), (-4847386882939067) @ (-49)));
  (136%N, ((-6056222545442523) @ (-49), (-5643713538044281) @ (-49), (-5753644522493439) @ (-49), (-1360973589188545) @ (-47)));
  (137%N, ((-7773281289935475) @ (-49), (-3256365900473599) @ (-48), (-7545024726212017) @ (-49), (-6913411673111127) @ (-49)));
  (138%N, ((-8100873996841253) @ (-49), #, (-2948708458071029) @ (-48), (-1492635173834867) @ (-47)));
  (139%N, (#, #, (-4260759154773655) @ (-48), (-271331332318175) @ (-44)));
  (140%N, ((-1826459187989943) @ (-47), (-195523065702511) @ (-44), (-1613581339787597) @ (-47), (-6774188735649479) @ (-49)));
  (141%N, ((-7298665317991735) @ (-49), (-3383588402652739) @ (-48), (-7399879841139741) @ (-49), (-1637011139242251) @ (-47)));
  (142%N, (#, #, (-609902861438431) @ (-45), (-7951171338784367) @ (-49)));
  (143%N, (#, (-3760701355345663) @ (-48), (-1986594946834089) @ (-47), (-6810099165615153) @ (-49)));
  (144%N, ((-3138539726455591) @ (-48), #, (-3704237331932315) @ (-48), (-3148149778781529) @ (-48)));
  (145%N, ((-4820254175356877) @ (-49), (-2916201150721135) @ (-48), (-2552866474968919) @ (-48), (-184209554347537) @ (-44)));
  (147%N, ((-793268611604885) @ (-46), (-7575057571972747) @ (-49), (-7654324845498021) @ (-49), (-440002733528793) @ (-45)));
  (148%N, ((-3645792046567143) @ (-48), #, (-609902861438431) @ (-45), (-7283724551427137) @ (-49)));
  (150%N, ((-1870602565026865) @ (-47), (-4993376197570699) @ (-49), (-1377841093547791) @ (-47), (-6180509573602467) @ (-49)));
  (151%N, ((-6097700429558125) @ (-49), (-3638170211376633) @ (-48), (-1293840841998457) @ (-47), (-5418003694467175) @ (-49)));
  (152%N, ((-2503790359382919) @ (-48), (-5394593550780109) @ (-49), (-3459734313463735) @ (-49), (-4825927004809995) @ (-49)));
  (153%N, ((-609902861438431) @ (-45), #, (-8359567700260433) @ (-49), (-7706109050846307) @ (-49)));
  (154%N, ((-4204275375441935) @ (-48), #, (-7072789095884181) @ (-49), (-6986850120558139) @ (-49)));
  (155%N, ((-1800199549239177) @ (-47), (-8871297742822353) @ (-49), #, (-4227173035229071) @ (-48)));
  (156%N, ((-2418586810345491) @ (-48), (-2450484378331755) @ (-48), (-5675902348610513) @ (-49), (-3129814695220009) @ (-48)));
  (157%N, ((-1291281538750035) @ (-47), (-37030242263387) @ (-42), (-8567763278725339) @ (-50), (-661861577371285) @ (-46)));
  (158%N, ((-7756962757402879) @ (-49), #, #, (-7367903434101099) @ (-49)));
  (159%N, ((-8233949048441833) @ (-49), #, #, #));
  (160%N, ((-88767391089659) @ (-43), (-6069645714336419) @ (-49), (-6190134541933811) @ (-49), (-6040748440070665) @ (-49)));
  (161%N, (#, #, #, (-4048158111928321) @ (-48)));
  (162%N, (#, (-3638170211376633) @ (-48), (-454428729292475) @ (-45), (-271331332318175) @ (-44)));
  (163%N, (#, #, #, (-4650533185457697) @ (-48)));
  (164%N, ((-1407121028105117) @ (-47), (-3383588402652739) @ (-48), (-6391208931395613) @ (-49), (-2755584333643611) @ (-48)));
  (165%N, (#, #, (-8197617090973557) @ (-49), #));
  (166%N, (#, (-874429171128617) @ (-46), (-985322676152685) @ (-46), (-3688528646784237) @ (-48)));
  (167%N, ((-7133162962201383) @ (-49), #, #, (-7489000375236853) @ (-49)));
  (168%N, ((-7672914666016029) @ (-50), (-7644218927245471) @ (-50), (-8202073466980447) @ (-50), (-1110691463867539) @ (-47)));
  (169%N, (#, #, #, (-302852298247679) @ (-44)));
  (173%N, (#, #, #, (-70881326618687) @ (-42)));
  (174%N, (#, #, #, (-7926147221115621) @ (-49)));
  (175%N, ((-3470737221580077) @ (-48), (-7082212487057555) @ (-49), (-7250871180066637) @ (-49), (-8205616343142647) @ (-49)));
  (177%N, (#, #, #, (-8166776809352665) @ (-49)));
  (182%N, ((-6770156730015033) @ (-49), #, #, (-3879055303555717) @ (-48)));
  (186%N, (#, #, (-8462205612165291) @ (-49), (-7857128249604397) @ (-49)));
  (187%N, (#, #, #, (-4227173035229071) @ (-48)));
  (188%N, ((-7219057633931153) @ (-49), (-841042158939437) @ (-46), (-6992866943914805) @ (-49), (-1777541578842475) @ (-47)));
  (192%N, (#, #, #, (-2001206550016447) @ (-47)));
  (196%N, ((-5448311131795165) @ (-49), (-5301992768114433) @ (-49), (-6301998060326893) @ (-49), (-5571675478766015) @ (-49)));
  (198%N, ((-7018267490854295) @ (-49), (-4240545284906009) @ (-48), (-230211112012267) @ (-44), (-1822899526423839) @ (-47)));
  (199%N, (#, #, #, (-302852298247679) @ (-44)));
  (200%N, (#, #, #, (-302852298247679) @ (-44)));
  (202%N, (#, #, #, (-70881326618687) @ (-42)));
  (206%N, ((-7672914666016029) @ (-50), (-7644218927245471) @ (-50), (-8202073466980447) @ (-50), (-1110691463867539) @ (-47)));
  (207%N, (#, #, (-8462205612165291) @ (-49), (-7857128249604397) @ (-49)));
  (208%N, (#, #, #, (-70881326618687) @ (-42)));
  (209%N, (#, #, #, (-7926147221115621) @ (-49)));
  (210%N, ((-3470737221580077) @ (-48), (-7082212487057555) @ (-49), (-7250871180066637) @ (-49), (-8205616343142647) @ (-49)));
  (211%N, ((-6770156730015033) @ (-49), #, #, (-3879055303555717) @ (-48)));
  (213%N, ((-7219057633931153) @ (-49), (-841042158939437) @ (-46), (-6992866943914805) @ (-49), (-1777541578842475) @ (-47)));
  (214%N, (#, #, #, (-4227173035229071) @ (-48)));
  (215%N, (#, #, #, (-2001206550016447) @ (-47)));
  (216%N, ((-5448311131795165) @ (-49), (-5301992768114433) @ (-49), (-6301998060326893) @ (-49), (-5571675478766015) @ (-49)));
  (217%N, ((-7018267490854295) @ (-49), (-4240545284906009) @ (-48), (-230211112012267) @ (-44), (-1822899526423839) @ (-47)));
  (218%N, (#, #, (-7492374236211145) @ (-49), (-6484095031060651) @ (-49)));
  (219%N, ((-8106302510428089) @ (-50), (-8755193664372321) @ (-50), (-568359645214833) @ (-46), (-1132866873839855) @ (-47)));
  (221%N, (#, #, #, (-3888284818171165) @ (-48)));
  (222%N, ((-8106302510428089) @ (-50), (-8755193664372321) @ (-50), (-568359645214833) @ (-46), (-1132866873839855) @ (-47)));
  (223%N, ((-8557778444895201) @ (-50), (-4721518187435775) @ (-49), (-8728859794568879) @ (-50), (-1190491370137717) @ (-47)));
  (224%N, (#, #, #, (-7706109050846307) @ (-49)));
  (225%N, (#, #, #, (-302852298247679) @ (-44)));
  (226%N, ((-5638474285036567) @ (-49), (-1604672177941807) @ (-47), (-6810591023946373) @ (-49), (-1584973871545671) @ (-47)));
  (227%N, (#, #, (-4684119305002281) @ (-48), (-4650533185457697) @ (-48)));
  (228%N, (#, #, #, (-4650533185457697) @ (-48)));
  (229%N, (#, #, (-609902861438431) @ (-45), #));
  (231%N, (#, #, #, (-6683806725621059) @ (-49)));
  (232%N, ((-2011133004627089) @ (-47), #, (-8462205612165291) @ (-49), (-1744424065272691) @ (-47)));
  (233%N, (#, #, (-7127877008308803) @ (-49), (-7139646870377641) @ (-49)));
  (234%N, (#, (-8871297742822353) @ (-49), (-6301998060326893) @ (-49), (-943539134077359) @ (-46)));
  (235%N, (#, #, #, (-456223959081461) @ (-45)));
  (237%N, (#, (-8871297742822353) @ (-49), (-7040346789497085) @ (-49), (-3323653223520611) @ (-48)));
  (239%N, ((-5039894100394917) @ (-49), (-1316368670180257) @ (-47), (-4646858027193351) @ (-49), (-1190913105691653) @ (-47)));
  (242%N, ((-2470103677696263) @ (-48), (-5888610228112807) @ (-49), (-2973092488641433) @ (-48), (-5149695811304243) @ (-49)));
  (244%N, ((-3301329885452235) @ (-48), (-8252834006088559) @ (-49), (-3984680263625049) @ (-48), (-1729369077842873) @ (-47)));
  (252%N, ((-5499866174956073) @ (-49), (-6780742520844477) @ (-49), (-7667890561037021) @ (-49), (-6043332759621093) @ (-49)));
  (253%N, ((-2815712862831619) @ (-48), (-5687257416369995) @ (-49), (-3238520559542935) @ (-48), (-5542557161571719) @ (-49)));
  (254%N, ((-3134506239141279) @ (-48), (-5472278589688291) @ (-49), (-4968327492727003) @ (-49), (-5834399308112331) @ (-49)));
  (255%N, (#, #, (-609902861438431) @ (-45), #))].

(** prob_emit.py, characters 0x9900 to 0x99ff *)
Definition emit_99 : list (N * num4) := [
  (2%N, (#, #, #, (-4392620273043229) @ (-48)));
  (3%N, ((-798193886911877) @ (-46), (-8871297742822353) @ (-49), (-7545024726212017) @ (-49), (-3535663390789959) @ (-48)));
  (4%N, (#, #, #, (-4650533185457697) @ (-48)));
  (5%N, ((-6588355372733015) @ (-49), (-3460130938885339) @ (-48), (-2821674170527261) @ (-48), (-302852298247679) @ (-44)));
  (9%N, ((-3704237331932315) @ (-48), #, (-6352748616180713) @ (-49), (-3062977036130173) @ (-48)));
  (10%N, ((-4603606450426375) @ (-49), (-4606911482421473) @ (-49), (-16675406947323) @ (-41), (-5128561054084031) @ (-49)));
  (12%N, ((-3504836334064703) @ (-48), (-8871297742822353) @ (-49), (-1695354026101487) @ (-47), (-3009417223768917) @ (-48)));
  (13%N, (#, #, #, (-3767970024052643) @ (-48)));
  (14%N, (#, #, #, (-4297911758076491) @ (-48)));
  (16%N, ((-169209854626885) @ (-44), (-5938617755731305) @ (-49), (-2570583611022725) @ (-48), (-6065342988887265) @ (-49)));
  (17%N, ((-7350896790516305) @ (-49), #, (-7350896790516305) @ (-49), (-7600718321947853) @ (-49)));
  (18%N, (#, #, (-6926560989478223) @ (-49), (-239810366388671) @ (-44)));
  (19%N, ((-1478403429151277) @ (-47), (-3638170211376633) @ (-48), (-6081888526686321) @ (-49), (-2714311499520993) @ (-48)));
  (22%N, ((-4684119305002281) @ (-48), #, #, (-302852298247679) @ (-44)));
  (23%N, (#, #, #, (-302852298247679) @ (-44)));
  (24%N, ((-8709609224614909) @ (-50), (-930068051664449) @ (-47), (-8960712927659531) @ (-50), (-4634824049330683) @ (-49)));
  (26%N, ((-1986594946834089) @ (-47), #, (-165793303611009) @ (-44), (-302852298247679) @ (-44)));
  (27%N, ((-7127877008308803) @ (-49), #, #, (-7151885394841985) @ (-49)));
  (28%N, (#, #, #, (-271331332318175) @ (-44)));
  (29%N, (#, #, #, (-7643494584741751) @ (-49)));
  (30%N, ((-7013953676999103) @ (-49), #, (-7117451711230829) @ (-49), (-2001206550016447) @ (-47)));
  (32%N, (#, #, #, (-3767970024052643) @ (-48)));
  (33%N, ((-7040346789497085) @ (-49), (-4240545284906009) @ (-48), (-7399879841139741) @ (-49), (-6813480256580097) @ (-49)));
  (34%N, (#, #, #, (-6465514138001285) @ (-49)));
  (40%N, ((-5925919123563701) @ (-49), (-5380721392106603) @ (-49), (-8686710313230699) @ (-50), (-5405630669953589) @ (-49)));
  (42%N, (#, #, #, (-302852298247679) @ (-44)));
  (44%N, (#, #, #, (-4650533185457697) @ (-48)));
  (46%N, (#, (-491414177067389) @ (-45), (-7591005369967043) @ (-49), (-3733460538297031) @ (-48)));
  (49%N, (#, #, #, (-4048158111928321) @ (-48)));
  (51%N, ((-4684119305002281) @ (-48), #, #, (-3612205927022559) @ (-48)));
  (53%N, ((-1610436237098159) @ (-47), #, (-7756962757402879) @ (-49), (-669580952416269) @ (-46)));
  (54%N, ((-609902861438431) @ (-45), #, #, #));
  (58%N, ((-609902861438431) @ (-45), #, #, (-302852298247679) @ (-44)));
  (60%N, (#, #, #, (-3444810757719897) @ (-48)));
  (61%N, (#, #, #, (-4650533185457697) @ (-48)));
  (62%N, ((-7399879841139741) @ (-49), (-6325757073991575) @ (-49), (-1606223371873941) @ (-47), (-8064138897447807) @ (-49)));
  (63%N, ((-7591005369967043) @ (-49), #, #, (-3605255574468759) @ (-48)));
  (65%N, (#, #, #, (-302852298247679) @ (-44)));
  (67%N, ((-7399879841139741) @ (-49), #, (-6915629578949437) @ (-49), (-3198388215262301) @ (-48)));
  (68%N, (#, #, #, (-976926146266539) @ (-46)));
  (69%N, ((-1496567379251555) @ (-47), (-8252834006088559) @ (-49), #, (-4227173035229071) @ (-48)));
  (72%N, (#, #, (-7681791266144621) @ (-49), (-3246810319127279) @ (-48)));
  (73%N, (#, #, (-1947521753537519) @ (-47), (-3630371905756697) @ (-48)));
  (75%N, ((-3551083531600405) @ (-48), (-491414177067389) @ (-45), (-6139744219169813) @ (-49), (-6986850120558139) @ (-49)));
  (76%N, (#, (-4240545284906009) @ (-48), (-1986594946834089) @ (-47), (-754558428900121) @ (-46)));
  (77%N, (#, #, #, (-302852298247679) @ (-44)));
  (82%N, ((-5904558026107103) @ (-49), (-6262177274778075) @ (-49), (-5991836434592771) @ (-49), (-5517579314396027) @ (-49)));
  (84%N, (#, #, (-4684119305002281) @ (-48), (-3268780507325423) @ (-48)));
  (85%N, ((-7545024726212017) @ (-49), #, (-571248877892569) @ (-45), (-6719959142359565) @ (-49)));
  (87%N, ((-2011133004627089) @ (-47), #, (-8462205612165291) @ (-49), (-1744424065272691) @ (-47)));
  (91%N, (#, #, #, (-4297911758076491) @ (-48)));
  (92%N, (#, #, #, (-3767970024052643) @ (-48)));
  (94%N, ((-7453534702421163) @ (-49), #, (-1845768529231285) @ (-47), (-6257099274030887) @ (-49)));
  (95%N, (#, #, #, (-302852298247679) @ (-44)));
  (99%N, (#, #, #, (-3733460538297031) @ (-48)));
  (100%N, (#, #, (-4684119305002281) @ (-48), (-4650533185457697) @ (-48)));
  (101%N, ((-5638474285036567) @ (-49), (-1604672177941807) @ (-47), (-6810591023946373) @ (-49), (-1584973871545671) @ (-47)));
  (102%N, (#, #, (-609902861438431) @ (-45), #));
  (103%N, ((-4684119305002281) @ (-48), #, #, (-3612205927022559) @ (-48)));
  (104%N, (#, #, (-7127877008308803) @ (-49), (-7139646870377641) @ (-49)));
  (105%N, (#, #, #, (-3444810757719897) @ (-48)));
  (106%N, (#, (-8871297742822353) @ (-49), (-6301998060326893) @ (-49), (-943539134077359) @ (-46)));
  (107%N, (#, #, #, (-456223959081461) @ (-45)));
  (108%N, (#, (-8871297742822353) @ (-49), (-7040346789497085) @ (-49), (-3323653223520611) @ (-48)));
  (109%N, ((-5039894100394917) @ (-49), (-1316368670180257) @ (-47), (-4646858027193351) @ (-49), (-1190913105691653) @ (-47)));
  (110%N, ((-2470103677696263) @ (-48), (-5888610228112807) @ (-49), (-2973092488641433) @ (-48), (-5149695811304243) @ (-49)));
  (111%N, ((-7013953676999103) @ (-49), #, (-7117451711230829) @ (-49), (-2001206550016447) @ (-47)));
  (112%N, ((-3134506239141279) @ (-48), (-5472278589688291) @ (-49), (-4968327492727003) @ (-49), (-5834399308112331) @ (-49)));
  (113%N, ((-2815712862831619) @ (-48), (-5687257416369995) @ (-49), (-3238520559542935) @ (-48), (-5542557161571719) @ (-49)));
  (114%N, ((-5499866174956073) @ (-49), (-6780742520844477) @ (-49), (-7667890561037021) @ (-49), (-6043332759621093) @ (-49)));
  (115%N, (#, #, (-609902861438431) @ (-45), #));
  (116%N, ((-3301329885452235) @ (-48), (-8252834006088559) @ (-49), (-3984680263625049) @ (-48), (-8033701757752085) @ (-49)));
  (117%N, ((-3504836334064703) @ (-48), (-8871297742822353) @ (-49), (-1695354026101487) @ (-47), (-3009417223768917) @ (-48)));
  (118%N, ((-5904558026107103) @ (-49), (-6262177274778075) @ (-49), (-5991836434592771) @ (-49), (-5517579314396027) @ (-49)));
  (119%N, ((-3704237331932315) @ (-48), #, (-6352748616180713) @ (-49), (-3062977036130173) @ (-48)));
  (120%N, (#, #, #, (-4650533185457697) @ (-48)));
  (121%N, (#, #, #, (-4297911758076491) @ (-48)));
  (122%N, ((-798193886911877) @ (-46), (-8871297742822353) @ (-49), (-7545024726212017) @ (-49), (-3535663390789959) @ (-48)));
  (124%N, ((-6588355372733015) @ (-49), (-3460130938885339) @ (-48), (-2821674170527261) @ (-48), (-5558385551194573) @ (-49)));
  (125%N, ((-7350896790516305) @ (-49), #, (-7350896790516305) @ (-49), (-7600718321947853) @ (-49)));
  (126%N, ((-4684119305002281) @ (-48), #, #, (-302852298247679) @ (-44)));
  (127%N, ((-1478403429151277) @ (-47), (-3638170211376633) @ (-48), (-6081888526686321) @ (-49), (-2714311499520993) @ (-48)));
  (128%N, (#, (-8252834006088559) @ (-49), (-4684119305002281) @ (-48), (-3460785255448521) @ (-48)));
  (129%N, (#, #, (-6926560989478223) @ (-49), (-239810366388671) @ (-44)));
  (130%N, (#, #, #, (-4392620273043229) @ (-48)));
  (131%N, (#, #, #, (-271331332318175) @ (-44)));
  (132%N, ((-7127877008308803) @ (-49), #, #, (-7151885394841985) @ (-49)));
  (133%N, ((-7040346789497085) @ (-49), (-4240545284906009) @ (-48), (-7399879841139741) @ (-49), (-6813480256580097) @ (-49)));
  (134%N, ((-5925919123563701) @ (-49), (-5380721392106603) @ (-49), (-8686710313230699) @ (-50), (-5405630669953589) @ (-49)));
  (135%N, (#, #, #, (-8064138897447807) @ (-49)));
  (136%N, ((-3551083531600405) @ (-48), (-491414177067389) @ (-45), (-6139744219169813) @ (-49), (-6986850120558139) @ (-49)));
  (137%N, ((-609902861438431) @ (-45), #, #, #));
  (138%N, ((-7591005369967043) @ (-49), #, #, (-3605255574468759) @ (-48)));
  (139%N, ((-7453534702421163) @ (-49), #, (-1845768529231285) @ (-47), (-6257099274030887) @ (-49)));
  (140%N, (#, #, #, (-302852298247679) @ (-44)));
  (141%N, ((-7399879841139741) @ (-49), #, (-6915629578949437) @ (-49), (-3198388215262301) @ (-48)));
  (142%N, ((-609902861438431) @ (-45), #, #, #));
  (143%N, ((-7399879841139741) @ (-49), (-6325757073991575) @ (-49), (-1606223371873941) @ (-47), (-8064138897447807) @ (-49)));
  (144%N, (#, #, (-7681791266144621) @ (-49), (-3246810319127279) @ (-48)));
  (145%N, (#, #, (-1947521753537519) @ (-47), (-3630371905756697) @ (-48)));
  (146%N, ((-1496567379251555) @ (-47), (-8252834006088559) @ (-49), #, (-4227173035229071) @ (-48)));
  (147%N, ((-2078626915425975) @ (-47), #, (-8978031436994227) @ (-49), (-1893476528496951) @ (-47)));
  (148%N, (#, (-4240545284906009) @ (-48), (-1986594946834089) @ (-47), (-754558428900121) @ (-46)));
  (149%N, (#, #, (-4684119305002281) @ (-48), (-6991483479663675) @ (-49)));
  (150%N, ((-1901985077077483) @ (-48), (-7752116328879837) @ (-50), (-7582909189193327) @ (-50), (-2290838698146701) @ (-48)));
  (151%N, (#, (-4240545284906009) @ (-48), (-3756423699901591) @ (-48), (-976926146266539) @ (-46)));
  (152%N, (#, #, #, (-4297911758076491) @ (-48)));
  (153%N, ((-8576683485501595) @ (-50), (-8612081300791077) @ (-50), (-2339834742423705) @ (-48), (-2405224534620211) @ (-48)));
  (155%N, (#, #, #, (-302852298247679) @ (-44)));
  (165%N, ((-7567545727469403) @ (-49), (-105327943197979) @ (-43), (-7313100723111123) @ (-49), (-1969801887061797) @ (-47)));
  (168%N, ((-7654324845498021) @ (-49), (-6195264366155019) @ (-49), (-2953178774000993) @ (-48), (-3415348596671437) @ (-48)));
  (169%N, (#, #, #, (-302852298247679) @ (-44)));
  (172%N, ((-2146956065995973) @ (-47), (-7305901379742773) @ (-50), (-1009529741990237) @ (-47), (-8236837053786565) @ (-50)));
  (173%N, ((-4684119305002281) @ (-48), (-3760701355345663) @ (-48), (-829324207436477) @ (-46), (-6771034946149301) @ (-49)));
  (174%N, ((-4582279155268171) @ (-49), (-428372245208381) @ (-45), (-6915629578949437) @ (-49), (-756067158084083) @ (-46)));
  (176%N, (#, #, #, (-302852298247679) @ (-44)));
  (177%N, ((-7219057633931153) @ (-49), (-8871297742822353) @ (-49), #, (-1542941136025743) @ (-47)));
  (179%N, ((-1408595697663777) @ (-47), (-5990123364511777) @ (-49), (-1399362230234207) @ (-47), (-5698509500880561) @ (-49)));
  (180%N, ((-5942329140609933) @ (-49), #, (-6890919344730931) @ (-49), (-3350102242753159) @ (-48)));
  (183%N, (#, #, #, (-397263376169705) @ (-45)));
  (191%N, (#, #, #, (-8910859197905059) @ (-49)));
  (192%N, (#, #, #, (-302852298247679) @ (-44)));
  (193%N, ((-6293568705673569) @ (-49), (-6869814717210335) @ (-49), (-3000145705673323) @ (-48), (-6281607265795727) @ (-49)));
  (194%N, (#, #, #, (-302852298247679) @ (-44)));
  (195%N, (#, #, #, (-4650533185457697) @ (-48)));
  (199%N, (#, #, #, (-3634150150092073) @ (-48)));
  (201%N, (#, #, #, (-4650533185457697) @ (-48)));
  (204%N, (#, #, #, (-302852298247679) @ (-44)));
  (208%N, ((-2406356406457531) @ (-48), (-6295964410557909) @ (-49), (-5615792271557757) @ (-49), (-4719461731157625) @ (-49)));
  (209%N, ((-8272788582231815) @ (-49), #, #, (-8205616343142647) @ (-49)));
  (210%N, ((-985322676152685) @ (-46), (-6646945275490687) @ (-49), (-5920964636548573) @ (-49), (-6834204681034783) @ (-49)));
  (212%N, (#, #, #, (-4392620273043229) @ (-48)));
  (213%N, ((-655129281352097) @ (-46), (-5980100251903661) @ (-49), (-1395257808463679) @ (-47), (-338236449356289) @ (-45)));
  (216%N, (#, #, (-609902861438431) @ (-45), (-8395033373076123) @ (-49)));
  (217%N, ((-3038900136881431) @ (-48), #, (-4260759154773655) @ (-48), (-7170756992763697) @ (-49)));
  (219%N, ((-2956502725396995) @ (-48), (-5019810629012765) @ (-49), (-5566391048296219) @ (-49), (-1572059520989393) @ (-47)));
  (221%N, ((-1587524858760099) @ (-47), (-7015906532620973) @ (-49), (-6034686314485429) @ (-49), (-5832021480064217) @ (-49)));
  (223%N, ((-7453534702421163) @ (-49), (-358403368121969) @ (-45), (-8359567700260433) @ (-49), (-302852298247679) @ (-44)));
  (226%N, ((-7031410888328911) @ (-49), #, #, (-6913411673111127) @ (-49)));
  (228%N, (#, #, #, (-4650533185457697) @ (-48)));
  (236%N, (#, #, #, (-4650533185457697) @ (-48)));
  (237%N, ((-6062530173934919) @ (-49), (-5954212934546103) @ (-49), (-3301329885452235) @ (-48), (-766245999084601) @ (-46)));
  (238%N, (#, #, #, (-70881326618687) @ (-42)));
  (240%N, (#, #, #, (-8395033373076123) @ (-49)));
  (241%N, ((-2711400472099159) @ (-48), (-8252834006088559) @ (-49), (-8233949048441833) @ (-49), (-6569616159843049) @ (-49)));
  (248%N, (#, #, (-571248877892569) @ (-45), (-7951171338784367) @ (-49)));
  (249%N, (#, #, #, (-8205616343142647) @ (-49)));
  (252%N, (#, #, #, (-302852298247679) @ (-44)));
  (255%N, ((-1668867720385385) @ (-47), (-5951059145045925) @ (-49), (-5822763080049859) @ (-49), (-3422430101659097) @ (-48)))].

(** prob_emit.py, characters 0x9a00 to 0x9aff *)
Definition emit_9a : list (N * num4) := [
  (1%N, (#, (-3760701355345663) @ (-48), (-1665953796659243) @ (-47), (-7170756992763697) @ (-49)));
  (2%N, (#, #, #, (-4650533185457697) @ (-48)));
  (3%N, (#, #, #, (-4650533185457697) @ (-48)));
  (4%N, (#, #, (-609902861438431) @ (-45), (-8205616343142647) @ (-49)));
  (5%N, (#, #, #, (-7489000375236853) @ (-49)));
  (8%N, (#, #, #, (-302852298247679) @ (-44)));
  (10%N, (#, #, #, (-4650533185457697) @ (-48)));
  (13%N, ((-8978031436994227) @ (-49), #, #, (-302852298247679) @ (-44)));
  (14%N, ((-4913940382321227) @ (-49), (-6000328174823807) @ (-49), (-5689224840890387) @ (-49), (-620471214967799) @ (-46)));
  (15%N, ((-8978031436994227) @ (-49), #, (-7681791266144621) @ (-49), (-8910859197905059) @ (-49)));
  (17%N, (#, #, #, (-70881326618687) @ (-42)));
  (20%N, (#, #, #, (-302852298247679) @ (-44)));
  (21%N, (#, #, #, (-8910859197905059) @ (-49)));
  (22%N, (#, (-3469067403004029) @ (-48), (-7654324845498021) @ (-49), (-7857128249604397) @ (-49)));
  (23%N, (#, #, #, (-6834204681034783) @ (-49)));
  (25%N, ((-5878805305272223) @ (-49), (-6307692958809439) @ (-49), (-5642595734052827) @ (-49), (-2741515834445989) @ (-48)));
  (31%N, (#, #, #, (-4297911758076491) @ (-48)));
  (32%N, (#, #, #, (-8395033373076123) @ (-49)));
  (34%N, (#, #, #, (-4650533185457697) @ (-48)));
  (35%N, (#, #, #, (-302852298247679) @ (-44)));
  (36%N, (#, #, #, (-7523833130877875) @ (-49)));
  (39%N, (#, #, #, (-302852298247679) @ (-44)));
  (40%N, (#, #, #, (-302852298247679) @ (-44)));
  (43%N, (#, (-6823518783638375) @ (-49), (-6770156730015033) @ (-49), (-302852298247679) @ (-44)));
  (45%N, (#, #, (-1947521753537519) @ (-47), (-2061833855653683) @ (-47)));
  (46%N, (#, #, (-8197617090973557) @ (-49), (-1994339944854797) @ (-47)));
  (48%N, ((-2865377700546473) @ (-48), (-626579899380591) @ (-46), (-19650135478225) @ (-41), (-8910859197905059) @ (-49)));
  (53%N, (#, #, #, (-302852298247679) @ (-44)));
  (54%N, (#, #, #, (-4048158111928321) @ (-48)));
  (55%N, ((-5786172235497957) @ (-49), (-6307692958809439) @ (-49), (-389663418086415) @ (-45), (-420540146700683) @ (-45)));
  (56%N, (#, #, #, (-302852298247679) @ (-44)));
  (62%N, ((-92611946696413) @ (-43), #, (-2017999609788739) @ (-47), (-1601641777818541) @ (-47)));
  (64%N, ((-5908162840687809) @ (-49), #, #, (-7489000375236853) @ (-49)));
  (65%N, (#, (-1673001328511805) @ (-47), (-3704237331932315) @ (-48), (-4392620273043229) @ (-48)));
  (66%N, (#, #, #, (-70881326618687) @ (-42)));
  (67%N, ((-3645792046567143) @ (-48), (-7346801008249289) @ (-49), (-8462205612165291) @ (-49), (-3733460538297031) @ (-48)));
  (68%N, (#, (-3736209830033945) @ (-48), (-6945265366262979) @ (-49), (-4170689255897351) @ (-48)));
  (69%N, ((-5080098049124825) @ (-49), (-2858792606773735) @ (-48), (-5904558026107103) @ (-49), (-5884195282997495) @ (-49)));
  (74%N, ((-8359567700260433) @ (-49), (-7157383978315813) @ (-49), (-791008870599809) @ (-46), (-2130163006223681) @ (-47)));
  (76%N, (#, (-8871297742822353) @ (-49), #, (-2061833855653683) @ (-47)));
  (77%N, ((-6482030368464861) @ (-49), (-841042158939437) @ (-46), (-7426068281774563) @ (-49), (-70881326618687) @ (-42)));
  (78%N, (#, #, #, (-7643494584741751) @ (-49)));
  (85%N, ((-5721161908683727) @ (-49), (-3318111047509587) @ (-48), (-3638841694013343) @ (-48), (-6605948117311325) @ (-49)));
  (87%N, ((-2820734353371311) @ (-48), (-8587637011826509) @ (-50), (-4019886603191247) @ (-49), (-3132361997462213) @ (-48)));
  (90%N, ((-2220397678065393) @ (-48), (-294048434203793) @ (-45), (-78974814125263) @ (-43), (-4603326939535661) @ (-49)));
  (91%N, ((-3096563155674757) @ (-48), (-7131195537680991) @ (-49), (-3456016221203681) @ (-48), (-188036986460185) @ (-44)));
  (95%N, ((-6107061868995681) @ (-49), (-3195267673917071) @ (-48), (-5789579638614887) @ (-49), (-3204934439998351) @ (-48)));
  (98%N, ((-3210191925468019) @ (-48), (-6703857329774499) @ (-49), (-404505981231041) @ (-45), (-5695708749066645) @ (-49)));
  (100%N, (#, (-491414177067389) @ (-45), (-1826459187989943) @ (-47), (-4048158111928321) @ (-48)));
  (101%N, (#, (-3195267673917071) @ (-48), (-834728907770341) @ (-46), (-7614619027055453) @ (-49)));
  (102%N, (#, #, #, (-4297911758076491) @ (-48)));
  (105%N, (#, #, #, (-4392620273043229) @ (-48)));
  (106%N, ((-238379262651975) @ (-44), (-1925169055947837) @ (-47), (-3912641423100301) @ (-48), (-7139646870377641) @ (-49)));
  (107%N, (#, #, #, (-2061833855653683) @ (-47)));
  (108%N, ((-3659114930255699) @ (-49), (-7305901379742773) @ (-50), (-1009529741990237) @ (-47), (-8236837053786565) @ (-50)));
  (109%N, ((-4684119305002281) @ (-48), (-3760701355345663) @ (-48), (-829324207436477) @ (-46), (-6771034946149301) @ (-49)));
  (110%N, ((-7219057633931153) @ (-49), (-8871297742822353) @ (-49), #, (-1542941136025743) @ (-47)));
  (111%N, ((-5942329140609933) @ (-49), #, (-6890919344730931) @ (-49), (-3350102242753159) @ (-48)));
  (112%N, ((-1408595697663777) @ (-47), (-5990123364511777) @ (-49), (-1399362230234207) @ (-47), (-5698509500880561) @ (-49)));
  (113%N, ((-5080098049124825) @ (-49), (-2858792606773735) @ (-48), (-5904558026107103) @ (-49), (-5884195282997495) @ (-49)));
  (114%N, (#, #, #, (-4650533185457697) @ (-48)));
  (115%N, ((-6293568705673569) @ (-49), (-6869814717210335) @ (-49), (-3000145705673323) @ (-48), (-6281607265795727) @ (-49)));
  (116%N, ((-3210191925468019) @ (-48), (-6703857329774499) @ (-49), (-404505981231041) @ (-45), (-5695708749066645) @ (-49)));
  (117%N, (#, #, #, (-4392620273043229) @ (-48)));
  (118%N, ((-2956502725396995) @ (-48), (-5019810629012765) @ (-49), (-5566391048296219) @ (-49), (-1572059520989393) @ (-47)));
  (119%N, ((-7453534702421163) @ (-49), (-358403368121969) @ (-45), (-8359567700260433) @ (-49), (-1617756073932301) @ (-47)));
  (120%N, ((-3038900136881431) @ (-48), #, (-4260759154773655) @ (-48), (-7170756992763697) @ (-49)));
  (121%N, ((-985322676152685) @ (-46), (-6646945275490687) @ (-49), (-5920964636548573) @ (-49), (-6834204681034783) @ (-49)));
  (122%N, (#, #, #, (-4048158111928321) @ (-48)));
  (123%N, ((-2406356406457531) @ (-48), (-6295964410557909) @ (-49), (-5615792271557757) @ (-49), (-4719461731157625) @ (-49)));
  (124%N, ((-1587524858760099) @ (-47), (-7015906532620973) @ (-49), (-6034686314485429) @ (-49), (-5832021480064217) @ (-49)));
  (125%N, ((-8272788582231815) @ (-49), #, #, (-8205616343142647) @ (-49)));
  (126%N, ((-655129281352097) @ (-46), (-5980100251903661) @ (-49), (-1395257808463679) @ (-47), (-338236449356289) @ (-45)));
  (127%N, ((-3096563155674757) @ (-48), (-7131195537680991) @ (-49), (-3456016221203681) @ (-48), (-188036986460185) @ (-44)));
  (128%N, (#, #, (-609902861438431) @ (-45), (-8395033373076123) @ (-49)));
  (129%N, ((-6482030368464861) @ (-49), (-841042158939437) @ (-46), (-7426068281774563) @ (-49), (-3688528646784237) @ (-48)));
  (130%N, ((-6031675879752957) @ (-49), (-1540569696027671) @ (-47), (-5504849362510535) @ (-49), (-2351667914805049) @ (-48)));
  (131%N, (#, #, #, (-8395033373076123) @ (-49)));
  (132%N, ((-5721161908683727) @ (-49), (-3318111047509587) @ (-48), (-3638841694013343) @ (-48), (-6605948117311325) @ (-49)));
  (133%N, ((-8359567700260433) @ (-49), (-7157383978315813) @ (-49), (-791008870599809) @ (-46), (-2130163006223681) @ (-47)));
  (134%N, ((-2711400472099159) @ (-48), (-8252834006088559) @ (-49), (-8233949048441833) @ (-49), (-6569616159843049) @ (-49)));
  (135%N, ((-6062530173934919) @ (-49), (-5954212934546103) @ (-49), (-3301329885452235) @ (-48), (-766245999084601) @ (-46)));
  (136%N, ((-7031410888328911) @ (-49), #, #, (-6913411673111127) @ (-49)));
  (138%N, ((-238379262651975) @ (-44), (-1925169055947837) @ (-47), (-3912641423100301) @ (-48), (-7139646870377641) @ (-49)));
  (139%N, (#, (-3760701355345663) @ (-48), (-1665953796659243) @ (-47), (-7170756992763697) @ (-49)));
  (140%N, ((-2820734353371311) @ (-48), (-8587637011826509) @ (-50), (-4019886603191247) @ (-49), (-3132361997462213) @ (-48)));
  (141%N, (#, #, #, (-4650533185457697) @ (-48)));
  (142%N, (#, #, (-571248877892569) @ (-45), (-7951171338784367) @ (-49)));
  (143%N, ((-1668867720385385) @ (-47), (-5951059145045925) @ (-49), (-5822763080049859) @ (-49), (-3422430101659097) @ (-48)));
  (144%N, ((-8978031436994227) @ (-49), #, (-7681791266144621) @ (-49), (-8910859197905059) @ (-49)));
  (145%N, ((-4913940382321227) @ (-49), (-6000328174823807) @ (-49), (-5689224840890387) @ (-49), (-620471214967799) @ (-46)));
  (146%N, ((-8978031436994227) @ (-49), #, #, (-302852298247679) @ (-44)));
  (147%N, (#, #, #, (-7489000375236853) @ (-49)));
  (149%N, (#, #, #, (-2061833855653683) @ (-47)));
  (150%N, (#, #, #, (-70881326618687) @ (-42)));
  (151%N, ((-5878805305272223) @ (-49), (-6307692958809439) @ (-49), (-5642595734052827) @ (-49), (-2741515834445989) @ (-48)));
  (152%N, (#, #, (-1947521753537519) @ (-47), (-2061833855653683) @ (-47)));
  (153%N, (#, #, #, (-7523833130877875) @ (-49)));
  (154%N, ((-5786172235497957) @ (-49), (-6307692958809439) @ (-49), (-389663418086415) @ (-45), (-420540146700683) @ (-45)));
  (155%N, (#, (-3469067403004029) @ (-48), (-7654324845498021) @ (-49), (-7857128249604397) @ (-49)));
  (156%N, (#, (-1673001328511805) @ (-47), (-3704237331932315) @ (-48), (-4392620273043229) @ (-48)));
  (157%N, (#, #, (-8197617090973557) @ (-49), (-1994339944854797) @ (-47)));
  (158%N, (#, (-6823518783638375) @ (-49), (-6770156730015033) @ (-49), (-5892720022940893) @ (-49)));
  (159%N, (#, #, #, (-976926146266539) @ (-46)));
  (160%N, ((-3645792046567143) @ (-48), (-7346801008249289) @ (-49), (-8462205612165291) @ (-49), (-3733460538297031) @ (-48)));
  (161%N, ((-92611946696413) @ (-43), #, (-2017999609788739) @ (-47), (-1601641777818541) @ (-47)));
  (162%N, (#, (-3736209830033945) @ (-48), (-6945265366262979) @ (-49), (-4170689255897351) @ (-48)));
  (163%N, (#, #, #, (-8910859197905059) @ (-49)));
  (164%N, ((-6107061868995681) @ (-49), (-3195267673917071) @ (-48), (-5789579638614887) @ (-49), (-3204934439998351) @ (-48)));
  (165%N, (#, (-3195267673917071) @ (-48), (-834728907770341) @ (-46), (-7614619027055453) @ (-49)));
  (166%N, (#, #, #, (-4297911758076491) @ (-48)));
  (167%N, (#, (-491414177067389) @ (-45), (-1826459187989943) @ (-47), (-4048158111928321) @ (-48)));
  (168%N, ((-2429917977642983) @ (-48), (-4692200232906733) @ (-49), (-2467898550521471) @ (-48), (-5029790274956931) @ (-49)));
  (174%N, (#, #, #, (-3129814695220009) @ (-48)));
  (175%N, ((-6564648714016659) @ (-49), (-8871297742822353) @ (-49), #, (-4170689255897351) @ (-48)));
  (176%N, ((-3187892340076311) @ (-48), #, #, (-7115940211661285) @ (-49)));
  (177%N, (#, #, #, (-225115232174701) @ (-44)));
  (178%N, (#, #, #, (-271331332318175) @ (-44)));
  (179%N, (#, #, #, (-302852298247679) @ (-44)));
  (182%N, ((-2146956065995973) @ (-47), (-7157383978315813) @ (-49), #, (-1822899526423839) @ (-47)));
  (183%N, ((-6714478686130389) @ (-49), #, #, (-7489000375236853) @ (-49)));
  (184%N, ((-3502711984534253) @ (-48), (-3982632372491541) @ (-48), (-3127165452593049) @ (-48), (-399697567377715) @ (-45)));
  (185%N, (#, #, #, (-302852298247679) @ (-44)));
  (186%N, (#, #, #, (-3728098948061275) @ (-48)));
  (187%N, (#, #, #, (-943539134077359) @ (-46)));
  (188%N, (#, (-6615369712852055) @ (-49), (-6106204366996795) @ (-49), (-7628871685880939) @ (-49)));
  (192%N, ((-4426206392587813) @ (-48), #, #, (-3733460538297031) @ (-48)));
  (193%N, (#, #, #, (-7025030848007957) @ (-49)));
  (194%N, ((-571248877892569) @ (-45), #, #, (-1853809505254573) @ (-47)));
  (195%N, (#, #, #, (-4650533185457697) @ (-48)));
  (197%N, (#, #, (-6697079289355183) @ (-49), (-7795654513279065) @ (-49)));
  (203%N, ((-7667890561037021) @ (-49), #, #, (-3888284818171165) @ (-48)));
  (204%N, ((-8272788582231815) @ (-49), #, #, (-7706109050846307) @ (-49)));
  (206%N, (#, #, #, (-302852298247679) @ (-44)));
  (207%N, (#, #, (-6697079289355183) @ (-49), (-7795654513279065) @ (-49)));
  (209%N, ((-4331497877621075) @ (-48), #, #, (-3951094144080465) @ (-48)));
  (211%N, ((-7773281289935475) @ (-49), (-6135466576150635) @ (-49), (-1457384068873585) @ (-47), (-3252634147087553) @ (-48)));
  (212%N, ((-3704601304896847) @ (-49), (-3784288272935013) @ (-49), (-6368662072864953) @ (-50), (-7600718321947853) @ (-49)));
  (213%N, ((-8272788582231815) @ (-49), #, #, (-7706109050846307) @ (-49)));
  (214%N, ((-7667890561037021) @ (-49), #, #, (-3888284818171165) @ (-48)));
  (216%N, ((-49557248866907) @ (-43), (-3344816187106973) @ (-49), (-7607538611091201) @ (-50), (-3521767345724039) @ (-49)));
  (217%N, ((-4260759154773655) @ (-48), #, #, (-8910859197905059) @ (-49)));
  (220%N, (#, #, #, (-302852298247679) @ (-44)));
  (221%N, (#, #, #, (-4650533185457697) @ (-48)));
  (222%N, (#, #, #, (-1828975469458993) @ (-47)));
  (223%N, (#, #, #, (-3733460538297031) @ (-48)));
  (225%N, (#, #, (-4260759154773655) @ (-48), (-7000866196083895) @ (-49)));
  (230%N, (#, (-3887923857524803) @ (-48), (-1613581339787597) @ (-47), (-6622611700393137) @ (-49)));
  (235%N, (#, #, (-546860929579423) @ (-45), (-4170689255897351) @ (-48)));
  (236%N, (#, #, #, (-4650533185457697) @ (-48)));
  (237%N, ((-1947521753537519) @ (-47), #, #, (-7435345513955431) @ (-49)));
  (238%N, (#, #, #, (-4650533185457697) @ (-48)));
  (239%N, ((-8233949048441833) @ (-49), (-6780742520844477) @ (-49), (-842869473648881) @ (-46), (-3307704841892339) @ (-48)));
  (240%N, (#, #, #, (-7587152606408853) @ (-49)));
  (243%N, (#, #, #, (-4650533185457697) @ (-48)));
  (249%N, (#, #, #, (-239810366388671) @ (-44)));
  (251%N, (#, (-3982632372491541) @ (-48), (-3494371374993105) @ (-48), (-3333936558074267) @ (-48)));
  (252%N, (#, #, #, (-3612205927022559) @ (-48)));
  (253%N, (#, #, #, (-70881326618687) @ (-42)))].

(** prob_emit.py, characters 0x9b00 to 0x9bff *)
Definition emit_9b : list (N * num4) := [
  (3%N, ((-7681791266144621) @ (-49), (-3638170211376633) @ (-48), (-3761685067605859) @ (-48), (-1777541578842475) @ (-47)));
  (5%N, (#, #, #, (-302852298247679) @ (-44)));
  (8%N, (#, #, #, (-239810366388671) @ (-44)));
  (12%N, (#, #, #, (-302852298247679) @ (-44)));
  (15%N, (#, #, #, (-4392620273043229) @ (-48)));
  (16%N, (#, #, #, (-8910859197905059) @ (-49)));
  (19%N, ((-7022614616343179) @ (-49), (-3460130938885339) @ (-48), (-3430332003528151) @ (-48), (-1649160736886951) @ (-47)));
  (24%N, (#, #, #, (-8395033373076123) @ (-49)));
  (27%N, (#, #, #, (-302852298247679) @ (-44)));
  (29%N, (#, #, #, (-302852298247679) @ (-44)));
  (31%N, (#, (-3982632372491541) @ (-48), (-6311788741076455) @ (-49), (-7628871685880939) @ (-49)));
  (33%N, (#, #, #, (-8064138897447807) @ (-49)));
  (34%N, ((-7022614616343179) @ (-49), (-3460130938885339) @ (-48), (-3430332003528151) @ (-48), (-1649160736886951) @ (-47)));
  (35%N, ((-3722114766328821) @ (-48), #, (-4684119305002281) @ (-48), (-7332707602050573) @ (-49)));
  (36%N, (#, #, #, (-302852298247679) @ (-44)));
  (37%N, ((-2243296701427335) @ (-48), (-7930495059706755) @ (-50), (-4418216803425257) @ (-49), (-4650533185457697) @ (-48)));
  (39%N, ((-5530449251127899) @ (-49), (-1328762544165803) @ (-47), (-5141939338410381) @ (-49), (-2480555801862643) @ (-48)));
  (41%N, ((-7773281289935475) @ (-49), (-7575057571972747) @ (-49), (-571248877892569) @ (-45), (-7350030505863719) @ (-49)));
  (44%N, (#, #, #, (-4650533185457697) @ (-48)));
  (46%N, (#, (-8871297742822353) @ (-49), (-6146146643457553) @ (-49), (-1877995278787649) @ (-47)));
  (47%N, (#, (-4240545284906009) @ (-48), #, (-7857128249604397) @ (-49)));
  (48%N, (#, #, #, (-8910859197905059) @ (-49)));
  (49%N, ((-609902861438431) @ (-45), (-5355052230129965) @ (-49), (-5367575015787367) @ (-49), (-6764779882313803) @ (-49)));
  (50%N, ((-1975763643203379) @ (-47), #, (-4684119305002281) @ (-48), (-3728098948061275) @ (-48)));
  (52%N, (#, #, #, (-7104451038327115) @ (-49)));
  (53%N, (#, #, #, (-7706109050846307) @ (-49)));
  (54%N, (#, #, #, (-4297911758076491) @ (-48)));
  (59%N, (#, (-874429171128617) @ (-46), (-609902861438431) @ (-45), (-7435345513955431) @ (-49)));
  (60%N, ((-5275024692053315) @ (-49), (-5115990153217711) @ (-49), (-5312244706979281) @ (-49), (-2431116238685335) @ (-48)));
  (61%N, (#, #, #, (-7477852487122849) @ (-49)));
  (62%N, (#, #, #, (-8292395461171265) @ (-49)));
  (64%N, (#, #, #, (-4392620273043229) @ (-48)));
  (65%N, ((-6163900893513105) @ (-49), (-3005360696119749) @ (-48), (-1559192897098617) @ (-47), (-1593643177325867) @ (-47)));
  (66%N, ((-6134313791657815) @ (-49), (-2659053463001023) @ (-48), (-1281185720449115) @ (-47), (-2848320392813135) @ (-48)));
  (67%N, (#, #, (-7417202744952887) @ (-49), (-3688528646784237) @ (-48)));
  (68%N, ((-424016655625409) @ (-45), (-3038732294690165) @ (-48), (-5761021531623209) @ (-49), (-3267743765907651) @ (-48)));
  (69%N, ((-2934019474412715) @ (-48), (-3760701355345663) @ (-48), (-3569249510334543) @ (-48), (-3370216152975801) @ (-48)));
  (70%N, (#, #, #, (-8064138897447807) @ (-49)));
  (71%N, (#, (-1925169055947837) @ (-47), (-7453534702421163) @ (-49), (-1744424065272691) @ (-47)));
  (72%N, (#, (-8252834006088559) @ (-49), (-2011133004627089) @ (-47), (-976926146266539) @ (-46)));
  (73%N, (#, #, (-1975763643203379) @ (-47), (-3728098948061275) @ (-48)));
  (77%N, ((-8197617090973557) @ (-49), (-3760701355345663) @ (-48), #, (-7643494584741751) @ (-49)));
  (78%N, (#, #, (-1975763643203379) @ (-47), (-3728098948061275) @ (-48)));
  (79%N, ((-2306866885223077) @ (-48), (-5554596908200093) @ (-49), (-5432038251873465) @ (-49), (-5409538122105251) @ (-49)));
  (80%N, (#, #, #, (-3452684697072041) @ (-48)));
  (81%N, ((-8197617090973557) @ (-49), #, (-609902861438431) @ (-45), (-850424662662967) @ (-46)));
  (84%N, ((-5348967156429121) @ (-49), (-5758505895561349) @ (-49), (-1487192571465177) @ (-47), (-644088103279601) @ (-46)));
  (88%N, (#, (-1925169055947837) @ (-47), (-7453534702421163) @ (-49), (-1744424065272691) @ (-47)));
  (90%N, ((-8674581743061493) @ (-50), (-4892750363209365) @ (-49), (-528915012772973) @ (-46), (-8292395461171265) @ (-49)));
  (92%N, (#, #, #, (-8395033373076123) @ (-49)));
  (95%N, (#, #, #, (-7857128249604397) @ (-49)));
  (99%N, (#, #, #, (-70881326618687) @ (-42)));
  (102%N, (#, #, #, (-5725344536380187) @ (-49)));
  (104%N, (#, #, #, (-7435345513955431) @ (-49)));
  (111%N, ((-4747882130195351) @ (-49), (-7803254732511851) @ (-50), (-672610242172927) @ (-46), (-346254971292243) @ (-45)));
  (112%N, (#, #, #, (-7065990723112215) @ (-49)));
  (114%N, (#, #, #, (-302852298247679) @ (-44)));
  (116%N, (#, #, (-7545024726212017) @ (-49), (-880642292618137) @ (-46)));
  (119%N, ((-1618434837590833) @ (-47), (-6975678712175689) @ (-49), #, (-6863080238721081) @ (-49)));
  (128%N, (#, #, #, (-302852298247679) @ (-44)));
  (129%N, ((-4081744231472905) @ (-48), #, #, (-1930728693765227) @ (-47)));
  (131%N, (#, #, (-546860929579423) @ (-45), (-7055467987703679) @ (-49)));
  (132%N, (#, #, #, (-4170689255897351) @ (-48)));
  (134%N, (#, #, #, (-302852298247679) @ (-44)));
  (136%N, (#, #, #, (-4297911758076491) @ (-48)));
  (138%N, (#, #, #, (-4392620273043229) @ (-48)));
  (139%N, (#, #, #, (-2061833855653683) @ (-47)));
  (140%N, (#, #, #, (-70881326618687) @ (-42)));
  (141%N, (#, #, #, (-8166776809352665) @ (-49)));
  (142%N, ((-3233596673457799) @ (-48), (-7082212487057555) @ (-49), (-3984680263625049) @ (-48), (-6901390932685021) @ (-49)));
  (144%N, (#, #, #, (-7689790518313711) @ (-49)));
  (145%N, ((-5466716904325447) @ (-49), (-6869814717210335) @ (-49), (-2017999609788739) @ (-47), (-50275542397939) @ (-42)));
  (146%N, ((-609902861438431) @ (-45), #, (-8359567700260433) @ (-49), (-7332707602050573) @ (-49)));
  (147%N, (#, #, #, (-8910859197905059) @ (-49)));
  (154%N, (#, #, #, (-4392620273043229) @ (-48)));
  (155%N, (#, #, #, (-7600718321947853) @ (-49)));
  (157%N, (#, #, #, (-4650533185457697) @ (-48)));
  (158%N, (#, #, #, (-2001206550016447) @ (-47)));
  (159%N, (#, #, #, (-976926146266539) @ (-46)));
  (160%N, (#, #, #, (-1445796687452191) @ (-47)));
  (163%N, (#, #, #, (-8205616343142647) @ (-49)));
  (164%N, (#, #, #, (-4048158111928321) @ (-48)));
  (166%N, (#, #, #, (-7425201997121977) @ (-49)));
  (168%N, (#, #, #, (-4650533185457697) @ (-48)));
  (170%N, (#, #, #, (-2001206550016447) @ (-47)));
  (171%N, ((-4426206392587813) @ (-48), (-3606862978324355) @ (-48), (-8131311136536975) @ (-49), (-3268780507325423) @ (-48)));
  (173%N, ((-7492374236211145) @ (-49), #, (-4331497877621075) @ (-48), (-7158105899608537) @ (-49)));
  (174%N, ((-1145255642507243) @ (-47), (-2266683533766489) @ (-48), (-2361629263565399) @ (-48), (-2636358334131055) @ (-48)));
  (176%N, (#, #, #, (-302852298247679) @ (-44)));
  (186%N, (#, #, #, (-8395033373076123) @ (-49)));
  (187%N, (#, #, #, (-70881326618687) @ (-42)));
  (192%N, (#, #, #, (-6951095251765127) @ (-49)));
  (193%N, ((-546860929579423) @ (-45), (-7575057571972747) @ (-49), (-4260759154773655) @ (-48), (-8395033373076123) @ (-49)));
  (197%N, (#, #, #, (-302852298247679) @ (-44)));
  (199%N, (#, #, #, (-1636483042981505) @ (-47)));
  (200%N, (#, #, #, (-70881326618687) @ (-42)));
  (201%N, ((-6338330017795169) @ (-49), (-7310469050781013) @ (-49), (-7615485311708039) @ (-49), (-1538667942845091) @ (-47)));
  (202%N, ((-3194186452740551) @ (-48), (-8871297742822353) @ (-49), (-483818997720415) @ (-45), (-6175028031233341) @ (-49)));
  (210%N, (#, #, #, (-4297911758076491) @ (-48)));
  (212%N, (#, #, #, (-3879055303555717) @ (-48)));
  (213%N, (#, #, #, (-302852298247679) @ (-44)));
  (214%N, ((-571248877892569) @ (-45), #, (-609902861438431) @ (-45), (-7587152606408853) @ (-49)));
  (215%N, (#, #, (-571248877892569) @ (-45), (-8205616343142647) @ (-49)));
  (219%N, ((-8359567700260433) @ (-49), #, (-4331497877621075) @ (-48), (-1848956007451337) @ (-47)));
  (221%N, (#, #, #, (-1994339944854797) @ (-47)));
  (224%N, (#, #, #, (-302852298247679) @ (-44)));
  (225%N, ((-3801556143597227) @ (-48), #, #, (-3662121014844325) @ (-48)));
  (226%N, (#, #, (-406948109194601) @ (-45), (-302852298247679) @ (-44)));
  (227%N, (#, #, #, (-302852298247679) @ (-44)));
  (228%N, ((-4260759154773655) @ (-48), (-7427359621511357) @ (-49), (-7417202744952887) @ (-49), (-3879055303555717) @ (-48)));
  (231%N, ((-3984680263625049) @ (-48), #, (-8359567700260433) @ (-49), (-8130444851884389) @ (-49)));
  (232%N, ((-7054022359647307) @ (-49), (-778145317480215) @ (-46), (-3190672362444803) @ (-48), (-6281607265795727) @ (-49)));
  (234%N, ((-8100873996841253) @ (-49), (-3760701355345663) @ (-48), #, (-442294618973983) @ (-45)));
  (235%N, (#, #, #, (-302852298247679) @ (-44)));
  (237%N, (#, #, #, (-8292395461171265) @ (-49)));
  (239%N, (#, #, #, (-1994339944854797) @ (-47)));
  (240%N, ((-1652749980689287) @ (-47), #, #, (-8166776809352665) @ (-49)));
  (243%N, (#, #, #, (-302852298247679) @ (-44)));
  (245%N, (#, #, #, (-2061833855653683) @ (-47)));
  (247%N, (#, #, #, (-4227173035229071) @ (-48)));
  (250%N, (#, #, #, (-4650533185457697) @ (-48)));
  (252%N, (#, #, #, (-8292395461171265) @ (-49)));
  (253%N, ((-7374855723470995) @ (-49), #, (-8462205612165291) @ (-49), (-7127668759912815) @ (-49)));
  (254%N, (#, #, #, (-8910859197905059) @ (-49)));
  (255%N, ((-828507539730495) @ (-46), #, #, (-7628871685880939) @ (-49)))].

(** prob_emit.py, characters 0x9c00 to 0x9cff *)
Definition emit_9c : list (N * num4) := [
  (1%N, (#, #, #, (-1544030019510545) @ (-47)));
  (3%N, (#, #, #, (-7951171338784367) @ (-49)));
  (8%N, (#, #, #, (-7523833130877875) @ (-49)));
  (9%N, ((-6237853144833625) @ (-49), #, #, (-4297911758076491) @ (-48)));
  (13%N, (#, #, (-3222431896338517) @ (-48), (-7245928484021955) @ (-49)));
  (15%N, (#, #, #, (-8910859197905059) @ (-49)));
  (16%N, (#, #, #, (-4227173035229071) @ (-48)));
  (18%N, (#, #, #, (-302852298247679) @ (-44)));
  (19%N, ((-1986594946834089) @ (-47), (-7427359621511357) @ (-49), #, (-3100920119596695) @ (-48)));
  (20%N, (#, #, #, (-302852298247679) @ (-44)));
  (21%N, (#, #, #, (-8205616343142647) @ (-49)));
  (27%N, (#, #, #, (-70881326618687) @ (-42)));
  (28%N, (#, #, #, (-4297911758076491) @ (-48)));
  (31%N, (#, #, #, (-8166776809352665) @ (-49)));
  (33%N, (#, #, #, (-302852298247679) @ (-44)));
  (35%N, ((-6502441666025359) @ (-49), #, #, (-8166776809352665) @ (-49)));
  (37%N, ((-8197617090973557) @ (-49), #, #, (-8130444851884389) @ (-49)));
  (40%N, (#, (-8871297742822353) @ (-49), (-4331497877621075) @ (-48), (-302852298247679) @ (-44)));
  (41%N, (#, #, (-4426206392587813) @ (-48), (-7500373488380235) @ (-49)));
  (45%N, (#, (-1330295090943249) @ (-47), (-5699948021361899) @ (-49), (-1535289041219093) @ (-47)));
  (46%N, (#, #, #, (-8166776809352665) @ (-49)));
  (47%N, (#, #, #, (-271331332318175) @ (-44)));
  (49%N, ((-8100873996841253) @ (-49), #, (-2146956065995973) @ (-47), (-976926146266539) @ (-46)));
  (50%N, ((-3704237331932315) @ (-48), (-6838531672091105) @ (-49), (-6831952121402971) @ (-49), (-5826120483124295) @ (-49)));
  (54%N, (#, #, #, (-8910859197905059) @ (-49)));
  (55%N, (#, #, #, (-4227173035229071) @ (-48)));
  (57%N, ((-8100873996841253) @ (-49), #, #, (-1994339944854797) @ (-47)));
  (58%N, (#, #, #, (-4392620273043229) @ (-48)));
  (59%N, ((-3551083531600405) @ (-48), (-8871297742822353) @ (-49), (-7502517753044599) @ (-49), (-440002733528793) @ (-45)));
  (61%N, (#, #, #, (-302852298247679) @ (-44)));
  (62%N, ((-571248877892569) @ (-45), #, (-4426206392587813) @ (-48), (-70881326618687) @ (-42)));
  (64%N, (#, #, #, (-2001206550016447) @ (-47)));
  (66%N, (#, #, #, (-2001206550016447) @ (-47)));
  (70%N, (#, #, #, (-302852298247679) @ (-44)));
  (71%N, (#, #, #, (-976926146266539) @ (-46)));
  (72%N, ((-7567545727469403) @ (-49), (-8871297742822353) @ (-49), (-4331497877621075) @ (-48), (-1783406489466885) @ (-47)));
  (73%N, ((-4204275375441935) @ (-48), (-8090883396801683) @ (-49), (-7567545727469403) @ (-49), (-6214569351883485) @ (-49)));
  (74%N, (#, #, #, (-8033701757752085) @ (-49)));
  (79%N, (#, #, #, (-8166776809352665) @ (-49)));
  (81%N, (#, #, #, (-4392620273043229) @ (-48)));
  (82%N, ((-2078626915425975) @ (-47), (-3817185134677383) @ (-48), (-4081744231472905) @ (-48), (-8064138897447807) @ (-49)));
  (83%N, (#, #, #, (-4297911758076491) @ (-48)));
  (84%N, ((-3903704958981611) @ (-48), #, (-6457514885832195) @ (-49), (-1828975469458993) @ (-47)));
  (86%N, ((-823797092398745) @ (-46), #, #, (-7628871685880939) @ (-49)));
  (87%N, ((-3123290612960941) @ (-48), (-5703228698997417) @ (-49), (-3378195993368601) @ (-48), (-4650533185457697) @ (-48)));
  (88%N, ((-777206336917297) @ (-46), #, (-5991137551879271) @ (-49), (-7706109050846307) @ (-49)));
  (90%N, (#, #, #, (-2130163006223681) @ (-47)));
  (93%N, (#, #, #, (-7658507473194481) @ (-49)));
  (95%N, (#, #, #, (-6973174550407917) @ (-49)));
  (96%N, (#, #, #, (-4650533185457697) @ (-48)));
  (97%N, (#, #, #, (-4297911758076491) @ (-48)));
  (99%N, (#, #, #, (-4650533185457697) @ (-48)));
  (100%N, (#, #, #, (-70881326618687) @ (-42)));
  (101%N, (#, #, #, (-8910859197905059) @ (-49)));
  (103%N, (#, #, (-2146956065995973) @ (-47), (-4170689255897351) @ (-48)));
  (104%N, (#, #, #, (-302852298247679) @ (-44)));
  (105%N, (#, #, #, (-2130163006223681) @ (-47)));
  (109%N, (#, #, #, (-7628871685880939) @ (-49)));
  (117%N, (#, #, #, (-4392620273043229) @ (-48)));
  (119%N, ((-106184602910939) @ (-43), #, (-1865749067223629) @ (-47), (-5982037690301785) @ (-49)));
  (120%N, ((-3632058836243843) @ (-48), #, (-4081744231472905) @ (-48), (-6938251729979339) @ (-49)));
  (122%N, (#, #, (-1845768529231285) @ (-47), (-70881326618687) @ (-42)));
  (124%N, ((-8674581743061493) @ (-50), (-4892750363209365) @ (-49), (-528915012772973) @ (-46), (-8470157379098985) @ (-50)));
  (125%N, (#, #, #, (-8910859197905059) @ (-49)));
  (127%N, ((-1618434837590833) @ (-47), (-6975678712175689) @ (-49), #, (-6863080238721081) @ (-49)));
  (128%N, (#, #, #, (-7435345513955431) @ (-49)));
  (129%N, ((-4747882130195351) @ (-49), (-7803254732511851) @ (-50), (-672610242172927) @ (-46), (-346254971292243) @ (-45)));
  (130%N, (#, #, (-7545024726212017) @ (-49), (-880642292618137) @ (-46)));
  (131%N, (#, #, #, (-4297911758076491) @ (-48)));
  (133%N, ((-4081744231472905) @ (-48), #, #, (-1930728693765227) @ (-47)));
  (134%N, (#, #, (-546860929579423) @ (-45), (-7055467987703679) @ (-49)));
  (135%N, ((-3233596673457799) @ (-48), (-7082212487057555) @ (-49), (-3984680263625049) @ (-48), (-6901390932685021) @ (-49)));
  (136%N, ((-3632058836243843) @ (-48), #, (-4081744231472905) @ (-48), (-6938251729979339) @ (-49)));
  (137%N, (#, #, #, (-7951171338784367) @ (-49)));
  (138%N, (#, #, #, (-8910859197905059) @ (-49)));
  (139%N, ((-609902861438431) @ (-45), #, (-8359567700260433) @ (-49), (-7332707602050573) @ (-49)));
  (140%N, (#, #, #, (-6527269138361157) @ (-49)));
  (141%N, ((-5466716904325447) @ (-49), (-6869814717210335) @ (-49), (-2017999609788739) @ (-47), (-50275542397939) @ (-42)));
  (142%N, (#, #, #, (-6973174550407917) @ (-49)));
  (143%N, (#, #, #, (-8166776809352665) @ (-49)));
  (144%N, (#, #, #, (-7689790518313711) @ (-49)));
  (145%N, ((-7492374236211145) @ (-49), #, (-4331497877621075) @ (-48), (-7158105899608537) @ (-49)));
  (146%N, (#, #, #, (-4392620273043229) @ (-48)));
  (148%N, (#, #, #, (-2001206550016447) @ (-47)));
  (149%N, (#, #, #, (-2001206550016447) @ (-47)));
  (150%N, (#, #, #, (-7425201997121977) @ (-49)));
  (152%N, (#, #, #, (-302852298247679) @ (-44)));
  (153%N, (#, #, #, (-4650533185457697) @ (-48)));
  (154%N, (#, #, #, (-7628871685880939) @ (-49)));
  (155%N, ((-4426206392587813) @ (-48), (-3606862978324355) @ (-48), (-8131311136536975) @ (-49), (-3268780507325423) @ (-48)));
  (156%N, ((-1145255642507243) @ (-47), (-2266683533766489) @ (-48), (-2361629263565399) @ (-48), (-2636358334131055) @ (-48)));
  (157%N, (#, #, #, (-8064138897447807) @ (-49)));
  (158%N, (#, #, (-571248877892569) @ (-45), (-8205616343142647) @ (-49)));
  (159%N, ((-777206336917297) @ (-46), #, (-5991137551879271) @ (-49), (-7706109050846307) @ (-49)));
  (160%N, ((-546860929579423) @ (-45), (-7575057571972747) @ (-49), (-4260759154773655) @ (-48), (-8395033373076123) @ (-49)));
  (161%N, (#, #, (-1845768529231285) @ (-47), (-70881326618687) @ (-42)));
  (162%N, ((-8100873996841253) @ (-49), #, (-2146956065995973) @ (-47), (-5900705262548913) @ (-49)));
  (163%N, ((-8100873996841253) @ (-49), #, #, (-1994339944854797) @ (-47)));
  (164%N, ((-6338330017795169) @ (-49), (-7310469050781013) @ (-49), (-7615485311708039) @ (-49), (-1538667942845091) @ (-47)));
  (165%N, ((-6502441666025359) @ (-49), #, #, (-8166776809352665) @ (-49)));
  (166%N, (#, #, #, (-4227173035229071) @ (-48)));
  (167%N, (#, #, #, (-6951095251765127) @ (-49)));
  (168%N, ((-3194186452740551) @ (-48), (-8871297742822353) @ (-49), (-483818997720415) @ (-45), (-6175028031233341) @ (-49)));
  (169%N, (#, #, #, (-1636483042981505) @ (-47)));
  (170%N, (#, #, #, (-70881326618687) @ (-42)));
  (171%N, ((-7374855723470995) @ (-49), #, (-8462205612165291) @ (-49), (-7127668759912815) @ (-49)));
  (173%N, ((-571248877892569) @ (-45), #, (-609902861438431) @ (-45), (-7587152606408853) @ (-49)));
  (174%N, ((-8100873996841253) @ (-49), (-3760701355345663) @ (-48), #, (-7951171338784367) @ (-49)));
  (176%N, (#, #, #, (-4650533185457697) @ (-48)));
  (177%N, ((-3801556143597227) @ (-48), #, #, (-3662121014844325) @ (-48)));
  (178%N, ((-4260759154773655) @ (-48), (-7427359621511357) @ (-49), (-7417202744952887) @ (-49), (-3879055303555717) @ (-48)));
  (179%N, ((-3984680263625049) @ (-48), #, (-8359567700260433) @ (-49), (-8130444851884389) @ (-49)));
  (180%N, (#, #, #, (-1994339944854797) @ (-47)));
  (181%N, (#, #, (-406948109194601) @ (-45), (-7489000375236853) @ (-49)));
  (182%N, ((-1652749980689287) @ (-47), #, #, (-8166776809352665) @ (-49)));
  (183%N, ((-8359567700260433) @ (-49), #, (-4331497877621075) @ (-48), (-1848956007451337) @ (-47)));
  (184%N, ((-7054022359647307) @ (-49), (-778145317480215) @ (-46), (-3190672362444803) @ (-48), (-6281607265795727) @ (-49)));
  (185%N, (#, #, #, (-4392620273043229) @ (-48)));
  (186%N, (#, #, #, (-4392620273043229) @ (-48)));
  (187%N, (#, #, #, (-3879055303555717) @ (-48)));
  (188%N, (#, #, #, (-7658507473194481) @ (-49)));
  (189%N, (#, #, #, (-7523833130877875) @ (-49)));
  (190%N, (#, #, #, (-2130163006223681) @ (-47)));
  (191%N, (#, #, #, (-7857128249604397) @ (-49)));
  (192%N, (#, #, #, (-7857128249604397) @ (-49)));
  (193%N, (#, #, #, (-8166776809352665) @ (-49)));
  (194%N, (#, #, #, (-271331332318175) @ (-44)));
  (195%N, ((-1986594946834089) @ (-47), (-7427359621511357) @ (-49), #, (-3100920119596695) @ (-48)));
  (196%N, ((-106184602910939) @ (-43), #, (-1865749067223629) @ (-47), (-5982037690301785) @ (-49)));
  (197%N, (#, #, (-3222431896338517) @ (-48), (-7245928484021955) @ (-49)));
  (198%N, (#, #, #, (-302852298247679) @ (-44)));
  (199%N, ((-6237853144833625) @ (-49), #, #, (-4297911758076491) @ (-48)));
  (201%N, (#, #, #, (-2001206550016447) @ (-47)));
  (202%N, ((-828507539730495) @ (-46), #, #, (-7628871685880939) @ (-49)));
  (203%N, (#, #, #, (-4650533185457697) @ (-48)));
  (204%N, ((-3704237331932315) @ (-48), (-6838531672091105) @ (-49), (-6831952121402971) @ (-49), (-5826120483124295) @ (-49)));
  (205%N, (#, (-1330295090943249) @ (-47), (-5699948021361899) @ (-49), (-1535289041219093) @ (-47)));
  (206%N, (#, (-8871297742822353) @ (-49), (-4331497877621075) @ (-48), (-3292611846428319) @ (-48)));
  (207%N, ((-8197617090973557) @ (-49), #, #, (-8130444851884389) @ (-49)));
  (208%N, (#, #, (-4426206392587813) @ (-48), (-7500373488380235) @ (-49)));
  (209%N, (#, #, #, (-8166776809352665) @ (-49)));
  (210%N, (#, #, #, (-4297911758076491) @ (-48)));
  (211%N, (#, #, #, (-8166776809352665) @ (-49)));
  (212%N, ((-571248877892569) @ (-45), #, (-4426206392587813) @ (-48), (-6118011084002939) @ (-49)));
  (213%N, ((-7567545727469403) @ (-49), (-8871297742822353) @ (-49), (-4331497877621075) @ (-48), (-1783406489466885) @ (-47)));
  (214%N, ((-4204275375441935) @ (-48), (-8090883396801683) @ (-49), (-7567545727469403) @ (-49), (-6214569351883485) @ (-49)));
  (215%N, ((-3551083531600405) @ (-48), (-8871297742822353) @ (-49), (-7502517753044599) @ (-49), (-440002733528793) @ (-45)));
  (216%N, (#, #, #, (-4392620273043229) @ (-48)));
  (217%N, ((-4684119305002281) @ (-48), #, #, (-1440591009101293) @ (-47)));
  (218%N, (#, #, #, (-4048158111928321) @ (-48)));
  (219%N, (#, #, #, (-8205616343142647) @ (-49)));
  (220%N, ((-823797092398745) @ (-46), #, #, (-7628871685880939) @ (-49)));
  (221%N, ((-3903704958981611) @ (-48), #, (-6457514885832195) @ (-49), (-1828975469458993) @ (-47)));
  (222%N, ((-3123290612960941) @ (-48), (-5703228698997417) @ (-49), (-3378195993368601) @ (-48), (-1400595618520877) @ (-47)));
  (223%N, ((-2078626915425975) @ (-47), (-3817185134677383) @ (-48), (-4081744231472905) @ (-48), (-8064138897447807) @ (-49)));
  (224%N, (#, #, #, (-302852298247679) @ (-44)));
  (225%N, (#, #, #, (-4297911758076491) @ (-48)));
  (226%N, (#, #, (-2146956065995973) @ (-47), (-4170689255897351) @ (-48)));
  (227%N, (#, #, #, (-4650533185457697) @ (-48)));
  (229%N, ((-2657484923529803) @ (-48), (-1412762123656457) @ (-47), (-5451248036482201) @ (-49), (-5175153393474945) @ (-49)));
  (231%N, ((-4331497877621075) @ (-48), #, #, (-7500373488380235) @ (-49)));
  (233%N, ((-2011133004627089) @ (-47), (-7575057571972747) @ (-49), (-3502711984534253) @ (-48), (-743894052888657) @ (-46)));
  (236%N, (#, #, #, (-302852298247679) @ (-44)));
  (242%N, (#, #, #, (-4392620273043229) @ (-48)));
  (243%N, ((-1213422639752005) @ (-47), (-4275728240460371) @ (-49), (-4916833670388895) @ (-49), (-5851945649099841) @ (-49)));
  (244%N, ((-5826921547368603) @ (-49), (-5248067192736223) @ (-49), (-5250698865066333) @ (-49), (-4650533185457697) @ (-48)));
  (246%N, ((-3903704958981611) @ (-48), #, (-4260759154773655) @ (-48), (-7658507473194481) @ (-49)));
  (247%N, (#, #, #, (-8910859197905059) @ (-49)));
  (253%N, (#, #, #, (-302852298247679) @ (-44)));
  (254%N, (#, #, #, (-4392620273043229) @ (-48)))].

(** prob_emit.py, characters 0x9d00 to 0x9dff *)
Definition emit_9d : list (N * num4) := [
  (6%N, ((-985322676152685) @ (-46), (-7346801008249289) @ (-49), #, (-6878093127173811) @ (-49)));
  (7%N, ((-7545024726212017) @ (-49), #, (-454428729292475) @ (-45), (-3767970024052643) @ (-48)));
  (9%N, ((-5656684496604441) @ (-49), (-6838531672091105) @ (-49), (-3163400814764593) @ (-48), (-6592047412203725) @ (-49)));
  (15%N, (#, #, #, (-70881326618687) @ (-42)));
  (16%N, (#, #, #, (-70881326618687) @ (-42)));
  (18%N, (#, #, #, (-8166776809352665) @ (-49)));
  (21%N, ((-7219057633931153) @ (-49), #, (-609902861438431) @ (-45), (-302852298247679) @ (-44)));
  (23%N, (#, #, #, (-4392620273043229) @ (-48)));
  (25%N, (#, #, #, (-7050279472141661) @ (-49)));
  (27%N, ((-2988328971428919) @ (-48), (-6838531672091105) @ (-49), (-8462205612165291) @ (-49), (-3630371905756697) @ (-48)));
  (29%N, ((-4684119305002281) @ (-48), #, #, (-7706109050846307) @ (-49)));
  (30%N, (#, #, #, (-302852298247679) @ (-44)));
  (31%N, ((-6588355372733015) @ (-49), #, #, (-7350030505863719) @ (-49)));
  (33%N, (#, #, #, (-4392620273043229) @ (-48)));
  (34%N, (#, #, #, (-8292395461171265) @ (-49)));
  (35%N, (#, (-7310469050781013) @ (-49), (-5878805305272223) @ (-49), (-3767970024052643) @ (-48)));
  (38%N, (#, (-1578412539191041) @ (-47), (-6006717035428063) @ (-49), (-3728098948061275) @ (-48)));
  (40%N, ((-2880975246076593) @ (-48), (-778145317480215) @ (-46), (-6551267270149819) @ (-49), (-172648460886377) @ (-44)));
  (42%N, (#, #, #, (-4650533185457697) @ (-48)));
  (45%N, (#, #, #, (-4650533185457697) @ (-48)));
  (47%N, ((-2017999609788739) @ (-47), #, #, (-1969801887061797) @ (-47)));
  (48%N, (#, #, (-985322676152685) @ (-46), (-3733460538297031) @ (-48)));
  (52%N, (#, #, #, (-8910859197905059) @ (-49)));
  (55%N, (#, #, #, (-4650533185457697) @ (-48)));
  (59%N, ((-6232466022829815) @ (-49), (-8019076307196623) @ (-50), (-356403242499351) @ (-45), (-5299020172761087) @ (-49)));
  (63%N, ((-6162005437333793) @ (-49), (-3760701355345663) @ (-48), (-3084812928816481) @ (-48), (-1683626615562721) @ (-47)));
  (66%N, (#, #, (-609902861438431) @ (-45), (-7435345513955431) @ (-49)));
  (78%N, (#, #, #, (-302852298247679) @ (-44)));
  (79%N, (#, #, #, (-4650533185457697) @ (-48)));
  (80%N, (#, #, #, (-70881326618687) @ (-42)));
  (81%N, (#, (-630864537489647) @ (-46), (-5514650374228293) @ (-49), (-3089704493416357) @ (-48)));
  (82%N, (#, #, (-4684119305002281) @ (-48), (-456223959081461) @ (-45)));
  (83%N, ((-238379262651975) @ (-44), #, #, (-239810366388671) @ (-44)));
  (84%N, (#, #, #, (-302852298247679) @ (-44)));
  (86%N, (#, #, #, (-8064138897447807) @ (-49)));
  (88%N, (#, #, #, (-302852298247679) @ (-44)));
  (89%N, (#, #, #, (-302852298247679) @ (-44)));
  (90%N, (#, #, #, (-4297911758076491) @ (-48)));
  (91%N, (#, #, #, (-302852298247679) @ (-44)));
  (92%N, ((-3912641423100301) @ (-48), #, #, (-1994339944854797) @ (-47)));
  (93%N, ((-811944417774287) @ (-46), (-4687181329350755) @ (-49), (-2986970826566149) @ (-48), (-6001737039403017) @ (-49)));
  (94%N, (#, #, #, (-389449860913061) @ (-45)));
  (95%N, (#, #, #, (-302852298247679) @ (-44)));
  (96%N, (#, (-7310469050781013) @ (-49), (-3801556143597227) @ (-48), (-6622611700393137) @ (-49)));
  (97%N, (#, (-1648815554978729) @ (-47), (-3408305968228237) @ (-48), (-4170689255897351) @ (-48)));
  (99%N, (#, #, #, (-8292395461171265) @ (-49)));
  (105%N, (#, #, #, (-8910859197905059) @ (-49)));
  (106%N, ((-7298665317991735) @ (-49), #, #, (-3951094144080465) @ (-48)));
  (108%N, ((-889038822504283) @ (-46), (-4900481986245441) @ (-49), (-2419487531039581) @ (-48), (-6100538820937791) @ (-49)));
  (111%N, (#, #, #, (-8292395461171265) @ (-49)));
  (112%N, (#, #, #, (-4048158111928321) @ (-48)));
  (114%N, ((-7453534702421163) @ (-49), (-3460130938885339) @ (-48), (-3279437408862637) @ (-48), (-3192782553928043) @ (-48)));
  (118%N, (#, #, #, (-302852298247679) @ (-44)));
  (124%N, (#, #, #, (-302852298247679) @ (-44)));
  (125%N, (#, #, #, (-8064138897447807) @ (-49)));
  (135%N, ((-546860929579423) @ (-45), #, #, (-7706109050846307) @ (-49)));
  (137%N, ((-4426206392587813) @ (-48), #, (-7250871180066637) @ (-49), (-7307683484381827) @ (-49)));
  (138%N, (#, #, #, (-8205616343142647) @ (-49)));
  (145%N, (#, #, #, (-4392620273043229) @ (-48)));
  (146%N, (#, #, #, (-2130163006223681) @ (-47)));
  (147%N, (#, #, (-2017999609788739) @ (-47), (-4170689255897351) @ (-48)));
  (150%N, (#, #, #, (-302852298247679) @ (-44)));
  (151%N, (#, #, #, (-3767970024052643) @ (-48)));
  (152%N, (#, #, (-3984680263625049) @ (-48), (-7689790518313711) @ (-49)));
  (154%N, (#, #, (-863557268122675) @ (-46), (-6786983603534937) @ (-49)));
  (160%N, (#, #, #, (-302852298247679) @ (-44)));
  (161%N, (#, #, #, (-70881326618687) @ (-42)));
  (164%N, (#, #, #, (-4650533185457697) @ (-48)));
  (165%N, (#, #, #, (-8205616343142647) @ (-49)));
  (169%N, ((-609902861438431) @ (-45), (-3887923857524803) @ (-48), (-7579153354239763) @ (-49), (-7614619027055453) @ (-49)));
  (175%N, ((-8100873996841253) @ (-49), (-3172210053778219) @ (-48), (-834728907770341) @ (-46), (-6438744437682999) @ (-49)));
  (178%N, (#, #, #, (-8395033373076123) @ (-49)));
  (180%N, ((-3005159387431689) @ (-48), (-2419613202650515) @ (-48), (-5528296476216021) @ (-49), (-3067005369310709) @ (-48)));
  (185%N, (#, #, #, (-7951171338784367) @ (-49)));
  (186%N, (#, #, #, (-4227173035229071) @ (-48)));
  (187%N, (#, (-1725734743489383) @ (-47), (-6551267270149819) @ (-49), (-7139646870377641) @ (-49)));
  (188%N, (#, #, #, (-7795654513279065) @ (-49)));
  (191%N, (#, #, (-7667890561037021) @ (-49), (-4048158111928321) @ (-48)));
  (193%N, (#, #, #, (-3733460538297031) @ (-48)));
  (194%N, ((-3638841694013343) @ (-48), #, (-7681791266144621) @ (-49), (-1777541578842475) @ (-47)));
  (195%N, (#, #, #, (-4650533185457697) @ (-48)));
  (200%N, (#, #, #, (-70881326618687) @ (-42)));
  (201%N, (#, #, #, (-4650533185457697) @ (-48)));
  (203%N, (#, #, #, (-70881326618687) @ (-42)));
  (211%N, ((-5877662259288811) @ (-49), #, #, (-472560260360877) @ (-45)));
  (214%N, (#, #, #, (-4650533185457697) @ (-48)));
  (215%N, ((-4204275375441935) @ (-48), (-7082212487057555) @ (-49), (-1673051308334307) @ (-47), (-7029990791577139) @ (-49)));
  (217%N, ((-571248877892569) @ (-45), (-8871297742822353) @ (-49), (-3984680263625049) @ (-48), (-1853809505254573) @ (-47)));
  (218%N, (#, #, (-4684119305002281) @ (-48), (-7628871685880939) @ (-49)));
  (223%N, (#, #, #, (-4650533185457697) @ (-48)));
  (229%N, (#, #, (-985322676152685) @ (-46), (-1969801887061797) @ (-47)));
  (230%N, ((-4684119305002281) @ (-48), #, #, (-3408440888610819) @ (-48)));
  (235%N, (#, #, #, (-302852298247679) @ (-44)));
  (237%N, (#, #, #, (-70881326618687) @ (-42)));
  (239%N, ((-609902861438431) @ (-45), #, (-2078626915425975) @ (-47), (-70881326618687) @ (-42)));
  (242%N, ((-7502517753044599) @ (-49), (-491414177067389) @ (-45), (-7231568147748981) @ (-49), (-850842282548523) @ (-46)));
  (244%N, (#, #, (-3921870937715749) @ (-48), (-1994339944854797) @ (-47)));
  (246%N, (#, #, #, (-8064138897447807) @ (-49)));
  (247%N, (#, #, #, (-302852298247679) @ (-44)));
  (248%N, ((-3984680263625049) @ (-48), #, (-609902861438431) @ (-45), (-7425201997121977) @ (-49)));
  (249%N, ((-1575803155951081) @ (-47), (-3195267673917071) @ (-48), (-1326812019239259) @ (-47), (-5775086610730313) @ (-49)));
  (250%N, ((-7681791266144621) @ (-49), (-6808895884777563) @ (-49), (-3470737221580077) @ (-48), (-3688528646784237) @ (-48)))].

(** prob_emit.py, characters 0x9e00 to 0x9eff *)
Definition emit_9e : list (N * num4) := [
  (2%N, (#, #, #, (-2130163006223681) @ (-47)));
  (7%N, (#, #, #, (-302852298247679) @ (-44)));
  (9%N, (#, #, #, (-302852298247679) @ (-44)));
  (10%N, (#, #, #, (-4650533185457697) @ (-48)));
  (15%N, (#, #, #, (-302852298247679) @ (-44)));
  (17%N, (#, #, #, (-1877995278787649) @ (-47)));
  (19%N, (#, #, #, (-8395033373076123) @ (-49)));
  (20%N, (#, #, #, (-8130444851884389) @ (-49)));
  (21%N, ((-7696043924970107) @ (-49), #, #, (-1745563646303515) @ (-47)));
  (26%N, ((-3293170619185937) @ (-48), (-1925169055947837) @ (-47), (-609902861438431) @ (-45), (-7600718321947853) @ (-49)));
  (27%N, ((-8359567700260433) @ (-49), (-3982632372491541) @ (-48), (-7556172614326021) @ (-49), (-1893476528496951) @ (-47)));
  (28%N, (#, #, #, (-4227173035229071) @ (-48)));
  (29%N, (#, (-8871297742822353) @ (-49), (-7502517753044599) @ (-49), (-8064138897447807) @ (-49)));
  (30%N, ((-8233949048441833) @ (-49), (-3518576224250511) @ (-48), (-6857400519925933) @ (-49), (-3291483688698791) @ (-48)));
  (31%N, ((-2657484923529803) @ (-48), (-1412762123656457) @ (-47), (-5451248036482201) @ (-49), (-5175153393474945) @ (-49)));
  (32%N, ((-2011133004627089) @ (-47), (-7575057571972747) @ (-49), (-3502711984534253) @ (-48), (-743894052888657) @ (-46)));
  (33%N, ((-2593145781599953) @ (-48), (-5121727272460953) @ (-49), (-2618955158088877) @ (-48), (-5054133910353787) @ (-49)));
  (34%N, ((-3903704958981611) @ (-48), #, (-4260759154773655) @ (-48), (-7658507473194481) @ (-49)));
  (35%N, ((-5826921547368603) @ (-49), (-5248067192736223) @ (-49), (-5250698865066333) @ (-49), (-5672448698825455) @ (-49)));
  (36%N, (#, #, #, (-4392620273043229) @ (-48)));
  (37%N, ((-4204275375441935) @ (-48), (-7082212487057555) @ (-49), (-1673051308334307) @ (-47), (-7029990791577139) @ (-49)));
  (38%N, ((-5656684496604441) @ (-49), (-6838531672091105) @ (-49), (-3163400814764593) @ (-48), (-6592047412203725) @ (-49)));
  (40%N, ((-7545024726212017) @ (-49), #, (-454428729292475) @ (-45), (-3767970024052643) @ (-48)));
  (41%N, ((-985322676152685) @ (-46), (-7346801008249289) @ (-49), #, (-6878093127173811) @ (-49)));
  (42%N, (#, (-7310469050781013) @ (-49), (-5878805305272223) @ (-49), (-3767970024052643) @ (-48)));
  (43%N, ((-546860929579423) @ (-45), #, #, (-7706109050846307) @ (-49)));
  (44%N, ((-7696043924970107) @ (-49), #, #, (-1745563646303515) @ (-47)));
  (45%N, ((-2880975246076593) @ (-48), (-778145317480215) @ (-46), (-6551267270149819) @ (-49), (-172648460886377) @ (-44)));
  (46%N, (#, #, #, (-456223959081461) @ (-45)));
  (47%N, (#, (-1578412539191041) @ (-47), (-6006717035428063) @ (-49), (-3728098948061275) @ (-48)));
  (48%N, (#, #, #, (-8166776809352665) @ (-49)));
  (49%N, ((-6588355372733015) @ (-49), #, #, (-7350030505863719) @ (-49)));
  (50%N, ((-4684119305002281) @ (-48), #, #, (-7706109050846307) @ (-49)));
  (51%N, ((-2988328971428919) @ (-48), (-6838531672091105) @ (-49), (-8462205612165291) @ (-49), (-3630371905756697) @ (-48)));
  (53%N, ((-7219057633931153) @ (-49), #, (-609902861438431) @ (-45), (-6973174550407917) @ (-49)));
  (54%N, (#, #, (-985322676152685) @ (-46), (-1969801887061797) @ (-47)));
  (55%N, ((-571248877892569) @ (-45), (-8871297742822353) @ (-49), (-3984680263625049) @ (-48), (-1853809505254573) @ (-47)));
  (56%N, ((-2017999609788739) @ (-47), #, #, (-1969801887061797) @ (-47)));
  (57%N, (#, #, (-985322676152685) @ (-46), (-3733460538297031) @ (-48)));
  (58%N, (#, #, (-609902861438431) @ (-45), (-7435345513955431) @ (-49)));
  (59%N, (#, #, #, (-8292395461171265) @ (-49)));
  (61%N, ((-6162005437333793) @ (-49), (-3760701355345663) @ (-48), (-3084812928816481) @ (-48), (-1683626615562721) @ (-47)));
  (62%N, ((-8233949048441833) @ (-49), (-3518576224250511) @ (-48), (-6857400519925933) @ (-49), (-3291483688698791) @ (-48)));
  (63%N, ((-6232466022829815) @ (-49), (-8019076307196623) @ (-50), (-356403242499351) @ (-45), (-5299020172761087) @ (-49)));
  (64%N, (#, #, #, (-70881326618687) @ (-42)));
  (65%N, ((-238379262651975) @ (-44), #, #, (-239810366388671) @ (-44)));
  (66%N, (#, (-8871297742822353) @ (-49), (-7502517753044599) @ (-49), (-8064138897447807) @ (-49)));
  (67%N, (#, (-630864537489647) @ (-46), (-5514650374228293) @ (-49), (-3089704493416357) @ (-48)));
  (68%N, (#, (-7310469050781013) @ (-49), (-3801556143597227) @ (-48), (-6622611700393137) @ (-49)));
  (69%N, ((-811944417774287) @ (-46), (-4687181329350755) @ (-49), (-2986970826566149) @ (-48), (-6001737039403017) @ (-49)));
  (70%N, (#, #, (-4684119305002281) @ (-48), (-456223959081461) @ (-45)));
  (71%N, (#, #, (-3921870937715749) @ (-48), (-1994339944854797) @ (-47)));
  (72%N, ((-3912641423100301) @ (-48), #, #, (-1994339944854797) @ (-47)));
  (73%N, (#, (-1648815554978729) @ (-47), (-3408305968228237) @ (-48), (-4170689255897351) @ (-48)));
  (74%N, ((-7453534702421163) @ (-49), (-3460130938885339) @ (-48), (-3279437408862637) @ (-48), (-3192782553928043) @ (-48)));
  (75%N, (#, #, (-2017999609788739) @ (-47), (-4170689255897351) @ (-48)));
  (76%N, ((-7298665317991735) @ (-49), #, #, (-3951094144080465) @ (-48)));
  (77%N, (#, #, #, (-4650533185457697) @ (-48)));
  (78%N, (#, #, #, (-8292395461171265) @ (-49)));
  (79%N, ((-889038822504283) @ (-46), (-4900481986245441) @ (-49), (-2419487531039581) @ (-48), (-6100538820937791) @ (-49)));
  (80%N, (#, #, #, (-8910859197905059) @ (-49)));
  (81%N, ((-4426206392587813) @ (-48), #, (-7250871180066637) @ (-49), (-7307683484381827) @ (-49)));
  (85%N, (#, #, (-3984680263625049) @ (-48), (-7689790518313711) @ (-49)));
  (86%N, (#, #, #, (-70881326618687) @ (-42)));
  (87%N, (#, #, (-863557268122675) @ (-46), (-6786983603534937) @ (-49)));
  (88%N, (#, (-1725734743489383) @ (-47), (-6551267270149819) @ (-49), (-7139646870377641) @ (-49)));
  (90%N, (#, #, (-7667890561037021) @ (-49), (-4048158111928321) @ (-48)));
  (91%N, (#, #, #, (-8205616343142647) @ (-49)));
  (92%N, ((-609902861438431) @ (-45), (-3887923857524803) @ (-48), (-7579153354239763) @ (-49), (-7614619027055453) @ (-49)));
  (94%N, ((-3638841694013343) @ (-48), #, (-7681791266144621) @ (-49), (-1777541578842475) @ (-47)));
  (95%N, (#, #, #, (-8395033373076123) @ (-49)));
  (96%N, (#, #, #, (-4297911758076491) @ (-48)));
  (97%N, (#, #, #, (-8205616343142647) @ (-49)));
  (98%N, (#, #, #, (-8910859197905059) @ (-49)));
  (99%N, (#, #, #, (-7795654513279065) @ (-49)));
  (100%N, ((-3005159387431689) @ (-48), (-2419613202650515) @ (-48), (-5528296476216021) @ (-49), (-5840388193886345) @ (-49)));
  (101%N, (#, #, #, (-4650533185457697) @ (-48)));
  (102%N, ((-3293170619185937) @ (-48), (-1925169055947837) @ (-47), (-609902861438431) @ (-45), (-7600718321947853) @ (-49)));
  (103%N, ((-5877662259288811) @ (-49), #, #, (-472560260360877) @ (-45)));
  (104%N, (#, #, (-4684119305002281) @ (-48), (-7628871685880939) @ (-49)));
  (105%N, ((-609902861438431) @ (-45), #, (-2078626915425975) @ (-47), (-8064138897447807) @ (-49)));
  (106%N, ((-4684119305002281) @ (-48), #, #, (-3408440888610819) @ (-48)));
  (107%N, ((-7502517753044599) @ (-49), (-491414177067389) @ (-45), (-7231568147748981) @ (-49), (-850842282548523) @ (-46)));
  (108%N, ((-3984680263625049) @ (-48), #, (-609902861438431) @ (-45), (-7425201997121977) @ (-49)));
  (109%N, ((-7681791266144621) @ (-49), (-6808895884777563) @ (-49), (-3470737221580077) @ (-48), (-3688528646784237) @ (-48)));
  (110%N, (#, #, #, (-7951171338784367) @ (-49)));
  (111%N, (#, #, #, (-302852298247679) @ (-44)));
  (112%N, ((-1575803155951081) @ (-47), (-3195267673917071) @ (-48), (-1326812019239259) @ (-47), (-5775086610730313) @ (-49)));
  (113%N, (#, #, #, (-7628871685880939) @ (-49)));
  (114%N, (#, #, #, (-271331332318175) @ (-44)));
  (115%N, ((-8359567700260433) @ (-49), (-3982632372491541) @ (-48), (-7556172614326021) @ (-49), (-1893476528496951) @ (-47)));
  (117%N, ((-5852538855913737) @ (-49), (-6886133249742931) @ (-49), (-1998329865051197) @ (-47), (-5943869657201091) @ (-49)));
  (121%N, (#, #, #, (-8292395461171265) @ (-49)));
  (122%N, (#, #, #, (-7628871685880939) @ (-49)));
  (124%N, ((-1489478381383599) @ (-47), (-5809931249162639) @ (-49), (-347470979547401) @ (-45), (-3452684697072041) @ (-48)));
  (125%N, ((-5259960295273993) @ (-49), (-350955851614551) @ (-45), (-2635464537059719) @ (-48), (-4964277453669411) @ (-49)));
  (126%N, (#, #, #, (-7628871685880939) @ (-49)));
  (127%N, ((-2483030820798161) @ (-48), (-321957756162745) @ (-45), (-319609974503607) @ (-45), (-5466366756092459) @ (-49)));
  (130%N, ((-7924300488693565) @ (-49), #, (-546860929579423) @ (-45), (-3612205927022559) @ (-48)));
  (132%N, (#, #, #, (-302852298247679) @ (-44)));
  (133%N, (#, #, #, (-4650533185457697) @ (-48)));
  (135%N, (#, #, (-571248877892569) @ (-45), (-1969801887061797) @ (-47)));
  (136%N, (#, (-8871297742822353) @ (-49), #, (-2001206550016447) @ (-47)));
  (139%N, ((-5436453568259825) @ (-49), #, #, (-3879055303555717) @ (-48)));
  (144%N, (#, #, #, (-1969801887061797) @ (-47)));
  (145%N, (#, #, #, (-4650533185457697) @ (-48)));
  (146%N, ((-6968563171774189) @ (-49), (-3076599374652271) @ (-48), (-1826459187989943) @ (-47), (-6517162045451459) @ (-49)));
  (147%N, (#, (-6703857329774499) @ (-49), (-2770041593398419) @ (-48), (-3256584737927489) @ (-48)));
  (149%N, (#, #, #, (-4227173035229071) @ (-48)));
  (150%N, (#, #, #, (-4650533185457697) @ (-48)));
  (151%N, ((-1368061727260891) @ (-47), (-7365267594196719) @ (-50), (-8675470202296267) @ (-50), (-5726326997281241) @ (-49)));
  (156%N, (#, #, #, (-8130444851884389) @ (-49)));
  (157%N, ((-3442027008155403) @ (-48), #, #, (-3172887456252975) @ (-48)));
  (159%N, ((-8197617090973557) @ (-49), (-5861143807466207) @ (-49), (-2873860538496537) @ (-48), (-7104451038327115) @ (-49)));
  (163%N, (#, #, #, (-8910859197905059) @ (-49)));
  (165%N, ((-631534464871731) @ (-46), (-624459537840653) @ (-46), (-1252169314048277) @ (-47), (-5592605396909211) @ (-49)));
  (166%N, ((-631534464871731) @ (-46), (-624459537840653) @ (-46), (-1252169314048277) @ (-47), (-5592605396909211) @ (-49)));
  (169%N, ((-3984680263625049) @ (-48), #, (-8197617090973557) @ (-49), (-7835882333724349) @ (-49)));
  (175%N, (#, #, #, (-302852298247679) @ (-44)));
  (180%N, (#, #, #, (-4227173035229071) @ (-48)));
  (181%N, (#, #, #, (-4392620273043229) @ (-48)));
  (184%N, ((-3984680263625049) @ (-48), #, (-8197617090973557) @ (-49), (-7835882333724349) @ (-49)));
  (185%N, (#, #, #, (-4227173035229071) @ (-48)));
  (187%N, ((-4594475580785003) @ (-49), (-2254165964836357) @ (-48), (-1289799867056853) @ (-47), (-5480484379688635) @ (-49)));
  (188%N, ((-1975763643203379) @ (-47), (-8158279553117715) @ (-50), (-1518405591635429) @ (-48), (-8872831013294947) @ (-50)));
  (189%N, (#, #, #, (-776529182076135) @ (-46)));
  (190%N, ((-3204999881453659) @ (-48), #, #, (-7332707602050573) @ (-49)));
  (191%N, (#, #, (-2146956065995973) @ (-47), (-8166776809352665) @ (-49)));
  (192%N, (#, #, #, (-302852298247679) @ (-44)));
  (195%N, ((-8100873996841253) @ (-49), (-2299298408531993) @ (-48), (-2567514060682281) @ (-48), (-8898987834409589) @ (-50)));
  (196%N, ((-3412487376350745) @ (-49), (-2299298408531993) @ (-48), (-2567514060682281) @ (-48), (-8898987834409589) @ (-50)));
  (197%N, (#, #, #, (-2001206550016447) @ (-47)));
  (200%N, (#, #, #, (-302852298247679) @ (-44)));
  (201%N, (#, #, #, (-4392620273043229) @ (-48)));
  (204%N, (#, #, #, (-4392620273043229) @ (-48)));
  (205%N, ((-4260759154773655) @ (-48), #, (-2078626915425975) @ (-47), (-6771034946149301) @ (-49)));
  (206%N, ((-637621416280995) @ (-46), (-2275044154562581) @ (-48), (-157537021205313) @ (-44), (-5992195286339767) @ (-49)));
  (207%N, ((-1605470763190823) @ (-47), #, #, (-1713930327752905) @ (-47)));
  (208%N, (#, #, #, (-1930728693765227) @ (-47)));
  (209%N, ((-2041036333633883) @ (-48), (-623033577310821) @ (-46), (-5159040150282831) @ (-49), (-8875419518951679) @ (-50)));
  (210%N, (#, #, #, (-302852298247679) @ (-44)));
  (211%N, (#, #, #, (-302852298247679) @ (-44)));
  (212%N, ((-3312949639450323) @ (-48), (-1688482578221107) @ (-47), (-222100499235933) @ (-44), (-5826120483124295) @ (-49)));
  (216%N, ((-2590731816094841) @ (-48), (-2267953729860227) @ (-48), (-5009653752454295) @ (-49), (-1521362620456101) @ (-47)));
  (218%N, (#, #, #, (-8395033373076123) @ (-49)));
  (219%N, ((-2921666078984049) @ (-48), (-675653338708871) @ (-46), (-7219057633931153) @ (-49), (-820111009844349) @ (-46)));
  (220%N, ((-8978031436994227) @ (-49), (-3478296917619477) @ (-48), (-6687373015225979) @ (-49), (-1797570806504343) @ (-47)));
  (221%N, ((-6873910499477351) @ (-49), (-375889304995713) @ (-45), (-6901376920123951) @ (-49), (-3888284818171165) @ (-48)));
  (222%N, ((-4243843015947233) @ (-49), (-3945725496292743) @ (-49), (-1686468144775379) @ (-48), (-2130163006223681) @ (-47)));
  (223%N, ((-483818997720415) @ (-45), #, #, (-2130163006223681) @ (-47)));
  (224%N, ((-7556172614326021) @ (-49), #, (-7212905114184119) @ (-49), (-8064138897447807) @ (-49)));
  (226%N, (#, (-7244163096344431) @ (-49), (-8131311136536975) @ (-49), (-4392620273043229) @ (-48)));
  (229%N, (#, #, #, (-7500373488380235) @ (-49)));
  (231%N, ((-7615485311708039) @ (-49), #, #, (-4170689255897351) @ (-48)));
  (232%N, ((-8636310848008731) @ (-50), (-8323161810008979) @ (-50), (-3897575120536487) @ (-49), (-1006912066498183) @ (-47)));
  (233%N, ((-8462205612165291) @ (-49), (-3638170211376633) @ (-48), #, (-8910859197905059) @ (-49)));
  (238%N, (#, #, #, (-2130163006223681) @ (-47)));
  (239%N, ((-6096857058683651) @ (-49), #, #, (-7425201997121977) @ (-49)));
  (244%N, ((-6313024636091883) @ (-49), (-328629968818505) @ (-45), (-5997458952775391) @ (-49), (-3165594950523267) @ (-48)));
  (245%N, (#, #, #, (-70881326618687) @ (-42)));
  (247%N, ((-8462205612165291) @ (-49), (-3638170211376633) @ (-48), #, (-8910859197905059) @ (-49)));
  (249%N, (#, #, (-8197617090973557) @ (-49), (-4392620273043229) @ (-48)));
  (250%N, (#, #, #, (-2001206550016447) @ (-47)));
  (251%N, (#, (-8871297742822353) @ (-49), #, (-7951171338784367) @ (-49)));
  (252%N, ((-609902861438431) @ (-45), #, #, (-6790228280836765) @ (-49)));
  (253%N, ((-571248877892569) @ (-45), #, (-2146956065995973) @ (-47), (-7121773942140261) @ (-49)));
  (254%N, ((-571248877892569) @ (-45), #, (-2146956065995973) @ (-47), (-7121773942140261) @ (-49)));
  (255%N, ((-2078626915425975) @ (-47), #, #, (-3422430101659097) @ (-48)))].

(** prob_emit.py, characters 0x9f00 to 0x9fff *)
Definition emit_9f : list (N * num4) := [
  (2%N, (#, #, #, (-8033701757752085) @ (-49)));
  (8%N, (#, #, #, (-302852298247679) @ (-44)));
  (9%N, (#, #, #, (-7082153075881451) @ (-49)));
  (11%N, ((-2078626915425975) @ (-47), #, #, (-3422430101659097) @ (-48)));
  (13%N, (#, #, #, (-7082153075881451) @ (-49)));
  (14%N, ((-2986632311820945) @ (-48), (-328629968818505) @ (-45), (-5610084238336311) @ (-49), (-5809349290420419) @ (-49)));
  (16%N, (#, (-6397442795887179) @ (-49), (-3099578987847313) @ (-48), (-6662660579338687) @ (-49)));
  (19%N, ((-594782511943095) @ (-46), (-5020412392782969) @ (-49), (-5326004274053277) @ (-49), (-2624424630733901) @ (-48)));
  (23%N, (#, #, (-4684119305002281) @ (-48), (-7435345513955431) @ (-49)));
  (25%N, (#, #, #, (-1828975469458993) @ (-47)));
  (26%N, (#, #, #, (-302852298247679) @ (-44)));
  (32%N, ((-6167711060026959) @ (-49), (-5631102931778521) @ (-49), (-695307934318799) @ (-46), (-2948682151732233) @ (-48)));
  (34%N, ((-8462205612165291) @ (-49), #, #, #));
  (41%N, (#, #, #, (-7835882333724349) @ (-49)));
  (44%N, ((-985322676152685) @ (-46), #, (-1910269588269243) @ (-47), (-7145732875094951) @ (-49)));
  (47%N, ((-8233949048441833) @ (-49), #, #, (-1994339944854797) @ (-47)));
  (49%N, (#, #, #, (-4297911758076491) @ (-48)));
  (50%N, (#, #, #, (-4650533185457697) @ (-48)));
  (51%N, (#, #, #, (-302852298247679) @ (-44)));
  (52%N, ((-2017999609788739) @ (-47), #, (-2078626915425975) @ (-47), (-70881326618687) @ (-42)));
  (55%N, ((-609902861438431) @ (-45), #, #, (-7835882333724349) @ (-49)));
  (56%N, (#, #, #, (-4650533185457697) @ (-48)));
  (57%N, ((-2017999609788739) @ (-47), #, (-2078626915425975) @ (-47), (-8292395461171265) @ (-49)));
  (59%N, ((-317575422769389) @ (-45), (-5483130973059873) @ (-49), (-6165802753272751) @ (-49), (-5483350892009929) @ (-49)));
  (62%N, ((-6761857563197751) @ (-49), #, (-7284590836079723) @ (-49), (-472560260360877) @ (-45)));
  (64%N, (#, #, #, (-302852298247679) @ (-44)));
  (65%N, (#, #, #, (-2130163006223681) @ (-47)));
  (68%N, (#, #, #, (-271331332318175) @ (-44)));
  (70%N, (#, #, #, (-7835882333724349) @ (-49)));
  (73%N, (#, #, #, (-4650533185457697) @ (-48)));
  (74%N, ((-4637508702760729) @ (-49), (-4750207430391455) @ (-49), (-2377066239153853) @ (-48), (-2481061369985469) @ (-48)));
  (75%N, ((-3088675424783151) @ (-48), (-6301798141036885) @ (-49), (-5700364558527349) @ (-49), (-5637374730603399) @ (-49)));
  (76%N, (#, #, #, (-4650533185457697) @ (-48)));
  (77%N, (#, #, #, (-4227173035229071) @ (-48)));
  (78%N, (#, #, #, (-1893476528496951) @ (-47)));
  (79%N, ((-3903704958981611) @ (-48), #, #, (-7706109050846307) @ (-49)));
  (80%N, ((-4637508702760729) @ (-49), (-4750207430391455) @ (-49), (-2377066239153853) @ (-48), (-2481061369985469) @ (-48)));
  (81%N, ((-3903704958981611) @ (-48), #, #, (-7706109050846307) @ (-49)));
  (82%N, ((-396226602838595) @ (-45), (-5719666361771367) @ (-49), (-655175364355825) @ (-46), (-2837792459188277) @ (-48)));
  (84%N, (#, #, (-2146956065995973) @ (-47), (-7050279472141661) @ (-49)));
  (85%N, (#, #, #, (-2130163006223681) @ (-47)));
  (89%N, ((-8978031436994227) @ (-49), #, #, (-8064138897447807) @ (-49)));
  (91%N, (#, #, #, (-70881326618687) @ (-42)));
  (92%N, ((-7725679712283649) @ (-49), #, #, (-3464924667942539) @ (-48)));
  (95%N, ((-7654324845498021) @ (-49), #, #, (-7029990791577139) @ (-49)));
  (96%N, (#, #, (-571248877892569) @ (-45), (-7139646870377641) @ (-49)));
  (97%N, ((-4204275375441935) @ (-48), (-2617347415562197) @ (-48), (-4744897275376705) @ (-49), (-4650533185457697) @ (-48)));
  (99%N, (#, #, #, (-2130163006223681) @ (-47)));
  (102%N, (#, (-3817185134677383) @ (-48), (-7097163030666307) @ (-49), (-1809666128217651) @ (-47)));
  (103%N, (#, #, #, (-4650533185457697) @ (-48)));
  (104%N, (#, #, #, (-302852298247679) @ (-44)));
  (106%N, (#, #, (-903159767337213) @ (-46), (-302852298247679) @ (-44)));
  (107%N, (#, #, #, (-302852298247679) @ (-44)));
  (108%N, (#, #, (-7654324845498021) @ (-49), (-3543822657056257) @ (-48)));
  (110%N, (#, #, #, (-302852298247679) @ (-44)));
  (112%N, (#, #, #, (-302852298247679) @ (-44)));
  (114%N, ((-1839692586196131) @ (-47), #, (-8197617090973557) @ (-49), (-6541731033373189) @ (-49)));
  (115%N, (#, #, #, (-302852298247679) @ (-44)));
  (119%N, ((-3667736269636657) @ (-48), (-7310469050781013) @ (-49), #, (-302852298247679) @ (-44)));
  (120%N, (#, #, #, (-70881326618687) @ (-42)));
  (121%N, (#, #, #, (-6527269138361157) @ (-49)));
  (127%N, ((-396226602838595) @ (-45), (-5719666361771367) @ (-49), (-655175364355825) @ (-46), (-2837792459188277) @ (-48)));
  (128%N, (#, #, (-2146956065995973) @ (-47), (-7050279472141661) @ (-49)));
  (129%N, (#, #, #, (-2130163006223681) @ (-47)));
  (130%N, (#, #, #, (-302852298247679) @ (-44)));
  (131%N, ((-7654324845498021) @ (-49), #, #, (-7029990791577139) @ (-49)));
  (132%N, ((-4204275375441935) @ (-48), (-2617347415562197) @ (-48), (-4744897275376705) @ (-49), (-5995357934845751) @ (-49)));
  (133%N, ((-8978031436994227) @ (-49), #, #, (-405138068737789) @ (-45)));
  (134%N, (#, #, (-571248877892569) @ (-45), (-7139646870377641) @ (-49)));
  (135%N, ((-7725679712283649) @ (-49), #, #, (-3464924667942539) @ (-48)));
  (136%N, (#, (-3817185134677383) @ (-48), (-7097163030666307) @ (-49), (-1809666128217651) @ (-47)));
  (137%N, (#, #, (-7654324845498021) @ (-49), (-3543822657056257) @ (-48)));
  (138%N, (#, #, (-903159767337213) @ (-46), (-7307683484381827) @ (-49)));
  (139%N, ((-1839692586196131) @ (-47), #, (-8197617090973557) @ (-49), (-6541731033373189) @ (-49)));
  (140%N, ((-3667736269636657) @ (-48), (-7310469050781013) @ (-49), #, (-456223959081461) @ (-45)));
  (141%N, ((-8886136207867449) @ (-50), (-7595506367003) @ (-40), (-4132805031778991) @ (-49), (-1138359033492307) @ (-47)));
  (142%N, (#, #, #, (-4650533185457697) @ (-48)));
  (143%N, (#, #, #, (-302852298247679) @ (-44)));
  (144%N, ((-2458468638815963) @ (-48), (-2973961462747413) @ (-48), (-6437098842625111) @ (-49), (-1561772752815323) @ (-47)));
  (145%N, (#, #, (-609902861438431) @ (-45), #));
  (148%N, ((-336260854728657) @ (-45), (-3982632372491541) @ (-48), (-4260759154773655) @ (-48), (-7658507473194481) @ (-49)));
  (149%N, (#, #, (-3582982720657843) @ (-48), (-6268575434941977) @ (-49)));
  (153%N, ((-8886136207867449) @ (-50), (-7595506367003) @ (-40), (-4132805031778991) @ (-49), (-1138359033492307) @ (-47)));
  (154%N, ((-336260854728657) @ (-45), (-3982632372491541) @ (-48), (-4260759154773655) @ (-48), (-3390274909876681) @ (-48)));
  (155%N, (#, #, (-3582982720657843) @ (-48), (-3323653223520611) @ (-48)));
  (156%N, ((-1533353447885147) @ (-47), (-778145317480215) @ (-46), (-5952670647560727) @ (-49), (-366249521842579) @ (-45)));
  (159%N, ((-1533353447885147) @ (-47), (-778145317480215) @ (-46), (-5952670647560727) @ (-49), (-366249521842579) @ (-45)));
  (160%N, (#, #, #, (-4392620273043229) @ (-48)));
  (162%N, (#, #, #, (-5978179210814011) @ (-49)))].

(** all of prob_emit.py, by upper byte *)
Definition emit_table : list (N * list (N * num4)) := [
  (34%N, emit_22);
  (78%N, emit_4e);
  (79%N, emit_4f);
  (80%N, emit_50);
  (81%N, emit_51);
  (82%N, emit_52);
  (83%N, emit_53);
  (84%N, emit_54);
  (85%N, emit_55);
  (86%N, emit_56);
  (87%N, emit_57);
  (88%N, emit_58);
  (89%N, emit_59);
  (90%N, emit_5a);
  (91%N, emit_5b);
  (92%N, emit_5c);
  (93%N, emit_5d);
  (94%N, emit_5e);
  (95%N, emit_5f);
  (96%N, emit_60);
  (97%N, emit_61);
  (98%N, emit_62);
  (99%N, emit_63);
  (100%N, emit_64);
  (101%N, emit_65);
  (102%N, emit_66);
  (103%N, emit_67);
  (104%N, emit_68);
  (105%N, emit_69);
  (106%N, emit_6a);
  (107%N, emit_6b);
  (108%N, emit_6c);
  (109%N, emit_6d);
  (110%N, emit_6e);
  (111%N, emit_6f);
  (112%N, emit_70);
  (113%N, emit_71);
  (114%N, emit_72);
  (115%N, emit_73);
  (116%N, emit_74);
  (117%N, emit_75);
  (118%N, emit_76);
  (119%N, emit_77);
  (120%N, emit_78);
  (121%N, emit_79);
  (122%N, emit_7a);
  (123%N, emit_7b);
  (124%N, emit_7c);
  (125%N, emit_7d);
  (126%N, emit_7e);
  (127%N, emit_7f);
  (128%N, emit_80);
  (129%N, emit_81);
  (130%N, emit_82);
  (131%N, emit_83);
  (132%N, emit_84);
  (133%N, emit_85);
  (134%N, emit_86);
  (135%N, emit_87);
  (136%N, emit_88);
  (137%N, emit_89);
  (138%N, emit_8a);
  (139%N, emit_8b);
  (140%N, emit_8c);
  (141%N, emit_8d);
  (142%N, emit_8e);
  (143%N, emit_8f);
  (144%N, emit_90);
  (145%N, emit_91);
  (146%N, emit_92);
  (147%N, emit_93);
  (148%N, emit_94);
  (149%N, emit_95);
  (150%N, emit_96);
  (151%N, emit_97);
  (152%N, emit_98);
  (153%N, emit_99);
  (154%N, emit_9a);
  (155%N, emit_9b);
  (156%N, emit_9c);
  (157%N, emit_9d);
  (158%N, emit_9e);
  (159%N, emit_9f)].
